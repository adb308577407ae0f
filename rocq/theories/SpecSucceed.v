(** * SpecSucceed: which builder programs succeed, said of the list of calls. *)
From Coq Require Import List.
From Verif Require Import Base Enums Buffer Ether Ipv4 Ip Udp Tcp Icmp Builders Spec SpecCalls SpecBuild SpecProfile SpecShift.

(** [payload(p)], on a builder of any type that has it. *)
Definition payload_of (c : call) : option bytes :=
  match c with
  | CallEther (EtherPayload p) | CallV4 (V4Payload p) | CallUdp (UdpPayload p) | CallTcp (TcpPayload p) | CallEcho (EchoPayload p) => Some p
  | _ => None
  end.
(** Going on to the builder of the layer inside an Ethernet or IPv4 one. *)
Definition goes_inside (c : call) : Prop :=
  match c with CallEtherIp | CallV4Udp | CallV4Tcp | CallV4Icmp => True | _ => False end.
Definition calls_flags (c : call) : Prop := match c with CallTcp (TcpSet (TcpSetFlags _)) => True | _ => False end.
Definition calls_tcp_setter (c : call) : Prop := match c with CallTcp (TcpSet _) => True | _ => False end.
(** What may come, at any distance, after a call: after a payload no other
    payload and no inner layer; after TCP [flags] no other TCP setter. *)
Definition may_follow (c c' : call) : Prop :=
  (payload_of c <> None -> payload_of c' = None /\ ~ goes_inside c') /\
  (calls_flags c -> ~ calls_tcp_setter c').
(** [dscp] takes six bits, [ecn] two. *)
Definition value_fits (c : call) : Prop :=
  match c with CallV4 (V4Set (V4SetDscp v)) => v < 64 | CallV4 (V4Set (V4SetEcn v)) => v < 4 | _ => True end.
(** The payload given, empty if there is none. *)
Definition payload_given (cs : list call) : bytes :=
  match flat_map (fun c => match payload_of c with Some p => [p] | None => [] end) cs with p :: _ => p | [] => [] end.
Definition is_echo_kind (c : call) : Prop := c = CallEcho EchoRequest \/ c = CallEcho EchoReply.
Definition is_information_kind (c : call) : Prop := c = CallInformation InfoRequest \/ c = CallInformation InfoReply.
Definition is_timestamp_kind (c : call) : Prop := c = CallTimestamp TsRequest \/ c = CallTimestamp TsReply.
(** What [build] needs. *)
Definition can_finish (E : env) (o : opening) (cs : list call) (cl : closing) : Prop :=
  match cl with
  | ClEther => True
  | ClIp | ClV6 | ClIcmp => False
  (* the IPv4 builder counts a payload of its own in the header length, up into the
     version nibble; the Ethernet builder around it needs version 4 or 6 there *)
  | ClV4 => o = OpEther ->
      let w := (20 + len (payload_given cs)) / 4 mod 256 in
      w / 16 = 0 \/ w / 16 = 2 \/ w / 16 = 4 \/ w / 16 = 6
  | ClUdp => o <> OpUdp
  | ClTcp => o <> OpTcp /\ (cursor_eof E = EofSeek -> len (payload_given cs) mod 2 = 0)
  | ClEcho => Exists is_echo_kind cs
  | ClInformation => Exists is_information_kind cs
  | ClTimestamp => Exists is_timestamp_kind cs
  end.
Definition succeeds (E : env) (o : opening) (cs : list call) (cl : closing) : Prop :=
  Forall value_fits cs /\ ForallOrdPairs may_follow cs /\ can_finish E o cs cl.

(** The calls made on each layer. *)
Definition ether_calls (cs : list call) : list ether_op := flat_map (fun c => match c with CallEther o => [o] | _ => [] end) cs.
Definition v4_calls (cs : list call) : list v4_op := flat_map (fun c => match c with CallV4 o => [o] | _ => [] end) cs.
Definition udp_calls (cs : list call) : list udp_op := flat_map (fun c => match c with CallUdp o => [o] | _ => [] end) cs.
Definition tcp_calls (cs : list call) : list tcp_op := flat_map (fun c => match c with CallTcp o => [o] | _ => [] end) cs.
Definition echo_calls (cs : list call) : list echo_op := flat_map (fun c => match c with CallEcho o => [o] | _ => [] end) cs.
Definition information_calls (cs : list call) : list information_op := flat_map (fun c => match c with CallInformation o => [o] | _ => [] end) cs.
Definition timestamp_calls (cs : list call) : list timestamp_op := flat_map (fun c => match c with CallTimestamp o => [o] | _ => [] end) cs.
(** No [ecn], [flags] or [offset] on an IPv4 builder (see C14, C15). *)
Definition faithful_calls (cs : list call) : Prop := Forall v4_faithful (v4_setters (v4_calls cs)).

(** [out] read with the crate's parsers: an Ethernet frame around [ip] if the
    program began with an Ethernet builder, [ip] itself otherwise. *)
Definition frame_reads (o : opening) (cs : list call) (ip out : bytes) : Prop :=
  match o with OpEther => ether_reads (ether_calls cs) ET_Ipv4 ip out | _ => out = ip end.
(** And an ICMP message in an IPv4 packet, or on its own. *)
Definition message_reads (E : env) (o : opening) (cs : list call) (m out : bytes) : Prop :=
  match o with
  | OpEther | OpIp | OpV4 => exists ip, frame_reads o cs ip out /\ v4_reads E (v4_setters (v4_calls cs)) IP_Icmp m ip
  | _ => out = m
  end.
