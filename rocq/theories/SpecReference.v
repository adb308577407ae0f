(** * SpecReference: what a builder program means, without buffers and finalizers.

    A reference for the builders: a program is followed on a [draft], the header
    fields set so far, the payload if one was given, and the enclosing headers.
    Buffers, offsets, finalizer lists and the order in which lengths and
    checksums get written do not appear. *)
From Verif Require Import Base Enums Buffer Ether Ipv4 Ip Udp Tcp Icmp Builders Spec SpecCalls SpecBuild SpecProfile SpecShift.

(** An IPv4 header, with the Ethernet header around it if there is one. *)
Definition around := (option ether_fields * v4_fields)%type.
Inductive draft :=
| DraftEther (f : ether_fields) (p : option bytes)
| DraftIp (e : option ether_fields)
| DraftV6 (e : option ether_fields)
| DraftV4 (e : option ether_fields) (f : v4_fields) (p : option bytes)
| DraftUdp (a : option around) (f : udp_fields) (p : option bytes)
| DraftTcp (a : option around) (f : tcp_fields) (flags_set : bool) (p : option bytes)
| DraftIcmp (a : option around)
| DraftEcho (a : option around) (f : N * N * N) (kind_set : bool) (p : option bytes)
| DraftInformation (a : option around) (f : N * N * N) (kind_set : bool)
| DraftTimestamp (a : option around) (f : N * N * N * N * N * N) (kind_set : bool).

(** A new header: zero but for the IPv4 version and header length and the TCP data offset. *)
Definition draft_open (o : opening) : draft :=
  match o with
  | OpEther => DraftEther {| ef_dst := mac_zero; ef_src := mac_zero; ef_type := 0 |} None
  | OpIp => DraftIp None
  | OpV4 => DraftV4 None v4_zero None
  | OpV6 => DraftV6 None
  | OpUdp => DraftUdp None {| uf_src := 0; uf_dst := 0; uf_length := 0; uf_checksum := 0 |} None
  | OpTcp => DraftTcp None (Build_tcp_fields 0 0 0 0 5 0 0 0 0 0) false None
  | OpIcmp => DraftIcmp None
  | OpEcho => DraftEcho None (0, 0, 0) false None
  | OpInformation => DraftInformation None (0, 0, 0) false
  | OpTimestamp => DraftTimestamp None (0, 0, 0, 0, 0, 0) false
  end.
(** The payload, empty if none was given. *)
Definition given (p : option bytes) : bytes := match p with Some q => q | None => [] end.
(** A payload can be given once; no inner layer after it. *)
Definition pay_once (e : error) (p : option bytes) (q : bytes) (k : option bytes -> draft) : res draft :=
  match p with Some _ => Err e | None => Ok (k (Some q)) end.
Definition no_payload_yet (p : option bytes) (d : draft) : res draft :=
  match p with Some _ => Err AlreadyDefined | None => Ok d end.
Definition v4_refuses (s : v4_setter) : bool := match s with V4SetDscp v => 63 <? v | V4SetEcn v => 3 <? v | _ => false end.
Definition tcp_sets_flags (s : tcp_setter) : bool := match s with TcpSetFlags _ => true | _ => false end.
Definition echo_sets_kind (o : echo_op) : bool := match o with EchoRequest | EchoReply => true | _ => false end.
Definition information_sets_kind (o : information_op) : bool := match o with InfoRequest | InfoReply => true | _ => false end.
Definition timestamp_sets_kind (o : timestamp_op) : bool := match o with TsRequest | TsReply => true | _ => false end.

(** One call.  The last case is never reached by a program that compiles. *)
Definition draft_call (c : call) (d : draft) : res draft :=
  match d, c with
  | DraftEther f p, CallEther (EtherPayload q) => pay_once AlreadyDefined p q (DraftEther f)
  | DraftEther f p, CallEther o => Ok (DraftEther (ether_put f o) p)
  | DraftEther f p, CallEtherIp => no_payload_yet p (DraftIp (Some f))
  | DraftIp e, CallIpV4 => Ok (DraftV4 e v4_zero None)
  | DraftIp e, CallIpV6 => Ok (DraftV6 e)
  | DraftV4 e f p, CallV4 (V4Set s) => if v4_refuses s then Err InvalidValue else Ok (DraftV4 e (v4_put f s) p)
  | DraftV4 e f p, CallV4 (V4Payload q) => pay_once AlreadyDefined p q (DraftV4 e f)
  | DraftV4 e f p, CallV4Udp => no_payload_yet p (DraftUdp (Some (e, f)) {| uf_src := 0; uf_dst := 0; uf_length := 0; uf_checksum := 0 |} None)
  | DraftV4 e f p, CallV4Tcp => no_payload_yet p (DraftTcp (Some (e, f)) (Build_tcp_fields 0 0 0 0 5 0 0 0 0 0) false None)
  | DraftV4 e f p, CallV4Icmp => no_payload_yet p (DraftIcmp (Some (e, f)))
  | DraftUdp a f p, CallUdp (UdpSet s) => Ok (DraftUdp a (udp_put f s) p)
  | DraftUdp a f p, CallUdp (UdpPayload q) => pay_once AlreadyDefined p q (DraftUdp a f)
  | DraftTcp a f fl p, CallTcp (TcpSet s) =>
      if fl then match s with TcpSetSource _ => Err Io | _ => Panic end
      else Ok (DraftTcp a (tcp_put f s) (tcp_sets_flags s) p)
  | DraftTcp a f fl p, CallTcp (TcpPayload q) => pay_once AlreadyDefined p q (DraftTcp a f fl)
  | DraftIcmp a, CallIcmpEcho => Ok (DraftEcho a (0, 0, 0) false None)
  | DraftIcmp a, CallIcmpInformation => Ok (DraftInformation a (0, 0, 0) false)
  | DraftIcmp a, CallIcmpTimestamp => Ok (DraftTimestamp a (0, 0, 0, 0, 0, 0) false)
  | DraftEcho a f k p, CallEcho (EchoPayload q) => pay_once InvalidPacket p q (DraftEcho a f k)
  | DraftEcho a f k p, CallEcho o => Ok (DraftEcho a (echo_put f o) (k || echo_sets_kind o) p)
  | DraftInformation a f k, CallInformation o => Ok (DraftInformation a (information_put f o) (k || information_sets_kind o))
  | DraftTimestamp a f k, CallTimestamp o => Ok (DraftTimestamp a (timestamp_put f o) (k || timestamp_sets_kind o))
  | _, _ => Panic
  end.
Fixpoint draft_calls (cs : list call) (d : draft) : res draft :=
  match cs with [] => Ok d | c :: cs' => let* d' := draft_call c d in draft_calls cs' d' end.

(** The enclosing headers around an inner packet of [n] bytes and protocol
    number [proto]: EtherType 0x0800; the total length (in 16 bits), protocol
    and header checksum of the IPv4 header. *)
Definition front (a : option around) (proto n : N) : bytes :=
  match a with
  | None => []
  | Some (e, f) => match e with Some ef => ether_wire (ether_set_type ef 0x0800) | None => [] end ++ v4_wire (v4_finished f proto n)
  end.
(** The bytes of the segment that count in the checksum: all; with the older
    std, an odd last byte counts as zero. *)
Definition counted (E : env) (b : bytes) : bytes :=
  match cursor_eof E with
  | EofKeep => b
  | EofSeek => if len b mod 2 =? 1 then alter b (len b - 1) 0 else b
  end.
(** The EtherType for an IP version: the Ethernet builder panics for others. *)
Definition type_for (version : N) : option N := if version =? 4 then Some 0x0800 else if version =? 6 then Some 0x86dd else None.
(** An IPv4 builder with its own payload: the payload is counted in the header length (see C37). *)
Definition v4_alone (e : option ether_fields) (f : v4_fields) (p : bytes) : res bytes :=
  let L := 20 + len p in
  let b0 := N.lor 64 (L / 4 mod 256) in
  let h ck := v4_wire (v4_head f b0 (L mod 65536) ck) in
  let ip := h (inet_checksum (takeN (L / 4 * 4) (h 0 ++ p))) ++ p in
  match e with
  | None => Ok ip
  | Some ef => match type_for (b0 / 16) with Some t => Ok (ether_wire (ether_set_type ef t) ++ ip) | None => Panic end
  end.
Definition icmp_head (t ck : N) : icmp_fields := {| cf_type := t; cf_code := 0; cf_checksum := ck |}.
Definition icmp_done (a : option around) (kind_set : bool) (m : N -> bytes) : res bytes :=
  if kind_set then Ok (front a 1 (len (m 0)) ++ m (nonzero_checksum (drop_odd (m 0)))) else Err InvalidPacket.
(** [build]. *)
Definition draft_close (E : env) (d : draft) : res bytes :=
  match d with
  | DraftEther f p => Ok (ether_wire f ++ given p)
  | DraftIp _ | DraftV6 _ | DraftIcmp _ => Err InvalidPacket
  | DraftV4 e f p => v4_alone e f (given p)
  | DraftUdp None _ _ | DraftTcp None _ _ _ => Panic
  | DraftUdp (Some (e, v)) f p =>
      let n := 8 + len (given p) in
      let seg ck := udp_wire (udp_fill f (n mod 65536) ck) ++ given p in
      Ok (front (Some (e, v)) 17 n ++ seg (inet_checksum (with_pseudo_header (vf_src v) (vf_dst v) 17 (counted E (seg 0)))))
  | DraftTcp (Some (e, v)) f _ p =>
      let n := 20 + len (given p) in
      let seg ck := tcp_wire (tcp_fill f 5 ck) ++ given p in
      if (match cursor_eof E with EofSeek => n mod 2 =? 1 | EofKeep => false end) then Panic
      else Ok (front (Some (e, v)) 6 n ++ seg (inet_checksum (with_pseudo_header (vf_src v) (vf_dst v) 6 (seg 0))))
  | DraftEcho a (t, i, s) k p => icmp_done a k (fun ck => ident_wire (icmp_head t ck) i s ++ given p)
  | DraftInformation a (t, i, s) k => icmp_done a k (fun ck => ident_wire (icmp_head t ck) i s)
  | DraftTimestamp a (t, i, s, x, y, z) k => icmp_done a k (fun ck => timestamp_wire (icmp_head t ck) i s x y z)
  end.
(** The whole program. *)
Definition reference (E : env) (o : opening) (cs : list call) : res bytes :=
  let* d := draft_calls cs (draft_open o) in draft_close E d.

(** ** The same in a fixed memory of [cap] bytes (a [Slice]): a header needs room. *)
Definition ether_room (e : option ether_fields) : N := match e with Some _ => 14 | None => 0 end.
Definition around_room (a : option around) : N := match a with Some (e, _) => ether_room e + 20 | None => 0 end.
Definition draft_size (d : draft) : N :=
  match d with
  | DraftEther _ p => 14 + len (given p)
  | DraftIp e | DraftV6 e => ether_room e
  | DraftV4 e _ p => ether_room e + 20 + len (given p)
  | DraftUdp a _ p => around_room a + 8 + len (given p)
  | DraftTcp a _ _ p => around_room a + 20 + len (given p)
  | DraftIcmp a => around_room a
  | DraftEcho a _ _ p => around_room a + 8 + len (given p)
  | DraftInformation a _ _ => around_room a + 8
  | DraftTimestamp a _ _ => around_room a + 20
  end.
Definition fitting (cap : N) (d : draft) : res draft := if draft_size d <=? cap then Ok d else Err SmallBuffer.
Fixpoint draft_calls_within (cap : N) (cs : list call) (d : draft) : res draft :=
  match cs with [] => Ok d | c :: cs' => let* d' := draft_call c d in let* d' := fitting cap d' in draft_calls_within cap cs' d' end.
Definition reference_within (E : env) (cap : N) (o : opening) (cs : list call) : res bytes :=
  let* d := fitting cap (draft_open o) in let* d := draft_calls_within cap cs d in draft_close E d.

(** The current layer as [as_packet] shows it: lengths and checksums still zero,
    the TCP data offset cleared once [flags] was called.  (ip, ip::v6 and icmp
    builders have no as_packet: the layer around them.) *)
Definition draft_shows (d : draft) : bytes :=
  match d with
  | DraftEther f p => ether_wire f ++ given p
  | DraftIp e | DraftV6 e => match e with Some f => ether_wire f | None => [] end
  | DraftV4 _ f p => v4_wire f ++ given p
  | DraftUdp _ f p => udp_wire f ++ given p
  | DraftTcp _ f fl p => tcp_wire (if fl then tcp_fill f 0 0 else f) ++ given p
  | DraftIcmp a => match a with Some (_, f) => v4_wire (v4_put f (V4SetProtocol IP_Icmp)) | None => [] end
  | DraftEcho _ (t, i, s) _ p => ident_wire (icmp_head t 0) i s ++ given p
  | DraftInformation _ (t, i, s) _ => ident_wire (icmp_head t 0) i s
  | DraftTimestamp _ (t, i, s, x, y, z) _ => timestamp_wire (icmp_head t 0) i s x y z
  end.

(** The calls considered: arguments in the range of their Rust types, no
    finalizer functions of the user (see C51), no editing through as_packet_mut
    (see C59), TCP payloads small enough for the checksum (see C22). *)
Definition ordinary (c : call) : Prop :=
  match c with
  | CallEther o => ether_op_ok o
  | CallV4 (V4Set s) => v4_setter_ok s
  | CallV4 (V4Payload p) => is_bytes p
  | CallUdp o => udp_op_ok o
  | CallTcp o => tcp_op_ok o /\ match o with TcpPayload p => len p <= 131045 | _ => True end
  | CallEcho o => echo_op_ok o
  | CallInformation o => information_op_ok o
  | CallTimestamp o => timestamp_op_ok o
  | CallFinalizer _ | CallEdit _ _ => False
  | _ => True
  end.
(** On a Slice only empty payloads are considered (others are lost, see C41). *)
Definition no_payload (c : call) : Prop :=
  match c with
  | CallEther (EtherPayload p) | CallV4 (V4Payload p) | CallUdp (UdpPayload p) | CallTcp (TcpPayload p) | CallEcho (EchoPayload p) => p = []
  | _ => True
  end.
