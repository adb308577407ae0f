(** * SpecReceiver: a receiving program written with the crate, and what an
    RFC 791 / 768 / 793 / 792 receiver accepts, for C72. *)
From Verif Require Import Base Enums Ether Ipv4 Ip Udp Tcp Icmp Spec SpecCalls SpecEdit SpecForward SpecMachine.

(** ** The program *)
(** Parse the frame and the IPv4 packet in it; refuse header() below 5, an
    invalid checksum, another protocol; hand the packet and its payload on. *)
Definition receive_ip (E : env) (wanted : ip_protocol -> bool) (next : bytes -> bytes -> res bool) (b : bytes) : res bool :=
  let* e := ether_new b in
  let* ty := ether_get_protocol e in
  match ty with
  | ET_Ipv4 =>
      let* q := ether_payload e in
      let* ip := v4_new q in
      let* h := v4_ihl ip in
      if h <? 5 then Ok false
      else
        let* valid := v4_is_valid E ip in
        if negb valid then Ok false
        else
          let* proto := v4_protocol ip in
          if wanted proto then let* body := v4_payload ip in next ip body else Ok false
  | _ => Ok false
  end.
(** A parser's error means the frame is refused. *)
Definition verdict (r : res bool) : res bool := match r with Err _ => Ok false | r => r end.
(** The datagram has to fill the IPv4 payload. *)
Definition receive_udp (E : env) (b : bytes) : res bool :=
  verdict (receive_ip E (fun p => match p with IP_Udp => true | _ => false end) (fun ip body =>
    let* u := udp_new body in
    let* l := udp_length u in
    if l =? len body then udp_is_valid E (V4 ip) u else Ok false) b).
Definition receive_tcp (E : env) (b : bytes) : res bool :=
  verdict (receive_ip E (fun p => match p with IP_Tcp => true | _ => false end) (fun ip body =>
    let* t := tcp_new body in
    let* o := tcp_offset t in
    if o <? 5 then Ok false else tcp_is_valid E (V4 ip) t) b).
Definition receive_echo (E : env) (b : bytes) : res bool :=
  verdict (receive_ip E (fun p => match p with IP_Icmp => true | _ => false end) (fun ip body =>
    let* m := echo_new body in icmp_is_valid E m) b).

(** ** The RFCs *)
(** The frame carries an IPv4 packet of this protocol whose header sums up. *)
Definition rfc_ip {S : Type} (proto : N) (s : frame_packet S) : Prop :=
  ef_type (fr_ether s) = 0x0800 /\ vf_proto (fr_ip s) = proto /\ receiver_accepts (v4_wire (fr_ip s) ++ fr_options s).
(** The transport packet sums up under the pseudo-header. *)
Definition sums_up {S : Type} (inner : S -> bytes) (s : frame_packet S) : Prop :=
  receiver_accepts (with_pseudo_header (vf_src (fr_ip s)) (vf_dst (fr_ip s)) (vf_proto (fr_ip s)) (inner (fr_inner s))).
(** [b] is a frame an RFC receiver accepts: RFC 768, where a checksum of zero
    means that there is none; *)
Definition rfc_udp (b : bytes) (s : frame_packet udp_packet) : Prop :=
  frame_packet_ok udp_bytes udp_packet_ok s /\ b = frame_bytes udp_bytes s /\ rfc_ip 17 s /\ up_behind (fr_inner s) = [] /\
  (uf_checksum (up_header (fr_inner s)) = 0 \/ sums_up udp_bytes s).
(** RFC 793; *)
Definition rfc_tcp (b : bytes) (s : frame_packet tcp_packet) : Prop :=
  frame_packet_ok tcp_bytes tcp_packet_ok s /\ b = frame_bytes tcp_bytes s /\ rfc_ip 6 s /\ tcp_spoiled (fr_inner s) = false /\
  sums_up tcp_bytes s.
(** RFC 792, echo and echo reply. *)
Definition rfc_echo (b : bytes) (s : frame_packet echo_packet) : Prop :=
  frame_packet_ok echo_bytes echo_packet_ok s /\ b = frame_bytes echo_bytes s /\ rfc_ip 1 s /\
  receiver_accepts (echo_bytes (fr_inner s)).
