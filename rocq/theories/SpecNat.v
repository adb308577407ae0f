(** * SpecNat: rewriting frames on their way (address translation), for C77. *)
From Verif Require Import Base Enums Ether Ipv4 Ip Udp Tcp Icmp Spec SpecCalls SpecEdit SpecForward SpecMachine SpecReceiver.

(** ** The programs
<<
    let mut frame = ether::Packet::new(bytes)?;
    let mut ip = v4::Packet::new(frame.payload_mut())?;
    ip.checked().set_source(addr)?;                      // the setters [vs]
    let (header, payload) = ip.split_mut();
    udp::Packet::new(payload)?.checked(&header).set_source(port)?;   // the setters [us]
>> *)
Definition rewrite_udp (E : env) (vs : list v4_setter) (us : list udp_setter) : mut :=
  mseq (edit_datagram (v4_checked E vs)) (edit_datagram (edit_transport udp_new (fun ip => udp_checked E ip us))).
Definition rewrite_tcp (E : env) (vs : list v4_setter) (ts : list tcp_setter) : mut :=
  mseq (edit_datagram (v4_checked E vs)) (edit_datagram (edit_transport tcp_new (fun ip => tcp_checked E ip ts))).
(** The two in the wrong order: the datagram is summed up under the old addresses. *)
Definition rewrite_udp_first (E : env) (vs : list v4_setter) (us : list udp_setter) : mut :=
  mseq (edit_datagram (edit_transport udp_new (fun ip => udp_checked E ip us))) (edit_datagram (v4_checked E vs)).
Definition rewrite_tcp_first (E : env) (vs : list v4_setter) (ts : list tcp_setter) : mut :=
  mseq (edit_datagram (edit_transport tcp_new (fun ip => tcp_checked E ip ts))) (edit_datagram (v4_checked E vs)).
(** A translator: frames that leave get another source, frames that come in get the destination back. *)
Definition nat_out_udp (E : env) (a : ipv4addr) (port : N) : mut := rewrite_udp E [V4SetSource a] [UdpSetSource port].
Definition nat_in_udp (E : env) (a : ipv4addr) (port : N) : mut := rewrite_udp E [V4SetDestination a] [UdpSetDestination port].
Definition nat_out_tcp (E : env) (a : ipv4addr) (port : N) : mut := rewrite_tcp E [V4SetSource a] [TcpSetSource port].
Definition nat_in_tcp (E : env) (a : ipv4addr) (port : N) : mut := rewrite_tcp E [V4SetDestination a] [TcpSetDestination port].
(** Out through the translator, answered in place (C69), and back in through the translator. *)
Definition udp_session (E : env) (public : ipv4addr) (port : N) (private : ipv4addr) (own : N) : mut :=
  mseq (nat_out_udp E public port) (mseq (answer_frame answer_udp) (nat_in_udp E private own)).
Definition tcp_session (E : env) (public : ipv4addr) (port : N) (private : ipv4addr) (own : N) : mut :=
  mseq (nat_out_tcp E public port) (mseq (answer_frame answer_tcp) (nat_in_tcp E private own)).

(** ** On the fields of the frame *)
Definition rewritten_udp (vs : list v4_setter) (us : list udp_setter) (s : frame_packet udp_packet) : frame_packet udp_packet :=
  let f := v4_sum (fr_options s) (assigns v4_assign vs (fr_ip s)) in
  {| fr_ether := fr_ether s; fr_ip := f; fr_options := fr_options s;
     fr_inner := udp_sum (vf_src f) (vf_dst f) (assigns udp_assign us (fr_inner s)); fr_padding := fr_padding s |}.
Definition rewritten_tcp (vs : list v4_setter) (ts : list tcp_setter) (s : frame_packet tcp_packet) : frame_packet tcp_packet :=
  let f := v4_sum (fr_options s) (assigns v4_assign vs (fr_ip s)) in
  {| fr_ether := fr_ether s; fr_ip := f; fr_options := fr_options s;
     fr_inner := tcp_sum (vf_src f) (vf_dst f) (assigns tcp_assign ts (fr_inner s)); fr_padding := fr_padding s |}.
(** The frame says IPv4 and UDP (TCP), and the datagram fills the IPv4 payload. *)
Definition carries_udp (s : frame_packet udp_packet) : Prop :=
  ef_type (fr_ether s) = 0x0800 /\ vf_proto (fr_ip s) = 17 /\ up_behind (fr_inner s) = [].
Definition carries_tcp (s : frame_packet tcp_packet) : Prop :=
  ef_type (fr_ether s) = 0x0800 /\ vf_proto (fr_ip s) = 6 /\ tcp_spoiled (fr_inner s) = false.
Definition keeps_protocol (o : v4_setter) : Prop := match o with V4SetProtocol _ => False | _ => True end.
(** Both checksums are the ones RFC 791 and RFC 768 (RFC 793) call for. *)
Definition summed_udp (s : frame_packet udp_packet) : Prop :=
  vf_checksum (fr_ip s) = inet_checksum (v4_wire (v4_summed 0 (fr_ip s)) ++ fr_options s) /\
  uf_checksum (up_header (fr_inner s)) =
    inet_checksum (with_pseudo_header (vf_src (fr_ip s)) (vf_dst (fr_ip s)) 17 (udp_bytes (udp_store 0 (fr_inner s)))).
Definition summed_tcp (s : frame_packet tcp_packet) : Prop :=
  vf_checksum (fr_ip s) = inet_checksum (v4_wire (v4_summed 0 (fr_ip s)) ++ fr_options s) /\
  tf_checksum (tp_header (fr_inner s)) =
    inet_checksum (with_pseudo_header (vf_src (fr_ip s)) (vf_dst (fr_ip s)) 6 (tcp_bytes (tcp_store 0 (fr_inner s)))).
