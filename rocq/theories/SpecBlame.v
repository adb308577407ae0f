(** * SpecBlame: programs that find out which datagram an ICMP error message is about, for C81. *)
From Verif Require Import Base Enums Ether Ipv4 Ip Udp Tcp Icmp Spec SpecFrame SpecMachine.

(** ** The programs
    Given an ICMP message, the protocol, addresses and ports of the datagram it
    quotes.  The strict one uses packet() and the parsers:
<<
    let q = match icmp::Packet::new(m)?.kind() {
      SourceQuench | DestinationUnreachable | TimeExceeded => previous::Packet::new(m)?.packet()?,
      RedirectMessage => redirect_message::Packet::new(m)?.packet()?,
      ParameterProblem => parameter_problem::Packet::new(m)?.packet()?,
      _ => Err(InvalidPacket)? };
    let (source, destination) = match q.protocol() {
      Udp => { let u = udp::Packet::new(q.payload())?; (u.source(), u.destination()) }
      Tcp => { let t = tcp::Packet::new(q.payload())?; (t.source(), t.destination()) }
      _ => Err(InvalidPacket)? };
    Ok((q.protocol(), q.source(), q.destination(), source, destination))
>>
    The tolerant one uses v4::Packet::no_payload on payload(), and udp/tcp::Packet::unchecked
    after looking that there are four bytes. *)
Record flow := { fl_proto : ip_protocol; fl_src : ipv4addr; fl_dst : ipv4addr; fl_sport : N; fl_dport : N }.
Definition quoted_by (previous redirect problem : bytes -> res bytes) (m : bytes) : res bytes :=
  let* p := icmp_new m in
  let* k := icmp_get_kind p in
  match k with
  | K_SourceQuench | K_DestinationUnreachable | K_TimeExceeded => let* p := previous_new m in previous p
  | K_RedirectMessage => let* p := redirect_message_new m in redirect p
  | K_ParameterProblem => let* p := parameter_problem_new m in problem p
  | _ => Err InvalidPacket
  end.
Definition strict (m : bytes) : res flow :=
  let* q := quoted_by embedded_packet embedded_packet embedded_packet m in
  let* proto := v4_protocol q in
  let* src := v4_source q in
  let* dst := v4_destination q in
  let* body := v4_payload q in
  match proto with
  | IP_Udp => let* u := udp_new body in
              let* s := udp_source u in let* d := udp_destination u in
              Ok {| fl_proto := proto; fl_src := src; fl_dst := dst; fl_sport := s; fl_dport := d |}
  | IP_Tcp => let* t := tcp_new body in
              let* s := tcp_source t in let* d := tcp_destination t in
              Ok {| fl_proto := proto; fl_src := src; fl_dst := dst; fl_sport := s; fl_dport := d |}
  | _ => Err InvalidPacket
  end.
Definition tolerant (m : bytes) : res flow :=
  let* quote := quoted_by previous_payload redirect_message_payload parameter_problem_payload m in
  let* q := v4_no_payload quote in
  let* proto := v4_protocol q in
  let* src := v4_source q in
  let* dst := v4_destination q in
  let* body := v4_payload q in
  match proto with
  | IP_Udp => if len body <? 4 then Err SmallBuffer else
              let* s := udp_source (udp_unchecked body) in let* d := udp_destination (udp_unchecked body) in
              Ok {| fl_proto := proto; fl_src := src; fl_dst := dst; fl_sport := s; fl_dport := d |}
  | IP_Tcp => if len body <? 4 then Err SmallBuffer else
              let* s := tcp_source (tcp_unchecked body) in let* d := tcp_destination (tcp_unchecked body) in
              Ok {| fl_proto := proto; fl_src := src; fl_dst := dst; fl_sport := s; fl_dport := d |}
  | _ => Err InvalidPacket
  end.

(** ** ICMP errors *)
(** Destination unreachable, source quench, redirect, time exceeded, parameter problem. *)
Definition error_type (t : N) : Prop := In t [3; 4; 5; 11; 12].
(** RFC 792: four bytes, four more, the datagram's header and the first [n] bytes of what it
    carries (RFC 792: at least eight; RFC 1812: as many as fit). *)
Definition error_message (c : icmp_fields) (four : bytes) (f : v4_fields) (options body : bytes) (n : N) : bytes :=
  icmp_wire c ++ four ++ v4_wire f ++ options ++ takeN n body.
(** A datagram as it was sent. *)
Definition sent_ok (f : v4_fields) (options body : bytes) : Prop :=
  v4_fields_ok f /\ vf_version f = 4 /\ vf_ihl f * 4 = 20 + len options /\ vf_total f = 20 + len options + len body.

(** ** What the programs say of any message, in terms of its bytes *)
Definition quoted_protocol (p : N) (proto : ip_protocol) : Prop := (p = 17 /\ proto = IP_Udp) \/ (p = 6 /\ proto = IP_Tcp).
(** The quoted header is there, of length [h], and the addresses and ports in the quote are [fl]. *)
Definition names (m : bytes) (h : N) (fl : flow) : Prop :=
  error_type (nthN m 0) /\ 28 <= len m /\ nthN m 8 / 16 = 4 /\ h = nthN m 8 mod 16 * 4 /\ 8 + h <= len m /\
  quoted_protocol (nthN m 17) (fl_proto fl) /\ fl_src fl = wire_addr m 20 /\ fl_dst fl = wire_addr m 24 /\
  fl_sport fl = wire16 m (8 + h) /\ fl_dport fl = wire16 m (10 + h).
(** What of the datagram's body is quoted. *)
Definition quoted_body (m : bytes) (h : N) : bytes := takeN (wire16 m 10 - h) (dropN (8 + h) m).
(** The flow a datagram belongs to. *)
Definition flow_of (proto : ip_protocol) (f : v4_fields) (source destination : N) : flow :=
  {| fl_proto := proto; fl_src := vf_src f; fl_dst := vf_dst f; fl_sport := source; fl_dport := destination |}.
