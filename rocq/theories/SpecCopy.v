(** * SpecCopy: programs that take a frame apart with the parsers and put it
    together again with the builders, and the frames for which that is the identity. *)
From Verif Require Import Base Enums Buffer Ether Ipv4 Ip Udp Tcp Icmp Builders Spec SpecCalls SpecBuild.

(** [head dscp ecn flags]: the setters called for these three fields. *)
Definition copy_ip (head : N -> N -> N -> list v4_setter) (b : bytes)
    (k : bytes -> option (list ether_op) -> list v4_setter -> res bytes) : res bytes :=
  let* e := ether_new b in
  let* d := ether_destination e in let* s := ether_source e in
  let* payload := ether_payload e in let* ip := v4_new payload in
  let* dscp := v4_dscp ip in let* ecn := v4_ecn ip in let* flags := v4_flags ip in
  let* id := v4_id ip in let* ttl := v4_ttl ip in
  let* src := v4_source ip in let* dst := v4_destination ip in
  k ip (Some [EtherDestination d; EtherSource s])
    (head dscp ecn flags ++ [V4SetId id; V4SetTtl ttl; V4SetSource src; V4SetDestination dst]).
(** [ecn] before [dscp]; [dscp] before [ecn]; with the flags as well. *)
Definition ecn_then_dscp (dscp ecn flags : N) : list v4_setter := [V4SetEcn ecn; V4SetDscp dscp].
Definition dscp_then_ecn (dscp ecn flags : N) : list v4_setter := [V4SetDscp dscp; V4SetEcn ecn].
Definition and_flags (dscp ecn flags : N) : list v4_setter := [V4SetEcn ecn; V4SetDscp dscp; V4SetFlags flags].
Definition copy_udp_by (head : N -> N -> N -> list v4_setter) (E : env) (b : bytes) : res bytes :=
  copy_ip head b (fun ip eth vs =>
    let* payload := v4_payload ip in let* u := udp_new payload in
    let* sp := udp_source u in let* dp := udp_destination u in let* p := udp_payload u in
    udp_chain E eth vs [UdpSet (UdpSetSource sp); UdpSet (UdpSetDestination dp); UdpPayload p] dynamic_new).
Definition copy_udp := copy_udp_by ecn_then_dscp.
Definition copy_tcp (E : env) (b : bytes) : res bytes :=
  copy_ip ecn_then_dscp b (fun ip eth vs =>
    let* payload := v4_payload ip in let* t := tcp_new payload in
    let* sp := tcp_source t in let* dp := tcp_destination t in
    let* seq := tcp_sequence t in let* ack := tcp_acknowledgment t in
    let* win := tcp_window t in let* ptr := tcp_pointer t in let* fl := tcp_flags t in
    let* p := tcp_payload t in
    tcp_chain E eth vs
      [TcpSet (TcpSetSource sp); TcpSet (TcpSetDestination dp); TcpSet (TcpSetSequence seq);
       TcpSet (TcpSetAcknowledgment ack); TcpSet (TcpSetWindow win); TcpSet (TcpSetPointer ptr);
       TcpPayload p; TcpSet (TcpSetFlags fl)] dynamic_new).
Definition copy_echo (E : env) (b : bytes) : res bytes :=
  copy_ip ecn_then_dscp b (fun ip eth vs =>
    let* payload := v4_payload ip in let* m := echo_new payload in
    let* rq := echo_is_request m in
    let* id := echo_identifier m in let* seq := echo_sequence m in let* p := echo_payload m in
    echo_chain E (Some (eth, vs))
      [if rq then EchoRequest else EchoReply; EchoIdentifier id; EchoSequence seq; EchoPayload p] dynamic_new).

(** An IPv4 packet without options that fills its frame, with [word] for its flags
    and fragment offset and a right header checksum. *)
Definition plain_ip_word (word : N) (E : env) (proto : N) (ip : bytes) : Prop :=
  nthN ip 0 = 69 /\ wire16 ip 2 = len ip /\ wire16 ip 6 = word /\ nthN ip 9 = proto /\ v4_is_valid E ip = Ok true.
(** Neither Don't Fragment nor a fragment. *)
Definition plain_ip := plain_ip_word 0.
(** Lengths that agree, right checksums. *)
Definition plain_udp (E : env) (ip u : bytes) : Prop :=
  wire16 u 4 = len u /\ udp_is_valid E (V4 ip) u = Ok true.
(** No options, reserved bits zero. *)
Definition plain_tcp (E : env) (ip t : bytes) : Prop :=
  nthN t 12 / 2 = 40 /\ tcp_is_valid E (V4 ip) t = Ok true.
Definition plain_echo (E : env) (m : bytes) : Prop :=
  nthN m 1 = 0 /\ icmp_is_valid E m = Ok true.
