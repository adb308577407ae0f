(** * SpecShake: two programs opening a TCP connection, and the ways between them, for C82. *)
From Verif Require Import Base Enums Buffer Ether Ipv4 Ip Udp Tcp Icmp Builders Spec SpecCalls SpecBuild SpecEdit SpecForward SpecMachine SpecReceiver SpecRoute SpecNat.

(** ** Sending and receiving segments *)
Record endpoint := { at_mac : hwaddr; at_ip : ipv4addr; at_port : N }.
Record segment := { sg_from : endpoint; sg_to : endpoint; sg_seq : N; sg_ack : N; sg_flags : N; sg_window : N; sg_data : bytes }.
(** <<
    ether::Builder::default().source(from.mac)?.destination(to.mac)?.ip()?.v4()?
      .ttl(64)?.source(from.ip)?.destination(to.ip)?
      .tcp()?.source(from.port)?.destination(to.port)?.sequence(seq)?.acknowledgment(ack)?
      .window(window)?.payload(data)?.flags(flags)?.build()
>> *)
Definition send (E : env) (s : segment) : res bytes :=
  tcp_chain E (Some [EtherSource (at_mac (sg_from s)); EtherDestination (at_mac (sg_to s))])
    [V4SetTtl 64; V4SetSource (at_ip (sg_from s)); V4SetDestination (at_ip (sg_to s))]
    [TcpSet (TcpSetSource (at_port (sg_from s))); TcpSet (TcpSetDestination (at_port (sg_to s)));
     TcpSet (TcpSetSequence (sg_seq s)); TcpSet (TcpSetAcknowledgment (sg_ack s)); TcpSet (TcpSetWindow (sg_window s));
     TcpPayload (sg_data s); TcpSet (TcpSetFlags (sg_flags s))] dynamic_new.
(** Nothing, if the receiving program of C72 refuses the frame; otherwise what the accessors say. *)
Definition receive (E : env) (b : bytes) : res (option segment) :=
  let* ok := receive_tcp E b in
  if negb ok then Ok None
  else
    let* e := ether_new b in
    let* q := ether_payload e in
    let* ip := v4_new q in
    let* body := v4_payload ip in
    let* t := tcp_new body in
    let* smac := ether_source e in let* dmac := ether_destination e in
    let* sip := v4_source ip in let* dip := v4_destination ip in
    let* sport := tcp_source t in let* dport := tcp_destination t in
    let* seq := tcp_sequence t in let* ack := tcp_acknowledgment t in
    let* flags := tcp_flags t in let* window := tcp_window t in
    let* data := tcp_payload t in
    Ok (Some {| sg_from := {| at_mac := smac; at_ip := sip; at_port := sport |};
                sg_to := {| at_mac := dmac; at_ip := dip; at_port := dport |};
                sg_seq := seq; sg_ack := ack; sg_flags := flags; sg_window := window; sg_data := data |}).
Definition endpoint_ok (e : endpoint) : Prop := mac_ok (at_mac e) /\ addr_ok (at_ip e) /\ u16 (at_port e).
Definition segment_ok (s : segment) : Prop :=
  endpoint_ok (sg_from s) /\ endpoint_ok (sg_to s) /\ u32 (sg_seq s) /\ u32 (sg_ack s) /\ sg_flags s < 512 /\ u16 (sg_window s) /\
  is_bytes (sg_data s) /\ 40 + len (sg_data s) <= 65535.
(** The segment in a frame, by its fields. *)
Definition described (s : frame_packet tcp_packet) : segment :=
  let h := tp_header (fr_inner s) in
  {| sg_from := {| at_mac := ef_src (fr_ether s); at_ip := vf_src (fr_ip s); at_port := tf_src h |};
     sg_to := {| at_mac := ef_dst (fr_ether s); at_ip := vf_dst (fr_ip s); at_port := tf_dst h |};
     sg_seq := tf_seq h; sg_ack := tf_ack h; sg_flags := tf_flags h; sg_window := tf_window h; sg_data := tp_payload (fr_inner s) |}.

(** ** Ways: routers (C76) and address translators (C77) in any order *)
Inductive middlebox := Hop (h : hop) | SetFrom (a : ipv4addr) (port : N) | SetTo (a : ipv4addr) (port : N).
Definition take_step (E : env) (s : middlebox) : mut :=
  match s with
  | Hop h => router E h
  | SetFrom a port => nat_out_tcp E a port
  | SetTo a port => nat_in_tcp E a port
  end.
Fixpoint way (E : env) (steps : list middlebox) : mut :=
  match steps with [] => fun b => (b, Ok tt) | s :: steps' => mseq (take_step E s) (way E steps') end.
Definition step_ok (s : middlebox) : Prop :=
  match s with Hop h => hop_ok h | SetFrom a port | SetTo a port => addr_ok a /\ u16 port end.
Definition hops (steps : list middlebox) : nat := length (filter (fun s => match s with Hop _ => true | _ => false end) steps).
(** What a step, a way, should do to a segment. *)
Definition stepped (s : middlebox) (g : segment) : segment :=
  let f := sg_from g in let t := sg_to g in
  let with_ends f t := {| sg_from := f; sg_to := t; sg_seq := sg_seq g; sg_ack := sg_ack g; sg_flags := sg_flags g;
                          sg_window := sg_window g; sg_data := sg_data g |} in
  match s with
  | Hop h => with_ends {| at_mac := mine h; at_ip := at_ip f; at_port := at_port f |} {| at_mac := next h; at_ip := at_ip t; at_port := at_port t |}
  | SetFrom a port => with_ends {| at_mac := at_mac f; at_ip := a; at_port := port |} t
  | SetTo a port => with_ends f {| at_mac := at_mac t; at_ip := a; at_port := port |}
  end.
Definition arrives (steps : list middlebox) (g : segment) : segment := fold_left (fun g s => stepped s g) steps g.

(** ** Opening a connection *)
Definition succ32 (x : N) : N := (x + 1) mod 4294967296.
Definition SYN : N := 2.
Definition ACK : N := 16.
Definition SYN_ACK : N := 18.
(** Same address, same port. *)
Definition same_end (x y : endpoint) : bool :=
  (ip_a (at_ip x) =? ip_a (at_ip y)) && (ip_b (at_ip x) =? ip_b (at_ip y)) && (ip_c (at_ip x) =? ip_c (at_ip y)) &&
  (ip_d (at_ip x) =? ip_d (at_ip y)) && (at_port x =? at_port y).
(** An answer goes to where the segment came from, from where it went to. *)
Definition answering (g : segment) (seq flags window : N) (data : bytes) : segment :=
  {| sg_from := sg_to g; sg_to := sg_from g; sg_seq := seq; sg_ack := succ32 (sg_seq g); sg_flags := flags; sg_window := window; sg_data := data |}.
(** Receive, decide, send. *)
Definition react (E : env) (decide : segment -> option segment) (b : bytes) : res (option bytes) :=
  let* g := receive E b in
  match g with
  | None => Ok None
  | Some g => match decide g with None => Ok None | Some r => let* b' := send E r in Ok (Some b') end
  end.
(** The client connects, *)
Definition first_segment (me peer : endpoint) (isn window : N) : segment :=
  {| sg_from := me; sg_to := peer; sg_seq := isn; sg_ack := 0; sg_flags := SYN; sg_window := window; sg_data := [] |}.
Definition connect (E : env) (me peer : endpoint) (isn window : N) : res bytes := send E (first_segment me peer isn window).
(** the server listens and answers, *)
Definition on_syn (me : endpoint) (isn window : N) (g : segment) : option segment :=
  if same_end (sg_to g) me && (sg_flags g =? SYN) then Some (answering g isn SYN_ACK window []) else None.
Definition listen (E : env) (me : endpoint) (isn window : N) : bytes -> res (option bytes) := react E (on_syn me isn window).
(** the client confirms and sends its first data, *)
Definition on_syn_ack (me peer : endpoint) (isn window : N) (data : bytes) (g : segment) : option segment :=
  if same_end (sg_to g) me && same_end (sg_from g) peer && (sg_flags g =? SYN_ACK) && (sg_ack g =? succ32 isn)
  then Some (answering g (succ32 isn) ACK window data) else None.
Definition confirm (E : env) (me peer : endpoint) (isn window : N) (data : bytes) : bytes -> res (option bytes) :=
  react E (on_syn_ack me peer isn window data).
(** and the server has a connection: the other end, its sequence number and the data. *)
Definition on_ack (me : endpoint) (isn : N) (g : segment) : option (ipv4addr * N * N * bytes) :=
  if same_end (sg_to g) me && (sg_flags g =? ACK) && (sg_ack g =? succ32 isn)
  then Some (at_ip (sg_from g), at_port (sg_from g), sg_seq g, sg_data g) else None.
Definition accept (E : env) (me : endpoint) (isn : N) (b : bytes) : res (option (ipv4addr * N * N * bytes)) :=
  let* g := receive E b in Ok (match g with None => None | Some g => on_ack me isn g end).
(** Where a way delivers what [from] sends to [to]: addresses and ports. *)
Definition ends (g : segment) : (ipv4addr * N) * (ipv4addr * N) :=
  ((at_ip (sg_from g), at_port (sg_from g)), (at_ip (sg_to g), at_port (sg_to g))).
Definition delivers (steps : list middlebox) (f t f' t' : ipv4addr * N) : Prop :=
  forall g, ends g = (f, t) -> ends (arrives steps g) = (f', t').
Definition end_of (e : endpoint) : ipv4addr * N := (at_ip e, at_port e).

(** ** A case: a client behind a translator and a router, a server behind a router and a translator. *)
Definition x_client : endpoint := {| at_mac := Hw 2 0 0 0 0 1; at_ip := Ip4 192 168 0 2; at_port := 5000 |}.
Definition x_peer : endpoint := {| at_mac := Hw 2 0 0 0 0 2; at_ip := Ip4 93 184 216 34; at_port := 80 |}.
Definition x_outside : ipv4addr * N := (Ip4 203 0 113 7, 40000).
Definition x_server : endpoint := {| at_mac := Hw 2 0 0 0 0 4; at_ip := Ip4 10 0 0 80; at_port := 8080 |}.
Definition x_forth : list middlebox :=
  [SetFrom (Ip4 203 0 113 7) 40000; Hop {| mine := Hw 2 0 0 0 0 3; next := Hw 2 0 0 0 0 5 |};
   SetTo (Ip4 10 0 0 80) 8080; Hop {| mine := Hw 2 0 0 0 0 6; next := Hw 2 0 0 0 0 4 |}].
Definition x_back : list middlebox :=
  [Hop {| mine := Hw 2 0 0 0 0 6; next := Hw 2 0 0 0 0 5 |}; SetFrom (Ip4 93 184 216 34) 80;
   Hop {| mine := Hw 2 0 0 0 0 2; next := Hw 2 0 0 0 0 1 |}; SetTo (Ip4 192 168 0 2) 5000].
