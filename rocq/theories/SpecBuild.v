(** * SpecBuild: builder programs, and the bytes they are to produce.

    A program is the list of the method calls of each layer; the bytes are given
    by the wire layouts of Spec.v with the last value set in every field. *)
From Verif Require Import Base Enums Buffer Ether Ipv4 Ip Udp Tcp Icmp Builders Spec SpecCalls.

(** ** Programs.  [buf] is the buffer given to the first builder. *)
(** An IPv4 builder, in an Ethernet frame ([Some calls]) or on its own. *)
Definition start_v4 (E : env) (eth : option (list ether_op)) (buf : buffer) : res builder :=
  match eth with
  | Some eops => let* e := ether_with E buf in
                 let* e := run (ether_run1 E) eops e in
                 let* i := ether_ip E e in ip_v4 E i
  | None => v4_with E buf
  end.
(** with setter calls on it *)
Definition v4_layer (E : env) (eth : option (list ether_op)) (vs : list v4_setter) (buf : buffer) : res builder :=
  let* v := start_v4 E eth buf in run (v4_run1 E) (map V4Set vs) v.
Definition udp_chain E eth vs us buf : res bytes :=
  let* v := v4_layer E eth vs buf in let* u := v4_udp E v in
  let* u := run (udp_run1 E) us u in udp_build E u.
Definition tcp_chain E eth vs ts buf : res bytes :=
  let* v := v4_layer E eth vs buf in let* t := v4_tcp E v in
  let* t := run (tcp_run1 E) ts t in tcp_build E t.
(** IPv4 with its own payload calls. *)
Definition v4_chain E eth vops buf : res bytes :=
  let* v := start_v4 E eth buf in let* v := run (v4_run1 E) vops v in v4_build E v.
Definition ether_chain E eops buf : res bytes :=
  let* e := ether_with E buf in let* e := run (ether_run1 E) eops e in ether_build e.
(** An ICMP builder: standalone, or inside IPv4 (inside Ethernet). *)
Definition icmp_layer (E : env) (outer : option (option (list ether_op) * list v4_setter)) (buf : buffer) : res builder :=
  match outer with
  | Some (eth, vs) => let* v := v4_layer E eth vs buf in v4_icmp E v
  | None => icmp_with buf
  end.
Definition echo_chain E outer ops buf : res bytes :=
  let* i := icmp_layer E outer buf in let* c := icmp_echo E i in
  let* c := run (echo_run1 E) ops c in echo_build E c.
Definition information_chain E outer ops buf : res bytes :=
  let* i := icmp_layer E outer buf in let* c := icmp_information E i in
  let* c := run (information_run1 E) ops c in information_build E c.
Definition timestamp_chain E outer ops buf : res bytes :=
  let* i := icmp_layer E outer buf in let* c := icmp_timestamp E i in
  let* c := run (timestamp_run1 E) ops c in timestamp_build E c.

(** ** Arguments in the range of their types; [dscp] takes six bits, [ecn] two. *)
Definition ether_op_ok (o : ether_op) : Prop :=
  match o with
  | EtherDestination v | EtherSource v => mac_ok v
  | EtherProtocol v => u16 (ether_protocol_into v)
  | EtherPayload p => is_bytes p
  end.
Definition v4_arg_ok (s : v4_setter) : Prop :=
  v4_setter_ok s /\ match s with V4SetDscp v => v < 64 | V4SetEcn v => v < 4 | _ => True end.
(** The setters that set what they say (see C14-C16 for the others). *)
Definition v4_faithful (s : v4_setter) : Prop :=
  match s with V4SetEcn _ | V4SetFlags _ | V4SetOffset _ => False | _ => True end.
Definition v4_op_ok (o : v4_op) : Prop :=
  match o with V4Set s => v4_arg_ok s | V4Payload p => is_bytes p end.
Definition udp_op_ok (o : udp_op) : Prop :=
  match o with UdpSet s => udp_setter_ok s | UdpPayload p => is_bytes p end.
Definition tcp_op_ok (o : tcp_op) : Prop :=
  match o with TcpSet s => tcp_setter_ok s | TcpPayload p => is_bytes p end.
Definition echo_op_ok (o : echo_op) : Prop :=
  match o with
  | EchoIdentifier v | EchoSequence v => u16 v
  | EchoPayload p => is_bytes p
  | _ => True
  end.
Definition information_op_ok (o : information_op) : Prop :=
  match o with InfoIdentifier v | InfoSequence v => u16 v | _ => True end.
Definition timestamp_op_ok (o : timestamp_op) : Prop :=
  match o with
  | TsIdentifier v | TsSequence v => u16 v
  | TsOriginate v | TsReceive v | TsTransmit v => u32 v
  | _ => True
  end.

(** ** The payloads given, in order *)
Definition ether_payloads (ops : list ether_op) : list bytes :=
  flat_map (fun o => match o with EtherPayload p => [p] | _ => [] end) ops.
Definition v4_payloads (ops : list v4_op) : list bytes :=
  flat_map (fun o => match o with V4Payload p => [p] | _ => [] end) ops.
Definition udp_payloads (ops : list udp_op) : list bytes :=
  flat_map (fun o => match o with UdpPayload p => [p] | _ => [] end) ops.
Definition tcp_payloads (ops : list tcp_op) : list bytes :=
  flat_map (fun o => match o with TcpPayload p => [p] | _ => [] end) ops.
Definition echo_payloads (ops : list echo_op) : list bytes :=
  flat_map (fun o => match o with EchoPayload p => [p] | _ => [] end) ops.
(** At most one [payload] call; the bytes given (none if there is no call). *)
Definition one_payload (ps : list bytes) (p : bytes) : Prop := ps = [p] \/ ps = [] /\ p = [].

(** ** The header fields after the calls: the last value set *)
Definition mac_zero : hwaddr := Hw 0 0 0 0 0 0.
Definition addr_zero : ipv4addr := Ip4 0 0 0 0.
Definition ether_put (f : ether_fields) (o : ether_op) : ether_fields :=
  match o with
  | EtherDestination v => {| ef_dst := v; ef_src := ef_src f; ef_type := ef_type f |}
  | EtherSource v => {| ef_dst := ef_dst f; ef_src := v; ef_type := ef_type f |}
  | EtherProtocol v => {| ef_dst := ef_dst f; ef_src := ef_src f; ef_type := ether_protocol_into v |}
  | EtherPayload _ => f
  end.
Definition ether_set_type (f : ether_fields) (t : N) : ether_fields :=
  {| ef_dst := ef_dst f; ef_src := ef_src f; ef_type := t |}.
Definition ether_after (ops : list ether_op) : ether_fields :=
  fold_left ether_put ops {| ef_dst := mac_zero; ef_src := mac_zero; ef_type := 0 |}.

(** For the setters that are not faithful, what they do instead: [ecn] keeps only
    four bits of the DSCP and ors itself into the ECN; [flags] and [offset]
    write all sixteen bits of the flags/offset word. *)
Definition v4_put (f : v4_fields) (s : v4_setter) : v4_fields :=
  let '(Build_v4_fields ver ihl dscp ecn tot id r d m frag ttl pr ck src dst) := f in
  match s with
  | V4SetDscp v => Build_v4_fields ver ihl v ecn tot id r d m frag ttl pr ck src dst
  | V4SetEcn v => Build_v4_fields ver ihl (dscp mod 16) (N.lor ecn v) tot id r d m frag ttl pr ck src dst
  | V4SetId v => Build_v4_fields ver ihl dscp ecn tot v r d m frag ttl pr ck src dst
  | V4SetFlags v | V4SetOffset v =>
      Build_v4_fields ver ihl dscp ecn tot id (32768 <=? v) (16384 <=? v mod 32768)
        (8192 <=? v mod 16384) (v mod 8192) ttl pr ck src dst
  | V4SetTtl v => Build_v4_fields ver ihl dscp ecn tot id r d m frag v pr ck src dst
  | V4SetSource v => Build_v4_fields ver ihl dscp ecn tot id r d m frag ttl pr ck v dst
  | V4SetDestination v => Build_v4_fields ver ihl dscp ecn tot id r d m frag ttl pr ck src v
  | V4SetProtocol v => Build_v4_fields ver ihl dscp ecn tot id r d m frag ttl (ip_protocol_into v) ck src dst
  end.
Definition v4_zero : v4_fields := Build_v4_fields 4 5 0 0 0 0 false false false 0 0 0 0 addr_zero addr_zero.
Definition v4_after (vs : list v4_setter) : v4_fields := fold_left v4_put vs v4_zero.
Definition v4_setters (ops : list v4_op) : list v4_setter :=
  flat_map (fun o => match o with V4Set s => [s] | _ => [] end) ops.

Definition udp_put (f : udp_fields) (s : udp_setter) : udp_fields :=
  match s with
  | UdpSetSource v => {| uf_src := v; uf_dst := uf_dst f; uf_length := uf_length f; uf_checksum := uf_checksum f |}
  | UdpSetDestination v => {| uf_src := uf_src f; uf_dst := v; uf_length := uf_length f; uf_checksum := uf_checksum f |}
  end.
Definition udp_setters (ops : list udp_op) : list udp_setter :=
  flat_map (fun o => match o with UdpSet s => [s] | _ => [] end) ops.
Definition udp_after (ops : list udp_op) : udp_fields :=
  fold_left udp_put (udp_setters ops) {| uf_src := 0; uf_dst := 0; uf_length := 0; uf_checksum := 0 |}.

Definition tcp_put (f : tcp_fields) (s : tcp_setter) : tcp_fields :=
  let '(Build_tcp_fields src dst seq ack off res fl win ck ptr) := f in
  match s with
  | TcpSetSource v => Build_tcp_fields v dst seq ack off res fl win ck ptr
  | TcpSetDestination v => Build_tcp_fields src v seq ack off res fl win ck ptr
  | TcpSetSequence v => Build_tcp_fields src dst v ack off res fl win ck ptr
  | TcpSetAcknowledgment v => Build_tcp_fields src dst seq v off res fl win ck ptr
  | TcpSetFlags v => Build_tcp_fields src dst seq ack off res v win ck ptr
  | TcpSetWindow v => Build_tcp_fields src dst seq ack off res fl v ck ptr
  | TcpSetPointer v => Build_tcp_fields src dst seq ack off res fl win ck v
  end.
Definition tcp_setters (ops : list tcp_op) : list tcp_setter :=
  flat_map (fun o => match o with TcpSet s => [s] | _ => [] end) ops.
Definition tcp_after (ops : list tcp_op) : tcp_fields :=
  fold_left tcp_put (tcp_setters ops) (Build_tcp_fields 0 0 0 0 5 0 0 0 0 0).
(** [flags] is called at most once, and is the last setter called. *)
Definition flags_last (ss : list tcp_setter) : Prop :=
  Forall (fun s => ~ tcp_is_flags s) (removelast ss).

(** Echo and Information: type, identifier, sequence number. *)
Definition echo_put (f : N * N * N) (o : echo_op) : N * N * N :=
  let '(t, i, s) := f in
  match o with
  | EchoRequest => (8, i, s) | EchoReply => (0, i, s)
  | EchoIdentifier v => (t, v, s) | EchoSequence v => (t, i, v)
  | EchoPayload _ => f
  end.
Definition echo_after (ops : list echo_op) : N * N * N := fold_left echo_put ops (0, 0, 0).
Definition echo_kind_given (ops : list echo_op) : Prop := In EchoRequest ops \/ In EchoReply ops.
Definition information_put (f : N * N * N) (o : information_op) : N * N * N :=
  let '(t, i, s) := f in
  match o with
  | InfoRequest => (15, i, s) | InfoReply => (16, i, s)
  | InfoIdentifier v => (t, v, s) | InfoSequence v => (t, i, v)
  end.
Definition information_after (ops : list information_op) : N * N * N := fold_left information_put ops (0, 0, 0).
Definition information_kind_given (ops : list information_op) : Prop := In InfoRequest ops \/ In InfoReply ops.
(** Timestamp: type, identifier, sequence number, the three timestamps. *)
Definition timestamp_put (f : N * N * N * N * N * N) (o : timestamp_op) : N * N * N * N * N * N :=
  let '(t, i, s, a, b, c) := f in
  match o with
  | TsRequest => (13, i, s, a, b, c) | TsReply => (14, i, s, a, b, c)
  | TsIdentifier v => (t, v, s, a, b, c) | TsSequence v => (t, i, v, a, b, c)
  | TsOriginate v => (t, i, s, v, b, c) | TsReceive v => (t, i, s, a, v, c)
  | TsTransmit v => (t, i, s, a, b, v)
  end.
Definition timestamp_after (ops : list timestamp_op) : N * N * N * N * N * N :=
  fold_left timestamp_put ops (0, 0, 0, 0, 0, 0).
Definition timestamp_kind_given (ops : list timestamp_op) : Prop := In TsRequest ops \/ In TsReply ops.

(** ** The finished layers *)
(** The Ethernet header in front of an IPv4 packet (type 0x0800), if any. *)
Definition ether_layer (eth : option (list ether_op)) : bytes :=
  match eth with Some eops => ether_wire (ether_set_type (ether_after eops) 0x0800) | None => [] end.
Definition eth_ok (eth : option (list ether_op)) : Prop :=
  match eth with Some eops => Forall ether_op_ok eops /\ ether_payloads eops = [] | None => True end.
(** An IPv4 header of five words for [n] bytes after it: total length, protocol
    and header checksum filled in. *)
Definition v4_fill (f : v4_fields) (total proto ck : N) : v4_fields :=
  let '(Build_v4_fields ver ihl dscp ecn _ id r d m frag ttl _ _ src dst) := f in
  Build_v4_fields ver ihl dscp ecn total id r d m frag ttl proto ck src dst.
Definition v4_finished (f : v4_fields) (proto n : N) : v4_fields :=
  let total := (20 + n) mod 65536 in
  v4_fill f total proto (inet_checksum (v4_wire (v4_fill f total proto 0))).
Definition udp_fill (f : udp_fields) (length ck : N) : udp_fields :=
  {| uf_src := uf_src f; uf_dst := uf_dst f; uf_length := length; uf_checksum := ck |}.
Definition udp_finished (src dst : ipv4addr) (f : udp_fields) (p : bytes) : udp_fields :=
  let n := (8 + len p) mod 65536 in
  udp_fill f n (inet_checksum (with_pseudo_header src dst 17 (udp_wire (udp_fill f n 0) ++ p))).
Definition tcp_fill (f : tcp_fields) (off ck : N) : tcp_fields :=
  let '(Build_tcp_fields src dst seq ack _ res fl win _ ptr) := f in
  Build_tcp_fields src dst seq ack off res fl win ck ptr.
Definition tcp_finished (src dst : ipv4addr) (f : tcp_fields) (p : bytes) : tcp_fields :=
  tcp_fill f 5 (inet_checksum (with_pseudo_header src dst 6 (tcp_wire (tcp_fill f 5 0) ++ p))).
(** What an ICMP message is wrapped in: nothing, or IPv4 (and Ethernet). *)
Definition icmp_outer (outer : option (option (list ether_op) * list v4_setter)) (n : N) : bytes :=
  match outer with
  | Some (eth, vs) => ether_layer eth ++ v4_wire (v4_finished (v4_after vs) 1 n)
  | None => []
  end.
Definition outer_ok (outer : option (option (list ether_op) * list v4_setter)) : Prop :=
  match outer with Some (eth, vs) => eth_ok eth /\ Forall v4_arg_ok vs | None => True end.

(** An IPv4 header with first byte [b0], total length and checksum given. *)
Definition v4_head (f : v4_fields) (b0 total ck : N) : v4_fields :=
  let '(Build_v4_fields _ _ dscp ecn _ id r d m frag ttl pr _ src dst) := f in
  Build_v4_fields (b0 / 16) (b0 mod 16) dscp ecn total id r d m frag ttl pr ck src dst.
(** What an Ethernet builder puts in front of an IP packet of version [v]; [None] is a panic. *)
Definition eth_front (eth : option (list ether_op)) (v : N) : option bytes :=
  match eth with
  | None => Some []
  | Some eops =>
      if v =? 4 then Some (ether_wire (ether_set_type (ether_after eops) 0x0800))
      else if v =? 6 then Some (ether_wire (ether_set_type (ether_after eops) 0x86dd))
      else None
  end.

(** ** The last value set *)
(** [sel o] is the value the call [o] gives to a field, if it sets that field. *)
Definition last_set {A V} (sel : A -> option V) (ops : list A) (initial : V) : V :=
  match filter (fun o => match sel o with Some _ => true | None => false end) (rev ops) with
  | o :: _ => match sel o with Some v => v | None => initial end
  | [] => initial
  end.
Definition sel_eth_dst o := match o with EtherDestination v => Some v | _ => None end.
Definition sel_eth_src o := match o with EtherSource v => Some v | _ => None end.
Definition sel_eth_type o := match o with EtherProtocol v => Some v | _ => None end.
Definition sel_dscp s := match s with V4SetDscp v => Some v | _ => None end.
Definition sel_id s := match s with V4SetId v => Some v | _ => None end.
Definition sel_ttl s := match s with V4SetTtl v => Some v | _ => None end.
Definition sel_v4_src s := match s with V4SetSource v => Some v | _ => None end.
Definition sel_v4_dst s := match s with V4SetDestination v => Some v | _ => None end.
Definition sel_v4_proto s := match s with V4SetProtocol v => Some v | _ => None end.
Definition sel_udp_src s := match s with UdpSet (UdpSetSource v) => Some v | _ => None end.
Definition sel_udp_dst s := match s with UdpSet (UdpSetDestination v) => Some v | _ => None end.
Definition sel_tcp_src s := match s with TcpSet (TcpSetSource v) => Some v | _ => None end.
Definition sel_tcp_dst s := match s with TcpSet (TcpSetDestination v) => Some v | _ => None end.
Definition sel_tcp_seq s := match s with TcpSet (TcpSetSequence v) => Some v | _ => None end.
Definition sel_tcp_ack s := match s with TcpSet (TcpSetAcknowledgment v) => Some v | _ => None end.
Definition sel_tcp_flags s := match s with TcpSet (TcpSetFlags v) => Some v | _ => None end.
Definition sel_tcp_window s := match s with TcpSet (TcpSetWindow v) => Some v | _ => None end.
Definition sel_tcp_pointer s := match s with TcpSet (TcpSetPointer v) => Some v | _ => None end.
(** [Some true]: a request. *)
Definition sel_echo_kind o := match o with EchoRequest => Some true | EchoReply => Some false | _ => None end.
Definition sel_echo_id o := match o with EchoIdentifier v => Some v | _ => None end.
Definition sel_echo_seq o := match o with EchoSequence v => Some v | _ => None end.
Definition sel_info_kind o := match o with InfoRequest => Some true | InfoReply => Some false | _ => None end.
Definition sel_info_id o := match o with InfoIdentifier v => Some v | _ => None end.
Definition sel_info_seq o := match o with InfoSequence v => Some v | _ => None end.
Definition sel_ts_kind o := match o with TsRequest => Some true | TsReply => Some false | _ => None end.
Definition sel_ts_id o := match o with TsIdentifier v => Some v | _ => None end.
Definition sel_ts_seq o := match o with TsSequence v => Some v | _ => None end.
Definition sel_ts_orig o := match o with TsOriginate v => Some v | _ => None end.
Definition sel_ts_recv o := match o with TsReceive v => Some v | _ => None end.
Definition sel_ts_tran o := match o with TsTransmit v => Some v | _ => None end.

(** ** Reading a built packet back with the crate's parsers and accessors *)
(** [frame] is an Ethernet frame of type IPv4 around [q], with the values set. *)
Definition ether_reads (eops : list ether_op) (proto : ether_protocol) (q frame : bytes) : Prop :=
  ether_new frame = Ok frame /\
  ether_destination frame = Ok (last_set sel_eth_dst eops mac_zero) /\
  ether_source frame = Ok (last_set sel_eth_src eops mac_zero) /\
  ether_get_protocol frame = Ok proto /\ ether_payload frame = Ok q.
(** [ip] is an IPv4 packet around [q], with the values set, valid for the crate
    and for an RFC 791 receiver. *)
Definition v4_reads (E : env) (vs : list v4_setter) (proto : ip_protocol) (q ip : bytes) : Prop :=
  v4_new ip = Ok ip /\ v4_version ip = Ok 4 /\ v4_ihl ip = Ok 5 /\ v4_options ip = Ok [] /\
  v4_dscp ip = Ok (last_set sel_dscp vs 0) /\ v4_ecn ip = Ok 0 /\
  v4_length ip = Ok (20 + len q) /\ v4_id ip = Ok (last_set sel_id vs 0) /\
  v4_flags ip = Ok 0 /\ v4_offset ip = Ok 0 /\
  v4_ttl ip = Ok (last_set sel_ttl vs 0) /\ v4_protocol ip = Ok proto /\
  v4_source ip = Ok (last_set sel_v4_src vs addr_zero) /\
  v4_destination ip = Ok (last_set sel_v4_dst vs addr_zero) /\
  v4_payload ip = Ok q /\ v4_as_ref ip = Ok ip /\
  v4_is_valid E ip = Ok true /\ receiver_accepts (takeN 20 ip).
Definition udp_reads (E : env) (us : list udp_op) (p ip udp : bytes) : Prop :=
  udp_new udp = Ok udp /\
  udp_source udp = Ok (last_set sel_udp_src us 0) /\ udp_destination udp = Ok (last_set sel_udp_dst us 0) /\
  udp_length udp = Ok (8 + len p) /\ udp_payload udp = Ok p /\ udp_as_ref udp = Ok udp /\
  udp_is_valid E (V4 ip) udp = Ok true.
Definition tcp_reads (E : env) (ts : list tcp_op) (p ip tcp : bytes) : Prop :=
  tcp_new tcp = Ok tcp /\
  tcp_source tcp = Ok (last_set sel_tcp_src ts 0) /\ tcp_destination tcp = Ok (last_set sel_tcp_dst ts 0) /\
  tcp_sequence tcp = Ok (last_set sel_tcp_seq ts 0) /\ tcp_acknowledgment tcp = Ok (last_set sel_tcp_ack ts 0) /\
  tcp_offset tcp = Ok 5 /\ tcp_options tcp = Ok [] /\
  tcp_flags tcp = Ok (last_set sel_tcp_flags ts 0) /\ tcp_window tcp = Ok (last_set sel_tcp_window ts 0) /\
  tcp_pointer tcp = Ok (last_set sel_tcp_pointer ts 0) /\ tcp_payload tcp = Ok p /\
  tcp_is_valid E (V4 ip) tcp = Ok true.
(** The three ICMP messages; [request] tells which of the two kinds. *)
Definition echo_reads (E : env) (ops : list echo_op) (p m : bytes) : Prop :=
  let request := last_set sel_echo_kind ops false in
  echo_new m = Ok m /\ icmp_new m = Ok m /\
  icmp_get_kind m = Ok (if request then K_EchoRequest else K_EchoReply) /\ icmp_code m = Ok 0 /\
  echo_is_request m = Ok request /\ echo_is_reply m = Ok (negb request) /\
  echo_identifier m = Ok (last_set sel_echo_id ops 0) /\ echo_sequence m = Ok (last_set sel_echo_seq ops 0) /\
  echo_payload m = Ok p /\ icmp_is_valid E m = Ok true.
Definition information_reads (E : env) (ops : list information_op) (m : bytes) : Prop :=
  let request := last_set sel_info_kind ops false in
  information_new m = Ok m /\ icmp_new m = Ok m /\
  icmp_get_kind m = Ok (if request then K_InformationRequest else K_InformationReply) /\ icmp_code m = Ok 0 /\
  information_is_request m = Ok request /\ information_is_reply m = Ok (negb request) /\
  information_identifier m = Ok (last_set sel_info_id ops 0) /\
  information_sequence m = Ok (last_set sel_info_seq ops 0) /\ icmp_is_valid E m = Ok true.
Definition timestamp_reads (E : env) (ops : list timestamp_op) (m : bytes) : Prop :=
  let request := last_set sel_ts_kind ops false in
  timestamp_new m = Ok m /\ icmp_new m = Ok m /\
  icmp_get_kind m = Ok (if request then K_TimestampRequest else K_TimestampReply) /\ icmp_code m = Ok 0 /\
  timestamp_is_request m = Ok request /\ timestamp_is_reply m = Ok (negb request) /\
  timestamp_identifier m = Ok (last_set sel_ts_id ops 0) /\ timestamp_sequence m = Ok (last_set sel_ts_seq ops 0) /\
  timestamp_originate m = Ok (last_set sel_ts_orig ops 0) /\ timestamp_receive m = Ok (last_set sel_ts_recv ops 0) /\
  timestamp_transmit m = Ok (last_set sel_ts_tran ops 0) /\ icmp_is_valid E m = Ok true.

(** ** Finalizers, in the order in which they run: each on the bytes left by the
    one before, up to the first that fails. *)
Inductive runs : list finalizer -> bytes -> bytes -> res unit -> Prop :=
| runs_end : forall b, runs [] b b (Ok tt)
| runs_next : forall f fs b b1 b2 r, f b = (b1, Ok tt) -> runs fs b1 b2 r -> runs (f :: fs) b b2 r
| runs_err : forall f fs b b1 e, f b = (b1, Err e) -> runs (f :: fs) b b1 (Err e)
| runs_panic : forall f fs b b1, f b = (b1, Panic) -> runs (f :: fs) b b1 Panic.

(** ** Payloads on a Slice *)
(** Byte [k] of [p] stored at position [off + 2 * k] of [m]. *)
Fixpoint scatter (m : bytes) (off : N) (p : bytes) : bytes :=
  match p with [] => m | x :: p' => scatter (alter m off x) (off + 2) p' end.
(** The room taken by the outer layers of a program. *)
Definition v4_room (eth : option (list ether_op)) : N := match eth with Some _ => 34 | None => 20 end.
Definition outer_room (outer : option (option (list ether_op) * list v4_setter)) : N :=
  match outer with Some (eth, _) => v4_room eth | None => 0 end.

(** ** Any builder obtained from [buf] by payload-free calls that succeeded *)
Inductive obtained (E : env) (buf : buffer) : builder -> Prop :=
| ob_ether b : ether_with E buf = Ok b -> obtained E buf b
| ob_v4 b : v4_with E buf = Ok b -> obtained E buf b
| ob_udp b : udp_with E buf = Ok b -> obtained E buf b
| ob_tcp b : tcp_with E buf = Ok b -> obtained E buf b
| ob_ip b : ip_with buf = Ok b -> obtained E buf b
| ob_icmp b : icmp_with buf = Ok b -> obtained E buf b
| ob_echo b : echo_with E buf = Ok b -> obtained E buf b
| ob_information b : information_with E buf = Ok b -> obtained E buf b
| ob_timestamp b : timestamp_with E buf = Ok b -> obtained E buf b
| ob_ether_set o b b' : obtained E buf b -> ether_payloads [o] = [] -> ether_run1 E o b = Ok b' -> obtained E buf b'
| ob_v4_set o b b' : obtained E buf b -> v4_payloads [o] = [] -> v4_run1 E o b = Ok b' -> obtained E buf b'
| ob_udp_set o b b' : obtained E buf b -> udp_payloads [o] = [] -> udp_run1 E o b = Ok b' -> obtained E buf b'
| ob_tcp_set o b b' : obtained E buf b -> tcp_payloads [o] = [] -> tcp_run1 E o b = Ok b' -> obtained E buf b'
| ob_echo_set o b b' : obtained E buf b -> echo_payloads [o] = [] -> echo_run1 E o b = Ok b' -> obtained E buf b'
| ob_information_set o b b' : obtained E buf b -> information_run1 E o b = Ok b' -> obtained E buf b'
| ob_timestamp_set o b b' : obtained E buf b -> timestamp_run1 E o b = Ok b' -> obtained E buf b'
| ob_ether_ip b b' : obtained E buf b -> ether_ip E b = Ok b' -> obtained E buf b'
| ob_ip_v4 b b' : obtained E buf b -> ip_v4 E b = Ok b' -> obtained E buf b'
| ob_ip_v6 b b' : obtained E buf b -> ip_v6 b = Ok b' -> obtained E buf b'
| ob_v4_udp b b' : obtained E buf b -> v4_udp E b = Ok b' -> obtained E buf b'
| ob_v4_tcp b b' : obtained E buf b -> v4_tcp E b = Ok b' -> obtained E buf b'
| ob_v4_icmp b b' : obtained E buf b -> v4_icmp E b = Ok b' -> obtained E buf b'
| ob_icmp_echo b b' : obtained E buf b -> icmp_echo E b = Ok b' -> obtained E buf b'
| ob_icmp_information b b' : obtained E buf b -> icmp_information E b = Ok b' -> obtained E buf b'
| ob_icmp_timestamp b b' : obtained E buf b -> icmp_timestamp E b = Ok b' -> obtained E buf b'.
