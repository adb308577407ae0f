(** * SpecMachine: packets in use as records of fields, for C71.

    Whatever is done to a packet after parsing - setters, the checked guard,
    set_checksum, update_checksum, overwriting the payload, in any order and
    number, on any layer of a received frame - is described on the record of
    its fields, without looking at bytes. *)
From Verif Require Import Base Enums Ether Ipv4 Ip Udp Tcp Icmp Spec SpecCalls SpecEdit SpecForward Mutable.

(** ** Histories *)
(** What can be done to a packet: call a setter; call setters on its checked()
    guard and drop the guard; [payload_mut().copy_from_slice(new)]; and for
    packets that have them, set_checksum(v) and update_checksum(). *)
Inductive action (O X : Type) := Call (o : O) | Checked (ops : list O) | Fill (new : bytes) | Extra (x : X).
Arguments Call {O X} o. Arguments Checked {O X} ops. Arguments Fill {O X} new. Arguments Extra {O X} x.
Inductive checksum_call := StoreChecksum (v : N) | UpdateChecksum.
(** The results of a list of actions and the state they lead to; nothing
    follows a panic, and nothing is said of the state it leaves. *)
Fixpoint history {S A : Type} (act : A -> S -> S * res unit) (l : list A) (s : S) : list (res unit) * option S :=
  match l with
  | [] => ([], Some s)
  | a :: l' => match act a s with
               | (_, Panic) => ([Panic], None)
               | (s', r) => let (rs, o) := history act l' s' in (r :: rs, o)
               end
  end.
(** Each action is of the kind [ok] in the state it is made in. *)
Fixpoint allowed {S A : Type} (ok : A -> S -> Prop) (act : A -> S -> S * res unit) (l : list A) (s : S) : Prop :=
  match l with
  | [] => True
  | a :: l' => ok a s /\ (snd (act a s) <> Panic -> allowed ok act l' (fst (act a s)))
  end.
(** [copy_from_slice] panics unless the lengths are equal. *)
Definition fill (split_mut : bytes -> res (span * span)) (new : bytes) : mut := fun b =>
  match split_mut b with
  | Ok (_, p) => if len new =? s_len p then (span_write p new b, Ok tt) else (b, Panic)
  | Err e => (b, Err e)
  | Panic => (b, Panic)
  end.
(** Calls on a record, whatever they return. *)
Definition assigns {O S : Type} (assign : O -> S -> S * res unit) (ops : list O) (s : S) : S :=
  fold_left (fun s o => fst (assign o s)) ops s.
Definition action_ok {O X : Type} (ok : O -> Prop) (okx : X -> Prop) (a : action O X) : Prop :=
  match a with Call o => ok o | Checked ops => Forall ok ops | Fill new => is_bytes new | Extra x => okx x end.
Definition checksum_call_ok (x : checksum_call) : Prop := match x with StoreChecksum v => u16 v | UpdateChecksum => True end.

(** ** UDP: the header, the payload, and what follows it in the buffer *)
Record udp_packet := { up_header : udp_fields; up_payload : bytes; up_behind : bytes }.
Definition udp_bytes (u : udp_packet) : bytes := udp_wire (up_header u) ++ up_payload u ++ up_behind u.
Definition udp_packet_ok (u : udp_packet) : Prop :=
  udp_fields_ok (up_header u) /\ uf_length (up_header u) = 8 + len (up_payload u) /\
  is_bytes (up_payload u) /\ is_bytes (up_behind u).
Definition udp_assign (o : udp_setter) (u : udp_packet) : udp_packet * res unit :=
  let f := up_header u in
  ({| up_header :=
        match o with
        | UdpSetSource v => {| uf_src := v; uf_dst := uf_dst f; uf_length := uf_length f; uf_checksum := uf_checksum f |}
        | UdpSetDestination v => {| uf_src := uf_src f; uf_dst := v; uf_length := uf_length f; uf_checksum := uf_checksum f |}
        end;
      up_payload := up_payload u; up_behind := up_behind u |}, Ok tt).
Definition udp_store (c : N) (u : udp_packet) : udp_packet :=
  let f := up_header u in
  {| up_header := {| uf_src := uf_src f; uf_dst := uf_dst f; uf_length := uf_length f; uf_checksum := c |};
     up_payload := up_payload u; up_behind := up_behind u |}.
(** The checksum of the whole buffer under the pseudo-header. *)
Definition udp_sum (src dst : ipv4addr) (u : udp_packet) : udp_packet :=
  udp_store (inet_checksum (with_pseudo_header src dst 17 (udp_bytes (udp_store 0 u)))) u.
Definition udp_do (src dst : ipv4addr) (a : action udp_setter checksum_call) (u : udp_packet) : udp_packet * res unit :=
  match a with
  | Call o => udp_assign o u
  | Checked ops => (udp_sum src dst (assigns udp_assign ops u), Ok tt)
  | Fill new => if len new =? len (up_payload u)
                then ({| up_header := up_header u; up_payload := new; up_behind := up_behind u |}, Ok tt)
                else (u, Panic)
  | Extra (StoreChecksum v) => (udp_store v u, Ok tt)
  | Extra UpdateChecksum => (udp_sum src dst u, Ok tt)
  end.
Definition udp_act (E : env) (ip : ip_packet) (a : action udp_setter checksum_call) : mut :=
  match a with
  | Call o => udp_apply o
  | Checked ops => udp_checked E ip ops
  | Fill new => fill udp_split_mut new
  | Extra (StoreChecksum v) => udp_set_checksum v
  | Extra UpdateChecksum => udp_update_checksum E ip
  end.
Definition udp_action_ok (a : action udp_setter checksum_call) : Prop := action_ok udp_setter_ok checksum_call_ok a.

(** ** TCP: the header, the options, the payload *)
Record tcp_packet := { tp_header : tcp_fields; tp_options : bytes; tp_payload : bytes }.
Definition tcp_bytes (t : tcp_packet) : bytes := tcp_wire (tp_header t) ++ tp_options t ++ tp_payload t.
(** set_flags() clears the data offset (C16): the packet is spoiled. *)
Definition tcp_spoiled (t : tcp_packet) : bool := tf_offset (tp_header t) =? 0.
Definition tcp_packet_ok (t : tcp_packet) : Prop :=
  tcp_fields_ok (tp_header t) /\ (tf_offset (tp_header t) * 4 = 20 + len (tp_options t) \/ tf_offset (tp_header t) = 0) /\
  is_bytes (tp_options t) /\ is_bytes (tp_payload t).
Definition tcp_header_with (o : tcp_setter) (f : tcp_fields) : tcp_fields :=
  match o with
  | TcpSetSource v => {| tf_src := v; tf_dst := tf_dst f; tf_seq := tf_seq f; tf_ack := tf_ack f; tf_offset := tf_offset f;
      tf_reserved := tf_reserved f; tf_flags := tf_flags f; tf_window := tf_window f; tf_checksum := tf_checksum f; tf_pointer := tf_pointer f |}
  | TcpSetDestination v => {| tf_src := tf_src f; tf_dst := v; tf_seq := tf_seq f; tf_ack := tf_ack f; tf_offset := tf_offset f;
      tf_reserved := tf_reserved f; tf_flags := tf_flags f; tf_window := tf_window f; tf_checksum := tf_checksum f; tf_pointer := tf_pointer f |}
  | TcpSetSequence v => {| tf_src := tf_src f; tf_dst := tf_dst f; tf_seq := v; tf_ack := tf_ack f; tf_offset := tf_offset f;
      tf_reserved := tf_reserved f; tf_flags := tf_flags f; tf_window := tf_window f; tf_checksum := tf_checksum f; tf_pointer := tf_pointer f |}
  | TcpSetAcknowledgment v => {| tf_src := tf_src f; tf_dst := tf_dst f; tf_seq := tf_seq f; tf_ack := v; tf_offset := tf_offset f;
      tf_reserved := tf_reserved f; tf_flags := tf_flags f; tf_window := tf_window f; tf_checksum := tf_checksum f; tf_pointer := tf_pointer f |}
  | TcpSetFlags v => {| tf_src := tf_src f; tf_dst := tf_dst f; tf_seq := tf_seq f; tf_ack := tf_ack f; tf_offset := 0;
      tf_reserved := 0; tf_flags := v; tf_window := tf_window f; tf_checksum := tf_checksum f; tf_pointer := tf_pointer f |}
  | TcpSetWindow v => {| tf_src := tf_src f; tf_dst := tf_dst f; tf_seq := tf_seq f; tf_ack := tf_ack f; tf_offset := tf_offset f;
      tf_reserved := tf_reserved f; tf_flags := tf_flags f; tf_window := v; tf_checksum := tf_checksum f; tf_pointer := tf_pointer f |}
  | TcpSetPointer v => {| tf_src := tf_src f; tf_dst := tf_dst f; tf_seq := tf_seq f; tf_ack := tf_ack f; tf_offset := tf_offset f;
      tf_reserved := tf_reserved f; tf_flags := tf_flags f; tf_window := tf_window f; tf_checksum := tf_checksum f; tf_pointer := v |}
  end.
(** On a spoiled packet set_source() returns an error and the others panic. *)
Definition tcp_assign (o : tcp_setter) (t : tcp_packet) : tcp_packet * res unit :=
  if tcp_spoiled t then (t, match o with TcpSetSource _ => Err Io | _ => Panic end)
  else ({| tp_header := tcp_header_with o (tp_header t); tp_options := tp_options t; tp_payload := tp_payload t |}, Ok tt).
Definition tcp_store (c : N) (t : tcp_packet) : tcp_packet :=
  let f := tp_header t in
  {| tp_header := {| tf_src := tf_src f; tf_dst := tf_dst f; tf_seq := tf_seq f; tf_ack := tf_ack f; tf_offset := tf_offset f;
       tf_reserved := tf_reserved f; tf_flags := tf_flags f; tf_window := tf_window f; tf_checksum := c; tf_pointer := tf_pointer f |};
     tp_options := tp_options t; tp_payload := tp_payload t |}.
Definition tcp_sum (src dst : ipv4addr) (t : tcp_packet) : tcp_packet :=
  tcp_store (inet_checksum (with_pseudo_header src dst 6 (tcp_bytes (tcp_store 0 t)))) t.
Definition tcp_do (src dst : ipv4addr) (a : action tcp_setter checksum_call) (t : tcp_packet) : tcp_packet * res unit :=
  match a with
  | Call o => tcp_assign o t
  | Checked ops =>
      if tcp_spoiled (assigns tcp_assign ops t) then (t, Panic) else (tcp_sum src dst (assigns tcp_assign ops t), Ok tt)
  | Fill new => if len new =? len (tp_payload t)
                then ({| tp_header := tp_header t; tp_options := tp_options t; tp_payload := new |}, Ok tt)
                else (t, Panic)
  | Extra x => if tcp_spoiled t then (t, Panic)
               else (match x with StoreChecksum v => tcp_store v t | UpdateChecksum => tcp_sum src dst t end, Ok tt)
  end.
Definition tcp_act (E : env) (ip : ip_packet) (a : action tcp_setter checksum_call) : mut :=
  match a with
  | Call o => tcp_apply o
  | Checked ops => tcp_checked E ip ops
  | Fill new => fill tcp_split_mut new
  | Extra (StoreChecksum v) => tcp_set_checksum v
  | Extra UpdateChecksum => tcp_update_checksum E ip
  end.
(** The payload of a spoiled packet is the whole segment; overwriting that is
    left out. *)
Definition tcp_action_ok (a : action tcp_setter checksum_call) (t : tcp_packet) : Prop :=
  action_ok tcp_setter_ok checksum_call_ok a /\
  match a with Fill _ => tcp_spoiled t = false | _ => True end.

(** ** ICMP echo *)
Record echo_packet := { cp_header : icmp_fields; cp_ident : N; cp_seq : N; cp_payload : bytes }.
Definition echo_bytes (c : echo_packet) : bytes := ident_wire (cp_header c) (cp_ident c) (cp_seq c) ++ cp_payload c.
Definition echo_packet_ok (c : echo_packet) : Prop :=
  icmp_fields_ok (cp_header c) /\ (cf_type (cp_header c) = 8 \/ cf_type (cp_header c) = 0) /\
  u16 (cp_ident c) /\ u16 (cp_seq c) /\ is_bytes (cp_payload c).
Definition echo_kind (k : N) (c : echo_packet) : echo_packet :=
  {| cp_header := {| cf_type := k; cf_code := cf_code (cp_header c); cf_checksum := cf_checksum (cp_header c) |};
     cp_ident := cp_ident c; cp_seq := cp_seq c; cp_payload := cp_payload c |}.
Definition echo_assign (o : echo_setter) (c : echo_packet) : echo_packet * res unit :=
  (match o with
   | EchoMakeRequest => echo_kind 8 c
   | EchoMakeReply => echo_kind 0 c
   | EchoSetIdentifier v => {| cp_header := cp_header c; cp_ident := v; cp_seq := cp_seq c; cp_payload := cp_payload c |}
   | EchoSetSequence v => {| cp_header := cp_header c; cp_ident := cp_ident c; cp_seq := v; cp_payload := cp_payload c |}
   end, Ok tt).
Definition echo_store (k : N) (c : echo_packet) : echo_packet :=
  {| cp_header := {| cf_type := cf_type (cp_header c); cf_code := cf_code (cp_header c); cf_checksum := k |};
     cp_ident := cp_ident c; cp_seq := cp_seq c; cp_payload := cp_payload c |}.
(** The crate's ICMP checksum: see C23. *)
Definition echo_sum (c : echo_packet) : echo_packet :=
  echo_store (nonzero_checksum (drop_odd (echo_bytes (echo_store 0 c)))) c.
Definition echo_do (a : action echo_setter Empty_set) (c : echo_packet) : echo_packet * res unit :=
  match a with
  | Call o => echo_assign o c
  | Checked ops => (echo_sum (assigns echo_assign ops c), Ok tt)
  | Fill new => if len new =? len (cp_payload c)
                then ({| cp_header := cp_header c; cp_ident := cp_ident c; cp_seq := cp_seq c; cp_payload := new |}, Ok tt)
                else (c, Panic)
  | Extra x => match x with end
  end.
Definition echo_act (E : env) (a : action echo_setter Empty_set) : mut :=
  match a with
  | Call o => echo_apply o
  | Checked ops => echo_checked E ops
  | Fill new => fill echo_split_mut new
  | Extra x => match x with end
  end.
Definition echo_action_ok (a : action echo_setter Empty_set) : Prop := action_ok echo_setter_ok (fun _ => True) a.

(** ** IPv4: the header, the options, the payload, and what follows it (padding) *)
Record v4_packet := { vp_header : v4_fields; vp_options : bytes; vp_payload : bytes; vp_behind : bytes }.
Definition v4_bytes (p : v4_packet) : bytes := v4_wire (vp_header p) ++ vp_options p ++ vp_payload p ++ vp_behind p.
Definition v4_packet_ok (p : v4_packet) : Prop :=
  v4_fields_ok (vp_header p) /\ vf_version (vp_header p) = 4 /\ vf_ihl (vp_header p) * 4 = 20 + len (vp_options p) /\
  vf_total (vp_header p) = 20 + len (vp_options p) + len (vp_payload p) /\
  is_bytes (vp_options p) /\ is_bytes (vp_payload p) /\ is_bytes (vp_behind p).
(** The fields a setter can reach. *)
Definition v4_fields_with (f : v4_fields) (dscp ecn id : N) (reserved df mf : bool) (frag ttl proto checksum : N) (src dst : ipv4addr) : v4_fields :=
  {| vf_version := vf_version f; vf_ihl := vf_ihl f; vf_dscp := dscp; vf_ecn := ecn; vf_total := vf_total f; vf_id := id;
     vf_reserved := reserved; vf_df := df; vf_mf := mf; vf_frag := frag; vf_ttl := ttl; vf_proto := proto;
     vf_checksum := checksum; vf_src := src; vf_dst := dst |}.
Definition v4_tos (dscp ecn : N) (f : v4_fields) := v4_fields_with f dscp ecn (vf_id f) (vf_reserved f) (vf_df f) (vf_mf f) (vf_frag f)
  (vf_ttl f) (vf_proto f) (vf_checksum f) (vf_src f) (vf_dst f).
(** The 16-bit word of the flags and the fragment offset. *)
Definition v4_word (w : N) (f : v4_fields) := v4_fields_with f (vf_dscp f) (vf_ecn f) (vf_id f) (N.testbit w 15) (N.testbit w 14) (N.testbit w 13)
  (w mod 8192) (vf_ttl f) (vf_proto f) (vf_checksum f) (vf_src f) (vf_dst f).
Definition v4_summed (c : N) (f : v4_fields) := v4_fields_with f (vf_dscp f) (vf_ecn f) (vf_id f) (vf_reserved f) (vf_df f) (vf_mf f) (vf_frag f)
  (vf_ttl f) (vf_proto f) c (vf_src f) (vf_dst f).
(** dscp and ecn out of range are refused; set_ecn as in C14, set_flags and
    set_offset as in C15. *)
Definition v4_assign (o : v4_setter) (f : v4_fields) : v4_fields * res unit :=
  match o with
  | V4SetDscp v => if 63 <? v then (f, Err InvalidValue) else (v4_tos v (vf_ecn f) f, Ok tt)
  | V4SetEcn v => if 3 <? v then (f, Err InvalidValue) else (v4_tos (vf_dscp f mod 16) (N.lor (vf_ecn f) v) f, Ok tt)
  | V4SetId v => (v4_fields_with f (vf_dscp f) (vf_ecn f) v (vf_reserved f) (vf_df f) (vf_mf f) (vf_frag f)
                    (vf_ttl f) (vf_proto f) (vf_checksum f) (vf_src f) (vf_dst f), Ok tt)
  | V4SetFlags v | V4SetOffset v => (v4_word v f, Ok tt)
  | V4SetTtl v => (v4_fields_with f (vf_dscp f) (vf_ecn f) (vf_id f) (vf_reserved f) (vf_df f) (vf_mf f) (vf_frag f)
                    v (vf_proto f) (vf_checksum f) (vf_src f) (vf_dst f), Ok tt)
  | V4SetProtocol v => (v4_fields_with f (vf_dscp f) (vf_ecn f) (vf_id f) (vf_reserved f) (vf_df f) (vf_mf f) (vf_frag f)
                    (vf_ttl f) (ip_protocol_into v) (vf_checksum f) (vf_src f) (vf_dst f), Ok tt)
  | V4SetSource v => (v4_fields_with f (vf_dscp f) (vf_ecn f) (vf_id f) (vf_reserved f) (vf_df f) (vf_mf f) (vf_frag f)
                    (vf_ttl f) (vf_proto f) (vf_checksum f) v (vf_dst f), Ok tt)
  | V4SetDestination v => (v4_fields_with f (vf_dscp f) (vf_ecn f) (vf_id f) (vf_reserved f) (vf_df f) (vf_mf f) (vf_frag f)
                    (vf_ttl f) (vf_proto f) (vf_checksum f) (vf_src f) v, Ok tt)
  end.
Definition v4_sum (options : bytes) (f : v4_fields) : v4_fields :=
  v4_summed (inet_checksum (v4_wire (v4_summed 0 f) ++ options)) f.
Definition with_header (p : v4_packet) (f : v4_fields) : v4_packet :=
  {| vp_header := f; vp_options := vp_options p; vp_payload := vp_payload p; vp_behind := vp_behind p |}.
Definition v4_do (a : action v4_setter checksum_call) (p : v4_packet) : v4_packet * res unit :=
  match a with
  | Call o => let (f, r) := v4_assign o (vp_header p) in (with_header p f, r)
  | Checked ops => (with_header p (v4_sum (vp_options p) (assigns v4_assign ops (vp_header p))), Ok tt)
  | Fill new => if len new =? len (vp_payload p)
                then ({| vp_header := vp_header p; vp_options := vp_options p; vp_payload := new; vp_behind := vp_behind p |}, Ok tt)
                else (p, Panic)
  | Extra (StoreChecksum v) => (with_header p (v4_summed v (vp_header p)), Ok tt)
  | Extra UpdateChecksum => (with_header p (v4_sum (vp_options p) (vp_header p)), Ok tt)
  end.
Definition v4_act (E : env) (a : action v4_setter checksum_call) : mut :=
  match a with
  | Call o => v4_apply o
  | Checked ops => v4_checked E ops
  | Fill new => fill v4_split_mut new
  | Extra (StoreChecksum v) => v4_set_checksum v
  | Extra UpdateChecksum => v4_update_checksum E
  end.
Definition v4_action_ok (a : action v4_setter checksum_call) : Prop := action_ok v4_setter_ok checksum_call_ok a.

(** ** A received Ethernet frame: setters of the frame, actions on the IPv4
    packet in [payload_mut()], actions on the transport packet in the IPv4
    packet's [split_mut()].  [S] and [A] are the transport packet and its
    actions. *)
Record frame_packet (S : Type) := {
  fr_ether : ether_fields; fr_ip : v4_fields; fr_options : bytes; fr_inner : S; fr_padding : bytes }.
Arguments fr_ether {S}. Arguments fr_ip {S}. Arguments fr_options {S}. Arguments fr_inner {S}. Arguments fr_padding {S}.
Inductive frame_action (A : Type) := OnEther (o : ether_call) | OnIp (a : action v4_setter checksum_call) | OnTransport (a : A).
Arguments OnEther {A} o. Arguments OnIp {A} a. Arguments OnTransport {A} a.
Definition frame_bytes {S : Type} (inner : S -> bytes) (s : frame_packet S) : bytes :=
  ether_wire (fr_ether s) ++ v4_wire (fr_ip s) ++ fr_options s ++ inner (fr_inner s) ++ fr_padding s.
Definition frame_ip {S : Type} (inner : S -> bytes) (s : frame_packet S) : v4_packet :=
  {| vp_header := fr_ip s; vp_options := fr_options s; vp_payload := inner (fr_inner s); vp_behind := fr_padding s |}.
Definition frame_packet_ok {S : Type} (inner : S -> bytes) (inner_ok : S -> Prop) (s : frame_packet S) : Prop :=
  ether_fields_ok (fr_ether s) /\ v4_packet_ok (frame_ip inner s) /\ inner_ok (fr_inner s).
Definition ether_assign (o : ether_call) (f : ether_fields) : ether_fields :=
  match o with
  | EthDestination v => {| ef_dst := v; ef_src := ef_src f; ef_type := ef_type f |}
  | EthSource v => {| ef_dst := ef_dst f; ef_src := v; ef_type := ef_type f |}
  | EthProtocol v => {| ef_dst := ef_dst f; ef_src := ef_src f; ef_type := ether_protocol_into v |}
  end.
Definition ether_call_ok (o : ether_call) : Prop :=
  match o with EthDestination v | EthSource v => mac_ok v | EthProtocol v => u16 (ether_protocol_into v) end.
Definition frame_do {S A : Type} (inner : S -> bytes) (inner_do : ipv4addr -> ipv4addr -> A -> S -> S * res unit)
  (a : frame_action A) (s : frame_packet S) : frame_packet S * res unit :=
  match a with
  | OnEther o => ({| fr_ether := ether_assign o (fr_ether s); fr_ip := fr_ip s; fr_options := fr_options s;
                     fr_inner := fr_inner s; fr_padding := fr_padding s |}, Ok tt)
  | OnIp a => let (p, r) := v4_do a (frame_ip inner s) in
              ({| fr_ether := fr_ether s; fr_ip := vp_header p; fr_options := fr_options s;
                  fr_inner := fr_inner s; fr_padding := fr_padding s |}, r)
  | OnTransport a => let (t, r) := inner_do (vf_src (fr_ip s)) (vf_dst (fr_ip s)) a (fr_inner s) in
              ({| fr_ether := fr_ether s; fr_ip := fr_ip s; fr_options := fr_options s;
                  fr_inner := t; fr_padding := fr_padding s |}, r)
  end.
Definition frame_act {A : Type} (E : env) (parse : bytes -> res bytes) (act : ip_packet -> A -> mut) (a : frame_action A) : mut :=
  match a with
  | OnEther o => ether_apply o
  | OnIp a => edit_datagram (v4_act E a)
  | OnTransport a => edit_datagram (edit_transport parse (fun ip => act ip a))
  end.
(** Overwriting the IPv4 payload as a whole is left out here: it replaces the
    transport packet. *)
Definition frame_action_ok {S A : Type} (ok : A -> S -> Prop) (a : frame_action A) (s : frame_packet S) : Prop :=
  match a with
  | OnEther o => ether_call_ok o
  | OnIp (Fill _) => False
  | OnIp a => v4_action_ok a
  | OnTransport a => ok a (fr_inner s)
  end.
