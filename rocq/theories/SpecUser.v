(** * SpecUser: builders before [build()], user-added finalizers, in-place edits. *)
From Verif Require Import Base Enums Buffer Ether Ipv4 Ip Udp Tcp Icmp Builders Spec SpecCalls SpecBuild.

(** ** Builders on which [build()] has not been called yet *)
Definition ether_builder E eops buf : res builder :=
  let* e := ether_with E buf in run (ether_run1 E) eops e.
Definition v4_builder E eth vops buf : res builder :=
  let* v := start_v4 E eth buf in run (v4_run1 E) vops v.
Definition udp_builder E eth vs us buf : res builder :=
  let* v := v4_layer E eth vs buf in let* u := v4_udp E v in run (udp_run1 E) us u.
Definition tcp_builder E eth vs ts buf : res builder :=
  let* v := v4_layer E eth vs buf in let* t := v4_tcp E v in run (tcp_run1 E) ts t.
Definition echo_builder E outer ops buf : res builder :=
  let* i := icmp_layer E outer buf in let* c := icmp_echo E i in run (echo_run1 E) ops c.
Definition information_builder E outer ops buf : res builder :=
  let* i := icmp_layer E outer buf in let* c := icmp_information E i in run (information_run1 E) ops c.
Definition timestamp_builder E outer ops buf : res builder :=
  let* i := icmp_layer E outer buf in let* c := icmp_timestamp E i in run (timestamp_run1 E) ops c.

(** ** Buffers that have room: [need] bytes of headers and the payload [p].  A
    Dynamic grows; a Slice has to be long enough, and its payloads are the
    subject of C41, so here they are empty. *)
Inductive fresh_buffer {E : env} : buffer -> N -> bytes -> Prop :=
| on_dynamic need p : need + len p <= ISIZE_MAX -> fresh_buffer dynamic_new need p
| on_slice mem need : need <= len mem -> len mem <= ISIZE_MAX -> fresh_buffer (slice_new mem) need [].

(** Bytes of headers in front of the layer under construction. *)
Definition eth_bytes (eth : option (list ether_op)) : N := match eth with Some _ => 14 | None => 0 end.
Definition outer_bytes (outer : option (option (list ether_op) * list v4_setter)) : N :=
  match outer with Some (eth, _) => eth_bytes eth + 20 | None => 0 end.

(** Has [flags] been called on the TCP builder? *)
Definition flags_called (ts : list tcp_op) : bool :=
  existsb (fun o => match o with TcpSet (TcpSetFlags _) => true | _ => false end) ts.
(** The header of an ICMP message with code and checksum still zero. *)
Definition unsummed (t : N) : icmp_fields := {| cf_type := t; cf_code := 0; cf_checksum := 0 |}.

(** ** Finalizers added by the user: [builder.finalizer().add(h)] for each [h] in order *)
Definition add_finalizers (hs : list finalizer) (b : builder) : builder :=
  fold_left (fun b h => with_fin b (fin_add (b_fin b) h)) hs b.
(** They run on the whole buffer, the last one added first, and stop at the first
    that does not return Ok. *)
Fixpoint hooks (hs : list finalizer) (buffer : bytes) : bytes * res unit :=
  match hs with
  | [] => (buffer, Ok tt)
  | h :: hs' => match hooks hs' buffer with
                | (buffer', Ok _) => h buffer'
                | failed => failed
                end
  end.
(** UDP in IPv4 in Ethernet, with finalizers added to each of the three builders. *)
Definition hooked_udp E eops he vs hv us hu buf : res bytes :=
  let* e := ether_with E buf in let* e := run (ether_run1 E) eops e in
  let* i := ether_ip E (add_finalizers he e) in let* v := ip_v4 E i in
  let* v := run (v4_run1 E) (map V4Set vs) v in
  let* u := v4_udp E (add_finalizers hv v) in
  let* u := run (udp_run1 E) us u in
  udp_build E (add_finalizers hu u).
(** What [build] makes of the last stage. *)
Definition built (r : bytes * res unit) : res bytes :=
  match r with (out, Ok _) => Ok out | (_, Err e) => Err e | (_, Panic) => Panic end.
