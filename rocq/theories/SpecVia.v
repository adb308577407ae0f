(** * SpecVia: builders edited through as_packet_mut(). *)
From Verif Require Import Base Enums Buffer Ether Ipv4 Ip Udp Tcp Icmp Builders Spec SpecCalls SpecBuild SpecUser SpecEdit.

(** A call on a builder: one of its own methods, or a setter of the packet that
    [as_packet_mut()] gives. *)
Inductive via (A S : Type) := Method (o : A) | Through (s : S).
Arguments Method {A S} o.
Arguments Through {A S} s.
(** [builder.as_packet_mut()?.set_..(..)?] *)
Definition through (E : env) (parse : bytes -> res bytes) (f : mut) (b : builder) : res builder :=
  match builder_as_packet_mut E parse f b with
  | (b', Ok _) => Ok b'
  | (_, Err e) => Err e
  | (_, Panic) => Panic
  end.
Definition mixed {A S} (E : env) (run1 : A -> builder -> res builder) (parse : bytes -> res bytes) (apply : S -> mut) (x : via A S) :
  builder -> res builder :=
  match x with Method o => run1 o | Through s => through E parse (apply s) end.
(** The same call made with the method of the builder. *)
Definition as_method {A S} (m : S -> A) (x : via A S) : A := match x with Method o => o | Through s => m s end.
Definition ether_method (s : ether_call) : ether_op :=
  match s with EthDestination v => EtherDestination v | EthSource v => EtherSource v | EthProtocol v => EtherProtocol v end.
Definition echo_method (s : echo_setter) : echo_op :=
  match s with
  | EchoMakeRequest => EchoRequest | EchoMakeReply => EchoReply
  | EchoSetIdentifier v => EchoIdentifier v | EchoSetSequence v => EchoSequence v
  end.
Definition information_method (s : information_setter) : information_op :=
  match s with
  | InfoMakeRequest => InfoRequest | InfoMakeReply => InfoReply
  | InfoSetIdentifier v => InfoIdentifier v | InfoSetSequence v => InfoSequence v
  end.
Definition timestamp_method (s : timestamp_setter) : timestamp_op :=
  match s with
  | TsMakeRequest => TsRequest | TsMakeReply => TsReply
  | TsSetIdentifier v => TsIdentifier v | TsSetSequence v => TsSequence v
  | TsSetOriginate v => TsOriginate v | TsSetReceive v => TsReceive v | TsSetTransmit v => TsTransmit v
  end.

(** ** Builders and programs of mixed calls *)
Definition ether_mixed E (xs : list (via ether_op ether_call)) buf : res builder :=
  let* e := ether_with E buf in run (mixed E (ether_run1 E) ether_new ether_apply) xs e.
Definition start_v4_mixed E (eth : option (list (via ether_op ether_call))) buf : res builder :=
  match eth with
  | Some xs => let* e := ether_mixed E xs buf in let* i := ether_ip E e in ip_v4 E i
  | None => v4_with E buf
  end.
Definition v4_mixed E eth (xs : list (via v4_op v4_setter)) buf : res builder :=
  let* v := start_v4_mixed E eth buf in run (mixed E (v4_run1 E) v4_new v4_apply) xs v.
Definition udp_mixed E eth vs (xs : list (via udp_op udp_setter)) buf : res builder :=
  let* v := v4_mixed E eth vs buf in let* u := v4_udp E v in run (mixed E (udp_run1 E) udp_new udp_apply) xs u.
Definition tcp_mixed E eth vs (xs : list (via tcp_op tcp_setter)) buf : res builder :=
  let* v := v4_mixed E eth vs buf in let* t := v4_tcp E v in run (mixed E (tcp_run1 E) tcp_new tcp_apply) xs t.
Definition echo_mixed E outer (xs : list (via echo_op echo_setter)) buf : res builder :=
  let* i := icmp_layer E outer buf in let* c := icmp_echo E i in run (mixed E (echo_run1 E) echo_new echo_apply) xs c.
Definition information_mixed E outer (xs : list (via information_op information_setter)) buf : res builder :=
  let* i := icmp_layer E outer buf in let* c := icmp_information E i in run (mixed E (information_run1 E) information_new information_apply) xs c.
Definition timestamp_mixed E outer (xs : list (via timestamp_op timestamp_setter)) buf : res builder :=
  let* i := icmp_layer E outer buf in let* c := icmp_timestamp E i in run (mixed E (timestamp_run1 E) timestamp_new timestamp_apply) xs c.

(** The calls made with a method. *)
Definition methods {A S} (xs : list (via A S)) : list A := flat_map (fun x => match x with Method o => [o] | _ => [] end) xs.
(** make_request and make_reply. *)
Definition info_make (s : information_setter) : Prop := s = InfoMakeRequest \/ s = InfoMakeReply.
Definition ts_make (s : timestamp_setter) : Prop := s = TsMakeRequest \/ s = TsMakeReply.
(** Every use of as_packet_mut comes after a call that [given] accepts. *)
Definition after_kind {A S} (given : list A -> Prop) (xs : list (via A S)) : Prop :=
  forall before s rest, xs = before ++ Through s :: rest -> given (methods before).
