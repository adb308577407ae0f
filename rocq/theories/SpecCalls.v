(** * SpecCalls: the calls a user can make, with arguments of the types Rust
    enforces, and what a sequence of calls on a packet amounts to. *)
From Verif Require Import Base Enums Buffer Ipv4 Udp Tcp Icmp Spec.

(** ** Arguments in the range of their Rust types *)
Definition v4_setter_ok (s : v4_setter) : Prop :=
  match s with
  | V4SetDscp v | V4SetEcn v | V4SetTtl v => u8 v
  | V4SetId v | V4SetFlags v | V4SetOffset v => u16 v
  | V4SetSource a | V4SetDestination a => addr_ok a
  | V4SetProtocol p => u8 (ip_protocol_into p)
  end.
Definition udp_setter_ok (s : udp_setter) : Prop :=
  match s with UdpSetSource v | UdpSetDestination v => u16 v end.
(** [Flags] has nine bits. *)
Definition tcp_setter_ok (s : tcp_setter) : Prop :=
  match s with
  | TcpSetSource v | TcpSetDestination v | TcpSetWindow v | TcpSetPointer v => u16 v
  | TcpSetSequence v | TcpSetAcknowledgment v => u32 v
  | TcpSetFlags v => v < 512
  end.
Definition tcp_is_flags (s : tcp_setter) : Prop :=
  match s with TcpSetFlags _ => True | _ => False end.
Definition echo_setter_ok (s : echo_setter) : Prop :=
  match s with EchoSetIdentifier v | EchoSetSequence v => u16 v | _ => True end.
Definition information_setter_ok (s : information_setter) : Prop :=
  match s with InfoSetIdentifier v | InfoSetSequence v => u16 v | _ => True end.
Definition timestamp_setter_ok (s : timestamp_setter) : Prop :=
  match s with
  | TsSetIdentifier v | TsSetSequence v => u16 v
  | TsSetOriginate v | TsSetReceive v | TsSetTransmit v => u32 v
  | _ => True
  end.

(** ** A sequence of calls on a plain packet, whatever they return *)
Definition calls {A} (apply : A -> mut) (ops : list A) (b : bytes) : bytes :=
  fold_left (fun b o => fst (apply o b)) ops b.

(** ** Option iterators: the results of the first [n] calls of [next] *)
Fixpoint nexts (next : bytes -> res (step * bytes)) (n : nat) (area : bytes) : list (res step) :=
  match n with
  | O => []
  | S k => match next area with
           | Ok (s, area') => Ok s :: nexts next k area'
           | Err e => [Err e]
           | Panic => [Panic]
           end
  end.
(** What the accessors of a yielded TCP option say when it is the option [o]. *)
Definition tcp_opt_view (E : env) (o : opt) (b : bytes) : Prop :=
  tcpopt_length b = Ok (len (opt_wire o)) /\ tcpopt_as_ref E b = Ok (opt_wire o) /\
  match o with
  | Nop => tcpopt_get_number b = Ok TN_NoOperation
  | Opt k d => (exists n, tcpopt_get_number b = Ok n /\ tcpopt_number_into n = k) /\
               tcpopt_payload b = Ok d
  end.
(** Likewise IPv4: the copied flag, the class and the number are the top bit, the
    next two and the low five of the type byte. *)
Definition v4_opt_view (E : env) (o : opt) (b : bytes) : Prop :=
  v4opt_length b = Ok (len (opt_wire o)) /\ v4opt_as_ref E b = Ok (opt_wire o) /\
  match o with
  | Nop => v4opt_get_number b = Ok ON_NoOperation
  | Opt k d => (exists n, v4opt_get_number b = Ok n /\ v4opt_number_into n = k mod 32) /\
               v4opt_is_copied b = Ok (128 <=? k) /\
               (exists c, v4opt_get_class b = Ok c /\ v4opt_class_into c = k / 32 mod 4) /\
               v4opt_payload b = Ok d
  end.

(** ** Buffers: calls, their results, and the layers they stand for *)
(** One call; [Write i v] is [buffer.data_mut()[i] = v]. *)
Definition buf_call (E : env) (b : buffer) (o : buf_op) : buffer * res unit :=
  match o with
  | Next n => buf_next E n b
  | More n => buf_more E n b
  | Clear => (buf_clear b, Ok tt)
  | Write i v => buf_data_mut E (set_index i v) b
  end.
(** A sequence of calls and the result of each; nothing follows a panic. *)
Fixpoint buf_calls (E : env) (b : buffer) (ops : list buf_op) : buffer * list (res unit) :=
  match ops with
  | [] => (b, [])
  | o :: ops' => match buf_call E b o with
                 | (b', Panic) => (b', [Panic])
                 | (b', r) => let (b'', rs) := buf_calls E b' ops' in (b'', r :: rs)
                 end
  end.
(** Sizes and values are typed. *)
Definition buf_op_ok {E : env} (o : buf_op) : Prop :=
  match o with Next n | More n => n < USIZE | Clear => True | Write _ v => u8 v end.
(** Everything a buffer shows: the earlier layers [pre], the current one [cur]. *)
Definition shows (E : env) (b : buffer) (pre cur : bytes) : Prop :=
  buf_data E b = Ok cur /\ buf_offset b = len pre /\ buf_length b = len cur /\
  buf_used b = len pre + len cur /\ buf_into_inner b = Ok (pre ++ cur).
(** The layers in a fixed memory: earlier layers, current layer, free memory.
    [next] needs free memory and reports SmallBuffer without it (a size that
    does not even fit in usize together with what is used is a panic); [clear]
    frees everything without wiping it. *)
Definition bounded_step {E : env} (s : bytes * bytes * bytes) (o : buf_op) : (bytes * bytes * bytes) * res unit :=
  let '(pre, cur, rest) := s in
  match o with
  | Next n => if USIZE <=? len pre + len cur + n then (s, Panic)
              else if len rest <? n then (s, Err SmallBuffer)
              else ((pre ++ cur, zeros n, dropN n rest), Ok tt)
  | More n => if USIZE <=? len pre + len cur + n then (s, Panic)
              else if len rest <? n then (s, Err SmallBuffer)
              else ((pre, cur ++ zeros n, dropN n rest), Ok tt)
  | Clear => (([], [], pre ++ cur ++ rest), Ok tt)
  | Write i v => if i <? len cur then ((pre, alter cur i v, rest), Ok tt) else (s, Panic)
  end.
Fixpoint bounded_steps {E : env} (s : bytes * bytes * bytes) (ops : list buf_op) : (bytes * bytes * bytes) * list (res unit) :=
  match ops with
  | [] => (s, [])
  | o :: ops' => match bounded_step s o with
                 | (s', Panic) => (s', [Panic])
                 | (s', r) => let (s'', rs) := bounded_steps s' ops' in (s'', r :: rs)
                 end
  end.
(** [more] is only called while the current layer is empty. *)
Fixpoint more_on_empty {E : env} (s : bytes * bytes * bytes) (ops : list buf_op) : Prop :=
  match ops with
  | [] => True
  | o :: ops' => match o with More _ => snd (fst s) = [] | _ => True end /\
                 more_on_empty (fst (bounded_step s o)) ops'
  end.
