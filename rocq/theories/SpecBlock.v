(** * SpecBlock: a block of user code that holds a [checked()] guard, for C73. *)
From Verif Require Import Base.

(** What a block may do while it holds the guard: leave (end of scope, [return],
    [break], [?]), panic in code of its own, forget the guard ([mem::forget]),
    or call a setter and go on as it likes with the result. The guard offers
    nothing else: it has no getters, and the packet is borrowed by it. *)
Inductive block (A : Type) :=
| Leave
| UserPanic
| Forget
| CallThen (o : A) (go_on : res unit -> block A).
Arguments Leave {A}. Arguments UserPanic {A}. Arguments Forget {A}. Arguments CallThen {A} o go_on.

(** How a block ended: as above, or because a setter panicked. *)
Inductive ending := Left | Panicked | Forgot | SetterPanicked.
(** The calls it made, the one that panicked included, and how it ended. *)
Fixpoint life {A} (apply : A -> mut) (k : block A) (b : bytes) : list A * ending :=
  match k with
  | Leave => ([], Left)
  | UserPanic => ([], Panicked)
  | Forget => ([], Forgot)
  | CallThen o go_on => match apply o b with
                    | (b', Panic) => ([o], SetterPanicked)
                    | (b', r) => let (ops, e) := life apply (go_on r) b' in (o :: ops, e)
                    end
  end.
(** Every call the block can make takes values of the types of the API. *)
Inductive block_ok {A} (ok : A -> Prop) : block A -> Prop :=
| leave_ok : block_ok ok Leave
| user_panic_ok : block_ok ok UserPanic
| forget_ok : block_ok ok Forget
| call_ok o go_on : ok o -> (forall r, r <> Panic -> block_ok ok (go_on r)) -> block_ok ok (CallThen o go_on).

(** What the program sees: the block is left with these bytes in the packet, a
    panic goes on through the caller (whoever catches it finds these bytes), or
    the process is aborted. *)
Inductive outcome := Continues (b : bytes) | Unwinds (b : bytes) | Aborts.
(** Rust drops the guard when the block is left and also when a panic unwinds
    through it (src/ip/v4/packet.rs:437-441, src/udp/packet.rs:263-270,
    src/tcp/packet.rs:342-349, src/icmp/packet.rs:188-194). A panic in [drop] is
    a panic like any other in the first case, and aborts in the second. *)
Definition drop_guard (drop : mut) (panicking : bool) (b : bytes) : outcome :=
  match drop b with
  | (b', Ok _) => if panicking then Unwinds b' else Continues b'
  | (b', _) => if panicking then Aborts else Unwinds b'
  end.
Fixpoint run_block {A} (apply : A -> mut) (drop : mut) (k : block A) (b : bytes) : outcome :=
  match k with
  | Leave => drop_guard drop false b
  | UserPanic => drop_guard drop true b
  | Forget => Continues b
  | CallThen o go_on => match apply o b with
                    | (b', Panic) => drop_guard drop true b'
                    | (b', r) => run_block apply drop (go_on r) b'
                    end
  end.
(** A guard that keeps its promise: whatever way the block ended, the panic, if
    any, is the block's own. *)
Definition as_the_block (e : ending) (b : bytes) : outcome :=
  match e with Left | Forgot => Continues b | Panicked | SetterPanicked => Unwinds b end.
(** And one whose [drop] panics. *)
Definition drop_panicked (e : ending) (o : outcome) : Prop :=
  match e with
  | Left => exists b, o = Unwinds b
  | Panicked | SetterPanicked => o = Aborts
  | Forgot => exists b, o = Continues b
  end.
