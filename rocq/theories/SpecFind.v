(** * SpecFind: a program that looks an option up by its number, for C80. *)
From Verif Require Import Base Enums Ipv4 Ip Tcp Spec SpecOptions SpecDump.

(** ** The program
<<
    fn lookup(p: &tcp::Packet<&[u8]>, want: tcp::option::Number) -> Result<Option<Vec<u8>>> {
      for o in p.options() {
        let o = o?;
        if o.number() == want { return Ok(Some(o.payload().to_vec())) }
      }
      Ok(None)
    }
>>
    (and the same for IPv4).  [None]: the loop has called next() [n] times and is
    not over. *)
Definition answer := option (res (option bytes)).
Fixpoint find_option (next : bytes -> res (step * bytes)) (wanted : bytes -> res bool) (payload : bytes -> res bytes)
    (n : nat) (area : bytes) : answer :=
  match n with
  | O => None
  | S n =>
      match next area with
      | Ok (Finished, _) => Some (Ok None)
      | Ok (YieldErr e, _) => Some (Err e)
      | Ok (Yield o, area') =>
          match wanted o with
          | Ok true => Some (let* p := payload o in Ok (Some p))
          | Ok false => find_option next wanted payload n area'
          | Err e => Some (Err e)
          | Panic => Some Panic
          end
      | Err e => Some (Err e)
      | Panic => Some Panic
      end
  end.
(** Derived [PartialEq] on the numbers. *)
Definition tcpopt_number_dec (a b : tcpopt_number) : {a = b} + {a <> b}.
Proof. decide equality. apply N.eq_dec. Defined.
Definition v4opt_number_dec (a b : v4opt_number) : {a = b} + {a <> b}.
Proof. decide equality. apply N.eq_dec. Defined.
Definition tcp_wanted (want : tcpopt_number) (o : bytes) : res bool :=
  let* k := tcpopt_get_number o in Ok (if tcpopt_number_dec k want then true else false).
Definition v4_wanted (want : v4opt_number) (o : bytes) : res bool :=
  let* k := v4opt_get_number o in Ok (if v4opt_number_dec k want then true else false).
Definition tcp_find (E : env) (want : tcpopt_number) : nat -> bytes -> answer :=
  find_option (tcp_iter_next E) (tcp_wanted want) tcpopt_payload.
Definition v4_find (E : env) (want : v4opt_number) : nat -> bytes -> answer :=
  find_option (v4_iter_next E) (v4_wanted want) v4opt_payload.
(** [p.options()] slices the header, and may panic. *)
Definition tcp_lookup (E : env) (want : tcpopt_number) (n : nat) (p : bytes) : answer :=
  match tcp_options p with Ok area => tcp_find E want n area | Err e => Some (Err e) | Panic => Some Panic end.
Definition v4_lookup (E : env) (want : v4opt_number) (n : nat) (p : bytes) : answer :=
  match v4_options p with Ok area => v4_find E want n area | Err e => Some (Err e) | Panic => Some Panic end.

(** ** What is there to be found, in terms of the bytes of the option area *)
Definition piece_kind (p : piece) : N := match p with One k | Tlv k _ | Odd k => k end.
(** The area starts with well-formed options, none with number [w], and goes on with [t]. *)
Definition without (num : N -> N) (w : N) (area t : bytes) : Prop :=
  exists ps, area = area_of ps t /\ Forall (piece_ok num) ps /\ Forall (fun p => num (piece_kind p) <> w) ps.
(** The first option with number [w] has data [d]. *)
Definition first_is (num : N -> N) (w : N) (area d : bytes) : Prop :=
  exists k rest, without num w area (k :: (2 + len d) :: d ++ rest) /\ num k = w /\ 2 + len d < 256.
(** The first option with number [w] says that it is one byte long. *)
Definition first_is_odd (num : N -> N) (w : N) (area rest : bytes) : Prop :=
  exists k, without num w area (k :: 1 :: rest) /\ num k = w.
(** There is no option with number [w]. *)
Definition absent (num : N -> N) (w : N) (area : bytes) : Prop :=
  exists t, without num w area t /\ area_end num t.
(** Before any option with number [w] there is one longer than what is left of the area ... *)
Definition too_long (num : N -> N) (w : N) (area : bytes) : Prop :=
  exists k l rest, without num w area (k :: l :: rest) /\ 2 <= num k /\ len (k :: l :: rest) < l.
(** ... or one that lacks its length byte ... *)
Definition cut_off (num : N -> N) (w : N) (area : bytes) : Prop :=
  exists k, without num w area [k] /\ 2 <= num k.
(** ... or option [v], said to be zero bytes long. *)
Definition zero_length (num : N -> N) (w v : N) (area : bytes) : Prop :=
  exists k rest, without num w area (k :: 0 :: rest) /\ 2 <= num k /\ v = num k.
(** The outcome of a lookup of [w] ([checks]: in a build with overflow checks). *)
Definition lookup_table (num : N -> N) (w : N) (area : bytes) (checks : bool) (r : answer) : Prop :=
  (forall d, r = Some (Ok (Some d)) <-> first_is num w area d \/ exists rest, first_is_odd num w area rest /\ d = 1 :: rest) /\
  (r = Some (Ok None) <-> absent num w area) /\
  (forall e, r = Some (Err e) <-> e = SmallBuffer /\ too_long num w area) /\
  (r = Some Panic <-> cut_off num w area \/ exists v, zero_length num w v area /\ (checks = true \/ v = w)) /\
  (r = None <-> exists v, zero_length num w v area /\ checks = false /\ v <> w).
