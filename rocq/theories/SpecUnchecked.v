(** * SpecUnchecked: packets made by [unchecked] from any bytes whatever. *)
From Verif Require Import Base.

(** The accessor needs the first [n] bytes: with them it returns [v], without
    them it panics (it never returns an error). *)
Definition needs {A} (n : N) (b : bytes) (r : res A) (v : A) : Prop :=
  (n <= len b -> r = Ok v) /\ (len b < n -> r = Panic).
