(** * SpecCorrupt: kinds of corruption, for C68. *)
From Verif Require Import Base Spec.
From Coq Require Import Permutation.

(** Bit [n] of a message, in transmission order (the most significant bit of
    each byte first). *)
Definition msg_bit (b : bytes) (n : N) : bool := N.testbit (nthN b (n / 8)) (7 - n mod 8).
(** [b'] is [b] with a burst error: it has the same length and differs at most
    in the 16 consecutive bits from bit [j]. *)
Definition burst (j : N) (b b' : bytes) : Prop :=
  len b' = len b /\ forall n, n < j \/ j + 16 <= n -> msg_bit b' n = msg_bit b n.
(** All 16 bits from bit [j] have the value [v]. *)
Definition run_of (v : bool) (j : N) (b : bytes) : Prop :=
  forall n, j <= n < j + 16 -> msg_bit b n = v.
(** The bursts a ones'-complement sum cannot see: none at all, 16 zeros turned
    into 16 ones, 16 ones turned into 16 zeros. *)
Definition blind_burst (j : N) (b b' : bytes) : Prop :=
  b' = b \/ (run_of false j b /\ run_of true j b') \/ (run_of true j b /\ run_of false j b').

(** The 16-bit words of a message (an odd last byte is padded with zero). *)
Fixpoint words (b : bytes) : list N :=
  match b with
  | x :: y :: rest => (x * 256 + y) :: words rest
  | [x] => [x * 256]
  | [] => []
  end.
(** The same words in another order. *)
Definition reordered (b b' : bytes) : Prop := Permutation (words b) (words b').
