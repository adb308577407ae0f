(** * SpecOptions: the option areas a loop over options() gets through. *)
From Verif Require Import Base Spec.

(** What an option area consists of: a one-byte option; an option with kind,
    length and data; or a kind byte whose length byte says 1, where that length
    byte is taken for a No-Operation option afterwards. *)
Inductive piece := One (kind : N) | Tlv (kind : N) (data : bytes) | Odd (kind : N).
Definition piece_wire (p : piece) : bytes :=
  match p with One k => [k] | Tlv k d => k :: (2 + len d) :: d | Odd k => [k; 1] end.
Definition area_of (ps : list piece) (t : bytes) : bytes := concat (map piece_wire ps) ++ t.
(** [num] gives the option number of a kind byte: 0 is End, 1 No-Operation. *)
Definition piece_ok (num : N -> N) (p : piece) : Prop :=
  match p with
  | One k => k < 256 /\ num k = 1
  | Tlv k d => k < 256 /\ 2 <= num k /\ 2 + len d < 256
  | Odd k => k < 256 /\ 2 <= num k
  end.
Definition area_end (num : N -> N) (t : bytes) : Prop := t = [] \/ exists k pad, t = k :: pad /\ num k = 0.
(** TCP: the kind byte itself.  IPv4: its low five bits. *)
Definition tcp_num (k : N) : N := k.
Definition v4_num (k : N) : N := k mod 32.
(** The option bytes (as_ref) a loop is handed for the pieces, in order. *)
Definition piece_yields (p : piece) : list bytes := match p with Odd k => [[k]; [1]] | _ => [piece_wire p] end.
