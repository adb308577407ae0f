(** * SpecIncremental: incremental update of an Internet checksum (RFC 1624), for C70. *)
From Verif Require Import Base Spec.

(** 16-bit ones'-complement addition: the carry is added back in. *)
Definition ones_add (x y : N) : N := if 65535 <? x + y then x + y - 65535 else x + y.
(** 16-bit complement. *)
Definition ones_not (x : N) : N := 65535 - x.
(** RFC 1624, equation 3: HC' = ~(~HC + ~m + m'), for a word m replaced by m'. *)
Definition rfc1624 (hc m m' : N) : N := ones_not (ones_add (ones_add (ones_not hc) (ones_not m)) m').

(** The 16-bit word at [i] replaced by [w]. *)
Definition put16 (i w : N) (b : bytes) : bytes := takeN i b ++ enc16 w ++ dropN (i + 2) b.
