(** * SpecSize: staying within declared bounds. *)
From Verif Require Import Base.
(** The call returns a number between the two. *)
Definition within (lo hi : N) (r : res N) : Prop := exists n, r = Ok n /\ lo <= n <= hi.
Definition at_least (lo : N) (r : res N) : Prop := exists n, r = Ok n /\ lo <= n.
Definition above (hi : N) (r : res N) : Prop := exists n, r = Ok n /\ hi < n.
Definition below (lo : N) (r : res N) : Prop := exists n, r = Ok n /\ n < lo.
