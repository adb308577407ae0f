(** * SpecMemory: a builder program in memory the caller owns. *)
From Verif Require Import Base Enums Buffer Builders Spec SpecProfile.

(** A function of the user gets a [&mut [u8]]: it may write there whatever it
    likes, but not change how long it is. *)
Definition confined (c : call) : Prop :=
  match c with CallFinalizer f | CallEdit _ f => forall b, len (fst (f b)) = len b | _ => True end.
(** The number of the protocol in IPv4 of the inner layer a call starts. *)
Definition starts (c : call) : option N :=
  match c with CallV4Udp => Some 17 | CallV4Tcp => Some 6 | CallV4Icmp => Some 1 | _ => None end.
