(** * SpecMut: what is asked of the mutable slices of a packet. *)
From Verif Require Import Base Spec Mutable.

(** Two slices of one buffer: inside it, the first one before the second one. *)
Definition apart (b : bytes) (h p : span) : Prop :=
  s_at h + s_len h <= s_at p /\ s_at p + s_len p <= len b.
(** The mutable slices [m] are the ones the shared slices [s] show: same bytes,
    not overlapping, and unavailable in the same cases. *)
Definition same_slices (b : bytes) (m : res (span * span)) (s : res (bytes * bytes)) : Prop :=
  match m with
  | Ok (h, p) => s = Ok (span_read h b, span_read p b) /\
      (s_len h + s_len p = 0 \/ apart b h p)
  | Err _ => False
  | Panic => s = Panic
  end.
(** Likewise for one slice. *)
Definition same_slice (b : bytes) (m : res span) (s : res bytes) : Prop :=
  match m with
  | Ok h => s = Ok (span_read h b) /\ s_at h + s_len h <= len b
  | Err e => s = Err e
  | Panic => s = Panic
  end.
(** Overwriting the slice [s] of [b] by any string of its length keeps
    everything else and is what is read back from the slice. *)
Definition rewrites (s : span) (b : bytes) : Prop :=
  forall new, len new = s_len s ->
  only_changes (s_at s) (s_at s + s_len s) b (span_write s new b) /\
  span_read s (span_write s new b) = new.
(** Overwriting the payload slice: still a packet, the header is the same, the
    payload is what was written, nothing else is touched. *)
Definition payload_rewrites (parse : bytes -> res bytes) (header payload : bytes -> res bytes)
  (p : span) (b : bytes) : Prop :=
  forall new, len new = s_len p ->
  let b' := span_write p new b in
  parse b' = Ok b' /\ header b' = header b /\ payload b' = Ok new /\
  only_changes (s_at p) (s_at p + s_len p) b b'.
