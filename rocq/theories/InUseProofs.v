(** * InUseProofs: the reference semantics on buffers already in use and on buffers of the user's own making (C65). *)
From Verif Require Import Base Enums Buffer Ether Ipv4 Ip Udp Tcp Icmp Builders Generic Spec SpecCalls SpecBuild SpecProfile SpecShift SpecGeneric SpecReference
  Lemmas ShiftProofs GenericProofs ReferenceProofs.

Lemma ordinary_plain cs : Forall ordinary cs -> Forall plain cs /\ Forall in_place cs.
Proof. intros H. split; revert H; apply Forall_impl; intros c Hc; destruct c; cbn in *; try exact I; destruct Hc. Qed.
(** C65: on a growable buffer already in use, behind what it holds. *)
Lemma c65_in_use : forall E o cs cl held off l, compiles o cs cl -> o <> OpUdp -> o <> OpTcp -> Forall ordinary cs ->
  off + l = len held -> len held + added o cs <= ISIZE_MAX ->
  program E o cs cl (Dynamic held off l) = (let* out := reference E o cs in Ok (held ++ out)).
Proof.
  intros E o cs cl held off l Hc N1 N2 Ho Hh HM. destruct (ordinary_plain cs Ho) as [Hp _].
  rewrite (c61_dynamic E o cs cl held off l Hc N1 N2 Hp Hh HM), (c65_reference E o cs cl Hc Ho); [reflexivity|]. revert HM. generalize (len held) (added o cs) ISIZE_MAX. intros; Lia.lia.
Qed.
(** C65: in a Slice of which a part is in use. *)
Lemma c65_slice_in_use : forall E o cs cl held mem off l, compiles o cs cl -> o <> OpUdp -> o <> OpTcp -> Forall ordinary cs -> Forall no_payload cs ->
  len held + len mem <= ISIZE_MAX -> added o cs <= ISIZE_MAX ->
  program E o cs cl (Slice (held ++ mem) off l (len held)) = (let* out := reference_within E (len mem) o cs in Ok (held ++ out)).
Proof.
  intros E o cs cl held mem off l Hc N1 N2 Ho Hn Hh HM. destruct (ordinary_plain cs Ho) as [Hp _].
  rewrite (c61_slice E o cs cl held mem off l Hc N1 N2 Hp Hh), (c65_slice E o cs cl mem Hc Ho Hn); [reflexivity| |exact HM]. revert Hh. generalize (len held) (len mem) ISIZE_MAX. intros; Lia.lia.
Qed.
(** C65: over any implementation of Buffer that keeps the trait's contract and has the room. *)
Lemma c65_any_buffer : forall T (I : impl T) E cap refused holds, lawful I E cap refused holds ->
  forall o cs cl t before layer, holds t before layer -> compiles o cs cl -> o <> OpUdp -> o <> OpTcp -> Forall ordinary cs ->
  len before + len layer + added o cs <= cap -> len before + len layer + added o cs <= ISIZE_MAX ->
  gprogram I E o cs cl t = (let* out := reference E o cs in Ok (before ++ layer ++ out)).
Proof.
  intros T I E cap refused holds HL o cs cl t before layer Hh Hc N1 N2 Ho Hcap HM. destruct (ordinary_plain cs Ho) as [_ Hp].
  rewrite (c63_room T I E cap refused holds HL o cs cl t before layer Hh Hp Hcap HM).
  rewrite (c65_in_use E o cs cl (before ++ layer) (len before) (len layer) Hc N1 N2 Ho); [|rewrite len_app; reflexivity|rewrite len_app; exact HM].
  destruct (reference E o cs); cbn [bind]; [rewrite <- app_assoc; reflexivity|reflexivity|reflexivity].
Qed.
