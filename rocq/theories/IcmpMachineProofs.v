(** * IcmpMachineProofs: ICMP information and timestamp messages in use (C71). *)
From Verif Require Import Base Enums Ether Ipv4 Ip Udp Tcp Icmp Spec SpecCalls SpecMachine SpecMachineIcmp Mutable Lemmas AccessProofs
  ParseProofs FieldProofs SliceProofs MutableProofs ChecksumLemmas ChecksumProofs GuardProofs MachineProofs FrameMachineProofs.
From Coq Require Import ZifyBool ZifyNat ZifyN.
Ltac Zify.zify_post_hook ::= Z.div_mod_to_equations.

(** ** Information *)
Lemma information_len c : len (information_bytes c) = 8 + len (np_behind c).
Proof. unfold information_bytes. rewrite len_app. reflexivity. Qed.
Lemma information_is_bytes c : information_packet_ok c -> is_bytes (information_bytes c).
Proof.
  intros ((A & B & C) & Hi & Hs & Hp). unfold information_bytes, information_message, ident_wire, icmp_wire. rewrite !is_bytes_app.
  repeat split; try (apply is_bytes_enc16; assumption); try assumption. repeat constructor; assumption.
Qed.
Lemma information_assign_step o c : information_packet_ok c -> information_setter_ok o ->
  information_apply o (information_bytes c) = (information_bytes (fst (information_assign o c)), snd (information_assign o c)) /\
  snd (information_assign o c) <> Panic /\ information_packet_ok (fst (information_assign o c)).
Proof.
  intros ((A & B & C) & Hi & Hs & Hp) Ho. split; [|split; [destruct o; discriminate|]].
  - destruct o; cbn [information_apply]; unfold information_make_request, information_make_reply, information_set_identifier, information_set_sequence;
      [rewrite set_index_ok by (rewrite information_len; lia)..|rewrite write_u16_ok by (rewrite information_len; lia)|rewrite write_u16_ok by (rewrite information_len; lia)];
      reflexivity.
  - destruct o; repeat split; cbn; try assumption; reflexivity.
Qed.
Lemma information_store_ok v c : u16 v -> information_packet_ok c -> information_packet_ok (information_store v c).
Proof. intros Hv ((A & B & C) & Hi & Hs & Hp). repeat split; assumption. Qed.
Lemma information_assigns_len ops c : len (information_bytes (assigns information_assign ops c)) = len (information_bytes c).
Proof.
  unfold assigns. revert c. induction ops as [|o ops IH]; intros c; [reflexivity|]. cbn [fold_left]. rewrite IH, !information_len. destruct o; reflexivity.
Qed.
Lemma information_drop_step E c : information_packet_ok c ->
  icmp_checked_drop E (information_as_ref E) (information_bytes c) = (information_bytes (information_sum c), Ok tt).
Proof.
  intros Hc.
  assert (Hr : information_as_ref E (information_bytes c) = Ok (takeN 8 (information_bytes c))).
  { unfold information_as_ref, information_size, information_header_size, information_payload_size. cbn [bind].
    rewrite usize_add_ok by (widths; lia). cbn [bind]. apply slice_to_ok. rewrite information_len. lia. }
  rewrite (icmp_drop_ok E _ _ _ (information_is_bytes c Hc) Hr) by (rewrite information_len; lia). reflexivity.
Qed.
Lemma information_step E a c : information_packet_ok c -> information_action_ok a ->
  snd (information_act E a (information_bytes c)) = snd (information_do a c) /\
  (snd (information_do a c) <> Panic ->
   fst (information_act E a (information_bytes c)) = information_bytes (fst (information_do a c)) /\ information_packet_ok (fst (information_do a c)) /\
   len (information_bytes (fst (information_do a c))) = len (information_bytes c)).
Proof.
  intros Hc Ha. destruct a as [o|ops|new|[]]; cbn [information_act information_do].
  - destruct (information_assign_step o c Hc Ha) as (H1 & H2 & H3). rewrite H1. cbn [fst snd].
    split; [reflexivity|]. intros _. split; [reflexivity|]. split; [exact H3|]. rewrite !information_len. destruct o; reflexivity.
  - unfold information_checked.
    destruct (guard_sim information_apply (icmp_checked_drop E (information_as_ref E)) information_assign information_bytes information_packet_ok information_setter_ok information_assign_step ops c Hc Ha) as [G1 G2].
    rewrite G2. rewrite information_drop_step by exact G1.
    cbn [fst snd]. split; [reflexivity|]. intros _. split; [reflexivity|]. split; [apply information_store_ok; [apply nonzero_checksum_u16|exact G1]|].
    rewrite <- (information_assigns_len ops c), !information_len. reflexivity.
  - assert (Hs : information_split_mut (information_message c ++ np_behind c) = Ok (Span 0 (len (information_message c)),
      Span (len (information_message c)) (len (np_behind c)))).
    { change (len (information_message c)) with 8. unfold information_split_mut, split_at_mut, whole. cbn [s_len s_at].
      fold (information_bytes c). rewrite information_len. destruct (N.leb_spec 8 (8 + len (np_behind c))); [|lia]. do 3 f_equal. lia. }
    unfold information_bytes in *. rewrite (fill_end _ _ _ new Hs). destruct (N.eqb_spec (len new) (len (np_behind c))) as [e|n]; cbn [fst snd].
    + split; [reflexivity|]. intros _. split; [reflexivity|]. split.
      * destruct Hc as (H1 & H3 & H4 & H5). split; [exact H1|]. split; [exact H3|]. split; [exact H4|exact Ha].
      * rewrite !len_app. cbn [np_behind]. change (len (information_message {| np_header := np_header c; np_ident := np_ident c; np_seq := np_seq c; np_behind := new |})) with 8.
        change (len (information_message c)) with 8. lia.
    + split; [reflexivity|congruence].
Qed.
(** C71: an ICMP information message. *)
Lemma c71_information : forall E (l : list (action information_setter Empty_set)) c, information_packet_ok c -> Forall information_action_ok l ->
  let (rs, last) := history information_do l c in
  history (information_act E) l (information_bytes c) = (rs, option_map information_bytes last) /\
  forall c', last = Some c' -> information_packet_ok c' /\ len (information_bytes c') = len (information_bytes c).
Proof.
  intros E l c Hu Hl.
  pose proof (history_sim (information_act E) information_do information_bytes
    (fun x => information_packet_ok x /\ len (information_bytes x) = len (information_bytes c)) (fun a _ => information_action_ok a)) as Q.
  specialize (Q ltac:(intros a s [H1 H2] H5;
    destruct (information_step E a s H1 H5) as [G1 G2]; split; [exact G1|]; intros H; destruct (G2 H) as (G3 & G4 & G5);
    split; [exact G3|]; split; [exact G4|exact (eq_trans G5 H2)])).
  specialize (Q l c (conj Hu eq_refl)).
  destruct (history information_do l c) as [rs last]. apply Q.
  clear -Hl. revert c. induction Hl as [|a l H Hl IH]; intros u; cbn [allowed]; [exact Logic.I|split; [exact H|intros _; apply IH]].
Qed.

(** ** Timestamp *)
Lemma timestamp_len c : len (timestamp_bytes c) = 20 + len (mp_behind c).
Proof. unfold timestamp_bytes. rewrite len_app. reflexivity. Qed.
Lemma timestamp_is_bytes c : timestamp_packet_ok c -> is_bytes (timestamp_bytes c).
Proof.
  intros ((A & B & C) & Hi & Hs & Hx & Hy & Hz & Hp). unfold timestamp_bytes, timestamp_message, timestamp_wire, ident_wire, icmp_wire. rewrite !is_bytes_app.
  repeat split; try (apply is_bytes_enc16; assumption); try (apply is_bytes_enc32; assumption); try assumption. repeat constructor; assumption.
Qed.
Lemma timestamp_assign_step o c : timestamp_packet_ok c -> timestamp_setter_ok o ->
  timestamp_apply o (timestamp_bytes c) = (timestamp_bytes (fst (timestamp_assign o c)), snd (timestamp_assign o c)) /\
  snd (timestamp_assign o c) <> Panic /\ timestamp_packet_ok (fst (timestamp_assign o c)).
Proof.
  intros ((A & B & C) & Hi & Hs & Hx & Hy & Hz & Hp) Ho. split; [|split; [destruct o; discriminate|]].
  - destruct o; cbn [timestamp_apply]; unfold timestamp_make_request, timestamp_make_reply, timestamp_set_identifier, timestamp_set_sequence,
      timestamp_set_originate, timestamp_set_receive, timestamp_set_transmit;
      first [rewrite set_index_ok by (rewrite timestamp_len; lia)|rewrite write_u16_ok by (rewrite timestamp_len; lia)
            |rewrite write_u32_ok by (rewrite timestamp_len; lia)]; reflexivity.
  - destruct o; repeat split; cbn; try assumption; reflexivity.
Qed.
Lemma timestamp_store_ok v c : u16 v -> timestamp_packet_ok c -> timestamp_packet_ok (timestamp_store v c).
Proof. intros Hv ((A & B & C) & Hi & Hs & Hx & Hy & Hz & Hp). repeat split; assumption. Qed.
Lemma timestamp_assigns_len ops c : len (timestamp_bytes (assigns timestamp_assign ops c)) = len (timestamp_bytes c).
Proof.
  unfold assigns. revert c. induction ops as [|o ops IH]; intros c; [reflexivity|]. cbn [fold_left]. rewrite IH, !timestamp_len. destruct o; reflexivity.
Qed.
Lemma timestamp_drop_step E c : timestamp_packet_ok c ->
  icmp_checked_drop E (timestamp_as_ref E) (timestamp_bytes c) = (timestamp_bytes (timestamp_sum c), Ok tt).
Proof.
  intros Hc.
  assert (Hr : timestamp_as_ref E (timestamp_bytes c) = Ok (takeN 20 (timestamp_bytes c))).
  { unfold timestamp_as_ref, timestamp_size, timestamp_header_size, timestamp_payload_size. cbn [bind].
    rewrite usize_add_ok by (widths; lia). cbn [bind]. apply slice_to_ok. rewrite timestamp_len. lia. }
  rewrite (icmp_drop_ok E _ _ _ (timestamp_is_bytes c Hc) Hr) by (rewrite timestamp_len; lia). reflexivity.
Qed.
(** A message of at least twelve bytes as three 32-bit words and the rest. *)
Lemma three_words new : is_bytes new -> 12 <= len new ->
  new = enc32 (wire32 new 0) ++ enc32 (wire32 new 4) ++ enc32 (wire32 new 8) ++ dropN 12 new /\
  u32 (wire32 new 0) /\ u32 (wire32 new 4) /\ u32 (wire32 new 8).
Proof.
  intros Hb Hl.
  assert (Hx : forall i, nthN new i < 256) by (intros i; apply is_bytes_nth; assumption).
  assert (Hw : forall i, u32 (wire32 new i)).
  { intros i. unfold wire32, u32. pose proof (Hx i). pose proof (Hx (i + 1)). pose proof (Hx (i + 2)). pose proof (Hx (i + 3)). lia. }
  assert (He : forall i, enc32 (wire32 new i) = [nthN new i; nthN new (i + 1); nthN new (i + 2); nthN new (i + 3)]).
  { intros i. unfold wire32, enc32. pose proof (Hx i). pose proof (Hx (i + 1)). pose proof (Hx (i + 2)). pose proof (Hx (i + 3)).
    generalize dependent (nthN new i). generalize dependent (nthN new (i + 1)). generalize dependent (nthN new (i + 2)). generalize dependent (nthN new (i + 3)).
    intros a Ha b Hb' c Hc d Hd. f_equal; [lia|]. f_equal; [lia|]. f_equal; [lia|]. f_equal; lia. }
  split; [|split; [apply Hw|split; apply Hw]].
  rewrite !He. clear -Hl. do 12 (destruct new as [|? new]; [exfalso; apply Hl; reflexivity|]). reflexivity.
Qed.
Lemma timestamp_step E a c : timestamp_packet_ok c -> timestamp_action_ok a ->
  snd (timestamp_act E a (timestamp_bytes c)) = snd (timestamp_do a c) /\
  (snd (timestamp_do a c) <> Panic ->
   fst (timestamp_act E a (timestamp_bytes c)) = timestamp_bytes (fst (timestamp_do a c)) /\ timestamp_packet_ok (fst (timestamp_do a c)) /\
   len (timestamp_bytes (fst (timestamp_do a c))) = len (timestamp_bytes c)).
Proof.
  intros Hc Ha. destruct a as [o|ops|new|[]]; cbn [timestamp_act timestamp_do].
  - destruct (timestamp_assign_step o c Hc Ha) as (H1 & H2 & H3). rewrite H1. cbn [fst snd].
    split; [reflexivity|]. intros _. split; [reflexivity|]. split; [exact H3|]. rewrite !timestamp_len. destruct o; reflexivity.
  - unfold timestamp_checked.
    destruct (guard_sim timestamp_apply (icmp_checked_drop E (timestamp_as_ref E)) timestamp_assign timestamp_bytes timestamp_packet_ok timestamp_setter_ok timestamp_assign_step ops c Hc Ha) as [G1 G2].
    rewrite G2. rewrite timestamp_drop_step by exact G1.
    cbn [fst snd]. split; [reflexivity|]. intros _. split; [reflexivity|]. split; [apply timestamp_store_ok; [apply nonzero_checksum_u16|exact G1]|].
    rewrite <- (timestamp_assigns_len ops c), !timestamp_len. reflexivity.
  - set (hd := ident_wire (mp_header c) (mp_ident c) (mp_seq c)).
    set (tl := (enc32 (mp_originate c) ++ enc32 (mp_receive c) ++ enc32 (mp_transmit c)) ++ mp_behind c).
    assert (Hbs : timestamp_bytes c = hd ++ tl) by (unfold timestamp_bytes, timestamp_message, timestamp_wire; rewrite <- app_assoc; reflexivity).
    assert (Htl : len tl = 12 + len (mp_behind c)) by (unfold tl; rewrite len_app; reflexivity).
    assert (Hs : timestamp_split_mut (hd ++ tl) = Ok (Span 0 (len hd), Span (len hd) (len tl))).
    { change (len hd) with 8. unfold timestamp_split_mut, split_at_mut, whole. cbn [s_len s_at].
      rewrite len_app. change (len hd) with 8. destruct (N.leb_spec 8 (8 + len tl)); [|lia]. do 3 f_equal. lia. }
    rewrite Hbs. rewrite (fill_end _ _ _ new Hs). rewrite Htl. destruct (N.eqb_spec (len new) (12 + len (mp_behind c))) as [e|n]; cbn [fst snd].
    + destruct (three_words new Ha ltac:(lia)) as (W & W0 & W4 & W8).
      split; [reflexivity|]. intros _. split; [|split].
      * unfold timestamp_bytes, timestamp_message, timestamp_wire, timestamp_with.
        cbn [mp_header mp_ident mp_seq mp_originate mp_receive mp_transmit mp_behind]. fold hd. rewrite W at 1. rewrite <- !app_assoc. reflexivity.
      * destruct Hc as (H1 & H3 & H4 & _). split; [exact H1|]. split; [exact H3|]. split; [exact H4|].
        split; [exact W0|]. split; [exact W4|]. split; [exact W8|]. apply is_bytes_dropN, Ha.
      * rewrite timestamp_len. cbn [mp_behind timestamp_with]. rewrite <- Hbs, timestamp_len, len_dropN. lia.
    + split; [reflexivity|congruence].
Qed.
(** C71: an ICMP timestamp message. *)
Lemma c71_timestamp : forall E (l : list (action timestamp_setter Empty_set)) c, timestamp_packet_ok c -> Forall timestamp_action_ok l ->
  let (rs, last) := history timestamp_do l c in
  history (timestamp_act E) l (timestamp_bytes c) = (rs, option_map timestamp_bytes last) /\
  forall c', last = Some c' -> timestamp_packet_ok c' /\ len (timestamp_bytes c') = len (timestamp_bytes c).
Proof.
  intros E l c Hu Hl.
  pose proof (history_sim (timestamp_act E) timestamp_do timestamp_bytes
    (fun x => timestamp_packet_ok x /\ len (timestamp_bytes x) = len (timestamp_bytes c)) (fun a _ => timestamp_action_ok a)) as Q.
  specialize (Q ltac:(intros a s [H1 H2] H5;
    destruct (timestamp_step E a s H1 H5) as [G1 G2]; split; [exact G1|]; intros H; destruct (G2 H) as (G3 & G4 & G5);
    split; [exact G3|]; split; [exact G4|exact (eq_trans G5 H2)])).
  specialize (Q l c (conj Hu eq_refl)).
  destruct (history timestamp_do l c) as [rs last]. apply Q.
  clear -Hl. revert c. induction Hl as [|a l H Hl IH]; intros u; cbn [allowed]; [exact Logic.I|split; [exact H|intros _; apply IH]].
Qed.

(** ** Received messages are such records *)
Lemma ident_fields t : is_bytes t -> len t = 8 -> exists h i s, t = ident_wire h i s /\ icmp_fields_ok h /\ u16 i /\ u16 s.
Proof.
  intros Hx Hk. do 8 (destruct t as [|? t]; [discriminate Hk|]).
  destruct t; [|exfalso; autorewrite with len in Hk; lia]. clear Hk. unfold is_bytes, u8 in Hx.
  repeat match goal with H : Forall _ (_ :: _) |- _ => inversion H; clear H; subst end.
  exists {| cf_type := n; cf_code := n0; cf_checksum := n1 * 256 + n2 |}, (n3 * 256 + n4), (n5 * 256 + n6).
  unfold icmp_fields_ok, u8, u16, ident_wire, icmp_wire, enc16. cbn [cf_type cf_code cf_checksum app].
  repeat split; try lia. repeat f_equal; lia.
Qed.
(** C71: every information message and every timestamp message, with whatever follows it. *)
Lemma c71_messages_received :
  (forall b, is_bytes b -> information_new b = Ok b -> exists c, information_packet_ok c /\ information_bytes c = b) /\
  (forall b, is_bytes b -> timestamp_new b = Ok b -> exists c, timestamp_packet_ok c /\ timestamp_bytes c = b).
Proof.
  split; intros b Hb Hn.
  - apply (typed_inv _ _ _ _ _ c05_information_new) in Hn as (_ & Hl & _).
    destruct (ident_fields (takeN 8 b)) as (h & i & s & Ht & Hh & Hi & Hs); [apply is_bytes_takeN, Hb|autorewrite with len; lia|].
    exists {| np_header := h; np_ident := i; np_seq := s; np_behind := dropN 8 b |}. split.
    + split; [exact Hh|]. split; [exact Hi|]. split; [exact Hs|apply is_bytes_dropN, Hb].
    + unfold information_bytes, information_message. cbn [np_header np_ident np_seq np_behind]. rewrite <- Ht. apply takeN_dropN.
  - apply (typed_inv _ _ _ _ _ c05_timestamp_new) in Hn as (_ & Hl & _).
    destruct (ident_fields (takeN 8 b)) as (h & i & s & Ht & Hh & Hi & Hs); [apply is_bytes_takeN, Hb|autorewrite with len; lia|].
    destruct (three_words (dropN 8 b)) as (W & W0 & W4 & W8); [apply is_bytes_dropN, Hb|autorewrite with len; lia|].
    exists (timestamp_with h i s (wire32 (dropN 8 b) 0) (wire32 (dropN 8 b) 4) (wire32 (dropN 8 b) 8) (dropN 12 (dropN 8 b))). split.
    + split; [exact Hh|]. split; [exact Hi|]. split; [exact Hs|]. split; [exact W0|]. split; [exact W4|]. split; [exact W8|].
      apply is_bytes_dropN, is_bytes_dropN, Hb.
    + unfold timestamp_bytes, timestamp_message, timestamp_wire, timestamp_with.
      cbn [mp_header mp_ident mp_seq mp_originate mp_receive mp_transmit mp_behind]. rewrite <- Ht, <- !app_assoc, <- W. apply takeN_dropN.
Qed.
Example c71_messages_example :
  let t := timestamp_with {| cf_type := 13; cf_code := 0; cf_checksum := 0 |} 1 2 3 4 5 [9] in
  let l := [Call (TsSetReceive 77); Checked [TsMakeReply]; Fill [0;0;0;1;0;0;0;2;0;0;0;3;8]; Fill []] in
  timestamp_packet_ok t /\ Forall timestamp_action_ok l /\
  history timestamp_do l t = ([Ok tt; Ok tt; Ok tt; Panic], None).
Proof. split; [repeat split; repeat constructor|]. split; repeat constructor. Qed.
