(** * IpProofs: the generic IP packet (C64). *)
From Coq Require Import ZifyBool ZifyNat ZifyN.
From Verif Require Import Base Enums Ipv4 Ip Udp Tcp Mutable Spec SpecMut Lemmas ChecksumProofs ParseProofs SliceProofs AccessProofs.
Ltac Zify.zify_post_hook ::= Z.div_mod_to_equations.
Open Scope N_scope.

(** C64: the generic parser accepts what the IPv4 and the IPv6 parser accept and
    nothing else, and its result is what converting theirs gives. *)
Lemma c64_new : forall b p, ip_new b = Ok p <-> (v4_new b = Ok b /\ p = ip_from_v4 b) \/ (v6_new b = Ok b /\ p = ip_from_v6 b).
Proof.
  intros b p. destruct (c06_ip_new b) as (H0 & H4 & H6 & Hx). destruct (c06_v6_new b) as (G0 & G6 & Gx). unfold ip_from_v4, ip_from_v6.
  assert (V : v4_new b = Ok b -> b <> [] /\ nthN b 0 / 16 = 4).
  { intros H. apply c02_v4_new_iff in H. destruct H as (_ & Hl & Hv & _). split; [intros ->; change (len []) with 0 in Hl; lia|lia]. }
  split.
  - intros H. destruct b as [|x b]; [rewrite H0 in H by reflexivity; discriminate|].
    destruct (N.eq_dec (nthN (x :: b) 0 / 16) 4) as [K|K].
    + rewrite H4 in H by (discriminate || exact K). left. destruct (v4_new (x :: b)) as [q|e|] eqn:Q; try discriminate.
      apply Ok_inj in H. subst p. assert (q = x :: b) as ->; [|split; reflexivity].
      apply c02_v4_new_iff in Q. apply Q.
    + destruct (N.eq_dec (nthN (x :: b) 0 / 16) 6) as [K'|K'].
      * rewrite H6 in H by (discriminate || exact K'). right. apply Ok_inj in H. subst p. split; [apply G6; [discriminate|exact K']|reflexivity].
      * rewrite Hx in H by (discriminate || assumption). discriminate.
  - intros [[H ->]|[H ->]].
    + destruct (V H) as [K K']. rewrite H4 by assumption. rewrite H. reflexivity.
    + destruct b as [|x b]; [rewrite G0 in H by reflexivity; discriminate|].
      destruct (N.eq_dec (nthN (x :: b) 0 / 16) 6) as [K|K]; [apply H6; [discriminate|exact K]|].
      rewrite Gx in H by (discriminate || exact K). discriminate.
Qed.
Lemma imax {E : env} : ISIZE_MAX + ISIZE_MAX < USIZE /\ 1000 <= ISIZE_MAX. Proof. widths; lia. Qed.
(** C64: header, payload, as_ref and sizes of an accepted generic packet: those
    of the IPv4 packet; an IPv6 packet shows nothing. *)
Lemma c64_slices : forall E b p, rust_slice b -> ip_new b = Ok p ->
  let h := if nthN b 0 / 16 =? 4 then nthN b 0 mod 16 * 4 else 0 in
  let n := if nthN b 0 / 16 =? 4 then N.max h (wire16 b 2) else 0 in
  h <= n <= len b /\ ip_buffer p = b /\
  ip_split p = Ok (takeN h b, dropN h (takeN n b)) /\ ip_header p = Ok (takeN h b) /\ ip_payload p = Ok (dropN h (takeN n b)) /\
  ip_header_size p = Ok h /\ ip_payload_size p = Ok (n - h) /\ ip_size E p = Ok n /\ ip_as_ref p = Ok (takeN n b).
Proof.
  intros E b p [_ Hr] H h n. pose proof imax. apply c64_new in H. destruct H as [[H ->]|[H ->]].
  - pose proof (c07_v4 b H) as K. pose proof H as H'. apply c02_v4_new_iff in H'. destruct H' as (_ & Hl & Hv & Hh & Hw).
    assert (V : nthN b 0 / 16 =? 4 = true) by lia. unfold n, h. rewrite V. cbv zeta in K.
    destruct K as (K1 & K2 & K3 & K4 & K5 & K6 & K7 & K8 & K9 & K10). unfold ip_from_v4, ip_header, ip_payload, ip_size.
    cbn [ip_buffer ip_split ip_header_size ip_payload_size ip_as_ref]. rewrite K2, K7, K8, K10. cbn [bind]. autorewrite with len in *.
    rewrite usize_add_ok.
    + repeat apply conj; try reflexivity; try lia; f_equal; lia.
    + lia.
  - assert (V : nthN b 0 / 16 =? 4 = false).
    { destruct (c06_v6_new b) as (G0 & G6 & Gx). destruct b as [|x b]; [rewrite G0 in H by reflexivity; discriminate|].
      destruct (N.eq_dec (nthN (x :: b) 0 / 16) 6) as [K|K]; [lia|rewrite Gx in H by (discriminate || exact K); discriminate]. }
    unfold n, h. rewrite V. unfold ip_from_v6, ip_header, ip_payload, ip_size.
    cbn [ip_buffer ip_split v6_split ip_header_size v6_header_size ip_payload_size v6_payload_size ip_as_ref v6_as_ref bind].
    rewrite usize_add_ok by (widths; lia). repeat apply conj; try reflexivity; lia.
Qed.
(** C64: converting a packet keeps its bytes, however it was made (parsed with
    new or no_payload, or unchecked), and every slice and size it shows; to_owned too. *)
Lemma c64_from : forall E b,
  (forall p, p = ip_from_v4 b \/ p = ip_to_owned (ip_from_v4 b) ->
     ip_buffer p = b /\ ip_split p = v4_split b /\ ip_header p = v4_header b /\ ip_payload p = v4_payload b /\ ip_as_ref p = v4_as_ref b /\
     ip_header_size p = v4_header_size b /\ ip_payload_size p = v4_payload_size b /\ ip_split_mut p = v4_split_mut b /\ ip_as_mut p = v4_as_mut b /\
     (is_bytes b -> ip_size E p = v4_size b)) /\
  (forall p, p = ip_from_v6 b \/ p = ip_to_owned (ip_from_v6 b) ->
     ip_buffer p = b /\ ip_split p = Ok ([], []) /\ ip_header p = Ok [] /\ ip_payload p = Ok [] /\ ip_as_ref p = Ok [] /\
     ip_header_size p = Ok 0 /\ ip_payload_size p = Ok 0 /\ ip_size E p = Ok 0).
Proof.
  intros E b. split; intros p Hp.
  - assert (p = V4 b) as -> by (destruct Hp; assumption). repeat apply conj; try reflexivity.
    intros Hb. unfold ip_size, v4_size. cbn [ip_header_size ip_payload_size]. unfold v4_payload_size, v4_header_size, v4_ihl.
    destruct (index b 0) as [x|e|] eqn:X; cbn [bind]; try reflexivity. unfold v4_length.
    destruct (N.leb_spec 4 (len b)) as [L|L].
    + rewrite get_u16_ok by lia. cbn [bind]. apply usize_add_ok. rewrite land15_mod. pose proof (wire16_lt b 2 Hb) as W. unfold wire16 in W. widths. lia.
    + assert (K : forall v, get_u16 b 2 = Ok v -> False).
      { intros v. unfold get_u16, slice_from. destruct (2 <=? len b) eqn:Q; cbn [bind]; [|discriminate].
        intros R. assert (len (dropN 2 b) < 2) by (rewrite len_dropN; lia). destruct (dropN 2 b) as [|y [|z r]]; cbn in R; try discriminate; rewrite !len_cons in *; lia. }
      destruct (get_u16 b 2) as [v|e|]; cbn [bind]; [destruct (K v eq_refl)|reflexivity|reflexivity].
  - assert (p = V6 b) as -> by (destruct Hp; assumption). repeat apply conj; try reflexivity.
    unfold ip_size. cbn [ip_header_size ip_payload_size bind v6_header_size v6_payload_size]. apply usize_add_ok. widths. lia.
Qed.
Example c64_example : forall E : env, rust_slice (69 :: 0 :: 0 :: 24 :: zeros 20) /\
  ip_new (69 :: 0 :: 0 :: 24 :: zeros 20) = Ok (ip_from_v4 (69 :: 0 :: 0 :: 24 :: zeros 20)) /\
  ip_payload (ip_from_v4 (69 :: 0 :: 0 :: 24 :: zeros 20)) = Ok [0; 0; 0; 0] /\
  ip_new [96; 1; 2] = Ok (ip_from_v6 [96; 1; 2]) /\ ip_as_ref (ip_from_v6 [96; 1; 2]) = Ok [].
Proof. intros [[] [] []]; (split; [split; [repeat constructor; reflexivity|vm_compute; discriminate]|]; repeat split). Qed.
