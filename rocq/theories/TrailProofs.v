(** * TrailProofs: a UDP datagram in a buffer longer than its length field (C21). *)
From Coq Require Import ZifyBool ZifyNat ZifyN.
From Verif Require Import Base Enums Ipv4 Ip Udp Spec Lemmas ChecksumLemmas ChecksumProofs.
Ltac Zify.zify_post_hook ::= Z.div_mod_to_equations.
Open Scope N_scope.

Lemma ones_eq a b : 0 < a -> 0 < b -> (65535 - ones_sum a = 65535 - ones_sum b <-> a mod 65535 = b mod 65535).
Proof. intros Ha Hb. unfold ones_sum. destruct (a =? 0) eqn:A, (b =? 0) eqn:B; lia. Qed.
Lemma pseudo_sum s d seg : len seg < 65536 -> word_sum (with_pseudo_header s d 17 seg) = word_sum (octets s) + word_sum (octets d) + 17 + len seg + word_sum seg.
Proof.
  intros H. unfold with_pseudo_header. rewrite !word_sum_app by (destruct s, d; reflexivity). rewrite N.mod_small by lia.
  replace (word_sum (enc16 (len seg))) with (len seg) by (unfold enc16; cbn [word_sum]; lia). change (word_sum [0; 17]) with 17. lia.
Qed.
Lemma zero_field_app c t : 8 <= len c -> zero_field 6 (c ++ t) = zero_field 6 c ++ t.
Proof.
  intros H. unfold zero_field. rewrite len_app. replace (6 + 2 <=? len c + len t) with true by lia. replace (6 + 2 <=? len c) with true by lia.
  rewrite takeN_app1, dropN_app1 by lia. rewrite <- !app_assoc. reflexivity.
Qed.
(** C21: bytes behind the datagram count: when is_valid holds for the whole buffer,
    it holds for the datagram itself exactly when those bytes and their number add
    up to a multiple of 65535. *)
Lemma c21_udp_trailing : forall E p datagram trailing, is_bytes p -> is_bytes datagram -> is_bytes trailing ->
  20 <= len p -> 8 <= len datagram -> len datagram mod 2 = 0 -> len datagram + len trailing < 65536 ->
  len trailing mod 2 = 0 \/ cursor_eof E = EofKeep ->
  udp_is_valid E (V4 p) (datagram ++ trailing) = Ok true ->
  (udp_is_valid E (V4 p) datagram = Ok true <-> (word_sum trailing + len trailing) mod 65535 = 0).
Proof.
  intros E p c t Hp Hc Ht Hl Hlc He Hs Ho Hv.
  rewrite c21_udp_is_valid in Hv; [|assumption|apply is_bytes_app; split; assumption|assumption|rewrite len_app; lia|destruct Ho as [Ho|Ho]; [left; rewrite len_app; lia|right; exact Ho]].
  rewrite c21_udp_is_valid; [|assumption|assumption|assumption|assumption|left; exact He].
  apply Ok_inj in Hv.
  assert (W : wire16 (c ++ t) 6 = wire16 c 6) by (unfold wire16; rewrite !nthN_app1 by lia; reflexivity). rewrite W in Hv.
  assert (Z : forall b : bool, Ok b = Ok true <-> b = true) by (intros b; split; [apply Ok_inj|congruence]). rewrite Z.
  apply N.eqb_eq in Hv. rewrite N.eqb_eq, <- Hv. unfold inet_checksum. rewrite zero_field_app by assumption.
  rewrite !pseudo_sum by (rewrite ?len_app, ?len_zero_field; lia). rewrite word_sum_app by (rewrite len_zero_field; exact He). rewrite len_app, len_zero_field.
  rewrite ones_eq by lia. lia.
Qed.
(** C21: so a datagram whose checksum is right is not valid as parsed from a longer
    IP payload, while as_ref() gives the bytes for which it is. *)
Lemma c21_udp_trailing_refuted : forall E, exists p b c, v4_new p = Ok p /\ is_bytes p /\ v4_payload p = Ok b /\ udp_new b = Ok b /\
  udp_as_ref b = Ok c /\ udp_new c = Ok c /\ udp_is_valid E (V4 p) c = Ok true /\ udp_is_valid E (V4 p) b = Ok false.
Proof.
  intros E. exists [69;0;0;30;0;0;0;0;64;17;0;0;10;0;0;1;10;0;0;2;0;53;0;53;0;8;235;113;0;0], [0;53;0;53;0;8;235;113;0;0], [0;53;0;53;0;8;235;113].
  split; [reflexivity|]. split; [repeat constructor|]. destruct E as [[] [] []]; repeat apply conj; vm_compute; reflexivity.
Qed.
Example c21_udp_trailing_example : forall E, udp_is_valid E (V4 [69;0;0;32;0;0;0;0;64;17;0;0;10;0;0;1;10;0;0;2]) ([0;53;0;53;0;8;235;113] ++ [255; 253]) = Ok true.
Proof. intros E. destruct E as [[] [] []]; vm_compute; reflexivity. Qed.
