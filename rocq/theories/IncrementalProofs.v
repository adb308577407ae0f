(** * IncrementalProofs: recomputing a checksum is the incremental update of RFC 1624 (C70). *)
From Verif Require Import Base Enums Ipv4 Ip Udp Tcp Icmp Spec SpecCalls SpecIncremental Lemmas AccessProofs ParseProofs SliceProofs FieldProofs
  ChecksumLemmas ChecksumProofs GuardProofs CorruptProofs.
From Coq Require Import ZifyBool ZifyNat ZifyN.
Ltac Zify.zify_post_hook ::= Z.div_mod_to_equations.

Lemma ones_add_sum x y : x <= 65535 -> y <= 65535 -> 0 < x -> ones_add x y = ones_sum (x + y).
Proof.
  intros Hx Hy H0. unfold ones_add, ones_sum. destruct (N.eqb_spec (x + y) 0); [lia|].
  destruct (N.ltb_spec 65535 (x + y)); lia.
Qed.
(** Replacing a word [m] by [m'] in a sum. *)
Lemma incremental s m m' : m <= 65535 -> m' <= 65535 -> 0 < s + m -> 0 < s + m' ->
  rfc1624 (65535 - ones_sum (s + m)) m m' = 65535 - ones_sum (s + m').
Proof.
  intros Hm Hm' H0 H0'. unfold rfc1624, ones_not. pose proof (ones_sum_lt (s + m)) as Hlt.
  assert (Hp : 0 < ones_sum (s + m)) by (pose proof (ones_sum_0 (s + m)); lia).
  replace (65535 - (65535 - ones_sum (s + m))) with (ones_sum (s + m)) by lia.
  rewrite (ones_add_sum (ones_sum (s + m)) (65535 - m)) by lia. rewrite ones_sum_add.
  rewrite (ones_add_sum (ones_sum _)); [|pose proof (ones_sum_lt (s + m + (65535 - m))); lia|exact Hm'|pose proof (ones_sum_0 (s + m + (65535 - m))); lia].
  rewrite ones_sum_add. f_equal. apply ones_sum_eq; [lia|].
  replace (s + m + (65535 - m) + m') with (s + m' + 1 * 65535) by lia. apply N.mod_add. lia.
Qed.
(** The words of a message around a replaced one. *)
Lemma word_sum_zero i b : i mod 2 = 0 -> i + 2 <= len b -> word_sum b = word_sum (zero_field i b) + wire16 b i.
Proof. apply word_sum_stored. Qed.
Lemma zero_field_comm off i b : off + 2 <= len b -> i + 2 <= len b -> zero_field off (zero_field i b) = zero_field i (zero_field off b).
Proof.
  intros H1 H2. rewrite !(zero_field_patch _ b) by assumption.
  rewrite !zero_field_patch by (rewrite len_patch; cbn; lia). apply nthN_ext.
  { rewrite !len_patch by (rewrite ?len_patch; cbn; lia). reflexivity. }
  intros k _. rewrite !nthN_patch by (rewrite ?len_patch; cbn; lia). change (len [0; 0]) with 2.
  destruct (N.leb_spec off k), (N.ltb_spec k (off + 2)), (N.leb_spec i k), (N.ltb_spec k (i + 2)); cbn [andb]; try reflexivity.
  assert (Hk : k - off = 0 \/ k - off = 1) by lia. assert (Hk' : k - i = 0 \/ k - i = 1) by lia.
  destruct Hk as [-> | ->], Hk' as [-> | ->]; reflexivity.
Qed.
Lemma wire16_zero_out off i b : off + 2 <= len b -> i + 2 <= off \/ off + 2 <= i -> wire16 (zero_field off b) i = wire16 b i.
Proof.
  intros H1 H2. rewrite zero_field_patch by assumption. apply wire16_patch_out; cbn; lia.
Qed.
(** The sum without the checksum, before and after. *)
Lemma sum_replace off i w b : off mod 2 = 0 -> i mod 2 = 0 -> off + 2 <= len b -> i + 2 <= len b -> i <> off ->
  word_sum (zero_field off b) = word_sum (zero_field i (zero_field off b)) + wire16 b i /\
  word_sum (zero_field off (patch i (enc16 w) b)) = word_sum (zero_field i (zero_field off b)) + w.
Proof.
  intros Ho Hi H1 H2 Hne. assert (Hz : len (zero_field off b) = len b) by apply len_zero_field. split.
  - rewrite (word_sum_stored i (zero_field off b)) by lia. rewrite wire16_zero_out by lia. reflexivity.
  - assert (Hc : zero_field off (patch i (enc16 w) b) = patch i (enc16 w) (zero_field off b)).
    { assert (Hlp : len (patch i (enc16 w) b) = len b) by (apply len_patch; autorewrite with len; lia).
      rewrite !zero_field_patch by lia. apply nthN_ext; [rewrite !len_patch; rewrite ?len_patch; autorewrite with len; cbn; try lia; rewrite ?len_patch; autorewrite with len; cbn; lia|].
      intros k _. rewrite !nthN_patch by (rewrite ?len_patch; autorewrite with len; cbn; lia).
      change (len [0; 0]) with 2. replace (len (enc16 w)) with 2 by reflexivity.
      destruct (N.leb_spec off k), (N.ltb_spec k (off + 2)), (N.leb_spec i k), (N.ltb_spec k (i + 2)); cbn [andb]; try reflexivity; lia. }
    rewrite Hc. apply word_sum_field; lia.
Qed.

Lemma v4_update_eq E b : is_bytes b -> v4_no_payload b = Ok b -> 3 <= nthN b 0 mod 16 ->
  v4_update_checksum E b = (patch 10 (enc16 (inet_checksum (zero_field 10 (takeN (nthN b 0 mod 16 * 4) b)))) b, Ok tt).
Proof.
  intros Hb Hn Hi. apply v4_no_payload_iff in Hn as Hx. destruct Hx as (_ & Hl & Hv & Hh).
  unfold v4_update_checksum, mlet, v4_header. rewrite v4_split_ok by lia. cbn [bind].
  pose proof (v4_header_sum b ltac:(lia) ltac:(lia) ltac:(lia)).
  rewrite c20_v4_checksum_rfc; [|apply is_bytes_takeN; exact Hb|autorewrite with len; lia|lia].
  apply v4_set_checksum_ok; (assumption || lia).
Qed.
Lemma v4_replace : forall E b i w, is_bytes b -> u16 w -> v4_no_payload b = Ok b -> 3 <= nthN b 0 mod 16 ->
  i mod 2 = 0 -> i + 2 <= nthN b 0 mod 16 * 4 -> i <> 10 ->
  let b1 := patch i (enc16 w) b in nthN b1 0 = nthN b 0 ->
  v4_is_valid E b = Ok true ->
  v4_update_checksum E b1 = (patch 10 (enc16 (rfc1624 (wire16 b 10) (wire16 b i) w)) b1, Ok tt).
Proof.
  intros E b i w Hb Hw Hn Hi He Hh Hne b1 H0 Hv. apply v4_no_payload_iff in Hn as Hx. destruct Hx as (_ & Hl & Hver & Hlen).
  assert (Hl1 : len b1 = len b) by (apply len_patch; autorewrite with len; lia).
  assert (Hb1 : is_bytes b1) by (apply is_bytes_patch; [exact Hb|apply is_bytes_enc16; exact Hw]).
  assert (Hn1 : v4_no_payload b1 = Ok b1) by (apply v4_no_payload_iff; rewrite H0, Hl1; repeat split; lia).
  rewrite v4_update_eq by (rewrite ?H0; assumption). rewrite H0.
  rewrite c20_v4_is_valid in Hv by (assumption || lia). rewrite ok_true_eqb in Hv. rewrite <- Hv.
  pose proof (v4_header_sum b ltac:(lia) ltac:(lia) ltac:(lia)) as Hs.
  pose proof (v4_header_sum b1 ltac:(lia) ltac:(lia) ltac:(rewrite H0; lia)) as Hs1. rewrite H0 in Hs1.
  set (h := nthN b 0 mod 16 * 4) in *.
  assert (Ht : takeN h b1 = patch i (enc16 w) (takeN h b)) by (apply takeN_patch; autorewrite with len; lia).
  rewrite Ht in *. unfold inet_checksum.
  destruct (sum_replace 10 i w (takeN h b)) as [E1 E2]; try (autorewrite with len; lia); try reflexivity; try assumption.
  rewrite E1, E2 in *.
  assert (Hwi : wire16 (takeN h b) i = wire16 b i) by (unfold wire16; rewrite !nthN_takeN by lia; reflexivity). rewrite Hwi in *.
  rewrite incremental; [reflexivity| | |exact Hs|exact Hs1].
  - pose proof (wire16_lt b i Hb). lia.
  - unfold u16 in Hw. lia.
Qed.
(** C70: IPv4.  One word of the header of a valid packet is replaced (not the checksum;
    the version and the header length stay): update_checksum() writes the checksum that
    RFC 1624 computes from the old checksum, the old word and the new word. *)
Lemma c70_v4 : forall E b i w, is_bytes b -> u16 w -> v4_no_payload b = Ok b -> 3 <= nthN b 0 mod 16 ->
  i mod 2 = 0 -> i + 2 <= nthN b 0 mod 16 * 4 -> i <> 10 ->
  let b1 := put16 i w b in nthN b1 0 = nthN b 0 ->
  v4_is_valid E b = Ok true ->
  v4_update_checksum E b1 = (put16 10 (rfc1624 (wire16 b 10) (wire16 b i) w) b1, Ok tt).
Proof. exact v4_replace. Qed.
Lemma ttl_replace : forall E b v, is_bytes b -> u8 v -> v4_no_payload b = Ok b -> 5 <= nthN b 0 mod 16 ->
  v4_is_valid E b = Ok true ->
  v4_checked E [V4SetTtl v] b =
  (patch 10 (enc16 (rfc1624 (wire16 b 10) (wire16 b 8) (v * 256 + nthN b 9))) (alter b 8 v), Ok tt).
Proof.
  intros E b v Hb Hv Hn Hi Hval. apply v4_no_payload_iff in Hn as Hx. destruct Hx as (_ & Hl & Hver & Hlen).
  assert (Hs : v4_set_ttl v b = (alter b 8 v, Ok tt)).
  { rewrite alter_patch. apply v4_header_mut; [exact Hn| |cbn; lia]. intros h Hh'. cbn in Hh'. apply set_index_ok. lia. }
  unfold v4_checked. cbn [run_guard v4_apply]. rewrite Hs.
  pose proof (is_bytes_nth b 9 Hb) as H9. unfold u8 in *.
  assert (Hp : alter b 8 v = patch 8 (enc16 (v * 256 + nthN b 9)) b).
  { rewrite alter_patch. apply nthN_ext; [rewrite !len_patch; autorewrite with len; cbn; lia|]. intros k _.
    rewrite !nthN_patch by (autorewrite with len; cbn; lia). change (len [v]) with 1.
    replace (len (enc16 (v * 256 + nthN b 9))) with 2 by reflexivity.
    destruct (N.leb_spec 8 k), (N.ltb_spec k (8 + 1)), (N.ltb_spec k (8 + 2)); cbn [andb]; try reflexivity; try lia.
    - replace k with 8 by lia. change (8 - 8) with 0. unfold enc16. rewrite !nthN_cons0. symmetry. lia.
    - replace k with 9 by lia. change (9 - 8) with 1. change (nthN (enc16 (v * 256 + nthN b 9)) 1) with ((v * 256 + nthN b 9) mod 256). lia. }
  rewrite Hp. rewrite (v4_replace E b 8 (v * 256 + nthN b 9)); try assumption; try reflexivity; try lia.
  - unfold u16. lia.
  - rewrite <- Hp. rewrite nthN_alter by lia. reflexivity.
Qed.
(** C70: in particular a router's step: set_ttl() through checked(). *)
Lemma c70_ttl : forall E b v, is_bytes b -> u8 v -> v4_no_payload b = Ok b -> 5 <= nthN b 0 mod 16 ->
  v4_is_valid E b = Ok true ->
  v4_checked E [V4SetTtl v] b =
  (put16 10 (rfc1624 (wire16 b 10) (wire16 b 8) (v * 256 + nthN b 9)) (alter b 8 v), Ok tt).
Proof. exact ttl_replace. Qed.
Lemma pseudo_sum_parts p proto off b : 20 <= len p ->
  word_sum (with_pseudo_header (wire_addr p 12) (wire_addr p 16) proto (zero_field off b)) =
  (proto + len b mod 65536 + word_sum (dropN 12 (takeN 20 p))) + word_sum (zero_field off b).
Proof. intros H. rewrite sum_addresses by exact H. rewrite len_zero_field. lia. Qed.
Lemma pseudo_replace p proto off i w b : is_bytes b -> u16 w -> 20 <= len p -> 0 < proto ->
  off mod 2 = 0 -> i mod 2 = 0 -> off + 2 <= len b -> i + 2 <= len b -> i <> off ->
  inet_checksum (with_pseudo_header (wire_addr p 12) (wire_addr p 16) proto (zero_field off (patch i (enc16 w) b))) =
  rfc1624 (inet_checksum (with_pseudo_header (wire_addr p 12) (wire_addr p 16) proto (zero_field off b))) (wire16 b i) w.
Proof.
  intros Hb Hw Hl H0 Ho Hi H1 H2 Hne. unfold inet_checksum. rewrite !pseudo_sum_parts by exact Hl.
  rewrite len_patch by (autorewrite with len; lia).
  destruct (sum_replace off i w b Ho Hi H1 H2 Hne) as [E1 E2]. rewrite E1, E2, !N.add_assoc.
  rewrite incremental; [reflexivity| | |lia|lia].
  - pose proof (wire16_lt b i Hb). lia.
  - unfold u16 in Hw. lia.
Qed.
Lemma udp_replace : forall E p b i w, is_bytes p -> is_bytes b -> u16 w -> 20 <= len p -> 8 <= len b ->
  len b mod 2 = 0 \/ cursor_eof E = EofKeep ->
  i mod 2 = 0 -> i + 2 <= len b -> i <> 6 -> udp_is_valid E (V4 p) b = Ok true ->
  let b1 := patch i (enc16 w) b in
  udp_update_checksum E (V4 p) b1 = (patch 6 (enc16 (rfc1624 (wire16 b 6) (wire16 b i) w)) b1, Ok tt).
Proof.
  intros E p b i w Hp Hb Hw Hl Hlb Hc Hi Hi2 Hne Hv b1.
  assert (Hl1 : len b1 = len b) by (apply len_patch; autorewrite with len; lia).
  assert (Hb1 : is_bytes b1) by (apply is_bytes_patch; [exact Hb|apply is_bytes_enc16; exact Hw]).
  rewrite c21_udp_is_valid in Hv by assumption. rewrite ok_true_eqb in Hv. rewrite <- Hv.
  unfold udp_update_checksum, mlet. rewrite udp_checksum_eq by (assumption || lia).
  rewrite seen_covered by (rewrite len_zero_field, Hl1; exact Hc).
  unfold b1 at 1. rewrite (pseudo_replace p 17 6 i w b) by (assumption || reflexivity || lia).
  apply udp_header_write; lia.
Qed.
(** C70: any word of a valid UDP datagram ... *)
Lemma c70_udp : forall E p b i w, is_bytes p -> is_bytes b -> u16 w -> 20 <= len p -> 8 <= len b ->
  len b mod 2 = 0 \/ cursor_eof E = EofKeep ->
  i mod 2 = 0 -> i + 2 <= len b -> i <> 6 -> udp_is_valid E (V4 p) b = Ok true ->
  let b1 := put16 i w b in
  udp_update_checksum E (V4 p) b1 = (put16 6 (rfc1624 (wire16 b 6) (wire16 b i) w) b1, Ok tt).
Proof. exact udp_replace. Qed.
Lemma tcp_replace : forall E p b i w, is_bytes p -> is_bytes b -> u16 w -> 20 <= len p -> len b <= 131065 ->
  len b mod 2 = 0 \/ cursor_eof E = EofKeep -> tcp_new b = Ok b -> 5 <= nthN b 12 / 16 ->
  i mod 2 = 0 -> i + 2 <= len b -> i <> 16 -> tcp_is_valid E (V4 p) b = Ok true ->
  let b1 := patch i (enc16 w) b in nthN b1 12 / 16 = nthN b 12 / 16 ->
  tcp_update_checksum E (V4 p) b1 = (patch 16 (enc16 (rfc1624 (wire16 b 16) (wire16 b i) w)) b1, Ok tt).
Proof.
  intros E p b i w Hp Hb Hw Hl Hlb Hc Hn Ho Hi Hi2 Hne Hv b1 H12. apply tcp_new_iff in Hn as Hx. destruct Hx as (_ & H20 & Hof).
  assert (Hl1 : len b1 = len b) by (apply len_patch; autorewrite with len; lia).
  assert (Hb1 : is_bytes b1) by (apply is_bytes_patch; [exact Hb|apply is_bytes_enc16; exact Hw]).
  rewrite c22_tcp_is_valid in Hv by (assumption || lia). rewrite ok_true_eqb in Hv. rewrite <- Hv.
  rewrite tcp_update_eq; [| |exact Hb1|assumption|lia|rewrite Hl1; exact Hc|apply tcp_new_iff; rewrite H12, Hl1; repeat split; lia|lia]; [|exact Hp].
  unfold b1 at 1. rewrite (pseudo_replace p 6 16 i w b) by (assumption || reflexivity || lia). reflexivity.
Qed.
(** C70: ... or TCP segment ... *)
Lemma c70_tcp : forall E p b i w, is_bytes p -> is_bytes b -> u16 w -> 20 <= len p -> len b <= 131065 ->
  len b mod 2 = 0 \/ cursor_eof E = EofKeep -> tcp_new b = Ok b -> 5 <= nthN b 12 / 16 ->
  i mod 2 = 0 -> i + 2 <= len b -> i <> 16 -> tcp_is_valid E (V4 p) b = Ok true ->
  let b1 := put16 i w b in nthN b1 12 / 16 = nthN b 12 / 16 ->
  tcp_update_checksum E (V4 p) b1 = (put16 16 (rfc1624 (wire16 b 16) (wire16 b i) w) b1, Ok tt).
Proof. exact tcp_replace. Qed.
Lemma icmp_replace : forall E b i w, is_bytes b -> u16 w -> 4 <= len b -> len b mod 2 = 0 ->
  i mod 2 = 0 -> i + 2 <= len b -> i <> 2 -> icmp_is_valid E b = Ok true ->
  let b1 := patch i (enc16 w) b in
  word_sum (zero_field 2 b) <> 0 -> word_sum (zero_field 2 b1) <> 0 ->
  icmp_checksum_of E b1 = Ok (rfc1624 (wire16 b 2) (wire16 b i) w).
Proof.
  intros E b i w Hb Hw Hl He Hi Hi2 Hne Hv b1 H0 H1.
  assert (Hl1 : len b1 = len b) by (apply len_patch; autorewrite with len; lia).
  assert (Hb1 : is_bytes b1) by (apply is_bytes_patch; [exact Hb|apply is_bytes_enc16; exact Hw]).
  unfold icmp_is_valid in Hv. rewrite c23_icmp_checksum_rfc in Hv by assumption. cbn [bind] in Hv.
  unfold icmp_checksum in Hv. rewrite get16 in Hv by lia. cbn [bind] in Hv. rewrite ok_true_eqb in Hv. rewrite <- Hv.
  rewrite c23_icmp_checksum_rfc by (assumption || (rewrite Hl1; assumption)). unfold inet_checksum.
  destruct (sum_replace 2 i w b ltac:(reflexivity) Hi ltac:(lia) Hi2 Hne) as [E1 E2]. fold b1 in E2. rewrite E1, E2 in *.
  rewrite incremental; [reflexivity| | |lia|lia].
  - pose proof (wire16_lt b i Hb). lia.
  - unfold u16 in Hw. lia.
Qed.
(** C70: ... or ICMP message of even length that is not all zero outside its checksum. *)
Lemma c70_icmp : forall E b i w, is_bytes b -> u16 w -> 4 <= len b -> len b mod 2 = 0 ->
  i mod 2 = 0 -> i + 2 <= len b -> i <> 2 -> icmp_is_valid E b = Ok true ->
  let b1 := put16 i w b in
  word_sum (zero_field 2 b) <> 0 -> word_sum (zero_field 2 b1) <> 0 ->
  icmp_checksum_of E b1 = Ok (rfc1624 (wire16 b 2) (wire16 b i) w).
Proof. exact icmp_replace. Qed.
Lemma nat_replace : forall E p b i w, is_bytes p -> is_bytes b -> u16 w -> 20 <= len p ->
  len b mod 2 = 0 \/ cursor_eof E = EofKeep ->
  i mod 2 = 0 -> 12 <= i -> i + 2 <= 20 ->
  let p1 := patch i (enc16 w) p in
  (8 <= len b -> udp_is_valid E (V4 p) b = Ok true ->
   udp_checksum_of E (V4 p1) b = Ok (rfc1624 (wire16 b 6) (wire16 p i) w)) /\
  (18 <= len b <= 131065 -> tcp_is_valid E (V4 p) b = Ok true ->
   tcp_checksum_of E (V4 p1) b = Ok (rfc1624 (wire16 b 16) (wire16 p i) w)).
Proof.
  intros E p b i w Hp Hb Hw Hl Hc Hi H12 H20 p1.
  assert (Hl1 : len p1 = len p) by (apply len_patch; autorewrite with len; lia).
  assert (Hb1 : is_bytes p1) by (apply is_bytes_patch; [exact Hp|apply is_bytes_enc16; exact Hw]).
  assert (Hsum : exists s, word_sum (dropN 12 (takeN 20 p)) = s + wire16 p i /\ word_sum (dropN 12 (takeN 20 p1)) = s + w).
  { exists (word_sum (zero_field (i - 12) (dropN 12 (takeN 20 p)))).
    assert (Ha : dropN 12 (takeN 20 p1) = patch (i - 12) (enc16 w) (dropN 12 (takeN 20 p))).
    { apply nthN_ext; [rewrite len_patch; autorewrite with len; lia|]. intros k Hk. autorewrite with len in Hk.
      rewrite nthN_dropN, nthN_takeN by lia. unfold p1. rewrite !nthN_patch by (autorewrite with len; lia).
      replace (len (enc16 w)) with 2 by reflexivity. rewrite nthN_dropN, nthN_takeN by lia.
      destruct (N.leb_spec i (12 + k)), (N.ltb_spec (12 + k) (i + 2)), (N.leb_spec (i - 12) k), (N.ltb_spec k (i - 12 + 2)); cbn [andb]; try lia; try reflexivity.
      f_equal. lia. }
    split.
    - rewrite (word_sum_stored (i - 12)) at 1 by (autorewrite with len; lia). f_equal. unfold wire16.
      rewrite !nthN_dropN, !nthN_takeN by lia. f_equal; [f_equal|]; f_equal; lia.
    - rewrite Ha. apply word_sum_field; autorewrite with len; lia. }
  destruct Hsum as (s & E1 & E2).
  assert (Hinc : forall proto off, 0 < proto ->
    inet_checksum (with_pseudo_header (wire_addr p1 12) (wire_addr p1 16) proto (zero_field off b)) =
    rfc1624 (inet_checksum (with_pseudo_header (wire_addr p 12) (wire_addr p 16) proto (zero_field off b))) (wire16 p i) w).
  { intros proto off H0. unfold inet_checksum. rewrite !sum_addresses by lia. rewrite E1, E2, !N.add_assoc.
    rewrite incremental; [reflexivity| | |lia|lia].
    - pose proof (wire16_lt p i Hp). lia.
    - unfold u16 in Hw. lia. }
  split; intros Hlb Hv.
  - rewrite c21_udp_is_valid in Hv by assumption. rewrite ok_true_eqb in Hv. rewrite <- Hv.
    rewrite udp_checksum_eq by (assumption || lia). rewrite seen_covered by (rewrite len_zero_field; exact Hc).
    rewrite Hinc by lia. reflexivity.
  - rewrite c22_tcp_is_valid in Hv by assumption. rewrite ok_true_eqb in Hv. rewrite <- Hv.
    rewrite tcp_checksum_eq by (assumption || lia). rewrite Hinc by lia. reflexivity.
Qed.
(** C70: one word of the addresses of the IPv4 packet is replaced (network address
    translation): what UDP and TCP then need is the same update. *)
Lemma c70_nat : forall E p b i w, is_bytes p -> is_bytes b -> u16 w -> 20 <= len p ->
  len b mod 2 = 0 \/ cursor_eof E = EofKeep ->
  i mod 2 = 0 -> 12 <= i -> i + 2 <= 20 ->
  let p1 := put16 i w p in
  (8 <= len b -> udp_is_valid E (V4 p) b = Ok true ->
   udp_checksum_of E (V4 p1) b = Ok (rfc1624 (wire16 b 6) (wire16 p i) w)) /\
  (18 <= len b <= 131065 -> tcp_is_valid E (V4 p) b = Ok true ->
   tcp_checksum_of E (V4 p1) b = Ok (rfc1624 (wire16 b 16) (wire16 p i) w)).
Proof. exact nat_replace. Qed.
Example c70_example : forall E,
  let b := [69; 0; 0; 20; 1; 2; 64; 0; 64; 17; 37; 213; 10; 0; 0; 1; 10; 0; 0; 2] in
  is_bytes b /\ v4_no_payload b = Ok b /\ v4_is_valid E b = Ok true /\
  wire16 b 10 = 9685 /\ rfc1624 9685 (64 * 256 + 17) (63 * 256 + 17) = 9941 /\
  v4_checked E [V4SetTtl 63] b = ([69; 0; 0; 20; 1; 2; 64; 0; 63; 17; 38; 213; 10; 0; 0; 1; 10; 0; 0; 2], Ok tt).
Proof. intros [[] [] []]; repeat split; repeat constructor. Qed.
