(** * ForwardProofs: forwarding and answering in place (C69). *)
From Verif Require Import Base Enums Ether Ipv4 Ip Udp Tcp Icmp Spec SpecCalls SpecEdit SpecCorrupt SpecForward Mutable Lemmas AccessProofs
  ParseProofs FieldProofs ChecksumLemmas ChecksumProofs GuardProofs SliceProofs MutableProofs EditProofs CorruptProofs.
From Coq Require Import ZifyBool ZifyNat ZifyN Permutation.
Ltac Zify.zify_post_hook ::= Z.div_mod_to_equations.

Lemma enc16_wire b i : is_bytes b -> enc16 (wire16 b i) = [nthN b i; nthN b (i + 1)].
Proof.
  intros H. unfold enc16, wire16. pose proof (is_bytes_nth b i H). pose proof (is_bytes_nth b (i + 1) H). repeat f_equal; lia.
Qed.
(** ** Changing fixed header fields only *)
Lemma fixed_change b b1 : v4_new b = Ok b -> 5 <= nthN b 0 mod 16 -> only_changes 1 20 b b1 -> wire16 b1 2 = wire16 b 2 ->
  v4_new b1 = Ok b1 /\ v4_payload b1 = v4_payload b.
Proof.
  intros Hn Hi [Hl Hc] H2. assert (H0 : nthN b1 0 = nthN b 0) by (apply Hc; lia).
  assert (Hn1 : v4_new b1 = Ok b1).
  { apply c02_v4_new_iff in Hn. destruct Hn as (_ & H1 & H3 & H4 & H5). apply c02_v4_new_iff.
    rewrite H0, H2, Hl. repeat split; assumption. }
  split; [exact Hn1|].
  pose proof (c07_v4 b Hn) as Q. pose proof (c07_v4 b1 Hn1) as Q1. cbv zeta in Q, Q1. rewrite H0, H2 in Q1.
  destruct Q as (_ & _ & _ & Hp & _), Q1 as (_ & _ & _ & Hp1 & _). rewrite Hp, Hp1. f_equal.
  set (h := nthN b 0 mod 16 * 4) in *. apply nthN_ext; [autorewrite with len; lia|]. intros i Hi'.
  autorewrite with len in Hi'. rewrite !nthN_dropN, !nthN_takeN by lia. apply Hc. lia.
Qed.
Lemma len_payload b u : v4_new b = Ok b -> v4_payload b = Ok u -> is_bytes b -> is_bytes u /\ len u <= 65535.
Proof.
  intros Hn Hp Hb. pose proof (c07_v4 b Hn) as Q. cbv zeta in Q. destruct Q as (_ & _ & _ & Q & _).
  rewrite Hp in Q. apply Ok_inj in Q. rewrite Q. split; [apply is_bytes_dropN, is_bytes_takeN, Hb|].
  autorewrite with len. pose proof (wire16_lt b 2 Hb). lia.
Qed.
Lemma new_no_payload b : v4_new b = Ok b -> v4_no_payload b = Ok b.
Proof. intros H. apply c02_v4_new_iff in H. apply v4_no_payload_iff. tauto. Qed.

(** C69: forwarding.  Setting anything but the addresses through the checked guard
    of the IPv4 packet leaves the transport packet alone, and its checksum as
    right or wrong as it was. *)
Lemma c69_forward : forall E b ops, is_bytes b -> v4_new b = Ok b -> 5 <= nthN b 0 mod 16 ->
  Forall v4_setter_ok ops -> Forall v4_in_range ops -> Forall keeps_addresses ops ->
  exists b', v4_checked E ops b = (b', Ok tt) /\ v4_new b' = Ok b' /\ v4_is_valid E b' = Ok true /\
    v4_payload b' = v4_payload b /\
    v4_source b' = v4_source b /\ v4_destination b' = v4_destination b /\
    v4_ttl b' = Ok (last_value v4_ttl_of ops (nthN b 8)) /\
    (forall u, udp_is_valid E (V4 b') u = udp_is_valid E (V4 b) u /\
               tcp_is_valid E (V4 b') u = tcp_is_valid E (V4 b) u).
Proof.
  intros E b ops Hb Hn Hi Hok Hr Hk. pose proof (new_no_payload b Hn) as Hnp.
  destruct (c25_v4 E ops b Hb Hnp Hi Hok) as (b' & Hg & Hc10 & Hc1 & Hv & _).
  destruct (c52_v4 ops b Hb Hnp Hi Hok Hr) as (c & Ha & _ & _ & Httl & _ & Hsrc & Hdst & _ & Hlen & _ & Hoc).
  apply all_ok_calls in Ha. rewrite Ha in Hc10.
  pose proof Hc1 as [Hl1 _]. pose proof Hoc as [Hlc _].
  apply c02_v4_new_iff in Hn as Hn'. destruct Hn' as (_ & H20 & _).
  assert (Hs : last_value v4_src_of ops (wire_addr b 12) = wire_addr b 12 /\
               last_value v4_dst_of ops (wire_addr b 16) = wire_addr b 16).
  { generalize (wire_addr b 12) (wire_addr b 16). clear - Hk. unfold last_value.
    induction Hk as [|o ops Ho Hk IH]; intros x y; [split; reflexivity|]. cbn [fold_left].
    destruct o; try (apply IH); cbn in Ho; contradiction. }
  destruct Hs as [Hs1 Hs2]. rewrite Hs1 in Hsrc. rewrite Hs2 in Hdst.
  rewrite v4_source_ok in Hsrc by lia. rewrite v4_destination_ok in Hdst by lia. apply Ok_inj in Hsrc, Hdst.
  assert (Hw : forall i, 12 <= i -> wire_addr b' i = wire_addr c i).
  { intros i Hi'. destruct Hc10 as [_ Hc]. unfold wire_addr. rewrite !Hc by lia. reflexivity. }
  assert (H2 : wire16 b' 2 = wire16 b 2).
  { rewrite (only_changes_wire16 _ _ _ _ 2 Hc10) by lia. unfold v4_length in Hlen. rewrite !get16 in Hlen by lia.
    apply Ok_inj in Hlen. exact Hlen. }
  destruct (fixed_change b b' Hn Hi Hc1 H2) as [Hn' Hp'].
  exists b'. split; [exact Hg|]. split; [exact Hn'|]. split; [exact Hv|]. split; [exact Hp'|].
  rewrite !v4_source_ok, !v4_destination_ok by lia. rewrite !Hw, Hsrc, Hdst by lia.
  split; [reflexivity|]. split; [reflexivity|]. split.
  { rewrite <- Httl. unfold v4_ttl. rewrite !index_ok by lia. destruct Hc10 as [_ Hc]. rewrite Hc by lia. reflexivity. }
  intros u. destruct (c68_parent_addresses E b b' u) as (A & B & _); try lia.
  - rewrite Hw by lia. exact Hsrc.
  - rewrite Hw by lia. exact Hdst.
  - split; assumption.
Qed.

(** ** Swapping *)
Lemma words_app a b : len a mod 2 = 0 -> words (a ++ b) = words a ++ words b.
Proof.
  intros H. apply (even_split a H); [reflexivity|].
  intros x y c _ IH. cbn [app words]. rewrite IH. reflexivity.
Qed.
(** Two neighbouring blocks of the same message trade places. *)
Lemma reordered_swap (a x y r : bytes) : len a mod 2 = 0 -> len x mod 2 = 0 -> len y mod 2 = 0 ->
  reordered (a ++ x ++ y ++ r) (a ++ y ++ x ++ r).
Proof.
  intros Ha Hx Hy. unfold reordered. rewrite !words_app by assumption.
  apply Permutation_app_head. apply Permutation_app_swap_app.
Qed.
Lemma patch_twice off x y b : off + len x + len y <= len b ->
  patch (off + len x) y (patch off x b) = patch off (x ++ y) b.
Proof.
  intros H. apply nthN_ext; [rewrite !len_patch; rewrite ?len_app, ?len_patch; lia|]. intros i _.
  rewrite !nthN_patch by (rewrite ?len_patch, ?len_app; lia). rewrite len_app.
  destruct (N.leb_spec (off + len x) i), (N.ltb_spec i (off + len x + len y)), (N.leb_spec off i), (N.ltb_spec i (off + len x)),
    (N.ltb_spec i (off + (len x + len y))); cbn [andb]; try lia; try reflexivity.
  - rewrite nthN_app2 by lia. f_equal. lia.
  - rewrite nthN_app1 by lia. reflexivity.
Qed.
Lemma addr_bytes b i : i + 4 <= len b -> octets (wire_addr b i) = takeN 4 (dropN i b).
Proof.
  intros H. apply nthN_ext; [autorewrite with len; cbn; lia|]. intros k Hk.
  change (len (octets (wire_addr b i))) with 4 in Hk. rewrite nthN_takeN, nthN_dropN by lia.
  assert (Hc : k = 0 \/ k = 1 \/ k = 2 \/ k = 3) by lia.
  destruct Hc as [->|[->|[->| ->]]]; rewrite ?N.add_0_r; reflexivity.
Qed.
Lemma word_bytes b i : is_bytes b -> i + 2 <= len b -> enc16 (wire16 b i) = takeN 2 (dropN i b).
Proof.
  intros Hb H. rewrite enc16_wire by exact Hb. apply nthN_ext; [autorewrite with len; cbn; lia|]. intros k Hk.
  change (len [nthN b i; nthN b (i + 1)]) with 2 in Hk. rewrite nthN_takeN, nthN_dropN by lia.
  assert (Hc : k = 0 \/ k = 1) by lia. destruct Hc as [->| ->]; rewrite ?N.add_0_r; reflexivity.
Qed.
(** A message around two neighbouring blocks. *)
Lemma split_blocks off k b : off + 2 * k <= len b ->
  b = takeN off b ++ takeN k (dropN off b) ++ takeN k (dropN (off + k) b) ++ dropN (off + 2 * k) b.
Proof.
  intros H. rewrite <- (takeN_dropN off b) at 1. f_equal.
  rewrite <- (takeN_dropN k (dropN off b)) at 1. f_equal. rewrite dropN_dropN.
  rewrite <- (takeN_dropN k (dropN (off + k) b)) at 1. f_equal. rewrite dropN_dropN. f_equal. lia.
Qed.
Lemma swap_blocks off k b : off + 2 * k <= len b ->
  patch off (takeN k (dropN (off + k) b) ++ takeN k (dropN off b)) b =
  takeN off b ++ takeN k (dropN (off + k) b) ++ takeN k (dropN off b) ++ dropN (off + 2 * k) b.
Proof.
  intros H. unfold patch. rewrite <- app_assoc. do 4 f_equal. autorewrite with len. lia.
Qed.
Lemma swap_addresses_ok b : v4_new b = Ok b -> 5 <= nthN b 0 mod 16 ->
  swap_addresses b = (patch 12 (takeN 4 (dropN (12 + 4) b) ++ takeN 4 (dropN 12 b)) b, Ok tt).
Proof.
  intros Hn Hi. pose proof (new_no_payload b Hn) as Hnp. apply v4_no_payload_iff in Hnp as Hx. destruct Hx as (_ & Hl & Hv & Hh).
  unfold swap_addresses, mlet. rewrite v4_source_ok, v4_destination_ok by lia. unfold mseq.
  assert (H1 : v4_set_source (wire_addr b 16) b = (patch 12 (octets (wire_addr b 16)) b, Ok tt)).
  { apply v4_header_mut; [exact Hnp| |cbn; lia]. intros h Hh'. cbn in Hh'. apply copy_range_ok; [reflexivity|lia]. }
  rewrite H1. set (c := patch 12 (octets (wire_addr b 16)) b).
  assert (Hlc : len c = len b) by (apply len_patch; cbn; lia).
  assert (Hc0 : nthN c 0 = nthN b 0) by (apply nthN_patch_out; cbn; lia).
  assert (Hnc : v4_no_payload c = Ok c) by (apply v4_no_payload_iff; rewrite Hc0, Hlc; repeat split; lia).
  assert (H2 : v4_set_destination (wire_addr b 12) c = (patch 16 (octets (wire_addr b 12)) c, Ok tt)).
  { apply v4_header_mut; [exact Hnc| |rewrite Hc0; cbn; lia]. intros h Hh'. cbn in Hh'. apply copy_range_ok; [reflexivity|lia]. }
  rewrite H2. unfold c. change 16 with (12 + len (octets (wire_addr b 16))) at 1. rewrite patch_twice by (cbn; lia).
  rewrite !addr_bytes by lia. reflexivity.
Qed.
Lemma answer_addresses E b b1 : is_bytes b -> v4_new b = Ok b -> 5 <= nthN b 0 mod 16 ->
  b1 = patch 12 (takeN 4 (dropN (12 + 4) b) ++ takeN 4 (dropN 12 b)) b ->
  is_bytes b1 /\ only_changes 12 20 b b1 /\ v4_new b1 = Ok b1 /\ v4_payload b1 = v4_payload b /\
  wire_addr b1 12 = wire_addr b 16 /\ wire_addr b1 16 = wire_addr b 12 /\
  v4_is_valid E b1 = v4_is_valid E b.
Proof.
  intros Hb Hn Hi Hb1. pose proof (new_no_payload b Hn) as Hnp. apply v4_no_payload_iff in Hnp as Hx. destruct Hx as (_ & Hl & Hv & Hh).
  assert (Hl8 : len (takeN 4 (dropN (12 + 4) b) ++ takeN 4 (dropN 12 b)) = 8) by (autorewrite with len; lia).
  assert (Ho : only_changes 12 20 b b1).
  { rewrite Hb1. replace 20 with (12 + len (takeN 4 (dropN (12 + 4) b) ++ takeN 4 (dropN 12 b))) by lia.
    apply patch_only_changes. lia. }
  assert (Hb1' : is_bytes b1).
  { rewrite Hb1. apply is_bytes_patch; [exact Hb|]. apply is_bytes_app. split; apply is_bytes_takeN, is_bytes_dropN, Hb. }
  assert (H2 : wire16 b1 2 = wire16 b 2) by (apply (only_changes_wire16 _ _ _ _ 2 Ho); lia).
  assert (H10 : wire16 b1 10 = wire16 b 10) by (apply (only_changes_wire16 _ _ _ _ 10 Ho); lia).
  assert (H0 : nthN b1 0 = nthN b 0) by (apply Ho; lia).
  destruct (fixed_change b b1 Hn Hi) as [Hn1 Hp1]; [eapply only_changes_weaken; [| |exact Ho]; lia|exact H2|].
  assert (Hat : forall k, k < 8 -> nthN b1 (12 + k) = nthN b (if k <? 4 then 16 + k else 8 + k)).
  { intros k Hk. rewrite Hb1. rewrite nthN_patch_in by lia. destruct (N.ltb_spec k 4).
    - rewrite nthN_app1 by (autorewrite with len; lia). rewrite nthN_takeN, nthN_dropN by lia. f_equal; lia.
    - rewrite nthN_app2 by (autorewrite with len; lia). rewrite nthN_takeN, nthN_dropN by (autorewrite with len; lia).
      f_equal. autorewrite with len. lia. }
  split; [exact Hb1'|]. split; [exact Ho|]. split; [exact Hn1|]. split; [exact Hp1|].
  split.
  { unfold wire_addr. rewrite (Hat 0 ltac:(lia) : nthN b1 12 = _), (Hat 1 ltac:(lia) : nthN b1 (12 + 1) = _),
      (Hat 2 ltac:(lia) : nthN b1 (12 + 2) = _), (Hat 3 ltac:(lia) : nthN b1 (12 + 3) = _). reflexivity. }
  split.
  { unfold wire_addr. rewrite (Hat 4 ltac:(lia) : nthN b1 16 = _), (Hat 5 ltac:(lia) : nthN b1 (16 + 1) = _),
      (Hat 6 ltac:(lia) : nthN b1 (16 + 2) = _), (Hat 7 ltac:(lia) : nthN b1 (16 + 3) = _). reflexivity. }
  apply c68_v4_reorder; try assumption; [apply new_no_payload; exact Hn1|lia|now rewrite H0|].
  rewrite Hb1. rewrite swap_blocks by lia. rewrite (split_blocks 12 4 b) at 2 by lia.
  set (h := nthN b 0 mod 16 * 4) in *. rewrite !app_assoc.
  rewrite (takeN_app2 h) by (autorewrite with len; lia). rewrite (takeN_app2 h) by (autorewrite with len; lia).
  rewrite <- !app_assoc. autorewrite with len.
  replace (N.min 12 (len b) + (N.min 4 (len b - 12) + N.min 4 (len b - (12 + 4)))) with 20 by lia.
  replace (N.min 12 (len b) + (N.min 4 (len b - (12 + 4)) + N.min 4 (len b - 12))) with 20 by lia.
  apply reordered_swap; autorewrite with len; lia.
Qed.
(** The ports. *)
Definition swapped (u : bytes) : bytes := patch 0 (takeN 2 (dropN (0 + 2) u) ++ takeN 2 (dropN 0 u)) u.
Lemma swapped_facts u : is_bytes u -> 4 <= len u ->
  is_bytes (swapped u) /\ only_changes 0 4 u (swapped u) /\
  wire16 (swapped u) 0 = wire16 u 2 /\ wire16 (swapped u) 2 = wire16 u 0 /\
  (forall a, len a mod 2 = 0 -> reordered (a ++ u) (a ++ swapped u)).
Proof.
  intros Hb Hl.
  assert (Hl4 : len (takeN 2 (dropN (0 + 2) u) ++ takeN 2 (dropN 0 u)) = 4) by (autorewrite with len; lia).
  assert (Hat : forall k, k < 4 -> nthN (swapped u) k = nthN u (if k <? 2 then 2 + k else k - 2)).
  { intros k Hk. unfold swapped. replace k with (0 + k) at 1 by lia. rewrite nthN_patch_in by lia. destruct (N.ltb_spec k 2).
    - rewrite nthN_app1 by (autorewrite with len; lia). rewrite nthN_takeN, nthN_dropN by lia. f_equal; lia.
    - rewrite nthN_app2 by (autorewrite with len; lia). rewrite nthN_takeN, nthN_dropN by (autorewrite with len; lia).
      f_equal. autorewrite with len. lia. }
  split.
  { apply is_bytes_patch; [exact Hb|]. apply is_bytes_app. split; apply is_bytes_takeN, is_bytes_dropN, Hb. }
  split.
  { unfold swapped. rewrite <- Hl4 at 1. apply (patch_only_changes 0). lia. }
  split; [unfold wire16; rewrite !Hat by lia; reflexivity|]. split; [unfold wire16; rewrite !Hat by lia; reflexivity|].
  intros a Ha. unfold swapped. rewrite swap_blocks by lia. rewrite (split_blocks 0 2 u) at 1 by lia.
  change (takeN 0 u) with (@nil N). rewrite !app_nil_l. apply reordered_swap; [exact Ha| |]; autorewrite with len; lia.
Qed.
Lemma swap_udp_ok u : is_bytes u -> 8 <= len u -> swap_udp_ports u = (swapped u, Ok tt).
Proof.
  intros Hb Hl. unfold swap_udp_ports, mlet, udp_source, udp_destination. rewrite !get16 by lia. cbn [bind]. unfold mseq.
  unfold udp_set_source. rewrite udp_header_write by lia. unfold udp_set_destination.
  rewrite udp_header_write; [|rewrite len_patch; autorewrite with len; lia|lia].
  change 2 with (0 + len (enc16 (wire16 u 2))) at 1. rewrite patch_twice by (autorewrite with len; lia).
  rewrite !word_bytes by (assumption || lia). reflexivity.
Qed.
Lemma swap_tcp_ok u : is_bytes u -> tcp_new u = Ok u -> 5 <= nthN u 12 / 16 -> swap_tcp_ports u = (swapped u, Ok tt).
Proof.
  intros Hb Hn Ho. apply tcp_new_iff in Hn as Hx. destruct Hx as (_ & Hl & Hof).
  unfold swap_tcp_ports, mlet, tcp_source, tcp_destination. rewrite !get16 by lia. cbn [bind]. unfold mseq.
  unfold tcp_set_source. rewrite tcp_header_write16 by (assumption || lia). unfold tcp_set_destination.
  set (c := patch 0 _ u). assert (Hlc : len c = len u) by (apply len_patch; autorewrite with len; lia).
  assert (H12 : nthN c 12 = nthN u 12) by (apply nthN_patch_out; autorewrite with len; lia).
  rewrite tcp_header_write16; [|apply tcp_new_iff; rewrite H12, Hlc; repeat split; lia|rewrite H12; lia].
  unfold c. change 2 with (0 + len (enc16 (wire16 u 2))) at 1. rewrite patch_twice by (autorewrite with len; lia).
  rewrite !word_bytes by (assumption || lia). reflexivity.
Qed.
(** udp_is_valid in terms of the sums, in every build. *)
Lemma udp_valid_sums E p p' u u' : is_bytes p -> is_bytes p' -> is_bytes u -> is_bytes u' ->
  20 <= len p -> 20 <= len p' -> 8 <= len u -> len u' = len u -> wire16 u' 6 = wire16 u 6 ->
  last_odd u' = last_odd u ->
  reordered (octets (wire_addr p 12) ++ octets (wire_addr p 16) ++ u)
            (octets (wire_addr p' 12) ++ octets (wire_addr p' 16) ++ u') ->
  udp_is_valid E (V4 p') u' = udp_is_valid E (V4 p) u.
Proof.
  intros Hp Hp' Hu Hu' Hl Hl' H8 Hlen Hw Hlast Hr. rewrite !udp_is_valid_eq by (assumption || lia). rewrite Hw.
  apply reordered_sum in Hr. rewrite !app_assoc, !addresses in Hr by assumption.
  rewrite !word_sum_app in Hr by (autorewrite with len; lia).
  rewrite (word_sum_stored 6 u) in Hr by (reflexivity || lia). rewrite (word_sum_stored 6 u') in Hr by (reflexivity || lia).
  unfold inet_checksum. rewrite !sum_addresses by assumption. rewrite !len_seen, !len_zero_field, Hlen.
  rewrite !word_sum_seen, !last_odd_zero_field by reflexivity. rewrite Hlast.
  assert (Hd : forall b, word_sum b = word_sum (drop_odd b) + last_odd b * 256).
  { intros b. rewrite word_sum_drop_odd. unfold last_odd. destruct (dropN _ b); lia. }
  rewrite (Hd (zero_field 6 u)), (Hd (zero_field 6 u')), !last_odd_zero_field, Hlast in Hr by reflexivity.
  rewrite Hw in Hr. do 4 f_equal. lia.
Qed.
Lemma last_odd_nth u : last_odd u = if len u mod 2 =? 1 then nthN u (len u - 1) else 0.
Proof.
  unfold last_odd. destruct (N.eqb_spec (len u mod 2) 1) as [H|H].
  - rewrite last_odd_odd by exact H. reflexivity.
  - rewrite last_odd_even by lia. reflexivity.
Qed.
(** Two swaps at once. *)
Lemma reordered_trans a b c : reordered a b -> reordered b c -> reordered a c.
Proof. apply Permutation_trans. Qed.

(** C69: an answer to a UDP datagram: the four values trade places, and neither
    checksum has to be recomputed. *)
Lemma c69_answer_udp : forall E b u, is_bytes b -> v4_new b = Ok b -> 5 <= nthN b 0 mod 16 ->
  v4_payload b = Ok u -> udp_new u = Ok u ->
  exists b' u', answer_udp b = (b', Ok tt) /\ v4_new b' = Ok b' /\
    v4_source b' = v4_destination b /\ v4_destination b' = v4_source b /\
    v4_is_valid E b' = v4_is_valid E b /\
    v4_payload b' = Ok u' /\ udp_new u' = Ok u' /\
    udp_source u' = udp_destination u /\ udp_destination u' = udp_source u /\
    udp_payload u' = udp_payload u /\ len b' = len b /\
    udp_is_valid E (V4 b') u' = udp_is_valid E (V4 b) u.
Proof.
  intros E b u Hb Hn Hi Hp Hu. destruct (len_payload b u Hn Hp Hb) as [Hbu Hlu].
  apply udp_new_iff in Hu as Hx. destruct Hx as (_ & H8 & H4).
  apply c02_v4_new_iff in Hn as Hx. destruct Hx as (_ & H20 & _ & Hh & _).
  destruct (answer_addresses E b _ Hb Hn Hi eq_refl) as (Hb1 & Ho1 & Hn1 & Hp1 & Hs1 & Hd1 & Hv1).
  set (b1 := patch 12 _ b) in *. assert (Hl1 : len b1 = len b) by apply Ho1.
  assert (H0 : nthN b1 0 = nthN b 0) by (apply Ho1; lia).
  destruct (swapped_facts u Hbu ltac:(lia)) as (Hbs & [Hls Hcs] & Hs0 & Hs2 & Hre). set (u' := swapped u) in *.
  destruct (edit_transport_ok udp_new (fun _ => swap_udp_ports) b1 (nthN b1 0 mod 16 * 4) u u')
    as (b' & He & Hb' & Hhu & Huu & Hn' & Hh' & Hp' & Ht'); try assumption; try reflexivity;
    [rewrite H0; exact Hi|rewrite Hp1; exact Hp|apply swap_udp_ok; assumption|].
  rewrite H0 in *. set (h := nthN b 0 mod 16 * 4) in *.
  assert (Hlb' : len b' = len b1) by (rewrite Hb'; apply len_patch; lia).
  assert (Hwa : forall i, i + 4 <= 20 -> wire_addr b' i = wire_addr b1 i).
  { intros i Hi'. rewrite <- (wire_addr_takeN h b'), Ht' by lia. apply wire_addr_takeN. lia. }
  assert (Hbb' : is_bytes b') by (rewrite Hb'; apply is_bytes_patch; assumption).
  assert (H44 : wire16 u' 4 = wire16 u 4) by (unfold wire16; rewrite !Hcs by lia; reflexivity).
  assert (H66 : wire16 u' 6 = wire16 u 6) by (unfold wire16; rewrite !Hcs by lia; reflexivity).
  exists b', u'. split.
  { unfold answer_udp, mseq. rewrite swap_addresses_ok by assumption. fold b1. exact He. }
  split; [exact Hn'|]. rewrite !v4_source_ok, !v4_destination_ok by lia. rewrite !Hwa, Hs1, Hd1 by lia.
  split; [reflexivity|]. split; [reflexivity|]. split.
  { rewrite <- Hv1. unfold v4_is_valid. rewrite Hh'. destruct (v4_header b1) as [x| |]; try reflexivity. cbn [bind].
    unfold v4_checksum. rewrite !get16 by lia.
    assert (Hw10 : wire16 b' 10 = wire16 b1 10).
    { unfold wire16. rewrite <- (nthN_takeN h b' 10), <- (nthN_takeN h b' (10 + 1)), Ht', !nthN_takeN by lia. reflexivity. }
    rewrite Hw10. reflexivity. }
  split; [exact Hp'|].
  split; [apply udp_new_iff; rewrite Hls, H44; repeat split; lia|].
  unfold udp_source, udp_destination. rewrite !get16 by lia. rewrite Hs0, Hs2.
  split; [reflexivity|]. split; [reflexivity|]. split.
  { unfold udp_payload. rewrite !udp_split_ok by lia. cbn [bind]. rewrite H44. f_equal.
    set (t := N.max 8 (wire16 u 4)).
    apply nthN_ext; [autorewrite with len; lia|]. intros i Hi'. autorewrite with len in Hi'.
    rewrite !nthN_dropN, !nthN_takeN by lia. apply Hcs. lia. }
  split; [lia|].
  apply udp_valid_sums; try assumption; try lia.
  { rewrite !last_odd_nth, Hls. destruct (N.eqb_spec (len u mod 2) 1); [|reflexivity]. apply Hcs. lia. }
  rewrite !Hwa, Hs1, Hd1 by lia. apply (reordered_trans _ (octets (wire_addr b 12) ++ octets (wire_addr b 16) ++ u')).
  - rewrite !app_assoc. apply Hre. reflexivity.
  - apply (reordered_swap [] (octets (wire_addr b 12)) (octets (wire_addr b 16)) u'); reflexivity.
Qed.
(** C69: an answer to a TCP segment (its data offset at least 5). *)
Lemma c69_answer_tcp : forall E b u, is_bytes b -> v4_new b = Ok b -> 5 <= nthN b 0 mod 16 ->
  v4_payload b = Ok u -> tcp_new u = Ok u -> 5 <= nthN u 12 / 16 ->
  exists b' u', answer_tcp b = (b', Ok tt) /\ v4_new b' = Ok b' /\
    v4_source b' = v4_destination b /\ v4_destination b' = v4_source b /\
    v4_is_valid E b' = v4_is_valid E b /\
    v4_payload b' = Ok u' /\ tcp_new u' = Ok u' /\
    tcp_source u' = tcp_destination u /\ tcp_destination u' = tcp_source u /\
    tcp_payload u' = tcp_payload u /\ tcp_options u' = tcp_options u /\ len b' = len b /\
    tcp_is_valid E (V4 b') u' = tcp_is_valid E (V4 b) u.
Proof.
  intros E b u Hb Hn Hi Hp Hu Hof. destruct (len_payload b u Hn Hp Hb) as [Hbu Hlu].
  apply tcp_new_iff in Hu as Hx. destruct Hx as (_ & H8 & H4).
  apply c02_v4_new_iff in Hn as Hx. destruct Hx as (_ & H20 & _ & Hh & _).
  destruct (answer_addresses E b _ Hb Hn Hi eq_refl) as (Hb1 & Ho1 & Hn1 & Hp1 & Hs1 & Hd1 & Hv1).
  set (b1 := patch 12 _ b) in *. assert (Hl1 : len b1 = len b) by apply Ho1.
  assert (H0 : nthN b1 0 = nthN b 0) by (apply Ho1; lia).
  destruct (swapped_facts u Hbu ltac:(lia)) as (Hbs & Hoc & Hs0 & Hs2 & Hre). pose proof Hoc as [Hls Hcs]. set (u' := swapped u) in *.
  destruct (edit_transport_ok tcp_new (fun _ => swap_tcp_ports) b1 (nthN b1 0 mod 16 * 4) u u')
    as (b' & He & Hb' & Hhu & Huu & Hn' & Hh' & Hp' & Ht'); try assumption; try reflexivity;
    [rewrite H0; exact Hi|rewrite Hp1; exact Hp|apply swap_tcp_ok; assumption|].
  rewrite H0 in *. set (h := nthN b 0 mod 16 * 4) in *.
  assert (Hlb' : len b' = len b1) by (rewrite Hb'; apply len_patch; lia).
  assert (Hwa : forall i, i + 4 <= 20 -> wire_addr b' i = wire_addr b1 i).
  { intros i Hi'. rewrite <- (wire_addr_takeN h b'), Ht' by lia. apply wire_addr_takeN. lia. }
  assert (Hbb' : is_bytes b') by (rewrite Hb'; apply is_bytes_patch; assumption).
  assert (H12 : nthN u' 12 = nthN u 12) by (apply Hcs; lia).
  assert (H66 : wire16 u' 16 = wire16 u 16) by (unfold wire16; rewrite !Hcs by lia; reflexivity).
  exists b', u'. split.
  { unfold answer_tcp, mseq. rewrite swap_addresses_ok by assumption. fold b1. exact He. }
  split; [exact Hn'|]. rewrite !v4_source_ok, !v4_destination_ok by lia. rewrite !Hwa, Hs1, Hd1 by lia.
  split; [reflexivity|]. split; [reflexivity|]. split.
  { rewrite <- Hv1. unfold v4_is_valid. rewrite Hh'. destruct (v4_header b1) as [x| |]; try reflexivity. cbn [bind].
    unfold v4_checksum. rewrite !get16 by lia.
    assert (Hw10 : wire16 b' 10 = wire16 b1 10).
    { unfold wire16. rewrite <- (nthN_takeN h b' 10), <- (nthN_takeN h b' (10 + 1)), Ht', !nthN_takeN by lia. reflexivity. }
    rewrite Hw10. reflexivity. }
  split; [exact Hp'|].
  split; [apply tcp_new_iff; rewrite Hls, H12; repeat split; lia|].
  unfold tcp_source, tcp_destination. rewrite !get16 by lia. rewrite Hs0, Hs2.
  split; [reflexivity|]. split; [reflexivity|]. split.
  { unfold tcp_payload. rewrite !tcp_split_ok by lia. cbn [bind]. rewrite H12. f_equal.
    apply (only_changes_dropN 0 4); [exact Hoc|lia]. }
  split.
  { unfold tcp_options. rewrite !tcp_offset_ok by lia. rewrite H12. cbn [bind]. rewrite !slice_ok by lia. f_equal.
    apply nthN_ext; [autorewrite with len; lia|]. intros i Hi'. autorewrite with len in Hi'.
    rewrite ?nthN_takeN, ?nthN_dropN, ?nthN_takeN by lia. apply Hcs. lia. }
  split; [lia|].
  apply c68_tcp_reorder; try assumption; try lia.
  rewrite !Hwa, Hs1, Hd1 by lia. apply (reordered_trans _ (octets (wire_addr b 12) ++ octets (wire_addr b 16) ++ u')).
  - rewrite !app_assoc. apply Hre. reflexivity.
  - apply (reordered_swap [] (octets (wire_addr b 12)) (octets (wire_addr b 16)) u'); reflexivity.
Qed.
(** C69: an answer to a ping. *)
Lemma c69_answer_ping : forall E b u, rust_slice b -> v4_new b = Ok b -> 5 <= nthN b 0 mod 16 ->
  v4_payload b = Ok u -> echo_new u = Ok u ->
  exists b' u', answer_ping E b = (b', Ok tt) /\ v4_new b' = Ok b' /\
    v4_source b' = v4_destination b /\ v4_destination b' = v4_source b /\
    v4_is_valid E b' = v4_is_valid E b /\
    v4_payload b' = Ok u' /\ echo_new u' = Ok u' /\ echo_is_reply u' = Ok true /\
    echo_identifier u' = echo_identifier u /\ echo_sequence u' = echo_sequence u /\
    echo_payload u' = echo_payload u /\ len b' = len b /\ icmp_is_valid E u' = Ok true.
Proof.
  intros E b u [Hb Hri] Hn Hi Hp Hu. destruct (len_payload b u Hn Hp Hb) as [Hbu Hlu].
  destruct (typed_inv _ _ _ _ _ c05_echo_new Hu) as (_ & H8 & Hk).
  apply c02_v4_new_iff in Hn as Hx. destruct Hx as (_ & H20 & _ & Hh & _).
  destruct (answer_addresses E b _ Hb Hn Hi eq_refl) as (Hb1 & Ho1 & Hn1 & Hp1 & Hs1 & Hd1 & Hv1).
  set (b1 := patch 12 _ b) in *. assert (Hl1 : len b1 = len b) by apply Ho1.
  assert (H0 : nthN b1 0 = nthN b 0) by (apply Ho1; lia).
  assert (Hru : rust_slice u) by (split; [exact Hbu|widths; lia]).
  destruct (c25_echo E [EchoMakeReply] u Hru Hu) as (u' & Hg & Hc2 & Hc8 & Hbu' & Hv); [repeat constructor|].
  destruct (c52_echo [EchoMakeReply] u Hu) as (c & Ha & Hnc & _ & Hrep & Hid & Hseq & _ & _ & Hoc).
  apply all_ok_calls in Ha. rewrite Ha in Hc2. pose proof Hc8 as [Hls Hcs]. pose proof Hoc as [Hlc _].
  destruct (edit_transport_ok echo_new (fun _ => echo_checked E [EchoMakeReply]) b1 (nthN b1 0 mod 16 * 4) u u')
    as (b' & He & Hb' & Hhu & Huu & Hn' & Hh' & Hp' & Ht'); try assumption; try reflexivity;
    [rewrite H0; exact Hi|rewrite Hp1; exact Hp|].
  rewrite H0 in *. set (h := nthN b 0 mod 16 * 4) in *.
  assert (Hlb' : len b' = len b1) by (rewrite Hb'; apply len_patch; lia).
  assert (Hwa : forall i, i + 4 <= 20 -> wire_addr b' i = wire_addr b1 i).
  { intros i Hi'. rewrite <- (wire_addr_takeN h b'), Ht' by lia. apply wire_addr_takeN. lia. }
  exists b', u'. split.
  { unfold answer_ping, mseq. rewrite swap_addresses_ok by assumption. fold b1. exact He. }
  split; [exact Hn'|]. rewrite !v4_source_ok, !v4_destination_ok by lia. rewrite !Hwa, Hs1, Hd1 by lia.
  split; [reflexivity|]. split; [reflexivity|]. split.
  { rewrite <- Hv1. unfold v4_is_valid. rewrite Hh'. destruct (v4_header b1) as [x| |]; try reflexivity. cbn [bind].
    unfold v4_checksum. rewrite !get16 by lia.
    assert (Hw10 : wire16 b' 10 = wire16 b1 10).
    { unfold wire16. rewrite <- (nthN_takeN h b' 10), <- (nthN_takeN h b' (10 + 1)), Ht', !nthN_takeN by lia. reflexivity. }
    rewrite Hw10. reflexivity. }
  split; [exact Hp'|].
  assert (Hc0 : nthN u' 0 = nthN c 0) by (apply Hc2; lia).
  destruct (typed_inv _ _ _ _ _ c05_echo_new Hnc) as (_ & _ & Hkc).
  assert (Hnu' : echo_new u' = Ok u') by (apply c05_echo_new; [lia|rewrite Hc0; exact Hkc]).
  split; [exact Hnu'|].
  destruct (c08_echo u Hu) as (_ & _ & E4 & E6). destruct (c08_echo u' Hnu') as (_ & E0' & E4' & E6').
  destruct (c08_echo c Hnc) as (_ & E0c & E4c & E6c). rewrite E0c in Hrep. apply Ok_inj in Hrep. change (_ =? 0) with true in Hrep at 2.
  rewrite E4c in Hid. apply Ok_inj in Hid. rewrite E6c in Hseq. apply Ok_inj in Hseq.
  cbn [last_value fold_left echo_ident_of echo_seq_of] in Hid, Hseq.
  split; [rewrite E0', Hc0, Hrep; reflexivity|].
  rewrite E4, E4', E6, E6'.
  split; [f_equal; rewrite (only_changes_wire16 _ _ _ _ 4 Hc2) by lia; exact Hid|].
  split; [f_equal; rewrite (only_changes_wire16 _ _ _ _ 6 Hc2) by lia; exact Hseq|].
  split.
  { unfold echo_payload, echo_split. rewrite !split_at_ok by lia. cbn [bind]. f_equal. apply (only_changes_dropN 0 8); [exact Hc8|lia]. }
  split; [lia|exact Hv].
Qed.
Example c69_example : forall E,
  let b := [69;0;0;30;0;0;0;0;64;17;102;205;10;0;0;1;10;0;0;2; 0;53;0;99;0;10;130;214;104;105] in
  let u := [0;53;0;99;0;10;130;214;104;105] in
  let r := [69;0;0;30;0;0;0;0;64;17;102;205;10;0;0;2;10;0;0;1; 0;99;0;53;0;10;130;214;104;105] in
  let f := [69;0;0;30;0;0;0;0;63;17;103;205;10;0;0;1;10;0;0;2; 0;53;0;99;0;10;130;214;104;105] in
  rust_slice b /\ v4_new b = Ok b /\ v4_payload b = Ok u /\ udp_new u = Ok u /\
  v4_is_valid E b = Ok true /\ udp_is_valid E (V4 b) u = Ok true /\
  answer_udp b = (r, Ok tt) /\ v4_is_valid E r = Ok true /\
  v4_checked E [V4SetTtl 63] b = (f, Ok tt).
Proof.
  intros E. cbv zeta. split; [split; [repeat constructor|widths; cbn; lia]|].
  do 3 (split; [reflexivity|]). do 5 (split || (destruct E as [[] [] []]; reflexivity) || reflexivity).
Qed.
Example c69_ping_example : forall E,
  let b := [69;0;0;28;0;0;0;0;64;1;102;223;10;0;0;1;10;0;0;2; 8;0;229;202;18;52;0;1] in
  let r := [69;0;0;28;0;0;0;0;64;1;102;223;10;0;0;2;10;0;0;1; 0;0;237;202;18;52;0;1] in
  v4_new b = Ok b /\ v4_is_valid E b = Ok true /\ answer_ping E b = (r, Ok tt).
Proof. intros [[] [] []]; repeat split. Qed.
