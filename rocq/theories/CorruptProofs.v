(** * CorruptProofs: what the checksums detect and what they miss (C68). *)
From Verif Require Import Base Enums Ipv4 Ip Udp Tcp Icmp Spec SpecCorrupt Lemmas AccessProofs ParseProofs FieldProofs ChecksumLemmas ChecksumProofs.
From Coq Require Import ZifyBool ZifyNat ZifyN Permutation.
Ltac Zify.zify_post_hook ::= Z.div_mod_to_equations.

(** ** Bits and three-byte windows *)
Definition win3 (b : bytes) (i : N) : N := nthN b i * 65536 + nthN b (i + 1) * 256 + nthN b (i + 2).

Lemma byte_bit x n : x < 256 -> 8 <= n -> N.testbit x n = false.
Proof.
  intros Hx Hn. destruct (N.eq_dec x 0) as [->|H0]; [apply N.bits_0|].
  apply N.bits_above_log2. apply N.log2_lt_pow2; [lia|].
  eapply N.lt_le_trans; [exact Hx|]. change 256 with (2 ^ 8). apply N.pow_le_mono_r; lia.
Qed.
Lemma win3_bit b i t : is_bytes b -> t < 24 -> N.testbit (win3 b i) t = msg_bit b (8 * i + 23 - t).
Proof.
  intros Hb Ht. unfold win3, msg_bit.
  pose proof (is_bytes_nth b i Hb) as H0. pose proof (is_bytes_nth b (i + 1) Hb) as H1.
  pose proof (is_bytes_nth b (i + 2) Hb) as H2. unfold u8 in *.
  set (x := nthN b i) in *. set (y := nthN b (i + 1)) in *. set (z := nthN b (i + 2)) in *.
  assert (Hcase : t < 8 \/ 8 <= t < 16 \/ 16 <= t < 24) by lia.
  destruct Hcase as [H|[H|H]].
  - replace ((8 * i + 23 - t) / 8) with (i + 2) by lia. replace (7 - (8 * i + 23 - t) mod 8) with t by lia.
    fold z. rewrite <- (N.mod_pow2_bits_low _ 8 t) by exact H. change (2 ^ 8) with 256.
    replace ((x * 65536 + y * 256 + z) mod 256) with z by lia. reflexivity.
  - replace ((8 * i + 23 - t) / 8) with (i + 1) by lia. replace (7 - (8 * i + 23 - t) mod 8) with (t - 8) by lia.
    fold y. replace t with (t - 8 + 8) at 1 by lia. rewrite <- N.div_pow2_bits. change (2 ^ 8) with 256.
    rewrite <- (N.mod_pow2_bits_low _ 8 (t - 8)) by lia. change (2 ^ 8) with 256.
    replace ((x * 65536 + y * 256 + z) / 256 mod 256) with y by lia. reflexivity.
  - replace ((8 * i + 23 - t) / 8) with i by lia. replace (7 - (8 * i + 23 - t) mod 8) with (t - 16) by lia.
    fold x. replace t with (t - 16 + 16) at 1 by lia. rewrite <- N.div_pow2_bits. change (2 ^ 16) with 65536.
    replace ((x * 65536 + y * 256 + z) / 65536) with x by lia. reflexivity.
Qed.
Lemma win3_lt b i : is_bytes b -> win3 b i < 16777216.
Proof.
  intros Hb. unfold win3.
  pose proof (is_bytes_nth b i Hb). pose proof (is_bytes_nth b (i + 1) Hb).
  pose proof (is_bytes_nth b (i + 2) Hb). unfold u8 in *. lia.
Qed.
(** The bytes of a message from its bits. *)
Lemma msg_bits_byte b b' i : is_bytes b -> is_bytes b' ->
  (forall n, 8 * i <= n < 8 * i + 8 -> msg_bit b' n = msg_bit b n) -> nthN b' i = nthN b i.
Proof.
  intros Hb Hb' H. apply N.bits_inj. intros t. destruct (N.ltb_spec t 8).
  - specialize (H (8 * i + 7 - t) ltac:(lia)). unfold msg_bit in H.
    replace ((8 * i + 7 - t) / 8) with i in H by lia. replace (7 - (8 * i + 7 - t) mod 8) with t in H by lia. exact H.
  - rewrite !byte_bit; try reflexivity; try lia; apply is_bytes_nth; assumption.
Qed.

(** A message around three bytes. *)
Lemma word_sum_tri (p r : bytes) : exists K, forall x y z, word_sum (p ++ x :: y :: z :: r) =
  K + (if len p mod 2 =? 0 then x * 256 + y + z * 256 else x + y * 256 + z).
Proof.
  induction p as [|u|u v p [K IH]] using pair_ind.
  - destruct r as [|w r].
    + exists 0. intros x y z. change (len [] mod 2 =? 0) with true. cbn [app word_sum]. lia.
    + exists (w + word_sum r). intros x y z. change (len [] mod 2 =? 0) with true. cbn [app word_sum]. lia.
  - exists (u * 256 + word_sum r). intros x y z. change (len [u] mod 2 =? 0) with false. cbn [app word_sum]. lia.
  - exists (u * 256 + v + K). intros x y z. cbn [app word_sum]. rewrite IH, !len_cons.
    replace ((len p + 1 + 1) mod 2) with (len p mod 2) by lia. lia.
Qed.
(** The window of the burst. *)
Definition at_ (j n : N) : N := N.min (j / 8) (n - 3).
Section Burst.
  Variables (b b' : bytes) (j : N).
  Hypothesis (Hb : is_bytes b) (Hb' : is_bytes b') (H3 : 3 <= len b) (Hj : j + 16 <= 8 * len b) (Hd : burst j b b').
  Let i := at_ j (len b).
  Let k := 8 * i + 8 - j.
  Let Hk : k <= 8 /\ i + 3 <= len b /\ 8 * i + 8 = j + k.
  Proof. unfold k, i, at_. lia. Qed.
  Lemma burst_byte n : n < i \/ i + 3 <= n -> nthN b' n = nthN b n.
  Proof.
    intros H. apply msg_bits_byte; [assumption|assumption|]. intros m Hm. apply Hd.
    destruct Hk as (K1 & K2 & K3). lia.
  Qed.
  Lemma burst_high : win3 b' i / 2 ^ (k + 16) = win3 b i / 2 ^ (k + 16).
  Proof.
    apply N.bits_inj. intros t. rewrite !N.div_pow2_bits. destruct Hk as (K1 & K2 & K3).
    destruct (N.ltb_spec (t + (k + 16)) 24).
    - rewrite !win3_bit by (assumption || lia). apply Hd. lia.
    - rewrite <- (N.mod_small (win3 b i) (2 ^ 24)) by (apply win3_lt; assumption).
      rewrite <- (N.mod_small (win3 b' i) (2 ^ 24)) by (apply win3_lt; assumption).
      rewrite !N.mod_pow2_bits_high by lia. reflexivity.
  Qed.
  Lemma burst_low : win3 b' i mod 2 ^ k = win3 b i mod 2 ^ k.
  Proof.
    apply N.bits_inj. intros t. destruct Hk as (K1 & K2 & K3). destruct (N.ltb_spec t k).
    - rewrite !N.mod_pow2_bits_low by assumption. rewrite !win3_bit by (assumption || lia). apply Hd. lia.
    - rewrite !N.mod_pow2_bits_high by lia. reflexivity.
  Qed.
  Definition mid (c : bytes) : N := win3 c i / 2 ^ k mod 65536.
  Lemma mid_bit c t : is_bytes c -> t < 16 -> N.testbit (mid c) t = msg_bit c (j + 15 - t).
  Proof.
    intros Hc Ht. unfold mid. change 65536 with (2 ^ 16). rewrite N.mod_pow2_bits_low by exact Ht.
    rewrite N.div_pow2_bits. destruct Hk as (K1 & K2 & K3). rewrite win3_bit by (assumption || lia). f_equal. lia.
  Qed.
  Lemma mid_run c (v : bool) : is_bytes c -> (mid c = (if v then 65535 else 0) <-> run_of v j c).
  Proof.
    intros Hc. split.
    - intros H n Hn. replace n with (j + 15 - (j + 15 - n)) by lia. rewrite <- mid_bit by (assumption || lia).
      rewrite H. destruct v; [|apply N.bits_0]. change 65535 with (N.ones 16). apply N.ones_spec_low. lia.
    - intros H. apply N.bits_inj. intros t. destruct (N.ltb_spec t 16).
      + rewrite mid_bit by assumption. rewrite H by lia. destruct v; [|symmetry; apply N.bits_0].
        change 65535 with (N.ones 16). symmetry. apply N.ones_spec_low. lia.
      + unfold mid. change 65536 with (2 ^ 16). rewrite N.mod_pow2_bits_high by assumption.
        destruct v; [|symmetry; apply N.bits_0]. change 65535 with (N.ones 16). symmetry. apply N.ones_spec_high. lia.
  Qed.
  Lemma mid_same : mid b' = mid b <-> b' = b.
  Proof.
    split; [|intros ->; reflexivity]. intros H. apply nthN_ext; [apply Hd|]. intros n _.
    apply msg_bits_byte; [assumption|assumption|]. intros m _. destruct (N.ltb_spec m j); [apply Hd; lia|].
    destruct (N.ltb_spec m (j + 16)); [|apply Hd; lia].
    replace m with (j + 15 - (j + 15 - m)) by lia. rewrite <- !mid_bit by (assumption || lia). rewrite H. reflexivity.
  Qed.
  (** The sum of a message around three bytes. *)
  Definition tri (c : bytes) : N :=
    if i mod 2 =? 0 then nthN c i * 256 + nthN c (i + 1) + nthN c (i + 2) * 256
    else nthN c i + nthN c (i + 1) * 256 + nthN c (i + 2).
  Lemma blind_mid : blind_burst j b b' <->
    mid b' = mid b \/ (mid b = 0 /\ mid b' = 65535) \/ (mid b = 65535 /\ mid b' = 0).
  Proof.
    unfold blind_burst. rewrite mid_same. rewrite <- (mid_run b false Hb), <- (mid_run b true Hb).
    rewrite <- (mid_run b' false Hb'), <- (mid_run b' true Hb'). reflexivity.
  Qed.
  Lemma tri_win c : tri c mod 65535 = ((if i mod 2 =? 0 then 256 else 1) * win3 c i) mod 65535.
  Proof.
    unfold tri, win3. generalize (nthN c i) (nthN c (i + 1)) (nthN c (i + 2)). intros x y z.
    destruct (i mod 2 =? 0).
    - replace (256 * (x * 65536 + y * 256 + z)) with (x * 256 + y + z * 256 + (256 * x + y) * 65535) by lia.
      rewrite N.mod_add by lia. reflexivity.
    - replace (1 * (x * 65536 + y * 256 + z)) with (x + y * 256 + z + x * 65535) by lia.
      rewrite N.mod_add by lia. reflexivity.
  Qed.
  Lemma win_mid : exists K, win3 b i = K + mid b * 2 ^ k /\ win3 b' i = K + mid b' * 2 ^ k.
  Proof.
    assert (Hsplit : forall c, win3 c i = win3 c i / 2 ^ (k + 16) * 2 ^ (k + 16) + win3 c i mod 2 ^ k + mid c * 2 ^ k).
    { intros c. unfold mid. rewrite N.pow_add_r. assert (H0 : 2 ^ k <> 0) by (apply N.pow_nonzero; lia).
      change (2 ^ 16) with 65536. rewrite <- N.div_div by (assumption || lia).
      pose proof (N.div_mod (win3 c i) (2 ^ k) H0) as E1.
      pose proof (N.div_mod (win3 c i / 2 ^ k) 65536 ltac:(lia)) as E2.
      set (q := win3 c i / 2 ^ k) in *. set (r := win3 c i mod 2 ^ k) in *. set (P := 2 ^ k) in *.
      set (h := q / 65536) in *. set (m := q mod 65536) in *. clearbody q r P h m. rewrite E1, E2. lia. }
    exists (win3 b i / 2 ^ (k + 16) * 2 ^ (k + 16) + win3 b i mod 2 ^ k). split; [apply Hsplit|].
    rewrite <- burst_high, <- burst_low. apply Hsplit.
  Qed.
  Lemma cong_mul c x y : x mod 65535 = y mod 65535 -> (c * x) mod 65535 = (c * y) mod 65535.
  Proof. intros H. rewrite <- (N.mul_mod_idemp_r c x), H, N.mul_mod_idemp_r by lia. reflexivity. Qed.
  Lemma cong_cancel c d x y : (c * d) mod 65535 = 1 -> (d * x) mod 65535 = (d * y) mod 65535 -> x mod 65535 = y mod 65535.
  Proof.
    intros Hc H. apply (cong_mul c) in H. rewrite !N.mul_assoc in H.
    rewrite <- (N.mul_mod_idemp_l (c * d) x), <- (N.mul_mod_idemp_l (c * d) y) in H by lia. rewrite Hc in H.
    rewrite !N.mul_1_l in H. exact H.
  Qed.
  Lemma cong_add K x y : (K + x) mod 65535 = (K + y) mod 65535 <-> x mod 65535 = y mod 65535.
  Proof. lia. Qed.
  Lemma tri_mid : (tri b mod 65535 = tri b' mod 65535 <-> blind_burst j b b').
  Proof.
    rewrite blind_mid. rewrite !tri_win. set (m := if i mod 2 =? 0 then 256 else 1).
    assert (Hm : exists c, (c * m) mod 65535 = 1) by (unfold m; destruct (_ =? 0); [exists 256|exists 1]; reflexivity).
    assert (Hp : exists c, (c * 2 ^ k) mod 65535 = 1).
    { exists (2 ^ (16 - k)). rewrite <- N.pow_add_r. replace (16 - k + k) with 16 by (destruct Hk; lia). reflexivity. }
    destruct Hm as [c Hc], Hp as [d Hp]. destruct win_mid as (K & -> & ->).
    assert (Hlt : mid b < 65536 /\ mid b' < 65536) by (unfold mid; lia).
    set (x := mid b) in *. set (y := mid b') in *. set (P := 2 ^ k) in *. clearbody x y P m.
    transitivity (x mod 65535 = y mod 65535).
    - split; intros H.
      + apply (cong_cancel c m _ _ Hc) in H. apply cong_add in H. rewrite !(N.mul_comm _ P) in H.
        exact (cong_cancel d P _ _ Hp H).
      + apply cong_mul, cong_add. rewrite !(N.mul_comm _ P). apply cong_mul. exact H.
    - clear - Hlt. lia.
  Qed.
  (** The sum of a message around three bytes. *)
  Lemma sum_tri : exists K, word_sum b = K + tri b /\ word_sum b' = K + tri b'.
  Proof.
    destruct Hk as (K1 & K2 & _).
    assert (Hsp : forall c, len c = len b ->
      c = takeN i c ++ nthN c i :: nthN c (i + 1) :: nthN c (i + 2) :: dropN (i + 3) c).
    { intros c Hl. rewrite <- (takeN_dropN i c) at 1. f_equal.
      pose proof (len_dropN i c) as Hlen.
      replace (nthN c i) with (nthN (dropN i c) 0) by (rewrite nthN_dropN; f_equal; lia).
      replace (nthN c (i + 1)) with (nthN (dropN i c) 1) by (rewrite nthN_dropN; reflexivity).
      replace (nthN c (i + 2)) with (nthN (dropN i c) 2) by (rewrite nthN_dropN; reflexivity).
      rewrite <- dropN_dropN. set (d := dropN i c) in *. clearbody d.
      destruct d as [|x [|y [|z d]]]; try (cbn in Hlen; lia). reflexivity. }
    assert (Ht : takeN i b' = takeN i b).
    { apply nthN_ext; [autorewrite with len; destruct Hd; lia|]. intros n Hn. autorewrite with len in Hn.
      rewrite !nthN_takeN by lia. apply burst_byte. lia. }
    assert (Hdr : dropN (i + 3) b' = dropN (i + 3) b).
    { apply nthN_ext; [autorewrite with len; destruct Hd; lia|]. intros n Hn.
      rewrite !nthN_dropN. apply burst_byte. lia. }
    pose proof (Hsp b eq_refl) as E1. pose proof (Hsp b' ltac:(apply Hd)) as E2. rewrite Ht, Hdr in E2.
    destruct (word_sum_tri (takeN i b) (dropN (i + 3) b)) as [K HK].
    replace (len (takeN i b)) with i in HK by (autorewrite with len; lia).
    exists K. unfold tri. split; [rewrite E1 at 1|rewrite E2 at 1]; apply HK.
  Qed.
  Lemma burst_sum K : (K + word_sum b) mod 65535 = 0 ->
    ((K + word_sum b') mod 65535 = 0 <-> blind_burst j b b').
  Proof.
    intros H. rewrite <- tri_mid. destruct sum_tri as (L & E1 & E2). rewrite E1, E2 in *. clear - H. lia.
  Qed.
End Burst.

(** ** Bursts *)
Lemma accepts_mod t : t <> 0 -> (ones_sum t = 65535 <-> t mod 65535 = 0).
Proof. intros H. unfold ones_sum. destruct (N.eqb_spec t 0); lia. Qed.
Lemma takeN_len h b : h <= len b -> len (takeN h b) = h.
Proof. intros. autorewrite with len. lia. Qed.

(** C68: an IPv4 header hit by a burst of up to 16 bits: is_valid sees every burst but
    the two blind ones (and refuses a stored 65535).  The length of the header
    stays; what follows the header is not covered and may change. *)
Lemma c68_v4_burst : forall E b b' j, is_bytes b -> is_bytes b' ->
  v4_no_payload b = Ok b -> v4_no_payload b' = Ok b' -> 3 <= nthN b 0 mod 16 ->
  nthN b' 0 mod 16 = nthN b 0 mod 16 -> j + 16 <= 8 * (nthN b 0 mod 16 * 4) ->
  burst j (takeN (nthN b 0 mod 16 * 4) b) (takeN (nthN b 0 mod 16 * 4) b') ->
  v4_is_valid E b = Ok true ->
  (v4_is_valid E b' = Ok true <->
   blind_burst j (takeN (nthN b 0 mod 16 * 4) b) (takeN (nthN b 0 mod 16 * 4) b') /\ wire16 b' 10 <> 65535).
Proof.
  intros E b b' j Hb Hb' Hn Hn' Hi H0 Hj Hd Hv.
  rewrite c20_v4_is_valid_receiver in Hv by assumption. rewrite c20_v4_is_valid_receiver by (assumption || lia).
  rewrite H0. unfold receiver_accepts in *. apply v4_no_payload_iff in Hn, Hn'.
  destruct Hn as (_ & Hl & Hver & Hh), Hn' as (_ & Hl' & Hver' & Hh'). rewrite H0 in Hh'.
  pose proof (v4_header_sum b ltac:(lia) ltac:(lia) ltac:(lia)) as Hs.
  pose proof (v4_header_sum b' ltac:(lia) ltac:(lia) ltac:(lia)) as Hs'. rewrite H0 in Hs'.
  set (h := nthN b 0 mod 16 * 4) in *. destruct Hv as [Hv _].
  assert (Hz : forall c, h <= len c -> 0 < word_sum (zero_field 10 (takeN h c)) -> word_sum (takeN h c) <> 0).
  { intros c Hc Hz. rewrite (word_sum_stored 10 (takeN h c)) by (autorewrite with len; lia || reflexivity). lia. }
  rewrite accepts_mod in Hv by (apply Hz; assumption). rewrite accepts_mod by (apply Hz; assumption).
  assert (Hbs : (0 + word_sum (takeN h b')) mod 65535 = 0 <-> blind_burst j (takeN h b) (takeN h b')).
  { apply burst_sum; [apply is_bytes_takeN; exact Hb|apply is_bytes_takeN; exact Hb'| | |exact Hd|exact Hv];
    rewrite takeN_len by assumption; lia. }
  rewrite N.add_0_l in Hbs. rewrite Hbs. reflexivity.
Qed.
Lemma pseudo_seg_pos s d proto b : 0 < proto -> word_sum (with_pseudo_header s d proto b) <> 0.
Proof. intros H. rewrite word_sum_pseudo. pose proof (pseudo_pos s d proto (len b) H). lia. Qed.
(** C68: a UDP datagram hit by a burst. *)
Lemma c68_udp_burst : forall E p b b' j, is_bytes p -> is_bytes b -> is_bytes b' -> 20 <= len p -> 8 <= len b ->
  len b mod 2 = 0 \/ cursor_eof E = EofKeep ->
  j + 16 <= 8 * len b -> burst j b b' -> udp_is_valid E (V4 p) b = Ok true ->
  (udp_is_valid E (V4 p) b' = Ok true <-> blind_burst j b b' /\ wire16 b' 6 <> 65535).
Proof.
  intros E p b b' j Hp Hb Hb' Hl Hlb He Hj Hd Hv. pose proof Hd as [Hl' _].
  rewrite c21_udp_is_valid_receiver in Hv by assumption. rewrite c21_udp_is_valid_receiver by (rewrite ?Hl'; assumption).
  unfold receiver_accepts in *. destruct Hv as [Hv _].
  rewrite accepts_mod in Hv by (apply pseudo_seg_pos; lia). rewrite accepts_mod by (apply pseudo_seg_pos; lia).
  rewrite word_sum_pseudo in Hv |- *. rewrite Hl'.
  rewrite (burst_sum b b' j Hb Hb' ltac:(lia) Hj Hd _ Hv). reflexivity.
Qed.
(** C68: a TCP segment hit by a burst. *)
Lemma c68_tcp_burst : forall E p b b' j, is_bytes p -> is_bytes b -> is_bytes b' -> 20 <= len p ->
  18 <= len b <= 131065 -> len b mod 2 = 0 \/ cursor_eof E = EofKeep ->
  j + 16 <= 8 * len b -> burst j b b' -> tcp_is_valid E (V4 p) b = Ok true ->
  (tcp_is_valid E (V4 p) b' = Ok true <-> blind_burst j b b' /\ wire16 b' 16 <> 65535).
Proof.
  intros E p b b' j Hp Hb Hb' Hl Hlb He Hj Hd Hv. pose proof Hd as [Hl' _].
  rewrite c22_tcp_is_valid_receiver in Hv by assumption. rewrite c22_tcp_is_valid_receiver by (rewrite ?Hl'; assumption).
  unfold receiver_accepts in *. destruct Hv as [Hv _].
  rewrite accepts_mod in Hv by (apply pseudo_seg_pos; lia). rewrite accepts_mod by (apply pseudo_seg_pos; lia).
  rewrite word_sum_pseudo in Hv |- *. rewrite Hl'.
  rewrite (burst_sum b b' j Hb Hb' ltac:(lia) Hj Hd _ Hv). reflexivity.
Qed.
(** is_valid of an ICMP message of even length. *)
Lemma icmp_valid_even E b : is_bytes b -> 4 <= len b -> len b mod 2 = 0 ->
  (icmp_is_valid E b = Ok true <-> word_sum b mod 65535 = 0 /\ wire16 b 2 <> 65535).
Proof.
  intros Hb Hl He. unfold icmp_is_valid. rewrite c23_icmp_checksum by exact Hb. cbn [bind]. unfold icmp_checksum.
  rewrite get16 by lia. cbn [bind]. rewrite ok_true_eqb.
  rewrite drop_odd_even by (rewrite len_zero_field; exact He). unfold nonzero_checksum, inet_checksum.
  rewrite (word_sum_stored 2 b) by (reflexivity || lia). pose proof (wire16_lt b 2 Hb) as Hw.
  set (s := word_sum (zero_field 2 b)) in *. clearbody s.
  destruct (N.eqb_spec s 0) as [->|Hs]; [clear He; lia|].
  rewrite stored_receiver by lia. rewrite accepts_mod by lia. reflexivity.
Qed.
(** C68: an ICMP message of even length hit by a burst (an odd last byte is not covered at all, C23). *)
Lemma c68_icmp_burst : forall E b b' j, is_bytes b -> is_bytes b' -> 4 <= len b -> len b mod 2 = 0 ->
  j + 16 <= 8 * len b -> burst j b b' -> icmp_is_valid E b = Ok true ->
  (icmp_is_valid E b' = Ok true <-> blind_burst j b b' /\ wire16 b' 2 <> 65535).
Proof.
  intros E b b' j Hb Hb' Hl He Hj Hd Hv. pose proof Hd as [Hl' _].
  rewrite icmp_valid_even in Hv by assumption. rewrite icmp_valid_even by (rewrite ?Hl'; assumption).
  destruct Hv as [Hv _].
  pose proof (burst_sum b b' j Hb Hb' ltac:(lia) Hj Hd 0 Hv) as H. rewrite N.add_0_l in H. rewrite H. reflexivity.
Qed.

(** The two addresses of the parent, as one message. *)
Lemma addresses p : 20 <= len p ->
  octets (wire_addr p 12) ++ octets (wire_addr p 16) = dropN 12 (takeN 20 p).
Proof.
  intros H. apply nthN_ext; [autorewrite with len; cbn; lia|]. intros i Hi.
  change (len (octets (wire_addr p 12) ++ octets (wire_addr p 16))) with 8 in Hi.
  rewrite nthN_dropN. rewrite nthN_takeN by lia.
  assert (Hc : i = 0 \/ i = 1 \/ i = 2 \/ i = 3 \/ i = 4 \/ i = 5 \/ i = 6 \/ i = 7) by lia.
  destruct Hc as [->|[->|[->|[->|[->|[->|[->| ->]]]]]]]; reflexivity.
Qed.
Lemma sum_addresses p proto b : 20 <= len p ->
  word_sum (with_pseudo_header (wire_addr p 12) (wire_addr p 16) proto b) =
  (proto + len b mod 65536 + word_sum b) + word_sum (dropN 12 (takeN 20 p)).
Proof.
  intros H. rewrite word_sum_pseudo, pseudo_sum, <- addresses by exact H. cbn [octets app word_sum]. lia.
Qed.
Lemma msg_bit_window p n : n < 64 -> msg_bit (dropN 12 (takeN 20 p)) n = msg_bit p (n + 96).
Proof.
  intros H. unfold msg_bit. rewrite nthN_dropN, nthN_takeN by lia.
  replace ((n + 96) / 8) with (12 + n / 8) by lia. replace ((n + 96) mod 8) with (n mod 8) by lia. reflexivity.
Qed.
Lemma msg_bit_out b n : 8 * len b <= n -> msg_bit b n = false.
Proof. intros H. unfold msg_bit. rewrite nthN_out by lia. apply N.bits_0. Qed.
Lemma window_burst p p' j : is_bytes p -> is_bytes p' -> 20 <= len p -> 96 <= j -> j + 16 <= 160 -> burst j p p' ->
  burst (j - 96) (dropN 12 (takeN 20 p)) (dropN 12 (takeN 20 p')) /\
  (blind_burst j p p' <-> blind_burst (j - 96) (dropN 12 (takeN 20 p)) (dropN 12 (takeN 20 p'))).
Proof.
  intros Hp Hp' Hl H1 H2 [Hl' Hd].
  assert (Hlen : forall q, 20 <= len q -> len (dropN 12 (takeN 20 q)) = 8) by (intros; autorewrite with len; lia).
  split; [split|].
  - rewrite !Hlen by lia. reflexivity.
  - intros n Hn. destruct (N.ltb_spec n 64).
    + rewrite !msg_bit_window by assumption. apply Hd. lia.
    + rewrite !msg_bit_out by (rewrite Hlen; lia). reflexivity.
  - assert (Hrun : forall v q, run_of v j q <-> run_of v (j - 96) (dropN 12 (takeN 20 q))).
    { intros v q. split; intros H n Hn.
      - rewrite msg_bit_window by lia. apply H. lia.
      - specialize (H (n - 96) ltac:(lia)). rewrite msg_bit_window in H by lia.
        replace (n - 96 + 96) with n in H by lia. exact H. }
    unfold blind_burst. rewrite <- !Hrun. apply or_iff_compat_r. split; [intros ->; reflexivity|].
    intros He. apply nthN_ext; [exact Hl'|]. intros i _. apply msg_bits_byte; [assumption|assumption|].
    intros n _. assert (Hc : n < j \/ j + 16 <= n \/ j <= n < j + 16) by lia.
    destruct Hc as [Hc|[Hc|Hc]]; [apply Hd; lia|apply Hd; lia|].
    replace n with (n - 96 + 96) by lia. rewrite <- !msg_bit_window by lia. rewrite He. reflexivity.
Qed.
(** C68: the addresses of the IPv4 header hit by a burst, as seen by UDP ... *)
Lemma c68_udp_parent_burst : forall E p p' b j, is_bytes p -> is_bytes p' -> is_bytes b -> 20 <= len p -> 8 <= len b ->
  len b mod 2 = 0 \/ cursor_eof E = EofKeep ->
  96 <= j -> j + 16 <= 160 -> burst j p p' -> udp_is_valid E (V4 p) b = Ok true ->
  (udp_is_valid E (V4 p') b = Ok true <-> blind_burst j p p').
Proof.
  intros E p p' b j Hp Hp' Hb Hl Hlb He H1 H2 Hd Hv. pose proof Hd as [Hl' _].
  rewrite c21_udp_is_valid_receiver in Hv by assumption. rewrite c21_udp_is_valid_receiver by (rewrite ?Hl'; assumption).
  unfold receiver_accepts in *. destruct Hv as [Hv Hst].
  rewrite accepts_mod in Hv by (apply pseudo_seg_pos; lia). rewrite accepts_mod by (apply pseudo_seg_pos; lia).
  rewrite sum_addresses in Hv |- * by lia.
  destruct (window_burst p p' j Hp Hp' Hl H1 H2 Hd) as [Hwd ->].
  rewrite (burst_sum (dropN 12 (takeN 20 p)) (dropN 12 (takeN 20 p')) (j - 96)).
  - tauto.
  - apply is_bytes_dropN, is_bytes_takeN, Hp.
  - apply is_bytes_dropN, is_bytes_takeN, Hp'.
  - autorewrite with len. lia.
  - autorewrite with len. lia.
  - exact Hwd.
  - exact Hv.
Qed.
(** C68: ... and by TCP. *)
Lemma c68_tcp_parent_burst : forall E p p' b j, is_bytes p -> is_bytes p' -> is_bytes b -> 20 <= len p ->
  18 <= len b <= 131065 -> len b mod 2 = 0 \/ cursor_eof E = EofKeep ->
  96 <= j -> j + 16 <= 160 -> burst j p p' -> tcp_is_valid E (V4 p) b = Ok true ->
  (tcp_is_valid E (V4 p') b = Ok true <-> blind_burst j p p').
Proof.
  intros E p p' b j Hp Hp' Hb Hl Hlb He H1 H2 Hd Hv. pose proof Hd as [Hl' _].
  rewrite c22_tcp_is_valid_receiver in Hv by assumption. rewrite c22_tcp_is_valid_receiver by (rewrite ?Hl'; assumption).
  unfold receiver_accepts in *. destruct Hv as [Hv Hst].
  rewrite accepts_mod in Hv by (apply pseudo_seg_pos; lia). rewrite accepts_mod by (apply pseudo_seg_pos; lia).
  rewrite sum_addresses in Hv |- * by lia.
  destruct (window_burst p p' j Hp Hp' Hl H1 H2 Hd) as [Hwd ->].
  rewrite (burst_sum (dropN 12 (takeN 20 p)) (dropN 12 (takeN 20 p')) (j - 96)).
  - tauto.
  - apply is_bytes_dropN, is_bytes_takeN, Hp.
  - apply is_bytes_dropN, is_bytes_takeN, Hp'.
  - autorewrite with len. lia.
  - autorewrite with len. lia.
  - exact Hwd.
  - exact Hv.
Qed.
Example c68_burst_example : forall E,
  let b := [69; 0; 0; 20; 1; 2; 64; 0; 64; 17; 37; 213; 10; 0; 0; 1; 10; 0; 0; 2] in
  let c := [69; 255; 255; 20; 1; 2; 64; 0; 64; 17; 37; 213; 10; 0; 0; 1; 10; 0; 0; 2] in
  let d := [69; 0; 0; 20; 1; 2; 64; 0; 64; 17; 37; 213; 10; 0; 1; 1; 10; 0; 0; 2] in
  is_bytes b /\ v4_no_payload b = Ok b /\ v4_no_payload d = Ok d /\ v4_is_valid E b = Ok true /\
  burst 8 b c /\ blind_burst 8 b c /\ burst 104 b d /\ d <> b /\ v4_is_valid E d = Ok false /\
  v4_no_payload c = Ok c /\ v4_is_valid E c = Ok true.
Proof.
  intros E b c d.
  assert (Hb : forall x y : bytes, len y = len x -> forall j, forallb (fun n => (j <=? n) && (n <? j + 16) || Bool.eqb (msg_bit y n) (msg_bit x n))
     (map N.of_nat (seq 0 (N.to_nat (8 * len x)))) = true -> burst j x y).
  { intros x y Hl j H. split; [exact Hl|]. intros n Hn. destruct (N.ltb_spec n (8 * len x)).
    - rewrite forallb_forall in H. specialize (H n). apply Bool.eqb_prop.
      assert (Hin : In n (map N.of_nat (seq 0 (N.to_nat (8 * len x))))).
      { apply in_map_iff. exists (N.to_nat n). split; [lia|]. apply in_seq. lia. }
      specialize (H Hin). destruct (Bool.eqb (msg_bit y n) (msg_bit x n)); [reflexivity|]. lia.
    - rewrite !msg_bit_out by lia. reflexivity. }
  assert (Hr : forall v x j, forallb (fun n => Bool.eqb (msg_bit x (j + n)) v) (map N.of_nat (seq 0 16)) = true -> run_of v j x).
  { intros v x j H n Hn. rewrite forallb_forall in H. specialize (H (n - j)).
    replace (j + (n - j)) with n in H by lia. apply Bool.eqb_prop. apply H.
    apply in_map_iff. exists (N.to_nat (n - j)). split; [lia|]. apply in_seq. lia. }
  split; [repeat constructor|]. split; [reflexivity|]. split; [reflexivity|]. split; [destruct E as [[] [] []]; reflexivity|].
  split; [apply Hb; [reflexivity|vm_compute; reflexivity]|].
  split; [right; left; split; apply Hr; vm_compute; reflexivity|].
  split; [apply Hb; [reflexivity|vm_compute; reflexivity]|].
  split; [discriminate|]. split; [destruct E as [[] [] []]; reflexivity|]. split; [reflexivity|destruct E as [[] [] []]; reflexivity].
Qed.

(** ** Words in another order *)
Definition total (l : list N) : N := fold_right N.add 0 l.
Lemma total_words b : total (words b) = word_sum b.
Proof. induction b as [|x|x y b IH] using pair_ind; [reflexivity|cbn; lia|]. cbn [words word_sum total fold_right]. fold (total (words b)). rewrite IH. reflexivity. Qed.
Lemma total_perm l l' : Permutation l l' -> total l = total l'.
Proof. intros H. induction H; cbn [total fold_right] in *; try fold (total l) in *; try fold (total l') in *; unfold total in *; lia. Qed.
Lemma reordered_sum b b' : reordered b b' -> word_sum b = word_sum b'.
Proof. intros H. rewrite <- !total_words. apply total_perm. exact H. Qed.
Lemma len_words b : N.of_nat (length (words b)) = (len b + 1) / 2.
Proof. induction b as [|x|x y b IH] using pair_ind; [reflexivity|reflexivity|]. cbn [words length]. rewrite !len_cons. lia. Qed.

(** C68: the 16-bit words of an IPv4 header in another order (the checksum in its
    place). *)
Lemma c68_v4_reorder : forall E b b', is_bytes b -> is_bytes b' ->
  v4_no_payload b = Ok b -> v4_no_payload b' = Ok b' -> 3 <= nthN b 0 mod 16 ->
  nthN b' 0 mod 16 = nthN b 0 mod 16 -> wire16 b' 10 = wire16 b 10 ->
  reordered (takeN (nthN b 0 mod 16 * 4) b) (takeN (nthN b 0 mod 16 * 4) b') ->
  v4_is_valid E b' = v4_is_valid E b.
Proof.
  intros E b b' Hb Hb' Hn Hn' Hi H0 Hw Hr. rewrite !c20_v4_is_valid by (assumption || lia). rewrite H0.
  apply reordered_sum in Hr. apply v4_no_payload_iff in Hn, Hn'. rewrite H0 in Hn'.
  set (h := nthN b 0 mod 16 * 4) in *.
  assert (Hf : forall c, h <= len c -> wire16 (takeN h c) 10 = wire16 c 10)
    by (intros; unfold wire16; rewrite !nthN_takeN by lia; reflexivity).
  rewrite (word_sum_stored 10 (takeN h b)) in Hr by (autorewrite with len; lia || reflexivity).
  rewrite (word_sum_stored 10 (takeN h b')) in Hr by (autorewrite with len; lia || reflexivity).
  rewrite !Hf in Hr by lia. rewrite Hw in *. unfold inet_checksum.
  replace (word_sum (zero_field 10 (takeN h b'))) with (word_sum (zero_field 10 (takeN h b))) by lia. reflexivity.
Qed.
Lemma reordered_udp p p' proto b b' off : 20 <= len p -> 20 <= len p' -> off mod 2 = 0 -> off + 2 <= len b ->
  len b' = len b -> wire16 b' off = wire16 b off ->
  reordered (octets (wire_addr p 12) ++ octets (wire_addr p 16) ++ b)
            (octets (wire_addr p' 12) ++ octets (wire_addr p' 16) ++ b') ->
  inet_checksum (with_pseudo_header (wire_addr p' 12) (wire_addr p' 16) proto (zero_field off b')) =
  inet_checksum (with_pseudo_header (wire_addr p 12) (wire_addr p 16) proto (zero_field off b)).
Proof.
  intros Hp Hp' Ho Hl Hl' Hw Hr. apply reordered_sum in Hr. rewrite !app_assoc, !addresses in Hr by assumption.
  rewrite !word_sum_app in Hr by (autorewrite with len; lia).
  rewrite (word_sum_stored off b) in Hr by lia. rewrite (word_sum_stored off b') in Hr by lia.
  unfold inet_checksum. rewrite !sum_addresses by assumption. rewrite !len_zero_field, Hl'. rewrite Hw in Hr.
  do 2 f_equal. lia.
Qed.
(** C68: the same for UDP and TCP with the addresses of their parents; also when the
    words move between the header, the payload and the addresses. *)
Lemma c68_udp_reorder : forall E p p' b b', is_bytes p -> is_bytes p' -> is_bytes b -> is_bytes b' ->
  20 <= len p -> 20 <= len p' -> 8 <= len b -> len b' = len b -> len b mod 2 = 0 \/ cursor_eof E = EofKeep ->
  wire16 b' 6 = wire16 b 6 ->
  reordered (octets (wire_addr p 12) ++ octets (wire_addr p 16) ++ b)
            (octets (wire_addr p' 12) ++ octets (wire_addr p' 16) ++ b') ->
  udp_is_valid E (V4 p') b' = udp_is_valid E (V4 p) b.
Proof.
  intros E p p' b b' Hp Hp' Hb Hb' Hl Hl' Hlb Hlen He Hw Hr.
  rewrite !c21_udp_is_valid by (rewrite ?Hlen; assumption).
  rewrite (reordered_udp p p' 17 b b' 6) by (assumption || lia || reflexivity). rewrite Hw. reflexivity.
Qed.
Lemma c68_tcp_reorder : forall E p p' b b', is_bytes p -> is_bytes p' -> is_bytes b -> is_bytes b' ->
  20 <= len p -> 20 <= len p' -> 18 <= len b <= 131065 -> len b' = len b ->
  wire16 b' 16 = wire16 b 16 ->
  reordered (octets (wire_addr p 12) ++ octets (wire_addr p 16) ++ b)
            (octets (wire_addr p' 12) ++ octets (wire_addr p' 16) ++ b') ->
  tcp_is_valid E (V4 p') b' = tcp_is_valid E (V4 p) b.
Proof.
  intros E p p' b b' Hp Hp' Hb Hb' Hl Hl' Hlb Hlen Hw Hr.
  assert (He : len b mod 2 = 0 \/ cursor_eof E = EofKeep \/ (len b mod 2 = 1 /\ cursor_eof E = EofSeek))
    by (destruct (cursor_eof E); [tauto|]; assert (len b mod 2 = 0 \/ len b mod 2 = 1) by lia; tauto).
  destruct He as [He|[He|[Ho He]]];
    [rewrite !c22_tcp_is_valid by (rewrite ?Hlen; tauto)|rewrite !c22_tcp_is_valid by (rewrite ?Hlen; tauto)|
     unfold tcp_is_valid; rewrite !c22_tcp_checksum_odd by (rewrite ?Hlen; assumption || lia); reflexivity];
  (rewrite (reordered_udp p p' 6 b b' 16) by (assumption || lia || reflexivity)); rewrite Hw; reflexivity.
Qed.
(** C68: the same for ICMP. *)
Lemma c68_icmp_reorder : forall E b b', is_bytes b -> is_bytes b' -> 4 <= len b -> len b' = len b ->
  wire16 b' 2 = wire16 b 2 -> reordered (drop_odd b) (drop_odd b') ->
  icmp_is_valid E b' = icmp_is_valid E b.
Proof.
  intros E b b' Hb Hb' Hl Hl' Hw Hr. unfold icmp_is_valid. rewrite !c23_icmp_checksum by assumption. cbn [bind].
  unfold icmp_checksum. rewrite !get16 by lia. rewrite Hw. cbn [bind].
  apply reordered_sum in Hr.
  assert (Hz : forall c, 4 <= len c -> word_sum (drop_odd c) = word_sum (drop_odd (zero_field 2 c)) + wire16 c 2).
  { intros c Hc. rewrite (word_sum_stored 2 (drop_odd c)) by (rewrite ?len_drop_odd; lia || reflexivity).
    f_equal; [|unfold wire16, drop_odd; rewrite !nthN_takeN by lia; reflexivity].
    f_equal. unfold drop_odd. rewrite len_zero_field. rewrite !zero_field_patch by (autorewrite with len; lia).
    symmetry. apply takeN_patch; cbn; lia. }
  rewrite (Hz b), (Hz b') in Hr by lia. unfold nonzero_checksum, inet_checksum. rewrite Hw in Hr.
  replace (word_sum (drop_odd (zero_field 2 b'))) with (word_sum (drop_odd (zero_field 2 b))) by lia. reflexivity.
Qed.
(** C68: UDP and TCP look at nothing of the parent but its addresses. *)
Lemma c68_parent_addresses : forall E p p' b, 20 <= len p -> 20 <= len p' ->
  wire_addr p' 12 = wire_addr p 12 -> wire_addr p' 16 = wire_addr p 16 ->
  udp_is_valid E (V4 p') b = udp_is_valid E (V4 p) b /\
  tcp_is_valid E (V4 p') b = tcp_is_valid E (V4 p) b /\
  udp_checksum_of E (V4 p') b = udp_checksum_of E (V4 p) b /\
  tcp_checksum_of E (V4 p') b = tcp_checksum_of E (V4 p) b /\
  udp_update_checksum E (V4 p') b = udp_update_checksum E (V4 p) b /\
  tcp_update_checksum E (V4 p') b = tcp_update_checksum E (V4 p) b.
Proof.
  intros E p p' b Hl Hl' H1 H2.
  assert (Hu : udp_checksum_of E (V4 p') b = udp_checksum_of E (V4 p) b).
  { unfold udp_checksum_of. cbn. rewrite !v4_source_ok, !v4_destination_ok by assumption. rewrite H1, H2. reflexivity. }
  assert (Ht : tcp_checksum_of E (V4 p') b = tcp_checksum_of E (V4 p) b).
  { unfold tcp_checksum_of. cbn. rewrite !v4_source_ok, !v4_destination_ok by assumption. rewrite H1, H2. reflexivity. }
  unfold udp_is_valid, tcp_is_valid, udp_update_checksum, tcp_update_checksum, mlet. rewrite Hu, Ht. repeat split.
Qed.
(** C68: another parent.  A valid datagram or segment stays valid exactly when the
    words of the two addresses have the same sum modulo 65535. *)
Lemma c68_other_addresses : forall E p p' b, is_bytes p -> is_bytes p' -> is_bytes b -> 20 <= len p -> 20 <= len p' ->
  len b mod 2 = 0 \/ cursor_eof E = EofKeep ->
  let same := word_sum (octets (wire_addr p' 12) ++ octets (wire_addr p' 16)) mod 65535 =
              word_sum (octets (wire_addr p 12) ++ octets (wire_addr p 16)) mod 65535 in
  (8 <= len b -> udp_is_valid E (V4 p) b = Ok true -> (udp_is_valid E (V4 p') b = Ok true <-> same)) /\
  (18 <= len b <= 131065 -> tcp_is_valid E (V4 p) b = Ok true -> (tcp_is_valid E (V4 p') b = Ok true <-> same)).
Proof.
  intros E p p' b Hp Hp' Hb Hl Hl' He same. unfold same. rewrite !addresses by assumption. split; intros Hlb Hv.
  - rewrite c21_udp_is_valid_receiver in Hv |- * by assumption. unfold receiver_accepts in *. destruct Hv as [Hv Hst].
    rewrite accepts_mod in Hv |- * by (apply pseudo_seg_pos; lia). rewrite sum_addresses in Hv |- * by assumption.
    set (x := word_sum (dropN 12 (takeN 20 p))) in *. set (y := word_sum (dropN 12 (takeN 20 p'))) in *.
    set (K := 17 + _ + _) in *. clearbody x y K. clear - Hv Hst. split; [intros [H _]|intros H; split; [|assumption]]; lia.
  - rewrite c22_tcp_is_valid_receiver in Hv |- * by assumption. unfold receiver_accepts in *. destruct Hv as [Hv Hst].
    rewrite accepts_mod in Hv |- * by (apply pseudo_seg_pos; lia). rewrite sum_addresses in Hv |- * by assumption.
    set (x := word_sum (dropN 12 (takeN 20 p))) in *. set (y := word_sum (dropN 12 (takeN 20 p'))) in *.
    set (K := 6 + _ + _) in *. clearbody x y K. clear - Hv Hst. split; [intros [H _]|intros H; split; [|assumption]]; lia.
Qed.
Example c68_reorder_example : forall E,
  let p := [69;0;0;30;0;0;0;0;64;17;0;0;10;0;0;1;10;0;0;2] in
  let p' := [69;0;0;30;0;0;0;0;64;17;0;0;10;0;0;2;10;0;0;1] in
  let p2 := [69;0;0;30;0;0;0;0;64;17;0;0;10;0;0;3;10;0;0;2] in
  let b := [0; 53; 0; 99; 0; 10; 130; 214; 104; 105] in
  let b' := [0; 99; 0; 53; 0; 10; 130; 214; 104; 105] in
  is_bytes p /\ is_bytes p' /\ is_bytes b /\ udp_is_valid E (V4 p) b = Ok true /\ wire16 b' 6 = wire16 b 6 /\
  reordered (octets (wire_addr p 12) ++ octets (wire_addr p 16) ++ b)
            (octets (wire_addr p' 12) ++ octets (wire_addr p' 16) ++ b') /\
  udp_is_valid E (V4 p') b' = Ok true /\ udp_is_valid E (V4 p2) b = Ok false.
Proof.
  intros E p p' p2 b b'. do 3 (split; [repeat constructor|]). split; [destruct E as [[] [] []]; reflexivity|].
  split; [reflexivity|]. split; [|split; destruct E as [[] [] []]; reflexivity].
  change (Permutation [2560; 1; 2560; 2; 53; 99; 10; 33494; 26729] [2560; 2; 2560; 1; 99; 53; 10; 33494; 26729]).
  apply (Permutation_trans (l' := [2560; 2; 2560; 1; 53; 99; 10; 33494; 26729])).
  - apply (Permutation_app_tail [53; 99; 10; 33494; 26729] (l := [2560; 1; 2560; 2]) (l' := [2560; 2; 2560; 1])). apply perm_skip.
    apply (Permutation_trans (l' := [2560; 1; 2])); [apply perm_swap|].
    apply (Permutation_trans (l' := [2560; 2; 1])); [apply perm_skip, perm_swap|apply perm_swap].
  - apply (Permutation_app_head [2560; 2; 2560; 1] (tl := [53; 99; 10; 33494; 26729]) (tl' := [99; 53; 10; 33494; 26729])). apply perm_swap.
Qed.
