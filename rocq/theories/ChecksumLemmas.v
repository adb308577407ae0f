(** * ChecksumLemmas: the summation loops compute the RFC 1071 sum. *)
From Verif Require Import Base Enums Ipv4 Ip Udp Tcp Icmp Spec Lemmas.
From Coq Require Import ZifyBool ZifyNat ZifyN.
Ltac Zify.zify_post_hook ::= Z.div_mod_to_equations.

(** ** ones_sum *)
Lemma ones_sum_lt t : ones_sum t < 65536.
Proof. unfold ones_sum. destruct (N.eqb_spec t 0); lia. Qed.
Lemma ones_sum_small t : t <= 65535 -> ones_sum t = t.
Proof. unfold ones_sum. destruct (N.eqb_spec t 0); intros; [lia|]. rewrite N.mod_small; lia. Qed.
Lemma ones_sum_0 t : ones_sum t = 0 <-> t = 0.
Proof. unfold ones_sum. destruct (N.eqb_spec t 0); lia. Qed.
Lemma ones_sum_cong t : ones_sum t mod 65535 = t mod 65535.
Proof.
  unfold ones_sum. destruct (N.eqb_spec t 0) as [->|H]; [reflexivity|].
  rewrite N.add_mod_idemp_r by lia. f_equal. lia.
Qed.
(** Two positive sums with the same residue have the same ones'-complement sum. *)
Lemma ones_sum_eq t u : (t = 0 <-> u = 0) -> t mod 65535 = u mod 65535 -> ones_sum t = ones_sum u.
Proof.
  intros H0 Hm. unfold ones_sum. destruct (N.eqb_spec t 0), (N.eqb_spec u 0); try lia.
Qed.
Lemma ones_sum_add t w : ones_sum (ones_sum t + w) = ones_sum (t + w).
Proof.
  apply ones_sum_eq.
  - pose proof (ones_sum_0 t). lia.
  - rewrite (N.add_mod (ones_sum t)) by lia. rewrite ones_sum_cong. rewrite <- N.add_mod by lia. reflexivity.
Qed.
Lemma ones_sum_65535 t : ones_sum (65535 + t) = if t =? 0 then 65535 else ones_sum t.
Proof.
  destruct (N.eqb_spec t 0) as [->|H]; [reflexivity|]. apply ones_sum_eq; [lia|].
  rewrite <- (N.add_mod_idemp_l 65535) by lia. reflexivity.
Qed.
Lemma ones_sum_inj t u : ones_sum t = ones_sum u -> t mod 65535 = u mod 65535.
Proof. intros H. rewrite <- (ones_sum_cong t), <- (ones_sum_cong u), H. reflexivity. Qed.
Lemma carry_step t w : w <= 65535 ->
  (if 65535 <? ones_sum t + w then ones_sum t + w - 65535 else ones_sum t + w) = ones_sum (t + w).
Proof.
  intros Hw. rewrite <- ones_sum_add. pose proof (ones_sum_lt t) as Ht.
  set (x := ones_sum t) in *. clearbody x.
  destruct (N.ltb_spec 65535 (x + w)); [|rewrite ones_sum_small by lia; reflexivity].
  rewrite <- (ones_sum_small (x + w - 65535)) by lia. apply ones_sum_eq; [lia|].
  lia.
Qed.

(** ** word_sum *)
Lemma pair_ind (P : bytes -> Prop) :
  P [] -> (forall x, P [x]) -> (forall x y b, P b -> P (x :: y :: b)) -> forall b, P b.
Proof.
  intros H0 H1 H2. assert (H : forall b, P b /\ forall x, P (x :: b)).
  { induction b as [|y b [IH1 IH2]]; split; auto. }
  intros b. apply H.
Qed.
Lemma even_split (a : bytes) : len a mod 2 = 0 -> forall P : bytes -> Prop,
  P [] -> (forall x y b, len b mod 2 = 0 -> P b -> P (x :: y :: b)) -> P a.
Proof.
  intros H P H0 H2. revert H. induction a as [|x|x y a IH] using pair_ind; intros H.
  - exact H0.
  - discriminate H.
  - rewrite !len_cons in H. apply H2; [|apply IH]; lia.
Qed.
Lemma word_sum_app a b : len a mod 2 = 0 -> word_sum (a ++ b) = word_sum a + word_sum b.
Proof.
  intros H. apply (even_split a H); [reflexivity|].
  intros x y c _ IH. cbn [app word_sum]. rewrite IH. lia.
Qed.
Lemma word_sum_zeros2 : word_sum [0; 0] = 0. Proof. reflexivity. Qed.
Lemma word_sum_bound b : is_bytes b -> word_sum b <= 65535 * (len b / 2) + 65280 * (len b mod 2).
Proof.
  intros Hb. induction b as [|x|x y b IH] using pair_ind.
  - cbn. lia.
  - inversion Hb; subst. unfold u8 in *. cbn. lia.
  - inversion Hb as [|? ? Hx Hb']; subst. inversion Hb' as [|? ? Hy Hb'']; subst. specialize (IH Hb'').
    unfold u8 in *. cbn [word_sum]. rewrite !len_cons.
    replace ((len b + 1 + 1) / 2) with (len b / 2 + 1) by lia.
    replace ((len b + 1 + 1) mod 2) with (len b mod 2) by lia. lia.
Qed.
Lemma len_drop_odd b : len (drop_odd b) = len b / 2 * 2.
Proof. unfold drop_odd. autorewrite with len. lia. Qed.
Lemma drop_odd_even b : len b mod 2 = 0 -> drop_odd b = b.
Proof. intros H. apply takeN_all. lia. Qed.
Lemma drop_odd_split b : b = drop_odd b ++ dropN (len b / 2 * 2) b.
Proof. symmetry. apply takeN_dropN. Qed.
Lemma word_sum_drop_odd b : word_sum b =
  word_sum (drop_odd b) + match dropN (len b / 2 * 2) b with x :: _ => x * 256 | [] => 0 end.
Proof.
  rewrite (drop_odd_split b) at 1. rewrite word_sum_app by (rewrite len_drop_odd; lia). f_equal.
  pose proof (len_dropN (len b / 2 * 2) b) as Hl.
  destruct (dropN (len b / 2 * 2) b) as [|x [|y r]]; [reflexivity|reflexivity|].
  rewrite !len_cons in Hl. lia.
Qed.
(** Replacing one byte. *)
Lemma word_sum_alter b i v : i < len b ->
  word_sum (alter b i v) + nthN b i * (if i mod 2 =? 0 then 256 else 1) =
  word_sum b + v * (if i mod 2 =? 0 then 256 else 1).
Proof.
  revert i. induction b as [|x|x y b IH] using pair_ind; intros i Hi.
  - cbn in Hi. lia.
  - assert (i = 0) as -> by (cbn in Hi; lia).
    change (alter [x] 0 v) with [v]. change (nthN [x] 0) with x.
    change (0 mod 2 =? 0) with true. cbn [word_sum]. lia.
  - rewrite !len_cons in Hi.
    destruct (N.eq_dec i 0) as [->|H0].
    { change (alter (x :: y :: b) 0 v) with (v :: y :: b). change (nthN (x :: y :: b) 0) with x.
      change (0 mod 2 =? 0) with true. cbn [word_sum]. lia. }
    destruct (N.eq_dec i 1) as [->|H1].
    { change (alter (x :: y :: b) 1 v) with (x :: v :: b). change (nthN (x :: y :: b) 1) with y.
      change (1 mod 2 =? 0) with false. cbn [word_sum]. lia. }
    specialize (IH (i - 2) ltac:(lia)).
    assert (Ha : alter (x :: y :: b) i v = x :: y :: alter b (i - 2) v).
    { unfold alter. rewrite !takeN_cons by lia. rewrite !dropN_cons by lia. cbn [app].
      replace (i - 1 - 1) with (i - 2) by lia. replace (i + 1 - 1 - 1) with (i - 2 + 1) by lia. reflexivity. }
    rewrite Ha. cbn [word_sum]. rewrite !nthN_cons by lia. replace (i - 1 - 1) with (i - 2) by lia.
    replace ((i - 2) mod 2) with (i mod 2) in IH by lia. lia.
Qed.
Lemma zero_field_eq off b : off + 2 <= len b ->
  zero_field off b = takeN off b ++ [0; 0] ++ dropN (off + 2) b.
Proof. intros H. unfold zero_field. destruct (N.leb_spec (off + 2) (len b)); [reflexivity|lia]. Qed.
Lemma zero_field_short off b : len b < off + 2 -> zero_field off b = b.
Proof. intros H. unfold zero_field. destruct (N.leb_spec (off + 2) (len b)); [lia|reflexivity]. Qed.
(** The field at an even position holding [v]. *)
Lemma word_sum_field off v b : off mod 2 = 0 -> off + 2 <= len b ->
  word_sum (patch off (enc16 v) b) = word_sum (zero_field off b) + v.
Proof.
  intros Ho Hl. rewrite zero_field_eq by exact Hl. unfold patch.
  replace (off + len (enc16 v)) with (off + 2) by reflexivity.
  assert (He : len (takeN off b) mod 2 = 0) by (autorewrite with len; lia).
  rewrite !word_sum_app by (try exact He; reflexivity). cbn [enc16 word_sum app].
  pose proof (enc16_dec v). lia.
Qed.

(** ** The loop with end-around carry *)
Lemma carry_app E skip a b pos t :
  is_bytes a -> len a mod 2 = 0 -> skip <= pos \/ pos + len a < skip ->
  carry_loop E skip pos (a ++ b) (ones_sum t) =
  carry_loop E skip (pos + len a) b (ones_sum (t + word_sum a)).
Proof.
  intros Hb He. revert pos t Hb. apply (even_split a He).
  - intros pos t _ _. cbn [app word_sum]. rewrite !N.add_0_r. reflexivity.
  - intros x y c Hc IH pos t Hb Hs. cbn [app carry_loop].
    inversion Hb as [|? ? Hx Hb']; subst. inversion Hb' as [|? ? Hy Hb'']; subst. unfold u8 in *.
    rewrite !len_cons in Hs.
    destruct (N.eqb_spec (pos + 2) skip); [lia|].
    pose proof (ones_sum_lt t). rewrite u32_add_ok by (unfold U32; lia). cbn [bind].
    rewrite carry_step by lia. rewrite IH by (assumption || lia). cbn [word_sum]. rewrite !len_cons.
    f_equal; [lia|]. f_equal. lia.
Qed.
Lemma carry_end E skip pos b r : len b < 2 -> carry_loop E skip pos b r = Ok (r, b).
Proof. destruct b as [|x [|y b]]; intros H; [reflexivity|reflexivity|]. rewrite !len_cons in H. lia. Qed.
Lemma carry_plain E skip pos b t : is_bytes b -> skip <= pos ->
  carry_loop E skip pos b (ones_sum t) = Ok (ones_sum (t + word_sum (drop_odd b)), dropN (len b / 2 * 2) b).
Proof.
  intros Hb Hs. rewrite (drop_odd_split b) at 1.
  rewrite carry_app; [|apply is_bytes_takeN; exact Hb|rewrite len_drop_odd; lia|left; exact Hs].
  apply carry_end. rewrite len_dropN. lia.
Qed.
Lemma len_zero_field off b : len (zero_field off b) = len b.
Proof.
  destruct (N.ltb_spec (len b) (off + 2)); [rewrite zero_field_short by lia; reflexivity|].
  rewrite zero_field_eq by lia. autorewrite with len. lia.
Qed.
Lemma zero_field_patch off b : off + 2 <= len b -> zero_field off b = patch off [0; 0] b.
Proof. intros H. apply zero_field_eq. exact H. Qed.
Lemma is_bytes_zero_field off b : is_bytes b -> is_bytes (zero_field off b).
Proof.
  intros H. destruct (N.ltb_spec (len b) (off + 2)); [rewrite zero_field_short by lia; exact H|].
  rewrite zero_field_patch by lia. apply is_bytes_patch; [exact H|repeat constructor].
Qed.
Lemma field_split off b : off + 2 <= len b ->
  exists x y, b = takeN off b ++ x :: y :: dropN (off + 2) b.
Proof.
  intros H. exists (nthN b off), (nthN b (off + 1)).
  rewrite <- (takeN_dropN off b) at 1. f_equal.
  pose proof (len_dropN off b) as Hd.
  replace (nthN b off) with (nthN (dropN off b) 0) by (rewrite nthN_dropN; f_equal; lia).
  replace (nthN b (off + 1)) with (nthN (dropN off b) 1) by (rewrite nthN_dropN; reflexivity).
  rewrite <- dropN_dropN. set (d := dropN off b) in *. clearbody d.
  destruct d as [|x [|y d]]; [cbn in Hd; lia|cbn in Hd; lia|reflexivity].
Qed.
Lemma drop_odd_zero_field off b : off mod 2 = 0 -> off + 2 <= len b ->
  word_sum (drop_odd (zero_field off b)) =
  word_sum (takeN off b) + word_sum (drop_odd (dropN (off + 2) b)).
Proof.
  intros Ho Hl. unfold drop_odd at 1. rewrite len_zero_field. rewrite zero_field_eq by exact Hl.
  rewrite app_assoc. rewrite takeN_app2 by (autorewrite with len; lia).
  rewrite word_sum_app by (autorewrite with len; lia). rewrite word_sum_app by (autorewrite with len; lia).
  rewrite word_sum_zeros2, N.add_0_r. f_equal. f_equal. unfold drop_odd. autorewrite with len.
  f_equal. lia.
Qed.
Lemma carry_skip E off b t : is_bytes b -> off mod 2 = 0 ->
  carry_loop E (off + 2) 0 b (ones_sum t) =
  Ok (ones_sum (t + word_sum (drop_odd (zero_field off b))), dropN (len b / 2 * 2) b).
Proof.
  intros Hb Ho. destruct (N.ltb_spec (len b) (off + 2)) as [Hl|Hl].
  { rewrite zero_field_short by lia. rewrite (drop_odd_split b) at 1.
    rewrite carry_app; [|apply is_bytes_takeN; exact Hb|rewrite len_drop_odd; lia|right; rewrite len_drop_odd; lia].
    apply carry_end. rewrite len_dropN. lia. }
  destruct (field_split off b Hl) as (x & y & Hf). rewrite Hf at 1.
  assert (Hlt : len (takeN off b) = off) by (autorewrite with len; lia).
  rewrite carry_app; [|apply is_bytes_takeN; exact Hb|lia|right; lia].
  rewrite Hlt. cbn [carry_loop]. destruct (N.eqb_spec (0 + off + 2) (off + 2)); [|lia].
  rewrite carry_plain; [|apply is_bytes_dropN; exact Hb|lia].
  rewrite drop_odd_zero_field by assumption. f_equal. f_equal; [f_equal; lia|].
  rewrite dropN_dropN. autorewrite with len. f_equal. lia.
Qed.

(** ** The loop without folding, and the folding *)
Lemma plain_app E skip a b pos r :
  len a mod 2 = 0 -> skip <= pos \/ pos + len a < skip -> r + word_sum a < U32 ->
  plain_loop E skip pos (a ++ b) r = plain_loop E skip (pos + len a) b (r + word_sum a).
Proof.
  intros He. revert pos r. apply (even_split a He).
  - intros pos r _ _. cbn [app word_sum]. rewrite !N.add_0_r. reflexivity.
  - intros x y c Hc IH pos r Hs Hr. cbn [app plain_loop]. cbn [word_sum] in Hr.
    rewrite !len_cons in Hs.
    destruct (N.eqb_spec (pos + 2) skip); [lia|].
    rewrite u32_add_ok by lia. cbn [bind]. rewrite IH by lia. cbn [word_sum]. rewrite !len_cons.
    f_equal; lia.
Qed.
Lemma plain_end E skip pos b r : len b < 2 -> plain_loop E skip pos b r = Ok (r, b).
Proof. destruct b as [|x [|y b]]; intros H; [reflexivity|reflexivity|]. rewrite !len_cons in H. lia. Qed.
Lemma plain_plain E skip pos b r : skip <= pos -> r + word_sum (drop_odd b) < U32 ->
  plain_loop E skip pos b r = Ok (r + word_sum (drop_odd b), dropN (len b / 2 * 2) b).
Proof.
  intros Hs Hr. rewrite (drop_odd_split b) at 1.
  rewrite plain_app; [|rewrite len_drop_odd; lia|left; exact Hs|exact Hr].
  apply plain_end. rewrite len_dropN. lia.
Qed.
Lemma plain_skip E off b r : off mod 2 = 0 ->
  r + word_sum (drop_odd (zero_field off b)) < U32 ->
  plain_loop E (off + 2) 0 b r =
  Ok (r + word_sum (drop_odd (zero_field off b)), dropN (len b / 2 * 2) b).
Proof.
  intros Ho Hr. destruct (N.ltb_spec (len b) (off + 2)) as [Hl|Hl].
  { rewrite zero_field_short in * by lia. rewrite (drop_odd_split b) at 1.
    rewrite plain_app; [|rewrite len_drop_odd; lia|right; rewrite len_drop_odd; lia|exact Hr].
    apply plain_end. rewrite len_dropN. lia. }
  destruct (field_split off b Hl) as (x & y & Hf). rewrite Hf at 1.
  assert (Hlt : len (takeN off b) = off) by (autorewrite with len; lia).
  rewrite drop_odd_zero_field in * by assumption.
  rewrite plain_app; [|lia|right; lia|lia].
  rewrite Hlt. cbn [plain_loop]. destruct (N.eqb_spec (0 + off + 2) (off + 2)); [|lia].
  rewrite plain_plain by lia.
  f_equal. f_equal; [lia|]. rewrite dropN_dropN. autorewrite with len. f_equal. lia.
Qed.
Lemma fold_once r : r < U32 ->
  N.land r 65535 + N.shiftr r 16 < U32 /\
  ones_sum (N.land r 65535 + N.shiftr r 16) = ones_sum r /\
  (65536 <= r -> r <= 131070 -> N.land r 65535 + N.shiftr r 16 <= 65535) /\
  N.land r 65535 + N.shiftr r 16 <= 131070.
Proof.
  rewrite land65535_mod, shiftr16_div. unfold U32. intros Hr. split; [lia|]. split.
  - apply ones_sum_eq; [lia|]. lia.
  - split; lia.
Qed.
(** The folding loop ends within two rounds on every u32 and leaves the
    ones'-complement sum. *)
Lemma fold_loop_ok E r k : r < U32 -> fold_loop E (S (S k)) r = Some (Ok (ones_sum r)).
Proof.
  intros Hr. cbn [fold_loop].
  destruct (fold_once r Hr) as (A1 & A2 & A3 & A4).
  destruct (N.eqb_spec (N.shiftr r 16) 0) as [H0|H0].
  { rewrite ones_sum_small; [reflexivity|]. rewrite shiftr16_div in H0. lia. }
  rewrite u32_add_ok by exact A1. set (r1 := N.land r 65535 + N.shiftr r 16) in *.
  destruct (fold_once r1 A1) as (B1 & B2 & B3 & B4).
  destruct (N.eqb_spec (N.shiftr r1 16) 0) as [H1|H1].
  { rewrite <- A2. rewrite ones_sum_small; [reflexivity|]. rewrite shiftr16_div in H1. lia. }
  rewrite u32_add_ok by exact B1. set (r2 := N.land r1 65535 + N.shiftr r1 16) in *.
  assert (Hr2 : r2 <= 65535) by (apply B3; [rewrite shiftr16_div in H1; lia|exact A4]).
  assert (H2 : N.shiftr r2 16 = 0) by (rewrite shiftr16_div; lia).
  destruct k; cbn [fold_loop]; rewrite H2; cbn [N.eqb]; rewrite <- A2, <- B2, ones_sum_small by exact Hr2; reflexivity.
Qed.

(** ** The field and the rest *)
Lemma zero_field_patch_same off bs b : off + 2 <= len b -> len bs = 2 ->
  zero_field off (patch off bs b) = zero_field off b.
Proof.
  intros H Hb. assert (Hl : len (patch off bs b) = len b) by (apply len_patch; lia).
  rewrite !zero_field_eq by lia. unfold patch. rewrite Hb.
  assert (Ht : len (takeN off b) = off) by (autorewrite with len; lia).
  rewrite takeN_app1 by lia. rewrite takeN_all by lia. f_equal. f_equal.
  rewrite dropN_app2 by lia. rewrite dropN_app2 by lia. replace (off + 2 - len (takeN off b) - len bs) with 0 by lia.
  reflexivity.
Qed.
Lemma patch_self off b : off + 2 <= len b -> patch off [nthN b off; nthN b (off + 1)] b = b.
Proof.
  intros H. apply nthN_ext; [apply len_patch; cbn; lia|]. intros i Hi.
  rewrite nthN_patch by (cbn; lia). change (len [nthN b off; nthN b (off + 1)]) with 2.
  destruct (N.leb_spec off i); cbn [andb]; [|reflexivity].
  destruct (N.ltb_spec i (off + 2)); [|reflexivity].
  assert (i = off \/ i = off + 1) as [->| ->] by lia; [replace (off - off) with 0 by lia|replace (off + 1 - off) with 1 by lia]; reflexivity.
Qed.
Lemma word_sum_stored off b : off mod 2 = 0 -> off + 2 <= len b ->
  word_sum b = word_sum (zero_field off b) + wire16 b off.
Proof.
  intros Ho Hl. destruct (field_split off b Hl) as (x & y & Hf).
  rewrite zero_field_eq by exact Hl. unfold wire16.
  assert (Ht : len (takeN off b) = off) by (autorewrite with len; lia).
  assert (Hx : nthN b off = x).
  { rewrite Hf, nthN_app2 by lia. rewrite Ht. replace (off - off) with 0 by lia. reflexivity. }
  assert (Hy : nthN b (off + 1) = y).
  { rewrite Hf, nthN_app2 by lia. rewrite Ht. replace (off + 1 - off) with 1 by lia. reflexivity. }
  rewrite Hx, Hy. rewrite Hf at 1. rewrite !word_sum_app by (try reflexivity; lia). cbn [word_sum app].
  change (word_sum [0;0]) with 0. lia.
Qed.
(** The comparison of the computed checksum with the stored one is the
    receiver's test, except that a stored 65535 is refused. *)
Lemma stored_receiver s v : 0 < s -> v < 65536 ->
  (65535 - ones_sum s = v <-> ones_sum (s + v) = 65535 /\ v <> 65535).
Proof.
  intros Hs Hv. unfold ones_sum. destruct (N.eqb_spec s 0); [lia|]. destruct (N.eqb_spec (s + v) 0); [lia|]. lia.
Qed.
