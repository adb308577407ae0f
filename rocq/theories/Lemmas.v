(** * Lemmas: list algebra with [N] indices, reads, writes, bit masks. *)
From Verif Require Import Base Spec.
From Coq Require Import ZifyBool ZifyNat ZifyN.
Ltac Zify.zify_post_hook ::= Z.div_mod_to_equations.

(** ** Lengths, take, drop, nth *)
Lemma len_nil : len [] = 0. Proof. reflexivity. Qed.
Lemma len_cons x b : len (x :: b) = len b + 1.
Proof. unfold len; cbn [length]; lia. Qed.
Lemma len_app a b : len (a ++ b) = len a + len b.
Proof. unfold len; rewrite app_length; lia. Qed.
Lemma len_zeros n : len (zeros n) = n.
Proof. unfold len, zeros; rewrite repeat_length; lia. Qed.
Lemma len_takeN n b : len (takeN n b) = N.min n (len b).
Proof. unfold len, takeN; rewrite firstn_length; lia. Qed.
Lemma len_dropN n b : len (dropN n b) = len b - n.
Proof. unfold len, dropN; rewrite skipn_length; lia. Qed.
Lemma len_octets a : len (octets a) = 4. Proof. reflexivity. Qed.
Lemma len_hw_octets a : len (hw_octets a) = 6. Proof. reflexivity. Qed.
Lemma len_be16 v : len (be16 v) = 2. Proof. reflexivity. Qed.
Lemma len_be32 v : len (be32 v) = 4. Proof. reflexivity. Qed.
Lemma len_enc16 v : len (enc16 v) = 2. Proof. reflexivity. Qed.
Lemma len_enc32 v : len (enc32 v) = 4. Proof. reflexivity. Qed.
Global Hint Rewrite len_nil len_cons len_app len_zeros len_takeN len_dropN len_octets
  len_hw_octets len_be16 len_be32 len_enc16 len_enc32 : len.

Lemma len_0_nil b : len b = 0 -> b = [].
Proof. destruct b; [reflexivity|rewrite len_cons; lia]. Qed.

Lemma takeN_all n b : len b <= n -> takeN n b = b.
Proof. unfold len, takeN; intros H; apply firstn_all2; lia. Qed.
Lemma dropN_all n b : len b <= n -> dropN n b = [].
Proof. unfold len, dropN; intros H; apply skipn_all2; lia. Qed.
Lemma takeN_0 b : takeN 0 b = []. Proof. reflexivity. Qed.
Lemma dropN_0 b : dropN 0 b = b. Proof. reflexivity. Qed.
Lemma takeN_dropN n b : takeN n b ++ dropN n b = b.
Proof. apply firstn_skipn. Qed.
Lemma takeN_app1 n a b : n <= len a -> takeN n (a ++ b) = takeN n a.
Proof.
  unfold len, takeN; intros H; rewrite firstn_app.
  replace (N.to_nat n - length a)%nat with 0%nat by lia; cbn [firstn]; apply app_nil_r.
Qed.
Lemma takeN_app2 n a b : len a <= n -> takeN n (a ++ b) = a ++ takeN (n - len a) b.
Proof.
  unfold len, takeN; intros H; rewrite firstn_app, firstn_all2 by lia.
  f_equal; f_equal; lia.
Qed.
Lemma dropN_app1 n a b : n <= len a -> dropN n (a ++ b) = dropN n a ++ b.
Proof.
  unfold len, dropN; intros H; rewrite skipn_app.
  replace (N.to_nat n - length a)%nat with 0%nat by lia; reflexivity.
Qed.
Lemma dropN_app2 n a b : len a <= n -> dropN n (a ++ b) = dropN (n - len a) b.
Proof.
  unfold len, dropN; intros H; rewrite skipn_app, skipn_all2 by lia.
  cbn [app]; f_equal; lia.
Qed.
Lemma takeN_app_len a b : takeN (len a) (a ++ b) = a.
Proof. rewrite takeN_app2 by lia. rewrite N.sub_diag; apply app_nil_r. Qed.
Lemma dropN_app_len a b : dropN (len a) (a ++ b) = b.
Proof. rewrite dropN_app2 by lia. rewrite N.sub_diag; reflexivity. Qed.
Lemma takeN_takeN n m b : takeN n (takeN m b) = takeN (N.min n m) b.
Proof. unfold takeN; rewrite firstn_firstn; f_equal; lia. Qed.
Lemma skipn_skipn_add {A} (x y : nat) (l : list A) : skipn x (skipn y l) = skipn (y + x) l.
Proof.
  revert l; induction y as [|y IH]; intros l; [reflexivity|].
  destruct l; [now rewrite !skipn_nil|]. cbn [skipn Nat.add]. apply IH.
Qed.
Lemma dropN_dropN n m b : dropN n (dropN m b) = dropN (m + n) b.
Proof.
  unfold dropN. rewrite skipn_skipn_add. f_equal; lia.
Qed.
Lemma takeN_dropN_comm n m b : takeN n (dropN m b) = dropN m (takeN (m + n) b).
Proof.
  unfold takeN, dropN. rewrite firstn_skipn_comm. f_equal. f_equal. lia.
Qed.
Lemma takeN_cons n x b : 0 < n -> takeN n (x :: b) = x :: takeN (n - 1) b.
Proof.
  intros H; unfold takeN. replace (N.to_nat n) with (S (N.to_nat (n - 1))) by lia. reflexivity.
Qed.
Lemma dropN_cons n x b : 0 < n -> dropN n (x :: b) = dropN (n - 1) b.
Proof.
  intros H; unfold dropN. replace (N.to_nat n) with (S (N.to_nat (n - 1))) by lia. reflexivity.
Qed.

Lemma nthN_app1 a b i : i < len a -> nthN (a ++ b) i = nthN a i.
Proof. unfold nthN, len; intros H; apply app_nth1; lia. Qed.
Lemma nthN_app2 a b i : len a <= i -> nthN (a ++ b) i = nthN b (i - len a).
Proof. unfold nthN, len; intros H; rewrite app_nth2 by lia; f_equal; lia. Qed.
Lemma nthN_out b i : len b <= i -> nthN b i = 0.
Proof. unfold nthN, len; intros H; apply nth_overflow; lia. Qed.
Lemma nthN_cons0 x b : nthN (x :: b) 0 = x. Proof. reflexivity. Qed.
Lemma nthN_cons x b i : 0 < i -> nthN (x :: b) i = nthN b (i - 1).
Proof.
  intros H; unfold nthN. replace (N.to_nat i) with (S (N.to_nat (i - 1))) by lia. reflexivity.
Qed.
Lemma nth_firstn_lt {A} (d : A) n : forall b i, (i < n)%nat -> nth i (firstn n b) d = nth i b d.
Proof.
  induction n as [|n IH]; intros b i H; [lia|].
  destruct b; [reflexivity|]. destruct i; [reflexivity|]. cbn. apply IH; lia.
Qed.
Lemma nth_skipn_add {A} (d : A) n : forall b i, nth i (skipn n b) d = nth (n + i) b d.
Proof.
  induction n as [|n IH]; intros b i; [reflexivity|].
  destruct b; [now rewrite skipn_nil; destruct i|]. cbn. apply IH.
Qed.
Lemma nthN_takeN n b i : i < n -> nthN (takeN n b) i = nthN b i.
Proof. intros H; unfold nthN, takeN; apply nth_firstn_lt; lia. Qed.
Lemma nthN_dropN n b i : nthN (dropN n b) i = nthN b (n + i).
Proof. unfold nthN, dropN; rewrite nth_skipn_add; f_equal; lia. Qed.
Lemma nthN_zeros n i : nthN (zeros n) i = 0.
Proof. unfold nthN, zeros. destruct (nth_in_or_default (N.to_nat i) (repeat 0 (N.to_nat n)) 0) as [H|H]; [|exact H].
  eapply repeat_spec; exact H. Qed.

Lemma nthN_ext a b : len a = len b -> (forall i, i < len a -> nthN a i = nthN b i) -> a = b.
Proof.
  intros Hl H. apply (nth_ext a b 0 0); [unfold len in Hl; lia|].
  intros n Hn. specialize (H (N.of_nat n)). unfold nthN in H. rewrite Nnat.Nat2N.id in H.
  apply H. unfold len. lia.
Qed.

Lemma is_bytes_nth b i : is_bytes b -> nthN b i < 256.
Proof.
  intros H. destruct (N.lt_ge_cases i (len b)) as [Hi|Hi].
  - unfold is_bytes in H. rewrite Forall_forall in H. apply H. unfold nthN. apply nth_In. unfold len in Hi; lia.
  - rewrite nthN_out by exact Hi. lia.
Qed.
Lemma is_bytes_app a b : is_bytes (a ++ b) <-> is_bytes a /\ is_bytes b.
Proof. apply Forall_app. Qed.
Lemma is_bytes_takeN n b : is_bytes b -> is_bytes (takeN n b).
Proof. intros H. rewrite <- (takeN_dropN n b) in H. apply is_bytes_app in H. apply H. Qed.
Lemma is_bytes_dropN n b : is_bytes b -> is_bytes (dropN n b).
Proof. intros H. rewrite <- (takeN_dropN n b) in H. apply is_bytes_app in H. apply H. Qed.

(** ** Reads in range *)
Lemma index_ok b i : i < len b -> index b i = Ok (nthN b i).
Proof. intros H; unfold index. destruct (N.ltb_spec i (len b)); [reflexivity|lia]. Qed.
Lemma index_panic b i : len b <= i -> index b i = Panic.
Proof. intros H; unfold index. destruct (N.ltb_spec i (len b)); [lia|reflexivity]. Qed.
Lemma slice_from_ok b i : i <= len b -> slice_from b i = Ok (dropN i b).
Proof. intros H; unfold slice_from. destruct (N.leb_spec i (len b)); [reflexivity|lia]. Qed.
Lemma slice_to_ok b i : i <= len b -> slice_to b i = Ok (takeN i b).
Proof. intros H; unfold slice_to. destruct (N.leb_spec i (len b)); [reflexivity|lia]. Qed.
Lemma split_at_ok b i : i <= len b -> split_at b i = Ok (takeN i b, dropN i b).
Proof. intros H; unfold split_at. destruct (N.leb_spec i (len b)); [reflexivity|lia]. Qed.
Lemma slice_ok b i j : i <= j -> j <= len b -> slice b i j = Ok (takeN (j - i) (dropN i b)).
Proof. intros H1 H2; unfold slice. destruct (N.leb_spec i j); [|lia]. destruct (N.leb_spec j (len b)); [reflexivity|lia]. Qed.
Lemma slice_panic b i j : j < i \/ len b < j -> slice b i j = Panic.
Proof. intros H; unfold slice. destruct (N.leb_spec i j), (N.leb_spec j (len b)); try reflexivity; lia. Qed.

Lemma read_u16_ok b : 2 <= len b -> read_u16 b = Ok (nthN b 0 * 256 + nthN b 1).
Proof. destruct b as [|x [|y b]]; autorewrite with len; try lia. reflexivity. Qed.
Lemma read_u32_ok b : 4 <= len b ->
  read_u32 b = Ok (((nthN b 0 * 256 + nthN b 1) * 256 + nthN b 2) * 256 + nthN b 3).
Proof. destruct b as [|x [|y [|z [|w b]]]]; autorewrite with len; try lia. reflexivity. Qed.
Lemma get_u16_ok b o : o + 2 <= len b -> get_u16 b o = Ok (nthN b o * 256 + nthN b (o + 1)).
Proof.
  intros H; unfold get_u16. rewrite slice_from_ok by lia. cbn [bind].
  rewrite read_u16_ok by (autorewrite with len; lia). rewrite !nthN_dropN, N.add_0_r. reflexivity.
Qed.
Lemma get_u32_ok b o : o + 4 <= len b ->
  get_u32 b o = Ok (((nthN b o * 256 + nthN b (o + 1)) * 256 + nthN b (o + 2)) * 256 + nthN b (o + 3)).
Proof.
  intros H; unfold get_u32. rewrite slice_from_ok by lia. cbn [bind].
  rewrite read_u32_ok by (autorewrite with len; lia). rewrite !nthN_dropN, N.add_0_r. reflexivity.
Qed.

(** ** Writes in range *)
(** The bytes [bs] stored at [off]. *)
Definition patch (off : N) (bs b : bytes) : bytes :=
  takeN off b ++ bs ++ dropN (off + len bs) b.
Lemma len_patch off bs b : off + len bs <= len b -> len (patch off bs b) = len b.
Proof. intros H; unfold patch; autorewrite with len; lia. Qed.
Lemma nthN_patch off bs b i : off + len bs <= len b ->
  nthN (patch off bs b) i =
  if (off <=? i) && (i <? off + len bs) then nthN bs (i - off) else nthN b i.
Proof.
  intros H; unfold patch.
  destruct (N.leb_spec off i) as [H1|H1]; cbn [andb].
  - rewrite nthN_app2 by (autorewrite with len; lia). autorewrite with len.
    replace (N.min off (len b)) with off by lia.
    destruct (N.ltb_spec i (off + len bs)) as [H2|H2].
    + rewrite nthN_app1 by lia. reflexivity.
    + rewrite nthN_app2 by lia. rewrite nthN_dropN. f_equal; lia.
  - rewrite nthN_app1 by (autorewrite with len; lia). apply nthN_takeN; lia.
Qed.
Lemma patch_only_changes off bs b : off + len bs <= len b ->
  only_changes off (off + len bs) b (patch off bs b).
Proof.
  intros H; split; [apply len_patch; exact H|]. intros i Hi. rewrite nthN_patch by exact H.
  destruct (N.leb_spec off i), (N.ltb_spec i (off + len bs)); try reflexivity; lia.
Qed.
Lemma patch_app1 off bs a b : off + len bs <= len a -> patch off bs (a ++ b) = patch off bs a ++ b.
Proof.
  intros H; unfold patch. rewrite takeN_app1, dropN_app1 by lia. rewrite !app_assoc. reflexivity.
Qed.
Lemma patch_app2 off bs a b : len a <= off -> patch off bs (a ++ b) = a ++ patch (off - len a) bs b.
Proof.
  intros H; unfold patch. rewrite takeN_app2, dropN_app2 by lia. rewrite !app_assoc.
  replace (off + len bs - len a) with (off - len a + len bs) by lia. reflexivity.
Qed.
Lemma patch_takeN off bs n b : off + len bs <= n -> n <= len b ->
  patch off bs (takeN n b) ++ dropN n b = patch off bs b.
Proof.
  intros H1 H2. rewrite <- patch_app1 by (autorewrite with len; lia). rewrite takeN_dropN. reflexivity.
Qed.
Lemma takeN_patch off bs n b : off + len bs <= n -> n <= len b ->
  takeN n (patch off bs b) = patch off bs (takeN n b).
Proof.
  intros H1 H2. rewrite <- (patch_takeN off bs n b) by lia.
  rewrite takeN_app1 by (rewrite len_patch; autorewrite with len; lia).
  apply takeN_all. rewrite len_patch; autorewrite with len; lia.
Qed.
Lemma is_bytes_patch off bs b : is_bytes b -> is_bytes bs -> is_bytes (patch off bs b).
Proof.
  intros H1 H2. unfold patch. rewrite !is_bytes_app. split; [|split].
  - apply is_bytes_takeN; exact H1.
  - exact H2.
  - apply is_bytes_dropN; exact H1.
Qed.
Lemma alter_patch b i v : alter b i v = patch i [v] b.
Proof. reflexivity. Qed.

Lemma set_index_ok i v b : i < len b -> set_index i v b = (patch i [v] b, Ok tt).
Proof. intros H; unfold set_index. destruct (N.ltb_spec i (len b)); [reflexivity|lia]. Qed.
Lemma set_index_panic i v b : len b <= i -> set_index i v b = (b, Panic).
Proof. intros H; unfold set_index. destruct (N.ltb_spec i (len b)); [lia|reflexivity]. Qed.
Lemma cursor_write_ok off bs b : off + len bs <= len b ->
  cursor_write off bs b = (patch off bs b, Ok tt).
Proof.
  intros H; unfold cursor_write. destruct (N.leb_spec off (len b)); [|lia].
  replace (N.min (len b - off) (len bs)) with (len bs) by lia.
  rewrite N.ltb_irrefl, (takeN_all (len bs) bs) by lia. reflexivity.
Qed.
Lemma write_u16_ok off v b : off + 2 <= len b ->
  write_u16 off v b = (patch off (be16 v) b, Ok tt).
Proof. intros H; unfold write_u16. apply cursor_write_ok. rewrite len_be16; lia. Qed.
Lemma write_u32_ok off v b : off + 4 <= len b ->
  write_u32 off v b = (patch off (be32 v) b, Ok tt).
Proof. intros H; unfold write_u32. apply cursor_write_ok. rewrite len_be32; lia. Qed.
Lemma copy_range_ok i j bs b : i + len bs = j -> j <= len b ->
  copy_range i j bs b = (patch i bs b, Ok tt).
Proof.
  intros H1 H2; unfold copy_range. destruct (N.leb_spec i j); [|lia].
  destruct (N.leb_spec j (len b)); [|lia]. destruct (N.eqb_spec (j - i) (len bs)); [|lia].
  cbn [andb]. unfold patch. rewrite H1. reflexivity.
Qed.
Lemma cursor_write_panic off bs b : len b < off -> cursor_write off bs b = (b, Panic).
Proof. intros H; unfold cursor_write. destruct (N.leb_spec off (len b)); [lia|reflexivity]. Qed.
Lemma cursor_write_err off bs b : off <= len b -> len b < off + len bs ->
  cursor_write off bs b = (takeN off b ++ takeN (len b - off) bs, Err Io).
Proof.
  intros H1 H2; unfold cursor_write. destruct (N.leb_spec off (len b)); [|lia].
  replace (N.min (len b - off) (len bs)) with (len b - off) by lia.
  destruct (N.ltb_spec (len b - off) (len bs)); [|lia].
  rewrite (dropN_all (off + (len b - off))) by lia. rewrite app_nil_r. reflexivity.
Qed.

(** A write inside the header part of a split is the same write on the buffer. *)
Lemma header_mut_eq split f off bs n rest b :
  split b = Ok (takeN n b, rest) -> n <= len b -> off + len bs <= n ->
  (forall h, off + len bs <= len h -> f h = (patch off bs h, Ok tt)) ->
  header_mut split f b = (patch off bs b, Ok tt).
Proof.
  intros Hs Hn Ho Hf. unfold header_mut. rewrite Hs. rewrite Hf by (autorewrite with len; lia).
  f_equal. rewrite len_takeN. replace (N.min n (len b)) with n by lia. apply patch_takeN; lia.
Qed.

(** ** Bytes of encoded values *)
Lemma be16_enc16 v : be16 v = enc16 v. Proof. reflexivity. Qed.
Lemma be32_enc32 v : be32 v = enc32 v. Proof. reflexivity. Qed.
Lemma enc16_dec v : v / 256 * 256 + v mod 256 = v.
Proof. pose proof (N.div_mod v 256). lia. Qed.
Lemma enc32_dec v :
  ((v / 16777216 * 256 + (v / 65536) mod 256) * 256 + (v / 256) mod 256) * 256 + v mod 256 = v.
Proof.
  replace (v / 16777216) with (v / 256 / 256 / 256) by (rewrite !N.div_div by lia; reflexivity).
  replace (v / 65536) with (v / 256 / 256) by (rewrite N.div_div by lia; reflexivity).
  pose proof (N.div_mod v 256). pose proof (N.div_mod (v / 256) 256).
  pose proof (N.div_mod (v / 256 / 256) 256). lia.
Qed.
Lemma is_bytes_enc16 v : u16 v -> is_bytes (enc16 v).
Proof. unfold u16, is_bytes, enc16, u8; intros H; repeat constructor; lia. Qed.
Lemma is_bytes_enc32 v : u32 v -> is_bytes (enc32 v).
Proof.
  unfold u32, is_bytes, enc32, u8; intros H; repeat constructor; try (apply N.mod_lt; lia).
  apply N.div_lt_upper_bound; lia.
Qed.
Lemma is_bytes_zeros n : is_bytes (zeros n).
Proof. unfold is_bytes, zeros. apply Forall_forall. intros x Hx. apply repeat_spec in Hx. subst. unfold u8; lia. Qed.

(** ** Masks and shifts on small values, by complete sweep *)
Definition range (n : N) : list N := map N.of_nat (seq 0 (N.to_nat n)).
Lemma range_spec n x : x < n -> In x (range n).
Proof.
  intros H. unfold range. apply in_map_iff. exists (N.to_nat x). split; [lia|]. apply in_seq. lia.
Qed.
Lemma sweep (P : N -> bool) n : forallb P (range n) = true -> forall x, x < n -> P x = true.
Proof. intros H x Hx. rewrite forallb_forall in H. apply H, range_spec, Hx. Qed.
Lemma sweep2 (P : N -> N -> bool) n m :
  forallb (fun x => forallb (P x) (range m)) (range n) = true ->
  forall x y, x < n -> y < m -> P x y = true.
Proof.
  intros H x y Hx Hy. apply (sweep (P x) m); [|exact Hy].
  apply (sweep (fun x => forallb (P x) (range m)) n H x Hx).
Qed.

Lemma shiftr4_div x : N.shiftr x 4 = x / 16. Proof. apply N.shiftr_div_pow2. Qed.
Lemma shiftr2_div x : N.shiftr x 2 = x / 4. Proof. apply N.shiftr_div_pow2. Qed.
Lemma shiftr13_div x : N.shiftr x 13 = x / 8192. Proof. apply N.shiftr_div_pow2. Qed.
Lemma shiftr16_div x : N.shiftr x 16 = x / 65536. Proof. apply N.shiftr_div_pow2. Qed.
Lemma land_ones_mod x k : N.land x (N.ones k) = x mod 2 ^ k. Proof. apply N.land_ones. Qed.
Lemma land15_mod x : N.land x 15 = x mod 16. Proof. apply (land_ones_mod x 4). Qed.
Lemma land3_mod x : N.land x 3 = x mod 4. Proof. apply (land_ones_mod x 2). Qed.
Lemma land31_mod x : N.land x 31 = x mod 32. Proof. apply (land_ones_mod x 5). Qed.
Lemma land63_mod x : N.land x 63 = x mod 64. Proof. apply (land_ones_mod x 6). Qed.
Lemma land511_mod x : N.land x 511 = x mod 512. Proof. apply (land_ones_mod x 9). Qed.
Lemma land8191_mod x : N.land x 8191 = x mod 8192. Proof. apply (land_ones_mod x 13). Qed.
Lemma land65535_mod x : N.land x 65535 = x mod 65536. Proof. apply (land_ones_mod x 16). Qed.

(** [!x as u16] of a value that fits 16 bits. *)
Lemma not_u32_small x : x < 65536 -> not_u32_as_u16 x = 65535 - x.
Proof.
  intros H. unfold not_u32_as_u16, as_u16.
  change (N.lxor x 4294967295) with (N.lnot x 32).
  rewrite N.lnot_sub_low.
  - change (N.ones 32) with 4294967295. lia.
  - destruct (N.eq_dec x 0) as [->|Hx]; [cbn; lia|].
    apply N.log2_lt_pow2; [lia|]. change (2 ^ 32) with 4294967296. lia.
Qed.

(** ** Checked arithmetic in range *)
Lemma width_facts (E : env) : 
  (ISIZE_MAX = 2147483647 /\ USIZE = 4294967296) \/ (ISIZE_MAX = 9223372036854775807 /\ USIZE = 18446744073709551616).
Proof. unfold ISIZE_MAX, USIZE. destruct (target E); [left|right]; split; reflexivity. Qed.
(** What is known of usize on either target. *)
Ltac widths := match goal with E : env |- _ => pose proof (@width_facts E) end.
Lemma usize_add_ok E a b : a + b < USIZE -> usize_add E a b = Ok (a + b).
Proof. intros H; unfold usize_add. destruct (N.ltb_spec (a + b) USIZE); [reflexivity|lia]. Qed.
Lemma usize_sub_ok E a b : b <= a -> usize_sub E a b = Ok (a - b).
Proof. intros H; unfold usize_sub. destruct (N.leb_spec b a); [reflexivity|lia]. Qed.
Lemma u32_add_ok E a b : a + b < U32 -> u32_add E a b = Ok (a + b).
Proof. intros H; unfold u32_add. destruct (N.ltb_spec (a + b) U32); [reflexivity|lia]. Qed.
