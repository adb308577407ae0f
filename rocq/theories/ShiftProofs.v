(** * ShiftProofs: builders started on a buffer that already holds layers (C61). *)
From Coq Require Import ZifyBool ZifyNat ZifyN.
From Verif Require Import Base Enums Buffer Ether Ipv4 Ip Udp Tcp Icmp Builders Spec SpecCalls SpecProfile SpecShift Lemmas ChecksumProofs MisuseProofs SliceBuildProofs.
Ltac Zify.zify_post_hook ::= Z.div_mod_to_equations.
Open Scope N_scope.

Section Pre.
Variable pre : bytes.
Let k := len pre.

Definition shm (p : bytes * res unit) : bytes * res unit := (pre ++ fst p, snd p).
Lemma index_sh b i : index (pre ++ b) (k + i) = index b i.
Proof.
  unfold index. rewrite len_app. fold k. replace (k + i <? k + len b) with (i <? len b) by lia. destruct (i <? len b) eqn:H; [|reflexivity].
  rewrite nthN_app2 by (fold k; lia). fold k. do 2 f_equal. lia.
Qed.
Lemma takeN_sh b i : takeN (k + i) (pre ++ b) = pre ++ takeN i b.
Proof. rewrite takeN_app2 by (fold k; lia). fold k. do 2 f_equal. lia. Qed.
Lemma dropN_sh b i : dropN (k + i) (pre ++ b) = dropN i b.
Proof. rewrite dropN_app2 by (fold k; lia). fold k. f_equal. lia. Qed.
Lemma slice_sh b i j : slice (pre ++ b) (k + i) (k + j) = slice b i j.
Proof.
  unfold slice. rewrite len_app. fold k. replace ((k + i <=? k + j) && (k + j <=? k + len b)) with ((i <=? j) && (j <=? len b)) by lia.
  destruct ((i <=? j) && (j <=? len b)); [|reflexivity]. rewrite dropN_sh. do 2 f_equal. lia.
Qed.
Lemma set_index_sh i v b : set_index (k + i) v (pre ++ b) = shm (set_index i v b).
Proof.
  unfold set_index, shm. rewrite len_app. fold k. replace (k + i <? k + len b) with (i <? len b) by lia. destruct (i <? len b); [|reflexivity].
  cbn [fst snd]. rewrite takeN_sh, <- app_assoc. replace (k + i + 1) with (k + (i + 1)) by lia. rewrite dropN_sh. reflexivity.
Qed.
Lemma cursor_sh i bs b : cursor_write (k + i) bs (pre ++ b) = shm (cursor_write i bs b).
Proof.
  unfold cursor_write, shm. rewrite len_app. fold k. replace (k + i <=? k + len b) with (i <=? len b) by lia. destruct (i <=? len b); [|reflexivity].
  cbn [fst snd]. replace (k + len b - (k + i)) with (len b - i) by lia. rewrite takeN_sh, <- !app_assoc.
  replace (k + i + N.min (len b - i) (len bs)) with (k + (i + N.min (len b - i) (len bs))) by lia. rewrite dropN_sh. reflexivity.
Qed.
Lemma range_sh i j f b : range_mut (k + i) (k + j) f (pre ++ b) = shm (range_mut i j f b).
Proof.
  unfold range_mut, shm. rewrite len_app. fold k. replace ((k + i <=? k + j) && (k + j <=? k + len b)) with ((i <=? j) && (j <=? len b)) by lia.
  destruct ((i <=? j) && (j <=? len b)); [|reflexivity]. rewrite dropN_sh. replace (k + j - (k + i)) with (j - i) by lia.
  destruct (f (takeN (j - i) (dropN i b))) as [m r]. cbn [fst snd]. rewrite takeN_sh, dropN_sh, <- app_assoc. reflexivity.
Qed.
Lemma vec_sh {E : env} i n : k + n <= ISIZE_MAX -> vec_resize (pre ++ i) (k + n) = let* x := vec_resize i n in Ok (pre ++ x).
Proof.
  intros H. unfold vec_resize. replace (ISIZE_MAX <? k + n) with false by lia. replace (ISIZE_MAX <? n) with false by lia.
  rewrite len_app. fold k. replace (k + n <=? k + len i) with (n <=? len i) by lia. destruct (n <=? len i); cbn [bind].
  - rewrite takeN_sh. reflexivity.
  - rewrite <- app_assoc. do 3 f_equal. f_equal. lia.
Qed.

(** ** Buffers *)
Definition sh (b : buffer) : buffer :=
  match b with
  | Dynamic i o l => Dynamic (pre ++ i) (k + o) l
  | Slice i o l u => Slice (pre ++ i) (k + o) l (k + u)
  end.
Definition shb (p : buffer * res unit) : buffer * res unit := (sh (fst p), snd p).
(** In range, with room for [n] more bytes. *)
Definition inv {E : env} (n : N) (b : buffer) : Prop :=
  match b with
  | Dynamic i o l => o + l = len i /\ k + len i + n <= ISIZE_MAX
  | Slice i o l u => o <= u /\ l <= u /\ u <= len i /\ k + len i <= ISIZE_MAX
  end.
(** Before the first layer: only the end matters. *)
Definition weak {E : env} (n : N) (b b' : buffer) : Prop :=
  match b, b' with
  | Dynamic i o l, Dynamic i' o' l' => i' = pre ++ i /\ o' + l' = k + (o + l) /\ o + l = len i /\ k + len i + n <= ISIZE_MAX
  | Slice i o l u, Slice i' o' l' u' => i' = pre ++ i /\ u' = k + u /\ u <= len i /\ k + len i <= ISIZE_MAX
  | _, _ => False
  end.
Lemma inv_weak {E : env} n b : inv n b -> weak n b (sh b).
Proof. destruct b; cbn; intros; repeat split; lia. Qed.
Lemma inv_le {E : env} n m b : m <= n -> inv n b -> inv m b.
Proof. destruct b; cbn; lia. Qed.
Lemma weak_le {E : env} n m b b' : m <= n -> weak n b b' -> weak m b b'.
Proof. destruct b, b'; cbn; intros; try contradiction; intuition lia. Qed.
Lemma imax {E : env} : ISIZE_MAX + ISIZE_MAX < USIZE /\ 1000 <= ISIZE_MAX. Proof. widths; lia. Qed.
Lemma data_sh E n b : inv n b -> buf_data E (sh b) = buf_data E b.
Proof.
  pose proof imax. destruct b as [i o l|i o l u]; cbn [inv sh buf_data]; intros H0;
    rewrite !usize_add_ok by lia; cbn [bind]; rewrite <- N.add_assoc; apply slice_sh.
Qed.
Lemma data_mut_sh E f n b : inv n b -> buf_data_mut E f (sh b) = shb (buf_data_mut E f b).
Proof.
  pose proof imax. destruct b as [i o l|i o l u]; cbn [inv sh buf_data_mut]; intros H0;
    rewrite !usize_add_ok by lia; rewrite <- N.add_assoc, range_sh; unfold shm; destruct (range_mut o (o + l) f i) as [x r]; reflexivity.
Qed.
Lemma data_mut_inv E f n b : keeps_len f -> inv n b -> inv n (fst (buf_data_mut E f b)).
Proof.
  intros Hf. pose proof imax. destruct b as [i o l|i o l u]; cbn [inv buf_data_mut]; intros H0; rewrite usize_add_ok by lia;
    pose proof (kl_range o (o + l) f Hf i) as L; destruct (range_mut o (o + l) f i) as [x r]; cbn [fst inv] in *; rewrite L; exact H0.
Qed.
Lemma next_sh E n s b b' : s <= 1000 -> weak (n + s) b b' ->
  buf_next E s b' = shb (buf_next E s b) \/ (snd (buf_next E s b') = snd (buf_next E s b) /\ snd (buf_next E s b) <> Ok tt).
Proof.
  pose proof imax. intros Hs. destruct b as [i o l|i o l u], b' as [i' o' l'|i' o' l' u']; cbn [weak]; try contradiction.
  - intros (-> & H0 & H1 & H2). cbn [buf_next]. rewrite !usize_add_ok by lia. rewrite (len_app pre i). fold k. rewrite !usize_add_ok by lia.
    rewrite <- N.add_assoc, vec_sh by lia. left. destruct (vec_resize i (len i + s)) as [x|e|] eqn:V; cbn [bind].
    + unfold shb. cbn [fst snd sh]. rewrite H0. reflexivity.
    + exfalso. unfold vec_resize in V. destruct (ISIZE_MAX <? len i + s); [discriminate|]. destruct (len i + s <=? len i); discriminate.
    + exfalso. unfold vec_resize in V. replace (ISIZE_MAX <? len i + s) with false in V by lia. destruct (len i + s <=? len i); discriminate.
  - intros (-> & -> & H1 & H2). cbn [buf_next]. rewrite !usize_add_ok by lia. rewrite (len_app pre i). fold k.
    replace (k + len i <? k + u + s) with (len i <? u + s) by lia. destruct (len i <? u + s) eqn:L.
    + right. split; [reflexivity|discriminate].
    + left. rewrite <- N.add_assoc. change (Slice (pre ++ i) (k + u) s (k + (u + s))) with (sh (Slice i u s (u + s))).
      apply (data_mut_sh E _ 0). cbn. lia.
Qed.
Lemma next_inv E n s b b' x : s <= 1000 -> weak (n + s) b b' -> buf_next E s b = (x, Ok tt) -> inv n x.
Proof.
  pose proof imax. intros Hs. destruct b as [i o l|i o l u], b' as [i' o' l'|i' o' l' u']; cbn [weak]; try contradiction.
  - intros (-> & H0 & H1 & H2). cbn [buf_next]. rewrite !usize_add_ok by lia. unfold vec_resize. replace (ISIZE_MAX <? len i + s) with false by lia.
    destruct (len i + s <=? len i) eqn:L; intros K; injection K as <-; cbn [inv].
    + rewrite len_takeN. lia.
    + rewrite len_app, len_zeros. lia.
  - intros (-> & -> & H1 & H2). cbn [buf_next]. rewrite !usize_add_ok by lia. destruct (len i <? u + s) eqn:L; [discriminate|].
    intros K. replace x with (fst (buf_data_mut E zero_all (Slice i u s (u + s)))) by (rewrite K; reflexivity).
    apply data_mut_inv; [apply kl_zero_all|]. cbn. lia.
Qed.
Lemma more_sh E n b : inv (n + 1) b -> buf_more E 1 (sh b) = shb (buf_more E 1 b).
Proof.
  pose proof imax. destruct b as [i o l|i o l u]; cbn [inv sh buf_more]; intros H0.
  - rewrite (len_app pre i). fold k. rewrite !usize_add_ok by lia. rewrite <- N.add_assoc, vec_sh by lia.
    destruct (vec_resize i (len i + 1)) as [x|e|]; reflexivity.
  - rewrite !usize_add_ok by lia. rewrite (len_app pre i). fold k. replace (k + len i <? k + u + 1) with (len i <? u + 1) by lia.
    destruct (len i <? u + 1) eqn:L; [reflexivity|]. rewrite usize_sub_ok by lia.
    rewrite <- N.add_assoc. change (Slice (pre ++ i) (k + u) (l + 1) (k + (u + 1))) with (sh (Slice i u (l + 1) (u + 1))).
    apply (data_mut_sh E _ 0). cbn. lia.
Qed.
Lemma more_inv E n b x : inv (n + 1) b -> buf_more E 1 b = (x, Ok tt) -> inv n x.
Proof.
  pose proof imax. destruct b as [i o l|i o l u]; cbn [inv buf_more]; intros H0.
  - rewrite !usize_add_ok by lia. unfold vec_resize. destruct (ISIZE_MAX <? len i + 1); [discriminate|].
    destruct (len i + 1 <=? len i) eqn:L; [lia|]. intros K; injection K as <-; cbn [inv]. rewrite len_app, len_zeros. lia.
  - rewrite !usize_add_ok by lia. destruct (len i <? u + 1) eqn:L; [discriminate|]. rewrite usize_sub_ok by lia.
    intros K. replace x with (fst (buf_data_mut E (zero_from (l + 1 - 1)) (Slice i u (l + 1) (u + 1)))) by (rewrite K; reflexivity).
    apply data_mut_inv; [apply kl_zero_from|]. cbn. lia.
Qed.

(** ** Finalizers *)
Definition sf {E : env} (f f' : finalizer) : Prop :=
  keeps_len f /\ forall out, k + len out <= ISIZE_MAX -> f' (pre ++ out) = shm (f out).
Lemma kl_mseq f g : keeps_len f -> keeps_len g -> keeps_len (mseq f g).
Proof.
  intros Hf Hg b. unfold mseq. pose proof (Hf b) as L. destruct (f b) as [c [[]|e|]]; cbn [fst] in *; [|exact L|exact L]. rewrite <- L. apply Hg.
Qed.
Lemma sf_mseq {E : env} f f' g g' : sf f f' -> sf g g' -> sf (mseq f g) (mseq f' g').
Proof.
  intros [Lf Hf] [Lg Hg]. split; [apply kl_mseq; assumption|]. intros out Ho. unfold mseq. rewrite (Hf out Ho). unfold shm at 1.
  pose proof (Lf out) as L. destruct (f out) as [c [[]|e|]]; cbn [fst snd] in *; [|reflexivity|reflexivity]. apply Hg. lia.
Qed.
Lemma sf_mlet {E : env} {A} (r r' : bytes -> res A) kk kk' (T : A -> A) : (forall a, keeps_len (kk a)) ->
  (forall out, k + len out <= ISIZE_MAX -> r' (pre ++ out) = let* a := r out in Ok (T a)) ->
  (forall a out, k + len out <= ISIZE_MAX -> kk' (T a) (pre ++ out) = shm (kk a out)) -> sf (mlet r kk) (mlet r' kk').
Proof.
  intros Hl Hr Hk. split; [apply kl_mlet; exact Hl|]. intros out Ho. unfold mlet. rewrite (Hr out Ho).
  destruct (r out) as [a|e|]; cbn [bind]; [apply Hk; exact Ho|reflexivity|reflexivity].
Qed.
Lemma sf_ether_ip E o l : k + o <= ISIZE_MAX -> l <= ISIZE_MAX -> sf (ether_ip_finalizer E o l) (ether_ip_finalizer E (k + o) l).
Proof.
  intros Ho Hl. pose proof imax. unfold ether_ip_finalizer. apply sf_mlet with (T := fun a => (fst a, k + snd a)).
  - intros [v at_] b. cbn [fst snd]. repeat (match goal with |- len (fst ((match ?x with _ => _ end) b)) = _ => destruct x end); try reflexivity; apply kl_cursor.
  - intros out Hout. rewrite !usize_add_ok by lia. cbn [bind]. rewrite <- N.add_assoc, index_sh. destruct (index out (o + l)); cbn [bind]; try reflexivity.
    cbn [bind fst snd]. rewrite N.add_assoc. reflexivity.
  - intros [v at_] out Hout. cbn [fst snd]. repeat (match goal with |- (match ?x with _ => _ end) _ = _ => destruct x end); try reflexivity; apply cursor_sh.
Qed.
Lemma usize_sub_sh E a b : usize_sub E (k + a) (k + b) = usize_sub E a b.
Proof.
  unfold usize_sub. replace (k + b <=? k + a) with (b <=? a) by lia. destruct (b <=? a) eqn:H; [f_equal; lia|].
  destruct (overflow_checks E); [reflexivity|]. f_equal. lia.
Qed.
Lemma sf_v4 E o l : k + o <= ISIZE_MAX -> l <= ISIZE_MAX -> sf (v4_finalizer E o l) (v4_finalizer E (k + o) l).
Proof.
  intros Ho Hl. pose proof imax. unfold v4_finalizer. apply sf_mseq; [split; [apply kl_set_index|intros; apply set_index_sh]|]. apply sf_mseq.
  - apply sf_mlet with (T := fun a => (k + fst a, snd a)).
    + intros a. apply kl_cursor.
    + intros out Hout. rewrite !usize_add_ok by lia. cbn [bind]. rewrite len_app. fold k. rewrite <- (N.add_assoc k o l), usize_sub_sh.
      destruct (usize_sub E (len out) (o + l)); cbn [bind]; try reflexivity. destruct (usize_add E l a); cbn [bind]; try reflexivity.
      cbn [fst snd]. do 2 f_equal. lia.
    + intros a out Hout. apply cursor_sh.
  - apply sf_mlet with (T := fun a => (k + fst a, snd a)).
    + intros a. apply kl_cursor.
    + intros out Hout. rewrite !usize_add_ok by lia. cbn [bind]. rewrite <- (N.add_assoc k o (l / 4 * 4)), slice_sh.
      destruct (slice out o (o + l / 4 * 4)); cbn [bind]; try reflexivity. destruct (v4_checksum_of E a); cbn [bind]; try reflexivity.
      cbn [fst snd]. do 2 f_equal. lia.
    + intros a out Hout. apply cursor_sh.
Qed.
Lemma sf_icmp E o l : k + o <= ISIZE_MAX -> l <= ISIZE_MAX -> sf (icmp_finalizer E o l) (icmp_finalizer E (k + o) l).
Proof.
  intros Ho Hl. pose proof imax. unfold icmp_finalizer. apply sf_mlet with (T := fun a => (k + fst a, snd a)).
  - intros a. apply kl_cursor.
  - intros out Hout. rewrite !usize_add_ok by lia. cbn [bind]. rewrite <- (N.add_assoc k o l), slice_sh.
    destruct (slice out o (o + l)); cbn [bind]; try reflexivity. destruct (icmp_checksum_of E a); cbn [bind]; try reflexivity.
    cbn [fst snd]. do 2 f_equal. lia.
  - intros a out Hout. apply cursor_sh.
Qed.
Lemma split_layers_sh E ip n out : k + fst ip <= ISIZE_MAX -> snd ip <= ISIZE_MAX ->
  split_layers E (k + fst ip, snd ip) n (pre ++ out) = let* a := split_layers E ip n out in Ok (fst (fst a), k + snd (fst a), k + snd a).
Proof.
  intros H1 H2. pose proof imax. unfold split_layers. cbn [fst snd]. rewrite !usize_add_ok by lia. cbn [bind].
  unfold split_at. rewrite len_app. fold k. rewrite <- N.add_assoc. set (m := fst ip + snd ip).
  replace (k + m <=? k + len out) with (m <=? len out) by lia. destruct (m <=? len out) eqn:M; cbn [bind]; [|reflexivity].
  rewrite takeN_sh, dropN_sh. unfold slice_from. rewrite len_app. fold k. replace (k + fst ip <=? k + len (takeN m out)) with (fst ip <=? len (takeN m out)) by lia.
  destruct (fst ip <=? len (takeN m out)); cbn [bind]; [|reflexivity]. rewrite dropN_sh.
  unfold slice_to. destruct (n <=? len (dropN m out)); cbn [bind]; [|reflexivity]. cbn [fst snd]. do 2 f_equal. lia.
Qed.
Lemma sf_udp E ip n : k + fst ip <= ISIZE_MAX -> snd ip <= ISIZE_MAX -> sf (udp_finalizer E ip n) (udp_finalizer E (k + fst ip, snd ip) n).
Proof.
  intros H1 H2. unfold udp_finalizer. apply sf_mlet with (T := fun a => (fst (fst a), k + snd (fst a), k + snd a)).
  - intros [[p i] j]. apply kl_range, kl_mseq; [apply kl_cursor|]. apply kl_mlet. intros. apply kl_cursor.
  - intros out Hout. apply split_layers_sh; assumption.
  - intros [[p i] j] out Hout. cbn [fst snd]. apply range_sh.
Qed.
Lemma sf_tcp E ip n pl : k + fst ip <= ISIZE_MAX -> snd ip <= ISIZE_MAX -> sf (tcp_finalizer E ip n pl) (tcp_finalizer E (k + fst ip, snd ip) n pl).
Proof.
  intros H1 H2. unfold tcp_finalizer. apply sf_mlet with (T := fun a => (fst (fst a), k + snd (fst a), k + snd a)).
  - intros [[p i] j]. apply kl_range, kl_mseq; apply kl_mlet; intros; first [apply kl_cursor|apply kl_set_index].
  - intros out Hout. apply split_layers_sh; assumption.
  - intros [[p i] j] out Hout. cbn [fst snd]. apply range_sh.
Qed.

(** ** Builders *)
Definition headed (t : ty) : bool := match t with TyIp | TyV6 | TyIcmp => false | _ => true end.
Definition ip_sh {E : env} (t : ty) (i i' : N * N) : Prop :=
  match t with TyUdp | TyTcp => i' = (k + fst i, snd i) /\ k + fst i <= ISIZE_MAX /\ snd i <= ISIZE_MAX | _ => True end.
Record sb {E : env} (t : ty) (n : N) (b b' : builder) : Prop := {
  sb_buffer : if headed t then inv n (b_buffer b) /\ b_buffer b' = sh (b_buffer b) else weak n (b_buffer b) (b_buffer b');
  sb_ip : ip_sh t (b_ip b) (b_ip b');
  sb_kind : b_kind b = b_kind b';
  sb_payload : b_payload b = b_payload b';
  sb_pl : b_payload_length b = b_payload_length b';
  sb_fin : Forall2 sf (b_fin b) (b_fin b') }.
Inductive rs {E : env} (t : ty) (n : N) : res builder -> res builder -> Prop :=
| rs_panic : rs t n Panic Panic
| rs_err e : rs t n (Err e) (Err e)
| rs_ok b b' : sb t n b b' -> rs t n (Ok b) (Ok b').
Lemma rs_bind {E : env} t n t' n' r r' f f' : rs t n r r' -> (forall b b', sb t n b b' -> rs t' n' (f b) (f' b')) -> rs t' n' (bind r f) (bind r' f').
Proof. intros R H. destruct R as [|e|b b' Hb]; cbn [bind]; [constructor|constructor|]. apply H, Hb. Qed.
Lemma sb_weak {E : env} t n b b' : sb t n b b' -> weak n (b_buffer b) (b_buffer b').
Proof. intros H. pose proof (sb_buffer _ _ _ _ H) as K. destruct (headed t); [|exact K]. destruct K as [K ->]. apply inv_weak, K. Qed.
Lemma sb_le {E : env} t n m b b' : m <= n -> sb t n b b' -> sb t m b b'.
Proof.
  intros Hm []. constructor; try assumption. destruct (headed t); [|eapply weak_le; eassumption]. destruct sb_buffer0. split; [eapply inv_le; eassumption|assumption].
Qed.
Lemma inv_bounds {E : env} n b : inv n b -> k + buf_offset b <= ISIZE_MAX /\ buf_length b <= ISIZE_MAX.
Proof. destruct b; cbn; lia. Qed.
(** One more finalizer. *)
Lemma sb_add {E : env} t n b b' f f' : sb t n b b' -> sf f f' -> sb t n (with_fin b (fin_add (b_fin b) f)) (with_fin b' (fin_add (b_fin b') f')).
Proof. intros [] Hf. constructor; try assumption. cbn. unfold fin_add. apply Forall2_app; [assumption|]. constructor; [exact Hf|constructor]. Qed.
Lemma rs_edit t n E f b b' : headed t = true -> keeps_len f -> sb t n b b' -> rs t n (edit E f b) (edit E f b').
Proof.
  intros Ht Hf H. pose proof (sb_buffer _ _ _ _ H) as K. rewrite Ht in K. destruct K as [K K']. unfold edit. rewrite K', (data_mut_sh E f n _ K). unfold shb.
  pose proof (data_mut_inv E f n _ Hf K) as I. destruct (buf_data_mut E f (b_buffer b)) as [x [[]|e|]]; cbn [fst snd try_buf bind] in *; [|constructor|constructor].
  constructor. destruct H. constructor; try assumption. cbn. rewrite Ht. split; [exact I|reflexivity].
Qed.
Lemma rs_loop t E count p : headed t = true -> forall n b b', sb t (n + len p) b b' -> rs t n (payload_loop E count p b) (payload_loop E count p b').
Proof.
  intros Ht. induction p as [|x p IH]; intros n b b' H; cbn [payload_loop].
  - change (len []) with 0 in H. rewrite N.add_0_r in H. constructor. exact H.
  - rewrite len_cons, N.add_assoc in H. pose proof (sb_buffer _ _ _ _ H) as K. rewrite Ht in K. destruct K as [K K']. rewrite K', (more_sh E (n + len p) _ K). unfold shb.
    pose proof (more_inv E (n + len p) (b_buffer b)) as I. destruct (buf_more E 1 (b_buffer b)) as [y [[]|e|]]; cbn [fst snd try_buf bind]; [|constructor|constructor].
    specialize (I y K eq_refl).
    assert (S : sb t (n + len p) (with_buffer b y) (with_buffer b' (sh y))).
    { destruct H. constructor; try assumption. cbn. rewrite Ht. split; [exact I|reflexivity]. }
    apply (rs_bind t (n + len p)).
    + destruct count; [|constructor; exact S]. cbn [with_buffer b_payload_length]. rewrite (sb_pl _ _ _ _ H).
      destruct (usize_add E (b_payload_length b') 1); cbn [bind]; constructor. destruct S. constructor; try assumption. reflexivity.
    + intros c c' Hc. apply (rs_bind t (n + len p)); [apply rs_edit; [exact Ht|apply kl_set_last|exact Hc]|]. intros. apply IH. assumption.
Qed.
Lemma rs_payload t n E e count p b b' : headed t = true -> sb t (n + len p) b b' -> rs t n (add_payload E e count p b) (add_payload E e count p b').
Proof.
  intros Ht H. unfold add_payload. rewrite <- (sb_payload _ _ _ _ H). destruct (b_payload b); [constructor|]. apply rs_loop; [exact Ht|].
  destruct H. constructor; try assumption. reflexivity.
Qed.
(** A new layer. *)
Lemma rs_next t n E s ip ip' buf buf' : headed t = true -> s <= 1000 -> weak (n + s) buf buf' -> ip_sh t ip ip' ->
  rs t n (let* x := try_buf (buf_next E s buf) in Ok (fresh x ip)) (let* x := try_buf (buf_next E s buf') in Ok (fresh x ip')).
Proof.
  intros Ht Hs W Hip. pose proof (next_inv E n s buf buf') as I. destruct (next_sh E n s buf buf' Hs W) as [->|[K1 K2]].
  - unfold shb. destruct (buf_next E s buf) as [x [[]|e|]]; cbn [fst snd try_buf bind]; [|constructor|constructor]. specialize (I x Hs W eq_refl).
    constructor. constructor; try reflexivity; cbn.
    + rewrite Ht. split; [exact I|reflexivity].
    + exact Hip.
    + constructor.
  - destruct (buf_next E s buf) as [x [[]|e|]], (buf_next E s buf') as [x' [[]|e'|]]; cbn [fst snd try_buf bind] in *; try congruence; try contradiction.
    + injection K1 as ->. constructor.
    + constructor.
Qed.
Lemma rs_next_edit t n E s f ip ip' buf buf' : headed t = true -> s <= 1000 -> keeps_len f -> weak (n + s) buf buf' -> ip_sh t ip ip' ->
  rs t n (let* x := try_buf (buf_next E s buf) in let* x := try_buf (buf_data_mut E f x) in Ok (fresh x ip))
         (let* x := try_buf (buf_next E s buf') in let* x := try_buf (buf_data_mut E f x) in Ok (fresh x ip')).
Proof.
  intros Ht Hs Hf W Hip. pose proof (next_inv E n s buf buf') as I. destruct (next_sh E n s buf buf' Hs W) as [->|[K1 K2]].
  - unfold shb. destruct (buf_next E s buf) as [x [[]|e|]]; cbn [fst snd try_buf bind]; [|constructor|constructor]. specialize (I x Hs W eq_refl).
    rewrite (data_mut_sh E f n _ I). unfold shb. pose proof (data_mut_inv E f n _ Hf I) as J.
    destruct (buf_data_mut E f x) as [y [[]|e|]]; cbn [fst snd try_buf bind] in *; [|constructor|constructor].
    constructor. constructor; try reflexivity; cbn.
    + rewrite Ht. split; [exact J|reflexivity].
    + exact Hip.
    + constructor.
  - destruct (buf_next E s buf) as [x [[]|e|]], (buf_next E s buf') as [x' [[]|e'|]]; cbn [fst snd try_buf bind] in *; try congruence; try contradiction.
    + injection K1 as ->. constructor.
    + constructor.
Qed.
Lemma rs_with t n E buf buf' : weak (n + header_of t) buf buf' -> t <> TyUdp -> t <> TyTcp ->
  rs t n (match t with TyEther => ether_with E buf | TyV4 => v4_with E buf | TyEcho => echo_with E buf | TyInformation => information_with E buf
          | TyTimestamp => timestamp_with E buf | _ => ip_with buf end)
         (match t with TyEther => ether_with E buf' | TyV4 => v4_with E buf' | TyEcho => echo_with E buf' | TyInformation => information_with E buf'
          | TyTimestamp => timestamp_with E buf' | _ => ip_with buf' end).
Proof.
  intros W Hu Ht. destruct t; try congruence; cbn [header_of] in W.
  - apply rs_next; [reflexivity|vm_compute; discriminate|exact W|exact I].
  - rewrite N.add_0_r in W. constructor. constructor; try reflexivity; try constructor. exact W.
  - apply rs_next_edit; [reflexivity|vm_compute; discriminate|apply kl_set_index|exact W|exact I].
  - rewrite N.add_0_r in W. constructor. constructor; try reflexivity; try constructor. exact W.
  - rewrite N.add_0_r in W. constructor. constructor; try reflexivity; try constructor. exact W.
  - apply rs_next; [reflexivity|vm_compute; discriminate|exact W|exact I].
  - apply rs_next; [reflexivity|vm_compute; discriminate|exact W|exact I].
  - apply rs_next; [reflexivity|vm_compute; discriminate|exact W|exact I].
Qed.
Lemma rs_transport t n E buf : (t = TyUdp \/ t = TyTcp) -> inv (n + header_of t) buf ->
  rs t n (match t with TyUdp => udp_with E buf | _ => tcp_with E buf end) (match t with TyUdp => udp_with E (sh buf) | _ => tcp_with E (sh buf) end).
Proof.
  intros Ht Hi. pose proof (inv_weak _ _ Hi) as W. destruct (inv_bounds _ _ Hi).
  assert (Hip : ip_sh t (buf_offset buf, buf_length buf) (buf_offset (sh buf), buf_length (sh buf))).
  { destruct Ht as [->| ->]; (split; [destruct buf; reflexivity|split; assumption]). }
  destruct Ht as [->| ->].
  - apply rs_next; [reflexivity|vm_compute; discriminate|exact W|exact Hip].
  - apply rs_next_edit; [reflexivity|vm_compute; discriminate|apply kl_set_index|exact W|exact Hip].
Qed.
Lemma rs_sub {E : env} t m t' n mk mk' b b' : sb t m b b' -> rs t' n (mk (b_buffer b)) (mk' (b_buffer b')) -> rs t' n (sub mk b) (sub mk' b').
Proof.
  intros H Hm. unfold sub. apply (rs_bind t' n); [exact Hm|]. intros c c' Hc. constructor. destruct Hc. constructor; try assumption.
  cbn. unfold fin_extend. apply Forall2_app; [assumption|apply (sb_fin _ _ _ _ H)].
Qed.
Lemma sb_prepare n E b b' : sb TyV4 n b b' -> sb TyV4 n (v4_prepare E b) (v4_prepare E b').
Proof.
  intros H. unfold v4_prepare. pose proof (sb_buffer _ _ _ _ H) as K. cbn [headed] in K. destruct K as [K K']. destruct (inv_bounds _ _ K).
  apply sb_add; [exact H|]. rewrite K'. replace (buf_offset (sh (b_buffer b))) with (k + buf_offset (b_buffer b)) by (destruct (b_buffer b); reflexivity).
  replace (buf_length (sh (b_buffer b))) with (buf_length (b_buffer b)) by (destruct (b_buffer b); reflexivity). apply sf_v4; assumption.
Qed.
Lemma rs_open E o n buf buf' : o <> OpUdp -> o <> OpTcp -> weak (n + header_of (opened o)) buf buf' -> rs (opened o) n (open E o buf) (open E o buf').
Proof.
  intros Hu Ht W. destruct o; try congruence; cbn [opened] in *; cbn [open].
  - exact (rs_with TyEther n E buf buf' W ltac:(discriminate) ltac:(discriminate)).
  - exact (rs_with TyIp n E buf buf' W ltac:(discriminate) ltac:(discriminate)).
  - exact (rs_with TyV4 n E buf buf' W ltac:(discriminate) ltac:(discriminate)).
  - exact (rs_with TyV6 n E buf buf' W ltac:(discriminate) ltac:(discriminate)).
  - exact (rs_with TyIcmp n E buf buf' W ltac:(discriminate) ltac:(discriminate)).
  - exact (rs_with TyEcho n E buf buf' W ltac:(discriminate) ltac:(discriminate)).
  - exact (rs_with TyInformation n E buf buf' W ltac:(discriminate) ltac:(discriminate)).
  - exact (rs_with TyTimestamp n E buf buf' W ltac:(discriminate) ltac:(discriminate)).
Qed.
Lemma sb_kinded {E : env} t n b b' : sb t n b b' -> sb t n (with_kind b) (with_kind b').
Proof. intros []. constructor; try assumption. reflexivity. Qed.
Lemma rs_v4_sub t n E proto mk b b' : sb TyV4 (n + header_of t) b b' ->
  (forall b b', sb TyV4 (n + header_of t) b b' -> rs t n (mk (b_buffer b)) (mk (b_buffer b'))) ->
  rs t n (v4_sub E proto mk b) (v4_sub E proto mk b').
Proof.
  intros H Hm. unfold v4_sub. rewrite <- (sb_payload _ _ _ _ H). destruct (b_payload b); [constructor|].
  apply (rs_bind TyV4 (n + header_of t)); [apply rs_edit; [reflexivity|exact (kl_v4 (V4SetProtocol proto))|exact H]|].
  intros c c' Hc. apply (rs_sub TyV4 (n + header_of t)); [apply sb_prepare, Hc|]. apply Hm, sb_prepare, Hc.
Qed.
Lemma rs_call1 E t c t1 n b b' : returns t c = Some t1 -> plain c -> sb t (n + adds c) b b' -> rs t1 n (call1 E c b) (call1 E c b').
Proof.
  intros R P H. destruct c; cbn [call1].
  - destruct t; cbn [returns] in R; try discriminate R. injection R as <-.
    destruct o; cbn [adds ether_run1] in *; rewrite ?N.add_0_r in H; first [apply rs_payload; [reflexivity|exact H]|apply rs_edit; [reflexivity| |exact H]];
      first [apply kl_copy|apply kl_cursor].
  - destruct t; cbn [returns] in R; try discriminate R. injection R as <-. cbn [adds] in H. rewrite N.add_0_r in H.
    unfold ether_ip. rewrite <- (sb_payload _ _ _ _ H). destruct (b_payload b); [constructor|].
    pose proof (sb_buffer _ _ _ _ H) as K. cbn [headed] in K. destruct K as [K K']. destruct (inv_bounds _ _ K).
    assert (S : sb TyEther n (with_fin b (fin_add (b_fin b) (ether_ip_finalizer E (buf_offset (b_buffer b)) (buf_length (b_buffer b)))))
                  (with_fin b' (fin_add (b_fin b') (ether_ip_finalizer E (buf_offset (b_buffer b')) (buf_length (b_buffer b')))))).
    { apply sb_add; [exact H|]. rewrite K'. replace (buf_offset (sh (b_buffer b))) with (k + buf_offset (b_buffer b)) by (destruct (b_buffer b); reflexivity).
      replace (buf_length (sh (b_buffer b))) with (buf_length (b_buffer b)) by (destruct (b_buffer b); reflexivity). apply sf_ether_ip; assumption. }
    eapply rs_sub; [exact S|]. apply (rs_with TyIp n E); [|discriminate|discriminate]. cbn [header_of]. rewrite N.add_0_r. exact (sb_weak _ _ _ _ S).
  - destruct t; cbn [returns] in R; try discriminate R. injection R as <-.
    eapply rs_sub; [exact H|]. apply (rs_with TyV4 n E); [|discriminate|discriminate]. exact (sb_weak _ _ _ _ H).
  - destruct t; cbn [returns] in R; try discriminate R. injection R as <-.
    eapply rs_sub; [exact H|]. apply (rs_with TyV6 n E); [|discriminate|discriminate]. exact (sb_weak _ _ _ _ H).
  - destruct t; cbn [returns] in R; try discriminate R. injection R as <-.
    destruct o; cbn [adds v4_run1] in *; rewrite ?N.add_0_r in H; [apply rs_edit; [reflexivity|apply kl_v4|exact H]|apply rs_payload; [reflexivity|exact H]].
  - destruct t; cbn [returns] in R; try discriminate R. injection R as <-. apply rs_v4_sub; [exact H|]. intros c c' Hc.
    pose proof (sb_buffer _ _ _ _ Hc) as K. cbn [headed] in K. destruct K as [K ->]. exact (rs_transport TyUdp n E _ (or_introl eq_refl) K).
  - destruct t; cbn [returns] in R; try discriminate R. injection R as <-. apply rs_v4_sub; [exact H|]. intros c c' Hc.
    pose proof (sb_buffer _ _ _ _ Hc) as K. cbn [headed] in K. destruct K as [K ->]. exact (rs_transport TyTcp n E _ (or_intror eq_refl) K).
  - destruct t; cbn [returns] in R; try discriminate R. injection R as <-. apply rs_v4_sub; [exact H|]. intros c c' Hc.
    apply (rs_with TyIcmp n E); [|discriminate|discriminate]. exact (sb_weak _ _ _ _ Hc).
  - destruct t; cbn [returns] in R; try discriminate R. injection R as <-.
    destruct o; cbn [adds udp_run1] in *; rewrite ?N.add_0_r in H; [apply rs_edit; [reflexivity|apply kl_udp|exact H]|apply rs_payload; [reflexivity|exact H]].
  - destruct t; cbn [returns] in R; try discriminate R. injection R as <-.
    destruct o; cbn [adds tcp_run1] in *; rewrite ?N.add_0_r in H; [apply rs_edit; [reflexivity|apply kl_tcp|exact H]|apply rs_payload; [reflexivity|exact H]].
  - destruct t; cbn [returns] in R; try discriminate R. injection R as <-.
    eapply rs_sub; [exact H|]. apply (rs_with TyEcho n E); [|discriminate|discriminate]. exact (sb_weak _ _ _ _ H).
  - destruct t; cbn [returns] in R; try discriminate R. injection R as <-.
    eapply rs_sub; [exact H|]. apply (rs_with TyInformation n E); [|discriminate|discriminate]. exact (sb_weak _ _ _ _ H).
  - destruct t; cbn [returns] in R; try discriminate R. injection R as <-.
    eapply rs_sub; [exact H|]. apply (rs_with TyTimestamp n E); [|discriminate|discriminate]. exact (sb_weak _ _ _ _ H).
  - destruct t; cbn [returns] in R; try discriminate R. injection R as <-.
    destruct o; cbn [adds echo_run1] in *; rewrite ?N.add_0_r in H; try (apply rs_payload; [reflexivity|exact H]);
      (apply rs_edit; [reflexivity|first [apply kl_set_index|apply kl_cursor]|first [exact H|apply sb_kinded, H]]).
  - destruct t; cbn [returns] in R; try discriminate R. injection R as <-. cbn [adds] in H. rewrite N.add_0_r in H.
    destruct o; cbn [information_run1]; (apply rs_edit; [reflexivity|first [apply kl_set_index|apply kl_cursor]|first [exact H|apply sb_kinded, H]]).
  - destruct t; cbn [returns] in R; try discriminate R. injection R as <-. cbn [adds] in H. rewrite N.add_0_r in H.
    destruct o; cbn [timestamp_run1]; (apply rs_edit; [reflexivity|first [apply kl_set_index|apply kl_cursor]|first [exact H|apply sb_kinded, H]]).
  - contradiction.
  - cbn [plain adds] in *. rewrite N.add_0_r in H.
    assert (Ht : headed t = true /\ t1 = t) by (destruct t; cbn [returns] in R; try discriminate R; injection R as <-; split; reflexivity).
    destruct Ht as [Ht ->]. pose proof (rs_edit t n E (mlet parse (fun _ => f)) b b' Ht (kl_mlet _ _ (fun _ => P)) H) as Q. unfold edit in Q. unfold builder_as_packet_mut.
    destruct (buf_data_mut E (mlet parse (fun _ => f)) (b_buffer b)) as [x [[]|e|]], (buf_data_mut E (mlet parse (fun _ => f)) (b_buffer b')) as [x' [[]|e'|]];
      cbn [try_buf bind] in Q |- *; exact Q.
Qed.
Lemma rs_run E cs : forall t t' n b b', typed t cs t' -> Forall plain cs -> sb t (n + fold_right N.add 0 (map adds cs)) b b' ->
  rs t' n (run (call1 E) cs b) (run (call1 E) cs b').
Proof.
  induction cs as [|c cs IH]; intros t t' n b b' T P H; cbn [typed run map fold_right] in *.
  - subst t'. rewrite N.add_0_r in H. constructor. exact H.
  - destruct T as (t1 & R & T). inversion P as [|? ? Pc Ps]; subst. rewrite (N.add_comm (adds c)), N.add_assoc in H.
    apply (rs_bind t1 (n + fold_right N.add 0 (map adds cs))); [eapply rs_call1; eassumption|]. intros d d' Hd. eapply IH; eassumption.
Qed.
Definition shr (r : res bytes) : res bytes := let* out := r in Ok (pre ++ out).
Lemma fin_run_sh {E : env} fs fs' : Forall2 sf fs fs' -> forall out, k + len out <= ISIZE_MAX -> fin_run fs' (pre ++ out) = shm (fin_run fs out).
Proof.
  induction 1 as [|f f' fs fs' [Lf Hf] _ IH]; intros out Ho; cbn [fin_run]; [reflexivity|]. rewrite (Hf out Ho). unfold shm at 1.
  pose proof (Lf out) as L. destruct (f out) as [c [[]|e|]]; cbn [fst snd] in *; [|reflexivity|reflexivity]. apply IH. lia.
Qed.
Lemma F2rev {A} (R : A -> A -> Prop) x y : Forall2 R x y -> Forall2 R (rev x) (rev y).
Proof. induction 1; cbn [rev]; [constructor|]. apply Forall2_app; [assumption|]. constructor; [assumption|constructor]. Qed.
Lemma finish_sh {E : env} t n b b' : headed t = true -> sb t n b b' -> finish b' = shr (finish b).
Proof.
  intros Ht H. pose proof (sb_buffer _ _ _ _ H) as K. rewrite Ht in K. destruct K as [K K']. unfold finish. rewrite K'.
  assert (Q : exists inner, buf_into_inner (b_buffer b) = Ok inner /\ buf_into_inner (sh (b_buffer b)) = Ok (pre ++ inner) /\ k + len inner <= ISIZE_MAX).
  { destruct (b_buffer b) as [i o l|i o l u]; cbn [buf_into_inner sh inv] in *.
    - exists i. repeat split; lia.
    - exists (takeN u i). rewrite !slice_ok by (rewrite ?len_app; fold k; lia). rewrite !N.sub_0_r, !dropN_0, takeN_sh, len_takeN. repeat split; lia. }
  destruct Q as (inner & -> & -> & Hl). cbn [bind]. unfold fin_finalize.
  rewrite (fin_run_sh _ _ (F2rev _ _ _ (sb_fin _ _ _ _ H)) inner Hl). unfold shm. destruct (fin_run (rev (b_fin b)) inner) as [out [[]|e|]]; reflexivity.
Qed.
Lemma icmp_build_sh t n E b b' : headed t = true -> sb t n b b' -> icmp_kind_build E b' = shr (icmp_kind_build E b).
Proof.
  intros Ht H. unfold icmp_kind_build. rewrite <- (sb_kind _ _ _ _ H). destruct (negb (b_kind b)); [reflexivity|]. eapply (finish_sh t n); [exact Ht|].
  unfold icmp_prepare. pose proof (sb_buffer _ _ _ _ H) as K. rewrite Ht in K. destruct K as [K K']. destruct (inv_bounds _ _ K).
  apply sb_add; [exact H|]. rewrite K'. replace (buf_offset (sh (b_buffer b))) with (k + buf_offset (b_buffer b)) by (destruct (b_buffer b); reflexivity).
  replace (buf_length (sh (b_buffer b))) with (buf_length (b_buffer b)) by (destruct (b_buffer b); reflexivity). apply sf_icmp; assumption.
Qed.
Lemma close_sh cl n E b b' : sb (closed cl) n b b' -> close E cl b' = shr (close E cl b).
Proof.
  intros H. destruct cl; cbn [close closed] in *; try reflexivity.
  - eapply finish_sh; [|exact H]. reflexivity.
  - eapply (finish_sh TyV4 n); [reflexivity|]. apply sb_prepare, H.
  - eapply (finish_sh TyUdp n); [reflexivity|]. unfold udp_prepare. pose proof (sb_buffer _ _ _ _ H) as K. cbn [headed] in K. destruct K as [K K'].
    destruct (sb_ip _ _ _ _ H) as (I1 & I2 & I3). apply sb_add; [exact H|]. rewrite K', I1.
    replace (buf_length (sh (b_buffer b))) with (buf_length (b_buffer b)) by (destruct (b_buffer b); reflexivity). apply sf_udp; assumption.
  - eapply (finish_sh TyTcp n); [reflexivity|]. unfold tcp_prepare. pose proof (sb_buffer _ _ _ _ H) as K. cbn [headed] in K. destruct K as [K K'].
    destruct (sb_ip _ _ _ _ H) as (I1 & I2 & I3). apply sb_add; [exact H|]. rewrite K', I1, <- (sb_pl _ _ _ _ H).
    replace (buf_length (sh (b_buffer b))) with (buf_length (b_buffer b)) by (destruct (b_buffer b); reflexivity). apply sf_tcp; assumption.
  - eapply icmp_build_sh; [|exact H]. reflexivity.
  - eapply icmp_build_sh; [|exact H]. reflexivity.
  - eapply icmp_build_sh; [|exact H]. reflexivity.
Qed.
Lemma program_sh E o cs cl buf buf' : compiles o cs cl -> o <> OpUdp -> o <> OpTcp -> Forall plain cs -> weak (added o cs) buf buf' ->
  program E o cs cl buf' = shr (program E o cs cl buf).
Proof.
  intros C Hu Ht P W. unfold program. unfold added in W. rewrite N.add_comm in W.
  pose proof (rs_open E o (fold_right N.add 0 (map adds cs)) buf buf' Hu Ht W) as R. destruct R as [|e|b b' Hb]; cbn [bind]; [reflexivity|reflexivity|].
  pose proof (rs_run E cs _ _ 0 b b' C P Hb) as R. destruct R as [|e|c c' Hc]; cbn [bind]; [reflexivity|reflexivity|]. eapply close_sh, Hc.
Qed.
End Pre.

(** C61: Dynamic: whatever the buffer holds already is kept in front, byte for byte,
    and behind it comes exactly what the program builds on a new buffer. *)
Lemma c61_dynamic : forall E o cs cl held off l, compiles o cs cl -> o <> OpUdp -> o <> OpTcp -> Forall plain cs ->
  off + l = len held -> len held + added o cs <= ISIZE_MAX ->
  program E o cs cl (Dynamic held off l) = (let* out := program E o cs cl dynamic_new in Ok (held ++ out)).
Proof.
  intros E o cs cl held off l C Hu Ht P Ho Hr. apply (program_sh held); try assumption. unfold dynamic_new. cbn [weak].
  rewrite app_nil_r. change (len []) with 0. repeat split; lia.
Qed.
(** C61: the same on a slice of which [held] is in use. *)
Lemma c61_slice : forall E o cs cl held mem off l, compiles o cs cl -> o <> OpUdp -> o <> OpTcp -> Forall plain cs ->
  len held + len mem <= ISIZE_MAX ->
  program E o cs cl (Slice (held ++ mem) off l (len held)) = (let* out := program E o cs cl (slice_new mem) in Ok (held ++ out)).
Proof.
  intros E o cs cl held mem off l C Hu Ht P Hr. apply (program_sh held); try assumption. unfold slice_new. cbn [weak]. repeat split; lia.
Qed.
Example c61_example : compiles OpEther calls_example ClUdp /\ Forall plain calls_example /\ added OpEther calls_example = 44 /\
  forall E, exists out, program E OpEther calls_example ClUdp dynamic_new = Ok out /\ len out = 44 /\
    program E OpEther calls_example ClUdp (Dynamic held_example 2 1) = Ok (held_example ++ out) /\
    program E OpV4 [CallV4Tcp] ClTcp (Slice (held_example ++ zeros 50) 0 3 3) =
    (let* out := program E OpV4 [CallV4Tcp] ClTcp (slice_new (zeros 50)) in Ok (held_example ++ out)).
Proof.
  split. { repeat (eexists; split; [reflexivity|]). reflexivity. }
  split. { repeat constructor. } split; [reflexivity|]. intros E.
  exists (match program E OpEther calls_example ClUdp dynamic_new with Ok o => o | _ => [] end).
  destruct E as [[] [] []]; repeat apply conj; vm_compute; reflexivity.
Qed.
