(** * BufferProofs: buffer::Dynamic and buffer::Slice (C29-C31). *)
From Verif Require Import Base Buffer Spec SpecCalls Lemmas.
From Coq Require Import ZifyBool ZifyNat ZifyN.
Ltac Zify.zify_post_hook ::= Z.div_mod_to_equations.

Lemma isize_lt_usize {E : env} : ISIZE_MAX < USIZE. Proof. widths; lia. Qed.
Lemma isize_double {E : env} : 2 * ISIZE_MAX < USIZE. Proof. widths; lia. Qed.
Lemma slice_mid a b c i j : i = len a -> j = len a + len b -> slice (a ++ b ++ c) i j = Ok b.
Proof.
  intros -> ->. rewrite slice_ok by (autorewrite with len; lia).
  replace (len a + len b - len a) with (len b) by lia. rewrite dropN_app_len, takeN_app_len. reflexivity.
Qed.
Lemma range_mut_mid a b c f b' r i j : i = len a -> j = len a + len b -> f b = (b', r) ->
  range_mut i j f (a ++ b ++ c) = (a ++ b' ++ c, r).
Proof.
  intros -> -> Hf. unfold range_mut.
  destruct (N.leb_spec (len a) (len a + len b)); [|lia].
  destruct (N.leb_spec (len a + len b) (len (a ++ b ++ c))); [|autorewrite with len in *; lia]. cbn [andb].
  replace (len a + len b - len a) with (len b) by lia. rewrite dropN_app_len, takeN_app_len, Hf, takeN_app_len.
  rewrite <- len_app. rewrite (app_assoc a b c), dropN_app_len. reflexivity.
Qed.
Lemma only_changes_mid lo hi s m : lo <= hi <= len s -> len m = hi - lo -> only_changes lo hi s (takeN lo s ++ m ++ dropN hi s).
Proof.
  intros H1 H2. replace hi with (lo + len m) by lia. apply patch_only_changes. lia.
Qed.
Lemma wrap1 {E : env} a : USIZE <= a -> a < 2 * USIZE -> a mod USIZE = a - USIZE.
Proof.
  intros H1 H2. replace a with (a - USIZE + 1 * USIZE) at 1 by lia. rewrite N.mod_add by (widths; lia). apply N.mod_small. lia.
Qed.
Lemma resize_grow {E : env} v n : len v + n <= ISIZE_MAX -> vec_resize v (len v + n) = Ok (v ++ zeros n).
Proof.
  intros H. unfold vec_resize. destruct (N.ltb_spec ISIZE_MAX (len v + n)); [lia|].
  destruct (N.leb_spec (len v + n) (len v)).
  - assert (n = 0) by lia. subst. f_equal. replace (len v + 0) with (len v) by lia. rewrite takeN_all by lia.
    symmetry. apply app_nil_r.
  - do 2 f_equal. f_equal. lia.
Qed.

(** ** Dynamic: the representation *)
Definition dyn (pre cur : bytes) : buffer := Dynamic (pre ++ cur) (len pre) (len cur).
Lemma dyn_shows E pre cur : len pre + len cur <= ISIZE_MAX -> shows E (dyn pre cur) pre cur.
Proof.
  intros H. pose proof isize_lt_usize. unfold shows, dyn, buf_data. rewrite usize_add_ok by lia. cbn [bind].
  split; [|repeat split; cbn; apply len_app || reflexivity].
  rewrite <- (app_nil_r cur) at 1. apply slice_mid; reflexivity.
Qed.
Lemma dyn_next E pre cur n : len pre + len cur + n <= ISIZE_MAX ->
  buf_next E n (dyn pre cur) = (dyn (pre ++ cur) (zeros n), Ok tt).
Proof.
  intros H. pose proof isize_lt_usize. unfold dyn, buf_next. rewrite usize_add_ok by lia.
  rewrite usize_add_ok by (rewrite len_app; lia). rewrite resize_grow by (rewrite len_app; lia).
  rewrite len_app, len_zeros. reflexivity.
Qed.
Lemma dyn_more E pre cur n : len pre + len cur + n <= ISIZE_MAX ->
  buf_more E n (dyn pre cur) = (dyn pre (cur ++ zeros n), Ok tt).
Proof.
  intros H. pose proof isize_lt_usize. unfold dyn, buf_more. rewrite usize_add_ok by (rewrite len_app; lia).
  rewrite resize_grow by (rewrite len_app; lia). rewrite usize_add_ok by lia.
  rewrite len_app, len_zeros, app_assoc. reflexivity.
Qed.
Lemma dyn_edit E pre cur f cur' r : len pre + len cur <= ISIZE_MAX -> f cur = (cur', r) -> len cur' = len cur ->
  buf_data_mut E f (dyn pre cur) = (dyn pre cur', r).
Proof.
  intros H Hf Hl. pose proof isize_lt_usize. unfold dyn, buf_data_mut. rewrite usize_add_ok by lia.
  rewrite <- (app_nil_r cur) at 2. rewrite (range_mut_mid pre cur [] f cur' r) by (reflexivity || exact Hf).
  rewrite app_nil_r, Hl. reflexivity.
Qed.
Lemma len_alter_eq b i v : i < len b -> len (alter b i v) = len b.
Proof. intros H. unfold alter. autorewrite with len. lia. Qed.
Lemma write_ok i v b : i < len b -> set_index i v b = (alter b i v, Ok tt).
Proof. intros H. unfold set_index. destruct (N.ltb_spec i (len b)); [reflexivity|lia]. Qed.

(** The size of the layers is bounded by what was asked for. *)
Lemma layers_size ops : forall pre cur pre' cur', layers_run (pre, cur) ops = Some (pre', cur') ->
  len pre' + len cur' <= len pre + len cur + ops_size ops.
Proof.
  induction ops as [|o ops IH]; intros pre cur pre' cur' H.
  - cbn in H. injection H as <- <-. lia.
  - cbn [layers_run] in H. destruct (layers_step (pre, cur) o) as [[p c]|] eqn:Ho; [|discriminate].
    apply IH in H. cbn [ops_size fold_right]. fold (ops_size ops).
    destruct o as [n|n| |i v]; cbn [layers_step op_size] in *.
    + injection Ho as <- <-. rewrite len_app, len_zeros in H. lia.
    + injection Ho as <- <-. rewrite len_app, len_zeros in H. lia.
    + injection Ho as <- <-. rewrite !len_nil in H. lia.
    + destruct (N.ltb_spec i (len cur)); [|discriminate]. injection Ho as <- <-. rewrite len_alter_eq in H by assumption. lia.
Qed.

Lemma dyn_run E ops : forall pre cur, len pre + len cur + ops_size ops <= ISIZE_MAX ->
  match layers_run (pre, cur) ops with
  | Some (pre', cur') => buf_calls E (dyn pre cur) ops = (dyn pre' cur', map (fun _ => Ok tt) ops)
  | None => exists b k, buf_calls E (dyn pre cur) ops = (b, repeat (Ok tt) k ++ [Panic])
  end.
Proof.
  induction ops as [|o ops IH]; intros pre cur Hs; [reflexivity|].
  cbn [ops_size fold_right op_size] in Hs. fold (ops_size ops) in Hs. cbn [layers_run buf_calls map].
  assert (Hgo : forall p c, len p + len c + ops_size ops <= ISIZE_MAX ->
    buf_call E (dyn pre cur) o = (dyn p c, Ok tt) ->
    match layers_run (p, c) ops with
    | Some (pre', cur') =>
        match buf_call E (dyn pre cur) o with (b', Panic) => (b', [Panic]) | (b', r) => let (b'', rs) := buf_calls E b' ops in (b'', r :: rs) end
         = (dyn pre' cur', Ok tt :: map (fun _ => Ok tt) ops)
    | None => exists b k, match buf_call E (dyn pre cur) o with (b', Panic) => (b', [Panic]) | (b', r) => let (b'', rs) := buf_calls E b' ops in (b'', r :: rs) end
         = (b, repeat (Ok tt) k ++ [Panic])
    end).
  { intros p c Hpc Hc. rewrite Hc. specialize (IH p c Hpc). destruct (layers_run (p, c) ops) as [[pre' cur']|].
    - rewrite IH. reflexivity.
    - destruct IH as (b & k & IH). rewrite IH. exists b, (S k). reflexivity. }
  destruct o as [n|n| |i v]; cbn [layers_step op_size] in *.
  - apply Hgo; [rewrite len_app, len_zeros; lia|]. apply dyn_next. lia.
  - apply Hgo; [rewrite len_app, len_zeros; lia|]. apply dyn_more. lia.
  - apply Hgo; [rewrite !len_nil; lia|]. reflexivity.
  - destruct (N.ltb_spec i (len cur)) as [Hi|Hi].
    + apply Hgo; [rewrite len_alter_eq by exact Hi; lia|]. apply dyn_edit; [lia|apply write_ok, Hi|apply len_alter_eq, Hi].
    + exists (dyn pre cur), O. cbn [buf_call]. rewrite (dyn_edit E pre cur _ cur Panic); [reflexivity|lia|apply set_index_panic, Hi|reflexivity].
Qed.

(** C29: for every sequence of calls on a new Dynamic buffer asking for at most
    isize::MAX bytes in all: every call returns Ok and the buffer shows exactly
    the layers; an out-of-range write panics, and nothing else does. *)
Lemma c29_dynamic : forall E ops, ops_size ops <= ISIZE_MAX ->
  match layers_run ([], []) ops with
  | Some (pre, cur) => exists b, buf_calls E dynamic_new ops = (b, map (fun _ => Ok tt) ops) /\ shows E b pre cur
  | None => exists b k, buf_calls E dynamic_new ops = (b, repeat (Ok tt) k ++ [Panic])
  end.
Proof.
  intros E ops H. pose proof (dyn_run E ops [] []) as R. change (@pair bytes bytes) with (@pair (list N) (list N)) in R. rewrite !len_nil in R. specialize (R ltac:(lia)).
  change (dyn [] []) with dynamic_new in R.
  destruct (layers_run ([], []) ops) as [[pre cur]|] eqn:HL; [|exact R].
  exists (dyn pre cur). split; [exact R|]. apply dyn_shows. apply layers_size in HL. rewrite !len_nil in HL. lia.
Qed.
(** C29: asking for more than isize::MAX bytes in total panics, as long as the sum
    still fits in usize. *)
Lemma c29_capacity : forall E ops pre cur b n, ops_size ops <= ISIZE_MAX ->
  layers_run ([], []) ops = Some (pre, cur) -> fst (buf_calls E dynamic_new ops) = b ->
  ISIZE_MAX < len pre + len cur + n < USIZE ->
  snd (buf_next E n b) = Panic /\ snd (buf_more E n b) = Panic.
Proof.
  intros E ops pre cur b n H HL <- Hn. pose proof (dyn_run E ops [] []) as R. change (@pair bytes bytes) with (@pair (list N) (list N)) in R. rewrite !len_nil in R.
  specialize (R ltac:(lia)). rewrite HL in R. change (dyn [] []) with dynamic_new in R. rewrite R.
  apply layers_size in HL. rewrite !len_nil in HL. pose proof isize_lt_usize. cbn [fst]. unfold dyn, buf_next, buf_more.
  assert (Hr : vec_resize (pre ++ cur) (len (pre ++ cur) + n) = Panic).
  { unfold vec_resize. destruct (N.ltb_spec ISIZE_MAX (len (pre ++ cur) + n)); [reflexivity|]. rewrite len_app in *. lia. }
  rewrite usize_add_ok by lia. rewrite usize_add_ok by (rewrite len_app; lia). rewrite Hr. split; reflexivity.
Qed.
(** C29, the part that fails: a size so large that the sum overflows usize panics
    with overflow checks; without them [next] succeeds and truncates the earlier
    layers to the wrapped size. *)
Lemma c29_wrap_refuted : forall E pre cur n, len pre + len cur <= ISIZE_MAX -> n < USIZE ->
  USIZE <= len pre + len cur + n ->
  let b := Dynamic (pre ++ cur) (len pre) (len cur) in
  (overflow_checks E = true -> snd (buf_next E n b) = Panic) /\
  (overflow_checks E = false ->
   exists b', buf_next E n b = (b', Ok tt) /\
     buf_into_inner b' = Ok (takeN (len pre + len cur + n - USIZE) (pre ++ cur)) /\ buf_data E b' = Panic).
Proof.
  intros E pre cur n H Hn Hs b. pose proof isize_lt_usize. unfold b, buf_next. rewrite usize_add_ok by lia.
  assert (Ha : usize_add E (len (pre ++ cur)) n = if overflow_checks E then Panic else Ok (len pre + len cur + n - USIZE)).
  { unfold usize_add. rewrite len_app. destruct (N.ltb_spec (len pre + len cur + n) USIZE); [lia|].
    destruct (overflow_checks E); [reflexivity|]. f_equal.
    replace (len pre + len cur + n) with (len pre + len cur + n - USIZE + 1 * USIZE) at 1 by lia.
    rewrite N.mod_add by (widths; lia). apply N.mod_small. lia. }
  rewrite Ha. split; intros HE; rewrite HE; [reflexivity|].
  unfold vec_resize. destruct (N.ltb_spec ISIZE_MAX (len pre + len cur + n - USIZE)); [lia|].
  destruct (N.leb_spec (len pre + len cur + n - USIZE) (len (pre ++ cur))); [|rewrite len_app in *; lia].
  eexists. split; [reflexivity|]. split; [reflexivity|]. cbn [buf_data].
  unfold usize_add. rewrite HE. destruct (N.ltb_spec (len pre + len cur + n) USIZE); [lia|]. cbn [bind].
  apply slice_panic. left.
  replace (len pre + len cur + n) with (len pre + len cur + n - USIZE + 1 * USIZE) by lia.
  rewrite N.mod_add by (widths; lia). rewrite N.mod_small by lia. lia.
Qed.
Example c29_example : forall E,
  buf_calls E dynamic_new [Next 2; Write 1 7; Next 1; More 2; Write 2 9] = (Dynamic [0; 7; 0; 0; 9] 2 3, [Ok tt; Ok tt; Ok tt; Ok tt; Ok tt]) /\
  layers_run ([], []) [Next 2; Write 1 7; Next 1; More 2; Write 2 9] = Some ([0; 7], [0; 0; 9]).
Proof. intros [[] [] []]; split; reflexivity. Qed.

(** ** Slice *)
Definition sli (s : bytes * bytes * bytes) : buffer :=
  let '(pre, cur, rest) := s in Slice (pre ++ cur ++ rest) (len pre) (len cur) (len pre + len cur).
Definition room (s : bytes * bytes * bytes) : N := let '(pre, cur, rest) := s in len pre + len cur + len rest.
Lemma sli_shows E pre cur rest : room (pre, cur, rest) <= ISIZE_MAX -> shows E (sli (pre, cur, rest)) pre cur.
Proof.
  unfold room. intros H. pose proof isize_lt_usize. unfold shows, sli, buf_data. rewrite usize_add_ok by lia. cbn [bind].
  split; [apply slice_mid; reflexivity|]. repeat split; cbn [buf_into_inner].
  rewrite app_assoc. apply (slice_mid [] (pre ++ cur) rest); [reflexivity|]. rewrite len_app, len_nil. lia.
Qed.
Lemma slice_call_eq pre cur rest E o : buf_op_ok o -> room (pre, cur, rest) <= ISIZE_MAX ->
  (forall n, o = More n -> cur = []) ->
  let (s', r) := bounded_step (pre, cur, rest) o in
  snd (buf_call E (sli (pre, cur, rest)) o) = r /\
  (r <> Panic -> fst (buf_call E (sli (pre, cur, rest)) o) = sli s') /\ room s' = room (pre, cur, rest).
Proof.
  unfold room. intros Ho H Hm. pose proof isize_lt_usize as HU.
  assert (Hl : len (pre ++ cur ++ rest) = len pre + len cur + len rest) by (rewrite !len_app; lia).
  destruct o as [n|n| |i v]; cbn [bounded_step buf_call buf_op_ok] in *.
  - unfold sli at 1 2, buf_next. destruct (N.leb_spec USIZE (len pre + len cur + n)) as [Hw|Hw].
    + split; [|split; [congruence|reflexivity]]. unfold usize_add.
      destruct (N.ltb_spec (len pre + len cur + n) USIZE); [lia|]. destruct (overflow_checks E) eqn:HE; [reflexivity|].
      assert (Hwm : (len pre + len cur + n) mod USIZE = len pre + len cur + n - USIZE).
      { replace (len pre + len cur + n) with (len pre + len cur + n - USIZE + 1 * USIZE) at 1 by lia.
        rewrite N.mod_add by (widths; lia). apply N.mod_small. lia. }
      rewrite Hwm, Hl. destruct (N.ltb_spec (len pre + len cur + len rest) (len pre + len cur + n - USIZE)); [lia|].
      unfold buf_data_mut, usize_add. destruct (N.ltb_spec (len pre + len cur + n) USIZE); [lia|]. rewrite HE, Hwm.
      unfold range_mut. destruct (N.leb_spec (len pre + len cur) (len pre + len cur + n - USIZE)); [lia|]. reflexivity.
    + rewrite usize_add_ok by lia. rewrite Hl.
      destruct (N.ltb_spec (len pre + len cur + len rest) (len pre + len cur + n)); destruct (N.ltb_spec (len rest) n); try lia.
      * repeat split.
      * unfold buf_data_mut. rewrite usize_add_ok by lia.
        replace (pre ++ cur ++ rest) with ((pre ++ cur) ++ takeN n rest ++ dropN n rest) by (rewrite takeN_dropN, app_assoc; reflexivity).
        rewrite (range_mut_mid (pre ++ cur) (takeN n rest) (dropN n rest) zero_all (zeros n) (Ok tt));
          [|rewrite len_app; lia|rewrite len_app, len_takeN; lia|unfold zero_all; rewrite len_takeN; do 2 f_equal; lia].
        cbn [fst snd]. split; [reflexivity|]. split; [intros _|rewrite len_app, len_zeros, len_dropN; lia].
        unfold sli. rewrite len_app, len_zeros. reflexivity.
  - rewrite (Hm n eq_refl) in *. rewrite len_nil in *. cbn [app] in *. replace (len pre + 0) with (len pre) in * by lia.
    unfold sli at 1 2, buf_more. rewrite len_nil. replace (len pre + 0) with (len pre) by lia. cbn [app].
    destruct (N.leb_spec USIZE (len pre + n)) as [Hw|Hw].
    + split; [|split; [congruence|rewrite ?len_nil; lia]]. unfold usize_add.
      destruct (N.ltb_spec (len pre + n) USIZE); [lia|]. destruct (overflow_checks E) eqn:HE; [reflexivity|].
      assert (Hwm : (len pre + n) mod USIZE = len pre + n - USIZE).
      { replace (len pre + n) with (len pre + n - USIZE + 1 * USIZE) at 1 by lia.
        rewrite N.mod_add by (widths; lia). apply N.mod_small. lia. }
      rewrite Hwm, Hl. destruct (N.ltb_spec (len pre + len rest) (len pre + n - USIZE)); [lia|].
      change (0 + n) with n. destruct (N.ltb_spec n USIZE); [|lia]. rewrite usize_sub_ok by lia.
      unfold buf_data_mut, usize_add. destruct (N.ltb_spec (len pre + n) USIZE); [lia|]. rewrite HE, Hwm.
      unfold range_mut. destruct (N.leb_spec (len pre) (len pre + n - USIZE)); [lia|]. reflexivity.
    + rewrite (usize_add_ok E (len pre) n) by lia. rewrite Hl.
      destruct (N.ltb_spec (len pre + len rest) (len pre + n)); destruct (N.ltb_spec (len rest) n); try lia.
      * split; [reflexivity|]. split; [|rewrite ?len_nil; lia]. intros _. cbn [fst]. unfold sli. rewrite len_nil. f_equal; lia.
      * rewrite (usize_add_ok E 0 n) by lia. change (0 + n) with n. rewrite usize_sub_ok by lia. replace (n - n) with 0 by lia.
        unfold buf_data_mut. rewrite usize_add_ok by lia.
        replace (pre ++ rest) with (pre ++ takeN n rest ++ dropN n rest) by (rewrite takeN_dropN; reflexivity).
        rewrite (range_mut_mid pre (takeN n rest) (dropN n rest) (zero_from 0) (zeros n) (Ok tt));
          [|lia|rewrite len_takeN; lia|unfold zero_from; destruct (N.leb_spec 0 (len (takeN n rest))); [|lia]; rewrite len_takeN; cbn [takeN]; unfold takeN at 1; cbn [N.to_nat firstn app]; do 2 f_equal; lia].
        cbn [fst snd]. split; [reflexivity|]. split; [intros _|rewrite ?len_nil, len_zeros, len_dropN; lia].
        unfold sli. rewrite len_zeros. reflexivity.
  - split; [reflexivity|]. split; [reflexivity|]. rewrite !len_app, !len_nil. lia.
  - unfold sli at 1 2, buf_data_mut. rewrite usize_add_ok by lia.
    destruct (N.ltb_spec i (len cur)) as [Hi|Hi].
    + rewrite (range_mut_mid pre cur rest (set_index i v) (alter cur i v) (Ok tt)) by (reflexivity || apply write_ok, Hi).
      cbn [fst snd]. split; [reflexivity|]. rewrite len_alter_eq by exact Hi. split; [|reflexivity]. intros _.
      unfold sli. rewrite len_alter_eq by exact Hi. reflexivity.
    + rewrite (range_mut_mid pre cur rest (set_index i v) cur Panic) by (reflexivity || apply set_index_panic, Hi).
      split; [reflexivity|]. split; [congruence|reflexivity].
Qed.
Lemma slice_run E ops : forall s, room s <= ISIZE_MAX -> Forall buf_op_ok ops -> more_on_empty s ops ->
  snd (buf_calls E (sli s) ops) = snd (bounded_steps s ops) /\
  (~ In Panic (snd (bounded_steps s ops)) -> fst (buf_calls E (sli s) ops) = sli (fst (bounded_steps s ops))) /\
  room (fst (bounded_steps s ops)) = room s.
Proof.
  induction ops as [|o ops IH]; intros s Hs Ho Hm; [repeat split|].
  inversion_clear Ho as [|? ? Ho1 Ho2]. cbn [more_on_empty] in Hm. destruct Hm as [Hm1 Hm2].
  destruct s as [[pre cur] rest].
  pose proof (slice_call_eq pre cur rest E o Ho1 Hs) as HC.
  specialize (HC ltac:(intros n ->; exact Hm1)).
  cbn [buf_calls bounded_steps]. destruct (bounded_step (pre, cur, rest) o) as [s' r] eqn:Hb. cbn [fst] in Hm2.
  destruct HC as (C1 & C2 & C3). destruct (buf_call E (sli (pre, cur, rest)) o) as [b' r']. cbn [fst snd] in C1, C2. subst r'.
  specialize (IH s' ltac:(lia) Ho2 Hm2).
  destruct r as [u|e|].
  - rewrite C2 by discriminate. destruct (buf_calls E (sli s') ops) as [b'' rs]. destruct (bounded_steps s' ops) as [s'' rs'].
    cbn [fst snd] in *. destruct IH as (I1 & I2 & I3). subst rs'. split; [reflexivity|]. split; [|lia].
    intros Hn. apply I2. intros HP. apply Hn. right. exact HP.
  - rewrite C2 by discriminate. destruct (buf_calls E (sli s') ops) as [b'' rs]. destruct (bounded_steps s' ops) as [s'' rs'].
    cbn [fst snd] in *. destruct IH as (I1 & I2 & I3). subst rs'. split; [reflexivity|]. split; [|lia].
    intros Hn. apply I2. intros HP. apply Hn. right. exact HP.
  - cbn [fst snd]. split; [reflexivity|]. split; [|lia]. intros Hn. exfalso. apply Hn. left. reflexivity.
Qed.

(** C30: for every slice and every sequence of calls in which [more] is only used
    on an empty layer, the results are exactly those of the layers in a memory of
    that size (SmallBuffer leaves everything as it was and the sequence goes on);
    without a panic, the buffer shows the layers and the wrapped slice is layers
    then free memory, of the same length as at the start. *)
Lemma c30_slice : forall E s ops, len s <= ISIZE_MAX -> Forall buf_op_ok ops ->
  more_on_empty ([], [], s) ops ->
  let '(pre, cur, rest, rs) := bounded_steps ([], [], s) ops in
  snd (buf_calls E (slice_new s) ops) = rs /\
  len pre + len cur + len rest = len s /\
  (~ In Panic rs -> exists b, fst (buf_calls E (slice_new s) ops) = b /\ shows E b pre cur /\
     b = Slice (pre ++ cur ++ rest) (len pre) (len cur) (len pre + len cur)).
Proof.
  intros E s ops Hs Ho Hm. pose proof (slice_run E ops ([], [], s) ltac:(unfold room; rewrite !len_nil; lia) Ho Hm) as (H1 & H2 & H3).
  change (sli ([], [], s)) with (slice_new s) in *.
  destruct (bounded_steps ([], [], s) ops) as [[[pre cur] rest] rs]. cbn [fst snd] in *.
  unfold room in H3. rewrite !len_nil in H3.
  split; [exact H1|]. split; [lia|]. intros HP. exists (sli (pre, cur, rest)). split; [apply H2, HP|].
  split; [apply sli_shows; unfold room; lia|reflexivity].
Qed.
(** C30: in every state whatsoever, a call on a Slice keeps the length of the
    wrapped slice and changes only the newly granted bytes (for [next], the [n]
    bytes after the used ones; for [more], [n] bytes in the new window; for a
    write, that byte; for a failed call or [clear], nothing). *)
Lemma c30_frame : forall E s off l used o b', buf_op_ok o ->
  off + l < USIZE -> used + l < USIZE -> len s <= ISIZE_MAX -> used <= len s ->
  forall r, buf_call E (Slice s off l used) o = (b', r) -> r <> Panic ->
  exists s' off' l' used', b' = Slice s' off' l' used' /\ len s' = len s /\
    match r, o with
    | Ok _, Next n => only_changes used (used + n) s s'
    | Ok _, More n => only_changes (used + l) (used + l + n) s s'
    | Ok _, Write i v => only_changes (off + i) (off + i + 1) s s'
    | _, _ => s' = s /\ (o <> Clear -> off' = off /\ l' = l /\ used' = used)
    end.
Proof.
  intros E s off l used o b' Ho H1 H2 H3 H4 r Hc Hr. pose proof isize_lt_usize as HU.
  assert (Hrange : forall i j f m, (forall x, f x = (fst (f x), snd (f x)) /\ len (fst (f x)) = len x) ->
    range_mut i j f s = m -> snd m <> Panic -> len (fst m) = len s /\ i <= j <= len s /\
    m = (takeN i s ++ fst (f (takeN (j - i) (dropN i s))) ++ dropN j s, snd (f (takeN (j - i) (dropN i s))))).
  { intros i j f m Hf <-. unfold range_mut. destruct (N.leb_spec i j); [|intros N; contradiction N; reflexivity].
    destruct (N.leb_spec j (len s)); [|intros N; contradiction N; reflexivity]. cbn [andb].
    destruct (Hf (takeN (j - i) (dropN i s))) as [F1 F2]. destruct (f (takeN (j - i) (dropN i s))) as [x y]. cbn [fst snd] in *.
    intros _. split; [|split; [lia|reflexivity]]. autorewrite with len. rewrite F2. autorewrite with len. lia. }
  assert (Hsame : forall r0, r0 <> Panic -> (match r0 with Ok _ => False | _ => True end) -> Slice s off l used = b' -> r0 = r ->
    exists s' off' l' used', b' = Slice s' off' l' used' /\ len s' = len s /\
    match r, o with
    | Ok _, Next n => only_changes used (used + n) s s'
    | Ok _, More n => only_changes (used + l) (used + l + n) s s'
    | Ok _, Write i v => only_changes (off + i) (off + i + 1) s s'
    | _, _ => s' = s /\ (o <> Clear -> off' = off /\ l' = l /\ used' = used)
    end).
  { intros r0 R1 R2 <- <-. exists s, off, l, used. split; [reflexivity|]. split; [reflexivity|].
    destruct r0; [contradiction| |contradiction]. repeat split. }
  destruct o as [n|n| |i v]; cbn [buf_call buf_op_ok] in *.
  - unfold buf_next in Hc. unfold usize_add in Hc. destruct (N.ltb_spec (used + n) USIZE) as [Hu|Hu].
    + destruct (N.ltb_spec (len s) (used + n)).
      { injection Hc as A B. apply (Hsame (Err SmallBuffer)); congruence || exact I. }
      unfold buf_data_mut, usize_add in Hc. destruct (N.ltb_spec (used + n) USIZE); [|lia].
      destruct (range_mut used (used + n) zero_all s) as [s' r'] eqn:HR. injection Hc as <- <-.
      destruct (Hrange _ _ zero_all _ ltac:(intros x; split; [reflexivity|apply len_zeros]) HR ltac:(exact Hr)) as (R1 & R2 & R3).
      cbn [fst] in R1. injection R3 as R3 R4. exists s', used, n, (used + n). split; [reflexivity|]. split; [exact R1|].
      rewrite R4. unfold zero_all; cbn [snd]. rewrite R3. unfold zero_all; cbn [fst].
      apply only_changes_mid; autorewrite with len; lia.
    + destruct (overflow_checks E) eqn:HE; [injection Hc as A B; congruence|].
      destruct (N.ltb_spec (len s) ((used + n) mod USIZE)).
      { injection Hc as A B. apply (Hsame (Err SmallBuffer)); congruence || exact I. }
      unfold buf_data_mut, usize_add in Hc. destruct (N.ltb_spec (used + n) USIZE); [lia|]. rewrite HE in Hc.
      unfold range_mut in Hc. assert (Hwm : (used + n) mod USIZE = used + n - USIZE).
      { replace (used + n) with (used + n - USIZE + 1 * USIZE) at 1 by lia. rewrite N.mod_add by (widths; lia). apply N.mod_small. lia. }
      rewrite Hwm in Hc. destruct (N.leb_spec used (used + n - USIZE)); [lia|]. cbn [andb] in Hc. injection Hc as A B. congruence.
  - unfold buf_more in Hc. destruct (usize_add E used n) as [u| |] eqn:Hu; [|injection Hc as A B; congruence|injection Hc as A B; congruence].
    destruct (N.ltb_spec (len s) u).
    { injection Hc as A B. apply (Hsame (Err SmallBuffer)); congruence || exact I. }
    destruct (usize_add E l n) as [l'| |] eqn:Hl; [|injection Hc as A B; congruence|injection Hc as A B; congruence].
    destruct (usize_sub E l' n) as [i| |] eqn:Hi; [|injection Hc as A B; congruence|injection Hc as A B; congruence].
    unfold buf_data_mut in Hc. destruct (usize_add E used l') as [e| |] eqn:He; [|injection Hc as A B; congruence|injection Hc as A B; congruence].
    destruct (range_mut used e (zero_from i) s) as [s' r'] eqn:HR. injection Hc as <- <-.
    destruct (Hrange _ _ (zero_from i) _ ltac:(intros x; split; [apply surjective_pairing|unfold zero_from; destruct (N.leb_spec i (len x)); cbn [fst]; autorewrite with len; lia]) HR ltac:(exact Hr)) as (R1 & R2 & R3).
    cbn [fst] in R1. injection R3 as R3 R4.
    assert (Hl' : l' = l + n /\ i = l /\ e = used + l + n).
    { assert (Hln : l + n < USIZE).
      { destruct (N.ltb_spec (l + n) USIZE) as [|Hw]; [assumption|exfalso].
        unfold usize_add in Hl. destruct (N.ltb_spec (l + n) USIZE); [lia|].
        destruct (overflow_checks E) eqn:HE; [discriminate|]. rewrite wrap1 in Hl by lia. injection Hl as <-.
        unfold usize_sub in Hi. destruct (N.leb_spec n (l + n - USIZE)); [lia|]. rewrite HE in Hi. injection Hi as <-.
        rewrite usize_add_ok in He by lia. injection He as <-.
        unfold zero_from in R4. match type of R4 with context [if ?c then _ else _] => destruct c eqn:Hq end; [|cbn [snd] in R4; congruence].
        apply N.leb_le in Hq. autorewrite with len in Hq. lia. }
      rewrite usize_add_ok in Hl by lia. injection Hl as <-. rewrite usize_sub_ok in Hi by lia. injection Hi as <-.
      split; [reflexivity|]. split; [lia|]. unfold usize_add in He. destruct (N.ltb_spec (used + (l + n)) USIZE); [injection He as <-; lia|].
      destruct (overflow_checks E); [discriminate|]. rewrite wrap1 in He by lia. injection He as <-. lia. }
    destruct Hl' as (-> & -> & ->).
    exists s', used, (l + n), u. split; [reflexivity|]. split; [exact R1|].
    unfold zero_from in R3, R4. destruct (l <=? len (takeN (used + l + n - used) (dropN used s))) eqn:Hq; [|cbn [snd] in R4; congruence]. apply N.leb_le in Hq.
    cbn [fst snd] in R3, R4. rewrite R4. autorewrite with len in Hq.
    assert (R5 : s' = takeN (used + l) s ++ zeros n ++ dropN (used + l + n) s).
    { rewrite R3. rewrite takeN_takeN. replace (N.min l (used + l + n - used)) with l by lia.
      assert (Ht : takeN (used + l) s = takeN used s ++ takeN l (dropN used s)).
      { rewrite <- (takeN_dropN used s) at 1. rewrite (takeN_app2 (used + l)) by (autorewrite with len; lia).
        autorewrite with len. f_equal. f_equal. lia. }
      rewrite Ht, <- !app_assoc. autorewrite with len. do 3 f_equal. f_equal. lia. }
    rewrite R5. apply only_changes_mid; autorewrite with len; lia.
  - injection Hc as <- <-. exists s, 0, 0, 0. split; [reflexivity|]. split; [reflexivity|]. split; [reflexivity|]. intros C; contradiction C; reflexivity.
  - unfold buf_data_mut in Hc. rewrite usize_add_ok in Hc by lia.
    destruct (range_mut off (off + l) (set_index i v) s) as [s' r'] eqn:HR. injection Hc as <- <-.
    destruct (Hrange _ _ (set_index i v) _ ltac:(intros x; split; [apply surjective_pairing|unfold set_index; destruct (N.ltb_spec i (len x)); cbn [fst]; [apply len_alter_eq; assumption|reflexivity]]) HR ltac:(exact Hr)) as (R1 & R2 & R3).
    cbn [fst] in R1. injection R3 as R3 R4. exists s', off, l, used. split; [reflexivity|]. split; [exact R1|].
    unfold set_index in R3, R4. destruct (i <? len (takeN (off + l - off) (dropN off s))) eqn:Hq; [|cbn [snd] in R4; congruence]. apply N.ltb_lt in Hq.
    cbn [fst snd] in R3, R4. rewrite R4. autorewrite with len in Hq.
    replace s' with (alter s (off + i) v). { apply (only_changes_mid (off + i) (off + i + 1) s [v]); cbn; lia. }
    rewrite R3. unfold alter. replace (off + l - off) with l by lia.
    assert (Ht : takeN (off + i) s = takeN off s ++ takeN i (dropN off s)).
    { rewrite <- (takeN_dropN off s) at 1. rewrite (takeN_app2 (off + i)) by (autorewrite with len; lia).
      autorewrite with len. f_equal. f_equal. lia. }
    assert (Hd : dropN (off + i + 1) s = dropN (i + 1) (takeN l (dropN off s)) ++ dropN (off + l) s).
    { rewrite <- (dropN_dropN l off s). replace (off + i + 1) with (off + (i + 1)) by lia. rewrite <- (dropN_dropN (i + 1) off s).
      rewrite <- (takeN_dropN l (dropN off s)) at 1. apply dropN_app1. autorewrite with len. lia. }
    rewrite Ht, Hd, <- !app_assoc. rewrite takeN_takeN. replace (N.min i l) with i by lia. reflexivity.
Qed.

Example c30_example : forall E,
  let ops := [Next 3; Write 1 7; Next 4; Clear; Next 2] in
  more_on_empty ([], [], [9; 8; 7; 6; 5]) ops /\ Forall buf_op_ok ops /\
  buf_calls E (slice_new [9; 8; 7; 6; 5]) ops = (Slice [0; 0; 0; 6; 5] 0 2 2, [Ok tt; Ok tt; Err SmallBuffer; Ok tt; Ok tt]).
Proof.
  intros [[] [] []]; (split; [cbn; tauto|]; split; [repeat constructor|reflexivity]).
Qed.

(** C31: [more(n)] on a non-empty layer of a Slice, in every state reached by the
    calls of C30 (earlier layers [pre], layer [cur], free memory [rest]): it fails
    with SmallBuffer and changes nothing, or panics, or succeeds but the layer is
    then no longer [cur] extended: it starts at the old end of the used memory,
    its first bytes are whatever the free memory held, and it ends past used(). *)
Lemma c31_slice_more : forall E pre cur rest n, cur <> [] ->
  len pre + len cur + len rest <= ISIZE_MAX -> n < USIZE ->
  let b := Slice (pre ++ cur ++ rest) (len pre) (len cur) (len pre + len cur) in
  (len rest < n -> len pre + len cur + n < USIZE -> buf_more E n b = (b, Err SmallBuffer)) /\
  (USIZE <= len pre + len cur + n -> snd (buf_more E n b) = Panic) /\
  (n <= len rest < len cur + n -> snd (buf_more E n b) = Panic) /\
  (len cur + n <= len rest -> exists b', buf_more E n b = (b', Ok tt) /\
     buf_offset b' = len pre + len cur /\ buf_offset b' <> buf_offset b /\
     buf_length b' = len cur + n /\ buf_used b' = len pre + len cur + n /\
     buf_used b' < buf_offset b' + buf_length b' /\
     buf_data E b' = Ok (takeN (len cur) rest ++ zeros n) /\
     b' = Slice (pre ++ cur ++ takeN (len cur) rest ++ zeros n ++ dropN (len cur + n) rest)
                (len pre + len cur) (len cur + n) (len pre + len cur + n)).
Proof.
  intros E pre cur rest n Hc H Hs b. pose proof isize_lt_usize as HU.
  assert (Hc0 : 0 < len cur) by (destruct cur; [contradiction|rewrite len_cons; lia]).
  assert (Hl : len (pre ++ cur ++ rest) = len pre + len cur + len rest) by (rewrite !len_app; lia).
  pose proof isize_double as HD.
  unfold b, buf_more. rewrite Hl.
  split; [|split; [|split]].
  - intros Hn Hn'. rewrite usize_add_ok by lia. destruct (N.ltb_spec (len pre + len cur + len rest) (len pre + len cur + n)); [reflexivity|lia].
  - intros Hn. unfold usize_add at 1. destruct (N.ltb_spec (len pre + len cur + n) USIZE); [lia|].
    destruct (overflow_checks E) eqn:HE; [reflexivity|]. rewrite wrap1 by lia.
    destruct (N.ltb_spec (len pre + len cur + len rest) (len pre + len cur + n - USIZE)); [lia|].
    unfold usize_add at 1. destruct (N.ltb_spec (len cur + n) USIZE).
    + rewrite usize_sub_ok by lia. unfold buf_data_mut, usize_add. destruct (N.ltb_spec (len pre + len cur + (len cur + n)) USIZE); [lia|].
      rewrite HE. rewrite wrap1 by lia. unfold range_mut.
      destruct (N.leb_spec (len pre + len cur) (len pre + len cur + (len cur + n) - USIZE)); [lia|]. reflexivity.
    + rewrite HE. rewrite wrap1 by lia. unfold usize_sub. destruct (N.leb_spec n (len cur + n - USIZE)); [lia|]. rewrite HE.
      replace (len cur + n - USIZE + USIZE - n) with (len cur) by lia.
      unfold buf_data_mut. rewrite usize_add_ok by lia. unfold range_mut.
      destruct (N.leb_spec (len pre + len cur) (len pre + len cur + (len cur + n - USIZE))); [|reflexivity].
      destruct (N.leb_spec (len pre + len cur + (len cur + n - USIZE)) (len (pre ++ cur ++ rest))); [|reflexivity]. cbn [andb].
      unfold zero_from. match goal with |- context [len cur <=? len ?x] => destruct (N.leb_spec (len cur) (len x)) as [Hq|Hq] end; [|reflexivity].
      autorewrite with len in Hq. lia.
  - intros Hn. rewrite usize_add_ok by lia. destruct (N.ltb_spec (len pre + len cur + len rest) (len pre + len cur + n)); [lia|].
    rewrite usize_add_ok by lia. rewrite usize_sub_ok by lia. unfold buf_data_mut. rewrite usize_add_ok by lia.
    unfold range_mut. rewrite Hl. destruct (N.leb_spec (len pre + len cur + (len cur + n)) (len pre + len cur + len rest)); [lia|].
    rewrite andb_false_r. reflexivity.
  - intros Hn. rewrite usize_add_ok by lia. destruct (N.ltb_spec (len pre + len cur + len rest) (len pre + len cur + n)); [lia|].
    rewrite usize_add_ok by lia. rewrite usize_sub_ok by lia. replace (len cur + n - n) with (len cur) by lia.
    unfold buf_data_mut. rewrite usize_add_ok by lia.
    set (w := takeN (len cur + n) rest). assert (Hw : len w = len cur + n) by (unfold w; autorewrite with len; lia).
    replace (pre ++ cur ++ rest) with ((pre ++ cur) ++ w ++ dropN (len cur + n) rest) by (unfold w; rewrite takeN_dropN, app_assoc; reflexivity).
    assert (Hz : zero_from (len cur) w = (takeN (len cur) rest ++ zeros n, Ok tt)).
    { unfold zero_from. rewrite Hw. destruct (N.leb_spec (len cur) (len cur + n)); [|lia].
      unfold w. rewrite takeN_takeN. replace (N.min (len cur) (len cur + n)) with (len cur) by lia. do 3 f_equal. lia. }
    rewrite (range_mut_mid (pre ++ cur) w _ _ _ _ (len pre + len cur) (len pre + len cur + (len cur + n)) ltac:(rewrite len_app; lia) ltac:(rewrite len_app, Hw; lia) Hz).
    eexists. split; [reflexivity|]. cbn [buf_offset buf_length buf_used]. repeat split; try lia.
    + cbn [buf_data]. rewrite usize_add_ok by lia. cbn [bind].
      apply slice_mid; rewrite ?len_app, ?len_zeros, ?len_takeN; lia.
    + rewrite <- !app_assoc. reflexivity.
Qed.
Example c31_example : forall E,
  let b := fst (buf_calls E (slice_new [9; 8; 7; 6; 5; 4]) [Next 2; Write 1 7]) in
  b = Slice [0; 7; 7; 6; 5; 4] 0 2 2 /\
  buf_more E 1 b = (Slice [0; 7; 7; 6; 0; 4] 2 3 3, Ok tt) /\
  snd (buf_more E 3 b) = Panic /\ snd (buf_more E 5 b) = Err SmallBuffer.
Proof. intros [[] [] []]; repeat split. Qed.
