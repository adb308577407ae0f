(** * GenericProofs: the builders over any implementation of the Buffer trait (C63). *)
From Coq Require Import ZifyBool ZifyNat ZifyN.
From Verif Require Import Base Enums Buffer Ether Ipv4 Ip Udp Tcp Icmp Builders Generic Spec SpecCalls SpecProfile SpecShift SpecGeneric Lemmas ChecksumProofs MisuseProofs SliceBuildProofs.
Ltac Zify.zify_post_hook ::= Z.div_mod_to_equations.
Open Scope N_scope.

Lemma imax {E : env} : ISIZE_MAX + ISIZE_MAX < USIZE /\ 1000 <= ISIZE_MAX. Proof. split; widths; lia. Qed.
Lemma dyn_vec {E : env} before layer n : len before + len layer + n <= ISIZE_MAX ->
  vec_resize (before ++ layer) (len (before ++ layer) + n) = Ok (before ++ layer ++ zeros n).
Proof.
  intros H. unfold vec_resize. rewrite len_app. replace (ISIZE_MAX <? len before + len layer + n) with false by lia.
  destruct (len before + len layer + n <=? len before + len layer) eqn:K.
  - assert (n = 0) as -> by lia. rewrite takeN_all by (rewrite len_app; lia). change (zeros 0) with (@nil N). rewrite app_nil_r. reflexivity.
  - rewrite <- app_assoc. do 3 f_equal. f_equal. lia.
Qed.
Lemma dyn_data_mut E f before layer : keeps_len f -> len before + len layer <= ISIZE_MAX ->
  buf_data_mut E f (Dynamic (before ++ layer) (len before) (len layer)) = (Dynamic (before ++ fst (f layer)) (len before) (len layer), snd (f layer)).
Proof.
  pose proof imax. intros Hf H0. cbn [buf_data_mut]. rewrite usize_add_ok by lia. unfold range_mut. rewrite len_app.
  replace ((len before <=? len before + len layer) && (len before + len layer <=? len before + len layer)) with true by lia.
  rewrite dropN_app_len. replace (len before + len layer - len before) with (len layer) by lia. rewrite takeN_all by lia.
  destruct (f layer) as [m r]. cbn [fst snd]. rewrite takeN_app_len.
  replace (dropN (len before + len layer) (before ++ layer)) with (@nil N).
  - rewrite app_nil_r. reflexivity.
  - symmetry. rewrite dropN_app2 by lia. replace (len before + len layer - len before) with (len layer) by lia. rewrite <- (app_nil_r layer) at 2. apply dropN_app_len.
Qed.
Section Sim.
Context {T : Type} (I : impl T) (E : env) (cap : N) (refused : error -> Prop) (holds : T -> bytes -> bytes -> Prop).
Hypothesis L : lawful I E cap refused holds.
Variable tot : N.
Hypothesis Htot : tot <= ISIZE_MAX.

(** The generic buffer against Dynamic, with [n] bytes still to come. *)
Inductive sbuf (n : N) : buffer -> T -> Prop :=
| SBuf before layer t : holds t before layer -> len before + len layer + n <= tot ->
    sbuf n (Dynamic (before ++ layer) (len before) (len layer)) t.
Record sim (n : N) (b : builder) (g : gbuilder (T:=T)) : Prop := {
  s_buf : sbuf n (b_buffer b) (gb_buffer g);
  s_fin : b_fin b = gb_fin g; s_ip : b_ip b = gb_ip g; s_kind : b_kind b = gb_kind g;
  s_payload : b_payload b = gb_payload g; s_pl : b_payload_length b = gb_payload_length g }.
Inductive rg {A B} (R : A -> B -> Prop) : res A -> res B -> Prop :=
| RgPanic : rg R Panic Panic
| RgErr e : rg R (Err e) (Err e)
| RgRefused r e : refused e -> cap < tot -> rg R r (Err e)
| RgOk a b : R a b -> rg R (Ok a) (Ok b).
Lemma rg_bind {A B A' B'} (R : A -> B -> Prop) (R' : A' -> B' -> Prop) x y f g :
  rg R x y -> (forall a b, R a b -> rg R' (f a) (g b)) -> rg R' (let* a := x in f a) (let* b := y in g b).
Proof. intros X H. destruct X; cbn [bind]; try constructor; try assumption. apply H. assumption. Qed.

Lemma sb_le n m b t : m <= n -> sbuf n b t -> sbuf m b t.
Proof. intros H []. constructor; [assumption|lia]. Qed.
Lemma sim_le n m b t : m <= n -> sim n b t -> sim m b t.
Proof. intros H []. constructor; try assumption. eapply sb_le; eassumption. Qed.
Lemma s_next n m b t : sbuf (n + m) b t -> rg (sbuf n) (try_buf (buf_next E m b)) (gtry_buf (im_next I E m t)).
Proof.
  pose proof imax. intros [before layer t' H0 H1]. cbn [buf_next]. rewrite usize_add_ok by lia. rewrite len_app, usize_add_ok by lia.
  rewrite <- len_app. rewrite dyn_vec by lia. cbn [try_buf].
  destruct (law_next _ _ _ _ _ L t' before layer m H0 ltac:(lia)) as [(x & -> & Hx)|(x & e & -> & He & Hc)]; cbn [gtry_buf].
  - constructor. rewrite app_assoc. replace (len before + len layer) with (len (before ++ layer)) by (rewrite len_app; reflexivity).
    rewrite <- (len_zeros m) at 2. constructor; [exact Hx|]. rewrite len_app, len_zeros. lia.
  - constructor; [exact He|lia].
Qed.
Lemma s_more n m b t : sbuf (n + m) b t -> rg (sbuf n) (try_buf (buf_more E m b)) (gtry_buf (im_more I E m t)).
Proof.
  pose proof imax. intros [before layer t' H0 H1]. cbn [buf_more]. rewrite len_app, usize_add_ok by lia.
  rewrite <- len_app. rewrite dyn_vec by lia. rewrite usize_add_ok by lia. cbn [try_buf].
  destruct (law_more _ _ _ _ _ L t' before layer m H0 ltac:(lia)) as [(x & -> & Hx)|(x & e & -> & He & Hc)]; cbn [gtry_buf].
  - constructor. replace (len layer + m) with (len (layer ++ zeros m)) by (rewrite len_app, len_zeros; reflexivity).
    constructor; [exact Hx|]. rewrite len_app, len_zeros. lia.
  - constructor; [exact He|lia].
Qed.
Lemma s_data_mut n f b t : keeps_len f -> sbuf n b t ->
  sbuf n (fst (buf_data_mut E f b)) (fst (im_data_mut I E f t)) /\ snd (buf_data_mut E f b) = snd (im_data_mut I E f t).
Proof.
  intros Hf [before layer t' H0 H1]. rewrite dyn_data_mut by (try assumption; lia).
  destruct (law_data_mut _ _ _ _ _ L t' before layer f H0 Hf) as (x & -> & Hx). cbn [fst snd]. split; [|reflexivity].
  rewrite <- (Hf layer). constructor; [exact Hx|]. rewrite (Hf layer). lia.
Qed.
Lemma s_try_data_mut n f b t : keeps_len f -> sbuf n b t -> rg (sbuf n) (try_buf (buf_data_mut E f b)) (gtry_buf (im_data_mut I E f t)).
Proof.
  intros Hf H. destruct (s_data_mut n f b t Hf H) as [H1 H2]. destruct (buf_data_mut E f b) as [x r], (im_data_mut I E f t) as [y r'].
  cbn [fst snd] in *. subst r'. destruct r as [[]|e|]; cbn [try_buf gtry_buf]; constructor. exact H1.
Qed.
Lemma s_bounds n b t : sbuf n b t -> buf_offset b = im_offset I t /\ buf_length b = im_length I t /\ buf_data E b = im_data I E t /\ buf_into_inner b = im_into_inner I t.
Proof.
  pose proof imax. intros [before layer t' H0 H1]. rewrite (law_offset _ _ _ _ _ L _ _ _ H0), (law_length _ _ _ _ _ L _ _ _ H0), (law_data _ _ _ _ _ L _ _ _ H0), (law_into_inner _ _ _ _ _ L _ _ _ H0).
  cbn [buf_offset buf_length buf_into_inner buf_data]. repeat split. rewrite usize_add_ok by lia. cbn [bind]. rewrite slice_ok by (rewrite ?len_app; lia).
  rewrite dropN_app_len. replace (len before + len layer - len before) with (len layer) by lia. rewrite takeN_all by lia. reflexivity.
Qed.

(** ** Builders *)
Lemma sim_fresh n b t ip : sbuf n b t -> sim n (fresh b ip) (gfresh t ip).
Proof. intros H. constructor; try reflexivity. exact H. Qed.
Lemma sim_with_buffer n m b g x y : sim m b g -> sbuf n x y -> sim n (with_buffer b x) (gwith_buffer g y).
Proof. intros [] H. constructor; assumption. Qed.
Lemma sim_add n b g f : sim n b g -> sim n (with_fin b (fin_add (b_fin b) f)) (gwith_fin g (fin_add (gb_fin g) f)).
Proof. intros []. constructor; try assumption. cbn. congruence. Qed.
Lemma s_edit n f b g : keeps_len f -> sim n b g -> rg (sim n) (edit E f b) (gedit I E f g).
Proof.
  intros Hf H. unfold edit, gedit. eapply rg_bind; [apply s_try_data_mut; [exact Hf|exact (s_buf _ _ _ H)]|].
  intros x y Hx. constructor. eapply sim_with_buffer; eassumption.
Qed.
Lemma s_payload_loop n count p : forall b g, sim (n + len p) b g -> rg (sim n) (payload_loop E count p b) (gpayload_loop I E count p g).
Proof.
  induction p as [|x p IH]; intros b g H; cbn [payload_loop gpayload_loop].
  - constructor. change (len []) with 0 in H. rewrite N.add_0_r in H. exact H.
  - assert (Hl : len (x :: p) = len p + 1) by (rewrite len_cons; lia). rewrite Hl, N.add_assoc in H.
    eapply rg_bind; [apply s_more; exact (s_buf _ _ _ H)|]. intros u v Huv. cbv zeta.
    pose proof (sim_with_buffer _ _ _ _ _ _ H Huv) as H1.
    eapply rg_bind with (R := sim (n + len p)).
    + destruct count; [|constructor; exact H1]. rewrite (s_pl _ _ _ H1). destruct (usize_add E (gb_payload_length (gwith_buffer g v)) 1); cbn [bind]; constructor.
      destruct H1. constructor; try assumption. reflexivity.
    + intros c d Hcd. eapply rg_bind; [apply s_edit; [apply kl_set_last|exact Hcd]|]. intros c' d' H'. apply IH. exact H'.
Qed.
Lemma s_payload_add n e count p b g : sim (n + len p) b g -> rg (sim n) (add_payload E e count p b) (gadd_payload I E e count p g).
Proof.
  intros H. unfold add_payload, gadd_payload. rewrite (s_payload _ _ _ H). destruct (gb_payload g); [constructor|].
  apply s_payload_loop. destruct H. constructor; try assumption. reflexivity.
Qed.
Lemma s_finish n b g : sim n b g -> finish b = gfinish I g.
Proof.
  intros H. unfold finish, gfinish. destruct (s_bounds _ _ _ (s_buf _ _ _ H)) as (_ & _ & _ & ->). rewrite (s_fin _ _ _ H). reflexivity.
Qed.
Lemma s_next_fresh n m b t ip : sbuf (n + m) b t ->
  rg (sim n) (let* buf := try_buf (buf_next E m b) in Ok (fresh buf ip)) (let* buf := gtry_buf (im_next I E m t) in Ok (gfresh buf ip)).
Proof. intros H. eapply rg_bind; [apply s_next; exact H|]. intros x y Hx. constructor. apply sim_fresh. exact Hx. Qed.
Lemma s_next_edit_fresh n m f b t ip : keeps_len f -> sbuf (n + m) b t ->
  rg (sim n) (let* buf := try_buf (buf_next E m b) in let* buf := try_buf (buf_data_mut E f buf) in Ok (fresh buf ip))
             (let* buf := gtry_buf (im_next I E m t) in let* buf := gtry_buf (im_data_mut I E f buf) in Ok (gfresh buf ip)).
Proof.
  intros Hf H. eapply rg_bind; [apply s_next; exact H|]. intros x y Hx.
  eapply rg_bind; [apply s_try_data_mut; [exact Hf|exact Hx]|]. intros x' y' Hx'. constructor. apply sim_fresh. exact Hx'.
Qed.
Lemma s_open o n b t : sbuf (n + header_of (opened o)) b t -> rg (sim n) (open E o b) (gopen I E o t).
Proof.
  intros H. destruct (s_bounds _ _ _ H) as (Ho & Hl & _).
  destruct o; cbn [open gopen opened header_of] in *; try (rewrite N.add_0_r in H; constructor; apply sim_fresh; exact H);
    try (apply s_next_fresh; exact H).
  - apply s_next_edit_fresh; [apply kl_set_index|exact H].
  - unfold udp_with, gudp_with. cbv zeta. rewrite Ho, Hl. apply s_next_fresh. exact H.
  - unfold tcp_with, gtcp_with. cbv zeta. rewrite Ho, Hl. apply s_next_edit_fresh; [apply kl_set_index|exact H].
Qed.
Lemma s_sub m n mk gmk b g : sim m b g -> rg (sim n) (mk (b_buffer b)) (gmk (gb_buffer g)) -> rg (sim n) (sub mk b) (gsub gmk g).
Proof.
  intros H Hm. unfold sub, gsub. eapply rg_bind; [exact Hm|]. intros c d Hc. constructor. destruct Hc. constructor; try assumption.
  cbn. rewrite s_fin0, (s_fin _ _ _ H). reflexivity.
Qed.
Lemma s_sub_open o n m b g : m = n + header_of (opened o) -> sim m b g -> rg (sim n) (sub (open E o) b) (gsub (gopen I E o) g).
Proof. intros -> H. eapply s_sub; [exact H|]. apply s_open. exact (s_buf _ _ _ H). Qed.
Lemma s_v4_prepare n b g : sim n b g -> sim n (v4_prepare E b) (gv4_prepare I E g).
Proof. intros H. unfold v4_prepare, gv4_prepare. destruct (s_bounds _ _ _ (s_buf _ _ _ H)) as (-> & -> & _). apply sim_add. exact H. Qed.
Lemma s_v4_sub o proto n b g : sim (n + header_of (opened o)) b g ->
  rg (sim n) (v4_sub E proto (open E o) b) (gv4_sub I E proto (gopen I E o) g).
Proof.
  intros H. unfold v4_sub, gv4_sub. rewrite (s_payload _ _ _ H). destruct (gb_payload g); [constructor|].
  eapply rg_bind; [apply s_edit; [exact (kl_v4 (V4SetProtocol proto))|exact H]|]. intros c d Hc.
  eapply s_sub_open; [reflexivity|]. apply s_v4_prepare. exact Hc.
Qed.
Lemma sim_kind n b g : sim n b g -> sim n (with_kind b) (gwith_kind g).
Proof. intros []. constructor; try assumption. reflexivity. Qed.
Lemma s_call1 c n b g : in_place c -> sim (n + adds c) b g -> rg (sim n) (call1 E c b) (gcall1 I E c g).
Proof.
  intros P H. destruct c; cbn [call1 gcall1].
  - destruct o; cbn [adds ether_run1 gether_run1] in *; rewrite ?N.add_0_r in H; first [apply s_payload_add; exact H|apply s_edit; [|exact H]]; first [apply kl_copy|apply kl_cursor].
  - cbn [adds] in H. unfold ether_ip, gether_ip. rewrite (s_payload _ _ _ H). destruct (gb_payload g); [constructor|].
    destruct (s_bounds _ _ _ (s_buf _ _ _ H)) as (-> & -> & _). cbv zeta. eapply (s_sub_open OpIp); [reflexivity|]. apply sim_add. exact H.
  - exact (s_sub_open OpV4 n _ b g eq_refl H).
  - exact (s_sub_open OpV6 n _ b g eq_refl H).
  - destruct o; cbn [adds v4_run1 gv4_run1] in *; rewrite ?N.add_0_r in H; [apply s_edit; [apply kl_v4|exact H]|apply s_payload_add; exact H].
  - exact (s_v4_sub OpUdp IP_Udp n b g H).
  - exact (s_v4_sub OpTcp IP_Tcp n b g H).
  - exact (s_v4_sub OpIcmp IP_Icmp n b g H).
  - destruct o; cbn [adds udp_run1 gudp_run1] in *; rewrite ?N.add_0_r in H; [apply s_edit; [apply kl_udp|exact H]|apply s_payload_add; exact H].
  - destruct o; cbn [adds tcp_run1 gtcp_run1] in *; rewrite ?N.add_0_r in H; [apply s_edit; [apply kl_tcp|exact H]|apply s_payload_add; exact H].
  - exact (s_sub_open OpEcho n _ b g eq_refl H).
  - exact (s_sub_open OpInformation n _ b g eq_refl H).
  - exact (s_sub_open OpTimestamp n _ b g eq_refl H).
  - destruct o; cbn [adds echo_run1 gecho_run1] in *; rewrite ?N.add_0_r in H; try (apply s_payload_add; exact H);
      (apply s_edit; [first [apply kl_set_index|apply kl_cursor]|first [exact H|apply sim_kind, H]]).
  - cbn [adds] in H. rewrite N.add_0_r in H. destruct o; cbn [information_run1 ginformation_run1]; (apply s_edit; [first [apply kl_set_index|apply kl_cursor]|first [exact H|apply sim_kind, H]]).
  - cbn [adds] in H. rewrite N.add_0_r in H. destruct o; cbn [timestamp_run1 gtimestamp_run1]; (apply s_edit; [first [apply kl_set_index|apply kl_cursor]|first [exact H|apply sim_kind, H]]).
  - cbn [adds] in H. rewrite N.add_0_r in H. constructor. apply sim_add. exact H.
  - cbn [adds in_place] in *. rewrite N.add_0_r in H. unfold builder_as_packet_mut, gbuilder_as_packet_mut.
    destruct (s_data_mut n (mlet parse (fun _ => f)) _ _ (kl_mlet _ _ (fun _ => P)) (s_buf _ _ _ H)) as [H1 H2].
    destruct (buf_data_mut E (mlet parse (fun _ => f)) (b_buffer b)) as [x r], (im_data_mut I E (mlet parse (fun _ => f)) (gb_buffer g)) as [y r'].
    cbn [fst snd] in *. subst r'. destruct r as [[]|e|]; constructor. eapply sim_with_buffer; eassumption.
Qed.
Lemma s_run cs : forall n b g, Forall in_place cs -> sim (n + fold_right N.add 0 (map adds cs)) b g -> rg (sim n) (run (call1 E) cs b) (grun (gcall1 I E) cs g).
Proof.
  induction cs as [|c cs IH]; intros n b g P H; cbn [run grun map fold_right] in *.
  - rewrite N.add_0_r in H. constructor. exact H.
  - inversion P as [|? ? Pc Ps]; subst. rewrite (N.add_comm (adds c)), N.add_assoc in H.
    eapply rg_bind; [eapply s_call1; eassumption|]. intros d d' Hd. eapply IH; eassumption.
Qed.
Lemma s_close cl n b g : sim n b g -> close E cl b = gclose I E cl g.
Proof.
  intros H. destruct (s_bounds _ _ _ (s_buf _ _ _ H)) as (Ho & Hl & _).
  assert (Hi : icmp_kind_build E b = gicmp_kind_build I E g).
  { unfold icmp_kind_build, gicmp_kind_build. rewrite (s_kind _ _ _ H). destruct (negb (gb_kind g)); [reflexivity|]. apply (s_finish n).
    unfold icmp_prepare, gicmp_prepare. rewrite Ho, Hl. apply sim_add. exact H. }
  destruct cl; cbn [close gclose]; try reflexivity; try exact Hi.
  - exact (s_finish n _ _ H).
  - apply (s_finish n), s_v4_prepare, H.
  - apply (s_finish n). unfold udp_prepare, gudp_prepare. rewrite Hl, (s_ip _ _ _ H). apply sim_add. exact H.
  - apply (s_finish n). unfold tcp_prepare, gtcp_prepare. rewrite Hl, (s_ip _ _ _ H), (s_pl _ _ _ H). apply sim_add. exact H.
Qed.
Lemma s_as_packet n parse b g : sim n b g -> builder_as_packet E parse b = gbuilder_as_packet I E parse g.
Proof. intros H. unfold builder_as_packet, gbuilder_as_packet. destruct (s_bounds _ _ _ (s_buf _ _ _ H)) as (_ & _ & -> & _). reflexivity. Qed.
Lemma s_program {A} (k : builder -> res A) (gk : gbuilder -> res A) o cs before layer t :
  (forall b g, sim 0 b g -> k b = gk g) -> Forall in_place cs -> holds t before layer -> len before + len layer + added o cs <= tot ->
  rg eq (let* b := open E o (Dynamic (before ++ layer) (len before) (len layer)) in let* b := run (call1 E) cs b in k b)
        (let* g := gopen I E o t in let* g := grun (gcall1 I E) cs g in gk g).
Proof.
  intros Hk P H0 H1. eapply rg_bind.
  - apply (s_open o (fold_right N.add 0 (map adds cs))). constructor; [exact H0|]. unfold added in H1. lia.
  - intros b g Hb. eapply rg_bind; [apply (s_run cs 0); [exact P|exact Hb]|]. intros b' g' Hb'. rewrite (Hk _ _ Hb').
    destruct (gk g'); constructor. reflexivity.
Qed.
End Sim.

(** C63: with any implementation of the trait that keeps its contract, every builder
    program ends the way it does with the crate's growable buffer holding the same
    bytes, or with an error of the implementation, for lack of room. *)
Lemma c63_any_buffer : forall T (I : impl T) E cap refused holds, lawful I E cap refused holds ->
  forall o cs cl t before layer, holds t before layer -> Forall in_place cs -> len before + len layer + added o cs <= ISIZE_MAX ->
  gprogram I E o cs cl t = program E o cs cl (Dynamic (before ++ layer) (len before) (len layer)) \/
  exists e, gprogram I E o cs cl t = Err e /\ refused e /\ cap < len before + len layer + added o cs.
Proof.
  intros T I E cap refused holds L o cs cl t before layer H P Hr.
  pose proof (s_program I E cap refused holds L _ Hr _ _ o cs before layer t (fun b g => s_close I E cap refused holds L _ Hr cl 0 b g) P H (N.le_refl _)) as R.
  unfold program, gprogram. inversion R as [E1 E2|e E1 E2|r e He Hc E1 E2|x y Hxy E1 E2]; subst; auto. right. exists e. auto.
Qed.
(** C63: the same for what as_packet shows. *)
Lemma c63_any_preview : forall T (I : impl T) E cap refused holds, lawful I E cap refused holds ->
  forall o cs parse t before layer, holds t before layer -> Forall in_place cs -> len before + len layer + added o cs <= ISIZE_MAX ->
  gpreview I E o cs parse t = preview E o cs parse (Dynamic (before ++ layer) (len before) (len layer)) \/
  exists e, gpreview I E o cs parse t = Err e /\ refused e /\ cap < len before + len layer + added o cs.
Proof.
  intros T I E cap refused holds L o cs parse t before layer H P Hr.
  pose proof (s_program I E cap refused holds L _ Hr _ _ o cs before layer t (fun b g => s_as_packet I E cap refused holds L _ Hr 0 parse b g) P H (N.le_refl _)) as R.
  unfold preview, gpreview. inversion R as [E1 E2|e E1 E2|r e He Hc E1 E2|x y Hxy E1 E2]; subst; auto. right. exists e. auto.
Qed.
(** C63: when everything fits, no alternative is left. *)
Lemma c63_room : forall T (I : impl T) E cap refused holds, lawful I E cap refused holds ->
  forall o cs cl t before layer, holds t before layer -> Forall in_place cs ->
  len before + len layer + added o cs <= cap -> len before + len layer + added o cs <= ISIZE_MAX ->
  gprogram I E o cs cl t = program E o cs cl (Dynamic (before ++ layer) (len before) (len layer)).
Proof.
  intros T I E cap refused holds L o cs cl t before layer H P Hc Hr.
  destruct (c63_any_buffer T I E cap refused holds L o cs cl t before layer H P Hr) as [K|(e & _ & _ & K)]; [exact K|lia].
Qed.
(** C63: two implementations, however different inside, build the same packets. *)
Lemma c63_same_packets : forall T (I : impl T) T' (I' : impl T') E cap refused holds cap' refused' holds',
  lawful I E cap refused holds -> lawful I' E cap' refused' holds' ->
  forall o cs cl t t' before layer out out', holds t before layer -> holds' t' before layer -> Forall in_place cs -> len before + len layer + added o cs <= ISIZE_MAX ->
  gprogram I E o cs cl t = Ok out -> gprogram I' E o cs cl t' = Ok out' -> out = out'.
Proof.
  intros T I T' I' E cap refused holds cap' refused' holds' L L' o cs cl t t' before layer out out' H H' P Hr R R'.
  destruct (c63_any_buffer T I E cap refused holds L o cs cl t before layer H P Hr) as [K|(e & K & _)]; [|congruence].
  destruct (c63_any_buffer T' I' E cap' refused' holds' L' o cs cl t' before layer H' P Hr) as [K'|(e & K' & _)]; congruence.
Qed.

(** ** The crate's own buffers *)
Definition gof (b : builder) : gbuilder (T:=buffer) :=
  {| gb_buffer := b_buffer b; gb_fin := b_fin b; gb_ip := b_ip b; gb_kind := b_kind b; gb_payload := b_payload b; gb_payload_length := b_payload_length b |}.
Definition gmap (r : res builder) : res (gbuilder (T:=buffer)) := let* b := r in Ok (gof b).
Lemma gmap_bind r r' f f' : r' = gmap r -> (forall b, f' (gof b) = gmap (f b)) -> (let* b := r' in f' b) = gmap (let* b := r in f b).
Proof. intros -> H. destruct r; cbn; auto. Qed.
Lemma gbuf_bind (x : buffer * res unit) f f' : (forall b, f' b = gmap (f b)) -> (let* b := gtry_buf x in f' b) = gmap (let* b := try_buf x in f b).
Proof. intros H. destruct x as [b [[]|e|]]; cbn; auto. Qed.
Notation CI := crate_impl.
Lemma i_edit E f b : gedit CI E f (gof b) = gmap (edit E f b).
Proof. unfold gedit, edit. apply gbuf_bind. reflexivity. Qed.
Lemma i_loop E count p : forall b, gpayload_loop CI E count p (gof b) = gmap (payload_loop E count p b).
Proof.
  induction p as [|x p IH]; intros b; cbn [payload_loop gpayload_loop]; [reflexivity|]. apply gbuf_bind. intros u. cbv zeta.
  apply gmap_bind.
  - destruct count; [|reflexivity]. cbn [gb_payload_length gwith_buffer gof b_payload_length with_buffer]. destruct (usize_add E (b_payload_length b) 1); reflexivity.
  - intros c. apply gmap_bind; [apply i_edit|]. apply IH.
Qed.
Lemma i_payload E e count p b : gadd_payload CI E e count p (gof b) = gmap (add_payload E e count p b).
Proof. unfold gadd_payload, add_payload. cbn [gb_payload gof]. destruct (b_payload b); [reflexivity|]. apply (i_loop E count p (with_payload b)). Qed.
Lemma i_finish b : gfinish CI (gof b) = finish b.
Proof. reflexivity. Qed.
Lemma i_open E o buf : gopen CI E o buf = gmap (open E o buf).
Proof. destruct o; cbn [gopen open]; try reflexivity; repeat (apply gbuf_bind; intros); reflexivity. Qed.
Lemma i_sub mk gmk b : gmk (b_buffer b) = gmap (mk (b_buffer b)) -> gsub gmk (gof b) = gmap (sub mk b).
Proof. intros H. unfold gsub, sub. apply gmap_bind; [exact H|]. reflexivity. Qed.
Lemma i_v4_sub E proto mk gmk b : (forall x, gmk x = gmap (mk x)) -> gv4_sub CI E proto gmk (gof b) = gmap (v4_sub E proto mk b).
Proof.
  intros H. unfold gv4_sub, v4_sub. cbn [gb_payload gof]. destruct (b_payload b); [reflexivity|]. apply gmap_bind; [apply i_edit|].
  intros c. apply (i_sub mk gmk (v4_prepare E c)). apply H.
Qed.
Lemma i_call1 E c b : gcall1 CI E c (gof b) = gmap (call1 E c b).
Proof.
  destruct c; cbn [gcall1 call1].
  - destruct o; cbn [gether_run1 ether_run1]; first [apply i_payload|apply i_edit].
  - unfold gether_ip, ether_ip. cbn [gb_payload gof]. destruct (b_payload b); reflexivity.
  - apply i_sub, (i_open E OpV4).
  - reflexivity.
  - destruct o; cbn [gv4_run1 v4_run1]; first [apply i_payload|apply i_edit].
  - apply i_v4_sub, (i_open E OpUdp).
  - apply i_v4_sub, (i_open E OpTcp).
  - apply i_v4_sub. reflexivity.
  - destruct o; cbn [gudp_run1 udp_run1]; first [apply i_payload|apply i_edit].
  - destruct o; cbn [gtcp_run1 tcp_run1]; first [apply i_payload|apply i_edit].
  - apply i_sub, (i_open E OpEcho).
  - apply i_sub, (i_open E OpInformation).
  - apply i_sub, (i_open E OpTimestamp).
  - destruct o; cbn [gecho_run1 echo_run1]; first [apply i_payload|exact (i_edit E _ (with_kind b))|apply i_edit].
  - destruct o; cbn [ginformation_run1 information_run1]; first [exact (i_edit E _ (with_kind b))|apply i_edit].
  - destruct o; cbn [gtimestamp_run1 timestamp_run1]; first [exact (i_edit E _ (with_kind b))|apply i_edit].
  - reflexivity.
  - unfold gbuilder_as_packet_mut, builder_as_packet_mut. cbn [im_data_mut CI gb_buffer gof]. destruct (buf_data_mut E (mlet parse (fun _ => f)) (b_buffer b)) as [x [[]|e|]]; reflexivity.
Qed.
Lemma i_run E cs : forall b, grun (gcall1 CI E) cs (gof b) = gmap (run (call1 E) cs b).
Proof. induction cs as [|c cs IH]; intros b; cbn [grun run]; [reflexivity|]. apply gmap_bind; [apply i_call1|exact IH]. Qed.
Lemma i_close E cl b : gclose CI E cl (gof b) = close E cl b.
Proof. destruct cl; reflexivity. Qed.
(** C63: the builders of the crate are the generic ones at the crate's buffers:
    every program on every buffer, in range or not. *)
Lemma c63_instance : forall E o cs cl buf, gprogram crate_impl E o cs cl buf = program E o cs cl buf.
Proof.
  intros E o cs cl buf. unfold gprogram, program. rewrite i_open. destruct (open E o buf) as [b|e|]; cbn [gmap bind]; [|reflexivity|reflexivity].
  rewrite i_run. destruct (run (call1 E) cs b) as [c|e|]; cbn [gmap bind]; [|reflexivity|reflexivity]. apply i_close.
Qed.
(** C63: the same for what as_packet shows. *)
Lemma c63_instance_preview : forall E o cs parse buf, gpreview crate_impl E o cs parse buf = preview E o cs parse buf.
Proof.
  intros E o cs parse buf. unfold gpreview, preview. rewrite i_open. destruct (open E o buf) as [b|e|]; cbn [gmap bind]; [|reflexivity|reflexivity].
  rewrite i_run. destruct (run (call1 E) cs b) as [c|e|]; reflexivity.
Qed.
(** C63: Dynamic keeps the contract and never refuses. *)
Lemma c63_dynamic_lawful : forall E cap, lawful crate_impl E cap (fun _ => False)
  (fun t before layer => t = Dynamic (before ++ layer) (len before) (len layer) /\ len before + len layer <= ISIZE_MAX).
Proof.
  intros E cap. pose proof imax. constructor.
  - intros t before layer [-> _]. reflexivity.
  - intros t before layer [-> _]. reflexivity.
  - intros t before layer [-> _]. reflexivity.
  - intros t before layer [-> H0]. cbn [im_data crate_impl buf_data]. rewrite usize_add_ok by lia. cbn [bind]. rewrite slice_ok by (rewrite ?len_app; lia).
    rewrite dropN_app_len. replace (len before + len layer - len before) with (len layer) by lia. rewrite takeN_all by lia. reflexivity.
  - intros t before layer f [-> H0] Hf. cbn [im_data_mut crate_impl]. rewrite dyn_data_mut by assumption. eexists. split; [reflexivity|].
    rewrite (Hf layer). split; [reflexivity|lia].
  - intros t before layer n [-> H0] Hn. left. cbn [im_next crate_impl buf_next]. rewrite usize_add_ok by lia. rewrite len_app, usize_add_ok by lia. rewrite <- len_app, dyn_vec by lia.
    eexists. split; [reflexivity|]. rewrite len_app, len_zeros. split; [|lia]. rewrite app_assoc. reflexivity.
  - intros t before layer n [-> H0] Hn. left. cbn [im_more crate_impl buf_more]. rewrite len_app, usize_add_ok by lia. rewrite <- len_app, dyn_vec by lia. rewrite usize_add_ok by lia.
    eexists. split; [reflexivity|]. rewrite len_app, len_zeros. split; [reflexivity|lia].
Qed.
(** C63: Slice does not: after next and more the current layer is not where the
    contract has it, whatever one takes [holds] to mean. *)
Lemma c63_slice_refuted : forall E cap refused (holds : buffer -> bytes -> bytes -> Prop) mem, 2 <= len mem -> 2 <= cap -> len mem <= ISIZE_MAX -> holds (slice_new mem) [] [] -> ~ lawful crate_impl E cap refused holds.
Proof.
  intros E cap refused holds mem Hm Hc Hi H0 L. pose proof imax.
  destruct (law_next _ _ _ _ _ L _ _ _ 1 H0 ltac:(change (len []) with 0; lia)) as [(t1 & E1 & H1)|(t1 & e & _ & _ & K)]; [|change (len []) with 0 in K; lia].
  cbn [app] in H1.
  destruct (law_more _ _ _ _ _ L _ _ _ 1 H1 ltac:(rewrite len_zeros; change (len []) with 0; lia)) as [(t2 & E2 & H2)|(t2 & e & _ & _ & K)]; [|rewrite len_zeros in K; change (len []) with 0 in K; lia].
  pose proof (law_offset _ _ _ _ _ L _ _ _ H2) as O. change (len []) with 0 in O.
  unfold slice_new in E1. cbn [im_next crate_impl buf_next] in E1. rewrite usize_add_ok in E1 by lia. replace (len mem <? 0 + 1) with false in E1 by lia.
  cbn [buf_data_mut] in E1. rewrite usize_add_ok in E1 by lia. destruct (range_mut 0 (0 + 1) zero_all mem) as [m1 r1] eqn:R1. injection E1 as <- ->.
  pose proof (kl_range 0 (0 + 1) zero_all kl_zero_all mem) as L1. rewrite R1 in L1. cbn [fst] in L1.
  cbn [im_more crate_impl buf_more] in E2. change (0 + 1) with 1 in E2. rewrite usize_add_ok in E2 by lia. replace (len m1 <? 1 + 1) with false in E2 by lia.
  rewrite usize_sub_ok in E2 by lia. cbn [buf_data_mut] in E2. rewrite usize_add_ok in E2 by lia.
  destruct (range_mut 1 (1 + (1 + 1)) (zero_from (1 + 1 - 1)) m1) as [m2 r2]. injection E2 as <- ->. cbn [im_offset crate_impl buf_offset] in O. discriminate O.
Qed.
(** Beside them: a third-party buffer that keeps the contract, and what is built on it. *)
Example c63_bounded_lawful : forall E limit, lawful bounded_impl E limit (fun e => e = SmallBuffer) (bounded_holds limit).
Proof.
  intros E limit. constructor; unfold bounded_holds.
  - intros t before layer ->. reflexivity.
  - intros t before layer ->. reflexivity.
  - intros t before layer ->. reflexivity.
  - intros t before layer ->. reflexivity.
  - intros t before layer f -> Hf. cbn [im_data_mut bounded_impl bd_layer bd_before bd_limit]. destruct (f layer) as [l r]. eexists. split; reflexivity.
  - intros t before layer n -> Hn. cbn [im_next bounded_impl bd_layer bd_before bd_limit]. destruct (limit <? len before + len layer + n) eqn:K.
    + right. do 2 eexists. repeat split. lia.
    + left. eexists. split; reflexivity.
  - intros t before layer n -> Hn. cbn [im_more bounded_impl bd_layer bd_before bd_limit]. destruct (limit <? len before + len layer + n) eqn:K.
    + right. do 2 eexists. repeat split. lia.
    + left. eexists. split; reflexivity.
Qed.
Example c63_example : Forall in_place calls_example /\ forall E,
  gprogram bounded_impl E OpEther calls_example ClUdp (Bounded [] held_example 47) = program E OpEther calls_example ClUdp (Dynamic held_example 0 3) /\
  gprogram bounded_impl E OpEther calls_example ClUdp (Bounded [] held_example 46) = Err SmallBuffer /\
  exists out, program E OpEther calls_example ClUdp (Dynamic held_example 0 3) = Ok out /\ len out = 47.
Proof.
  split; [repeat constructor|]. intros E.
  assert (K : exists out, program E OpEther calls_example ClUdp (Dynamic held_example 0 3) = Ok out /\ len out = 47).
  { exists (match program E OpEther calls_example ClUdp (Dynamic held_example 0 3) with Ok o => o | _ => [] end). destruct E as [[] [] []]; split; vm_compute; reflexivity. }
  repeat apply conj; [destruct E as [[] [] []]; vm_compute; reflexivity|destruct E as [[] [] []]; vm_compute; reflexivity|exact K].
Qed.
