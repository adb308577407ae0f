(** * ProgramHookProofs: user finalizers in any builder program (C51). *)
From Coq Require Import ZifyBool ZifyNat ZifyN.
From Verif Require Import Base Enums Buffer Ether Ipv4 Ip Udp Tcp Icmp Builders Spec SpecProfile SpecHooks Lemmas ChecksumProofs.
Ltac Zify.zify_post_hook ::= Z.div_mod_to_equations.
Open Scope N_scope.

(** [all] is [own] with the user's functions of [m] put in. *)
Inductive woven : list (option finalizer) -> list finalizer -> list finalizer -> Prop :=
| WNil : woven [] [] []
| WUser m own all f : woven m own all -> woven (m ++ [Some f]) own (all ++ [f])
| WOwn m own all f : woven m own all -> woven (m ++ [None]) (own ++ [f]) (all ++ [f]).
(** The builder with and without the user's functions. *)
Inductive hk (m : list (option finalizer)) : builder -> builder -> Prop :=
| Hk b own all : woven m own all -> hk m (with_fin b own) (with_fin b all).
Inductive rh (m : list (option finalizer)) : res builder -> res builder -> Prop :=
| RhPanic : rh m Panic Panic
| RhErr e : rh m (Err e) (Err e)
| RhOk b c : hk m b c -> rh m (Ok b) (Ok c).
Lemma rh_bind m m' x y f g : rh m x y -> (forall b c, hk m b c -> rh m' (f b) (g c)) -> rh m' (let* b := x in f b) (let* c := y in g c).
Proof. intros X H. destruct X; cbn [bind]; try constructor. apply H. assumption. Qed.
Lemma hk_fields m b c : hk m b c -> b_buffer b = b_buffer c /\ b_ip b = b_ip c /\ b_kind b = b_kind c /\ b_payload b = b_payload c /\ b_payload_length b = b_payload_length c.
Proof. intros []. repeat split. Qed.
Lemma hk_map m (g : builder -> builder) b c : (forall b fs, g (with_fin b fs) = with_fin (g b) fs) -> hk m b c -> hk m (g b) (g c).
Proof. intros Hg []. rewrite !Hg. constructor. assumption. Qed.
Lemma h_edit m E f b c : hk m b c -> rh m (edit E f b) (edit E f c).
Proof.
  intros []. unfold edit. cbn [b_buffer with_fin]. destruct (buf_data_mut E f (b_buffer b0)) as [x [[]|e|]]; cbn [try_buf bind]; constructor.
  apply (Hk m (with_buffer b0 x)). assumption.
Qed.
Lemma h_loop m E count p : forall b c, hk m b c -> rh m (payload_loop E count p b) (payload_loop E count p c).
Proof.
  induction p as [|x p IH]; intros b c H; cbn [payload_loop]; [constructor; exact H|].
  destruct (hk_fields _ _ _ H) as (-> & _). destruct (try_buf (buf_more E 1 (b_buffer c))) as [u|e|]; cbn [bind]; [|constructor|constructor].
  cbv zeta. assert (H1 : hk m (with_buffer b u) (with_buffer c u)) by (apply (hk_map m (fun b => with_buffer b u)); [reflexivity|exact H]).
  apply (rh_bind m).
  - destruct count; [|constructor; exact H1]. destruct (hk_fields _ _ _ H1) as (_ & _ & _ & _ & ->).
    destruct (usize_add E (b_payload_length (with_buffer c u)) 1) as [n|e|]; cbn [bind]; constructor. apply (hk_map m (fun b => with_payload_length b n)); [reflexivity|exact H1].
  - intros b' c' H'. apply (rh_bind m); [apply h_edit; exact H'|]. exact IH.
Qed.
Lemma h_payload m E e count p b c : hk m b c -> rh m (add_payload E e count p b) (add_payload E e count p c).
Proof.
  intros H. unfold add_payload. destruct (hk_fields _ _ _ H) as (_ & _ & _ & -> & _). destruct (b_payload c); [constructor|]. apply h_loop.
  apply (hk_map m with_payload); [reflexivity|exact H].
Qed.
Definition bare (mk : buffer -> res builder) : Prop := forall buf b, mk buf = Ok b -> b_fin b = [].
Lemma h_sub m mk b c : bare mk -> hk m b c -> rh m (sub mk b) (sub mk c).
Proof.
  intros B H. unfold sub. destruct (hk_fields _ _ _ H) as (-> & _). destruct (mk (b_buffer c)) as [d|e|] eqn:Q; cbn [bind]; try constructor.
  rewrite (B _ _ Q). destruct H. cbn [b_fin with_fin]. unfold fin_extend. cbn [app]. constructor. assumption.
Qed.
Lemma bare_open E o : bare (open E o).
Proof.
  intros buf b. destruct o; cbn [open]; unfold ether_with, ip_with, v4_with, udp_with, tcp_with, icmp_with, echo_with, information_with, timestamp_with; cbv zeta; intros H;
    repeat match type of H with (let* _ := try_buf ?x in _) = _ => let u := fresh in destruct x as [u [[]|?|]]; cbn [try_buf bind] in H; try discriminate H end;
    apply Ok_inj in H; subst b; reflexivity.
Qed.
Lemma h_add_own m f b c : hk m b c -> hk (m ++ [None]) (with_fin b (fin_add (b_fin b) f)) (with_fin c (fin_add (b_fin c) f)).
Proof. intros [b0 own all W]. cbn [b_fin with_fin]. unfold fin_add. apply (Hk _ b0). constructor. exact W. Qed.
Lemma h_add_user m f b c : hk m b c -> hk (m ++ [Some f]) b (with_fin c (fin_add (b_fin c) f)).
Proof. intros [b0 own all W]. cbn [b_fin with_fin]. unfold fin_add. apply (Hk _ b0). constructor. exact W. Qed.
Lemma h_prepare m E b c : hk m b c -> hk (m ++ [None]) (v4_prepare E b) (v4_prepare E c).
Proof. intros H. unfold v4_prepare. destruct (hk_fields _ _ _ H) as (-> & _). apply h_add_own. exact H. Qed.
Lemma h_v4_sub m E proto mk b c : bare mk -> hk m b c -> rh (m ++ [None]) (v4_sub E proto mk b) (v4_sub E proto mk c).
Proof.
  intros B H. unfold v4_sub. destruct (hk_fields _ _ _ H) as (_ & _ & _ & -> & _). destruct (b_payload c); [constructor|].
  apply (rh_bind m); [apply h_edit; exact H|]. intros b' c' H'. apply h_sub; [exact B|]. apply h_prepare. exact H'.
Qed.
Lemma h_call1 m E x b c : (forall f, x <> CallFinalizer f) -> hk m b c -> rh (m ++ step x) (call1 E x b) (call1 E x c).
Proof.
  intros N H. assert (K : hk m (with_kind b) (with_kind c)) by (apply (hk_map m with_kind); [reflexivity|exact H]).
  destruct x; cbn [call1 step]; rewrite ?app_nil_r.
  - destruct o; cbn [ether_run1]; first [apply h_payload|apply h_edit]; exact H.
  - unfold ether_ip. destruct (hk_fields _ _ _ H) as (-> & _ & _ & -> & _). destruct (b_payload c); [constructor|].
    apply h_sub; [exact (bare_open E OpIp)|]. apply h_add_own. exact H.
  - apply h_sub; [exact (bare_open E OpV4)|exact H].
  - apply h_sub; [exact (bare_open E OpV6)|exact H].
  - destruct o; cbn [v4_run1]; first [apply h_payload|apply h_edit]; exact H.
  - apply h_v4_sub; [exact (bare_open E OpUdp)|exact H].
  - apply h_v4_sub; [exact (bare_open E OpTcp)|exact H].
  - apply h_v4_sub; [exact (bare_open E OpIcmp)|exact H].
  - destruct o; cbn [udp_run1]; first [apply h_payload|apply h_edit]; exact H.
  - destruct o; cbn [tcp_run1]; first [apply h_payload|apply h_edit]; exact H.
  - apply h_sub; [exact (bare_open E OpEcho)|exact H].
  - apply h_sub; [exact (bare_open E OpInformation)|exact H].
  - apply h_sub; [exact (bare_open E OpTimestamp)|exact H].
  - destruct o; cbn [echo_run1]; first [apply h_payload; exact H|apply h_edit; first [exact H|exact K]].
  - destruct o; cbn [information_run1]; apply h_edit; first [exact H|exact K].
  - destruct o; cbn [timestamp_run1]; apply h_edit; first [exact H|exact K].
  - destruct (N f eq_refl).
  - unfold builder_as_packet_mut. destruct (hk_fields _ _ _ H) as (-> & _).
    destruct (buf_data_mut E (mlet parse (fun _ => f)) (b_buffer c)) as [u [[]|e|]]; constructor. apply (hk_map m (fun b => with_buffer b u)); [reflexivity|exact H].
Qed.
Lemma h_run E cs : forall m b c, hk m b c -> rh (m ++ flat_map step cs) (run (call1 E) (erase cs) b) (run (call1 E) cs c).
Proof.
  induction cs as [|x cs IH]; intros m b c H; cbn [flat_map]; [rewrite app_nil_r; constructor; exact H|].
  destruct (match x with CallFinalizer _ => false | _ => true end) eqn:X.
  - unfold erase. cbn [filter]. rewrite X. fold (erase cs). cbn [run]. rewrite app_assoc. apply (rh_bind (m ++ step x)); [|apply IH].
    apply h_call1; [intros f ->; discriminate X|exact H].
  - destruct x; try discriminate X. unfold erase. cbn [filter]. fold (erase cs). cbn [run call1 bind]. rewrite app_assoc. apply IH. cbn [step]. apply h_add_user. exact H.
Qed.
Definition built_by (b : builder) (fs : list finalizer) : res bytes :=
  let* inner := buf_into_inner (b_buffer b) in match fin_run (rev fs) inner with (out, Ok _) => Ok out | (_, Err e) => Err e | (_, Panic) => Panic end.
Lemma execute_own todo m own all : woven m own all -> todo = rev m -> forall b,
  match fin_run (rev all) b with (out, Ok _) => Ok out | (_, Err e) => Err e | (_, Panic) => Panic end = execute todo (rev own) b.
Proof.
  intros W. revert todo. induction W as [|m own all f W IH|m own all f W IH]; intros todo -> b.
  - reflexivity.
  - rewrite !rev_app_distr. cbn [rev app fin_run execute]. destruct (f b) as [b' [[]|e|]]; try reflexivity. apply IH. reflexivity.
  - rewrite !rev_app_distr. cbn [rev app fin_run execute]. destruct (f b) as [b' [[]|e|]]; try reflexivity. apply IH. reflexivity.
Qed.
(** What build() finishes: the bytes laid out and the crate's own steps, or why there are none. *)
Definition laid_out (E : env) (o : opening) (cs : list call) (cl : closing) (buf : buffer) : res (bytes * list finalizer) :=
  let* b := open E o buf in let* b := run (call1 E) cs b in
  let finish (b : builder) := let* inner := buf_into_inner (b_buffer b) in Ok (inner, rev (b_fin b)) in
  let kinded (b : builder) := if negb (b_kind b) then Err InvalidPacket else finish (icmp_prepare E b) in
  match cl with
  | ClEther => finish b
  | ClIp | ClV6 | ClIcmp => Err InvalidPacket
  | ClV4 => finish (v4_prepare E b)
  | ClUdp => finish (udp_prepare E b)
  | ClTcp => finish (tcp_prepare E b)
  | ClEcho | ClInformation | ClTimestamp => kinded b
  end.
Lemma finish_hk m b c : hk m b c -> finish c = (let* x := (let* inner := buf_into_inner (b_buffer b) in Ok (inner, rev (b_fin b))) in execute (rev m) (snd x) (fst x)).
Proof.
  intros [b0 own all W]. unfold finish. cbn [b_buffer b_fin with_fin]. destruct (buf_into_inner (b_buffer b0)) as [i|e|]; cbn [bind fst snd]; try reflexivity.
  unfold fin_finalize. apply (execute_own _ m own all W eq_refl).
Qed.
(** C51: in every builder program - any builders, calls in any order, used well or
    not, any buffer -, the bytes are laid out and the crate's own finishing steps
    prepared as if there were no functions of the user; then the steps are executed
    in the opposite order of the calls that asked for them, the user's among them,
    each once, on the bytes the one before left, until one fails. *)
Lemma c51_any_program : forall E o plain cl buf, exists laid : res (bytes * list finalizer), forall cs, erase cs = plain ->
  program E o cs cl buf = (let* x := laid in execute (rev (steps cs cl)) (snd x) (fst x)).
Proof.
  intros E o plain cl buf. exists (laid_out E o plain cl buf). intros cs <-. unfold program, laid_out.
  destruct (open E o buf) as [b0|e|] eqn:Q; cbn [bind]; try reflexivity.
  assert (H0 : hk [] b0 b0).
  { pose proof (bare_open E o _ _ Q) as F. replace b0 with (with_fin b0 []) by (destruct b0; cbn in F; subst; reflexivity). constructor. constructor. }
  pose proof (h_run E cs _ _ _ H0) as R. cbn [app] in R. destruct R as [|e|b c H]; cbn [bind]; try reflexivity. cbv zeta.
  assert (I : (if negb (b_kind c) then Err InvalidPacket else finish (icmp_prepare E c)) =
              (let* x := (if negb (b_kind b) then Err InvalidPacket else let* inner := buf_into_inner (b_buffer (icmp_prepare E b)) in Ok (inner, rev (b_fin (icmp_prepare E b)))) in
               execute (rev (flat_map step cs ++ [None])) (snd x) (fst x))).
  { destruct (hk_fields _ _ _ H) as (Hb & _ & Hk & _). rewrite Hk. destruct (negb (b_kind c)); [reflexivity|]. apply finish_hk. unfold icmp_prepare. rewrite Hb. apply h_add_own. exact H. }
  unfold steps. destruct cl; cbn [close last_step]; rewrite ?app_nil_r; try reflexivity; try exact I.
  - apply finish_hk. exact H.
  - apply finish_hk. apply h_prepare. exact H.
  - apply finish_hk. unfold udp_prepare. destruct (hk_fields _ _ _ H) as (-> & -> & _). apply h_add_own. exact H.
  - apply finish_hk. unfold tcp_prepare. destruct (hk_fields _ _ _ H) as (-> & -> & _ & _ & ->). apply h_add_own. exact H.
Qed.
(** C51: so a program whose functions change nothing builds what it builds without them. *)
Lemma c51_idle_functions : forall E o cs cl buf, Forall (fun c => match c with CallFinalizer f => forall b, f b = (b, Ok tt) | _ => True end) cs ->
  program E o cs cl buf = program E o (erase cs) cl buf.
Proof.
  intros E o cs cl buf H. destruct (c51_any_program E o (erase cs) cl buf) as [laid L].
  assert (EE : erase (erase cs) = erase cs).
  { unfold erase. clear. induction cs as [|c cs IH]; [reflexivity|]. destruct c; cbn [filter]; rewrite ?IH; reflexivity. }
  rewrite (L cs eq_refl), (L (erase cs) EE). destruct laid as [[inner own]|e|]; cbn [bind fst snd]; try reflexivity.
  unfold steps. rewrite !rev_app_distr.
  assert (G : forall m m' own b, Forall (fun x => match x with Some f => forall b : bytes, f b = (b, Ok tt) | None => True end) m ->
            m' = filter (fun x => match x with Some _ => false | None => true end) m -> execute m own b = execute m' own b).
  { clear. induction m as [|x m IH]; intros m' own b F ->; [reflexivity|]. inversion F as [|? ? Fx Fm]; subst. destruct x as [f|]; cbn [filter].
    - cbn [execute]. rewrite Fx. apply IH; [exact Fm|reflexivity].
    - destruct own as [|g own]; cbn [execute]; [reflexivity|]. destruct (g b) as [b' [[]|e|]]; try reflexivity. apply IH; [exact Fm|reflexivity]. }
  apply G.
  - apply Forall_app. split; [destruct cl; repeat constructor|]. apply Forall_rev. clear - H. induction H as [|c cs Hc _ IH]; cbn [flat_map]; [constructor|]. apply Forall_app. split; [|exact IH].
    destruct c; repeat constructor. exact Hc.
  - rewrite filter_app. f_equal; [destruct cl; reflexivity|].
    assert (FR : forall A (p : A -> bool) l, filter p (rev l) = rev (filter p l)).
    { clear. intros A p. induction l as [|a l IH]; [reflexivity|]. cbn [rev filter]. rewrite filter_app, IH. cbn [filter]. destruct (p a); cbn [rev]; rewrite ?app_nil_r; reflexivity. }
    rewrite FR. f_equal. clear. induction cs as [|c cs IH]; [reflexivity|]. destruct c; cbn [erase filter flat_map step app]; fold (erase cs); rewrite ?IH; reflexivity.
Qed.
Example c51_any_example : length (erase hooked_calls) = 3%nat /\ length (steps hooked_calls ClUdp) = 5%nat /\
  forall E, exists out, program E OpV4 hooked_calls ClUdp dynamic_new = Ok out /\ nthN out 8 = 64 /\ nthN out 29 = 5.
Proof.
  split; [reflexivity|]. split; [reflexivity|]. intros E. exists (match program E OpV4 hooked_calls ClUdp dynamic_new with Ok o => o | _ => [] end).
  destruct E as [[] [] []]; repeat apply conj; vm_compute; reflexivity.
Qed.
