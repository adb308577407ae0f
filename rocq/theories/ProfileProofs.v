(** * ProfileProofs: debug and release builds agree unless the debug one panics (C60). *)
From Coq Require Import ZifyBool ZifyNat ZifyN String.
From Verif Require Import Base Enums Buffer Ether Ipv4 Ip Udp Tcp Icmp Builders Debug Mutable Spec SpecCalls SpecProfile Lemmas.
Ltac Zify.zify_post_hook ::= Z.div_mod_to_equations.
Open Scope N_scope.

Lemma ag_refl {A} (r : res A) : agrees r r. Proof. right. reflexivity. Qed.
Lemma ag_panic {A} (r : res A) : agrees Panic r. Proof. left. reflexivity. Qed.
Lemma ag_bind {A B} (r r' : res A) (f f' : A -> res B) :
  agrees r r' -> (forall a, agrees (f a) (f' a)) -> agrees (bind r f) (bind r' f').
Proof. intros [->| ->] H; [left; reflexivity|]. destruct r'; cbn [bind]; [apply H|apply ag_refl|apply ag_refl]. Qed.
Lemma ag_unwrap {A} (r r' : res A) : agrees r r' -> agrees (unwrap r) (unwrap r').
Proof. intros [->| ->]; [left|right]; reflexivity. Qed.
Lemma am_refl {S} (r : S * res unit) : agrees_mut r r. Proof. right. reflexivity. Qed.

Section Two.
Variables E E' : env.
Hypothesis stricter : overflow_checks E' = true -> overflow_checks E = true.
Hypothesis narrower : target E' = target E \/ (target E = Bits32 /\ overflow_checks E = true).
Lemma narrow : (@USIZE E' = @USIZE E /\ @ISIZE_MAX E' = @ISIZE_MAX E) \/
  (@USIZE E <= @USIZE E' /\ @ISIZE_MAX E <= @ISIZE_MAX E' /\ overflow_checks E = true).
Proof.
  unfold USIZE, ISIZE_MAX. destruct narrower as [->|[-> H]]; [left; split; reflexivity|].
  right. destruct (target E'); repeat split; try exact H; vm_compute; discriminate.
Qed.
Lemma ag_resize v n : agrees (@vec_resize E v n) (@vec_resize E' v n).
Proof.
  unfold vec_resize. destruct narrow as [[_ ->]|(_ & H & _)]; [apply ag_refl|].
  destruct (N.ltb_spec (@ISIZE_MAX E) n); [apply ag_panic|]. destruct (N.ltb_spec (@ISIZE_MAX E') n); [lia|]. apply ag_refl.
Qed.
Lemma ag_add a b : agrees (usize_add E a b) (usize_add E' a b).
Proof.
  unfold usize_add. destruct narrow as [[-> _]|(H & _ & ->)];
    [|destruct (N.ltb_spec (a + b) (@USIZE E)); [|apply ag_panic]; destruct (N.ltb_spec (a + b) (@USIZE E')); [apply ag_refl|lia]].
  destruct (a + b <? USIZE); [apply ag_refl|].
  destruct (overflow_checks E'); [rewrite (stricter eq_refl); apply ag_refl|]. destruct (overflow_checks E); [apply ag_panic|apply ag_refl].
Qed.
Lemma ag_sub a b : agrees (usize_sub E a b) (usize_sub E' a b).
Proof.
  unfold usize_sub. destruct (b <=? a); [apply ag_refl|]. destruct narrow as [[-> _]|(_ & _ & ->)]; [|apply ag_panic].
  destruct (overflow_checks E'); [rewrite (stricter eq_refl); apply ag_refl|]. destruct (overflow_checks E); [apply ag_panic|apply ag_refl].
Qed.
Lemma ag_u32 a b : agrees (u32_add E a b) (u32_add E' a b).
Proof.
  unfold u32_add. destruct (a + b <? U32); [apply ag_refl|].
  destruct (overflow_checks E'); [rewrite (stricter eq_refl); apply ag_refl|]. destruct (overflow_checks E); [apply ag_panic|apply ag_refl].
Qed.
Create HintDb ag discriminated.
Hint Resolve ag_refl ag_panic am_refl ag_add ag_sub ag_u32 : ag.
Ltac ag := intros; repeat match goal with
  | |- agrees ?x ?x => apply ag_refl
  | |- agrees (bind _ _) (bind _ _) => apply ag_bind
  | |- agrees (unwrap _) (unwrap _) => apply ag_unwrap
  | |- forall _, _ => intro
  | |- agrees (let '(_, _) := ?p in _) _ => destruct p
  | |- agrees (match ?x with _ => _ end) (match ?x with _ => _ end) => destruct x
  | |- _ => solve [auto 2 with ag]
  end.

Lemma ag_ether_payload_size b : agrees (ether_payload_size E b) (ether_payload_size E' b). Proof. unfold ether_payload_size. ag. Qed.
Hint Resolve ag_ether_payload_size : ag.
Lemma ag_ether_size b : agrees (ether_size E b) (ether_size E' b). Proof. unfold ether_size. ag. Qed.
Hint Resolve ag_ether_size : ag.
Lemma ag_ether_as_ref b : agrees (ether_as_ref E b) (ether_as_ref E' b). Proof. unfold ether_as_ref. ag. Qed.
Lemma ag_ether_as_mut b : agrees (ether_as_mut E b) (ether_as_mut E' b). Proof. unfold ether_as_mut. ag. Qed.

Lemma ag_carry_loop skip b : forall pos r, agrees (carry_loop E skip pos b r) (carry_loop E' skip pos b r).
Proof.
  assert (forall n b, (List.length b <= n)%nat -> forall pos r, agrees (carry_loop E skip pos b r) (carry_loop E' skip pos b r)) as H.
  { induction n as [|n IH]; intros [|x [|y c]] Hl pos r; cbn [carry_loop]; try apply ag_refl; cbn [List.length] in Hl; try lia.
    destruct (pos + 2 =? skip); [apply IH; lia|]. apply ag_bind; [apply ag_u32|]. intros s. apply IH. lia. }
  intros pos r. exact (H _ b (le_n _) pos r).
Qed.
Hint Resolve ag_carry_loop : ag.
Lemma ag_plain_loop skip b : forall pos r, agrees (plain_loop E skip pos b r) (plain_loop E' skip pos b r).
Proof.
  assert (forall n b, (List.length b <= n)%nat -> forall pos r, agrees (plain_loop E skip pos b r) (plain_loop E' skip pos b r)) as H.
  { induction n as [|n IH]; intros [|x [|y c]] Hl pos r; cbn [plain_loop]; try apply ag_refl; cbn [List.length] in Hl; try lia.
    destruct (pos + 2 =? skip); [apply IH; lia|]. apply ag_bind; [apply ag_u32|]. intros s. apply IH. lia. }
  intros pos r. exact (H _ b (le_n _) pos r).
Qed.
Hint Resolve ag_plain_loop : ag.
Lemma ag_v4_checksum_of b : agrees (v4_checksum_of E b) (v4_checksum_of E' b). Proof. unfold v4_checksum_of. ag. Qed.
Hint Resolve ag_v4_checksum_of : ag.
Lemma ag_v4_is_valid b : agrees (v4_is_valid E b) (v4_is_valid E' b). Proof. unfold v4_is_valid. ag. Qed.
Hint Resolve ag_v4_is_valid : ag.
Lemma ag_icmp_checksum_of b : agrees (icmp_checksum_of E b) (icmp_checksum_of E' b). Proof. unfold icmp_checksum_of. ag. Qed.
Hint Resolve ag_icmp_checksum_of : ag.
Lemma ag_icmp_is_valid b : agrees (icmp_is_valid E b) (icmp_is_valid E' b). Proof. unfold icmp_is_valid. ag. Qed.
Hint Resolve ag_icmp_is_valid : ag.

(** Options *)
Lemma ag_v4opt_payload_size b : agrees (v4opt_payload_size E b) (v4opt_payload_size E' b). Proof. unfold v4opt_payload_size. ag. Qed.
Hint Resolve ag_v4opt_payload_size : ag.
Lemma ag_v4opt_size b : agrees (v4opt_size E b) (v4opt_size E' b). Proof. unfold v4opt_size. ag. Qed.
Hint Resolve ag_v4opt_size : ag.
Lemma ag_v4opt_as_ref b : agrees (v4opt_as_ref E b) (v4opt_as_ref E' b). Proof. unfold v4opt_as_ref. ag. Qed.
Lemma ag_v4opt_as_mut b : agrees (v4opt_as_mut E b) (v4opt_as_mut E' b). Proof. unfold v4opt_as_mut. ag. Qed.
Lemma ag_v4_iter_next b : agrees (v4_iter_next E b) (v4_iter_next E' b). Proof. unfold v4_iter_next. ag. Qed.
Lemma ag_tcpopt_payload_size b : agrees (tcpopt_payload_size E b) (tcpopt_payload_size E' b). Proof. unfold tcpopt_payload_size. ag. Qed.
Hint Resolve ag_tcpopt_payload_size : ag.
Lemma ag_tcpopt_size b : agrees (tcpopt_size E b) (tcpopt_size E' b). Proof. unfold tcpopt_size. ag. Qed.
Hint Resolve ag_tcpopt_size : ag.
Lemma ag_tcpopt_as_ref b : agrees (tcpopt_as_ref E b) (tcpopt_as_ref E' b). Proof. unfold tcpopt_as_ref. ag. Qed.
Lemma ag_tcpopt_as_mut b : agrees (tcpopt_as_mut E b) (tcpopt_as_mut E' b). Proof. unfold tcpopt_as_mut. ag. Qed.
Lemma ag_tcp_iter_next b : agrees (tcp_iter_next E b) (tcp_iter_next E' b). Proof. unfold tcp_iter_next. ag. Qed.
(** Sizes *)
Lemma ag_tcp_payload_size b : agrees (tcp_payload_size E b) (tcp_payload_size E' b). Proof. unfold tcp_payload_size. ag. Qed.
Hint Resolve ag_tcp_payload_size : ag.
Lemma ag_tcp_size b : agrees (tcp_size E b) (tcp_size E' b). Proof. unfold tcp_size. ag. Qed.
Hint Resolve ag_tcp_size : ag.
Lemma ag_tcp_as_ref b : agrees (tcp_as_ref E b) (tcp_as_ref E' b). Proof. unfold tcp_as_ref. ag. Qed.
Lemma ag_tcp_as_mut b : agrees (tcp_as_mut E b) (tcp_as_mut E' b). Proof. unfold tcp_as_mut. ag. Qed.
Lemma ag_icmp_payload_size b : agrees (icmp_payload_size E b) (icmp_payload_size E' b). Proof. unfold icmp_payload_size. ag. Qed.
Hint Resolve ag_icmp_payload_size : ag.
Lemma ag_icmp_size b : agrees (icmp_size E b) (icmp_size E' b). Proof. unfold icmp_size. ag. Qed.
Hint Resolve ag_icmp_size : ag.
Lemma ag_icmp_as_ref b : agrees (icmp_as_ref E b) (icmp_as_ref E' b). Proof. unfold icmp_as_ref. ag. Qed.
Lemma ag_icmp_as_mut b : agrees (icmp_as_mut E b) (icmp_as_mut E' b). Proof. unfold icmp_as_mut. ag. Qed.
Lemma ag_echo_payload_size b : agrees (echo_payload_size E b) (echo_payload_size E' b). Proof. unfold echo_payload_size. ag. Qed.
Hint Resolve ag_echo_payload_size : ag.
Lemma ag_echo_size b : agrees (echo_size E b) (echo_size E' b). Proof. unfold echo_size. ag. Qed.
Hint Resolve ag_echo_size : ag.
Lemma ag_echo_as_ref b : agrees (echo_as_ref E b) (echo_as_ref E' b). Proof. unfold echo_as_ref. ag. Qed.
Hint Resolve ag_echo_as_ref : ag.
Lemma ag_echo_as_mut b : agrees (echo_as_mut E b) (echo_as_mut E' b). Proof. unfold echo_as_mut. ag. Qed.
Lemma ag_information_size b : agrees (information_size E b) (information_size E' b). Proof. unfold information_size. ag. Qed.
Hint Resolve ag_information_size : ag.
Lemma ag_information_as_ref b : agrees (information_as_ref E b) (information_as_ref E' b). Proof. unfold information_as_ref. ag. Qed.
Hint Resolve ag_information_as_ref : ag.
Lemma ag_information_as_mut b : agrees (information_as_mut E b) (information_as_mut E' b). Proof. unfold information_as_mut. ag. Qed.
Lemma ag_timestamp_size b : agrees (timestamp_size E b) (timestamp_size E' b). Proof. unfold timestamp_size. ag. Qed.
Hint Resolve ag_timestamp_size : ag.
Lemma ag_timestamp_as_ref b : agrees (timestamp_as_ref E b) (timestamp_as_ref E' b). Proof. unfold timestamp_as_ref. ag. Qed.
Hint Resolve ag_timestamp_as_ref : ag.
Lemma ag_timestamp_as_mut b : agrees (timestamp_as_mut E b) (timestamp_as_mut E' b). Proof. unfold timestamp_as_mut. ag. Qed.
Lemma ag_embedded_payload_size b : agrees (embedded_payload_size E b) (embedded_payload_size E' b). Proof. unfold embedded_payload_size. ag. Qed.
Hint Resolve ag_embedded_payload_size : ag.
Lemma ag_embedded_size b : agrees (embedded_size E b) (embedded_size E' b). Proof. unfold embedded_size. ag. Qed.
Hint Resolve ag_embedded_size : ag.
Lemma ag_embedded_as_ref b : agrees (embedded_as_ref E b) (embedded_as_ref E' b). Proof. unfold embedded_as_ref. ag. Qed.
Hint Resolve ag_embedded_as_ref : ag.
Lemma ag_redirect_as_mut b : agrees (redirect_message_as_mut E b) (redirect_message_as_mut E' b). Proof. unfold redirect_message_as_mut. ag. Qed.
Lemma ag_parameter_as_mut b : agrees (parameter_problem_as_mut E b) (parameter_problem_as_mut E' b). Proof. unfold parameter_problem_as_mut. ag. Qed.
Lemma ag_previous_as_mut b : agrees (previous_as_mut E b) (previous_as_mut E' b). Proof. unfold previous_as_mut. ag. Qed.
(** Debug *)
Lemma ag_field {A} l (sh : A -> shown) v v' r r' : agrees v v' -> agrees r r' -> agrees (field l sh v r) (field l sh v' r').
Proof. intros. unfold field. ag; assumption. Qed.
Lemma ag_struct l r r' : agrees r r' -> agrees (struct l r) (struct l r').
Proof. intros. unfold struct. ag; assumption. Qed.
Lemma ag_v4_debug b : agrees (v4_debug E b) (v4_debug E' b). Proof. unfold v4_debug. apply ag_bind; [ag|]. intros. apply ag_refl. Qed.
Hint Resolve ag_v4_debug : ag.
Lemma ag_ip_debug b : agrees (ip_debug E b) (ip_debug E' b). Proof. unfold ip_debug. ag. Qed.
Lemma ag_icmp_debug b : agrees (icmp_debug E b) (icmp_debug E' b). Proof. unfold icmp_debug. apply ag_bind; [ag|]. intros. apply ag_refl. Qed.
Lemma ag_show_embedded b : agrees (show_embedded E b) (show_embedded E' b). Proof. unfold show_embedded. ag. Qed.
Hint Resolve ag_show_embedded : ag.
Ltac dbg := repeat first [apply ag_struct | apply ag_refl | apply ag_field | apply ag_show_embedded].
Lemma ag_parameter_debug b : agrees (parameter_problem_debug E b) (parameter_problem_debug E' b). Proof. unfold parameter_problem_debug. dbg. Qed.
Lemma ag_redirect_debug b : agrees (redirect_message_debug E b) (redirect_message_debug E' b). Proof. unfold redirect_message_debug. dbg. Qed.
Lemma ag_previous_debug b : agrees (previous_debug E b) (previous_debug E' b). Proof. unfold previous_debug. dbg. Qed.

(** Mutations *)
Definition am (f f' : mut) : Prop := forall b, agrees_mut (f b) (f' b).
Lemma am_same f : am f f. Proof. intros b. apply am_refl. Qed.
Lemma am_mseq f f' g g' : am f f' -> am g g' -> am (mseq f g) (mseq f' g').
Proof.
  intros Hf Hg b. unfold mseq. destruct (Hf b) as [H|H].
  - destruct (f b) as [c r]. cbn [snd] in H. subst r. left. reflexivity.
  - rewrite H. destruct (f' b) as [c [[]|e|]]; [apply Hg|apply am_refl|apply am_refl].
Qed.
Lemma am_mlet {A} (r r' : bytes -> res A) k k' : (forall b, agrees (r b) (r' b)) -> (forall a, am (k a) (k' a)) -> am (mlet r k) (mlet r' k').
Proof.
  intros Hr Hk b. unfold mlet. destruct (Hr b) as [->| ->]; [left; reflexivity|]. destruct (r' b); [apply Hk|apply am_refl|apply am_refl].
Qed.
Lemma am_range i j f f' : am f f' -> am (range_mut i j f) (range_mut i j f').
Proof.
  intros Hf b. unfold range_mut. destruct ((i <=? j) && (j <=? len b)); [|apply am_refl].
  destruct (Hf (takeN (j - i) (dropN i b))) as [H|H].
  - destruct (f (takeN (j - i) (dropN i b))) as [m r]. left. exact H.
  - rewrite H. apply am_refl.
Qed.
Lemma am_prefix n f f' : am f f' -> am (prefix_mut n f) (prefix_mut n f').
Proof.
  intros Hf b. unfold prefix_mut. destruct (n <=? len b); [|apply am_refl].
  destruct (Hf (takeN n b)) as [H|H].
  - destruct (f (takeN n b)) as [m r]. left. exact H.
  - rewrite H. apply am_refl.
Qed.
Lemma am_guard {A} (apply : A -> mut) drop drop' ops : am drop drop' -> am (run_guard apply drop ops) (run_guard apply drop' ops).
Proof.
  intros Hd. induction ops as [|o ops IH]; intros b; cbn [run_guard].
  - destruct (Hd b) as [H|H].
    + destruct (drop b) as [c r]. cbn [snd] in H. subst r. left. reflexivity.
    + rewrite H. apply am_refl.
  - destruct (apply o b) as [c [[]|e|]]; [apply IH|apply IH|apply am_refl].
Qed.
Lemma am_v4_update : am (v4_update_checksum E) (v4_update_checksum E').
Proof. unfold v4_update_checksum. apply am_mlet; [ag|]. intros. apply am_same. Qed.
Lemma am_v4_checked ops : am (v4_checked E ops) (v4_checked E' ops).
Proof. apply am_guard, am_v4_update. Qed.
Lemma am_icmp_drop r r' : (forall b, agrees (r b) (r' b)) -> am (icmp_checked_drop E r) (icmp_checked_drop E' r').
Proof. intros H. unfold icmp_checked_drop. apply am_mlet; [|intros; apply am_same]. intros. apply ag_bind; [apply H|]. ag. Qed.
Lemma am_echo_checked ops : am (echo_checked E ops) (echo_checked E' ops).
Proof. apply am_guard, am_icmp_drop, ag_echo_as_ref. Qed.
Lemma am_information_checked ops : am (information_checked E ops) (information_checked E' ops).
Proof. apply am_guard, am_icmp_drop, ag_information_as_ref. Qed.
Lemma am_timestamp_checked ops : am (timestamp_checked E ops) (timestamp_checked E' ops).
Proof. apply am_guard, am_icmp_drop, ag_timestamp_as_ref. Qed.

(** Buffers *)
Lemma ag_buf_data b : agrees (buf_data E b) (buf_data E' b).
Proof. unfold buf_data. destruct b; ag. Qed.
Lemma am_buf_data_mut f f' b : am f f' -> agrees_mut (buf_data_mut E f b) (buf_data_mut E' f' b).
Proof.
  intros Hf. unfold buf_data_mut. destruct b as [i o l|i o l u].
  - destruct (ag_add o l) as [->| ->]; [left; reflexivity|]. destruct (usize_add E' o l); try apply am_refl.
    destruct (am_range o a _ _ Hf i) as [H|H]; [|rewrite H; apply am_refl]. destruct (range_mut o a f i). left. exact H.
  - destruct (ag_add o l) as [->| ->]; [left; reflexivity|]. destruct (usize_add E' o l); try apply am_refl.
    destruct (am_range o a _ _ Hf i) as [H|H]; [|rewrite H; apply am_refl]. destruct (range_mut o a f i). left. exact H.
Qed.
Lemma am_buf_next n b : agrees_mut (buf_next E n b) (buf_next E' n b).
Proof.
  unfold buf_next. destruct b as [i o l|i o l u].
  - destruct (ag_add o l) as [->| ->]; [left; reflexivity|]. destruct (usize_add E' o l); try apply am_refl.
    destruct (ag_add (len i) n) as [->| ->]; [left; reflexivity|]. destruct (usize_add E' (len i) n) as [m|e|]; try apply am_refl.
    destruct (ag_resize i m) as [->| ->]; [left; reflexivity|apply am_refl].
  - destruct (ag_add u n) as [->| ->]; [left; reflexivity|]. destruct (usize_add E' u n); try apply am_refl.
    destruct (len i <? a); [apply am_refl|]. apply am_buf_data_mut, am_same.
Qed.
Lemma am_buf_more n b : agrees_mut (buf_more E n b) (buf_more E' n b).
Proof.
  unfold buf_more. destruct b as [i o l|i o l u].
  - destruct (ag_add (len i) n) as [->| ->]; [left; reflexivity|]. destruct (usize_add E' (len i) n) as [m|e|]; try apply am_refl.
    destruct (ag_resize i m) as [->| ->]; [left; reflexivity|]. destruct (vec_resize i m); try apply am_refl. destruct (ag_add l n) as [->| ->]; [left; reflexivity|]. apply am_refl.
  - destruct (ag_add u n) as [->| ->]; [left; reflexivity|]. destruct (usize_add E' u n); try apply am_refl.
    destruct (len i <? a); [apply am_refl|]. destruct (ag_add l n) as [->| ->]; [left; reflexivity|]. destruct (usize_add E' l n); try apply am_refl.
    destruct (ag_sub a0 n) as [->| ->]; [left; reflexivity|]. destruct (usize_sub E' a0 n); try apply am_refl. apply am_buf_data_mut, am_same.
Qed.
Lemma ag_try p p' : agrees_mut p p' -> agrees (try_buf p) (try_buf p').
Proof. intros [H| ->]; [|apply ag_refl]. destruct p as [b r]. cbn [snd] in H. subst r. left. reflexivity. Qed.

(** Builders: equal up to finalizers that agree. *)
Record bl (b b' : builder) : Prop := {
  bl_buffer : b_buffer b = b_buffer b'; bl_ip : b_ip b = b_ip b'; bl_kind : b_kind b = b_kind b';
  bl_payload : b_payload b = b_payload b'; bl_pl : b_payload_length b = b_payload_length b';
  bl_fin : Forall2 am (b_fin b) (b_fin b') }.
Inductive rb : res builder -> res builder -> Prop :=
| rb_panic r : rb Panic r
| rb_err e : rb (Err e) (Err e)
| rb_ok b b' : bl b b' -> rb (Ok b) (Ok b').
Lemma rb_bind {A} (r r' : res A) f f' : agrees r r' -> (forall a, rb (f a) (f' a)) -> rb (bind r f) (bind r' f').
Proof. intros [->| ->] H; [constructor|]. destruct r'; cbn [bind]; [apply H|constructor|constructor]. Qed.
Lemma rb_bindb r r' f f' : rb r r' -> (forall b b', bl b b' -> rb (f b) (f' b')) -> rb (bind r f) (bind r' f').
Proof. intros R H; destruct R as [x|e|b b' Hb]; cbn [bind]; [constructor|constructor|]. apply H. exact Hb. Qed.
Lemma ag_bindb {A} r r' (f f' : builder -> res A) : rb r r' -> (forall b b', bl b b' -> agrees (f b) (f' b')) -> agrees (bind r f) (bind r' f').
Proof. intros R H; destruct R as [x|e|b b' Hb]; cbn [bind]; [apply ag_panic|apply ag_refl|]. apply H. exact Hb. Qed.
Lemma fin_same fs : Forall2 am fs fs. Proof. induction fs; constructor; [apply am_same|assumption]. Qed.
Lemma bl_with_buffer b b' x : bl b b' -> bl (with_buffer b x) (with_buffer b' x).
Proof. intros []. constructor; cbn; congruence || assumption || reflexivity. Qed.
Lemma bl_with_fin b b' x x' : bl b b' -> Forall2 am x x' -> bl (with_fin b x) (with_fin b' x').
Proof. intros []. constructor; cbn; congruence || assumption || reflexivity. Qed.
Lemma bl_with_kind b b' : bl b b' -> bl (with_kind b) (with_kind b').
Proof. intros []. constructor; cbn; congruence || assumption || reflexivity. Qed.
Lemma bl_with_payload b b' : bl b b' -> bl (with_payload b) (with_payload b').
Proof. intros []. constructor; cbn; congruence || assumption || reflexivity. Qed.
Lemma bl_with_pl b b' n : bl b b' -> bl (with_payload_length b n) (with_payload_length b' n).
Proof. intros []. constructor; cbn; congruence || assumption || reflexivity. Qed.
Lemma bl_add b b' f f' : bl b b' -> am f f' -> bl (with_fin b (fin_add (b_fin b) f)) (with_fin b' (fin_add (b_fin b') f')).
Proof. intros H Hf. apply bl_with_fin; [exact H|]. unfold fin_add. apply Forall2_app; [apply H|constructor; [exact Hf|constructor]]. Qed.
Lemma bl_fresh buf ip : bl (fresh buf ip) (fresh buf ip). Proof. constructor; try reflexivity. constructor. Qed.
Lemma rb_edit f b b' : bl b b' -> rb (edit E f b) (edit E' f b').
Proof.
  intros H. unfold edit. rewrite (bl_buffer _ _ H). apply rb_bind; [apply ag_try, am_buf_data_mut, am_same|]. intros. constructor. apply bl_with_buffer, H.
Qed.
Lemma rb_payload_loop count p : forall b b', bl b b' -> rb (payload_loop E count p b) (payload_loop E' count p b').
Proof.
  induction p as [|x p IH]; intros b b' H; cbn [payload_loop]; [constructor; exact H|].
  rewrite (bl_buffer _ _ H). apply rb_bind; [apply ag_try, am_buf_more|]. intros buf.
  apply rb_bindb.
  - destruct count; [|constructor; apply bl_with_buffer, H]. apply rb_bind.
    + cbn. rewrite (bl_pl _ _ H). apply ag_add.
    + intros n. constructor. apply bl_with_pl, bl_with_buffer, H.
  - intros. apply rb_bindb; [apply rb_edit; assumption|]. intros. apply IH. assumption.
Qed.
Lemma rb_add_payload e count p b b' : bl b b' -> rb (add_payload E e count p b) (add_payload E' e count p b').
Proof.
  intros H. unfold add_payload. rewrite (bl_payload _ _ H). destruct (b_payload b'); [constructor|]. apply rb_payload_loop, bl_with_payload, H.
Qed.
Lemma rb_sub mk mk' b b' : (forall buf, rb (mk buf) (mk' buf)) -> bl b b' -> rb (sub mk b) (sub mk' b').
Proof.
  intros Hm H. unfold sub. rewrite (bl_buffer _ _ H). apply rb_bindb; [apply Hm|]. intros c c' Hc. constructor. apply bl_with_fin; [exact Hc|].
  unfold fin_extend. apply Forall2_app; [apply Hc|apply H].
Qed.
Lemma rb_next buf n (k : buffer -> res builder) : (forall x, rb (k x) (k x)) -> rb (let* x := try_buf (buf_next E n buf) in k x) (let* x := try_buf (buf_next E' n buf) in k x).
Proof. intros H. apply rb_bind; [apply ag_try, am_buf_next|exact H]. Qed.
Lemma rb_ether_with buf : rb (ether_with E buf) (ether_with E' buf).
Proof. apply rb_next. intros. constructor. apply bl_fresh. Qed.
Lemma rb_v4_with buf : rb (v4_with E buf) (v4_with E' buf).
Proof.
  unfold v4_with. apply rb_bind; [apply ag_try, am_buf_next|]. intros. apply rb_bind; [apply ag_try, am_buf_data_mut, am_same|].
  intros. constructor. apply bl_fresh.
Qed.
Lemma rb_udp_with buf : rb (udp_with E buf) (udp_with E' buf).
Proof. apply rb_next. intros. constructor. apply bl_fresh. Qed.
Lemma rb_tcp_with buf : rb (tcp_with E buf) (tcp_with E' buf).
Proof.
  unfold tcp_with. apply rb_bind; [apply ag_try, am_buf_next|]. intros. apply rb_bind; [apply ag_try, am_buf_data_mut, am_same|].
  intros. constructor. apply bl_fresh.
Qed.
Lemma rb_ip_with buf : rb (ip_with buf) (ip_with buf).
Proof. constructor. apply bl_fresh. Qed.
Lemma rb_icmp_with buf : rb (icmp_with buf) (icmp_with buf).
Proof. constructor. apply bl_fresh. Qed.
Lemma rb_echo_with buf : rb (echo_with E buf) (echo_with E' buf).
Proof. apply rb_next. intros. constructor. apply bl_fresh. Qed.
Lemma rb_information_with buf : rb (information_with E buf) (information_with E' buf).
Proof. apply rb_next. intros. constructor. apply bl_fresh. Qed.
Lemma rb_timestamp_with buf : rb (timestamp_with E buf) (timestamp_with E' buf).
Proof. apply rb_next. intros. constructor. apply bl_fresh. Qed.
Lemma am_ether_ip_fin o l : am (ether_ip_finalizer E o l) (ether_ip_finalizer E' o l).
Proof. unfold ether_ip_finalizer. apply am_mlet; [ag|]. intros. apply am_same. Qed.
Lemma am_v4_fin o l : am (v4_finalizer E o l) (v4_finalizer E' o l).
Proof.
  unfold v4_finalizer. apply am_mseq; [apply am_same|]. apply am_mseq; (apply am_mlet; [ag|intros; apply am_same]).
Qed.
Lemma am_icmp_fin o l : am (icmp_finalizer E o l) (icmp_finalizer E' o l).
Proof. unfold icmp_finalizer. apply am_mlet; [ag|]. intros. apply am_same. Qed.
Lemma bl_v4_prepare b b' : bl b b' -> bl (v4_prepare E b) (v4_prepare E' b').
Proof. intros H. unfold v4_prepare. rewrite (bl_buffer _ _ H). apply bl_add; [exact H|apply am_v4_fin]. Qed.
Lemma bl_icmp_prepare b b' : bl b b' -> bl (icmp_prepare E b) (icmp_prepare E' b').
Proof. intros H. unfold icmp_prepare. rewrite (bl_buffer _ _ H). apply bl_add; [exact H|apply am_icmp_fin]. Qed.
Lemma rb_v4_sub proto mk mk' b b' : (forall buf, rb (mk buf) (mk' buf)) -> bl b b' -> rb (v4_sub E proto mk b) (v4_sub E' proto mk' b').
Proof.
  intros Hm H. unfold v4_sub. rewrite (bl_payload _ _ H). destruct (b_payload b'); [constructor|].
  apply rb_bindb; [apply rb_edit, H|]. intros. apply rb_sub; [exact Hm|apply bl_v4_prepare; assumption].
Qed.
Lemma rb_ether_ip b b' : bl b b' -> rb (ether_ip E b) (ether_ip E' b').
Proof.
  intros H. unfold ether_ip. rewrite (bl_payload _ _ H), (bl_buffer _ _ H). destruct (b_payload b'); [constructor|].
  apply rb_sub; [intros; apply rb_ip_with|]. apply bl_add; [exact H|apply am_ether_ip_fin].
Qed.
Lemma rb_open o buf : rb (open E o buf) (open E' o buf).
Proof.
  destruct o; cbn [open]; auto using rb_ether_with, rb_ip_with, rb_v4_with, rb_udp_with, rb_tcp_with, rb_icmp_with, rb_echo_with,
    rb_information_with, rb_timestamp_with.
Qed.
Lemma rb_call1 c b b' : bl b b' -> rb (call1 E c b) (call1 E' c b').
Proof.
  intros H. pose proof (bl_with_kind _ _ H) as Hk. destruct c; cbn [call1].
  - destruct o; cbn [ether_run1]; first [apply rb_edit; assumption|apply rb_add_payload; assumption].
  - apply rb_ether_ip, H.
  - apply rb_sub; [apply rb_v4_with|exact H].
  - apply rb_sub; [apply rb_ip_with|exact H].
  - destruct o; cbn [v4_run1]; first [apply rb_edit; assumption|apply rb_add_payload; assumption].
  - apply rb_v4_sub; [apply rb_udp_with|exact H].
  - apply rb_v4_sub; [apply rb_tcp_with|exact H].
  - apply rb_v4_sub; [apply rb_icmp_with|exact H].
  - destruct o; cbn [udp_run1]; first [apply rb_edit; assumption|apply rb_add_payload; assumption].
  - destruct o; cbn [tcp_run1]; first [apply rb_edit; assumption|apply rb_add_payload; assumption].
  - apply rb_sub; [apply rb_echo_with|exact H].
  - apply rb_sub; [apply rb_information_with|exact H].
  - apply rb_sub; [apply rb_timestamp_with|exact H].
  - destruct o; cbn [echo_run1]; first [apply rb_edit; assumption|apply rb_add_payload; assumption].
  - destruct o; cbn [information_run1]; apply rb_edit; assumption.
  - destruct o; cbn [timestamp_run1]; apply rb_edit; assumption.
  - constructor. apply bl_add; [exact H|apply am_same].
  - unfold builder_as_packet_mut. rewrite (bl_buffer _ _ H).
    destruct (am_buf_data_mut (mlet parse (fun _ => f)) _ (b_buffer b') (am_same _)) as [K|K].
    + destruct (buf_data_mut E (mlet parse (fun _ => f)) (b_buffer b')) as [x r]. cbn [snd] in K. subst r. constructor.
    + rewrite K. destruct (buf_data_mut E' (mlet parse (fun _ => f)) (b_buffer b')) as [x [[]|e|]]; constructor. apply bl_with_buffer, H.
Qed.
Lemma rb_run cs : forall b b', bl b b' -> rb (run (call1 E) cs b) (run (call1 E') cs b').
Proof.
  induction cs as [|c cs IH]; intros b b' H; cbn [run]; [constructor; exact H|]. apply rb_bindb; [apply rb_call1, H|exact IH].
Qed.
Lemma am_fin_run fs fs' : Forall2 am fs fs' -> am (fin_run fs) (fin_run fs').
Proof.
  induction 1 as [|f f' fs fs' Hf _ IH]; intros b; cbn [fin_run]; [apply am_refl|].
  destruct (Hf b) as [K|K].
  - destruct (f b) as [c r]. cbn [snd] in K. subst r. left. reflexivity.
  - rewrite K. destruct (f' b) as [c [[]|e|]]; [apply IH|apply am_refl|apply am_refl].
Qed.
Lemma ag_finish b b' : bl b b' -> agrees (finish b) (finish b').
Proof.
  intros H. unfold finish. rewrite (bl_buffer _ _ H). apply ag_bind; [apply ag_refl|]. intros inner. unfold fin_finalize.
  destruct (am_fin_run (rev (b_fin b)) (rev (b_fin b'))) with (b := inner) as [K|K].
  - assert (forall (x y : list mut), Forall2 am x y -> Forall2 am (rev x) (rev y)) as R.
    { induction 1; cbn [rev]; [constructor|]. apply Forall2_app; [assumption|constructor; [assumption|constructor]]. }
    apply R, H.
  - destruct (fin_run (rev (b_fin b)) inner) as [c r]. cbn [snd] in K. subst r. left. reflexivity.
  - rewrite K. apply ag_refl.
Qed.
Lemma ag_icmp_kind_build b b' : bl b b' -> agrees (icmp_kind_build E b) (icmp_kind_build E' b').
Proof.
  intros H. unfold icmp_kind_build. rewrite (bl_kind _ _ H). destruct (negb (b_kind b')); [apply ag_refl|]. apply ag_finish, bl_icmp_prepare, H.
Qed.
Lemma ag_close c b b' : c <> ClUdp -> c <> ClTcp -> bl b b' -> agrees (close E c b) (close E' c b').
Proof.
  intros Hu Ht H. destruct c; cbn [close]; try congruence; try apply ag_refl; try apply ag_icmp_kind_build, H.
  - apply ag_finish, H.
  - apply ag_finish, bl_v4_prepare, H.
Qed.
Lemma ag_program o cs c buf : c <> ClUdp -> c <> ClTcp -> agrees (program E o cs c buf) (program E' o cs c buf).
Proof. intros. unfold program. apply ag_bindb; [apply rb_open|]. intros. apply ag_bindb; [apply rb_run; assumption|]. intros. apply ag_close; assumption. Qed.
Lemma ag_preview o cs parse buf : agrees (preview E o cs parse buf) (preview E' o cs parse buf).
Proof.
  unfold preview. apply ag_bindb; [apply rb_open|]. intros. apply ag_bindb; [apply rb_run; assumption|]. intros b1 b1' H1.
  unfold builder_as_packet. rewrite (bl_buffer _ _ H1). apply ag_bind; [apply ag_buf_data|]. intros. apply ag_refl.
Qed.

(** UDP and TCP checksums also look at the Cursor. *)
Hypothesis same_std : cursor_eof E = cursor_eof E'.
Lemma ag_udp_checksum_of ip b : agrees (udp_checksum_of E ip b) (udp_checksum_of E' ip b).
Proof. unfold udp_checksum_of. rewrite same_std. ag. Qed.
Hint Resolve ag_udp_checksum_of : ag.
Lemma ag_udp_is_valid ip b : agrees (udp_is_valid E ip b) (udp_is_valid E' ip b). Proof. unfold udp_is_valid. ag. Qed.
Lemma am_udp_update ip : am (udp_update_checksum E ip) (udp_update_checksum E' ip).
Proof. unfold udp_update_checksum. apply am_mlet; [ag|]. intros. apply am_same. Qed.
Lemma am_udp_checked ip ops : am (udp_checked E ip ops) (udp_checked E' ip ops).
Proof. apply am_guard, am_udp_update. Qed.
Lemma fold_loop_ag n : forall r, match fold_loop E n r, fold_loop E' n r with
  | Some x, Some y => agrees x y | Some Panic, None => True | None, None => True | _, _ => False end.
Proof.
  induction n as [|n IH]; intros r; cbn [fold_loop]; destruct (N.shiftr r 16 =? 0); try apply ag_refl; try exact I.
  destruct (ag_u32 (N.land r 65535) (N.shiftr r 16)) as [->| ->].
  - destruct (u32_add E' (N.land r 65535) (N.shiftr r 16)); try apply ag_panic. destruct (fold_loop E' n a); [apply ag_panic|exact I].
  - destruct (u32_add E' (N.land r 65535) (N.shiftr r 16)); try apply ag_refl. apply IH.
Qed.
Lemma ag_tcp_checksum_of ip b : agrees (tcp_checksum_of E ip b) (tcp_checksum_of E' ip b).
Proof.
  unfold tcp_checksum_of. rewrite same_std. apply ag_bind; [apply ag_refl|]. intros. apply ag_bind; [ag|]. intros [? ?]. apply ag_bind; [ag|].
  intros [? rest]. apply ag_bind; [ag|]. intros r3. pose proof (fold_loop_ag 3 r3) as K.
  destruct (fold_loop E 3 r3) as [x|], (fold_loop E' 3 r3) as [y|].
  - apply ag_bind; [destruct x; exact K|]. ag.
  - destruct x; try contradiction. apply ag_panic.
  - contradiction.
  - apply ag_refl.
Qed.
Hint Resolve ag_tcp_checksum_of : ag.
Lemma ag_tcp_is_valid ip b : agrees (tcp_is_valid E ip b) (tcp_is_valid E' ip b). Proof. unfold tcp_is_valid. ag. Qed.
Lemma am_tcp_update ip : am (tcp_update_checksum E ip) (tcp_update_checksum E' ip).
Proof. unfold tcp_update_checksum. apply am_mlet; [ag|]. intros. apply am_same. Qed.
Lemma am_tcp_checked ip ops : am (tcp_checked E ip ops) (tcp_checked E' ip ops).
Proof. apply am_guard, am_tcp_update. Qed.
Lemma ag_split_layers ip n out : agrees (split_layers E ip n out) (split_layers E' ip n out).
Proof. unfold split_layers. apply ag_bind; [ag|]. intros. apply ag_refl. Qed.
Lemma ag_udp_builder_checksum ip u : agrees (udp_builder_checksum E ip u) (udp_builder_checksum E' ip u).
Proof. unfold udp_builder_checksum. destruct (v4_no_payload ip); [ag| |ag]. destruct (v6_no_payload ip); ag. Qed.
Lemma am_udp_fin ip n : am (udp_finalizer E ip n) (udp_finalizer E' ip n).
Proof.
  unfold udp_finalizer. apply am_mlet; [apply ag_split_layers|]. intros [[p i] j]. apply am_range, am_mseq; [apply am_same|].
  apply am_mlet; [apply ag_udp_builder_checksum|]. intros. apply am_same.
Qed.
Lemma am_tcp_fin ip n pl : am (tcp_finalizer E ip n pl) (tcp_finalizer E' ip n pl).
Proof.
  unfold tcp_finalizer. apply am_mlet; [apply ag_split_layers|]. intros [[p i] j]. apply am_range, am_mseq.
  - apply am_mlet; [ag|]. intros. apply am_same.
  - apply am_mlet; [ag|]. intros. apply am_same.
Qed.
Lemma ag_close_all c b b' : bl b b' -> agrees (close E c b) (close E' c b').
Proof.
  intros H. assert (D : c = ClUdp \/ c = ClTcp \/ (c <> ClUdp /\ c <> ClTcp)) by (destruct c; (now left) || (right; now left) || (right; right; split; discriminate)).
  destruct D as [->|[->|[? ?]]]; [| |apply ag_close; assumption].
  - cbn [close]. apply ag_finish. unfold udp_prepare. rewrite (bl_buffer _ _ H), (bl_ip _ _ H). apply bl_add; [exact H|apply am_udp_fin].
  - cbn [close]. apply ag_finish. unfold tcp_prepare. rewrite (bl_buffer _ _ H), (bl_ip _ _ H), (bl_pl _ _ H). apply bl_add; [exact H|apply am_tcp_fin].
Qed.
Lemma ag_program_all o cs c buf : agrees (program E o cs c buf) (program E' o cs c buf).
Proof. unfold program. apply ag_bindb; [apply rb_open|]. intros. apply ag_bindb; [apply rb_run; assumption|]. intros. apply ag_close_all; assumption. Qed.
End Two.

Lemma d_stricter c w : overflow_checks (release c w) = true -> overflow_checks (debug c w) = true.
Proof. discriminate. Qed.
Lemma both {A} (x y : res A) : agrees x y -> agrees y x -> x = y.
Proof. intros [->| ->] [H|H]; congruence. Qed.
Lemma both_mut {S} (x y : S * res unit) : agrees_mut x y -> agrees_mut y x -> x = y \/ (snd x = Panic /\ snd y = Panic).
Proof. intros [H|H] [K|K]; try (left; congruence); right; split; assumption. Qed.

(** C60: sizes and whole slices of every type, on any bytes (accepted or unchecked). *)
Lemma c60_sizes : forall c w b, let D := debug c w in let R := release c w in
  (agrees (ether_payload_size D b) (ether_payload_size R b) /\ agrees (ether_size D b) (ether_size R b) /\
   agrees (ether_as_ref D b) (ether_as_ref R b) /\ agrees (ether_as_mut D b) (ether_as_mut R b)) /\
  (agrees (tcp_payload_size D b) (tcp_payload_size R b) /\ agrees (tcp_size D b) (tcp_size R b) /\
   agrees (tcp_as_ref D b) (tcp_as_ref R b) /\ agrees (tcp_as_mut D b) (tcp_as_mut R b)) /\
  (agrees (icmp_payload_size D b) (icmp_payload_size R b) /\ agrees (icmp_size D b) (icmp_size R b) /\
   agrees (icmp_as_ref D b) (icmp_as_ref R b) /\ agrees (icmp_as_mut D b) (icmp_as_mut R b)) /\
  (agrees (echo_payload_size D b) (echo_payload_size R b) /\ agrees (echo_size D b) (echo_size R b) /\
   agrees (echo_as_ref D b) (echo_as_ref R b) /\ agrees (echo_as_mut D b) (echo_as_mut R b)) /\
  (agrees (information_size D b) (information_size R b) /\
   agrees (information_as_ref D b) (information_as_ref R b) /\ agrees (information_as_mut D b) (information_as_mut R b)) /\
  (agrees (timestamp_size D b) (timestamp_size R b) /\
   agrees (timestamp_as_ref D b) (timestamp_as_ref R b) /\ agrees (timestamp_as_mut D b) (timestamp_as_mut R b)) /\
  (agrees (embedded_payload_size D b) (embedded_payload_size R b) /\ agrees (embedded_size D b) (embedded_size R b) /\
   agrees (embedded_as_ref D b) (embedded_as_ref R b) /\ agrees (redirect_message_as_mut D b) (redirect_message_as_mut R b) /\
   agrees (parameter_problem_as_mut D b) (parameter_problem_as_mut R b) /\ agrees (previous_as_mut D b) (previous_as_mut R b)).
Proof.
  intros c w b D R. pose proof (d_stricter c w) as S. assert (W : target R = target D \/ (target D = Bits32 /\ overflow_checks D = true)) by (left; reflexivity). repeat apply conj.
  all: first [apply ag_ether_payload_size|apply ag_ether_size|apply ag_ether_as_ref|apply ag_ether_as_mut|apply ag_tcp_payload_size|apply ag_tcp_size
    |apply ag_tcp_as_ref|apply ag_tcp_as_mut|apply ag_icmp_payload_size|apply ag_icmp_size|apply ag_icmp_as_ref|apply ag_icmp_as_mut
    |apply ag_echo_payload_size|apply ag_echo_size|apply ag_echo_as_ref|apply ag_echo_as_mut|apply ag_information_size|apply ag_information_as_ref
    |apply ag_information_as_mut|apply ag_timestamp_size|apply ag_timestamp_as_ref|apply ag_timestamp_as_mut|apply ag_embedded_payload_size
    |apply ag_embedded_size|apply ag_embedded_as_ref|apply ag_redirect_as_mut|apply ag_parameter_as_mut|apply ag_previous_as_mut]; first [exact S|exact W].
Qed.
(** C60: checksums, is_valid, update_checksum and checked guards. *)
Lemma c60_checksums : forall c w ip b, let D := debug c w in let R := release c w in
  (agrees (v4_checksum_of D b) (v4_checksum_of R b) /\ agrees (v4_is_valid D b) (v4_is_valid R b) /\
   agrees_mut (v4_update_checksum D b) (v4_update_checksum R b) /\ forall ops, agrees_mut (v4_checked D ops b) (v4_checked R ops b)) /\
  (agrees (udp_checksum_of D ip b) (udp_checksum_of R ip b) /\ agrees (udp_is_valid D ip b) (udp_is_valid R ip b) /\
   agrees_mut (udp_update_checksum D ip b) (udp_update_checksum R ip b) /\ forall ops, agrees_mut (udp_checked D ip ops b) (udp_checked R ip ops b)) /\
  (agrees (tcp_checksum_of D ip b) (tcp_checksum_of R ip b) /\ agrees (tcp_is_valid D ip b) (tcp_is_valid R ip b) /\
   agrees_mut (tcp_update_checksum D ip b) (tcp_update_checksum R ip b) /\ forall ops, agrees_mut (tcp_checked D ip ops b) (tcp_checked R ip ops b)) /\
  (agrees (icmp_checksum_of D b) (icmp_checksum_of R b) /\ agrees (icmp_is_valid D b) (icmp_is_valid R b)) /\
  (forall ops, agrees_mut (echo_checked D ops b) (echo_checked R ops b)) /\
  (forall ops, agrees_mut (information_checked D ops b) (information_checked R ops b)) /\
  (forall ops, agrees_mut (timestamp_checked D ops b) (timestamp_checked R ops b)).
Proof.
  intros c w ip b D R. pose proof (d_stricter c w) as S. assert (W : target R = target D \/ (target D = Bits32 /\ overflow_checks D = true)) by (left; reflexivity). assert (K : cursor_eof D = cursor_eof R) by reflexivity. repeat apply conj; intros.
  all: first [apply ag_v4_checksum_of|apply ag_v4_is_valid|apply am_v4_update|apply am_v4_checked|apply ag_udp_checksum_of|apply ag_udp_is_valid
    |apply am_udp_update|apply am_udp_checked|apply ag_tcp_checksum_of|apply ag_tcp_is_valid|apply am_tcp_update|apply am_tcp_checked
    |apply ag_icmp_checksum_of|apply ag_icmp_is_valid|apply am_echo_checked|apply am_information_checked|apply am_timestamp_checked];
    assumption.
Qed.
Lemma nexts_ag next next' : (forall b, agrees (next b) (next' b)) -> forall n b, nexts next n b = nexts next' n b \/ In Panic (nexts next n b).
Proof.
  intros H. induction n as [|n IH]; intros b; cbn [nexts]; [left; reflexivity|]. destruct (H b) as [->| ->].
  - right. left. reflexivity.
  - destruct (next' b) as [[s a]|e|]; try (left; reflexivity). destruct (IH a) as [->|K]; [left; reflexivity|]. right. right. exact K.
Qed.
(** C60: options and loops over them. *)
Lemma c60_options : forall c w b, let D := debug c w in let R := release c w in
  (agrees (tcpopt_payload_size D b) (tcpopt_payload_size R b) /\ agrees (tcpopt_size D b) (tcpopt_size R b) /\
   agrees (tcpopt_as_ref D b) (tcpopt_as_ref R b) /\ agrees (tcpopt_as_mut D b) (tcpopt_as_mut R b)) /\
  (agrees (v4opt_payload_size D b) (v4opt_payload_size R b) /\ agrees (v4opt_size D b) (v4opt_size R b) /\
   agrees (v4opt_as_ref D b) (v4opt_as_ref R b) /\ agrees (v4opt_as_mut D b) (v4opt_as_mut R b)) /\
  (forall n, nexts (tcp_iter_next D) n b = nexts (tcp_iter_next R) n b \/ In Panic (nexts (tcp_iter_next D) n b)) /\
  (forall n, nexts (v4_iter_next D) n b = nexts (v4_iter_next R) n b \/ In Panic (nexts (v4_iter_next D) n b)).
Proof.
  intros c w b D R. pose proof (d_stricter c w) as S. assert (W : target R = target D \/ (target D = Bits32 /\ overflow_checks D = true)) by (left; reflexivity). repeat apply conj; intros.
  all: first [apply ag_tcpopt_payload_size|apply ag_tcpopt_size|apply ag_tcpopt_as_ref|apply ag_tcpopt_as_mut
    |apply ag_v4opt_payload_size|apply ag_v4opt_size|apply ag_v4opt_as_ref|apply ag_v4opt_as_mut
    |apply nexts_ag; intros; first [apply ag_tcp_iter_next|apply ag_v4_iter_next]]; first [exact S|exact W].
Qed.
(** C60: Debug formatting. *)
Lemma c60_formatting : forall c w b, let D := debug c w in let R := release c w in
  agrees (v4_debug D b) (v4_debug R b) /\ (forall ip, agrees (ip_debug D ip) (ip_debug R ip)) /\ agrees (icmp_debug D b) (icmp_debug R b) /\
  agrees (parameter_problem_debug D b) (parameter_problem_debug R b) /\ agrees (redirect_message_debug D b) (redirect_message_debug R b) /\
  agrees (previous_debug D b) (previous_debug R b).
Proof.
  intros c w b D R. pose proof (d_stricter c w) as S. assert (W : target R = target D \/ (target D = Bits32 /\ overflow_checks D = true)) by (left; reflexivity). repeat apply conj; intros.
  all: first [apply ag_v4_debug|apply ag_ip_debug|apply ag_icmp_debug|apply ag_parameter_debug|apply ag_redirect_debug|apply ag_previous_debug]; first [exact S|exact W].
Qed.
(** C60: buffers, in any state. *)
Lemma c60_buffers : forall c w n f b, let D := debug c w in let R := release c w in
  agrees (buf_data D b) (buf_data R b) /\ agrees_mut (buf_data_mut D f b) (buf_data_mut R f b) /\
  agrees_mut (buf_next D n b) (buf_next R n b) /\ agrees_mut (buf_more D n b) (buf_more R n b).
Proof.
  intros c w n f b D R. pose proof (d_stricter c w) as S. assert (W : target R = target D \/ (target D = Bits32 /\ overflow_checks D = true)) by (left; reflexivity). repeat apply conj.
  - apply ag_buf_data; [exact S|exact W].
  - apply am_buf_data_mut; [exact S|exact W|apply am_same].
  - apply am_buf_next; [exact S|exact W].
  - apply am_buf_more; [exact S|exact W].
Qed.
(** C60: every builder program, well used or misused, on any buffer. *)
Lemma c60_builders : forall c w o cs cl buf, agrees (program (debug c w) o cs cl buf) (program (release c w) o cs cl buf).
Proof. intros. apply ag_program_all; [apply d_stricter|left; reflexivity|reflexivity]. Qed.
Lemma c60_previews : forall c w o cs parse buf, agrees (preview (debug c w) o cs parse buf) (preview (release c w) o cs parse buf).
Proof. intros. apply ag_preview; [apply d_stricter|left; reflexivity]. Qed.
(** C60: what release computes where debug panics can be nonsense: the payload size
    of an unchecked 3-byte Ethernet frame; an option whose length byte is 0. *)
Lemma c60_equal_refuted : exists b o, forall c w,
  ether_payload_size (debug c w) b = Panic /\ ether_payload_size (release c w) b = Ok (@USIZE (release c w) - 11) /\
  tcp_iter_next (debug c w) o = Panic /\ tcp_iter_next (release c w) o = Ok (Yield o, o).
Proof. exists [1; 2; 3], [2; 0; 5; 5]. intros [] []; vm_compute; repeat split. Qed.

(** C60: the version of std matters only for UDP and TCP checksums of odd length. *)
Lemma c60_std : forall E E' b ip, overflow_checks E = overflow_checks E' -> target E = target E' ->
  v4_checksum_of E b = v4_checksum_of E' b /\ icmp_checksum_of E b = icmp_checksum_of E' b /\
  v4_is_valid E b = v4_is_valid E' b /\ icmp_is_valid E b = icmp_is_valid E' b /\
  tcp_iter_next E b = tcp_iter_next E' b /\ v4_iter_next E b = v4_iter_next E' b /\
  (len b mod 2 = 0 -> udp_checksum_of E ip b = udp_checksum_of E' ip b /\ tcp_checksum_of E ip b = tcp_checksum_of E' ip b) /\
  (forall o cs parse buf, preview E o cs parse buf = preview E' o cs parse buf) /\
  (forall o cs cl buf, cl <> ClUdp -> cl <> ClTcp -> program E o cs cl buf = program E' o cs cl buf).
Proof.
  intros E E' b ip HO HT. assert (W1 : target E' = target E \/ (target E = Bits32 /\ overflow_checks E = true)) by (left; congruence).
  assert (W2 : target E = target E' \/ (target E' = Bits32 /\ overflow_checks E' = true)) by (left; congruence). assert (S1 : overflow_checks E' = true -> overflow_checks E = true) by congruence.
  assert (S2 : overflow_checks E = true -> overflow_checks E' = true) by congruence.
  repeat apply conj; intros.
  1-6: apply both;
      first [apply ag_v4_checksum_of|apply ag_icmp_checksum_of|apply ag_v4_is_valid|apply ag_icmp_is_valid|apply ag_tcp_iter_next|apply ag_v4_iter_next]; assumption.
  - assert (L : forall (X Y : env) skip c, overflow_checks X = overflow_checks Y -> target X = target Y -> forall pos r, carry_loop X skip pos c r = carry_loop Y skip pos c r).
    { intros X Y skip c HXY HW pos r. apply both; apply ag_carry_loop; first [congruence|left; congruence]. }
    assert (L2 : forall (X Y : env) skip c, overflow_checks X = overflow_checks Y -> target X = target Y -> forall pos r, plain_loop X skip pos c r = plain_loop Y skip pos c r).
    { intros X Y skip c HXY HW pos r. apply both; apply ag_plain_loop; first [congruence|left; congruence]. }
    assert (Z : forall X skip n c, (List.length c <= n)%nat -> len c mod 2 = 0 -> forall pos r,
      (forall r' rest, carry_loop X skip pos c r = Ok (r', rest) -> rest = []) /\ (forall r' rest, plain_loop X skip pos c r = Ok (r', rest) -> rest = [])).
    { intros X skip. induction n as [|n IH]; intros [|x [|y c]] Hl Hm pos r; cbn [List.length] in Hl; try lia; cbn [carry_loop plain_loop].
      - split; intros r' rest K; injection K; congruence.
      - split; intros r' rest K; injection K; congruence.
      - exfalso. revert Hm. vm_compute. discriminate.
      - assert (Hc : len c mod 2 = 0) by (unfold len in *; cbn [List.length] in Hm; lia).
        destruct (pos + 2 =? skip); [apply IH; [lia|exact Hc]|]. destruct (u32_add X r (x * 256 + y)); cbn [bind]; [|split; discriminate|split; discriminate].
        split; [apply IH; [lia|exact Hc]|apply IH; [lia|exact Hc]]. }
    split.
    + unfold udp_checksum_of. destruct (pseudo_header IP_Udp ip b) as [p|e|]; cbn [bind]; try reflexivity.
      rewrite (L E E' 0 p HO HT). destruct (carry_loop E' 0 0 p 0) as [[r1 ?]|e|]; cbn [bind]; try reflexivity.
      rewrite (L E E' 8 b HO HT). destruct (carry_loop E' 8 0 b r1) as [[r2 rest]|e|] eqn:C; cbn [bind]; try reflexivity.
      rewrite (proj1 (Z E' 8 _ b (le_n _) H 0 r1) r2 rest C). reflexivity.
    + unfold tcp_checksum_of. destruct (pseudo_header IP_Tcp ip b) as [p|e|]; cbn [bind]; try reflexivity.
      rewrite (L2 E E' 0 p HO HT). destruct (plain_loop E' 0 0 p 0) as [[r1 ?]|e|]; cbn [bind]; try reflexivity.
      rewrite (L2 E E' 18 b HO HT). destruct (plain_loop E' 18 0 b r1) as [[r2 rest]|e|] eqn:C; cbn [bind]; try reflexivity.
      rewrite (proj2 (Z E' 18 _ b (le_n _) H 0 r1) r2 rest C). cbn [bind].
      pose proof (fold_loop_ag E E' S1 W1 3 r2) as K1. pose proof (fold_loop_ag E' E S2 W2 3 r2) as K2.
      destruct (fold_loop E 3 r2) as [x|], (fold_loop E' 3 r2) as [y|]; try reflexivity.
      * rewrite (both x y); [reflexivity|destruct x; exact K1|destruct y; exact K2].
      * contradiction.
      * contradiction.
  - apply both; apply ag_preview; assumption.
  - apply both; apply ag_program; assumption.
Qed.
Example c60_example : forall c w, let p := program (debug c w) OpEther [CallEther (EtherSource (Hw 1 2 3 4 5 6)); CallEtherIp; CallIpV4; CallV4 (V4Set (V4SetTtl 9)); CallV4Udp; CallUdp (UdpPayload [7; 8])] ClUdp dynamic_new in
  (exists out, p = Ok out /\ len out = 44) /\ p = program (release c w) OpEther [CallEther (EtherSource (Hw 1 2 3 4 5 6)); CallEtherIp; CallIpV4; CallV4 (V4Set (V4SetTtl 9)); CallV4Udp; CallUdp (UdpPayload [7; 8])] ClUdp dynamic_new.
Proof. intros [] []; vm_compute; (split; [eexists; split; reflexivity|reflexivity]). Qed.
