(** * ViaProofs: C59 (builders edited through as_packet_mut). *)
From Verif Require Import Base Enums Buffer Ether Ipv4 Ip Udp Tcp Icmp Builders Spec SpecCalls SpecBuild SpecUser SpecEdit SpecVia
  Lemmas ParseProofs SliceProofs AccessProofs FieldProofs ChecksumLemmas ChecksumProofs GuardProofs BufferProofs BuildLemmas FinalLemmas ChainLemmas StateLemmas AsPacketProofs.
From Coq Require Import ZifyBool ZifyNat ZifyN.
Ltac Zify.zify_post_hook ::= Z.div_mod_to_equations.

Lemma run_app {A} (r1 : A -> builder -> res builder) xs ys : forall b, run r1 (xs ++ ys) b = let* b' := run r1 xs b in run r1 ys b'.
Proof.
  induction xs as [|x xs IH]; intros b; [reflexivity|]. cbn [app run]. destruct (r1 x b) as [b'|e|]; cbn [bind]; [apply IH|reflexivity..].
Qed.
(** as_packet_mut hands out what as_packet shows. *)
Lemma range_mut_parse (parse : bytes -> res bytes) f i j b d : (let* w := slice b i j in parse w) = Ok d ->
  range_mut i j (mlet parse (fun _ => f)) b = range_mut i j f b.
Proof.
  unfold slice, range_mut. destruct ((i <=? j) && (j <=? len b)); [|discriminate]. cbn [bind]. unfold mlet. intros ->. reflexivity.
Qed.
Lemma through_edit E parse f b d : builder_as_packet E parse b = Ok d -> through E parse f b = edit E f b.
Proof.
  unfold builder_as_packet, through, builder_as_packet_mut, edit, try_buf, buf_data, buf_data_mut. intros H.
  destruct (b_buffer b) as [m o l|m o l u]; destruct (usize_add E o l) as [e|x|]; cbn [bind] in *; try discriminate;
    rewrite (range_mut_parse _ _ _ _ _ _ H); destruct (range_mut o e f m) as [m' [[]|x|]]; reflexivity.
Qed.
Lemma usize_add_err E a b e : usize_add E a b <> Err e.
Proof. unfold usize_add. destruct (a + b <? USIZE); [discriminate|]. destruct (overflow_checks E); discriminate. Qed.
Lemma through_refused E parse f b e : builder_as_packet E parse b = Err e -> through E parse f b = Err e.
Proof.
  unfold builder_as_packet, through, builder_as_packet_mut, buf_data, buf_data_mut. intros H.
  assert (K : forall i j m, (let* w := slice m i j in parse w) = Err e -> exists m', range_mut i j (mlet parse (fun _ => f)) m = (m', Err e)).
  { intros i j m. unfold slice, range_mut. destruct ((i <=? j) && (j <=? len m)); [|discriminate]. cbn [bind]. unfold mlet. intros ->. eexists. reflexivity. }
  destruct (b_buffer b) as [m o l|m o l u]; pose proof (usize_add_err E o l) as Hx; destruct (usize_add E o l) as [z|x|]; cbn [bind] in *; try discriminate;
    try (destruct (Hx x eq_refl)); destruct (K _ _ _ H) as [m' ->]; reflexivity.
Qed.
(** Running a mixture. *)
Section Mixed.
  Context {A S : Type} (E : env) (run1 : A -> builder -> res builder) (parse : bytes -> res bytes) (apply : S -> mut) (m : S -> A).
  Lemma run_mixed xs b0 :
    (forall s, In (Through s) xs -> forall b, run1 (m s) b = edit E (apply s) b) ->
    (forall before s rest b, xs = before ++ Through s :: rest -> run run1 (map (as_method m) before) b0 = Ok b -> exists d, builder_as_packet E parse b = Ok d) ->
    run (mixed E run1 parse apply) xs b0 = run run1 (map (as_method m) xs) b0.
  Proof.
    revert b0. induction xs as [|x xs IH]; intros b0 Hm Hs; [reflexivity|]. cbn [run map].
    assert (Hx : mixed E run1 parse apply x b0 = run1 (as_method m x) b0).
    { destruct x as [o|s]; [reflexivity|]. cbn [mixed as_method]. destruct (Hs [] s xs b0 eq_refl eq_refl) as [d Hd].
      rewrite (through_edit _ _ _ _ _ Hd). symmetry. apply Hm. left. reflexivity. }
    rewrite Hx. destruct (run1 (as_method m x) b0) as [b1|e|] eqn:H1; cbn [bind]; [|reflexivity..].
    apply IH.
    - intros s Hin. apply Hm. right. exact Hin.
    - intros before s rest b -> Hb. apply (Hs (x :: before) s rest b eq_refl). cbn [map run]. rewrite H1. exact Hb.
  Qed.
End Mixed.
Lemma one_payload_prefix ps qs p : one_payload (ps ++ qs) p -> exists q, one_payload ps q /\ (q = [] \/ q = p).
Proof.
  intros [H|[H ->]].
  - destruct ps as [|x ps]; [exists []; split; [right; split; reflexivity|left; reflexivity]|]. cbn [app] in H. injection H as -> H.
    apply app_eq_nil in H. destruct H as [-> ->]. exists p. split; [left; reflexivity|right; reflexivity].
  - apply app_eq_nil in H. destruct H as [-> ->]. exists []. split; [right; split; reflexivity|left; reflexivity].
Qed.
Lemma fresh_buffer_less {E : env} buf need p q : fresh_buffer buf need p -> q = [] \/ q = p -> fresh_buffer buf need q.
Proof.
  intros H [-> | ->]; [|exact H]. destruct H; constructor; try assumption. rewrite len_nil. lia.
Qed.
Lemma Forall_prefix {A} (P : A -> Prop) (m : list A) n : Forall P (m ++ n) -> Forall P m.
Proof. intros H. apply Forall_app in H. apply H. Qed.

Lemma ether_mixed_eq E xs p buf : let ops := map (as_method ether_method) xs in
  Forall ether_op_ok ops -> one_payload (ether_payloads ops) p -> fresh_buffer buf 14 p ->
  ether_mixed E xs buf = ether_builder E ops buf.
Proof.
  intros ops Ho Hp Hf. unfold ether_mixed, ether_builder. destruct (ether_with E buf) as [e|x|] eqn:He; cbn [bind]; [|reflexivity..].
  apply run_mixed; [intros [] _ b; reflexivity|]. intros before s rest b Hx Hb. unfold ops in *. rewrite Hx, map_app in Ho, Hp.
  unfold ether_payloads in Hp. rewrite flat_map_app in Hp.
  destruct (one_payload_prefix _ _ _ Hp) as (q & Hq & Hpq).
  destruct (c48_ether E _ q buf (Forall_prefix _ _ _ Ho) Hq (fresh_buffer_less _ _ _ _ Hf Hpq)) as [H _].
  unfold ether_builder in H. rewrite He in H. cbn [bind] in H. rewrite Hb in H. cbn [bind] in H. eexists. exact H.
Qed.
Lemma fresh_buffer_need {E : env} buf need need' p : fresh_buffer buf need p -> need' <= need -> fresh_buffer buf need' p.
Proof. intros H Hn. destruct H; constructor; lia || assumption. Qed.
Notation eth_methods eth := (option_map (map (as_method ether_method)) eth).
Lemma start_v4_mixed_eq E eth p buf need : eth_ok (eth_methods eth) -> fresh_buffer buf (eth_bytes (eth_methods eth) + need) p ->
  start_v4_mixed E eth buf = start_v4 E (eth_methods eth) buf.
Proof.
  intros He Hf. destruct eth as [xs|]; [|reflexivity]. cbn [start_v4_mixed start_v4 option_map eth_ok eth_bytes] in *. destruct He as [He Hp].
  assert (Hb : fresh_buffer buf 14 []).
  { eapply fresh_buffer_less; [eapply fresh_buffer_need; [exact Hf|lia]|left; reflexivity]. }
  rewrite (ether_mixed_eq E xs [] buf He ltac:(right; split; [exact Hp|reflexivity]) Hb). unfold ether_builder.
  destruct (ether_with E buf) as [e|x|]; reflexivity.
Qed.
Lemma v4_mixed_eq E eth xs p buf : let ops := map (as_method V4Set) xs in
  eth_ok (eth_methods eth) -> Forall v4_op_ok ops -> one_payload (v4_payloads ops) p -> fresh_buffer buf (eth_bytes (eth_methods eth) + 20) p ->
  v4_mixed E eth xs buf = v4_builder E (eth_methods eth) ops buf.
Proof.
  intros ops He Ho Hp Hf. unfold v4_mixed, v4_builder. rewrite (start_v4_mixed_eq E eth p buf 20 He Hf).
  destruct (start_v4 E (eth_methods eth) buf) as [e|x|] eqn:Hs; cbn [bind]; [|reflexivity..].
  apply run_mixed; [intros s _ b; reflexivity|]. intros before s rest b Hx Hb. unfold ops in *. rewrite Hx, map_app in Ho, Hp.
  unfold v4_payloads in Hp. rewrite flat_map_app in Hp.
  destruct (one_payload_prefix _ _ _ Hp) as (q & Hq & Hpq).
  destruct (c48_v4 E _ _ q buf He (Forall_prefix _ _ _ Ho) Hq (fresh_buffer_less _ _ _ _ Hf Hpq)) as [H _].
  unfold v4_builder in H. rewrite Hs in H. cbn [bind] in H. rewrite Hb in H. cbn [bind] in H. eexists. exact H.
Qed.
Lemma v4_setters_map ops : v4_payloads ops = [] -> map V4Set (v4_setters ops) = ops.
Proof.
  induction ops as [|o ops IH]; [reflexivity|]. destruct o as [s|p]; [|discriminate]. intros H. cbn [v4_setters flat_map app map]. f_equal. apply IH, H.
Qed.
Lemma v4_builder_layer E eth ops buf : v4_payloads ops = [] -> v4_builder E eth ops buf = v4_layer E eth (v4_setters ops) buf.
Proof. intros H. unfold v4_layer. rewrite v4_setters_map by exact H. reflexivity. Qed.

(** ** C59 *)
(** C59: Ethernet: a mixture of methods and of setters called through as_packet_mut
    leaves the same builder as the methods alone. *)
Lemma c59_ether : forall E xs p buf, let ops := map (as_method ether_method) xs in
  Forall ether_op_ok ops -> one_payload (ether_payloads ops) p -> fresh_buffer buf 14 p ->
  ether_mixed E xs buf = ether_builder E ops buf.
Proof. exact ether_mixed_eq. Qed.
(** C59: IPv4, on its own or in Ethernet. *)
Lemma c59_v4 : forall E eth xs p buf, let eops := option_map (map (as_method ether_method)) eth in let ops := map (as_method V4Set) xs in
  eth_ok eops -> Forall v4_op_ok ops -> one_payload (v4_payloads ops) p -> fresh_buffer buf (eth_bytes eops + 20) p ->
  v4_mixed E eth xs buf = v4_builder E eops ops buf.
Proof. intros E eth xs p buf. exact (v4_mixed_eq E eth xs p buf). Qed.
(** C59: UDP, mixing in all three layers. *)
Lemma c59_udp : forall E eth vs xs p buf, let eops := option_map (map (as_method ether_method)) eth in
  let vops := map (as_method V4Set) vs in let ops := map (as_method UdpSet) xs in
  eth_ok eops -> Forall v4_op_ok vops -> v4_payloads vops = [] -> Forall udp_op_ok ops -> one_payload (udp_payloads ops) p ->
  fresh_buffer buf (eth_bytes eops + 28) p ->
  udp_mixed E eth vs xs buf = udp_builder E eops (v4_setters vops) ops buf.
Proof.
  intros E eth vs xs p buf eops vops ops He Hv Hvp Ho Hp Hf. unfold udp_mixed, udp_builder.
  assert (Hf' : fresh_buffer buf (eth_bytes eops + 20) []).
  { eapply fresh_buffer_less; [eapply fresh_buffer_need; [exact Hf|lia]|left; reflexivity]. }
  pose proof (v4_mixed_eq E eth vs [] buf He Hv ltac:(right; split; [exact Hvp|reflexivity]) Hf') as V. cbv zeta in V. fold vops in V. rewrite V.
  fold eops. rewrite v4_builder_layer by exact Hvp.
  destruct (v4_layer E eops (v4_setters vops) buf) as [v|x|] eqn:Hs; cbn [bind]; [|reflexivity..].
  destruct (v4_udp E v) as [u|x|] eqn:Hu; cbn [bind]; [|reflexivity..].
  apply run_mixed; [intros s _ b; reflexivity|]. intros before s rest b Hx Hb. unfold ops in *. rewrite Hx, map_app in Ho, Hp.
  unfold udp_payloads in Hp. rewrite flat_map_app in Hp.
  destruct (one_payload_prefix _ _ _ Hp) as (q & Hq & Hpq).
  destruct (c48_udp E _ _ _ q buf He (v4_setters_ok _ Hv) (Forall_prefix _ _ _ Ho) Hq (fresh_buffer_less _ _ _ _ Hf Hpq)) as [H _].
  unfold udp_builder in H. rewrite Hs in H. cbn [bind] in H. rewrite Hu in H. cbn [bind] in H. rewrite Hb in H. cbn [bind] in H. eexists. exact H.
Qed.
Lemma removelast_prefix {A} (l m : list A) x : exists k, removelast (l ++ x :: m) = l ++ k.
Proof.
  exists (removelast (x :: m)). apply removelast_app. discriminate.
Qed.
Lemma flags_last_prefix l m : flags_last (l ++ m) -> flags_last l.
Proof.
  unfold flags_last. destruct m as [|x m]; [rewrite app_nil_r; trivial|]. destruct (removelast_prefix l m x) as [k ->]. intros H. apply Forall_prefix in H.
  destruct l as [|y l]; [constructor|]. rewrite (app_removelast_last y (l := y :: l)) in H by discriminate. apply Forall_prefix in H. exact H.
Qed.
(** C59: TCP, where [flags] is the last setter called. *)
Lemma c59_tcp : forall E eth vs xs p buf, let eops := option_map (map (as_method ether_method)) eth in
  let vops := map (as_method V4Set) vs in let ops := map (as_method TcpSet) xs in
  eth_ok eops -> Forall v4_op_ok vops -> v4_payloads vops = [] -> Forall tcp_op_ok ops -> flags_last (tcp_setters ops) -> one_payload (tcp_payloads ops) p ->
  fresh_buffer buf (eth_bytes eops + 40) p ->
  tcp_mixed E eth vs xs buf = tcp_builder E eops (v4_setters vops) ops buf.
Proof.
  intros E eth vs xs p buf eops vops ops He Hv Hvp Ho Hfl Hp Hf. unfold tcp_mixed, tcp_builder.
  assert (Hf' : fresh_buffer buf (eth_bytes eops + 20) []).
  { eapply fresh_buffer_less; [eapply fresh_buffer_need; [exact Hf|lia]|left; reflexivity]. }
  pose proof (v4_mixed_eq E eth vs [] buf He Hv ltac:(right; split; [exact Hvp|reflexivity]) Hf') as V. cbv zeta in V. fold vops in V. rewrite V.
  fold eops. rewrite v4_builder_layer by exact Hvp.
  destruct (v4_layer E eops (v4_setters vops) buf) as [v|x|] eqn:Hs; cbn [bind]; [|reflexivity..].
  destruct (v4_tcp E v) as [u|x|] eqn:Hu; cbn [bind]; [|reflexivity..].
  apply run_mixed; [intros s _ b; reflexivity|]. intros before s rest b Hx Hb. unfold ops in *. rewrite Hx, map_app in Ho, Hp, Hfl.
  unfold tcp_payloads in Hp. rewrite flat_map_app in Hp. unfold tcp_setters in Hfl. rewrite flat_map_app in Hfl.
  destruct (one_payload_prefix _ _ _ Hp) as (q & Hq & Hpq).
  destruct (c48_tcp E _ _ _ q buf He (v4_setters_ok _ Hv) (Forall_prefix _ _ _ Ho) (flags_last_prefix _ _ Hfl) Hq (fresh_buffer_less _ _ _ _ Hf Hpq)) as [d [H _]].
  unfold tcp_builder in H. rewrite Hs in H. cbn [bind] in H. rewrite Hu in H. cbn [bind] in H. rewrite Hb in H. cbn [bind] in H. eexists. exact H.
Qed.
(** *** The kind flag of the ICMP builders *)
Definition setk (k : bool) (b : builder) : builder :=
  {| b_buffer := b_buffer b; b_fin := b_fin b; b_ip := b_ip b; b_kind := k; b_payload := b_payload b; b_payload_length := b_payload_length b |}.
Lemma setk_same b : setk (b_kind b) b = b. Proof. destruct b; reflexivity. Qed.
Lemma edit_setk E f k b : edit E f (setk k b) = let* b' := edit E f b in Ok (setk k b').
Proof. unfold edit. cbn [setk b_buffer]. destruct (try_buf _) as [x|x|]; reflexivity. Qed.
Lemma edit_kind E f b b' : edit E f b = Ok b' -> b_kind b' = b_kind b.
Proof. unfold edit. destruct (try_buf _) as [x|x|]; cbn [bind]; try discriminate. intros H. apply Ok_inj in H. subst b'. reflexivity. Qed.
Lemma payload_setk E c p : forall k b, payload_loop E c p (setk k b) = let* b' := payload_loop E c p b in Ok (setk k b').
Proof.
  induction p as [|x p IH]; intros k b; [reflexivity|]. cbn [payload_loop setk b_buffer]. destruct (try_buf (buf_more E 1 (b_buffer b))) as [y|y|]; cbn [bind]; try reflexivity.
  change (with_buffer (setk k b) y) with (setk k (with_buffer b y)).
  assert (H2 : (if c then let* n := usize_add E (b_payload_length (setk k (with_buffer b y))) 1 in Ok (with_payload_length (setk k (with_buffer b y)) n) else Ok (setk k (with_buffer b y))) =
    let* b2 := (if c then let* n := usize_add E (b_payload_length (with_buffer b y)) 1 in Ok (with_payload_length (with_buffer b y) n) else Ok (with_buffer b y)) in Ok (setk k b2)).
  { destruct c; [|reflexivity]. cbn [setk b_payload_length]. destruct (usize_add E (b_payload_length (with_buffer b y)) 1) as [z|z|]; reflexivity. }
  rewrite H2. clear H2. set (r := if c then _ else _). destruct r as [b2|e|]; cbn [bind]; try reflexivity.
  rewrite edit_setk. destruct (edit E (set_last x) b2) as [b3|e|]; cbn [bind]; try reflexivity. apply IH.
Qed.
Lemma add_payload_setk E e c p k b : add_payload E e c p (setk k b) = let* b' := add_payload E e c p b in Ok (setk k b').
Proof.
  unfold add_payload. cbn [setk b_payload]. destruct (b_payload b); [reflexivity|].
  change (with_payload (setk k b)) with (setk k (with_payload b)). apply payload_setk.
Qed.
Lemma payload_kind E c p : forall b b', payload_loop E c p b = Ok b' -> b_kind b' = b_kind b.
Proof.
  intros b b' H. pose proof (payload_setk E c p (b_kind b) b) as Q. rewrite setk_same, H in Q. cbn [bind] in Q. apply Ok_inj in Q. rewrite Q. reflexivity.
Qed.
Lemma add_payload_kind E e c p b b' : add_payload E e c p b = Ok b' -> b_kind b' = b_kind b.
Proof. unfold add_payload. destruct (b_payload b); [discriminate|]. intros H. rewrite (payload_kind _ _ _ _ _ H). reflexivity. Qed.
Lemma echo_run1_kind E o b b' : echo_run1 E o b = Ok b' -> b_kind b' = b_kind b || echo_kindof o.
Proof.
  destruct o; cbn [echo_run1 echo_kindof]; intros H; rewrite ?orb_false_r, ?orb_true_r.
  1,2: rewrite (edit_kind _ _ _ _ H); reflexivity.
  1,2: apply (edit_kind _ _ _ _ H). apply (add_payload_kind _ _ _ _ _ _ H).
Qed.
Lemma echo_run_kind E ops : forall b b', run (echo_run1 E) ops b = Ok b' -> b_kind b' = b_kind b || existsb echo_kindof ops.
Proof.
  induction ops as [|o ops IH]; intros b b' H; cbn [run existsb] in *; [apply Ok_inj in H; subst; rewrite orb_false_r; reflexivity|].
  destruct (echo_run1 E o b) as [b1|x|] eqn:H1; cbn [bind] in H; try discriminate. rewrite (IH _ _ H), (echo_run1_kind _ _ _ _ H1), orb_assoc. reflexivity.
Qed.
Lemma echo_run1_setk E o k b : echo_run1 E o (setk k b) = let* b' := echo_run1 E o b in Ok (setk (k || echo_kindof o) b').
Proof.
  destruct o; cbn [echo_run1 echo_kindof]; rewrite ?orb_false_r, ?orb_true_r.
  1,2: change (with_kind (setk k b)) with (setk true (with_kind b)); apply edit_setk.
  1,2: apply edit_setk. apply add_payload_setk.
Qed.
(** Through as_packet_mut the flag is not set. *)
Lemma echo_mixed1 E s k b d : builder_as_packet E echo_new b = Ok d ->
  through E echo_new (echo_apply s) (setk k b) = let* b' := echo_run1 E (echo_method s) b in Ok (setk k b').
Proof.
  intros H. rewrite (through_edit E echo_new _ (setk k b) d) by exact H. rewrite edit_setk.
  destruct s; cbn [echo_method echo_run1 echo_apply]; try reflexivity;
    rewrite <- edit_setk; (change (setk k b) with (setk k (with_kind b)); rewrite edit_setk; reflexivity).
Qed.
Lemma echo_mixed_run E xs : forall k b0,
  (forall before s rest b, xs = before ++ Through s :: rest -> run (echo_run1 E) (map (as_method echo_method) before) b0 = Ok b -> exists d, builder_as_packet E echo_new b = Ok d) ->
  run (mixed E (echo_run1 E) echo_new echo_apply) xs (setk k b0) =
  let* b := run (echo_run1 E) (map (as_method echo_method) xs) b0 in Ok (setk (k || existsb echo_kindof (methods xs)) b).
Proof.
  induction xs as [|x xs IH]; intros k b0 Hs; [cbn [run map bind methods flat_map existsb]; rewrite orb_false_r; reflexivity|]. cbn [run map].
  assert (Hn : forall b1, echo_run1 E (as_method echo_method x) b0 = Ok b1 -> forall before s rest b, xs = before ++ Through s :: rest ->
    run (echo_run1 E) (map (as_method echo_method) before) b1 = Ok b -> exists d, builder_as_packet E echo_new b = Ok d).
  { intros b1 H1 before s rest b -> Hb. apply (Hs (x :: before) s rest b eq_refl). cbn [map run]. rewrite H1. exact Hb. }
  destruct x as [o|s]; cbn [mixed as_method methods flat_map app] in *.
  - rewrite echo_run1_setk. destruct (echo_run1 E o b0) as [b1|e|]; cbn [bind]; try reflexivity.
    rewrite (IH _ _ (Hn b1 eq_refl)). cbn [existsb]. rewrite orb_assoc. reflexivity.
  - destruct (Hs [] s xs b0 eq_refl eq_refl) as [d Hd]. rewrite (echo_mixed1 E s k b0 d Hd).
    destruct (echo_run1 E (echo_method s) b0) as [b1|e|]; cbn [bind]; try reflexivity. apply (IH _ _ (Hn b1 eq_refl)).
Qed.
(** C59: echo: the same, but request or reply has to be called as a method of the
    builder: make_request and make_reply through as_packet_mut do not count. *)
Lemma c59_echo : forall E outer xs p buf, let ops := map (as_method echo_method) xs in
  outer_ok outer -> Forall echo_op_ok ops -> one_payload (echo_payloads ops) p -> fresh_buffer buf (outer_bytes outer + 8) p ->
  let out := (let* c := echo_mixed E outer xs buf in echo_build E c) in
  (echo_kind_given (methods xs) -> out = echo_chain E outer ops buf) /\
  (~ echo_kind_given (methods xs) -> out = Err InvalidPacket).
Proof.
  intros E outer xs p buf ops Ho Hops Hp Hf. cbv zeta.
  pose proof (c48_echo E outer ops p buf Ho Hops Hp Hf) as Q. destruct (echo_after ops) as [[t i] s]. cbv zeta in Q. destruct Q as [Q _].
  unfold echo_mixed, echo_chain. unfold echo_builder in Q. destruct (icmp_layer E outer buf) as [l|x|] eqn:Hl; cbn [bind] in *; try discriminate.
  destruct (icmp_echo E l) as [c|x|] eqn:Hc; cbn [bind] in *; try discriminate.
  assert (Hck : b_kind c = false).
  { revert Hc. unfold icmp_echo, sub, echo_with. destruct (try_buf _) as [y|y|]; cbn [bind]; try discriminate. intros H. apply Ok_inj in H. subst c. reflexivity. }
  rewrite <- (setk_same c), Hck. rewrite echo_mixed_run.
  - rewrite <- Hck, setk_same. fold ops. destruct (run (echo_run1 E) ops c) as [b|x|] eqn:Hb; cbn [bind] in *; try discriminate.
    rewrite Hck. cbn [orb]. rewrite echo_kind_iff. unfold echo_build, icmp_kind_build. cbn [setk b_kind].
    assert (Hsub : existsb echo_kindof (methods xs) = true -> existsb echo_kindof ops = true).
    { unfold ops. clear. intros H. apply existsb_exists in H. destruct H as (o & Hin & Ho). apply existsb_exists. exists o. split; [|exact Ho].
      unfold methods in Hin. apply in_flat_map in Hin. destruct Hin as (x & Hx & Hin). destruct x as [o'|s]; [|destruct Hin]. destruct Hin as [->|[]].
      apply (in_map (as_method echo_method)) in Hx. exact Hx. }
    pose proof (echo_run_kind _ _ _ _ Hb) as Hk. rewrite Hck in Hk. cbn [orb] in Hk. split.
    + intros H. rewrite H. rewrite (Hsub H) in Hk. rewrite Hk. reflexivity.
    + intros H. apply Bool.not_true_is_false in H. rewrite H. reflexivity.
  - intros before s0 rest b Hx Hb. unfold ops in *. rewrite Hx, map_app in Hops, Hp. unfold echo_payloads in Hp. rewrite flat_map_app in Hp.
    destruct (one_payload_prefix _ _ _ Hp) as (q & Hq & Hpq).
    pose proof (c48_echo E outer _ q buf Ho (Forall_prefix _ _ _ Hops) Hq (fresh_buffer_less _ _ _ _ Hf Hpq)) as R.
    destruct (echo_after _) as [[t' i'] s']. cbv zeta in R. destruct R as [R _]. unfold echo_builder in R. rewrite Hl in R. cbn [bind] in R. rewrite Hc in R. cbn [bind] in R.
    rewrite Hb in R. cbn [bind] in R. eexists. exact R.
Qed.
(** *** Information and timestamp *)
Lemma first_through {A S} (xs : list (via A S)) : (exists os, xs = map Method os) \/ exists os s rest, xs = map Method os ++ Through s :: rest.
Proof.
  induction xs as [|[o|s] xs IH].
  - left. exists []. reflexivity.
  - destruct IH as [[os ->]|(os & s & rest & ->)]; [left; exists (o :: os); reflexivity|right; exists (o :: os), s, rest; reflexivity].
  - right. exists [], s, xs. reflexivity.
Qed.
Lemma run_methods {A S} E run1 parse (apply : S -> mut) (os : list A) : forall b, run (mixed E run1 parse apply) (map Method os) b = run run1 os b.
Proof. induction os as [|o os IH]; intros b; [reflexivity|]. cbn [map run mixed]. destruct (run1 o b) as [b'|e|]; cbn [bind]; [apply IH|reflexivity..]. Qed.
Lemma methods_app {A S} (xs ys : list (via A S)) : methods (xs ++ ys) = methods xs ++ methods ys.
Proof. apply flat_map_app. Qed.
Lemma methods_map {A S} (os : list A) : methods (map (@Method A S) os) = os.
Proof. induction os as [|o os IH]; [reflexivity|]. cbn [map methods flat_map app]. f_equal. exact IH. Qed.
Lemma map_method {A S} (m : S -> A) os : map (as_method m) (map Method os) = os.
Proof. rewrite map_map. apply map_id. Qed.
Lemma first_among {A S} (before : list (via A S)) s rest : exists os s' rest', before ++ Through s :: rest = map Method os ++ Through s' :: rest' /\
  exists more, methods before = os ++ more.
Proof.
  destruct (first_through before) as [[os ->]|(os & s' & rest' & ->)].
  - exists os, s, rest. split; [reflexivity|]. exists []. rewrite methods_map, app_nil_r. reflexivity.
  - exists os, s', (rest' ++ Through s :: rest). split; [rewrite <- app_assoc; reflexivity|]. exists (methods rest'). rewrite methods_app, methods_map. reflexivity.
Qed.
Lemma in_methods {A S} (m : S -> A) (xs : list (via A S)) o : In o (methods xs) -> In o (map (as_method m) xs).
Proof.
  intros Hin. unfold methods in Hin. apply in_flat_map in Hin. destruct Hin as (x & Hx & Hin). destruct x as [o'|s]; [|destruct Hin]. destruct Hin as [->|[]].
  apply (in_map (as_method m)) in Hx. exact Hx.
Qed.
Lemma methods_only_first {A S} (os os' : list A) (s s' : S) rest rest' : map Method os ++ Through s :: rest = map Method os' ++ Through s' :: rest' -> os = os'.
Proof.
  revert os'. induction os as [|o os IH]; intros [|o' os'] E1; cbn [map app] in E1; try discriminate; [reflexivity|].
  injection E1 as -> E1. f_equal. apply IH, E1.
Qed.
Section Gated.
  Context {A S : Type} (E : env) (run1 : A -> builder -> res builder) (parse : bytes -> res bytes) (apply : S -> mut) (m : S -> A).
  Context (given : list A -> Prop) (is_make : S -> Prop) (c : builder) (okop : A -> Prop).
  Hypothesis Hdec : forall ops, given ops \/ ~ given ops.
  Hypothesis Hmono : forall ops ops', incl ops ops' -> given ops -> given ops'.
  Hypothesis Hedit : forall s, ~ is_make s -> forall b, run1 (m s) b = edit E (apply s) b.
  Hypothesis Hyes : forall ops b, Forall okop ops -> given ops -> run run1 ops c = Ok b -> exists d, builder_as_packet E parse b = Ok d.
  Hypothesis Hno : forall ops, Forall okop ops -> ~ given ops -> (let* x := run run1 ops c in builder_as_packet E parse x) = Err InvalidPacket.
  Lemma gate (xs : list (via A S)) : (exists os, xs = map Method os) /\ after_kind given xs \/
    exists os s rest, xs = map Method os ++ Through s :: rest /\ (given os <-> after_kind given xs).
  Proof.
    destruct (first_through xs) as [[os Hx]|(os & s & rest & Hx)].
    - left. split; [exists os; exact Hx|]. intros before s rest Hx'.
      assert (Hin : In (Through s) (map (@Method A S) os)) by (rewrite <- Hx, Hx'; apply in_elt).
      apply in_map_iff in Hin. destruct Hin as (o & Ho' & _). discriminate.
    - right. exists os, s, rest. split; [exact Hx|]. split.
      + intros K before s' rest' Hx'. destruct (first_among before s' rest') as (os' & s2 & rest2 & E1 & more & E2).
        rewrite <- Hx', Hx in E1. apply methods_only_first in E1. subst os'. rewrite E2. eapply Hmono; [|exact K]. intros o Hin. apply in_or_app. left. exact Hin.
      + intros Ha. specialize (Ha _ _ _ Hx). rewrite methods_map in Ha. exact Ha.
  Qed.
  Lemma gated xs : Forall okop (map (as_method m) xs) -> (forall s, In (Through s) xs -> ~ is_make s) ->
    (after_kind given xs -> run (mixed E run1 parse apply) xs c = run run1 (map (as_method m) xs) c) /\
    (~ after_kind given xs -> run (mixed E run1 parse apply) xs c = Err InvalidPacket) /\
    (after_kind given xs \/ ~ after_kind given xs).
  Proof.
    intros Hok Hm. split; [|split].
    - intros Ha. apply run_mixed.
      + intros s Hs b. apply Hedit, Hm, Hs.
      + intros before s rest b Hx Hb. specialize (Ha before s rest Hx). rewrite Hx, map_app in Hok.
        eapply Hyes; [eapply Forall_prefix, Hok| |exact Hb]. eapply Hmono; [|exact Ha]. intros o Ho. apply in_methods, Ho.
    - intros Ha. destruct (gate xs) as [[_ G]|(os & s & rest & Hx & G)]; [contradiction|].
      assert (Hn : ~ given os) by (intros K; apply Ha, G, K). rewrite Hx, map_app, map_method in Hok. specialize (Hno os (Forall_prefix _ _ _ Hok) Hn).
      rewrite Hx, run_app, run_methods. destruct (run run1 os c) as [b|x|]; cbn [bind] in *; [|congruence|discriminate].
      cbn [run mixed]. rewrite (through_refused _ _ _ _ _ Hno). reflexivity.
    - destruct (gate xs) as [[_ G]|(os & s & rest & Hx & G)]; [left; exact G|]. rewrite <- G. apply Hdec.
  Qed.
End Gated.
Lemma information_given_dec ops : information_kind_given ops \/ ~ information_kind_given ops.
Proof. rewrite information_kind_iff. destruct (existsb information_kindof ops); [left; reflexivity|right; discriminate]. Qed.
Lemma timestamp_given_dec ops : timestamp_kind_given ops \/ ~ timestamp_kind_given ops.
Proof. rewrite timestamp_kind_iff. destruct (existsb timestamp_kindof ops); [left; reflexivity|right; discriminate]. Qed.
(** C59: information: the same for set_identifier and set_sequence, once request or
    reply has been called on the builder; before that as_packet_mut is refused. *)
Lemma c59_information : forall E outer xs buf, let ops := map (as_method information_method) xs in
  outer_ok outer -> Forall information_op_ok ops -> fresh_buffer buf (outer_bytes outer + 8) [] ->
  (forall s, In (Through s) xs -> ~ info_make s) ->
  (after_kind information_kind_given xs -> information_mixed E outer xs buf = information_builder E outer ops buf) /\
  (~ after_kind information_kind_given xs -> information_mixed E outer xs buf = Err InvalidPacket) /\
  (after_kind information_kind_given xs \/ ~ after_kind information_kind_given xs).
Proof.
  intros E outer xs buf ops Ho Hops Hf Hm.
  assert (G : forall ops', Forall information_op_ok ops' ->
    (information_kind_given ops' -> exists d, (let* x := information_builder E outer ops' buf in builder_as_packet E information_new x) = Ok d) /\
    (~ information_kind_given ops' -> (let* x := information_builder E outer ops' buf in builder_as_packet E information_new x) = Err InvalidPacket)).
  { intros ops' Hops'. pose proof (c48_information E outer ops' buf Ho Hops' Hf) as R. destruct (information_after ops') as [[t' i'] s']. cbv zeta in R. destruct R as [R1 R2].
    split; [|exact R2]. intros K. destruct (R1 K) as [R _]. eexists. exact R. }
  unfold information_mixed, information_builder in *. unfold ops in *.
  destruct (icmp_layer E outer buf) as [l|x|] eqn:Hl; cbn [bind] in *.
  2, 3: destruct (G [InfoRequest] ltac:(repeat constructor)) as [G1 _]; destruct (G1 ltac:(left; left; reflexivity)); discriminate.
  destruct (icmp_information E l) as [c|x|] eqn:Hc; cbn [bind] in *.
  2, 3: destruct (G [InfoRequest] ltac:(repeat constructor)) as [G1 _]; destruct (G1 ltac:(left; left; reflexivity)); discriminate.
  apply (gated E (information_run1 E) information_new information_apply information_method information_kind_given info_make c information_op_ok); try assumption.
  - apply information_given_dec.
  - intros o1 o2 Hi [K|K]; [left|right]; apply Hi, K.
  - intros s Hs b. destruct s; try reflexivity; destruct Hs; [left|right]; reflexivity.
  - intros o b H1 H2 H3. destruct (proj1 (G o H1) H2) as [d Hd]. rewrite H3 in Hd. exists d. exact Hd.
  - intros o H1 H2. apply (proj2 (G o H1) H2).
Qed.
(** C59: timestamp. *)
Lemma c59_timestamp : forall E outer xs buf, let ops := map (as_method timestamp_method) xs in
  outer_ok outer -> Forall timestamp_op_ok ops -> fresh_buffer buf (outer_bytes outer + 20) [] ->
  (forall s, In (Through s) xs -> ~ ts_make s) ->
  (after_kind timestamp_kind_given xs -> timestamp_mixed E outer xs buf = timestamp_builder E outer ops buf) /\
  (~ after_kind timestamp_kind_given xs -> timestamp_mixed E outer xs buf = Err InvalidPacket) /\
  (after_kind timestamp_kind_given xs \/ ~ after_kind timestamp_kind_given xs).
Proof.
  intros E outer xs buf ops Ho Hops Hf Hm.
  assert (G : forall ops', Forall timestamp_op_ok ops' ->
    (timestamp_kind_given ops' -> exists d, (let* x := timestamp_builder E outer ops' buf in builder_as_packet E timestamp_new x) = Ok d) /\
    (~ timestamp_kind_given ops' -> (let* x := timestamp_builder E outer ops' buf in builder_as_packet E timestamp_new x) = Err InvalidPacket)).
  { intros ops' Hops'. pose proof (c48_timestamp E outer ops' buf Ho Hops' Hf) as R. destruct (timestamp_after ops') as [[[[[t' i'] s'] x'] y'] z']. cbv zeta in R. destruct R as [R1 R2].
    split; [|exact R2]. intros K. destruct (R1 K) as [R _]. eexists. exact R. }
  unfold timestamp_mixed, timestamp_builder in *. unfold ops in *.
  destruct (icmp_layer E outer buf) as [l|x|] eqn:Hl; cbn [bind] in *.
  2, 3: destruct (G [TsRequest] ltac:(repeat constructor)) as [G1 _]; destruct (G1 ltac:(left; left; reflexivity)); discriminate.
  destruct (icmp_timestamp E l) as [c|x|] eqn:Hc; cbn [bind] in *.
  2, 3: destruct (G [TsRequest] ltac:(repeat constructor)) as [G1 _]; destruct (G1 ltac:(left; left; reflexivity)); discriminate.
  apply (gated E (timestamp_run1 E) timestamp_new timestamp_apply timestamp_method timestamp_kind_given ts_make c timestamp_op_ok); try assumption.
  - apply timestamp_given_dec.
  - intros o1 o2 Hi [K|K]; [left|right]; apply Hi, K.
  - intros s Hs b. destruct s; try reflexivity; destruct Hs; [left|right]; reflexivity.
  - intros o b H1 H2 H3. destruct (proj1 (G o H1) H2) as [d Hd]. rewrite H3 in Hd. exists d. exact Hd.
  - intros o H1 H2. apply (proj2 (G o H1) H2).
Qed.
(** *** Arbitrary edits of the layer under construction *)
Lemma udp_state_full E eth vs us p r : 
  eth_ok eth -> Forall v4_arg_ok vs -> Forall udp_op_ok us -> one_payload (udp_payloads us) p ->
  sized r [] [] -> fits r (eth_size eth + 28) -> r = None \/ p = [] ->
  eth_size eth + 28 + len p <= ISIZE_MAX ->
  let f' := v4_put (v4_after vs) (V4SetProtocol IP_Udp) in
  exists r' a fs pl, udp_builder E eth vs us (mkbuf r [] []) =
    Ok (B r' (a ++ v4_wire f') (udp_wire (udp_after us) ++ p) (fs ++ [v4_finalizer E (len a) 20]) (len a, 20) false pl 0) /\
    sized r' (a ++ v4_wire f') (udp_wire (udp_after us) ++ p) /\ closes fs a (ether_layer eth) /\ len a = eth_size eth.
Proof.
  intros He Hv Hu Hp Hs Hf Hr Hl. set (f := v4_after vs). set (f' := v4_put f (V4SetProtocol IP_Udp)). set (g := udp_after us). cbv zeta.
  destruct (v4_layer_ok E eth vs r [] [] He Hv Hs ltac:(eapply fits_le; [exact Hf|lia]) ltac:(rewrite len_nil; lia)) as (a & fs & H1 & H2).
  unfold udp_builder. rewrite H1. cbn [bind]. pose proof (v4_after_building vs Hv) as Hb. fold f in Hb, H1 |- *.
  pose proof H2 as Hcl. destruct H2 as [H2l _]. rewrite !len_app, len_ether_layer, len_nil in H2l.
  assert (Hs1 : sized (use r (eth_size eth + 20)) a (v4_wire f)).
  { eapply sized_after; [exact Hs|eapply fits_le; [exact Hf|lia]|rewrite len_v4_wire, len_nil; lia|rewrite len_v4_wire; lia]. }
  unfold v4_udp. erewrite v4_sub_ok; [|exact Hb|reflexivity|exact Hs1|
    apply udp_with_ok; [eapply sized_same; [exact Hs1|reflexivity]|apply fits_use; eapply fits_le; [exact Hf|lia]|rewrite len_v4_wire; lia]].
  fold f'. rewrite use_use. replace (eth_size eth + 20 + 8) with (eth_size eth + 28) by lia. cbn [bind].
  change (zeros 8) with (udp_wire {| uf_src := 0; uf_dst := 0; uf_length := 0; uf_checksum := 0 |}). set (z := Build_udp_fields 0 0 0 0).
  pose proof (one_payload_bytes _ _ Hp (udp_op_payloads us Hu)) as Hpb.
  assert (Ho : oks udp_putop (fun _ _ => True) z us) by (generalize z; clear; induction us; intros z; cbn [oks]; auto).
  assert (Hz : forall c, len c = 8 + len p -> sized (use r (eth_size eth + 28)) (a ++ v4_wire f') c).
  { intros c Hc. unfold sized in *. rewrite len_app, len_v4_wire. pose proof (free_use r _ Hf). destruct Hr as [-> | ->].
    - cbn [free use option_map] in *. lia.
    - rewrite len_nil in *. destruct r; cbn [free use option_map] in *; lia. }
  destruct (run_one (udp_run1 E) udp_wire udp_putop udp_pay (fun _ => false) (fun _ _ => True) false 8 len_udp_wire
    (udp_step E) (udp_step_pay E) ltac:(intros []; cbn; eauto) us z (use r (eth_size eth + 28)) (a ++ v4_wire f')
    (fs ++ [v4_finalizer E (len a) 20]) (len a, len (v4_wire f')) false p Ho Hp Hpb) as [pl R].
  { eapply sized_after; [exact Hs|exact Hf|rewrite len_app, len_v4_wire, len_udp_wire, len_nil; lia|rewrite len_app, len_v4_wire, len_udp_wire; lia]. }
  { rewrite len_app, len_v4_wire. lia. }
  { destruct Hr as [-> | ->]; [left; reflexivity|right; reflexivity]. }
  rewrite R. clear R. rewrite existsb_false, orb_false_r, udp_fold. fold (udp_after us). fold g.
  exists (use r (eth_size eth + 28)), a, fs, pl. split; [rewrite len_v4_wire; reflexivity|]. split; [apply Hz; rewrite len_app, len_udp_wire; reflexivity|]. split; [exact Hcl|lia].
Qed.
Lemma tcp_state_full E eth vs us p r : 
  eth_ok eth -> Forall v4_arg_ok vs -> Forall tcp_op_ok us -> flags_last (tcp_setters us) -> one_payload (tcp_payloads us) p ->
  sized r [] [] -> fits r (eth_size eth + 40) -> r = None \/ p = [] ->
  eth_size eth + 40 + len p <= ISIZE_MAX ->
  let g := tcp_after us in let g' := if flags_called us then tcp_fill g 0 (tf_checksum g) else g in
  tcp_fields_ok g' /\ tf_reserved g' = 0 /\
  let f' := v4_put (v4_after vs) (V4SetProtocol IP_Tcp) in
  exists r' a fs pl, tcp_builder E eth vs us (mkbuf r [] []) =
    Ok (B r' (a ++ v4_wire f') (tcp_wire g' ++ p) (fs ++ [v4_finalizer E (len a) 20]) (len a, 20) false pl (len p)) /\
    sized r' (a ++ v4_wire f') (tcp_wire g' ++ p) /\ closes fs a (ether_layer eth) /\ len a = eth_size eth.
Proof.
  intros He Hv Hu Hfl Hp Hs Hf Hr Hl g g'. set (f := v4_after vs). set (f' := v4_put f (V4SetProtocol IP_Tcp)). cbv zeta.
  destruct (v4_layer_ok E eth vs r [] [] He Hv Hs ltac:(eapply fits_le; [exact Hf|lia]) ltac:(rewrite len_nil; lia)) as (a & fs & H1 & H2).
  unfold tcp_builder. rewrite H1. cbn [bind]. pose proof (v4_after_building vs Hv) as Hb. fold f in Hb, H1 |- *.
  pose proof H2 as Hcl. destruct H2 as [H2l _]. rewrite !len_app, len_ether_layer, len_nil in H2l.
  assert (Hs1 : sized (use r (eth_size eth + 20)) a (v4_wire f)).
  { eapply sized_after; [exact Hs|eapply fits_le; [exact Hf|lia]|rewrite len_v4_wire, len_nil; lia|rewrite len_v4_wire; lia]. }
  unfold v4_tcp. erewrite v4_sub_ok; [|exact Hb|reflexivity|exact Hs1|
    apply tcp_with_ok; [eapply sized_same; [exact Hs1|reflexivity]|apply fits_use; eapply fits_le; [exact Hf|lia]|rewrite len_v4_wire; lia]].
  fold f'. rewrite use_use. replace (eth_size eth + 20 + 20) with (eth_size eth + 40) by lia. cbn [bind]. fold tcp_zero.
  pose proof (one_payload_bytes _ _ Hp (tcp_op_payloads us Hu)) as Hpb.
  destruct (tcp_fold us tcp_zero tcp_zero_building eq_refl Hu Hfl) as (Ho & Hg1 & Hg2 & Hg3). cbv zeta in *.
  pose proof (tcp_putop_offset us tcp_zero) as Hoff. fold (tcp_after us) in Hg1, Hg2, Hg3. fold g in Hg1, Hg2, Hg3.
  assert (Hg : fold_left tcp_putop us tcp_zero = g').
  { unfold g'. destruct Hg3 as [Hg3|Hg3]; rewrite Hg3 in *.
    - destruct (flags_called us); [|reflexivity]. destruct Hg1 as [_ Hg1]. rewrite Hg1 in Hoff. discriminate Hoff.
    - destruct (flags_called us); [reflexivity|]. rewrite tcp_fill_off in Hoff. discriminate Hoff. }
  assert (Hg'1 : tcp_fields_ok g').
  { unfold g'. destruct (flags_called us); [|apply Hg1]. apply tcp_fill_offset; [apply Hg1|lia|apply Hg1]. }
  assert (Hg'2 : tf_reserved g' = 0).
  { unfold g'. destruct (flags_called us); [|exact Hg2]. rewrite tcp_fill_res. exact Hg2. }
  split; [exact Hg'1|]. split; [exact Hg'2|].
  assert (Hz : forall c, len c = 20 + len p -> sized (use r (eth_size eth + 40)) (a ++ v4_wire f') c).
  { intros c Hc. unfold sized in *. rewrite len_app, len_v4_wire. pose proof (free_use r _ Hf). destruct Hr as [-> | ->].
    - cbn [free use option_map] in *. lia.
    - rewrite len_nil in *. destruct r; cbn [free use option_map] in *; lia. }
  destruct (run_one (tcp_run1 E) tcp_wire tcp_putop tcp_pay (fun _ => false) tcp_step_ok true 20 len_tcp_wire
    (tcp_step E) (tcp_step_pay E) ltac:(intros []; cbn; eauto) us tcp_zero (use r (eth_size eth + 40)) (a ++ v4_wire f')
    (fs ++ [v4_finalizer E (len a) 20]) (len a, len (v4_wire f')) false p Ho Hp Hpb) as [pl R].
  { eapply sized_after; [exact Hs|exact Hf|rewrite len_app, len_v4_wire, len_tcp_wire, len_nil; lia|rewrite len_app, len_v4_wire, len_tcp_wire; lia]. }
  { rewrite len_app, len_v4_wire. lia. }
  { destruct Hr as [-> | ->]; [left; reflexivity|right; reflexivity]. }
  rewrite R. clear R. rewrite existsb_false, orb_false_r, Hg.
  exists (use r (eth_size eth + 40)), a, fs, pl. split; [rewrite len_v4_wire; reflexivity|]. split; [apply Hz; rewrite len_app, len_tcp_wire; reflexivity|]. split; [exact Hcl|lia].
Qed.
Lemma through_ok E parse f r a cur cur' fs ip k pl n d : sized r a cur -> parse cur = Ok d -> f cur = (cur', Ok tt) -> len cur' = len cur ->
  through E parse f (B r a cur fs ip k pl n) = Ok (B r a cur' fs ip k pl n).
Proof.
  intros Hs Hp Hf Hl. rewrite (through_edit E parse f _ d).
  - apply edit_ok; assumption.
  - rewrite as_packet_B by exact Hs. exact Hp.
Qed.
(** C59: whatever is done in place to the datagram of a UDP builder, build()
    recomputes length and checksum from the bytes it finds. *)
Lemma c59_udp_edit : forall E eth vs us p buf mutate g q,
  eth_ok eth -> Forall v4_arg_ok vs -> Forall udp_op_ok us -> one_payload (udp_payloads us) p -> fresh_buffer buf (eth_bytes eth + 28) p ->
  len p mod 2 = 0 \/ cursor_eof E = EofKeep ->
  mutate (udp_wire (udp_after us) ++ p) = (udp_wire g ++ q, Ok tt) -> udp_fields_ok g -> is_bytes q -> len q = len p ->
  let f := v4_after vs in
  (let* u := udp_builder E eth vs us buf in let* u := through E udp_new mutate u in udp_build E u) =
  Ok (ether_layer eth ++ v4_wire (v4_finished f 17 (8 + len q)) ++ udp_wire (udp_finished (vf_src f) (vf_dst f) g q) ++ q).
Proof.
  intros E eth vs us p buf mutate g q He Hv Hu Hp Hb Hev Hed Hg Hq Hlq f.
  pose proof (c48_udp E eth vs us p buf He Hv Hu Hp Hb) as Q. cbv zeta in Q. destruct Q as [Q _].
  destruct (fresh_buffer_mk _ _ _ Hb) as (r & -> & Hs & Hf & Hr & Hl). rewrite eth_bytes_size in *.
  destruct (udp_state_full E eth vs us p r He Hv Hu Hp Hs Hf Hr Hl) as (r' & a & fs & pl & H1 & Hz & Hcl & Hla). fold f in H1, Hz.
  set (f' := v4_put f (V4SetProtocol IP_Udp)) in *. rewrite H1 in *. cbn [bind] in *. rewrite as_packet_B in Q by exact Hz.
  erewrite through_ok; [|exact Hz|exact Q|exact Hed|rewrite !len_app, !len_udp_wire; lia]. cbn [bind].
  assert (Hb' : v4_building f') by (apply v4_put_building; [apply v4_after_building, Hv|split; [reflexivity|exact I]]).
  unfold udp_build, udp_prepare. set (cur' := udp_wire g ++ q).
  assert (Hlc : len cur' = 8 + len q) by (unfold cur'; rewrite len_app, len_udp_wire; reflexivity).
  match goal with |- finish (with_fin ?b _) = _ => change (b_buffer b) with (mkbuf r' (a ++ v4_wire f') cur') end.
  rewrite mk_length.
  match goal with |- finish (with_fin ?b ?x) = _ => change (finish (with_fin b x)) with
    (finish (B r' (a ++ v4_wire f') cur' ((fs ++ [v4_finalizer E (len a) 20]) ++ [udp_finalizer E (len a, 20) (len cur')]) (len a, 20) false pl 0)) end.
  rewrite (finish_ok _ _ _ _ _ _ _ _ _ (udp_wire (udp_finished (vf_src f) (vf_dst f) g q) ++ q) _ (v4_wraps E fs a _ f' Hcl Hb')).
  - unfold f' at 1 2. rewrite v4_finished_proto. change (ip_protocol_into IP_Udp) with 17.
    rewrite (len_app _ q), len_udp_wire. rewrite <- !app_assoc. reflexivity.
  - rewrite Hlc. unfold cur'. rewrite <- app_assoc. rewrite udp_fin_gen by (exact Hb' || exact Hg || exact Hq || lia).
    rewrite <- app_assoc. replace (vf_src f') with (vf_src f) by (unfold f'; destruct f; reflexivity).
    replace (vf_dst f') with (vf_dst f) by (unfold f'; destruct f; reflexivity). rewrite seen_covered; [reflexivity|].
    rewrite len_app, len_udp_wire. destruct Hev as [Hev|Hev]; [left; lia|right; exact Hev].
  - rewrite !len_app, len_v4_wire, len_udp_wire. lia.
Qed.
(** C59: TCP: the data offset becomes 5 again and the checksum covers the bytes found. *)
Lemma c59_tcp_edit : forall E eth vs ts p buf mutate g q,
  eth_ok eth -> Forall v4_arg_ok vs -> Forall tcp_op_ok ts -> flags_last (tcp_setters ts) -> one_payload (tcp_payloads ts) p ->
  fresh_buffer buf (eth_bytes eth + 40) p -> 20 + len p <= 131065 -> len p mod 2 = 0 \/ cursor_eof E = EofKeep ->
  let f := v4_after vs in
  mutate (tcp_wire (if flags_called ts then tcp_fill (tcp_after ts) 0 0 else tcp_after ts) ++ p) = (tcp_wire g ++ q, Ok tt) ->
  tcp_fields_ok g -> is_bytes q -> len q = len p ->
  (let* t := tcp_builder E eth vs ts buf in let* t := through E tcp_new mutate t in tcp_build E t) =
  Ok (ether_layer eth ++ v4_wire (v4_finished f 6 (20 + len q)) ++ tcp_wire (tcp_finished (vf_src f) (vf_dst f) g q) ++ q).
Proof.
  intros E eth vs ts p buf mutate g q He Hv Hu Hfl Hp Hb Hsz Hev f Hed Hg Hq Hlq.
  pose proof (c48_tcp E eth vs ts p buf He Hv Hu Hfl Hp Hb) as Q. cbv zeta in Q. destruct Q as (d & Q & Hd & _).
  destruct (fresh_buffer_mk _ _ _ Hb) as (r & -> & Hs & Hf & Hr & Hl). rewrite eth_bytes_size in *.
  pose proof (tcp_state_full E eth vs ts p r He Hv Hu Hfl Hp Hs Hf Hr Hl) as S. cbv zeta in S. rewrite tcp_after_checksum in S.
  destruct S as (_ & _ & r' & a & fs & pl & H1 & Hz & Hcl & Hla). fold f in H1, Hz.
  set (f' := v4_put f (V4SetProtocol IP_Tcp)) in *. rewrite H1 in *. cbn [bind] in *. rewrite as_packet_B in Q by exact Hz.
  erewrite through_ok; [|exact Hz|exact Q|exact Hed|rewrite !len_app, !len_tcp_wire; lia]. cbn [bind].
  assert (Hb' : v4_building f') by (apply v4_put_building; [apply v4_after_building, Hv|split; [reflexivity|exact I]]).
  unfold tcp_build, tcp_prepare. set (cur' := tcp_wire g ++ q).
  assert (Hlc : len cur' = 20 + len q) by (unfold cur'; rewrite len_app, len_tcp_wire; reflexivity).
  match goal with |- finish (with_fin ?b _) = _ => change (b_buffer b) with (mkbuf r' (a ++ v4_wire f') cur'); change (b_payload_length b) with (len p) end.
  rewrite mk_length.
  match goal with |- finish (with_fin ?b ?x) = _ => change (finish (with_fin b x)) with
    (finish (B r' (a ++ v4_wire f') cur' ((fs ++ [v4_finalizer E (len a) 20]) ++ [tcp_finalizer E (len a, 20) (len cur') (len p)]) (len a, 20) false pl (len p))) end.
  rewrite (finish_ok _ _ _ _ _ _ _ _ _ (tcp_wire (tcp_finished (vf_src f) (vf_dst f) g q) ++ q) _ (v4_wraps E fs a _ f' Hcl Hb')).
  - unfold f' at 1 2. rewrite v4_finished_proto. change (ip_protocol_into IP_Tcp) with 6.
    rewrite (len_app _ q), len_tcp_wire. rewrite <- !app_assoc. reflexivity.
  - rewrite Hlc. unfold cur'. rewrite <- app_assoc. rewrite <- Hlq.
    assert (Hc : tcp_checksum_of E (V4 (v4_wire f')) (tcp_wire (tcp_fill g 5 (tf_checksum g)) ++ q) =
      Ok (inet_checksum (with_pseudo_header (vf_src f) (vf_dst f) 6 (tcp_wire (tcp_fill g 5 0) ++ q)))).
    { rewrite tcp_checksum_eq.
      - destruct (v4_wire_addrs f') as [-> ->]. rewrite tcp_fill_zero. replace (vf_src f') with (vf_src f) by (unfold f'; destruct f; reflexivity).
        replace (vf_dst f') with (vf_dst f) by (unfold f'; destruct f; reflexivity). reflexivity.
      - apply is_bytes_v4_wire, Hb'.
      - apply is_bytes_app. split; [|exact Hq]. apply is_bytes_tcp_wire. apply tcp_fill_offset; [exact Hg|lia|apply Hg].
      - rewrite len_v4_wire. lia.
      - rewrite len_app, len_tcp_wire. lia.
      - rewrite len_app, len_tcp_wire. destruct Hev as [Hev|Hev]; [left; lia|right; exact Hev]. }
    rewrite (tcp_fin_gen E a f' g q Hb' Hg Hq ltac:(lia) _ Hc). rewrite <- app_assoc. reflexivity.
  - rewrite !len_app, len_v4_wire, len_tcp_wire. lia.
Qed.
Lemma echo_state_full E outer ops p r :
  outer_ok outer -> Forall echo_op_ok ops -> one_payload (echo_payloads ops) p ->
  sized r [] [] -> fits r (outer_size outer + 8) -> r = None \/ p = [] ->
  outer_size outer + 8 + len p <= ISIZE_MAX ->
  exists r' a fs pl, echo_builder E outer ops (mkbuf r [] []) =
    Ok (B r' a (ident_of (echo_after ops) ++ p) fs (0, 0) (existsb echo_kindof ops) pl 0) /\ sized r' a (ident_of (echo_after ops) ++ p) /\
    len a = outer_size outer /\ wraps fs a (fun n => icmp_outer outer n).
Proof.
  intros Hout Ho Hp Hs Hf Hr Hl.
  destruct (icmp_layer_ok E outer r [] [] Hout Hs ltac:(eapply fits_le; [exact Hf|lia]) ltac:(rewrite len_nil; lia)) as (a & c & fs & H1 & H2 & H3).
  unfold echo_builder. rewrite H1. cbn [bind]. rewrite len_nil in H2.
  assert (Hs1 : sized (use r (outer_size outer)) a c).
  { eapply sized_after; [exact Hs|eapply fits_le; [exact Hf|lia]|rewrite len_nil; lia|lia]. }
  unfold icmp_echo. rewrite (icmp_next E _ 8) by ((intros; reflexivity) || assumption || (apply fits_use; exact Hf) || lia).
  cbn [bind]. rewrite use_use. change (zeros 8) with (ident_of (0, 0, 0)).
  pose proof (one_payload_bytes _ _ Hp (echo_op_payloads ops Ho)) as Hpb.
  assert (Hok : oks echo_put (fun _ _ => True) (0, 0, 0) ops) by (generalize ((0, 0, 0) : N * N * N); clear; induction ops; intros z; cbn [oks]; auto).
  destruct (run_one (echo_run1 E) ident_of echo_put echo_pay echo_kindof (fun _ _ => True) false 8 len_ident_of
    (echo_step E) (echo_step_pay E) ltac:(intros []; cbn; eauto) ops (0, 0, 0) (use r (outer_size outer + 8)) (a ++ c)
    fs (0, 0) false p Hok Hp Hpb) as [pl R].
  { eapply sized_after; [exact Hs|exact Hf|rewrite len_app, len_ident_of, len_nil; lia|rewrite len_app, len_ident_of; lia]. }
  { rewrite len_app. lia. }
  { destruct Hr as [-> | ->]; [left; reflexivity|right; reflexivity]. }
  rewrite R. exists (use r (outer_size outer + 8)), (a ++ c), fs, pl. split; [reflexivity|]. fold (echo_after ops).
  split; [|split; [rewrite len_app; lia|exact H3]].
  unfold sized in *. rewrite !len_app, len_ident_of. pose proof (free_use r _ Hf). destruct Hr as [-> | ->].
  - cbn [free use option_map] in *. lia.
  - rewrite len_nil in *. destruct r; cbn [free use option_map] in *; lia.
Qed.
(** C59: echo: the checksum is recomputed over the bytes found, whatever type and code
    they have by then; again only if the builder's own request or reply was called. *)
Lemma c59_echo_edit : forall E outer ops p buf mutate h q,
  outer_ok outer -> Forall echo_op_ok ops -> one_payload (echo_payloads ops) p -> fresh_buffer buf (outer_bytes outer + 8) p ->
  let '(t, i, s) := echo_after ops in
  mutate (ident_wire (unsummed t) i s ++ p) = (icmp_wire h ++ q, Ok tt) -> icmp_fields_ok h -> is_bytes q -> len q = 4 + len p ->
  let sum ck := icmp_wire {| cf_type := cf_type h; cf_code := cf_code h; cf_checksum := ck |} ++ q in
  let out := (let* c := echo_builder E outer ops buf in let* c := through E echo_new mutate c in echo_build E c) in
  (echo_kind_given ops -> out = Ok (icmp_outer outer (8 + len p) ++ sum (nonzero_checksum (drop_odd (sum 0))))) /\
  (~ echo_kind_given ops -> out = Err InvalidPacket).
Proof.
  intros E outer ops p buf mutate h q Ho Hops Hp Hb.
  pose proof (c48_echo E outer ops p buf Ho Hops Hp Hb) as Q.
  destruct (fresh_buffer_mk _ _ _ Hb) as (r & -> & Hs & Hf & Hr & Hl). rewrite outer_bytes_size in *.
  destruct (echo_state_full E outer ops p r Ho Hops Hp Hs Hf Hr Hl) as (r' & a & fs & pl & H1 & Hz & Hla & Hw).
  rewrite H1 in *. destruct (echo_after ops) as [[t i] s]. cbv zeta in *. cbn [bind] in *. rewrite as_packet_B in Q by exact Hz. destruct Q as [Q _].
  intros Hed Hh Hq Hlq.
  change (ident_of (t, i, s)) with (ident_wire (unsummed t) i s) in *.
  assert (Hlm : len (icmp_wire h ++ q) = 8 + len p) by (rewrite len_app; change (len (icmp_wire h)) with 4; lia).
  erewrite through_ok; [|exact Hz|exact Q|exact Hed|rewrite Hlm, len_app; change (len (ident_wire (unsummed t) i s)) with 8; lia].
  cbn [bind]. unfold echo_build.
  rewrite (icmp_kind_finish E _ a (icmp_wire h ++ q) fs _ (0, 0) pl 0 Hw); [|apply is_bytes_app; split; [apply is_bytes_icmp_wire, Hh|exact Hq]|lia|lia].
  rewrite echo_kind_iff. rewrite Hlm. rewrite zero_field_patch by lia.
  assert (Hx : forall c, patch 2 (enc16 c) (icmp_wire h ++ q) = icmp_wire {| cf_type := cf_type h; cf_code := cf_code h; cf_checksum := c |} ++ q).
  { intros c. rewrite patch_app1 by (change (len (icmp_wire h)) with 4; change_lens; lia). destruct h; reflexivity. }
  rewrite Hx. change [0; 0] with (enc16 0). rewrite Hx.
  split; intros H; [rewrite H; reflexivity|]. apply Bool.not_true_is_false in H. rewrite H. reflexivity.
Qed.
(** C59: as_packet_mut succeeds exactly when as_packet does; if it is refused the
    builder is left as it was; an error of the caller's own code leaves the bytes
    that code left. *)
Lemma c59_as_packet : forall E parse mutate b,
  (forall e, builder_as_packet E parse b = Err e -> builder_as_packet_mut E parse mutate b = (b, Err e)) /\
  (builder_as_packet E parse b = Panic -> builder_as_packet_mut E parse mutate b = (b, Panic)) /\
  (forall d, builder_as_packet E parse b = Ok d ->
     exists data, buf_data E (b_buffer b) = Ok data /\ parse data = Ok d /\
       snd (builder_as_packet_mut E parse mutate b) = snd (mutate data) /\
       (len (fst (mutate data)) = len data -> builder_as_packet E (fun x => Ok x) (fst (builder_as_packet_mut E parse mutate b)) = Ok (fst (mutate data)))).
Proof.
  intros E parse mutate b. destruct b as [buf fs ip k pl n]. unfold builder_as_packet, builder_as_packet_mut. cbn [b_buffer].
  assert (K : forall m o l (mk : bytes -> buffer),
    (forall x, buf_data E (mk x) = (let* e := usize_add E o l in slice x o e)) ->
    (forall x f, buf_data_mut E f (mk x) = match usize_add E o l with Ok e => let (i, r) := range_mut o e f x in (mk i, r) | _ => (mk x, Panic) end) ->
    buf = mk m ->
    (forall e, (let* d := buf_data E (mk m) in parse d) = Err e -> buf_data_mut E (mlet parse (fun _ => mutate)) (mk m) = (mk m, Err e)) /\
    ((let* d := buf_data E (mk m) in parse d) = Panic -> buf_data_mut E (mlet parse (fun _ => mutate)) (mk m) = (mk m, Panic)) /\
    (forall d, (let* w := buf_data E (mk m) in parse w) = Ok d ->
      exists data, buf_data E (mk m) = Ok data /\ parse data = Ok d /\
        snd (buf_data_mut E (mlet parse (fun _ => mutate)) (mk m)) = snd (mutate data) /\
        (len (fst (mutate data)) = len data -> buf_data E (fst (buf_data_mut E (mlet parse (fun _ => mutate)) (mk m))) = Ok (fst (mutate data))))).
  { intros m o l mk D M _. rewrite D, M. pose proof (usize_add_err E o l) as Hx. destruct (usize_add E o l) as [z|x|] eqn:Hz; cbn [bind]; [|destruct (Hx x eq_refl)|].
    2: { repeat split; try discriminate. }
    unfold slice, range_mut. destruct ((o <=? z) && (z <=? len m)) eqn:Hg; cbn [bind].
    2: { repeat split; try discriminate. }
    assert (Hsame : takeN o m ++ takeN (z - o) (dropN o m) ++ dropN z m = m).
    { replace (dropN z m) with (dropN (z - o) (dropN o m)) by (rewrite dropN_dropN; f_equal; lia). rewrite takeN_dropN. apply takeN_dropN. }
    unfold mlet. destruct (parse (takeN (z - o) (dropN o m))) as [d|e|] eqn:Hpd; repeat split; try discriminate.
    - intros d' Hd. apply Ok_inj in Hd. subst d'. exists (takeN (z - o) (dropN o m)). split; [reflexivity|]. split; [exact Hpd|].
      destruct (mutate (takeN (z - o) (dropN o m))) as [m' x] eqn:Hm. cbn [fst snd]. split; [reflexivity|]. intros Hlen. rewrite D. cbn [bind].
      unfold slice. assert (Hl' : len m' = z - o) by (rewrite Hlen; autorewrite with len; lia).
      assert (Ho : len (takeN o m) = o) by (autorewrite with len; lia).
      replace ((o <=? z) && (z <=? len (takeN o m ++ m' ++ dropN z m))) with true by (rewrite !len_app, Ho, Hl'; autorewrite with len; lia).
      f_equal. rewrite <- Ho at 2. rewrite dropN_app_len. rewrite <- Hl' at 1. apply takeN_app_len.
    - intros e0 He. injection He as <-. rewrite Hsame. reflexivity.
    - rewrite Hsame. reflexivity. }
  destruct buf as [m o l|m o l u].
  - destruct (K m o l (fun x => Dynamic x o l) ltac:(reflexivity) ltac:(reflexivity) eq_refl) as (K1 & K2 & K3). split; [|split].
    + intros e He. rewrite (K1 e He). reflexivity.
    + intros He. rewrite (K2 He). reflexivity.
    + intros d Hd. destruct (K3 d Hd) as (data & D1 & D2 & D3 & D4). exists data. split; [exact D1|]. split; [exact D2|].
      destruct (buf_data_mut E (mlet parse (fun _ => mutate)) (Dynamic m o l)) as [b' x]. cbn [fst snd] in *. split; [exact D3|].
      intros Hlen. cbn [b_buffer with_buffer]. rewrite (D4 Hlen). reflexivity.
  - destruct (K m o l (fun x => Slice x o l u) ltac:(reflexivity) ltac:(reflexivity) eq_refl) as (K1 & K2 & K3). split; [|split].
    + intros e He. rewrite (K1 e He). reflexivity.
    + intros He. rewrite (K2 He). reflexivity.
    + intros d Hd. destruct (K3 d Hd) as (data & D1 & D2 & D3 & D4). exists data. split; [exact D1|]. split; [exact D2|].
      destruct (buf_data_mut E (mlet parse (fun _ => mutate)) (Slice m o l u)) as [b' x]. cbn [fst snd] in *. split; [exact D3|].
      intros Hlen. cbn [b_buffer with_buffer]. rewrite (D4 Hlen). reflexivity.
Qed.
(** C59: a builder is built with [build] (the C32-C41 programs are builders built). *)
Lemma c59_builds : forall E eth vs us ts vops eops outer es is ss buf,
  udp_chain E eth vs us buf = (let* b := udp_builder E eth vs us buf in udp_build E b) /\
  tcp_chain E eth vs ts buf = (let* b := tcp_builder E eth vs ts buf in tcp_build E b) /\
  v4_chain E eth vops buf = (let* b := v4_builder E eth vops buf in v4_build E b) /\
  ether_chain E eops buf = (let* b := ether_builder E eops buf in ether_build b) /\
  echo_chain E outer es buf = (let* b := echo_builder E outer es buf in echo_build E b) /\
  information_chain E outer is buf = (let* b := information_builder E outer is buf in information_build E b) /\
  timestamp_chain E outer ss buf = (let* b := timestamp_builder E outer ss buf in timestamp_build E b).
Proof.
  intros. unfold udp_chain, udp_builder, tcp_chain, tcp_builder, v4_chain, v4_builder, ether_chain, ether_builder, echo_chain, echo_builder,
    information_chain, information_builder, timestamp_chain, timestamp_builder.
  repeat apply conj.
  - destruct (v4_layer E eth vs buf) as [v|x|]; cbn [bind]; try reflexivity. destruct (v4_udp E v) as [u|x|]; cbn [bind]; reflexivity.
  - destruct (v4_layer E eth vs buf) as [v|x|]; cbn [bind]; try reflexivity. destruct (v4_tcp E v) as [u|x|]; cbn [bind]; reflexivity.
  - destruct (start_v4 E eth buf) as [v|x|]; cbn [bind]; reflexivity.
  - destruct (ether_with E buf) as [v|x|]; cbn [bind]; reflexivity.
  - destruct (icmp_layer E outer buf) as [v|x|]; cbn [bind]; try reflexivity. destruct (icmp_echo E v) as [u|x|]; cbn [bind]; reflexivity.
  - destruct (icmp_layer E outer buf) as [v|x|]; cbn [bind]; try reflexivity. destruct (icmp_information E v) as [u|x|]; cbn [bind]; reflexivity.
  - destruct (icmp_layer E outer buf) as [v|x|]; cbn [bind]; try reflexivity. destruct (icmp_timestamp E v) as [u|x|]; cbn [bind]; reflexivity.
Qed.
(** A datagram with ports and TTL set through as_packet_mut and a payload byte
    overwritten in place; an echo made a request only through as_packet_mut; an
    information message addressed too early, and one turned into an echo. *)
Example c59_example : forall E,
  let eth := Some [Method (EtherProtocol ET_Arp); Through (EthSource (Hw 1 2 3 4 5 6))] in
  let vs := [Through (V4SetTtl 9); Method (V4Set (V4SetId 5)); Through (V4SetSource (Ip4 10 0 0 1))] in
  let us := [Method (UdpPayload [7; 8]); Through (UdpSetSource 1337)] in
  let mutate : mut := fun d => set_index 9 99 d in
  let u := udp_builder E (option_map (map (as_method ether_method)) eth) [V4SetTtl 9; V4SetId 5; V4SetSource (Ip4 10 0 0 1)] (map (as_method UdpSet) us) dynamic_new in
  udp_mixed E eth vs us dynamic_new = u /\
  mutate (udp_wire (udp_after (map (as_method UdpSet) us)) ++ [7; 8]) = (udp_wire (Build_udp_fields 1337 0 0 0) ++ [7; 99], Ok tt) /\
  (let* b := u in let* b := through E udp_new mutate b in udp_build E b) =
    Ok (ether_wire (Build_ether_fields mac_zero (Hw 1 2 3 4 5 6) 0x0800) ++
        [69; 0; 0; 30; 0; 5; 0; 0; 9; 17; 167; 202; 10; 0; 0; 1; 0; 0; 0; 0; 5; 57; 0; 0; 0; 10; 233; 61; 7; 99]) /\
  (let* c := echo_mixed E None [Through EchoMakeRequest; Through (EchoSetIdentifier 3)] dynamic_new in echo_build E c) = Err InvalidPacket /\
  (let* c := echo_mixed E None [Method EchoReply; Through EchoMakeRequest; Through (EchoSetIdentifier 3)] dynamic_new in echo_build E c) =
    echo_chain E None [EchoRequest; EchoIdentifier 3] dynamic_new /\
  information_mixed E None [Through (InfoSetIdentifier 3); Method InfoRequest] dynamic_new = Err InvalidPacket /\
  information_mixed E None [Method InfoRequest; Through InfoMakeRequest; Through (InfoSetIdentifier 3)] dynamic_new = Err InvalidPacket.
Proof.
  intros E. cbv zeta. split.
  { rewrite (c59_udp E _ _ _ [7; 8] dynamic_new).
    - reflexivity.
    - split; [repeat constructor; vm_compute; reflexivity|reflexivity].
    - repeat constructor; vm_compute; reflexivity.
    - reflexivity.
    - repeat constructor; vm_compute; reflexivity.
    - left. reflexivity.
    - constructor. destruct E as [[] [] []]; vm_compute; discriminate. }
  destruct E as [[] [] []]; vm_compute; repeat split.
Qed.
