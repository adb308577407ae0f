(** * ChainLemmas: the TCP, ICMP, IPv4 and Ethernet chains on either kind of buffer. *)
From Verif Require Import Base Enums Buffer Ether Ipv4 Ip Udp Tcp Icmp Builders Spec SpecCalls SpecBuild
  Lemmas ParseProofs SliceProofs AccessProofs FieldProofs ChecksumLemmas ChecksumProofs GuardProofs BufferProofs BuildLemmas FinalLemmas.
From Coq Require Import ZifyBool ZifyNat ZifyN.
Ltac Zify.zify_post_hook ::= Z.div_mod_to_equations.

Lemma tcp_with_ok E r pre cur : sized r pre cur -> fits r 20 -> len pre + len cur + 20 <= ISIZE_MAX ->
  tcp_with E (mkbuf r pre cur) =
  Ok (B (use r 20) (pre ++ cur) (tcp_wire (Build_tcp_fields 0 0 0 0 5 0 0 0 0 0)) [] (len pre, len cur) false false 0).
Proof.
  intros Hs Hf Hl. unfold tcp_with. rewrite mk_offset, mk_length. change tcp_header_min with 20. rewrite mk_next by assumption. cbn [try_buf bind].
  rewrite (mk_edit E (use r 20) (pre ++ cur) (zeros 20) _ (tcp_wire (Build_tcp_fields 0 0 0 0 5 0 0 0 0 0)) (Ok tt));
    [reflexivity|apply sized_use; assumption|reflexivity|reflexivity].
Qed.
Lemma finish_err r a cur fs f ip k pl n out e : f (a ++ cur) = (out, Err e) -> finish (B r a cur (fs ++ [f]) ip k pl n) = Err e.
Proof.
  intros Hf. unfold finish. change (b_buffer (B r a cur (fs ++ [f]) ip k pl n)) with (mkbuf r a cur). rewrite mk_inner. cbn [bind].
  change (b_fin (B r a cur (fs ++ [f]) ip k pl n)) with (fs ++ [f]). rewrite fin_last, Hf. reflexivity.
Qed.
Definition tcp_zero : tcp_fields := Build_tcp_fields 0 0 0 0 5 0 0 0 0 0.
Lemma tcp_zero_building : tcp_building tcp_zero. Proof. repeat split. Qed.
Lemma tcp_fill_fill g o ck o' ck' : tcp_fill (tcp_fill g o ck) o' ck' = tcp_fill g o' ck'.
Proof. destruct g; reflexivity. Qed.

Lemma tcp_fill_checksum g o ck : tf_checksum (tcp_fill g o ck) = ck.
Proof. destruct g; reflexivity. Qed.

Lemma tcp_chain_gen E eth vs us p r pre cur :
  eth_ok eth -> Forall v4_arg_ok vs -> Forall tcp_op_ok us -> flags_last (tcp_setters us) -> one_payload (tcp_payloads us) p ->
  sized r pre cur -> fits r (eth_size eth + 40) -> r = None \/ p = [] ->
  len pre + len cur + eth_size eth + 40 + len p <= ISIZE_MAX ->
  let f := v4_after vs in let g := tcp_after us in
  tcp_chain E eth vs us (mkbuf r pre cur) =
  (let* c := tcp_checksum_of E (V4 (v4_wire (v4_put f (V4SetProtocol IP_Tcp)))) (tcp_wire (tcp_fill g 5 (tf_checksum g)) ++ p) in
   Ok (pre ++ cur ++ ether_layer eth ++ v4_wire (v4_finished f 6 (20 + len p)) ++ tcp_wire (tcp_fill g 5 c) ++ p)).
Proof.
  intros He Hv Hu Hfl Hp Hs Hf Hr Hl f g.
  destruct (v4_layer_ok E eth vs r pre cur He Hv Hs ltac:(eapply fits_le; [exact Hf|lia]) ltac:(lia)) as (a & fs & H1 & H2).
  unfold tcp_chain. rewrite H1. cbn [bind]. pose proof (v4_after_building vs Hv) as Hb. fold f in Hb, H1 |- *.
  pose proof H2 as Hcl. destruct H2 as [H2l _]. rewrite !len_app, len_ether_layer in H2l.
  assert (Hs1 : sized (use r (eth_size eth + 20)) a (v4_wire f)).
  { eapply sized_after; [exact Hs|eapply fits_le; [exact Hf|lia]|rewrite len_v4_wire; lia|rewrite len_v4_wire; lia]. }
  set (f' := v4_put f (V4SetProtocol IP_Tcp)).
  assert (Hb' : v4_building f') by (apply v4_put_building; [exact Hb|split; [reflexivity|exact I]]).
  unfold v4_tcp. erewrite v4_sub_ok; [|exact Hb|reflexivity|exact Hs1|
    apply tcp_with_ok; [eapply sized_same; [exact Hs1|reflexivity]|apply fits_use; eapply fits_le; [exact Hf|lia]|rewrite len_v4_wire; lia]].
  fold f'. rewrite use_use. replace (eth_size eth + 20 + 20) with (eth_size eth + 40) by lia. cbn [bind]. fold tcp_zero.
  pose proof (one_payload_bytes _ _ Hp (tcp_op_payloads us Hu)) as Hpb.
  destruct (tcp_fold us tcp_zero tcp_zero_building eq_refl Hu Hfl) as (Ho & Hg1 & Hg2 & Hg3). cbv zeta in *. fold (tcp_after us) in Hg1, Hg2, Hg3. fold g in Hg1, Hg2, Hg3.
  destruct (run_one (tcp_run1 E) tcp_wire tcp_putop tcp_pay (fun _ => false) tcp_step_ok true 20 len_tcp_wire
    (tcp_step E) (tcp_step_pay E) ltac:(intros []; cbn; eauto) us tcp_zero (use r (eth_size eth + 40)) (a ++ v4_wire f')
    (fs ++ [v4_finalizer E (len a) 20]) (len a, len (v4_wire f')) false p Ho Hp Hpb) as [pl R].
  { eapply sized_after; [exact Hs|exact Hf|rewrite len_app, len_v4_wire, len_tcp_wire; lia|rewrite len_app, len_v4_wire, len_tcp_wire; lia]. }
  { rewrite len_app, len_v4_wire. lia. }
  { destruct Hr as [-> | ->]; [left; reflexivity|right; reflexivity]. }
  rewrite R. clear R. cbn [bind]. rewrite existsb_false, orb_false_r.
  set (ga := fold_left tcp_putop us tcp_zero) in *.
  assert (Hga : tcp_fields_ok ga /\ tf_checksum ga = tf_checksum g /\ forall o c, tcp_fill ga o c = tcp_fill g o c).
  { destruct Hg3 as [-> | ->]; [repeat split; apply Hg1|]. split; [apply tcp_fill_offset; [apply Hg1|lia|apply Hg1]|].
    split; [apply tcp_fill_checksum|]. intros. apply tcp_fill_fill. }
  destruct Hga as (Hga1 & Hga2 & Hga3). clearbody ga. clear Hg3.
  unfold tcp_build, tcp_prepare. set (cur' := tcp_wire ga ++ p). set (ip := (len a, len (v4_wire f'))).
  assert (Hlc : len cur' = 20 + len p) by (unfold cur'; rewrite len_app, len_tcp_wire; reflexivity).
  match goal with |- finish (with_fin ?b _) = _ => change (b_buffer b) with (mkbuf (use r (eth_size eth + 40)) (a ++ v4_wire f') cur') end.
  rewrite mk_length.
  match goal with |- finish (with_fin ?b ?x) = _ => change (finish (with_fin b x)) with
    (finish (B (use r (eth_size eth + 40)) (a ++ v4_wire f') cur' ((fs ++ [v4_finalizer E (len a) 20]) ++ [tcp_finalizer E ip (len cur') (len p)]) ip false pl (len p))) end.
  pose proof (tcp_fin_gen E a f' ga p Hb' Hga1 Hpb ltac:(lia) _ eq_refl) as T. rewrite Hga2 in T. rewrite !Hga3 in T.
  set (seg := tcp_wire (tcp_fill g 5 (tf_checksum g)) ++ p) in *.
  change (V4 (v4_wire f')) with (V4 (v4_wire f')) in T.
  assert (Hcur : (a ++ v4_wire f') ++ cur' = a ++ v4_wire f' ++ tcp_wire ga ++ p) by (unfold cur'; rewrite <- app_assoc; reflexivity).
  destruct (tcp_checksum_of E (V4 (v4_wire f')) seg) as [c|e|]; cbn [bind].
  - rewrite (finish_ok _ _ _ _ _ _ _ _ _ (tcp_wire (tcp_fill g 5 c) ++ p) _ (v4_wraps E fs a _ f' Hcl Hb')).
    + unfold f' at 1 2. rewrite v4_finished_proto. change (ip_protocol_into IP_Tcp) with 6.
      rewrite (len_app _ p), len_tcp_wire. rewrite <- !app_assoc. reflexivity.
    + rewrite Hcur. unfold ip. rewrite Hlc, len_v4_wire. rewrite T, Hga3, <- app_assoc. reflexivity.
    + rewrite !len_app, len_v4_wire, len_tcp_wire. lia.
  - eapply finish_err. rewrite Hcur. unfold ip. rewrite Hlc, len_v4_wire. exact T.
  - eapply finish_panic. rewrite Hcur. unfold ip. rewrite Hlc, len_v4_wire. exact T.
Qed.

(** ** ICMP *)
Definition outer_size (outer : option (option (list ether_op) * list v4_setter)) : N :=
  match outer with Some (eth, _) => eth_size eth + 20 | None => 0 end.
Lemma len_icmp_outer outer n : len (icmp_outer outer n) = outer_size outer.
Proof. destruct outer as [[eth vs]|]; [|reflexivity]. cbn [icmp_outer outer_size]. rewrite len_app, len_v4_wire, len_ether_layer. reflexivity. Qed.
Lemma use_zero r : use r 0 = r. Proof. destruct r; reflexivity. Qed.
Lemma icmp_layer_ok E outer r pre cur : outer_ok outer -> sized r pre cur -> fits r (outer_size outer) ->
  len pre + len cur + outer_size outer <= ISIZE_MAX ->
  exists a c fs, icmp_layer E outer (mkbuf r pre cur) = Ok (B (use r (outer_size outer)) a c fs (0, 0) false false 0) /\
    len a + len c = len pre + len cur + outer_size outer /\
    wraps fs (a ++ c) (fun n => pre ++ cur ++ icmp_outer outer n).
Proof.
  intros Ho Hs Hf Hl. destruct outer as [[eth vs]|]; cbn [outer_ok outer_size icmp_layer icmp_outer] in *.
  - destruct Ho as [He Hv].
    destruct (v4_layer_ok E eth vs r pre cur He Hv Hs Hf ltac:(lia)) as (a & fs & H1 & H2).
    rewrite H1. cbn [bind]. pose proof (v4_after_building vs Hv) as Hb. set (f := v4_after vs) in *.
    pose proof H2 as Hcl. destruct H2 as [H2l _]. rewrite !len_app, len_ether_layer in H2l.
    assert (Hs1 : sized (use r (eth_size eth + 20)) a (v4_wire f)).
    { eapply sized_after; [exact Hs|exact Hf|rewrite len_v4_wire; lia|rewrite len_v4_wire; lia]. }
    set (f' := v4_put f (V4SetProtocol IP_Icmp)).
    assert (Hb' : v4_building f') by (apply v4_put_building; [exact Hb|split; [reflexivity|exact I]]).
    unfold v4_icmp. erewrite v4_sub_ok; [|exact Hb|reflexivity|exact Hs1|reflexivity]. fold f'.
    do 3 eexists. split; [reflexivity|]. split; [rewrite len_v4_wire; lia|].
    pose proof (v4_wraps E fs a _ f' Hcl Hb') as [W1 W2]. split.
    + intros n. rewrite !len_app, !len_v4_wire, len_ether_layer. lia.
    + intros rest Hrest. rewrite W2 by exact Hrest. unfold f'. rewrite v4_finished_proto. rewrite <- !app_assoc. reflexivity.
  - exists pre, cur, []. rewrite use_zero. split; [reflexivity|]. split; [lia|]. split; [intros n; rewrite app_nil_r; reflexivity|].
    intros rest _. rewrite app_nil_r. reflexivity.
Qed.
(** The tail shared by the ICMP kinds. *)
Lemma icmp_kind_finish E r a m fs g ip pl n : wraps fs a g -> is_bytes m -> 4 <= len m -> len a + len m <= ISIZE_MAX ->
  forall k, icmp_kind_build E (B r a m fs ip k pl n) =
    if k then Ok (g (len m) ++ patch 2 (enc16 (nonzero_checksum (drop_odd (zero_field 2 m)))) m) else Err InvalidPacket.
Proof.
  intros Hw Hm H4 Hl k. destruct k; [|reflexivity]. unfold icmp_kind_build. change (b_kind (B r a m fs ip true pl n)) with true. cbn [negb]. unfold icmp_prepare.
  change (b_buffer (B r a m fs ip true pl n)) with (mkbuf r a m). rewrite mk_offset, mk_length.
  change (with_fin (B r a m fs ip true pl n) (fin_add (b_fin (B r a m fs ip true pl n)) (icmp_finalizer E (len a) (len m))))
    with (B r a m (fs ++ [icmp_finalizer E (len a) (len m)]) ip true pl n).
  set (m' := patch 2 _ m). assert (Hm' : len m' = len m) by (apply len_patch; change_lens; lia).
  rewrite (finish_ok _ _ _ _ _ _ _ _ _ m' g Hw); [rewrite Hm'; reflexivity|apply icmp_fin; assumption|lia].
Qed.
Lemma icmp_next E mk n : (forall buf, mk buf = let* buf := try_buf (buf_next E n buf) in Ok (fresh buf (0, 0))) ->
  forall r a c fs ip k pl m, sized r a c -> fits r n -> len a + len c + n <= ISIZE_MAX ->
  sub mk (B r a c fs ip k pl m) = Ok (B (use r n) (a ++ c) (zeros n) fs (0, 0) false false 0).
Proof.
  intros Hm r a c fs ip k pl m Hs Hf Hl. apply sub_ok. rewrite Hm. rewrite mk_next by assumption. reflexivity.
Qed.
Lemma existsb_kind {A} (kindof : A -> bool) ops : existsb kindof ops = true <-> exists o, In o ops /\ kindof o = true.
Proof. apply existsb_exists. Qed.
Lemma echo_kind_iff ops : echo_kind_given ops <-> existsb echo_kindof ops = true.
Proof.
  rewrite existsb_exists. unfold echo_kind_given. split.
  - intros [H|H]; eexists; (split; [exact H|reflexivity]).
  - intros (o & H & Hk). destruct o; try discriminate Hk; [left|right]; exact H.
Qed.
Lemma information_kind_iff ops : information_kind_given ops <-> existsb information_kindof ops = true.
Proof.
  rewrite existsb_exists. unfold information_kind_given. split.
  - intros [H|H]; eexists; (split; [exact H|reflexivity]).
  - intros (o & H & Hk). destruct o; try discriminate Hk; [left|right]; exact H.
Qed.
Lemma timestamp_kind_iff ops : timestamp_kind_given ops <-> existsb timestamp_kindof ops = true.
Proof.
  rewrite existsb_exists. unfold timestamp_kind_given. split.
  - intros [H|H]; eexists; (split; [exact H|reflexivity]).
  - intros (o & H & Hk). destruct o; try discriminate Hk; [left|right]; exact H.
Qed.
(** Fields stay in range. *)
Lemma echo_after_ok ops : Forall echo_op_ok ops -> let '(t, i, s) := echo_after ops in u8 t /\ u16 i /\ u16 s.
Proof.
  unfold echo_after. assert (Hz : let '(t, i, s) := (0, 0, 0) : N * N * N in u8 t /\ u16 i /\ u16 s) by (repeat split).
  revert Hz. generalize ((0, 0, 0) : N * N * N). intros f Hf H. revert f Hf. induction H as [|o ops Ho H IH]; intros f Hf; [exact Hf|].
  cbn [fold_left]. apply IH. destruct f as [[t i] s]. destruct Hf as (F1 & F2 & F3). destruct o; cbn in *; repeat split; assumption || reflexivity.
Qed.
Lemma information_after_ok ops : Forall information_op_ok ops -> let '(t, i, s) := information_after ops in u8 t /\ u16 i /\ u16 s.
Proof.
  unfold information_after. assert (Hz : let '(t, i, s) := (0, 0, 0) : N * N * N in u8 t /\ u16 i /\ u16 s) by (repeat split).
  revert Hz. generalize ((0, 0, 0) : N * N * N). intros f Hf H. revert f Hf. induction H as [|o ops Ho H IH]; intros f Hf; [exact Hf|].
  cbn [fold_left]. apply IH. destruct f as [[t i] s]. destruct Hf as (F1 & F2 & F3). destruct o; cbn in *; repeat split; assumption || reflexivity.
Qed.
Lemma timestamp_after_ok ops : Forall timestamp_op_ok ops ->
  let '(t, i, s, a, b, c) := timestamp_after ops in u8 t /\ u16 i /\ u16 s /\ u32 a /\ u32 b /\ u32 c.
Proof.
  unfold timestamp_after.
  assert (Hz : let '(t, i, s, a, b, c) := (0, 0, 0, 0, 0, 0) : N * N * N * N * N * N in u8 t /\ u16 i /\ u16 s /\ u32 a /\ u32 b /\ u32 c) by (repeat split).
  revert Hz. generalize ((0, 0, 0, 0, 0, 0) : N * N * N * N * N * N). intros f Hf H. revert f Hf. induction H as [|o ops Ho H IH]; intros f Hf; [exact Hf|].
  cbn [fold_left]. apply IH. destruct f as [[[[[t i] s] a] b] c]. destruct Hf as (F1 & F2 & F3 & F4 & F5 & F6). destruct o; cbn in *; repeat split; assumption || reflexivity.
Qed.
Lemma is_bytes_icmp_wire f : icmp_fields_ok f -> is_bytes (icmp_wire f).
Proof. intros (H1 & H2 & H3). unfold icmp_wire. apply is_bytes_app; split; [repeat constructor; assumption|apply is_bytes_enc16, H3]. Qed.
Lemma is_bytes_ident f i s : icmp_fields_ok f -> u16 i -> u16 s -> is_bytes (ident_wire f i s).
Proof.
  intros H1 H2 H3. unfold ident_wire. apply is_bytes_app; split; [apply is_bytes_icmp_wire; assumption|].
  apply is_bytes_app; split; apply is_bytes_enc16; assumption.
Qed.
Lemma is_bytes_timestamp f i s a b c : icmp_fields_ok f -> u16 i -> u16 s -> u32 a -> u32 b -> u32 c -> is_bytes (timestamp_wire f i s a b c).
Proof.
  intros. unfold timestamp_wire. apply is_bytes_app; split; [apply is_bytes_ident; assumption|].
  apply is_bytes_app; split; [apply is_bytes_enc32; assumption|]. apply is_bytes_app; split; apply is_bytes_enc32; assumption.
Qed.
Definition icf (t ck : N) : icmp_fields := {| cf_type := t; cf_code := 0; cf_checksum := ck |}.

Lemma echo_chain_gen E outer ops p r pre cur :
  outer_ok outer -> Forall echo_op_ok ops -> one_payload (echo_payloads ops) p ->
  sized r pre cur -> fits r (outer_size outer + 8) -> r = None \/ p = [] ->
  len pre + len cur + outer_size outer + 8 + len p <= ISIZE_MAX ->
  let '(t, i, s) := echo_after ops in
  let ck := nonzero_checksum (drop_odd (ident_wire (icf t 0) i s ++ p)) in
  echo_chain E outer ops (mkbuf r pre cur) =
  if existsb echo_kindof ops then Ok (pre ++ cur ++ icmp_outer outer (8 + len p) ++ ident_wire (icf t ck) i s ++ p) else Err InvalidPacket.
Proof.
  intros Hout Ho Hp Hs Hf Hr Hl.
  destruct (icmp_layer_ok E outer r pre cur Hout Hs ltac:(eapply fits_le; [exact Hf|lia]) ltac:(lia)) as (a & c & fs & H1 & H2 & H3).
  unfold echo_chain. rewrite H1. cbn [bind].
  assert (Hs1 : sized (use r (outer_size outer)) a c).
  { eapply sized_after; [exact Hs|eapply fits_le; [exact Hf|lia]|lia|lia]. }
  unfold icmp_echo. rewrite (icmp_next E _ 8) by ((intros; reflexivity) || assumption || (apply fits_use; exact Hf) || lia).
  cbn [bind]. rewrite use_use. change (zeros 8) with (ident_of (0, 0, 0)).
  pose proof (one_payload_bytes _ _ Hp (echo_op_payloads ops Ho)) as Hpb.
  assert (Hok : oks echo_put (fun _ _ => True) (0, 0, 0) ops) by (generalize ((0, 0, 0) : N * N * N); clear; induction ops; intros z; cbn [oks]; auto).
  destruct (run_one (echo_run1 E) ident_of echo_put echo_pay echo_kindof (fun _ _ => True) false 8 len_ident_of
    (echo_step E) (echo_step_pay E) ltac:(intros []; cbn; eauto) ops (0, 0, 0) (use r (outer_size outer + 8)) (a ++ c)
    fs (0, 0) false p Hok Hp Hpb) as [pl R].
  { eapply sized_after; [exact Hs|exact Hf|rewrite len_app, len_ident_of; lia|rewrite len_app, len_ident_of; lia]. }
  { rewrite len_app. lia. }
  { destruct Hr as [-> | ->]; [left; reflexivity|right; reflexivity]. }
  rewrite R. clear R. cbn [bind]. fold (echo_after ops).  cbn [orb].
  pose proof (echo_after_ok ops Ho) as Hrng. destruct (echo_after ops) as [[t i] s]. cbn [ident_of]. fold (icf t 0). destruct Hrng as (R1 & R2 & R3).
  unfold echo_build. set (m := ident_wire (icf t 0) i s ++ p).
  assert (Hlm : len m = 8 + len p) by (unfold m; rewrite len_app; reflexivity).
  rewrite (icmp_kind_finish E _ (a ++ c) m fs (fun n => pre ++ cur ++ icmp_outer outer n) (0, 0) pl 0 H3);
    [|apply is_bytes_app; split; [apply is_bytes_ident; [repeat split; [exact R1|reflexivity..]|assumption|assumption]|exact Hpb]|lia|rewrite len_app; lia].
  assert (Hz : zero_field 2 m = m).
  { rewrite zero_field_patch by lia. unfold m. rewrite patch_app1 by (change (len (ident_wire (icf t 0) i s)) with 8; change_lens; lia). reflexivity. }
  rewrite Hz. unfold m at 3. rewrite patch_app1 by (change (len (ident_wire (icf t 0) i s)) with 8; change_lens; lia).
  destruct (existsb _ ops); [|reflexivity]. rewrite Hlm, <- !app_assoc. reflexivity.
Qed.
Lemma information_chain_gen E outer ops r pre cur :
  outer_ok outer -> Forall information_op_ok ops ->
  sized r pre cur -> fits r (outer_size outer + 8) ->
  len pre + len cur + outer_size outer + 8 <= ISIZE_MAX ->
  let '(t, i, s) := information_after ops in
  let ck := nonzero_checksum (ident_wire (icf t 0) i s) in
  information_chain E outer ops (mkbuf r pre cur) =
  if existsb information_kindof ops then Ok (pre ++ cur ++ icmp_outer outer 8 ++ ident_wire (icf t ck) i s) else Err InvalidPacket.
Proof.
  intros Hout Ho Hs Hf Hl.
  destruct (icmp_layer_ok E outer r pre cur Hout Hs ltac:(eapply fits_le; [exact Hf|lia]) ltac:(lia)) as (a & c & fs & H1 & H2 & H3).
  unfold information_chain. rewrite H1. cbn [bind].
  assert (Hs1 : sized (use r (outer_size outer)) a c).
  { eapply sized_after; [exact Hs|eapply fits_le; [exact Hf|lia]|lia|lia]. }
  unfold icmp_information. rewrite (icmp_next E _ 8) by ((intros; reflexivity) || assumption || (apply fits_use; exact Hf) || lia).
  cbn [bind]. rewrite use_use. change (zeros 8) with (ident_of (0, 0, 0)).
  assert (Hok : oks information_put (fun _ _ => True) (0, 0, 0) ops) by (generalize ((0, 0, 0) : N * N * N); clear; induction ops; intros z; cbn [oks]; auto).
  pose proof (run_plain (information_run1 E) ident_of information_put (fun _ => []) information_kindof (fun _ _ => True) 8 len_ident_of
    (information_step E) ops (0, 0, 0) (use r (outer_size outer + 8)) (a ++ c) [] fs (0, 0) false false 0 Hok) as R.
  rewrite !app_nil_r in R. rewrite R; [|clear; induction ops; [reflexivity|exact IHops]|constructor|].
  2: { eapply sized_after; [exact Hs|exact Hf|rewrite len_app, len_ident_of; lia|rewrite len_app, len_ident_of; lia]. }
  clear R. cbn [bind]. fold (information_after ops).  cbn [orb].
  pose proof (information_after_ok ops Ho) as Hrng. destruct (information_after ops) as [[t i] s]. cbn [ident_of]. fold (icf t 0). destruct Hrng as (R1 & R2 & R3).
  unfold information_build. set (m := ident_wire (icf t 0) i s).
  assert (Hlm : len m = 8) by reflexivity.
  rewrite (icmp_kind_finish E _ (a ++ c) m fs (fun n => pre ++ cur ++ icmp_outer outer n) (0, 0) false 0 H3);
    [|apply is_bytes_ident; [repeat split; [exact R1|reflexivity..]|assumption|assumption]|lia|rewrite len_app; lia].
  assert (Hz : zero_field 2 m = m) by (rewrite zero_field_patch by lia; reflexivity).
  rewrite Hz, drop_odd_even by (rewrite Hlm; reflexivity). destruct (existsb _ ops); [|reflexivity]. rewrite Hlm, <- !app_assoc. reflexivity.
Qed.
Lemma timestamp_chain_gen E outer ops r pre cur :
  outer_ok outer -> Forall timestamp_op_ok ops ->
  sized r pre cur -> fits r (outer_size outer + 20) ->
  len pre + len cur + outer_size outer + 20 <= ISIZE_MAX ->
  let '(t, i, s, x, y, z) := timestamp_after ops in
  let ck := nonzero_checksum (timestamp_wire (icf t 0) i s x y z) in
  timestamp_chain E outer ops (mkbuf r pre cur) =
  if existsb timestamp_kindof ops then Ok (pre ++ cur ++ icmp_outer outer 20 ++ timestamp_wire (icf t ck) i s x y z) else Err InvalidPacket.
Proof.
  intros Hout Ho Hs Hf Hl.
  destruct (icmp_layer_ok E outer r pre cur Hout Hs ltac:(eapply fits_le; [exact Hf|lia]) ltac:(lia)) as (a & c & fs & H1 & H2 & H3).
  unfold timestamp_chain. rewrite H1. cbn [bind].
  assert (Hs1 : sized (use r (outer_size outer)) a c).
  { eapply sized_after; [exact Hs|eapply fits_le; [exact Hf|lia]|lia|lia]. }
  unfold icmp_timestamp. rewrite (icmp_next E _ 20) by ((intros; reflexivity) || assumption || (apply fits_use; exact Hf) || lia).
  cbn [bind]. rewrite use_use. change (zeros 20) with (timestamp_of (0, 0, 0, 0, 0, 0)).
  assert (Hok : oks timestamp_put (fun _ _ => True) (0, 0, 0, 0, 0, 0) ops) by (generalize ((0, 0, 0, 0, 0, 0) : N * N * N * N * N * N); clear; induction ops; intros z; cbn [oks]; auto).
  pose proof (run_plain (timestamp_run1 E) timestamp_of timestamp_put (fun _ => []) timestamp_kindof (fun _ _ => True) 20 len_timestamp_of
    (timestamp_step E) ops (0, 0, 0, 0, 0, 0) (use r (outer_size outer + 20)) (a ++ c) [] fs (0, 0) false false 0 Hok) as R.
  rewrite !app_nil_r in R. rewrite R; [|clear; induction ops; [reflexivity|exact IHops]|constructor|].
  2: { eapply sized_after; [exact Hs|exact Hf|rewrite len_app, len_timestamp_of; lia|rewrite len_app, len_timestamp_of; lia]. }
  clear R. cbn [bind]. fold (timestamp_after ops).  cbn [orb].
  pose proof (timestamp_after_ok ops Ho) as Hrng. destruct (timestamp_after ops) as [[[[[t i] s] x] y] z]. cbn [timestamp_of]. fold (icf t 0).
  destruct Hrng as (R1 & R2 & R3 & R4 & R5 & R6).
  unfold timestamp_build. set (m := timestamp_wire (icf t 0) i s x y z).
  assert (Hlm : len m = 20) by reflexivity.
  rewrite (icmp_kind_finish E _ (a ++ c) m fs (fun n => pre ++ cur ++ icmp_outer outer n) (0, 0) false 0 H3);
    [|apply is_bytes_timestamp; try assumption; repeat split; [exact R1|reflexivity..]|lia|rewrite len_app; lia].
  assert (Hz : zero_field 2 m = m) by (rewrite zero_field_patch by lia; reflexivity).
  rewrite Hz, drop_odd_even by (rewrite Hlm; reflexivity). destruct (existsb _ ops); [|reflexivity]. rewrite Hlm, <- !app_assoc. reflexivity.
Qed.

(** ** IPv4 with its own payload, Ethernet *)
Lemma start_v4_full E eth r pre cur : eth_ok eth -> sized r pre cur -> fits r (eth_size eth + 20) ->
  len pre + len cur + eth_size eth + 20 <= ISIZE_MAX ->
  exists a fs, start_v4 E eth (mkbuf r pre cur) = Ok (B (use r (eth_size eth + 20)) a (v4_wire v4_zero) fs (0, 0) false false 0) /\
    len a = len pre + len cur + eth_size eth /\
    forall rest, 0 < len rest -> len a + len rest <= ISIZE_MAX ->
    match eth_front eth (nthN rest 0 / 16) with
    | Some h => fin_finalize fs (a ++ rest) = (pre ++ cur ++ h ++ rest, Ok tt)
    | None => exists out, fin_finalize fs (a ++ rest) = (out, Panic)
    end.
Proof.
  intros He Hs Hf Hl. destruct eth as [eops|]; cbn [eth_size eth_ok start_v4] in *.
  - destruct He as [He Hp]. assert (Hf' : fits r 14) by (destruct r; cbn [fits] in *; lia).
    rewrite ether_with_ok by (assumption || lia). cbn [bind].
    pose proof (ether_run_plain E eops ether_zero (use r 14) (pre ++ cur) [] [] (0, 0) false false 0 Hp ltac:(constructor)) as R.
    rewrite !app_nil_r in R. fold (ether_after eops) in R. fold ether_zero in R.
    assert (Hz : sized (use r 14) (pre ++ cur) (ether_wire ether_zero)).
    { eapply sized_same; [apply (sized_use r pre cur 14); (assumption || lia)|reflexivity]. }
    rewrite R by exact Hz. cbn [bind]. clear R.
    rewrite ether_ip_ok. cbn [bind app]. unfold ip_v4.
    assert (Hz2 : sized (use r 14) (pre ++ cur) (ether_wire (ether_after eops))) by (eapply sized_same; [exact Hz|reflexivity]).
    erewrite sub_ok; [|apply v4_with_ok; [exact Hz2|destruct r; cbn [fits use option_map] in *; autorewrite with len; lia|rewrite len_app, len_ether_wire; lia]].
    rewrite use_use. do 2 eexists. split; [reflexivity|].
    split; [rewrite !len_app, len_ether_wire; lia|].
    intros rest H0 Hb. rewrite <- (app_nil_l [ether_ip_finalizer _ _ _]). rewrite fin_last, <- app_assoc. rewrite len_ether_wire.
    rewrite ether_fin by (assumption || (rewrite !len_app, len_ether_wire in *; lia)).
    set (v := nthN rest 0 / 16). unfold eth_front.
    destruct (v =? 4) eqn:V4e; [apply N.eqb_eq in V4e; rewrite V4e; rewrite fin_nil, <- app_assoc; reflexivity|].
    destruct (v =? 6) eqn:V6e; [apply N.eqb_eq in V6e; rewrite V6e; rewrite fin_nil, <- app_assoc; reflexivity|].
    apply N.eqb_neq in V4e, V6e. clearbody v. eexists.
    destruct v as [|[[[|[]|]|[[]|[]|]|]|[[|[]|]|[[]|[]|]|]|]]; try reflexivity; lia.
  - change (0 + 20) with 20 in *. rewrite v4_with_ok by (assumption || lia). do 2 eexists. split; [reflexivity|]. split; [rewrite len_app; lia|].
    intros rest _ _. cbn [eth_front]. rewrite fin_nil, <- app_assoc. reflexivity.
Qed.
Lemma v4_fold ops f : fold_left v4_putop ops f = fold_left v4_put (v4_setters ops) f.
Proof.
  revert f. induction ops as [|o ops IH]; intros f; [reflexivity|]. destruct o as [s|p]; cbn [fold_left v4_putop v4_setters flat_map app]; apply IH.
Qed.
Lemma v4_setters_ok ops : Forall v4_op_ok ops -> Forall v4_arg_ok (v4_setters ops).
Proof.
  induction 1 as [|o ops Ho H IH]; [constructor|]. destruct o; [constructor; assumption|exact IH].
Qed.
Lemma v4_head_first f b0 t c q : b0 < 256 -> nthN (v4_wire (v4_head f b0 t c) ++ q) 0 = b0.
Proof.
  intros H. rewrite nthN_app1 by (rewrite len_v4_wire; lia). rewrite v4_head_wire.
  unfold v4_wire. destruct f as [ver ihl dscp ecn tot id rs d m frag ttl pr ck0 [] []]. reflexivity.
Qed.
Lemma v4_chain_gen E eth vops p r pre cur :
  eth_ok eth -> Forall v4_op_ok vops -> one_payload (v4_payloads vops) p ->
  sized r pre cur -> fits r (eth_size eth + 20) -> r = None \/ p = [] ->
  len pre + len cur + eth_size eth + 20 + len p <= ISIZE_MAX ->
  let f := v4_after (v4_setters vops) in
  let L := 20 + len p in
  let b0 := N.lor 64 (as_u8 (L / 4)) in
  let h := fun ck => v4_wire (v4_head f b0 (L mod 65536) ck) in
  v4_chain E eth vops (mkbuf r pre cur) =
  match eth_front eth (b0 / 16) with
  | Some e => Ok (pre ++ cur ++ e ++ h (inet_checksum (takeN (L / 4 * 4) (h 0 ++ p))) ++ p)
  | None => Panic
  end.
Proof.
  intros He Hv Hp Hs Hf Hr Hl f L b0 h.
  destruct (start_v4_full E eth r pre cur He Hs Hf ltac:(lia)) as (a & fs & H1 & H2 & H3).
  unfold v4_chain. rewrite H1. cbn [bind].
  pose proof (one_payload_bytes _ _ Hp (v4_op_payloads vops Hv)) as Hpb.
  destruct (run_one (v4_run1 E) v4_wire v4_putop v4_pay (fun _ => false) v4_step_ok false 20 len_v4_wire
    (v4_step E) (v4_step_pay E) ltac:(intros []; cbn; eauto) vops v4_zero (use r (eth_size eth + 20)) a fs (0, 0) false p
    (proj1 (v4_oks vops _ v4_zero_building Hv)) Hp Hpb) as [pl R].
  { eapply sized_after; [exact Hs|exact Hf|rewrite len_v4_wire; lia|rewrite len_v4_wire; lia]. }
  { lia. }
  { destruct Hr as [-> | ->]; [left; reflexivity|right; reflexivity]. }
  rewrite R. clear R. cbn [bind]. rewrite existsb_false, orb_false_r, v4_fold. fold (v4_after (v4_setters vops)). fold f.
  assert (Hb : v4_building f) by (apply v4_after_building, v4_setters_ok, Hv).
  unfold v4_build, v4_prepare.
  match goal with |- finish (with_fin ?b _) = _ => change (b_buffer b) with (mkbuf (use r (eth_size eth + 20)) a (v4_wire f ++ p)) end.
  rewrite mk_offset, mk_length. rewrite len_app, len_v4_wire. fold L.
  match goal with |- finish (with_fin ?b ?x) = _ => change (finish (with_fin b x)) with
    (finish (B (use r (eth_size eth + 20)) a (v4_wire f ++ p) (fs ++ [v4_finalizer E (len a) L]) (0, 0) false pl 0)) end.
  pose proof (v4_fin E a f p [] (proj1 Hb) Hpb ltac:(rewrite len_nil; lia)) as F. cbv zeta in F. rewrite len_nil, N.add_0_r in F.
  rewrite !app_nil_r in F. fold L in F. fold b0 in F.
  change (v4_wire (v4_head f b0 (L mod 65536) 0)) with (h 0) in F.
  set (c := inet_checksum _) in *. change (v4_wire (v4_head f b0 (L mod 65536) c)) with (h c) in F.
  unfold finish. change (b_buffer (B (use r (eth_size eth + 20)) a (v4_wire f ++ p) (fs ++ [v4_finalizer E (len a) L]) (0, 0) false pl 0))
    with (mkbuf (use r (eth_size eth + 20)) a (v4_wire f ++ p)). rewrite mk_inner. cbn [bind].
  change (b_fin (B (use r (eth_size eth + 20)) a (v4_wire f ++ p) (fs ++ [v4_finalizer E (len a) L]) (0, 0) false pl 0)) with (fs ++ [v4_finalizer E (len a) L]).
  rewrite fin_last, F.
  assert (Hlr : len (h c ++ p) = 20 + len p) by (rewrite len_app; unfold h; rewrite len_v4_wire; reflexivity).
  specialize (H3 (h c ++ p) ltac:(lia) ltac:(lia)).
  assert (Hb0 : 64 <= b0 < 256) by (apply lor64; unfold as_u8; lia).
  unfold h in H3 at 1. rewrite v4_head_first in H3 by lia.
  destruct (eth_front eth (b0 / 16)) as [e|].
  - rewrite H3. reflexivity.
  - destruct H3 as [out H3]. rewrite H3. reflexivity.
Qed.
Lemma ether_chain_gen E eops p r pre cur : Forall ether_op_ok eops -> one_payload (ether_payloads eops) p ->
  sized r pre cur -> fits r 14 -> r = None \/ p = [] -> len pre + len cur + 14 + len p <= ISIZE_MAX ->
  ether_chain E eops (mkbuf r pre cur) = Ok (pre ++ cur ++ ether_wire (ether_after eops) ++ p).
Proof.
  intros He Hp Hs Hf Hr Hl. unfold ether_chain. rewrite ether_with_ok by (assumption || lia). cbn [bind].
  pose proof (one_payload_bytes _ _ Hp (ether_op_payloads eops He)) as Hpb.
  destruct (run_one (ether_run1 E) ether_wire ether_put ether_pay (fun _ => false) (fun _ _ => True) false 14 len_ether_wire
    ltac:(intros; apply ether_step; assumption) ltac:(intros; eapply ether_step_pay; eassumption) ether_pay_one eops ether_zero (use r 14) (pre ++ cur) [] (0, 0) false p
    (ether_oks eops _) Hp Hpb) as [pl R].
  { eapply sized_after; [exact Hs|exact Hf|rewrite len_app, len_ether_wire; lia|rewrite len_app, len_ether_wire; lia]. }
  { rewrite len_app; lia. }
  { destruct Hr as [-> | ->]; [left; reflexivity|right; reflexivity]. }
  rewrite R. cbn [bind]. unfold ether_build, finish.
  match goal with |- context [buf_into_inner (b_buffer ?b)] => change (b_buffer b) with (mkbuf (use r 14) (pre ++ cur) (ether_wire (fold_left ether_put eops ether_zero) ++ p)) end.
  rewrite mk_inner. cbn [bind].
  match goal with |- context [b_fin ?b] => change (b_fin b) with (@nil finalizer) end. rewrite fin_nil.
  fold (ether_after eops). rewrite <- app_assoc. reflexivity.
Qed.
