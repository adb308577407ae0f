(** * HookProofs: finalizers added by the user (C51). *)
From Verif Require Import Base Enums Buffer Ether Ipv4 Ip Udp Tcp Icmp Builders Spec SpecCalls SpecBuild SpecUser
  Lemmas ParseProofs SliceProofs AccessProofs FieldProofs ChecksumLemmas ChecksumProofs GuardProofs BufferProofs BuildLemmas FinalLemmas ChainLemmas StateLemmas.
From Coq Require Import ZifyBool ZifyNat ZifyN.
Ltac Zify.zify_post_hook ::= Z.div_mod_to_equations.

Definition then_ (x : bytes * res unit) (k : bytes -> bytes * res unit) : bytes * res unit :=
  match x with (b', Ok _) => k b' | (b', Err e) => (b', Err e) | (b', Panic) => (b', Panic) end.
Lemma fin_run_app fs gs b : fin_run (fs ++ gs) b = then_ (fin_run fs b) (fin_run gs).
Proof.
  revert b. induction fs as [|f fs IH]; intros b; [reflexivity|]. cbn [app fin_run]. destruct (f b) as [b' [[]|e|]]; [apply IH|reflexivity..].
Qed.
Lemma fin_finalize_app fs gs b : fin_finalize (fs ++ gs) b = then_ (fin_finalize gs b) (fin_finalize fs).
Proof. unfold fin_finalize. rewrite rev_app_distr. apply fin_run_app. Qed.
Lemma then_Ok x : then_ x (fun b => (b, Ok tt)) = x.
Proof. destruct x as [b [[]|e|]]; reflexivity. Qed.
Lemma hooks_finalize hs b : hooks hs b = fin_finalize hs b.
Proof.
  induction hs as [|h hs IH]; [reflexivity|]. cbn [hooks]. rewrite IH. change (h :: hs) with ([h] ++ hs). rewrite fin_finalize_app.
  destruct (fin_finalize hs b) as [b' [[]|e|]]; try reflexivity. cbn [then_]. unfold fin_finalize. cbn [rev app fin_run]. destruct (h b') as [b2 [[]|e|]]; reflexivity.
Qed.
Lemma add_finalizers_B hs : forall r a c fs ip k pl n, add_finalizers hs (B r a c fs ip k pl n) = B r a c (fs ++ hs) ip k pl n.
Proof.
  induction hs as [|h hs IH]; intros r a c fs ip k pl n; [rewrite app_nil_r; reflexivity|]. unfold add_finalizers. cbn [fold_left]. fold (add_finalizers hs).
  change (with_fin (B r a c fs ip k pl n) (fin_add (b_fin (B r a c fs ip k pl n)) h)) with (B r a c (fs ++ [h]) ip k pl n).
  rewrite IH, <- app_assoc. reflexivity.
Qed.
(** Everything up to the finalizers. *)
Lemma hooked_udp_stages E eops he vs hv us hu p :
  eth_ok (Some eops) -> Forall v4_arg_ok vs -> Forall udp_op_ok us -> one_payload (udp_payloads us) p -> 42 + len p <= ISIZE_MAX ->
  let e0 := ether_wire (ether_after eops) in let f' := v4_put (v4_after vs) (V4SetProtocol IP_Udp) in
  let n := (8 + len p) mod 65536 in let g := udp_after us in
  let c := inet_checksum (with_pseudo_header (vf_src (v4_after vs)) (vf_dst (v4_after vs)) 17 (seen E (udp_wire (udp_fill g n 0) ++ p))) in
  v4_building f' /\
  hooked_udp E eops he vs hv us hu dynamic_new =
  built (then_ (hooks hu (e0 ++ v4_wire f' ++ udp_wire (udp_fill g n c) ++ p)) (fun b1 =>
         then_ (v4_finalizer E 14 20 b1) (fun b2 => then_ (hooks hv b2) (fun b3 =>
         then_ (ether_ip_finalizer E 0 14 b3) (hooks he))))).
Proof.
  intros [He Hpay] Hv Hu Hp Hl e0 f' n g c. pose proof (v4_after_building vs Hv) as Hb.
  assert (Hb' : v4_building f') by (apply v4_put_building; [exact Hb|split; [reflexivity|exact I]]).
  split; [exact Hb'|]. unfold hooked_udp. change dynamic_new with (mkbuf None [] []).
  rewrite ether_with_ok by (exact I || (unfold sized, free; rewrite len_nil; lia) || (rewrite len_nil; lia)). cbn [bind use option_map app].
  pose proof (ether_run_plain E eops ether_zero None [] [] [] (0, 0) false false 0 Hpay ltac:(constructor)) as R.
  rewrite !app_nil_r in R. fold (ether_after eops) in R. fold ether_zero in R. rewrite R by (unfold sized, free; rewrite len_nil, len_ether_wire; lia).
  clear R. cbn [bind]. rewrite add_finalizers_B, ether_ip_ok. rewrite len_nil, len_ether_wire. cbn [bind app]. unfold ip_v4.
  erewrite sub_ok; [|apply v4_with_ok; [unfold sized, free; rewrite len_nil, len_ether_wire; lia|exact I|rewrite len_nil, len_ether_wire; lia]].
  cbn [bind use option_map app]. change (ether_wire (fold_left ether_put eops ether_zero)) with e0.
  rewrite v4_run_set by (apply v4_zero_building || exact Hv || (unfold sized, free; unfold e0; rewrite len_ether_wire, len_v4_wire; lia)).
  cbn [bind]. fold (v4_after vs). rewrite add_finalizers_B. unfold v4_udp.
  assert (Hle : len e0 = 14) by apply len_ether_wire.
  erewrite v4_sub_ok; [|exact Hb|reflexivity|unfold sized, free; rewrite Hle, len_v4_wire; lia|
    apply udp_with_ok; [unfold sized, free; rewrite Hle, len_v4_wire; lia|exact I|rewrite Hle, len_v4_wire; lia]].
  fold f'. cbn [bind use option_map]. 
  change (zeros 8) with (udp_wire {| uf_src := 0; uf_dst := 0; uf_length := 0; uf_checksum := 0 |}). set (z := Build_udp_fields 0 0 0 0).
  pose proof (one_payload_bytes _ _ Hp (udp_op_payloads us Hu)) as Hpb.
  assert (Ho : oks udp_putop (fun _ _ => True) z us) by (generalize z; clear; induction us; intros z; cbn [oks]; auto).
  match goal with |- context [B None ?a _ ?fs ?ip false false 0] => 
    destruct (run_one (udp_run1 E) udp_wire udp_putop udp_pay (fun _ => false) (fun _ _ => True) false 8 len_udp_wire
      (udp_step E) (udp_step_pay E) ltac:(intros []; cbn; eauto) us z None a fs ip false p Ho Hp Hpb) as [pl R] end.
  { unfold sized, free. rewrite len_app, Hle, len_v4_wire, len_udp_wire. lia. }
  { rewrite len_app, Hle, len_v4_wire. lia. }
  { left; reflexivity. }
  rewrite R. clear R. cbn [bind]. rewrite existsb_false, orb_false_r, udp_fold. change (fold_left udp_put (udp_setters us) z) with g. rewrite add_finalizers_B.
  unfold udp_build, udp_prepare. set (cur' := udp_wire g ++ p).
  match goal with |- finish (with_fin (B ?r ?a ?c ?fs ?ip ?k ?pl ?m) _) = _ =>
    change (b_buffer (B r a c fs ip k pl m)) with (mkbuf r a c); rewrite mk_length;
    change (b_fin (B r a c fs ip k pl m)) with fs; change (b_ip (B r a c fs ip k pl m)) with ip;
    match goal with |- finish (with_fin ?b ?x) = _ => change (with_fin b x) with (B r a c x ip k pl m) end end.
  unfold finish, fin_add.
  match goal with |- context [b_fin (B ?r ?a ?c ?fs ?ip ?k ?pl ?m)] => change (b_buffer (B r a c fs ip k pl m)) with (mkbuf r a c);
    rewrite mk_inner; change (b_fin (B r a c fs ip k pl m)) with fs end.
  cbn [bind]. rewrite Hle, len_v4_wire. assert (Hlc : len cur' = 8 + len p) by (unfold cur'; rewrite len_app, len_udp_wire; reflexivity). rewrite Hlc.
  fold (built (fin_finalize (((((he ++ [ether_ip_finalizer E 0 14]) ++ hv) ++ [v4_finalizer E 14 20]) ++ hu) ++ [udp_finalizer E (14, 20) (8 + len p)]) ((e0 ++ v4_wire f') ++ cur'))).
  rewrite fin_last. unfold cur'. rewrite <- app_assoc.
  replace (udp_finalizer E (14, 20) (8 + len p)) with (udp_finalizer E (len e0, 20) (8 + len p)) by (rewrite Hle; reflexivity). rewrite udp_fin_gen by (exact Hb' || apply udp_after_ok, Hu || exact Hpb || lia). fold g n.
  replace (vf_src f') with (vf_src (v4_after vs)) by (unfold f'; destruct (v4_after vs); reflexivity).
  replace (vf_dst f') with (vf_dst (v4_after vs)) by (unfold f'; destruct (v4_after vs); reflexivity). fold c.
  f_equal. rewrite fin_finalize_app, <- hooks_finalize.
  destruct (hooks hu _) as [b1 [[]|e|]]; cbn [then_]; try reflexivity. rewrite fin_finalize_app. 
  assert (H1 : forall f b, fin_finalize [f] b = f b) by (intros f b; unfold fin_finalize; cbn [rev app fin_run]; destruct (f b) as [x [[]|e|]]; reflexivity).
  rewrite H1. destruct (v4_finalizer E 14 20 b1) as [b2 [[]|e|]]; cbn [then_]; try reflexivity.
  rewrite fin_finalize_app, <- hooks_finalize. destruct (hooks hv b2) as [b3 [[]|e|]]; cbn [then_]; try reflexivity.
  rewrite fin_finalize_app, H1. destruct (ether_ip_finalizer E 0 14 b3) as [b4 [[]|e|]]; cbn [then_]; try reflexivity.
  symmetry. apply hooks_finalize.
Qed.

Section Stages.
  Context (E : env) (eops : list ether_op) (vs : list v4_setter) (us : list udp_op) (p : bytes).
  Let f := v4_after vs.
  (** The headers as the setters left them: no Ethernet type, no total length, no checksum. *)
  Let e0 := ether_wire (ether_after eops).
  Let ip0 := v4_wire (v4_put f (V4SetProtocol IP_Udp)).
  Let udp := udp_wire (udp_finished (vf_src f) (vf_dst f) (udp_after us) p) ++ p.
  Context (Hargs : eth_ok (Some eops) /\ Forall v4_arg_ok vs /\ Forall udp_op_ok us /\ one_payload (udp_payloads us) p /\
    42 + len p <= ISIZE_MAX /\ (len p mod 2 = 0 \/ cursor_eof E = EofKeep)).
  Lemma stages he hv hu : v4_building (v4_put f (V4SetProtocol IP_Udp)) /\
    hooked_udp E eops he vs hv us hu dynamic_new =
    built (then_ (hooks hu (e0 ++ ip0 ++ udp)) (fun b1 =>
           then_ (v4_finalizer E 14 20 b1) (fun b2 => then_ (hooks hv b2) (fun b3 =>
           then_ (ether_ip_finalizer E 0 14 b3) (hooks he))))).
  Proof.
    destruct Hargs as (H1 & H2 & H3 & H4 & H5 & H6).
    pose proof (hooked_udp_stages E eops he vs hv us hu p H1 H2 H3 H4 H5) as Q. cbv zeta in Q. fold f in Q. destruct Q as [Q1 Q2]. split; [exact Q1|].
    rewrite Q2. rewrite seen_covered by (rewrite len_app, len_udp_wire; destruct H6 as [H6|H6]; [left; lia|right; exact H6]). reflexivity.
  Qed.
  Lemma len_e0 : len e0 = 14. Proof. reflexivity. Qed.
  Lemma len_ip0 : len ip0 = 20. Proof. reflexivity. Qed.
  Lemma stage_v4 udp' : len udp' = len udp ->
    v4_finalizer E 14 20 (e0 ++ ip0 ++ udp') = (e0 ++ v4_wire (v4_finished f 17 (8 + len p)) ++ udp', Ok tt).
  Proof.
    intros Hu. destruct Hargs as (H1 & H2 & H3 & H4 & H5 & H6). destruct (stages [] [] []) as [Hb _].
    assert (Hl : len udp' = 8 + len p) by (rewrite Hu; unfold udp; rewrite len_app, len_udp_wire; reflexivity).
    change 14 with (len e0). unfold ip0. rewrite v4_fin_plain by (exact Hb || (rewrite len_e0; lia)). rewrite Hl. rewrite v4_finished_proto. reflexivity.
  Qed.
  Lemma stage_ether ip' : len ip' = 28 + len p -> nthN ip' 0 / 16 = 4 ->
    ether_ip_finalizer E 0 14 (e0 ++ ip') = (ether_layer (Some eops) ++ ip', Ok tt).
  Proof.
    intros Hl Hv. destruct Hargs as (H1 & H2 & H3 & H4 & H5 & H6).
    pose proof (ether_fin E [] (ether_after eops) ip' ltac:(lia) ltac:(rewrite len_nil; lia)) as Q. rewrite Hv in Q. exact Q.
  Qed.
End Stages.

(** C51: the finalizers added to the UDP builder see the finished datagram behind
    unfinished IPv4 and Ethernet headers, those added to the IPv4 builder see the
    finished IPv4 packet behind an unfinished Ethernet header, those added to the
    Ethernet builder see the finished frame and have the last word. *)
Lemma c51_udp : forall E eops he vs hv us hu p udp' ip' last,
  eth_ok (Some eops) -> Forall v4_arg_ok vs -> Forall udp_op_ok us -> one_payload (udp_payloads us) p ->
  42 + len p <= ISIZE_MAX -> len p mod 2 = 0 \/ cursor_eof E = EofKeep ->
  let f := v4_after vs in
  let e0 := ether_wire (ether_after eops) in
  let ip0 := v4_wire (v4_put f (V4SetProtocol IP_Udp)) in
  let udp := udp_wire (udp_finished (vf_src f) (vf_dst f) (udp_after us) p) ++ p in
  hooks hu (e0 ++ ip0 ++ udp) = (e0 ++ ip0 ++ udp', Ok tt) -> len udp' = len udp ->
  let ip := v4_wire (v4_finished f 17 (8 + len p)) ++ udp' in
  hooks hv (e0 ++ ip) = (e0 ++ ip', Ok tt) -> len ip' = len ip -> nthN ip' 0 / 16 = 4 ->
  hooks he (ether_layer (Some eops) ++ ip') = last ->
  hooked_udp E eops he vs hv us hu dynamic_new = built last.
Proof.
  intros E eops he vs hv us hu p udp' ip' last H1 H2 H3 H4 H5 H6 f e0 ip0 udp Hu Hlu ip Hv Hlv Hn He.
  pose proof (conj H1 (conj H2 (conj H3 (conj H4 (conj H5 H6))))) as H.
  destruct (stages E eops vs us p H he hv hu) as [_ S]. rewrite S. clear S. fold f e0 ip0 udp. rewrite Hu. cbn [then_].
  unfold e0, ip0, f. rewrite (stage_v4 E eops vs us p H udp' Hlu). fold f e0. cbn [then_]. fold ip. rewrite Hv. cbn [then_].
  assert (Hl2 : len ip' = 28 + len p).
  { rewrite Hlv. unfold ip. rewrite len_app, len_v4_wire, Hlu. unfold udp. rewrite len_app, len_udp_wire. lia. }
  unfold e0. rewrite (stage_ether E eops vs us p H ip' Hl2 Hn). cbn [then_]. rewrite He. reflexivity.
Qed.
(** C51: a failing finalizer of the UDP or IPv4 builder ends the build with its error. *)
Lemma c51_udp_error : forall E eops he vs hv us hu p,
  eth_ok (Some eops) -> Forall v4_arg_ok vs -> Forall udp_op_ok us -> one_payload (udp_payloads us) p ->
  42 + len p <= ISIZE_MAX -> len p mod 2 = 0 \/ cursor_eof E = EofKeep ->
  let f := v4_after vs in
  let e0 := ether_wire (ether_after eops) in
  let ip0 := v4_wire (v4_put f (V4SetProtocol IP_Udp)) in
  let udp := udp_wire (udp_finished (vf_src f) (vf_dst f) (udp_after us) p) ++ p in
  let r := hooked_udp E eops he vs hv us hu dynamic_new in
  (forall out e, hooks hu (e0 ++ ip0 ++ udp) = (out, Err e) -> r = Err e) /\
  (forall out, hooks hu (e0 ++ ip0 ++ udp) = (out, Panic) -> r = Panic) /\
  (forall udp', hooks hu (e0 ++ ip0 ++ udp) = (e0 ++ ip0 ++ udp', Ok tt) -> len udp' = len udp ->
     let ip := v4_wire (v4_finished f 17 (8 + len p)) ++ udp' in
     (forall out e, hooks hv (e0 ++ ip) = (out, Err e) -> r = Err e) /\
     (forall out, hooks hv (e0 ++ ip) = (out, Panic) -> r = Panic)).
Proof.
  intros E eops he vs hv us hu p H1 H2 H3 H4 H5 H6 f e0 ip0 udp r.
  pose proof (conj H1 (conj H2 (conj H3 (conj H4 (conj H5 H6))))) as H.
  destruct (stages E eops vs us p H he hv hu) as [_ S]. fold f e0 ip0 udp in S. fold r in S.
  split; [intros out e Hu; rewrite S, Hu; reflexivity|]. split; [intros out Hu; rewrite S, Hu; reflexivity|].
  intros udp' Hu Hlu ip. rewrite Hu in S. cbn [then_] in S. unfold e0 at 1, ip0, f in S. rewrite (stage_v4 E eops vs us p H udp' Hlu) in S.
  fold f e0 in S. cbn [then_] in S. fold ip in S.
  split; intros out; [intros e|]; intros Hv; rewrite S, Hv; reflexivity.
Qed.
(** C51: without added finalizers this is the plain chain. *)
Lemma c51_none : forall E eops vs us buf,
  hooked_udp E eops [] vs [] us [] buf = udp_chain E (Some eops) vs us buf.
Proof.
  intros E eops vs us buf. unfold hooked_udp, udp_chain, v4_layer, start_v4, add_finalizers. cbn [fold_left].
  destruct (ether_with E buf) as [e|x|]; cbn [bind]; try reflexivity.
  destruct (run (ether_run1 E) eops e) as [e'|x|]; cbn [bind]; try reflexivity.
  destruct (ether_ip E e') as [i|x|]; cbn [bind]; try reflexivity.
  destruct (ip_v4 E i) as [v|x|]; cbn [bind]; reflexivity.
Qed.
Example c51_example : forall E,
  let set i v : finalizer := fun b => set_index i v b in
  let fail : finalizer := fun b => (b, Err InvalidPacket) in
  (* rewrite the last payload byte after the UDP checksum, the TTL after the IPv4 checksum *)
  hooked_udp E [] [] [V4SetTtl 9] [set 22 64] [UdpPayload [1; 2]] [set 43 77; set 43 5] dynamic_new =
    Ok (zeros 12 ++ [8; 0; 69; 0; 0; 30; 0; 0; 0; 0; 64; 17; 177; 208; 0; 0; 0; 0; 0; 0; 0; 0; 0; 0; 0; 0; 0; 10; 254; 216; 1; 77]) /\
  hooked_udp E [] [] [] [] [UdpPayload [1; 2]] [set 43 77; fail; set 43 5] dynamic_new = Err InvalidPacket /\
  hooked_udp E [] [fail] [] [] [] [] dynamic_new = Err InvalidPacket.
Proof. destruct E as [[] [] []]; vm_compute; repeat split. Qed.
