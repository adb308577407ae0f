(** * MisuseProofs: C35, C38, C39. *)
From Verif Require Import Base Enums Buffer Ether Ipv4 Ip Udp Tcp Icmp Builders Spec SpecCalls SpecBuild
  Lemmas ParseProofs SliceProofs AccessProofs FieldProofs ChecksumLemmas ChecksumProofs GuardProofs BufferProofs BuildLemmas FinalLemmas ChainLemmas ReadLemmas BuilderProofs.
From Coq Require Import ZifyBool ZifyNat ZifyN.
Ltac Zify.zify_post_hook ::= Z.div_mod_to_equations.

Lemma run_app {A} (run1 : A -> builder -> res builder) a b u :
  run run1 (a ++ b) u = let* u' := run run1 a u in run run1 b u'.
Proof.
  revert u. induction a as [|o a IH]; intros u; [reflexivity|]. cbn [app run]. destruct (run1 o u); [|reflexivity|reflexivity]. cbn [bind]. apply IH.
Qed.

(** ** C35: TCP setters after [flags] *)
Definition tcp_after_flags {A} (s : tcp_setter) : res A := match s with TcpSetSource _ => Err Io | _ => Panic end.
Lemma tcp_split_zero b : 13 <= len b -> nthN b 12 < 16 -> tcp_split b = Ok (takeN 0 b, b).
Proof.
  intros Hl Hn. unfold tcp_split, tcp_offset. rewrite index_ok by lia. cbn [bind]. rewrite N.shiftr_div_pow2. change (2 ^ 4) with 16.
  replace (nthN b 12 / 16) with 0 by lia. change (0 * 4) with 0. rewrite split_at_ok by lia. rewrite dropN_0. reflexivity.
Qed.
Lemma tcp_apply_zero s b : 13 <= len b -> nthN b 12 < 16 -> tcp_apply s b = (b, tcp_after_flags s).
Proof.
  intros Hl Hn. pose proof (tcp_split_zero b Hl Hn) as Hs.
  destruct s as [v|v|v|v|v|v|v]; cbn [tcp_apply tcp_after_flags].
  - apply (header_mut_cursor tcp_split 0 b b 0 (be16 v) Hs ltac:(lia)); reflexivity.
  - apply (header_mut_cursor tcp_split 0 b b 2 (be16 v) Hs ltac:(lia)); reflexivity.
  - apply (header_mut_cursor tcp_split 0 b b 4 (be32 v) Hs ltac:(lia)); reflexivity.
  - apply (header_mut_cursor tcp_split 0 b b 8 (be32 v) Hs ltac:(lia)); reflexivity.
  - unfold tcp_set_flags, mlet, tcp_header. rewrite Hs. cbn [bind]. rewrite takeN_0. reflexivity.
  - apply (header_mut_cursor tcp_split 0 b b 14 (be16 v) Hs ltac:(lia)); reflexivity.
  - apply (header_mut_cursor tcp_split 0 b b 18 (be16 v) Hs ltac:(lia)); reflexivity.
Qed.
(** What [flags] leaves. *)
Lemma tcp_set_flags_leaves v b b' : v < 512 -> tcp_set_flags v b = (b', Ok tt) -> len b' = len b /\ 13 <= len b' /\ nthN b' 12 < 16.
Proof.
  intros Hv H. unfold tcp_set_flags, mlet, header_mut, tcp_header in H.
  destruct (tcp_split b) as [[h r]|e|] eqn:Hs; cbn [bind] in H; try (injection H as <- H; discriminate H).
  assert (Hh : h = takeN (len h) b /\ len h <= len b).
  { unfold tcp_split in Hs. destruct (tcp_offset b) as [o|e|]; cbn [bind] in Hs; try discriminate. unfold split_at in Hs.
    destruct (o * 4 <=? len b) eqn:L; [|discriminate]. injection Hs as <- <-. rewrite len_takeN. replace (N.min (o * 4) (len b)) with (o * 4) by lia. split; [reflexivity|lia]. }
  destruct Hh as [Hh Hl]. unfold index in H. destruct (12 <? len h) eqn:L12; [|injection H as <- H; discriminate H].
  assert (Hw : N.lor (shl_u16 (N.land (nthN h 12) 240) 12) v = v).
  { assert (Hz : shl_u16 (N.land (nthN h 12) 240) 12 = 0); [|rewrite Hz; apply N.lor_0_l].
    unfold shl_u16, as_u16. rewrite N.shiftl_mul_pow2.
    assert (Hd : N.land (nthN h 12) 240 = N.shiftl (N.land (N.shiftr (nthN h 12) 4) 15) 4).
    { apply N.bits_inj. intros i. rewrite N.land_spec. destruct (N.ltb_spec i 4) as [Hi|Hi].
      - rewrite N.shiftl_spec_low by exact Hi. change 240 with (15 * 2 ^ 4). rewrite N.mul_pow2_bits_low by exact Hi. apply andb_false_r.
      - rewrite N.shiftl_spec_high' by exact Hi. rewrite N.land_spec, N.shiftr_spec'. replace (i - 4 + 4) with i by lia. f_equal.
        change 240 with (15 * 2 ^ 4). rewrite N.mul_pow2_bits_high by exact Hi. reflexivity. }
    rewrite Hd, N.shiftl_mul_pow2. replace (N.land (N.shiftr (nthN h 12) 4) 15 * 2 ^ 4 * 2 ^ 12) with (N.land (N.shiftr (nthN h 12) 4) 15 * 65536) by (rewrite <- N.mul_assoc; reflexivity).
    apply N.mod_mul. lia. }
  rewrite Hw in H. unfold write_u16, cursor_write in H. destruct (12 <=? len h) eqn:L13; [|lia].
  set (k := N.min (len h - 12) (len (be16 v))) in H. change (len (be16 v)) with 2 in k, H.
  destruct (k <? 2) eqn:Hk; [injection H as _ H; discriminate H|]. assert (k = 2) as Ek by lia. rewrite Ek in H.
  assert (Eb : b' = (takeN 12 h ++ be16 v ++ dropN (12 + 2) h) ++ dropN (len h) b) by (symmetry; exact (f_equal fst H)). clear H. subst b'.
  assert (Hlen : len ((takeN 12 h ++ be16 v ++ dropN (12 + 2) h) ++ dropN (len h) b) = len b).
  { rewrite !len_app, !len_dropN, len_takeN. change (len (be16 v)) with 2. lia. }
  rewrite Hlen. split; [reflexivity|]. split; [lia|].
  rewrite nthN_app1 by (rewrite !len_app, !len_dropN, len_takeN; change (len (be16 v)) with 2; lia).
  rewrite nthN_app2 by (rewrite len_takeN; lia). rewrite len_takeN. replace (12 - N.min 12 (len h)) with 0 by lia.
  unfold be16, nthN. cbn [app nth N.to_nat]. lia.
Qed.
Lemma buf_edit_again E f b b1 : edit E f b = Ok b1 ->
  exists d d', f d = (d', Ok tt) /\ (len d' = len d -> forall g x, g d' = (d', x) -> edit E g b1 = let* _ := x in Ok b1).
Proof.
  intros H. unfold edit, buf_data_mut in H. destruct b as [buf fin ip k pl n]. cbn [b_buffer] in H.
  assert (Hgen : forall inner o e (mk : bytes -> buffer),
    (let (i, r) := range_mut o e f inner in (mk i, r)) = (mk (fst (range_mut o e f inner)), snd (range_mut o e f inner))).
  { intros. destruct (range_mut o e f inner); reflexivity. }
  destruct buf as [inner o l|inner o l u]; destruct (usize_add E o l) as [e|er|] eqn:Ea; try discriminate H.
  all: unfold range_mut in H; destruct ((o <=? e) && (e <=? len inner))%bool eqn:Hr; [|discriminate H].
  all: destruct (f (takeN (e - o) (dropN o inner))) as [m r] eqn:Hf; destruct r as [[]|er|]; try discriminate H;
    cbn [try_buf bind] in H; apply Ok_inj in H; subst b1.
  all: exists (takeN (e - o) (dropN o inner)), m; split; [exact Hf|]; intros Hlen g x Hg; unfold edit, buf_data_mut; cbn [b_buffer with_buffer]; rewrite Ea.
  all: rewrite len_takeN, len_dropN in Hlen; unfold range_mut.
  all: assert (Hl2 : len (takeN o inner ++ m ++ dropN e inner) = len inner) by (rewrite !len_app, len_takeN, len_dropN; lia).
  all: rewrite Hl2, Hr; assert (Hd : takeN (e - o) (dropN o (takeN o inner ++ m ++ dropN e inner)) = m).
  all: try (assert (Ho : len (takeN o inner) = o) by (rewrite len_takeN; lia); rewrite <- Ho at 2; rewrite dropN_app_len; rewrite takeN_app1 by lia; apply takeN_all; lia).
  all: rewrite Hd, Hg; assert (Ho : len (takeN o inner) = o) by (rewrite len_takeN; lia).
  all: assert (Ht : takeN o (takeN o inner ++ m ++ dropN e inner) = takeN o inner) by (rewrite takeN_app1 by lia; apply takeN_all; lia).
  all: assert (Hdd : dropN e (takeN o inner ++ m ++ dropN e inner) = dropN e inner).
  all: try (rewrite app_assoc; replace e with (len (takeN o inner ++ m)) at 1 by (rewrite len_app, len_takeN; lia); apply dropN_app_len).
  all: rewrite Ht, Hdd; destruct x as [[]|er|]; reflexivity.
Qed.
(** C35: right after [flags], whatever the state of the builder, no setter succeeds. *)
Lemma c35_next_setter : forall E v s b b1, v < 512 -> tcp_run1 E (TcpSet (TcpSetFlags v)) b = Ok b1 ->
  tcp_run1 E (TcpSet s) b1 = match s with TcpSetSource _ => Err Io | _ => Panic end.
Proof.
  intros E v s b b1 Hv H. cbn [tcp_run1 tcp_apply] in *. destruct (buf_edit_again E _ b b1 H) as (d & d' & H1 & H2).
  destruct (tcp_set_flags_leaves v d d' Hv H1) as (L1 & L2 & L3).
  rewrite (H2 L1 (tcp_apply s) (tcp_after_flags s) (tcp_apply_zero s d' L2 L3)). destruct s; reflexivity.
Qed.

Lemma tcp_fold_flags ops : forall f, tcp_building f -> Forall tcp_op_ok ops -> flags_last (tcp_setters ops) ->
  (exists v, last (tcp_setters ops) (TcpSetSource 0) = TcpSetFlags v) -> tf_offset (fold_left tcp_putop ops f) = 0 /\ tf_reserved (fold_left tcp_putop ops f) = 0 /\ tf_flags (fold_left tcp_putop ops f) < 512.
Proof.
  intros f Hf Ho Hl [v Hv].
  revert Ho Hl Hv. induction ops as [|o ops IH] using rev_ind; intros Ho Hl Hv; [discriminate Hv|].
  apply Forall_app in Ho. destruct Ho as [Ho1 Ho2]. inversion_clear Ho2 as [|? ? Ho _].
  unfold tcp_setters in Hl, Hv. rewrite flat_map_app in Hl, Hv. cbn [flat_map] in Hl, Hv. rewrite fold_left_app. cbn [fold_left].
  destruct o as [s|p].
  - cbn [app] in Hv. rewrite last_last in Hv. subst s. cbn [tcp_putop]. destruct (fold_left tcp_putop ops f). cbn in Ho |- *. repeat split; exact Ho.
  - cbn [app] in Hl, Hv. rewrite !app_nil_r in Hl, Hv. cbn [tcp_putop]. apply IH; assumption.
Qed.
Lemma tcp_after_flags_run E ops p s rest pre fin ip : Forall tcp_op_ok ops -> flags_last (tcp_setters ops) ->
  (exists v, last (tcp_setters ops) (TcpSetSource 0) = TcpSetFlags v) -> one_payload (tcp_payloads ops) p ->
  len pre + 20 + len p <= ISIZE_MAX ->
  run (tcp_run1 E) (ops ++ TcpSet s :: rest) (B None pre (tcp_wire tcp_zero) fin ip false false 0) = tcp_after_flags s.
Proof.
  intros Ho Hl Hv Hp Hs. destruct (tcp_fold ops tcp_zero tcp_zero_building eq_refl Ho Hl) as (Hoks & _).
  destruct (tcp_fold_flags ops tcp_zero tcp_zero_building Ho Hl Hv) as (F1 & F2 & F3).
  rewrite run_app.
  destruct (run_one (tcp_run1 E) tcp_wire tcp_putop tcp_pay (fun _ => false) tcp_step_ok true 20 len_tcp_wire
    (tcp_step E) (tcp_step_pay E) ltac:(intros []; cbn; eauto) ops tcp_zero None pre fin ip false p
    Hoks Hp (one_payload_bytes _ _ Hp (tcp_op_payloads ops Ho))) as [pl R].
  { unfold sized, free. rewrite len_tcp_wire. lia. }
  { lia. }
  { left; reflexivity. }
  rewrite R. cbn [bind run tcp_run1].
  set (g := fold_left tcp_putop ops tcp_zero) in *. clearbody g. clear R.
  assert (H13 : 13 <= len (tcp_wire g ++ p)) by (rewrite len_app, len_tcp_wire; lia).
  assert (H12 : nthN (tcp_wire g ++ p) 12 < 16).
  { rewrite nthN_app1 by (rewrite len_tcp_wire; lia). destruct g as [src dst seq ack off res fl win ck ptr]. cbn in F1, F2, F3. subst off res.
    match goal with |- ?x < 16 => change x with ((0 * 4096 + 0 * 512 + fl) / 256) end. lia. }
  pose proof (tcp_apply_zero s _ H13 H12) as A.
  assert (Hz : sized None pre (tcp_wire g ++ p)) by (apply sized_grow; rewrite len_app, len_tcp_wire; lia).
  destruct s as [v|v|v|v|v|v|v]; cbn [tcp_after_flags] in *.
  1: rewrite (edit_err E None pre (tcp_wire g ++ p) _ _ Io fin ip _ pl _ Hz A eq_refl); reflexivity.
  all: rewrite (edit_panic E None pre (tcp_wire g ++ p) _ _ fin ip _ pl _ Hz A eq_refl); reflexivity.
Qed.
(** C35: so no program goes on with a setter after [flags], with or without a
    payload in between; [rest] never runs. *)
Lemma c35_programs : forall E eth vs ops v p s rest,
  eth_ok eth -> Forall v4_arg_ok vs -> Forall tcp_op_ok ops ->
  flags_last (tcp_setters ops) -> last (tcp_setters ops) (TcpSetSource 0) = TcpSetFlags v ->
  one_payload (tcp_payloads ops) p -> 54 + len p <= ISIZE_MAX ->
  let outcome : res bytes := match s with TcpSetSource _ => Err Io | _ => Panic end in
  tcp_chain E eth vs (ops ++ TcpSet s :: rest) dynamic_new = outcome /\
  (let* t := tcp_default E in let* t := run (tcp_run1 E) (ops ++ TcpSet s :: rest) t in tcp_build E t) = outcome.
Proof.
  intros E eth vs ops v p s rest He Hvs Ho Hl Hv Hp Hs outcome.
  assert (Hi : 1000 <= ISIZE_MAX) by (widths; lia).
  split.
  - destruct (v4_layer_ok E eth vs None [] [] He Hvs dynamic_sized I ltac:(destruct eth; cbn [eth_size]; rewrite len_nil; lia)) as (a & fs & H1 & H2).
    unfold tcp_chain. change (mkbuf None [] []) with dynamic_new in H1. rewrite H1. cbn [bind]. clear H1.
    pose proof (v4_after_building vs Hvs) as Hb. destruct H2 as [H2 _]. cbn [app] in H2. rewrite len_ether_layer in H2. 
    assert (Ha : len a <= 14) by (destruct eth; cbn [eth_size] in H2; lia).
    change (use None (eth_size eth + 20)) with (@None bytes).
    assert (Hs1 : sized None a (v4_wire (v4_after vs))) by (apply sized_grow; rewrite len_v4_wire; lia).
    unfold v4_tcp. erewrite v4_sub_ok; [|exact Hb|reflexivity|exact Hs1|apply tcp_with_ok; [eapply sized_same; [exact Hs1|reflexivity]|exact I|rewrite len_v4_wire; lia]].
    cbn [bind]. change (use None 20) with (@None bytes).
    rewrite (tcp_after_flags_run E ops p s rest) by (eauto || (rewrite len_app, len_v4_wire; lia)). destruct s; reflexivity.
  - unfold tcp_default. pose proof (tcp_with_ok E None [] [] dynamic_sized I ltac:(rewrite len_nil; lia)) as T.
    change (mkbuf None [] []) with dynamic_new in T. rewrite T. cbn [unwrap bind]. change (use None 20) with (@None bytes).
    rewrite (tcp_after_flags_run E ops p s rest) by (eauto || (rewrite len_app, !len_nil; lia)). destruct s; reflexivity.
Qed.
Example c35_example : forall E,
  let ops := [TcpSet (TcpSetSource 80); TcpPayload [1; 2]; TcpSet (TcpSetFlags 18)] in
  Forall tcp_op_ok ops /\ flags_last (tcp_setters ops) /\ last (tcp_setters ops) (TcpSetSource 0) = TcpSetFlags 18 /\
  one_payload (tcp_payloads ops) [1; 2] /\
  tcp_chain E (Some []) [V4SetTtl 64] (ops ++ [TcpSet (TcpSetSource 443)]) dynamic_new = Err Io /\
  tcp_chain E (Some []) [V4SetTtl 64] (ops ++ [TcpSet (TcpSetWindow 443)]) dynamic_new = Panic.
Proof.
  intros E ops. split; [repeat (constructor; try reflexivity)|]. split; [repeat constructor; intros []|]. split; [reflexivity|]. split; [left; reflexivity|].
  destruct E as [[] [] []]; vm_compute; repeat split; reflexivity.
Qed.

(** ** C38: misuse *)
Lemma try_buf_ok r buf : try_buf r = Ok buf -> r = (buf, Ok tt).
Proof. destruct r as [b [[]|e|]]; cbn; intros H; try discriminate. apply Ok_inj in H. subst. reflexivity. Qed.
Lemma edit_keeps E f b b' : edit E f b = Ok b' ->
  b_fin b' = b_fin b /\ b_ip b' = b_ip b /\ b_kind b' = b_kind b /\ b_payload b' = b_payload b /\ b_payload_length b' = b_payload_length b.
Proof.
  unfold edit. destruct (try_buf _) as [buf|e|]; cbn [bind]; intros H; try discriminate. apply Ok_inj in H. subst. repeat split.
Qed.
Lemma loop_keeps E count p : forall b b', payload_loop E count p b = Ok b' ->
  b_fin b' = b_fin b /\ b_ip b' = b_ip b /\ b_kind b' = b_kind b /\ b_payload b' = b_payload b.
Proof.
  induction p as [|x p IH]; intros b b' H; cbn [payload_loop] in H.
  - apply Ok_inj in H. subst. repeat split.
  - destruct (try_buf _) as [buf|e|]; cbn [bind] in H; try discriminate.
    destruct count.
    + destruct (usize_add _ _ _) as [n|e|]; cbn [bind] in H; try discriminate.
      destruct (edit _ _ _) as [b3|e|] eqn:He; cbn [bind] in H; try discriminate. apply edit_keeps in He. cbn in He.
      destruct (IH _ _ H) as (I1 & I2 & I3 & I4). destruct He as (-> & -> & -> & -> & _) in I1, I2, I3, I4. repeat split; assumption.
    + cbn [bind] in H. destruct (edit _ _ _) as [b3|e|] eqn:He; cbn [bind] in H; try discriminate. apply edit_keeps in He. cbn in He.
      destruct (IH _ _ H) as (I1 & I2 & I3 & I4). destruct He as (-> & -> & -> & -> & _) in I1, I2, I3, I4. repeat split; assumption.
Qed.
Lemma add_payload_keeps E e count p b b' : add_payload E e count p b = Ok b' ->
  b_fin b' = b_fin b /\ b_ip b' = b_ip b /\ b_kind b' = b_kind b /\ b_payload b = false /\ b_payload b' = true.
Proof.
  unfold add_payload. destruct (b_payload b) eqn:Hp; [discriminate|]. intros H. apply loop_keeps in H. cbn in H.
  destruct H as (-> & -> & -> & ->). repeat split.
Qed.
Section Once.
  Context {A : Type} (run1 : A -> builder -> res builder) (mk : bytes -> A).
  Hypothesis Hpay : forall p b b', run1 (mk p) b = Ok b' -> b_payload b' = true.
  Hypothesis Hkeep : forall o b b', run1 o b = Ok b' -> b_payload b = true -> b_payload b' = true.
  Lemma run_keeps_payload ops : forall b b', run run1 ops b = Ok b' -> b_payload b = true -> b_payload b' = true.
  Proof using Hkeep.
    induction ops as [|o ops IH]; intros b b' H Hb; cbn [run] in H; [apply Ok_inj in H; subst; exact Hb|].
    destruct (run1 o b) as [b1|e|] eqn:H1; cbn [bind] in H; try discriminate. eapply IH; [exact H|]. eapply Hkeep; eassumption.
  Qed.
  Lemma run_has_payload ops p : forall b b', In (mk p) ops -> run run1 ops b = Ok b' -> b_payload b' = true.
  Proof using Hpay Hkeep.
    induction ops as [|o ops IH]; intros b b' Hi H; [destruct Hi|]. cbn [run] in H.
    destruct (run1 o b) as [b1|e|] eqn:H1; cbn [bind] in H; try discriminate. destruct Hi as [->|Hi]; [|eapply IH; eassumption].
    eapply run_keeps_payload; [exact H|]. eapply Hpay; exact H1.
  Qed.
End Once.
Ltac keeps := let o := fresh in let H := fresh in let Hb := fresh in intros o ? ? H Hb; destruct o; cbn in H;
  first [apply edit_keeps in H; cbn in H; destruct H as (_ & _ & _ & H & _); rewrite H; exact Hb | apply add_payload_keeps in H; apply H].
Ltac pays := let H := fresh in intros ? ? ? H; cbn in H; apply add_payload_keeps in H; apply H.
Lemma ether_has E ops p b b' : In (EtherPayload p) ops -> run (ether_run1 E) ops b = Ok b' -> b_payload b' = true.
Proof. apply run_has_payload; [pays|keeps]. Qed.
Lemma v4_has E ops p b b' : In (V4Payload p) ops -> run (v4_run1 E) ops b = Ok b' -> b_payload b' = true.
Proof. apply run_has_payload; [pays|keeps]. Qed.
Lemma udp_has E ops p b b' : In (UdpPayload p) ops -> run (udp_run1 E) ops b = Ok b' -> b_payload b' = true.
Proof. apply run_has_payload; [pays|keeps]. Qed.
Lemma tcp_has E ops p b b' : In (TcpPayload p) ops -> run (tcp_run1 E) ops b = Ok b' -> b_payload b' = true.
Proof. apply run_has_payload; [pays|keeps]. Qed.
Lemma echo_has E ops p b b' : In (EchoPayload p) ops -> run (echo_run1 E) ops b = Ok b' -> b_payload b' = true.
Proof. apply run_has_payload; [pays|keeps]. Qed.
(** C38: a second [payload] call is refused, whatever the builder, its buffer and
    the calls in between (also for an empty payload). *)
Lemma c38_second_payload : forall E p q b b',
  (forall ops, In (EtherPayload p) ops -> run (ether_run1 E) ops b = Ok b' -> ether_run1 E (EtherPayload q) b' = Err AlreadyDefined) /\
  (forall ops, In (V4Payload p) ops -> run (v4_run1 E) ops b = Ok b' -> v4_run1 E (V4Payload q) b' = Err AlreadyDefined) /\
  (forall ops, In (UdpPayload p) ops -> run (udp_run1 E) ops b = Ok b' -> udp_run1 E (UdpPayload q) b' = Err AlreadyDefined) /\
  (forall ops, In (TcpPayload p) ops -> run (tcp_run1 E) ops b = Ok b' -> tcp_run1 E (TcpPayload q) b' = Err AlreadyDefined) /\
  (forall ops, In (EchoPayload p) ops -> run (echo_run1 E) ops b = Ok b' -> echo_run1 E (EchoPayload q) b' = Err InvalidPacket).
Proof.
  intros E p q b b'.
  split; [intros ops Hi H; cbn; unfold add_payload; rewrite (ether_has E ops p b b' Hi H); reflexivity|].
  split; [intros ops Hi H; cbn; unfold add_payload; rewrite (v4_has E ops p b b' Hi H); reflexivity|].
  split; [intros ops Hi H; cbn; unfold add_payload; rewrite (udp_has E ops p b b' Hi H); reflexivity|].
  split; [intros ops Hi H; cbn; unfold add_payload; rewrite (tcp_has E ops p b b' Hi H); reflexivity|].
  intros ops Hi H; cbn; unfold add_payload; rewrite (echo_has E ops p b b' Hi H); reflexivity.
Qed.
(** C38: and so is a sub-protocol after a payload. *)
Lemma c38_sub_after_payload : forall E p b b',
  (forall ops, In (EtherPayload p) ops -> run (ether_run1 E) ops b = Ok b' -> ether_ip E b' = Err AlreadyDefined) /\
  (forall ops, In (V4Payload p) ops -> run (v4_run1 E) ops b = Ok b' ->
     v4_udp E b' = Err AlreadyDefined /\ v4_tcp E b' = Err AlreadyDefined /\ v4_icmp E b' = Err AlreadyDefined).
Proof.
  intros E p b b'.
  split; [intros ops Hi H; unfold ether_ip; rewrite (ether_has E ops p b b' Hi H); reflexivity|].
  intros ops Hi H; unfold v4_udp, v4_tcp, v4_icmp, v4_sub; rewrite (v4_has E ops p b b' Hi H); repeat split.
Qed.
(** C38: a builder that stops at the generic IP, IPv6 or ICMP layer builds nothing. *)
Lemma c38_incomplete : forall E eops vs, eth_ok (Some eops) -> Forall v4_arg_ok vs ->
  (let* e := ether_with E dynamic_new in let* e := run (ether_run1 E) eops e in let* i := ether_ip E e in ip_build i) = Err InvalidPacket /\
  (let* e := ether_with E dynamic_new in let* e := run (ether_run1 E) eops e in let* i := ether_ip E e in let* x := ip_v6 i in v6_build x) = Err InvalidPacket /\
  (forall eth, eth_ok eth -> (let* v := v4_layer E eth vs dynamic_new in let* i := v4_icmp E v in icmp_build i) = Err InvalidPacket) /\
  (let* i := ip_default in ip_build i) = Err InvalidPacket /\
  (let* i := icmp_default in icmp_build i) = Err InvalidPacket.
Proof.
  intros E eops vs He Hv. assert (Hi : 1000 <= ISIZE_MAX) by (widths; lia).
  assert (Hw : exists e, (let* e := ether_with E dynamic_new in run (ether_run1 E) eops e) = Ok e /\ b_payload e = false).
  { destruct He as [He Hp]. change dynamic_new with (mkbuf None [] []). rewrite ether_with_ok by (apply dynamic_sized || exact I || (rewrite len_nil; lia)). cbn [bind].
    pose proof (ether_run_plain E eops ether_zero (use None 14) ([] ++ []) [] [] (0, 0) false false 0 Hp ltac:(constructor)) as R.
    rewrite !app_nil_r in R. cbn [app]. fold ether_zero. rewrite R; [eexists; split; [reflexivity|reflexivity]|]. apply sized_grow. rewrite len_ether_wire, len_nil. lia. }
  destruct Hw as (e & He1 & He2). destruct (ether_with E dynamic_new) as [e0|er|]; cbn [bind] in He1; try discriminate. cbn [bind]. rewrite He1. cbn [bind].
  unfold ether_ip. rewrite He2. cbn [sub ip_with bind].
  split; [reflexivity|]. split; [reflexivity|]. split; [|split; reflexivity].
  intros eth Heth. pose proof (icmp_layer_ok E (Some (eth, vs)) None [] [] (conj Heth Hv) dynamic_sized I) as L.
  unfold icmp_layer in L. change (mkbuf None [] []) with dynamic_new in L.
  destruct L as (a & c & fs & L1 & _). { destruct eth; cbn; lia. }
  destruct (v4_layer E eth vs dynamic_new) as [v|er|]; cbn [bind] in L1 |- *; try discriminate. rewrite L1. reflexivity.
Qed.
(** C38: without [request] or [reply], an ICMP message is not built, whatever the buffer. *)
Lemma run_no_kind {A} (run1 : A -> builder -> res builder) (kindof : A -> bool) :
  (forall o b b', run1 o b = Ok b' -> b_kind b' = (b_kind b || kindof o)%bool) ->
  forall ops b b', run run1 ops b = Ok b' -> b_kind b' = (b_kind b || existsb kindof ops)%bool.
Proof.
  intros Hk ops. induction ops as [|o ops IH]; intros b b' H; cbn [run existsb] in *.
  - apply Ok_inj in H. subst. rewrite orb_false_r. reflexivity.
  - destruct (run1 o b) as [b1|e|] eqn:H1; cbn [bind] in H; try discriminate. rewrite (IH _ _ H), (Hk _ _ _ H1), orb_assoc. reflexivity.
Qed.
Lemma edit_kind E f b b' : edit E f b = Ok b' -> b_kind b' = b_kind b.
Proof. intros H. apply edit_keeps in H. apply H. Qed.
Lemma pay_kind E e c p b b' : add_payload E e c p b = Ok b' -> b_kind b' = b_kind b.
Proof. intros H. apply add_payload_keeps in H. apply H. Qed.
Ltac kinds := let o := fresh in let H := fresh in intros o ? ? H; destruct o; cbn in H;
  (first [apply edit_kind in H | apply pay_kind in H]); rewrite H; cbn; rewrite ?orb_false_r, ?orb_true_r; reflexivity.
Lemma echo_kinds E ops b b' : run (echo_run1 E) ops b = Ok b' -> b_kind b' = (b_kind b || existsb echo_kindof ops)%bool.
Proof. apply run_no_kind. kinds. Qed.
Lemma information_kinds E ops b b' : run (information_run1 E) ops b = Ok b' -> b_kind b' = (b_kind b || existsb information_kindof ops)%bool.
Proof. apply run_no_kind. kinds. Qed.
Lemma timestamp_kinds E ops b b' : run (timestamp_run1 E) ops b = Ok b' -> b_kind b' = (b_kind b || existsb timestamp_kindof ops)%bool.
Proof. apply run_no_kind. kinds. Qed.
Lemma sub_kind mk b c : sub mk b = Ok c -> (forall buf x, mk buf = Ok x -> b_kind x = false) -> b_kind c = false.
Proof.
  unfold sub. destruct (mk (b_buffer b)) as [x|e|] eqn:Hm; cbn [bind]; intros H Hk; try discriminate. apply Ok_inj in H. subst. cbn. eapply Hk, Hm.
Qed.
Lemma c38_no_kind : forall E i c0 c,
  (forall ops, icmp_echo E i = Ok c0 -> run (echo_run1 E) ops c0 = Ok c ->
     ~ echo_kind_given ops -> echo_build E c = Err InvalidPacket) /\
  (forall ops, icmp_information E i = Ok c0 -> run (information_run1 E) ops c0 = Ok c ->
     ~ information_kind_given ops -> information_build E c = Err InvalidPacket) /\
  (forall ops, icmp_timestamp E i = Ok c0 -> run (timestamp_run1 E) ops c0 = Ok c ->
     ~ timestamp_kind_given ops -> timestamp_build E c = Err InvalidPacket).
Proof.
  intros E i c0 c.
  split; [|split]; intros ops H0 H Hn.
  - assert (K : b_kind c = false); [|unfold echo_build, icmp_kind_build; rewrite K; reflexivity].
    rewrite (echo_kinds E ops c0 c H). rewrite echo_kind_iff in Hn. apply not_true_is_false in Hn. rewrite Hn.
    rewrite (sub_kind _ _ _ H0); [reflexivity|]. intros buf x Hx. unfold echo_with in Hx. destruct (try_buf _); cbn [bind] in Hx; try discriminate. apply Ok_inj in Hx. subst. reflexivity.
  - assert (K : b_kind c = false); [|unfold information_build, icmp_kind_build; rewrite K; reflexivity].
    rewrite (information_kinds E ops c0 c H). rewrite information_kind_iff in Hn. apply not_true_is_false in Hn. rewrite Hn.
    rewrite (sub_kind _ _ _ H0); [reflexivity|]. intros buf x Hx. unfold information_with in Hx. destruct (try_buf _); cbn [bind] in Hx; try discriminate. apply Ok_inj in Hx. subst. reflexivity.
  - assert (K : b_kind c = false); [|unfold timestamp_build, icmp_kind_build; rewrite K; reflexivity].
    rewrite (timestamp_kinds E ops c0 c H). rewrite timestamp_kind_iff in Hn. apply not_true_is_false in Hn. rewrite Hn.
    rewrite (sub_kind _ _ _ H0); [reflexivity|]. intros buf x Hx. unfold timestamp_with in Hx. destruct (try_buf _); cbn [bind] in Hx; try discriminate. apply Ok_inj in Hx. subst. reflexivity.
Qed.
Example c38_example : forall E,
  (let* u := udp_default E in run (udp_run1 E) [UdpPayload []; UdpSet (UdpSetSource 1); UdpPayload [1]] u) = Err AlreadyDefined /\
  (let* v := v4_default E in let* v := run (v4_run1 E) [V4Payload [1; 2]; V4Set (V4SetTtl 3)] v in v4_udp E v) = Err AlreadyDefined /\
  (let* c := echo_default E in run (echo_run1 E) [EchoPayload [5]; EchoRequest; EchoPayload [6]] c) = Err InvalidPacket /\
  (exists b, (let* u := udp_default E in run (udp_run1 E) [UdpPayload []; UdpSet (UdpSetSource 1)] u) = Ok b).
Proof. intros E. destruct E as [[] [] []]; vm_compute; repeat split; eexists; reflexivity. Qed.

(** ** C39: UDP and TCP without an IP layer *)
Definition keeps_len (f : mut) : Prop := forall b, len (fst (f b)) = len b.
Lemma kl_cursor off bs : keeps_len (cursor_write off bs).
Proof.
  intros b. unfold cursor_write. destruct (off <=? len b) eqn:H; [|reflexivity]. cbn [fst]. rewrite !len_app, !len_takeN, len_dropN. lia.
Qed.
Lemma kl_set_index i v : keeps_len (set_index i v).
Proof.
  intros b. unfold set_index. destruct (i <? len b) eqn:H; [|reflexivity]. cbn [fst]. rewrite len_app, len_cons, len_takeN, len_dropN. lia.
Qed.
Lemma kl_set_last v : keeps_len (set_last v).
Proof. intros b. unfold set_last. destruct (len b =? 0); [reflexivity|apply kl_set_index]. Qed.
Lemma kl_mlet {A} (r : bytes -> res A) k : (forall a, keeps_len (k a)) -> keeps_len (mlet r k).
Proof. intros H b. unfold mlet. destruct (r b); [apply H|reflexivity|reflexivity]. Qed.
Lemma kl_header split f : (forall b h r, split b = Ok (h, r) -> len h <= len b) -> keeps_len f -> keeps_len (header_mut split f).
Proof.
  intros Hs Hf b. unfold header_mut. destruct (split b) as [[h r]|e|] eqn:Hb; try reflexivity. specialize (Hs b h r Hb).
  pose proof (Hf h) as Hh. destruct (f h) as [h' x]. cbn [fst] in *. rewrite len_app, len_dropN. lia.
Qed.
Lemma kl_zero_from i : keeps_len (zero_from i).
Proof. intros b. unfold zero_from. destruct (i <=? len b) eqn:H; [|reflexivity]. cbn [fst]. rewrite len_app, len_zeros, len_takeN. lia. Qed.
Lemma kl_zero_all : keeps_len zero_all.
Proof. intros b. apply len_zeros. Qed.
Lemma split_at_le b n h r : split_at b n = Ok (h, r) -> len h <= len b.
Proof. unfold split_at. destruct (n <=? len b); [|discriminate]. intros H. injection H as <- _. rewrite len_takeN. lia. Qed.
Lemma kl_udp s : keeps_len (udp_apply s).
Proof.
  assert (Hs : forall b h r, udp_split b = Ok (h, r) -> len h <= len b).
  { intros b h r. unfold udp_split. destruct (udp_payload_size b) as [n|e|]; cbn [bind]; try discriminate.
    destruct (len b <? 8 + n); cbn [bind]; [apply split_at_le|]. unfold slice_to. destruct (8 + n <=? len b); cbn [bind]; try discriminate.
    intros H. apply split_at_le in H. rewrite len_takeN in H. lia. }
  destruct s; cbn [udp_apply]; first [apply kl_header; [exact Hs|apply kl_cursor] | apply kl_cursor].
Qed.
Lemma kl_tcp s : keeps_len (tcp_apply s).
Proof.
  assert (Hs : forall b h r, tcp_split b = Ok (h, r) -> len h <= len b).
  { intros b h r. unfold tcp_split. destruct (tcp_offset b); cbn [bind]; try discriminate. apply split_at_le. }
  destruct s; cbn [tcp_apply]; try (apply kl_header; [exact Hs|apply kl_cursor]).
  unfold tcp_set_flags. apply kl_mlet. intros. apply kl_header; [exact Hs|apply kl_cursor].
Qed.
Lemma kl_range i j f : keeps_len f -> keeps_len (range_mut i j f).
Proof.
  intros Hf b. unfold range_mut. destruct ((i <=? j) && (j <=? len b))%bool eqn:H; [|reflexivity].
  pose proof (Hf (takeN (j - i) (dropN i b))) as Hm. destruct (f _) as [m r]. cbn [fst] in *. rewrite len_takeN, len_dropN in Hm.
  rewrite !len_app, len_takeN, len_dropN. lia.
Qed.

(** At least [m] bytes in the window, all of it in use. *)
Definition bare {E : env} (m : N) (buf : buffer) : Prop :=
  m <= buf_length buf <= buf_used buf /\ buf_used buf <= ISIZE_MAX /\
  match buf with Dynamic _ _ _ => True | Slice inner _ _ used => used <= len inner <= ISIZE_MAX end.
Lemma isize_usize {E : env} : ISIZE_MAX + ISIZE_MAX < USIZE. Proof. widths; lia. Qed.
Lemma bare_edit E f m buf buf' : keeps_len f -> bare m buf -> buf_data_mut E f buf = (buf', Ok tt) -> bare m buf'.
Proof.
  intros Hf Hb H. unfold buf_data_mut in H. destruct buf as [inner o l|inner o l u]; destruct (usize_add E o l) as [e|er|]; try discriminate.
  - pose proof (kl_range o e f Hf inner) as Hl. destruct (range_mut o e f inner) as [i r]. injection H as <- _.
    unfold bare in *. cbn in *. rewrite Hl. exact Hb.
  - pose proof (kl_range o e f Hf inner) as Hl. destruct (range_mut o e f inner) as [i r]. injection H as <- _.
    unfold bare in *. cbn in *. rewrite Hl. exact Hb.
Qed.
Lemma bare_more E m buf buf' : bare m buf -> buf_more E 1 buf = (buf', Ok tt) -> bare m buf'.
Proof.
  intros Hb H. pose proof isize_usize as Hu. assert (H1000 : 1000 <= ISIZE_MAX) by (widths; lia). destruct buf as [inner o l|inner o l u]; unfold bare in Hb; cbn [buf_length buf_used] in Hb; unfold buf_more in H.
  - rewrite (usize_add_ok E (len inner) 1) in H by lia. unfold vec_resize in H. destruct (ISIZE_MAX <? len inner + 1) eqn:Hi; [discriminate|].
    destruct (len inner + 1 <=? len inner) eqn:Hc; [lia|]. rewrite (usize_add_ok E l 1) in H by lia. injection H as <-.
    unfold bare. cbn [buf_length buf_used]. rewrite len_app, len_zeros. destruct Hb as (? & ? & _). split; [|split; [|exact I]]; lia.
  - rewrite (usize_add_ok E u 1) in H by lia. destruct (len inner <? u + 1) eqn:Hi; [discriminate|].
    rewrite (usize_add_ok E l 1) in H by lia. rewrite usize_sub_ok in H by lia.
    eapply bare_edit; [apply kl_zero_from| |exact H]. unfold bare. cbn [buf_length buf_used]. lia.
Qed.
Lemma bare_edit_b E f m b b' : keeps_len f -> bare m (b_buffer b) -> edit E f b = Ok b' -> bare m (b_buffer b').
Proof.
  intros Hf Hb H. unfold edit in H. destruct (try_buf _) as [buf|e|] eqn:Ht; cbn [bind] in H; try discriminate. apply Ok_inj in H. subst. cbn.
  apply try_buf_ok in Ht. eapply bare_edit; eassumption.
Qed.
Lemma bare_loop E m count p : forall b b', bare m (b_buffer b) -> payload_loop E count p b = Ok b' -> bare m (b_buffer b').
Proof.
  induction p as [|x p IH]; intros b b' Hb H; cbn [payload_loop] in H; [apply Ok_inj in H; subst; exact Hb|].
  destruct (try_buf _) as [buf|e|] eqn:Ht; cbn [bind] in H; try discriminate. apply try_buf_ok in Ht. pose proof (bare_more E m _ _ Hb Ht) as Hb1.
  destruct count.
  - destruct (usize_add _ _ _) as [n|e|]; cbn [bind] in H; try discriminate.
    destruct (edit _ _ _) as [b3|e|] eqn:He; cbn [bind] in H; try discriminate. eapply IH; [|exact H]. eapply bare_edit_b; [apply kl_set_last| |exact He]. exact Hb1.
  - cbn [bind] in H. destruct (edit _ _ _) as [b3|e|] eqn:He; cbn [bind] in H; try discriminate. eapply IH; [|exact H]. eapply bare_edit_b; [apply kl_set_last| |exact He]. exact Hb1.
Qed.
Definition bare_b {E : env} (m : N) (b : builder) : Prop := b_fin b = [] /\ b_ip b = (0, 0) /\ bare m (b_buffer b).
Lemma bare_pay E e count p m b b' : bare_b m b -> add_payload E e count p b = Ok b' -> bare_b m b'.
Proof.
  intros (B1 & B2 & B3) H. pose proof (add_payload_keeps _ _ _ _ _ _ H) as (K1 & K2 & _). unfold add_payload in H. destruct (b_payload b); [discriminate|].
  split; [congruence|]. split; [congruence|]. eapply bare_loop; [|exact H]. exact B3.
Qed.
Lemma bare_set E f m b b' : keeps_len f -> bare_b m b -> edit E f b = Ok b' -> bare_b m b'.
Proof.
  intros Hf (B1 & B2 & B3) H. pose proof (edit_keeps _ _ _ _ H) as (K1 & K2 & _).
  split; [congruence|]. split; [congruence|]. eapply bare_edit_b; eassumption.
Qed.
Lemma bare_run {E : env} {A} (run1 : A -> builder -> res builder) m : (forall o b b', bare_b m b -> run1 o b = Ok b' -> bare_b m b') ->
  forall ops b b', bare_b m b -> run run1 ops b = Ok b' -> bare_b m b'.
Proof.
  intros Hs ops. induction ops as [|o ops IH]; intros b b' Hb H; cbn [run] in H; [apply Ok_inj in H; subst; exact Hb|].
  destruct (run1 o b) as [b1|e|] eqn:H1; cbn [bind] in H; try discriminate. eapply IH; [eapply Hs; eassumption|exact H].
Qed.
(** A buffer nothing has been put in. *)
Definition new_buffer {E : env} (buf : buffer) : Prop := buf = dynamic_new \/ exists s, len s <= ISIZE_MAX /\ buf = slice_new s.
Lemma bare_next E buf buf' m : new_buffer buf -> m <= 20 -> buf_next E m buf = (buf', Ok tt) -> bare m buf'.
Proof.
  intros Hn Hm H. pose proof isize_usize as Hu. assert (Hi : 1000 <= ISIZE_MAX) by (widths; lia).
  destruct Hn as [->|(s & Hs & ->)]; unfold dynamic_new, slice_new, buf_next in H; rewrite usize_add_ok in H by lia.
  - rewrite len_nil in H. rewrite usize_add_ok in H by lia. unfold vec_resize in H. destruct (ISIZE_MAX <? 0 + m) eqn:Hi2; [lia|].
    rewrite len_nil in H. destruct (0 + m <=? 0) eqn:Hc; injection H as <-.
    + unfold bare. cbn [buf_length buf_used]. rewrite len_takeN, len_nil. lia.
    + unfold bare. cbn [buf_length buf_used app]. rewrite len_zeros. lia.
  - destruct (len s <? 0 + m) eqn:Hl; [discriminate|]. eapply bare_edit; [apply kl_zero_all| |exact H]. unfold bare. cbn [buf_length buf_used]. lia.
Qed.
Lemma new_buffer_zero {E : env} buf : new_buffer buf -> (buf_offset buf, buf_length buf) = (0, 0).
Proof. intros [->|(s & _ & ->)]; reflexivity. Qed.
Lemma finish_bare {E : env} b f m : bare_b m b -> (forall out, buf_into_inner (b_buffer b) = Ok out -> snd (f out) = Panic) ->
  finish (with_fin b (fin_add (b_fin b) f)) = Panic.
Proof.
  intros (B1 & _ & _) Hf. unfold finish. destruct b as [buf fin ip k pl n]. cbn in *. subst fin. destruct (buf_into_inner buf) as [out|e|] eqn:Hi; cbn [bind]; [|destruct buf; cbn in Hi; [discriminate|unfold slice in Hi; destruct (_ && _)%bool; discriminate]|reflexivity].
  specialize (Hf out eq_refl). cbn [fin_add app]. unfold fin_finalize. cbn [rev app fin_run]. destruct (f out) as [o r]. cbn [snd] in Hf. subst r. reflexivity.
Qed.
Lemma bare_layers E length out : split_layers E (0, 0) length out = if length <=? len out then Ok ([], 0, length) else Panic.
Proof.
  unfold split_layers. cbn [fst snd]. rewrite usize_add_ok by (widths; lia). cbn [bind]. rewrite split_at_ok by lia. cbn [bind]. change (0 + 0) with 0.
  rewrite takeN_0, dropN_0. cbn [slice_from len]. unfold slice_from. rewrite len_nil. cbn [N.leb bind]. unfold slice_to. destruct (length <=? len out); reflexivity.
Qed.
Lemma udp_bare_fin E length out : 8 <= length -> snd (udp_finalizer E (0, 0) length out) = Panic.
Proof.
  intros Hl. unfold udp_finalizer, mlet at 1. rewrite bare_layers. destruct (length <=? len out) eqn:Ho; [|reflexivity].
  unfold range_mut. destruct ((0 <=? length) && (length <=? len out))%bool eqn:Hr; [|reflexivity].
  set (d := takeN _ _). assert (Hd : len d = length) by (unfold d; rewrite len_takeN, len_dropN; lia).
  unfold mseq. rewrite write_u16_ok by lia. reflexivity.
Qed.
Lemma tcp_bare_fin E length n out : 20 <= length -> snd (tcp_finalizer E (0, 0) length n out) = Panic.
Proof.
  intros Hl. unfold tcp_finalizer, mlet at 1. rewrite bare_layers. destruct (length <=? len out) eqn:Ho; [|reflexivity].
  unfold range_mut. destruct ((0 <=? length) && (length <=? len out))%bool eqn:Hr; [|reflexivity].
  set (d := takeN _ _). assert (Hd : len d = length) by (unfold d; rewrite len_takeN, len_dropN; lia).
  unfold mseq, mlet at 1. rewrite index_ok by lia. cbn [bind]. destruct (usize_sub E length n) as [h|e|] eqn:Hs.
  - cbn [bind]. rewrite set_index_ok by lia. reflexivity.
  - unfold usize_sub in Hs. destruct (n <=? length); [discriminate|]. destruct (overflow_checks E); discriminate.
  - reflexivity.
Qed.
(** C39: on a new buffer of either kind, whatever is called, [build] panics. *)
Lemma c39_bare : forall E buf u,
  buf = dynamic_new \/ (exists s, len s <= ISIZE_MAX /\ buf = slice_new s) ->
  (forall ops, (let* u0 := udp_with E buf in run (udp_run1 E) ops u0) = Ok u -> udp_build E u = Panic) /\
  (forall ops, (let* u0 := tcp_with E buf in run (tcp_run1 E) ops u0) = Ok u -> tcp_build E u = Panic).
Proof.
  intros E buf u Hn. pose proof (new_buffer_zero buf Hn) as Hz. split; intros ops H.
  - unfold udp_with in H. rewrite Hz in H. destruct (try_buf _) as [buf1|e|] eqn:Ht; cbn [bind] in H; try discriminate. apply try_buf_ok in Ht.
    assert (Hb0 : bare_b 8 (fresh buf1 (0, 0))) by (split; [reflexivity|]; split; [reflexivity|]; eapply bare_next; [exact Hn|lia|exact Ht]).
    assert (Hb : bare_b 8 u).
    { eapply (bare_run (udp_run1 E) 8); [|exact Hb0|exact H]. intros o b b' Hb Ho. destruct o; cbn [udp_run1] in Ho; [eapply bare_set; [apply kl_udp| |]; eassumption|eapply bare_pay; eassumption]. }
    unfold udp_build, udp_prepare. pose proof Hb as (_ & B2 & B3). rewrite B2.
    apply (finish_bare u _ 8 Hb). intros out _. apply udp_bare_fin. apply B3.
  - unfold tcp_with in H. rewrite Hz in H. destruct (try_buf _) as [buf1|e|] eqn:Ht; cbn [bind] in H; try discriminate. apply try_buf_ok in Ht.
    destruct (try_buf (buf_data_mut _ _ buf1)) as [buf2|e|] eqn:Ht2; cbn [bind] in H; try discriminate. apply try_buf_ok in Ht2.
    assert (Hb0 : bare_b 20 (fresh buf2 (0, 0))).
    { split; [reflexivity|]; split; [reflexivity|]. eapply bare_edit; [apply kl_set_index| |exact Ht2]. eapply bare_next; [exact Hn|lia|exact Ht]. }
    assert (Hb : bare_b 20 u).
    { eapply (bare_run (tcp_run1 E) 20); [|exact Hb0|exact H]. intros o b b' Hb Ho. destruct o; cbn [tcp_run1] in Ho; [eapply bare_set; [apply kl_tcp| |]; eassumption|eapply bare_pay; eassumption]. }
    unfold tcp_build, tcp_prepare. pose proof Hb as (_ & B2 & B3). rewrite B2.
    apply (finish_bare u _ 20 Hb). intros out _. apply tcp_bare_fin. apply B3.
Qed.
(** C39: in particular [default()], on which every well-typed chain of calls gets
    as far as [build] (for TCP, if [flags] comes last). *)
Lemma c39_default : forall E p,
  (forall us, Forall udp_op_ok us -> one_payload (udp_payloads us) p -> 8 + len p <= ISIZE_MAX ->
     (exists u, (let* u0 := udp_default E in run (udp_run1 E) us u0) = Ok u) /\
     (let* u0 := udp_default E in let* u := run (udp_run1 E) us u0 in udp_build E u) = Panic) /\
  (forall ts, Forall tcp_op_ok ts -> flags_last (tcp_setters ts) -> one_payload (tcp_payloads ts) p -> 20 + len p <= ISIZE_MAX ->
     (exists t, (let* t0 := tcp_default E in run (tcp_run1 E) ts t0) = Ok t) /\
     (let* t0 := tcp_default E in let* t := run (tcp_run1 E) ts t0 in tcp_build E t) = Panic).
Proof.
  intros E p. assert (Hi : 1000 <= ISIZE_MAX) by (widths; lia). split.
  - intros us Hu Hp Hl.
    assert (Hr : exists u, (let* u0 := udp_default E in run (udp_run1 E) us u0) = Ok u).
    { unfold udp_default. pose proof (udp_with_ok E None [] [] dynamic_sized I ltac:(rewrite len_nil; lia)) as T.
      change (mkbuf None [] []) with dynamic_new in T. rewrite T. cbn [unwrap bind]. change (use None 8) with (@None bytes).
      destruct (run_one (udp_run1 E) udp_wire udp_putop udp_pay (fun _ => false) (fun _ _ => True) false 8 len_udp_wire
        ltac:(intros; apply udp_step; assumption) ltac:(intros; eapply udp_step_pay; eassumption) ltac:(intros []; cbn; eauto) us
        {| uf_src := 0; uf_dst := 0; uf_length := 0; uf_checksum := 0 |} None [] [] (0, 0) false p) as [pl R];
        try assumption; try (left; reflexivity); try (rewrite len_nil; lia).
      { clear. generalize {| uf_src := 0; uf_dst := 0; uf_length := 0; uf_checksum := 0 |}. induction us; intros; cbn; auto. }
      { apply (one_payload_bytes _ _ Hp (udp_op_payloads us Hu)). }
      { apply sized_grow. rewrite len_udp_wire, len_nil. lia. }
      eexists. exact R. }
    split; [exact Hr|]. destruct Hr as [u Hr]. destruct (c39_bare E dynamic_new u (or_introl eq_refl)) as [C _]. specialize (C us).
    unfold udp_default in *. destruct (udp_with E dynamic_new) as [u0|e|]; cbn [unwrap bind] in *; try discriminate. rewrite Hr. cbn [bind]. apply C. exact Hr.
  - intros us Hu Hf Hp Hl.
    assert (Hr : exists u, (let* u0 := tcp_default E in run (tcp_run1 E) us u0) = Ok u).
    { unfold tcp_default. pose proof (tcp_with_ok E None [] [] dynamic_sized I ltac:(rewrite len_nil; lia)) as T.
      change (mkbuf None [] []) with dynamic_new in T. rewrite T. cbn [unwrap bind]. change (use None 20) with (@None bytes).
      destruct (tcp_fold us tcp_zero tcp_zero_building eq_refl Hu Hf) as (Ho & _).
      destruct (run_one (tcp_run1 E) tcp_wire tcp_putop tcp_pay (fun _ => false) tcp_step_ok true 20 len_tcp_wire
        (tcp_step E) (tcp_step_pay E) ltac:(intros []; cbn; eauto) us tcp_zero None [] [] (0, 0) false p Ho Hp
        (one_payload_bytes _ _ Hp (tcp_op_payloads us Hu))) as [pl R]; try (left; reflexivity); try (rewrite len_nil; lia).
      { apply sized_grow. rewrite len_tcp_wire, len_nil. lia. }
      eexists. exact R. }
    split; [exact Hr|]. destruct Hr as [u Hr]. destruct (c39_bare E dynamic_new u (or_introl eq_refl)) as [_ C]. specialize (C us).
    unfold tcp_default in *. destruct (tcp_with E dynamic_new) as [u0|e|]; cbn [unwrap bind] in *; try discriminate. rewrite Hr. cbn [bind]. apply C. exact Hr.
Qed.
Example c39_example : forall E,
  (let* u := udp_default E in let* u := run (udp_run1 E) [UdpSet (UdpSetSource 1337); UdpPayload [1; 2]] u in udp_build E u) = Panic /\
  (let* t := tcp_default E in let* t := run (tcp_run1 E) [TcpPayload [1; 2]; TcpSet (TcpSetFlags 2)] t in tcp_build E t) = Panic /\
  (let* u := udp_with E (slice_new (zeros 100)) in let* u := run (udp_run1 E) [UdpSet (UdpSetSource 1337)] u in udp_build E u) = Panic.
Proof. intros E. destruct E as [[] [] []]; vm_compute; repeat split. Qed.
