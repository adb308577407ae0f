(** * OwnIpProofs: UDP and TCP builders over an IP header the user wrote. *)
From Verif Require Import Base Enums Buffer Ether Ipv4 Ip Udp Tcp Icmp Builders Spec SpecCalls SpecBuild SpecOwnIp
  Lemmas ParseProofs ChecksumProofs FieldProofs BuildLemmas FinalLemmas ChainLemmas StateLemmas ViaProofs.
From Coq Require Import ZifyBool ZifyNat ZifyN.
Ltac Zify.zify_post_hook ::= Z.div_mod_to_equations.

Lemma own_buffer_mk held h : own_buffer held h = mkbuf None held h.
Proof. reflexivity. Qed.
Lemma is_v4_ok h : is_v4 h -> v4_no_payload h = Ok h.
Proof. intros (H1 & H2 & H3). destruct (c02_v4_no_payload h) as (_ & _ & _ & K). apply K; assumption. Qed.
Lemma is_v4_ip h : is_v4 h -> ip_no_payload h = Ok (V4 h).
Proof.
  intros H. pose proof (is_v4_ok h H) as K. destruct H as (H1 & H2 & H3). unfold ip_no_payload. rewrite index_ok by lia. cbn [bind].
  rewrite N.shiftr_div_pow2. change (2 ^ 4) with 16. rewrite H2. rewrite K. reflexivity.
Qed.
Lemma udp_own_ip_checksum E h u : is_bytes h -> is_bytes u -> is_v4 h ->
  udp_builder_checksum E h u = Ok (inet_checksum (with_pseudo_header (wire_addr h 12) (wire_addr h 16) 17 (seen E (zero_field 6 u)))).
Proof. intros Hh Hu Hv. unfold udp_builder_checksum. rewrite is_v4_ok by exact Hv. apply udp_checksum_eq; try assumption. apply Hv. Qed.
Lemma own_nibble h : 0 < len h -> (let* x := index h 0 in Ok (N.shiftr x 4)) = Ok (nthN h 0 / 16).
Proof. intros H. rewrite index_ok by exact H. cbn [bind]. rewrite N.shiftr_div_pow2. reflexivity. Qed.
Lemma not_v4 h : ~ is_v4 h -> exists e, v4_no_payload h = Err e.
Proof.
  intros H. destruct (c02_v4_no_payload h) as (K1 & K2 & K3 & _). unfold is_v4 in H.
  destruct (N.ltb_spec (len h) 20); [eexists; apply K1; assumption|].
  destruct (N.eqb_spec (nthN h 0 / 16) 4); [|eexists; apply K2; assumption].
  destruct (N.ltb_spec (len h) (nthN h 0 mod 16 * 4)); [eexists; apply K3; assumption|]. exfalso. apply H. repeat split; assumption.
Qed.
Lemma udp_not_ip E h u : ~ is_v4 h ->
  udp_builder_checksum E h u = if (len h =? 0) || (nthN h 0 / 16 =? 6) then Panic else Err InvalidPacket.
Proof.
  intros H. unfold udp_builder_checksum. destruct (not_v4 h H) as [e ->]. unfold v6_no_payload. change v6_header_min with 0.
  replace (len h <? 0) with false by lia. destruct (N.eqb_spec (len h) 0) as [Hz|Hz]; cbn [orb].
  - rewrite index_panic by lia. reflexivity.
  - rewrite index_ok by lia. cbn [bind]. rewrite N.shiftr_div_pow2. change (2 ^ 4) with 16.
    destruct (nthN h 0 / 16 =? 6); cbn [negb]; reflexivity.
Qed.
Lemma tcp_not_ip E h u : ~ is_v4 h ->
  (let* q := ip_no_payload h in tcp_checksum_of E q u) =
  if len h =? 0 then Panic else if nthN h 0 / 16 =? 4 then Err SmallBuffer else if nthN h 0 / 16 =? 6 then Panic else Err InvalidPacket.
Proof.
  intros H. unfold ip_no_payload. destruct (N.eqb_spec (len h) 0) as [Hz|Hz].
  - rewrite index_panic by lia. reflexivity.
  - rewrite index_ok by lia. cbn [bind]. rewrite N.shiftr_div_pow2. change (2 ^ 4) with 16.
    destruct (N.eqb_spec (nthN h 0 / 16) 4) as [H4|H4].
    + rewrite H4. destruct (c02_v4_no_payload h) as (K1 & _ & K3 & _). unfold is_v4 in H.
      destruct (N.ltb_spec (len h) 20); [rewrite K1 by assumption; reflexivity|].
      destruct (N.ltb_spec (len h) (nthN h 0 mod 16 * 4)); [rewrite K3 by assumption; reflexivity|]. exfalso. apply H. repeat split; assumption.
    + destruct (N.eqb_spec (nthN h 0 / 16) 6) as [H6|H6].
      * rewrite H6. unfold v6_no_payload. change v6_header_min with 0. replace (len h <? 0) with false by lia.
        rewrite index_ok by lia. cbn [bind]. rewrite N.shiftr_div_pow2. change (2 ^ 4) with 16. rewrite H6. reflexivity.
      * destruct (nthN h 0 / 16) as [|q]; [reflexivity|]. destruct q as [q|[[q|q|]|[q|q|]|]|]; try reflexivity; congruence.
Qed.

(** ** Finalizers over any parent layer *)
Lemma udp_fin_over E a h g p : udp_fields_ok g -> is_bytes p -> len a + len h + 8 + len p <= ISIZE_MAX ->
  let n := (8 + len p) mod 65536 in
  let u := udp_wire (udp_fill g n (uf_checksum g)) ++ p in
  is_bytes u /\ zero_field 6 u = udp_wire (udp_fill g n 0) ++ p /\
  udp_finalizer E (len a, len h) (8 + len p) (a ++ h ++ udp_wire g ++ p) =
  match udp_builder_checksum E h u with
  | Ok c => (a ++ h ++ udp_wire (udp_fill g n c) ++ p, Ok tt)
  | Err e => (a ++ h ++ u, Err e)
  | Panic => (a ++ h ++ u, Panic)
  end.
Proof.
  intros Hg Hp Hs n u. destruct Hg as (G1 & G2 & G3 & G4).
  assert (Hl : len (udp_wire g ++ p) = 8 + len p) by (rewrite len_app, len_udp_wire; reflexivity).
  assert (Hu : is_bytes u).
  { apply is_bytes_app; split; [|exact Hp]. apply is_bytes_udp_wire. repeat split; cbn; try assumption. unfold u16, n. lia. }
  split; [exact Hu|]. split; [apply udp_fill_zero|].
  unfold udp_finalizer, mlet at 1. rewrite <- Hl. rewrite split_layers_ok by lia. 
  assert (Hr : mseq (write_u16 4 (as_u16 (len (udp_wire g ++ p)))) (mlet (udp_builder_checksum E h) (write_u16 6)) (udp_wire g ++ p) =
    match udp_builder_checksum E h u with Ok c => (udp_wire (udp_fill g n c) ++ p, Ok tt) | Err e => (u, Err e) | Panic => (u, Panic) end).
  { unfold mseq. rewrite write_u16_ok by lia. rewrite patch_app1 by (rewrite len_udp_wire; change_lens; lia). rewrite Hl.
    change (as_u16 (8 + len p)) with n. replace (patch 4 (be16 n) (udp_wire g)) with (udp_wire (udp_fill g n (uf_checksum g))) by (destruct g; reflexivity).
    fold u. unfold mlet. destruct (udp_builder_checksum E h u) as [c|e|]; try reflexivity. unfold u.
    rewrite write_u16_ok by (rewrite len_app, len_udp_wire; lia). rewrite patch_app1 by (rewrite len_udp_wire; change_lens; lia). destruct g; reflexivity. }
  destruct (udp_builder_checksum E h u) as [c|e|]; apply range_mut_tail; exact Hr.
Qed.
Lemma tcp_fin_over E a h g p : tcp_fields_ok g -> is_bytes p -> len a + len h + 20 + len p <= ISIZE_MAX ->
  let seg := tcp_wire (tcp_fill g 5 (tf_checksum g)) ++ p in
  tcp_finalizer E (len a, len h) (20 + len p) (len p) (a ++ h ++ tcp_wire g ++ p) =
  match (let* q := ip_no_payload h in tcp_checksum_of E q seg) with
  | Ok c => (a ++ h ++ tcp_wire (tcp_fill g 5 c) ++ p, Ok tt)
  | Err e => (a ++ h ++ seg, Err e)
  | Panic => (a ++ h ++ seg, Panic)
  end.
Proof.
  intros Hg Hp Hs seg.
  assert (Hl : len (tcp_wire g ++ p) = 20 + len p) by (rewrite len_app, len_tcp_wire; reflexivity).
  unfold tcp_finalizer, mlet at 1. rewrite <- Hl at 1. rewrite split_layers_ok by (rewrite Hl; lia).
  set (c := (let* q := ip_no_payload h in tcp_checksum_of E q seg)).
  assert (Hr : mlet (fun tcp => let* q := ip_no_payload h in tcp_checksum_of E q tcp) (write_u16 16) seg =
     match c with Ok c => (tcp_wire (tcp_fill g 5 c) ++ p, Ok tt) | Err e => (seg, Err e) | Panic => (seg, Panic) end).
  { unfold mlet. fold c. destruct c as [c|e|]; try reflexivity.
    unfold seg. rewrite write_u16_ok by (rewrite len_app, len_tcp_wire; lia). rewrite patch_app1 by (rewrite len_tcp_wire; change_lens; lia).
    destruct g. reflexivity. }
  clearbody c. destruct c as [c|e|]; apply range_mut_tail; (erewrite mseq_ok by (apply tcp_fin_offset; [exact Hg|lia])); exact Hr.
Qed.
Lemma finish_own held h cur f ip pl n out x : f ((held ++ h) ++ cur) = (out, x) ->
  finish (B None (held ++ h) cur [f] ip false pl n) = match x with Ok _ => Ok out | Err e => Err e | Panic => Panic end.
Proof.
  intros Hf. unfold finish. change (b_buffer (B None (held ++ h) cur [f] ip false pl n)) with (mkbuf None (held ++ h) cur). rewrite mk_inner. cbn [bind].
  change (b_fin (B None (held ++ h) cur [f] ip false pl n)) with ([] ++ [f]). rewrite fin_last, Hf. destruct x as [[]|e|]; reflexivity.
Qed.

Lemma udp_over E held h us p : Forall udp_op_ok us -> one_payload (udp_payloads us) p -> len held + len h + 8 + len p <= ISIZE_MAX ->
  let g := udp_after us in let n := (8 + len p) mod 65536 in
  let u := udp_wire (udp_fill g n (uf_checksum g)) ++ p in
  is_bytes u /\ zero_field 6 u = udp_wire (udp_fill g n 0) ++ p /\
  udp_over_own E held h us =
  match udp_builder_checksum E h u with
  | Ok c => Ok (held ++ h ++ udp_wire (udp_fill g n c) ++ p)
  | Err e => Err e
  | Panic => Panic
  end.
Proof.
  intros Hu Hp Hl g n u. pose proof (one_payload_bytes _ _ Hp (udp_op_payloads us Hu)) as Hpb.
  pose proof (udp_fin_over E held h g p (udp_after_ok us Hu) Hpb Hl) as (F1 & F2 & F3). fold n u in F1, F2, F3.
  split; [exact F1|]. split; [exact F2|]. unfold udp_over_own. rewrite own_buffer_mk.
  assert (Hz : forall a b, len a + len b <= ISIZE_MAX -> sized None a b) by (intros; unfold sized, free; lia).
  rewrite udp_with_ok; [|apply Hz; lia|exact I|lia]. cbn [bind use option_map].
  change (zeros 8) with (udp_wire {| uf_src := 0; uf_dst := 0; uf_length := 0; uf_checksum := 0 |}). set (z := Build_udp_fields 0 0 0 0).
  assert (Ho : oks udp_putop (fun _ _ => True) z us) by (generalize z; clear; induction us; intros z; cbn [oks]; auto).
  destruct (run_one (udp_run1 E) udp_wire udp_putop udp_pay (fun _ => false) (fun _ _ => True) false 8 len_udp_wire
    (udp_step E) (udp_step_pay E) ltac:(intros []; cbn; eauto) us z None (held ++ h) [] (len held, len h) false p Ho Hp Hpb) as [pl R].
  { apply Hz. rewrite len_app, len_udp_wire. lia. }
  { rewrite len_app. lia. }
  { left; reflexivity. }
  rewrite R. clear R. cbn [bind]. rewrite existsb_false, orb_false_r, udp_fold. fold (udp_after us). fold g.
  unfold udp_build, udp_prepare. set (cur' := udp_wire g ++ p). 
  assert (Hlc : len cur' = 8 + len p) by (unfold cur'; rewrite len_app, len_udp_wire; reflexivity).
  match goal with |- finish (with_fin ?b _) = _ => change (b_buffer b) with (mkbuf None (held ++ h) cur') end.
  rewrite mk_length.
  match goal with |- finish (with_fin ?b ?x) = _ => change (finish (with_fin b x)) with
    (finish (B None (held ++ h) cur' [udp_finalizer E (len held, len h) (len cur')] (len held, len h) false pl 0)) end.
  rewrite (finish_own _ _ _ _ _ _ _ (fst (udp_finalizer E (len held, len h) (8 + len p) (held ++ h ++ udp_wire g ++ p))) (snd (udp_finalizer E (len held, len h) (8 + len p) (held ++ h ++ udp_wire g ++ p)))).
  2: { rewrite Hlc. unfold cur'. rewrite <- app_assoc. apply surjective_pairing. }
  rewrite F3. destruct (udp_builder_checksum E h u) as [c|e|]; reflexivity.
Qed.
Lemma tcp_over E held h us p : Forall tcp_op_ok us -> flags_last (tcp_setters us) -> one_payload (tcp_payloads us) p ->
  len held + len h + 20 + len p <= ISIZE_MAX ->
  let g := tcp_after us in
  let seg := tcp_wire (tcp_fill g 5 (tf_checksum g)) ++ p in
  is_bytes seg /\ zero_field 16 seg = tcp_wire (tcp_fill g 5 0) ++ p /\ len seg = 20 + len p /\
  tcp_over_own E held h us =
  match (let* q := ip_no_payload h in tcp_checksum_of E q seg) with
  | Ok c => Ok (held ++ h ++ tcp_wire (tcp_fill g 5 c) ++ p)
  | Err e => Err e
  | Panic => Panic
  end.
Proof.
  intros Hu Hfl Hp Hl g seg. pose proof (one_payload_bytes _ _ Hp (tcp_op_payloads us Hu)) as Hpb.
  destruct (tcp_fold us tcp_zero tcp_zero_building eq_refl Hu Hfl) as (Ho & Hg1 & Hg2 & Hg3). cbv zeta in *.
  fold (tcp_after us) in Hg1, Hg2, Hg3. fold g in Hg1, Hg2, Hg3.
  split. { unfold seg. apply is_bytes_app; split; [|exact Hpb]. apply is_bytes_tcp_wire. apply tcp_fill_offset; [apply Hg1|lia|apply Hg1]. }
  split; [apply tcp_fill_zero|]. split; [unfold seg; rewrite len_app, len_tcp_wire; reflexivity|].
  unfold tcp_over_own. rewrite own_buffer_mk.
  assert (Hz : forall a b, len a + len b <= ISIZE_MAX -> sized None a b) by (intros; unfold sized, free; lia).
  rewrite tcp_with_ok; [|apply Hz; lia|exact I|lia]. cbn [bind use option_map]. fold tcp_zero.
  destruct (run_one (tcp_run1 E) tcp_wire tcp_putop tcp_pay (fun _ => false) tcp_step_ok true 20 len_tcp_wire
    (tcp_step E) (tcp_step_pay E) ltac:(intros []; cbn; eauto) us tcp_zero None (held ++ h) [] (len held, len h) false p Ho Hp Hpb) as [pl R].
  { apply Hz. rewrite len_app, len_tcp_wire. lia. }
  { rewrite len_app. lia. }
  { left; reflexivity. }
  rewrite R. clear R. cbn [bind]. rewrite existsb_false, orb_false_r.
  set (ga := fold_left tcp_putop us tcp_zero) in *.
  assert (Hga : tcp_fields_ok ga /\ tf_checksum ga = tf_checksum g /\ forall o c, tcp_fill ga o c = tcp_fill g o c).
  { destruct Hg3 as [-> | ->]; [repeat split; apply Hg1|]. split; [apply tcp_fill_offset; [apply Hg1|lia|apply Hg1]|].
    split; [apply tcp_fill_checksum|]. intros. apply tcp_fill_fill. }
  destruct Hga as (Hga1 & Hga2 & Hga3). clearbody ga. clear Hg3.
  unfold tcp_build, tcp_prepare. set (cur' := tcp_wire ga ++ p).
  assert (Hlc : len cur' = 20 + len p) by (unfold cur'; rewrite len_app, len_tcp_wire; reflexivity).
  match goal with |- finish (with_fin ?b _) = _ => change (b_buffer b) with (mkbuf None (held ++ h) cur') end.
  rewrite mk_length.
  match goal with |- finish (with_fin ?b ?x) = _ => change (finish (with_fin b x)) with
    (finish (B None (held ++ h) cur' [tcp_finalizer E (len held, len h) (len cur') (len p)] (len held, len h) false pl (len p))) end.
  pose proof (tcp_fin_over E held h ga p Hga1 Hpb Hl) as T. cbv zeta in T. rewrite Hga2, !Hga3 in T. fold seg in T.
  rewrite (finish_own _ _ _ _ _ _ _ (fst (tcp_finalizer E (len held, len h) (20 + len p) (len p) (held ++ h ++ tcp_wire ga ++ p))) (snd (tcp_finalizer E (len held, len h) (20 + len p) (len p) (held ++ h ++ tcp_wire ga ++ p)))).
  2: { rewrite Hlc. unfold cur'. rewrite <- app_assoc. apply surjective_pairing. }
  rewrite T. destruct (let* q := ip_no_payload h in tcp_checksum_of E q seg) as [c|e|]; cbn [fst snd]; try reflexivity. rewrite Hga3. reflexivity.
Qed.

(** C62: over an IPv4 header (with or without options), a datagram or segment
    that is right for the addresses in it; the header stays as the user wrote it. *)
Lemma c62_udp : forall E held h us p, is_bytes h -> is_v4 h -> Forall udp_op_ok us -> one_payload (udp_payloads us) p ->
  len held + len h + 8 + len p <= ISIZE_MAX -> len p mod 2 = 0 \/ cursor_eof E = EofKeep ->
  udp_over_own E held h us = Ok (held ++ h ++ udp_wire (udp_finished (wire_addr h 12) (wire_addr h 16) (udp_after us) p) ++ p).
Proof.
  intros E held h us p Hh Hv Hu Hp Hl Ho. destruct (udp_over E held h us p Hu Hp Hl) as (U1 & U2 & ->).
  rewrite udp_own_ip_checksum by assumption. rewrite U2. rewrite seen_covered; [reflexivity|]. rewrite len_app, len_udp_wire.
  destruct Ho as [Ho|Ho]; [left; lia|right; exact Ho].
Qed.
Lemma c62_tcp : forall E held h us p, is_bytes h -> is_v4 h -> Forall tcp_op_ok us -> flags_last (tcp_setters us) -> one_payload (tcp_payloads us) p ->
  len held + len h + 20 + len p <= ISIZE_MAX -> 20 + len p <= 131065 -> len p mod 2 = 0 \/ cursor_eof E = EofKeep ->
  tcp_over_own E held h us = Ok (held ++ h ++ tcp_wire (tcp_finished (wire_addr h 12) (wire_addr h 16) (tcp_after us) p) ++ p).
Proof.
  intros E held h us p Hh Hv Hu Hfl Hp Hl Hm Ho. destruct (tcp_over E held h us p Hu Hfl Hp Hl) as (U1 & U2 & U3 & ->).
  rewrite is_v4_ip by exact Hv. cbn [bind]. rewrite tcp_checksum_eq; [|exact Hh|exact U1|apply Hv|lia|].
  - rewrite U2. reflexivity.
  - rewrite U3. destruct Ho as [Ho|Ho]; [left; lia|right; exact Ho].
Qed.
(** C62: over anything else, building fails: a panic if the layer is empty or
    looks like IPv6, and otherwise an error (which for a truncated IPv4 header
    depends on the protocol). *)
Lemma c62_not_ip : forall E held h p, ~ is_v4 h ->
  (forall us, Forall udp_op_ok us -> one_payload (udp_payloads us) p -> len held + len h + 8 + len p <= ISIZE_MAX ->
   udp_over_own E held h us = if (len h =? 0) || (nthN h 0 / 16 =? 6) then Panic else Err InvalidPacket) /\
  (forall us, Forall tcp_op_ok us -> flags_last (tcp_setters us) -> one_payload (tcp_payloads us) p -> len held + len h + 20 + len p <= ISIZE_MAX ->
   tcp_over_own E held h us = if (len h =? 0) || (nthN h 0 / 16 =? 6) then Panic
                              else if nthN h 0 / 16 =? 4 then Err SmallBuffer else Err InvalidPacket).
Proof.
  intros E held h p Hn. split.
  - intros us Hu Hp Hl. destruct (udp_over E held h us p Hu Hp Hl) as (_ & _ & ->). rewrite udp_not_ip by exact Hn.
    destruct ((len h =? 0) || (nthN h 0 / 16 =? 6))%bool; reflexivity.
  - intros us Hu Hfl Hp Hl. destruct (tcp_over E held h us p Hu Hfl Hp Hl) as (_ & _ & _ & ->). rewrite tcp_not_ip by exact Hn.
    destruct (len h =? 0); cbn [orb]; [reflexivity|]. destruct (N.eqb_spec (nthN h 0 / 16) 4) as [->|]; [reflexivity|].
    destruct (nthN h 0 / 16 =? 6); reflexivity.
Qed.
(** C62: a buffer like that comes from [next] and [data_mut]. *)
Lemma c62_buffer : forall E held h, len held + len h <= ISIZE_MAX ->
  write_two E held h = Ok (own_buffer held h).
Proof.
  intros E held h Hl.
  assert (Hz : forall a b, len a + len b <= ISIZE_MAX -> sized None a b) by (intros; unfold sized, free; lia).
  assert (Hstep : forall pre cur l, len pre + len cur + len l <= ISIZE_MAX -> write_layer E l (mkbuf None pre cur) = Ok (mkbuf None (pre ++ cur) l)).
  { intros pre cur l H. unfold write_layer. rewrite mk_next; [|apply Hz; lia|exact I|exact H]. cbn [try_buf bind].
    rewrite (mk_edit E _ _ (zeros (len l)) (fun _ => (l, Ok tt)) l (Ok tt)); [reflexivity|apply Hz; rewrite len_app, len_zeros; lia|reflexivity|rewrite len_zeros; reflexivity]. }
  unfold write_two. change dynamic_new with (mkbuf None [] []). rewrite Hstep by (change (len []) with 0; lia). cbn [bind app]. rewrite Hstep by (change (len []) with 0; lia). reflexivity.
Qed.
Example c62_example : forall E, is_v4 own_header_example /\ is_bytes own_header_example /\
  udp_over_own E [9; 9] own_header_example [UdpSet (UdpSetSource 53); UdpPayload [104; 105]] =
  Ok ([9; 9] ++ own_header_example ++ [0; 53; 0; 0; 0; 10; 131; 57; 104; 105]) /\
  udp_over_own E [9; 9] [69; 0] [] = Err InvalidPacket /\ tcp_over_own E [9; 9] [69; 0] [] = Err SmallBuffer /\
  udp_over_own E [9; 9] (96 :: zeros 39) [] = Panic.
Proof.
  intros E. split; [|split; [|destruct E as [[] [] []]; repeat apply conj; vm_compute; reflexivity]].
  - repeat split; vm_compute; discriminate || reflexivity.
  - unfold own_header_example. repeat constructor; reflexivity.
Qed.
