(** * StateLemmas: the state of a builder before [build()]. *)
From Verif Require Import Base Enums Buffer Ether Ipv4 Ip Udp Tcp Icmp Builders Spec SpecCalls SpecBuild SpecUser
  Lemmas ParseProofs SliceProofs AccessProofs FieldProofs ChecksumLemmas ChecksumProofs GuardProofs BufferProofs BuildLemmas FinalLemmas ChainLemmas.
From Coq Require Import ZifyBool ZifyNat ZifyN.
Ltac Zify.zify_post_hook ::= Z.div_mod_to_equations.

Lemma fresh_buffer_mk {E : env} buf need p : fresh_buffer buf need p ->
  exists r, buf = mkbuf r [] [] /\ sized r [] [] /\ fits r need /\ (r = None \/ p = []) /\ need + len p <= ISIZE_MAX.
Proof.
  intros H. destruct H as [need p H|mem need H H'].
  - exists None. repeat split; auto. unfold sized, free. rewrite len_nil. lia.
  - exists (Some mem). split; [reflexivity|]. split; [unfold sized, free; rewrite len_nil; lia|]. split; [exact H|].
    split; [right; reflexivity|]. rewrite len_nil. lia.
Qed.

Lemma udp_state E eth vs us p r : 
  eth_ok eth -> Forall v4_arg_ok vs -> Forall udp_op_ok us -> one_payload (udp_payloads us) p ->
  sized r [] [] -> fits r (eth_size eth + 28) -> r = None \/ p = [] ->
  eth_size eth + 28 + len p <= ISIZE_MAX ->
  exists r' a fs ip pl, udp_builder E eth vs us (mkbuf r [] []) =
    Ok (B r' a (udp_wire (udp_after us) ++ p) fs ip false pl 0) /\ sized r' a (udp_wire (udp_after us) ++ p).
Proof.
  intros He Hv Hu Hp Hs Hf Hr Hl. set (f := v4_after vs). set (g := udp_after us).
  destruct (v4_layer_ok E eth vs r [] [] He Hv Hs ltac:(eapply fits_le; [exact Hf|lia]) ltac:(rewrite len_nil; lia)) as (a & fs & H1 & H2).
  unfold udp_builder. rewrite H1. cbn [bind]. pose proof (v4_after_building vs Hv) as Hb. fold f in Hb, H1 |- *.
  destruct H2 as [H2l _]. rewrite !len_app, len_ether_layer, len_nil in H2l.
  assert (Hs1 : sized (use r (eth_size eth + 20)) a (v4_wire f)).
  { eapply sized_after; [exact Hs|eapply fits_le; [exact Hf|lia]|rewrite len_v4_wire, len_nil; lia|rewrite len_v4_wire; lia]. }
  set (f' := v4_put f (V4SetProtocol IP_Udp)).
  unfold v4_udp. erewrite v4_sub_ok; [|exact Hb|reflexivity|exact Hs1|
    apply udp_with_ok; [eapply sized_same; [exact Hs1|reflexivity]|apply fits_use; eapply fits_le; [exact Hf|lia]|rewrite len_v4_wire; lia]].
  fold f'. rewrite use_use. replace (eth_size eth + 20 + 8) with (eth_size eth + 28) by lia. cbn [bind].
  change (zeros 8) with (udp_wire {| uf_src := 0; uf_dst := 0; uf_length := 0; uf_checksum := 0 |}). set (z := Build_udp_fields 0 0 0 0).
  pose proof (one_payload_bytes _ _ Hp (udp_op_payloads us Hu)) as Hpb.
  assert (Ho : oks udp_putop (fun _ _ => True) z us) by (generalize z; clear; induction us; intros z; cbn [oks]; auto).
  assert (Hz : forall c, len c = 8 + len p -> sized (use r (eth_size eth + 28)) (a ++ v4_wire f') c).
  { intros c Hc. unfold sized in *. rewrite len_app, len_v4_wire. pose proof (free_use r _ Hf). destruct Hr as [-> | ->].
    - cbn [free use option_map] in *. lia.
    - rewrite len_nil in *. destruct r; cbn [free use option_map] in *; lia. }
  destruct (run_one (udp_run1 E) udp_wire udp_putop udp_pay (fun _ => false) (fun _ _ => True) false 8 len_udp_wire
    (udp_step E) (udp_step_pay E) ltac:(intros []; cbn; eauto) us z (use r (eth_size eth + 28)) (a ++ v4_wire f')
    (fs ++ [v4_finalizer E (len a) 20]) (len a, len (v4_wire f')) false p Ho Hp Hpb) as [pl R].
  { eapply sized_after; [exact Hs|exact Hf|rewrite len_app, len_v4_wire, len_udp_wire, len_nil; lia|rewrite len_app, len_v4_wire, len_udp_wire; lia]. }
  { rewrite len_app, len_v4_wire. lia. }
  { destruct Hr as [-> | ->]; [left; reflexivity|right; reflexivity]. }
  rewrite R. clear R. rewrite existsb_false, orb_false_r, udp_fold. fold (udp_after us). fold g.
  do 5 eexists. split; [reflexivity|]. apply Hz. rewrite len_app, len_udp_wire. reflexivity.
Qed.

Lemma tcp_putop_offset ops : forall f, tf_offset (fold_left tcp_putop ops f) = if flags_called ops then 0 else tf_offset f.
Proof.
  induction ops as [|o ops IH]; intros f; [reflexivity|]. cbn [fold_left]. rewrite IH. unfold flags_called. cbn [existsb]. fold (flags_called ops).
  destruct o as [s|p]; [|reflexivity]. destruct f, s; cbn; destruct (flags_called ops); reflexivity.
Qed.
Lemma tcp_fill_off g o c : tf_offset (tcp_fill g o c) = o. Proof. destruct g; reflexivity. Qed.
Lemma tcp_fill_res g o c : tf_reserved (tcp_fill g o c) = tf_reserved g. Proof. destruct g; reflexivity. Qed.
Lemma tcp_state E eth vs us p r : 
  eth_ok eth -> Forall v4_arg_ok vs -> Forall tcp_op_ok us -> flags_last (tcp_setters us) -> one_payload (tcp_payloads us) p ->
  sized r [] [] -> fits r (eth_size eth + 40) -> r = None \/ p = [] ->
  eth_size eth + 40 + len p <= ISIZE_MAX ->
  let g := tcp_after us in let g' := if flags_called us then tcp_fill g 0 (tf_checksum g) else g in
  tcp_fields_ok g' /\ tf_reserved g' = 0 /\
  exists r' a fs ip pl, tcp_builder E eth vs us (mkbuf r [] []) =
    Ok (B r' a (tcp_wire g' ++ p) fs ip false pl (len p)) /\ sized r' a (tcp_wire g' ++ p).
Proof.
  intros He Hv Hu Hfl Hp Hs Hf Hr Hl g g'. set (f := v4_after vs).
  destruct (v4_layer_ok E eth vs r [] [] He Hv Hs ltac:(eapply fits_le; [exact Hf|lia]) ltac:(rewrite len_nil; lia)) as (a & fs & H1 & H2).
  unfold tcp_builder. rewrite H1. cbn [bind]. pose proof (v4_after_building vs Hv) as Hb. fold f in Hb, H1 |- *.
  destruct H2 as [H2l _]. rewrite !len_app, len_ether_layer, len_nil in H2l.
  assert (Hs1 : sized (use r (eth_size eth + 20)) a (v4_wire f)).
  { eapply sized_after; [exact Hs|eapply fits_le; [exact Hf|lia]|rewrite len_v4_wire, len_nil; lia|rewrite len_v4_wire; lia]. }
  set (f' := v4_put f (V4SetProtocol IP_Tcp)).
  unfold v4_tcp. erewrite v4_sub_ok; [|exact Hb|reflexivity|exact Hs1|
    apply tcp_with_ok; [eapply sized_same; [exact Hs1|reflexivity]|apply fits_use; eapply fits_le; [exact Hf|lia]|rewrite len_v4_wire; lia]].
  fold f'. rewrite use_use. replace (eth_size eth + 20 + 20) with (eth_size eth + 40) by lia. cbn [bind]. fold tcp_zero.
  pose proof (one_payload_bytes _ _ Hp (tcp_op_payloads us Hu)) as Hpb.
  destruct (tcp_fold us tcp_zero tcp_zero_building eq_refl Hu Hfl) as (Ho & Hg1 & Hg2 & Hg3). cbv zeta in *.
  pose proof (tcp_putop_offset us tcp_zero) as Hoff. fold (tcp_after us) in Hg1, Hg2, Hg3. fold g in Hg1, Hg2, Hg3.
  assert (Hg : fold_left tcp_putop us tcp_zero = g').
  { unfold g'. destruct Hg3 as [Hg3|Hg3]; rewrite Hg3 in *.
    - destruct (flags_called us); [|reflexivity]. destruct Hg1 as [_ Hg1]. rewrite Hg1 in Hoff. discriminate Hoff.
    - destruct (flags_called us); [reflexivity|]. rewrite tcp_fill_off in Hoff. discriminate Hoff. }
  assert (Hg'1 : tcp_fields_ok g').
  { unfold g'. destruct (flags_called us); [|apply Hg1]. apply tcp_fill_offset; [apply Hg1|lia|apply Hg1]. }
  assert (Hg'2 : tf_reserved g' = 0).
  { unfold g'. destruct (flags_called us); [|exact Hg2]. rewrite tcp_fill_res. exact Hg2. }
  split; [exact Hg'1|]. split; [exact Hg'2|].
  assert (Hz : forall c, len c = 20 + len p -> sized (use r (eth_size eth + 40)) (a ++ v4_wire f') c).
  { intros c Hc. unfold sized in *. rewrite len_app, len_v4_wire. pose proof (free_use r _ Hf). destruct Hr as [-> | ->].
    - cbn [free use option_map] in *. lia.
    - rewrite len_nil in *. destruct r; cbn [free use option_map] in *; lia. }
  destruct (run_one (tcp_run1 E) tcp_wire tcp_putop tcp_pay (fun _ => false) tcp_step_ok true 20 len_tcp_wire
    (tcp_step E) (tcp_step_pay E) ltac:(intros []; cbn; eauto) us tcp_zero (use r (eth_size eth + 40)) (a ++ v4_wire f')
    (fs ++ [v4_finalizer E (len a) 20]) (len a, len (v4_wire f')) false p Ho Hp Hpb) as [pl R].
  { eapply sized_after; [exact Hs|exact Hf|rewrite len_app, len_v4_wire, len_tcp_wire, len_nil; lia|rewrite len_app, len_v4_wire, len_tcp_wire; lia]. }
  { rewrite len_app, len_v4_wire. lia. }
  { destruct Hr as [-> | ->]; [left; reflexivity|right; reflexivity]. }
  rewrite R. clear R. rewrite existsb_false, orb_false_r, Hg.
  do 5 eexists. split; [reflexivity|]. apply Hz. rewrite len_app, len_tcp_wire. reflexivity.
Qed.

Lemma v4_state E eth vops p r : 
  eth_ok eth -> Forall v4_op_ok vops -> one_payload (v4_payloads vops) p ->
  sized r [] [] -> fits r (eth_size eth + 20) -> r = None \/ p = [] ->
  eth_size eth + 20 + len p <= ISIZE_MAX ->
  let f := v4_after (v4_setters vops) in
  v4_building f /\
  exists r' a fs pl, v4_builder E eth vops (mkbuf r [] []) =
    Ok (B r' a (v4_wire f ++ p) fs (0, 0) false pl 0) /\ sized r' a (v4_wire f ++ p).
Proof.
  intros He Hv Hp Hs Hf Hr Hl f.
  destruct (start_v4_full E eth r [] [] He Hs Hf ltac:(rewrite len_nil; lia)) as (a & fs & H1 & H2 & _). rewrite len_nil in H2.
  unfold v4_builder. rewrite H1. cbn [bind].
  pose proof (one_payload_bytes _ _ Hp (v4_op_payloads vops Hv)) as Hpb.
  destruct (run_one (v4_run1 E) v4_wire v4_putop v4_pay (fun _ => false) v4_step_ok false 20 len_v4_wire
    (v4_step E) (v4_step_pay E) ltac:(intros []; cbn; eauto) vops v4_zero (use r (eth_size eth + 20)) a fs (0, 0) false p
    (proj1 (v4_oks vops _ v4_zero_building Hv)) Hp Hpb) as [pl R].
  { eapply sized_after; [exact Hs|exact Hf|rewrite len_v4_wire, len_nil; lia|rewrite len_v4_wire; lia]. }
  { lia. }
  { destruct Hr as [-> | ->]; [left; reflexivity|right; reflexivity]. }
  rewrite R. clear R. rewrite existsb_false, orb_false_r, v4_fold. fold (v4_after (v4_setters vops)). fold f.
  split; [apply v4_after_building, v4_setters_ok, Hv|].
  do 4 eexists. split; [reflexivity|].
  unfold sized in *. rewrite len_app, len_v4_wire. pose proof (free_use r _ Hf). destruct Hr as [-> | ->].
  - cbn [free use option_map] in *. lia.
  - rewrite len_nil in *. destruct r; cbn [free use option_map] in *; lia.
Qed.
Lemma ether_state E eops p r : Forall ether_op_ok eops -> one_payload (ether_payloads eops) p ->
  sized r [] [] -> fits r 14 -> r = None \/ p = [] -> 14 + len p <= ISIZE_MAX ->
  exists r' pl, ether_builder E eops (mkbuf r [] []) = Ok (B r' [] (ether_wire (ether_after eops) ++ p) [] (0, 0) false pl 0) /\
    sized r' [] (ether_wire (ether_after eops) ++ p).
Proof.
  intros He Hp Hs Hf Hr Hl. unfold ether_builder. rewrite ether_with_ok by (assumption || (rewrite len_nil; lia)). cbn [bind].
  pose proof (one_payload_bytes _ _ Hp (ether_op_payloads eops He)) as Hpb.
  destruct (run_one (ether_run1 E) ether_wire ether_put ether_pay (fun _ => false) (fun _ _ => True) false 14 len_ether_wire
    ltac:(intros; apply ether_step; assumption) ltac:(intros; eapply ether_step_pay; eassumption) ether_pay_one eops ether_zero (use r 14) ([] ++ []) [] (0, 0) false p
    (ether_oks eops _) Hp Hpb) as [pl R].
  { eapply sized_after; [exact Hs|exact Hf|reflexivity|rewrite len_ether_wire; cbn [app]; rewrite ?len_nil; lia]. }
  { cbn [app]; rewrite len_nil; lia. }
  { destruct Hr as [-> | ->]; [left; reflexivity|right; reflexivity]. }
  rewrite R, existsb_false. do 2 eexists. split; [reflexivity|].
  unfold sized in *. rewrite len_app. fold (ether_after eops). rewrite len_ether_wire. pose proof (free_use r _ Hf). destruct Hr as [-> | ->].
  - cbn [free use option_map] in *. rewrite len_nil in *. lia.
  - rewrite len_nil in *. destruct r; cbn [free use option_map] in *; lia.
Qed.
Lemma echo_state E outer ops p r :
  outer_ok outer -> Forall echo_op_ok ops -> one_payload (echo_payloads ops) p ->
  sized r [] [] -> fits r (outer_size outer + 8) -> r = None \/ p = [] ->
  outer_size outer + 8 + len p <= ISIZE_MAX ->
  exists r' a fs k pl, echo_builder E outer ops (mkbuf r [] []) =
    Ok (B r' a (ident_of (echo_after ops) ++ p) fs (0, 0) k pl 0) /\ sized r' a (ident_of (echo_after ops) ++ p).
Proof.
  intros Hout Ho Hp Hs Hf Hr Hl.
  destruct (icmp_layer_ok E outer r [] [] Hout Hs ltac:(eapply fits_le; [exact Hf|lia]) ltac:(rewrite len_nil; lia)) as (a & c & fs & H1 & H2 & H3).
  unfold echo_builder. rewrite H1. cbn [bind]. rewrite len_nil in H2.
  assert (Hs1 : sized (use r (outer_size outer)) a c).
  { eapply sized_after; [exact Hs|eapply fits_le; [exact Hf|lia]|rewrite len_nil; lia|lia]. }
  unfold icmp_echo. rewrite (icmp_next E _ 8) by ((intros; reflexivity) || assumption || (apply fits_use; exact Hf) || lia).
  cbn [bind]. rewrite use_use. change (zeros 8) with (ident_of (0, 0, 0)).
  pose proof (one_payload_bytes _ _ Hp (echo_op_payloads ops Ho)) as Hpb.
  assert (Hok : oks echo_put (fun _ _ => True) (0, 0, 0) ops) by (generalize ((0, 0, 0) : N * N * N); clear; induction ops; intros z; cbn [oks]; auto).
  destruct (run_one (echo_run1 E) ident_of echo_put echo_pay echo_kindof (fun _ _ => True) false 8 len_ident_of
    (echo_step E) (echo_step_pay E) ltac:(intros []; cbn; eauto) ops (0, 0, 0) (use r (outer_size outer + 8)) (a ++ c)
    fs (0, 0) false p Hok Hp Hpb) as [pl R].
  { eapply sized_after; [exact Hs|exact Hf|rewrite len_app, len_ident_of, len_nil; lia|rewrite len_app, len_ident_of; lia]. }
  { rewrite len_app. lia. }
  { destruct Hr as [-> | ->]; [left; reflexivity|right; reflexivity]. }
  rewrite R. do 5 eexists. split; [reflexivity|]. fold (echo_after ops).
  unfold sized in *. rewrite !len_app, len_ident_of. pose proof (free_use r _ Hf). destruct Hr as [-> | ->].
  - cbn [free use option_map] in *. lia.
  - rewrite len_nil in *. destruct r; cbn [free use option_map] in *; lia.
Qed.
Lemma information_state E outer ops r :
  outer_ok outer -> Forall information_op_ok ops -> sized r [] [] -> fits r (outer_size outer + 8) -> outer_size outer + 8 <= ISIZE_MAX ->
  exists r' a fs k pl, information_builder E outer ops (mkbuf r [] []) =
    Ok (B r' a (ident_of (information_after ops)) fs (0, 0) k pl 0) /\ sized r' a (ident_of (information_after ops)).
Proof.
  intros Hout Ho Hs Hf Hl.
  destruct (icmp_layer_ok E outer r [] [] Hout Hs ltac:(eapply fits_le; [exact Hf|lia]) ltac:(rewrite len_nil; lia)) as (a & c & fs & H1 & H2 & H3).
  unfold information_builder. rewrite H1. cbn [bind]. rewrite len_nil in H2.
  assert (Hs1 : sized (use r (outer_size outer)) a c).
  { eapply sized_after; [exact Hs|eapply fits_le; [exact Hf|lia]|rewrite len_nil; lia|lia]. }
  unfold icmp_information. rewrite (icmp_next E _ 8) by ((intros; reflexivity) || assumption || (apply fits_use; exact Hf) || lia).
  cbn [bind]. rewrite use_use. change (zeros 8) with (ident_of (0, 0, 0)).
  assert (Hok : oks information_put (fun _ _ => True) (0, 0, 0) ops) by (generalize ((0, 0, 0) : N * N * N); clear; induction ops; intros z; cbn [oks]; auto).
  pose proof (run_plain (information_run1 E) ident_of information_put (fun _ => []) information_kindof (fun _ _ => True) 8 len_ident_of
    (information_step E) ops (0, 0, 0) (use r (outer_size outer + 8)) (a ++ c) [] fs (0, 0) false false 0 Hok) as R.
  rewrite !app_nil_r in R. rewrite R; [|clear; induction ops; [reflexivity|exact IHops]|constructor|].
  2: { eapply sized_after; [exact Hs|exact Hf|rewrite len_app, len_ident_of, len_nil; lia|rewrite len_app, len_ident_of; lia]. }
  clear R. do 5 eexists. split; [reflexivity|]. fold (information_after ops).
  eapply sized_after; [exact Hs|exact Hf|rewrite len_app, len_ident_of, len_nil; lia|rewrite len_app, len_ident_of; lia].
Qed.
Lemma timestamp_state E outer ops r :
  outer_ok outer -> Forall timestamp_op_ok ops -> sized r [] [] -> fits r (outer_size outer + 20) -> outer_size outer + 20 <= ISIZE_MAX ->
  exists r' a fs k pl, timestamp_builder E outer ops (mkbuf r [] []) =
    Ok (B r' a (timestamp_of (timestamp_after ops)) fs (0, 0) k pl 0) /\ sized r' a (timestamp_of (timestamp_after ops)).
Proof.
  intros Hout Ho Hs Hf Hl.
  destruct (icmp_layer_ok E outer r [] [] Hout Hs ltac:(eapply fits_le; [exact Hf|lia]) ltac:(rewrite len_nil; lia)) as (a & c & fs & H1 & H2 & H3).
  unfold timestamp_builder. rewrite H1. cbn [bind]. rewrite len_nil in H2.
  assert (Hs1 : sized (use r (outer_size outer)) a c).
  { eapply sized_after; [exact Hs|eapply fits_le; [exact Hf|lia]|rewrite len_nil; lia|lia]. }
  unfold icmp_timestamp. rewrite (icmp_next E _ 20) by ((intros; reflexivity) || assumption || (apply fits_use; exact Hf) || lia).
  cbn [bind]. rewrite use_use. change (zeros 20) with (timestamp_of (0, 0, 0, 0, 0, 0)).
  assert (Hok : oks timestamp_put (fun _ _ => True) (0, 0, 0, 0, 0, 0) ops) by (generalize ((0, 0, 0, 0, 0, 0) : N * N * N * N * N * N); clear; induction ops; intros z; cbn [oks]; auto).
  pose proof (run_plain (timestamp_run1 E) timestamp_of timestamp_put (fun _ => []) timestamp_kindof (fun _ _ => True) 20 len_timestamp_of
    (timestamp_step E) ops (0, 0, 0, 0, 0, 0) (use r (outer_size outer + 20)) (a ++ c) [] fs (0, 0) false false 0 Hok) as R.
  rewrite !app_nil_r in R. rewrite R; [|clear; induction ops; [reflexivity|exact IHops]|constructor|].
  2: { eapply sized_after; [exact Hs|exact Hf|rewrite len_app, len_timestamp_of, len_nil; lia|rewrite len_app, len_timestamp_of; lia]. }
  clear R. do 5 eexists. split; [reflexivity|]. fold (timestamp_after ops).
  eapply sized_after; [exact Hs|exact Hf|rewrite len_app, len_timestamp_of, len_nil; lia|rewrite len_app, len_timestamp_of; lia].
Qed.
