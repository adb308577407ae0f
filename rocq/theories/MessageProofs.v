(** * MessageProofs: C36, C37, C46: ICMP, IPv4 and Ethernet builders. *)
From Verif Require Import Base Enums Buffer Ether Ipv4 Ip Udp Tcp Icmp Builders Spec SpecCalls SpecBuild
  Lemmas ParseProofs SliceProofs AccessProofs FieldProofs ChecksumLemmas ChecksumProofs GuardProofs BufferProofs BuildLemmas FinalLemmas ChainLemmas ReadLemmas BuilderProofs.
From Coq Require Import ZifyBool ZifyNat ZifyN.
Ltac Zify.zify_post_hook ::= Z.div_mod_to_equations.

(** ** C36 *)
(** C36: echo, standalone ([None]) or inside IPv4 (inside Ethernet); without a
    kind the build fails. *)
Lemma c36_echo_bytes : forall E outer ops p,
  outer_ok outer -> Forall echo_op_ok ops -> one_payload (echo_payloads ops) p -> 42 + len p <= ISIZE_MAX ->
  let '(t, i, s) := echo_after ops in
  let message ck := ident_wire {| cf_type := t; cf_code := 0; cf_checksum := ck |} i s ++ p in
  (echo_kind_given ops ->
   echo_chain E outer ops dynamic_new =
   Ok (icmp_outer outer (8 + len p) ++ message (nonzero_checksum (drop_odd (message 0))))) /\
  (~ echo_kind_given ops -> echo_chain E outer ops dynamic_new = Err InvalidPacket).
Proof.
  intros E outer ops p Ho Hops Hp Hl.
  pose proof (echo_chain_gen E outer ops p None [] [] Ho Hops Hp dynamic_sized I (or_introl eq_refl)) as G.
  rewrite len_nil in G. specialize (G ltac:(destruct outer as [[[]]|]; cbn [outer_size eth_size]; lia)).
  destruct (echo_after ops) as [[t i] s]. cbv zeta in G |- *. change (mkbuf None [] []) with dynamic_new in G. rewrite G. rewrite echo_kind_iff.
  split; intros Hk; [rewrite Hk; reflexivity|]. apply not_true_is_false in Hk. rewrite Hk. reflexivity.
Qed.
Lemma c36_information_bytes : forall E outer ops,
  outer_ok outer -> Forall information_op_ok ops ->
  let '(t, i, s) := information_after ops in
  let message ck := ident_wire {| cf_type := t; cf_code := 0; cf_checksum := ck |} i s in
  (information_kind_given ops ->
   information_chain E outer ops dynamic_new =
   Ok (icmp_outer outer 8 ++ message (nonzero_checksum (message 0)))) /\
  (~ information_kind_given ops -> information_chain E outer ops dynamic_new = Err InvalidPacket).
Proof.
  intros E outer ops Ho Hops. assert (Hi : 42 <= ISIZE_MAX) by (widths; lia).
  pose proof (information_chain_gen E outer ops None [] [] Ho Hops dynamic_sized I) as G.
  rewrite len_nil in G. specialize (G ltac:(destruct outer as [[[]]|]; cbn [outer_size eth_size]; lia)).
  destruct (information_after ops) as [[t i] s]. cbv zeta in G |- *. change (mkbuf None [] []) with dynamic_new in G. rewrite G. rewrite information_kind_iff.
  split; intros Hk; [rewrite Hk; reflexivity|]. apply not_true_is_false in Hk. rewrite Hk. reflexivity.
Qed.
Lemma c36_timestamp_bytes : forall E outer ops,
  outer_ok outer -> Forall timestamp_op_ok ops ->
  let '(t, i, s, x, y, z) := timestamp_after ops in
  let message ck := timestamp_wire {| cf_type := t; cf_code := 0; cf_checksum := ck |} i s x y z in
  (timestamp_kind_given ops ->
   timestamp_chain E outer ops dynamic_new =
   Ok (icmp_outer outer 20 ++ message (nonzero_checksum (message 0)))) /\
  (~ timestamp_kind_given ops -> timestamp_chain E outer ops dynamic_new = Err InvalidPacket).
Proof.
  intros E outer ops Ho Hops. assert (Hi : 54 <= ISIZE_MAX) by (widths; lia).
  pose proof (timestamp_chain_gen E outer ops None [] [] Ho Hops dynamic_sized I) as G.
  rewrite len_nil in G. specialize (G ltac:(destruct outer as [[[]]|]; cbn [outer_size eth_size]; lia)).
  destruct (timestamp_after ops) as [[[[[t i] s] x] y] z]. cbv zeta in G |- *. change (mkbuf None [] []) with dynamic_new in G. rewrite G. rewrite timestamp_kind_iff.
  split; intros Hk; [rewrite Hk; reflexivity|]. apply not_true_is_false in Hk. rewrite Hk. reflexivity.
Qed.
Lemma icf_zero_ident t ck i s p : zero_field 2 (ident_wire (icf t ck) i s ++ p) = ident_wire (icf t 0) i s ++ p.
Proof.
  rewrite zero_field_patch by (rewrite len_app; change (len (ident_wire (icf t ck) i s)) with 8; lia).
  rewrite patch_app1 by (change (len (ident_wire (icf t ck) i s)) with 8; change_lens; lia). reflexivity.
Qed.
Lemma icf_zero_ts t ck i s x y z : zero_field 2 (timestamp_wire (icf t ck) i s x y z) = timestamp_wire (icf t 0) i s x y z.
Proof. rewrite zero_field_patch by (change (len (timestamp_wire (icf t ck) i s x y z)) with 20; lia). reflexivity. Qed.
Lemma nonzero_lt b : u16 (nonzero_checksum b).
Proof. unfold nonzero_checksum. destruct (word_sum b =? 0); [reflexivity|apply inet_lt]. Qed.
(** A message storing its own checksum is valid for the crate. *)
Lemma icmp_valid_ok E m ck : is_bytes m -> 4 <= len m -> wire16 m 2 = ck -> ck = nonzero_checksum (drop_odd (zero_field 2 m)) ->
  icmp_is_valid E m = Ok true.
Proof.
  intros Hm Hl H1 H2. unfold icmp_is_valid. rewrite c23_icmp_checksum by exact Hm. cbn [bind]. unfold icmp_checksum. rewrite get16 by lia. cbn [bind].
  rewrite H1, <- H2, N.eqb_refl. reflexivity.
Qed.
Lemma wire16_ident t ck i s p : u16 ck -> wire16 (ident_wire (icf t ck) i s ++ p) 2 = ck.
Proof. intros H. change (ck / 256 * 256 + ck mod 256 = ck). unfold u16 in H. lia. Qed.
Lemma wire16_ts t ck i s x y z : u16 ck -> wire16 (timestamp_wire (icf t ck) i s x y z) 2 = ck.
Proof. intros H. change (ck / 256 * 256 + ck mod 256 = ck). unfold u16 in H. lia. Qed.
Lemma icf_ok t ck : u8 t -> u16 ck -> icmp_fields_ok (icf t ck).
Proof. intros H1 H2. repeat split; assumption. Qed.
(** C36: read back with the crate's own parsers; a standalone echo message, and
    the IPv4 packet around one. *)
Lemma c36_echo_reparse : forall E ops p eth vs,
  Forall echo_op_ok ops -> echo_kind_given ops -> one_payload (echo_payloads ops) p ->
  eth_ok eth -> Forall v4_arg_ok vs -> Forall v4_faithful vs -> 28 + len p <= 65535 ->
  exists m ip,
    echo_chain E None ops dynamic_new = Ok m /\ echo_reads E ops p m /\
    echo_chain E (Some (None, vs)) ops dynamic_new = Ok ip /\ v4_reads E vs IP_Icmp m ip /\
    echo_chain E (Some (eth, vs)) ops dynamic_new = Ok (ether_layer eth ++ ip) /\
    (len p mod 2 = 0 -> word_sum m <> 0 -> receiver_accepts m).
Proof.
  intros E ops p eth vs Ho Hk Hp He Hv Hf Hl. assert (Hi : 65535 + 42 <= ISIZE_MAX) by (widths; lia).
  pose proof (one_payload_bytes _ _ Hp (echo_op_payloads ops Ho)) as Hpb.
  pose proof (c36_echo_bytes E None ops p I Ho Hp ltac:(lia)) as B1.
  pose proof (c36_echo_bytes E (Some (None, vs)) ops p (conj I Hv) Ho Hp ltac:(lia)) as B2.
  pose proof (c36_echo_bytes E (Some (eth, vs)) ops p (conj He Hv) Ho Hp ltac:(lia)) as B3.
  pose proof (echo_after_ok ops Ho) as Hr. rewrite echo_after_last in * by exact Hk.
  set (t := if last_set sel_echo_kind ops false then 8 else 0) in *. set (i := last_set sel_echo_id ops 0) in *. set (s := last_set sel_echo_seq ops 0) in *.
  destruct Hr as (Ht & Hid & Hsq). cbv zeta in B1, B2, B3. destruct B1 as [B1 _], B2 as [B2 _], B3 as [B3 _]. specialize (B1 Hk). specialize (B2 Hk). specialize (B3 Hk).
  fold (icf t 0) in B1, B2, B3. set (ck := nonzero_checksum (drop_odd (ident_wire (icf t 0) i s ++ p))) in *. fold (icf t ck) in B1, B2, B3.
  assert (Hck : u16 ck) by apply nonzero_lt.
  set (m := ident_wire (icf t ck) i s ++ p) in *. assert (Hlm : len m = 8 + len p) by (unfold m; rewrite len_app; reflexivity).
  assert (Hm : is_bytes m) by (apply is_bytes_app; split; [apply is_bytes_ident; [apply icf_ok; assumption|assumption|assumption]|exact Hpb]).
  exists m, (v4_wire (v4_finished (v4_after vs) 1 (len m)) ++ m). rewrite Hlm.
  split; [exact B1|]. split.
  - pose proof (c09_echo (icf t ck) i s p (icf_ok t ck Ht Hck)) as R. cbv zeta in R. fold m in R.
    assert (Ht2 : cf_type (icf t ck) = 8 \/ cf_type (icf t ck) = 0) by (cbn [icf cf_type]; unfold t; destruct (last_set _ ops false); auto).
    specialize (R Ht2). destruct R as (R1 & R2 & R3 & R4 & R5 & R6). cbn [icf cf_type] in R4, R5.
    pose proof (c09_icmp (icf t ck) (enc16 i ++ enc16 s ++ p) (icf_ok t ck Ht Hck)) as Q. cbv zeta in Q.
    assert (Em : icmp_wire (icf t ck) ++ enc16 i ++ enc16 s ++ p = m) by (unfold m, ident_wire; rewrite <- !app_assoc; reflexivity).
    rewrite Em in Q. destruct Q as (Q1 & Q2 & Q3 & _ & _). cbn [icf cf_type cf_code] in Q2, Q3.
    unfold echo_reads. fold i s.
    assert (Hval : icmp_is_valid E m = Ok true).
    { apply (icmp_valid_ok E m ck); [exact Hm|lia|apply wire16_ident, Hck|]. unfold m. rewrite icf_zero_ident. reflexivity. }
    rewrite R4, R5, Q2. unfold t. destruct (last_set sel_echo_kind ops false); repeat split; assumption.
  - split; [rewrite B2; reflexivity|]. split; [rewrite <- Hlm; apply v4_reads_ok with (proto := 1); try assumption; [reflexivity|lia]|].
    split; [rewrite B3; cbn [icmp_outer]; rewrite <- app_assoc; reflexivity|].
    intros Heven Hw. unfold receiver_accepts. rewrite (word_sum_stored 2 m) in * by (reflexivity || lia).
    assert (Hs : wire16 m 2 = ck) by (apply wire16_ident, Hck). rewrite Hs in *.
    assert (Hz : zero_field 2 m = ident_wire (icf t 0) i s ++ p) by apply icf_zero_ident. rewrite Hz in *.
    assert (Hd : drop_odd (ident_wire (icf t 0) i s ++ p) = ident_wire (icf t 0) i s ++ p).
    { apply drop_odd_even. rewrite len_app. change (len (ident_wire (icf t 0) i s)) with 8. lia. }
    unfold ck in *. rewrite Hd in *. unfold nonzero_checksum in *. destruct (N.eqb_spec (word_sum (ident_wire (icf t 0) i s ++ p)) 0) as [E0|E0]; [lia|].
    unfold inet_checksum. rewrite <- ones_sum_add. pose proof (ones_sum_lt (word_sum (ident_wire (icf t 0) i s ++ p))).
    replace (ones_sum _ + (65535 - ones_sum _)) with 65535 by lia. reflexivity.
Qed.
Lemma c36_information_reparse : forall E ops eth vs,
  Forall information_op_ok ops -> information_kind_given ops ->
  eth_ok eth -> Forall v4_arg_ok vs -> Forall v4_faithful vs ->
  exists m ip,
    information_chain E None ops dynamic_new = Ok m /\ information_reads E ops m /\
    information_chain E (Some (None, vs)) ops dynamic_new = Ok ip /\ v4_reads E vs IP_Icmp m ip /\
    information_chain E (Some (eth, vs)) ops dynamic_new = Ok (ether_layer eth ++ ip) /\ receiver_accepts m.
Proof.
  intros E ops eth vs Ho Hk He Hv Hf.
  pose proof (c36_information_bytes E None ops I Ho) as B1.
  pose proof (c36_information_bytes E (Some (None, vs)) ops (conj I Hv) Ho) as B2.
  pose proof (c36_information_bytes E (Some (eth, vs)) ops (conj He Hv) Ho) as B3.
  pose proof (information_after_ok ops Ho) as Hr. rewrite information_after_last in * by exact Hk.
  set (t := if last_set sel_info_kind ops false then 15 else 16) in *. set (i := last_set sel_info_id ops 0) in *. set (s := last_set sel_info_seq ops 0) in *.
  destruct Hr as (Ht & Hid & Hsq). cbv zeta in B1, B2, B3. destruct B1 as [B1 _], B2 as [B2 _], B3 as [B3 _]. specialize (B1 Hk). specialize (B2 Hk). specialize (B3 Hk).
  fold (icf t 0) in B1, B2, B3. set (ck := nonzero_checksum (ident_wire (icf t 0) i s)) in *. fold (icf t ck) in B1, B2, B3.
  assert (Hck : u16 ck) by apply nonzero_lt.
  set (m := ident_wire (icf t ck) i s) in *. assert (Hlm : len m = 8) by reflexivity.
  assert (Hm : is_bytes m) by (apply is_bytes_ident; [apply icf_ok; assumption|assumption|assumption]).
  assert (Hz : zero_field 2 m = ident_wire (icf t 0) i s) by (unfold m; rewrite <- (app_nil_r (ident_wire (icf t ck) i s)), icf_zero_ident; apply app_nil_r).
  assert (Hs : wire16 m 2 = ck) by (unfold m; rewrite <- (app_nil_r (ident_wire (icf t ck) i s)); apply wire16_ident, Hck).
  exists m, (v4_wire (v4_finished (v4_after vs) 1 (len m)) ++ m).
  split; [exact B1|]. split.
  - pose proof (c09_information (icf t ck) i s [] (icf_ok t ck Ht Hck)) as R. cbv zeta in R. rewrite app_nil_r in R. fold m in R.
    assert (Ht2 : cf_type (icf t ck) = 15 \/ cf_type (icf t ck) = 16) by (cbn [icf cf_type]; unfold t; destruct (last_set _ ops false); auto).
    specialize (R Ht2). destruct R as (R1 & R2 & R3 & R4 & R5). cbn [icf cf_type] in R4, R5.
    pose proof (c09_icmp (icf t ck) (enc16 i ++ enc16 s) (icf_ok t ck Ht Hck)) as Q. cbv zeta in Q.
    change (icmp_wire (icf t ck) ++ enc16 i ++ enc16 s) with m in Q. destruct Q as (Q1 & Q2 & Q3 & _ & _). cbn [icf cf_type cf_code] in Q2, Q3.
    unfold information_reads. fold i s.
    assert (Hval : icmp_is_valid E m = Ok true).
    { apply (icmp_valid_ok E m ck); [exact Hm|lia|exact Hs|]. rewrite Hz, drop_odd_even by reflexivity. reflexivity. }
    rewrite R4, R5, Q2. unfold t. destruct (last_set sel_info_kind ops false); repeat split; assumption.
  - split; [rewrite B2; reflexivity|]. split; [apply v4_reads_ok with (proto := 1); try assumption; [reflexivity|rewrite Hlm; lia]|].
    split; [rewrite B3; cbn [icmp_outer]; rewrite <- app_assoc; reflexivity|].
    unfold receiver_accepts. rewrite (word_sum_stored 2 m) by (reflexivity || lia). rewrite Hs, Hz.
    assert (Hw : 0 < word_sum (ident_wire (icf t 0) i s)).
    { apply word_sum_nth0; [reflexivity|]. unfold t. destruct (last_set _ ops false); reflexivity. }
    unfold ck, nonzero_checksum. destruct (N.eqb_spec (word_sum (ident_wire (icf t 0) i s)) 0) as [E0|E0]; [lia|].
    unfold inet_checksum. rewrite <- ones_sum_add. pose proof (ones_sum_lt (word_sum (ident_wire (icf t 0) i s))).
    replace (ones_sum _ + (65535 - ones_sum _)) with 65535 by lia. reflexivity.
Qed.
Lemma c36_timestamp_reparse : forall E ops eth vs,
  Forall timestamp_op_ok ops -> timestamp_kind_given ops ->
  eth_ok eth -> Forall v4_arg_ok vs -> Forall v4_faithful vs ->
  exists m ip,
    timestamp_chain E None ops dynamic_new = Ok m /\ timestamp_reads E ops m /\
    timestamp_chain E (Some (None, vs)) ops dynamic_new = Ok ip /\ v4_reads E vs IP_Icmp m ip /\
    timestamp_chain E (Some (eth, vs)) ops dynamic_new = Ok (ether_layer eth ++ ip) /\ receiver_accepts m.
Proof.
  intros E ops eth vs Ho Hk He Hv Hf.
  pose proof (c36_timestamp_bytes E None ops I Ho) as B1.
  pose proof (c36_timestamp_bytes E (Some (None, vs)) ops (conj I Hv) Ho) as B2.
  pose proof (c36_timestamp_bytes E (Some (eth, vs)) ops (conj He Hv) Ho) as B3.
  pose proof (timestamp_after_ok ops Ho) as Hr. rewrite timestamp_after_last in * by exact Hk.
  set (t := if last_set sel_ts_kind ops false then 13 else 14) in *. set (i := last_set sel_ts_id ops 0) in *. set (s := last_set sel_ts_seq ops 0) in *.
  set (x := last_set sel_ts_orig ops 0) in *. set (y := last_set sel_ts_recv ops 0) in *. set (z := last_set sel_ts_tran ops 0) in *.
  destruct Hr as (Ht & Hid & Hsq & Hx & Hy & Hzz). cbv zeta in B1, B2, B3. destruct B1 as [B1 _], B2 as [B2 _], B3 as [B3 _]. specialize (B1 Hk). specialize (B2 Hk). specialize (B3 Hk).
  fold (icf t 0) in B1, B2, B3. set (ck := nonzero_checksum (timestamp_wire (icf t 0) i s x y z)) in *. fold (icf t ck) in B1, B2, B3.
  assert (Hck : u16 ck) by apply nonzero_lt.
  set (m := timestamp_wire (icf t ck) i s x y z) in *. assert (Hlm : len m = 20) by reflexivity.
  assert (Hm : is_bytes m) by (apply is_bytes_timestamp; try assumption; apply icf_ok; assumption).
  assert (Hz : zero_field 2 m = timestamp_wire (icf t 0) i s x y z) by apply icf_zero_ts.
  assert (Hs : wire16 m 2 = ck) by (apply wire16_ts, Hck).
  exists m, (v4_wire (v4_finished (v4_after vs) 1 (len m)) ++ m).
  split; [exact B1|]. split.
  - pose proof (c09_timestamp (icf t ck) i s x y z [] (icf_ok t ck Ht Hck)) as R. cbv zeta in R. rewrite app_nil_r in R. fold m in R.
    assert (Ht2 : cf_type (icf t ck) = 13 \/ cf_type (icf t ck) = 14) by (cbn [icf cf_type]; unfold t; destruct (last_set _ ops false); auto).
    specialize (R Ht2). destruct R as (R1 & R2 & R3 & R4 & R5 & R6 & R7 & R8). cbn [icf cf_type] in R7, R8.
    pose proof (c09_icmp (icf t ck) (enc16 i ++ enc16 s ++ enc32 x ++ enc32 y ++ enc32 z) (icf_ok t ck Ht Hck)) as Q. cbv zeta in Q.
    change (icmp_wire (icf t ck) ++ enc16 i ++ enc16 s ++ enc32 x ++ enc32 y ++ enc32 z) with m in Q. destruct Q as (Q1 & Q2 & Q3 & _ & _). cbn [icf cf_type cf_code] in Q2, Q3.
    unfold timestamp_reads. fold i s x y z.
    assert (Hval : icmp_is_valid E m = Ok true).
    { apply (icmp_valid_ok E m ck); [exact Hm|lia|exact Hs|]. rewrite Hz, drop_odd_even by reflexivity. reflexivity. }
    rewrite R7, R8, Q2. unfold t. destruct (last_set sel_ts_kind ops false); repeat split; assumption.
  - split; [rewrite B2; reflexivity|]. split; [apply v4_reads_ok with (proto := 1); try assumption; [reflexivity|rewrite Hlm; lia]|].
    split; [rewrite B3; cbn [icmp_outer]; rewrite <- app_assoc; reflexivity|].
    unfold receiver_accepts. rewrite (word_sum_stored 2 m) by (reflexivity || lia). rewrite Hs, Hz.
    assert (Hw : 0 < word_sum (timestamp_wire (icf t 0) i s x y z)).
    { apply word_sum_nth0; [reflexivity|]. unfold t. destruct (last_set _ ops false); reflexivity. }
    unfold ck, nonzero_checksum. destruct (N.eqb_spec (word_sum (timestamp_wire (icf t 0) i s x y z)) 0) as [E0|E0]; [lia|].
    unfold inet_checksum. rewrite <- ones_sum_add. pose proof (ones_sum_lt (word_sum (timestamp_wire (icf t 0) i s x y z))).
    replace (ones_sum _ + (65535 - ones_sum _)) with 65535 by lia. reflexivity.
Qed.
Example c36_example : forall E,
  let ops := [EchoRequest; EchoIdentifier 42; EchoSequence 2; EchoPayload [116; 101; 115; 116]] in
  Forall echo_op_ok ops /\ echo_kind_given ops /\ one_payload (echo_payloads ops) [116; 101; 115; 116] /\
  echo_chain E None ops dynamic_new = Ok [8; 0; 15; 250; 0; 42; 0; 2; 116; 101; 115; 116] /\
  echo_chain E None [EchoIdentifier 42] dynamic_new = Err InvalidPacket /\
  information_chain E None [InfoReply; InfoSequence 258] dynamic_new = Ok [16; 0; 238; 253; 0; 0; 1; 2].
Proof.
  intros E ops. split; [repeat constructor|]. split; [left; left; reflexivity|]. split; [left; reflexivity|].
  destruct E as [[] [] []]; vm_compute; repeat split; reflexivity.
Qed.
