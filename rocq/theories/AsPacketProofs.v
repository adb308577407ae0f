(** * AsPacketProofs: [as_packet] on a builder (C48). *)
From Verif Require Import Base Enums Buffer Ether Ipv4 Ip Udp Tcp Icmp Builders Spec SpecCalls SpecBuild SpecUser
  Lemmas ParseProofs SliceProofs AccessProofs FieldProofs ChecksumLemmas ChecksumProofs GuardProofs BufferProofs BuildLemmas FinalLemmas ChainLemmas StateLemmas.
From Coq Require Import ZifyBool ZifyNat ZifyN.
Ltac Zify.zify_post_hook ::= Z.div_mod_to_equations.

Lemma as_packet_B E parse r a cur fs ip k pl n : sized r a cur ->
  builder_as_packet E parse (B r a cur fs ip k pl n) = parse cur.
Proof.
  intros H. unfold builder_as_packet. change (b_buffer (B r a cur fs ip k pl n)) with (mkbuf r a cur). rewrite mk_data by exact H. reflexivity.
Qed.
Lemma eth_bytes_size eth : eth_bytes eth = eth_size eth. Proof. reflexivity. Qed.
Lemma outer_bytes_size o : outer_bytes o = outer_size o. Proof. reflexivity. Qed.
Lemma ether_after_ok ops : Forall ether_op_ok ops -> ether_fields_ok (ether_after ops).
Proof.
  intros H. unfold ether_after. assert (Hz : ether_fields_ok {| ef_dst := mac_zero; ef_src := mac_zero; ef_type := 0 |}).
  { unfold ether_fields_ok, mac_ok, mac_zero, is_bytes; repeat split; repeat constructor. }
  revert Hz. generalize {| ef_dst := mac_zero; ef_src := mac_zero; ef_type := 0 |}.
  induction H as [|o us Ho H IH]; intros f Hf; [exact Hf|]. apply (IH (ether_put f o)).
  destruct Hf as (F1 & F2 & F3). destruct o; repeat split; cbn in *; assumption.
Qed.
(** C48: Ethernet: the frame as it stands, payload included. *)
Lemma c48_ether : forall E eops p buf, Forall ether_op_ok eops -> one_payload (ether_payloads eops) p ->
  fresh_buffer buf 14 p ->
  let f := ether_after eops in let b := ether_wire f ++ p in
  (let* x := ether_builder E eops buf in builder_as_packet E ether_new x) = Ok b /\
  ether_destination b = Ok (ef_dst f) /\ ether_source b = Ok (ef_src f) /\
  ether_get_protocol b = Ok (ether_protocol_from (ef_type f)) /\ ether_payload b = Ok p.
Proof.
  intros E eops p buf He Hp Hb f b. destruct (fresh_buffer_mk _ _ _ Hb) as (r & -> & Hs & Hf & Hr & Hl).
  destruct (ether_state E eops p r He Hp Hs Hf Hr Hl) as (r' & pl & -> & Hz). cbn [bind]. rewrite as_packet_B by exact Hz.
  pose proof (c09_ether f p (ether_after_ok eops He)) as Q. cbv zeta in Q. fold b in Q. exact Q.
Qed.
Lemma v4_after_lengths vs : vf_total (v4_after vs) = 0 /\ vf_checksum (v4_after vs) = 0.
Proof.
  unfold v4_after. assert (H : vf_total v4_zero = 0 /\ vf_checksum v4_zero = 0) by (split; reflexivity). revert H.
  generalize v4_zero. induction vs as [|s vs IH]; intros f H; [exact H|]. apply (IH (v4_put f s)). destruct f, s; exact H.
Qed.
Lemma udp_after_lengths us : uf_length (udp_after us) = 0 /\ uf_checksum (udp_after us) = 0.
Proof.
  unfold udp_after. generalize (udp_setters us). intros l. assert (H : uf_length {| uf_src := 0; uf_dst := 0; uf_length := 0; uf_checksum := 0 |} = 0 /\
     uf_checksum {| uf_src := 0; uf_dst := 0; uf_length := 0; uf_checksum := 0 |} = 0) by (split; reflexivity). revert H.
  generalize {| uf_src := 0; uf_dst := 0; uf_length := 0; uf_checksum := 0 |}. induction l as [|s l IH]; intros f H; [exact H|].
  apply (IH (udp_put f s)). destruct f, s; exact H.
Qed.
Lemma wire16_v4 f q : u16 (vf_total f) -> wire16 (v4_wire f ++ q) 2 = vf_total f.
Proof.
  intros H. unfold u16 in H. unfold wire16. change (nthN _ 2) with (vf_total f / 256). change (nthN _ (2 + 1)) with (vf_total f mod 256). lia.
Qed.
(** C48: IPv4: the fields set so far; total length and checksum are still zero, so
    payload() is empty whatever payload was given. *)
Lemma c48_v4 : forall E eth vops p buf, eth_ok eth -> Forall v4_op_ok vops -> one_payload (v4_payloads vops) p ->
  fresh_buffer buf (eth_bytes eth + 20) p ->
  let f := v4_after (v4_setters vops) in let b := v4_wire f ++ p in
  (let* x := v4_builder E eth vops buf in builder_as_packet E v4_new x) = Ok b /\
  v4_length b = Ok 0 /\ v4_checksum b = Ok 0 /\ v4_payload b = Ok [] /\ v4_ihl b = Ok 5 /\
  v4_dscp b = Ok (vf_dscp f) /\ v4_ecn b = Ok (vf_ecn f) /\ v4_id b = Ok (vf_id f) /\ v4_ttl b = Ok (vf_ttl f) /\
  v4_protocol b = Ok (ip_protocol_from (vf_proto f)) /\ v4_source b = Ok (vf_src f) /\ v4_destination b = Ok (vf_dst f).
Proof.
  intros E eth vops p buf He Hv Hp Hb f b. destruct (fresh_buffer_mk _ _ _ Hb) as (r & -> & Hs & Hf & Hr & Hl). rewrite eth_bytes_size in *.
  destruct (v4_state E eth vops p r He Hv Hp Hs Hf Hr Hl) as ((Hf1 & Hf2 & Hf3) & r' & a & fs & pl & H1 & Hz). fold f in Hf1, Hf2, Hf3, H1, Hz.
  rewrite H1. cbn [bind]. rewrite as_packet_B by exact Hz. fold b.
  pose proof (c09_v4 f p Hf1 Hf2 ltac:(lia)) as Q. cbv zeta in Q. fold b in Q.
  destruct Q as (Q1 & Q2 & Q3 & Q4 & Q5 & Q6 & Q7 & Q8 & Q9 & Q10 & Q11 & Q12 & Q13 & Q14).
  pose proof (v4_after_lengths (v4_setters vops)) as [T1 T2]. fold f in T1, T2. rewrite T1 in Q6. rewrite T2 in Q12. rewrite Hf3 in Q3.
  assert (Hw : wire16 b 2 = 0) by (unfold b; rewrite wire16_v4 by (rewrite T1; reflexivity); exact T1).
  assert (Hn : v4_new b = Ok b).
  { destruct (c07_v4_no_payload b Q1) as (_ & _ & _ & H & _). apply H. rewrite Hw. lia. }
  pose proof (c07_v4 b Hn) as S. cbv zeta in S. rewrite Hw in S.
  assert (H0 : nthN b 0 mod 16 * 4 = 20).
  { change (nthN b 0) with (vf_version f * 16 + vf_ihl f). rewrite Hf2, Hf3. reflexivity. }
  rewrite H0 in S. change (N.max 20 0) with 20 in S. destruct S as (S1 & S2 & S3 & S4 & _).
  assert (Hpl : v4_payload b = Ok []).
  { rewrite S4. reflexivity. }
  repeat split; assumption.
Qed.
(** C48: UDP: length and checksum still zero, payload() empty. *)
Lemma c48_udp : forall E eth vs us p buf,
  eth_ok eth -> Forall v4_arg_ok vs -> Forall udp_op_ok us -> one_payload (udp_payloads us) p ->
  fresh_buffer buf (eth_bytes eth + 28) p ->
  let f := udp_after us in let b := udp_wire f ++ p in
  (let* x := udp_builder E eth vs us buf in builder_as_packet E udp_new x) = Ok b /\
  udp_source b = Ok (uf_src f) /\ udp_destination b = Ok (uf_dst f) /\
  udp_length b = Ok 0 /\ udp_checksum b = Ok 0 /\ udp_payload b = Ok [].
Proof.
  intros E eth vs us p buf He Hv Hu Hp Hb f b. destruct (fresh_buffer_mk _ _ _ Hb) as (r & -> & Hs & Hf & Hr & Hl). rewrite eth_bytes_size in *.
  destruct (udp_state E eth vs us p r He Hv Hu Hp Hs Hf Hr Hl) as (r' & a & fs & ip & pl & -> & Hz). cbn [bind]. rewrite as_packet_B by exact Hz. fold f b.
  pose proof (udp_after_lengths us) as [T1 T2]. fold f in T1, T2. pose proof (udp_after_ok us Hu) as Hk. fold f in Hk.
  assert (Hlb : len b = 8 + len p) by (unfold b; rewrite len_app, len_udp_wire; reflexivity).
  destruct Hk as (K1 & K2 & K3 & K4). unfold u16 in *. clearbody f. destruct f as [src dst l ck]. cbn [uf_src uf_dst uf_length uf_checksum] in *. subst l ck.
  assert (W4 : wire16 b 4 = 0) by reflexivity.
  assert (Hn : udp_new b = Ok b) by (apply udp_new_iff; rewrite W4; repeat split; lia).
  pose proof (c07_udp b Hn) as S. cbv zeta in S. rewrite W4 in S. change (N.max 8 0) with 8 in S. destruct S as (S1 & S2 & S3 & S4 & _).
  split; [exact Hn|]. unfold udp_source, udp_destination, udp_length, udp_checksum. rewrite !get16 by lia.
  split; [f_equal; exact (enc16_dec _)|]. split; [f_equal; exact (enc16_dec _)|]. split; [reflexivity|]. split; [reflexivity|].
  rewrite S4. reflexivity.
Qed.

Lemma tcp_after_checksum us : tf_checksum (tcp_after us) = 0.
Proof.
  unfold tcp_after. assert (H : tf_checksum (Build_tcp_fields 0 0 0 0 5 0 0 0 0 0) = 0) by reflexivity. revert H.
  generalize (Build_tcp_fields 0 0 0 0 5 0 0 0 0 0). generalize (tcp_setters us). intros l.
  induction l as [|s l IH]; intros f H; [exact H|]. apply (IH (tcp_put f s)). destruct f, s; exact H.
Qed.
Lemma tcp_after_building us : Forall tcp_op_ok us -> tcp_building (tcp_after us).
Proof.
  intros H. unfold tcp_after. fold tcp_zero. generalize tcp_zero_building. generalize tcp_zero.
  induction H as [|o us Ho H IH]; intros f Hf; [exact Hf|]. destruct o as [s|p]; [|exact (IH f Hf)].
  apply (IH (tcp_put f s)). apply tcp_put_building; assumption.
Qed.
(** C48: TCP: every field set so far; once [flags] has been called the data offset
    reads 0, and payload() is the whole segment, header included. *)
Lemma c48_tcp : forall E eth vs ts p buf,
  eth_ok eth -> Forall v4_arg_ok vs -> Forall tcp_op_ok ts -> flags_last (tcp_setters ts) -> one_payload (tcp_payloads ts) p ->
  fresh_buffer buf (eth_bytes eth + 40) p ->
  let f := tcp_after ts in
  exists b, (let* x := tcp_builder E eth vs ts buf in builder_as_packet E tcp_new x) = Ok b /\
    b = tcp_wire (if flags_called ts then tcp_fill f 0 0 else f) ++ p /\
    tcp_source b = Ok (tf_src f) /\ tcp_destination b = Ok (tf_dst f) /\
    tcp_sequence b = Ok (tf_seq f) /\ tcp_acknowledgment b = Ok (tf_ack f) /\ tcp_flags b = Ok (tf_flags f) /\
    tcp_window b = Ok (tf_window f) /\ tcp_pointer b = Ok (tf_pointer f) /\ tcp_checksum b = Ok 0 /\
    tcp_offset b = Ok (if flags_called ts then 0 else 5) /\
    tcp_payload b = Ok (if flags_called ts then b else p).
Proof.
  intros E eth vs us p buf He Hv Hu Hfl Hp Hb f. destruct (fresh_buffer_mk _ _ _ Hb) as (r & -> & Hs & Hf & Hr & Hl). rewrite eth_bytes_size in *.
  pose proof (tcp_state E eth vs us p r He Hv Hu Hfl Hp Hs Hf Hr Hl) as S. cbv zeta in S. fold f in S.
  pose proof (tcp_after_checksum us) as Hck. fold f in Hck. rewrite Hck in S. destruct S as (S1 & S2 & r' & a & fs & ip & pl & -> & Hz). cbn [bind].
  rewrite as_packet_B by exact Hz. pose proof (tcp_after_building us Hu) as [Hk1 Hk2]. fold f in Hk1, Hk2.
  set (b := tcp_wire _ ++ p) in *. exists b.
  assert (Hpb : is_bytes p) by exact (one_payload_bytes _ _ Hp (tcp_op_payloads us Hu)).
  assert (Hbb : is_bytes b) by (apply is_bytes_app; split; [apply is_bytes_tcp_wire, S1|exact Hpb]).
  assert (Hlb : len b = 20 + len p) by (unfold b; rewrite len_app, len_tcp_wire; reflexivity).
  assert (H12 : nthN b 12 / 16 = if flags_called us then 0 else 5).
  { unfold b. rewrite tcp_byte12 by exact S1. destruct (flags_called us); [apply tcp_fill_off|exact Hk2]. }
  assert (Hn : tcp_new b = Ok b) by (apply tcp_new_iff; rewrite H12; destruct (flags_called us); repeat split; lia).
  split; [exact Hn|]. split; [reflexivity|].
  destruct (flags_called us) eqn:Hfc.
  - assert (Hrd : tcp_source b = Ok (tf_src f) /\ tcp_destination b = Ok (tf_dst f) /\
      tcp_sequence b = Ok (tf_seq f) /\ tcp_acknowledgment b = Ok (tf_ack f) /\ tcp_flags b = Ok (tf_flags f) /\
      tcp_window b = Ok (tf_window f) /\ tcp_pointer b = Ok (tf_pointer f) /\ tcp_checksum b = Ok 0 /\ tcp_offset b = Ok 0).
    { destruct (c08_tcp b Hn) as (A1 & A2 & A3 & A4 & A5 & A6 & A7 & A8 & A9 & _).
      rewrite A1, A2, A3, A4, A5, A6, A7, A8, A9, H12. clear A1 A2 A3 A4 A5 A6 A7 A8 A9 H12 Hlb Hn Hz.
      clearbody f. destruct f as [src dst seq ack off rsv fl win ck ptr]. destruct S1 as (_ & _ & _ & _ & _ & Q6 & Q7 & _).
      cbn [tcp_fill tf_src tf_dst tf_seq tf_ack tf_offset tf_reserved tf_flags tf_window tf_checksum tf_pointer] in *. subst rsv.
      split; [f_equal; exact (enc16_dec _)|]. split; [f_equal; exact (enc16_dec _)|].
      split; [f_equal; exact (enc32_dec _)|]. split; [f_equal; exact (enc32_dec _)|].
      split; [|split; [f_equal; exact (enc16_dec _)|split; [f_equal; exact (enc16_dec _)|split; reflexivity]]].
      f_equal. transitivity ((0 * 4096 + 0 * 512 + fl) mod 512); [f_equal; exact (enc16_dec _)|lia]. }
    destruct Hrd as (R1 & R2 & R3 & R4 & R5 & R6 & R7 & R8 & R9). repeat (split; [assumption|]).
    assert (Hrs : rust_slice b) by (split; [exact Hbb|lia]).
    pose proof (c07_tcp E b Hrs Hn) as Q. cbv zeta in Q. rewrite H12 in Q. destruct Q as (_ & _ & _ & Q & _). exact Q.
  - pose proof (c09_tcp f [] p Hk1 ltac:(rewrite Hk2, len_nil; lia)) as Q. cbv zeta in Q. rewrite app_nil_l in Q.
    change (tcp_wire f ++ p) with b in Q.
    destruct Q as (_ & R1 & R2 & R3 & R4 & R5 & R6 & R7 & R8 & R9 & _ & _ & R10). rewrite Hck in R8. rewrite Hk2 in R5. repeat (split; [assumption|]). assumption.
Qed.

Lemma typed_new_first parse min kinds b t : typed_parser parse min kinds -> min <= len b -> nthN b 0 = t -> 
  parse b = if existsb (N.eqb t) kinds then Ok b else Err InvalidPacket.
Proof.
  intros H Hl H0. destruct (H b) as (H1 & H2 & H3). rewrite H0 in *.
  destruct (existsb (N.eqb t) kinds) eqn:He.
  - apply H2; [exact Hl|]. apply existsb_exists in He. destruct He as (x & Hx & Ht). apply N.eqb_eq in Ht. subst x. exact Hx.
  - apply H3; [exact Hl|]. intros Hc. assert (Hex : existsb (N.eqb t) kinds = true) by (apply existsb_exists; exists t; split; [exact Hc|apply N.eqb_refl]).
    congruence.
Qed.

Lemma echo_type ops : let '(t, _, _) := echo_after ops in (t = 8 \/ t = 0) /\ (existsb echo_kindof ops = false -> t = 0).
Proof.
  unfold echo_after. cut (forall f, (fst (fst f) = 8 \/ fst (fst f) = 0) -> let '(t, _, _) := fold_left echo_put ops f in
    (t = 8 \/ t = 0) /\ (existsb echo_kindof ops = false -> t = fst (fst f))).
  { intros H. apply (H (0, 0, 0)). right; reflexivity. }
  induction ops as [|o ops IH]; intros [[t i] s] Hf; cbn [fold_left existsb].
  - split; [exact Hf|reflexivity].
  - destruct o; cbn [echo_put echo_kindof orb]; [specialize (IH (8, i, s))|specialize (IH (0, i, s))|specialize (IH (t, v, s))|specialize (IH (t, i, v))|specialize (IH (t, i, s))];
      match type of IH with _ -> let '(_, _) := ?x in _ => destruct x as [[t' i'] s'] end; cbn [fst] in *;
      (destruct IH as [I1 I2]; [auto|]; split; [exact I1|]); try discriminate; exact I2.
Qed.
Lemma information_type ops : let '(t, _, _) := information_after ops in t = 0 /\ existsb information_kindof ops = false \/ (t = 15 \/ t = 16) /\ existsb information_kindof ops = true.
Proof.
  unfold information_after. cut (forall f, let '(t, _, _) := fold_left information_put ops f in
    t = fst (fst f) /\ existsb information_kindof ops = false \/ (t = 15 \/ t = 16) /\ existsb information_kindof ops = true).
  { intros H. apply (H (0, 0, 0)). }
  induction ops as [|o ops IH]; intros [[t i] s]; cbn [fold_left existsb].
  - left. split; reflexivity.
  - destruct o; cbn [information_put information_kindof orb]; [specialize (IH (15, i, s))|specialize (IH (16, i, s))|specialize (IH (t, v, s))|specialize (IH (t, i, v))];
      match type of IH with let '(_, _) := ?x in _ => destruct x as [[t' i'] s'] end; cbn [fst] in *;
      try exact IH; right; (split; [|reflexivity]); destruct IH as [[-> _]|[H _]]; auto.
Qed.
Lemma timestamp_type ops : let '(t, _, _, _, _, _) := timestamp_after ops in t = 0 /\ existsb timestamp_kindof ops = false \/ (t = 13 \/ t = 14) /\ existsb timestamp_kindof ops = true.
Proof.
  unfold timestamp_after. cut (forall f : N * N * N * N * N * N, let '(t0, _, _, _, _, _) := f in let '(t, _, _, _, _, _) := fold_left timestamp_put ops f in
    t = t0 /\ existsb timestamp_kindof ops = false \/ (t = 13 \/ t = 14) /\ existsb timestamp_kindof ops = true).
  { intros H. apply (H (0, 0, 0, 0, 0, 0)). }
  induction ops as [|o ops IH]; intros [[[[[t i] s] x] y] z]; cbn [fold_left existsb].
  - left. split; reflexivity.
  - destruct o; cbn [timestamp_put timestamp_kindof orb];
      [specialize (IH (13, i, s, x, y, z))|specialize (IH (14, i, s, x, y, z))|specialize (IH (t, v, s, x, y, z))|specialize (IH (t, i, v, x, y, z))
      |specialize (IH (t, i, s, v, y, z))|specialize (IH (t, i, s, x, v, z))|specialize (IH (t, i, s, x, y, v))];
      cbv beta iota in IH; match type of IH with let '(_, _) := ?x in _ => destruct x as [[[[[t' i'] s'] x'] y'] z'] end;
      try exact IH; right; (split; [|reflexivity]); destruct IH as [[-> _]|[H _]]; auto.
Qed.
Lemma unsummed_ok t : u8 t -> icmp_fields_ok (unsummed t).
Proof. intros H. repeat split; [exact H|reflexivity..]. Qed.
(** C48: echo: a reply until [request] is called; the checksum is still zero.
    Before [request] or [reply], as_packet succeeds although build is refused. *)
Lemma c48_echo : forall E outer ops p buf, outer_ok outer -> Forall echo_op_ok ops -> one_payload (echo_payloads ops) p ->
  fresh_buffer buf (outer_bytes outer + 8) p ->
  let '(t, i, s) := echo_after ops in
  let b := ident_wire (unsummed t) i s ++ p in
  (let* x := echo_builder E outer ops buf in builder_as_packet E echo_new x) = Ok b /\
  echo_identifier b = Ok i /\ echo_sequence b = Ok s /\ echo_payload b = Ok p /\ icmp_checksum b = Ok 0 /\
  echo_is_request b = Ok (t =? 8) /\ echo_is_reply b = Ok (t =? 0) /\
  (~ echo_kind_given ops -> t = 0 /\ echo_chain E outer ops buf = Err InvalidPacket).
Proof.
  intros E outer ops p buf Ho Hops Hp Hb. destruct (fresh_buffer_mk _ _ _ Hb) as (r & -> & Hs & Hf & Hr & Hl). rewrite outer_bytes_size in *.
  destruct (echo_state E outer ops p r Ho Hops Hp Hs Hf Hr Hl) as (r' & a & fs & k & pl & -> & Hz). cbn [bind]. rewrite as_packet_B by exact Hz.
  pose proof (echo_chain_gen E outer ops p r [] [] Ho Hops Hp Hs Hf Hr ltac:(rewrite len_nil; lia)) as G.
  pose proof (echo_type ops) as T. pose proof (echo_after_ok ops Hops) as R. destruct (echo_after ops) as [[t i] s]. destruct T as [T1 T2]. destruct R as (R1 & R2 & R3).
  cbv zeta in G |- *. change (ident_of (t, i, s)) with (ident_wire (unsummed t) i s).
  pose proof (c09_echo (unsummed t) i s p (unsummed_ok t R1) T1) as Q. cbv zeta in Q. destruct Q as (Q1 & Q2 & Q3 & Q4 & Q5 & Q6).
  do 4 (split; [assumption|]).
  split; [unfold icmp_checksum; rewrite get16 by (rewrite len_app; change (len (ident_wire _ _ _)) with 8; lia); reflexivity|]. split; [exact Q4|]. split; [exact Q5|].
  intros Hk. rewrite echo_kind_iff in Hk. apply Bool.not_true_is_false in Hk. rewrite Hk in G. split; [apply T2, Hk|exact G].
Qed.
(** C48: information and timestamp: refused until [request] or [reply] is called. *)
Lemma c48_information : forall E outer ops buf, outer_ok outer -> Forall information_op_ok ops ->
  fresh_buffer buf (outer_bytes outer + 8) [] ->
  let '(t, i, s) := information_after ops in
  let b := ident_wire (unsummed t) i s in
  let r := (let* x := information_builder E outer ops buf in builder_as_packet E information_new x) in
  (information_kind_given ops -> r = Ok b /\ information_identifier b = Ok i /\ information_sequence b = Ok s /\
     icmp_checksum b = Ok 0 /\ information_is_request b = Ok (t =? 15) /\ information_is_reply b = Ok (t =? 16)) /\
  (~ information_kind_given ops -> r = Err InvalidPacket).
Proof.
  intros E outer ops buf Ho Hops Hb. destruct (fresh_buffer_mk _ _ _ Hb) as (r & -> & Hs & Hf & Hr & Hl). rewrite outer_bytes_size in *. rewrite len_nil in Hl.
  destruct (information_state E outer ops r Ho Hops Hs Hf ltac:(lia)) as (r' & a & fs & k & pl & -> & Hz). cbn [bind]. rewrite as_packet_B by exact Hz.
  pose proof (information_type ops) as T. pose proof (information_after_ok ops Hops) as R. destruct (information_after ops) as [[t i] s].
  destruct R as (R1 & R2 & R3). cbv zeta. change (ident_of (t, i, s)) with (ident_wire (unsummed t) i s). rewrite information_kind_iff.
  destruct T as [[-> Hk]|[T Hk]]; rewrite Hk.
  - split; [discriminate|]. intros _. reflexivity.
  - split; [|congruence]. intros _. pose proof (c09_information (unsummed t) i s [] (unsummed_ok t R1) T) as Q. cbv zeta in Q. rewrite app_nil_r in Q.
    destruct Q as (Q1 & Q2 & Q3 & Q4 & Q5). do 3 (split; [assumption|]). split; [reflexivity|]. split; assumption.
Qed.
Lemma c48_timestamp : forall E outer ops buf, outer_ok outer -> Forall timestamp_op_ok ops ->
  fresh_buffer buf (outer_bytes outer + 20) [] ->
  let '(t, i, s, x, y, z) := timestamp_after ops in
  let b := timestamp_wire (unsummed t) i s x y z in
  let r := (let* x := timestamp_builder E outer ops buf in builder_as_packet E timestamp_new x) in
  (timestamp_kind_given ops -> r = Ok b /\ timestamp_identifier b = Ok i /\ timestamp_sequence b = Ok s /\
     timestamp_originate b = Ok x /\ timestamp_receive b = Ok y /\ timestamp_transmit b = Ok z /\
     icmp_checksum b = Ok 0 /\ timestamp_is_request b = Ok (t =? 13) /\ timestamp_is_reply b = Ok (t =? 14)) /\
  (~ timestamp_kind_given ops -> r = Err InvalidPacket).
Proof.
  intros E outer ops buf Ho Hops Hb. destruct (fresh_buffer_mk _ _ _ Hb) as (r & -> & Hs & Hf & Hr & Hl). rewrite outer_bytes_size in *. rewrite len_nil in Hl.
  destruct (timestamp_state E outer ops r Ho Hops Hs Hf ltac:(lia)) as (r' & a & fs & k & pl & -> & Hz). cbn [bind]. rewrite as_packet_B by exact Hz.
  pose proof (timestamp_type ops) as T. pose proof (timestamp_after_ok ops Hops) as R. destruct (timestamp_after ops) as [[[[[t i] s] x] y] z].
  destruct R as (R1 & R2 & R3 & R4 & R5 & R6). cbv zeta. change (timestamp_of (t, i, s, x, y, z)) with (timestamp_wire (unsummed t) i s x y z). rewrite timestamp_kind_iff.
  destruct T as [[-> Hk]|[T Hk]]; rewrite Hk.
  - split; [discriminate|]. intros _. reflexivity.
  - split; [|congruence]. intros _. pose proof (c09_timestamp (unsummed t) i s x y z [] (unsummed_ok t R1) T) as Q. cbv zeta in Q. rewrite app_nil_r in Q.
    destruct Q as (Q1 & Q2 & Q3 & Q4 & Q5 & Q6 & Q7 & Q8). do 6 (split; [assumption|]). split; [reflexivity|]. split; assumption.
Qed.
(** The generic builders: as_packet of a UDP builder inside IPv4 inside Ethernet on
    a slice, and of a TCP builder before and after [flags]. *)
Example c48_example : forall E,
  (let* x := udp_builder E (Some [EtherProtocol ET_Arp]) [V4SetTtl 9] [UdpSet (UdpSetSource 1337); UdpSet (UdpSetDestination 53)] (slice_new (repeat 7 60%nat)) in
   builder_as_packet E udp_new x) = Ok [5; 57; 0; 53; 0; 0; 0; 0] /\
  fresh_buffer (slice_new (repeat 7 60%nat)) (eth_bytes (Some [EtherProtocol ET_Arp]) + 28) [] /\
  (let* x := tcp_builder E None [] [TcpSet (TcpSetWindow 2); TcpPayload [9]] dynamic_new in
   let* b := builder_as_packet E tcp_new x in tcp_payload b) = Ok [9] /\
  (let* x := tcp_builder E None [] [TcpSet (TcpSetFlags 2); TcpPayload [9]] dynamic_new in
   let* b := builder_as_packet E tcp_new x in tcp_payload b) =
   Ok [0; 0; 0; 0; 0; 0; 0; 0; 0; 0; 0; 0; 0; 2; 0; 0; 0; 0; 0; 0; 9] /\
  flags_called [TcpSet (TcpSetFlags 2); TcpPayload [9]] = true /\ flags_last (tcp_setters [TcpSet (TcpSetFlags 2); TcpPayload [9]]).
Proof.
  intros E. split; [destruct E as [[] [] []]; vm_compute; reflexivity|]. split; [constructor; destruct E as [[] [] []]; vm_compute; discriminate|].
  split; [destruct E as [[] [] []]; vm_compute; reflexivity|]. split; [destruct E as [[] [] []]; vm_compute; reflexivity|].
  split; [reflexivity|constructor].
Qed.
