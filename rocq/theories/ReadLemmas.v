(** * ReadLemmas: built packets read back; the last value set. *)
From Verif Require Import Base Enums Buffer Ether Ipv4 Ip Udp Tcp Icmp Builders Spec SpecCalls SpecBuild
  Lemmas ParseProofs SliceProofs AccessProofs FieldProofs ChecksumLemmas ChecksumProofs GuardProofs BufferProofs BuildLemmas FinalLemmas ChainLemmas.
From Coq Require Import ZifyBool ZifyNat ZifyN.
Ltac Zify.zify_post_hook ::= Z.div_mod_to_equations.

Lemma last_set_nil {A V} (sel : A -> option V) d : last_set sel [] d = d. Proof. reflexivity. Qed.
Lemma last_set_snoc {A V} (sel : A -> option V) ops o d :
  last_set sel (ops ++ [o]) d = match sel o with Some v => v | None => last_set sel ops d end.
Proof.
  unfold last_set. rewrite rev_app_distr. cbn [rev app filter]. destruct (sel o) eqn:S; [|reflexivity]. rewrite S. reflexivity.
Qed.
Ltac by_last ops := induction ops as [|?o ops ?IH] using rev_ind; [reflexivity|rewrite last_set_snoc].

Lemma ether_after_last eops :
  ef_dst (ether_after eops) = last_set sel_eth_dst eops mac_zero /\ ef_src (ether_after eops) = last_set sel_eth_src eops mac_zero.
Proof.
  unfold ether_after. split; (by_last eops; rewrite fold_left_app; destruct o; cbn [fold_left ether_put ef_dst ef_src]; first [reflexivity|exact IH]).
Qed.
Lemma ether_after_type eops d : 0 = ether_protocol_into d ->
  ef_type (ether_after eops) = ether_protocol_into (last_set sel_eth_type eops d).
Proof.
  intros Hd. unfold ether_after. induction eops as [|o eops IH] using rev_ind; [exact Hd|]. rewrite last_set_snoc, fold_left_app.
  destruct o; cbn [fold_left ether_put ef_type]; first [reflexivity|exact IH].
Qed.
Lemma ether_after_ok eops : Forall ether_op_ok eops -> ether_fields_ok (ether_after eops).
Proof.
  unfold ether_after. assert (Hz : ether_fields_ok ether_zero) by (repeat split; repeat constructor). unfold ether_zero in Hz.
  revert Hz. generalize {| ef_dst := mac_zero; ef_src := mac_zero; ef_type := 0 |}. intros f Hf H. revert f Hf.
  induction H as [|o ops Ho H IH]; intros f Hf; [exact Hf|]. cbn [fold_left]. apply IH.
  destruct Hf as (F1 & F2 & F3). destruct o; cbn in *; repeat split; assumption.
Qed.
(** IPv4: setters that set what they say *)
Lemma v4_after_last vs : Forall v4_faithful vs -> let f := v4_after vs in
  vf_dscp f = last_set sel_dscp vs 0 /\ vf_ecn f = 0 /\ vf_id f = last_set sel_id vs 0 /\
  vf_reserved f = false /\ vf_df f = false /\ vf_mf f = false /\ vf_frag f = 0 /\
  vf_ttl f = last_set sel_ttl vs 0 /\ vf_src f = last_set sel_v4_src vs addr_zero /\ vf_dst f = last_set sel_v4_dst vs addr_zero.
Proof.
  cbv zeta. unfold v4_after. induction vs as [|s vs IH] using rev_ind; [repeat split|].
  intros H. apply Forall_app in H. destruct H as [H1 H2]. inversion_clear H2 as [|? ? H3 _]. specialize (IH H1).
  rewrite fold_left_app. cbn [fold_left]. rewrite !last_set_snoc. destruct (fold_left v4_put vs v4_zero) as [ver ihl dscp ecn tot id rs d m frag ttl pr ck src dst].
  cbn [vf_dscp vf_ecn vf_id vf_reserved vf_df vf_mf vf_frag vf_ttl vf_src vf_dst] in IH.
  destruct IH as (I1 & I2 & I3 & I4 & I5 & I6 & I7 & I8 & I9 & I10).
  destruct s; try (contradiction H3); cbn [v4_put vf_dscp vf_ecn vf_id vf_reserved vf_df vf_mf vf_frag vf_ttl vf_src vf_dst sel_dscp sel_id sel_ttl sel_v4_src sel_v4_dst];
    repeat split; assumption.
Qed.
Lemma v4_after_proto vs d : 0 = ip_protocol_into d -> vf_proto (v4_after vs) = ip_protocol_into (last_set sel_v4_proto vs d).
Proof.
  intros Hd. unfold v4_after. induction vs as [|s vs IH] using rev_ind; [exact Hd|]. rewrite last_set_snoc, fold_left_app. cbn [fold_left].
  destruct (fold_left v4_put vs v4_zero) as [ver ihl dscp ecn tot id rs dd m frag ttl pr ck src dst]. cbn [vf_proto] in IH.
  destruct s; cbn [v4_put vf_proto sel_v4_proto]; first [reflexivity|exact IH].
Qed.
Lemma udp_after_last us :
  uf_src (udp_after us) = last_set sel_udp_src us 0 /\ uf_dst (udp_after us) = last_set sel_udp_dst us 0.
Proof.
  unfold udp_after. rewrite <- udp_fold.
  split; (by_last us; rewrite fold_left_app; destruct o as [[]|]; cbn [fold_left udp_putop udp_put uf_src uf_dst]; first [reflexivity|exact IH]).
Qed.
Definition tcp_keep (f : tcp_fields) (o : tcp_op) : tcp_fields := match o with TcpSet s => tcp_put f s | TcpPayload _ => f end.
Lemma tcp_keep_fold ops f : fold_left tcp_keep ops f = fold_left tcp_put (tcp_setters ops) f.
Proof.
  revert f. induction ops as [|o ops IH]; intros f; [reflexivity|]. destruct o as [s|p]; cbn [fold_left tcp_keep tcp_setters flat_map app]; apply IH.
Qed.
Lemma tcp_after_last ts : let f := tcp_after ts in
  tf_src f = last_set sel_tcp_src ts 0 /\ tf_dst f = last_set sel_tcp_dst ts 0 /\ tf_seq f = last_set sel_tcp_seq ts 0 /\
  tf_ack f = last_set sel_tcp_ack ts 0 /\ tf_flags f = last_set sel_tcp_flags ts 0 /\
  tf_window f = last_set sel_tcp_window ts 0 /\ tf_pointer f = last_set sel_tcp_pointer ts 0.
Proof.
  cbv zeta. unfold tcp_after. rewrite <- tcp_keep_fold. induction ts as [|o ts IH] using rev_ind; [repeat split|].
  rewrite !last_set_snoc, fold_left_app. cbn [fold_left].
  destruct (fold_left tcp_keep ts _) as [src dst seq ack off res fl win ck ptr].
  cbn [tf_src tf_dst tf_seq tf_ack tf_flags tf_window tf_pointer] in IH. destruct IH as (I1 & I2 & I3 & I4 & I5 & I6 & I7).
  destruct o as [[]|]; cbn [tcp_keep tcp_put tf_src tf_dst tf_seq tf_ack tf_flags tf_window tf_pointer sel_tcp_src sel_tcp_dst sel_tcp_seq sel_tcp_ack sel_tcp_flags sel_tcp_window sel_tcp_pointer];
    repeat split; assumption.
Qed.
Lemma echo_after_last ops : echo_kind_given ops ->
  echo_after ops = (if last_set sel_echo_kind ops false then 8 else 0, last_set sel_echo_id ops 0, last_set sel_echo_seq ops 0).
Proof.
  intros _. unfold echo_after. induction ops as [|o ops IH] using rev_ind; [reflexivity|].
  rewrite fold_left_app, IH, !last_set_snoc. destruct o; reflexivity.
Qed.
Lemma information_after_last ops : information_kind_given ops ->
  information_after ops = (if last_set sel_info_kind ops false then 15 else 16, last_set sel_info_id ops 0, last_set sel_info_seq ops 0).
Proof.
  unfold information_after. intros Hk.
  assert (G : forall ops, fold_left information_put ops (0, 0, 0) =
    ((if existsb information_kindof ops then if last_set sel_info_kind ops false then 15 else 16 else 0), last_set sel_info_id ops 0, last_set sel_info_seq ops 0)).
  { clear. intros ops. induction ops as [|o ops IH] using rev_ind; [reflexivity|].
    rewrite fold_left_app, IH, !last_set_snoc, existsb_app. destruct o; cbn [fold_left information_put sel_info_kind sel_info_id sel_info_seq existsb information_kindof orb];
      rewrite ?orb_true_r, ?orb_false_r; reflexivity. }
  rewrite G. apply information_kind_iff in Hk. rewrite Hk. reflexivity.
Qed.
Lemma timestamp_after_last ops : timestamp_kind_given ops ->
  timestamp_after ops = (if last_set sel_ts_kind ops false then 13 else 14, last_set sel_ts_id ops 0, last_set sel_ts_seq ops 0,
    last_set sel_ts_orig ops 0, last_set sel_ts_recv ops 0, last_set sel_ts_tran ops 0).
Proof.
  unfold timestamp_after. intros Hk.
  assert (G : forall ops, fold_left timestamp_put ops (0, 0, 0, 0, 0, 0) =
    ((if existsb timestamp_kindof ops then if last_set sel_ts_kind ops false then 13 else 14 else 0), last_set sel_ts_id ops 0, last_set sel_ts_seq ops 0,
     last_set sel_ts_orig ops 0, last_set sel_ts_recv ops 0, last_set sel_ts_tran ops 0)).
  { clear. intros ops. induction ops as [|o ops IH] using rev_ind; [reflexivity|].
    rewrite fold_left_app, IH, !last_set_snoc, existsb_app.
    destruct o; cbn [fold_left timestamp_put sel_ts_kind sel_ts_id sel_ts_seq sel_ts_orig sel_ts_recv sel_ts_tran existsb timestamp_kindof orb];
      rewrite ?orb_true_r, ?orb_false_r; reflexivity. }
  rewrite G. apply timestamp_kind_iff in Hk. rewrite Hk. reflexivity.
Qed.

(** ** Reading back *)
Lemma ether_reads_ok eops t q : Forall ether_op_ok eops -> u16 t ->
  ether_reads eops (ether_protocol_from t) q (ether_wire (ether_set_type (ether_after eops) t) ++ q).
Proof.
  intros H Ht. destruct (ether_after_ok eops H) as (F1 & F2 & F3). destruct (ether_after_last eops) as [L1 L2].
  pose proof (c09_ether (ether_set_type (ether_after eops) t) q ltac:(repeat split; assumption)) as R. cbv zeta in R.
  destruct R as (R1 & R2 & R3 & R4 & R5). cbn [ether_set_type ef_dst ef_src ef_type] in *. rewrite L1 in R2. rewrite L2 in R3. repeat split; assumption.
Qed.
Lemma v4_fill_ok f t pr ck : v4_fields_ok f -> u16 t -> u8 pr -> u16 ck -> v4_fields_ok (v4_fill f t pr ck).
Proof.
  intros Hf H1 H2 H3. destruct f as [ver ihl dscp ecn tot id rs d m frag ttl pr0 ck0 src dst].
  destruct Hf as (F1 & F2 & F3 & F4 & F5 & F6 & F7 & F8 & F9 & F10 & F11 & F12).
  cbn [vf_version vf_ihl vf_dscp vf_ecn vf_total vf_id vf_reserved vf_df vf_mf vf_frag vf_ttl vf_proto vf_checksum vf_src vf_dst] in *.
  unfold v4_fill, v4_fields_ok.
  cbn [vf_version vf_ihl vf_dscp vf_ecn vf_total vf_id vf_reserved vf_df vf_mf vf_frag vf_ttl vf_proto vf_checksum vf_src vf_dst].
  repeat split; assumption.
Qed.
Lemma v4_fill_zero f t pr ck : zero_field 10 (v4_wire (v4_fill f t pr ck)) = v4_wire (v4_fill f t pr 0).
Proof.
  rewrite zero_field_patch by (rewrite len_v4_wire; lia). destruct f as [ver ihl dscp ecn tot id rs d m frag ttl pr0 ck0 [] []]. reflexivity.
Qed.
Lemma v4_fill_sum f t pr : v4_building f -> word_sum (v4_wire (v4_fill f t pr 0)) <> 0.
Proof.
  intros (_ & Hv & Hi). assert (0 < word_sum (v4_wire (v4_fill f t pr 0))); [|lia].
  apply word_sum_nth0; [rewrite len_v4_wire; lia|].
  destruct f as [ver ihl dscp ecn tot id rs d m frag ttl pr0 ck0 [] []]. cbn in Hv, Hi. subst. cbn [v4_fill]. vm_compute. reflexivity.
Qed.
Lemma v4_reads_ok E vs proto q : Forall v4_arg_ok vs -> Forall v4_faithful vs -> u8 proto -> is_bytes q -> 20 + len q <= 65535 ->
  v4_reads E vs (ip_protocol_from proto) q (v4_wire (v4_finished (v4_after vs) proto (len q)) ++ q).
Proof.
  intros Hv Hf Hp Hq Hl. pose proof (v4_after_building vs Hv) as Hb. pose proof (v4_after_last vs Hf) as La. cbv zeta in La.
  set (f := v4_after vs) in *. unfold v4_finished. replace ((20 + len q) mod 65536) with (20 + len q) by lia.
  set (ck := inet_checksum (v4_wire (v4_fill f (20 + len q) proto 0))).
  assert (Hck : u16 ck) by (apply inet_lt). set (g := v4_fill f (20 + len q) proto ck).
  assert (Hg : v4_fields_ok g) by (apply v4_fill_ok; try assumption; [apply Hb|unfold u16; lia]).
  assert (Gv : vf_version g = 4 /\ vf_ihl g = 5 /\ vf_total g = 20 + len q /\ vf_proto g = proto /\ vf_checksum g = ck /\
    vf_dscp g = vf_dscp f /\ vf_ecn g = vf_ecn f /\ vf_id g = vf_id f /\ vf_reserved g = vf_reserved f /\ vf_df g = vf_df f /\
    vf_mf g = vf_mf f /\ vf_frag g = vf_frag f /\ vf_ttl g = vf_ttl f /\ vf_src g = vf_src f /\ vf_dst g = vf_dst f).
  { destruct Hb as (_ & Hb1 & Hb2). unfold g. clearbody f ck. destruct f. cbn in Hb1, Hb2 |- *. subst. repeat split. }
  assert (Hz : zero_field 10 (v4_wire g) = v4_wire (v4_fill f (20 + len q) proto 0)) by (apply v4_fill_zero).
  assert (Hw : word_sum (v4_wire (v4_fill f (20 + len q) proto 0)) <> 0) by (apply v4_fill_sum, Hb).
  clearbody g. destruct Gv as (G1 & G2 & G3 & G4 & G5 & G6 & G7 & G8 & G9 & G10 & G11 & G12 & G13 & G14 & G15).
  destruct La as (L1 & L2 & L3 & L4 & L5 & L6 & L7 & L8 & L9 & L10).
  pose proof (c09_v4 g q Hg G1 ltac:(rewrite G2; lia)) as R. cbv zeta in R.
  rewrite G2, G3, G4, G5, G6, G7, G8, G9, G10, G11, G12, G13, G14, G15, L1, L2, L3, L4, L5, L6, L7, L8, L9, L10 in R.
  destruct R as (R1 & R2 & R3 & R4 & R5 & R6 & R7 & R8 & R9 & R10 & R11 & R12 & R13 & R14).
  pose proof (c09_v4_parts g [] q [] Hg G1 ltac:(rewrite G2; reflexivity) ltac:(rewrite G3, len_nil; lia)) as P. cbv zeta in P.
  rewrite !app_nil_l, !app_nil_r in P. destruct P as (P1 & P2 & P3 & P4 & P5).
  assert (Hbytes : is_bytes (v4_wire g ++ q)) by (apply is_bytes_app; split; [apply is_bytes_v4_wire, Hg|exact Hq]).
  assert (H0 : nthN (v4_wire g ++ q) 0 mod 16 = 5).
  { rewrite nthN_app1 by (rewrite len_v4_wire; lia). destruct g. cbn in G1, G2. subst. reflexivity. }
  assert (Hval : v4_is_valid E (v4_wire g ++ q) = Ok true).
  { rewrite c20_v4_is_valid; [|exact Hbytes|exact R1|lia]. rewrite H0. rewrite takeN_app1 by (rewrite len_v4_wire; lia).
    rewrite takeN_all by (rewrite len_v4_wire; lia). rewrite Hz. fold ck.
    unfold v4_checksum in R12. rewrite get16 in R12 by (rewrite len_app, len_v4_wire; lia). apply Ok_inj in R12. rewrite R12, N.eqb_refl. reflexivity. }
  assert (Hrec : receiver_accepts (takeN 20 (v4_wire g ++ q))).
  { pose proof (c20_v4_is_valid_receiver E (v4_wire g ++ q) Hbytes R1 ltac:(lia)) as V. rewrite H0 in V. apply V. exact Hval. }
  repeat split; assumption.
Qed.
Lemma udp_finished_ok src dst g p : udp_fields_ok g -> udp_fields_ok (udp_finished src dst g p).
Proof.
  intros (G1 & G2 & G3 & G4). unfold udp_finished, udp_fields_ok. cbn [udp_fill uf_src uf_dst uf_length uf_checksum].
  split; [exact G1|]. split; [exact G2|]. split; [unfold u16; lia|apply inet_lt].
Qed.
Lemma udp_reads_ok E us p ip : Forall udp_op_ok us -> is_bytes p -> is_bytes ip -> 20 <= len ip -> 8 + len p <= 65535 ->
  len p mod 2 = 0 \/ cursor_eof E = EofKeep ->
  udp_reads E us p ip (udp_wire (udp_finished (wire_addr ip 12) (wire_addr ip 16) (udp_after us) p) ++ p).
Proof.
  intros Hu Hp Hip Hl20 Hl Hc. pose proof (udp_after_ok us Hu) as Hg. destruct (udp_after_last us) as [L1 L2].
  set (g := udp_after us) in *. set (src := wire_addr ip 12). set (dst := wire_addr ip 16).
  pose proof (udp_finished_ok src dst g p Hg) as Hok. set (h := udp_finished src dst g p) in *.
  assert (Hh : uf_src h = uf_src g /\ uf_dst h = uf_dst g /\ uf_length h = 8 + len p).
  { unfold h, udp_finished. cbn [udp_fill uf_src uf_dst uf_length]. repeat split. apply N.mod_small. lia. }
  destruct Hh as (H1 & H2 & H3).
  pose proof (c09_udp h p [] Hok H3) as R. cbv zeta in R. rewrite app_nil_r in R. rewrite H1, H2, H3, L1, L2 in R.
  destruct R as (R1 & R2 & R3 & R4 & R5 & R6 & R7).
  assert (Hb : is_bytes (udp_wire h ++ p)) by (apply is_bytes_app; split; [apply is_bytes_udp_wire, Hok|exact Hp]).
  assert (Hlen : len (udp_wire h ++ p) = 8 + len p) by (rewrite len_app, len_udp_wire; reflexivity).
  assert (Hv : udp_is_valid E (V4 ip) (udp_wire h ++ p) = Ok true).
  { rewrite c21_udp_is_valid; try assumption; try lia.
    2: { rewrite Hlen. destruct Hc as [Hc|Hc]; [left; lia|right; exact Hc]. }
    unfold udp_checksum in R5. rewrite get16 in R5 by lia. apply Ok_inj in R5. rewrite R5. fold src dst.
    unfold h at 1. unfold udp_finished at 1. rewrite udp_fill_zero.
    assert (E1 : uf_checksum h = inet_checksum (with_pseudo_header src dst 17 (udp_wire (udp_fill g ((8 + len p) mod 65536) 0) ++ p))) by reflexivity.
    rewrite E1, N.eqb_refl. reflexivity. }
  repeat split; assumption.
Qed.
Lemma tcp_reads_ok E ts p ip : tcp_fields_ok (tcp_after ts) -> is_bytes p -> is_bytes ip -> 20 <= len ip -> 20 + len p <= 131065 ->
  len p mod 2 = 0 \/ cursor_eof E = EofKeep ->
  tcp_reads E ts p ip (tcp_wire (tcp_finished (wire_addr ip 12) (wire_addr ip 16) (tcp_after ts) p) ++ p).
Proof.
  intros Hg Hp Hip Hl20 Hl Hc. pose proof (tcp_after_last ts) as La. cbv zeta in La. destruct La as (L1 & L2 & L3 & L4 & L5 & L6 & L7).
  set (g := tcp_after ts) in *. set (src := wire_addr ip 12). set (dst := wire_addr ip 16).
  unfold tcp_finished. set (ck := inet_checksum _). set (h := tcp_fill g 5 ck).
  assert (Hok : tcp_fields_ok h) by (apply tcp_fill_offset; [exact Hg|lia|apply inet_lt]).
  assert (Hh : tf_src h = tf_src g /\ tf_dst h = tf_dst g /\ tf_seq h = tf_seq g /\ tf_ack h = tf_ack g /\ tf_offset h = 5 /\
    tf_flags h = tf_flags g /\ tf_window h = tf_window g /\ tf_pointer h = tf_pointer g /\ tf_checksum h = ck).
  { unfold h. clearbody g ck. destruct g. repeat split. }
  assert (Hz : zero_field 16 (tcp_wire h ++ p) = tcp_wire (tcp_fill g 5 0) ++ p) by (apply tcp_fill_zero).
  clearbody h. destruct Hh as (H1 & H2 & H3 & H4 & H5 & H6 & H7 & H8 & H9).
  pose proof (c09_tcp h [] p Hok ltac:(rewrite H5; reflexivity)) as R. cbv zeta in R. rewrite app_nil_l in R.
  rewrite H1, H2, H3, H4, H5, H6, H7, H8, H9, L1, L2, L3, L4, L5, L6, L7 in R.
  destruct R as (R1 & R2 & R3 & R4 & R5 & R6 & R7 & R8 & R9 & R10 & R11 & R12 & R13).
  assert (Hb : is_bytes (tcp_wire h ++ p)) by (apply is_bytes_app; split; [apply is_bytes_tcp_wire, Hok|exact Hp]).
  assert (Hlen : len (tcp_wire h ++ p) = 20 + len p) by (rewrite len_app, len_tcp_wire; reflexivity).
  assert (Hv : tcp_is_valid E (V4 ip) (tcp_wire h ++ p) = Ok true).
  { rewrite c22_tcp_is_valid; try assumption; try lia.
    2: { rewrite Hlen. destruct Hc as [Hc|Hc]; [left; lia|right; exact Hc]. }
    unfold tcp_checksum in R9. rewrite get16 in R9 by lia. apply Ok_inj in R9. rewrite R9. fold src dst. rewrite Hz. fold ck. rewrite N.eqb_refl. reflexivity. }
  repeat split; assumption.
Qed.
