(** * OrderProofs: C56 (order of setter calls). *)
From Verif Require Import Base Enums Ether Ipv4 Ip Udp Tcp Icmp Spec SpecCalls Mutable SpecMut SpecEdit SpecOrder.
From Verif Require Import Lemmas ParseProofs SliceProofs AccessProofs FieldProofs ChecksumLemmas ChecksumProofs GuardProofs MutableProofs EditProofs.
From Coq Require Import ZifyBool ZifyNat ZifyN.
Ltac Zify.zify_post_hook ::= Z.div_mod_to_equations.

(** Two writes to disjoint ranges commute. *)
Lemma patch_comm o1 b1 o2 b2 c : o1 + len b1 <= len c -> o2 + len b2 <= len c ->
  o1 + len b1 <= o2 \/ o2 + len b2 <= o1 ->
  patch o1 b1 (patch o2 b2 c) = patch o2 b2 (patch o1 b1 c).
Proof.
  intros H1 H2 Hd.
  assert (L1 : len (patch o1 b1 c) = len c) by (apply len_patch; exact H1).
  assert (L2 : len (patch o2 b2 c) = len c) by (apply len_patch; exact H2).
  apply nthN_ext; [rewrite !len_patch; lia|]. intros i Hi.
  assert (C1 : o1 <= i < o1 + len b1 \/ (i < o1 \/ o1 + len b1 <= i)) by lia.
  assert (C2 : o2 <= i < o2 + len b2 \/ (i < o2 \/ o2 + len b2 <= i)) by lia.
  destruct C1 as [C1|C1], C2 as [C2|C2]; try lia;
    repeat (first [rewrite nthN_patch_out by lia | rewrite nthN_patch_in by lia]); reflexivity.
Qed.
(** Calls that write different fields write disjoint ranges, and what one writes
    does not depend on the other's. *)
Definition apart {A} (ok : A -> Prop) (I : bytes -> Prop) (w : A -> bytes -> N * bytes) (field : A -> N) : Prop :=
  forall o p c, ok o -> ok p -> I c -> field o <> field p ->
    w o (patch (fst (w p c)) (snd (w p c)) c) = w o c /\
    (fst (w o c) + len (snd (w o c)) <= fst (w p c) \/ fst (w p c) + len (snd (w p c)) <= fst (w o c)).
Lemma swap_ok {A} (apply : A -> mut) ok I w field : steps apply ok I w -> apart ok I w field ->
  forall ops ops', Permutation ops ops' -> forall b, Forall ok ops -> each_once field ops -> I b ->
  all_ok apply ops b = all_ok apply ops' b.
Proof.
  intros S D ops ops' P. induction P as [|o l l' P IH|o p l|l l' l'' P1 IH1 P2 IH2]; intros b Hok Hn Hb.
  - reflexivity.
  - inversion Hok; subst. unfold each_once in Hn. cbn [map] in Hn. inversion Hn; subst. cbn [all_ok].
    destruct (S o b ltac:(assumption) Hb) as (H1' & H2' & H3'). rewrite H1'. apply IH; assumption.
  - inversion Hok as [|? ? Hp Hok']; subst. inversion Hok' as [|? ? Ho _]; subst.
    unfold each_once in Hn. cbn [map] in Hn. inversion Hn as [|? ? Hne _]; subst.
    assert (Hne' : field o <> field p) by (intros E; apply Hne; left; congruence).
    destruct (S o b Ho Hb) as (A1 & A2 & A3). destruct (S p b Hp Hb) as (B1 & B2 & B3).
    destruct (D o p b Ho Hp Hb Hne') as (E1 & F1). destruct (D p o b Hp Ho Hb (not_eq_sym Hne')) as (E2 & F2).
    destruct (S p _ Hp A3) as (A4 & A5 & A6). destruct (S o _ Ho B3) as (B4 & B5 & B6).
    cbn [all_ok]. rewrite A1, A4, B1, B4, E1, E2. f_equal. apply patch_comm; assumption || tauto.
  - rewrite IH1 by assumption. apply IH2; [eapply Permutation_Forall; eassumption| |exact Hb].
    unfold each_once in *. eapply Permutation_NoDup; [apply Permutation_map; exact P1|exact Hn].
Qed.
Ltac apart_tac := split; [first [reflexivity|unfold hw_octets, octets, enc16, enc32; rewrite !nthN_patch_out by (cbn; lia); reflexivity]
                         |unfold hw_octets, octets, enc16, enc32; cbn [len length List.length]; cbn; lia].

(** ** C56: order *)
(** C56: Ethernet. *)
Lemma c56_ether_order : forall ops ops' b, ether_new b = Ok b -> each_once ether_field ops -> Permutation ops ops' ->
  all_ok ether_apply ops b = all_ok ether_apply ops' b.
Proof.
  intros ops ops' b Hn He P. apply ether_new_len in Hn. set (I := fun c : bytes => 14 <= len c).
  assert (S : steps ether_apply (fun _ => True) I ether_w).
  { intros o c _ H1. unfold I in H1.
    assert (X : forall off bs, off + len bs <= 14 -> off + len bs <= len c /\ I (patch off bs c)).
    { intros off bs Hx. split; [lia|]. unfold I. rewrite len_patch; lia. }
    destruct o; cbn [ether_apply ether_w fst snd];
      (split; [first [apply copy_range_ok; [reflexivity|lia]|apply write_u16_ok; lia]|apply X; cbn; lia]). }
  apply (swap_ok _ _ _ _ ether_field S); try assumption; try (apply Forall_forall; intros; exact Logic.I).
  intros o p c _ _ _ Hd. destruct o, p; cbn [ether_field] in Hd; try congruence; cbn [ether_w fst snd]; apart_tac.
Qed.
(** C56: UDP. *)
Lemma c56_udp_order : forall ops ops' b, udp_no_payload b = Ok b -> each_once udp_field ops -> Permutation ops ops' ->
  all_ok udp_apply ops b = all_ok udp_apply ops' b.
Proof.
  intros ops ops' b Hn He P. apply udp_no_payload_len in Hn. set (I := fun c : bytes => 8 <= len c).
  assert (S : steps udp_apply (fun _ => True) I udp_w).
  { intros o c _ H1. unfold I in H1.
    assert (X : forall off bs, off + len bs <= 4 -> off + len bs <= len c /\ I (patch off bs c)).
    { intros off bs Hx. split; [lia|]. unfold I. rewrite len_patch; lia. }
    destruct o; cbn [udp_apply udp_w fst snd]; (split; [apply udp_header_write; lia|apply X; cbn; lia]). }
  apply (swap_ok _ _ _ _ udp_field S); try assumption; try (apply Forall_forall; intros; exact Logic.I).
  intros o p c _ _ _ Hd. destruct o, p; cbn [udp_field] in Hd; try congruence; cbn [udp_w fst snd]; apart_tac.
Qed.
(** C56: TCP, without set_flags. *)
Lemma c56_tcp_order : forall ops ops' b, tcp_new b = Ok b -> 5 <= nthN b 12 / 16 ->
  Forall (fun o => ~ tcp_is_flags o) ops -> each_once tcp_field ops -> Permutation ops ops' ->
  all_ok tcp_apply ops b = all_ok tcp_apply ops' b.
Proof.
  intros ops ops' b Hn Ho HT He P. set (I := fun c => tcp_new c = Ok c /\ 20 <= len c /\ 5 <= nthN c 12 / 16).
  assert (H20 : 20 <= len b) by (apply tcp_new_iff in Hn; apply Hn).
  set (ok := fun o => ~ tcp_is_flags o).
  assert (S : steps tcp_apply ok I tcp_w).
  { intros o c Hok (H0 & H1 & H2).
    assert (X : forall off bs, off + len bs <= 12 \/ 14 <= off /\ off + len bs <= 20 ->
      off + len bs <= len c /\ I (patch off bs c)).
    { intros off bs Hx. assert (Hr : off + len bs <= len c) by lia. split; [exact Hr|].
      assert (Hl : len (patch off bs c) = len c) by (apply len_patch; exact Hr).
      assert (Y12 : nthN (patch off bs c) 12 = nthN c 12) by (apply nthN_patch_out; lia).
      split; [apply tcp_new_iff; rewrite Hl, Y12; apply tcp_new_iff in H0; split; [reflexivity|apply H0]|].
      split; [lia|]. rewrite Y12. exact H2. }
    destruct o; cbn [tcp_apply tcp_w fst snd]; try (exfalso; apply Hok; exact Logic.I);
      (split; [first [apply tcp_header_write16; [exact H0|lia]|apply tcp_header_write32; [exact H0|lia]]|apply X; cbn; lia]). }
  apply (swap_ok _ _ _ _ tcp_field S); try assumption; [|repeat split; assumption].
  intros o p c Ho1 Hp1 _ Hd. destruct o, p; cbn [tcp_field] in Hd; try congruence;
    try (exfalso; apply Ho1; exact Logic.I); try (exfalso; apply Hp1; exact Logic.I); cbn [tcp_w fst snd]; apart_tac.
Qed.
(** C56: IPv4, when no two calls write the same bytes. *)
Lemma c56_v4_order : forall ops ops' b, is_bytes b -> v4_no_payload b = Ok b -> 5 <= nthN b 0 mod 16 ->
  Forall v4_setter_ok ops -> Forall v4_in_range ops -> each_once v4_field ops -> Permutation ops ops' ->
  all_ok v4_apply ops b = all_ok v4_apply ops' b.
Proof.
  intros ops ops' b Hb Hn Hi Hok Hr He P.
  assert (HT : Forall (fun o => v4_setter_ok o /\ v4_in_range o) ops) by (apply Forall_and; assumption).
  set (ok := fun o => v4_setter_ok o /\ v4_in_range o) in *.
  set (I := fun c => 20 <= len c /\ is_bytes c /\ v4_no_payload c = Ok c /\ 5 <= nthN c 0 mod 16).
  assert (H20 : 20 <= len b) by (apply v4_no_payload_iff in Hn; apply Hn).
  assert (S : steps v4_apply ok I v4_w).
  { intros o c [Ho Hx] (Hl & Hbc & Hnc & Hic).
    assert (X : forall off bs, off = 1 /\ len bs = 1 \/ 4 <= off /\ off + len bs <= 10 \/ 12 <= off /\ off + len bs <= 20 -> is_bytes bs ->
      off + len bs <= len c /\ I (patch off bs c)).
    { intros off bs Hy Hbs. assert (Hz : off + len bs <= len c) by lia. split; [exact Hz|].
      assert (Hl' : len (patch off bs c) = len c) by (apply len_patch; exact Hz).
      assert (Y0 : nthN (patch off bs c) 0 = nthN c 0) by (apply nthN_patch_out; lia).
      split; [lia|]. split; [apply is_bytes_patch; assumption|].
      split; [apply v4_no_payload_iff; rewrite Hl', Y0; apply v4_no_payload_iff in Hnc; split; [reflexivity|apply Hnc]|].
      rewrite Y0; exact Hic. }
    destruct o; cbn [v4_apply v4_w fst snd v4_setter_ok v4_in_range] in *.
    - split; [apply v4_set_dscp_ok; assumption || lia|]. apply X; [left; split; reflexivity|].
      repeat constructor. unfold u8 in *. pose proof (is_bytes_nth c 1 Hbc). lia.
    - split; [apply v4_set_ecn_ok; assumption || lia|]. apply X; [left; split; reflexivity|].
      repeat constructor. unfold u8 in *. pose proof (lor_lt4 (nthN c 1 mod 4) v ltac:(lia) ltac:(lia)).
      set (q := N.lor _ _) in *. clearbody q. lia.
    - split; [apply write_u16_ok; lia|]. apply X; [cbn; lia|apply is_bytes_enc16; exact Ho].
    - split; [apply v4_write6; assumption || lia|]. apply X; [cbn; lia|apply is_bytes_enc16; exact Ho].
    - split; [apply v4_write6; assumption || lia|]. apply X; [cbn; lia|apply is_bytes_enc16; exact Ho].
    - split; [|apply X; [cbn; lia|repeat constructor; exact Ho]].
      apply v4_header_mut; [exact Hnc| |cbn; lia]. intros h Hh'. cbn in Hh'. apply set_index_ok. lia.
    - split; [|apply X; [cbn; lia|exact Ho]].
      apply v4_header_mut; [exact Hnc| |cbn; lia]. intros h Hh'. cbn in Hh'. apply copy_range_ok; [reflexivity|lia].
    - split; [|apply X; [cbn; lia|exact Ho]].
      apply v4_header_mut; [exact Hnc| |cbn; lia]. intros h Hh'. cbn in Hh'. apply copy_range_ok; [reflexivity|lia].
    - split; [|apply X; [cbn; lia|constructor; [exact Ho|constructor]]].
      apply v4_header_mut; [exact Hnc| |cbn; lia]. intros h Hh'. cbn in Hh'. apply set_index_ok. lia. }
  apply (swap_ok _ _ _ _ v4_field S); try assumption; [|repeat split; assumption].
  intros o p c Ho1 Hp1 (Hl & _) Hd. destruct o, p; cbn [v4_field] in Hd; try congruence; cbn [v4_w fst snd]; apart_tac.
Qed.
Lemma icmp_len_patch n c off bs : n <= len c -> off + len bs <= n -> off + len bs <= len c /\ n <= len (patch off bs c).
Proof. intros H1 H2. split; [lia|]. rewrite len_patch; lia. Qed.
Ltac icmp_order := split; [first [apply set_index_ok; lia|apply write_u16_ok; lia|apply write_u32_ok; lia]
                          |apply icmp_len_patch; [assumption|cbn; lia]].
(** C56: echo. *)
Lemma c56_echo_order : forall ops ops' b, echo_new b = Ok b -> each_once echo_field ops -> Permutation ops ops' ->
  all_ok echo_apply ops b = all_ok echo_apply ops' b.
Proof.
  intros ops ops' b Hn He P. destruct (typed_inv _ _ _ _ _ c05_echo_new Hn) as (_ & H8 & _).
  assert (S : steps echo_apply (fun _ => True) (fun c => 8 <= len c) echo_w).
  { intros o c _ Hl. destruct o; cbn [echo_apply echo_w fst snd]; icmp_order. }
  apply (swap_ok _ _ _ _ echo_field S); try assumption; try (apply Forall_forall; intros; exact Logic.I).
  intros o p c _ _ _ Hd. destruct o, p; cbn [echo_field] in Hd; try congruence; cbn [echo_w fst snd]; apart_tac.
Qed.
(** C56: information. *)
Lemma c56_information_order : forall ops ops' b, information_new b = Ok b -> each_once information_field ops -> Permutation ops ops' ->
  all_ok information_apply ops b = all_ok information_apply ops' b.
Proof.
  intros ops ops' b Hn He P. destruct (typed_inv _ _ _ _ _ c05_information_new Hn) as (_ & H8 & _).
  assert (S : steps information_apply (fun _ => True) (fun c => 8 <= len c) info_w).
  { intros o c _ Hl. destruct o; cbn [information_apply info_w fst snd]; icmp_order. }
  apply (swap_ok _ _ _ _ information_field S); try assumption; try (apply Forall_forall; intros; exact Logic.I).
  intros o p c _ _ _ Hd. destruct o, p; cbn [information_field] in Hd; try congruence; cbn [info_w fst snd]; apart_tac.
Qed.
(** C56: timestamp. *)
Lemma c56_timestamp_order : forall ops ops' b, timestamp_new b = Ok b -> each_once timestamp_field ops -> Permutation ops ops' ->
  all_ok timestamp_apply ops b = all_ok timestamp_apply ops' b.
Proof.
  intros ops ops' b Hn He P. destruct (typed_inv _ _ _ _ _ c05_timestamp_new Hn) as (_ & H8 & _).
  assert (S : steps timestamp_apply (fun _ => True) (fun c => 20 <= len c) ts_w).
  { intros o c _ Hl. destruct o; cbn [timestamp_apply ts_w fst snd]; icmp_order. }
  apply (swap_ok _ _ _ _ timestamp_field S); try assumption; try (apply Forall_forall; intros; exact Logic.I).
  intros o p c _ _ _ Hd. destruct o, p; cbn [timestamp_field] in Hd; try congruence; cbn [ts_w fst snd]; apart_tac.
Qed.
Lemma guard_all_ok {A} (apply : A -> mut) drop ops : forall b c, all_ok apply ops b = Some c ->
  run_guard apply drop ops b = run_guard apply drop [] c.
Proof.
  induction ops as [|o ops IH]; intros b c H; cbn [all_ok] in H; [congruence|].
  destruct (apply o b) as [d [u| |]] eqn:Ha; try discriminate. change (run_guard apply drop (o :: ops) b) with
    (match apply o b with (b', Panic) => (b', Panic) | (b', _) => run_guard apply drop ops b' end).
  rewrite Ha. apply IH. exact H.
Qed.
Lemma guard_swap {A} (apply : A -> mut) drop ops ops' b c : all_ok apply ops b = Some c ->
  all_ok apply ops b = all_ok apply ops' b -> run_guard apply drop ops b = run_guard apply drop ops' b.
Proof. intros H1 H2. rewrite (guard_all_ok _ _ _ _ _ H1). rewrite H1 in H2. symmetry. apply guard_all_ok. congruence. Qed.
(** C56: the same inside checked(): the recomputed checksums agree. *)
Lemma c56_v4_checked : forall E ops ops' b, is_bytes b -> v4_no_payload b = Ok b -> 5 <= nthN b 0 mod 16 ->
  Forall v4_setter_ok ops -> Forall v4_in_range ops -> each_once v4_field ops -> Permutation ops ops' ->
  v4_checked E ops b = v4_checked E ops' b.
Proof.
  intros E ops ops' b Hb Hn Hi Hok Hr He P. destruct (c52_v4 ops b Hb Hn Hi Hok Hr) as (c & Hc & _).
  apply (guard_swap _ _ _ _ _ _ Hc). apply c56_v4_order; assumption.
Qed.
(** C56: UDP, with any parent packet. *)
Lemma c56_udp_checked : forall E ip ops ops' b, udp_no_payload b = Ok b -> each_once udp_field ops -> Permutation ops ops' ->
  udp_checked E ip ops b = udp_checked E ip ops' b.
Proof.
  intros E ip ops ops' b Hn He P. destruct (c52_udp ops b Hn) as (c & Hc & _).
  apply (guard_swap _ _ _ _ _ _ Hc). apply c56_udp_order; assumption.
Qed.
(** C56: TCP. *)
Lemma c56_tcp_checked : forall E ip ops ops' b, tcp_new b = Ok b -> 5 <= nthN b 12 / 16 ->
  Forall (fun o => ~ tcp_is_flags o) ops -> each_once tcp_field ops -> Permutation ops ops' ->
  tcp_checked E ip ops b = tcp_checked E ip ops' b.
Proof.
  intros E ip ops ops' b Hn Ho HT He P. destruct (c52_tcp ops b Hn Ho HT) as (c & Hc & _).
  apply (guard_swap _ _ _ _ _ _ Hc). apply c56_tcp_order; assumption.
Qed.
(** C56: ICMP. *)
Lemma c56_icmp_checked : forall E b,
  (forall ops ops', echo_new b = Ok b -> each_once echo_field ops -> Permutation ops ops' ->
     echo_checked E ops b = echo_checked E ops' b) /\
  (forall ops ops', information_new b = Ok b -> each_once information_field ops -> Permutation ops ops' ->
     information_checked E ops b = information_checked E ops' b) /\
  (forall ops ops', timestamp_new b = Ok b -> each_once timestamp_field ops -> Permutation ops ops' ->
     timestamp_checked E ops b = timestamp_checked E ops' b).
Proof.
  intros E b. repeat apply conj; intros ops ops' Hn He P.
  - destruct (c52_echo ops b Hn) as (c & Hc & _). apply (guard_swap _ _ _ _ _ _ Hc). apply c56_echo_order; assumption.
  - destruct (c52_information ops b Hn) as (c & Hc & _). apply (guard_swap _ _ _ _ _ _ Hc). apply c56_information_order; assumption.
  - destruct (c52_timestamp ops b Hn) as (c & Hc & _). apply (guard_swap _ _ _ _ _ _ Hc). apply c56_timestamp_order; assumption.
Qed.
(** C56: TCP's set_flags must come last: it clears the data offset and every
    later setter panics. *)
Lemma c56_tcp_flags_refuted : exists b c, tcp_new b = Ok b /\ nthN b 12 / 16 = 5 /\
  each_once tcp_field [TcpSetFlags 2; TcpSetWindow 9] /\
  all_ok tcp_apply [TcpSetWindow 9; TcpSetFlags 2] b = Some c /\
  all_ok tcp_apply [TcpSetFlags 2; TcpSetWindow 9] b = None.
Proof.
  exists [0;80;0;99;0;0;0;1;0;0;0;2;80;2;1;0;0;0;0;0], [0;80;0;99;0;0;0;1;0;0;0;2;0;2;0;9;0;0;0;0].
  repeat apply conj; try (vm_compute; reflexivity).
  unfold each_once. cbn. repeat constructor; cbn; intuition discriminate.
Qed.
(** C56: DSCP and ECN do not commute (set_ecn keeps four of the six DSCP bits). *)
Lemma c56_v4_dscp_ecn_refuted : exists b c d, v4_no_payload b = Ok b /\ nthN b 0 mod 16 = 5 /\
  all_ok v4_apply [V4SetDscp 46; V4SetEcn 1] b = Some c /\ all_ok v4_apply [V4SetEcn 1; V4SetDscp 46] b = Some d /\ c <> d.
Proof.
  exists [69; 0; 0; 20; 1; 2; 64; 0; 64; 17; 9; 9; 10; 0; 0; 1; 10; 0; 0; 2].
  exists [69; 57; 0; 20; 1; 2; 64; 0; 64; 17; 9; 9; 10; 0; 0; 1; 10; 0; 0; 2].
  exists [69; 185; 0; 20; 1; 2; 64; 0; 64; 17; 9; 9; 10; 0; 0; 1; 10; 0; 0; 2].
  repeat apply conj; try (vm_compute; reflexivity). discriminate.
Qed.
Example c56_example : forall E, let b := [69; 0; 0; 20; 1; 2; 64; 0; 64; 17; 9; 9; 10; 0; 0; 1; 10; 0; 0; 2] in
  let ops := [V4SetTtl 3; V4SetId 513; V4SetDscp 46] in let ops' := [V4SetDscp 46; V4SetTtl 3; V4SetId 513] in
  is_bytes b /\ v4_no_payload b = Ok b /\ Forall v4_setter_ok ops /\ Forall v4_in_range ops /\
  each_once v4_field ops /\ Permutation ops ops' /\ v4_checked E ops b = v4_checked E ops' b /\
  all_ok v4_apply ops b = Some [69; 184; 0; 20; 2; 1; 64; 0; 3; 17; 9; 9; 10; 0; 0; 1; 10; 0; 0; 2].
Proof.
  intros E b ops ops'. assert (P : Permutation ops ops').
  { unfold ops, ops'. eapply perm_trans; [|apply perm_swap]. apply perm_skip. apply perm_swap. }
  assert (H1 : is_bytes b) by (repeat constructor). assert (H2 : Forall v4_setter_ok ops) by (repeat constructor).
  assert (H3 : Forall v4_in_range ops) by (unfold ops; repeat apply Forall_cons; try apply Forall_nil; cbn [v4_in_range]; first [exact Logic.I|lia]).
  assert (H4 : each_once v4_field ops).
  { unfold each_once. cbn. repeat constructor; cbn; intuition discriminate. }
  repeat apply conj; try assumption; try (vm_compute; reflexivity).
Qed.
