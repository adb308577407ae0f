(** * AnyServiceProofs: the UDP echo service under any standard library, whatever the length of the datagram (C78). *)
From Verif Require Import Base Enums Buffer Ether Ipv4 Ip Udp Tcp Icmp Spec SpecCalls SpecEdit SpecForward SpecMachine SpecReceiver SpecRoute SpecHost Mutable Lemmas AccessProofs
  ParseProofs FieldProofs SliceProofs MutableProofs EnumProofs ChecksumLemmas ChecksumProofs GuardProofs EditProofs ForwardProofs FrameProofs
  MachineProofs FrameMachineProofs ReceiverProofs RouteProofs NatProofs HostProofs TraceProofs.
From Verif Require BuildLemmas.
From Coq Require Import ZifyBool ZifyNat ZifyN.
Ltac Zify.zify_post_hook ::= Z.div_mod_to_equations.

(** A frame the receiving program accepts holds a datagram in a packet whose header sums up. *)
Lemma accepted_frame E b : is_bytes b -> receive_udp E b = Ok true ->
  exists s, ok_udp s /\ b = frame_bytes udp_bytes s /\ routable s.
Proof.
  intros Hb H. unfold receive_udp in H. rewrite verdict_true in H.
  apply (receive_ip_true E udp_bytes udp_packet_ok _ 17 _ want_udp) in H; [|intros x; rewrite udp_len; lia| |exact Hb].
  2: { intros ip body Hbb Hx. destruct (udp_new body) as [u| |] eqn:Hu; [|discriminate|discriminate]. cbn [bind] in Hx.
       assert (u = body) as -> by (apply udp_new_iff in Hu; tauto). pose proof Hu as Hu'. apply udp_new_iff in Hu' as (_ & Hl & _).
       rewrite udp_length_ok in Hx by lia. cbn [bind] in Hx. destruct (N.eqb_spec (wire16 body 4) (len body)) as [Hw|]; [|discriminate].
       destruct (c71_udp_received body Hbb Hu ltac:(lia)) as (x & Hx1 & Hx2). exists x. split; [exact Hx1|exact Hx2]. }
  destruct H as (s & H1 & H2 & (T1 & _ & T3) & H4 & _). exists s. split; [exact H1|]. split; [exact H2|]. split; [exact T1|split; assumption].
Qed.
Lemma accepted_routable E s : ok_udp s -> receive_udp E (frame_bytes udp_bytes s) = Ok true -> routable s.
Proof.
  intros Hs. pose proof (frame_len14 udp_bytes s) as Hl. unfold receive_udp. rewrite verdict_true, receive_ip_eq. replace (_ <? 14) with false by lia.
  rewrite (type_cell udp_bytes udp_packet_ok) by exact Hs. destruct Hs as (He & Hs & Hi). destruct (N.eqb_spec (ef_type (fr_ether s)) 2048) as [Hty|]; [|discriminate].
  rewrite frame_bytes_ip, <- (ether_wire_len (fr_ether s)), dropN_app_len. rewrite v4_new_bytes by exact Hs. cbn [bind].
  rewrite v4_ihl_bytes by exact Hs. pose proof (ihl5 _ Hs) as H5. cbn [frame_ip vp_header] in *. replace (_ <? 5) with false by lia.
  destruct (v4_is_valid E (v4_bytes (frame_ip udp_bytes s))) as [[]| |] eqn:Hv; [|discriminate|discriminate|discriminate]. intros _.
  apply (proj1 (valid_iff E (frame_ip udp_bytes s) Hs)) in Hv. exact (conj Hty Hv).
Qed.
Lemma returned_ok s : ok_udp s -> routable s -> ok_udp (returned s) /\ routable (returned s).
Proof.
  intros H1 (T1 & T3 & T4). destruct (udp_answered_on s H1) as [_ A2]. change (udp_answered s) with (returned s) in A2. pose proof H1 as (_ & Hv & _).
  destruct (swap_addresses_on _ Hv) as (_ & _ & S3). assert (Hh : adds_up (frame_ip udp_bytes s)) by (split; assumption). destruct (S3 Hh) as [S4 S5].
  split; [exact A2|]. split; [exact T1|split; [exact S4|exact S5]].
Qed.
(** What the UDP checksum is taken over, with its field set to zero. *)
Lemma zeroed_udp u : zero_field 6 (udp_bytes u) =
  udp_wire {| uf_src := uf_src (up_header u); uf_dst := uf_dst (up_header u); uf_length := uf_length (up_header u); uf_checksum := 0 |} ++ up_payload u ++ up_behind u.
Proof. unfold zero_field. rewrite udp_len. replace (6 + 2 <=? _) with true by lia. reflexivity. Qed.
Lemma zeroed_sum_swap E u v : up_payload v = up_payload u -> up_behind v = up_behind u -> uf_src (up_header v) = uf_dst (up_header u) -> uf_dst (up_header v) = uf_src (up_header u) ->
  uf_length (up_header v) = uf_length (up_header u) ->
  word_sum (seen E (zero_field 6 (udp_bytes v))) = word_sum (seen E (zero_field 6 (udp_bytes u))) /\
  len (seen E (zero_field 6 (udp_bytes v))) = len (seen E (zero_field 6 (udp_bytes u))).
Proof.
  intros H1 H2 H3 H4 H5. rewrite !zeroed_udp, H1, H2, H3, H4, H5. set (p := up_payload u ++ up_behind u).
  assert (Hsn : forall h, seen E (udp_wire h ++ p) = udp_wire h ++ seen E p) by (intros h; apply seen_after; reflexivity).
  rewrite !Hsn. clearbody p. split; [|rewrite !len_app; reflexivity].
  rewrite !word_sum_app by reflexivity. f_equal. unfold udp_wire. cbn [uf_src uf_dst uf_length uf_checksum]. rewrite !word_sum_app by reflexivity. lia.
Qed.
Lemma returned_received E s : ok_udp s -> routable s ->
  receive_udp E (frame_bytes udp_bytes (returned s)) = receive_udp E (frame_bytes udp_bytes s).
Proof.
  intros H1 Hr. destruct (returned_ok s H1 Hr) as [K1 Kr]. unfold receive_udp. rewrite !(receive_routable udp_bytes udp_packet_ok) by assumption.
  change (vf_proto (fr_ip (returned s))) with (vf_proto (fr_ip s)). destruct (ip_protocol_from _); try reflexivity.
  pose proof H1 as (_ & Hv & Hi). pose proof K1 as (_ & Kv & Ki). rewrite !udp_new_bytes by assumption. cbn [bind].
  rewrite !udp_length_ok by (rewrite udp_len; lia). cbn [bind].
  assert (Hl : len (udp_bytes (fr_inner (returned s))) = len (udp_bytes (fr_inner s))) by (rewrite !udp_len; reflexivity). rewrite Hl.
  change (wire16 (udp_bytes (fr_inner (returned s))) 4) with (wire16 (udp_bytes (fr_inner s)) 4).
  destruct (_ =? len _); [|reflexivity].
  rewrite !udp_is_valid_eq by (try apply v4_is_bytes; try apply udp_is_bytes; try (rewrite v4_len; lia); try (rewrite udp_len; lia); assumption).
  destruct (frame_addrs udp_bytes s) as [A1 A2]. destruct (frame_addrs udp_bytes (returned s)) as [B1 B2]. rewrite A1, A2, B1, B2.
  change (wire16 (udp_bytes (fr_inner (returned s))) 6) with (wire16 (udp_bytes (fr_inner s)) 6).
  destruct (zeroed_sum_swap E (fr_inner s) (fr_inner (returned s))) as [Z1 Z2]; [reflexivity..|].
  assert (Hc : forall d e, word_sum (with_pseudo_header (vf_src (fr_ip (returned s))) (vf_dst (fr_ip (returned s))) 17 d) = word_sum (with_pseudo_header (vf_src (fr_ip s)) (vf_dst (fr_ip s)) 17 e) ->
    inet_checksum (with_pseudo_header (vf_src (fr_ip (returned s))) (vf_dst (fr_ip (returned s))) 17 d) = inet_checksum (with_pseudo_header (vf_src (fr_ip s)) (vf_dst (fr_ip s)) 17 e))
    by (intros d e Q; unfold inet_checksum; rewrite Q; reflexivity).
  rewrite (Hc _ (seen E (zero_field 6 (udp_bytes (fr_inner s))))); [reflexivity|].
  rewrite !word_sum_pseudo, !ChecksumProofs.pseudo_sum, Z1, Z2. cbn [returned fr_ip vf_src vf_dst v4_fields_with]. lia.
Qed.
(** C78: on any bytes and under any standard library, the service answers exactly the datagrams to it that
    the receiving program accepts, and leaves every other frame as it came. *)
Lemma c78_echo_service_any : forall E me port b, is_bytes b ->
  (exists s, takes E me port b s /\ echo_service E me port b = (frame_bytes udp_bytes (returned s), Ok true)) \/
  ((~ exists s, takes E me port b s) /\ echo_service E me port b = (b, Ok false)).
Proof.
  intros E me port b Hb. destruct (c72_total E b Hb) as ((v & Hv) & _ & _). unfold echo_service, serve. destruct v.
  - destruct (accepted_frame E b Hb Hv) as (s & H1 & H2 & _). pose proof Hv as Hv0. rewrite H2 in Hv0.
    pose proof (query_for_me_on E me port s H1 Hv0) as Q. rewrite <- H2 in Q. rewrite Q.
    destruct (same_addr _ _ && _) eqn:Ea.
    + left. apply andb_prop in Ea as [E1 E2]. apply same_addr_iff in E1. apply N.eqb_eq in E2. exists s. split; [unfold takes; tauto|].
      rewrite H2, (proj1 (udp_answered_on s H1)). reflexivity.
    + right. split; [|reflexivity]. intros (s' & K1 & K2 & K3 & K4 & K5). rewrite K2 in K3. pose proof (query_for_me_on E me port s' K1 K3) as P.
      rewrite <- K2, Q in P. apply (proj2 (same_addr_iff _ _)) in K4. apply N.eqb_eq in K5. rewrite K4, K5 in P. discriminate.
  - right. unfold query_for_me. rewrite Hv. split; [|reflexivity]. intros (s' & _ & _ & K & _). congruence.
Qed.
(** C78: every receiver, on any build, says of the answer what it says of the query. *)
Lemma c78_answer_received : forall E me port b b', is_bytes b -> echo_service E me port b = (b', Ok true) ->
  forall E', receive_udp E' b' = receive_udp E' b.
Proof.
  intros E me port b b' Hb Hh E'. destruct (c78_echo_service_any E me port b Hb) as [(s & (H1 & H2 & H3 & _) & Hq)|(_ & Hq)]; rewrite Hq in Hh; [|discriminate]. injection Hh as <-.
  rewrite H2 in H3 |- *. apply returned_received; [exact H1|]. apply (accepted_routable E s H1 H3).
Qed.
(** C78: two services, each on its own build, keep a datagram between them going forever as soon as both accept it. *)
Lemma c78_to_and_fro_any : forall E E' me port you other b s n, is_bytes b ->
  takes E me port b s -> receive_udp E' b = Ok true ->
  vf_src (fr_ip s) = you -> uf_src (up_header (fr_inner s)) = other ->
  to_and_fro (echo_service E me port) (echo_service E' you other) n b =
  (if N.of_nat n mod 2 =? 0 then b else frame_bytes udp_bytes (returned s), Ok true).
Proof.
  intros E E' me port you other b s n Hb Hq Hr' Hy Ho. revert E E' me port you other b s Hb Hq Hr' Hy Ho.
  induction n as [|n IH]; intros E E' me port you other b s Hb Hq Hr' Hy Ho; [reflexivity|]. cbn [to_and_fro].
  destruct Hq as (H1 & Hbs & Hr & Hme & Hport). rewrite Hbs in Hr, Hr'. pose proof (accepted_routable E s H1 Hr) as Hro.
  destruct (returned_ok s H1 Hro) as [K1 Kr].
  assert (Hs : echo_service E me port b = (frame_bytes udp_bytes (returned s), Ok true)).
  { unfold echo_service, serve. rewrite Hbs. rewrite query_for_me_on by assumption. rewrite Hme, Hport, N.eqb_refl, (proj2 (same_addr_iff me me) eq_refl). cbn [andb].
    rewrite (proj1 (udp_answered_on s H1)). reflexivity. }
  rewrite Hs. rewrite (IH E' E you other me port _ (returned s) (HostProofs.is_bytes_frame _ K1)).
  - rewrite returned_twice, <- Hbs. f_equal. rewrite Nat2N.inj_succ.
    destruct (N.eqb_spec (N.of_nat n mod 2) 0), (N.eqb_spec (N.succ (N.of_nat n) mod 2) 0); try reflexivity; exfalso; lia.
  - split; [exact K1|]. split; [reflexivity|]. split; [rewrite returned_received by assumption; exact Hr'|]. split; [exact Hy|exact Ho].
  - rewrite returned_received by assumption. exact Hr.
  - exact Hme.
  - exact Hport.
Qed.
(** C78: and if the other side does not accept the query, it does not accept the answer either, and leaves it. *)
Lemma c78_one_way : forall E E' me port you other b n, is_bytes b ->
  receive_udp E' b <> Ok true ->
  to_and_fro (echo_service E me port) (echo_service E' you other) (S (S n)) b =
  (fst (echo_service E me port b), Ok false).
Proof.
  intros E E' me port you other b n Hb Hn. cbn [to_and_fro].
  destruct (c78_echo_service_any E me port b Hb) as [(s & (H1 & H2 & H3 & _) & Hq)|(_ & Hq)]; rewrite Hq; [|reflexivity]. cbn [fst].
  rewrite H2 in H3, Hn. pose proof (accepted_routable E s H1 H3) as Hro. destruct (returned_ok s H1 Hro) as [K1 Kr].
  destruct (c78_echo_service_any E' you other _ (HostProofs.is_bytes_frame _ K1)) as [(s' & (_ & _ & K & _) & _)|(_ & Hq')].
  - rewrite returned_received in K by assumption. contradiction.
  - rewrite Hq'. reflexivity.
Qed.
