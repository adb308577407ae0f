(** * HostProofs: hosts that answer (C78). *)
From Verif Require Import Base Enums Buffer Ether Ipv4 Ip Udp Tcp Icmp Spec SpecCalls SpecEdit SpecForward SpecMachine SpecReceiver SpecRoute SpecHost Mutable Lemmas AccessProofs
  ParseProofs FieldProofs SliceProofs MutableProofs EnumProofs ChecksumLemmas ChecksumProofs GuardProofs EditProofs ForwardProofs FrameProofs
  MachineProofs FrameMachineProofs ReceiverProofs RouteProofs NatProofs.
From Verif Require BuildLemmas.
From Coq Require Import ZifyBool ZifyNat ZifyN.
Ltac Zify.zify_post_hook ::= Z.div_mod_to_equations.

Notation ok_echo := (frame_packet_ok echo_bytes echo_packet_ok).
Lemma same_addr_iff x y : same_addr x y = true <-> x = y.
Proof.
  destruct x as [a b c d], y as [a' b' c' d']. unfold same_addr. cbn [Base.ip_a Base.ip_b Base.ip_c Base.ip_d].
  split; [intros H; f_equal; lia|]. intros H. injection H as -> -> -> ->. rewrite !N.eqb_refl. reflexivity.
Qed.
(** Reading the layers of a frame. *)
Lemma read_frame {S} (inner : S -> bytes) inner_ok s : frame_packet_ok inner inner_ok s ->
  let b := frame_bytes inner s in let ip := v4_bytes (frame_ip inner s) in
  ether_new b = Ok b /\ ether_payload b = Ok ip /\ v4_new ip = Ok ip /\ v4_payload ip = Ok (inner (fr_inner s)) /\ v4_destination ip = Ok (vf_dst (fr_ip s)).
Proof.
  intros (He & Hs & Hi) b ip. assert (Hl : 14 <= len b) by (unfold b; rewrite frame_bytes_ip, len_app, ether_wire_len; lia).
  pose proof (v4_new_bytes _ Hs) as Hn.
  split; [apply c01_ether_new; exact Hl|]. split.
  { rewrite ether_payload_ok by exact Hl. unfold b. rewrite frame_bytes_ip, <- (ether_wire_len (fr_ether s)), dropN_app_len. reflexivity. }
  split; [exact Hn|]. split.
  - pose proof (c07_v4 ip Hn) as Q. cbv zeta in Q. destruct Q as (_ & _ & _ & Q & _). rewrite Q. f_equal.
    unfold ip. rewrite v4_ihl_bytes, total_cell by exact Hs. pose proof Hs as (_ & _ & Hih & Htot & _).
    unfold v4_bytes. cbn [frame_ip vp_header vp_options vp_payload vp_behind] in *. rewrite app_assoc.
    assert (Hh : len (v4_wire (fr_ip s) ++ fr_options s) = vf_ihl (fr_ip s) * 4) by (autorewrite with len; rewrite v4_wire_len; lia).
    replace (N.max _ _) with (len ((v4_wire (fr_ip s) ++ fr_options s) ++ inner (fr_inner s))) by (rewrite len_app, Hh; lia).
    rewrite (app_assoc _ (inner (fr_inner s))), takeN_app_len, <- Hh, dropN_app_len. reflexivity.
  - assert (Hx : v4_destination ip = Ok (wire_addr ip 16)).
    { unfold v4_destination. assert (20 <= len ip) by (unfold ip; rewrite v4_len; lia). rewrite !index_ok by lia. reflexivity. }
    rewrite Hx. f_equal. apply (frame_addrs inner s).
Qed.
Lemma echo_request_bytes c : echo_packet_ok c -> echo_is_request (echo_bytes c) = Ok (cf_type (cp_header c) =? 8).
Proof. intros Hc. exact (proj1 (c08_echo _ (echo_new_bytes c Hc))). Qed.
Lemma receive_echo_pings me s : pings me (frame_bytes echo_bytes s) s -> forall E, receive_echo E (frame_bytes echo_bytes s) = Ok true.
Proof.
  intros (H1 & H2 & H3 & H4 & H5 & _) E. apply c72_echo.
  - rewrite frame_bytes_ip. destruct H1 as (He & Hv & _). apply is_bytes_app. split; [apply BuildLemmas.is_bytes_ether_wire, He|apply v4_is_bytes, Hv].
  - exists s. tauto.
Qed.
Lemma ping_for_me_on E me s : ok_echo s -> receive_echo E (frame_bytes echo_bytes s) = Ok true ->
  ping_for_me E me (frame_bytes echo_bytes s) = Ok (same_addr (vf_dst (fr_ip s)) me && (cf_type (cp_header (fr_inner s)) =? 8)).
Proof.
  intros Hs Hr. destruct (read_frame echo_bytes echo_packet_ok s Hs) as (R1 & R2 & R3 & R4 & R5).
  unfold ping_for_me. rewrite Hr. cbn [bind negb]. rewrite R1. cbn [bind]. rewrite R2. cbn [bind]. rewrite R3. cbn [bind]. rewrite R4. cbn [bind].
  rewrite echo_new_bytes by apply Hs. cbn [bind]. rewrite R5. cbn [bind]. rewrite echo_request_bytes by apply Hs. destruct (same_addr _ _); reflexivity.
Qed.
(** C78: on any bytes, the host answers exactly the echo requests to it, with the
    answer of C76, and leaves every other frame as it came; it never fails. *)
Lemma c78_ping_host : forall E me b, is_bytes b ->
  (exists s, pings me b s /\ ping_host E me b = (frame_bytes echo_bytes (answered s), Ok true)) \/
  ((~ exists s, pings me b s) /\ ping_host E me b = (b, Ok false)).
Proof.
  intros E me b Hb. destruct (c72_total E b Hb) as (_ & (v & Hv) & _). unfold ping_host, serve. destruct v.
  - pose proof Hv as Hv0. apply c72_echo in Hv0; [|exact Hb]. destruct Hv0 as (s & H1 & H2 & H3 & H4 & H5). subst b.
    rewrite ping_for_me_on by assumption. destruct (same_addr _ _) eqn:Ea; cbn [andb].
    + apply same_addr_iff in Ea. destruct (N.eqb_spec (cf_type (cp_header (fr_inner s))) 8) as [Ht|Ht].
      * left. exists s. split; [repeat (split; [assumption || reflexivity|]); assumption|]. rewrite (proj1 (answered_on E s H1)). reflexivity.
      * right. split; [|reflexivity]. intros (s' & K). pose proof (receive_echo_pings me s') as Q. pose proof K as (K1 & K2 & _ & _ & _ & K3 & K4).
        rewrite K2 in K. specialize (Q K E). pose proof (ping_for_me_on E me s' K1 Q) as P. rewrite <- K2 in P. rewrite ping_for_me_on in P by assumption.
        apply (proj2 (same_addr_iff _ _)) in K3, Ea. rewrite K3, Ea, K4 in P. cbn [andb] in P. injection P as P. apply N.eqb_neq in Ht. congruence.
    + right. split; [|reflexivity]. intros (s' & K). pose proof (receive_echo_pings me s') as Q. pose proof K as (K1 & K2 & _ & _ & _ & K3 & K4).
      rewrite K2 in K. specialize (Q K E). pose proof (ping_for_me_on E me s' K1 Q) as P. rewrite <- K2 in P. rewrite ping_for_me_on in P by assumption.
      apply (proj2 (same_addr_iff _ _)) in K3. rewrite K3, Ea, K4 in P. discriminate.
  - right. unfold ping_for_me. rewrite Hv. split; [|reflexivity]. intros (s' & K). pose proof (receive_echo_pings me s') as Q. pose proof K as (K1 & K2 & _).
    rewrite K2 in K. specialize (Q K E). rewrite <- K2 in Q. congruence.
Qed.
Lemma answered_received E s : ok_echo s -> routable s -> vf_proto (fr_ip s) = 1 -> receive_echo E (frame_bytes echo_bytes (answered s)) = Ok true.
Proof.
  intros Hs Hr Hp. destruct (answered_on E s Hs) as (A1 & A2 & A3). specialize (A3 Hr).
  unfold receive_echo. rewrite (receive_routable echo_bytes echo_packet_ok) by assumption.
  change (vf_proto (fr_ip (answered s))) with (vf_proto (fr_ip s)). rewrite Hp.
  change (ip_protocol_from 1) with IP_Icmp. cbv iota. destruct A2 as (_ & _ & A2). rewrite echo_new_bytes by exact A2. cbn [bind].
  change (fr_inner (answered s)) with (echo_sum (echo_kind 0 (fr_inner s))). rewrite echo_sum_valid; [reflexivity| |apply (echo_total _ Hs)].
  destruct Hs as (_ & _ & (C1 & C2 & C3)). split; [|split; [right; reflexivity|exact C3]]. destruct C1 as (D1 & D2 & D3).
  split; [cbn; unfold u8; lia|split; [exact D2|exact D3]].
Qed.
(** C78: an answer is as long as the request, every build accepts it, and no host answers it. *)
Lemma c78_reply : forall E me b b', is_bytes b -> ping_host E me b = (b', Ok true) ->
  len b' = len b /\ (forall E', receive_echo E' b' = Ok true) /\ (forall E' you, ping_host E' you b' = (b', Ok false)).
Proof.
  intros E me b b' Hb Hh. destruct (c78_ping_host E me b Hb) as [(s & Hp & Hq)|(_ & Hq)]; rewrite Hq in Hh; [|discriminate]. injection Hh as <-. clear Hq.
  destruct Hp as (H1 & -> & (T1 & T2 & T3) & H4 & _). destruct (answered_on E s H1) as (_ & A2 & _).
  assert (Hr : forall E', receive_echo E' (frame_bytes echo_bytes (answered s)) = Ok true) by (intros E'; apply answered_received; [exact H1|split; [exact T1|split; assumption]|exact T2]).
  split; [|split; [exact Hr|]].
  - rewrite !frame_bytes_ip, !len_app, !ether_wire_len, !v4_len. cbn [frame_ip vp_header vp_options vp_payload vp_behind answered fr_options fr_padding].
    rewrite !echo_len. reflexivity.
  - intros E' you. unfold ping_host, serve. rewrite ping_for_me_on by (assumption || apply Hr).
    change (cf_type (cp_header (fr_inner (answered s))) =? 8) with false. rewrite andb_false_r. reflexivity.
Qed.
(** C78: a ping through routers to a host that answers, and back. *)
Lemma c78_ping : forall E E' there me back s, pings me (frame_bytes echo_bytes s) s ->
  Forall hop_ok there -> Forall hop_ok back -> N.of_nat (length there) + N.of_nat (length back) < vf_ttl (fr_ip s) ->
  ping E E' there me back (frame_bytes echo_bytes s) = ping_and_back E there back (frame_bytes echo_bytes s) /\
  forall E'', receive_echo E'' (fst (ping E E' there me back (frame_bytes echo_bytes s))) = Ok true.
Proof.
  intros E E' there me back s Hp Ht Hb Hl. pose proof Hp as (H1 & _ & (T1 & T2 & T3) & H4 & H5 & H6 & H7).
  assert (Hr : routable s) by (split; [exact T1|split; assumption]).
  destruct (route_on echo_bytes echo_packet_ok E there s H1 Hr Ht) as [R1 _]. destruct R1 as (K1 & K2 & K3); [right; lia|].
  assert (Hrec : receive_echo E' (frame_bytes echo_bytes (travelled there s)) = Ok true).
  { pose proof (receive_echo_pings me s Hp E') as Q. revert Q. unfold receive_echo. rewrite !(receive_routable echo_bytes echo_packet_ok) by assumption.
    destruct (travelled_fields there s) as (F1 & F2 & F3 & F4). rewrite F1, F4. exact (fun q => q). }
  assert (Heq : ping E E' there me back (frame_bytes echo_bytes s) = ping_and_back E there back (frame_bytes echo_bytes s)).
  { unfold ping, then_send, then_serve, ping_and_back, mseq. rewrite K1. unfold ping_host, serve. rewrite ping_for_me_on by assumption.
    destruct (travelled_fields there s) as (F1 & F2 & F3 & F4). rewrite F3, F4, H6, H7. rewrite (proj2 (same_addr_iff me me) eq_refl). cbn [andb N.eqb Pos.eqb].
    rewrite (proj1 (answered_on E' _ K2)), (proj1 (answered_on E _ K2)). reflexivity. }
  split; [exact Heq|]. intros E''. rewrite Heq. destruct (c76_ping E E'' there back s H1 Hr Ht Hb Hl) as (r & P1 & _ & _ & _ & _ & _ & _ & _ & _ & _ & _ & P2).
  rewrite P1. apply P2, T2.
Qed.

(** ** The UDP echo service *)
Lemma returned_answered s : udp_answered s = returned s.
Proof. reflexivity. Qed.
Lemma returned_twice s : returned (returned s) = s.
Proof. destruct s as [[] [] o [[] pl be] pa]. reflexivity. Qed.
Lemma udp_destination_bytes u : udp_packet_ok u -> udp_destination (udp_bytes u) = Ok (uf_dst (up_header u)).
Proof.
  intros Hu. unfold udp_destination. rewrite get16 by (rewrite udp_len; lia). f_equal. destruct Hu as ((_ & H & _) & _). unfold u16 in H.
  change (uf_dst (up_header u) / 256 * 256 + uf_dst (up_header u) mod 256 = uf_dst (up_header u)). lia.
Qed.
Lemma query_for_me_on E me port s : ok_udp s -> receive_udp E (frame_bytes udp_bytes s) = Ok true ->
  query_for_me E me port (frame_bytes udp_bytes s) = Ok (same_addr (vf_dst (fr_ip s)) me && (uf_dst (up_header (fr_inner s)) =? port)).
Proof.
  intros Hs Hr. destruct (read_frame udp_bytes udp_packet_ok s Hs) as (R1 & R2 & R3 & R4 & R5).
  unfold query_for_me. rewrite Hr. cbn [bind negb]. rewrite R1. cbn [bind]. rewrite R2. cbn [bind]. rewrite R3. cbn [bind]. rewrite R4. cbn [bind].
  rewrite udp_new_bytes by apply Hs. cbn [bind]. rewrite R5. cbn [bind]. rewrite udp_destination_bytes by apply Hs. destruct (same_addr _ _); reflexivity.
Qed.
Lemma queried_receive E me port b s : is_bytes b -> wire16 b 16 mod 2 = 0 \/ cursor_eof E = EofKeep -> queries me port b s ->
  receive_udp E b = Ok true.
Proof. intros Hb Hc (H1 & H2 & H3 & H4 & _). apply c72_udp; [exact Hb|exact Hc|]. exists s. tauto. Qed.
(** C78: on any bytes, the service answers exactly the datagrams to it, and leaves
    every other frame as it came; it never fails. *)
Lemma c78_echo_service : forall E me port b, is_bytes b -> wire16 b 16 mod 2 = 0 \/ cursor_eof E = EofKeep ->
  (exists s, queries me port b s /\ echo_service E me port b = (frame_bytes udp_bytes (returned s), Ok true)) \/
  ((~ exists s, queries me port b s) /\ echo_service E me port b = (b, Ok false)).
Proof.
  intros E me port b Hb Hc. destruct (c72_total E b Hb) as ((v & Hv) & _ & _). unfold echo_service, serve. destruct v.
  - pose proof Hv as Hv0. apply c72_udp in Hv0; [|exact Hb|exact Hc]. destruct Hv0 as (s & H1 & H2 & H3 & H4). pose proof H1 as (Hok & Hbs & _). subst b.
    rewrite query_for_me_on by assumption.
    assert (Hno : same_addr (vf_dst (fr_ip s)) me && (uf_dst (up_header (fr_inner s)) =? port) = false -> ~ exists s', queries me port (frame_bytes udp_bytes s) s').
    { intros Hf (s' & K). pose proof K as ((K1 & K2 & _) & _ & _ & _ & K5 & K6). pose proof Hv as Hv'. rewrite K2 in Hv'.
      pose proof (query_for_me_on E me port s' K1 Hv') as P. rewrite <- K2 in P. rewrite query_for_me_on in P by assumption. rewrite Hf in P.
      apply (proj2 (same_addr_iff _ _)) in K5. apply N.eqb_eq in K6. rewrite K5, K6 in P. discriminate. }
    destruct (same_addr _ _ && _) eqn:Ea.
    + left. apply andb_prop in Ea as [E1 E2]. apply same_addr_iff in E1. apply N.eqb_eq in E2. exists s. split; [unfold queries; tauto|].
      rewrite (proj1 (udp_answered_on s Hok)). reflexivity.
    + right. split; [apply Hno; reflexivity|reflexivity].
  - right. unfold query_for_me. rewrite Hv. split; [|reflexivity]. intros (s' & K). pose proof (queried_receive E me port b s' Hb Hc K). congruence.
Qed.
Lemma udp_word_sum_swap u : word_sum (udp_bytes {| up_header := {| uf_src := uf_dst (up_header u); uf_dst := uf_src (up_header u);
    uf_length := uf_length (up_header u); uf_checksum := uf_checksum (up_header u) |}; up_payload := up_payload u; up_behind := up_behind u |}) = word_sum (udp_bytes u).
Proof.
  set (h := up_header u). set (r := enc16 (uf_length h) ++ enc16 (uf_checksum h) ++ up_payload u ++ up_behind u).
  change (uf_dst h / 256 * 256 + uf_dst h mod 256 + (uf_src h / 256 * 256 + uf_src h mod 256 + word_sum r) =
          uf_src h / 256 * 256 + uf_src h mod 256 + (uf_dst h / 256 * 256 + uf_dst h mod 256 + word_sum r)). lia.
Qed.
Lemma returned_queries me port b s : queries me port b s ->
  queries (vf_src (fr_ip s)) (uf_src (up_header (fr_inner s))) (frame_bytes udp_bytes (returned s)) (returned s).
Proof.
  intros ((H1 & Hb & (T1 & T2 & T3) & H5 & H6) & H7 & H8 & H9 & H10 & H11).
  destruct (udp_answered_on s H1) as [_ A2]. change (udp_answered s) with (returned s) in A2. pose proof H1 as (_ & Hv & Hi).
  destruct (swap_addresses_on _ Hv) as (_ & _ & S3).
  assert (Hsum : sums_up udp_bytes s -> sums_up udp_bytes (returned s)).
  { unfold sums_up, receiver_accepts. rewrite !word_sum_pseudo, !pseudo_sum. cbn [returned fr_inner fr_ip vf_src vf_dst vf_proto v4_fields_with].
    rewrite udp_word_sum_swap. rewrite !udp_len. cbn [up_payload up_behind]. intros Q. rewrite <- Q. f_equal. lia. }
  assert (Hh : adds_up (frame_ip udp_bytes s)) by (split; assumption). specialize (S3 Hh). destruct S3 as [S3 S4].
  split; [|split; [exact S4|split; [exact H8|split; [intros Q; apply Hsum, H9, Q|split; reflexivity]]]].
  split; [exact A2|]. split; [reflexivity|]. split; [split; [exact T1|split; [exact T2|exact S3]]|]. split; [exact H5|].
  destruct H6 as [H6|H6]; [left; exact H6|right; apply Hsum, H6].
Qed.
Lemma frame_length_cell {S} (inner : S -> bytes) inner_ok s : frame_packet_ok inner inner_ok s -> wire16 (frame_bytes inner s) 16 = vf_total (fr_ip s).
Proof.
  intros (_ & ((_ & _ & _ & _ & H & _) & _) & _). cbn [frame_ip vp_header] in H. unfold u16 in H.
  change (vf_total (fr_ip s) / 256 * 256 + vf_total (fr_ip s) mod 256 = vf_total (fr_ip s)). lia.
Qed.
Lemma is_bytes_frame s : ok_udp s -> is_bytes (frame_bytes udp_bytes s).
Proof. intros (He & Hv & _). rewrite frame_bytes_ip. apply is_bytes_app. split; [apply BuildLemmas.is_bytes_ether_wire, He|apply v4_is_bytes, Hv]. Qed.
(** C78: a service's answer is as long as the query and is accepted at the other end. *)
Lemma c78_echo_answer : forall E me port b b', is_bytes b -> wire16 b 16 mod 2 = 0 \/ cursor_eof E = EofKeep ->
  echo_service E me port b = (b', Ok true) ->
  len b' = len b /\ is_bytes b' /\ wire16 b' 16 = wire16 b 16 /\
  (forall E', wire16 b 16 mod 2 = 0 \/ cursor_eof E' = EofKeep -> receive_udp E' b' = Ok true).
Proof.
  intros E me port b b' Hb Hc Hh. destruct (c78_echo_service E me port b Hb Hc) as [(s & Hp & Hq)|(_ & Hq)]; rewrite Hq in Hh; [|discriminate]. injection Hh as <-. clear Hq.
  pose proof (returned_queries me port b s Hp) as K. pose proof Hp as ((H1 & Hbs & _) & _). pose proof K as ((K1 & _) & _).
  assert (Hw : wire16 (frame_bytes udp_bytes (returned s)) 16 = wire16 b 16) by (rewrite Hbs, !(frame_length_cell udp_bytes udp_packet_ok) by assumption; reflexivity).
  split; [|split; [apply is_bytes_frame, K1|split; [exact Hw|]]].
  - rewrite Hbs, !frame_bytes_ip, !len_app, !ether_wire_len, !v4_len. cbn [frame_ip vp_header vp_options vp_payload vp_behind returned fr_options fr_padding].
    rewrite !udp_len. reflexivity.
  - intros E' Hc'. apply (queried_receive E' _ _ _ _ (is_bytes_frame _ K1)) with (2 := K). rewrite Hw. exact Hc'.
Qed.
(** C78: two services keep a datagram between them going forever: every answer is
    answered, and every second frame is the first, byte for byte. *)
Lemma c78_to_and_fro : forall E E' me port you other b s n, is_bytes b ->
  wire16 b 16 mod 2 = 0 \/ (cursor_eof E = EofKeep /\ cursor_eof E' = EofKeep) -> queries me port b s ->
  vf_src (fr_ip s) = you -> uf_src (up_header (fr_inner s)) = other ->
  to_and_fro (echo_service E me port) (echo_service E' you other) n b =
  (if N.of_nat n mod 2 =? 0 then b else frame_bytes udp_bytes (returned s), Ok true).
Proof.
  intros E E' me port you other b s n Hb Hc Hq Hy Ho. revert E E' me port you other b s Hb Hc Hq Hy Ho.
  induction n as [|n IH]; intros E E' me port you other b s Hb Hc Hq Hy Ho; [reflexivity|]. cbn [to_and_fro].
  pose proof Hq as ((H1 & Hbs & _) & _ & _ & _ & Hme & Hport). pose proof (returned_queries me port b s Hq) as K. rewrite Hy, Ho in K. pose proof K as ((K1 & _) & _).
  assert (Hr : receive_udp E b = Ok true) by (apply (queried_receive E me port b s); (exact Hb || tauto)).
  assert (Hs : echo_service E me port b = (frame_bytes udp_bytes (returned s), Ok true)).
  { unfold echo_service, serve. rewrite Hbs in Hr |- *. rewrite query_for_me_on by assumption. rewrite Hme, Hport, N.eqb_refl, (proj2 (same_addr_iff me me) eq_refl). cbn [andb].
    rewrite (proj1 (udp_answered_on s H1)). reflexivity. }
  rewrite Hs. assert (Hw : wire16 (frame_bytes udp_bytes (returned s)) 16 = wire16 b 16) by (rewrite Hbs, !(frame_length_cell udp_bytes udp_packet_ok) by assumption; reflexivity).
  rewrite (IH E' E you other me port _ (returned s) (is_bytes_frame _ K1)); [|rewrite Hw; tauto|exact K|exact Hme|exact Hport].
  rewrite returned_twice, <- Hbs. f_equal. rewrite Nat2N.inj_succ. 
  destruct (N.eqb_spec (N.of_nat n mod 2) 0), (N.eqb_spec (N.succ (N.of_nat n) mod 2) 0); try reflexivity; exfalso; lia.
Qed.
(** C78: a ping answered, its reply left alone, a ping to another address; a query and its answer;
    two services on port 7. *)
Example c78_example : forall E,
  let me := Ip4 10 0 0 2 in
  let ping := [2;0;0;0;0;2; 2;0;0;0;0;1; 8;0; 69;0;0;32;18;52;0;0;6;1;142;167;10;0;0;1;10;0;0;2; 8;0;243;241;0;7;0;1;1;2;3;4] in
  let reply := [2;0;0;0;0;1; 2;0;0;0;0;2; 8;0; 69;0;0;32;18;52;0;0;6;1;142;167;10;0;0;2;10;0;0;1; 0;0;251;241;0;7;0;1;1;2;3;4] in
  let query := [2;0;0;0;0;2; 2;0;0;0;0;1; 8;0; 69;0;0;30;0;0;0;0;64;17;102;205;10;0;0;1;10;0;0;2; 0;7;0;7;0;10;131;96;104;105] in
  let answer := [2;0;0;0;0;1; 2;0;0;0;0;2; 8;0; 69;0;0;30;0;0;0;0;64;17;102;205;10;0;0;2;10;0;0;1; 0;7;0;7;0;10;131;96;104;105] in
  ping_host E me ping = (reply, Ok true) /\ ping_host E (Ip4 10 0 0 1) reply = (reply, Ok false) /\
  ping_host E (Ip4 10 0 0 3) ping = (ping, Ok false) /\ ping_host E me [1; 2; 3] = ([1; 2; 3], Ok false) /\
  echo_service E me 7 query = (answer, Ok true) /\ echo_service E me 8 query = (query, Ok false) /\
  to_and_fro (echo_service E me 7) (echo_service E (Ip4 10 0 0 1) 7) 6 query = (query, Ok true) /\
  to_and_fro (echo_service E me 7) (echo_service E (Ip4 10 0 0 1) 9) 6 query = (answer, Ok false).
Proof. intros E. destruct E as [[] [] []]; vm_compute; repeat split. Qed.
