(** * AlikeProofs: a built UDP frame and a receiving program under any two standard libraries (C72). *)
From Verif Require Import Base Enums Buffer Ether Ipv4 Ip Udp Tcp Icmp Builders Spec SpecCalls SpecBuild SpecProfile SpecShift SpecReference SpecSucceed SpecEdit SpecForward SpecFrame SpecMachine SpecReceiver SpecRoute SpecBlame SpecTrace
  Lemmas AccessProofs ParseProofs FieldProofs SliceProofs ChecksumLemmas ChecksumProofs
  BuildLemmas FinalLemmas ReadLemmas BuilderProofs PayloadProofs MessageProofs ChainLemmas MachineProofs FrameMachineProofs MisuseProofs ViaProofs  ReferenceProofs SucceedProofs ReceiverProofs BuiltProofs RouteProofs TraceProofs.
From Coq Require Import ZifyBool ZifyNat ZifyN.
Ltac Zify.zify_post_hook ::= Z.div_mod_to_equations.

(** The chain of builder calls, whatever the length of the payload. *)
Lemma chain_received E E' eops vs us p : eth_ok (Some eops) -> Forall v4_arg_ok vs -> Forall udp_op_ok us -> one_payload (udp_payloads us) p -> 28 + len p <= 65535 ->
  exists out v, udp_chain E (Some eops) vs us dynamic_new = Ok out /\ receive_udp E' out = Ok v /\ (v = true <-> alike E E' p).
Proof.
  intros He Hv Hu Hp1 Fl. pose proof (one_payload_bytes _ _ Hp1 (udp_op_payloads us Hu)) as Fb.
  assert (Hi : 65600 <= @ISIZE_MAX E) by (pose proof (@width_facts E); lia).
  set (src := vf_src (v4_after vs)). set (dst := vf_dst (v4_after vs)).
  set (w := udp_wire (udp_fill (udp_after us) (8 + len p) 0)).
  assert (Hlw : len w = 8) by apply len_udp_wire.
  set (ck := inet_checksum (with_pseudo_header src dst 17 (w ++ seen E p))).
  assert (Hck : u16 ck) by apply inet_lt.
  set (u := udp_fill (udp_after us) (8 + len p) ck). set (q := udp_wire u ++ p).
  assert (Hlq : len q = 8 + len p) by (unfold q; rewrite len_app, len_udp_wire; reflexivity).
  assert (Huok : udp_fields_ok u).
  { pose proof (udp_after_ok us Hu) as (U1 & U2 & _). split; [exact U1|]. split; [exact U2|]. split; [unfold u, udp_fill, u16; cbn [uf_length]; lia|exact Hck]. }
  assert (Hqb : is_bytes q) by (apply is_bytes_app; split; [apply is_bytes_udp_wire, Huok|exact Fb]).
  destruct (sent_ok eops vs 17 q He Hv) as (S1 & S2 & _); [unfold u8; lia|exact Hqb|lia|].
  exists (frame_bytes (fun p => p) (sent eops vs 17 q)), (inet_checksum (with_pseudo_header src dst 17 (w ++ seen E' p)) =? ck).
  split; [|split; [|rewrite N.eqb_eq; apply seen_alike; [exact Fb|rewrite Hlw; reflexivity]]].
  { pose proof (udp_chain_gen E (Some eops) vs us p None [] [] He Hv Hu Hp1 dynamic_sized I (or_introl eq_refl)) as G. cbv zeta in G.
    change (mkbuf None [] []) with dynamic_new in G. rewrite G by (cbn [eth_size]; rewrite len_nil; lia). clear G. cbn [app].
    rewrite (N.mod_small (8 + len p) 65536) by lia. rewrite seen_after by (rewrite len_udp_wire; reflexivity).
    fold src dst. fold w. fold ck. fold u. fold q. rewrite sent_bytes, Hlq. reflexivity. }
  unfold receive_udp. rewrite (receive_routable (fun p => p) is_bytes) by assumption.
  assert (Hpr : vf_proto (fr_ip (sent eops vs 17 q)) = 17 /\ vf_src (fr_ip (sent eops vs 17 q)) = src /\ vf_dst (fr_ip (sent eops vs 17 q)) = dst).
  { unfold sent, src, dst, v4_finished. cbn [fr_ip]. destruct (v4_after vs). repeat split. }
  destruct Hpr as (Hpr & Hsrc & Hdst). rewrite Hpr. change (ip_protocol_from 17) with IP_Udp. cbv iota.
  change (fr_inner (sent eops vs 17 q)) with q.
  pose proof S1 as (_ & S1v & _). destruct (frame_addrs (fun p => p) (sent eops vs 17 q)) as [A1 A2].
  pose proof (c09_udp u p [] Huok eq_refl) as R. cbv zeta in R. rewrite app_nil_r in R. fold q in R. destruct R as (R1 & _ & _ & R4 & R5 & _).
  rewrite R1. cbn [bind]. rewrite R4. cbn [bind]. rewrite Hlq. change (uf_length u) with (8 + len p). rewrite N.eqb_refl.
  rewrite udp_is_valid_eq by (assumption || apply v4_is_bytes, S1v || (rewrite v4_len; lia) || lia). rewrite A1, A2, Hsrc, Hdst.
  unfold udp_checksum in R5. rewrite get16 in R5 by lia. apply Ok_inj in R5. rewrite R5. change (uf_checksum u) with ck.
  unfold q at 1, u at 1. rewrite udp_fill_zero. fold w. rewrite seen_after by (rewrite Hlw; reflexivity). reflexivity.
Qed.
(** C72: a frame with a UDP datagram the builders made, whatever calls made it and whatever the length of the payload, is accepted by the receiving program exactly when the
    two standard libraries sum the payload alike, and refused without a panic otherwise. *)
Lemma c72_built_udp_alike : forall E E' cs out, compiles OpEther cs ClUdp -> Forall ordinary cs -> added OpEther cs <= @ISIZE_MAX E -> 28 + len (payload_given cs) <= 65535 ->
  program E OpEther cs ClUdp dynamic_new = Ok out ->
  exists v, receive_udp E' out = Ok v /\ (v = true <-> alike E E' (payload_given cs)).
Proof.
  intros E E' cs out Hc Ho HM Hl Hout. destruct (proj1 (c66_succeeds E OpEther cs ClUdp Hc Ho HM) (ex_intro _ _ Hout)) as (Sv & Sm & Sf). cbn [can_finish] in Sf.
  unfold compiles in Hc. cbn [closed] in Hc. pose proof (opening_cases _ _ _ Hc Ho eq_refl Sf) as Hop.
  destruct (shape OpEther cs TyUdp Ho Hc Hop ltac:(discriminate) ltac:(discriminate) ltac:(discriminate)) as (eth & pre & vops & rest & Hb & -> & Hi).
  destruct Hi as [(_ & H)|[(us & -> & _)|[(? & _ & H)|[(_ & H)|[(? & _ & H)|[(? & _ & H)|(? & _ & H)]]]]]]; try discriminate.
  destruct (outer_facts OpEther eth pre vops CallV4Udp (map CallUdp us) Hb I Ho Sv Sm) as (He & Hvs & Hva & Hp & Hm & Hu).
  pose proof (pairs_payloads _ Sm) as Hone. rewrite Hp in Hone. change (payloads (CallV4Udp :: map CallUdp us)) with (payloads (map CallUdp us)) in Hone. rewrite payloads_udp in Hone.
  set (p := payload_given _) in *. set (vs := v4_setters vops) in *.
  assert (Hprog : program E OpEther (pre ++ map CallV4 vops ++ CallV4Udp :: map CallUdp us) ClUdp dynamic_new = udp_chain E eth vs us dynamic_new).
  { unfold program. rewrite (begin_run E OpEther eth pre _ _ Hb). unfold udp_chain, v4_layer. destruct (start_v4 E eth dynamic_new) as [v| |]; cbn [bind]; [|reflexivity|reflexivity].
    rewrite run_app, (run_map CallV4 v4_run1) by reflexivity. rewrite <- Hvs. destruct (run (v4_run1 E) vops v) as [v1| |]; cbn [bind]; [|reflexivity|reflexivity].
    cbn [run call1]. destruct (v4_udp E v1) as [u| |]; cbn [bind]; [|reflexivity|reflexivity]. rewrite (run_map CallUdp udp_run1) by reflexivity. reflexivity. }
  assert (Hus : Forall udp_op_ok us) by (revert Hu; apply Forall_map_to; intros x Hx; exact Hx).
  rewrite Hprog in Hout. assert (Het : exists eops, eth = Some eops) by (inversion Hb; eauto). destruct Het as (eops & ->).
  destruct (chain_received E E' eops vs us p He Hva Hus Hone Hl) as (out' & v & C1 & C2 & C3).
  rewrite C1 in Hout. apply Ok_inj in Hout. subst out'. exists v. split; assumption.
Qed.
