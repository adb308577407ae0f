(** * BuiltProofs: built frames are accepted by the receiving program (C72). *)
From Verif Require Import Base Enums Buffer Ether Ipv4 Ip Udp Tcp Icmp Builders Spec SpecCalls SpecBuild SpecProfile SpecShift SpecReference SpecSucceed
  SpecMachine SpecReceiver Lemmas ParseProofs SliceProofs AccessProofs FieldProofs ChecksumLemmas ChecksumProofs BuildLemmas FinalLemmas ReadLemmas ReferenceProofs SucceedProofs FrameProofs ReceiverProofs.
From Coq Require Import ZifyBool ZifyNat ZifyN.
Ltac Zify.zify_post_hook ::= Z.div_mod_to_equations.

Lemma counted_even E b : len b mod 2 = 0 -> counted E b = b.
Proof. intros H. unfold counted. destruct (cursor_eof E); [reflexivity|]. rewrite H. reflexivity. Qed.
(** C65: a program returns the same under all builds of the crate, if the number of
    bytes it puts in is even, or it builds neither UDP nor TCP. *)
Lemma c65_builds : forall E E' o cs cl, compiles o cs cl -> Forall ordinary cs -> added o cs <= @ISIZE_MAX E -> added o cs <= @ISIZE_MAX E' ->
  (cl = ClUdp \/ cl = ClTcp -> added o cs mod 2 = 0 \/ cursor_eof E = cursor_eof E') ->
  program E o cs cl dynamic_new = program E' o cs cl dynamic_new.
Proof.
  intros E E' o cs cl Hc Ho HM HM' Hpar. rewrite (c65_reference E o cs cl Hc Ho HM), (c65_reference E' o cs cl Hc Ho HM'). unfold reference.
  destruct (draft_calls cs (draft_open o)) as [d|e|] eqn:Hd; cbn [bind]; [|reflexivity|reflexivity].
  assert (Hsz : ty_of d = closed cl /\ size d = added o cs).
  { destruct (open_image None E o I) as (O1 & O2 & O3 & O4). unfold compiles in Hc. rewrite <- O4 in Hc. unfold added in *. rewrite <- O3 in *.
    pose proof (calls_image None E cs I (or_introl eq_refl) _ _ O2 I Hc Ho HM) as C. rewrite runs_none, Hd in C.
    destruct C as (_ & _ & C3 & C4). split; [exact C4|exact C3]. }
  destruct Hsz as [Hty Hsz]. rewrite <- Hsz in Hpar.
  assert (Hep : forall e, len (eth_part e) mod 2 = 0) by (intros [e|]; reflexivity).
  destruct d; try reflexivity; cbn [draft_close size ty_of] in *; destruct a as [[e v]|]; try reflexivity; rewrite len_ip_part in Hpar; specialize (Hep e);
    (destruct Hpar as [Hpar|Heq]; [destruct cl; cbn [closed] in Hty; (discriminate || tauto)| |unfold counted; rewrite Heq; reflexivity]).
  - rewrite !counted_even; [reflexivity| |]; rewrite len_app, len_udp_wire; lia.
  - replace ((20 + len (given p)) mod 2 =? 1) with false by lia. destruct (cursor_eof E), (cursor_eof E'); reflexivity.
Qed.

Lemma receive_reads E wanted next cs ip out proto q : frame_reads OpEther cs ip out -> forall vs, v4_reads E vs proto q ip -> wanted proto = true ->
  receive_ip E wanted next out = next ip q.
Proof.
  intros (E1 & _ & _ & E2 & E3) vs (V1 & _ & V2 & _ & _ & _ & _ & _ & _ & _ & _ & V3 & _ & _ & V4' & _ & V5 & _) Hw.
  unfold receive_ip. rewrite E1. cbn [bind]. rewrite E2. cbn [bind]. rewrite E3. cbn [bind]. rewrite V1. cbn [bind]. rewrite V2. cbn [bind].
  change (5 <? 5) with false. cbv iota. rewrite V5. cbn [bind negb]. rewrite V3. cbn [bind]. rewrite Hw, V4'. reflexivity.
Qed.
Lemma reads_len E cs ip out vs proto q : frame_reads OpEther cs ip out -> v4_reads E vs proto q ip -> len out = 34 + len q.
Proof.
  intros (E1 & _ & _ & E2 & E3) (V1 & _ & V2 & _ & _ & _ & V3 & _ & _ & _ & _ & _ & _ & _ & _ & V4' & _).
  apply ether_new_len in E1 as Hl. rewrite ether_payload_ok in E3 by lia. apply Ok_inj in E3.
  assert (Hi : len ip = 20 + len q).
  { pose proof V1 as V1'. apply c02_v4_new_iff in V1 as (_ & H20 & _ & Hh & Hw). unfold v4_length in V3. rewrite get16 in V3 by lia. apply Ok_inj in V3.
    rewrite v4_ihl_ok in V2 by lia. apply Ok_inj in V2. pose proof (c07_v4 ip V1') as Q. cbv zeta in Q. destruct Q as (Q1 & _ & _ & _ & _ & _ & _ & _ & _ & Q).
    rewrite V2, V3 in *. rewrite Q in V4'. apply Ok_inj in V4'. rewrite <- V4'. rewrite len_takeN. lia. }
  rewrite <- E3 in Hi. autorewrite with len in Hi. lia.
Qed.

(** C72: whatever frame with a UDP datagram the builders made, under whatever build
    of the crate, the receiving program accepts it, under whatever build. *)
Lemma c72_built_udp : forall E E' cs out, compiles OpEther cs ClUdp -> Forall ordinary cs -> faithful_calls cs ->
  added OpEther cs <= @ISIZE_MAX E -> added OpEther cs <= @ISIZE_MAX E' -> 28 + len (payload_given cs) <= 65535 ->
  len (payload_given cs) mod 2 = 0 \/ (cursor_eof E = EofKeep /\ cursor_eof E' = EofKeep) ->
  program E OpEther cs ClUdp dynamic_new = Ok out -> receive_udp E' out = Ok true.
Proof.
  intros E E' cs out Hc Ho Hf HM HM' Hl Hpar Hout.
  assert (Hlen : forall ip q, udp_reads E' (udp_calls cs) (payload_given cs) ip q \/ udp_reads E (udp_calls cs) (payload_given cs) ip q -> len q = 8 + len (payload_given cs)).
  { intros ip q H. assert (Hq : udp_new q = Ok q /\ udp_length q = Ok (8 + len (payload_given cs)) /\ udp_as_ref q = Ok q) by (destruct H as [H|H]; unfold udp_reads in H; tauto).
    destruct Hq as (U1 & U2 & U3). pose proof (c07_udp q U1) as Q. cbv zeta in Q. destruct Q as (Q1 & _ & _ & _ & _ & _ & _ & _ & _ & Q).
    rewrite udp_length_ok in U2 by lia. apply Ok_inj in U2. rewrite U2 in *. rewrite Q in U3. apply Ok_inj in U3. rewrite <- U3, len_takeN. lia. }
  assert (Hadd : added OpEther cs = 42 + len (payload_given cs)).
  { destruct (c66_udp E OpEther cs out) as (ip & u & R1 & R2 & R3); try assumption; [tauto|].
    rewrite <- (c65_length E OpEther cs ClUdp out) by assumption. rewrite (reads_len E cs ip out _ _ _ R1 R2), (Hlen ip u) by tauto. lia. }
  rewrite (c65_builds E E') in Hout by (assumption || (intros _; destruct Hpar as [Hpar|[H1 H2]]; [left; lia|right; congruence])).
  destruct (c66_udp E' OpEther cs out) as (ip & u & R1 & R2 & R3); try assumption; [tauto|].
  unfold receive_udp. rewrite verdict_true. rewrite (receive_reads E' _ _ cs ip out IP_Udp u R1 _ R2 eq_refl).
  pose proof (Hlen ip u (or_introl R3)) as Hu. destruct R3 as (U1 & _ & _ & U2 & _ & _ & U3). rewrite U1. cbn [bind]. rewrite U2. cbn [bind]. rewrite Hu, N.eqb_refl. exact U3.
Qed.
(** C72: TCP. *)
Lemma c72_built_tcp : forall E E' cs out, compiles OpEther cs ClTcp -> Forall ordinary cs -> faithful_calls cs ->
  added OpEther cs <= @ISIZE_MAX E -> added OpEther cs <= @ISIZE_MAX E' -> 40 + len (payload_given cs) <= 65535 ->
  len (payload_given cs) mod 2 = 0 \/ cursor_eof E' = EofKeep ->
  program E OpEther cs ClTcp dynamic_new = Ok out -> receive_tcp E' out = Ok true.
Proof.
  intros E E' cs out Hc Ho Hf HM HM' Hl Hpar Hout.
  destruct (c66_tcp E OpEther cs out) as (ip & t & R1 & R2 & R3); try assumption.
  assert (Hlen : len t = 20 + len (payload_given cs)).
  { destruct R3 as (T1 & _ & _ & _ & _ & T2 & _ & _ & _ & _ & T3 & _). apply tcp_new_iff in T1 as (_ & H20 & Hh).
    rewrite tcp_offset_ok in T2 by lia. apply Ok_inj in T2. unfold tcp_payload, tcp_split in T3. rewrite tcp_offset_ok in T3 by lia. cbn [bind] in T3. rewrite T2 in *.
    change (5 * 4) with 20 in T3. rewrite split_at_ok in T3 by lia. cbn [bind snd] in T3. apply Ok_inj in T3. rewrite <- T3. autorewrite with len. lia. }
  assert (Hadd : added OpEther cs = 54 + len (payload_given cs)).
  { rewrite <- (c65_length E OpEther cs ClTcp out) by assumption. rewrite (reads_len E cs ip out _ _ _ R1 R2), Hlen. lia. }
  destruct (proj1 (c66_succeeds E OpEther cs ClTcp Hc Ho HM) (ex_intro _ _ Hout)) as (_ & _ & _ & Sodd). clear ip t R1 R2 R3 Hlen.
  rewrite (c65_builds E E') in Hout.
  2: { exact Hc. } 2: { exact Ho. } 2: { exact HM. } 2: { exact HM'. }
  2: { intros _. destruct (cursor_eof E) eqn:HE; [|specialize (Sodd eq_refl); left; lia]. destruct Hpar as [Hpar|Hpar]; [left; lia|right; congruence]. }
  destruct (c66_tcp E' OpEther cs out) as (ip & t & R1 & R2 & R3); try assumption.
  unfold receive_tcp. rewrite verdict_true. rewrite (receive_reads E' _ _ cs ip out IP_Tcp t R1 _ R2 eq_refl).
  destruct R3 as (T1 & _ & _ & _ & _ & T2 & _ & _ & _ & _ & _ & T3). rewrite T1. cbn [bind]. rewrite T2. cbn [bind]. exact T3.
Qed.
(** C72: echo. *)
Lemma c72_built_echo : forall E E' cs out, compiles OpEther cs ClEcho -> Forall ordinary cs -> faithful_calls cs ->
  added OpEther cs <= @ISIZE_MAX E -> added OpEther cs <= @ISIZE_MAX E' -> 28 + len (payload_given cs) <= 65535 ->
  program E OpEther cs ClEcho dynamic_new = Ok out -> receive_echo E' out = Ok true.
Proof.
  intros E E' cs out Hc Ho Hf HM HM' Hl Hout.
  rewrite (c65_builds E E') in Hout by (assumption || (intros [H|H]; discriminate)).
  destruct (c66_echo E' OpEther cs out) as (m & (ip & R1 & R2) & R3 & _); try assumption.
  unfold receive_echo. rewrite verdict_true. rewrite (receive_reads E' _ _ cs ip out IP_Icmp m R1 _ R2 eq_refl).
  destruct R3 as (M1 & _ & _ & _ & _ & _ & _ & _ & _ & M2). rewrite M1. exact M2.
Qed.

(** C72: non-vacuity.  A datagram accepted by both; without checksum it is accepted by
    the RFC only; an echo reply of zeros is accepted by the program only; a TCP
    segment with one byte of payload, which panics under the other kind of std; and a
    program of the builders. *)
Example c72_example : forall E,
  let mac := [0;35;105;99;89;190; 228;179;24;38;99;163; 8;0] in
  let udp ck := mac ++ [69;0;0;30;0;0;0;0;64;17;102;205;10;0;0;1;10;0;0;2; 0;53;0;99;0;10] ++ ck ++ [104;105; 7;7] in
  let s ck := {| fr_ether := {| ef_dst := Hw 0 35 105 99 89 190; ef_src := Hw 228 179 24 38 99 163; ef_type := 2048 |};
              fr_ip := {| vf_version := 4; vf_ihl := 5; vf_dscp := 0; vf_ecn := 0; vf_total := 30; vf_id := 0; vf_reserved := false;
                          vf_df := false; vf_mf := false; vf_frag := 0; vf_ttl := 64; vf_proto := 17; vf_checksum := 26317;
                          vf_src := Ip4 10 0 0 1; vf_dst := Ip4 10 0 0 2 |};
              fr_options := [];
              fr_inner := {| up_header := {| uf_src := 53; uf_dst := 99; uf_length := 10; uf_checksum := ck |};
                             up_payload := [104; 105]; up_behind := [] |};
              fr_padding := [7; 7] |} in
  receive_udp E (udp [130; 214]) = Ok true /\ rfc_udp (udp [130; 214]) (s 33494) /\
  receive_udp E (udp [0; 0]) = Ok false /\ rfc_udp (udp [0; 0]) (s 0) /\
  receive_udp E (udp [130; 215]) = Ok false /\
  receive_echo E (mac ++ [69;0;0;28;0;0;0;0;64;1;102;223;10;0;0;1;10;0;0;2; 0;0;0;0;0;0;0;0]) = Ok true /\
  receive_echo E (mac ++ [69;0;0;28;0;0;0;0;64;1;102;223;10;0;0;1;10;0;0;2; 0;0;255;255;0;0;0;0]) = Ok false /\
  receive_tcp E (mac ++ [69;0;0;41;0;0;0;0;64;6;102;205;10;0;0;1;10;0;0;2; 0;53;0;99;0;0;0;1;0;0;0;2;80;16;1;0;50;54;0;0;104]) =
    (match cursor_eof E with EofKeep => Ok true | EofSeek => Panic end) /\
  let cs := [CallEther (EtherSource (Hw 228 179 24 38 99 163)); CallEtherIp; CallIpV4; CallV4 (V4Set (V4SetTtl 64)); CallV4Udp; CallUdp (UdpSet (UdpSetSource 53)); CallUdp (UdpPayload [104; 105])] in
  compiles OpEther cs ClUdp /\ Forall ordinary cs /\ faithful_calls cs /\ added OpEther cs <= 1000 /\
  exists out, program E OpEther cs ClUdp dynamic_new = Ok out.
Proof.
  intros E. cbv zeta.
  assert (Hrfc : forall ck c, enc16 c = ck -> u16 c -> (c = 0 \/ c = 33494) -> rfc_udp
    ([0;35;105;99;89;190; 228;179;24;38;99;163; 8;0] ++ [69;0;0;30;0;0;0;0;64;17;102;205;10;0;0;1;10;0;0;2; 0;53;0;99;0;10] ++ ck ++ [104;105; 7;7])
    {| fr_ether := {| ef_dst := Hw 0 35 105 99 89 190; ef_src := Hw 228 179 24 38 99 163; ef_type := 2048 |};
              fr_ip := {| vf_version := 4; vf_ihl := 5; vf_dscp := 0; vf_ecn := 0; vf_total := 30; vf_id := 0; vf_reserved := false;
                          vf_df := false; vf_mf := false; vf_frag := 0; vf_ttl := 64; vf_proto := 17; vf_checksum := 26317;
                          vf_src := Ip4 10 0 0 1; vf_dst := Ip4 10 0 0 2 |};
              fr_options := [];
              fr_inner := {| up_header := {| uf_src := 53; uf_dst := 99; uf_length := 10; uf_checksum := c |};
                             up_payload := [104; 105]; up_behind := [] |};
              fr_padding := [7; 7] |}).
  { intros ck c <- Hc Hv. assert (Hv' := Hv). destruct Hv' as [->| ->]; (split;
    [split; [repeat split; repeat constructor|split; [repeat split; try reflexivity; repeat constructor|repeat split; repeat constructor]]
    |split; [reflexivity|split; [repeat split; reflexivity|split; [reflexivity|cbn [fr_inner up_header uf_checksum]; first [left; reflexivity|right; reflexivity]]]]]). }
  split; [destruct E as [[] [] []]; vm_compute; reflexivity|]. split; [apply Hrfc; [reflexivity|reflexivity|right; reflexivity]|].
  split; [destruct E as [[] [] []]; vm_compute; reflexivity|]. split; [apply Hrfc; [reflexivity|reflexivity|left; reflexivity]|].
  split; [destruct E as [[] [] []]; vm_compute; reflexivity|]. split; [destruct E as [[] [] []]; vm_compute; reflexivity|].
  split; [destruct E as [[] [] []]; vm_compute; reflexivity|]. split; [destruct E as [[] [] []]; vm_compute; reflexivity|].
  split; [repeat (eexists; split; [reflexivity|]); reflexivity|]. split; [repeat constructor|]. split; [repeat constructor|]. split; [vm_compute; discriminate|].
  destruct E as [[] [] []]; eexists; vm_compute; reflexivity.
Qed.
