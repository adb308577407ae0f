(** * ShakeProofs: opening a TCP connection across routers and translators (C82). *)
From Verif Require Import Base Enums Buffer Ether Ipv4 Ip Udp Tcp Icmp Builders Spec SpecCalls SpecBuild SpecEdit SpecForward SpecMachine SpecReceiver SpecRoute SpecNat SpecShake
  Mutable Lemmas AccessProofs
  ParseProofs FieldProofs SliceProofs MutableProofs EnumProofs ChecksumLemmas ChecksumProofs GuardProofs EditProofs ForwardProofs FrameProofs
  CorruptProofs BuildLemmas FinalLemmas ReadLemmas BuilderProofs ChainLemmas MessageProofs MachineProofs FrameMachineProofs ReceiverProofs RouteProofs NatProofs HostProofs.
From Coq Require Import ZifyBool ZifyNat ZifyN.
Ltac Zify.zify_post_hook ::= Z.div_mod_to_equations.

Notation tcp_frame := (frame_packet tcp_packet).
(** A frame the receiving program accepts. *)
Definition good (s : tcp_frame) : Prop :=
  rfc_tcp (frame_bytes tcp_bytes s) s /\ vf_checksum (fr_ip s) <> 65535 /\ tf_checksum (tp_header (fr_inner s)) <> 65535.
Definition even_for (E : env) (s : tcp_frame) : Prop := len (tcp_bytes (fr_inner s)) mod 2 = 0 \/ cursor_eof E = EofKeep.
Lemma good_routable s : good s -> routable s.
Proof. intros ((_ & _ & (H1 & _ & H2) & _) & H3 & _). split; [exact H1|split; assumption]. Qed.
Lemma good_intro s : ok_tcp s -> routable s -> vf_proto (fr_ip s) = 6 -> tcp_spoiled (fr_inner s) = false ->
  receiver_accepts (with_pseudo_header (vf_src (fr_ip s)) (vf_dst (fr_ip s)) 6 (tcp_bytes (fr_inner s))) -> tf_checksum (tp_header (fr_inner s)) <> 65535 -> good s.
Proof.
  intros H1 (H2 & H3 & H4) H5 H6 H7 H8. split; [|split; assumption]. split; [exact H1|]. split; [reflexivity|]. split; [split; [exact H2|split; assumption]|].
  split; [exact H6|]. unfold sums_up. rewrite H5. exact H7.
Qed.
Lemma good_accepted E s : good s -> even_for E s -> receive_tcp E (frame_bytes tcp_bytes s) = Ok true.
Proof.
  intros Hg He. pose proof Hg as ((H1 & _ & (_ & H2 & _) & H3 & H4) & _ & H5). unfold sums_up in H4. rewrite H2 in H4.
  apply receive_tcp_on; [exact H1|apply good_routable; exact Hg|exact H2|exact H3|exact He|]. split; assumption.
Qed.
(** What the accessors say of an accepted frame. *)
Lemma receive_on E s : ok_tcp s -> tcp_spoiled (fr_inner s) = false ->
  receive_tcp E (frame_bytes tcp_bytes s) = Ok true -> receive E (frame_bytes tcp_bytes s) = Ok (Some (described s)).
Proof.
  intros Hs Hsp Hr. unfold receive. rewrite Hr. cbn [bind negb]. destruct (read_frame tcp_bytes tcp_packet_ok s Hs) as (R1 & R2 & R3 & R4 & R5).
  rewrite R1. cbn [bind]. rewrite R2. cbn [bind]. rewrite R3. cbn [bind]. rewrite R4. cbn [bind].
  destruct Hs as (He & Hv & Hi). rewrite tcp_new_bytes by exact Hi. cbn [bind].
  destruct (c09_ether (fr_ether s) (v4_bytes (frame_ip tcp_bytes s)) He) as (_ & M1 & M2 & _). rewrite <- frame_bytes_ip in M1, M2. rewrite M1, M2. cbn [bind].
  assert (Hx : v4_source (v4_bytes (frame_ip tcp_bytes s)) = Ok (wire_addr (v4_bytes (frame_ip tcp_bytes s)) 12)).
  { unfold v4_source. assert (20 <= len (v4_bytes (frame_ip tcp_bytes s))) by (rewrite v4_len; lia). rewrite !index_ok by lia. reflexivity. }
  rewrite Hx. destruct (frame_addrs tcp_bytes s) as [A1 _]. rewrite A1. cbn [bind]. rewrite R5. cbn [bind].
  destruct Hi as (Hf & Ho & Hob & Hpb). unfold tcp_spoiled in Hsp.
  destruct (c09_tcp (tp_header (fr_inner s)) (tp_options (fr_inner s)) (tp_payload (fr_inner s)) Hf) as (_ & T1 & T2 & T3 & T4 & _ & T5 & T6 & _ & _ & _ & _ & T7); [lia|].
  unfold tcp_bytes. rewrite T1, T2, T3, T4, T5, T6, T7. reflexivity.
Qed.
Lemma good_received E s : good s -> even_for E s -> receive E (frame_bytes tcp_bytes s) = Ok (Some (described s)).
Proof. intros Hg He. apply receive_on; [apply Hg|apply Hg|apply good_accepted; assumption]. Qed.
(** C82: the receiving program returns a segment exactly for the frames an RFC 793 receiver accepts (with C72's exceptions), and then the one in the frame. *)
Lemma c82_receive : forall E b g, is_bytes b -> wire16 b 16 mod 2 = 0 \/ cursor_eof E = EofKeep ->
  (receive E b = Ok (Some g) <->
   exists s, rfc_tcp b s /\ vf_checksum (fr_ip s) <> 65535 /\ tf_checksum (tp_header (fr_inner s)) <> 65535 /\ g = described s).
Proof.
  intros E b g Hb Hc. split.
  - intros Hr. assert (Ht : receive_tcp E b = Ok true).
    { unfold receive in Hr. destruct (receive_tcp E b) as [[]| |]; [reflexivity|discriminate|discriminate|discriminate]. }
    pose proof Ht as Ht'. apply c72_tcp in Ht'; [|exact Hb|exact Hc]. destruct Ht' as (s & H1 & H2 & H3). exists s. split; [exact H1|]. split; [exact H2|]. split; [exact H3|].
    destruct H1 as (K1 & -> & _ & K2 & _). rewrite receive_on in Hr by assumption. injection Hr as <-. reflexivity.
  - intros (s & H1 & H2 & H3 & ->). assert (Ht : receive_tcp E b = Ok true) by (apply c72_tcp; [exact Hb|exact Hc|exists s; auto]).
    destruct H1 as (K1 & -> & _ & K2 & _). apply receive_on; assumption.
Qed.
(** C82: it never fails on any bytes. *)
Lemma c82_receive_total : forall E b, is_bytes b -> wire16 b 16 mod 2 = 0 \/ cursor_eof E = EofKeep -> exists o, receive E b = Ok o.
Proof.
  intros E b Hb Hc. destruct (c72_total E b Hb) as (_ & _ & H). destruct (H Hc) as [v Hv]. destruct v.
  - pose proof Hv as Ht. apply c72_tcp in Ht; [|exact Hb|exact Hc]. destruct Ht as (s & (K1 & -> & _ & K2 & _) & _). rewrite receive_on by assumption. eauto.
  - exists None. unfold receive. rewrite Hv. reflexivity.
Qed.

(** ** What is sent *)
Definition sent_ip (g : segment) : list v4_setter := [V4SetTtl 64; V4SetSource (at_ip (sg_from g)); V4SetDestination (at_ip (sg_to g))].
Definition sent_header (g : segment) : tcp_fields :=
  Build_tcp_fields (at_port (sg_from g)) (at_port (sg_to g)) (sg_seq g) (sg_ack g) 5 0 (sg_flags g) (sg_window g) 0 0.
Definition sent_frame (g : segment) : tcp_frame :=
  {| fr_ether := {| ef_dst := at_mac (sg_to g); ef_src := at_mac (sg_from g); ef_type := 0x0800 |};
     fr_ip := v4_finished (v4_after (sent_ip g)) 6 (20 + len (sg_data g)); fr_options := [];
     fr_inner := {| tp_header := tcp_finished (at_ip (sg_from g)) (at_ip (sg_to g)) (sent_header g) (sg_data g); tp_options := []; tp_payload := sg_data g |};
     fr_padding := [] |}.
Ltac each := repeat (apply Forall_cons; [cbn; first [assumption|exact I|split; [cbn; assumption|exact I]|split; [vm_compute; reflexivity|exact I]|intros []]|]); apply Forall_nil.
Lemma send_good E g : segment_ok g -> len (sg_data g) mod 2 = 0 \/ cursor_eof E = EofKeep ->
  send E g = Ok (frame_bytes tcp_bytes (sent_frame g)) /\ good (sent_frame g) /\ described (sent_frame g) = g /\ vf_ttl (fr_ip (sent_frame g)) = 64 /\
  len (tcp_bytes (fr_inner (sent_frame g))) = 20 + len (sg_data g).
Proof.
  intros ((F1 & F2 & F3) & (T1 & T2 & T3) & G1 & G2 & G3 & G4 & G5 & G6) Hc.
  set (eops := [EtherSource (at_mac (sg_from g)); EtherDestination (at_mac (sg_to g))]).
  set (ts := [TcpSet (TcpSetSource (at_port (sg_from g))); TcpSet (TcpSetDestination (at_port (sg_to g)));
     TcpSet (TcpSetSequence (sg_seq g)); TcpSet (TcpSetAcknowledgment (sg_ack g)); TcpSet (TcpSetWindow (sg_window g));
     TcpPayload (sg_data g); TcpSet (TcpSetFlags (sg_flags g))]).
  assert (He : eth_ok (Some eops)) by (split; [each|reflexivity]).
  assert (Hv : Forall v4_arg_ok (sent_ip g)) by each.
  assert (Hu : Forall tcp_op_ok ts) by each.
  assert (Hfl : flags_last (tcp_setters ts)) by (unfold flags_last; cbn; each).
  assert (Hp : one_payload (tcp_payloads ts) (sg_data g)) by (left; reflexivity).
  pose proof (c34_tcp_bytes E (Some eops) (sent_ip g) ts (sg_data g) He Hv Hu Hfl Hp ltac:(lia) Hc) as G. cbv zeta in G.
  assert (Ha : tcp_after ts = sent_header g) by reflexivity.
  assert (Hs1 : vf_src (v4_after (sent_ip g)) = at_ip (sg_from g)) by reflexivity.
  assert (Hs2 : vf_dst (v4_after (sent_ip g)) = at_ip (sg_to g)) by reflexivity.
  assert (Hhdr : tcp_fields_ok (sent_header g)).
  { unfold sent_header. repeat split; cbn; try assumption; unfold u16, u32 in *; lia. }
  set (t0 := {| tp_header := sent_header g; tp_options := []; tp_payload := sg_data g |}).
  assert (Hok0 : tcp_packet_ok t0) by (split; [exact Hhdr|split; [left; reflexivity|split; [apply Forall_nil|exact G5]]]).
  assert (Hsum : fr_inner (sent_frame g) = tcp_sum (at_ip (sg_from g)) (at_ip (sg_to g)) t0) by reflexivity.
  set (q := tcp_bytes (fr_inner (sent_frame g))).
  assert (Hlq : len q = 20 + len (sg_data g)) by (unfold q; rewrite tcp_len; cbn [sent_frame fr_inner tp_options tp_payload]; rewrite len_nil; lia).
  assert (Hinner : tcp_packet_ok (fr_inner (sent_frame g))).
  { split; [apply tcp_fill_offset; [exact Hhdr|lia|apply inet_lt]|]. split; [left; reflexivity|split; [apply Forall_nil|exact G5]]. }
  destruct (sent_ok eops (sent_ip g) 6 q He Hv) as (S1 & S2 & S3); [unfold u8; lia|apply tcp_is_bytes, Hinner|lia|].
  assert (Hok : ok_tcp (sent_frame g)).
  { destruct S1 as (K1 & K2 & _). split; [split; [exact T1|split; [exact F1|vm_compute; reflexivity]]|].
    split; [|exact Hinner]. destruct K2 as (Q1 & Q2 & Q3 & Q4 & Q5 & Q6 & Q7). unfold frame_ip, sent in Q1, Q2, Q3, Q4. cbn [vp_header vp_options vp_payload fr_ip fr_options fr_inner] in Q1, Q2, Q3, Q4.
    rewrite Hlq in Q1, Q2, Q3, Q4. split; [exact Q1|]. split; [exact Q2|]. split; [exact Q3|].
    split; [|split; [apply Forall_nil|split; [apply tcp_is_bytes, Hinner|apply Forall_nil]]]. unfold frame_ip. cbn [vp_header vp_options vp_payload]. fold q. rewrite Hlq. exact Q4. }
  assert (Hfin : vf_src (fr_ip (sent_frame g)) = at_ip (sg_from g) /\ vf_dst (fr_ip (sent_frame g)) = at_ip (sg_to g) /\ vf_proto (fr_ip (sent_frame g)) = 6) by (repeat split).
  destruct Hfin as (Hsrc & Hdst & Hpro).
  assert (Hrt : routable (sent_frame g)).
  { destruct S2 as (L1 & L2 & L3). unfold sent in L2, L3. cbn [fr_ip fr_options] in L2, L3. rewrite Hlq in L2, L3. split; [reflexivity|split; assumption]. }
  destruct (tcp_sum_valid (frame_ip tcp_bytes (sent_frame g)) t0) as [V1 V2]; [apply Hok|exact Hok0|reflexivity|rewrite tcp_len; cbn [t0 tp_options tp_payload]; rewrite len_nil; lia|].
  cbn [frame_ip vp_header] in V1, V2. rewrite Hsrc, Hdst in V1, V2. rewrite <- Hsum in V1, V2.
  split; [|split; [|split; [|split]]].
  - unfold send. fold eops. change [V4SetTtl 64; V4SetSource (at_ip (sg_from g)); V4SetDestination (at_ip (sg_to g))] with (sent_ip g). fold ts. rewrite G.
    rewrite Ha, Hs1, Hs2. unfold frame_bytes, tcp_bytes, sent_frame. cbn [fr_ether fr_ip fr_options fr_inner fr_padding tp_header tp_options tp_payload app]. rewrite app_nil_r. reflexivity.
  - apply good_intro; try assumption. reflexivity.
  - destruct g as [[] [] sq ak fl w d]. reflexivity.
  - reflexivity.
  - exact Hlq.
Qed.
(** C82: what one program sends the other receives, field for field. *)
Lemma c82_send : forall E E' g, segment_ok g -> len (sg_data g) mod 2 = 0 \/ (cursor_eof E = EofKeep /\ cursor_eof E' = EofKeep) ->
  exists b, send E g = Ok b /\ is_bytes b /\ receive E' b = Ok (Some g).
Proof.
  intros E E' g Hg Hc. destruct (send_good E g Hg ltac:(tauto)) as (S1 & S2 & S3 & _ & S5). eexists. split; [exact S1|]. split.
  - rewrite frame_bytes_ip. destruct S2 as ((K & _) & _). apply is_bytes_app. split; [apply is_bytes_ether_wire, K|apply v4_is_bytes, K].
  - rewrite <- S3 at 2. apply good_received; [exact S2|]. unfold even_for. rewrite S5. destruct Hc as [Hc|[_ Hc]]; [left; lia|right; exact Hc].
Qed.

(** ** Ways *)
Definition hop_cost (s : middlebox) : N := match s with Hop _ => 1 | _ => 0 end.
Lemma nat_step E vs ts s : good s -> even_for E s -> Forall v4_setter_ok vs -> Forall keeps_protocol vs -> Forall tcp_setter_ok ts -> Forall (fun o => ~ tcp_is_flags o) ts ->
  rewrite_tcp E vs ts (frame_bytes tcp_bytes s) = (frame_bytes tcp_bytes (rewritten_tcp vs ts s), Ok tt) /\ good (rewritten_tcp vs ts s) /\
  len (tcp_bytes (fr_inner (rewritten_tcp vs ts s))) = len (tcp_bytes (fr_inner s)).
Proof.
  intros Hg Hc Hv Hk Hu Hf. pose proof Hg as ((H1 & _ & (Ht & Hp & _) & Hsp & _) & _).
  destruct (c77_tcp E vs ts s H1 Hsp Hv Hu Hf Hc) as [R1 R2]. split; [exact R1|].
  destruct (ip_edited_routable tcp_bytes tcp_packet_ok vs s H1 Hv Ht) as [I1 (_ & I2 & _)].
  destruct (tcp_clean_assigns ts (fr_inner s) Hf Hsp) as (P0 & P1 & P2). pose proof (tcp_inner_len s H1) as Hm. pose proof (tcp_assigns_len ts (fr_inner s)) as Hal.
  assert (Hlen : len (tcp_bytes (fr_inner (rewritten_tcp vs ts s))) = len (tcp_bytes (fr_inner s))).
  { rewrite !tcp_len. cbn [rewritten_tcp fr_inner tcp_sum tcp_store tp_payload tp_options]. rewrite P1, P2. reflexivity. }
  split; [|exact Hlen].
  destruct (tcp_sum_valid (frame_ip tcp_bytes (ip_edited vs s)) (assigns tcp_assign ts (fr_inner s))) as [V1 V2]; [exact I2|apply tcp_assigns_ok; [apply H1|exact Hu]|exact P0|lia|].
  apply good_intro; [exact R2|exact I1| |exact P0|exact V1|exact V2].
  cbn [rewritten_tcp fr_ip v4_sum v4_summed v4_fields_with vf_proto]. rewrite keeps_proto by exact Hk. exact Hp.
Qed.
Lemma described_from a port s : tcp_spoiled (fr_inner s) = false ->
  described (rewritten_tcp [V4SetSource a] [TcpSetSource port] s) = stepped (SetFrom a port) (described s).
Proof. intros H. unfold rewritten_tcp, assigns. cbn [fold_left]. unfold tcp_assign. rewrite H. reflexivity. Qed.
Lemma described_to a port s : tcp_spoiled (fr_inner s) = false ->
  described (rewritten_tcp [V4SetDestination a] [TcpSetDestination port] s) = stepped (SetTo a port) (described s).
Proof. intros H. unfold rewritten_tcp, assigns. cbn [fold_left]. unfold tcp_assign. rewrite H. reflexivity. Qed.
Lemma step_good E st s : good s -> even_for E s -> step_ok st -> 1 + hop_cost st <= vf_ttl (fr_ip s) ->
  exists s', take_step E st (frame_bytes tcp_bytes s) = (frame_bytes tcp_bytes s', Ok tt) /\ good s' /\ described s' = stepped st (described s) /\
    vf_ttl (fr_ip s') = vf_ttl (fr_ip s) - hop_cost st /\ len (tcp_bytes (fr_inner s')) = len (tcp_bytes (fr_inner s)).
Proof.
  intros Hg Hc Hst Ht. pose proof (good_routable s Hg) as Hr. pose proof Hg as ((H1 & _ & (_ & Hp & _) & Hsp & Hsum) & _ & Hck).
  destruct st as [h|a port|a port]; cbn [take_step hop_cost step_ok] in *.
  - destruct (router_on tcp_bytes tcp_packet_ok E h s H1) as [R _]. destruct (R Hr ltac:(lia)) as (R1 & R2 & R3). clear R.
    exists (readdressed h (vf_ttl (fr_ip s) - 1) s). split; [exact R1|]. split; [|repeat split].
    apply good_intro; [apply R2; exact Hst|exact R3|exact Hp|exact Hsp| |exact Hck]. unfold sums_up in Hsum. rewrite Hp in Hsum. exact Hsum.
  - destruct Hst as [Ha Hport]. destruct (nat_step E [V4SetSource a] [TcpSetSource port] s Hg Hc) as (R1 & R2 & R3);
      [apply Forall_cons; [exact Ha|apply Forall_nil]|apply Forall_cons; [exact I|apply Forall_nil]|apply Forall_cons; [exact Hport|apply Forall_nil]|apply Forall_cons; [intros []|apply Forall_nil]|].
    eexists. split; [exact R1|]. split; [exact R2|]. split; [apply described_from; exact Hsp|]. split; [|exact R3].
    cbn [rewritten_tcp fr_ip v4_sum v4_summed v4_fields_with vf_ttl assigns fold_left v4_assign fst]. lia.
  - destruct Hst as [Ha Hport]. destruct (nat_step E [V4SetDestination a] [TcpSetDestination port] s Hg Hc) as (R1 & R2 & R3);
      [apply Forall_cons; [exact Ha|apply Forall_nil]|apply Forall_cons; [exact I|apply Forall_nil]|apply Forall_cons; [exact Hport|apply Forall_nil]|apply Forall_cons; [intros []|apply Forall_nil]|].
    eexists. split; [exact R1|]. split; [exact R2|]. split; [apply described_to; exact Hsp|]. split; [|exact R3].
    cbn [rewritten_tcp fr_ip v4_sum v4_summed v4_fields_with vf_ttl assigns fold_left v4_assign fst]. lia.
Qed.
Lemma way_good E steps : Forall step_ok steps -> forall s, good s -> even_for E s -> N.of_nat (hops steps) < vf_ttl (fr_ip s) ->
  exists s', way E steps (frame_bytes tcp_bytes s) = (frame_bytes tcp_bytes s', Ok tt) /\ good s' /\ described s' = arrives steps (described s) /\
    len (tcp_bytes (fr_inner s')) = len (tcp_bytes (fr_inner s)).
Proof.
  induction 1 as [|st steps Hst Hs IH]; intros s Hg Hc Ht.
  { exists s. repeat split; try reflexivity; apply Hg. }
  assert (Hh : N.of_nat (hops (st :: steps)) = hop_cost st + N.of_nat (hops steps)) by (unfold hops; destruct st; cbn [filter length hop_cost]; lia).
  rewrite Hh in Ht. destruct (step_good E st s Hg Hc Hst ltac:(lia)) as (s1 & S1 & S2 & S3 & S4 & S5).
  destruct (IH s1 S2) as (s2 & W1 & W2 & W3 & W4); [unfold even_for in *; rewrite S5; exact Hc|lia|].
  exists s2. split; [cbn [way]; unfold mseq; rewrite S1; exact W1|]. split; [exact W2|]. split; [|congruence].
  rewrite W3, S3. reflexivity.
Qed.
(** C82: across any number of routers (fewer than the 64 the TTL allows) and translators, in any order, a segment arrives with the data, sequence numbers and flags it was sent with. *)
Lemma c82_way : forall E Er E' steps g, segment_ok g -> Forall step_ok steps -> (hops steps < 64)%nat ->
  len (sg_data g) mod 2 = 0 \/ (cursor_eof E = EofKeep /\ cursor_eof Er = EofKeep /\ cursor_eof E' = EofKeep) ->
  exists b b', send E g = Ok b /\ way Er steps b = (b', Ok tt) /\ is_bytes b' /\ receive E' b' = Ok (Some (arrives steps g)).
Proof.
  intros E Er E' steps g Hg Hs Hh Hc. destruct (send_good E g Hg ltac:(tauto)) as (S1 & S2 & S3 & S4 & S5).
  destruct (way_good Er steps Hs (sent_frame g) S2) as (s' & W1 & W2 & W3 & W4);
    [unfold even_for; rewrite S5; destruct Hc as [Hc|(_ & Hc & _)]; [left; lia|right; exact Hc]|rewrite S4; lia|].
  eexists _, _. split; [exact S1|]. split; [exact W1|]. split.
  - rewrite frame_bytes_ip. destruct W2 as ((K & _) & _). apply is_bytes_app. split; [apply is_bytes_ether_wire, K|apply v4_is_bytes, K].
  - rewrite <- S3, <- W3. apply good_received; [exact W2|]. unfold even_for. rewrite W4, S5. destruct Hc as [Hc|(_ & _ & Hc)]; [left; lia|right; exact Hc].
Qed.

(** ** Opening a connection *)
Definition ends_ok (g : segment) : Prop := endpoint_ok (sg_from g) /\ endpoint_ok (sg_to g) /\ u32 (sg_seq g).
Lemma described_ends s : ok_tcp s -> ends_ok (described s).
Proof.
  intros ((E1 & E2 & _) & (V1 & _) & (T1 & _)). cbn [frame_ip vp_header] in V1.
  unfold v4_fields_ok in V1. unfold tcp_fields_ok in T1. unfold ends_ok, endpoint_ok, described. cbn. tauto.
Qed.
Lemma same_end_iff x y : same_end x y = true <-> at_ip x = at_ip y /\ at_port x = at_port y.
Proof.
  unfold same_end. destruct x as [? [a b c d] p], y as [? [a' b' c' d'] p']. cbn. rewrite !andb_true_iff, !N.eqb_eq. split.
  - intros ((((-> & ->) & ->) & ->) & ->). auto.
  - intros [H ->]. injection H as -> -> -> ->. auto.
Qed.
Lemma answering_ok g seq flags window data : ends_ok g -> u32 seq -> flags < 512 -> u16 window -> is_bytes data -> 40 + len data <= 65535 ->
  segment_ok (answering g seq flags window data).
Proof. intros (H1 & H2 & H3) ? ? ? ? ?. unfold segment_ok, answering, succ32, u32 in *. cbn. repeat split; try assumption; try apply H1; try apply H2; lia. Qed.
Lemma react_cases E decide b : is_bytes b -> wire16 b 16 mod 2 = 0 \/ cursor_eof E = EofKeep ->
  (forall g r, ends_ok g -> decide g = Some r -> segment_ok r /\ (len (sg_data r) mod 2 = 0 \/ cursor_eof E = EofKeep)) ->
  (exists g r b', receive E b = Ok (Some g) /\ decide g = Some r /\ send E r = Ok b' /\ is_bytes b' /\ react E decide b = Ok (Some b')) \/
  (react E decide b = Ok None /\ forall g, receive E b = Ok (Some g) -> decide g = None).
Proof.
  intros Hb Hc Hd. unfold react. destruct (c82_receive_total E b Hb Hc) as [[g|] Hr]; rewrite Hr; cbn [bind]; [|right; split; [reflexivity|intros g; discriminate]].
  destruct (decide g) as [r|] eqn:D; [|right; split; [reflexivity|intros g' H; injection H as <-; exact D]].
  left. pose proof Hr as Hr'. apply c82_receive in Hr'; [|exact Hb|exact Hc]. destruct Hr' as (s & (K & _) & _ & _ & ->).
  destruct (Hd _ _ (described_ends s K) D) as [R1 R2]. destruct (send_good E r R1 R2) as (S & (B & _) & _).
  exists (described s), r. eexists. rewrite S. repeat split; try reflexivity; [exact D|].
  rewrite frame_bytes_ip. apply is_bytes_app. split; [apply is_bytes_ether_wire, B|apply v4_is_bytes, B].
Qed.
Lemma react_iff E decide (P : tcp_frame -> Prop) (answer : segment -> segment) b : is_bytes b -> wire16 b 16 mod 2 = 0 \/ cursor_eof E = EofKeep ->
  (forall s, decide (described s) = Some (answer (described s)) <-> P s) -> (forall g r, decide g = Some r -> r = answer g) ->
  (forall g r, ends_ok g -> decide g = Some r -> segment_ok r /\ (len (sg_data r) mod 2 = 0 \/ cursor_eof E = EofKeep)) ->
  (exists o, react E decide b = Ok o) /\
  forall b', react E decide b = Ok (Some b') <->
    exists s, rfc_tcp b s /\ vf_checksum (fr_ip s) <> 65535 /\ tf_checksum (tp_header (fr_inner s)) <> 65535 /\ P s /\ send E (answer (described s)) = Ok b'.
Proof.
  intros Hb Hc HP Ha Hd. destruct (react_cases E decide b Hb Hc Hd) as [(g & r & b0 & R1 & R2 & R3 & _ & R5)|[R1 R2]].
  - split; [eauto|]. intros b'. rewrite R5. pose proof (Ha _ _ R2) as ->. pose proof R1 as R1'. apply c82_receive in R1'; [|exact Hb|exact Hc].
    destruct R1' as (s & K1 & K2 & K3 & ->). split.
    + intros H. injection H as <-. exists s. repeat split; try assumption; try apply K1. apply HP. exact R2.
    + intros (s' & L1 & L2 & L3 & L4 & L5). assert (described s = described s').
      { assert (receive E b = Ok (Some (described s'))) by (apply c82_receive; [exact Hb|exact Hc|exists s'; auto]). congruence. }
      rewrite H in R3. congruence.
  - split; [eauto|]. intros b'. rewrite R1. split; [discriminate|]. intros (s' & L1 & L2 & L3 & L4 & L5). exfalso.
    assert (receive E b = Ok (Some (described s'))) by (apply c82_receive; [exact Hb|exact Hc|exists s'; auto]).
    apply HP in L4. rewrite (R2 _ H) in L4. discriminate.
Qed.
(** C82: the listening program never fails on any bytes, and answers exactly the frames that hold, for an RFC 793 receiver, a segment for its address and port with SYN alone set. *)
Lemma c82_listen : forall E me isn window b, is_bytes b -> wire16 b 16 mod 2 = 0 \/ cursor_eof E = EofKeep -> u32 isn -> u16 window ->
  (exists o, listen E me isn window b = Ok o) /\
  forall b', listen E me isn window b = Ok (Some b') <->
    exists s, rfc_tcp b s /\ vf_checksum (fr_ip s) <> 65535 /\ tf_checksum (tp_header (fr_inner s)) <> 65535 /\
      (vf_dst (fr_ip s) = at_ip me /\ tf_dst (tp_header (fr_inner s)) = at_port me /\ tf_flags (tp_header (fr_inner s)) = SYN) /\
      send E (answering (described s) isn SYN_ACK window []) = Ok b'.
Proof.
  intros E me isn window b Hb Hc Hi Hw. unfold listen.
  apply react_iff with (answer := fun g => answering g isn SYN_ACK window []); [exact Hb|exact Hc| | |].
  - intros s. unfold on_syn. assert (Hx := same_end_iff (sg_to (described s)) me). cbn [described sg_to at_ip at_port sg_flags] in Hx |- *.
    destruct (same_end _ me) eqn:?; destruct (tf_flags _ =? SYN) eqn:Hf; cbn [andb]; (split; [try discriminate|intros (A1 & A2 & A3); try reflexivity; exfalso]).
    + intros _. destruct (proj1 Hx eq_refl). split; [assumption|]. split; [assumption|apply N.eqb_eq; exact Hf].
    + rewrite A3 in Hf. vm_compute in Hf. discriminate.
    + discriminate (proj2 Hx (conj A1 A2)).
    + discriminate (proj2 Hx (conj A1 A2)).
  - unfold on_syn. intros g r. destruct (_ && _); [|discriminate]. intros H. injection H as <-. reflexivity.
  - unfold on_syn. intros g r Hg. destruct (_ && _); [|discriminate]. intros H. injection H as <-. split; [|left; reflexivity].
    apply answering_ok; [exact Hg|exact Hi|vm_compute; reflexivity|exact Hw|apply Forall_nil|rewrite len_nil; lia].
Qed.
(** C82: the connecting program never fails either, and confirms exactly the segments from the peer to it with SYN and ACK alone set that acknowledge its own sequence number plus one. *)
Lemma c82_confirm : forall E me peer isn window data b, is_bytes b -> wire16 b 16 mod 2 = 0 \/ cursor_eof E = EofKeep -> u16 window ->
  is_bytes data -> 40 + len data <= 65535 -> len data mod 2 = 0 \/ cursor_eof E = EofKeep ->
  (exists o, confirm E me peer isn window data b = Ok o) /\
  forall b', confirm E me peer isn window data b = Ok (Some b') <->
    exists s, rfc_tcp b s /\ vf_checksum (fr_ip s) <> 65535 /\ tf_checksum (tp_header (fr_inner s)) <> 65535 /\
      (vf_dst (fr_ip s) = at_ip me /\ tf_dst (tp_header (fr_inner s)) = at_port me /\ vf_src (fr_ip s) = at_ip peer /\ tf_src (tp_header (fr_inner s)) = at_port peer /\
       tf_flags (tp_header (fr_inner s)) = SYN_ACK /\ tf_ack (tp_header (fr_inner s)) = succ32 isn) /\
      send E (answering (described s) (succ32 isn) ACK window data) = Ok b'.
Proof.
  intros E me peer isn window data b Hb Hc Hw Hd Hl Hp. unfold confirm.
  apply react_iff with (answer := fun g => answering g (succ32 isn) ACK window data); [exact Hb|exact Hc| | |].
  - intros s. unfold on_syn_ack. assert (Hx := same_end_iff (sg_to (described s)) me). assert (Hy := same_end_iff (sg_from (described s)) peer).
    cbn [described sg_to sg_from at_ip at_port sg_flags sg_ack] in Hx, Hy |- *.
    match goal with |- (if ?c then _ else _) = _ <-> ?P => assert (Hz : c = true <-> P) by (rewrite !andb_true_iff, Hx, Hy, !N.eqb_eq; tauto); destruct c end.
    + tauto.
    + split; [discriminate|intros H; discriminate (proj2 Hz H)].
  - unfold on_syn_ack. intros g r. destruct (_ && _); [|discriminate]. intros H. injection H as <-. reflexivity.
  - unfold on_syn_ack. intros g r Hg. destruct (_ && _); [|discriminate]. intros H. injection H as <-. split; [|exact Hp].
    apply answering_ok; [exact Hg|unfold succ32, u32; lia|vm_compute; reflexivity|exact Hw|exact Hd|exact Hl].
Qed.
(** C82: and the listening program accepts exactly the segments for it with ACK alone set that acknowledge its own sequence number plus one, never failing. *)
Lemma c82_accept : forall E me isn b, is_bytes b -> wire16 b 16 mod 2 = 0 \/ cursor_eof E = EofKeep ->
  (exists o, accept E me isn b = Ok o) /\
  forall a port seq data, accept E me isn b = Ok (Some (a, port, seq, data)) <->
    exists s, rfc_tcp b s /\ vf_checksum (fr_ip s) <> 65535 /\ tf_checksum (tp_header (fr_inner s)) <> 65535 /\
      vf_dst (fr_ip s) = at_ip me /\ tf_dst (tp_header (fr_inner s)) = at_port me /\
      tf_flags (tp_header (fr_inner s)) = ACK /\ tf_ack (tp_header (fr_inner s)) = succ32 isn /\
      vf_src (fr_ip s) = a /\ tf_src (tp_header (fr_inner s)) = port /\ tf_seq (tp_header (fr_inner s)) = seq /\ tp_payload (fr_inner s) = data.
Proof.
  intros E me isn b Hb Hc. unfold accept. split.
  { destruct (c82_receive_total E b Hb Hc) as [o ->]. cbn [bind]. eauto. }
  intros a port seq data. split.
  - destruct (c82_receive_total E b Hb Hc) as [[g|] Hr]; rewrite Hr; cbn [bind]; [|discriminate]. apply c82_receive in Hr; [|exact Hb|exact Hc].
    destruct Hr as (s & K1 & K2 & K3 & ->). unfold on_ack. destruct (_ && _) eqn:C; [|discriminate]. rewrite !andb_true_iff, same_end_iff, !N.eqb_eq in C.
    intros H. injection H as <- <- <- <-. exists s. cbn [described sg_to sg_flags sg_ack at_ip at_port] in C. tauto.
  - intros (s & K1 & K2 & K3 & A1 & A2 & A3 & A4 & <- & <- & <- & <-).
    assert (Hr : receive E b = Ok (Some (described s))) by (apply c82_receive; [exact Hb|exact Hc|exists s; auto]). rewrite Hr. cbn [bind].
    unfold on_ack. assert (C : same_end (sg_to (described s)) me && (sg_flags (described s) =? ACK) && (sg_ack (described s) =? succ32 isn) = true).
    { rewrite !andb_true_iff, same_end_iff, !N.eqb_eq. cbn [described sg_to sg_flags sg_ack at_ip at_port]. tauto. }
    rewrite C. reflexivity.
Qed.
Lemma arrives_keeps steps : forall g, let g' := arrives steps g in
  sg_seq g' = sg_seq g /\ sg_ack g' = sg_ack g /\ sg_flags g' = sg_flags g /\ sg_window g' = sg_window g /\ sg_data g' = sg_data g.
Proof.
  induction steps as [|s steps IH]; intros g; cbn [arrives fold_left]; [repeat split|].
  change (fold_left _ steps (stepped s g)) with (arrives steps (stepped s g)). specialize (IH (stepped s g)). cbv zeta in IH |- *.
  destruct IH as (-> & -> & -> & -> & ->). destruct s; repeat split.
Qed.
Lemma leg E Er E' steps g : segment_ok g -> Forall step_ok steps -> (hops steps < 64)%nat ->
  len (sg_data g) mod 2 = 0 \/ (cursor_eof E = EofKeep /\ cursor_eof Er = EofKeep /\ cursor_eof E' = EofKeep) ->
  exists b b', send E g = Ok b /\ way Er steps b = (b', Ok tt) /\ receive E' b' = Ok (Some (arrives steps g)) /\ ends_ok (arrives steps g).
Proof.
  intros Hg Hs Hh Hc. destruct (send_good E g Hg ltac:(tauto)) as (S1 & S2 & S3 & S4 & S5).
  destruct (way_good Er steps Hs (sent_frame g) S2) as (s' & W1 & W2 & W3 & W4);
    [unfold even_for; rewrite S5; destruct Hc as [Hc|(_ & Hc & _)]; [left; lia|right; exact Hc]|rewrite S4; lia|].
  eexists _, _. split; [exact S1|]. split; [exact W1|]. rewrite <- S3, <- W3. split.
  - apply good_received; [exact W2|]. unfold even_for. rewrite W4, S5. destruct Hc as [Hc|(_ & _ & Hc)]; [left; lia|right; exact Hc].
  - apply described_ends, W2.
Qed.
Lemma ends_fields g f t : ends g = (f, t) -> at_ip (sg_from g) = fst f /\ at_port (sg_from g) = snd f /\ at_ip (sg_to g) = fst t /\ at_port (sg_to g) = snd t.
Proof. intros H. injection H as <- <-. repeat split. Qed.
(** C82: a client and a server, on any ways there and back of fewer than 64 routers each and any translators, that deliver what the client sends its peer to the
    server and what the server answers to the client as the peer's, open a connection: for all sequence numbers, windows and first data, each of the three
    segments is built, carried and accepted, and the server ends with the client's address and port as it sees them, its sequence number plus one and its data. *)
Lemma c82_handshake : forall E E' Er Er' forth back client peer server x isn isn' w w' data,
  endpoint_ok client -> endpoint_ok peer -> endpoint_ok server -> u32 isn -> u32 isn' -> u16 w -> u16 w' -> is_bytes data -> 40 + len data <= 65535 ->
  len data mod 2 = 0 \/ (cursor_eof E = EofKeep /\ cursor_eof Er = EofKeep /\ cursor_eof E' = EofKeep) ->
  Forall step_ok forth -> (hops forth < 64)%nat -> Forall step_ok back -> (hops back < 64)%nat ->
  delivers forth (end_of client) (end_of peer) x (end_of server) -> delivers back (end_of server) x (end_of peer) (end_of client) ->
  exists syn syn' syn_ack syn_ack' ack ack',
    connect E client peer isn w = Ok syn /\ way Er forth syn = (syn', Ok tt) /\
    listen E' server isn' w' syn' = Ok (Some syn_ack) /\ way Er' back syn_ack = (syn_ack', Ok tt) /\
    confirm E client peer isn w data syn_ack' = Ok (Some ack) /\ way Er forth ack = (ack', Ok tt) /\
    accept E' server isn' ack' = Ok (Some (fst x, snd x, succ32 isn, data)).
Proof.
  intros E E' Er Er' forth back client peer server x isn isn' w w' data Hcl Hpe Hse Hi Hi' Hw Hw' Hd Hl Hp Hf Hfh Hb Hbh Df Db.
  set (g1 := first_segment client peer isn w).
  assert (G1 : segment_ok g1).
  { unfold g1, segment_ok, first_segment, u32 in *. cbn. repeat split; try apply Hcl; try apply Hpe; try assumption; try apply Forall_nil; lia. }
  destruct (leg E Er E' forth g1 G1 Hf Hfh ltac:(left; reflexivity)) as (syn & syn' & A1 & A2 & A3 & A4).
  set (h1 := arrives forth g1) in *. destruct (arrives_keeps forth g1) as (K1 & K2 & K3 & K4 & K5). fold h1 in K1, K2, K3, K4, K5.
  destruct (ends_fields _ _ _ (Df g1 eq_refl)) as (N1 & N2 & N3 & N4). fold h1 in N1, N2, N3, N4. cbn [end_of fst snd] in N3, N4.
  set (g2 := answering h1 isn' SYN_ACK w' []).
  assert (G2 : segment_ok g2) by (apply answering_ok; [exact A4|exact Hi'|vm_compute; reflexivity|exact Hw'|apply Forall_nil|rewrite len_nil; lia]).
  destruct (leg E' Er' E back g2 G2 Hb Hbh ltac:(left; reflexivity)) as (syn_ack & syn_ack' & B1 & B2 & B3 & B4).
  set (h2 := arrives back g2) in *. destruct (arrives_keeps back g2) as (L1 & L2 & L3 & L4 & L5). fold h2 in L1, L2, L3, L4, L5.
  assert (E2 : ends g2 = (end_of server, x)).
  { unfold g2, ends, answering, end_of. cbn [sg_from sg_to]. rewrite N1, N2, N3, N4. destruct x; reflexivity. }
  destruct (ends_fields _ _ _ (Db g2 E2)) as (M1 & M2 & M3 & M4). fold h2 in M1, M2, M3, M4. cbn [end_of fst snd] in M1, M2, M3, M4.
  set (g3 := answering h2 (succ32 isn) ACK w data).
  assert (G3 : segment_ok g3) by (apply answering_ok; [exact B4|unfold succ32, u32; lia|vm_compute; reflexivity|exact Hw|exact Hd|exact Hl]).
  destruct (leg E Er E' forth g3 G3 Hf Hfh Hp) as (ack & ack' & C1 & C2 & C3 & C4).
  set (h3 := arrives forth g3) in *. destruct (arrives_keeps forth g3) as (P1 & P2 & P3 & P4 & P5). fold h3 in P1, P2, P3, P4, P5.
  assert (E3 : ends g3 = (end_of client, end_of peer)).
  { unfold g3, ends, answering, end_of. cbn [sg_from sg_to]. rewrite M1, M2, M3, M4. reflexivity. }
  destruct (ends_fields _ _ _ (Df g3 E3)) as (Q1 & Q2 & Q3 & Q4). fold h3 in Q1, Q2, Q3, Q4. cbn [end_of fst snd] in Q3, Q4.
  exists syn, syn', syn_ack, syn_ack', ack, ack'. split; [exact A1|]. split; [exact A2|]. split; [|split; [exact B2|split; [|split; [exact C2|]]]].
  - unfold listen, react. rewrite A3. cbn [bind]. unfold on_syn.
    assert (R : same_end (sg_to h1) server && (sg_flags h1 =? SYN) = true) by (rewrite andb_true_iff, same_end_iff, N.eqb_eq, K3; auto).
    rewrite R. fold g2. rewrite B1. reflexivity.
  - unfold confirm, react. rewrite B3. cbn [bind]. unfold on_syn_ack.
    assert (R : same_end (sg_to h2) client && same_end (sg_from h2) peer && (sg_flags h2 =? SYN_ACK) && (sg_ack h2 =? succ32 isn) = true).
    { rewrite !andb_true_iff, !same_end_iff, !N.eqb_eq, L2, L3. unfold g2. cbn [answering sg_ack sg_flags]. rewrite K1. auto. }
    rewrite R. fold g3. rewrite C1. reflexivity.
  - unfold accept. rewrite C3. cbn [bind]. unfold on_ack.
    assert (R : same_end (sg_to h3) server && (sg_flags h3 =? ACK) && (sg_ack h3 =? succ32 isn') = true).
    { rewrite !andb_true_iff, !same_end_iff, !N.eqb_eq, P2, P3. unfold g3. cbn [answering sg_ack sg_flags]. rewrite L1. auto. }
    rewrite R, Q1, Q2, P1, P5. reflexivity.
Qed.
Example c82_example_ways : Forall step_ok x_forth /\ Forall step_ok x_back /\ hops x_forth = 2%nat /\ hops x_back = 2%nat /\
  delivers x_forth (end_of x_client) (end_of x_peer) x_outside (end_of x_server) /\ delivers x_back (end_of x_server) x_outside (end_of x_peer) (end_of x_client).
Proof.
  split; [repeat first [apply Forall_cons; [vm_compute; repeat split|]|apply Forall_nil]|]. split; [repeat first [apply Forall_cons; [vm_compute; repeat split|]|apply Forall_nil]|].
  do 2 (split; [reflexivity|]).
  split; intros g H; injection H as H1 H2 H3 H4; unfold arrives, x_forth, x_back, ends; cbn; rewrite ?H1, ?H2, ?H3, ?H4; reflexivity.
Qed.
(** Sequence numbers wrap, and both translators rewrite both ends. *)
Example c82_example : forall E, exists syn syn_ack ack,
  connect E x_client x_peer 4294967295 1000 = Ok syn /\
  listen E x_server 7 2000 (fst (way E x_forth syn)) = Ok (Some syn_ack) /\
  confirm E x_client x_peer 4294967295 1000 [1; 2; 3; 4] (fst (way E x_back syn_ack)) = Ok (Some ack) /\
  accept E x_server 7 (fst (way E x_forth ack)) = Ok (Some (fst x_outside, snd x_outside, 0, [1; 2; 3; 4])).
Proof. intros [[] [] []]; do 3 eexists; (split; [vm_compute; reflexivity|]); (split; [vm_compute; reflexivity|]); (split; [vm_compute; reflexivity|]); vm_compute; reflexivity. Qed.
(** Answers to something else are not confirmed: another's acknowledgement, or a reset. *)
Example c82_example_refused : forall E, exists syn syn_ack,
  connect E x_client x_peer 5 1000 = Ok syn /\ listen E x_server 7 2000 (fst (way E x_forth syn)) = Ok (Some syn_ack) /\
  confirm E x_client x_peer 4 1000 [] (fst (way E x_back syn_ack)) = Ok None /\
  confirm E x_client x_server 5 1000 [] (fst (way E x_back syn_ack)) = Ok None /\
  confirm E x_client x_peer 5 1000 [] syn_ack = Ok None /\ accept E x_server 7 (fst (way E x_forth syn)) = Ok None.
Proof. intros [[] [] []]; do 2 eexists; do 2 (split; [vm_compute; reflexivity|]); do 3 (split; [vm_compute; reflexivity|]); vm_compute; reflexivity. Qed.
