(** * RouteProofs: routers in a row, and a ping there and back (C76). *)
From Verif Require Import Base Enums Buffer Ether Ipv4 Ip Udp Tcp Icmp Spec SpecCalls SpecEdit SpecForward SpecMachine SpecReceiver SpecRoute Mutable Lemmas AccessProofs
  ParseProofs FieldProofs SliceProofs MutableProofs EnumProofs ChecksumLemmas ChecksumProofs GuardProofs EditProofs ForwardProofs FrameProofs
  CorruptProofs SpecBuild BuildLemmas FinalLemmas ReadLemmas BuilderProofs ChainLemmas MessageProofs MachineProofs FrameMachineProofs ReceiverProofs.
From Coq Require Import ZifyBool ZifyNat ZifyN.
Ltac Zify.zify_post_hook ::= Z.div_mod_to_equations.

Definition adds_up (p : v4_packet) : Prop := receiver_accepts (v4_wire (vp_header p) ++ vp_options p) /\ vf_checksum (vp_header p) <> 65535.
Lemma checksum_cell p : v4_packet_ok p -> wire16 (v4_bytes p) 10 = vf_checksum (vp_header p).
Proof.
  intros ((_ & _ & _ & _ & _ & _ & _ & _ & _ & H & _) & _). unfold u16 in H.
  change (vf_checksum (vp_header p) / 256 * 256 + vf_checksum (vp_header p) mod 256 = vf_checksum (vp_header p)). lia.
Qed.
Lemma total_cell p : v4_packet_ok p -> wire16 (v4_bytes p) 2 = vf_total (vp_header p).
Proof.
  intros ((_ & _ & _ & _ & H & _) & _). unfold u16 in H.
  change (vf_total (vp_header p) / 256 * 256 + vf_total (vp_header p) mod 256 = vf_total (vp_header p)). lia.
Qed.
Lemma ihl5 p : v4_packet_ok p -> 5 <= vf_ihl (vp_header p).
Proof. intros (_ & _ & H & _). lia. Qed.
Lemma valid_iff E p : v4_packet_ok p -> (v4_is_valid E (v4_bytes p) = Ok true <-> adds_up p).
Proof.
  intros Hp. pose proof (ihl5 p Hp) as H5. rewrite c20_v4_is_valid_receiver; [|apply v4_is_bytes, Hp|apply v4_no_payload_bytes, Hp|rewrite v4_ihl_bytes by exact Hp; lia].
  rewrite v4_ihl_bytes, v4_wire_parts, checksum_cell by exact Hp. reflexivity.
Qed.
Lemma valid_total E p : v4_packet_ok p -> exists v, v4_is_valid E (v4_bytes p) = Ok v.
Proof.
  intros Hp. pose proof (ihl5 p Hp) as H5. eexists.
  apply c20_v4_is_valid; [apply v4_is_bytes, Hp|apply v4_no_payload_bytes, Hp|rewrite v4_ihl_bytes by exact Hp; lia].
Qed.
Lemma forward_on E p : v4_packet_ok p ->
  (adds_up p -> 2 <= vf_ttl (vp_header p) ->
   let q := with_header p (v4_sum (vp_options p) (with_ttl (vf_ttl (vp_header p) - 1) (vp_header p))) in
   forward_datagram E (v4_bytes p) = (v4_bytes q, Ok tt) /\ v4_packet_ok q /\ adds_up q) /\
  (~ (adds_up p /\ 2 <= vf_ttl (vp_header p)) -> forward_datagram E (v4_bytes p) = (v4_bytes p, Err InvalidPacket)).
Proof.
  intros Hp. pose proof (ihl5 p Hp) as H5. assert (H20 : 20 <= len (v4_bytes p)) by (rewrite v4_len; lia).
  assert (Ht : v4_ttl (v4_bytes p) = Ok (vf_ttl (vp_header p))) by (unfold v4_ttl; rewrite index_ok by lia; reflexivity).
  assert (Htot : vf_total (vp_header p) <? vf_ihl (vp_header p) * 4 = false) by (destruct Hp as (_ & _ & Hi & Htot & _); lia).
  unfold forward_datagram, mlet. rewrite v4_ihl_ok by lia. rewrite v4_ihl_bytes by exact Hp.
  replace (vf_ihl (vp_header p) <? 5) with false by lia. rewrite v4_length_ok by lia. rewrite total_cell by exact Hp. rewrite Htot.
  destruct (valid_total E p Hp) as [v Hv]. rewrite Hv. pose proof (valid_iff E p Hp) as Hiff. rewrite Hv in Hiff. split.
  - intros Ha H2. apply Hiff in Ha as Hv'. apply Ok_inj in Hv'. subst v. cbn [negb]. rewrite Ht. replace (vf_ttl (vp_header p) <=? 1) with false by lia.
    assert (Hok : v4_action_ok (Checked [V4SetTtl (vf_ttl (vp_header p) - 1)])).
    { apply Forall_cons; [|apply Forall_nil]. destruct Hp as ((_ & _ & _ & _ & _ & _ & _ & H & _) & _). cbn. unfold u8 in *. lia. }
    destruct (v4_step E _ p Hp Hok) as [G1 G2]. cbn [v4_do snd fst v4_act] in *. destruct (G2 ltac:(discriminate)) as (G3 & G4 & G5).
    assert (HG : v4_checked E [V4SetTtl (vf_ttl (vp_header p) - 1)] (v4_bytes p) =
      (v4_bytes (with_header p (v4_sum (vp_options p) (with_ttl (vf_ttl (vp_header p) - 1) (vp_header p)))), Ok tt)).
    { rewrite (surjective_pairing (v4_checked _ _ _)). rewrite G1, G3. reflexivity. }
    split; [exact HG|]. split; [exact G4|]. apply (valid_iff E); [exact G4|].
    destruct (c25_v4 E [V4SetTtl (vf_ttl (vp_header p) - 1)] (v4_bytes p) (v4_is_bytes p Hp) (v4_no_payload_bytes p Hp)) as (b' & B1 & _ & _ & B2 & _);
      [rewrite v4_ihl_bytes by exact Hp; exact H5|exact Hok|]. rewrite HG in B1. injection B1 as <-. exact B2.
  - intros Hn. destruct v; cbn [negb]; [|reflexivity]. rewrite Ht. destruct (N.leb_spec (vf_ttl (vp_header p)) 1); [reflexivity|].
    destruct Hn. split; [apply Hiff; reflexivity|lia].
Qed.

Section ROUTE.
Context {S : Type} (inner : S -> bytes) (inner_ok : S -> Prop).
Notation ok := (frame_packet_ok inner inner_ok).
Lemma type_cell s : ok s -> wire16 (frame_bytes inner s) 12 = ef_type (fr_ether s).
Proof.
  intros ((_ & _ & H) & _). unfold u16 in H.
  change (ef_type (fr_ether s) / 256 * 256 + ef_type (fr_ether s) mod 256 = ef_type (fr_ether s)). lia.
Qed.
Lemma router_eq E h b : 14 <= len b -> router E h b =
  if wire16 b 12 =? 2048 then mseq (edit_datagram (forward_datagram E)) (mseq (ether_set_source (mine h)) (ether_set_destination (next h))) b
  else (b, Err InvalidPacket).
Proof.
  intros H. unfold router, mlet. destruct (c01_ether_new b) as [H1 _]. rewrite H1 by lia. cbn [bind].
  unfold ether_get_protocol. rewrite get16 by lia. cbn [bind].
  destruct (N.eqb_spec (wire16 b 12) 2048) as [->|Hn]; [reflexivity|].
  pose proof (ether_from_into (wire16 b 12)) as Hi. destruct (ether_protocol_from (wire16 b 12)); try reflexivity. exfalso. cbn in Hi. congruence.
Qed.
Lemma frame_len14 s : 14 <= len (frame_bytes inner s).
Proof. rewrite frame_bytes_ip, len_app, ether_wire_len. lia. Qed.
Lemma router_on E h s : ok s ->
  (routable s -> 2 <= vf_ttl (fr_ip s) ->
   let s' := readdressed h (vf_ttl (fr_ip s) - 1) s in
   router E h (frame_bytes inner s) = (frame_bytes inner s', Ok tt) /\ (hop_ok h -> ok s') /\ routable s') /\
  (~ (routable s /\ 2 <= vf_ttl (fr_ip s)) -> router E h (frame_bytes inner s) = (frame_bytes inner s, Err InvalidPacket)).
Proof.
  intros Hs. rewrite router_eq by apply frame_len14. rewrite type_cell by exact Hs. destruct Hs as (He & Hv & Hi).
  destruct (forward_on E (frame_ip inner s) Hv) as [F1 F2]. cbn [frame_ip vp_header vp_options] in F1, F2.
  unfold mseq. rewrite frame_bytes_ip, edit_datagram_on by (apply v4_new_bytes, Hv). split.
  - intros (Hty & Ha & Hb) H2. destruct (F1 (conj Ha Hb) H2) as (G1 & G2 & G3). rewrite Hty, G1. cbn [N.eqb Pos.eqb fst snd].
    pose proof (ether_assign_step (EthSource (mine h))) as S1. pose proof (ether_assign_step (EthDestination (next h))) as S2. cbn [ether_apply] in S1, S2.
    rewrite S1, S2. cbv zeta. split; [reflexivity|]. split.
    + intros [M1 M2]. split; [|split; [exact G2|exact Hi]]. split; [exact M2|]. split; [exact M1|apply He].
    + split; [exact Hty|exact G3].
  - intros Hn. destruct (N.eqb_spec (ef_type (fr_ether s)) 2048) as [Hty|]; [|reflexivity].
    rewrite F2; [reflexivity|]. intros [[Ha Hb] H2]. apply Hn. split; [split; [exact Hty|split; [exact Ha|exact Hb]]|exact H2].
Qed.
Lemma readdressed_again h t h' t' (s : frame_packet S) : readdressed h t (readdressed h' t' s) = readdressed h t s.
Proof. reflexivity. Qed.
Lemma travelled_cons h hops (s : frame_packet S) : travelled hops (readdressed h (vf_ttl (fr_ip s) - 1) s) = travelled (h :: hops) s.
Proof.
  unfold travelled. cbn [rev length]. destruct (rev hops) as [|l r] eqn:Hr; cbn [app].
  - assert (hops = []) as -> by (destruct hops; [reflexivity|apply (f_equal (@length _)) in Hr; rewrite rev_length in Hr; discriminate]).
    reflexivity.
  - rewrite readdressed_again. f_equal. change (vf_ttl (fr_ip (readdressed h (vf_ttl (fr_ip s) - 1) s))) with (vf_ttl (fr_ip s) - 1). lia.
Qed.
(** C76: a list of routers. *)
Lemma route_on E hops s : ok s -> routable s -> Forall hop_ok hops ->
  (hops = [] \/ N.of_nat (length hops) < vf_ttl (fr_ip s) ->
     route E hops (frame_bytes inner s) = (frame_bytes inner (travelled hops s), Ok tt) /\ ok (travelled hops s) /\ routable (travelled hops s)) /\
  (hops <> [] -> vf_ttl (fr_ip s) <= N.of_nat (length hops) ->
     route E hops (frame_bytes inner s) =
     (frame_bytes inner (travelled (firstn (N.to_nat (vf_ttl (fr_ip s) - 1)) hops) s), Err InvalidPacket)).
Proof.
  revert s. induction hops as [|h hops IH]; intros s Hs Hr Hh; [split; [intros _; split; [reflexivity|split; assumption]|intros []; reflexivity]|].
  inversion_clear Hh as [|? ? Hh1 Hh2]. destruct (router_on E h s Hs) as [R1 R2]. cbn [route length]. unfold mseq.
  destruct (N.ltb_spec (vf_ttl (fr_ip s)) 2) as [Hlt|Hge].
  - rewrite R2 by (intros [_ H]; lia). split.
    + intros [H|H]; [discriminate|]. lia.
    + intros _ _. replace (N.to_nat _) with 0%nat by lia. reflexivity.
  - destruct (R1 Hr Hge) as (G1 & G2 & G3). rewrite G1. specialize (G2 Hh1).
    destruct (IH _ G2 G3 Hh2) as [I1 I2].
    change (vf_ttl (fr_ip (readdressed h (vf_ttl (fr_ip s) - 1) s))) with (vf_ttl (fr_ip s) - 1) in I1, I2.
    rewrite travelled_cons in I1. split.
    + intros [H|H]; [discriminate|]. apply I1. right. lia.
    + intros _ H. rewrite I2.
      * rewrite travelled_cons. replace (N.to_nat (vf_ttl (fr_ip s) - 1)) with (1 + N.to_nat (vf_ttl (fr_ip s) - 1 - 1))%nat by lia. reflexivity.
      * intros ->. cbn [length] in H. lia.
      * lia.
Qed.
End ROUTE.

(** C76: one router, on every frame that is one ... *)
Lemma c76_router : forall (S : Type) (inner : S -> bytes) (inner_ok : S -> Prop) E h s, frame_packet_ok inner inner_ok s ->
  (routable s -> 2 <= vf_ttl (fr_ip s) ->
   router E h (frame_bytes inner s) = (frame_bytes inner (readdressed h (vf_ttl (fr_ip s) - 1) s), Ok tt)) /\
  (~ (routable s /\ 2 <= vf_ttl (fr_ip s)) -> router E h (frame_bytes inner s) = (frame_bytes inner s, Err InvalidPacket)).
Proof.
  intros S inner inner_ok E h s Hs. destruct (router_on inner inner_ok E h s Hs) as [R1 R2]. split; [|exact R2].
  intros Hr Ht. apply (R1 Hr Ht).
Qed.
Lemma ether_front b : is_bytes b -> 14 <= len b -> exists f, ether_fields_ok f /\ b = ether_wire f ++ dropN 14 b.
Proof.
  intros Hb Hl. cut (exists f, ether_fields_ok f /\ takeN 14 b = ether_wire f).
  { intros (f & Hf & Ht). exists f. split; [exact Hf|]. rewrite <- Ht. symmetry. apply takeN_dropN. }
  pose proof (is_bytes_takeN 14 b Hb) as Hy. assert (Hk : len (takeN 14 b) = 14) by (autorewrite with len; lia).
  set (t := takeN 14 b) in *. clearbody t. clear - Hk Hy.
  do 14 (destruct t as [|? t]; [discriminate Hk|]).
  destruct t; [|exfalso; autorewrite with len in Hk; lia]. clear Hk. unfold is_bytes, u8 in Hy.
  repeat match goal with H : Forall _ (_ :: _) |- _ => inversion H; clear H; subst end.
  exists {| ef_dst := Hw n n0 n1 n2 n3 n4; ef_src := Hw n5 n6 n7 n8 n9 n10; ef_type := n11 * 256 + n12 |}. split.
  - unfold ether_fields_ok, mac_ok, is_bytes, u8, u16. cbn [ef_dst ef_src ef_type hw_octets hw_0 hw_1 hw_2 hw_3 hw_4 hw_5].
    split; [|split; [|lia]]; repeat (apply Forall_cons; [assumption|]); apply Forall_nil.
  - unfold ether_wire, enc16. cbn. repeat f_equal; lia.
Qed.
(** C76: ... and on any bytes: it forwards such a frame or returns an error, and then
    the bytes are as they came.  It never panics. *)
Lemma c76_router_any : forall E h b, is_bytes b ->
  (exists s, frame_packet_ok (fun p => p) is_bytes s /\ b = frame_bytes (fun p => p) s /\ routable s /\ 2 <= vf_ttl (fr_ip s) /\
     router E h b = (frame_bytes (fun p => p) (readdressed h (vf_ttl (fr_ip s) - 1) s), Ok tt)) \/
  (exists e, router E h b = (b, Err e)).
Proof.
  intros E h b Hb. destruct (N.ltb_spec (len b) 14) as [Hlt|Hl].
  { right. exists SmallBuffer. unfold router, mlet. destruct (c01_ether_new b) as [_ H]. rewrite H by lia. reflexivity. }
  destruct (wire16 b 12 =? 2048) eqn:Hty; [|right; exists InvalidPacket; rewrite router_eq, Hty by exact Hl; reflexivity].
  destruct (ether_front b Hb Hl) as (f & Hf & Hbf). set (d := dropN 14 b) in *.
  assert (Hbd : is_bytes d) by apply is_bytes_dropN, Hb.
  destruct (v4_new d) as [ip|e|] eqn:Hn; [|right; exists e|destruct (FrameProofs.v4_new_no_panic d Hn)].
  2: { rewrite router_eq, Hty by exact Hl. unfold mseq, edit_datagram, ether_split_mut, split_at_mut, whole. cbn [s_at s_len].
       replace (14 <=? len b) with true by lia. unfold span_read. cbn [s_at s_len].
       replace (takeN _ (dropN _ b)) with d by (unfold d; symmetry; change (0 + 14) with 14; apply takeN_all; rewrite len_dropN; lia). rewrite Hn. reflexivity. }
  pose proof (v4_new_same _ _ Hn). subst ip.
  assert (H20 : 20 <= len d) by (apply c02_v4_new_iff in Hn; lia).
  assert (Hno : forall r, forward_datagram E d = (d, Err r) -> exists e, router E h b = (b, Err e)).
  { intros r Hr. exists r. rewrite router_eq, Hty by exact Hl. unfold mseq. rewrite Hbf at 1. rewrite edit_datagram_on by exact Hn. rewrite Hr. cbn [fst snd]. rewrite <- Hbf. reflexivity. }
  destruct (N.ltb_spec (nthN d 0 mod 16) 5) as [H5|H5].
  { right. apply (Hno InvalidPacket). unfold forward_datagram, mlet. rewrite v4_ihl_ok by lia. replace (_ <? 5) with true by lia. reflexivity. }
  destruct (N.ltb_spec (wire16 d 2) (nthN d 0 mod 16 * 4)) as [Ht|Ht].
  { right. apply (Hno InvalidPacket). unfold forward_datagram, mlet. rewrite v4_ihl_ok by lia. replace (_ <? 5) with false by lia.
    rewrite v4_length_ok by lia. replace (_ <? _) with true by lia. reflexivity. }
  destruct (c71_v4_received d Hbd Hn H5 Ht) as (p & Hp & Hpd & _).
  destruct (c71_frame_received bytes (fun p => p) is_bytes b d (vp_payload p)) as (s & Hs & Hsb & _); try assumption.
  { apply c01_ether_new. lia. }
  { apply FrameProofs.ether_payload_ok. lia. }
  { pose proof (c71_v4_received d Hbd Hn H5 Ht) as (p' & _ & Hp' & Hq). rewrite <- Hpd.
    pose proof (c07_v4 (v4_bytes p) (v4_new_bytes p Hp)) as Q. cbv zeta in Q. destruct Q as (_ & _ & _ & Q & _). rewrite Q. f_equal.
    rewrite v4_ihl_bytes, total_cell by exact Hp. destruct Hp as (_ & _ & Hi & Htt & _). unfold v4_bytes. rewrite app_assoc.
    replace (N.max _ _) with (len (v4_wire (vp_header p) ++ vp_options p) + len (vp_payload p)) by (autorewrite with len; rewrite v4_wire_len; lia).
    replace (vf_ihl (vp_header p) * 4) with (len (v4_wire (vp_header p) ++ vp_options p)) by (autorewrite with len; rewrite v4_wire_len; lia).
    rewrite (app_assoc _ (vp_payload p)), <- len_app, takeN_app_len. apply dropN_app_len. }
  { destruct Hp as (_ & _ & _ & _ & _ & Hp & _). exact Hp. }
  destruct (router_on (fun p => p) is_bytes E h s Hs) as [R1 R2]. rewrite Hsb in R1, R2.
  assert (Hdec : (routable s /\ 2 <= vf_ttl (fr_ip s)) \/ ~ (routable s /\ 2 <= vf_ttl (fr_ip s))).
  { destruct Hs as (_ & Hv & _). destruct (valid_total E _ Hv) as [v Hvv]. pose proof (valid_iff E _ Hv) as Hiff. rewrite Hvv in Hiff.
    destruct (N.eq_dec (ef_type (fr_ether s)) 2048) as [T|T]; [|right; intros ((T' & _) & _); exact (T T')].
    destruct (N.leb_spec 2 (vf_ttl (fr_ip s))) as [L|L]; [|right; intros [_ H]; lia].
    destruct v; [left|right].
    - split; [|exact L]. destruct Hiff as [Hiff _]. exact (conj T (Hiff eq_refl)).
    - intros ((_ & A) & _). destruct Hiff as [_ Hiff]. discriminate (Hiff A). }
  destruct Hdec as [[Hr H2]|Hn'].
  - left. exists s. split; [exact Hs|]. split; [symmetry; exact Hsb|]. split; [exact Hr|]. split; [exact H2|]. apply (R1 Hr H2).
  - right. exists InvalidPacket. exact (R2 Hn').
Qed.
(** C76: routers in a row.  The TTL limits how many. *)
Lemma c76_route : forall (S : Type) (inner : S -> bytes) (inner_ok : S -> Prop) E hops s, frame_packet_ok inner inner_ok s ->
  routable s -> Forall hop_ok hops -> hops <> [] ->
  (N.of_nat (length hops) < vf_ttl (fr_ip s) -> route E hops (frame_bytes inner s) = (frame_bytes inner (travelled hops s), Ok tt)) /\
  (vf_ttl (fr_ip s) <= N.of_nat (length hops) ->
   route E hops (frame_bytes inner s) =
   (frame_bytes inner (travelled (firstn (N.to_nat (vf_ttl (fr_ip s) - 1)) hops) s), Err InvalidPacket)).
Proof.
  intros S inner inner_ok E hops s Hs Hr Hh Hne. destruct (route_on inner inner_ok E hops s Hs Hr Hh) as [R1 R2]. split.
  - intros H. apply (R1 (or_intror H)).
  - exact (R2 Hne).
Qed.
(** A frame's verdict depends on its protocol, its addresses and its payload. *)
Lemma receive_routable {S} (inner : S -> bytes) inner_ok E wanted nxt s : frame_packet_ok inner inner_ok s -> routable s ->
  receive_ip E wanted nxt (frame_bytes inner s) =
  if wanted (ip_protocol_from (vf_proto (fr_ip s))) then nxt (v4_bytes (frame_ip inner s)) (inner (fr_inner s)) else Ok false.
Proof.
  intros Hs (Hty & Ha). rewrite receive_ip_eq. pose proof (frame_len14 inner s) as Hl. replace (_ <? 14) with false by lia.
  rewrite (type_cell inner inner_ok) by exact Hs. rewrite Hty. cbn [N.eqb Pos.eqb]. destruct Hs as (He & Hs & Hi).
  rewrite frame_bytes_ip, <- (ether_wire_len (fr_ether s)), dropN_app_len. rewrite v4_new_bytes by exact Hs. cbn [bind].
  rewrite v4_ihl_bytes by exact Hs. pose proof (ihl5 _ Hs) as H5. cbn [frame_ip vp_header] in *. replace (_ <? 5) with false by lia.
  apply (proj2 (valid_iff E (frame_ip inner s) Hs)) in Ha.
  change (v4_bytes {| vp_header := fr_ip s; vp_options := fr_options s; vp_payload := inner (fr_inner s); vp_behind := fr_padding s |})
    with (v4_bytes (frame_ip inner s)). rewrite Ha. cbn [bind negb].
  change (nthN (v4_bytes (frame_ip inner s)) 9) with (vf_proto (fr_ip s)).
  destruct (wanted (ip_protocol_from (vf_proto (fr_ip s)))); [|reflexivity]. f_equal.
  unfold body_of. rewrite v4_ihl_bytes, total_cell by exact Hs. destruct Hs as (_ & _ & Hih & Htot & _).
  unfold v4_bytes. cbn [frame_ip vp_header vp_options vp_payload vp_behind] in *. rewrite app_assoc.
  replace (vf_total (fr_ip s) - vf_ihl (fr_ip s) * 4) with (len (inner (fr_inner s))) by lia.
  replace (vf_ihl (fr_ip s) * 4) with (len (v4_wire (fr_ip s) ++ fr_options s)) by (autorewrite with len; rewrite v4_wire_len; lia).
  rewrite dropN_app_len. apply takeN_app_len.
Qed.
Lemma travelled_fields {S} hops (s : frame_packet S) : let t := travelled hops s in
  vf_proto (fr_ip t) = vf_proto (fr_ip s) /\ vf_src (fr_ip t) = vf_src (fr_ip s) /\ vf_dst (fr_ip t) = vf_dst (fr_ip s) /\ fr_inner t = fr_inner s.
Proof. cbv zeta. unfold travelled. destruct (rev hops); repeat split. Qed.
Lemma travelled_ttl {S} hops (s : frame_packet S) : vf_ttl (fr_ip (travelled hops s)) = vf_ttl (fr_ip s) - N.of_nat (length hops).
Proof.
  unfold travelled. destruct (rev hops) as [|h r] eqn:Hr; [|reflexivity].
  assert (hops = []) as -> by (destruct hops; [reflexivity|apply (f_equal (@length _)) in Hr; rewrite rev_length in Hr; discriminate]). cbn [length]. lia.
Qed.
(** C76: the receiver's verdict on the frame does not depend on the route it took. *)
Lemma c76_received : forall (S : Type) (inner : S -> bytes) (inner_ok : S -> Prop) E E' hops s b, frame_packet_ok inner inner_ok s ->
  routable s -> Forall hop_ok hops -> route E hops (frame_bytes inner s) = (b, Ok tt) ->
  receive_udp E' b = receive_udp E' (frame_bytes inner s) /\
  receive_tcp E' b = receive_tcp E' (frame_bytes inner s) /\
  receive_echo E' b = receive_echo E' (frame_bytes inner s).
Proof.
  intros S inner inner_ok E E' hops s b Hs Hr Hh Hb. destruct (route_on inner inner_ok E hops s Hs Hr Hh) as [R1 R2].
  assert (Hcase : hops = [] \/ N.of_nat (length hops) < vf_ttl (fr_ip s)).
  { destruct hops as [|h hops]; [left; reflexivity|right]. destruct (N.ltb_spec (N.of_nat (length (h :: hops))) (vf_ttl (fr_ip s))); [assumption|].
    rewrite R2 in Hb by (discriminate || assumption). discriminate. }
  destruct (R1 Hcase) as (G1 & G2 & G3). rewrite G1 in Hb. injection Hb as <-.
  destruct (travelled_fields hops s) as (F1 & F2 & F3 & F4).
  destruct (frame_addrs inner s) as [A1 A2]. destruct (frame_addrs inner (travelled hops s)) as [A3 A4].
  assert (Hn : forall u, udp_is_valid E' (V4 (v4_bytes (frame_ip inner (travelled hops s)))) u = udp_is_valid E' (V4 (v4_bytes (frame_ip inner s))) u /\
    tcp_is_valid E' (V4 (v4_bytes (frame_ip inner (travelled hops s)))) u = tcp_is_valid E' (V4 (v4_bytes (frame_ip inner s))) u).
  { intros u. destruct (c68_parent_addresses E' (v4_bytes (frame_ip inner s)) (v4_bytes (frame_ip inner (travelled hops s))) u) as (P1 & P2 & _);
      try (rewrite v4_len; lia); [congruence|congruence|split; assumption]. }
  unfold receive_udp, receive_tcp, receive_echo. rewrite !(receive_routable inner inner_ok) by assumption. rewrite F1, F4.
  repeat split; f_equal; destruct (ip_protocol_from _); try reflexivity.
  - destruct (udp_new _) as [u| |]; [|reflexivity|reflexivity]. cbn [bind]. destruct (udp_length u) as [l| |]; [|reflexivity|reflexivity]. cbn [bind].
    destruct (l =? _); [|reflexivity]. apply Hn.
  - destruct (tcp_new _) as [u| |]; [|reflexivity|reflexivity]. cbn [bind]. destruct (tcp_offset u) as [l| |]; [|reflexivity|reflexivity]. cbn [bind].
    destruct (l <? _); [reflexivity|]. apply Hn.
Qed.

(** ** What the sender built *)
Lemma sum_adds_up p : v4_packet_ok p -> adds_up (with_header p (v4_sum (vp_options p) (vp_header p))).
Proof.
  intros Hp. set (E := {| overflow_checks := true; cursor_eof := EofKeep; target := Bits64 |}).
  destruct (MachineProofs.v4_step E (Checked []) p Hp) as [G1 G2]; [apply Forall_nil|]. cbn [v4_do snd fst v4_act assigns fold_left] in *.
  destruct (G2 ltac:(discriminate)) as (G3 & G4 & _). apply (valid_iff E); [exact G4|].
  destruct (c25_v4 E [] (v4_bytes p) (v4_is_bytes p Hp) (v4_no_payload_bytes p Hp)) as (b' & B1 & _ & _ & B2 & _);
    [rewrite v4_ihl_bytes by exact Hp; exact (ihl5 p Hp)|apply Forall_nil|]. rewrite B1 in G3. cbn [fst] in G3. rewrite <- G3. exact B2.
Qed.
Definition sent (eops : list Builders.ether_op) (vs : list v4_setter) (proto : N) (q : bytes) : frame_packet bytes :=
  {| fr_ether := ether_set_type (ether_after eops) 0x0800; fr_ip := v4_finished (v4_after vs) proto (len q);
     fr_options := []; fr_inner := q; fr_padding := [] |}.
Lemma sent_bytes eops vs proto q : frame_bytes (fun p => p) (sent eops vs proto q) =
  ether_layer (Some eops) ++ v4_wire (v4_finished (v4_after vs) proto (len q)) ++ q.
Proof. unfold frame_bytes, sent. cbn [fr_ether fr_ip fr_options fr_inner fr_padding]. rewrite app_nil_r. reflexivity. Qed.
Lemma sent_ok eops vs proto q : eth_ok (Some eops) -> Forall v4_arg_ok vs -> u8 proto -> is_bytes q -> 20 + len q <= 65535 ->
  frame_packet_ok (fun p => p) is_bytes (sent eops vs proto q) /\ routable (sent eops vs proto q) /\
  vf_ttl (fr_ip (sent eops vs proto q)) = vf_ttl (v4_after vs).
Proof.
  intros He Hv Hp Hq Hl. pose proof (v4_after_building vs Hv) as Hb. pose proof (v4_finished_ok (v4_after vs) proto (len q) Hb Hp) as Hf.
  assert (Hok : v4_packet_ok (frame_ip (fun p => p) (sent eops vs proto q))).
  { unfold v4_packet_ok, frame_ip, sent. cbn [vp_header vp_options vp_payload vp_behind fr_ip fr_options fr_inner fr_padding].
    split; [exact Hf|]. destruct Hb as (_ & Hb1 & Hb2). destruct (v4_after vs). cbn in Hb1, Hb2. subst.
    cbn -[N.add N.mul N.div N.sub len]. rewrite len_nil.
    split; [reflexivity|]. split; [reflexivity|]. split; [lia|]. split; [apply Forall_nil|]. split; [exact Hq|apply Forall_nil]. }
  split; [|split].
  - split; [|split; [exact Hok|exact Hq]]. destruct He as [He _]. destruct (ReadLemmas.ether_after_ok eops He) as (H1 & H2 & _). split; [exact H1|]. split; [exact H2|]. cbn. unfold u16. lia.
  - split; [reflexivity|]. pose proof (sum_adds_up _ Hok) as Q. unfold adds_up, frame_ip, sent, with_header in Q.
    cbn [vp_header vp_options vp_payload vp_behind fr_ip fr_options fr_inner fr_padding] in Q.
    replace (v4_sum [] (v4_finished (v4_after vs) proto (len q))) with (v4_finished (v4_after vs) proto (len q)) in Q; [exact Q|].
    destruct (v4_after vs). reflexivity.
  - unfold sent. cbn [fr_ip]. destruct (v4_after vs). reflexivity.
Qed.
Lemma sent_again eops vs proto q h t : readdressed h t (sent eops vs proto q) =
  sent (eops ++ [Builders.EtherSource (mine h); Builders.EtherDestination (next h)]) (vs ++ [V4SetTtl t]) proto q.
Proof.
  unfold readdressed, sent, v4_after, ether_after. cbn [fr_ether fr_ip fr_options fr_inner fr_padding]. rewrite !fold_left_app. cbn [fold_left].
  f_equal. destruct (fold_left v4_put vs v4_zero). reflexivity.
Qed.
Lemma sent_route E eops vs proto q hops h : eth_ok (Some eops) -> Forall v4_arg_ok vs -> u8 proto -> is_bytes q -> 20 + len q <= 65535 ->
  Forall hop_ok (hops ++ [h]) -> N.of_nat (length (hops ++ [h])) < vf_ttl (v4_after vs) ->
  route E (hops ++ [h]) (frame_bytes (fun p => p) (sent eops vs proto q)) =
  (frame_bytes (fun p => p) (sent (eops ++ [Builders.EtherSource (mine h); Builders.EtherDestination (next h)])
     (vs ++ [V4SetTtl (vf_ttl (v4_after vs) - N.of_nat (length (hops ++ [h])))]) proto q), Ok tt).
Proof.
  intros He Hv Hp Hq Hl Hh Hn. destruct (sent_ok eops vs proto q He Hv Hp Hq Hl) as (S1 & S2 & S3).
  destruct (route_on (fun p => p) is_bytes E (hops ++ [h]) _ S1 S2 Hh) as [R1 _]. rewrite S3 in R1. destruct (R1 (or_intror Hn)) as (G1 & _).
  rewrite G1. unfold travelled. rewrite rev_unit, sent_again, S3. reflexivity.
Qed.
Definition last_hop (h : hop) : list Builders.ether_op := [Builders.EtherSource (mine h); Builders.EtherDestination (next h)].
Lemma last_hop_ok eops h : eth_ok (Some eops) -> hop_ok h -> eth_ok (Some (eops ++ last_hop h)).
Proof.
  intros [H1 H2] [M1 M2]. split.
  - apply Forall_app. split; [exact H1|]. apply Forall_cons; [exact M1|]. apply Forall_cons; [exact M2|apply Forall_nil].
  - clear H1. induction eops as [|[]]; cbn in *; try discriminate; auto.
Qed.
Lemma with_ttl_ok vs n : Forall v4_arg_ok vs -> Forall v4_arg_ok (vs ++ [V4SetTtl (vf_ttl (v4_after vs) - n)]).
Proof.
  intros H. apply Forall_app. split; [exact H|]. apply Forall_cons; [|apply Forall_nil].
  destruct (v4_after_building vs H) as ((_ & _ & _ & _ & _ & _ & _ & Q & _) & _). split; [|exact I]. cbn [v4_setter_ok]. unfold u8 in *. lia.
Qed.
Lemma with_ttl_addrs vs t : vf_src (v4_after (vs ++ [V4SetTtl t])) = vf_src (v4_after vs) /\ vf_dst (v4_after (vs ++ [V4SetTtl t])) = vf_dst (v4_after vs).
Proof. unfold v4_after. rewrite !fold_left_app. cbn [fold_left]. destruct (fold_left v4_put vs v4_zero). split; reflexivity. Qed.
Lemma last_hop_in hops h : Forall hop_ok (hops ++ [h]) -> hop_ok h.
Proof. intros H. apply Forall_app in H. destruct H as [_ H]. inversion H. assumption. Qed.
(** C76: what a sender built, behind the last router: the frame it would have built itself
    with that router's stations and the smaller TTL. *)
Lemma c76_built_udp : forall E E' eops vs us p hops h,
  eth_ok (Some eops) -> Forall v4_arg_ok vs -> Forall udp_op_ok us -> one_payload (udp_payloads us) p -> 28 + len p <= 65535 ->
  Forall hop_ok (hops ++ [h]) -> N.of_nat (length (hops ++ [h])) < vf_ttl (v4_after vs) ->
  exists frame frame',
    udp_chain E (Some eops) vs us dynamic_new = Ok frame /\
    udp_chain E (Some (eops ++ [Builders.EtherSource (mine h); Builders.EtherDestination (next h)]))
      (vs ++ [V4SetTtl (vf_ttl (v4_after vs) - N.of_nat (length (hops ++ [h])))]) us dynamic_new = Ok frame' /\
    route E' (hops ++ [h]) frame = (frame', Ok tt).
Proof.
  intros E E' eops vs us p hops h He Hv Hu Hp Hl Hh Hn. set (t := vf_ttl (v4_after vs) - _).
  pose proof (one_payload_bytes _ _ Hp (udp_op_payloads us Hu)) as Hpb.
  pose proof (last_hop_ok eops h He (last_hop_in _ _ Hh)) as He'. pose proof (with_ttl_ok vs (N.of_nat (length (hops ++ [h]))) Hv) as Hv'. fold t in Hv'.
  assert (Hi : 65600 <= @ISIZE_MAX E) by (pose proof (@width_facts E); lia).
  assert (Q : exists q, is_bytes q /\ len q = 8 + len p /\
    udp_chain E (Some eops) vs us dynamic_new = Ok (frame_bytes (fun p => p) (sent eops vs 17 q)) /\
    udp_chain E (Some (eops ++ last_hop h)) (vs ++ [V4SetTtl t]) us dynamic_new = Ok (frame_bytes (fun p => p) (sent (eops ++ last_hop h) (vs ++ [V4SetTtl t]) 17 q))).
  { destruct (with_ttl_addrs vs t) as [A1 A2].
    assert (C : (len p mod 2 = 0 \/ cursor_eof E = EofKeep) \/ (len p mod 2 = 1 /\ cursor_eof E = EofSeek)).
    { destruct (cursor_eof E); [left; right; reflexivity|]. assert (len p mod 2 = 0 \/ len p mod 2 = 1) as [|] by lia; [left; left; assumption|right; split; [assumption|reflexivity]]. }
    destruct C as [C|[C1 C2]].
    - exists (udp_wire (udp_finished (vf_src (v4_after vs)) (vf_dst (v4_after vs)) (udp_after us) p) ++ p). rewrite !sent_bytes, len_app, len_udp_wire.
      split; [apply is_bytes_app; split; [apply BuildLemmas.is_bytes_udp_wire, udp_finished_ok, udp_after_ok, Hu|exact Hpb]|]. split; [reflexivity|].
      split; [apply c33_udp_bytes; (assumption || lia)|]. pose proof (c33_udp_bytes E _ _ us p He' Hv' Hu Hp) as G. cbv zeta in G.
      rewrite A1, A2 in G. apply G; (assumption || lia).
    - exists (udp_wire (udp_finished (vf_src (v4_after vs)) (vf_dst (v4_after vs)) (udp_after us) (alter p (len p - 1) 0)) ++ p). rewrite !sent_bytes, len_app, len_udp_wire.
      split; [apply is_bytes_app; split; [apply BuildLemmas.is_bytes_udp_wire, udp_finished_ok, udp_after_ok, Hu|exact Hpb]|]. split; [reflexivity|].
      split; [apply c33_udp_bytes_odd; (assumption || lia)|]. pose proof (c33_udp_bytes_odd E _ _ us p He' Hv' Hu Hp) as G. cbv zeta in G.
      rewrite A1, A2 in G. apply G; (assumption || lia). }
  destruct Q as (q & Q1 & Q2 & Q3 & Q4). eexists _, _. split; [exact Q3|]. split; [exact Q4|].
  apply sent_route; (assumption || (unfold u8; lia)).
Qed.
(** C76: the same for TCP ... *)
Lemma c76_built_tcp : forall E E' eops vs ts p hops h,
  eth_ok (Some eops) -> Forall v4_arg_ok vs -> Forall tcp_op_ok ts -> flags_last (tcp_setters ts) -> one_payload (tcp_payloads ts) p ->
  40 + len p <= 65535 -> len p mod 2 = 0 \/ cursor_eof E = EofKeep ->
  Forall hop_ok (hops ++ [h]) -> N.of_nat (length (hops ++ [h])) < vf_ttl (v4_after vs) ->
  exists frame frame',
    tcp_chain E (Some eops) vs ts dynamic_new = Ok frame /\
    tcp_chain E (Some (eops ++ [Builders.EtherSource (mine h); Builders.EtherDestination (next h)]))
      (vs ++ [V4SetTtl (vf_ttl (v4_after vs) - N.of_nat (length (hops ++ [h])))]) ts dynamic_new = Ok frame' /\
    route E' (hops ++ [h]) frame = (frame', Ok tt).
Proof.
  intros E E' eops vs ts p hops h He Hv Hu Hfl Hp Hl Hc Hh Hn. set (t := vf_ttl (v4_after vs) - _).
  pose proof (one_payload_bytes _ _ Hp (tcp_op_payloads ts Hu)) as Hpb.
  pose proof (last_hop_ok eops h He (last_hop_in _ _ Hh)) as He'. pose proof (with_ttl_ok vs (N.of_nat (length (hops ++ [h]))) Hv) as Hv'. fold t in Hv'.
  destruct (with_ttl_addrs vs t) as [A1 A2].
  set (q := tcp_wire (tcp_finished (vf_src (v4_after vs)) (vf_dst (v4_after vs)) (tcp_after ts) p) ++ p).
  assert (Hq : is_bytes q).
  { apply is_bytes_app; split; [|exact Hpb]. apply BuildLemmas.is_bytes_tcp_wire. unfold tcp_finished. apply tcp_fill_offset; [apply tcp_after_ok; assumption|lia|apply inet_lt]. }
  assert (Hlq : len q = 20 + len p) by (unfold q; rewrite len_app, len_tcp_wire; reflexivity).
  exists (frame_bytes (fun p => p) (sent eops vs 6 q)), (frame_bytes (fun p => p) (sent (eops ++ last_hop h) (vs ++ [V4SetTtl t]) 6 q)).
  split; [|split].
  - rewrite sent_bytes, Hlq. apply c34_tcp_bytes; (assumption || lia).
  - rewrite sent_bytes, Hlq. pose proof (c34_tcp_bytes E _ _ ts p He' Hv' Hu Hfl Hp) as G. cbv zeta in G. rewrite A1, A2 in G. apply G; (assumption || lia).
  - apply sent_route; (assumption || (unfold u8; lia)).
Qed.
(** C76: ... and for an ICMP echo. *)
Lemma c76_built_echo : forall E E' eops vs os p hops h,
  eth_ok (Some eops) -> Forall v4_arg_ok vs -> Forall echo_op_ok os -> one_payload (echo_payloads os) p -> echo_kind_given os ->
  28 + len p <= 65535 -> Forall hop_ok (hops ++ [h]) -> N.of_nat (length (hops ++ [h])) < vf_ttl (v4_after vs) ->
  exists frame frame',
    echo_chain E (Some (Some eops, vs)) os dynamic_new = Ok frame /\
    echo_chain E (Some (Some (eops ++ [Builders.EtherSource (mine h); Builders.EtherDestination (next h)]),
      vs ++ [V4SetTtl (vf_ttl (v4_after vs) - N.of_nat (length (hops ++ [h])))])) os dynamic_new = Ok frame' /\
    route E' (hops ++ [h]) frame = (frame', Ok tt).
Proof.
  intros E E' eops vs os p hops h He Hv Hu Hp Hk Hl Hh Hn. set (t := vf_ttl (v4_after vs) - _).
  pose proof (last_hop_ok eops h He (last_hop_in _ _ Hh)) as He'. pose proof (with_ttl_ok vs (N.of_nat (length (hops ++ [h]))) Hv) as Hv'. fold t in Hv'.
  assert (Hi : 65600 <= @ISIZE_MAX E) by (pose proof (@width_facts E); lia).
  pose proof (c36_echo_bytes E (Some (Some eops, vs)) os p (conj He Hv) Hu Hp ltac:(lia)) as G.
  pose proof (c36_echo_bytes E (Some (Some (eops ++ last_hop h), vs ++ [V4SetTtl t])) os p (conj He' Hv') Hu Hp ltac:(lia)) as G'.
  destruct (echo_after os) as [[ty i] sq] eqn:Ha. cbv zeta in G, G'. destruct G as [G _], G' as [G' _]. specialize (G Hk). specialize (G' Hk).
  set (q := ident_wire {| cf_type := ty; cf_code := 0; cf_checksum := nonzero_checksum (drop_odd (ident_wire {| cf_type := ty; cf_code := 0; cf_checksum := 0 |} i sq ++ p)) |} i sq ++ p) in *.
  assert (Hlq : len q = 8 + len p) by (unfold q; rewrite len_app; reflexivity).
  exists (frame_bytes (fun p => p) (sent eops vs 1 q)), (frame_bytes (fun p => p) (sent (eops ++ last_hop h) (vs ++ [V4SetTtl t]) 1 q)).
  assert (Hq : is_bytes q).
  { pose proof (echo_after_ok os Hu) as Hr. rewrite Ha in Hr. destruct Hr as (R1 & R2 & R3). apply is_bytes_app. split; [|apply (one_payload_bytes _ _ Hp (echo_op_payloads os Hu))].
    apply is_bytes_ident; [|assumption|assumption]. split; [exact R1|]. split; [cbn; unfold u8; lia|]. cbn [cf_checksum]. apply nonzero_lt. }
  split; [|split].
  - rewrite sent_bytes, Hlq. rewrite G. cbn [icmp_outer]. rewrite <- app_assoc. reflexivity.
  - rewrite sent_bytes, Hlq. refine (eq_trans G' _). cbn [icmp_outer]. rewrite <- app_assoc. reflexivity.
  - apply sent_route; (assumption || (unfold u8; lia)).
Qed.

(** ** A ping there and back *)
Lemma swap_macs_on f d : ether_fields_ok f ->
  swap_macs (ether_wire f ++ d) = (ether_wire {| ef_dst := ef_src f; ef_src := ef_dst f; ef_type := ef_type f |} ++ d, Ok tt).
Proof.
  intros Hf. unfold swap_macs, mlet. destruct (c09_ether f d Hf) as (_ & H1 & H2 & _). rewrite H1, H2. unfold mseq.
  pose proof (ether_assign_step (EthSource (ef_dst f))) as S1. pose proof (ether_assign_step (EthDestination (ef_src f))) as S2. cbn [ether_apply] in S1, S2.
  rewrite S1, S2. reflexivity.
Qed.
Definition swapped (f : v4_fields) : v4_fields :=
  v4_fields_with f (vf_dscp f) (vf_ecn f) (vf_id f) (vf_reserved f) (vf_df f) (vf_mf f) (vf_frag f)
    (vf_ttl f) (vf_proto f) (vf_checksum f) (vf_dst f) (vf_src f).
Lemma swap_addresses_on p : v4_packet_ok p ->
  swap_addresses (v4_bytes p) = (v4_bytes (with_header p (swapped (vp_header p))), Ok tt) /\
  v4_packet_ok (with_header p (swapped (vp_header p))) /\ (adds_up p -> adds_up (with_header p (swapped (vp_header p)))).
Proof.
  intros Hp. pose proof (ihl5 p Hp) as H5. pose proof (v4_new_bytes p Hp) as Hn.
  assert (Hi : 5 <= nthN (v4_bytes p) 0 mod 16) by (rewrite v4_ihl_bytes by exact Hp; exact H5).
  assert (Hb : patch 12 (takeN 4 (dropN (12 + 4) (v4_bytes p)) ++ takeN 4 (dropN 12 (v4_bytes p))) (v4_bytes p) =
    v4_bytes (with_header p (swapped (vp_header p)))).
  { destruct p as [[ver ihl dscp ecn total id r d m frag ttl proto ck [s0 s1 s2 s3] [d0 d1 d2 d3]] opts pay beh]. reflexivity. }
  assert (Hq : v4_packet_ok (with_header p (swapped (vp_header p)))).
  { destruct Hp as ((A1 & A2 & A3 & A4 & A5 & A6 & A7 & A8 & A9 & A10 & A11 & A12) & P). split; [|exact P].
    do 10 (split; [assumption|]). split; assumption. }
  split; [rewrite swap_addresses_ok by assumption; rewrite Hb; reflexivity|]. split; [exact Hq|].
  set (E := {| overflow_checks := true; cursor_eof := EofKeep; target := Bits64 |}).
  intros Ha. apply (valid_iff E); [exact Hq|]. apply (proj2 (valid_iff E p Hp)) in Ha.
  destruct (answer_addresses E (v4_bytes p) _ (v4_is_bytes p Hp) Hn Hi eq_refl) as (_ & _ & _ & _ & _ & _ & Q). rewrite Hb in Q. congruence.
Qed.
Lemma echo_total s : frame_packet_ok echo_bytes echo_packet_ok s -> len (echo_bytes (fr_inner s)) <= 65535.
Proof. intros (_ & ((_ & _ & _ & _ & H & _) & _ & _ & T & _) & _). cbn [frame_ip vp_header vp_payload] in *. unfold u16 in H. lia. Qed.
Lemma answered_on E s : frame_packet_ok echo_bytes echo_packet_ok s ->
  answer_frame (answer_ping E) (frame_bytes echo_bytes s) = (frame_bytes echo_bytes (answered s), Ok tt) /\
  frame_packet_ok echo_bytes echo_packet_ok (answered s) /\ (routable s -> routable (answered s)).
Proof.
  intros Hs. pose proof (echo_total s Hs) as Hl. pose proof Hs as (He & Hv & Hi).
  destruct (swap_addresses_on _ Hv) as (S1 & S2 & S3). set (q := with_header _ _) in *.
  assert (Hil : len (echo_bytes (fr_inner s)) <= @ISIZE_MAX E) by (pose proof (@width_facts E); lia).
  destruct (MachineProofs.echo_step E (Checked [EchoMakeReply]) (fr_inner s) Hi) as [G1 G2]; [apply Forall_cons; [exact I|apply Forall_nil]|exact Hil|].
  cbn [echo_act echo_do fst snd] in *. destruct (G2 ltac:(discriminate)) as (G3 & G4 & G5).
  change (echo_sum (assigns echo_assign [EchoMakeReply] (fr_inner s))) with (fr_inner (answered s)) in *.
  split; [|split].
  - unfold answer_frame, mseq. rewrite frame_bytes_ip, swap_macs_on by exact He. rewrite edit_datagram_on by (apply v4_new_bytes, Hv).
    unfold answer_ping, mseq. rewrite S1.
    rewrite edit_transport_on; [|exact S2|apply echo_new_bytes, Hi]. cbv zeta. change (vp_payload q) with (echo_bytes (fr_inner s)). rewrite G1, G3. reflexivity.
  - split; [destruct He as (H1 & H2 & H3); split; [exact H2|split; [exact H1|exact H3]]|]. split; [|exact G4].
    destruct S2 as (Q1 & Q2 & Q3 & Q4 & Q5 & Q6 & Q7). split; [exact Q1|]. split; [exact Q2|]. split; [exact Q3|].
    unfold q in Q4. cbn [with_header frame_ip vp_header vp_payload] in Q4 |- *. rewrite G5. split; [exact Q4|]. split; [exact Q5|]. split; [|exact Q7].
    apply echo_is_bytes, G4.
  - intros (T & A). split; [exact T|]. exact (S3 A).
Qed.

Lemma echo_sum_valid E c : echo_packet_ok c -> len (echo_bytes c) <= 65535 -> icmp_is_valid E (echo_bytes (echo_sum c)) = Ok true.
Proof.
  intros Hc Hl. assert (Hi : len (echo_bytes c) <= @ISIZE_MAX E) by (pose proof (@width_facts E); lia).
  destruct (MachineProofs.echo_step E (Checked []) c Hc) as [G1 G2]; [apply Forall_nil|exact Hi|].
  cbn [echo_act echo_do fst snd assigns fold_left] in *. destruct (G2 ltac:(discriminate)) as (G3 & _).
  destruct (c25_echo E [] (echo_bytes c)) as (b' & B1 & _ & _ & _ & B2); [split; [apply echo_is_bytes, Hc|exact Hi]|apply echo_new_bytes, Hc|apply Forall_nil|].
  rewrite B1 in G3. cbn [fst] in G3. subst b'. exact B2.
Qed.
(** C76: a ping that is routed to its target, answered there in the received buffer and
    routed back: the reply has everything the request had, with the addresses exchanged,
    and a receiver accepts it. *)
Lemma c76_ping : forall E E' there back s, frame_packet_ok echo_bytes echo_packet_ok s -> routable s ->
  Forall hop_ok there -> Forall hop_ok back -> N.of_nat (length there) + N.of_nat (length back) < vf_ttl (fr_ip s) ->
  exists r, ping_and_back E there back (frame_bytes echo_bytes s) = (frame_bytes echo_bytes r, Ok tt) /\
    r = travelled back (answered (travelled there s)) /\ frame_packet_ok echo_bytes echo_packet_ok r /\ routable r /\
    vf_src (fr_ip r) = vf_dst (fr_ip s) /\ vf_dst (fr_ip r) = vf_src (fr_ip s) /\
    vf_ttl (fr_ip r) = vf_ttl (fr_ip s) - N.of_nat (length there) - N.of_nat (length back) /\
    cf_type (cp_header (fr_inner r)) = 0 /\ cp_ident (fr_inner r) = cp_ident (fr_inner s) /\
    cp_seq (fr_inner r) = cp_seq (fr_inner s) /\ cp_payload (fr_inner r) = cp_payload (fr_inner s) /\
    (vf_proto (fr_ip s) = 1 -> receive_echo E' (frame_bytes echo_bytes r) = Ok true).
Proof.
  intros E E' there back s Hs Hr Ht Hb Hl.
  destruct (route_on echo_bytes echo_packet_ok E there s Hs Hr Ht) as [R1 _].
  destruct R1 as (T1 & T2 & T3); [right; lia|].
  destruct (answered_on E _ T2) as (A1 & A2 & A3). specialize (A3 T3).
  assert (Httl : vf_ttl (fr_ip (answered (travelled there s))) = vf_ttl (fr_ip s) - N.of_nat (length there)) by apply travelled_ttl.
  destruct (route_on echo_bytes echo_packet_ok E back _ A2 A3 Hb) as [R2 _].
  destruct R2 as (B1 & B2 & B3); [right; rewrite Httl; lia|].
  destruct (travelled_fields back (answered (travelled there s))) as (F1 & F2 & F3 & F4). destruct (travelled_fields there s) as (K1 & K2 & K3 & K4).
  exists (travelled back (answered (travelled there s))). split; [|split; [reflexivity|]].
  { unfold ping_and_back, mseq. rewrite T1, A1. exact B1. }
  split; [exact B2|]. split; [exact B3|].
  assert (Hrec : vf_proto (fr_ip s) = 1 -> receive_echo E' (frame_bytes echo_bytes (travelled back (answered (travelled there s)))) = Ok true).
  { intros H1. unfold receive_echo. rewrite (receive_routable echo_bytes echo_packet_ok) by assumption. rewrite F1, F4.
    change (vf_proto (fr_ip (answered (travelled there s)))) with (vf_proto (fr_ip (travelled there s))). rewrite K1, H1.
    cbn [ip_protocol_from]. change (ip_protocol_from 1) with IP_Icmp. cbv iota. destruct A2 as (_ & _ & A2). rewrite echo_new_bytes by exact A2. cbn [bind].
    change (fr_inner (answered (travelled there s))) with (echo_sum (echo_kind 0 (fr_inner (travelled there s)))).
    rewrite echo_sum_valid; [reflexivity| |].
    - destruct T2 as (_ & _ & (C1 & C2 & C3)). split; [|split; [right; reflexivity|exact C3]]. destruct C1 as (D1 & D2 & D3).
      split; [cbn; unfold u8; lia|split; [exact D2|exact D3]].
    - apply (echo_total _ T2). }
  rewrite F2, F3, F4, travelled_ttl, Httl. cbn [answered fr_ip vf_src vf_dst v4_fields_with fr_inner]. rewrite K4, K2, K3.
  do 7 (split; [reflexivity|]). exact Hrec.
Qed.
(** C76: a frame whose IPv4 header was damaged in one byte is dropped by the next router, as it is. *)
Lemma c76_damaged : forall (S : Type) (inner : S -> bytes) (inner_ok : S -> Prop) E h s i v, frame_packet_ok inner inner_ok s -> routable s ->
  i < vf_ihl (fr_ip s) * 4 -> u8 v -> v <> nthN (frame_bytes inner s) (14 + i) ->
  (i = 0 -> v mod 16 = vf_ihl (fr_ip s)) ->
  exists e, router E h (alter (frame_bytes inner s) (14 + i) v) = (alter (frame_bytes inner s) (14 + i) v, Err e).
Proof.
  intros S inner inner_ok E h s i v Hs (Hty & Hr) Hi Hv Hne H0. pose proof Hs as (Het & Hip & _).
  assert (Hb : is_bytes (frame_bytes inner s)).
  { rewrite frame_bytes_ip. apply is_bytes_app. split; [apply is_bytes_ether_wire, Het|apply v4_is_bytes, Hip]. }
  set (d := v4_bytes (frame_ip inner s)) in *.
  assert (Hl : vf_ihl (fr_ip s) * 4 <= len d).
  { unfold d. rewrite v4_len. destruct Hip as (_ & _ & Hih & _). cbn [frame_ip vp_header vp_options] in *. lia. }
  assert (Ha : alter (frame_bytes inner s) (14 + i) v = ether_wire (fr_ether s) ++ alter d i v).
  { rewrite frame_bytes_ip, !alter_patch. rewrite patch_app2 by (rewrite ether_wire_len; lia). rewrite ether_wire_len. do 2 f_equal. lia. }
  destruct (c76_router_any E h (alter (frame_bytes inner s) (14 + i) v)) as [(s' & Hs' & Hbs & Hr' & _)|He]; [apply is_bytes_alter; assumption| |exact He].
  exfalso. rewrite Ha, frame_bytes_ip in Hbs. apply (f_equal (dropN 14)) in Hbs.
  rewrite <- (ether_wire_len (fr_ether s)) in Hbs at 1. rewrite dropN_app_len, <- (ether_wire_len (fr_ether s')), dropN_app_len in Hbs.
  destruct Hs' as (_ & Hip' & _). destruct Hr' as (_ & Hr'). apply (proj2 (valid_iff E _ Hip')) in Hr'. rewrite <- Hbs in Hr'.
  apply (proj2 (valid_iff E _ Hip)) in Hr. fold d in Hr.
  pose proof (v4_ihl_bytes _ Hip) as Hihl. fold d in Hihl. cbn [frame_ip vp_header] in Hihl.
  rewrite c24_v4 in Hr'; [discriminate|apply v4_is_bytes, Hip|apply v4_no_payload_bytes, Hip|exact Hr|rewrite Hihl; exact Hi|exact Hv| |].
  - rewrite frame_bytes_ip, nthN_app2 in Hne by (rewrite ether_wire_len; lia). rewrite ether_wire_len in Hne. replace (14 + i - 14) with i in Hne by lia. exact Hne.
  - rewrite Hihl. exact H0.
Qed.
(** C76: a ping with a TTL of 6, two routers there, three back, and what arrives.  One router more and it does not. *)
Example c76_example : forall E,
  let h n := {| mine := Hw 2 0 0 0 n 1; next := Hw 2 0 0 0 n 2 |} in
  let ping := [2;0;0;0;0;2; 2;0;0;0;0;1; 8;0; 69;0;0;32;18;52;0;0;6;1;142;167;10;0;0;1;10;0;0;2; 8;0;243;241;0;7;0;1;1;2;3;4] in
  ping_and_back E [h 1; h 2] [h 3; h 4; h 5] ping =
    ([2;0;0;0;5;2; 2;0;0;0;5;1; 8;0; 69;0;0;32;18;52;0;0;1;1;147;167;10;0;0;2;10;0;0;1; 0;0;251;241;0;7;0;1;1;2;3;4], Ok tt) /\
  snd (ping_and_back E [h 1; h 2] [h 3; h 4; h 5; h 6] ping) = Err InvalidPacket /\
  snd (route E [h 1; h 2; h 3; h 4; h 5; h 6] ping) = Err InvalidPacket /\
  receive_echo E (fst (ping_and_back E [h 1; h 2] [h 3; h 4; h 5] ping)) = Ok true.
Proof. intros E. destruct E as [[] [] []]; vm_compute; repeat split. Qed.
