(** * NatProofs: rewriting frames on their way (C77). *)
From Verif Require Import Base Enums Buffer Ether Ipv4 Ip Udp Tcp Icmp Spec SpecCalls SpecEdit SpecForward SpecMachine SpecReceiver SpecRoute SpecNat Mutable Lemmas AccessProofs
  ParseProofs FieldProofs SliceProofs MutableProofs EnumProofs ChecksumLemmas ChecksumProofs GuardProofs EditProofs ForwardProofs FrameProofs
  CorruptProofs SpecBuild BuildLemmas FinalLemmas ReadLemmas BuilderProofs ChainLemmas MessageProofs MachineProofs FrameMachineProofs ReceiverProofs RouteProofs.
From Coq Require Import ZifyBool ZifyNat ZifyN.
Ltac Zify.zify_post_hook ::= Z.div_mod_to_equations.

Definition debug0 : env := {| overflow_checks := true; cursor_eof := EofKeep; target := Bits64 |}.
Notation ok_udp := (frame_packet_ok udp_bytes udp_packet_ok).
Notation ok_tcp := (frame_packet_ok tcp_bytes tcp_packet_ok).
Lemma udp_frame_step E a s : ok_udp s -> len (udp_bytes (fr_inner s)) mod 2 = 0 \/ cursor_eof E = EofKeep ->
  frame_action_ok (fun a _ => udp_action_ok a) a s -> snd (frame_do udp_bytes udp_do a s) <> Panic ->
  frame_act E udp_new (udp_act E) a (frame_bytes udp_bytes s) = (frame_bytes udp_bytes (fst (frame_do udp_bytes udp_do a s)), snd (frame_do udp_bytes udp_do a s)) /\
  ok_udp (fst (frame_do udp_bytes udp_do a s)) /\ len (udp_bytes (fr_inner (fst (frame_do udp_bytes udp_do a s)))) = len (udp_bytes (fr_inner s)).
Proof.
  intros Hs Hc Ha Hp.
  destruct (frame_step E udp_bytes udp_packet_ok udp_do udp_new (udp_act E) (fun a _ => udp_action_ok a) (fun n => n mod 2 = 0 \/ cursor_eof E = EofKeep)
    udp_is_bytes udp_new_bytes (fun p a u H1 H2 H3 H4 H5 => udp_step E p a u H1 H2 H3 H4 H5) a s Hs Hc Ha) as [G1 G2].
  destruct (G2 Hp) as (G3 & G4 & G5 & _). split; [|split; [exact G4|exact G5]]. rewrite (surjective_pairing (frame_act _ _ _ _ _)), G1, G3. reflexivity.
Qed.
Lemma tcp_frame_step E a s : ok_tcp s -> len (tcp_bytes (fr_inner s)) mod 2 = 0 \/ cursor_eof E = EofKeep ->
  frame_action_ok tcp_action_ok a s -> snd (frame_do tcp_bytes tcp_do a s) <> Panic ->
  frame_act E tcp_new (tcp_act E) a (frame_bytes tcp_bytes s) = (frame_bytes tcp_bytes (fst (frame_do tcp_bytes tcp_do a s)), snd (frame_do tcp_bytes tcp_do a s)) /\
  ok_tcp (fst (frame_do tcp_bytes tcp_do a s)) /\ len (tcp_bytes (fr_inner (fst (frame_do tcp_bytes tcp_do a s)))) = len (tcp_bytes (fr_inner s)).
Proof.
  intros Hs Hc Ha Hp.
  assert (Hl : len (tcp_bytes (fr_inner s)) <= 131065).
  { destruct Hs as (_ & Hv & _). pose proof Hv as (V1 & V2 & V3 & V4 & _).
    cbn [frame_ip vp_header vp_options vp_payload vp_behind] in V4, V1. assert (u16 (vf_total (fr_ip s))) by apply V1. unfold u16 in *. lia. }
  destruct (frame_step E tcp_bytes tcp_packet_ok tcp_do tcp_new (tcp_act E) tcp_action_ok (fun n => n <= 131065 /\ (n mod 2 = 0 \/ cursor_eof E = EofKeep))
    tcp_is_bytes tcp_new_bytes (fun p a u H1 H2 H3 H4 H5 => tcp_step E p a u H1 H2 H3 H4 (proj1 H5) (proj2 H5)) a s Hs (conj Hl Hc) Ha) as [G1 G2].
  destruct (G2 Hp) as (G3 & G4 & G5 & _). split; [|split; [exact G4|exact G5]]. rewrite (surjective_pairing (frame_act _ _ _ _ _)), G1, G3. reflexivity.
Qed.
Lemma assigns_setters_ok (vs : list v4_setter) : Forall v4_setter_ok vs -> v4_action_ok (Checked vs).
Proof. intros H. exact H. Qed.
(** C77: the program does what it says, on every frame with a UDP datagram in it. *)
Lemma c77_udp : forall E vs us s, frame_packet_ok udp_bytes udp_packet_ok s -> Forall v4_setter_ok vs -> Forall udp_setter_ok us ->
  len (udp_bytes (fr_inner s)) mod 2 = 0 \/ cursor_eof E = EofKeep ->
  rewrite_udp E vs us (frame_bytes udp_bytes s) = (frame_bytes udp_bytes (rewritten_udp vs us s), Ok tt) /\
  frame_packet_ok udp_bytes udp_packet_ok (rewritten_udp vs us s).
Proof.
  intros E vs us s Hs Hv Hu Hc.
  destruct (udp_frame_step E (OnIp (Checked vs)) s Hs Hc Hv ltac:(discriminate)) as (G1 & G2 & G3).
  cbn [frame_do v4_do fst snd frame_act v4_act] in G1, G2, G3.
  destruct (udp_frame_step E (OnTransport (Checked us)) _ G2 ltac:(rewrite G3; exact Hc) Hu ltac:(discriminate)) as (K1 & K2 & _).
  cbn [frame_do udp_do fst snd frame_act udp_act fr_ip fr_inner fr_ether fr_options fr_padding with_header vp_header] in K1, K2.
  split; [|exact K2]. unfold rewrite_udp, mseq. rewrite G1. exact K1.
Qed.
Lemma keeps_proto vs f : Forall keeps_protocol vs -> vf_proto (assigns v4_assign vs f) = vf_proto f.
Proof.
  intros H. revert f. induction H as [|o vs Ho H IH]; intros f; [reflexivity|].
  change (assigns v4_assign (o :: vs) f) with (assigns v4_assign vs (fst (v4_assign o f))). rewrite IH.
  destruct o; cbn [v4_assign keeps_protocol] in *; try reflexivity; try contradiction; destruct (_ <? _); reflexivity.
Qed.
Lemma udp_assigns us u : up_payload (assigns udp_assign us u) = up_payload u /\ up_behind (assigns udp_assign us u) = up_behind u.
Proof.
  revert u. induction us as [|o us IH]; intros u; [split; reflexivity|].
  change (assigns udp_assign (o :: us) u) with (assigns udp_assign us (fst (udp_assign o u))). destruct (IH (fst (udp_assign o u))) as [-> ->]. split; reflexivity.
Qed.
Lemma udp_checksum_cell u : udp_packet_ok u -> wire16 (udp_bytes u) 6 = uf_checksum (up_header u).
Proof.
  intros ((_ & _ & _ & H) & _). unfold u16 in H.
  change (uf_checksum (up_header u) / 256 * 256 + uf_checksum (up_header u) mod 256 = uf_checksum (up_header u)). lia.
Qed.
Lemma udp_sum_valid p u : v4_packet_ok p -> udp_packet_ok u -> let src := vf_src (vp_header p) in let dst := vf_dst (vp_header p) in
  receiver_accepts (with_pseudo_header src dst 17 (udp_bytes (udp_sum src dst u))) /\ uf_checksum (up_header (udp_sum src dst u)) <> 65535.
Proof.
  intros Hp Hu src dst. set (b := v4_wire (vp_header p) ++ vp_options p).
  assert (Hb : is_bytes b) by apply is_bytes_v4_header, Hp. assert (Hl : 20 <= len b) by (unfold b; rewrite len_app, v4_wire_len; lia).
  destruct (v4_wire_addrs (vp_header p) (vp_options p)) as [A1 A2]. fold b src in A1. fold b dst in A2.
  destruct (udp_step debug0 b (Checked []) u Hb Hl Hu (Forall_nil _) (or_intror eq_refl)) as [G1 G2].
  rewrite A1, A2 in G2. cbn [udp_act udp_do fst snd assigns fold_left] in G2. destruct (G2 ltac:(discriminate)) as (G3 & G4 & _).
  destruct (c25_udp debug0 b [] (udp_bytes u) Hb (udp_is_bytes u Hu) Hl) as (b' & B1 & _ & _ & _ & B2);
    [apply c03_udp_no_payload; rewrite udp_len; lia|apply Forall_nil|]. rewrite B1 in G3. cbn [fst] in G3. subst b'.
  apply c21_udp_is_valid_receiver in B2; [|exact Hb|apply udp_is_bytes, G4|exact Hl|rewrite udp_len; lia|right; reflexivity].
  rewrite A1, A2, udp_checksum_cell in B2 by exact G4. exact B2.
Qed.
Lemma receive_udp_on E r : ok_udp r -> routable r -> vf_proto (fr_ip r) = 17 -> up_behind (fr_inner r) = [] ->
  len (udp_bytes (fr_inner r)) mod 2 = 0 \/ cursor_eof E = EofKeep ->
  (receive_udp E (frame_bytes udp_bytes r) = Ok true <->
   receiver_accepts (with_pseudo_header (vf_src (fr_ip r)) (vf_dst (fr_ip r)) 17 (udp_bytes (fr_inner r))) /\ uf_checksum (up_header (fr_inner r)) <> 65535).
Proof.
  intros Hr Ha Hp Hb Hc. unfold receive_udp. rewrite verdict_true. rewrite (receive_routable udp_bytes udp_packet_ok) by assumption.
  rewrite Hp. change (ip_protocol_from 17) with IP_Udp. cbv iota. destruct Hr as (_ & Hs & Hi).
  rewrite udp_new_bytes by exact Hi. cbn [bind]. rewrite udp_length_ok by (rewrite udp_len; lia). cbn [bind].
  assert (Hw : wire16 (udp_bytes (fr_inner r)) 4 = uf_length (up_header (fr_inner r))).
  { destruct Hi as ((_ & _ & Hf & _) & _). unfold u16 in Hf.
    change (uf_length (up_header (fr_inner r)) / 256 * 256 + uf_length (up_header (fr_inner r)) mod 256 = uf_length (up_header (fr_inner r))). lia. }
  rewrite Hw, udp_len, Hb. pose proof Hi as (_ & Hlen & _). rewrite len_nil. replace (_ =? _) with true by lia.
  rewrite c21_udp_is_valid_receiver; [|apply v4_is_bytes, Hs|apply udp_is_bytes, Hi|rewrite v4_len; lia|rewrite udp_len; lia|exact Hc].
  destruct (frame_addrs udp_bytes r) as [A1 A2]. rewrite A1, A2, udp_checksum_cell by exact Hi. reflexivity.
Qed.
(** After [OnIp (Checked vs)]. *)
Definition ip_edited {S} (vs : list v4_setter) (s : frame_packet S) : frame_packet S :=
  {| fr_ether := fr_ether s; fr_ip := v4_sum (fr_options s) (assigns v4_assign vs (fr_ip s)); fr_options := fr_options s;
     fr_inner := fr_inner s; fr_padding := fr_padding s |}.
Lemma ip_edited_routable {S} (inner : S -> bytes) inner_ok vs s : frame_packet_ok inner inner_ok s -> Forall v4_setter_ok vs -> ef_type (fr_ether s) = 2048 ->
  routable (ip_edited vs s) /\ frame_packet_ok inner inner_ok (ip_edited vs s).
Proof.
  intros (He & Hv & Hi) Hok Ht. destruct (MachineProofs.v4_step debug0 (Checked vs) (frame_ip inner s) Hv Hok) as [_ G]. cbn [v4_do fst snd] in G.
  destruct (G ltac:(discriminate)) as (_ & G2 & _).
  pose proof (sum_adds_up _ G2) as Q. unfold adds_up in Q. cbn [with_header vp_header vp_options frame_ip] in Q.
  change (v4_sum (fr_options s) (v4_sum (fr_options s) (assigns v4_assign vs (fr_ip s)))) with (v4_sum (fr_options s) (assigns v4_assign vs (fr_ip s))) in Q.
  split; [split; [exact Ht|exact Q]|]. split; [exact He|]. split; [exact G2|exact Hi].
Qed.
(** C77: whatever the checksums were before, a receiver accepts what comes out. *)
Lemma c77_udp_received : forall E E' vs us s, frame_packet_ok udp_bytes udp_packet_ok s -> Forall v4_setter_ok vs -> Forall udp_setter_ok us ->
  carries_udp s -> Forall keeps_protocol vs ->
  len (udp_bytes (fr_inner s)) mod 2 = 0 \/ (cursor_eof E = EofKeep /\ cursor_eof E' = EofKeep) ->
  receive_udp E' (fst (rewrite_udp E vs us (frame_bytes udp_bytes s))) = Ok true.
Proof.
  intros E E' vs us s Hs Hv Hu (Ht & Hp & Hb) Hk Hc. destruct (c77_udp E vs us s Hs Hv Hu) as [R1 R2]; [tauto|]. rewrite R1. cbn [fst].
  destruct (ip_edited_routable udp_bytes udp_packet_ok vs s Hs Hv Ht) as [I1 (_ & I2 & _)].
  destruct (udp_assigns us (fr_inner s)) as [P1 P2].
  assert (Hlen : len (udp_bytes (fr_inner (rewritten_udp vs us s))) = len (udp_bytes (fr_inner s))).
  { rewrite !udp_len. cbn [rewritten_udp fr_inner udp_sum udp_store up_payload up_behind]. rewrite P1, P2. reflexivity. }
  apply receive_udp_on; [exact R2|exact I1| | |rewrite Hlen; tauto|].
  - cbn [rewritten_udp fr_ip v4_sum v4_summed v4_fields_with vf_proto]. rewrite keeps_proto by exact Hk. exact Hp.
  - cbn [rewritten_udp fr_inner udp_sum udp_store up_behind]. rewrite P2. exact Hb.
  - apply (udp_sum_valid (frame_ip udp_bytes (ip_edited vs s))); [exact I2|]. cbn [fr_inner].
    clear - Hs Hu. destruct Hs as (_ & _ & Hs). revert Hs. generalize (fr_inner s). induction Hu as [|o us Ho Hu IH]; intros u Hs; [exact Hs|].
    apply (IH (fst (udp_assign o u))). apply (udp_assign_step o u Hs Ho).
Qed.
Lemma swap_term x y r : 0 < r -> ones_sum (x + r) = 65535 -> (ones_sum (y + r) = 65535 <-> y mod 65535 = x mod 65535).
Proof.
  unfold ones_sum. intros Hr. destruct (N.eqb_spec (x + r) 0); [discriminate|]. destruct (N.eqb_spec (y + r) 0); [lia|]. intros H. split; intros Q; lia.
Qed.
Lemma word_sum_octets x : word_sum (octets x) = (ip_a x * 256 + ip_b x) + (ip_c x * 256 + ip_d x).
Proof. destruct x as [a b c d]. change (word_sum (octets (Ip4 a b c d))) with (a * 256 + b + (c * 256 + d + 0)). cbn [Base.ip_a Base.ip_b Base.ip_c Base.ip_d]. lia. Qed.
Lemma accepts_other_source src a dst proto b : 0 < proto -> receiver_accepts (with_pseudo_header src dst proto b) ->
  (receiver_accepts (with_pseudo_header a dst proto b) <-> word_sum (octets a) mod 65535 = word_sum (octets src) mod 65535).
Proof.
  intros Hp. unfold receiver_accepts. rewrite !word_sum_pseudo, !pseudo_sum, !word_sum_octets. generalize (len b mod 65536). intros n.
  set (r := ip_a dst * 256 + ip_b dst + (ip_c dst * 256 + ip_d dst) + proto + n + word_sum b).
  replace (ip_a src * 256 + ip_b src + (ip_c src * 256 + ip_d src) + (ip_a dst * 256 + ip_b dst) + (ip_c dst * 256 + ip_d dst) + proto + n + word_sum b)
    with (ip_a src * 256 + ip_b src + (ip_c src * 256 + ip_d src) + r) by (unfold r; lia).
  replace (ip_a a * 256 + ip_b a + (ip_c a * 256 + ip_d a) + (ip_a dst * 256 + ip_b dst) + (ip_c dst * 256 + ip_d dst) + proto + n + word_sum b)
    with (ip_a a * 256 + ip_b a + (ip_c a * 256 + ip_d a) + r) by (unfold r; lia).
  apply swap_term. unfold r. lia.
Qed.
(** C77: addresses have to be changed first.  After the other order the datagram is accepted
    only if the address sums up to the same. *)
Lemma c77_udp_order : forall E E' us s a, frame_packet_ok udp_bytes udp_packet_ok s -> Forall udp_setter_ok us -> addr_ok a -> carries_udp s ->
  len (udp_bytes (fr_inner s)) mod 2 = 0 \/ (cursor_eof E = EofKeep /\ cursor_eof E' = EofKeep) ->
  (receive_udp E' (fst (rewrite_udp_first E [V4SetSource a] us (frame_bytes udp_bytes s))) = Ok true <->
   word_sum (octets a) mod 65535 = word_sum (octets (vf_src (fr_ip s))) mod 65535).
Proof.
  intros E E' us s a Hs Hu Ha (Ht & Hp & Hb) Hc.
  destruct (udp_frame_step E (OnTransport (Checked us)) s Hs ltac:(tauto) Hu ltac:(discriminate)) as (G1 & G2 & G3).
  cbn [frame_do udp_do fst snd frame_act udp_act] in G1, G2, G3.
  set (s1 := {| fr_ether := fr_ether s; fr_ip := fr_ip s; fr_options := fr_options s; fr_inner := _; fr_padding := fr_padding s |}) in *.
  assert (Hv : Forall v4_setter_ok [V4SetSource a]) by (apply Forall_cons; [exact Ha|apply Forall_nil]).
  destruct (udp_frame_step E (OnIp (Checked [V4SetSource a])) s1 G2 ltac:(rewrite G3; tauto) Hv ltac:(discriminate)) as (K1 & K2 & K3).
  cbn [frame_do v4_do fst snd frame_act v4_act] in K1, K2, K3. unfold rewrite_udp_first, mseq. rewrite G1, K1. cbn [fst]. clear G1 K1.
  destruct (ip_edited_routable udp_bytes udp_packet_ok [V4SetSource a] s1 G2 Hv Ht) as [I1 _].
  destruct (udp_assigns us (fr_inner s)) as [P1 P2].
  rewrite receive_udp_on; [|exact K2|exact I1|exact Hp|cbn [fr_inner s1 udp_sum udp_store up_behind]; rewrite P2; exact Hb|rewrite K3, G3; tauto].
  cbn [fr_inner s1]. pose proof Hs as (_ & Hip & Hi).
  assert (Hok : udp_packet_ok (assigns udp_assign us (fr_inner s))).
  { clear - Hi Hu. revert Hi. generalize (fr_inner s). induction Hu as [|o us Ho Hu IH]; intros u Hs; [exact Hs|].
    apply (IH (fst (udp_assign o u))). apply (udp_assign_step o u Hs Ho). }
  destruct (udp_sum_valid (frame_ip udp_bytes s) _ Hip Hok) as [V1 V2]. cbn [frame_ip vp_header] in V1, V2.
  set (u := udp_sum _ _ _) in *. 
  change (vf_src (fr_ip {| fr_ether := fr_ether s1; fr_ip := vp_header (with_header (frame_ip udp_bytes s1)
     (v4_sum (vp_options (frame_ip udp_bytes s1)) (assigns v4_assign [V4SetSource a] (vp_header (frame_ip udp_bytes s1))))); fr_options := fr_options s1; fr_inner := fr_inner s1; fr_padding := fr_padding s1 |})) with a.
  cbn [with_header vp_header fr_ip frame_ip v4_sum v4_summed v4_fields_with vf_dst assigns fold_left v4_assign fst].
  change (vf_dst (fr_ip s1)) with (vf_dst (fr_ip s)).
  rewrite (accepts_other_source (vf_src (fr_ip s)) a) by (exact V1 || reflexivity). split; [intros [Q _]; exact Q|intros Q; split; [exact Q|exact V2]].
Qed.
Lemma v4_sum_same f o : vf_checksum f = inet_checksum (v4_wire (v4_summed 0 f) ++ o) -> v4_sum o f = f.
Proof. intros H. unfold v4_sum. rewrite <- H. destruct f. reflexivity. Qed.
Lemma udp_sum_same src dst u : uf_checksum (up_header u) = inet_checksum (with_pseudo_header src dst 17 (udp_bytes (udp_store 0 u))) -> udp_sum src dst u = u.
Proof. intros H. unfold udp_sum. rewrite <- H. destruct u as [[] ? ?]. reflexivity. Qed.
(** C77: translating back gives the frame that was translated, byte for byte, if its checksums were right. *)
Lemma c77_udp_undone : forall E s a port, frame_packet_ok udp_bytes udp_packet_ok s -> addr_ok a -> u16 port ->
  len (udp_bytes (fr_inner s)) mod 2 = 0 \/ cursor_eof E = EofKeep -> summed_udp s ->
  mseq (nat_out_udp E a port) (nat_out_udp E (vf_src (fr_ip s)) (uf_src (up_header (fr_inner s)))) (frame_bytes udp_bytes s) = (frame_bytes udp_bytes s, Ok tt).
Proof.
  intros E s a port Hs Ha Hp Hc [S1 S2].
  assert (Hv : forall x, addr_ok x -> Forall v4_setter_ok [V4SetSource x]) by (intros x Hx; apply Forall_cons; [exact Hx|apply Forall_nil]).
  assert (Hu : forall x, u16 x -> Forall udp_setter_ok [UdpSetSource x]) by (intros x Hx; apply Forall_cons; [exact Hx|apply Forall_nil]).
  destruct (c77_udp E [V4SetSource a] [UdpSetSource port] s Hs (Hv a Ha) (Hu port Hp) Hc) as [R1 R2].
  destruct (c77_udp E [V4SetSource (vf_src (fr_ip s))] [UdpSetSource (uf_src (up_header (fr_inner s)))] _ R2) as [R3 _].
  - apply Hv. destruct Hs as (_ & (Hf & _) & _). apply Hf.
  - apply Hu. destruct Hs as (_ & _ & (Hf & _)). apply Hf.
  - exact Hc.
  - unfold nat_out_udp, mseq. rewrite R1, R3. do 2 f_equal. clear - S1 S2.
    pose proof (v4_sum_same _ _ S1) as E1. pose proof (udp_sum_same _ _ _ S2) as E2.
    destruct s as [e f o [[us ud ul uc] pl be] pa]. destruct f as [v1 v2 v3 v4 v5 v6 v7 v8 v9 v10 v11 v12 v13 v14 v15].
    cbn [fr_ip fr_options fr_inner] in E1, E2.
    unfold rewritten_udp. cbn [fr_ether fr_ip fr_options fr_inner fr_padding]. f_equal.
    + etransitivity; [|exact E1]. reflexivity.
    + etransitivity; [|exact E2]. reflexivity.
Qed.

(** ** An answer through the translator *)
Definition udp_answered (s : frame_packet udp_packet) : frame_packet udp_packet :=
  let e := fr_ether s in let u := fr_inner s in let h := up_header u in
  {| fr_ether := {| ef_dst := ef_src e; ef_src := ef_dst e; ef_type := ef_type e |}; fr_ip := swapped (fr_ip s); fr_options := fr_options s;
     fr_inner := {| up_header := {| uf_src := uf_dst h; uf_dst := uf_src h; uf_length := uf_length h; uf_checksum := uf_checksum h |};
                    up_payload := up_payload u; up_behind := up_behind u |};
     fr_padding := fr_padding s |}.
Lemma swap_udp_ports_on u : udp_packet_ok u ->
  let h := up_header u in
  swap_udp_ports (udp_bytes u) = (udp_bytes {| up_header := {| uf_src := uf_dst h; uf_dst := uf_src h; uf_length := uf_length h; uf_checksum := uf_checksum h |};
                    up_payload := up_payload u; up_behind := up_behind u |}, Ok tt).
Proof.
  intros Hu h. assert (Hl : 8 <= len (udp_bytes u)) by (rewrite udp_len; lia).
  unfold swap_udp_ports, mlet. unfold udp_source, udp_destination. rewrite !get16 by lia.
  assert (H1 : wire16 (udp_bytes u) 0 = uf_src h).
  { destruct Hu as ((H & _) & _). unfold u16 in H. change (uf_src (up_header u) / 256 * 256 + uf_src (up_header u) mod 256 = uf_src (up_header u)). lia. }
  assert (H2 : wire16 (udp_bytes u) 2 = uf_dst h).
  { destruct Hu as ((_ & H & _) & _). unfold u16 in H. change (uf_dst (up_header u) / 256 * 256 + uf_dst (up_header u) mod 256 = uf_dst (up_header u)). lia. }
  rewrite H1, H2. unfold mseq. destruct Hu as (Hf & Hu).
  destruct (udp_assign_step (UdpSetSource (uf_dst h)) u (conj Hf Hu)) as (K1 & _ & K2); [apply Hf|]. cbn [udp_apply] in K1. rewrite K1.
  destruct (udp_assign_step (UdpSetDestination (uf_src h)) _ K2) as (K3 & _); [apply Hf|]. cbn [udp_apply] in K3. rewrite K3. reflexivity.
Qed.
Lemma udp_answered_on s : ok_udp s ->
  answer_frame answer_udp (frame_bytes udp_bytes s) = (frame_bytes udp_bytes (udp_answered s), Ok tt) /\ ok_udp (udp_answered s).
Proof.
  intros (He & Hv & Hi). destruct (swap_addresses_on _ Hv) as (S1 & S2 & _). set (q := with_header _ _) in *. split.
  - unfold answer_frame, mseq. rewrite frame_bytes_ip, swap_macs_on by exact He. rewrite edit_datagram_on by (apply v4_new_bytes, Hv).
    unfold answer_udp, mseq. rewrite S1. rewrite edit_transport_on; [|exact S2|apply udp_new_bytes, Hi]. cbv zeta.
    change (vp_payload q) with (udp_bytes (fr_inner s)). rewrite swap_udp_ports_on by exact Hi. reflexivity.
  - split; [destruct He as (H1 & H2 & H3); split; [exact H2|split; [exact H1|exact H3]]|]. split.
    + destruct S2 as (Q1 & Q2 & Q3 & Q4 & Q5 & Q6 & Q7). split; [exact Q1|]. split; [exact Q2|]. split; [exact Q3|].
      unfold q in Q4. cbn [with_header frame_ip vp_header vp_payload] in Q4 |- *.
      replace (len (udp_bytes (fr_inner (udp_answered s)))) with (len (udp_bytes (fr_inner s))) by (rewrite !udp_len; reflexivity).
      split; [exact Q4|]. split; [exact Q5|]. split; [|exact Q7]. apply udp_is_bytes.
      destruct Hi as ((F1 & F2 & F3 & F4) & Hi). split; [|exact Hi]. split; [exact F2|split; [exact F1|split; [exact F3|exact F4]]].
    + destruct Hi as ((F1 & F2 & F3 & F4) & Hi). split; [|exact Hi]. split; [exact F2|split; [exact F1|split; [exact F3|exact F4]]].
Qed.
(** C77: a datagram sent out through the translator, answered in place, and the answer brought
    back in: it comes from the far end, to the sender's own address and port, with the payload,
    and the sender accepts it. *)
Lemma c77_udp_session : forall E E' s public port private own, frame_packet_ok udp_bytes udp_packet_ok s -> carries_udp s ->
  addr_ok public -> u16 port -> addr_ok private -> u16 own ->
  len (udp_bytes (fr_inner s)) mod 2 = 0 \/ (cursor_eof E = EofKeep /\ cursor_eof E' = EofKeep) ->
  exists r, udp_session E public port private own (frame_bytes udp_bytes s) = (frame_bytes udp_bytes r, Ok tt) /\
    frame_packet_ok udp_bytes udp_packet_ok r /\
    ef_src (fr_ether r) = ef_dst (fr_ether s) /\ ef_dst (fr_ether r) = ef_src (fr_ether s) /\
    vf_src (fr_ip r) = vf_dst (fr_ip s) /\ vf_dst (fr_ip r) = private /\
    uf_src (up_header (fr_inner r)) = uf_dst (up_header (fr_inner s)) /\ uf_dst (up_header (fr_inner r)) = own /\
    up_payload (fr_inner r) = up_payload (fr_inner s) /\
    receive_udp E' (frame_bytes udp_bytes r) = Ok true.
Proof.
  intros E E' s public port private own Hs Hcar Ha Hp Ha' Hp' Hc.
  assert (HcE : len (udp_bytes (fr_inner s)) mod 2 = 0 \/ cursor_eof E = EofKeep) by tauto.
  destruct (c77_udp E [V4SetSource public] [UdpSetSource port] s Hs) as [R1 R2];
    [apply Forall_cons; [exact Ha|apply Forall_nil]|apply Forall_cons; [exact Hp|apply Forall_nil]|exact HcE|].
  destruct (udp_answered_on _ R2) as [A1 A2].
  set (m := udp_answered (rewritten_udp [V4SetSource public] [UdpSetSource port] s)) in *.
  assert (Hv : Forall v4_setter_ok [V4SetDestination private]) by (apply Forall_cons; [exact Ha'|apply Forall_nil]).
  assert (Hu : Forall udp_setter_ok [UdpSetDestination own]) by (apply Forall_cons; [exact Hp'|apply Forall_nil]).
  destruct (c77_udp E [V4SetDestination private] [UdpSetDestination own] m A2 Hv Hu HcE) as [B1 B2].
  exists (rewritten_udp [V4SetDestination private] [UdpSetDestination own] m). split.
  { unfold udp_session, nat_out_udp, nat_in_udp, mseq. rewrite R1, A1. exact B1. }
  split; [exact B2|]. do 7 (split; [reflexivity|]).
  pose proof (c77_udp_received E E' [V4SetDestination private] [UdpSetDestination own] m A2 Hv Hu) as Q. rewrite B1 in Q. apply Q; [exact Hcar| |exact Hc].
  apply Forall_cons; [exact I|apply Forall_nil].
Qed.

(** ** What a sender built *)
Lemma udp_sent eops vs us p q : q = udp_wire (udp_finished (vf_src (v4_after vs)) (vf_dst (v4_after vs)) (udp_after us) p) ++ p ->
  frame_bytes (fun p => p) (sent eops vs 17 q) =
  frame_bytes udp_bytes {| fr_ether := ether_set_type (ether_after eops) 0x0800; fr_ip := v4_finished (v4_after vs) 17 (len q); fr_options := [];
    fr_inner := {| up_header := udp_finished (vf_src (v4_after vs)) (vf_dst (v4_after vs)) (udp_after us) p; up_payload := p; up_behind := [] |}; fr_padding := [] |}.
Proof. intros ->. unfold frame_bytes, sent, udp_bytes. cbn [fr_ether fr_ip fr_options fr_inner fr_padding up_header up_payload up_behind]. rewrite !app_nil_r. reflexivity. Qed.
Lemma v4_after_app vs vs' : v4_after (vs ++ vs') = fold_left v4_put vs' (v4_after vs).
Proof. unfold v4_after. apply fold_left_app. Qed.
Lemma v4_refinished a f proto n : v4_sum [] (assigns v4_assign [V4SetSource a] (v4_finished f proto n)) = v4_finished (v4_put f (V4SetSource a)) proto n.
Proof. unfold v4_sum. rewrite app_nil_r. destruct f. reflexivity. Qed.
Lemma v4_finished_src a f proto n : vf_src (v4_finished (v4_put f (V4SetSource a)) proto n) = a /\ vf_dst (v4_finished (v4_put f (V4SetSource a)) proto n) = vf_dst f /\
  vf_src (v4_put f (V4SetSource a)) = a /\ vf_dst (v4_put f (V4SetSource a)) = vf_dst f.
Proof. destruct f. repeat split. Qed.
Lemma udp_refinished port src dst src' dst' f p :
  udp_sum src dst (assigns udp_assign [UdpSetSource port] {| up_header := udp_finished src' dst' f p; up_payload := p; up_behind := [] |}) =
  {| up_header := udp_finished src dst (udp_put f (UdpSetSource port)) p; up_payload := p; up_behind := [] |}.
Proof. unfold udp_sum, udp_bytes. cbn [up_behind up_payload udp_store assigns fold_left udp_assign fst]. rewrite app_nil_r. destruct f. reflexivity. Qed.
(** C77: the translated frame is the frame the sender would have built with that source. *)
Lemma c77_built_udp : forall E E' eops vs us p a port,
  eth_ok (Some eops) -> Forall v4_arg_ok vs -> Forall udp_op_ok us -> one_payload (udp_payloads us) p -> 28 + len p <= 65535 ->
  addr_ok a -> u16 port -> len p mod 2 = 0 \/ (cursor_eof E = EofKeep /\ cursor_eof E' = EofKeep) ->
  exists frame frame',
    udp_chain E (Some eops) vs us dynamic_new = Ok frame /\
    udp_chain E (Some eops) (vs ++ [V4SetSource a]) (us ++ [Builders.UdpSet (UdpSetSource port)]) dynamic_new = Ok frame' /\
    nat_out_udp E' a port frame = (frame', Ok tt).
Proof.
  intros E E' eops vs us p a port He Hv Hu Hp Hl Ha Hport Hc.
  assert (Hi : 65600 <= @ISIZE_MAX E) by (pose proof (@width_facts E); lia).
  assert (Hv' : Forall v4_arg_ok (vs ++ [V4SetSource a])).
  { apply Forall_app. split; [exact Hv|]. apply Forall_cons; [split; [exact Ha|exact I]|apply Forall_nil]. }
  assert (Hu' : Forall udp_op_ok (us ++ [Builders.UdpSet (UdpSetSource port)])).
  { apply Forall_app. split; [exact Hu|]. apply Forall_cons; [exact Hport|apply Forall_nil]. }
  assert (Hp' : one_payload (udp_payloads (us ++ [Builders.UdpSet (UdpSetSource port)])) p).
  { unfold udp_payloads in *. rewrite flat_map_app. cbn [flat_map]. rewrite !app_nil_r. exact Hp. }
  pose proof (c33_udp_bytes E (Some eops) vs us p He Hv Hu Hp ltac:(lia) ltac:(tauto)) as G. cbv zeta in G.
  pose proof (c33_udp_bytes E (Some eops) _ _ p He Hv' Hu' Hp' ltac:(lia) ltac:(tauto)) as G'. cbv zeta in G'.
  eexists _, _. split; [exact G|]. split; [exact G'|]. clear G G'.
  set (u := udp_finished (vf_src (v4_after vs)) (vf_dst (v4_after vs)) (udp_after us) p).
  pose proof (one_payload_bytes _ _ Hp (udp_op_payloads us Hu)) as Hpb. pose proof (udp_finished_ok (vf_src (v4_after vs)) (vf_dst (v4_after vs)) _ p (udp_after_ok us Hu)) as Huf. fold u in Huf.
  set (q := udp_wire u ++ p). assert (Hlq : len q = 8 + len p) by (unfold q; rewrite len_app, len_udp_wire; reflexivity).
  assert (Hq : is_bytes q) by (apply is_bytes_app; split; [apply BuildLemmas.is_bytes_udp_wire, Huf|exact Hpb]).
  destruct (sent_ok eops vs 17 q He Hv) as (S1 & _); [unfold u8; lia|exact Hq|lia|]. rewrite <- Hlq.
  fold q. rewrite <- sent_bytes. rewrite (udp_sent eops vs us p q eq_refl). fold u.
  set (s := {| fr_ether := _ |}).
  assert (Hs : ok_udp s).
  { destruct S1 as (K1 & K2 & _). split; [exact K1|].
    assert (Hinner : udp_packet_ok (fr_inner s)).
    { split; [exact Huf|]. split; [|split; [exact Hpb|apply Forall_nil]]. unfold s, u, udp_finished. cbn [fr_inner up_header udp_fill uf_length up_payload]. lia. }
    split; [|exact Hinner]. destruct K2 as (Q1 & Q2 & Q3 & Q4 & Q5 & Q6 & Q7). split; [exact Q1|]. split; [exact Q2|]. split; [exact Q3|].
    split; [|split; [exact Q5|split; [apply udp_is_bytes, Hinner|exact Q7]]]. etransitivity; [exact Q4|]. cbn [frame_ip sent fr_inner vp_payload vp_options fr_options]. unfold s. cbn [fr_options fr_inner]. 
    rewrite udp_len, Hlq. cbn [up_payload up_behind]. rewrite len_nil. lia. }
  destruct (c77_udp E' [V4SetSource a] [UdpSetSource port] s Hs) as [R1 _];
    [apply Forall_cons; [exact Ha|apply Forall_nil]|apply Forall_cons; [exact Hport|apply Forall_nil]| |].
  { unfold s. cbn [fr_inner]. rewrite udp_len. cbn [up_payload up_behind]. rewrite len_nil. destruct Hc as [Hc|[_ Hc]]; [left; lia|right; exact Hc]. }
  unfold nat_out_udp. rewrite R1. f_equal.
  assert (U : udp_after (us ++ [Builders.UdpSet (UdpSetSource port)]) = udp_put (udp_after us) (UdpSetSource port)).
  { unfold udp_after, udp_setters. rewrite flat_map_app. cbn [flat_map]. rewrite fold_left_app. reflexivity. }
  rewrite U, v4_after_app. cbn [fold_left]. unfold s, rewritten_udp. cbn [fr_ether fr_ip fr_options fr_inner fr_padding].
  rewrite v4_refinished. destruct (v4_finished_src a (v4_after vs) 17 (len q)) as (X1 & X2 & X3 & X4). rewrite X1, X2, X3, X4. unfold u. rewrite udp_refinished.
  unfold frame_bytes, udp_bytes. cbn [fr_ether fr_ip fr_options fr_inner fr_padding up_header up_payload up_behind]. rewrite !app_nil_r. reflexivity.
Qed.

(** ** TCP *)
Lemma tcp_clean_assigns ts t : Forall (fun o => ~ tcp_is_flags o) ts -> tcp_spoiled t = false ->
  tcp_spoiled (assigns tcp_assign ts t) = false /\ tp_options (assigns tcp_assign ts t) = tp_options t /\ tp_payload (assigns tcp_assign ts t) = tp_payload t.
Proof.
  intros H. revert t. induction H as [|o ts Ho H IH]; intros t Hs; [repeat split; exact Hs|].
  change (assigns tcp_assign (o :: ts) t) with (assigns tcp_assign ts (fst (tcp_assign o t))).
  assert (K : tcp_spoiled (fst (tcp_assign o t)) = false /\ tp_options (fst (tcp_assign o t)) = tp_options t /\ tp_payload (fst (tcp_assign o t)) = tp_payload t).
  { unfold tcp_assign. rewrite Hs. cbn [fst tp_options tp_payload]. destruct o; cbn [tcp_is_flags] in Ho; try contradiction; (repeat split; try exact Hs). }
  destruct K as (K1 & K2 & K3). destruct (IH _ K1) as (J1 & J2 & J3). rewrite J1, J2, J3. repeat split; assumption.
Qed.
(** C77: ... and on every frame with a TCP segment in it. *)
Lemma c77_tcp : forall E vs ts s, frame_packet_ok tcp_bytes tcp_packet_ok s -> tcp_spoiled (fr_inner s) = false ->
  Forall v4_setter_ok vs -> Forall tcp_setter_ok ts -> Forall (fun o => ~ tcp_is_flags o) ts ->
  len (tcp_bytes (fr_inner s)) mod 2 = 0 \/ cursor_eof E = EofKeep ->
  rewrite_tcp E vs ts (frame_bytes tcp_bytes s) = (frame_bytes tcp_bytes (rewritten_tcp vs ts s), Ok tt) /\
  frame_packet_ok tcp_bytes tcp_packet_ok (rewritten_tcp vs ts s).
Proof.
  intros E vs ts s Hs Hsp Hv Hu Hf Hc.
  destruct (tcp_frame_step E (OnIp (Checked vs)) s Hs Hc Hv ltac:(discriminate)) as (G1 & G2 & G3).
  cbn [frame_do v4_do fst snd frame_act v4_act] in G1, G2, G3. destruct (tcp_clean_assigns ts (fr_inner s) Hf Hsp) as (Q & _).
  set (s1 := {| fr_ether := _ |}) in *.
  assert (D : forall src dst, tcp_do src dst (Checked ts) (fr_inner s1) = (tcp_sum src dst (assigns tcp_assign ts (fr_inner s)), Ok tt)).
  { intros src dst. unfold tcp_do. change (fr_inner s1) with (fr_inner s). rewrite Q. reflexivity. }
  destruct (tcp_frame_step E (OnTransport (Checked ts)) s1 G2 ltac:(rewrite G3; exact Hc)) as (K1 & K2 & _);
    [split; [exact Hu|exact I]|cbn [frame_do]; rewrite D; discriminate|].
  cbn [frame_do] in K1, K2. rewrite D in K1, K2. cbn [fst snd frame_act tcp_act] in K1, K2.
  split; [|exact K2]. unfold rewrite_tcp, mseq. rewrite G1. exact K1.
Qed.
Lemma tcp_checksum_cell t : tcp_packet_ok t -> wire16 (tcp_bytes t) 16 = tf_checksum (tp_header t).
Proof.
  intros ((_ & _ & _ & _ & _ & _ & _ & _ & Hf & _) & _). unfold u16 in Hf.
  change (tf_checksum (tp_header t) / 256 * 256 + tf_checksum (tp_header t) mod 256 = tf_checksum (tp_header t)). lia.
Qed.
Lemma tcp_clean_offset t : tcp_packet_ok t -> tcp_spoiled t = false -> 5 <= nthN (tcp_bytes t) 12 / 16.
Proof. intros Hi Hsp. rewrite tcp_offset_bytes by exact Hi. destruct Hi as (_ & Ho & _). unfold tcp_spoiled in Hsp. lia. Qed.
Lemma tcp_sum_valid p t : v4_packet_ok p -> tcp_packet_ok t -> tcp_spoiled t = false -> len (tcp_bytes t) <= 131065 ->
  let src := vf_src (vp_header p) in let dst := vf_dst (vp_header p) in
  receiver_accepts (with_pseudo_header src dst 6 (tcp_bytes (tcp_sum src dst t))) /\ tf_checksum (tp_header (tcp_sum src dst t)) <> 65535.
Proof.
  intros Hp Hu Hsp Hm src dst. set (b := v4_wire (vp_header p) ++ vp_options p).
  assert (Hb : is_bytes b) by apply is_bytes_v4_header, Hp. assert (Hl : 20 <= len b) by (unfold b; rewrite len_app, v4_wire_len; lia).
  destruct (v4_wire_addrs (vp_header p) (vp_options p)) as [A1 A2]. fold b src in A1. fold b dst in A2.
  destruct (tcp_step debug0 b (Checked []) t Hb Hl Hu (conj (Forall_nil _) I) Hm (or_intror eq_refl)) as [G1 G2].
  rewrite A1, A2 in G2. cbn [tcp_act tcp_do assigns fold_left] in G2. rewrite Hsp in G2. cbn [fst snd] in G2. destruct (G2 ltac:(discriminate)) as (G3 & G4 & G5).
  destruct (c25_tcp debug0 b [] (tcp_bytes t) Hb (tcp_is_bytes t Hu) Hl Hm (or_intror eq_refl) (tcp_new_bytes t Hu) (tcp_clean_offset t Hu Hsp) (Forall_nil _)) as (b' & B1 & _ & _ & _ & B2).
  rewrite B1 in G3. cbn [fst] in G3. subst b'.
  apply c22_tcp_is_valid_receiver in B2; [|exact Hb|apply tcp_is_bytes, G4|exact Hl|rewrite G5; split; [rewrite tcp_len; lia|exact Hm]|right; reflexivity].
  rewrite A1, A2, tcp_checksum_cell in B2 by exact G4. exact B2.
Qed.
Lemma tcp_inner_len s : ok_tcp s -> len (tcp_bytes (fr_inner s)) <= 131065.
Proof.
  intros (_ & Hv & _). pose proof Hv as (V1 & V2 & V3 & V4 & _).
  cbn [frame_ip vp_header vp_options vp_payload vp_behind] in V4, V1. assert (u16 (vf_total (fr_ip s))) by apply V1. unfold u16 in *. lia.
Qed.
Lemma receive_tcp_on E r : ok_tcp r -> routable r -> vf_proto (fr_ip r) = 6 -> tcp_spoiled (fr_inner r) = false ->
  len (tcp_bytes (fr_inner r)) mod 2 = 0 \/ cursor_eof E = EofKeep ->
  (receive_tcp E (frame_bytes tcp_bytes r) = Ok true <->
   receiver_accepts (with_pseudo_header (vf_src (fr_ip r)) (vf_dst (fr_ip r)) 6 (tcp_bytes (fr_inner r))) /\ tf_checksum (tp_header (fr_inner r)) <> 65535).
Proof.
  intros Hr Ha Hp Hsp Hc. unfold receive_tcp. rewrite verdict_true. rewrite (receive_routable tcp_bytes tcp_packet_ok) by assumption.
  rewrite Hp. change (ip_protocol_from 6) with IP_Tcp. cbv iota. pose proof (tcp_inner_len r Hr) as Hm. destruct Hr as (_ & Hs & Hi).
  rewrite tcp_new_bytes by exact Hi. cbn [bind]. rewrite tcp_offset_ok by (rewrite tcp_len; lia). cbn [bind].
  pose proof (tcp_clean_offset _ Hi Hsp) as Ho. replace (_ <? 5) with false by lia.
  rewrite c22_tcp_is_valid_receiver; [|apply v4_is_bytes, Hs|apply tcp_is_bytes, Hi|rewrite v4_len; lia|split; [rewrite tcp_len; lia|exact Hm]|exact Hc].
  destruct (frame_addrs tcp_bytes r) as [A1 A2]. rewrite A1, A2, tcp_checksum_cell by exact Hi. reflexivity.
Qed.
(** C77: whatever the checksums were before, a receiver accepts what comes out. *)
Lemma c77_tcp_received : forall E E' vs ts s, frame_packet_ok tcp_bytes tcp_packet_ok s -> Forall v4_setter_ok vs ->
  Forall tcp_setter_ok ts -> Forall (fun o => ~ tcp_is_flags o) ts -> carries_tcp s -> Forall keeps_protocol vs ->
  len (tcp_bytes (fr_inner s)) mod 2 = 0 \/ (cursor_eof E = EofKeep /\ cursor_eof E' = EofKeep) ->
  receive_tcp E' (fst (rewrite_tcp E vs ts (frame_bytes tcp_bytes s))) = Ok true.
Proof.
  intros E E' vs ts s Hs Hv Hu Hf (Ht & Hp & Hb) Hk Hc. destruct (c77_tcp E vs ts s Hs Hb Hv Hu Hf) as [R1 R2]; [tauto|]. rewrite R1. cbn [fst].
  destruct (ip_edited_routable tcp_bytes tcp_packet_ok vs s Hs Hv Ht) as [I1 (_ & I2 & _)].
  destruct (tcp_clean_assigns ts (fr_inner s) Hf Hb) as (P0 & P1 & P2). pose proof (tcp_inner_len s Hs) as Hm. pose proof (tcp_assigns_len ts (fr_inner s)) as Hal.
  assert (Hlen : len (tcp_bytes (fr_inner (rewritten_tcp vs ts s))) = len (tcp_bytes (fr_inner s))).
  { rewrite !tcp_len. cbn [rewritten_tcp fr_inner tcp_sum tcp_store tp_payload tp_options]. rewrite P1, P2. reflexivity. }
  apply receive_tcp_on; [exact R2|exact I1| |exact P0|rewrite Hlen; tauto|].
  - cbn [rewritten_tcp fr_ip v4_sum v4_summed v4_fields_with vf_proto]. rewrite keeps_proto by exact Hk. exact Hp.
  - apply (tcp_sum_valid (frame_ip tcp_bytes (ip_edited vs s))); [exact I2| |exact P0|lia]. apply tcp_assigns_ok; [apply Hs|exact Hu].
Qed.
(** C77: in the wrong order, the frame is accepted only if the old and the new address happen to have the same sum. *)
Lemma c77_tcp_order : forall E E' ts s a, frame_packet_ok tcp_bytes tcp_packet_ok s -> Forall tcp_setter_ok ts -> Forall (fun o => ~ tcp_is_flags o) ts ->
  addr_ok a -> carries_tcp s ->
  len (tcp_bytes (fr_inner s)) mod 2 = 0 \/ (cursor_eof E = EofKeep /\ cursor_eof E' = EofKeep) ->
  (receive_tcp E' (fst (rewrite_tcp_first E [V4SetSource a] ts (frame_bytes tcp_bytes s))) = Ok true <->
   word_sum (octets a) mod 65535 = word_sum (octets (vf_src (fr_ip s))) mod 65535).
Proof.
  intros E E' ts s a Hs Hu Hf Ha (Ht & Hp & Hb) Hc.
  destruct (tcp_clean_assigns ts (fr_inner s) Hf Hb) as (P0 & P1 & P2). pose proof (tcp_inner_len s Hs) as Hm. pose proof (tcp_assigns_len ts (fr_inner s)) as Hal.
  assert (D : forall src dst, tcp_do src dst (Checked ts) (fr_inner s) = (tcp_sum src dst (assigns tcp_assign ts (fr_inner s)), Ok tt)).
  { intros src dst. unfold tcp_do. rewrite P0. reflexivity. }
  destruct (tcp_frame_step E (OnTransport (Checked ts)) s Hs ltac:(tauto)) as (G1 & G2 & G3);
    [split; [exact Hu|exact I]|cbn [frame_do]; rewrite D; discriminate|].
  cbn [frame_do] in G1, G2, G3. rewrite D in G1, G2, G3. cbn [fst snd frame_act tcp_act] in G1, G2, G3.
  set (s1 := {| fr_ether := fr_ether s; fr_ip := fr_ip s; fr_options := fr_options s; fr_inner := _; fr_padding := fr_padding s |}) in *.
  assert (Hv : Forall v4_setter_ok [V4SetSource a]) by (apply Forall_cons; [exact Ha|apply Forall_nil]).
  destruct (tcp_frame_step E (OnIp (Checked [V4SetSource a])) s1 G2 ltac:(rewrite G3; tauto) Hv ltac:(discriminate)) as (K1 & K2 & K3).
  cbn [frame_do v4_do fst snd frame_act v4_act] in K1, K2, K3. unfold rewrite_tcp_first, mseq. rewrite G1, K1. cbn [fst]. clear G1 K1.
  destruct (ip_edited_routable tcp_bytes tcp_packet_ok [V4SetSource a] s1 G2 Hv Ht) as [I1 _].
  rewrite receive_tcp_on; [|exact K2|exact I1|exact Hp|exact P0|rewrite K3, G3; tauto].
  cbn [fr_inner s1]. pose proof Hs as (_ & Hip & Hi).
  destruct (tcp_sum_valid (frame_ip tcp_bytes s) _ Hip (tcp_assigns_ok ts _ Hi Hu) P0 ltac:(lia)) as [V1 V2]. cbn [frame_ip vp_header] in V1, V2.
  set (u := tcp_sum _ _ _) in *.
  change (vf_src (fr_ip {| fr_ether := fr_ether s1; fr_ip := vp_header (with_header (frame_ip tcp_bytes s1)
     (v4_sum (vp_options (frame_ip tcp_bytes s1)) (assigns v4_assign [V4SetSource a] (vp_header (frame_ip tcp_bytes s1))))); fr_options := fr_options s1; fr_inner := fr_inner s1; fr_padding := fr_padding s1 |})) with a.
  cbn [with_header vp_header fr_ip frame_ip v4_sum v4_summed v4_fields_with vf_dst assigns fold_left v4_assign fst].
  change (vf_dst (fr_ip s1)) with (vf_dst (fr_ip s)).
  rewrite (accepts_other_source (vf_src (fr_ip s)) a) by (exact V1 || reflexivity). split; [intros [Q _]; exact Q|intros Q; split; [exact Q|exact V2]].
Qed.
Lemma tcp_sum_same src dst t : tf_checksum (tp_header t) = inet_checksum (with_pseudo_header src dst 6 (tcp_bytes (tcp_store 0 t))) -> tcp_sum src dst t = t.
Proof. intros H. unfold tcp_sum. rewrite <- H. destruct t as [[] ? ?]. reflexivity. Qed.
(** C77: translating a segment back gives the frame that was translated. *)
Lemma c77_tcp_undone : forall E s a port, frame_packet_ok tcp_bytes tcp_packet_ok s -> tcp_spoiled (fr_inner s) = false -> addr_ok a -> u16 port ->
  len (tcp_bytes (fr_inner s)) mod 2 = 0 \/ cursor_eof E = EofKeep -> summed_tcp s ->
  mseq (nat_out_tcp E a port) (nat_out_tcp E (vf_src (fr_ip s)) (tf_src (tp_header (fr_inner s)))) (frame_bytes tcp_bytes s) = (frame_bytes tcp_bytes s, Ok tt).
Proof.
  intros E s a port Hs Hsp Ha Hp Hc [S1 S2].
  assert (Hv : forall x, addr_ok x -> Forall v4_setter_ok [V4SetSource x]) by (intros x Hx; apply Forall_cons; [exact Hx|apply Forall_nil]).
  assert (Hu : forall x, u16 x -> Forall tcp_setter_ok [TcpSetSource x]) by (intros x Hx; apply Forall_cons; [exact Hx|apply Forall_nil]).
  assert (Hf : forall x, Forall (fun o => ~ tcp_is_flags o) [TcpSetSource x]) by (intros x; apply Forall_cons; [intros []|apply Forall_nil]).
  destruct (c77_tcp E [V4SetSource a] [TcpSetSource port] s Hs Hsp (Hv a Ha) (Hu port Hp) (Hf _) Hc) as [R1 R2].
  assert (F : assigns tcp_assign [TcpSetSource port] (fr_inner s) =
    {| tp_header := tcp_header_with (TcpSetSource port) (tp_header (fr_inner s)); tp_options := tp_options (fr_inner s); tp_payload := tp_payload (fr_inner s) |}).
  { unfold assigns. cbn [fold_left]. unfold tcp_assign. rewrite Hsp. reflexivity. }
  assert (Hl : len (tcp_bytes (fr_inner (rewritten_tcp [V4SetSource a] [TcpSetSource port] s))) = len (tcp_bytes (fr_inner s))).
  { cbn [rewritten_tcp fr_inner]. rewrite F, !tcp_len. reflexivity. }
  assert (Hsp2 : tcp_spoiled (fr_inner (rewritten_tcp [V4SetSource a] [TcpSetSource port] s)) = false) by (cbn [rewritten_tcp fr_inner]; rewrite F; exact Hsp).
  destruct (c77_tcp E [V4SetSource (vf_src (fr_ip s))] [TcpSetSource (tf_src (tp_header (fr_inner s)))] _ R2 Hsp2) as [R3 _].
  - apply Hv. destruct Hs as (_ & (Hx & _) & _). apply Hx.
  - apply Hu. destruct Hs as (_ & _ & (Hx & _)). apply Hx.
  - apply Hf.
  - rewrite Hl. exact Hc.
  - unfold nat_out_tcp, mseq. rewrite R1, R3. do 2 f_equal.
    assert (F2 : forall p, assigns tcp_assign [TcpSetSource p] (fr_inner (rewritten_tcp [V4SetSource a] [TcpSetSource port] s)) =
      {| tp_header := tcp_header_with (TcpSetSource p) (tp_header (fr_inner (rewritten_tcp [V4SetSource a] [TcpSetSource port] s)));
         tp_options := tp_options (fr_inner (rewritten_tcp [V4SetSource a] [TcpSetSource port] s)); tp_payload := tp_payload (fr_inner (rewritten_tcp [V4SetSource a] [TcpSetSource port] s)) |}).
    { intros p. unfold assigns at 1. cbn [fold_left]. unfold tcp_assign at 1. rewrite Hsp2. reflexivity. }
    unfold rewritten_tcp at 1. rewrite F2. cbn [rewritten_tcp fr_inner]. rewrite F. clear - S1 S2.
    pose proof (v4_sum_same _ _ S1) as E1. pose proof (tcp_sum_same _ _ _ S2) as E2.
    destruct s as [e f o [[t1 t2 t3 t4 t5 t6 t7 t8 t9 t10] op pl] pa]. destruct f as [v1 v2 v3 v4 v5 v6 v7 v8 v9 v10 v11 v12 v13 v14 v15].
    cbn [fr_ip fr_options fr_inner] in E1, E2.
    unfold rewritten_tcp. cbn [fr_ether fr_ip fr_options fr_inner fr_padding]. f_equal.
    + etransitivity; [|exact E1]. reflexivity.
    + etransitivity; [|exact E2]. reflexivity.
Qed.
Definition tcp_answered (s : frame_packet tcp_packet) : frame_packet tcp_packet :=
  let e := fr_ether s in let u := fr_inner s in let h := tp_header u in
  {| fr_ether := {| ef_dst := ef_src e; ef_src := ef_dst e; ef_type := ef_type e |}; fr_ip := swapped (fr_ip s); fr_options := fr_options s;
     fr_inner := {| tp_header := {| tf_src := tf_dst h; tf_dst := tf_src h; tf_seq := tf_seq h; tf_ack := tf_ack h; tf_offset := tf_offset h;
                      tf_reserved := tf_reserved h; tf_flags := tf_flags h; tf_window := tf_window h; tf_checksum := tf_checksum h; tf_pointer := tf_pointer h |};
                    tp_options := tp_options u; tp_payload := tp_payload u |};
     fr_padding := fr_padding s |}.
Lemma swap_tcp_ports_on s : tcp_packet_ok (fr_inner s) -> tcp_spoiled (fr_inner s) = false ->
  swap_tcp_ports (tcp_bytes (fr_inner s)) = (tcp_bytes (fr_inner (tcp_answered s)), Ok tt) /\ tcp_packet_ok (fr_inner (tcp_answered s)).
Proof.
  intros Hu Hsp. set (u := fr_inner s) in *. set (h := tp_header u). assert (Hl : 20 <= len (tcp_bytes u)) by (rewrite tcp_len; lia).
  assert (H1 : wire16 (tcp_bytes u) 0 = tf_src h).
  { destruct Hu as ((H & _) & _). unfold u16 in H. change (tf_src (tp_header u) / 256 * 256 + tf_src (tp_header u) mod 256 = tf_src (tp_header u)). lia. }
  assert (H2 : wire16 (tcp_bytes u) 2 = tf_dst h).
  { destruct Hu as ((_ & H & _) & _). unfold u16 in H. change (tf_dst (tp_header u) / 256 * 256 + tf_dst (tp_header u) mod 256 = tf_dst (tp_header u)). lia. }
  assert (O1 : tcp_setter_ok (TcpSetSource (tf_dst h))) by apply Hu. assert (O2 : tcp_setter_ok (TcpSetDestination (tf_src h))) by apply Hu.
  pose proof (tcp_assign_step _ u Hu O1) as K1. pose proof (tcp_assign_ok _ u Hu O1) as K2.
  unfold tcp_assign in K1, K2. rewrite Hsp in K1, K2. cbn [fst snd tcp_apply] in K1, K2. set (u1 := {| tp_header := _ |}) in *.
  pose proof (tcp_assign_step _ u1 K2 O2) as K3. pose proof (tcp_assign_ok _ u1 K2 O2) as K4.
  unfold tcp_assign in K3, K4. change (tcp_spoiled u1) with (tcp_spoiled u) in *. rewrite Hsp in K3, K4. cbn [fst snd tcp_apply] in K3, K4.
  split; [|exact K4]. unfold swap_tcp_ports, mlet. unfold tcp_source, tcp_destination. rewrite !get16 by lia. rewrite H1, H2. unfold mseq.
  rewrite K1, K3. reflexivity.
Qed.
Lemma tcp_answered_on s : ok_tcp s -> tcp_spoiled (fr_inner s) = false ->
  answer_frame answer_tcp (frame_bytes tcp_bytes s) = (frame_bytes tcp_bytes (tcp_answered s), Ok tt) /\ ok_tcp (tcp_answered s).
Proof.
  intros (He & Hv & Hi) Hsp. destruct (swap_addresses_on _ Hv) as (S1 & S2 & _). set (q := with_header _ _) in *. destruct (swap_tcp_ports_on s Hi Hsp) as [P1 P2]. split.
  - unfold answer_frame, mseq. rewrite frame_bytes_ip, swap_macs_on by exact He. rewrite edit_datagram_on by (apply v4_new_bytes, Hv).
    unfold answer_tcp, mseq. rewrite S1. rewrite edit_transport_on; [|exact S2|apply tcp_new_bytes, Hi]. cbv zeta.
    change (vp_payload q) with (tcp_bytes (fr_inner s)). rewrite P1. reflexivity.
  - split; [destruct He as (H1 & H2 & H3); split; [exact H2|split; [exact H1|exact H3]]|]. split; [|exact P2].
    destruct S2 as (Q1 & Q2 & Q3 & Q4 & Q5 & Q6 & Q7). split; [exact Q1|]. split; [exact Q2|]. split; [exact Q3|].
      unfold q in Q4. cbn [with_header frame_ip vp_header vp_payload] in Q4 |- *.
      replace (len (tcp_bytes (fr_inner (tcp_answered s)))) with (len (tcp_bytes (fr_inner s))) by (rewrite !tcp_len; reflexivity).
      split; [exact Q4|]. split; [exact Q5|]. split; [|exact Q7]. apply tcp_is_bytes, P2.
Qed.
(** C77: ... and a TCP segment, with its options, sequence and acknowledgment numbers. *)
Lemma c77_tcp_session : forall E E' s public port private own, frame_packet_ok tcp_bytes tcp_packet_ok s -> carries_tcp s ->
  addr_ok public -> u16 port -> addr_ok private -> u16 own ->
  len (tcp_bytes (fr_inner s)) mod 2 = 0 \/ (cursor_eof E = EofKeep /\ cursor_eof E' = EofKeep) ->
  exists r, tcp_session E public port private own (frame_bytes tcp_bytes s) = (frame_bytes tcp_bytes r, Ok tt) /\
    frame_packet_ok tcp_bytes tcp_packet_ok r /\
    ef_src (fr_ether r) = ef_dst (fr_ether s) /\ ef_dst (fr_ether r) = ef_src (fr_ether s) /\
    vf_src (fr_ip r) = vf_dst (fr_ip s) /\ vf_dst (fr_ip r) = private /\
    tf_src (tp_header (fr_inner r)) = tf_dst (tp_header (fr_inner s)) /\ tf_dst (tp_header (fr_inner r)) = own /\
    tf_seq (tp_header (fr_inner r)) = tf_seq (tp_header (fr_inner s)) /\ tf_ack (tp_header (fr_inner r)) = tf_ack (tp_header (fr_inner s)) /\
    tf_flags (tp_header (fr_inner r)) = tf_flags (tp_header (fr_inner s)) /\
    tp_options (fr_inner r) = tp_options (fr_inner s) /\ tp_payload (fr_inner r) = tp_payload (fr_inner s) /\
    receive_tcp E' (frame_bytes tcp_bytes r) = Ok true.
Proof.
  intros E E' s public port private own Hs Hcar Ha Hp Ha' Hp' Hc.
  assert (HcE : len (tcp_bytes (fr_inner s)) mod 2 = 0 \/ cursor_eof E = EofKeep) by tauto. pose proof Hcar as (Ht & Hpr & Hsp).
  assert (Hf1 : Forall (fun o => ~ tcp_is_flags o) [TcpSetSource port]) by (apply Forall_cons; [intros []|apply Forall_nil]).
  assert (Hf2 : Forall (fun o => ~ tcp_is_flags o) [TcpSetDestination own]) by (apply Forall_cons; [intros []|apply Forall_nil]).
  destruct (c77_tcp E [V4SetSource public] [TcpSetSource port] s Hs Hsp) as [R1 R2];
    [apply Forall_cons; [exact Ha|apply Forall_nil]|apply Forall_cons; [exact Hp|apply Forall_nil]|exact Hf1|exact HcE|].
  destruct (tcp_clean_assigns _ (fr_inner s) Hf1 Hsp) as (Q0 & Q1 & Q2).
  assert (Hsp2 : tcp_spoiled (fr_inner (rewritten_tcp [V4SetSource public] [TcpSetSource port] s)) = false) by exact Q0.
  destruct (tcp_answered_on _ R2 Hsp2) as [A1 A2].
  set (m := tcp_answered (rewritten_tcp [V4SetSource public] [TcpSetSource port] s)) in *.
  assert (F1 : assigns tcp_assign [TcpSetSource port] (fr_inner s) =
    {| tp_header := tcp_header_with (TcpSetSource port) (tp_header (fr_inner s)); tp_options := tp_options (fr_inner s); tp_payload := tp_payload (fr_inner s) |}).
  { unfold assigns. cbn [fold_left]. unfold tcp_assign. rewrite Hsp. reflexivity. }
  assert (Hlm : len (tcp_bytes (fr_inner m)) = len (tcp_bytes (fr_inner s))).
  { rewrite !tcp_len. cbn [m tcp_answered fr_inner tp_options tp_payload rewritten_tcp tcp_sum tcp_store]. rewrite Q1, Q2. reflexivity. }
  assert (Hv : Forall v4_setter_ok [V4SetDestination private]) by (apply Forall_cons; [exact Ha'|apply Forall_nil]).
  assert (Hu : Forall tcp_setter_ok [TcpSetDestination own]) by (apply Forall_cons; [exact Hp'|apply Forall_nil]).
  assert (Hsp3 : tcp_spoiled (fr_inner m) = false) by exact Hsp2.
  destruct (c77_tcp E [V4SetDestination private] [TcpSetDestination own] m A2 Hsp3 Hv Hu Hf2 ltac:(rewrite Hlm; exact HcE)) as [B1 B2].
  assert (F2 : assigns tcp_assign [TcpSetDestination own] (fr_inner m) =
    {| tp_header := tcp_header_with (TcpSetDestination own) (tp_header (fr_inner m)); tp_options := tp_options (fr_inner m); tp_payload := tp_payload (fr_inner m) |}).
  { unfold assigns at 1. cbn [fold_left]. unfold tcp_assign at 1. rewrite Hsp3. reflexivity. }
  exists (rewritten_tcp [V4SetDestination private] [TcpSetDestination own] m). split.
  { unfold tcp_session, nat_out_tcp, nat_in_tcp, mseq. rewrite R1, A1. exact B1. }
  split; [exact B2|]. do 4 (split; [reflexivity|]). unfold rewritten_tcp at 1 2 3 4 5 6 7. cbn [fr_inner]. rewrite F2.
  cbn [tcp_sum tcp_store tp_header tp_options tp_payload tcp_header_with tf_src tf_dst tf_seq tf_ack tf_flags m tcp_answered fr_inner rewritten_tcp].
  rewrite F1. cbn [tp_header tp_options tp_payload tcp_header_with tf_src tf_dst tf_seq tf_ack tf_flags].
  do 7 (split; [reflexivity|]).
  pose proof (c77_tcp_received E E' [V4SetDestination private] [TcpSetDestination own] m A2 Hv Hu Hf2) as Q. rewrite B1 in Q. apply Q.
  - split; [exact Ht|split; [exact Hpr|exact Hsp3]].
  - apply Forall_cons; [exact I|apply Forall_nil].
  - rewrite Hlm. exact Hc.
Qed.
Lemma tcp_sent eops vs ts p q : q = tcp_wire (tcp_finished (vf_src (v4_after vs)) (vf_dst (v4_after vs)) (tcp_after ts) p) ++ p ->
  frame_bytes (fun p => p) (sent eops vs 6 q) =
  frame_bytes tcp_bytes {| fr_ether := ether_set_type (ether_after eops) 0x0800; fr_ip := v4_finished (v4_after vs) 6 (len q); fr_options := [];
    fr_inner := {| tp_header := tcp_finished (vf_src (v4_after vs)) (vf_dst (v4_after vs)) (tcp_after ts) p; tp_options := []; tp_payload := p |}; fr_padding := [] |}.
Proof. intros ->. unfold frame_bytes, sent, tcp_bytes. cbn [fr_ether fr_ip fr_options fr_inner fr_padding tp_header tp_payload tp_options app]. rewrite !app_nil_r. reflexivity. Qed.
Lemma tcp_refinished port src dst src' dst' f p :
  tcp_sum src dst (assigns tcp_assign [TcpSetSource port] {| tp_header := tcp_finished src' dst' f p; tp_options := []; tp_payload := p |}) =
  {| tp_header := tcp_finished src dst (tcp_put f (TcpSetSource port)) p; tp_options := []; tp_payload := p |}.
Proof. destruct f. reflexivity. Qed.
Lemma tcp_put_late f port ss : Forall tcp_is_flags ss ->
  fold_left tcp_put ss (tcp_put f (TcpSetSource port)) = tcp_put (fold_left tcp_put ss f) (TcpSetSource port).
Proof.
  intros H. revert f. induction H as [|o ss Ho H IH]; intros f; [reflexivity|]. cbn [fold_left]. rewrite <- IH.
  destruct o; try contradiction. destruct f. reflexivity.
Qed.
(** C77: ... and for TCP, where flags() may only be called last ([late] holds that call, and the payload). *)
Lemma c77_built_tcp : forall E E' eops vs ts late p a port,
  eth_ok (Some eops) -> Forall v4_arg_ok vs -> Forall tcp_op_ok (ts ++ late) -> flags_last (tcp_setters (ts ++ late)) ->
  Forall tcp_is_flags (tcp_setters late) -> Forall (fun o => ~ tcp_is_flags o) (tcp_setters ts) ->
  one_payload (tcp_payloads (ts ++ late)) p -> 40 + len p <= 65535 ->
  addr_ok a -> u16 port -> len p mod 2 = 0 \/ (cursor_eof E = EofKeep /\ cursor_eof E' = EofKeep) ->
  exists frame frame',
    tcp_chain E (Some eops) vs (ts ++ late) dynamic_new = Ok frame /\
    tcp_chain E (Some eops) (vs ++ [V4SetSource a]) (ts ++ [Builders.TcpSet (TcpSetSource port)] ++ late) dynamic_new = Ok frame' /\
    nat_out_tcp E' a port frame = (frame', Ok tt).
Proof.
  intros E E' eops vs ts late p a port He Hv Hu Hfl Hlate Hts Hp Hl Ha Hport Hc.
  assert (Hi : 65600 <= @ISIZE_MAX E) by (pose proof (@width_facts E); lia).
  assert (Hv' : Forall v4_arg_ok (vs ++ [V4SetSource a])).
  { apply Forall_app. split; [exact Hv|]. apply Forall_cons; [split; [exact Ha|exact I]|apply Forall_nil]. }
  assert (Hu' : Forall tcp_op_ok (ts ++ [Builders.TcpSet (TcpSetSource port)] ++ late)).
  { apply Forall_app in Hu as [U1 U2]. apply Forall_app. split; [exact U1|]. apply Forall_cons; [exact Hport|exact U2]. }
  assert (Hp' : one_payload (tcp_payloads (ts ++ [Builders.TcpSet (TcpSetSource port)] ++ late)) p).
  { unfold tcp_payloads in *. rewrite !flat_map_app in *. exact Hp. }
  assert (Hset : tcp_setters (ts ++ [Builders.TcpSet (TcpSetSource port)] ++ late) = tcp_setters ts ++ TcpSetSource port :: tcp_setters late).
  { unfold tcp_setters. rewrite !flat_map_app. reflexivity. }
  assert (Hset0 : tcp_setters (ts ++ late) = tcp_setters ts ++ tcp_setters late) by (unfold tcp_setters; rewrite !flat_map_app; reflexivity).
  assert (Hfl' : flags_last (tcp_setters (ts ++ [Builders.TcpSet (TcpSetSource port)] ++ late))).
  { unfold flags_last in *. rewrite Hset. rewrite Hset0 in Hfl. rewrite removelast_app by discriminate. apply Forall_app. split; [exact Hts|].
    destruct (tcp_setters late) as [|o l]; [apply Forall_nil|]. rewrite removelast_app in Hfl by discriminate. apply Forall_app in Hfl as [_ Hfl].
    change (removelast (TcpSetSource port :: o :: l)) with (TcpSetSource port :: removelast (o :: l)). apply Forall_cons; [intros []|exact Hfl]. }
  pose proof (c34_tcp_bytes E (Some eops) vs _ p He Hv Hu Hfl Hp ltac:(lia) ltac:(tauto)) as G. cbv zeta in G.
  pose proof (c34_tcp_bytes E (Some eops) _ _ p He Hv' Hu' Hfl' Hp' ltac:(lia) ltac:(tauto)) as G'. cbv zeta in G'.
  eexists _, _. split; [exact G|]. split; [exact G'|]. clear G G'.
  set (u := tcp_finished (vf_src (v4_after vs)) (vf_dst (v4_after vs)) (tcp_after (ts ++ late)) p).
  pose proof (one_payload_bytes _ _ Hp (tcp_op_payloads _ Hu)) as Hpb.
  assert (Huf : tcp_fields_ok u) by (unfold u, tcp_finished; apply tcp_fill_offset; [apply tcp_after_ok; assumption|lia|apply inet_lt]).
  set (q := tcp_wire u ++ p). assert (Hlq : len q = 20 + len p) by (unfold q; rewrite len_app, len_tcp_wire; reflexivity).
  assert (Hq : is_bytes q) by (apply is_bytes_app; split; [apply BuildLemmas.is_bytes_tcp_wire, Huf|exact Hpb]).
  destruct (sent_ok eops vs 6 q He Hv) as (S1 & _); [unfold u8; lia|exact Hq|lia|]. rewrite <- Hlq.
  fold q. rewrite <- sent_bytes. rewrite (tcp_sent eops vs _ p q eq_refl). fold u.
  set (s := {| fr_ether := _ |}).
  assert (Hoff : tf_offset u = 5) by (unfold u, tcp_finished; destruct (tcp_after _); reflexivity).
  assert (Hs : ok_tcp s).
  { destruct S1 as (K1 & K2 & _). split; [exact K1|].
    assert (Hinner : tcp_packet_ok (fr_inner s)).
    { split; [exact Huf|]. split; [|split; [apply Forall_nil|exact Hpb]]. left. unfold s. cbn [fr_inner tp_header tp_options]. rewrite Hoff, len_nil. lia. }
    split; [|exact Hinner]. destruct K2 as (Q1 & Q2 & Q3 & Q4 & Q5 & Q6 & Q7). split; [exact Q1|]. split; [exact Q2|]. split; [exact Q3|].
    split; [|split; [exact Q5|split; [apply tcp_is_bytes, Hinner|exact Q7]]]. etransitivity; [exact Q4|]. cbn [frame_ip sent fr_inner vp_payload vp_options fr_options]. unfold s. cbn [fr_options fr_inner].
    rewrite tcp_len, Hlq. cbn [tp_payload tp_options]. rewrite len_nil. lia. }
  destruct (c77_tcp E' [V4SetSource a] [TcpSetSource port] s Hs) as [R1 _];
    [unfold tcp_spoiled, s; cbn [fr_inner tp_header]; rewrite Hoff; reflexivity
    |apply Forall_cons; [exact Ha|apply Forall_nil]|apply Forall_cons; [exact Hport|apply Forall_nil]|apply Forall_cons; [intros []|apply Forall_nil]| |].
  { unfold s. cbn [fr_inner]. rewrite tcp_len. cbn [tp_payload tp_options]. rewrite len_nil. destruct Hc as [Hc|[_ Hc]]; [left; lia|right; exact Hc]. }
  unfold nat_out_tcp. rewrite R1. f_equal.
  assert (U : tcp_after (ts ++ [Builders.TcpSet (TcpSetSource port)] ++ late) = tcp_put (tcp_after (ts ++ late)) (TcpSetSource port)).
  { unfold tcp_after. rewrite Hset, Hset0, !fold_left_app. cbn [fold_left]. apply tcp_put_late, Hlate. }
  rewrite U, v4_after_app. cbn [fold_left]. unfold s, rewritten_tcp. cbn [fr_ether fr_ip fr_options fr_inner fr_padding].
  rewrite v4_refinished. destruct (v4_finished_src a (v4_after vs) 6 (len q)) as (X1 & X2 & X3 & X4). rewrite X1, X2, X3, X4. unfold u. rewrite tcp_refinished.
  unfold frame_bytes, tcp_bytes. cbn [fr_ether fr_ip fr_options fr_inner fr_padding tp_header tp_payload tp_options app]. rewrite !app_nil_r. reflexivity.
Qed.
(** C77: a frame translated; there and back; in the wrong order (0.1.10.0 has the sum of 10.0.0.1);
    a damaged payload that the translation covers up. *)
Example c77_example : forall E,
  let b := [0;35;105;99;89;190; 228;179;24;38;99;163; 8;0; 69;0;0;30;0;0;0;0;64;17;102;205;10;0;0;1;10;0;0;2; 0;53;0;99;0;10;130;214;104;105; 0;0] in
  let bad := [0;35;105;99;89;190; 228;179;24;38;99;163; 8;0; 69;0;0;30;0;0;0;0;64;17;102;205;10;0;0;1;10;0;0;2; 0;53;0;99;0;10;130;214;255;105; 0;0] in
  let public := Ip4 192 0 2 1 in
  receive_udp E b = Ok true /\
  nat_out_udp E public 40000 b =
    ([0;35;105;99;89;190; 228;179;24;38;99;163; 8;0; 69;0;0;30;0;0;0;0;64;17;174;204;192;0;2;1;10;0;0;2; 156;64;0;99;0;10;46;202;104;105; 0;0], Ok tt) /\
  udp_session E public 40000 (Ip4 10 0 0 1) 53 b =
    ([228;179;24;38;99;163; 0;35;105;99;89;190; 8;0; 69;0;0;30;0;0;0;0;64;17;102;205;10;0;0;2;10;0;0;1; 0;99;0;53;0;10;130;214;104;105; 0;0], Ok tt) /\
  receive_udp E (fst (rewrite_udp_first E [V4SetSource public] [UdpSetSource 40000] b)) = Ok false /\
  receive_udp E (fst (rewrite_udp_first E [V4SetSource (Ip4 0 1 10 0)] [UdpSetSource 40000] b)) = Ok true /\
  receive_udp E bad = Ok false /\ receive_udp E (fst (nat_out_udp E public 40000 bad)) = Ok true.
Proof. intros E. destruct E as [[] [] []]; vm_compute; repeat split. Qed.
