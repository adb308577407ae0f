(** * AnyNatProofs: a translator and a receiver under any two standard libraries, whatever the length of the datagram (C77). *)
From Verif Require Import Base Enums Buffer Ether Ipv4 Ip Udp Tcp Icmp Spec SpecCalls SpecEdit SpecForward SpecMachine SpecReceiver SpecRoute SpecNat SpecTrace Mutable Lemmas AccessProofs
  ParseProofs FieldProofs SliceProofs MutableProofs EnumProofs ChecksumLemmas ChecksumProofs GuardProofs EditProofs ForwardProofs FrameProofs
  MachineProofs FrameMachineProofs ReceiverProofs RouteProofs NatProofs HostProofs TraceProofs AnyServiceProofs.
From Coq Require Import ZifyBool ZifyNat ZifyN.
Ltac Zify.zify_post_hook ::= Z.div_mod_to_equations.

(** The checked setters of a datagram, and the checksum this build's library leads to. *)
Definition set_on (E : env) (src dst : ipv4addr) (us : list udp_setter) (u : udp_packet) : udp_packet * res unit :=
  let w := assigns udp_assign us u in
  (udp_store (inet_checksum (with_pseudo_header src dst 17 (seen E (zero_field 6 (udp_bytes w))))) w, Ok tt).
Lemma assigns_udp_ok us u : Forall udp_setter_ok us -> udp_packet_ok u -> udp_packet_ok (assigns udp_assign us u).
Proof.
  intros Hu. revert u. induction Hu as [|o us Ho Hu IH]; intros u Hs; [exact Hs|].
  apply (IH (fst (udp_assign o u))). apply (udp_assign_step o u Hs Ho).
Qed.
Lemma set_on_step E p us u : is_bytes p -> 20 <= len p -> udp_packet_ok u -> Forall udp_setter_ok us -> True ->
  let r := set_on E (wire_addr p 12) (wire_addr p 16) us u in
  snd (udp_checked E (V4 p) us (udp_bytes u)) = snd r /\
  (snd r <> Panic -> fst (udp_checked E (V4 p) us (udp_bytes u)) = udp_bytes (fst r) /\ udp_packet_ok (fst r) /\ len (udp_bytes (fst r)) = len (udp_bytes u)).
Proof.
  intros Hp Hl Hu Ha _ r. unfold r, set_on. clear r. unfold udp_checked.
  destruct (guard_sim udp_apply (udp_update_checksum E (V4 p)) udp_assign udp_bytes udp_packet_ok udp_setter_ok udp_assign_step us u Hu Ha) as [G1 G2].
  rewrite G2. unfold udp_update_checksum at 1 2. unfold mlet. rewrite udp_checksum_eq; [|exact Hp|apply udp_is_bytes; exact G1|exact Hl].
  rewrite udp_store_step. cbn [fst snd]. split; [reflexivity|]. intros _. split; [reflexivity|]. split; [apply udp_store_ok; [apply inet_checksum_u16|exact G1]|].
  rewrite <- (udp_assigns_len us u). rewrite !udp_len. reflexivity.
Qed.
(** C77: whatever the checksums were before, a receiver says without a panic whether it accepts what comes out,
    and accepts it exactly when its standard library and the translator's sum the payload alike. *)
Lemma c77_udp_alike : forall E E' vs us s, frame_packet_ok udp_bytes udp_packet_ok s -> Forall v4_setter_ok vs -> Forall udp_setter_ok us ->
  carries_udp s -> Forall keeps_protocol vs ->
  exists b v, rewrite_udp E vs us (frame_bytes udp_bytes s) = (b, Ok tt) /\
    receive_udp E' b = Ok v /\ (v = true <-> alike E E' (up_payload (fr_inner s))).
Proof.
  intros E E' vs us s Hs Hv Hu (Ht & Hp & Hb) Hk.
  destruct (frame_step E udp_bytes udp_packet_ok (set_on E) udp_new (udp_checked E) (fun us _ => Forall udp_setter_ok us) (fun _ => True)
    udp_is_bytes udp_new_bytes (fun p us u H1 H2 H3 H4 H5 => set_on_step E p us u H1 H2 H3 H4 H5) (OnIp (Checked vs)) s Hs I Hv) as [G1 G2].
  cbn [frame_do v4_do fst snd frame_act v4_act] in G1, G2. destruct (G2 ltac:(discriminate)) as (G3 & G4 & _). clear G2.
  set (s1 := {| fr_ether := fr_ether s; fr_ip := _; fr_options := fr_options s; fr_inner := fr_inner s; fr_padding := fr_padding s |}) in *.
  destruct (frame_step E udp_bytes udp_packet_ok (set_on E) udp_new (udp_checked E) (fun us _ => Forall udp_setter_ok us) (fun _ => True)
    udp_is_bytes udp_new_bytes (fun p us u H1 H2 H3 H4 H5 => set_on_step E p us u H1 H2 H3 H4 H5) (OnTransport us) s1 G4 I Hu) as [K1 K2].
  cbn [frame_do set_on fst snd frame_act] in K1, K2. destruct (K2 ltac:(discriminate)) as (K3 & K4 & _). clear K2.
  set (r := {| fr_ether := fr_ether s1; fr_ip := fr_ip s1; fr_options := fr_options s1; fr_inner := _; fr_padding := fr_padding s1 |}) in *.
  assert (Hrun : rewrite_udp E vs us (frame_bytes udp_bytes s) = (frame_bytes udp_bytes r, Ok tt)).
  { unfold rewrite_udp, mseq. rewrite (surjective_pairing (edit_datagram (v4_checked E vs) (frame_bytes udp_bytes s))), G1, G3.
    rewrite (surjective_pairing (edit_datagram _ (frame_bytes udp_bytes s1))), K1, K3. reflexivity. }
  destruct (ip_edited_routable udp_bytes udp_packet_ok vs s Hs Hv Ht) as [I1 _].
  assert (Hr : routable r) by exact I1.
  set (w := assigns udp_assign us (fr_inner s)).
  assert (Hw : fr_inner r = udp_store (inet_checksum (with_pseudo_header (vf_src (fr_ip r)) (vf_dst (fr_ip r)) 17 (seen E (zero_field 6 (udp_bytes w))))) w) by reflexivity.
  destruct (udp_assigns us (fr_inner s)) as [P1 P2]. fold w in P1, P2.
  set (src := vf_src (fr_ip r)) in *. set (dst := vf_dst (fr_ip r)) in *.
  set (h := udp_wire {| uf_src := uf_src (up_header w); uf_dst := uf_dst (up_header w); uf_length := uf_length (up_header w); uf_checksum := 0 |}).
  assert (Hz : zero_field 6 (udp_bytes w) = h ++ up_payload (fr_inner s)) by (rewrite zeroed_udp, P1, P2, Hb, app_nil_r; reflexivity).
  assert (Hz' : zero_field 6 (udp_bytes (fr_inner r)) = h ++ up_payload (fr_inner s)) by (rewrite Hw, zeroed_udp; cbn [udp_store up_header up_payload up_behind uf_src uf_dst uf_length]; rewrite P1, P2, Hb, app_nil_r; reflexivity).
  exists (frame_bytes udp_bytes r), (inet_checksum (with_pseudo_header src dst 17 (h ++ seen E' (up_payload (fr_inner s)))) =?
    inet_checksum (with_pseudo_header src dst 17 (h ++ seen E (up_payload (fr_inner s))))).
  split; [exact Hrun|]. pose proof Hs as (_ & _ & Hi). pose proof K4 as (_ & Kv & Ki).
  split; [|rewrite N.eqb_eq; apply seen_alike; [apply Hi|reflexivity]].
  unfold receive_udp. rewrite (receive_routable udp_bytes udp_packet_ok) by assumption.
  assert (Hpr : vf_proto (fr_ip r) = 17).
  { change (vf_proto (fr_ip r)) with (vf_proto (assigns v4_assign vs (fr_ip s))). rewrite keeps_proto by exact Hk. exact Hp. }
  rewrite Hpr. change (ip_protocol_from 17) with IP_Udp. cbv iota.
  rewrite udp_new_bytes by exact Ki. cbn [bind]. rewrite udp_length_ok by (rewrite udp_len; lia). cbn [bind].
  assert (Hwl : wire16 (udp_bytes (fr_inner r)) 4 = uf_length (up_header (fr_inner r))).
  { destruct Ki as ((_ & _ & Hf & _) & _). unfold u16 in Hf.
    change (uf_length (up_header (fr_inner r)) / 256 * 256 + uf_length (up_header (fr_inner r)) mod 256 = uf_length (up_header (fr_inner r))). lia. }
  assert (Hbe : up_behind (fr_inner r) = []) by (rewrite Hw; cbn [udp_store up_behind]; rewrite P2; exact Hb).
  rewrite Hwl, udp_len, Hbe. pose proof Ki as (_ & Hlen & _). rewrite len_nil. replace (_ =? _) with true by lia.
  rewrite udp_is_valid_eq; [|apply v4_is_bytes, Kv|apply udp_is_bytes, Ki|rewrite v4_len; lia|rewrite udp_len; lia].
  destruct (frame_addrs udp_bytes r) as [A1 A2]. rewrite A1, A2. fold src dst. rewrite udp_checksum_cell by exact Ki. rewrite Hz'.
  rewrite Hw. cbn [udp_store up_header uf_checksum]. rewrite Hz. rewrite !seen_after by reflexivity. reflexivity.
Qed.
Lemma tcp_guard_odd E p ops t : is_bytes p -> 20 <= len p -> tcp_packet_ok t -> len (tcp_bytes t) <= 131065 ->
  len (tcp_bytes t) mod 2 = 1 -> cursor_eof E = EofSeek -> Forall tcp_setter_ok ops ->
  snd (tcp_checked E (V4 p) ops (tcp_bytes t)) = Panic.
Proof.
  intros Hp Hl Ht Hm Ho He Hok. revert t Ht Hm Ho. unfold tcp_checked.
  induction Hok as [|o ops Hop Hok IH]; intros t Ht Hm Ho; cbn [run_guard].
  { unfold tcp_update_checksum, mlet. rewrite c22_tcp_checksum_odd; [reflexivity|exact Hp|apply tcp_is_bytes, Ht|exact Hl|exact Hm|exact Ho|exact He]. }
  rewrite (tcp_assign_step o t Ht Hop). pose proof (tcp_assign_ok o t Ht Hop) as Ht'. pose proof (tcp_assign_len o t) as Hl'.
  pose proof (IH (fst (tcp_assign o t)) Ht' ltac:(lia) ltac:(lia)) as I1. destruct (snd (tcp_assign o t)); [exact I1|exact I1|reflexivity].
Qed.
(** C77: a translator whose standard library moves the Cursor at the end panics on every TCP segment of odd length, after it
    has changed the header. *)
Lemma c77_tcp_odd_refuted : forall E vs ts s, frame_packet_ok tcp_bytes tcp_packet_ok s -> Forall v4_setter_ok vs -> Forall tcp_setter_ok ts ->
  len (tcp_bytes (fr_inner s)) mod 2 = 1 -> cursor_eof E = EofSeek ->
  snd (rewrite_tcp E vs ts (frame_bytes tcp_bytes s)) = Panic.
Proof.
  intros E vs ts s Hs Hv Hu Ho He.
  assert (Hl : len (tcp_bytes (fr_inner s)) <= 131065).
  { destruct Hs as (_ & Hvv & _). pose proof Hvv as (V1 & V2 & V3 & V4 & _).
    cbn [frame_ip vp_header vp_options vp_payload vp_behind] in V4, V1. assert (u16 (vf_total (fr_ip s))) by apply V1. unfold u16 in *. lia. }
  assert (St : forall p us u, is_bytes p -> 20 <= len p -> tcp_packet_ok u -> Forall tcp_setter_ok us -> len (tcp_bytes u) <= 131065 /\ len (tcp_bytes u) mod 2 = 1 ->
    let r := (fun (_ _ : ipv4addr) (_ : list tcp_setter) (u : tcp_packet) => (u, @Panic unit)) (wire_addr p 12) (wire_addr p 16) us u in
    snd (tcp_checked E (V4 p) us (tcp_bytes u)) = snd r /\
    (snd r <> Panic -> fst (tcp_checked E (V4 p) us (tcp_bytes u)) = tcp_bytes (fst r) /\ tcp_packet_ok (fst r) /\ len (tcp_bytes (fst r)) = len (tcp_bytes u))).
  { intros p us u H1 H2 H3 H4 [H5 H6]. cbn [fst snd]. split; [apply tcp_guard_odd; assumption|congruence]. }
  pose proof (fun a => frame_step E tcp_bytes tcp_packet_ok (fun _ _ _ u => (u, Panic)) tcp_new (tcp_checked E) (fun us _ => Forall tcp_setter_ok us) (fun n => n <= 131065 /\ n mod 2 = 1)
    tcp_is_bytes tcp_new_bytes St a) as F.
  destruct (F (OnIp (Checked vs)) s Hs (conj Hl Ho) Hv) as [G1 G2].
  cbn [frame_do v4_do fst snd frame_act v4_act] in G1, G2. destruct (G2 ltac:(discriminate)) as (G3 & G4 & _). clear G2.
  set (s1 := {| fr_ether := fr_ether s; fr_ip := _; fr_options := fr_options s; fr_inner := fr_inner s; fr_padding := fr_padding s |}) in *.
  destruct (F (OnTransport ts) s1 G4 (conj Hl Ho) Hu) as [K1 _]. cbn [frame_do fst snd frame_act] in K1.
  unfold rewrite_tcp, mseq. rewrite (surjective_pairing (edit_datagram (v4_checked E vs) (frame_bytes tcp_bytes s))), G1, G3. exact K1.
Qed.
