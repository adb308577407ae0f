(** * EditProofs: C52 (sequences of setter calls) and C50 (editing in place). *)
From Verif Require Import Base Enums Ether Ipv4 Ip Udp Tcp Icmp Spec SpecCalls Mutable SpecMut SpecEdit.
From Verif Require Import Lemmas ParseProofs SliceProofs AccessProofs FieldProofs ChecksumLemmas ChecksumProofs GuardProofs MutableProofs.
From Coq Require Import ZifyBool ZifyNat ZifyN.
Ltac Zify.zify_post_hook ::= Z.div_mod_to_equations.

Lemma all_ok_inv {A} (apply : A -> mut) (ok : A -> Prop) (I : bytes -> Prop) :
  (forall o c, ok o -> I c -> exists c', apply o c = (c', Ok tt) /\ I c') ->
  forall ops b, Forall ok ops -> I b -> exists b', all_ok apply ops b = Some b' /\ I b'.
Proof.
  intros H ops. induction ops as [|o ops IH]; intros b Ho Hb.
  - exists b. split; [reflexivity|exact Hb].
  - inversion Ho as [|? ? Ho1 Ho2]; subst. destruct (H o b Ho1 Hb) as (c & H1 & H2). cbn [all_ok]. rewrite H1.
    apply IH; assumption.
Qed.
Lemma all_ok_get {A B} (apply : A -> mut) (ok : A -> Prop) (I : bytes -> Prop) (get : bytes -> B) (pick : A -> option B) :
  (forall o c c', ok o -> I c -> apply o c = (c', Ok tt) -> I c') ->
  (forall o c c', ok o -> I c -> apply o c = (c', Ok tt) -> get c' = match pick o with Some v => v | None => get c end) ->
  forall ops b b', Forall ok ops -> I b -> all_ok apply ops b = Some b' -> get b' = last_value pick ops (get b).
Proof.
  intros H1 H2 ops. induction ops as [|o ops IH]; intros b b' Ho Hb Hr.
  - cbn [all_ok] in Hr. injection Hr as <-. reflexivity.
  - inversion Ho as [|? ? Ho1 Ho2]; subst. cbn [all_ok] in Hr. destruct (apply o b) as [c [u|e|]] eqn:Ha; try discriminate.
    destruct u. rewrite (IH c b' Ho2 (H1 _ _ _ Ho1 Hb Ha) Hr). unfold last_value. cbn [fold_left].
    rewrite (H2 _ _ _ Ho1 Hb Ha). destruct (pick o); reflexivity.
Qed.
Lemma wire32_patch_out b off bs i : off + len bs <= len b -> i + 4 <= off \/ off + len bs <= i ->
  wire32 (patch off bs b) i = wire32 b i.
Proof. intros H Hi. unfold wire32. rewrite !nthN_patch_out by lia. reflexivity. Qed.
Lemma wire_addr_patch_out b off bs i : off + len bs <= len b -> i + 4 <= off \/ off + len bs <= i ->
  wire_addr (patch off bs b) i = wire_addr b i.
Proof. intros H Hi. unfold wire_addr. rewrite !nthN_patch_out by lia. reflexivity. Qed.
Lemma wire_mac_patch_out b off bs i : off + len bs <= len b -> i + 6 <= off \/ off + len bs <= i ->
  wire_mac (patch off bs b) i = wire_mac b i.
Proof. intros H Hi. unfold wire_mac. rewrite !nthN_patch_out by lia. reflexivity. Qed.
(** One step writes a patch; the fields follow. *)
Definition steps {A} (apply : A -> mut) (ok : A -> Prop) (I : bytes -> Prop) (w : A -> bytes -> N * bytes) : Prop :=
  forall o c, ok o -> I c -> apply o c = (patch (fst (w o c)) (snd (w o c)) c, Ok tt) /\
    fst (w o c) + len (snd (w o c)) <= len c /\ I (patch (fst (w o c)) (snd (w o c)) c).
Lemma steps_all_ok {A} (apply : A -> mut) ok I w : steps apply ok I w ->
  forall ops b, Forall ok ops -> I b -> exists b', all_ok apply ops b = Some b' /\ I b'.
Proof.
  intros H. apply all_ok_inv. intros o c Ho Hc. destruct (H o c Ho Hc) as (H1 & _ & H2). eexists. split; eassumption.
Qed.
Lemma steps_get {A B} (apply : A -> mut) ok I w (get : bytes -> B) (pick : A -> option B) :
  steps apply ok I w ->
  (forall o c, ok o -> I c -> fst (w o c) + len (snd (w o c)) <= len c ->
     get (patch (fst (w o c)) (snd (w o c)) c) = match pick o with Some v => v | None => get c end) ->
  forall ops b b', Forall ok ops -> I b -> all_ok apply ops b = Some b' -> get b' = last_value pick ops (get b).
Proof.
  intros H Hg. apply (all_ok_get apply ok I).
  - intros o c c' Ho Hc Ha. destruct (H o c Ho Hc) as (H1 & _ & H2). rewrite H1 in Ha. injection Ha as <-. exact H2.
  - intros o c c' Ho Hc Ha. destruct (H o c Ho Hc) as (H1 & H2 & _). rewrite H1 in Ha. injection Ha as <-. apply Hg; assumption.
Qed.
Ltac flen := unfold hw_octets, octets, enc16, enc32 in *; autorewrite with len in *; lia.
Ltac fields := first
  [ apply wire16_patch; flen | apply wire32_patch; flen | apply wire_addr_patch; flen | apply wire_mac_patch; flen
  | apply nthN_patch1; flen
  | apply wire16_patch_out; flen | apply wire32_patch_out; flen | apply wire_addr_patch_out; flen | apply wire_mac_patch_out; flen
  | apply nthN_patch_out; flen ].

(** ** C52 *)
(** C52: Ethernet.  Any sequence of setter calls succeeds and leaves in each
    field the last value given for it, or its old value; nothing else changes. *)
Definition ether_w (o : ether_call) (c : bytes) : N * bytes :=
  match o with
  | EthDestination v => (0, hw_octets v)
  | EthSource v => (6, hw_octets v)
  | EthProtocol v => (12, enc16 (ether_protocol_into v))
  end.
Lemma c52_ether : forall ops b, ether_new b = Ok b ->
  exists b', all_ok ether_apply ops b = Some b' /\
    ether_destination b' = Ok (last_value eth_dst ops (wire_mac b 0)) /\
    ether_source b' = Ok (last_value eth_src ops (wire_mac b 6)) /\
    ether_get_protocol b' = Ok (ether_protocol_from (last_value eth_proto ops (wire16 b 12))) /\
    only_changes 0 14 b b'.
Proof.
  intros ops b Hn. apply ether_new_len in Hn. set (I := fun c => 14 <= len c /\ only_changes 0 14 b c).
  assert (HI : I b) by (split; [lia|apply only_changes_refl]).
  assert (S : steps ether_apply (fun _ => True) I ether_w).
  { intros o c _ [H1 H2].
    assert (X : forall off bs, off + len bs <= 14 -> off + len bs <= len c /\ I (patch off bs c)).
    { intros off bs Hx. split; [lia|]. split; [rewrite len_patch; lia|]. eapply only_changes_trans; [exact H2|].
      apply patch_changes; lia. }
    destruct o; cbn [ether_apply ether_w fst snd];
      (split; [first [apply copy_range_ok; [reflexivity|lia]|apply write_u16_ok; lia]|apply X; cbn; lia]). }
  assert (HT : Forall (fun _ : ether_call => True) ops) by (apply Forall_forall; intros; exact Logic.I).
  destruct (steps_all_ok _ _ _ _ S ops b HT HI) as (b' & Hr & H1 & H2). exists b'.
  split; [exact Hr|].
  assert (G0 : wire_mac b' 0 = last_value eth_dst ops (wire_mac b 0)).
  { apply (steps_get _ _ _ _ (fun c => wire_mac c 0) eth_dst S) with (ops := ops); try assumption.
    intros o c _ [Hc _]; destruct o; cbn [ether_w fst snd eth_dst]; intros Hw; fields. }
  assert (G6 : wire_mac b' 6 = last_value eth_src ops (wire_mac b 6)).
  { apply (steps_get _ _ _ _ (fun c => wire_mac c 6) eth_src S) with (ops := ops); try assumption.
    intros o c _ [Hc _]; destruct o; cbn [ether_w fst snd eth_src]; intros Hw; fields. }
  assert (G12 : wire16 b' 12 = last_value eth_proto ops (wire16 b 12)).
  { apply (steps_get _ _ _ _ (fun c => wire16 c 12) eth_proto S) with (ops := ops); try assumption.
    intros o c _ [Hc _]; destruct o; cbn [ether_w fst snd eth_proto]; intros Hw; fields. }
  rewrite <- G0, <- G6, <- G12.
  split; [apply (hw_slice _ 0); lia|]. split; [apply (hw_slice _ 6); lia|].
  split; [unfold ether_get_protocol; rewrite get16 by lia; reflexivity|exact H2].
Qed.
(** C52: UDP. *)
Definition udp_w (o : udp_setter) (c : bytes) : N * bytes :=
  match o with UdpSetSource v => (0, enc16 v) | UdpSetDestination v => (2, enc16 v) end.
Lemma c52_udp : forall ops b, udp_no_payload b = Ok b ->
  exists b', all_ok udp_apply ops b = Some b' /\
    udp_source b' = Ok (last_value udp_src ops (wire16 b 0)) /\
    udp_destination b' = Ok (last_value udp_dst ops (wire16 b 2)) /\
    only_changes 0 4 b b'.
Proof.
  intros ops b Hn. apply udp_no_payload_len in Hn. set (I := fun c => 8 <= len c /\ only_changes 0 4 b c).
  assert (HI : I b) by (split; [lia|apply only_changes_refl]).
  assert (S : steps udp_apply (fun _ => True) I udp_w).
  { intros o c _ [H1 H2].
    assert (X : forall off bs, off + len bs <= 4 -> off + len bs <= len c /\ I (patch off bs c)).
    { intros off bs Hx. split; [lia|]. split; [rewrite len_patch; lia|]. eapply only_changes_trans; [exact H2|].
      apply patch_changes; lia. }
    destruct o; cbn [udp_apply udp_w fst snd]; (split; [apply udp_header_write; lia|apply X; cbn; lia]). }
  assert (HT : Forall (fun _ : udp_setter => True) ops) by (apply Forall_forall; intros; exact Logic.I).
  destruct (steps_all_ok _ _ _ _ S ops b HT HI) as (b' & Hr & H1 & H2). exists b'. split; [exact Hr|].
  assert (G0 : wire16 b' 0 = last_value udp_src ops (wire16 b 0)).
  { apply (steps_get _ _ _ _ (fun c => wire16 c 0) udp_src S) with (ops := ops); try assumption.
    intros o c _ [Hc _]; destruct o; cbn [udp_w fst snd udp_src]; intros Hw; fields. }
  assert (G2 : wire16 b' 2 = last_value udp_dst ops (wire16 b 2)).
  { apply (steps_get _ _ _ _ (fun c => wire16 c 2) udp_dst S) with (ops := ops); try assumption.
    intros o c _ [Hc _]; destruct o; cbn [udp_w fst snd udp_dst]; intros Hw; fields. }
  rewrite <- G0, <- G2. unfold udp_source, udp_destination. rewrite !get16 by lia. repeat split; apply H2.
Qed.
(** C52: TCP, without set_flags (which destroys the data offset, C16). *)
Definition tcp_w (o : tcp_setter) (c : bytes) : N * bytes :=
  match o with
  | TcpSetSource v => (0, enc16 v) | TcpSetDestination v => (2, enc16 v)
  | TcpSetSequence v => (4, enc32 v) | TcpSetAcknowledgment v => (8, enc32 v)
  | TcpSetWindow v => (14, enc16 v) | TcpSetPointer v => (18, enc16 v) | TcpSetFlags v => (12, enc16 v)
  end.
Lemma c52_tcp : forall ops b, tcp_new b = Ok b -> 5 <= nthN b 12 / 16 ->
  Forall (fun o => ~ tcp_is_flags o) ops ->
  exists b', all_ok tcp_apply ops b = Some b' /\
    tcp_source b' = Ok (last_value tcp_src ops (wire16 b 0)) /\
    tcp_destination b' = Ok (last_value tcp_dst ops (wire16 b 2)) /\
    tcp_sequence b' = Ok (last_value tcp_seq ops (wire32 b 4)) /\
    tcp_acknowledgment b' = Ok (last_value tcp_ack ops (wire32 b 8)) /\
    tcp_window b' = Ok (last_value tcp_win ops (wire16 b 14)) /\
    tcp_pointer b' = Ok (last_value tcp_ptr ops (wire16 b 18)) /\
    tcp_offset b' = tcp_offset b /\ tcp_flags b' = tcp_flags b /\ tcp_checksum b' = tcp_checksum b /\
    only_changes 0 20 b b'.
Proof.
  intros ops b Hn Ho HT.
  set (I := fun c => tcp_new c = Ok c /\ 20 <= len c /\ nthN c 12 = nthN b 12 /\ nthN c 13 = nthN b 13 /\
                     wire16 c 16 = wire16 b 16 /\ only_changes 0 20 b c).
  assert (H20 : 20 <= len b) by (apply tcp_new_iff in Hn; apply Hn).
  assert (HI : I b) by (repeat split; try assumption).
  set (ok := fun o => ~ tcp_is_flags o).
  assert (S : steps tcp_apply ok I tcp_w).
  { intros o c Hok (H0 & H1 & H2 & H3 & H4 & H5).
    assert (X : forall off bs, off + len bs <= 12 \/ 14 <= off /\ off + len bs <= 16 \/ 18 <= off /\ off + len bs <= 20 ->
      off + len bs <= len c /\ I (patch off bs c)).
    { intros off bs Hx. assert (Hr : off + len bs <= len c) by lia. split; [exact Hr|].
      assert (Hl : len (patch off bs c) = len c) by (apply len_patch; exact Hr).
      assert (Y12 : nthN (patch off bs c) 12 = nthN c 12) by (apply nthN_patch_out; lia).
      split; [apply tcp_new_iff; rewrite Hl, Y12; apply tcp_new_iff in H0; split; [reflexivity|apply H0]|].
      split; [lia|]. split; [congruence|]. split; [rewrite nthN_patch_out by lia; exact H3|].
      split; [rewrite wire16_patch_out by lia; exact H4|]. eapply only_changes_trans; [exact H5|].
      apply patch_changes; lia. }
    assert (Hoff : 20 <= nthN c 12 / 16 * 4) by (rewrite H2; lia).
    destruct o; cbn [tcp_apply tcp_w fst snd]; try (exfalso; apply Hok; exact Logic.I);
      (split; [first [apply tcp_header_write16; [exact H0|lia]|apply tcp_header_write32; [exact H0|lia]]|apply X; cbn; lia]). }
  destruct (steps_all_ok _ _ _ _ S ops b HT HI) as (b' & Hr & H0 & H1 & H2 & H3 & H4 & H5). exists b'. split; [exact Hr|].
  Local Ltac tcpg S get pick ops := apply (steps_get _ _ _ _ get pick S) with (ops := ops); try assumption;
    let o := fresh in let c := fresh in let Hc := fresh "Hc" in
    intros o c Hok (_ & Hc & _); destruct o; cbn [tcp_w fst snd pick]; try (exfalso; apply Hok; exact Logic.I); intros Hw; fields.
  assert (G0 : wire16 b' 0 = last_value tcp_src ops (wire16 b 0)) by (tcpg S (fun c => wire16 c 0) tcp_src ops).
  assert (G2 : wire16 b' 2 = last_value tcp_dst ops (wire16 b 2)) by (tcpg S (fun c => wire16 c 2) tcp_dst ops).
  assert (G4 : wire32 b' 4 = last_value tcp_seq ops (wire32 b 4)) by (tcpg S (fun c => wire32 c 4) tcp_seq ops).
  assert (G8 : wire32 b' 8 = last_value tcp_ack ops (wire32 b 8)) by (tcpg S (fun c => wire32 c 8) tcp_ack ops).
  assert (G14 : wire16 b' 14 = last_value tcp_win ops (wire16 b 14)) by (tcpg S (fun c => wire16 c 14) tcp_win ops).
  assert (G18 : wire16 b' 18 = last_value tcp_ptr ops (wire16 b 18)) by (tcpg S (fun c => wire16 c 18) tcp_ptr ops).
  rewrite <- G0, <- G2, <- G4, <- G8, <- G14, <- G18.
  pose proof (c08_tcp b' H0) as Q'. pose proof (c08_tcp b Hn) as Q. cbv zeta in Q, Q'.
  destruct Q as (_ & _ & _ & _ & A5 & A6 & _ & A8 & _). destruct Q' as (B1 & B2 & B3 & B4 & B5 & B6 & B7 & B8 & B9 & _).
  rewrite A5, A6, A8, B5, B6, B8, H2, H4.
  assert (W : wire16 b' 12 = wire16 b 12) by (unfold wire16; cbn; rewrite H2, H3; reflexivity). rewrite W.
  repeat split; try assumption; apply H5.
Qed.
(** C52: IPv4.  Id, ttl, protocol and addresses keep the last value given; bytes 6
    and 7 hold the argument of the last set_flags or set_offset; without set_ecn
    the DSCP is the last one given and ECN is untouched. *)
Definition v4_w (o : v4_setter) (c : bytes) : N * bytes :=
  match o with
  | V4SetDscp v => (1, [v * 4 + nthN c 1 mod 4])
  | V4SetEcn v => (1, [nthN c 1 / 4 mod 16 * 4 + N.lor (nthN c 1 mod 4) v])
  | V4SetId v => (4, enc16 v) | V4SetFlags v | V4SetOffset v => (6, enc16 v)
  | V4SetTtl v => (8, [v]) | V4SetProtocol v => (9, [ip_protocol_into v])
  | V4SetSource v => (12, octets v) | V4SetDestination v => (16, octets v)
  end.
Lemma c52_v4 : forall ops b, is_bytes b -> v4_no_payload b = Ok b -> 5 <= nthN b 0 mod 16 ->
  Forall v4_setter_ok ops -> Forall v4_in_range ops ->
  exists b', all_ok v4_apply ops b = Some b' /\
    v4_id b' = Ok (last_value v4_id_of ops (wire16 b 4)) /\
    wire16 b' 6 = last_value v4_frag_of ops (wire16 b 6) /\
    v4_ttl b' = Ok (last_value v4_ttl_of ops (nthN b 8)) /\
    v4_protocol b' = Ok (ip_protocol_from (last_value v4_proto_of ops (nthN b 9))) /\
    v4_source b' = Ok (last_value v4_src_of ops (wire_addr b 12)) /\
    v4_destination b' = Ok (last_value v4_dst_of ops (wire_addr b 16)) /\
    (Forall (fun o => ~ is_ecn o) ops ->
       v4_dscp b' = Ok (last_value v4_dscp_of ops (nthN b 1 / 4)) /\ v4_ecn b' = v4_ecn b) /\
    v4_length b' = v4_length b /\ v4_checksum b' = v4_checksum b /\
    only_changes 1 20 b b'.
Proof.
  intros ops b Hb Hn Hi Hok Hr.
  assert (HT : Forall (fun o => v4_setter_ok o /\ v4_in_range o) ops) by (apply Forall_and; assumption).
  set (ok := fun o => v4_setter_ok o /\ v4_in_range o) in *.
  set (I := fun c => 20 <= len c /\ is_bytes c /\ v4_no_payload c = Ok c /\ 5 <= nthN c 0 mod 16 /\
                     wire16 c 2 = wire16 b 2 /\ wire16 c 10 = wire16 b 10 /\ only_changes 1 20 b c).
  assert (H20 : 20 <= len b) by (apply v4_no_payload_iff in Hn; apply Hn).
  assert (HI : I b) by (repeat split; try assumption).
  assert (S : steps v4_apply ok I v4_w).
  { intros o c [Ho Hx] (Hl & Hbc & Hnc & Hic & H2 & H10 & Hoc).
    assert (X : forall off bs, off = 1 /\ len bs = 1 \/ 4 <= off /\ off + len bs <= 10 \/ 12 <= off /\ off + len bs <= 20 -> is_bytes bs ->
      off + len bs <= len c /\ I (patch off bs c)).
    { intros off bs Hy Hbs. assert (Hz : off + len bs <= len c) by lia. split; [exact Hz|].
      assert (Hl' : len (patch off bs c) = len c) by (apply len_patch; exact Hz).
      assert (Y0 : nthN (patch off bs c) 0 = nthN c 0) by (apply nthN_patch_out; lia).
      split; [lia|]. split; [apply is_bytes_patch; assumption|].
      split; [apply v4_no_payload_iff; rewrite Hl', Y0; apply v4_no_payload_iff in Hnc; split; [reflexivity|apply Hnc]|].
      split; [rewrite Y0; exact Hic|]. split; [rewrite wire16_patch_out by lia; exact H2|].
      split; [rewrite wire16_patch_out by lia; exact H10|].
      eapply only_changes_trans; [exact Hoc|]. apply patch_changes; lia. }
    destruct o; cbn [v4_apply v4_w fst snd v4_setter_ok v4_in_range] in *.
    - split; [apply v4_set_dscp_ok; assumption || lia|]. apply X; [left; split; reflexivity|].
      repeat constructor. unfold u8 in *. pose proof (is_bytes_nth c 1 Hbc). lia.
    - split; [apply v4_set_ecn_ok; assumption || lia|]. apply X; [left; split; reflexivity|].
      repeat constructor. unfold u8 in *. pose proof (lor_lt4 (nthN c 1 mod 4) v ltac:(lia) ltac:(lia)).
      set (q := N.lor _ _) in *. clearbody q. lia.
    - split; [apply write_u16_ok; lia|]. apply X; [cbn; lia|apply is_bytes_enc16; exact Ho].
    - split; [apply v4_write6; assumption || lia|]. apply X; [cbn; lia|apply is_bytes_enc16; exact Ho].
    - split; [apply v4_write6; assumption || lia|]. apply X; [cbn; lia|apply is_bytes_enc16; exact Ho].
    - split; [|apply X; [cbn; lia|repeat constructor; exact Ho]].
      apply v4_header_mut; [exact Hnc| |cbn; lia]. intros h Hh'. cbn in Hh'. apply set_index_ok. lia.
    - split; [|apply X; [cbn; lia|exact Ho]].
      apply v4_header_mut; [exact Hnc| |cbn; lia]. intros h Hh'. cbn in Hh'. apply copy_range_ok; [reflexivity|lia].
    - split; [|apply X; [cbn; lia|exact Ho]].
      apply v4_header_mut; [exact Hnc| |cbn; lia]. intros h Hh'. cbn in Hh'. apply copy_range_ok; [reflexivity|lia].
    - split; [|apply X; [cbn; lia|constructor; [exact Ho|constructor]]].
      apply v4_header_mut; [exact Hnc| |cbn; lia]. intros h Hh'. cbn in Hh'. apply set_index_ok. lia. }
  destruct (steps_all_ok _ _ _ _ S ops b HT HI) as (b' & Hrun & Hl & Hb' & Hn' & Hi' & H2 & H10 & Hoc). exists b'. split; [exact Hrun|].
  Local Ltac v4g S get pick ops := apply (steps_get _ _ _ _ get pick S) with (ops := ops); try assumption;
    let o := fresh in let c := fresh in let Hc := fresh "Hc" in
    intros o c _ (Hc & _); destruct o; cbn [v4_w fst snd pick]; intros Hw; fields.
  assert (G4 : wire16 b' 4 = last_value v4_id_of ops (wire16 b 4)) by (v4g S (fun c => wire16 c 4) v4_id_of ops).
  assert (G6 : wire16 b' 6 = last_value v4_frag_of ops (wire16 b 6)) by (v4g S (fun c => wire16 c 6) v4_frag_of ops).
  assert (G8 : nthN b' 8 = last_value v4_ttl_of ops (nthN b 8)) by (v4g S (fun c => nthN c 8) v4_ttl_of ops).
  assert (G9 : nthN b' 9 = last_value v4_proto_of ops (nthN b 9)) by (v4g S (fun c => nthN c 9) v4_proto_of ops).
  assert (G12 : wire_addr b' 12 = last_value v4_src_of ops (wire_addr b 12)) by (v4g S (fun c => wire_addr c 12) v4_src_of ops).
  assert (G16 : wire_addr b' 16 = last_value v4_dst_of ops (wire_addr b 16)) by (v4g S (fun c => wire_addr c 16) v4_dst_of ops).
  pose proof (c08_v4 b' Hb' Hn') as Q'. pose proof (c08_v4 b Hb Hn) as Q. cbv zeta in Q, Q'.
  destruct Q as (_ & _ & _ & A4 & A5 & _ & _ & _ & _ & A10 & _).
  destruct Q' as (_ & _ & B3 & B4 & B5 & B6 & _ & B8 & B9 & B10 & B11 & B12 & _).
  rewrite <- G4, <- G6, <- G8, <- G9, <- G12, <- G16. rewrite A5, A10, B5, B10, H2, H10.
  do 6 (split; [first [assumption|reflexivity]|]).
  split; [|split; [reflexivity|split; [reflexivity|exact Hoc]]].
  intros He. assert (HT' : Forall (fun o => ok o /\ ~ is_ecn o) ops) by (apply Forall_and; assumption).
  assert (S' : steps v4_apply (fun o => ok o /\ ~ is_ecn o) I v4_w) by (intros o c [Ho _] Hc; apply S; assumption).
  assert (T1 : nthN b' 1 / 4 = last_value v4_dscp_of ops (nthN b 1 / 4)).
  { apply (steps_get _ _ _ _ (fun c => nthN c 1 / 4) v4_dscp_of S') with (ops := ops); try assumption.
    intros o c [_ Hne] (Hc & _); destruct o; cbn [v4_w fst snd v4_dscp_of]; intros Hw;
      try (exfalso; apply Hne; exact Logic.I); try (f_equal; fields).
    rewrite nthN_patch1 by lia. lia. }
  assert (T2 : nthN b' 1 mod 4 = last_value (fun _ => None) ops (nthN b 1 mod 4)).
  { apply (steps_get _ _ _ _ (fun c => nthN c 1 mod 4) (fun _ => None) S') with (ops := ops); try assumption.
    intros o c [_ Hne] (Hc & _); destruct o; cbn [v4_w fst snd]; intros Hw;
      try (exfalso; apply Hne; exact Logic.I); try (f_equal; fields).
    rewrite nthN_patch1 by lia. lia. }
  assert (T3 : forall (A B : Type) (l : list A) (x : B), last_value (fun _ => None) l x = x).
  { intros A B l x. unfold last_value. induction l as [|a l IHl]; [reflexivity|exact IHl]. }
  rewrite B3, B4, A4, T1, T2, T3. split; reflexivity.
Qed.
(** ICMP messages: types, identifiers, sequence numbers and the rest. *)
Definition echo_w (o : echo_setter) (c : bytes) : N * bytes :=
  match o with
  | EchoMakeRequest => (0, [8]) | EchoMakeReply => (0, [0])
  | EchoSetIdentifier v => (4, enc16 v) | EchoSetSequence v => (6, enc16 v)
  end.
Definition info_w (o : information_setter) (c : bytes) : N * bytes :=
  match o with
  | InfoMakeRequest => (0, [8]) | InfoMakeReply => (0, [0])
  | InfoSetIdentifier v => (4, enc16 v) | InfoSetSequence v => (6, enc16 v)
  end.
Definition ts_w (o : timestamp_setter) (c : bytes) : N * bytes :=
  match o with
  | TsMakeRequest => (0, [8]) | TsMakeReply => (0, [0])
  | TsSetIdentifier v => (4, enc16 v) | TsSetSequence v => (6, enc16 v)
  | TsSetOriginate v => (8, enc32 v) | TsSetReceive v => (12, enc32 v) | TsSetTransmit v => (16, enc32 v)
  end.
Definition icmp_inv (n : N) (b c : bytes) : Prop :=
  n <= len c /\ nthN c 1 = nthN b 1 /\ wire16 c 2 = wire16 b 2 /\ only_changes 0 n b c.
Lemma icmp_inv_patch n b c off bs : 8 <= n -> icmp_inv n b c ->
  off + len bs <= 1 \/ 4 <= off /\ off + len bs <= n ->
  off + len bs <= len c /\ icmp_inv n b (patch off bs c).
Proof.
  intros Hn (H1 & H2 & H3 & H4) Hx. assert (Hz : off + len bs <= len c) by lia. split; [exact Hz|].
  split; [rewrite len_patch; lia|]. split; [rewrite nthN_patch_out by lia; exact H2|].
  split; [rewrite wire16_patch_out by lia; exact H3|]. eapply only_changes_trans; [exact H4|]. apply patch_changes; lia.
Qed.
Ltac icmp_step := split; [first [apply set_index_ok; lia|apply write_u16_ok; lia|apply write_u32_ok; lia]
                          |apply icmp_inv_patch; [lia|assumption|cbn; lia]].
Ltac icmpg S get pick ops w := apply (steps_get _ _ _ _ get pick S) with (ops := ops); try assumption;
  let o := fresh in let c := fresh in let Hc := fresh "Hc" in
  intros o c _ (Hc & _); destruct o; cbn [w fst snd pick]; intros Hw; fields.
(** C52: echo: type, identifier and sequence; code, checksum and payload stay. *)
Lemma c52_echo : forall ops b, echo_new b = Ok b ->
  exists b', all_ok echo_apply ops b = Some b' /\ echo_new b' = Ok b' /\
    echo_is_request b' = Ok (last_value echo_kind_of ops (nthN b 0) =? 8) /\
    echo_is_reply b' = Ok (last_value echo_kind_of ops (nthN b 0) =? 0) /\
    echo_identifier b' = Ok (last_value echo_ident_of ops (wire16 b 4)) /\
    echo_sequence b' = Ok (last_value echo_seq_of ops (wire16 b 6)) /\
    nthN b' 1 = nthN b 1 /\ wire16 b' 2 = wire16 b 2 /\ only_changes 0 8 b b'.
Proof.
  intros ops b Hn. destruct (typed_inv _ _ _ _ _ c05_echo_new Hn) as (_ & H8 & Hk).
  set (I := fun c => icmp_inv 8 b c /\ (nthN c 0 = 8 \/ nthN c 0 = 0)).
  assert (HI : I b). { split; [repeat split; lia || reflexivity|]. cbn in Hk. lia. }
  assert (S : steps echo_apply (fun _ => True) (icmp_inv 8 b) echo_w).
  { intros o c _ Hc. pose proof (proj1 Hc) as Hl. destruct o; cbn [echo_apply echo_w fst snd]; icmp_step. }
  assert (HT : Forall (fun _ : echo_setter => True) ops) by (apply Forall_forall; intros; exact Logic.I).
  destruct (steps_all_ok _ _ _ _ S ops b HT (proj1 HI)) as (b' & Hr & H1 & H2 & H3 & H4). exists b'. split; [exact Hr|].
  pose proof (proj1 HI) as HI1.
  assert (G0 : nthN b' 0 = last_value echo_kind_of ops (nthN b 0)) by (icmpg S (fun c => nthN c 0) echo_kind_of ops echo_w).
  assert (G4 : wire16 b' 4 = last_value echo_ident_of ops (wire16 b 4)) by (icmpg S (fun c => wire16 c 4) echo_ident_of ops echo_w).
  assert (G6 : wire16 b' 6 = last_value echo_seq_of ops (wire16 b 6)) by (icmpg S (fun c => wire16 c 6) echo_seq_of ops echo_w).
  assert (K : forall l x, x = 8 \/ x = 0 -> last_value echo_kind_of l x = 8 \/ last_value echo_kind_of l x = 0).
  { intros l. induction l as [|o l IH]; intros x Hx; [exact Hx|]. unfold last_value in *. cbn [fold_left].
    apply IH. destruct o; cbn [echo_kind_of]; lia. }
  specialize (K ops (nthN b 0) (proj2 HI)).
  assert (Hn' : echo_new b' = Ok b').
  { apply c05_echo_new; [lia|]. rewrite G0. cbn. lia. }
  destruct (c08_echo b' Hn') as (B1 & B2 & B3 & B4). rewrite <- G0, <- G4, <- G6.
  split; [exact Hn'|]. do 4 (split; [assumption|]). split; [exact H2|]. split; [exact H3|exact H4].
Qed.
(** C52: information. *)
Lemma c52_information : forall ops b, information_new b = Ok b ->
  exists b', all_ok information_apply ops b = Some b' /\
    nthN b' 0 = last_value info_kind_of ops (nthN b 0) /\
    information_identifier b' = Ok (last_value info_ident_of ops (wire16 b 4)) /\
    information_sequence b' = Ok (last_value info_seq_of ops (wire16 b 6)) /\
    nthN b' 1 = nthN b 1 /\ wire16 b' 2 = wire16 b 2 /\ only_changes 0 8 b b'.
Proof.
  intros ops b Hn. destruct (typed_inv _ _ _ _ _ c05_information_new Hn) as (_ & H8 & Hk).
  assert (HI : icmp_inv 8 b b) by (repeat split; lia || reflexivity).
  assert (S : steps information_apply (fun _ => True) (icmp_inv 8 b) info_w).
  { intros o c _ Hc. pose proof (proj1 Hc) as Hl. destruct o; cbn [information_apply info_w fst snd]; icmp_step. }
  assert (HT : Forall (fun _ : information_setter => True) ops) by (apply Forall_forall; intros; exact Logic.I).
  destruct (steps_all_ok _ _ _ _ S ops b HT HI) as (b' & Hr & H1 & H2 & H3 & H4). exists b'. split; [exact Hr|].
  assert (G0 : nthN b' 0 = last_value info_kind_of ops (nthN b 0)) by (icmpg S (fun c => nthN c 0) info_kind_of ops info_w).
  assert (G4 : wire16 b' 4 = last_value info_ident_of ops (wire16 b 4)) by (icmpg S (fun c => wire16 c 4) info_ident_of ops info_w).
  assert (G6 : wire16 b' 6 = last_value info_seq_of ops (wire16 b 6)) by (icmpg S (fun c => wire16 c 6) info_seq_of ops info_w).
  split; [exact G0|]. rewrite <- G4, <- G6. unfold information_identifier, information_sequence. rewrite !get16 by lia.
  split; [reflexivity|]. split; [reflexivity|]. split; [exact H2|]. split; [exact H3|exact H4].
Qed.
(** C52: timestamp. *)
Lemma c52_timestamp : forall ops b, timestamp_new b = Ok b ->
  exists b', all_ok timestamp_apply ops b = Some b' /\
    nthN b' 0 = last_value ts_kind_of ops (nthN b 0) /\
    timestamp_identifier b' = Ok (last_value ts_ident_of ops (wire16 b 4)) /\
    timestamp_sequence b' = Ok (last_value ts_seq_of ops (wire16 b 6)) /\
    timestamp_originate b' = Ok (last_value ts_orig_of ops (wire32 b 8)) /\
    timestamp_receive b' = Ok (last_value ts_recv_of ops (wire32 b 12)) /\
    timestamp_transmit b' = Ok (last_value ts_tran_of ops (wire32 b 16)) /\
    nthN b' 1 = nthN b 1 /\ wire16 b' 2 = wire16 b 2 /\ only_changes 0 20 b b'.
Proof.
  intros ops b Hn. destruct (typed_inv _ _ _ _ _ c05_timestamp_new Hn) as (_ & H8 & Hk).
  assert (HI : icmp_inv 20 b b) by (repeat split; lia || reflexivity).
  assert (S : steps timestamp_apply (fun _ => True) (icmp_inv 20 b) ts_w).
  { intros o c _ Hc. pose proof (proj1 Hc) as Hl. destruct o; cbn [timestamp_apply ts_w fst snd]; icmp_step. }
  assert (HT : Forall (fun _ : timestamp_setter => True) ops) by (apply Forall_forall; intros; exact Logic.I).
  destruct (steps_all_ok _ _ _ _ S ops b HT HI) as (b' & Hr & H1 & H2 & H3 & H4). exists b'. split; [exact Hr|].
  assert (G0 : nthN b' 0 = last_value ts_kind_of ops (nthN b 0)) by (icmpg S (fun c => nthN c 0) ts_kind_of ops ts_w).
  assert (G4 : wire16 b' 4 = last_value ts_ident_of ops (wire16 b 4)) by (icmpg S (fun c => wire16 c 4) ts_ident_of ops ts_w).
  assert (G6 : wire16 b' 6 = last_value ts_seq_of ops (wire16 b 6)) by (icmpg S (fun c => wire16 c 6) ts_seq_of ops ts_w).
  assert (G8 : wire32 b' 8 = last_value ts_orig_of ops (wire32 b 8)) by (icmpg S (fun c => wire32 c 8) ts_orig_of ops ts_w).
  assert (G12 : wire32 b' 12 = last_value ts_recv_of ops (wire32 b 12)) by (icmpg S (fun c => wire32 c 12) ts_recv_of ops ts_w).
  assert (G16 : wire32 b' 16 = last_value ts_tran_of ops (wire32 b 16)) by (icmpg S (fun c => wire32 c 16) ts_tran_of ops ts_w).
  split; [exact G0|]. rewrite <- G4, <- G6, <- G8, <- G12, <- G16.
  unfold timestamp_identifier, timestamp_sequence, timestamp_originate, timestamp_receive, timestamp_transmit.
  rewrite !get16, !get32 by lia. do 5 (split; [reflexivity|]). split; [exact H2|]. split; [exact H3|exact H4].
Qed.
Example c52_example :
  let b := [0; 1; 0; 2; 0; 10; 0; 0; 7; 8; 9] in
  udp_no_payload b = Ok b /\
  all_ok udp_apply [UdpSetSource 4660; UdpSetDestination 80; UdpSetSource 53] b = Some [0; 53; 0; 80; 0; 10; 0; 0; 7; 8; 9] /\
  last_value udp_src [UdpSetSource 4660; UdpSetDestination 80; UdpSetSource 53] (wire16 b 0) = 53.
Proof. repeat split. Qed.

(** ** C50: editing the transport layer of a datagram in place *)
Lemma all_ok_calls {A} (apply : A -> mut) ops : forall b b', all_ok apply ops b = Some b' -> calls apply ops b = b'.
Proof.
  unfold calls. induction ops as [|o ops IH]; intros b b' H; cbn [all_ok fold_left] in *; [congruence|].
  destruct (apply o b) as [c [?| |]]; cbn [fst] in *; [|discriminate|discriminate]. apply IH. exact H.
Qed.
Lemma only_changes_wire16 lo hi b b' i : only_changes lo hi b b' -> i + 2 <= lo \/ hi <= i -> wire16 b' i = wire16 b i.
Proof. intros [_ H] Hi. unfold wire16. rewrite !H by lia. reflexivity. Qed.
Lemma only_changes_dropN lo hi b b' n : only_changes lo hi b b' -> hi <= n -> dropN n b' = dropN n b.
Proof.
  intros [Hl H] Hn. apply nthN_ext; [autorewrite with len; lia|]. intros i Hi. rewrite !nthN_dropN. apply H. lia.
Qed.
Lemma wire_addr_takeN n b i : i + 4 <= n -> wire_addr (takeN n b) i = wire_addr b i.
Proof. intros H. unfold wire_addr. rewrite !nthN_takeN by lia. reflexivity. Qed.

(** Writing a new payload of the same length through split_mut(). *)
Lemma edit_transport_ok parse edit b h u u' : v4_new b = Ok b -> 5 <= nthN b 0 mod 16 ->
  h = nthN b 0 mod 16 * 4 -> v4_payload b = Ok u -> parse u = Ok u -> edit (V4 (takeN h b)) u = (u', Ok tt) -> len u' = len u ->
  exists b', edit_transport parse edit b = (b', Ok tt) /\ b' = patch h u' b /\ h + len u <= len b /\ u = takeN (len u) (dropN h b) /\
    v4_new b' = Ok b' /\ v4_header b' = v4_header b /\ v4_payload b' = Ok u' /\ takeN h b' = takeN h b.
Proof.
  intros Hn Hi Hh Hp Hu He Hl. pose proof (c49_v4 b Hn Hi) as Q. cbv zeta in Q. rewrite <- Hh in Q.
  set (n := N.max h (wire16 b 2)) in Q. destruct Q as (Hs & _ & _ & Hr).
  pose proof (c07_v4 b Hn) as Q. cbv zeta in Q. rewrite <- Hh in Q. fold n in Q.
  destruct Q as (Hhn & _ & Hhd & Hp' & _). rewrite Hp in Hp'. apply Ok_inj in Hp'.
  assert (Hlu : len u = n - h) by (rewrite Hp'; autorewrite with len; lia).
  assert (Hru : span_read (Span h (n - h)) b = u).
  { unfold span_read. cbn [s_at s_len]. rewrite Hp'. rewrite takeN_dropN_comm. f_equal. f_equal. lia. }
  assert (Hrh : span_read (Span 0 h) b = takeN h b) by (unfold span_read; cbn [s_at s_len]; reflexivity).
  exists (patch h u' b). unfold edit_transport. rewrite Hs, Hru, Hu. unfold span_run. rewrite Hru, Hrh, He.
  rewrite span_write_patch by (cbn [s_len]; lia). cbn [s_at].
  split; [reflexivity|]. split; [reflexivity|]. split; [lia|].
  split; [rewrite <- Hru at 1; unfold span_read; cbn [s_at s_len]; now rewrite Hlu|].
  destruct (Hr u') as (H1 & H2 & H3 & H4); [cbn [s_len]; lia|].
  rewrite span_write_patch in H1, H2, H3 by (cbn [s_len]; lia). cbn [s_at] in H1, H2, H3.
  repeat split; try assumption. apply patch_before; lia.
Qed.
Lemma only_changes_inner lo hi h u u' b : h + len u <= len b -> u = takeN (len u) (dropN h b) ->
  only_changes lo hi u u' -> only_changes (h + lo) (h + hi) b (patch h u' b).
Proof.
  intros Hb Hu [Hl Hc]. split; [rewrite len_patch; lia|]. intros i Hi.
  destruct (N.ltb_spec i h); [apply nthN_patch_out; lia|].
  destruct (N.leb_spec (h + len u) i); [apply nthN_patch_out; lia|].
  replace i with (h + (i - h)) at 1 by lia. rewrite nthN_patch_in by lia. rewrite Hc by lia.
  rewrite Hu at 1. rewrite nthN_takeN by lia. rewrite nthN_dropN. f_equal. lia.
Qed.
(** C50: UDP. The caller gets the edited datagram: the IP header, the length and
    the payload are as before, the ports are the ones set last, the checksum is
    the right one (and with an even length, or a Cursor that keeps its position
    at the end, a receiver accepts it). *)
Lemma c50_udp : forall E b u ops, is_bytes b -> v4_new b = Ok b -> 5 <= nthN b 0 mod 16 ->
  v4_payload b = Ok u -> udp_new u = Ok u -> Forall udp_setter_ok ops ->
  let h := nthN b 0 mod 16 * 4 in
  exists b' u', edit_udp E ops b = (b', Ok tt) /\
    only_changes h (h + 8) b b' /\
    v4_new b' = Ok b' /\ v4_header b' = v4_header b /\ v4_is_valid E b' = v4_is_valid E b /\
    v4_payload b' = Ok u' /\ udp_new u' = Ok u' /\ udp_length u' = udp_length u /\ udp_payload u' = udp_payload u /\
    udp_source u' = Ok (last_value udp_src ops (wire16 u 0)) /\
    udp_destination u' = Ok (last_value udp_dst ops (wire16 u 2)) /\
    udp_is_valid E (V4 b') u' = Ok true /\
    (len u mod 2 = 0 \/ cursor_eof E = EofKeep ->
     receiver_accepts (with_pseudo_header (wire_addr b 12) (wire_addr b 16) 17 u')).
Proof.
  intros E b u ops Hb Hn Hi Hp Hu Hok h.
  assert (Hlb : h <= len b /\ 20 <= h) by (apply c02_v4_new_iff in Hn; unfold h; lia).
  pose proof Hu as Hu'. apply udp_new_iff in Hu'. destruct Hu' as (_ & H8 & H4).
  assert (Hbu : is_bytes u).
  { pose proof (c07_v4 b Hn) as Q. cbv zeta in Q. destruct Q as (_ & _ & _ & Q & _). rewrite Hp in Q. apply Ok_inj in Q. rewrite Q.
    apply is_bytes_dropN, is_bytes_takeN. exact Hb. }
  assert (Hnp : udp_no_payload u = Ok u).
  { unfold udp_no_payload, udp_header_min. destruct (N.ltb_spec (len u) 8); [lia|reflexivity]. }
  destruct (c25_udp E (takeN h b) ops u) as (u' & Hg & Hc6 & Hc8 & Hbu' & Hv); try assumption;
    [apply is_bytes_takeN; exact Hb|autorewrite with len; lia|].
  destruct (c52_udp ops u Hnp) as (c & Ha & Hsrc & Hdst & Hc4). apply all_ok_calls in Ha. rewrite Ha in Hc6.
  assert (Hlu : len u' = len u) by apply Hc8.
  destruct (edit_transport_ok udp_new (fun ip => udp_checked E ip ops) b h u u') as (b' & He & Hb' & Hhu & Huu & Hn' & Hh' & Hp' & Ht');
    try assumption; try reflexivity.
  exists b', u'. split; [exact He|].
  assert (HO : only_changes h (h + 8) b b').
  { rewrite Hb'. replace h with (h + 0) at 1 by lia. apply (only_changes_inner 0 8 h u u' b); assumption. }
  assert (H44 : wire16 u' 4 = wire16 u 4).
  { rewrite (only_changes_wire16 _ _ _ _ 4 Hc6) by lia. apply (only_changes_wire16 _ _ _ _ 4 Hc4). lia. }
  split; [exact HO|]. split; [exact Hn'|]. split; [exact Hh'|]. split.
  { unfold v4_is_valid. rewrite Hh'. destruct (v4_header b) as [x| |]; try reflexivity. cbn [bind].
    unfold v4_checksum. rewrite !get16 by (destruct HO; lia). rewrite (only_changes_wire16 _ _ _ _ 10 HO) by lia. reflexivity. }
  split; [exact Hp'|].
  assert (Hnu' : udp_new u' = Ok u') by (apply udp_new_iff; rewrite Hlu, H44; repeat split; lia).
  split; [exact Hnu'|]. split; [unfold udp_length; rewrite !get16 by lia; now rewrite H44|].
  split.
  { unfold udp_payload. rewrite !udp_split_ok by lia. cbn [bind]. rewrite H44. f_equal.
    set (t := N.max 8 (wire16 u 4)).
    apply nthN_ext; [autorewrite with len; lia|]. intros i Hi'. autorewrite with len in Hi'.
    rewrite !nthN_dropN, !nthN_takeN by lia. apply Hc8. lia. }
  assert (Hl' : len c = len u) by apply Hc4.
  assert (Hc0 : wire16 u' 0 = wire16 c 0) by (apply (only_changes_wire16 _ _ _ _ 0 Hc6); lia).
  assert (Hc2 : wire16 u' 2 = wire16 c 2) by (apply (only_changes_wire16 _ _ _ _ 2 Hc6); lia).
  split.
  { rewrite <- Hsrc. unfold udp_source. rewrite !get16 by lia. now rewrite Hc0. }
  split.
  { rewrite <- Hdst. unfold udp_destination. rewrite !get16 by lia. now rewrite Hc2. }
  assert (Hlb' : len b' = len b) by apply HO.
  assert (Hw : forall i, i + 4 <= 20 -> wire_addr b' i = wire_addr (takeN h b) i).
  { intros i Hi'. rewrite <- Ht'. symmetry. apply wire_addr_takeN. lia. }
  assert (Hbb' : is_bytes b') by (rewrite Hb'; apply is_bytes_patch; assumption).
  assert (Hvv : udp_is_valid E (V4 b') u' = Ok true).
  { rewrite <- Hv. unfold udp_is_valid, udp_checksum_of.
    rewrite !(pseudo_header_ok IP_Udp 17) by (reflexivity || (autorewrite with len; lia)). rewrite !Hw by lia. reflexivity. }
  split; [exact Hvv|]. intros He'. rewrite <- Hlu in He'.
  apply c21_udp_is_valid_receiver in Hvv; try assumption; try lia. rewrite !Hw in Hvv by lia. rewrite !wire_addr_takeN in Hvv by lia. apply Hvv.
Qed.
(** C50: TCP, data offset of at least 5, no set_flags. *)
Lemma c50_tcp : forall E b u ops, is_bytes b -> v4_new b = Ok b -> 5 <= nthN b 0 mod 16 ->
  v4_payload b = Ok u -> tcp_new u = Ok u -> 5 <= nthN u 12 / 16 ->
  len u mod 2 = 0 \/ cursor_eof E = EofKeep ->
  Forall (fun s => tcp_setter_ok s /\ ~ tcp_is_flags s) ops ->
  let h := nthN b 0 mod 16 * 4 in
  exists b' u', edit_tcp E ops b = (b', Ok tt) /\
    only_changes h (h + 20) b b' /\
    v4_new b' = Ok b' /\ v4_header b' = v4_header b /\ v4_is_valid E b' = v4_is_valid E b /\
    v4_payload b' = Ok u' /\ tcp_new u' = Ok u' /\
    tcp_offset u' = tcp_offset u /\ tcp_flags u' = tcp_flags u /\
    tcp_options u' = tcp_options u /\ tcp_payload u' = tcp_payload u /\
    tcp_source u' = Ok (last_value tcp_src ops (wire16 u 0)) /\
    tcp_destination u' = Ok (last_value tcp_dst ops (wire16 u 2)) /\
    tcp_sequence u' = Ok (last_value tcp_seq ops (wire32 u 4)) /\
    tcp_acknowledgment u' = Ok (last_value tcp_ack ops (wire32 u 8)) /\
    tcp_window u' = Ok (last_value tcp_win ops (wire16 u 14)) /\
    tcp_pointer u' = Ok (last_value tcp_ptr ops (wire16 u 18)) /\
    tcp_is_valid E (V4 b') u' = Ok true /\
    receiver_accepts (with_pseudo_header (wire_addr b 12) (wire_addr b 16) 6 u').
Proof.
  intros E b u ops Hb Hn Hi Hp Hu Ho Hcur Hok h.
  assert (Hlb : h <= len b /\ 20 <= h) by (apply c02_v4_new_iff in Hn; unfold h; lia).
  pose proof Hu as Hu'. apply tcp_new_iff in Hu'. destruct Hu' as (_ & H20 & Hoff).
  assert (Hbu : is_bytes u /\ len u <= 65535).
  { pose proof (c07_v4 b Hn) as Q. cbv zeta in Q. destruct Q as (_ & _ & _ & Q & _). rewrite Hp in Q. apply Ok_inj in Q. rewrite Q.
    split; [apply is_bytes_dropN, is_bytes_takeN; exact Hb|]. autorewrite with len. pose proof (wire16_lt b 2 Hb). lia. }
  destruct Hbu as [Hbu Hl16].
  destruct (c25_tcp E (takeN h b) ops u) as (u' & Hg & Hc6 & Hc8 & Hbu' & Hv); try assumption; try lia;
    [apply is_bytes_takeN; exact Hb|autorewrite with len; lia|].
  assert (HF : Forall (fun o => ~ tcp_is_flags o) ops) by (eapply Forall_impl; [|exact Hok]; cbn; tauto).
  destruct (c52_tcp ops u Hu Ho HF) as (c & Ha & G0 & G2 & G4 & G8 & G14 & G18 & GO & GF & _ & Hc4).
  apply all_ok_calls in Ha. rewrite Ha in Hc6.
  assert (Hlu : len u' = len u) by apply Hc8.
  destruct (edit_transport_ok tcp_new (fun ip => tcp_checked E ip ops) b h u u') as (b' & He & Hb' & Hhu & Huu & Hn' & Hh' & Hp' & Ht');
    try assumption; try reflexivity.
  exists b', u'. split; [exact He|].
  assert (HO : only_changes h (h + 20) b b').
  { rewrite Hb'. replace h with (h + 0) at 1 by lia. apply (only_changes_inner 0 20 h u u' b); assumption. }
  assert (Hl' : len c = len u) by apply Hc4.
  assert (H12 : nthN c 12 = nthN u 12 \/ True) by (right; exact Logic.I). clear H12.
  assert (HX : forall i, i < 16 \/ 18 <= i -> nthN u' i = nthN c i) by (intros i Hi'; apply Hc6; exact Hi').
  assert (HW : forall i, i + 2 <= 16 \/ 18 <= i -> wire16 u' i = wire16 c i).
  { intros i Hi'. apply (only_changes_wire16 _ _ _ _ i Hc6). exact Hi'. }
  assert (HWW : forall i, i + 4 <= 16 -> wire32 u' i = wire32 c i).
  { intros i Hi'. unfold wire32. rewrite !HX by lia. reflexivity. }
  assert (EO : tcp_offset u' = tcp_offset u).
  { rewrite <- GO. rewrite !tcp_offset_ok by lia. now rewrite HX by lia. }
  assert (EF : tcp_flags u' = tcp_flags u).
  { rewrite <- GF. unfold tcp_flags. rewrite !get16 by lia. now rewrite HW by lia. }
  assert (H12 : nthN u' 12 / 16 = nthN u 12 / 16) by (rewrite !tcp_offset_ok in EO by lia; congruence).
  split; [exact HO|]. split; [exact Hn'|]. split; [exact Hh'|]. split.
  { unfold v4_is_valid. rewrite Hh'. destruct (v4_header b) as [x| |]; try reflexivity. cbn [bind].
    unfold v4_checksum. rewrite !get16 by (destruct HO; lia). rewrite (only_changes_wire16 _ _ _ _ 10 HO) by lia. reflexivity. }
  split; [exact Hp'|].
  split; [apply tcp_new_iff; rewrite Hlu, H12; repeat split; lia|].
  split; [exact EO|]. split; [exact EF|].
  split.
  { unfold tcp_options. rewrite EO. rewrite tcp_offset_ok by lia. cbn [bind]. rewrite !slice_ok by lia. f_equal.
    apply nthN_ext; [autorewrite with len; lia|]. intros i Hi'. autorewrite with len in Hi'.
    rewrite ?nthN_takeN, ?nthN_dropN, ?nthN_takeN by lia. apply Hc8. lia. }
  split.
  { unfold tcp_payload. rewrite !tcp_split_ok by lia. cbn [bind]. rewrite H12. f_equal.
    apply (only_changes_dropN 0 20); [exact Hc8|lia]. }
  split; [rewrite <- G0; unfold tcp_source; rewrite !get16 by lia; now rewrite HW by lia|].
  split; [rewrite <- G2; unfold tcp_destination; rewrite !get16 by lia; now rewrite HW by lia|].
  split; [rewrite <- G4; unfold tcp_sequence; rewrite !get32 by lia; now rewrite HWW by lia|].
  split; [rewrite <- G8; unfold tcp_acknowledgment; rewrite !get32 by lia; now rewrite HWW by lia|].
  split; [rewrite <- G14; unfold tcp_window; rewrite !get16 by lia; now rewrite HW by lia|].
  split; [rewrite <- G18; unfold tcp_pointer; rewrite !get16 by lia; now rewrite HW by lia|].
  assert (Hlb' : len b' = len b) by apply HO.
  assert (Hw : forall i, i + 4 <= 20 -> wire_addr b' i = wire_addr (takeN h b) i).
  { intros i Hi'. rewrite <- Ht'. symmetry. apply wire_addr_takeN. lia. }
  assert (Hbb' : is_bytes b') by (rewrite Hb'; apply is_bytes_patch; assumption).
  assert (Hvv : tcp_is_valid E (V4 b') u' = Ok true).
  { rewrite <- Hv. unfold tcp_is_valid, tcp_checksum_of.
    rewrite !(pseudo_header_ok IP_Tcp 6) by (reflexivity || (autorewrite with len; lia)). rewrite !Hw by lia. reflexivity. }
  split; [exact Hvv|]. rewrite <- Hlu in Hcur.
  apply c22_tcp_is_valid_receiver in Hvv; try assumption; try lia. rewrite !Hw in Hvv by lia. rewrite !wire_addr_takeN in Hvv by lia. apply Hvv.
Qed.
(** C50: nothing is written when the datagram does not hold a UDP or TCP packet. *)
Lemma c50_refused : forall E b u, v4_new b = Ok b -> 5 <= nthN b 0 mod 16 -> v4_payload b = Ok u ->
  (forall ops e, udp_new u = Err e -> edit_udp E ops b = (b, Err e)) /\
  (forall ops e, tcp_new u = Err e -> edit_tcp E ops b = (b, Err e)).
Proof.
  intros E b u Hn Hi Hp. pose proof (c49_v4 b Hn Hi) as Q. cbv zeta in Q.
  set (h := nthN b 0 mod 16 * 4) in Q. set (n := N.max h (wire16 b 2)) in Q. destruct Q as (Hs & _).
  pose proof (c07_v4 b Hn) as Q. cbv zeta in Q. fold h in Q. fold n in Q. destruct Q as (Hhn & _ & _ & Hp' & _).
  rewrite Hp in Hp'. apply Ok_inj in Hp'.
  assert (Hru : span_read (Span h (n - h)) b = u).
  { unfold span_read. cbn [s_at s_len]. rewrite Hp'. rewrite takeN_dropN_comm. f_equal. f_equal. lia. }
  split; intros ops e He; unfold edit_udp, edit_tcp, edit_transport; rewrite Hs, Hru, He; reflexivity.
Qed.
Example c50_example : forall E,
  let b := [69; 0; 0; 30; 0; 0; 0; 0; 64; 17; 0; 0; 10; 0; 0; 1; 10; 0; 0; 2; 0; 1; 0; 2; 0; 10; 0; 0; 104; 105; 77] in
  v4_new b = Ok b /\ v4_payload b = Ok [0; 1; 0; 2; 0; 10; 0; 0; 104; 105] /\
  edit_udp E [UdpSetSource 53; UdpSetDestination 99] b =
    ([69; 0; 0; 30; 0; 0; 0; 0; 64; 17; 0; 0; 10; 0; 0; 1; 10; 0; 0; 2; 0; 53; 0; 99; 0; 10; 130; 214; 104; 105; 77], Ok tt).
Proof. intros [[] [] []]; repeat split. Qed.
