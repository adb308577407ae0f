(** * PayloadProofs: C37, C46. *)
From Verif Require Import Base Enums Buffer Ether Ipv4 Ip Udp Tcp Icmp Builders Spec SpecCalls SpecBuild
  Lemmas ParseProofs SliceProofs AccessProofs FieldProofs ChecksumLemmas ChecksumProofs GuardProofs BufferProofs BuildLemmas FinalLemmas ChainLemmas ReadLemmas BuilderProofs.
From Coq Require Import ZifyBool ZifyNat ZifyN.
Ltac Zify.zify_post_hook ::= Z.div_mod_to_equations.

(** ** C37: IPv4 with its own payload *)
(** C37: the bytes built, for payloads of any size: the payload is counted in the
    header length, and covered by the header checksum. *)
Lemma c37_v4_bytes : forall E eth vops p,
  eth_ok eth -> Forall v4_op_ok vops -> one_payload (v4_payloads vops) p -> 34 + len p <= ISIZE_MAX ->
  let L := 20 + len p in
  let b0 := N.lor 64 (L / 4 mod 256) in
  let h := fun ck => v4_wire (v4_head (v4_after (v4_setters vops)) b0 (L mod 65536) ck) in
  v4_chain E eth vops dynamic_new =
  match eth_front eth (b0 / 16) with
  | Some e => Ok (e ++ h (inet_checksum (takeN (L / 4 * 4) (h 0 ++ p))) ++ p)
  | None => Panic
  end.
Proof.
  intros E eth vops p He Hv Hp Hl. cbv zeta.
  pose proof (v4_chain_gen E eth vops p None [] [] He Hv Hp dynamic_sized I (or_introl eq_refl)) as G. cbv zeta in G.
  change (mkbuf None [] []) with dynamic_new in G. rewrite G by (destruct eth; cbn [eth_size]; rewrite len_nil; lia). clear G. cbn [app].
  reflexivity.
Qed.
Lemma v4_payload_small p f : len p < 4 -> vf_version f = 4 -> vf_ihl f = 5 -> N.lor 64 ((20 + len p) / 4 mod 256) = 69 /\
  forall ck, v4_head f 69 ((20 + len p) mod 65536) ck = v4_fill f ((20 + len p) mod 65536) (vf_proto f) ck.
Proof.
  intros H Hv Hi. split; [replace ((20 + len p) / 4 mod 256) with 5 by lia; reflexivity|].
  intros ck. destruct f. cbn in Hv, Hi. subst. reflexivity.
Qed.
(** C37: fewer than four bytes of payload: the packet reads back as built. *)
Lemma c37_v4_small : forall E eops vops p,
  eth_ok (Some eops) -> Forall v4_op_ok vops -> Forall v4_faithful (v4_setters vops) ->
  one_payload (v4_payloads vops) p -> len p < 4 ->
  let proto := ip_protocol_from (ip_protocol_into (last_set sel_v4_proto (v4_setters vops) (ip_protocol_from 0))) in
  exists frame ip,
    v4_chain E (Some eops) vops dynamic_new = Ok frame /\ v4_chain E None vops dynamic_new = Ok ip /\
    ether_reads eops ET_Ipv4 ip frame /\ v4_reads E (v4_setters vops) proto p ip.
Proof.
  intros E eops vops p He Hv Hf Hp Hl proto.
  assert (Hi : 100 <= ISIZE_MAX) by (widths; lia).
  pose proof (v4_setters_ok vops Hv) as Hs. pose proof (v4_after_building _ Hs) as Hb.
  pose proof (one_payload_bytes _ _ Hp (v4_op_payloads vops Hv)) as Hpb.
  pose proof (v4_after_proto (v4_setters vops) (ip_protocol_from 0) eq_refl) as Hpr.
  destruct (v4_payload_small p (v4_after (v4_setters vops)) Hl (proj1 (proj2 Hb)) (proj2 (proj2 Hb))) as [B0 Bh].
  set (f := v4_after (v4_setters vops)) in *.
  set (ip := v4_wire (v4_finished f (vf_proto f) (len p)) ++ p).
  exists (ether_layer (Some eops) ++ ip), ip.
  assert (Hbytes : forall eth, eth_ok eth -> v4_chain E eth vops dynamic_new = Ok (ether_layer eth ++ ip)).
  { intros eth He'. pose proof (c37_v4_bytes E eth vops p He' Hv Hp ltac:(lia)) as G. cbv zeta in G. fold f in G. rewrite B0 in G. rewrite G. clear G.
    change (69 / 16) with 4.
    assert (Ef : eth_front eth 4 = Some (ether_layer eth)) by (destruct eth; reflexivity). rewrite Ef. rewrite !Bh.
    rewrite takeN_app1 by (rewrite len_v4_wire; lia). rewrite takeN_all by (rewrite len_v4_wire; lia). reflexivity. }
  split; [apply Hbytes, He|]. split; [rewrite (Hbytes None I); reflexivity|]. split.
  - change ET_Ipv4 with (ether_protocol_from 0x0800). apply ether_reads_ok; [apply He|reflexivity].
  - unfold proto. rewrite <- Hpr. apply v4_reads_ok; try assumption; [apply (proj1 Hb)|lia].
Qed.
(** C37: with 4 to 43 bytes of payload, the packet reads back with the first
    [4 * (n / 4)] bytes of the payload as header options. *)
Lemma c37_v4_eaten : forall E eops vops p,
  eth_ok (Some eops) -> Forall v4_op_ok vops -> one_payload (v4_payloads vops) p -> 4 <= len p <= 43 ->
  exists frame ip,
    v4_chain E (Some eops) vops dynamic_new = Ok frame /\ v4_chain E None vops dynamic_new = Ok ip /\
    ether_reads eops ET_Ipv4 ip frame /\
    v4_new ip = Ok ip /\ v4_ihl ip = Ok (5 + len p / 4) /\ v4_length ip = Ok (20 + len p) /\
    v4_options ip = Ok (takeN (len p / 4 * 4) p) /\ v4_payload ip = Ok (dropN (len p / 4 * 4) p) /\
    v4_is_valid E ip = Ok true.
Proof.
  intros E eops vops p He Hv Hp Hl.
  assert (Hi : 100 <= ISIZE_MAX) by (widths; lia).
  pose proof (v4_setters_ok vops Hv) as Hs. pose proof (v4_after_building _ Hs) as Hb.
  pose proof (one_payload_bytes _ _ Hp (v4_op_payloads vops Hv)) as Hpb.
  set (f := v4_after (v4_setters vops)) in *.
  set (L := 20 + len p). set (n := len p / 4 * 4).
  set (b0 := 64 + (5 + len p / 4)).
  assert (B0 : N.lor 64 (L / 4 mod 256) = b0).
  { unfold b0, L. rewrite N.mod_small by lia. replace ((20 + len p) / 4) with (5 + len p / 4) by lia. apply lor64_small. lia. }
  set (h := fun ck => v4_wire (v4_head f b0 (L mod 65536) ck)).
  set (ck := inet_checksum (takeN (L / 4 * 4) (h 0 ++ p))).
  set (ip := h ck ++ p).
  exists (ether_layer (Some eops) ++ ip), ip.
  assert (Hbytes : forall eth, eth_ok eth -> v4_chain E eth vops dynamic_new = Ok (ether_layer eth ++ ip)).
  { intros eth He'. pose proof (c37_v4_bytes E eth vops p He' Hv Hp ltac:(lia)) as G. cbv zeta in G. fold f in G. fold L in G. rewrite B0 in G. rewrite G. clear G.
    replace (b0 / 16) with 4 by (unfold b0; lia).
    assert (Ef : eth_front eth 4 = Some (ether_layer eth)) by (destruct eth; reflexivity). rewrite Ef. reflexivity. }
  split; [apply Hbytes, He|]. split; [rewrite (Hbytes None I); reflexivity|]. split.
  { change ET_Ipv4 with (ether_protocol_from 0x0800). apply ether_reads_ok; [apply He|reflexivity]. }
  assert (Hck : u16 ck) by (unfold ck, u16, inet_checksum; lia).
  assert (Hg : v4_fields_ok (v4_head f b0 (L mod 65536) ck)).
  { apply v4_head_ok; [apply Hb|unfold b0; lia|unfold u16; lia|exact Hck]. }
  assert (Hz : forall a, zero_field 10 (h ck ++ a) = h 0 ++ a).
  { intros a. rewrite zero_field_patch by (unfold h; rewrite len_app, len_v4_wire; lia).
    rewrite patch_app1 by (change_lens; unfold h; rewrite ?len_v4_wire; lia). f_equal. unfold h. rewrite !v4_head_wire. reflexivity. }
  assert (G : vf_version (v4_head f b0 (L mod 65536) ck) = 4 /\ vf_ihl (v4_head f b0 (L mod 65536) ck) = 5 + len p / 4 /\
     vf_total (v4_head f b0 (L mod 65536) ck) = L /\ vf_checksum (v4_head f b0 (L mod 65536) ck) = ck).
  { clearbody f ck. destruct f as [ver ihl dscp ecn tot id rs d m frag ttl pr ck0 src dst]. cbn [v4_head vf_version vf_ihl vf_total vf_checksum]. repeat split; unfold b0, L; lia. }
  destruct G as (G1 & G2 & G3 & G4).
  assert (Hsp : p = takeN n p ++ dropN n p) by (unfold takeN, dropN; symmetry; apply firstn_skipn).
  pose proof (c09_v4_parts _ (takeN n p) (dropN n p) [] Hg G1) as P. cbv zeta in P. rewrite G2, G3 in P.
  assert (Hln : len (takeN n p) = n) by (rewrite len_takeN; unfold n; lia).
  assert (Hld : len (dropN n p) = len p - n) by (autorewrite with len; reflexivity).
  specialize (P ltac:(rewrite Hln; unfold n; lia) ltac:(rewrite Hln, Hld; unfold n, L; lia)).
  rewrite app_nil_r, <- Hsp in P. fold (h ck) in P. fold ip in P. destruct P as (P1 & P2 & P3 & P4 & P5).
  pose proof (c09_v4 _ p Hg G1 ltac:(rewrite G2; lia)) as R. cbv zeta in R. fold (h ck) in R. fold ip in R. rewrite G2, G3, G4 in R.
  destruct R as (R1 & R2 & R3 & R4 & R5 & R6 & R7 & R8 & R9 & R10 & R11 & R12 & R13 & R14).
  repeat split; try assumption.
  assert (Hib : is_bytes ip) by (apply is_bytes_app; split; [apply is_bytes_v4_wire, Hg|exact Hpb]).
  assert (H0 : nthN ip 0 = b0) by (unfold ip, h; apply v4_head_first; unfold b0; lia).
  rewrite c20_v4_is_valid; [|exact Hib|exact R1|rewrite H0; unfold b0; lia]. rewrite H0.
  replace (b0 mod 16 * 4) with (L / 4 * 4) by (unfold b0, L; lia).
  assert (HL : L / 4 * 4 = 20 + n) by (unfold L, n; lia).
  assert (Ht : forall c, takeN (L / 4 * 4) (h c ++ p) = h c ++ takeN n p).
  { intros c. rewrite takeN_app2 by (unfold h; rewrite len_v4_wire; lia). f_equal. f_equal. unfold h. rewrite len_v4_wire. lia. }
  unfold ip. rewrite Ht, Hz, <- Ht. fold ck.
  unfold v4_checksum in R12. fold ip. rewrite get16 in R12 by (unfold ip, h; rewrite len_app, len_v4_wire; lia). apply Ok_inj in R12. rewrite R12, N.eqb_refl. reflexivity.
Qed.
(** C37: with 44 to 235 bytes of payload, the packet is not even one of version 4. *)
Lemma c37_v4_refused : forall E vops p,
  Forall v4_op_ok vops -> one_payload (v4_payloads vops) p -> 44 <= len p <= 235 ->
  exists ip, v4_chain E None vops dynamic_new = Ok ip /\ v4_new ip = Err InvalidPacket.
Proof.
  intros E vops p Hv Hp Hl. assert (Hi : 1000 <= ISIZE_MAX) by (widths; lia).
  pose proof (c37_v4_bytes E None vops p I Hv Hp ltac:(lia)) as G. cbv zeta in G. cbn [eth_front app] in G.
  set (b0 := N.lor 64 _) in G.
  assert (Hb : b0 < 256 /\ b0 / 16 <> 4).
  { unfold b0. replace ((20 + len p) / 4 mod 256) with (5 + len p / 4) by lia.
    assert (Hx : 16 <= 5 + len p / 4 < 64) by lia. revert Hx. generalize (5 + len p / 4). intros x Hx.
    assert (Hq : (negb ((16 <=? x) && (x <? 64)) || ((N.lor 64 x <? 256) && negb (N.lor 64 x / 16 =? 4)))%bool = true).
    { apply (sweep (fun x => (negb ((16 <=? x) && (x <? 64)) || ((N.lor 64 x <? 256) && negb (N.lor 64 x / 16 =? 4)))%bool) 64); [vm_compute; reflexivity|lia]. }
    lia. }
  clearbody b0. eexists. split; [exact G|].
  match goal with |- v4_new (v4_wire ?g ++ p) = _ => assert (H0 : nthN (v4_wire g ++ p) 0 = b0) by (apply v4_head_first; apply Hb);
    set (ip := v4_wire g ++ p) in *; assert (Hip : 20 <= len ip) by (unfold ip; rewrite len_app, len_v4_wire; lia) end.
  clearbody ip. unfold v4_new, v4_no_payload. change v4_header_min with 20. destruct (len ip <? 20) eqn:El; [lia|].
  rewrite index_ok by lia. rewrite H0. cbn [bind]. rewrite N.shiftr_div_pow2. change (2 ^ 4) with 16.
  destruct (b0 / 16 =? 4) eqn:E4; [lia|]. reflexivity.
Qed.
Lemma lor64_class w : w < 256 -> N.lor 64 w / 16 = if (w / 16 =? 0) || (w / 16 =? 4) then 4 else if (w / 16 =? 2) || (w / 16 =? 6) then 6 else N.lor 64 w / 16.
Proof.
  intros H. apply N.eqb_eq.
  apply (sweep (fun w => N.lor 64 w / 16 =? (if ((w / 16 =? 0) || (w / 16 =? 4))%bool then 4 else if ((w / 16 =? 2) || (w / 16 =? 6))%bool then 6 else N.lor 64 w / 16)) 256); [vm_compute; reflexivity|exact H].
Qed.
Lemma lor64_other w : w < 256 -> w / 16 <> 0 -> w / 16 <> 4 -> w / 16 <> 2 -> w / 16 <> 6 -> N.lor 64 w / 16 <> 4 /\ N.lor 64 w / 16 <> 6.
Proof.
  intros H H0 H4 H2 H6.
  assert (Hq : (((w / 16 =? 0) || (w / 16 =? 4) || (w / 16 =? 2) || (w / 16 =? 6)) || (negb (N.lor 64 w / 16 =? 4) && negb (N.lor 64 w / 16 =? 6)))%bool = true).
  { apply (sweep (fun w => ((w / 16 =? 0) || (w / 16 =? 4) || (w / 16 =? 2) || (w / 16 =? 6)) || (negb (N.lor 64 w / 16 =? 4) && negb (N.lor 64 w / 16 =? 6)))%bool 256); [vm_compute; reflexivity|exact H]. }
  lia.
Qed.
(** C37: inside an Ethernet frame, the length of the payload decides: with [w] the
    number of words counted as header, modulo 256, the frame is marked IPv4 if
    [w / 16] is 0 or 4, IPv6 if it is 2 or 6, and otherwise [build] panics. *)
Lemma c37_v4_in_ether : forall E eops vops p,
  eth_ok (Some eops) -> Forall v4_op_ok vops -> one_payload (v4_payloads vops) p -> 34 + len p <= ISIZE_MAX ->
  let w := (5 + len p / 4) mod 256 in
  let frame type := exists q, v4_chain E (Some eops) vops dynamic_new = Ok (ether_wire (ether_set_type (ether_after eops) type) ++ q) /\
                    v4_chain E None vops dynamic_new = Ok q in
  (w / 16 = 0 \/ w / 16 = 4 -> frame 0x0800) /\
  (w / 16 = 2 \/ w / 16 = 6 -> frame 0x86dd) /\
  (v4_chain E (Some eops) vops dynamic_new = Panic <-> ~ (w / 16 = 0 \/ w / 16 = 4 \/ w / 16 = 2 \/ w / 16 = 6)).
Proof.
  intros E eops vops p He Hv Hp Hl w frame.
  pose proof (c37_v4_bytes E (Some eops) vops p He Hv Hp Hl) as G. cbv zeta in G.
  pose proof (c37_v4_bytes E None vops p I Hv Hp Hl) as G2. cbv zeta in G2. cbn [eth_front app] in G2.
  assert (Hw : (20 + len p) / 4 mod 256 = w) by (unfold w; f_equal; lia).
  rewrite Hw in G, G2. set (q := (v4_wire _ ++ p)) in G, G2. clearbody q.
  assert (Hw2 : w < 256) by (unfold w; lia). clearbody w. pose proof (lor64_class w Hw2) as C. pose proof (lor64_other w Hw2) as O.
  set (v := N.lor 64 w / 16) in *. clearbody v.
  assert (H4 : w / 16 = 0 \/ w / 16 = 4 -> frame 0x0800).
  { intros Hd. exists q. split; [|exact G2]. rewrite G. assert (v = 4) as -> by (destruct (_ || _)%bool eqn:D in C; [exact C|lia]). reflexivity. }
  assert (H6 : w / 16 = 2 \/ w / 16 = 6 -> frame 0x86dd).
  { intros Hd. exists q. split; [|exact G2]. rewrite G.
    assert (v = 6) as ->. { destruct (w / 16 =? 0) eqn:D1; [lia|]. destruct (w / 16 =? 4) eqn:D2; [lia|]. cbn [orb] in C.
      destruct (w / 16 =? 2) eqn:D3; [exact C|]. destruct (w / 16 =? 6) eqn:D4; [exact C|lia]. }
    reflexivity. }
  split; [exact H4|]. split; [exact H6|]. split.
  - intros P Hd. assert (Hf : frame 0x0800 \/ frame 0x86dd) by (destruct Hd as [D|[D|D]]; auto).
    destruct Hf as [(x & F & _)|(x & F & _)]; rewrite P in F; discriminate.
  - intros Hn. rewrite G. destruct O as [O1 O2]; try (intros D; apply Hn; rewrite D; auto).
    unfold eth_front. destruct (v =? 4) eqn:D1; [lia|]. destruct (v =? 6) eqn:D2; [lia|]. reflexivity.
Qed.
Example c37_example : forall E,
  let vops := [V4Set (V4SetTtl 64); V4Set (V4SetSource (Ip4 10 0 0 1)); V4Payload [1; 2; 3; 4; 5; 6]; V4Set (V4SetProtocol IP_Udp)] in
  Forall v4_op_ok vops /\ Forall v4_faithful (v4_setters vops) /\ one_payload (v4_payloads vops) [1; 2; 3; 4; 5; 6] /\
  v4_chain E None vops dynamic_new = Ok [70; 0; 0; 26; 0; 0; 0; 0; 64; 17; 107; 205; 10; 0; 0; 1; 0; 0; 0; 0; 1; 2; 3; 4; 5; 6] /\
  v4_chain E (Some []) [V4Payload (zeros 172)] dynamic_new = Panic /\
  v4_chain E None [V4Set (V4SetTtl 9); V4Payload [7; 8; 9]] dynamic_new = Ok [69; 0; 0; 23; 0; 0; 0; 0; 9; 0; 177; 232; 0; 0; 0; 0; 0; 0; 0; 0; 7; 8; 9].
Proof.
  intros E vops. split; [repeat (constructor; try reflexivity)|]. split; [repeat constructor|]. split; [left; reflexivity|].
  destruct E as [[] [] []]; vm_compute; repeat split; reflexivity.
Qed.

(** ** C46: Ethernet with its own payload *)
(** C46: the bytes built. *)
Lemma c46_ether_bytes : forall E eops p,
  Forall ether_op_ok eops -> one_payload (ether_payloads eops) p -> 14 + len p <= ISIZE_MAX ->
  ether_chain E eops dynamic_new = Ok (ether_wire (ether_after eops) ++ p).
Proof.
  intros E eops p He Hp Hl.
  pose proof (ether_chain_gen E eops p None [] [] He Hp dynamic_sized I (or_introl eq_refl)) as G.
  change (mkbuf None [] []) with dynamic_new in G. rewrite G by (rewrite len_nil; lia). reflexivity.
Qed.
(** C46: and what they read back as. *)
Lemma c46_ether_reparse : forall E eops p,
  Forall ether_op_ok eops -> one_payload (ether_payloads eops) p -> 14 + len p <= ISIZE_MAX ->
  exists frame, ether_chain E eops dynamic_new = Ok frame /\ ether_reads eops (ether_protocol_from (ether_protocol_into (last_set sel_eth_type eops (ether_protocol_from 0)))) p frame.
Proof.
  intros E eops p He Hp Hl. eexists. split; [apply c46_ether_bytes; eassumption|].
  rewrite <- (ether_after_type eops (ether_protocol_from 0) eq_refl).
  replace (ether_after eops) with (ether_set_type (ether_after eops) (ef_type (ether_after eops))) at 2 by (destruct (ether_after eops); reflexivity).
  apply ether_reads_ok; [exact He|]. apply (ether_after_ok eops He).
Qed.
Example c46_example : forall E,
  let eops := [EtherDestination (Hw 1 2 3 4 5 6); EtherPayload [9; 8; 7]; EtherProtocol ET_Arp; EtherDestination (Hw 6 5 4 3 2 1)] in
  Forall ether_op_ok eops /\ one_payload (ether_payloads eops) [9; 8; 7] /\
  ether_chain E eops dynamic_new = Ok [6; 5; 4; 3; 2; 1; 0; 0; 0; 0; 0; 0; 8; 6; 9; 8; 7].
Proof.
  intros E eops. split; [repeat (constructor; try reflexivity)|]. split; [left; reflexivity|].
  destruct E as [[] [] []]; vm_compute; reflexivity.
Qed.
