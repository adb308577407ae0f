(** * CopyProofs: parse, then build: the same frame (C55). *)
From Verif Require Import Base Enums Buffer Ether Ipv4 Ip Udp Tcp Icmp Builders Spec SpecCalls SpecBuild SpecCopy.
From Verif Require Import Lemmas ParseProofs SliceProofs AccessProofs FieldProofs ChecksumLemmas ChecksumProofs
  BuildLemmas FinalLemmas ChainLemmas ReadLemmas BuilderProofs MessageProofs.
From Coq Require Import ZifyBool ZifyNat ZifyN.
Ltac Zify.zify_post_hook ::= Z.div_mod_to_equations.

Fixpoint firsts (n : nat) (i : N) (b : bytes) : bytes :=
  match n with O => [] | S m => nthN b i :: firsts m (i + 1) b end.
Lemma takeN_firsts n : forall i b, i + N.of_nat n <= len b -> takeN (N.of_nat n) (dropN i b) = firsts n i b.
Proof.
  induction n as [|n IH]; intros i b H; [reflexivity|]. cbn [firsts]. rewrite <- IH by lia.
  assert (Hl : len (dropN i b) = len b - i) by (autorewrite with len; reflexivity).
  assert (H0 : nthN b i = nthN (dropN i b) 0) by (rewrite nthN_dropN; f_equal; lia). rewrite H0.
  replace (dropN (i + 1) b) with (dropN 1 (dropN i b)) by (rewrite dropN_dropN; replace (i + 1) with (1 + i) by lia; reflexivity || (f_equal; lia)).
  destruct (dropN i b) as [|x l]; [change (len []) with 0 in Hl; lia|].
  unfold takeN, dropN, nthN. rewrite !Nnat.Nat2N.id. reflexivity.
Qed.
Lemma takeN_first n b : n <= len b -> takeN n b = firsts (N.to_nat n) 0 b.
Proof. intros H. rewrite <- takeN_firsts by lia. rewrite Nnat.N2Nat.id. reflexivity. Qed.
Lemma enc16_wire b i : is_bytes b -> enc16 (wire16 b i) = [nthN b i; nthN b (i + 1)].
Proof.
  intros H. unfold enc16, wire16. pose proof (is_bytes_nth b i H). pose proof (is_bytes_nth b (i + 1) H). repeat f_equal; lia.
Qed.
Lemma enc32_wire b i : is_bytes b -> enc32 (wire32 b i) = [nthN b i; nthN b (i + 1); nthN b (i + 2); nthN b (i + 3)].
Proof.
  intros H. unfold enc32, wire32. pose proof (is_bytes_nth b i H). pose proof (is_bytes_nth b (i + 1) H).
  pose proof (is_bytes_nth b (i + 2) H). pose proof (is_bytes_nth b (i + 3) H). repeat f_equal; lia.
Qed.
Lemma ether_wire_head b : is_bytes b -> 14 <= len b ->
  takeN 14 b = ether_wire {| ef_dst := wire_mac b 0; ef_src := wire_mac b 6; ef_type := wire16 b 12 |}.
Proof. intros Hb Hl. rewrite takeN_first by lia. unfold ether_wire. cbn [ef_dst ef_src ef_type]. rewrite enc16_wire by exact Hb. reflexivity. Qed.
Definition v4_read (b : bytes) : v4_fields :=
  Build_v4_fields 4 5 (nthN b 1 / 4) (nthN b 1 mod 4) (wire16 b 2) (wire16 b 4) false false false 0
    (nthN b 8) (nthN b 9) (wire16 b 10) (wire_addr b 12) (wire_addr b 16).
Lemma v4_wire_head b : is_bytes b -> 20 <= len b -> nthN b 0 = 69 -> wire16 b 6 = 0 -> takeN 20 b = v4_wire (v4_read b).
Proof.
  intros Hb Hl H0 H6. rewrite takeN_first by lia. unfold v4_wire, v4_read. cbn [vf_version vf_ihl vf_dscp vf_ecn vf_total vf_id vf_reserved vf_df vf_mf vf_frag vf_ttl vf_proto vf_checksum vf_src vf_dst].
  rewrite !enc16_wire by exact Hb. cbn [bit]. change (enc16 (0 * 32768 + 0 * 16384 + 0 * 8192 + 0)) with (enc16 0).
  replace (enc16 0) with (enc16 (wire16 b 6)) by (now rewrite H6). rewrite enc16_wire by exact Hb.
  replace (nthN b 1 / 4 * 4 + nthN b 1 mod 4) with (nthN b 1) by lia. change (4 * 16 + 5) with 69. rewrite <- H0. reflexivity.
Qed.
Lemma udp_wire_head b : is_bytes b -> 8 <= len b ->
  takeN 8 b = udp_wire {| uf_src := wire16 b 0; uf_dst := wire16 b 2; uf_length := wire16 b 4; uf_checksum := wire16 b 6 |}.
Proof. intros Hb Hl. rewrite takeN_first by lia. unfold udp_wire. cbn [uf_src uf_dst uf_length uf_checksum]. rewrite !enc16_wire by exact Hb. reflexivity. Qed.
Definition tcp_read (b : bytes) : tcp_fields :=
  Build_tcp_fields (wire16 b 0) (wire16 b 2) (wire32 b 4) (wire32 b 8) 5 0 (wire16 b 12 mod 512) (wire16 b 14) (wire16 b 16) (wire16 b 18).
Lemma tcp_wire_head b : is_bytes b -> 20 <= len b -> nthN b 12 / 2 = 40 -> takeN 20 b = tcp_wire (tcp_read b).
Proof.
  intros Hb Hl H12. rewrite takeN_first by lia. unfold tcp_wire, tcp_read. cbn [tf_src tf_dst tf_seq tf_ack tf_offset tf_reserved tf_flags tf_window tf_checksum tf_pointer].
  replace (5 * 4096 + 0 * 512 + wire16 b 12 mod 512) with (wire16 b 12).
  2: { unfold wire16. pose proof (is_bytes_nth b 12 Hb). pose proof (is_bytes_nth b (12 + 1) Hb). lia. }
  rewrite !enc16_wire, !enc32_wire by exact Hb. reflexivity.
Qed.

(** The parsers' part of the program. *)
Lemma copy_ip_ok E head w proto b ip k : is_bytes b -> ether_new b = Ok b -> ether_payload b = Ok ip -> v4_new ip = Ok ip ->
  plain_ip_word w E proto ip -> w / 8192 mod 2 = 0 ->
  copy_ip head b k =
  k ip (Some [EtherDestination (wire_mac b 0); EtherSource (wire_mac b 6)])
    (head (nthN ip 1 / 4) (nthN ip 1 mod 4) (w / 8192) ++ [V4SetId (wire16 ip 4); V4SetTtl (nthN ip 8);
     V4SetSource (wire_addr ip 12); V4SetDestination (wire_addr ip 16)]).
Proof.
  intros Hb He Hp Hn Hi Hw. assert (H6 : wire16 ip 6 = w) by apply Hi. clear Hi.
  assert (Hbi : is_bytes ip).
  { unfold ether_payload, ether_split in Hp. apply ether_new_len in He. rewrite split_at_ok in Hp by lia.
    cbn [bind] in Hp. apply Ok_inj in Hp. subst ip. apply is_bytes_dropN. exact Hb. }
  unfold copy_ip. rewrite He. cbn [bind].
  destruct (c08_ether b He) as (A1 & A2 & _). rewrite A1, A2. cbn [bind]. rewrite Hp. cbn [bind]. rewrite Hn. cbn [bind].
  apply c02_v4_new_iff in Hn. destruct Hn as (_ & H20 & _).
  unfold v4_ecn, v4_dscp, v4_id, v4_ttl. rewrite !index_ok by lia. cbn [bind].
  rewrite v4_flags_ok by assumption. rewrite H6, Hw. cbn [N.eqb bind]. rewrite get16 by lia. cbn [bind].
  rewrite v4_source_ok, v4_destination_ok by exact H20. cbn [bind]. rewrite land3_mod, shiftr2_div. reflexivity.
Qed.
Definition vs_by (head : N -> N -> N -> list v4_setter) (ip : bytes) : list v4_setter :=
  head (nthN ip 1 / 4) (nthN ip 1 mod 4) (wire16 ip 6 / 8192) ++ [V4SetId (wire16 ip 4); V4SetTtl (nthN ip 8);
     V4SetSource (wire_addr ip 12); V4SetDestination (wire_addr ip 16)].
Definition vs_of := vs_by ecn_then_dscp.
Definition eth_of (b : bytes) : option (list ether_op) := Some [EtherDestination (wire_mac b 0); EtherSource (wire_mac b 6)].

Lemma eth_of_ok b : is_bytes b -> eth_ok (eth_of b).
Proof.
  intros Hb. split; [|reflexivity]. repeat constructor; cbn [ether_op_ok]; unfold mac_ok, wire_mac; repeat split; apply is_bytes_nth; exact Hb.
Qed.
Lemma vs_by_ok head ip : (forall d e f, d < 64 -> e < 4 -> f < 8 -> Forall v4_arg_ok (head d e f)) -> is_bytes ip -> Forall v4_arg_ok (vs_by head ip).
Proof.
  intros Hh Hb. pose proof (is_bytes_nth ip 1 Hb). pose proof (is_bytes_nth ip 8 Hb). pose proof (wire16_lt ip 4 Hb). pose proof (wire16_lt ip 6 Hb).
  apply Forall_app. split; [apply Hh; lia|].
  repeat (apply Forall_cons; [split; [cbn [v4_setter_ok]; unfold u8, u16; try lia; apply addr_ok_wire; exact Hb | cbv beta iota; lia || exact I] | ]). apply Forall_nil.
Qed.
Ltac args_ok := repeat (apply Forall_cons; [split; [cbn [v4_setter_ok]; unfold u8, u16; lia | cbv beta iota; lia || exact I] | ]); apply Forall_nil.
Lemma ecn_then_dscp_ok d e f : d < 64 -> e < 4 -> f < 8 -> Forall v4_arg_ok (ecn_then_dscp d e f).
Proof. intros. unfold ecn_then_dscp. args_ok. Qed.
Lemma dscp_then_ecn_ok d e f : d < 64 -> e < 4 -> f < 8 -> Forall v4_arg_ok (dscp_then_ecn d e f).
Proof. intros. unfold dscp_then_ecn. args_ok. Qed.
Lemma and_flags_ok d e f : d < 64 -> e < 4 -> f < 8 -> Forall v4_arg_ok (and_flags d e f).
Proof. intros. unfold and_flags. args_ok. Qed.
Lemma vs_of_ok ip : is_bytes ip -> Forall v4_arg_ok (vs_of ip).
Proof. apply vs_by_ok. apply ecn_then_dscp_ok. Qed.
Lemma v4_finished_copy E ip proto : is_bytes ip -> v4_new ip = Ok ip -> plain_ip E proto ip ->
  v4_wire (v4_finished (v4_after (vs_of ip)) proto (len ip - 20)) = takeN 20 ip.
Proof.
  intros Hb Hn (H0 & H2 & H6 & H9 & Hv). apply c02_v4_new_iff in Hn. destruct Hn as (_ & H20 & _).
  assert (Hf : v4_fill (v4_after (vs_of ip)) (len ip) proto (wire16 ip 10) = v4_read ip).
  { unfold v4_read, v4_after, vs_of, vs_by, ecn_then_dscp. cbn [app fold_left v4_put v4_zero v4_fill]. rewrite N.lor_0_l, H2, H9. reflexivity. }
  rewrite v4_is_valid_eq in Hv by (assumption || (rewrite H0; cbn; lia)).
  rewrite H0 in Hv. change (69 mod 16 * 4) with 20 in Hv. rewrite v4_wire_head in Hv by assumption. rewrite <- Hf in Hv.
  rewrite v4_fill_zero in Hv. apply Ok_inj in Hv. apply N.eqb_eq in Hv.
  unfold v4_finished. pose proof (wire16_lt ip 2 Hb).
  replace ((20 + (len ip - 20)) mod 65536) with (len ip) by lia. rewrite Hv, Hf. symmetry. apply v4_wire_head; assumption.
Qed.
Lemma ether_layer_copy b : is_bytes b -> 14 <= len b -> wire16 b 12 = 2048 -> ether_layer (eth_of b) = takeN 14 b.
Proof.
  intros Hb Hl H. rewrite ether_wire_head by assumption. rewrite H. reflexivity.
Qed.
(** The frame, layer by layer. *)
Lemma frame_split b ip : ether_new b = Ok b -> ether_payload b = Ok ip -> b = takeN 14 b ++ ip /\ 14 <= len b.
Proof.
  intros He Hp. apply ether_new_len in He. unfold ether_payload, ether_split in Hp. rewrite split_at_ok in Hp by lia.
  cbn [bind] in Hp. apply Ok_inj in Hp. subst ip. rewrite takeN_dropN. split; [reflexivity|lia].
Qed.
Lemma ip_split E w proto ip u : v4_new ip = Ok ip -> plain_ip_word w E proto ip -> v4_payload ip = Ok u -> u = dropN 20 ip /\ 20 <= len ip.
Proof.
  intros Hn (H0 & H2 & _) Hp. pose proof (c07_v4 ip Hn) as Q. cbv zeta in Q. rewrite H0 in Q. change (69 mod 16 * 4) with 20 in Q.
  destruct Q as (H1 & _ & _ & Q & _). rewrite Hp in Q. apply Ok_inj in Q. rewrite H2 in Q, H1.
  split; [|lia]. rewrite Q. f_equal. apply takeN_all. lia.
Qed.

Lemma copy_udp_bytes E head w b ip u : (forall d e f, d < 64 -> e < 4 -> f < 8 -> Forall v4_arg_ok (head d e f)) -> is_bytes b ->
  ether_new b = Ok b -> wire16 b 12 = 0x0800 -> ether_payload b = Ok ip ->
  v4_new ip = Ok ip -> plain_ip_word w E 17 ip -> w / 8192 mod 2 = 0 -> v4_payload ip = Ok u ->
  udp_new u = Ok u -> wire16 u 4 = len u -> len u mod 2 = 0 \/ cursor_eof E = EofKeep ->
  let us := [UdpSet (UdpSetSource (wire16 u 0)); UdpSet (UdpSetDestination (wire16 u 2)); UdpPayload (dropN 8 u)] in
  let f := v4_after (vs_by head ip) in
  copy_udp_by head E b = Ok (takeN 14 b ++ v4_wire (v4_finished f 17 (len u)) ++
    udp_wire (udp_finished (vf_src f) (vf_dst f) (udp_after us) (dropN 8 u)) ++ dropN 8 u).
Proof.
  intros Hh Hb He Ht Hp Hn Hi Hw Hq Hu Hul Hc us f.
  destruct (frame_split b ip He Hp) as [Hbs H14]. destruct (ip_split E w 17 ip u Hn Hi Hq) as [Hus H20].
  assert (Hbi : is_bytes ip) by (rewrite Hbs in Hb; apply is_bytes_app in Hb; apply Hb).
  assert (Hbu : is_bytes u) by (rewrite Hus; apply is_bytes_dropN; exact Hbi).
  unfold copy_udp_by. rewrite (copy_ip_ok E head w 17 b ip) by assumption.
  replace w with (wire16 ip 6) by apply Hi. fold (eth_of b) (vs_by head ip). rewrite Hq. cbn [bind]. rewrite Hu. cbn [bind].
  apply udp_new_iff in Hu. destruct Hu as (_ & H8 & _).
  unfold udp_source, udp_destination, udp_payload. rewrite !get16 by lia. rewrite udp_split_ok by exact H8. cbn [bind].
  set (p := dropN 8 (takeN (N.max 8 (wire16 u 4)) u)).
  assert (Hpu : p = dropN 8 u) by (unfold p; f_equal; apply takeN_all; lia).
  assert (Hlp : len u = 8 + len p) by (rewrite Hpu; autorewrite with len; lia).
  assert (Hli : len ip = 20 + len u) by (rewrite Hus; autorewrite with len; lia).
  assert (H16 : len ip < 65536) by (destruct Hi as (_ & H2 & _); pose proof (wire16_lt ip 2 Hbi); lia).
  assert (Hbp : is_bytes p) by (rewrite Hpu; apply is_bytes_dropN; exact Hbu).
  clearbody p. subst us. rewrite <- Hpu.
  rewrite c33_udp_bytes with (p := p).
  - fold f. rewrite ether_layer_copy, Hlp by assumption. reflexivity.
  - apply eth_of_ok. exact Hb.
  - apply vs_by_ok; assumption.
  - repeat constructor; cbn [udp_op_ok udp_setter_ok]; try (apply wire16_lt; exact Hbu). exact Hbp.
  - left. reflexivity.
  - widths. lia.
  - destruct Hc as [Hc|Hc]; [left; lia|right; exact Hc].
Qed.
(** The UDP layer comes out as it was. *)
Lemma udp_copy_same E ip u f : is_bytes ip -> is_bytes u -> 20 <= len ip -> 8 <= len u <= 65535 -> plain_udp E ip u -> len u mod 2 = 0 \/ cursor_eof E = EofKeep ->
  vf_src f = wire_addr ip 12 -> vf_dst f = wire_addr ip 16 ->
  udp_wire (udp_finished (vf_src f) (vf_dst f)
    (udp_after [UdpSet (UdpSetSource (wire16 u 0)); UdpSet (UdpSetDestination (wire16 u 2)); UdpPayload (dropN 8 u)]) (dropN 8 u)) ++ dropN 8 u = u.
Proof.
  intros Hbi Hbu H20 H8 [Hul Huv] Hc -> ->. set (us := [_; _; _]). set (p := dropN 8 u).
  assert (Hlp : len u = 8 + len p) by (unfold p; autorewrite with len; lia).
  assert (Hw : udp_wire (udp_finished (wire_addr ip 12) (wire_addr ip 16) (udp_after us) p) = takeN 8 u).
  { rewrite c21_udp_is_valid in Huv by (assumption || lia). apply Ok_inj in Huv. apply N.eqb_eq in Huv.
    assert (Hh : takeN 8 u = udp_wire (udp_fill (udp_after us) (len u) (wire16 u 6))).
    { rewrite udp_wire_head by (assumption || lia). rewrite Hul. reflexivity. }
    assert (Hz : zero_field 6 u = udp_wire (udp_fill (udp_after us) (len u) 0) ++ p).
    { rewrite <- (udp_fill_zero _ _ (wire16 u 6)). rewrite <- Hh. unfold p. rewrite takeN_dropN. reflexivity. }
    rewrite Hz in Huv. unfold udp_finished. replace ((8 + len p) mod 65536) with (len u) by lia. rewrite Huv. symmetry. exact Hh. }
  rewrite Hw. apply takeN_dropN.
Qed.
Lemma udp_sizes E w ip u : is_bytes ip -> v4_new ip = Ok ip -> plain_ip_word w E 17 ip -> v4_payload ip = Ok u -> udp_new u = Ok u ->
  20 <= len ip /\ 8 <= len u <= 65535 /\ u = dropN 20 ip /\ len ip = 20 + len u.
Proof.
  intros Hbi Hn Hi Hq Hu. destruct (ip_split E w 17 ip u Hn Hi Hq) as [Hus H20]. apply udp_new_iff in Hu. destruct Hu as (_ & H8 & _).
  assert (len u = len ip - 20) by (rewrite Hus; autorewrite with len; lia).
  destruct Hi as (_ & H2 & _); pose proof (wire16_lt ip 2 Hbi). repeat split; try assumption; lia.
Qed.

(** C55: UDP. *)
Lemma c55_udp : forall E b ip u, is_bytes b ->
  ether_new b = Ok b -> wire16 b 12 = 0x0800 -> ether_payload b = Ok ip ->
  v4_new ip = Ok ip -> plain_ip E 17 ip -> v4_payload ip = Ok u ->
  udp_new u = Ok u -> plain_udp E ip u -> len u mod 2 = 0 \/ cursor_eof E = EofKeep ->
  copy_udp E b = Ok b.
Proof.
  intros E b ip u Hb He Ht Hp Hn Hi Hq Hu Hpu Hc. unfold copy_udp.
  destruct (frame_split b ip He Hp) as [Hbs H14].
  assert (Hbi : is_bytes ip) by (rewrite Hbs in Hb; apply is_bytes_app in Hb; apply Hb).
  destruct (udp_sizes E 0 ip u Hbi Hn Hi Hq Hu) as (H20 & H8 & Hus & Hli).
  assert (Hbu : is_bytes u) by (rewrite Hus; apply is_bytes_dropN; exact Hbi).
  rewrite (copy_udp_bytes E ecn_then_dscp 0 b ip u) by (assumption || reflexivity || (apply Hpu) || (intros; apply ecn_then_dscp_ok; assumption)).
  f_equal. rewrite (udp_copy_same E ip u) by (assumption || reflexivity). fold (vs_of ip).
  replace (len u) with (len ip - 20) by lia. rewrite (v4_finished_copy E) by assumption.
  rewrite Hus, takeN_dropN. symmetry. exact Hbs.
Qed.
(** C55: with [dscp] called before [ecn] the copy is the same frame only if the
    DSCP is below sixteen: [ecn] drops its two upper bits. *)
Lemma c55_order_refuted : forall E b ip u, is_bytes b ->
  ether_new b = Ok b -> wire16 b 12 = 0x0800 -> ether_payload b = Ok ip ->
  v4_new ip = Ok ip -> plain_ip E 17 ip -> v4_payload ip = Ok u ->
  udp_new u = Ok u -> plain_udp E ip u -> len u mod 2 = 0 \/ cursor_eof E = EofKeep ->
  (copy_udp_by dscp_then_ecn E b = Ok b <-> nthN ip 1 / 4 < 16).
Proof.
  intros E b ip u Hb He Ht Hp Hn Hi Hq Hu Hpu Hc.
  destruct (frame_split b ip He Hp) as [Hbs H14].
  assert (Hbi : is_bytes ip) by (rewrite Hbs in Hb; apply is_bytes_app in Hb; apply Hb).
  destruct (udp_sizes E 0 ip u Hbi Hn Hi Hq Hu) as (H20 & H8 & Hus & Hli).
  assert (Hbu : is_bytes u) by (rewrite Hus; apply is_bytes_dropN; exact Hbi).
  rewrite (copy_udp_bytes E dscp_then_ecn 0 b ip u) by (assumption || reflexivity || (apply Hpu) || (intros; apply dscp_then_ecn_ok; assumption)).
  rewrite (udp_copy_same E ip u) by (assumption || reflexivity). split.
  - intros H. apply Ok_inj in H. assert (Hx : nthN b 15 = nthN ip 1 / 4 mod 16 * 4 + nthN ip 1 mod 4).
    { rewrite <- H. rewrite nthN_app2 by (autorewrite with len; lia). replace (15 - len (takeN 14 b)) with 1 by (autorewrite with len; lia). reflexivity. }
    assert (Hy : nthN b 15 = nthN ip 1).
    { rewrite Hbs at 1. rewrite nthN_app2 by (autorewrite with len; lia). f_equal. autorewrite with len; lia. }
    lia.
  - intros Hd. f_equal.
    replace (v4_after (vs_by dscp_then_ecn ip)) with (v4_after (vs_of ip)).
    2: { unfold v4_after, vs_of, vs_by, dscp_then_ecn, ecn_then_dscp. cbn [app fold_left v4_put v4_zero]. rewrite (N.mod_small (nthN ip 1 / 4)) by lia. reflexivity. }
    replace (len u) with (len ip - 20) by lia. rewrite (v4_finished_copy E) by assumption.
    rewrite Hus, takeN_dropN. symmetry. exact Hbs.
Qed.
(** C55: a frame with Don't Fragment set is not reproduced, although the flags read
    are handed to the builder: see C16. *)
Lemma c55_flags_refuted : forall E b ip u, is_bytes b ->
  ether_new b = Ok b -> wire16 b 12 = 0x0800 -> ether_payload b = Ok ip ->
  v4_new ip = Ok ip -> plain_ip_word 0x4000 E 17 ip -> v4_payload ip = Ok u ->
  udp_new u = Ok u -> plain_udp E ip u -> len u mod 2 = 0 \/ cursor_eof E = EofKeep ->
  exists c, copy_udp_by and_flags E b = Ok c /\ len c = len b /\ wire16 c 20 = 2 /\ wire16 b 20 = 0x4000.
Proof.
  intros E b ip u Hb He Ht Hp Hn Hi Hq Hu Hpu Hc.
  destruct (frame_split b ip He Hp) as [Hbs H14].
  assert (Hbi : is_bytes ip) by (rewrite Hbs in Hb; apply is_bytes_app in Hb; apply Hb).
  destruct (udp_sizes E 0x4000 ip u Hbi Hn Hi Hq Hu) as (H20 & H8 & Hus & Hli).
  assert (Hbu : is_bytes u) by (rewrite Hus; apply is_bytes_dropN; exact Hbi).
  rewrite (copy_udp_bytes E and_flags 0x4000 b ip u) by (assumption || reflexivity || (apply Hpu) || (intros; apply and_flags_ok; assumption)).
  rewrite (udp_copy_same E ip u) by (assumption || reflexivity).
  assert (Hb20 : len b = 34 + len u) by (rewrite Hbs; autorewrite with len; lia).
  eexists. split; [reflexivity|]. split; [rewrite !len_app, len_v4_wire; autorewrite with len; lia|]. split.
  - assert (Hg : forall h rest i, i < 20 -> nthN (takeN 14 b ++ v4_wire h ++ rest) (14 + i) = nthN (v4_wire h) i).
    { intros h rest i Hi20. rewrite nthN_app2 by (autorewrite with len; lia).
      replace (14 + i - len (takeN 14 b)) with i by (autorewrite with len; lia). apply nthN_app1. rewrite len_v4_wire. exact Hi20. }
    unfold wire16. change (20 + 1) with (14 + 7). change 20 with (14 + 6) at 1. rewrite !Hg by lia.
    unfold v4_after, vs_by, and_flags. cbn [app fold_left v4_put v4_zero]. destruct Hi as (_ & _ & -> & _). reflexivity.
  - destruct Hi as (_ & _ & <- & _).
    assert (Hg : forall i, nthN b (14 + i) = nthN ip i).
    { intros i. rewrite Hbs at 1. rewrite nthN_app2 by (autorewrite with len; lia). f_equal. autorewrite with len; lia. }
    unfold wire16. rewrite <- !Hg. reflexivity.
Qed.

(** C55: TCP. *)
Lemma c55_tcp : forall E b ip t, is_bytes b ->
  ether_new b = Ok b -> wire16 b 12 = 0x0800 -> ether_payload b = Ok ip ->
  v4_new ip = Ok ip -> plain_ip E 6 ip -> v4_payload ip = Ok t ->
  tcp_new t = Ok t -> plain_tcp E ip t -> len t mod 2 = 0 \/ cursor_eof E = EofKeep ->
  copy_tcp E b = Ok b.
Proof.
  intros E b ip t Hb He Ht Hp Hn Hi Hq Hu [H12 Huv] Hc.
  destruct (frame_split b ip He Hp) as [Hbs H14]. destruct (ip_split E 0 6 ip t Hn Hi Hq) as [Hus H20].
  assert (Hbi : is_bytes ip) by (rewrite Hbs in Hb; apply is_bytes_app in Hb; apply Hb).
  assert (Hbu : is_bytes t) by (rewrite Hus; apply is_bytes_dropN; exact Hbi).
  unfold copy_tcp. rewrite (copy_ip_ok E _ 0 6 b ip) by (assumption || reflexivity).
  replace (0 / 8192) with (wire16 ip 6 / 8192) by (destruct Hi as (_ & _ & -> & _); reflexivity). fold (eth_of b) (vs_by ecn_then_dscp ip) (vs_of ip). rewrite Hq. cbn [bind]. rewrite Hu. cbn [bind].
  apply tcp_new_iff in Hu. destruct Hu as (_ & H8 & _).
  assert (H5 : nthN t 12 / 16 * 4 = 20) by lia.
  unfold tcp_source, tcp_destination, tcp_sequence, tcp_acknowledgment, tcp_window, tcp_pointer, tcp_payload.
  rewrite !get16, !get32, tcp_flags_ok by lia. rewrite tcp_split_ok by lia. rewrite H5. cbn [bind].
  set (p := dropN 20 t).
  assert (Hpu : p = dropN 20 t) by reflexivity.
  assert (Hlp : len t = 20 + len p) by (rewrite Hpu; autorewrite with len; lia).
  assert (Hli : len ip = 20 + len t) by (rewrite Hus; autorewrite with len; lia).
  assert (H16 : len ip < 65536) by (destruct Hi as (_ & H2 & _); pose proof (wire16_lt ip 2 Hbi); lia).
  assert (Hbp : is_bytes p) by (rewrite Hpu; apply is_bytes_dropN; exact Hbu).
  clearbody p.
  rewrite c34_tcp_bytes with (p := p).
  - f_equal. set (us := [_; _; _; _; _; _; _; _]).
    assert (Hv4 : v4_wire (v4_finished (v4_after (vs_of ip)) 6 (20 + len p)) = takeN 20 ip).
    { replace (20 + len p) with (len ip - 20) by lia. apply (v4_finished_copy E); assumption. }
    rewrite Hv4, ether_layer_copy by assumption.
    assert (Ha : vf_src (v4_after (vs_of ip)) = wire_addr ip 12 /\ vf_dst (v4_after (vs_of ip)) = wire_addr ip 16) by (split; reflexivity).
    destruct Ha as [-> ->].
    assert (Hw : tcp_wire (tcp_finished (wire_addr ip 12) (wire_addr ip 16) (tcp_after us) p) = takeN 20 t).
    { rewrite c22_tcp_is_valid in Huv by (assumption || lia). apply Ok_inj in Huv. apply N.eqb_eq in Huv.
      assert (Hh : takeN 20 t = tcp_wire (tcp_fill (tcp_after us) 5 (wire16 t 16))) by (rewrite tcp_wire_head by assumption; reflexivity).
      assert (Hz : zero_field 16 t = tcp_wire (tcp_fill (tcp_after us) 5 0) ++ p).
      { rewrite <- (tcp_fill_zero _ _ (wire16 t 16)). rewrite <- Hh, Hpu, takeN_dropN. reflexivity. }
      rewrite Hz in Huv. unfold tcp_finished. rewrite Huv. symmetry. exact Hh. }
    rewrite Hw, Hpu, takeN_dropN, Hus, takeN_dropN. symmetry. exact Hbs.
  - apply eth_of_ok. exact Hb.
  - apply vs_of_ok. exact Hbi.
  - repeat (apply Forall_cons; [cbn [tcp_op_ok tcp_setter_ok]; unfold u16, u32; first [exact Hbp | apply wire16_lt; exact Hbu | apply wire32_lt; exact Hbu | apply N.mod_lt; discriminate]|]). apply Forall_nil.
  - unfold flags_last, tcp_setters. cbn [flat_map app removelast]. repeat (apply Forall_cons; [intros []|]). apply Forall_nil.
  - left. reflexivity.
  - lia.
  - destruct Hc as [Hc|Hc]; [left; lia|right; exact Hc].
Qed.

Lemma ident_wire_head b : is_bytes b -> 8 <= len b ->
  takeN 8 b = ident_wire {| cf_type := nthN b 0; cf_code := nthN b 1; cf_checksum := wire16 b 2 |} (wire16 b 4) (wire16 b 6).
Proof. intros Hb Hl. rewrite takeN_first by lia. unfold ident_wire, icmp_wire. cbn [cf_type cf_code cf_checksum]. rewrite !enc16_wire by exact Hb. reflexivity. Qed.
Lemma ident_zero t c ck i s p : zero_field 2 (ident_wire {| cf_type := t; cf_code := c; cf_checksum := ck |} i s ++ p) =
  ident_wire {| cf_type := t; cf_code := c; cf_checksum := 0 |} i s ++ p.
Proof.
  assert (Hl : len (ident_wire {| cf_type := t; cf_code := c; cf_checksum := ck |} i s) = 8) by reflexivity.
  rewrite zero_field_patch by (rewrite len_app, Hl; lia). rewrite patch_app1 by (rewrite Hl; cbn; lia). reflexivity.
Qed.
(** C55: ICMP Echo, of any length. *)
Lemma c55_echo : forall E b ip m, is_bytes b ->
  ether_new b = Ok b -> wire16 b 12 = 0x0800 -> ether_payload b = Ok ip ->
  v4_new ip = Ok ip -> plain_ip E 1 ip -> v4_payload ip = Ok m ->
  echo_new m = Ok m -> plain_echo E m -> copy_echo E b = Ok b.
Proof.
  intros E b ip m Hb He Ht Hp Hn Hi Hq Hu [H1 Huv].
  destruct (frame_split b ip He Hp) as [Hbs H14]. destruct (ip_split E 0 1 ip m Hn Hi Hq) as [Hus H20].
  assert (Hbi : is_bytes ip) by (rewrite Hbs in Hb; apply is_bytes_app in Hb; apply Hb).
  assert (Hbu : is_bytes m) by (rewrite Hus; apply is_bytes_dropN; exact Hbi).
  unfold copy_echo. rewrite (copy_ip_ok E _ 0 1 b ip) by (assumption || reflexivity).
  replace (0 / 8192) with (wire16 ip 6 / 8192) by (destruct Hi as (_ & _ & -> & _); reflexivity). fold (eth_of b) (vs_by ecn_then_dscp ip) (vs_of ip). rewrite Hq. cbn [bind]. rewrite Hu. cbn [bind].
  destruct (c08_echo m Hu) as (A1 & _ & A3 & A4). rewrite A1, A3, A4. cbn [bind].
  destruct (typed_inv _ _ _ _ _ c05_echo_new Hu) as (_ & H8 & Hty).
  unfold echo_payload, echo_split. rewrite split_at_ok by lia. cbn [bind].
  set (p := dropN 8 m).
  assert (Hpu : p = dropN 8 m) by reflexivity.
  assert (Hlp : len m = 8 + len p) by (rewrite Hpu; autorewrite with len; lia).
  assert (Hli : len ip = 20 + len m) by (rewrite Hus; autorewrite with len; lia).
  assert (H16 : len ip < 65536) by (destruct Hi as (_ & H2 & _); pose proof (wire16_lt ip 2 Hbi); lia).
  assert (Hbp : is_bytes p) by (rewrite Hpu; apply is_bytes_dropN; exact Hbu).
  clearbody p.
  set (ops := [_; _; _; _]).
  assert (Hops : Forall echo_op_ok ops).
  { apply Forall_cons; [destruct (nthN m 0 =? 8); exact I|]. repeat (apply Forall_cons; [cbn [echo_op_ok]; first [exact Hbp | apply wire16_lt; exact Hbu]|]). apply Forall_nil. }
  assert (Hpp : one_payload (echo_payloads ops) p) by (left; unfold ops; destruct (nthN m 0 =? 8); reflexivity).
  assert (Hk : echo_kind_given ops) by (unfold ops, echo_kind_given; destruct (nthN m 0 =? 8); [left|right]; left; reflexivity).
  assert (Haf : echo_after ops = (nthN m 0, wire16 m 4, wire16 m 6)).
  { unfold ops, echo_after. cbn [fold_left echo_put]. destruct (N.eqb_spec (nthN m 0) 8) as [->|Hne]; [reflexivity|].
    destruct Hty as [Hty|[Hty|[]]]; [congruence|]. rewrite <- Hty. reflexivity. }
  pose proof (c36_echo_bytes E (Some (eth_of b, vs_of ip)) ops p (conj (eth_of_ok b Hb) (vs_of_ok ip Hbi)) Hops Hpp ltac:(widths; lia)) as G.
  rewrite Haf in G. cbv zeta in G. destruct G as [G _]. rewrite (G Hk). f_equal. unfold icmp_outer.
  assert (Hv4 : v4_wire (v4_finished (v4_after (vs_of ip)) 1 (8 + len p)) = takeN 20 ip).
  { replace (8 + len p) with (len ip - 20) by lia. apply (v4_finished_copy E); assumption. }
  rewrite Hv4, ether_layer_copy by assumption. clear G Hv4.
  assert (Hh : takeN 8 m = ident_wire {| cf_type := nthN m 0; cf_code := 0; cf_checksum := wire16 m 2 |} (wire16 m 4) (wire16 m 6)).
  { rewrite ident_wire_head by assumption. rewrite H1. reflexivity. }
  assert (Hz : zero_field 2 m = ident_wire {| cf_type := nthN m 0; cf_code := 0; cf_checksum := 0 |} (wire16 m 4) (wire16 m 6) ++ p).
  { rewrite <- (takeN_dropN 8 m) at 1. rewrite <- Hpu, Hh. apply ident_zero. }
  unfold icmp_is_valid in Huv. rewrite c23_icmp_checksum in Huv by exact Hbu. cbn [bind] in Huv.
  unfold icmp_checksum in Huv. rewrite get16 in Huv by lia. cbn [bind] in Huv. apply Ok_inj in Huv. apply N.eqb_eq in Huv.
  rewrite Hz in Huv. rewrite Huv, <- Hh, <- app_assoc, Hpu, takeN_dropN, Hus, takeN_dropN. symmetry. exact Hbs.
Qed.
Example c55_example : forall E,
  let u := [5; 57; 35; 41; 0; 12; 241; 150; 116; 101; 115; 116] in
  let ip := [69; 12; 0; 32; 48; 10; 0; 0; 64; 17; 76; 180; 127; 0; 0; 1; 127; 0; 0; 2] ++ u in
  let b := [1; 2; 3; 4; 5; 6; 0; 35; 105; 99; 89; 190; 8; 0] ++ ip in
  ether_new b = Ok b /\ ether_payload b = Ok ip /\ v4_new ip = Ok ip /\ plain_ip E 17 ip /\ v4_payload ip = Ok u /\
  udp_new u = Ok u /\ plain_udp E ip u /\ copy_udp E b = Ok b /\ copy_udp_by dscp_then_ecn E b = Ok b /\
  (exists t, tcp_chain E (Some []) [V4SetTtl 64; V4SetDscp 46] [TcpSet (TcpSetWindow 512); TcpPayload [104; 105]; TcpSet (TcpSetFlags 258)] dynamic_new = Ok t /\
     copy_tcp E t = Ok t) /\
  (exists m, echo_chain E (Some (Some [], [V4SetTtl 64; V4SetDscp 46])) [EchoReply; EchoSequence 7; EchoPayload [104; 105; 106]] dynamic_new = Ok m /\
     copy_echo E m = Ok m).
Proof.
  intros E u ip b. unfold plain_ip, plain_ip_word, plain_udp.
  repeat apply conj; try lazymatch goal with |- ex _ => fail | _ => destruct E as [[] [] []]; vm_compute; reflexivity end.
  - destruct E as [[] [] []]; (eexists; split; [vm_compute; reflexivity | vm_compute; reflexivity]).
  - destruct E as [[] [] []]; (eexists; split; [vm_compute; reflexivity | vm_compute; reflexivity]).
Qed.
(** C55: Don't Fragment. *)
Example c55_flags_example : forall E,
  let u := [5; 57; 35; 41; 0; 12; 241; 150; 116; 101; 115; 116] in
  let ip := [69; 12; 0; 32; 48; 10; 64; 0; 64; 17; 12; 180; 127; 0; 0; 1; 127; 0; 0; 2] ++ u in
  let b := [1; 2; 3; 4; 5; 6; 0; 35; 105; 99; 89; 190; 8; 0] ++ ip in
  ether_new b = Ok b /\ ether_payload b = Ok ip /\ v4_new ip = Ok ip /\ plain_ip_word 0x4000 E 17 ip /\ v4_payload ip = Ok u /\
  udp_new u = Ok u /\ plain_udp E ip u /\ copy_udp_by and_flags E b <> Ok b.
Proof.
  intros E u ip b. unfold plain_ip_word, plain_udp.
  repeat apply conj; try (destruct E as [[] [] []]; vm_compute; reflexivity). destruct E as [[] [] []]; vm_compute; discriminate.
Qed.
