(** * SizeProofs: advertised size bounds (C43) and re-parsing (C44). *)
From Verif Require Import Base Enums Ether Ipv4 Ip Udp Tcp Icmp Spec Lemmas ParseProofs SliceProofs AccessProofs.
From Coq Require Import ZifyBool ZifyNat ZifyN.
Ltac Zify.zify_post_hook ::= Z.div_mod_to_equations.

(** ** C43 *)
(** C43: IPv4 header size against header::Min and header::Max. *)
Lemma c43_v4_header_bounds : forall b, v4_no_payload b = Ok b ->
  exists h, v4_header_size b = Ok h /\ h <= v4_header_max /\ (v4_header_min <= h <-> 5 <= nthN b 0 mod 16).
Proof.
  intros b Hn. apply v4_no_payload_iff in Hn. destruct Hn as (_ & H & _).
  rewrite v4_header_size_ok by lia. eexists. split; [reflexivity|]. unfold v4_header_max, v4_header_min. lia.
Qed.
(** C43: TCP header size. *)
Lemma c43_tcp_header_bounds : forall b, is_bytes b -> tcp_new b = Ok b ->
  exists h, tcp_header_size b = Ok h /\ h <= tcp_header_max /\ (tcp_header_min <= h <-> 5 <= nthN b 12 / 16).
Proof.
  intros b Hb Hn. apply tcp_new_iff in Hn. destruct Hn as (_ & H & _). pose proof (is_bytes_nth b 12 Hb).
  unfold tcp_header_size. rewrite tcp_offset_ok by lia. cbn [bind]. eexists. split; [reflexivity|].
  unfold tcp_header_max, tcp_header_min. lia.
Qed.
(** C43: UDP payload size never exceeds payload::Max. *)
Lemma c43_udp_payload_bound : forall b, is_bytes b -> udp_no_payload b = Ok b ->
  exists n, udp_payload_size b = Ok n /\ n <= udp_payload_max.
Proof.
  intros b Hb Hn.
  assert (H : 8 <= len b).
  { destruct (N.ltb_spec (len b) 8); [|lia]. destruct (c03_udp_no_payload b) as [_ H1]. rewrite H1 in Hn by lia. discriminate. }
  rewrite udp_payload_size_ok by exact H. eexists. split; [reflexivity|].
  pose proof (wire16_lt b 4 Hb). unfold udp_payload_max. lia.
Qed.
(** C43: the same does not hold for IPv4, TCP, Ethernet and the two kinds of options. *)
Lemma c43_payload_max_refuted : forall E,
  (exists b n, v4_new b = Ok b /\ rust_slice b /\ v4_payload_size b = Ok n /\ v4_payload_max < n) /\
  (exists b n, tcp_new b = Ok b /\ rust_slice b /\ tcp_payload_size E b = Ok n /\ tcp_payload_max < n) /\
  (exists b n, ether_new b = Ok b /\ rust_slice b /\ ether_payload_size E b = Ok n /\ ether_payload_max < n) /\
  (exists b n, v4opt_new b = Ok b /\ rust_slice b /\ v4opt_payload_size E b = Ok n /\ v4opt_payload_max < n) /\
  (exists b n, tcpopt_new b = Ok b /\ rust_slice b /\ tcpopt_payload_size E b = Ok n /\ tcpopt_payload_max < n).
Proof.
  intros E. split; [|split; [|split; [|split]]].
  - pose proof (len_zeros 65531) as Hz. pose proof (is_bytes_zeros 65531) as Hb.
    set (z := zeros 65531) in *. clearbody z. exists ([69; 0; 255; 255] ++ z). eexists.
    assert (Hl : len ([69; 0; 255; 255] ++ z) = 65535) by (rewrite len_app, Hz; reflexivity).
    assert (E0 : nthN ([69; 0; 255; 255] ++ z) 0 = 69) by reflexivity.
    assert (E2 : wire16 ([69; 0; 255; 255] ++ z) 2 = 65535) by reflexivity.
    split; [|split; [|split]].
    + apply c02_v4_new_iff. rewrite Hl, E0, E2. repeat split; lia.
    + split; [|rewrite Hl; widths; lia]. apply is_bytes_app. split; [repeat constructor|exact Hb].
    + apply v4_payload_size_ok. rewrite Hl. lia.
    + rewrite E0, E2. reflexivity.
  - pose proof (len_zeros 65536) as Hl. pose proof (is_bytes_zeros 65536) as Hb.
    pose proof (nthN_zeros 65536 12) as H12. set (z := zeros 65536) in *. clearbody z. exists z. eexists.
    split; [|split; [|split]].
    + apply tcp_new_iff. rewrite Hl, H12. repeat split; lia.
    + split; [exact Hb|rewrite Hl; widths; lia].
    + unfold tcp_payload_size. rewrite tcp_offset_ok by (rewrite Hl; lia). cbn [bind]. rewrite H12.
      apply usize_sub_ok. lia.
    + rewrite Hl. reflexivity.
  - exists (zeros 1501). eexists. assert (Hl : len (zeros 1501) = 1501) by apply len_zeros.
    split; [apply c01_ether_new; rewrite Hl; lia|]. split; [split; [apply is_bytes_zeros|rewrite Hl; widths; lia]|].
    split; [apply usize_sub_ok; rewrite Hl; lia|]. rewrite Hl. reflexivity.
  - exists (7 :: 40 :: zeros 38). exists 38. split; [reflexivity|]. split; [|split; reflexivity].
    split; [|change (len (7 :: 40 :: zeros 38)) with 40; widths; lia]. repeat constructor.
  - exists (7 :: 40 :: zeros 38). exists 38. split; [reflexivity|]. split; [|split; reflexivity].
    split; [|change (len (7 :: 40 :: zeros 38)) with 40; widths; lia]. repeat constructor.
Qed.

(** ** C44 *)
Lemma index_takeN n b i : i < n -> n <= len b -> index (takeN n b) i = index b i.
Proof. intros H1 H2. rewrite !index_ok by (autorewrite with len; lia). rewrite nthN_takeN by lia. reflexivity. Qed.
Lemma get_u16_takeN n b o : o + 2 <= n -> n <= len b -> get_u16 (takeN n b) o = get_u16 b o.
Proof. intros H1 H2. rewrite !get_u16_ok by (autorewrite with len; lia). rewrite !nthN_takeN by lia. reflexivity. Qed.
Lemma get_u32_takeN n b o : o + 4 <= n -> n <= len b -> get_u32 (takeN n b) o = get_u32 b o.
Proof. intros H1 H2. rewrite !get_u32_ok by (autorewrite with len; lia). rewrite !nthN_takeN by lia. reflexivity. Qed.
Lemma wire16_takeN n b i : i + 2 <= n -> wire16 (takeN n b) i = wire16 b i.
Proof. intros H. unfold wire16. rewrite !nthN_takeN by lia. reflexivity. Qed.
(** C44: IPv4.  The bytes of the packet re-parse to the same packet exactly when
    they make up the minimal 20 bytes; otherwise (IHL and total length both
    small) they are refused. *)
Lemma c44_v4 : forall b, v4_new b = Ok b ->
  let n := N.max (nthN b 0 mod 16 * 4) (wire16 b 2) in
  let c := takeN n b in
  v4_as_ref b = Ok c /\
  (n < 20 -> v4_new c = Err SmallBuffer) /\
  (20 <= n ->
     v4_new c = Ok c /\ v4_as_ref c = Ok c /\
     v4_header c = v4_header b /\ v4_payload c = v4_payload b /\ v4_size c = v4_size b /\
     v4_version c = v4_version b /\ v4_ihl c = v4_ihl b /\ v4_dscp c = v4_dscp b /\ v4_ecn c = v4_ecn b /\
     v4_length c = v4_length b /\ v4_id c = v4_id b /\ v4_flags c = v4_flags b /\
     v4_offset c = v4_offset b /\ v4_ttl c = v4_ttl b /\ v4_protocol c = v4_protocol b /\
     v4_checksum c = v4_checksum b /\ v4_source c = v4_source b /\ v4_destination c = v4_destination b /\
     v4_options c = v4_options b /\ forall E, v4_is_valid E c = v4_is_valid E b).
Proof.
  intros b Hn n c. pose proof (c07_v4 b Hn) as (Hb1 & Hsp & Hh & Hp & Happ & Hlh & Hhs & Hps & Hz & Ha).
  set (h := nthN b 0 mod 16 * 4) in *. fold n in Hb1, Hsp, Hp, Happ, Hps, Hz, Ha. fold c in Ha, Hp, Happ, Hsp, Hps.
  pose proof Hn as Hn'. apply c02_v4_new_iff in Hn'. destruct Hn' as (_ & H1 & H2 & H3 & H4).
  assert (Hlc : len c = n) by (unfold c; autorewrite with len; lia).
  split; [exact Ha|]. split; [intros Hlt; destruct (c02_v4_new c) as (Hx & _); apply Hx; lia|]. intros Hge.
  assert (E0 : nthN c 0 = nthN b 0) by (apply nthN_takeN; lia).
  assert (E2 : wire16 c 2 = wire16 b 2) by (apply wire16_takeN; lia).
  assert (Hnc : v4_new c = Ok c).
  { apply c02_v4_new_iff. rewrite E0, E2. fold h. repeat split; lia. }
  pose proof (c07_v4 c Hnc) as (Cb1 & Csp & Ch & Cp & Capp & Clh & Chs & Cps & Cz & Ca).
  rewrite E0, E2 in *. fold h n in Csp, Ch, Cp, Cz, Ca.
  assert (Tc : takeN n c = c) by (apply takeN_all; lia).
  assert (Th : takeN h c = takeN h b) by (unfold c; rewrite takeN_takeN; f_equal; lia).
  rewrite Tc in *. rewrite Th in *.
  assert (Hch : v4_header c = v4_header b) by (rewrite Hh; exact Ch).
  split; [exact Hnc|]. split; [exact Ca|].
  split; [exact Hch|]. split; [rewrite Cp, Hp; reflexivity|]. split; [rewrite Cz, Hz; reflexivity|].
  assert (Hck : v4_checksum c = v4_checksum b) by (apply get_u16_takeN; lia).
  assert (Hix : forall i, i < 20 -> index c i = index b i) by (intros i Hi; apply index_takeN; lia).
  assert (Hg : forall o, o + 2 <= 20 -> get_u16 c o = get_u16 b o) by (intros o Ho; apply get_u16_takeN; lia).
  unfold v4_version, v4_ihl, v4_dscp, v4_ecn, v4_length, v4_id, v4_flags, v4_offset, v4_ttl, v4_protocol, v4_source, v4_destination.
  rewrite !Hix, !Hg by lia. do 13 (split; [first [reflexivity|exact Hck]|]). split.
  - unfold v4_options, v4_ihl. rewrite Hix by lia. rewrite index_ok by lia. cbn [bind]. rewrite land15_mod. fold h.
    unfold slice. rewrite Hlc. destruct (N.leb_spec 20 h); cbn [andb]; [|reflexivity].
    destruct (N.leb_spec h n); [|lia]. destruct (N.leb_spec h (len b)); [|lia]. f_equal.
    unfold c. rewrite !takeN_dropN_comm. f_equal. rewrite takeN_takeN. f_equal. lia.
  - intros E. unfold v4_is_valid. rewrite Hch, Hck. reflexivity.
Qed.
Lemma c44_v4_as_ref_refused_refuted : exists b, v4_new b = Ok b /\ is_bytes b /\
  exists c, v4_as_ref b = Ok c /\ v4_new c = Err SmallBuffer.
Proof. exists (66 :: zeros 19). split; [reflexivity|]. split; [repeat constructor|]. eexists; split; reflexivity. Qed.
(** C44: UDP. *)
Lemma c44_udp : forall b, udp_new b = Ok b ->
  exists c, udp_as_ref b = Ok c /\ udp_new c = Ok c /\ udp_as_ref c = Ok c /\
  udp_header c = udp_header b /\ udp_payload c = udp_payload b /\ udp_size c = udp_size b /\
  udp_source c = udp_source b /\ udp_destination c = udp_destination b /\
  udp_length c = udp_length b /\ udp_checksum c = udp_checksum b.
Proof.
  intros b Hn. pose proof (c07_udp b Hn) as (Hb1 & Hsp & Hh & Hp & Happ & Hlh & Hhs & Hps & Hz & Ha).
  set (n := N.max 8 (wire16 b 4)) in *. set (c := takeN n b) in *. exists c.
  pose proof Hn as Hn'. apply udp_new_iff in Hn'. destruct Hn' as (_ & H1 & H2).
  assert (Hlc : len c = n) by (unfold c; autorewrite with len; lia).
  assert (E4 : wire16 c 4 = wire16 b 4) by (apply wire16_takeN; lia).
  assert (Hnc : udp_new c = Ok c) by (apply udp_new_iff; rewrite E4; repeat split; lia).
  pose proof (c07_udp c Hnc) as (Cb1 & Csp & Ch & Cp & Capp & Clh & Chs & Cps & Cz & Ca).
  rewrite E4 in *. fold n in Csp, Ch, Cp, Cz, Ca.
  assert (Tc : takeN n c = c) by (apply takeN_all; lia).
  assert (Th : takeN 8 c = takeN 8 b) by (unfold c; rewrite takeN_takeN; f_equal; lia).
  rewrite Tc in *. rewrite Th in *.
  split; [exact Ha|]. split; [exact Hnc|]. split; [exact Ca|]. split; [rewrite Hh; exact Ch|].
  split; [rewrite Hp; exact Cp|]. split; [rewrite Hz; exact Cz|].
  unfold udp_source, udp_destination, udp_length, udp_checksum.
  repeat split; apply get_u16_takeN; lia.
Qed.
(** C44: Ethernet, TCP, ICMP and echo: as_ref is the whole buffer. *)
Lemma c44_whole_buffer : forall E b, rust_slice b ->
  (ether_new b = Ok b -> ether_as_ref E b = Ok b) /\
  (tcp_new b = Ok b -> tcp_as_ref E b = Ok b) /\
  (icmp_new b = Ok b -> icmp_as_ref E b = Ok b) /\
  (echo_new b = Ok b -> echo_as_ref E b = Ok b).
Proof.
  intros E b Hr. repeat split; intros Hn.
  - apply (c07_ether E b Hr Hn).
  - apply (c07_tcp E b Hr Hn).
  - apply (c07_icmp E b Hr Hn).
  - apply (c07_echo E b Hr Hn).
Qed.
(** C44: ICMP information and timestamp: as_ref is the message without what follows it;
    it parses, and shows the same fields. *)
Lemma c44_information : forall E b, information_new b = Ok b ->
  exists c, information_as_ref E b = Ok c /\ c = takeN 8 b /\ information_new c = Ok c /\ information_as_ref E c = Ok c /\
  information_header c = information_header b /\ information_payload c = Ok [] /\ information_size E c = information_size E b /\
  information_is_request c = information_is_request b /\ information_is_reply c = information_is_reply b /\
  information_identifier c = information_identifier b /\ information_sequence c = information_sequence b.
Proof.
  intros E b Hn. pose proof (c07_information E b Hn) as (_ & Hh & Hp & _ & _ & _ & _ & Hz & Ha).
  destruct (typed_inv _ _ _ _ _ c05_information_new Hn) as (_ & Hl & Hk).
  exists (takeN 8 b). split; [exact Ha|]. split; [reflexivity|].
  assert (Hlc : len (takeN 8 b) = 8) by (autorewrite with len; lia).
  assert (Hn0 : nthN (takeN 8 b) 0 = nthN b 0) by (apply nthN_takeN; lia).
  assert (Hnc : information_new (takeN 8 b) = Ok (takeN 8 b)).
  { apply (c05_information_new (takeN 8 b)); rewrite ?Hlc, ?Hn0; [lia|exact Hk]. }
  pose proof (c07_information E _ Hnc) as (_ & Ch & Cp & _ & _ & _ & _ & Cz & Ca).
  rewrite (takeN_all 8 (takeN 8 b)) in Ch, Ca by lia. rewrite (dropN_all 8 (takeN 8 b)) in Cp by lia.
  split; [exact Hnc|]. split; [exact Ca|]. split; [rewrite Hh; exact Ch|]. split; [exact Cp|]. split; [rewrite Hz; exact Cz|].
  unfold information_is_request, information_is_reply, information_identifier, information_sequence.
  rewrite !index_ok by lia. rewrite Hn0. split; [reflexivity|]. split; [reflexivity|]. split; apply get_u16_takeN; lia.
Qed.
Lemma c44_timestamp : forall E b, timestamp_new b = Ok b ->
  exists c, timestamp_as_ref E b = Ok c /\ c = takeN 20 b /\ timestamp_new c = Ok c /\ timestamp_as_ref E c = Ok c /\
  timestamp_header c = timestamp_header b /\ timestamp_payload c = Ok (takeN 12 (dropN 8 b)) /\ timestamp_size E c = timestamp_size E b /\
  timestamp_is_request c = timestamp_is_request b /\ timestamp_is_reply c = timestamp_is_reply b /\
  timestamp_identifier c = timestamp_identifier b /\ timestamp_sequence c = timestamp_sequence b /\
  timestamp_originate c = timestamp_originate b /\ timestamp_receive c = timestamp_receive b /\ timestamp_transmit c = timestamp_transmit b.
Proof.
  intros E b Hn. pose proof (c07_timestamp E b Hn) as (_ & Hh & Hp & _ & _ & _ & _ & Hz & Ha).
  destruct (typed_inv _ _ _ _ _ c05_timestamp_new Hn) as (_ & Hl & Hk).
  exists (takeN 20 b). split; [exact Ha|]. split; [reflexivity|].
  assert (Hlc : len (takeN 20 b) = 20) by (autorewrite with len; lia).
  assert (Hn0 : nthN (takeN 20 b) 0 = nthN b 0) by (apply nthN_takeN; lia).
  assert (Hnc : timestamp_new (takeN 20 b) = Ok (takeN 20 b)).
  { apply (c05_timestamp_new (takeN 20 b)); rewrite ?Hlc, ?Hn0; [lia|exact Hk]. }
  pose proof (c07_timestamp E _ Hnc) as (_ & Ch & Cp & _ & _ & _ & _ & Cz & Ca).
  rewrite (takeN_all 20 (takeN 20 b)) in Ca by lia. rewrite takeN_takeN in Ch. change (N.min 8 20) with 8 in Ch.
  split; [exact Hnc|]. split; [exact Ca|]. split; [rewrite Hh; exact Ch|]. split; [rewrite Cp; f_equal; symmetry; apply (takeN_dropN_comm 12 8)|].
  split; [rewrite Hz; exact Cz|].
  unfold timestamp_is_request, timestamp_is_reply, timestamp_identifier, timestamp_sequence, timestamp_originate, timestamp_receive, timestamp_transmit.
  rewrite !index_ok by lia. rewrite Hn0. split; [reflexivity|]. split; [reflexivity|].
  repeat split; (apply get_u16_takeN || apply get_u32_takeN); lia.
Qed.
(** C44: to_owned copies the whole buffer, so every accessor agrees. *)
Lemma c44_to_owned : forall b,
  ether_to_owned b = b /\ v4_to_owned b = b /\ v6_to_owned b = b /\ udp_to_owned b = b /\ tcp_to_owned b = b /\
  icmp_to_owned b = b /\ echo_to_owned b = b /\ information_to_owned b = b /\ timestamp_to_owned b = b /\
  parameter_problem_to_owned b = b /\ redirect_message_to_owned b = b /\ previous_to_owned b = b /\
  ip_to_owned (V4 b) = V4 b /\ ip_to_owned (V6 b) = V6 b.
Proof. intros b. repeat split. Qed.
Example c44_example : let b := 69 :: 0 :: 0 :: 22 :: repeat 7 30%nat in
  v4_new b = Ok b /\ v4_as_ref b = Ok (takeN 22 b) /\ v4_payload (takeN 22 b) = Ok [7; 7].
Proof. repeat split. Qed.
