(** * AccessProofs: field accessors (C08, C09). *)
From Verif Require Import Base Enums Ether Ipv4 Ip Udp Tcp Icmp Spec Lemmas ParseProofs SliceProofs.
From Coq Require Import ZifyBool ZifyNat ZifyN.
Ltac Zify.zify_post_hook ::= Z.div_mod_to_equations.

(** ** C08 *)
Lemma wire16_lt b i : is_bytes b -> wire16 b i < 65536.
Proof.
  intros H. unfold wire16. pose proof (is_bytes_nth b i H). pose proof (is_bytes_nth b (i + 1) H). lia.
Qed.
Lemma wire32_lt b i : is_bytes b -> wire32 b i < 4294967296.
Proof.
  intros H. unfold wire32. pose proof (is_bytes_nth b i H). pose proof (is_bytes_nth b (i + 1) H).
  pose proof (is_bytes_nth b (i + 2) H). pose proof (is_bytes_nth b (i + 3) H). lia.
Qed.
Lemma ip_flags_from_bits x : x < 8 ->
  flags_from_bits ip_flags_all x = if x mod 2 =? 0 then Ok x else Err InvalidValue.
Proof.
  intros H. unfold flags_from_bits.
  assert (Hb : (N.ldiff x ip_flags_all =? 0) = (x mod 2 =? 0)).
  { apply Bool.eqb_prop.
    apply (sweep (fun x => Bool.eqb (N.ldiff x ip_flags_all =? 0) (x mod 2 =? 0)) 8); [reflexivity|exact H]. }
  rewrite Hb. reflexivity.
Qed.
Lemma v4_flags_ok b : is_bytes b -> 20 <= len b ->
  v4_flags b = if wire16 b 6 / 8192 mod 2 =? 0 then Ok (wire16 b 6 / 8192) else Panic.
Proof.
  intros Hb H. unfold v4_flags. rewrite get16 by lia. cbn [bind]. rewrite shiftr13_div.
  pose proof (wire16_lt b 6 Hb). rewrite ip_flags_from_bits by lia.
  destruct (_ =? 0); reflexivity.
Qed.
Lemma v4_offset_ok b : 20 <= len b -> v4_offset b = Ok (wire16 b 6 mod 8192).
Proof. intros H. unfold v4_offset. rewrite get16 by lia. cbn [bind]. rewrite land8191_mod. reflexivity. Qed.
Lemma v4_options_ok b : 20 <= len b -> nthN b 0 mod 16 * 4 <= len b ->
  v4_options b = if nthN b 0 mod 16 <? 5 then Panic
                 else Ok (takeN (nthN b 0 mod 16 * 4 - 20) (dropN 20 b)).
Proof.
  intros H H1. unfold v4_options. rewrite v4_ihl_ok by lia. cbn [bind].
  destruct (N.ltb_spec (nthN b 0 mod 16) 5).
  - apply slice_panic. lia.
  - rewrite slice_ok by lia. reflexivity.
Qed.
(** C08: the accessors of an accepted IPv4 packet: what each returns, and the
    only two panics. *)
Lemma c08_v4 : forall b, is_bytes b -> v4_no_payload b = Ok b ->
  let ihl := nthN b 0 mod 16 in
  v4_version b = Ok 4 /\ v4_ihl b = Ok ihl /\
  v4_dscp b = Ok (nthN b 1 / 4) /\ v4_ecn b = Ok (nthN b 1 mod 4) /\
  v4_length b = Ok (wire16 b 2) /\ v4_id b = Ok (wire16 b 4) /\
  v4_offset b = Ok (wire16 b 6 mod 8192) /\
  v4_ttl b = Ok (nthN b 8) /\ v4_protocol b = Ok (ip_protocol_from (nthN b 9)) /\
  v4_checksum b = Ok (wire16 b 10) /\
  v4_source b = Ok (wire_addr b 12) /\ v4_destination b = Ok (wire_addr b 16) /\
  (wire16 b 6 / 8192 mod 2 = 0 -> v4_flags b = Ok (wire16 b 6 / 8192)) /\
  (wire16 b 6 / 8192 mod 2 = 1 -> v4_flags b = Panic) /\
  (5 <= ihl -> v4_options b = Ok (takeN (ihl * 4 - 20) (dropN 20 b))) /\
  (ihl < 5 -> v4_options b = Panic).
Proof.
  intros b Hb Hn ihl. apply v4_no_payload_iff in Hn. destruct Hn as (_ & H & Hv & Hi).
  rewrite v4_flags_ok, v4_options_ok, v4_ihl_ok, v4_length_ok, v4_offset_ok by (assumption || lia).
  fold ihl. unfold v4_version, v4_dscp, v4_ecn, v4_id, v4_ttl, v4_protocol, v4_checksum, v4_source, v4_destination.
  rewrite !index_ok by lia. rewrite !get16 by lia. cbn [bind]. rewrite shiftr4_div, shiftr2_div, land3_mod, Hv.
  split; [reflexivity|]. do 11 (split; [reflexivity|]).
  split; [intros ->; reflexivity|]. split; [intros ->; reflexivity|].
  split; intros H1; destruct (N.ltb_spec ihl 5); try lia; reflexivity.
Qed.
Example c08_v4_example :
  let b := 70 :: 5 :: 0 :: 24 :: 1 :: 2 :: 64 :: 7 :: 9 :: 17 :: repeat 1 14%nat in
  v4_no_payload b = Ok b /\ v4_flags b = Ok IP_DONT_FRAGMENT /\ v4_options b = Ok [1; 1; 1; 1] /\
  v4_dscp b = Ok 1 /\ v4_ecn b = Ok 1 /\ v4_offset b = Ok 7 /\ v4_protocol b = Ok IP_Udp.
Proof. repeat split. Qed.
(** C08: a fragment with More Fragments set, and a header with IHL 4, both
    accepted, make the accessors panic. *)
Lemma c08_v4_accessors_total_refuted :
  (exists b, v4_new b = Ok b /\ is_bytes b /\ v4_flags b = Panic) /\
  (exists b, v4_new b = Ok b /\ is_bytes b /\ v4_options b = Panic).
Proof.
  split.
  - exists (69 :: 0 :: 0 :: 20 :: 0 :: 0 :: 32 :: repeat 0 13%nat). repeat split. repeat constructor.
  - exists (68 :: 0 :: 0 :: 20 :: repeat 0 16%nat). repeat split. repeat constructor.
Qed.

(** C08: the accessors of an Ethernet frame never panic. *)
Lemma c08_ether : forall b, ether_new b = Ok b ->
  ether_destination b = Ok (wire_mac b 0) /\ ether_source b = Ok (wire_mac b 6) /\
  ether_get_protocol b = Ok (ether_protocol_from (wire16 b 12)).
Proof.
  intros b Hn.
  assert (H : 14 <= len b).
  { destruct (N.ltb_spec (len b) 14); [|lia]. destruct (c01_ether_new b) as [_ H1]. rewrite H1 in Hn by lia. discriminate. }
  split; [|split].
  - apply (hw_slice b 0). lia.
  - apply (hw_slice b 6). lia.
  - unfold ether_get_protocol. rewrite get16 by lia. reflexivity.
Qed.
(** C08: the accessors of a UDP datagram never panic. *)
Lemma c08_udp : forall b, udp_no_payload b = Ok b ->
  udp_source b = Ok (wire16 b 0) /\ udp_destination b = Ok (wire16 b 2) /\
  udp_length b = Ok (wire16 b 4) /\ udp_checksum b = Ok (wire16 b 6).
Proof.
  intros b Hn.
  assert (H : 8 <= len b).
  { destruct (N.ltb_spec (len b) 8); [|lia]. destruct (c03_udp_no_payload b) as [_ H1]. rewrite H1 in Hn by lia. discriminate. }
  repeat split; apply get16; lia.
Qed.
Lemma tcp_flags_from_bits x : flags_from_bits tcp_flags_all (x mod 512) = Ok (x mod 512).
Proof.
  unfold flags_from_bits, tcp_flags_all. rewrite <- land511_mod.
  replace (N.ldiff (N.land x 511) 511) with 0; [reflexivity|].
  symmetry. apply N.bits_inj; intros n; rewrite N.ldiff_spec, N.land_spec, N.bits_0; destruct (N.testbit x n), (N.testbit 511 n); reflexivity.
Qed.
Lemma tcp_flags_ok b : 20 <= len b -> tcp_flags b = Ok (wire16 b 12 mod 512).
Proof.
  intros H. unfold tcp_flags. rewrite get16 by lia. cbn [bind]. rewrite land511_mod, tcp_flags_from_bits. reflexivity.
Qed.
Lemma tcp_options_ok b : 20 <= len b -> nthN b 12 / 16 * 4 <= len b ->
  tcp_options b = if nthN b 12 / 16 <? 5 then Panic
                  else Ok (takeN (nthN b 12 / 16 * 4 - 20) (dropN 20 b)).
Proof.
  intros H H1. unfold tcp_options. rewrite tcp_offset_ok by lia. cbn [bind].
  destruct (N.ltb_spec (nthN b 12 / 16) 5).
  - apply slice_panic. lia.
  - rewrite slice_ok by lia. reflexivity.
Qed.
(** C08: the accessors of an accepted TCP segment: options() panics exactly when
    the data offset is below 5, nothing else panics. *)
Lemma c08_tcp : forall b, tcp_new b = Ok b ->
  let offset := nthN b 12 / 16 in
  tcp_source b = Ok (wire16 b 0) /\ tcp_destination b = Ok (wire16 b 2) /\
  tcp_sequence b = Ok (wire32 b 4) /\ tcp_acknowledgment b = Ok (wire32 b 8) /\
  tcp_offset b = Ok offset /\ tcp_flags b = Ok (wire16 b 12 mod 512) /\
  tcp_window b = Ok (wire16 b 14) /\ tcp_checksum b = Ok (wire16 b 16) /\
  tcp_pointer b = Ok (wire16 b 18) /\
  (5 <= offset -> tcp_options b = Ok (takeN (offset * 4 - 20) (dropN 20 b))) /\
  (offset < 5 -> tcp_options b = Panic).
Proof.
  intros b Hn offset. apply tcp_new_iff in Hn. destruct Hn as (_ & H & Ho).
  rewrite tcp_options_ok, tcp_flags_ok, tcp_offset_ok by lia. fold offset.
  unfold tcp_source, tcp_destination, tcp_sequence, tcp_acknowledgment, tcp_window, tcp_checksum, tcp_pointer.
  rewrite !get16, !get32 by lia. do 9 (split; [reflexivity|]).
  split; intros H1; destruct (N.ltb_spec offset 5); try lia; reflexivity.
Qed.
(** C08: the accessors of ICMP packets never panic. *)
Lemma c08_icmp : forall b, icmp_new b = Ok b ->
  icmp_get_kind b = Ok (icmp_kind_from (nthN b 0)) /\ icmp_code b = Ok (nthN b 1) /\
  icmp_checksum b = Ok (wire16 b 2).
Proof.
  intros b Hn.
  assert (H : 4 <= len b).
  { destruct (N.ltb_spec (len b) 4); [|lia]. destruct (c05_icmp_new b) as [_ H1]. rewrite H1 in Hn by lia. discriminate. }
  unfold icmp_get_kind, icmp_code, icmp_checksum. rewrite !index_ok, get16 by lia. repeat split.
Qed.
Ltac kind_solve :=
  match goal with |- _ = (?x =? ?n) =>
    destruct (N.eqb_spec x n) as [Heq|Hne];
    [ rewrite Heq; reflexivity
    | destruct (icmp_kind_from x) eqn:Hk; try reflexivity; exfalso; apply Hne;
      rewrite <- (icmp_kind_into_from x), Hk; reflexivity ]
  end.
(** C08: typed ICMP packets: is_request / is_reply compare the type byte. *)
Lemma c08_echo : forall b, echo_new b = Ok b ->
  echo_is_request b = Ok (nthN b 0 =? 8) /\ echo_is_reply b = Ok (nthN b 0 =? 0) /\
  echo_identifier b = Ok (wire16 b 4) /\ echo_sequence b = Ok (wire16 b 6).
Proof.
  intros b Hn. destruct (typed_inv _ _ _ _ _ c05_echo_new Hn) as (_ & H & _).
  unfold echo_is_request, echo_is_reply, echo_identifier, echo_sequence.
  rewrite !index_ok, !get16 by lia. cbn [bind]. split; [|split; [|split; reflexivity]].
  - f_equal. kind_solve.
  - f_equal. kind_solve.
Qed.
Lemma c08_information : forall b, information_new b = Ok b ->
  information_is_request b = Ok (nthN b 0 =? 15) /\ information_is_reply b = Ok (nthN b 0 =? 16) /\
  information_identifier b = Ok (wire16 b 4) /\ information_sequence b = Ok (wire16 b 6).
Proof.
  intros b Hn. destruct (typed_inv _ _ _ _ _ c05_information_new Hn) as (_ & H & _).
  unfold information_is_request, information_is_reply, information_identifier, information_sequence.
  rewrite !index_ok, !get16 by lia. cbn [bind]. split; [|split; [|split; reflexivity]].
  - f_equal. kind_solve.
  - f_equal. kind_solve.
Qed.
Lemma c08_timestamp : forall b, timestamp_new b = Ok b ->
  timestamp_is_request b = Ok (nthN b 0 =? 13) /\ timestamp_is_reply b = Ok (nthN b 0 =? 14) /\
  timestamp_identifier b = Ok (wire16 b 4) /\ timestamp_sequence b = Ok (wire16 b 6) /\
  timestamp_originate b = Ok (wire32 b 8) /\ timestamp_receive b = Ok (wire32 b 12) /\
  timestamp_transmit b = Ok (wire32 b 16).
Proof.
  intros b Hn. destruct (typed_inv _ _ _ _ _ c05_timestamp_new Hn) as (_ & H & _).
  unfold timestamp_is_request, timestamp_is_reply, timestamp_identifier, timestamp_sequence,
    timestamp_originate, timestamp_receive, timestamp_transmit.
  rewrite !index_ok, !get16, !get32 by lia. cbn [bind]. split; [|split; [|repeat split; reflexivity]].
  - f_equal. kind_solve.
  - f_equal. kind_solve.
Qed.
Example c08_icmp_examples :
  timestamp_is_reply (14 :: repeat 1 19%nat) = Ok true /\ echo_is_request [8; 0; 0; 0; 0; 0; 0; 0] = Ok true /\
  information_identifier [15; 0; 0; 0; 1; 2; 0; 0] = Ok 258.
Proof. repeat split. Qed.

(** ** C09: the wire layouts *)
Ltac fields_ok H := unfold u8, u16, u32, addr_ok, mac_ok, is_bytes in H.
Lemma enc16_wire16 v : wire16 (enc16 v) 0 = v.
Proof. apply enc16_dec. Qed.
Lemma nthN_cons_S x b i p : i = N.pos p -> nthN (x :: b) i = nthN b (N.pred i).
Proof. intros ->. rewrite nthN_cons by lia. f_equal. lia. Qed.
(** C09: Ethernet. *)
Lemma c09_ether : forall f rest, ether_fields_ok f ->
  let b := ether_wire f ++ rest in
  ether_new b = Ok b /\
  ether_destination b = Ok (ef_dst f) /\ ether_source b = Ok (ef_src f) /\
  ether_get_protocol b = Ok (ether_protocol_from (ef_type f)) /\ ether_payload b = Ok rest.
Proof.
  intros f rest (Hd & Hs & Ht) b.
  assert (Hl : len (ether_wire f) = 14) by reflexivity.
  assert (Hb : 14 <= len b) by (unfold b; autorewrite with len; lia).
  assert (Hn : ether_new b = Ok b) by (apply c01_ether_new; exact Hb).
  destruct (c08_ether b Hn) as (H1 & H2 & H3). rewrite H1, H2, H3.
  split; [exact Hn|].
  destruct f as [[d0 d1 d2 d3 d4 d5] [s0 s1 s2 s3 s4 s5] t]. split; [reflexivity|]. split; [reflexivity|].
  split.
  - f_equal. f_equal. unfold u16 in Ht. cbn [ef_type] in *. exact (enc16_dec t).
  - unfold ether_payload, ether_split. rewrite split_at_ok by exact Hb. reflexivity.
Qed.
Lemma enc16_pair a b : b < 256 -> enc16 (a * 256 + b) = [a; b].
Proof. intros H. unfold enc16. f_equal; [lia|]. f_equal. lia. Qed.
Lemma enc32_quad a b c d : b < 256 -> c < 256 -> d < 256 ->
  enc32 (((a * 256 + b) * 256 + c) * 256 + d) = [a; b; c; d].
Proof.
  intros Hb Hc Hd. unfold enc32. f_equal; [lia|]. f_equal; [lia|]. f_equal; [lia|]. f_equal. lia.
Qed.
Lemma flag_byte x y : x < 256 -> y < 256 ->
  enc16 (bit (128 <=? x) * 32768 + bit (64 <=? x mod 128) * 16384 + bit (32 <=? x mod 64) * 8192
         + (x mod 32 * 256 + y)) = [x; y].
Proof.
  intros Hx Hy. rewrite <- (enc16_pair x y Hy). f_equal. unfold bit.
  destruct (N.leb_spec 128 x), (N.leb_spec 64 (x mod 128)), (N.leb_spec 32 (x mod 64)); lia.
Qed.
Lemma flagword f : v4_fields_ok f ->
  let w := bit (vf_reserved f) * 32768 + bit (vf_df f) * 16384 + bit (vf_mf f) * 8192 + vf_frag f in
  w < 65536 /\ w mod 8192 = vf_frag f /\
  w / 8192 = bit (vf_reserved f) * 4 + bit (vf_df f) * 2 + bit (vf_mf f).
Proof.
  intros (_ & _ & _ & _ & _ & _ & H & _) w. unfold w, bit.
  destruct (vf_reserved f), (vf_df f), (vf_mf f); lia.
Qed.
Lemma is_bytes_v4_wire f : v4_fields_ok f -> is_bytes (v4_wire f).
Proof.
  intros Hf. pose proof (flagword f Hf) as (Hw & _).
  destruct Hf as (H1 & H2 & H3 & H4 & H5 & H6 & H7 & H8 & H9 & H10 & H11 & H12).
  unfold v4_wire. rewrite !is_bytes_app. repeat match goal with |- _ /\ _ => split end;
    try (apply is_bytes_enc16; assumption); try assumption; repeat constructor; unfold u8; assumption || lia.
Qed.
(** C09: IPv4, for any options and payload after the fixed header.  flags() is
    right exactly when MF is clear, and shows the reserved bit as bit 2, the
    crate's MORE_FRAGMENTS. *)
Lemma c09_v4 : forall f rest, v4_fields_ok f -> vf_version f = 4 ->
  vf_ihl f * 4 <= 20 + len rest ->
  let b := v4_wire f ++ rest in
  v4_no_payload b = Ok b /\
  v4_version b = Ok 4 /\ v4_ihl b = Ok (vf_ihl f) /\
  v4_dscp b = Ok (vf_dscp f) /\ v4_ecn b = Ok (vf_ecn f) /\
  v4_length b = Ok (vf_total f) /\ v4_id b = Ok (vf_id f) /\
  v4_flags b = (if vf_mf f then Panic
                else Ok (bit (vf_reserved f) * IP_MORE_FRAGMENTS + bit (vf_df f) * IP_DONT_FRAGMENT)) /\
  v4_offset b = Ok (vf_frag f) /\
  v4_ttl b = Ok (vf_ttl f) /\ v4_protocol b = Ok (ip_protocol_from (vf_proto f)) /\
  v4_checksum b = Ok (vf_checksum f) /\
  v4_source b = Ok (vf_src f) /\ v4_destination b = Ok (vf_dst f).
Proof.
  intros f rest Hf Hv Hi b. pose proof (flagword f Hf) as (_ & Hw1 & Hw2).
  assert (Hl : len b = 20 + len rest).
  { unfold b. rewrite len_app. reflexivity. }
  assert (H0 : nthN b 0 = vf_version f * 16 + vf_ihl f) by reflexivity.
  pose proof Hf as (H1 & H2 & H3 & H4 & H5 & H6 & H7 & H8 & H9 & H10 & H11 & H12).
  assert (Hn : v4_no_payload b = Ok b).
  { apply v4_no_payload_iff. rewrite H0. repeat split; lia. }
  split; [exact Hn|].
  assert (E1 : nthN b 1 = vf_dscp f * 4 + vf_ecn f) by reflexivity.
  assert (E2 : wire16 b 2 = vf_total f) by exact (enc16_dec _).
  assert (E4 : wire16 b 4 = vf_id f) by exact (enc16_dec _).
  assert (E6 : wire16 b 6 = bit (vf_reserved f) * 32768 + bit (vf_df f) * 16384 + bit (vf_mf f) * 8192 + vf_frag f)
    by exact (enc16_dec _).
  assert (E10 : wire16 b 10 = vf_checksum f) by exact (enc16_dec _).
  unfold v4_flags, v4_version, v4_dscp, v4_ecn, v4_id, v4_ttl, v4_protocol, v4_checksum, v4_source, v4_destination.
  rewrite v4_ihl_ok, v4_length_ok, v4_offset_ok by lia. rewrite !index_ok by lia. rewrite !get16 by lia. cbn [bind].
  rewrite shiftr4_div, shiftr2_div, shiftr13_div, land3_mod.
  rewrite H0, E1, E2, E4, E6, E10, Hw1, Hw2. split; [f_equal; lia|].
  split; [f_equal; lia|]. split; [f_equal; lia|]. split; [f_equal; lia|].
  split; [reflexivity|]. split; [reflexivity|]. split.
  { rewrite ip_flags_from_bits by (unfold bit; destruct (vf_reserved f), (vf_df f), (vf_mf f); lia).
    unfold bit, IP_MORE_FRAGMENTS, IP_DONT_FRAGMENT; destruct (vf_reserved f), (vf_df f), (vf_mf f); reflexivity. }
  split; [reflexivity|]. split; [reflexivity|]. split; [reflexivity|]. split; [reflexivity|].
  destruct f as [? ? ? ? ? ? ? ? ? ? ? ? ? [? ? ? ?] [? ? ? ?]]. split; reflexivity.
Qed.
(** C09: a complete IPv4 packet: options, payload, and trailing bytes that are
    not part of it. *)
Lemma c09_v4_parts : forall f opts payload trailer, v4_fields_ok f -> vf_version f = 4 ->
  vf_ihl f * 4 = 20 + len opts -> vf_total f = 20 + len opts + len payload ->
  let b := v4_wire f ++ opts ++ payload ++ trailer in
  v4_new b = Ok b /\ v4_header b = Ok (v4_wire f ++ opts) /\ v4_options b = Ok opts /\
  v4_payload b = Ok payload /\ v4_as_ref b = Ok (v4_wire f ++ opts ++ payload).
Proof.
  intros f opts payload trailer Hf Hv Hi Ht b.
  assert (H0 : nthN b 0 = vf_version f * 16 + vf_ihl f) by reflexivity.
  assert (E2 : wire16 b 2 = vf_total f) by exact (enc16_dec _).
  assert (Hl : len b = 20 + len opts + len payload + len trailer).
  { unfold b. autorewrite with len. replace (len (v4_wire f)) with 20 by reflexivity. lia. }
  pose proof Hf as (H1 & H2 & _).
  assert (Hm : nthN b 0 mod 16 = vf_ihl f) by (rewrite H0; lia).
  assert (Hn : v4_new b = Ok b).
  { apply c02_v4_new_iff. rewrite Hm, E2. rewrite H0. repeat split; lia. }
  destruct (c07_v4 b Hn) as (_ & _ & A1 & A2 & _ & _ & _ & _ & _ & A3).
  rewrite Hm, E2 in *. rewrite Hi, Ht in *.
  replace (N.max (20 + len opts) (20 + len opts + len payload)) with (20 + len opts + len payload) in * by lia.
  assert (Hw : len (v4_wire f) = 20) by reflexivity.
  assert (T1 : takeN (20 + len opts) b = v4_wire f ++ opts).
  { unfold b. rewrite app_assoc. replace (20 + len opts) with (len (v4_wire f ++ opts)) by (autorewrite with len; lia).
    apply takeN_app_len. }
  assert (T2 : takeN (20 + len opts + len payload) b = v4_wire f ++ opts ++ payload).
  { unfold b. rewrite !app_assoc. replace (20 + len opts + len payload) with (len ((v4_wire f ++ opts) ++ payload)) by (autorewrite with len; lia).
    apply takeN_app_len. }
  split; [exact Hn|]. rewrite A1, A2, A3, T1, T2. split; [reflexivity|]. split; [|split; [|reflexivity]].
  - rewrite v4_options_ok by lia. destruct (N.ltb_spec (nthN b 0 mod 16) 5); [lia|].
    rewrite Hm, Hi. f_equal. replace (20 + len opts - 20) with (len opts) by lia. exact (takeN_app_len opts _).
  - f_equal. rewrite app_assoc. replace (20 + len opts) with (len (v4_wire f ++ opts)) by (autorewrite with len; lia).
    apply dropN_app_len.
Qed.
(** C09: every 20 bytes are the layout of some field values, so the theorems
    above say what every accessor returns on every header. *)
Lemma c09_v4_layout_total : forall b, is_bytes b -> 20 <= len b ->
  exists f, v4_fields_ok f /\ takeN 20 b = v4_wire f.
Proof.
  intros b Hb Hl.
  pose proof (is_bytes_takeN 20 b Hb) as Ht.
  assert (Hk : len (takeN 20 b) = 20) by (autorewrite with len; lia).
  set (t := takeN 20 b) in *. clearbody t. clear b Hb Hl.
  do 20 (destruct t as [|? t]; [discriminate Hk|]).
  destruct t; [|exfalso; autorewrite with len in Hk; lia]. clear Hk. unfold is_bytes, u8 in Ht.
  repeat match goal with H : Forall _ (_ :: _) |- _ => inversion H; clear H; subst end.
  exists {| vf_version := n / 16; vf_ihl := n mod 16; vf_dscp := n0 / 4; vf_ecn := n0 mod 4;
            vf_total := n1 * 256 + n2; vf_id := n3 * 256 + n4;
            vf_reserved := 128 <=? n5; vf_df := 64 <=? n5 mod 128; vf_mf := 32 <=? n5 mod 64;
            vf_frag := n5 mod 32 * 256 + n6; vf_ttl := n7; vf_proto := n8;
            vf_checksum := n9 * 256 + n10;
            vf_src := Ip4 n11 n12 n13 n14; vf_dst := Ip4 n15 n16 n17 n18 |}.
  split.
  - unfold v4_fields_ok, u8, u16, addr_ok, is_bytes, octets; cbn [vf_version vf_ihl vf_dscp vf_ecn vf_total vf_id vf_frag vf_ttl vf_proto vf_checksum vf_src vf_dst ip_a ip_b ip_c ip_d].
    repeat split; try lia; repeat constructor; assumption.
  - unfold v4_wire, octets; cbn [vf_version vf_ihl vf_dscp vf_ecn vf_total vf_id vf_reserved vf_df vf_mf vf_frag vf_ttl vf_proto vf_checksum vf_src vf_dst ip_a ip_b ip_c ip_d app].
    rewrite flag_byte by assumption. rewrite !enc16_pair by assumption. cbn [app].
    assert (Q1 : n / 16 * 16 + n mod 16 = n) by (clear; lia).
    assert (Q2 : n0 / 4 * 4 + n0 mod 4 = n0) by (clear; lia).
    rewrite Q1, Q2. reflexivity.
Qed.
(** C09: UDP. *)
Lemma c09_udp : forall f payload trailer, udp_fields_ok f -> uf_length f = 8 + len payload ->
  let b := udp_wire f ++ payload ++ trailer in
  udp_new b = Ok b /\
  udp_source b = Ok (uf_src f) /\ udp_destination b = Ok (uf_dst f) /\
  udp_length b = Ok (uf_length f) /\ udp_checksum b = Ok (uf_checksum f) /\
  udp_payload b = Ok payload /\ udp_as_ref b = Ok (udp_wire f ++ payload).
Proof.
  intros f payload trailer Hf Hlen b.
  assert (Hw : len (udp_wire f) = 8) by reflexivity.
  assert (Hl : len b = 8 + len payload + len trailer) by (unfold b; autorewrite with len; lia).
  assert (E4 : wire16 b 4 = uf_length f) by exact (enc16_dec _).
  assert (Hn : udp_new b = Ok b) by (apply udp_new_iff; rewrite E4; repeat split; lia).
  assert (Hp : udp_no_payload b = Ok b) by (apply c03_udp_no_payload; lia).
  destruct (c08_udp b Hp) as (A1 & A2 & A3 & A4).
  destruct (c07_udp b Hn) as (_ & _ & _ & B1 & _ & _ & _ & _ & _ & B2).
  rewrite E4 in *. replace (N.max 8 (uf_length f)) with (8 + len payload) in * by lia.
  assert (T : takeN (8 + len payload) b = udp_wire f ++ payload).
  { unfold b. rewrite app_assoc. replace (8 + len payload) with (len (udp_wire f ++ payload)) by (autorewrite with len; lia).
    apply takeN_app_len. }
  rewrite A1, A2, A3, A4, B1, B2, T. split; [exact Hn|].
  split; [f_equal; exact (enc16_dec _)|]. split; [f_equal; exact (enc16_dec _)|].
  split; [reflexivity|]. split; [f_equal; exact (enc16_dec _)|]. split; [|reflexivity].
  reflexivity.
Qed.
Lemma c09_udp_layout_total : forall b, is_bytes b -> 8 <= len b ->
  exists f, udp_fields_ok f /\ takeN 8 b = udp_wire f.
Proof.
  intros b Hb Hl. pose proof (is_bytes_takeN 8 b Hb) as Ht.
  assert (Hk : len (takeN 8 b) = 8) by (autorewrite with len; lia).
  set (t := takeN 8 b) in *. clearbody t. clear b Hb Hl.
  do 8 (destruct t as [|? t]; [discriminate Hk|]).
  destruct t; [|exfalso; autorewrite with len in Hk; lia]. clear Hk. unfold is_bytes, u8 in Ht.
  repeat match goal with H : Forall _ (_ :: _) |- _ => inversion H; clear H; subst end.
  exists {| uf_src := n * 256 + n0; uf_dst := n1 * 256 + n2; uf_length := n3 * 256 + n4; uf_checksum := n5 * 256 + n6 |}.
  split.
  - unfold udp_fields_ok, u16; cbn [uf_src uf_dst uf_length uf_checksum]. repeat split; lia.
  - unfold udp_wire; cbn [uf_src uf_dst uf_length uf_checksum]. rewrite !enc16_pair by assumption. reflexivity.
Qed.
(** C09: TCP. *)
Lemma c09_tcp : forall f opts payload, tcp_fields_ok f -> tf_offset f * 4 = 20 + len opts ->
  let b := tcp_wire f ++ opts ++ payload in
  tcp_new b = Ok b /\
  tcp_source b = Ok (tf_src f) /\ tcp_destination b = Ok (tf_dst f) /\
  tcp_sequence b = Ok (tf_seq f) /\ tcp_acknowledgment b = Ok (tf_ack f) /\
  tcp_offset b = Ok (tf_offset f) /\ tcp_flags b = Ok (tf_flags f) /\
  tcp_window b = Ok (tf_window f) /\ tcp_checksum b = Ok (tf_checksum f) /\
  tcp_pointer b = Ok (tf_pointer f) /\ tcp_options b = Ok opts /\
  tcp_header b = Ok (tcp_wire f ++ opts) /\ tcp_payload b = Ok payload.
Proof.
  intros f opts payload Hf Ho b.
  assert (Hw : len (tcp_wire f) = 20) by reflexivity.
  assert (Hl : len b = 20 + len opts + len payload) by (unfold b; autorewrite with len; lia).
  pose proof Hf as (_ & _ & _ & _ & H5 & H6 & H7 & _).
  assert (E12 : wire16 b 12 = tf_offset f * 4096 + tf_reserved f * 512 + tf_flags f) by exact (enc16_dec _).
  assert (Eo : nthN b 12 / 16 = tf_offset f).
  { assert (Hx : nthN b 12 = (tf_offset f * 4096 + tf_reserved f * 512 + tf_flags f) / 256) by reflexivity.
    rewrite Hx. lia. }
  assert (Hn : tcp_new b = Ok b) by (apply tcp_new_iff; rewrite Eo; repeat split; lia).
  destruct (c08_tcp b Hn) as (A1 & A2 & A3 & A4 & A5 & A6 & A7 & A8 & A9 & A10 & _).
  rewrite Eo in *. rewrite E12 in *. rewrite Ho in *.
  assert (T : takeN (20 + len opts) b = tcp_wire f ++ opts).
  { unfold b. rewrite app_assoc. replace (20 + len opts) with (len (tcp_wire f ++ opts)) by (autorewrite with len; lia).
    apply takeN_app_len. }
  assert (D : dropN (20 + len opts) b = payload).
  { unfold b. rewrite app_assoc. replace (20 + len opts) with (len (tcp_wire f ++ opts)) by (autorewrite with len; lia).
    apply dropN_app_len. }
  assert (Hs : tcp_split b = Ok (tcp_wire f ++ opts, payload)).
  { rewrite tcp_split_ok by (rewrite ?Eo; lia). rewrite Eo, Ho, T, D. reflexivity. }
  unfold tcp_header, tcp_payload. rewrite Hs. cbn [bind].
  rewrite A1, A2, A3, A4, A5, A6, A7, A8, A9, A10 by lia. split; [exact Hn|].
  split; [f_equal; exact (enc16_dec _)|]. split; [f_equal; exact (enc16_dec _)|].
  split; [f_equal; exact (enc32_dec _)|]. split; [f_equal; exact (enc32_dec _)|].
  split; [reflexivity|]. split; [f_equal; lia|].
  split; [f_equal; exact (enc16_dec _)|]. split; [f_equal; exact (enc16_dec _)|].
  split; [f_equal; exact (enc16_dec _)|]. split; [|split; reflexivity].
  f_equal. replace (20 + len opts - 20) with (len opts) by lia. exact (takeN_app_len opts _).
Qed.
Lemma c09_tcp_layout_total : forall b, is_bytes b -> 20 <= len b ->
  exists f, tcp_fields_ok f /\ takeN 20 b = tcp_wire f.
Proof.
  intros b Hb Hl. pose proof (is_bytes_takeN 20 b Hb) as Ht.
  assert (Hk : len (takeN 20 b) = 20) by (autorewrite with len; lia).
  set (t := takeN 20 b) in *. clearbody t. clear b Hb Hl.
  do 20 (destruct t as [|? t]; [discriminate Hk|]).
  destruct t; [|exfalso; autorewrite with len in Hk; lia]. clear Hk. unfold is_bytes, u8 in Ht.
  repeat match goal with H : Forall _ (_ :: _) |- _ => inversion H; clear H; subst end.
  exists {| tf_src := n * 256 + n0; tf_dst := n1 * 256 + n2;
            tf_seq := ((n3 * 256 + n4) * 256 + n5) * 256 + n6;
            tf_ack := ((n7 * 256 + n8) * 256 + n9) * 256 + n10;
            tf_offset := n11 / 16; tf_reserved := n11 mod 16 / 2; tf_flags := n11 mod 2 * 256 + n12;
            tf_window := n13 * 256 + n14; tf_checksum := n15 * 256 + n16; tf_pointer := n17 * 256 + n18 |}.
  split.
  - unfold tcp_fields_ok, u16, u32; cbn [tf_src tf_dst tf_seq tf_ack tf_offset tf_reserved tf_flags tf_window tf_checksum tf_pointer].
    repeat split; lia.
  - unfold tcp_wire; cbn [tf_src tf_dst tf_seq tf_ack tf_offset tf_reserved tf_flags tf_window tf_checksum tf_pointer].
    rewrite !enc32_quad by assumption. rewrite !enc16_pair by assumption.
    replace (n11 / 16 * 4096 + n11 mod 16 / 2 * 512 + (n11 mod 2 * 256 + n12)) with (n11 * 256 + n12) by (clear; lia).
    rewrite enc16_pair by assumption. reflexivity.
Qed.
(** C09: ICMP and its typed messages. *)
Lemma c09_icmp : forall f rest, icmp_fields_ok f ->
  let b := icmp_wire f ++ rest in
  icmp_new b = Ok b /\
  icmp_get_kind b = Ok (icmp_kind_from (cf_type f)) /\ icmp_code b = Ok (cf_code f) /\
  icmp_checksum b = Ok (cf_checksum f) /\ icmp_payload b = Ok rest.
Proof.
  intros f rest Hf b.
  assert (Hl : len b = 4 + len rest) by (unfold b; autorewrite with len; reflexivity).
  assert (Hn : icmp_new b = Ok b) by (apply c05_icmp_new; lia).
  destruct (c08_icmp b Hn) as (A1 & A2 & A3). rewrite A1, A2, A3. split; [exact Hn|].
  split; [reflexivity|]. split; [reflexivity|]. split; [f_equal; exact (enc16_dec _)|].
  unfold icmp_payload, icmp_split. rewrite split_at_ok by lia. reflexivity.
Qed.
Lemma c09_echo : forall f ident seq payload, icmp_fields_ok f -> cf_type f = 8 \/ cf_type f = 0 ->
  let b := ident_wire f ident seq ++ payload in
  echo_new b = Ok b /\ echo_identifier b = Ok ident /\ echo_sequence b = Ok seq /\
  echo_is_request b = Ok (cf_type f =? 8) /\ echo_is_reply b = Ok (cf_type f =? 0) /\
  echo_payload b = Ok payload.
Proof.
  intros f ident seq payload Hf Ht b.
  assert (Hl : len b = 8 + len payload) by (unfold b; autorewrite with len; reflexivity).
  assert (Hn : echo_new b = Ok b).
  { apply c05_echo_new; [lia|]. change (nthN b 0) with (cf_type f). cbn. lia. }
  destruct (c08_echo b Hn) as (A1 & A2 & A3 & A4). rewrite A1, A2, A3, A4. split; [exact Hn|].
  split; [f_equal; exact (enc16_dec _)|]. split; [f_equal; exact (enc16_dec _)|].
  split; [reflexivity|]. split; [reflexivity|].
  unfold echo_payload, echo_split. rewrite split_at_ok by lia. reflexivity.
Qed.
Lemma c09_information : forall f ident seq rest, icmp_fields_ok f -> cf_type f = 15 \/ cf_type f = 16 ->
  let b := ident_wire f ident seq ++ rest in
  information_new b = Ok b /\ information_identifier b = Ok ident /\ information_sequence b = Ok seq /\
  information_is_request b = Ok (cf_type f =? 15) /\ information_is_reply b = Ok (cf_type f =? 16).
Proof.
  intros f ident seq rest Hf Ht b.
  assert (Hl : len b = 8 + len rest) by (unfold b; autorewrite with len; reflexivity).
  assert (Hn : information_new b = Ok b).
  { apply c05_information_new; [lia|]. change (nthN b 0) with (cf_type f). cbn. lia. }
  destruct (c08_information b Hn) as (A1 & A2 & A3 & A4). rewrite A1, A2, A3, A4. split; [exact Hn|].
  split; [f_equal; exact (enc16_dec _)|]. split; [f_equal; exact (enc16_dec _)|]. split; reflexivity.
Qed.
Lemma c09_timestamp : forall f ident seq orig recv tran rest,
  icmp_fields_ok f -> cf_type f = 13 \/ cf_type f = 14 ->
  let b := timestamp_wire f ident seq orig recv tran ++ rest in
  timestamp_new b = Ok b /\ timestamp_identifier b = Ok ident /\ timestamp_sequence b = Ok seq /\
  timestamp_originate b = Ok orig /\ timestamp_receive b = Ok recv /\ timestamp_transmit b = Ok tran /\
  timestamp_is_request b = Ok (cf_type f =? 13) /\ timestamp_is_reply b = Ok (cf_type f =? 14).
Proof.
  intros f ident seq orig recv tran rest Hf Ht b.
  assert (Hl : len b = 20 + len rest) by (unfold b; autorewrite with len; reflexivity).
  assert (Hn : timestamp_new b = Ok b).
  { apply c05_timestamp_new; [lia|]. change (nthN b 0) with (cf_type f). cbn. lia. }
  destruct (c08_timestamp b Hn) as (A1 & A2 & A3 & A4 & A5 & A6 & A7). rewrite A1, A2, A3, A4, A5, A6, A7.
  split; [exact Hn|].
  split; [f_equal; exact (enc16_dec _)|]. split; [f_equal; exact (enc16_dec _)|].
  split; [f_equal; exact (enc32_dec _)|]. split; [f_equal; exact (enc32_dec _)|]. split; [f_equal; exact (enc32_dec _)|].
  split; reflexivity.
Qed.
Example c09_example :
  let f := {| vf_version := 4; vf_ihl := 6; vf_dscp := 10; vf_ecn := 1; vf_total := 26; vf_id := 4660;
              vf_reserved := false; vf_df := true; vf_mf := false; vf_frag := 100; vf_ttl := 64; vf_proto := 17;
              vf_checksum := 43981; vf_src := Ip4 10 0 0 1; vf_dst := Ip4 10 0 0 2 |} in
  v4_fields_ok f /\
  v4_wire f = [70; 41; 0; 26; 18; 52; 64; 100; 64; 17; 171; 205; 10; 0; 0; 1; 10; 0; 0; 2] /\
  v4_payload (v4_wire f ++ [1; 1; 1; 0] ++ [8; 9] ++ [255]) = Ok [8; 9].
Proof.
  split; [|split; reflexivity]. unfold v4_fields_ok, u8, u16, addr_ok, is_bytes; cbn. repeat split; try lia;
    repeat constructor.
Qed.
