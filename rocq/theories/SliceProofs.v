(** * SliceProofs: slices and sizes of accepted packets (C07, C43, C44). *)
From Verif Require Import Base Enums Ether Ipv4 Ip Udp Tcp Icmp Spec Lemmas ParseProofs.
From Coq Require Import ZifyBool ZifyNat ZifyN.
Ltac Zify.zify_post_hook ::= Z.div_mod_to_equations.

Lemma isize_usize {E : env} n : n <= ISIZE_MAX -> n < USIZE.
Proof. widths; lia. Qed.

(** ** C07 *)
(** C07: Ethernet.  Sizes, header, payload and the whole packet. *)
Lemma c07_ether : forall E b, rust_slice b -> ether_new b = Ok b ->
  ether_split b = Ok (takeN 14 b, dropN 14 b) /\
  ether_header b = Ok (takeN 14 b) /\ ether_payload b = Ok (dropN 14 b) /\
  takeN 14 b ++ dropN 14 b = b /\ len (takeN 14 b) = 14 /\
  ether_header_size b = Ok 14 /\ ether_payload_size E b = Ok (len (dropN 14 b)) /\
  ether_size E b = Ok (len b) /\ ether_as_ref E b = Ok b.
Proof.
  intros E b [_ Hf] Hn. apply isize_usize in Hf.
  assert (H : 14 <= len b).
  { destruct (N.ltb_spec (len b) 14); [|lia]. destruct (c01_ether_new b) as [_ H1]. rewrite H1 in Hn by lia. discriminate. }
  assert (Hs : ether_split b = Ok (takeN 14 b, dropN 14 b)) by (apply split_at_ok; lia).
  assert (Hp : ether_payload_size E b = Ok (len b - 14)) by (apply usize_sub_ok; lia).
  assert (Hz : ether_size E b = Ok (len b)).
  { unfold ether_size, ether_header_size. rewrite Hp. cbn [bind]. rewrite usize_add_ok by lia. f_equal; lia. }
  unfold ether_header, ether_payload, ether_as_ref. rewrite Hs, Hp, Hz. cbn [bind].
  rewrite slice_to_ok by lia. rewrite (takeN_all (len b)) by lia. autorewrite with len. rewrite takeN_dropN.
  repeat split; lia.
Qed.

(** *** IPv4 *)
Lemma v4_ihl_ok b : 1 <= len b -> v4_ihl b = Ok (nthN b 0 mod 16).
Proof. intros H; unfold v4_ihl. rewrite index_ok by lia. cbn [bind]. rewrite land15_mod. reflexivity. Qed.
Lemma v4_header_size_ok b : 1 <= len b -> v4_header_size b = Ok (nthN b 0 mod 16 * 4).
Proof. intros H; unfold v4_header_size. rewrite v4_ihl_ok by lia. reflexivity. Qed.
Lemma v4_payload_size_ok b : 20 <= len b -> v4_payload_size b = Ok (wire16 b 2 - nthN b 0 mod 16 * 4).
Proof. intros H; unfold v4_payload_size. rewrite v4_length_ok, v4_ihl_ok by lia. reflexivity. Qed.
Lemma v4_size_ok b : 20 <= len b -> v4_size b = Ok (N.max (nthN b 0 mod 16 * 4) (wire16 b 2)).
Proof.
  intros H; unfold v4_size. rewrite v4_header_size_ok, v4_payload_size_ok by lia. cbn [bind]. f_equal. lia.
Qed.
Lemma v4_split_ok b : 20 <= len b -> nthN b 0 mod 16 * 4 <= len b ->
  v4_split b = Ok (takeN (nthN b 0 mod 16 * 4) b,
                   dropN (nthN b 0 mod 16 * 4) (takeN (N.max (nthN b 0 mod 16 * 4) (wire16 b 2)) b)).
Proof.
  intros H H1; unfold v4_split. rewrite v4_ihl_ok by lia. cbn [bind].
  rewrite v4_payload_size_ok by lia. cbn [bind]. set (h := nthN b 0 mod 16 * 4) in *. set (t := wire16 b 2).
  replace (h + (t - h)) with (N.max h t) by lia.
  destruct (N.ltb_spec (len b) (N.max h t)); cbn [bind].
  - rewrite split_at_ok by lia. rewrite (takeN_all (N.max h t)) by lia. reflexivity.
  - rewrite slice_to_ok by lia. cbn [bind]. rewrite split_at_ok by (autorewrite with len; lia).
    rewrite takeN_takeN. replace (N.min h (N.max h t)) with h by lia. reflexivity.
Qed.
(** C07: IPv4 packets accepted by [new]: the packet ends at the larger of the
    header length and the total length; the header and the payload are its parts. *)
Lemma c07_v4 : forall b, v4_new b = Ok b ->
  let h := nthN b 0 mod 16 * 4 in
  let n := N.max h (wire16 b 2) in
  h <= n <= len b /\
  v4_split b = Ok (takeN h b, dropN h (takeN n b)) /\
  v4_header b = Ok (takeN h b) /\ v4_payload b = Ok (dropN h (takeN n b)) /\
  takeN h b ++ dropN h (takeN n b) = takeN n b /\ len (takeN h b) = h /\
  v4_header_size b = Ok h /\ v4_payload_size b = Ok (len (dropN h (takeN n b))) /\
  v4_size b = Ok n /\ v4_as_ref b = Ok (takeN n b).
Proof.
  intros b Hn h n. apply c02_v4_new_iff in Hn. destruct Hn as (_ & H1 & _ & H2 & H3). fold h in H2.
  assert (Hs := v4_split_ok b H1 H2). fold h n in Hs.
  assert (Hz := v4_size_ok b H1). fold h n in Hz.
  unfold v4_header, v4_payload, v4_as_ref. rewrite Hs, Hz. cbn [bind].
  rewrite v4_header_size_ok, v4_payload_size_ok by lia. fold h.
  rewrite slice_to_ok by lia. autorewrite with len.
  replace (takeN h b) with (takeN h (takeN n b)) by (rewrite takeN_takeN; f_equal; lia).
  rewrite takeN_dropN. repeat split; try lia. f_equal; lia.
Qed.
(** C07: IPv4 packets accepted by [no_payload] only (the payload is cut short):
    header and payload stop at the end of the buffer, but as_ref panics. *)
Lemma c07_v4_no_payload : forall b, v4_no_payload b = Ok b ->
  let h := nthN b 0 mod 16 * 4 in
  v4_header b = Ok (takeN h b) /\ v4_header_size b = Ok h /\ len (takeN h b) = h /\
  (wire16 b 2 <= len b -> v4_new b = Ok b) /\
  (len b < wire16 b 2 -> v4_payload b = Ok (dropN h b) /\ v4_size b = Ok (wire16 b 2) /\ v4_as_ref b = Panic).
Proof.
  intros b Hn h. apply v4_no_payload_iff in Hn. destruct Hn as (_ & H1 & H0 & H2). fold h in H2.
  assert (Hs := v4_split_ok b H1 H2). fold h in Hs.
  assert (Hz := v4_size_ok b H1). fold h in Hz.
  unfold v4_header, v4_payload, v4_as_ref. rewrite Hs, Hz. cbn [bind].
  rewrite v4_header_size_ok by lia. fold h. autorewrite with len.
  split; [reflexivity|]. split; [reflexivity|]. split; [lia|]. split.
  - intros H3. apply c02_v4_new_iff. auto.
  - intros H3. rewrite (takeN_all (N.max h (wire16 b 2))) by lia. repeat split.
    + f_equal; lia.
    + unfold slice_to. destruct (N.leb_spec (N.max h (wire16 b 2)) (len b)); [lia|reflexivity].
Qed.
Example c07_v4_example : let b := 69 :: 0 :: 0 :: 22 :: repeat 7 30%nat in
  v4_new b = Ok b /\ v4_payload b = Ok [7; 7] /\ v4_size b = Ok 22.
Proof. repeat split. Qed.
Example c07_v4_no_payload_example : let b := 69 :: 0 :: 0 :: 100 :: repeat 7 20%nat in
  v4_no_payload b = Ok b /\ v4_payload b = Ok [7; 7; 7; 7] /\ v4_as_ref b = Panic.
Proof. repeat split. Qed.

(** *** UDP *)
Lemma udp_payload_size_ok b : 8 <= len b -> udp_payload_size b = Ok (wire16 b 4 - 8).
Proof. intros H; unfold udp_payload_size, udp_length. rewrite get16 by lia. reflexivity. Qed.
Lemma udp_size_ok b : 8 <= len b -> udp_size b = Ok (N.max 8 (wire16 b 4)).
Proof.
  intros H; unfold udp_size, udp_header_size. rewrite udp_payload_size_ok by lia. cbn [bind]. f_equal; lia.
Qed.
Lemma udp_split_ok b : 8 <= len b ->
  udp_split b = Ok (takeN 8 b, dropN 8 (takeN (N.max 8 (wire16 b 4)) b)).
Proof.
  intros H; unfold udp_split. rewrite udp_payload_size_ok by lia. cbn [bind]. set (t := wire16 b 4).
  replace (8 + (t - 8)) with (N.max 8 t) by lia.
  destruct (N.ltb_spec (len b) (N.max 8 t)); cbn [bind].
  - rewrite split_at_ok by lia. rewrite (takeN_all (N.max 8 t)) by lia. reflexivity.
  - rewrite slice_to_ok by lia. cbn [bind]. rewrite split_at_ok by (autorewrite with len; lia).
    rewrite takeN_takeN. replace (N.min 8 (N.max 8 t)) with 8 by lia. reflexivity.
Qed.
(** C07: UDP datagrams accepted by [new]: they end at the larger of 8 and the length field. *)
Lemma c07_udp : forall b, udp_new b = Ok b ->
  let n := N.max 8 (wire16 b 4) in
  8 <= n <= len b /\
  udp_split b = Ok (takeN 8 b, dropN 8 (takeN n b)) /\
  udp_header b = Ok (takeN 8 b) /\ udp_payload b = Ok (dropN 8 (takeN n b)) /\
  takeN 8 b ++ dropN 8 (takeN n b) = takeN n b /\ len (takeN 8 b) = 8 /\
  udp_header_size b = Ok 8 /\ udp_payload_size b = Ok (len (dropN 8 (takeN n b))) /\
  udp_size b = Ok n /\ udp_as_ref b = Ok (takeN n b).
Proof.
  intros b Hn n. apply udp_new_iff in Hn. destruct Hn as (_ & H1 & H2).
  assert (Hs := udp_split_ok b H1). fold n in Hs.
  assert (Hz := udp_size_ok b H1). fold n in Hz.
  unfold udp_header, udp_payload, udp_as_ref, udp_header_size. rewrite Hs, Hz. cbn [bind].
  rewrite udp_payload_size_ok by lia.
  rewrite slice_to_ok by lia. autorewrite with len.
  replace (takeN 8 b) with (takeN 8 (takeN n b)) by (rewrite takeN_takeN; f_equal; lia).
  rewrite takeN_dropN. repeat split; try lia. f_equal; lia.
Qed.
(** C07: UDP datagrams accepted by [no_payload] only: as_ref panics. *)
Lemma c07_udp_no_payload : forall b, udp_no_payload b = Ok b ->
  udp_header b = Ok (takeN 8 b) /\
  (wire16 b 4 <= len b -> udp_new b = Ok b) /\
  (len b < wire16 b 4 -> udp_payload b = Ok (dropN 8 b) /\ udp_size b = Ok (wire16 b 4) /\ udp_as_ref b = Panic).
Proof.
  intros b Hn.
  assert (H1 : 8 <= len b).
  { destruct (N.ltb_spec (len b) 8); [|lia]. destruct (c03_udp_no_payload b) as [_ H1]. rewrite H1 in Hn by lia. discriminate. }
  assert (Hs := udp_split_ok b H1). assert (Hz := udp_size_ok b H1).
  unfold udp_header, udp_payload, udp_as_ref. rewrite Hs, Hz. cbn [bind].
  split; [reflexivity|]. split.
  - intros H3. apply udp_new_iff. auto.
  - intros H3. rewrite (takeN_all (N.max 8 (wire16 b 4))) by lia. repeat split.
    + f_equal; lia.
    + unfold slice_to. destruct (N.leb_spec (N.max 8 (wire16 b 4)) (len b)); [lia|reflexivity].
Qed.
Example c07_udp_example : let b := [0; 1; 0; 2; 0; 10; 0; 0; 7; 8; 9] in
  udp_new b = Ok b /\ udp_payload b = Ok [7; 8] /\ udp_as_ref b = Ok [0; 1; 0; 2; 0; 10; 0; 0; 7; 8].
Proof. repeat split. Qed.

(** *** TCP *)
Lemma tcp_offset_ok b : 13 <= len b -> tcp_offset b = Ok (nthN b 12 / 16).
Proof. intros H; unfold tcp_offset. rewrite index_ok by lia. cbn [bind]. rewrite shiftr4_div. reflexivity. Qed.
Lemma tcp_split_ok b : 13 <= len b -> nthN b 12 / 16 * 4 <= len b ->
  tcp_split b = Ok (takeN (nthN b 12 / 16 * 4) b, dropN (nthN b 12 / 16 * 4) b).
Proof. intros H H1; unfold tcp_split. rewrite tcp_offset_ok by lia. cbn [bind]. apply split_at_ok; lia. Qed.
(** C07: TCP. *)
Lemma c07_tcp : forall E b, rust_slice b -> tcp_new b = Ok b ->
  let h := nthN b 12 / 16 * 4 in
  h <= len b /\
  tcp_split b = Ok (takeN h b, dropN h b) /\
  tcp_header b = Ok (takeN h b) /\ tcp_payload b = Ok (dropN h b) /\
  takeN h b ++ dropN h b = b /\ len (takeN h b) = h /\
  tcp_header_size b = Ok h /\ tcp_payload_size E b = Ok (len (dropN h b)) /\
  tcp_size E b = Ok (len b) /\ tcp_as_ref E b = Ok b.
Proof.
  intros E b [_ Hf] Hn h. apply isize_usize in Hf. apply tcp_new_iff in Hn. destruct Hn as (_ & H1 & H2).
  fold h in H2. assert (Hs : tcp_split b = Ok (takeN h b, dropN h b)) by (apply tcp_split_ok; lia).
  assert (Hh : tcp_header_size b = Ok h).
  { unfold tcp_header_size. rewrite tcp_offset_ok by lia. reflexivity. }
  assert (Hp : tcp_payload_size E b = Ok (len b - h)).
  { unfold tcp_payload_size. rewrite tcp_offset_ok by lia. cbn [bind]. apply usize_sub_ok. lia. }
  assert (Hz : tcp_size E b = Ok (len b)).
  { unfold tcp_size. rewrite Hh, Hp. cbn [bind]. rewrite usize_add_ok by lia. f_equal; lia. }
  unfold tcp_header, tcp_payload, tcp_as_ref. rewrite Hs, Hh, Hp, Hz. cbn [bind].
  rewrite slice_to_ok by lia. rewrite (takeN_all (len b)) by lia. autorewrite with len. rewrite takeN_dropN.
  repeat split; lia.
Qed.

(** *** ICMP *)
Lemma split_at_partition b n : n <= len b ->
  split_at b n = Ok (takeN n b, dropN n b) /\ takeN n b ++ dropN n b = b /\ len (takeN n b) = n.
Proof. intros H. rewrite split_at_ok, takeN_dropN by lia. autorewrite with len. repeat split; lia. Qed.
(** C07: generic ICMP. *)
Lemma c07_icmp : forall E b, rust_slice b -> icmp_new b = Ok b ->
  icmp_split b = Ok (takeN 4 b, dropN 4 b) /\
  icmp_header b = Ok (takeN 4 b) /\ icmp_payload b = Ok (dropN 4 b) /\
  takeN 4 b ++ dropN 4 b = b /\ len (takeN 4 b) = 4 /\
  icmp_header_size b = Ok 4 /\ icmp_payload_size E b = Ok (len (dropN 4 b)) /\
  icmp_size E b = Ok (len b) /\ icmp_as_ref E b = Ok b.
Proof.
  intros E b [_ Hf] Hn. apply isize_usize in Hf.
  assert (H : 4 <= len b).
  { destruct (N.ltb_spec (len b) 4); [|lia]. destruct (c05_icmp_new b) as [_ H1]. rewrite H1 in Hn by lia. discriminate. }
  destruct (split_at_partition b 4 H) as (Hs & H2 & H3).
  assert (Hp : icmp_payload_size E b = Ok (len b - 4)) by (apply usize_sub_ok; lia).
  assert (Hz : icmp_size E b = Ok (len b)).
  { unfold icmp_size, icmp_header_size. rewrite Hp. cbn [bind]. rewrite usize_add_ok by lia. f_equal; lia. }
  unfold icmp_header, icmp_payload, icmp_as_ref, icmp_split. rewrite Hs, Hp, Hz. cbn [bind].
  rewrite slice_to_ok by lia. rewrite (takeN_all (len b)) by lia. rewrite H2, H3. autorewrite with len. repeat split.
Qed.
(** C07: ICMP echo. *)
Lemma c07_echo : forall E b, rust_slice b -> echo_new b = Ok b ->
  echo_split b = Ok (takeN 8 b, dropN 8 b) /\
  echo_header b = Ok (takeN 8 b) /\ echo_payload b = Ok (dropN 8 b) /\
  takeN 8 b ++ dropN 8 b = b /\ len (takeN 8 b) = 8 /\
  echo_header_size b = Ok 8 /\ echo_payload_size E b = Ok (len (dropN 8 b)) /\
  echo_size E b = Ok (len b) /\ echo_as_ref E b = Ok b.
Proof.
  intros E b [_ Hf] Hn. apply isize_usize in Hf.
  destruct (typed_inv _ _ _ _ _ c05_echo_new Hn) as (_ & H & _).
  destruct (split_at_partition b 8 H) as (Hs & H2 & H3).
  assert (Hp : echo_payload_size E b = Ok (len b - 8)) by (apply usize_sub_ok; lia).
  assert (Hz : echo_size E b = Ok (len b)).
  { unfold echo_size, echo_header_size. rewrite Hp. cbn [bind]. rewrite usize_add_ok by lia. f_equal; lia. }
  unfold echo_header, echo_payload, echo_as_ref, echo_split. rewrite Hs, Hp, Hz. cbn [bind].
  rewrite slice_to_ok by lia. rewrite (takeN_all (len b)) by lia. rewrite H2, H3. autorewrite with len. repeat split.
Qed.
(** C07: ICMP information: size() stops after the 8-byte header, header() and
    payload() cover the buffer. *)
Lemma c07_information : forall E b, information_new b = Ok b ->
  information_split b = Ok (takeN 8 b, dropN 8 b) /\
  information_header b = Ok (takeN 8 b) /\ information_payload b = Ok (dropN 8 b) /\
  takeN 8 b ++ dropN 8 b = b /\ len (takeN 8 b) = 8 /\
  information_header_size b = Ok 8 /\ information_payload_size b = Ok 0 /\
  information_size E b = Ok 8 /\ information_as_ref E b = Ok (takeN 8 b).
Proof.
  intros E b Hn. destruct (typed_inv _ _ _ _ _ c05_information_new Hn) as (_ & H & _).
  destruct (split_at_partition b 8 H) as (Hs & H2 & H3).
  unfold information_header, information_payload, information_as_ref, information_split. rewrite Hs. cbn [bind].
  unfold information_size. cbn [information_header_size information_payload_size bind].
  rewrite usize_add_ok by (widths; lia). cbn [bind].
  rewrite slice_to_ok by lia. rewrite H2, H3. repeat split.
Qed.
(** C07: ICMP timestamp: header() is 8 bytes although header::Size is 20. *)
Lemma c07_timestamp : forall E b, timestamp_new b = Ok b ->
  timestamp_split b = Ok (takeN 8 b, dropN 8 b) /\
  timestamp_header b = Ok (takeN 8 b) /\ timestamp_payload b = Ok (dropN 8 b) /\
  takeN 8 b ++ dropN 8 b = b /\ len (takeN 8 b) = 8 /\
  timestamp_header_size b = Ok 20 /\ timestamp_payload_size b = Ok 0 /\
  timestamp_size E b = Ok 20 /\ timestamp_as_ref E b = Ok (takeN 20 b).
Proof.
  intros E b Hn. destruct (typed_inv _ _ _ _ _ c05_timestamp_new Hn) as (_ & H & _).
  destruct (split_at_partition b 8 ltac:(lia)) as (Hs & H2 & H3).
  unfold timestamp_header, timestamp_payload, timestamp_as_ref, timestamp_split. rewrite Hs. cbn [bind].
  unfold timestamp_size. cbn [timestamp_header_size timestamp_payload_size bind].
  rewrite usize_add_ok by (widths; lia). cbn [bind].
  rewrite slice_to_ok by lia. rewrite H2, H3. repeat split.
Qed.

(** *** Messages with an embedded datagram *)
Lemma embedded_packet_ok b : 8 <= len b -> embedded_packet b = v4_new (dropN 8 b).
Proof. intros H; unfold embedded_packet. rewrite slice_from_ok by lia. reflexivity. Qed.
Lemma v4_new_no_panic b : v4_new b <> Panic.
Proof.
  rewrite v4_new_eq, v4_no_payload_eq. destruct (_ <? 20); [discriminate|].
  destruct (negb _); [discriminate|]. destruct (_ <? _ * 4); [discriminate|]. cbn [bind].
  destruct (_ <? wire16 _ _); discriminate.
Qed.
Lemma embedded_size_ok E b : rust_slice b -> 8 <= len b ->
  embedded_size E b = Ok (match v4_new (dropN 8 b) with
                          | Ok _ => 8 + nthN b 8 mod 16 * 4
                          | _ => len b end).
Proof.
  intros [_ Hf] H. unfold embedded_size, embedded_payload_size. rewrite embedded_packet_ok by exact H.
  pose proof (v4_new_no_panic (dropN 8 b)) as Hnp.
  destruct (v4_new (dropN 8 b)) as [p|e|] eqn:Hp; [| |congruence].
  - apply c02_v4_new_iff in Hp. destruct Hp as (-> & H1 & _ & H3 & _). autorewrite with len in H1.
    rewrite v4_header_size_ok by (autorewrite with len; lia). cbn [bind].
    rewrite nthN_dropN in *. replace (8 + 0) with 8 in * by lia. apply usize_add_ok.
    widths. lia.
  - rewrite usize_sub_ok by lia. cbn [bind]. rewrite usize_add_ok; [f_equal; lia|].
    apply isize_usize in Hf. lia.
Qed.
Lemma embedded_as_ref_ok E b : rust_slice b -> 8 <= len b ->
  embedded_as_ref E b = Ok (match v4_new (dropN 8 b) with
                            | Ok _ => takeN (8 + nthN b 8 mod 16 * 4) b
                            | _ => b end).
Proof.
  intros Hr H. unfold embedded_as_ref. rewrite embedded_size_ok by assumption. cbn [bind].
  pose proof (v4_new_no_panic (dropN 8 b)) as Hnp.
  destruct (v4_new (dropN 8 b)) as [p|e|] eqn:Hp; [| |congruence].
  - apply c02_v4_new_iff in Hp. destruct Hp as (-> & H1 & _ & H3 & _). autorewrite with len in H1, H3.
    rewrite nthN_dropN in *. replace (8 + 0) with 8 in * by lia. apply slice_to_ok. lia.
  - rewrite slice_to_ok by lia. rewrite takeN_all by lia. reflexivity.
Qed.
(** C07: redirect: an 8-byte header, then the embedded datagram. *)
Lemma c07_redirect_message : forall b, redirect_message_new b = Ok b ->
  redirect_message_split b = Ok (takeN 8 b, dropN 8 b) /\
  redirect_message_header b = Ok (takeN 8 b) /\ redirect_message_payload b = Ok (dropN 8 b) /\
  takeN 8 b ++ dropN 8 b = b /\ len (takeN 8 b) = 8 /\ redirect_message_header_size b = Ok 8.
Proof.
  intros b Hn. destruct (typed_inv _ _ _ _ _ c05_redirect_message_new Hn) as (_ & H & _).
  destruct (split_at_partition b 8 ltac:(lia)) as (Hs & H2 & H3).
  unfold redirect_message_header, redirect_message_payload, redirect_message_split. rewrite Hs. cbn [bind].
  rewrite H2, H3. repeat split.
Qed.
(** C07: parameter problem: header() is the first 5 bytes, header::Size says 8,
    the payload starts at byte 8. *)
Lemma c07_parameter_problem : forall b, parameter_problem_new b = Ok b ->
  parameter_problem_split b = Ok (takeN 5 b, dropN 8 b) /\
  parameter_problem_header b = Ok (takeN 5 b) /\ parameter_problem_payload b = Ok (dropN 8 b) /\
  len (takeN 5 b) = 5 /\ parameter_problem_header_size b = Ok 8.
Proof.
  intros b Hn. destruct (typed_inv _ _ _ _ _ c05_parameter_problem_new Hn) as (_ & H & _).
  unfold parameter_problem_header, parameter_problem_payload, parameter_problem_split.
  rewrite split_at_ok by lia. cbn [bind]. rewrite slice_to_ok by (autorewrite with len; lia). cbn [bind].
  rewrite takeN_takeN. replace (N.min 5 8) with 5 by lia. autorewrite with len. repeat split; lia.
Qed.
(** C07: previous: header() is the first 4 bytes, header::Size says 8. *)
Lemma c07_previous : forall b, previous_new b = Ok b ->
  previous_split b = Ok (takeN 4 b, dropN 8 b) /\
  previous_header b = Ok (takeN 4 b) /\ previous_payload b = Ok (dropN 8 b) /\
  len (takeN 4 b) = 4 /\ previous_header_size b = Ok 8.
Proof.
  intros b Hn. destruct (typed_inv _ _ _ _ _ c05_previous_new Hn) as (_ & H & _).
  unfold previous_header, previous_payload, previous_split.
  rewrite split_at_ok by lia. cbn [bind]. rewrite slice_to_ok by (autorewrite with len; lia). cbn [bind].
  rewrite takeN_takeN. replace (N.min 4 8) with 4 by lia. autorewrite with len. repeat split; lia.
Qed.
Example c07_icmp_examples :
  echo_payload [8; 0; 0; 0; 0; 1; 0; 2; 5; 6] = Ok [5; 6] /\
  parameter_problem_header [12; 0; 1; 1; 3; 0; 0; 0] = Ok [12; 0; 1; 1; 3] /\
  previous_header [3; 0; 1; 1; 3; 0; 0; 0] = Ok [3; 0; 1; 1].
Proof. repeat split. Qed.
(** C07: IPv6: everything is empty. *)
Lemma c07_v6 : forall b, v6_new b = Ok b ->
  v6_split b = Ok ([], []) /\ v6_size b = Ok 0 /\ v6_as_ref b = Ok [] /\ v6_header_size b = Ok 0.
Proof. intros b _. repeat split. Qed.

(** ** C45 *)
(** C45: packet() of an ICMP error message is the IPv4 parser on bytes 8.. and
    never panics; size() and as_ref() follow. *)
Lemma c45_embedded : forall E b, rust_slice b ->
  (parameter_problem_new b = Ok b \/ redirect_message_new b = Ok b \/ previous_new b = Ok b) ->
  embedded_packet b = v4_new (dropN 8 b) /\ embedded_packet b <> Panic /\
  (forall p, embedded_packet b = Ok p ->
     embedded_size E b = Ok (8 + nthN p 0 mod 16 * 4) /\
     embedded_as_ref E b = Ok (takeN (8 + nthN p 0 mod 16 * 4) b)) /\
  (forall e, embedded_packet b = Err e ->
     embedded_size E b = Ok (len b) /\ embedded_as_ref E b = Ok b).
Proof.
  intros E b Hr Hn.
  assert (H : 8 <= len b).
  { destruct Hn as [Hn|[Hn|Hn]].
    - destruct (typed_inv _ _ _ _ _ c05_parameter_problem_new Hn) as (_ & H & _). exact H.
    - destruct (typed_inv _ _ _ _ _ c05_redirect_message_new Hn) as (_ & H & _). exact H.
    - destruct (typed_inv _ _ _ _ _ c05_previous_new Hn) as (_ & H & _). exact H. }
  rewrite embedded_packet_ok by exact H. pose proof (v4_new_no_panic (dropN 8 b)) as Hnp.
  rewrite (embedded_size_ok E b Hr H), (embedded_as_ref_ok E b Hr H).
  split; [reflexivity|]. split; [exact Hnp|]. split.
  - intros p Hp. rewrite Hp. apply c02_v4_new_iff in Hp. destruct Hp as (-> & _).
    rewrite nthN_dropN. split; reflexivity.
  - intros e He. rewrite He. split; reflexivity.
Qed.
(** C07: the three ICMP error messages: size() and as_ref() never panic and stay
    within the buffer. *)
Lemma c07_embedded : forall E b, rust_slice b ->
  (parameter_problem_new b = Ok b \/ redirect_message_new b = Ok b \/ previous_new b = Ok b) ->
  exists n, embedded_size E b = Ok n /\ 8 <= n <= len b /\ embedded_as_ref E b = Ok (takeN n b).
Proof.
  intros E b Hr Hn.
  assert (H : 8 <= len b).
  { destruct Hn as [Hn|[Hn|Hn]].
    - destruct (typed_inv _ _ _ _ _ c05_parameter_problem_new Hn) as (_ & H & _). exact H.
    - destruct (typed_inv _ _ _ _ _ c05_redirect_message_new Hn) as (_ & H & _). exact H.
    - destruct (typed_inv _ _ _ _ _ c05_previous_new Hn) as (_ & H & _). exact H. }
  destruct (c45_embedded E b Hr Hn) as (He & Hp & H1 & H2).
  destruct (embedded_packet b) as [p|e|] eqn:Q.
  - destruct (H1 p eq_refl) as (A & B). eexists. split; [exact A|]. split; [|exact B].
    symmetry in He. apply c02_v4_new_iff in He. destruct He as (-> & _ & _ & Hl & _).
    rewrite len_dropN in Hl. lia.
  - destruct (H2 e eq_refl) as (A & B). exists (len b). split; [exact A|]. split; [lia|].
    rewrite takeN_all by lia. exact B.
  - contradiction.
Qed.
(** C45: so an embedded datagram cut short, as RFC 792 messages carry, is rejected. *)
Lemma c45_truncated_embedded : forall b,
  8 <= len b -> 20 <= len (dropN 8 b) -> nthN b 8 / 16 = 4 -> len b - 8 < wire16 b 10 ->
  embedded_packet b = Err SmallBuffer.
Proof.
  intros b H H1 H2 H3. rewrite embedded_packet_ok by exact H.
  destruct (c02_v4_new (dropN 8 b)) as (_ & _ & H4 & _). apply H4; [exact H1| |].
  - rewrite nthN_dropN. exact H2.
  - right. autorewrite with len. unfold wire16 in *. rewrite !nthN_dropN. exact H3.
Qed.
(** C45: gateway and pointer. *)
Lemma c45_gateway_pointer : forall b,
  (redirect_message_new b = Ok b -> redirect_message_gateway b = Ok (wire_addr b 4)) /\
  (parameter_problem_new b = Ok b -> parameter_problem_pointer b = Ok (nthN b 4)).
Proof.
  intros b; split; intros Hn.
  - destruct (typed_inv _ _ _ _ _ c05_redirect_message_new Hn) as (_ & H & _).
    unfold redirect_message_gateway. rewrite !index_ok by lia. reflexivity.
  - destruct (typed_inv _ _ _ _ _ c05_parameter_problem_new Hn) as (_ & H & _).
    unfold parameter_problem_pointer. rewrite !index_ok by lia. reflexivity.
Qed.
Example c45_example : let b := [5; 1; 0; 0; 10; 0; 0; 1] ++ (69 :: 0 :: 0 :: 20 :: repeat 1 20%nat) in
  redirect_message_new b = Ok b /\ redirect_message_gateway b = Ok (Ip4 10 0 0 1) /\
  embedded_packet b = Ok (69 :: 0 :: 0 :: 20 :: repeat 1 20%nat) /\
  forall E, embedded_size E b = Ok 28.
Proof. repeat split. intros [[] [] []]; reflexivity. Qed.
