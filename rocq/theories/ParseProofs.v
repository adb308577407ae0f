(** * ParseProofs: constructors, slices, sizes, accessors (C01-C08, C43-C45). *)
From Verif Require Import Base Enums Ether Ipv4 Ip Udp Tcp Icmp Spec Lemmas.
From Coq Require Import ZifyBool ZifyNat ZifyN.
Ltac Zify.zify_post_hook ::= Z.div_mod_to_equations.

(** ** Generic field readers *)
Lemma get16 b o : o + 2 <= len b -> get_u16 b o = Ok (wire16 b o).
Proof. apply get_u16_ok. Qed.
Lemma get32 b o : o + 4 <= len b -> get_u32 b o = Ok (wire32 b o).
Proof. apply get_u32_ok. Qed.
Lemma hw_slice b o : o + 6 <= len b ->
  (let* s := slice b o (o + 6) in hw_of_slice s) = Ok (wire_mac b o).
Proof.
  intros H. rewrite slice_ok by lia. cbn [bind]. replace (o + 6 - o) with 6 by lia.
  unfold wire_mac. pose proof (len_dropN o b) as Hd.
  rewrite <- !(nthN_dropN o b). rewrite <- (N.add_0_r o) at 2. rewrite <- (nthN_dropN o b).
  set (d := dropN o b) in *. clearbody d.
  do 6 (destruct d as [|? d]; [autorewrite with len in Hd; lia|]). reflexivity.
Qed.

(** ** C01 *)
(** C01: ether::Packet::new. *)
Lemma c01_ether_new : forall b,
  (14 <= len b -> ether_new b = Ok b) /\ (len b < 14 -> ether_new b = Err SmallBuffer).
Proof.
  intros b; unfold ether_new, ether_header_min. destruct (N.ltb_spec (len b) 14); split; intros; try reflexivity; lia.
Qed.
Example c01_example : len (repeat 7 14%nat) = 14 /\ ether_new (repeat 7 14%nat) = Ok (repeat 7 14%nat) /\
  ether_new (repeat 7 13%nat) = Err SmallBuffer /\ ether_new [] = Err SmallBuffer.
Proof. repeat split. Qed.

(** ** C02 *)
Lemma v4_no_payload_eq b : v4_no_payload b =
  if len b <? 20 then Err SmallBuffer
  else if negb (nthN b 0 / 16 =? 4) then Err InvalidPacket
  else if len b <? nthN b 0 mod 16 * 4 then Err SmallBuffer else Ok b.
Proof.
  unfold v4_no_payload, v4_header_min, v4_ihl. destruct (N.ltb_spec (len b) 20); [reflexivity|].
  rewrite index_ok by lia. cbn [bind]. rewrite shiftr4_div, land15_mod. reflexivity.
Qed.
Lemma v4_length_ok b : 20 <= len b -> v4_length b = Ok (wire16 b 2).
Proof. intros H; apply get16; lia. Qed.
(** C02: ip::v4::Packet::no_payload. *)
Lemma c02_v4_no_payload : forall b,
  let version := nthN b 0 / 16 in
  let ihl := nthN b 0 mod 16 in
  (len b < 20 -> v4_no_payload b = Err SmallBuffer) /\
  (20 <= len b -> version <> 4 -> v4_no_payload b = Err InvalidPacket) /\
  (20 <= len b -> version = 4 -> len b < ihl * 4 -> v4_no_payload b = Err SmallBuffer) /\
  (20 <= len b -> version = 4 -> ihl * 4 <= len b -> v4_no_payload b = Ok b).
Proof.
  intros b version ihl. rewrite v4_no_payload_eq. fold version ihl.
  destruct (N.ltb_spec (len b) 20), (N.eqb_spec version 4), (N.ltb_spec (len b) (ihl * 4));
    cbn [negb]; repeat split; intros; try reflexivity; lia.
Qed.
Lemma v4_new_eq b : v4_new b =
  let* p := v4_no_payload b in if len b <? wire16 b 2 then Err SmallBuffer else Ok b.
Proof.
  unfold v4_new. rewrite v4_no_payload_eq. destruct (N.ltb_spec (len b) 20); [reflexivity|].
  destruct (negb _); [reflexivity|]. destruct (len b <? _); [reflexivity|]. cbn [bind].
  rewrite v4_length_ok by lia. reflexivity.
Qed.
(** C02: ip::v4::Packet::new. *)
Lemma c02_v4_new : forall b,
  let version := nthN b 0 / 16 in
  let ihl := nthN b 0 mod 16 in
  let total := wire16 b 2 in
  (len b < 20 -> v4_new b = Err SmallBuffer) /\
  (20 <= len b -> version <> 4 -> v4_new b = Err InvalidPacket) /\
  (20 <= len b -> version = 4 -> len b < ihl * 4 \/ len b < total -> v4_new b = Err SmallBuffer) /\
  (20 <= len b -> version = 4 -> ihl * 4 <= len b -> total <= len b -> v4_new b = Ok b).
Proof.
  intros b version ihl total. rewrite v4_new_eq, v4_no_payload_eq. fold version ihl total.
  destruct (N.ltb_spec (len b) 20), (N.eqb_spec version 4), (N.ltb_spec (len b) (ihl * 4));
    cbn [negb bind]; destruct (N.ltb_spec (len b) total); repeat split; intros; try reflexivity; lia.
Qed.
(** C02: what acceptance means, and that IHL below 5 is accepted. *)
Lemma c02_v4_new_iff : forall b p,
  v4_new b = Ok p <->
  p = b /\ 20 <= len b /\ nthN b 0 / 16 = 4 /\ nthN b 0 mod 16 * 4 <= len b /\ wire16 b 2 <= len b.
Proof.
  intros b p. destruct (c02_v4_new b) as (H1 & H2 & H3 & H4). split.
  - intros Hp.
    destruct (N.ltb_spec (len b) 20); [rewrite H1 in Hp by lia; discriminate|].
    destruct (N.eqb_spec (nthN b 0 / 16) 4); [|rewrite H2 in Hp by lia; discriminate].
    destruct (N.ltb_spec (len b) (nthN b 0 mod 16 * 4)); [rewrite H3 in Hp by lia; discriminate|].
    destruct (N.ltb_spec (len b) (wire16 b 2)); [rewrite H3 in Hp by lia; discriminate|].
    rewrite H4 in Hp by lia. injection Hp as <-. repeat split; lia.
  - intros (-> & Ha & Hb & Hc & Hd). apply H4; lia.
Qed.
Lemma c02_v4_ihl_below_5_accepted_refuted : exists b,
  v4_new b = Ok b /\ nthN b 0 mod 16 < 5.
Proof. exists (64 :: zeros 19). split; reflexivity. Qed.
Example c02_example : let h := 70 :: 0 :: 0 :: 25 :: repeat 0 20%nat in
  v4_new (h ++ [9]) = Ok (h ++ [9]) /\ v4_new h = Err SmallBuffer /\ v4_no_payload h = Ok h /\
  v4_no_payload (takeN 23 h) = Err SmallBuffer /\ v4_new (96 :: repeat 0 19%nat) = Err InvalidPacket.
Proof. repeat split. Qed.

Lemma v4_no_payload_iff b p :
  v4_no_payload b = Ok p <->
  p = b /\ 20 <= len b /\ nthN b 0 / 16 = 4 /\ nthN b 0 mod 16 * 4 <= len b.
Proof.
  rewrite v4_no_payload_eq.
  destruct (N.ltb_spec (len b) 20), (N.eqb_spec (nthN b 0 / 16) 4), (N.ltb_spec (len b) (nthN b 0 mod 16 * 4));
    cbn [negb]; split; intros Hp; try discriminate; try (injection Hp as <-; repeat split; lia);
    destruct Hp as (-> & ? & ? & ?); try reflexivity; lia.
Qed.

(** ** C03 *)
(** C03: udp::Packet::no_payload. *)
Lemma c03_udp_no_payload : forall b,
  (8 <= len b -> udp_no_payload b = Ok b) /\ (len b < 8 -> udp_no_payload b = Err SmallBuffer).
Proof.
  intros b; unfold udp_no_payload, udp_header_min. destruct (N.ltb_spec (len b) 8); split; intros; try reflexivity; lia.
Qed.
(** C03: udp::Packet::new. *)
Lemma c03_udp_new : forall b,
  (8 <= len b -> wire16 b 4 <= len b -> udp_new b = Ok b) /\
  (len b < 8 \/ len b < wire16 b 4 -> udp_new b = Err SmallBuffer).
Proof.
  intros b; unfold udp_new, udp_no_payload, udp_header_min, udp_length.
  destruct (N.ltb_spec (len b) 8); cbn [bind].
  - split; intros; [lia|reflexivity].
  - rewrite get16 by lia. cbn [bind]. destruct (N.ltb_spec (len b) (wire16 b 4)); split; intros; try reflexivity; lia.
Qed.
Example c03_example : udp_new [0; 1; 0; 2; 0; 9; 0; 0; 7] = Ok [0; 1; 0; 2; 0; 9; 0; 0; 7] /\
  udp_new [0; 1; 0; 2; 0; 9; 0; 0] = Err SmallBuffer /\ udp_no_payload [0; 1; 0; 2; 0; 9; 0; 0] = Ok [0; 1; 0; 2; 0; 9; 0; 0] /\
  udp_new [0; 1; 0; 2; 0; 7; 0] = Err SmallBuffer.
Proof. repeat split. Qed.
Lemma udp_new_iff b p : udp_new b = Ok p <-> p = b /\ 8 <= len b /\ wire16 b 4 <= len b.
Proof.
  destruct (c03_udp_new b) as (H1 & H2). split.
  - intros Hp. destruct (N.ltb_spec (len b) 8); [rewrite H2 in Hp by lia; discriminate|].
    destruct (N.ltb_spec (len b) (wire16 b 4)); [rewrite H2 in Hp by lia; discriminate|].
    rewrite H1 in Hp by lia. injection Hp as <-. auto.
  - intros (-> & ? & ?). apply H1; lia.
Qed.

(** ** C04 *)
(** C04: tcp::Packet::new. *)
Lemma c04_tcp_new : forall b,
  let offset := nthN b 12 / 16 in
  (20 <= len b -> offset * 4 <= len b -> tcp_new b = Ok b) /\
  (len b < 20 \/ len b < offset * 4 -> tcp_new b = Err SmallBuffer).
Proof.
  intros b offset; unfold tcp_new, tcp_header_min, tcp_offset.
  destruct (N.ltb_spec (len b) 20).
  - split; intros; [lia|reflexivity].
  - rewrite index_ok by lia. cbn [bind]. rewrite shiftr4_div. fold offset.
    destruct (N.ltb_spec (len b) (offset * 4)); split; intros; try reflexivity; lia.
Qed.
Lemma tcp_new_iff b p : tcp_new b = Ok p <-> p = b /\ 20 <= len b /\ nthN b 12 / 16 * 4 <= len b.
Proof.
  destruct (c04_tcp_new b) as (H1 & H2). split.
  - intros Hp. destruct (N.ltb_spec (len b) 20); [rewrite H2 in Hp by lia; discriminate|].
    destruct (N.ltb_spec (len b) (nthN b 12 / 16 * 4)); [rewrite H2 in Hp by lia; discriminate|].
    rewrite H1 in Hp by lia. injection Hp as <-. auto.
  - intros (-> & ? & ?). apply H1; lia.
Qed.
Lemma c04_tcp_offset_below_5_accepted_refuted : exists b,
  tcp_new b = Ok b /\ nthN b 12 / 16 < 5.
Proof. exists (zeros 20). split; reflexivity. Qed.
Example c04_example : let b := repeat 0 12%nat ++ [96] ++ repeat 0 11%nat in
  tcp_new b = Ok b /\ tcp_new (takeN 23 b) = Err SmallBuffer /\ tcp_new (takeN 19 b) = Err SmallBuffer.
Proof. repeat split. Qed.

(** ** C05 *)
(** C05: icmp::Packet::new. *)
Lemma c05_icmp_new : forall b,
  (4 <= len b -> icmp_new b = Ok b) /\ (len b < 4 -> icmp_new b = Err SmallBuffer).
Proof.
  intros b; unfold icmp_new, icmp_header_min. destruct (N.ltb_spec (len b) 4); split; intros; try reflexivity; lia.
Qed.

Lemma typed_new_spec min accept types b :
  0 < min -> (forall x, accept (icmp_kind_from x) = true <-> In x types) ->
  (len b < min -> icmp_typed_new min accept b = Err SmallBuffer) /\
  (min <= len b -> In (nthN b 0) types -> icmp_typed_new min accept b = Ok b) /\
  (min <= len b -> ~ In (nthN b 0) types -> icmp_typed_new min accept b = Err InvalidPacket).
Proof.
  intros Hm Ha. unfold icmp_typed_new. destruct (N.ltb_spec (len b) min).
  - repeat split; intros; try lia; reflexivity.
  - rewrite index_ok by lia. cbn [bind]. specialize (Ha (nthN b 0)).
    destruct (accept _); repeat split; intros; try lia; try reflexivity; exfalso; intuition congruence.
Qed.
Lemma icmp_kind_into_from x : icmp_kind_into (icmp_kind_from x) = x.
Proof.
  unfold icmp_kind_from.
  repeat match goal with |- context [match ?p with _ => _ end] => is_var p; destruct p end; reflexivity.
Qed.
Ltac accept_iff :=
  intros x; split;
  [ intros Hx; rewrite <- (icmp_kind_into_from x); destruct (icmp_kind_from x); try discriminate Hx;
    cbn; tauto
  | intros Hx; cbn [In] in Hx; repeat (destruct Hx as [<-|Hx]; [reflexivity|]); destruct Hx ].


(** C05: echo (8 bytes, types 8 and 0). *)
Lemma c05_echo_new : typed_parser echo_new 8 [8; 0].
Proof. intros b. apply typed_new_spec; [lia|]. accept_iff. Qed.
(** C05: timestamp (20 bytes, types 13 and 14). *)
Lemma c05_timestamp_new : typed_parser timestamp_new 20 [13; 14].
Proof. intros b. apply typed_new_spec; [lia|]. accept_iff. Qed.
(** C05: information (8 bytes, types 15 and 16). *)
Lemma c05_information_new : typed_parser information_new 8 [15; 16].
Proof. intros b. apply typed_new_spec; [lia|]. accept_iff. Qed.
(** C05: parameter problem (8 bytes, type 12). *)
Lemma c05_parameter_problem_new : typed_parser parameter_problem_new 8 [12].
Proof. intros b. apply typed_new_spec; [lia|]. accept_iff. Qed.
(** C05: redirect (8 bytes, type 5). *)
Lemma c05_redirect_message_new : typed_parser redirect_message_new 8 [5].
Proof. intros b. apply typed_new_spec; [lia|]. accept_iff. Qed.
(** C05: destination unreachable, source quench, time exceeded (8 bytes, types 3, 4, 11). *)
Lemma c05_previous_new : typed_parser previous_new 8 [3; 4; 11].
Proof. intros b. apply typed_new_spec; [lia|]. accept_iff. Qed.

Lemma typed_inv parse min types b p : typed_parser parse min types -> parse b = Ok p ->
  p = b /\ min <= len b /\ In (nthN b 0) types.
Proof.
  intros H Hp. destruct (H b) as (H1 & H2 & H3).
  destruct (N.ltb_spec (len b) min); [rewrite H1 in Hp by lia; discriminate|].
  destruct (in_dec N.eq_dec (nthN b 0) types) as [Hi|Hi].
  - rewrite H2 in Hp by assumption. injection Hp as <-. auto.
  - rewrite H3 in Hp by assumption. discriminate.
Qed.
(** C05: no message is accepted by two of the typed parsers. *)
Lemma c05_typed_parsers_disjoint :
  let parsers := [echo_new; timestamp_new; information_new; parameter_problem_new;
                  redirect_message_new; previous_new] in
  forall i j f g b p q,
  nth_error parsers i = Some f -> nth_error parsers j = Some g ->
  f b = Ok p -> g b = Ok q -> i = j.
Proof.
  intros parsers i j f g b p q Hi Hj Hf Hg.
  assert (Ha : exists m ts, nth_error [[8; 0]; [13; 14]; [15; 16]; [12]; [5]; [3; 4; 11]] i = Some ts /\ typed_parser f m ts).
  { destruct i as [|[|[|[|[|[|i]]]]]]; cbn in Hi; try discriminate; [..|destruct i; discriminate];
      injection Hi as <-; eexists; eexists; (split; [reflexivity|]);
      first [apply c05_echo_new|apply c05_timestamp_new|apply c05_information_new
            |apply c05_parameter_problem_new|apply c05_redirect_message_new|apply c05_previous_new]. }
  assert (Hb : exists m ts, nth_error [[8; 0]; [13; 14]; [15; 16]; [12]; [5]; [3; 4; 11]] j = Some ts /\ typed_parser g m ts).
  { destruct j as [|[|[|[|[|[|j]]]]]]; cbn in Hj; try discriminate; [..|destruct j; discriminate];
      injection Hj as <-; eexists; eexists; (split; [reflexivity|]);
      first [apply c05_echo_new|apply c05_timestamp_new|apply c05_information_new
            |apply c05_parameter_problem_new|apply c05_redirect_message_new|apply c05_previous_new]. }
  destruct Ha as (m1 & t1 & E1 & P1), Hb as (m2 & t2 & E2 & P2).
  apply (typed_inv _ _ _ _ _ P1) in Hf. apply (typed_inv _ _ _ _ _ P2) in Hg.
  destruct Hf as (_ & _ & Hf), Hg as (_ & _ & Hg). set (x := nthN b 0) in *. clearbody x.
  destruct i as [|[|[|[|[|[|i]]]]]]; cbn in E1; try discriminate; [..|destruct i; discriminate];
  injection E1 as <-; cbn in Hf;
  (destruct j as [|[|[|[|[|[|j]]]]]]; cbn in E2; try discriminate; [..|destruct j; discriminate]);
  injection E2 as <-; cbn in Hg; try reflexivity; exfalso; lia.
Qed.
Example c05_examples :
  echo_new [8; 0; 0; 0; 0; 1; 0; 2] = Ok [8; 0; 0; 0; 0; 1; 0; 2] /\
  previous_new [8; 0; 0; 0; 0; 1; 0; 2] = Err InvalidPacket /\ echo_new [8] = Err SmallBuffer.
Proof. repeat split. Qed.

(** ** C06 *)
(** C06: the generic IP constructors. *)
Lemma c06_ip_new : forall b,
  let version := nthN b 0 / 16 in
  (b = [] -> ip_new b = Panic) /\
  (b <> [] -> version = 4 -> ip_new b = match v4_new b with Ok p => Ok (V4 p) | Err e => Err e | Panic => Panic end) /\
  (b <> [] -> version = 6 -> ip_new b = Ok (V6 b)) /\
  (b <> [] -> version <> 4 -> version <> 6 -> ip_new b = Err InvalidPacket).
Proof.
  intros b version. unfold ip_new. destruct b as [|x b]; [repeat split; intros; congruence|].
  rewrite index_ok by (autorewrite with len; lia). cbn [bind]. rewrite shiftr4_div. fold version.
  repeat split; intros.
  - congruence.
  - rewrite H0. unfold bind. reflexivity.
  - rewrite H0. unfold v6_new, v6_no_payload, v6_header_min. destruct (N.ltb_spec (len (x :: b)) 0); [lia|].
    rewrite index_ok by (autorewrite with len; lia). cbn [bind]. rewrite shiftr4_div.
    fold version. rewrite H0. reflexivity.
  - clearbody version.
    repeat match goal with |- context [match ?p with _ => _ end] => is_var p; destruct p end;
      try reflexivity; lia.
Qed.
Lemma c06_ip_no_payload : forall b,
  let version := nthN b 0 / 16 in
  (b = [] -> ip_no_payload b = Panic) /\
  (b <> [] -> version = 4 -> ip_no_payload b = match v4_no_payload b with Ok p => Ok (V4 p) | Err e => Err e | Panic => Panic end) /\
  (b <> [] -> version = 6 -> ip_no_payload b = Ok (V6 b)) /\
  (b <> [] -> version <> 4 -> version <> 6 -> ip_no_payload b = Err InvalidPacket).
Proof.
  intros b version. unfold ip_no_payload. destruct b as [|x b]; [repeat split; intros; congruence|].
  rewrite index_ok by (autorewrite with len; lia). cbn [bind]. rewrite shiftr4_div. fold version.
  repeat split; intros.
  - congruence.
  - rewrite H0. unfold bind. reflexivity.
  - rewrite H0. unfold v6_no_payload, v6_header_min. destruct (N.ltb_spec (len (x :: b)) 0); [lia|].
    rewrite index_ok by (autorewrite with len; lia). cbn [bind]. rewrite shiftr4_div.
    fold version. rewrite H0. reflexivity.
  - clearbody version.
    repeat match goal with |- context [match ?p with _ => _ end] => is_var p; destruct p end;
      try reflexivity; lia.
Qed.
(** C06: unchecked panics exactly on empty input or a version other than 4 and 6. *)
Lemma c06_ip_unchecked : forall b,
  let version := nthN b 0 / 16 in
  (b = [] \/ (version <> 4 /\ version <> 6) -> ip_unchecked b = Panic) /\
  (b <> [] -> version = 4 -> ip_unchecked b = Ok (V4 b)) /\
  (b <> [] -> version = 6 -> ip_unchecked b = Ok (V6 b)).
Proof.
  intros b version. unfold ip_unchecked. destruct b as [|x b].
  - repeat split; intros; congruence.
  - rewrite index_ok by (autorewrite with len; lia). cbn [bind]. rewrite shiftr4_div. fold version.
    repeat split; intros.
    + destruct H as [H|[H H0]]; [discriminate|]. clearbody version.
      repeat match goal with |- context [match ?p with _ => _ end] => is_var p; destruct p end;
        try reflexivity; lia.
    + rewrite H0; reflexivity.
    + rewrite H0; reflexivity.
Qed.
(** C06: ip::v6::Packet::new. *)
Lemma c06_v6_new : forall b,
  (b = [] -> v6_new b = Panic) /\
  (b <> [] -> nthN b 0 / 16 = 6 -> v6_new b = Ok b) /\
  (b <> [] -> nthN b 0 / 16 <> 6 -> v6_new b = Err InvalidPacket).
Proof.
  intros b. unfold v6_new, v6_no_payload, v6_header_min. destruct (N.ltb_spec (len b) 0); [lia|].
  destruct b as [|x b]; [repeat split; intros; congruence|].
  rewrite index_ok by (autorewrite with len; lia). cbn [bind]. rewrite shiftr4_div.
  destruct (N.eqb_spec (nthN (x :: b) 0 / 16) 6); cbn [negb]; repeat split; intros; try reflexivity; congruence.
Qed.
Example c06_example : let b := 69 :: 0 :: 0 :: 20 :: repeat 0 16%nat in
  ip_new b = Ok (V4 b) /\ ip_new [96; 1] = Ok (V6 [96; 1]) /\ ip_new [80; 1] = Err InvalidPacket /\
  ip_new [69] = Err SmallBuffer /\ ip_new [] = Panic /\ v6_new [] = Panic /\ ip_unchecked [80; 1] = Panic.
Proof. repeat split. Qed.
