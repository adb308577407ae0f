(** * TraceProofs: finding the way to a host from the errors that come back (C84). *)
From Verif Require Import Base Enums Buffer Ether Ipv4 Ip Udp Tcp Icmp Builders Spec SpecCalls SpecBuild SpecEdit SpecForward SpecFrame SpecMachine SpecReceiver SpecRoute SpecBlame SpecTrace
  Lemmas AccessProofs ParseProofs FieldProofs SliceProofs Mutable MutableProofs EnumProofs ChecksumLemmas ChecksumProofs GuardProofs EditProofs ForwardProofs FrameProofs CorruptProofs
  BuildLemmas FinalLemmas ReadLemmas BuilderProofs ChainLemmas MessageProofs MachineProofs FrameMachineProofs ReceiverProofs RouteProofs BlameProofs.
From Coq Require Import ZifyBool ZifyNat ZifyN.
Ltac Zify.zify_post_hook ::= Z.div_mod_to_equations.

Notation raw := (fun p : bytes => p).
Notation ok_raw := (frame_packet_ok raw is_bytes).
Lemma as_error_on E k c x0 x1 x2 x3 rest : is_bytes rest -> u8 k -> u8 c -> u8 x2 -> u8 x3 ->
  let ck := nonzero_checksum (drop_odd (k :: c :: 0 :: 0 :: rest)) in
  as_error E k c (x0 :: x1 :: x2 :: x3 :: rest) = (k :: c :: ck / 256 :: ck mod 256 :: rest, Ok tt).
Proof.
  intros Hr Hk Hc H2 H3 ck.
  assert (L : forall a b c d : N, len (a :: b :: c :: d :: rest) = 4 + len rest) by (intros; autorewrite with len; lia).
  unfold as_error, mseq. rewrite set_index_ok by (rewrite L; lia). change (patch 0 [k] (x0 :: x1 :: x2 :: x3 :: rest)) with (k :: x1 :: x2 :: x3 :: rest).
  rewrite set_index_ok by (rewrite L; lia). change (patch 1 [c] (k :: x1 :: x2 :: x3 :: rest)) with (k :: c :: x2 :: x3 :: rest).
  unfold mlet. rewrite c23_icmp_checksum by (repeat (apply Forall_cons; [assumption|]); exact Hr).
  rewrite zero_field_eq by (rewrite L; lia).
  change (takeN 2 (k :: c :: x2 :: x3 :: rest) ++ [0; 0] ++ dropN (2 + 2) (k :: c :: x2 :: x3 :: rest)) with (k :: c :: 0 :: 0 :: rest).
  fold ck. rewrite write_u16_ok by (rewrite L; lia).
  change (patch 2 (be16 ck) (k :: c :: x2 :: x3 :: rest)) with (k :: c :: be16 ck ++ rest).
  reflexivity.
Qed.

(** ** A report *)
Definition message_of (k c ck : N) (s : frame_packet bytes) : bytes :=
  error_message {| cf_type := k; cf_code := c; cf_checksum := ck |} [0; 0; 0; 0] (fr_ip s) (fr_options s) (fr_inner s) 8.
Definition ck_of (k c : N) (s : frame_packet bytes) : N := nonzero_checksum (drop_odd (message_of k c 0 s)).
Definition report_frame (k c : N) (mac : hwaddr) (a : ipv4addr) (s : frame_packet bytes) : frame_packet bytes :=
  sent [EtherSource mac; EtherDestination (ef_src (fr_ether s))] [V4SetTtl 64; V4SetSource a; V4SetDestination (vf_src (fr_ip s))] 1
    (message_of k c (ck_of k c s) s).
Definition quote_of (s : frame_packet bytes) : bytes := v4_wire (fr_ip s) ++ fr_options s ++ takeN 8 (fr_inner s).
Lemma quote_facts s : ok_raw s -> is_bytes (quote_of s) /\ 28 <= len (quote_of s) + 8 /\ len (quote_of s) <= 68 /\ is_bytes (fr_options s) /\ is_bytes (fr_inner s).
Proof.
  intros (He & Hv & Hi). destruct Hv as (V1 & V2 & V3 & V4 & V5 & V6 & V7). cbn [frame_ip vp_header vp_options vp_payload vp_behind] in *.
  split; [|split; [|split; [|split]]]; [| | |exact V5|exact V6].
  - unfold quote_of. apply is_bytes_app. split; [apply is_bytes_v4_wire; exact V1|]. apply is_bytes_app. split; [exact V5|apply is_bytes_takeN; exact V6].
  - unfold quote_of. rewrite len_app, v4_wire_len. lia.
  - unfold quote_of. rewrite !len_app, v4_wire_len, len_takeN. destruct V1 as (_ & F2 & _). lia.
Qed.
Lemma report_ops k c mac a s : ok_raw s -> mac_ok mac -> addr_ok a ->
  eth_ok (Some [EtherSource mac; EtherDestination (ef_src (fr_ether s))]) /\
  Forall v4_arg_ok [V4SetTtl 64; V4SetSource a; V4SetDestination (vf_src (fr_ip s))] /\
  Forall echo_op_ok [EchoRequest; EchoPayload (quote_of s)] /\ (u8 k -> u8 c -> is_bytes (message_of k c (ck_of k c s) s)) /\
  forall ck, len (message_of k c ck s) = 8 + len (quote_of s).
Proof.
  intros Hs Hm Ha. destruct (quote_facts s Hs) as (Q1 & _). destruct Hs as ((E1 & E2 & E3) & (V1 & _) & _). cbn [frame_ip vp_header] in V1.
  split; [|split; [|split; [|split]]].
  - split; [|reflexivity]. repeat (apply Forall_cons; [assumption|]). apply Forall_nil.
  - apply Forall_cons; [split; [cbn; unfold u8; lia|exact I]|]. apply Forall_cons; [exact (conj Ha I)|]. apply Forall_cons; [split; [apply V1|exact I]|apply Forall_nil].
  - repeat (apply Forall_cons; [cbn; try exact Q1; try exact I|]); apply Forall_nil.
  - intros Hk Hc. pose proof (nonzero_lt (drop_odd (message_of k c 0 s))) as Hck. fold (ck_of k c s) in Hck. unfold u16 in Hck.
    unfold message_of, error_message. apply is_bytes_app. split; [apply is_bytes_icmp_wire; repeat split; assumption|].
    apply is_bytes_app. split; [repeat (apply Forall_cons; [unfold u8; lia|]); apply Forall_nil|exact Q1].
  - intros ck. unfold message_of, error_message, quote_of. rewrite !len_app. change (len (icmp_wire _)) with 4. change (len [0; 0; 0; 0]) with 4. lia.
Qed.
Lemma report_on E k c mac a s : ok_raw s -> mac_ok mac -> addr_ok a -> u8 k -> u8 c ->
  report E k c mac a (frame_bytes raw s) = Ok (frame_bytes raw (report_frame k c mac a s)).
Proof.
  intros Hs Hm Ha Hk Hc. pose proof Hs as (He & Hv & Hi). destruct (report_ops k c mac a s Hs Hm Ha) as (R1 & R2 & R3 & R4 & R5). specialize (R4 Hk Hc).
  destruct (quote_facts s Hs) as (Q1 & Q2 & Q3 & Q4 & Q5).
  unfold report. pose proof (frame_len14 raw s) as Hl. destruct (c01_ether_new (frame_bytes raw s)) as [N1 _]. rewrite N1 by exact Hl. cbn [bind].
  rewrite ether_payload_ok by exact Hl. rewrite frame_bytes_ip. destruct (c09_ether (fr_ether s) (v4_bytes (frame_ip raw s)) He) as (_ & _ & G & _). rewrite G. clear G. cbn [bind].
  replace (dropN 14 (ether_wire (fr_ether s) ++ v4_bytes (frame_ip raw s))) with (v4_bytes (frame_ip raw s)) by (rewrite <- (ether_wire_len (fr_ether s)) at 1; symmetry; apply dropN_app_len).
  rewrite v4_new_bytes by exact Hv. cbn [bind]. assert (H20 : 20 <= len (v4_bytes (frame_ip raw s))) by (rewrite v4_len; lia).
  rewrite v4_ihl_ok by lia. cbn [bind]. rewrite v4_length_ok by exact H20. cbn [bind]. rewrite v4_source_ok by exact H20. cbn [bind].
  destruct (frame_addrs raw s) as [A1 _]. rewrite A1, v4_ihl_bytes, total_cell by exact Hv.
  destruct Hv as (V1 & V2 & V3 & V4 & V5 & V6 & V7). cbn [frame_ip vp_header vp_options vp_payload vp_behind] in V1, V2, V3, V4, V5, V6, V7.
  change (vp_header (frame_ip raw s)) with (fr_ip s).
  assert (Hq : slice_to (v4_bytes (frame_ip raw s)) (N.min (vf_ihl (fr_ip s) * 4 + 8) (vf_total (fr_ip s))) = Ok (quote_of s)).
  { rewrite slice_to_ok. 2:{ rewrite v4_len. cbn [frame_ip vp_header vp_options vp_payload vp_behind]. lia. }
    f_equal. unfold v4_bytes, quote_of. cbn [frame_ip vp_header vp_options vp_payload vp_behind]. rewrite !(app_assoc (v4_wire _)). set (h := v4_wire (fr_ip s) ++ fr_options s).
    assert (Hh : len h = 20 + len (fr_options s)) by (unfold h; rewrite len_app, v4_wire_len; reflexivity).
    rewrite takeN_app2 by lia. f_equal. rewrite Hh. destruct (N.leb_spec 8 (len (fr_inner s))).
    - rewrite takeN_app1 by lia. f_equal. lia.
    - rewrite takeN_app1 by lia. rewrite !takeN_all by lia. reflexivity. }
  rewrite Hq. cbn [bind]. set (eops := [EtherSource mac; _]) in *. set (vs := [V4SetTtl 64; _; _]) in *.
  assert (Hi' : 65600 <= @ISIZE_MAX E) by (pose proof (@width_facts E); lia).
  pose proof (c36_echo_bytes E (Some (Some eops, vs)) [EchoRequest; EchoPayload (quote_of s)] (quote_of s) (conj R1 R2) R3 (or_introl eq_refl) ltac:(lia)) as G.
  change (echo_after [EchoRequest; EchoPayload (quote_of s)]) with (8, 0, 0) in G. cbv zeta in G. destruct G as [G _]. specialize (G (or_introl (or_introl eq_refl))).
  set (ck0 := nonzero_checksum _) in G. set (m0 := ident_wire {| cf_type := 8; cf_code := 0; cf_checksum := ck0 |} 0 0 ++ quote_of s) in G.
  assert (Hck0 : u16 ck0) by apply nonzero_lt. unfold u16 in Hck0.
  assert (Hlm0 : len m0 = 8 + len (quote_of s)) by (unfold m0; rewrite len_app; reflexivity).
  assert (Bm0 : is_bytes m0).
  { apply is_bytes_app; split; [|exact Q1]. apply is_bytes_ident; unfold u16; try lia. repeat split; cbn; unfold u8, u16; lia. }
  assert (G' : echo_chain E (Some (Some eops, vs)) [EchoRequest; EchoPayload (quote_of s)] dynamic_new = Ok (frame_bytes raw (sent eops vs 1 m0))).
  { rewrite G, sent_bytes, Hlm0. cbn [icmp_outer]. rewrite <- app_assoc. reflexivity. }
  rewrite G'. cbn [bind]. clear G G'.
  destruct (sent_ok eops vs 1 m0 R1 R2) as (S1 & _); [unfold u8; lia|exact Bm0|lia|]. destruct S1 as (_ & S1 & _).
  rewrite frame_bytes_ip, edit_datagram_on by (apply v4_new_bytes, S1).
  rewrite edit_transport_on; [|exact S1|].
  2:{ change (vp_payload (frame_ip raw (sent eops vs 1 m0))) with m0. unfold icmp_new, icmp_unchecked, icmp_header_min. replace (len m0 <? 4) with false by lia. reflexivity. }
  cbv zeta. change (vp_payload (frame_ip raw (sent eops vs 1 m0))) with m0.
  assert (Hmm : as_error E k c m0 = (message_of k c (ck_of k c s) s, Ok tt)).
  { unfold m0, ident_wire. change (icmp_wire _) with [8; 0; ck0 / 256; ck0 mod 256]. cbn [app].
    rewrite as_error_on; [| |exact Hk|exact Hc|unfold u8; lia|unfold u8; lia]; [reflexivity|].
    repeat (apply Forall_cons; [unfold u8; lia|]). exact Q1. }
  rewrite Hmm. cbn [fst snd]. unfold report_frame. fold eops vs. unfold frame_bytes, sent.
  cbn [fr_ether fr_ip fr_options fr_inner fr_padding frame_ip vp_header vp_options vp_payload vp_behind]. rewrite Hlm0, R5. reflexivity.
Qed.
Lemma message_valid E k c s : ok_raw s -> u8 k -> u8 c -> 0 < k ->
  let m := message_of k c (ck_of k c s) s in
  icmp_new m = Ok m /\ icmp_is_valid E m = Ok true /\ (len m mod 2 = 0 -> receiver_accepts m).
Proof.
  intros Hs Hk Hc H0 m. destruct (quote_facts s Hs) as (Q1 & Q2 & Q3 & _).
  set (ck := ck_of k c s) in *. assert (Hck : u16 ck) by apply nonzero_lt.
  assert (Hl : len m = 8 + len (quote_of s)).
  { unfold m, message_of, error_message, quote_of. rewrite !len_app. change (len (icmp_wire _)) with 4. change (len [0; 0; 0; 0]) with 4. lia. }
  assert (Hb : is_bytes m).
  { unfold u16 in Hck. unfold m, message_of, error_message. apply is_bytes_app. split; [apply is_bytes_icmp_wire; repeat split; assumption|].
    apply is_bytes_app. split; [repeat (apply Forall_cons; [unfold u8; lia|]); apply Forall_nil|exact Q1]. }
  assert (Hn : icmp_new m = Ok m) by (unfold icmp_new, icmp_unchecked, icmp_header_min; replace (len m <? 4) with false by lia; reflexivity).
  assert (Hv : icmp_is_valid E m = Ok true).
  { unfold icmp_is_valid. rewrite c23_icmp_checksum by exact Hb. cbn [bind]. unfold icmp_checksum. rewrite get16 by lia. cbn [bind]. f_equal.
    rewrite zero_field_eq by lia. change (takeN 2 m ++ [0; 0] ++ dropN (2 + 2) m) with (message_of k c 0 s). fold (ck_of k c s). fold ck.
    unfold u16 in Hck. change (wire16 m 2) with (ck / 256 * 256 + ck mod 256). lia. }
  split; [exact Hn|]. split; [exact Hv|]. intros He.
  pose proof Hv as Hv'. apply icmp_is_valid_iff in Hv'; [|exact Hb|lia]. rewrite drop_odd_even in Hv' by exact He.
  destruct Hv' as [[Ha _]|Hz]; [exact Ha|]. exfalso. apply word_sum_zero_iff in Hz. inversion Hz as [|x l Hx]. change (0 = k) in Hx. lia.
Qed.
Lemma report_facts k c mac a s : ok_raw s -> mac_ok mac -> addr_ok a -> u8 k -> u8 c -> 0 < k ->
  let r := report_frame k c mac a s in ok_raw r /\ routable r /\ error_about k c mac a s r.
Proof.
  intros Hs Hm Ha Hk Hc H0 r. destruct (report_ops k c mac a s Hs Hm Ha) as (R1 & R2 & R3 & R4 & R5). specialize (R4 Hk Hc).
  destruct (quote_facts s Hs) as (Q1 & Q2 & Q3 & _).
  destruct (sent_ok [EtherSource mac; EtherDestination (ef_src (fr_ether s))] [V4SetTtl 64; V4SetSource a; V4SetDestination (vf_src (fr_ip s))] 1
    (message_of k c (ck_of k c s) s) R1 R2) as (S1 & S2 & S3); [unfold u8; lia|exact R4|rewrite R5; lia|].
  split; [exact S1|]. split; [exact S2|]. exists (ck_of k c s). split; [apply nonzero_lt|]. split; [reflexivity|].
  split; [apply (message_valid {| overflow_checks := true; cursor_eof := EofKeep; target := Bits64 |} k c s Hs Hk Hc H0)|].
  split; [reflexivity|]. split; [reflexivity|]. split; [reflexivity|]. split; [reflexivity|]. split; [exact S3|]. split; reflexivity.
Qed.

(** ** The flow an error names *)
Definition probe_like (s : frame_packet bytes) (u : udp_fields) (payload : bytes) : Prop :=
  ok_raw s /\ routable s /\ vf_proto (fr_ip s) = 17 /\ fr_inner s = udp_wire u ++ payload /\ udp_fields_ok u /\ uf_length u = 8 + len payload /\ is_bytes payload.
Lemma tolerant_report k c ck s u payload : probe_like s u payload -> u8 k -> u8 c -> u16 ck -> error_type k ->
  tolerant (message_of k c ck s) = Ok (flow_of IP_Udp (fr_ip s) (uf_src u) (uf_dst u)).
Proof.
  intros ((He & Hv & Hi) & Hr & Hp & Hin & Hu & Hul & Hpl) Hk Hc Hck Ht. destruct Hv as (V1 & V2 & V3 & V4 & V5 & V6 & V7).
  cbn [frame_ip vp_header vp_options vp_payload vp_behind] in V1, V2, V3, V4, V5, V6, V7.
  unfold message_of. rewrite Hin in *.
  apply (c81_udp {| cf_type := k; cf_code := c; cf_checksum := ck |} [0; 0; 0; 0] (fr_ip s) (fr_options s) u payload 8); try assumption; try reflexivity; try lia.
  - split; [exact Hk|split; [exact Hc|exact Hck]].
  - repeat (apply Forall_cons; [unfold u8; lia|]); apply Forall_nil.
  - split; [exact V1|]. split; [exact V2|]. split; [exact V3|exact V4].
Qed.

(** ** There and back *)
Lemma gives_up_on E s : ok_raw s -> routable s -> vf_proto (fr_ip s) = 17 -> gives_up E (frame_bytes raw s) = Ok (vf_ttl (fr_ip s) <=? 1).
Proof.
  intros Hs Hr Hp. unfold gives_up. rewrite (receive_routable raw is_bytes) by assumption. rewrite Hp. change (ip_protocol_from 17) with IP_Udp. cbv iota.
  unfold v4_ttl. rewrite index_ok by (rewrite v4_len; lia). reflexivity.
Qed.
Lemma same_address_iff x y : same_address x y = true <-> x = y.
Proof.
  unfold same_address. destruct x as [a b c d], y as [a' b' c' d']. cbn [ip_a ip_b ip_c ip_d]. split.
  - intros H. f_equal; lia.
  - intros [= -> -> -> ->]. rewrite !N.eqb_refl. reflexivity.
Qed.
Lemma for_host_at E y s : ok_raw s -> receive_udp E (frame_bytes raw s) = Ok true -> for_host E y (frame_bytes raw s) = Ok (same_address (vf_dst (fr_ip s)) (address y)).
Proof.
  intros Hs Hr. unfold for_host. rewrite Hr. cbn [bind]. pose proof (frame_len14 raw s) as Hl. destruct (c01_ether_new (frame_bytes raw s)) as [N1 _]. rewrite N1 by exact Hl. cbn [bind].
  rewrite ether_payload_ok by exact Hl. cbn [bind]. rewrite frame_bytes_ip.
  replace (dropN 14 (ether_wire (fr_ether s) ++ v4_bytes (frame_ip raw s))) with (v4_bytes (frame_ip raw s)) by (rewrite <- (ether_wire_len (fr_ether s)) at 1; symmetry; apply dropN_app_len).
  destruct Hs as (He & Hv & Hi). rewrite v4_new_bytes by exact Hv. cbn [bind]. rewrite v4_destination_ok by (rewrite v4_len; lia). cbn [bind].
  destruct (frame_addrs raw s) as [_ A2]. rewrite A2. reflexivity.
Qed.
Lemma for_host_on E y s : ok_raw s -> receive_udp E (frame_bytes raw s) = Ok true -> vf_dst (fr_ip s) = address y -> for_host E y (frame_bytes raw s) = Ok true.
Proof. intros Hs Hr Hd. rewrite for_host_at by assumption. rewrite Hd. f_equal. apply same_address_iff. reflexivity. Qed.
Lemma travelled_snoc l h (s : frame_packet bytes) : travelled (l ++ [h]) s = readdressed h (vf_ttl (fr_ip (travelled l s)) - 1) (travelled l s).
Proof.
  unfold travelled at 1. rewrite rev_unit, travelled_ttl, app_length. cbn [length].
  replace (vf_ttl (fr_ip s) - N.of_nat (length l + 1)) with (vf_ttl (fr_ip s) - N.of_nat (length l) - 1) by lia.
  unfold travelled. destruct (rev l); [reflexivity|]. rewrite readdressed_again. reflexivity.
Qed.
Lemma one_hop E h s : ok_raw s -> routable s -> hop_ok h -> 2 <= vf_ttl (fr_ip s) ->
  router E h (frame_bytes raw s) = (frame_bytes raw (travelled [h] s), Ok tt) /\ ok_raw (travelled [h] s) /\ routable (travelled [h] s).
Proof.
  intros Hs Hr Hh Ht. destruct (router_on raw is_bytes E h s Hs) as [R _]. destruct (R Hr Ht) as (R1 & R2 & R3).
  change (travelled [h] s) with (readdressed h (vf_ttl (fr_ip s) - 1) s). auto.
Qed.
Lemma probe_hop (E : env) h s u payload : probe_like s u payload -> hop_ok h -> 2 <= vf_ttl (fr_ip s) -> probe_like (travelled [h] s) u payload.
Proof.
  intros (P1 & P2 & P3 & P6 & P7 & P8 & P9) Hh Ht. destruct (one_hop E h s P1 P2 Hh Ht) as (R1 & R2 & R3).
  destruct (travelled_fields [h] s) as (F1 & F2 & F3 & F4). unfold probe_like. rewrite F1, F4. auto 10.
Qed.
Lemma received_hop E h s v : ok_raw s -> routable s -> hop_ok h -> 2 <= vf_ttl (fr_ip s) -> receive_udp E (frame_bytes raw s) = Ok v -> receive_udp E (frame_bytes raw (travelled [h] s)) = Ok v.
Proof.
  intros P1 P2 Hh Ht <-. destruct (one_hop E h s P1 P2 Hh Ht) as (R1 & R2 & R3).
  apply (c76_received _ raw is_bytes E E [h] s); try assumption; [apply Forall_cons; [exact Hh|apply Forall_nil]|].
  cbn [route]. unfold mseq. rewrite R1. reflexivity.
Qed.
Lemma exchange_on E target path : host_ok target -> Forall station_ok path ->
  forall s u payload, probe_like s u payload -> 1 <= vf_ttl (fr_ip s) ->
  (N.of_nat (length path) < vf_ttl (fr_ip s) -> vf_dst (fr_ip s) = address target /\ receive_udp E (frame_bytes raw s) = Ok true) ->
  let n := Nat.min (N.to_nat (vf_ttl (fr_ip s) - 1)) (length path) in
  let s' := travelled (firstn n (map forth path)) s in
  let '(kind, code, mac, ip) := reporter path target n in
  let r := travelled (rev (firstn n (map back path))) (report_frame kind code mac ip s') in
  exchange E path target (frame_bytes raw s) = (if (n <? 64)%nat then Ok (Some (frame_bytes raw r)) else Ok None) /\ ((n < 64)%nat -> probe_like s' u payload /\ ok_raw r /\ routable r).
Proof.
  intros Ht. induction path as [|p path IH]; intros Hp s u payload Hs H1 Hend.
  - cbn [length map firstn rev reporter nth_error exchange]. rewrite Nat.min_0_r. cbn [firstn rev reporter nth_error].
    change (travelled [] s) with s. pose proof Hs as (P1 & P2 & _). destruct Hend as [P4 P9]; [cbn [length]; lia|]. destruct Ht as [T1 T2].
    rewrite for_host_on by assumption. cbn [bind]. rewrite report_on by (assumption || (unfold u8; lia)). cbn [bind].
    destruct (report_facts 3 3 (its_mac target) (address target) s) as (R1 & R2 & _); try assumption; try (unfold u8; lia).
    split; [reflexivity|]. intros _. split; [exact Hs|]. split; [exact R1|exact R2].
  - inversion_clear Hp as [|? ? (Hf & Hb & Hi) Hp']. pose proof Hs as (P1 & P2 & P3 & _). cbn [exchange length map].
    destruct (N.ltb_spec (vf_ttl (fr_ip s)) 2) as [Hlt|Hge].
    + replace (N.to_nat (vf_ttl (fr_ip s) - 1)) with 0%nat by lia. cbn [Nat.min firstn rev reporter nth_error]. change (travelled [] s) with s.
      destruct (router_on raw is_bytes E (forth p) s P1) as [_ R]. rewrite R by (intros [_ H]; lia).
      rewrite gives_up_on by assumption. replace (vf_ttl (fr_ip s) <=? 1) with true by lia. cbn [verdict bind].
      destruct Hb as [Hb1 Hb2]. rewrite report_on by (assumption || (unfold u8; lia)). cbn [bind].
      destruct (report_facts 11 0 (mine (back p)) (its_ip p) s) as (R1 & R2 & _); try assumption; try (unfold u8; lia).
      split; [reflexivity|]. intros _. split; [exact Hs|]. split; [exact R1|exact R2].
    + destruct (one_hop E (forth p) s P1 P2 Hf Hge) as (R1 & R2 & R3). rewrite R1.
      specialize (IH Hp' (travelled [forth p] s) u payload (probe_hop E (forth p) s u payload Hs Hf Hge)).
      rewrite travelled_ttl in IH. change (N.of_nat (length [forth p])) with 1 in IH. specialize (IH ltac:(lia)).
      assert (Hend' : N.of_nat (length path) < vf_ttl (fr_ip s) - 1 -> vf_dst (fr_ip (travelled [forth p] s)) = address target /\ receive_udp E (frame_bytes raw (travelled [forth p] s)) = Ok true).
      { intros Hlt. destruct Hend as [D1 D2]; [cbn [length]; lia|]. destruct (travelled_fields [forth p] s) as (_ & _ & F3 & _). rewrite F3. split; [exact D1|]. apply received_hop; assumption. }
      specialize (IH Hend'). clear Hend'. cbv zeta in IH.
      assert (Hn : N.to_nat (vf_ttl (fr_ip s) - 1) = Datatypes.S (N.to_nat (vf_ttl (fr_ip s) - 1 - 1))) by lia. rewrite Hn. cbn [Nat.min firstn rev].
      set (n := Nat.min (N.to_nat (vf_ttl (fr_ip s) - 1 - 1)) (length path)) in *.
      assert (Hnl : (n <= length path)%nat) by apply Nat.le_min_r.
      change (travelled [forth p] s) with (readdressed (forth p) (vf_ttl (fr_ip s) - 1) s) in IH.
      rewrite travelled_cons in IH. change (reporter (p :: path) target (Datatypes.S n)) with (reporter path target n).
      destruct (reporter path target n) as [[[kind code] mac] ip]. destruct IH as (I1 & I2).
      set (s' := travelled (forth p :: firstn n (map forth path)) s) in *.
      change (travelled [forth p] s) with (readdressed (forth p) (vf_ttl (fr_ip s) - 1) s). rewrite I1.
      set (r := travelled (rev (firstn n (map back path))) (report_frame kind code mac ip s')) in *.
      destruct (Nat.ltb_spec n 64) as [Hn64|Hn64]; [|replace (Datatypes.S n <? 64)%nat with false by (symmetry; apply Nat.ltb_ge; lia); split; [reflexivity|lia]].
      cbn [bind]. destruct (I2 Hn64) as (I3 & I4 & I5). clear I2.
      assert (Hr : vf_ttl (fr_ip r) = 64 - N.of_nat n).
      { unfold r. rewrite travelled_ttl. change (vf_ttl (fr_ip (report_frame kind code mac ip s'))) with 64.
        rewrite rev_length, firstn_length, map_length. rewrite Nat.min_l by exact Hnl. reflexivity. }
      destruct (Nat.ltb_spec (Datatypes.S n) 64) as [Hs64|Hs64].
      * destruct (one_hop E (back p) r I4 I5 Hb ltac:(lia)) as (B1 & B2 & B3). rewrite B1.
        rewrite travelled_snoc. fold r. change (readdressed (back p) (vf_ttl (fr_ip r) - 1) r) with (travelled [back p] r).
        split; [reflexivity|]. intros _. split; [exact I3|]. split; [exact B2|exact B3].
      * destruct (router_on raw is_bytes E (back p) r I4) as [_ B]. rewrite B by (intros [_ H]; lia). split; [reflexivity|lia].
Qed.

(** ** What the tracer hears *)
Lemma payload_on p : v4_packet_ok p -> v4_payload (v4_bytes p) = Ok (vp_payload p).
Proof.
  intros Hv. pose proof Hv as (V1 & V2 & V3 & V4 & V5 & V6 & V7).
  assert (Hb : is_bytes (v4_bytes p)) by (apply v4_is_bytes; exact Hv).
  assert (Hn : v4_no_payload (v4_bytes p) = Ok (v4_bytes p)) by (apply new_no_payload, v4_new_bytes, Hv).
  destruct (read_ip _ Hb Hn) as (_ & _ & _ & R). rewrite R, total_cell, v4_ihl_bytes by exact Hv. f_equal. unfold v4_bytes. rewrite app_assoc.
  replace (vf_ihl (vp_header p) * 4) with (len (v4_wire (vp_header p) ++ vp_options p)) by (rewrite len_app, v4_wire_len; lia).
  rewrite dropN_app_len. replace (vf_total (vp_header p) - _) with (len (vp_payload p)) by (rewrite len_app, v4_wire_len; lia). apply takeN_app_len.
Qed.
Lemma heard_on E r k c a s u payload : ok_raw r -> routable r -> vf_proto (fr_ip r) = 1 -> vf_src (fr_ip r) = a -> probe_like s u payload ->
  u8 k -> u8 c -> error_type k -> fr_inner r = message_of k c (ck_of k c s) s ->
  heard E (frame_bytes raw r) = Ok (Some (a, icmp_kind_from k, flow_of IP_Udp (fr_ip s) (uf_src u) (uf_dst u))).
Proof.
  intros Hr Hro Hp Ha Hs Hk Hc Ht Hm. assert (H0 : 0 < k) by (cbn in Ht; lia).
  pose proof (proj1 Hs) as Hok. destruct (message_valid E k c s Hok Hk Hc H0) as (M1 & M2 & _).
  unfold heard. rewrite (receive_routable raw is_bytes) by assumption. rewrite Hp. change (ip_protocol_from 1) with IP_Icmp. cbv iota. rewrite Hm, M1. cbn [bind]. rewrite M2. cbn [verdict bind].
  pose proof (frame_len14 raw r) as Hl. destruct (c01_ether_new (frame_bytes raw r)) as [N1 _]. rewrite N1 by exact Hl. cbn [bind].
  rewrite ether_payload_ok by exact Hl. cbn [bind]. rewrite frame_bytes_ip.
  replace (dropN 14 (ether_wire (fr_ether r) ++ v4_bytes (frame_ip raw r))) with (v4_bytes (frame_ip raw r)) by (rewrite <- (ether_wire_len (fr_ether r)) at 1; symmetry; apply dropN_app_len).
  pose proof Hr as (_ & Hv & _). rewrite v4_new_bytes by exact Hv. cbn [bind]. rewrite v4_source_ok by (rewrite v4_len; lia). cbn [bind].
  destruct (frame_addrs raw r) as [A1 _]. rewrite A1, Ha. rewrite payload_on by exact Hv. cbn [bind]. change (vp_payload (frame_ip raw r)) with (fr_inner r). rewrite Hm, M1. cbn [bind].
  rewrite tolerant_report with (u := u) (payload := payload); try assumption; [|apply nonzero_lt].
  unfold icmp_get_kind. rewrite index_ok by (unfold message_of, error_message; rewrite len_app; change (len (icmp_wire _)) with 4; lia).
  reflexivity.
Qed.
Lemma about_on x ttl f s d : vf_src f = address (me x) -> vf_dst f = goal x -> s = port x -> d = 33434 + ttl ->
  about x ttl (flow_of IP_Udp f s d) = true.
Proof.
  intros H1 H2 -> ->. unfold about, flow_of. cbn [fl_proto fl_src fl_dst fl_sport fl_dport]. rewrite H1, H2, !N.eqb_refl.
  rewrite !(proj2 (same_address_iff _ _)) by reflexivity. reflexivity.
Qed.
Lemma seen_after E w p : len w mod 2 = 0 -> seen E (w ++ p) = w ++ seen E p.
Proof.
  intros Hw. unfold seen. destruct (cursor_eof E); [reflexivity|]. rewrite len_app. replace ((len w + len p) mod 2) with (len p mod 2) by lia.
  destruct (N.eqb_spec (len p mod 2) 1); [|reflexivity]. rewrite !alter_patch. rewrite patch_app2 by lia. do 2 f_equal. lia.
Qed.
Lemma seen_alike E En w p s d : is_bytes p -> len w mod 2 = 0 ->
  (inet_checksum (with_pseudo_header s d 17 (w ++ seen En p)) = inet_checksum (with_pseudo_header s d 17 (w ++ seen E p)) <-> alike E En p).
Proof.
  intros Hp Hw. unfold alike.
  assert (Hs : forall F, word_sum (seen F p) = word_sum p \/ (len p mod 2 = 1 /\ cursor_eof F = EofSeek /\ word_sum (seen F p) + nthN p (len p - 1) * 256 = word_sum p)).
  { intros F. unfold seen. destruct (cursor_eof F) eqn:HF; [left; reflexivity|]. destruct (N.eqb_spec (len p mod 2) 1) as [Ho|]; [|left; reflexivity].
    right. split; [exact Ho|]. split; [reflexivity|]. pose proof (word_sum_alter p (len p - 1) 0 ltac:(lia)) as Ha. replace ((len p - 1) mod 2 =? 0) with true in Ha by lia. lia. }
  pose proof (is_bytes_nth p (len p - 1) Hp) as Hn. unfold u8 in Hn.
  split.
  - intros H. destruct (N.eq_dec (len p mod 2) 0) as [|Ho]; [left; assumption|right]. destruct (N.eq_dec (nthN p (len p - 1)) 0) as [|Hz]; [left; assumption|right].
    assert (Hw2 : forall F, cursor_eof F = EofKeep -> word_sum (seen F p) = word_sum p) by (intros F HF; rewrite seen_covered by (right; exact HF); reflexivity).
    assert (Hw3 : forall F, cursor_eof F = EofSeek -> word_sum (seen F p) + nthN p (len p - 1) * 256 = word_sum p).
    { intros F HF. rewrite seen_odd by (lia || exact HF). pose proof (word_sum_alter p (len p - 1) 0 ltac:(lia)) as Ha. replace ((len p - 1) mod 2 =? 0) with true in Ha by lia. lia. }
    unfold inet_checksum in H. pose proof (ones_sum_lt (word_sum (with_pseudo_header s d 17 (w ++ seen E p)))). pose proof (ones_sum_lt (word_sum (with_pseudo_header s d 17 (w ++ seen En p)))).
    assert (H2 : ones_sum (word_sum (with_pseudo_header s d 17 (w ++ seen En p))) = ones_sum (word_sum (with_pseudo_header s d 17 (w ++ seen E p)))) by lia. clear H.
    apply ones_sum_inj in H2. rewrite !word_sum_pseudo, !len_app, !len_seen, !word_sum_app in H2 by exact Hw.
    set (x := word_sum (pseudo s d 17 (len w + len p)) + word_sum w) in *. set (n := nthN p (len p - 1)) in *.
    assert (G : (x + word_sum (seen En p)) mod 65535 = (x + word_sum (seen E p)) mod 65535) by (unfold x; rewrite <- !N.add_assoc; exact H2). clear H2.
    destruct (cursor_eof E) eqn:HE, (cursor_eof En) eqn:HEn; try reflexivity; exfalso.
    + rewrite (Hw2 E HE) in G. pose proof (Hw3 En HEn) as W. clear - G W Hn Hz. set (a := word_sum (seen En p)) in *. set (b := word_sum p) in *. clearbody x a b n. lia.
    + rewrite (Hw2 En HEn) in G. pose proof (Hw3 E HE) as W. clear - G W Hn Hz. set (a := word_sum (seen E p)) in *. set (b := word_sum p) in *. clearbody x a b n. lia.
  - intros [H|[H|H]].
    + rewrite !seen_covered by (left; exact H). reflexivity.
    + assert (G : forall F, word_sum (seen F p) = word_sum p) by (intros F; destruct (Hs F) as [G|(_ & _ & G)]; [exact G|rewrite H in G; lia]).
      unfold inet_checksum. rewrite !word_sum_pseudo, !len_app, !len_seen, !word_sum_app, !G by exact Hw. reflexivity.
    + unfold seen. rewrite H. reflexivity.
Qed.
Lemma probe_on E x ttl : tracer_ok x -> 1 <= ttl < 256 ->
  exists s u, probe E x ttl = Ok (frame_bytes raw s) /\ probe_like s u (filler x) /\ vf_ttl (fr_ip s) = ttl /\
    vf_src (fr_ip s) = address (me x) /\ vf_dst (fr_ip s) = goal x /\ uf_src u = port x /\ uf_dst u = 33434 + ttl /\
    forall En, exists v, receive_udp En (frame_bytes raw s) = Ok v /\ (v = true <-> alike E En (filler x)).
Proof.
  intros ((M1 & M2) & G1 & G2 & Po & Fb & Fl) Ht.
  set (eops := [EtherSource (its_mac (me x)); EtherDestination (gateway x)]). set (vs := [V4SetTtl ttl; V4SetSource (address (me x)); V4SetDestination (goal x)]).
  set (us := [UdpSet (UdpSetSource (port x)); UdpSet (UdpSetDestination (33434 + ttl)); UdpPayload (filler x)]). set (p := filler x) in *.
  assert (He : eth_ok (Some eops)).
  { split; [|reflexivity]. repeat (apply Forall_cons; [assumption|]). apply Forall_nil. }
  assert (Hv : Forall v4_arg_ok vs).
  { apply Forall_cons; [split; [unfold v4_setter_ok, u8; lia|exact I]|]. apply Forall_cons; [exact (conj M2 I)|]. apply Forall_cons; [exact (conj G2 I)|apply Forall_nil]. }
  assert (Hu : Forall udp_op_ok us).
  { apply Forall_cons; [exact Po|]. apply Forall_cons; [unfold udp_op_ok, udp_setter_ok, u16; lia|]. apply Forall_cons; [exact Fb|apply Forall_nil]. }
  assert (Hp1 : one_payload (udp_payloads us) p) by (left; reflexivity).
  assert (Hi : 65600 <= @ISIZE_MAX E) by (pose proof (@width_facts E); lia).
  set (w := udp_wire (udp_fill (udp_after us) (8 + len p) 0)).
  assert (Hlw : len w = 8) by apply len_udp_wire.
  set (ck := inet_checksum (with_pseudo_header (address (me x)) (goal x) 17 (w ++ seen E p))).
  assert (Hck : u16 ck) by apply inet_lt.
  set (u := udp_fill (udp_after us) (8 + len p) ck). set (q := udp_wire u ++ p).
  assert (Hlq : len q = 8 + len p) by (unfold q; rewrite len_app, len_udp_wire; reflexivity).
  assert (Huok : udp_fields_ok u).
  { pose proof (udp_after_ok us Hu) as (U1 & U2 & _). split; [exact U1|]. split; [exact U2|]. split; [unfold u, udp_fill, u16; cbn [uf_length]; lia|exact Hck]. }
  assert (Hqb : is_bytes q) by (apply is_bytes_app; split; [apply is_bytes_udp_wire, Huok|exact Fb]).
  destruct (sent_ok eops vs 17 q He Hv) as (S1 & S2 & S3); [unfold u8; lia|exact Hqb|lia|].
  exists (sent eops vs 17 q), u. split.
  { unfold probe. fold p. fold eops vs us. pose proof (udp_chain_gen E (Some eops) vs us p None [] [] He Hv Hu Hp1 dynamic_sized I (or_introl eq_refl)) as G. cbv zeta in G.
    change (mkbuf None [] []) with dynamic_new in G. rewrite G by (cbn [eth_size]; rewrite len_nil; lia). clear G. cbn [app].
    rewrite (N.mod_small (8 + len p) 65536) by lia. rewrite seen_after by (rewrite len_udp_wire; reflexivity).
    change (vf_src (v4_after vs)) with (address (me x)). change (vf_dst (v4_after vs)) with (goal x). fold w. fold ck. fold u. fold q. rewrite sent_bytes, Hlq. reflexivity. }
  split; [|split; [exact S3|split; [reflexivity|split; [reflexivity|split; [reflexivity|split; [reflexivity|]]]]]].
  { split; [exact S1|]. split; [exact S2|]. split; [reflexivity|]. split; [reflexivity|]. split; [exact Huok|]. split; [reflexivity|exact Fb]. }
  intros En. exists (inet_checksum (with_pseudo_header (address (me x)) (goal x) 17 (w ++ seen En p)) =? ck). split; [|rewrite N.eqb_eq; apply seen_alike; [exact Fb|rewrite Hlw; reflexivity]].
  unfold receive_udp. rewrite (receive_routable raw is_bytes) by assumption. change (vf_proto (fr_ip (sent eops vs 17 q))) with 17. change (ip_protocol_from 17) with IP_Udp. cbv iota.
  change (fr_inner (sent eops vs 17 q)) with q.
  pose proof S1 as (_ & S1v & _). destruct (frame_addrs raw (sent eops vs 17 q)) as [A1 A2].
  pose proof (c09_udp u p [] Huok eq_refl) as R. cbv zeta in R. rewrite app_nil_r in R. fold q in R. destruct R as (R1 & _ & _ & R4 & R5 & _).
  rewrite R1. cbn [bind]. rewrite R4. cbn [bind]. rewrite Hlq. change (uf_length u) with (8 + len p). rewrite N.eqb_refl.
  rewrite udp_is_valid_eq by (assumption || apply v4_is_bytes, S1v || (rewrite v4_len; lia) || lia). rewrite A1, A2.
  change (vf_src (fr_ip (sent eops vs 17 q))) with (address (me x)). change (vf_dst (fr_ip (sent eops vs 17 q))) with (goal x).
  unfold udp_checksum in R5. rewrite get16 in R5 by lia. apply Ok_inj in R5. rewrite R5. change (uf_checksum u) with ck.
  unfold q at 1, u at 1. rewrite udp_fill_zero. fold w. rewrite seen_after by (rewrite Hlw; reflexivity). reflexivity.
Qed.
Lemma probes_like E target s u payload : probes E target s u payload -> probe_like s u payload.
Proof. intros (P1 & P2 & P3 & P4 & P5 & P6 & P7 & P8 & P9). unfold probe_like. auto 10. Qed.
(** One probe, there and back. *)
Lemma trace_step E En x path target (i : nat) : tracer_ok x -> host_ok target -> Forall station_ok path -> (i < 64)%nat -> (i <= length path)%nat ->
  ((length path <= i)%nat -> address target = goal x /\ alike E En (filler x)) ->
  exists p a fl, probe E x (1 + N.of_nat i) = Ok p /\ exchange En path target p = Ok (Some a) /\ about x (1 + N.of_nat i) fl = true /\
    let '(kind, code, mac, ip) := reporter path target i in heard E a = Ok (Some (ip, icmp_kind_from kind, fl)).
Proof.
  intros Hx Ht Hp Hl Hi Hpar.
  destruct (probe_on E x (1 + N.of_nat i) Hx ltac:(lia)) as (s & u & P1 & P2 & P3 & P4 & P5 & P6 & P7 & P8).
  assert (Hend : N.of_nat (length path) < vf_ttl (fr_ip s) -> vf_dst (fr_ip s) = address target /\ receive_udp En (frame_bytes raw s) = Ok true).
  { intros Hlt. destruct (Hpar ltac:(lia)) as [Ha Hal]. split; [congruence|]. destruct (P8 En) as (v & V1 & V2). apply V2 in Hal. subst v. exact V1. }
  pose proof (exchange_on En target path Ht Hp s u (filler x) P2 ltac:(lia) Hend) as X. cbv zeta in X. rewrite P3 in X.
  replace (Nat.min (N.to_nat (1 + N.of_nat i - 1)) (length path)) with i in X by lia. replace (i <? 64)%nat with true in X by (symmetry; apply Nat.ltb_lt; exact Hl).
  assert (Hrep : let '(kind, code, mac, ip) := reporter path target i in u8 kind /\ u8 code /\ error_type kind).
  { unfold reporter. destruct (nth_error path i); (split; [unfold u8; lia|]; split; [unfold u8; lia|]; cbn; lia). }
  destruct (reporter path target i) as [[[kind code] mac] ip]. destruct Hrep as (K1 & K2 & K3). destruct X as (X1 & X2). destruct (X2 Hl) as (X2' & X3 & X4). clear X2. rename X2' into X2.
  set (s' := travelled (firstn i (map forth path)) s) in *. set (r := travelled (rev (firstn i (map back path))) (report_frame kind code mac ip s')) in *.
  eexists _, _, _. split; [exact P1|]. split; [exact X1|].
  destruct (travelled_fields (rev (firstn i (map back path))) (report_frame kind code mac ip s')) as (F1 & F2 & F3 & F4). fold r in F1, F2, F3, F4.
  destruct (travelled_fields (firstn i (map forth path)) s) as (D1 & D2 & D3 & D4). fold s' in D1, D2, D3, D4.
  split; [|apply heard_on with (c := code) (payload := filler x) (s := s'); try assumption; exact X2].
  apply about_on; [rewrite D2; exact P4|rewrite D3; exact P5|exact P6|exact P7].
Qed.
Lemma trace_from E En x path target : tracer_ok x -> host_ok target -> address target = goal x -> Forall station_ok path -> (length path < 64)%nat ->
  alike E En (filler x) ->
  forall tries i, (i <= length path)%nat ->
  trace E En x path target (1 + N.of_nat i) tries = Ok (firstn tries (map (fun r => Some (its_ip r)) (skipn i path) ++ [Some (address target)])).
Proof.
  intros Hx Ht Ha Hp Hl Hpar. induction tries as [|tries IH]; intros i Hi; [reflexivity|].
  destruct (trace_step E En x path target i Hx Ht Hp ltac:(lia) Hi (fun _ => conj Ha Hpar)) as (p & a & fl & T1 & T2 & T3 & T4).
  cbn [trace]. rewrite T1. cbn [bind]. rewrite T2. cbn [bind]. unfold reporter in T4. destruct (nth_error path i) as [r|] eqn:Hn.
  - rewrite T4. cbn [bind]. rewrite T3. change (icmp_kind_from 11) with K_TimeExceeded. cbv iota beta.
    assert (Hlt : (i < length path)%nat) by (apply nth_error_Some; rewrite Hn; discriminate).
    replace (1 + N.of_nat i + 1) with (1 + N.of_nat (Datatypes.S i)) by lia. rewrite IH by lia. cbn [bind].
    replace (skipn i path) with (r :: skipn (Datatypes.S i) path); [reflexivity|].
    clear - Hn. revert i Hn. induction path as [|y path IH]; intros i Hn; [destruct i; discriminate|]. destruct i; [injection Hn as ->; reflexivity|]. cbn [skipn]. exact (IH i Hn).
  - rewrite T4. cbn [bind]. rewrite T3. change (icmp_kind_from 3) with K_DestinationUnreachable. cbv iota beta.
    apply nth_error_None in Hn. rewrite skipn_all2 by exact Hn. cbn [map app firstn]. rewrite firstn_nil. reflexivity.
Qed.

(** ** The properties *)
(** C84: the error about any frame the parsers take is the message RFC 792 describes, its checksum right, from the router's address to the sender. *)
Lemma c84_report : forall E kind code mac a s, frame_packet_ok (fun p => p) is_bytes s -> mac_ok mac -> addr_ok a -> u8 kind -> u8 code -> 0 < kind ->
  exists r, report E kind code mac a (frame_bytes (fun p => p) s) = Ok (frame_bytes (fun p => p) r) /\
    error_about kind code mac a s r /\ frame_packet_ok (fun p => p) is_bytes r /\ routable r.
Proof.
  intros E k c mac a s Hs Hm Ha Hk Hc H0. destruct (report_facts k c mac a s Hs Hm Ha Hk Hc H0) as (R1 & R2 & R3).
  exists (report_frame k c mac a s). split; [exact (report_on E k c mac a s Hs Hm Ha Hk Hc)|]. auto.
Qed.
(** C84: what comes back from a path of routers is the error of the router the TTL ends at - of the target if it ends at none - about the datagram as that router saw it,
    carried back over the routers in front of it; or nothing if these are 64 or more, as many as the TTL of the error. *)
Lemma c84_exchange : forall E path target s u payload, host_ok target -> Forall station_ok path ->
  probes E target s u payload -> 1 <= vf_ttl (fr_ip s) ->
  let n := Nat.min (N.to_nat (vf_ttl (fr_ip s) - 1)) (length path) in
  let seen := travelled (firstn n (map forth path)) s in
  let '(kind, code, mac, ip) := reporter path target n in
  ((n < 64)%nat ->
   exists r, exchange E path target (frame_bytes (fun p => p) s) = Ok (Some (frame_bytes (fun p => p) (travelled (rev (firstn n (map back path))) r))) /\
    error_about kind code mac ip seen r) /\
  ((64 <= n)%nat -> exchange E path target (frame_bytes (fun p => p) s) = Ok None).
Proof.
  intros E path target s u payload Ht Hp Hs H1 n seen. pose proof (exchange_on E target path Ht Hp s u payload (probes_like _ _ _ _ _ Hs) H1) as X. destruct Hs as (_ & _ & _ & Hd & _ & _ & _ & _ & Hrc). specialize (X (fun _ => conj Hd Hrc)). cbv zeta in X. fold n in X. fold seen in X.
  assert (Hrep : let '(kind, code, mac, ip) := reporter path target n in u8 kind /\ u8 code /\ 0 < kind /\ mac_ok mac /\ addr_ok ip).
  { unfold reporter. destruct (nth_error path n) as [y|] eqn:Hn.
    - apply nth_error_In in Hn. rewrite Forall_forall in Hp. destruct (Hp y Hn) as (_ & (Y1 & _) & Y2). repeat split; (assumption || (unfold u8; lia)).
    - destruct Ht. repeat split; (assumption || (unfold u8; lia)). }
  destruct (reporter path target n) as [[[kind code] mac] ip]. destruct Hrep as (K1 & K2 & K3 & K4 & K5). destruct X as (X1 & X2).
  split; intros Hn; rewrite X1.
  - replace (n <? 64)%nat with true by (symmetry; apply Nat.ltb_lt; exact Hn). exists (report_frame kind code mac ip seen). split; [reflexivity|]. apply report_facts; try assumption. apply (X2 Hn).
  - replace (n <? 64)%nat with false by (symmetry; apply Nat.ltb_ge; exact Hn). reflexivity.
Qed.
(** C84: what the tracer makes of an error: who sent it, of which kind, and the probe it is about - however many routers it came over. *)
Lemma c84_heard : forall E hops kind code mac a s r u payload,
  frame_packet_ok (fun p => p) is_bytes s -> vf_proto (fr_ip s) = 17 -> routable s -> fr_inner s = udp_wire u ++ payload -> udp_fields_ok u -> uf_length u = 8 + len payload -> is_bytes payload ->
  report E kind code mac a (frame_bytes (fun p => p) s) = Ok (frame_bytes (fun p => p) r) -> mac_ok mac -> addr_ok a -> u8 code -> error_type kind ->
  Forall hop_ok hops -> (length hops < 64)%nat ->
  exists b, route E hops (frame_bytes (fun p => p) r) = (b, Ok tt) /\
    heard E b = Ok (Some (a, icmp_kind_from kind, flow_of IP_Udp (fr_ip s) (uf_src u) (uf_dst u))).
Proof.
  intros E hops k c mac a s r u payload Hs Hp Hr Hin Hu Hul Hpl Hrep Hm Ha Hc Ht Hh Hl.
  assert (Hk : u8 k /\ 0 < k) by (unfold u8; cbn in Ht; lia). destruct Hk as [Hk H0].
  destruct (report_facts k c mac a s Hs Hm Ha Hk Hc H0) as (R1 & R2 & _). rewrite report_on in Hrep by assumption. apply Ok_inj in Hrep. rewrite <- Hrep.
  set (f := report_frame k c mac a s) in *.
  destruct (route_on raw is_bytes E hops f R1 R2 Hh) as [G _]. destruct G as (G1 & G2 & G3); [change (vf_ttl (fr_ip f)) with 64; lia|].
  exists (frame_bytes raw (travelled hops f)). split; [exact G1|].
  destruct (travelled_fields hops f) as (F1 & F2 & F3 & F4).
  apply heard_on with (c := c) (payload := payload); try assumption. unfold probe_like. auto 10.
Qed.
(** C84: the tracer finds every router on the way, in order, and then the goal - as many of them as it has tries. *)
Lemma c84_trace : forall E En x path target tries, tracer_ok x -> host_ok target -> address target = goal x -> Forall station_ok path ->
  (length path < 64)%nat -> alike E En (filler x) ->
  trace E En x path target 1 tries = Ok (firstn tries (map (fun r => Some (its_ip r)) path ++ [Some (goal x)])).
Proof.
  intros E En x path target tries Hx Ht Ha Hp Hl Hpar. rewrite <- Ha.
  exact (trace_from E En x path target Hx Ht Ha Hp Hl Hpar tries 0 ltac:(lia)).
Qed.

(** ** When nobody answers for the goal *)
Lemma exchange_silent E t path : Forall station_ok path -> forall s v, ok_raw s -> routable s -> receive_udp E (frame_bytes raw s) = Ok v -> address t <> vf_dst (fr_ip s) \/ v = false ->
  N.of_nat (length path) < vf_ttl (fr_ip s) -> exchange E path t (frame_bytes raw s) = Ok None.
Proof.
  induction path as [|p path IH]; intros Hp s v P1 P2 P3 H1 H2; cbn [exchange].
  - destruct v; [|unfold for_host; rewrite P3; reflexivity]. destruct H1 as [H1|]; [|discriminate].
    rewrite for_host_at by assumption. destruct (same_address _ _) eqn:Hs; [|reflexivity]. apply same_address_iff in Hs. congruence.
  - inversion_clear Hp as [|? ? (Hf & _) Hp']. cbn [length] in H2. destruct (one_hop E (forth p) s P1 P2 Hf ltac:(lia)) as (R1 & R2 & R3). rewrite R1.
    destruct (travelled_fields [forth p] s) as (F1 & F2 & F3 & F4). rewrite (IH Hp' (travelled [forth p] s) v); [reflexivity|exact R2|exact R3| |rewrite F3; exact H1|rewrite travelled_ttl; cbn [length]; lia].
    apply received_hop; (assumption || lia).
Qed.
Lemma trace_step_silent E En x path target i : tracer_ok x -> host_ok target -> Forall station_ok path -> (i < 255)%nat ->
  ((length path <= i)%nat /\ (address target <> goal x \/ ~ alike E En (filler x))) \/ ((64 <= i)%nat /\ (64 <= length path)%nat) ->
  exists p, probe E x (1 + N.of_nat i) = Ok p /\ exchange En path target p = Ok None.
Proof.
  intros Hx Ht Hp Hi' Hc.
  destruct (probe_on E x (1 + N.of_nat i) Hx ltac:(lia)) as (s & u & P1 & P2 & P3 & P4 & P5 & _ & _ & P8). pose proof P2 as (Q1 & Q2 & _).
  exists (frame_bytes raw s). split; [exact P1|]. destruct (P8 En) as (v & V1 & V2).
  assert (Hs : (length path <= i)%nat -> address target <> goal x \/ v = false -> exchange En path target (frame_bytes raw s) = Ok None).
  { intros Hi Ha. apply (exchange_silent En target path Hp s v Q1 Q2 V1); [rewrite P5; exact Ha|lia]. }
  destruct Hc as [[Hi Ha]|[Hi Hl]].
  - apply Hs; [exact Hi|]. destruct Ha as [Ha|Ha]; [left; exact Ha|right]. destruct v; [exfalso; apply Ha, V2; reflexivity|reflexivity].
  - destruct (Nat.le_gt_cases (length path) i) as [Hg|Hg].
    + destruct (same_address (address target) (goal x)) eqn:Hsa; [apply same_address_iff in Hsa|apply (Hs Hg); left; intros Heq; apply same_address_iff in Heq; congruence].
      destruct v; [|apply (Hs Hg); right; reflexivity].
      pose proof (exchange_on En target path Ht Hp s u (filler x) P2 ltac:(lia) (fun _ => conj (eq_trans P5 (eq_sym Hsa)) V1)) as X. cbv zeta in X. rewrite P3 in X.
      destruct (reporter _ _ _) as [[[? ?] ?] ?]. destruct X as [X _]. rewrite X. replace (_ <? 64)%nat with false by (symmetry; apply Nat.ltb_ge; lia). reflexivity.
    + pose proof (exchange_on En target path Ht Hp s u (filler x) P2 ltac:(lia) ltac:(intros; lia)) as X. cbv zeta in X. rewrite P3 in X.
      destruct (reporter _ _ _) as [[[? ?] ?] ?]. destruct X as [X _]. rewrite X. replace (_ <? 64)%nat with false by (symmetry; apply Nat.ltb_ge; lia). reflexivity.
Qed.
Lemma nth_error_firstn {A} n (l : list A) i : nth_error (firstn n l) i = if (i <? n)%nat then nth_error l i else None.
Proof.
  revert l i. induction n as [|n IH]; intros l i; [destruct i; reflexivity|]. destruct l as [|a l]; [destruct i; cbn [firstn nth_error]; destruct (_ <? _)%nat; reflexivity|].
  destruct i as [|i]; [reflexivity|]. cbn [firstn nth_error]. rewrite IH. reflexivity.
Qed.
Lemma trace_silent_from E En x path target : tracer_ok x -> host_ok target -> address target <> goal x \/ ~ alike E En (filler x) \/ (64 <= length path)%nat -> Forall station_ok path ->
  forall tries i, (i + tries < 256)%nat -> let near := firstn 64 path in
  trace E En x path target (1 + N.of_nat i) tries = Ok (firstn tries (map (fun r => Some (its_ip r)) (skipn i near)) ++ repeat None (tries - (length near - i))).
Proof.
  intros Hx Ht Ha Hp. induction tries as [|tries IH]; intros i Hi near; [reflexivity|]. specialize (IH (Datatypes.S i) ltac:(lia)). cbv zeta in IH. fold near in IH.
  assert (Hll : length near = Nat.min 64 (length path)) by apply firstn_length.
  cbn [trace]. destruct (nth_error near i) as [r|] eqn:Hn.
  - assert (Hlt : (i < length near)%nat) by (apply nth_error_Some; rewrite Hn; discriminate).
    assert (Hn' : nth_error path i = Some r) by (unfold near in Hn; rewrite nth_error_firstn in Hn; destruct (i <? 64)%nat; [exact Hn|discriminate]).
    destruct (trace_step E En x path target i Hx Ht Hp ltac:(lia) ltac:(lia)) as (p & a & fl & T1 & T2 & T3 & T4); [lia|].
    rewrite T1. cbn [bind]. rewrite T2. cbn [bind]. unfold reporter in T4. rewrite Hn' in T4. rewrite T4. cbn [bind]. rewrite T3. change (icmp_kind_from 11) with K_TimeExceeded. cbv iota beta.
    replace (1 + N.of_nat i + 1) with (1 + N.of_nat (Datatypes.S i)) by lia. rewrite IH. cbn [bind].
    replace (Datatypes.S tries - (length near - i))%nat with (tries - (length near - Datatypes.S i))%nat by lia.
    replace (skipn i near) with (r :: skipn (Datatypes.S i) near); [reflexivity|].
    clear - Hn. clearbody near. revert i Hn. induction near as [|y l IH]; intros i Hn; [destruct i; discriminate|]. destruct i; [injection Hn as ->; reflexivity|]. cbn [skipn]. exact (IH i Hn).
  - apply nth_error_None in Hn. destruct (trace_step_silent E En x path target i Hx Ht Hp ltac:(lia)) as (p & T1 & T2).
    { destruct (Nat.le_gt_cases 64 (length path)); [right; lia|left]. split; [lia|]. destruct Ha as [Ha|[Ha|Ha]]; [left; exact Ha|right; exact Ha|lia]. }
    rewrite T1. cbn [bind]. rewrite T2. cbn [bind]. replace (1 + N.of_nat i + 1) with (1 + N.of_nat (Datatypes.S i)) by lia. rewrite IH. cbn [bind].
    rewrite !skipn_all2 by lia. cbn [map]. rewrite !firstn_nil. cbn [app].
    replace (Datatypes.S tries - (length near - i))%nat with (Datatypes.S (tries - (length near - Datatypes.S i))) by lia. reflexivity.
Qed.
(** C84: if the host behind the last router is another one - or one whose standard library sums the odd last byte of the probes in another way than the tracer's, or the
    path is longer than the 64 of the errors' TTL - the routers, 64 at most, are found all the same, and every further try finds nobody. *)
Lemma c84_trace_silent : forall E En x path target tries, tracer_ok x -> host_ok target -> address target <> goal x \/ ~ alike E En (filler x) \/ (64 <= length path)%nat -> Forall station_ok path ->
  (tries < 256)%nat ->
  trace E En x path target 1 tries = Ok (firstn tries (map (fun r => Some (its_ip r)) (firstn 64 path)) ++ repeat None (tries - Nat.min 64 (length path))).
Proof.
  intros E En x path target tries Hx Ht Ha Hp Htr. pose proof (trace_silent_from E En x path target Hx Ht Ha Hp tries 0 ltac:(lia)) as T. cbv zeta in T.
  rewrite firstn_length, Nat.sub_0_r in T. exact T.
Qed.

(** ** On any bytes *)
Lemma receive_ip_front E w n b : receive_ip E w n b = Ok true -> 14 <= len b /\ v4_new (dropN 14 b) = Ok (dropN 14 b) /\ n (dropN 14 b) (body_of (dropN 14 b)) = Ok true.
Proof.
  rewrite receive_ip_eq. destruct (N.ltb_spec (len b) 14); [discriminate|]. destruct (wire16 b 12 =? 2048); [|discriminate].
  destruct (v4_new (dropN 14 b)) as [ip| |] eqn:Hn; [|discriminate|discriminate]. pose proof (v4_new_same _ _ Hn). subst ip. cbn [bind].
  destruct (_ <? 5); [discriminate|]. destruct (v4_is_valid _ _) as [[]| |]; cbn [bind negb]; try discriminate. destruct (w _); [|discriminate]. intros H'. auto.
Qed.
Lemma report_any E k c mac a b : is_bytes b -> 14 <= len b -> v4_new (dropN 14 b) = Ok (dropN 14 b) -> mac_ok mac -> addr_ok a -> u8 k -> u8 c ->
  exists r, report E k c mac a b = Ok (frame_bytes raw r) /\ ok_raw r.
Proof.
  intros Hb Hl Hn Hm Ha Hk Hc. assert (Hbq : is_bytes (dropN 14 b)) by (apply is_bytes_dropN, Hb).
  unfold report. destruct (c01_ether_new b) as [N1 _]. rewrite N1 by exact Hl. cbn [bind].
  destruct (c08_ether b (N1 Hl)) as (_ & E2 & _). rewrite E2. cbn [bind]. rewrite ether_payload_ok by exact Hl. cbn [bind]. rewrite Hn. cbn [bind].
  set (q := dropN 14 b) in *. pose proof Hn as Hn'. apply c02_v4_new_iff in Hn' as (_ & H20 & _ & H4 & H5).
  rewrite v4_ihl_ok by lia. cbn [bind]. rewrite v4_length_ok by exact H20. cbn [bind]. rewrite v4_source_ok by exact H20. cbn [bind].
  set (n := N.min (nthN q 0 mod 16 * 4 + 8) (wire16 q 2)). assert (Hnl : n <= len q /\ n <= 68) by (unfold n; lia).
  rewrite slice_to_ok by lia. cbn [bind]. set (quote := takeN n q).
  assert (Q1 : is_bytes quote) by (apply is_bytes_takeN, Hbq). assert (Q3 : len quote <= 68) by (unfold quote; rewrite len_takeN; lia).
  set (eops := [EtherSource mac; EtherDestination (wire_mac b 6)]). set (vs := [V4SetTtl 64; V4SetSource a; V4SetDestination (wire_addr q 12)]).
  assert (R1 : eth_ok (Some eops)).
  { split; [|reflexivity]. apply Forall_cons; [exact Hm|]. apply Forall_cons; [|apply Forall_nil]. repeat (apply Forall_cons; [apply (is_bytes_nth b _ Hb)|]). apply Forall_nil. }
  assert (R2 : Forall v4_arg_ok vs).
  { apply Forall_cons; [split; [unfold v4_setter_ok, u8; lia|exact I]|]. apply Forall_cons; [exact (conj Ha I)|]. apply Forall_cons; [split; [|exact I]|apply Forall_nil].
    repeat (apply Forall_cons; [apply (is_bytes_nth q _ Hbq)|]). apply Forall_nil. }
  assert (R3 : Forall echo_op_ok [EchoRequest; EchoPayload quote]) by (repeat (apply Forall_cons; [cbn; try exact Q1; try exact I|]); apply Forall_nil).
  assert (Hi' : 65600 <= @ISIZE_MAX E) by (pose proof (@width_facts E); lia).
  pose proof (c36_echo_bytes E (Some (Some eops, vs)) [EchoRequest; EchoPayload quote] quote (conj R1 R2) R3 (or_introl eq_refl) ltac:(lia)) as G.
  change (echo_after [EchoRequest; EchoPayload quote]) with (8, 0, 0) in G. cbv zeta in G. destruct G as [G _]. specialize (G (or_introl (or_introl eq_refl))).
  set (ck0 := nonzero_checksum _) in G. set (m0 := ident_wire {| cf_type := 8; cf_code := 0; cf_checksum := ck0 |} 0 0 ++ quote) in G.
  assert (Hck0 : u16 ck0) by apply nonzero_lt. unfold u16 in Hck0.
  assert (Hlm0 : len m0 = 8 + len quote) by (unfold m0; rewrite len_app; reflexivity).
  assert (Bm0 : is_bytes m0).
  { apply is_bytes_app; split; [|exact Q1]. apply is_bytes_ident; unfold u16; try lia. repeat split; cbn; unfold u8, u16; lia. }
  assert (G' : echo_chain E (Some (Some eops, vs)) [EchoRequest; EchoPayload quote] dynamic_new = Ok (frame_bytes raw (sent eops vs 1 m0))).
  { rewrite G, sent_bytes, Hlm0. cbn [icmp_outer]. rewrite <- app_assoc. reflexivity. }
  rewrite G'. cbn [bind]. clear G G'.
  destruct (sent_ok eops vs 1 m0 R1 R2) as (S1 & _); [unfold u8; lia|exact Bm0|lia|]. pose proof S1 as S1'. destruct S1 as (_ & S1 & _).
  rewrite frame_bytes_ip, edit_datagram_on by (apply v4_new_bytes, S1).
  rewrite edit_transport_on; [|exact S1|].
  2:{ change (vp_payload (frame_ip raw (sent eops vs 1 m0))) with m0. unfold icmp_new, icmp_unchecked, icmp_header_min. replace (len m0 <? 4) with false by lia. reflexivity. }
  cbv zeta. change (vp_payload (frame_ip raw (sent eops vs 1 m0))) with m0.
  assert (Hmm : exists m, as_error E k c m0 = (m, Ok tt) /\ is_bytes m /\ len m = len m0).
  { unfold m0, ident_wire. change (icmp_wire _) with [8; 0; ck0 / 256; ck0 mod 256]. cbn [app].
    assert (Bt : is_bytes ([0; 0; 0; 0] ++ quote)) by (apply is_bytes_app; split; [repeat (apply Forall_cons; [unfold u8; lia|]); apply Forall_nil|exact Q1]).
    change (0 / 256) with 0. change (0 mod 256) with 0.
    eexists. split; [apply (as_error_on E k c 8 0 (ck0 / 256) (ck0 mod 256) ([0; 0; 0; 0] ++ quote) Bt Hk Hc); unfold u8; lia|].
    set (ck := nonzero_checksum _). assert (Hck : u16 ck) by apply nonzero_lt. unfold u16 in Hck.
    split; [do 4 (apply Forall_cons; [unfold u8 in *; lia|]); exact Bt|autorewrite with len; reflexivity]. }
  destruct Hmm as (m & Hmm & Bm & Lm). rewrite Hmm. cbn [fst snd].
  destruct (sent_ok eops vs 1 m R1 R2) as (T1 & _); [unfold u8; lia|exact Bm|lia|].
  exists (sent eops vs 1 m). split; [|exact T1]. unfold frame_bytes, sent.
  cbn [fr_ether fr_ip fr_options fr_inner fr_padding frame_ip vp_header vp_options vp_payload vp_behind]. rewrite Lm. reflexivity.
Qed.
Lemma is_bytes_frame s : ok_raw s -> is_bytes (frame_bytes raw s).
Proof. intros (He & Hv & _). rewrite frame_bytes_ip. apply is_bytes_app. split; [apply is_bytes_ether_wire, He|apply v4_is_bytes, Hv]. Qed.
Lemma router_keeps E h b b' r : is_bytes b -> hop_ok h -> router E h b = (b', r) -> is_bytes b' /\ r <> Panic.
Proof.
  intros Hb Hh Hr. destruct (c76_router_any E h b Hb) as [(s & S1 & S2 & S3 & S4 & S5)|[e S5]]; rewrite S5 in Hr; injection Hr as <- <-.
  - split; [|discriminate]. destruct (router_on raw is_bytes E h s S1) as [R _]. destruct (R S3 S4) as (_ & R2 & _). apply is_bytes_frame, R2, Hh.
  - split; [exact Hb|discriminate].
Qed.
(** C84: whatever is sent into such a path, nothing panics. *)
Lemma c84_exchange_total : forall E path target b, is_bytes b -> host_ok target -> Forall station_ok path ->
  exists answer, exchange E path target b = Ok answer /\ match answer with Some a => is_bytes a | None => True end.
Proof.
  intros E path target b Hb [T1 T2] Hp. revert b Hb. induction Hp as [|p path (Hf & Hbk & Hip) Hp IH]; intros b Hb; cbn [exchange].
  - unfold for_host. destruct (c72_total E b Hb) as ([[] V] & _); rewrite V; cbn [bind]; [|exists None; split; [reflexivity|exact I]].
    unfold receive_udp in V. apply verdict_true, receive_ip_front in V as (Hl & Hn & _).
    destruct (c01_ether_new b) as [N1 _]. rewrite N1 by exact Hl. cbn [bind]. rewrite ether_payload_ok by exact Hl. cbn [bind]. rewrite Hn. cbn [bind].
    rewrite v4_destination_ok by (apply c02_v4_new_iff in Hn; lia). cbn [bind]. destruct (same_address _ _); [|exists None; split; [reflexivity|exact I]].
    destruct (report_any E 3 3 (its_mac target) (address target) b Hb Hl Hn T1 T2) as (r & R1 & R2); [unfold u8; lia|unfold u8; lia|].
    rewrite R1. cbn [bind]. eexists. split; [reflexivity|]. apply is_bytes_frame, R2.
  - destruct (router E (forth p) b) as [b' r] eqn:Hr. destruct (router_keeps E (forth p) b b' r Hb Hf Hr) as [Hb' Hnp]. destruct r as [u|e|]; [| |congruence].
    + destruct (IH b' Hb') as ([a|] & I1 & I2); rewrite I1; cbn [bind]; [|exists None; split; [reflexivity|exact I]].
      destruct (router E (back p) a) as [a' r] eqn:Hr'. destruct (router_keeps E (back p) a a' r I2 Hbk Hr') as [Ha' Hnp']. destruct r as [u'|e|]; [| |congruence].
      * eexists. split; [reflexivity|exact Ha'].
      * exists None. split; [reflexivity|exact I].
    + destruct (verdict (gives_up E b)) as [v| |] eqn:V.
      * cbn [bind]. destruct v; [|exists None; split; [reflexivity|exact I]]. rewrite verdict_true in V. apply receive_ip_front in V as (Hl & Hn & _).
        destruct Hbk as [Hbk _]. destruct (report_any E 11 0 (mine (back p)) (its_ip p) b Hb Hl Hn Hbk Hip) as (x & R1 & R2); [unfold u8; lia|unfold u8; lia|].
        rewrite R1. cbn [bind]. eexists. split; [reflexivity|]. apply is_bytes_frame, R2.
      * exfalso. destruct (verdict_total (gives_up E b)) as [v' V']; [|congruence].
        apply receive_ip_total; [exact Hb|]. intros ip Hi Hn _. unfold v4_ttl. rewrite index_ok by (apply c02_v4_new_iff in Hn; lia). discriminate.
      * exfalso. destruct (verdict_total (gives_up E b)) as [v' V']; [|congruence].
        apply receive_ip_total; [exact Hb|]. intros ip Hi Hn _. unfold v4_ttl. rewrite index_ok by (apply c02_v4_new_iff in Hn; lia). discriminate.
Qed.
(** C84: ... and whatever the tracer receives, it makes of it what C81's tolerant reader does, or nothing. *)
Lemma c84_heard_total : forall E b, is_bytes b -> exists h, heard E b = Ok h.
Proof.
  intros E b Hb. unfold heard. set (nxt := fun _ body => _).
  destruct (verdict_total (receive_ip E (fun p => match p with IP_Icmp => true | _ => false end) nxt b)) as [v V].
  { apply receive_ip_total; [exact Hb|]. intros ip Hi Hn _. unfold nxt. unfold icmp_new, icmp_unchecked, icmp_header_min. destruct (N.ltb_spec (len (body_of ip)) 4); [discriminate|]. cbn [bind].
    unfold icmp_is_valid. rewrite c23_icmp_checksum by (apply is_bytes_body, Hi). cbn [bind]. unfold icmp_checksum. rewrite get16 by lia. discriminate. }
  rewrite V. cbn [bind]. destruct v; [|eexists; reflexivity]. rewrite verdict_true in V. apply receive_ip_front in V as (Hl & Hn & Hx). unfold nxt in Hx.
  destruct (c01_ether_new b) as [N1 _]. rewrite N1 by exact Hl. cbn [bind]. rewrite ether_payload_ok by exact Hl. cbn [bind]. rewrite Hn. cbn [bind].
  assert (Hbq : is_bytes (dropN 14 b)) by (apply is_bytes_dropN, Hb). set (q := dropN 14 b) in *.
  rewrite v4_source_ok by (apply c02_v4_new_iff in Hn; lia). cbn [bind]. destruct (read_ip q Hbq (new_no_payload _ Hn)) as (_ & _ & _ & R). rewrite R. cbn [bind].
  fold (body_of q). assert (Hbb : is_bytes (body_of q)) by (apply is_bytes_body, Hbq).
  destruct (icmp_new (body_of q)) as [m| |] eqn:Hm; [|discriminate|discriminate]. cbn [bind].
  unfold icmp_new, icmp_unchecked, icmp_header_min in Hm. destruct (N.ltb_spec (len (body_of q)) 4); [discriminate|]. cbn [bind] in Hm. apply Ok_inj in Hm. subst m.
  unfold icmp_get_kind. rewrite index_ok by lia. cbn [bind].
  destruct (c81_tolerant_total _ Hbb) as [HT|[fl HT]]; [|rewrite HT; eexists; reflexivity].
  cbn [In] in HT. destruct HT as [HT|[HT|[]]]; rewrite <- HT; eexists; reflexivity.
Qed.
(** C84: it takes an error for one about a probe exactly when the datagram named is a UDP datagram with that probe's addresses and ports. *)
Lemma c84_about : forall x ttl fl, about x ttl fl = true <->
  fl = {| fl_proto := IP_Udp; fl_src := address (me x); fl_dst := goal x; fl_sport := port x; fl_dport := 33434 + ttl |}.
Proof.
  intros x ttl [pr s d sp dp]. unfold about. cbn [fl_proto fl_src fl_dst fl_sport fl_dport]. split.
  - intros H. rewrite !Bool.andb_true_iff, !same_address_iff, !N.eqb_eq in H. destruct H as ((((H1 & ->) & ->) & ->) & ->). destruct pr; try discriminate. reflexivity.
  - intros [= -> -> -> -> ->]. rewrite !N.eqb_refl. rewrite !(proj2 (same_address_iff _ _)) by reflexivity. reflexivity.
Qed.
(** C84: and it hears an error exactly when the frame carries one, from this address, in an IPv4 packet whose header checksum is right, with a right checksum of its own
    (over an even number of bytes), that names this datagram. *)
Lemma c84_heard_only : forall E b who kind fl, is_bytes b ->
  (heard E b = Ok (Some (who, kind, fl)) <->
   exists s h, frame_packet_ok (fun p => p) is_bytes s /\ b = frame_bytes (fun p => p) s /\ rfc_ip 1 s /\ vf_checksum (fr_ip s) <> 65535 /\
     receiver_accepts (drop_odd (fr_inner s)) /\ wire16 (fr_inner s) 2 <> 65535 /\
     who = vf_src (fr_ip s) /\ kind = icmp_kind_from (nthN (fr_inner s) 0) /\ names (fr_inner s) h fl /\ 4 <= len (quoted_body (fr_inner s) h)).
Proof.
  intros E b who kind fl Hb. set (nxt := fun (_ : bytes) body => let* m := icmp_new body in icmp_is_valid E m).
  set (inner := fun x : N * bytes => fst x :: snd x). set (inner_ok := fun x : N * bytes => is_bytes (fst x :: snd x)).
  assert (T : receive_ip E (fun p => match p with IP_Icmp => true | _ => false end) nxt b = Ok true <->
    exists s, frame_packet_ok inner inner_ok s /\ b = frame_bytes inner s /\ rfc_ip 1 s /\ vf_checksum (fr_ip s) <> 65535 /\ nxt (v4_bytes (frame_ip inner s)) (inner (fr_inner s)) = Ok true).
  { apply receive_ip_true; [exact want_icmp|intros x; unfold inner; autorewrite with len; lia| |exact Hb].
    intros ip body Hbb Hx. unfold nxt, icmp_new, icmp_unchecked, icmp_header_min in Hx. destruct (N.ltb_spec (len body) 4); [discriminate|].
    destruct body as [|y body]; [autorewrite with len in *; lia|]. exists (y, body). split; [exact Hbb|reflexivity]. }
  assert (C : forall s, frame_packet_ok raw is_bytes s -> 4 <= len (fr_inner s) -> b = frame_bytes raw s -> receive_ip E (fun p => match p with IP_Icmp => true | _ => false end) nxt b = Ok true ->
    heard E b = match tolerant (fr_inner s) with Ok fl => Ok (Some (vf_src (fr_ip s), icmp_kind_from (nthN (fr_inner s) 0), fl)) | Err _ => Ok None | Panic => Panic end).
  { intros s Hs H4 -> Hr. unfold heard. fold nxt. rewrite Hr. cbn [verdict bind].
    pose proof (frame_len14 raw s) as Hl. destruct (c01_ether_new (frame_bytes raw s)) as [N1 _]. rewrite N1 by exact Hl. cbn [bind].
    rewrite ether_payload_ok by exact Hl. cbn [bind]. rewrite frame_bytes_ip.
    replace (dropN 14 (ether_wire (fr_ether s) ++ v4_bytes (frame_ip raw s))) with (v4_bytes (frame_ip raw s)) by (rewrite <- (ether_wire_len (fr_ether s)) at 1; symmetry; apply dropN_app_len).
    pose proof Hs as (_ & Hv & _). rewrite v4_new_bytes by exact Hv. cbn [bind]. rewrite v4_source_ok by (rewrite v4_len; lia). cbn [bind].
    destruct (frame_addrs raw s) as [A1 _]. rewrite A1. rewrite payload_on by exact Hv. cbn [bind]. change (vp_payload (frame_ip raw s)) with (fr_inner s).
    unfold icmp_new, icmp_unchecked, icmp_header_min. replace (len (fr_inner s) <? 4) with false by lia. cbn [bind]. unfold icmp_get_kind. rewrite index_ok by lia. cbn [bind].
    reflexivity. }
  assert (V : forall m, is_bytes m -> 4 <= len m -> (icmp_is_valid E m = Ok true <-> (receiver_accepts (drop_odd m) /\ wire16 m 2 <> 65535) \/ word_sum (drop_odd m) = 0)) by (intros; apply icmp_is_valid_iff; assumption).
  split.
  - intros H. assert (Hr : receive_ip E (fun p => match p with IP_Icmp => true | _ => false end) nxt b = Ok true).
    { unfold heard in H. fold nxt in H. destruct (verdict (receive_ip _ _ nxt b)) as [[]| |] eqn:Hv; try discriminate. apply verdict_true, Hv. }
    pose proof Hr as Hr'. apply T in Hr'. destruct Hr' as (s0 & S1 & S2 & S3 & S4 & S5).
    set (s := ({| fr_ether := fr_ether s0; fr_ip := fr_ip s0; fr_options := fr_options s0; fr_inner := inner (fr_inner s0); fr_padding := fr_padding s0 |} : frame_packet bytes)).
    assert (Hs : frame_packet_ok raw is_bytes s) by (destruct S1 as (Q1 & Q2 & Q3); exact (conj Q1 (conj Q2 Q3))).
    change (b = frame_bytes raw s) in S2. change (rfc_ip 1 s) in S3. change (vf_checksum (fr_ip s) <> 65535) in S4.
    unfold nxt, icmp_new, icmp_unchecked, icmp_header_min in S5. change (inner (fr_inner s0)) with (fr_inner s) in S5. destruct (N.ltb_spec (len (fr_inner s)) 4) as [|H4]; [discriminate|]. cbn [bind] in S5. clearbody s.
    assert (Hi : is_bytes (fr_inner s)) by apply Hs. apply V in S5; [|exact Hi|exact H4].
    rewrite (C s Hs H4 S2 Hr) in H. destruct (tolerant (@fr_inner bytes s)) as [fl'| |] eqn:Ht; [|discriminate H|discriminate H]. apply Ok_inj in H. apply (f_equal (fun o => match o with Some p => p | None => (who, kind, fl) end)) in H. apply pair_equal_spec in H. destruct H as [H <-]. apply pair_equal_spec in H. destruct H as [<- <-].
    apply c81_tolerant in Ht; [|exact Hi]. destruct Ht as (h & Hn & Hq).
    exists s, h. split; [exact Hs|]. split; [exact S2|]. split; [exact S3|]. split; [exact S4|].
    destruct S5 as [[S5 S6]|S5]; [|exfalso; apply word_sum_zero_iff in S5].
    2:{ destruct Hn as (Hn1 & _). assert (H0 : nthN (drop_odd (fr_inner s)) 0 = nthN (fr_inner s) 0) by (unfold drop_odd; rewrite nthN_takeN by lia; reflexivity).
        destruct (drop_odd (fr_inner s)) as [|z l] eqn:Hd; [apply (f_equal len) in Hd; rewrite len_drop_odd in Hd; autorewrite with len in Hd; lia|].
        inversion S5 as [|? ? Hz]. change (z = nthN (fr_inner s) 0) in H0. rewrite <- H0, <- Hz in Hn1. cbn in Hn1. lia. }
    split; [exact S5|]. split; [exact S6|]. split; [reflexivity|]. split; [reflexivity|]. split; [exact Hn|exact Hq].
  - intros (s & h & Hs & Hbs & S3 & S4 & S5 & S6 & -> & -> & Hn & Hq).
    assert (Hi : is_bytes (fr_inner s)) by apply Hs.
    assert (Ht : tolerant (fr_inner s) = Ok fl) by (apply c81_tolerant; [exact Hi|exists h; split; assumption]).
    assert (H4 : 4 <= len (fr_inner s)).
    { rewrite tolerant_eq in Ht by exact Hi. destruct (N.ltb_spec (len (fr_inner s)) 4); [discriminate|assumption]. }
    assert (Hr : receive_ip E (fun p => match p with IP_Icmp => true | _ => false end) nxt b = Ok true).
    { apply T. destruct (fr_inner s) as [|y body] eqn:He; [autorewrite with len in H4; lia|].
      exists {| fr_ether := fr_ether s; fr_ip := fr_ip s; fr_options := fr_options s; fr_inner := (y, body); fr_padding := fr_padding s |}.
      assert (Hx : frame_packet_ok raw is_bytes {| fr_ether := fr_ether s; fr_ip := fr_ip s; fr_options := fr_options s; fr_inner := y :: body; fr_padding := fr_padding s |}) by (rewrite <- He; destruct s; exact Hs).
      split; [destruct Hx as (Q1 & Q2 & Q3); exact (conj Q1 (conj Q2 Q3))|].
      split; [rewrite Hbs; unfold frame_bytes; rewrite He; reflexivity|]. split; [exact S3|]. split; [exact S4|].
      unfold nxt, inner. cbn [fr_inner fst snd]. unfold icmp_new, icmp_unchecked, icmp_header_min. replace (len (y :: body) <? 4) with false by lia. cbn [bind].
      apply V; [exact Hi|lia|left; split; assumption]. }
    rewrite (C s Hs H4 Hbs Hr), Ht. reflexivity.
Qed.
Example c84_example : forall E En,
  let station n := {| forth := {| mine := Hw 2 0 0 0 n 1; next := Hw 2 0 0 0 (n + 1) 0 |}; back := {| mine := Hw 2 0 0 0 n 0; next := Hw 2 0 0 0 (n - 1) 1 |}; its_ip := Ip4 10 0 n 1 |} in
  let target := {| its_mac := Hw 2 0 0 0 3 0; address := Ip4 192 0 2 7 |} in
  let x := {| me := {| its_mac := Hw 2 0 0 0 0 1; address := Ip4 10 0 0 9 |}; gateway := Hw 2 0 0 0 1 0; goal := Ip4 192 0 2 7; port := 40000; filler := [104; 105] |} in
  let y := {| me := me x; gateway := gateway x; goal := Ip4 192 0 2 8; port := 40000; filler := [104; 105] |} in
  trace E En x [station 1; station 2] target 1 30 = Ok [Some (Ip4 10 0 1 1); Some (Ip4 10 0 2 1); Some (Ip4 192 0 2 7)] /\
  trace E En y [station 1; station 2] target 1 4 = Ok [Some (Ip4 10 0 1 1); Some (Ip4 10 0 2 1); None; None].
Proof. intros [[] [] []] [[] [] []]; split; vm_compute; reflexivity. Qed.
