(** * BlameProofs: C81 (which datagram an ICMP error message is about). *)
From Verif Require Import Base Enums Ether Ipv4 Ip Udp Tcp Icmp Spec SpecFrame SpecMachine SpecBlame.
From Verif Require Import Lemmas ParseProofs SliceProofs AccessProofs EnumProofs FrameProofs DumpProofs BuildLemmas AsPacketProofs.
From Coq Require Import ZifyBool ZifyNat ZifyN.
Ltac Zify.zify_post_hook ::= Z.div_mod_to_equations.

Definition is_error (t : N) : bool := existsb (N.eqb t) [3; 4; 5; 11; 12].
Lemma is_error_iff t : is_error t = true <-> error_type t.
Proof.
  unfold is_error, error_type. rewrite existsb_exists. split.
  - intros (x & Hx & He). apply N.eqb_eq in He. subst. exact Hx.
  - intros H. exists t. split; [exact H|apply N.eqb_refl].
Qed.
(** The quote, however it is read. *)
Lemma quoted_eq previous redirect problem r m : (8 <= len m -> previous m = r /\ redirect m = r /\ problem m = r) ->
  quoted_by previous redirect problem m =
    if len m <? 4 then Err SmallBuffer
    else if is_error (nthN m 0) then (if len m <? 8 then Err SmallBuffer else r) else Err InvalidPacket.
Proof.
  intros HR. unfold quoted_by. destruct (N.ltb_spec (len m) 4) as [L4|L4].
  { assert (Hm : icmp_new m = Err SmallBuffer) by (apply c05_icmp_new; exact L4). rewrite Hm. reflexivity. }
  assert (Hm : icmp_new m = Ok m) by (apply icmp_new_iff; auto). rewrite Hm. cbn [bind]. destruct (c08_icmp m Hm) as (-> & _). cbn [bind].
  pose proof (icmp_kind_into_from (nthN m 0)) as HK. pose proof (icmp_kind_catch_all (nthN m 0)) as HC.
  assert (S0 : forall parse types (next : bytes -> res bytes), typed_parser parse 8 types -> In (nthN m 0) types -> (8 <= len m -> next m = r) ->
    (let* p := parse m in next p) = if len m <? 8 then Err SmallBuffer else r).
  { intros parse types next Hp Hi Hx. destruct (Hp m) as (P1 & P2 & _). destruct (N.ltb_spec (len m) 8).
    - rewrite P1 by assumption. reflexivity.
    - rewrite P2 by assumption. cbn [bind]. apply Hx. assumption. }
  destruct (icmp_kind_from (nthN m 0)) eqn:HF; cbn [icmp_kind_into] in HK; try (rewrite <- HK; reflexivity).
  all: try (rewrite <- HK; cbv [is_error existsb]; cbn [N.eqb Pos.eqb orb];
    first [ apply (S0 _ _ _ c05_previous_new); [rewrite <- HK; cbn; tauto|intros H8; apply HR; exact H8]
          | apply (S0 _ _ _ c05_redirect_message_new); [rewrite <- HK; cbn; tauto|intros H8; apply HR; exact H8]
          | apply (S0 _ _ _ c05_parameter_problem_new); [rewrite <- HK; cbn; tauto|intros H8; apply HR; exact H8] ]).
  assert (Hu : K_Unknown n = K_Unknown (nthN m 0)) by (apply HC; eexists; reflexivity).
  destruct (is_error (nthN m 0)) eqn:HE; [|reflexivity]. exfalso. apply is_error_iff in HE. unfold error_type in HE. cbn [In] in HE.
  repeat destruct HE as [HE|HE]; try (rewrite <- HE in HF; discriminate HF). destruct HE.
Qed.
Lemma whole_eq m : quoted_by embedded_packet embedded_packet embedded_packet m =
  if len m <? 4 then Err SmallBuffer
  else if is_error (nthN m 0) then (if len m <? 8 then Err SmallBuffer else v4_new (dropN 8 m)) else Err InvalidPacket.
Proof. apply quoted_eq. intros H. rewrite embedded_packet_ok by exact H. auto. Qed.
Lemma part_eq m : quoted_by previous_payload redirect_message_payload parameter_problem_payload m =
  if len m <? 4 then Err SmallBuffer
  else if is_error (nthN m 0) then (if len m <? 8 then Err SmallBuffer else Ok (dropN 8 m)) else Err InvalidPacket.
Proof.
  apply quoted_eq. intros H. unfold previous_payload, previous_split, redirect_message_payload, redirect_message_split, parameter_problem_payload, parameter_problem_split.
  rewrite split_at_ok by lia. cbn [bind]. rewrite !slice_to_ok by (rewrite len_takeN; lia). cbn [bind]. auto.
Qed.
(** The fields of the quoted header, whose data may be cut. *)
Lemma read_ip q : is_bytes q -> v4_no_payload q = Ok q ->
  v4_protocol q = Ok (ip_protocol_from (nthN q 9)) /\ v4_source q = Ok (wire_addr q 12) /\ v4_destination q = Ok (wire_addr q 16) /\
  v4_payload q = Ok (takeN (wire16 q 2 - nthN q 0 mod 16 * 4) (dropN (nthN q 0 mod 16 * 4) q)).
Proof.
  intros Hb Hn. destruct (c08_v4 q Hb Hn) as (_ & _ & _ & _ & _ & _ & _ & _ & H1 & _ & H2 & H3 & _).
  repeat split; [exact H1|exact H2|exact H3|]. apply v4_no_payload_iff in Hn. destruct Hn as (_ & L1 & _ & L2).
  unfold v4_payload. rewrite v4_split_ok by assumption. cbn [bind]. f_equal. set (h := nthN q 0 mod 16 * 4) in *.
  rewrite takeN_dropN_comm. replace (h + (wire16 q 2 - h)) with (N.max h (wire16 q 2)) by lia. reflexivity.
Qed.
(** The two programs behind the quote. *)
Lemma at8 m i : nthN (dropN 8 m) i = nthN m (8 + i).
Proof. rewrite nthN_dropN. f_equal; lia. Qed.
Lemma wire16_at8 m i : wire16 (dropN 8 m) i = wire16 m (8 + i).
Proof. unfold wire16. rewrite !at8. replace (8 + (i + 1)) with (8 + i + 1) by lia. reflexivity. Qed.
Lemma addr_at8 m i : wire_addr (dropN 8 m) i = wire_addr m (8 + i).
Proof. unfold wire_addr. rewrite !at8. rewrite !N.add_assoc. reflexivity. Qed.
Lemma body_at8 m h : dropN h (dropN 8 m) = dropN (8 + h) m.
Proof. rewrite dropN_dropN. reflexivity. Qed.
Lemma ports m h : 4 <= len (quoted_body m h) ->
  wire16 (quoted_body m h) 0 = wire16 m (8 + h) /\ wire16 (quoted_body m h) 2 = wire16 m (10 + h).
Proof.
  unfold quoted_body. set (w := wire16 m 10 - h). clearbody w. rewrite len_takeN. intros H. unfold wire16. rewrite !nthN_takeN by lia. rewrite !nthN_dropN.
  replace (8 + h + 0) with (8 + h) by lia. replace (8 + h + 2) with (10 + h) by lia.
  replace (8 + h + (0 + 1)) with (8 + h + 1) by lia. replace (8 + h + (2 + 1)) with (10 + h + 1) by lia. auto.
Qed.
Definition the_flow (proto : ip_protocol) (m : bytes) (h : N) : flow :=
  {| fl_proto := proto; fl_src := wire_addr m 20; fl_dst := wire_addr m 24; fl_sport := wire16 m (8 + h); fl_dport := wire16 m (10 + h) |}.
(** What the tolerant one computes. *)
Lemma tolerant_eq m : is_bytes m ->
  tolerant m =
    if len m <? 4 then Err SmallBuffer
    else if negb (is_error (nthN m 0)) then Err InvalidPacket
    else if len m <? 28 then Err SmallBuffer
    else if negb (nthN m 8 / 16 =? 4) then Err InvalidPacket
    else let h := nthN m 8 mod 16 * 4 in
    if len m <? 8 + h then Err SmallBuffer
    else if negb ((nthN m 17 =? 17) || (nthN m 17 =? 6)) then Err InvalidPacket
    else if len (quoted_body m h) <? 4 then Err SmallBuffer
    else Ok (the_flow (ip_protocol_from (nthN m 17)) m h).
Proof.
  intros Hb. unfold tolerant. rewrite part_eq. destruct (N.ltb_spec (len m) 4) as [L4|L4]; [reflexivity|].
  destruct (is_error (nthN m 0)); [|reflexivity]. cbn [negb].
  destruct (N.ltb_spec (len m) 8) as [L8|L8]; [destruct (N.ltb_spec (len m) 28); [reflexivity|lia]|].
  cbn [bind]. set (q := dropN 8 m). assert (Hl : len q = len m - 8) by (unfold q; apply len_dropN).
  assert (Hq : is_bytes q) by (apply is_bytes_dropN; exact Hb).
  assert (Q0 : nthN q 0 = nthN m 8) by (unfold q; rewrite at8; reflexivity).
  destruct (c02_v4_no_payload q) as (N1 & N2 & N3 & N4). rewrite Q0, Hl in *.
  destruct (N.ltb_spec (len m) 28); [rewrite N1 by lia; reflexivity|].
  destruct (N.eqb_spec (nthN m 8 / 16) 4) as [Hv|Hv]; [|rewrite N2 by (lia || exact Hv); reflexivity]. cbn [negb]. cbv zeta.
  set (h := nthN m 8 mod 16 * 4) in *.
  destruct (N.ltb_spec (len m) (8 + h)); [rewrite N3 by (lia || exact Hv); reflexivity|].
  assert (Hn : v4_no_payload q = Ok q) by (apply N4; lia || exact Hv). rewrite Hn. cbn [bind].
  destruct (read_ip q Hq Hn) as (-> & -> & -> & ->). cbn [bind]. rewrite Q0. fold h.
  assert (HB : takeN (wire16 q 2 - h) (dropN h q) = quoted_body m h).
  { unfold quoted_body, q. rewrite wire16_at8, body_at8. reflexivity. }
  rewrite HB. assert (HA : wire_addr q 12 = wire_addr m 20 /\ wire_addr q 16 = wire_addr m 24) by (unfold q; rewrite !addr_at8; auto).
  destruct HA as [-> ->]. assert (Q9 : nthN q 9 = nthN m 17) by (unfold q; rewrite at8; reflexivity). rewrite Q9.
  rewrite ip_cases. pose proof (ports m h) as HP. set (body := quoted_body m h) in *. clearbody body.
  destruct (N.eqb_spec (nthN m 17) 6) as [E6|N6].
  - destruct (N.eqb_spec (nthN m 17) 17) as [E17|_]; [lia|]. cbn [orb negb].
    destruct (N.ltb_spec (len body) 4); [reflexivity|]. destruct (HP ltac:(assumption)) as [P1 P2].
    unfold tcp_source, tcp_destination, tcp_unchecked. rewrite !get16 by lia. cbn [bind]. rewrite P1, P2, E6. reflexivity.
  - destruct (N.eqb_spec (nthN m 17) 17) as [E17|N17]; cbn [orb negb].
    + destruct (N.ltb_spec (len body) 4); [reflexivity|]. destruct (HP ltac:(assumption)) as [P1 P2].
      unfold udp_source, udp_destination, udp_unchecked. rewrite !get16 by lia. cbn [bind]. rewrite P1, P2, E17. reflexivity.
    + destruct (N.eqb_spec (nthN m 17) 1); reflexivity.
Qed.
(** What the strict one computes. *)
Definition fits (p : N) (body : bytes) : bool :=
  if p =? 6 then (20 <=? len body) && (nthN body 12 / 16 * 4 <=? len body) else (8 <=? len body) && (wire16 body 4 <=? len body).
Lemma strict_eq m : is_bytes m ->
  strict m =
    if len m <? 4 then Err SmallBuffer
    else if negb (is_error (nthN m 0)) then Err InvalidPacket
    else if len m <? 28 then Err SmallBuffer
    else if negb (nthN m 8 / 16 =? 4) then Err InvalidPacket
    else let h := nthN m 8 mod 16 * 4 in
    if (len m <? 8 + h) || (len m - 8 <? wire16 m 10) then Err SmallBuffer
    else if negb ((nthN m 17 =? 17) || (nthN m 17 =? 6)) then Err InvalidPacket
    else if negb (fits (nthN m 17) (quoted_body m h)) then Err SmallBuffer
    else Ok (the_flow (ip_protocol_from (nthN m 17)) m h).
Proof.
  intros Hb. unfold strict. rewrite whole_eq. destruct (N.ltb_spec (len m) 4) as [L4|L4]; [reflexivity|].
  destruct (is_error (nthN m 0)); [|reflexivity]. cbn [negb].
  destruct (N.ltb_spec (len m) 8) as [L8|L8]; [destruct (N.ltb_spec (len m) 28); [reflexivity|lia]|].
  set (q := dropN 8 m). assert (Hl : len q = len m - 8) by (unfold q; apply len_dropN).
  assert (Hq : is_bytes q) by (apply is_bytes_dropN; exact Hb).
  assert (Q0 : nthN q 0 = nthN m 8) by (unfold q; rewrite at8; reflexivity).
  assert (Q2 : wire16 q 2 = wire16 m 10) by (unfold q; rewrite wire16_at8; reflexivity).
  destruct (c02_v4_new q) as (N1 & N2 & N3 & N4). rewrite Q0, Hl, Q2 in *.
  destruct (N.ltb_spec (len m) 28); [rewrite N1 by lia; reflexivity|].
  destruct (N.eqb_spec (nthN m 8 / 16) 4) as [Hv|Hv]; [|rewrite N2 by (lia || exact Hv); reflexivity]. cbn [negb]. cbv zeta.
  set (h := nthN m 8 mod 16 * 4) in *.
  destruct (N.ltb_spec (len m) (8 + h)); [rewrite N3 by (lia || exact Hv); reflexivity|].
  destruct (N.ltb_spec (len m - 8) (wire16 m 10)); [rewrite N3 by (lia || exact Hv); reflexivity|]. cbn [orb].
  assert (Hn : v4_new q = Ok q) by (apply N4; lia || exact Hv). rewrite Hn. cbn [bind].
  assert (Hn' : v4_no_payload q = Ok q) by (apply v4_no_payload_iff; rewrite Q0, Hl; fold h; repeat split; lia || exact Hv).
  destruct (read_ip q Hq Hn') as (-> & -> & -> & ->). cbn [bind]. rewrite Q0, Q2. fold h.
  assert (HB : takeN (wire16 m 10 - h) (dropN h q) = quoted_body m h).
  { unfold quoted_body, q. rewrite body_at8. reflexivity. }
  rewrite HB. assert (HA : wire_addr q 12 = wire_addr m 20 /\ wire_addr q 16 = wire_addr m 24) by (unfold q; rewrite !addr_at8; auto).
  destruct HA as [-> ->]. assert (Q9 : nthN q 9 = nthN m 17) by (unfold q; rewrite at8; reflexivity). rewrite Q9.
  rewrite ip_cases. pose proof (ports m h) as HP. set (body := quoted_body m h) in *. clearbody body. unfold fits.
  destruct (N.eqb_spec (nthN m 17) 6) as [E6|N6].
  - destruct (N.eqb_spec (nthN m 17) 17) as [E17|_]; [lia|]. cbn [orb negb]. destruct (c04_tcp_new body) as [T1 T2].
    destruct (N.leb_spec 20 (len body)); [|rewrite T2 by (left; assumption); reflexivity].
    destruct (N.leb_spec (nthN body 12 / 16 * 4) (len body)); [|rewrite T2 by (right; assumption); reflexivity].
    rewrite T1 by assumption. cbn [bind andb negb]. destruct (HP ltac:(lia)) as [P1 P2].
    unfold tcp_source, tcp_destination. rewrite !get16 by lia. cbn [bind]. rewrite P1, P2, E6. reflexivity.
  - destruct (N.eqb_spec (nthN m 17) 17) as [E17|N17]; cbn [orb negb].
    + destruct (c03_udp_new body) as [U1 U2].
      destruct (N.leb_spec 8 (len body)); [|rewrite U2 by (left; assumption); reflexivity].
      destruct (N.leb_spec (wire16 body 4) (len body)); [|rewrite U2 by (right; assumption); reflexivity].
      rewrite U1 by assumption. cbn [bind andb negb]. destruct (HP ltac:(lia)) as [P1 P2].
      unfold udp_source, udp_destination. rewrite !get16 by lia. cbn [bind]. rewrite P1, P2, E17. reflexivity.
    + destruct (N.eqb_spec (nthN m 17) 1); reflexivity.
Qed.
(** Reading [names] off the bytes. *)
Lemma names_iff m h fl : names m h fl <->
  is_error (nthN m 0) = true /\ 28 <= len m /\ nthN m 8 / 16 = 4 /\ h = nthN m 8 mod 16 * 4 /\ 8 + h <= len m /\
  (nthN m 17 =? 17) || (nthN m 17 =? 6) = true /\ fl = the_flow (ip_protocol_from (nthN m 17)) m h.
Proof.
  unfold names, quoted_protocol. rewrite is_error_iff. split.
  - intros (A & B & C & D & F & G & P1 & P2 & P3 & P4). repeat split; try assumption.
    + destruct G as [[-> _]|[-> _]]; reflexivity.
    + destruct fl as [fp fs fd fsp fdp]. cbn in *. subst fs fd fsp fdp. unfold the_flow. destruct G as [[-> ->]|[-> ->]]; reflexivity.
  - intros (A & B & C & D & F & G & ->). cbn [the_flow fl_proto fl_src fl_dst fl_sport fl_dport]. repeat split; try assumption.
    apply orb_true_iff in G. destruct G as [G|G]; apply N.eqb_eq in G; rewrite G; auto.
Qed.
(** C81: the tolerant program names a flow exactly when the message is one of the five errors, the quoted header is all there, the quoted protocol is UDP or TCP and at least the four bytes with the ports are quoted; the flow is what the bytes say. *)
Lemma c81_tolerant : forall m fl, is_bytes m ->
  (tolerant m = Ok fl <-> exists h, names m h fl /\ 4 <= len (quoted_body m h)).
Proof.
  intros m fl Hb. rewrite tolerant_eq by exact Hb. split.
  - destruct (N.ltb_spec (len m) 4); [discriminate|]. destruct (is_error (nthN m 0)) eqn:HE; [|discriminate]. cbn [negb].
    destruct (N.ltb_spec (len m) 28); [discriminate|]. destruct (N.eqb_spec (nthN m 8 / 16) 4); [|discriminate]. cbn [negb]. cbv zeta.
    destruct (N.ltb_spec (len m) (8 + nthN m 8 mod 16 * 4)); [discriminate|].
    destruct ((nthN m 17 =? 17) || (nthN m 17 =? 6)) eqn:HP; [|discriminate]. cbn [negb].
    destruct (N.ltb_spec (len (quoted_body m (nthN m 8 mod 16 * 4))) 4); [discriminate|].
    intros HO. injection HO as <-. exists (nthN m 8 mod 16 * 4). split; [|assumption]. apply names_iff. auto 10.
  - intros (h & Hn & H4). apply names_iff in Hn. destruct Hn as (A & B & C & -> & F & G & ->).
    destruct (N.ltb_spec (len m) 4); [lia|]. rewrite A. cbn [negb]. destruct (N.ltb_spec (len m) 28); [lia|].
    rewrite C. cbn [N.eqb Pos.eqb negb]. cbv zeta. destruct (N.ltb_spec (len m) (8 + nthN m 8 mod 16 * 4)); [lia|].
    rewrite G. cbn [negb]. destruct (N.ltb_spec (len (quoted_body m (nthN m 8 mod 16 * 4))) 4); [lia|]. reflexivity.
Qed.
(** C81: the strict program needs more: the whole quoted datagram, and in it a whole UDP datagram or a whole TCP header. *)
Lemma c81_strict : forall m fl, is_bytes m ->
  (strict m = Ok fl <-> exists h, names m h fl /\ 8 + wire16 m 10 <= len m /\
     (fl_proto fl = IP_Udp -> udp_fits (quoted_body m h)) /\ (fl_proto fl = IP_Tcp -> tcp_fits (quoted_body m h))).
Proof.
  intros m fl Hb. rewrite strict_eq by exact Hb. split.
  - destruct (N.ltb_spec (len m) 4); [discriminate|]. destruct (is_error (nthN m 0)) eqn:HE; [|discriminate]. cbn [negb].
    destruct (N.ltb_spec (len m) 28); [discriminate|]. destruct (N.eqb_spec (nthN m 8 / 16) 4); [|discriminate]. cbn [negb]. cbv zeta.
    destruct (N.ltb_spec (len m) (8 + nthN m 8 mod 16 * 4)); [discriminate|].
    destruct (N.ltb_spec (len m - 8) (wire16 m 10)); [discriminate|]. cbn [orb].
    destruct ((nthN m 17 =? 17) || (nthN m 17 =? 6)) eqn:HP; [|discriminate]. cbn [negb].
    destruct (fits (nthN m 17) (quoted_body m (nthN m 8 mod 16 * 4))) eqn:HF; [|discriminate]. cbn [negb].
    intros HO. injection HO as <-. exists (nthN m 8 mod 16 * 4). split; [apply names_iff; auto 10|]. split; [lia|].
    cbn [the_flow fl_proto]. unfold fits in HF. apply orb_true_iff in HP. destruct HP as [HP|HP]; apply N.eqb_eq in HP; rewrite HP in *;
      (split; [intros E1; try discriminate E1|intros E1; try discriminate E1]); cbn [N.eqb Pos.eqb] in HF; apply andb_true_iff in HF; destruct HF as [F1 F2].
    + apply N.leb_le in F1, F2. split; assumption.
    + apply N.leb_le in F1, F2. split; assumption.
  - intros (h & Hn & HT & HU & HV). apply names_iff in Hn. destruct Hn as (A & B & C & -> & F & G & ->).
    destruct (N.ltb_spec (len m) 4); [lia|]. rewrite A. cbn [negb]. destruct (N.ltb_spec (len m) 28); [lia|].
    rewrite C. cbn [N.eqb Pos.eqb negb]. cbv zeta. destruct (N.ltb_spec (len m) (8 + nthN m 8 mod 16 * 4)); [lia|].
    destruct (N.ltb_spec (len m - 8) (wire16 m 10)); [lia|]. cbn [orb].
    rewrite G. cbn [negb]. cbn [the_flow fl_proto] in HU, HV.
    assert (HF : fits (nthN m 17) (quoted_body m (nthN m 8 mod 16 * 4)) = true).
    { unfold fits. apply orb_true_iff in G. destruct G as [G|G]; apply N.eqb_eq in G; rewrite G in *; cbn [N.eqb Pos.eqb];
        apply andb_true_iff; rewrite !N.leb_le; [apply HU|apply HV]; reflexivity. }
    rewrite HF. reflexivity.
Qed.
(** C81: neither ever panics, and each error says whether bytes are missing or the message is not of the kind. *)
Lemma c81_total : forall m, is_bytes m ->
  In (strict m) [Err SmallBuffer; Err InvalidPacket] \/ (exists fl, strict m = Ok fl /\ tolerant m = Ok fl).
Proof.
  intros m Hb. destruct (strict m) as [fl|e|] eqn:HS.
  - right. exists fl. split; [reflexivity|]. apply c81_strict in HS; [|exact Hb]. destruct HS as (h & Hn & H1 & H2 & H3).
    apply c81_tolerant; [exact Hb|]. exists h. split; [exact Hn|]. destruct Hn as (_ & _ & _ & _ & _ & HP & _).
    destruct HP as [[_ HP]|[_ HP]]; rewrite HP in H2, H3; [destruct (H2 eq_refl)|destruct (H3 eq_refl)]; lia.
  - left. rewrite strict_eq in HS by exact Hb. cbv zeta in HS.
    repeat match type of HS with (if ?x then _ else _) = _ => destruct x end; try discriminate HS; rewrite <- HS; cbn [In]; auto.
  - exfalso. rewrite strict_eq in HS by exact Hb. cbv zeta in HS.
    repeat match type of HS with (if ?x then _ else _) = _ => destruct x end; discriminate HS.
Qed.
Lemma c81_tolerant_total : forall m, is_bytes m ->
  In (tolerant m) [Err SmallBuffer; Err InvalidPacket] \/ (exists fl, tolerant m = Ok fl).
Proof.
  intros m Hb. destruct (tolerant m) as [fl|e|] eqn:HS; [right; eauto|left|exfalso]; rewrite tolerant_eq in HS by exact Hb; cbv zeta in HS;
    repeat match type of HS with (if ?x then _ else _) = _ => destruct x end; try discriminate HS; rewrite <- HS; cbn [In]; auto.
Qed.
(** An error message on the wire. *)
Lemma error_facts c four f options body n : icmp_fields_ok c -> error_type (cf_type c) -> len four = 4 -> is_bytes four -> is_bytes options -> is_bytes body ->
  sent_ok f options body -> (vf_proto f = 17 \/ vf_proto f = 6) ->
  let m := error_message c four f options body n in let h := 20 + len options in
  is_bytes m /\ quoted_body m h = takeN n body /\ wire16 m 10 = vf_total f /\ len m = 8 + h + N.min n (len body) /\
  (forall fl, names m h fl <-> fl = {| fl_proto := ip_protocol_from (vf_proto f); fl_src := vf_src f; fl_dst := vf_dst f;
      fl_sport := wire16 m (8 + h); fl_dport := wire16 m (10 + h) |}) /\ nthN m 8 mod 16 * 4 = h.
Proof.
  intros Hc He H4 B4 Bo Bb (Hf & Hv & Hi & Ht) Hp m h.
  assert (Hl : len m = 8 + h + N.min n (len body)).
  { unfold m, error_message, h. autorewrite with len. rewrite len_v4_wire, H4. change (len (icmp_wire c)) with 4. lia. }
  set (q := v4_wire f ++ options ++ takeN n body).
  assert (Hm : m = (icmp_wire c ++ four) ++ q) by (unfold m, error_message, q; rewrite <- app_assoc; reflexivity).
  assert (Hq : dropN 8 m = q).
  { rewrite Hm. replace 8 with (len (icmp_wire c ++ four)) by (rewrite len_app, H4; reflexivity). apply dropN_app_len. }
  assert (Hb : is_bytes m).
  { assert (Hw : is_bytes (icmp_wire c)) by (destruct Hc as (C1 & C2 & C3); repeat constructor; try assumption; unfold u8, u16 in *; lia).
    rewrite Hm. unfold q. apply is_bytes_app. split; [apply is_bytes_app; split; assumption|].
    apply is_bytes_app. split; [apply is_bytes_v4_wire; exact Hf|]. apply is_bytes_app. split; [exact Bo|apply is_bytes_takeN; exact Bb]. }
  assert (M8 : nthN m 8 = vf_version f * 16 + vf_ihl f) by (change 8 with (8 + 0); rewrite <- at8, Hq; reflexivity).
  assert (M17 : nthN m 17 = vf_proto f) by (change 17 with (8 + 9); rewrite <- at8, Hq; reflexivity).
  assert (M0 : nthN m 0 = cf_type c) by reflexivity.
  assert (M10 : wire16 m 10 = vf_total f) by (change 10 with (8 + 2); rewrite <- wire16_at8, Hq; apply wire16_v4, Hf).
  assert (A12 : wire_addr m 20 = vf_src f) by (change 20 with (8 + 12); rewrite <- addr_at8, Hq; unfold q; destruct (vf_src f) eqn:Es; cbv [wire_addr]; destruct f; cbn in Es; subst; reflexivity).
  assert (A16 : wire_addr m 24 = vf_dst f) by (change 24 with (8 + 16); rewrite <- addr_at8, Hq; unfold q; destruct (vf_dst f) eqn:Es; cbv [wire_addr]; destruct f; cbn in Es; subst; reflexivity).
  assert (Hh : nthN m 8 mod 16 * 4 = h) by (rewrite M8, Hv; destruct Hf as (_ & F2 & _); unfold h; lia).
  split; [exact Hb|]. split.
  { unfold quoted_body. rewrite M10, Ht. rewrite <- body_at8, Hq. unfold q. rewrite app_assoc.
    replace h with (len (v4_wire f ++ options)) by (rewrite len_app, len_v4_wire; reflexivity). rewrite dropN_app_len.
    rewrite len_app, len_v4_wire. apply takeN_all. rewrite len_takeN. lia. }
  split; [exact M10|]. split; [exact Hl|]. split; [|exact Hh]. intros fl. rewrite names_iff. rewrite M17, M8, M0. unfold the_flow. rewrite A12, A16.
  split; [intros (_ & _ & _ & _ & _ & _ & H); exact H|]. intros ->.
  assert (Hd : (vf_version f * 16 + vf_ihl f) / 16 = 4) by (destruct Hf as (_ & F2 & _); lia).
  rewrite M8 in Hh. repeat split; [apply is_error_iff; exact He|rewrite Hl; unfold h; lia|exact Hd|symmetry; exact Hh|rewrite Hl; lia|].
  destruct Hp as [-> | ->]; reflexivity.
Qed.
Lemma tolerant_of m h fl : is_bytes m -> names m h fl -> 4 <= len (quoted_body m h) -> tolerant m = Ok fl.
Proof. intros Hb Hn H4. apply c81_tolerant; [exact Hb|]. exists h. auto. Qed.
Lemma tolerant_short m h fl : is_bytes m -> names m h fl -> len (quoted_body m h) < 4 -> tolerant m = Err SmallBuffer.
Proof.
  intros Hb Hn H4. apply names_iff in Hn. destruct Hn as (A & B & C & -> & F & G & ->). rewrite tolerant_eq by exact Hb.
  destruct (N.ltb_spec (len m) 4); [lia|]. rewrite A. cbn [negb]. destruct (N.ltb_spec (len m) 28); [lia|].
  rewrite C. cbn [N.eqb Pos.eqb negb]. cbv zeta. destruct (N.ltb_spec (len m) (8 + nthN m 8 mod 16 * 4)); [lia|].
  rewrite G. cbn [negb]. destruct (N.ltb_spec (len (quoted_body m (nthN m 8 mod 16 * 4))) 4); [reflexivity|lia].
Qed.
Lemma strict_short m h fl : is_bytes m -> names m h fl -> len m - 8 < wire16 m 10 -> strict m = Err SmallBuffer.
Proof.
  intros Hb Hn H4. apply names_iff in Hn. destruct Hn as (A & B & C & -> & F & G & ->). rewrite strict_eq by exact Hb.
  destruct (N.ltb_spec (len m) 4); [lia|]. rewrite A. cbn [negb]. destruct (N.ltb_spec (len m) 28); [lia|].
  rewrite C. cbn [N.eqb Pos.eqb negb]. cbv zeta. destruct (N.ltb_spec (len m) (8 + nthN m 8 mod 16 * 4)); [lia|].
  destruct (N.ltb_spec (len m - 8) (wire16 m 10)); [reflexivity|lia].
Qed.
Lemma ports_of s d rest : u16 s -> u16 d -> let b := enc16 s ++ enc16 d ++ rest in wire16 b 0 = s /\ wire16 b 2 = d.
Proof.
  intros Hs Hd b. unfold u16 in *. unfold wire16. change (nthN b 0) with (s / 256). change (nthN b (0 + 1)) with (s mod 256).
  change (nthN b 2) with (d / 256). change (nthN b (2 + 1)) with (d mod 256). lia.
Qed.
Lemma wire16_takeN n b i : i + 2 <= n -> wire16 (takeN n b) i = wire16 b i.
Proof. intros H. unfold wire16. rewrite !nthN_takeN by lia. reflexivity. Qed.
(** C81: an error about a UDP datagram: the tolerant program finds the sender's own addresses and ports as soon as four bytes of the body are quoted; the strict one only when all of it is. *)
Lemma c81_udp : forall c four f options u payload n,
  icmp_fields_ok c -> error_type (cf_type c) -> len four = 4 -> is_bytes four -> is_bytes options -> is_bytes payload ->
  udp_fields_ok u -> uf_length u = 8 + len payload -> sent_ok f options (udp_wire u ++ payload) -> vf_proto f = 17 ->
  let m := error_message c four f options (udp_wire u ++ payload) n in
  let fl := flow_of IP_Udp f (uf_src u) (uf_dst u) in
  (4 <= n -> tolerant m = Ok fl) /\ (n < 4 -> tolerant m = Err SmallBuffer) /\
  (8 + len payload <= n -> strict m = Ok fl) /\ (n < 8 + len payload -> strict m = Err SmallBuffer).
Proof.
  intros c four f options u payload n Hc He H4 B4 Bo Bp Hu Hul Hs Hp m fl.
  assert (Bb : is_bytes (udp_wire u ++ payload)) by (apply is_bytes_app; split; [apply is_bytes_udp_wire; exact Hu|exact Bp]).
  assert (Lb : len (udp_wire u ++ payload) = 8 + len payload) by (rewrite len_app; reflexivity).
  destruct (error_facts c four f options _ n Hc He H4 B4 Bo Bb Hs (or_introl Hp)) as (Hb & HQ & HT & HL & HN & Hh).
  fold m in Hb, HQ, HT, HL, HN, Hh. rewrite Lb in HL. set (h := 20 + len options) in *. destruct Hs as (_ & _ & _ & Hs). rewrite Lb in Hs. fold h in Hs.
  destruct Hu as (U1 & U2 & U3 & U4).
  set (fl0 := {| fl_proto := ip_protocol_from (vf_proto f); fl_src := vf_src f; fl_dst := vf_dst f; fl_sport := wire16 m (8 + h); fl_dport := wire16 m (10 + h) |}) in *.
  assert (Hn0 : names m h fl0) by (apply HN; reflexivity).
  assert (Hfl : 4 <= n -> names m h fl).
  { intros N4. replace fl with fl0; [exact Hn0|]. destruct (ports m h) as [P1 P2]; [rewrite HQ, len_takeN, Lb; lia|].
    unfold fl0, fl, flow_of. rewrite <- P1, <- P2, HQ, Hp. rewrite !wire16_takeN by lia.
    destruct (ports_of (uf_src u) (uf_dst u) (enc16 (uf_length u) ++ enc16 (uf_checksum u) ++ payload) U1 U2) as [W1 W2].
    change (udp_wire u ++ payload) with (enc16 (uf_src u) ++ enc16 (uf_dst u) ++ enc16 (uf_length u) ++ enc16 (uf_checksum u) ++ payload). rewrite W1, W2. reflexivity. }
  split; [|split; [|split]].
  - intros N4. apply (tolerant_of m h); [exact Hb|auto|]. rewrite HQ, len_takeN, Lb. lia.
  - intros N4. apply (tolerant_short m h fl0); [exact Hb|exact Hn0|]. rewrite HQ, len_takeN. lia.
  - intros N8. apply c81_strict; [exact Hb|]. exists h. split; [apply Hfl; lia|]. split; [rewrite HT, HL, Hs; lia|].
    split; [intros _|intros E; discriminate E]. rewrite HQ, takeN_all by lia. unfold udp_fits. rewrite Lb. split; [lia|].
    assert (W : wire16 (udp_wire u ++ payload) 4 = uf_length u).
    { unfold u16 in U3. unfold wire16. change (nthN _ 4) with (uf_length u / 256). change (nthN _ (4 + 1)) with (uf_length u mod 256). lia. }
    rewrite W, Hul. lia.
  - intros N8. apply (strict_short m h fl0); [exact Hb|exact Hn0|]. rewrite HT, HL, Hs. lia.
Qed.
(** C81: an error about a TCP segment: the same, whatever options the segment has. *)
Lemma c81_tcp : forall c four f options t topts payload n,
  icmp_fields_ok c -> error_type (cf_type c) -> len four = 4 -> is_bytes four -> is_bytes options -> is_bytes topts -> is_bytes payload ->
  tcp_fields_ok t -> tf_offset t * 4 = 20 + len topts -> sent_ok f options (tcp_wire t ++ topts ++ payload) -> vf_proto f = 6 ->
  let m := error_message c four f options (tcp_wire t ++ topts ++ payload) n in
  let fl := flow_of IP_Tcp f (tf_src t) (tf_dst t) in
  (4 <= n -> tolerant m = Ok fl) /\ (n < 4 -> tolerant m = Err SmallBuffer) /\
  (20 + len topts + len payload <= n -> strict m = Ok fl) /\ (n < 20 + len topts + len payload -> strict m = Err SmallBuffer).
Proof.
  intros c four f options t topts payload n Hc He H4 B4 Bo Bt Bp Hu Hul Hs Hp m fl.
  set (body := tcp_wire t ++ topts ++ payload) in *.
  assert (Bb : is_bytes body) by (apply is_bytes_app; split; [apply is_bytes_tcp_wire; exact Hu|apply is_bytes_app; split; assumption]).
  assert (Lb : len body = 20 + len topts + len payload) by (unfold body; rewrite !len_app; change (len (tcp_wire t)) with 20; lia).
  destruct (error_facts c four f options _ n Hc He H4 B4 Bo Bb Hs (or_intror Hp)) as (Hb & HQ & HT & HL & HN & Hh).
  fold m in Hb, HQ, HT, HL, HN, Hh. rewrite Lb in HL. set (h := 20 + len options) in *. destruct Hs as (_ & _ & _ & Hs). rewrite Lb in Hs. fold h in Hs.
  assert (T12 : nthN body 12 / 16 = tf_offset t).
  { change (nthN body 12) with ((tf_offset t * 4096 + tf_reserved t * 512 + tf_flags t) / 256). destruct Hu as (_ & _ & _ & _ & _ & R1 & R2 & _). lia. }
  destruct Hu as (U1 & U2 & _).
  set (fl0 := {| fl_proto := ip_protocol_from (vf_proto f); fl_src := vf_src f; fl_dst := vf_dst f; fl_sport := wire16 m (8 + h); fl_dport := wire16 m (10 + h) |}) in *.
  assert (Hn0 : names m h fl0) by (apply HN; reflexivity).
  assert (Hfl : 4 <= n -> names m h fl).
  { intros N4. replace fl with fl0; [exact Hn0|]. destruct (ports m h) as [P1 P2]; [rewrite HQ, len_takeN, Lb; lia|].
    unfold fl0, fl, flow_of. rewrite <- P1, <- P2, HQ, Hp. rewrite !wire16_takeN by lia.
    assert (HX : exists rest, body = enc16 (tf_src t) ++ enc16 (tf_dst t) ++ rest) by (unfold body, tcp_wire; rewrite <- !app_assoc; eexists; reflexivity).
    destruct HX as [rest HX]. destruct (ports_of (tf_src t) (tf_dst t) rest U1 U2) as [W1 W2]. rewrite HX, W1, W2. reflexivity. }
  split; [|split; [|split]].
  - intros N4. apply (tolerant_of m h); [exact Hb|auto|]. rewrite HQ, len_takeN, Lb. lia.
  - intros N4. apply (tolerant_short m h fl0); [exact Hb|exact Hn0|]. rewrite HQ, len_takeN. lia.
  - intros N8. apply c81_strict; [exact Hb|]. exists h. split; [apply Hfl; lia|]. split; [rewrite HT, HL, Hs; lia|].
    split; [intros E; discriminate E|intros _]. rewrite HQ, takeN_all by lia. unfold tcp_fits. rewrite T12, Lb. lia.
  - intros N8. apply (strict_short m h fl0); [exact Hb|exact Hn0|]. rewrite HT, HL, Hs. lia.
Qed.
(** C81: port unreachable about a UDP datagram of twelve bytes: with RFC 792's eight bytes of it quoted packet() refuses the message, yet the ports can be had; with all of it both programs name it; with a header of 24 bytes the ports are four further on. *)
Example c81_example :
  let ip := [69;0;0;32;18;52;0;0;64;17;84;151;10;0;0;1;10;0;0;2] in
  let udp := [20;233;0;53;0;12;210;175;1;2;3;4] in
  let icmp := [3;3;0;0;0;0;0;0] in
  let fl := {| fl_proto := IP_Udp; fl_src := Ip4 10 0 0 1; fl_dst := Ip4 10 0 0 2; fl_sport := 5353; fl_dport := 53 |} in
  strict (icmp ++ ip ++ takeN 8 udp) = Err SmallBuffer /\ tolerant (icmp ++ ip ++ takeN 8 udp) = Ok fl /\
  strict (icmp ++ ip ++ udp) = Ok fl /\ tolerant (icmp ++ ip ++ takeN 3 udp) = Err SmallBuffer /\
  tolerant ([8] ++ dropN 1 icmp ++ ip ++ udp) = Err InvalidPacket /\
  (let ip' := [70;0;0;36;18;52;0;0;64;17;84;151;10;0;0;1;10;0;0;2;7;3;4;0] in
   strict (icmp ++ ip' ++ udp) = Ok fl /\ tolerant (icmp ++ ip' ++ takeN 4 udp) = Ok fl).
Proof. vm_compute. repeat split. Qed.
