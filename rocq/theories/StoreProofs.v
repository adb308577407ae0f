(** * StoreProofs: C75, setters and guards on packets made by [unchecked]. *)
From Coq Require Import ZifyBool ZifyNat ZifyN.
From Verif Require Import Base Enums Ether Ipv4 Ip Udp Tcp Icmp Spec SpecUnchecked SpecBlock SpecStore Lemmas AccessProofs ChecksumLemmas ChecksumProofs ParseProofs SliceProofs UncheckedProofs FieldProofs MutableProofs FrameProofs BlockProofs.
Ltac Zify.zify_post_hook ::= Z.div_mod_to_equations.

Lemma len_overwrite b i v : i + len v <= len b -> len (overwrite b i v) = len b.
Proof. intros H. unfold overwrite. autorewrite with len. lia. Qed.
Lemma nthN_overwrite_out b i v j : i + len v <= len b -> j < i \/ i + len v <= j -> nthN (overwrite b i v) j = nthN b j.
Proof.
  intros H Hj. unfold overwrite. destruct Hj as [Hj|Hj].
  - rewrite nthN_app1 by (autorewrite with len; lia). apply nthN_takeN. lia.
  - rewrite nthN_app2 by (autorewrite with len; lia). rewrite nthN_app2 by (autorewrite with len; lia).
    rewrite nthN_dropN. f_equal. autorewrite with len. lia.
Qed.
Lemma overwrite_nil b i : i <= len b -> overwrite b i [] = b.
Proof. intros H. unfold overwrite. change (len []) with 0. rewrite N.add_0_r. apply takeN_dropN. Qed.
Lemma only_overwrite b i v lo hi : i + len v <= len b -> lo <= i -> i + len v <= hi -> only_changes lo hi b (overwrite b i v).
Proof. intros H H1 H2. split; [apply len_overwrite; exact H|]. intros j Hj. apply nthN_overwrite_out; lia. Qed.

Lemma cursor_stored b i v : cursor_write i v b = stored (len b) i v b.
Proof.
  unfold cursor_write, stored, overwrite.
  destruct (N.leb_spec i (len b)); destruct (N.leb_spec (i + len v) (len b)); try lia; [| |reflexivity].
  - rewrite N.min_r by lia. rewrite (takeN_all (len v) v) by lia. rewrite N.ltb_irrefl. reflexivity.
  - rewrite N.min_l by lia. destruct (N.ltb_spec (len b - i) (len v)); [|lia].
    autorewrite with len. rewrite N.min_l by lia. reflexivity.
Qed.
Lemma index_placed b i v : set_index i v b = placed (len b) i [v] b.
Proof.
  unfold set_index, placed, overwrite. change (len [v]) with 1.
  destruct (N.ltb_spec i (len b)); destruct (N.leb_spec (i + 1) (len b)); try lia; reflexivity.
Qed.
Lemma copy_placed b i j v : j = i + len v -> copy_range i j v b = placed (len b) i v b.
Proof.
  intros ->. unfold copy_range, placed, overwrite.
  replace (i <=? i + len v) with true by lia. replace (i + len v - i =? len v) with true by lia.
  rewrite andb_true_r. cbn [andb]. reflexivity.
Qed.
Lemma overwrite_prefix b h i v : h <= len b -> i + len v <= h ->
  overwrite (takeN h b) i v ++ dropN h b = overwrite b i v.
Proof.
  intros Hh Hi. unfold overwrite. rewrite takeN_takeN, N.min_l by lia. rewrite <- !app_assoc. do 2 f_equal.
  rewrite <- (takeN_dropN (h - (i + len v)) (dropN (i + len v) b)). rewrite dropN_dropN.
  replace (i + len v + (h - (i + len v))) with h by lia. f_equal.
  rewrite takeN_dropN_comm. do 2 f_equal. lia.
Qed.

Lemma header_stored split b h i v r : split b = Ok (takeN h b, r) -> h <= len b ->
  header_mut split (cursor_write i v) b = stored h i v b.
Proof.
  intros Hs Hh. unfold header_mut. rewrite Hs, cursor_stored. unfold stored.
  assert (Hl : len (takeN h b) = h) by (autorewrite with len; lia). rewrite Hl.
  destruct (N.leb_spec (i + len v) h); [now rewrite overwrite_prefix by lia|].
  destruct (N.leb_spec i h); [|now rewrite takeN_dropN].
  rewrite overwrite_prefix by (autorewrite with len; lia). reflexivity.
Qed.
Lemma header_index split b h i v r : split b = Ok (takeN h b, r) -> h <= len b ->
  header_mut split (set_index i v) b = placed h i [v] b.
Proof.
  intros Hs Hh. unfold header_mut. rewrite Hs, index_placed. unfold placed.
  assert (Hl : len (takeN h b) = h) by (autorewrite with len; lia). rewrite Hl.
  destruct (N.leb_spec (i + len [v]) h); [now rewrite overwrite_prefix by lia|now rewrite takeN_dropN].
Qed.
Lemma header_copy split b h i j v r : split b = Ok (takeN h b, r) -> h <= len b -> j = i + len v ->
  header_mut split (copy_range i j v) b = placed h i v b.
Proof.
  intros Hs Hh Hj. unfold header_mut. rewrite Hs, copy_placed by exact Hj. unfold placed.
  assert (Hl : len (takeN h b) = h) by (autorewrite with len; lia). rewrite Hl.
  destruct (N.leb_spec (i + len v) h); [now rewrite overwrite_prefix by lia|now rewrite takeN_dropN].
Qed.
Lemma header_panic split b f : split b = Panic -> header_mut split f b = (b, Panic).
Proof. intros Hs. unfold header_mut. now rewrite Hs. Qed.
(** the three kinds of setters behind a split *)
Lemma behind_stored split n h r b : h <= n -> needs n b (split b) (takeN h b, r) -> forall i v,
  header_mut split (cursor_write i v) b = behind n b (stored h i v b).
Proof.
  intros Hn [H1 H2] i v. unfold behind. destruct (N.leb_spec n (len b)) as [H|H].
  - apply (header_stored split b h i v r); [apply H1; exact H|lia].
  - apply header_panic. apply H2. exact H.
Qed.
Lemma behind_index split n h r b : h <= n -> needs n b (split b) (takeN h b, r) -> forall i v,
  header_mut split (set_index i v) b = behind n b (placed h i [v] b).
Proof.
  intros Hn [H1 H2] i v. unfold behind. destruct (N.leb_spec n (len b)) as [H|H].
  - apply (header_index split b h i v r); [apply H1; exact H|lia].
  - apply header_panic. apply H2. exact H.
Qed.
Lemma behind_copy split n h r b : h <= n -> needs n b (split b) (takeN h b, r) -> forall i j v, j = i + len v ->
  header_mut split (copy_range i j v) b = behind n b (placed h i v b).
Proof.
  intros Hn [H1 H2] i j v Hj. unfold behind. destruct (N.leb_spec n (len b)) as [H|H].
  - apply (header_copy split b h i j v r); [apply H1; exact H|lia|exact Hj].
  - apply header_panic. apply H2. exact H.
Qed.

(** C75: Ethernet: the fields are looked for in the whole buffer. *)
Lemma c75_ether : forall b,
  (forall v, ether_set_destination v (ether_unchecked b) = placed (len b) 0 (hw_octets v) b) /\
  (forall v, ether_set_source v (ether_unchecked b) = placed (len b) 6 (hw_octets v) b) /\
  (forall v, ether_set_protocol v (ether_unchecked b) = stored (len b) 12 (enc16 (ether_protocol_into v)) b).
Proof.
  intros b. unfold ether_unchecked. split; [intros v; apply copy_placed; reflexivity|].
  split; [intros v; apply copy_placed; reflexivity|]. intros v. apply cursor_stored.
Qed.
Lemma placed_short n b i v : n < i + len v -> placed n i v b = (b, Panic).
Proof. intros H. unfold placed. destruct (N.leb_spec (i + len v) n); [lia|reflexivity]. Qed.
(** C75: IPv4: dscp, ecn and id are looked for in the whole buffer, the other fields in the header the IHL announces. *)
Lemma c75_v4 : forall b, is_bytes b -> let h := nthN b 0 mod 16 * 4 in let need := N.max 4 h in
  (forall v, v4_apply (V4SetDscp v) (v4_unchecked b) = if 63 <? v then (b, Err InvalidValue) else placed (len b) 1 [v * 4 + nthN b 1 mod 4] b) /\
  (forall v, v4_apply (V4SetEcn v) (v4_unchecked b) = if 3 <? v then (b, Err InvalidValue)
     else placed (len b) 1 [nthN b 1 / 4 mod 16 * 4 + N.lor (nthN b 1 mod 4) v] b) /\
  (forall v, v4_apply (V4SetId v) (v4_unchecked b) = stored (len b) 4 (enc16 v) b) /\
  (forall v, v4_apply (V4SetFlags v) (v4_unchecked b) = behind need b (stored h 6 (enc16 v) b)) /\
  (forall v, v4_apply (V4SetOffset v) (v4_unchecked b) = behind need b (stored h 6 (enc16 v) b)) /\
  (forall v, v4_apply (V4SetTtl v) (v4_unchecked b) = behind need b (placed h 8 [v] b)) /\
  (forall v, v4_apply (V4SetProtocol v) (v4_unchecked b) = behind need b (placed h 9 [ip_protocol_into v] b)) /\
  (forall v, v4_apply (V4SetSource v) (v4_unchecked b) = behind need b (placed h 12 (octets v) b)) /\
  (forall v, v4_apply (V4SetDestination v) (v4_unchecked b) = behind need b (placed h 16 (octets v) b)) /\
  (forall v, v4_set_checksum v (v4_unchecked b) = behind need b (stored h 10 (enc16 v) b)) /\
  (forall E, v4_update_checksum E (v4_unchecked b) =
     behind need b (stored h 10 (enc16 (nonzero_checksum (zero_field 10 (takeN h b)))) b)).
Proof.
  intros b Hb h need. pose proof (c53_v4 b Hb) as HC. cbv zeta in HC. fold h in HC. fold need in HC. unfold v4_unchecked in *.
  destruct HC as (_ & _ & _ & _ & _ & _ & _ & _ & _ & _ & _ & _ & _ & _ & HS & _).
  assert (Hn : h <= need) by (unfold need; lia).
  split.
  { intros v. cbn [v4_apply]. unfold v4_set_dscp. destruct (N.ltb_spec 63 v); [reflexivity|]. unfold mlet.
    destruct (N.ltb_spec 1 (len b)).
    - rewrite index_ok by lia. rewrite index_placed, dscp_byte; [reflexivity|apply is_bytes_nth; exact Hb|lia].
    - rewrite index_panic by lia. rewrite placed_short; [reflexivity|]. change (len [_]) with 1. lia. }
  split.
  { intros v. cbn [v4_apply]. unfold v4_set_ecn. destruct (N.ltb_spec 3 v); [reflexivity|]. unfold mlet.
    destruct (N.ltb_spec 1 (len b)).
    - rewrite index_ok by lia. rewrite index_placed, ecn_byte; [reflexivity|apply is_bytes_nth; exact Hb|lia].
    - rewrite index_panic by lia. rewrite placed_short; [reflexivity|]. change (len [_]) with 1. lia. }
  split; [intros v; apply cursor_stored|].
  split; [intros v; eapply (behind_stored v4_split); [exact Hn|exact HS]|].
  split; [intros v; eapply (behind_stored v4_split); [exact Hn|exact HS]|].
  split; [intros v; eapply (behind_index v4_split); [exact Hn|exact HS]|].
  split; [intros v; eapply (behind_index v4_split); [exact Hn|exact HS]|].
  split; [intros v; eapply (behind_copy v4_split); [exact Hn|exact HS|reflexivity]|].
  split; [intros v; eapply (behind_copy v4_split); [exact Hn|exact HS|reflexivity]|].
  assert (HK : forall v, v4_set_checksum v b = behind need b (stored h 10 (enc16 v) b)).
  { intros v. eapply (behind_stored v4_split); [exact Hn|exact HS]. }
  split; [exact HK|].
  intros E. unfold v4_update_checksum, mlet, v4_header. unfold behind at 1. destruct (N.leb_spec need (len b)) as [Hl|Hl].
  - rewrite (proj1 HS Hl). cbn [bind]. rewrite c20_v4_checksum by (apply is_bytes_takeN; exact Hb).
    rewrite drop_odd_even by (rewrite len_zero_field, len_takeN; unfold h in *; lia).
    rewrite HK. unfold behind. replace (need <=? len b) with true by lia. reflexivity.
  - rewrite (proj2 HS Hl). reflexivity.
Qed.
(** C75: UDP: every field is looked for in the eight bytes of the header. *)
Lemma c75_udp : forall b,
  (forall v, udp_apply (UdpSetSource v) (udp_unchecked b) = behind 8 b (overwrite b 0 (enc16 v), Ok tt)) /\
  (forall v, udp_apply (UdpSetDestination v) (udp_unchecked b) = behind 8 b (overwrite b 2 (enc16 v), Ok tt)) /\
  (forall v, udp_set_checksum v (udp_unchecked b) = behind 8 b (overwrite b 6 (enc16 v), Ok tt)).
Proof.
  intros b. pose proof (c53_udp b) as HC. unfold udp_unchecked in *. destruct HC as (_ & _ & _ & _ & HS & _).
  split; [intros v; exact (behind_stored udp_split 8 8 _ b (N.le_refl 8) HS 0 (enc16 v))|].
  split; [intros v; exact (behind_stored udp_split 8 8 _ b (N.le_refl 8) HS 2 (enc16 v))|].
  intros v; exact (behind_stored udp_split 8 8 _ b (N.le_refl 8) HS 6 (enc16 v)).
Qed.
(** C75: TCP: every field is looked for in the header the data offset announces. *)
Lemma c75_tcp : forall b, is_bytes b -> let h := nthN b 12 / 16 * 4 in let need := N.max 13 h in
  (forall v, tcp_apply (TcpSetSource v) (tcp_unchecked b) = behind need b (stored h 0 (enc16 v) b)) /\
  (forall v, tcp_apply (TcpSetDestination v) (tcp_unchecked b) = behind need b (stored h 2 (enc16 v) b)) /\
  (forall v, tcp_apply (TcpSetSequence v) (tcp_unchecked b) = behind need b (stored h 4 (enc32 v) b)) /\
  (forall v, tcp_apply (TcpSetAcknowledgment v) (tcp_unchecked b) = behind need b (stored h 8 (enc32 v) b)) /\
  (forall v, tcp_apply (TcpSetFlags v) (tcp_unchecked b) = behind need b (if h <=? 12 then (b, Panic) else (overwrite b 12 (enc16 v), Ok tt))) /\
  (forall v, tcp_apply (TcpSetWindow v) (tcp_unchecked b) = behind need b (stored h 14 (enc16 v) b)) /\
  (forall v, tcp_apply (TcpSetPointer v) (tcp_unchecked b) = behind need b (stored h 18 (enc16 v) b)) /\
  (forall v, tcp_set_checksum v (tcp_unchecked b) = behind need b (stored h 16 (enc16 v) b)).
Proof.
  intros b Hb h need. pose proof (c53_tcp b) as HC. cbv zeta in HC. fold h in HC. fold need in HC. unfold tcp_unchecked in *.
  destruct HC as (_ & _ & _ & _ & _ & _ & _ & _ & _ & HS & _).
  assert (Hn : h <= need) by (unfold need; lia).
  assert (HK : forall i v, header_mut tcp_split (cursor_write i v) b = behind need b (stored h i v b)) by (apply (behind_stored tcp_split need h _ b Hn HS)).
  split; [intros v; apply HK|]. split; [intros v; apply HK|]. split; [intros v; apply HK|]. split; [intros v; apply HK|].
  split; [|split; [intros v; apply HK|split; intros v; apply HK]].
  intros v. cbn [tcp_apply]. unfold tcp_set_flags, mlet, tcp_header.
  destruct (N.leb_spec need (len b)) as [Hl|Hl].
  - rewrite (proj1 HS Hl). cbn [bind]. destruct (N.leb_spec h 12).
    + rewrite index_panic by (autorewrite with len; lia). unfold behind. now replace (need <=? len b) with true by lia.
    + rewrite index_ok by (autorewrite with len; lia). rewrite nthN_takeN by lia.
      rewrite flags_shift_out by (apply is_bytes_nth; exact Hb). rewrite N.lor_0_l.
      transitivity (behind need b (stored h 12 (enc16 v) b)); [apply HK|].
      unfold behind. replace (need <=? len b) with true by lia. unfold stored. change (len (enc16 v)) with 2.
      replace (12 + 2 <=? h) with true by (unfold h in *; lia). reflexivity.
  - rewrite (proj2 HS Hl). cbn [bind]. unfold behind. now replace (need <=? len b) with false by lia.
Qed.
Lemma no_err_u32 E x y e : u32_add E x y <> Err e.
Proof. unfold u32_add. destruct (_ <? _); [discriminate|]. destruct (overflow_checks E); discriminate. Qed.
Lemma u32_add_lt E x y z : u32_add E x y = Ok z -> z < U32.
Proof.
  unfold u32_add. destruct (N.ltb_spec (x + y) U32) as [Hs|_]; [intros H; injection H as <-; exact Hs|].
  destruct (overflow_checks E); [discriminate|]. intros H0; injection H0 as <-. apply N.mod_lt. discriminate.
Qed.
Lemma no_err_carry E skip : forall n b, (List.length b <= n)%nat -> forall pos r e, carry_loop E skip pos b r <> Err e.
Proof.
  induction n as [|n IH]; intros [|x [|y c]] Hl pos r e; cbn [List.length] in Hl; try lia; cbn [carry_loop]; try discriminate.
  destruct (pos + 2 =? skip); [apply IH; lia|]. apply no_err_bind; [intros; apply no_err_u32|]. intros a e'. apply IH. lia.
Qed.
Lemma plain_total E skip : forall n b, (List.length b <= n)%nat -> forall pos r, r < U32 ->
  (forall e, plain_loop E skip pos b r <> Err e) /\ (forall r' rest, plain_loop E skip pos b r = Ok (r', rest) -> r' < U32).
Proof.
  induction n as [|n IH]; intros [|x [|y c]] Hl pos r Hr; cbn [List.length] in Hl; try lia; cbn [plain_loop];
    try (split; [discriminate|intros r' rest H; injection H as <- _; exact Hr]).
  destruct (pos + 2 =? skip); [apply IH; [lia|exact Hr]|].
  destruct (u32_add E r (x * 256 + y)) as [s|e|] eqn:C; cbn [bind].
  - apply IH; [lia|]. eapply u32_add_lt. exact C.
  - exfalso. exact (no_err_u32 _ _ _ _ C).
  - split; discriminate.
Qed.
Lemma no_err_pseudo proto ip b e : pseudo_header proto ip b <> Err e.
Proof.
  destruct ip as [p|p]; cbn [pseudo_header]; [|discriminate]. unfold v4_source, v4_destination. revert e.
  repeat (apply no_err_bind; intros; try apply no_err_index; try discriminate).
Qed.
(** C21: udp::checksum never fails: it returns a value or panics, for any parent and any bytes. *)
Lemma c21_udp_no_error : forall E ip b e, udp_checksum_of E ip b <> Err e.
Proof.
  intros E ip b. unfold udp_checksum_of. apply no_err_bind; [intros; apply no_err_pseudo|].
  intros prefix. apply no_err_bind; [intros; eapply no_err_carry; apply le_n|].
  intros [r1 ?]. apply no_err_bind; [intros; eapply no_err_carry; apply le_n|].
  intros [r2 rest]. apply no_err_bind; [|intros; discriminate].
  intros e. destruct rest as [|x ?]; [discriminate|]. destruct (cursor_eof E); [|discriminate].
  revert e. apply no_err_bind; [intros; apply no_err_u32|discriminate].
Qed.
(** C22: tcp::checksum never fails and its folding loop terminates, for any parent and any bytes. *)
Lemma c22_tcp_no_error : forall E ip b e, tcp_checksum_of E ip b <> Err e.
Proof.
  intros E ip b e. unfold tcp_checksum_of.
  destruct (pseudo_header IP_Tcp ip b) as [prefix|e'|] eqn:C0; cbn [bind]; [|exfalso; exact (no_err_pseudo _ _ _ _ C0)|discriminate].
  destruct (plain_total E 0 _ prefix (le_n _) 0 0 eq_refl) as [P1 P2].
  destruct (plain_loop E 0 0 prefix 0) as [[r1 x1]|e'|] eqn:C1; cbn [bind]; [|exfalso; exact (P1 e' eq_refl)|discriminate].
  specialize (P2 r1 x1 eq_refl).
  destruct (plain_total E 18 _ b (le_n _) 0 r1 P2) as [P3 P4].
  destruct (plain_loop E 18 0 b r1) as [[r2 rest]|e'|] eqn:C2; cbn [bind]; [|exfalso; exact (P3 e' eq_refl)|discriminate].
  specialize (P4 r2 rest eq_refl).
  assert (K : forall r3, r3 < U32 -> match fold_loop E 3 r3 with Some r => let* r4 := r in Ok (not_u32_as_u16 r4) | None => Err Io end <> Err e).
  { intros r3 H3. rewrite (fold_loop_ok E r3 1) by exact H3. discriminate. }
  destruct rest as [|x rest]; cbn [bind]; [apply K; exact P4|].
  destruct (cursor_eof E); cbn [bind]; [|discriminate].
  destruct (u32_add E r2 (N.shiftl x 8)) as [r3|e'|] eqn:C3; cbn [bind]; [|exfalso; exact (no_err_u32 _ _ _ _ C3)|discriminate].
  apply K. eapply u32_add_lt. exact C3.
Qed.
(** C75: update_checksum of UDP and TCP stores what checksum() returns for the whole buffer, and panics, storing nothing, when that panics. *)
Lemma c75_update : forall E ip b, is_bytes b -> let h := nthN b 12 / 16 * 4 in
  (forall c, udp_checksum_of E ip b = Ok c -> udp_update_checksum E ip (udp_unchecked b) = behind 8 b (overwrite b 6 (enc16 c), Ok tt)) /\
  (udp_checksum_of E ip b = Panic -> udp_update_checksum E ip (udp_unchecked b) = (b, Panic)) /\
  (forall c, tcp_checksum_of E ip b = Ok c -> tcp_update_checksum E ip (tcp_unchecked b) = behind (N.max 13 h) b (stored h 16 (enc16 c) b)) /\
  (tcp_checksum_of E ip b = Panic -> tcp_update_checksum E ip (tcp_unchecked b) = (b, Panic)).
Proof.
  intros E ip b Hb h. unfold udp_update_checksum, tcp_update_checksum, mlet. destruct (c75_udp b) as (_ & _ & HU).
  pose proof (c75_tcp b Hb) as HT. cbv zeta in HT. fold h in HT. destruct HT as (_ & _ & _ & _ & _ & _ & _ & HT).
  unfold udp_unchecked, tcp_unchecked in *.
  split; [intros c ->; apply HU|]. split; [intros ->; reflexivity|]. split; [intros c ->; apply HT|]. intros ->; reflexivity.
Qed.
(** C75: the typed ICMP messages: every field is looked for in the whole buffer, whatever the size of the message. *)
Lemma c75_icmp : forall b,
  echo_apply EchoMakeRequest (echo_unchecked b) = placed (len b) 0 [8] b /\ echo_apply EchoMakeReply (echo_unchecked b) = placed (len b) 0 [0] b /\
  (forall v, echo_apply (EchoSetIdentifier v) (echo_unchecked b) = stored (len b) 4 (enc16 v) b) /\
  (forall v, echo_apply (EchoSetSequence v) (echo_unchecked b) = stored (len b) 6 (enc16 v) b) /\
  information_apply InfoMakeRequest (information_unchecked b) = placed (len b) 0 [8] b /\ information_apply InfoMakeReply (information_unchecked b) = placed (len b) 0 [0] b /\
  (forall v, information_apply (InfoSetIdentifier v) (information_unchecked b) = stored (len b) 4 (enc16 v) b) /\
  (forall v, information_apply (InfoSetSequence v) (information_unchecked b) = stored (len b) 6 (enc16 v) b) /\
  timestamp_apply TsMakeRequest (timestamp_unchecked b) = placed (len b) 0 [8] b /\ timestamp_apply TsMakeReply (timestamp_unchecked b) = placed (len b) 0 [0] b /\
  (forall v, timestamp_apply (TsSetIdentifier v) (timestamp_unchecked b) = stored (len b) 4 (enc16 v) b) /\
  (forall v, timestamp_apply (TsSetSequence v) (timestamp_unchecked b) = stored (len b) 6 (enc16 v) b) /\
  (forall v, timestamp_apply (TsSetOriginate v) (timestamp_unchecked b) = stored (len b) 8 (enc32 v) b) /\
  (forall v, timestamp_apply (TsSetReceive v) (timestamp_unchecked b) = stored (len b) 12 (enc32 v) b) /\
  (forall v, timestamp_apply (TsSetTransmit v) (timestamp_unchecked b) = stored (len b) 16 (enc32 v) b).
Proof.
  intros b. repeat apply conj; first [apply index_placed | intros v; apply cursor_stored].
Qed.
Lemma prefix_stored n i v b : n <= len b -> prefix_mut n (cursor_write i v) b = stored n i v b.
Proof.
  intros H. rewrite <- (header_stored (fun b => Ok (takeN n b, [])) b n i v [] eq_refl H).
  unfold prefix_mut, header_mut. replace (n <=? len b) with true by lia.
  rewrite len_takeN. now replace (N.min n (len b)) with n by lia.
Qed.
Lemma icmp_drop_eq E as_ref n b : is_bytes b -> n <= len b -> as_ref b = Ok (takeN n b) ->
  icmp_checked_drop E as_ref b = stored n 2 (enc16 (nonzero_checksum (drop_odd (zero_field 2 (takeN n b))))) b.
Proof.
  intros Hb Hn Ha. unfold icmp_checked_drop, mlet. rewrite Ha. cbn [bind]. rewrite c23_icmp_checksum by (apply is_bytes_takeN; exact Hb).
  cbn [bind fst snd]. rewrite len_takeN. replace (N.min n (len b)) with n by lia. apply prefix_stored. exact Hn.
Qed.
Lemma as_ref_to (E : env) b m (n : N) : n <= len b -> m = Ok n -> (let* k := m in slice_to b k) = Ok (takeN n b).
Proof. intros H ->. cbn [bind]. apply slice_to_ok. exact H. Qed.
(** C75: the guard of an ICMP message, taken and dropped at once. An echo message covers the whole buffer: one shorter than its header panics where overflow is checked, and elsewhere is given a checksum if that fits, or half of one and then a panic. *)
Lemma c75_icmp_drop : forall E b, rust_slice b ->
  let ck m := enc16 (nonzero_checksum (drop_odd (zero_field 2 m))) in
  (8 <= len b -> echo_checked E [] (echo_unchecked b) = (overwrite b 2 (ck b), Ok tt)) /\
  (len b < 8 -> overflow_checks E = true -> echo_checked E [] (echo_unchecked b) = (b, Panic)) /\
  (len b < 8 -> overflow_checks E = false -> echo_checked E [] (echo_unchecked b) =
     (fst (stored (len b) 2 (ck b) b), if 4 <=? len b then Ok tt else Panic)) /\
  information_checked E [] (information_unchecked b) = behind 8 b (overwrite b 2 (ck (takeN 8 b)), Ok tt) /\
  timestamp_checked E [] (timestamp_unchecked b) = behind 20 b (overwrite b 2 (ck (takeN 20 b)), Ok tt).
Proof.
  intros E b [Hb Hlen] ck. unfold echo_unchecked, information_unchecked, timestamp_unchecked.
  assert (HU : len b < USIZE) by (revert Hlen; unfold ISIZE_MAX, USIZE; destruct (target E); lia).
  assert (HU8 : 20 < USIZE) by (unfold USIZE; destruct (target E); lia).
  assert (HS : forall n m, n <= len b -> 4 <= n -> stored n 2 (ck m) b = (overwrite b 2 (ck m), Ok tt)).
  { intros n m H1 H2. unfold stored. change (len (ck m)) with 2. now replace (2 + 2 <=? n) with true by lia. }
  unfold echo_checked, information_checked, timestamp_checked. cbn [run_guard].
  split.
  { intros H. rewrite (icmp_drop_eq E (echo_as_ref E) (len b)); [|exact Hb|lia|].
    - rewrite takeN_all by lia. fold (ck b). rewrite HS by lia. reflexivity.
    - unfold echo_as_ref. apply as_ref_to; [exact E|lia|]. unfold echo_size, echo_header_size, echo_payload_size. cbn [bind].
      rewrite usize_sub_ok by lia. cbn [bind]. rewrite usize_add_ok by lia. f_equal. lia. }
  split.
  { intros H HO. unfold icmp_checked_drop, mlet, echo_as_ref, echo_size, echo_header_size, echo_payload_size, usize_sub. cbn [bind].
    rewrite HO. replace (8 <=? len b) with false by lia. reflexivity. }
  split.
  { intros H HO. rewrite (icmp_drop_eq E (echo_as_ref E) (len b)); [|exact Hb|lia|].
    - rewrite takeN_all by lia. fold (ck b). unfold stored. change (len (ck b)) with 2.
      change (2 + 2) with 4. destruct (4 <=? len b); [reflexivity|]. destruct (2 <=? len b); reflexivity.
    - unfold echo_as_ref. apply as_ref_to; [exact E|lia|]. unfold echo_size, echo_header_size, echo_payload_size, usize_sub, usize_add. cbn [bind].
      rewrite HO. replace (8 <=? len b) with false by lia. cbn [bind].
      replace (8 + (len b + USIZE - 8)) with (len b + 1 * USIZE) by lia. replace (len b + 1 * USIZE <? USIZE) with false by lia.
      rewrite N.mod_add by lia. now rewrite N.mod_small by lia. }
  split.
  - unfold behind. destruct (N.leb_spec 8 (len b)).
    + rewrite (icmp_drop_eq E (information_as_ref E) 8); [|exact Hb|lia|].
      * fold (ck (takeN 8 b)). rewrite HS by lia. reflexivity.
      * unfold information_as_ref. apply as_ref_to; [exact E|lia|]. unfold information_size, information_header_size, information_payload_size. cbn [bind].
        rewrite usize_add_ok by lia. reflexivity.
    + unfold icmp_checked_drop, mlet, information_as_ref, information_size, information_header_size, information_payload_size. cbn [bind].
      rewrite usize_add_ok by lia. cbn [bind]. unfold slice_to. now replace (8 + 0 <=? len b) with false by lia.
  - unfold behind. destruct (N.leb_spec 20 (len b)).
    + rewrite (icmp_drop_eq E (timestamp_as_ref E) 20); [|exact Hb|lia|].
      * fold (ck (takeN 20 b)). rewrite HS by lia. reflexivity.
      * unfold timestamp_as_ref. apply as_ref_to; [exact E|lia|]. unfold timestamp_size, timestamp_header_size, timestamp_payload_size. cbn [bind].
        rewrite usize_add_ok by lia. reflexivity.
    + unfold icmp_checked_drop, mlet, timestamp_as_ref, timestamp_size, timestamp_header_size, timestamp_payload_size. cbn [bind].
      rewrite usize_add_ok by lia. cbn [bind]. unfold slice_to. now replace (20 + 0 <=? len b) with false by lia.
Qed.
(** ** Frames *)
Definition frames (lo hi : N) (f : mut) : Prop := forall b, only_changes lo hi b (fst (f b)).
Lemma oc_refl lo hi b : only_changes lo hi b b. Proof. split; reflexivity. Qed.
Lemma fr_stored reach i v lo hi b : reach <= len b -> lo <= i -> i + len v <= hi -> only_changes lo hi b (fst (stored reach i v b)).
Proof.
  intros Hr H1 H2. unfold stored. destruct (N.leb_spec (i + len v) reach); [apply only_overwrite; lia|].
  destruct (N.leb_spec i reach); [|apply oc_refl]. cbn [fst].
  apply only_overwrite; autorewrite with len; lia.
Qed.
Lemma fr_cursor i v lo hi : lo <= i -> i + len v <= hi -> frames lo hi (cursor_write i v).
Proof. intros H1 H2 b. rewrite cursor_stored. apply fr_stored; lia. Qed.
Lemma fr_placed reach i v lo hi b : reach <= len b -> lo <= i -> i + len v <= hi -> only_changes lo hi b (fst (placed reach i v b)).
Proof. intros Hr H1 H2. unfold placed. destruct (N.leb_spec (i + len v) reach); [apply only_overwrite; lia|apply oc_refl]. Qed.
Lemma fr_index i v lo hi : lo <= i -> i + 1 <= hi -> frames lo hi (set_index i v).
Proof. intros H1 H2 b. rewrite index_placed. apply fr_placed; [lia|lia|]. change (len [v]) with 1. lia. Qed.
Lemma fr_copy i j v lo hi : j = i + len v -> lo <= i -> j <= hi -> frames lo hi (copy_range i j v).
Proof. intros Hj H1 H2 b. rewrite copy_placed by exact Hj. apply fr_placed; lia. Qed.
Lemma fr_mlet {A} (r : bytes -> res A) k lo hi : (forall a, frames lo hi (k a)) -> frames lo hi (mlet r k).
Proof. intros H b. unfold mlet. destruct (r b); [apply H|apply oc_refl|apply oc_refl]. Qed.
Definition prefixes (split : bytes -> res (bytes * bytes)) : Prop := forall b h r, split b = Ok (h, r) -> exists n, n <= len b /\ h = takeN n b.
Lemma oc_app lo hi a a' r : only_changes lo hi a a' -> only_changes lo hi (a ++ r) (a' ++ r).
Proof.
  intros [Hl Hn]. split; [autorewrite with len; lia|]. intros i Hi. destruct (N.ltb_spec i (len a)).
  - rewrite !nthN_app1 by lia. apply Hn. exact Hi.
  - rewrite !nthN_app2 by lia. rewrite Hl. reflexivity.
Qed.
Lemma fr_prefix n f lo hi b : n <= len b -> frames lo hi f -> only_changes lo hi b (fst (f (takeN n b)) ++ dropN n b).
Proof.
  intros Hn Hf. pose proof (oc_app lo hi _ _ (dropN n b) (Hf (takeN n b))) as H. rewrite takeN_dropN in H. exact H.
Qed.
Lemma fr_header split f lo hi : prefixes split -> frames lo hi f -> frames lo hi (header_mut split f).
Proof.
  intros Hs Hf b. unfold header_mut. destruct (split b) as [[h r]|e|] eqn:C; try apply oc_refl.
  destruct (Hs b h r C) as (n & Hn & ->). rewrite len_takeN. replace (N.min n (len b)) with n by lia.
  pose proof (fr_prefix n f lo hi b Hn Hf) as H. destruct (f (takeN n b)) as [h' x]. exact H.
Qed.
Lemma pf_at b n h r : split_at b n = Ok (h, r) -> exists m, m <= len b /\ h = takeN m b.
Proof.
  unfold split_at. destruct (N.leb_spec n (len b)); [|discriminate]. intros H0. injection H0 as <- _. exists n. split; [assumption|reflexivity].
Qed.
Lemma pf_cut b t n h r : (let* b' := (if len b <? t then Ok b else slice_to b t) in split_at b' n) = Ok (h, r) -> exists m, m <= len b /\ h = takeN m b.
Proof.
  destruct (N.ltb_spec (len b) t); cbn [bind]; [apply pf_at|]. rewrite slice_to_ok by lia. cbn [bind].
  intros H0. apply pf_at in H0. destruct H0 as (m & Hm & ->). rewrite len_takeN in Hm. exists m. split; [lia|].
  rewrite takeN_takeN. f_equal. lia.
Qed.
Lemma pf_v4 : prefixes v4_split.
Proof.
  intros b h r. unfold v4_split. destruct (v4_ihl b); cbn [bind]; try discriminate. destruct (v4_payload_size b); cbn [bind]; try discriminate. apply pf_cut.
Qed.
Lemma pf_udp : prefixes udp_split.
Proof. intros b h r. unfold udp_split. destruct (udp_payload_size b); cbn [bind]; try discriminate. apply pf_cut. Qed.
Lemma pf_tcp : prefixes tcp_split.
Proof. intros b h r. unfold tcp_split. destruct (tcp_offset b); cbn [bind]; try discriminate. apply pf_at. Qed.
Lemma fr_const lo hi (r : res unit) : frames lo hi (fun b => (b, r)). Proof. intros b. apply oc_refl. Qed.
Ltac fr := first [apply fr_header; [first [apply pf_v4|apply pf_udp|apply pf_tcp]|fr]
  | apply fr_mlet; intros; fr | apply fr_cursor; [lia|change (len _) with 2; lia] | apply fr_cursor; [lia|change (len _) with 4; lia]
  | apply fr_index; lia | apply fr_copy; [reflexivity|lia|lia] | apply fr_const].
Lemma fr_v4 s : frames (fst (v4_place s)) (snd (v4_place s)) (v4_apply s).
Proof.
  destruct s; cbn [v4_place fst snd v4_apply]; unfold v4_set_dscp, v4_set_ecn; try (destruct (_ <? _)); fr.
Qed.
Lemma fr_udp s : frames (fst (udp_place s)) (snd (udp_place s)) (udp_apply s).
Proof. destruct s; cbn [udp_place fst snd udp_apply]; fr. Qed.
Lemma fr_tcp s : frames (fst (tcp_place s)) (snd (tcp_place s)) (tcp_apply s).
Proof. destruct s; cbn [tcp_place fst snd tcp_apply]; fr. Qed.
Lemma fr_echo s : frames (fst (echo_place s)) (snd (echo_place s)) (echo_apply s).
Proof. destruct s; cbn [echo_place fst snd echo_apply]; fr. Qed.
Lemma fr_information s : frames (fst (information_place s)) (snd (information_place s)) (information_apply s).
Proof. destruct s; cbn [information_place fst snd information_apply]; fr. Qed.
Lemma fr_timestamp s : frames (fst (timestamp_place s)) (snd (timestamp_place s)) (timestamp_apply s).
Proof. destruct s; cbn [timestamp_place fst snd timestamp_apply]; fr. Qed.
Lemma fr_v4_drop E : frames 10 12 (v4_update_checksum E). Proof. unfold v4_update_checksum. fr. Qed.
Lemma fr_udp_drop E ip : frames 6 8 (udp_update_checksum E ip). Proof. unfold udp_update_checksum. fr. Qed.
Lemma fr_tcp_drop E ip : frames 16 18 (tcp_update_checksum E ip). Proof. unfold tcp_update_checksum. fr. Qed.
Lemma fr_prefix_mut n f lo hi : frames lo hi f -> frames lo hi (prefix_mut n f).
Proof.
  intros Hf b. unfold prefix_mut. destruct (N.leb_spec n (len b)); [|apply oc_refl].
  pose proof (fr_prefix n f lo hi b ltac:(assumption) Hf) as H0. destruct (f (takeN n b)). exact H0.
Qed.
Lemma fr_icmp_drop E a : frames 2 4 (icmp_checked_drop E a).
Proof. unfold icmp_checked_drop. apply fr_mlet. intros x. apply fr_prefix_mut. fr. Qed.
(** C75: whatever the bytes and however the call ends, a setter changes at most the bytes of its field and never the length. *)
Lemma c75_frame : forall b,
  (forall s, only_changes (fst (v4_place s)) (snd (v4_place s)) b (fst (v4_apply s (v4_unchecked b)))) /\
  (forall s, only_changes (fst (udp_place s)) (snd (udp_place s)) b (fst (udp_apply s (udp_unchecked b)))) /\
  (forall s, only_changes (fst (tcp_place s)) (snd (tcp_place s)) b (fst (tcp_apply s (tcp_unchecked b)))) /\
  (forall s, only_changes (fst (echo_place s)) (snd (echo_place s)) b (fst (echo_apply s (echo_unchecked b)))) /\
  (forall s, only_changes (fst (information_place s)) (snd (information_place s)) b (fst (information_apply s (information_unchecked b)))) /\
  (forall s, only_changes (fst (timestamp_place s)) (snd (timestamp_place s)) b (fst (timestamp_apply s (timestamp_unchecked b)))) /\
  (forall E, only_changes 10 12 b (fst (v4_update_checksum E (v4_unchecked b)))) /\
  (forall E ip, only_changes 6 8 b (fst (udp_update_checksum E ip (udp_unchecked b)))) /\
  (forall E ip, only_changes 16 18 b (fst (tcp_update_checksum E ip (tcp_unchecked b)))).
Proof.
  intros b. unfold v4_unchecked, udp_unchecked, tcp_unchecked, echo_unchecked, information_unchecked, timestamp_unchecked.
  split; [intros s; apply fr_v4|]. split; [intros s; apply fr_udp|]. split; [intros s; apply fr_tcp|]. split; [intros s; apply fr_echo|].
  split; [intros s; apply fr_information|]. split; [intros s; apply fr_timestamp|]. split; [intros E; apply fr_v4_drop|].
  split; [intros E ip; apply fr_udp_drop|]. intros E ip; apply fr_tcp_drop.
Qed.
Lemma block_frame {A} (apply : A -> mut) drop place c :
  (forall s, frames (fst (place s)) (snd (place s)) (apply s)) -> frames c (c + 2) drop ->
  forall k b ops e b', life apply k b = (ops, e) -> run_block apply drop k b = Continues b' \/ run_block apply drop k b = Unwinds b' ->
  differs_in place c ops b b'.
Proof.
  intros Ha Hd.
  assert (HD : forall p b b', drop_guard drop p b = Continues b' \/ drop_guard drop p b = Unwinds b' -> only_changes c (c + 2) b b').
  { intros p b b'. unfold drop_guard. pose proof (Hd b) as H. destruct (drop b) as [b1 [u|x|]]; cbn [fst] in H; destruct p;
      intros [K|K]; try discriminate; injection K as <-; exact H. }
  assert (HE : forall p b b', drop_guard drop p b = Continues b' \/ drop_guard drop p b = Unwinds b' -> forall ops, differs_in place c ops b b').
  { intros p b b' H ops. destruct (HD p b b' H) as [H1 H2]. split; [exact H1|]. intros i _ Hi. apply H2. exact Hi. }
  induction k as [| | |o go_on IH]; intros b ops e b'; cbn [life run_block].
  - intros _ H. exact (HE _ _ _ H ops).
  - intros _ H. exact (HE _ _ _ H ops).
  - intros _ [H|H]; [|discriminate]. injection H as <-. split; reflexivity.
  - pose proof (Ha o b) as [F1 F2]. destruct (apply o b) as [b1 r]. cbn [fst] in *.
    assert (Hgo : forall rest, differs_in place c rest b1 b' -> differs_in place c (o :: rest) b b').
    { intros rest [L N]. split; [lia|]. intros i Hi Hc. inversion Hi as [|? ? Hi1 Hi2]; subst. rewrite N by assumption. apply F2. exact Hi1. }
    destruct r as [u|x|].
    + destruct (life apply (go_on (Ok u)) b1) as [rest e1] eqn:C. intros H K. injection H as <- <-. apply Hgo. exact (IH (Ok u) b1 rest e1 b' C K).
    + destruct (life apply (go_on (Err x)) b1) as [rest e1] eqn:C. intros H K. injection H as <- <-. apply Hgo. exact (IH (Err x) b1 rest e1 b' C K).
    + intros H K. injection H as <- <-. apply Hgo. exact (HE _ _ _ K []).
Qed.
(** C75: a block of code holding a guard over any bytes, however it ends: if the process lives on, only the fields whose setters it called and the checksum can have changed. *)
Lemma c75_blocks : forall E ip b b',
  (forall k ops e, life v4_apply k (v4_unchecked b) = (ops, e) ->
     run_block v4_apply (v4_update_checksum E) k (v4_unchecked b) = Continues b' \/ run_block v4_apply (v4_update_checksum E) k (v4_unchecked b) = Unwinds b' ->
     differs_in v4_place 10 ops b b') /\
  (forall k ops e, life udp_apply k (udp_unchecked b) = (ops, e) ->
     run_block udp_apply (udp_update_checksum E ip) k (udp_unchecked b) = Continues b' \/ run_block udp_apply (udp_update_checksum E ip) k (udp_unchecked b) = Unwinds b' ->
     differs_in udp_place 6 ops b b') /\
  (forall k ops e, life tcp_apply k (tcp_unchecked b) = (ops, e) ->
     run_block tcp_apply (tcp_update_checksum E ip) k (tcp_unchecked b) = Continues b' \/ run_block tcp_apply (tcp_update_checksum E ip) k (tcp_unchecked b) = Unwinds b' ->
     differs_in tcp_place 16 ops b b') /\
  (forall k ops e, life echo_apply k (echo_unchecked b) = (ops, e) ->
     run_block echo_apply (icmp_checked_drop E (echo_as_ref E)) k (echo_unchecked b) = Continues b' \/ run_block echo_apply (icmp_checked_drop E (echo_as_ref E)) k (echo_unchecked b) = Unwinds b' ->
     differs_in echo_place 2 ops b b') /\
  (forall k ops e, life information_apply k (information_unchecked b) = (ops, e) ->
     run_block information_apply (icmp_checked_drop E (information_as_ref E)) k (information_unchecked b) = Continues b' \/
     run_block information_apply (icmp_checked_drop E (information_as_ref E)) k (information_unchecked b) = Unwinds b' ->
     differs_in information_place 2 ops b b') /\
  (forall k ops e, life timestamp_apply k (timestamp_unchecked b) = (ops, e) ->
     run_block timestamp_apply (icmp_checked_drop E (timestamp_as_ref E)) k (timestamp_unchecked b) = Continues b' \/
     run_block timestamp_apply (icmp_checked_drop E (timestamp_as_ref E)) k (timestamp_unchecked b) = Unwinds b' ->
     differs_in timestamp_place 2 ops b b').
Proof.
  intros E ip b b'. unfold v4_unchecked, udp_unchecked, tcp_unchecked, echo_unchecked, information_unchecked, timestamp_unchecked.
  split; [intros k ops e; apply (block_frame v4_apply); [exact fr_v4|apply fr_v4_drop]|].
  split; [intros k ops e; apply (block_frame udp_apply); [exact fr_udp|apply fr_udp_drop]|].
  split; [intros k ops e; apply (block_frame tcp_apply); [exact fr_tcp|apply fr_tcp_drop]|].
  split; [intros k ops e; apply (block_frame echo_apply); [exact fr_echo|apply fr_icmp_drop]|].
  split; [intros k ops e; apply (block_frame information_apply); [exact fr_information|apply fr_icmp_drop]|].
  intros k ops e; apply (block_frame timestamp_apply); [exact fr_timestamp|apply fr_icmp_drop].
Qed.
(** C75: half a field: five bytes, the second byte of the id does not fit. *)
Example c75_example : forall E, let b := [69; 0; 0; 20; 7] in
  v4_apply (V4SetId 258) (v4_unchecked b) = ([69; 0; 0; 20; 1], Err Io) /\ v4_apply (V4SetTtl 9) (v4_unchecked b) = (b, Panic) /\
  tcp_apply (TcpSetFlags 2) (tcp_unchecked (zeros 12 ++ [80; 0] ++ zeros 6)) = (zeros 12 ++ [0; 2] ++ zeros 6, Ok tt) /\
  run_block v4_apply (v4_update_checksum E) (CallThen (V4SetId 258) (fun _ => CallThen (V4SetDscp 1) (fun _ => Leave))) (v4_unchecked b) = Unwinds [69; 4; 0; 20; 1] /\
  echo_checked E [] (echo_unchecked [8; 0; 0]) = (if overflow_checks E then [8; 0; 0] else [8; 0; 247], Panic).
Proof. intros [[] [] []]; repeat split. Qed.
Lemma rest_sizes_ok (E : env) n b (size : res N) : len b <= ISIZE_MAX -> n <= 64 ->
  size = (let* p := usize_sub E (len b) n in usize_add E n p) ->
  rest_sizes E n b (usize_sub E (len b) n) size (let* m := size in slice_to b m).
Proof.
  intros Hlen Hn ->. 
  assert (HU : len b < USIZE) by (revert Hlen; unfold ISIZE_MAX, USIZE; destruct (target E); lia).
  assert (HN : n < USIZE) by (unfold USIZE; destruct (target E); lia).
  unfold rest_sizes, usize_sub. destruct (N.leb_spec n (len b)); cbn [bind].
  - rewrite usize_add_ok by lia. replace (n + (len b - n)) with (len b) by lia. cbn [bind]. rewrite slice_to_ok by lia.
    rewrite takeN_all by lia. repeat split.
  - destruct (overflow_checks E) eqn:HO; cbn [bind]; [repeat split|].
    unfold usize_add. rewrite HO. replace (n + (len b + USIZE - n)) with (len b + 1 * USIZE) by lia.
    replace (len b + 1 * USIZE <? USIZE) with false by lia. rewrite N.mod_add, N.mod_small by lia.
    cbn [bind]. rewrite slice_to_ok by lia. rewrite takeN_all by lia. repeat split. f_equal. lia.
Qed.
(** C53: the sizes, and the packet as a slice, of the packets that take the rest of the buffer for their payload. *)
Lemma c53_sizes : forall E b, rust_slice b -> let h := nthN b 12 / 16 * 4 in
  ether_header_size (ether_unchecked b) = Ok 14 /\ icmp_header_size (icmp_unchecked b) = Ok 4 /\ echo_header_size (echo_unchecked b) = Ok 8 /\
  rest_sizes E 14 b (ether_payload_size E (ether_unchecked b)) (ether_size E (ether_unchecked b)) (ether_as_ref E (ether_unchecked b)) /\
  rest_sizes E 4 b (icmp_payload_size E (icmp_unchecked b)) (icmp_size E (icmp_unchecked b)) (icmp_as_ref E (icmp_unchecked b)) /\
  rest_sizes E 8 b (echo_payload_size E (echo_unchecked b)) (echo_size E (echo_unchecked b)) (echo_as_ref E (echo_unchecked b)) /\
  needs 13 b (tcp_header_size (tcp_unchecked b)) h /\
  (13 <= len b -> rest_sizes E h b (tcp_payload_size E (tcp_unchecked b)) (tcp_size E (tcp_unchecked b)) (tcp_as_ref E (tcp_unchecked b))) /\
  (len b < 13 -> tcp_payload_size E (tcp_unchecked b) = Panic /\ tcp_size E (tcp_unchecked b) = Panic /\ tcp_as_ref E (tcp_unchecked b) = Panic).
Proof.
  intros E b [Hb Hl] h. unfold ether_unchecked, icmp_unchecked, echo_unchecked, tcp_unchecked.
  split; [reflexivity|]. split; [reflexivity|]. split; [reflexivity|].
  split; [apply rest_sizes_ok; [exact Hl|lia|reflexivity]|].
  split; [apply rest_sizes_ok; [exact Hl|lia|reflexivity]|].
  split; [apply rest_sizes_ok; [exact Hl|lia|reflexivity]|].
  pose proof (c53_tcp b) as HC. cbv zeta in HC. destruct HC as (_ & _ & _ & _ & HO & _). unfold tcp_unchecked in HO.
  split; [apply (needs_bind 13 b _ _ (fun o => o * 4) HO)|].
  unfold tcp_as_ref, tcp_size, tcp_payload_size, tcp_header_size. split; intros H.
  - rewrite (proj1 HO) by exact H. cbn [bind]. fold h. apply rest_sizes_ok; [exact Hl| |reflexivity].
    pose proof (is_bytes_nth b 12 Hb). unfold h. lia.
  - rewrite (proj2 HO) by exact H. cbn [bind]. repeat split.
Qed.
(** C53: the sizes of the packets that have a length of their own, and of the messages embedding a datagram. *)
Lemma c53_own_sizes : forall E b, rust_slice b -> let h := nthN b 0 mod 16 * 4 in
  needs 1 b (v4_header_size (v4_unchecked b)) h /\ needs 4 b (v4_payload_size (v4_unchecked b)) (wire16 b 2 - h) /\
  needs 4 b (v4_size (v4_unchecked b)) (N.max h (wire16 b 2)) /\
  needs (N.max 4 (N.max h (wire16 b 2))) b (v4_as_ref (v4_unchecked b)) (takeN (N.max h (wire16 b 2)) b) /\
  udp_header_size (udp_unchecked b) = Ok 8 /\ needs 6 b (udp_payload_size (udp_unchecked b)) (wire16 b 4 - 8) /\
  needs 6 b (udp_size (udp_unchecked b)) (N.max 8 (wire16 b 4)) /\
  information_header_size (information_unchecked b) = Ok 8 /\ information_payload_size (information_unchecked b) = Ok 0 /\ information_size E (information_unchecked b) = Ok 8 /\
  needs 8 b (information_as_ref E (information_unchecked b)) (takeN 8 b) /\
  timestamp_header_size (timestamp_unchecked b) = Ok 20 /\ timestamp_payload_size (timestamp_unchecked b) = Ok 0 /\ timestamp_size E (timestamp_unchecked b) = Ok 20 /\
  needs 20 b (timestamp_as_ref E (timestamp_unchecked b)) (takeN 20 b).
Proof.
  intros E b [Hb Hl] h. unfold v4_unchecked, udp_unchecked, information_unchecked, timestamp_unchecked.
  assert (HU : 64 < USIZE) by (unfold USIZE; destruct (target E); lia).
  pose proof (c53_v4 b Hb) as HC. cbv zeta in HC. destruct HC as (_ & HI & _). unfold v4_unchecked in HI.
  assert (HH : needs 1 b (v4_header_size b) h) by (apply (needs_bind 1 b _ _ (fun o => o * 4) HI)).
  assert (HP : needs 4 b (v4_payload_size b) (wire16 b 2 - h)).
  { split; intros H; unfold v4_payload_size, v4_length.
    - rewrite get16 by lia. cbn [bind]. rewrite (proj1 HI) by lia. reflexivity.
    - rewrite get16_panic by lia. reflexivity. }
  assert (HS : needs 4 b (v4_size b) (N.max h (wire16 b 2))).
  { split; intros H; unfold v4_size.
    - rewrite (proj1 HH) by lia. cbn [bind]. rewrite (proj1 HP) by lia. cbn [bind]. f_equal. lia.
    - destruct (N.ltb_spec (len b) 1); [rewrite (proj2 HH) by lia; reflexivity|]. rewrite (proj1 HH) by lia. cbn [bind].
      rewrite (proj2 HP) by lia. reflexivity. }
  split; [exact HH|]. split; [exact HP|]. split; [exact HS|]. split.
  { split; intros H; unfold v4_as_ref.
    - rewrite (proj1 HS) by lia. cbn [bind]. apply slice_to_ok. lia.
    - destruct (N.ltb_spec (len b) 4); [rewrite (proj2 HS) by lia; reflexivity|]. rewrite (proj1 HS) by lia. cbn [bind].
      unfold slice_to. destruct (N.leb_spec (N.max h (wire16 b 2)) (len b)); [lia|reflexivity]. }
  split; [reflexivity|].
  assert (HQ : needs 6 b (udp_payload_size b) (wire16 b 4 - 8)) by (apply (needs_bind 6 b _ _ (fun l => l - 8)); apply (needs_get16 b 4)).
  split; [exact HQ|]. split.
  { split; intros H; unfold udp_size, udp_header_size; cbn [bind].
    - rewrite (proj1 HQ) by lia. cbn [bind]. f_equal. lia.
    - rewrite (proj2 HQ) by lia. reflexivity. }
  assert (HA : forall n (x : res N), x = Ok n -> needs n b (let* m := x in slice_to b m) (takeN n b)).
  { intros n x ->. cbn [bind]. split; intros H; unfold slice_to; destruct (N.leb_spec n (len b)); (lia || reflexivity). }
  assert (H8 : information_size E b = Ok 8) by (unfold information_size, information_header_size, information_payload_size; cbn [bind]; apply usize_add_ok; lia).
  assert (H20 : timestamp_size E b = Ok 20) by (unfold timestamp_size, timestamp_header_size, timestamp_payload_size; cbn [bind]; apply usize_add_ok; lia).
  split; [reflexivity|]. split; [reflexivity|]. split; [exact H8|]. split; [apply HA; exact H8|].
  split; [reflexivity|]. split; [reflexivity|]. split; [exact H20|]. apply HA. exact H20.
Qed.
(** C53: the ICMP error messages: the payload counts as the header of the embedded datagram, or as all that is left if there is none; the message is cut accordingly. *)
Lemma c53_embedded_sizes : forall E b, rust_slice b ->
  (len b < 8 -> embedded_payload_size E b = Panic /\ embedded_size E b = Panic /\ embedded_as_ref E b = Panic) /\
  (8 <= len b -> v4_new (dropN 8 b) = Ok (dropN 8 b) -> let n := nthN b 8 mod 16 * 4 in
     embedded_payload_size E b = Ok n /\ embedded_size E b = Ok (8 + n) /\ embedded_as_ref E b = Ok (takeN (8 + n) b)) /\
  (8 <= len b -> v4_new (dropN 8 b) <> Ok (dropN 8 b) ->
     embedded_payload_size E b = Ok (len b - 8) /\ embedded_size E b = Ok (len b) /\ embedded_as_ref E b = Ok b).
Proof.
  intros E b [Hb Hl].
  assert (HU : len b < USIZE /\ 128 < USIZE) by (revert Hl; unfold ISIZE_MAX, USIZE; destruct (target E); lia).
  unfold embedded_as_ref, embedded_size, embedded_payload_size, embedded_packet.
  split.
  { intros H. unfold slice_from. replace (8 <=? len b) with false by lia. cbn [bind]. repeat split. }
  split.
  - intros H HV. set (n := nthN b 8 mod 16 * 4). rewrite slice_from_ok by lia. cbn [bind]. rewrite HV.
    apply ParseProofs.c02_v4_new_iff in HV. 
    pose proof (c53_v4 (dropN 8 b) (is_bytes_dropN 8 b Hb)) as HC. cbv zeta in HC. destruct HC as (_ & HI & _). unfold v4_unchecked in HI.
    rewrite nthN_dropN in HI. change (8 + 0) with 8 in HI. rewrite nthN_dropN in HV.
    assert (20 <= len (dropN 8 b) /\ n <= len (dropN 8 b)) by (unfold n; change (8 + 0) with 8 in HV; tauto).
    assert (Hd : len (dropN 8 b) = len b - 8) by (autorewrite with len; reflexivity).
    unfold v4_header_size. rewrite (proj1 HI) by lia. cbn [bind]. fold n. rewrite usize_add_ok by lia. cbn [bind].
    rewrite slice_to_ok by lia. repeat split.
  - intros H HV. rewrite slice_from_ok by lia. cbn [bind].
    assert (HE : exists e, v4_new (dropN 8 b) = Err e).
    { destruct (v4_new (dropN 8 b)) as [p|e|] eqn:C; [|exists e; reflexivity|].
      - exfalso. apply HV. f_equal. exact (FrameProofs.v4_new_same _ _ C).
      - exfalso. exact (FrameProofs.v4_new_no_panic _ C). }
    destruct HE as [e ->]. rewrite usize_sub_ok by lia. cbn [bind]. rewrite usize_add_ok by lia. replace (8 + (len b - 8)) with (len b) by lia.
    cbn [bind]. rewrite slice_to_ok by lia. rewrite takeN_all by lia. repeat split.
Qed.
Example c53_sizes_example : forall E, rust_slice [1; 2; 3] /\ ether_as_ref E (ether_unchecked [1; 2; 3]) = (if overflow_checks E then Panic else Ok [1; 2; 3]) /\
  embedded_size E ([3; 0; 0; 0; 0; 0; 0; 0] ++ [69; 0; 0; 21] ++ zeros 17) = Ok 28 /\ embedded_size E [3; 0; 0; 0; 0; 0; 0; 0; 69] = Ok 9.
Proof. intros [[] [] []]; (split; [split; [repeat constructor|vm_compute; discriminate]|]); repeat split. Qed.
