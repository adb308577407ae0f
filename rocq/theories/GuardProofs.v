(** * GuardProofs: the [Checked] guards (C25, C26). *)
From Verif Require Import Base Enums Ipv4 Ip Udp Tcp Icmp Spec SpecCalls Lemmas ParseProofs SliceProofs AccessProofs FieldProofs ChecksumLemmas ChecksumProofs.
From Coq Require Import ZifyBool ZifyNat ZifyN.
Ltac Zify.zify_post_hook ::= Z.div_mod_to_equations.

Lemma only_changes_refl lo hi b : only_changes lo hi b b.
Proof. split; reflexivity. Qed.
Lemma only_changes_trans lo hi a b c : only_changes lo hi a b -> only_changes lo hi b c -> only_changes lo hi a c.
Proof.
  intros [H1 H2] [H3 H4]. split; [lia|]. intros i Hi. rewrite H4, H2 by exact Hi. reflexivity.
Qed.
Lemma only_changes_weaken lo hi lo' hi' a b : lo' <= lo -> hi <= hi' -> only_changes lo hi a b -> only_changes lo' hi' a b.
Proof. intros Hlo Hhi [H1 H2]. split; [exact H1|]. intros i Hi. apply H2. lia. Qed.
Lemma patch_changes off bs lo hi b : lo <= off -> off + len bs <= hi -> off + len bs <= len b ->
  only_changes lo hi b (patch off bs b).
Proof. intros H1 H2 H3. apply (only_changes_weaken off (off + len bs)); [lia|lia|]. apply patch_only_changes. exact H3. Qed.

(** One call preserves an invariant without panic: so does the guard. *)
Lemma run_guard_ok {A} (apply : A -> mut) (drop : mut) (I : bytes -> Prop) (ok : A -> Prop) ops :
  (forall o b, ok o -> I b -> I (fst (apply o b)) /\ snd (apply o b) <> Panic) ->
  Forall ok ops -> forall b, I b ->
  I (calls apply ops b) /\
  run_guard apply drop ops b = run_guard apply drop [] (calls apply ops b).
Proof.
  intros Hs Hok. induction Hok as [|o ops Ho Hok IH]; intros b Hb; [split; [exact Hb|reflexivity]|].
  destruct (Hs o b Ho Hb) as [H1 H2]. cbn [calls fold_left]. fold (calls apply ops (fst (apply o b))).
  destruct (IH _ H1) as [H3 H4]. split; [exact H3|]. rewrite <- H4. cbn [run_guard].
  destruct (apply o b) as [b' [| |]]; [reflexivity|reflexivity|]. cbn in H2. contradiction.
Qed.

(** ** IPv4 *)
Lemma no_change_inv (I : bytes -> Prop) b (r : res unit) : I b -> r <> Panic -> I (fst (b, r)) /\ snd (b, r) <> Panic.
Proof. intros; split; assumption. Qed.
Lemma v4_guard_step b0 o b : v4_setter_ok o ->
  (is_bytes b /\ v4_no_payload b = Ok b /\ 5 <= nthN b 0 mod 16 /\ only_changes 1 20 b0 b) ->
  (is_bytes (fst (v4_apply o b)) /\ v4_no_payload (fst (v4_apply o b)) = Ok (fst (v4_apply o b)) /\
   5 <= nthN (fst (v4_apply o b)) 0 mod 16 /\ only_changes 1 20 b0 (fst (v4_apply o b))) /\
  snd (v4_apply o b) <> Panic.
Proof.
  intros Ho (Hb & Hn & Hi & Hc). pose proof Hn as Hn'. apply v4_no_payload_iff in Hn'. destruct Hn' as (_ & Hl & Hv & Hh).
  assert (Hpatch : forall off bs, 1 <= off -> off + len bs <= 20 -> is_bytes bs ->
    forall r, r = (patch off bs b, Ok tt) ->
    (is_bytes (fst r) /\ v4_no_payload (fst r) = Ok (fst r) /\ 5 <= nthN (fst r) 0 mod 16 /\ only_changes 1 20 b0 (fst r)) /\
    snd r <> Panic).
  { intros off bs H1 H2 H3 r ->. cbn [fst snd]. split; [|discriminate].
    assert (H0 : nthN (patch off bs b) 0 = nthN b 0) by (apply nthN_patch_out; lia).
    assert (Hl' : len (patch off bs b) = len b) by (apply len_patch; lia).
    split; [apply is_bytes_patch; assumption|]. split; [apply v4_no_payload_iff; rewrite H0, Hl'; repeat split; lia|].
    split; [lia|]. eapply only_changes_trans; [exact Hc|]. apply patch_changes; lia. }
  assert (Hsame : forall r : bytes * res unit, r = (b, Err InvalidValue) ->
    (is_bytes (fst r) /\ v4_no_payload (fst r) = Ok (fst r) /\ 5 <= nthN (fst r) 0 mod 16 /\ only_changes 1 20 b0 (fst r)) /\
    snd r <> Panic).
  { intros r ->. cbn [fst snd]. repeat split; try assumption; try discriminate; apply Hc. }
  destruct o; cbn [v4_apply v4_setter_ok] in *; unfold u8, u16 in *.
  - destruct (N.ltb_spec v 64).
    + eapply (Hpatch 1 [_]); [lia|cbn; lia| |apply v4_set_dscp_ok; lia || assumption].
      repeat constructor. unfold u8. pose proof (is_bytes_nth b 1 Hb). lia.
    + apply Hsame. unfold v4_set_dscp. destruct (N.ltb_spec 63 v); [reflexivity|lia].
  - destruct (N.ltb_spec v 4).
    + eapply (Hpatch 1 [_]); [lia|cbn; lia| |apply v4_set_ecn_ok; lia || assumption].
      repeat constructor. unfold u8. pose proof (lor_lt4 (nthN b 1 mod 4) v ltac:(lia) ltac:(lia)).
      set (q := N.lor _ _) in *. clearbody q. lia.
    + apply Hsame. unfold v4_set_ecn. destruct (N.ltb_spec 3 v); [reflexivity|lia].
  - eapply (Hpatch 4 (enc16 v)); [lia|cbn; lia|apply is_bytes_enc16; exact Ho|apply write_u16_ok; lia].
  - eapply (Hpatch 6 (enc16 v)); [lia|cbn; lia|apply is_bytes_enc16; exact Ho|apply v4_write6; assumption || lia].
  - eapply (Hpatch 6 (enc16 v)); [lia|cbn; lia|apply is_bytes_enc16; exact Ho|apply v4_write6; assumption || lia].
  - eapply (Hpatch 8 [v]); [lia|cbn; lia|repeat constructor; exact Ho|].
    apply v4_header_mut; [exact Hn| |cbn; lia]. intros h Hh'. cbn in Hh'. apply set_index_ok. lia.
  - eapply (Hpatch 12 (octets v)); [lia|cbn; lia|exact Ho|].
    apply v4_header_mut; [exact Hn| |cbn; lia]. intros h Hh'. cbn in Hh'. apply copy_range_ok; [reflexivity|lia].
  - eapply (Hpatch 16 (octets v)); [lia|cbn; lia|exact Ho|].
    apply v4_header_mut; [exact Hn| |cbn; lia]. intros h Hh'. cbn in Hh'. apply copy_range_ok; [reflexivity|lia].
  - eapply (Hpatch 9 [_]); [lia|cbn; lia|constructor; [exact Ho|constructor]|].
    apply v4_header_mut; [exact Hn| |cbn; lia]. intros h Hh'. cbn in Hh'. apply set_index_ok. lia.
Qed.
(** C25: IPv4.  Whatever is called, rejected or not: dropping the guard does not
    panic, what the calls did stays (only the checksum differs from the plain
    calls), nothing outside bytes 1 to 19 changes, and the header is valid. *)
Lemma c25_v4 : forall E ops b, is_bytes b -> v4_no_payload b = Ok b -> 5 <= nthN b 0 mod 16 ->
  Forall v4_setter_ok ops ->
  exists b', v4_checked E ops b = (b', Ok tt) /\
    only_changes 10 12 (calls v4_apply ops b) b' /\ only_changes 1 20 b b' /\
    v4_is_valid E b' = Ok true /\ receiver_accepts (takeN (nthN b' 0 mod 16 * 4) b').
Proof.
  intros E ops b Hb Hn Hi Hok. unfold v4_checked.
  destruct (run_guard_ok v4_apply (v4_update_checksum E) _ _ ops (v4_guard_step b) Hok b) as [(H1 & H2 & H3 & H4) H5].
  { repeat split; assumption. }
  rewrite H5. set (c := calls v4_apply ops b) in *.
  destruct (c20_v4_update_checksum E c H1 H2 ltac:(lia)) as (b' & Hu & Ho & Hb' & Hv & Hr).
  exists b'. cbn [run_guard]. rewrite Hu. split; [reflexivity|]. split; [exact Ho|].
  split; [|split; assumption]. eapply only_changes_trans; [exact H4|]. eapply only_changes_weaken; [| |exact Ho]; lia.
Qed.

(** ** UDP *)
(** C25: UDP. *)
Lemma c25_udp : forall E p ops b, is_bytes p -> is_bytes b -> 20 <= len p -> udp_no_payload b = Ok b ->
  Forall udp_setter_ok ops ->
  exists b', udp_checked E (V4 p) ops b = (b', Ok tt) /\
    only_changes 6 8 (calls udp_apply ops b) b' /\ only_changes 0 8 b b' /\ is_bytes b' /\
    udp_is_valid E (V4 p) b' = Ok true.
Proof.
  intros E p ops b Hp Hb Hl Hn Hok. apply udp_no_payload_len in Hn. unfold udp_checked.
  destruct (run_guard_ok udp_apply (udp_update_checksum E (V4 p))
    (fun c => is_bytes c /\ 8 <= len c /\ only_changes 0 8 b c) udp_setter_ok ops) with (b := b) as [(H1 & H2 & H3) H4].
  { intros o c Ho (Hbc & Hlc & Hoc).
    assert (Hpatch : forall off v, off + 2 <= 8 -> u16 v -> forall r, r = (patch off (enc16 v) c, Ok tt) ->
      (is_bytes (fst r) /\ 8 <= len (fst r) /\ only_changes 0 8 b (fst r)) /\ snd r <> Panic).
    { intros off v H1 H2 r ->. cbn [fst snd]. split; [|discriminate].
      split; [apply is_bytes_patch; [exact Hbc|apply is_bytes_enc16; exact H2]|].
      split; [rewrite len_patch by (cbn; lia); lia|]. eapply only_changes_trans; [exact Hoc|].
      apply patch_changes; cbn; lia. }
    destruct o; cbn [udp_apply udp_setter_ok] in *.
    - apply (Hpatch 0 v); [lia|exact Ho|apply udp_header_write; lia].
    - apply (Hpatch 2 v); [lia|exact Ho|apply udp_header_write; lia]. }
  { exact Hok. }
  { split; [exact Hb|]. split; [exact Hn|]. apply only_changes_refl. }
  rewrite H4. set (c := calls udp_apply ops b) in *.
  destruct (c21_udp_update_checksum E p c Hp H1 Hl H2) as (b' & Hu & Ho & Hb' & Hv).
  exists b'. cbn [run_guard]. rewrite Hu. split; [reflexivity|]. split; [exact Ho|].
  split; [|split; assumption]. eapply only_changes_trans; [exact H3|]. eapply only_changes_weaken; [| |exact Ho]; lia.
Qed.

(** ** TCP *)
(** C25: TCP without set_flags. *)
Lemma c25_tcp : forall E p ops b, is_bytes p -> is_bytes b -> 20 <= len p -> len b <= 131065 ->
  len b mod 2 = 0 \/ cursor_eof E = EofKeep -> tcp_new b = Ok b -> 5 <= nthN b 12 / 16 ->
  Forall (fun s => tcp_setter_ok s /\ ~ tcp_is_flags s) ops ->
  exists b', tcp_checked E (V4 p) ops b = (b', Ok tt) /\
    only_changes 16 18 (calls tcp_apply ops b) b' /\ only_changes 0 20 b b' /\ is_bytes b' /\
    tcp_is_valid E (V4 p) b' = Ok true.
Proof.
  intros E p ops b Hp Hb Hl Hlb Hc Hn Hoff Hok. unfold tcp_checked.
  destruct (run_guard_ok tcp_apply (tcp_update_checksum E (V4 p))
    (fun c => is_bytes c /\ tcp_new c = Ok c /\ 5 <= nthN c 12 / 16 /\ only_changes 0 20 b c)
    (fun s => tcp_setter_ok s /\ ~ tcp_is_flags s) ops) with (b := b) as [(H1 & H2 & H3 & H4) H5].
  { intros o c [Ho Hnf] (Hbc & Hnc & Hic & Hoc).
    pose proof Hnc as Hnc'. apply tcp_new_iff in Hnc'. destruct Hnc' as (_ & Hlc & Hhc).
    assert (Hpatch : forall off bs, off + len bs <= 12 \/ 14 <= off /\ off + len bs <= 20 -> is_bytes bs ->
      forall r, r = (patch off bs c, Ok tt) ->
      (is_bytes (fst r) /\ tcp_new (fst r) = Ok (fst r) /\ 5 <= nthN (fst r) 12 / 16 /\ only_changes 0 20 b (fst r)) /\
      snd r <> Panic).
    { intros off bs H1 H2 r ->. cbn [fst snd]. split; [|discriminate].
      assert (H0 : nthN (patch off bs c) 12 = nthN c 12) by (apply nthN_patch_out; lia).
      assert (Hl' : len (patch off bs c) = len c) by (apply len_patch; lia).
      split; [apply is_bytes_patch; assumption|]. split; [apply tcp_new_iff; rewrite H0, Hl'; repeat split; lia|].
      split; [lia|]. eapply only_changes_trans; [exact Hoc|]. apply patch_changes; lia. }
    destruct o; cbn [tcp_apply tcp_setter_ok tcp_is_flags] in *; try tauto.
    - apply (Hpatch 0 (enc16 v)); [cbn; lia|apply is_bytes_enc16; exact Ho|apply tcp_header_write16; [exact Hnc|lia]].
    - apply (Hpatch 2 (enc16 v)); [cbn; lia|apply is_bytes_enc16; exact Ho|apply tcp_header_write16; [exact Hnc|lia]].
    - apply (Hpatch 4 (enc32 v)); [cbn; lia|apply is_bytes_enc32; exact Ho|apply tcp_header_write32; [exact Hnc|lia]].
    - apply (Hpatch 8 (enc32 v)); [cbn; lia|apply is_bytes_enc32; exact Ho|apply tcp_header_write32; [exact Hnc|lia]].
    - apply (Hpatch 14 (enc16 v)); [cbn; lia|apply is_bytes_enc16; exact Ho|apply tcp_header_write16; [exact Hnc|lia]].
    - apply (Hpatch 18 (enc16 v)); [cbn; lia|apply is_bytes_enc16; exact Ho|apply tcp_header_write16; [exact Hnc|lia]]. }
  { exact Hok. }
  { repeat split; assumption. }
  rewrite H5. set (c := calls tcp_apply ops b) in *.
  assert (Hlc : len c = len b) by apply H4.
  destruct (c22_tcp_update_checksum E p c) as (b' & Hu & Ho & Hb' & Hv); try assumption; try (rewrite Hlc; assumption).
  exists b'. cbn [run_guard]. rewrite Hu. split; [reflexivity|]. split; [exact Ho|].
  split; [|split; assumption]. eapply only_changes_trans; [exact H4|]. eapply only_changes_weaken; [| |exact Ho]; lia.
Qed.

(** ** ICMP *)
Lemma only_changes_tail n b b' : only_changes 0 n b b' -> dropN n b' = dropN n b.
Proof.
  intros [Hl Hc]. apply nthN_ext; [rewrite !len_dropN, Hl; reflexivity|].
  intros i _. rewrite !nthN_dropN. apply Hc. lia.
Qed.
Lemma icmp_drop_ok E as_ref n b : is_bytes b -> as_ref b = Ok (takeN n b) -> 4 <= n <= len b ->
  icmp_checked_drop E as_ref b =
  (patch 2 (enc16 (nonzero_checksum (drop_odd (zero_field 2 (takeN n b))))) b, Ok tt).
Proof.
  intros Hb Hr Hn. unfold icmp_checked_drop, mlet. rewrite Hr. cbn [bind].
  rewrite c23_icmp_checksum by (apply is_bytes_takeN; exact Hb). cbn [bind fst snd].
  set (v := nonzero_checksum _). rewrite len_takeN. replace (N.min n (len b)) with n by lia.
  unfold prefix_mut. destruct (N.leb_spec n (len b)); [|lia]. rewrite write_u16_ok by (autorewrite with len; lia).
  f_equal. rewrite <- takeN_patch by (cbn; lia).
  etransitivity; [|apply (takeN_dropN n)]. f_equal.
  apply nthN_ext.
  - rewrite !len_dropN, len_patch by (cbn; lia). reflexivity.
  - intros i _. rewrite !nthN_dropN. rewrite nthN_patch_out by (cbn; lia). reflexivity.
Qed.
Lemma nonzero_lt b : nonzero_checksum b < 65536.
Proof. unfold nonzero_checksum, inet_checksum. destruct (_ =? 0); lia. Qed.
Lemma icmp_valid_patched E n b : is_bytes b -> 4 <= n <= len b ->
  icmp_is_valid E (takeN n (patch 2 (enc16 (nonzero_checksum (drop_odd (zero_field 2 (takeN n b))))) b)) = Ok true.
Proof.
  intros Hb Hn. set (v := nonzero_checksum _). unfold icmp_is_valid.
  assert (Hb' : is_bytes (patch 2 (enc16 v) b)) by (apply is_bytes_patch; [exact Hb|apply is_bytes_enc16; apply nonzero_lt]).
  rewrite c23_icmp_checksum by (apply is_bytes_takeN; exact Hb').
  rewrite takeN_patch by (cbn; lia). rewrite zero_field_patch_same by (autorewrite with len; lia || reflexivity).
  cbn [bind]. unfold icmp_checksum. rewrite get16 by (rewrite len_patch; autorewrite with len; cbn; lia). cbn [bind].
  rewrite wire16_patch by (autorewrite with len; lia). fold v. rewrite N.eqb_refl. reflexivity.
Qed.
Lemma guard_icmp_inv {A} (apply : A -> mut) (ok : A -> Prop) as_ref E (hi : N) (size : bytes -> N) ops b :
  (forall o c, ok o -> is_bytes c -> hi <= len c ->
     exists off bs, apply o c = (patch off bs c, Ok tt) /\ off + len bs <= hi /\ is_bytes bs /\ (off + len bs <= 2 \/ 4 <= off)) ->
  (forall c, is_bytes c -> len c = len b -> as_ref c = Ok (takeN (size b) c)) -> 4 <= size b <= len b -> hi <= len b -> 4 <= hi ->
  is_bytes b -> Forall ok ops ->
  exists b', run_guard apply (icmp_checked_drop E as_ref) ops b = (b', Ok tt) /\
    only_changes 2 4 (calls apply ops b) b' /\ only_changes 0 hi b b' /\ is_bytes b' /\
    icmp_is_valid E (takeN (size b) b') = Ok true.
Proof.
  intros Hstep Hr Hs Hhi Hhi4 Hb Hok.
  destruct (run_guard_ok apply (icmp_checked_drop E as_ref)
    (fun c => is_bytes c /\ only_changes 0 hi b c) ok ops) with (b := b) as [(H1 & H2) H3].
  { intros o c Ho (Hbc & Hoc). assert (Hlc : len c = len b) by apply Hoc.
    destruct (Hstep o c Ho Hbc ltac:(lia)) as (off & bs & Ha & Hb1 & Hb2 & _). rewrite Ha. cbn [fst snd].
    split; [|discriminate]. split; [apply is_bytes_patch; assumption|].
    eapply only_changes_trans; [exact Hoc|]. apply patch_changes; lia. }
  { exact Hok. }
  { split; [exact Hb|apply only_changes_refl]. }
  rewrite H3. set (c := calls apply ops b) in *. assert (Hlc : len c = len b) by apply H2.
  set (v := nonzero_checksum (drop_odd (zero_field 2 (takeN (size b) c)))).
  exists (patch 2 (enc16 v) c). cbn [run_guard]. rewrite (icmp_drop_ok E as_ref (size b) c); [|exact H1|apply Hr; assumption|lia].
  fold v. split; [reflexivity|]. split; [apply (patch_only_changes 2 (enc16 v)); cbn; lia|].
  split; [eapply only_changes_trans; [exact H2|]; apply patch_changes; cbn; lia|].
  split; [apply is_bytes_patch; [exact H1|apply is_bytes_enc16; apply nonzero_lt]|].
  apply icmp_valid_patched; [exact H1|lia].
Qed.
Ltac step_patch := repeat match goal with
  | |- exists off bs, set_index ?i ?v ?c = _ /\ _ => exists i, [v]; split; [apply set_index_ok; lia|]
  | |- exists off bs, write_u16 ?i ?v ?c = _ /\ _ => exists i, (enc16 v); split; [apply write_u16_ok; lia|]
  | |- exists off bs, write_u32 ?i ?v ?c = _ /\ _ => exists i, (enc32 v); split; [apply write_u32_ok; lia|]
  end; (split; [cbn; lia|]); (split; [first [apply is_bytes_enc16; assumption | apply is_bytes_enc32; assumption | repeat constructor]|]);
  first [left; cbn; lia | right; lia].
(** C25: echo.  The whole message is covered. *)
Lemma c25_echo : forall E ops b, rust_slice b -> echo_new b = Ok b -> Forall echo_setter_ok ops ->
  exists b', echo_checked E ops b = (b', Ok tt) /\
    only_changes 2 4 (calls echo_apply ops b) b' /\ only_changes 0 8 b b' /\ is_bytes b' /\
    icmp_is_valid E b' = Ok true.
Proof.
  intros E ops b [Hb Hi] Hn Hok. destruct (typed_inv _ _ _ _ _ c05_echo_new Hn) as (_ & H & _).
  destruct (guard_icmp_inv echo_apply echo_setter_ok (echo_as_ref E) E 8 len ops b) as (b' & H1 & H2 & H3 & H4 & H5);
    try assumption; try lia.
  - intros o c Ho Hc Hlc. destruct o; cbn [echo_apply echo_setter_ok] in *;
    unfold echo_make_request, echo_make_reply, echo_set_identifier, echo_set_sequence; step_patch.
  - intros c Hc Hlc. unfold echo_as_ref, echo_size, echo_header_size, echo_payload_size. cbn [bind].
    apply isize_usize in Hi.
    rewrite usize_sub_ok by lia. cbn [bind]. rewrite usize_add_ok by lia. cbn [bind].
    rewrite slice_to_ok by lia. f_equal. f_equal. lia.
  - exists b'. repeat split; try assumption; try apply H2; try apply H3.
    rewrite takeN_all in H5; [exact H5|]. destruct H3 as [H3 _]. lia.
Qed.
(** C25: information.  The guard's checksum covers the eight bytes of the message. *)
Lemma c25_information : forall E ops b, is_bytes b -> information_new b = Ok b -> Forall information_setter_ok ops ->
  exists b', information_checked E ops b = (b', Ok tt) /\
    only_changes 2 4 (calls information_apply ops b) b' /\ only_changes 0 8 b b' /\ is_bytes b' /\
    icmp_is_valid E (takeN 8 b') = Ok true.
Proof.
  intros E ops b Hb Hn Hok. destruct (typed_inv _ _ _ _ _ c05_information_new Hn) as (_ & H & _).
  apply (guard_icmp_inv information_apply information_setter_ok (information_as_ref E) E 8 (fun _ => 8) ops b);
    try assumption; try lia.
  - intros o c Ho Hc Hlc. destruct o; cbn [information_apply information_setter_ok] in *;
    unfold information_make_request, information_make_reply, information_set_identifier, information_set_sequence; step_patch.
  - intros c Hc Hlc. unfold information_as_ref, information_size, information_header_size, information_payload_size. cbn [bind].
    rewrite usize_add_ok by (widths; lia). cbn [bind]. apply slice_to_ok. lia.
Qed.
(** C25: timestamp, likewise its twenty bytes. *)
Lemma c25_timestamp : forall E ops b, is_bytes b -> timestamp_new b = Ok b -> Forall timestamp_setter_ok ops ->
  exists b', timestamp_checked E ops b = (b', Ok tt) /\
    only_changes 2 4 (calls timestamp_apply ops b) b' /\ only_changes 0 20 b b' /\ is_bytes b' /\
    icmp_is_valid E (takeN 20 b') = Ok true.
Proof.
  intros E ops b Hb Hn Hok. destruct (typed_inv _ _ _ _ _ c05_timestamp_new Hn) as (_ & H & _).
  apply (guard_icmp_inv timestamp_apply timestamp_setter_ok (timestamp_as_ref E) E 20 (fun _ => 20) ops b);
    try assumption; try lia.
  - intros o c Ho Hc Hlc. destruct o; cbn [timestamp_apply timestamp_setter_ok] in *;
    unfold timestamp_make_request, timestamp_make_reply, timestamp_set_identifier, timestamp_set_sequence,
      timestamp_set_originate, timestamp_set_receive, timestamp_set_transmit; step_patch.
  - intros c Hc Hlc. unfold timestamp_as_ref, timestamp_size, timestamp_header_size, timestamp_payload_size. cbn [bind].
    rewrite usize_add_ok by (widths; lia). cbn [bind]. apply slice_to_ok. lia.
Qed.
(** An ICMP message of even length followed by anything: the is_valid of the
    whole is decided by the sum of the whole 16-bit words that follow. *)
Lemma icmp_valid_tail E h t : is_bytes h -> is_bytes t -> len h mod 2 = 0 -> 4 <= len h -> icmp_is_valid E h = Ok true ->
  (icmp_is_valid E (h ++ t) = Ok true <-> word_sum (drop_odd t) mod 65535 = 0).
Proof.
  intros Hh Ht He Hl. unfold icmp_is_valid.
  rewrite !c23_icmp_checksum by (try assumption; apply is_bytes_app; split; assumption). cbn [bind].
  unfold icmp_checksum. rewrite !get16 by (autorewrite with len; lia). cbn [bind].
  assert (Hw : wire16 (h ++ t) 2 = wire16 h 2) by (unfold wire16; rewrite !nthN_app1 by lia; reflexivity).
  rewrite Hw, !ok_true_eqb. unfold nonzero_checksum, inet_checksum.
  rewrite !drop_odd_zero_field by (autorewrite with len; reflexivity || lia).
  replace (word_sum (takeN 2 (h ++ t)) + word_sum (drop_odd (dropN (2 + 2) (h ++ t))))
    with (word_sum (takeN 2 h) + word_sum (drop_odd (dropN (2 + 2) h)) + word_sum (drop_odd t)).
  2: { rewrite takeN_app1, dropN_app1 by lia. rewrite <- N.add_assoc. f_equal.
       rewrite (drop_odd_even (dropN (2 + 2) h)) by (autorewrite with len; lia).
       rewrite <- word_sum_app by (autorewrite with len; lia). f_equal.
       unfold drop_odd. autorewrite with len.
       replace ((len h - (2 + 2) + len t) / 2 * 2) with ((len h - 4) + len t / 2 * 2) by lia.
       rewrite takeN_app2 by (autorewrite with len; lia). f_equal. f_equal. autorewrite with len. lia. }
  set (s := word_sum (takeN 2 h) + _). set (u := word_sum (drop_odd t)). intros Hv. rewrite <- Hv. unfold ones_sum.
  destruct (N.eqb_spec (s + u) 0), (N.eqb_spec s 0); lia.
Qed.
(** C25: what the checked guard leaves of an information message with bytes after it:
    is_valid of the whole is decided by the sum of the words after the eighth byte. *)
Lemma c25_information_trailing : forall E ops b, is_bytes b -> information_new b = Ok b -> Forall information_setter_ok ops ->
  (icmp_is_valid E (fst (information_checked E ops b)) = Ok true <-> word_sum (drop_odd (dropN 8 b)) mod 65535 = 0).
Proof.
  intros E ops b Hb Hn Hok. destruct (typed_inv _ _ _ _ _ c05_information_new Hn) as (_ & H & _).
  destruct (c25_information E ops b Hb Hn Hok) as (b' & H1 & _ & H3 & H4 & H5). rewrite H1. cbn [fst].
  rewrite <- (only_changes_tail 8 b b' H3). assert (Hl : len b' = len b) by apply H3.
  rewrite <- (takeN_dropN 8 b') at 1.
  apply icmp_valid_tail; [apply is_bytes_takeN; exact H4|apply is_bytes_dropN; exact H4| | |exact H5];
    rewrite len_takeN; replace (N.min 8 (len b')) with 8 by lia; [reflexivity|lia].
Qed.
(** C25: and of a timestamp message, after the twentieth byte. *)
Lemma c25_timestamp_trailing : forall E ops b, is_bytes b -> timestamp_new b = Ok b -> Forall timestamp_setter_ok ops ->
  (icmp_is_valid E (fst (timestamp_checked E ops b)) = Ok true <-> word_sum (drop_odd (dropN 20 b)) mod 65535 = 0).
Proof.
  intros E ops b Hb Hn Hok. destruct (typed_inv _ _ _ _ _ c05_timestamp_new Hn) as (_ & H & _).
  destruct (c25_timestamp E ops b Hb Hn Hok) as (b' & H1 & _ & H3 & H4 & H5). rewrite H1. cbn [fst].
  rewrite <- (only_changes_tail 20 b b' H3). assert (Hl : len b' = len b) by apply H3.
  rewrite <- (takeN_dropN 20 b') at 1.
  apply icmp_valid_tail; [apply is_bytes_takeN; exact H4|apply is_bytes_dropN; exact H4| | |exact H5];
    rewrite len_takeN; replace (N.min 20 (len b')) with 20 by lia; [reflexivity|lia].
Qed.
(** C25: so with bytes after an information message, which the ICMP packet's
    is_valid covers, the packet is not valid after the guard. *)
Lemma c25_information_trailing_refuted : forall E, exists b ops b', information_new b = Ok b /\ is_bytes b /\
  information_checked E ops b = (b', Ok tt) /\ icmp_is_valid E b' = Ok false.
Proof.
  intros E. exists [15; 0; 0; 0; 0; 1; 0; 2; 9; 9], [InfoSetIdentifier 7]. eexists.
  split; [reflexivity|]. split; [repeat constructor|]. split; [destruct E as [[] [] []]; reflexivity|destruct E as [[] [] []]; reflexivity].
Qed.
(** C25: with an IPv6 parent a UDP or TCP guard always panics when dropped. *)
Lemma run_guard_panic {A} (apply : A -> mut) (drop : mut) ops :
  (forall c, snd (drop c) = Panic) -> forall b, snd (run_guard apply drop ops b) = Panic.
Proof.
  intros Hd. induction ops as [|o ops IH]; intros b; cbn [run_guard].
  - specialize (Hd b). destruct (drop b) as [b' r]. cbn in Hd. rewrite Hd. reflexivity.
  - destruct (apply o b) as [b' [| |]]; [apply IH|apply IH|reflexivity].
Qed.
Lemma c25_v6_parent : forall E q b,
  (forall ops, snd (udp_checked E (V6 q) ops b) = Panic) /\ (forall ops, snd (tcp_checked E (V6 q) ops b) = Panic).
Proof. intros E q b. split; intros ops; apply run_guard_panic; intros c; reflexivity. Qed.
Example c25_example : forall E,
  let b := [69; 0; 0; 20; 1; 2; 64; 0; 64; 17; 9; 9; 10; 0; 0; 1; 10; 0; 0; 2] in
  v4_no_payload b = Ok b /\ is_bytes b /\
  v4_checked E [V4SetTtl 5; V4SetDscp 200; V4SetId 7] b =
  ([69; 0; 0; 20; 0; 7; 64; 0; 5; 17; 97; 208; 10; 0; 0; 1; 10; 0; 0; 2], Ok tt).
Proof. intros [[] [] []]; repeat split; repeat constructor. Qed.

(** ** C26 *)
Lemma tcp_write_cases b off bs : tcp_new b = Ok b ->
  off + len bs <= nthN b 12 / 16 * 4 \/ nthN b 12 / 16 * 4 <= off -> 0 < len bs ->
  header_mut tcp_split (cursor_write off bs) b = (patch off bs b, Ok tt) /\ off + len bs <= nthN b 12 / 16 * 4 \/
  header_mut tcp_split (cursor_write off bs) b = (b, Err Io) \/
  header_mut tcp_split (cursor_write off bs) b = (b, Panic).
Proof.
  intros Hn Hc Hbs. pose proof Hn as Hn'. apply tcp_new_iff in Hn'. destruct Hn' as (_ & Hl & Hh).
  destruct (header_mut_cursor tcp_split (nthN b 12 / 16 * 4) (dropN (nthN b 12 / 16 * 4) b) b off bs) as [H1 H2];
    [apply tcp_split_ok; lia|lia|].
  destruct Hc as [Hc|Hc].
  - left. split; [|exact Hc]. apply tcp_header_write; [exact Hn| |exact Hc]. intros h Hh'. apply cursor_write_ok. exact Hh'.
  - destruct (N.eq_dec (nthN b 12 / 16 * 4) off) as [He|He]; [right; left; apply H1; assumption|right; right; apply H2; lia].
Qed.
(** What one call on the guard does to the data offset. *)
Lemma tcp_guard_step o b : tcp_setter_ok o -> is_bytes b -> tcp_new b = Ok b ->
  snd (tcp_apply o b) = Panic \/
  is_bytes (fst (tcp_apply o b)) /\ tcp_new (fst (tcp_apply o b)) = Ok (fst (tcp_apply o b)) /\
  (tcp_is_flags o \/ nthN b 12 / 16 = 0 -> nthN (fst (tcp_apply o b)) 12 / 16 = 0).
Proof.
  intros Ho Hb Hn. pose proof Hn as Hn'. apply tcp_new_iff in Hn'. destruct Hn' as (_ & Hl & Hh).
  assert (Hwrite : forall off bs, off + len bs <= 12 \/ 14 <= off /\ off + len bs <= 20 -> is_bytes bs -> 0 < len bs ->
    off + len bs <= nthN b 12 / 16 * 4 \/ nthN b 12 / 16 * 4 <= off ->
    snd (header_mut tcp_split (cursor_write off bs) b) = Panic \/
    let b' := fst (header_mut tcp_split (cursor_write off bs) b) in
    is_bytes b' /\ tcp_new b' = Ok b' /\ (False \/ nthN b 12 / 16 = 0 -> nthN b' 12 / 16 = 0)).
  { intros off bs H1 H2 H3 H4. destruct (tcp_write_cases b off bs Hn H4 H3) as [[-> Hin]|[->| ->]]; cbn [fst snd].
    - right. assert (H0 : nthN (patch off bs b) 12 = nthN b 12) by (apply nthN_patch_out; lia).
      assert (Hl' : len (patch off bs b) = len b) by (apply len_patch; lia).
      split; [apply is_bytes_patch; assumption|]. split; [apply tcp_new_iff; rewrite H0, Hl'; repeat split; lia|]. lia.
    - right. repeat split; try assumption. lia.
    - left. reflexivity. }
  destruct o; cbn [tcp_apply tcp_setter_ok tcp_is_flags] in *.
  - apply Hwrite; [cbn; lia|apply is_bytes_enc16; exact Ho|cbn; lia|cbn; lia].
  - apply Hwrite; [cbn; lia|apply is_bytes_enc16; exact Ho|cbn; lia|cbn; lia].
  - apply Hwrite; [cbn; lia|apply is_bytes_enc32; exact Ho|cbn; lia|cbn; lia].
  - apply Hwrite; [cbn; lia|apply is_bytes_enc32; exact Ho|cbn; lia|cbn; lia].
  - destruct (c16_tcp_set_flags b v Hb Hn Ho) as [H1 H2].
    destruct (N.ltb_spec (nthN b 12 / 16) 4); [left; apply H2; assumption|].
    right. destruct (H1 ltac:(lia)) as (b' & Hf & _ & _ & Hof & _ & Hn2 & _).
    rewrite Hf. cbn [fst]. rewrite tcp_set_flags_ok in Hf by (assumption || lia). apply pair_equal_spec in Hf. destruct Hf as [Hf _].
    split; [rewrite <- Hf; apply is_bytes_patch; [exact Hb|apply is_bytes_enc16; unfold u16; lia]|].
    split; [exact Hn2|]. intros _. apply tcp_new_iff in Hn2. destruct Hn2 as (_ & Hl2 & _).
    rewrite tcp_offset_ok in Hof by lia. injection Hof as Hof. exact Hof.
  - apply Hwrite; [cbn; lia|apply is_bytes_enc16; exact Ho|cbn; lia|cbn; lia].
  - apply Hwrite; [cbn; lia|apply is_bytes_enc16; exact Ho|cbn; lia|cbn; lia].
Qed.
Lemma tcp_drop_offset0 E ip b : tcp_new b = Ok b -> nthN b 12 / 16 = 0 -> snd (tcp_update_checksum E ip b) <> Ok tt.
Proof.
  intros Hn H0. pose proof Hn as Hn'. apply tcp_new_iff in Hn'. destruct Hn' as (_ & Hl & Hh).
  unfold tcp_update_checksum, mlet. destruct (tcp_checksum_of E ip b) as [c|e|]; [|discriminate|discriminate].
  unfold tcp_set_checksum, write_u16.
  destruct (header_mut_cursor tcp_split (nthN b 12 / 16 * 4) (dropN (nthN b 12 / 16 * 4) b) b 16 (be16 c)) as [_ H2];
    [apply tcp_split_ok; lia|lia|]. rewrite H2 by lia. discriminate.
Qed.
Lemma tcp_guard_zero E ip ops : Forall tcp_setter_ok ops -> forall b, is_bytes b -> tcp_new b = Ok b ->
  nthN b 12 / 16 = 0 -> snd (tcp_checked E ip ops b) = Panic.
Proof.
  intros Hok. unfold tcp_checked. induction Hok as [|o ops Ho Hok IH]; intros b Hb Hn H0; cbn [run_guard].
  - pose proof (tcp_drop_offset0 E ip b Hn H0) as Hd. destruct (tcp_update_checksum E ip b) as [b' [[]| |]]; [|reflexivity|reflexivity].
    exfalso. apply Hd. reflexivity.
  - pose proof (tcp_guard_step o b Ho Hb Hn) as Hs. destruct (tcp_apply o b) as [b' r]. cbn [fst snd] in Hs.
    destruct r; [| |reflexivity]; (destruct Hs as [Hs|(H1 & H2 & H3)]; [discriminate|]); apply IH; auto.
Qed.
(** C26: once set_flags has been called the guard panics, whatever else is
    called before or after and whatever the parent is. *)
Lemma c26_tcp_guard_flags : forall E ip ops b, is_bytes b -> tcp_new b = Ok b ->
  Forall tcp_setter_ok ops -> Exists tcp_is_flags ops ->
  snd (tcp_checked E ip ops b) = Panic.
Proof.
  intros E ip ops b Hb Hn Hok Hex. revert b Hb Hn. induction ops as [|o ops IH]; intros b Hb Hn; [inversion Hex|].
  inversion Hok as [|? ? Ho Hok']; subst. unfold tcp_checked. cbn [run_guard].
  pose proof (tcp_guard_step o b Ho Hb Hn) as Hs. destruct (tcp_apply o b) as [b' r]. cbn [fst snd] in Hs.
  destruct r as [u|e|]; [| |reflexivity]; (destruct Hs as [Hs|(H1 & H2 & H3)]; [discriminate|]).
  - inversion Hex as [? ? Hf|? ? Hex']; subst; [apply tcp_guard_zero; auto|apply IH; assumption].
  - inversion Hex as [? ? Hf|? ? Hex']; subst; [apply tcp_guard_zero; auto|apply IH; assumption].
Qed.
Example c26_example : forall E, let b := [0; 80; 0; 99; 0; 0; 0; 1; 0; 0; 0; 2; 80; 2; 1; 0; 0; 0; 0; 0; 104; 105] in
  let p := [69;0;0;42;0;0;0;0;64;6;0;0;10;0;0;1;10;0;0;2] in
  tcp_new b = Ok b /\ is_bytes b /\
  snd (tcp_checked E (V4 p) [TcpSetWindow 9] b) = Ok tt /\
  snd (tcp_checked E (V4 p) [TcpSetWindow 9; TcpSetFlags 2] b) = Panic.
Proof. intros [[] [] []]; repeat split; repeat constructor. Qed.
