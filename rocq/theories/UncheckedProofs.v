(** * UncheckedProofs: accessors of packets made by [unchecked] (C53). *)
From Verif Require Import Base Enums Ether Ipv4 Ip Udp Tcp Icmp Spec SpecUnchecked Lemmas ParseProofs SliceProofs AccessProofs.
From Coq Require Import ZifyBool ZifyNat ZifyN.
Ltac Zify.zify_post_hook ::= Z.div_mod_to_equations.

Lemma get16_panic b i : len b < i + 2 -> get_u16 b i = Panic.
Proof.
  intros H. unfold get_u16, slice_from. destruct (N.leb_spec i (len b)); [|reflexivity]. cbn [bind].
  assert (Hl : len (dropN i b) < 2) by (autorewrite with len; lia).
  destruct (dropN i b) as [|x [|y l]]; try reflexivity. unfold len in Hl; cbn [length] in Hl; lia.
Qed.
Lemma get32_panic b i : len b < i + 4 -> get_u32 b i = Panic.
Proof.
  intros H. unfold get_u32, slice_from. destruct (N.leb_spec i (len b)); [|reflexivity]. cbn [bind].
  assert (Hl : len (dropN i b) < 4) by (autorewrite with len; lia).
  destruct (dropN i b) as [|x [|y [|z [|w l]]]]; try reflexivity. unfold len in Hl; cbn [length] in Hl; lia.
Qed.
Lemma needs_index b i : needs (i + 1) b (index b i) (nthN b i).
Proof. split; intros; [apply index_ok|apply index_panic]; lia. Qed.
Lemma needs_get16 b i : needs (i + 2) b (get_u16 b i) (wire16 b i).
Proof. split; intros; [apply get16; lia|apply get16_panic; lia]. Qed.
Lemma needs_get32 b i : needs (i + 4) b (get_u32 b i) (wire32 b i).
Proof. split; intros; [apply get32; lia|apply get32_panic; lia]. Qed.
Lemma needs_bind {A B} n b (r : res A) (v : A) (f : A -> B) : needs n b r v -> needs n b (let* x := r in Ok (f x)) (f v).
Proof. intros [H1 H2]. split; intros H; [rewrite H1 by exact H|rewrite H2 by exact H]; reflexivity. Qed.
Lemma needs_eq {A} n n' b (r : res A) v v' : n = n' -> v = v' -> needs n b r v -> needs n' b r v'.
Proof. now intros -> ->. Qed.
Lemma needs_addr b i :
  needs (i + 4) b (let* x := index b i in let* y := index b (i + 1) in let* z := index b (i + 2) in
                   let* w := index b (i + 3) in Ok (Ip4 x y z w)) (wire_addr b i).
Proof.
  split; intros H.
  - rewrite !index_ok by lia. reflexivity.
  - destruct (N.ltb_spec i (len b)); [rewrite index_ok by lia|rewrite index_panic by lia; reflexivity]. cbn [bind].
    destruct (N.ltb_spec (i + 1) (len b)); [rewrite index_ok by lia|rewrite index_panic by lia; reflexivity]. cbn [bind].
    destruct (N.ltb_spec (i + 2) (len b)); [rewrite index_ok by lia|rewrite index_panic by lia; reflexivity]. cbn [bind].
    rewrite index_panic by lia. reflexivity.
Qed.
Lemma needs_split b n : needs n b (split_at b n) (takeN n b, dropN n b).
Proof. split; intros H; unfold split_at; destruct (N.leb_spec n (len b)); try lia; reflexivity. Qed.
Lemma slice6 b i : i + 6 <= len b -> takeN 6 (dropN i b) = hw_octets (wire_mac b i).
Proof.
  intros H. assert (Hl : len (dropN i b) = len b - i) by (autorewrite with len; reflexivity).
  unfold wire_mac. replace (nthN b i) with (nthN (dropN i b) 0) by (rewrite nthN_dropN; f_equal; lia).
  rewrite <- !nthN_dropN. destruct (dropN i b) as [|x0 [|x1 [|x2 [|x3 [|x4 [|x5 l]]]]]];
    try (unfold len in *; cbn [length] in *; lia). reflexivity.
Qed.
Lemma needs_mac b i j : j = i + 6 -> needs j b (let* s := slice b i j in hw_of_slice s) (wire_mac b i).
Proof.
  intros ->. split; intros H; unfold slice.
  - destruct (N.leb_spec i (i + 6)); [|lia]. destruct (N.leb_spec (i + 6) (len b)); [|lia]. cbn [andb bind].
    replace (i + 6 - i) with 6 by lia. rewrite slice6 by lia. destruct (wire_mac b i); reflexivity.
  - destruct (N.leb_spec (i + 6) (len b)); [lia|]. rewrite andb_false_r. reflexivity.
Qed.
Ltac needs_field :=
  first [ eapply needs_eq; [| |apply needs_index]; [reflexivity|reflexivity]
        | eapply needs_eq; [| |apply needs_get16]; [reflexivity|reflexivity]
        | eapply needs_eq; [| |apply needs_get32]; [reflexivity|reflexivity] ].

(** C53: Ethernet. *)
Lemma c53_ether : forall b,
  needs 6 b (ether_destination (ether_unchecked b)) (wire_mac b 0) /\ needs 12 b (ether_source (ether_unchecked b)) (wire_mac b 6) /\
  needs 14 b (ether_get_protocol (ether_unchecked b)) (ether_protocol_from (wire16 b 12)) /\
  needs 14 b (ether_split (ether_unchecked b)) (takeN 14 b, dropN 14 b).
Proof.
  intros b. unfold ether_unchecked. split; [apply (needs_mac b 0); reflexivity|]. split; [apply (needs_mac b 6); reflexivity|].
  split; [apply (needs_bind 14 b (get_u16 b 12) (wire16 b 12) ether_protocol_from); needs_field|]. apply needs_split.
Qed.
(** C53: UDP. *)
Lemma c53_udp : forall b,
  needs 2 b (udp_source (udp_unchecked b)) (wire16 b 0) /\ needs 4 b (udp_destination (udp_unchecked b)) (wire16 b 2) /\
  needs 6 b (udp_length (udp_unchecked b)) (wire16 b 4) /\ needs 8 b (udp_checksum (udp_unchecked b)) (wire16 b 6) /\
  needs 8 b (udp_split (udp_unchecked b)) (takeN 8 b, dropN 8 (takeN (N.max 8 (wire16 b 4)) b)) /\
  needs (N.max 8 (wire16 b 4)) b (udp_as_ref (udp_unchecked b)) (takeN (N.max 8 (wire16 b 4)) b).
Proof.
  intros b. unfold udp_unchecked. repeat (split; [needs_field|]). split.
  2: { unfold udp_as_ref, udp_size, udp_header_size, udp_payload_size, udp_length. cbn [bind]. split; intros H.
       - rewrite get16 by lia. cbn [bind]. replace (8 + (wire16 b 4 - 8)) with (N.max 8 (wire16 b 4)) by lia. apply slice_to_ok. exact H.
       - destruct (N.ltb_spec (len b) 6); [rewrite get16_panic by lia; reflexivity|]. rewrite get16 by lia. cbn [bind].
         unfold slice_to. destruct (N.leb_spec (8 + (wire16 b 4 - 8)) (len b)); [lia|reflexivity]. }
  split; intros H; [apply udp_split_ok; exact H|].
  unfold udp_split, udp_payload_size, udp_length.
  destruct (N.ltb_spec (len b) 6); [rewrite get16_panic by lia; reflexivity|].
  rewrite get16 by lia. cbn [bind]. destruct (N.ltb_spec (len b) (8 + (wire16 b 4 - 8))); [|lia]. cbn [bind].
  apply (needs_split b 8). exact H.
Qed.
(** C53: TCP. *)
Lemma c53_tcp : forall b,
  let h := nthN b 12 / 16 * 4 in
  needs 2 b (tcp_source (tcp_unchecked b)) (wire16 b 0) /\ needs 4 b (tcp_destination (tcp_unchecked b)) (wire16 b 2) /\
  needs 8 b (tcp_sequence (tcp_unchecked b)) (wire32 b 4) /\ needs 12 b (tcp_acknowledgment (tcp_unchecked b)) (wire32 b 8) /\
  needs 13 b (tcp_offset (tcp_unchecked b)) (nthN b 12 / 16) /\ needs 14 b (tcp_flags (tcp_unchecked b)) (wire16 b 12 mod 512) /\
  needs 16 b (tcp_window (tcp_unchecked b)) (wire16 b 14) /\ needs 18 b (tcp_checksum (tcp_unchecked b)) (wire16 b 16) /\
  needs 20 b (tcp_pointer (tcp_unchecked b)) (wire16 b 18) /\
  needs (N.max 13 h) b (tcp_split (tcp_unchecked b)) (takeN h b, dropN h b) /\
  (5 <= nthN b 12 / 16 -> needs h b (tcp_options (tcp_unchecked b)) (takeN (h - 20) (dropN 20 b))) /\
  (nthN b 12 / 16 < 5 -> tcp_options (tcp_unchecked b) = Panic).
Proof.
  intros b h. unfold tcp_unchecked. repeat (split; [needs_field|]).
  assert (HO : needs 13 b (tcp_offset b) (nthN b 12 / 16)).
  { split; intros H; [apply tcp_offset_ok; lia|]. unfold tcp_offset. rewrite index_panic by lia. reflexivity. }
  split; [exact HO|].
  split.
  { split; intros H; [|unfold tcp_flags; rewrite get16_panic by lia; reflexivity].
    unfold tcp_flags. rewrite get16 by lia. cbn [bind]. rewrite land511_mod, tcp_flags_from_bits. reflexivity. }
  repeat (split; [needs_field|]).
  split.
  { split; intros H; [apply tcp_split_ok; fold h; lia|]. unfold tcp_split.
    destruct (N.ltb_spec (len b) 13); [rewrite (proj2 HO) by lia; reflexivity|].
    rewrite (proj1 HO) by lia. cbn [bind]. fold h. apply needs_split. lia. }
  split.
  - intros H5. split; intros H; unfold tcp_options.
    + rewrite (proj1 HO) by (unfold h in H; lia). cbn [bind]. fold h. apply slice_ok; unfold h in *; lia.
    + destruct (N.ltb_spec (len b) 13); [rewrite (proj2 HO) by lia; reflexivity|].
      rewrite (proj1 HO) by lia. cbn [bind]. fold h. unfold slice. destruct (N.leb_spec h (len b)); [lia|]. rewrite andb_false_r. reflexivity.
  - intros H5. unfold tcp_options. destruct (N.ltb_spec (len b) 13); [rewrite (proj2 HO) by lia; reflexivity|].
    rewrite (proj1 HO) by lia. cbn [bind]. unfold slice. destruct (N.leb_spec 20 (nthN b 12 / 16 * 4)); [lia|]. reflexivity.
Qed.

(** C53: IPv4. *)
Lemma c53_v4 : forall b, is_bytes b ->
  let ihl := nthN b 0 mod 16 in
  needs 1 b (v4_version (v4_unchecked b)) (nthN b 0 / 16) /\ needs 1 b (v4_ihl (v4_unchecked b)) ihl /\
  needs 2 b (v4_dscp (v4_unchecked b)) (nthN b 1 / 4) /\ needs 2 b (v4_ecn (v4_unchecked b)) (nthN b 1 mod 4) /\
  needs 4 b (v4_length (v4_unchecked b)) (wire16 b 2) /\ needs 6 b (v4_id (v4_unchecked b)) (wire16 b 4) /\
  (wire16 b 6 / 8192 mod 2 = 0 -> needs 8 b (v4_flags (v4_unchecked b)) (wire16 b 6 / 8192)) /\
  (wire16 b 6 / 8192 mod 2 = 1 -> v4_flags (v4_unchecked b) = Panic) /\
  needs 8 b (v4_offset (v4_unchecked b)) (wire16 b 6 mod 8192) /\
  needs 9 b (v4_ttl (v4_unchecked b)) (nthN b 8) /\ needs 10 b (v4_protocol (v4_unchecked b)) (ip_protocol_from (nthN b 9)) /\
  needs 12 b (v4_checksum (v4_unchecked b)) (wire16 b 10) /\
  needs 16 b (v4_source (v4_unchecked b)) (wire_addr b 12) /\ needs 20 b (v4_destination (v4_unchecked b)) (wire_addr b 16) /\
  needs (N.max 4 (ihl * 4)) b (v4_split (v4_unchecked b)) (takeN (ihl * 4) b, dropN (ihl * 4) (takeN (N.max (ihl * 4) (wire16 b 2)) b)) /\
  (5 <= ihl -> needs (ihl * 4) b (v4_options (v4_unchecked b)) (takeN (ihl * 4 - 20) (dropN 20 b))) /\
  (ihl < 5 -> v4_options (v4_unchecked b) = Panic).
Proof.
  intros b Hb ihl. unfold v4_unchecked.
  assert (HI : needs 1 b (v4_ihl b) ihl).
  { split; intros H; [apply v4_ihl_ok; lia|]. unfold v4_ihl. rewrite index_panic by lia. reflexivity. }
  split.
  { split; intros H; unfold v4_version; [rewrite index_ok by lia; cbn [bind]; now rewrite shiftr4_div|rewrite index_panic by lia; reflexivity]. }
  split; [exact HI|].
  split.
  { split; intros H; unfold v4_dscp; [rewrite index_ok by lia; cbn [bind]; now rewrite shiftr2_div|rewrite index_panic by lia; reflexivity]. }
  split.
  { split; intros H; unfold v4_ecn; [rewrite index_ok by lia; cbn [bind]; now rewrite land3_mod|rewrite index_panic by lia; reflexivity]. }
  split; [needs_field|]. split; [needs_field|].
  assert (HF : 8 <= len b -> v4_flags b = if wire16 b 6 / 8192 mod 2 =? 0 then Ok (wire16 b 6 / 8192) else Panic).
  { intros H. unfold v4_flags. rewrite get16 by lia. cbn [bind]. rewrite shiftr13_div. pose proof (wire16_lt b 6 Hb).
    rewrite ip_flags_from_bits by lia. destruct (_ =? 0); reflexivity. }
  assert (HF' : len b < 8 -> v4_flags b = Panic) by (intros H; unfold v4_flags; rewrite get16_panic by lia; reflexivity).
  split; [intros Hm; split; intros H; [rewrite HF by exact H; rewrite Hm; reflexivity|apply HF'; exact H]|].
  split; [intros Hm; destruct (N.ltb_spec (len b) 8); [apply HF'; assumption|rewrite HF by assumption; rewrite Hm; reflexivity]|].
  split.
  { split; intros H; unfold v4_offset; [rewrite get16 by lia; cbn [bind]; now rewrite land8191_mod|rewrite get16_panic by lia; reflexivity]. }
  split; [needs_field|].
  split; [apply (needs_bind 10 b (index b 9) (nthN b 9) ip_protocol_from); needs_field|].
  split; [needs_field|]. split; [apply (needs_addr b 12)|]. split; [apply (needs_addr b 16)|].
  split.
  { assert (HS : forall n, 1 <= len b -> v4_payload_size b = Ok n -> len b < ihl * 4 -> v4_split b = Panic).
    { intros n H1 H2 H3. unfold v4_split. rewrite (proj1 HI) by lia. cbn [bind]. rewrite H2. cbn [bind].
      destruct (N.ltb_spec (len b) (ihl * 4 + n)); [|lia]. cbn [bind]. apply needs_split. exact H3. }
    assert (HP : 4 <= len b -> v4_payload_size b = Ok (wire16 b 2 - ihl * 4)).
    { intros H. unfold v4_payload_size, v4_length. rewrite get16 by lia. cbn [bind]. rewrite (proj1 HI) by lia. reflexivity. }
    split; intros H.
    - unfold v4_split. rewrite (proj1 HI) by lia. cbn [bind]. rewrite HP by lia. cbn [bind].
      replace (ihl * 4 + (wire16 b 2 - ihl * 4)) with (N.max (ihl * 4) (wire16 b 2)) by lia.
      set (t := N.max (ihl * 4) (wire16 b 2)). destruct (N.ltb_spec (len b) t); cbn [bind].
      + rewrite split_at_ok by lia. rewrite (takeN_all t) by lia. reflexivity.
      + rewrite slice_to_ok by lia. cbn [bind]. rewrite split_at_ok by (autorewrite with len; lia).
        rewrite takeN_takeN. do 3 f_equal. lia.
    - destruct (N.ltb_spec (len b) 4); [|apply (HS (wire16 b 2 - ihl * 4)); [lia|apply HP; lia|lia]].
      unfold v4_split. destruct (N.ltb_spec (len b) 1); [rewrite (proj2 HI) by lia; reflexivity|].
      rewrite (proj1 HI) by lia. cbn [bind]. unfold v4_payload_size, v4_length. rewrite get16_panic by lia. reflexivity. }
  split.
  - intros H5. split; intros H; unfold v4_options.
    + rewrite (proj1 HI) by lia. cbn [bind]. apply slice_ok; lia.
    + destruct (N.ltb_spec (len b) 1); [rewrite (proj2 HI) by lia; reflexivity|].
      rewrite (proj1 HI) by lia. cbn [bind]. unfold slice. destruct (N.leb_spec (ihl * 4) (len b)); [lia|]. rewrite andb_false_r. reflexivity.
  - intros H5. unfold v4_options. destruct (N.ltb_spec (len b) 1); [rewrite (proj2 HI) by lia; reflexivity|].
    rewrite (proj1 HI) by lia. cbn [bind]. unfold slice. destruct (N.leb_spec 20 (ihl * 4)); [lia|]. reflexivity.
Qed.
(** C53: ICMP and its typed messages. *)
Lemma c53_icmp : forall b,
  needs 1 b (icmp_get_kind (icmp_unchecked b)) (icmp_kind_from (nthN b 0)) /\ needs 2 b (icmp_code (icmp_unchecked b)) (nthN b 1) /\
  needs 4 b (icmp_checksum (icmp_unchecked b)) (wire16 b 2) /\ needs 4 b (icmp_split (icmp_unchecked b)) (takeN 4 b, dropN 4 b) /\
  needs 6 b (echo_identifier (echo_unchecked b)) (wire16 b 4) /\ needs 8 b (echo_sequence (echo_unchecked b)) (wire16 b 6) /\
  needs 8 b (echo_split (echo_unchecked b)) (takeN 8 b, dropN 8 b) /\
  needs 6 b (information_identifier (information_unchecked b)) (wire16 b 4) /\ needs 8 b (information_sequence (information_unchecked b)) (wire16 b 6) /\
  needs 8 b (information_split (information_unchecked b)) (takeN 8 b, dropN 8 b) /\
  needs 6 b (timestamp_identifier (timestamp_unchecked b)) (wire16 b 4) /\ needs 8 b (timestamp_sequence (timestamp_unchecked b)) (wire16 b 6) /\
  needs 12 b (timestamp_originate (timestamp_unchecked b)) (wire32 b 8) /\ needs 16 b (timestamp_receive (timestamp_unchecked b)) (wire32 b 12) /\
  needs 20 b (timestamp_transmit (timestamp_unchecked b)) (wire32 b 16) /\ needs 8 b (timestamp_split (timestamp_unchecked b)) (takeN 8 b, dropN 8 b) /\
  needs 5 b (parameter_problem_pointer (parameter_problem_unchecked b)) (nthN b 4) /\ needs 8 b (redirect_message_gateway (redirect_message_unchecked b)) (wire_addr b 4).
Proof.
  intros b. unfold icmp_unchecked, echo_unchecked, information_unchecked, timestamp_unchecked, parameter_problem_unchecked, redirect_message_unchecked. split; [apply (needs_bind 1 b (index b 0) (nthN b 0) icmp_kind_from); needs_field|].
  repeat first [split; [first [needs_field|apply needs_split]|] | needs_field | apply (needs_addr b 4)].
Qed.
(** C53: the request/reply tests of the typed messages look at the first byte only. *)
Lemma c53_icmp_kinds : forall b,
  needs 1 b (echo_is_request (echo_unchecked b)) (nthN b 0 =? 8) /\ needs 1 b (echo_is_reply (echo_unchecked b)) (nthN b 0 =? 0) /\
  needs 1 b (information_is_request (information_unchecked b)) (nthN b 0 =? 15) /\ needs 1 b (information_is_reply (information_unchecked b)) (nthN b 0 =? 16) /\
  needs 1 b (timestamp_is_request (timestamp_unchecked b)) (nthN b 0 =? 13) /\ needs 1 b (timestamp_is_reply (timestamp_unchecked b)) (nthN b 0 =? 14).
Proof.
  intros b. unfold icmp_unchecked, echo_unchecked, information_unchecked, timestamp_unchecked, parameter_problem_unchecked, redirect_message_unchecked.
  assert (H : forall (f : icmp_kind -> bool) n, (forall x, f (icmp_kind_from x) = (x =? n)) ->
    needs 1 b (let* x := index b 0 in Ok (f (icmp_kind_from x))) (nthN b 0 =? n)).
  { intros f n Hf. eapply needs_eq; [reflexivity| |apply (needs_bind 1 b (index b 0) (nthN b 0) (fun x => f (icmp_kind_from x))); needs_field].
    cbv beta. apply Hf. }
  split; [apply (H (fun k => match k with K_EchoRequest => true | _ => false end)); intros x; kind_solve|].
  split; [apply (H (fun k => match k with K_EchoReply => true | _ => false end)); intros x; kind_solve|].
  split; [apply (H (fun k => match k with K_InformationRequest => true | _ => false end)); intros x; kind_solve|].
  split; [apply (H (fun k => match k with K_InformationReply => true | _ => false end)); intros x; kind_solve|].
  split; [apply (H (fun k => match k with K_TimestampRequest => true | _ => false end)); intros x; kind_solve|].
  apply (H (fun k => match k with K_TimestampReply => true | _ => false end)); intros x; kind_solve.
Qed.
Lemma needs_split_to n m b : m <= n -> needs n b (let* (h, p) := split_at b n in let* h' := slice_to h m in Ok (h', p)) (takeN m b, dropN n b).
Proof.
  intros Hm. split; intros H.
  - rewrite split_at_ok by exact H. cbn [bind]. rewrite slice_to_ok by (rewrite len_takeN; lia). cbn [bind].
    rewrite takeN_takeN, N.min_l by lia. reflexivity.
  - unfold split_at. destruct (N.leb_spec n (len b)); [lia|reflexivity].
Qed.
(** C53: the ICMP error messages: the slices, and the embedded datagram, which is
    parsed from whatever bytes follow the first eight. *)
Lemma c53_icmp_errors : forall b,
  needs 8 b (redirect_message_split (redirect_message_unchecked b)) (takeN 8 b, dropN 8 b) /\
  needs 8 b (parameter_problem_split (parameter_problem_unchecked b)) (takeN 5 b, dropN 8 b) /\
  needs 8 b (previous_split (previous_unchecked b)) (takeN 4 b, dropN 8 b) /\
  (8 <= len b -> embedded_packet (redirect_message_unchecked b) = v4_new (dropN 8 b) /\
     embedded_packet (parameter_problem_unchecked b) = v4_new (dropN 8 b) /\ embedded_packet (previous_unchecked b) = v4_new (dropN 8 b)) /\
  (len b < 8 -> embedded_packet (redirect_message_unchecked b) = Panic /\
     embedded_packet (parameter_problem_unchecked b) = Panic /\ embedded_packet (previous_unchecked b) = Panic).
Proof.
  intros b. unfold redirect_message_unchecked, parameter_problem_unchecked, previous_unchecked.
  split; [apply needs_split|]. split; [apply needs_split_to; lia|]. split; [apply needs_split_to; lia|].
  unfold embedded_packet, slice_from. destruct (N.leb_spec 8 (len b)).
  - split; intros H1; [repeat apply conj; reflexivity|lia].
  - split; intros H1; [lia|repeat apply conj; reflexivity].
Qed.
Example c53_example : needs 12 [1; 2; 3; 4] (v4_checksum [1; 2; 3; 4]) 0 /\ v4_checksum [1; 2; 3; 4] = Panic /\
  v4_length [1; 2; 3; 4] = Ok 772 /\ v4_split [1; 2; 3; 4] = Ok ([1; 2; 3; 4], []) /\ v4_split [2; 2; 3; 4] = Panic.
Proof. repeat split; intros; try reflexivity. vm_compute in H. congruence. Qed.
