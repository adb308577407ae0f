(** * ChecksumProofs: the four checksums (C20-C23) and what they detect (C24). *)
From Verif Require Import Base Enums Ipv4 Ip Udp Tcp Icmp Spec Lemmas ParseProofs SliceProofs AccessProofs FieldProofs ChecksumLemmas.
From Coq Require Import ZifyBool ZifyNat ZifyN.
Ltac Zify.zify_post_hook ::= Z.div_mod_to_equations.

Lemma carry_checksum E off b : is_bytes b -> off mod 2 = 0 ->
  (let* (r, _) := carry_loop E (off + 2) 0 b 65535 in Ok (not_u32_as_u16 r)) =
  Ok (nonzero_checksum (drop_odd (zero_field off b))).
Proof.
  intros Hb Ho. change 65535 with (ones_sum 65535) at 1. rewrite carry_skip by assumption. cbn [bind].
  rewrite not_u32_small by apply ones_sum_lt. rewrite ones_sum_65535.
  unfold nonzero_checksum, inet_checksum. destruct (_ =? 0); reflexivity.
Qed.

Lemma Ok_inj {A} (a b : A) : Ok a = Ok b -> a = b.
Proof. intros H. injection H as H. exact H. Qed.
Lemma ok_true_eqb a b : Ok (a =? b) = Ok true <-> a = b.
Proof. split; [intros H; injection H as H; apply N.eqb_eq; exact H|intros ->; rewrite N.eqb_refl; reflexivity]. Qed.

(** ** C20 *)
(** C20: ip::v4::checksum on an arbitrary byte string: it never fails, and it is
    the Internet checksum of the whole words with the checksum field zeroed,
    unless these are all zero (then it is 0). *)
Lemma c20_v4_checksum : forall E b, is_bytes b ->
  v4_checksum_of E b = Ok (nonzero_checksum (drop_odd (zero_field 10 b))).
Proof. intros E b Hb. apply (carry_checksum E 10 b Hb). reflexivity. Qed.
Lemma nonzero_inet b : word_sum b <> 0 -> nonzero_checksum b = inet_checksum b.
Proof. intros H. unfold nonzero_checksum. destruct (N.eqb_spec (word_sum b) 0); [contradiction|reflexivity]. Qed.
(** C20: on a header of even length with a non-zero byte outside the checksum it is the
    RFC 791 header checksum. *)
Lemma c20_v4_checksum_rfc : forall E b, is_bytes b -> len b mod 2 = 0 ->
  word_sum (zero_field 10 b) <> 0 -> v4_checksum_of E b = Ok (inet_checksum (zero_field 10 b)).
Proof.
  intros E b Hb He Hn. rewrite c20_v4_checksum by exact Hb.
  rewrite drop_odd_even by (rewrite len_zero_field; exact He). rewrite nonzero_inet by exact Hn. reflexivity.
Qed.
(** C20: all zero. *)
Lemma c20_v4_checksum_zero : forall E b, is_bytes b -> len b mod 2 = 0 ->
  word_sum (zero_field 10 b) = 0 -> v4_checksum_of E b = Ok 0 /\ inet_checksum (zero_field 10 b) = 65535.
Proof.
  intros E b Hb He Hn. rewrite c20_v4_checksum by exact Hb.
  rewrite drop_odd_even by (rewrite len_zero_field; exact He). unfold nonzero_checksum, inet_checksum. rewrite Hn.
  split; reflexivity.
Qed.
Lemma word_sum_first x b : 0 < x -> 0 < word_sum (x :: b).
Proof. destruct b; cbn [word_sum]; lia. Qed.
Lemma word_sum_nth0 b : 0 < len b -> 0 < nthN b 0 -> 0 < word_sum b.
Proof. destruct b as [|x b]; [cbn; lia|]. intros _ H. apply word_sum_first. exact H. Qed.
Lemma nthN_zero_field off b i : i < off \/ off + 2 <= i -> nthN (zero_field off b) i = nthN b i.
Proof.
  intros H. destruct (N.ltb_spec (len b) (off + 2)); [rewrite zero_field_short by lia; reflexivity|].
  rewrite zero_field_patch by lia. rewrite nthN_patch by (cbn; lia). change (len [0; 0]) with 2.
  destruct (N.leb_spec off i), (N.ltb_spec i (off + 2)); try lia; reflexivity.
Qed.
(** The sum of an IPv4 header is never zero: byte 0 is not. *)
Lemma v4_header_sum b : len b >= 20 -> 0 < nthN b 0 -> 0 < nthN b 0 mod 16 ->
  0 < word_sum (zero_field 10 (takeN (nthN b 0 mod 16 * 4) b)).
Proof.
  intros Hl H0 Hi. apply word_sum_nth0.
  - rewrite len_zero_field. autorewrite with len. lia.
  - rewrite nthN_zero_field by lia. rewrite nthN_takeN by lia. exact H0.
Qed.
Lemma v4_is_valid_eq E b : is_bytes b -> 20 <= len b -> nthN b 0 mod 16 * 4 <= len b -> 0 < nthN b 0 mod 16 ->
  v4_is_valid E b = Ok (inet_checksum (zero_field 10 (takeN (nthN b 0 mod 16 * 4) b)) =? wire16 b 10).
Proof.
  intros Hb Hl Hh Hi. unfold v4_is_valid, v4_header. rewrite v4_split_ok by assumption. cbn [bind].
  assert (H0 : 0 < nthN b 0) by lia. pose proof (v4_header_sum b ltac:(lia) H0 Hi).
  rewrite c20_v4_checksum_rfc; [|apply is_bytes_takeN; exact Hb|autorewrite with len; lia|lia].
  cbn [bind]. unfold v4_checksum. rewrite get16 by lia. reflexivity.
Qed.
(** C20: is_valid on an accepted packet (IHL >= 1) compares the stored checksum
    with the RFC 791 checksum of the header. *)
Lemma c20_v4_is_valid : forall E b, is_bytes b -> v4_no_payload b = Ok b -> 1 <= nthN b 0 mod 16 ->
  v4_is_valid E b = Ok (inet_checksum (zero_field 10 (takeN (nthN b 0 mod 16 * 4) b)) =? wire16 b 10).
Proof.
  intros E b Hb Hn Hi. apply v4_no_payload_iff in Hn. destruct Hn as (_ & ? & ? & ?).
  apply v4_is_valid_eq; (assumption || lia).
Qed.
(** C20: with the checksum inside the header (IHL >= 3), is_valid is what an RFC
    791 receiver checks, except that a stored 65535 is refused. *)
Lemma c20_v4_is_valid_receiver : forall E b, is_bytes b -> v4_no_payload b = Ok b -> 3 <= nthN b 0 mod 16 ->
  (v4_is_valid E b = Ok true <->
   receiver_accepts (takeN (nthN b 0 mod 16 * 4) b) /\ wire16 b 10 <> 65535).
Proof.
  intros E b Hb Hn Hi. rewrite c20_v4_is_valid by (assumption || lia). apply v4_no_payload_iff in Hn.
  destruct Hn as (_ & ? & ? & ?). pose proof (v4_header_sum b ltac:(lia) ltac:(lia) ltac:(lia)) as Hs.
  unfold receiver_accepts, inet_checksum. set (h := nthN b 0 mod 16 * 4) in *.
  rewrite (word_sum_stored 10 (takeN h b)) by (autorewrite with len; lia || reflexivity).
  assert (Hw : wire16 (takeN h b) 10 = wire16 b 10) by (unfold wire16; rewrite !nthN_takeN by lia; reflexivity).
  rewrite Hw. rewrite <- stored_receiver; [|exact Hs|apply wire16_lt; exact Hb].
  apply ok_true_eqb.
Qed.
Lemma v4_set_checksum_ok v b : v4_no_payload b = Ok b -> 3 <= nthN b 0 mod 16 ->
  v4_set_checksum v b = (patch 10 (enc16 v) b, Ok tt).
Proof.
  intros Hn Hi. unfold v4_set_checksum. apply v4_header_mut; [exact Hn| |autorewrite with len; lia].
  intros h Hlh. autorewrite with len in Hlh. apply write_u16_ok. lia.
Qed.
(** C20: update_checksum. *)
Lemma c20_v4_update_checksum : forall E b, is_bytes b -> v4_no_payload b = Ok b -> 3 <= nthN b 0 mod 16 ->
  exists b', v4_update_checksum E b = (b', Ok tt) /\ only_changes 10 12 b b' /\ is_bytes b' /\
    v4_is_valid E b' = Ok true /\ receiver_accepts (takeN (nthN b' 0 mod 16 * 4) b').
Proof.
  intros E b Hb Hn Hi. pose proof Hn as Hn'. apply v4_no_payload_iff in Hn. destruct Hn as (_ & Hl & Hv & Hh).
  set (c := inet_checksum (zero_field 10 (takeN (nthN b 0 mod 16 * 4) b))).
  assert (Hc : c < 65536) by (unfold c, inet_checksum; lia).
  exists (patch 10 (enc16 c) b).
  assert (Hu : v4_update_checksum E b = (patch 10 (enc16 c) b, Ok tt)).
  { unfold v4_update_checksum, mlet, v4_header. rewrite v4_split_ok by lia. cbn [bind].
    pose proof (v4_header_sum b ltac:(lia) ltac:(lia) ltac:(lia)).
    rewrite c20_v4_checksum_rfc; [|apply is_bytes_takeN; exact Hb|autorewrite with len; lia|lia].
    apply v4_set_checksum_ok; (assumption || lia). }
  rewrite Hu. split; [reflexivity|].
  assert (Ho : only_changes 10 12 b (patch 10 (enc16 c) b)) by (apply (patch_only_changes 10 (enc16 c)); cbn; lia).
  split; [exact Ho|].
  assert (Hb' : is_bytes (patch 10 (enc16 c) b)) by (apply is_bytes_patch; [exact Hb|apply is_bytes_enc16; exact Hc]).
  split; [exact Hb'|]. destruct Ho as [Hl' Hu'].
  assert (H0 : nthN (patch 10 (enc16 c) b) 0 = nthN b 0) by (apply Hu'; lia).
  assert (Hw : wire16 (patch 10 (enc16 c) b) 10 = c) by (apply wire16_patch; lia).
  assert (Hn2 : v4_no_payload (patch 10 (enc16 c) b) = Ok (patch 10 (enc16 c) b)).
  { apply v4_no_payload_iff. rewrite H0, Hl'. repeat split; lia. }
  assert (Hval : v4_is_valid E (patch 10 (enc16 c) b) = Ok true).
  { rewrite c20_v4_is_valid by (try assumption; rewrite H0; lia). rewrite H0, Hw.
    assert (Hz : zero_field 10 (takeN (nthN b 0 mod 16 * 4) (patch 10 (enc16 c) b)) =
                 zero_field 10 (takeN (nthN b 0 mod 16 * 4) b)).
    { rewrite takeN_patch by (cbn; lia). apply zero_field_patch_same; [autorewrite with len; lia|reflexivity]. }
    rewrite Hz. fold c. rewrite N.eqb_refl. reflexivity. }
  split; [exact Hval|]. apply c20_v4_is_valid_receiver in Hval; [tauto|assumption|assumption|rewrite H0; lia].
Qed.

(** C20: with IHL < 3 the checksum field is outside the header and
    update_checksum panics. *)
Lemma c20_v4_update_short : forall E b, is_bytes b -> v4_no_payload b = Ok b -> nthN b 0 mod 16 < 3 ->
  v4_update_checksum E b = (b, Panic).
Proof.
  intros E b Hb Hn Hi. apply v4_no_payload_iff in Hn. destruct Hn as (_ & Hl & Hv & Hh).
  unfold v4_update_checksum, mlet, v4_header. rewrite v4_split_ok by lia. cbn [bind].
  rewrite c20_v4_checksum by (apply is_bytes_takeN; exact Hb).
  unfold v4_set_checksum, write_u16.
  destruct (header_mut_cursor v4_split (nthN b 0 mod 16 * 4)
     (dropN (nthN b 0 mod 16 * 4) (takeN (N.max (nthN b 0 mod 16 * 4) (wire16 b 2)) b)) b 10 (be16 (nonzero_checksum (drop_odd (zero_field 10 (takeN (nthN b 0 mod 16 * 4) b))))))
     as [_ H]; [apply v4_split_ok; lia|lia|]. apply H. lia.
Qed.
Example c20_example : forall E, let b := [69; 0; 0; 20; 1; 2; 64; 0; 64; 17; 9; 9; 10; 0; 0; 1; 10; 0; 0; 2] in
  v4_no_payload b = Ok b /\ is_bytes b /\ v4_is_valid E b = Ok false /\
  v4_update_checksum E b = ([69; 0; 0; 20; 1; 2; 64; 0; 64; 17; 37; 213; 10; 0; 0; 1; 10; 0; 0; 2], Ok tt).
Proof. intros E. cbn. repeat split; repeat constructor. Qed.

(** ** UDP and TCP: the parent's addresses *)
Lemma v4_source_ok p : 20 <= len p -> v4_source p = Ok (wire_addr p 12).
Proof. intros H. unfold v4_source. rewrite !index_ok by lia. reflexivity. Qed.
Lemma v4_destination_ok p : 20 <= len p -> v4_destination p = Ok (wire_addr p 16).
Proof. intros H. unfold v4_destination. rewrite !index_ok by lia. reflexivity. Qed.
Definition pseudo (src dst : ipv4addr) (proto n : N) : bytes :=
  octets src ++ octets dst ++ [0; proto] ++ enc16 (n mod 65536).
Lemma with_pseudo_eq src dst proto b : with_pseudo_header src dst proto b = pseudo src dst proto (len b) ++ b.
Proof. unfold with_pseudo_header, pseudo. rewrite <- !app_assoc. reflexivity. Qed.
Lemma len_pseudo src dst proto n : len (pseudo src dst proto n) = 12. Proof. reflexivity. Qed.
Lemma word_sum_pseudo src dst proto b :
  word_sum (with_pseudo_header src dst proto b) = word_sum (pseudo src dst proto (len b)) + word_sum b.
Proof. rewrite with_pseudo_eq. apply word_sum_app. reflexivity. Qed.
Lemma pseudo_sum src dst proto n : word_sum (pseudo src dst proto n) =
  (ip_a src * 256 + ip_b src) + (ip_c src * 256 + ip_d src) + (ip_a dst * 256 + ip_b dst) +
  (ip_c dst * 256 + ip_d dst) + proto + n mod 65536.
Proof.
  cbn [pseudo octets enc16 app word_sum]. pose proof (enc16_dec (n mod 65536)). lia.
Qed.
Lemma is_bytes_pseudo src dst proto n : addr_ok src -> addr_ok dst -> proto < 256 -> is_bytes (pseudo src dst proto n).
Proof.
  intros Hs Hd Hp. unfold pseudo. repeat (apply is_bytes_app; split); try assumption.
  - repeat constructor; unfold u8; lia.
  - apply is_bytes_enc16. unfold u16. lia.
Qed.
Lemma addr_ok_wire p i : is_bytes p -> addr_ok (wire_addr p i).
Proof. intros H. unfold addr_ok, wire_addr, octets. cbn. repeat constructor; apply is_bytes_nth; exact H. Qed.
Lemma pseudo_header_ok proto n p b : ip_protocol_into proto = n -> 20 <= len p ->
  pseudo_header proto (V4 p) b = Ok (pseudo (wire_addr p 12) (wire_addr p 16) n (len b)).
Proof.
  intros Hp H. unfold pseudo_header. rewrite v4_source_ok, v4_destination_ok by exact H. cbn [bind].
  rewrite Hp. reflexivity.
Qed.
(** The segment as the cursor lets the loops see it. *)
Definition seen (E : env) (b : bytes) : bytes :=
  match cursor_eof E with
  | EofKeep => b
  | EofSeek => if len b mod 2 =? 1 then alter b (len b - 1) 0 else b
  end.
Lemma len_alter b i v : i < len b -> len (alter b i v) = len b.
Proof. intros H. rewrite alter_patch. apply len_patch. cbn; lia. Qed.
Lemma len_seen E b : len (seen E b) = len b.
Proof.
  unfold seen. destruct (cursor_eof E); [reflexivity|].
  destruct (N.eqb_spec (len b mod 2) 1); [apply len_alter; lia|reflexivity].
Qed.
Lemma seen_covered E b : len b mod 2 = 0 \/ cursor_eof E = EofKeep -> seen E b = b.
Proof.
  intros H. unfold seen. destruct (cursor_eof E); [reflexivity|].
  destruct H as [H|H]; [rewrite H; reflexivity|discriminate].
Qed.
Lemma seen_odd E b : len b mod 2 = 1 -> cursor_eof E = EofSeek -> seen E b = alter b (len b - 1) 0.
Proof. intros H He. unfold seen. rewrite He, H. reflexivity. Qed.
Definition last_odd (b : bytes) : N := match dropN (len b / 2 * 2) b with x :: _ => x | [] => 0 end.
Lemma last_odd_even b : len b mod 2 = 0 -> dropN (len b / 2 * 2) b = [].
Proof. intros H. apply dropN_all. lia. Qed.
Lemma last_odd_odd b : len b mod 2 = 1 -> dropN (len b / 2 * 2) b = [nthN b (len b - 1)].
Proof.
  intros H. pose proof (len_dropN (len b / 2 * 2) b) as Hl.
  pose proof (nthN_dropN (len b / 2 * 2) b 0) as Hn.
  destruct (dropN (len b / 2 * 2) b) as [|x [|y r]]; rewrite ?len_cons in Hl; cbn in Hl; try lia.
  f_equal. rewrite nthN_cons0 in Hn. rewrite Hn. f_equal. lia.
Qed.
Lemma word_sum_seen E b : word_sum (seen E b) =
  word_sum (drop_odd b) + match cursor_eof E with EofKeep => last_odd b * 256 | EofSeek => 0 end.
Proof.
  assert (Hw : word_sum b = word_sum (drop_odd b) + last_odd b * 256).
  { rewrite word_sum_drop_odd. unfold last_odd. destruct (dropN _ b); lia. }
  destruct (N.eq_dec (len b mod 2) 0) as [H|H].
  { rewrite seen_covered by (left; exact H). rewrite Hw. unfold last_odd. rewrite last_odd_even by exact H.
    destruct (cursor_eof E); lia. }
  destruct (cursor_eof E) eqn:He.
  { rewrite seen_covered by (right; exact He). exact Hw. }
  rewrite seen_odd by (lia || assumption).
  pose proof (word_sum_alter b (len b - 1) 0 ltac:(lia)) as Ha.
  destruct (N.eqb_spec ((len b - 1) mod 2) 0) as [_|Hc]; [|lia].
  unfold last_odd in Hw. rewrite last_odd_odd in Hw by lia. lia.
Qed.
Lemma last_odd_zero_field off b : off mod 2 = 0 -> last_odd (zero_field off b) = last_odd b.
Proof.
  intros Ho. unfold last_odd. rewrite len_zero_field.
  destruct (N.eq_dec (len b mod 2) 0) as [H|H].
  { rewrite last_odd_even by exact H. rewrite <- (len_zero_field off b) at 1.
    rewrite last_odd_even by (rewrite len_zero_field; exact H). reflexivity. }
  rewrite last_odd_odd by lia. rewrite <- (len_zero_field off b) at 1.
  rewrite last_odd_odd by (rewrite len_zero_field; lia). rewrite len_zero_field.
  destruct (N.ltb_spec (len b) (off + 2)); [rewrite zero_field_short by lia; reflexivity|].
  apply nthN_zero_field. lia.
Qed.
Lemma u8_last_odd b : is_bytes b -> last_odd b < 256.
Proof.
  intros Hb. unfold last_odd. pose proof (is_bytes_dropN (len b / 2 * 2) b Hb) as H.
  destruct (dropN (len b / 2 * 2) b); [lia|]. inversion H; subst. assumption.
Qed.

(** ** C21 *)
Lemma shl8 x : x < 256 -> shl_u16 x 8 = x * 256.
Proof. intros H. unfold shl_u16, as_u16. rewrite N.shiftl_mul_pow2. change (2 ^ 8) with 256. lia. Qed.
Lemma udp_checksum_eq E p b : is_bytes p -> is_bytes b -> 20 <= len p ->
  udp_checksum_of E (V4 p) b =
  Ok (inet_checksum (with_pseudo_header (wire_addr p 12) (wire_addr p 16) 17 (seen E (zero_field 6 b)))).
Proof.
  intros Hp Hb Hl. unfold udp_checksum_of. rewrite (pseudo_header_ok IP_Udp 17) by (reflexivity || exact Hl).
  cbn [bind]. set (ps := pseudo _ _ _ _).
  assert (Hps : is_bytes ps) by (apply is_bytes_pseudo; try apply addr_ok_wire; (assumption || lia)).
  pose proof (carry_plain E 0 0 ps 0 Hps ltac:(lia)) as H1. change (ones_sum 0) with 0 in H1. rewrite H1. clear H1.
  cbn [bind]. rewrite (carry_skip E 6 b) by (assumption || reflexivity). cbn [bind].
  assert (Hs : word_sum (with_pseudo_header (wire_addr p 12) (wire_addr p 16) 17 (seen E (zero_field 6 b))) =
    0 + word_sum (drop_odd ps) + word_sum (drop_odd (zero_field 6 b)) +
    match cursor_eof E with EofKeep => last_odd b * 256 | EofSeek => 0 end).
  { rewrite word_sum_pseudo, len_seen, len_zero_field. fold ps. rewrite (drop_odd_even ps) by reflexivity.
    rewrite word_sum_seen, last_odd_zero_field by reflexivity. destruct (cursor_eof E); lia. }
  unfold inet_checksum. rewrite Hs. clear Hs. set (t := 0 + word_sum (drop_odd ps) + _). clearbody t.
  pose proof (u8_last_odd b Hb) as Hu. unfold last_odd in *.
  destruct (dropN (len b / 2 * 2) b) as [|x r].
  { destruct (cursor_eof E); cbn [bind]; rewrite N.add_0_r; rewrite not_u32_small by apply ones_sum_lt; reflexivity. }
  destruct (cursor_eof E); cbn [bind].
  - rewrite shl8 by exact Hu. pose proof (ones_sum_lt t). rewrite u32_add_ok by (unfold U32; lia). cbn [bind].
    rewrite carry_step by lia. rewrite not_u32_small by apply ones_sum_lt. reflexivity.
  - rewrite N.add_0_r. rewrite not_u32_small by apply ones_sum_lt. reflexivity.
Qed.
(** C21: with an IPv4 parent, the checksum over the pseudo-header and the
    datagram, checksum field zeroed; for odd lengths this needs a std whose
    Cursor keeps its position when a read fails. *)
Lemma c21_udp_checksum : forall E p b, is_bytes p -> is_bytes b -> 20 <= len p ->
  len b mod 2 = 0 \/ cursor_eof E = EofKeep ->
  udp_checksum_of E (V4 p) b =
  Ok (inet_checksum (with_pseudo_header (wire_addr p 12) (wire_addr p 16) 17 (zero_field 6 b))).
Proof.
  intros E p b Hp Hb Hl Hc. rewrite udp_checksum_eq by assumption.
  rewrite seen_covered by (rewrite len_zero_field; exact Hc). reflexivity.
Qed.
(** C21: otherwise an odd last byte counts as zero. *)
Lemma c21_udp_checksum_odd : forall E p b, is_bytes p -> is_bytes b -> 20 <= len p ->
  len b mod 2 = 1 -> cursor_eof E = EofSeek ->
  udp_checksum_of E (V4 p) b =
  Ok (inet_checksum (with_pseudo_header (wire_addr p 12) (wire_addr p 16) 17
                       (alter (zero_field 6 b) (len b - 1) 0))).
Proof.
  intros E p b Hp Hb Hl Ho He. rewrite udp_checksum_eq by assumption.
  rewrite seen_odd by (rewrite ?len_zero_field; assumption). rewrite len_zero_field. reflexivity.
Qed.
(** C21: so under such a std the checksum of an odd datagram is wrong whenever
    its last byte is not zero. *)
Lemma c21_udp_checksum_odd_wrong : forall E p b, is_bytes p -> is_bytes b -> 20 <= len p -> 8 <= len b ->
  len b mod 2 = 1 -> cursor_eof E = EofSeek -> nthN b (len b - 1) <> 0 ->
  udp_checksum_of E (V4 p) b <>
  Ok (inet_checksum (with_pseudo_header (wire_addr p 12) (wire_addr p 16) 17 (zero_field 6 b))).
Proof.
  intros E p b Hp Hb Hl Hlb Ho He Hn. rewrite udp_checksum_eq by assumption.
  intros H. injection H as H. unfold inet_checksum in H.
  pose proof (ones_sum_lt (word_sum (with_pseudo_header (wire_addr p 12) (wire_addr p 16) 17 (zero_field 6 b)))).
  pose proof (ones_sum_lt (word_sum (with_pseudo_header (wire_addr p 12) (wire_addr p 16) 17 (seen E (zero_field 6 b))))).
  assert (H2 : ones_sum (word_sum (with_pseudo_header (wire_addr p 12) (wire_addr p 16) 17 (seen E (zero_field 6 b)))) =
               ones_sum (word_sum (with_pseudo_header (wire_addr p 12) (wire_addr p 16) 17 (zero_field 6 b)))) by lia.
  apply ones_sum_inj in H2. rewrite !word_sum_pseudo, len_seen in H2.
  rewrite seen_odd in H2 by (rewrite ?len_zero_field; assumption).
  pose proof (word_sum_alter (zero_field 6 b) (len (zero_field 6 b) - 1) 0) as Ha.
  rewrite len_zero_field in *. specialize (Ha ltac:(lia)).
  destruct (N.eqb_spec ((len b - 1) mod 2) 0) as [_|Hc]; [|lia].
  rewrite nthN_zero_field in Ha by lia. pose proof (is_bytes_nth b (len b - 1) Hb).
  set (x := word_sum (pseudo _ _ _ _)) in *. set (y := word_sum (alter _ _ _)) in *.
  set (z := word_sum (zero_field 6 b)) in *. set (n := nthN b (len b - 1)) in *. clearbody x y z n. lia.
Qed.
(** C21: with an IPv6 parent every checksum operation panics. *)
Lemma c21_udp_v6 : forall E q b,
  udp_checksum_of E (V6 q) b = Panic /\ udp_is_valid E (V6 q) b = Panic /\
  udp_update_checksum E (V6 q) b = (b, Panic).
Proof. intros. repeat split. Qed.
(** C21: a computed checksum of 0 is reachable (RFC 768 asks for 65535 then). *)
Lemma c21_udp_zero_refuted : forall E, exists p b, v4_new p = Ok p /\ udp_new b = Ok b /\
  is_bytes p /\ is_bytes b /\ udp_checksum_of E (V4 p) b = Ok 0.
Proof.
  intros E. exists [69;0;0;28;0;0;0;0;64;17;0;0;0;0;0;0;0;0;0;0;255;222;0;0;0;8;0;0], [255; 222; 0; 0; 0; 8; 0; 0].
  split; [reflexivity|]. split; [reflexivity|]. split; [repeat constructor|]. split; [repeat constructor|].
  destruct E as [[] [] []]; reflexivity.
Qed.
Lemma udp_is_valid_eq E p b : is_bytes p -> is_bytes b -> 20 <= len p -> 8 <= len b ->
  udp_is_valid E (V4 p) b =
  Ok (inet_checksum (with_pseudo_header (wire_addr p 12) (wire_addr p 16) 17 (seen E (zero_field 6 b))) =? wire16 b 6).
Proof.
  intros Hp Hb Hl Hlb. unfold udp_is_valid. rewrite udp_checksum_eq by assumption. cbn [bind].
  unfold udp_checksum. rewrite get16 by lia. reflexivity.
Qed.
(** C21: is_valid compares the stored checksum with that of RFC 768 ... *)
Lemma c21_udp_is_valid : forall E p b, is_bytes p -> is_bytes b -> 20 <= len p -> 8 <= len b ->
  len b mod 2 = 0 \/ cursor_eof E = EofKeep ->
  udp_is_valid E (V4 p) b =
  Ok (inet_checksum (with_pseudo_header (wire_addr p 12) (wire_addr p 16) 17 (zero_field 6 b)) =? wire16 b 6).
Proof.
  intros E p b Hp Hb Hl Hlb Hc. rewrite udp_is_valid_eq by assumption.
  rewrite seen_covered by (rewrite len_zero_field; exact Hc). reflexivity.
Qed.
Lemma pseudo_pos src dst proto n : 0 < proto -> 0 < word_sum (pseudo src dst proto n).
Proof. intros H. rewrite pseudo_sum. lia. Qed.
Lemma word_sum_pseudo_stored s d proto off b : off mod 2 = 0 -> off + 2 <= len b ->
  word_sum (with_pseudo_header s d proto b) =
  word_sum (with_pseudo_header s d proto (zero_field off b)) + wire16 b off.
Proof.
  intros Ho Hl. rewrite !word_sum_pseudo, len_zero_field. rewrite (word_sum_stored off b) by assumption. lia.
Qed.
(** C21: ... which is the test of an RFC 768 receiver, except that 65535 is refused
    (and 0 means nothing special). *)
Lemma c21_udp_is_valid_receiver : forall E p b, is_bytes p -> is_bytes b -> 20 <= len p -> 8 <= len b ->
  len b mod 2 = 0 \/ cursor_eof E = EofKeep ->
  (udp_is_valid E (V4 p) b = Ok true <->
   receiver_accepts (with_pseudo_header (wire_addr p 12) (wire_addr p 16) 17 b) /\ wire16 b 6 <> 65535).
Proof.
  intros E p b Hp Hb Hl Hlb Hc. rewrite c21_udp_is_valid by assumption. rewrite ok_true_eqb.
  unfold receiver_accepts, inet_checksum. rewrite (word_sum_pseudo_stored _ _ _ 6 b) by (reflexivity || lia).
  apply stored_receiver; [|apply wire16_lt; exact Hb].
  rewrite word_sum_pseudo. pose proof (pseudo_pos (wire_addr p 12) (wire_addr p 16) 17 (len (zero_field 6 b)) ltac:(lia)). lia.
Qed.
(** C21: update_checksum. *)
Lemma c21_udp_update_checksum : forall E p b, is_bytes p -> is_bytes b -> 20 <= len p -> 8 <= len b ->
  exists b', udp_update_checksum E (V4 p) b = (b', Ok tt) /\ only_changes 6 8 b b' /\ is_bytes b' /\
    udp_is_valid E (V4 p) b' = Ok true.
Proof.
  intros E p b Hp Hb Hl Hlb.
  set (c := inet_checksum (with_pseudo_header (wire_addr p 12) (wire_addr p 16) 17 (seen E (zero_field 6 b)))).
  assert (Hc : c < 65536) by (unfold c, inet_checksum; lia).
  exists (patch 6 (enc16 c) b). split.
  { unfold udp_update_checksum, mlet. rewrite udp_checksum_eq by assumption. apply udp_header_write; lia. }
  assert (Ho : only_changes 6 8 b (patch 6 (enc16 c) b)) by (apply (patch_only_changes 6 (enc16 c)); cbn; lia).
  split; [exact Ho|]. destruct Ho as [Hl' _].
  assert (Hb' : is_bytes (patch 6 (enc16 c) b)) by (apply is_bytes_patch; [exact Hb|apply is_bytes_enc16; exact Hc]).
  split; [exact Hb'|]. rewrite udp_is_valid_eq by (assumption || lia).
  rewrite zero_field_patch_same by (lia || reflexivity). rewrite wire16_patch by lia. fold c. rewrite N.eqb_refl. reflexivity.
Qed.
Example c21_example : forall E, let p := [69;0;0;30;0;0;0;0;64;17;0;0;10;0;0;1;10;0;0;2] in
  let b := [0; 53; 0; 99; 0; 10; 0; 0; 104; 105] in
  v4_no_payload p = Ok p /\ udp_new b = Ok b /\ udp_is_valid E (V4 p) b = Ok false /\
  udp_update_checksum E (V4 p) b = ([0; 53; 0; 99; 0; 10; 130; 214; 104; 105], Ok tt).
Proof. intros [[] [] []]; repeat split. Qed.

(** ** C22 *)
Lemma word_sum_zero_bound off b : is_bytes b -> off mod 2 = 0 -> off + 2 <= len b ->
  word_sum (zero_field off b) <= 65535 * (len b / 2 - 1) + 65280 * (len b mod 2).
Proof.
  intros Hb Ho Hl. rewrite zero_field_eq by exact Hl.
  rewrite !word_sum_app by (autorewrite with len; lia || reflexivity). change (word_sum [0; 0]) with 0.
  pose proof (word_sum_bound (takeN off b) (is_bytes_takeN _ _ Hb)) as H1.
  pose proof (word_sum_bound (dropN (off + 2) b) (is_bytes_dropN _ _ Hb)) as H2.
  rewrite len_takeN in H1. rewrite len_dropN in H2. lia.
Qed.
Lemma pseudo_sum_bound s d proto n : addr_ok s -> addr_ok d ->
  word_sum (pseudo s d proto n) <= 65535 * 4 + proto + n mod 65536.
Proof.
  intros Hs Hd. rewrite pseudo_sum.
  assert (Ha : forall a, addr_ok a -> ip_a a < 256 /\ ip_b a < 256 /\ ip_c a < 256 /\ ip_d a < 256).
  { intros a H. unfold addr_ok, octets, is_bytes in H. rewrite !Forall_cons_iff in H. unfold u8 in H. tauto. }
  pose proof (Ha s Hs). pose proof (Ha d Hd). lia.
Qed.
Lemma tcp_sum_bound s d b : is_bytes b -> addr_ok s -> addr_ok d -> len b <= 131065 ->
  word_sum (with_pseudo_header s d 6 (zero_field 16 b)) < U32.
Proof.
  intros Hb Hs Hd Hl. rewrite word_sum_pseudo, len_zero_field.
  pose proof (pseudo_sum_bound s d 6 (len b) Hs Hd). destruct (N.ltb_spec (len b) 18).
  { rewrite zero_field_short by lia. pose proof (word_sum_bound b Hb). unfold U32. lia. }
  pose proof (word_sum_zero_bound 16 b Hb eq_refl ltac:(lia)).
  unfold U32. lia.
Qed.
Lemma shl8_u32 x : N.shiftl x 8 = x * 256.
Proof. rewrite N.shiftl_mul_pow2. reflexivity. Qed.
Lemma tcp_checksum_eq E p b : is_bytes p -> is_bytes b -> 20 <= len p -> len b <= 131065 ->
  len b mod 2 = 0 \/ cursor_eof E = EofKeep ->
  tcp_checksum_of E (V4 p) b =
  Ok (inet_checksum (with_pseudo_header (wire_addr p 12) (wire_addr p 16) 6 (zero_field 16 b))).
Proof.
  intros Hp Hb Hl Hl2 Hc. unfold tcp_checksum_of. rewrite (pseudo_header_ok IP_Tcp 6) by (reflexivity || exact Hl).
  cbn [bind]. set (ps := pseudo _ _ _ _).
  pose proof (tcp_sum_bound (wire_addr p 12) (wire_addr p 16) b Hb (addr_ok_wire _ _ Hp) (addr_ok_wire _ _ Hp) Hl2) as Hbd.
  assert (Hs : word_sum (with_pseudo_header (wire_addr p 12) (wire_addr p 16) 6 (zero_field 16 b)) =
    word_sum (drop_odd ps) + word_sum (drop_odd (zero_field 16 b)) + last_odd b * 256).
  { rewrite word_sum_pseudo, len_zero_field. fold ps. rewrite (drop_odd_even ps) by reflexivity.
    rewrite (word_sum_drop_odd (zero_field 16 b)). rewrite <- (last_odd_zero_field 16 b) by reflexivity. unfold last_odd.
    destruct (dropN _ (zero_field 16 b)); lia. }
  unfold inet_checksum. rewrite Hs in *. clear Hs.
  rewrite plain_plain by lia. cbn [bind]. rewrite (plain_skip E 16 b) by (reflexivity || lia). cbn [bind].
  rewrite N.add_0_l. set (t := word_sum (drop_odd ps) + _) in *. clearbody t.
  pose proof (u8_last_odd b Hb) as Hu.
  assert (Hr : (match dropN (len b / 2 * 2) b with
                | [] => Ok t
                | x :: _ => match cursor_eof E with EofKeep => u32_add E t (N.shiftl x 8) | EofSeek => Panic end
                end) = Ok (t + last_odd b * 256)).
  { unfold last_odd in *. destruct Hc as [Hc|Hc].
    - rewrite last_odd_even in * by exact Hc. f_equal. lia.
    - destruct (dropN (len b / 2 * 2) b) as [|x r]; [f_equal; lia|]. rewrite Hc, shl8_u32.
      apply u32_add_ok. exact Hbd. }
  rewrite Hr. cbn [bind]. rewrite fold_loop_ok by exact Hbd. cbn [bind].
  rewrite not_u32_small by apply ones_sum_lt. reflexivity.
Qed.
(** C22: the RFC 793 checksum for segments of up to 131065 bytes, under
    both build profiles. *)
Lemma c22_tcp_checksum : forall E p b, is_bytes p -> is_bytes b -> 20 <= len p -> len b <= 131065 ->
  len b mod 2 = 0 \/ cursor_eof E = EofKeep ->
  tcp_checksum_of E (V4 p) b =
  Ok (inet_checksum (with_pseudo_header (wire_addr p 12) (wire_addr p 16) 6 (zero_field 16 b))).
Proof. exact tcp_checksum_eq. Qed.
(** C22: an odd length panics with the other kind of std. *)
Lemma c22_tcp_checksum_odd : forall E p b, is_bytes p -> is_bytes b -> 20 <= len p -> len b <= 131065 ->
  len b mod 2 = 1 -> cursor_eof E = EofSeek -> tcp_checksum_of E (V4 p) b = Panic.
Proof.
  intros E p b Hp Hb Hl Hl2 Ho He. unfold tcp_checksum_of. rewrite (pseudo_header_ok IP_Tcp 6) by (reflexivity || exact Hl).
  cbn [bind]. set (ps := pseudo _ _ _ _).
  pose proof (tcp_sum_bound (wire_addr p 12) (wire_addr p 16) b Hb (addr_ok_wire _ _ Hp) (addr_ok_wire _ _ Hp) Hl2) as Hbd.
  rewrite word_sum_pseudo, len_zero_field in Hbd. fold ps in Hbd.
  rewrite (word_sum_drop_odd (zero_field 16 b)) in Hbd. rewrite <- (drop_odd_even ps) in Hbd by reflexivity.
  rewrite plain_plain by lia. cbn [bind]. rewrite (plain_skip E 16 b) by (reflexivity || lia). cbn [bind].
  rewrite last_odd_odd by exact Ho. rewrite He. reflexivity.
Qed.
Definition ff (n : N) : bytes := repeat 255 (N.to_nat n).
Lemma len_ff n : len (ff n) = n.
Proof. unfold len, ff. rewrite repeat_length. lia. Qed.
Lemma ff_app n m : ff (n + m) = ff n ++ ff m.
Proof. unfold ff. rewrite N2Nat.inj_add. apply repeat_app. Qed.
Lemma word_sum_ff n : n mod 2 = 0 -> word_sum (ff n) = 65535 * (n / 2).
Proof.
  intros H. assert (Hk : n = 2 * (n / 2)) by lia. set (k := n / 2) in *. clearbody k. subst n. clear H.
  induction k as [|k IH] using N.peano_ind; [reflexivity|].
  replace (2 * N.succ k) with (2 + 2 * k) by lia. rewrite ff_app. change (ff 2) with [255; 255].
  cbn [app word_sum]. rewrite IH. lia.
Qed.
Lemma is_bytes_ff n : is_bytes (ff n).
Proof. unfold is_bytes, ff. apply Forall_forall. intros x Hx. apply repeat_spec in Hx. subst. reflexivity. Qed.
Lemma takeN_ff n m : n <= m -> takeN n (ff m) = ff n.
Proof.
  intros H. replace m with (n + (m - n)) by lia. rewrite ff_app. rewrite <- (len_ff n) at 1. apply takeN_app_len.
Qed.
Lemma dropN_ff n m : n <= m -> dropN n (ff m) = ff (m - n).
Proof.
  intros H. replace m with (n + (m - n)) at 1 by lia. rewrite ff_app. rewrite <- (len_ff n) at 1. apply dropN_app_len.
Qed.
Lemma nthN_ff n i : i < n -> nthN (ff n) i = 255.
Proof.
  intros H. unfold nthN, ff. apply (repeat_spec (N.to_nat n)). apply nth_In. rewrite repeat_length. lia.
Qed.
Lemma word_sum_ff_zero n : n mod 2 = 0 -> 18 <= n -> word_sum (zero_field 16 (ff n)) = 65535 * (n / 2 - 1).
Proof.
  intros H Hn. rewrite zero_field_eq by (rewrite len_ff; lia). rewrite takeN_ff, dropN_ff by lia.
  rewrite !word_sum_app by (rewrite ?len_ff; reflexivity). change (word_sum [0; 0]) with 0.
  rewrite !word_sum_ff by lia. lia.
Qed.
Lemma tcp_overflow_step E p b : is_bytes p -> 20 <= len p ->
  wire_addr p 12 = Ip4 255 255 255 255 -> wire_addr p 16 = Ip4 255 255 255 255 ->
  len b = 131064 -> word_sum (zero_field 16 b) = 65535 * 65531 ->
  tcp_checksum_of E (V4 p) (b ++ [255; 255]) =
     let* r2 := u32_add E (U32 - 65535) 65535 in
     match fold_loop E 3 r2 with Some r => let* r4 := r in Ok (not_u32_as_u16 r4) | None => Err Io end.
Proof.
  intros Hp Hlp Hs Hd Hla Hwz.
  unfold tcp_checksum_of. rewrite (pseudo_header_ok IP_Tcp 6) by (reflexivity || exact Hlp). cbn [bind].
  assert (Hl : len (b ++ [255; 255]) = 131066) by (autorewrite with len; lia).
  rewrite Hs, Hd, Hl.
  assert (Hps : word_sum (drop_odd (pseudo (Ip4 255 255 255 255) (Ip4 255 255 255 255) 6 131066)) = 65535 * 4 + 6 + 65530) by reflexivity.
  rewrite plain_plain; [|lia|rewrite Hps; unfold U32; lia]. cbn [bind]. rewrite Hps.
  pose proof (drop_odd_zero_field 16 b eq_refl ltac:(lia)) as Hdz.
  rewrite drop_odd_even in Hdz by (rewrite len_zero_field, Hla; reflexivity).
  rewrite drop_odd_even in Hdz by (rewrite len_dropN, Hla; reflexivity).
  rewrite Hwz in Hdz. destruct (field_split 16 b) as (x & y & Hf); [lia|].
  set (a1 := takeN 16 b) in *. set (a2 := dropN (16 + 2) b) in *.
  assert (Hl1 : len a1 = 16) by (unfold a1; autorewrite with len; lia).
  assert (Hl2 : len a2 = 131046) by (unfold a2; autorewrite with len; lia).
  clearbody a1 a2. rewrite Hf. rewrite <- app_assoc. cbn [app].
  rewrite plain_app; [|rewrite Hl1; reflexivity|right; rewrite Hl1; reflexivity|unfold U32; lia].
  cbn [plain_loop]. rewrite Hl1. change (0 + 16 + 2 =? 18) with true. cbv iota.
  rewrite plain_app; [|rewrite Hl2; reflexivity|left; lia|unfold U32; lia].
  cbn [plain_loop]. rewrite Hl2. change (0 + 16 + 2 + 131046 + 2 =? 18) with false. cbv iota.
  replace (0 + (65535 * 4 + 6 + 65530) + word_sum a1 + word_sum a2) with (U32 - 65535) by (unfold U32; lia).
  change (255 * 256 + 255) with 65535. destruct (u32_add E (U32 - 65535) 65535); reflexivity.
Qed.
(** C22: the bound is tight: one byte more and the 32-bit accumulator can
    overflow, which panics or gives a wrong checksum depending on the profile. *)
Lemma c22_tcp_overflow_refuted : exists p b, v4_no_payload p = Ok p /\ tcp_new b = Ok b /\
  is_bytes p /\ is_bytes b /\ len b = 131066 /\
  forall E,
    (overflow_checks E = true -> tcp_checksum_of E (V4 p) b = Panic) /\
    (overflow_checks E = false ->
      tcp_checksum_of E (V4 p) b = Ok 65535 /\
      inet_checksum (with_pseudo_header (wire_addr p 12) (wire_addr p 16) 6 (zero_field 16 b)) = 65534).
Proof.
  set (p := [69;0;0;20;0;0;0;0;64;6;0;0;255;255;255;255;255;255;255;255]).
  assert (Hlen : len (ff 131066) = 131066) by apply len_ff.
  assert (H12 : nthN (ff 131066) 12 = 255) by (apply nthN_ff; lia).
  assert (Hb : is_bytes (ff 131066)) by apply is_bytes_ff.
  assert (Hs : ff 131066 = ff 131064 ++ [255; 255]) by (change [255; 255] with (ff 2); rewrite <- ff_app; reflexivity).
  assert (Hw1 : word_sum (zero_field 16 (ff 131064)) = 65535 * 65531) by (rewrite word_sum_ff_zero; reflexivity || lia).
  assert (Hw2 : word_sum (zero_field 16 (ff 131066)) = 65535 * 65532) by (rewrite word_sum_ff_zero; reflexivity || lia).
  assert (Hl1 : len (ff 131064) = 131064) by apply len_ff.
  set (b := ff 131066) in *. set (a := ff 131064) in *. clearbody a b.
  exists p, b. split; [reflexivity|]. split; [apply tcp_new_iff; rewrite Hlen, H12; repeat split; lia|].
  assert (Hp : is_bytes p) by (repeat constructor).
  split; [exact Hp|]. split; [exact Hb|]. split; [exact Hlen|].
  intros E. assert (Hstep := tcp_overflow_step E p a Hp ltac:(cbn; lia) eq_refl eq_refl Hl1 Hw1).
  rewrite <- Hs in Hstep. rewrite Hstep. unfold u32_add. change (U32 - 65535 + 65535 <? U32) with false. cbv iota.
  split; intros HE; rewrite HE; [reflexivity|]. split; [reflexivity|].
  unfold inet_checksum. rewrite word_sum_pseudo, len_zero_field, Hlen, Hw2. reflexivity.
Qed.
(** C22: with an IPv6 parent every checksum operation panics. *)
Lemma c22_tcp_v6 : forall E q b,
  tcp_checksum_of E (V6 q) b = Panic /\ tcp_is_valid E (V6 q) b = Panic /\
  tcp_update_checksum E (V6 q) b = (b, Panic).
Proof. intros. repeat split. Qed.
(** C22: is_valid compares the stored checksum with that of RFC 793 ... *)
Lemma c22_tcp_is_valid : forall E p b, is_bytes p -> is_bytes b -> 20 <= len p -> 18 <= len b <= 131065 ->
  len b mod 2 = 0 \/ cursor_eof E = EofKeep ->
  tcp_is_valid E (V4 p) b =
  Ok (inet_checksum (with_pseudo_header (wire_addr p 12) (wire_addr p 16) 6 (zero_field 16 b)) =? wire16 b 16).
Proof.
  intros E p b Hp Hb Hl Hlb Hc. unfold tcp_is_valid. rewrite tcp_checksum_eq by (assumption || lia). cbn [bind].
  unfold tcp_checksum. rewrite get16 by lia. reflexivity.
Qed.
(** C22: ... which is the test of an RFC 793 receiver, except that a stored 65535 is refused. *)
Lemma c22_tcp_is_valid_receiver : forall E p b, is_bytes p -> is_bytes b -> 20 <= len p -> 18 <= len b <= 131065 ->
  len b mod 2 = 0 \/ cursor_eof E = EofKeep ->
  (tcp_is_valid E (V4 p) b = Ok true <->
   receiver_accepts (with_pseudo_header (wire_addr p 12) (wire_addr p 16) 6 b) /\ wire16 b 16 <> 65535).
Proof.
  intros E p b Hp Hb Hl Hlb Hc. rewrite c22_tcp_is_valid by assumption. rewrite ok_true_eqb.
  unfold receiver_accepts, inet_checksum. rewrite (word_sum_pseudo_stored _ _ _ 16 b) by (reflexivity || lia).
  apply stored_receiver; [|apply wire16_lt; exact Hb].
  rewrite word_sum_pseudo. pose proof (pseudo_pos (wire_addr p 12) (wire_addr p 16) 6 (len (zero_field 16 b)) ltac:(lia)). lia.
Qed.
Lemma tcp_update_eq E p b : is_bytes p -> is_bytes b -> 20 <= len p -> len b <= 131065 ->
  len b mod 2 = 0 \/ cursor_eof E = EofKeep -> tcp_new b = Ok b -> 5 <= nthN b 12 / 16 ->
  tcp_update_checksum E (V4 p) b =
  (patch 16 (enc16 (inet_checksum (with_pseudo_header (wire_addr p 12) (wire_addr p 16) 6 (zero_field 16 b)))) b, Ok tt).
Proof.
  intros Hp Hb Hl Hlb Hc Hn Ho. unfold tcp_update_checksum, mlet. rewrite tcp_checksum_eq by assumption.
  apply tcp_header_write16; [exact Hn|lia].
Qed.
(** C22: update_checksum on an accepted segment whose header covers the checksum. *)
Lemma c22_tcp_update_checksum : forall E p b, is_bytes p -> is_bytes b -> 20 <= len p -> len b <= 131065 ->
  len b mod 2 = 0 \/ cursor_eof E = EofKeep -> tcp_new b = Ok b -> 5 <= nthN b 12 / 16 ->
  exists b', tcp_update_checksum E (V4 p) b = (b', Ok tt) /\ only_changes 16 18 b b' /\ is_bytes b' /\
    tcp_is_valid E (V4 p) b' = Ok true.
Proof.
  intros E p b Hp Hb Hl Hlb Hc Hn Ho. rewrite tcp_update_eq by assumption.
  set (c := inet_checksum _).
  assert (Hc' : c < 65536) by (unfold c, inet_checksum; lia).
  apply tcp_new_iff in Hn. destruct Hn as (_ & H20 & _).
  exists (patch 16 (enc16 c) b). split; [reflexivity|].
  assert (Hoc : only_changes 16 18 b (patch 16 (enc16 c) b)) by (apply (patch_only_changes 16 (enc16 c)); cbn; lia).
  split; [exact Hoc|]. destruct Hoc as [Hl' _].
  assert (Hb' : is_bytes (patch 16 (enc16 c) b)) by (apply is_bytes_patch; [exact Hb|apply is_bytes_enc16; exact Hc']).
  split; [exact Hb'|]. rewrite c22_tcp_is_valid by (rewrite ?Hl'; assumption || lia).
  rewrite zero_field_patch_same by (lia || reflexivity). rewrite wire16_patch by lia. fold c. rewrite N.eqb_refl. reflexivity.
Qed.
Example c22_example : forall E, let p := [69;0;0;42;0;0;0;0;64;6;0;0;10;0;0;1;10;0;0;2] in
  let b := [0; 80; 0; 99; 0; 0; 0; 1; 0; 0; 0; 2; 80; 2; 1; 0; 0; 0; 0; 0; 104; 105] in
  v4_no_payload p = Ok p /\ tcp_new b = Ok b /\ is_bytes p /\ is_bytes b /\ nthN b 12 / 16 = 5 /\
  tcp_is_valid E (V4 p) b = Ok false /\
  tcp_update_checksum E (V4 p) b = ([0; 80; 0; 99; 0; 0; 0; 1; 0; 0; 0; 2; 80; 2; 1; 0; 49; 191; 0; 0; 104; 105], Ok tt).
Proof. intros [[] [] []]; repeat split; repeat constructor. Qed.

(** ** C23 *)
(** C23: icmp::checksum on an arbitrary byte string. *)
Lemma c23_icmp_checksum : forall E b, is_bytes b ->
  icmp_checksum_of E b = Ok (nonzero_checksum (drop_odd (zero_field 2 b))).
Proof. intros E b Hb. apply (carry_checksum E 2 b Hb). reflexivity. Qed.
(** C23: for a message of even length with a non-zero byte outside the checksum
    it is the RFC 792 checksum. *)
Lemma c23_icmp_checksum_rfc : forall E b, is_bytes b -> len b mod 2 = 0 ->
  word_sum (zero_field 2 b) <> 0 -> icmp_checksum_of E b = Ok (inet_checksum (zero_field 2 b)).
Proof.
  intros E b Hb He Hn. rewrite c23_icmp_checksum by exact Hb.
  rewrite drop_odd_even by (rewrite len_zero_field; exact He). rewrite nonzero_inet by exact Hn. reflexivity.
Qed.
(** C23: an odd last byte is ignored ... *)
Lemma c23_icmp_odd_ignored : forall E b x, is_bytes (b ++ [x]) -> len b mod 2 = 0 ->
  icmp_checksum_of E (b ++ [x]) = icmp_checksum_of E b.
Proof.
  intros E b x Hb He. assert (Hb' : is_bytes b) by (apply is_bytes_app in Hb; tauto).
  rewrite !c23_icmp_checksum by assumption. f_equal. f_equal.
  rewrite (drop_odd_even (zero_field 2 b)) by (rewrite len_zero_field; exact He).
  assert (Hl : len (b ++ [x]) = len b + 1) by (autorewrite with len; cbn; lia).
  unfold drop_odd. rewrite len_zero_field, Hl. replace ((len b + 1) / 2 * 2) with (len b) by lia.
  destruct (N.ltb_spec (len b) 4).
  - rewrite !zero_field_short by lia. apply takeN_app_len.
  - rewrite !zero_field_eq by lia. rewrite (takeN_app1 2 b), (dropN_app1 (2 + 2) b) by lia.
    rewrite !app_assoc. rewrite <- (takeN_app_len ((takeN 2 b ++ [0; 0]) ++ dropN (2 + 2) b) [x]) at 2. f_equal.
    autorewrite with len. lia.
Qed.
(** C23: ... so for odd lengths the result is right exactly when that byte is zero
    (and the rest is not all zero). *)
Lemma c23_icmp_odd_wrong : forall E b x, is_bytes (b ++ [x]) -> len b mod 2 = 0 -> 4 <= len b -> x <> 0 ->
  icmp_checksum_of E (b ++ [x]) <> Ok (inet_checksum (zero_field 2 (b ++ [x]))).
Proof.
  intros E b x Hb He Hl Hx. rewrite c23_icmp_odd_ignored by assumption.
  apply is_bytes_app in Hb. destruct Hb as [Hb Hbx].
  assert (Hx8 : x < 256) by (apply (is_bytes_nth [x] 0 Hbx)). clear Hbx.
  rewrite c23_icmp_checksum by exact Hb. rewrite drop_odd_even by (rewrite len_zero_field; exact He).
  assert (Hw : word_sum (zero_field 2 (b ++ [x])) = word_sum (zero_field 2 b) + x * 256).
  { rewrite !zero_field_eq by (autorewrite with len; lia). rewrite takeN_app1, dropN_app1 by lia.
    rewrite !word_sum_app by (autorewrite with len; lia || reflexivity). change (word_sum [x]) with (x * 256). lia. }
  unfold nonzero_checksum, inet_checksum. rewrite Hw. set (t := word_sum (zero_field 2 b)) in *. clearbody t.
  intros H. apply Ok_inj in H. destruct (N.eqb_spec t 0) as [->|Ht].
  - rewrite ones_sum_small in H by lia. lia.
  - pose proof (ones_sum_lt t). pose proof (ones_sum_lt (t + x * 256)).
    assert (H2 : ones_sum t = ones_sum (t + x * 256)) by lia. apply ones_sum_inj in H2. clear H He. lia.
Qed.
(** C23: the all-zero message, for example an echo reply with identifier and
    sequence number 0, gets 0 where RFC 792 asks for 65535. *)
Lemma c23_icmp_zero : forall E b, is_bytes b -> word_sum (zero_field 2 b) = 0 ->
  icmp_checksum_of E b = Ok 0 /\ inet_checksum (zero_field 2 b) = 65535.
Proof.
  intros E b Hb Hn. rewrite c23_icmp_checksum by exact Hb. unfold nonzero_checksum, inet_checksum.
  rewrite Hn. pose proof (word_sum_drop_odd (zero_field 2 b)) as H.
  replace (word_sum (drop_odd (zero_field 2 b))) with 0; [split; reflexivity|].
  destruct (dropN _ (zero_field 2 b)); lia.
Qed.
(** C23: is_valid. *)
Lemma c23_icmp_is_valid : forall E b, is_bytes b -> icmp_new b = Ok b -> len b mod 2 = 0 ->
  word_sum (zero_field 2 b) <> 0 ->
  icmp_is_valid E b = Ok (inet_checksum (zero_field 2 b) =? wire16 b 2) /\
  (icmp_is_valid E b = Ok true <-> receiver_accepts b /\ wire16 b 2 <> 65535).
Proof.
  intros E b Hb Hn He Hw. assert (Hl : 4 <= len b).
  { unfold icmp_new, icmp_header_min in Hn. destruct (N.ltb_spec (len b) 4); [discriminate|lia]. }
  assert (Hv : icmp_is_valid E b = Ok (inet_checksum (zero_field 2 b) =? wire16 b 2)).
  { unfold icmp_is_valid. rewrite c23_icmp_checksum_rfc by assumption. cbn [bind]. unfold icmp_checksum.
    rewrite get16 by lia. reflexivity. }
  split; [exact Hv|]. rewrite Hv, ok_true_eqb. unfold receiver_accepts, inet_checksum.
  rewrite (word_sum_stored 2 b) by (reflexivity || lia). apply stored_receiver; [lia|apply wire16_lt; exact Hb].
Qed.
Example c23_example : forall E,
  icmp_is_valid E [8; 0; 10; 59; 18; 52; 0; 1; 220; 143; 0; 0] = Ok false /\
  icmp_is_valid E [8; 0; 229; 202; 18; 52; 0; 1] = Ok true /\
  icmp_checksum_of E [0; 0; 0; 0; 0; 0; 0; 0] = Ok 0.
Proof. intros; repeat split. Qed.

(** ** C24 *)
Lemma nthN_alter b i v j : i < len b -> nthN (alter b i v) j = if j =? i then v else nthN b j.
Proof.
  intros H. rewrite alter_patch, nthN_patch by (cbn; lia). change (len [v]) with 1.
  destruct (N.eqb_spec j i) as [->|Hj].
  - destruct (N.leb_spec i i), (N.ltb_spec i (i + 1)); try lia. cbn [andb]. rewrite N.sub_diag. reflexivity.
  - destruct (N.leb_spec i j), (N.ltb_spec j (i + 1)); try lia; reflexivity.
Qed.
Lemma is_bytes_alter b i v : is_bytes b -> v < 256 -> is_bytes (alter b i v).
Proof. intros Hb Hv. rewrite alter_patch. apply is_bytes_patch; [exact Hb|repeat constructor; exact Hv]. Qed.
Lemma zero_field_alter off b i v : i < len b -> i < off \/ off + 2 <= i ->
  zero_field off (alter b i v) = alter (zero_field off b) i v.
Proof.
  intros Hi Ho. apply nthN_ext.
  - rewrite len_zero_field, !len_alter by (rewrite ?len_zero_field; exact Hi). rewrite len_zero_field. reflexivity.
  - intros j _. rewrite nthN_alter by (rewrite len_zero_field; exact Hi).
    destruct (N.ltb_spec (len b) (off + 2)).
    { rewrite !zero_field_short by (rewrite ?len_alter by exact Hi; lia). apply nthN_alter. exact Hi. }
    rewrite !zero_field_patch by (rewrite ?len_alter by exact Hi; lia).
    rewrite !nthN_patch by (rewrite ?len_alter by exact Hi; cbn; lia). change (len [0; 0]) with 2.
    rewrite nthN_alter by exact Hi.
    destruct (N.eqb_spec j i) as [->|Hj]; [|reflexivity].
    destruct (N.leb_spec off i), (N.ltb_spec i (off + 2)); try lia; reflexivity.
Qed.
Lemma zero_field_alter_in off b i v : off + 2 <= len b -> off <= i < off + 2 ->
  zero_field off (alter b i v) = zero_field off b.
Proof.
  intros Hi Ho. apply nthN_ext.
  - rewrite !len_zero_field, !len_alter by lia. reflexivity.
  - intros j _. rewrite !zero_field_patch by (rewrite ?len_alter by lia; lia).
    rewrite !nthN_patch by (rewrite ?len_alter by lia; cbn; lia). change (len [0; 0]) with 2.
    rewrite nthN_alter by lia.
    destruct (N.eqb_spec j i) as [->|Hj]; [|reflexivity].
    destruct (N.leb_spec off i), (N.ltb_spec i (off + 2)); try lia; reflexivity.
Qed.
(** A change of less than 65535 either way in the sum changes the checksum. *)
Lemma sum_change s s' d d' : s' + d = s + d' -> d <> d' -> d < 65535 -> d' < 65535 -> ones_sum s' <> ones_sum s.
Proof. intros H Hne Hd Hd' He. apply ones_sum_inj in He. lia. Qed.
Lemma checksum_detects off K b i v : off mod 2 = 0 -> off + 2 <= len b -> is_bytes b -> v < 256 ->
  i < len b -> v <> nthN b i ->
  65535 - ones_sum (K + word_sum (zero_field off b)) = wire16 b off ->
  65535 - ones_sum (K + word_sum (zero_field off (alter b i v))) <> wire16 (alter b i v) off.
Proof.
  intros Ho Hl Hb Hv Hi Hne Hok.
  pose proof (ones_sum_lt (K + word_sum (zero_field off b))).
  pose proof (ones_sum_lt (K + word_sum (zero_field off (alter b i v)))).
  pose proof (is_bytes_nth b i Hb) as Hbi.
  destruct (N.ltb_spec i off) as [Hlt|Hge]; [|destruct (N.ltb_spec i (off + 2)) as [Hlt2|Hge2]].
  2:{ rewrite zero_field_alter_in by lia. rewrite Hok. unfold wire16. rewrite !nthN_alter by exact Hi.
      destruct (N.eqb_spec off i) as [->|H1].
      - destruct (N.eqb_spec (i + 1) i); lia.
      - destruct (N.eqb_spec (off + 1) i) as [<-|H2]; lia. }
  all: assert (Hw : wire16 (alter b i v) off = wire16 b off) by
        (unfold wire16; rewrite !nthN_alter by exact Hi;
         destruct (N.eqb_spec off i), (N.eqb_spec (off + 1) i); lia);
       rewrite Hw, <- Hok; intros He;
       assert (He2 : ones_sum (K + word_sum (zero_field off (alter b i v))) = ones_sum (K + word_sum (zero_field off b))) by lia;
       revert He2; rewrite zero_field_alter by lia;
       pose proof (word_sum_alter (zero_field off b) i v ltac:(rewrite len_zero_field; exact Hi)) as Ha;
       rewrite nthN_zero_field in Ha by lia;
       set (m := if i mod 2 =? 0 then 256 else 1) in *;
       assert (Hm : 0 < m <= 256) by (unfold m; destruct (_ =? 0); lia); clearbody m;
       apply (sum_change _ _ (nthN b i * m) (v * m)); nia.
Qed.
Lemma detect_bool a b : a <> b -> Ok (a =? b) = Ok false.
Proof. intros H. f_equal. apply N.eqb_neq. exact H. Qed.
Lemma takeN_alter h b i v : i < h -> h <= len b -> takeN h (alter b i v) = alter (takeN h b) i v.
Proof. intros Hi Hl. rewrite !alter_patch. apply takeN_patch; cbn; lia. Qed.
(** C24: an IPv4 header.  Any header byte may change; of byte 0 the low half (the
    header length) stays. *)
Lemma c24_v4 : forall E b i v, is_bytes b -> v4_no_payload b = Ok b ->
  v4_is_valid E b = Ok true ->
  i < nthN b 0 mod 16 * 4 -> u8 v -> v <> nthN b i ->
  (i = 0 -> v mod 16 = nthN b 0 mod 16) ->
  v4_is_valid E (alter b i v) = Ok false.
Proof.
  intros E b i v Hb Hn Hval Hlt Hv Hne H0. rewrite c20_v4_is_valid in Hval by (assumption || lia).
  apply v4_no_payload_iff in Hn. destruct Hn as (_ & Hl & _ & Hh).
  rewrite ok_true_eqb in Hval. unfold inet_checksum in Hval.
  assert (Hnib : nthN (alter b i v) 0 mod 16 = nthN b 0 mod 16).
  { rewrite nthN_alter by lia. destruct (N.eqb_spec 0 i) as [<-|]; [apply H0; reflexivity|reflexivity]. }
  rewrite v4_is_valid_eq; [|apply is_bytes_alter; assumption|rewrite len_alter; lia|rewrite Hnib, len_alter; lia|rewrite Hnib; lia].
  rewrite Hnib. apply detect_bool. unfold inet_checksum. rewrite takeN_alter by lia.
  pose proof (N.mod_lt (nthN b 0) 16 ltac:(lia)) as Hr.
  assert (Hcase : 3 <= nthN b 0 mod 16 \/ nthN b 0 mod 16 * 4 <= 8) by lia.
  set (h := nthN b 0 mod 16 * 4) in *. destruct Hcase as [Hcase|Hcase].
  2: { rewrite zero_field_short in * by (rewrite ?len_alter; autorewrite with len; lia).
       assert (Hw : wire16 (alter b i v) 10 = wire16 b 10).
       { unfold wire16. rewrite !nthN_alter by lia. destruct (N.eqb_spec 10 i), (N.eqb_spec (10 + 1) i); lia. }
       rewrite Hw, <- Hval. intros He.
       pose proof (ones_sum_lt (word_sum (takeN h b))). pose proof (ones_sum_lt (word_sum (alter (takeN h b) i v))).
       assert (He2 : ones_sum (word_sum (alter (takeN h b) i v)) = ones_sum (word_sum (takeN h b))) by lia. revert He2.
       pose proof (word_sum_alter (takeN h b) i v ltac:(autorewrite with len; lia)) as Ha.
       rewrite nthN_takeN in Ha by lia. pose proof (is_bytes_nth b i Hb) as Hbi.
       set (m := if i mod 2 =? 0 then 256 else 1) in *.
       assert (Hm : 0 < m <= 256) by (unfold m; destruct (_ =? 0); lia); clearbody m.
       unfold u8 in Hv. apply (sum_change _ _ (nthN b i * m) (v * m)); nia. }
  assert (Hw : wire16 (takeN h b) 10 = wire16 b 10) by (unfold wire16; rewrite !nthN_takeN by lia; reflexivity).
  assert (Hw' : wire16 (alter b i v) 10 = wire16 (alter (takeN h b) i v) 10).
  { rewrite <- takeN_alter by lia. unfold wire16; rewrite !nthN_takeN by lia; reflexivity. }
  rewrite Hw'. rewrite <- (N.add_0_l (word_sum _)).
  apply checksum_detects; try assumption; [reflexivity|autorewrite with len; lia|apply is_bytes_takeN; exact Hb|autorewrite with len; lia|rewrite nthN_takeN by lia; exact Hne|].
  rewrite N.add_0_l, Hw. exact Hval.
Qed.
(** C24: any byte of a UDP datagram. *)
Lemma c24_udp : forall E p b i v, is_bytes p -> is_bytes b -> 20 <= len p -> 8 <= len b ->
  len b mod 2 = 0 \/ cursor_eof E = EofKeep ->
  udp_is_valid E (V4 p) b = Ok true -> i < len b -> u8 v -> v <> nthN b i ->
  udp_is_valid E (V4 p) (alter b i v) = Ok false.
Proof.
  intros E p b i v Hp Hb Hl Hlb Hc Hval Hi Hv Hne. rewrite c21_udp_is_valid in Hval by assumption.
  rewrite ok_true_eqb in Hval. unfold inet_checksum in Hval. rewrite word_sum_pseudo, len_zero_field in Hval.
  rewrite c21_udp_is_valid; [|assumption|apply is_bytes_alter; assumption|assumption|rewrite len_alter; lia|rewrite len_alter by lia; exact Hc].
  apply detect_bool. unfold inet_checksum. rewrite word_sum_pseudo, len_zero_field, len_alter by exact Hi.
  apply checksum_detects; try assumption; (reflexivity || lia).
Qed.
(** C24: any byte of a TCP segment. *)
Lemma c24_tcp : forall E p b i v, is_bytes p -> is_bytes b -> 20 <= len p -> 18 <= len b <= 131065 ->
  len b mod 2 = 0 \/ cursor_eof E = EofKeep ->
  tcp_is_valid E (V4 p) b = Ok true -> i < len b -> u8 v -> v <> nthN b i ->
  tcp_is_valid E (V4 p) (alter b i v) = Ok false.
Proof.
  intros E p b i v Hp Hb Hl Hlb Hc Hval Hi Hv Hne. rewrite c22_tcp_is_valid in Hval by assumption.
  rewrite ok_true_eqb in Hval. unfold inet_checksum in Hval. rewrite word_sum_pseudo, len_zero_field in Hval.
  rewrite c22_tcp_is_valid; [|assumption|apply is_bytes_alter; assumption|assumption|rewrite len_alter; lia|rewrite len_alter by lia; exact Hc].
  apply detect_bool. unfold inet_checksum. rewrite word_sum_pseudo, len_zero_field, len_alter by exact Hi.
  apply checksum_detects; try assumption; (reflexivity || lia).
Qed.
(** The parent's addresses. *)
Lemma pseudo_alter p i v proto n : is_bytes p -> 20 <= len p -> 12 <= i < 20 -> v < 256 -> v <> nthN p i ->
  exists d d', d <> d' /\ d < 65535 /\ d' < 65535 /\
  word_sum (pseudo (wire_addr (alter p i v) 12) (wire_addr (alter p i v) 16) proto n) + d =
  word_sum (pseudo (wire_addr p 12) (wire_addr p 16) proto n) + d'.
Proof.
  intros Hp Hl Hi Hv Hne. pose proof (is_bytes_nth p i Hp) as Hpi.
  set (m := if i mod 2 =? 0 then 256 else 1).
  exists (nthN p i * m), (v * m).
  assert (Hm : 0 < m <= 256) by (unfold m; destruct (_ =? 0); lia).
  split; [nia|]. split; [nia|]. split; [nia|].
  rewrite !pseudo_sum. unfold wire_addr. cbn [ip_a ip_b ip_c ip_d]. rewrite !nthN_alter by lia.
  assert (Hcase : i = 12 \/ i = 13 \/ i = 14 \/ i = 15 \/ i = 16 \/ i = 17 \/ i = 18 \/ i = 19) by lia.
  clear Hi. unfold m. clear m Hm.
  destruct Hcase as [->|[->|[->|[->|[->|[->|[->| ->]]]]]]];
  repeat match goal with |- context [if ?c then _ else _] =>
    let r := eval vm_compute in c in change c with r; cbv iota end;
  repeat match goal with |- context [?a + ?b] =>
    lazymatch a with 12 => idtac | 16 => idtac end;
    let r := eval vm_compute in (a + b) in change (a + b) with r end; lia.
Qed.
(** C24: any byte of the addresses of the parent of a UDP datagram or TCP segment. *)
Lemma c24_udp_parent : forall E p b i v, is_bytes p -> is_bytes b -> 20 <= len p -> 8 <= len b ->
  len b mod 2 = 0 \/ cursor_eof E = EofKeep ->
  udp_is_valid E (V4 p) b = Ok true -> 12 <= i < 20 -> u8 v -> v <> nthN p i ->
  udp_is_valid E (V4 (alter p i v)) b = Ok false.
Proof.
  intros E p b i v Hp Hb Hl Hlb Hc Hval Hi Hv Hne. rewrite c21_udp_is_valid in Hval by assumption.
  rewrite ok_true_eqb in Hval.
  rewrite c21_udp_is_valid; [|apply is_bytes_alter; assumption|assumption|rewrite len_alter; lia|assumption|assumption].
  apply detect_bool. rewrite <- Hval. unfold inet_checksum. rewrite !word_sum_pseudo, len_zero_field.
  destruct (pseudo_alter p i v 17 (len b) Hp Hl Hi Hv Hne) as (d & d' & H1 & H2 & H3 & H4).
  intros He. set (x := word_sum (pseudo (wire_addr (alter p i v) 12) _ _ _)) in *. set (y := word_sum (pseudo (wire_addr p 12) _ _ _)) in *.
  set (z := word_sum (zero_field 6 b)) in *.
  pose proof (ones_sum_lt (x + z)). pose proof (ones_sum_lt (y + z)).
  assert (He2 : ones_sum (x + z) = ones_sum (y + z)) by lia. revert He2.
  apply (sum_change _ _ d d'); lia.
Qed.
Lemma c24_tcp_parent : forall E p b i v, is_bytes p -> is_bytes b -> 20 <= len p -> 18 <= len b <= 131065 ->
  len b mod 2 = 0 \/ cursor_eof E = EofKeep ->
  tcp_is_valid E (V4 p) b = Ok true -> 12 <= i < 20 -> u8 v -> v <> nthN p i ->
  tcp_is_valid E (V4 (alter p i v)) b = Ok false.
Proof.
  intros E p b i v Hp Hb Hl Hlb Hc Hval Hi Hv Hne. rewrite c22_tcp_is_valid in Hval by assumption.
  rewrite ok_true_eqb in Hval.
  rewrite c22_tcp_is_valid; [|apply is_bytes_alter; assumption|assumption|rewrite len_alter; lia|assumption|assumption].
  apply detect_bool. rewrite <- Hval. unfold inet_checksum. rewrite !word_sum_pseudo, len_zero_field.
  destruct (pseudo_alter p i v 6 (len b) Hp Hl Hi Hv Hne) as (d & d' & H1 & H2 & H3 & H4).
  intros He. set (x := word_sum (pseudo (wire_addr (alter p i v) 12) _ _ _)) in *. set (y := word_sum (pseudo (wire_addr p 12) _ _ _)) in *.
  set (z := word_sum (zero_field 16 b)) in *.
  pose proof (ones_sum_lt (x + z)). pose proof (ones_sum_lt (y + z)).
  assert (He2 : ones_sum (x + z) = ones_sum (y + z)) by lia. revert He2.
  apply (sum_change _ _ d d'); lia.
Qed.
Lemma nonzero_init b : nonzero_checksum b = 65535 - ones_sum (65535 + word_sum b).
Proof. unfold nonzero_checksum, inet_checksum. rewrite ones_sum_65535. destruct (_ =? 0); reflexivity. Qed.
(** C24: any byte of an ICMP message of even length. *)
Lemma c24_icmp : forall E b i v, is_bytes b -> icmp_new b = Ok b -> len b mod 2 = 0 ->
  icmp_is_valid E b = Ok true -> i < len b -> u8 v -> v <> nthN b i ->
  icmp_is_valid E (alter b i v) = Ok false.
Proof.
  intros E b i v Hb Hn He Hval Hi Hv Hne. assert (Hl : 4 <= len b).
  { unfold icmp_new, icmp_header_min in Hn. destruct (N.ltb_spec (len b) 4); [discriminate|lia]. }
  unfold icmp_is_valid in *. rewrite c23_icmp_checksum in * by (try apply is_bytes_alter; assumption).
  cbn [bind] in *. unfold icmp_checksum in *. rewrite get16 in * by (rewrite ?len_alter; lia). cbn [bind] in *.
  rewrite drop_odd_even in * by (rewrite len_zero_field, ?len_alter; assumption).
  rewrite ok_true_eqb in Hval. rewrite nonzero_init in *. apply detect_bool.
  apply checksum_detects; try assumption; (reflexivity || lia).
Qed.
(** C24: of an odd ICMP message, the last byte is not protected at all. *)
Lemma c24_icmp_odd_refuted : forall E b x y, is_bytes b -> u8 x -> u8 y -> icmp_new b = Ok b -> len b mod 2 = 0 ->
  icmp_is_valid E (b ++ [x]) = icmp_is_valid E (b ++ [y]).
Proof.
  intros E b x y Hb Hx Hy Hn He. assert (Hl : 4 <= len b).
  { unfold icmp_new, icmp_header_min in Hn. destruct (N.ltb_spec (len b) 4); [discriminate|lia]. }
  assert (Hbx : forall z, u8 z -> is_bytes (b ++ [z])) by (intros z Hz; apply is_bytes_app; split; [exact Hb|constructor; [assumption|constructor]]).
  unfold icmp_is_valid. rewrite (c23_icmp_odd_ignored E b x), (c23_icmp_odd_ignored E b y) by auto.
  unfold icmp_checksum. rewrite !get16 by (autorewrite with len; lia). unfold wire16.
  rewrite !nthN_app1 by lia. reflexivity.
Qed.
(** C24: nor is that of an odd UDP datagram under a std whose Cursor moves to the
    end on a failed read. *)
Lemma c24_udp_odd_refuted : forall E p b x y, cursor_eof E = EofSeek -> is_bytes p -> 20 <= len p ->
  is_bytes b -> u8 x -> u8 y -> 8 <= len b -> len b mod 2 = 0 ->
  udp_is_valid E (V4 p) (b ++ [x]) = udp_is_valid E (V4 p) (b ++ [y]).
Proof.
  intros E p b x y HE Hp Hl Hb Hx Hy Hlb He.
  assert (Hbx : forall z, u8 z -> is_bytes (b ++ [z])) by (intros z Hz; apply is_bytes_app; split; [exact Hb|constructor; [assumption|constructor]]).
  assert (Hlen : forall z, len (b ++ [z]) = len b + 1) by (intros z; autorewrite with len; lia).
  assert (Hw : forall z, wire16 (b ++ [z]) 6 = wire16 b 6) by (intros z; unfold wire16; rewrite !nthN_app1 by lia; reflexivity).
  assert (Ha : forall z, alter (zero_field 6 (b ++ [z])) (len b) 0 = zero_field 6 b ++ [0]).
  { intros z. assert (Hz : zero_field 6 (b ++ [z]) = zero_field 6 b ++ [z]).
    { rewrite !zero_field_eq by (rewrite ?Hlen; lia). rewrite takeN_app1, dropN_app1 by lia. rewrite !app_assoc. reflexivity. }
    rewrite Hz. rewrite alter_patch, patch_app2 by (rewrite len_zero_field; lia). rewrite len_zero_field, N.sub_diag. reflexivity. }
  assert (Hv : forall z, u8 z -> udp_is_valid E (V4 p) (b ++ [z]) =
     Ok (inet_checksum (with_pseudo_header (wire_addr p 12) (wire_addr p 16) 17 (zero_field 6 b ++ [0])) =? wire16 b 6)).
  { intros z Hz. unfold udp_is_valid. rewrite c21_udp_checksum_odd; [|assumption|apply Hbx; exact Hz|assumption|rewrite Hlen; lia|exact HE].
    rewrite Hlen. replace (len b + 1 - 1) with (len b) by lia. rewrite Ha. cbn [bind]. unfold udp_checksum.
    rewrite get16 by (rewrite Hlen; lia). cbn [bind]. rewrite Hw. reflexivity. }
  rewrite !Hv by assumption. reflexivity.
Qed.
Example c24_example : forall E,
  let p := [69; 0; 0; 20; 1; 2; 64; 0; 64; 17; 37; 213; 10; 0; 0; 1; 10; 0; 0; 2] in
  let b := [0; 53; 0; 99; 0; 10; 130; 214; 104; 105] in
  v4_no_payload p = Ok p /\ v4_is_valid E p = Ok true /\ udp_is_valid E (V4 p) b = Ok true /\
  v4_is_valid E (alter p 8 63) = Ok false /\ udp_is_valid E (V4 p) (alter b 9 106) = Ok false /\
  udp_is_valid E (V4 (alter p 12 11)) b = Ok false.
Proof. intros [[] [] []]; repeat split. Qed.
