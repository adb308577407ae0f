(** * FieldProofs: setters (C10-C19). *)
From Verif Require Import Base Enums Ether Ipv4 Ip Udp Tcp Icmp Spec Lemmas ParseProofs SliceProofs AccessProofs.
From Coq Require Import ZifyBool ZifyNat ZifyN.
Ltac Zify.zify_post_hook ::= Z.div_mod_to_equations.

(** ** Patches and accessors *)
Lemma nthN_patch_in off bs b i : off + len bs <= len b -> off <= i < off + len bs ->
  nthN (patch off bs b) i = nthN bs (i - off).
Proof.
  intros H Hi. rewrite nthN_patch by exact H.
  destruct (N.leb_spec off i), (N.ltb_spec i (off + len bs)); try lia. reflexivity.
Qed.
Lemma nthN_patch_out off bs b i : off + len bs <= len b -> i < off \/ off + len bs <= i ->
  nthN (patch off bs b) i = nthN b i.
Proof. intros H Hi. apply (patch_only_changes off bs b H). exact Hi. Qed.
Lemma wire16_patch b off v : off + 2 <= len b -> wire16 (patch off (enc16 v) b) off = v.
Proof.
  intros H. unfold wire16.
  rewrite !nthN_patch_in by (autorewrite with len; lia).
  replace (off - off) with 0 by lia. replace (off + 1 - off) with 1 by lia. exact (enc16_dec v).
Qed.
Lemma wire32_patch b off v : off + 4 <= len b -> wire32 (patch off (enc32 v) b) off = v.
Proof.
  intros H. unfold wire32.
  rewrite !nthN_patch_in by (autorewrite with len; lia).
  replace (off - off) with 0 by lia. replace (off + 1 - off) with 1 by lia.
  replace (off + 2 - off) with 2 by lia. replace (off + 3 - off) with 3 by lia. exact (enc32_dec v).
Qed.
Lemma wire16_patch_out b off bs i : off + len bs <= len b -> i + 2 <= off \/ off + len bs <= i ->
  wire16 (patch off bs b) i = wire16 b i.
Proof. intros H Hi. unfold wire16. rewrite !nthN_patch_out by lia. reflexivity. Qed.
Lemma nthN_patch1 b off v : off < len b -> nthN (patch off [v] b) off = v.
Proof.
  intros H. rewrite nthN_patch_in by (autorewrite with len; lia). rewrite N.sub_diag. reflexivity.
Qed.
Lemma wire_addr_patch b off v : off + 4 <= len b -> wire_addr (patch off (octets v) b) off = v.
Proof.
  intros H. unfold wire_addr. rewrite !nthN_patch_in by (autorewrite with len; lia).
  replace (off - off) with 0 by lia. replace (off + 1 - off) with 1 by lia.
  replace (off + 2 - off) with 2 by lia. replace (off + 3 - off) with 3 by lia. destruct v; reflexivity.
Qed.
Lemma wire_mac_patch b off v : off + 6 <= len b -> wire_mac (patch off (hw_octets v) b) off = v.
Proof.
  intros H. unfold wire_mac. rewrite !nthN_patch_in by (autorewrite with len; lia).
  replace (off - off) with 0 by lia. replace (off + 1 - off) with 1 by lia.
  replace (off + 2 - off) with 2 by lia. replace (off + 3 - off) with 3 by lia.
  replace (off + 4 - off) with 4 by lia. replace (off + 5 - off) with 5 by lia. destruct v; reflexivity.
Qed.
(** How [sets] is established. *)
Lemma sets_patch {A} (f : mut) (get : bytes -> res A) v off bs hi b :
  hi = off + len bs -> hi <= len b -> f b = (patch off bs b, Ok tt) -> get (patch off bs b) = Ok v ->
  sets f get v off hi b.
Proof.
  intros -> Hl Hf Hg. exists (patch off bs b). split; [exact Hf|]. split; [exact Hg|].
  apply patch_only_changes. exact Hl.
Qed.

(** ** C10: Ethernet *)
Lemma ether_new_len b : ether_new b = Ok b -> 14 <= len b.
Proof.
  intros Hn. destruct (N.ltb_spec (len b) 14); [|lia].
  destruct (c01_ether_new b) as [_ H1]. rewrite H1 in Hn by lia. discriminate.
Qed.
Lemma c10_ether_set_destination : forall b v, ether_new b = Ok b ->
  sets (ether_set_destination v) ether_destination v 0 6 b.
Proof.
  intros b v Hn. apply ether_new_len in Hn. apply (sets_patch _ _ _ 0 (hw_octets v)); [reflexivity|lia| |].
  - apply copy_range_ok; [reflexivity|lia].
  - unfold ether_destination. rewrite (hw_slice _ 0) by (rewrite len_patch; autorewrite with len; lia).
    f_equal. apply wire_mac_patch. lia.
Qed.
Lemma c10_ether_set_source : forall b v, ether_new b = Ok b ->
  sets (ether_set_source v) ether_source v 6 12 b.
Proof.
  intros b v Hn. apply ether_new_len in Hn. apply (sets_patch _ _ _ 6 (hw_octets v)); [reflexivity|lia| |].
  - apply copy_range_ok; [reflexivity|lia].
  - unfold ether_source. rewrite (hw_slice _ 6) by (rewrite len_patch; autorewrite with len; lia).
    f_equal. apply wire_mac_patch. lia.
Qed.
Lemma c10_ether_set_protocol : forall b v, ether_new b = Ok b ->
  sets (ether_set_protocol v) ether_get_protocol (ether_protocol_from (ether_protocol_into v)) 12 14 b.
Proof.
  intros b v Hn. apply ether_new_len in Hn.
  apply (sets_patch _ _ _ 12 (enc16 (ether_protocol_into v))); [reflexivity|lia| |].
  - apply write_u16_ok. lia.
  - unfold ether_get_protocol. rewrite get16 by (rewrite len_patch; autorewrite with len; lia). cbn [bind].
    rewrite wire16_patch by lia. reflexivity.
Qed.
Example c10_example : let b := repeat 7 16%nat in
  ether_new b = Ok b /\
  ether_set_source (Hw 1 2 3 4 5 6) b = ([7; 7; 7; 7; 7; 7; 1; 2; 3; 4; 5; 6; 7; 7; 7; 7], Ok tt).
Proof. split; reflexivity. Qed.

(** ** C11: UDP *)
Lemma udp_no_payload_len b : udp_no_payload b = Ok b -> 8 <= len b.
Proof.
  intros Hn. destruct (N.ltb_spec (len b) 8); [|lia].
  destruct (c03_udp_no_payload b) as [_ H1]. rewrite H1 in Hn by lia. discriminate.
Qed.
Lemma udp_header_write b off v : 8 <= len b -> off + 2 <= 8 ->
  header_mut udp_split (write_u16 off v) b = (patch off (enc16 v) b, Ok tt).
Proof.
  intros H Ho. eapply (header_mut_eq udp_split _ off (enc16 v) 8); [apply udp_split_ok; exact H|exact H|autorewrite with len; lia|].
  intros h Hh. apply write_u16_ok. autorewrite with len in Hh. lia.
Qed.
Lemma c11_udp_set_source : forall b v, udp_no_payload b = Ok b -> sets (udp_set_source v) udp_source v 0 2 b.
Proof.
  intros b v Hn. apply udp_no_payload_len in Hn. apply (sets_patch _ _ _ 0 (enc16 v)); [reflexivity|lia| |].
  - apply udp_header_write; lia.
  - unfold udp_source. rewrite get16 by (rewrite len_patch; autorewrite with len; lia). rewrite wire16_patch by lia. reflexivity.
Qed.
Lemma c11_udp_set_destination : forall b v, udp_no_payload b = Ok b ->
  sets (udp_set_destination v) udp_destination v 2 4 b.
Proof.
  intros b v Hn. apply udp_no_payload_len in Hn. apply (sets_patch _ _ _ 2 (enc16 v)); [reflexivity|lia| |].
  - apply udp_header_write; lia.
  - unfold udp_destination. rewrite get16 by (rewrite len_patch; autorewrite with len; lia). rewrite wire16_patch by lia. reflexivity.
Qed.
Lemma c11_udp_set_checksum : forall b v, udp_no_payload b = Ok b ->
  sets (udp_set_checksum v) udp_checksum v 6 8 b.
Proof.
  intros b v Hn. apply udp_no_payload_len in Hn. apply (sets_patch _ _ _ 6 (enc16 v)); [reflexivity|lia| |].
  - apply udp_header_write; lia.
  - unfold udp_checksum. rewrite get16 by (rewrite len_patch; autorewrite with len; lia). rewrite wire16_patch by lia. reflexivity.
Qed.
Example c11_example : let b := [0; 1; 0; 2; 0; 10; 0; 0; 7; 8; 9] in
  udp_no_payload b = Ok b /\ udp_set_source 4660 b = ([18; 52; 0; 2; 0; 10; 0; 0; 7; 8; 9], Ok tt).
Proof. split; reflexivity. Qed.

(** ** C12: TCP *)
Lemma tcp_header_write b f off bs : tcp_new b = Ok b ->
  (forall h, off + len bs <= len h -> f h = (patch off bs h, Ok tt)) ->
  off + len bs <= nthN b 12 / 16 * 4 ->
  header_mut tcp_split f b = (patch off bs b, Ok tt).
Proof.
  intros Hn Hf Ho. apply tcp_new_iff in Hn. destruct Hn as (_ & H & Hh).
  eapply (header_mut_eq tcp_split f off bs); [apply tcp_split_ok; lia|lia|exact Ho|exact Hf].
Qed.
Lemma tcp_header_write16 b off v : tcp_new b = Ok b -> off + 2 <= nthN b 12 / 16 * 4 ->
  header_mut tcp_split (write_u16 off v) b = (patch off (enc16 v) b, Ok tt).
Proof.
  intros Hn Ho. apply tcp_header_write; [exact Hn| |autorewrite with len; lia].
  intros h Hh. apply write_u16_ok. autorewrite with len in Hh. lia.
Qed.
Lemma tcp_header_write32 b off v : tcp_new b = Ok b -> off + 4 <= nthN b 12 / 16 * 4 ->
  header_mut tcp_split (write_u32 off v) b = (patch off (enc32 v) b, Ok tt).
Proof.
  intros Hn Ho. apply tcp_header_write; [exact Hn| |autorewrite with len; lia].
  intros h Hh. apply write_u32_ok. autorewrite with len in Hh. lia.
Qed.
(** C12: the TCP setters other than set_flags on a segment with a data offset
    of at least 5. *)
Lemma c12_tcp_setters : forall b, tcp_new b = Ok b -> 5 <= nthN b 12 / 16 -> forall v,
  sets (tcp_set_source v) tcp_source v 0 2 b /\
  sets (tcp_set_destination v) tcp_destination v 2 4 b /\
  sets (tcp_set_sequence v) tcp_sequence v 4 8 b /\
  sets (tcp_set_acknowledgment v) tcp_acknowledgment v 8 12 b /\
  sets (tcp_set_window v) tcp_window v 14 16 b /\
  sets (tcp_set_checksum v) tcp_checksum v 16 18 b /\
  sets (tcp_set_pointer v) tcp_pointer v 18 20 b.
Proof.
  intros b Hn Ho v. assert (Hl : 20 <= len b) by (apply tcp_new_iff in Hn; apply Hn).
  Local Ltac t16 o v := eapply (sets_patch _ _ _ o (enc16 v)); [reflexivity|lia|apply tcp_header_write16; [assumption|lia]|];
    rewrite ?get16 by (rewrite len_patch; autorewrite with len; lia); rewrite wire16_patch by lia; reflexivity.
  Local Ltac t32 o v := eapply (sets_patch _ _ _ o (enc32 v)); [reflexivity|lia|apply tcp_header_write32; [assumption|lia]|];
    rewrite ?get32 by (rewrite len_patch; autorewrite with len; lia); rewrite wire32_patch by lia; reflexivity.
  unfold tcp_source, tcp_destination, tcp_sequence, tcp_acknowledgment, tcp_window, tcp_checksum, tcp_pointer.
  split; [t16 0 v|]. split; [t16 2 v|]. split; [t32 4 v|]. split; [t32 8 v|].
  split; [t16 14 v|]. split; [t16 16 v|]. t16 18 v.
Qed.
Lemma header_mut_cursor split h rest b off bs :
  split b = Ok (takeN h b, rest) -> h <= len b ->
  (h = off -> 0 < len bs -> header_mut split (cursor_write off bs) b = (b, Err Io)) /\
  (h < off -> header_mut split (cursor_write off bs) b = (b, Panic)).
Proof.
  intros Hs Hh. unfold header_mut. rewrite Hs. split.
  - intros <- Hb. rewrite cursor_write_err by (autorewrite with len; lia).
    autorewrite with len. replace (N.min h (len b)) with h by lia. rewrite N.sub_diag, takeN_0, app_nil_r.
    rewrite takeN_takeN, N.min_id. rewrite takeN_dropN. reflexivity.
  - intros Hlt. rewrite cursor_write_panic by (autorewrite with len; lia).
    autorewrite with len. replace (N.min h (len b)) with h by lia. rewrite takeN_dropN. reflexivity.
Qed.
(** C12: with a smaller data offset a setter succeeds exactly when its field
    [lo, hi) lies inside the header, otherwise it fails without effect: with an
    I/O error if the header ends where the field starts, and a panic if it ends
    before. *)
Lemma c12_tcp_short_header : forall b, tcp_new b = Ok b -> forall v,
  let h := nthN b 12 / 16 * 4 in
  Forall (fun '(f, lo, hi) =>
            (hi <= h -> snd (f b) = Ok tt) /\
            (h = lo -> f b = (b, Err Io)) /\
            (h < lo -> f b = (b, Panic)) /\
            (hi <= h \/ h = lo \/ h < lo))
    [(tcp_set_source v, 0, 2); (tcp_set_destination v, 2, 4); (tcp_set_sequence v, 4, 8);
     (tcp_set_acknowledgment v, 8, 12); (tcp_set_window v, 14, 16); (tcp_set_checksum v, 16, 18);
     (tcp_set_pointer v, 18, 20)].
Proof.
  intros b Hn v h. pose proof Hn as Hn'. apply tcp_new_iff in Hn'. destruct Hn' as (_ & Hl & Hh). fold h in Hh.
  assert (Hs : tcp_split b = Ok (takeN h b, dropN h b)) by (apply tcp_split_ok; lia).
  assert (Hm : h mod 4 = 0) by (unfold h; lia).
  Local Ltac t16' Hn Hs Hh o v := split;
    [intros ?H; cbn [snd]; rewrite tcp_header_write16 by (assumption || lia); reflexivity|];
    split; [intros ?H; apply (header_mut_cursor _ _ _ _ o (be16 v) Hs Hh); [assumption|reflexivity]|];
    split; [intros ?H; apply (header_mut_cursor _ _ _ _ o (be16 v) Hs Hh); assumption|lia].
  Local Ltac t32' Hn Hs Hh o v := split;
    [intros ?H; cbn [snd]; rewrite tcp_header_write32 by (assumption || lia); reflexivity|];
    split; [intros ?H; apply (header_mut_cursor _ _ _ _ o (be32 v) Hs Hh); [assumption|reflexivity]|];
    split; [intros ?H; apply (header_mut_cursor _ _ _ _ o (be32 v) Hs Hh); assumption|lia].
  unfold tcp_set_source, tcp_set_destination, tcp_set_sequence, tcp_set_acknowledgment, tcp_set_window, tcp_set_checksum, tcp_set_pointer.
  constructor; [t16' Hn Hs Hh 0 v|]. constructor; [t16' Hn Hs Hh 2 v|].
  constructor; [t32' Hn Hs Hh 4 v|]. constructor; [t32' Hn Hs Hh 8 v|].
  constructor; [t16' Hn Hs Hh 14 v|]. constructor; [t16' Hn Hs Hh 16 v|].
  constructor; [t16' Hn Hs Hh 18 v|]. constructor.
Qed.
Example c12_example : let b := repeat 0 12%nat ++ [80] ++ repeat 0 9%nat in
  tcp_new b = Ok b /\ nthN b 12 / 16 = 5 /\
  tcp_set_sequence 16909060 b = ([0; 0; 0; 0; 1; 2; 3; 4; 0; 0; 0; 0; 80; 0; 0; 0; 0; 0; 0; 0; 0; 0], Ok tt) /\
  tcp_new (zeros 20) = Ok (zeros 20) /\ tcp_set_source 1 (zeros 20) = (zeros 20, Err Io) /\
  tcp_set_window 1 (zeros 20) = (zeros 20, Panic).
Proof. repeat split. Qed.

(** ** C13: IPv4 *)
Lemma v4_header_mut b f off bs : v4_no_payload b = Ok b ->
  (forall h, off + len bs <= len h -> f h = (patch off bs h, Ok tt)) ->
  off + len bs <= nthN b 0 mod 16 * 4 ->
  header_mut v4_split f b = (patch off bs b, Ok tt).
Proof.
  intros Hn Hf Ho. apply v4_no_payload_iff in Hn. destruct Hn as (_ & H & _ & Hh).
  eapply (header_mut_eq v4_split f off bs); [apply v4_split_ok; lia|lia|exact Ho|exact Hf].
Qed.
Lemma dscp_byte x v : x < 256 -> v < 64 ->
  N.lor (N.land x 3) (shl_u8 v 2) = v * 4 + x mod 4.
Proof.
  intros Hx Hv. apply N.eqb_eq.
  apply (sweep2 (fun x v => N.lor (N.land x 3) (shl_u8 v 2) =? v * 4 + x mod 4) 256 64);
    [vm_compute; reflexivity|exact Hx|exact Hv].
Qed.
Lemma ecn_byte x v : x < 256 -> v < 4 ->
  N.lor (N.land x 63) v = x / 4 mod 16 * 4 + N.lor (x mod 4) v.
Proof.
  intros Hx Hv. apply N.eqb_eq.
  apply (sweep2 (fun x v => N.lor (N.land x 63) v =? x / 4 mod 16 * 4 + N.lor (x mod 4) v) 256 4);
    [vm_compute; reflexivity|exact Hx|exact Hv].
Qed.
Lemma lor_lt4 x v : x < 4 -> v < 4 -> N.lor x v < 4.
Proof.
  intros Hx Hv. apply N.ltb_lt. apply (sweep2 (fun x v => N.lor x v <? 4) 4 4); [vm_compute; reflexivity|exact Hx|exact Hv].
Qed.
Lemma v4_set_dscp_ok b v : is_bytes b -> 2 <= len b -> v < 64 ->
  v4_set_dscp v b = (patch 1 [v * 4 + nthN b 1 mod 4] b, Ok tt).
Proof.
  intros Hb Hl Hv. unfold v4_set_dscp. destruct (N.ltb_spec 63 v); [lia|]. unfold mlet.
  rewrite index_ok by lia. rewrite dscp_byte by (try apply is_bytes_nth; assumption). apply set_index_ok. lia.
Qed.
Lemma v4_set_ecn_ok b v : is_bytes b -> 2 <= len b -> v < 4 ->
  v4_set_ecn v b = (patch 1 [nthN b 1 / 4 mod 16 * 4 + N.lor (nthN b 1 mod 4) v] b, Ok tt).
Proof.
  intros Hb Hl Hv. unfold v4_set_ecn. destruct (N.ltb_spec 3 v); [lia|]. unfold mlet.
  rewrite index_ok by lia. rewrite ecn_byte by (try apply is_bytes_nth; assumption). apply set_index_ok. lia.
Qed.
(** C13: set_dscp changes only byte 1 and keeps ECN. *)
Lemma c13_v4_set_dscp : forall b v, is_bytes b -> v4_no_payload b = Ok b -> v <= 63 ->
  sets (v4_set_dscp v) v4_dscp v 1 2 b /\
  v4_ecn (fst (v4_set_dscp v b)) = v4_ecn b.
Proof.
  intros b v Hb Hn Hv. apply v4_no_payload_iff in Hn. destruct Hn as (_ & H & _).
  pose proof (is_bytes_nth b 1 Hb) as H1.
  assert (Hf := v4_set_dscp_ok b v Hb ltac:(lia) ltac:(lia)).
  assert (Hl : len (patch 1 [v * 4 + nthN b 1 mod 4] b) = len b) by (apply len_patch; autorewrite with len; lia).
  split.
  - eapply (sets_patch _ _ _ 1 [v * 4 + nthN b 1 mod 4]); [reflexivity|autorewrite with len; lia|exact Hf|].
    unfold v4_dscp. rewrite index_ok by lia. rewrite nthN_patch1 by lia. cbn [bind].
    rewrite shiftr2_div. f_equal. lia.
  - rewrite Hf. cbn [fst]. unfold v4_ecn. rewrite !index_ok by lia. rewrite nthN_patch1 by lia. cbn [bind].
    rewrite !land3_mod. f_equal. lia.
Qed.
(** C13: the other setters of an IPv4 packet with IHL at least 5. *)
Lemma c13_v4_setters : forall b, v4_no_payload b = Ok b -> 5 <= nthN b 0 mod 16 ->
  (forall v, sets (v4_set_id v) v4_id v 4 6 b) /\
  (forall v, sets (v4_set_ttl v) v4_ttl v 8 9 b) /\
  (forall v, sets (v4_set_protocol v) v4_protocol (ip_protocol_from (ip_protocol_into v)) 9 10 b) /\
  (forall v, sets (v4_set_checksum v) v4_checksum v 10 12 b) /\
  (forall v, sets (v4_set_source v) v4_source v 12 16 b) /\
  (forall v, sets (v4_set_destination v) v4_destination v 16 20 b).
Proof.
  intros b Hn Hi. pose proof Hn as Hn'. apply v4_no_payload_iff in Hn'. destruct Hn' as (_ & H & _).
  split; [|split; [|split; [|split; [|split]]]]; intros v.
  - apply (sets_patch _ _ _ 4 (enc16 v)); [reflexivity|lia|apply write_u16_ok; lia|].
    unfold v4_id. rewrite get16 by (rewrite len_patch; autorewrite with len; lia). rewrite wire16_patch by lia. reflexivity.
  - apply (sets_patch _ _ _ 8 [v]); [reflexivity|lia| |].
    + apply v4_header_mut; [exact Hn| |autorewrite with len; lia]. intros h Hh. autorewrite with len in Hh. apply set_index_ok. lia.
    + unfold v4_ttl. rewrite index_ok by (rewrite len_patch; autorewrite with len; lia). rewrite nthN_patch1 by lia. reflexivity.
  - apply (sets_patch _ _ _ 9 [ip_protocol_into v]); [reflexivity|lia| |].
    + apply v4_header_mut; [exact Hn| |autorewrite with len; lia]. intros h Hh. autorewrite with len in Hh. apply set_index_ok. lia.
    + unfold v4_protocol. rewrite index_ok by (rewrite len_patch; autorewrite with len; lia). rewrite nthN_patch1 by lia. reflexivity.
  - apply (sets_patch _ _ _ 10 (enc16 v)); [reflexivity|lia| |].
    + apply v4_header_mut; [exact Hn| |autorewrite with len; lia]. intros h Hh. autorewrite with len in Hh. apply write_u16_ok. lia.
    + unfold v4_checksum. rewrite get16 by (rewrite len_patch; autorewrite with len; lia). rewrite wire16_patch by lia. reflexivity.
  - apply (sets_patch _ _ _ 12 (octets v)); [reflexivity|lia| |].
    + apply v4_header_mut; [exact Hn| |autorewrite with len; lia]. intros h Hh. autorewrite with len in Hh. apply copy_range_ok; [reflexivity|lia].
    + unfold v4_source. rewrite !index_ok by (rewrite len_patch; autorewrite with len; lia). cbn [bind]. f_equal.
      apply (wire_addr_patch b 12 v). lia.
  - apply (sets_patch _ _ _ 16 (octets v)); [reflexivity|lia| |].
    + apply v4_header_mut; [exact Hn| |autorewrite with len; lia]. intros h Hh. autorewrite with len in Hh. apply copy_range_ok; [reflexivity|lia].
    + unfold v4_destination. rewrite !index_ok by (rewrite len_patch; autorewrite with len; lia). cbn [bind]. f_equal.
      apply (wire_addr_patch b 16 v). lia.
Qed.
Lemma header_mut_panic split f h rest b :
  split b = Ok (takeN h b, rest) -> h <= len b -> f (takeN h b) = (takeN h b, Panic) ->
  header_mut split f b = (b, Panic).
Proof.
  intros Hs Hh Hf. unfold header_mut. rewrite Hs, Hf. f_equal. autorewrite with len.
  replace (N.min h (len b)) with h by lia. apply takeN_dropN.
Qed.
(** C13: with IHL below 5 the setters that go through header_mut succeed exactly
    when the field lies inside the IHL*4 header bytes, and otherwise panic;
    set_id (and set_dscp) do not look at the IHL. *)
Lemma c13_v4_short_header : forall b, v4_no_payload b = Ok b ->
  forall v w x y,
  let h := nthN b 0 mod 16 * 4 in
  snd (v4_set_id v b) = Ok tt /\
  Forall (fun '(f, hi) => (hi <= h -> snd (f b) = Ok tt) /\ (h < hi -> f b = (b, Panic)))
    [(v4_set_flags v, 8); (v4_set_offset v, 8); (v4_set_ttl v, 9); (v4_set_protocol w, 10);
     (v4_set_checksum v, 12); (v4_set_source x, 16); (v4_set_destination y, 20)].
Proof.
  intros b Hn v w x y h. pose proof Hn as Hn'. apply v4_no_payload_iff in Hn'. destruct Hn' as (_ & H & _ & Hh).
  fold h in Hh. assert (Hs := v4_split_ok b H Hh). fold h in Hs.
  assert (Hm : h mod 4 = 0) by (unfold h; lia).
  assert (Hlt : len (takeN h b) = h) by (autorewrite with len; lia).
  split. { unfold v4_set_id. rewrite write_u16_ok by lia. reflexivity. }
  assert (W : forall off, off mod 4 = 2 -> (off + 2 <= h -> snd (header_mut v4_split (write_u16 off v) b) = Ok tt) /\
              (h < off + 2 -> header_mut v4_split (write_u16 off v) b = (b, Panic))).
  { intros off Ho. split; intros Hx.
    - rewrite (v4_header_mut b _ off (enc16 v)); [reflexivity|exact Hn| |autorewrite with len; lia].
      intros h' Hh'. autorewrite with len in Hh'. apply write_u16_ok. lia.
    - eapply header_mut_panic; [exact Hs|exact Hh|]. apply cursor_write_panic. lia. }
  assert (I : forall i z, (i + 1 <= h -> snd (header_mut v4_split (set_index i z) b) = Ok tt) /\
              (h < i + 1 -> header_mut v4_split (set_index i z) b = (b, Panic))).
  { intros i z. split; intros Hx.
    - rewrite (v4_header_mut b _ i [z]); [reflexivity|exact Hn| |autorewrite with len; lia].
      intros h' Hh'. autorewrite with len in Hh'. apply set_index_ok. lia.
    - eapply header_mut_panic; [exact Hs|exact Hh|]. apply set_index_panic. lia. }
  assert (C : forall i z, (i + 4 <= h -> snd (header_mut v4_split (copy_range i (i + 4) (octets z)) b) = Ok tt) /\
              (h < i + 4 -> header_mut v4_split (copy_range i (i + 4) (octets z)) b = (b, Panic))).
  { intros i z. split; intros Hx.
    - rewrite (v4_header_mut b _ i (octets z)); [reflexivity|exact Hn| |autorewrite with len; lia].
      intros h' Hh'. autorewrite with len in Hh'. apply copy_range_ok; [reflexivity|lia].
    - eapply header_mut_panic; [exact Hs|exact Hh|]. unfold copy_range. rewrite Hlt.
      destruct (N.leb_spec (i + 4) h); [lia|]. destruct (i <=? i + 4); reflexivity. }
  constructor; [apply (W 6 eq_refl)|]. constructor; [apply (W 6 eq_refl)|].
  constructor; [apply (I 8)|]. constructor; [apply (I 9)|]. constructor; [apply (W 10 eq_refl)|].
  constructor; [apply (C 12)|]. constructor; [apply (C 16)|]. constructor.
Qed.
Example c13_example : let b := 69 :: 7 :: 0 :: 20 :: repeat 0 16%nat in
  v4_no_payload b = Ok b /\ is_bytes b /\ 5 <= nthN b 0 mod 16 /\
  v4_set_dscp 46 b = (69 :: 187 :: 0 :: 20 :: repeat 0 16%nat, Ok tt) /\
  v4_set_source (Ip4 1 2 3 4) b = (69 :: 7 :: 0 :: 20 :: repeat 0 8%nat ++ [1; 2; 3; 4; 0; 0; 0; 0], Ok tt).
Proof. repeat split; try (vm_compute; congruence). repeat constructor. Qed.

(** ** C14 *)
(** C14: what set_ecn does, and exactly when that is right. *)
Lemma c14_v4_set_ecn : forall b v, is_bytes b -> 2 <= len b -> v <= 3 ->
  let dscp := nthN b 1 / 4 in
  let ecn := nthN b 1 mod 4 in
  exists b', v4_set_ecn v b = (b', Ok tt) /\ only_changes 1 2 b b' /\
    v4_dscp b' = Ok (dscp mod 16) /\ v4_ecn b' = Ok (N.lor ecn v) /\
    (v4_ecn b' = Ok v /\ v4_dscp b' = v4_dscp b <-> dscp < 16 /\ N.land ecn v = ecn).
Proof.
  intros b v Hb H Hv dscp ecn.
  pose proof (is_bytes_nth b 1 Hb) as H1.
  exists (patch 1 [dscp mod 16 * 4 + N.lor ecn v] b).
  assert (Hle : ecn < 4) by (unfold ecn; lia). assert (Hd : dscp < 64) by (unfold dscp; lia).
  assert (Ho := lor_lt4 ecn v Hle ltac:(lia)).
  assert (Hl : len (patch 1 [dscp mod 16 * 4 + N.lor ecn v] b) = len b) by (apply len_patch; autorewrite with len; lia).
  assert (Ed : v4_dscp (patch 1 [dscp mod 16 * 4 + N.lor ecn v] b) = Ok (dscp mod 16)).
  { unfold v4_dscp. rewrite index_ok by lia. rewrite nthN_patch1 by lia. cbn [bind]. rewrite shiftr2_div. f_equal. lia. }
  assert (Ee : v4_ecn (patch 1 [dscp mod 16 * 4 + N.lor ecn v] b) = Ok (N.lor ecn v)).
  { unfold v4_ecn. rewrite index_ok by lia. rewrite nthN_patch1 by lia. cbn [bind]. rewrite land3_mod. f_equal. lia. }
  split; [apply v4_set_ecn_ok; [exact Hb|lia|lia]|].
  split; [apply patch_only_changes; autorewrite with len; lia|].
  split; [exact Ed|]. split; [exact Ee|]. rewrite Ed, Ee.
  replace (v4_dscp b) with (Ok dscp).
  2: { unfold v4_dscp. rewrite index_ok by lia. cbn [bind]. rewrite shiftr2_div. reflexivity. }
  assert (Hx : (N.lor ecn v =? v) = (N.land ecn v =? ecn)).
  { apply Bool.eqb_prop. apply (sweep2 (fun e v => Bool.eqb (N.lor e v =? v) (N.land e v =? e)) 4 4); [vm_compute; reflexivity|exact Hle|lia]. }
  split.
  - intros [A B]. injection A as A. injection B as B. split; [lia|]. apply N.eqb_eq. rewrite <- Hx. apply N.eqb_eq. exact A.
  - intros [A B]. split; f_equal; [|lia]. apply N.eqb_eq. rewrite Hx. apply N.eqb_eq. exact B.
Qed.
(** C14: so it is not a setter: DSCP 46 with ECN 3 set to 0. *)
Lemma c14_v4_set_ecn_refuted : exists b, v4_new b = Ok b /\ is_bytes b /\
  v4_dscp b = Ok 46 /\ v4_ecn b = Ok 3 /\
  v4_dscp (fst (v4_set_ecn 0 b)) = Ok 14 /\ v4_ecn (fst (v4_set_ecn 0 b)) = Ok 3.
Proof.
  exists (69 :: 187 :: 0 :: 20 :: repeat 0 16%nat). repeat split. repeat constructor.
Qed.
Example c14_example : let b := 69 :: 4 :: 0 :: 20 :: repeat 0 16%nat in
  v4_set_ecn 1 b = (69 :: 5 :: 0 :: 20 :: repeat 0 16%nat, Ok tt).
Proof. reflexivity. Qed.

(** ** C15 *)
Lemma v4_write6 b v : v4_no_payload b = Ok b -> 2 <= nthN b 0 mod 16 ->
  header_mut v4_split (write_u16 6 v) b = (patch 6 (enc16 v) b, Ok tt).
Proof.
  intros Hn Hi. apply v4_header_mut; [exact Hn| |autorewrite with len; lia].
  intros h Hh. autorewrite with len in Hh. apply write_u16_ok. lia.
Qed.
Lemma is_bytes_set16 b off v : is_bytes b -> u16 v -> is_bytes (patch off (enc16 v) b).
Proof. intros Hb Hv. apply is_bytes_patch; [exact Hb|]. apply is_bytes_enc16. exact Hv. Qed.
(** C15: set_flags (the flag bits are a subset of 2 and 4). *)
Lemma c15_v4_set_flags : forall b v, is_bytes b -> v4_no_payload b = Ok b -> 2 <= nthN b 0 mod 16 ->
  In v [0; 2; 4; 6] ->
  exists b', v4_set_flags v b = (b', Ok tt) /\ only_changes 6 8 b b' /\
    v4_flags b' = Ok 0 /\ v4_offset b' = Ok v /\
    (v4_flags b' = Ok v /\ v4_offset b' = v4_offset b <-> v = 0 /\ v4_offset b = Ok 0).
Proof.
  intros b v Hb Hn Hi Hv. pose proof Hn as Hn'. apply v4_no_payload_iff in Hn'. destruct Hn' as (_ & H & _).
  exists (patch 6 (enc16 v) b).
  assert (Hv' : v < 8) by (cbn in Hv; lia).
  assert (Hl : len (patch 6 (enc16 v) b) = len b) by (apply len_patch; autorewrite with len; lia).
  assert (Ef : v4_flags (patch 6 (enc16 v) b) = Ok 0).
  { rewrite v4_flags_ok; [|apply is_bytes_set16; [exact Hb|unfold u16; lia]|lia]. rewrite wire16_patch by lia.
    replace (v / 8192) with 0 by lia. reflexivity. }
  assert (Eo : v4_offset (patch 6 (enc16 v) b) = Ok v).
  { rewrite v4_offset_ok by lia. rewrite wire16_patch by lia. f_equal. lia. }
  split; [apply v4_write6; assumption|].
  split; [apply (patch_only_changes 6 (enc16 v)); autorewrite with len; lia|].
  split; [exact Ef|]. split; [exact Eo|]. rewrite Ef, Eo. split.
  - intros [A B]. injection A as <-. split; [reflexivity|]. symmetry; exact B.
  - intros [-> B]. rewrite B. split; reflexivity.
Qed.
(** C15: set_offset, with any u16 value: out-of-range offsets are not rejected
    and the flag bits are overwritten.  Correct means that offset() is the value
    and the three flag bits are as before. *)
Lemma c15_v4_set_offset : forall b v, is_bytes b -> v4_no_payload b = Ok b -> 2 <= nthN b 0 mod 16 ->
  u16 v ->
  exists b', v4_set_offset v b = (b', Ok tt) /\ only_changes 6 8 b b' /\
    v4_offset b' = Ok (v mod 8192) /\ wire16 b' 6 / 8192 = v / 8192 /\
    (v4_offset b' = Ok v /\ wire16 b' 6 / 8192 = wire16 b 6 / 8192 <->
     v < 8192 /\ wire16 b 6 / 8192 = 0).
Proof.
  intros b v Hb Hn Hi Hv. pose proof Hn as Hn'. apply v4_no_payload_iff in Hn'. destruct Hn' as (_ & H & _).
  exists (patch 6 (enc16 v) b). unfold u16 in Hv.
  assert (Hl : len (patch 6 (enc16 v) b) = len b) by (apply len_patch; autorewrite with len; lia).
  assert (Eo : v4_offset (patch 6 (enc16 v) b) = Ok (v mod 8192)).
  { rewrite v4_offset_ok by lia. rewrite wire16_patch by lia. reflexivity. }
  split; [apply v4_write6; assumption|].
  split; [apply (patch_only_changes 6 (enc16 v)); autorewrite with len; lia|].
  split; [exact Eo|]. rewrite wire16_patch by lia. split; [reflexivity|]. rewrite Eo. split.
  - intros [A B]. injection A as A. rewrite <- B. lia.
  - intros [A B]. split; [f_equal; lia|]. lia.
Qed.
(** C15: setting DONT_FRAGMENT gives offset 2 and no flag; setting offset 1 on a
    Don't-Fragment packet clears the flag; offset 65535 is stored. *)
Lemma c15_v4_flags_offset_refuted :
  exists b, v4_new b = Ok b /\ is_bytes b /\
  v4_flags (fst (v4_set_flags IP_DONT_FRAGMENT b)) = Ok 0 /\
  v4_offset (fst (v4_set_flags IP_DONT_FRAGMENT b)) = Ok 2 /\
  v4_flags b = Ok IP_DONT_FRAGMENT /\ v4_flags (fst (v4_set_offset 1 b)) = Ok 0 /\
  snd (v4_set_offset 65535 b) = Ok tt /\ v4_flags (fst (v4_set_offset 65535 b)) = Panic.
Proof.
  exists (69 :: 0 :: 0 :: 20 :: 0 :: 0 :: 64 :: repeat 0 13%nat). repeat split. repeat constructor.
Qed.
Example c15_example : let b := 69 :: 0 :: 0 :: 20 :: 0 :: 0 :: 0 :: repeat 0 13%nat in
  is_bytes b /\ v4_no_payload b = Ok b /\ 2 <= nthN b 0 mod 16 /\ In IP_MORE_FRAGMENTS [0; 2; 4; 6] /\
  v4_set_flags IP_MORE_FRAGMENTS b = (69 :: 0 :: 0 :: 20 :: 0 :: 0 :: 0 :: 4 :: repeat 0 12%nat, Ok tt) /\
  v4_set_offset 513 b = (69 :: 0 :: 0 :: 20 :: 0 :: 0 :: 2 :: 1 :: repeat 0 12%nat, Ok tt).
Proof. cbv zeta. split; [repeat constructor|]. split; [reflexivity|]. split; [vm_compute; discriminate|]. split; [cbn; tauto|]. split; reflexivity. Qed.

(** ** C16 *)
Lemma flags_shift_out x : x < 256 -> shl_u16 (N.land x 240) 12 = 0.
Proof.
  intros Hx. apply N.eqb_eq. apply (sweep (fun x => shl_u16 (N.land x 240) 12 =? 0) 256); [vm_compute; reflexivity|exact Hx].
Qed.
Lemma tcp_set_flags_ok b v : is_bytes b -> tcp_new b = Ok b -> 4 <= nthN b 12 / 16 ->
  tcp_set_flags v b = (patch 12 (enc16 v) b, Ok tt).
Proof.
  intros Hb Hn Ho. pose proof Hn as Hn'. apply tcp_new_iff in Hn'. destruct Hn' as (_ & H & Hh).
  unfold tcp_set_flags, mlet, tcp_header. rewrite tcp_split_ok by lia. cbn [bind].
  rewrite index_ok by (autorewrite with len; lia). rewrite nthN_takeN by lia.
  rewrite flags_shift_out by (apply is_bytes_nth; exact Hb). rewrite N.lor_0_l.
  apply tcp_header_write16; [exact Hn|lia].
Qed.
(** C16: set_flags on a segment with a data offset of at least 4: only bytes 12
    and 13 change, flags() is right, and the data offset and the reserved bits
    become 0, so the payload becomes the whole segment.  (The segment is still
    accepted by [new].)  With a smaller data offset it panics. *)
Lemma c16_tcp_set_flags : forall b v, is_bytes b -> tcp_new b = Ok b -> v < 512 ->
  (4 <= nthN b 12 / 16 ->
   exists b', tcp_set_flags v b = (b', Ok tt) /\ only_changes 12 14 b b' /\
     tcp_flags b' = Ok v /\ tcp_offset b' = Ok 0 /\ wire16 b' 12 = v /\
     tcp_new b' = Ok b' /\ tcp_header b' = Ok [] /\ tcp_payload b' = Ok b') /\
  (nthN b 12 / 16 < 4 -> snd (tcp_set_flags v b) = Panic).
Proof.
  intros b v Hb Hn Hv. pose proof Hn as Hn'. apply tcp_new_iff in Hn'. destruct Hn' as (_ & H & Hh). split.
  - intros Ho. exists (patch 12 (enc16 v) b).
    assert (Hl : len (patch 12 (enc16 v) b) = len b) by (apply len_patch; autorewrite with len; lia).
    assert (Hx : nthN (patch 12 (enc16 v) b) 12 / 16 = 0).
    { rewrite nthN_patch_in by (autorewrite with len; lia). cbn. lia. }
    split; [apply tcp_set_flags_ok; assumption|].
    split; [apply (patch_only_changes 12 (enc16 v)); autorewrite with len; lia|].
    rewrite tcp_flags_ok, tcp_offset_ok by lia. rewrite wire16_patch by lia. rewrite Hx.
    unfold tcp_header, tcp_payload. rewrite tcp_split_ok by (rewrite ?Hx; lia). rewrite Hx.
    split; [f_equal; lia|]. split; [reflexivity|]. split; [reflexivity|].
    split; [apply tcp_new_iff; rewrite Hx; repeat split; lia|]. split; reflexivity.
  - intros Ho. unfold tcp_set_flags, mlet, tcp_header. rewrite tcp_split_ok by lia. cbn [bind].
    rewrite index_panic by (autorewrite with len; lia). reflexivity.
Qed.
(** C16: so a data offset never survives set_flags. *)
Lemma c16_tcp_set_flags_keeps_offset_refuted : exists b, tcp_new b = Ok b /\ is_bytes b /\
  tcp_offset b = Ok 5 /\ tcp_offset (fst (tcp_set_flags 2 b)) = Ok 0.
Proof. exists (repeat 0 12%nat ++ [80] ++ repeat 0 9%nat). repeat split. repeat constructor. Qed.
Example c16_example : let b := repeat 7 12%nat ++ [80; 16] ++ repeat 7 10%nat in
  is_bytes b /\ tcp_new b = Ok b /\ 4 <= nthN b 12 / 16 /\
  tcp_set_flags 258 b = (repeat 7 12%nat ++ [1; 2] ++ repeat 7 10%nat, Ok tt) /\
  tcp_payload (repeat 7 12%nat ++ [1; 2] ++ repeat 7 10%nat) = Ok (repeat 7 12%nat ++ [1; 2] ++ repeat 7 10%nat).
Proof. cbv zeta. split; [repeat constructor|]. split; [reflexivity|]. split; [vm_compute; discriminate|]. split; reflexivity. Qed.

(** ** C17: ICMP *)
(** C17: identifier and sequence of echo packets. *)
Lemma c17_echo_setters : forall b, echo_new b = Ok b -> forall v,
  sets (echo_set_identifier v) echo_identifier v 4 6 b /\ sets (echo_set_sequence v) echo_sequence v 6 8 b.
Proof.
  intros b Hn v. destruct (typed_inv _ _ _ _ _ c05_echo_new Hn) as (_ & H & _). split.
  - eapply (sets_patch _ _ _ 4 (enc16 v)); [reflexivity|lia|apply write_u16_ok; lia|].
    unfold echo_identifier. rewrite get16 by (rewrite len_patch; autorewrite with len; lia). rewrite wire16_patch by lia. reflexivity.
  - eapply (sets_patch _ _ _ 6 (enc16 v)); [reflexivity|lia|apply write_u16_ok; lia|].
    unfold echo_sequence. rewrite get16 by (rewrite len_patch; autorewrite with len; lia). rewrite wire16_patch by lia. reflexivity.
Qed.
Lemma c17_information_setters : forall b, information_new b = Ok b -> forall v,
  sets (information_set_identifier v) information_identifier v 4 6 b /\
  sets (information_set_sequence v) information_sequence v 6 8 b.
Proof.
  intros b Hn v. destruct (typed_inv _ _ _ _ _ c05_information_new Hn) as (_ & H & _). split.
  - eapply (sets_patch _ _ _ 4 (enc16 v)); [reflexivity|lia|apply write_u16_ok; lia|].
    unfold information_identifier. rewrite get16 by (rewrite len_patch; autorewrite with len; lia). rewrite wire16_patch by lia. reflexivity.
  - eapply (sets_patch _ _ _ 6 (enc16 v)); [reflexivity|lia|apply write_u16_ok; lia|].
    unfold information_sequence. rewrite get16 by (rewrite len_patch; autorewrite with len; lia). rewrite wire16_patch by lia. reflexivity.
Qed.
Lemma c17_timestamp_setters : forall b, timestamp_new b = Ok b -> forall v,
  sets (timestamp_set_identifier v) timestamp_identifier v 4 6 b /\
  sets (timestamp_set_sequence v) timestamp_sequence v 6 8 b /\
  sets (timestamp_set_originate v) timestamp_originate v 8 12 b /\
  sets (timestamp_set_receive v) timestamp_receive v 12 16 b /\
  sets (timestamp_set_transmit v) timestamp_transmit v 16 20 b.
Proof.
  intros b Hn v. destruct (typed_inv _ _ _ _ _ c05_timestamp_new Hn) as (_ & H & _).
  unfold timestamp_identifier, timestamp_sequence, timestamp_originate, timestamp_receive, timestamp_transmit.
  Local Ltac w16 o v := eapply (sets_patch _ _ _ o (enc16 v)); [reflexivity|lia|apply write_u16_ok; lia|];
    rewrite get16 by (rewrite len_patch; autorewrite with len; lia); rewrite wire16_patch by lia; reflexivity.
  Local Ltac w32 o v := eapply (sets_patch _ _ _ o (enc32 v)); [reflexivity|lia|apply write_u32_ok; lia|];
    rewrite get32 by (rewrite len_patch; autorewrite with len; lia); rewrite wire32_patch by lia; reflexivity.
  split; [w16 4 v|]. split; [w16 6 v|]. split; [w32 8 v|]. split; [w32 12 v|]. w32 16 v.
Qed.
Example c17_example : let b := 13 :: repeat 0 19%nat in
  timestamp_new b = Ok b /\
  timestamp_set_receive 67305985 b = (13 :: repeat 0 11%nat ++ [4; 3; 2; 1; 0; 0; 0; 0], Ok tt).
Proof. split; reflexivity. Qed.

(** ** C18 *)
(** C18: echo. *)
Lemma c18_echo_make : forall b, echo_new b = Ok b ->
  sets echo_make_request echo_is_request true 0 1 b /\ sets echo_make_reply echo_is_reply true 0 1 b.
Proof.
  intros b Hn. destruct (typed_inv _ _ _ _ _ c05_echo_new Hn) as (_ & H & _). split.
  - eapply (sets_patch _ _ _ 0 [8]); [reflexivity|lia|apply set_index_ok; lia|].
    unfold echo_is_request. rewrite index_ok by (rewrite len_patch; autorewrite with len; lia). rewrite nthN_patch1 by lia. reflexivity.
  - eapply (sets_patch _ _ _ 0 [0]); [reflexivity|lia|apply set_index_ok; lia|].
    unfold echo_is_reply. rewrite index_ok by (rewrite len_patch; autorewrite with len; lia). rewrite nthN_patch1 by lia. reflexivity.
Qed.
(** C18: on timestamp and information packets the calls succeed, change only the
    type byte, and the result is neither a request nor a reply of its kind and is
    refused by its own parser. *)
Lemma c18_timestamp_make : forall b f, timestamp_new b = Ok b ->
  f = timestamp_make_request \/ f = timestamp_make_reply ->
  exists b', f b = (b', Ok tt) /\ only_changes 0 1 b b' /\
    timestamp_is_request b' = Ok false /\ timestamp_is_reply b' = Ok false /\
    timestamp_new b' = Err InvalidPacket /\ echo_new b' = Ok b'.
Proof.
  intros b f Hn Hf. destruct (typed_inv _ _ _ _ _ c05_timestamp_new Hn) as (_ & H & _).
  assert (X : forall x, x = 8 \/ x = 0 -> set_index 0 x b = (patch 0 [x] b, Ok tt) /\ only_changes 0 1 b (patch 0 [x] b) /\
    timestamp_is_request (patch 0 [x] b) = Ok false /\ timestamp_is_reply (patch 0 [x] b) = Ok false /\
    timestamp_new (patch 0 [x] b) = Err InvalidPacket /\ echo_new (patch 0 [x] b) = Ok (patch 0 [x] b)).
  { intros x Hx. assert (Hl : len (patch 0 [x] b) = len b) by (apply len_patch; autorewrite with len; lia).
    split; [apply set_index_ok; lia|]. split; [apply (patch_only_changes 0 [x]); autorewrite with len; lia|].
    unfold timestamp_is_request, timestamp_is_reply. rewrite !index_ok by lia. rewrite nthN_patch1 by lia. cbn [bind].
    split; [destruct Hx as [->| ->]; reflexivity|]. split; [destruct Hx as [->| ->]; reflexivity|]. split.
    - apply c05_timestamp_new; [lia|]. rewrite nthN_patch1 by lia. cbn. lia.
    - apply c05_echo_new; [lia|]. rewrite nthN_patch1 by lia. cbn. lia. }
  destruct Hf as [-> | ->]; eexists; apply X; cbn; lia.
Qed.
Lemma c18_information_make : forall b f, information_new b = Ok b ->
  f = information_make_request \/ f = information_make_reply ->
  exists b', f b = (b', Ok tt) /\ only_changes 0 1 b b' /\
    information_is_request b' = Ok false /\ information_is_reply b' = Ok false /\
    information_new b' = Err InvalidPacket /\ echo_new b' = Ok b'.
Proof.
  intros b f Hn Hf. destruct (typed_inv _ _ _ _ _ c05_information_new Hn) as (_ & H & _).
  assert (X : forall x, x = 8 \/ x = 0 -> set_index 0 x b = (patch 0 [x] b, Ok tt) /\ only_changes 0 1 b (patch 0 [x] b) /\
    information_is_request (patch 0 [x] b) = Ok false /\ information_is_reply (patch 0 [x] b) = Ok false /\
    information_new (patch 0 [x] b) = Err InvalidPacket /\ echo_new (patch 0 [x] b) = Ok (patch 0 [x] b)).
  { intros x Hx. assert (Hl : len (patch 0 [x] b) = len b) by (apply len_patch; autorewrite with len; lia).
    split; [apply set_index_ok; lia|]. split; [apply (patch_only_changes 0 [x]); autorewrite with len; lia|].
    unfold information_is_request, information_is_reply. rewrite !index_ok by lia. rewrite nthN_patch1 by lia. cbn [bind].
    split; [destruct Hx as [->| ->]; reflexivity|]. split; [destruct Hx as [->| ->]; reflexivity|]. split.
    - apply c05_information_new; [lia|]. rewrite nthN_patch1 by lia. cbn. lia.
    - apply c05_echo_new; [lia|]. rewrite nthN_patch1 by lia. cbn. lia. }
  destruct Hf as [-> | ->]; eexists; apply X; cbn; lia.
Qed.
Example c18_example :
  echo_make_reply [8; 0; 1; 2; 0; 1; 0; 2] = ([0; 0; 1; 2; 0; 1; 0; 2], Ok tt) /\
  information_new [15; 0; 1; 2; 0; 1; 0; 2] = Ok [15; 0; 1; 2; 0; 1; 0; 2] /\
  information_make_reply [15; 0; 1; 2; 0; 1; 0; 2] = ([0; 0; 1; 2; 0; 1; 0; 2], Ok tt).
Proof. repeat split. Qed.

(** ** C19 *)
(** C19: set_dscp and set_ecn reject exactly the values that do not fit, on any
    bytes whatever (those of [unchecked] included); the only other failure is a
    panic for a buffer without the byte to write. *)
Lemma c19_rejects : forall b v,
  (63 < v -> v4_set_dscp v b = (b, Err InvalidValue)) /\
  (v <= 63 -> 2 <= len b -> snd (v4_set_dscp v b) = Ok tt) /\
  (3 < v -> v4_set_ecn v b = (b, Err InvalidValue)) /\
  (v <= 3 -> 2 <= len b -> snd (v4_set_ecn v b) = Ok tt) /\
  (len b < 2 -> (v <= 63 -> v4_set_dscp v b = (b, Panic)) /\ (v <= 3 -> v4_set_ecn v b = (b, Panic))).
Proof.
  intros b v.
  unfold v4_set_dscp, v4_set_ecn, mlet. repeat apply conj; intros Hv.
  - destruct (N.ltb_spec 63 v); [reflexivity|lia].
  - intros H. destruct (N.ltb_spec 63 v); [lia|]. rewrite index_ok by lia. rewrite set_index_ok by lia. reflexivity.
  - destruct (N.ltb_spec 3 v); [reflexivity|lia].
  - intros H. destruct (N.ltb_spec 3 v); [lia|]. rewrite index_ok by lia. rewrite set_index_ok by lia. reflexivity.
  - split; intros H.
    + destruct (N.ltb_spec 63 v); [lia|]. rewrite index_panic by lia. reflexivity.
    + destruct (N.ltb_spec 3 v); [lia|]. rewrite index_panic by lia. reflexivity.
Qed.
Example c19_example : let b := 69 :: 7 :: 0 :: 20 :: repeat 0 16%nat in
  v4_set_dscp 64 b = (b, Err InvalidValue) /\ v4_set_ecn 4 b = (b, Err InvalidValue) /\
  v4_set_dscp 63 b = (69 :: 255 :: 0 :: 20 :: repeat 0 16%nat, Ok tt) /\ v4_set_dscp 1 [69] = ([69], Panic).
Proof. repeat split. Qed.
