(** * FrameAnswerProofs: answering in the received Ethernet frame (C69). *)
From Verif Require Import Base Enums Ether Ipv4 Ip Udp Tcp Icmp Spec SpecCalls SpecEdit SpecForward Mutable Lemmas AccessProofs
  ParseProofs FieldProofs SliceProofs MutableProofs EditProofs ChecksumProofs ForwardProofs.
From Coq Require Import ZifyBool ZifyNat ZifyN.
Ltac Zify.zify_post_hook ::= Z.div_mod_to_equations.

Lemma swap_macs_ok b : ether_new b = Ok b -> exists c, swap_macs b = (c, Ok tt) /\
  ether_source c = ether_destination b /\ ether_destination c = ether_source b /\
  ether_get_protocol c = ether_get_protocol b /\ ether_payload c = ether_payload b /\ ether_new c = Ok c /\ len c = len b.
Proof.
  intros Hn. apply ether_new_len in Hn as Hl.
  assert (Hd : ether_destination b = Ok (wire_mac b 0)) by (apply (hw_slice _ 0); lia).
  assert (Hs : ether_source b = Ok (wire_mac b 6)) by (apply (hw_slice _ 6); lia).
  destruct (c52_ether [EthSource (wire_mac b 0); EthDestination (wire_mac b 6)] b Hn) as (c & Ha & H1 & H2 & H3 & Hc).
  cbn [last_value fold_left eth_dst eth_src eth_proto] in H1, H2, H3. exists c.
  assert (Hlc : len c = len b) by apply Hc.
  split.
  { unfold swap_macs, mlet, mseq. rewrite Hs, Hd. cbn [all_ok ether_apply] in Ha.
    destruct (ether_set_source (wire_mac b 0) b) as [b1 [[]|e|]]; try discriminate.
    destruct (ether_set_destination (wire_mac b 6) b1) as [b2 [[]|e|]]; try discriminate. now injection Ha as ->. }
  rewrite H1, H2, H3, Hs, Hd. do 2 (split; [reflexivity|]).
  split; [unfold ether_get_protocol; rewrite get16 by lia; reflexivity|].
  split.
  { unfold ether_payload, ether_split. rewrite !split_at_ok by lia. cbn [bind]. f_equal.
    apply (only_changes_dropN 0 14); [exact Hc|lia]. }
  split; [|exact Hlc]. unfold ether_new, ether_header_min. destruct (N.ltb_spec (len c) 14); [lia|reflexivity].
Qed.
(** C69: answering in the Ethernet frame.  The frame's addresses are swapped, and
    whatever edit of the IPv4 packet succeeds and keeps the length is what the
    frame then carries. *)
Lemma c69_answer_frame : forall b edit ip ip', ether_new b = Ok b -> ether_payload b = Ok ip -> v4_new ip = Ok ip ->
  edit ip = (ip', Ok tt) -> len ip' = len ip ->
  exists b', answer_frame edit b = (b', Ok tt) /\ ether_new b' = Ok b' /\ len b' = len b /\
    ether_source b' = ether_destination b /\ ether_destination b' = ether_source b /\
    ether_get_protocol b' = ether_get_protocol b /\ ether_payload b' = Ok ip'.
Proof.
  intros b edit ip ip' Hn Hp Hv He Hl. destruct (swap_macs_ok b Hn) as (c & Hc & H1 & H2 & H3 & H4 & Hnc & Hlc).
  apply ether_new_len in Hnc as Hl14. rewrite Hp in H4.
  assert (Hip : ip = dropN 14 c).
  { unfold ether_payload, ether_split in H4. rewrite split_at_ok in H4 by lia. cbn [bind] in H4. now apply Ok_inj in H4. }
  assert (Hli : len ip = len c - 14) by (rewrite Hip; autorewrite with len; lia).
  assert (Hr : span_read (Span 14 (len c - 14)) c = ip).
  { unfold span_read. cbn [s_at s_len]. rewrite Hip. apply takeN_all. autorewrite with len. lia. }
  assert (Hm : ether_split_mut c = Ok (Span 0 14, Span 14 (len c - 14))).
  { unfold ether_split_mut, split_at_mut, whole. cbn [s_len s_at]. destruct (N.leb_spec 14 (len c)); [reflexivity|lia]. }
  set (d := patch 14 ip' c). exists d. unfold answer_frame, mseq. rewrite Hc.
  assert (Hld : len d = len c) by (apply len_patch; lia).
  assert (Hod : only_changes 14 (14 + len ip') c d) by (apply patch_only_changes; lia).
  split.
  { unfold edit_datagram. rewrite Hm, Hr, Hv. unfold span_run. rewrite Hr, He. rewrite span_write_patch by (cbn [s_len]; lia). reflexivity. }
  split; [unfold ether_new, ether_header_min; destruct (N.ltb_spec (len d) 14); [lia|reflexivity]|].
  split; [lia|]. rewrite <- H1, <- H2, <- H3.
  assert (Hb : forall i, i < 14 -> nthN d i = nthN c i) by (intros; apply Hod; lia).
  split; [|split; [|split]].
  - unfold ether_source. rewrite !(hw_slice _ 6) by lia. unfold wire_mac. rewrite !Hb by lia. reflexivity.
  - unfold ether_destination. rewrite !(hw_slice _ 0) by lia. unfold wire_mac. rewrite !Hb by lia. reflexivity.
  - unfold ether_get_protocol. rewrite !get16 by lia. unfold wire16. rewrite !Hb by lia. reflexivity.
  - unfold ether_payload, ether_split. rewrite split_at_ok by lia. cbn [bind]. f_equal. unfold d, patch.
    replace 14 with (len (takeN 14 c)) at 1 by (autorewrite with len; lia). rewrite dropN_app_len.
    rewrite dropN_all by lia. apply app_nil_r.
Qed.
(** C69: a UDP datagram answered in its frame, all layers. *)
Lemma c69_answer_frame_udp : forall E b ip u, is_bytes b -> ether_new b = Ok b ->
  ether_payload b = Ok ip -> v4_new ip = Ok ip -> 5 <= nthN ip 0 mod 16 -> v4_payload ip = Ok u -> udp_new u = Ok u ->
  exists b' ip' u', answer_frame answer_udp b = (b', Ok tt) /\ len b' = len b /\
    ether_new b' = Ok b' /\ ether_payload b' = Ok ip' /\ v4_new ip' = Ok ip' /\ v4_payload ip' = Ok u' /\ udp_new u' = Ok u' /\
    ether_source b' = ether_destination b /\ ether_destination b' = ether_source b /\
    ether_get_protocol b' = ether_get_protocol b /\
    v4_source ip' = v4_destination ip /\ v4_destination ip' = v4_source ip /\
    udp_source u' = udp_destination u /\ udp_destination u' = udp_source u /\ udp_payload u' = udp_payload u /\
    v4_is_valid E ip' = v4_is_valid E ip /\ udp_is_valid E (V4 ip') u' = udp_is_valid E (V4 ip) u.
Proof.
  intros E b ip u Hb Hn Hp Hv Hi Hu Hun. apply ether_new_len in Hn as Hl.
  assert (Hip : is_bytes ip).
  { unfold ether_payload, ether_split in Hp. rewrite split_at_ok in Hp by lia. cbn [bind] in Hp. apply Ok_inj in Hp.
    rewrite <- Hp. apply is_bytes_dropN, Hb. }
  destruct (c69_answer_udp E ip u Hip Hv Hi Hu Hun) as (ip' & u' & Ha & H1 & H2 & H3 & H4 & H5 & H6 & H7 & H8 & H9 & H10 & H11).
  destruct (c69_answer_frame b answer_udp ip ip' Hn Hp Hv Ha H10) as (b' & G1 & G2 & G3 & G4 & G5 & G6 & G7).
  exists b', ip', u'. repeat split; assumption.
Qed.
Example c69_frame_example : forall E,
  let b := [0;35;105;99;89;190; 228;179;24;38;99;163; 8;0;
            69;0;0;30;0;0;0;0;64;17;102;205;10;0;0;1;10;0;0;2; 0;53;0;99;0;10;130;214;104;105; 0;0] in
  let r := [228;179;24;38;99;163; 0;35;105;99;89;190; 8;0;
            69;0;0;30;0;0;0;0;64;17;102;205;10;0;0;2;10;0;0;1; 0;99;0;53;0;10;130;214;104;105; 0;0] in
  is_bytes b /\ ether_new b = Ok b /\ v4_new (dropN 14 b) = Ok (dropN 14 b) /\ v4_is_valid E (dropN 14 b) = Ok true /\
  answer_frame answer_udp b = (r, Ok tt) /\
  answer_frame (v4_checked E [V4SetTtl 64]) b = (takeN 12 r ++ dropN 12 b, Ok tt).
Proof. intros [[] [] []]; repeat split; repeat constructor. Qed.
