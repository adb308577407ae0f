(** * ReceiverProofs: the receiving program and the RFCs (C72). *)
From Verif Require Import Base Enums Ether Ipv4 Ip Udp Tcp Icmp Spec SpecCalls SpecEdit SpecForward SpecMachine SpecReceiver Mutable Lemmas AccessProofs
  ParseProofs FieldProofs SliceProofs MutableProofs EnumProofs ChecksumLemmas ChecksumProofs GuardProofs EditProofs ForwardProofs FrameProofs MachineProofs FrameMachineProofs.
From Coq Require Import ZifyBool ZifyNat ZifyN.
Ltac Zify.zify_post_hook ::= Z.div_mod_to_equations.

Lemma verdict_true r : verdict r = Ok true <-> r = Ok true.
Proof. destruct r as [[]| |]; cbn; split; congruence. Qed.

Lemma receive_ip_eq E wanted next b : receive_ip E wanted next b =
  if len b <? 14 then Err SmallBuffer
  else if wire16 b 12 =? 0x0800 then
    (let* ip := v4_new (dropN 14 b) in
     if nthN ip 0 mod 16 <? 5 then Ok false
     else let* valid := v4_is_valid E ip in
          if negb valid then Ok false
          else if wanted (ip_protocol_from (nthN ip 9)) then next ip (body_of ip) else Ok false)
  else Ok false.
Proof.
  unfold receive_ip. destruct (c01_ether_new b) as [H1 H2].
  destruct (N.ltb_spec (len b) 14); [rewrite H2 by lia; reflexivity|]. rewrite H1 by lia. cbn [bind].
  unfold ether_get_protocol. rewrite get16 by lia. cbn [bind]. rewrite ether_cases4.
  destruct (wire16 b 12 =? 2048); [|reflexivity]. rewrite ether_payload_ok by lia. cbn [bind].
  destruct (v4_new (dropN 14 b)) as [ip| |] eqn:Hn; [|reflexivity|reflexivity].
  pose proof (v4_new_same _ _ Hn). subst ip. cbn [bind]. set (ip := dropN 14 b) in *.
  pose proof (c07_v4 ip Hn) as Q. cbv zeta in Q. destruct Q as (_ & _ & _ & Q & _).
  assert (H20 : 20 <= len ip) by (apply c02_v4_new_iff in Hn; lia).
  rewrite v4_ihl_ok by lia. cbn [bind]. destruct (nthN ip 0 mod 16 <? 5); [reflexivity|].
  destruct (v4_is_valid E ip) as [v| |]; [|reflexivity|reflexivity]. cbn [bind]. destruct (negb v); [reflexivity|].
  unfold v4_protocol. rewrite index_ok by lia. cbn [bind]. rewrite Q. cbn [bind].
  replace (dropN _ (takeN _ ip)) with (body_of ip); [reflexivity|].
  unfold body_of. rewrite takeN_dropN_comm. f_equal; f_equal; lia.
Qed.

Section RECEIVE.
  Context {S : Type} (E : env) (inner : S -> bytes) (inner_ok : S -> Prop) (wanted : ip_protocol -> bool) (proto : N)
    (next : bytes -> bytes -> res bool).
  Hypothesis Hwanted : forall n, wanted (ip_protocol_from n) = (n =? proto).
  Hypothesis Hlen : forall x, 0 < len (inner x).
  Hypothesis Hnext : forall ip body, is_bytes body -> next ip body = Ok true -> exists x, inner_ok x /\ inner x = body.

  Lemma receive_ip_on s : frame_packet_ok inner inner_ok s -> rfc_ip proto s -> vf_checksum (fr_ip s) <> 65535 ->
    receive_ip E wanted next (frame_bytes inner s) = next (v4_bytes (frame_ip inner s)) (inner (fr_inner s)).
  Proof.
    intros (He & Hs & Hi) (Hty & Hpr & Hsum) Hck. rewrite receive_ip_eq.
    rewrite frame_bytes_ip. autorewrite with len. rewrite ether_wire_len.
    replace (14 + _ <? 14) with false by lia.
    replace (wire16 _ 12) with 2048.
    2: { rewrite <- Hty. destruct He as (_ & _ & He). unfold u16 in He.
         change (ef_type (fr_ether s) = ef_type (fr_ether s) / 256 * 256 + ef_type (fr_ether s) mod 256). lia. }
    cbn [N.eqb Pos.eqb]. rewrite <- (ether_wire_len (fr_ether s)) at 1. rewrite dropN_app_len.
    rewrite v4_new_bytes by exact Hs. cbn [bind]. rewrite v4_ihl_bytes by exact Hs.
    assert (H5 : 5 <= vf_ihl (fr_ip s)) by (destruct Hs as (_ & _ & Hs & _); cbn [frame_ip vp_header vp_options] in Hs; lia).
    cbn [frame_ip vp_header]. replace (vf_ihl (fr_ip s) <? 5) with false by lia.
    assert (Hv : v4_is_valid E (v4_bytes (frame_ip inner s)) = Ok true).
    { apply c20_v4_is_valid_receiver; [apply v4_is_bytes, Hs|apply v4_no_payload_bytes, Hs| |].
      - rewrite v4_ihl_bytes by exact Hs. cbn [frame_ip vp_header]. lia.
      - rewrite v4_ihl_bytes, v4_wire_parts by exact Hs. split; [exact Hsum|].
        intros Hk. apply Hck. destruct Hs as (Hs & _). 
        change (vf_checksum (fr_ip s) / 256 * 256 + vf_checksum (fr_ip s) mod 256 = 65535) in Hk. lia. }
    change (v4_bytes {| vp_header := fr_ip s; vp_options := fr_options s; vp_payload := inner (fr_inner s); vp_behind := fr_padding s |})
      with (v4_bytes (frame_ip inner s)).
    rewrite Hv. cbn [bind negb]. replace (nthN (v4_bytes (frame_ip inner s)) 9) with proto by (symmetry; exact Hpr).
    rewrite Hwanted, N.eqb_refl. replace (body_of (v4_bytes (frame_ip inner s))) with (inner (fr_inner s)); [reflexivity|].
    unfold body_of. rewrite v4_ihl_bytes by exact Hs. destruct Hs as (Hf & _ & Hih & Htot & _).
    cbn [frame_ip vp_header vp_options vp_payload] in *.
    replace (wire16 _ 2) with (vf_total (fr_ip s)).
    2: { destruct Hf as (_ & _ & _ & _ & Hf & _). unfold u16 in Hf.
         change (vf_total (fr_ip s) = vf_total (fr_ip s) / 256 * 256 + vf_total (fr_ip s) mod 256). lia. }
    replace (vf_total (fr_ip s) - vf_ihl (fr_ip s) * 4) with (len (inner (fr_inner s))) by lia.
    unfold v4_bytes. cbn [frame_ip vp_header vp_options vp_payload vp_behind]. rewrite app_assoc.
    replace (vf_ihl (fr_ip s) * 4) with (len (v4_wire (fr_ip s) ++ fr_options s)) by (autorewrite with len; rewrite v4_wire_len; lia).
    rewrite dropN_app_len. symmetry. apply takeN_app_len.
  Qed.
  Lemma receive_ip_true b : is_bytes b ->
    (receive_ip E wanted next b = Ok true <->
     exists s, frame_packet_ok inner inner_ok s /\ b = frame_bytes inner s /\ rfc_ip proto s /\ vf_checksum (fr_ip s) <> 65535 /\
       next (v4_bytes (frame_ip inner s)) (inner (fr_inner s)) = Ok true).
  Proof.
    intros Hb. rewrite receive_ip_eq. split.
    - destruct (N.ltb_spec (len b) 14); [discriminate|]. destruct (N.eqb_spec (wire16 b 12) 2048) as [Hty|]; [|discriminate].
      destruct (v4_new (dropN 14 b)) as [ip| |] eqn:Hn; [|discriminate|discriminate].
      pose proof (v4_new_same _ _ Hn). subst ip. cbn [bind]. set (ip := dropN 14 b) in *.
      assert (Hbi : is_bytes ip) by (apply is_bytes_dropN, Hb).
      destruct (N.ltb_spec (nthN ip 0 mod 16) 5) as [|H5]; [discriminate|].
      destruct (v4_is_valid E ip) as [[]| |] eqn:Hv; [|discriminate|discriminate|discriminate]. cbn [bind negb].
      rewrite Hwanted. destruct (N.eqb_spec (nthN ip 9) proto) as [Hp|]; [|discriminate]. intros Hx.
      assert (Hbb : is_bytes (body_of ip)) by (apply is_bytes_takeN, is_bytes_dropN, Hbi).
      destruct (Hnext ip (body_of ip) Hbb Hx) as (x & Hx1 & Hx2).
      assert (Ht : nthN ip 0 mod 16 * 4 <= wire16 ip 2).
      { pose proof (Hlen x) as Hl. rewrite Hx2 in Hl. unfold body_of in Hl. autorewrite with len in Hl. lia. }
      assert (Hpl : v4_payload ip = Ok (inner x)).
      { pose proof (c07_v4 ip Hn) as Q. cbv zeta in Q. destruct Q as (_ & _ & _ & Q & _). rewrite Q, Hx2. f_equal.
        unfold body_of. rewrite takeN_dropN_comm. f_equal; f_equal; lia. }
      destruct (c71_frame_received S inner inner_ok b ip x Hb) as (s & Hs & Hsb & Hsx); try assumption.
      { destruct (c01_ether_new b) as [H1 _]. apply H1. lia. }
      { apply ether_payload_ok. lia. }
      exists s. rewrite frame_bytes_ip in Hsb. destruct Hs as (He & Hs & Hi).
      assert (Hip : ip = v4_bytes (frame_ip inner s)).
      { unfold ip. rewrite <- Hsb. rewrite <- (ether_wire_len (fr_ether s)). apply dropN_app_len. }
      split; [exact (conj He (conj Hs Hi))|]. split; [rewrite frame_bytes_ip; congruence|].
      apply c20_v4_is_valid_receiver in Hv; [|exact Hbi|rewrite Hip; apply v4_no_payload_bytes; exact Hs|lia].
      rewrite Hip in Hv at 1 2. rewrite v4_ihl_bytes, v4_wire_parts in Hv by exact Hs. destruct Hv as [Hv1 Hv2].
      split.
      + split; [|split].
        * rewrite <- Hsb in Hty. destruct He as (_ & _ & He). clear - Hty He. unfold u16 in He.
          change (ef_type (fr_ether s) / 256 * 256 + ef_type (fr_ether s) mod 256 = 2048) in Hty. lia.
        * rewrite Hip in Hp. exact Hp.
        * exact Hv1.
      + split.
        * rewrite Hip in Hv2. intros Hk. apply Hv2. clear - Hk. unfold v4_bytes.
          change (vf_checksum (fr_ip s) / 256 * 256 + vf_checksum (fr_ip s) mod 256 = 65535). lia.
        * rewrite Hsx, <- Hip, Hx2. exact Hx.
    - intros (s & Hs & -> & Hr & Hck & Hx). rewrite <- receive_ip_eq, receive_ip_on by assumption. exact Hx.
  Qed.
End RECEIVE.

Ltac parity H := destruct H as [H|H]; [left; lia|right; exact H].
Lemma want_udp n : (match ip_protocol_from n with IP_Udp => true | _ => false end) = (n =? 17).
Proof. 
  destruct (N.eqb_spec n 17) as [->|H]; [reflexivity|]. pose proof (ip_from_into n) as Hi.
  destruct (ip_protocol_from n); try reflexivity; exfalso; cbn in Hi; subst n; congruence.
Qed.
Lemma want_tcp n : (match ip_protocol_from n with IP_Tcp => true | _ => false end) = (n =? 6).
Proof. 
  destruct (N.eqb_spec n 6) as [->|H]; [reflexivity|]. pose proof (ip_from_into n) as Hi.
  destruct (ip_protocol_from n); try reflexivity; exfalso; cbn in Hi; subst n; congruence.
Qed.
Lemma want_icmp n : (match ip_protocol_from n with IP_Icmp => true | _ => false end) = (n =? 1).
Proof. 
  destruct (N.eqb_spec n 1) as [->|H]; [reflexivity|]. pose proof (ip_from_into n) as Hi.
  destruct (ip_protocol_from n); try reflexivity; exfalso; cbn in Hi; subst n; congruence.
Qed.
Lemma udp_length_ok b : 8 <= len b -> udp_length b = Ok (wire16 b 4).
Proof. intros H. unfold udp_length. apply get16. lia. Qed.
(** The parity of the transport packet is that of the total length. *)
Lemma inner_parity {S} (inner : S -> bytes) inner_ok s : frame_packet_ok inner inner_ok s ->
  wire16 (frame_bytes inner s) 16 = vf_total (fr_ip s) /\ vf_total (fr_ip s) mod 2 = len (inner (fr_inner s)) mod 2 /\
  len (inner (fr_inner s)) <= 65535.
Proof.
  intros (_ & Hs & _). destruct Hs as (Hf & _ & Hih & Htot & _). cbn [frame_ip vp_header vp_options vp_payload] in *.
  destruct Hf as (_ & _ & _ & _ & Hf & _). unfold u16 in Hf. split.
  - change (vf_total (fr_ip s) / 256 * 256 + vf_total (fr_ip s) mod 256 = vf_total (fr_ip s)). lia.
  - split; lia.
Qed.
Lemma frame_addrs {S} (inner : S -> bytes) s :
  wire_addr (v4_bytes (frame_ip inner s)) 12 = vf_src (fr_ip s) /\ wire_addr (v4_bytes (frame_ip inner s)) 16 = vf_dst (fr_ip s).
Proof. apply v4_wire_addrs. Qed.

(** C72: UDP.  The program accepts exactly the frames an RFC 768 receiver accepts,
    except that it refuses a checksum stored as 0xffff and a datagram without
    checksum. *)
Lemma c72_udp : forall E b, is_bytes b -> wire16 b 16 mod 2 = 0 \/ cursor_eof E = EofKeep ->
  (receive_udp E b = Ok true <->
   exists s, rfc_udp b s /\ vf_checksum (fr_ip s) <> 65535 /\ uf_checksum (up_header (fr_inner s)) <> 65535 /\
     (uf_checksum (up_header (fr_inner s)) = 0 -> sums_up udp_bytes s)).
Proof.
  intros E b Hb Hpar. unfold receive_udp. rewrite verdict_true.
  rewrite (receive_ip_true E udp_bytes (fun x => udp_packet_ok x /\ up_behind x = []) _ 17 _ want_udp); [|intros x; rewrite udp_len; lia| |exact Hb].
  2: { intros ip body Hbb Hx. destruct (udp_new body) as [u| |] eqn:Hu; [|discriminate|discriminate]. cbn [bind] in Hx.
       assert (u = body) as -> by (apply udp_new_iff in Hu; tauto). pose proof Hu as Hu'. apply udp_new_iff in Hu' as (_ & Hl & _).
       rewrite udp_length_ok in Hx by lia. cbn [bind] in Hx. destruct (N.eqb_spec (wire16 body 4) (len body)) as [Hw|]; [|discriminate].
       destruct (c71_udp_received body Hbb Hu ltac:(lia)) as (x & Hx1 & Hx2). exists x. split; [split; [exact Hx1|]|exact Hx2].
       destruct Hx1 as (Hf & Hlen & _). pose proof (udp_len x) as HL. rewrite Hx2 in HL.
       assert (Hw2 : wire16 body 4 = uf_length (up_header x)).
       { rewrite <- Hx2. destruct Hf as (_ & _ & Hf & _). unfold u16 in Hf.
         change (uf_length (up_header x) / 256 * 256 + uf_length (up_header x) mod 256 = uf_length (up_header x)). lia. }
       destruct (up_behind x); [reflexivity|]. autorewrite with len in HL. lia. }
  split.
  - intros (s & (He & Hs & Hi & Hbe) & Hbs & Hrfc & Hck & Hx). exists s.
    assert (Hok : frame_packet_ok udp_bytes udp_packet_ok s) by exact (conj He (conj Hs Hi)).
    destruct (inner_parity udp_bytes udp_packet_ok s Hok) as (P1 & P2 & P3). rewrite <- Hbs in P1.
    rewrite udp_new_bytes in Hx by exact Hi. cbn [bind] in Hx. rewrite udp_length_ok in Hx by (rewrite udp_len; lia). cbn [bind] in Hx.
    destruct (_ =? _); [|discriminate].
    apply c21_udp_is_valid_receiver in Hx; [|apply v4_is_bytes, Hs|apply udp_is_bytes, Hi|rewrite v4_len; lia|rewrite udp_len; lia|parity Hpar].
    destruct (frame_addrs udp_bytes s) as [A1 A2]. rewrite A1, A2 in Hx. destruct Hx as [Hx1 Hx2].
    assert (Hsum : sums_up udp_bytes s) by (unfold sums_up; destruct Hrfc as (_ & -> & _); exact Hx1).
    split; [|split; [exact Hck|split; [|intros _; exact Hsum]]].
    + split; [exact Hok|]. split; [exact Hbs|]. split; [exact Hrfc|]. split; [exact Hbe|right; exact Hsum].
    + intros Hk. apply Hx2. clear - Hk.
      change (uf_checksum (up_header (fr_inner s)) / 256 * 256 + uf_checksum (up_header (fr_inner s)) mod 256 = 65535). lia.
  - intros (s & (Hok & Hbs & Hrfc & Hbe & Hsum) & Hck & Huk & Hz). exists s.
    destruct (inner_parity udp_bytes udp_packet_ok s Hok) as (P1 & P2 & P3). rewrite <- Hbs in P1. destruct Hok as (He & Hs & Hi).
    split; [exact (conj He (conj Hs (conj Hi Hbe)))|]. split; [exact Hbs|]. split; [exact Hrfc|]. split; [exact Hck|].
    rewrite udp_new_bytes by exact Hi. cbn [bind]. rewrite udp_length_ok by (rewrite udp_len; lia). cbn [bind].
    assert (Hw2 : wire16 (udp_bytes (fr_inner s)) 4 = uf_length (up_header (fr_inner s))).
    { destruct Hi as ((_ & _ & Hf & _) & _). unfold u16 in Hf.
      change (uf_length (up_header (fr_inner s)) / 256 * 256 + uf_length (up_header (fr_inner s)) mod 256 = uf_length (up_header (fr_inner s))). lia. }
    rewrite Hw2, udp_len, Hbe. pose proof Hi as (_ & Hlen & _). rewrite len_nil. replace (_ =? _) with true by lia.
    apply c21_udp_is_valid_receiver; [apply v4_is_bytes, Hs|apply udp_is_bytes, Hi|rewrite v4_len; lia|rewrite udp_len; lia|parity Hpar|].
    destruct (frame_addrs udp_bytes s) as [A1 A2]. rewrite A1, A2. split.
    + destruct Hrfc as (_ & Hp & _). rewrite <- Hp. destruct Hsum as [Hsum|Hsum]; [exact (Hz Hsum)|exact Hsum].
    + intros Hk. apply Huk. destruct Hi as ((_ & _ & _ & Hf) & _). unfold u16 in Hf.
      change (uf_checksum (up_header (fr_inner s)) / 256 * 256 + uf_checksum (up_header (fr_inner s)) mod 256 = 65535) in Hk. lia.
Qed.

(** C72: TCP.  Exactly the frames an RFC 793 receiver accepts, except those with a
    checksum stored as 0xffff. *)
Lemma c72_tcp : forall E b, is_bytes b -> wire16 b 16 mod 2 = 0 \/ cursor_eof E = EofKeep ->
  (receive_tcp E b = Ok true <->
   exists s, rfc_tcp b s /\ vf_checksum (fr_ip s) <> 65535 /\ tf_checksum (tp_header (fr_inner s)) <> 65535).
Proof.
  intros E b Hb Hpar. unfold receive_tcp. rewrite verdict_true.
  rewrite (receive_ip_true E tcp_bytes (fun x => tcp_packet_ok x /\ tcp_spoiled x = false) _ 6 _ want_tcp); [|intros x; rewrite tcp_len; lia| |exact Hb].
  2: { intros ip body Hbb Hx. destruct (tcp_new body) as [t| |] eqn:Hu; [|discriminate|discriminate]. cbn [bind] in Hx.
       assert (t = body) as -> by (apply tcp_new_iff in Hu; tauto). pose proof Hu as Hu'. apply tcp_new_iff in Hu' as (_ & Hl & _).
       rewrite tcp_offset_ok in Hx by lia. cbn [bind] in Hx. destruct (N.ltb_spec (nthN body 12 / 16) 5); [discriminate|].
       destruct (c71_tcp_received body Hbb Hu ltac:(lia)) as (x & Hx1 & Hx2 & Hx3). exists x. tauto. }
  assert (Hw : forall s, tcp_fields_ok (tp_header (fr_inner s)) ->
    wire16 (tcp_bytes (fr_inner s)) 16 = tf_checksum (tp_header (fr_inner s))).
  { intros s (_ & _ & _ & _ & _ & _ & _ & _ & Hf & _). unfold u16 in Hf.
    change (tf_checksum (tp_header (fr_inner s)) / 256 * 256 + tf_checksum (tp_header (fr_inner s)) mod 256 = tf_checksum (tp_header (fr_inner s))). lia. }
  assert (Hoff : forall s, tcp_packet_ok (fr_inner s) -> tcp_spoiled (fr_inner s) = false -> nthN (tcp_bytes (fr_inner s)) 12 / 16 <? 5 = false).
  { intros s Hi Hsp. rewrite tcp_offset_bytes by exact Hi. destruct Hi as (_ & Ho & _). unfold tcp_spoiled in Hsp. lia. }
  split.
  - intros (s & (He & Hs & Hi & Hbe) & Hbs & Hrfc & Hck & Hx). exists s.
    assert (Hok : frame_packet_ok tcp_bytes tcp_packet_ok s) by exact (conj He (conj Hs Hi)).
    destruct (inner_parity tcp_bytes tcp_packet_ok s Hok) as (P1 & P2 & P3). rewrite <- Hbs in P1.
    rewrite tcp_new_bytes in Hx by exact Hi. cbn [bind] in Hx. rewrite tcp_offset_ok in Hx by (rewrite tcp_len; lia). cbn [bind] in Hx.
    rewrite Hoff in Hx by assumption.
    apply c22_tcp_is_valid_receiver in Hx; [|apply v4_is_bytes, Hs|apply tcp_is_bytes, Hi|rewrite v4_len; lia|rewrite tcp_len in *; lia|parity Hpar].
    destruct (frame_addrs tcp_bytes s) as [A1 A2]. rewrite A1, A2, Hw in Hx by apply Hi. destruct Hx as [Hx1 Hx2].
    split; [|split; [exact Hck|exact Hx2]].
    split; [exact Hok|]. split; [exact Hbs|]. split; [exact Hrfc|]. split; [exact Hbe|]. unfold sums_up. destruct Hrfc as (_ & -> & _). exact Hx1.
  - intros (s & (Hok & Hbs & Hrfc & Hbe & Hsum) & Hck & Huk). exists s.
    destruct (inner_parity tcp_bytes tcp_packet_ok s Hok) as (P1 & P2 & P3). rewrite <- Hbs in P1. destruct Hok as (He & Hs & Hi).
    split; [exact (conj He (conj Hs (conj Hi Hbe)))|]. split; [exact Hbs|]. split; [exact Hrfc|]. split; [exact Hck|].
    rewrite tcp_new_bytes by exact Hi. cbn [bind]. rewrite tcp_offset_ok by (rewrite tcp_len; lia). cbn [bind]. rewrite Hoff by assumption.
    apply c22_tcp_is_valid_receiver; [apply v4_is_bytes, Hs|apply tcp_is_bytes, Hi|rewrite v4_len; lia|rewrite tcp_len in *; lia|parity Hpar|].
    destruct (frame_addrs tcp_bytes s) as [A1 A2]. rewrite A1, A2, Hw by apply Hi. split; [|exact Huk].
    unfold sums_up in Hsum. destruct Hrfc as (_ & Hp & _). rewrite Hp in Hsum. exact Hsum.
Qed.

Lemma wire16_drop_odd b i : i mod 2 = 0 -> i + 2 <= len b -> wire16 (drop_odd b) i = wire16 b i.
Proof. intros Hi Hl. unfold wire16, drop_odd. rewrite !nthN_takeN by lia. reflexivity. Qed.
Lemma drop_odd_zeroed off b : off mod 2 = 0 -> off + 2 <= len b -> drop_odd (zero_field off b) = zero_field off (drop_odd b).
Proof.
  intros Ho Hl. assert (Hd : off + 2 <= len (drop_odd b)) by (rewrite len_drop_odd; lia).
  rewrite (zero_field_eq off (drop_odd b)) by exact Hd. unfold drop_odd. rewrite len_zero_field, zero_field_eq by exact Hl. set (n := len b / 2 * 2) in *.
  rewrite takeN_app2 by (autorewrite with len; lia). rewrite takeN_app2 by (autorewrite with len; lia).
  rewrite takeN_takeN. f_equal; [f_equal; lia|]. f_equal. rewrite takeN_dropN_comm. f_equal. f_equal. autorewrite with len. change (len [0; 0]) with 2. lia.
Qed.
Lemma word_sum_zero_iff b : word_sum b = 0 <-> Forall (eq 0) b.
Proof.
  remember (length b) as n eqn:Hn. assert (Hle : (length b <= n)%nat) by lia. clear Hn. revert b Hle. induction n as [|n IH]; intros [|x [|y b]] Hle.
  1, 4: split; [constructor|reflexivity].
  - cbn in Hle. lia.
  - cbn in Hle. lia.
  - cbn [word_sum]. split; [intros H; repeat constructor; lia|intros H; inversion H; lia].
  - change (word_sum (x :: y :: b)) with (x * 256 + y + word_sum b). cbn [length] in Hle. assert (Hb : (length b <= n)%nat) by lia. specialize (IH b Hb). split.
    + intros H. constructor; [lia|]. constructor; [lia|]. apply IH. lia.
    + intros H. inversion_clear H as [|? ? H1 H2]. inversion_clear H2 as [|? ? H2' H3]. apply IH in H3. lia.
Qed.
Lemma icmp_is_valid_iff E b : is_bytes b -> 4 <= len b ->
  (icmp_is_valid E b = Ok true <-> (receiver_accepts (drop_odd b) /\ wire16 b 2 <> 65535) \/ word_sum (drop_odd b) = 0).
Proof.
  intros Hb Hl. unfold icmp_is_valid. rewrite c23_icmp_checksum by exact Hb. cbn [bind]. unfold icmp_checksum. rewrite get16 by lia. cbn [bind].
  rewrite ok_true_eqb. rewrite drop_odd_zeroed by (reflexivity || lia).
  assert (Hd : 4 <= len (drop_odd b)) by (rewrite len_drop_odd; lia).
  unfold receiver_accepts. rewrite (word_sum_stored 2 (drop_odd b)) by (reflexivity || lia). rewrite wire16_drop_odd by (reflexivity || lia).
  pose proof (wire16_lt b 2 Hb) as Hw. unfold nonzero_checksum, inet_checksum. set (z := word_sum (zero_field 2 (drop_odd b))) in *. clearbody z.
  set (v := wire16 b 2) in *. clearbody v. destruct (N.eqb_spec z 0) as [->|Hz].
  - unfold ones_sum. rewrite !N.add_0_l. destruct (N.eqb_spec v 0); lia.
  - rewrite stored_receiver by lia. lia.
Qed.
Lemma echo_checksum_cell c : echo_packet_ok c -> wire16 (echo_bytes c) 2 = cf_checksum (cp_header c).
Proof.
  intros ((_ & _ & Hf) & _). unfold u16 in Hf.
  change (cf_checksum (cp_header c) / 256 * 256 + cf_checksum (cp_header c) mod 256 = cf_checksum (cp_header c)). lia.
Qed.
(** C72: ICMP echo.  What an RFC 792 receiver accepts, with the last byte of an odd
    number not looked at; but a checksum stored as 0xffff is refused, and the
    message of zeros is accepted with checksum 0 instead. *)
Lemma c72_echo : forall E b, is_bytes b ->
  (receive_echo E b = Ok true <->
   exists s, frame_packet_ok echo_bytes echo_packet_ok s /\ b = frame_bytes echo_bytes s /\ rfc_ip 1 s /\ vf_checksum (fr_ip s) <> 65535 /\
     let m := drop_odd (echo_bytes (fr_inner s)) in
     (receiver_accepts m /\ cf_checksum (cp_header (fr_inner s)) <> 65535) \/ word_sum m = 0).
Proof.
  intros E b Hb. unfold receive_echo. rewrite verdict_true.
  rewrite (receive_ip_true E echo_bytes echo_packet_ok _ 1 _ want_icmp); [|intros x; rewrite echo_len; lia| |exact Hb].
  2: { intros ip body Hbb Hx. destruct (echo_new body) as [t| |] eqn:Hu; [|discriminate|discriminate]. cbn [bind] in Hx.
       assert (t = body) as -> by (apply (typed_inv _ _ _ _ _ c05_echo_new) in Hu; tauto).
       destruct (c71_echo_received body Hbb Hu) as (x & Hx1 & Hx2). exists x. tauto. }
  assert (Hv : forall s, frame_packet_ok echo_bytes echo_packet_ok s ->
    (let* m := echo_new (echo_bytes (fr_inner s)) in icmp_is_valid E m) = Ok true <->
     (receiver_accepts (drop_odd (echo_bytes (fr_inner s))) /\ cf_checksum (cp_header (fr_inner s)) <> 65535) \/
     word_sum (drop_odd (echo_bytes (fr_inner s))) = 0).
  { intros s (_ & _ & Hi). rewrite echo_new_bytes by exact Hi. cbn [bind]. rewrite icmp_is_valid_iff by (apply echo_is_bytes, Hi || rewrite echo_len; lia).
    rewrite echo_checksum_cell by exact Hi. tauto. }
  split; intros (s & Hok & Hbs & Hrfc & Hck & Hx); exists s; split; try exact Hok; split; try exact Hbs; split; try exact Hrfc; split; try exact Hck;
    apply Hv; assumption.
Qed.
(** C72: for an even number of bytes, not all zero, that is RFC 792. *)
Lemma c72_echo_even : forall E b, is_bytes b -> wire16 b 16 mod 2 = 0 ->
  (receive_echo E b = Ok true <->
   (exists s, rfc_echo b s /\ vf_checksum (fr_ip s) <> 65535 /\ cf_checksum (cp_header (fr_inner s)) <> 65535) \/
   (exists s, frame_packet_ok echo_bytes echo_packet_ok s /\ b = frame_bytes echo_bytes s /\ rfc_ip 1 s /\ vf_checksum (fr_ip s) <> 65535 /\
      Forall (eq 0) (echo_bytes (fr_inner s)))).
Proof.
  intros E b Hb Hpar. rewrite c72_echo by exact Hb. cbv zeta. unfold rfc_echo.
  assert (Hd : forall s, frame_packet_ok echo_bytes echo_packet_ok s -> b = frame_bytes echo_bytes s ->
    drop_odd (echo_bytes (fr_inner s)) = echo_bytes (fr_inner s)).
  { intros s Hok Hbs. destruct (inner_parity echo_bytes echo_packet_ok s Hok) as (P1 & P2 & P3). rewrite <- Hbs in P1. apply drop_odd_even. lia. }
  assert (Hz : forall s, frame_packet_ok echo_bytes echo_packet_ok s -> b = frame_bytes echo_bytes s ->
    word_sum (drop_odd (echo_bytes (fr_inner s))) = 0 <-> Forall (eq 0) (echo_bytes (fr_inner s))).
  { intros s Hok Hbs. rewrite Hd by assumption. apply word_sum_zero_iff. }
  split.
  - intros (s & Hok & Hbs & Hrfc & Hck & [[Hx Hc]|Hx]).
    + left. exists s. rewrite Hd in Hx by assumption. tauto.
    + right. exists s. apply Hz in Hx; [|exact Hok|exact Hbs]. tauto.
  - intros [(s & (Hok & Hbs & Hrfc & Hx) & Hck & Hc)|(s & Hok & Hbs & Hrfc & Hck & Hx)]; exists s; (do 4 (split; [assumption|])).
    + left. rewrite Hd by assumption. tauto.
    + right. apply Hz; assumption.
Qed.

Lemma verdict_total r : r <> Panic -> exists v, verdict r = Ok v.
Proof. destruct r as [v|e|]; intros H; [exists v|exists false|exfalso; apply H]; reflexivity. Qed.
Lemma receive_ip_total E wanted next b : is_bytes b ->
  (forall ip, is_bytes ip -> v4_new ip = Ok ip -> wire16 ip 2 = wire16 b 16 -> next ip (body_of ip) <> Panic) -> receive_ip E wanted next b <> Panic.
Proof.
  intros Hb Hn. rewrite receive_ip_eq. destruct (N.ltb_spec (len b) 14); [discriminate|]. destruct (wire16 b 12 =? 2048); [|discriminate].
  destruct (v4_new (dropN 14 b)) as [ip| |] eqn:Hv; [|discriminate|intros _; eapply FrameProofs.v4_new_no_panic; exact Hv].
  pose proof (v4_new_same _ _ Hv). subst ip. cbn [bind]. set (ip := dropN 14 b) in *.
  assert (Hbi : is_bytes ip) by (apply is_bytes_dropN, Hb).
  destruct (N.ltb_spec (nthN ip 0 mod 16) 5) as [|H5]; [discriminate|].
  assert (H20 : 20 <= len ip /\ nthN ip 0 mod 16 * 4 <= len ip) by (apply c02_v4_new_iff in Hv; lia).
  rewrite v4_is_valid_eq by (assumption || lia). cbn [bind]. destruct (negb _); [discriminate|]. destruct (wanted _); [|discriminate].
  apply Hn; [exact Hbi|exact Hv|apply wire16_dropN].
Qed.
Lemma is_bytes_body ip : is_bytes ip -> is_bytes (body_of ip).
Proof. intros H. apply is_bytes_takeN, is_bytes_dropN, H. Qed.
(** C72: the program gives a verdict on every frame; only TCP segments of an odd
    number of bytes are an exception, ... *)
Lemma c72_total : forall E b, is_bytes b ->
  (exists v, receive_udp E b = Ok v) /\ (exists v, receive_echo E b = Ok v) /\
  (wire16 b 16 mod 2 = 0 \/ cursor_eof E = EofKeep -> exists v, receive_tcp E b = Ok v).
Proof.
  intros E b Hb. repeat split.
  - apply verdict_total, receive_ip_total; [exact Hb|]. intros ip Hip Hv Hw. pose proof (is_bytes_body ip Hip) as Hbb. set (body := body_of ip) in *.
    destruct (N.ltb_spec (len body) 8).
    { unfold udp_new, udp_no_payload, udp_header_min. destruct (N.ltb_spec (len body) 8); [discriminate|lia]. }
    destruct (udp_new body) as [u| |] eqn:Hu; [|discriminate|].
    + assert (u = body) as -> by (apply udp_new_iff in Hu; tauto). cbn [bind]. rewrite udp_length_ok by lia. cbn [bind]. destruct (_ =? _); [|discriminate].
      apply c02_v4_new_iff in Hv. rewrite udp_is_valid_eq by (assumption || lia). discriminate.
    + exfalso. unfold udp_new, udp_no_payload, udp_header_min in Hu. destruct (N.ltb_spec (len body) 8); [discriminate|]. cbn [bind] in Hu. rewrite udp_length_ok in Hu by lia. cbn [bind] in Hu. destruct (_ <? _) in Hu; discriminate.
  - apply verdict_total, receive_ip_total; [exact Hb|]. intros ip Hip Hv Hw. pose proof (is_bytes_body ip Hip) as Hbb. set (body := body_of ip) in *.
    destruct (echo_new body) as [u| |] eqn:Hu; [|discriminate|].
    + apply (typed_inv _ _ _ _ _ c05_echo_new) in Hu as (-> & Hl & _). cbn [bind]. unfold icmp_is_valid. rewrite c23_icmp_checksum by assumption. cbn [bind].
      unfold icmp_checksum. rewrite get16 by lia. discriminate.
    + exfalso. destruct (N.ltb_spec (len body) 8).
      * unfold echo_new, icmp_typed_new in Hu. destruct (N.ltb_spec (len body) 8); [discriminate|lia].
      * unfold echo_new, icmp_typed_new in Hu. destruct (N.ltb_spec (len body) 8); [discriminate|]. rewrite index_ok in Hu by lia. cbn [bind] in Hu. destruct (icmp_kind_from _) in Hu; discriminate.
  - intros Hpar. apply verdict_total, receive_ip_total; [exact Hb|]. intros ip Hip Hv Hw. pose proof (is_bytes_body ip Hip) as Hbb.
    assert (Hlb : len (body_of ip) = N.min (wire16 ip 2 - nthN ip 0 mod 16 * 4) (len ip - nthN ip 0 mod 16 * 4)) by (unfold body_of; autorewrite with len; reflexivity).
    set (body := body_of ip) in *. apply c02_v4_new_iff in Hv. pose proof (wire16_lt ip 2 Hip) as H16.
    destruct (tcp_new body) as [t| |] eqn:Hu; [|discriminate|].
    + assert (t = body) as -> by (apply tcp_new_iff in Hu; tauto). apply tcp_new_iff in Hu as (_ & Hl & _). cbn [bind]. rewrite tcp_offset_ok by lia. cbn [bind]. destruct (_ <? _); [discriminate|].
      rewrite c22_tcp_is_valid; [discriminate|exact Hip|exact Hbb|lia|lia|]. destruct Hpar as [Hpar|Hpar]; [left; lia|right; exact Hpar].
    + exfalso. unfold tcp_new in Hu. destruct (N.ltb_spec (len body) tcp_header_min) as [|Hm]; [discriminate|]. unfold tcp_header_min in Hm. rewrite tcp_offset_ok in Hu by lia. cbn [bind] in Hu. destruct (_ <? _) in Hu; discriminate.
Qed.
(** C72: ... which panic, whoever sent them. *)
Lemma c72_tcp_odd_refuted : forall E s, frame_packet_ok tcp_bytes tcp_packet_ok s -> rfc_ip 6 s -> vf_checksum (fr_ip s) <> 65535 ->
  tcp_spoiled (fr_inner s) = false -> vf_total (fr_ip s) mod 2 = 1 -> cursor_eof E = EofSeek ->
  receive_tcp E (frame_bytes tcp_bytes s) = Panic.
Proof.
  intros E s Hok Hr Hck Hsp Hodd Heof. unfold receive_tcp. rewrite (receive_ip_on E tcp_bytes tcp_packet_ok _ 6 _ want_tcp s Hok Hr Hck).
  destruct (inner_parity tcp_bytes tcp_packet_ok s Hok) as (P1 & P2 & P3). destruct Hok as (He & Hs & Hi).
  rewrite tcp_new_bytes by exact Hi. cbn [bind]. rewrite tcp_offset_ok by (rewrite tcp_len; lia). cbn [bind]. rewrite tcp_offset_bytes by exact Hi.
  assert (Ho : tf_offset (tp_header (fr_inner s)) <? 5 = false) by (destruct Hi as (_ & Ho & _); unfold tcp_spoiled in Hsp; lia). rewrite Ho.
  unfold tcp_is_valid. rewrite c22_tcp_checksum_odd; [reflexivity|apply v4_is_bytes, Hs|apply tcp_is_bytes, Hi|rewrite v4_len; lia|lia|lia|exact Heof].
Qed.
