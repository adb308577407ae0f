(** * FrameMachineProofs: a received frame in use is a record of fields (C71). *)
From Verif Require Import Base Enums Ether Ipv4 Ip Udp Tcp Icmp Spec SpecCalls SpecEdit SpecForward SpecMachine Mutable Lemmas AccessProofs
  ParseProofs FieldProofs SliceProofs MutableProofs ChecksumLemmas ChecksumProofs GuardProofs EditProofs ForwardProofs MachineProofs.
From Coq Require Import ZifyBool ZifyNat ZifyN.
Ltac Zify.zify_post_hook ::= Z.div_mod_to_equations.

Lemma ether_wire_len f : len (ether_wire f) = 14.
Proof. reflexivity. Qed.
(** Editing what an Ethernet header is followed by. *)
Lemma edit_datagram_on edit (f : ether_fields) d : v4_new d = Ok d ->
  edit_datagram edit (ether_wire f ++ d) = (ether_wire f ++ fst (edit d), snd (edit d)).
Proof.
  intros Hd. set (e := ether_wire f). assert (He : len e = 14) by reflexivity.
  assert (Hm : ether_split_mut (e ++ d) = Ok (Span 0 14, Span 14 (len d))).
  { unfold ether_split_mut, split_at_mut, whole. cbn [s_len s_at]. rewrite len_app, He.
    destruct (N.leb_spec 14 (14 + len d)); [|lia]. do 3 f_equal. lia. }
  assert (Hr : span_read (Span 14 (len d)) (e ++ d) = d).
  { unfold span_read. cbn [s_at s_len]. rewrite <- He at 1. rewrite dropN_app_len. apply takeN_all. lia. }
  unfold edit_datagram. rewrite Hm, Hr, Hd. unfold span_run. rewrite Hr. destruct (edit d) as [d' r]. cbn [fst snd]. f_equal.
  unfold span_write. cbn [s_at s_len]. rewrite <- He at 1. rewrite takeN_app_len. rewrite dropN_all by (rewrite len_app; lia).
  now rewrite app_nil_r.
Qed.
(** Editing the payload of an IPv4 packet. *)
Lemma edit_transport_on parse edit p : v4_packet_ok p -> parse (vp_payload p) = Ok (vp_payload p) ->
  let r := edit (V4 (v4_wire (vp_header p) ++ vp_options p)) (vp_payload p) in
  edit_transport parse edit (v4_bytes p) =
  (v4_wire (vp_header p) ++ vp_options p ++ fst r ++ vp_behind p, snd r).
Proof.
  intros Hp Hu r. set (h := v4_wire (vp_header p) ++ vp_options p) in *.
  assert (Hb : v4_bytes p = h ++ vp_payload p ++ vp_behind p) by (unfold v4_bytes, h; rewrite <- app_assoc; reflexivity).
  assert (Hs : v4_split_mut (v4_bytes p) = Ok (Span 0 (len h), Span (len h) (len (vp_payload p)))).
  { pose proof (v4_ihl_bytes p Hp) as Hi. pose proof (proj1 (proj2 (proj2 Hp))) as Hl.
    pose proof (proj1 (proj2 (proj2 (proj2 Hp)))) as Ht.
    pose proof (c49_v4 (v4_bytes p) (v4_new_bytes p Hp) ltac:(lia)) as Q. cbv zeta in Q. destruct Q as (Q & _). rewrite Q.
    assert (Hw : wire16 (v4_bytes p) 2 = vf_total (vp_header p)).
    { change (wire16 (v4_bytes p) 2) with (vf_total (vp_header p) / 256 * 256 + vf_total (vp_header p) mod 256). lia. }
    unfold h. rewrite Hw, Hi, len_app, v4_wire_len, Hl, Ht. do 2 f_equal; f_equal; lia. }
  assert (Hr1 : span_read (Span 0 (len h)) (v4_bytes p) = h).
  { unfold span_read. cbn [s_at s_len]. change (dropN 0 (v4_bytes p)) with (v4_bytes p). rewrite Hb. apply takeN_app_len. }
  assert (Hr2 : span_read (Span (len h) (len (vp_payload p))) (v4_bytes p) = vp_payload p).
  { unfold span_read. cbn [s_at s_len]. rewrite Hb, dropN_app_len. apply takeN_app_len. }
  unfold edit_transport. rewrite Hs, Hr1, Hr2, Hu. unfold span_run. rewrite Hr2. subst r.
  destruct (edit (V4 h) (vp_payload p)) as [u' r]. cbn [fst snd]. f_equal.
  unfold span_write. cbn [s_at s_len]. rewrite Hb, takeN_app_len.
  rewrite dropN_app2 by lia. replace (len h + len (vp_payload p) - len h) with (len (vp_payload p)) by lia. rewrite dropN_app_len.
  unfold h. rewrite <- app_assoc. reflexivity.
Qed.
Lemma ether_assign_step o f d : ether_apply o (ether_wire f ++ d) = (ether_wire (ether_assign o f) ++ d, Ok tt).
Proof.
  assert (Hl : len (ether_wire f ++ d) = 14 + len d) by (rewrite len_app; reflexivity).
  destruct o; cbn [ether_apply]; unfold ether_set_destination, ether_set_source, ether_set_protocol;
    (first [rewrite copy_range_ok by (reflexivity || lia)|rewrite write_u16_ok by lia]); reflexivity.
Qed.
Lemma ether_assign_ok o f : ether_call_ok o -> ether_fields_ok f -> ether_fields_ok (ether_assign o f).
Proof. intros Ho (H1 & H2 & H3). destruct o; repeat split; assumption. Qed.
Lemma v4_do_header a p : (forall new, a <> Fill new) -> fst (v4_do a p) = with_header p (vp_header (fst (v4_do a p))).
Proof.
  intros Ha. destruct a as [o|ops|new|[v|]]; cbn [v4_do]; try reflexivity; [|destruct (Ha new eq_refl)].
  destruct (v4_assign o (vp_header p)) as [f r]. reflexivity.
Qed.
Lemma v4_wire_addrs f o : wire_addr (v4_wire f ++ o) 12 = vf_src f /\ wire_addr (v4_wire f ++ o) 16 = vf_dst f.
Proof. destruct f as [? ? ? ? ? ? ? ? ? ? ? ? ? [a b c d] [e g h i]]; split; reflexivity. Qed.
Lemma is_bytes_v4_header p : v4_packet_ok p -> is_bytes (v4_wire (vp_header p) ++ vp_options p).
Proof.
  intros Hp. pose proof (v4_is_bytes p Hp) as H. unfold v4_bytes in H. rewrite app_assoc in H. apply is_bytes_app in H. apply H.
Qed.

(** One action on a frame, given the same for the transport packet. *)
Section Frame.
Context {S A : Type} (E : env) (inner : S -> bytes) (inner_ok : S -> Prop) (inner_do : ipv4addr -> ipv4addr -> A -> S -> S * res unit)
  (parse : bytes -> res bytes) (act : ip_packet -> A -> mut) (ok : A -> S -> Prop) (side : N -> Prop).
Hypothesis encoded : forall s, inner_ok s -> is_bytes (inner s).
Hypothesis parses : forall s, inner_ok s -> parse (inner s) = Ok (inner s).
Hypothesis step : forall p a s, is_bytes p -> 20 <= len p -> inner_ok s -> ok a s -> side (len (inner s)) ->
  let r := inner_do (wire_addr p 12) (wire_addr p 16) a s in
  snd (act (V4 p) a (inner s)) = snd r /\
  (snd r <> Panic -> fst (act (V4 p) a (inner s)) = inner (fst r) /\ inner_ok (fst r) /\ len (inner (fst r)) = len (inner s)).

Lemma frame_bytes_ip s : frame_bytes inner s = ether_wire (fr_ether s) ++ v4_bytes (frame_ip inner s).
Proof. reflexivity. Qed.
Lemma frame_step a s : frame_packet_ok inner inner_ok s -> side (len (inner (fr_inner s))) -> frame_action_ok ok a s ->
  let r := frame_do inner inner_do a s in
  snd (frame_act E parse act a (frame_bytes inner s)) = snd r /\
  (snd r <> Panic -> fst (frame_act E parse act a (frame_bytes inner s)) = frame_bytes inner (fst r) /\
    frame_packet_ok inner inner_ok (fst r) /\ len (inner (fr_inner (fst r))) = len (inner (fr_inner s)) /\
    len (frame_bytes inner (fst r)) = len (frame_bytes inner s)).
Proof.
  intros (He & Hv & Hi) Hs Ha. pose proof (v4_new_bytes _ Hv) as Hn. rewrite frame_bytes_ip.
  destruct a as [o|a|a]; cbn [frame_act frame_do] in *.
  - rewrite ether_assign_step. cbn [fst snd]. split; [reflexivity|]. intros _. split; [reflexivity|].
    split; [|split; [reflexivity|]].
    + split; [apply ether_assign_ok; assumption|]. split; [exact Hv|exact Hi].
    + rewrite frame_bytes_ip, !len_app, !ether_wire_len. reflexivity.
  - rewrite edit_datagram_on by exact Hn. cbn [fst snd].
    assert (Ha' : v4_action_ok a) by (destruct a; [exact Ha|exact Ha|destruct Ha|exact Ha]).
    assert (Hf : forall new, a <> Fill new) by (intros new ->; exact Ha).
    destruct (v4_step E a _ Hv Ha') as [G1 G2]. pose proof (v4_do_header a (frame_ip inner s) Hf) as Hh.
    destruct (v4_do a (frame_ip inner s)) as [p r]. cbn [fst snd] in *. split; [exact G1|]. intros Hr. destruct (G2 Hr) as (G3 & G4 & G5).
    rewrite G3. rewrite Hh in *. cbn [with_header vp_header vp_options vp_payload vp_behind frame_ip] in *. split; [reflexivity|].
    split; [|split; [reflexivity|]].
    + split; [exact He|]. split; [exact G4|exact Hi].
    + rewrite frame_bytes_ip, !len_app, !ether_wire_len. exact (f_equal (N.add 14) G5).
  - rewrite edit_datagram_on by exact Hn. cbn [fst snd].
    rewrite (edit_transport_on parse (fun ip => act ip a) (frame_ip inner s) Hv (parses _ Hi)).
    cbn [fst snd frame_ip vp_header vp_options vp_payload vp_behind].
    pose proof (is_bytes_v4_header _ Hv) as Hb. cbn [frame_ip vp_header vp_options] in Hb.
    assert (Hl : 20 <= len (v4_wire (fr_ip s) ++ fr_options s)) by (rewrite len_app, v4_wire_len; lia).
    destruct (v4_wire_addrs (fr_ip s) (fr_options s)) as [Q1 Q2].
    pose proof (step _ a (fr_inner s) Hb Hl Hi Ha Hs) as Q. cbv zeta in Q. rewrite Q1, Q2 in Q. destruct Q as [G1 G2].
    destruct (inner_do (vf_src (fr_ip s)) (vf_dst (fr_ip s)) a (fr_inner s)) as [t r]. cbn [fst snd] in *.
    split; [exact G1|]. intros Hr. destruct (G2 Hr) as (G3 & G4 & G5). rewrite G3. split; [reflexivity|].
    split; [|split; [exact G5|]].
    + split; [exact He|]. split; [|exact G4]. destruct Hv as (V1 & V2 & V3 & V4 & V5 & V6 & V7).
      cbn [frame_ip vp_header vp_options vp_payload vp_behind] in *.
      split; [exact V1|]. split; [exact V2|]. split; [exact V3|]. split; [cbn; cbn in V4; rewrite G5; exact V4|].
      split; [exact V5|]. split; [exact (encoded _ G4)|exact V7].
    + unfold frame_bytes. cbn [fr_ether fr_ip fr_options fr_inner fr_padding]. unfold v4_bytes.
      cbn [frame_ip vp_header vp_options vp_payload vp_behind]. rewrite !len_app, G5. reflexivity.
Qed.
Lemma frame_history l s : frame_packet_ok inner inner_ok s -> side (len (inner (fr_inner s))) ->
  allowed (frame_action_ok ok) (frame_do inner inner_do) l s ->
  let (rs, last) := history (frame_do inner inner_do) l s in
  history (frame_act E parse act) l (frame_bytes inner s) = (rs, option_map (frame_bytes inner) last) /\
  forall s', last = Some s' -> frame_packet_ok inner inner_ok s' /\ len (frame_bytes inner s') = len (frame_bytes inner s).
Proof.
  intros Hs Hd Hl.
  pose proof (history_sim (frame_act E parse act) (frame_do inner inner_do) (frame_bytes inner)
    (fun x => frame_packet_ok inner inner_ok x /\ len (inner (fr_inner x)) = len (inner (fr_inner s)) /\
              len (frame_bytes inner x) = len (frame_bytes inner s)) (frame_action_ok ok)) as Q.
  specialize (Q ltac:(intros a x (H1 & H2 & H3) Ha; destruct (frame_step a x H1 ltac:(rewrite H2; exact Hd) Ha) as [G1 G2]; split; [exact G1|];
    intros H; destruct (G2 H) as (G3 & G4 & G5 & G6); split; [exact G3|]; split; [exact G4|]; split; [exact (eq_trans G5 H2)|exact (eq_trans G6 H3)])).
  specialize (Q l s (conj Hs (conj eq_refl eq_refl)) Hl).
  destruct (history (frame_do inner inner_do) l s) as [rs last]. destruct Q as [Q1 Q2]. split; [exact Q1|].
  intros s' Hs'. destruct (Q2 s' Hs') as (P1 & _ & P3). split; assumption.
Qed.
End Frame.

(** C71: a frame with a UDP datagram in it. *)
Lemma c71_frame_udp : forall E l s, frame_packet_ok udp_bytes udp_packet_ok s ->
  allowed (frame_action_ok (fun a _ => udp_action_ok a)) (frame_do udp_bytes udp_do) l s ->
  len (udp_bytes (fr_inner s)) mod 2 = 0 \/ cursor_eof E = EofKeep ->
  let (rs, last) := history (frame_do udp_bytes udp_do) l s in
  history (frame_act E udp_new (udp_act E)) l (frame_bytes udp_bytes s) = (rs, option_map (frame_bytes udp_bytes) last) /\
  forall s', last = Some s' -> frame_packet_ok udp_bytes udp_packet_ok s' /\ len (frame_bytes udp_bytes s') = len (frame_bytes udp_bytes s).
Proof.
  intros E l s Hs Hl Hc.
  apply (frame_history E udp_bytes udp_packet_ok udp_do udp_new (udp_act E) (fun a _ => udp_action_ok a)
    (fun n => n mod 2 = 0 \/ cursor_eof E = EofKeep)); try assumption.
  - exact udp_is_bytes.
  - exact udp_new_bytes.
  - intros p a u H1 H2 H3 H4 H5. exact (udp_step E p a u H1 H2 H3 H4 H5).
Qed.
(** C71: a frame with a TCP segment in it. *)
Lemma c71_frame_tcp : forall E l s, frame_packet_ok tcp_bytes tcp_packet_ok s ->
  allowed (frame_action_ok tcp_action_ok) (frame_do tcp_bytes tcp_do) l s ->
  len (tcp_bytes (fr_inner s)) mod 2 = 0 \/ cursor_eof E = EofKeep ->
  let (rs, last) := history (frame_do tcp_bytes tcp_do) l s in
  history (frame_act E tcp_new (tcp_act E)) l (frame_bytes tcp_bytes s) = (rs, option_map (frame_bytes tcp_bytes) last) /\
  forall s', last = Some s' -> frame_packet_ok tcp_bytes tcp_packet_ok s' /\ len (frame_bytes tcp_bytes s') = len (frame_bytes tcp_bytes s).
Proof.
  intros E l s Hs Hl Hc.
  apply (frame_history E tcp_bytes tcp_packet_ok tcp_do tcp_new (tcp_act E) tcp_action_ok
    (fun n => n <= 131065 /\ (n mod 2 = 0 \/ cursor_eof E = EofKeep))); try assumption.
  - exact tcp_is_bytes.
  - exact tcp_new_bytes.
  - intros p a u H1 H2 H3 H4 [H5 H6]. exact (tcp_step E p a u H1 H2 H3 H4 H5 H6).
  - split; [|exact Hc]. destruct Hs as (_ & Hv & _). pose proof Hv as (V1 & V2 & V3 & V4 & _).
    cbn [frame_ip vp_header vp_options vp_payload vp_behind] in V4, V1. assert (u16 (vf_total (fr_ip s))) by apply V1. unfold u16 in *. lia.
Qed.
(** C71: a frame with an ICMP echo packet in it. *)
Lemma c71_frame_echo : forall E l s, frame_packet_ok echo_bytes echo_packet_ok s ->
  allowed (frame_action_ok (fun a _ => echo_action_ok a)) (frame_do echo_bytes (fun _ _ => echo_do)) l s ->
  let (rs, last) := history (frame_do echo_bytes (fun _ _ => echo_do)) l s in
  history (frame_act E echo_new (fun _ => echo_act E)) l (frame_bytes echo_bytes s) = (rs, option_map (frame_bytes echo_bytes) last) /\
  forall s', last = Some s' -> frame_packet_ok echo_bytes echo_packet_ok s' /\ len (frame_bytes echo_bytes s') = len (frame_bytes echo_bytes s).
Proof.
  intros E l s Hs Hl.
  apply (frame_history E echo_bytes echo_packet_ok (fun _ _ => echo_do) echo_new (fun _ => echo_act E) (fun a _ => echo_action_ok a)
    (fun n => n <= ISIZE_MAX)); try assumption.
  - exact echo_is_bytes.
  - exact echo_new_bytes.
  - intros p a u _ _ H3 H4 H5. exact (echo_step E a u H3 H4 H5).
  - destruct Hs as (_ & Hv & _). pose proof Hv as (V1 & V2 & V3 & V4 & _).
    cbn [frame_ip vp_header vp_options vp_payload vp_behind] in V4, V1. assert (u16 (vf_total (fr_ip s))) by apply V1. unfold u16 in *.
    assert (65535 <= ISIZE_MAX) by (destruct E as [[] [] []]; vm_compute; discriminate). lia.
Qed.

(** ** Received packets are such records *)
(** C71: every UDP packet with a length field of at least 8. *)
Lemma c71_udp_received : forall b, is_bytes b -> udp_new b = Ok b -> 8 <= wire16 b 4 ->
  exists u, udp_packet_ok u /\ udp_bytes u = b.
Proof.
  intros b Hb Hn Hw. apply udp_new_iff in Hn as (_ & Hl & Hc).
  destruct (c09_udp_layout_total b Hb Hl) as (f & Hf & Ht).
  set (n := wire16 b 4) in *.
  exists {| up_header := f; up_payload := takeN (n - 8) (dropN 8 b); up_behind := dropN (n - 8) (dropN 8 b) |}.
  assert (Hd : b = udp_wire f ++ dropN 8 b) by (rewrite <- Ht; symmetry; apply takeN_dropN).
  assert (Hn : n = uf_length f).
  { unfold n. rewrite Hd. destruct Hf as (_ & _ & Hf & _). unfold u16 in Hf.
    change (uf_length f / 256 * 256 + uf_length f mod 256 = uf_length f). lia. }
  split.
  - split; [exact Hf|]. cbn [up_header up_payload up_behind]. split; [autorewrite with len; lia|].
    split; [apply is_bytes_takeN, is_bytes_dropN, Hb|apply is_bytes_dropN, is_bytes_dropN, Hb].
  - unfold udp_bytes. cbn [up_header up_payload up_behind]. rewrite takeN_dropN. symmetry. exact Hd.
Qed.
(** C71: every TCP segment with a data offset of at least 5. *)
Lemma c71_tcp_received : forall b, is_bytes b -> tcp_new b = Ok b -> 5 <= nthN b 12 / 16 ->
  exists t, tcp_packet_ok t /\ tcp_bytes t = b /\ tcp_spoiled t = false.
Proof.
  intros b Hb Hn Hw. apply tcp_new_iff in Hn as (_ & Hl & Hc).
  destruct (c09_tcp_layout_total b Hb Hl) as (f & Hf & Ht).
  set (n := nthN b 12 / 16) in *.
  exists {| tp_header := f; tp_options := takeN (n * 4 - 20) (dropN 20 b); tp_payload := dropN (n * 4 - 20) (dropN 20 b) |}.
  assert (Hd : b = tcp_wire f ++ dropN 20 b) by (rewrite <- Ht; symmetry; apply takeN_dropN).
  assert (Hn : n = tf_offset f).
  { unfold n. rewrite Hd. destruct Hf as (_ & _ & _ & _ & Hf1 & Hf2 & Hf3 & _).
    change ((tf_offset f * 4096 + tf_reserved f * 512 + tf_flags f) / 256 / 16 = tf_offset f). lia. }
  split; [|split].
  - split; [exact Hf|]. cbn [tp_header tp_options tp_payload]. split; [left; autorewrite with len; lia|].
    split; [apply is_bytes_takeN, is_bytes_dropN, Hb|apply is_bytes_dropN, is_bytes_dropN, Hb].
  - unfold tcp_bytes. cbn [tp_header tp_options tp_payload]. rewrite takeN_dropN. symmetry. exact Hd.
  - unfold tcp_spoiled. cbn [tp_header]. destruct (N.eqb_spec (tf_offset f) 0); [lia|reflexivity].
Qed.
(** C71: every ICMP echo packet. *)
Lemma c71_echo_received : forall b, is_bytes b -> echo_new b = Ok b -> exists c, echo_packet_ok c /\ echo_bytes c = b.
Proof.
  intros b Hb Hn. apply (typed_inv _ _ _ _ _ c05_echo_new) in Hn as (_ & Hl & Ht).
  assert (Hd : b = takeN 8 b ++ dropN 8 b) by (symmetry; apply takeN_dropN).
  pose proof (is_bytes_takeN 8 b Hb) as Hx. pose proof (is_bytes_dropN 8 b Hb) as Hy.
  assert (Hk : len (takeN 8 b) = 8) by (autorewrite with len; lia).
  assert (H0 : nthN b 0 = nthN (takeN 8 b) 0) by (symmetry; apply nthN_takeN; lia). rewrite H0 in Ht. clear H0.
  set (t := takeN 8 b) in *. set (q := dropN 8 b) in *. clearbody t q. subst b. clear Hb Hl.
  do 8 (destruct t as [|? t]; [discriminate Hk|]).
  destruct t; [|exfalso; autorewrite with len in Hk; lia]. clear Hk. unfold is_bytes, u8 in Hx.
  repeat match goal with H : Forall _ (_ :: _) |- _ => inversion H; clear H; subst end.
  change (nthN _ 0) with n in Ht.
  exists {| cp_header := {| cf_type := n; cf_code := n0; cf_checksum := n1 * 256 + n2 |};
            cp_ident := n3 * 256 + n4; cp_seq := n5 * 256 + n6; cp_payload := q |}.
  split.
  - unfold echo_packet_ok, icmp_fields_ok, u8, u16. cbn [cp_header cp_ident cp_seq cp_payload cf_type cf_code cf_checksum].
    cbn in Ht. repeat split; try lia; try assumption.
  - unfold echo_bytes, ident_wire, icmp_wire. cbn [cp_header cp_ident cp_seq cp_payload cf_type cf_code cf_checksum]. unfold enc16.
    cbn [app]. repeat f_equal; lia.
Qed.
(** C71: every IPv4 packet whose IHL is at least 5 and whose total length covers
    its header. *)
Lemma c71_v4_received : forall b, is_bytes b -> v4_new b = Ok b -> 5 <= nthN b 0 mod 16 -> nthN b 0 mod 16 * 4 <= wire16 b 2 ->
  exists p, v4_packet_ok p /\ v4_bytes p = b /\ v4_payload b = Ok (vp_payload p).
Proof.
  intros b Hb Hn Hi Hw. pose proof (c07_v4 b Hn) as Q. cbv zeta in Q. apply c02_v4_new_iff in Hn as (_ & Hl & Hv & Hc & Hx).
  set (h := nthN b 0 mod 16 * 4) in *. set (n := wire16 b 2) in *.
  replace (N.max h n) with n in Q by lia. destruct Q as (_ & _ & _ & Hp & _).
  destruct (c09_v4_layout_total b Hb Hl) as (f & Hf & Ht).
  assert (Hd : b = v4_wire f ++ dropN 20 b) by (rewrite <- Ht; symmetry; apply takeN_dropN).
  assert (Hn : n = vf_total f).
  { unfold n. rewrite Hd. destruct Hf as (_ & _ & _ & _ & Hf & _). unfold u16 in Hf.
    change (vf_total f / 256 * 256 + vf_total f mod 256 = vf_total f). lia. }
  assert (H0 : nthN b 0 = vf_version f * 16 + vf_ihl f) by (rewrite Hd; reflexivity).
  assert (Hih : vf_ihl f < 16) by apply Hf.
  exists {| vp_header := f; vp_options := takeN (h - 20) (dropN 20 b); vp_payload := takeN (n - h) (dropN h b); vp_behind := dropN n b |}.
  assert (Ho : takeN (h - 20) (dropN 20 b) ++ takeN (n - h) (dropN h b) ++ dropN n b = dropN 20 b).
  { replace (dropN n b) with (dropN (n - h) (dropN h b)) by (rewrite dropN_dropN; f_equal; lia). rewrite takeN_dropN.
    replace (dropN h b) with (dropN (h - 20) (dropN 20 b)) by (rewrite dropN_dropN; f_equal; lia). apply takeN_dropN. }
  split; [|split].
  - split; [exact Hf|]. cbn [vp_header vp_options vp_payload vp_behind]. unfold h in *.
    split; [lia|]. split; [autorewrite with len; lia|]. split; [autorewrite with len; lia|].
    split; [apply is_bytes_takeN, is_bytes_dropN, Hb|]. split; [apply is_bytes_takeN, is_bytes_dropN, Hb|apply is_bytes_dropN, Hb].
  - unfold v4_bytes. cbn [vp_header vp_options vp_payload vp_behind]. rewrite Ho. symmetry. exact Hd.
  - rewrite Hp. cbn [vp_payload]. f_equal. rewrite takeN_dropN_comm. f_equal. f_equal. lia.
Qed.
(** C71: every received frame, given its transport packet is. *)
Lemma c71_frame_received : forall (S : Type) (inner : S -> bytes) (inner_ok : S -> Prop) b ip x, is_bytes b -> ether_new b = Ok b ->
  ether_payload b = Ok ip -> v4_new ip = Ok ip -> 5 <= nthN ip 0 mod 16 -> nthN ip 0 mod 16 * 4 <= wire16 ip 2 ->
  v4_payload ip = Ok (inner x) -> inner_ok x ->
  exists s, frame_packet_ok inner inner_ok s /\ frame_bytes inner s = b /\ fr_inner s = x.
Proof.
  intros S inner inner_ok b ip x Hb Hn Hp Hv Hi Ht Hu Hx. apply ether_new_len in Hn as Hl.
  assert (Hip : ip = dropN 14 b).
  { unfold ether_payload, ether_split in Hp. rewrite split_at_ok in Hp by lia. cbn [bind] in Hp. now apply Ok_inj in Hp. }
  assert (Hbi : is_bytes ip) by (rewrite Hip; apply is_bytes_dropN, Hb).
  destruct (c71_v4_received ip Hbi Hv Hi Ht) as (p & H1 & H2 & H3). rewrite Hu in H3. apply Ok_inj in H3.
  assert (Hd : b = takeN 14 b ++ ip) by (rewrite Hip; symmetry; apply takeN_dropN).
  assert (He : exists f, ether_fields_ok f /\ takeN 14 b = ether_wire f).
  { pose proof (is_bytes_takeN 14 b Hb) as Hy. assert (Hk : len (takeN 14 b) = 14) by (autorewrite with len; lia).
    set (t := takeN 14 b) in *. clearbody t. clear - Hk Hy.
    do 14 (destruct t as [|? t]; [discriminate Hk|]).
    destruct t; [|exfalso; autorewrite with len in Hk; lia]. clear Hk. unfold is_bytes, u8 in Hy.
    repeat match goal with H : Forall _ (_ :: _) |- _ => inversion H; clear H; subst end.
    exists {| ef_dst := Hw n n0 n1 n2 n3 n4; ef_src := Hw n5 n6 n7 n8 n9 n10; ef_type := n11 * 256 + n12 |}. split.
    - unfold ether_fields_ok, mac_ok, is_bytes, u8, u16. cbn [ef_dst ef_src ef_type hw_octets hw_0 hw_1 hw_2 hw_3 hw_4 hw_5].
      split; [|split; [|lia]]; repeat (apply Forall_cons; [assumption|]); apply Forall_nil.
    - unfold ether_wire, enc16. cbn. repeat f_equal; lia. }
  destruct He as (f & Hf & Hft).
  exists {| fr_ether := f; fr_ip := vp_header p; fr_options := vp_options p; fr_inner := x; fr_padding := vp_behind p |}.
  split; [|split; [|reflexivity]].
  - split; [exact Hf|]. split; [|exact Hx]. unfold frame_ip. cbn [fr_ip fr_options fr_inner fr_padding]. rewrite H3. destruct p; exact H1.
  - unfold frame_bytes. cbn [fr_ether fr_ip fr_options fr_inner fr_padding]. rewrite H3, <- Hft. rewrite Hd at 2. f_equal. exact H2.
Qed.

(** C71: non-vacuity.  A frame, every layer touched, ending in a copy_from_slice of
    the wrong length; and a TCP segment spoiled by set_flags. *)
Example c71_example : forall E,
  let s := {| fr_ether := {| ef_dst := Hw 0 35 105 99 89 190; ef_src := Hw 228 179 24 38 99 163; ef_type := 2048 |};
              fr_ip := {| vf_version := 4; vf_ihl := 5; vf_dscp := 0; vf_ecn := 0; vf_total := 30; vf_id := 0; vf_reserved := false;
                          vf_df := false; vf_mf := false; vf_frag := 0; vf_ttl := 64; vf_proto := 17; vf_checksum := 26317;
                          vf_src := Ip4 10 0 0 1; vf_dst := Ip4 10 0 0 2 |};
              fr_options := [];
              fr_inner := {| up_header := {| uf_src := 53; uf_dst := 99; uf_length := 10; uf_checksum := 33494 |};
                             up_payload := [104; 105]; up_behind := [] |};
              fr_padding := [0; 0] |} in
  let l := [OnEther (EthSource (Hw 2 0 0 0 0 1)); OnIp (Call (V4SetDscp 64)); OnIp (Checked [V4SetTtl 63]);
            OnTransport (Call (UdpSetSource 99)); OnTransport (Fill [111; 107]); OnTransport (Extra UpdateChecksum)] in
  let b := [0;35;105;99;89;190; 2;0;0;0;0;1; 8;0; 69;0;0;30;0;0;0;0;63;17;103;205;10;0;0;1;10;0;0;2;
            0;99;0;99;0;10;123;166;111;107; 0;0] in
  frame_packet_ok udp_bytes udp_packet_ok s /\
  allowed (frame_action_ok (fun a _ => udp_action_ok a)) (frame_do udp_bytes udp_do) l s /\
  len (udp_bytes (fr_inner s)) mod 2 = 0 /\
  history (frame_act E udp_new (udp_act E)) l (frame_bytes udp_bytes s) =
    ([Ok tt; Err InvalidValue; Ok tt; Ok tt; Ok tt; Ok tt], Some b) /\
  v4_is_valid E (dropN 14 b) = Ok true /\ udp_is_valid E (V4 (dropN 14 b)) (takeN 10 (dropN 34 b)) = Ok true /\
  history (frame_act E udp_new (udp_act E)) (l ++ [OnTransport (Fill [1])]) (frame_bytes udp_bytes s) =
    ([Ok tt; Err InvalidValue; Ok tt; Ok tt; Ok tt; Ok tt; Panic], None) /\
  let t := {| tp_header := {| tf_src := 1; tf_dst := 2; tf_seq := 3; tf_ack := 4; tf_offset := 5; tf_reserved := 0; tf_flags := 2;
                              tf_window := 5; tf_checksum := 0; tf_pointer := 0 |}; tp_options := []; tp_payload := [1; 2] |} in
  let p := takeN 20 (dropN 14 b) in
  tcp_packet_ok t /\ tcp_spoiled t = false /\
  history (fun '(p, a) => tcp_act E (V4 p) a)
    [(p, Call (TcpSetWindow 9)); (p, Checked [TcpSetSource 7]); (p, Call (TcpSetFlags 18)); (p, Call (TcpSetSource 8)); (p, Checked [])]
    (tcp_bytes t) = ([Ok tt; Ok tt; Ok tt; Err Io; Panic], None) /\
  fst (history (fun '(p, a) => tcp_do (wire_addr p 12) (wire_addr p 16) a)
    [(p, Call (TcpSetWindow 9)); (p, Checked [TcpSetSource 7]); (p, Call (TcpSetFlags 18)); (p, Call (TcpSetSource 8)); (p, Checked [])] t)
    = [Ok tt; Ok tt; Ok tt; Err Io; Panic].
Proof.
  intros [[] [] []]; repeat apply conj; try reflexivity; repeat constructor; try (intros; reflexivity); try discriminate.
Qed.
