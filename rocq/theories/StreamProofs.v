(** * StreamProofs: a stream of data over a network that loses, repeats, reorders and damages (C83). *)
From Verif Require Import Base Enums Buffer Ether Ipv4 Ip Udp Tcp Icmp Builders Spec SpecCalls SpecBuild SpecEdit SpecForward SpecMachine SpecReceiver SpecRoute SpecNat SpecShake SpecStream
  Mutable Lemmas AccessProofs
  ParseProofs FieldProofs SliceProofs MutableProofs EnumProofs ChecksumLemmas ChecksumProofs GuardProofs EditProofs ForwardProofs FrameProofs
  CorruptProofs BuildLemmas FinalLemmas ReadLemmas BuilderProofs ChainLemmas MessageProofs MachineProofs FrameMachineProofs ReceiverProofs RouteProofs NatProofs HostProofs ShakeProofs.
From Coq Require Import ZifyBool ZifyNat ZifyN.
Ltac Zify.zify_post_hook ::= Z.div_mod_to_equations.

(** ** Damage *)
(** What the checksums of an accepted frame say, on its bytes. *)
Definition checks (b : bytes) : Prop :=
  let q := dropN 14 b in let h := nthN q 0 mod 16 * 4 in let T := wire16 q 2 in
  14 + T <= len b /\ wire16 b 12 = 2048 /\ nthN q 0 / 16 = 4 /\ 20 <= h <= T /\
  word_sum (takeN h q) mod 65535 = 0 /\
  (word_sum (dropN 12 (takeN 20 q)) + (6 + (T - h) + word_sum (takeN (T - h) (dropN h q)))) mod 65535 = 0.
Lemma accepts_0 t : ones_sum t = 65535 -> t mod 65535 = 0.
Proof. intros H. change 0 with (65535 mod 65535). apply ones_sum_inj. rewrite H. reflexivity. Qed.
Lemma accepted_checks b s : rfc_tcp b s -> checks b.
Proof.
  intros ((He & Hv & Hi) & -> & (Hty & Hpr & Hs1) & Hsp & Hs2). pose proof Hv as (Hf & Hver & Hihl & Htot & _).
  cbn [frame_ip vp_header vp_options vp_payload] in Hf, Hver, Hihl, Htot.
  rewrite frame_bytes_ip. set (q := v4_bytes (frame_ip tcp_bytes s)).
  assert (Hd : dropN 14 (ether_wire (fr_ether s) ++ q) = q) by (rewrite <- (ether_wire_len (fr_ether s)); apply dropN_app_len).
  unfold checks. cbv zeta. rewrite Hd.
  assert (Hih : nthN q 0 mod 16 = vf_ihl (fr_ip s)) by (unfold q; rewrite v4_ihl_bytes by exact Hv; reflexivity).
  assert (HT : wire16 q 2 = vf_total (fr_ip s)).
  { unfold q, v4_bytes. cbn [frame_ip vp_header]. destruct Hf as (_ & _ & _ & _ & Hf & _). unfold u16 in Hf.
    change (vf_total (fr_ip s) / 256 * 256 + vf_total (fr_ip s) mod 256 = vf_total (fr_ip s)). lia. }
  rewrite Hih, HT.
  assert (Hlq : len q = 20 + len (fr_options s) + len (tcp_bytes (fr_inner s)) + len (fr_padding s)) by (unfold q; rewrite v4_len; reflexivity).
  assert (Hhead : takeN (vf_ihl (fr_ip s) * 4) q = v4_wire (fr_ip s) ++ fr_options s) by exact (v4_wire_parts _ Hv).
  assert (Hbody : takeN (vf_total (fr_ip s) - vf_ihl (fr_ip s) * 4) (dropN (vf_ihl (fr_ip s) * 4) q) = tcp_bytes (fr_inner s)).
  { unfold q, v4_bytes. cbn [frame_ip vp_header vp_options vp_payload vp_behind]. rewrite app_assoc.
    replace (vf_ihl (fr_ip s) * 4) with (len (v4_wire (fr_ip s) ++ fr_options s)) by (rewrite len_app, v4_wire_len; lia).
    rewrite dropN_app_len. replace (vf_total (fr_ip s) - _) with (len (tcp_bytes (fr_inner s))) by (rewrite len_app, v4_wire_len; lia). apply takeN_app_len. }
  split; [rewrite len_app, ether_wire_len; lia|]. split.
  { destruct He as (_ & _ & He). unfold u16 in He.
    change (ef_type (fr_ether s) / 256 * 256 + ef_type (fr_ether s) mod 256 = 2048). lia. }
  split.
  { unfold q, v4_bytes. cbn [frame_ip vp_header]. destruct Hf as (Hf1 & Hf2 & _). change ((vf_version (fr_ip s) * 16 + vf_ihl (fr_ip s)) / 16 = 4). lia. }
  split; [lia|]. split.
  - rewrite Hhead. apply accepts_0. exact Hs1.
  - rewrite Hbody. apply accepts_0 in Hs2. destruct (frame_addrs tcp_bytes s) as [A1 A2]. rewrite Hpr in Hs2. rewrite <- A1, <- A2 in Hs2.
    fold q in Hs2. rewrite sum_addresses in Hs2 by lia. rewrite (N.mod_small (len (tcp_bytes (fr_inner s)))) in Hs2 by (destruct Hf as (_ & _ & _ & _ & Hf & _); unfold u16 in Hf; lia).
    rewrite N.add_comm. replace (vf_total (fr_ip s) - vf_ihl (fr_ip s) * 4) with (len (tcp_bytes (fr_inner s))) by lia. exact Hs2.
Qed.
Lemma between_multiples a b : a mod 65535 = 0 -> b mod 65535 = 0 -> a < b -> b < a + 65535 -> False.
Proof. lia. Qed.
Lemma sum_changed (t x y u m : N) : m = 256 \/ m = 1 -> x < 256 -> y < 256 -> y <> x -> t + x * m = u + y * m -> u mod 65535 = 0 -> t mod 65535 = 0 -> False.
Proof.
  intros Hm Hx Hy Hne H H1 H2. assert (Hc : u < t /\ t < u + 65535 \/ t < u /\ u < t + 65535) by (clear H1 H2; destruct (N.lt_gt_cases y x) as [K _]; destruct (K Hne) as [L|L]; destruct Hm as [-> | ->]; lia).
  destruct Hc as [[? ?]|[? ?]]; [exact (between_multiples u t H1 H2 ltac:(assumption) ltac:(assumption))|exact (between_multiples t u H2 H1 ltac:(assumption) ltac:(assumption))].
Qed.
Lemma alter_sum b i v : is_bytes b -> i < len b -> v < 256 -> v <> nthN b i -> word_sum b mod 65535 = 0 -> word_sum (alter b i v) mod 65535 = 0 -> False.
Proof.
  intros Hb Hi Hv Hne H1 H2. pose proof (word_sum_alter b i v Hi) as H. pose proof (is_bytes_nth b i Hb) as Hx. unfold u8 in Hx.
  set (m := if i mod 2 =? 0 then 256 else 1) in *. assert (Hm : m = 256 \/ m = 1) by (unfold m; destruct (_ =? 0); auto). clearbody m.
  set (w := word_sum b) in *. set (w' := word_sum (alter b i v)) in *. clearbody w w'. set (x := nthN b i) in *. clearbody x.
  exact (sum_changed w' x v w m Hm Hx Hv Hne H H1 H2).
Qed.
Lemma takeN_takeN_le n m (b : bytes) : n <= m -> takeN n (takeN m b) = takeN n b.
Proof. intros H. rewrite takeN_takeN. f_equal. lia. Qed.
Lemma dropN_alter_in n b i v : n <= i -> i < len b -> dropN n (alter b i v) = alter (dropN n b) (i - n) v.
Proof.
  intros Hn Hi. unfold alter. rewrite dropN_app1 by (rewrite len_takeN; lia). f_equal.
  - rewrite takeN_dropN_comm. replace (n + (i - n)) with i by lia. reflexivity.
  - rewrite dropN_dropN. replace (n + (i - n + 1)) with (i + 1) by lia. reflexivity.
Qed.
Lemma takeN_alter_out h b i v : h <= i -> i < len b -> takeN h (alter b i v) = takeN h b.
Proof. intros H Hi. unfold alter. rewrite takeN_app1 by (rewrite len_takeN; lia). apply takeN_takeN_le. lia. Qed.
Lemma wire16_alter_out b i v j : i < len b -> i <> j -> i <> j + 1 -> wire16 (alter b i v) j = wire16 b j.
Proof. intros Hi H1 H2. unfold wire16. rewrite !nthN_alter by exact Hi. destruct (N.eqb_spec j i), (N.eqb_spec (j + 1) i); try lia; reflexivity. Qed.
(** Out of [lia]'s sight until they are needed. *)
Definition hid (P : Prop) : Prop := P.
Arguments hid P : simpl never.
Ltac hide H := let T := type of H in change (hid T) in H.
Ltac unhide H := let T := type of H in match T with hid ?P => change P in H end.
Lemma damage_seen b i v : is_bytes b -> i < len b -> v < 256 -> v <> nthN b i -> covered b i -> checks b -> checks (alter b i v) -> False.
Proof.
  intros Hb Hi Hv Hne Hc C C'. unfold covered in Hc. unfold checks in C, C'. cbv zeta in C, C'. rewrite len_alter in C' by exact Hi.
  destruct C as (C1 & C2 & C3 & C4 & C5 & C6). destruct C' as (D1 & D2 & D3 & D4 & D5 & D6).
  hide C3. hide C5. hide C6. hide D3. hide D5. hide D6.
  destruct (N.ltb_spec i 14) as [Hlo|Hhi].
  { unfold wire16 in C2, D2. rewrite !nthN_alter in D2 by exact Hi.
    pose proof (is_bytes_nth b 12 Hb) as B1. pose proof (is_bytes_nth b 13 Hb) as B2. unfold u8 in B1, B2. change (12 + 1) with 13 in *.
    assert (Hcase : i = 12 \/ i = 13) by lia. destruct Hcase as [-> | ->]; cbn [N.eqb Pos.eqb] in D2; lia. }
  assert (Hq : dropN 14 (alter b i v) = alter (dropN 14 b) (i - 14) v) by (apply dropN_alter_in; lia).
  rewrite Hq in *. set (q := dropN 14 b) in *. set (j := i - 14) in *.
  assert (Hbq : is_bytes q) by (apply is_bytes_dropN; exact Hb).
  assert (HT : wire16 b 16 = wire16 q 2) by (unfold q; rewrite wire16_dropN; reflexivity). rewrite HT in Hc.
  assert (Hj : j < wire16 q 2) by (unfold j; lia).
  assert (Hlq : len q = len b - 14) by (unfold q; rewrite len_dropN; reflexivity).
  assert (Hne' : v <> nthN q j) by (unfold q, j; rewrite nthN_dropN; replace (14 + (i - 14)) with i by lia; exact Hne).
  assert (Hjl : j < len q) by lia. clearbody j. clear Hi Hc Hhi Hne Hq D1 C2 D2 HT.
  destruct (N.eq_dec j 0) as [->|H0].
  - (* version and header length *)
    rewrite wire16_alter_out in D4, D6 by lia. rewrite nthN_alter in D3, D4, D5, D6 by exact Hjl. cbn [N.eqb] in D3, D4, D5, D6.
    set (T := wire16 q 2) in *. set (h := nthN q 0 mod 16 * 4) in *. set (h' := v mod 16 * 4) in *.
    assert (S1 : word_sum (takeN T q) = word_sum (takeN h q) + word_sum (takeN (T - h) (dropN h q))).
    { rewrite <- word_sum_app by (rewrite len_takeN; unfold h; lia). f_equal. rewrite takeN_dropN_comm.
      replace (h + (T - h)) with T by lia. rewrite <- (takeN_takeN_le h T q) by lia. symmetry. apply takeN_dropN. }
    assert (S2 : word_sum (takeN T (alter q 0 v)) = word_sum (takeN h' (alter q 0 v)) + word_sum (takeN (T - h') (dropN h' (alter q 0 v)))).
    { rewrite <- word_sum_app by (rewrite len_takeN, len_alter by lia; unfold h'; lia). f_equal. rewrite takeN_dropN_comm.
      replace (h' + (T - h')) with T by lia. rewrite <- (takeN_takeN_le h' T (alter q 0 v)) by lia. symmetry. apply takeN_dropN. }
    rewrite takeN_alter in S2 by lia.
    assert (Hl0 : 0 < len (takeN T q)) by (rewrite len_takeN; lia).
    pose proof (word_sum_alter (takeN T q) 0 v Hl0) as S3. cbn [N.modulo N.eqb] in S3. change (0 mod 2 =? 0) with true in S3. cbn iota in S3. rewrite nthN_takeN in S3 by lia.
    assert (Ha : dropN 12 (takeN 20 (alter q 0 v)) = dropN 12 (takeN 20 q)).
    { rewrite takeN_alter by lia. unfold alter. rewrite dropN_app2 by (rewrite len_takeN, len_takeN; lia).
      rewrite len_takeN, len_takeN. replace (12 - N.min 0 (N.min 20 (len q))) with 12 by lia.
      change (v :: dropN (0 + 1) (takeN 20 q)) with ([v] ++ dropN (0 + 1) (takeN 20 q)). rewrite dropN_app2 by (cbn; lia). rewrite dropN_dropN. reflexivity. }
    rewrite Ha in D6. pose proof (is_bytes_nth q 0 Hbq) as Bx. unfold u8 in Bx.
    set (a := word_sum (takeN h q)) in *. set (a' := word_sum (takeN h' (alter q 0 v))) in *.
    set (c := word_sum (takeN (T - h) (dropN h q))) in *. set (c' := word_sum (takeN (T - h') (dropN h' (alter q 0 v)))) in *.
    set (w := word_sum (takeN T q)) in *. set (w' := word_sum (alter (takeN T q) 0 v)) in *. set (e := word_sum (dropN 12 (takeN 20 q))) in *.
    clearbody a a' c c' w w' e T. set (x := nthN q 0) in *. clearbody x. unfold h, h' in *. clear h h' Ha Hl0 Hlq Hbq Hjl Hj C1 Hb.
    unhide C3. unhide C5. unhide C6. unhide D3. unhide D5. unhide D6. lia.
  - rewrite (nthN_alter q j v 0) in D3, D4, D5, D6 by exact Hjl. destruct (N.eqb_spec 0 j) as [E0|E0]; [lia|]. clear E0.
    set (h := nthN q 0 mod 16 * 4) in *.
    destruct (N.ltb_spec j h) as [Hh|Hh].
    + rewrite takeN_alter in D5 by lia. unhide C5. unhide D5. revert C5 D5. apply alter_sum; [apply is_bytes_takeN, Hbq|rewrite len_takeN; lia|exact Hv|rewrite nthN_takeN by lia; exact Hne'].
    + rewrite wire16_alter_out in D4, D6 by lia. rewrite (takeN_alter_out 20) in D6 by lia. rewrite dropN_alter_in in D6 by lia.
      rewrite takeN_alter in D6 by (rewrite ?len_dropN; lia).
      set (p := takeN (wire16 q 2 - h) (dropN h q)) in *.
      assert (Hlp : j - h < len p) by (unfold p; rewrite len_takeN, len_dropN; lia).
      assert (Hbp : is_bytes p) by (apply is_bytes_takeN, is_bytes_dropN, Hbq).
      pose proof (word_sum_alter p (j - h) v Hlp) as H. pose proof (is_bytes_nth p (j - h) Hbp) as Hx. unfold u8 in Hx.
      assert (Hnp : v <> nthN p (j - h)) by (unfold p; rewrite nthN_takeN, nthN_dropN by lia; replace (h + (j - h)) with j by lia; exact Hne').
      set (m := if (j - h) mod 2 =? 0 then 256 else 1) in *. assert (Hm : m = 256 \/ m = 1) by (unfold m; destruct (_ =? 0); auto). clearbody m.
      set (w := word_sum p) in *. set (w' := word_sum (alter p (j - h) v)) in *. set (e := word_sum (dropN 12 (takeN 20 q))) in *. clearbody w w' e.
      set (x := nthN p (j - h)) in *. clearbody x p. clear - C6 D6 H Hx Hnp Hm Hv.
      set (z := wire16 q 2 - h) in *. clearbody z.
      unhide C6. unhide D6. refine (sum_changed (e + (6 + z + w')) x v (e + (6 + z + w)) m Hm Hx Hv Hnp _ C6 D6). lia.
Qed.
Lemma header_altered E b s i v : is_bytes b -> rfc_tcp b s -> 16 <= i < 18 -> v < 256 -> v <> nthN b i -> receive_tcp E (alter b i v) = Ok false.
Proof.
  intros Hb Hs Hi Hv Hne. pose proof (accepted_checks b s Hs) as (C1 & C2 & C3 & C4 & C5 & _). cbv zeta in *.
  assert (Hil : i < len b) by lia.
  unfold receive_tcp. rewrite receive_ip_eq, len_alter by exact Hil. replace (len b <? 14) with false by lia.
  rewrite wire16_alter_out by lia. rewrite C2. cbn [N.eqb Pos.eqb]. rewrite dropN_alter_in by lia.
  set (q := dropN 14 b) in *. assert (Hbq : is_bytes q) by (apply is_bytes_dropN; exact Hb). assert (Hlq : len q = len b - 14) by (unfold q; rewrite len_dropN; reflexivity).
  assert (Hne' : v <> nthN q (i - 14)) by (unfold q; rewrite nthN_dropN; replace (14 + (i - 14)) with i by lia; exact Hne).
  set (j := i - 14) in *. assert (Hj : 2 <= j < 4) by (unfold j; lia). clearbody j.
  destruct (v4_new (alter q j v)) as [ip| |] eqn:Hn; [|reflexivity|destruct (v4_new_no_panic _ Hn)]. cbn [bind].
  pose proof (v4_new_same _ _ Hn). subst ip. pose proof (new_no_payload _ Hn) as Hnp.
  assert (Hih : nthN (alter q j v) 0 mod 16 = nthN q 0 mod 16) by (rewrite nthN_alter by lia; destruct (N.eqb_spec 0 j); [lia|reflexivity]).
  rewrite Hih. replace (nthN q 0 mod 16 <? 5) with false by lia.
  assert (Hba : is_bytes (alter q j v)) by (apply is_bytes_alter; assumption).
  rewrite c20_v4_is_valid by (try assumption; rewrite Hih; lia). cbn [bind].
  destruct (inet_checksum _ =? _) eqn:Hck; [|reflexivity]. exfalso.
  assert (Hvd : v4_is_valid E (alter q j v) = Ok true) by (rewrite c20_v4_is_valid by (try assumption; rewrite Hih; lia); f_equal; exact Hck).
  apply c20_v4_is_valid_receiver in Hvd; [|exact Hba|exact Hnp|rewrite Hih; lia]. destruct Hvd as [Hvd _]. unfold receiver_accepts in Hvd. apply accepts_0 in Hvd.
  rewrite Hih, takeN_alter in Hvd by lia. revert C5 Hvd.
  apply alter_sum; [apply is_bytes_takeN, Hbq|rewrite len_takeN; lia|exact Hv|rewrite nthN_takeN by lia; exact Hne'].
Qed.
Lemma refused E b : receive_tcp E b = Ok false -> receive E b = Ok None.
Proof. intros H. unfold receive. rewrite H. reflexivity. Qed.
(** C83: whatever byte of a received segment's frame is changed between the Ethernet type and the end of the datagram, the changed frame is refused: every field, the header
    lengths, the version and the data are under one of the checksums, and a header length changed with both checksums in agreement is impossible. *)
Lemma c83_damage_refused : forall E b g i v, is_bytes b -> wire16 b 16 mod 2 = 0 \/ cursor_eof E = EofKeep ->
  receive E b = Ok (Some g) -> covered b i -> u8 v -> v <> nthN b i -> receive E (alter b i v) = Ok None.
Proof.
  intros E b g i v Hb Hc Hr Hi Hv Hne. apply c82_receive in Hr; [|exact Hb|exact Hc]. destruct Hr as (s & Hs & _). unfold u8 in Hv.
  pose proof (accepted_checks b s Hs) as C. pose proof C as (C1 & _). cbv zeta in C1. rewrite wire16_dropN in C1. change (14 + 2) with 16 in C1.
  assert (Hil : i < len b) by (unfold covered in Hi; lia).
  assert (Hcase : 16 <= i < 18 \/ (i <> 16 /\ i <> 17)) by lia. destruct Hcase as [Hh|[H16 H17]].
  - apply refused. exact (header_altered E b s i v Hb Hs Hh Hv Hne).
  - assert (Hba : is_bytes (alter b i v)) by (apply is_bytes_alter; assumption).
    assert (Hca : wire16 (alter b i v) 16 mod 2 = 0 \/ cursor_eof E = EofKeep) by (rewrite wire16_alter_out by lia; exact Hc).
    destruct (c82_receive_total E _ Hba Hca) as [[g'|] Ho]; [exfalso|exact Ho].
    apply c82_receive in Ho; [|exact Hba|exact Hca]. destruct Ho as (s' & Hs' & _).
    exact (damage_seen b i v Hb Hil Hv Hne Hi C (accepted_checks _ _ Hs')).
Qed.
Lemma ether_read (t : bytes) : is_bytes t -> len t = 14 -> exists f, ether_fields_ok f /\ t = ether_wire f.
Proof.
  intros Hy Hk. do 14 (destruct t as [|? t]; [discriminate Hk|]).
  destruct t; [|exfalso; autorewrite with len in Hk; lia]. clear Hk. unfold is_bytes, u8 in Hy.
  repeat match goal with H : Forall _ (_ :: _) |- _ => inversion H; clear H; subst end.
  exists {| ef_dst := Hw n n0 n1 n2 n3 n4; ef_src := Hw n5 n6 n7 n8 n9 n10; ef_type := n11 * 256 + n12 |}. split.
  - unfold ether_fields_ok, mac_ok, is_bytes, u8, u16. cbn [ef_dst ef_src ef_type hw_octets hw_0 hw_1 hw_2 hw_3 hw_4 hw_5].
    split; [|split; [|lia]]; repeat (apply Forall_cons; [assumption|]); apply Forall_nil.
  - unfold ether_wire, enc16. cbn. repeat f_equal; lia.
Qed.
Lemma good_of b s : rfc_tcp b s -> vf_checksum (fr_ip s) <> 65535 -> tf_checksum (tp_header (fr_inner s)) <> 65535 -> good s /\ b = frame_bytes tcp_bytes s.
Proof. intros H H1 H2. pose proof H as (_ & Hb & _). subst b. split; [split; [exact H|split; assumption]|reflexivity]. Qed.
Lemma is_bytes_good s : good s -> is_bytes (frame_bytes tcp_bytes s).
Proof. intros ((K & _) & _). rewrite frame_bytes_ip. apply is_bytes_app. split; [apply is_bytes_ether_wire, K|apply v4_is_bytes, K]. Qed.
Lemma length_cell s : good s -> wire16 (frame_bytes tcp_bytes s) 16 = vf_total (fr_ip s).
Proof. intros ((K & _) & _). exact (frame_length_cell tcp_bytes tcp_packet_ok s K). Qed.
Lemma harmless s i v : good s -> i < len (frame_bytes tcp_bytes s) -> ~ covered (frame_bytes tcp_bytes s) i -> v < 256 ->
  exists s', good s' /\ alter (frame_bytes tcp_bytes s) i v = frame_bytes tcp_bytes s' /\ same_but_macs (described s) (described s') /\
    fr_inner s' = fr_inner s /\ vf_total (fr_ip s') = vf_total (fr_ip s).
Proof.
  intros Hg Hi Hc Hv. unfold covered in Hc. rewrite length_cell in Hc by exact Hg.
  pose proof (is_bytes_good s Hg) as Hb. pose proof Hg as (((He & Hvp & Hin) & _ & (Hty & Hpr & Hs1) & Hsp & Hs2) & Hk1 & Hk2).
  pose proof Hvp as (Hf & Hver & Hihl & Htot & Hop & Hpl & Hbe). cbn [frame_ip vp_header vp_options vp_payload vp_behind] in Hf, Hver, Hihl, Htot, Hop, Hpl, Hbe.
  set (rest := v4_bytes (frame_ip tcp_bytes s)) in *.
  destruct (N.ltb_spec i 12) as [Hlo|Hhi].
  - (* a MAC address *)
    set (t := alter (ether_wire (fr_ether s)) i v).
    assert (Hlt : len t = 14) by (unfold t; rewrite len_alter by (rewrite ether_wire_len; lia); apply ether_wire_len).
    destruct (ether_read t) as (f & Hfo & Hft); [apply is_bytes_alter; [apply is_bytes_ether_wire, He|exact Hv]|exact Hlt|].
    exists {| fr_ether := f; fr_ip := fr_ip s; fr_options := fr_options s; fr_inner := fr_inner s; fr_padding := fr_padding s |}.
    assert (Hx : alter (frame_bytes tcp_bytes s) i v = ether_wire f ++ rest).
    { rewrite frame_bytes_ip, <- Hft. fold rest. unfold t, alter. rewrite takeN_app1 by (rewrite ether_wire_len; lia). rewrite dropN_app1 by (rewrite ether_wire_len; lia).
      rewrite <- app_assoc. reflexivity. }
    assert (Hty' : ef_type f = ef_type (fr_ether s)).
    { assert (H12 : wire16 t 12 = wire16 (ether_wire (fr_ether s)) 12) by (unfold t; apply wire16_alter_out; rewrite ?ether_wire_len; lia).
      rewrite Hft in H12. destruct He as (_ & _ & He), Hfo as (_ & _ & Hfo). unfold u16 in He, Hfo.
      change (ef_type f / 256 * 256 + ef_type f mod 256 = ef_type (fr_ether s) / 256 * 256 + ef_type (fr_ether s) mod 256) in H12. lia. }
    split; [|split; [rewrite Hx, frame_bytes_ip; reflexivity|split; [repeat split|split; reflexivity]]].
    split; [|split; assumption]. split; [split; [exact Hfo|split; [exact Hvp|exact Hin]]|]. split; [reflexivity|].
    split; [split; [cbn [fr_ether]; rewrite Hty'; exact Hty|split; assumption]|]. split; assumption.
  - (* padding *)
    assert (Hfb : frame_bytes tcp_bytes s = (ether_wire (fr_ether s) ++ v4_wire (fr_ip s) ++ fr_options s ++ tcp_bytes (fr_inner s)) ++ fr_padding s)
      by (unfold frame_bytes; rewrite <- !app_assoc; reflexivity).
    set (front := ether_wire (fr_ether s) ++ v4_wire (fr_ip s) ++ fr_options s ++ tcp_bytes (fr_inner s)) in *.
    assert (Hlf : len front = 14 + vf_total (fr_ip s)) by (unfold front; autorewrite with len; rewrite ether_wire_len, v4_wire_len; lia).
    rewrite Hfb in Hi |- *. rewrite len_app in Hi.
    exists {| fr_ether := fr_ether s; fr_ip := fr_ip s; fr_options := fr_options s; fr_inner := fr_inner s; fr_padding := alter (fr_padding s) (i - len front) v |}.
    split; [|split; [|split; [repeat split|split; reflexivity]]].
    + split; [|split; assumption]. split; [split; [exact He|split; [|exact Hin]]|split; [reflexivity|split; [split; [exact Hty|split; assumption]|split; assumption]]].
      split; [exact Hf|]. split; [exact Hver|]. split; [exact Hihl|]. split; [exact Htot|]. split; [exact Hop|]. split; [exact Hpl|].
      cbn [frame_ip vp_behind fr_padding]. apply is_bytes_alter; [exact Hbe|exact Hv].
    + unfold frame_bytes. cbn [fr_ether fr_ip fr_options fr_inner fr_padding]. rewrite !app_assoc. rewrite <- (app_assoc _ (v4_wire _)), <- !app_assoc. fold front.
      unfold alter. rewrite takeN_app2 by lia. rewrite dropN_app2 by lia. rewrite <- !app_assoc. replace (i + 1 - len front) with (i - len front + 1) by lia.
      unfold front. rewrite <- !app_assoc. reflexivity.
Qed.
(** C83: and where it is changed before or behind that, the segment is received as before, but for the MAC addresses. *)
Lemma c83_damage_harmless : forall E b g i v, is_bytes b -> wire16 b 16 mod 2 = 0 \/ cursor_eof E = EofKeep ->
  receive E b = Ok (Some g) -> i < len b -> ~ covered b i -> u8 v ->
  exists g', receive E (alter b i v) = Ok (Some g') /\ same_but_macs g g'.
Proof.
  intros E b g i v Hb Hc Hr Hi Hn Hv. apply c82_receive in Hr; [|exact Hb|exact Hc]. destruct Hr as (s & Hs & K1 & K2 & ->).
  destruct (good_of b s Hs K1 K2) as [Hg ->]. destruct (harmless s i v Hg Hi Hn Hv) as (s' & Hg' & -> & Hsame & Hin & Htot).
  exists (described s'). split; [|exact Hsame]. apply good_received; [exact Hg'|]. unfold even_for. rewrite Hin.
  rewrite length_cell in Hc by exact Hg. destruct Hg as (((_ & (_ & _ & Hihl & Ht & _) & _) & _) & _). cbn [frame_ip vp_header vp_options vp_payload] in Hihl, Ht.
  destruct Hc as [Hc|Hc]; [left; lia|right; exact Hc].
Qed.

(** ** The stream *)
Lemma segments_nth from to ack window chunks : forall seq n g, seq < 4294967296 -> nth_error (segments from to seq ack window chunks) n = Some g ->
  exists d, nth_error chunks n = Some d /\ g = {| sg_from := from; sg_to := to; sg_seq := (seq + len (concat (firstn n chunks))) mod 4294967296; sg_ack := ack;
    sg_flags := ACK; sg_window := window; sg_data := d |}.
Proof.
  induction chunks as [|d rest IH]; intros seq n g Hs H; [destruct n; discriminate|].
  destruct n as [|n]; cbn [segments nth_error] in H.
  - injection H as <-. exists d. split; [reflexivity|]. cbn [firstn concat]. rewrite len_nil, N.add_0_r, N.mod_small by exact Hs. reflexivity.
  - destruct (IH _ _ _ (N.mod_lt _ 4294967296 ltac:(discriminate)) H) as (d' & H1 & ->). exists d'. split; [exact H1|]. cbn [firstn concat]. rewrite len_app.
    rewrite N.add_mod_idemp_l by discriminate. rewrite N.add_assoc. reflexivity.
Qed.
Lemma concat_firstn_step (chunks : list bytes) : forall n d, nth_error chunks n = Some d -> concat (firstn (S n) chunks) = concat (firstn n chunks) ++ d.
Proof.
  induction chunks as [|c rest IH]; intros n d H; [destruct n; discriminate|]. destruct n as [|n]; cbn [nth_error] in H.
  - injection H as ->. cbn. rewrite app_nil_r. reflexivity.
  - change (c ++ concat (firstn (S n) rest) = (c ++ concat (firstn n rest)) ++ d). rewrite (IH n d H), app_assoc. reflexivity.
Qed.
Lemma firstn_grows (chunks : list bytes) : Forall (fun d => d <> []) chunks -> forall n k, (n < k)%nat -> (k <= length chunks)%nat ->
  len (concat (firstn n chunks)) < len (concat (firstn k chunks)).
Proof.
  induction 1 as [|c rest Hc _ IH]; intros n k Hnk Hk; [cbn in Hk; lia|]. destruct k as [|k]; [lia|]. cbn [firstn concat length] in *. rewrite len_app.
  assert (0 < len c) by (destruct c; [congruence|rewrite len_cons; lia]).
  destruct n as [|n]; [cbn [firstn concat]; rewrite len_nil; lia|]. cbn [firstn concat]. rewrite len_app. specialize (IH n k ltac:(lia) ltac:(lia)). lia.
Qed.
Lemma firstn_total (chunks : list bytes) k : len (concat (firstn k chunks)) <= len (concat chunks).
Proof. rewrite <- (firstn_skipn k chunks) at 2. rewrite concat_app, len_app. lia. Qed.

Section STREAM.
  Context (Es E : env) (from to me peer : endpoint) (seq ack window : N) (chunks : list bytes).
  Hypothesis Hfrom : endpoint_ok from.
  Hypothesis Hto : endpoint_ok to.
  Hypothesis Hseq : u32 seq.
  Hypothesis Hack : u32 ack.
  Hypothesis Hwin : u16 window.
  Hypothesis Hchunks : chunks_ok Es E chunks.
  Definition offset (n : nat) : N := (seq + len (concat (firstn n chunks))) mod 4294967296.
  Definition sent_segment (n : nat) (d : bytes) : segment :=
    {| sg_from := from; sg_to := to; sg_seq := offset n; sg_ack := ack; sg_flags := ACK; sg_window := window; sg_data := d |}.
  Lemma nth_sent n g : nth_error (segments from to seq ack window chunks) n = Some g -> exists d, nth_error chunks n = Some d /\ g = sent_segment n d.
  Proof. apply segments_nth. exact Hseq. Qed.
  Lemma chunk_ok n d : nth_error chunks n = Some d -> segment_ok (sent_segment n d) /\ d <> [] /\ (len d mod 2 = 0 \/ cursor_eof Es = EofKeep /\ cursor_eof E = EofKeep).
  Proof.
    intros H. destruct Hchunks as [Hc _]. rewrite Forall_forall in Hc. destruct (Hc d (nth_error_In _ _ H)) as (H1 & H2 & H3 & H4).
    split; [|split; assumption]. unfold segment_ok, sent_segment, offset, u32 in *. cbn [sg_from sg_to sg_seq sg_ack sg_flags sg_window sg_data].
    repeat split; try apply Hfrom; try apply Hto; try assumption. apply N.mod_lt. discriminate.
  Qed.
  Lemma offsets_differ n k : (n < length chunks)%nat -> (k <= length chunks)%nat -> n <> k -> offset n <> offset k.
  Proof.
    intros Hn Hk Hne. destruct Hchunks as [Hc Ht]. assert (Hz : Forall (fun d => d <> []) chunks) by (eapply Forall_impl; [|exact Hc]; intros d (H & _); exact H).
    unfold offset. pose proof (firstn_total chunks n) as T1. pose proof (firstn_total chunks k) as T2.
    assert (Hd : len (concat (firstn n chunks)) < len (concat (firstn k chunks)) \/ len (concat (firstn k chunks)) < len (concat (firstn n chunks))).
    { destruct (Nat.lt_ge_cases n k); [left; apply firstn_grows; (assumption || lia)|right; apply firstn_grows; (assumption || lia)]. }
    unfold bytes in *. lia.
  Qed.
  (** A whole copy is accepted, and is the segment it is a copy of. *)
  Lemma whole n b : arrival Es E from to peer me (segments from to seq ack window chunks) (Some n) b ->
    exists d s, nth_error chunks n = Some d /\ good s /\ b = frame_bytes tcp_bytes s /\ even_for E s /\
      ends (described s) = (end_of peer, end_of me) /\ sg_seq (described s) = offset n /\ sg_flags (described s) = ACK /\ sg_data (described s) = d.
  Proof.
    intros H. remember (Some n) as l eqn:El. induction H as [m g b0 Er steps b H1 H2 H3 H4 H5 H6 H7|m b i v H1 IH H2 H3 H4|m b i v _ _ _ _ _|b _ _ _]; try discriminate El.
    - injection El as ->. destruct (nth_sent n g H1) as (d & Hd & ->). destruct (chunk_ok n d Hd) as (Hg & _ & Hp). cbn [sent_segment sg_data] in H6.
      destruct (send_good Es (sent_segment n d) Hg) as (S1 & S2 & S3 & S4 & S5); [cbn [sent_segment sg_data]; tauto|].
      cbn [sent_segment sg_data] in S5.
      destruct (way_good Er steps H3 _ S2) as (s & W1 & W2 & W3 & W4).
      { unfold even_for. rewrite S5. destruct H6 as [H6|H6]; [left; lia|right; exact H6]. }
      { rewrite S4. lia. }
      rewrite S1 in H2. apply Ok_inj in H2. subst b0. rewrite H7 in W1. injection W1 as ->.
      exists d, s. split; [exact Hd|]. split; [exact W2|]. split; [reflexivity|]. split.
      + unfold even_for. rewrite W4, S5. destruct Hp as [Hp|[_ Hp]]; [left; lia|right; exact Hp].
      + rewrite W3, S3. pose proof (arrives_keeps steps (sent_segment n d)) as (-> & _ & -> & _ & ->).
        split; [apply H5; reflexivity|repeat split].
    - injection El as ->. destruct (IH eq_refl) as (d & s & Hd & Hg & -> & Hev & I1 & I2 & I3 & I4).
      destruct (harmless s i v Hg H2 H3 H4) as (s' & Hg' & Hb & (Q1 & Q2 & _ & Q3 & _ & Q4) & Hin & _).
      exists d, s'. split; [exact Hd|]. split; [exact Hg'|]. split; [exact Hb|]. split; [unfold even_for; rewrite Hin; exact Hev|]. repeat split; congruence.
  Qed.
  Lemma same_end_of x y : end_of x = end_of y -> same_end x y = true.
  Proof. intros H. apply same_end_iff. injection H as -> ->. auto. Qed.
  Lemma parity_good s : good s -> even_for E s -> wire16 (frame_bytes tcp_bytes s) 16 mod 2 = 0 \/ cursor_eof E = EofKeep.
  Proof.
    intros Hg Hev. rewrite length_cell by exact Hg. destruct Hg as (((_ & (_ & _ & Hihl & Ht & _) & _) & _) & _). cbn [frame_ip vp_header vp_options vp_payload] in Hihl, Ht.
    destruct Hev as [Hev|Hev]; [left; lia|right; exact Hev].
  Qed.
  Definition state_at (k : nat) : stream := {| next_seq := offset k; so_far := concat (firstn k chunks) |}.
  Lemma take_in_one k l b : (k <= length chunks)%nat -> arrival Es E from to peer me (segments from to seq ack window chunks) l b ->
    let k' := match l with Some n => if Nat.eqb n k then S k else k | None => k end in
    take_in E me peer (state_at k) b = Ok (state_at k') /\ (k' <= length chunks)%nat.
  Proof.
    intros Hk H. cbv zeta. destruct l as [n|].
    - destruct (whole n b H) as (d & s & Hd & Hg & -> & Hev & I1 & I2 & I3 & I4). unfold take_in. rewrite (good_received E s Hg Hev). cbn [bind].
      assert (Hn : (n < length chunks)%nat) by (apply nth_error_Some; congruence).
      assert (Hof : of_connection me peer (described s) = true).
      { unfold of_connection. destruct (ends_fields _ _ _ I1) as (J1 & J2 & J3 & J4). rewrite !same_end_of by (unfold end_of; rewrite ?J1, ?J2, ?J3, ?J4; reflexivity). rewrite I3. reflexivity. }
      rewrite Hof. cbn [andb]. rewrite I2, I4. cbn [state_at next_seq so_far]. destruct (Nat.eqb_spec n k) as [->|Hne].
      + rewrite N.eqb_refl. split; [|lia]. unfold state_at, offset. rewrite (concat_firstn_step chunks k d Hd), len_app, N.add_mod_idemp_l, N.add_assoc by discriminate. reflexivity.
      + destruct (N.eqb_spec (offset n) (offset k)) as [He|_]; [destruct (offsets_differ n k Hn Hk Hne He)|]. split; [reflexivity|exact Hk].
    - split; [|exact Hk]. unfold take_in. remember None as l eqn:El. destruct H as [m g b0 Er steps b H1 H2 H3 H4 H5 H6 H7|m b i v _ _ _ _|m b i v H1 H2 H3 H4|b H1 H2 H3]; try discriminate El.
      + destruct (whole m b H1) as (d & s & Hd & Hg & -> & Hev & _).
        rewrite (c83_damage_refused E _ (described s) i v); [reflexivity|apply is_bytes_good; exact Hg|apply parity_good; assumption|apply good_received; assumption|exact H2|exact H3|exact H4].
      + destruct (c82_receive_total E b H1 H2) as [[g|] Hr]; rewrite Hr; cbn [bind]; [|reflexivity].
        apply c82_receive in Hr; [|exact H1|exact H2]. destruct Hr as (s & Hs & _ & _ & ->). rewrite (H3 s Hs). reflexivity.
  Qed.
End STREAM.
(** C83: the receiver never fails, and has at every moment exactly the chunks whose segments have come in their turn: whatever is lost, repeated, reordered, damaged or slipped in,
    what it has is a beginning of the stream that was sent. *)
Lemma c83_stream : forall Es E from to me peer seq ack window chunks arrived, endpoint_ok from -> endpoint_ok to -> u32 seq -> u32 ack -> u16 window ->
  chunks_ok Es E chunks ->
  Forall (fun a => arrival Es E from to peer me (segments from to seq ack window chunks) (fst a) (snd a)) arrived ->
  let n := progress (map fst arrived) in
  (n <= length chunks)%nat /\
  collect E me peer {| next_seq := seq; so_far := [] |} (map snd arrived) =
  Ok {| next_seq := (seq + len (concat (firstn n chunks))) mod 4294967296; so_far := concat (firstn n chunks) |}.
Proof.
  intros Es E from to me peer seq ack window chunks arrived Hf Ht Hs Ha Hw Hc Har.
  assert (G : forall k, (k <= length chunks)%nat -> let n := fold_left (fun k l => match l with Some n => if Nat.eqb n k then S k else k | None => k end) (map fst arrived) k in
    (n <= length chunks)%nat /\ collect E me peer (state_at seq chunks k) (map snd arrived) = Ok (state_at seq chunks n)).
  { induction Har as [|[l b] rest H1 _ IH]; intros k Hk; cbn [map fold_left collect fst snd]; [split; [exact Hk|reflexivity]|].
    cbn [fst snd] in H1. destruct (take_in_one Es E from to me peer seq ack window chunks Hf Ht Hs Ha Hw Hc k l b Hk H1) as [E1 E2]. rewrite E1. cbn [bind]. apply IH. exact E2. }
  specialize (G 0%nat ltac:(lia)). cbv zeta in G |- *. unfold progress.
  replace {| next_seq := seq; so_far := [] |} with (state_at seq chunks 0); [exact G|].
  unfold state_at, offset. cbn [firstn concat]. rewrite len_nil, N.add_0_r, N.mod_small by exact Hs. reflexivity.
Qed.
(** C83: and if whole copies of all segments have come in order, with anything between them (a sender that goes on repeating sees to that), it has the whole stream. *)
Lemma c83_complete : forall Es E from to me peer sq ack window chunks arrived, endpoint_ok from -> endpoint_ok to -> u32 sq -> u32 ack -> u16 window ->
  chunks_ok Es E chunks ->
  Forall (fun a => arrival Es E from to peer me (segments from to sq ack window chunks) (fst a) (snd a)) arrived ->
  subsequence (map Some (seq 0 (length chunks))) (map fst arrived) ->
  collect E me peer {| next_seq := sq; so_far := [] |} (map snd arrived) = Ok {| next_seq := (sq + len (concat chunks)) mod 4294967296; so_far := concat chunks |}.
Proof.
  intros Es E from to me peer sq ack window chunks arrived Hf Ht Hs Ha Hw Hc Har Hsub.
  destruct (c83_stream Es E from to me peer sq ack window chunks arrived Hf Ht Hs Ha Hw Hc Har) as [H1 H2].
  assert (Hmono : forall l k, (k <= fold_left (fun k l => match l with Some n => if Nat.eqb n k then S k else k | None => k end) l k)%nat).
  { induction l as [|[n|] l IH]; intros k; cbn [fold_left]; [lia| |apply IH]. destruct (Nat.eqb n k); [specialize (IH (S k)); lia|apply IH]. }
  assert (G : forall l m, subsequence l m -> forall j p k, l = map Some (seq j p) -> (j <= k)%nat ->
    (j + p <= fold_left (fun k l => match l with Some n => if Nat.eqb n k then S k else k | None => k end) m k)%nat).
  { induction 1 as [m|x l m _ IH|x l m _ IH]; intros j p k El Hjk.
    - destruct p; [|discriminate]. specialize (Hmono m k). lia.
    - destruct p as [|p]; [discriminate|]. cbn [seq map] in El. injection El as -> ->. cbn [fold_left].
      destruct (Nat.eqb_spec j k) as [->|Hne]; [specialize (IH (S k) p (S k) eq_refl ltac:(lia))|specialize (IH (S j) p k eq_refl ltac:(lia))]; lia.
    - cbn [fold_left]. apply IH; [exact El|]. destruct x as [n|]; [destruct (Nat.eqb n k)|]; lia. }
  specialize (G _ _ Hsub 0%nat (length chunks) 0%nat eq_refl ltac:(lia)). change (0 + length chunks <= progress (map fst arrived))%nat in G.
  assert (Hn : progress (map fst arrived) = length chunks) by lia. rewrite Hn, firstn_all in H2. exact H2.
Qed.
(** C83: the damage must be on the last stretch. A translator written with checked guards writes a fresh checksum without looking at the old one, so that data damaged before
    it arrives as if it had been sent so. *)
Lemma c83_translator_refuted : forall E b g i v a port, is_bytes b -> wire16 b 16 mod 2 = 0 \/ cursor_eof E = EofKeep ->
  receive E b = Ok (Some g) -> 14 + wire16 b 16 - len (sg_data g) <= i < 14 + wire16 b 16 -> u8 v -> addr_ok a -> u16 port ->
  exists b', nat_out_tcp E a port (alter b i v) = (b', Ok tt) /\
    receive E b' = Ok (Some (with_data (alter (sg_data g) (i - (14 + wire16 b 16 - len (sg_data g))) v) (stepped (SetFrom a port) g))).
Proof.
  intros E b g i v a port Hb Hc Hr Hi Hv Ha Hp. apply c82_receive in Hr; [|exact Hb|exact Hc]. destruct Hr as (s & Hs & K1 & K2 & ->).
  destruct (good_of b s Hs K1 K2) as [Hg ->]. clear Hs. assert (Hc' := Hc). rewrite length_cell in Hi, Hc |- * by exact Hg. cbn [described sg_data] in Hi |- *.
  pose proof Hg as (((He & Hvp & Hin) & _ & (Hty & Hpr & Hs1) & Hsp & Hs2) & _).
  pose proof Hvp as (Hf & Hver & Hihl & Htot & Hop & Hpl & Hbe). cbn [frame_ip vp_header vp_options vp_payload vp_behind] in Hf, Hver, Hihl, Htot, Hop, Hpl, Hbe.
  pose proof Hin as (Hth & Hto & Htob & Htp).
  set (d := tp_payload (fr_inner s)) in *. set (start := 14 + vf_total (fr_ip s) - len d) in *.
  set (t1 := {| tp_header := tp_header (fr_inner s); tp_options := tp_options (fr_inner s); tp_payload := alter d (i - start) v |}).
  set (s1 := {| fr_ether := fr_ether s; fr_ip := fr_ip s; fr_options := fr_options s; fr_inner := t1; fr_padding := fr_padding s |} : tcp_frame).
  assert (Hld : len d <= vf_total (fr_ip s)) by (rewrite Htot, tcp_len; unfold d; lia).
  assert (Hx : i - start < len d) by (unfold start in *; lia).
  assert (Hl1 : len (tcp_bytes t1) = len (tcp_bytes (fr_inner s))) by (rewrite !tcp_len; cbn [t1 tp_options tp_payload]; rewrite len_alter by exact Hx; reflexivity).
  assert (H1 : ok_tcp s1).
  { split; [exact He|split].
    - split; [exact Hf|]. split; [exact Hver|]. split; [exact Hihl|]. cbn [frame_ip vp_header vp_options vp_payload vp_behind s1 fr_ip fr_options fr_inner fr_padding].
      rewrite Hl1. split; [exact Htot|]. split; [exact Hop|]. split; [|exact Hbe]. apply tcp_is_bytes. split; [exact Hth|split; [exact Hto|split; [exact Htob|]]].
      apply is_bytes_alter; assumption.
    - split; [exact Hth|split; [exact Hto|split; [exact Htob|]]]. apply is_bytes_alter; assumption. }
  assert (Hbytes : alter (frame_bytes tcp_bytes s) i v = frame_bytes tcp_bytes s1).
  { assert (Hfb : forall w : bytes, ether_wire (fr_ether s) ++ v4_wire (fr_ip s) ++ fr_options s ++ (tcp_wire (tp_header (fr_inner s)) ++ tp_options (fr_inner s) ++ w) ++ fr_padding s =
        (ether_wire (fr_ether s) ++ v4_wire (fr_ip s) ++ fr_options s ++ tcp_wire (tp_header (fr_inner s)) ++ tp_options (fr_inner s)) ++ w ++ fr_padding s) by (intros w; rewrite <- !app_assoc; reflexivity).
    unfold frame_bytes, tcp_bytes. cbn [s1 t1 fr_ether fr_ip fr_options fr_inner fr_padding tp_header tp_options tp_payload]. fold d. rewrite !Hfb.
    set (front := ether_wire (fr_ether s) ++ v4_wire (fr_ip s) ++ fr_options s ++ tcp_wire (tp_header (fr_inner s)) ++ tp_options (fr_inner s)).
    assert (Hlf : len front = start).
    { unfold front, start. autorewrite with len. rewrite ether_wire_len, v4_wire_len. rewrite tcp_len in Htot. fold d in Htot.
      assert (Hw : len (tcp_wire (tp_header (fr_inner s))) = 20) by reflexivity. rewrite Hw. lia. }
    unfold alter. rewrite takeN_app2 by lia. rewrite dropN_app2 by lia. rewrite Hlf. rewrite takeN_app1 by lia. rewrite dropN_app1 by lia.
    replace (i + 1 - start) with (i - start + 1) by (unfold start in *; lia). rewrite <- !app_assoc. reflexivity. }
  rewrite Hbytes. unfold nat_out_tcp.
  assert (Hev : even_for E s1).
  { unfold even_for. cbn [s1 fr_inner]. rewrite Hl1. destruct Hc as [Hc|Hc]; [left; lia|right; exact Hc]. }
  assert (Hvs : Forall v4_setter_ok [V4SetSource a]) by (apply Forall_cons; [exact Ha|apply Forall_nil]).
  assert (Hts : Forall tcp_setter_ok [TcpSetSource port]) by (apply Forall_cons; [exact Hp|apply Forall_nil]).
  assert (Hnf : Forall (fun o => ~ tcp_is_flags o) [TcpSetSource port]) by (apply Forall_cons; [intros []|apply Forall_nil]).
  assert (Hkp : Forall keeps_protocol [V4SetSource a]) by (apply Forall_cons; [exact I|apply Forall_nil]).
  destruct (c77_tcp E [V4SetSource a] [TcpSetSource port] s1 H1 Hsp Hvs Hts Hnf Hev) as [R1 R2].
  eexists. split; [exact R1|].
  destruct (ip_edited_routable tcp_bytes tcp_packet_ok [V4SetSource a] s1 H1 Hvs Hty) as [I1 (_ & I2 & _)].
  destruct (tcp_clean_assigns [TcpSetSource port] t1 Hnf Hsp) as (P0 & P1 & P2). pose proof (tcp_inner_len s1 H1) as Hm. pose proof (tcp_assigns_len [TcpSetSource port] t1) as Hal.
  destruct (tcp_sum_valid (frame_ip tcp_bytes (ip_edited [V4SetSource a] s1)) (assigns tcp_assign [TcpSetSource port] t1)) as [V1 V2];
    [exact I2|apply tcp_assigns_ok; [apply H1|exact Hts]|exact P0|cbn [s1 fr_inner] in Hm; lia|].
  assert (Hgood : good (rewritten_tcp [V4SetSource a] [TcpSetSource port] s1)).
  { apply good_intro; [exact R2|exact I1| |exact P0|exact V1|exact V2].
    cbn [rewritten_tcp fr_ip v4_sum v4_summed v4_fields_with vf_proto]. rewrite keeps_proto by exact Hkp. exact Hpr. }
  rewrite (good_received E _ Hgood).
  - rewrite described_from by exact Hsp. reflexivity.
  - unfold even_for in *. destruct Hev as [Hev|Hev]; [left|right; exact Hev].
    rewrite tcp_len in Hev |- *. cbn [rewritten_tcp fr_inner tcp_sum tcp_store tp_payload tp_options s1] in *. rewrite P1, P2. exact Hev.
Qed.
(** C83: non-vacuity. *)
Example c83_example : forall E,
  progress (map fst (x_arrived E)) = 3%nat /\
  collect E x_server x_seen {| next_seq := 4294967294; so_far := [] |} (map snd (x_arrived E)) = Ok {| next_seq := 6; so_far := [65; 66; 67; 68; 69; 70; 71; 72] |} /\
  collect E x_server x_seen {| next_seq := 4294967294; so_far := [] |} (firstn 7 (map snd (x_arrived E))) = Ok {| next_seq := 0; so_far := [65; 66] |}.
Proof. intros [[] [] []]; (split; [reflexivity|]); (split; vm_compute; reflexivity). Qed.
