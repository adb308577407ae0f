(** * BuilderProofs: C32-C34, C36, C37, C40, C46. *)
From Verif Require Import Base Enums Buffer Ether Ipv4 Ip Udp Tcp Icmp Builders Spec SpecCalls SpecBuild
  Lemmas ParseProofs SliceProofs AccessProofs FieldProofs ChecksumLemmas ChecksumProofs GuardProofs BufferProofs BuildLemmas FinalLemmas ChainLemmas ReadLemmas.
From Coq Require Import ZifyBool ZifyNat ZifyN.
Ltac Zify.zify_post_hook ::= Z.div_mod_to_equations.

(** ** C32 *)
(** C32: [finalize] runs the finalizers from the last added to the first, up to the first failure. *)
Lemma c32_finalize : forall fs b b' r, fin_finalize fs b = (b', r) <-> runs (rev fs) b b' r.
Proof.
  intros fs. unfold fin_finalize. generalize (rev fs). clear fs. intros fs. induction fs as [|f fs IH]; intros b b' r; cbn [fin_run].
  - split; [intros H; injection H as <- <-; constructor|]. intros H. inversion_clear H. reflexivity.
  - destruct (f b) as [b1 [[]|e|]] eqn:Hf.
    + rewrite IH. split; [intros H; eapply runs_next; eassumption|]. intros H. inversion H; subst; congruence.
    + split; [intros H; injection H as <- <-; constructor; exact Hf|]. intros H. inversion H; subst; congruence.
    + split; [intros H; injection H as <- <-; constructor; exact Hf|]. intros H. inversion H; subst; congruence.
Qed.
(** C32: the order of [add] and [extend], seen through finalizers that append a mark. *)
Lemma c32_order : forall (ms ns : list N) b,
  let mark m : finalizer := fun s => (s ++ [m], Ok tt) in
  fin_finalize (fin_extend (fold_left fin_add (map mark ms) fin_default) (fold_left fin_add (map mark ns) fin_default)) b =
  (b ++ rev ns ++ rev ms, Ok tt).
Proof.
  intros ms ns b mark.
  assert (Ha : forall l fs, fold_left fin_add (map mark l) fs = fs ++ map mark l).
  { intros l. induction l as [|m l IH]; intros fs; [rewrite app_nil_r; reflexivity|]. cbn [map fold_left]. rewrite IH. unfold fin_add. rewrite <- app_assoc. reflexivity. }
  rewrite !Ha. cbn [fin_default app]. unfold fin_extend, fin_finalize. rewrite rev_app_distr, <- !map_rev.
  assert (Hr : forall l s fs, fin_run (map mark l ++ fs) s = fin_run fs (s ++ l)).
  { intros l. induction l as [|m l IH]; intros s fs; [rewrite app_nil_r; reflexivity|]. cbn [map app fin_run]. unfold mark at 1. rewrite IH, <- app_assoc. reflexivity. }
  rewrite Hr. rewrite <- (app_nil_r (map mark (rev ms))). rewrite Hr. cbn [fin_run]. rewrite <- app_assoc. reflexivity.
Qed.
(** C32: taking a sub-builder keeps the parent's finalizers, in front of what the
    sub-builder adds later: they run after it. *)
Lemma c32_sub : forall mk b c, sub mk b = Ok c -> (forall x, mk (b_buffer b) = Ok x -> b_fin x = fin_default) -> b_fin c = b_fin b.
Proof.
  intros mk b c H Hm. unfold sub in H. destruct (mk (b_buffer b)) as [x|e|] eqn:Hx; try discriminate. apply Ok_inj in H. subst c. cbn [with_fin b_fin].
  rewrite (Hm x eq_refl). reflexivity.
Qed.
Example c32_example :
  let ok m : finalizer := fun s => (s ++ [m], Ok tt) in
  let bad : finalizer := fun s => (s ++ [99], Err InvalidPacket) in
  fin_finalize (fin_add (fin_add (fin_add fin_default (ok 1)) bad) (ok 3)) [0] = ([0; 3; 99], Err InvalidPacket).
Proof. reflexivity. Qed.

(** ** C33, C40: UDP over IPv4 (over Ethernet) *)
Lemma dynamic_sized {E : env} : sized None [] []. Proof. unfold sized, free. rewrite len_nil. widths; lia. Qed.
(** C33: the bytes built, for payloads of any size that fits in memory. *)
Lemma c33_udp_bytes : forall E eth vs us p,
  eth_ok eth -> Forall v4_arg_ok vs -> Forall udp_op_ok us -> one_payload (udp_payloads us) p ->
  42 + len p <= ISIZE_MAX -> len p mod 2 = 0 \/ cursor_eof E = EofKeep ->
  let f := v4_after vs in
  udp_chain E eth vs us dynamic_new =
  Ok (ether_layer eth ++ v4_wire (v4_finished f 17 (8 + len p)) ++
      udp_wire (udp_finished (vf_src f) (vf_dst f) (udp_after us) p) ++ p).
Proof.
  intros E eth vs us p He Hv Hu Hp Hl Hc f.
  pose proof (udp_chain_gen E eth vs us p None [] [] He Hv Hu Hp dynamic_sized I (or_introl eq_refl)) as G. cbv zeta in G.
  change (mkbuf None [] []) with dynamic_new in G. rewrite G by (destruct eth; cbn [eth_size]; rewrite len_nil; lia). clear G. cbn [app].
  rewrite seen_covered by (rewrite len_app, len_udp_wire; destruct Hc as [Hc|Hc]; [left; lia|right; exact Hc]). reflexivity.
Qed.
(** C33: with an odd payload under the other kind of std, the checksum is taken
    over the datagram with its last byte zeroed. *)
Lemma c33_udp_bytes_odd : forall E eth vs us p,
  eth_ok eth -> Forall v4_arg_ok vs -> Forall udp_op_ok us -> one_payload (udp_payloads us) p ->
  42 + len p <= ISIZE_MAX -> len p mod 2 = 1 -> cursor_eof E = EofSeek ->
  let f := v4_after vs in
  udp_chain E eth vs us dynamic_new =
  Ok (ether_layer eth ++ v4_wire (v4_finished f 17 (8 + len p)) ++
      udp_wire (udp_finished (vf_src f) (vf_dst f) (udp_after us) (alter p (len p - 1) 0)) ++ p).
Proof.
  intros E eth vs us p He Hv Hu Hp Hl Hodd Hc f.
  pose proof (udp_chain_gen E eth vs us p None [] [] He Hv Hu Hp dynamic_sized I (or_introl eq_refl)) as G. cbv zeta in G.
  change (mkbuf None [] []) with dynamic_new in G. rewrite G by (destruct eth; cbn [eth_size]; rewrite len_nil; lia). clear G. cbn [app].
  assert (Hpl : len (alter p (len p - 1) 0) = len p) by (apply len_alter; lia).
  unfold udp_finished. rewrite Hpl.
  rewrite seen_odd by ((rewrite len_app, len_udp_wire; lia) || exact Hc).
  rewrite !alter_patch. rewrite len_app, len_udp_wire. rewrite patch_app2 by (rewrite len_udp_wire; lia).
  rewrite len_udp_wire. replace (8 + len p - 1 - 8) with (len p - 1) by lia. reflexivity.
Qed.
Lemma v4_wire_finished_addrs f pr n q : wire_addr (v4_wire (v4_finished f pr n) ++ q) 12 = vf_src f /\ wire_addr (v4_wire (v4_finished f pr n) ++ q) 16 = vf_dst f.
Proof.
  unfold v4_finished. generalize (inet_checksum (v4_wire (v4_fill f ((20 + n) mod 65536) pr 0))). intros ck.
  destruct f as [ver ihl dscp ecn tot id rs d m frag ttl pr0 ck0 [] []]. split; reflexivity.
Qed.
Lemma v4_finished_ok f pr n : v4_building f -> u8 pr -> v4_fields_ok (v4_finished f pr n).
Proof. intros Hf Hp. unfold v4_finished. apply v4_fill_ok; [apply Hf|unfold u16; lia|exact Hp|apply inet_lt]. Qed.
(** C33: read back with the crate's own parsers, everything given is there and
    both checksums are valid. *)
Lemma c33_udp_reparse : forall E eops vs us p,
  eth_ok (Some eops) -> Forall v4_arg_ok vs -> Forall v4_faithful vs -> Forall udp_op_ok us ->
  one_payload (udp_payloads us) p -> 28 + len p <= 65535 -> len p mod 2 = 0 \/ cursor_eof E = EofKeep ->
  exists frame ip udp,
    udp_chain E (Some eops) vs us dynamic_new = Ok frame /\
    ether_reads eops ET_Ipv4 ip frame /\ v4_reads E vs IP_Udp udp ip /\ udp_reads E us p ip udp /\
    udp_chain E None vs us dynamic_new = Ok ip.
Proof.
  intros E eops vs us p He Hv Hf Hu Hp Hl Hc.
  assert (Hi : 65535 + 42 <= ISIZE_MAX) by (widths; lia).
  pose proof (one_payload_bytes _ _ Hp (udp_op_payloads us Hu)) as Hpb. pose proof (v4_after_building vs Hv) as Hb.
  set (f := v4_after vs) in *.
  set (udp := udp_wire (udp_finished (vf_src f) (vf_dst f) (udp_after us) p) ++ p).
  assert (Hlu : len udp = 8 + len p) by (unfold udp; rewrite len_app, len_udp_wire; reflexivity).
  set (ip := v4_wire (v4_finished f 17 (len udp)) ++ udp).
  exists (ether_layer (Some eops) ++ ip), ip, udp.
  assert (Hub : is_bytes udp) by (apply is_bytes_app; split; [apply is_bytes_udp_wire, udp_finished_ok, udp_after_ok, Hu|exact Hpb]).
  split; [|split; [|split; [|split]]].
  - rewrite (c33_udp_bytes E (Some eops) vs us p) by (assumption || lia). fold f. unfold ip. rewrite Hlu. reflexivity.
  - change ET_Ipv4 with (ether_protocol_from 0x0800). apply ether_reads_ok; [apply He|reflexivity].
  - change IP_Udp with (ip_protocol_from 17). apply v4_reads_ok; try assumption; [reflexivity|lia].
  - destruct (v4_wire_finished_addrs f 17 (len udp) udp) as [A1 A2]. fold ip in A1, A2. unfold udp. rewrite <- A1, <- A2.
    apply udp_reads_ok; try assumption; try lia.
    + unfold ip. apply is_bytes_app; split; [apply is_bytes_v4_wire, v4_finished_ok; [exact Hb|reflexivity]|exact Hub].
    + unfold ip. rewrite len_app, len_v4_wire. lia.
  - rewrite (c33_udp_bytes E None vs us p) by (assumption || lia || exact I). fold f. unfold ip. rewrite Hlu. reflexivity.
Qed.
Lemma pseudo_ck s d proto b : 0 < proto -> inet_checksum (with_pseudo_header s d proto b) < 65535.
Proof.
  intros H. unfold inet_checksum. pose proof (pseudo_pos s d proto (len b) H). rewrite word_sum_pseudo.
  pose proof (ones_sum_0 (word_sum (pseudo s d proto (len b)) + word_sum b)). lia.
Qed.
(** C33: the odd case: the checksum of the built packet is wrong for a receiver. *)
Lemma c33_udp_odd_refuted : forall E eth vs us p,
  eth_ok eth -> Forall v4_arg_ok vs -> Forall udp_op_ok us -> one_payload (udp_payloads us) p ->
  28 + len p <= 65535 -> len p mod 2 = 1 -> nthN p (len p - 1) <> 0 -> cursor_eof E = EofSeek ->
  exists front udp, udp_chain E eth vs us dynamic_new = Ok (front ++ udp) /\ len udp = 8 + len p /\
    dropN 8 udp = p /\
    ~ receiver_accepts (with_pseudo_header (vf_src (v4_after vs)) (vf_dst (v4_after vs)) 17 udp).
Proof.
  intros E eth vs us p He Hv Hu Hp Hl Hodd Hx Hc.
  assert (Hi : 65535 + 42 <= ISIZE_MAX) by (widths; lia).
  pose proof (one_payload_bytes _ _ Hp (udp_op_payloads us Hu)) as Hpb. pose proof (v4_after_building vs Hv) as Hb.
  pose proof (c33_udp_bytes_odd E eth vs us p He Hv Hu Hp ltac:(lia) Hodd Hc) as G. cbv zeta in G. rewrite G. clear G.
  set (f := v4_after vs) in *. set (g := udp_finished (vf_src f) (vf_dst f) (udp_after us) (alter p (len p - 1) 0)).
  exists (ether_layer eth ++ v4_wire (v4_finished f 17 (8 + len p))), (udp_wire g ++ p). rewrite <- app_assoc.
  split; [reflexivity|]. split; [rewrite len_app, len_udp_wire; reflexivity|].
  split; [change 8 with (len (udp_wire g)); apply dropN_app_len|].
  assert (Hpl : len (alter p (len p - 1) 0) = len p) by (apply len_alter; lia).
  assert (Hgok : udp_fields_ok g) by (apply udp_finished_ok, udp_after_ok, Hu).
  set (b := udp_wire g ++ p). assert (Hbb : is_bytes b) by (apply is_bytes_app; split; [apply is_bytes_udp_wire, Hgok|exact Hpb]).
  assert (Hlb : len b = 8 + len p) by (unfold b; rewrite len_app, len_udp_wire; reflexivity).
  set (ip := v4_wire f).
  destruct (v4_wire_addrs f) as [A1 A2]. fold ip in A1, A2.
  assert (Hipb : is_bytes ip) by (apply is_bytes_v4_wire, Hb). assert (Hlip : len ip = 20) by apply len_v4_wire.
  intros Hr.
  (* the same bytes judged with a std that reads the last byte *)
  set (K := {| overflow_checks := overflow_checks E; cursor_eof := EofKeep; target := target E |}).
  assert (Hck : wire16 b 6 = uf_checksum g).
  { unfold b, wire16. rewrite !nthN_app1 by (rewrite len_udp_wire; lia).
    destruct Hgok as (_ & _ & _ & G4). destruct g as [gs gd gl gc]. cbn [uf_checksum] in *. unfold u16 in G4.
    change (gc / 256 * 256 + gc mod 256 = gc). lia. }
  assert (Hg : uf_checksum g = inet_checksum (with_pseudo_header (vf_src f) (vf_dst f) 17
    (udp_wire (udp_fill (udp_after us) ((8 + len p) mod 65536) 0) ++ alter p (len p - 1) 0))).
  { unfold g, udp_finished. rewrite Hpl. reflexivity. }
  assert (Hseen : udp_checksum_of E (V4 ip) b = Ok (uf_checksum g)).
  { rewrite c21_udp_checksum_odd; try assumption; try lia. rewrite A1, A2, Hg. do 3 f_equal. unfold b, g, udp_finished. rewrite Hpl. rewrite udp_fill_zero.
    rewrite !alter_patch. rewrite len_app, len_udp_wire. rewrite patch_app2 by (rewrite len_udp_wire; lia).
    rewrite len_udp_wire. replace (8 + len p - 1 - 8) with (len p - 1) by lia. reflexivity. }
  pose proof (c21_udp_checksum_odd_wrong E ip b Hipb Hbb ltac:(lia) ltac:(lia) ltac:(lia) Hc) as W.
  assert (Hlast : nthN b (len b - 1) <> 0).
  { unfold b. rewrite nthN_app2 by (rewrite ?len_app, ?len_udp_wire; lia). rewrite len_app, len_udp_wire.
    replace (8 + len p - 1 - 8) with (len p - 1) by lia. exact Hx. }
  specialize (W Hlast).
  assert (Hv2 : udp_is_valid K (V4 ip) b = Ok true).
  { apply (c21_udp_is_valid_receiver K ip b); try assumption; try lia; [right; reflexivity|]. rewrite A1, A2. split; [exact Hr|].
    rewrite Hck, Hg. apply N.lt_neq. apply pseudo_ck. lia. }
  rewrite c21_udp_is_valid in Hv2; try assumption; try lia; [|right; reflexivity].
  apply ok_true_eqb in Hv2. apply W. rewrite Hseen, Hv2, Hck. reflexivity.
Qed.
Example c33_example : forall E,
  let eops := [EtherSource (Hw 0 35 105 99 89 190); EtherDestination (Hw 1 2 3 4 5 6)] in
  let vs := [V4SetTtl 1; V4SetSource (Ip4 127 0 0 1); V4SetTtl 64; V4SetDestination (Ip4 127 0 0 2); V4SetId 12298; V4SetDscp 3] in
  let us := [UdpSet (UdpSetSource 1337); UdpPayload [116; 101; 115; 116]; UdpSet (UdpSetDestination 9001)] in
  eth_ok (Some eops) /\ Forall v4_arg_ok vs /\ Forall v4_faithful vs /\ Forall udp_op_ok us /\
  one_payload (udp_payloads us) [116; 101; 115; 116] /\
  udp_chain E (Some eops) vs us dynamic_new =
  Ok ([1; 2; 3; 4; 5; 6; 0; 35; 105; 99; 89; 190; 8; 0] ++
      [69; 12; 0; 32; 48; 10; 0; 0; 64; 17; 76; 180; 127; 0; 0; 1; 127; 0; 0; 2] ++
      [5; 57; 35; 41; 0; 12; 241; 150] ++ [116; 101; 115; 116]).
Proof.
  intros E eops vs us. split; [split; [repeat constructor|reflexivity]|]. split; [repeat constructor|]. split; [repeat constructor|].
  split; [repeat constructor|]. split; [left; reflexivity|]. destruct E as [[] [] []]; vm_compute; reflexivity.
Qed.

(** ** C40 *)
Lemma v4_reread f pr q : v4_building f -> u8 pr -> 
  let ip := v4_wire (v4_finished f pr (len q)) ++ q in let t := (20 + len q) mod 65536 in
  v4_new ip = Ok ip /\ v4_length ip = Ok t /\ v4_payload ip = Ok (takeN (t - 20) q).
Proof.
  intros Hf Hp ip t. pose proof (v4_finished_ok f pr (len q) Hf Hp) as Hok.
  assert (Hv : vf_version (v4_finished f pr (len q)) = 4 /\ vf_ihl (v4_finished f pr (len q)) = 5 /\ vf_total (v4_finished f pr (len q)) = t).
  { destruct Hf as (_ & Hv & Hi). unfold v4_finished, t. generalize (inet_checksum (v4_wire (v4_fill f ((20 + len q) mod 65536) pr 0))).
    intros ck. destruct f. cbn in Hv, Hi |- *. subst. repeat split. }
  destruct Hv as (V1 & V2 & V3). pose proof (c09_v4 _ q Hok V1 ltac:(rewrite V2; lia)) as R. cbv zeta in R. fold ip in R.
  destruct R as (R1 & _ & _ & _ & _ & R6 & _). rewrite V3 in R6.
  assert (Hl : len ip = 20 + len q) by (unfold ip; rewrite len_app, len_v4_wire; reflexivity).
  assert (H2 : wire16 ip 2 = t). { unfold v4_length in R6. rewrite get16 in R6 by lia. apply Ok_inj in R6. exact R6. }
  assert (H0 : nthN ip 0 = 69).
  { unfold ip. rewrite nthN_app1 by (rewrite len_v4_wire; lia). destruct (v4_finished f pr (len q)). cbn in V1, V2. subst. reflexivity. }
  assert (Hn : v4_new ip = Ok ip).
  { apply c02_v4_new_iff. rewrite H0, H2. change (69 / 16) with 4. change (69 mod 16 * 4) with 20. repeat split; lia. }
  split; [exact Hn|]. split; [exact R6|]. pose proof (c07_v4 ip Hn) as S. cbv zeta in S. destruct S as (_ & _ & _ & S & _).
  rewrite H0, H2 in S. change (69 mod 16 * 4) with 20 in S. rewrite S. f_equal.
  unfold ip. destruct (N.leb_spec t 20).
  - replace (N.max 20 t) with 20 by lia. rewrite dropN_all by (rewrite len_takeN; lia). replace (t - 20) with 0 by lia. reflexivity.
  - replace (N.max 20 t) with t by lia. rewrite takeN_app2 by (rewrite len_v4_wire; lia). rewrite len_v4_wire.
    change 20 with (len (v4_wire (v4_finished f pr (len q)))) at 1. apply dropN_app_len.
Qed.
(** C40: whatever the size of the payload, the build succeeds; total length and
    UDP length are the true lengths modulo 65536, and reading the packet back
    yields only as much as the wrapped total length says. *)
Lemma c40_udp_wraps : forall E vs us p,
  Forall v4_arg_ok vs -> Forall udp_op_ok us -> one_payload (udp_payloads us) p -> 42 + len p <= ISIZE_MAX ->
  exists ip udp, udp_chain E None vs us dynamic_new = Ok ip /\ len ip = 28 + len p /\
    dropN 20 ip = udp /\ dropN 8 udp = p /\
    v4_new ip = Ok ip /\ v4_length ip = Ok ((28 + len p) mod 65536) /\
    udp_length udp = Ok ((8 + len p) mod 65536) /\
    v4_payload ip = Ok (takeN ((28 + len p) mod 65536 - 20) udp) /\
    (65535 < 28 + len p -> v4_payload ip <> Ok udp).
Proof.
  intros E vs us p Hv Hu Hp Hl.
  pose proof (udp_chain_gen E None vs us p None [] [] I Hv Hu Hp dynamic_sized I (or_introl eq_refl)) as G. cbv zeta in G.
  change (mkbuf None [] []) with dynamic_new in G. rewrite G by (cbn [eth_size]; rewrite len_nil; lia). clear G. cbn [app ether_layer].
  set (c := inet_checksum _). set (g := udp_fill (udp_after us) ((8 + len p) mod 65536) c). set (udp := udp_wire g ++ p).
  pose proof (v4_after_building vs Hv) as Hb. set (f := v4_after vs) in *.
  assert (Hlu : len udp = 8 + len p) by (unfold udp; rewrite len_app, len_udp_wire; reflexivity). rewrite <- Hlu.
  exists (v4_wire (v4_finished f 17 (len udp)) ++ udp), udp. split; [reflexivity|].
  split; [rewrite len_app, len_v4_wire; lia|].
  split; [change 20 with (len (v4_wire (v4_finished f 17 (len udp)))) at 1; apply dropN_app_len|].
  split; [unfold udp; change 8 with (len (udp_wire g)); apply dropN_app_len|].
  destruct (v4_reread f 17 udp Hb ltac:(reflexivity)) as (R1 & R2 & R3).
  replace (20 + len udp) with (28 + len p) in * by lia.
  split; [exact R1|]. split; [exact R2|].
  assert (Hlen : udp_length udp = Ok ((8 + len p) mod 65536)).
  { unfold udp_length. rewrite get16 by lia. f_equal. unfold udp, wire16. rewrite !nthN_app1 by (rewrite len_udp_wire; lia).
    change (nthN (udp_wire g) 4) with ((8 + len p) mod 65536 / 256). change (nthN (udp_wire g) (4 + 1)) with ((8 + len p) mod 65536 mod 256). lia. }
  split; [rewrite Hlu; exact Hlen|]. split; [exact R3|].
  intros Hbig He. rewrite R3 in He. apply Ok_inj in He. apply (f_equal len) in He. rewrite len_takeN in He. lia.
Qed.
Example c40_example : forall E : env, exists us p, one_payload (udp_payloads us) p /\ Forall udp_op_ok us /\ len p = 70000 /\ 42 + len p <= ISIZE_MAX /\
  (28 + len p) mod 65536 = 4492.
Proof.
  intros E. exists [UdpPayload (zeros 70000)], (zeros 70000). split; [left; reflexivity|].
  split; [constructor; [apply is_bytes_zeros|constructor]|]. rewrite len_zeros. split; [reflexivity|]. split; [widths; lia|reflexivity].
Qed.

(** ** C34: TCP over IPv4 (over Ethernet) *)
Lemma tcp_after_ok ts : Forall tcp_op_ok ts -> flags_last (tcp_setters ts) -> tcp_fields_ok (tcp_after ts).
Proof.
  intros H Hf. destruct (tcp_fold ts tcp_zero tcp_zero_building eq_refl H Hf) as (_ & Hg & _). apply Hg.
Qed.
(** C34: the bytes built. *)
Lemma c34_tcp_bytes : forall E eth vs ts p,
  eth_ok eth -> Forall v4_arg_ok vs -> Forall tcp_op_ok ts -> flags_last (tcp_setters ts) ->
  one_payload (tcp_payloads ts) p -> 20 + len p <= 131065 -> len p mod 2 = 0 \/ cursor_eof E = EofKeep ->
  let f := v4_after vs in
  tcp_chain E eth vs ts dynamic_new =
  Ok (ether_layer eth ++ v4_wire (v4_finished f 6 (20 + len p)) ++
      tcp_wire (tcp_finished (vf_src f) (vf_dst f) (tcp_after ts) p) ++ p).
Proof.
  intros E eth vs ts p He Hv Hu Hfl Hp Hl Hc f.
  assert (Hi : 131065 + 42 <= ISIZE_MAX) by (widths; lia).
  pose proof (tcp_chain_gen E eth vs ts p None [] [] He Hv Hu Hfl Hp dynamic_sized I (or_introl eq_refl)) as G. cbv zeta in G.
  change (mkbuf None [] []) with dynamic_new in G. rewrite G by (destruct eth; cbn [eth_size]; rewrite len_nil; lia). clear G. cbn [app].
  pose proof (tcp_after_ok ts Hu Hfl) as Hg. pose proof (one_payload_bytes _ _ Hp (tcp_op_payloads ts Hu)) as Hpb.
  pose proof (v4_after_building vs Hv) as Hb. fold f in Hb |- *. set (f' := v4_put f (V4SetProtocol IP_Tcp)).
  assert (Hb' : v4_building f') by (apply v4_put_building; [exact Hb|split; [reflexivity|exact I]]).
  rewrite c22_tcp_checksum; [|apply is_bytes_v4_wire, Hb'| |rewrite len_v4_wire; lia| |].
  - cbn [bind]. rewrite tcp_fill_zero. destruct (v4_wire_addrs f') as [-> ->].
    replace (vf_src f') with (vf_src f) by (unfold f'; clearbody f; destruct f; reflexivity).
    replace (vf_dst f') with (vf_dst f) by (unfold f'; clearbody f; destruct f; reflexivity). reflexivity.
  - apply is_bytes_app; split; [|exact Hpb]. apply is_bytes_tcp_wire, tcp_fill_offset; [exact Hg|lia|apply Hg].
  - rewrite len_app, len_tcp_wire. lia.
  - rewrite len_app, len_tcp_wire. destruct Hc as [Hc|Hc]; [left; lia|right; exact Hc].
Qed.
(** C34: with an odd payload under the other kind of std, [build] panics. *)
Lemma c34_tcp_odd_panics : forall E eth vs ts p,
  eth_ok eth -> Forall v4_arg_ok vs -> Forall tcp_op_ok ts -> flags_last (tcp_setters ts) ->
  one_payload (tcp_payloads ts) p -> 20 + len p <= 131065 -> len p mod 2 = 1 -> cursor_eof E = EofSeek ->
  tcp_chain E eth vs ts dynamic_new = Panic.
Proof.
  intros E eth vs ts p He Hv Hu Hfl Hp Hl Hodd Hc.
  assert (Hi : 131065 + 42 <= ISIZE_MAX) by (widths; lia).
  pose proof (tcp_chain_gen E eth vs ts p None [] [] He Hv Hu Hfl Hp dynamic_sized I (or_introl eq_refl)) as G. cbv zeta in G.
  change (mkbuf None [] []) with dynamic_new in G. rewrite G by (destruct eth; cbn [eth_size]; rewrite len_nil; lia). clear G.
  pose proof (tcp_after_ok ts Hu Hfl) as Hg. pose proof (one_payload_bytes _ _ Hp (tcp_op_payloads ts Hu)) as Hpb.
  pose proof (v4_after_building vs Hv) as Hb. 
  assert (Hb' : v4_building (v4_put (v4_after vs) (V4SetProtocol IP_Tcp))) by (apply v4_put_building; [exact Hb|split; [reflexivity|exact I]]).
  rewrite c22_tcp_checksum_odd; [reflexivity|apply is_bytes_v4_wire, Hb'| |rewrite len_v4_wire; lia| | |exact Hc].
  - apply is_bytes_app; split; [|exact Hpb]. apply is_bytes_tcp_wire, tcp_fill_offset; [exact Hg|lia|apply Hg].
  - rewrite len_app, len_tcp_wire. lia.
  - rewrite len_app, len_tcp_wire. lia.
Qed.
(** C34: read back with the crate's own parsers. *)
Lemma c34_tcp_reparse : forall E eops vs ts p,
  eth_ok (Some eops) -> Forall v4_arg_ok vs -> Forall v4_faithful vs -> Forall tcp_op_ok ts -> flags_last (tcp_setters ts) ->
  one_payload (tcp_payloads ts) p -> 40 + len p <= 65535 -> len p mod 2 = 0 \/ cursor_eof E = EofKeep ->
  exists frame ip tcp,
    tcp_chain E (Some eops) vs ts dynamic_new = Ok frame /\
    ether_reads eops ET_Ipv4 ip frame /\ v4_reads E vs IP_Tcp tcp ip /\ tcp_reads E ts p ip tcp /\
    tcp_chain E None vs ts dynamic_new = Ok ip.
Proof.
  intros E eops vs ts p He Hv Hf Hu Hfl Hp Hl Hc.
  pose proof (one_payload_bytes _ _ Hp (tcp_op_payloads ts Hu)) as Hpb. pose proof (v4_after_building vs Hv) as Hb.
  pose proof (tcp_after_ok ts Hu Hfl) as Hg. set (f := v4_after vs) in *.
  set (tcp := tcp_wire (tcp_finished (vf_src f) (vf_dst f) (tcp_after ts) p) ++ p).
  assert (Hlu : len tcp = 20 + len p) by (unfold tcp; rewrite len_app, len_tcp_wire; reflexivity).
  set (ip := v4_wire (v4_finished f 6 (len tcp)) ++ tcp).
  exists (ether_layer (Some eops) ++ ip), ip, tcp.
  assert (Hub : is_bytes tcp) by (apply is_bytes_app; split; [apply is_bytes_tcp_wire, tcp_fill_offset; [exact Hg|lia|apply inet_lt]|exact Hpb]).
  split; [|split; [|split; [|split]]].
  - rewrite (c34_tcp_bytes E (Some eops) vs ts p) by (assumption || lia). fold f. unfold ip. rewrite Hlu. reflexivity.
  - change ET_Ipv4 with (ether_protocol_from 0x0800). apply ether_reads_ok; [apply He|reflexivity].
  - change IP_Tcp with (ip_protocol_from 6). apply v4_reads_ok; try assumption; [reflexivity|lia].
  - destruct (v4_wire_finished_addrs f 6 (len tcp) tcp) as [A1 A2]. fold ip in A1, A2. unfold tcp. rewrite <- A1, <- A2.
    apply tcp_reads_ok; try assumption; try lia.
    + unfold ip. apply is_bytes_app; split; [apply is_bytes_v4_wire, v4_finished_ok; [exact Hb|reflexivity]|exact Hub].
    + unfold ip. rewrite len_app, len_v4_wire. lia.
  - rewrite (c34_tcp_bytes E None vs ts p) by (assumption || lia || exact I). fold f. unfold ip. rewrite Hlu. reflexivity.
Qed.
Example c34_example : forall E,
  let vs := [V4SetTtl 64; V4SetSource (Ip4 127 0 0 1); V4SetDestination (Ip4 127 0 0 1); V4SetId 12298] in
  let ts := [TcpSet (TcpSetSource 1337); TcpSet (TcpSetDestination 9001); TcpPayload [104; 105]; TcpSet (TcpSetWindow 512); TcpSet (TcpSetFlags 2)] in
  eth_ok (Some []) /\ Forall v4_arg_ok vs /\ Forall v4_faithful vs /\ Forall tcp_op_ok ts /\ flags_last (tcp_setters ts) /\
  one_payload (tcp_payloads ts) [104; 105] /\
  tcp_chain E None vs ts dynamic_new =
  Ok ([69; 0; 0; 42; 48; 10; 0; 0; 64; 6; 76; 194; 127; 0; 0; 1; 127; 0; 0; 1] ++
      [5; 57; 35; 41; 0; 0; 0; 0; 0; 0; 0; 0; 80; 2; 2; 0; 31; 19; 0; 0] ++ [104; 105]).
Proof.
  intros E vs ts. split; [split; [constructor|reflexivity]|]. split; [repeat constructor|]. split; [repeat constructor|].
  split; [repeat constructor|]. split; [repeat constructor; intros []|]. split; [left; reflexivity|].
  destruct E as [[] [] []]; vm_compute; reflexivity.
Qed.
