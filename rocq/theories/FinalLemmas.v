(** * FinalLemmas: the finalizers on laid-out packets, and the layers of a chain. *)
From Verif Require Import Base Enums Buffer Ether Ipv4 Ip Udp Tcp Icmp Builders Spec SpecCalls SpecBuild
  Lemmas ParseProofs SliceProofs AccessProofs FieldProofs ChecksumLemmas ChecksumProofs GuardProofs BufferProofs BuildLemmas.
From Coq Require Import ZifyBool ZifyNat ZifyN.
Ltac Zify.zify_post_hook ::= Z.div_mod_to_equations.

Ltac change_lens := repeat match goal with
  | |- context [len (enc16 ?v)] => change (len (enc16 v)) with 2
  | |- context [len (be16 ?v)] => change (len (be16 v)) with 2
  | |- context [len [?x]] => change (len [x]) with 1
  | |- context [len [?x; ?y]] => change (len [x; y]) with 2 end.
Lemma fin_last fs f b : fin_finalize (fs ++ [f]) b =
  match f b with (b', Ok _) => fin_finalize fs b' | (b', Err e) => (b', Err e) | (b', Panic) => (b', Panic) end.
Proof. unfold fin_finalize. rewrite rev_app_distr. reflexivity. Qed.
Lemma fin_nil b : fin_finalize [] b = (b, Ok tt). Proof. reflexivity. Qed.

(** ** Ethernet *)
Lemma nthN_mid a h t : 0 < len t -> nthN (a ++ h ++ t) (len a + len h) = nthN t 0.
Proof.
  intros H. rewrite nthN_app2 by lia. rewrite nthN_app2 by lia. f_equal. lia.
Qed.
Lemma ether_fin E a f rest : 0 < len rest -> len a + 14 + len rest <= ISIZE_MAX ->
  ether_ip_finalizer E (len a) 14 (a ++ ether_wire f ++ rest) =
  match nthN rest 0 / 16 with
  | 4 => (a ++ ether_wire (ether_set_type f 0x0800) ++ rest, Ok tt)
  | 6 => (a ++ ether_wire (ether_set_type f 0x86dd) ++ rest, Ok tt)
  | _ => (a ++ ether_wire f ++ rest, Panic)
  end.
Proof.
  intros Hr Hs. pose proof isize_lt_usize. unfold ether_ip_finalizer, mlet. rewrite usize_add_ok by lia. cbn [bind].
  assert (Hl : len (a ++ ether_wire f ++ rest) = len a + 14 + len rest) by (rewrite !len_app, len_ether_wire; lia).
  rewrite index_ok by lia. cbn [bind]. rewrite usize_add_ok by lia. cbn [bind fst snd].
  rewrite shiftr4_div. change 14 with (len (ether_wire f)) at 1. rewrite nthN_mid by exact Hr.
  assert (Hw : forall v, write_u16 (len a + 12) v (a ++ ether_wire f ++ rest) = (a ++ ether_wire (ether_set_type f v) ++ rest, Ok tt)).
  { intros v. rewrite write_u16_ok by lia. rewrite patch_app2 by lia. replace (len a + 12 - len a) with 12 by lia.
    rewrite patch_app1 by (rewrite len_ether_wire; change_lens; lia). destruct f as [[] [] t]. reflexivity. }
  destruct (nthN rest 0 / 16) as [|[[[|[]|]|[[]|[]|]|]|[[|[]|]|[[]|[]|]|]|]]; try reflexivity; apply Hw.
Qed.

(** ** IPv4 *)
Lemma lor64 x : x < 256 -> 64 <= N.lor 64 x < 256.
Proof.
  intros H. assert (Hq : ((64 <=? N.lor 64 x) && (N.lor 64 x <? 256))%bool = true).
  { apply (sweep (fun x => (64 <=? N.lor 64 x) && (N.lor 64 x <? 256))%bool 256); [vm_compute; reflexivity|exact H]. }
  lia.
Qed.
Lemma lor64_small x : x < 16 -> N.lor 64 x = 64 + x.
Proof.
  intros H. apply N.eqb_eq. apply (sweep (fun x => N.lor 64 x =? 64 + x) 16); [vm_compute; reflexivity|exact H].
Qed.
Lemma v4_head_ok f b0 total ck : v4_fields_ok f -> b0 < 256 -> u16 total -> u16 ck -> v4_fields_ok (v4_head f b0 total ck).
Proof.
  intros Hf H1 H2 H3. destruct f as [ver ihl dscp ecn tot id rs d m frag ttl pr ck0 src dst].
  destruct Hf as (F1 & F2 & F3 & F4 & F5 & F6 & F7 & F8 & F9 & F10 & F11 & F12).
  cbn [vf_version vf_ihl vf_dscp vf_ecn vf_total vf_id vf_reserved vf_df vf_mf vf_frag vf_ttl vf_proto vf_checksum vf_src vf_dst] in *.
  unfold v4_head, v4_fields_ok.
  cbn [vf_version vf_ihl vf_dscp vf_ecn vf_total vf_id vf_reserved vf_df vf_mf vf_frag vf_ttl vf_proto vf_checksum vf_src vf_dst].
  repeat split; try assumption; lia.
Qed.
Lemma v4_head_wire f b0 total ck : v4_wire (v4_head f b0 total ck) =
  patch 10 (enc16 ck) (patch 2 (enc16 total) (patch 0 [b0] (v4_wire f))).
Proof.
  destruct f as [ver ihl dscp ecn tot id rs d m frag ttl pr ck0 [] []]. unfold v4_head, v4_wire, patch, takeN, dropN.
  cbn [vf_version vf_ihl vf_dscp vf_ecn vf_total vf_id vf_reserved vf_df vf_mf vf_frag vf_ttl vf_proto vf_checksum vf_src vf_dst].
  replace (b0 / 16 * 16 + b0 mod 16) with b0 by lia. reflexivity.
Qed.
Lemma inet_lt b : inet_checksum b < 65536.
Proof. unfold inet_checksum. lia. Qed.
Lemma v4_fin E a f q t : v4_fields_ok f -> is_bytes q -> len a + 20 + len q + len t <= ISIZE_MAX ->
  let L := 20 + len q in
  let b0 := N.lor 64 (as_u8 (L / 4)) in
  let total := (L + len t) mod 65536 in
  v4_finalizer E (len a) L (a ++ v4_wire f ++ q ++ t) =
  (a ++ v4_wire (v4_head f b0 total (inet_checksum (takeN (L / 4 * 4) (v4_wire (v4_head f b0 total 0) ++ q)))) ++ q ++ t, Ok tt).
Proof.
  intros Hf Hq Hs L b0 total. pose proof isize_lt_usize. unfold v4_finalizer.
  assert (Hl : len (a ++ v4_wire f ++ q ++ t) = len a + 20 + len q + len t) by (rewrite !len_app, len_v4_wire; lia).
  assert (Hb0 : 64 <= b0 < 256) by (apply lor64; unfold as_u8; lia).
  assert (Ht : u16 total) by (unfold u16, total; lia).
  unfold mseq at 1. rewrite set_index_ok by lia. fold b0.
  rewrite patch_app2 by lia. replace (len a - len a) with 0 by lia. rewrite patch_app1 by (rewrite len_v4_wire; change_lens; lia).
  set (w0 := patch 0 [b0] (v4_wire f)). assert (Hw0 : len w0 = 20) by (apply len_patch; rewrite len_v4_wire; change_lens; lia).
  assert (Hl0 : len (a ++ w0 ++ q ++ t) = len a + 20 + len q + len t) by (rewrite !len_app, Hw0; lia).
  unfold mseq at 1. unfold mlet at 1. rewrite usize_add_ok by lia. cbn [bind]. rewrite usize_sub_ok by lia. cbn [bind].
  rewrite usize_add_ok by lia. cbn [bind]. rewrite usize_add_ok by lia. cbn [bind fst snd].
  replace (as_u16 (L + (len (a ++ w0 ++ q ++ t) - (len a + L)))) with total
    by (unfold as_u16, total; f_equal; lia).
  rewrite write_u16_ok by lia. rewrite patch_app2 by lia. replace (len a + 2 - len a) with 2 by lia.
  rewrite patch_app1 by (rewrite Hw0; change_lens; lia). change (be16 total) with (enc16 total).
  set (w1 := patch 2 (enc16 total) w0). assert (Hw1 : len w1 = 20) by (unfold w1; rewrite len_patch; rewrite ?Hw0; [reflexivity|change_lens; lia]).
  assert (Hl1 : len (a ++ w1 ++ q ++ t) = len a + 20 + len q + len t) by (rewrite !len_app, Hw1; lia).
  unfold mlet. rewrite usize_add_ok by lia. cbn [bind]. rewrite slice_ok by lia. cbn [bind].
  replace (len a + L / 4 * 4 - len a) with (L / 4 * 4) by lia. rewrite dropN_app_len.
  rewrite (app_assoc w1 q t). rewrite takeN_app1 by (rewrite len_app, Hw1; lia).
  assert (H0 : v4_wire (v4_head f b0 total 0) = zero_field 10 w1).
  { rewrite v4_head_wire. fold w0. fold w1. rewrite zero_field_patch by lia. reflexivity. }
  assert (Hbw : is_bytes w1).
  { unfold w1, w0. apply is_bytes_patch; [apply is_bytes_patch; [apply is_bytes_v4_wire, Hf|]|apply is_bytes_enc16, Ht].
    constructor; [unfold u8; lia|constructor]. }
  set (h := takeN (L / 4 * 4) (w1 ++ q)).
  assert (Hh : is_bytes h) by (apply is_bytes_takeN, is_bytes_app; split; assumption).
  assert (Hlh : len h = L / 4 * 4) by (unfold h; rewrite len_takeN, len_app, Hw1; lia).
  assert (Hz : zero_field 10 h = takeN (L / 4 * 4) (v4_wire (v4_head f b0 total 0) ++ q)).
  { rewrite H0. rewrite !zero_field_patch by lia. unfold h. rewrite <- takeN_patch by (change_lens; rewrite ?len_app; lia).
    rewrite patch_app1 by (change_lens; lia). reflexivity. }
  rewrite c20_v4_checksum_rfc; [|exact Hh|lia|].
  2: { rewrite Hz. assert (0 < word_sum (takeN (L / 4 * 4) (v4_wire (v4_head f b0 total 0) ++ q))); [|lia].
       apply word_sum_nth0; [rewrite len_takeN, len_app, len_v4_wire; lia|]. rewrite nthN_takeN by lia.
       rewrite v4_head_wire. rewrite nthN_app1 by (fold w0; fold w1; rewrite len_patch; [lia|change_lens; lia]).
       fold w0; fold w1. rewrite nthN_patch_out by (change_lens; lia). unfold w1. rewrite nthN_patch_out by (change_lens; lia).
       unfold w0. rewrite nthN_patch1 by (rewrite len_v4_wire; lia). lia. }
  cbn [bind]. rewrite usize_add_ok by lia. cbn [bind fst snd]. rewrite Hz.
  set (c := inet_checksum _). rewrite <- (app_assoc w1 q t). rewrite write_u16_ok by lia. rewrite patch_app2 by lia.
  replace (len a + 10 - len a) with 10 by lia. rewrite patch_app1 by (rewrite Hw1; change_lens; lia).
  rewrite (v4_head_wire f b0 total c). reflexivity.
Qed.
(** With nothing after the header in its own layer. *)
Lemma v4_fin_plain E a f t : v4_building f -> len a + 20 + len t <= ISIZE_MAX ->
  v4_finalizer E (len a) 20 (a ++ v4_wire f ++ t) = (a ++ v4_wire (v4_finished f (vf_proto f) (len t)) ++ t, Ok tt).
Proof.
  intros (Hf & Hv & Hi) Hs. pose proof (v4_fin E a f [] t Hf ltac:(constructor) ltac:(rewrite len_nil; lia)) as H.
  cbv zeta in H. rewrite len_nil in H. cbn [app] in H. change (20 + 0) with 20 in H.
  change (N.lor 64 (as_u8 (20 / 4))) with 69 in H. change (20 / 4 * 4) with 20 in H. rewrite H. clear H.
  rewrite app_nil_r. rewrite takeN_all by (rewrite len_v4_wire; lia).
  assert (Hh : forall ck, v4_head f 69 ((20 + len t) mod 65536) ck = v4_fill f ((20 + len t) mod 65536) (vf_proto f) ck).
  { intros ck. destruct f as [ver ihl dscp ecn tot id rs d m frag ttl pr ck0 src dst]. cbn in Hv, Hi |- *. subst. reflexivity. }
  rewrite !Hh. reflexivity.
Qed.

(** ** UDP and TCP: the split at the parent *)
Lemma split_layers_ok E a h m : len a + len h + len m <= ISIZE_MAX ->
  split_layers E (len a, len h) (len m) (a ++ h ++ m) = Ok (h, len a + len h, len a + len h + len m).
Proof.
  intros Hs. pose proof isize_lt_usize. unfold split_layers. cbn [fst snd]. rewrite usize_add_ok by lia. cbn [bind].
  rewrite split_at_ok by (rewrite !len_app; lia). cbn [bind]. rewrite <- len_app, app_assoc, takeN_app_len, dropN_app_len.
  rewrite slice_from_ok by (rewrite len_app; lia). cbn [bind]. rewrite dropN_app_len.
  rewrite slice_to_ok by lia. reflexivity.
Qed.
Lemma range_mut_tail a h m g m' x : g m = (m', x) ->
  range_mut (len a + len h) (len a + len h + len m) g (a ++ h ++ m) = (a ++ h ++ m', x).
Proof.
  intros Hg. rewrite app_assoc. rewrite <- (app_nil_r m) at 2.
  rewrite (range_mut_mid (a ++ h) m [] g m' x); [rewrite app_nil_r, <- app_assoc; reflexivity|rewrite len_app; reflexivity|rewrite len_app; reflexivity|exact Hg].
Qed.
Lemma v4_wire_addrs f : wire_addr (v4_wire f) 12 = vf_src f /\ wire_addr (v4_wire f) 16 = vf_dst f.
Proof. destruct f as [ver ihl dscp ecn tot id rs d m frag ttl pr ck0 [] []]. split; reflexivity. Qed.
Lemma udp_fill_zero g n ck p : zero_field 6 (udp_wire (udp_fill g n ck) ++ p) = udp_wire (udp_fill g n 0) ++ p.
Proof.
  rewrite zero_field_patch by (rewrite len_app, len_udp_wire; lia). rewrite patch_app1 by (rewrite len_udp_wire; change_lens; lia).
  destruct g; reflexivity.
Qed.
(** The checksum the UDP builder stores: over what the running std lets it see. *)
Lemma udp_fin_gen E a f g p : v4_building f -> udp_fields_ok g -> is_bytes p -> len a + 28 + len p <= ISIZE_MAX ->
  let n := (8 + len p) mod 65536 in
  let c := inet_checksum (with_pseudo_header (vf_src f) (vf_dst f) 17 (seen E (udp_wire (udp_fill g n 0) ++ p))) in
  udp_finalizer E (len a, 20) (8 + len p) (a ++ v4_wire f ++ udp_wire g ++ p) =
  (a ++ v4_wire f ++ udp_wire (udp_fill g n c) ++ p, Ok tt).
Proof.
  intros Hf Hg Hp Hs n c. destruct Hg as (G1 & G2 & G3 & G4).
  assert (Hl : len (udp_wire g ++ p) = 8 + len p) by (rewrite len_app, len_udp_wire; reflexivity).
  unfold udp_finalizer, mlet at 1. change 20 with (len (v4_wire f)) at 1. rewrite <- Hl.
  rewrite split_layers_ok by (rewrite len_v4_wire, Hl; lia). apply range_mut_tail. rewrite Hl.
  unfold mseq. rewrite write_u16_ok by lia. rewrite patch_app1 by (rewrite len_udp_wire; change_lens; lia).
  change (as_u16 (8 + len p)) with n.
  assert (Hu : forall v, patch 4 (be16 v) (udp_wire g) = udp_wire (udp_fill g v (uf_checksum g))) by (intros v; destruct g; reflexivity).
  rewrite Hu. set (g1 := udp_fill g n (uf_checksum g)).
  assert (Hg1 : is_bytes (udp_wire g1 ++ p)).
  { apply is_bytes_app; split; [|exact Hp]. apply is_bytes_udp_wire. repeat split; cbn; try assumption. unfold u16, n. lia. }
  unfold mlet, udp_builder_checksum. destruct (v4_building_new f [] Hf) as [Hn _]. rewrite app_nil_r in Hn. rewrite Hn.
  rewrite udp_checksum_eq; [|apply is_bytes_v4_wire, Hf|exact Hg1|rewrite len_v4_wire; lia].
  destruct (v4_wire_addrs f) as [-> ->]. unfold g1 at 1. rewrite udp_fill_zero. fold n c.
  rewrite write_u16_ok by (rewrite len_app, len_udp_wire; lia). rewrite patch_app1 by (rewrite len_udp_wire; change_lens; lia).
  destruct g. reflexivity.
Qed.
Lemma tcp_fill_zero g o ck p : zero_field 16 (tcp_wire (tcp_fill g o ck) ++ p) = tcp_wire (tcp_fill g o 0) ++ p.
Proof.
  rewrite zero_field_patch by (rewrite len_app, len_tcp_wire; lia). rewrite patch_app1 by (rewrite len_tcp_wire; change_lens; lia).
  destruct g; reflexivity.
Qed.
Lemma lor80 x : x < 16 -> N.lor 80 x = 80 + x.
Proof.
  intros H. apply N.eqb_eq. apply (sweep (fun x => N.lor 80 x =? 80 + x) 16); [vm_compute; reflexivity|exact H].
Qed.
Lemma tcp_fill_offset g o ck : tcp_fields_ok g -> o < 16 -> u16 ck -> tcp_fields_ok (tcp_fill g o ck).
Proof.
  intros (H1 & H2 & H3 & H4 & H5 & H6 & H7 & H8 & H9 & H10) Ho Hc. destruct g as [src dst seq ack off res fl win ck0 ptr].
  unfold tcp_fill, tcp_fields_ok. cbn [tf_src tf_dst tf_seq tf_ack tf_offset tf_reserved tf_flags tf_window tf_checksum tf_pointer] in *.
  repeat split; assumption.
Qed.
(** The first half of the TCP finalizer: the data offset. *)
Lemma tcp_fin_offset E g p : tcp_fields_ok g -> len p <= ISIZE_MAX ->
  mlet (fun tcp => let* x := index tcp 12 in
                   let* h := usize_sub E (20 + len p) (len p) in
                   Ok (N.lor (shl_u8 (as_u8 (h / 4)) 4) (N.land x 15)))
       (set_index 12) (tcp_wire g ++ p) = (tcp_wire (tcp_fill g 5 (tf_checksum g)) ++ p, Ok tt).
Proof.
  intros Hg Hs. unfold mlet. rewrite index_ok by (rewrite len_app, len_tcp_wire; lia). cbn [bind].
  rewrite usize_sub_ok by lia. cbn [bind]. replace (20 + len p - len p) with 20 by lia.
  change (shl_u8 (as_u8 (20 / 4)) 4) with 80. rewrite land15_mod. rewrite lor80 by lia.
  rewrite set_index_ok by (rewrite len_app, len_tcp_wire; lia). rewrite patch_app1 by (rewrite len_tcp_wire; change_lens; lia).
  f_equal. f_equal. destruct g as [src dst seq ack off res fl win ck0 ptr].
  destruct Hg as (H1 & H2 & H3 & H4 & H5 & H6 & H7 & H8 & H9 & H10).
  cbn [tf_src tf_dst tf_seq tf_ack tf_offset tf_reserved tf_flags tf_window tf_checksum tf_pointer] in *.
  set (w := off * 4096 + res * 512 + fl).
  change (nthN (tcp_wire (Build_tcp_fields src dst seq ack off res fl win ck0 ptr) ++ p) 12) with (w / 256).
  assert (Hw : (5 * 4096 + res * 512 + fl) / 256 = 80 + (w / 256) mod 16 /\ (5 * 4096 + res * 512 + fl) mod 256 = w mod 256).
  { unfold w. clear w. replace (off * 4096 + res * 512 + fl) with ((off * 16 + res * 2 + fl / 256) * 256 + fl mod 256) by lia.
    rewrite N.div_add_l by lia. rewrite (N.div_small (fl mod 256)) by lia. lia. }
  destruct Hw as [Hw1 Hw2].
  unfold tcp_fill, tcp_wire. cbn [tf_src tf_dst tf_seq tf_ack tf_offset tf_reserved tf_flags tf_window tf_checksum tf_pointer].
  unfold enc16 at 8. unfold patch, takeN, dropN. fold w. 
  rewrite <- Hw1. unfold enc16, enc32. cbn [app N.to_nat Pos.to_nat Pos.iter_op Nat.add firstn skipn]. 
  rewrite Hw2. reflexivity.
Qed.
Lemma mseq_ok f g b b' : f b = (b', Ok tt) -> mseq f g b = g b'.
Proof. intros H. unfold mseq. rewrite H. reflexivity. Qed.
Lemma ip_no_payload_v4 f : v4_building f -> ip_no_payload (v4_wire f) = Ok (V4 (v4_wire f)).
Proof.
  intros Hf. destruct (v4_building_new f [] Hf) as [Hn H0]. rewrite app_nil_r in *. unfold ip_no_payload.
  rewrite index_ok by (rewrite len_v4_wire; lia). rewrite H0. cbn [bind]. change (N.shiftr 69 4) with 4. cbv iota. rewrite Hn. reflexivity.
Qed.
(** The TCP finalizer, given what its checksum function does. *)
Lemma tcp_fin_gen E a f g p : v4_building f -> tcp_fields_ok g -> is_bytes p -> len a + 40 + len p <= ISIZE_MAX ->
  let seg := tcp_wire (tcp_fill g 5 (tf_checksum g)) ++ p in
  forall c, tcp_checksum_of E (V4 (v4_wire f)) seg = c ->
  tcp_finalizer E (len a, 20) (20 + len p) (len p) (a ++ v4_wire f ++ tcp_wire g ++ p) =
  match c with
  | Ok c => (a ++ v4_wire f ++ tcp_wire (tcp_fill g 5 c) ++ p, Ok tt)
  | Err e => (a ++ v4_wire f ++ seg, Err e)
  | Panic => (a ++ v4_wire f ++ seg, Panic)
  end.
Proof.
  intros Hf Hg Hp Hs seg c Hc.
  assert (Hl : len (tcp_wire g ++ p) = 20 + len p) by (rewrite len_app, len_tcp_wire; reflexivity).
  unfold tcp_finalizer, mlet at 1. change 20 with (len (v4_wire f)) at 1. rewrite <- Hl at 1.
  rewrite split_layers_ok by (rewrite len_v4_wire, Hl; lia).
  assert (Hr : forall c', c = c' -> mlet (fun tcp => let* q := ip_no_payload (v4_wire f) in tcp_checksum_of E q tcp) (write_u16 16) seg =
     match c' with Ok c => (tcp_wire (tcp_fill g 5 c) ++ p, Ok tt) | Err e => (seg, Err e) | Panic => (seg, Panic) end).
  { intros c' <-. unfold mlet. rewrite ip_no_payload_v4 by exact Hf. cbn [bind]. rewrite Hc. destruct c as [c|e|]; try reflexivity.
    unfold seg. rewrite write_u16_ok by (rewrite len_app, len_tcp_wire; lia). rewrite patch_app1 by (rewrite len_tcp_wire; change_lens; lia).
    destruct g. reflexivity. }
  specialize (Hr c eq_refl). destruct c as [c|e|]; apply range_mut_tail;
    (erewrite mseq_ok by (apply tcp_fin_offset; [exact Hg|lia])); exact Hr.
Qed.

(** ** ICMP *)
Lemma icmp_fin E a m : is_bytes m -> 4 <= len m -> len a + len m <= ISIZE_MAX ->
  icmp_finalizer E (len a) (len m) (a ++ m) =
  (a ++ patch 2 (enc16 (nonzero_checksum (drop_odd (zero_field 2 m)))) m, Ok tt).
Proof.
  intros Hm Hl Hs. pose proof isize_lt_usize. unfold icmp_finalizer, mlet. rewrite usize_add_ok by lia. cbn [bind].
  replace (slice (a ++ m) (len a) (len a + len m)) with (Ok m)
    by (symmetry; rewrite <- (app_nil_r m) at 1; apply (slice_mid a m []); reflexivity). cbn [bind].
  rewrite c23_icmp_checksum by exact Hm. cbn [bind]. rewrite usize_add_ok by lia. cbn [bind fst snd].
  rewrite write_u16_ok by (rewrite len_app; lia). rewrite patch_app2 by lia. replace (len a + 2 - len a) with 2 by lia. reflexivity.
Qed.

(** ** Outer layers *)
(** The finalizers [fs] complete the outer layers [a] to [a'] around any inner packet of version 4. *)
Definition closes {E : env} (fs : finalization) (a a' : bytes) : Prop :=
  len a = len a' /\
  forall rest, 0 < len rest -> nthN rest 0 / 16 = 4 -> len a + len rest <= ISIZE_MAX ->
  fin_finalize fs (a ++ rest) = (a' ++ rest, Ok tt).
Lemma closes_nil {E : env} a : closes [] a a.
Proof. split; [reflexivity|]. intros. reflexivity. Qed.

Definition ether_zero : ether_fields := {| ef_dst := mac_zero; ef_src := mac_zero; ef_type := 0 |}.
Lemma ether_oks ops : forall f, oks ether_put (fun _ _ => True) f ops.
Proof. induction ops; intros f; cbn [oks]; auto. Qed.
Lemma ether_pays ops : flat_map ether_pay ops = ether_payloads ops. Proof. reflexivity. Qed.
Lemma existsb_false {A} (l : list A) : existsb (fun _ => false) l = false.
Proof. induction l; [reflexivity|exact IHl]. Qed.
Lemma ether_pay_one o : ether_pay o = [] \/ exists p, ether_pay o = [p].
Proof. destruct o; cbn; eauto. Qed.
Lemma ether_run_plain E ops f r pre q fin ip k pl n :
  ether_payloads ops = [] -> is_bytes q -> sized r pre (ether_wire f ++ q) ->
  run (ether_run1 E) ops (B r pre (ether_wire f ++ q) fin ip k pl n) =
  Ok (B r pre (ether_wire (fold_left ether_put ops f) ++ q) fin ip k pl n).
Proof.
  intros Hp Hq Hs.
  rewrite (run_plain (ether_run1 E) ether_wire ether_put ether_pay (fun _ => false) (fun _ _ => True) 14 len_ether_wire) ;
    [rewrite existsb_false, orb_false_r; reflexivity| |apply ether_oks|exact Hp|exact Hq|exact Hs].
  intros. apply ether_step; assumption.
Qed.
Lemma ether_with_ok E r pre cur : sized r pre cur -> fits r 14 -> len pre + len cur + 14 <= ISIZE_MAX ->
  ether_with E (mkbuf r pre cur) = Ok (B (use r 14) (pre ++ cur) (ether_wire ether_zero) [] (0, 0) false false 0).
Proof.
  intros Hs Hf Hl. unfold ether_with. rewrite mk_next by assumption. reflexivity.
Qed.
Lemma v4_with_ok E r pre cur : sized r pre cur -> fits r 20 -> len pre + len cur + 20 <= ISIZE_MAX ->
  v4_with E (mkbuf r pre cur) = Ok (B (use r 20) (pre ++ cur) (v4_wire v4_zero) [] (0, 0) false false 0).
Proof.
  intros Hs Hf Hl. unfold v4_with. change v4_header_min with 20. rewrite mk_next by assumption. cbn [try_buf bind].
  rewrite (mk_edit E (use r 20) (pre ++ cur) (zeros 20) _ (v4_wire v4_zero) (Ok tt)); [reflexivity|apply sized_use; assumption|reflexivity|reflexivity].
Qed.
Lemma sub_ok mk r pre cur fin ip k pl n r' pre' cur' ip' :
  mk (mkbuf r pre cur) = Ok (B r' pre' cur' [] ip' false false 0) ->
  sub mk (B r pre cur fin ip k pl n) = Ok (B r' pre' cur' fin ip' false false 0).
Proof. intros H. unfold sub. change (b_buffer (B r pre cur fin ip k pl n)) with (mkbuf r pre cur). rewrite H. reflexivity. Qed.
Lemma ether_ip_ok E r pre cur fin ip k n :
  ether_ip E (B r pre cur fin ip k false n) =
  Ok (B r pre cur (fin ++ [ether_ip_finalizer E (len pre) (len cur)]) (0, 0) false false 0).
Proof.
  unfold ether_ip. change (b_payload (B r pre cur fin ip k false n)) with false. cbv iota.
  change (b_buffer (B r pre cur fin ip k false n)) with (mkbuf r pre cur). rewrite mk_offset, mk_length. reflexivity.
Qed.
(** Bytes of the Ethernet header in a chain. *)
Definition eth_size (eth : option (list ether_op)) : N := match eth with Some _ => 14 | None => 0 end.
Lemma len_ether_layer eth : len (ether_layer eth) = eth_size eth.
Proof. destruct eth; reflexivity. Qed.
Lemma start_v4_ok E eth r pre cur : eth_ok eth -> sized r pre cur -> fits r (eth_size eth + 20) ->
  len pre + len cur + eth_size eth + 20 <= ISIZE_MAX ->
  exists r' a fs, start_v4 E eth (mkbuf r pre cur) = Ok (B r' a (v4_wire v4_zero) fs (0, 0) false false 0) /\
    r' = use r (eth_size eth + 20) /\ closes fs a (pre ++ cur ++ ether_layer eth).
Proof.
  intros He Hs Hf Hl. destruct eth as [eops|]; cbn [eth_size eth_ok start_v4] in *.
  - destruct He as [He Hp]. assert (Hf' : fits r 14) by (destruct r; cbn [fits] in *; lia).
    rewrite ether_with_ok by (assumption || lia). cbn [bind].
    pose proof (ether_run_plain E eops ether_zero (use r 14) (pre ++ cur) [] [] (0, 0) false false 0 Hp ltac:(constructor)) as R.
    rewrite !app_nil_r in R. fold (ether_after eops) in R. fold ether_zero in R.
    assert (Hz : sized (use r 14) (pre ++ cur) (ether_wire ether_zero)).
    { eapply sized_same; [apply (sized_use r pre cur 14); (assumption || lia)|reflexivity]. }
    rewrite R by exact Hz. cbn [bind]. clear R.
    rewrite ether_ip_ok. cbn [bind app]. unfold ip_v4.
    assert (Hz2 : sized (use r 14) (pre ++ cur) (ether_wire (ether_after eops))) by (eapply sized_same; [exact Hz|reflexivity]).
    erewrite sub_ok; [|apply v4_with_ok; [exact Hz2|destruct r; cbn [fits use option_map] in *; autorewrite with len; lia|rewrite len_app, len_ether_wire; lia]].
    do 3 eexists. split; [reflexivity|]. split.
    + destruct r; cbn [use option_map]; [|reflexivity]. rewrite dropN_dropN. reflexivity.
    + split; [rewrite !len_app, len_ether_layer, len_ether_wire; cbn [eth_size]; lia|].
      intros rest H0 Hr Hb. fold (ether_after eops) in *. rewrite <- (app_nil_l [ether_ip_finalizer _ _ _]).
      rewrite fin_last, <- app_assoc. rewrite len_ether_wire. rewrite ether_fin by (assumption || (rewrite !len_app, len_ether_wire in *; lia)).
      rewrite Hr. rewrite fin_nil. cbn [ether_layer]. rewrite <- !app_assoc. reflexivity.
  - change (0 + 20) with 20 in *. rewrite v4_with_ok by (assumption || lia). do 3 eexists. split; [reflexivity|]. split; [reflexivity|].
    cbn [ether_layer]. rewrite app_nil_r. apply closes_nil.
Qed.
(** ** Chains *)
Lemma v4_run_set E vs : forall f r pre fin ip k pl n, v4_building f -> Forall v4_arg_ok vs -> sized r pre (v4_wire f) ->
  run (v4_run1 E) (map V4Set vs) (B r pre (v4_wire f) fin ip k pl n) =
  Ok (B r pre (v4_wire (fold_left v4_put vs f)) fin ip k pl n).
Proof.
  induction vs as [|s vs IH]; intros f r pre fin ip k pl n Hf Hv Hs; [reflexivity|].
  inversion_clear Hv as [|? ? H1 H2]. cbn [map run fold_left].
  pose proof (v4_step E f (V4Set s) r pre [] fin ip k n (conj Hf H1) eq_refl ltac:(constructor)) as S. rewrite !app_nil_r in S.
  rewrite S by exact Hs. cbn [bind]. rewrite orb_false_r. apply IH; [apply v4_put_building; assumption|exact H2|].
  eapply sized_same; [exact Hs|reflexivity].
Qed.
Lemma v4_after_building vs : Forall v4_arg_ok vs -> v4_building (v4_after vs).
Proof.
  unfold v4_after. generalize v4_zero_building. generalize v4_zero. induction vs as [|s vs IH]; intros f Hf Hv; [exact Hf|].
  inversion_clear Hv as [|? ? H1 H2]. cbn [fold_left]. apply IH; [apply v4_put_building; assumption|exact H2].
Qed.
Lemma sized_after {E : env} r pre cur n cur' a : sized r pre cur -> fits r n -> len a + len cur' = len pre + len cur + n -> len a + len cur' <= ISIZE_MAX ->
  sized (use r n) a cur'.
Proof.
  unfold sized. intros H Hf Ha Hl. pose proof (free_use r n Hf). destruct r; cbn [free use option_map] in *; lia.
Qed.
Lemma v4_layer_ok E eth vs r pre cur : eth_ok eth -> Forall v4_arg_ok vs -> sized r pre cur -> fits r (eth_size eth + 20) ->
  len pre + len cur + eth_size eth + 20 <= ISIZE_MAX ->
  exists a fs, v4_layer E eth vs (mkbuf r pre cur) =
    Ok (B (use r (eth_size eth + 20)) a (v4_wire (v4_after vs)) fs (0, 0) false false 0) /\
    closes fs a (pre ++ cur ++ ether_layer eth).
Proof.
  intros He Hv Hs Hf Hl. destruct (start_v4_ok E eth r pre cur He Hs Hf Hl) as (r' & a & fs & H1 & -> & H3).
  exists a, fs. split; [|exact H3]. unfold v4_layer. rewrite H1. cbn [bind]. apply v4_run_set; [apply v4_zero_building|exact Hv|].
  destruct H3 as [H3 _]. rewrite !len_app, len_ether_layer in H3.
  eapply sized_after; [exact Hs|exact Hf|rewrite len_v4_wire; lia|rewrite len_v4_wire; lia].
Qed.
(** Taking a transport builder inside IPv4. *)
Lemma v4_sub_ok E proto mk r a f fs ip k n r' pre' cur' ip' : v4_building f -> u8 (ip_protocol_into proto) -> sized r a (v4_wire f) ->
  let f' := v4_put f (V4SetProtocol proto) in
  mk (mkbuf r a (v4_wire f')) = Ok (B r' pre' cur' [] ip' false false 0) ->
  v4_sub E proto mk (B r a (v4_wire f) fs ip k false n) =
  Ok (B r' pre' cur' (fs ++ [v4_finalizer E (len a) 20]) ip' false false 0).
Proof.
  intros Hf Hp Hs f' Hm. unfold v4_sub. change (b_payload (B r a (v4_wire f) fs ip k false n)) with false. cbv iota.
  pose proof (v4_apply_wire f (V4SetProtocol proto) [] Hf (conj Hp I) ltac:(constructor)) as Ha. rewrite !app_nil_r in Ha.
  rewrite (edit_ok E r a (v4_wire f) (v4_set_protocol proto) (v4_wire f')) by (exact Hs || exact Ha || reflexivity).
  cbn [bind]. unfold v4_prepare. change (b_buffer (B r a (v4_wire f') fs ip k false n)) with (mkbuf r a (v4_wire f')).
  rewrite mk_offset, mk_length. rewrite len_v4_wire.
  change (with_fin (B r a (v4_wire f') fs ip k false n) (fin_add (b_fin (B r a (v4_wire f') fs ip k false n)) (v4_finalizer E (len a) 20)))
    with (B r a (v4_wire f') (fs ++ [v4_finalizer E (len a) 20]) ip k false n).
  apply sub_ok, Hm.
Qed.
(** Outer finalizers around an inner packet of any contents. *)
Definition wraps {E : env} (fs : finalization) (a : bytes) (g : N -> bytes) : Prop :=
  (forall n, len (g n) = len a) /\
  forall rest, len a + len rest <= ISIZE_MAX -> fin_finalize fs (a ++ rest) = (g (len rest) ++ rest, Ok tt).
Lemma v4_fill_proto f v t ck : v4_fill (v4_put f (V4SetProtocol v)) t (ip_protocol_into v) ck = v4_fill f t (ip_protocol_into v) ck.
Proof. destruct f; reflexivity. Qed.
Lemma v4_finished_proto f v n : v4_finished (v4_put f (V4SetProtocol v)) (vf_proto (v4_put f (V4SetProtocol v))) n = v4_finished f (ip_protocol_into v) n.
Proof. destruct f; reflexivity. Qed.
Lemma v4_finished_first f proto n q : v4_building f -> nthN (v4_wire (v4_finished f proto n) ++ q) 0 / 16 = 4.
Proof.
  intros (_ & Hv & Hi). destruct f. cbn in Hv, Hi. subst. reflexivity.
Qed.
Lemma v4_wraps E fs a a' f : closes fs a a' -> v4_building f ->
  wraps (fs ++ [v4_finalizer E (len a) 20]) (a ++ v4_wire f) (fun n => a' ++ v4_wire (v4_finished f (vf_proto f) n)).
Proof.
  intros [Hc1 Hc2] Hf. split; [intros n; rewrite !len_app, !len_v4_wire; lia|].
  intros rest Hl. rewrite len_app, len_v4_wire in Hl. rewrite fin_last, <- app_assoc, v4_fin_plain by (assumption || lia).
  rewrite Hc2; [rewrite <- app_assoc; reflexivity|rewrite len_app, len_v4_wire; lia|apply v4_finished_first, Hf|rewrite len_app, len_v4_wire; lia].
Qed.
Lemma finish_ok {E : env} r a cur fs f ip k pl n out g : wraps fs a g -> f (a ++ cur) = (a ++ out, Ok tt) -> len a + len out <= ISIZE_MAX ->
  finish (B r a cur (fs ++ [f]) ip k pl n) = Ok (g (len out) ++ out).
Proof.
  intros [_ Hw] Hf Hl. unfold finish. change (b_buffer (B r a cur (fs ++ [f]) ip k pl n)) with (mkbuf r a cur). rewrite mk_inner. cbn [bind].
  change (b_fin (B r a cur (fs ++ [f]) ip k pl n)) with (fs ++ [f]). rewrite fin_last, Hf, Hw by exact Hl. reflexivity.
Qed.
Lemma finish_panic r a cur fs f ip k pl n out : f (a ++ cur) = (out, Panic) -> finish (B r a cur (fs ++ [f]) ip k pl n) = Panic.
Proof.
  intros Hf. unfold finish. change (b_buffer (B r a cur (fs ++ [f]) ip k pl n)) with (mkbuf r a cur). rewrite mk_inner. cbn [bind].
  change (b_fin (B r a cur (fs ++ [f]) ip k pl n)) with (fs ++ [f]). rewrite fin_last, Hf. reflexivity.
Qed.
Lemma one_payload_bytes ps p : one_payload ps p -> Forall is_bytes ps -> is_bytes p.
Proof.
  intros [-> | [-> ->]] H; [inversion H; assumption|constructor].
Qed.
Lemma udp_op_payloads us : Forall udp_op_ok us -> Forall is_bytes (udp_payloads us).
Proof.
  induction 1 as [|o us Ho H IH]; [constructor|]. destruct o; [exact IH|]. constructor; assumption.
Qed.
Lemma tcp_op_payloads us : Forall tcp_op_ok us -> Forall is_bytes (tcp_payloads us).
Proof.
  induction 1 as [|o us Ho H IH]; [constructor|]. destruct o; [exact IH|]. constructor; assumption.
Qed.
Lemma v4_op_payloads us : Forall v4_op_ok us -> Forall is_bytes (v4_payloads us).
Proof.
  induction 1 as [|o us Ho H IH]; [constructor|]. destruct o; [exact IH|]. constructor; assumption.
Qed.
Lemma echo_op_payloads us : Forall echo_op_ok us -> Forall is_bytes (echo_payloads us).
Proof.
  induction 1 as [|o us Ho H IH]; [constructor|]. destruct o; try exact IH. constructor; assumption.
Qed.
Lemma ether_op_payloads us : Forall ether_op_ok us -> Forall is_bytes (ether_payloads us).
Proof.
  induction 1 as [|o us Ho H IH]; [constructor|]. destruct o; try exact IH. constructor; assumption.
Qed.
Lemma udp_after_ok us : Forall udp_op_ok us -> udp_fields_ok (udp_after us).
Proof.
  intros H. unfold udp_after. assert (Hz : udp_fields_ok {| uf_src := 0; uf_dst := 0; uf_length := 0; uf_checksum := 0 |}) by (repeat split).
  revert Hz. generalize {| uf_src := 0; uf_dst := 0; uf_length := 0; uf_checksum := 0 |}.
  induction H as [|o us Ho H IH]; intros f Hf; [exact Hf|]. destruct o as [s|p]; [|exact (IH f Hf)].
  apply (IH (udp_put f s)). destruct Hf as (F1 & F2 & F3 & F4). destruct s; repeat split; cbn in *; assumption.
Qed.
Lemma udp_with_ok E r pre cur : sized r pre cur -> fits r 8 -> len pre + len cur + 8 <= ISIZE_MAX ->
  udp_with E (mkbuf r pre cur) = Ok (B (use r 8) (pre ++ cur) (zeros 8) [] (len pre, len cur) false false 0).
Proof. intros Hs Hf Hl. unfold udp_with. rewrite mk_offset, mk_length. change udp_header_min with 8. rewrite mk_next by assumption. reflexivity. Qed.
Lemma use_use r n m : use (use r n) m = use r (n + m).
Proof. destruct r; [|reflexivity]. cbn [use option_map]. rewrite dropN_dropN. reflexivity. Qed.
Lemma fits_use r n m : fits r (n + m) -> fits (use r n) m.
Proof. destruct r; [|trivial]. cbn [use option_map fits]. intros H. autorewrite with len. lia. Qed.
Lemma fits_le r n m : fits r n -> m <= n -> fits r m.
Proof. destruct r; [|trivial]. cbn [fits]. lia. Qed.

(** The UDP chain on any buffer. *)
Lemma udp_chain_gen E eth vs us p r pre cur :
  eth_ok eth -> Forall v4_arg_ok vs -> Forall udp_op_ok us -> one_payload (udp_payloads us) p ->
  sized r pre cur -> fits r (eth_size eth + 28) -> r = None \/ p = [] ->
  len pre + len cur + eth_size eth + 28 + len p <= ISIZE_MAX ->
  let f := v4_after vs in let g := udp_after us in let n := (8 + len p) mod 65536 in
  let c := inet_checksum (with_pseudo_header (vf_src f) (vf_dst f) 17 (seen E (udp_wire (udp_fill g n 0) ++ p))) in
  udp_chain E eth vs us (mkbuf r pre cur) =
  Ok (pre ++ cur ++ ether_layer eth ++ v4_wire (v4_finished f 17 (8 + len p)) ++ udp_wire (udp_fill g n c) ++ p).
Proof.
  intros He Hv Hu Hp Hs Hf Hr Hl f g n c.
  destruct (v4_layer_ok E eth vs r pre cur He Hv Hs ltac:(eapply fits_le; [exact Hf|lia]) ltac:(lia)) as (a & fs & H1 & H2).
  unfold udp_chain. rewrite H1. cbn [bind]. pose proof (v4_after_building vs Hv) as Hb. fold f in Hb, H1 |- *.
  pose proof H2 as Hcl. destruct H2 as [H2l _]. rewrite !len_app, len_ether_layer in H2l.
  assert (Hs1 : sized (use r (eth_size eth + 20)) a (v4_wire f)).
  { eapply sized_after; [exact Hs|eapply fits_le; [exact Hf|lia]|rewrite len_v4_wire; lia|rewrite len_v4_wire; lia]. }
  set (f' := v4_put f (V4SetProtocol IP_Udp)).
  assert (Hb' : v4_building f') by (apply v4_put_building; [exact Hb|split; [reflexivity|exact I]]).
  unfold v4_udp. erewrite v4_sub_ok; [|exact Hb|reflexivity|exact Hs1|
    apply udp_with_ok; [eapply sized_same; [exact Hs1|reflexivity]|apply fits_use; eapply fits_le; [exact Hf|lia]|rewrite len_v4_wire; lia]].
  fold f'. rewrite use_use. replace (eth_size eth + 20 + 8) with (eth_size eth + 28) by lia. cbn [bind].
  change (zeros 8) with (udp_wire {| uf_src := 0; uf_dst := 0; uf_length := 0; uf_checksum := 0 |}). set (z := Build_udp_fields 0 0 0 0).
  pose proof (one_payload_bytes _ _ Hp (udp_op_payloads us Hu)) as Hpb.
  assert (Ho : oks udp_putop (fun _ _ => True) z us) by (generalize z; clear; induction us; intros z; cbn [oks]; auto).
  destruct (run_one (udp_run1 E) udp_wire udp_putop udp_pay (fun _ => false) (fun _ _ => True) false 8 len_udp_wire
    (udp_step E) (udp_step_pay E) ltac:(intros []; cbn; eauto) us z (use r (eth_size eth + 28)) (a ++ v4_wire f')
    (fs ++ [v4_finalizer E (len a) 20]) (len a, len (v4_wire f')) false p Ho Hp Hpb) as [pl R].
  { eapply sized_after; [exact Hs|exact Hf|rewrite len_app, len_v4_wire, len_udp_wire; lia|rewrite len_app, len_v4_wire, len_udp_wire; lia]. }
  { rewrite len_app, len_v4_wire. lia. }
  { destruct Hr as [-> | ->]; [left; reflexivity|right; reflexivity]. }
  rewrite R. clear R. cbn [bind]. rewrite existsb_false, orb_false_r, udp_fold. fold (udp_after us). fold g.
  unfold udp_build, udp_prepare. set (cur' := udp_wire g ++ p). set (ip := (len a, len (v4_wire f'))).
  assert (Hlc : len cur' = 8 + len p) by (unfold cur'; rewrite len_app, len_udp_wire; reflexivity).
  match goal with |- finish (with_fin ?b _) = _ => change (b_buffer b) with (mkbuf (use r (eth_size eth + 28)) (a ++ v4_wire f') cur') end.
  rewrite mk_length.
  match goal with |- finish (with_fin ?b ?x) = _ => change (finish (with_fin b x)) with
    (finish (B (use r (eth_size eth + 28)) (a ++ v4_wire f') cur' ((fs ++ [v4_finalizer E (len a) 20]) ++ [udp_finalizer E ip (len cur')]) ip false pl 0)) end.
  rewrite (finish_ok _ _ _ _ _ _ _ _ _ (udp_wire (udp_fill g n c) ++ p) _ (v4_wraps E fs a _ f' Hcl Hb')).
  - unfold f' at 1 2. rewrite v4_finished_proto. change (ip_protocol_into IP_Udp) with 17.
    rewrite (len_app _ p), len_udp_wire. rewrite <- !app_assoc. reflexivity.
  - unfold cur', ip. rewrite len_v4_wire, len_app, len_udp_wire, <- app_assoc.
    rewrite udp_fin_gen by (exact Hb' || apply udp_after_ok, Hu || exact Hpb || lia).
    rewrite <- app_assoc. replace (vf_src f') with (vf_src f) by (destruct f; reflexivity).
    replace (vf_dst f') with (vf_dst f) by (destruct f; reflexivity). reflexivity.
  - rewrite !len_app, len_v4_wire, len_udp_wire. lia.
Qed.
