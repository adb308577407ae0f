(** * SliceBuildProofs: C41. *)
From Verif Require Import Base Enums Buffer Ether Ipv4 Ip Udp Tcp Icmp Builders Spec SpecCalls SpecBuild
  Lemmas ParseProofs SliceProofs AccessProofs FieldProofs ChecksumLemmas ChecksumProofs GuardProofs BufferProofs BuildLemmas FinalLemmas ChainLemmas ReadLemmas BuilderProofs MisuseProofs.
From Coq Require Import ZifyBool ZifyNat ZifyN.
Ltac Zify.zify_post_hook ::= Z.div_mod_to_equations.

Lemma slice_mk s : slice_new s = mkbuf (Some s) [] []. Proof. reflexivity. Qed.
Lemma slice_sized {E : env} s : len s <= ISIZE_MAX -> sized (Some s) [] [].
Proof. intros H. unfold sized, free. rewrite !len_nil. lia. Qed.
Lemma isize_1000 {E : env} : 1000 <= ISIZE_MAX. Proof. widths; lia. Qed.
Lemma one_nil {A} (f : A -> list bytes) ops : flat_map f ops = [] -> one_payload (flat_map f ops) [].
Proof. intros H. right. split; [exact H|reflexivity]. Qed.
Lemma room_eth eth : v4_room eth = eth_size eth + 20. Proof. destruct eth; reflexivity. Qed.
Lemma room_outer outer : outer_room outer = outer_size outer. Proof. destruct outer as [[eth vs]|]; [apply room_eth|reflexivity]. Qed.
Ltac both G Hz s := rewrite (G (Some s)), (G None) by (exact dynamic_sized || exact Hz || exact I || (cbn [fits]; lia) || (rewrite ?len_nil; lia)); reflexivity.
(** C41: without payload, a slice with enough room gives what a vector gives. *)
Lemma c41_same_bytes : forall E eth vs outer s,
  eth_ok eth -> Forall v4_arg_ok vs -> outer_ok outer -> len s <= ISIZE_MAX ->
  (forall eops, Forall ether_op_ok eops -> ether_payloads eops = [] -> 14 <= len s ->
     ether_chain E eops (slice_new s) = ether_chain E eops dynamic_new) /\
  (v4_room eth <= len s -> v4_chain E eth (map V4Set vs) (slice_new s) = v4_chain E eth (map V4Set vs) dynamic_new) /\
  (forall us, Forall udp_op_ok us -> udp_payloads us = [] -> v4_room eth + 8 <= len s ->
     udp_chain E eth vs us (slice_new s) = udp_chain E eth vs us dynamic_new) /\
  (forall ts, Forall tcp_op_ok ts -> flags_last (tcp_setters ts) -> tcp_payloads ts = [] -> v4_room eth + 20 <= len s ->
     tcp_chain E eth vs ts (slice_new s) = tcp_chain E eth vs ts dynamic_new) /\
  (forall ops, Forall echo_op_ok ops -> echo_payloads ops = [] -> outer_room outer + 8 <= len s ->
     echo_chain E outer ops (slice_new s) = echo_chain E outer ops dynamic_new) /\
  (forall ops, Forall information_op_ok ops -> outer_room outer + 8 <= len s ->
     information_chain E outer ops (slice_new s) = information_chain E outer ops dynamic_new) /\
  (forall ops, Forall timestamp_op_ok ops -> outer_room outer + 20 <= len s ->
     timestamp_chain E outer ops (slice_new s) = timestamp_chain E outer ops dynamic_new).
Proof.
  intros E eth vs outer s He Hv Hout Hs. pose proof isize_1000 as Hi. pose proof (slice_sized s Hs) as Hz.
  rewrite room_eth, room_outer. assert (Hsz : eth_size eth <= 14) by (destruct eth; cbn; lia).
  assert (Hoz : outer_size outer <= 34) by (destruct outer as [[[] ]|]; cbn; lia).
  rewrite slice_mk. change dynamic_new with (mkbuf None [] []).
  split; [|split; [|split; [|split; [|split; [|split]]]]].
  - intros us Hu Hp Hr.
    pose proof (fun r Hz Hf => ether_chain_gen E us [] r [] [] Hu (or_intror (conj Hp eq_refl)) Hz Hf (or_intror eq_refl)) as G. both G Hz s.
  - intros Hr.
    assert (Ho : Forall v4_op_ok (map V4Set vs)) by (apply Forall_map; exact Hv).
    assert (Hp : v4_payloads (map V4Set vs) = []) by (clear; induction vs; [reflexivity|assumption]).
    pose proof (fun r Hz Hfi => v4_chain_gen E eth (map V4Set vs) [] r [] [] He Ho (or_intror (conj Hp eq_refl)) Hz Hfi (or_intror eq_refl)) as G. cbv zeta in G. both G Hz s.
  - intros us Hu Hp Hr.
    pose proof (fun r Hz Hf => udp_chain_gen E eth vs us [] r [] [] He Hv Hu (or_intror (conj Hp eq_refl)) Hz Hf (or_intror eq_refl)) as G. cbv zeta in G. both G Hz s.
  - intros us Hu Hf Hp Hr.
    pose proof (fun r Hz Hfi => tcp_chain_gen E eth vs us [] r [] [] He Hv Hu Hf (or_intror (conj Hp eq_refl)) Hz Hfi (or_intror eq_refl)) as G. cbv zeta in G. both G Hz s.
  - intros us Hu Hp Hr.
    pose proof (fun r Hz Hf => echo_chain_gen E outer us [] r [] [] Hout Hu (or_intror (conj Hp eq_refl)) Hz Hf (or_intror eq_refl)) as G. cbv zeta in G.
    destruct (echo_after us) as [[t i] q]. both G Hz s.
  - intros us Hu Hr.
    pose proof (fun r Hz Hf => information_chain_gen E outer us r [] [] Hout Hu Hz Hf) as G. cbv zeta in G.
    destruct (information_after us) as [[t i] q]. both G Hz s.
  - intros us Hu Hr.
    pose proof (fun r Hz Hf => timestamp_chain_gen E outer us r [] [] Hout Hu Hz Hf) as G. cbv zeta in G.
    destruct (timestamp_after us) as [[[[[t i] q] x] y] z]. both G Hz s.
Qed.
(** Too little room *)
Lemma next_small E rest pre cur n : sized (Some rest) pre cur -> len rest < n -> n <= ISIZE_MAX -> try_buf (buf_next E n (mkbuf (Some rest) pre cur)) = Err SmallBuffer.
Proof. intros. rewrite mk_next_small by assumption. reflexivity. Qed.
Lemma start_v4_small E eth s : eth_ok eth -> len s <= ISIZE_MAX -> len s < v4_room eth -> start_v4 E eth (slice_new s) = Err SmallBuffer.
Proof.
  intros He Hs Hl. pose proof isize_1000 as Hi. pose proof (slice_sized s Hs) as Hz. rewrite slice_mk. destruct eth as [eops|]; cbn [start_v4 v4_room] in *.
  - destruct (N.ltb_spec (len s) 14) as [H14|H14].
    + unfold ether_with. change ether_header_min with 14. rewrite next_small by (assumption || lia). reflexivity.
    + rewrite ether_with_ok by (exact Hz || exact H14 || (rewrite len_nil; lia)). cbn [bind]. destruct He as [He Hp].
      pose proof (ether_run_plain E eops ether_zero (use (Some s) 14) ([] ++ []) [] [] (0, 0) false false 0 Hp ltac:(constructor)) as R.
      rewrite !app_nil_r in R. cbn [app]. fold ether_zero.
      assert (Hz2 : sized (use (Some s) 14) [] (ether_wire ether_zero)).
      { eapply sized_after; [exact Hz|exact H14|rewrite len_ether_wire, !len_nil; lia|rewrite len_ether_wire, len_nil; lia]. }
      rewrite R by exact Hz2. cbn [bind]. rewrite ether_ip_ok. cbn [bind]. unfold ip_v4, sub.
      match goal with |- context [v4_with E (b_buffer ?b)] => change (b_buffer b) with (mkbuf (use (Some s) 14) [] (ether_wire (fold_left ether_put eops ether_zero))) end.
      unfold v4_with. change v4_header_min with 20. cbn [use option_map]. rewrite next_small; [reflexivity| |rewrite len_dropN; lia|lia].
      eapply sized_same; [exact Hz2|reflexivity].
  - unfold v4_with. change v4_header_min with 20. rewrite next_small by (assumption || lia). reflexivity.
Qed.
Lemma v4_sub_small E proto mk m s eth vs : eth_ok eth -> Forall v4_arg_ok vs -> u8 (ip_protocol_into proto) -> len s <= ISIZE_MAX ->
  len s < v4_room eth + m -> m <= 20 ->
  (forall rest pre cur, sized (Some rest) pre cur -> len rest < m -> mk (mkbuf (Some rest) pre cur) = Err SmallBuffer) ->
  (let* v := v4_layer E eth vs (slice_new s) in v4_sub E proto mk v) = Err SmallBuffer.
Proof.
  intros He Hv Hp Hs Hl Hm20 Hm. pose proof isize_1000 as Hi. pose proof (slice_sized s Hs) as Hz.
  destruct (N.ltb_spec (len s) (v4_room eth)) as [Hr|Hr].
  - unfold v4_layer. rewrite start_v4_small by assumption. reflexivity.
  - rewrite room_eth in *. assert (Hsz : eth_size eth <= 14) by (destruct eth; cbn; lia). rewrite slice_mk.
    destruct (v4_layer_ok E eth vs (Some s) [] [] He Hv Hz Hr ltac:(rewrite len_nil; lia)) as (a & fs & H1 & H2).
    rewrite H1. cbn [bind]. destruct H2 as [H2 _]. cbn [app] in H2. rewrite len_ether_layer in H2.
    pose proof (v4_after_building vs Hv) as Hb. set (f := v4_after vs) in *.
    assert (Hs1 : sized (use (Some s) (eth_size eth + 20)) a (v4_wire f)).
    { eapply sized_after; [exact Hz|exact Hr|rewrite len_v4_wire, !len_nil; lia|rewrite len_v4_wire; lia]. }
    unfold v4_sub. change (b_payload (B (use (Some s) (eth_size eth + 20)) a (v4_wire f) fs (0, 0) false false 0)) with false. cbv iota.
    pose proof (v4_apply_wire f (V4SetProtocol proto) [] Hb (conj Hp I) ltac:(constructor)) as Ha. rewrite !app_nil_r in Ha.
    rewrite (edit_ok E _ a (v4_wire f) (v4_set_protocol proto) (v4_wire (v4_put f (V4SetProtocol proto)))) by (exact Hs1 || exact Ha || reflexivity).
    cbn [bind]. unfold sub. match goal with |- context [mk ?x] => change x with (mkbuf (Some (dropN (eth_size eth + 20) s)) a (v4_wire (v4_put f (V4SetProtocol proto)))) end.
    rewrite Hm; [reflexivity| |rewrite len_dropN; lia]. eapply sized_same; [exact Hs1|reflexivity].
Qed.
Lemma icmp_small E outer mk m s : outer_ok outer -> len s <= ISIZE_MAX -> len s < outer_room outer + m -> m <= 20 ->
  (forall rest pre cur, sized (Some rest) pre cur -> len rest < m -> mk (mkbuf (Some rest) pre cur) = Err SmallBuffer) ->
  (let* i := icmp_layer E outer (slice_new s) in sub mk i) = Err SmallBuffer.
Proof.
  intros Ho Hs Hl Hm20 Hm. pose proof isize_1000 as Hi. pose proof (slice_sized s Hs) as Hz.
  destruct (N.ltb_spec (len s) (outer_room outer)) as [Hr|Hr].
  - destruct outer as [[eth vs]|]; [|cbn in Hr; lia]. cbn [icmp_layer outer_room] in *. destruct Ho as [He Hv].
    unfold v4_layer. rewrite start_v4_small by assumption. reflexivity.
  - rewrite room_outer in *. assert (Hoz : outer_size outer <= 34) by (destruct outer as [[[] ]|]; cbn; lia). rewrite slice_mk.
    destruct (icmp_layer_ok E outer (Some s) [] [] Ho Hz Hr ltac:(rewrite len_nil; lia)) as (a & c & fs & H1 & H2 & _).
    rewrite H1. cbn [bind]. unfold sub. match goal with |- context [mk ?x] => change x with (mkbuf (Some (dropN (outer_size outer) s)) a c) end.
    rewrite Hm; [reflexivity| |rewrite len_dropN; lia].
    change (Some (dropN (outer_size outer) s)) with (use (Some s) (outer_size outer)).
    eapply sized_after; [exact Hz|exact Hr|rewrite ?len_nil in *; lia|rewrite ?len_nil in *; lia].
Qed.
(** C41: and with too little room the program is refused with SmallBuffer before
    anything is built, whatever calls it would make on its last layer (payload included). *)
Lemma c41_small : forall E eth vs outer s,
  eth_ok eth -> Forall v4_arg_ok vs -> outer_ok outer -> len s <= ISIZE_MAX ->
  (forall eops, len s < 14 -> ether_chain E eops (slice_new s) = Err SmallBuffer) /\
  (forall vops, len s < v4_room eth -> v4_chain E eth vops (slice_new s) = Err SmallBuffer) /\
  (forall us, len s < v4_room eth + 8 -> udp_chain E eth vs us (slice_new s) = Err SmallBuffer) /\
  (forall ts, len s < v4_room eth + 20 -> tcp_chain E eth vs ts (slice_new s) = Err SmallBuffer) /\
  (forall ops, len s < outer_room outer + 8 -> echo_chain E outer ops (slice_new s) = Err SmallBuffer) /\
  (forall ops, len s < outer_room outer + 8 -> information_chain E outer ops (slice_new s) = Err SmallBuffer) /\
  (forall ops, len s < outer_room outer + 20 -> timestamp_chain E outer ops (slice_new s) = Err SmallBuffer).
Proof.
  intros E eth vs outer s He Hv Hout Hs. pose proof isize_1000 as Hi. pose proof (slice_sized s Hs) as Hz.
  assert (Hbind : forall (A B C : Type) (x : res A) (f : A -> res B) (g : B -> res C), (let* b := (let* a := x in f a) in g b) = let* a := x in let* b := f a in g b)
    by (intros A B C x f g; destruct x; reflexivity).
  split; [|split; [|split; [|split; [|split; [|split]]]]]; intros ops Hl.
  - unfold ether_chain, ether_with. change ether_header_min with 14. rewrite slice_mk, next_small by (assumption || lia). reflexivity.
  - unfold v4_chain. rewrite start_v4_small by assumption. reflexivity.
  - unfold udp_chain. rewrite <- Hbind. unfold v4_udp. rewrite (v4_sub_small E IP_Udp _ 8); try assumption; try reflexivity; try lia.
    intros rest pre cur Hz2 Hr. unfold udp_with. change udp_header_min with 8. rewrite next_small by (assumption || lia). reflexivity.
  - unfold tcp_chain. rewrite <- Hbind. unfold v4_tcp. rewrite (v4_sub_small E IP_Tcp _ 20); try assumption; try reflexivity; try lia.
    intros rest pre cur Hz2 Hr. unfold tcp_with. change tcp_header_min with 20. rewrite next_small by (assumption || lia). reflexivity.
  - unfold echo_chain. rewrite <- Hbind. unfold icmp_echo. rewrite (icmp_small E outer _ 8); try assumption; try reflexivity; try lia.
    intros rest pre cur Hz2 Hr. unfold echo_with. rewrite next_small by (assumption || lia). reflexivity.
  - unfold information_chain. rewrite <- Hbind. unfold icmp_information. rewrite (icmp_small E outer _ 8); try assumption; try reflexivity; try lia.
    intros rest pre cur Hz2 Hr. unfold information_with. rewrite next_small by (assumption || lia). reflexivity.
  - unfold timestamp_chain. rewrite <- Hbind. unfold icmp_timestamp. rewrite (icmp_small E outer _ 20); try assumption; try reflexivity; try lia.
    intros rest pre cur Hz2 Hr. unfold timestamp_with. rewrite next_small by (assumption || lia). reflexivity.
Qed.

(** ** Payload on a slice *)
Lemma alter_set m i x : i < len m -> set_index i x m = (alter m i x, Ok tt).
Proof. intros H. unfold set_index. destruct (N.ltb_spec i (len m)); [reflexivity|lia]. Qed.
Lemma len_scatter p : forall m off, off + 2 * len p <= len m + 1 -> len (scatter m off p) = len m.
Proof.
  induction p as [|x p IH]; intros m off H; [reflexivity|]. rewrite len_cons in H. cbn [scatter]. rewrite IH; rewrite len_alter by lia; lia.
Qed.
Lemma takeN_app_split u l (m : bytes) : takeN u m ++ takeN l (dropN u m) = takeN (u + l) m.
Proof.
  rewrite takeN_dropN_comm. transitivity (takeN u (takeN (u + l) m) ++ dropN u (takeN (u + l) m)); [|apply takeN_dropN].
  rewrite takeN_takeN. replace (N.min u (u + l)) with u by lia. reflexivity.
Qed.
(** One step: [more(1)] and the write of the last byte of the window. *)
Lemma slice_more E m o l u : len m <= ISIZE_MAX -> u <= len m -> l <= len m ->
  buf_more E 1 (Slice m o l u) =
  if len m <? u + 1 then (Slice m o l u, Err SmallBuffer)
  else if len m <? u + l + 1 then (Slice m u (l + 1) (u + 1), Panic)
  else (Slice (alter m (u + l) 0) u (l + 1) (u + 1), Ok tt).
Proof.
  intros Hm Hu Hl. pose proof isize_usize as Hi. pose proof isize_1000. unfold buf_more. rewrite usize_add_ok by lia. destruct (len m <? u + 1) eqn:H1; [reflexivity|].
  rewrite usize_add_ok by lia. rewrite usize_sub_ok by lia. unfold buf_data_mut. rewrite usize_add_ok by lia. unfold range_mut.
  destruct (len m <? u + l + 1) eqn:H2.
  - destruct ((u <=? u + (l + 1)) && (u + (l + 1) <=? len m))%bool eqn:H3; [lia|]. reflexivity.
  - destruct ((u <=? u + (l + 1)) && (u + (l + 1) <=? len m))%bool eqn:H3; [|lia].
    replace (u + (l + 1) - u) with (l + 1) by lia. replace (l + 1 - 1) with l by lia.
    set (d := takeN (l + 1) (dropN u m)). assert (Hd : len d = l + 1) by (unfold d; rewrite len_takeN, len_dropN; lia).
    unfold zero_from. destruct (l <=? len d) eqn:H4; [|lia]. rewrite Hd. replace (l + 1 - l) with 1 by lia. change (zeros 1) with [0].
    do 2 f_equal. unfold alter. rewrite <- app_assoc. unfold d. rewrite takeN_takeN. replace (N.min l (l + 1)) with l by lia.
    rewrite app_assoc. f_equal.
    + rewrite (takeN_app_split u l m). reflexivity.
    + cbn [app]. do 2 f_equal. lia.
Qed.
Lemma alter_alter m i x y : i < len m -> alter (alter m i x) i y = alter m i y.
Proof.
  intros H. unfold alter. assert (Hl : len (takeN i m) = i) by (rewrite len_takeN; lia).
  f_equal.
  - rewrite takeN_app1 by lia. apply takeN_all. lia.
  - f_equal. rewrite dropN_app2 by lia. rewrite Hl. replace (i + 1 - i) with 1 by lia. reflexivity.
Qed.
Lemma slice_set_last E m o l u x fin ip k pl n : o + (l + 1) <= len m -> len m <= ISIZE_MAX ->
  edit E (set_last x) (Build_builder (Slice m o (l + 1) u) fin ip k pl n) =
  Ok (Build_builder (Slice (alter m (o + l) x) o (l + 1) u) fin ip k pl n).
Proof.
  intros Hl Hm. pose proof isize_usize as Hi. unfold edit, buf_data_mut. cbn [b_buffer]. rewrite usize_add_ok by lia. unfold range_mut.
  destruct ((o <=? o + (l + 1)) && (o + (l + 1) <=? len m))%bool eqn:H3; [|lia].
  replace (o + (l + 1) - o) with (l + 1) by lia. set (d := takeN (l + 1) (dropN o m)). assert (Hd : len d = l + 1) by (unfold d; rewrite len_takeN, len_dropN; lia).
  unfold set_last. destruct (len d =? 0) eqn:H0; [lia|]. rewrite Hd. replace (l + 1 - 1) with l by lia. rewrite alter_set by lia. cbn [try_buf bind]. 
  unfold with_buffer. cbn [b_fin b_ip b_kind b_payload b_payload_length]. do 3 f_equal. unfold alter. 
  assert (Hdd : dropN (l + 1) d = []) by (apply dropN_all; lia). rewrite Hdd. rewrite <- app_assoc. cbn [app].
  rewrite app_assoc. f_equal; [|do 2 f_equal; lia]. unfold d. rewrite takeN_takeN. replace (N.min l (l + 1)) with l by lia. apply takeN_app_split.
Qed.
Lemma slice_loop E count p : forall m o l u fin ip k pl n, len m <= ISIZE_MAX -> u <= len m -> 1 <= l -> l <= len m -> n <= u ->
  payload_loop E count p (Build_builder (Slice m o l u) fin ip k pl n) =
  if len p =? 0 then Ok (Build_builder (Slice m o l u) fin ip k pl n)
  else if len m <? u + 1 then Err SmallBuffer
  else if len m <? u + l + 2 * len p - 1 then Panic
  else Ok (Build_builder (Slice (scatter m (u + l) p) (u + len p - 1) (l + len p) (u + len p)) fin ip k pl (if count then n + len p else n)).
Proof.
  pose proof isize_usize as Hi. pose proof isize_1000 as H1000.
  induction p as [|x p IH]; intros m o l u fin ip k pl n Hm Hu Hl1 Hl Hn; [reflexivity|]. rewrite len_cons in *.
  destruct (len p + 1 =? 0) eqn:E0; [lia|].
  cbn [payload_loop b_buffer]. rewrite slice_more by assumption. destruct (len m <? u + 1) eqn:H1; [reflexivity|].
  destruct (len m <? u + l + 1) eqn:H2.
  { cbn [try_buf bind]. destruct (len m <? u + l + 2 * (len p + 1) - 1) eqn:H3; [reflexivity|lia]. }
  cbn [try_buf bind]. unfold with_buffer at 1 2. cbn [b_fin b_ip b_kind b_payload b_payload_length].
  assert (Hla : len (alter m (u + l) 0) = len m) by (apply len_alter; lia).
  assert (Hstep : forall n', n' <= u + 1 ->
    (let* b3 := edit E (set_last x) (Build_builder (Slice (alter m (u + l) 0) u (l + 1) (u + 1)) fin ip k pl n') in payload_loop E count p b3) =
    if len m <? u + l + 2 * (len p + 1) - 1 then Panic
    else Ok (Build_builder (Slice (scatter m (u + l) (x :: p)) (u + (len p + 1) - 1) (l + (len p + 1)) (u + (len p + 1))) fin ip k pl (if count then n' + len p else n'))).
  { intros n' Hn'. rewrite slice_set_last by (rewrite Hla; lia). cbn [bind]. rewrite alter_alter by lia.
    assert (Hlx : len (alter m (u + l) x) = len m) by (apply len_alter; lia).
    rewrite IH by (rewrite ?Hlx; lia). rewrite Hlx. destruct (len p =? 0) eqn:Ep.
    - apply N.eqb_eq in Ep. assert (p = []) as -> by (destruct p; [reflexivity|rewrite len_cons in Ep; lia]). rewrite len_nil.
      destruct (len m <? u + l + 2 * (0 + 1) - 1) eqn:H3; [lia|]. cbn [scatter]. do 2 f_equal; [f_equal; lia|]. destruct count; lia.
    - destruct (len m <? u + 1 + 1) eqn:H3; [lia|]. replace (u + 1 + (l + 1) + 2 * len p - 1) with (u + l + 2 * (len p + 1) - 1) by lia.
      destruct (len m <? u + l + 2 * (len p + 1) - 1); [reflexivity|]. cbn [scatter]. replace (u + 1 + (l + 1)) with (u + l + 2) by lia.
      do 2 f_equal. f_equal; lia. }
  destruct count.
  - rewrite (usize_add_ok E n 1) by lia. cbn [bind]. unfold with_payload_length. cbn [b_buffer b_fin b_ip b_kind b_payload b_payload_length].
    rewrite Hstep by lia. replace (n + 1 + len p) with (n + (len p + 1)) by lia. reflexivity.
  - cbn [bind]. unfold with_buffer. cbn [b_fin b_ip b_kind b_payload b_payload_length]. rewrite Hstep by lia. reflexivity.
Qed.
Lemma alter_app a b off x : len a <= off -> alter (a ++ b) off x = a ++ alter b (off - len a) x.
Proof.
  intros H. unfold alter. rewrite takeN_app2 by lia. rewrite dropN_app2 by lia. replace (off + 1 - len a) with (off - len a + 1) by lia. rewrite app_assoc. reflexivity.
Qed.
Lemma scatter_app p : forall a b off, len a <= off -> scatter (a ++ b) off p = a ++ scatter b (off - len a) p.
Proof.
  induction p as [|x p IH]; intros a b off H; [reflexivity|]. cbn [scatter]. rewrite alter_app by exact H. rewrite IH by lia.
  replace (off + 2 - len a) with (off - len a + 2) by lia. reflexivity.
Qed.
Lemma is_bytes_alter m i x : is_bytes m -> x < 256 -> is_bytes (alter m i x).
Proof. intros Hm Hx. unfold alter. apply Forall_app. split; [apply is_bytes_takeN, Hm|constructor; [exact Hx|apply is_bytes_dropN, Hm]]. Qed.
Lemma is_bytes_scatter p : forall m off, is_bytes m -> is_bytes p -> is_bytes (scatter m off p).
Proof. induction p as [|x p IH]; intros m off Hm Hp; [exact Hm|]. inversion Hp; subst. cbn [scatter]. apply IH; [apply is_bytes_alter|]; assumption. Qed.
(** The memory that ends up behind the header. *)
Definition stale (rest : bytes) (l : N) (p : bytes) : bytes := takeN (len p) (scatter rest l p).
Definition scattered (pre cur rest p : bytes) fin ip k n : builder :=
  Build_builder (Slice (pre ++ cur ++ scatter rest (len cur) p) (len pre + len cur + len p - 1) (len cur + len p) (len pre + len cur + len p)) fin ip k true n.
Lemma slice_payload E e count p rest pre cur fin ip k n : sized (Some rest) pre cur -> 1 <= len cur -> n <= len cur -> p <> [] ->
  add_payload E e count p (B (Some rest) pre cur fin ip k false n) =
  if len rest <? 1 then Err SmallBuffer
  else if len rest <? len cur + 2 * len p - 1 then Panic
  else Ok (scattered pre cur rest p fin ip k (if count then n + len p else n)).
Proof.
  intros Hz Hc Hn Hp. unfold sized, free in Hz. unfold add_payload, B. cbn [b_payload].
  unfold with_payload. cbn [b_buffer b_fin b_ip b_kind b_payload_length]. unfold mkbuf.
  assert (Hlp : 0 < len p) by (destruct p; [congruence|rewrite len_cons; lia]).
  unfold sli. rewrite slice_loop by (rewrite ?len_app; lia). rewrite !len_app.
  destruct (len p =? 0) eqn:E0; [lia|].
  destruct (len rest <? 1) eqn:H1; [destruct (len pre + (len cur + len rest) <? len pre + len cur + 1) eqn:H2; [reflexivity|lia]|].
  destruct (len pre + (len cur + len rest) <? len pre + len cur + 1) eqn:H2; [lia|].
  destruct (len rest <? len cur + 2 * len p - 1) eqn:H3.
  - destruct (len pre + (len cur + len rest) <? len pre + len cur + len cur + 2 * len p - 1) eqn:H4; [reflexivity|lia].
  - destruct (len pre + (len cur + len rest) <? len pre + len cur + len cur + 2 * len p - 1) eqn:H4; [lia|].
    unfold scattered. do 2 f_equal. f_equal. rewrite !scatter_app by (rewrite ?len_app; lia). do 3 f_equal. lia.
Qed.
Lemma scattered_inner pre cur rest p fin ip k n : len cur + 2 * len p - 1 <= len rest -> p <> [] ->
  buf_into_inner (b_buffer (scattered pre cur rest p fin ip k n)) = Ok (pre ++ cur ++ stale rest (len cur) p).
Proof.
  intros H Hp. assert (Hlp : 0 < len p) by (destruct p; [congruence|rewrite len_cons; lia]).
  unfold scattered, stale. cbn [b_buffer buf_into_inner].
  assert (Hl : len (scatter rest (len cur) p) = len rest) by (apply len_scatter; lia).
  rewrite slice_ok by (rewrite ?len_app; lia). f_equal. rewrite N.sub_0_r. change (dropN 0 ?x) with x.
  rewrite !takeN_app2 by lia. do 3 f_equal. lia.
Qed.
Lemma len_stale rest l p : l + 2 * len p - 1 <= len rest -> 0 < len p -> len (stale rest l p) = len p.
Proof. intros H Hp. unfold stale. rewrite len_takeN, len_scatter by lia. lia. Qed.
Lemma is_bytes_stale rest l p : is_bytes rest -> is_bytes p -> is_bytes (stale rest l p).
Proof. intros. apply is_bytes_takeN, is_bytes_scatter; assumption. Qed.
(** C41: an Ethernet payload on a slice. The result's payload is what the slice
    held before (for payloads of more than fourteen bytes, with a few of the
    payload's bytes in it); the payload's bytes are written further on. *)
Lemma c41_ether_payload : forall E eops p s,
  Forall ether_op_ok eops -> ether_payloads eops = [] -> is_bytes p -> p <> [] -> len s <= ISIZE_MAX ->
  ether_chain E (eops ++ [EtherPayload p]) (slice_new s) =
  if len s <? 15 then Err SmallBuffer
  else if len s <? 27 + 2 * len p then Panic
  else Ok (ether_wire (ether_after eops) ++ takeN (len p) (scatter (dropN 14 s) 14 p)).
Proof.
  intros E eops p s Ho Hp Hpb Hne Hs. pose proof isize_1000 as Hi. pose proof (slice_sized s Hs) as Hz. rewrite slice_mk.
  assert (Hlp : 0 < len p) by (destruct p; [congruence|rewrite len_cons; lia]).
  destruct (N.ltb_spec (len s) 14) as [H14|H14].
  { destruct (len s <? 15) eqn:H15; [|lia]. unfold ether_chain, ether_with. change ether_header_min with 14. rewrite next_small by (assumption || lia). reflexivity. }
  unfold ether_chain. rewrite ether_with_ok by (exact Hz || exact H14 || (rewrite len_nil; lia)). cbn [bind]. rewrite run_app.
  pose proof (ether_run_plain E eops ether_zero (use (Some s) 14) ([] ++ []) [] [] (0, 0) false false 0 Hp ltac:(constructor)) as R.
  rewrite !app_nil_r in R. cbn [app]. fold ether_zero.
  assert (Hz2 : forall f, sized (use (Some s) 14) [] (ether_wire f)).
  { intros f. eapply sized_after; [exact Hz|exact H14|rewrite len_ether_wire, !len_nil; lia|rewrite len_ether_wire, len_nil; lia]. }
  rewrite R by apply Hz2. cbn [bind run ether_run1 use option_map]. fold (ether_after eops).
  rewrite slice_payload by (exact Hne || apply Hz2 || (rewrite len_ether_wire; lia)). rewrite len_dropN, len_ether_wire.
  destruct (len s <? 15) eqn:H15; [destruct (len s - 14 <? 1) eqn:H1; [reflexivity|lia]|].
  destruct (len s - 14 <? 1) eqn:H1; [lia|].
  destruct (len s <? 27 + 2 * len p) eqn:H27; [destruct (len s - 14 <? 14 + 2 * len p - 1) eqn:H2; [reflexivity|lia]|].
  destruct (len s - 14 <? 14 + 2 * len p - 1) eqn:H2; [lia|]. cbn [bind]. unfold ether_build, finish.
  rewrite scattered_inner by (exact Hne || (rewrite len_dropN, len_ether_wire; lia)). cbn [bind].
  match goal with |- context [b_fin ?b] => change (b_fin b) with (@nil finalizer) end. rewrite fin_nil, len_ether_wire. reflexivity.
Qed.
(** [build] of UDP: it depends on the bytes, the layer's length and the finalizers. *)
Lemma udp_build_ok E b fs a x f g q : b_fin b = fs ++ [v4_finalizer E (len a) 20] -> b_ip b = (len a, 20) ->
  buf_length (b_buffer b) = 8 + len q -> buf_into_inner (b_buffer b) = Ok ((a ++ v4_wire f) ++ udp_wire g ++ q) ->
  closes fs a x -> v4_building f -> udp_fields_ok g -> is_bytes q -> len a + 28 + len q <= ISIZE_MAX ->
  let n := (8 + len q) mod 65536 in
  let c := inet_checksum (with_pseudo_header (vf_src f) (vf_dst f) 17 (seen E (udp_wire (udp_fill g n 0) ++ q))) in
  udp_build E b = Ok (x ++ v4_wire (v4_finished f (vf_proto f) (8 + len q)) ++ udp_wire (udp_fill g n c) ++ q).
Proof.
  intros Hfin Hip Hlen Hin Hcl Hf Hg Hq Hl n c. unfold udp_build, udp_prepare, finish, with_fin. cbn [b_buffer b_fin]. rewrite Hin, Hfin, Hip, Hlen. cbn [bind].
  unfold fin_add. rewrite fin_last. rewrite <- app_assoc. rewrite udp_fin_gen by assumption. fold n. fold c.
  destruct (v4_wraps E fs a x f Hcl Hf) as [_ Hw]. rewrite app_assoc, Hw by (rewrite !len_app, len_v4_wire, len_udp_wire; lia).
  rewrite len_app, len_udp_wire, <- !app_assoc. reflexivity.
Qed.
Lemma tcp_build_ok E b fs a x f ga g q : b_fin b = fs ++ [v4_finalizer E (len a) 20] -> b_ip b = (len a, 20) -> b_payload_length b = len q ->
  buf_length (b_buffer b) = 20 + len q -> buf_into_inner (b_buffer b) = Ok ((a ++ v4_wire f) ++ tcp_wire ga ++ q) ->
  closes fs a x -> v4_building f -> tcp_fields_ok ga -> tf_checksum ga = tf_checksum g -> (forall o c, tcp_fill ga o c = tcp_fill g o c) ->
  is_bytes q -> len a + 40 + len q <= ISIZE_MAX ->
  tcp_build E b =
  (let* c := tcp_checksum_of E (V4 (v4_wire f)) (tcp_wire (tcp_fill g 5 (tf_checksum g)) ++ q) in
   Ok (x ++ v4_wire (v4_finished f (vf_proto f) (20 + len q)) ++ tcp_wire (tcp_fill g 5 c) ++ q)).
Proof.
  intros Hfin Hip Hpl Hlen Hin Hcl Hf Hg Hck Hfill Hq Hl. unfold tcp_build, tcp_prepare, finish, with_fin. cbn [b_buffer b_fin]. rewrite Hin, Hfin, Hip, Hlen, Hpl. cbn [bind].
  unfold fin_add. rewrite fin_last. rewrite <- app_assoc.
  pose proof (tcp_fin_gen E a f ga q Hf Hg Hq Hl _ eq_refl) as T. cbv zeta in T. rewrite Hck, !Hfill in T. rewrite T. clear T.
  destruct (v4_wraps E fs a x f Hcl Hf) as [_ Hw].
  destruct (tcp_checksum_of E (V4 (v4_wire f)) (tcp_wire (tcp_fill g 5 (tf_checksum g)) ++ q)) as [c|e|]; cbn [bind]; [|reflexivity|reflexivity].
  rewrite Hfill. rewrite app_assoc, Hw by (rewrite !len_app, len_v4_wire, len_tcp_wire; lia).
  rewrite len_app, len_tcp_wire, <- !app_assoc. reflexivity.
Qed.
(** C41: a UDP payload on a slice. The build fails with SmallBuffer or panics
    unless the slice has room for nearly twice the payload; then it yields what
    a vector yields for *another* payload, the memory found behind the header. *)
Lemma c41_udp_payload : forall E eth vs us p s,
  eth_ok eth -> Forall v4_arg_ok vs -> Forall udp_op_ok us -> udp_payloads us = [] ->
  is_bytes p -> p <> [] -> is_bytes s -> len s <= ISIZE_MAX ->
  let room := v4_room eth + 8 in
  udp_chain E eth vs (us ++ [UdpPayload p]) (slice_new s) =
  if len s <? room + 1 then Err SmallBuffer
  else if len s <? room + 7 + 2 * len p then Panic
  else udp_chain E eth vs (us ++ [UdpPayload (takeN (len p) (scatter (dropN room s) 8 p))]) dynamic_new.
Proof.
  intros E eth vs us p s He Hv Hu Hpu Hpb Hne Hsb Hs room. pose proof isize_1000 as Hi. pose proof (slice_sized s Hs) as Hz.
  assert (Hlp : 0 < len p) by (destruct p; [congruence|rewrite len_cons; lia]).
  assert (Hroom : room = eth_size eth + 28) by (unfold room; rewrite room_eth; lia).
  assert (Hsz : eth_size eth <= 14) by (destruct eth; cbn; lia).
  destruct (N.ltb_spec (len s) room) as [Hr|Hr].
  { destruct (len s <? room + 1) eqn:H1; [|lia]. apply (c41_small E eth vs None s); assumption || exact I. }
  rewrite slice_mk.
  destruct (v4_layer_ok E eth vs (Some s) [] [] He Hv Hz ltac:(cbn [fits]; lia) ltac:(rewrite len_nil; lia)) as (a & fs & H1 & H2).
  unfold udp_chain at 1. rewrite H1. cbn [bind]. pose proof (v4_after_building vs Hv) as Hb. set (f := v4_after vs) in *.
  pose proof H2 as Hcl. destruct H2 as [H2l _]. cbn [app] in H2l, Hcl. rewrite len_ether_layer in H2l.
  assert (Hs1 : sized (use (Some s) (eth_size eth + 20)) a (v4_wire f)).
  { eapply sized_after; [exact Hz|cbn [fits]; lia|rewrite len_v4_wire, !len_nil; lia|rewrite len_v4_wire; lia]. }
  set (f' := v4_put f (V4SetProtocol IP_Udp)).
  assert (Hb' : v4_building f') by (apply v4_put_building; [exact Hb|split; [reflexivity|exact I]]).
  unfold v4_udp. erewrite v4_sub_ok; [|exact Hb|reflexivity|exact Hs1|
    apply udp_with_ok; [eapply sized_same; [exact Hs1|reflexivity]|apply fits_use; cbn [fits]; lia|rewrite len_v4_wire; lia]].
  fold f'. rewrite use_use. replace (eth_size eth + 20 + 8) with room by lia. cbn [bind].
  change (zeros 8) with (udp_wire {| uf_src := 0; uf_dst := 0; uf_length := 0; uf_checksum := 0 |}). set (z := Build_udp_fields 0 0 0 0).
  assert (Ho : oks udp_putop (fun _ _ => True) z us) by (generalize z; clear; induction us; intros z; cbn [oks]; auto).
  assert (Hsr : forall g, sized (use (Some s) room) (a ++ v4_wire f') (udp_wire g)).
  { intros g. eapply sized_after; [exact Hz|exact Hr|rewrite len_app, len_v4_wire, len_udp_wire, !len_nil; lia|rewrite len_app, len_v4_wire, len_udp_wire; lia]. }
  rewrite run_app.
  pose proof (run_plain (udp_run1 E) udp_wire udp_putop udp_pay (fun _ => false) (fun _ _ => True) 8 len_udp_wire
    (udp_step E) us z (use (Some s) room) (a ++ v4_wire f') [] (fs ++ [v4_finalizer E (len a) 20]) (len a, len (v4_wire f')) false false 0 Ho Hpu ltac:(constructor)) as R.
  rewrite !app_nil_r in R. rewrite R by apply Hsr. clear R. rewrite existsb_false, orb_false_r, udp_fold. fold (udp_after us). set (g := udp_after us).
  cbn [bind run udp_run1 use option_map].
  rewrite slice_payload by (exact Hne || apply (Hsr g) || (rewrite len_udp_wire; lia)). rewrite len_dropN, len_udp_wire.
  destruct (len s <? room + 1) eqn:C1; [destruct (len s - room <? 1) eqn:C2; [reflexivity|lia]|].
  destruct (len s - room <? 1) eqn:C2; [lia|].
  destruct (len s <? room + 7 + 2 * len p) eqn:C3; [destruct (len s - room <? 8 + 2 * len p - 1) eqn:C4; [reflexivity|lia]|].
  destruct (len s - room <? 8 + 2 * len p - 1) eqn:C4; [lia|]. cbn [bind].
  change (takeN (len p) (scatter (dropN room s) 8 p)) with (stale (dropN room s) 8 p). set (q := stale (dropN room s) 8 p).
  assert (Hlq : len q = len p) by (apply len_stale; [rewrite len_dropN; lia|exact Hlp]).
  assert (Hqb : is_bytes q) by (apply is_bytes_stale; [apply is_bytes_dropN, Hsb|exact Hpb]).
  assert (Hgok : udp_fields_ok g) by (apply udp_after_ok, Hu).
  assert (Hga : udp_after (us ++ [UdpPayload q]) = g).
  { unfold g, udp_after, udp_setters. rewrite flat_map_app. cbn [flat_map]. rewrite app_nil_r. reflexivity. }
  erewrite (udp_build_ok E _ fs a _ f' g q); [|reflexivity|..].
  - change dynamic_new with (mkbuf None [] []).
    pose proof (udp_chain_gen E eth vs (us ++ [UdpPayload q]) q None [] [] He Hv) as G. cbv zeta in G. rewrite G.
    + rewrite Hga. fold f. cbn [app].
      unfold f'. rewrite v4_finished_proto. replace (vf_src (v4_put f (V4SetProtocol IP_Udp))) with (vf_src f) by (destruct f; reflexivity).
      replace (vf_dst (v4_put f (V4SetProtocol IP_Udp))) with (vf_dst f) by (destruct f; reflexivity). reflexivity.
    + apply Forall_app. split; [exact Hu|]. constructor; [exact Hqb|constructor].
    + left. unfold udp_payloads in *. rewrite flat_map_app, Hpu. reflexivity.
    + exact dynamic_sized.
    + exact I.
    + left. reflexivity.
    + rewrite !len_nil. lia.
  - rewrite len_v4_wire. reflexivity.
  - unfold scattered. cbn [b_buffer buf_length]. rewrite len_udp_wire. lia.
  - rewrite scattered_inner by (exact Hne || (rewrite len_dropN, len_udp_wire; lia)). rewrite len_udp_wire. reflexivity.
  - exact Hcl.
  - exact Hb'.
  - exact Hgok.
  - exact Hqb.
  - lia.
Qed.
(** C41: the same for TCP. The build fails with SmallBuffer or panics
    unless the slice has room for nearly twice the payload; then it yields what
    a vector yields for *another* payload, the memory found behind the header. *)
Lemma c41_tcp_payload : forall E eth vs us p s,
  eth_ok eth -> Forall v4_arg_ok vs -> Forall tcp_op_ok us -> flags_last (tcp_setters us) -> tcp_payloads us = [] ->
  is_bytes p -> p <> [] -> is_bytes s -> len s <= ISIZE_MAX ->
  let room := v4_room eth + 20 in
  tcp_chain E eth vs (us ++ [TcpPayload p]) (slice_new s) =
  if len s <? room + 1 then Err SmallBuffer
  else if len s <? room + 19 + 2 * len p then Panic
  else tcp_chain E eth vs (us ++ [TcpPayload (takeN (len p) (scatter (dropN room s) 20 p))]) dynamic_new.
Proof.
  intros E eth vs us p s He Hv Hu Hfl Hpu Hpb Hne Hsb Hs room. pose proof isize_1000 as Hi. pose proof (slice_sized s Hs) as Hz.
  assert (Hlp : 0 < len p) by (destruct p; [congruence|rewrite len_cons; lia]).
  assert (Hroom : room = eth_size eth + 40) by (unfold room; rewrite room_eth; lia).
  assert (Hsz : eth_size eth <= 14) by (destruct eth; cbn; lia).
  destruct (N.ltb_spec (len s) room) as [Hr|Hr].
  { destruct (len s <? room + 1) eqn:H1; [|lia]. apply (c41_small E eth vs None s); assumption || exact I. }
  rewrite slice_mk.
  destruct (v4_layer_ok E eth vs (Some s) [] [] He Hv Hz ltac:(cbn [fits]; lia) ltac:(rewrite len_nil; lia)) as (a & fs & H1 & H2).
  unfold tcp_chain at 1. rewrite H1. cbn [bind]. pose proof (v4_after_building vs Hv) as Hb. set (f := v4_after vs) in *.
  pose proof H2 as Hcl. destruct H2 as [H2l _]. cbn [app] in H2l, Hcl. rewrite len_ether_layer in H2l.
  assert (Hs1 : sized (use (Some s) (eth_size eth + 20)) a (v4_wire f)).
  { eapply sized_after; [exact Hz|cbn [fits]; lia|rewrite len_v4_wire, !len_nil; lia|rewrite len_v4_wire; lia]. }
  set (f' := v4_put f (V4SetProtocol IP_Tcp)).
  assert (Hb' : v4_building f') by (apply v4_put_building; [exact Hb|split; [reflexivity|exact I]]).
  unfold v4_tcp. erewrite v4_sub_ok; [|exact Hb|reflexivity|exact Hs1|
    apply tcp_with_ok; [eapply sized_same; [exact Hs1|reflexivity]|apply fits_use; cbn [fits]; lia|rewrite len_v4_wire; lia]].
  fold f'. rewrite use_use. replace (eth_size eth + 20 + 20) with room by lia. cbn [bind].
  fold tcp_zero.
  destruct (tcp_fold us tcp_zero tcp_zero_building eq_refl Hu Hfl) as (Ho & Hg1 & Hg2 & Hg3). cbv zeta in *. fold (tcp_after us) in Hg1, Hg2, Hg3.
  assert (Hsr : forall g, sized (use (Some s) room) (a ++ v4_wire f') (tcp_wire g)).
  { intros g. eapply sized_after; [exact Hz|exact Hr|rewrite len_app, len_v4_wire, len_tcp_wire, !len_nil; lia|rewrite len_app, len_v4_wire, len_tcp_wire; lia]. }
  rewrite run_app.
  pose proof (run_plain (tcp_run1 E) tcp_wire tcp_putop tcp_pay (fun _ => false) tcp_step_ok 20 len_tcp_wire
    (tcp_step E) us tcp_zero (use (Some s) room) (a ++ v4_wire f') [] (fs ++ [v4_finalizer E (len a) 20]) (len a, len (v4_wire f')) false false 0 Ho Hpu ltac:(constructor)) as R.
  rewrite !app_nil_r in R. rewrite R by apply Hsr. clear R. rewrite existsb_false, orb_false_r.
  set (g := tcp_after us) in *. set (ga := fold_left tcp_putop us tcp_zero) in *.
  assert (Hga : tcp_fields_ok ga /\ tf_checksum ga = tf_checksum g /\ forall o c, tcp_fill ga o c = tcp_fill g o c).
  { destruct Hg3 as [-> | ->]; [repeat split; apply Hg1|]. split; [apply tcp_fill_offset; [apply Hg1|lia|apply Hg1]|].
    split; [apply tcp_fill_checksum|]. intros. apply tcp_fill_fill. }
  destruct Hga as (Hga1 & Hga2 & Hga3). clearbody ga. clear Hg3.
  cbn [bind run tcp_run1 use option_map].
  rewrite slice_payload by (exact Hne || apply (Hsr ga) || (rewrite len_tcp_wire; lia)). rewrite len_dropN, len_tcp_wire.
  destruct (len s <? room + 1) eqn:C1; [destruct (len s - room <? 1) eqn:C2; [reflexivity|lia]|].
  destruct (len s - room <? 1) eqn:C2; [lia|].
  destruct (len s <? room + 19 + 2 * len p) eqn:C3; [destruct (len s - room <? 20 + 2 * len p - 1) eqn:C4; [reflexivity|lia]|].
  destruct (len s - room <? 20 + 2 * len p - 1) eqn:C4; [lia|]. cbn [bind].
  change (takeN (len p) (scatter (dropN room s) 20 p)) with (stale (dropN room s) 20 p). set (q := stale (dropN room s) 20 p).
  assert (Hlq : len q = len p) by (apply len_stale; [rewrite len_dropN; lia|exact Hlp]).
  assert (Hqb : is_bytes q) by (apply is_bytes_stale; [apply is_bytes_dropN, Hsb|exact Hpb]).
  assert (Hset : tcp_setters (us ++ [TcpPayload q]) = tcp_setters us).
  { unfold tcp_setters. rewrite flat_map_app. cbn [flat_map]. rewrite app_nil_r. reflexivity. }
  erewrite (tcp_build_ok E _ fs a _ f' ga g q); [|reflexivity|..].
  - change dynamic_new with (mkbuf None [] []).
    pose proof (tcp_chain_gen E eth vs (us ++ [TcpPayload q]) q None [] [] He Hv) as G. cbv zeta in G. rewrite G.
    + unfold tcp_after. rewrite Hset. fold (tcp_after us). fold g. fold f. cbn [app]. fold f'.
      destruct (tcp_checksum_of E (V4 (v4_wire f')) (tcp_wire (tcp_fill g 5 (tf_checksum g)) ++ q)); cbn [bind]; [|reflexivity|reflexivity].
      unfold f'. rewrite v4_finished_proto. reflexivity.
    + apply Forall_app. split; [exact Hu|]. constructor; [exact Hqb|constructor].
    + rewrite Hset. exact Hfl.
    + left. unfold tcp_payloads in *. rewrite flat_map_app, Hpu. reflexivity.
    + exact dynamic_sized.
    + exact I.
    + left. reflexivity.
    + rewrite !len_nil. lia.
  - rewrite len_v4_wire. reflexivity.
  - unfold scattered. cbn [b_payload_length]. lia.
  - unfold scattered. cbn [b_buffer buf_length]. rewrite len_tcp_wire. lia.
  - rewrite scattered_inner by (exact Hne || (rewrite len_dropN, len_tcp_wire; lia)). rewrite len_tcp_wire. reflexivity.
  - exact Hcl.
  - exact Hb'.
  - exact Hga1.
  - exact Hga2.
  - exact Hga3.
  - exact Hqb.
  - lia.
Qed.
Lemma echo_no_build E b out o l fs : b_fin b = fs -> buf_offset (b_buffer b) = o -> buf_length (b_buffer b) = l -> buf_into_inner (b_buffer b) = Ok out ->
  len out < o + l -> o + l <= ISIZE_MAX -> icmp_kind_build E b = Panic \/ icmp_kind_build E b = Err InvalidPacket /\ b_kind b = false.
Proof.
  intros Hf Ho Hl Hi Hout Hb. unfold icmp_kind_build. destruct (b_kind b); [|right; split; reflexivity]. left. cbn [negb].
  pose proof isize_usize as Hu.
  unfold finish, icmp_prepare, with_fin. cbn [b_buffer b_fin]. rewrite Hi. cbn [bind]. unfold fin_add. rewrite fin_last, Ho, Hl.
  unfold icmp_finalizer, mlet. rewrite usize_add_ok by lia. cbn [bind]. unfold slice. destruct ((o <=? o + l) && (o + l <=? len out))%bool eqn:C; [lia|]. reflexivity.
Qed.
(** C41: an echo message with a payload cannot be built on a slice at all. *)
Lemma c41_echo_payload : forall E outer ops p s,
  outer_ok outer -> Forall echo_op_ok ops -> echo_payloads ops = [] -> echo_kind_given ops ->
  is_bytes p -> p <> [] -> len s <= ISIZE_MAX ->
  echo_chain E outer (ops ++ [EchoPayload p]) (slice_new s) =
  if len s <? outer_room outer + 9 then Err SmallBuffer else Panic.
Proof.
  intros E outer ops p s Hout Hops Hpo Hk Hpb Hne Hs. pose proof isize_1000 as Hi. pose proof (slice_sized s Hs) as Hz.
  assert (Hlp : 0 < len p) by (destruct p; [congruence|rewrite len_cons; lia]).
  destruct (N.ltb_spec (len s) (outer_room outer + 8)) as [Hr|Hr].
  { destruct (len s <? outer_room outer + 9) eqn:H1; [|lia]. eapply (c41_small E None [] outer s); (assumption || exact I || constructor). }
  rewrite room_outer in *. assert (Hoz : outer_size outer <= 34) by (destruct outer as [[[] ]|]; cbn; lia). rewrite slice_mk.
  destruct (icmp_layer_ok E outer (Some s) [] [] Hout Hz ltac:(cbn [fits]; lia) ltac:(rewrite len_nil; lia)) as (a & c & fs & H1 & H2 & H3).
  unfold echo_chain. rewrite H1. cbn [bind]. rewrite !len_nil in H2.
  assert (Hs1 : sized (use (Some s) (outer_size outer)) a c).
  { eapply sized_after; [exact Hz|cbn [fits]; lia|rewrite !len_nil; lia|lia]. }
  unfold icmp_echo. rewrite (icmp_next E _ 8) by ((intros; reflexivity) || assumption || (apply fits_use; exact Hr) || lia).
  cbn [bind]. rewrite use_use. change (zeros 8) with (ident_of (0, 0, 0)).
  assert (Hok : oks echo_put (fun _ _ => True) (0, 0, 0) ops) by (generalize ((0, 0, 0) : N * N * N); clear; induction ops; intros z; cbn [oks]; auto).
  assert (Hsr : forall g, sized (use (Some s) (outer_size outer + 8)) (a ++ c) (ident_of g)).
  { intros g. eapply sized_after; [exact Hz|exact Hr|rewrite len_app, len_ident_of, !len_nil; lia|rewrite len_app, len_ident_of; lia]. }
  rewrite run_app.
  pose proof (run_plain (echo_run1 E) ident_of echo_put echo_pay echo_kindof (fun _ _ => True) 8 len_ident_of
    (echo_step E) ops (0, 0, 0) (use (Some s) (outer_size outer + 8)) (a ++ c) [] fs (0, 0) false false 0 Hok Hpo ltac:(constructor)) as R.
  rewrite !app_nil_r in R. rewrite R by apply Hsr. clear R. set (g := fold_left echo_put ops (0, 0, 0)).
  apply echo_kind_iff in Hk. rewrite Hk. cbn [orb]. cbn [bind run echo_run1 use option_map].
  rewrite slice_payload by (exact Hne || apply (Hsr g) || (rewrite len_ident_of; lia)). rewrite len_dropN, len_ident_of.
  destruct (len s <? outer_size outer + 9) eqn:C1; [destruct (len s - (outer_size outer + 8) <? 1) eqn:C2; [reflexivity|lia]|].
  destruct (len s - (outer_size outer + 8) <? 1) eqn:C2; [lia|].
  destruct (len s - (outer_size outer + 8) <? 8 + 2 * len p - 1) eqn:C4; [reflexivity|]. cbn [bind]. unfold echo_build.
  set (b := scattered _ _ _ _ _ _ _ _).
  assert (HI : len (dropN (outer_size outer + 8) s) = len s - (outer_size outer + 8)) by apply len_dropN.
  destruct (echo_no_build E b ((a ++ c) ++ ident_of g ++ stale (dropN (outer_size outer + 8) s) 8 p) (len (a ++ c) + 8 + len p - 1) (8 + len p) _ eq_refl) as [HP|[_ HP]];
    [rewrite <- (len_ident_of g); reflexivity|rewrite <- (len_ident_of g); reflexivity| | | |exact HP|discriminate HP].
  - unfold b. rewrite scattered_inner by (exact Hne || (rewrite len_ident_of; lia)). rewrite len_ident_of. reflexivity.
  - rewrite !len_app, len_ident_of, len_stale by lia. lia.
  - rewrite len_app. lia.
Qed.
(** C41: nor can an IPv4 packet with its own payload. *)
Lemma c41_v4_payload : forall E eth vs p s,
  eth_ok eth -> Forall v4_arg_ok vs -> is_bytes p -> p <> [] -> len s <= ISIZE_MAX ->
  v4_chain E eth (map V4Set vs ++ [V4Payload p]) (slice_new s) =
  if len s <? v4_room eth + 1 then Err SmallBuffer else Panic.
Proof.
  intros E eth vs p s He Hv Hpb Hne Hs. pose proof isize_1000 as Hi. pose proof isize_usize as Hu. pose proof (slice_sized s Hs) as Hz.
  assert (Hlp : 0 < len p) by (destruct p; [congruence|rewrite len_cons; lia]).
  assert (Hsz : eth_size eth <= 14) by (destruct eth; cbn; lia).
  destruct (N.ltb_spec (len s) (v4_room eth)) as [Hr|Hr].
  { destruct (len s <? v4_room eth + 1) eqn:H1; [|lia]. eapply (c41_small E eth vs None s); (assumption || exact I). }
  rewrite room_eth in *. rewrite slice_mk.
  destruct (v4_layer_ok E eth vs (Some s) [] [] He Hv Hz ltac:(cbn [fits]; lia) ltac:(rewrite len_nil; lia)) as (a & fs & H1 & H2).
  unfold v4_layer in H1. unfold v4_chain. destruct (start_v4 E eth (mkbuf (Some s) [] [])) as [b|e|]; [|discriminate H1|discriminate H1].
  cbn [bind] in H1 |- *. rewrite run_app, H1. cbn [bind run v4_run1]. destruct H2 as [H2 _]. cbn [app] in H2. rewrite len_ether_layer in H2.
  pose proof (v4_after_building vs Hv) as Hb. set (f := v4_after vs) in *.
  assert (Hs1 : sized (use (Some s) (eth_size eth + 20)) a (v4_wire f)).
  { eapply sized_after; [exact Hz|cbn [fits]; lia|rewrite len_v4_wire, !len_nil; lia|rewrite len_v4_wire; lia]. }
  cbn [use option_map] in *.
  rewrite slice_payload by (exact Hne || exact Hs1 || (rewrite len_v4_wire; lia)). rewrite len_dropN, len_v4_wire.
  destruct (len s <? eth_size eth + 20 + 1) eqn:C1; [destruct (len s - (eth_size eth + 20) <? 1) eqn:C2; [reflexivity|lia]|].
  destruct (len s - (eth_size eth + 20) <? 1) eqn:C2; [lia|].
  destruct (len s - (eth_size eth + 20) <? 20 + 2 * len p - 1) eqn:C4; [reflexivity|]. cbn [bind]. 
  unfold v4_build, v4_prepare, finish, with_fin. cbn [b_buffer b_fin].
  rewrite scattered_inner by (exact Hne || (rewrite len_dropN, len_v4_wire; lia)). cbn [bind]. unfold fin_add. rewrite fin_last, len_v4_wire.
  set (q := stale _ 20 p). assert (Hlq : len q = len p) by (apply len_stale; [rewrite len_dropN; lia|exact Hlp]).
  unfold scattered. cbn [b_buffer buf_offset buf_length b_fin]. rewrite len_v4_wire.
  set (o := len a + 20 + len p - 1). set (out := a ++ v4_wire f ++ q). assert (Hlo : len out = o + 1) by (unfold out, o; rewrite !len_app, len_v4_wire; lia).
  unfold v4_finalizer. cbv zeta. unfold mseq at 1. rewrite alter_set by lia.
  assert (Hla : forall v, len (alter out o v) = o + 1) by (intros v; rewrite len_alter by lia; exact Hlo).
  unfold mseq at 1, mlet at 1. rewrite usize_add_ok by lia. cbn [bind]. rewrite Hla.
  unfold usize_sub. destruct (o + (20 + len p) <=? o + 1) eqn:C; [lia|].
  destruct (overflow_checks E) eqn:HE; [reflexivity|]. cbn [bind].
  destruct (usize_add E (20 + len p) (o + 1 + USIZE - (o + (20 + len p)))) as [total|e|] eqn:HT; cbn [bind].
  - rewrite usize_add_ok by lia. cbn [bind fst snd]. unfold write_u16 at 1, cursor_write. rewrite Hla. destruct (o + 2 <=? o + 1) eqn:C5; [lia|]. reflexivity.
  - exfalso. clear - HT HE. unfold usize_add in HT. rewrite HE in HT. destruct (_ <? _) in HT; discriminate HT.
  - reflexivity.
Qed.
(** ** What lies behind the packet stays *)
Definition rest_kept (s : bytes) (buf : buffer) : Prop :=
  exists inner o l u, buf = Slice inner o l u /\ o + l <= u /\ u <= len inner /\ len inner = len s /\ dropN u inner = dropN u s.
Lemma kl_copy i j bs : keeps_len (copy_range i j bs).
Proof.
  intros b. unfold copy_range. destruct ((i <=? j) && (j <=? len b) && (j - i =? len bs))%bool eqn:C; [|reflexivity].
  cbn [fst]. rewrite !len_app, len_takeN, len_dropN. lia.
Qed.
Lemma kl_v4 s : keeps_len (v4_apply s).
Proof.
  assert (Hsp : forall b h r, v4_split b = Ok (h, r) -> len h <= len b).
  { intros b h r. unfold v4_split. destruct (v4_ihl b) as [n| |]; cbn [bind]; try discriminate.
    destruct (v4_payload_size b) as [m| |]; cbn [bind]; try discriminate.
    destruct (len b <? n * 4 + m); cbn [bind]; [apply split_at_le|]. unfold slice_to. destruct (n * 4 + m <=? len b); cbn [bind]; try discriminate.
    intros H. apply split_at_le in H. rewrite len_takeN in H. lia. }
  destruct s; cbn [v4_apply].
  - unfold v4_set_dscp. destruct (63 <? _); [intros b; reflexivity|]. apply kl_mlet. intros. apply kl_set_index.
  - unfold v4_set_ecn. destruct (3 <? _); [intros b; reflexivity|]. apply kl_mlet. intros. apply kl_set_index.
  - apply kl_cursor.
  - apply kl_header; [exact Hsp|apply kl_cursor].
  - apply kl_header; [exact Hsp|apply kl_cursor].
  - apply kl_header; [exact Hsp|apply kl_set_index].
  - apply kl_header; [exact Hsp|apply kl_copy].
  - apply kl_header; [exact Hsp|apply kl_copy].
  - apply kl_header; [exact Hsp|apply kl_set_index].
Qed.
Lemma rk_data E f s buf buf' : keeps_len f -> len s <= ISIZE_MAX -> rest_kept s buf -> buf_data_mut E f buf = (buf', Ok tt) -> rest_kept s buf'.
Proof.
  intros Hf Hs (inner & o & l & u & -> & H1 & H2 & H3 & H4). pose proof isize_usize as Hiu. unfold buf_data_mut. rewrite usize_add_ok by lia. unfold range_mut.
  destruct ((o <=? o + l) && (o + l <=? len inner))%bool eqn:C; [|discriminate]. replace (o + l - o) with l by lia.
  pose proof (Hf (takeN l (dropN o inner))) as Hl. destruct (f (takeN l (dropN o inner))) as [m r]. cbn [fst] in Hl. rewrite len_takeN, len_dropN in Hl.
  intros H. assert (buf' = Slice (takeN o inner ++ m ++ dropN (o + l) inner) o l u) as -> by congruence. clear H.
  exists (takeN o inner ++ m ++ dropN (o + l) inner), o, l, u. split; [reflexivity|].
  assert (Hlen : len (takeN o inner ++ m ++ dropN (o + l) inner) = len inner) by (rewrite !len_app, len_takeN, len_dropN; lia).
  repeat split; try lia. rewrite <- H4. rewrite dropN_app2 by (rewrite len_takeN; lia). rewrite dropN_app2 by (rewrite len_takeN; lia).
  rewrite dropN_dropN, len_takeN. f_equal. lia.
Qed.
Lemma rk_edit E f s b b' : keeps_len f -> len s <= ISIZE_MAX -> rest_kept s (b_buffer b) -> edit E f b = Ok b' -> rest_kept s (b_buffer b').
Proof.
  intros Hf Hs Hb. unfold edit. destruct (buf_data_mut E f (b_buffer b)) as [buf' [[]|e|]] eqn:H; cbn [try_buf bind]; try discriminate.
  intros HH. injection HH as <-. cbn [with_buffer b_buffer]. eapply rk_data; eassumption.
Qed.
Lemma rk_next E n s buf buf' : n <= ISIZE_MAX -> len s <= ISIZE_MAX -> rest_kept s buf -> try_buf (buf_next E n buf) = Ok buf' -> rest_kept s buf'.
Proof.
  intros Hn Hs (inner & o & l & u & -> & H1 & H2 & H3 & H4). pose proof isize_usize as Hiu. unfold buf_next. rewrite usize_add_ok by lia.
  destruct (len inner <? u + n) eqn:C; [discriminate|]. 
  destruct (buf_data_mut E zero_all (Slice inner u n (u + n))) as [b2 [[]|e|]] eqn:H0; cbn [try_buf]; try discriminate.
  intros HH. injection HH as <-. eapply (rk_data E zero_all s); [apply kl_zero_all|exact Hs| |exact H0].
  exists inner, u, n, (u + n). repeat split; try lia. transitivity (dropN n (dropN u inner)); [rewrite dropN_dropN; f_equal; lia|]. rewrite H4, dropN_dropN. reflexivity.
Qed.
Lemma rk_fresh_next E n s buf ip b : n <= 1000 -> len s <= ISIZE_MAX -> rest_kept s buf ->
  (let* x := try_buf (buf_next E n buf) in Ok (fresh x ip)) = Ok b -> rest_kept s (b_buffer b).
Proof.
  intros Hn Hs Hb. pose proof isize_1000. destruct (try_buf (buf_next E n buf)) as [x| |] eqn:H1; cbn [bind]; try discriminate. intros HH. injection HH as <-.
  eapply rk_next; [|exact Hs|exact Hb|exact H1]. lia.
Qed.
Lemma rk_fresh_next_edit E n f s buf ip b : keeps_len f -> n <= 1000 -> len s <= ISIZE_MAX -> rest_kept s buf ->
  (let* x := try_buf (buf_next E n buf) in let* y := try_buf (buf_data_mut E f x) in Ok (fresh y ip)) = Ok b -> rest_kept s (b_buffer b).
Proof.
  intros Hf Hn Hs Hb. pose proof isize_1000. destruct (try_buf (buf_next E n buf)) as [x| |] eqn:H1; cbn [bind]; try discriminate.
  destruct (buf_data_mut E f x) as [y [[]|e|]] eqn:H2; cbn [try_buf bind]; try discriminate. intros HH. injection HH as <-.
  eapply rk_data; [exact Hf|exact Hs| |exact H2]. eapply rk_next; [|exact Hs|exact Hb|exact H1]. lia.
Qed.
Lemma rk_sub s mk b b' : (forall buf c, rest_kept s buf -> mk buf = Ok c -> rest_kept s (b_buffer c)) -> rest_kept s (b_buffer b) -> sub mk b = Ok b' -> rest_kept s (b_buffer b').
Proof.
  intros Hm Hb. unfold sub. destruct (mk (b_buffer b)) as [c| |] eqn:H; cbn [bind]; try discriminate. intros HH. injection HH as <-.
  cbn [with_fin b_buffer]. eapply Hm; eassumption.
Qed.
Lemma rk_v4_sub E proto mk s b b' : len s <= ISIZE_MAX -> (forall buf c, rest_kept s buf -> mk buf = Ok c -> rest_kept s (b_buffer c)) ->
  rest_kept s (b_buffer b) -> v4_sub E proto mk b = Ok b' -> rest_kept s (b_buffer b').
Proof.
  intros Hs Hm Hb. unfold v4_sub. destruct (b_payload b); [discriminate|].
  destruct (edit E (v4_set_protocol proto) b) as [b1| |] eqn:H; cbn [bind]; try discriminate. apply rk_sub; [exact Hm|].
  cbn [v4_prepare with_fin b_buffer]. eapply rk_edit; [apply (kl_v4 (V4SetProtocol proto))|exact Hs|exact Hb|exact H].
Qed.
Lemma obtained_rest_kept E s b : len s <= ISIZE_MAX -> obtained E (slice_new s) b -> rest_kept s (b_buffer b).
Proof.
  intros Hs Ho.
  assert (H0 : rest_kept s (slice_new s)).
  { exists s, 0, 0, 0. repeat split; lia. }
  assert (Huw : forall buf c, rest_kept s buf -> udp_with E buf = Ok c -> rest_kept s (b_buffer c)).
  { intros buf c Hb. apply rk_fresh_next; [discriminate|exact Hs|exact Hb]. }
  assert (Htw : forall buf c, rest_kept s buf -> tcp_with E buf = Ok c -> rest_kept s (b_buffer c)).
  { intros buf c Hb. apply rk_fresh_next_edit; [apply kl_set_index|discriminate|exact Hs|exact Hb]. }
  assert (Hvw : forall buf c, rest_kept s buf -> v4_with E buf = Ok c -> rest_kept s (b_buffer c)).
  { intros buf c Hb. apply rk_fresh_next_edit; [apply kl_set_index|discriminate|exact Hs|exact Hb]. }
  assert (Hiw : forall buf c, rest_kept s buf -> ip_with buf = Ok c -> rest_kept s (b_buffer c)).
  { intros buf c Hb H. injection H as <-. exact Hb. }
  assert (Hnw : forall n, n <= 1000 -> forall buf c, rest_kept s buf -> (let* x := try_buf (buf_next E n buf) in Ok (fresh x (0, 0))) = Ok c -> rest_kept s (b_buffer c)).
  { intros n Hn buf c Hb. apply rk_fresh_next; assumption. }
  induction Ho as [b H|b H|b H|b H|b H|b H|b H|b H|b H|o b b' _ IH Hp H|o b b' _ IH Hp H|o b b' _ IH Hp H|o b b' _ IH Hp H|o b b' _ IH Hp H|o b b' _ IH H|o b b' _ IH H
    |b b' _ IH H|b b' _ IH H|b b' _ IH H|b b' _ IH H|b b' _ IH H|b b' _ IH H|b b' _ IH H|b b' _ IH H|b b' _ IH H].
  - revert H. apply (Hnw 14); [discriminate|exact H0].
  - eapply Hvw; eassumption.
  - eapply Huw; eassumption.
  - eapply Htw; eassumption.
  - eapply Hiw; eassumption.
  - eapply Hiw; eassumption.
  - revert H. apply (Hnw 8); [discriminate|exact H0].
  - revert H. apply (Hnw 8); [discriminate|exact H0].
  - revert H. apply (Hnw 20); [discriminate|exact H0].
  - destruct o; try discriminate Hp; (eapply rk_edit; [|exact Hs|exact IH|exact H]); first [apply kl_copy|apply kl_cursor].
  - destruct o; try discriminate Hp; (eapply rk_edit; [|exact Hs|exact IH|exact H]); apply kl_v4.
  - destruct o; try discriminate Hp; (eapply rk_edit; [|exact Hs|exact IH|exact H]); apply kl_udp.
  - destruct o; try discriminate Hp; (eapply rk_edit; [|exact Hs|exact IH|exact H]); apply kl_tcp.
  - destruct o; try discriminate Hp; cbn [echo_run1] in H; (eapply rk_edit; [|exact Hs| |exact H]); first [apply kl_set_index|apply kl_cursor|exact IH].
  - destruct o; cbn [information_run1] in H; (eapply rk_edit; [|exact Hs| |exact H]); first [apply kl_set_index|apply kl_cursor|exact IH].
  - destruct o; cbn [timestamp_run1] in H; (eapply rk_edit; [|exact Hs| |exact H]); first [apply kl_set_index|apply kl_cursor|exact IH].
  - unfold ether_ip in H. destruct (b_payload b); [discriminate H|]. eapply rk_sub; [exact Hiw| |exact H]. exact IH.
  - eapply rk_sub; [exact Hvw|exact IH|exact H].
  - eapply rk_sub; [exact Hiw|exact IH|exact H].
  - eapply rk_v4_sub; [exact Hs|exact Huw|exact IH|exact H].
  - eapply rk_v4_sub; [exact Hs|exact Htw|exact IH|exact H].
  - eapply rk_v4_sub; [exact Hs|exact Hiw|exact IH|exact H].
  - eapply rk_sub; [apply (Hnw 8); discriminate|exact IH|exact H].
  - eapply rk_sub; [apply (Hnw 8); discriminate|exact IH|exact H].
  - eapply rk_sub; [apply (Hnw 20); discriminate|exact IH|exact H].
Qed.
(** C41: whatever payload-free calls are made on a builder over a slice, the
    slice behind the packet holds what it held, and [build] is given only the
    bytes of the packet. *)
Lemma c41_untouched : forall E s b, len s <= ISIZE_MAX -> obtained E (slice_new s) b ->
  exists inner o l used, b_buffer b = Slice inner o l used /\ used <= len s /\ len inner = len s /\
    dropN used inner = dropN used s /\ buf_into_inner (b_buffer b) = Ok (takeN used inner).
Proof.
  intros E s b Hs Ho. destruct (obtained_rest_kept E s b Hs Ho) as (inner & o & l & u & Hb & H1 & H2 & H3 & H4).
  exists inner, o, l, u. repeat split; try assumption; try lia. rewrite Hb. cbn [buf_into_inner]. rewrite slice_ok by lia.
  rewrite N.sub_0_r. reflexivity.
Qed.
(** C41: a UDP packet in a slice, with and without a payload. *)
Example c41_example : forall E,
  let s := repeat 170 60 in
  udp_chain E None [V4SetTtl 64] [UdpSet (UdpSetSource 7)] (slice_new s) = udp_chain E None [V4SetTtl 64] [UdpSet (UdpSetSource 7)] dynamic_new /\
  udp_chain E None [V4SetTtl 64] [UdpSet (UdpSetSource 7)] (slice_new (repeat 170 27)) = Err SmallBuffer /\
  (exists out, udp_chain E None [] [UdpPayload [1; 2; 3; 4]] (slice_new s) = Ok out /\ dropN 28 out = [170; 170; 170; 170]) /\
  udp_chain E None [] [UdpPayload [1; 2; 3; 4]] (slice_new (repeat 170 40)) = Panic /\
  ether_chain E [EtherPayload [1; 2; 3; 4]] (slice_new (repeat 170 40)) = Ok (zeros 14 ++ [170; 170; 170; 170]) /\
  echo_chain E None [EchoRequest; EchoPayload [1; 2]] (slice_new s) = Panic /\
  v4_chain E None [V4Payload [1; 2]] (slice_new s) = Panic.
Proof. intros E. repeat split; try (destruct E as [[] [] []]; vm_compute; reflexivity). eexists. split; destruct E as [[] [] []]; vm_compute; reflexivity. Qed.
