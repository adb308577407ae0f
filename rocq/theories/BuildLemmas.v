(** * BuildLemmas: builders on either kind of buffer; each setter on a header
    laid out as in Spec.v; finalizers. *)
From Verif Require Import Base Enums Buffer Ether Ipv4 Ip Udp Tcp Icmp Builders Spec SpecCalls SpecBuild
  Lemmas ParseProofs SliceProofs AccessProofs FieldProofs ChecksumLemmas ChecksumProofs GuardProofs BufferProofs.
From Coq Require Import ZifyBool ZifyNat ZifyN.
Ltac Zify.zify_post_hook ::= Z.div_mod_to_equations.

(** ** A buffer with earlier layers [pre] and current layer [cur]: Dynamic, or
    Slice with free memory [rest]. *)
Definition mkbuf (r : option bytes) (pre cur : bytes) : buffer :=
  match r with None => dyn pre cur | Some rest => sli (pre, cur, rest) end.
Definition free (r : option bytes) : N := match r with None => 0 | Some rest => len rest end.
Definition fits (r : option bytes) (n : N) : Prop := match r with None => True | Some rest => n <= len rest end.
Definition use (r : option bytes) (n : N) : option bytes := option_map (dropN n) r.
Definition sized {E : env} (r : option bytes) (pre cur : bytes) : Prop := len pre + len cur + free r <= ISIZE_MAX.
Lemma free_use r n : fits r n -> free (use r n) + match r with None => 0 | _ => n end = free r.
Proof. destruct r; cbn [fits use option_map free]; [|reflexivity]. intros H. autorewrite with len. lia. Qed.

Lemma mk_offset r pre cur : buf_offset (mkbuf r pre cur) = len pre.
Proof. destruct r; reflexivity. Qed.
Lemma mk_length r pre cur : buf_length (mkbuf r pre cur) = len cur.
Proof. destruct r; reflexivity. Qed.
Lemma mk_inner r pre cur : buf_into_inner (mkbuf r pre cur) = Ok (pre ++ cur).
Proof.
  destruct r as [rest|]; [|reflexivity]. cbn [mkbuf sli buf_into_inner].
  rewrite app_assoc. apply (slice_mid [] (pre ++ cur) rest); [reflexivity|]. rewrite len_app, len_nil. lia.
Qed.
Lemma mk_data E r pre cur : sized r pre cur -> buf_data E (mkbuf r pre cur) = Ok cur.
Proof.
  intros H. unfold sized in H. destruct r as [rest|]; cbn [free mkbuf] in *.
  - apply (sli_shows E pre cur rest). unfold room. lia.
  - apply (dyn_shows E pre cur). lia.
Qed.
Lemma mk_edit E r pre cur f cur' x : sized r pre cur -> f cur = (cur', x) -> len cur' = len cur ->
  buf_data_mut E f (mkbuf r pre cur) = (mkbuf r pre cur', x).
Proof.
  intros H Hf Hl. unfold sized in H. destruct r as [rest|]; cbn [free mkbuf] in *.
  - pose proof isize_lt_usize. unfold sli, buf_data_mut. rewrite usize_add_ok by lia.
    rewrite (range_mut_mid pre cur rest f cur' x) by (reflexivity || exact Hf). rewrite Hl. reflexivity.
  - apply dyn_edit; (lia || assumption).
Qed.
Lemma mk_next E r pre cur n : sized r pre cur -> fits r n -> len pre + len cur + n <= ISIZE_MAX ->
  buf_next E n (mkbuf r pre cur) = (mkbuf (use r n) (pre ++ cur) (zeros n), Ok tt).
Proof.
  intros H Hn Hs. unfold sized in H. destruct r as [rest|]; cbn [free mkbuf use option_map fits] in *.
  - pose proof isize_lt_usize. unfold sli at 1, buf_next. rewrite usize_add_ok by lia. rewrite !len_app.
    destruct (N.ltb_spec (len pre + (len cur + len rest)) (len pre + len cur + n)); [lia|].
    unfold buf_data_mut. rewrite usize_add_ok by lia.
    replace (pre ++ cur ++ rest) with ((pre ++ cur) ++ takeN n rest ++ dropN n rest) by (rewrite takeN_dropN, app_assoc; reflexivity).
    rewrite (range_mut_mid (pre ++ cur) (takeN n rest) (dropN n rest) zero_all (zeros n) (Ok tt));
      [|rewrite len_app; lia|rewrite len_app, len_takeN; lia|unfold zero_all; rewrite len_takeN; do 2 f_equal; lia].
    unfold sli. rewrite len_app, len_zeros. reflexivity.
  - apply dyn_next. lia.
Qed.
Lemma mk_next_small E rest pre cur n : sized (Some rest) pre cur -> len rest < n -> n <= ISIZE_MAX ->
  buf_next E n (mkbuf (Some rest) pre cur) = (mkbuf (Some rest) pre cur, Err SmallBuffer).
Proof.
  intros H Hn Hs. unfold sized in H. cbn [free] in H. pose proof isize_double.
  unfold mkbuf, sli, buf_next. rewrite usize_add_ok by lia. rewrite !len_app.
  destruct (N.ltb_spec (len pre + (len cur + len rest)) (len pre + len cur + n)); [reflexivity|lia].
Qed.
Lemma sized_use {E : env} r pre cur n : sized r pre cur -> fits r n -> len pre + len cur + n <= ISIZE_MAX ->
  sized (use r n) (pre ++ cur) (zeros n).
Proof.
  unfold sized. intros H Hf Hs. pose proof (free_use r n Hf). rewrite len_app, len_zeros. destruct r; cbn [free use option_map] in *; lia.
Qed.
Lemma sized_same {E : env} r pre cur cur' : sized r pre cur -> len cur' = len cur -> sized r pre cur'.
Proof. unfold sized. intros H Q. rewrite Q. exact H. Qed.
(** Growing by [n]: on a Slice only by nothing. *)
Lemma sized_grow {E : env} pre cur' : len pre + len cur' <= ISIZE_MAX -> sized None pre cur'.
Proof. unfold sized. cbn [free]. lia. Qed.

(** ** Setters and payloads on a builder *)
Definition B r pre cur fin ip k pl n : builder := Build_builder (mkbuf r pre cur) fin ip k pl n.
Lemma edit_ok E r pre cur f cur' fin ip k pl n : sized r pre cur -> f cur = (cur', Ok tt) -> len cur' = len cur ->
  edit E f (B r pre cur fin ip k pl n) = Ok (B r pre cur' fin ip k pl n).
Proof. intros H Hf Hl. unfold edit, B. cbn [b_buffer]. rewrite (mk_edit E r pre cur f cur' (Ok tt)) by assumption. reflexivity. Qed.
Lemma edit_err E r pre cur f cur' e fin ip k pl n : sized r pre cur -> f cur = (cur', Err e) -> len cur' = len cur ->
  edit E f (B r pre cur fin ip k pl n) = Err e.
Proof. intros H Hf Hl. unfold edit, B. cbn [b_buffer]. rewrite (mk_edit E r pre cur f cur' (Err e)) by assumption. reflexivity. Qed.
Lemma edit_panic E r pre cur f cur' fin ip k pl n : sized r pre cur -> f cur = (cur', Panic) -> len cur' = len cur ->
  edit E f (B r pre cur fin ip k pl n) = Panic.
Proof. intros H Hf Hl. unfold edit, B. cbn [b_buffer]. rewrite (mk_edit E r pre cur f cur' Panic) by assumption. reflexivity. Qed.

Lemma set_last_ok cur x : set_last x (cur ++ [0]) = (cur ++ [x], Ok tt).
Proof.
  unfold set_last. rewrite len_app. change (len [0]) with 1. destruct (N.eqb_spec (len cur + 1) 0); [lia|].
  replace (len cur + 1 - 1) with (len cur) by lia. rewrite set_index_ok by (rewrite len_app; change (len [0]) with 1; lia).
  rewrite patch_app2 by lia. replace (len cur - len cur) with 0 by lia. reflexivity.
Qed.
Lemma payload_dyn E count p : forall pre cur fin ip k pl n,
  len pre + len cur + len p <= ISIZE_MAX -> n <= len cur ->
  payload_loop E count p (B None pre cur fin ip k pl n) =
  Ok (B None pre (cur ++ p) fin ip k pl (if count then n + len p else n)).
Proof.
  induction p as [|x p IH]; intros pre cur fin ip k pl n H Hn.
  - cbn [payload_loop]. rewrite app_nil_r, len_nil, N.add_0_r. destruct count; reflexivity.
  - rewrite len_cons in *. cbn [payload_loop]. change (b_buffer (B None pre cur fin ip k pl n)) with (dyn pre cur).
    rewrite dyn_more by lia. cbn [try_buf bind].
    change (with_buffer (B None pre cur fin ip k pl n) (dyn pre (cur ++ zeros 1))) with (B None pre (cur ++ [0]) fin ip k pl n).
    change (b_payload_length (B None pre (cur ++ [0]) fin ip k pl n)) with n. pose proof isize_lt_usize.
    assert (Hg : forall n', n' <= len cur + 1 ->
      (let* b3 := edit E (set_last x) (B None pre (cur ++ [0]) fin ip k pl n') in payload_loop E count p b3) =
      Ok (B None pre (cur ++ x :: p) fin ip k pl (if count then n' + len p else n'))).
    { intros n' Hn'. rewrite (edit_ok E None pre (cur ++ [0]) (set_last x) (cur ++ [x]));
        [|unfold sized; cbn [free]; rewrite len_app; change (len [0]) with 1; lia|apply set_last_ok|rewrite !len_app; reflexivity].
      cbn [bind]. rewrite IH by (rewrite ?len_app; change (len [x]) with 1; lia).
      rewrite <- app_assoc. reflexivity. }
    destruct count.
    + rewrite (usize_add_ok E n 1) by lia. cbn [bind].
      change (with_payload_length (B None pre (cur ++ [0]) fin ip k pl n) (n + 1)) with (B None pre (cur ++ [0]) fin ip k pl (n + 1)).
      rewrite Hg by lia. do 2 f_equal. lia.
    + cbn [bind]. rewrite Hg by lia. reflexivity.
Qed.
Lemma payload_nil E count b : payload_loop E count [] b = Ok b. Proof. reflexivity. Qed.
(** A payload call: anything on Dynamic, the empty payload on Slice. *)
Lemma add_payload_ok E e count p r pre cur fin ip k n :
  sized r pre cur -> len pre + len cur + len p <= ISIZE_MAX -> n <= len cur -> r = None \/ p = [] ->
  add_payload E e count p (B r pre cur fin ip k false n) =
  Ok (B r pre (cur ++ p) fin ip k true (if count then n + len p else n)).
Proof.
  intros Hz H Hn Hr. unfold add_payload, B at 1. cbn [b_payload].
  change (with_payload (B r pre cur fin ip k false n)) with (B r pre cur fin ip k true n).
  destruct Hr as [-> | ->].
  - apply payload_dyn; assumption.
  - cbn [payload_loop]. rewrite app_nil_r, len_nil, N.add_0_r. unfold B. destruct count; reflexivity.
Qed.
Lemma add_payload_again E e count p r pre cur fin ip k n :
  add_payload E e count p (B r pre cur fin ip k true n) = Err e.
Proof. reflexivity. Qed.

(** ** Runs of method calls *)
Section Run.
  Context {E : env} {A F : Type} (run1 : A -> builder -> res builder) (wire : F -> bytes) (put : F -> A -> F).
  Context (pay : A -> list bytes) (kindof : A -> bool) (ok : F -> A -> Prop) (count : bool) (W : N).
  Fixpoint oks (f : F) (ops : list A) : Prop :=
    match ops with [] => True | o :: ops' => ok f o /\ oks (put f o) ops' end.
  Hypothesis Hw : forall f, len (wire f) = W.
  Hypothesis step : forall f o r pre q fin ip k n,
    ok f o -> pay o = [] -> is_bytes q -> sized r pre (wire f ++ q) ->
    forall pl, run1 o (B r pre (wire f ++ q) fin ip k pl n) = Ok (B r pre (wire (put f o) ++ q) fin ip (k || kindof o) pl n).
  Hypothesis step_pay : forall f o r pre q fin ip k n p,
    ok f o -> pay o = [p] -> sized r pre (wire f ++ q) -> len pre + len (wire f ++ q) + len p <= ISIZE_MAX ->
    n <= len (wire f ++ q) -> r = None \/ p = [] ->
    run1 o (B r pre (wire f ++ q) fin ip k false n) =
    Ok (B r pre (wire (put f o) ++ q ++ p) fin ip (k || kindof o) true (if count then n + len p else n)).
  Hypothesis pay_one : forall o, pay o = [] \/ exists p, pay o = [p].

  (** No payload call. *)
  Lemma run_plain ops : forall f r pre q fin ip k pl n,
    oks f ops -> flat_map pay ops = [] -> is_bytes q -> sized r pre (wire f ++ q) ->
    run run1 ops (B r pre (wire f ++ q) fin ip k pl n) =
    Ok (B r pre (wire (fold_left put ops f) ++ q) fin ip (k || existsb kindof ops) pl n).
  Proof using Hw step.
    induction ops as [|o ops IH]; intros f r pre q fin ip k pl n Ho Hp Hq Hs.
    - cbn [run fold_left existsb]. rewrite orb_false_r. reflexivity.
    - cbn [oks] in Ho. destruct Ho as [Ho1 Ho2]. cbn [flat_map] in Hp. apply app_eq_nil in Hp. destruct Hp as [Hp1 Hp2].
      cbn [run fold_left existsb]. rewrite step by assumption. cbn [bind].
      rewrite IH; [rewrite orb_assoc; reflexivity|exact Ho2|exact Hp2|exact Hq|].
      eapply sized_same; [exact Hs|]. rewrite !len_app, !Hw. reflexivity.
  Qed.
  (** At most one payload call. *)
  Lemma run_one ops : forall f r pre fin ip k p,
    oks f ops -> one_payload (flat_map pay ops) p -> is_bytes p -> sized r pre (wire f) -> len pre + W + len p <= ISIZE_MAX ->
    r = None \/ p = [] ->
    exists pl, run run1 ops (B r pre (wire f) fin ip k false 0) =
    Ok (B r pre (wire (fold_left put ops f) ++ p) fin ip (k || existsb kindof ops) pl (if count then len p else 0)).
  Proof using Hw step step_pay pay_one.
    induction ops as [|o ops IH]; intros f r pre fin ip k p Ho Hp Hb Hs Hl Hr.
    - destruct Hp as [Hp|[_ ->]]; [discriminate|]. exists false. cbn [run fold_left existsb].
      rewrite orb_false_r, app_nil_r. destruct count; reflexivity.
    - cbn [oks] in Ho. destruct Ho as [Ho1 Ho2]. cbn [flat_map] in Hp. cbn [run fold_left existsb].
      destruct (pay_one o) as [Hp1|[p' Hp1]]; rewrite Hp1 in Hp.
      + pose proof (step f o r pre [] fin ip k 0 Ho1 Hp1) as S. rewrite !app_nil_r in S. rewrite S by (constructor || exact Hs). cbn [bind].
        destruct (IH (put f o) r pre fin ip (k || kindof o)%bool p) as [pl IH']; [exact Ho2|exact Hp|exact Hb| |exact Hl|exact Hr|].
        { eapply sized_same; [exact Hs|]. rewrite !Hw. reflexivity. }
        exists pl. rewrite IH', orb_assoc. reflexivity.
      + destruct Hp as [Hp|[Hp _]]; [|discriminate Hp]. change (([p'] ++ flat_map pay ops)) with (p' :: flat_map pay ops) in Hp.
        assert (p' = p) by congruence. assert (Hp2 : flat_map pay ops = []) by congruence. subst p'. clear Hp.
        pose proof (step_pay f o r pre [] fin ip k 0 p Ho1 Hp1) as S. rewrite !app_nil_r in S.
        rewrite S; [|exact Hs|rewrite Hw; exact Hl|lia|exact Hr]. cbn [bind app].
        rewrite run_plain; [|exact Ho2|exact Hp2|exact Hb|].
        * exists true. rewrite orb_assoc. destruct count; reflexivity.
        * destruct Hr as [-> | ->]; [apply sized_grow; rewrite len_app, Hw; lia|].
          rewrite app_nil_r. eapply sized_same; [exact Hs|]. rewrite !Hw. reflexivity.
  Qed.
End Run.

(** ** Each builder's calls on its header *)
Lemma len_ether_wire f : len (ether_wire f) = 14. Proof. reflexivity. Qed.
Lemma len_v4_wire f : len (v4_wire f) = 20. Proof. reflexivity. Qed.
Lemma len_udp_wire f : len (udp_wire f) = 8. Proof. reflexivity. Qed.
Lemma len_tcp_wire f : len (tcp_wire f) = 20. Proof. reflexivity. Qed.

Definition ether_pay (o : ether_op) : list bytes := match o with EtherPayload p => [p] | _ => [] end.
Lemma ether_step E f o r pre q fin ip k n :
  True -> ether_pay o = [] -> is_bytes q -> sized r pre (ether_wire f ++ q) ->
  forall pl, ether_run1 E o (B r pre (ether_wire f ++ q) fin ip k pl n) =
             Ok (B r pre (ether_wire (ether_put f o) ++ q) fin ip (k || false) pl n).
Proof.
  intros _ Hp _ Hs pl. rewrite orb_false_r.
  assert (Hl : 14 <= len (ether_wire f ++ q)) by (rewrite len_app, len_ether_wire; lia).
  destruct o as [v|v|v|p]; [| | |discriminate Hp]; cbn [ether_run1]; apply edit_ok; try exact Hs; try (rewrite !len_app; reflexivity).
  - unfold ether_set_destination. rewrite copy_range_ok by (reflexivity || lia). rewrite patch_app1 by (rewrite len_ether_wire; cbn; lia).
    destruct f as [[] [] t], v. reflexivity.
  - unfold ether_set_source. rewrite copy_range_ok by (reflexivity || lia). rewrite patch_app1 by (rewrite len_ether_wire; cbn; lia).
    destruct f as [[] [] t], v. reflexivity.
  - unfold ether_set_protocol. rewrite write_u16_ok by lia. rewrite patch_app1 by (rewrite len_ether_wire; cbn; lia).
    destruct f as [[] [] t]. reflexivity.
Qed.
Lemma ether_step_pay E f o r pre q fin ip k n p :
  True -> ether_pay o = [p] -> sized r pre (ether_wire f ++ q) -> len pre + len (ether_wire f ++ q) + len p <= ISIZE_MAX ->
  n <= len (ether_wire f ++ q) -> r = None \/ p = [] ->
  ether_run1 E o (B r pre (ether_wire f ++ q) fin ip k false n) =
  Ok (B r pre (ether_wire (ether_put f o) ++ q ++ p) fin ip (k || false) true (if false then n + len p else n)).
Proof.
  intros _ Hp Hs Hl Hn Hr. destruct o as [v|v|v|p']; try discriminate Hp. injection Hp as <-. cbn [ether_run1 ether_put].
  rewrite add_payload_ok by assumption. rewrite orb_false_r, <- app_assoc. reflexivity.
Qed.

(** IPv4 *)
Definition v4_building (f : v4_fields) : Prop := v4_fields_ok f /\ vf_version f = 4 /\ vf_ihl f = 5.
Definition v4_putop (f : v4_fields) (o : v4_op) : v4_fields := match o with V4Set s => v4_put f s | V4Payload _ => f end.
Definition v4_pay (o : v4_op) : list bytes := match o with V4Payload p => [p] | _ => [] end.
Lemma v4_building_new f q : v4_building f -> v4_no_payload (v4_wire f ++ q) = Ok (v4_wire f ++ q) /\ nthN (v4_wire f ++ q) 0 = 69.
Proof.
  intros (Hf & Hv & Hi). split.
  - apply (c09_v4 f q Hf Hv). lia.
  - change (nthN (v4_wire f ++ q) 0) with (vf_version f * 16 + vf_ihl f). rewrite Hv, Hi. reflexivity.
Qed.
Lemma flag_word v : u16 v ->
  bit (32768 <=? v) * 32768 + bit (16384 <=? v mod 32768) * 16384 + bit (8192 <=? v mod 16384) * 8192 + v mod 8192 = v.
Proof.
  unfold u16, bit. intros H. destruct (N.leb_spec 32768 v), (N.leb_spec 16384 (v mod 32768)), (N.leb_spec 8192 (v mod 16384)); lia.
Qed.
Lemma v4_put_building f s : v4_building f -> v4_arg_ok s -> v4_building (v4_put f s).
Proof.
  intros (Hf & Hv & Hi) [Hs1 Hs2]. destruct f as [ver ihl dscp ecn tot id rs d m frag ttl pr ck src dst].
  destruct Hf as (F1 & F2 & F3 & F4 & F5 & F6 & F7 & F8 & F9 & F10 & F11 & F12).
  cbn [vf_version vf_ihl vf_dscp vf_ecn vf_total vf_id vf_reserved vf_df vf_mf vf_frag vf_ttl vf_proto vf_checksum vf_src vf_dst] in *.
  destruct s; cbn [v4_put v4_setter_ok] in *; split; try (split; reflexivity || assumption);
    unfold v4_fields_ok;
    cbn [vf_version vf_ihl vf_dscp vf_ecn vf_total vf_id vf_reserved vf_df vf_mf vf_frag vf_ttl vf_proto vf_checksum vf_src vf_dst];
    repeat split; try assumption; try lia.
  apply lor_lt4; assumption.
Qed.
Lemma v4_apply_wire f s q : v4_building f -> v4_arg_ok s -> is_bytes q ->
  v4_apply s (v4_wire f ++ q) = (v4_wire (v4_put f s) ++ q, Ok tt).
Proof.
  intros Hf [Hs1 Hs2] Hq. destruct (v4_building_new f q Hf) as [Hn H0].
  assert (Hb : is_bytes (v4_wire f ++ q)) by (apply is_bytes_app; split; [apply is_bytes_v4_wire, Hf|exact Hq]).
  assert (Hl : 20 <= len (v4_wire f ++ q)) by (rewrite len_app, len_v4_wire; lia).
  assert (H1 : nthN (v4_wire f ++ q) 1 = vf_dscp f * 4 + vf_ecn f) by reflexivity.
  destruct Hf as ((F1 & F2 & F3 & F4 & _) & _).
  assert (Hm : forall g off bs, (forall h, off + len bs <= len h -> g h = (patch off bs h, Ok tt)) -> off + len bs <= 20 ->
    header_mut v4_split g (v4_wire f ++ q) = (patch off bs (v4_wire f) ++ q, Ok tt)).
  { intros g off bs Hg Ho. rewrite (v4_header_mut _ g off bs Hn Hg) by (rewrite H0; exact Ho).
    rewrite patch_app1 by (rewrite len_v4_wire; exact Ho). reflexivity. }
  destruct s as [v|v|v|v|v|v|v|v|v]; cbn [v4_apply].
  - rewrite v4_set_dscp_ok by (assumption || lia). rewrite patch_app1 by (rewrite len_v4_wire; cbn; lia). rewrite H1.
    replace ((vf_dscp f * 4 + vf_ecn f) mod 4) with (vf_ecn f) by lia. destruct f. reflexivity.
  - rewrite v4_set_ecn_ok by (assumption || lia). rewrite patch_app1 by (rewrite len_v4_wire; cbn; lia). rewrite H1.
    replace ((vf_dscp f * 4 + vf_ecn f) mod 4) with (vf_ecn f) by lia.
    replace ((vf_dscp f * 4 + vf_ecn f) / 4) with (vf_dscp f) by lia. destruct f. reflexivity.
  - unfold v4_set_id. rewrite write_u16_ok by lia. rewrite patch_app1 by (rewrite len_v4_wire; cbn; lia). destruct f. reflexivity.
  - unfold v4_set_flags. rewrite (Hm _ 6 (enc16 v)); [|intros h Hh; apply write_u16_ok; autorewrite with len in Hh; lia|cbn; lia].
    destruct f as [ver ihl dscp ecn tot id rs d m frag ttl pr ck src dst]. unfold v4_wire. cbn [v4_put vf_reserved vf_df vf_mf vf_frag]. rewrite flag_word by exact Hs1. reflexivity.
  - unfold v4_set_offset. rewrite (Hm _ 6 (enc16 v)); [|intros h Hh; apply write_u16_ok; autorewrite with len in Hh; lia|cbn; lia].
    destruct f as [ver ihl dscp ecn tot id rs d m frag ttl pr ck src dst]. unfold v4_wire. cbn [v4_put vf_reserved vf_df vf_mf vf_frag]. rewrite flag_word by exact Hs1. reflexivity.
  - unfold v4_set_ttl. rewrite (Hm _ 8 [v]); [|intros h Hh; apply set_index_ok; cbn in Hh; lia|cbn; lia]. destruct f. reflexivity.
  - unfold v4_set_source. rewrite (Hm _ 12 (octets v)); [|intros h Hh; apply copy_range_ok; [reflexivity|cbn in Hh; lia]|cbn; lia].
    destruct f, v. reflexivity.
  - unfold v4_set_destination. rewrite (Hm _ 16 (octets v)); [|intros h Hh; apply copy_range_ok; [reflexivity|cbn in Hh; lia]|cbn; lia].
    destruct f, v. reflexivity.
  - unfold v4_set_protocol. rewrite (Hm _ 9 [ip_protocol_into v]); [|intros h Hh; apply set_index_ok; cbn in Hh; lia|cbn; lia].
    destruct f. reflexivity.
Qed.
Definition v4_step_ok (f : v4_fields) (o : v4_op) : Prop := v4_building f /\ v4_op_ok o.
Lemma v4_step E f o r pre q fin ip k n :
  v4_step_ok f o -> v4_pay o = [] -> is_bytes q -> sized r pre (v4_wire f ++ q) ->
  forall pl, v4_run1 E o (B r pre (v4_wire f ++ q) fin ip k pl n) =
             Ok (B r pre (v4_wire (v4_putop f o) ++ q) fin ip (k || false) pl n).
Proof.
  intros [Hf Ho] Hp Hq Hs pl. rewrite orb_false_r. destruct o as [s|p]; [|discriminate Hp]. cbn [v4_run1 v4_putop].
  apply edit_ok; [exact Hs|apply v4_apply_wire; assumption|rewrite !len_app; reflexivity].
Qed.
Lemma v4_step_pay E f o r pre q fin ip k n p :
  v4_step_ok f o -> v4_pay o = [p] -> sized r pre (v4_wire f ++ q) -> len pre + len (v4_wire f ++ q) + len p <= ISIZE_MAX ->
  n <= len (v4_wire f ++ q) -> r = None \/ p = [] ->
  v4_run1 E o (B r pre (v4_wire f ++ q) fin ip k false n) =
  Ok (B r pre (v4_wire (v4_putop f o) ++ q ++ p) fin ip (k || false) true (if false then n + len p else n)).
Proof.
  intros _ Hp Hs Hl Hn Hr. destruct o as [v|p']; try discriminate Hp. injection Hp as <-. cbn [v4_run1 v4_putop].
  rewrite add_payload_ok by assumption. rewrite orb_false_r, <- app_assoc. reflexivity.
Qed.
Lemma v4_oks ops : forall f, v4_building f -> Forall v4_op_ok ops ->
  oks v4_putop v4_step_ok f ops /\ fold_left v4_putop ops f = fold_left v4_put (v4_setters ops) f /\
  v4_building (fold_left v4_putop ops f).
Proof.
  induction ops as [|o ops IH]; intros f Hf Ho; [split; [exact I|]; split; [reflexivity|exact Hf]|].
  inversion_clear Ho as [|? ? H1 H2]. cbn [oks fold_left]. unfold v4_setters. rewrite flat_map_app || cbn [flat_map].
  assert (Hf' : v4_building (v4_putop f o)) by (destruct o; [apply v4_put_building; assumption|exact Hf]).
  destruct (IH _ Hf' H2) as (I1 & I2 & I3). split; [split; [split; assumption|exact I1]|].
  split; [|exact I3]. rewrite I2. destruct o; reflexivity.
Qed.
Lemma v4_zero_building : v4_building v4_zero.
Proof. split; [|split; reflexivity]. unfold v4_fields_ok, u16, u8, addr_ok, is_bytes, v4_zero, addr_zero; cbn; repeat split; try lia; repeat constructor. Qed.

(** UDP *)
Definition udp_putop (f : udp_fields) (o : udp_op) : udp_fields := match o with UdpSet s => udp_put f s | UdpPayload _ => f end.
Definition udp_pay (o : udp_op) : list bytes := match o with UdpPayload p => [p] | _ => [] end.
Lemma udp_apply_wire f s q : udp_apply s (udp_wire f ++ q) = (udp_wire (udp_put f s) ++ q, Ok tt).
Proof.
  assert (Hl : 8 <= len (udp_wire f ++ q)) by (rewrite len_app, len_udp_wire; lia).
  destruct s as [v|v]; cbn [udp_apply]; [unfold udp_set_source|unfold udp_set_destination];
    rewrite udp_header_write by lia; rewrite patch_app1 by (rewrite len_udp_wire; cbn; lia); destruct f; reflexivity.
Qed.
Lemma udp_step E f o r pre q fin ip k n :
  True -> udp_pay o = [] -> is_bytes q -> sized r pre (udp_wire f ++ q) ->
  forall pl, udp_run1 E o (B r pre (udp_wire f ++ q) fin ip k pl n) =
             Ok (B r pre (udp_wire (udp_putop f o) ++ q) fin ip (k || false) pl n).
Proof.
  intros _ Hp _ Hs pl. rewrite orb_false_r. destruct o as [s|p]; [|discriminate Hp]. cbn [udp_run1 udp_putop].
  apply edit_ok; [exact Hs|apply udp_apply_wire; assumption|rewrite !len_app; reflexivity].
Qed.
Lemma udp_step_pay E f o r pre q fin ip k n p :
  True -> udp_pay o = [p] -> sized r pre (udp_wire f ++ q) -> len pre + len (udp_wire f ++ q) + len p <= ISIZE_MAX ->
  n <= len (udp_wire f ++ q) -> r = None \/ p = [] ->
  udp_run1 E o (B r pre (udp_wire f ++ q) fin ip k false n) =
  Ok (B r pre (udp_wire (udp_putop f o) ++ q ++ p) fin ip (k || false) true (if false then n + len p else n)).
Proof.
  intros _ Hp Hs Hl Hn Hr. destruct o as [v|p']; try discriminate Hp. injection Hp as <-. cbn [udp_run1 udp_putop].
  rewrite add_payload_ok by assumption. rewrite orb_false_r, <- app_assoc. reflexivity.
Qed.
Lemma udp_fold ops f : fold_left udp_putop ops f = fold_left udp_put (udp_setters ops) f.
Proof.
  revert f. induction ops as [|o ops IH]; intros f; [reflexivity|]. cbn [fold_left]. rewrite IH. destruct o; reflexivity.
Qed.

(** TCP: [set_flags] also clears the data offset and the reserved bits. *)
Definition tcp_putop (f : tcp_fields) (o : tcp_op) : tcp_fields :=
  match o with
  | TcpSet (TcpSetFlags v) =>
      let '(Build_tcp_fields src dst seq ack off res fl win ck ptr) := f in Build_tcp_fields src dst seq ack 0 0 v win ck ptr
  | TcpSet s => tcp_put f s
  | TcpPayload _ => f
  end.
Definition tcp_pay (o : tcp_op) : list bytes := match o with TcpPayload p => [p] | _ => [] end.
Definition tcp_building (f : tcp_fields) : Prop := tcp_fields_ok f /\ tf_offset f = 5.
Definition tcp_step_ok (f : tcp_fields) (o : tcp_op) : Prop :=
  match o with TcpSet s => tcp_building f /\ tcp_setter_ok s | TcpPayload _ => True end.
Lemma is_bytes_tcp_wire f : tcp_fields_ok f -> is_bytes (tcp_wire f).
Proof.
  intros (H1 & H2 & H3 & H4 & H5 & H6 & H7 & H8 & H9 & H10). unfold tcp_wire.
  repeat (apply is_bytes_app; split); try (apply is_bytes_enc16; assumption); try (apply is_bytes_enc32; assumption).
  apply is_bytes_enc16. unfold u16. lia.
Qed.
Lemma is_bytes_udp_wire f : udp_fields_ok f -> is_bytes (udp_wire f).
Proof.
  intros (H1 & H2 & H3 & H4). unfold udp_wire. repeat (apply is_bytes_app; split); apply is_bytes_enc16; assumption.
Qed.
Lemma is_bytes_ether_wire f : ether_fields_ok f -> is_bytes (ether_wire f).
Proof.
  intros (H1 & H2 & H3). unfold ether_wire. repeat (apply is_bytes_app; split); [assumption|assumption|apply is_bytes_enc16; assumption].
Qed.
Lemma tcp_byte12 f q : tcp_fields_ok f -> nthN (tcp_wire f ++ q) 12 / 16 = tf_offset f.
Proof.
  intros (H1 & H2 & H3 & H4 & H5 & H6 & H7 & H8 & H9 & H10).
  change (nthN (tcp_wire f ++ q) 12) with ((tf_offset f * 4096 + tf_reserved f * 512 + tf_flags f) / 256).
  rewrite N.div_div by lia. change (256 * 16) with 4096. lia.
Qed.
Lemma tcp_building_new f q : tcp_building f -> tcp_new (tcp_wire f ++ q) = Ok (tcp_wire f ++ q).
Proof.
  intros [Hf Ho]. apply (c09_tcp f [] q); [exact Hf|]. rewrite Ho, len_nil. reflexivity.
Qed.
Lemma tcp_apply_wire f s q : tcp_building f -> is_bytes q ->
  tcp_apply s (tcp_wire f ++ q) = (tcp_wire (tcp_putop f (TcpSet s)) ++ q, Ok tt).
Proof.
  intros Hf Hq. pose proof (tcp_building_new f q Hf) as Hn. destruct Hf as [Hf Ho].
  pose proof (tcp_byte12 f q Hf) as H12. rewrite Ho in H12.
  destruct s as [v|v|v|v|v|v|v]; cbn [tcp_apply]; 
    [unfold tcp_set_source|unfold tcp_set_destination|unfold tcp_set_sequence|unfold tcp_set_acknowledgment| |unfold tcp_set_window|unfold tcp_set_pointer];
    try (rewrite tcp_header_write16 by (assumption || (rewrite H12; cbn; lia)));
    try (rewrite tcp_header_write32 by (assumption || (rewrite H12; cbn; lia)));
    try (rewrite tcp_set_flags_ok by (lia || assumption || (apply is_bytes_app; split; [apply is_bytes_tcp_wire|]; assumption)));
    rewrite patch_app1 by (rewrite len_tcp_wire; cbn; lia); destruct f; try reflexivity.
Qed.
Lemma tcp_step E f o r pre q fin ip k n :
  tcp_step_ok f o -> tcp_pay o = [] -> is_bytes q -> sized r pre (tcp_wire f ++ q) ->
  forall pl, tcp_run1 E o (B r pre (tcp_wire f ++ q) fin ip k pl n) =
             Ok (B r pre (tcp_wire (tcp_putop f o) ++ q) fin ip (k || false) pl n).
Proof.
  intros Ho Hp Hq Hs pl. rewrite orb_false_r. destruct o as [s|p]; [|discriminate Hp]. destruct Ho as [Hf Ho]. cbn [tcp_run1].
  apply edit_ok; [exact Hs|apply tcp_apply_wire; assumption|rewrite !len_app; reflexivity].
Qed.
Lemma tcp_step_pay E f o r pre q fin ip k n p :
  tcp_step_ok f o -> tcp_pay o = [p] -> sized r pre (tcp_wire f ++ q) -> len pre + len (tcp_wire f ++ q) + len p <= ISIZE_MAX ->
  n <= len (tcp_wire f ++ q) -> r = None \/ p = [] ->
  tcp_run1 E o (B r pre (tcp_wire f ++ q) fin ip k false n) =
  Ok (B r pre (tcp_wire (tcp_putop f o) ++ q ++ p) fin ip (k || false) true (if true then n + len p else n)).
Proof.
  intros _ Hp Hs Hl Hn Hr. destruct o as [v|p']; try discriminate Hp. injection Hp as <-. cbn [tcp_run1 tcp_putop].
  rewrite add_payload_ok by assumption. rewrite orb_false_r, <- app_assoc. reflexivity.
Qed.
Lemma tcp_put_building f s : tcp_building f -> tcp_setter_ok s -> tcp_building (tcp_put f s).
Proof.
  intros [(H1 & H2 & H3 & H4 & H5 & H6 & H7 & H8 & H9 & H10) Ho] Hs. destruct f as [src dst seq ack off res fl win ck ptr].
  cbn [tf_src tf_dst tf_seq tf_ack tf_offset tf_reserved tf_flags tf_window tf_checksum tf_pointer] in *.
  destruct s; cbn [tcp_put tcp_setter_ok] in *; (split; [|assumption]); unfold tcp_fields_ok;
    cbn [tf_src tf_dst tf_seq tf_ack tf_offset tf_reserved tf_flags tf_window tf_checksum tf_pointer]; repeat split; assumption.
Qed.
(** What [tcp_putop] leaves: the fields of [tcp_put] up to data offset and reserved bits. *)
Lemma tcp_putop_plain f s : ~ tcp_is_flags s -> tcp_putop f (TcpSet s) = tcp_put f s.
Proof. destruct s; intros H; try reflexivity. contradiction H. exact I. Qed.
Lemma tcp_fold ops : forall f, tcp_building f -> tf_reserved f = 0 -> Forall tcp_op_ok ops -> flags_last (tcp_setters ops) ->
  oks tcp_putop tcp_step_ok f ops /\
  let g := fold_left tcp_putop ops f in let g' := fold_left tcp_put (tcp_setters ops) f in
  tcp_building g' /\ tf_reserved g' = 0 /\ (g = g' \/ g = tcp_fill g' 0 (tf_checksum g')).
Proof.
  induction ops as [|o ops IH]; intros f Hf Hr Ho Hl; [repeat split; try assumption; try apply Hf; left; reflexivity|].
  inversion_clear Ho as [|? ? H1 H2]. destruct o as [s|p].
  - change (tcp_setters (TcpSet s :: ops)) with (s :: tcp_setters ops) in *. unfold flags_last in Hl. cbn [oks fold_left tcp_step_ok].
    cbn [tcp_op_ok] in H1. pose proof (tcp_put_building f s Hf H1) as Hf'.
    assert (Hr' : tf_reserved (tcp_put f s) = 0) by (destruct f, s; exact Hr).
    destruct (tcp_setters ops) as [|s' ss] eqn:Es.
    + clear IH Hl. cbn [fold_left].
      assert (Hrest : forall ops g, tcp_setters ops = [] -> oks tcp_putop tcp_step_ok g ops /\ fold_left tcp_putop ops g = g).
      { clear. induction ops as [|o ops IH]; intros g H; [split; reflexivity|]. destruct o; [discriminate H|].
        cbn [oks fold_left tcp_step_ok tcp_putop]. destruct (IH g H). repeat split; assumption. }
      destruct (Hrest ops (tcp_putop f (TcpSet s)) Es) as [R1 R2]. rewrite R2.
      split; [split; [split; assumption|exact R1]|]. cbv zeta. split; [exact Hf'|]. split; [exact Hr'|].
      destruct s; try (left; reflexivity). right. destruct f as [src dst seq ack off res fl win ck ptr]. cbn in Hr |- *. subst. reflexivity.
    + cbn [removelast] in Hl. inversion_clear Hl as [|? ? L1 L2].
      specialize (IH (tcp_put f s) Hf' Hr' H2). destruct IH as (I1 & I2); [exact L2|].
      rewrite (tcp_putop_plain f s L1). split; [split; [split; assumption|exact I1]|exact I2].
  - change (tcp_setters (TcpPayload p :: ops)) with (tcp_setters ops) in *. cbn [oks fold_left tcp_step_ok tcp_putop].
    destruct (IH f Hf Hr H2 Hl) as (I1 & I2). split; [split; [exact I|exact I1]|exact I2].
Qed.

(** ICMP *)
Definition ident_of (f : N * N * N) : bytes := let '(t, i, s) := f in ident_wire {| cf_type := t; cf_code := 0; cf_checksum := 0 |} i s.
Lemma len_ident_of f : len (ident_of f) = 8. Proof. destruct f as [[t i] s]. reflexivity. Qed.
Definition echo_pay (o : echo_op) : list bytes := match o with EchoPayload p => [p] | _ => [] end.
Definition echo_kindof (o : echo_op) : bool := match o with EchoRequest | EchoReply => true | _ => false end.
Lemma echo_step E f o r pre q fin ip k n :
  True -> echo_pay o = [] -> is_bytes q -> sized r pre (ident_of f ++ q) ->
  forall pl, echo_run1 E o (B r pre (ident_of f ++ q) fin ip k pl n) =
             Ok (B r pre (ident_of (echo_put f o) ++ q) fin ip (k || echo_kindof o) pl n).
Proof.
  intros _ Hp _ Hs pl. assert (Hl : 8 <= len (ident_of f ++ q)) by (rewrite len_app, len_ident_of; lia).
  destruct o; try discriminate Hp; cbn [echo_run1 echo_kindof]; rewrite ?orb_false_r, ?orb_true_r;
    try change (with_kind (B r pre (ident_of f ++ q) fin ip k pl n)) with (B r pre (ident_of f ++ q) fin ip true pl n);
    (apply edit_ok; [exact Hs| |rewrite !len_app, !len_ident_of; reflexivity]);
    (rewrite set_index_ok by lia) || (rewrite write_u16_ok by lia);
    rewrite patch_app1 by (rewrite len_ident_of; cbn; lia); destruct f as [[t i] s]; reflexivity.
Qed.
Lemma echo_step_pay E f o r pre q fin ip k n p :
  True -> echo_pay o = [p] -> sized r pre (ident_of f ++ q) -> len pre + len (ident_of f ++ q) + len p <= ISIZE_MAX ->
  n <= len (ident_of f ++ q) -> r = None \/ p = [] ->
  echo_run1 E o (B r pre (ident_of f ++ q) fin ip k false n) =
  Ok (B r pre (ident_of (echo_put f o) ++ q ++ p) fin ip (k || echo_kindof o) true (if false then n + len p else n)).
Proof.
  intros _ Hp Hs Hl Hn Hr. destruct o; try discriminate Hp. injection Hp as <-. cbn [echo_run1 echo_kindof].
  rewrite add_payload_ok by assumption. rewrite orb_false_r, <- app_assoc. destruct f as [[t i] s]. reflexivity.
Qed.
Definition information_kindof (o : information_op) : bool := match o with InfoRequest | InfoReply => true | _ => false end.
Lemma information_step E f o r pre q fin ip k n :
  True -> @nil bytes = [] -> is_bytes q -> sized r pre (ident_of f ++ q) ->
  forall pl, information_run1 E o (B r pre (ident_of f ++ q) fin ip k pl n) =
             Ok (B r pre (ident_of (information_put f o) ++ q) fin ip (k || information_kindof o) pl n).
Proof.
  intros _ _ _ Hs pl. assert (Hl : 8 <= len (ident_of f ++ q)) by (rewrite len_app, len_ident_of; lia).
  destruct o; cbn [information_run1 information_kindof]; rewrite ?orb_false_r, ?orb_true_r;
    try change (with_kind (B r pre (ident_of f ++ q) fin ip k pl n)) with (B r pre (ident_of f ++ q) fin ip true pl n);
    (apply edit_ok; [exact Hs| |rewrite !len_app, !len_ident_of; reflexivity]);
    (rewrite set_index_ok by lia) || (rewrite write_u16_ok by lia);
    rewrite patch_app1 by (rewrite len_ident_of; cbn; lia); destruct f as [[t i] s]; reflexivity.
Qed.
Definition timestamp_of (f : N * N * N * N * N * N) : bytes :=
  let '(t, i, s, a, b, c) := f in timestamp_wire {| cf_type := t; cf_code := 0; cf_checksum := 0 |} i s a b c.
Lemma len_timestamp_of f : len (timestamp_of f) = 20. Proof. destruct f as [[[[[t i] s] a] b] c]. reflexivity. Qed.
Definition timestamp_kindof (o : timestamp_op) : bool := match o with TsRequest | TsReply => true | _ => false end.
Lemma timestamp_step E f o r pre q fin ip k n :
  True -> @nil bytes = [] -> is_bytes q -> sized r pre (timestamp_of f ++ q) ->
  forall pl, timestamp_run1 E o (B r pre (timestamp_of f ++ q) fin ip k pl n) =
             Ok (B r pre (timestamp_of (timestamp_put f o) ++ q) fin ip (k || timestamp_kindof o) pl n).
Proof.
  intros _ _ _ Hs pl. assert (Hl : 20 <= len (timestamp_of f ++ q)) by (rewrite len_app, len_timestamp_of; lia).
  destruct o; cbn [timestamp_run1 timestamp_kindof]; rewrite ?orb_false_r, ?orb_true_r;
    try change (with_kind (B r pre (timestamp_of f ++ q) fin ip k pl n)) with (B r pre (timestamp_of f ++ q) fin ip true pl n);
    (apply edit_ok; [exact Hs| |rewrite !len_app, !len_timestamp_of; reflexivity]);
    (rewrite set_index_ok by lia) || (rewrite write_u16_ok by lia) || (rewrite write_u32_ok by lia);
    rewrite patch_app1 by (rewrite len_timestamp_of; cbn; lia); destruct f as [[[[[t i] s] a] b] c]; reflexivity.
Qed.
