(** * DumpProofs: C79 (printing whatever was captured). *)
From Coq Require Import String.
From Verif Require Import Base Enums Ether Ipv4 Ip Udp Tcp Icmp Debug Spec SpecCalls SpecFrame SpecOptions SpecDump SpecMachine.
From Verif Require Import Lemmas ParseProofs SliceProofs AccessProofs ChecksumLemmas ChecksumProofs OptionProofs DebugProofs EnumProofs FrameProofs TileProofs MachineProofs FrameMachineProofs HostProofs.
From Coq Require Import ZifyBool ZifyNat ZifyN.
Ltac Zify.zify_post_hook ::= Z.div_mod_to_equations.

(** ** The loops over options *)
Lemma area_split num : num 1 = 1 -> forall n area, (length area < n)%nat -> is_bytes area ->
  exists ps t, area = area_of ps t /\ Forall (piece_ok num) ps /\
   (area_end num t \/ (exists k l rest, t = k :: l :: rest /\ 2 <= num k /\ len t < l) \/
    exists k, 2 <= num k /\ (t = [k] \/ exists rest, t = k :: 0 :: rest)).
Proof.
  intros N1 n. induction n as [|n IH]; intros area Hl Hb; [lia|]. destruct area as [|k r].
  { exists [], []. split; [reflexivity|]. split; [constructor|]. left. left. reflexivity. }
  assert (Hk : k < 256) by (inversion Hb; assumption).
  assert (Hbr : is_bytes r) by (inversion Hb; assumption). cbn [length] in Hl.
  assert (C : num k = 0 \/ num k = 1 \/ 2 <= num k) by lia. destruct C as [C|[C|C]].
  - exists [], (k :: r). split; [reflexivity|]. split; [constructor|]. left. right. exists k, r. split; [reflexivity|exact C].
  - destruct (IH r) as (ps & t & -> & H2 & H3); [lia|exact Hbr|]. exists (One k :: ps), t. rewrite area_cons.
    split; [reflexivity|]. split; [constructor; [split; assumption|exact H2]|exact H3].
  - destruct r as [|l r'].
    { exists [], [k]. split; [reflexivity|]. split; [constructor|]. right. right. exists k. split; [exact C|left; reflexivity]. }
    assert (Hl2 : l < 256) by (inversion Hbr; assumption). assert (Hbr' : is_bytes r') by (inversion Hbr; assumption). cbn [length] in Hl.
    assert (D : l = 0 \/ l = 1 \/ len (k :: l :: r') < l \/ 2 <= l <= len (k :: l :: r')) by lia. destruct D as [->|[->|[D|D]]].
    + exists [], (k :: 0 :: r'). split; [reflexivity|]. split; [constructor|]. right. right. exists k. split; [exact C|right; eexists; reflexivity].
    + destruct (IH r') as (ps & t & -> & H2 & H3); [lia|exact Hbr'|]. exists (Odd k :: ps), t. rewrite area_cons.
      split; [reflexivity|]. split; [constructor; [split; assumption|exact H2]|exact H3].
    + exists [], (k :: l :: r'). split; [reflexivity|]. split; [constructor|]. right. left. exists k, l, r'. auto.
    + rewrite !len_cons in D. destruct (IH (dropN (l - 2) r')) as (ps & t & H1 & H2 & H3);
        [unfold dropN; rewrite skipn_length; lia|apply is_bytes_dropN; exact Hbr'|].
      exists (Tlv k (takeN (l - 2) r') :: ps), t. rewrite area_cons, <- H1. cbn [piece_wire].
      assert (HL : len (takeN (l - 2) r') = l - 2) by (rewrite len_takeN; lia). rewrite HL. replace (2 + (l - 2)) with l by lia.
      split; [cbn [app]; rewrite takeN_dropN; reflexivity|]. split; [constructor; [|exact H2]|exact H3]. cbn [piece_ok]. rewrite HL. repeat split; lia.
Qed.
(** When an option is handed out it was accepted, and whether it can be shown. *)
Definition shows (num : N -> N) (next : bytes -> res (step * bytes)) (show : bytes -> res shown) : Prop :=
  forall b o b', next b = Ok (Yield o, b') -> o = b /\ 0 < len b /\
    (show b = Panic <-> 2 <= num (nthN b 0) /\ nthN b 1 = 0) /\ forall e, show b <> Err e.
Lemma tcp_shows E : shows tcp_num (tcp_iter_next E) tcpopt_debug.
Proof.
  intros b o b' H. unfold tcp_iter_next in H. destruct (N.eqb_spec (len b) 0); [discriminate|].
  destruct (tcpopt_new b) as [p|e|] eqn:Hn; [|discriminate|discriminate].
  assert (Hp : p = b). { unfold tcpopt_new in Hn. destruct (len b <? tcpopt_header_min); [discriminate|].
    destruct (tcpopt_length b); cbn [bind] in Hn; try discriminate. destruct (len b <? a); [discriminate|]. congruence. }
  subst p. assert (o = b).
  { apply bind_ok in H. destruct H as (k & _ & H). destruct k; try discriminate;
      (apply bind_ok in H; destruct H as (s & _ & H); apply bind_ok in H; destruct H as (s' & _ & H); congruence). }
  split; [assumption|]. split; [lia|]. exact (proj1 (c47_options_panic_iff b) Hn).
Qed.
Lemma v4_shows E : shows v4_num (v4_iter_next E) v4opt_debug.
Proof.
  intros b o b' H. unfold v4_iter_next in H. destruct (N.eqb_spec (len b) 0); [discriminate|].
  destruct (v4opt_new b) as [p|e|] eqn:Hn; [|discriminate|discriminate].
  assert (Hp : p = b). { unfold v4opt_new in Hn. destruct (len b <? v4opt_header_min); [discriminate|].
    destruct (v4opt_length b); cbn [bind] in Hn; try discriminate. destruct (len b <? a); [discriminate|]. congruence. }
  subst p. assert (o = b).
  { apply bind_ok in H. destruct H as (k & _ & H). destruct k; try discriminate;
      (apply bind_ok in H; destruct H as (s & _ & H); apply bind_ok in H; destruct H as (s' & _ & H); congruence). }
  split; [assumption|]. split; [lia|]. exact (proj2 (c47_options_panic_iff b) Hn).
Qed.
Lemma shown_ok {A} (r : res A) (P : Prop) : (r = Panic <-> P) -> (forall e, r <> Err e) -> ~ P -> exists a, r = Ok a.
Proof. intros H1 H2 H3. destruct r as [a|e|]; [eauto|destruct (H2 e eq_refl)|tauto]. Qed.

Section Loops.
  Context (num : N -> N) (E : env) (next : bytes -> res (step * bytes)) (as_ref : bytes -> res bytes) (show : bytes -> res shown).
  Context (T : table num E next) (R : refs num as_ref) (N1 : num 1 = 1) (S' : shows num next show).
  Lemma print_one b o b' n : next b = Ok (Yield o, b') -> ~ (2 <= num (nthN b 0) /\ nthN b 1 = 0) ->
    exists l, show b = Ok l /\ print_options next show (S n) b = next_lines (Some (Ok [l])) (print_options next show n b').
  Proof.
    intros H Hz. destruct (S' _ _ _ H) as (-> & _ & H1 & H2). destruct (shown_ok _ _ H1 H2 Hz) as (l & Hl).
    exists l. split; [exact Hl|]. cbn [print_options]. rewrite H. cbn [value]. rewrite Hl. cbn [print next_lines].
    destruct (print_options next show n b') as [[m|e|]|]; reflexivity.
  Qed.
  Lemma next_lines_app l1 l2 r : next_lines (Some (Ok l1)) (next_lines (Some (Ok l2)) r) = next_lines (Some (Ok (l1 ++ l2))) r.
  Proof. destruct r as [[m|e|]|]; cbn [next_lines]; rewrite ?app_assoc; reflexivity. Qed.
  Lemma walk ps t m : Forall (piece_ok num) ps -> is_bytes (area_of ps t) ->
    exists ls, print_options next show (length (concat (map piece_yields ps)) + m) (area_of ps t) =
      next_lines (Some (Ok ls)) (print_options next show m t) /\
      Forall2 (fun out l => exists o, as_ref o = Ok out /\ show o = Ok l) (concat (map piece_yields ps)) ls.
  Proof.
    intros Ho. induction Ho as [|p ps Hp Hps IH]; intros Hb.
    { exists []. cbn [map concat length Nat.add app area_of]. split; [|constructor]. unfold area_of. cbn [map concat app].
      destruct (print_options next show m t) as [[l|e|]|]; reflexivity. }
    rewrite area_cons in Hb |- *. set (rest := area_of ps t) in *. pose proof Hb as Hb'. apply is_bytes_app in Hb'. destruct Hb' as [_ Hbr].
    destruct (IH Hbr) as (ls & I1 & I2). clearbody rest.
    destruct p as [k|k d|k]; cbn [piece_wire piece_yields map concat app length Nat.add piece_ok] in *.
    - destruct (T _ Hb) as [_ H]. destruct (H _ _ eq_refl) as (_ & H1 & _). destruct (R _ _ Hb) as (R1 & _).
      destruct (print_one (k :: rest) _ _ (length (concat (map piece_yields ps)) + m) (H1 (proj2 Hp))) as (l & Hl & ->).
      { change (nthN (k :: rest) 0) with k. destruct Hp. lia. }
      exists (l :: ls). rewrite I1, next_lines_app. split; [reflexivity|]. constructor; [|exact I2]. exists (k :: rest). split; [apply R1; apply Hp|exact Hl].
    - destruct Hp as (P1 & P2 & P3). destruct (T _ Hb) as [_ H]. destruct (H _ _ eq_refl) as (_ & _ & _ & H1).
      destruct (H1 _ _ P2 eq_refl) as (_ & _ & _ & H2). destruct (R _ _ Hb) as (_ & R2). destruct (R2 _ _ P2 eq_refl) as (_ & R3).
      set (l := 2 + len d) in *.
      assert (Hl : 2 <= l <= len (k :: l :: d ++ rest)) by (rewrite !len_cons, len_app; lia).
      assert (Hd : dropN l (k :: l :: d ++ rest) = rest /\ takeN l (k :: l :: d ++ rest) = k :: l :: d).
      { assert (Hx : l = len (k :: l :: d)) by (rewrite !len_cons; lia).
        split; change (k :: l :: d ++ rest) with ((k :: l :: d) ++ rest); rewrite Hx at 1; [apply dropN_app_len|apply takeN_app_len]. }
      destruct Hd as [Hd1 Hd2]. specialize (H2 Hl). rewrite Hd1 in H2.
      destruct (print_one _ _ _ (length (concat (map piece_yields ps)) + m) H2) as (x & Hx & ->).
      { change (nthN (k :: l :: d ++ rest) 1) with l. lia. }
      exists (x :: ls). rewrite I1, next_lines_app. split; [reflexivity|]. constructor; [|exact I2].
      eexists. split; [|exact Hx]. rewrite R3 by exact Hl. rewrite Hd2. reflexivity.
    - destruct Hp as (P1 & P2). destruct (T _ Hb) as [_ H]. destruct (H _ _ eq_refl) as (_ & _ & _ & H1).
      destruct (H1 _ _ P2 eq_refl) as (_ & _ & H2 & _). destruct (R _ _ Hb) as (_ & R2). destruct (R2 _ _ P2 eq_refl) as (R3 & _).
      assert (Hb1 : is_bytes (1 :: rest)) by (inversion Hb; assumption).
      destruct (T _ Hb1) as [_ G]. destruct (G _ _ eq_refl) as (_ & G1 & _). destruct (R _ _ Hb1) as (S1 & _).
      destruct (print_one _ _ _ (S (length (concat (map piece_yields ps)) + m)) (H2 eq_refl)) as (x & Hx & ->).
      { change (nthN (k :: 1 :: rest) 1) with 1. lia. }
      destruct (print_one _ _ _ (length (concat (map piece_yields ps)) + m) (G1 N1)) as (y & Hy & ->).
      { change (nthN (1 :: rest) 0) with 1. lia. }
      exists (x :: y :: ls). rewrite I1, !next_lines_app. split; [reflexivity|].
      constructor; [eexists; split; [apply R3; reflexivity|exact Hx]|]. constructor; [|exact I2]. eexists; split; [apply S1; exact N1|exact Hy].
  Qed.
  Lemma fuel ps t n : (length (area_of ps t) < n)%nat -> exists m, n = (length (concat (map piece_yields ps)) + S m)%nat.
  Proof.
    intros H. unfold area_of in H. rewrite app_length in H. pose proof (yields_bound ps).
    exists (n - S (length (concat (map piece_yields ps))))%nat. lia.
  Qed.
  Lemma tail_bytes ps t : is_bytes (area_of ps t) -> is_bytes t.
  Proof. intros H. unfold area_of in H. apply is_bytes_app in H. apply H. Qed.
  Lemma loop_ok ps t n : Forall (piece_ok num) ps -> is_bytes (area_of ps t) -> (length (area_of ps t) < n)%nat ->
    (area_end num t \/ exists k l rest, t = k :: l :: rest /\ 2 <= num k /\ len t < l) ->
    exists ls, print_options next show n (area_of ps t) = Some (Ok ls) /\
      Forall2 (fun out l => exists o, as_ref o = Ok out /\ show o = Ok l) (concat (map piece_yields ps)) ls.
  Proof.
    intros Hp Hb Hn Ht. destruct (fuel _ _ _ Hn) as (m & ->). destruct (walk ps t (S m) Hp Hb) as (ls & -> & H2).
    exists ls. split; [|exact H2]. cbn [print_options].
    assert (Hx : exists s b', next t = Ok (s, b') /\ (s = Finished \/ exists e, s = YieldErr e)).
    { destruct (T t (tail_bytes _ _ Hb)) as [H0 H1]. destruct Ht as [[->|(k & pad & -> & Hk)]|(k & l & rest & -> & Hk & Hl)].
      - eexists _, _. split; [apply H0; reflexivity|left; reflexivity].
      - destruct (H1 _ _ eq_refl) as (H3 & _). eexists _, _. split; [apply H3; exact Hk|left; reflexivity].
      - destruct (H1 _ _ eq_refl) as (_ & _ & _ & H3). destruct (H3 _ _ Hk eq_refl) as (H4 & _).
        eexists _, _. split; [apply H4; exact Hl|right; eexists; reflexivity]. }
    destruct Hx as (s & b' & -> & Hs). cbn [value]. destruct Hs as [->|(e & ->)]; cbn [next_lines nothing]; rewrite app_nil_r; reflexivity.
  Qed.
  Lemma loop_panic area n : is_bytes area -> (length area < n)%nat -> broken_area num area -> print_options next show n area = Some Panic.
  Proof.
    intros Hb Hn (ps & t & -> & Hp & k & Hk & Ht). destruct (fuel _ _ _ Hn) as (m & ->).
    destruct (walk ps t (S m) Hp Hb) as (ls & -> & _).
    assert (Hx : print_options next show (S m) t = Some Panic); [|rewrite Hx; reflexivity].
    destruct (T t (tail_bytes _ _ Hb)) as [_ H1]. destruct Ht as [->|(rest & ->)].
    - destruct (H1 _ _ eq_refl) as (_ & _ & H2 & _). cbn [print_options]. rewrite H2 by (exact Hk || reflexivity). reflexivity.
    - destruct (H1 _ _ eq_refl) as (_ & _ & _ & H2). destruct (H2 _ _ Hk eq_refl) as (_ & H3 & _). specialize (H3 eq_refl).
      cbn [print_options]. destruct (overflow_checks E); rewrite H3; [reflexivity|]. cbn [value].
      destruct (S' _ _ _ H3) as (_ & _ & H4 & _). rewrite (proj2 H4) by (split; [exact Hk|reflexivity]). reflexivity.
  Qed.
  (** Either it panics, or it prints one line per option. *)
  Lemma loop area n : is_bytes area -> (length area < n)%nat ->
    (broken_area num area /\ print_options next show n area = Some Panic) \/
    (~ broken_area num area /\ exists ls, print_options next show n area = Some (Ok ls) /\ option_lines num as_ref show area ls).
  Proof.
    intros Hb Hn. destruct (area_split num N1 n area Hn Hb) as (ps & t & Ha & Hp & Ht).
    assert (C : (area_end num t \/ exists k l rest, t = k :: l :: rest /\ 2 <= num k /\ len t < l) \/
                exists k, 2 <= num k /\ (t = [k] \/ exists rest, t = k :: 0 :: rest)) by tauto.
    destruct C as [C|C].
    - right. subst area. destruct (loop_ok ps t n Hp Hb Hn C) as (ls & H1 & H2). split.
      + intros Hbr. rewrite (loop_panic _ _ Hb Hn Hbr) in H1. discriminate.
      + exists ls. split; [exact H1|]. exists ps, t. split; [reflexivity|]. split; [exact Hp|]. split; [|exact H2].
        destruct C as [C|C]; [left; exact C|]. right. exists [], t. split; [reflexivity|]. split; [constructor|exact C].
    - left. assert (Hbr : broken_area num area) by (exists ps, t; auto). split; [exact Hbr|]. apply loop_panic; assumption.
  Qed.
End Loops.

(** ** The layers *)
(** It panics exactly if [bad], otherwise prints lines with [good]. *)
Definition outcome (l : lines) (bad : Prop) (good : list shown -> Prop) : Prop :=
  (bad /\ l = Some Panic) \/ (~ bad /\ exists ls, l = Some (Ok ls) /\ good ls).
Lemma embedded_outcome (E : env) (debug : bytes -> res shown) label name m (good : list shown -> Prop) : rust_slice m -> 8 <= len m ->
  nthN m 0 = 3 \/ nthN m 0 = 4 \/ nthN m 0 = 5 \/ nthN m 0 = 11 \/ nthN m 0 = 12 ->
  debug m = match v4_new (dropN 8 m) with
    | Ok p => match v4_debug E p with Ok s => Ok (ShStruct name (label ++ [("packet"%string, s)])) | _ => Panic end
    | Err e => Ok (ShStruct name (label ++ [("packet"%string, ShErr e)]))
    | Panic => Panic
    end ->
  (forall l, debug m = Ok l -> good [l]) ->
  outcome (print (debug m) nothing) (exists q, quotes m q /\ more_fragments q) good.
Proof.
  intros Hr H8 Ht HD Hg. unfold outcome.
  assert (Q : forall q, quotes m q <-> q = dropN 8 m /\ v4_new q = Ok q).
  { intros q. unfold quotes. rewrite c02_v4_new_iff. intuition (try congruence; try lia). }
  destruct (v4_new (dropN 8 m)) as [p|e|] eqn:Hv.
  - pose proof (v4_new_same _ _ Hv) as ->.
    destruct (c47_v4_panics_iff E (dropN 8 m)) as (H1 & H2 & _); [apply is_bytes_dropN; apply Hr|exact Hv|].
    destruct (v4_debug E (dropN 8 m)) as [s|e|]; [|destruct (H2 _ eq_refl)|].
    + right. split.
      * intros (q & Hq & Hm). apply Q in Hq. destruct Hq as [-> _]. apply H1 in Hm. discriminate.
      * rewrite HD. eexists. split; [reflexivity|]. apply Hg. exact HD.
    + left. split; [|rewrite HD; reflexivity]. exists (dropN 8 m). split; [apply Q; auto|apply H1; reflexivity].
  - right. split.
    + intros (q & Hq & Hm). apply Q in Hq. destruct Hq as [-> Hq]. congruence.
    + rewrite HD. eexists. split; [reflexivity|]. apply Hg. exact HD.
  - destruct (v4_new_no_panic _ Hv).
Qed.
Lemma typed_cases parse min types b : typed_parser parse min types -> In (nthN b 0) types ->
  (min <= len b /\ parse b = Ok b) \/ (len b < min /\ exists e, parse b = Err e).
Proof.
  intros H Hi. destruct (H b) as (H1 & H2 & H3). destruct (N.ltb_spec (len b) min).
  - right. split; [assumption|]. eexists. apply H1. assumption.
  - left. split; [assumption|]. apply H2; assumption.
Qed.
Lemma print_good s (P : list shown -> Prop) (bad : Prop) : (exists l, s = Ok l) -> ~ bad -> (forall l, s = Ok l -> P [l]) -> outcome (print s nothing) bad P.
Proof. intros (l & Hl) Hb Hg. right. split; [exact Hb|]. rewrite Hl. eexists. split; [reflexivity|]. apply Hg. exact Hl. Qed.
Lemma nothing_good (P : list shown -> Prop) (bad : Prop) : ~ bad -> P [] -> outcome nothing bad P.
Proof. intros Hb Hg. right. split; [exact Hb|]. eexists. split; [reflexivity|exact Hg]. Qed.
Lemma echo_shown m : echo_new m = Ok m -> exists l, echo_debug m = Ok l.
Proof.
  intros H. destruct (c08_echo m H) as (A1 & _ & A2 & A3). destruct (typed_inv _ _ _ _ _ c05_echo_new H) as (_ & Hl & _).
  unfold echo_debug, field, echo_payload, echo_split. rewrite A1, A2, A3, split_at_ok by lia. eexists. reflexivity.
Qed.
Lemma information_shown m : information_new m = Ok m -> exists l, information_debug m = Ok l.
Proof.
  intros H. destruct (c08_information m H) as (A1 & _ & A2 & A3).
  unfold information_debug, field. rewrite A1, A2, A3. eexists. reflexivity.
Qed.
Lemma timestamp_shown m : timestamp_new m = Ok m -> exists l, timestamp_debug m = Ok l.
Proof.
  intros H. destruct (c08_timestamp m H) as (A1 & _ & A2 & A3 & _). destruct (typed_inv _ _ _ _ _ c05_timestamp_new H) as (_ & Hl & _).
  unfold timestamp_debug, field, timestamp_payload, timestamp_split. rewrite A1, A2, A3, split_at_ok by lia. eexists. reflexivity.
Qed.
Ltac kind_line HK :=
  unfold kind_lines; rewrite <- HK; cbv zeta;
  match goal with |- context [8 <=? len ?m] => destruct (N.leb_spec 8 (len m)); [|exfalso; lia] end;
  repeat split; intros;
  try (eexists; split; [eassumption|reflexivity]); exfalso;
  repeat match goal with
  | H : _ \/ _ |- _ => destruct H
  | H : _ /\ _ |- _ => destruct H
  | H : ~ In _ _ |- _ => apply H; cbn; repeat (first [left; reflexivity | right])
  end; try discriminate; try lia.
Lemma kind_print E m : rust_slice m -> 4 <= len m ->
  outcome (print_kind E m) (exists q, quotes m q /\ more_fragments q) (kind_lines E m).
Proof.
  intros Hr H4. unfold print_kind. assert (Hm : icmp_new m = Ok m) by (apply icmp_new_iff; auto).
  destruct (c08_icmp m Hm) as (-> & _). cbn [value].
  assert (NQ : ~ (8 <= len m /\ In (nthN m 0) [3; 4; 5; 11; 12]) -> ~ exists q, quotes m q /\ more_fragments q).
  { intros H (q & (Q1 & Q2 & _) & _). apply H. split; [exact Q1|]. cbn. intuition congruence. }
  pose proof (icmp_kind_into_from (nthN m 0)) as HK. pose proof (icmp_kind_catch_all (nthN m 0)) as HC.
  destruct (c47_embedded E m Hr) as (EM1 & EM2 & EM3).
  assert (S0 : forall parse min types rest, typed_parser parse min types -> In (nthN m 0) types -> 8 <= min ->
    (len m < 8 -> outcome nothing (exists q, quotes m q /\ more_fragments q) (kind_lines E m)) ->
    (8 <= len m < min -> outcome nothing (exists q, quotes m q /\ more_fragments q) (kind_lines E m)) ->
    (min <= len m -> parse m = Ok m -> outcome (rest m) (exists q, quotes m q /\ more_fragments q) (kind_lines E m)) ->
    outcome (or_return (parse m) rest) (exists q, quotes m q /\ more_fragments q) (kind_lines E m)).
  { intros parse min types rest Hp Hi Hmin A B C. destruct (typed_cases _ _ _ _ Hp Hi) as [[H1 H2]|[H1 (e & H2)]]; rewrite H2; cbn [or_return].
    - apply C; assumption.
    - destruct (N.ltb_spec (len m) 8); [apply A; assumption|apply B; lia]. }
  assert (LN : len m < 8 -> outcome nothing (exists q, quotes m q /\ more_fragments q) (kind_lines E m)).
  { intros Hl. apply nothing_good; [apply NQ; lia|]. unfold kind_lines. cbv zeta.
    destruct (N.leb_spec 8 (len m)); [lia|]. repeat split; intros; try discriminate; try lia. }
  assert (TI : forall x, In x [0; 3; 4; 5; 8; 11; 12; 13; 14; 15; 16] \/ ~ In x [0; 3; 4; 5; 8; 11; 12; 13; 14; 15; 16]) by (intros x; destruct (in_dec N.eq_dec x [0; 3; 4; 5; 8; 11; 12; 13; 14; 15; 16]); auto).
  assert (NONE : ~ In (nthN m 0) [0; 3; 4; 5; 8; 11; 12; 13; 14; 15; 16] -> outcome nothing (exists q, quotes m q /\ more_fragments q) (kind_lines E m)).
  { intros Hn. apply nothing_good; [apply NQ; intros [_ Hi]; apply Hn; cbn in Hi |- *; intuition auto|]. unfold kind_lines. cbv zeta.
    repeat split; intros; try (exfalso; apply Hn; cbn; intuition auto; fail). }
  destruct (icmp_kind_from (nthN m 0)) eqn:HF; cbn [icmp_kind_into] in HK;
    try (apply NONE; rewrite <- HK; cbn; intuition discriminate).
  - apply (S0 _ _ _ _ c05_echo_new); [rewrite <- HK; cbn; auto|lia|exact LN|lia|]. intros L P. apply print_good; [apply echo_shown; exact P|apply NQ; rewrite <- HK; cbn; intuition discriminate|].
    intros l Hl. kind_line HK.
  - apply (S0 _ _ _ _ c05_previous_new); [rewrite <- HK; cbn; auto|lia|exact LN|lia|]. intros L P. eapply embedded_outcome; [exact Hr|exact L|rewrite <- HK; auto 6|apply EM3; exact P|].
    intros l Hl. kind_line HK.
  - apply (S0 _ _ _ _ c05_previous_new); [rewrite <- HK; cbn; auto|lia|exact LN|lia|]. intros L P. eapply embedded_outcome; [exact Hr|exact L|rewrite <- HK; auto 6|apply EM3; exact P|].
    intros l Hl. kind_line HK.
  - apply (S0 _ _ _ _ c05_redirect_message_new); [rewrite <- HK; cbn; auto|lia|exact LN|lia|]. intros L P. eapply embedded_outcome; [exact Hr|exact L|rewrite <- HK; auto 6|apply EM2; exact P|].
    intros l Hl. kind_line HK.
  - apply (S0 _ _ _ _ c05_echo_new); [rewrite <- HK; cbn; auto|lia|exact LN|lia|]. intros L P. apply print_good; [apply echo_shown; exact P|apply NQ; rewrite <- HK; cbn; intuition discriminate|].
    intros l Hl. kind_line HK.
  - apply (S0 _ _ _ _ c05_previous_new); [rewrite <- HK; cbn; auto|lia|exact LN|lia|]. intros L P. eapply embedded_outcome; [exact Hr|exact L|rewrite <- HK; auto 6|apply EM3; exact P|].
    intros l Hl. kind_line HK.
  - apply (S0 _ _ _ _ c05_parameter_problem_new); [rewrite <- HK; cbn; auto|lia|exact LN|lia|]. intros L P. eapply embedded_outcome; [exact Hr|exact L|rewrite <- HK; auto 6|apply EM1; exact P|].
    intros l Hl. kind_line HK.
  - apply (S0 _ _ _ _ c05_timestamp_new); [rewrite <- HK; cbn; auto|lia|exact LN| |].
    + intros L. apply nothing_good; [apply NQ; rewrite <- HK; cbn; intuition discriminate|]. unfold kind_lines. rewrite <- HK. cbv zeta.
      repeat split; intros; try lia; reflexivity.
    + intros L P. apply print_good; [apply timestamp_shown; exact P|apply NQ; rewrite <- HK; cbn; intuition discriminate|].
      intros l Hl. kind_line HK.
  - apply (S0 _ _ _ _ c05_timestamp_new); [rewrite <- HK; cbn; auto|lia|exact LN| |].
    + intros L. apply nothing_good; [apply NQ; rewrite <- HK; cbn; intuition discriminate|]. unfold kind_lines. rewrite <- HK. cbv zeta.
      repeat split; intros; try lia; reflexivity.
    + intros L P. apply print_good; [apply timestamp_shown; exact P|apply NQ; rewrite <- HK; cbn; intuition discriminate|].
      intros l Hl. kind_line HK.
  - apply (S0 _ _ _ _ c05_information_new); [rewrite <- HK; cbn; auto|lia|exact LN|lia|]. intros L P. apply print_good; [apply information_shown; exact P|apply NQ; rewrite <- HK; cbn; intuition discriminate|].
    intros l Hl. kind_line HK.
  - apply (S0 _ _ _ _ c05_information_new); [rewrite <- HK; cbn; auto|lia|exact LN|lia|]. intros L P. apply print_good; [apply information_shown; exact P|apply NQ; rewrite <- HK; cbn; intuition discriminate|].
    intros l Hl. kind_line HK.
  - apply NONE. intros Hi. assert (Hu : K_Unknown n = K_Unknown (nthN m 0)) by (apply HC; eexists; reflexivity).
    cbn [In] in Hi. repeat destruct Hi as [Hi|Hi]; try (rewrite <- Hi in HF; discriminate HF). destruct Hi.
Qed.
Lemma short40 ip : nthN ip 0 mod 16 * 4 - 20 <= 40.
Proof. lia. Qed.
Lemma area_short a b n : a <= 40 -> (41 <= n)%nat -> (length (takeN a b) < n)%nat.
Proof. intros Ha Hn. assert (H : len (takeN a b) <= 40) by (rewrite len_takeN; lia). unfold len in H. lia. Qed.
Definition bad_body (proto : N) (body : bytes) : Prop :=
  (proto = 6 /\ tcp_fits body /\ (nthN body 12 / 16 < 5 \/ broken_area tcp_num (tcp_area body))) \/
  (proto = 1 /\ exists q, quotes body q /\ more_fragments q).
Lemma body_print E n proto body : rust_slice body -> (41 <= n)%nat ->
  outcome (print_body E n (ip_protocol_from proto) body) (bad_body proto body) (body_lines E proto body).
Proof.
  intros Hr Hn. unfold print_body. rewrite ip_cases.
  destruct (N.eqb_spec proto 6) as [->|N6]; [|destruct (N.eqb_spec proto 17) as [->|N17]; [|destruct (N.eqb_spec proto 1) as [->|N1]]].
  - destruct (tcp_new body) as [t|e|] eqn:Ht.
    + apply tcp_new_iff in Ht as Hf. destruct Hf as (-> & F1 & F2). assert (Hfit : tcp_fits body) by (split; assumption). cbn [or_return].
      pose proof (c47_tcp_total E body Hr Ht) as HD. rewrite HD. cbn [print].
      assert (H15 : nthN body 12 < 256) by (apply is_bytes_nth; apply Hr).
      rewrite tcp_options_ok by assumption. destruct (N.ltb_spec (nthN body 12 / 16) 5) as [L5|L5]; cbn [value].
      { left. split; [|reflexivity]. left. auto. }
      destruct (loop tcp_num E (tcp_iter_next E) (tcpopt_as_ref E) tcpopt_debug (tcp_table E) (tcp_refs E) eq_refl (tcp_shows E) (tcp_area body) n)
        as [[B1 B2]|[B1 (ls & B2 & B3)]]; [apply is_bytes_takeN, is_bytes_dropN; apply Hr|apply area_short; [lia|exact Hn]| |]; unfold tcp_area in B2; rewrite B2.
      * left. split; [|reflexivity]. left. auto.
      * right. split; [intros [(_ & _ & [Hx|Hx])|(Hx & _)]; [lia|contradiction|discriminate]|]. eexists. split; [reflexivity|].
        split; [|split; [|split]]; try (intros; discriminate).
        -- intros _ _. eexists _, ls. split; [reflexivity|]. split; [exact HD|exact B3].
        -- intros Hx _ _. exfalso. apply Hx. auto.
    + assert (NF : ~ tcp_fits body) by (intros Hf; assert (Hx : tcp_new body = Ok body) by (apply tcp_new_iff; split; [reflexivity|exact Hf]); congruence).
      cbn [or_return]. apply nothing_good; [intros [(_ & Hx & _)|(Hx & _)]; [contradiction|discriminate]|].
      split; [|split; [|split]]; try (intros; discriminate); intros; try contradiction. reflexivity.
    + exfalso. destruct (c04_tcp_new body) as [T1 T2]. destruct (N.ltb_spec (len body) 20); [rewrite T2 in Ht by lia; discriminate|].
      destruct (N.ltb_spec (len body) (nthN body 12 / 16 * 4)); [rewrite T2 in Ht by lia; discriminate|]. rewrite T1 in Ht by lia. discriminate.
  - assert (NB : ~ bad_body 17 body) by (intros [(Hx & _)|(Hx & _)]; discriminate).
    destruct (udp_new body) as [t|e|] eqn:Ht.
    + apply udp_new_iff in Ht as Hf. destruct Hf as (-> & F1 & F2). cbn [or_return].
      apply print_good; [rewrite (c47_udp_total body Ht); eexists; reflexivity|exact NB|].
      intros l Hl. split; [|split; [|split]]; try (intros; discriminate).
      * intros _ _. exists l. auto.
      * intros _ Hx. exfalso. apply Hx. split; [reflexivity|split; assumption].
    + assert (NF : ~ udp_fits body) by (intros Hf; assert (Hx : udp_new body = Ok body) by (apply udp_new_iff; split; [reflexivity|exact Hf]); congruence).
      cbn [or_return]. apply nothing_good; [exact NB|]. split; [|split; [|split]]; try (intros; discriminate); intros; try contradiction. reflexivity.
    + exfalso. destruct (c03_udp_new body) as [U1 U2]. destruct (N.ltb_spec (len body) 8); [rewrite U2 in Ht by lia; discriminate|].
      destruct (N.ltb_spec (len body) (wire16 body 4)); [rewrite U2 in Ht by lia; discriminate|]. rewrite U1 in Ht by lia. discriminate.
  - destruct (N.ltb_spec (len body) 4) as [L4|L4].
    + assert (Hm : icmp_new body = Err SmallBuffer) by (apply c05_icmp_new; exact L4). rewrite Hm. cbn [or_return].
      apply nothing_good; [intros [(Hx & _)|(_ & q & (Hx & _) & _)]; [discriminate|lia]|].
      split; [|split; [|split]]; try (intros; discriminate); intros; try reflexivity. unfold icmp_fits in *. lia.
    + assert (Hm : icmp_new body = Ok body) by (apply icmp_new_iff; auto). rewrite Hm. cbn [or_return].
      assert (HD : exists l, icmp_debug E body = Ok l).
      { destruct (c08_icmp body Hm) as (A1 & A2 & A3). unfold icmp_debug, icmp_is_valid. rewrite c23_icmp_checksum by apply Hr. cbn [bind].
        unfold field, icmp_payload, icmp_split. rewrite A1, A2, A3, split_at_ok by lia. eexists. reflexivity. }
      destruct HD as (l & HD). destruct (kind_print E body Hr L4) as [[B1 B2]|[B1 (ks & B2 & B3)]]; rewrite HD, B2; cbn [print].
      * left. split; [|reflexivity]. right. auto.
      * right. split; [intros [(Hx & _)|(_ & Hx)]; [discriminate|contradiction]|]. eexists. split; [reflexivity|].
        split; [|split; [|split]]; try (intros; discriminate).
        -- intros _ _. exists l, ks. auto.
        -- intros _ _ Hx. exfalso. apply Hx. split; [reflexivity|exact L4].
  - apply nothing_good; [intros [(Hx & _)|(Hx & _)]; contradiction|]. split; [|split; [|split]]; intros; try contradiction. reflexivity.
Qed.

(** ** The frame *)
Lemma dump_eq E n b : dump E n b =
  if len b <? 14 then nothing
  else print (ether_debug b) (if wire16 b 12 =? 0x0800 then
    or_return (v4_new (dropN 14 b)) (fun ip =>
      print (v4_debug E ip) (
      next_lines (value (v4_options ip) (print_options (v4_iter_next E) v4opt_debug n)) (
      value (v4_protocol ip) (fun proto => value (v4_payload ip) (print_body E n proto)))))
    else nothing).
Proof.
  unfold dump. destruct (c01_ether_new b) as [H1 H2].
  destruct (N.ltb_spec (len b) 14); [rewrite H2 by lia; reflexivity|]. rewrite H1 by lia. cbn [or_return].
  unfold ether_get_protocol. rewrite get16 by lia. cbn [bind value]. rewrite ether_payload_ok by lia. cbn [value]. f_equal. apply ether_cases4.
Qed.
Lemma ether_shown b : 14 <= len b -> exists l, ether_debug b = Ok l.
Proof.
  intros H. assert (Hn : ether_new b = Ok b) by (apply c01_ether_new; exact H). destruct (c08_ether b Hn) as (A1 & A2 & A3).
  unfold ether_debug, field. rewrite A1, A2, A3, ether_payload_ok by exact H. eexists. reflexivity.
Qed.
Definition bad_ip (ip : bytes) : Prop :=
  more_fragments ip \/ nthN ip 0 mod 16 < 5 \/ broken_area v4_num (v4_area ip) \/ bad_body (nthN ip 9) (body_of ip).
Lemma ip_print E n ip : rust_slice ip -> (41 <= n)%nat -> v4_new ip = Ok ip ->
  outcome (print (v4_debug E ip) (
      next_lines (value (v4_options ip) (print_options (v4_iter_next E) v4opt_debug n)) (
      value (v4_protocol ip) (fun proto => value (v4_payload ip) (print_body E n proto)))))
    (bad_ip ip)
    (fun ls => exists i os rest, ls = i :: os ++ rest /\ v4_debug E ip = Ok i /\
       option_lines v4_num (v4opt_as_ref E) v4opt_debug (v4_area ip) os /\ body_lines E (nthN ip 9) (body_of ip) rest).
Proof.
  intros Hr Hn Hv. unfold bad_ip. pose proof (proj1 (c02_v4_new_iff _ _) Hv) as (_ & H20 & _ & Hh & _).
  destruct (c47_v4_panics_iff E ip (proj1 Hr) Hv) as (D1 & D2 & _). fold (more_fragments ip) in D1.
  destruct (v4_debug E ip) as [i|e|] eqn:HD; [|destruct (D2 e eq_refl)|left; split; [left; apply D1; reflexivity|reflexivity]].
  assert (NM : ~ more_fragments ip) by (intros Hx; apply D1 in Hx; discriminate).
  rewrite v4_options_ok by assumption. destruct (N.ltb_spec (nthN ip 0 mod 16) 5) as [L5|L5]; cbn [value].
  { left. split; [auto|reflexivity]. }
  destruct (loop v4_num E (v4_iter_next E) (v4opt_as_ref E) v4opt_debug (v4_table E) (v4_refs E) eq_refl (v4_shows E) (v4_area ip) n)
    as [[B1 B2]|[B1 (os & B2 & B3)]]; [apply is_bytes_takeN, is_bytes_dropN; apply Hr|apply area_short; [apply short40|exact Hn]| |];
    unfold v4_area in B2; rewrite B2; cbn [print next_lines].
  { left. split; [auto|reflexivity]. }
  assert (HP : v4_protocol ip = Ok (ip_protocol_from (nthN ip 9)) /\ v4_payload ip = Ok (body_of ip)).
  { pose proof (c07_v4 ip Hv) as Q. cbv zeta in Q. destruct Q as (_ & _ & _ & Q & _). rewrite Q. unfold v4_protocol. rewrite index_ok by lia.
    split; [reflexivity|]. f_equal. unfold body_of. rewrite takeN_dropN_comm. f_equal; f_equal; lia. }
  destruct HP as [-> ->]. cbn [value].
  assert (Hrb : rust_slice (body_of ip)).
  { unfold body_of. destruct Hr as [R1 R2]. split; [apply is_bytes_takeN, is_bytes_dropN; exact R1|]. autorewrite with len. lia. }
  destruct (body_print E n (nthN ip 9) (body_of ip) Hrb Hn) as [[C1 C2]|[C1 (rest & C2 & C3)]]; rewrite C2.
  - left. split; [auto|reflexivity].
  - right. split; [intros [Hx|[Hx|[Hx|Hx]]]; [contradiction|lia|contradiction|contradiction]|]. eexists. split; [reflexivity|].
    exists i, os, rest. auto.
Qed.
Lemma crashes_iff b : crashes b <-> wire16 b 12 = 0x0800 /\ v4_new (dropN 14 b) = Ok (dropN 14 b) /\ bad_ip (dropN 14 b).
Proof.
  unfold crashes, bad_ip, bad_body. split.
  - intros (proto & ip & body & Hf & H). apply frame_of_iff in Hf. destruct Hf as (H1 & -> & H2 & H3 & ->). subst proto. auto.
  - intros (H1 & H2 & H3). exists (nthN (dropN 14 b) 9), (dropN 14 b), (body_of (dropN 14 b)). split; [apply frame_of_iff; auto|exact H3].
Qed.
Lemma rust_slice_drop {E : env} n b : rust_slice b -> rust_slice (dropN n b).
Proof. intros [H1 H2]. split; [apply is_bytes_dropN; exact H1|]. autorewrite with len. lia. Qed.
Lemma dump_outcome E n b : rust_slice b -> (41 <= n)%nat ->
  outcome (dump E n b) (crashes b) (fun ls =>
    (len b < 14 -> ls = []) /\ 
    (14 <= len b -> exists e, ether_debug b = Ok e /\
      ((~ (exists proto ip body, frame_of 0x0800 proto b ip body) -> ls = [e]) /\
       forall proto ip body, frame_of 0x0800 proto b ip body -> exists i os rest, ls = e :: i :: os ++ rest /\ v4_debug E ip = Ok i /\
         option_lines v4_num (v4opt_as_ref E) v4opt_debug (v4_area ip) os /\ body_lines E proto body rest))).
Proof.
  intros Hr Hn. rewrite dump_eq. destruct (N.ltb_spec (len b) 14) as [L|L].
  { apply nothing_good; [|split; [reflexivity|lia]]. intros (proto & ip & body & (Hx & _) & _). lia. }
  destruct (ether_shown b L) as (e & He). rewrite He.
  destruct (N.eqb_spec (wire16 b 12) 0x0800) as [T4|T4].
  2: { right. split; [rewrite crashes_iff; tauto|]. eexists. split; [reflexivity|]. split; [lia|]. intros _. exists e. split; [reflexivity|]. split; [reflexivity|].
       intros proto ip body Hf. apply frame_of_iff in Hf. tauto. }
  destruct (v4_new (dropN 14 b)) as [ip|er|] eqn:Hv; cbn [or_return].
  - pose proof (v4_new_same _ _ Hv) as ->. destruct (ip_print E n (dropN 14 b) (rust_slice_drop 14 b Hr) Hn Hv) as [[C1 C2]|[C1 (ls & C2 & C3)]]; rewrite C2; cbn [print].
    + left. split; [apply crashes_iff; auto|reflexivity].
    + right. split; [rewrite crashes_iff; tauto|]. eexists. split; [reflexivity|]. split; [lia|]. intros _. exists e. split; [reflexivity|]. split.
      * intros Hx. exfalso. apply Hx. exists (nthN (dropN 14 b) 9), (dropN 14 b), (body_of (dropN 14 b)). apply frame_of_iff. auto.
      * intros proto ip body Hf. apply frame_of_iff in Hf. destruct Hf as (_ & -> & _ & <- & ->). destruct C3 as (i & os & rest & -> & C4).
        exists i, os, rest. split; [reflexivity|exact C4].
  - right. split; [rewrite crashes_iff; intros (_ & Hx & _); congruence|]. eexists. split; [reflexivity|]. split; [lia|]. intros _. exists e. split; [reflexivity|]. split; [reflexivity|].
    intros proto ip body Hf. apply frame_of_iff in Hf. destruct Hf as (_ & -> & Hx & _). congruence.
  - destruct (v4_new_no_panic _ Hv).
Qed.

(** C79: whatever bytes were captured, the program ends after at most 41 calls of
    next() in each loop; it panics for the frames listed and for no others. *)
Lemma c79_panics : forall E n b, rust_slice b -> (41 <= n)%nat ->
  exists r, dump E n b = Some r /\ (r = Panic <-> crashes b) /\ forall e, r <> Err e.
Proof.
  intros E n b Hr Hn. destruct (dump_outcome E n b Hr Hn) as [[H1 H2]|[H1 (ls & H2 & _)]]; eexists; (split; [exact H2|]); split; try discriminate; split; try discriminate; auto; try contradiction.
Qed.
(** C79: for the other bytes it prints one line for each layer and for each option, in their order. *)
Lemma c79_prints : forall E n b, rust_slice b -> (41 <= n)%nat -> ~ crashes b ->
  exists ls, dump E n b = Some (Ok ls) /\
    (len b < 14 -> ls = []) /\
    (14 <= len b -> exists e, ether_debug b = Ok e /\
      ((~ (exists proto ip body, frame_of 0x0800 proto b ip body) -> ls = [e]) /\
       forall proto ip body, frame_of 0x0800 proto b ip body -> exists i os rest, ls = e :: i :: os ++ rest /\ v4_debug E ip = Ok i /\
         option_lines v4_num (v4opt_as_ref E) v4opt_debug (v4_area ip) os /\ body_lines E proto body rest)).
Proof.
  intros E n b Hr Hn Hc. destruct (dump_outcome E n b Hr Hn) as [[H1 H2]|[H1 H2]]; [contradiction|exact H2].
Qed.
(** ** Frames given by their fields *)
Lemma frame_ip_of {S} (inner : S -> bytes) inner_ok s : frame_packet_ok inner inner_ok s -> ef_type (fr_ether s) = 0x0800 ->
  frame_of 0x0800 (vf_proto (fr_ip s)) (frame_bytes inner s) (v4_bytes (frame_ip inner s)) (inner (fr_inner s)).
Proof.
  intros Hs Ht. pose proof (read_frame inner inner_ok s Hs) as Q. cbv zeta in Q. destruct Q as (Q1 & Q2 & Q3 & Q4 & _).
  destruct Hs as (He & Hv & _). apply frame_of_iff.
  assert (Hl : 14 <= len (frame_bytes inner s)) by (rewrite frame_bytes_ip, len_app, ether_wire_len; lia).
  rewrite ether_payload_ok in Q2 by exact Hl. apply Ok_inj in Q2. split; [|split; [congruence|split; [exact Q3|split; [reflexivity|]]]].
  - rewrite <- Ht. destruct He as (_ & _ & He). rewrite frame_bytes_ip. destruct (fr_ether s) as [[] [] ty]. cbn [ef_type] in *. unfold u16 in He.
    match goal with |- wire16 ?l 12 = _ => change (wire16 l 12) with (ty / 256 * 256 + ty mod 256) end. lia.
  - pose proof (c07_v4 _ Q3) as Q. cbv zeta in Q. destruct Q as (_ & _ & _ & Q & _). rewrite Q in Q4. apply Ok_inj in Q4. rewrite <- Q4.
    unfold body_of. rewrite takeN_dropN_comm. f_equal; f_equal; lia.
Qed.
Lemma frame_crashes {S} (inner : S -> bytes) inner_ok s : frame_packet_ok inner inner_ok s -> ef_type (fr_ether s) = 0x0800 ->
  (crashes (frame_bytes inner s) <-> vf_mf (fr_ip s) = true \/ broken_area v4_num (fr_options s) \/ bad_body (vf_proto (fr_ip s)) (inner (fr_inner s))).
Proof.
  intros Hs Ht. pose proof (frame_ip_of inner inner_ok s Hs Ht) as Hf. destruct Hs as (He & Hv & Hi).
  assert (Hm : more_fragments (v4_bytes (frame_ip inner s)) <-> vf_mf (fr_ip s) = true).
  { destruct Hv as (Hok & _). cbn [frame_ip vp_header] in Hok. destruct Hok as (_ & _ & _ & _ & _ & _ & Hfr & _).
    unfold more_fragments. change (nthN (v4_bytes (frame_ip inner s)) 6) with
      ((bit (vf_reserved (fr_ip s)) * 32768 + bit (vf_df (fr_ip s)) * 16384 + bit (vf_mf (fr_ip s)) * 8192 + vf_frag (fr_ip s)) / 256).
    destruct (vf_reserved (fr_ip s)), (vf_df (fr_ip s)), (vf_mf (fr_ip s)); cbn [bit]; (split; intros HH; [|try discriminate HH; lia]); try reflexivity; exfalso; lia. }
  pose proof (v4_ihl_bytes _ Hv) as Hih. pose proof Hv as (_ & _ & Hlen & _). cbn [frame_ip vp_header vp_options] in Hih, Hlen.
  assert (Ha : v4_area (v4_bytes (frame_ip inner s)) = fr_options s).
  { unfold v4_area. rewrite Hih. change (v4_bytes (frame_ip inner s)) with (v4_wire (fr_ip s) ++ fr_options s ++ inner (fr_inner s) ++ fr_padding s).
    change 20 with (len (v4_wire (fr_ip s))) at 2. rewrite dropN_app_len. replace (vf_ihl (fr_ip s) * 4 - 20) with (len (fr_options s)) by lia. apply takeN_app_len. }
  unfold crashes. split.
  - intros (proto & ip & body & Hf' & H). apply frame_of_iff in Hf, Hf'. destruct Hf as (_ & Hip & _ & H9 & Hb). destruct Hf' as (_ & -> & _ & H9' & ->).
    rewrite <- Hip, <- Hb in H. rewrite <- Hip, H9 in H9'. subst proto.
    destruct H as [H|[H|[H|H]]]; [left; tauto|lia|right; left; rewrite <- Ha; exact H|right; right; exact H].
  - intros H. exists (vf_proto (fr_ip s)), (v4_bytes (frame_ip inner s)), (inner (fr_inner s)). split; [exact Hf|].
    rewrite Ha. destruct H as [H|[H|H]]; [left; tauto|right; right; left; exact H|right; right; right; exact H].
Qed.
(** C79: a frame around UDP: exactly a fragment that is not the last, and a broken option, crash the program; *)
Lemma c79_udp_frame : forall s, frame_packet_ok udp_bytes udp_packet_ok s -> ef_type (fr_ether s) = 0x0800 -> vf_proto (fr_ip s) = 17 ->
  (crashes (frame_bytes udp_bytes s) <-> vf_mf (fr_ip s) = true \/ broken_area v4_num (fr_options s)).
Proof.
  intros s Hs Ht Hp. rewrite (frame_crashes _ _ _ Hs Ht), Hp. unfold bad_body. intuition discriminate.
Qed.
(** C79: around TCP also a broken TCP option, and the data offset that set_flags() leaves behind; *)
Lemma c79_tcp_frame : forall s, frame_packet_ok tcp_bytes tcp_packet_ok s -> ef_type (fr_ether s) = 0x0800 -> vf_proto (fr_ip s) = 6 ->
  (crashes (frame_bytes tcp_bytes s) <->
   vf_mf (fr_ip s) = true \/ broken_area v4_num (fr_options s) \/ tcp_spoiled (fr_inner s) = true \/ broken_area tcp_num (tp_options (fr_inner s))).
Proof.
  intros s Hs Ht Hp. rewrite (frame_crashes _ _ _ Hs Ht), Hp. destruct Hs as (_ & _ & Hi). set (t := fr_inner s) in *. clearbody t.
  pose proof (tcp_new_bytes t Hi) as Hn. apply tcp_new_iff in Hn. destruct Hn as (_ & Hfit).
  assert (Ho : nthN (tcp_bytes t) 12 / 16 = tf_offset (tp_header t)).
  { destruct Hi as ((H1 & H2 & H3 & H4 & H5 & H6 & H7 & H8) & _).
    change (nthN (tcp_bytes t) 12) with ((tf_offset (tp_header t) * 4096 + tf_reserved (tp_header t) * 512 + tf_flags (tp_header t)) / 256).
    unfold u16 in *. lia. }
  pose proof Hi as (_ & Hoff & _).
  assert (Ha : tcp_spoiled t = false -> tcp_area (tcp_bytes t) = tp_options t).
  { unfold tcp_spoiled. intros Hsp. apply N.eqb_neq in Hsp. destruct Hoff as [Hoff|Hoff]; [|contradiction].
    unfold tcp_area. rewrite Ho. unfold tcp_bytes. change 20 with (len (tcp_wire (tp_header t))) at 2. rewrite dropN_app_len.
    replace (tf_offset (tp_header t) * 4 - 20) with (len (tp_options t)) by lia. apply takeN_app_len. }
  assert (H5 : tf_offset (tp_header t) < 5 <-> tcp_spoiled t = true) by (unfold tcp_spoiled; rewrite N.eqb_eq; lia).
  unfold bad_body. rewrite Ho. split.
  - intros [H|[H|[(_ & _ & [H|H])|(H & _)]]]; [auto|auto|right; right; left; apply H5; exact H| |discriminate].
    destruct (tcp_spoiled t) eqn:Hsp; [auto|]. rewrite Ha in H by reflexivity. auto.
  - intros [H|[H|[H|H]]]; [auto|auto|right; right; left; split; [reflexivity|]; split; [exact Hfit|left; apply H5; exact H]|].
    right; right; left. split; [reflexivity|]. split; [exact Hfit|]. destruct (tcp_spoiled t) eqn:Hsp; [left; apply H5; reflexivity|].
    right. rewrite Ha by reflexivity. exact H.
Qed.
(** C79: around an echo message nothing more than the IPv4 header's. *)
Lemma c79_echo_frame : forall s, frame_packet_ok echo_bytes echo_packet_ok s -> ef_type (fr_ether s) = 0x0800 -> vf_proto (fr_ip s) = 1 ->
  (crashes (frame_bytes echo_bytes s) <-> vf_mf (fr_ip s) = true \/ broken_area v4_num (fr_options s)).
Proof.
  intros s Hs Ht Hp. rewrite (frame_crashes _ _ _ Hs Ht), Hp. unfold bad_body. destruct Hs as (_ & _ & (_ & Hty & _)).
  split; [|tauto]. intros [H|[H|[(H & _)|(_ & q & (_ & H & _) & _)]]]; [auto|auto|discriminate|]. exfalso.
  change (nthN (echo_bytes (fr_inner s)) 0) with (cf_type (cp_header (fr_inner s))) in H. lia.
Qed.
(** C79: which bytes crash the program does not depend on the build. *)
Lemma c79_builds : forall E E' n n' b, is_bytes b -> len b < 2 ^ 31 -> (41 <= n)%nat -> (41 <= n')%nat ->
  (dump E n b = Some Panic <-> dump E' n' b = Some Panic).
Proof.
  intros E E' n n' b Hb Hl Hn Hn'.
  assert (R : forall E : env, rust_slice b) by (intros X; split; [exact Hb|]; unfold ISIZE_MAX; destruct X as [? ? []]; cbn; lia).
  destruct (c79_panics E n b (R E) Hn) as (r & -> & H1 & _). destruct (c79_panics E' n' b (R E') Hn') as (r' & -> & H2 & _).
  split; intros H; f_equal; [apply H2, H1|apply H1, H2]; congruence.
Qed.
(** Three No-Operation options and an End; the same with More Fragments set; a kind without length; a length of zero; one that is too long. *)
Example c79_example : forall E,
  let eth := [1; 1; 1; 1; 1; 1; 2; 2; 2; 2; 2; 2; 8; 0] in
  let ip f p := [70; 0; 0; 32; 0; 0; f; 0; 64; p; 0; 0; 1; 2; 3; 4; 5; 6; 7; 8] in
  let udp := [0; 7; 0; 9; 0; 8; 0; 0] in
  (exists e i u, dump E 41 (eth ++ ip 64 17 ++ [1; 1; 1; 0] ++ udp) =
     Some (Ok [e; i; ShStruct "ip::v4::Option"
        [("is_copied", ShBool false); ("class", ShClass OC_Control); ("number", ShV4Number ON_NoOperation); ("length", ShNum 1); ("payload", ShBytes [1; 1; 0])];
        ShStruct "ip::v4::Option"
        [("is_copied", ShBool false); ("class", ShClass OC_Control); ("number", ShV4Number ON_NoOperation); ("length", ShNum 1); ("payload", ShBytes [1; 0])];
        ShStruct "ip::v4::Option"
        [("is_copied", ShBool false); ("class", ShClass OC_Control); ("number", ShV4Number ON_NoOperation); ("length", ShNum 1); ("payload", ShBytes [0])]; u])%string) /\
  dump E 41 (eth ++ ip 96 17 ++ [1; 1; 1; 0] ++ udp) = Some Panic /\
  dump E 41 (eth ++ ip 64 17 ++ [1; 1; 1; 7] ++ udp) = Some Panic /\
  dump E 41 (eth ++ ip 64 17 ++ [7; 0; 1; 1] ++ udp) = Some Panic /\
  dump E 41 (eth ++ ip 64 17 ++ [7; 9; 1; 1] ++ udp) <> Some Panic.
Proof.
  intros E. split; [destruct E as [[] [] []]; vm_compute; repeat eexists|].
  destruct E as [[] [] []]; vm_compute; repeat split; discriminate.
Qed.
