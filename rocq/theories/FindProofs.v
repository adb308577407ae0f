(** * FindProofs: C80 (looking an option up). *)
From Verif Require Import Base Enums Ipv4 Ip Tcp Spec SpecCalls SpecNumbers SpecOptions SpecDump SpecFind.
From Verif Require Import Lemmas ParseProofs AccessProofs OptionProofs EnumProofs TileProofs DumpProofs.
From Coq Require Import ZifyBool ZifyNat ZifyN.
Ltac Zify.zify_post_hook ::= Z.div_mod_to_equations.

(** What the walk needs to know about options. *)
Definition tests (num : N -> N) (w : N) (wanted : bytes -> res bool) (payload : bytes -> res bytes) : Prop :=
  (forall k r, k < 256 -> wanted (k :: r) = Ok (num k =? w)) /\
  (forall k d r, 2 <= num k -> payload (k :: (2 + len d) :: d ++ r) = Ok d) /\
  (forall k r, 2 <= num k -> payload (k :: 1 :: r) = Ok (1 :: r)) /\
  (forall k r, 2 <= num k -> payload (k :: 0 :: r) = Panic).

Lemma is_bytes_cons_lt k r : is_bytes (k :: r) -> k < 256.
Proof. intros H. inversion H. assumption. Qed.

Section Find.
Context (num : N -> N) (w : N) (E : env) (next : bytes -> res (step * bytes)) (wanted : bytes -> res bool) (payload : bytes -> res bytes).
Context (T : table num E next) (N1 : num 1 = 1) (W2 : 2 <= w) (P : tests num w wanted payload).
Notation find := (find_option next wanted payload).

Lemma find_skip b b' n : is_bytes b -> next b = Ok (Yield b, b') -> 0 < len b -> num (nthN b 0) <> w -> find (S n) b = find n b'.
Proof.
  intros Hb H Hl Hn. destruct b as [|k r]; [cbn in Hl; lia|]. change (nthN (k :: r) 0) with k in Hn. cbn [find_option]. rewrite H.
  rewrite (proj1 P k r (is_bytes_cons_lt _ _ Hb)). destruct (N.eqb_spec (num k) w); [contradiction|reflexivity].
Qed.
Lemma find_walk ps t m : Forall (piece_ok num) ps -> Forall (fun p => num (piece_kind p) <> w) ps -> is_bytes (area_of ps t) ->
  find (length (concat (map piece_yields ps)) + m) (area_of ps t) = find m t.
Proof.
  intros Ho. induction Ho as [|p ps Hp Hps IH]; intros Hw Hb; [reflexivity|]. inversion Hw as [|? ? Hw1 Hw2]; subst. clear Hw.
  rewrite area_cons in Hb |- *. set (rest := area_of ps t) in *. pose proof Hb as Hb'. apply is_bytes_app in Hb'. destruct Hb' as [_ Hbr].
  specialize (IH Hw2 Hbr). clearbody rest.
  destruct p as [k|k d|k]; cbn [piece_wire piece_yields map concat app length Nat.add piece_ok piece_kind] in *.
  - destruct (T _ Hb) as [_ H]. destruct (H _ _ eq_refl) as (_ & H1 & _).
    erewrite find_skip; [exact IH|exact Hb|apply H1; apply Hp|rewrite len_cons; lia|exact Hw1].
  - destruct Hp as (P1 & P2 & P3). destruct (T _ Hb) as [_ H]. destruct (H _ _ eq_refl) as (_ & _ & _ & H1).
    destruct (H1 _ _ P2 eq_refl) as (_ & _ & _ & H2).
    set (l := 2 + len d) in *.
    assert (Hl : 2 <= l <= len (k :: l :: d ++ rest)) by (rewrite !len_cons, len_app; lia).
    assert (Hd1 : dropN l (k :: l :: d ++ rest) = rest).
    { assert (Hx : l = len (k :: l :: d)) by (rewrite !len_cons; lia).
      change (k :: l :: d ++ rest) with ((k :: l :: d) ++ rest); rewrite Hx at 1; apply dropN_app_len. }
    specialize (H2 Hl). rewrite Hd1 in H2.
    erewrite find_skip; [exact IH|exact Hb|exact H2|rewrite len_cons; lia|exact Hw1].
  - destruct Hp as (P1 & P2). destruct (T _ Hb) as [_ H]. destruct (H _ _ eq_refl) as (_ & _ & _ & H1).
    destruct (H1 _ _ P2 eq_refl) as (_ & _ & H2 & _).
    assert (Hb1 : is_bytes (1 :: rest)) by (inversion Hb; assumption).
    destruct (T _ Hb1) as [_ G]. destruct (G _ _ eq_refl) as (_ & G1 & _).
    erewrite find_skip; [|exact Hb|apply H2; reflexivity|rewrite len_cons; lia|exact Hw1].
    erewrite find_skip; [exact IH|exact Hb1|apply G1; exact N1|rewrite len_cons; lia|]. change (nthN (1 :: rest) 0) with 1. lia.
Qed.
Lemma find_without area t n : is_bytes area -> (length area < n)%nat -> without num w area t -> is_bytes t /\ exists m, find n area = find (S m) t.
Proof.
  intros Hb Hn (ps & -> & H1 & H2). destruct (fuel num N1 ps t n Hn) as (m & ->).
  split; [unfold area_of in Hb; apply is_bytes_app in Hb; apply Hb|]. exists m. apply find_walk; assumption.
Qed.
(** The outcome in each case. *)
Lemma find_first area d n : is_bytes area -> (length area < n)%nat -> first_is num w area d -> find n area = Some (Ok (Some d)).
Proof.
  intros Hb Hn (k & rest & H1 & H2 & H3). destruct (find_without _ _ _ Hb Hn H1) as (Ht & m & ->).
  destruct (T _ Ht) as [_ H]. destruct (H _ _ eq_refl) as (_ & _ & _ & H4). destruct (H4 _ _ ltac:(lia) eq_refl) as (_ & _ & _ & H5).
  cbn [find_option]. rewrite H5 by (rewrite !len_cons, len_app; lia).
  rewrite (proj1 P k _ (is_bytes_cons_lt _ _ Ht)), H2, N.eqb_refl. rewrite (proj1 (proj2 P)) by lia. reflexivity.
Qed.
Lemma find_odd area rest n : is_bytes area -> (length area < n)%nat -> first_is_odd num w area rest -> find n area = Some (Ok (Some (1 :: rest))).
Proof.
  intros Hb Hn (k & H1 & H2). destruct (find_without _ _ _ Hb Hn H1) as (Ht & m & ->).
  destruct (T _ Ht) as [_ H]. destruct (H _ _ eq_refl) as (_ & _ & _ & H4). destruct (H4 _ _ ltac:(lia) eq_refl) as (_ & _ & H5 & _).
  cbn [find_option]. rewrite H5 by reflexivity.
  rewrite (proj1 P k _ (is_bytes_cons_lt _ _ Ht)), H2, N.eqb_refl. rewrite (proj1 (proj2 (proj2 P))) by lia. reflexivity.
Qed.
Lemma find_absent area n : is_bytes area -> (length area < n)%nat -> absent num w area -> find n area = Some (Ok None).
Proof.
  intros Hb Hn (t & H1 & H2). destruct (find_without _ _ _ Hb Hn H1) as (Ht & m & ->).
  destruct (T _ Ht) as [H0 H]. cbn [find_option]. destruct H2 as [->|(k & pad & -> & Hk)].
  - rewrite H0 by reflexivity. reflexivity.
  - destruct (H _ _ eq_refl) as (H4 & _). rewrite H4 by exact Hk. reflexivity.
Qed.
Lemma find_too_long area n : is_bytes area -> (length area < n)%nat -> too_long num w area -> find n area = Some (Err SmallBuffer).
Proof.
  intros Hb Hn (k & l & rest & H1 & H2 & H3). destruct (find_without _ _ _ Hb Hn H1) as (Ht & m & ->).
  destruct (T _ Ht) as [_ H]. destruct (H _ _ eq_refl) as (_ & _ & _ & H4). destruct (H4 _ _ H2 eq_refl) as (H5 & _).
  cbn [find_option]. rewrite H5 by exact H3. reflexivity.
Qed.
Lemma find_cut area n : is_bytes area -> (length area < n)%nat -> cut_off num w area -> find n area = Some Panic.
Proof.
  intros Hb Hn (k & H1 & H2). destruct (find_without _ _ _ Hb Hn H1) as (Ht & m & ->).
  destruct (T _ Ht) as [_ H]. destruct (H _ _ eq_refl) as (_ & _ & H4 & _). cbn [find_option]. rewrite H4 by (exact H2 || reflexivity). reflexivity.
Qed.
Lemma find_zero area v n : is_bytes area -> (length area < n)%nat -> zero_length num w v area ->
  find n area = if overflow_checks E then Some Panic else if v =? w then Some Panic else None.
Proof.
  intros Hb Hn (k & rest & H1 & H2 & H3). subst v. destruct (find_without _ _ _ Hb Hn H1) as (Ht & m & ->).
  destruct (T _ Ht) as [_ H]. destruct (H _ _ eq_refl) as (_ & _ & _ & H4). destruct (H4 _ _ H2 eq_refl) as (_ & H5 & _). specialize (H5 eq_refl).
  destruct (overflow_checks E).
  { cbn [find_option]. rewrite H5. reflexivity. }
  destruct (N.eqb_spec (num k) w) as [He|Hne].
  - cbn [find_option]. rewrite H5, (proj1 P k _ (is_bytes_cons_lt _ _ Ht)), He, N.eqb_refl. rewrite (proj2 (proj2 (proj2 P))) by exact H2. reflexivity.
  - generalize (S m). intros j. induction j as [|j IH]; [reflexivity|].
    erewrite find_skip; [exact IH|exact Ht|exact H5|rewrite len_cons; lia|exact Hne].
Qed.
(** One of the cases applies. *)
Lemma first_or_none ps : Forall (fun p => num (piece_kind p) <> w) ps \/
  exists pre p post, ps = pre ++ p :: post /\ Forall (fun p => num (piece_kind p) <> w) pre /\ num (piece_kind p) = w.
Proof.
  induction ps as [|p ps IH]; [left; constructor|]. destruct (N.eq_dec (num (piece_kind p)) w) as [He|Hn].
  - right. exists [], p, ps. split; [reflexivity|]. split; [constructor|exact He].
  - destruct IH as [IH|(pre & q & post & -> & H1 & H2)]; [left; constructor; assumption|].
    right. exists (p :: pre), q, post. split; [reflexivity|]. split; [constructor; assumption|exact H2].
Qed.
Lemma area_app pre post t : area_of (pre ++ post) t = area_of pre (area_of post t).
Proof. unfold area_of. rewrite map_app, concat_app, app_assoc. reflexivity. Qed.
Lemma find_cases area : is_bytes area ->
  (exists d, first_is num w area d) \/ (exists rest, first_is_odd num w area rest) \/ absent num w area \/ too_long num w area \/
  cut_off num w area \/ exists v, zero_length num w v area.
Proof.
  intros Hb. destruct (area_split num N1 (S (length area)) area (Nat.lt_succ_diag_r _) Hb) as (ps & t & -> & Hp & Ht).
  destruct (first_or_none ps) as [Hn|(pre & p & post & -> & H1 & H2)].
  - assert (HW : without num w (area_of ps t) t) by (exists ps; auto).
    destruct Ht as [Ht|[(k & l & rest & -> & K1 & K2)|(k & K1 & [->|(rest & ->)])]].
    + right. right. left. exists t. auto.
    + right. right. right. left. exists k, l, rest. auto.
    + right. right. right. right. left. exists k. auto.
    + right. right. right. right. right. exists (num k), k, rest. auto.
  - apply Forall_app in Hp. destruct Hp as [Hp1 Hp2]. inversion Hp2 as [|? ? Hp3 Hp4]; subst.
    assert (HW : without num (num (piece_kind p)) (area_of (pre ++ p :: post) t) (area_of (p :: post) t)).
    { exists pre. rewrite area_app. auto. }
    rewrite area_cons in HW at 1. destruct p as [k|k d|k]; cbn [piece_wire piece_kind piece_ok app] in *.
    + destruct Hp3. lia.
    + left. exists d, k, (area_of post t). split; [exact HW|]. split; [reflexivity|apply Hp3].
    + right. left. exists (area_of post t), k. split; [exact HW|reflexivity].
Qed.
Lemma find_table area n : is_bytes area -> (length area < n)%nat -> lookup_table num w area (overflow_checks E) (find n area).
Proof.
  intros Hb Hn.
  pose proof (fun d => find_first area d n Hb Hn) as F1. pose proof (fun r => find_odd area r n Hb Hn) as F2.
  pose proof (find_absent area n Hb Hn) as F3. pose proof (find_too_long area n Hb Hn) as F4.
  pose proof (find_cut area n Hb Hn) as F5. pose proof (fun v => find_zero area v n Hb Hn) as F6.
  pose proof (find_cases area Hb) as C. set (r := find n area) in *. clearbody r.
  assert (G : forall v, zero_length num w v area -> (r = Some Panic <-> overflow_checks E = true \/ v = w) /\
    (r = None <-> overflow_checks E = false /\ v <> w) /\ (r = Some Panic \/ r = None)).
  { intros v Hv. specialize (F6 v Hv). destruct (overflow_checks E); [|destruct (N.eqb_spec v w)]; rewrite F6; intuition (congruence || discriminate). }
  clear F6. split; [|split; [|split; [|split]]].
  - intros d. split.
    + intros Hr. destruct C as [(x & Hx)|[(x & Hx)|[Hx|[Hx|[Hx|(v & Hx)]]]]].
      * left. rewrite (F1 _ Hx) in Hr. injection Hr as <-. exact Hx.
      * right. exists x. split; [exact Hx|]. rewrite (F2 _ Hx) in Hr. congruence.
      * rewrite (F3 Hx) in Hr. discriminate.
      * rewrite (F4 Hx) in Hr. discriminate.
      * rewrite (F5 Hx) in Hr. discriminate.
      * destruct (G _ Hx) as (_ & _ & [H|H]); rewrite H in Hr; discriminate.
    + intros [Hx|(x & Hx & ->)]; [exact (F1 _ Hx)|exact (F2 _ Hx)].
  - split; [|exact F3].
    intros Hr. destruct C as [(x & Hx)|[(x & Hx)|[Hx|[Hx|[Hx|(v & Hx)]]]]].
    + rewrite (F1 _ Hx) in Hr. discriminate.
    + rewrite (F2 _ Hx) in Hr. discriminate.
    + exact Hx.
    + rewrite (F4 Hx) in Hr. discriminate.
    + rewrite (F5 Hx) in Hr. discriminate.
    + destruct (G _ Hx) as (_ & _ & [H|H]); rewrite H in Hr; discriminate.
  - intros e. split; [|intros (-> & Hx); exact (F4 Hx)].
    intros Hr. destruct C as [(x & Hx)|[(x & Hx)|[Hx|[Hx|[Hx|(v & Hx)]]]]].
    + rewrite (F1 _ Hx) in Hr. discriminate.
    + rewrite (F2 _ Hx) in Hr. discriminate.
    + rewrite (F3 Hx) in Hr. discriminate.
    + rewrite (F4 Hx) in Hr. injection Hr as <-. auto.
    + rewrite (F5 Hx) in Hr. discriminate.
    + destruct (G _ Hx) as (_ & _ & [H|H]); rewrite H in Hr; discriminate.
  - split; [|intros [Hx|(v & Hx & Hv)]; [exact (F5 Hx)|apply (G v Hx); exact Hv]].
    intros Hr. destruct C as [(x & Hx)|[(x & Hx)|[Hx|[Hx|[Hx|(v & Hx)]]]]].
    + rewrite (F1 _ Hx) in Hr. discriminate.
    + rewrite (F2 _ Hx) in Hr. discriminate.
    + rewrite (F3 Hx) in Hr. discriminate.
    + rewrite (F4 Hx) in Hr. discriminate.
    + left. exact Hx.
    + right. exists v. split; [exact Hx|]. apply (G v Hx). exact Hr.
  - split; [|intros (v & Hx & Hv); apply (G v Hx); exact Hv].
    intros Hr. destruct C as [(x & Hx)|[(x & Hx)|[Hx|[Hx|[Hx|(v & Hx)]]]]].
    + rewrite (F1 _ Hx) in Hr. discriminate.
    + rewrite (F2 _ Hx) in Hr. discriminate.
    + rewrite (F3 Hx) in Hr. discriminate.
    + rewrite (F4 Hx) in Hr. discriminate.
    + rewrite (F5 Hx) in Hr. discriminate.
    + exists v. split; [exact Hx|]. apply (G v Hx). exact Hr.
Qed.
End Find.

(** ** The two kinds of options *)
Lemma payload_tlv (length : bytes -> res N) (split : bytes -> res (bytes * bytes)) k d r :
  length (k :: (2 + len d) :: d ++ r) = Ok (2 + len d) ->
  split (k :: (2 + len d) :: d ++ r) = (let* l := length (k :: (2 + len d) :: d ++ r) in
    if l =? 1 then split_at (k :: (2 + len d) :: d ++ r) 1 else let* s := slice_to (k :: (2 + len d) :: d ++ r) l in split_at s 2) ->
  (let* (_, p) := split (k :: (2 + len d) :: d ++ r) in Ok p) = Ok d.
Proof.
  intros HL ->. rewrite HL. cbn [bind]. destruct (N.eqb_spec (2 + len d) 1); [lia|].
  rewrite slice_to_ok by (rewrite !len_cons, len_app; lia). cbn [bind].
  assert (Hx : takeN (2 + len d) (k :: (2 + len d) :: d ++ r) = k :: (2 + len d) :: d).
  { change (k :: (2 + len d) :: d ++ r) with ((k :: (2 + len d) :: d) ++ r).
    replace (2 + len d) with (len (k :: (2 + len d) :: d)) at 1 by (rewrite !len_cons; lia). apply takeN_app_len. }
  rewrite Hx, split_at_ok by (rewrite !len_cons; lia). reflexivity.
Qed.
Lemma tcp_tests w : 2 <= w < 256 -> tests tcp_num w (tcp_wanted (tcpopt_number_from w)) tcpopt_payload.
Proof.
  intros Hw. unfold tests, tcp_num. split; [|split; [|split]].
  - intros k r Hk. unfold tcp_wanted. rewrite tcpopt_number_eq by (rewrite len_cons; lia). cbn [bind]. rewrite nthN_cons0.
    destruct (tcpopt_number_dec (tcpopt_number_from k) (tcpopt_number_from w)) as [He|Hn]; f_equal; symmetry.
    + apply N.eqb_eq. destruct c42_tcpopt as [H _]. rewrite <- (H k), <- (H w) by lia. congruence.
    + apply N.eqb_neq. congruence.
  - intros k d r Hk. apply (payload_tlv tcpopt_length tcpopt_split); [|reflexivity].
    rewrite tcpopt_length_eq by (rewrite len_cons; lia). rewrite nthN_cons0. destruct (N.ltb_spec k 2); [lia|].
    rewrite index_ok by (rewrite !len_cons; lia). reflexivity.
  - intros k r Hk. unfold tcpopt_payload, tcpopt_split. rewrite tcpopt_length_eq by (rewrite len_cons; lia). rewrite nthN_cons0.
    destruct (N.ltb_spec k 2); [lia|]. rewrite index_ok by (rewrite !len_cons; lia). cbn [bind]. change (nthN (k :: 1 :: r) 1 =? 1) with true. cbv iota.
    rewrite split_at_ok by (rewrite len_cons; lia). reflexivity.
  - intros k r Hk. unfold tcpopt_payload, tcpopt_split. rewrite tcpopt_length_eq by (rewrite len_cons; lia). rewrite nthN_cons0.
    destruct (N.ltb_spec k 2); [lia|]. rewrite index_ok by (rewrite !len_cons; lia). reflexivity.
Qed.
Lemma v4_tests w : 2 <= w < 32 -> tests v4_num w (v4_wanted (v4opt_number_from w)) v4opt_payload.
Proof.
  intros Hw. unfold tests, v4_num. split; [|split; [|split]].
  - intros k r Hk. unfold v4_wanted. rewrite v4opt_number_eq by (rewrite len_cons; lia). cbn [bind]. rewrite nthN_cons0.
    destruct (v4opt_number_dec (v4opt_number_from (k mod 32)) (v4opt_number_from w)) as [He|Hn]; f_equal; symmetry.
    + apply N.eqb_eq. destruct c42_v4opt as [H _]. rewrite <- (H (k mod 32)), <- (H w) by lia. congruence.
    + apply N.eqb_neq. congruence.
  - intros k d r Hk. apply (payload_tlv v4opt_length v4opt_split); [|reflexivity].
    rewrite v4opt_length_eq by (rewrite len_cons; lia). rewrite nthN_cons0. destruct (N.ltb_spec (k mod 32) 2); [lia|].
    rewrite index_ok by (rewrite !len_cons; lia). reflexivity.
  - intros k r Hk. unfold v4opt_payload, v4opt_split. rewrite v4opt_length_eq by (rewrite len_cons; lia). rewrite nthN_cons0.
    destruct (N.ltb_spec (k mod 32) 2); [lia|]. rewrite index_ok by (rewrite !len_cons; lia). cbn [bind]. change (nthN (k :: 1 :: r) 1 =? 1) with true. cbv iota.
    rewrite split_at_ok by (rewrite len_cons; lia). reflexivity.
  - intros k r Hk. unfold v4opt_payload, v4opt_split. rewrite v4opt_length_eq by (rewrite len_cons; lia). rewrite nthN_cons0.
    destruct (N.ltb_spec (k mod 32) 2); [lia|]. rewrite index_ok by (rewrite !len_cons; lia). reflexivity.
Qed.

Lemma find_more next wanted payload n m area r : find_option next wanted payload n area = Some r -> find_option next wanted payload (n + m) area = Some r.
Proof.
  revert area. induction n as [|n IH]; intros area H; [discriminate|]. cbn [find_option Nat.add] in *.
  destruct (next area) as [[[|o|e] a]|e|]; try exact H. destruct (wanted o) as [[]|e|]; try exact H. apply IH. exact H.
Qed.
Lemma find_none next wanted payload area : (exists N, forall n, (N < n)%nat -> find_option next wanted payload n area = None) ->
  forall n, find_option next wanted payload n area = None.
Proof.
  intros (N & H) n. destruct (find_option next wanted payload n area) as [r|] eqn:Hr; [|reflexivity].
  apply (find_more _ _ _ _ (S N)) in Hr. rewrite H in Hr by lia. discriminate.
Qed.

(** ** C80 *)
(** C80: looking up the option with number [w] in any TCP option area, the whole outcome:
    the data of the first such option (or, if its length byte says 1, all the bytes
    after its kind byte); None; an error; a panic; or a loop that has not ended after
    more calls of next() than there are bytes. *)
Lemma c80_tcp_find : forall E w area n, 2 <= w < 256 -> is_bytes area -> (length area < n)%nat ->
  lookup_table tcp_num w area (overflow_checks E) (tcp_find E (tcpopt_number_from w) n area).
Proof.
  intros E w area n Hw Hb Hn. apply find_table; [apply tcp_table|reflexivity|lia|apply tcp_tests; exact Hw|exact Hb|exact Hn].
Qed.
(** C80: IPv4, where the number is the low five bits of the type. *)
Lemma c80_v4_find : forall E w area n, 2 <= w < 32 -> is_bytes area -> (length area < n)%nat ->
  lookup_table v4_num w area (overflow_checks E) (v4_find E (v4opt_number_from w) n area).
Proof.
  intros E w area n Hw Hb Hn. apply find_table; [apply v4_table|reflexivity|lia|apply v4_tests; exact Hw|exact Hb|exact Hn].
Qed.
(** C80: a lookup that has not ended after that many calls never ends: in a release build
    an option said to be zero bytes long, before the wanted one, keeps it busy forever. *)
Lemma c80_tcp_hangs : forall E w v area, 2 <= w < 256 -> is_bytes area ->
  overflow_checks E = false -> zero_length tcp_num w v area -> v <> w ->
  forall n, tcp_find E (tcpopt_number_from w) n area = None.
Proof.
  intros E w v area Hw Hb HE Hz Hv. apply find_none. exists (length area). intros n Hn.
  destruct (c80_tcp_find E w area n Hw Hb Hn) as (_ & _ & _ & _ & H). apply H. exists v. auto.
Qed.
(** C80: IPv4. *)
Lemma c80_v4_hangs : forall E w v area, 2 <= w < 32 -> is_bytes area ->
  overflow_checks E = false -> zero_length v4_num w v area -> v <> w ->
  forall n, v4_find E (v4opt_number_from w) n area = None.
Proof.
  intros E w v area Hw Hb HE Hz Hv. apply find_none. exists (length area). intros n Hn.
  destruct (c80_v4_find E w area n Hw Hb Hn) as (_ & _ & _ & _ & H). apply H. exists v. auto.
Qed.
(** C80: the lookup in any accepted TCP packet: it panics if the data offset is below 5, and
    otherwise depends on the option area only. *)
Lemma c80_tcp_packet : forall E w p n, 2 <= w < 256 -> rust_slice p -> tcp_new p = Ok p -> (41 <= n)%nat ->
  (nthN p 12 / 16 < 5 -> tcp_lookup E (tcpopt_number_from w) n p = Some Panic) /\
  (5 <= nthN p 12 / 16 -> lookup_table tcp_num w (tcp_area p) (overflow_checks E) (tcp_lookup E (tcpopt_number_from w) n p)).
Proof.
  intros E w p n Hw Hr Hp Hn. apply tcp_new_iff in Hp. destruct Hp as (_ & F1 & F2). unfold tcp_lookup. rewrite tcp_options_ok by assumption.
  assert (H15 : nthN p 12 < 256) by (apply is_bytes_nth; apply Hr).
  destruct (N.ltb_spec (nthN p 12 / 16) 5); split; intros; try lia; [reflexivity|].
  apply c80_tcp_find; [exact Hw|apply is_bytes_takeN, is_bytes_dropN; apply Hr|apply area_short; [lia|exact Hn]].
Qed.
(** C80: IPv4, where the header length is what has to be at least 5. *)
Lemma c80_v4_packet : forall E w p n, 2 <= w < 32 -> rust_slice p -> v4_new p = Ok p -> (41 <= n)%nat ->
  (nthN p 0 mod 16 < 5 -> v4_lookup E (v4opt_number_from w) n p = Some Panic) /\
  (5 <= nthN p 0 mod 16 -> lookup_table v4_num w (v4_area p) (overflow_checks E) (v4_lookup E (v4opt_number_from w) n p)).
Proof.
  intros E w p n Hw Hr Hp Hn. apply c02_v4_new_iff in Hp. destruct Hp as (_ & F1 & _ & F3 & F4). unfold v4_lookup. rewrite v4_options_ok by assumption.
  destruct (N.ltb_spec (nthN p 0 mod 16) 5); split; intros; try lia; [reflexivity|].
  apply c80_v4_find; [exact Hw|apply is_bytes_takeN, is_bytes_dropN; apply Hr|apply area_short; [lia|exact Hn]].
Qed.
(** Options as in C27, as pieces. *)
Definition opt_piece (o : opt) : piece := match o with Nop => One 1 | Opt k d => Tlv k d end.
Definition opt_num (num : N -> N) (o : opt) : N := match o with Nop => 1 | Opt k _ => num k end.
Lemma opts_area os t : opts_wire os ++ t = area_of (map opt_piece os) t.
Proof.
  unfold area_of, opts_wire. f_equal. induction os as [|o os IH]; [reflexivity|]. cbn [map concat]. rewrite IH. f_equal. destruct o; reflexivity.
Qed.
Lemma without_opts num w pre t : (forall o, In o pre -> piece_ok num (opt_piece o)) -> (forall k d, In (Opt k d) pre -> num k <> w) -> num 1 = 1 -> 2 <= w ->
  without num w (opts_wire pre ++ t) t.
Proof.
  intros H1 H2 H3 H4. exists (map opt_piece pre). split; [apply opts_area|]. split; apply Forall_forall; intros p Hp; apply in_map_iff in Hp; destruct Hp as (o & <- & Ho); [apply H1; exact Ho|].
  destruct o as [|k d]; cbn [opt_piece piece_kind]; [lia|]. apply (H2 k d Ho).
Qed.
Lemma tcp_opt_piece o : tcp_opt_ok o -> piece_ok tcp_num (opt_piece o).
Proof. destruct o as [|k d]; cbn [tcp_opt_ok opt_piece piece_ok]; unfold tcp_num; lia. Qed.
Lemma v4_opt_piece o : v4_opt_ok o -> piece_ok v4_num (opt_piece o).
Proof. destruct o as [|k d]; cbn [v4_opt_ok opt_piece piece_ok]; unfold v4_num; [intros _; split; [lia|reflexivity]|lia]. Qed.
Lemma opts_split pre o post t : opts_wire (pre ++ o :: post) ++ t = opts_wire pre ++ opt_wire o ++ opts_wire post ++ t.
Proof. unfold opts_wire. rewrite map_app, concat_app. cbn [map concat]. rewrite <- !app_assoc. reflexivity. Qed.
(** C80: so in a packet with fields [f] and well-formed options, a lookup gives the data of
    the first option with that kind, wherever it is and whatever follows it. *)
Lemma c80_tcp_present : forall E f pre k d post t payload n, tcp_fields_ok f ->
  is_bytes (opts_wire (pre ++ Opt k d :: post) ++ t) -> Forall tcp_opt_ok (pre ++ [Opt k d]) -> (forall d', ~ In (Opt k d') pre) ->
  tf_offset f * 4 = 20 + len (opts_wire (pre ++ Opt k d :: post) ++ t) -> (41 <= n)%nat ->
  tcp_lookup E (tcpopt_number_from k) n (tcp_wire f ++ (opts_wire (pre ++ Opt k d :: post) ++ t) ++ payload) = Some (Ok (Some d)).
Proof.
  intros E f pre k d post t payload n Hf Hb Ho Hpre Hoff Hn.
  assert (H9 : tcp_options (tcp_wire f ++ (opts_wire (pre ++ Opt k d :: post) ++ t) ++ payload) = Ok (opts_wire (pre ++ Opt k d :: post) ++ t)) by (apply (c09_tcp f _ payload Hf Hoff)).
  unfold tcp_lookup. rewrite H9. clear H9. assert (H16 : tf_offset f < 16) by apply Hf.
  apply Forall_app in Ho. destruct Ho as [Ho1 Ho2]. pose proof (Forall_inv Ho2) as Hk. cbn [tcp_opt_ok] in Hk. destruct Hk as (K1 & K2).
  destruct (c80_tcp_find E k (opts_wire (pre ++ Opt k d :: post) ++ t) n K1 Hb) as (H & _); [unfold len in Hoff; lia|].
  apply H. left. exists k, (opts_wire post ++ t). split; [|split; [reflexivity|exact K2]].
  rewrite opts_split. change (k :: (2 + len d) :: d ++ opts_wire post ++ t) with (opt_wire (Opt k d) ++ opts_wire post ++ t).
  apply without_opts; [|intros k' d' Hi He; unfold tcp_num in He; subst k'; exact (Hpre d' Hi)|reflexivity|apply K1].
  intros o Hi. apply tcp_opt_piece. rewrite Forall_forall in Ho1. apply Ho1. exact Hi.
Qed.
(** C80: and None if there is none with that kind. *)
Lemma c80_tcp_absent : forall E f os w t payload n, tcp_fields_ok f -> 2 <= w < 256 ->
  is_bytes (opts_wire os ++ t) -> Forall tcp_opt_ok os -> opt_end t -> (forall d, ~ In (Opt w d) os) ->
  tf_offset f * 4 = 20 + len (opts_wire os ++ t) -> (41 <= n)%nat ->
  tcp_lookup E (tcpopt_number_from w) n (tcp_wire f ++ (opts_wire os ++ t) ++ payload) = Some (Ok None).
Proof.
  intros E f os w t payload n Hf Hw Hb Ho Ht Hpre Hoff Hn.
  assert (H9 : tcp_options (tcp_wire f ++ (opts_wire os ++ t) ++ payload) = Ok (opts_wire os ++ t)) by (apply (c09_tcp f _ payload Hf Hoff)).
  unfold tcp_lookup. rewrite H9. clear H9. assert (H16 : tf_offset f < 16) by apply Hf.
  destruct (c80_tcp_find E w (opts_wire os ++ t) n Hw Hb) as (_ & H & _); [unfold len in Hoff; lia|].
  apply H. exists t. split; [|destruct Ht as [->|(pad & ->)]; [left; reflexivity|right; exists 0, pad; split; reflexivity]].
  apply without_opts; [|intros k' d' Hi He; unfold tcp_num in He; subst k'; exact (Hpre d' Hi)|reflexivity|apply Hw].
  intros o Hi. apply tcp_opt_piece. rewrite Forall_forall in Ho. apply Ho. exact Hi.
Qed.
(** C80: IPv4: the first option with that number, whatever its copied flag and class. *)
Lemma c80_v4_present : forall E f pre k d post t payload trailer n, v4_fields_ok f -> vf_version f = 4 ->
  is_bytes (opts_wire (pre ++ Opt k d :: post) ++ t) -> Forall v4_opt_ok (pre ++ [Opt k d]) ->
  (forall k' d', In (Opt k' d') pre -> k' mod 32 <> k mod 32) ->
  vf_ihl f * 4 = 20 + len (opts_wire (pre ++ Opt k d :: post) ++ t) ->
  vf_total f = 20 + len (opts_wire (pre ++ Opt k d :: post) ++ t) + len payload -> (41 <= n)%nat ->
  v4_lookup E (v4opt_number_from (k mod 32)) n (v4_wire f ++ (opts_wire (pre ++ Opt k d :: post) ++ t) ++ payload ++ trailer) = Some (Ok (Some d)).
Proof.
  intros E f pre k d post t payload trailer n Hf Hv Hb Ho Hpre Hoff Htot Hn.
  assert (H9 : v4_options (v4_wire f ++ (opts_wire (pre ++ Opt k d :: post) ++ t) ++ payload ++ trailer) = Ok (opts_wire (pre ++ Opt k d :: post) ++ t)) by (apply (c09_v4_parts f _ payload trailer Hf Hv Hoff Htot)).
  unfold v4_lookup. rewrite H9. clear H9. assert (H16 : vf_ihl f < 16) by apply Hf.
  apply Forall_app in Ho. destruct Ho as [Ho1 Ho2]. pose proof (Forall_inv Ho2) as Hk. cbn [v4_opt_ok] in Hk. destruct Hk as (K1 & K2 & K3).
  destruct (c80_v4_find E (k mod 32) (opts_wire (pre ++ Opt k d :: post) ++ t) n) as (H & _); [lia|exact Hb|unfold len in Hoff; lia|].
  apply H. left. exists k, (opts_wire post ++ t). split; [|split; [reflexivity|exact K3]].
  rewrite opts_split. change (k :: (2 + len d) :: d ++ opts_wire post ++ t) with (opt_wire (Opt k d) ++ opts_wire post ++ t).
  apply without_opts; [|intros k' d' Hi; exact (Hpre k' d' Hi)|reflexivity|exact K2].
  intros o Hi. apply v4_opt_piece. rewrite Forall_forall in Ho1. apply Ho1. exact Hi.
Qed.
(** C80: IPv4, None if there is none. *)
Lemma c80_v4_absent : forall E f os w t payload trailer n, v4_fields_ok f -> vf_version f = 4 -> 2 <= w < 32 ->
  is_bytes (opts_wire os ++ t) -> Forall v4_opt_ok os -> opt_end t -> (forall k d, In (Opt k d) os -> k mod 32 <> w) ->
  vf_ihl f * 4 = 20 + len (opts_wire os ++ t) -> vf_total f = 20 + len (opts_wire os ++ t) + len payload -> (41 <= n)%nat ->
  v4_lookup E (v4opt_number_from w) n (v4_wire f ++ (opts_wire os ++ t) ++ payload ++ trailer) = Some (Ok None).
Proof.
  intros E f os w t payload trailer n Hf Hv Hw Hb Ho Ht Hpre Hoff Htot Hn.
  assert (H9 : v4_options (v4_wire f ++ (opts_wire os ++ t) ++ payload ++ trailer) = Ok (opts_wire os ++ t)) by (apply (c09_v4_parts f _ payload trailer Hf Hv Hoff Htot)).
  unfold v4_lookup. rewrite H9. clear H9. assert (H16 : vf_ihl f < 16) by apply Hf.
  destruct (c80_v4_find E w (opts_wire os ++ t) n Hw Hb) as (_ & H & _); [unfold len in Hoff; lia|].
  apply H. exists t. split; [|destruct Ht as [->|(pad & ->)]; [left; reflexivity|right; exists 0, pad; split; reflexivity]].
  apply without_opts; [|intros k' d' Hi; exact (Hpre k' d' Hi)|reflexivity|apply Hw].
  intros o Hi. apply v4_opt_piece. rewrite Forall_forall in Ho. apply Ho. exact Hi.
Qed.
(** Seven lookups: found, found after others, absent, said to be one byte long, too long,
    cut off, and zero bytes long (a panic with overflow checks, an endless loop without). *)
Example c80_example : forall E,
  tcp_find E TN_MaximumSegmentSize 41 [2; 4; 5; 180] = Some (Ok (Some [5; 180])) /\
  tcp_find E TN_WindowScale 41 [2; 4; 5; 180; 1; 3; 3; 7; 3; 3; 9] = Some (Ok (Some [7])) /\
  tcp_find E TN_WindowScale 41 [2; 4; 5; 180; 0; 3; 3; 7] = Some (Ok None) /\
  tcp_find E TN_MaximumSegmentSize 41 [2; 1; 5; 180] = Some (Ok (Some [1; 5; 180])) /\
  tcp_find E TN_MaximumSegmentSize 41 [3; 9; 5; 180] = Some (Err SmallBuffer) /\
  tcp_find E TN_MaximumSegmentSize 41 [1; 3] = Some Panic /\
  tcp_find E TN_MaximumSegmentSize 41 [3; 0; 5; 180] = (if overflow_checks E then Some Panic else None) /\
  zero_length tcp_num 2 3 [3; 0; 5; 180] /\
  v4_find E (v4opt_number_from 20) 41 [1; 130; 3; 9; 148; 4; 0; 0] = Some (Ok (Some [0; 0])).
Proof.
  intros E. repeat split; try (destruct E as [[] [] []]; vm_compute; reflexivity).
  exists 3, [5; 180]. split; [|split; [vm_compute; discriminate|reflexivity]]. exists []. repeat split; constructor.
Qed.
