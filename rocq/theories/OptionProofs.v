(** * OptionProofs: TCP and IPv4 options and their iterators (C27, C28). *)
From Verif Require Import Base Enums Ipv4 Tcp Spec SpecCalls Lemmas ParseProofs SliceProofs AccessProofs.
From Coq Require Import ZifyBool ZifyNat ZifyN.
Ltac Zify.zify_post_hook ::= Z.div_mod_to_equations.

Lemma nexts_fix next b s : next b = Ok (s, b) -> forall n, nexts next n b = repeat (Ok s) n.
Proof. intros H. induction n as [|n IH]; [reflexivity|]. cbn [nexts repeat]. rewrite H, IH. reflexivity. Qed.

(** * TCP *)
(** ** The decision table of one call *)
Lemma tcpopt_number_cases k : 
  (k = 0 -> tcpopt_number_from k = TN_End) /\ (k = 1 -> tcpopt_number_from k = TN_NoOperation) /\
  (2 <= k -> tcpopt_number_from k <> TN_End /\ tcpopt_number_from k <> TN_NoOperation).
Proof.
  split; [intros ->; reflexivity|]. split; [intros ->; reflexivity|]. intros H.
  destruct k as [|p]; [lia|]. do 5 (destruct p; try (split; discriminate); try lia).
Qed.
Lemma tcpopt_number_roundtrip k : tcpopt_number_into (tcpopt_number_from k) = k.
Proof. destruct k as [|p]; [reflexivity|]. do 5 (destruct p; try reflexivity). Qed.
Lemma tcpopt_number_eq b : 0 < len b -> tcpopt_get_number b = Ok (tcpopt_number_from (nthN b 0)).
Proof. intros H. unfold tcpopt_get_number. rewrite index_ok by exact H. cbn [bind].  reflexivity. Qed.
Lemma tcpopt_length_eq b : 0 < len b ->
  tcpopt_length b = if nthN b 0 <? 2 then Ok 1 else index b 1.
Proof.
  intros H. unfold tcpopt_length. rewrite tcpopt_number_eq by exact H. cbn [bind].
  destruct (tcpopt_number_cases (nthN b 0)) as (H0 & H1 & H2).
  destruct (N.ltb_spec (nthN b 0) 2).
  - assert (C : nthN b 0 = 0 \/ nthN b 0 = 1) by lia. destruct C as [C|C]; [rewrite H0 by exact C|rewrite H1 by exact C]; reflexivity.
  - destruct H2 as [Hne0 Hne1]; [lia|]. destruct (tcpopt_number_from (nthN b 0)); try reflexivity; contradiction.
Qed.
Lemma tcpopt_size_eq E b l : l < 256 -> tcpopt_length b = Ok l ->
  tcpopt_size E b = if l =? 0 then (if overflow_checks E then Panic else Ok 0) else Ok l.
Proof.
  intros Hl H. unfold tcpopt_size, tcpopt_header_size, tcpopt_payload_size. rewrite H. cbn [bind].
  destruct (N.eqb_spec l 0) as [->|H0].
  - unfold usize_sub. cbn -[USIZE]. destruct (overflow_checks E) eqn:HE; [reflexivity|]. unfold bind, usize_add. rewrite HE.
    destruct (width_facts E) as [[_ ->]|[_ ->]]; reflexivity.
  - destruct (N.eqb_spec l 1) as [->|H1]; [cbn [bind]; apply usize_add_ok; widths; lia|].
    rewrite usize_sub_ok by lia. cbn [bind]. rewrite usize_add_ok by (widths; lia). f_equal. lia.
Qed.

(** C28: one call of the TCP option iterator, for every remaining area: the end
    of the area or an End option finishes; No-Operation is one byte; a lone other
    kind byte panics; a length beyond the area is an error that leaves the area as
    it is; length 0 panics or yields without advancing, depending on the build
    profile; length 1 advances by one byte; otherwise the option is skipped over. *)
Lemma c28_tcp_next : forall E b, is_bytes b ->
  (b = [] -> tcp_iter_next E b = Ok (Finished, b)) /\
  (forall k r, b = k :: r ->
     (k = 0 -> tcp_iter_next E b = Ok (Finished, b)) /\
     (k = 1 -> tcp_iter_next E b = Ok (Yield b, r)) /\
     (2 <= k -> r = [] -> tcp_iter_next E b = Panic) /\
     (forall l r', 2 <= k -> r = l :: r' ->
        (len b < l -> tcp_iter_next E b = Ok (YieldErr SmallBuffer, b)) /\
        (l = 0 -> tcp_iter_next E b = if overflow_checks E then Panic else Ok (Yield b, b)) /\
        (l = 1 -> tcp_iter_next E b = Ok (Yield b, r)) /\
        (2 <= l <= len b -> tcp_iter_next E b = Ok (Yield b, dropN l b)))).
Proof.
  intros E b Hb. split; [intros ->; reflexivity|]. intros k r ->.
  assert (Hlen : 0 < len (k :: r)) by (rewrite len_cons; lia).
  pose proof (tcpopt_length_eq _ Hlen) as HL. pose proof (tcpopt_number_eq _ Hlen) as HN.
  rewrite nthN_cons0 in HL, HN. destruct (tcpopt_number_cases (k)) as (N0 & N1 & N2).
  assert (Hb1 : nthN (k :: r) 1 < 256) by (apply is_bytes_nth, Hb).
  unfold tcp_iter_next. destruct (N.eqb_spec (len (k :: r)) 0); [lia|].
  unfold tcpopt_new, tcpopt_header_min. destruct (N.ltb_spec (len (k :: r)) 1); [lia|].
  assert (Hsmall : k < 2 -> tcpopt_length (k :: r) = Ok 1).
  { intros. rewrite HL. destruct (N.ltb_spec (k) 2); [reflexivity|lia]. }
  assert (Hbig : 2 <= k -> tcpopt_length (k :: r) = index (k :: r) 1).
  { intros. rewrite HL. destruct (N.ltb_spec (k) 2); [lia|reflexivity]. }
  assert (Hgo : forall l, l < 256 -> l <= len (k :: r) -> k <> 0 -> tcpopt_length (k :: r) = Ok l ->
     match (let* l := tcpopt_length (k :: r) in if len (k :: r) <? l then Err SmallBuffer else Ok (k :: r)) with
       | Ok o => let* n := tcpopt_get_number o in
         match n with TN_End => Ok (Finished, k :: r) | _ => let* s := tcpopt_size E o in let* b' := slice_from (k :: r) s in Ok (Yield o, b') end
       | Err e => Ok (YieldErr e, k :: r) | Panic => Panic end =
     if l =? 0 then (if overflow_checks E then Panic else Ok (Yield (k :: r), k :: r)) else Ok (Yield (k :: r), dropN l (k :: r))).
  { intros l L1 L2 L3 L4. rewrite L4. cbn [bind]. destruct (N.ltb_spec (len (k :: r)) l); [lia|].
    rewrite HN. cbn [bind]. pose proof (tcpopt_size_eq E _ l L1 L4) as HS.
    assert (Hne : tcpopt_number_from (k) <> TN_End).
    { destruct (N.eqb_spec (k) 1) as [K|K]; [rewrite N1 by exact K; discriminate|]. apply N2. lia. }
    assert (Hx : (let* s := tcpopt_size E (k :: r) in let* b' := slice_from (k :: r) s in Ok (Yield (k :: r), b')) =
      (if l =? 0 then (if overflow_checks E then Panic else Ok (Yield (k :: r), k :: r)) else Ok (Yield (k :: r), dropN l (k :: r)))).
    { rewrite HS. destruct (N.eqb_spec l 0) as [->|]; [destruct (overflow_checks E); [reflexivity|]|]; cbn [bind];
        rewrite slice_from_ok by lia; reflexivity. }
    destruct (tcpopt_number_from (k)); try exact Hx. contradiction. }
  split; [|split; [|split]].
  - intros K. rewrite Hsmall by lia. cbn [bind]. destruct (N.ltb_spec (len (k :: r)) 1); [lia|].
    rewrite HN. cbn [bind]. rewrite N0 by exact K. reflexivity.
  - intros K. etransitivity; [apply (Hgo 1); try lia; apply Hsmall; lia|reflexivity].
  - intros K ->. rewrite Hbig by exact K. rewrite index_panic by (rewrite len_cons, len_nil; lia). reflexivity.
  - intros l r' K ->. assert (H1 : tcpopt_length (k :: l :: r') = Ok l).
    { rewrite Hbig by exact K. apply (index_ok (k :: l :: r') 1). rewrite !len_cons. lia. }
    change (nthN (k :: l :: r') 1) with l in Hb1.
    split; [|split; [|split]].
    + intros L. rewrite H1. cbn [bind]. destruct (N.ltb_spec (len (k :: l :: r')) l); [reflexivity|lia].
    + intros ->. etransitivity; [apply (Hgo 0); try lia; exact H1|reflexivity].
    + intros ->. etransitivity; [apply (Hgo 1); try lia; exact H1|reflexivity].
    + intros L. etransitivity; [apply (Hgo l); try lia; exact H1|]. destruct (N.eqb_spec l 0); [lia|]. reflexivity.
Qed.

(** C28: a length beyond the area: the same error for every later call, so a for
    loop over the TCP options never ends. *)
Lemma c28_tcp_error_forever : forall E k l r, is_bytes (k :: l :: r) -> 2 <= k -> 2 + len r < l ->
  forall n, nexts (tcp_iter_next E) n (k :: l :: r) = repeat (Ok (YieldErr SmallBuffer)) n.
Proof.
  intros E k l r Hb K L. apply nexts_fix. destruct (c28_tcp_next E _ Hb) as [_ H].
  destruct (H _ _ eq_refl) as (_ & _ & _ & H'). apply (H' _ _ K eq_refl). rewrite !len_cons. lia.
Qed.
(** C28: length 0: a panic with overflow checks, without them the same option
    for every later call. *)
Lemma c28_tcp_zero_length : forall E k r, is_bytes (k :: 0 :: r) -> 2 <= k ->
  (overflow_checks E = true -> tcp_iter_next E (k :: 0 :: r) = Panic) /\
  (overflow_checks E = false ->
   forall n, nexts (tcp_iter_next E) n (k :: 0 :: r) = repeat (Ok (Yield (k :: 0 :: r))) n).
Proof.
  intros E k r Hb K. destruct (c28_tcp_next E _ Hb) as [_ H].
  destruct (H _ _ eq_refl) as (_ & _ & _ & H'). destruct (H' _ _ K eq_refl) as (_ & H0 & _).
  split; intros HE; specialize (H0 eq_refl); rewrite HE in H0; [exact H0|]. apply nexts_fix, H0.
Qed.
(** C28: every iteration over every TCP option area, of any number of calls,
    yields finitely many options (at most one per byte of the area, each at a
    position of the area) and then: finishes for good, or repeats SmallBuffer
    for good, or panics, or (only without overflow checks) repeats for good an
    option of length 0. *)
Lemma c28_tcp_run : forall E n b, is_bytes b ->
  exists bufs tail, nexts (tcp_iter_next E) n b = map (fun o => Ok (Yield o)) bufs ++ tail /\
    N.of_nat (length bufs) <= len b /\
    Forall (fun o => exists p, b = p ++ o) bufs /\
    (tail = repeat (Ok Finished) (n - length bufs) \/
     tail = repeat (Ok (YieldErr SmallBuffer)) (n - length bufs) \/
     tail = [Panic] \/
     (overflow_checks E = false /\ exists k r, 2 <= k /\ (exists p, b = p ++ k :: 0 :: r) /\
      tail = repeat (Ok (Yield (k :: 0 :: r))) (n - length bufs))).
Proof.
  intros E n. induction n as [|n IH]; intros b Hb.
  { exists [], []. repeat split; [cbn; lia|constructor|left; reflexivity]. }
  destruct (c28_tcp_next E b Hb) as [H0 H].
  assert (Hfin : tcp_iter_next E b = Ok (Finished, b) -> exists bufs tail, nexts (tcp_iter_next E) (S n) b = map (fun o => Ok (Yield o)) bufs ++ tail /\
    N.of_nat (length bufs) <= len b /\ Forall (fun o => exists p, b = p ++ o) bufs /\
    (tail = repeat (Ok Finished) (S n - length bufs) \/ tail = repeat (Ok (YieldErr SmallBuffer)) (S n - length bufs) \/ tail = [Panic] \/
     (overflow_checks E = false /\ exists k r, 2 <= k /\ (exists p, b = p ++ k :: 0 :: r) /\ tail = repeat (Ok (Yield (k :: 0 :: r))) (S n - length bufs)))).
  { intros F. exists [], (repeat (Ok Finished) (S n)). rewrite (nexts_fix _ _ _ F).
    split; [reflexivity|]. split; [cbn; lia|]. split; [constructor|]. left. reflexivity. }
  destruct b as [|k r]; [apply Hfin, H0; reflexivity|].
  destruct (H k r eq_refl) as (K0 & K1 & K2 & K3). clear H.
  assert (Hstep : forall b' p, 1 <= len p -> k :: r = p ++ b' -> tcp_iter_next E (k :: r) = Ok (Yield (k :: r), b') ->
    exists bufs tail, nexts (tcp_iter_next E) (S n) (k :: r) = map (fun o => Ok (Yield o)) bufs ++ tail /\
    N.of_nat (length bufs) <= len (k :: r) /\ Forall (fun o => exists p, k :: r = p ++ o) bufs /\
    (tail = repeat (Ok Finished) (S n - length bufs) \/ tail = repeat (Ok (YieldErr SmallBuffer)) (S n - length bufs) \/ tail = [Panic] \/
     (overflow_checks E = false /\ exists k0 r0, 2 <= k0 /\ (exists p, k :: r = p ++ k0 :: 0 :: r0) /\ tail = repeat (Ok (Yield (k0 :: 0 :: r0))) (S n - length bufs)))).
  { intros b' p Hp Hbp Hn. assert (Hb' : is_bytes b') by (rewrite Hbp in Hb; apply is_bytes_app in Hb; apply Hb).
    destruct (IH b' Hb') as (bufs & tail & I1 & I2 & I3 & I4).
    exists ((k :: r) :: bufs), tail. cbn [nexts]. rewrite Hn, I1. split; [reflexivity|].
    split; [rewrite Hbp, len_app; cbn [length]; lia|]. split.
    { constructor; [exists []; reflexivity|]. eapply Forall_impl; [|exact I3]. intros o [q Hq]. exists (p ++ q).
      rewrite Hbp, Hq, app_assoc. reflexivity. }
    cbn [length Nat.sub]. destruct I4 as [I4|[I4|[I4|(I4 & k0 & r0 & I5 & [q I6] & I7)]]]; [left|right; left|right; right; left|right; right; right]; try exact I4.
    split; [exact I4|]. exists k0, r0. split; [exact I5|]. split; [exists (p ++ q); rewrite Hbp, I6, app_assoc; reflexivity|exact I7]. }
  assert (C : k = 0 \/ k = 1 \/ 2 <= k) by lia. destruct C as [C|[C|C]].
  - apply Hfin, K0, C.
  - apply (Hstep r [k]); [cbn; lia|reflexivity|apply K1, C].
  - destruct r as [|l r].
    { exists [], [Panic]. cbn [nexts]. rewrite K2 by (exact C || reflexivity). repeat split; [cbn; lia|constructor|right; right; left; reflexivity]. }
    destruct (K3 l r C eq_refl) as (L0 & L1 & L2 & L3).
    destruct (N.ltb_spec (len (k :: l :: r)) l).
    { exists [], (repeat (Ok (YieldErr SmallBuffer)) (S n)). rewrite (nexts_fix _ _ _ (L0 H)). repeat split; [cbn; lia|constructor|].
      right; left; reflexivity. }
    destruct (N.eqb_spec l 0) as [->|].
    { specialize (L1 eq_refl). destruct (overflow_checks E) eqn:HE.
      - exists [], [Panic]. cbn [nexts]. rewrite L1. repeat split; [cbn; lia|constructor|right; right; left; reflexivity].
      - exists [], (repeat (Ok (Yield (k :: 0 :: r))) (S n)). rewrite (nexts_fix _ _ _ L1). repeat split; [cbn; lia|constructor|].
        right; right; right. split; [reflexivity|]. exists k, r. split; [exact C|]. split; [exists []; reflexivity|reflexivity]. }
    destruct (N.eqb_spec l 1) as [->|].
    { apply (Hstep (1 :: r) [k]); [cbn; lia|reflexivity|apply L2; reflexivity]. }
    apply (Hstep (dropN l (k :: l :: r)) (takeN l (k :: l :: r))); [autorewrite with len; rewrite !len_cons in *; lia|symmetry; apply takeN_dropN|apply L3; lia].
Qed.

(** ** Well-formed lists *)
Lemma tcp_opt_step E o t : tcp_opt_ok o -> is_bytes (opt_wire o ++ t) ->
  tcp_iter_next E (opt_wire o ++ t) = Ok (Yield (opt_wire o ++ t), t) /\ tcp_opt_view E o (opt_wire o ++ t).
Proof.
  intros Ho Hb. set (b := opt_wire o ++ t) in *. destruct (c28_tcp_next E b Hb) as [_ H].
  destruct o as [|k d]; unfold b in *; cbn [opt_wire app tcp_opt_ok] in *.
  - destruct (H _ _ eq_refl) as (_ & H1 & _). split; [apply H1; reflexivity|].
    assert (HL : tcpopt_length (1 :: t) = Ok 1).
    { rewrite tcpopt_length_eq by (rewrite len_cons; lia). reflexivity. }
    split; [exact HL|]. split.
    + unfold tcpopt_as_ref. rewrite (tcpopt_size_eq E _ 1) by (lia || exact HL). cbn -[slice_to takeN].
      rewrite slice_to_ok by (rewrite len_cons; lia). rewrite takeN_cons by lia. reflexivity.
    + cbn [opt_wire]. rewrite tcpopt_number_eq by (rewrite len_cons; lia). reflexivity.
  - destruct Ho as [[Ho1 Ho1b] Ho2].
    destruct (H _ _ eq_refl) as (_ & _ & _ & H1). destruct (H1 _ _ Ho1 eq_refl) as (_ & _ & _ & H2).
    set (l := 2 + len d) in *.
    assert (Hln : len (k :: l :: d ++ t) = l + len t) by (rewrite !len_cons, len_app; lia).
    split.
    { rewrite H2 by lia. do 2 f_equal. change (k :: l :: d ++ t) with ((k :: l :: d) ++ t).
      replace l with (len (k :: l :: d)) at 1 by (rewrite !len_cons; lia). apply dropN_app_len. }
    assert (HL : tcpopt_length (k :: l :: d ++ t) = Ok l).
    { rewrite tcpopt_length_eq by lia. rewrite nthN_cons0. destruct (N.ltb_spec (k) 2); [lia|].
      apply (index_ok (k :: l :: d ++ t) 1). lia. }
    assert (HT : takeN l (k :: l :: d ++ t) = k :: l :: d).
    { change (k :: l :: d ++ t) with ((k :: l :: d) ++ t).
      replace l with (len (k :: l :: d)) at 1 by (rewrite !len_cons; lia). apply takeN_app_len. }
    split; [rewrite HL; f_equal; cbn [opt_wire]; rewrite !len_cons; lia|]. split.
    { unfold tcpopt_as_ref. rewrite (tcpopt_size_eq E _ l) by (lia || exact HL).
      destruct (N.eqb_spec l 0); [lia|]. cbn [bind]. rewrite slice_to_ok by lia. rewrite HT. reflexivity. }
    assert (HP : tcpopt_payload (k :: l :: d ++ t) = Ok d).
    { unfold tcpopt_payload, tcpopt_split. rewrite HL. cbn [bind]. destruct (N.eqb_spec l 1); [lia|].
      rewrite slice_to_ok by lia. cbn [bind]. rewrite HT. rewrite split_at_ok by (rewrite !len_cons; lia). reflexivity. }
    split; [|exact HP]. exists (tcpopt_number_from k). split; [apply (tcpopt_number_eq (k :: l :: d ++ t)); lia|apply tcpopt_number_roundtrip].
Qed.
Lemma tcp_nexts E os t n : Forall tcp_opt_ok os -> is_bytes (opts_wire os ++ t) -> opt_end t ->
  exists bufs, nexts (tcp_iter_next E) (length os + n) (opts_wire os ++ t) =
    map (fun b => Ok (Yield b)) bufs ++ repeat (Ok Finished) n /\ Forall2 (tcp_opt_view E) os bufs.
Proof.
  intros Ho. induction Ho as [|o os Ho Hos IH]; intros Hb Ht.
  - exists []. cbn [length Nat.add opts_wire map concat app]. split; [|constructor]. apply nexts_fix.
    destruct (c28_tcp_next E t Hb) as [H0 H1]. destruct Ht as [->|[pad ->]]; [apply H0; reflexivity|].
    apply (H1 _ _ eq_refl). reflexivity.
  - unfold opts_wire in *. cbn [map concat length Nat.add] in *. rewrite <- app_assoc in Hb |- *.
    destruct (tcp_opt_step E o _ Ho Hb) as [H1 H2]. apply is_bytes_app in Hb. destruct Hb as [_ Hb].
    destruct (IH Hb Ht) as (bufs & I1 & I2).
    eexists (_ :: bufs). cbn [nexts map app]. rewrite H1, I1. split; [reflexivity|]. constructor; assumption.
Qed.

(** * IPv4 *)
(** ** The decision table of one call *)
Lemma v4opt_number_cases k : 
  (k = 0 -> v4opt_number_from k = ON_End) /\ (k = 1 -> v4opt_number_from k = ON_NoOperation) /\
  (2 <= k -> v4opt_number_from k <> ON_End /\ v4opt_number_from k <> ON_NoOperation).
Proof.
  split; [intros ->; reflexivity|]. split; [intros ->; reflexivity|]. intros H.
  destruct k as [|p]; [lia|]. do 5 (destruct p; try (split; discriminate); try lia).
Qed.
Lemma v4opt_number_roundtrip k : v4opt_number_into (v4opt_number_from k) = k.
Proof. destruct k as [|p]; [reflexivity|]. do 5 (destruct p; try reflexivity). Qed.
Lemma v4opt_number_eq b : 0 < len b -> v4opt_get_number b = Ok (v4opt_number_from (nthN b 0 mod 32)).
Proof. intros H. unfold v4opt_get_number. rewrite index_ok by exact H. cbn [bind]. rewrite land31_mod. reflexivity. Qed.
Lemma v4opt_length_eq b : 0 < len b ->
  v4opt_length b = if nthN b 0 mod 32 <? 2 then Ok 1 else index b 1.
Proof.
  intros H. unfold v4opt_length. rewrite v4opt_number_eq by exact H. cbn [bind].
  destruct (v4opt_number_cases (nthN b 0 mod 32)) as (H0 & H1 & H2).
  destruct (N.ltb_spec (nthN b 0 mod 32) 2).
  - assert (C : nthN b 0 mod 32 = 0 \/ nthN b 0 mod 32 = 1) by lia. destruct C as [C|C]; [rewrite H0 by exact C|rewrite H1 by exact C]; reflexivity.
  - destruct H2 as [Hne0 Hne1]; [lia|]. destruct (v4opt_number_from (nthN b 0 mod 32)); try reflexivity; contradiction.
Qed.
Lemma v4opt_size_eq E b l : l < 256 -> v4opt_length b = Ok l ->
  v4opt_size E b = if l =? 0 then (if overflow_checks E then Panic else Ok 0) else Ok l.
Proof.
  intros Hl H. unfold v4opt_size, v4opt_header_size, v4opt_payload_size. rewrite H. cbn [bind].
  destruct (N.eqb_spec l 0) as [->|H0].
  - unfold usize_sub. cbn -[USIZE]. destruct (overflow_checks E) eqn:HE; [reflexivity|]. unfold bind, usize_add. rewrite HE.
    destruct (width_facts E) as [[_ ->]|[_ ->]]; reflexivity.
  - destruct (N.eqb_spec l 1) as [->|H1]; [cbn [bind]; apply usize_add_ok; widths; lia|].
    rewrite usize_sub_ok by lia. cbn [bind]. rewrite usize_add_ok by (widths; lia). f_equal. lia.
Qed.

(** C28: one call of the IPv4 option iterator, for every remaining area: the end
    of the area or an End option finishes; No-Operation is one byte; a lone other
    kind byte panics; a length beyond the area is an error that leaves the area as
    it is; length 0 panics or yields without advancing, depending on the build
    profile; length 1 advances by one byte; otherwise the option is skipped over. *)
Lemma c28_v4_next : forall E b, is_bytes b ->
  (b = [] -> v4_iter_next E b = Ok (Finished, b)) /\
  (forall k r, b = k :: r ->
     (k mod 32 = 0 -> v4_iter_next E b = Ok (Finished, b)) /\
     (k mod 32 = 1 -> v4_iter_next E b = Ok (Yield b, r)) /\
     (2 <= k mod 32 -> r = [] -> v4_iter_next E b = Panic) /\
     (forall l r', 2 <= k mod 32 -> r = l :: r' ->
        (len b < l -> v4_iter_next E b = Ok (YieldErr SmallBuffer, b)) /\
        (l = 0 -> v4_iter_next E b = if overflow_checks E then Panic else Ok (Yield b, b)) /\
        (l = 1 -> v4_iter_next E b = Ok (Yield b, r)) /\
        (2 <= l <= len b -> v4_iter_next E b = Ok (Yield b, dropN l b)))).
Proof.
  intros E b Hb. split; [intros ->; reflexivity|]. intros k r ->.
  assert (Hlen : 0 < len (k :: r)) by (rewrite len_cons; lia).
  pose proof (v4opt_length_eq _ Hlen) as HL. pose proof (v4opt_number_eq _ Hlen) as HN.
  rewrite nthN_cons0 in HL, HN. destruct (v4opt_number_cases (k mod 32)) as (N0 & N1 & N2).
  assert (Hb1 : nthN (k :: r) 1 < 256) by (apply is_bytes_nth, Hb).
  unfold v4_iter_next. destruct (N.eqb_spec (len (k :: r)) 0); [lia|].
  unfold v4opt_new, v4opt_header_min. destruct (N.ltb_spec (len (k :: r)) 1); [lia|].
  assert (Hsmall : k mod 32 < 2 -> v4opt_length (k :: r) = Ok 1).
  { intros. rewrite HL. destruct (N.ltb_spec (k mod 32) 2); [reflexivity|lia]. }
  assert (Hbig : 2 <= k mod 32 -> v4opt_length (k :: r) = index (k :: r) 1).
  { intros. rewrite HL. destruct (N.ltb_spec (k mod 32) 2); [lia|reflexivity]. }
  assert (Hgo : forall l, l < 256 -> l <= len (k :: r) -> k mod 32 <> 0 -> v4opt_length (k :: r) = Ok l ->
     match (let* l := v4opt_length (k :: r) in if len (k :: r) <? l then Err SmallBuffer else Ok (k :: r)) with
       | Ok o => let* n := v4opt_get_number o in
         match n with ON_End => Ok (Finished, k :: r) | _ => let* s := v4opt_size E o in let* b' := slice_from (k :: r) s in Ok (Yield o, b') end
       | Err e => Ok (YieldErr e, k :: r) | Panic => Panic end =
     if l =? 0 then (if overflow_checks E then Panic else Ok (Yield (k :: r), k :: r)) else Ok (Yield (k :: r), dropN l (k :: r))).
  { intros l L1 L2 L3 L4. rewrite L4. cbn [bind]. destruct (N.ltb_spec (len (k :: r)) l); [lia|].
    rewrite HN. cbn [bind]. pose proof (v4opt_size_eq E _ l L1 L4) as HS.
    assert (Hne : v4opt_number_from (k mod 32) <> ON_End).
    { destruct (N.eqb_spec (k mod 32) 1) as [K|K]; [rewrite N1 by exact K; discriminate|]. apply N2. lia. }
    assert (Hx : (let* s := v4opt_size E (k :: r) in let* b' := slice_from (k :: r) s in Ok (Yield (k :: r), b')) =
      (if l =? 0 then (if overflow_checks E then Panic else Ok (Yield (k :: r), k :: r)) else Ok (Yield (k :: r), dropN l (k :: r)))).
    { rewrite HS. destruct (N.eqb_spec l 0) as [->|]; [destruct (overflow_checks E); [reflexivity|]|]; cbn [bind];
        rewrite slice_from_ok by lia; reflexivity. }
    destruct (v4opt_number_from (k mod 32)); try exact Hx. contradiction. }
  split; [|split; [|split]].
  - intros K. rewrite Hsmall by lia. cbn [bind]. destruct (N.ltb_spec (len (k :: r)) 1); [lia|].
    rewrite HN. cbn [bind]. rewrite N0 by exact K. reflexivity.
  - intros K. etransitivity; [apply (Hgo 1); try lia; apply Hsmall; lia|reflexivity].
  - intros K ->. rewrite Hbig by exact K. rewrite index_panic by (rewrite len_cons, len_nil; lia). reflexivity.
  - intros l r' K ->. assert (H1 : v4opt_length (k :: l :: r') = Ok l).
    { rewrite Hbig by exact K. apply (index_ok (k :: l :: r') 1). rewrite !len_cons. lia. }
    change (nthN (k :: l :: r') 1) with l in Hb1.
    split; [|split; [|split]].
    + intros L. rewrite H1. cbn [bind]. destruct (N.ltb_spec (len (k :: l :: r')) l); [reflexivity|lia].
    + intros ->. etransitivity; [apply (Hgo 0); try lia; exact H1|reflexivity].
    + intros ->. etransitivity; [apply (Hgo 1); try lia; exact H1|reflexivity].
    + intros L. etransitivity; [apply (Hgo l); try lia; exact H1|]. destruct (N.eqb_spec l 0); [lia|]. reflexivity.
Qed.

(** C28: a length beyond the area: the same error for every later call, so a for
    loop over the IPv4 options never ends. *)
Lemma c28_v4_error_forever : forall E k l r, is_bytes (k :: l :: r) -> 2 <= k mod 32 -> 2 + len r < l ->
  forall n, nexts (v4_iter_next E) n (k :: l :: r) = repeat (Ok (YieldErr SmallBuffer)) n.
Proof.
  intros E k l r Hb K L. apply nexts_fix. destruct (c28_v4_next E _ Hb) as [_ H].
  destruct (H _ _ eq_refl) as (_ & _ & _ & H'). apply (H' _ _ K eq_refl). rewrite !len_cons. lia.
Qed.
(** C28: length 0: a panic with overflow checks, without them the same option
    for every later call. *)
Lemma c28_v4_zero_length : forall E k r, is_bytes (k :: 0 :: r) -> 2 <= k mod 32 ->
  (overflow_checks E = true -> v4_iter_next E (k :: 0 :: r) = Panic) /\
  (overflow_checks E = false ->
   forall n, nexts (v4_iter_next E) n (k :: 0 :: r) = repeat (Ok (Yield (k :: 0 :: r))) n).
Proof.
  intros E k r Hb K. destruct (c28_v4_next E _ Hb) as [_ H].
  destruct (H _ _ eq_refl) as (_ & _ & _ & H'). destruct (H' _ _ K eq_refl) as (_ & H0 & _).
  split; intros HE; specialize (H0 eq_refl); rewrite HE in H0; [exact H0|]. apply nexts_fix, H0.
Qed.
(** C28: every iteration over every IPv4 option area, of any number of calls,
    yields finitely many options (at most one per byte of the area, each at a
    position of the area) and then: finishes for good, or repeats SmallBuffer
    for good, or panics, or (only without overflow checks) repeats for good an
    option of length 0. *)
Lemma c28_v4_run : forall E n b, is_bytes b ->
  exists bufs tail, nexts (v4_iter_next E) n b = map (fun o => Ok (Yield o)) bufs ++ tail /\
    N.of_nat (length bufs) <= len b /\
    Forall (fun o => exists p, b = p ++ o) bufs /\
    (tail = repeat (Ok Finished) (n - length bufs) \/
     tail = repeat (Ok (YieldErr SmallBuffer)) (n - length bufs) \/
     tail = [Panic] \/
     (overflow_checks E = false /\ exists k r, 2 <= k mod 32 /\ (exists p, b = p ++ k :: 0 :: r) /\
      tail = repeat (Ok (Yield (k :: 0 :: r))) (n - length bufs))).
Proof.
  intros E n. induction n as [|n IH]; intros b Hb.
  { exists [], []. repeat split; [cbn; lia|constructor|left; reflexivity]. }
  destruct (c28_v4_next E b Hb) as [H0 H].
  assert (Hfin : v4_iter_next E b = Ok (Finished, b) -> exists bufs tail, nexts (v4_iter_next E) (S n) b = map (fun o => Ok (Yield o)) bufs ++ tail /\
    N.of_nat (length bufs) <= len b /\ Forall (fun o => exists p, b = p ++ o) bufs /\
    (tail = repeat (Ok Finished) (S n - length bufs) \/ tail = repeat (Ok (YieldErr SmallBuffer)) (S n - length bufs) \/ tail = [Panic] \/
     (overflow_checks E = false /\ exists k r, 2 <= k mod 32 /\ (exists p, b = p ++ k :: 0 :: r) /\ tail = repeat (Ok (Yield (k :: 0 :: r))) (S n - length bufs)))).
  { intros F. exists [], (repeat (Ok Finished) (S n)). rewrite (nexts_fix _ _ _ F).
    split; [reflexivity|]. split; [cbn; lia|]. split; [constructor|]. left. reflexivity. }
  destruct b as [|k r]; [apply Hfin, H0; reflexivity|].
  destruct (H k r eq_refl) as (K0 & K1 & K2 & K3). clear H.
  assert (Hstep : forall b' p, 1 <= len p -> k :: r = p ++ b' -> v4_iter_next E (k :: r) = Ok (Yield (k :: r), b') ->
    exists bufs tail, nexts (v4_iter_next E) (S n) (k :: r) = map (fun o => Ok (Yield o)) bufs ++ tail /\
    N.of_nat (length bufs) <= len (k :: r) /\ Forall (fun o => exists p, k :: r = p ++ o) bufs /\
    (tail = repeat (Ok Finished) (S n - length bufs) \/ tail = repeat (Ok (YieldErr SmallBuffer)) (S n - length bufs) \/ tail = [Panic] \/
     (overflow_checks E = false /\ exists k0 r0, 2 <= k0 mod 32 /\ (exists p, k :: r = p ++ k0 :: 0 :: r0) /\ tail = repeat (Ok (Yield (k0 :: 0 :: r0))) (S n - length bufs)))).
  { intros b' p Hp Hbp Hn. assert (Hb' : is_bytes b') by (rewrite Hbp in Hb; apply is_bytes_app in Hb; apply Hb).
    destruct (IH b' Hb') as (bufs & tail & I1 & I2 & I3 & I4).
    exists ((k :: r) :: bufs), tail. cbn [nexts]. rewrite Hn, I1. split; [reflexivity|].
    split; [rewrite Hbp, len_app; cbn [length]; lia|]. split.
    { constructor; [exists []; reflexivity|]. eapply Forall_impl; [|exact I3]. intros o [q Hq]. exists (p ++ q).
      rewrite Hbp, Hq, app_assoc. reflexivity. }
    cbn [length Nat.sub]. destruct I4 as [I4|[I4|[I4|(I4 & k0 & r0 & I5 & [q I6] & I7)]]]; [left|right; left|right; right; left|right; right; right]; try exact I4.
    split; [exact I4|]. exists k0, r0. split; [exact I5|]. split; [exists (p ++ q); rewrite Hbp, I6, app_assoc; reflexivity|exact I7]. }
  assert (C : k mod 32 = 0 \/ k mod 32 = 1 \/ 2 <= k mod 32) by lia. destruct C as [C|[C|C]].
  - apply Hfin, K0, C.
  - apply (Hstep r [k]); [cbn; lia|reflexivity|apply K1, C].
  - destruct r as [|l r].
    { exists [], [Panic]. cbn [nexts]. rewrite K2 by (exact C || reflexivity). repeat split; [cbn; lia|constructor|right; right; left; reflexivity]. }
    destruct (K3 l r C eq_refl) as (L0 & L1 & L2 & L3).
    destruct (N.ltb_spec (len (k :: l :: r)) l).
    { exists [], (repeat (Ok (YieldErr SmallBuffer)) (S n)). rewrite (nexts_fix _ _ _ (L0 H)). repeat split; [cbn; lia|constructor|].
      right; left; reflexivity. }
    destruct (N.eqb_spec l 0) as [->|].
    { specialize (L1 eq_refl). destruct (overflow_checks E) eqn:HE.
      - exists [], [Panic]. cbn [nexts]. rewrite L1. repeat split; [cbn; lia|constructor|right; right; left; reflexivity].
      - exists [], (repeat (Ok (Yield (k :: 0 :: r))) (S n)). rewrite (nexts_fix _ _ _ L1). repeat split; [cbn; lia|constructor|].
        right; right; right. split; [reflexivity|]. exists k, r. split; [exact C|]. split; [exists []; reflexivity|reflexivity]. }
    destruct (N.eqb_spec l 1) as [->|].
    { apply (Hstep (1 :: r) [k]); [cbn; lia|reflexivity|apply L2; reflexivity]. }
    apply (Hstep (dropN l (k :: l :: r)) (takeN l (k :: l :: r))); [autorewrite with len; rewrite !len_cons in *; lia|symmetry; apply takeN_dropN|apply L3; lia].
Qed.

(** ** Well-formed lists *)
Lemma v4_opt_step E o t : v4_opt_ok o -> is_bytes (opt_wire o ++ t) ->
  v4_iter_next E (opt_wire o ++ t) = Ok (Yield (opt_wire o ++ t), t) /\ v4_opt_view E o (opt_wire o ++ t).
Proof.
  intros Ho Hb. set (b := opt_wire o ++ t) in *. destruct (c28_v4_next E b Hb) as [_ H].
  destruct o as [|k d]; unfold b in *; cbn [opt_wire app v4_opt_ok] in *.
  - destruct (H _ _ eq_refl) as (_ & H1 & _). split; [apply H1; reflexivity|].
    assert (HL : v4opt_length (1 :: t) = Ok 1).
    { rewrite v4opt_length_eq by (rewrite len_cons; lia). reflexivity. }
    split; [exact HL|]. split.
    + unfold v4opt_as_ref. rewrite (v4opt_size_eq E _ 1) by (lia || exact HL). cbn -[slice_to takeN].
      rewrite slice_to_ok by (rewrite len_cons; lia). rewrite takeN_cons by lia. reflexivity.
    + cbn [opt_wire]. rewrite v4opt_number_eq by (rewrite len_cons; lia). reflexivity.
  - destruct Ho as (Ho0 & Ho1 & Ho2).
    destruct (H _ _ eq_refl) as (_ & _ & _ & H1). destruct (H1 _ _ Ho1 eq_refl) as (_ & _ & _ & H2).
    set (l := 2 + len d) in *.
    assert (Hln : len (k :: l :: d ++ t) = l + len t) by (rewrite !len_cons, len_app; lia).
    split.
    { rewrite H2 by lia. do 2 f_equal. change (k :: l :: d ++ t) with ((k :: l :: d) ++ t).
      replace l with (len (k :: l :: d)) at 1 by (rewrite !len_cons; lia). apply dropN_app_len. }
    assert (HL : v4opt_length (k :: l :: d ++ t) = Ok l).
    { rewrite v4opt_length_eq by lia. rewrite nthN_cons0. destruct (N.ltb_spec (k mod 32) 2); [lia|].
      apply (index_ok (k :: l :: d ++ t) 1). lia. }
    assert (HT : takeN l (k :: l :: d ++ t) = k :: l :: d).
    { change (k :: l :: d ++ t) with ((k :: l :: d) ++ t).
      replace l with (len (k :: l :: d)) at 1 by (rewrite !len_cons; lia). apply takeN_app_len. }
    split; [rewrite HL; f_equal; cbn [opt_wire]; rewrite !len_cons; lia|]. split.
    { unfold v4opt_as_ref. rewrite (v4opt_size_eq E _ l) by (lia || exact HL).
      destruct (N.eqb_spec l 0); [lia|]. cbn [bind]. rewrite slice_to_ok by lia. rewrite HT. reflexivity. }
    assert (HP : v4opt_payload (k :: l :: d ++ t) = Ok d).
    { unfold v4opt_payload, v4opt_split. rewrite HL. cbn [bind]. destruct (N.eqb_spec l 1); [lia|].
      rewrite slice_to_ok by lia. cbn [bind]. rewrite HT. rewrite split_at_ok by (rewrite !len_cons; lia). reflexivity. }
    split.
    { exists (v4opt_number_from (k mod 32)). split; [apply (v4opt_number_eq (k :: l :: d ++ t)); lia|apply v4opt_number_roundtrip]. }
    split; [|split; [|exact HP]].
    { unfold v4opt_is_copied. rewrite index_ok by lia. cbn [bind]. rewrite nthN_cons0. f_equal.
      apply eqb_prop, (sweep (fun k => Bool.eqb (N.shiftr k 7 =? 1) (128 <=? k)) 256 ltac:(vm_compute; reflexivity) k Ho0). }
    unfold v4opt_get_class. rewrite index_ok by lia. cbn [bind]. rewrite nthN_cons0. eexists. split; [reflexivity|].
    apply N.eqb_eq. apply (sweep (fun k => v4opt_class_into match N.land (N.shiftr k 5) 3 with 0 => OC_Control | 2 => OC_Debugging | v => OC_Reserved v end =? k / 32 mod 4) 256 ltac:(vm_compute; reflexivity) k Ho0).
Qed.
Lemma v4_nexts E os t n : Forall v4_opt_ok os -> is_bytes (opts_wire os ++ t) -> opt_end t ->
  exists bufs, nexts (v4_iter_next E) (length os + n) (opts_wire os ++ t) =
    map (fun b => Ok (Yield b)) bufs ++ repeat (Ok Finished) n /\ Forall2 (v4_opt_view E) os bufs.
Proof.
  intros Ho. induction Ho as [|o os Ho Hos IH]; intros Hb Ht.
  - exists []. cbn [length Nat.add opts_wire map concat app]. split; [|constructor]. apply nexts_fix.
    destruct (c28_v4_next E t Hb) as [H0 H1]. destruct Ht as [->|[pad ->]]; [apply H0; reflexivity|].
    apply (H1 _ _ eq_refl). reflexivity.
  - unfold opts_wire in *. cbn [map concat length Nat.add] in *. rewrite <- app_assoc in Hb |- *.
    destruct (v4_opt_step E o _ Ho Hb) as [H1 H2]. apply is_bytes_app in Hb. destruct Hb as [_ Hb].
    destruct (IH Hb Ht) as (bufs & I1 & I2).
    eexists (_ :: bufs). cbn [nexts map app]. rewrite H1, I1. split; [reflexivity|]. constructor; assumption.
Qed.

(** C27: a TCP packet whose option area holds well-formed options (and possibly
    End and padding): [options()] yields exactly those, in order, then None for
    every later call. *)
Lemma c27_tcp : forall E f os t payload, tcp_fields_ok f -> is_bytes (opts_wire os ++ t) ->
  Forall tcp_opt_ok os -> opt_end t -> tf_offset f * 4 = 20 + len (opts_wire os ++ t) ->
  exists area, tcp_options (tcp_wire f ++ (opts_wire os ++ t) ++ payload) = Ok area /\
  forall n, exists bufs,
    nexts (tcp_iter_next E) (length os + n) area =
      map (fun b => Ok (Yield b)) bufs ++ repeat (Ok Finished) n /\
    Forall2 (tcp_opt_view E) os bufs.
Proof.
  intros E f os t payload Hf Hb Hos Ht Ho. exists (opts_wire os ++ t).
  split; [apply (c09_tcp f (opts_wire os ++ t) payload Hf Ho)|]. intros n. apply tcp_nexts; assumption.
Qed.
(** C27: likewise IPv4. *)
Lemma c27_v4 : forall E f os t payload trailer, v4_fields_ok f -> vf_version f = 4 ->
  is_bytes (opts_wire os ++ t) -> Forall v4_opt_ok os -> opt_end t ->
  vf_ihl f * 4 = 20 + len (opts_wire os ++ t) -> vf_total f = 20 + len (opts_wire os ++ t) + len payload ->
  exists area, v4_options (v4_wire f ++ (opts_wire os ++ t) ++ payload ++ trailer) = Ok area /\
  forall n, exists bufs,
    nexts (v4_iter_next E) (length os + n) area =
      map (fun b => Ok (Yield b)) bufs ++ repeat (Ok Finished) n /\
    Forall2 (v4_opt_view E) os bufs.
Proof.
  intros E f os t payload trailer Hf Hv Hb Hos Ht Hi Hl. exists (opts_wire os ++ t).
  split; [apply (c09_v4_parts f (opts_wire os ++ t) payload trailer Hf Hv Hi Hl)|]. intros n. apply v4_nexts; assumption.
Qed.
(** C27, the part that fails: the payload of a No-Operation option is not empty
    but everything that follows it in the option area. *)
Lemma c27_nop_payload_refuted : forall E r,
  tcpopt_payload (1 :: r) = Ok r /\ tcpopt_payload_size E (1 :: r) = Ok 0 /\
  v4opt_payload (1 :: r) = Ok r /\ v4opt_payload_size E (1 :: r) = Ok 0.
Proof.
  intros E r. assert (H1 : 0 < len (1 :: r)) by (rewrite len_cons; lia).
  assert (Ht : tcpopt_length (1 :: r) = Ok 1) by (rewrite tcpopt_length_eq by exact H1; reflexivity).
  assert (Hv : v4opt_length (1 :: r) = Ok 1) by (rewrite v4opt_length_eq by exact H1; reflexivity).
  unfold tcpopt_payload, tcpopt_split, tcpopt_payload_size, v4opt_payload, v4opt_split, v4opt_payload_size.
  rewrite Ht, Hv. cbn [bind]. change (1 =? 1) with true. cbv iota. rewrite split_at_ok by lia.
  repeat split.
Qed.
(** Three options (MSS, Nop, Timestamp), End and padding: 4 + 1 + 10 + 1. *)
Example c27_example :
  let os := [Opt 2 [5; 180]; Nop; Opt 8 [1; 2; 3; 4; 5; 6; 7; 8]] in let t := [0] in
  Forall tcp_opt_ok os /\ opt_end t /\ is_bytes (opts_wire os ++ t) /\ len (opts_wire os ++ t) = 9 * 4 - 20 /\
  Forall v4_opt_ok [Opt 130 [1; 2; 3; 4]; Nop; Opt 68 [9]] /\
  forall E, nexts (tcp_iter_next E) 4 (opts_wire os ++ t) =
    [Ok (Yield (opts_wire os ++ t)); Ok (Yield (dropN 4 (opts_wire os ++ t)));
     Ok (Yield (dropN 5 (opts_wire os ++ t))); Ok Finished].
Proof.
  cbn zeta. split; [repeat constructor; cbn; lia|]. split; [right; exists []; reflexivity|].
  split; [unfold is_bytes; cbn; repeat constructor; unfold u8; lia|]. split; [reflexivity|].
  split; [repeat constructor; cbn; lia|]. intros [[] [] []]; reflexivity.
Qed.
Example c28_example : forall E,
  nexts (tcp_iter_next E) 3 [1; 3; 200; 7] = [Ok (Yield [1; 3; 200; 7]); Ok (YieldErr SmallBuffer); Ok (YieldErr SmallBuffer)] /\
  nexts (v4_iter_next E) 3 [129; 68] = [Ok (Yield [129; 68]); Panic] /\
  nexts (tcp_iter_next {| overflow_checks := false; cursor_eof := EofKeep; target := target E |}) 3 [5; 0; 7] =
    [Ok (Yield [5; 0; 7]); Ok (Yield [5; 0; 7]); Ok (Yield [5; 0; 7])].
Proof. intros [[] [] []]; repeat split; reflexivity. Qed.
