(** * TileProofs: C58 (loops over options that end). *)
From Verif Require Import Base Enums Ipv4 Ip Tcp Spec SpecCalls SpecOptions.
From Verif Require Import Lemmas ParseProofs OptionProofs.
From Coq Require Import ZifyBool ZifyNat ZifyN.
Ltac Zify.zify_post_hook ::= Z.div_mod_to_equations.

(** The decision table of C28, for either iterator. *)
Definition table (num : N -> N) (E : env) (next : bytes -> res (step * bytes)) : Prop := forall b, is_bytes b ->
  (b = [] -> next b = Ok (Finished, b)) /\
  (forall k r, b = k :: r ->
     (num k = 0 -> next b = Ok (Finished, b)) /\
     (num k = 1 -> next b = Ok (Yield b, r)) /\
     (2 <= num k -> r = [] -> next b = Panic) /\
     (forall l r', 2 <= num k -> r = l :: r' ->
        (len b < l -> next b = Ok (YieldErr SmallBuffer, b)) /\
        (l = 0 -> next b = if overflow_checks E then Panic else Ok (Yield b, b)) /\
        (l = 1 -> next b = Ok (Yield b, r)) /\
        (2 <= l <= len b -> next b = Ok (Yield b, dropN l b)))).
Definition refs (num : N -> N) (as_ref : bytes -> res bytes) : Prop := forall k r, is_bytes (k :: r) ->
  (num k = 1 -> as_ref (k :: r) = Ok [k]) /\
  (forall l r', 2 <= num k -> r = l :: r' ->
     (l = 1 -> as_ref (k :: r) = Ok [k]) /\
     (2 <= l <= len (k :: r) -> as_ref (k :: r) = Ok (takeN l (k :: r)))).

Lemma area_cons p ps t : area_of (p :: ps) t = piece_wire p ++ area_of ps t.
Proof. unfold area_of. cbn [map concat]. rewrite app_assoc. reflexivity. Qed.
(** Pieces are iterated over. *)
Lemma area_nexts num E next as_ref ps t n : table num E next -> refs num as_ref -> num 1 = 1 ->
  Forall (piece_ok num) ps -> area_end num t -> is_bytes (area_of ps t) ->
  exists bufs, nexts next (length (concat (map piece_yields ps)) + n) (area_of ps t) =
    map (fun b => Ok (Yield b)) bufs ++ repeat (Ok Finished) n /\
    Forall2 (fun y b => as_ref b = Ok y) (concat (map piece_yields ps)) bufs.
Proof.
  intros T R N1 Ho Ht. induction Ho as [|p ps Hp Hps IH]; intros Hb.
  - exists []. cbn [map concat length Nat.add app]. split; [|constructor]. apply nexts_fix.
    unfold area_of in *. cbn [map concat app] in *. destruct (T t Hb) as [H0 H1].
    destruct Ht as [->|(k & pad & -> & Hk)]; [apply H0; reflexivity|]. apply (H1 _ _ eq_refl). exact Hk.
  - rewrite area_cons in Hb |- *. set (rest := area_of ps t) in *. pose proof Hb as Hb'. apply is_bytes_app in Hb'. destruct Hb' as [_ Hbr].
    destruct (IH Hbr) as (bufs & I1 & I2). clearbody rest.
    destruct p as [k|k d|k]; cbn [piece_wire piece_yields map concat app length Nat.add piece_ok] in *.
    + destruct (T _ Hb) as [_ H]. destruct (H _ _ eq_refl) as (_ & H1 & _). destruct (R _ _ Hb) as (R1 & _).
      exists ((k :: rest) :: bufs). cbn [nexts map app]. rewrite H1 by apply Hp. rewrite I1. split; [reflexivity|].
      constructor; [apply R1; apply Hp|exact I2].
    + destruct Hp as (P1 & P2 & P3). destruct (T _ Hb) as [_ H]. destruct (H _ _ eq_refl) as (_ & _ & _ & H1).
      destruct (H1 _ _ P2 eq_refl) as (_ & _ & _ & H2). destruct (R _ _ Hb) as (_ & R2). destruct (R2 _ _ P2 eq_refl) as (_ & R3).
      set (l := 2 + len d) in *.
      assert (Hl : 2 <= l <= len (k :: l :: d ++ rest)) by (rewrite !len_cons, len_app; lia).
      assert (Hd : dropN l (k :: l :: d ++ rest) = rest /\ takeN l (k :: l :: d ++ rest) = k :: l :: d).
      { assert (Hx : l = len (k :: l :: d)) by (rewrite !len_cons; lia).
        split; change (k :: l :: d ++ rest) with ((k :: l :: d) ++ rest); rewrite Hx at 1; [apply dropN_app_len|apply takeN_app_len]. }
      exists ((k :: l :: d ++ rest) :: bufs). cbn [nexts map app]. rewrite H2 by exact Hl. destruct Hd as [Hd1 Hd2]. rewrite Hd1, I1.
      split; [reflexivity|]. constructor; [rewrite R3 by exact Hl; rewrite Hd2; reflexivity|exact I2].
    + destruct Hp as (P1 & P2). destruct (T _ Hb) as [_ H]. destruct (H _ _ eq_refl) as (_ & _ & _ & H1).
      destruct (H1 _ _ P2 eq_refl) as (_ & _ & H2 & _). destruct (R _ _ Hb) as (_ & R2). destruct (R2 _ _ P2 eq_refl) as (R3 & _).
      assert (Hb1 : is_bytes (1 :: rest)) by (inversion Hb; assumption).
      destruct (T _ Hb1) as [_ G]. destruct (G _ _ eq_refl) as (_ & G1 & _). destruct (R _ _ Hb1) as (S1 & _).
      exists ((k :: 1 :: rest) :: (1 :: rest) :: bufs). cbn [nexts map app]. rewrite H2 by reflexivity. cbn [nexts]. rewrite G1 by exact N1. rewrite I1.
      split; [reflexivity|]. constructor; [apply R3; reflexivity|]. constructor; [apply S1; exact N1|exact I2].
Qed.
(** A loop that ends went over pieces. *)
Lemma nexts_area num E next : table num E next -> num 1 = 1 -> forall n b, is_bytes b ->
  In (Ok Finished) (nexts next n b) ->
  exists ps t, b = area_of ps t /\ Forall (piece_ok num) ps /\ area_end num t.
Proof.
  intros T N1 n. induction n as [|n IH]; intros b Hb Hin; [destruct Hin|].
  destruct (T b Hb) as [H0 H]. destruct b as [|k r].
  { exists [], []. split; [reflexivity|]. split; [constructor|left; reflexivity]. }
  destruct (H k r eq_refl) as (K0 & K1 & K2 & K3). clear H.
  assert (Hk : k < 256) by (inversion Hb; assumption).
  assert (Hbr : is_bytes r) by (inversion Hb; assumption).
  assert (C : num k = 0 \/ num k = 1 \/ 2 <= num k) by lia. destruct C as [C|[C|C]].
  - exists [], (k :: r). split; [reflexivity|]. split; [constructor|]. right. exists k, r. split; [reflexivity|exact C].
  - cbn [nexts] in Hin. rewrite K1 in Hin by exact C. destruct Hin as [Hin|Hin]; [discriminate|].
    destruct (IH r Hbr Hin) as (ps & t & -> & I2 & I3). exists (One k :: ps), t. rewrite area_cons.
    split; [reflexivity|]. split; [constructor; [split; assumption|exact I2]|exact I3].
  - cbn [nexts] in Hin. destruct r as [|l r'].
    { rewrite K2 in Hin by (exact C || reflexivity). destruct Hin as [Hin|[]]. discriminate. }
    destruct (K3 l r' C eq_refl) as (L0 & L1 & L2 & L3).
    assert (Hfix : forall (s : step), s <> Finished -> next (k :: l :: r') = Ok (s, k :: l :: r') -> False).
    { intros s Hs Hx. rewrite Hx in Hin. destruct Hin as [Hin|Hin]; [congruence|]. rewrite (nexts_fix next _ s Hx) in Hin.
      apply repeat_spec in Hin. congruence. }
    destruct (N.ltb_spec (len (k :: l :: r')) l) as [Hlt|Hge].
    { exfalso. apply (Hfix (YieldErr SmallBuffer)); [discriminate|]. apply L0. exact Hlt. }
    destruct (N.eqb_spec l 0) as [->|].
    { specialize (L1 eq_refl). destruct (overflow_checks E).
      - rewrite L1 in Hin. destruct Hin as [Hin|[]]. discriminate.
      - exfalso. apply (Hfix (Yield (k :: 0 :: r'))); [discriminate|exact L1]. }
    destruct (N.eqb_spec l 1) as [->|].
    { rewrite L2 in Hin by reflexivity. destruct Hin as [Hin|Hin]; [discriminate|].
      destruct (IH _ Hbr Hin) as (ps & t & Hpt & I2 & I3). destruct ps as [|p ps].
      { unfold area_of in Hpt. cbn [map concat app] in Hpt. subst t. destruct I3 as [I3|(k' & pad & I3 & I4)]; [discriminate|].
        injection I3 as <- <-. lia. }
      inversion I2 as [|? ? Hp Hps]; subst. rewrite area_cons in Hpt.
      destruct p as [k'|k' d|k']; cbn [piece_wire app piece_ok] in *; injection Hpt as <- Hpt.
      - subst r'. exists (Odd k :: ps), t. rewrite area_cons. split; [reflexivity|].
        split; [constructor; [split; assumption|exact Hps]|exact I3].
      - lia.
      - lia. }
    rewrite L3 in Hin by lia. destruct Hin as [Hin|Hin]; [discriminate|].
    assert (Hbd : is_bytes (dropN l (k :: l :: r'))) by (apply is_bytes_dropN; exact Hb).
    destruct (IH _ Hbd Hin) as (ps & t & I1 & I2 & I3).
    exists (Tlv k (takeN (l - 2) r') :: ps), t. rewrite area_cons, <- I1.
    assert (Hl2 : l < 256) by (inversion Hbr; assumption).
    rewrite !len_cons in Hge. assert (Hlt : len (takeN (l - 2) r') = l - 2) by (rewrite len_takeN; lia).
    split.
    { cbn [piece_wire]. rewrite Hlt. replace (2 + (l - 2)) with l by lia.
      rewrite <- (takeN_dropN l (k :: l :: r')) at 1. f_equal.
      change (k :: l :: r') with ([k; l] ++ r'). rewrite takeN_app2 by (cbn; lia). change (len [k; l]) with 2. reflexivity. }
    split; [|exact I3]. constructor; [|exact I2]. cbn [piece_ok]. rewrite Hlt. repeat split; lia.
Qed.
Lemma yields_wire ps : concat (concat (map piece_yields ps)) = concat (map piece_wire ps).
Proof.
  induction ps as [|p ps IH]; [reflexivity|]. cbn [map concat]. rewrite concat_app, IH. f_equal. destruct p; cbn; rewrite ?app_nil_r; reflexivity.
Qed.
Lemma tcp_table E : table tcp_num E (tcp_iter_next E).
Proof. intros b Hb. exact (c28_tcp_next E b Hb). Qed.
Lemma v4_table E : table v4_num E (v4_iter_next E).
Proof. intros b Hb. exact (c28_v4_next E b Hb). Qed.
Lemma tcp_refs E : refs tcp_num (tcpopt_as_ref E).
Proof.
  intros k r Hb. unfold tcp_num. assert (Hl : 0 < len (k :: r)) by (rewrite len_cons; lia).
  pose proof (tcpopt_length_eq _ Hl) as HL. rewrite nthN_cons0 in HL.
  split.
  - intros ->. unfold tcpopt_as_ref. rewrite (tcpopt_size_eq E _ 1) by (lia || exact HL). cbn -[slice_to takeN].
    rewrite slice_to_ok by lia. rewrite takeN_cons by lia. reflexivity.
  - intros l r' K ->. destruct (N.ltb_spec k 2); [lia|]. rewrite (index_ok (k :: l :: r') 1) in HL by (rewrite !len_cons; lia).
    change (nthN (k :: l :: r') 1) with l in HL. assert (Hl2 : l < 256) by (inversion Hb as [|? ? _ Hb2]; inversion Hb2; assumption).
    unfold tcpopt_as_ref. rewrite (tcpopt_size_eq E _ l) by assumption. split.
    + intros ->. cbn -[slice_to takeN]. rewrite slice_to_ok by (rewrite !len_cons; lia). rewrite takeN_cons by lia. reflexivity.
    + intros Hx. destruct (N.eqb_spec l 0); [lia|]. cbn [bind]. apply slice_to_ok. lia.
Qed.
Lemma v4_refs E : refs v4_num (v4opt_as_ref E).
Proof.
  intros k r Hb. unfold v4_num. assert (Hl : 0 < len (k :: r)) by (rewrite len_cons; lia).
  pose proof (v4opt_length_eq _ Hl) as HL. rewrite nthN_cons0 in HL.
  split.
  - intros K. destruct (N.ltb_spec (k mod 32) 2); [|lia]. unfold v4opt_as_ref. rewrite (v4opt_size_eq E _ 1) by (lia || exact HL). cbn -[slice_to takeN].
    rewrite slice_to_ok by lia. rewrite takeN_cons by lia. reflexivity.
  - intros l r' K ->. destruct (N.ltb_spec (k mod 32) 2); [lia|]. rewrite (index_ok (k :: l :: r') 1) in HL by (rewrite !len_cons; lia).
    change (nthN (k :: l :: r') 1) with l in HL. assert (Hl2 : l < 256) by (inversion Hb as [|? ? _ Hb2]; inversion Hb2; assumption).
    unfold v4opt_as_ref. rewrite (v4opt_size_eq E _ l) by assumption. split.
    + intros ->. cbn -[slice_to takeN]. rewrite slice_to_ok by (rewrite !len_cons; lia). rewrite takeN_cons by lia. reflexivity.
    + intros Hx. destruct (N.eqb_spec l 0); [lia|]. cbn [bind]. apply slice_to_ok. lia.
Qed.
Lemma finishes num E next as_ref : table num E next -> refs num as_ref -> num 1 = 1 -> forall b, is_bytes b ->
  ((exists n, In (Ok Finished) (nexts next n b)) <->
   exists ps t, b = area_of ps t /\ Forall (piece_ok num) ps /\ area_end num t).
Proof.
  intros T R N1 b Hb. split.
  - intros [n Hn]. eapply nexts_area; eassumption.
  - intros (ps & t & -> & H1 & H2). destruct (area_nexts num E next as_ref ps t 1 T R N1 H1 H2 Hb) as (bufs & Hx & _).
    eexists. rewrite Hx. apply in_or_app. right. left. reflexivity.
Qed.
Lemma F2len {A B} (P : A -> B -> Prop) l m : Forall2 P l m -> length l = length m.
Proof. induction 1; cbn [length]; congruence. Qed.
Lemma tiles num E next as_ref : table num E next -> refs num as_ref -> num 1 = 1 -> forall b, is_bytes b ->
  (exists n, In (Ok Finished) (nexts next n b)) ->
  exists os outs t, b = concat outs ++ t /\ area_end num t /\ Forall2 (fun y o => as_ref o = Ok y) outs os /\
    forall m, nexts next (length os + m) b = map (fun o => Ok (Yield o)) os ++ repeat (Ok Finished) m.
Proof.
  intros T R N1 b Hb Hn. destruct (proj1 (finishes num E next as_ref T R N1 b Hb) Hn) as (ps & t & -> & H1 & H2).
  destruct (area_nexts num E next as_ref ps t 0 T R N1 H1 H2 Hb) as (bufs & Hx & Hf).
  exists bufs, (concat (map piece_yields ps)), t. split; [rewrite yields_wire; reflexivity|]. split; [exact H2|]. split; [exact Hf|].
  intros m. destruct (area_nexts num E next as_ref ps t m T R N1 H1 H2 Hb) as (bufs' & Hx' & Hf').
  pose proof (F2len _ _ _ Hf) as L1. pose proof (F2len _ _ _ Hf') as L2. rewrite L1 in Hx'.
  assert (Hsame : map (fun b => Ok (Yield b)) bufs' = map (fun b => Ok (Yield b)) bufs).
  { assert (F : forall k j c, firstn k (nexts next (k + j) c) = nexts next k c).
    { intros k. induction k as [|k IHk]; intros j c; [reflexivity|]. cbn [nexts Nat.add].
      destruct (next c) as [[s c']| |]; cbn [firstn]; [f_equal; apply IHk|destruct k; reflexivity|destruct k; reflexivity]. }
    specialize (F (length bufs) m (area_of ps t)). rewrite Hx' in F. rewrite L1, Nat.add_0_r in Hx. rewrite Hx in F.
    cbn [repeat] in F. rewrite app_nil_r in F. rewrite <- F. rewrite firstn_app.
    rewrite map_length. replace (length bufs - length bufs')%nat with 0%nat by lia. cbn [firstn]. rewrite app_nil_r.
    rewrite firstn_all2; [reflexivity|]. rewrite map_length. lia. }
  rewrite Hx', Hsame. reflexivity.
Qed.

Lemma yields_bound ps : (length (concat (map piece_yields ps)) <= length (concat (map piece_wire ps)))%nat.
Proof.
  induction ps as [|p ps IH]; [cbn; lia|]. cbn [map concat]. rewrite !app_length. destruct p; cbn [piece_yields piece_wire length]; lia.
Qed.
Lemma bounded num E next as_ref : table num E next -> refs num as_ref -> num 1 = 1 -> forall b, is_bytes b ->
  (exists n, In (Ok Finished) (nexts next n b)) -> In (Ok Finished) (nexts next (S (length b)) b).
Proof.
  intros T R N1 b Hb Hn. destruct (proj1 (finishes num E next as_ref T R N1 b Hb) Hn) as (ps & t & -> & H1 & H2).
  set (k := length (concat (map piece_yields ps))).
  assert (Hk : (k <= length (area_of ps t))%nat). { unfold area_of. rewrite app_length. pose proof (yields_bound ps). lia. }
  replace (S (length (area_of ps t))) with (k + (S (length (area_of ps t) - k)))%nat by lia.
  destruct (area_nexts num E next as_ref ps t (S (length (area_of ps t) - k)) T R N1 H1 H2 Hb) as (bufs & Hx & _). fold k in Hx. rewrite Hx.
  apply in_or_app. right. left. reflexivity.
Qed.

(** ** C58 *)
(** C58: a loop over the options of a TCP packet ends without a panic or an endless error
    exactly when the area consists of pieces up to its end or an End option. *)
Lemma c58_tcp_finishes : forall E area, is_bytes area ->
  ((exists n, In (Ok Finished) (nexts (tcp_iter_next E) n area)) <->
   exists ps t, area = area_of ps t /\ Forall (piece_ok tcp_num) ps /\ area_end tcp_num t).
Proof. intros E area Hb. apply (finishes tcp_num E _ (tcpopt_as_ref E) (tcp_table E) (tcp_refs E) eq_refl area Hb). Qed.
(** C58: IPv4. *)
Lemma c58_v4_finishes : forall E area, is_bytes area ->
  ((exists n, In (Ok Finished) (nexts (v4_iter_next E) n area)) <->
   exists ps t, area = area_of ps t /\ Forall (piece_ok v4_num) ps /\ area_end v4_num t).
Proof. intros E area Hb. apply (finishes v4_num E _ (v4opt_as_ref E) (v4_table E) (v4_refs E) eq_refl area Hb). Qed.
(** C58: and then the bytes of the yielded options, one after the other, are the
    area up to its end: none is skipped, repeated or overlapping. *)
Lemma c58_tcp_tiles : forall E area, is_bytes area -> (exists n, In (Ok Finished) (nexts (tcp_iter_next E) n area)) ->
  exists os outs t, area = concat outs ++ t /\ area_end tcp_num t /\ Forall2 (fun y o => tcpopt_as_ref E o = Ok y) outs os /\
    forall m, nexts (tcp_iter_next E) (length os + m) area = map (fun o => Ok (Yield o)) os ++ repeat (Ok Finished) m.
Proof. intros E area Hb. apply (tiles tcp_num E _ (tcpopt_as_ref E) (tcp_table E) (tcp_refs E) eq_refl area Hb). Qed.
(** C58: IPv4. *)
Lemma c58_v4_tiles : forall E area, is_bytes area -> (exists n, In (Ok Finished) (nexts (v4_iter_next E) n area)) ->
  exists os outs t, area = concat outs ++ t /\ area_end v4_num t /\ Forall2 (fun y o => v4opt_as_ref E o = Ok y) outs os /\
    forall m, nexts (v4_iter_next E) (length os + m) area = map (fun o => Ok (Yield o)) os ++ repeat (Ok Finished) m.
Proof. intros E area Hb. apply (tiles v4_num E _ (v4opt_as_ref E) (v4_table E) (v4_refs E) eq_refl area Hb). Qed.
(** C58: a loop that ends does so after at most one call of next() per byte of the area, and one more. *)
Lemma c58_bounded : forall E area, is_bytes area ->
  ((exists n, In (Ok Finished) (nexts (tcp_iter_next E) n area)) -> In (Ok Finished) (nexts (tcp_iter_next E) (S (length area)) area)) /\
  ((exists n, In (Ok Finished) (nexts (v4_iter_next E) n area)) -> In (Ok Finished) (nexts (v4_iter_next E) (S (length area)) area)).
Proof.
  intros E area Hb. split.
  - apply (bounded tcp_num E _ (tcpopt_as_ref E) (tcp_table E) (tcp_refs E) eq_refl area Hb).
  - apply (bounded v4_num E _ (v4opt_as_ref E) (v4_table E) (v4_refs E) eq_refl area Hb).
Qed.
(** C58: whether a loop ends does not depend on the build profile. *)
Lemma c58_profile : forall E E' area, is_bytes area ->
  ((exists n, In (Ok Finished) (nexts (tcp_iter_next E) n area)) <-> (exists n, In (Ok Finished) (nexts (tcp_iter_next E') n area))) /\
  ((exists n, In (Ok Finished) (nexts (v4_iter_next E) n area)) <-> (exists n, In (Ok Finished) (nexts (v4_iter_next E') n area))).
Proof.
  intros E E' area Hb. split.
  - rewrite !c58_tcp_finishes by exact Hb. reflexivity.
  - rewrite !c58_v4_finishes by exact Hb. reflexivity.
Qed.
Example c58_example : forall E, let area := [1; 2; 4; 5; 180; 7; 1; 0; 99] in
  is_bytes area /\ area = area_of [One 1; Tlv 2 [5; 180]; Odd 7] [0; 99] /\
  nexts (tcp_iter_next E) 5 area =
    [Ok (Yield area); Ok (Yield [2; 4; 5; 180; 7; 1; 0; 99]); Ok (Yield [7; 1; 0; 99]); Ok (Yield [1; 0; 99]); Ok Finished].
Proof. intros E area. split; [repeat constructor|]. split; [reflexivity|]. destruct E as [[] [] []]; vm_compute; reflexivity. Qed.
