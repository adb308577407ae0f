(** * SucceedProofs: which builder programs succeed, and what they built reads back as (C66). *)
From Verif Require Import Base Enums Buffer Ether Ipv4 Ip Udp Tcp Icmp Builders Spec SpecCalls SpecBuild SpecProfile SpecShift SpecReference SpecSucceed
  Lemmas ParseProofs SliceProofs AccessProofs FieldProofs ChecksumLemmas ChecksumProofs GuardProofs BufferProofs BuildLemmas FinalLemmas ChainLemmas ReadLemmas BuilderProofs MisuseProofs SliceBuildProofs MessageProofs PayloadProofs ReferenceProofs.
From Coq Require Import ZifyBool ZifyNat ZifyN.
Ltac Zify.zify_post_hook ::= Z.div_mod_to_equations.

(** What of a draft decides. *)
Definition dp (d : draft) : option bytes :=
  match d with DraftEther _ p | DraftV4 _ _ p | DraftUdp _ _ p | DraftTcp _ _ _ p | DraftEcho _ _ _ p => p | _ => None end.
Definition df (d : draft) : bool := match d with DraftTcp _ _ fl _ => fl | _ => false end.
Definition dk (d : draft) : bool := match d with DraftEcho _ _ k _ | DraftInformation _ _ k | DraftTimestamp _ _ k => k | _ => false end.
Definition kindb (c : call) : bool :=
  match c with CallEcho o => echo_sets_kind o | CallInformation o => information_sets_kind o | CallTimestamp o => timestamp_sets_kind o | _ => false end.
Definition after_payload (c : call) : Prop := payload_of c = None /\ ~ goes_inside c.

Lemma step_iff c d t : returns (ty_of d) c = Some t -> ordinary c ->
  ((exists d', draft_call c d = Ok d') <-> value_fits c /\ (dp d <> None -> after_payload c) /\ (df d = true -> ~ calls_tcp_setter c)).
Proof.
  intros Ht Ho. unfold after_payload. destruct d; destruct c; try discriminate Ht; cbn [draft_call dp df value_fits payload_of goes_inside calls_tcp_setter].
  all: try (destruct o; try destruct s; cbn [v4_refuses draft_call pay_once payload_of]).
  all: try destruct p; cbn [pay_once no_payload_yet].
  all: try destruct flags_set.
  all: try (exfalso; exact Ho).
  all: try (split; [intros _; intuition congruence|intros _; eexists; reflexivity]).
  all: try (destruct (N.ltb_spec 63 v); (split; [intros [? HH]; try discriminate HH; intuition (congruence || lia)|intros (? & _); try lia; eexists; reflexivity])).
  all: try (destruct (N.ltb_spec 3 v); (split; [intros [? HH]; try discriminate HH; intuition (congruence || lia)|intros (? & _); try lia; eexists; reflexivity])).
  all: split; [intros [? HH]; discriminate HH|intros (? & H1 & H2); exfalso; try (destruct (H1 ltac:(discriminate)) as [? ?]; try discriminate; tauto); try (apply H2; [reflexivity|exact I])].
Qed.

Lemma step_state c d d' : draft_call c d = Ok d' ->
  dp d' = match payload_of c with Some p => Some p | None => dp d end /\
  (df d' = true <-> df d = true \/ calls_flags c) /\ dk d' = dk d || kindb c.
Proof.
  intros H. destruct d; destruct c; try discriminate H; cbn [draft_call] in H;
    try (destruct o; try destruct s; cbn [draft_call pay_once] in H);
    repeat match type of H with
    | match ?x with _ => _ end = _ => destruct x; try discriminate H
    | pay_once _ ?p _ _ = _ => destruct p; cbn [pay_once] in H; try discriminate H
    | no_payload_yet ?p _ = _ => destruct p; cbn [no_payload_yet] in H; try discriminate H
    end; apply Ok_inj in H; subst d'; cbn [dp df dk payload_of calls_flags kindb tcp_sets_flags echo_sets_kind information_sets_kind timestamp_sets_kind];
    rewrite ?orb_false_r, ?orb_true_r; (split; [reflexivity|]; split; [|reflexivity]); intuition congruence.
Qed.
Lemma calls_iff cs : forall d t', typed (ty_of d) cs t' -> Forall ordinary cs ->
  ((exists d', draft_calls cs d = Ok d') <->
   Forall value_fits cs /\ ForallOrdPairs may_follow cs /\ (dp d <> None -> Forall after_payload cs) /\ (df d = true -> Forall (fun c => ~ calls_tcp_setter c) cs)).
Proof.
  induction cs as [|c cs IH]; intros d t' Ht Ho; cbn [draft_calls].
  - split; [intros _; repeat split; constructor|intros _; eexists; reflexivity].
  - destruct Ht as (t1 & H1 & H2). inversion_clear Ho as [|? ? Ho1 Ho2]. pose proof (step_iff c d t1 H1 Ho1) as S.
    destruct (draft_call c d) as [d1|e|] eqn:Hd; cbn [bind].
    2,3: split; [intros [? HH]; discriminate HH|intros (A & _ & B & C); exfalso; destruct S as [_ S]; destruct S as [? HH]; [|discriminate HH];
      split; [inversion A; assumption|]; split; [intros Hn; specialize (B Hn); inversion B; assumption|intros Hn; specialize (C Hn); inversion C; assumption]].
    destruct S as [S _]. destruct (S ltac:(eexists; reflexivity)) as (S1 & S2 & S3). clear S.
    destruct (step_state _ _ _ Hd) as (P1 & P2 & P3). pose proof (draft_step_ty _ _ _ _ H1 Hd) as Ht. rewrite <- Ht in H2.
    rewrite (IH d1 t' H2 Ho2), P2, P1. split.
    + intros (A & B & C & D). split; [constructor; assumption|]. split; [constructor; [|exact B]|split].
      * apply Forall_forall. intros c' Hin. split.
        -- intros Hp. assert (HC : Forall after_payload cs) by (apply C; destruct (payload_of c); [discriminate|congruence]).
           rewrite Forall_forall in HC. exact (HC c' Hin).
        -- intros Hp. assert (HD : Forall (fun c => ~ calls_tcp_setter c) cs) by (apply D; right; exact Hp). rewrite Forall_forall in HD. exact (HD c' Hin).
      * intros Hn. constructor; [exact (S2 Hn)|]. apply C. destruct (payload_of c); [discriminate|exact Hn].
      * intros Hn. constructor; [exact (S3 Hn)|]. apply D. left. exact Hn.
    + intros (A & B & C & D). inversion_clear A as [|? ? A1 A2]. inversion_clear B as [|? ? B1 B2]. split; [exact A2|]. split; [exact B2|]. rewrite Forall_forall in B1. split.
      * intros Hn. destruct (payload_of c) as [q|] eqn:Hq; [|specialize (C Hn); inversion C; assumption].
        apply Forall_forall. intros c' Hin. apply (B1 c' Hin). congruence.
      * intros [Hn|Hn]; [specialize (D Hn); inversion D; assumption|]. apply Forall_forall. intros c' Hin. apply (B1 c' Hin). exact Hn.
Qed.
Definition payloads (cs : list call) : list bytes := flat_map (fun c => match payload_of c with Some p => [p] | None => [] end) cs.
Lemma no_payloads cs : Forall after_payload cs -> payloads cs = [].
Proof. induction 1 as [|c cs [Hc _] _ IH]; [reflexivity|]. unfold payloads in *. cbn [flat_map]. rewrite Hc, IH. reflexivity. Qed.
Lemma calls_state cs : forall d t' d', typed (ty_of d) cs t' -> Forall ordinary cs -> draft_calls cs d = Ok d' ->
  dp d' = match payloads cs with p :: _ => Some p | [] => dp d end /\ dk d' = dk d || existsb kindb cs /\ ty_of d' = t'.
Proof.
  induction cs as [|c cs IH]; intros d t' d' Ht Ho H; cbn [draft_calls] in H.
  - apply Ok_inj in H. subst d'. cbn. rewrite orb_false_r. repeat split. exact Ht.
  - destruct Ht as (t1 & H1 & H2). inversion_clear Ho as [|? ? Ho1 Ho2]. destruct (draft_call c d) as [d1|e|] eqn:Hd; try discriminate H. cbn [bind] in H.
    destruct (step_state _ _ _ Hd) as (P1 & _ & P3). pose proof (draft_step_ty _ _ _ _ H1 Hd) as Ht. rewrite <- Ht in H2.
    destruct (IH _ _ _ H2 Ho2 H) as (I1 & I2 & I3). rewrite I1, I2, I3, P3, P1. cbn [existsb]. rewrite orb_assoc. split; [|split; reflexivity].
    unfold payloads. cbn [flat_map]. fold (payloads cs). destruct (payload_of c) as [q|] eqn:Hq; [|destruct (payloads cs); reflexivity].
    cbn [app]. rewrite no_payloads; [reflexivity|]. destruct (calls_iff cs d1 t' H2 Ho2) as [C _]. destruct (C (ex_intro _ _ H)) as (_ & _ & C1 & _). apply C1. rewrite P1. discriminate.
Qed.
Definition has_eth (d : draft) : bool :=
  match d with
  | DraftEther _ _ => true
  | DraftIp e | DraftV6 e | DraftV4 e _ _ => some e
  | DraftUdp a _ _ | DraftTcp a _ _ _ | DraftIcmp a | DraftEcho a _ _ _ | DraftInformation a _ _ | DraftTimestamp a _ _ => match a with Some (e, _) => some e | None => false end
  end.
Definition bare (d : draft) : bool := match d with DraftUdp None _ _ | DraftTcp None _ _ _ => true | _ => false end.
Lemma step_outer c d d' : draft_call c d = Ok d' -> has_eth d' = has_eth d /\ bare d' = bare d.
Proof.
  intros H. destruct d; destruct c; try discriminate H; cbn [draft_call] in H;
    try (destruct o; try destruct s; cbn [draft_call pay_once] in H);
    repeat match type of H with
    | match ?x with _ => _ end = _ => destruct x; try discriminate H
    | pay_once _ ?p _ _ = _ => destruct p; cbn [pay_once] in H; try discriminate H
    | no_payload_yet ?p _ = _ => destruct p; cbn [no_payload_yet] in H; try discriminate H
    end; apply Ok_inj in H; subst d'; split; reflexivity.
Qed.
Lemma calls_outer cs : forall d d', draft_calls cs d = Ok d' -> has_eth d' = has_eth d /\ bare d' = bare d.
Proof.
  induction cs as [|c cs IH]; intros d d' H; cbn [draft_calls] in H; [apply Ok_inj in H; subst d'; split; reflexivity|].
  destruct (draft_call c d) as [d1|e|] eqn:Hd; try discriminate H. destruct (step_outer _ _ _ Hd) as [<- <-]. apply IH. exact H.
Qed.
Lemma version_iff L : let b0 := N.lor 64 (L / 4 mod 256) in let w := L / 4 mod 256 in
  type_for (b0 / 16) <> None <-> w / 16 = 0 \/ w / 16 = 2 \/ w / 16 = 4 \/ w / 16 = 6.
Proof.
  cbv zeta. set (w := L / 4 mod 256). assert (Hw : w < 256) by (unfold w; lia). clearbody w. clear L.
  revert w Hw. assert (H : forallb (fun w => Bool.eqb (match type_for (N.lor 64 w / 16) with Some _ => true | None => false end)
    ((w / 16 =? 0) || (w / 16 =? 2) || (w / 16 =? 4) || (w / 16 =? 6))) (map N.of_nat (seq 0 256)) = true) by (vm_compute; reflexivity).
  rewrite forallb_forall in H. intros w Hw. specialize (H w). rewrite Bool.eqb_true_iff in H.
  assert (Hin : In w (map N.of_nat (seq 0 256))) by (apply in_map_iff; exists (N.to_nat w); split; [lia|apply in_seq; lia]).
  specialize (H Hin). destruct (type_for (N.lor 64 w / 16)) as [t|]; split; intros HH; try discriminate; try congruence; try lia.
Qed.
Lemma kinds_of t cs t' : typed t cs t' -> 
  match t' with
  | TyEcho => existsb kindb cs = true <-> Exists is_echo_kind cs
  | TyInformation => existsb kindb cs = true <-> Exists is_information_kind cs
  | TyTimestamp => existsb kindb cs = true <-> Exists is_timestamp_kind cs
  | _ => True
  end.
Proof.
  intros Ht.
  assert (K : forall t cs t', typed t cs t' -> forall c, In c cs -> kindb c = true ->
     match t' with TyEcho => is_echo_kind c | TyInformation => is_information_kind c | TyTimestamp => is_timestamp_kind c | _ => True end).
  { clear. intros t cs. revert t. induction cs as [|c cs IH]; intros t t' Ht c0 Hin Hk; [destruct Hin|]. destruct Ht as (t1 & H1 & H2). destruct Hin as [->|Hin]; [|exact (IH _ _ H2 _ Hin Hk)].
    assert (Hs : forall s, (s = TyEcho \/ s = TyInformation \/ s = TyTimestamp) -> forall cs t', typed s cs t' -> t' = s).
    { clear. intros s Hs cs. revert s Hs. induction cs as [|c cs IH]; intros s Hs t' Ht; [symmetry; exact Ht|]. destruct Ht as (t1 & H1 & H2).
      assert (t1 = s) by (destruct Hs as [->|[->| ->]]; destruct c; try discriminate H1; injection H1 as <-; reflexivity). subst t1. exact (IH s Hs _ H2). }
    destruct c0; try discriminate Hk; cbn [kindb] in Hk.
    - assert (t1 = TyEcho) by (destruct t; try discriminate H1; injection H1 as <-; reflexivity). subst t1. rewrite (Hs TyEcho ltac:(tauto) _ _ H2).
      destruct o; try discriminate Hk; [left|right]; reflexivity.
    - assert (t1 = TyInformation) by (destruct t; try discriminate H1; injection H1 as <-; reflexivity). subst t1. rewrite (Hs TyInformation ltac:(tauto) _ _ H2).
      destruct o; try discriminate Hk; [left|right]; reflexivity.
    - assert (t1 = TyTimestamp) by (destruct t; try discriminate H1; injection H1 as <-; reflexivity). subst t1. rewrite (Hs TyTimestamp ltac:(tauto) _ _ H2).
      destruct o; try discriminate Hk; [left|right]; reflexivity. }
  specialize (K t cs t' Ht).
  destruct t'; try exact I; (split; [rewrite existsb_exists; intros (c & Hi & Hk); apply Exists_exists; exists c; split; [exact Hi|exact (K c Hi Hk)]
    |rewrite Exists_exists; intros (c & Hi & Hk); apply existsb_exists; exists c; split; [exact Hi|destruct Hk as [-> | ->]; reflexivity]]).
Qed.
(** C66: a program succeeds exactly when every value fits, nothing forbidden follows a
    payload or TCP flags, and [build] has what it needs; so no misuse goes unnoticed
    and no proper use is refused. *)
Lemma c66_succeeds : forall E o cs cl, compiles o cs cl -> Forall ordinary cs -> added o cs <= ISIZE_MAX ->
  ((exists out, program E o cs cl dynamic_new = Ok out) <-> succeeds E o cs cl).
Proof.
  intros E o cs cl Hc Ho HM. rewrite (c65_reference E o cs cl Hc Ho HM). unfold reference, succeeds.
  unfold compiles in Hc. replace (opened o) with (ty_of (draft_open o)) in Hc by (destruct o; reflexivity).
  pose proof (calls_iff cs _ _ Hc Ho) as CI.
  assert (D0 : dp (draft_open o) = None /\ df (draft_open o) = false /\ dk (draft_open o) = false) by (destruct o; repeat split). destruct D0 as (D1 & D2 & D3). rewrite D1, D2 in CI.
  destruct (draft_calls cs (draft_open o)) as [d|e|] eqn:Hd; cbn [bind].
  2,3: split; [intros [? HH]; discriminate HH|intros (A & B & _); exfalso; destruct CI as [_ CI]; destruct CI as [? HH]; [|discriminate HH]; repeat split; try assumption; intros; congruence].
  destruct CI as [CI _]. destruct (CI ltac:(eexists; reflexivity)) as (A & B & _ & _). clear CI.
  transitivity (can_finish E o cs cl); [|tauto].
  destruct (calls_state cs _ _ d Hc Ho Hd) as (S1 & S2 & S3). rewrite D1, D3 in *. cbn [orb] in S2.
  destruct (calls_outer cs _ _ Hd) as (O1 & O2). pose proof (kinds_of _ _ _ Hc) as K.
  assert (HP : payload_given cs = given (dp d)) by (rewrite S1; unfold payload_given; fold (payloads cs); destruct (payloads cs); reflexivity).
  destruct d; destruct cl; try discriminate S3; cbn [draft_close can_finish dp dk has_eth bare closed] in *; try rewrite HP.
  - split; [intros _; exact I|intros _; eexists; reflexivity].
  - split; [intros [? HH]; discriminate HH|tauto].
  - split; [intros [? HH]; discriminate HH|tauto].
  - unfold v4_alone. pose proof (version_iff (20 + len (given p))) as V. cbv zeta in V. destruct e as [e|]; cbn [some] in O1.
    + assert (o = OpEther) by (destruct o; try discriminate O1; reflexivity). subst o. rewrite <- V.
      destruct (type_for _) as [t|]; (split; [intros [? HH]|]); try discriminate HH; intros; try congruence; try (eexists; reflexivity). exfalso. apply H; reflexivity.
    + split; [intros _ ->; discriminate O1|intros _; eexists; reflexivity].
  - destruct a as [[e v]|].
    + split; [intros _ ->; discriminate O2|intros _; eexists; reflexivity].
    + split; [intros [? HH]; discriminate HH|]. intros Hn. exfalso. destruct o; try discriminate O2; [congruence|]. clear -Hc.
      revert Hc. cbn [draft_open ty_of]. induction cs as [|c cs IH]; [discriminate|]. intros (t1 & H1 & H2). destruct c; try discriminate H1; injection H1 as <-; exact (IH H2).
  - destruct a as [[e v]|].
    + destruct (cursor_eof E) eqn:HE.
      * split; [intros _; split; [intros ->; discriminate O2|discriminate]|intros _; eexists; reflexivity].
      * destruct (N.eqb_spec ((20 + len (given p)) mod 2) 1) as [Hm|Hm].
        -- split; [intros [? HH]; discriminate HH|]. intros (_ & Hn). specialize (Hn eq_refl). exfalso. lia.
        -- split; [intros _; split; [intros ->; discriminate O2|intros _; lia]|intros _; eexists; reflexivity].
    + split; [intros [? HH]; discriminate HH|]. intros [Hn _]. exfalso. destruct o; try discriminate O2; [|congruence]. clear -Hc.
      revert Hc. cbn [draft_open ty_of]. induction cs as [|c cs IH]; [discriminate|]. intros (t1 & H1 & H2). destruct c; try discriminate H1; injection H1 as <-; exact (IH H2).
  - split; [intros [? HH]; discriminate HH|tauto].
  - destruct f as [[t i] s]. unfold icmp_done. rewrite <- K, <- S2. destruct kind_set; (split; [intros [? HH]; try discriminate HH; reflexivity|intros HH; try discriminate HH; eexists; reflexivity]).
  - destruct f as [[t i] s]. unfold icmp_done. rewrite <- K, <- S2. destruct kind_set; (split; [intros [? HH]; try discriminate HH; reflexivity|intros HH; try discriminate HH; eexists; reflexivity]).
  - destruct f as [[[[[t i] s] x] y] z]. unfold icmp_done. rewrite <- K, <- S2. destruct kind_set; (split; [intros [? HH]; try discriminate HH; reflexivity|intros HH; try discriminate HH; eexists; reflexivity]).
Qed.

(** ** The shape of a program that compiles *)
Inductive begins : opening -> option (list ether_op) -> list call -> Prop :=
| b_eth eops : begins OpEther (Some eops) (map CallEther eops ++ [CallEtherIp; CallIpV4])
| b_ip : begins OpIp None [CallIpV4]
| b_v4 : begins OpV4 None [].
Definition inner (rest : list call) (t' : ty) : Prop :=
  (rest = [] /\ t' = TyV4) \/
  (exists us, rest = CallV4Udp :: map CallUdp us /\ t' = TyUdp) \/
  (exists ts, rest = CallV4Tcp :: map CallTcp ts /\ t' = TyTcp) \/
  (rest = [CallV4Icmp] /\ t' = TyIcmp) \/
  (exists os, rest = CallV4Icmp :: CallIcmpEcho :: map CallEcho os /\ t' = TyEcho) \/
  (exists os, rest = CallV4Icmp :: CallIcmpInformation :: map CallInformation os /\ t' = TyInformation) \/
  (exists os, rest = CallV4Icmp :: CallIcmpTimestamp :: map CallTimestamp os /\ t' = TyTimestamp).
Ltac leaf_shape := induction 1 as [|c cs Hc _ IH]; [intros H; exists []; split; [reflexivity|symmetry; exact H]|]; intros (t1 & H1 & H2); destruct c; try discriminate H1; try (exfalso; exact Hc);
  injection H1 as <-; destruct (IH H2) as (os & -> & ->); eexists (_ :: os); split; reflexivity.
Lemma udp_shape cs t' : Forall ordinary cs -> typed TyUdp cs t' -> exists us, cs = map CallUdp us /\ t' = TyUdp. Proof. leaf_shape. Qed.
Lemma tcp_shape cs t' : Forall ordinary cs -> typed TyTcp cs t' -> exists us, cs = map CallTcp us /\ t' = TyTcp. Proof. leaf_shape. Qed.
Lemma echo_shape cs t' : Forall ordinary cs -> typed TyEcho cs t' -> exists us, cs = map CallEcho us /\ t' = TyEcho. Proof. leaf_shape. Qed.
Lemma information_shape cs t' : Forall ordinary cs -> typed TyInformation cs t' -> exists us, cs = map CallInformation us /\ t' = TyInformation. Proof. leaf_shape. Qed.
Lemma timestamp_shape cs t' : Forall ordinary cs -> typed TyTimestamp cs t' -> exists us, cs = map CallTimestamp us /\ t' = TyTimestamp. Proof. leaf_shape. Qed.
Lemma v6_shape cs t' : Forall ordinary cs -> typed TyV6 cs t' -> cs = [] /\ t' = TyV6.
Proof. destruct 1 as [|c cs Hc _]; [intros H; split; [reflexivity|symmetry; exact H]|]. intros (t1 & H1 & H2); destruct c; try discriminate H1; exfalso; exact Hc. Qed.
Lemma icmp_shape cs t' : Forall ordinary cs -> typed TyIcmp cs t' ->
  (cs = [] /\ t' = TyIcmp) \/ (exists us, cs = CallIcmpEcho :: map CallEcho us /\ t' = TyEcho) \/
  (exists us, cs = CallIcmpInformation :: map CallInformation us /\ t' = TyInformation) \/ (exists us, cs = CallIcmpTimestamp :: map CallTimestamp us /\ t' = TyTimestamp).
Proof.
  destruct 1 as [|c cs Hc Ho]; [intros H; left; split; [reflexivity|symmetry; exact H]|]. intros (t1 & H1 & H2); destruct c; try discriminate H1; try (exfalso; exact Hc); injection H1 as <-; right.
  - left. destruct (echo_shape _ _ Ho H2) as (us & -> & ->). exists us. split; reflexivity.
  - right; left. destruct (information_shape _ _ Ho H2) as (us & -> & ->). exists us. split; reflexivity.
  - right; right. destruct (timestamp_shape _ _ Ho H2) as (us & -> & ->). exists us. split; reflexivity.
Qed.
Lemma v4_shape cs t' : Forall ordinary cs -> typed TyV4 cs t' -> exists vops rest, cs = map CallV4 vops ++ rest /\ inner rest t'.
Proof.
  induction 1 as [|c cs Hc Ho IH]; [intros H; exists [], []; split; [reflexivity|left; split; [reflexivity|symmetry; exact H]]|].
  intros (t1 & H1 & H2); destruct c; try discriminate H1; try (exfalso; exact Hc); injection H1 as <-.
  - destruct (IH H2) as (vops & rest & -> & Hi). exists (o :: vops), rest. split; [reflexivity|exact Hi].
  - destruct (udp_shape _ _ Ho H2) as (us & -> & ->). exists [], (CallV4Udp :: map CallUdp us). split; [reflexivity|]. right; left. exists us. split; reflexivity.
  - destruct (tcp_shape _ _ Ho H2) as (us & -> & ->). exists [], (CallV4Tcp :: map CallTcp us). split; [reflexivity|]. right; right; left. exists us. split; reflexivity.
  - destruct (icmp_shape _ _ Ho H2) as [(-> & ->)|[(us & -> & ->)|[(us & -> & ->)|(us & -> & ->)]]]; eexists [], _; (split; [reflexivity|]); unfold inner.
    + do 3 right. left. split; reflexivity.
    + do 4 right. left. exists us. split; reflexivity.
    + do 5 right. left. exists us. split; reflexivity.
    + do 6 right. exists us. split; reflexivity.
Qed.
Lemma ip_shape cs t' : Forall ordinary cs -> typed TyIp cs t' -> t' = TyIp \/ t' = TyV6 \/ exists vops rest, cs = CallIpV4 :: map CallV4 vops ++ rest /\ inner rest t'.
Proof.
  destruct 1 as [|c cs Hc Ho]; [intros H; left; symmetry; exact H|]. intros (t1 & H1 & H2); destruct c; try discriminate H1; try (exfalso; exact Hc); injection H1 as <-.
  - right; right. destruct (v4_shape _ _ Ho H2) as (vops & rest & -> & Hi). exists vops, rest. split; [reflexivity|exact Hi].
  - right; left. apply (v6_shape _ _ Ho H2).
Qed.
Lemma ether_shape cs t' : Forall ordinary cs -> typed TyEther cs t' -> t' = TyIp \/ t' = TyV6 \/ (exists eops, cs = map CallEther eops /\ t' = TyEther) \/
  exists eops vops rest, cs = (map CallEther eops ++ [CallEtherIp; CallIpV4]) ++ map CallV4 vops ++ rest /\ inner rest t'.
Proof.
  induction 1 as [|c cs Hc Ho IH]; [intros H; right; right; left; exists []; split; [reflexivity|symmetry; exact H]|].
  intros (t1 & H1 & H2); destruct c; try discriminate H1; try (exfalso; exact Hc); injection H1 as <-.
  - destruct (IH H2) as [H|[H|[(eops & -> & ->)|(eops & vops & rest & -> & Hi)]]]; [left; exact H|right; left; exact H| |].
    + right; right; left. exists (o :: eops). split; reflexivity.
    + right; right; right. exists (o :: eops), vops, rest. split; [reflexivity|exact Hi].
  - destruct (ip_shape _ _ Ho H2) as [H|[H|(vops & rest & -> & Hi)]]; [left; exact H|right; left; exact H|].
    right; right; right. exists [], vops, rest. split; [reflexivity|exact Hi].
Qed.
(** A program that ends inside IPv4, or on it. *)
Lemma shape o cs t' : Forall ordinary cs -> typed (opened o) cs t' -> o = OpEther \/ o = OpIp \/ o = OpV4 -> t' <> TyIp -> t' <> TyV6 -> t' <> TyEther ->
  exists eth pre vops rest, begins o eth pre /\ cs = pre ++ map CallV4 vops ++ rest /\ inner rest t'.
Proof.
  intros Ho Ht Hop N1 N2 N3. destruct Hop as [->|[->| ->]]; cbn [opened] in Ht.
  - destruct (ether_shape _ _ Ho Ht) as [H|[H|[(eops & _ & H)|(eops & vops & rest & -> & Hi)]]]; try contradiction. eexists _, _, vops, rest. split; [constructor|]. split; [reflexivity|exact Hi].
  - destruct (ip_shape _ _ Ho Ht) as [H|[H|(vops & rest & -> & Hi)]]; try contradiction. eexists _, _, vops, rest. split; [constructor|]. split; [reflexivity|exact Hi].
  - destruct (v4_shape _ _ Ho Ht) as (vops & rest & -> & Hi). eexists _, _, vops, rest. split; [constructor|]. split; [reflexivity|exact Hi].
Qed.
Lemma run_map {A} (k : A -> call) (run1 : env -> A -> builder -> res builder) E ops : (forall E o b, call1 E (k o) b = run1 E o b) ->
  forall b, run (call1 E) (map k ops) b = run (run1 E) ops b.
Proof. intros H. induction ops as [|o ops IH]; intros b; [reflexivity|]. cbn [map run]. rewrite H. destruct (run1 E o b); cbn [bind]; [apply IH|reflexivity|reflexivity]. Qed.
Lemma begin_run E o eth pre rest (k : builder -> res bytes) : begins o eth pre ->
  (let* b := open E o dynamic_new in let* b := run (call1 E) (pre ++ rest) b in k b) = (let* v := start_v4 E eth dynamic_new in let* b := run (call1 E) rest v in k b).
Proof.
  intros H. destruct H as [eops| |].
  - cbn [open start_v4]. destruct (ether_with E dynamic_new) as [b| |]; cbn [bind]; [|reflexivity|reflexivity].
    rewrite <- app_assoc, run_app, (run_map CallEther ether_run1) by reflexivity. destruct (run (ether_run1 E) eops b) as [b1| |]; cbn [bind]; [|reflexivity|reflexivity].
    cbn [app run call1]. destruct (ether_ip E b1) as [b2| |]; cbn [bind]; [|reflexivity|reflexivity]. destruct (ip_v4 E b2); reflexivity.
  - cbn [open start_v4 app run call1]. destruct E as [[] [] []]; reflexivity.
  - reflexivity.
Qed.
(** What of each layer is called. *)
Lemma fm_none {A B} (g : call -> list B) (k : A -> call) ops : (forall o, g (k o) = []) -> flat_map g (map k ops) = [].
Proof. intros H. induction ops as [|o ops IH]; [reflexivity|]. cbn [map flat_map]. rewrite H, IH. reflexivity. Qed.
Lemma fm_same {A} (g : call -> list A) (k : A -> call) ops : (forall o, g (k o) = [o]) -> flat_map g (map k ops) = ops.
Proof. intros H. induction ops as [|o ops IH]; [reflexivity|]. cbn [map flat_map]. rewrite H, IH. reflexivity. Qed.
Lemma fm_sub {A B} (g : call -> list B) (h : A -> list B) (k : A -> call) ops : (forall o, g (k o) = h o) -> flat_map g (map k ops) = flat_map h ops.
Proof. intros H. induction ops as [|o ops IH]; [reflexivity|]. cbn [map flat_map]. rewrite H, IH. reflexivity. Qed.
Ltac parts := unfold ether_calls, v4_calls, udp_calls, tcp_calls, echo_calls, information_calls, timestamp_calls; rewrite ?flat_map_app; cbn [flat_map app];
  repeat first [rewrite flat_map_app|rewrite fm_same by reflexivity|rewrite fm_none by (intros; reflexivity)|rewrite app_nil_r|progress cbn [flat_map app]]; reflexivity.
Definition calls_eth (eth : option (list ether_op)) : list ether_op := match eth with Some eops => eops | None => [] end.
Lemma pairs_app {A} (R : A -> A -> Prop) l1 c l2 x : ForallOrdPairs R (l1 ++ c :: l2) -> In x l1 -> R x c.
Proof.
  induction l1 as [|y l1 IH]; intros H Hin; [destruct Hin|]. inversion_clear H as [|? ? H1 H2]. destruct Hin as [->|Hin]; [|exact (IH H2 Hin)].
  rewrite Forall_forall in H1. apply H1. apply in_or_app. right. left. reflexivity.
Qed.
Lemma pairs_tail {A} (R : A -> A -> Prop) l1 l2 : ForallOrdPairs R (l1 ++ l2) -> ForallOrdPairs R l2.
Proof. induction l1 as [|y l1 IH]; intros H; [exact H|]. inversion_clear H. apply IH. assumption. Qed.
Lemma pairs_payloads cs : ForallOrdPairs may_follow cs -> one_payload (payloads cs) (payload_given cs).
Proof.
  unfold payload_given. fold (payloads cs). induction 1 as [|c cs H1 _ IH]; [right; split; reflexivity|]. unfold payloads. cbn [flat_map]. fold (payloads cs).
  destruct (payload_of c) as [p|] eqn:Hp; [|exact IH]. cbn [app]. left. rewrite no_payloads; [reflexivity|].
  rewrite Forall_forall in *. intros x Hx. destruct (H1 x Hx) as [H _]. apply H. congruence.
Qed.
Lemma pairs_before l1 c l2 : ForallOrdPairs may_follow (l1 ++ c :: l2) -> goes_inside c -> payloads l1 = [].
Proof.
  intros H Hc. assert (Hn : forall x, In x l1 -> payload_of x = None).
  { intros x Hx. destruct (pairs_app _ _ _ _ _ H Hx) as [Hf _]. destruct (payload_of x); [|reflexivity]. exfalso. apply Hf; [discriminate|exact Hc]. }
  clear H Hc. induction l1 as [|x l1 IH]; [reflexivity|]. unfold payloads. cbn [flat_map]. fold (payloads l1). rewrite (Hn x (or_introl eq_refl)), IH; [reflexivity|]. intros y Hy. apply Hn. right. exact Hy.
Qed.
Lemma payloads_app a b : payloads (a ++ b) = payloads a ++ payloads b. Proof. apply flat_map_app. Qed.
Lemma payloads_ether eops : payloads (map CallEther eops) = ether_payloads eops. Proof. apply fm_sub. destruct o; reflexivity. Qed.
Lemma payloads_v4 vops : payloads (map CallV4 vops) = v4_payloads vops. Proof. apply fm_sub. destruct o; reflexivity. Qed.
Lemma payloads_udp us : payloads (map CallUdp us) = udp_payloads us. Proof. apply fm_sub. destruct o; reflexivity. Qed.
Lemma payloads_tcp us : payloads (map CallTcp us) = tcp_payloads us. Proof. apply fm_sub. destruct o; reflexivity. Qed.
Lemma payloads_echo us : payloads (map CallEcho us) = echo_payloads us. Proof. apply fm_sub. destruct o; reflexivity. Qed.
Lemma payloads_information us : payloads (map CallInformation us) = []. Proof. apply fm_none. reflexivity. Qed.
Lemma payloads_timestamp us : payloads (map CallTimestamp us) = []. Proof. apply fm_none. reflexivity. Qed.
Lemma v4_all_set vops : v4_payloads vops = [] -> vops = map V4Set (v4_setters vops).
Proof. induction vops as [|o vops IH]; [reflexivity|]. destruct o as [s|p]; [|discriminate]. intros H. cbn. unfold v4_setters in IH. rewrite <- IH; [reflexivity|exact H]. Qed.
Lemma v4_args vops : Forall ordinary (map CallV4 vops) -> Forall value_fits (map CallV4 vops) -> Forall v4_op_ok vops.
Proof.
  induction vops as [|o vops IH]; intros H1 H2; constructor; inversion_clear H1 as [|? ? A1 A2]; inversion_clear H2 as [|? ? B1 B2]; [|apply IH; assumption].
  destruct o as [s|p]; [|exact A1]. split; [exact A1|]. destruct s; cbn in *; try exact I; assumption.
Qed.
Lemma v4_setters_args vops : Forall v4_op_ok vops -> Forall v4_arg_ok (v4_setters vops).
Proof. induction 1 as [|o vops H _ IH]; [constructor|]. destruct o; cbn; [constructor; assumption|exact IH]. Qed.
Lemma Forall_map_to {A} (k : A -> call) (P : call -> Prop) (Q : A -> Prop) ops : (forall o, P (k o) -> Q o) -> Forall P (map k ops) -> Forall Q ops.
Proof. intros H. induction ops as [|o ops IH]; intros HF; constructor; inversion_clear HF; [apply H; assumption|apply IH; assumption]. Qed.
(** The outer layers of a program that went inside IPv4. *)
Lemma outer_facts o eth pre vops c rest : begins o eth pre -> goes_inside c ->
  let cs := pre ++ map CallV4 vops ++ c :: rest in
  Forall ordinary cs -> Forall value_fits cs -> ForallOrdPairs may_follow cs ->
  eth_ok eth /\ vops = map V4Set (v4_setters vops) /\ Forall v4_arg_ok (v4_setters vops) /\ payloads cs = payloads (c :: rest) /\
  ForallOrdPairs may_follow rest /\ Forall ordinary rest.
Proof.
  intros Hb Hc cs Ho Hv Hm. unfold cs in *. rewrite !Forall_app in Ho, Hv. destruct Ho as (O1 & O2 & O3). destruct Hv as (V1 & V2 & V3).
  rewrite app_assoc in Hm. pose proof (pairs_before _ _ _ Hm Hc) as Hp. rewrite payloads_app, payloads_v4 in Hp. apply app_eq_nil in Hp. destruct Hp as [P1 P2].
  split; [|split; [apply v4_all_set; exact P2|split; [apply v4_setters_args, v4_args; assumption|split; [|split]]]].
  - destruct Hb as [eops| |]; cbn [eth_ok]; try exact I. rewrite payloads_app, payloads_ether in P1. apply app_eq_nil in P1. destruct P1 as [P1 _].
    rewrite Forall_app in O1. destruct O1 as [O1 _]. split; [|exact P1]. revert O1. apply Forall_map_to. intros x Hx. exact Hx.
  - rewrite !payloads_app, P1, payloads_v4, P2. reflexivity.
  - apply pairs_tail in Hm. inversion_clear Hm. assumption.
  - inversion_clear O3. assumption.
Qed.
Lemma begins_calls o eth pre : begins o eth pre -> ether_calls pre = calls_eth eth /\ v4_calls pre = [] /\ udp_calls pre = [] /\ tcp_calls pre = [] /\ echo_calls pre = [] /\ information_calls pre = [] /\ timestamp_calls pre = [].
Proof. intros [eops| |]; cbn [calls_eth]; repeat apply conj; parts. Qed.
Ltac split_calls := unfold ether_calls, v4_calls, udp_calls, tcp_calls, echo_calls, information_calls, timestamp_calls; rewrite !flat_map_app; cbn [flat_map app];
  fold (ether_calls) (v4_calls) (udp_calls) (tcp_calls) (echo_calls) (information_calls) (timestamp_calls).
Lemma frame_of_eth o eth pre cs ip out : begins o eth pre -> ether_calls cs = calls_eth eth -> eth_ok eth -> out = ether_layer eth ++ ip -> frame_reads o cs ip out.
Proof.
  intros Hb Hc He ->. destruct Hb as [eops| |]; cbn [frame_reads calls_eth ether_layer] in *; try reflexivity.
  rewrite Hc. change ET_Ipv4 with (ether_protocol_from 0x0800). apply ether_reads_ok; [apply He|reflexivity].
Qed.
Lemma opening_cases o cs t : typed (opened o) cs t -> Forall ordinary cs -> t = TyUdp -> o <> OpUdp -> o = OpEther \/ o = OpIp \/ o = OpV4.
Proof.
  intros Ht Ho -> Hn. destruct o; try tauto; exfalso; cbn [opened] in Ht.
  - destruct (v6_shape _ _ Ho Ht) as [_ H]; discriminate.
  - destruct (tcp_shape _ _ Ho Ht) as (? & _ & H); discriminate.
  - destruct (icmp_shape _ _ Ho Ht) as [(_ & H)|[(? & _ & H)|[(? & _ & H)|(? & _ & H)]]]; discriminate.
  - destruct (echo_shape _ _ Ho Ht) as (? & _ & H); discriminate.
  - destruct (information_shape _ _ Ho Ht) as (? & _ & H); discriminate.
  - destruct (timestamp_shape _ _ Ho Ht) as (? & _ & H); discriminate.
Qed.
Lemma opening_cases_tcp o cs : typed (opened o) cs TyTcp -> Forall ordinary cs -> o <> OpTcp -> o = OpEther \/ o = OpIp \/ o = OpV4.
Proof.
  intros Ht Ho Hn. destruct o; try tauto; exfalso; cbn [opened] in Ht.
  - destruct (v6_shape _ _ Ho Ht) as [_ H]; discriminate.
  - destruct (udp_shape _ _ Ho Ht) as (? & _ & H); discriminate.
  - destruct (icmp_shape _ _ Ho Ht) as [(_ & H)|[(? & _ & H)|[(? & _ & H)|(? & _ & H)]]]; discriminate.
  - destruct (echo_shape _ _ Ho Ht) as (? & _ & H); discriminate.
  - destruct (information_shape _ _ Ho Ht) as (? & _ & H); discriminate.
  - destruct (timestamp_shape _ _ Ho Ht) as (? & _ & H); discriminate.
Qed.
(** C66: and then the bytes are a packet whose every layer the crate's parsers read
    back with the last value given to every field, the payload, and valid checksums:
    UDP, in IPv4, in Ethernet if the program began there. *)
Lemma c66_udp : forall E o cs out, compiles o cs ClUdp -> Forall ordinary cs -> faithful_calls cs -> added o cs <= ISIZE_MAX ->
  28 + len (payload_given cs) <= 65535 -> len (payload_given cs) mod 2 = 0 \/ cursor_eof E = EofKeep ->
  program E o cs ClUdp dynamic_new = Ok out ->
  exists ip u, frame_reads o cs ip out /\ v4_reads E (v4_setters (v4_calls cs)) IP_Udp u ip /\ udp_reads E (udp_calls cs) (payload_given cs) ip u.
Proof.
  intros E o cs out Hc Ho Hfa HM Hl Hodd Hout. destruct (proj1 (c66_succeeds E o cs ClUdp Hc Ho HM) (ex_intro _ _ Hout)) as (Sv & Sm & Sf). cbn [can_finish] in Sf.
  unfold compiles in Hc. cbn [closed] in Hc. pose proof (opening_cases _ _ _ Hc Ho eq_refl Sf) as Hop.
  destruct (shape o cs TyUdp Ho Hc Hop ltac:(discriminate) ltac:(discriminate) ltac:(discriminate)) as (eth & pre & vops & rest & Hb & -> & Hi).
  destruct Hi as [(_ & H)|[(us & -> & _)|[(? & _ & H)|[(_ & H)|[(? & _ & H)|[(? & _ & H)|(? & _ & H)]]]]]]; try discriminate.
  destruct (outer_facts o eth pre vops CallV4Udp (map CallUdp us) Hb I Ho Sv Sm) as (He & Hvs & Hva & Hp & Hm & Hu).
  destruct (begins_calls _ _ _ Hb) as (B1 & B2 & B3 & _).
  pose proof (pairs_payloads _ Sm) as Hone. rewrite Hp in Hone. change (payloads (CallV4Udp :: map CallUdp us)) with (payloads (map CallUdp us)) in Hone. rewrite payloads_udp in Hone.
  assert (Ce : ether_calls (pre ++ map CallV4 vops ++ CallV4Udp :: map CallUdp us) = calls_eth eth) by (rewrite <- B1; parts).
  assert (Cv : v4_calls (pre ++ map CallV4 vops ++ CallV4Udp :: map CallUdp us) = vops) by (unfold v4_calls in *; rewrite flat_map_app, B2; parts).
  assert (Cu : udp_calls (pre ++ map CallV4 vops ++ CallV4Udp :: map CallUdp us) = us) by (unfold udp_calls in *; rewrite flat_map_app, B3; parts).
  unfold faithful_calls in Hfa. rewrite Cv in *. rewrite Cu in *. set (p := payload_given _) in *. set (vs := v4_setters vops) in *.
  assert (Hprog : program E o (pre ++ map CallV4 vops ++ CallV4Udp :: map CallUdp us) ClUdp dynamic_new = udp_chain E eth vs us dynamic_new).
  { unfold program. rewrite (begin_run E o eth pre _ _ Hb). unfold udp_chain, v4_layer. destruct (start_v4 E eth dynamic_new) as [v| |]; cbn [bind]; [|reflexivity|reflexivity].
    rewrite run_app, (run_map CallV4 v4_run1) by reflexivity. rewrite <- Hvs. destruct (run (v4_run1 E) vops v) as [v1| |]; cbn [bind]; [|reflexivity|reflexivity].
    cbn [run call1]. destruct (v4_udp E v1) as [u| |]; cbn [bind]; [|reflexivity|reflexivity]. rewrite (run_map CallUdp udp_run1) by reflexivity. reflexivity. }
  assert (Hus : Forall udp_op_ok us) by (revert Hu; apply Forall_map_to; intros x Hx; exact Hx).
  rewrite Hprog in Hout.
  assert (Hi : 65535 + 42 <= ISIZE_MAX) by (widths; lia).
  assert (He0 : eth_ok (Some [])) by (split; [constructor|reflexivity]).
  destruct (c33_udp_reparse E [] vs us p He0 Hva Hfa Hus Hone Hl Hodd) as (fr & ip & u & _ & _ & R1 & R2 & R3).
  exists ip, u. split; [|split; assumption]. apply (frame_of_eth _ _ _ _ _ _ Hb Ce He).
  rewrite (c33_udp_bytes E eth vs us p) in Hout by (assumption || lia). rewrite (c33_udp_bytes E None vs us p) in R3 by (assumption || lia || exact I).
  apply Ok_inj in Hout. apply Ok_inj in R3. rewrite <- Hout, <- R3. reflexivity.
Qed.
Lemma tcp_flags_last ts : ForallOrdPairs may_follow (map CallTcp ts) -> flags_last (tcp_setters ts).
Proof.
  unfold flags_last, tcp_setters. induction ts as [|o ts IH]; intros H; [constructor|]. inversion_clear H as [|? ? H1 H2]. specialize (IH H2).
  destruct o as [s|p]; cbn [flat_map app]; [|exact IH]. fold (tcp_setters ts) in *.
  destruct (tcp_setters ts) as [|s' ss] eqn:Hs; [constructor|]. change (removelast (s :: s' :: ss)) with (s :: removelast (s' :: ss)). constructor; [|exact IH].
  intros Hf. assert (Hin : In (TcpSet s') ts).
  { assert (Hi : In s' (tcp_setters ts)) by (rewrite Hs; left; reflexivity). unfold tcp_setters in Hi. apply in_flat_map in Hi. destruct Hi as (x & Hx & Hy). destruct x as [y|]; cbn in Hy; [destruct Hy as [->|[]]; exact Hx|destruct Hy]. }
  rewrite Forall_forall in H1. destruct (H1 (CallTcp (TcpSet s')) (in_map _ _ _ Hin)) as [_ Hn]. apply Hn; [destruct s; try (exfalso; exact Hf); exact I|exact I].
Qed.
(** C66: the same for TCP. *)
Lemma c66_tcp : forall E o cs out, compiles o cs ClTcp -> Forall ordinary cs -> faithful_calls cs -> added o cs <= ISIZE_MAX ->
  40 + len (payload_given cs) <= 65535 -> program E o cs ClTcp dynamic_new = Ok out ->
  exists ip t, frame_reads o cs ip out /\ v4_reads E (v4_setters (v4_calls cs)) IP_Tcp t ip /\ tcp_reads E (tcp_calls cs) (payload_given cs) ip t.
Proof.
  intros E o cs out Hc Ho Hfa HM Hl Hout. destruct (proj1 (c66_succeeds E o cs ClTcp Hc Ho HM) (ex_intro _ _ Hout)) as (Sv & Sm & Sf & Sodd).
  assert (Hodd : len (payload_given cs) mod 2 = 0 \/ cursor_eof E = EofKeep) by (destruct (cursor_eof E); [right; reflexivity|left; apply Sodd; reflexivity]).
  unfold compiles in Hc. cbn [closed] in Hc. pose proof (opening_cases_tcp _ _ Hc Ho Sf) as Hop.
  destruct (shape o cs TyTcp Ho Hc Hop ltac:(discriminate) ltac:(discriminate) ltac:(discriminate)) as (eth & pre & vops & rest & Hb & -> & Hi).
  destruct Hi as [(_ & H)|[(? & _ & H)|[(us & -> & _)|[(_ & H)|[(? & _ & H)|[(? & _ & H)|(? & _ & H)]]]]]]; try discriminate.
  destruct (outer_facts o eth pre vops CallV4Tcp (map CallTcp us) Hb I Ho Sv Sm) as (He & Hvs & Hva & Hp & Hm & Hu).
  destruct (begins_calls _ _ _ Hb) as (B1 & B2 & _ & B3 & _).
  pose proof (pairs_payloads _ Sm) as Hone. rewrite Hp in Hone. change (payloads (CallV4Tcp :: map CallTcp us)) with (payloads (map CallTcp us)) in Hone. rewrite payloads_tcp in Hone.
  assert (Ce : ether_calls (pre ++ map CallV4 vops ++ CallV4Tcp :: map CallTcp us) = calls_eth eth) by (rewrite <- B1; parts).
  assert (Cv : v4_calls (pre ++ map CallV4 vops ++ CallV4Tcp :: map CallTcp us) = vops) by (unfold v4_calls in *; rewrite flat_map_app, B2; parts).
  assert (Cu : tcp_calls (pre ++ map CallV4 vops ++ CallV4Tcp :: map CallTcp us) = us) by (unfold tcp_calls in *; rewrite flat_map_app, B3; parts).
  unfold faithful_calls in Hfa. rewrite Cv in *. rewrite Cu in *. set (p := payload_given _) in *. set (vs := v4_setters vops) in *.
  assert (Hprog : program E o (pre ++ map CallV4 vops ++ CallV4Tcp :: map CallTcp us) ClTcp dynamic_new = tcp_chain E eth vs us dynamic_new).
  { unfold program. rewrite (begin_run E o eth pre _ _ Hb). unfold tcp_chain, v4_layer. destruct (start_v4 E eth dynamic_new) as [v| |]; cbn [bind]; [|reflexivity|reflexivity].
    rewrite run_app, (run_map CallV4 v4_run1) by reflexivity. rewrite <- Hvs. destruct (run (v4_run1 E) vops v) as [v1| |]; cbn [bind]; [|reflexivity|reflexivity].
    cbn [run call1]. destruct (v4_tcp E v1) as [u| |]; cbn [bind]; [|reflexivity|reflexivity]. rewrite (run_map CallTcp tcp_run1) by reflexivity. reflexivity. }
  assert (Hus : Forall tcp_op_ok us) by (revert Hu; apply Forall_map_to; intros x Hx; apply Hx).
  pose proof (tcp_flags_last us Hm) as Hfl.
  rewrite Hprog in Hout.
  assert (Hi : 65535 + 42 <= ISIZE_MAX) by (widths; lia).
  assert (He0 : eth_ok (Some [])) by (split; [constructor|reflexivity]).
  destruct (c34_tcp_reparse E [] vs us p He0 Hva Hfa Hus Hfl Hone Hl Hodd) as (fr & ip & u & _ & _ & R1 & R2 & R3).
  exists ip, u. split; [|split; assumption]. apply (frame_of_eth _ _ _ _ _ _ Hb Ce He).
  rewrite (c34_tcp_bytes E eth vs us p) in Hout by (assumption || lia). rewrite (c34_tcp_bytes E None vs us p) in R3 by (assumption || lia || exact I).
  apply Ok_inj in Hout. apply Ok_inj in R3. rewrite <- Hout, <- R3. reflexivity.
Qed.
(** C66: an Ethernet frame with a payload of its own. *)
Lemma c66_ether : forall E o cs out, compiles o cs ClEther -> Forall ordinary cs -> added o cs <= ISIZE_MAX ->
  program E o cs ClEther dynamic_new = Ok out ->
  ether_reads (ether_calls cs) (ether_protocol_from (ether_protocol_into (last_set sel_eth_type (ether_calls cs) (ether_protocol_from 0)))) (payload_given cs) out.
Proof.
  intros E o cs out Hc Ho HM Hout. destruct (proj1 (c66_succeeds E o cs ClEther Hc Ho HM) (ex_intro _ _ Hout)) as (Sv & Sm & _).
  unfold compiles in Hc. cbn [closed] in Hc.
  assert (Hs : o = OpEther /\ exists eops, cs = map CallEther eops).
  { destruct o; cbn [opened] in Hc.
    - destruct (ether_shape _ _ Ho Hc) as [H|[H|[(eops & -> & _)|(eops & vops & rest & _ & Hi)]]]; try discriminate; [split; [reflexivity|exists eops; reflexivity]|].
      destruct Hi as [(_ & H)|[(? & _ & H)|[(? & _ & H)|[(_ & H)|[(? & _ & H)|[(? & _ & H)|(? & _ & H)]]]]]]; discriminate.
    - destruct (ip_shape _ _ Ho Hc) as [H|[H|(vops & rest & _ & Hi)]]; try discriminate. destruct Hi as [(_ & H)|[(? & _ & H)|[(? & _ & H)|[(_ & H)|[(? & _ & H)|[(? & _ & H)|(? & _ & H)]]]]]]; discriminate.
    - destruct (v4_shape _ _ Ho Hc) as (vops & rest & _ & Hi). destruct Hi as [(_ & H)|[(? & _ & H)|[(? & _ & H)|[(_ & H)|[(? & _ & H)|[(? & _ & H)|(? & _ & H)]]]]]]; discriminate.
    - destruct (v6_shape _ _ Ho Hc) as [_ H]; discriminate.
    - destruct (udp_shape _ _ Ho Hc) as (? & _ & H); discriminate.
    - destruct (tcp_shape _ _ Ho Hc) as (? & _ & H); discriminate.
    - destruct (icmp_shape _ _ Ho Hc) as [(_ & H)|[(? & _ & H)|[(? & _ & H)|(? & _ & H)]]]; discriminate.
    - destruct (echo_shape _ _ Ho Hc) as (? & _ & H); discriminate.
    - destruct (information_shape _ _ Ho Hc) as (? & _ & H); discriminate.
    - destruct (timestamp_shape _ _ Ho Hc) as (? & _ & H); discriminate. }
  destruct Hs as (-> & eops & ->).
  assert (Ce : ether_calls (map CallEther eops) = eops) by parts. rewrite Ce.
  pose proof (pairs_payloads _ Sm) as Hone. rewrite payloads_ether in Hone. set (p := payload_given _) in *.
  assert (Hok : Forall ether_op_ok eops) by (revert Ho; apply Forall_map_to; intros x Hx; exact Hx).
  assert (HM' : 14 + len p <= ISIZE_MAX).
  { revert HM. unfold added. cbn [header_of opened]. assert (len p <= fold_right N.add 0 (map adds (map CallEther eops))); [|lia].
    assert (Hin : p = [] \/ In p (ether_payloads eops)) by (destruct Hone as [->|[_ ->]]; [right; left; reflexivity|left; reflexivity]). clearbody p. clear -Hin.
    destruct Hin as [->|Hin]; [rewrite len_nil; lia|]. induction eops as [|o eops IH]; [destruct Hin|]. cbn [map fold_right]. unfold ether_payloads in Hin. cbn [flat_map] in Hin. apply in_app_or in Hin. destruct Hin as [Hin|Hin]; [|specialize (IH Hin); lia].
    destruct o; try (exfalso; exact Hin). destruct Hin as [->|[]]. cbn [adds]. lia. }
  destruct (c46_ether_reparse E eops p Hok Hone HM') as (fr & F1 & F2).
  assert (Hprog : program E OpEther (map CallEther eops) ClEther dynamic_new = ether_chain E eops dynamic_new).
  { unfold program, ether_chain. cbn [open]. destruct (ether_with E dynamic_new) as [b| |]; cbn [bind]; [|reflexivity|reflexivity]. rewrite (run_map CallEther ether_run1) by reflexivity. reflexivity. }
  rewrite Hprog, F1 in Hout. apply Ok_inj in Hout. subst fr. exact F2.
Qed.
(** C66: an IPv4 packet with fewer than four bytes of payload of its own (for more, see C37). *)
Lemma c66_v4 : forall E o cs out, compiles o cs ClV4 -> Forall ordinary cs -> faithful_calls cs -> added o cs <= ISIZE_MAX ->
  len (payload_given cs) < 4 -> program E o cs ClV4 dynamic_new = Ok out ->
  let vs := v4_setters (v4_calls cs) in
  exists ip, frame_reads o cs ip out /\ v4_reads E vs (ip_protocol_from (ip_protocol_into (last_set sel_v4_proto vs (ip_protocol_from 0)))) (payload_given cs) ip.
Proof.
  intros E o cs out Hc Ho Hfa HM Hl Hout. cbv zeta. destruct (proj1 (c66_succeeds E o cs ClV4 Hc Ho HM) (ex_intro _ _ Hout)) as (Sv & Sm & _).
  unfold compiles in Hc. cbn [closed] in Hc.
  assert (Hop : o = OpEther \/ o = OpIp \/ o = OpV4).
  { destruct o; try tauto; exfalso; cbn [opened] in Hc.
    - destruct (v6_shape _ _ Ho Hc) as [_ H]; discriminate.
    - destruct (udp_shape _ _ Ho Hc) as (? & _ & H); discriminate.
    - destruct (tcp_shape _ _ Ho Hc) as (? & _ & H); discriminate.
    - destruct (icmp_shape _ _ Ho Hc) as [(_ & H)|[(? & _ & H)|[(? & _ & H)|(? & _ & H)]]]; discriminate.
    - destruct (echo_shape _ _ Ho Hc) as (? & _ & H); discriminate.
    - destruct (information_shape _ _ Ho Hc) as (? & _ & H); discriminate.
    - destruct (timestamp_shape _ _ Ho Hc) as (? & _ & H); discriminate. }
  destruct (shape o cs TyV4 Ho Hc Hop ltac:(discriminate) ltac:(discriminate) ltac:(discriminate)) as (eth & pre & vops & rest & Hb & -> & Hi).
  destruct Hi as [(-> & _)|[(? & _ & H)|[(? & _ & H)|[(_ & H)|[(? & _ & H)|[(? & _ & H)|(? & _ & H)]]]]]]; try discriminate.
  rewrite !app_nil_r in *. destruct (begins_calls _ _ _ Hb) as (B1 & B2 & _).
  assert (Ce : ether_calls (pre ++ map CallV4 vops) = calls_eth eth) by (rewrite <- B1; parts).
  assert (Cv : v4_calls (pre ++ map CallV4 vops) = vops) by (unfold v4_calls in *; rewrite flat_map_app, B2; parts).
  unfold faithful_calls in Hfa. rewrite Cv in *.
  assert (Hpre : payloads pre = []).
  { destruct Hb as [eops| |]; try reflexivity. rewrite <- app_assoc in Sm. rewrite payloads_app, (pairs_before _ _ _ Sm I). reflexivity. }
  pose proof (pairs_payloads _ Sm) as Hone. rewrite payloads_app, Hpre, payloads_v4 in Hone. cbn [app] in Hone. set (p := payload_given _) in *.
  rewrite Forall_app in Ho, Sv. destruct Ho as [O1 O2]. destruct Sv as [V1 V2]. pose proof (v4_args _ O2 V2) as Hvo.
  assert (He : eth_ok eth).
  { destruct Hb as [eops| |]; cbn [eth_ok]; try exact I. rewrite payloads_app, payloads_ether in Hpre. apply app_eq_nil in Hpre. destruct Hpre as [P1 _].
    rewrite Forall_app in O1. destruct O1 as [O1 _]. split; [|exact P1]. revert O1. apply Forall_map_to. intros x Hx. exact Hx. }
  assert (Hprog : program E o (pre ++ map CallV4 vops) ClV4 dynamic_new = v4_chain E eth vops dynamic_new).
  { unfold program. rewrite (begin_run E o eth pre _ _ Hb). unfold v4_chain. destruct (start_v4 E eth dynamic_new) as [v| |]; cbn [bind]; [|reflexivity|reflexivity].
    rewrite (run_map CallV4 v4_run1) by reflexivity. reflexivity. }
  rewrite Hprog in Hout. assert (He' : eth_ok (Some (calls_eth eth))) by (destruct eth; [exact He|split; [constructor|reflexivity]]).
  destruct (c37_v4_small E (calls_eth eth) vops p He' Hvo Hfa Hone Hl) as (fr & ip & R1 & R2 & R3 & R4).
  exists ip. split; [|exact R4]. destruct eth as [eops|]; cbn [calls_eth] in *.
  - assert (o = OpEther) as -> by (inversion Hb; reflexivity). cbn [frame_reads]. rewrite Ce. rewrite R1 in Hout. apply Ok_inj in Hout. subst fr. exact R3.
  - rewrite R2 in Hout. apply Ok_inj in Hout. subst ip. assert (o = OpIp \/ o = OpV4) as [-> | ->] by (inversion Hb; tauto); reflexivity.
Qed.
(** C66: echo messages, on their own or in IPv4. *)
Lemma c66_echo : forall E o cs out, compiles o cs ClEcho -> Forall ordinary cs -> faithful_calls cs -> added o cs <= ISIZE_MAX ->
  28 + len (payload_given cs) <= 65535 -> program E o cs ClEcho dynamic_new = Ok out ->
  exists m, message_reads E o cs m out /\ echo_reads E (echo_calls cs) (payload_given cs) m /\
    (len (payload_given cs) mod 2 = 0 -> word_sum m <> 0 -> receiver_accepts m).
Proof.
  intros E o cs out Hc Ho Hfa HM Hl Hout. destruct (proj1 (c66_succeeds E o cs ClEcho Hc Ho HM) (ex_intro _ _ Hout)) as (Sv & Sm & Sk). cbn [can_finish] in Sk.
  unfold compiles in Hc. cbn [closed] in Hc. pose proof (pairs_payloads _ Sm) as Hone.
  assert (Hkind : forall us l, cs = l ++ map CallEcho us -> Forall (fun c => match c with CallEcho _ => False | _ => True end) l -> echo_kind_given us).
  { intros us l -> Hn. rewrite Exists_app in Sk. destruct Sk as [Sk|Sk].
    - exfalso. rewrite Exists_exists in Sk. destruct Sk as (c & Hi & Hk). rewrite Forall_forall in Hn. specialize (Hn c Hi). destruct Hk as [->| ->]; exact Hn.
    - rewrite Exists_exists in Sk. destruct Sk as (c & Hi & Hk). apply in_map_iff in Hi. destruct Hi as (x & Hx & Hin). unfold echo_kind_given. destruct Hk as [->| ->]; injection Hx as ->; tauto. }
  destruct (match o with OpEther | OpIp | OpV4 => true | _ => false end) eqn:Hopb.
  - assert (Hop : o = OpEther \/ o = OpIp \/ o = OpV4) by (destruct o; try discriminate Hopb; tauto).
    destruct (shape o cs TyEcho Ho Hc Hop ltac:(discriminate) ltac:(discriminate) ltac:(discriminate)) as (eth & pre & vops & rest & Hb & Hcs & Hi).
    assert (exists us, rest = CallV4Icmp :: CallIcmpEcho :: map CallEcho us) as (us & ->).
    { destruct Hi as [(_ & H)|[(? & _ & H)|[(? & _ & H)|[(_ & H)|[(us & Hr & H)|[(us & Hr & H)|(us & Hr & H)]]]]]]; try discriminate; exists us; exact Hr. }
    assert (Hk : echo_kind_given us).
    { apply (Hkind us (pre ++ map CallV4 vops ++ [CallV4Icmp; CallIcmpEcho])); [rewrite Hcs, <- !app_assoc; reflexivity|]. rewrite !Forall_app. split; [destruct Hb as [eops| |]; [rewrite Forall_app; split; [|repeat constructor]|repeat constructor|constructor]|split; [|repeat constructor]];
      apply Forall_forall; intros x Hx; apply in_map_iff in Hx; destruct Hx as (? & <- & _); exact I. }
    clear Hkind. subst cs. destruct (outer_facts o eth pre vops CallV4Icmp (CallIcmpEcho :: map CallEcho us) Hb I Ho Sv Sm) as (He & Hvs & Hva & Hp & Hm & Hu).
    destruct (begins_calls _ _ _ Hb) as (B1 & B2 & _ & _ & B4 & B5 & B6).
    rewrite Hp in Hone. change (payloads (CallV4Icmp :: CallIcmpEcho :: map CallEcho us)) with (payloads (map CallEcho us)) in Hone. rewrite payloads_echo in Hone.
    assert (Ce : ether_calls (pre ++ map CallV4 vops ++ CallV4Icmp :: CallIcmpEcho :: map CallEcho us) = calls_eth eth) by (rewrite <- B1; parts).
    assert (Cv : v4_calls (pre ++ map CallV4 vops ++ CallV4Icmp :: CallIcmpEcho :: map CallEcho us) = vops) by (unfold v4_calls in *; rewrite flat_map_app, B2; parts).
    assert (Cu : echo_calls (pre ++ map CallV4 vops ++ CallV4Icmp :: CallIcmpEcho :: map CallEcho us) = us) by (unfold echo_calls in *; rewrite flat_map_app, ?B4, ?B5, ?B6; parts).
    unfold faithful_calls in Hfa. rewrite Cu. set (p := payload_given _) in *. set (vs := v4_setters vops) in *.
    assert (Hprog : program E o (pre ++ map CallV4 vops ++ CallV4Icmp :: CallIcmpEcho :: map CallEcho us) ClEcho dynamic_new = echo_chain E (Some (eth, vs)) us dynamic_new).
    { unfold program. rewrite (begin_run E o eth pre _ _ Hb). unfold echo_chain, icmp_layer, v4_layer. destruct (start_v4 E eth dynamic_new) as [v| |]; cbn [bind]; [|reflexivity|reflexivity].
      rewrite run_app, (run_map CallV4 v4_run1) by reflexivity. rewrite <- Hvs. destruct (run (v4_run1 E) vops v) as [v1| |]; cbn [bind]; [|reflexivity|reflexivity].
      cbn [run call1]. destruct (v4_icmp E v1) as [u| |]; cbn [bind]; [|reflexivity|reflexivity]. destruct (icmp_echo E u) as [w| |]; cbn [bind]; [|reflexivity|reflexivity].
      rewrite (run_map CallEcho echo_run1) by reflexivity. reflexivity. }
    assert (Hus : Forall echo_op_ok us) by (inversion_clear Hu as [|? ? _ Hu']; revert Hu'; apply Forall_map_to; intros x Hx; apply Hx).
    rewrite Hprog in Hout. rewrite Cv in Hfa.
    destruct (c36_echo_reparse E us p eth vs Hus Hk Hone He Hva Hfa Hl) as (m & ip & _ & R1 & _ & R2 & R3 & R4). exists m. split; [|split; [exact R1|exact R4]].
    assert (Hfr : frame_reads o (pre ++ map CallV4 vops ++ CallV4Icmp :: CallIcmpEcho :: map CallEcho us) ip out) by (apply (frame_of_eth _ _ _ _ _ _ Hb Ce He); rewrite R3 in Hout; apply Ok_inj in Hout; symmetry; exact Hout).
    assert (HR2 : v4_reads E (v4_setters (v4_calls (pre ++ map CallV4 vops ++ CallV4Icmp :: CallIcmpEcho :: map CallEcho us))) IP_Icmp m ip) by (rewrite Cv; exact R2).
    destruct Hop as [->|[->| ->]]; exists ip; split; assumption.
  - assert (Hs : exists us l, cs = l ++ map CallEcho us /\ Forall (fun c => match c with CallEcho _ => False | _ => True end) l /\ payloads l = [] /\ echo_calls l = [] /\
      program E o cs ClEcho dynamic_new = echo_chain E None us dynamic_new /\ forall m, message_reads E o cs m m).
    { destruct o; try discriminate Hopb; cbn [opened] in Hc.
      - destruct (v6_shape _ _ Ho Hc) as [_ H]; discriminate.
      - destruct (udp_shape _ _ Ho Hc) as (? & _ & H); discriminate.
      - destruct (tcp_shape _ _ Ho Hc) as (? & _ & H); discriminate.
      - assert (exists us, cs = CallIcmpEcho :: map CallEcho us) as (us & ->) by (destruct (icmp_shape _ _ Ho Hc) as [(_ & H)|[(us & Hr & H)|[(us & Hr & H)|(us & Hr & H)]]]; try discriminate; exists us; exact Hr).
        exists us, [CallIcmpEcho]. split; [reflexivity|]. split; [repeat constructor|]. split; [reflexivity|]. split; [reflexivity|]. split; [|intros m; reflexivity].
        unfold program, echo_chain, icmp_layer. cbn [open run call1]. destruct (icmp_with dynamic_new) as [i| |]; cbn [bind]; [|reflexivity|reflexivity]. destruct (icmp_echo E i) as [w| |]; cbn [bind]; [|reflexivity|reflexivity].
        rewrite (run_map CallEcho echo_run1) by reflexivity. reflexivity.
      - destruct (echo_shape _ _ Ho Hc) as (us & Hr & H); try discriminate. subst cs.
        exists us, []. split; [reflexivity|]. split; [repeat constructor|]. split; [reflexivity|]. split; [reflexivity|]. split; [|intros m; reflexivity].
        unfold program, echo_chain, icmp_layer. cbn [open]. replace (echo_with E dynamic_new) with (let* i := icmp_with dynamic_new in icmp_echo E i) by (destruct E as [[] [] []]; reflexivity).
        destruct (icmp_with dynamic_new) as [i| |]; cbn [bind]; [|reflexivity|reflexivity]. destruct (icmp_echo E i) as [w| |]; cbn [bind]; [|reflexivity|reflexivity].
        rewrite (run_map CallEcho echo_run1) by reflexivity. reflexivity.
      - destruct (information_shape _ _ Ho Hc) as (us & Hr & H); try discriminate. 
      - destruct (timestamp_shape _ _ Ho Hc) as (us & Hr & H); try discriminate.  }
    destruct Hs as (us & l & Hcs & Hl0 & Hl1 & Hl2 & Hprog & Hmr). pose proof (Hkind us l Hcs Hl0) as Hk. clear Hkind. rewrite Hprog in Hout.
    assert (Cu : echo_calls cs = us) by (rewrite Hcs; unfold echo_calls in *; rewrite flat_map_app, Hl2; parts).
    assert (Hps : payloads cs = payloads (map CallEcho us)) by (rewrite Hcs, payloads_app, Hl1; reflexivity). rewrite Hps, payloads_echo in Hone.
    rewrite Cu. set (p := payload_given cs) in *.
    assert (Hus : Forall echo_op_ok us) by (rewrite Hcs, Forall_app in Ho; destruct Ho as [_ Ho]; revert Ho; apply Forall_map_to; intros x Hx; apply Hx).
    destruct (c36_echo_reparse E us p None [] Hus Hk Hone I (Forall_nil _) (Forall_nil _) Hl) as (m & ip & R0 & R1 & _ & _ & _ & R4). exists m. rewrite R0 in Hout. apply Ok_inj in Hout. subst out. split; [apply Hmr|split; [exact R1|exact R4]].
Qed.
(** C66: information messages, on their own or in IPv4. *)
Lemma c66_information : forall E o cs out, compiles o cs ClInformation -> Forall ordinary cs -> faithful_calls cs -> added o cs <= ISIZE_MAX ->
  program E o cs ClInformation dynamic_new = Ok out ->
  exists m, message_reads E o cs m out /\ information_reads E (information_calls cs) m /\ receiver_accepts m.
Proof.
  intros E o cs out Hc Ho Hfa HM Hout. destruct (proj1 (c66_succeeds E o cs ClInformation Hc Ho HM) (ex_intro _ _ Hout)) as (Sv & Sm & Sk). cbn [can_finish] in Sk.
  unfold compiles in Hc. cbn [closed] in Hc. pose proof (pairs_payloads _ Sm) as Hone.
  assert (Hkind : forall us l, cs = l ++ map CallInformation us -> Forall (fun c => match c with CallInformation _ => False | _ => True end) l -> information_kind_given us).
  { intros us l -> Hn. rewrite Exists_app in Sk. destruct Sk as [Sk|Sk].
    - exfalso. rewrite Exists_exists in Sk. destruct Sk as (c & Hi & Hk). rewrite Forall_forall in Hn. specialize (Hn c Hi). destruct Hk as [->| ->]; exact Hn.
    - rewrite Exists_exists in Sk. destruct Sk as (c & Hi & Hk). apply in_map_iff in Hi. destruct Hi as (x & Hx & Hin). unfold information_kind_given. destruct Hk as [->| ->]; injection Hx as ->; tauto. }
  destruct (match o with OpEther | OpIp | OpV4 => true | _ => false end) eqn:Hopb.
  - assert (Hop : o = OpEther \/ o = OpIp \/ o = OpV4) by (destruct o; try discriminate Hopb; tauto).
    destruct (shape o cs TyInformation Ho Hc Hop ltac:(discriminate) ltac:(discriminate) ltac:(discriminate)) as (eth & pre & vops & rest & Hb & Hcs & Hi).
    assert (exists us, rest = CallV4Icmp :: CallIcmpInformation :: map CallInformation us) as (us & ->).
    { destruct Hi as [(_ & H)|[(? & _ & H)|[(? & _ & H)|[(_ & H)|[(us & Hr & H)|[(us & Hr & H)|(us & Hr & H)]]]]]]; try discriminate; exists us; exact Hr. }
    assert (Hk : information_kind_given us).
    { apply (Hkind us (pre ++ map CallV4 vops ++ [CallV4Icmp; CallIcmpInformation])); [rewrite Hcs, <- !app_assoc; reflexivity|]. rewrite !Forall_app. split; [destruct Hb as [eops| |]; [rewrite Forall_app; split; [|repeat constructor]|repeat constructor|constructor]|split; [|repeat constructor]];
      apply Forall_forall; intros x Hx; apply in_map_iff in Hx; destruct Hx as (? & <- & _); exact I. }
    clear Hkind. subst cs. destruct (outer_facts o eth pre vops CallV4Icmp (CallIcmpInformation :: map CallInformation us) Hb I Ho Sv Sm) as (He & Hvs & Hva & Hp & Hm & Hu).
    destruct (begins_calls _ _ _ Hb) as (B1 & B2 & _ & _ & B4 & B5 & B6).
    rewrite Hp in Hone. change (payloads (CallV4Icmp :: CallIcmpInformation :: map CallInformation us)) with (payloads (map CallInformation us)) in Hone. rewrite payloads_information in Hone.
    assert (Ce : ether_calls (pre ++ map CallV4 vops ++ CallV4Icmp :: CallIcmpInformation :: map CallInformation us) = calls_eth eth) by (rewrite <- B1; parts).
    assert (Cv : v4_calls (pre ++ map CallV4 vops ++ CallV4Icmp :: CallIcmpInformation :: map CallInformation us) = vops) by (unfold v4_calls in *; rewrite flat_map_app, B2; parts).
    assert (Cu : information_calls (pre ++ map CallV4 vops ++ CallV4Icmp :: CallIcmpInformation :: map CallInformation us) = us) by (unfold information_calls in *; rewrite flat_map_app, ?B4, ?B5, ?B6; parts).
    unfold faithful_calls in Hfa. rewrite Cu. set (vs := v4_setters vops) in *.
    assert (Hprog : program E o (pre ++ map CallV4 vops ++ CallV4Icmp :: CallIcmpInformation :: map CallInformation us) ClInformation dynamic_new = information_chain E (Some (eth, vs)) us dynamic_new).
    { unfold program. rewrite (begin_run E o eth pre _ _ Hb). unfold information_chain, icmp_layer, v4_layer. destruct (start_v4 E eth dynamic_new) as [v| |]; cbn [bind]; [|reflexivity|reflexivity].
      rewrite run_app, (run_map CallV4 v4_run1) by reflexivity. rewrite <- Hvs. destruct (run (v4_run1 E) vops v) as [v1| |]; cbn [bind]; [|reflexivity|reflexivity].
      cbn [run call1]. destruct (v4_icmp E v1) as [u| |]; cbn [bind]; [|reflexivity|reflexivity]. destruct (icmp_information E u) as [w| |]; cbn [bind]; [|reflexivity|reflexivity].
      rewrite (run_map CallInformation information_run1) by reflexivity. reflexivity. }
    assert (Hus : Forall information_op_ok us) by (inversion_clear Hu as [|? ? _ Hu']; revert Hu'; apply Forall_map_to; intros x Hx; apply Hx).
    rewrite Hprog in Hout. rewrite Cv in Hfa.
    destruct (c36_information_reparse E us eth vs Hus Hk He Hva Hfa) as (m & ip & _ & R1 & _ & R2 & R3 & R4). exists m. split; [|split; [exact R1|exact R4]].
    assert (Hfr : frame_reads o (pre ++ map CallV4 vops ++ CallV4Icmp :: CallIcmpInformation :: map CallInformation us) ip out) by (apply (frame_of_eth _ _ _ _ _ _ Hb Ce He); rewrite R3 in Hout; apply Ok_inj in Hout; symmetry; exact Hout).
    assert (HR2 : v4_reads E (v4_setters (v4_calls (pre ++ map CallV4 vops ++ CallV4Icmp :: CallIcmpInformation :: map CallInformation us))) IP_Icmp m ip) by (rewrite Cv; exact R2).
    destruct Hop as [->|[->| ->]]; exists ip; split; assumption.
  - assert (Hs : exists us l, cs = l ++ map CallInformation us /\ Forall (fun c => match c with CallInformation _ => False | _ => True end) l /\ payloads l = [] /\ information_calls l = [] /\
      program E o cs ClInformation dynamic_new = information_chain E None us dynamic_new /\ forall m, message_reads E o cs m m).
    { destruct o; try discriminate Hopb; cbn [opened] in Hc.
      - destruct (v6_shape _ _ Ho Hc) as [_ H]; discriminate.
      - destruct (udp_shape _ _ Ho Hc) as (? & _ & H); discriminate.
      - destruct (tcp_shape _ _ Ho Hc) as (? & _ & H); discriminate.
      - assert (exists us, cs = CallIcmpInformation :: map CallInformation us) as (us & ->) by (destruct (icmp_shape _ _ Ho Hc) as [(_ & H)|[(us & Hr & H)|[(us & Hr & H)|(us & Hr & H)]]]; try discriminate; exists us; exact Hr).
        exists us, [CallIcmpInformation]. split; [reflexivity|]. split; [repeat constructor|]. split; [reflexivity|]. split; [reflexivity|]. split; [|intros m; reflexivity].
        unfold program, information_chain, icmp_layer. cbn [open run call1]. destruct (icmp_with dynamic_new) as [i| |]; cbn [bind]; [|reflexivity|reflexivity]. destruct (icmp_information E i) as [w| |]; cbn [bind]; [|reflexivity|reflexivity].
        rewrite (run_map CallInformation information_run1) by reflexivity. reflexivity.
      - destruct (echo_shape _ _ Ho Hc) as (us & Hr & H); try discriminate. 
      - destruct (information_shape _ _ Ho Hc) as (us & Hr & H); try discriminate. subst cs.
        exists us, []. split; [reflexivity|]. split; [repeat constructor|]. split; [reflexivity|]. split; [reflexivity|]. split; [|intros m; reflexivity].
        unfold program, information_chain, icmp_layer. cbn [open]. replace (information_with E dynamic_new) with (let* i := icmp_with dynamic_new in icmp_information E i) by (destruct E as [[] [] []]; reflexivity).
        destruct (icmp_with dynamic_new) as [i| |]; cbn [bind]; [|reflexivity|reflexivity]. destruct (icmp_information E i) as [w| |]; cbn [bind]; [|reflexivity|reflexivity].
        rewrite (run_map CallInformation information_run1) by reflexivity. reflexivity.
      - destruct (timestamp_shape _ _ Ho Hc) as (us & Hr & H); try discriminate.  }
    destruct Hs as (us & l & Hcs & Hl0 & Hl1 & Hl2 & Hprog & Hmr). pose proof (Hkind us l Hcs Hl0) as Hk. clear Hkind. rewrite Hprog in Hout.
    assert (Cu : information_calls cs = us) by (rewrite Hcs; unfold information_calls in *; rewrite flat_map_app, Hl2; parts).
    assert (Hps : payloads cs = payloads (map CallInformation us)) by (rewrite Hcs, payloads_app, Hl1; reflexivity). rewrite Hps, payloads_information in Hone.
    rewrite Cu. 
    assert (Hus : Forall information_op_ok us) by (rewrite Hcs, Forall_app in Ho; destruct Ho as [_ Ho]; revert Ho; apply Forall_map_to; intros x Hx; apply Hx).
    destruct (c36_information_reparse E us None [] Hus Hk I (Forall_nil _) (Forall_nil _)) as (m & ip & R0 & R1 & _ & _ & _ & R4). exists m. rewrite R0 in Hout. apply Ok_inj in Hout. subst out. split; [apply Hmr|split; [exact R1|exact R4]].
Qed.
(** C66: timestamp messages, on their own or in IPv4. *)
Lemma c66_timestamp : forall E o cs out, compiles o cs ClTimestamp -> Forall ordinary cs -> faithful_calls cs -> added o cs <= ISIZE_MAX ->
  program E o cs ClTimestamp dynamic_new = Ok out ->
  exists m, message_reads E o cs m out /\ timestamp_reads E (timestamp_calls cs) m /\ receiver_accepts m.
Proof.
  intros E o cs out Hc Ho Hfa HM Hout. destruct (proj1 (c66_succeeds E o cs ClTimestamp Hc Ho HM) (ex_intro _ _ Hout)) as (Sv & Sm & Sk). cbn [can_finish] in Sk.
  unfold compiles in Hc. cbn [closed] in Hc. pose proof (pairs_payloads _ Sm) as Hone.
  assert (Hkind : forall us l, cs = l ++ map CallTimestamp us -> Forall (fun c => match c with CallTimestamp _ => False | _ => True end) l -> timestamp_kind_given us).
  { intros us l -> Hn. rewrite Exists_app in Sk. destruct Sk as [Sk|Sk].
    - exfalso. rewrite Exists_exists in Sk. destruct Sk as (c & Hi & Hk). rewrite Forall_forall in Hn. specialize (Hn c Hi). destruct Hk as [->| ->]; exact Hn.
    - rewrite Exists_exists in Sk. destruct Sk as (c & Hi & Hk). apply in_map_iff in Hi. destruct Hi as (x & Hx & Hin). unfold timestamp_kind_given. destruct Hk as [->| ->]; injection Hx as ->; tauto. }
  destruct (match o with OpEther | OpIp | OpV4 => true | _ => false end) eqn:Hopb.
  - assert (Hop : o = OpEther \/ o = OpIp \/ o = OpV4) by (destruct o; try discriminate Hopb; tauto).
    destruct (shape o cs TyTimestamp Ho Hc Hop ltac:(discriminate) ltac:(discriminate) ltac:(discriminate)) as (eth & pre & vops & rest & Hb & Hcs & Hi).
    assert (exists us, rest = CallV4Icmp :: CallIcmpTimestamp :: map CallTimestamp us) as (us & ->).
    { destruct Hi as [(_ & H)|[(? & _ & H)|[(? & _ & H)|[(_ & H)|[(us & Hr & H)|[(us & Hr & H)|(us & Hr & H)]]]]]]; try discriminate; exists us; exact Hr. }
    assert (Hk : timestamp_kind_given us).
    { apply (Hkind us (pre ++ map CallV4 vops ++ [CallV4Icmp; CallIcmpTimestamp])); [rewrite Hcs, <- !app_assoc; reflexivity|]. rewrite !Forall_app. split; [destruct Hb as [eops| |]; [rewrite Forall_app; split; [|repeat constructor]|repeat constructor|constructor]|split; [|repeat constructor]];
      apply Forall_forall; intros x Hx; apply in_map_iff in Hx; destruct Hx as (? & <- & _); exact I. }
    clear Hkind. subst cs. destruct (outer_facts o eth pre vops CallV4Icmp (CallIcmpTimestamp :: map CallTimestamp us) Hb I Ho Sv Sm) as (He & Hvs & Hva & Hp & Hm & Hu).
    destruct (begins_calls _ _ _ Hb) as (B1 & B2 & _ & _ & B4 & B5 & B6).
    rewrite Hp in Hone. change (payloads (CallV4Icmp :: CallIcmpTimestamp :: map CallTimestamp us)) with (payloads (map CallTimestamp us)) in Hone. rewrite payloads_timestamp in Hone.
    assert (Ce : ether_calls (pre ++ map CallV4 vops ++ CallV4Icmp :: CallIcmpTimestamp :: map CallTimestamp us) = calls_eth eth) by (rewrite <- B1; parts).
    assert (Cv : v4_calls (pre ++ map CallV4 vops ++ CallV4Icmp :: CallIcmpTimestamp :: map CallTimestamp us) = vops) by (unfold v4_calls in *; rewrite flat_map_app, B2; parts).
    assert (Cu : timestamp_calls (pre ++ map CallV4 vops ++ CallV4Icmp :: CallIcmpTimestamp :: map CallTimestamp us) = us) by (unfold timestamp_calls in *; rewrite flat_map_app, ?B4, ?B5, ?B6; parts).
    unfold faithful_calls in Hfa. rewrite Cu. set (vs := v4_setters vops) in *.
    assert (Hprog : program E o (pre ++ map CallV4 vops ++ CallV4Icmp :: CallIcmpTimestamp :: map CallTimestamp us) ClTimestamp dynamic_new = timestamp_chain E (Some (eth, vs)) us dynamic_new).
    { unfold program. rewrite (begin_run E o eth pre _ _ Hb). unfold timestamp_chain, icmp_layer, v4_layer. destruct (start_v4 E eth dynamic_new) as [v| |]; cbn [bind]; [|reflexivity|reflexivity].
      rewrite run_app, (run_map CallV4 v4_run1) by reflexivity. rewrite <- Hvs. destruct (run (v4_run1 E) vops v) as [v1| |]; cbn [bind]; [|reflexivity|reflexivity].
      cbn [run call1]. destruct (v4_icmp E v1) as [u| |]; cbn [bind]; [|reflexivity|reflexivity]. destruct (icmp_timestamp E u) as [w| |]; cbn [bind]; [|reflexivity|reflexivity].
      rewrite (run_map CallTimestamp timestamp_run1) by reflexivity. reflexivity. }
    assert (Hus : Forall timestamp_op_ok us) by (inversion_clear Hu as [|? ? _ Hu']; revert Hu'; apply Forall_map_to; intros x Hx; apply Hx).
    rewrite Hprog in Hout. rewrite Cv in Hfa.
    destruct (c36_timestamp_reparse E us eth vs Hus Hk He Hva Hfa) as (m & ip & _ & R1 & _ & R2 & R3 & R4). exists m. split; [|split; [exact R1|exact R4]].
    assert (Hfr : frame_reads o (pre ++ map CallV4 vops ++ CallV4Icmp :: CallIcmpTimestamp :: map CallTimestamp us) ip out) by (apply (frame_of_eth _ _ _ _ _ _ Hb Ce He); rewrite R3 in Hout; apply Ok_inj in Hout; symmetry; exact Hout).
    assert (HR2 : v4_reads E (v4_setters (v4_calls (pre ++ map CallV4 vops ++ CallV4Icmp :: CallIcmpTimestamp :: map CallTimestamp us))) IP_Icmp m ip) by (rewrite Cv; exact R2).
    destruct Hop as [->|[->| ->]]; exists ip; split; assumption.
  - assert (Hs : exists us l, cs = l ++ map CallTimestamp us /\ Forall (fun c => match c with CallTimestamp _ => False | _ => True end) l /\ payloads l = [] /\ timestamp_calls l = [] /\
      program E o cs ClTimestamp dynamic_new = timestamp_chain E None us dynamic_new /\ forall m, message_reads E o cs m m).
    { destruct o; try discriminate Hopb; cbn [opened] in Hc.
      - destruct (v6_shape _ _ Ho Hc) as [_ H]; discriminate.
      - destruct (udp_shape _ _ Ho Hc) as (? & _ & H); discriminate.
      - destruct (tcp_shape _ _ Ho Hc) as (? & _ & H); discriminate.
      - assert (exists us, cs = CallIcmpTimestamp :: map CallTimestamp us) as (us & ->) by (destruct (icmp_shape _ _ Ho Hc) as [(_ & H)|[(us & Hr & H)|[(us & Hr & H)|(us & Hr & H)]]]; try discriminate; exists us; exact Hr).
        exists us, [CallIcmpTimestamp]. split; [reflexivity|]. split; [repeat constructor|]. split; [reflexivity|]. split; [reflexivity|]. split; [|intros m; reflexivity].
        unfold program, timestamp_chain, icmp_layer. cbn [open run call1]. destruct (icmp_with dynamic_new) as [i| |]; cbn [bind]; [|reflexivity|reflexivity]. destruct (icmp_timestamp E i) as [w| |]; cbn [bind]; [|reflexivity|reflexivity].
        rewrite (run_map CallTimestamp timestamp_run1) by reflexivity. reflexivity.
      - destruct (echo_shape _ _ Ho Hc) as (us & Hr & H); try discriminate. 
      - destruct (information_shape _ _ Ho Hc) as (us & Hr & H); try discriminate. 
      - destruct (timestamp_shape _ _ Ho Hc) as (us & Hr & H); try discriminate. subst cs.
        exists us, []. split; [reflexivity|]. split; [repeat constructor|]. split; [reflexivity|]. split; [reflexivity|]. split; [|intros m; reflexivity].
        unfold program, timestamp_chain, icmp_layer. cbn [open]. replace (timestamp_with E dynamic_new) with (let* i := icmp_with dynamic_new in icmp_timestamp E i) by (destruct E as [[] [] []]; reflexivity).
        destruct (icmp_with dynamic_new) as [i| |]; cbn [bind]; [|reflexivity|reflexivity]. destruct (icmp_timestamp E i) as [w| |]; cbn [bind]; [|reflexivity|reflexivity].
        rewrite (run_map CallTimestamp timestamp_run1) by reflexivity. reflexivity. }
    destruct Hs as (us & l & Hcs & Hl0 & Hl1 & Hl2 & Hprog & Hmr). pose proof (Hkind us l Hcs Hl0) as Hk. clear Hkind. rewrite Hprog in Hout.
    assert (Cu : timestamp_calls cs = us) by (rewrite Hcs; unfold timestamp_calls in *; rewrite flat_map_app, Hl2; parts).
    assert (Hps : payloads cs = payloads (map CallTimestamp us)) by (rewrite Hcs, payloads_app, Hl1; reflexivity). rewrite Hps, payloads_timestamp in Hone.
    rewrite Cu. 
    assert (Hus : Forall timestamp_op_ok us) by (rewrite Hcs, Forall_app in Ho; destruct Ho as [_ Ho]; revert Ho; apply Forall_map_to; intros x Hx; apply Hx).
    destruct (c36_timestamp_reparse E us None [] Hus Hk I (Forall_nil _) (Forall_nil _)) as (m & ip & R0 & R1 & _ & _ & _ & R4). exists m. rewrite R0 in Hout. apply Ok_inj in Hout. subst out. split; [apply Hmr|split; [exact R1|exact R4]].
Qed.
Lemma step_grows c d d' : draft_call c d = Ok d' -> draft_size d <= draft_size d'.
Proof.
  intros H. destruct d; destruct c; try discriminate H; cbn [draft_call] in H;
    try (destruct o; try destruct s; cbn [draft_call pay_once] in H);
    repeat match type of H with
    | match ?x with _ => _ end = _ => destruct x; try discriminate H
    | pay_once _ ?p _ _ = _ => destruct p; cbn [pay_once] in H; try discriminate H
    | no_payload_yet ?p _ = _ => destruct p; cbn [no_payload_yet] in H; try discriminate H
    end; apply Ok_inj in H; subst d'; cbn [draft_size given around_room ether_room]; rewrite ?len_nil; try lia.
Qed.
Lemma within_iff cap cs : forall d d', draft_size d <= cap -> (draft_calls_within cap cs d = Ok d' <-> draft_calls cs d = Ok d' /\ draft_size d' <= cap).
Proof.
  induction cs as [|c cs IH]; intros d d' Hd; cbn [draft_calls_within draft_calls].
  - split; [intros H; split; [exact H|]; apply Ok_inj in H; subst d'; exact Hd|tauto].
  - destruct (draft_call c d) as [d1|e|]; cbn [bind]; [|split; [discriminate|intros [H _]; discriminate H]|split; [discriminate|intros [H _]; discriminate H]].
    unfold fitting. destruct (N.leb_spec (draft_size d1) cap) as [H1|H1]; cbn [bind]; [apply IH; exact H1|]. split; [discriminate|]. intros [H H2]. exfalso.
    assert (G : forall cs d d', draft_calls cs d = Ok d' -> draft_size d <= draft_size d').
    { clear. induction cs as [|c cs IH]; intros d d' H; cbn [draft_calls] in H; [apply Ok_inj in H; subst; lia|]. destruct (draft_call c d) as [d1|e|] eqn:Hc; try discriminate H. pose proof (step_grows _ _ _ Hc). specialize (IH _ _ H). lia. }
    specialize (G _ _ _ H). lia.
Qed.
(** C66: in a Slice, without payloads: the same programs succeed, with the same bytes,
    as far as the memory has room for the headers. *)
Lemma c66_slice : forall E o cs cl s out, compiles o cs cl -> Forall ordinary cs -> Forall no_payload cs -> len s <= ISIZE_MAX -> added o cs <= ISIZE_MAX ->
  (program E o cs cl (slice_new s) = Ok out <-> program E o cs cl dynamic_new = Ok out /\ added o cs <= len s).
Proof.
  intros E o cs cl s out Hc Ho Hn Hs HM. rewrite (c65_slice E o cs cl s Hc Ho Hn Hs HM), (c65_reference E o cs cl Hc Ho HM). unfold reference_within, reference.
  destruct (open_image None E o I) as (_ & O2 & O3 & O4). unfold compiles in Hc. rewrite <- O4 in Hc. unfold added in *. rewrite <- O3 in *.
  pose proof (calls_image None E cs I (or_introl eq_refl) _ _ O2 I Hc Ho HM) as C. rewrite runs_none in C.
  unfold fitting. rewrite <- size_eq. destruct (N.leb_spec (size (draft_open o)) (len s)) as [Hf|Hf]; cbn [bind].
  - pose proof (within_iff (len s) cs (draft_open o)) as W. rewrite <- size_eq in W.
    destruct (draft_calls cs (draft_open o)) as [d|e|]; cbn [bind].
    + destruct C as (_ & _ & C3 & _). rewrite <- C3. destruct (W d Hf) as [W1 W2]. rewrite <- size_eq in *.
      destruct (draft_calls_within (len s) cs (draft_open o)) as [d1|e1|]; cbn [bind].
      * assert (Hw : draft_calls_within 0 [] d1 = Ok d1) by reflexivity. destruct (W d1 Hf) as [W3 _]. destruct (W3 eq_refl) as [W4 W5]. apply Ok_inj in W4. subst d1. rewrite <- size_eq in W5. tauto.
      * split; [discriminate|]. intros [_ H]. specialize (W2 (conj eq_refl H)). discriminate.
      * split; [discriminate|]. intros [_ H]. specialize (W2 (conj eq_refl H)). discriminate.
    + split; [|intros [H _]; discriminate H]. destruct (draft_calls_within (len s) cs (draft_open o)) as [d1|e1|]; [|discriminate|discriminate]. destruct (W d1 Hf) as [W3 _]. destruct (W3 eq_refl) as [H _]. discriminate H.
    + split; [|intros [H _]; discriminate H]. destruct (draft_calls_within (len s) cs (draft_open o)) as [d1|e1|]; [|discriminate|discriminate]. destruct (W d1 Hf) as [W3 _]. destruct (W3 eq_refl) as [H _]. discriminate H.
  - split; [discriminate|]. intros [_ H]. lia.
Qed.
Example c66_example : forall E,
  compiles OpEther calls_example ClUdp /\ Forall ordinary calls_example /\ faithful_calls calls_example /\ payload_given calls_example = [104; 105] /\
  succeeds E OpEther calls_example ClUdp /\
  ~ succeeds E OpEther (calls_example ++ [CallUdp (UdpPayload [])]) ClUdp /\
  ~ succeeds E OpV4 [CallV4Tcp; CallTcp (TcpSet (TcpSetFlags 2)); CallTcp (TcpSet (TcpSetWindow 9))] ClTcp /\
  succeeds E OpEcho [CallEcho (EchoSequence 7); CallEcho EchoRequest] ClEcho /\ ~ succeeds E OpEcho [CallEcho (EchoSequence 7)] ClEcho.
Proof.
  intros E. refine (conj _ (conj _ (conj _ (conj _ (conj _ (conj _ (conj _ (conj _ _)))))))).
  - repeat (eexists; split; [reflexivity|]). reflexivity.
  - repeat constructor.
  - repeat constructor.
  - reflexivity.
  - repeat constructor; cbn; try discriminate; try tauto; try congruence.
  - intros (_ & H & _). apply (pairs_app _ calls_example (CallUdp (UdpPayload [])) [] (CallUdp (UdpPayload [104; 105]))) in H; [|do 6 right; left; reflexivity].
    destruct H as [H _]. destruct (H ltac:(discriminate)) as [HH _]. discriminate HH.
  - intros (_ & H & _). inversion_clear H as [|? ? _ H']. inversion_clear H' as [|? ? HF _]. inversion_clear HF as [|? ? HF' _]. destruct HF' as [_ HF']. apply HF'; exact I.
  - split; [repeat constructor|]. split; [repeat constructor; cbn; try discriminate; try tauto; try congruence|]. cbn [can_finish]. apply Exists_exists. exists (CallEcho EchoRequest). split; [right; left; reflexivity|left; reflexivity].
  - intros (_ & _ & H). cbn [can_finish] in H. rewrite Exists_exists in H. destruct H as (c & [<-|[]] & [H|H]); discriminate H.
Qed.
