(** * FrameProofs: dissecting arbitrary frames (C54). *)
From Verif Require Import Base Enums Ether Ipv4 Ip Udp Tcp Icmp Spec SpecNumbers SpecFrame.
From Verif Require Import Lemmas ParseProofs SliceProofs AccessProofs EnumProofs ChecksumProofs.
From Coq Require Import ZifyBool ZifyNat ZifyN.
Ltac Zify.zify_post_hook ::= Z.div_mod_to_equations.

Lemma ip_from_into n : ip_protocol_into (ip_protocol_from n) = n.
Proof. destruct c42_ip as [H _]. apply H. Qed.
Lemma ether_from_into n : ether_protocol_into (ether_protocol_from n) = n.
Proof. destruct c42_ether as [H _]. apply H. Qed.
Lemma ip_cases {A} n (x y z w : A) :
  match ip_protocol_from n with IP_Tcp => x | IP_Udp => y | IP_Icmp => z | _ => w end =
  if n =? 6 then x else if n =? 17 then y else if n =? 1 then z else w.
Proof.
  destruct (N.eqb_spec n 6) as [->|H6]; [reflexivity|]. destruct (N.eqb_spec n 17) as [->|H17]; [reflexivity|].
  destruct (N.eqb_spec n 1) as [->|H1]; [reflexivity|].
  pose proof (ip_from_into n) as Hi. destruct (ip_protocol_from n); try reflexivity; exfalso; cbn in Hi; subst n; congruence.
Qed.
Lemma ether_cases {A} n (x y : A) :
  match ether_protocol_from n with ET_Ipv4 | ET_Ipv6 => x | _ => y end =
  if (n =? 0x0800) || (n =? 0x86dd) then x else y.
Proof.
  destruct (N.eqb_spec n 0x0800) as [->|H4]; [reflexivity|]. destruct (N.eqb_spec n 0x86dd) as [->|H6]; [reflexivity|]. cbn [orb].
  pose proof (ether_from_into n) as Hi. destruct (ether_protocol_from n); try reflexivity; exfalso; cbn in Hi; subst n; congruence.
Qed.
Lemma ether_cases4 {A} n (x y : A) :
  match ether_protocol_from n with ET_Ipv4 => x | _ => y end = if n =? 0x0800 then x else y.
Proof.
  destruct (N.eqb_spec n 0x0800) as [->|H4]; [reflexivity|].
  pose proof (ether_from_into n) as Hi. destruct (ether_protocol_from n); try reflexivity; exfalso; cbn in Hi; subst n; congruence.
Qed.
Definition body_of (ip : bytes) : bytes := takeN (wire16 ip 2 - nthN ip 0 mod 16 * 4) (dropN (nthN ip 0 mod 16 * 4) ip).
Lemma dissect_body_eq ip : v4_new ip = Ok ip ->
  dissect_body ip =
  if nthN ip 9 =? 6 then (let* t := tcp_new (body_of ip) in Ok (DTcp ip t))
  else if nthN ip 9 =? 17 then (let* u := udp_new (body_of ip) in Ok (DUdp ip u))
  else if nthN ip 9 =? 1 then (let* m := icmp_new (body_of ip) in Ok (DIcmp ip m))
  else Ok (DOtherIp4 ip).
Proof.
  intros Hn. pose proof (c07_v4 ip Hn) as Q. cbv zeta in Q. destruct Q as (H1 & _ & _ & Q & _).
  assert (H20 : 20 <= len ip) by (apply c02_v4_new_iff in Hn; lia).
  unfold dissect_body. rewrite Q. unfold v4_protocol. rewrite index_ok by lia. cbn [bind].
  replace (dropN _ (takeN _ ip)) with (body_of ip).
  2: { unfold body_of. rewrite takeN_dropN_comm. f_equal; f_equal; lia. }
  apply ip_cases.
Qed.
Lemma ether_payload_ok b : 14 <= len b -> ether_payload b = Ok (dropN 14 b).
Proof. intros H. unfold ether_payload, ether_split. rewrite split_at_ok by lia. reflexivity. Qed.
Lemma dissect_eq b : dissect b =
  if len b <? 14 then Err SmallBuffer
  else if (wire16 b 12 =? 0x0800) || (wire16 b 12 =? 0x86dd) then
    (let* ip := ip_new (dropN 14 b) in match ip with V4 ip => dissect_body ip | V6 ip => Ok (DIp6 ip) end)
  else Ok (DOtherEther b).
Proof.
  unfold dissect. destruct (c01_ether_new b) as [H1 H2].
  destruct (N.ltb_spec (len b) 14); [rewrite H2 by lia; reflexivity|]. rewrite H1 by lia. cbn [bind].
  unfold ether_get_protocol. rewrite get16 by lia. cbn [bind]. rewrite ether_payload_ok by lia. cbn [bind]. apply ether_cases.
Qed.
Lemma dissect_v4_eq b : dissect_v4 b =
  if len b <? 14 then Err SmallBuffer
  else if wire16 b 12 =? 0x0800 then (let* ip := v4_new (dropN 14 b) in dissect_body ip)
  else Ok (DOtherEther b).
Proof.
  unfold dissect_v4. destruct (c01_ether_new b) as [H1 H2].
  destruct (N.ltb_spec (len b) 14); [rewrite H2 by lia; reflexivity|]. rewrite H1 by lia. cbn [bind].
  unfold ether_get_protocol. rewrite get16 by lia. cbn [bind]. rewrite ether_payload_ok by lia. cbn [bind]. apply ether_cases4.
Qed.
Lemma v4_new_same b p : v4_new b = Ok p -> p = b.
Proof. intros H. apply c02_v4_new_iff in H. apply H. Qed.
Lemma body_no_panic ip : v4_new ip = Ok ip -> dissect_body ip <> Panic.
Proof.
  intros Hn. rewrite dissect_body_eq by exact Hn. set (u := body_of ip). clearbody u.
  destruct (c04_tcp_new u) as [T1 T2]. destruct (c03_udp_new u) as [U1 U2].
  destruct (nthN ip 9 =? 6); [|destruct (nthN ip 9 =? 17); [|destruct (nthN ip 9 =? 1); [|discriminate]]].
  - destruct (N.ltb_spec (len u) 20); [rewrite T2 by lia; discriminate|].
    destruct (N.ltb_spec (len u) (nthN u 12 / 16 * 4)); [rewrite T2 by lia; discriminate|]. rewrite T1 by lia. discriminate.
  - destruct (N.ltb_spec (len u) 8); [rewrite U2 by lia; discriminate|].
    destruct (N.ltb_spec (len u) (wire16 u 4)); [rewrite U2 by lia; discriminate|]. rewrite U1 by lia. discriminate.
  - unfold icmp_new. destruct (len u <? icmp_header_min); discriminate.
Qed.
Lemma v4_new_no_panic b : v4_new b <> Panic.
Proof.
  destruct (c02_v4_new b) as (H1 & H2 & H3 & H4).
  destruct (N.ltb_spec (len b) 20); [rewrite H1 by lia; discriminate|].
  destruct (N.eqb_spec (nthN b 0 / 16) 4); [|rewrite H2 by lia; discriminate].
  destruct (N.ltb_spec (len b) (nthN b 0 mod 16 * 4)); [rewrite H3 by lia; discriminate|].
  destruct (N.ltb_spec (len b) (wire16 b 2)); [rewrite H3 by lia; discriminate|].
  rewrite H4 by lia. discriminate.
Qed.
(** C54: dissecting a frame through ip::Packet panics for the frames that end
    with an IP EtherType, and for no other bytes. *)
Lemma c54_panics : forall b, dissect b = Panic <-> len b = 14 /\ is_ip_type (wire16 b 12).
Proof.
  intros b. rewrite dissect_eq. unfold is_ip_type. destruct (N.ltb_spec (len b) 14); [split; [discriminate|lia]|].
  destruct ((wire16 b 12 =? 0x0800) || (wire16 b 12 =? 0x86dd)) eqn:Ht; [|split; [discriminate|intros [_ [Hx|Hx]]; rewrite Hx in Ht; discriminate]].
  assert (Hl : len (dropN 14 b) = len b - 14) by (autorewrite with len; reflexivity).
  destruct (c06_ip_new (dropN 14 b)) as (A & B & C & D). cbv zeta in *.
  split.
  - intros Hp. split; [|apply orb_true_iff in Ht; destruct Ht as [Ht|Ht]; apply N.eqb_eq in Ht; auto].
    destruct (N.eqb_spec (len b) 14) as [|Hne]; [assumption|exfalso].
    assert (Hd : dropN 14 b <> []) by (intros Hd; rewrite Hd in Hl; change (len []) with 0 in Hl; lia).
    destruct (N.eqb_spec (nthN (dropN 14 b) 0 / 16) 4) as [E4|N4].
    + rewrite B in Hp by assumption. destruct (v4_new (dropN 14 b)) as [p|e|] eqn:Hv; cbn [bind] in Hp; [|discriminate|eapply v4_new_no_panic; exact Hv].
      pose proof (v4_new_same _ _ Hv) as ->. eapply body_no_panic; eassumption.
    + destruct (N.eqb_spec (nthN (dropN 14 b) 0 / 16) 6) as [E6|N6]; [rewrite C in Hp by assumption|rewrite D in Hp by assumption]; discriminate.
  - intros [H14 _]. rewrite A; [reflexivity|]. destruct (dropN 14 b) as [|x r]; [reflexivity|]. autorewrite with len in Hl. lia.
Qed.
(** C54: through ip::v4::Packet it never panics. *)
Lemma c54_v4_no_panic : forall b, dissect_v4 b <> Panic.
Proof.
  intros b. rewrite dissect_v4_eq. destruct (len b <? 14); [discriminate|]. destruct (wire16 b 12 =? 0x0800); [|discriminate].
  destruct (v4_new (dropN 14 b)) as [p|e|] eqn:Hv; cbn [bind]; [|discriminate|intros _; eapply v4_new_no_panic; exact Hv].
  pose proof (v4_new_same _ _ Hv) as ->. apply body_no_panic. exact Hv.
Qed.

(** The frames an IPv4 body is found in. *)
Lemma wire16_dropN b i n : wire16 (dropN n b) i = wire16 b (n + i).
Proof. unfold wire16. rewrite !nthN_dropN. replace (n + i + 1) with (n + (i + 1)) by lia. reflexivity. Qed.
Lemma frame_of_iff ty proto b ip body :
  frame_of ty proto b ip body <->
  wire16 b 12 = ty /\ ip = dropN 14 b /\ v4_new ip = Ok ip /\ nthN ip 9 = proto /\ body = body_of ip.
Proof.
  unfold frame_of, body_of. cbv zeta. split.
  - intros (H34 & Ht & -> & H4 & H9 & Hh & Hn & Hb). rewrite c02_v4_new_iff, !wire16_dropN, !nthN_dropN, !dropN_dropN.
    change (14 + 0) with 14. change (14 + 9) with 23. change (14 + 2) with 16. autorewrite with len.
    repeat split; try assumption; try lia.
  - intros (Ht & -> & Hv & H9 & ->). rewrite c02_v4_new_iff in Hv. rewrite !wire16_dropN, !nthN_dropN, !dropN_dropN in *.
    change (14 + 0) with 14 in *. change (14 + 9) with 23 in *. change (14 + 2) with 16 in *. autorewrite with len in Hv.
    destruct Hv as (_ & H1 & H2 & H3 & H4).
    repeat split; try assumption; try lia.
Qed.
Lemma dissect_ip4_iff b (P : dissected -> Prop) d : is_ip_type (wire16 b 12) -> P d -> (forall x, ~ P (DIp6 x)) ->
  dissect b = Ok d <-> v4_new (dropN 14 b) = Ok (dropN 14 b) /\ dissect_body (dropN 14 b) = Ok d.
Proof.
  intros Ht Hd H6. rewrite dissect_eq.
  replace ((wire16 b 12 =? 0x0800) || (wire16 b 12 =? 0x86dd)) with true by (destruct Ht as [-> | ->]; reflexivity).
  destruct (N.ltb_spec (len b) 14) as [Hl|Hl].
  { split; [discriminate|]. intros [Hv _]. apply c02_v4_new_iff in Hv. autorewrite with len in Hv. lia. }
  destruct (c06_ip_new (dropN 14 b)) as (A & B & C & D). cbv zeta in *.
  assert (Hx : dropN 14 b = [] -> False \/ v4_new (dropN 14 b) = Err SmallBuffer) by (intros ->; right; reflexivity).
  destruct (dropN 14 b) as [|x0 r] eqn:Hdr.
  { rewrite A by reflexivity. split; [discriminate|]. intros [Hv _]. discriminate. }
  rewrite <- Hdr in *. assert (Hne : dropN 14 b <> []) by (rewrite Hdr; discriminate).
  destruct (N.eqb_spec (nthN (dropN 14 b) 0 / 16) 4) as [E4|N4].
  - rewrite B by assumption. destruct (v4_new (dropN 14 b)) as [p|e|] eqn:Hv; cbn [bind].
    + pose proof (v4_new_same _ _ Hv) as ->. tauto.
    + split; [discriminate|intros [Hf _]; discriminate].
    + split; [discriminate|intros [Hf _]; discriminate].
  - split.
    + destruct (N.eqb_spec (nthN (dropN 14 b) 0 / 16) 6) as [E6|N6]; [rewrite C by assumption|rewrite D by assumption]; cbn [bind]; [|discriminate].
      intros Hk. apply Ok_inj in Hk. subst d. destruct (H6 _ Hd).
    + intros [Hv _]. apply c02_v4_new_iff in Hv. lia.
Qed.

Lemma bind_ok {A B} (r : res A) (k : A -> res B) y : (let* x := r in k x) = Ok y <-> exists x, r = Ok x /\ k x = Ok y.
Proof. destruct r as [x|e|]; cbn [bind]; split; try discriminate; [eauto|intros (z & Hz & Hk); apply Ok_inj in Hz; subst z; exact Hk|intros (z & Hz & _); discriminate|intros (z & Hz & _); discriminate]. Qed.
Lemma icmp_new_iff b p : icmp_new b = Ok p <-> p = b /\ 4 <= len b.
Proof.
  unfold icmp_new, icmp_header_min. destruct (N.ltb_spec (len b) 4); split; try discriminate; [lia| |].
  - intros H1. apply Ok_inj in H1. split; [congruence|lia].
  - intros [-> _]. reflexivity.
Qed.
Lemma body_udp ip u i : v4_new ip = Ok ip -> dissect_body ip = Ok (DUdp i u) <-> i = ip /\ nthN ip 9 = 17 /\ u = body_of ip /\ udp_fits u.
Proof.
  intros Hn. rewrite dissect_body_eq by exact Hn. unfold udp_fits. set (w := body_of ip). clearbody w.
  destruct (N.eqb_spec (nthN ip 9) 6) as [E6|]; [rewrite bind_ok; split; [intros (x & _ & Hx); discriminate|lia]|].
  destruct (N.eqb_spec (nthN ip 9) 17) as [E17|].
  - rewrite bind_ok. split.
    + intros (x & Hx & Hy). apply udp_new_iff in Hx. destruct Hx as (-> & H1 & H2). injection Hy as <- <-. auto.
    + intros (-> & _ & -> & H1 & H2). exists w. split; [apply udp_new_iff; auto|reflexivity].
  - destruct (N.eqb_spec (nthN ip 9) 1); [rewrite bind_ok; split; [intros (x & _ & Hx); discriminate|lia]|]. split; [discriminate|lia].
Qed.
Lemma body_tcp ip u i : v4_new ip = Ok ip -> dissect_body ip = Ok (DTcp i u) <-> i = ip /\ nthN ip 9 = 6 /\ u = body_of ip /\ tcp_fits u.
Proof.
  intros Hn. rewrite dissect_body_eq by exact Hn. unfold tcp_fits. set (w := body_of ip). clearbody w.
  destruct (N.eqb_spec (nthN ip 9) 6) as [E6|].
  - rewrite bind_ok. split.
    + intros (x & Hx & Hy). apply tcp_new_iff in Hx. destruct Hx as (-> & H1 & H2). injection Hy as <- <-. auto.
    + intros (-> & _ & -> & H1 & H2). exists w. split; [apply tcp_new_iff; auto|reflexivity].
  - destruct (N.eqb_spec (nthN ip 9) 17); [rewrite bind_ok; split; [intros (x & _ & Hx); discriminate|lia]|].
    destruct (N.eqb_spec (nthN ip 9) 1); [rewrite bind_ok; split; [intros (x & _ & Hx); discriminate|lia]|]. split; [discriminate|lia].
Qed.
Lemma body_icmp ip u i : v4_new ip = Ok ip -> dissect_body ip = Ok (DIcmp i u) <-> i = ip /\ nthN ip 9 = 1 /\ u = body_of ip /\ icmp_fits u.
Proof.
  intros Hn. rewrite dissect_body_eq by exact Hn. unfold icmp_fits. set (w := body_of ip). clearbody w.
  destruct (N.eqb_spec (nthN ip 9) 6) as [E6|]; [rewrite bind_ok; split; [intros (x & _ & Hx); discriminate|lia]|].
  destruct (N.eqb_spec (nthN ip 9) 17) as [E17|]; [rewrite bind_ok; split; [intros (x & _ & Hx); discriminate|lia]|].
  destruct (N.eqb_spec (nthN ip 9) 1); [|split; [discriminate|lia]].
  rewrite bind_ok. split.
    + intros (x & Hx & Hy). apply icmp_new_iff in Hx. destruct Hx as (-> & H1). injection Hy as <- <-. auto.
    + intros (-> & _ & -> & H1). exists w. split; [apply icmp_new_iff; auto|reflexivity].
Qed.
Lemma dissect_type b d : dissect b = Ok d -> (forall x, d <> DOtherEther x) -> is_ip_type (wire16 b 12).
Proof.
  rewrite dissect_eq. intros H Hd. destruct (len b <? 14); [discriminate|].
  destruct ((wire16 b 12 =? 0x0800) || (wire16 b 12 =? 0x86dd)) eqn:Ht.
  - apply orb_true_iff in Ht. destruct Ht as [Ht|Ht]; apply N.eqb_eq in Ht; [left|right]; exact Ht.
  - apply Ok_inj in H. symmetry in H. destruct (Hd _ H).
Qed.
Ltac layer_iff body :=
  let H := fresh in let Ht := fresh in
  intros b ip u; split;
  [ intros H; assert (Ht : is_ip_type (wire16 b 12)) by (eapply dissect_type; [exact H|discriminate]);
    exists (wire16 b 12); split; [exact Ht|]; rewrite frame_of_iff;
    eapply (dissect_ip4_iff b (fun d => forall x, d <> DIp6 x)) in H; [|exact Ht|discriminate|intros x Hx; exact (Hx x eq_refl)];
    destruct H as [Hv H]; apply body in H; [|exact Hv]; destruct H as (-> & H9 & -> & Hf); tauto
  | intros (ty & Ht & H & Hf); rewrite frame_of_iff in H; destruct H as (Hty & -> & Hv & H9 & ->); rewrite <- Hty in Ht;
    apply (dissect_ip4_iff b (fun d => forall x, d <> DIp6 x)); [exact Ht|discriminate|intros x Hx; exact (Hx x eq_refl)|];
    split; [exact Hv|]; apply body; [exact Hv|]; auto ].
(** C54: where each layer of a dissected frame lies, and what is accepted. *)
Lemma c54_udp : forall b ip u, dissect b = Ok (DUdp ip u) <->
  exists ty, is_ip_type ty /\ frame_of ty 17 b ip u /\ udp_fits u.
Proof. layer_iff body_udp. Qed.
Lemma c54_tcp : forall b ip t, dissect b = Ok (DTcp ip t) <->
  exists ty, is_ip_type ty /\ frame_of ty 6 b ip t /\ tcp_fits t.
Proof. layer_iff body_tcp. Qed.
Lemma c54_icmp : forall b ip m, dissect b = Ok (DIcmp ip m) <->
  exists ty, is_ip_type ty /\ frame_of ty 1 b ip m /\ icmp_fits m.
Proof. layer_iff body_icmp. Qed.
(** C54: every other frame that is accepted. *)
Lemma c54_other : forall b,
  (forall e, dissect b = Ok (DOtherEther e) <-> e = b /\ 14 <= len b /\ ~ is_ip_type (wire16 b 12)) /\
  (forall ip, dissect b = Ok (DIp6 ip) <-> is_ip_type (wire16 b 12) /\ ip = dropN 14 b /\ 15 <= len b /\ nthN b 14 / 16 = 6) /\
  (forall ip, dissect b = Ok (DOtherIp4 ip) <->
     exists ty proto body, is_ip_type ty /\ frame_of ty proto b ip body /\ proto <> 1 /\ proto <> 6 /\ proto <> 17).
Proof.
  intros b. assert (Hno : forall ip d, dissect_body ip = Ok d -> forall e, d <> DOtherEther e /\ d <> DIp6 e).
  { intros ip d H e. unfold dissect_body in H. apply bind_ok in H. destruct H as (p & _ & H). apply bind_ok in H. destruct H as (w & _ & H).
    destruct p; try (apply Ok_inj in H; subst d; split; discriminate);
      apply bind_ok in H; destruct H as (z & _ & H); apply Ok_inj in H; subst d; split; discriminate. }
  split; [|split].
  - intros e. rewrite dissect_eq. destruct (N.ltb_spec (len b) 14); [split; [discriminate|lia]|].
    destruct ((wire16 b 12 =? 0x0800) || (wire16 b 12 =? 0x86dd)) eqn:Ht.
    + split.
      * intros Hd. apply bind_ok in Hd. destruct Hd as ([ip|ip] & _ & Hd); [|discriminate]. destruct (Hno _ _ Hd e) as [Hx _]. congruence.
      * intros (_ & _ & Hn). destruct Hn. apply orb_true_iff in Ht. destruct Ht as [Ht|Ht]; apply N.eqb_eq in Ht; [left|right]; exact Ht.
    + split.
      * intros Hd. apply Ok_inj in Hd. injection Hd as <-. repeat split; try lia. intros [Hx|Hx]; rewrite Hx in Ht; discriminate.
      * intros (-> & _). reflexivity.
  - intros ip. rewrite dissect_eq. destruct (N.ltb_spec (len b) 14); [split; [discriminate|lia]|].
    assert (Hl : len (dropN 14 b) = len b - 14) by (autorewrite with len; reflexivity).
    assert (H0 : nthN (dropN 14 b) 0 = nthN b 14) by (rewrite nthN_dropN; reflexivity).
    destruct (c06_ip_new (dropN 14 b)) as (A & B & C & D). cbv zeta in *. rewrite H0 in *.
    assert (Hne : dropN 14 b <> [] <-> 15 <= len b).
    { destruct (dropN 14 b); [change (len []) with 0 in Hl; split; [congruence|lia]|autorewrite with len in Hl; split; [lia|discriminate]]. }
    destruct ((wire16 b 12 =? 0x0800) || (wire16 b 12 =? 0x86dd)) eqn:Ht.
    + assert (Hty : is_ip_type (wire16 b 12)) by (apply orb_true_iff in Ht; destruct Ht as [Ht|Ht]; apply N.eqb_eq in Ht; [left|right]; exact Ht).
      split.
      * intros Hd. apply bind_ok in Hd. destruct Hd as ([i|i] & Hi & Hd); [destruct (Hno _ _ Hd ip); congruence|]. apply Ok_inj in Hd. injection Hd as ->.
        assert (Hn : dropN 14 b <> []) by (intros Hx; rewrite A in Hi by exact Hx; discriminate).
        destruct (N.eqb_spec (nthN b 14 / 16) 6) as [E6|N6].
        { rewrite C in Hi by assumption. apply Ok_inj in Hi. injection Hi as <-. repeat split; try assumption. apply Hne; exact Hn. }
        destruct (N.eqb_spec (nthN b 14 / 16) 4) as [E4|N4]; [|rewrite D in Hi by assumption; discriminate].
        rewrite B in Hi by assumption. destruct (v4_new (dropN 14 b)); discriminate.
      * intros (_ & -> & H15 & H6). rewrite C by (assumption || (apply Hne; exact H15)). reflexivity.
    + split; [discriminate|]. intros ([Hx|Hx] & _); rewrite Hx in Ht; discriminate.
  - intros ip. split.
    + intros H. assert (Ht : is_ip_type (wire16 b 12)) by (eapply dissect_type; [exact H|discriminate]).
      eapply (dissect_ip4_iff b (fun d => forall x, d <> DIp6 x)) in H; [|exact Ht|discriminate|intros x Hx; exact (Hx x eq_refl)].
      destruct H as [Hv H]. rewrite dissect_body_eq in H by exact Hv.
      exists (wire16 b 12), (nthN (dropN 14 b) 9), (body_of (dropN 14 b)). split; [exact Ht|]. rewrite frame_of_iff.
      destruct (N.eqb_spec (nthN (dropN 14 b) 9) 6); [apply bind_ok in H; destruct H as (? & _ & H); discriminate|].
      destruct (N.eqb_spec (nthN (dropN 14 b) 9) 17); [apply bind_ok in H; destruct H as (? & _ & H); discriminate|].
      destruct (N.eqb_spec (nthN (dropN 14 b) 9) 1); [apply bind_ok in H; destruct H as (? & _ & H); discriminate|].
      apply Ok_inj in H. injection H as <-. auto 10.
    + intros (ty & proto & body & Ht & H & N1 & N6 & N17). rewrite frame_of_iff in H. destruct H as (Hty & -> & Hv & H9 & ->). rewrite <- Hty in Ht.
      apply (dissect_ip4_iff b (fun d => forall x, d <> DIp6 x)); [exact Ht|discriminate|intros x Hx; exact (Hx x eq_refl)|].
      split; [exact Hv|]. rewrite dissect_body_eq by exact Hv. rewrite H9.
      rewrite (proj2 (N.eqb_neq _ _) N6), (proj2 (N.eqb_neq _ _) N17), (proj2 (N.eqb_neq _ _) N1). reflexivity.
Qed.
(** C54: through ip::v4::Packet the same layers, for the IPv4 EtherType. *)
Lemma c54_v4_same : forall b, wire16 b 12 = 0x0800 -> nthN b 14 / 16 = 4 -> 15 <= len b -> dissect_v4 b = dissect b.
Proof.
  intros b Ht H4 Hl. rewrite dissect_eq, dissect_v4_eq, Ht. destruct (N.ltb_spec (len b) 14); [reflexivity|]. cbn [N.eqb orb].
  change (2048 =? 2048) with true. cbn [orb].
  destruct (c06_ip_new (dropN 14 b)) as (_ & B & _). cbv zeta in B. rewrite B.
  - destruct (v4_new (dropN 14 b)); reflexivity.
  - intros Hx. assert (Hz : len (dropN 14 b) = len b - 14) by (autorewrite with len; reflexivity). rewrite Hx in Hz. change (len []) with 0 in Hz. lia.
  - rewrite nthN_dropN. exact H4.
Qed.
Example c54_example :
  let u := [5; 57; 35; 41; 0; 12; 241; 150; 116; 101; 115; 116] in
  let ip := [69; 12; 0; 32; 48; 10; 64; 0; 64; 17; 12; 180; 127; 0; 0; 1; 127; 0; 0; 2] ++ u ++ [9; 9; 9] in
  let e := [1; 2; 3; 4; 5; 6; 0; 35; 105; 99; 89; 190; 8; 0] in
  dissect (e ++ ip) = Ok (DUdp ip u) /\ dissect_v4 (e ++ ip) = Ok (DUdp ip u) /\ dissect e = Panic /\ dissect_v4 e = Err SmallBuffer /\
  dissect (takeN 30 (e ++ ip)) = Err SmallBuffer.
Proof. vm_compute. repeat split. Qed.
