(** * EnumProofs: number/enum conversions (C42). *)
From Verif Require Import Base Enums Spec SpecNumbers Lemmas.
From Coq Require Import ZifyBool ZifyNat ZifyN.

Lemma forall_in {T} (P : T * N -> Prop) (l : list (T * N)) : Forall P l -> forall v n, In (v, n) l -> P (v, n).
Proof. intros H v n Hi. rewrite Forall_forall in H. exact (H _ Hi). Qed.
Ltac bits n := destruct n as [|n]; [|repeat match goal with |- context [match ?p with xI _ => _ | xO _ => _ | xH => _ end] => destruct p end].
Definition mem (n : N) (l : list N) : bool := existsb (N.eqb n) l.
Lemma mem_spec n l : mem n l = true <-> In n l.
Proof.
  unfold mem. rewrite existsb_exists. split.
  - intros (x & Hx & He). apply N.eqb_eq in He. subst. exact Hx.
  - intros H. exists n. split; [exact H|apply N.eqb_refl].
Qed.

Lemma ip_protocol_catch_all n : (exists m, ip_protocol_from n = IP_Unknown m) -> ip_protocol_from n = IP_Unknown n.
Proof. unfold ip_protocol_from. intros [m H]. revert H. bits n; intros H; first [discriminate H|reflexivity]. Qed.
(** C42: ip::Protocol. *)
Lemma c42_ip : lossless ip_protocol_from ip_protocol_into IP_Unknown ip_registry.
Proof.
  assert (Hreg : forall v n, In (v, n) ip_registry -> ip_protocol_into v = n /\ ip_protocol_from n = v).
  { intros v n Hi. apply (forall_in (fun p => ip_protocol_into (fst p) = snd p /\ ip_protocol_from (snd p) = fst p) ip_registry) with (v := v); [|exact Hi].
    cbv -[ip_protocol_into ip_protocol_from]. repeat constructor. }
  assert (Hnamed : forall v, (forall n, v <> IP_Unknown n) -> In v (map fst ip_registry)).
  { intros v Hv. destruct v; try (exfalso; exact (Hv _ eq_refl)); clear Hv; vm_compute; repeat first [left; reflexivity|right]. }
  assert (Hback : forall n, ip_protocol_into (ip_protocol_from n) = n).
  { intros n. unfold ip_protocol_from. bits n; reflexivity. }
  split; [exact Hback|]. split.
  { intros v Hv. apply Hnamed, in_map_iff in Hv. destruct Hv as [[v' n] [<- Hi]]. cbn [fst]. destruct (Hreg _ _ Hi) as [-> ->]. reflexivity. }
  split; [exact Hreg|]. split; [exact Hnamed|]. split; [reflexivity|]. intros n. split.
  - intros Hf Hi. apply in_map_iff in Hi. destruct Hi as [[v n'] [<- Hi]]. cbn [snd] in Hf. destruct (Hreg _ _ Hi) as [_ Hr].
    rewrite Hf in Hr. subst v. revert Hi. clear. cbv -[In]. intros Hi. repeat (destruct Hi as [Hi|Hi]; [discriminate Hi|]). exact Hi.
  - intros Hn. destruct (ip_protocol_from n) eqn:Hf; try (exfalso; apply Hn; rewrite <- (Hback n), Hf; apply mem_spec; vm_compute; reflexivity).
    rewrite <- Hf. apply ip_protocol_catch_all. eexists. exact Hf.
Qed.
Lemma ether_protocol_catch_all n : (exists m, ether_protocol_from n = ET_Unknown m) -> ether_protocol_from n = ET_Unknown n.
Proof. unfold ether_protocol_from. intros [m H]. revert H. bits n; intros H; first [discriminate H|reflexivity]. Qed.
(** C42: ether::Protocol. *)
Lemma c42_ether : lossless ether_protocol_from ether_protocol_into ET_Unknown ether_registry.
Proof.
  assert (Hreg : forall v n, In (v, n) ether_registry -> ether_protocol_into v = n /\ ether_protocol_from n = v).
  { intros v n Hi. apply (forall_in (fun p => ether_protocol_into (fst p) = snd p /\ ether_protocol_from (snd p) = fst p) ether_registry) with (v := v); [|exact Hi].
    cbv -[ether_protocol_into ether_protocol_from]. repeat constructor. }
  assert (Hnamed : forall v, (forall n, v <> ET_Unknown n) -> In v (map fst ether_registry)).
  { intros v Hv. destruct v; try (exfalso; exact (Hv _ eq_refl)); clear Hv; vm_compute; repeat first [left; reflexivity|right]. }
  assert (Hback : forall n, ether_protocol_into (ether_protocol_from n) = n).
  { intros n. unfold ether_protocol_from. bits n; reflexivity. }
  split; [exact Hback|]. split.
  { intros v Hv. apply Hnamed, in_map_iff in Hv. destruct Hv as [[v' n] [<- Hi]]. cbn [fst]. destruct (Hreg _ _ Hi) as [-> ->]. reflexivity. }
  split; [exact Hreg|]. split; [exact Hnamed|]. split; [reflexivity|]. intros n. split.
  - intros Hf Hi. apply in_map_iff in Hi. destruct Hi as [[v n'] [<- Hi]]. cbn [snd] in Hf. destruct (Hreg _ _ Hi) as [_ Hr].
    rewrite Hf in Hr. subst v. revert Hi. clear. cbv -[In]. intros Hi. repeat (destruct Hi as [Hi|Hi]; [discriminate Hi|]). exact Hi.
  - intros Hn. destruct (ether_protocol_from n) eqn:Hf; try (exfalso; apply Hn; rewrite <- (Hback n), Hf; apply mem_spec; vm_compute; reflexivity).
    rewrite <- Hf. apply ether_protocol_catch_all. eexists. exact Hf.
Qed.
Lemma icmp_kind_catch_all n : (exists m, icmp_kind_from n = K_Unknown m) -> icmp_kind_from n = K_Unknown n.
Proof. unfold icmp_kind_from. intros [m H]. revert H. bits n; intros H; first [discriminate H|reflexivity]. Qed.
(** C42: icmp::Kind. *)
Lemma c42_icmp_kind : lossless icmp_kind_from icmp_kind_into K_Unknown icmp_registry.
Proof.
  assert (Hreg : forall v n, In (v, n) icmp_registry -> icmp_kind_into v = n /\ icmp_kind_from n = v).
  { intros v n Hi. apply (forall_in (fun p => icmp_kind_into (fst p) = snd p /\ icmp_kind_from (snd p) = fst p) icmp_registry) with (v := v); [|exact Hi].
    cbv -[icmp_kind_into icmp_kind_from]. repeat constructor. }
  assert (Hnamed : forall v, (forall n, v <> K_Unknown n) -> In v (map fst icmp_registry)).
  { intros v Hv. destruct v; try (exfalso; exact (Hv _ eq_refl)); clear Hv; vm_compute; repeat first [left; reflexivity|right]. }
  assert (Hback : forall n, icmp_kind_into (icmp_kind_from n) = n).
  { intros n. unfold icmp_kind_from. bits n; reflexivity. }
  split; [exact Hback|]. split.
  { intros v Hv. apply Hnamed, in_map_iff in Hv. destruct Hv as [[v' n] [<- Hi]]. cbn [fst]. destruct (Hreg _ _ Hi) as [-> ->]. reflexivity. }
  split; [exact Hreg|]. split; [exact Hnamed|]. split; [reflexivity|]. intros n. split.
  - intros Hf Hi. apply in_map_iff in Hi. destruct Hi as [[v n'] [<- Hi]]. cbn [snd] in Hf. destruct (Hreg _ _ Hi) as [_ Hr].
    rewrite Hf in Hr. subst v. revert Hi. clear. cbv -[In]. intros Hi. repeat (destruct Hi as [Hi|Hi]; [discriminate Hi|]). exact Hi.
  - intros Hn. destruct (icmp_kind_from n) eqn:Hf; try (exfalso; apply Hn; rewrite <- (Hback n), Hf; apply mem_spec; vm_compute; reflexivity).
    rewrite <- Hf. apply icmp_kind_catch_all. eexists. exact Hf.
Qed.
Lemma dest_unreachable_catch_all n : (exists m, dest_unreachable_from n = DU_Unknown m) -> dest_unreachable_from n = DU_Unknown n.
Proof. unfold dest_unreachable_from. intros [m H]. revert H. bits n; intros H; first [discriminate H|reflexivity]. Qed.
(** C42: icmp::code::DestinationUnreachable. *)
Lemma c42_dest_unreachable : lossless dest_unreachable_from dest_unreachable_into DU_Unknown dest_unreachable_registry.
Proof.
  assert (Hreg : forall v n, In (v, n) dest_unreachable_registry -> dest_unreachable_into v = n /\ dest_unreachable_from n = v).
  { intros v n Hi. apply (forall_in (fun p => dest_unreachable_into (fst p) = snd p /\ dest_unreachable_from (snd p) = fst p) dest_unreachable_registry) with (v := v); [|exact Hi].
    cbv -[dest_unreachable_into dest_unreachable_from]. repeat constructor. }
  assert (Hnamed : forall v, (forall n, v <> DU_Unknown n) -> In v (map fst dest_unreachable_registry)).
  { intros v Hv. destruct v; try (exfalso; exact (Hv _ eq_refl)); clear Hv; vm_compute; repeat first [left; reflexivity|right]. }
  assert (Hback : forall n, dest_unreachable_into (dest_unreachable_from n) = n).
  { intros n. unfold dest_unreachable_from. bits n; reflexivity. }
  split; [exact Hback|]. split.
  { intros v Hv. apply Hnamed, in_map_iff in Hv. destruct Hv as [[v' n] [<- Hi]]. cbn [fst]. destruct (Hreg _ _ Hi) as [-> ->]. reflexivity. }
  split; [exact Hreg|]. split; [exact Hnamed|]. split; [reflexivity|]. intros n. split.
  - intros Hf Hi. apply in_map_iff in Hi. destruct Hi as [[v n'] [<- Hi]]. cbn [snd] in Hf. destruct (Hreg _ _ Hi) as [_ Hr].
    rewrite Hf in Hr. subst v. revert Hi. clear. cbv -[In]. intros Hi. repeat (destruct Hi as [Hi|Hi]; [discriminate Hi|]). exact Hi.
  - intros Hn. destruct (dest_unreachable_from n) eqn:Hf; try (exfalso; apply Hn; rewrite <- (Hback n), Hf; apply mem_spec; vm_compute; reflexivity).
    rewrite <- Hf. apply dest_unreachable_catch_all. eexists. exact Hf.
Qed.
Lemma redirect_code_catch_all n : (exists m, redirect_code_from n = RC_Unknown m) -> redirect_code_from n = RC_Unknown n.
Proof. unfold redirect_code_from. intros [m H]. revert H. bits n; intros H; first [discriminate H|reflexivity]. Qed.
(** C42: icmp::code::RedirectMessage. *)
Lemma c42_redirect : lossless redirect_code_from redirect_code_into RC_Unknown redirect_registry.
Proof.
  assert (Hreg : forall v n, In (v, n) redirect_registry -> redirect_code_into v = n /\ redirect_code_from n = v).
  { intros v n Hi. apply (forall_in (fun p => redirect_code_into (fst p) = snd p /\ redirect_code_from (snd p) = fst p) redirect_registry) with (v := v); [|exact Hi].
    cbv -[redirect_code_into redirect_code_from]. repeat constructor. }
  assert (Hnamed : forall v, (forall n, v <> RC_Unknown n) -> In v (map fst redirect_registry)).
  { intros v Hv. destruct v; try (exfalso; exact (Hv _ eq_refl)); clear Hv; vm_compute; repeat first [left; reflexivity|right]. }
  assert (Hback : forall n, redirect_code_into (redirect_code_from n) = n).
  { intros n. unfold redirect_code_from. bits n; reflexivity. }
  split; [exact Hback|]. split.
  { intros v Hv. apply Hnamed, in_map_iff in Hv. destruct Hv as [[v' n] [<- Hi]]. cbn [fst]. destruct (Hreg _ _ Hi) as [-> ->]. reflexivity. }
  split; [exact Hreg|]. split; [exact Hnamed|]. split; [reflexivity|]. intros n. split.
  - intros Hf Hi. apply in_map_iff in Hi. destruct Hi as [[v n'] [<- Hi]]. cbn [snd] in Hf. destruct (Hreg _ _ Hi) as [_ Hr].
    rewrite Hf in Hr. subst v. revert Hi. clear. cbv -[In]. intros Hi. repeat (destruct Hi as [Hi|Hi]; [discriminate Hi|]). exact Hi.
  - intros Hn. destruct (redirect_code_from n) eqn:Hf; try (exfalso; apply Hn; rewrite <- (Hback n), Hf; apply mem_spec; vm_compute; reflexivity).
    rewrite <- Hf. apply redirect_code_catch_all. eexists. exact Hf.
Qed.
Lemma param_code_catch_all n : (exists m, param_code_from n = PC_Unknown m) -> param_code_from n = PC_Unknown n.
Proof. unfold param_code_from. intros [m H]. revert H. bits n; intros H; first [discriminate H|reflexivity]. Qed.
(** C42: icmp::code::ParameterProblem. *)
Lemma c42_param : lossless param_code_from param_code_into PC_Unknown param_registry.
Proof.
  assert (Hreg : forall v n, In (v, n) param_registry -> param_code_into v = n /\ param_code_from n = v).
  { intros v n Hi. apply (forall_in (fun p => param_code_into (fst p) = snd p /\ param_code_from (snd p) = fst p) param_registry) with (v := v); [|exact Hi].
    cbv -[param_code_into param_code_from]. repeat constructor. }
  assert (Hnamed : forall v, (forall n, v <> PC_Unknown n) -> In v (map fst param_registry)).
  { intros v Hv. destruct v; try (exfalso; exact (Hv _ eq_refl)); clear Hv; vm_compute; repeat first [left; reflexivity|right]. }
  assert (Hback : forall n, param_code_into (param_code_from n) = n).
  { intros n. unfold param_code_from. bits n; reflexivity. }
  split; [exact Hback|]. split.
  { intros v Hv. apply Hnamed, in_map_iff in Hv. destruct Hv as [[v' n] [<- Hi]]. cbn [fst]. destruct (Hreg _ _ Hi) as [-> ->]. reflexivity. }
  split; [exact Hreg|]. split; [exact Hnamed|]. split; [reflexivity|]. intros n. split.
  - intros Hf Hi. apply in_map_iff in Hi. destruct Hi as [[v n'] [<- Hi]]. cbn [snd] in Hf. destruct (Hreg _ _ Hi) as [_ Hr].
    rewrite Hf in Hr. subst v. revert Hi. clear. cbv -[In]. intros Hi. repeat (destruct Hi as [Hi|Hi]; [discriminate Hi|]). exact Hi.
  - intros Hn. destruct (param_code_from n) eqn:Hf; try (exfalso; apply Hn; rewrite <- (Hback n), Hf; apply mem_spec; vm_compute; reflexivity).
    rewrite <- Hf. apply param_code_catch_all. eexists. exact Hf.
Qed.
Lemma v4opt_number_catch_all n : (exists m, v4opt_number_from n = ON_Unknown m) -> v4opt_number_from n = ON_Unknown n.
Proof. unfold v4opt_number_from. intros [m H]. revert H. bits n; intros H; first [discriminate H|reflexivity]. Qed.
(** C42: ip::v4::option::Number. *)
Lemma c42_v4opt : lossless v4opt_number_from v4opt_number_into ON_Unknown v4opt_registry.
Proof.
  assert (Hreg : forall v n, In (v, n) v4opt_registry -> v4opt_number_into v = n /\ v4opt_number_from n = v).
  { intros v n Hi. apply (forall_in (fun p => v4opt_number_into (fst p) = snd p /\ v4opt_number_from (snd p) = fst p) v4opt_registry) with (v := v); [|exact Hi].
    cbv -[v4opt_number_into v4opt_number_from]. repeat constructor. }
  assert (Hnamed : forall v, (forall n, v <> ON_Unknown n) -> In v (map fst v4opt_registry)).
  { intros v Hv. destruct v; try (exfalso; exact (Hv _ eq_refl)); clear Hv; vm_compute; repeat first [left; reflexivity|right]. }
  assert (Hback : forall n, v4opt_number_into (v4opt_number_from n) = n).
  { intros n. unfold v4opt_number_from. bits n; reflexivity. }
  split; [exact Hback|]. split.
  { intros v Hv. apply Hnamed, in_map_iff in Hv. destruct Hv as [[v' n] [<- Hi]]. cbn [fst]. destruct (Hreg _ _ Hi) as [-> ->]. reflexivity. }
  split; [exact Hreg|]. split; [exact Hnamed|]. split; [reflexivity|]. intros n. split.
  - intros Hf Hi. apply in_map_iff in Hi. destruct Hi as [[v n'] [<- Hi]]. cbn [snd] in Hf. destruct (Hreg _ _ Hi) as [_ Hr].
    rewrite Hf in Hr. subst v. revert Hi. clear. cbv -[In]. intros Hi. repeat (destruct Hi as [Hi|Hi]; [discriminate Hi|]). exact Hi.
  - intros Hn. destruct (v4opt_number_from n) eqn:Hf; try (exfalso; apply Hn; rewrite <- (Hback n), Hf; apply mem_spec; vm_compute; reflexivity).
    rewrite <- Hf. apply v4opt_number_catch_all. eexists. exact Hf.
Qed.
Lemma tcpopt_number_catch_all n : (exists m, tcpopt_number_from n = TN_Unknown m) -> tcpopt_number_from n = TN_Unknown n.
Proof. unfold tcpopt_number_from. intros [m H]. revert H. bits n; intros H; first [discriminate H|reflexivity]. Qed.
(** C42: tcp::option::Number. *)
Lemma c42_tcpopt : lossless tcpopt_number_from tcpopt_number_into TN_Unknown tcpopt_registry.
Proof.
  assert (Hreg : forall v n, In (v, n) tcpopt_registry -> tcpopt_number_into v = n /\ tcpopt_number_from n = v).
  { intros v n Hi. apply (forall_in (fun p => tcpopt_number_into (fst p) = snd p /\ tcpopt_number_from (snd p) = fst p) tcpopt_registry) with (v := v); [|exact Hi].
    cbv -[tcpopt_number_into tcpopt_number_from]. repeat constructor. }
  assert (Hnamed : forall v, (forall n, v <> TN_Unknown n) -> In v (map fst tcpopt_registry)).
  { intros v Hv. destruct v; try (exfalso; exact (Hv _ eq_refl)); clear Hv; vm_compute; repeat first [left; reflexivity|right]. }
  assert (Hback : forall n, tcpopt_number_into (tcpopt_number_from n) = n).
  { intros n. unfold tcpopt_number_from. bits n; reflexivity. }
  split; [exact Hback|]. split.
  { intros v Hv. apply Hnamed, in_map_iff in Hv. destruct Hv as [[v' n] [<- Hi]]. cbn [fst]. destruct (Hreg _ _ Hi) as [-> ->]. reflexivity. }
  split; [exact Hreg|]. split; [exact Hnamed|]. split; [reflexivity|]. intros n. split.
  - intros Hf Hi. apply in_map_iff in Hi. destruct Hi as [[v n'] [<- Hi]]. cbn [snd] in Hf. destruct (Hreg _ _ Hi) as [_ Hr].
    rewrite Hf in Hr. subst v. revert Hi. clear. cbv -[In]. intros Hi. repeat (destruct Hi as [Hi|Hi]; [discriminate Hi|]). exact Hi.
  - intros Hn. destruct (tcpopt_number_from n) eqn:Hf; try (exfalso; apply Hn; rewrite <- (Hback n), Hf; apply mem_spec; vm_compute; reflexivity).
    rewrite <- Hf. apply tcpopt_number_catch_all. eexists. exact Hf.
Qed.
(** C42: ip::v4::option::Class: the four values of the two class bits convert
    both ways; other numbers panic. *)
Lemma c42_class : 
  (forall n, n < 4 -> exists c, v4opt_class_from n = Ok c /\ v4opt_class_into c = n) /\
  (forall n, 4 <= n -> v4opt_class_from n = Panic) /\
  v4opt_class_from 0 = Ok OC_Control /\ v4opt_class_from 2 = Ok OC_Debugging /\
  (forall c, v4opt_class_from (v4opt_class_into c) = Ok c <->
     c = OC_Control \/ c = OC_Debugging \/ c = OC_Reserved 1 \/ c = OC_Reserved 3).
Proof.
  split.
  { intros n Hn. assert (C : n = 0 \/ n = 1 \/ n = 2 \/ n = 3) by lia.
    destruct C as [-> | [-> | [-> | ->]]]; eexists; split; reflexivity. }
  split.
  { intros n Hn. destruct n as [|p]; [lia|]. do 3 (destruct p; try lia; try reflexivity). }
  split; [reflexivity|]. split; [reflexivity|]. intros c. split.
  - destruct c as [| |n]; [tauto|tauto|]. cbn [v4opt_class_into]. intros H. right; right.
    destruct (N.ltb_spec n 4) as [Hn|Hn].
    + assert (C : n = 0 \/ n = 1 \/ n = 2 \/ n = 3) by lia.
      destruct C as [-> | [-> | [-> | ->]]]; try discriminate H; auto.
    + destruct n as [|p]; [lia|]. exfalso. clear -H Hn. do 3 (destruct p; try lia; try discriminate H).
  - intros [-> | [-> | [-> | ->]]]; reflexivity.
Qed.
Example c42_example : ip_protocol_from 17 = IP_Udp /\ ip_protocol_into IP_Udp = 17 /\ ip_protocol_from 143 = IP_Unknown 143 /\
  ip_protocol_into (IP_Unknown 17) = 17 /\ ether_protocol_from 0x0800 = ET_Ipv4 /\ icmp_kind_into K_EchoRequest = 8 /\
  v4opt_class_from 3 = Ok (OC_Reserved 3) /\ v4opt_class_from (v4opt_class_into (OC_Reserved 2)) = Ok OC_Debugging.
Proof. repeat split. Qed.
