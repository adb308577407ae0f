(** * WitnessProofs: for every theorem with hypotheses, concrete cases that meet them.
    One conjunct per combination of hypotheses in the theorem; each repeats the hypotheses
    as they stand in the theorem.  The values are in Witness.v. *)
From Coq Require Import String.
From Verif Require Import Base Enums Buffer Ether Ipv4 Ip Udp Tcp Icmp Builders Generic Debug Mutable Sizes Spec SpecCalls SpecNumbers SpecBuild SpecUser SpecMut SpecEdit SpecUnchecked SpecCopy SpecFrame SpecOrder SpecSize SpecOptions SpecVia SpecProfile SpecShift SpecOwnIp SpecGeneric SpecHooks SpecReference SpecSucceed SpecCorrupt SpecForward SpecIncremental SpecMachine SpecMachineIcmp SpecReceiver SpecRoute SpecNat SpecHost SpecDump SpecFind SpecBlame SpecTrace SpecShake SpecStream SpecBlock SpecMemory SpecStore Memory Witness.
From Verif Require GenericProofs DumpProofs TraceProofs.

Lemma bytes_ok b : forallb (fun x => x <? 256) b = true -> is_bytes b.
Proof. intros H. apply Forall_forall. intros x Hx. apply N.ltb_lt. exact (proj1 (forallb_forall _ _) H x Hx). Qed.
Lemma burst_ok j b b' : (len b' =? len b) && forallb (fun i => let n := N.of_nat i in (j <=? n) && (n <? j + 16) || Bool.eqb (msg_bit b' n) (msg_bit b n)) (seq 0 (8 * length b)) = true -> burst j b b'.
Proof.
  intros H. apply andb_prop in H. destruct H as [Hl H]. apply N.eqb_eq in Hl. split; [ exact Hl |]. intros n Hn.
  destruct (N.ltb_spec n (8 * len b)) as [L | L].
  - assert (In (N.to_nat n) (seq 0 (8 * length b))) as Hi by (apply in_seq; unfold len in L; lia).
    pose proof (proj1 (forallb_forall _ _) H _ Hi) as HH. cbv beta zeta in HH. rewrite N2Nat.id in HH.
    destruct ((j <=? n) && (n <? j + 16)) eqn:Ej.
    { apply andb_prop in Ej. destruct Ej as [E1 E2]. apply N.leb_le in E1. apply N.ltb_lt in E2. lia. }
    apply Bool.eqb_prop. exact HH.
  - assert (len b <= n / 8) by (apply N.div_le_lower_bound; lia).
    unfold msg_bit, nthN. rewrite !nth_overflow by (unfold len in *; lia). reflexivity.
Qed.

Lemma refused_ok {A B} (r : res A) (f : A -> res B) e : match r with Ok b => f b = Err e | _ => False end -> exists b, r = Ok b /\ f b = Err e.
Proof. destruct r as [b|x|]; [intros H; exists b; split; [reflexivity|exact H] | intros [] | intros []]. Qed.
(** Checking a closed hypothesis by computation. *)
Ltac head_of t := lazymatch t with ?f _ => head_of f | _ => t end.
Ltac chk :=
  lazymatch goal with
  | |- is_bytes _ => apply bytes_ok; vm_compute; reflexivity
  | |- rust_slice _ => split; chk
  | |- _ /\ _ => split; chk
  | |- _ \/ _ => first [ left; chk | right; chk ]
  | |- @eq _ _ _ => vm_compute; reflexivity
  | |- _ <= _ => vm_compute; discriminate
  | |- _ < _ => vm_compute; reflexivity
  | |- True => exact I
  | |- typed _ _ _ => vm_compute; repeat (eexists; split; [ reflexivity | ]); reflexivity
  | |- fresh_buffer _ _ _ => first [ apply on_dynamic; chk | apply on_slice; chk ]
  | |- burst _ _ _ => apply burst_ok; vm_compute; reflexivity
  | |- Forall _ (_ :: _) => apply Forall_cons; chk
  | |- Forall _ [] => apply Forall_nil
  | |- Forall ?P ?l => let l' := eval vm_compute in l in cut (Forall P l'); [ exact (fun x => x) | chk ]
  | |- Exists _ (_ :: _) => first [ apply Exists_cons_hd; chk | apply Exists_cons_tl; chk ]
  | |- Exists ?P ?l => let l' := eval vm_compute in l in cut (Exists P l'); [ exact (fun x => x) | chk ]
  | |- In _ _ => solve [ vm_compute; repeat (first [ left; reflexivity | right ]) ]
  | |- Permutation _ _ => first [ apply Permutation_refl | apply Permutation_rev ]
  | |- _ <> _ => solve [ vm_compute; intro; discriminate ]
  | |- ~ Exists ?P ?l => let l' := eval vm_compute in l in change (~ Exists P l'); let H := fresh in intro H; repeat match type of H with Exists _ (_ :: _) => inversion_clear H as [? ? H' | ? ? H']; [ solve [ elim H' ] | rename H' into H ] end; inversion H
  | |- ~ _ => solve [ vm_compute; intro; discriminate | vm_compute; tauto | vm_compute; intuition discriminate ]
  | |- let _ := _ in _ => intro; chk
  | |- exists _, _ => eexists; chk
  | |- match ?x with _ => _ end => let x' := eval vm_compute in x in change x with x'; cbv beta iota zeta; chk
  | |- (fun _ => _) _ => cbv beta; chk
  | |- block_ok _ (CallThen _ _) => apply call_ok; [ chk | let r := fresh in let H := fresh in intros r H; destruct r; first [ elim H; reflexivity | clear H; chk ] ]
  | |- block_ok _ (w_block _ _ _) => unfold w_block; chk
  | |- block_ok _ ?k => first [ solve [constructor] | unfold k; chk ]
  | |- allowed ?P ?f ?l ?s => let l' := eval vm_compute in l in let s' := eval vm_compute in s in cut (allowed P f l' s'); [ exact (fun x => x) | cbn [allowed]; chk ]
  | |- ?A -> ?B => intros _; chk
  | |- forall _, _ => solve [vm_compute; intuition discriminate | intros; intro; discriminate | intros; vm_compute; intro; discriminate ]
  | |- NoDup ?l => vm_compute; repeat (constructor; [ solve [simpl; intuition discriminate] | ]); constructor
  | |- ?G => let h := head_of G in (unfold h at 1); cbv beta iota; chk
  end.

(** The results a hypothesis names are computed. *)
Ltac meet :=
  lazymatch goal with
  | |- _ /\ _ => split; [ meet | meet ]
  | |- exists _, _ => eexists; meet
  | |- let _ := _ in _ => cbv zeta; meet
  | |- match ?x with _ => _ end => let x' := eval vm_compute in x in change x with x'; cbv beta iota zeta; meet
  | |- ?l = ?r => first [ (let l' := eval vm_compute in l in unify l' r; vm_compute; reflexivity) | solve [ chk ] ]
  | |- _ => solve [ chk ]
  end.

(** C01: the hypotheses of C01_ether_new can be met. *)
Example c01_ether_new_meets :
  (exists (b : bytes), 14 <= len b) /\
  (exists (b : bytes), len b < 14).
Proof.
  split. { exists w_v4_udp. meet. }
  exists w_udp. meet.
Qed.
(** C02: the hypotheses of C02_v4_no_payload can be met. *)
Example c02_v4_no_payload_meets :
  (exists (b : bytes), len b < 20) /\
  (exists (b : bytes), let version := nthN b 0 / 16 in 20 <= len b /\ version <> 4) /\
  (exists (b : bytes), let version := nthN b 0 / 16 in let ihl := nthN b 0 mod 16 in 20 <= len b /\ version = 4 /\ len b < ihl * 4) /\
  (exists (b : bytes), let version := nthN b 0 / 16 in let ihl := nthN b 0 mod 16 in 20 <= len b /\ version = 4 /\ ihl * 4 <= len b).
Proof.
  split. { exists w_udp. meet. }
  split. { exists w_tcp. meet. }
  split. { exists w_v4_ihl15. meet. }
  exists w_v4_udp. meet.
Qed.
(** C02: the hypotheses of C02_v4_new can be met. *)
Example c02_v4_new_meets :
  (exists (b : bytes), len b < 20) /\
  (exists (b : bytes), let version := nthN b 0 / 16 in 20 <= len b /\ version <> 4) /\
  (exists (b : bytes), let version := nthN b 0 / 16 in let ihl := nthN b 0 mod 16 in let total := wire16 b 2 in 20 <= len b /\ version = 4 /\ (len b < ihl * 4 \/ len b < total)) /\
  (exists (b : bytes), let version := nthN b 0 / 16 in let ihl := nthN b 0 mod 16 in let total := wire16 b 2 in 20 <= len b /\ version = 4 /\ ihl * 4 <= len b /\ total <= len b).
Proof.
  split. { exists w_udp. meet. }
  split. { exists w_tcp. meet. }
  split. { exists w_v4_long. meet. }
  exists w_v4_udp. meet.
Qed.
(** C03: the hypotheses of C03_udp_no_payload can be met. *)
Example c03_udp_no_payload_meets :
  (exists (b : bytes), 8 <= len b) /\
  (exists (b : bytes), len b < 8).
Proof.
  split. { exists w_v4_udp. meet. }
  exists w_payload. meet.
Qed.
(** C03: the hypotheses of C03_udp_new can be met. *)
Example c03_udp_new_meets :
  (exists (b : bytes), 8 <= len b /\ wire16 b 4 <= len b) /\
  (exists (b : bytes), (len b < 8 \/ len b < wire16 b 4)).
Proof.
  split. { exists w_udp. meet. }
  exists w_v4_udp. meet.
Qed.
(** C04: the hypotheses of C04_tcp_new can be met. *)
Example c04_tcp_new_meets :
  (exists (b : bytes), let offset := nthN b 12 / 16 in 20 <= len b /\ offset * 4 <= len b) /\
  (exists (b : bytes), let offset := nthN b 12 / 16 in (len b < 20 \/ len b < offset * 4)).
Proof.
  split. { exists w_v4_udp. meet. }
  exists w_udp. meet.
Qed.
(** C05: the hypotheses of C05_icmp_new can be met. *)
Example c05_icmp_new_meets :
  (exists (b : bytes), 4 <= len b) /\
  (exists (b : bytes), len b < 4).
Proof.
  split. { exists w_v4_udp. meet. }
  exists w_odd. meet.
Qed.
(** C05: the hypotheses of C05_typed_parsers_disjoint can be met. *)
Example c05_typed_parsers_disjoint_meets :
  exists (i : nat) (j : nat) (f : bytes -> res bytes) (g : bytes -> res bytes) (b : bytes) (p : bytes) (q : bytes), let parsers := [echo_new; timestamp_new; information_new; parameter_problem_new; redirect_message_new; previous_new] in nth_error parsers i = Some f /\ nth_error parsers j = Some g /\ f b = Ok p /\ g b = Ok q.
Proof.
  exists 0%nat, 0%nat, echo_new, echo_new, w_echo, w_echo, w_echo. cbv zeta. repeat apply conj; vm_compute; reflexivity.
Qed.
(** C06: the hypotheses of C06_ip_new can be met. *)
Example c06_ip_new_meets :
  (exists (b : bytes), b = []) /\
  (exists (b : bytes), let version := nthN b 0 / 16 in b <> [] /\ version = 4) /\
  (exists (b : bytes), let version := nthN b 0 / 16 in b <> [] /\ version = 6) /\
  (exists (b : bytes), let version := nthN b 0 / 16 in b <> [] /\ version <> 4 /\ version <> 6).
Proof.
  split. { exists []. meet. }
  split. { exists w_v4_udp. meet. }
  split. { exists w_v6. meet. }
  exists w_udp. meet.
Qed.
(** C06: the hypotheses of C06_ip_no_payload can be met. *)
Example c06_ip_no_payload_meets :
  (exists (b : bytes), b = []) /\
  (exists (b : bytes), let version := nthN b 0 / 16 in b <> [] /\ version = 4) /\
  (exists (b : bytes), let version := nthN b 0 / 16 in b <> [] /\ version = 6) /\
  (exists (b : bytes), let version := nthN b 0 / 16 in b <> [] /\ version <> 4 /\ version <> 6).
Proof.
  split. { exists []. meet. }
  split. { exists w_v4_udp. meet. }
  split. { exists w_v6. meet. }
  exists w_udp. meet.
Qed.
(** C06: the hypotheses of C06_ip_unchecked can be met. *)
Example c06_ip_unchecked_meets :
  (exists (b : bytes), let version := nthN b 0 / 16 in (b = [] \/ (version <> 4 /\ version <> 6))) /\
  (exists (b : bytes), let version := nthN b 0 / 16 in b <> [] /\ version = 4) /\
  (exists (b : bytes), let version := nthN b 0 / 16 in b <> [] /\ version = 6).
Proof.
  split. { exists w_udp. meet. }
  split. { exists w_v4_udp. meet. }
  exists w_v6. meet.
Qed.
(** C06: the hypotheses of C06_v6_new can be met. *)
Example c06_v6_new_meets :
  (exists (b : list N), b = []) /\
  (exists (b : list N), b <> [] /\ nthN b 0 / 16 = 6) /\
  (exists (b : list N), b <> [] /\ nthN b 0 / 16 <> 6).
Proof.
  split. { exists []. meet. }
  split. { exists w_v6. meet. }
  exists w_v4_udp. meet.
Qed.
(** C07: the hypotheses of C07_ether can be met. *)
Example c07_ether_meets :
  exists (E : env) (b : bytes), rust_slice b /\ ether_new b = Ok b.
Proof.
  exists w_debug, w_v4_udp. meet.
Qed.
(** C07: the hypotheses of C07_v4 can be met. *)
Example c07_v4_meets :
  exists (b : bytes), v4_new b = Ok b.
Proof.
  exists w_v4_udp. meet.
Qed.
(** C07: the hypotheses of C07_v4_no_payload can be met. *)
Example c07_v4_no_payload_meets :
  (exists (b : bytes), v4_no_payload b = Ok b /\ wire16 b 2 <= len b) /\
  (exists (b : bytes), v4_no_payload b = Ok b /\ len b < wire16 b 2).
Proof.
  split. { exists w_v4_udp. meet. }
  exists w_v4_long. meet.
Qed.
(** C07: the hypotheses of C07_udp can be met. *)
Example c07_udp_meets :
  exists (b : bytes), udp_new b = Ok b.
Proof.
  exists w_udp. meet.
Qed.
(** C07: the hypotheses of C07_udp_no_payload can be met. *)
Example c07_udp_no_payload_meets :
  (exists (b : bytes), udp_no_payload b = Ok b /\ wire16 b 4 <= len b) /\
  (exists (b : bytes), udp_no_payload b = Ok b /\ len b < wire16 b 4).
Proof.
  split. { exists w_udp. meet. }
  exists w_v4_udp. meet.
Qed.
(** C07: the hypotheses of C07_tcp can be met. *)
Example c07_tcp_meets :
  exists (E : env) (b : bytes), rust_slice b /\ tcp_new b = Ok b.
Proof.
  exists w_debug, w_v4_udp. meet.
Qed.
(** C07: the hypotheses of C07_icmp can be met. *)
Example c07_icmp_meets :
  exists (E : env) (b : bytes), rust_slice b /\ icmp_new b = Ok b.
Proof.
  exists w_debug, w_v4_udp. meet.
Qed.
(** C07: the hypotheses of C07_echo can be met. *)
Example c07_echo_meets :
  exists (E : env) (b : bytes), rust_slice b /\ echo_new b = Ok b.
Proof.
  exists w_debug, w_echo. meet.
Qed.
(** C07: the hypotheses of C07_information can be met. *)
Example c07_information_meets :
  exists (b : bytes), information_new b = Ok b.
Proof.
  exists w_info. meet.
Qed.
(** C07: the hypotheses of C07_timestamp can be met. *)
Example c07_timestamp_meets :
  exists (b : bytes), timestamp_new b = Ok b.
Proof.
  exists w_ts. meet.
Qed.
(** C07: the hypotheses of C07_redirect_message can be met. *)
Example c07_redirect_message_meets :
  exists (b : bytes), redirect_message_new b = Ok b.
Proof.
  exists w_redirect. meet.
Qed.
(** C07: the hypotheses of C07_parameter_problem can be met. *)
Example c07_parameter_problem_meets :
  exists (b : bytes), parameter_problem_new b = Ok b.
Proof.
  exists w_problem. meet.
Qed.
(** C07: the hypotheses of C07_previous can be met. *)
Example c07_previous_meets :
  exists (b : bytes), previous_new b = Ok b.
Proof.
  exists w_unreachable. meet.
Qed.
(** C07: the hypotheses of C07_v6 can be met. *)
Example c07_v6_meets :
  exists (b : bytes), v6_new b = Ok b.
Proof.
  exists w_v6. meet.
Qed.
(** C07: the hypotheses of C07_embedded can be met. *)
Example c07_embedded_meets :
  exists (E : env) (b : bytes), rust_slice b /\ ((parameter_problem_new b = Ok b \/ redirect_message_new b = Ok b \/ previous_new b = Ok b)).
Proof.
  exists w_debug, w_unreachable. meet.
Qed.
(** C08: the hypotheses of C08_v4 can be met. *)
Example c08_v4_meets :
  (exists (b : bytes), is_bytes b /\ v4_no_payload b = Ok b /\ wire16 b 6 / 8192 mod 2 = 0) /\
  (exists (b : bytes), is_bytes b /\ v4_no_payload b = Ok b /\ wire16 b 6 / 8192 mod 2 = 1) /\
  (exists (b : bytes), is_bytes b /\ v4_no_payload b = Ok b /\ let ihl := nthN b 0 mod 16 in 5 <= ihl) /\
  (exists (b : bytes), is_bytes b /\ v4_no_payload b = Ok b /\ let ihl := nthN b 0 mod 16 in ihl < 5).
Proof.
  split. { exists w_v4_udp. meet. }
  split. { exists w_v4_mf. meet. }
  split. { exists w_v4_udp. meet. }
  exists w_v4_ihl2. meet.
Qed.
(** C08: the hypotheses of C08_ether can be met. *)
Example c08_ether_meets :
  exists (b : bytes), ether_new b = Ok b.
Proof.
  exists w_v4_udp. meet.
Qed.
(** C08: the hypotheses of C08_udp can be met. *)
Example c08_udp_meets :
  exists (b : bytes), udp_no_payload b = Ok b.
Proof.
  exists w_v4_udp. meet.
Qed.
(** C08: the hypotheses of C08_tcp can be met. *)
Example c08_tcp_meets :
  (exists (b : bytes), tcp_new b = Ok b /\ let offset := nthN b 12 / 16 in 5 <= offset) /\
  (exists (b : bytes), tcp_new b = Ok b /\ let offset := nthN b 12 / 16 in offset < 5).
Proof.
  split. { exists w_tcp. meet. }
  exists w_v4_udp. meet.
Qed.
(** C08: the hypotheses of C08_icmp can be met. *)
Example c08_icmp_meets :
  exists (b : bytes), icmp_new b = Ok b.
Proof.
  exists w_v4_udp. meet.
Qed.
(** C08: the hypotheses of C08_echo can be met. *)
Example c08_echo_meets :
  exists (b : bytes), echo_new b = Ok b.
Proof.
  exists w_echo. meet.
Qed.
(** C08: the hypotheses of C08_information can be met. *)
Example c08_information_meets :
  exists (b : bytes), information_new b = Ok b.
Proof.
  exists w_info. meet.
Qed.
(** C08: the hypotheses of C08_timestamp can be met. *)
Example c08_timestamp_meets :
  exists (b : bytes), timestamp_new b = Ok b.
Proof.
  exists w_ts. meet.
Qed.
(** C09: the hypotheses of C09_ether can be met. *)
Example c09_ether_meets :
  exists (f : ether_fields), ether_fields_ok f.
Proof.
  exists w_ether_fields. meet.
Qed.
(** C09: the hypotheses of C09_v4 can be met. *)
Example c09_v4_meets :
  exists (f : v4_fields) (rest : bytes), v4_fields_ok f /\ vf_version f = 4 /\ vf_ihl f * 4 <= 20 + len rest.
Proof.
  exists w_v4_fields_options, w_v4_udp. meet.
Qed.
(** C09: the hypotheses of C09_v4_parts can be met. *)
Example c09_v4_parts_meets :
  exists (f : v4_fields) (opts : bytes) (payload : bytes), v4_fields_ok f /\ vf_version f = 4 /\ vf_ihl f * 4 = 20 + len opts /\ vf_total f = 20 + len opts + len payload.
Proof.
  exists w_v4_fields_options, w_payload, w_payload. meet.
Qed.
(** C09: the hypotheses of C09_v4_layout_total can be met. *)
Example c09_v4_layout_total_meets :
  exists (b : bytes), is_bytes b /\ 20 <= len b.
Proof.
  exists w_v4_udp. meet.
Qed.
(** C09: the hypotheses of C09_udp can be met. *)
Example c09_udp_meets :
  exists (f : udp_fields) (payload : bytes), udp_fields_ok f /\ uf_length f = 8 + len payload.
Proof.
  exists w_udp_fields, w_payload. meet.
Qed.
(** C09: the hypotheses of C09_udp_layout_total can be met. *)
Example c09_udp_layout_total_meets :
  exists (b : bytes), is_bytes b /\ 8 <= len b.
Proof.
  exists w_v4_udp. meet.
Qed.
(** C09: the hypotheses of C09_tcp can be met. *)
Example c09_tcp_meets :
  exists (f : tcp_fields) (opts : bytes), tcp_fields_ok f /\ tf_offset f * 4 = 20 + len opts.
Proof.
  exists w_tcp_fields_options, w_payload. meet.
Qed.
(** C09: the hypotheses of C09_tcp_layout_total can be met. *)
Example c09_tcp_layout_total_meets :
  exists (b : bytes), is_bytes b /\ 20 <= len b.
Proof.
  exists w_v4_udp. meet.
Qed.
(** C09: the hypotheses of C09_icmp can be met. *)
Example c09_icmp_meets :
  exists (f : icmp_fields), icmp_fields_ok f.
Proof.
  exists w_echo_fields. meet.
Qed.
(** C09: the hypotheses of C09_echo can be met. *)
Example c09_echo_meets :
  exists (f : icmp_fields), icmp_fields_ok f /\ (cf_type f = 8 \/ cf_type f = 0).
Proof.
  exists w_echo_fields. meet.
Qed.
(** C09: the hypotheses of C09_information can be met. *)
Example c09_information_meets :
  exists (f : icmp_fields), icmp_fields_ok f /\ (cf_type f = 15 \/ cf_type f = 16).
Proof.
  exists w_info_fields. meet.
Qed.
(** C09: the hypotheses of C09_timestamp can be met. *)
Example c09_timestamp_meets :
  exists (f : icmp_fields), icmp_fields_ok f /\ (cf_type f = 13 \/ cf_type f = 14).
Proof.
  exists w_ts_fields. meet.
Qed.
(** C10: the hypotheses of C10_ether_set_destination can be met. *)
Example c10_ether_set_destination_meets :
  exists (b : bytes), ether_new b = Ok b.
Proof.
  exists w_v4_udp. meet.
Qed.
(** C10: the hypotheses of C10_ether_set_source can be met. *)
Example c10_ether_set_source_meets :
  exists (b : bytes), ether_new b = Ok b.
Proof.
  exists w_v4_udp. meet.
Qed.
(** C10: the hypotheses of C10_ether_set_protocol can be met. *)
Example c10_ether_set_protocol_meets :
  exists (b : bytes), ether_new b = Ok b.
Proof.
  exists w_v4_udp. meet.
Qed.
(** C11: the hypotheses of C11_udp_set_source can be met. *)
Example c11_udp_set_source_meets :
  exists (b : bytes), udp_no_payload b = Ok b.
Proof.
  exists w_v4_udp. meet.
Qed.
(** C11: the hypotheses of C11_udp_set_destination can be met. *)
Example c11_udp_set_destination_meets :
  exists (b : bytes), udp_no_payload b = Ok b.
Proof.
  exists w_v4_udp. meet.
Qed.
(** C11: the hypotheses of C11_udp_set_checksum can be met. *)
Example c11_udp_set_checksum_meets :
  exists (b : bytes), udp_no_payload b = Ok b.
Proof.
  exists w_v4_udp. meet.
Qed.
(** C12: the hypotheses of C12_tcp_setters can be met. *)
Example c12_tcp_setters_meets :
  exists (b : bytes), tcp_new b = Ok b /\ 5 <= nthN b 12 / 16.
Proof.
  exists w_tcp. meet.
Qed.
(** C12: the hypotheses of C12_tcp_short_header can be met. *)
Example c12_tcp_short_header_meets :
  exists (b : bytes), tcp_new b = Ok b.
Proof.
  exists w_v4_udp. meet.
Qed.
(** C13: the hypotheses of C13_v4_set_dscp can be met. *)
Example c13_v4_set_dscp_meets :
  exists (b : bytes) (v : N), is_bytes b /\ v4_no_payload b = Ok b /\ v <= 63.
Proof.
  exists w_v4_udp, 7. meet.
Qed.
(** C13: the hypotheses of C13_v4_setters can be met. *)
Example c13_v4_setters_meets :
  exists (b : bytes), v4_no_payload b = Ok b /\ 5 <= nthN b 0 mod 16.
Proof.
  exists w_v4_udp. meet.
Qed.
(** C13: the hypotheses of C13_v4_short_header can be met. *)
Example c13_v4_short_header_meets :
  exists (b : bytes), v4_no_payload b = Ok b.
Proof.
  exists w_v4_udp. meet.
Qed.
(** C14: the hypotheses of C14_v4_set_ecn can be met. *)
Example c14_v4_set_ecn_meets :
  exists (b : bytes) (v : N), is_bytes b /\ 2 <= len b /\ v <= 3.
Proof.
  exists w_v4_udp, 2. meet.
Qed.
(** C15: the hypotheses of C15_v4_set_flags can be met. *)
Example c15_v4_set_flags_meets :
  exists (b : bytes) (v : N), is_bytes b /\ v4_no_payload b = Ok b /\ 2 <= nthN b 0 mod 16 /\ In v [0; 2; 4; 6].
Proof.
  exists w_v4_udp, 4. meet.
Qed.
(** C15: the hypotheses of C15_v4_set_offset can be met. *)
Example c15_v4_set_offset_meets :
  exists (b : bytes) (v : N), is_bytes b /\ v4_no_payload b = Ok b /\ 2 <= nthN b 0 mod 16 /\ u16 v.
Proof.
  exists w_v4_udp, 7. meet.
Qed.
(** C16: the hypotheses of C16_tcp_set_flags can be met. *)
Example c16_tcp_set_flags_meets :
  (exists (b : bytes) (v : N), is_bytes b /\ tcp_new b = Ok b /\ v < 512 /\ 4 <= nthN b 12 / 16) /\
  (exists (b : bytes) (v : N), is_bytes b /\ tcp_new b = Ok b /\ v < 512 /\ nthN b 12 / 16 < 4).
Proof.
  split. { exists w_tcp, 7. meet. }
  exists w_v4_udp, 7. meet.
Qed.
(** C17: the hypotheses of C17_echo_setters can be met. *)
Example c17_echo_setters_meets :
  exists (b : bytes), echo_new b = Ok b.
Proof.
  exists w_echo. meet.
Qed.
(** C17: the hypotheses of C17_information_setters can be met. *)
Example c17_information_setters_meets :
  exists (b : bytes), information_new b = Ok b.
Proof.
  exists w_info. meet.
Qed.
(** C17: the hypotheses of C17_timestamp_setters can be met. *)
Example c17_timestamp_setters_meets :
  exists (b : bytes), timestamp_new b = Ok b.
Proof.
  exists w_ts. meet.
Qed.
(** C18: the hypotheses of C18_echo_make can be met. *)
Example c18_echo_make_meets :
  exists (b : bytes), echo_new b = Ok b.
Proof.
  exists w_echo. meet.
Qed.
(** C18: the hypotheses of C18_timestamp_make can be met. *)
Example c18_timestamp_make_meets :
  exists (b : bytes) (f : mut), timestamp_new b = Ok b /\ (f = timestamp_make_request \/ f = timestamp_make_reply).
Proof.
  exists w_ts, timestamp_make_reply. meet.
Qed.
(** C18: the hypotheses of C18_information_make can be met. *)
Example c18_information_make_meets :
  exists (b : bytes) (f : mut), information_new b = Ok b /\ (f = information_make_request \/ f = information_make_reply).
Proof.
  exists w_info, timestamp_make_reply. meet.
Qed.
(** C19: the hypotheses of C19_rejects can be met. *)
Example c19_rejects_meets :
  (exists (v : N), 63 < v) /\
  (exists (b : bytes) (v : N), v <= 63 /\ 2 <= len b) /\
  (exists (v : N), 3 < v) /\
  (exists (b : bytes) (v : N), v <= 3 /\ 2 <= len b) /\
  (exists (b : bytes) (v : N), len b < 2 /\ v <= 63) /\
  (exists (b : bytes) (v : N), len b < 2 /\ v <= 3).
Proof.
  split. { exists 443. meet. }
  split. { exists w_v4_udp, 7. meet. }
  split. { exists 7. meet. }
  split. { exists w_v4_udp, 2. meet. }
  split. { exists [], 7. meet. }
  exists [], 2. meet.
Qed.
(** C20: the hypotheses of C20_v4_checksum can be met. *)
Example c20_v4_checksum_meets :
  exists (b : bytes), is_bytes b.
Proof.
  exists w_v4_udp. meet.
Qed.
(** C20: the hypotheses of C20_v4_checksum_rfc can be met. *)
Example c20_v4_checksum_rfc_meets :
  exists (b : bytes), is_bytes b /\ len b mod 2 = 0 /\ word_sum (zero_field 10 b) <> 0.
Proof.
  exists w_v4_udp. meet.
Qed.
(** C20: the hypotheses of C20_v4_checksum_zero can be met. *)
Example c20_v4_checksum_zero_meets :
  exists (b : bytes), is_bytes b /\ len b mod 2 = 0 /\ word_sum (zero_field 10 b) = 0.
Proof.
  exists (zeros 100). meet.
Qed.
(** C20: the hypotheses of C20_v4_is_valid can be met. *)
Example c20_v4_is_valid_meets :
  exists (b : bytes), is_bytes b /\ v4_no_payload b = Ok b /\ 1 <= nthN b 0 mod 16.
Proof.
  exists w_v4_udp. meet.
Qed.
(** C20: the hypotheses of C20_v4_is_valid_receiver can be met. *)
Example c20_v4_is_valid_receiver_meets :
  exists (b : bytes), is_bytes b /\ v4_no_payload b = Ok b /\ 3 <= nthN b 0 mod 16.
Proof.
  exists w_v4_udp. meet.
Qed.
(** C20: the hypotheses of C20_v4_update_checksum can be met. *)
Example c20_v4_update_checksum_meets :
  exists (b : bytes), is_bytes b /\ v4_no_payload b = Ok b /\ 3 <= nthN b 0 mod 16.
Proof.
  exists w_v4_udp. meet.
Qed.
(** C20: the hypotheses of C20_v4_update_short can be met. *)
Example c20_v4_update_short_meets :
  exists (b : bytes), is_bytes b /\ v4_no_payload b = Ok b /\ nthN b 0 mod 16 < 3.
Proof.
  exists w_v4_ihl2. meet.
Qed.
(** C21: the hypotheses of C21_udp_checksum can be met. *)
Example c21_udp_checksum_meets :
  exists (E : env) (p : bytes) (b : bytes), is_bytes p /\ is_bytes b /\ 20 <= len p /\ (len b mod 2 = 0 \/ cursor_eof E = EofKeep).
Proof.
  exists w_debug, w_v4_udp, w_v4_udp. meet.
Qed.
(** C21: the hypotheses of C21_udp_checksum_odd can be met. *)
Example c21_udp_checksum_odd_meets :
  exists (E : env) (p : bytes) (b : bytes), is_bytes p /\ is_bytes b /\ 20 <= len p /\ len b mod 2 = 1 /\ cursor_eof E = EofSeek.
Proof.
  exists w_release, w_v4_udp, w_odd. meet.
Qed.
(** C21: the hypotheses of C21_udp_checksum_odd_wrong can be met. *)
Example c21_udp_checksum_odd_wrong_meets :
  exists (E : env) (p : bytes) (b : bytes), is_bytes p /\ is_bytes b /\ 20 <= len p /\ 8 <= len b /\ len b mod 2 = 1 /\ cursor_eof E = EofSeek /\ nthN b (len b - 1) <> 0.
Proof.
  exists w_release, w_v4_udp, w_udp_odd. meet.
Qed.
(** C21: the hypotheses of C21_udp_is_valid can be met. *)
Example c21_udp_is_valid_meets :
  exists (E : env) (p : bytes) (b : bytes), is_bytes p /\ is_bytes b /\ 20 <= len p /\ 8 <= len b /\ (len b mod 2 = 0 \/ cursor_eof E = EofKeep).
Proof.
  exists w_debug, w_v4_udp, w_v4_udp. meet.
Qed.
(** C21: the hypotheses of C21_udp_is_valid_receiver can be met. *)
Example c21_udp_is_valid_receiver_meets :
  exists (E : env) (p : bytes) (b : bytes), is_bytes p /\ is_bytes b /\ 20 <= len p /\ 8 <= len b /\ (len b mod 2 = 0 \/ cursor_eof E = EofKeep).
Proof.
  exists w_debug, w_v4_udp, w_v4_udp. meet.
Qed.
(** C21: the hypotheses of C21_udp_update_checksum can be met. *)
Example c21_udp_update_checksum_meets :
  exists (p : bytes) (b : bytes), is_bytes p /\ is_bytes b /\ 20 <= len p /\ 8 <= len b.
Proof.
  exists w_v4_udp, w_v4_udp. meet.
Qed.
(** C21: the hypotheses of C21_udp_trailing can be met. *)
Example c21_udp_trailing_meets :
  exists (E : env) (p : bytes) (datagram : bytes) (trailing : bytes), is_bytes p /\ is_bytes datagram /\ is_bytes trailing /\ 20 <= len p /\ 8 <= len datagram /\ len datagram mod 2 = 0 /\ len datagram + len trailing < 65536 /\ (len trailing mod 2 = 0 \/ cursor_eof E = EofKeep) /\ udp_is_valid E (V4 p) (datagram ++ trailing) = Ok true.
Proof.
  exists w_debug, w_v4_udp, w_udp, []. meet.
Qed.
(** C22: the hypotheses of C22_tcp_checksum can be met. *)
Example c22_tcp_checksum_meets :
  exists (E : env) (p : bytes) (b : bytes), is_bytes p /\ is_bytes b /\ 20 <= len p /\ len b <= 131065 /\ (len b mod 2 = 0 \/ cursor_eof E = EofKeep).
Proof.
  exists w_debug, w_v4_udp, w_v4_udp. meet.
Qed.
(** C22: the hypotheses of C22_tcp_checksum_odd can be met. *)
Example c22_tcp_checksum_odd_meets :
  exists (E : env) (p : bytes) (b : bytes), is_bytes p /\ is_bytes b /\ 20 <= len p /\ len b <= 131065 /\ len b mod 2 = 1 /\ cursor_eof E = EofSeek.
Proof.
  exists w_release, w_v4_udp, w_odd. meet.
Qed.
(** C22: the hypotheses of C22_tcp_is_valid can be met. *)
Example c22_tcp_is_valid_meets :
  exists (E : env) (p : bytes) (b : bytes), is_bytes p /\ is_bytes b /\ 20 <= len p /\ 18 <= len b <= 131065 /\ (len b mod 2 = 0 \/ cursor_eof E = EofKeep).
Proof.
  exists w_debug, w_v4_udp, w_v4_udp. meet.
Qed.
(** C22: the hypotheses of C22_tcp_is_valid_receiver can be met. *)
Example c22_tcp_is_valid_receiver_meets :
  exists (E : env) (p : bytes) (b : bytes), is_bytes p /\ is_bytes b /\ 20 <= len p /\ 18 <= len b <= 131065 /\ (len b mod 2 = 0 \/ cursor_eof E = EofKeep).
Proof.
  exists w_debug, w_v4_udp, w_v4_udp. meet.
Qed.
(** C22: the hypotheses of C22_tcp_update_checksum can be met. *)
Example c22_tcp_update_checksum_meets :
  exists (E : env) (p : bytes) (b : bytes), is_bytes p /\ is_bytes b /\ 20 <= len p /\ len b <= 131065 /\ (len b mod 2 = 0 \/ cursor_eof E = EofKeep) /\ tcp_new b = Ok b /\ 5 <= nthN b 12 / 16.
Proof.
  exists w_debug, w_v4_udp, w_tcp. meet.
Qed.
(** C23: the hypotheses of C23_icmp_checksum can be met. *)
Example c23_icmp_checksum_meets :
  exists (b : bytes), is_bytes b.
Proof.
  exists w_v4_udp. meet.
Qed.
(** C23: the hypotheses of C23_icmp_checksum_rfc can be met. *)
Example c23_icmp_checksum_rfc_meets :
  exists (b : bytes), is_bytes b /\ len b mod 2 = 0 /\ word_sum (zero_field 2 b) <> 0.
Proof.
  exists w_v4_udp. meet.
Qed.
(** C23: the hypotheses of C23_icmp_odd_ignored can be met. *)
Example c23_icmp_odd_ignored_meets :
  exists (b : list N) (x : N), is_bytes (b ++ [x]) /\ len b mod 2 = 0.
Proof.
  exists w_v4_udp, 7. meet.
Qed.
(** C23: the hypotheses of C23_icmp_odd_wrong can be met. *)
Example c23_icmp_odd_wrong_meets :
  exists (b : list N) (x : N), is_bytes (b ++ [x]) /\ len b mod 2 = 0 /\ 4 <= len b /\ x <> 0.
Proof.
  exists w_v4_udp, 7. meet.
Qed.
(** C23: the hypotheses of C23_icmp_zero can be met. *)
Example c23_icmp_zero_meets :
  exists (b : bytes), is_bytes b /\ word_sum (zero_field 2 b) = 0.
Proof.
  exists (zeros 100). meet.
Qed.
(** C23: the hypotheses of C23_icmp_is_valid can be met. *)
Example c23_icmp_is_valid_meets :
  exists (b : bytes), is_bytes b /\ icmp_new b = Ok b /\ len b mod 2 = 0 /\ word_sum (zero_field 2 b) <> 0.
Proof.
  exists w_v4_udp. meet.
Qed.
(** C24: the hypotheses of C24_v4 can be met. *)
Example c24_v4_meets :
  exists (E : env) (b : bytes) (i : N) (v : N), is_bytes b /\ v4_no_payload b = Ok b /\ v4_is_valid E b = Ok true /\ i < nthN b 0 mod 16 * 4 /\ u8 v /\ v <> nthN b i /\ ((i = 0 -> v mod 16 = nthN b 0 mod 16)).
Proof.
  exists w_debug, w_v4_udp, 7, 5. meet.
Qed.
(** C24: the hypotheses of C24_udp can be met. *)
Example c24_udp_meets :
  exists (E : env) (p : bytes) (b : bytes) (i : N) (v : N), is_bytes p /\ is_bytes b /\ 20 <= len p /\ 8 <= len b /\ (len b mod 2 = 0 \/ cursor_eof E = EofKeep) /\ udp_is_valid E (V4 p) b = Ok true /\ i < len b /\ u8 v /\ v <> nthN b i.
Proof.
  exists w_debug, w_v4_udp, w_udp, 7, 7. meet.
Qed.
(** C24: the hypotheses of C24_tcp can be met. *)
Example c24_tcp_meets :
  exists (E : env) (p : bytes) (b : bytes) (i : N) (v : N), is_bytes p /\ is_bytes b /\ 20 <= len p /\ 18 <= len b <= 131065 /\ (len b mod 2 = 0 \/ cursor_eof E = EofKeep) /\ tcp_is_valid E (V4 p) b = Ok true /\ i < len b /\ u8 v /\ v <> nthN b i.
Proof.
  exists w_debug, w_v4_udp, w_tcp, 7, 7. meet.
Qed.
(** C24: the hypotheses of C24_udp_parent can be met. *)
Example c24_udp_parent_meets :
  exists (E : env) (p : bytes) (b : bytes) (i : N) (v : N), is_bytes p /\ is_bytes b /\ 20 <= len p /\ 8 <= len b /\ (len b mod 2 = 0 \/ cursor_eof E = EofKeep) /\ udp_is_valid E (V4 p) b = Ok true /\ 12 <= i < 20 /\ u8 v /\ v <> nthN p i.
Proof.
  exists w_debug, w_v4_udp, w_udp, 12, 7. meet.
Qed.
(** C24: the hypotheses of C24_tcp_parent can be met. *)
Example c24_tcp_parent_meets :
  exists (E : env) (p : bytes) (b : bytes) (i : N) (v : N), is_bytes p /\ is_bytes b /\ 20 <= len p /\ 18 <= len b <= 131065 /\ (len b mod 2 = 0 \/ cursor_eof E = EofKeep) /\ tcp_is_valid E (V4 p) b = Ok true /\ 12 <= i < 20 /\ u8 v /\ v <> nthN p i.
Proof.
  exists w_debug, w_v4_udp, w_tcp, 12, 7. meet.
Qed.
(** C24: the hypotheses of C24_icmp can be met. *)
Example c24_icmp_meets :
  exists (E : env) (b : bytes) (i : N) (v : N), is_bytes b /\ icmp_new b = Ok b /\ len b mod 2 = 0 /\ icmp_is_valid E b = Ok true /\ i < len b /\ u8 v /\ v <> nthN b i.
Proof.
  exists w_debug, w_echo, 7, 7. meet.
Qed.
(** C24: the hypotheses of C24_icmp_odd_refuted can be met. *)
Example c24_icmp_odd_refuted_meets :
  exists (b : bytes) (x : N) (y : N), is_bytes b /\ u8 x /\ u8 y /\ icmp_new b = Ok b /\ len b mod 2 = 0.
Proof.
  exists w_v4_udp, 7, 7. meet.
Qed.
(** C24: the hypotheses of C24_udp_odd_refuted can be met. *)
Example c24_udp_odd_refuted_meets :
  exists (E : env) (p : bytes) (b : bytes) (x : N) (y : N), cursor_eof E = EofSeek /\ is_bytes p /\ 20 <= len p /\ is_bytes b /\ u8 x /\ u8 y /\ 8 <= len b /\ len b mod 2 = 0.
Proof.
  exists w_release, w_v4_udp, w_v4_udp, 7, 7. meet.
Qed.
(** C25: the hypotheses of C25_v4 can be met. *)
Example c25_v4_meets :
  exists (ops : list v4_setter) (b : bytes), is_bytes b /\ v4_no_payload b = Ok b /\ 5 <= nthN b 0 mod 16 /\ Forall v4_setter_ok ops.
Proof.
  exists w_v4_setters, w_v4_udp. meet.
Qed.
(** C25: the hypotheses of C25_udp can be met. *)
Example c25_udp_meets :
  exists (p : bytes) (ops : list udp_setter) (b : bytes), is_bytes p /\ is_bytes b /\ 20 <= len p /\ udp_no_payload b = Ok b /\ Forall udp_setter_ok ops.
Proof.
  exists w_v4_udp, w_udp_setters, w_v4_udp. meet.
Qed.
(** C25: the hypotheses of C25_tcp can be met. *)
Example c25_tcp_meets :
  exists (E : env) (p : bytes) (ops : list tcp_setter) (b : bytes), is_bytes p /\ is_bytes b /\ 20 <= len p /\ len b <= 131065 /\ (len b mod 2 = 0 \/ cursor_eof E = EofKeep) /\ tcp_new b = Ok b /\ 5 <= nthN b 12 / 16 /\ Forall (fun s => tcp_setter_ok s /\ ~ tcp_is_flags s) ops.
Proof.
  exists w_debug, w_v4_udp, w_tcp_setters, w_tcp. meet.
Qed.
(** C25: the hypotheses of C25_echo can be met. *)
Example c25_echo_meets :
  exists (E : env) (ops : list echo_setter) (b : bytes), rust_slice b /\ echo_new b = Ok b /\ Forall echo_setter_ok ops.
Proof.
  exists w_debug, w_echo_setters, w_echo. meet.
Qed.
(** C25: the hypotheses of C25_information can be met. *)
Example c25_information_meets :
  exists (ops : list information_setter) (b : bytes), is_bytes b /\ information_new b = Ok b /\ Forall information_setter_ok ops.
Proof.
  exists w_info_setters, w_info. meet.
Qed.
(** C25: the hypotheses of C25_timestamp can be met. *)
Example c25_timestamp_meets :
  exists (ops : list timestamp_setter) (b : bytes), is_bytes b /\ timestamp_new b = Ok b /\ Forall timestamp_setter_ok ops.
Proof.
  exists w_ts_setters, w_ts. meet.
Qed.
(** C25: the hypotheses of C25_information_trailing can be met. *)
Example c25_information_trailing_meets :
  exists (ops : list information_setter) (b : bytes), is_bytes b /\ information_new b = Ok b /\ Forall information_setter_ok ops.
Proof.
  exists w_info_setters, w_info. meet.
Qed.
(** C25: the hypotheses of C25_timestamp_trailing can be met. *)
Example c25_timestamp_trailing_meets :
  exists (ops : list timestamp_setter) (b : bytes), is_bytes b /\ timestamp_new b = Ok b /\ Forall timestamp_setter_ok ops.
Proof.
  exists w_ts_setters, w_ts. meet.
Qed.
(** C26: the hypotheses of C26_tcp_guard_flags can be met. *)
Example c26_tcp_guard_flags_meets :
  exists (ops : list tcp_setter) (b : bytes), is_bytes b /\ tcp_new b = Ok b /\ Forall tcp_setter_ok ops /\ Exists tcp_is_flags ops.
Proof.
  exists w_tcp_setters_flags, w_tcp. meet.
Qed.
(** C27: the hypotheses of C27_tcp can be met. *)
Example c27_tcp_meets :
  exists (f : tcp_fields) (os : list opt) (t : list N), tcp_fields_ok f /\ is_bytes (opts_wire os ++ t) /\ Forall tcp_opt_ok os /\ opt_end t /\ tf_offset f * 4 = 20 + len (opts_wire os ++ t).
Proof.
  exists w_tcp_fields_options, [Opt 7 [9; 9]], []. meet.
Qed.
(** C27: the hypotheses of C27_v4 can be met. *)
Example c27_v4_meets :
  exists (f : v4_fields) (os : list opt) (t : list N) (payload : bytes), v4_fields_ok f /\ vf_version f = 4 /\ is_bytes (opts_wire os ++ t) /\ Forall v4_opt_ok os /\ opt_end t /\ vf_ihl f * 4 = 20 + len (opts_wire os ++ t) /\ vf_total f = 20 + len (opts_wire os ++ t) + len payload.
Proof.
  exists w_v4_fields_options, [Opt 7 [9; 9]], [], w_payload. meet.
Qed.
(** C28: the hypotheses of C28_tcp_next can be met. *)
Example c28_tcp_next_meets :
  (exists (b : bytes), is_bytes b /\ b = []) /\
  (exists (b : bytes) (k : N) (r : list N), is_bytes b /\ b = k :: r /\ k = 0) /\
  (exists (b : bytes) (k : N) (r : list N), is_bytes b /\ b = k :: r /\ k = 1) /\
  (exists (b : bytes) (k : N) (r : list N), is_bytes b /\ b = k :: r /\ 2 <= k /\ r = []) /\
  (exists (b : bytes) (k : N) (r : list N) (l : N) (r' : list N), is_bytes b /\ b = k :: r /\ 2 <= k /\ r = l :: r' /\ len b < l) /\
  (exists (b : bytes) (k : N) (r : list N) (l : N) (r' : list N), is_bytes b /\ b = k :: r /\ 2 <= k /\ r = l :: r' /\ l = 0) /\
  (exists (b : bytes) (k : N) (r : list N) (l : N) (r' : list N), is_bytes b /\ b = k :: r /\ 2 <= k /\ r = l :: r' /\ l = 1) /\
  (exists (b : bytes) (k : N) (r : list N) (l : N) (r' : list N), is_bytes b /\ b = k :: r /\ 2 <= k /\ r = l :: r' /\ 2 <= l <= len b).
Proof.
  split. { exists []. meet. }
  split. { exists w_long, 0. eexists. meet. }
  split. { exists w_payload, 1, [2; 3; 4]. meet. }
  split. { exists [7], 7, []. meet. }
  split. { exists w_udp, 20, [233; 0; 53; 0; 12; 210; 175; 1; 2; 3; 4], 233, [0; 53; 0; 12; 210; 175; 1; 2; 3; 4]. meet. }
  split. { exists w_v4_udp, 69. eexists. exists 0. eexists. meet. }
  split. { exists w_unreachable, 3. eexists. exists 1. eexists. meet. }
  exists w_area4, 7, [7; 4; 10; 0; 0; 1; 1; 0], 7, [4; 10; 0; 0; 1; 1; 0]. meet.
Qed.
(** C28: the hypotheses of C28_tcp_error_forever can be met. *)
Example c28_tcp_error_forever_meets :
  exists (k : N) (l : N) (r : list N), is_bytes (k :: l :: r) /\ 2 <= k /\ 2 + len r < l.
Proof.
  exists 7, 7, w_payload. meet.
Qed.
(** C28: the hypotheses of C28_tcp_zero_length can be met. *)
Example c28_tcp_zero_length_meets :
  (exists (E : env) (k : N) (r : list N), is_bytes (k :: 0 :: r) /\ 2 <= k /\ overflow_checks E = true) /\
  (exists (E : env) (k : N) (r : list N), is_bytes (k :: 0 :: r) /\ 2 <= k /\ overflow_checks E = false).
Proof.
  split. { exists w_debug, 7, w_v4_udp. meet. }
  exists w_release, 7, w_v4_udp. meet.
Qed.
(** C28: the hypotheses of C28_tcp_run can be met. *)
Example c28_tcp_run_meets :
  exists (b : bytes), is_bytes b.
Proof.
  exists w_v4_udp. meet.
Qed.
(** C28: the hypotheses of C28_v4_next can be met. *)
Example c28_v4_next_meets :
  (exists (b : bytes), is_bytes b /\ b = []) /\
  (exists (b : bytes) (k : N) (r : list N), is_bytes b /\ b = k :: r /\ k mod 32 = 0) /\
  (exists (b : bytes) (k : N) (r : list N), is_bytes b /\ b = k :: r /\ k mod 32 = 1) /\
  (exists (b : bytes) (k : N) (r : list N), is_bytes b /\ b = k :: r /\ 2 <= k mod 32 /\ r = []) /\
  (exists (b : bytes) (k : N) (r : list N) (l : N) (r' : list N), is_bytes b /\ b = k :: r /\ 2 <= k mod 32 /\ r = l :: r' /\ len b < l) /\
  (exists (b : bytes) (k : N) (r : list N) (l : N) (r' : list N), is_bytes b /\ b = k :: r /\ 2 <= k mod 32 /\ r = l :: r' /\ l = 0) /\
  (exists (b : bytes) (k : N) (r : list N) (l : N) (r' : list N), is_bytes b /\ b = k :: r /\ 2 <= k mod 32 /\ r = l :: r' /\ l = 1) /\
  (exists (b : bytes) (k : N) (r : list N) (l : N) (r' : list N), is_bytes b /\ b = k :: r /\ 2 <= k mod 32 /\ r = l :: r' /\ 2 <= l <= len b).
Proof.
  split. { exists []. meet. }
  split. { exists w_v6, 96. eexists. meet. }
  split. { exists w_payload, 1, [2; 3; 4]. meet. }
  split. { exists [7], 7, []. meet. }
  split. { exists w_udp, 20, [233; 0; 53; 0; 12; 210; 175; 1; 2; 3; 4], 233, [0; 53; 0; 12; 210; 175; 1; 2; 3; 4]. meet. }
  split. { exists w_v4_udp, 69. eexists. exists 0. eexists. meet. }
  split. { exists w_unreachable, 3. eexists. exists 1. eexists. meet. }
  exists w_area4, 7, [7; 4; 10; 0; 0; 1; 1; 0], 7, [4; 10; 0; 0; 1; 1; 0]. meet.
Qed.
(** C28: the hypotheses of C28_v4_error_forever can be met. *)
Example c28_v4_error_forever_meets :
  exists (k : N) (l : N) (r : list N), is_bytes (k :: l :: r) /\ 2 <= k mod 32 /\ 2 + len r < l.
Proof.
  exists 7, 7, w_payload. meet.
Qed.
(** C28: the hypotheses of C28_v4_zero_length can be met. *)
Example c28_v4_zero_length_meets :
  (exists (E : env) (k : N) (r : list N), is_bytes (k :: 0 :: r) /\ 2 <= k mod 32 /\ overflow_checks E = true) /\
  (exists (E : env) (k : N) (r : list N), is_bytes (k :: 0 :: r) /\ 2 <= k mod 32 /\ overflow_checks E = false).
Proof.
  split. { exists w_debug, 7, w_v4_udp. meet. }
  exists w_release, 7, w_v4_udp. meet.
Qed.
(** C28: the hypotheses of C28_v4_run can be met. *)
Example c28_v4_run_meets :
  exists (b : bytes), is_bytes b.
Proof.
  exists w_v4_udp. meet.
Qed.
(** C29: the hypotheses of C29_dynamic can be met. *)
Example c29_dynamic_meets :
  exists (E : env) (ops : list buf_op), ops_size ops <= ISIZE_MAX.
Proof.
  exists w_debug, [Next 4; More 4; Write 1 7; Next 8]. meet.
Qed.
(** C29: the hypotheses of C29_capacity can be met. *)
Example c29_capacity_meets :
  exists (E : env) (ops : list buf_op) (pre : bytes) (cur : bytes) (b : buffer) (n : N), ops_size ops <= ISIZE_MAX /\ layers_run ([], []) ops = Some (pre, cur) /\ fst (buf_calls E dynamic_new ops) = b /\ ISIZE_MAX < len pre + len cur + n < USIZE.
Proof.
  exists w_debug, [Next 4; More 4; Write 1 7; Next 8], [0; 7; 0; 0; 0; 0; 0; 0], [0; 0; 0; 0; 0; 0; 0; 0], (Dynamic [0; 7; 0; 0; 0; 0; 0; 0; 0; 0; 0; 0; 0; 0; 0; 0] 8 8), 9223372036854775900. meet.
Qed.
(** C29: the hypotheses of C29_wrap_refuted can be met. *)
Example c29_wrap_refuted_meets :
  (exists (E : env) (pre : bytes) (cur : bytes) (n : N), len pre + len cur <= ISIZE_MAX /\ n < USIZE /\ USIZE <= len pre + len cur + n /\ overflow_checks E = true) /\
  (exists (E : env) (pre : bytes) (cur : bytes) (n : N), len pre + len cur <= ISIZE_MAX /\ n < USIZE /\ USIZE <= len pre + len cur + n /\ overflow_checks E = false).
Proof.
  split. { exists w_debug, w_v4_udp, w_v4_udp, 18446744073709551615. meet. }
  exists w_release, w_v4_udp, w_v4_udp, 18446744073709551615. meet.
Qed.
(** C30: the hypotheses of C30_slice can be met. *)
Example c30_slice_meets :
  exists (E : env) (s : bytes) (ops : list buf_op), len s <= ISIZE_MAX /\ Forall buf_op_ok ops /\ more_on_empty ([], [], s) ops /\ let '(pre, cur, rest, rs) := bounded_steps ([], [], s) ops in ~ In Panic rs.
Proof.
  exists w_debug, w_v4_udp, [Next 4]. meet.
Qed.
(** C30: the hypotheses of C30_frame can be met. *)
Example c30_frame_meets :
  exists (E : env) (s : bytes) (off : N) (l : N) (used : N) (o : buf_op) (b' : buffer) (r : res unit), buf_op_ok o /\ off + l < USIZE /\ used + l < USIZE /\ len s <= ISIZE_MAX /\ used <= len s /\ buf_call E (Slice s off l used) o = (b', r) /\ r <> Panic.
Proof.
  exists w_debug, w_v4_udp, 7, 7, 7, (Next 4). eexists. exists (Ok tt). meet.
Qed.
(** C31: the hypotheses of C31_slice_more can be met. *)
Example c31_slice_more_meets :
  (exists (E : env) (pre : bytes) (cur : list N) (rest : bytes) (n : N), cur <> [] /\ len pre + len cur + len rest <= ISIZE_MAX /\ n < USIZE /\ len rest < n /\ len pre + len cur + n < USIZE) /\
  (exists (E : env) (pre : bytes) (cur : list N) (rest : bytes) (n : N), cur <> [] /\ len pre + len cur + len rest <= ISIZE_MAX /\ n < USIZE /\ USIZE <= len pre + len cur + n) /\
  (exists (E : env) (pre : bytes) (cur : list N) (rest : bytes) (n : N), cur <> [] /\ len pre + len cur + len rest <= ISIZE_MAX /\ n < USIZE /\ n <= len rest < len cur + n) /\
  (exists (E : env) (pre : bytes) (cur : list N) (rest : bytes) (n : N), cur <> [] /\ len pre + len cur + len rest <= ISIZE_MAX /\ n < USIZE /\ len cur + n <= len rest).
Proof.
  split. { exists w_debug, w_v4_udp, w_v4_udp, w_v4_udp, 443. meet. }
  split. { exists w_debug, w_v4_udp, w_v4_udp, w_v4_udp, 18446744073709551615. meet. }
  split. { exists w_debug, w_v4_udp, w_v4_udp, w_v4_udp, 7. meet. }
  exists w_debug, w_v4_udp, w_v4_udp, w_v4_udp, 0. meet.
Qed.
(** C32: the hypotheses of C32_sub can be met. *)
Example c32_sub_meets :
  exists (mk : buffer -> res builder) (b : builder) (c : builder), sub mk b = Ok c /\ ((forall x, mk (b_buffer b) = Ok x -> b_fin x = fin_default)).
Proof.
  exists (ip_with), w_ether_builder. eexists. split; [ vm_compute; reflexivity | intros x H; vm_compute in H; injection H as <-; reflexivity ].
Qed.
(** C33: the hypotheses of C33_udp_bytes can be met. *)
Example c33_udp_bytes_meets :
  exists (E : env) (eth : option (list ether_op)) (vs : list v4_setter) (us : list udp_op) (p : bytes), eth_ok eth /\ Forall v4_arg_ok vs /\ Forall udp_op_ok us /\ one_payload (udp_payloads us) p /\ 42 + len p <= ISIZE_MAX /\ (len p mod 2 = 0 \/ cursor_eof E = EofKeep).
Proof.
  exists w_debug, (Some w_ether_ops), w_v4_setters, w_udp_ops_payload, w_payload. meet.
Qed.
(** C33: the hypotheses of C33_udp_bytes_odd can be met. *)
Example c33_udp_bytes_odd_meets :
  exists (E : env) (eth : option (list ether_op)) (vs : list v4_setter) (us : list udp_op) (p : bytes), eth_ok eth /\ Forall v4_arg_ok vs /\ Forall udp_op_ok us /\ one_payload (udp_payloads us) p /\ 42 + len p <= ISIZE_MAX /\ len p mod 2 = 1 /\ cursor_eof E = EofSeek.
Proof.
  exists w_release, (Some w_ether_ops), w_v4_setters, w_udp_ops_odd, w_odd. meet.
Qed.
(** C33: the hypotheses of C33_udp_reparse can be met. *)
Example c33_udp_reparse_meets :
  exists (E : env) (eops : list ether_op) (vs : list v4_setter) (us : list udp_op) (p : bytes), eth_ok (Some eops) /\ Forall v4_arg_ok vs /\ Forall v4_faithful vs /\ Forall udp_op_ok us /\ one_payload (udp_payloads us) p /\ 28 + len p <= 65535 /\ (len p mod 2 = 0 \/ cursor_eof E = EofKeep).
Proof.
  exists w_debug, w_ether_ops, w_v4_setters, w_udp_ops_payload, w_payload. meet.
Qed.
(** C33: the hypotheses of C33_udp_odd_refuted can be met. *)
Example c33_udp_odd_refuted_meets :
  exists (E : env) (eth : option (list ether_op)) (vs : list v4_setter) (us : list udp_op) (p : bytes), eth_ok eth /\ Forall v4_arg_ok vs /\ Forall udp_op_ok us /\ one_payload (udp_payloads us) p /\ 28 + len p <= 65535 /\ len p mod 2 = 1 /\ nthN p (len p - 1) <> 0 /\ cursor_eof E = EofSeek.
Proof.
  exists w_release, (Some w_ether_ops), w_v4_setters, w_udp_ops_odd, w_odd. meet.
Qed.
(** C34: the hypotheses of C34_tcp_bytes can be met. *)
Example c34_tcp_bytes_meets :
  exists (E : env) (eth : option (list ether_op)) (vs : list v4_setter) (ts : list tcp_op) (p : bytes), eth_ok eth /\ Forall v4_arg_ok vs /\ Forall tcp_op_ok ts /\ flags_last (tcp_setters ts) /\ one_payload (tcp_payloads ts) p /\ 20 + len p <= 131065 /\ (len p mod 2 = 0 \/ cursor_eof E = EofKeep).
Proof.
  exists w_debug, (Some w_ether_ops), w_v4_setters, w_tcp_ops_payload, w_payload. meet.
Qed.
(** C34: the hypotheses of C34_tcp_odd_panics can be met. *)
Example c34_tcp_odd_panics_meets :
  exists (E : env) (eth : option (list ether_op)) (vs : list v4_setter) (ts : list tcp_op) (p : bytes), eth_ok eth /\ Forall v4_arg_ok vs /\ Forall tcp_op_ok ts /\ flags_last (tcp_setters ts) /\ one_payload (tcp_payloads ts) p /\ 20 + len p <= 131065 /\ len p mod 2 = 1 /\ cursor_eof E = EofSeek.
Proof.
  exists w_release, (Some w_ether_ops), w_v4_setters, w_tcp_ops_odd, w_odd. meet.
Qed.
(** C34: the hypotheses of C34_tcp_reparse can be met. *)
Example c34_tcp_reparse_meets :
  exists (E : env) (eops : list ether_op) (vs : list v4_setter) (ts : list tcp_op) (p : bytes), eth_ok (Some eops) /\ Forall v4_arg_ok vs /\ Forall v4_faithful vs /\ Forall tcp_op_ok ts /\ flags_last (tcp_setters ts) /\ one_payload (tcp_payloads ts) p /\ 40 + len p <= 65535 /\ (len p mod 2 = 0 \/ cursor_eof E = EofKeep).
Proof.
  exists w_debug, w_ether_ops, w_v4_setters, w_tcp_ops_payload, w_payload. meet.
Qed.
(** C35: the hypotheses of C35_next_setter can be met. *)
Example c35_next_setter_meets :
  exists (E : env) (v : N) (b : builder) (b1 : builder), v < 512 /\ tcp_run1 E (TcpSet (TcpSetFlags v)) b = Ok b1.
Proof.
  exists w_debug, 7, w_tcp_builder. eexists. meet.
Qed.
(** C35: the hypotheses of C35_programs can be met. *)
Example c35_programs_meets :
  exists (E : env) (eth : option (list ether_op)) (vs : list v4_setter) (ops : list tcp_op) (v : N) (p : bytes), eth_ok eth /\ Forall v4_arg_ok vs /\ Forall tcp_op_ok ops /\ flags_last (tcp_setters ops) /\ last (tcp_setters ops) (TcpSetSource 0) = TcpSetFlags v /\ one_payload (tcp_payloads ops) p /\ 54 + len p <= ISIZE_MAX.
Proof.
  exists w_debug, (Some w_ether_ops), w_v4_setters, w_tcp_ops_payload_flags, 2, w_payload. meet.
Qed.
(** C36: the hypotheses of C36_echo_bytes can be met. *)
Example c36_echo_bytes_meets :
  (exists (E : env) (outer : option (option (list ether_op) * list v4_setter)) (ops : list echo_op) (p : bytes), outer_ok outer /\ Forall echo_op_ok ops /\ one_payload (echo_payloads ops) p /\ 42 + len p <= ISIZE_MAX /\ let '(t, i, s) := echo_after ops in echo_kind_given ops) /\
  (exists (E : env) (outer : option (option (list ether_op) * list v4_setter)) (ops : list echo_op) (p : bytes), outer_ok outer /\ Forall echo_op_ok ops /\ one_payload (echo_payloads ops) p /\ 42 + len p <= ISIZE_MAX /\ let '(t, i, s) := echo_after ops in ~ echo_kind_given ops).
Proof.
  split. { exists w_debug, w_outer, w_echo_ops_payload, w_payload. meet. }
  exists w_debug, w_outer, w_echo_ops_nokind, w_payload. meet.
Qed.
(** C36: the hypotheses of C36_information_bytes can be met. *)
Example c36_information_bytes_meets :
  (exists (outer : option (option (list ether_op) * list v4_setter)) (ops : list information_op), outer_ok outer /\ Forall information_op_ok ops /\ let '(t, i, s) := information_after ops in information_kind_given ops) /\
  (exists (outer : option (option (list ether_op) * list v4_setter)) (ops : list information_op), outer_ok outer /\ Forall information_op_ok ops /\ let '(t, i, s) := information_after ops in ~ information_kind_given ops).
Proof.
  split. { exists w_outer, w_info_ops. meet. }
  exists w_outer, w_info_ops_nokind. meet.
Qed.
(** C36: the hypotheses of C36_timestamp_bytes can be met. *)
Example c36_timestamp_bytes_meets :
  (exists (outer : option (option (list ether_op) * list v4_setter)) (ops : list timestamp_op), outer_ok outer /\ Forall timestamp_op_ok ops /\ let '(t, i, s, x, y, z) := timestamp_after ops in timestamp_kind_given ops) /\
  (exists (outer : option (option (list ether_op) * list v4_setter)) (ops : list timestamp_op), outer_ok outer /\ Forall timestamp_op_ok ops /\ let '(t, i, s, x, y, z) := timestamp_after ops in ~ timestamp_kind_given ops).
Proof.
  split. { exists w_outer, w_ts_ops. meet. }
  exists w_outer, w_ts_ops_nokind. meet.
Qed.
(** C36: the hypotheses of C36_echo_reparse can be met. *)
Example c36_echo_reparse_meets :
  exists (ops : list echo_op) (p : bytes) (eth : option (list ether_op)) (vs : list v4_setter), Forall echo_op_ok ops /\ echo_kind_given ops /\ one_payload (echo_payloads ops) p /\ eth_ok eth /\ Forall v4_arg_ok vs /\ Forall v4_faithful vs /\ 28 + len p <= 65535.
Proof.
  exists w_echo_ops_payload, w_payload, (Some w_ether_ops), w_v4_setters. meet.
Qed.
(** C36: the hypotheses of C36_information_reparse can be met. *)
Example c36_information_reparse_meets :
  exists (ops : list information_op) (eth : option (list ether_op)) (vs : list v4_setter), Forall information_op_ok ops /\ information_kind_given ops /\ eth_ok eth /\ Forall v4_arg_ok vs /\ Forall v4_faithful vs.
Proof.
  exists w_info_ops, (Some w_ether_ops), w_v4_setters. meet.
Qed.
(** C36: the hypotheses of C36_timestamp_reparse can be met. *)
Example c36_timestamp_reparse_meets :
  exists (ops : list timestamp_op) (eth : option (list ether_op)) (vs : list v4_setter), Forall timestamp_op_ok ops /\ timestamp_kind_given ops /\ eth_ok eth /\ Forall v4_arg_ok vs /\ Forall v4_faithful vs.
Proof.
  exists w_ts_ops, (Some w_ether_ops), w_v4_setters. meet.
Qed.
(** C37: the hypotheses of C37_v4_bytes can be met. *)
Example c37_v4_bytes_meets :
  exists (E : env) (eth : option (list ether_op)) (vops : list v4_op) (p : bytes), eth_ok eth /\ Forall v4_op_ok vops /\ one_payload (v4_payloads vops) p /\ 34 + len p <= ISIZE_MAX.
Proof.
  exists w_debug, (Some w_ether_ops), w_v4_ops_payload, w_payload. meet.
Qed.
(** C37: the hypotheses of C37_v4_small can be met. *)
Example c37_v4_small_meets :
  exists (eops : list ether_op) (vops : list v4_op) (p : bytes), eth_ok (Some eops) /\ Forall v4_op_ok vops /\ Forall v4_faithful (v4_setters vops) /\ one_payload (v4_payloads vops) p /\ len p < 4.
Proof.
  exists w_ether_ops, w_v4_ops_odd, w_odd. meet.
Qed.
(** C37: the hypotheses of C37_v4_eaten can be met. *)
Example c37_v4_eaten_meets :
  exists (eops : list ether_op) (vops : list v4_op) (p : bytes), eth_ok (Some eops) /\ Forall v4_op_ok vops /\ one_payload (v4_payloads vops) p /\ 4 <= len p <= 43.
Proof.
  exists w_ether_ops, w_v4_ops_payload, w_payload. meet.
Qed.
(** C37: the hypotheses of C37_v4_refused can be met. *)
Example c37_v4_refused_meets :
  exists (vops : list v4_op) (p : bytes), Forall v4_op_ok vops /\ one_payload (v4_payloads vops) p /\ 44 <= len p <= 235.
Proof.
  exists w_v4_ops_long, w_long. meet.
Qed.
(** C37: the hypotheses of C37_v4_in_ether can be met. *)
Example c37_v4_in_ether_meets :
  (exists (E : env) (eops : list ether_op) (vops : list v4_op) (p : bytes), eth_ok (Some eops) /\ Forall v4_op_ok vops /\ one_payload (v4_payloads vops) p /\ 34 + len p <= ISIZE_MAX /\ let w := (5 + len p / 4) mod 256 in (w / 16 = 0 \/ w / 16 = 4)) /\
  (exists (E : env) (eops : list ether_op) (vops : list v4_op) (p : bytes), eth_ok (Some eops) /\ Forall v4_op_ok vops /\ one_payload (v4_payloads vops) p /\ 34 + len p <= ISIZE_MAX /\ let w := (5 + len p / 4) mod 256 in (w / 16 = 2 \/ w / 16 = 6)).
Proof.
  split. { exists w_debug, w_ether_ops, w_v4_ops_payload, w_payload. meet. }
  exists w_debug, w_ether_ops, w_v4_ops_longer, w_longer. meet.
Qed.
(** C38: the hypotheses of C38_second_payload can be met. *)
Example c38_second_payload_meets :
  (exists (E : env) (p : bytes) (b : builder) (b' : builder) ops, In (EtherPayload p) ops /\ run (ether_run1 E) ops b = Ok b') /\
  (exists (E : env) (p : bytes) (b : builder) (b' : builder) ops, In (V4Payload p) ops /\ run (v4_run1 E) ops b = Ok b') /\
  (exists (E : env) (p : bytes) (b : builder) (b' : builder) ops, In (UdpPayload p) ops /\ run (udp_run1 E) ops b = Ok b') /\
  (exists (E : env) (p : bytes) (b : builder) (b' : builder) ops, In (TcpPayload p) ops /\ run (tcp_run1 E) ops b = Ok b') /\
  (exists (E : env) (p : bytes) (b : builder) (b' : builder) ops, In (EchoPayload p) ops /\ run (echo_run1 E) ops b = Ok b').
Proof.
  split. { exists w_debug, w_payload, w_ether_builder. eexists. exists w_ether_ops_payload. meet. }
  split. { exists w_debug, w_payload, w_v4_builder. eexists. exists w_v4_ops_payload. meet. }
  split. { exists w_debug, w_payload, w_udp_builder. eexists. exists w_udp_ops_payload. meet. }
  split. { exists w_debug, w_payload, w_tcp_builder. eexists. exists w_tcp_ops_payload. meet. }
  exists w_debug, w_payload, w_echo_builder. eexists. exists w_echo_ops_payload. meet.
Qed.
(** C38: the hypotheses of C38_sub_after_payload can be met. *)
Example c38_sub_after_payload_meets :
  (exists (E : env) (p : bytes) (b : builder) (b' : builder) ops, In (EtherPayload p) ops /\ run (ether_run1 E) ops b = Ok b') /\
  (exists (E : env) (p : bytes) (b : builder) (b' : builder) ops, In (V4Payload p) ops /\ run (v4_run1 E) ops b = Ok b').
Proof.
  split. { exists w_debug, w_payload, w_ether_builder. eexists. exists w_ether_ops_payload. meet. }
  exists w_debug, w_payload, w_v4_builder. eexists. exists w_v4_ops_payload. meet.
Qed.
(** C38: the hypotheses of C38_incomplete can be met. *)
Example c38_incomplete_meets :
  exists (eops : list ether_op) (vs : list v4_setter) (eth : option (list ether_op)), eth_ok (Some eops) /\ Forall v4_arg_ok vs /\ eth_ok eth.
Proof.
  exists w_ether_ops, w_v4_setters, (Some w_ether_ops). meet.
Qed.
(** C38: the hypotheses of C38_no_kind can be met. *)
Example c38_no_kind_meets :
  (exists (E : env) (i : builder) (c0 : builder) (c : builder) ops, icmp_echo E i = Ok c0 /\ run (echo_run1 E) ops c0 = Ok c /\ ~ echo_kind_given ops) /\
  (exists (E : env) (i : builder) (c0 : builder) (c : builder) ops, icmp_information E i = Ok c0 /\ run (information_run1 E) ops c0 = Ok c /\ ~ information_kind_given ops) /\
  (exists (E : env) (i : builder) (c0 : builder) (c : builder) ops, icmp_timestamp E i = Ok c0 /\ run (timestamp_run1 E) ops c0 = Ok c /\ ~ timestamp_kind_given ops).
Proof.
  split. { exists w_debug, w_icmp_builder. eexists. eexists. exists w_echo_ops_nokind. meet. }
  split. { exists w_debug, w_icmp_builder. eexists. eexists. exists w_info_ops_nokind. meet. }
  exists w_debug, w_icmp_builder. eexists. eexists. exists w_ts_ops_nokind. meet.
Qed.
(** C39: the hypotheses of C39_bare can be met. *)
Example c39_bare_meets :
  (exists (E : env) (buf : buffer) (u : builder) ops, (buf = dynamic_new \/ (exists s, len s <= ISIZE_MAX /\ buf = slice_new s)) /\ ((let* u0 := udp_with E buf in run (udp_run1 E) ops u0) = Ok u)) /\
  (exists (E : env) (buf : buffer) (u : builder) ops, (buf = dynamic_new \/ (exists s, len s <= ISIZE_MAX /\ buf = slice_new s)) /\ ((let* u0 := tcp_with E buf in run (tcp_run1 E) ops u0) = Ok u)).
Proof.
  split. { exists w_debug, dynamic_new. eexists. exists w_udp_ops_payload. meet. }
  exists w_debug, dynamic_new. eexists. exists w_tcp_ops_payload. meet.
Qed.
(** C39: the hypotheses of C39_default can be met. *)
Example c39_default_meets :
  (exists (E : env) (p : bytes) (us : list udp_op), Forall udp_op_ok us /\ one_payload (udp_payloads us) p /\ 8 + len p <= ISIZE_MAX) /\
  (exists (E : env) (p : bytes) (ts : list tcp_op), Forall tcp_op_ok ts /\ flags_last (tcp_setters ts) /\ one_payload (tcp_payloads ts) p /\ 20 + len p <= ISIZE_MAX).
Proof.
  split. { exists w_debug, w_payload, w_udp_ops_payload. meet. }
  exists w_debug, w_payload, w_tcp_ops_payload. meet.
Qed.
(** C40: the hypotheses of C40_udp_wraps can be met. *)
Example c40_udp_wraps_meets :
  exists (E : env) (vs : list v4_setter) (us : list udp_op) (p : bytes), Forall v4_arg_ok vs /\ Forall udp_op_ok us /\ one_payload (udp_payloads us) p /\ 42 + len p <= ISIZE_MAX.
Proof.
  exists w_debug, w_v4_setters, w_udp_ops_payload, w_payload. meet.
Qed.
(** C41: the hypotheses of C41_same_bytes can be met. *)
Example c41_same_bytes_meets :
  (exists (E : env) (eth : option (list ether_op)) (vs : list v4_setter) (outer : option (option (list ether_op) * list v4_setter)) (s : bytes) (eops : list ether_op), eth_ok eth /\ Forall v4_arg_ok vs /\ outer_ok outer /\ len s <= ISIZE_MAX /\ Forall ether_op_ok eops /\ ether_payloads eops = [] /\ 14 <= len s) /\
  (exists (E : env) (eth : option (list ether_op)) (vs : list v4_setter) (outer : option (option (list ether_op) * list v4_setter)) (s : bytes), eth_ok eth /\ Forall v4_arg_ok vs /\ outer_ok outer /\ len s <= ISIZE_MAX /\ v4_room eth <= len s) /\
  (exists (E : env) (eth : option (list ether_op)) (vs : list v4_setter) (outer : option (option (list ether_op) * list v4_setter)) (s : bytes) (us : list udp_op), eth_ok eth /\ Forall v4_arg_ok vs /\ outer_ok outer /\ len s <= ISIZE_MAX /\ Forall udp_op_ok us /\ udp_payloads us = [] /\ v4_room eth + 8 <= len s) /\
  (exists (E : env) (eth : option (list ether_op)) (vs : list v4_setter) (outer : option (option (list ether_op) * list v4_setter)) (s : bytes) (ts : list tcp_op), eth_ok eth /\ Forall v4_arg_ok vs /\ outer_ok outer /\ len s <= ISIZE_MAX /\ Forall tcp_op_ok ts /\ flags_last (tcp_setters ts) /\ tcp_payloads ts = [] /\ v4_room eth + 20 <= len s) /\
  (exists (E : env) (eth : option (list ether_op)) (vs : list v4_setter) (outer : option (option (list ether_op) * list v4_setter)) (s : bytes) ops, eth_ok eth /\ Forall v4_arg_ok vs /\ outer_ok outer /\ len s <= ISIZE_MAX /\ Forall echo_op_ok ops /\ echo_payloads ops = [] /\ outer_room outer + 8 <= len s) /\
  (exists (E : env) (eth : option (list ether_op)) (vs : list v4_setter) (outer : option (option (list ether_op) * list v4_setter)) (s : bytes) ops, eth_ok eth /\ Forall v4_arg_ok vs /\ outer_ok outer /\ len s <= ISIZE_MAX /\ Forall information_op_ok ops /\ outer_room outer + 8 <= len s) /\
  (exists (E : env) (eth : option (list ether_op)) (vs : list v4_setter) (outer : option (option (list ether_op) * list v4_setter)) (s : bytes) ops, eth_ok eth /\ Forall v4_arg_ok vs /\ outer_ok outer /\ len s <= ISIZE_MAX /\ Forall timestamp_op_ok ops /\ outer_room outer + 20 <= len s).
Proof.
  split. { exists w_debug, (Some w_ether_ops), w_v4_setters, w_outer, w_v4_udp, w_ether_ops. meet. }
  split. { exists w_debug, (Some w_ether_ops), w_v4_setters, w_outer, w_udp_frame. meet. }
  split. { exists w_debug, (Some w_ether_ops), w_v4_setters, w_outer, w_udp_frame, w_udp_ops. meet. }
  split. { exists w_debug, (Some w_ether_ops), w_v4_setters, w_outer, w_tcp_frame, w_tcp_ops. meet. }
  split. { exists w_debug, (Some w_ether_ops), w_v4_setters, w_outer, w_udp_frame, w_echo_ops. meet. }
  split. { exists w_debug, (Some w_ether_ops), w_v4_setters, w_outer, w_udp_frame, w_info_ops. meet. }
  exists w_debug, (Some w_ether_ops), w_v4_setters, w_outer, w_tcp_frame, w_ts_ops. meet.
Qed.
(** C41: the hypotheses of C41_small can be met. *)
Example c41_small_meets :
  (exists (E : env) (eth : option (list ether_op)) (vs : list v4_setter) (outer : option (option (list ether_op) * list v4_setter)) (s : bytes), eth_ok eth /\ Forall v4_arg_ok vs /\ outer_ok outer /\ len s <= ISIZE_MAX /\ len s < 14) /\
  (exists (E : env) (eth : option (list ether_op)) (vs : list v4_setter) (outer : option (option (list ether_op) * list v4_setter)) (s : bytes), eth_ok eth /\ Forall v4_arg_ok vs /\ outer_ok outer /\ len s <= ISIZE_MAX /\ len s < v4_room eth) /\
  (exists (E : env) (eth : option (list ether_op)) (vs : list v4_setter) (outer : option (option (list ether_op) * list v4_setter)) (s : bytes), eth_ok eth /\ Forall v4_arg_ok vs /\ outer_ok outer /\ len s <= ISIZE_MAX /\ len s < v4_room eth + 8) /\
  (exists (E : env) (eth : option (list ether_op)) (vs : list v4_setter) (outer : option (option (list ether_op) * list v4_setter)) (s : bytes), eth_ok eth /\ Forall v4_arg_ok vs /\ outer_ok outer /\ len s <= ISIZE_MAX /\ len s < v4_room eth + 20) /\
  (exists (E : env) (eth : option (list ether_op)) (vs : list v4_setter) (outer : option (option (list ether_op) * list v4_setter)) (s : bytes), eth_ok eth /\ Forall v4_arg_ok vs /\ outer_ok outer /\ len s <= ISIZE_MAX /\ len s < outer_room outer + 8) /\
  (exists (E : env) (eth : option (list ether_op)) (vs : list v4_setter) (outer : option (option (list ether_op) * list v4_setter)) (s : bytes), eth_ok eth /\ Forall v4_arg_ok vs /\ outer_ok outer /\ len s <= ISIZE_MAX /\ len s < outer_room outer + 20).
Proof.
  split. { exists w_debug, (Some w_ether_ops), w_v4_setters, w_outer, w_udp. meet. }
  split. { exists w_debug, (Some w_ether_ops), w_v4_setters, w_outer, w_v4_udp. meet. }
  split. { exists w_debug, (Some w_ether_ops), w_v4_setters, w_outer, w_v4_udp. meet. }
  split. { exists w_debug, (Some w_ether_ops), w_v4_setters, w_outer, w_v4_udp. meet. }
  split. { exists w_debug, (Some w_ether_ops), w_v4_setters, w_outer, w_v4_udp. meet. }
  exists w_debug, (Some w_ether_ops), w_v4_setters, w_outer, w_v4_udp. meet.
Qed.
(** C41: the hypotheses of C41_ether_payload can be met. *)
Example c41_ether_payload_meets :
  exists (E : env) (eops : list ether_op) (p : bytes) (s : bytes), Forall ether_op_ok eops /\ ether_payloads eops = [] /\ is_bytes p /\ p <> [] /\ len s <= ISIZE_MAX.
Proof.
  exists w_debug, w_ether_ops, w_v4_udp, w_v4_udp. meet.
Qed.
(** C41: the hypotheses of C41_udp_payload can be met. *)
Example c41_udp_payload_meets :
  exists (E : env) (eth : option (list ether_op)) (vs : list v4_setter) (us : list udp_op) (p : bytes) (s : bytes), eth_ok eth /\ Forall v4_arg_ok vs /\ Forall udp_op_ok us /\ udp_payloads us = [] /\ is_bytes p /\ p <> [] /\ is_bytes s /\ len s <= ISIZE_MAX.
Proof.
  exists w_debug, (Some w_ether_ops), w_v4_setters, w_udp_ops, w_v4_udp, w_v4_udp. meet.
Qed.
(** C41: the hypotheses of C41_tcp_payload can be met. *)
Example c41_tcp_payload_meets :
  exists (E : env) (eth : option (list ether_op)) (vs : list v4_setter) (us : list tcp_op) (p : bytes) (s : bytes), eth_ok eth /\ Forall v4_arg_ok vs /\ Forall tcp_op_ok us /\ flags_last (tcp_setters us) /\ tcp_payloads us = [] /\ is_bytes p /\ p <> [] /\ is_bytes s /\ len s <= ISIZE_MAX.
Proof.
  exists w_debug, (Some w_ether_ops), w_v4_setters, w_tcp_ops, w_v4_udp, w_v4_udp. meet.
Qed.
(** C41: the hypotheses of C41_echo_payload can be met. *)
Example c41_echo_payload_meets :
  exists (E : env) (outer : option (option (list ether_op) * list v4_setter)) (ops : list echo_op) (p : bytes) (s : bytes), outer_ok outer /\ Forall echo_op_ok ops /\ echo_payloads ops = [] /\ echo_kind_given ops /\ is_bytes p /\ p <> [] /\ len s <= ISIZE_MAX.
Proof.
  exists w_debug, w_outer, w_echo_ops, w_v4_udp, w_v4_udp. meet.
Qed.
(** C41: the hypotheses of C41_v4_payload can be met. *)
Example c41_v4_payload_meets :
  exists (E : env) (eth : option (list ether_op)) (vs : list v4_setter) (p : bytes) (s : bytes), eth_ok eth /\ Forall v4_arg_ok vs /\ is_bytes p /\ p <> [] /\ len s <= ISIZE_MAX.
Proof.
  exists w_debug, (Some w_ether_ops), w_v4_setters, w_v4_udp, w_v4_udp. meet.
Qed.
(** C41: the hypotheses of C41_untouched can be met. *)
Example c41_untouched_meets :
  exists (E : env) (s : bytes) (b : builder), len s <= ISIZE_MAX /\ obtained E (slice_new s) b.
Proof.
  exists w_debug, (zeros 100). eexists. split; [ meet | ]. eapply ob_ether_ip; [ eapply (ob_ether_set _ _ (EtherSource w_mac1)); [ apply ob_ether; vm_compute; reflexivity | reflexivity | vm_compute; reflexivity ] | vm_compute; reflexivity ].
Qed.
(** C42: the hypotheses of C42_class can be met. *)
Example c42_class_meets :
  (exists (n : N), n < 4) /\
  (exists (n : N), 4 <= n).
Proof.
  split. { exists 2. meet. }
  exists 7. meet.
Qed.
(** C43: the hypotheses of C43_v4_header_bounds can be met. *)
Example c43_v4_header_bounds_meets :
  exists (b : bytes), v4_no_payload b = Ok b.
Proof.
  exists w_v4_udp. meet.
Qed.
(** C43: the hypotheses of C43_tcp_header_bounds can be met. *)
Example c43_tcp_header_bounds_meets :
  exists (b : bytes), is_bytes b /\ tcp_new b = Ok b.
Proof.
  exists w_v4_udp. meet.
Qed.
(** C43: the hypotheses of C43_udp_payload_bound can be met. *)
Example c43_udp_payload_bound_meets :
  exists (b : bytes), is_bytes b /\ udp_no_payload b = Ok b.
Proof.
  exists w_v4_udp. meet.
Qed.
(** C43: the hypotheses of C43_headers can be met. *)
Example c43_headers_meets :
  (exists (b : bytes), ether_new b = Ok b) /\
  (exists (b : bytes), v4_no_payload b = Ok b /\ 5 <= nthN b 0 mod 16) /\
  (exists (b : bytes), v6_new b = Ok b) /\
  (exists (b : bytes), udp_no_payload b = Ok b) /\
  (exists (b : bytes), is_bytes b /\ tcp_new b = Ok b /\ 5 <= nthN b 12 / 16) /\
  (exists (b : bytes), v4opt_new b = Ok b) /\
  (exists (b : bytes), tcpopt_new b = Ok b) /\
  (exists (b : bytes), icmp_new b = Ok b) /\
  (exists (b : bytes), echo_new b = Ok b) /\
  (exists (b : bytes), information_new b = Ok b) /\
  (exists (b : bytes), timestamp_new b = Ok b) /\
  (exists (b : bytes), parameter_problem_new b = Ok b) /\
  (exists (b : bytes), redirect_message_new b = Ok b) /\
  (exists (b : bytes), previous_new b = Ok b).
Proof.
  split. { exists w_v4_udp. meet. }
  split. { exists w_v4_udp. meet. }
  split. { exists w_v6. meet. }
  split. { exists w_v4_udp. meet. }
  split. { exists w_tcp. meet. }
  split. { exists w_v4_udp. meet. }
  split. { exists w_v4_udp. meet. }
  split. { exists w_v4_udp. meet. }
  split. { exists w_echo. meet. }
  split. { exists w_info. meet. }
  split. { exists w_ts. meet. }
  split. { exists w_problem. meet. }
  split. { exists w_redirect. meet. }
  exists w_unreachable. meet.
Qed.
(** C43: the hypotheses of C43_payloads can be met. *)
Example c43_payloads_meets :
  (exists (E : env) (b : bytes), rust_slice b /\ udp_no_payload b = Ok b) /\
  (exists (E : env) (b : bytes), rust_slice b /\ v6_new b = Ok b) /\
  (exists (E : env) (b : bytes), rust_slice b /\ information_new b = Ok b) /\
  (exists (E : env) (b : bytes), rust_slice b /\ timestamp_new b = Ok b) /\
  (exists (E : env) (b : bytes) (p : bytes), rust_slice b /\ (parameter_problem_new b = Ok b \/ redirect_message_new b = Ok b \/ previous_new b = Ok b) /\ embedded_packet b = Ok p /\ 5 <= nthN p 0 mod 16) /\
  (exists (E : env) (b : bytes), rust_slice b /\ ether_new b = Ok b) /\
  (exists (E : env) (b : bytes), rust_slice b /\ v4_no_payload b = Ok b) /\
  (exists (E : env) (b : bytes), rust_slice b /\ tcp_new b = Ok b) /\
  (exists (E : env) (b : bytes), rust_slice b /\ icmp_new b = Ok b) /\
  (exists (E : env) (b : bytes), rust_slice b /\ echo_new b = Ok b).
Proof.
  split. { exists w_debug, w_v4_udp. meet. }
  split. { exists w_debug, w_v6. meet. }
  split. { exists w_debug, w_info. meet. }
  split. { exists w_debug, w_ts. meet. }
  split. { exists w_debug, w_unreachable. eexists. meet. }
  split. { exists w_debug, w_v4_udp. meet. }
  split. { exists w_debug, w_v4_udp. meet. }
  split. { exists w_debug, w_v4_udp. meet. }
  split. { exists w_debug, w_v4_udp. meet. }
  exists w_debug, w_echo. meet.
Qed.
(** C43: the hypotheses of C43_totals can be met. *)
Example c43_totals_meets :
  (exists (E : env) (b : bytes), rust_slice b /\ udp_no_payload b = Ok b) /\
  (exists (E : env) (b : bytes), rust_slice b /\ v4_no_payload b = Ok b /\ 5 <= nthN b 0 mod 16) /\
  (exists (E : env) (b : bytes), rust_slice b /\ v6_new b = Ok b) /\
  (exists (E : env) (b : bytes), rust_slice b /\ information_new b = Ok b) /\
  (exists (E : env) (b : bytes), rust_slice b /\ timestamp_new b = Ok b) /\
  (exists (E : env) (b : bytes) (p : bytes), rust_slice b /\ (parameter_problem_new b = Ok b \/ redirect_message_new b = Ok b \/ previous_new b = Ok b) /\ embedded_packet b = Ok p /\ 5 <= nthN p 0 mod 16) /\
  (exists (E : env) (b : bytes), rust_slice b /\ ether_new b = Ok b) /\
  (exists (E : env) (b : bytes), rust_slice b /\ tcp_new b = Ok b) /\
  (exists (E : env) (b : bytes), rust_slice b /\ icmp_new b = Ok b) /\
  (exists (E : env) (b : bytes), rust_slice b /\ echo_new b = Ok b).
Proof.
  split. { exists w_debug, w_v4_udp. meet. }
  split. { exists w_debug, w_v4_udp. meet. }
  split. { exists w_debug, w_v6. meet. }
  split. { exists w_debug, w_info. meet. }
  split. { exists w_debug, w_ts. meet. }
  split. { exists w_debug, w_unreachable. eexists. meet. }
  split. { exists w_debug, w_v4_udp. meet. }
  split. { exists w_debug, w_v4_udp. meet. }
  split. { exists w_debug, w_v4_udp. meet. }
  exists w_debug, w_echo. meet.
Qed.
(** C43: the hypotheses of C43_shortest can be met. *)
Example c43_shortest_meets :
  (exists (b : bytes), ether_new b = Ok b) /\
  (exists (b : bytes), v4_new b = Ok b) /\
  (exists (b : bytes), udp_new b = Ok b) /\
  (exists (b : bytes), tcp_new b = Ok b) /\
  (exists (b : bytes), v4opt_new b = Ok b) /\
  (exists (b : bytes), tcpopt_new b = Ok b) /\
  (exists (b : bytes), icmp_new b = Ok b) /\
  (exists (b : bytes), echo_new b = Ok b) /\
  (exists (b : bytes), information_new b = Ok b) /\
  (exists (b : bytes), timestamp_new b = Ok b).
Proof.
  split. { exists w_v4_udp. meet. }
  split. { exists w_v4_udp. meet. }
  split. { exists w_udp. meet. }
  split. { exists w_v4_udp. meet. }
  split. { exists w_v4_udp. meet. }
  split. { exists w_v4_udp. meet. }
  split. { exists w_v4_udp. meet. }
  split. { exists w_echo. meet. }
  split. { exists w_info. meet. }
  exists w_ts. meet.
Qed.
(** C43: the hypotheses of C43_shortest_refuted can be met. *)
Example c43_shortest_refuted_meets :
  (exists (b : bytes), v6_new b = Ok b) /\
  (exists (b : bytes), previous_new b = Ok b) /\
  (exists (b : bytes), redirect_message_new b = Ok b) /\
  (exists (b : bytes), parameter_problem_new b = Ok b).
Proof.
  split. { exists w_v6. meet. }
  split. { exists w_unreachable. meet. }
  split. { exists w_redirect. meet. }
  exists w_problem. meet.
Qed.
(** C44: the hypotheses of C44_v4 can be met. *)
Example c44_v4_meets :
  (exists (b : bytes), v4_new b = Ok b /\ let n := N.max (nthN b 0 mod 16 * 4) (wire16 b 2) in n < 20) /\
  (exists (b : bytes), v4_new b = Ok b /\ let n := N.max (nthN b 0 mod 16 * 4) (wire16 b 2) in 20 <= n).
Proof.
  split. { exists w_v4_tiny. meet. }
  exists w_v4_udp. meet.
Qed.
(** C44: the hypotheses of C44_udp can be met. *)
Example c44_udp_meets :
  exists (b : bytes), udp_new b = Ok b.
Proof.
  exists w_udp. meet.
Qed.
(** C44: the hypotheses of C44_whole_buffer can be met. *)
Example c44_whole_buffer_meets :
  (exists (E : env) (b : bytes), rust_slice b /\ ether_new b = Ok b) /\
  (exists (E : env) (b : bytes), rust_slice b /\ tcp_new b = Ok b) /\
  (exists (E : env) (b : bytes), rust_slice b /\ icmp_new b = Ok b) /\
  (exists (E : env) (b : bytes), rust_slice b /\ echo_new b = Ok b).
Proof.
  split. { exists w_debug, w_v4_udp. meet. }
  split. { exists w_debug, w_v4_udp. meet. }
  split. { exists w_debug, w_v4_udp. meet. }
  exists w_debug, w_echo. meet.
Qed.
(** C44: the hypotheses of C44_information can be met. *)
Example c44_information_meets :
  exists (b : bytes), information_new b = Ok b.
Proof.
  exists w_info. meet.
Qed.
(** C44: the hypotheses of C44_timestamp can be met. *)
Example c44_timestamp_meets :
  exists (b : bytes), timestamp_new b = Ok b.
Proof.
  exists w_ts. meet.
Qed.
(** C45: the hypotheses of C45_embedded can be met. *)
Example c45_embedded_meets :
  (exists (E : env) (b : bytes) (p : bytes), rust_slice b /\ ((parameter_problem_new b = Ok b \/ redirect_message_new b = Ok b \/ previous_new b = Ok b)) /\ embedded_packet b = Ok p) /\
  (exists (E : env) (b : bytes) (e : error), rust_slice b /\ ((parameter_problem_new b = Ok b \/ redirect_message_new b = Ok b \/ previous_new b = Ok b)) /\ embedded_packet b = Err e).
Proof.
  split. { exists w_debug, w_unreachable. eexists. meet. }
  exists w_debug, w_redirect_empty, InvalidPacket. meet.
Qed.
(** C45: the hypotheses of C45_truncated_embedded can be met. *)
Example c45_truncated_embedded_meets :
  exists (b : bytes), 8 <= len b /\ 20 <= len (dropN 8 b) /\ nthN b 8 / 16 = 4 /\ len b - 8 < wire16 b 10.
Proof.
  exists w_v4_udp. meet.
Qed.
(** C45: the hypotheses of C45_gateway_pointer can be met. *)
Example c45_gateway_pointer_meets :
  (exists (b : bytes), redirect_message_new b = Ok b) /\
  (exists (b : bytes), parameter_problem_new b = Ok b).
Proof.
  split. { exists w_redirect. meet. }
  exists w_problem. meet.
Qed.
(** C46: the hypotheses of C46_ether_bytes can be met. *)
Example c46_ether_bytes_meets :
  exists (E : env) (eops : list ether_op) (p : bytes), Forall ether_op_ok eops /\ one_payload (ether_payloads eops) p /\ 14 + len p <= ISIZE_MAX.
Proof.
  exists w_debug, w_ether_ops_payload, w_payload. meet.
Qed.
(** C46: the hypotheses of C46_ether_reparse can be met. *)
Example c46_ether_reparse_meets :
  exists (E : env) (eops : list ether_op) (p : bytes), Forall ether_op_ok eops /\ one_payload (ether_payloads eops) p /\ 14 + len p <= ISIZE_MAX.
Proof.
  exists w_debug, w_ether_ops_payload, w_payload. meet.
Qed.
(** C47: the hypotheses of C47_ether can be met. *)
Example c47_ether_meets :
  exists (f : ether_fields), ether_fields_ok f.
Proof.
  exists w_ether_fields. meet.
Qed.
(** C47: the hypotheses of C47_udp can be met. *)
Example c47_udp_meets :
  exists (f : udp_fields) (payload : bytes), udp_fields_ok f /\ uf_length f = 8 + len payload.
Proof.
  exists w_udp_fields, w_payload. meet.
Qed.
(** C47: the hypotheses of C47_udp_labels_refuted can be met. *)
Example c47_udp_labels_refuted_meets :
  exists (b : bytes) (name : string) (fs : list (string * shown)), udp_debug b = Ok (ShStruct name fs).
Proof.
  exists w_v4_udp, ("udp::Packet"%string). eexists. meet.
Qed.
(** C47: the hypotheses of C47_tcp can be met. *)
Example c47_tcp_meets :
  exists (f : tcp_fields) (opts : bytes), tcp_fields_ok f /\ tf_offset f * 4 = 20 + len opts.
Proof.
  exists w_tcp_fields_options, w_payload. meet.
Qed.
(** C47: the hypotheses of C47_tcp_total can be met. *)
Example c47_tcp_total_meets :
  exists (E : env) (b : bytes), rust_slice b /\ tcp_new b = Ok b.
Proof.
  exists w_debug, w_v4_udp. meet.
Qed.
(** C47: the hypotheses of C47_udp_total can be met. *)
Example c47_udp_total_meets :
  exists (b : bytes), udp_new b = Ok b.
Proof.
  exists w_udp. meet.
Qed.
(** C47: the hypotheses of C47_v4 can be met. *)
Example c47_v4_meets :
  exists (f : v4_fields) (opts : bytes) (payload : bytes) (trailer : list N), v4_fields_ok f /\ vf_version f = 4 /\ vf_ihl f * 4 = 20 + len opts /\ vf_total f = 20 + len opts + len payload /\ is_bytes (opts ++ payload ++ trailer).
Proof.
  exists w_v4_fields_options, w_payload, w_payload, w_v4_udp. meet.
Qed.
(** C47: the hypotheses of C47_v4_panics_iff can be met. *)
Example c47_v4_panics_iff_meets :
  exists (E : env) (b : bytes) (s : shown), is_bytes b /\ v4_new b = Ok b /\ v4_debug E b = Ok s.
Proof.
  exists w_debug, w_v4_udp. eexists. meet.
Qed.
(** C47: the hypotheses of C47_icmp can be met. *)
Example c47_icmp_meets :
  exists (f : icmp_fields) (rest : bytes), icmp_fields_ok f /\ is_bytes rest.
Proof.
  exists w_echo_fields, w_v4_udp. meet.
Qed.
(** C47: the hypotheses of C47_echo can be met. *)
Example c47_echo_meets :
  exists (f : icmp_fields), icmp_fields_ok f /\ (cf_type f = 8 \/ cf_type f = 0).
Proof.
  exists w_echo_fields. meet.
Qed.
(** C47: the hypotheses of C47_information can be met. *)
Example c47_information_meets :
  exists (f : icmp_fields), icmp_fields_ok f /\ (cf_type f = 15 \/ cf_type f = 16).
Proof.
  exists w_info_fields. meet.
Qed.
(** C47: the hypotheses of C47_timestamp can be met. *)
Example c47_timestamp_meets :
  exists (f : icmp_fields), icmp_fields_ok f /\ (cf_type f = 13 \/ cf_type f = 14).
Proof.
  exists w_ts_fields. meet.
Qed.
(** C47: the hypotheses of C47_embedded can be met. *)
Example c47_embedded_meets :
  (exists (E : env) (b : bytes), rust_slice b /\ parameter_problem_new b = Ok b) /\
  (exists (E : env) (b : bytes), rust_slice b /\ redirect_message_new b = Ok b) /\
  (exists (E : env) (b : bytes), rust_slice b /\ previous_new b = Ok b).
Proof.
  split. { exists w_debug, w_problem. meet. }
  split. { exists w_debug, w_redirect. meet. }
  exists w_debug, w_unreachable. meet.
Qed.
(** C47: the hypotheses of C47_ip can be met. *)
Example c47_ip_meets :
  (exists (b : bytes) (p : ip_packet), is_bytes b /\ ip_new b = Ok p /\ nthN b 0 / 16 = 6) /\
  (exists (b : bytes) (p : ip_packet), is_bytes b /\ ip_new b = Ok p /\ nthN b 0 / 16 = 4 /\ nthN b 6 / 32 mod 2 = 0) /\
  (exists (b : bytes) (p : ip_packet), is_bytes b /\ ip_new b = Ok p /\ nthN b 0 / 16 = 4 /\ nthN b 6 / 32 mod 2 = 1).
Proof.
  split. { exists w_v6. eexists. meet. }
  split. { exists w_v4_udp. eexists. meet. }
  exists w_v4_mf. eexists. meet.
Qed.
(** C47: the hypotheses of C47_tcp_option can be met. *)
Example c47_tcp_option_meets :
  exists (k : N) (d : bytes) (rest : list N), tcp_opt_ok (Opt k d) /\ is_bytes (opt_wire (Opt k d) ++ rest).
Proof.
  exists 7, w_v4_udp, w_v4_udp. meet.
Qed.
(** C47: the hypotheses of C47_v4_option can be met. *)
Example c47_v4_option_meets :
  exists (k : N) (d : bytes) (rest : list N), v4_opt_ok (Opt k d) /\ is_bytes (opt_wire (Opt k d) ++ rest).
Proof.
  exists 7, w_v4_udp, w_v4_udp. meet.
Qed.
(** C47: the hypotheses of C47_options_panic_iff can be met. *)
Example c47_options_panic_iff_meets :
  (exists (b : bytes), tcpopt_new b = Ok b) /\
  (exists (b : bytes), v4opt_new b = Ok b).
Proof.
  split. { exists w_v4_udp. meet. }
  exists w_v4_udp. meet.
Qed.
(** C48: the hypotheses of C48_ether can be met. *)
Example c48_ether_meets :
  exists (E : env) (eops : list ether_op) (p : bytes) (buf : buffer), Forall ether_op_ok eops /\ one_payload (ether_payloads eops) p /\ fresh_buffer buf 14 p.
Proof.
  exists w_debug, w_ether_ops_payload, w_payload, dynamic_new. meet.
Qed.
(** C48: the hypotheses of C48_v4 can be met. *)
Example c48_v4_meets :
  exists (E : env) (eth : option (list ether_op)) (vops : list v4_op) (p : bytes) (buf : buffer), eth_ok eth /\ Forall v4_op_ok vops /\ one_payload (v4_payloads vops) p /\ fresh_buffer buf (eth_bytes eth + 20) p.
Proof.
  exists w_debug, (Some w_ether_ops), w_v4_ops_payload, w_payload, dynamic_new. meet.
Qed.
(** C48: the hypotheses of C48_udp can be met. *)
Example c48_udp_meets :
  exists (E : env) (eth : option (list ether_op)) (vs : list v4_setter) (us : list udp_op) (p : bytes) (buf : buffer), eth_ok eth /\ Forall v4_arg_ok vs /\ Forall udp_op_ok us /\ one_payload (udp_payloads us) p /\ fresh_buffer buf (eth_bytes eth + 28) p.
Proof.
  exists w_debug, (Some w_ether_ops), w_v4_setters, w_udp_ops_payload, w_payload, dynamic_new. meet.
Qed.
(** C48: the hypotheses of C48_tcp can be met. *)
Example c48_tcp_meets :
  exists (E : env) (eth : option (list ether_op)) (vs : list v4_setter) (ts : list tcp_op) (p : bytes) (buf : buffer), eth_ok eth /\ Forall v4_arg_ok vs /\ Forall tcp_op_ok ts /\ flags_last (tcp_setters ts) /\ one_payload (tcp_payloads ts) p /\ fresh_buffer buf (eth_bytes eth + 40) p.
Proof.
  exists w_debug, (Some w_ether_ops), w_v4_setters, w_tcp_ops_payload, w_payload, dynamic_new. meet.
Qed.
(** C48: the hypotheses of C48_echo can be met. *)
Example c48_echo_meets :
  exists (E : env) (outer : option (option (list ether_op) * list v4_setter)) (ops : list echo_op) (p : bytes) (buf : buffer), outer_ok outer /\ Forall echo_op_ok ops /\ one_payload (echo_payloads ops) p /\ fresh_buffer buf (outer_bytes outer + 8) p /\ let '(t, i, s) := echo_after ops in ~ echo_kind_given ops.
Proof.
  exists w_debug, w_outer, w_echo_ops_nokind, w_payload, dynamic_new. meet.
Qed.
(** C48: the hypotheses of C48_information can be met. *)
Example c48_information_meets :
  (exists (E : env) (outer : option (option (list ether_op) * list v4_setter)) (ops : list information_op) (buf : buffer), outer_ok outer /\ Forall information_op_ok ops /\ fresh_buffer buf (outer_bytes outer + 8) [] /\ let '(t, i, s) := information_after ops in information_kind_given ops) /\
  (exists (E : env) (outer : option (option (list ether_op) * list v4_setter)) (ops : list information_op) (buf : buffer), outer_ok outer /\ Forall information_op_ok ops /\ fresh_buffer buf (outer_bytes outer + 8) [] /\ let '(t, i, s) := information_after ops in ~ information_kind_given ops).
Proof.
  split. { exists w_debug, w_outer, w_info_ops, dynamic_new. meet. }
  exists w_debug, w_outer, w_info_ops_nokind, dynamic_new. meet.
Qed.
(** C48: the hypotheses of C48_timestamp can be met. *)
Example c48_timestamp_meets :
  (exists (E : env) (outer : option (option (list ether_op) * list v4_setter)) (ops : list timestamp_op) (buf : buffer), outer_ok outer /\ Forall timestamp_op_ok ops /\ fresh_buffer buf (outer_bytes outer + 20) [] /\ let '(t, i, s, x, y, z) := timestamp_after ops in timestamp_kind_given ops) /\
  (exists (E : env) (outer : option (option (list ether_op) * list v4_setter)) (ops : list timestamp_op) (buf : buffer), outer_ok outer /\ Forall timestamp_op_ok ops /\ fresh_buffer buf (outer_bytes outer + 20) [] /\ let '(t, i, s, x, y, z) := timestamp_after ops in ~ timestamp_kind_given ops).
Proof.
  split. { exists w_debug, w_outer, w_ts_ops, dynamic_new. meet. }
  exists w_debug, w_outer, w_ts_ops_nokind, dynamic_new. meet.
Qed.
(** C49: the hypotheses of C49_ether can be met. *)
Example c49_ether_meets :
  exists (E : env) (b : bytes), rust_slice b /\ ether_new b = Ok b.
Proof.
  exists w_debug, w_v4_udp. meet.
Qed.
(** C49: the hypotheses of C49_v4 can be met. *)
Example c49_v4_meets :
  exists (b : bytes), v4_new b = Ok b /\ 5 <= nthN b 0 mod 16.
Proof.
  exists w_v4_udp. meet.
Qed.
(** C49: the hypotheses of C49_v4_header can be met. *)
Example c49_v4_header_meets :
  exists (b : bytes) (new : bytes), v4_new b = Ok b /\ 5 <= nthN b 0 mod 16 /\ len new = nthN b 0 mod 16 * 4 /\ nthN new 0 = nthN b 0 /\ wire16 new 2 = wire16 b 2.
Proof.
  exists w_v4_udp, w_v4_header. meet.
Qed.
(** C49: the hypotheses of C49_udp can be met. *)
Example c49_udp_meets :
  exists (b : bytes), udp_new b = Ok b.
Proof.
  exists w_udp. meet.
Qed.
(** C49: the hypotheses of C49_tcp can be met. *)
Example c49_tcp_meets :
  exists (E : env) (b : bytes), rust_slice b /\ tcp_new b = Ok b /\ 5 <= nthN b 12 / 16.
Proof.
  exists w_debug, w_tcp. meet.
Qed.
(** C49: the hypotheses of C49_icmp can be met. *)
Example c49_icmp_meets :
  exists (E : env) (b : bytes), rust_slice b /\ icmp_new b = Ok b.
Proof.
  exists w_debug, w_v4_udp. meet.
Qed.
(** C49: the hypotheses of C49_echo can be met. *)
Example c49_echo_meets :
  exists (E : env) (b : bytes), rust_slice b /\ echo_new b = Ok b.
Proof.
  exists w_debug, w_echo. meet.
Qed.
(** C49: the hypotheses of C49_information can be met. *)
Example c49_information_meets :
  exists (b : bytes), information_new b = Ok b.
Proof.
  exists w_info. meet.
Qed.
(** C49: the hypotheses of C49_timestamp can be met. *)
Example c49_timestamp_meets :
  exists (b : bytes), timestamp_new b = Ok b.
Proof.
  exists w_ts. meet.
Qed.
(** C49: the hypotheses of C49_redirect_message can be met. *)
Example c49_redirect_message_meets :
  exists (b : bytes), redirect_message_new b = Ok b.
Proof.
  exists w_redirect. meet.
Qed.
(** C49: the hypotheses of C49_parameter_problem can be met. *)
Example c49_parameter_problem_meets :
  exists (b : bytes), parameter_problem_new b = Ok b.
Proof.
  exists w_problem. meet.
Qed.
(** C49: the hypotheses of C49_previous can be met. *)
Example c49_previous_meets :
  exists (b : bytes), previous_new b = Ok b.
Proof.
  exists w_unreachable. meet.
Qed.
(** C49: the hypotheses of C49_tcp_option can be met. *)
Example c49_tcp_option_meets :
  exists (b : bytes), tcpopt_new b = Ok b /\ 2 <= nthN b 0 /\ 2 <= nthN b 1.
Proof.
  exists w_area4. meet.
Qed.
(** C49: the hypotheses of C49_v4_option can be met. *)
Example c49_v4_option_meets :
  exists (b : bytes), v4opt_new b = Ok b /\ 2 <= nthN b 0 mod 32 /\ 2 <= nthN b 1.
Proof.
  exists w_area4. meet.
Qed.
(** C49: the hypotheses of C49_setters can be met. *)
Example c49_setters_meets :
  (exists (b : bytes), v4_no_payload b = Ok b) /\
  (exists (b : bytes), udp_no_payload b = Ok b) /\
  (exists (b : bytes), tcp_new b = Ok b).
Proof.
  split. { exists w_v4_udp. meet. }
  split. { exists w_v4_udp. meet. }
  exists w_v4_udp. meet.
Qed.
(** C50: the hypotheses of C50_udp can be met. *)
Example c50_udp_meets :
  exists (b : bytes) (u : bytes) (ops : list udp_setter), is_bytes b /\ v4_new b = Ok b /\ 5 <= nthN b 0 mod 16 /\ v4_payload b = Ok u /\ udp_new u = Ok u /\ Forall udp_setter_ok ops.
Proof.
  exists w_v4_udp, [20; 233; 0; 53; 0; 12; 210; 175; 1; 2; 3; 4], w_udp_setters. meet.
Qed.
(** C50: the hypotheses of C50_tcp can be met. *)
Example c50_tcp_meets :
  exists (E : env) (b : bytes) (u : bytes) (ops : list tcp_setter), is_bytes b /\ v4_new b = Ok b /\ 5 <= nthN b 0 mod 16 /\ v4_payload b = Ok u /\ tcp_new u = Ok u /\ 5 <= nthN u 12 / 16 /\ (len u mod 2 = 0 \/ cursor_eof E = EofKeep) /\ Forall (fun s => tcp_setter_ok s /\ ~ tcp_is_flags s) ops.
Proof.
  exists w_debug, w_v4_tcp. eexists. exists w_tcp_setters. meet.
Qed.
(** C50: the hypotheses of C50_refused can be met. *)
Example c50_refused_meets :
  (exists (b : bytes) (u : bytes) (e : error), v4_new b = Ok b /\ 5 <= nthN b 0 mod 16 /\ v4_payload b = Ok u /\ udp_new u = Err e) /\
  (exists (b : bytes) (u : bytes) (e : error), v4_new b = Ok b /\ 5 <= nthN b 0 mod 16 /\ v4_payload b = Ok u /\ tcp_new u = Err e).
Proof.
  split. { exists w_v4_tcp. eexists. exists SmallBuffer. meet. }
  exists w_v4_udp, [20; 233; 0; 53; 0; 12; 210; 175; 1; 2; 3; 4], SmallBuffer. meet.
Qed.
(** C51: the hypotheses of C51_udp can be met. *)
Example c51_udp_meets :
  exists (E : env) (eops : list ether_op) (he : list finalizer) (vs : list v4_setter) (hv : list finalizer) (us : list udp_op) (hu : list finalizer) (p : bytes) (udp' : list N) (ip' : list N) (last : bytes * res unit), eth_ok (Some eops) /\ Forall v4_arg_ok vs /\ Forall udp_op_ok us /\ one_payload (udp_payloads us) p /\ 42 + len p <= ISIZE_MAX /\ (len p mod 2 = 0 \/ cursor_eof E = EofKeep) /\ let f := v4_after vs in let e0 := ether_wire (ether_after eops) in let ip0 := v4_wire (v4_put f (V4SetProtocol IP_Udp)) in let udp := udp_wire (udp_finished (vf_src f) (vf_dst f) (udp_after us) p) ++ p in hooks hu (e0 ++ ip0 ++ udp) = (e0 ++ ip0 ++ udp', Ok tt) /\ len udp' = len udp /\ let ip := v4_wire (v4_finished f 17 (8 + len p)) ++ udp' in hooks hv (e0 ++ ip) = (e0 ++ ip', Ok tt) /\ len ip' = len ip /\ nthN ip' 0 / 16 = 4 /\ hooks he (ether_layer (Some eops) ++ ip') = last.
Proof.
  exists w_debug, w_ether_ops, [w_flip], w_v4_setters, [w_flip], w_udp_ops_payload, [w_flip], w_payload, [20; 233; 0; 53; 0; 12; 210; 175; 1; 2; 3; 251]. eexists. eexists. meet.
Qed.
(** C51: the hypotheses of C51_udp_error can be met. *)
Example c51_udp_error_meets :
  (exists (E : env) (eops : list ether_op) (he : list finalizer) (vs : list v4_setter) (hv : list finalizer) (us : list udp_op) (hu : list finalizer) (p : bytes) (out : bytes) (e : error), eth_ok (Some eops) /\ Forall v4_arg_ok vs /\ Forall udp_op_ok us /\ one_payload (udp_payloads us) p /\ 42 + len p <= ISIZE_MAX /\ (len p mod 2 = 0 \/ cursor_eof E = EofKeep) /\ let f := v4_after vs in let e0 := ether_wire (ether_after eops) in let ip0 := v4_wire (v4_put f (V4SetProtocol IP_Udp)) in let udp := udp_wire (udp_finished (vf_src f) (vf_dst f) (udp_after us) p) ++ p in hooks hu (e0 ++ ip0 ++ udp) = (out, Err e)) /\
  (exists (E : env) (eops : list ether_op) (he : list finalizer) (vs : list v4_setter) (hv : list finalizer) (us : list udp_op) (hu : list finalizer) (p : bytes) (out : bytes), eth_ok (Some eops) /\ Forall v4_arg_ok vs /\ Forall udp_op_ok us /\ one_payload (udp_payloads us) p /\ 42 + len p <= ISIZE_MAX /\ (len p mod 2 = 0 \/ cursor_eof E = EofKeep) /\ let f := v4_after vs in let e0 := ether_wire (ether_after eops) in let ip0 := v4_wire (v4_put f (V4SetProtocol IP_Udp)) in let udp := udp_wire (udp_finished (vf_src f) (vf_dst f) (udp_after us) p) ++ p in hooks hu (e0 ++ ip0 ++ udp) = (out, Panic)) /\
  (exists (E : env) (eops : list ether_op) (he : list finalizer) (vs : list v4_setter) (hv : list finalizer) (us : list udp_op) (hu : list finalizer) (p : bytes) (udp' : list N) (out : bytes) (e : error), eth_ok (Some eops) /\ Forall v4_arg_ok vs /\ Forall udp_op_ok us /\ one_payload (udp_payloads us) p /\ 42 + len p <= ISIZE_MAX /\ (len p mod 2 = 0 \/ cursor_eof E = EofKeep) /\ let f := v4_after vs in let e0 := ether_wire (ether_after eops) in let ip0 := v4_wire (v4_put f (V4SetProtocol IP_Udp)) in let udp := udp_wire (udp_finished (vf_src f) (vf_dst f) (udp_after us) p) ++ p in hooks hu (e0 ++ ip0 ++ udp) = (e0 ++ ip0 ++ udp', Ok tt) /\ len udp' = len udp /\ let ip := v4_wire (v4_finished f 17 (8 + len p)) ++ udp' in hooks hv (e0 ++ ip) = (out, Err e)) /\
  (exists (E : env) (eops : list ether_op) (he : list finalizer) (vs : list v4_setter) (hv : list finalizer) (us : list udp_op) (hu : list finalizer) (p : bytes) (udp' : list N) (out : bytes), eth_ok (Some eops) /\ Forall v4_arg_ok vs /\ Forall udp_op_ok us /\ one_payload (udp_payloads us) p /\ 42 + len p <= ISIZE_MAX /\ (len p mod 2 = 0 \/ cursor_eof E = EofKeep) /\ let f := v4_after vs in let e0 := ether_wire (ether_after eops) in let ip0 := v4_wire (v4_put f (V4SetProtocol IP_Udp)) in let udp := udp_wire (udp_finished (vf_src f) (vf_dst f) (udp_after us) p) ++ p in hooks hu (e0 ++ ip0 ++ udp) = (e0 ++ ip0 ++ udp', Ok tt) /\ len udp' = len udp /\ let ip := v4_wire (v4_finished f 17 (8 + len p)) ++ udp' in hooks hv (e0 ++ ip) = (out, Panic)).
Proof.
  split. { exists w_debug, w_ether_ops, [w_flip], w_v4_setters, [w_flip], w_udp_ops_payload, [w_refuse; w_flip], w_payload. eexists. exists InvalidValue. meet. }
  split. { exists w_debug, w_ether_ops, [w_flip], w_v4_setters, [w_flip], w_udp_ops_payload, [w_panic; w_flip], w_payload. meet. }
  split. { exists w_debug, w_ether_ops, [w_flip], w_v4_setters, [w_refuse], w_udp_ops_payload, [w_flip], w_payload. eexists. eexists. exists InvalidValue. meet. }
  exists w_debug, w_ether_ops, [w_flip], w_v4_setters, [w_panic], w_udp_ops_payload, [w_flip], w_payload. meet.
Qed.
(** C51: the hypotheses of C51_idle_functions can be met. *)
Example c51_idle_functions_meets :
  exists (cs : list call), (Forall (fun c => match c with CallFinalizer f => forall b, f b = (b, Ok tt) | _ => True end) cs).
Proof.
  exists w_calls_udp. meet.
Qed.
(** C52: the hypotheses of C52_ether can be met. *)
Example c52_ether_meets :
  exists (b : bytes), ether_new b = Ok b.
Proof.
  exists w_v4_udp. meet.
Qed.
(** C52: the hypotheses of C52_udp can be met. *)
Example c52_udp_meets :
  exists (b : bytes), udp_no_payload b = Ok b.
Proof.
  exists w_v4_udp. meet.
Qed.
(** C52: the hypotheses of C52_tcp can be met. *)
Example c52_tcp_meets :
  exists (ops : list tcp_setter) (b : bytes), tcp_new b = Ok b /\ 5 <= nthN b 12 / 16 /\ Forall (fun o => ~ tcp_is_flags o) ops.
Proof.
  exists w_tcp_setters, w_tcp. meet.
Qed.
(** C52: the hypotheses of C52_v4 can be met. *)
Example c52_v4_meets :
  exists (ops : list v4_setter) (b : bytes), is_bytes b /\ v4_no_payload b = Ok b /\ 5 <= nthN b 0 mod 16 /\ Forall v4_setter_ok ops /\ Forall v4_in_range ops.
Proof.
  exists w_v4_setters, w_v4_udp. meet.
Qed.
(** C52: the hypotheses of C52_echo can be met. *)
Example c52_echo_meets :
  exists (b : bytes), echo_new b = Ok b.
Proof.
  exists w_echo. meet.
Qed.
(** C52: the hypotheses of C52_information can be met. *)
Example c52_information_meets :
  exists (b : bytes), information_new b = Ok b.
Proof.
  exists w_info. meet.
Qed.
(** C52: the hypotheses of C52_timestamp can be met. *)
Example c52_timestamp_meets :
  exists (b : bytes), timestamp_new b = Ok b.
Proof.
  exists w_ts. meet.
Qed.
(** C53: the hypotheses of C53_tcp can be met. *)
Example c53_tcp_meets :
  (exists (b : bytes), 5 <= nthN b 12 / 16) /\
  (exists (b : bytes), nthN b 12 / 16 < 5).
Proof.
  split. { exists w_tcp. meet. }
  exists w_v4_udp. meet.
Qed.
(** C53: the hypotheses of C53_v4 can be met. *)
Example c53_v4_meets :
  (exists (b : bytes), is_bytes b /\ wire16 b 6 / 8192 mod 2 = 0) /\
  (exists (b : bytes), is_bytes b /\ wire16 b 6 / 8192 mod 2 = 1) /\
  (exists (b : bytes), is_bytes b /\ let ihl := nthN b 0 mod 16 in 5 <= ihl) /\
  (exists (b : bytes), is_bytes b /\ let ihl := nthN b 0 mod 16 in ihl < 5).
Proof.
  split. { exists w_v4_udp. meet. }
  split. { exists w_v6. meet. }
  split. { exists w_v4_udp. meet. }
  exists w_udp. meet.
Qed.
(** C53: the hypotheses of C53_icmp_errors can be met. *)
Example c53_icmp_errors_meets :
  (exists (b : bytes), 8 <= len b) /\
  (exists (b : bytes), len b < 8).
Proof.
  split. { exists w_v4_udp. meet. }
  exists w_payload. meet.
Qed.
(** C53: the hypotheses of C53_sizes can be met. *)
Example c53_sizes_meets :
  (exists (E : env) (b : bytes), rust_slice b /\ 13 <= len b) /\
  (exists (E : env) (b : bytes), rust_slice b /\ len b < 13).
Proof.
  split. { exists w_debug, w_v4_udp. meet. }
  exists w_debug, w_udp. meet.
Qed.
(** C53: the hypotheses of C53_own_sizes can be met. *)
Example c53_own_sizes_meets :
  exists (E : env) (b : bytes), rust_slice b.
Proof.
  exists w_debug, w_v4_udp. meet.
Qed.
(** C53: the hypotheses of C53_embedded_sizes can be met. *)
Example c53_embedded_sizes_meets :
  (exists (E : env) (b : bytes), rust_slice b /\ len b < 8) /\
  (exists (E : env) (b : bytes), rust_slice b /\ 8 <= len b /\ v4_new (dropN 8 b) = Ok (dropN 8 b)) /\
  (exists (E : env) (b : bytes), rust_slice b /\ 8 <= len b /\ v4_new (dropN 8 b) <> Ok (dropN 8 b)).
Proof.
  split. { exists w_debug, w_payload. meet. }
  split. { exists w_debug, w_v4_options. meet. }
  exists w_debug, w_v4_udp. meet.
Qed.
(** C54: the hypotheses of C54_v4_same can be met. *)
Example c54_v4_same_meets :
  exists (b : bytes), wire16 b 12 = 0x0800 /\ nthN b 14 / 16 = 4 /\ 15 <= len b.
Proof.
  exists w_udp_frame. meet.
Qed.
(** C55: the hypotheses of C55_udp can be met. *)
Example c55_udp_meets :
  exists (E : env) (b : bytes) (ip : bytes) (u : bytes), is_bytes b /\ ether_new b = Ok b /\ wire16 b 12 = 0x0800 /\ ether_payload b = Ok ip /\ v4_new ip = Ok ip /\ plain_ip E 17 ip /\ v4_payload ip = Ok u /\ udp_new u = Ok u /\ plain_udp E ip u /\ (len u mod 2 = 0 \/ cursor_eof E = EofKeep).
Proof.
  exists w_debug, w_udp_frame. eexists. exists [20; 233; 0; 53; 0; 12; 210; 175; 1; 2; 3; 4]. meet.
Qed.
(** C55: the hypotheses of C55_order_refuted can be met. *)
Example c55_order_refuted_meets :
  exists (E : env) (b : bytes) (ip : bytes) (u : bytes), is_bytes b /\ ether_new b = Ok b /\ wire16 b 12 = 0x0800 /\ ether_payload b = Ok ip /\ v4_new ip = Ok ip /\ plain_ip E 17 ip /\ v4_payload ip = Ok u /\ udp_new u = Ok u /\ plain_udp E ip u /\ (len u mod 2 = 0 \/ cursor_eof E = EofKeep).
Proof.
  exists w_debug, w_udp_frame. eexists. exists [20; 233; 0; 53; 0; 12; 210; 175; 1; 2; 3; 4]. meet.
Qed.
(** C55: the hypotheses of C55_flags_refuted can be met. *)
Example c55_flags_refuted_meets :
  exists (E : env) (b : bytes) (ip : bytes) (u : bytes), is_bytes b /\ ether_new b = Ok b /\ wire16 b 12 = 0x0800 /\ ether_payload b = Ok ip /\ v4_new ip = Ok ip /\ plain_ip_word 0x4000 E 17 ip /\ v4_payload ip = Ok u /\ udp_new u = Ok u /\ plain_udp E ip u /\ (len u mod 2 = 0 \/ cursor_eof E = EofKeep).
Proof.
  exists w_debug, w_udp_frame_df. eexists. exists [20; 233; 0; 53; 0; 12; 210; 175; 1; 2; 3; 4]. meet.
Qed.
(** C55: the hypotheses of C55_tcp can be met. *)
Example c55_tcp_meets :
  exists (E : env) (b : bytes) (ip : bytes) (t : bytes), is_bytes b /\ ether_new b = Ok b /\ wire16 b 12 = 0x0800 /\ ether_payload b = Ok ip /\ v4_new ip = Ok ip /\ plain_ip E 6 ip /\ v4_payload ip = Ok t /\ tcp_new t = Ok t /\ plain_tcp E ip t /\ (len t mod 2 = 0 \/ cursor_eof E = EofKeep).
Proof.
  exists w_debug, w_tcp_frame. eexists. eexists. meet.
Qed.
(** C55: the hypotheses of C55_echo can be met. *)
Example c55_echo_meets :
  exists (E : env) (b : bytes) (ip : bytes) (m : bytes), is_bytes b /\ ether_new b = Ok b /\ wire16 b 12 = 0x0800 /\ ether_payload b = Ok ip /\ v4_new ip = Ok ip /\ plain_ip E 1 ip /\ v4_payload ip = Ok m /\ echo_new m = Ok m /\ plain_echo E m.
Proof.
  exists w_debug, w_echo_frame. eexists. exists [8; 0; 243; 241; 0; 7; 0; 1; 1; 2; 3; 4]. meet.
Qed.
(** C56: the hypotheses of C56_ether_order can be met. *)
Example c56_ether_order_meets :
  exists (ops : list ether_call) (ops' : list ether_call) (b : bytes), ether_new b = Ok b /\ each_once ether_field ops /\ Permutation ops ops'.
Proof.
  exists w_ether_calls, (rev w_ether_calls), w_v4_udp. meet.
Qed.
(** C56: the hypotheses of C56_udp_order can be met. *)
Example c56_udp_order_meets :
  exists (ops : list udp_setter) (ops' : list udp_setter) (b : bytes), udp_no_payload b = Ok b /\ each_once udp_field ops /\ Permutation ops ops'.
Proof.
  exists w_udp_setters, (rev w_udp_setters), w_v4_udp. meet.
Qed.
(** C56: the hypotheses of C56_tcp_order can be met. *)
Example c56_tcp_order_meets :
  exists (ops : list tcp_setter) (ops' : list tcp_setter) (b : bytes), tcp_new b = Ok b /\ 5 <= nthN b 12 / 16 /\ Forall (fun o => ~ tcp_is_flags o) ops /\ each_once tcp_field ops /\ Permutation ops ops'.
Proof.
  exists w_tcp_setters, (rev w_tcp_setters), w_tcp. meet.
Qed.
(** C56: the hypotheses of C56_v4_order can be met. *)
Example c56_v4_order_meets :
  exists (ops : list v4_setter) (ops' : list v4_setter) (b : bytes), is_bytes b /\ v4_no_payload b = Ok b /\ 5 <= nthN b 0 mod 16 /\ Forall v4_setter_ok ops /\ Forall v4_in_range ops /\ each_once v4_field ops /\ Permutation ops ops'.
Proof.
  exists w_v4_setters, (rev w_v4_setters), w_v4_udp. meet.
Qed.
(** C56: the hypotheses of C56_echo_order can be met. *)
Example c56_echo_order_meets :
  exists (ops : list echo_setter) (ops' : list echo_setter) (b : bytes), echo_new b = Ok b /\ each_once echo_field ops /\ Permutation ops ops'.
Proof.
  exists w_echo_setters, (rev w_echo_setters), w_echo. meet.
Qed.
(** C56: the hypotheses of C56_information_order can be met. *)
Example c56_information_order_meets :
  exists (ops : list information_setter) (ops' : list information_setter) (b : bytes), information_new b = Ok b /\ each_once information_field ops /\ Permutation ops ops'.
Proof.
  exists w_info_setters, (rev w_info_setters), w_info. meet.
Qed.
(** C56: the hypotheses of C56_timestamp_order can be met. *)
Example c56_timestamp_order_meets :
  exists (ops : list timestamp_setter) (ops' : list timestamp_setter) (b : bytes), timestamp_new b = Ok b /\ each_once timestamp_field ops /\ Permutation ops ops'.
Proof.
  exists w_ts_setters, (rev w_ts_setters), w_ts. meet.
Qed.
(** C56: the hypotheses of C56_v4_checked can be met. *)
Example c56_v4_checked_meets :
  exists (ops : list v4_setter) (ops' : list v4_setter) (b : bytes), is_bytes b /\ v4_no_payload b = Ok b /\ 5 <= nthN b 0 mod 16 /\ Forall v4_setter_ok ops /\ Forall v4_in_range ops /\ each_once v4_field ops /\ Permutation ops ops'.
Proof.
  exists w_v4_setters, (rev w_v4_setters), w_v4_udp. meet.
Qed.
(** C56: the hypotheses of C56_udp_checked can be met. *)
Example c56_udp_checked_meets :
  exists (ops : list udp_setter) (ops' : list udp_setter) (b : bytes), udp_no_payload b = Ok b /\ each_once udp_field ops /\ Permutation ops ops'.
Proof.
  exists w_udp_setters, (rev w_udp_setters), w_v4_udp. meet.
Qed.
(** C56: the hypotheses of C56_tcp_checked can be met. *)
Example c56_tcp_checked_meets :
  exists (ops : list tcp_setter) (ops' : list tcp_setter) (b : bytes), tcp_new b = Ok b /\ 5 <= nthN b 12 / 16 /\ Forall (fun o => ~ tcp_is_flags o) ops /\ each_once tcp_field ops /\ Permutation ops ops'.
Proof.
  exists w_tcp_setters, (rev w_tcp_setters), w_tcp. meet.
Qed.
(** C56: the hypotheses of C56_icmp_checked can be met. *)
Example c56_icmp_checked_meets :
  (exists (b : bytes) ops ops', echo_new b = Ok b /\ each_once echo_field ops /\ Permutation ops ops') /\
  (exists (b : bytes) ops ops', information_new b = Ok b /\ each_once information_field ops /\ Permutation ops ops') /\
  (exists (b : bytes) ops ops', timestamp_new b = Ok b /\ each_once timestamp_field ops /\ Permutation ops ops').
Proof.
  split. { exists w_echo, w_echo_setters, (rev w_echo_setters). meet. }
  split. { exists w_info, w_info_setters, (rev w_info_setters). meet. }
  exists w_ts, w_ts_setters, (rev w_ts_setters). meet.
Qed.
(** C57: the hypotheses of C57_v4_stored can be met. *)
Example c57_v4_stored_meets :
  exists (b : bytes) (c : bytes), is_bytes b /\ is_bytes c /\ v4_no_payload b = Ok b /\ 3 <= nthN b 0 mod 16 /\ only_changes 10 12 b c.
Proof.
  exists w_v4_udp, w_v4_udp. meet.
Qed.
(** C57: the hypotheses of C57_v4_fixed can be met. *)
Example c57_v4_fixed_meets :
  exists (b : bytes), is_bytes b /\ v4_no_payload b = Ok b /\ 3 <= nthN b 0 mod 16.
Proof.
  exists w_v4_udp. meet.
Qed.
(** C57: the hypotheses of C57_udp_stored can be met. *)
Example c57_udp_stored_meets :
  exists (p : bytes) (b : bytes) (c : bytes), is_bytes p /\ is_bytes b /\ is_bytes c /\ 20 <= len p /\ 8 <= len b /\ only_changes 6 8 b c.
Proof.
  exists w_v4_udp, w_v4_udp, w_v4_udp. meet.
Qed.
(** C57: the hypotheses of C57_udp_fixed can be met. *)
Example c57_udp_fixed_meets :
  exists (p : bytes) (b : bytes), is_bytes p /\ is_bytes b /\ 20 <= len p /\ 8 <= len b.
Proof.
  exists w_v4_udp, w_v4_udp. meet.
Qed.
(** C57: the hypotheses of C57_tcp_stored can be met. *)
Example c57_tcp_stored_meets :
  exists (E : env) (p : bytes) (b : bytes) (c : bytes), is_bytes p /\ is_bytes b /\ is_bytes c /\ 20 <= len p /\ len b <= 131065 /\ (len b mod 2 = 0 \/ cursor_eof E = EofKeep) /\ tcp_new b = Ok b /\ 5 <= nthN b 12 / 16 /\ only_changes 16 18 b c.
Proof.
  exists w_debug, w_v4_udp, w_tcp, w_tcp. meet.
Qed.
(** C57: the hypotheses of C57_tcp_fixed can be met. *)
Example c57_tcp_fixed_meets :
  exists (E : env) (p : bytes) (b : bytes), is_bytes p /\ is_bytes b /\ 20 <= len p /\ len b <= 131065 /\ (len b mod 2 = 0 \/ cursor_eof E = EofKeep) /\ tcp_new b = Ok b /\ 5 <= nthN b 12 / 16.
Proof.
  exists w_debug, w_v4_udp, w_tcp. meet.
Qed.
(** C57: the hypotheses of C57_echo_stored can be met. *)
Example c57_echo_stored_meets :
  exists (E : env) (b : bytes) (c : bytes), rust_slice b /\ is_bytes c /\ echo_new b = Ok b /\ only_changes 2 4 b c.
Proof.
  exists w_debug, w_echo, w_echo. meet.
Qed.
(** C57: the hypotheses of C57_echo_fixed can be met. *)
Example c57_echo_fixed_meets :
  exists (E : env) (b : bytes), rust_slice b /\ echo_new b = Ok b.
Proof.
  exists w_debug, w_echo. meet.
Qed.
(** C57: the hypotheses of C57_information_stored can be met. *)
Example c57_information_stored_meets :
  exists (b : bytes) (c : bytes), is_bytes b /\ is_bytes c /\ information_new b = Ok b /\ only_changes 2 4 b c.
Proof.
  exists w_info, w_info. meet.
Qed.
(** C57: the hypotheses of C57_information_fixed can be met. *)
Example c57_information_fixed_meets :
  exists (b : bytes), is_bytes b /\ information_new b = Ok b.
Proof.
  exists w_info. meet.
Qed.
(** C57: the hypotheses of C57_timestamp_stored can be met. *)
Example c57_timestamp_stored_meets :
  exists (b : bytes) (c : bytes), is_bytes b /\ is_bytes c /\ timestamp_new b = Ok b /\ only_changes 2 4 b c.
Proof.
  exists w_ts, w_ts. meet.
Qed.
(** C57: the hypotheses of C57_timestamp_fixed can be met. *)
Example c57_timestamp_fixed_meets :
  exists (b : bytes), is_bytes b /\ timestamp_new b = Ok b.
Proof.
  exists w_ts. meet.
Qed.
(** C58: the hypotheses of C58_tcp_finishes can be met. *)
Example c58_tcp_finishes_meets :
  exists (area : bytes), is_bytes area.
Proof.
  exists w_v4_udp. meet.
Qed.
(** C58: the hypotheses of C58_v4_finishes can be met. *)
Example c58_v4_finishes_meets :
  exists (area : bytes), is_bytes area.
Proof.
  exists w_v4_udp. meet.
Qed.
(** C58: the hypotheses of C58_tcp_tiles can be met. *)
Example c58_tcp_tiles_meets :
  exists (E : env) (area : bytes), is_bytes area /\ ((exists n, In (Ok Finished) (nexts (tcp_iter_next E) n area))).
Proof.
  exists w_debug, w_area_tcp. split; [ chk | exists 9%nat; chk ].
Qed.
(** C58: the hypotheses of C58_v4_tiles can be met. *)
Example c58_v4_tiles_meets :
  exists (E : env) (area : bytes), is_bytes area /\ ((exists n, In (Ok Finished) (nexts (v4_iter_next E) n area))).
Proof.
  exists w_debug, w_area4. split; [ chk | exists 9%nat; chk ].
Qed.
(** C58: the hypotheses of C58_bounded can be met. *)
Example c58_bounded_meets :
  (exists (E : env) (area : bytes), is_bytes area /\ ((exists n, In (Ok Finished) (nexts (tcp_iter_next E) n area)))) /\
  (exists (E : env) (area : bytes), is_bytes area /\ ((exists n, In (Ok Finished) (nexts (v4_iter_next E) n area)))).
Proof.
  split. { exists w_debug, w_area_tcp. split; [ chk | exists 9%nat; chk ]. }
  exists w_debug, w_area4. split; [ chk | exists 9%nat; chk ].
Qed.
(** C58: the hypotheses of C58_profile can be met. *)
Example c58_profile_meets :
  exists (area : bytes), is_bytes area.
Proof.
  exists w_v4_udp. meet.
Qed.
(** C59: the hypotheses of C59_ether can be met. *)
Example c59_ether_meets :
  exists (E : env) (xs : list (via ether_op ether_call)) (p : bytes) (buf : buffer), let ops := map (as_method ether_method) xs in Forall ether_op_ok ops /\ one_payload (ether_payloads ops) p /\ fresh_buffer buf 14 p.
Proof.
  exists w_debug, w_ether_via_payload, w_payload, dynamic_new. meet.
Qed.
(** C59: the hypotheses of C59_v4 can be met. *)
Example c59_v4_meets :
  exists (E : env) (eth : option (list (via ether_op ether_call))) (xs : list (via v4_op v4_setter)) (p : bytes) (buf : buffer), let eops := option_map (map (as_method ether_method)) eth in let ops := map (as_method V4Set) xs in eth_ok eops /\ Forall v4_op_ok ops /\ one_payload (v4_payloads ops) p /\ fresh_buffer buf (eth_bytes eops + 20) p.
Proof.
  exists w_debug, (Some w_ether_via), w_v4_via, w_payload, dynamic_new. meet.
Qed.
(** C59: the hypotheses of C59_udp can be met. *)
Example c59_udp_meets :
  exists (E : env) (eth : option (list (via ether_op ether_call))) (vs : list (via v4_op v4_setter)) (xs : list (via udp_op udp_setter)) (p : bytes) (buf : buffer), let eops := option_map (map (as_method ether_method)) eth in let vops := map (as_method V4Set) vs in let ops := map (as_method UdpSet) xs in eth_ok eops /\ Forall v4_op_ok vops /\ v4_payloads vops = [] /\ Forall udp_op_ok ops /\ one_payload (udp_payloads ops) p /\ fresh_buffer buf (eth_bytes eops + 28) p.
Proof.
  exists w_debug, (Some w_ether_via), w_v4_via0, w_udp_via, w_payload, dynamic_new. meet.
Qed.
(** C59: the hypotheses of C59_tcp can be met. *)
Example c59_tcp_meets :
  exists (E : env) (eth : option (list (via ether_op ether_call))) (vs : list (via v4_op v4_setter)) (xs : list (via tcp_op tcp_setter)) (p : bytes) (buf : buffer), let eops := option_map (map (as_method ether_method)) eth in let vops := map (as_method V4Set) vs in let ops := map (as_method TcpSet) xs in eth_ok eops /\ Forall v4_op_ok vops /\ v4_payloads vops = [] /\ Forall tcp_op_ok ops /\ flags_last (tcp_setters ops) /\ one_payload (tcp_payloads ops) p /\ fresh_buffer buf (eth_bytes eops + 40) p.
Proof.
  exists w_debug, (Some w_ether_via), w_v4_via0, w_tcp_via, w_payload, dynamic_new. meet.
Qed.
(** C59: the hypotheses of C59_echo can be met. *)
Example c59_echo_meets :
  (exists (E : env) (outer : option (option (list ether_op) * list v4_setter)) (xs : list (via echo_op echo_setter)) (p : bytes) (buf : buffer), let ops := map (as_method echo_method) xs in outer_ok outer /\ Forall echo_op_ok ops /\ one_payload (echo_payloads ops) p /\ fresh_buffer buf (outer_bytes outer + 8) p /\ echo_kind_given (methods xs)) /\
  (exists (E : env) (outer : option (option (list ether_op) * list v4_setter)) (xs : list (via echo_op echo_setter)) (p : bytes) (buf : buffer), let ops := map (as_method echo_method) xs in outer_ok outer /\ Forall echo_op_ok ops /\ one_payload (echo_payloads ops) p /\ fresh_buffer buf (outer_bytes outer + 8) p /\ ~ echo_kind_given (methods xs)).
Proof.
  split. { exists w_debug, w_outer, w_echo_via, w_payload, dynamic_new. meet. }
  exists w_debug, w_outer, w_echo_via_nokind, w_payload, dynamic_new. meet.
Qed.
(** C59: the hypotheses of C59_information can be met. *)
Example c59_information_meets :
  (exists (E : env) (outer : option (option (list ether_op) * list v4_setter)) (xs : list (via information_op information_setter)) (buf : buffer), let ops := map (as_method information_method) xs in outer_ok outer /\ Forall information_op_ok ops /\ fresh_buffer buf (outer_bytes outer + 8) [] /\ ((forall s, In (Through s) xs -> ~ info_make s)) /\ after_kind information_kind_given xs) /\
  (exists (E : env) (outer : option (option (list ether_op) * list v4_setter)) (xs : list (via information_op information_setter)) (buf : buffer), let ops := map (as_method information_method) xs in outer_ok outer /\ Forall information_op_ok ops /\ fresh_buffer buf (outer_bytes outer + 8) [] /\ ((forall s, In (Through s) xs -> ~ info_make s)) /\ ~ after_kind information_kind_given xs).
Proof.
  split. { exists w_debug, w_outer, w_info_via, dynamic_new. cbv zeta. split; [ chk | split; [ chk | split; [ chk | split; [ intros s [H | [H | []]]; [ discriminate H | injection H as <-; intros [K | K]; discriminate K ] | intros before s0 rest H; destruct before as [|x before]; [ discriminate H | injection H as <- H; left; left; reflexivity ] ] ] ] ]. }
  exists w_debug, w_outer, w_info_via_nokind, dynamic_new. cbv zeta. split; [ chk | split; [ chk | split; [ chk | split; [ intros s [H | []]; injection H as <-; intros [K | K]; discriminate K | let H := fresh in intros H; specialize (H [] _ [] eq_refl); destruct H as [[]|[]] ] ] ] ].
Qed.
(** C59: the hypotheses of C59_timestamp can be met. *)
Example c59_timestamp_meets :
  (exists (E : env) (outer : option (option (list ether_op) * list v4_setter)) (xs : list (via timestamp_op timestamp_setter)) (buf : buffer), let ops := map (as_method timestamp_method) xs in outer_ok outer /\ Forall timestamp_op_ok ops /\ fresh_buffer buf (outer_bytes outer + 20) [] /\ ((forall s, In (Through s) xs -> ~ ts_make s)) /\ after_kind timestamp_kind_given xs) /\
  (exists (E : env) (outer : option (option (list ether_op) * list v4_setter)) (xs : list (via timestamp_op timestamp_setter)) (buf : buffer), let ops := map (as_method timestamp_method) xs in outer_ok outer /\ Forall timestamp_op_ok ops /\ fresh_buffer buf (outer_bytes outer + 20) [] /\ ((forall s, In (Through s) xs -> ~ ts_make s)) /\ ~ after_kind timestamp_kind_given xs).
Proof.
  split. { exists w_debug, w_outer, w_ts_via, dynamic_new. cbv zeta. split; [ chk | split; [ chk | split; [ chk | split; [ intros s [H | [H | []]]; [ discriminate H | injection H as <-; intros [K | K]; discriminate K ] | intros before s0 rest H; destruct before as [|x before]; [ discriminate H | injection H as <- H; left; left; reflexivity ] ] ] ] ]. }
  exists w_debug, w_outer, w_ts_via_nokind, dynamic_new. cbv zeta. split; [ chk | split; [ chk | split; [ chk | split; [ intros s [H | []]; injection H as <-; intros [K | K]; discriminate K | let H := fresh in intros H; specialize (H [] _ [] eq_refl); destruct H as [[]|[]] ] ] ] ].
Qed.
(** C59: the hypotheses of C59_udp_edit can be met. *)
Example c59_udp_edit_meets :
  exists (E : env) (eth : option (list ether_op)) (vs : list v4_setter) (us : list udp_op) (p : bytes) (buf : buffer) (mutate : list N -> list N * res unit) (g : udp_fields) (q : list N), eth_ok eth /\ Forall v4_arg_ok vs /\ Forall udp_op_ok us /\ one_payload (udp_payloads us) p /\ fresh_buffer buf (eth_bytes eth + 28) p /\ (len p mod 2 = 0 \/ cursor_eof E = EofKeep) /\ mutate (udp_wire (udp_after us) ++ p) = (udp_wire g ++ q, Ok tt) /\ udp_fields_ok g /\ is_bytes q /\ len q = len p.
Proof.
  exists w_debug, (Some w_ether_ops), w_v4_setters, w_udp_ops_payload, w_payload, dynamic_new, (w_overwrite (udp_wire w_udp_fields ++ w_four)), w_udp_fields, w_four. meet.
Qed.
(** C59: the hypotheses of C59_tcp_edit can be met. *)
Example c59_tcp_edit_meets :
  exists (E : env) (eth : option (list ether_op)) (vs : list v4_setter) (ts : list tcp_op) (p : bytes) (buf : buffer) (mutate : list N -> list N * res unit) (g : tcp_fields) (q : list N), eth_ok eth /\ Forall v4_arg_ok vs /\ Forall tcp_op_ok ts /\ flags_last (tcp_setters ts) /\ one_payload (tcp_payloads ts) p /\ fresh_buffer buf (eth_bytes eth + 40) p /\ 20 + len p <= 131065 /\ (len p mod 2 = 0 \/ cursor_eof E = EofKeep) /\ mutate (tcp_wire (if flags_called ts then tcp_fill (tcp_after ts) 0 0 else tcp_after ts) ++ p) = (tcp_wire g ++ q, Ok tt) /\ tcp_fields_ok g /\ is_bytes q /\ len q = len p.
Proof.
  exists w_debug, (Some w_ether_ops), w_v4_setters, w_tcp_ops_payload, w_payload, dynamic_new, (w_overwrite (tcp_wire w_tcp_fields ++ w_four)), w_tcp_fields, w_four. meet.
Qed.
(** C59: the hypotheses of C59_echo_edit can be met. *)
Example c59_echo_edit_meets :
  (exists (E : env) (outer : option (option (list ether_op) * list v4_setter)) (ops : list echo_op) (p : bytes) (buf : buffer) (mutate : list N -> list N * res unit) (h : icmp_fields) (q : list N), outer_ok outer /\ Forall echo_op_ok ops /\ one_payload (echo_payloads ops) p /\ fresh_buffer buf (outer_bytes outer + 8) p /\ let '(t, i, s) := echo_after ops in mutate (ident_wire (unsummed t) i s ++ p) = (icmp_wire h ++ q, Ok tt) /\ icmp_fields_ok h /\ is_bytes q /\ len q = 4 + len p /\ echo_kind_given ops) /\
  (exists (E : env) (outer : option (option (list ether_op) * list v4_setter)) (ops : list echo_op) (p : bytes) (buf : buffer) (mutate : list N -> list N * res unit) (h : icmp_fields) (q : list N), outer_ok outer /\ Forall echo_op_ok ops /\ one_payload (echo_payloads ops) p /\ fresh_buffer buf (outer_bytes outer + 8) p /\ let '(t, i, s) := echo_after ops in mutate (ident_wire (unsummed t) i s ++ p) = (icmp_wire h ++ q, Ok tt) /\ icmp_fields_ok h /\ is_bytes q /\ len q = 4 + len p /\ ~ echo_kind_given ops).
Proof.
  split. { exists w_debug, w_outer, w_echo_ops_payload, w_payload, dynamic_new, (w_overwrite (icmp_wire w_echo_fields ++ w_long_echo)), w_echo_fields, w_long_echo. meet. }
  exists w_debug, w_outer, w_echo_ops_nokind, w_payload, dynamic_new, (w_overwrite (icmp_wire w_echo_fields ++ w_long_echo)), w_echo_fields, w_long_echo. meet.
Qed.
(** C59: the hypotheses of C59_as_packet can be met.  (The panicking case is met by a builder no call sequence makes; the theorem covers it all the same.) *)
Example c59_as_packet_meets :
  (exists (E : env) (parse : bytes -> res bytes) (b : builder) (e : error), builder_as_packet E parse b = Err e) /\
  (exists (E : env) (parse : bytes -> res bytes) (b : builder), builder_as_packet E parse b = Panic) /\
  (exists (E : env) (parse : bytes -> res bytes) (b : builder) (d : bytes), builder_as_packet E parse b = Ok d).
Proof.
  split. { exists w_debug, ether_new, w_udp_builder, SmallBuffer. meet. }
  split. { exists w_debug, v4_new, w_wrong_builder. meet. }
  exists w_debug, ether_new, w_ether_builder, [0; 0; 0; 0; 0; 0; 0; 0; 0; 0; 0; 0; 0; 0]. meet.
Qed.
(** C60: the hypotheses of C60_std can be met. *)
Example c60_std_meets :
  (exists (E : env) (E' : env) (b : bytes), overflow_checks E = overflow_checks E' /\ target E = target E' /\ len b mod 2 = 0) /\
  (exists (E : env) (E' : env) (cl : closing), overflow_checks E = overflow_checks E' /\ target E = target E' /\ cl <> ClUdp /\ cl <> ClTcp).
Proof.
  split. { exists w_debug, w_debug, w_v4_udp. meet. }
  exists w_debug, w_debug, ClEcho. meet.
Qed.
(** C61: the hypotheses of C61_dynamic can be met. *)
Example c61_dynamic_meets :
  exists (E : env) (o : opening) (cs : list call) (cl : closing) (held : bytes) (off : N) (l : N), compiles o cs cl /\ o <> OpUdp /\ o <> OpTcp /\ Forall plain cs /\ off + l = len held /\ len held + added o cs <= ISIZE_MAX.
Proof.
  exists w_debug, OpEther, w_calls_udp, ClUdp, w_eth, 7, 7. meet.
Qed.
(** C61: the hypotheses of C61_slice can be met. *)
Example c61_slice_meets :
  exists (E : env) (o : opening) (cs : list call) (cl : closing) (held : bytes) (mem : bytes), compiles o cs cl /\ o <> OpUdp /\ o <> OpTcp /\ Forall plain cs /\ len held + len mem <= ISIZE_MAX.
Proof.
  exists w_debug, OpEther, w_calls_udp, ClUdp, w_v4_udp, w_v4_udp. meet.
Qed.
(** C62: the hypotheses of C62_udp can be met. *)
Example c62_udp_meets :
  exists (E : env) (held : bytes) (h : bytes) (us : list udp_op) (p : bytes), is_bytes h /\ is_v4 h /\ Forall udp_op_ok us /\ one_payload (udp_payloads us) p /\ len held + len h + 8 + len p <= ISIZE_MAX /\ (len p mod 2 = 0 \/ cursor_eof E = EofKeep).
Proof.
  exists w_debug, w_v4_udp, w_v4_udp, w_udp_ops_payload, w_payload. meet.
Qed.
(** C62: the hypotheses of C62_tcp can be met. *)
Example c62_tcp_meets :
  exists (E : env) (held : bytes) (h : bytes) (us : list tcp_op) (p : bytes), is_bytes h /\ is_v4 h /\ Forall tcp_op_ok us /\ flags_last (tcp_setters us) /\ one_payload (tcp_payloads us) p /\ len held + len h + 20 + len p <= ISIZE_MAX /\ 20 + len p <= 131065 /\ (len p mod 2 = 0 \/ cursor_eof E = EofKeep).
Proof.
  exists w_debug, w_v4_udp, w_v4_udp, w_tcp_ops_payload, w_payload. meet.
Qed.
(** C62: the hypotheses of C62_not_ip can be met. *)
Example c62_not_ip_meets :
  (exists (E : env) (held : bytes) (h : bytes) (p : bytes) us, ~ is_v4 h /\ Forall udp_op_ok us /\ one_payload (udp_payloads us) p /\ len held + len h + 8 + len p <= ISIZE_MAX) /\
  (exists (E : env) (held : bytes) (h : bytes) (p : bytes) us, ~ is_v4 h /\ Forall tcp_op_ok us /\ flags_last (tcp_setters us) /\ one_payload (tcp_payloads us) p /\ len held + len h + 20 + len p <= ISIZE_MAX).
Proof.
  split. { exists w_debug, w_v4_udp, w_udp, w_payload, w_udp_ops_payload. meet. }
  exists w_debug, w_v4_udp, w_udp, w_payload, w_tcp_ops_payload. meet.
Qed.
(** C62: the hypotheses of C62_buffer can be met. *)
Example c62_buffer_meets :
  exists (E : env) (held : bytes) (h : bytes), len held + len h <= ISIZE_MAX.
Proof.
  exists w_debug, w_v4_udp, w_v4_udp. meet.
Qed.
(** C63: the hypotheses of C63_any_buffer can be met. *)
Example c63_any_buffer_meets :
  exists (T : Type) (I : impl T) (E : env) (cap : N) (refused : error -> Prop) (holds : T -> bytes -> bytes -> Prop) (o : opening) (cs : list call) (t : T) (before : bytes) (layer : bytes), lawful I E cap refused holds /\ holds t before layer /\ Forall in_place cs /\ len before + len layer + added o cs <= ISIZE_MAX.
Proof.
  exists bounded, bounded_impl, w_debug, 47, (fun e => e = SmallBuffer), (bounded_holds 47), OpEther, w_calls_udp, (Bounded [] w_odd 47), [], w_odd. split; [ apply GenericProofs.c63_bounded_lawful | meet ].
Qed.
(** C63: the hypotheses of C63_any_preview can be met. *)
Example c63_any_preview_meets :
  exists (T : Type) (I : impl T) (E : env) (cap : N) (refused : error -> Prop) (holds : T -> bytes -> bytes -> Prop) (o : opening) (cs : list call) (t : T) (before : bytes) (layer : bytes), lawful I E cap refused holds /\ holds t before layer /\ Forall in_place cs /\ len before + len layer + added o cs <= ISIZE_MAX.
Proof.
  exists bounded, bounded_impl, w_debug, 47, (fun e => e = SmallBuffer), (bounded_holds 47), OpEther, w_calls_udp, (Bounded [] w_odd 47), [], w_odd. split; [ apply GenericProofs.c63_bounded_lawful | meet ].
Qed.
(** C63: the hypotheses of C63_room can be met. *)
Example c63_room_meets :
  exists (T : Type) (I : impl T) (E : env) (cap : N) (refused : error -> Prop) (holds : T -> bytes -> bytes -> Prop) (o : opening) (cs : list call) (t : T) (before : bytes) (layer : bytes), lawful I E cap refused holds /\ holds t before layer /\ Forall in_place cs /\ len before + len layer + added o cs <= cap /\ len before + len layer + added o cs <= ISIZE_MAX.
Proof.
  exists bounded, bounded_impl, w_debug, 49, (fun e => e = SmallBuffer), (bounded_holds 49), OpEther, w_calls_udp, (Bounded [] w_odd 49), [], w_odd. split; [ apply GenericProofs.c63_bounded_lawful | meet ].
Qed.
(** C63: the hypotheses of C63_same_packets can be met. *)
Example c63_same_packets_meets :
  exists (T : Type) (I : impl T) (T' : Type) (I' : impl T') (E : env) (cap : N) (refused : error -> Prop) (holds : T -> bytes -> bytes -> Prop) (cap' : N) (refused' : error -> Prop) (holds' : T' -> bytes -> bytes -> Prop) (o : opening) (cs : list call) (cl : closing) (t : T) (t' : T') (before : bytes) (layer : bytes) (out : bytes) (out' : bytes), lawful I E cap refused holds /\ lawful I' E cap' refused' holds' /\ holds t before layer /\ holds' t' before layer /\ Forall in_place cs /\ len before + len layer + added o cs <= ISIZE_MAX /\ gprogram I E o cs cl t = Ok out /\ gprogram I' E o cs cl t' = Ok out'.
Proof.
  exists bounded, bounded_impl, bounded, bounded_impl, w_debug, 49, (fun e => e = SmallBuffer), (bounded_holds 49), 60, (fun e => e = SmallBuffer), (bounded_holds 60), OpEther, w_calls_udp, ClUdp, (Bounded [] w_odd 49), (Bounded [] w_odd 60), [], w_odd. eexists. eexists. split; [ apply GenericProofs.c63_bounded_lawful | split; [ apply GenericProofs.c63_bounded_lawful | meet ] ].
Qed.
(** C63: the hypotheses of C63_slice_refuted can be met. *)
Example c63_slice_refuted_meets :
  exists (E : env) (cap : N) (holds : buffer -> bytes -> bytes -> Prop) (mem : bytes), 2 <= len mem /\ 2 <= cap /\ len mem <= ISIZE_MAX /\ holds (slice_new mem) [] [].
Proof.
  exists w_debug, 100, (fun t before layer => t = slice_new (zeros 100) /\ before = [] /\ layer = []), (zeros 100). meet.
Qed.
(** C64: the hypotheses of C64_slices can be met. *)
Example c64_slices_meets :
  exists (E : env) (b : bytes) (p : ip_packet), rust_slice b /\ ip_new b = Ok p.
Proof.
  exists w_debug, w_v4_udp. eexists. meet.
Qed.
(** C64: the hypotheses of C64_from can be met. *)
Example c64_from_meets :
  (exists (b : bytes) (p : ip_packet), (p = ip_from_v4 b \/ p = ip_to_owned (ip_from_v4 b)) /\ is_bytes b) /\
  (exists (b : bytes) (p : ip_packet), (p = ip_from_v6 b \/ p = ip_to_owned (ip_from_v6 b))).
Proof.
  split. { exists w_v4_udp, (V4 w_v4_udp). meet. }
  exists w_v6, (V6 w_v6). meet.
Qed.
(** C65: the hypotheses of C65_reference can be met. *)
Example c65_reference_meets :
  exists (E : env) (o : opening) (cs : list call) (cl : closing), compiles o cs cl /\ Forall ordinary cs /\ added o cs <= ISIZE_MAX.
Proof.
  exists w_debug, OpEther, w_calls_udp, ClUdp. meet.
Qed.
(** C65: the hypotheses of C65_slice can be met. *)
Example c65_slice_meets :
  exists (E : env) (o : opening) (cs : list call) (cl : closing) (s : bytes), compiles o cs cl /\ Forall ordinary cs /\ Forall no_payload cs /\ len s <= ISIZE_MAX /\ added o cs <= ISIZE_MAX.
Proof.
  exists w_debug, OpEther, w_calls_info, ClInformation, w_v4_udp. meet.
Qed.
(** C65: the hypotheses of C65_reuse can be met. *)
Example c65_reuse_meets :
  exists (E : env) (o : opening) (cs : list call) (cl : closing), compiles o cs cl /\ Forall ordinary cs /\ added o cs <= ISIZE_MAX.
Proof.
  exists w_debug, OpEther, w_calls_udp, ClUdp. meet.
Qed.
(** C65: the hypotheses of C65_preview can be met. *)
Example c65_preview_meets :
  exists (E : env) (o : opening) (cs : list call) (cl : closing), compiles o cs cl /\ Forall ordinary cs /\ added o cs <= ISIZE_MAX.
Proof.
  exists w_debug, OpEther, w_calls_udp, ClUdp. meet.
Qed.
(** C65: the hypotheses of C65_length can be met. *)
Example c65_length_meets :
  exists (E : env) (o : opening) (cs : list call) (cl : closing) (out : bytes), compiles o cs cl /\ Forall ordinary cs /\ added o cs <= ISIZE_MAX /\ program E o cs cl dynamic_new = Ok out.
Proof.
  exists w_debug, OpEther, w_calls_udp, ClUdp. eexists. meet.
Qed.
(** C65: the hypotheses of C65_panics can be met. *)
Example c65_panics_meets :
  exists (E : env) (o : opening) (cs : list call) (cl : closing), compiles o cs cl /\ Forall ordinary cs /\ added o cs <= ISIZE_MAX /\ program E o cs cl dynamic_new = Panic.
Proof.
  exists w_debug, OpUdp, (map CallUdp w_udp_ops), ClUdp. meet.
Qed.
(** C65: the hypotheses of C65_in_use can be met. *)
Example c65_in_use_meets :
  exists (E : env) (o : opening) (cs : list call) (cl : closing) (held : bytes) (off : N) (l : N), compiles o cs cl /\ o <> OpUdp /\ o <> OpTcp /\ Forall ordinary cs /\ off + l = len held /\ len held + added o cs <= ISIZE_MAX.
Proof.
  exists w_debug, OpEther, w_calls_udp, ClUdp, w_eth, 7, 7. meet.
Qed.
(** C65: the hypotheses of C65_slice_in_use can be met. *)
Example c65_slice_in_use_meets :
  exists (E : env) (o : opening) (cs : list call) (cl : closing) (held : bytes) (mem : bytes), compiles o cs cl /\ o <> OpUdp /\ o <> OpTcp /\ Forall ordinary cs /\ Forall no_payload cs /\ len held + len mem <= ISIZE_MAX /\ added o cs <= ISIZE_MAX.
Proof.
  exists w_debug, OpEther, w_calls_info, ClInformation, w_v4_udp, w_v4_udp. meet.
Qed.
(** C65: the hypotheses of C65_any_buffer can be met. *)
Example c65_any_buffer_meets :
  exists (T : Type) (I : impl T) (E : env) (cap : N) (refused : error -> Prop) (holds : T -> bytes -> bytes -> Prop) (o : opening) (cs : list call) (cl : closing) (t : T) (before : bytes) (layer : bytes), lawful I E cap refused holds /\ holds t before layer /\ compiles o cs cl /\ o <> OpUdp /\ o <> OpTcp /\ Forall ordinary cs /\ len before + len layer + added o cs <= cap /\ len before + len layer + added o cs <= ISIZE_MAX.
Proof.
  exists bounded, bounded_impl, w_debug, 49, (fun e => e = SmallBuffer), (bounded_holds 49), OpEther, w_calls_udp, ClUdp, (Bounded [] w_odd 49), [], w_odd. split; [ apply GenericProofs.c63_bounded_lawful | meet ].
Qed.
(** C65: the hypotheses of C65_builds can be met. *)
Example c65_builds_meets :
  exists (E : env) (E' : env) (o : opening) (cs : list call) (cl : closing), compiles o cs cl /\ Forall ordinary cs /\ added o cs <= @ISIZE_MAX E /\ added o cs <= @ISIZE_MAX E' /\ ((cl = ClUdp \/ cl = ClTcp -> added o cs mod 2 = 0 \/ cursor_eof E = cursor_eof E')).
Proof.
  exists w_debug, w_debug, OpEther, w_calls_udp, ClUdp. meet.
Qed.
(** C66: the hypotheses of C66_succeeds can be met. *)
Example c66_succeeds_meets :
  exists (E : env) (o : opening) (cs : list call) (cl : closing), compiles o cs cl /\ Forall ordinary cs /\ added o cs <= ISIZE_MAX.
Proof.
  exists w_debug, OpEther, w_calls_udp, ClUdp. meet.
Qed.
(** C66: the hypotheses of C66_udp can be met. *)
Example c66_udp_meets :
  exists (E : env) (o : opening) (cs : list call) (out : bytes), compiles o cs ClUdp /\ Forall ordinary cs /\ faithful_calls cs /\ added o cs <= ISIZE_MAX /\ 28 + len (payload_given cs) <= 65535 /\ (len (payload_given cs) mod 2 = 0 \/ cursor_eof E = EofKeep) /\ program E o cs ClUdp dynamic_new = Ok out.
Proof.
  exists w_debug, OpEther, w_calls_udp. eexists. meet.
Qed.
(** C66: the hypotheses of C66_tcp can be met. *)
Example c66_tcp_meets :
  exists (E : env) (o : opening) (cs : list call) (out : bytes), compiles o cs ClTcp /\ Forall ordinary cs /\ faithful_calls cs /\ added o cs <= ISIZE_MAX /\ 40 + len (payload_given cs) <= 65535 /\ program E o cs ClTcp dynamic_new = Ok out.
Proof.
  exists w_debug, OpEther, w_calls_tcp. eexists. meet.
Qed.
(** C66: the hypotheses of C66_ether can be met. *)
Example c66_ether_meets :
  exists (E : env) (o : opening) (cs : list call) (out : bytes), compiles o cs ClEther /\ Forall ordinary cs /\ added o cs <= ISIZE_MAX /\ program E o cs ClEther dynamic_new = Ok out.
Proof.
  exists w_debug, OpEther, w_calls_ether_payload, [2; 0; 0; 0; 0; 2; 0; 0; 0; 0; 0; 0; 0; 0; 1; 2; 3; 4]. meet.
Qed.
(** C66: the hypotheses of C66_v4 can be met. *)
Example c66_v4_meets :
  exists (E : env) (o : opening) (cs : list call) (out : bytes), compiles o cs ClV4 /\ Forall ordinary cs /\ faithful_calls cs /\ added o cs <= ISIZE_MAX /\ len (payload_given cs) < 4 /\ program E o cs ClV4 dynamic_new = Ok out.
Proof.
  exists w_debug, OpEther, w_calls_v4_payload. eexists. meet.
Qed.
(** C66: the hypotheses of C66_echo can be met. *)
Example c66_echo_meets :
  exists (E : env) (o : opening) (cs : list call) (out : bytes), compiles o cs ClEcho /\ Forall ordinary cs /\ faithful_calls cs /\ added o cs <= ISIZE_MAX /\ 28 + len (payload_given cs) <= 65535 /\ program E o cs ClEcho dynamic_new = Ok out.
Proof.
  exists w_debug, OpEther, w_calls_echo. eexists. meet.
Qed.
(** C66: the hypotheses of C66_information can be met. *)
Example c66_information_meets :
  exists (E : env) (o : opening) (cs : list call) (out : bytes), compiles o cs ClInformation /\ Forall ordinary cs /\ faithful_calls cs /\ added o cs <= ISIZE_MAX /\ program E o cs ClInformation dynamic_new = Ok out.
Proof.
  exists w_debug, OpEther, w_calls_info. eexists. meet.
Qed.
(** C66: the hypotheses of C66_timestamp can be met. *)
Example c66_timestamp_meets :
  exists (E : env) (o : opening) (cs : list call) (out : bytes), compiles o cs ClTimestamp /\ Forall ordinary cs /\ faithful_calls cs /\ added o cs <= ISIZE_MAX /\ program E o cs ClTimestamp dynamic_new = Ok out.
Proof.
  exists w_debug, OpEther, w_calls_ts. eexists. meet.
Qed.
(** C66: the hypotheses of C66_slice can be met. *)
Example c66_slice_meets :
  exists (E : env) (o : opening) (cs : list call) (cl : closing) (s : bytes), compiles o cs cl /\ Forall ordinary cs /\ Forall no_payload cs /\ len s <= ISIZE_MAX /\ added o cs <= ISIZE_MAX.
Proof.
  exists w_debug, OpEther, w_calls_info, ClInformation, w_v4_udp. meet.
Qed.
(** C67: the hypotheses of C67_programs can be met. *)
Example c67_programs_meets :
  exists (E : env) (E' : env) (o : opening) (cs : list call) (cl : closing) (s : bytes), cursor_eof E = cursor_eof E' /\ compiles o cs cl /\ Forall ordinary cs /\ added o cs < 2 ^ 31 /\ Forall no_payload cs /\ len s < 2 ^ 31.
Proof.
  exists w_debug, w_debug, OpEther, w_calls_info, ClInformation, w_v4_udp. meet.
Qed.
(** C68: the hypotheses of C68_v4_burst can be met. *)
Example c68_v4_burst_meets :
  exists (E : env) (b : bytes) (b' : bytes) (j : N), is_bytes b /\ is_bytes b' /\ v4_no_payload b = Ok b /\ v4_no_payload b' = Ok b' /\ 3 <= nthN b 0 mod 16 /\ nthN b' 0 mod 16 = nthN b 0 mod 16 /\ j + 16 <= 8 * (nthN b 0 mod 16 * 4) /\ burst j (takeN (nthN b 0 mod 16 * 4) b) (takeN (nthN b 0 mod 16 * 4) b') /\ v4_is_valid E b = Ok true.
Proof.
  exists w_debug, w_v4_udp, w_v4_udp, 7. meet.
Qed.
(** C68: the hypotheses of C68_udp_burst can be met. *)
Example c68_udp_burst_meets :
  exists (E : env) (p : bytes) (b : bytes) (b' : bytes) (j : N), is_bytes p /\ is_bytes b /\ is_bytes b' /\ 20 <= len p /\ 8 <= len b /\ (len b mod 2 = 0 \/ cursor_eof E = EofKeep) /\ j + 16 <= 8 * len b /\ burst j b b' /\ udp_is_valid E (V4 p) b = Ok true.
Proof.
  exists w_debug, w_v4_udp, w_udp, w_udp, 7. meet.
Qed.
(** C68: the hypotheses of C68_tcp_burst can be met. *)
Example c68_tcp_burst_meets :
  exists (E : env) (p : bytes) (b : bytes) (b' : bytes) (j : N), is_bytes p /\ is_bytes b /\ is_bytes b' /\ 20 <= len p /\ 18 <= len b <= 131065 /\ (len b mod 2 = 0 \/ cursor_eof E = EofKeep) /\ j + 16 <= 8 * len b /\ burst j b b' /\ tcp_is_valid E (V4 p) b = Ok true.
Proof.
  exists w_debug, w_v4_udp, w_tcp, w_tcp, 7. meet.
Qed.
(** C68: the hypotheses of C68_icmp_burst can be met. *)
Example c68_icmp_burst_meets :
  exists (E : env) (b : bytes) (b' : bytes) (j : N), is_bytes b /\ is_bytes b' /\ 4 <= len b /\ len b mod 2 = 0 /\ j + 16 <= 8 * len b /\ burst j b b' /\ icmp_is_valid E b = Ok true.
Proof.
  exists w_debug, w_echo, w_echo, 7. meet.
Qed.
(** C68: the hypotheses of C68_udp_parent_burst can be met. *)
Example c68_udp_parent_burst_meets :
  exists (E : env) (p : bytes) (p' : bytes) (b : bytes) (j : N), is_bytes p /\ is_bytes p' /\ is_bytes b /\ 20 <= len p /\ 8 <= len b /\ (len b mod 2 = 0 \/ cursor_eof E = EofKeep) /\ 96 <= j /\ j + 16 <= 160 /\ burst j p p' /\ udp_is_valid E (V4 p) b = Ok true.
Proof.
  exists w_debug, w_v4_udp, w_v4_udp, w_udp, 100. meet.
Qed.
(** C68: the hypotheses of C68_tcp_parent_burst can be met. *)
Example c68_tcp_parent_burst_meets :
  exists (E : env) (p : bytes) (p' : bytes) (b : bytes) (j : N), is_bytes p /\ is_bytes p' /\ is_bytes b /\ 20 <= len p /\ 18 <= len b <= 131065 /\ (len b mod 2 = 0 \/ cursor_eof E = EofKeep) /\ 96 <= j /\ j + 16 <= 160 /\ burst j p p' /\ tcp_is_valid E (V4 p) b = Ok true.
Proof.
  exists w_debug, w_v4_udp, w_v4_udp, w_tcp, 100. meet.
Qed.
(** C68: the hypotheses of C68_v4_reorder can be met. *)
Example c68_v4_reorder_meets :
  exists (b : bytes) (b' : bytes), is_bytes b /\ is_bytes b' /\ v4_no_payload b = Ok b /\ v4_no_payload b' = Ok b' /\ 3 <= nthN b 0 mod 16 /\ nthN b' 0 mod 16 = nthN b 0 mod 16 /\ wire16 b' 10 = wire16 b 10 /\ reordered (takeN (nthN b 0 mod 16 * 4) b) (takeN (nthN b 0 mod 16 * 4) b').
Proof.
  exists w_v4_udp, w_v4_udp. meet.
Qed.
(** C68: the hypotheses of C68_udp_reorder can be met. *)
Example c68_udp_reorder_meets :
  exists (E : env) (p : bytes) (p' : bytes) (b : bytes) (b' : bytes), is_bytes p /\ is_bytes p' /\ is_bytes b /\ is_bytes b' /\ 20 <= len p /\ 20 <= len p' /\ 8 <= len b /\ len b' = len b /\ (len b mod 2 = 0 \/ cursor_eof E = EofKeep) /\ wire16 b' 6 = wire16 b 6 /\ reordered (octets (wire_addr p 12) ++ octets (wire_addr p 16) ++ b) (octets (wire_addr p' 12) ++ octets (wire_addr p' 16) ++ b').
Proof.
  exists w_debug, w_v4_udp, w_v4_udp, w_v4_udp, w_v4_udp. meet.
Qed.
(** C68: the hypotheses of C68_tcp_reorder can be met. *)
Example c68_tcp_reorder_meets :
  exists (p : bytes) (p' : bytes) (b : bytes) (b' : bytes), is_bytes p /\ is_bytes p' /\ is_bytes b /\ is_bytes b' /\ 20 <= len p /\ 20 <= len p' /\ 18 <= len b <= 131065 /\ len b' = len b /\ wire16 b' 16 = wire16 b 16 /\ reordered (octets (wire_addr p 12) ++ octets (wire_addr p 16) ++ b) (octets (wire_addr p' 12) ++ octets (wire_addr p' 16) ++ b').
Proof.
  exists w_v4_udp, w_v4_udp, w_v4_udp, w_v4_udp. meet.
Qed.
(** C68: the hypotheses of C68_icmp_reorder can be met. *)
Example c68_icmp_reorder_meets :
  exists (b : bytes) (b' : bytes), is_bytes b /\ is_bytes b' /\ 4 <= len b /\ len b' = len b /\ wire16 b' 2 = wire16 b 2 /\ reordered (drop_odd b) (drop_odd b').
Proof.
  exists w_v4_udp, w_v4_udp. meet.
Qed.
(** C68: the hypotheses of C68_parent_addresses can be met. *)
Example c68_parent_addresses_meets :
  exists (p : bytes) (p' : bytes), 20 <= len p /\ 20 <= len p' /\ wire_addr p' 12 = wire_addr p 12 /\ wire_addr p' 16 = wire_addr p 16.
Proof.
  exists w_v4_udp, w_v4_udp. meet.
Qed.
(** C68: the hypotheses of C68_other_addresses can be met. *)
Example c68_other_addresses_meets :
  (exists (E : env) (p : bytes) (p' : bytes) (b : bytes), is_bytes p /\ is_bytes p' /\ is_bytes b /\ 20 <= len p /\ 20 <= len p' /\ (len b mod 2 = 0 \/ cursor_eof E = EofKeep) /\ 8 <= len b /\ udp_is_valid E (V4 p) b = Ok true) /\
  (exists (E : env) (p : bytes) (p' : bytes) (b : bytes), is_bytes p /\ is_bytes p' /\ is_bytes b /\ 20 <= len p /\ 20 <= len p' /\ (len b mod 2 = 0 \/ cursor_eof E = EofKeep) /\ 18 <= len b <= 131065 /\ tcp_is_valid E (V4 p) b = Ok true).
Proof.
  split. { exists w_debug, w_v4_udp, w_v4_udp, w_udp. meet. }
  exists w_debug, w_v4_udp, w_v4_udp, w_tcp. meet.
Qed.
(** C69: the hypotheses of C69_forward can be met. *)
Example c69_forward_meets :
  exists (b : bytes) (ops : list v4_setter), is_bytes b /\ v4_new b = Ok b /\ 5 <= nthN b 0 mod 16 /\ Forall v4_setter_ok ops /\ Forall v4_in_range ops /\ Forall keeps_addresses ops.
Proof.
  exists w_v4_udp, [V4SetTtl 9]. meet.
Qed.
(** C69: the hypotheses of C69_answer_udp can be met. *)
Example c69_answer_udp_meets :
  exists (b : bytes) (u : bytes), is_bytes b /\ v4_new b = Ok b /\ 5 <= nthN b 0 mod 16 /\ v4_payload b = Ok u /\ udp_new u = Ok u.
Proof.
  exists w_v4_udp, [20; 233; 0; 53; 0; 12; 210; 175; 1; 2; 3; 4]. meet.
Qed.
(** C69: the hypotheses of C69_answer_tcp can be met. *)
Example c69_answer_tcp_meets :
  exists (b : bytes) (u : bytes), is_bytes b /\ v4_new b = Ok b /\ 5 <= nthN b 0 mod 16 /\ v4_payload b = Ok u /\ tcp_new u = Ok u /\ 5 <= nthN u 12 / 16.
Proof.
  exists w_v4_tcp. eexists. meet.
Qed.
(** C69: the hypotheses of C69_answer_ping can be met. *)
Example c69_answer_ping_meets :
  exists (E : env) (b : bytes) (u : bytes), rust_slice b /\ v4_new b = Ok b /\ 5 <= nthN b 0 mod 16 /\ v4_payload b = Ok u /\ echo_new u = Ok u.
Proof.
  exists w_debug, w_v4_echo, [8; 0; 243; 241; 0; 7; 0; 1; 1; 2; 3; 4]. meet.
Qed.
(** C69: the hypotheses of C69_answer_frame can be met. *)
Example c69_answer_frame_meets :
  exists (b : bytes) (edit : bytes -> bytes * res unit) (ip : bytes) (ip' : bytes), ether_new b = Ok b /\ ether_payload b = Ok ip /\ v4_new ip = Ok ip /\ edit ip = (ip', Ok tt) /\ len ip' = len ip.
Proof.
  exists w_udp_frame, (w_overwrite w_v4_udp_df). eexists. eexists. meet.
Qed.
(** C69: the hypotheses of C69_answer_frame_udp can be met. *)
Example c69_answer_frame_udp_meets :
  exists (b : bytes) (ip : bytes) (u : bytes), is_bytes b /\ ether_new b = Ok b /\ ether_payload b = Ok ip /\ v4_new ip = Ok ip /\ 5 <= nthN ip 0 mod 16 /\ v4_payload ip = Ok u /\ udp_new u = Ok u.
Proof.
  exists w_udp_frame. eexists. exists [20; 233; 0; 53; 0; 12; 210; 175; 1; 2; 3; 4]. meet.
Qed.
(** C70: the hypotheses of C70_v4 can be met. *)
Example c70_v4_meets :
  exists (E : env) (b : bytes) (i : N) (w : N), is_bytes b /\ u16 w /\ v4_no_payload b = Ok b /\ 3 <= nthN b 0 mod 16 /\ i mod 2 = 0 /\ i + 2 <= nthN b 0 mod 16 * 4 /\ i <> 10 /\ let b1 := put16 i w b in nthN b1 0 = nthN b 0 /\ v4_is_valid E b = Ok true.
Proof.
  exists w_debug, w_v4_udp, 4, 7. meet.
Qed.
(** C70: the hypotheses of C70_ttl can be met. *)
Example c70_ttl_meets :
  exists (E : env) (b : bytes) (v : N), is_bytes b /\ u8 v /\ v4_no_payload b = Ok b /\ 5 <= nthN b 0 mod 16 /\ v4_is_valid E b = Ok true.
Proof.
  exists w_debug, w_v4_udp, 7. meet.
Qed.
(** C70: the hypotheses of C70_udp can be met. *)
Example c70_udp_meets :
  exists (E : env) (p : bytes) (b : bytes) (i : N) (w : N), is_bytes p /\ is_bytes b /\ u16 w /\ 20 <= len p /\ 8 <= len b /\ (len b mod 2 = 0 \/ cursor_eof E = EofKeep) /\ i mod 2 = 0 /\ i + 2 <= len b /\ i <> 6 /\ udp_is_valid E (V4 p) b = Ok true.
Proof.
  exists w_debug, w_v4_udp, w_udp, 4, 7. meet.
Qed.
(** C70: the hypotheses of C70_tcp can be met. *)
Example c70_tcp_meets :
  exists (E : env) (p : bytes) (b : bytes) (i : N) (w : N), is_bytes p /\ is_bytes b /\ u16 w /\ 20 <= len p /\ len b <= 131065 /\ (len b mod 2 = 0 \/ cursor_eof E = EofKeep) /\ tcp_new b = Ok b /\ 5 <= nthN b 12 / 16 /\ i mod 2 = 0 /\ i + 2 <= len b /\ i <> 16 /\ tcp_is_valid E (V4 p) b = Ok true /\ let b1 := put16 i w b in nthN b1 12 / 16 = nthN b 12 / 16.
Proof.
  exists w_debug, w_v4_udp, w_tcp, 4, 7. meet.
Qed.
(** C70: the hypotheses of C70_icmp can be met. *)
Example c70_icmp_meets :
  exists (E : env) (b : bytes) (i : N) (w : N), is_bytes b /\ u16 w /\ 4 <= len b /\ len b mod 2 = 0 /\ i mod 2 = 0 /\ i + 2 <= len b /\ i <> 2 /\ icmp_is_valid E b = Ok true /\ let b1 := put16 i w b in word_sum (zero_field 2 b) <> 0 /\ word_sum (zero_field 2 b1) <> 0.
Proof.
  exists w_debug, w_echo, 4, 7. meet.
Qed.
(** C70: the hypotheses of C70_nat can be met. *)
Example c70_nat_meets :
  (exists (E : env) (p : bytes) (b : bytes) (i : N) (w : N), is_bytes p /\ is_bytes b /\ u16 w /\ 20 <= len p /\ (len b mod 2 = 0 \/ cursor_eof E = EofKeep) /\ i mod 2 = 0 /\ 12 <= i /\ i + 2 <= 20 /\ 8 <= len b /\ udp_is_valid E (V4 p) b = Ok true) /\
  (exists (E : env) (p : bytes) (b : bytes) (i : N) (w : N), is_bytes p /\ is_bytes b /\ u16 w /\ 20 <= len p /\ (len b mod 2 = 0 \/ cursor_eof E = EofKeep) /\ i mod 2 = 0 /\ 12 <= i /\ i + 2 <= 20 /\ 18 <= len b <= 131065 /\ tcp_is_valid E (V4 p) b = Ok true).
Proof.
  split. { exists w_debug, w_v4_udp, w_udp, 12, 7. meet. }
  exists w_debug, w_v4_udp, w_tcp, 12, 7. meet.
Qed.
(** C71: the hypotheses of C71_udp can be met. *)
Example c71_udp_meets :
  exists (E : env) (l : list (bytes * action udp_setter checksum_call)) (u : udp_packet) (u' : udp_packet), udp_packet_ok u /\ Forall (fun '(p, a) => is_bytes p /\ 20 <= len p /\ udp_action_ok a) l /\ (len (udp_bytes u) mod 2 = 0 \/ cursor_eof E = EofKeep) /\ let (rs, last) := history (fun '(p, a) => udp_do (wire_addr p 12) (wire_addr p 16) a) l u in last = Some u'.
Proof.
  exists w_debug, w_udp_history, w_udp_packet. eexists. meet.
Qed.
(** C71: the hypotheses of C71_tcp can be met. *)
Example c71_tcp_meets :
  exists (E : env) (l : list (bytes * action tcp_setter checksum_call)) (t : tcp_packet) (t' : tcp_packet), tcp_packet_ok t /\ let do := fun '(p, a) => tcp_do (wire_addr p 12) (wire_addr p 16) a in allowed (fun '(p, a) t => is_bytes p /\ 20 <= len p /\ tcp_action_ok a t) do l t /\ len (tcp_bytes t) <= 131065 /\ (len (tcp_bytes t) mod 2 = 0 \/ cursor_eof E = EofKeep) /\ let (rs, last) := history do l t in last = Some t'.
Proof.
  exists w_debug, w_tcp_history, w_tcp_packet. eexists. meet.
Qed.
(** C71: the hypotheses of C71_echo can be met. *)
Example c71_echo_meets :
  exists (E : env) (l : list (action echo_setter Empty_set)) (c : echo_packet) (c' : echo_packet), echo_packet_ok c /\ Forall echo_action_ok l /\ len (echo_bytes c) <= ISIZE_MAX /\ let (rs, last) := history echo_do l c in last = Some c'.
Proof.
  exists w_debug, w_echo_history, w_echo_packet. eexists. meet.
Qed.
(** C71: the hypotheses of C71_v4 can be met. *)
Example c71_v4_meets :
  exists (l : list (action v4_setter checksum_call)) (p : v4_packet) (p' : v4_packet), v4_packet_ok p /\ Forall v4_action_ok l /\ let (rs, last) := history v4_do l p in last = Some p'.
Proof.
  exists w_v4_history, w_v4_packet. eexists. meet.
Qed.
(** C71: the hypotheses of C71_frame_udp can be met. *)
Example c71_frame_udp_meets :
  exists (E : env) (l : list (frame_action (action udp_setter checksum_call))) (s : frame_packet udp_packet) (s' : frame_packet udp_packet), frame_packet_ok udp_bytes udp_packet_ok s /\ allowed (frame_action_ok (fun a _ => udp_action_ok a)) (frame_do udp_bytes udp_do) l s /\ (len (udp_bytes (fr_inner s)) mod 2 = 0 \/ cursor_eof E = EofKeep) /\ let (rs, last) := history (frame_do udp_bytes udp_do) l s in last = Some s'.
Proof.
  exists w_debug, (w_frame_history (Checked w_udp_setters) (Fill w_four)), (w_frame 32 17 w_udp_packet). meet.
Qed.
(** C71: the hypotheses of C71_frame_tcp can be met. *)
Example c71_frame_tcp_meets :
  exists (E : env) (l : list (frame_action (action tcp_setter checksum_call))) (s : frame_packet tcp_packet) (s' : frame_packet tcp_packet), frame_packet_ok tcp_bytes tcp_packet_ok s /\ allowed (frame_action_ok tcp_action_ok) (frame_do tcp_bytes tcp_do) l s /\ (len (tcp_bytes (fr_inner s)) mod 2 = 0 \/ cursor_eof E = EofKeep) /\ let (rs, last) := history (frame_do tcp_bytes tcp_do) l s in last = Some s'.
Proof.
  exists w_debug, (w_frame_history (Checked w_tcp_setters) (Fill w_four)), (w_frame 44 6 w_tcp_packet). meet.
Qed.
(** C71: the hypotheses of C71_frame_echo can be met. *)
Example c71_frame_echo_meets :
  exists (l : list (frame_action (action echo_setter Empty_set))) (s : frame_packet echo_packet) (s' : frame_packet echo_packet), frame_packet_ok echo_bytes echo_packet_ok s /\ allowed (frame_action_ok (fun a _ => echo_action_ok a)) (frame_do echo_bytes (fun _ _ => echo_do)) l s /\ let (rs, last) := history (frame_do echo_bytes (fun _ _ => echo_do)) l s in last = Some s'.
Proof.
  exists (w_frame_history (Checked w_echo_setters) (Fill w_four)), (w_frame 32 1 w_echo_packet). meet.
Qed.
(** C71: the hypotheses of C71_udp_received can be met. *)
Example c71_udp_received_meets :
  exists (b : bytes), is_bytes b /\ udp_new b = Ok b /\ 8 <= wire16 b 4.
Proof.
  exists w_udp. meet.
Qed.
(** C71: the hypotheses of C71_tcp_received can be met. *)
Example c71_tcp_received_meets :
  exists (b : bytes), is_bytes b /\ tcp_new b = Ok b /\ 5 <= nthN b 12 / 16.
Proof.
  exists w_tcp. meet.
Qed.
(** C71: the hypotheses of C71_echo_received can be met. *)
Example c71_echo_received_meets :
  exists (b : bytes), is_bytes b /\ echo_new b = Ok b.
Proof.
  exists w_echo. meet.
Qed.
(** C71: the hypotheses of C71_v4_received can be met. *)
Example c71_v4_received_meets :
  exists (b : bytes), is_bytes b /\ v4_new b = Ok b /\ 5 <= nthN b 0 mod 16 /\ nthN b 0 mod 16 * 4 <= wire16 b 2.
Proof.
  exists w_v4_udp. meet.
Qed.
(** C71: the hypotheses of C71_frame_received can be met. *)
Example c71_frame_received_meets :
  exists (S : Type) (inner : S -> bytes) (inner_ok : S -> Prop) (b : bytes) (ip : bytes) (x : S), is_bytes b /\ ether_new b = Ok b /\ ether_payload b = Ok ip /\ v4_new ip = Ok ip /\ 5 <= nthN ip 0 mod 16 /\ nthN ip 0 mod 16 * 4 <= wire16 ip 2 /\ v4_payload ip = Ok (inner x) /\ inner_ok x.
Proof.
  exists udp_packet, udp_bytes, udp_packet_ok, w_udp_frame. eexists. exists {| up_header := {| uf_src := 5353; uf_dst := 53; uf_length := 12; uf_checksum := 53935 |}; up_payload := w_payload; up_behind := [] |}. meet.
Qed.
(** C71: the hypotheses of C71_information can be met. *)
Example c71_information_meets :
  exists (l : list (action information_setter Empty_set)) (c : information_packet) (c' : information_packet), information_packet_ok c /\ Forall information_action_ok l /\ let (rs, last) := history information_do l c in last = Some c'.
Proof.
  exists w_info_history, w_info_packet. eexists. meet.
Qed.
(** C71: the hypotheses of C71_timestamp can be met. *)
Example c71_timestamp_meets :
  exists (l : list (action timestamp_setter Empty_set)) (c : timestamp_packet) (c' : timestamp_packet), timestamp_packet_ok c /\ Forall timestamp_action_ok l /\ let (rs, last) := history timestamp_do l c in last = Some c'.
Proof.
  exists w_ts_history, w_ts_packet. eexists. meet.
Qed.
(** C71: the hypotheses of C71_messages_received can be met. *)
Example c71_messages_received_meets :
  (exists (b : bytes), is_bytes b /\ information_new b = Ok b) /\
  (exists (b : bytes), is_bytes b /\ timestamp_new b = Ok b).
Proof.
  split. { exists w_info. meet. }
  exists w_ts. meet.
Qed.
(** C72: the hypotheses of C72_udp can be met. *)
Example c72_udp_meets :
  exists (E : env) (b : bytes), is_bytes b /\ (wire16 b 16 mod 2 = 0 \/ cursor_eof E = EofKeep).
Proof.
  exists w_debug, w_v4_udp. meet.
Qed.
(** C72: the hypotheses of C72_tcp can be met. *)
Example c72_tcp_meets :
  exists (E : env) (b : bytes), is_bytes b /\ (wire16 b 16 mod 2 = 0 \/ cursor_eof E = EofKeep).
Proof.
  exists w_debug, w_v4_udp. meet.
Qed.
(** C72: the hypotheses of C72_echo can be met. *)
Example c72_echo_meets :
  exists (b : bytes), is_bytes b.
Proof.
  exists w_v4_udp. meet.
Qed.
(** C72: the hypotheses of C72_echo_even can be met. *)
Example c72_echo_even_meets :
  exists (b : bytes), is_bytes b /\ wire16 b 16 mod 2 = 0.
Proof.
  exists w_v4_udp. meet.
Qed.
(** C72: the hypotheses of C72_total can be met. *)
Example c72_total_meets :
  exists (E : env) (b : bytes), is_bytes b /\ (wire16 b 16 mod 2 = 0 \/ cursor_eof E = EofKeep).
Proof.
  exists w_debug, w_v4_udp. meet.
Qed.
(** C72: the hypotheses of C72_tcp_odd_refuted can be met. *)
Example c72_tcp_odd_refuted_meets :
  exists (E : env) (s : frame_packet tcp_packet), frame_packet_ok tcp_bytes tcp_packet_ok s /\ rfc_ip 6 s /\ vf_checksum (fr_ip s) <> 65535 /\ tcp_spoiled (fr_inner s) = false /\ vf_total (fr_ip s) mod 2 = 1 /\ cursor_eof E = EofSeek.
Proof.
  exists w_release, w_tcp_frame_odd. meet.
Qed.
(** C72: the hypotheses of C72_built_udp can be met. *)
Example c72_built_udp_meets :
  exists (E : env) (E' : env) (cs : list call) (out : bytes), compiles OpEther cs ClUdp /\ Forall ordinary cs /\ faithful_calls cs /\ added OpEther cs <= @ISIZE_MAX E /\ added OpEther cs <= @ISIZE_MAX E' /\ 28 + len (payload_given cs) <= 65535 /\ (len (payload_given cs) mod 2 = 0 \/ (cursor_eof E = EofKeep /\ cursor_eof E' = EofKeep)) /\ program E OpEther cs ClUdp dynamic_new = Ok out.
Proof.
  exists w_debug, w_debug, w_calls_udp. eexists. meet.
Qed.
(** C72: the hypotheses of C72_built_udp_alike can be met, with either verdict. *)
Example c72_built_udp_alike_meets :
  (exists (E E' : env) (cs : list call) (out : bytes), compiles OpEther cs ClUdp /\ Forall ordinary cs /\ added OpEther cs <= @ISIZE_MAX E /\ 28 + len (payload_given cs) <= 65535 /\ program E OpEther cs ClUdp dynamic_new = Ok out /\ alike E E' (payload_given cs)) /\
  (exists (E E' : env) (cs : list call) (out : bytes), compiles OpEther cs ClUdp /\ Forall ordinary cs /\ added OpEther cs <= @ISIZE_MAX E /\ 28 + len (payload_given cs) <= 65535 /\ program E OpEther cs ClUdp dynamic_new = Ok out /\ ~ alike E E' (payload_given cs)).
Proof.
  split.
  - exists w_debug, w_debug, w_calls_udp. eexists. do 4 (split; [meet|]). split; [vm_compute; reflexivity|right; right; reflexivity].
  - exists {| overflow_checks := true; cursor_eof := EofSeek; target := Bits64 |}, {| overflow_checks := true; cursor_eof := EofKeep; target := Bits64 |},
      [CallEtherIp; CallIpV4; CallV4Udp; CallUdp (UdpPayload [104])]. eexists. do 4 (split; [meet|]). split; [vm_compute; reflexivity|]. intros [H|[H|H]]; discriminate H.
Qed.
(** C72: the hypotheses of C72_built_tcp can be met. *)
Example c72_built_tcp_meets :
  exists (E : env) (E' : env) (cs : list call) (out : bytes), compiles OpEther cs ClTcp /\ Forall ordinary cs /\ faithful_calls cs /\ added OpEther cs <= @ISIZE_MAX E /\ added OpEther cs <= @ISIZE_MAX E' /\ 40 + len (payload_given cs) <= 65535 /\ (len (payload_given cs) mod 2 = 0 \/ cursor_eof E' = EofKeep) /\ program E OpEther cs ClTcp dynamic_new = Ok out.
Proof.
  exists w_debug, w_debug, w_calls_tcp. eexists. meet.
Qed.
(** C72: the hypotheses of C72_built_echo can be met. *)
Example c72_built_echo_meets :
  exists (E : env) (E' : env) (cs : list call) (out : bytes), compiles OpEther cs ClEcho /\ Forall ordinary cs /\ faithful_calls cs /\ added OpEther cs <= @ISIZE_MAX E /\ added OpEther cs <= @ISIZE_MAX E' /\ 28 + len (payload_given cs) <= 65535 /\ program E OpEther cs ClEcho dynamic_new = Ok out.
Proof.
  exists w_debug, w_debug, w_calls_echo. eexists. meet.
Qed.
(** C73: the hypotheses of C73_v4 can be met. *)
Example c73_v4_meets :
  (exists (k : block v4_setter) (b : bytes) (ops : list v4_setter) (e : ending), is_bytes b /\ v4_no_payload b = Ok b /\ 5 <= nthN b 0 mod 16 /\ block_ok v4_setter_ok k /\ life v4_apply k b = (ops, e) /\ e = Forgot) /\
  (exists (k : block v4_setter) (b : bytes) (ops : list v4_setter) (e : ending), is_bytes b /\ v4_no_payload b = Ok b /\ 5 <= nthN b 0 mod 16 /\ block_ok v4_setter_ok k /\ life v4_apply k b = (ops, e) /\ e <> Forgot).
Proof.
  split. { exists w_v4_block_forgot, w_v4_udp, [V4SetTtl 9; V4SetId 7], Forgot. meet. }
  exists w_v4_block, w_v4_udp, [V4SetTtl 9; V4SetId 7], Panicked. meet.
Qed.
(** C73: the hypotheses of C73_udp can be met. *)
Example c73_udp_meets :
  (exists (p : bytes) (k : block udp_setter) (b : bytes) (ops : list udp_setter) (e : ending), is_bytes p /\ is_bytes b /\ 20 <= len p /\ udp_no_payload b = Ok b /\ block_ok udp_setter_ok k /\ life udp_apply k b = (ops, e) /\ e = Forgot) /\
  (exists (p : bytes) (k : block udp_setter) (b : bytes) (ops : list udp_setter) (e : ending), is_bytes p /\ is_bytes b /\ 20 <= len p /\ udp_no_payload b = Ok b /\ block_ok udp_setter_ok k /\ life udp_apply k b = (ops, e) /\ e <> Forgot).
Proof.
  split. { exists w_v4_udp, w_udp_block_forgot, w_v4_udp, [UdpSetSource 9; UdpSetDestination 7], Forgot. meet. }
  exists w_v4_udp, w_udp_block, w_v4_udp, [UdpSetSource 9; UdpSetDestination 7], Panicked. meet.
Qed.
(** C73: the hypotheses of C73_tcp can be met. *)
Example c73_tcp_meets :
  (exists (E : env) (p : bytes) (k : block tcp_setter) (b : bytes) (ops : list tcp_setter) (e : ending), is_bytes p /\ is_bytes b /\ 20 <= len p /\ len b <= 131065 /\ (len b mod 2 = 0 \/ cursor_eof E = EofKeep) /\ tcp_new b = Ok b /\ 5 <= nthN b 12 / 16 /\ block_ok tcp_setter_ok k /\ life tcp_apply k b = (ops, e) /\ ~ Exists tcp_is_flags ops /\ e = Forgot) /\
  (exists (E : env) (p : bytes) (k : block tcp_setter) (b : bytes) (ops : list tcp_setter) (e : ending), is_bytes p /\ is_bytes b /\ 20 <= len p /\ len b <= 131065 /\ (len b mod 2 = 0 \/ cursor_eof E = EofKeep) /\ tcp_new b = Ok b /\ 5 <= nthN b 12 / 16 /\ block_ok tcp_setter_ok k /\ life tcp_apply k b = (ops, e) /\ ~ Exists tcp_is_flags ops /\ e <> Forgot).
Proof.
  split. { exists w_debug, w_v4_udp, w_tcp_block_forgot, w_tcp, [TcpSetSource 9; TcpSetDestination 7], Forgot. meet. }
  exists w_debug, w_v4_udp, w_tcp_block, w_tcp, [TcpSetSource 9; TcpSetDestination 7], Panicked. meet.
Qed.
(** C73: the hypotheses of C73_echo can be met. *)
Example c73_echo_meets :
  (exists (E : env) (k : block echo_setter) (b : bytes) (ops : list echo_setter) (e : ending), rust_slice b /\ echo_new b = Ok b /\ block_ok echo_setter_ok k /\ life echo_apply k b = (ops, e) /\ e = Forgot) /\
  (exists (E : env) (k : block echo_setter) (b : bytes) (ops : list echo_setter) (e : ending), rust_slice b /\ echo_new b = Ok b /\ block_ok echo_setter_ok k /\ life echo_apply k b = (ops, e) /\ e <> Forgot).
Proof.
  split. { exists w_debug, w_echo_block_forgot, w_echo, [EchoSetIdentifier 9; EchoMakeReply], Forgot. meet. }
  exists w_debug, w_echo_block, w_echo, [EchoSetIdentifier 9; EchoMakeReply], Panicked. meet.
Qed.
(** C73: the hypotheses of C73_information can be met. *)
Example c73_information_meets :
  (exists (k : block information_setter) (b : bytes) (ops : list information_setter) (e : ending), is_bytes b /\ information_new b = Ok b /\ block_ok information_setter_ok k /\ life information_apply k b = (ops, e) /\ e = Forgot) /\
  (exists (k : block information_setter) (b : bytes) (ops : list information_setter) (e : ending), is_bytes b /\ information_new b = Ok b /\ block_ok information_setter_ok k /\ life information_apply k b = (ops, e) /\ e <> Forgot).
Proof.
  split. { exists w_info_block_forgot, w_info, [InfoSetIdentifier 9; InfoMakeReply], Forgot. meet. }
  exists w_info_block, w_info, [InfoSetIdentifier 9; InfoMakeReply], Panicked. meet.
Qed.
(** C73: the hypotheses of C73_timestamp can be met. *)
Example c73_timestamp_meets :
  (exists (k : block timestamp_setter) (b : bytes) (ops : list timestamp_setter) (e : ending), is_bytes b /\ timestamp_new b = Ok b /\ block_ok timestamp_setter_ok k /\ life timestamp_apply k b = (ops, e) /\ e = Forgot) /\
  (exists (k : block timestamp_setter) (b : bytes) (ops : list timestamp_setter) (e : ending), is_bytes b /\ timestamp_new b = Ok b /\ block_ok timestamp_setter_ok k /\ life timestamp_apply k b = (ops, e) /\ e <> Forgot).
Proof.
  split. { exists w_ts_block_forgot, w_ts, [TsSetIdentifier 9; TsMakeReply], Forgot. meet. }
  exists w_ts_block, w_ts, [TsSetIdentifier 9; TsMakeReply], Panicked. meet.
Qed.
(** C73: the hypotheses of C73_tcp_flags can be met. *)
Example c73_tcp_flags_meets :
  exists (k : block tcp_setter) (b : bytes) (ops : list tcp_setter) (e : ending), is_bytes b /\ tcp_new b = Ok b /\ block_ok tcp_setter_ok k /\ life tcp_apply k b = (ops, e) /\ (Exists tcp_is_flags ops \/ nthN b 12 / 16 < 5).
Proof.
  exists w_tcp_block_flags, w_tcp, [TcpSetSource 9; TcpSetFlags 2], Left. meet.
Qed.
(** C73: the hypotheses of C73_tcp_call_after_flags can be met. *)
Example c73_tcp_call_after_flags_meets :
  exists (v : N) (o : tcp_setter) (b : bytes), is_bytes b /\ tcp_new b = Ok b /\ v < 512 /\ ((forall p, o <> TcpSetSource p)).
Proof.
  exists 7, (TcpSetWindow 512), w_v4_udp. meet.
Qed.
(** C73: the hypotheses of C73_tcp_odd can be met. *)
Example c73_tcp_odd_meets :
  exists (E : env) (p : bytes) (k : block tcp_setter) (b : bytes) (ops : list tcp_setter) (e : ending), is_bytes p /\ is_bytes b /\ 20 <= len p /\ len b <= 131065 /\ tcp_new b = Ok b /\ len b mod 2 = 1 /\ cursor_eof E = EofSeek /\ block_ok tcp_setter_ok k /\ life tcp_apply k b = (ops, e).
Proof.
  exists w_release, w_v4_udp, w_tcp_block, w_tcp_odd, [TcpSetSource 9; TcpSetDestination 7], Panicked. meet.
Qed.
(** C73: the hypotheses of C73_v6_parent can be met. *)
Example c73_v6_parent_meets :
  (exists (b : bytes) k ops (e : ending), life udp_apply k b = (ops, e)) /\
  (exists (b : bytes) k ops (e : ending), life tcp_apply k b = (ops, e)).
Proof.
  split. { exists w_v4_udp, w_udp_block, [UdpSetSource 9; UdpSetDestination 7], Panicked. meet. }
  exists w_v4_udp, w_tcp_block, [TcpSetSource 9], Left. meet.
Qed.
(** C74: the hypotheses of C74_length can be met. *)
Example c74_length_meets :
  exists (cs : list call), Forall confined cs.
Proof.
  exists w_calls_udp. meet.
Qed.
(** C74: the hypotheses of C74_behind can be met. *)
Example c74_behind_meets :
  exists (E : env) (cs : list call) (s : bytes), Forall no_payload cs /\ Forall confined cs /\ len s <= ISIZE_MAX.
Proof.
  exists w_debug, w_calls_info, w_v4_udp. meet.
Qed.
(** C74: the hypotheses of C74_success can be met. *)
Example c74_success_meets :
  exists (E : env) (o : opening) (cs : list call) (cl : closing) (s : bytes) (out : bytes), Forall no_payload cs /\ Forall confined cs /\ len s <= ISIZE_MAX /\ program E o cs cl (slice_new s) = Ok out.
Proof.
  exists w_debug, OpEther, w_calls_udp0, ClUdp, (zeros 100). meet.
Qed.
(** C74: the hypotheses of C74_failed can be met. *)
Example c74_failed_meets :
  exists (E : env) (o : opening) (cs : list call) (c : call) (s : bytes) (b : builder), Forall no_payload cs /\ Forall confined cs /\ no_payload c /\ confined c /\ len s <= ISIZE_MAX /\ ((let* b := open E o (slice_new s) in run (call1 E) cs b) = Ok b) /\ ((forall b', call1 E c b <> Ok b')).
Proof.
  exists w_debug, OpEther, w_calls_v4, CallV4Udp, (zeros 40). eexists. repeat apply conj; try chk; try (vm_compute; reflexivity). all: try (intros b; vm_compute; discriminate).
Qed.
(** C74: the hypotheses of C74_retry can be met. *)
Example c74_retry_meets :
  exists (E : env) (cs : list call) (s : bytes) (o' : opening) (cs' : list call) (cl' : closing), Forall confined cs /\ len s <= ISIZE_MAX /\ compiles o' cs' cl' /\ Forall ordinary cs' /\ Forall no_payload cs' /\ added o' cs' <= ISIZE_MAX.
Proof.
  exists w_debug, w_calls_udp, w_v4_udp, OpEther, w_calls_info, ClInformation. meet.
Qed.
(** C74: the hypotheses of C74_refused can be met. *)
Example c74_refused_meets :
  exists (E : env) (o : opening) (cs : list call) (c : call) (s : bytes) (b : builder) (t : ty) (t' : ty), Forall no_payload cs /\ Forall ordinary cs /\ no_payload c /\ ordinary c /\ typed (opened o) cs t /\ returns t c = Some t' /\ len s <= ISIZE_MAX /\ added o cs + adds c <= ISIZE_MAX /\ ((let* b := open E o (slice_new s) in run (call1 E) cs b) = Ok b) /\ ((forall b', call1 E c b <> Ok b')).
Proof.
  exists w_debug, OpEther, w_calls_v4, CallV4Udp, (zeros 40). eexists. exists TyV4, TyUdp. repeat apply conj; try chk; try (vm_compute; reflexivity). all: try (intros b; vm_compute; discriminate).
Qed.
(** C74: the hypotheses of C74_build_refused can be met. *)
Example c74_build_refused_meets :
  exists (E : env) (o : opening) (cs : list call) (cl : closing) (s : bytes) (b : builder) (e : error), compiles o cs cl /\ Forall no_payload cs /\ Forall ordinary cs /\ len s <= ISIZE_MAX /\ added o cs <= ISIZE_MAX /\ ((let* b := open E o (slice_new s) in run (call1 E) cs b) = Ok b) /\ close E cl b = Err e.
Proof.
  set (cs := w_calls_v4 ++ [CallV4Icmp; CallIcmpEcho; CallEcho (EchoIdentifier 7)]). destruct (refused_ok (let* b := open w_debug OpEther (slice_new (zeros 100)) in run (call1 w_debug) cs b) (close w_debug ClEcho) InvalidPacket) as (b & Hb & Hc); [ vm_compute; reflexivity | ]. exists w_debug, OpEther, cs, ClEcho, (zeros 100), b, InvalidPacket. do 5 (split; [ chk | ]). split; [ exact Hb | exact Hc ].
Qed.
(** C75: the hypotheses of C75_v4 can be met. *)
Example c75_v4_meets :
  exists (b : bytes), is_bytes b.
Proof.
  exists w_v4_udp. meet.
Qed.
(** C75: the hypotheses of C75_tcp can be met. *)
Example c75_tcp_meets :
  exists (b : bytes), is_bytes b.
Proof.
  exists w_v4_udp. meet.
Qed.
(** C75: the hypotheses of C75_update can be met. *)
Example c75_update_meets :
  (exists (E : env) (ip : ip_packet) (b : bytes) (c : N), is_bytes b /\ udp_checksum_of E ip b = Ok c) /\
  (exists (E : env) (ip : ip_packet) (b : bytes), is_bytes b /\ udp_checksum_of E ip b = Panic) /\
  (exists (E : env) (ip : ip_packet) (b : bytes) (c : N), is_bytes b /\ tcp_checksum_of E ip b = Ok c) /\
  (exists (E : env) (ip : ip_packet) (b : bytes), is_bytes b /\ tcp_checksum_of E ip b = Panic).
Proof.
  split. { exists w_debug, (V4 w_v4_udp), w_v4_udp, 65515. meet. }
  split. { exists w_debug, (V6 w_v6), w_v4_udp. meet. }
  split. { exists w_debug, (V4 w_v4_udp), w_v4_udp, 2551. meet. }
  exists w_debug, (V6 w_v6), w_v4_udp. meet.
Qed.
(** C75: the hypotheses of C75_icmp_drop can be met. *)
Example c75_icmp_drop_meets :
  (exists (E : env) (b : bytes), rust_slice b /\ 8 <= len b) /\
  (exists (E : env) (b : bytes), rust_slice b /\ len b < 8 /\ overflow_checks E = true) /\
  (exists (E : env) (b : bytes), rust_slice b /\ len b < 8 /\ overflow_checks E = false).
Proof.
  split. { exists w_debug, w_v4_udp. meet. }
  split. { exists w_debug, w_payload. meet. }
  exists w_release, w_payload. meet.
Qed.
(** C75: the hypotheses of C75_blocks can be met. *)
Example c75_blocks_meets :
  (exists (E : env) (b : bytes) (b' : bytes) k ops (e : ending), life v4_apply k (v4_unchecked b) = (ops, e) /\ (run_block v4_apply (v4_update_checksum E) k (v4_unchecked b) = Continues b' \/ run_block v4_apply (v4_update_checksum E) k (v4_unchecked b) = Unwinds b')) /\
  (exists (E : env) (ip : ip_packet) (b : bytes) (b' : bytes) k ops (e : ending), life udp_apply k (udp_unchecked b) = (ops, e) /\ (run_block udp_apply (udp_update_checksum E ip) k (udp_unchecked b) = Continues b' \/ run_block udp_apply (udp_update_checksum E ip) k (udp_unchecked b) = Unwinds b')) /\
  (exists (E : env) (ip : ip_packet) (b : bytes) (b' : bytes) k ops (e : ending), life tcp_apply k (tcp_unchecked b) = (ops, e) /\ (run_block tcp_apply (tcp_update_checksum E ip) k (tcp_unchecked b) = Continues b' \/ run_block tcp_apply (tcp_update_checksum E ip) k (tcp_unchecked b) = Unwinds b')) /\
  (exists (E : env) (b : bytes) (b' : bytes) k ops (e : ending), life echo_apply k (echo_unchecked b) = (ops, e) /\ (run_block echo_apply (icmp_checked_drop E (echo_as_ref E)) k (echo_unchecked b) = Continues b' \/ run_block echo_apply (icmp_checked_drop E (echo_as_ref E)) k (echo_unchecked b) = Unwinds b')) /\
  (exists (E : env) (b : bytes) (b' : bytes) k ops (e : ending), life information_apply k (information_unchecked b) = (ops, e) /\ (run_block information_apply (icmp_checked_drop E (information_as_ref E)) k (information_unchecked b) = Continues b' \/ run_block information_apply (icmp_checked_drop E (information_as_ref E)) k (information_unchecked b) = Unwinds b')) /\
  (exists (E : env) (b : bytes) (b' : bytes) k ops (e : ending), life timestamp_apply k (timestamp_unchecked b) = (ops, e) /\ (run_block timestamp_apply (icmp_checked_drop E (timestamp_as_ref E)) k (timestamp_unchecked b) = Continues b' \/ run_block timestamp_apply (icmp_checked_drop E (timestamp_as_ref E)) k (timestamp_unchecked b) = Unwinds b')).
Proof.
  split. { exists w_debug, w_v4_udp. eexists. exists w_v4_block_left, [V4SetTtl 9; V4SetId 7], Left. split; [ meet | left; vm_compute; reflexivity ]. }
  split. { exists w_debug, (V4 w_v4_udp), w_udp. eexists. exists w_udp_block_left, [UdpSetSource 9; UdpSetDestination 7], Left. split; [ meet | left; vm_compute; reflexivity ]. }
  split. { exists w_debug, (V4 w_v4_udp), w_v4_udp, w_v4_udp, w_tcp_block, [TcpSetSource 9], Left. meet. }
  split. { exists w_debug, w_payload, w_payload, w_echo_block, [EchoSetIdentifier 9], Left. meet. }
  split. { exists w_debug, w_payload, w_payload, w_info_block, [InfoSetIdentifier 9], Left. meet. }
  exists w_debug, w_payload, w_payload, w_ts_block, [TsSetIdentifier 9], Left. meet.
Qed.
(** C76: the hypotheses of C76_router can be met. *)
Example c76_router_meets :
  (exists (S : Type) (inner : S -> bytes) (inner_ok : S -> Prop) s, frame_packet_ok inner inner_ok s /\ routable s /\ 2 <= vf_ttl (fr_ip s)) /\
  (exists (S : Type) (inner : S -> bytes) (inner_ok : S -> Prop) s, frame_packet_ok inner inner_ok s /\ ~ (routable s /\ 2 <= vf_ttl (fr_ip s))).
Proof.
  split. { exists udp_packet, udp_bytes, udp_packet_ok, (w_summed (w_frame 32 17 w_udp_packet)). meet. }
  exists udp_packet, udp_bytes, udp_packet_ok, (w_frame 32 17 w_udp_packet). split; [meet|]. intros [(_ & H & _) _]. vm_compute in H. discriminate.
Qed.
(** C76: the hypotheses of C76_router_any can be met. *)
Example c76_router_any_meets : exists (b : bytes), is_bytes b.
Proof. exists w_udp_frame. meet. Qed.
(** C76: the hypotheses of C76_route can be met. *)
Example c76_route_meets :
  (exists (S : Type) (inner : S -> bytes) (inner_ok : S -> Prop) hops s, frame_packet_ok inner inner_ok s /\ routable s /\ Forall hop_ok hops /\ hops <> [] /\ N.of_nat (length hops) < vf_ttl (fr_ip s)) /\
  (exists (S : Type) (inner : S -> bytes) (inner_ok : S -> Prop) hops s, frame_packet_ok inner inner_ok s /\ routable s /\ Forall hop_ok hops /\ hops <> [] /\ vf_ttl (fr_ip s) <= N.of_nat (length hops)).
Proof.
  split. { exists udp_packet, udp_bytes, udp_packet_ok, [w_hop1; w_hop2], (w_summed (w_frame 32 17 w_udp_packet)). meet. }
  exists udp_packet, udp_bytes, udp_packet_ok, (repeat w_hop1 64), (w_summed (w_frame 32 17 w_udp_packet)). meet.
Qed.
(** C76: the hypotheses of C76_received can be met. *)
Example c76_received_meets :
  exists (S : Type) (inner : S -> bytes) (inner_ok : S -> Prop) E hops s b, frame_packet_ok inner inner_ok s /\ routable s /\ Forall hop_ok hops /\ route E hops (frame_bytes inner s) = (b, Ok tt).
Proof. exists udp_packet, udp_bytes, udp_packet_ok, w_debug, [w_hop1; w_hop2], (w_summed (w_frame 32 17 w_udp_packet)). eexists. meet. Qed.
(** C76: the hypotheses of C76_built_udp can be met. *)
Example c76_built_udp_meets :
  exists (E : env) (eops : list ether_op) (vs : list v4_setter) (us : list udp_op) (p : bytes) (hops : list hop) (h : hop), eth_ok (Some eops) /\ Forall v4_arg_ok vs /\ Forall udp_op_ok us /\ one_payload (udp_payloads us) p /\ 28 + len p <= 65535 /\ Forall hop_ok (hops ++ [h]) /\ N.of_nat (length (hops ++ [h])) < vf_ttl (v4_after vs).
Proof. exists w_debug, w_ether_ops, w_v4_setters, w_udp_ops_payload, w_payload, [w_hop1], w_hop2. meet. Qed.
(** C76: the hypotheses of C76_built_tcp can be met. *)
Example c76_built_tcp_meets :
  exists (E : env) (eops : list ether_op) (vs : list v4_setter) (ts : list tcp_op) (p : bytes) (hops : list hop) (h : hop), eth_ok (Some eops) /\ Forall v4_arg_ok vs /\ Forall tcp_op_ok ts /\ flags_last (tcp_setters ts) /\ one_payload (tcp_payloads ts) p /\ 40 + len p <= 65535 /\ (len p mod 2 = 0 \/ cursor_eof E = EofKeep) /\ Forall hop_ok (hops ++ [h]) /\ N.of_nat (length (hops ++ [h])) < vf_ttl (v4_after vs).
Proof. exists w_debug, w_ether_ops, w_v4_setters, w_tcp_ops_payload, w_payload, [w_hop1], w_hop2. meet. Qed.
(** C76: the hypotheses of C76_built_echo can be met. *)
Example c76_built_echo_meets :
  exists (E : env) (eops : list ether_op) (vs : list v4_setter) (os : list echo_op) (p : bytes) (hops : list hop) (h : hop), eth_ok (Some eops) /\ Forall v4_arg_ok vs /\ Forall echo_op_ok os /\ one_payload (echo_payloads os) p /\ echo_kind_given os /\ 28 + len p <= 65535 /\ Forall hop_ok (hops ++ [h]) /\ N.of_nat (length (hops ++ [h])) < vf_ttl (v4_after vs).
Proof. exists w_debug, w_ether_ops, w_v4_setters, w_echo_ops_payload, w_payload, [w_hop1], w_hop2. meet. Qed.
(** C76: the hypotheses of C76_ping can be met. *)
Example c76_ping_meets :
  exists (there back : list hop) (s : frame_packet echo_packet), frame_packet_ok echo_bytes echo_packet_ok s /\ routable s /\ Forall hop_ok there /\ Forall hop_ok back /\ N.of_nat (length there) + N.of_nat (length back) < vf_ttl (fr_ip s) /\ vf_proto (fr_ip s) = 1.
Proof. exists [w_hop1; w_hop2], [w_hop2; w_hop1; w_hop1], (w_summed (w_frame 32 1 w_echo_packet)). meet. Qed.
(** C76: the hypotheses of C76_damaged can be met. *)
Example c76_damaged_meets :
  exists (S : Type) (inner : S -> bytes) (inner_ok : S -> Prop) s i v, frame_packet_ok inner inner_ok s /\ routable s /\ i < vf_ihl (fr_ip s) * 4 /\ u8 v /\ v <> nthN (frame_bytes inner s) (14 + i) /\ (i = 0 -> v mod 16 = vf_ihl (fr_ip s)).
Proof. exists udp_packet, udp_bytes, udp_packet_ok, (w_summed (w_frame 32 17 w_udp_packet)), 8, 65. do 5 (split; [meet|]). intros H. discriminate H. Qed.
(** C77: the hypotheses of C77_udp can be met. *)
Example c77_udp_meets :
  exists (E : env) (vs : list v4_setter) (us : list udp_setter) (s : frame_packet udp_packet), frame_packet_ok udp_bytes udp_packet_ok s /\ Forall v4_setter_ok vs /\ Forall udp_setter_ok us /\ (len (udp_bytes (fr_inner s)) mod 2 = 0 \/ cursor_eof E = EofKeep).
Proof. exists w_debug, [V4SetSource (Ip4 192 0 2 1); V4SetTtl 7], w_udp_setters, (w_frame 32 17 w_udp_packet). meet. Qed.
(** C77: the hypotheses of C77_udp_received can be met. *)
Example c77_udp_received_meets :
  exists (E E' : env) (vs : list v4_setter) (us : list udp_setter) (s : frame_packet udp_packet), frame_packet_ok udp_bytes udp_packet_ok s /\ Forall v4_setter_ok vs /\ Forall udp_setter_ok us /\ carries_udp s /\ Forall keeps_protocol vs /\ (len (udp_bytes (fr_inner s)) mod 2 = 0 \/ (cursor_eof E = EofKeep /\ cursor_eof E' = EofKeep)).
Proof. exists w_debug, w_debug, [V4SetSource (Ip4 192 0 2 1); V4SetTtl 7], w_udp_setters, (w_frame 32 17 w_udp_packet). meet. Qed.
(** C77: the hypotheses of C77_udp_order can be met. *)
Example c77_udp_order_meets :
  exists (E E' : env) (us : list udp_setter) (s : frame_packet udp_packet) (a : ipv4addr), frame_packet_ok udp_bytes udp_packet_ok s /\ Forall udp_setter_ok us /\ addr_ok a /\ carries_udp s /\ (len (udp_bytes (fr_inner s)) mod 2 = 0 \/ (cursor_eof E = EofKeep /\ cursor_eof E' = EofKeep)).
Proof. exists w_debug, w_debug, w_udp_setters, (w_frame 32 17 w_udp_packet), (Ip4 192 0 2 1). meet. Qed.
(** C77: the hypotheses of C77_udp_undone can be met. *)
Example c77_udp_undone_meets :
  exists (E : env) (s : frame_packet udp_packet) (a : ipv4addr) (port : N), frame_packet_ok udp_bytes udp_packet_ok s /\ addr_ok a /\ u16 port /\ (len (udp_bytes (fr_inner s)) mod 2 = 0 \/ cursor_eof E = EofKeep) /\ summed_udp s.
Proof. exists w_debug, (rewritten_udp [] [] (w_frame 32 17 w_udp_packet)), (Ip4 192 0 2 1), 40000. meet. Qed.
(** C77: the hypotheses of C77_udp_session can be met. *)
Example c77_udp_session_meets :
  exists (E E' : env) (s : frame_packet udp_packet) (public : ipv4addr) (port : N) (private : ipv4addr) (own : N), frame_packet_ok udp_bytes udp_packet_ok s /\ carries_udp s /\ addr_ok public /\ u16 port /\ addr_ok private /\ u16 own /\ (len (udp_bytes (fr_inner s)) mod 2 = 0 \/ (cursor_eof E = EofKeep /\ cursor_eof E' = EofKeep)).
Proof. exists w_debug, w_debug, (w_frame 32 17 w_udp_packet), (Ip4 192 0 2 1), 40000, (Ip4 10 0 0 1), 53. meet. Qed.
(** C77: the hypotheses of C77_built_udp can be met. *)
Example c77_built_udp_meets :
  exists (E E' : env) (eops : list ether_op) (vs : list v4_setter) (us : list udp_op) (p : bytes) (a : ipv4addr) (port : N), eth_ok (Some eops) /\ Forall v4_arg_ok vs /\ Forall udp_op_ok us /\ one_payload (udp_payloads us) p /\ 28 + len p <= 65535 /\ addr_ok a /\ u16 port /\ (len p mod 2 = 0 \/ (cursor_eof E = EofKeep /\ cursor_eof E' = EofKeep)).
Proof. exists w_debug, w_debug, w_ether_ops, w_v4_setters, w_udp_ops_payload, w_payload, (Ip4 192 0 2 1), 40000. meet. Qed.
(** C77: the hypotheses of C77_tcp can be met. *)
Example c77_tcp_meets :
  exists (E : env) (vs : list v4_setter) (ts : list tcp_setter) (s : frame_packet tcp_packet), frame_packet_ok tcp_bytes tcp_packet_ok s /\ tcp_spoiled (fr_inner s) = false /\ Forall v4_setter_ok vs /\ Forall tcp_setter_ok ts /\ Forall (fun o => ~ tcp_is_flags o) ts /\ (len (tcp_bytes (fr_inner s)) mod 2 = 0 \/ cursor_eof E = EofKeep).
Proof. exists w_debug, [V4SetSource (Ip4 192 0 2 1); V4SetTtl 7], [TcpSetSource 40000; TcpSetWindow 9], (w_frame 44 6 w_tcp_packet). meet. Qed.
(** C77: the hypotheses of C77_tcp_received can be met. *)
Example c77_tcp_received_meets :
  exists (E E' : env) (vs : list v4_setter) (ts : list tcp_setter) (s : frame_packet tcp_packet), frame_packet_ok tcp_bytes tcp_packet_ok s /\ Forall v4_setter_ok vs /\ Forall tcp_setter_ok ts /\ Forall (fun o => ~ tcp_is_flags o) ts /\ carries_tcp s /\ Forall keeps_protocol vs /\ (len (tcp_bytes (fr_inner s)) mod 2 = 0 \/ (cursor_eof E = EofKeep /\ cursor_eof E' = EofKeep)).
Proof. exists w_debug, w_debug, [V4SetSource (Ip4 192 0 2 1); V4SetTtl 7], [TcpSetSource 40000; TcpSetWindow 9], (w_frame 44 6 w_tcp_packet). meet. Qed.
(** C77: the hypotheses of C77_tcp_order can be met. *)
Example c77_tcp_order_meets :
  exists (E E' : env) (ts : list tcp_setter) (s : frame_packet tcp_packet) (a : ipv4addr), frame_packet_ok tcp_bytes tcp_packet_ok s /\ Forall tcp_setter_ok ts /\ Forall (fun o => ~ tcp_is_flags o) ts /\ addr_ok a /\ carries_tcp s /\ (len (tcp_bytes (fr_inner s)) mod 2 = 0 \/ (cursor_eof E = EofKeep /\ cursor_eof E' = EofKeep)).
Proof. exists w_debug, w_debug, [TcpSetSource 40000; TcpSetWindow 9], (w_frame 44 6 w_tcp_packet), (Ip4 192 0 2 1). meet. Qed.
(** C77: the hypotheses of C77_tcp_undone can be met. *)
Example c77_tcp_undone_meets :
  exists (E : env) (s : frame_packet tcp_packet) (a : ipv4addr) (port : N), frame_packet_ok tcp_bytes tcp_packet_ok s /\ tcp_spoiled (fr_inner s) = false /\ addr_ok a /\ u16 port /\ (len (tcp_bytes (fr_inner s)) mod 2 = 0 \/ cursor_eof E = EofKeep) /\ summed_tcp s.
Proof. exists w_debug, (rewritten_tcp [] [] (w_frame 44 6 w_tcp_packet)), (Ip4 192 0 2 1), 40000. meet. Qed.
(** C77: the hypotheses of C77_tcp_session can be met. *)
Example c77_tcp_session_meets :
  exists (E E' : env) (s : frame_packet tcp_packet) (public : ipv4addr) (port : N) (private : ipv4addr) (own : N), frame_packet_ok tcp_bytes tcp_packet_ok s /\ carries_tcp s /\ addr_ok public /\ u16 port /\ addr_ok private /\ u16 own /\ (len (tcp_bytes (fr_inner s)) mod 2 = 0 \/ (cursor_eof E = EofKeep /\ cursor_eof E' = EofKeep)).
Proof. exists w_debug, w_debug, (w_frame 44 6 w_tcp_packet), (Ip4 192 0 2 1), 40000, (Ip4 10 0 0 1), 53. meet. Qed.
(** C77: the hypotheses of C77_built_tcp can be met. *)
Example c77_built_tcp_meets :
  exists (E E' : env) (eops : list ether_op) (vs : list v4_setter) (ts late : list tcp_op) (p : bytes) (a : ipv4addr) (port : N), eth_ok (Some eops) /\ Forall v4_arg_ok vs /\ Forall tcp_op_ok (ts ++ late) /\ flags_last (tcp_setters (ts ++ late)) /\ Forall tcp_is_flags (tcp_setters late) /\ Forall (fun o => ~ tcp_is_flags o) (tcp_setters ts) /\ one_payload (tcp_payloads (ts ++ late)) p /\ 40 + len p <= 65535 /\ addr_ok a /\ u16 port /\ (len p mod 2 = 0 \/ (cursor_eof E = EofKeep /\ cursor_eof E' = EofKeep)).
Proof. exists w_debug, w_debug, w_ether_ops, w_v4_setters, [TcpSet (TcpSetDestination 99); TcpPayload w_payload], [TcpSet (TcpSetFlags 16)], w_payload, (Ip4 192 0 2 1), 40000. meet. Qed.
(** C78: the hypotheses of C78_ping_host can be met. *)
Example c78_ping_host_meets : exists (b : bytes), is_bytes b.
Proof. exists w_udp_frame. meet. Qed.
(** C78: the hypotheses of C78_reply can be met. *)
Example c78_reply_meets :
  exists (E : env) (me : ipv4addr) (b b' : bytes), is_bytes b /\ ping_host E me b = (b', Ok true).
Proof. exists w_debug, (Ip4 10 0 0 2), (frame_bytes echo_bytes w_ping_frame). eexists. meet. Qed.
(** C78: the hypotheses of C78_ping can be met. *)
Example c78_ping_meets :
  exists (there : list hop) (me : ipv4addr) (back : list hop) (s : frame_packet echo_packet), pings me (frame_bytes echo_bytes s) s /\ Forall hop_ok there /\ Forall hop_ok back /\ N.of_nat (length there) + N.of_nat (length back) < vf_ttl (fr_ip s).
Proof. exists [w_hop1; w_hop2], (Ip4 10 0 0 2), [w_hop2; w_hop1; w_hop1], w_ping_frame. meet. Qed.
(** C78: the hypotheses of C78_echo_service can be met. *)
Example c78_echo_service_meets : exists (E : env) (b : bytes), is_bytes b /\ (wire16 b 16 mod 2 = 0 \/ cursor_eof E = EofKeep).
Proof. exists w_debug, w_udp_frame. meet. Qed.
(** C78: the hypotheses of C78_echo_answer can be met. *)
Example c78_echo_answer_meets :
  exists (E : env) (me : ipv4addr) (port : N) (b b' : bytes), is_bytes b /\ (wire16 b 16 mod 2 = 0 \/ cursor_eof E = EofKeep) /\ echo_service E me port b = (b', Ok true).
Proof. exists w_debug, (Ip4 10 0 0 2), 53, (frame_bytes udp_bytes w_query_frame). eexists. meet. Qed.
(** C78: the hypotheses of C78_to_and_fro can be met. *)
Example c78_to_and_fro_meets :
  exists (E E' : env) (me : ipv4addr) (port : N) (you : ipv4addr) (other : N) (b : bytes) (s : frame_packet udp_packet), is_bytes b /\ (wire16 b 16 mod 2 = 0 \/ (cursor_eof E = EofKeep /\ cursor_eof E' = EofKeep)) /\ queries me port b s /\ vf_src (fr_ip s) = you /\ uf_src (up_header (fr_inner s)) = other.
Proof. exists w_debug, w_debug, (Ip4 10 0 0 2), 53. exists (Ip4 10 0 0 1), 5353, (frame_bytes udp_bytes w_query_frame), w_query_frame. split; [meet|]. split; [meet|]. split; [|meet].
  unfold queries, rfc_udp. repeat split; try meet. Qed.
(** C77: the hypotheses of C77_udp_alike can be met, with either verdict. *)
Example c77_udp_alike_meets :
  (exists (E E' : env) (vs : list v4_setter) (us : list udp_setter) (s : frame_packet udp_packet), cursor_eof E <> cursor_eof E' /\ len (up_payload (fr_inner s)) mod 2 = 1 /\
     frame_packet_ok udp_bytes udp_packet_ok s /\ Forall v4_setter_ok vs /\ Forall udp_setter_ok us /\ carries_udp s /\ Forall keeps_protocol vs /\ alike E E' (up_payload (fr_inner s))) /\
  (exists (E E' : env) (vs : list v4_setter) (us : list udp_setter) (s : frame_packet udp_packet),
     frame_packet_ok udp_bytes udp_packet_ok s /\ Forall v4_setter_ok vs /\ Forall udp_setter_ok us /\ carries_udp s /\ Forall keeps_protocol vs /\ ~ alike E E' (up_payload (fr_inner s))).
Proof.
  split.
  - exists {| overflow_checks := true; cursor_eof := EofSeek; target := Bits64 |}, {| overflow_checks := true; cursor_eof := EofKeep; target := Bits64 |},
      [V4SetSource (Ip4 192 0 2 1); V4SetTtl 7], w_udp_setters, (w_odd_query 0).
    split; [discriminate|]. split; [meet|]. do 5 (split; [meet|]). right. left. vm_compute. reflexivity.
  - exists {| overflow_checks := true; cursor_eof := EofSeek; target := Bits64 |}, {| overflow_checks := true; cursor_eof := EofKeep; target := Bits64 |},
      [V4SetSource (Ip4 192 0 2 1); V4SetTtl 7], w_udp_setters, (w_odd_query 7).
    do 5 (split; [meet|]). intros [H|[H|H]]; discriminate H.
Qed.
(** C77: the hypotheses of C77_tcp_odd_refuted can be met. *)
Example c77_tcp_odd_refuted_meets :
  exists (E : env) (vs : list v4_setter) (ts : list tcp_setter) (s : frame_packet tcp_packet), frame_packet_ok tcp_bytes tcp_packet_ok s /\ Forall v4_setter_ok vs /\ Forall tcp_setter_ok ts /\
    len (tcp_bytes (fr_inner s)) mod 2 = 1 /\ cursor_eof E = EofSeek.
Proof.
  exists {| overflow_checks := true; cursor_eof := EofSeek; target := Bits64 |}, [V4SetSource (Ip4 192 0 2 1)], [TcpSetSource 40000],
    (w_frame (41 + len (tp_options w_tcp_packet)) 6 {| tp_header := tp_header w_tcp_packet; tp_options := tp_options w_tcp_packet; tp_payload := [7] |}). meet.
Qed.
(** C78: the hypotheses of C78_echo_service_any can be met, with either outcome. *)
Example c78_echo_service_any_meets :
  (exists (E : env) (me : ipv4addr) (port : N) (b : bytes) (s : frame_packet udp_packet), is_bytes b /\ wire16 b 16 mod 2 = 1 /\ cursor_eof E = EofSeek /\ takes E me port b s) /\
  (exists (E : env) (b : bytes), is_bytes b /\ wire16 b 16 mod 2 = 1 /\ cursor_eof E = EofSeek /\ receive_udp E b = Ok false).
Proof.
  split.
  - exists {| overflow_checks := true; cursor_eof := EofSeek; target := Bits64 |}, (Ip4 10 0 0 2), 53, (frame_bytes udp_bytes (w_odd_query 0)), (w_odd_query 0).
    split; [meet|]. split; [meet|]. split; [meet|]. unfold takes. repeat split; try meet.
  - exists {| overflow_checks := true; cursor_eof := EofSeek; target := Bits64 |}, (frame_bytes udp_bytes (w_odd_query 7)). repeat split; meet.
Qed.
(** C78: the hypotheses of C78_answer_received can be met. *)
Example c78_answer_received_meets :
  exists (E : env) (me : ipv4addr) (port : N) (b b' : bytes), is_bytes b /\ echo_service E me port b = (b', Ok true) /\ wire16 b 16 mod 2 = 1.
Proof.
  exists {| overflow_checks := true; cursor_eof := EofSeek; target := Bits64 |}, (Ip4 10 0 0 2), 53, (frame_bytes udp_bytes (w_odd_query 0)). eexists.
  split; [meet|]. split; [vm_compute; reflexivity|meet].
Qed.
(** C78: the hypotheses of C78_to_and_fro_any can be met, by two standard libraries that differ and a datagram of odd length. *)
Example c78_to_and_fro_any_meets :
  exists (E E' : env) (me : ipv4addr) (port : N) (you : ipv4addr) (other : N) (b : bytes) (s : frame_packet udp_packet), cursor_eof E <> cursor_eof E' /\ wire16 b 16 mod 2 = 1 /\
    is_bytes b /\ takes E me port b s /\ receive_udp E' b = Ok true /\ vf_src (fr_ip s) = you /\ uf_src (up_header (fr_inner s)) = other.
Proof.
  exists {| overflow_checks := true; cursor_eof := EofSeek; target := Bits64 |}, {| overflow_checks := true; cursor_eof := EofKeep; target := Bits64 |}, (Ip4 10 0 0 2), 53, (Ip4 10 0 0 1), 5353, (frame_bytes udp_bytes (w_odd_query 0)), (w_odd_query 0).
  split; [discriminate|]. split; [meet|]. split; [meet|]. split; [unfold takes; repeat split; try meet|]. repeat split; meet.
Qed.
(** C78: the hypotheses of C78_one_way can be met, with a query that the service takes. *)
Example c78_one_way_meets :
  exists (E E' : env) (me : ipv4addr) (port : N) (b b' : bytes), is_bytes b /\ receive_udp E' b <> Ok true /\ echo_service E me port b = (b', Ok true).
Proof.
  exists {| overflow_checks := true; cursor_eof := EofKeep; target := Bits64 |}, {| overflow_checks := true; cursor_eof := EofSeek; target := Bits64 |}, (Ip4 10 0 0 2), 53, (frame_bytes udp_bytes (w_odd_query 7)). eexists.
  split; [meet|]. split; [vm_compute; discriminate|vm_compute; reflexivity].
Qed.
(** C79: the hypotheses of C79_panics can be met. *)
Example c79_panics_meets :
  exists (E : env) (n : nat) (b : bytes), rust_slice b /\ (41 <= n)%nat.
Proof. exists w_debug, 41%nat, (frame_bytes udp_bytes w_query_frame). split; [chk|apply le_n]. Qed.
(** C79: the hypotheses of C79_prints can be met. *)
Example c79_prints_meets :
  (exists (E : env) (n : nat) (b : bytes), rust_slice b /\ (41 <= n)%nat /\ ~ crashes b /\ len b < 14) /\
  (exists (E : env) (n : nat) (b : bytes), rust_slice b /\ (41 <= n)%nat /\ ~ crashes b /\ 14 <= len b /\ ~ (exists proto ip body, frame_of 0x0800 proto b ip body)) /\
  (exists (E : env) (n : nat) (b : bytes) (proto : N) (ip body : bytes), rust_slice b /\ (41 <= n)%nat /\ ~ crashes b /\ 14 <= len b /\ frame_of 0x0800 proto b ip body).
Proof.
  assert (NC : forall b, rust_slice (E := w_debug) b -> (match dump w_debug 41 b with Some Panic => false | _ => true end) = true -> ~ crashes b).
  { intros b Hr Hd Hc. destruct (DumpProofs.c79_panics w_debug 41 b Hr (le_n _)) as (r & H1 & H2 & _). apply H2 in Hc. subst r. rewrite H1 in Hd. discriminate. }
  split; [|split].
  - exists w_debug, 41%nat, [1; 2; 3]. split; [chk|]. split; [apply le_n|]. split; [apply NC; [chk|vm_compute; reflexivity]|reflexivity].
  - exists w_debug, 41%nat, (w_four ++ w_four ++ w_four ++ w_four). split; [chk|]. split; [apply le_n|]. split; [apply NC; [chk|vm_compute; reflexivity]|].
    split; [vm_compute; discriminate|]. intros (proto & ip & body & H & _). vm_compute in H. apply H. reflexivity.
  - exists w_debug, 41%nat, (frame_bytes udp_bytes w_query_frame). eexists 17, _, _. split; [chk|]. split; [apply le_n|]. split; [apply NC; [chk|vm_compute; reflexivity]|].
    split; [vm_compute; discriminate|]. unfold frame_of. repeat (split; [first [reflexivity|vm_compute; discriminate]|]). reflexivity.
Qed.
(** C79: the hypotheses of C79_udp_frame can be met. *)
Example c79_udp_frame_meets :
  exists (s : frame_packet udp_packet), frame_packet_ok udp_bytes udp_packet_ok s /\ ef_type (fr_ether s) = 0x0800 /\ vf_proto (fr_ip s) = 17.
Proof. exists w_query_frame. meet. Qed.
(** C79: the hypotheses of C79_tcp_frame can be met. *)
Example c79_tcp_frame_meets :
  exists (s : frame_packet tcp_packet), frame_packet_ok tcp_bytes tcp_packet_ok s /\ ef_type (fr_ether s) = 0x0800 /\ vf_proto (fr_ip s) = 6.
Proof. exists (w_frame 44 6 w_tcp_packet). meet. Qed.
(** C79: the hypotheses of C79_echo_frame can be met. *)
Example c79_echo_frame_meets :
  exists (s : frame_packet echo_packet), frame_packet_ok echo_bytes echo_packet_ok s /\ ef_type (fr_ether s) = 0x0800 /\ vf_proto (fr_ip s) = 1.
Proof. exists w_ping_frame. meet. Qed.
(** C79: the hypotheses of C79_builds can be met. *)
Example c79_builds_meets :
  exists (n n' : nat) (b : bytes), is_bytes b /\ len b < 2 ^ 31 /\ (41 <= n)%nat /\ (41 <= n')%nat.
Proof. exists 41%nat, 41%nat, (frame_bytes udp_bytes w_query_frame). split; [chk|]. split; [reflexivity|]. split; apply le_n. Qed.
(** C80: the hypotheses of C80_tcp_find can be met. *)
Example c80_tcp_find_meets :
  exists (w : N) (area : bytes) (n : nat), 2 <= w < 256 /\ is_bytes area /\ (length area < n)%nat.
Proof. exists 2, [1; 2; 4; 5; 180], 6%nat. split; [chk|]. split; [chk|]. apply le_n. Qed.
(** C80: the hypotheses of C80_v4_find can be met. *)
Example c80_v4_find_meets :
  exists (w : N) (area : bytes) (n : nat), 2 <= w < 32 /\ is_bytes area /\ (length area < n)%nat.
Proof. exists 20, [1; 148; 4; 0; 0], 6%nat. split; [chk|]. split; [chk|]. apply le_n. Qed.
(** C80: the hypotheses of C80_tcp_hangs can be met. *)
Example c80_tcp_hangs_meets :
  exists (E : env) (w v : N) (area : bytes), 2 <= w < 256 /\ is_bytes area /\ overflow_checks E = false /\ zero_length tcp_num w v area /\ v <> w.
Proof.
  exists w_release, 2, 3, [1; 8; 3; 7; 3; 0; 2; 4; 5; 180]. split; [chk|]. split; [chk|]. split; [reflexivity|]. split; [|discriminate].
  exists 3, [2; 4; 5; 180]. split; [|split; [vm_compute; discriminate|reflexivity]]. exists [One 1; Tlv 8 [7]].
  split; [reflexivity|]. split; repeat constructor; vm_compute; discriminate.
Qed.
(** C80: the hypotheses of C80_v4_hangs can be met. *)
Example c80_v4_hangs_meets :
  exists (E : env) (w v : N) (area : bytes), 2 <= w < 32 /\ is_bytes area /\ overflow_checks E = false /\ zero_length v4_num w v area /\ v <> w.
Proof.
  exists w_release, 20, 2, [1; 7; 3; 4; 130; 0; 148; 4; 0; 0]. split; [chk|]. split; [chk|]. split; [reflexivity|]. split; [|discriminate].
  exists 130, [148; 4; 0; 0]. split; [|split; [vm_compute; discriminate|reflexivity]]. exists [One 1; Tlv 7 [4]].
  split; [reflexivity|]. split; repeat constructor; vm_compute; discriminate.
Qed.
(** C80: the hypotheses of C80_tcp_packet can be met. *)
Example c80_tcp_packet_meets :
  (exists (E : env) (w : N) (p : bytes) (n : nat), 2 <= w < 256 /\ rust_slice p /\ tcp_new p = Ok p /\ (41 <= n)%nat /\ nthN p 12 / 16 < 5) /\
  (exists (E : env) (w : N) (p : bytes) (n : nat), 2 <= w < 256 /\ rust_slice p /\ tcp_new p = Ok p /\ (41 <= n)%nat /\ 5 <= nthN p 12 / 16).
Proof.
  split.
  - exists w_debug, 2, ([0; 1; 0; 2; 0; 0; 0; 0; 0; 0; 0; 0; 64; 2; 0; 0; 0; 0; 0; 0] ++ w_payload), 41%nat. split; [chk|]. split; [chk|]. split; [chk|]. split; [apply le_n|chk].
  - exists w_debug, 2, (tcp_wire w_tcp_fields_options ++ [2; 4; 5; 180] ++ w_payload), 41%nat. split; [chk|]. split; [chk|]. split; [chk|]. split; [apply le_n|chk].
Qed.
(** C80: the hypotheses of C80_v4_packet can be met. *)
Example c80_v4_packet_meets :
  (exists (E : env) (w : N) (p : bytes) (n : nat), 2 <= w < 32 /\ rust_slice p /\ v4_new p = Ok p /\ (41 <= n)%nat /\ nthN p 0 mod 16 < 5) /\
  (exists (E : env) (w : N) (p : bytes) (n : nat), 2 <= w < 32 /\ rust_slice p /\ v4_new p = Ok p /\ (41 <= n)%nat /\ 5 <= nthN p 0 mod 16).
Proof.
  split.
  - exists w_debug, 20, ([68; 0; 0; 20; 0; 0; 0; 0; 64; 17; 0; 0; 10; 0; 0; 1; 10; 0; 0; 2]), 41%nat. split; [chk|]. split; [chk|]. split; [chk|]. split; [apply le_n|chk].
  - exists w_debug, 20, (v4_wire w_v4_fields_options ++ [148; 4; 0; 0] ++ w_payload), 41%nat. split; [chk|]. split; [chk|]. split; [chk|]. split; [apply le_n|chk].
Qed.
(** C80: the hypotheses of C80_tcp_present can be met. *)
Example c80_tcp_present_meets :
  exists (f : tcp_fields) (pre : list opt) (k : N) (d : bytes) (post : list opt) (t : bytes) (n : nat), tcp_fields_ok f /\
  is_bytes (opts_wire (pre ++ Opt k d :: post) ++ t) /\ Forall tcp_opt_ok (pre ++ [Opt k d]) /\ (forall d', ~ In (Opt k d') pre) /\
  tf_offset f * 4 = 20 + len (opts_wire (pre ++ Opt k d :: post) ++ t) /\ (41 <= n)%nat.
Proof.
  exists w_tcp_fields_options, [Nop], 3, [7], [], [], 41%nat. split; [meet|]. split; [chk|]. split; [repeat constructor; chk|].
  split; [intros d' [H|[]]; discriminate|]. split; [reflexivity|apply le_n].
Qed.
(** C80: the hypotheses of C80_tcp_absent can be met. *)
Example c80_tcp_absent_meets :
  exists (f : tcp_fields) (os : list opt) (w : N) (t : bytes) (n : nat), tcp_fields_ok f /\ 2 <= w < 256 /\
  is_bytes (opts_wire os ++ t) /\ Forall tcp_opt_ok os /\ opt_end t /\ (forall d, ~ In (Opt w d) os) /\
  tf_offset f * 4 = 20 + len (opts_wire os ++ t) /\ (41 <= n)%nat.
Proof.
  exists w_tcp_fields_options, [Opt 3 [7]], 2, [0], 41%nat. split; [meet|]. split; [chk|]. split; [chk|]. split; [repeat constructor; chk|].
  split; [right; exists []; reflexivity|]. split; [intros d' [H|[]]; discriminate|]. split; [reflexivity|apply le_n].
Qed.
(** C80: the hypotheses of C80_v4_present can be met. *)
Example c80_v4_present_meets :
  exists (f : v4_fields) (pre : list opt) (k : N) (d : bytes) (post : list opt) (t payload : bytes) (n : nat), v4_fields_ok f /\ vf_version f = 4 /\
  is_bytes (opts_wire (pre ++ Opt k d :: post) ++ t) /\ Forall v4_opt_ok (pre ++ [Opt k d]) /\
  (forall k' d', In (Opt k' d') pre -> k' mod 32 <> k mod 32) /\
  vf_ihl f * 4 = 20 + len (opts_wire (pre ++ Opt k d :: post) ++ t) /\
  vf_total f = 20 + len (opts_wire (pre ++ Opt k d :: post) ++ t) + len payload /\ (41 <= n)%nat.
Proof.
  exists w_v4_fields_options, [Nop], 148, [0], [], [], w_payload, 41%nat. split; [meet|]. split; [reflexivity|]. split; [chk|]. split; [repeat constructor; chk|].
  split; [intros k' d' [H|[]]; discriminate|]. split; [reflexivity|]. split; [reflexivity|apply le_n].
Qed.
(** C80: the hypotheses of C80_v4_absent can be met. *)
Example c80_v4_absent_meets :
  exists (f : v4_fields) (os : list opt) (w : N) (t payload : bytes) (n : nat), v4_fields_ok f /\ vf_version f = 4 /\ 2 <= w < 32 /\
  is_bytes (opts_wire os ++ t) /\ Forall v4_opt_ok os /\ opt_end t /\ (forall k d, In (Opt k d) os -> k mod 32 <> w) /\
  vf_ihl f * 4 = 20 + len (opts_wire os ++ t) /\ vf_total f = 20 + len (opts_wire os ++ t) + len payload /\ (41 <= n)%nat.
Proof.
  exists w_v4_fields_options, [Opt 148 [0]], 7, [0], w_payload, 41%nat. split; [meet|]. split; [reflexivity|]. split; [chk|]. split; [chk|]. split; [repeat constructor; chk|].
  split; [right; exists []; reflexivity|]. split; [intros k' d' [H|[]]; injection H as <- <-; vm_compute; discriminate|]. split; [reflexivity|]. split; [reflexivity|apply le_n].
Qed.
(** C81: the hypotheses of C81_tolerant can be met. *)
Example c81_tolerant_meets : exists (m : bytes) (fl : flow), is_bytes m.
Proof. exists w_unreachable, (flow_of IP_Udp w_quoted_udp 5353 53). chk. Qed.
(** C81: the hypotheses of C81_strict can be met. *)
Example c81_strict_meets : exists (m : bytes) (fl : flow), is_bytes m.
Proof. exists w_unreachable, (flow_of IP_Udp w_quoted_udp 5353 53). chk. Qed.
(** C81: the hypotheses of C81_total can be met. *)
Example c81_total_meets : exists m : bytes, is_bytes m.
Proof. exists w_unreachable. chk. Qed.
(** C81: the hypotheses of C81_tolerant_total can be met. *)
Example c81_tolerant_total_meets : exists m : bytes, is_bytes m.
Proof. exists w_unreachable. chk. Qed.
(** C81: the hypotheses of C81_udp can be met. *)
Example c81_udp_meets :
  exists (c : icmp_fields) (four : bytes) (f : v4_fields) (options : bytes) (u : udp_fields) (payload : bytes) (n : N),
  icmp_fields_ok c /\ error_type (cf_type c) /\ len four = 4 /\ is_bytes four /\ is_bytes options /\ is_bytes payload /\
  udp_fields_ok u /\ uf_length u = 8 + len payload /\ sent_ok f options (udp_wire u ++ payload) /\ vf_proto f = 17 /\ 4 <= n /\ n < 8 + len payload.
Proof.
  exists w_error_fields, w_four, w_quoted_udp, [7;3;4;0], w_udp_fields, w_payload, 8. split; [meet|]. split; [left; reflexivity|]. split; [reflexivity|]. split; [chk|]. split; [chk|]. split; [chk|].
  split; [meet|]. split; [reflexivity|]. split; [split; [meet|repeat split]|]. split; [reflexivity|]. vm_compute; split; congruence.
Qed.
(** C81: the hypotheses of C81_tcp can be met. *)
Example c81_tcp_meets :
  exists (c : icmp_fields) (four : bytes) (f : v4_fields) (options : bytes) (t : tcp_fields) (topts payload : bytes) (n : N),
  icmp_fields_ok c /\ error_type (cf_type c) /\ len four = 4 /\ is_bytes four /\ is_bytes options /\ is_bytes topts /\ is_bytes payload /\
  tcp_fields_ok t /\ tf_offset t * 4 = 20 + len topts /\ sent_ok f options (tcp_wire t ++ topts ++ payload) /\ vf_proto f = 6 /\
  4 <= n /\ n < 20 + len topts + len payload.
Proof.
  exists w_error_fields, w_four, w_quoted_tcp, [7;3;4;0], w_tcp_fields_options, [2;4;5;180], w_payload, 8. split; [meet|]. split; [left; reflexivity|]. split; [reflexivity|]. split; [chk|]. split; [chk|]. split; [chk|]. split; [chk|].
  split; [meet|]. split; [reflexivity|]. split; [split; [meet|repeat split]|]. split; [reflexivity|]. vm_compute; split; congruence.
Qed.
(** C82: the hypotheses of C82_receive can be met. *)
Example c82_receive_meets : exists (E : env) (b : bytes) (g : segment), is_bytes b /\ (wire16 b 16 mod 2 = 0 \/ cursor_eof E = EofKeep).
Proof. exists w_debug, w_tcp_frame, (first_segment x_client x_peer 1 2). split; [chk|left; vm_compute; reflexivity]. Qed.
(** C82: the hypotheses of C82_receive_total can be met. *)
Example c82_receive_total_meets : exists (E : env) (b : bytes), is_bytes b /\ (wire16 b 16 mod 2 = 0 \/ cursor_eof E = EofKeep).
Proof. exists w_debug, w_tcp_frame. split; [chk|left; vm_compute; reflexivity]. Qed.
(** C82: the hypotheses of C82_send can be met. *)
Example c82_send_meets : exists (E E' : env) (g : segment), segment_ok g /\ (len (sg_data g) mod 2 = 0 \/ (cursor_eof E = EofKeep /\ cursor_eof E' = EofKeep)).
Proof. exists w_debug, w_release, (answering (first_segment x_client x_peer 1 2) 3 ACK 4 [5; 6]). split; [meet|left; reflexivity]. Qed.
(** C82: the hypotheses of C82_way can be met. *)
Example c82_way_meets : exists (E Er E' : env) (steps : list middlebox) (g : segment), segment_ok g /\ Forall step_ok steps /\ (hops steps < 64)%nat /\
  (len (sg_data g) mod 2 = 0 \/ (cursor_eof E = EofKeep /\ cursor_eof Er = EofKeep /\ cursor_eof E' = EofKeep)).
Proof. exists w_debug, w_debug, w_release, x_forth, (answering (first_segment x_client x_peer 1 2) 3 ACK 4 [5; 6]). split; [meet|]. split; [repeat constructor; chk|]. split; [apply Nat.ltb_lt; reflexivity|left; reflexivity]. Qed.
(** C82: the hypotheses of C82_listen can be met. *)
Example c82_listen_meets : exists (E : env) (me : endpoint) (isn window : N) (b : bytes), is_bytes b /\ (wire16 b 16 mod 2 = 0 \/ cursor_eof E = EofKeep) /\ u32 isn /\ u16 window.
Proof. exists w_debug, x_server, 7, 1000, w_tcp_frame. split; [chk|]. split; [left; vm_compute; reflexivity|]. meet. Qed.
(** C82: the hypotheses of C82_confirm can be met. *)
Example c82_confirm_meets : exists (E : env) (me peer : endpoint) (isn window : N) (data b : bytes), is_bytes b /\ (wire16 b 16 mod 2 = 0 \/ cursor_eof E = EofKeep) /\ u16 window /\
  is_bytes data /\ 40 + len data <= 65535 /\ (len data mod 2 = 0 \/ cursor_eof E = EofKeep).
Proof. exists w_debug, x_client, x_peer, 7, 1000, [1; 2], w_tcp_frame. split; [chk|]. split; [left; vm_compute; reflexivity|]. split; [meet|]. split; [chk|]. split; [meet|left; reflexivity]. Qed.
(** C82: the hypotheses of C82_accept can be met. *)
Example c82_accept_meets : exists (E : env) (me : endpoint) (isn : N) (b : bytes), is_bytes b /\ (wire16 b 16 mod 2 = 0 \/ cursor_eof E = EofKeep).
Proof. exists w_debug, x_server, 7, w_tcp_frame. split; [chk|left; vm_compute; reflexivity]. Qed.
(** C82: the hypotheses of C82_handshake can be met. *)
Example c82_handshake_meets :
  exists (E E' Er Er' : env) (forth back : list middlebox) (client peer server : endpoint) (x : ipv4addr * N) (isn isn' w w' : N) (data : bytes),
  endpoint_ok client /\ endpoint_ok peer /\ endpoint_ok server /\ u32 isn /\ u32 isn' /\ u16 w /\ u16 w' /\ is_bytes data /\ 40 + len data <= 65535 /\
  (len data mod 2 = 0 \/ (cursor_eof E = EofKeep /\ cursor_eof Er = EofKeep /\ cursor_eof E' = EofKeep)) /\
  Forall step_ok forth /\ (hops forth < 64)%nat /\ Forall step_ok back /\ (hops back < 64)%nat /\
  delivers forth (end_of client) (end_of peer) x (end_of server) /\ delivers back (end_of server) x (end_of peer) (end_of client).
Proof.
  exists w_debug, w_release, w_debug, w_release, x_forth, x_back, x_client, x_peer, x_server, x_outside, 4294967295, 7, 1000, 2000, [1; 2; 3; 4].
  do 3 (split; [meet|]). do 4 (split; [vm_compute; reflexivity|]). split; [chk|]. split; [meet|]. split; [left; reflexivity|].
  split; [repeat constructor; chk|]. split; [apply Nat.ltb_lt; reflexivity|]. split; [repeat constructor; chk|]. split; [apply Nat.ltb_lt; reflexivity|].
  split; intros g H; injection H as H1 H2 H3 H4; unfold arrives, x_forth, x_back, ends; cbn; rewrite ?H1, ?H2, ?H3, ?H4; reflexivity.
Qed.
(** Every frame of x_arrived is what its label says. *)
Lemma x_arrivals : Forall (fun a => arrival w_debug w_debug x_client x_peer x_seen x_server x_segments (fst a) (snd a)) (x_arrived w_debug).
Proof.
  assert (Hd : delivers x_forth (end_of x_client) (end_of x_peer) (end_of x_seen) (end_of x_server)).
  { intros g H; injection H as H1 H2 H3 H4; unfold arrives, x_forth, ends; cbn; rewrite ?H1, ?H2, ?H3, ?H4; reflexivity. }
  assert (Hs : Forall step_ok x_forth) by (repeat constructor; chk).
  assert (Hh : (hops x_forth < 64)%nat) by (apply Nat.ltb_lt; reflexivity).
  assert (Hc : forall n, (n < 3)%nat -> arrival w_debug w_debug x_client x_peer x_seen x_server x_segments (Some n) (x_copy w_debug n)).
  { intros [|[|[|n]]] Hn; [| | |lia]; (eapply Carried with (Er := w_debug) (steps := x_forth);
      [reflexivity|vm_compute; reflexivity|exact Hs|exact Hh|exact Hd|left; reflexivity|vm_compute; reflexivity]). }
  unfold x_arrived. repeat apply Forall_cons; cbn [fst snd]; try apply Forall_nil; try (apply Hc; lia).
  - eapply Damaged; [apply Hc; apply Nat.ltb_lt; reflexivity|unfold covered; vm_compute; split; congruence|reflexivity|vm_compute; discriminate].
  - eapply Damaged; [apply Hc; apply Nat.ltb_lt; reflexivity|unfold covered; vm_compute; split; congruence|reflexivity|vm_compute; discriminate].
  - eapply Harmless; [apply Hc; lia|vm_compute; reflexivity|unfold covered; vm_compute; intros [H _]; apply H; reflexivity|reflexivity].
  - apply Foreign; [chk|left; reflexivity|]. intros s (_ & H & _). destruct s as [[[] [] ty] ip o t p]. discriminate H.
Qed.
(** C83: the hypotheses of C83_damage_refused can be met. *)
Example c83_damage_refused_meets : exists (E : env) (b : bytes) (g : segment) (i v : N), is_bytes b /\ (wire16 b 16 mod 2 = 0 \/ cursor_eof E = EofKeep) /\
  receive E b = Ok (Some g) /\ covered b i /\ u8 v /\ v <> nthN b i.
Proof.
  exists w_debug, (x_copy w_debug 1). eexists. exists 14, 70. split; [chk|]. split; [left; vm_compute; reflexivity|]. split; [vm_compute; reflexivity|].
  split; [unfold covered; vm_compute; split; congruence|]. split; [reflexivity|vm_compute; discriminate].
Qed.
(** C83: the hypotheses of C83_damage_harmless can be met. *)
Example c83_damage_harmless_meets : exists (E : env) (b : bytes) (g : segment) (i v : N), is_bytes b /\ (wire16 b 16 mod 2 = 0 \/ cursor_eof E = EofKeep) /\
  receive E b = Ok (Some g) /\ i < len b /\ ~ covered b i /\ u8 v.
Proof.
  exists w_debug, (x_copy w_debug 1). eexists. exists 3, 70. split; [chk|]. split; [left; vm_compute; reflexivity|]. split; [vm_compute; reflexivity|].
  split; [vm_compute; reflexivity|]. split; [unfold covered; vm_compute; intros [H _]; apply H; reflexivity|reflexivity].
Qed.
(** C83: the hypotheses of C83_stream can be met. *)
Example c83_stream_meets : exists (Es E : env) (from to me peer : endpoint) (seq ack window : N) (chunks : list bytes) (arrived : list (option nat * bytes)),
  endpoint_ok from /\ endpoint_ok to /\ u32 seq /\ u32 ack /\ u16 window /\ chunks_ok Es E chunks /\
  Forall (fun a => arrival Es E from to peer me (segments from to seq ack window chunks) (fst a) (snd a)) arrived.
Proof.
  exists w_debug, w_debug, x_client, x_peer, x_server, x_seen, 4294967294, 7, 1000, x_chunks, (x_arrived w_debug).
  do 2 (split; [meet|]). do 3 (split; [vm_compute; reflexivity|]). split; [|exact x_arrivals].
  split; [|vm_compute; reflexivity]. repeat (apply Forall_cons; [split; [discriminate|split; [chk|split; [meet|left; reflexivity]]]|]). apply Forall_nil.
Qed.
(** C83: the hypotheses of C83_complete can be met. *)
Example c83_complete_meets : exists (Es E : env) (from to me peer : endpoint) (sq ack window : N) (chunks : list bytes) (arrived : list (option nat * bytes)),
  endpoint_ok from /\ endpoint_ok to /\ u32 sq /\ u32 ack /\ u16 window /\ chunks_ok Es E chunks /\
  Forall (fun a => arrival Es E from to peer me (segments from to sq ack window chunks) (fst a) (snd a)) arrived /\
  subsequence (map Some (seq 0 (length chunks))) (map fst arrived).
Proof.
  exists w_debug, w_debug, x_client, x_peer, x_server, x_seen, 4294967294, 7, 1000, x_chunks, (x_arrived w_debug).
  do 2 (split; [meet|]). do 3 (split; [vm_compute; reflexivity|]). split; [|split; [exact x_arrivals|]].
  - split; [|vm_compute; reflexivity]. repeat (apply Forall_cons; [split; [discriminate|split; [chk|split; [meet|left; reflexivity]]]|]). apply Forall_nil.
  - cbn [seq length map x_chunks x_arrived fst]. do 3 apply SubSkip. apply SubKeep. do 3 apply SubSkip. apply SubKeep, SubKeep, SubNil.
Qed.
(** C83: the hypotheses of C83_translator_refuted can be met. *)
Example c83_translator_refuted_meets : exists (E : env) (b : bytes) (g : segment) (i v : N) (a : ipv4addr) (port : N), is_bytes b /\ (wire16 b 16 mod 2 = 0 \/ cursor_eof E = EofKeep) /\
  receive E b = Ok (Some g) /\ 14 + wire16 b 16 - len (sg_data g) <= i < 14 + wire16 b 16 /\ u8 v /\ addr_ok a /\ u16 port.
Proof.
  exists w_debug, (x_copy w_debug 1). eexists. exists 55, 70, (at_ip x_peer), 80. split; [chk|]. split; [left; vm_compute; reflexivity|]. split; [vm_compute; reflexivity|].
  split; [vm_compute; split; congruence|]. split; [reflexivity|]. split; [meet|reflexivity].
Qed.
(** C84: two routers, a host behind them, and a tracer in front of them. *)
Definition z_station n : station := {| forth := {| mine := Hw 2 0 0 0 n 1; next := Hw 2 0 0 0 (n + 1) 0 |}; back := {| mine := Hw 2 0 0 0 n 0; next := Hw 2 0 0 0 (n - 1) 1 |}; its_ip := Ip4 10 0 n 1 |}.
Definition z_target : host := {| its_mac := Hw 2 0 0 0 3 0; address := Ip4 192 0 2 7 |}.
Definition z_tracer goal : tracer := {| me := {| its_mac := Hw 2 0 0 0 0 1; address := Ip4 10 0 0 9 |}; gateway := Hw 2 0 0 0 1 0; goal := goal; port := 40000; filler := [104; 105] |}.
Lemma z_stations : Forall station_ok [z_station 1; z_station 2].
Proof. repeat (apply Forall_cons; [split; [split; chk|split; [split; chk|chk]]|]); apply Forall_nil. Qed.
Lemma z_host : host_ok z_target. Proof. split; chk. Qed.
Lemma z_tracer_ok : tracer_ok (z_tracer (Ip4 192 0 2 7)) /\ tracer_ok (z_tracer (Ip4 192 0 2 8)).
Proof. split; (split; [split; chk|]; split; [chk|]; split; [chk|]; split; [vm_compute; reflexivity|]; split; [chk|vm_compute; discriminate]). Qed.
Lemma z_probe ttl : 1 <= ttl < 256 -> exists s u, probes w_debug z_target s u [104; 105] /\ vf_ttl (fr_ip s) = ttl.
Proof.
  intros Ht. destruct (TraceProofs.probe_on w_debug (z_tracer (Ip4 192 0 2 7)) ttl (proj1 z_tracer_ok) Ht) as (s & u & _ & (P1 & P2 & P3 & P4 & P5 & P6 & P7) & T & _ & D & _ & _ & R).
  exists s, u. split; [|exact T].
  destruct (R w_debug) as (v & V1 & V2). replace v with true in V1 by (symmetry; apply V2; left; reflexivity).
  split; [exact P1|]. split; [exact P2|]. split; [exact P3|]. split; [exact D|]. split; [exact P4|]. split; [exact P5|]. split; [exact P6|]. split; [exact P7|exact V1].
Qed.
Lemma z_far : Forall station_ok (repeat (z_station 1) 70).
Proof. apply Forall_forall. intros x Hx. apply repeat_spec in Hx. subst x. pose proof z_stations as Z. inversion_clear Z. assumption. Qed.
(** C84: the hypotheses of C84_report can be met. *)
Example c84_report_meets : exists (kind code : N) (mac : hwaddr) (a : ipv4addr) s, frame_packet_ok (fun p => p) is_bytes s /\ mac_ok mac /\ addr_ok a /\ u8 kind /\ u8 code /\ 0 < kind.
Proof.
  destruct (z_probe 2 ltac:(lia)) as (s & u & (H & _) & _). exists 11, 0, (Hw 2 0 0 0 1 0), (Ip4 10 0 1 1), s. split; [exact H|]. split; [chk|]. split; [chk|]. split; [reflexivity|]. split; reflexivity.
Qed.
(** C84: the hypotheses of C84_exchange can be met, with either end. *)
Example c84_exchange_meets : (exists (E : env) (path : list station) (target : host) s (u : udp_fields) (payload : bytes), host_ok target /\ Forall station_ok path /\
    probes E target s u payload /\ 1 <= vf_ttl (fr_ip s) /\ (Nat.min (N.to_nat (vf_ttl (fr_ip s) - 1)) (length path) < 64)%nat) /\
  (exists (E : env) (path : list station) (target : host) s (u : udp_fields) (payload : bytes), host_ok target /\ Forall station_ok path /\
    probes E target s u payload /\ 1 <= vf_ttl (fr_ip s) /\ (64 <= Nat.min (N.to_nat (vf_ttl (fr_ip s) - 1)) (length path))%nat).
Proof.
  split.
  - destruct (z_probe 2 ltac:(lia)) as (s & u & H & H'). exists w_debug, [z_station 1; z_station 2], z_target, s, u, [104; 105]. split; [exact z_host|]. split; [exact z_stations|]. split; [exact H|]. rewrite H'. split; [lia|cbn; lia].
  - destruct (z_probe 70 ltac:(lia)) as (s & u & H & H'). exists w_debug, (repeat (z_station 1) 70), z_target, s, u, [104; 105]. split; [exact z_host|]. split; [exact z_far|]. split; [exact H|]. rewrite H'. split; [lia|rewrite repeat_length; lia].
Qed.
(** C84: the hypotheses of C84_heard can be met. *)
Example c84_heard_meets : exists (E : env) (hops : list hop) (kind code : N) (mac : hwaddr) (a : ipv4addr) s r (u : udp_fields) (payload : bytes),
  frame_packet_ok (fun p => p) is_bytes s /\ vf_proto (fr_ip s) = 17 /\ routable s /\ fr_inner s = udp_wire u ++ payload /\ udp_fields_ok u /\ uf_length u = 8 + len payload /\ is_bytes payload /\
  report E kind code mac a (frame_bytes (fun p => p) s) = Ok (frame_bytes (fun p => p) r) /\ mac_ok mac /\ addr_ok a /\ u8 code /\ error_type kind /\
  Forall hop_ok hops /\ (length hops < 64)%nat.
Proof.
  destruct (z_probe 2 ltac:(lia)) as (s & u & (P1 & P2 & P3 & P4 & P5 & P6 & P7 & P8 & P9) & _).
  destruct (TraceProofs.c84_report w_debug 11 0 (Hw 2 0 0 0 1 0) (Ip4 10 0 1 1) s) as (r & R & _); [exact P1|chk|chk|reflexivity|reflexivity|reflexivity|].
  exists w_debug, [back (z_station 2); back (z_station 1)], 11, 0, (Hw 2 0 0 0 1 0), (Ip4 10 0 1 1), s, r, u, [104; 105].
  do 8 (split; [assumption|]). split; [chk|]. split; [chk|]. split; [reflexivity|]. split; [cbn; tauto|]. split; [repeat (apply Forall_cons; [split; chk|]); apply Forall_nil|cbn; lia].
Qed.
(** C84: the hypotheses of C84_trace can be met. *)
Example c84_trace_meets : exists (E En : env) (x : tracer) (path : list station) (target : host), tracer_ok x /\ host_ok target /\ address target = goal x /\ Forall station_ok path /\
  (length path < 64)%nat /\ alike E En (filler x).
Proof.
  exists w_debug, w_debug, (z_tracer (Ip4 192 0 2 7)), [z_station 1; z_station 2], z_target. split; [apply z_tracer_ok|]. split; [exact z_host|]. split; [reflexivity|]. split; [exact z_stations|].
  split; [cbn; lia|left; reflexivity].
Qed.
(** C84: the hypotheses of C84_trace_silent can be met. *)
Example c84_trace_silent_meets : (exists (E En : env) (x : tracer) (path : list station) (target : host) (tries : nat), tracer_ok x /\ host_ok target /\ address target <> goal x /\ Forall station_ok path /\ (tries < 256)%nat) /\
  (exists (E En : env) (x : tracer) (path : list station) (target : host) (tries : nat), tracer_ok x /\ host_ok target /\ ~ alike E En (filler x) /\ Forall station_ok path /\ (tries < 256)%nat) /\
  (exists (E En : env) (x : tracer) (path : list station) (target : host) (tries : nat), tracer_ok x /\ host_ok target /\ (64 <= length path)%nat /\ Forall station_ok path /\ (tries < 256)%nat).
Proof.
  split; [|split].
  - exists w_debug, w_debug, (z_tracer (Ip4 192 0 2 8)), [z_station 1; z_station 2], z_target, 4%nat. split; [apply z_tracer_ok|]. split; [exact z_host|]. split; [discriminate|]. split; [exact z_stations|lia].
  - exists {| overflow_checks := true; cursor_eof := EofSeek; target := Bits64 |}, {| overflow_checks := true; cursor_eof := EofKeep; target := Bits64 |},
      {| me := me (z_tracer (Ip4 192 0 2 7)); gateway := gateway (z_tracer (Ip4 192 0 2 7)); goal := goal (z_tracer (Ip4 192 0 2 7)); port := port (z_tracer (Ip4 192 0 2 7)); filler := [104] |},
      [z_station 1; z_station 2], z_target, 4%nat.
    split; [|split; [exact z_host|split; [|split; [exact z_stations|lia]]]].
    + destruct (proj1 z_tracer_ok) as (T1 & T2 & T3 & T4 & _). unfold tracer_ok. cbn [me gateway goal port filler]. split; [exact T1|]. split; [exact T2|]. split; [exact T3|]. split; [exact T4|]. split; [chk|vm_compute; discriminate].
    + intros [H|[H|H]]; discriminate H.
  - exists w_debug, w_debug, (z_tracer (Ip4 192 0 2 7)), (repeat (z_station 1) 70), z_target, 100%nat. split; [apply z_tracer_ok|]. split; [exact z_host|]. split; [rewrite repeat_length; lia|]. split; [exact z_far|lia].
Qed.
(** C84: the hypotheses of C84_exchange_total can be met. *)
Example c84_exchange_total_meets : exists (path : list station) (target : host) (b : bytes), is_bytes b /\ host_ok target /\ Forall station_ok path.
Proof. exists [z_station 1; z_station 2], z_target, w_udp_frame. split; [meet|]. split; [exact z_host|exact z_stations]. Qed.
(** C84: the hypotheses of C84_heard_total can be met. *)
Example c84_heard_total_meets : exists (b : bytes), is_bytes b.
Proof. exists w_udp_frame. meet. Qed.
(** C84: the hypotheses of C84_heard_only can be met, and so can either side. *)
Example c84_heard_only_meets : exists (E : env) (b : bytes) (who : ipv4addr) (kind : icmp_kind) (fl : flow), is_bytes b /\ heard E b = Ok (Some (who, kind, fl)).
Proof.
  destruct (z_probe 2 ltac:(lia)) as (s & u & (P1 & P2 & P3 & P4 & P5 & P6 & P7 & P8 & P9) & _).
  destruct (TraceProofs.c84_report w_debug 11 0 (Hw 2 0 0 0 1 0) (Ip4 10 0 1 1) s) as (r & R & _ & R' & _); [exact P1|chk|chk|reflexivity|reflexivity|reflexivity|].
  destruct (TraceProofs.c84_heard w_debug [] 11 0 (Hw 2 0 0 0 1 0) (Ip4 10 0 1 1) s r u [104; 105]) as (b & B1 & B2); try assumption; [chk|chk|reflexivity|cbn; tauto|apply Forall_nil|cbn; lia|].
  exists w_debug, b, (Ip4 10 0 1 1), (icmp_kind_from 11). eexists. split; [|exact B2]. injection B1 as <-. exact (TraceProofs.is_bytes_frame r R').
Qed.
