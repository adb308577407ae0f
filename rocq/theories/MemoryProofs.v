(** * MemoryProofs: C74, what a builder program leaves in the caller's memory. *)
From Coq Require Import ZifyBool ZifyNat ZifyN.
From Verif Require Import Base Enums Buffer Ether Ipv4 Ip Udp Tcp Icmp Builders Spec SpecCalls SpecBuild SpecProfile SpecShift SpecReference.
From Verif Require Import Lemmas BuildLemmas MisuseProofs BufferProofs ChecksumProofs ShiftProofs SliceBuildProofs ReferenceProofs Memory SpecMemory.
Ltac Zify.zify_post_hook ::= Z.div_mod_to_equations.

(** ** The outcomes are those of Builders.v *)
Lemma then_left_snd r k k' : (forall buf, snd (k buf) = k' buf) -> snd (then_left r k) = (let* buf := try_buf r in k' buf).
Proof. intros H. destruct r as [buf [[]|e|]]; cbn; [apply H|reflexivity|reflexivity]. Qed.
Lemma bind_left_snd r k k' : (forall b, snd (k b) = k' b) -> snd (bind_left r k) = (let* b := snd r in k' b).
Proof. intros H. destruct r as [buf [b|e|]]; cbn; [apply H|reflexivity|reflexivity]. Qed.
Lemma edit_left_snd E f b : snd (edit_left E f b) = edit E f b.
Proof. unfold edit_left, edit. apply then_left_snd. reflexivity. Qed.
Lemma payload_left_snd E count p : forall b, snd (payload_loop_left E count p b) = payload_loop E count p b.
Proof.
  induction p as [|x p IH]; intros b; [reflexivity|]. cbn [payload_loop_left payload_loop].
  apply then_left_snd. intros buf.
  rewrite (bind_left_snd _ _ (fun b2 => let* b3 := edit E (set_last x) b2 in payload_loop E count p b3)).
  - destruct count; [|reflexivity]. destruct (usize_add _ _ _); reflexivity.
  - intros b2. rewrite (bind_left_snd _ _ (payload_loop E count p) IH), edit_left_snd. reflexivity.
Qed.
Lemma add_payload_left_snd E e count p b : snd (add_payload_left E e count p b) = add_payload E e count p b.
Proof. unfold add_payload_left, add_payload. destruct (b_payload b); [reflexivity|apply payload_left_snd]. Qed.
Lemma with_left_snd E n ip buf : snd (with_left E n ip buf) = let* buf := try_buf (buf_next E n buf) in Ok (fresh buf ip).
Proof. apply then_left_snd. reflexivity. Qed.
Lemma v4_with_left_snd E buf : snd (v4_with_left E buf) = v4_with E buf.
Proof. apply then_left_snd. intros b. apply then_left_snd. reflexivity. Qed.
Lemma tcp_with_left_snd E buf : snd (tcp_with_left E buf) = tcp_with E buf.
Proof. apply then_left_snd. intros b. apply then_left_snd. reflexivity. Qed.
Lemma sub_left_snd mk mk' b : (forall buf, snd (mk buf) = mk' buf) -> snd (sub_left mk b) = sub mk' b.
Proof. intros H. unfold sub_left, sub. rewrite <- H. apply bind_left_snd. reflexivity. Qed.
Lemma v4_sub_left_snd E proto mk mk' b : (forall buf, snd (mk buf) = mk' buf) -> snd (v4_sub_left E proto mk b) = v4_sub E proto mk' b.
Proof.
  intros H. unfold v4_sub_left, v4_sub. destruct (b_payload b); [reflexivity|]. rewrite <- edit_left_snd. apply bind_left_snd.
  intros c. apply sub_left_snd. exact H.
Qed.
Lemma open_left_snd E o buf : snd (open_left E o buf) = open E o buf.
Proof. destruct o; cbn [open_left open]; first [apply with_left_snd|apply v4_with_left_snd|apply tcp_with_left_snd|reflexivity]. Qed.
Lemma call_left_snd E c b : snd (call_left E c b) = call1 E c b.
Proof.
  destruct c as [[]| | | |[]| | | |[]|[]| | | |[]|[]|[]|f|parse f]; cbn [call_left call1 ether_run1 v4_run1 udp_run1 tcp_run1 echo_run1 information_run1 timestamp_run1];
    try first [apply edit_left_snd|apply add_payload_left_snd]; try reflexivity.
  - unfold ether_ip_left, ether_ip. destruct (b_payload b); reflexivity.
  - apply sub_left_snd. apply v4_with_left_snd.
  - apply v4_sub_left_snd. intros buf. apply with_left_snd.
  - apply v4_sub_left_snd. apply tcp_with_left_snd.
  - apply v4_sub_left_snd. reflexivity.
  - apply sub_left_snd. intros buf. apply with_left_snd.
  - apply sub_left_snd. intros buf. apply with_left_snd.
  - apply sub_left_snd. intros buf. apply with_left_snd.
  - rewrite edit_left_snd. unfold edit, builder_as_packet_mut. destruct (buf_data_mut _ _ _) as [buf [[]|e|]]; reflexivity.
Qed.
Lemma calls_left_snd E cs : forall b, snd (calls_left E cs b) = run (call1 E) cs b.
Proof. induction cs as [|c cs IH]; intros b; [reflexivity|]. cbn [calls_left run]. rewrite (bind_left_snd _ _ _ IH), call_left_snd. reflexivity. Qed.
Lemma finish_left_snd b : snd (finish_left b) = finish b.
Proof.
  unfold finish_left, finish. destruct (buf_into_inner _) as [inner|e|]; [|reflexivity|reflexivity]. cbn [bind].
  destruct (fin_finalize _ _) as [out [[]|e|]]; reflexivity.
Qed.
Lemma close_left_snd E cl b : snd (close_left E cl b) = close E cl b.
Proof.
  destruct cl; cbn [close_left close]; try apply finish_left_snd; try reflexivity;
    unfold icmp_kind_build_left, echo_build, information_build, timestamp_build, icmp_kind_build;
    destruct (b_kind b); cbn [negb]; try apply finish_left_snd; reflexivity.
Qed.
(** C74: what follows is about the programs of the other properties: the outcome
    is that of [program]. *)
Lemma c74_outcome : forall E o cs cl buf, snd (program_left E o cs cl buf) = program E o cs cl buf.
Proof.
  intros E o cs cl buf. unfold program_left, program.
  pose proof (bind_left_snd (open_left E o buf) _ _ (calls_left_snd E cs)) as H. rewrite open_left_snd in H.
  destruct (open E o buf) as [b|e|] eqn:Ho; cbn [bind] in *.
  - rewrite <- H. destruct (bind_left _ _) as [buf' [b'|e|]]; cbn [snd bind] in *; [apply close_left_snd|reflexivity|reflexivity].
  - destruct (bind_left _ _) as [buf' [b'|e'|]]; cbn [snd] in *; [discriminate H|exact (f_equal (fun x : res builder => match x with Err e => Err e | _ => Panic end) H)|discriminate H].
  - destruct (bind_left _ _) as [buf' [b'|e'|]]; cbn [snd] in *; [discriminate H|discriminate H|reflexivity].
Qed.

(** ** The length of the memory *)
Definition sl (n : N) (buf : buffer) : Prop := match buf with Slice inner _ _ _ => len inner = n | Dynamic _ _ _ => False end.
Definition fin_ok (b : builder) : Prop := Forall keeps_len (b_fin b).
(** A call result: the memory is still a slice of [n] bytes; the builder, if any, is on it. *)
Definition Kl (n : N) (r : buffer * res builder) : Prop :=
  sl n (fst r) /\ match snd r with Ok b => b_buffer b = fst r /\ fin_ok b | _ => True end.
Lemma sl_data_mut E n f buf : keeps_len f -> sl n buf -> sl n (fst (buf_data_mut E f buf)).
Proof.
  intros Hf H. destruct buf as [inner o l|inner o l u]; [destruct H|]. cbn [buf_data_mut]. destruct (usize_add E o l) as [e|e|]; try exact H.
  pose proof (kl_range o e f Hf inner) as Hl. destruct (range_mut o e f inner) as [i r]. cbn [fst sl] in *. congruence.
Qed.
Lemma sl_next E n m buf : sl n buf -> sl n (fst (buf_next E m buf)).
Proof.
  intros H. destruct buf as [inner o l|inner o l u]; [destruct H|]. unfold buf_next. destruct (usize_add E u m) as [e|e|]; try exact H.
  destruct (len inner <? e); [exact H|]. apply sl_data_mut; [apply kl_zero_all|exact H].
Qed.
Lemma sl_more E n m buf : sl n buf -> sl n (fst (buf_more E m buf)).
Proof.
  intros H. destruct buf as [inner o l|inner o l u]; [destruct H|]. unfold buf_more. destruct (usize_add E u m) as [e|e|]; try exact H.
  destruct (len inner <? e); [exact H|]. destruct (usize_add E l m) as [e'|e'|]; try exact H. destruct (usize_sub E e' m) as [i|i|]; try exact H.
  apply sl_data_mut; [apply kl_zero_from|exact H].
Qed.
Lemma Kl_then n r k : sl n (fst r) -> (forall buf, sl n buf -> Kl n (k buf)) -> Kl n (then_left r k).
Proof. intros H Hk. destruct r as [buf [[]|e|]]; cbn in *; [apply Hk; exact H|split; [exact H|exact I]|split; [exact H|exact I]]. Qed.
Lemma Kl_bind n r k : Kl n r -> (forall b, sl n (b_buffer b) -> fin_ok b -> Kl n (k b)) -> Kl n (bind_left r k).
Proof.
  intros (H1 & H2) Hk. destruct r as [buf [b|e|]]; cbn in *; [|split; [exact H1|exact I]|split; [exact H1|exact I]].
  destruct H2 as (H2 & H3). apply Hk; [rewrite H2; exact H1|exact H3].
Qed.
Lemma Kl_done n b : sl n (b_buffer b) -> fin_ok b -> Kl n (done_left b).
Proof. intros H F. split; [exact H|split; [reflexivity|exact F]]. Qed.
Lemma Kl_edit E n f b : keeps_len f -> sl n (b_buffer b) -> fin_ok b -> Kl n (edit_left E f b).
Proof. intros Hf H F. apply Kl_then; [apply sl_data_mut; assumption|]. intros buf Hb. apply Kl_done; [exact Hb|exact F]. Qed.
Lemma Kl_loop E n count p : forall b, sl n (b_buffer b) -> fin_ok b -> Kl n (payload_loop_left E count p b).
Proof.
  induction p as [|x p IH]; intros b H F; cbn [payload_loop_left]; [apply Kl_done; assumption|].
  apply Kl_then; [apply sl_more; exact H|]. intros buf Hb. cbv zeta. apply Kl_bind.
  - destruct count; [|apply Kl_done; assumption]. destruct (usize_add _ _ _) as [k|e|]; [apply Kl_done; assumption|split; [exact Hb|exact I]|split; [exact Hb|exact I]].
  - intros b2 H2 F2. apply Kl_bind; [apply Kl_edit; [apply kl_set_last|exact H2|exact F2]|]. exact IH.
Qed.
Lemma Kl_payload E n e count p b : sl n (b_buffer b) -> fin_ok b -> Kl n (add_payload_left E e count p b).
Proof. intros H F. unfold add_payload_left. destruct (b_payload b); [split; [exact H|exact I]|]. apply Kl_loop; assumption. Qed.
Lemma fresh_ok buf ip : fin_ok (fresh buf ip). Proof. constructor. Qed.
Lemma Kl_with E n m ip buf : sl n buf -> Kl n (with_left E m ip buf).
Proof. intros H. apply Kl_then; [apply sl_next; exact H|]. intros buf' Hb. apply Kl_done; [exact Hb|apply fresh_ok]. Qed.
Lemma Kl_v4_with E n buf : sl n buf -> Kl n (v4_with_left E buf).
Proof.
  intros H. apply Kl_then; [apply sl_next; exact H|]. intros b1 H1. apply Kl_then; [apply sl_data_mut; [apply kl_set_index|exact H1]|].
  intros b2 H2. apply Kl_done; [exact H2|apply fresh_ok].
Qed.
Lemma Kl_tcp_with E n buf : sl n buf -> Kl n (tcp_with_left E buf).
Proof.
  intros H. apply Kl_then; [apply sl_next; exact H|]. intros b1 H1. apply Kl_then; [apply sl_data_mut; [apply kl_set_index|exact H1]|].
  intros b2 H2. apply Kl_done; [exact H2|apply fresh_ok].
Qed.
Lemma Kl_ip_with n buf : sl n buf -> Kl n (ip_with_left buf).
Proof. intros H. apply Kl_done; [exact H|apply fresh_ok]. Qed.
Lemma Kl_sub n mk b : (forall buf, sl n buf -> Kl n (mk buf)) -> sl n (b_buffer b) -> fin_ok b -> Kl n (sub_left mk b).
Proof. intros Hm H F. apply Kl_bind; [apply Hm; exact H|]. intros c Hc Fc. apply Kl_done; [exact Hc|]. apply Forall_app. split; assumption. Qed.
(** The crate's own finalizers. *)
Lemma kl_write16 at_ v : keeps_len (write_u16 at_ v). Proof. apply kl_cursor. Qed.
Lemma kl_ether_fin E o l : keeps_len (ether_ip_finalizer E o l).
Proof.
  apply kl_mlet. intros [v a]. cbn [fst snd]. destruct v as [|p]; [intros b; reflexivity|].
  destruct p as [[|[]|]|[[]|[]|]|]; try (intros b; reflexivity); apply kl_write16.
Qed.
Lemma kl_v4_fin E o l : keeps_len (v4_finalizer E o l).
Proof. apply kl_mseq; [apply kl_set_index|]. apply kl_mseq; apply kl_mlet; intros [a c]; apply kl_write16. Qed.
Lemma kl_udp_fin E ip l : keeps_len (udp_finalizer E ip l).
Proof. apply kl_mlet. intros [[p i] j]. apply kl_range. apply kl_mseq; [apply kl_write16|]. apply kl_mlet. intros c. apply kl_write16. Qed.
Lemma kl_tcp_fin E ip l n : keeps_len (tcp_finalizer E ip l n).
Proof. apply kl_mlet. intros [[p i] j]. apply kl_range. apply kl_mseq; apply kl_mlet; intros c; [apply kl_set_index|apply kl_write16]. Qed.
Lemma kl_icmp_fin E o l : keeps_len (icmp_finalizer E o l).
Proof. apply kl_mlet. intros [a c]. apply kl_write16. Qed.
Lemma fin_add_ok b f : fin_ok b -> keeps_len f -> fin_ok (with_fin b (fin_add (b_fin b) f)).
Proof. intros F H. apply Forall_app. split; [exact F|constructor; [exact H|constructor]]. Qed.
Lemma Kl_v4_sub E n proto mk b : (forall buf, sl n buf -> Kl n (mk buf)) -> sl n (b_buffer b) -> fin_ok b -> Kl n (v4_sub_left E proto mk b).
Proof.
  intros Hm H F. unfold v4_sub_left. destruct (b_payload b); [split; [exact H|exact I]|]. apply Kl_bind; [apply Kl_edit; [apply (kl_v4 (V4SetProtocol proto))|exact H|exact F]|].
  intros b1 H1 F1. apply Kl_sub; [exact Hm|exact H1|]. apply fin_add_ok; [exact F1|apply kl_v4_fin].
Qed.
Lemma Kl_call E n c b : confined c -> sl n (b_buffer b) -> fin_ok b -> Kl n (call_left E c b).
Proof.
  intros Hc H F.
  destruct c as [[]| | | |[]| | | |[]|[]| | | |[]|[]|[]|f|parse f]; cbn [call_left confined] in *;
    try (apply Kl_payload; assumption);
    try (apply Kl_edit; [first [apply kl_copy|apply kl_cursor|apply kl_v4|apply kl_udp|apply kl_tcp|apply kl_set_index]|exact H|exact F]);
    try (apply Kl_sub; [first [intros buf Hb; apply Kl_with; exact Hb|exact (Kl_v4_with E n)|exact (Kl_ip_with n)]|exact H|exact F]).
  - unfold ether_ip_left. destruct (b_payload b); [split; [exact H|exact I]|]. apply Kl_sub; [exact (Kl_ip_with n)|exact H|]. apply fin_add_ok; [exact F|apply kl_ether_fin].
  - apply Kl_v4_sub; [intros buf Hb; apply Kl_with; exact Hb|exact H|exact F].
  - apply Kl_v4_sub; [exact (Kl_tcp_with E n)|exact H|exact F].
  - apply Kl_v4_sub; [exact (Kl_ip_with n)|exact H|exact F].
  - apply Kl_done; [exact H|]. apply fin_add_ok; assumption.
  - apply Kl_edit; [apply kl_mlet; intros _; exact Hc|exact H|exact F].
Qed.
Lemma Kl_calls E n cs : Forall confined cs -> forall b, sl n (b_buffer b) -> fin_ok b -> Kl n (calls_left E cs b).
Proof. intros Hcs. induction Hcs as [|c cs Hc _ IH]; intros b H F; cbn [calls_left]; [apply Kl_done; assumption|]. apply Kl_bind; [apply Kl_call; assumption|exact IH]. Qed.
Lemma Kl_open E n o buf : sl n buf -> Kl n (open_left E o buf).
Proof. intros H. destruct o; cbn [open_left]; first [apply Kl_with; exact H|apply Kl_ip_with; exact H|apply Kl_v4_with; exact H|apply Kl_tcp_with; exact H]. Qed.
Lemma fin_run_len fs : Forall keeps_len fs -> forall b, len (fst (fin_run fs b)) = len b.
Proof.
  intros H. induction H as [|f fs Hf _ IH]; intros b; [reflexivity|]. cbn [fin_run]. pose proof (Hf b) as Hb. destruct (f b) as [b' [[]|e|]]; cbn [fst] in *; [rewrite IH; exact Hb|exact Hb|exact Hb].
Qed.
Lemma finalize_len b inner : fin_ok b -> len (fst (fin_finalize (b_fin b) inner)) = len inner.
Proof. intros F. apply fin_run_len. apply Forall_rev. exact F. Qed.
Lemma finish_left_eq inner o l u b : fin_ok b -> b_buffer b = Slice inner o l u ->
  finish_left b = (if u <=? len inner then let (out, r) := fin_finalize (b_fin b) (takeN u inner) in (out ++ dropN u inner, let* _ := r in Ok out) else (inner, Panic)).
Proof.
  intros F Hb. unfold finish_left. rewrite Hb. cbn [buf_into_inner memory]. destruct (u <=? len inner) eqn:Hu.
  - rewrite slice_ok by lia. rewrite N.sub_0_r. change (takeN u (dropN 0 inner)) with (takeN u inner). rewrite len_takeN. replace (N.min u (len inner)) with u by lia. reflexivity.
  - unfold slice. rewrite Hu, Bool.andb_false_r. reflexivity.
Qed.
Lemma finish_len n b : sl n (b_buffer b) -> fin_ok b -> len (fst (finish_left b)) = n.
Proof.
  intros H F. destruct (b_buffer b) as [|inner o l u] eqn:Hb; [destruct H|]. cbn [sl] in H. rewrite (finish_left_eq inner o l u b F Hb).
  destruct (u <=? len inner) eqn:Hu; [|exact H]. pose proof (finalize_len b (takeN u inner) F) as Hl. destruct (fin_finalize _ _) as [out r]. cbn [fst] in *.
  autorewrite with len in *. lia.
Qed.
Lemma close_fin E cl b : fin_ok b ->
  (exists b', close_left E cl b = finish_left b' /\ b_buffer b' = b_buffer b /\ fin_ok b') \/ (exists e, close_left E cl b = (memory (b_buffer b), Err e)).
Proof.
  intros F. destruct cl; cbn [close_left]; try (right; eexists; reflexivity); try (left; eexists; split; [reflexivity|]; split; [reflexivity|]);
    try exact F; try (apply fin_add_ok; [exact F|]; first [apply kl_v4_fin|apply kl_udp_fin|apply kl_tcp_fin]);
    unfold icmp_kind_build_left; destruct (b_kind b); cbn [negb]; try (right; eexists; reflexivity);
    left; eexists; (split; [reflexivity|]); (split; [reflexivity|]); apply fin_add_ok; [exact F|apply kl_icmp_fin|exact F|apply kl_icmp_fin|exact F|apply kl_icmp_fin].
Qed.
(** C74: the memory keeps its length (payloads or not, whatever happens). *)
Lemma c74_length : forall E o cs cl s, Forall confined cs -> len (fst (program_left E o cs cl (slice_new s))) = len s.
Proof.
  intros E o cs cl s Hcs. unfold program_left.
  assert (H0 : sl (len s) (slice_new s)) by reflexivity.
  pose proof (Kl_bind (len s) _ _ (Kl_open E _ o _ H0) (Kl_calls E (len s) cs Hcs)) as (H1 & H2).
  destruct (bind_left _ _) as [buf [b|e|]]; cbn [fst snd] in *; try (destruct buf as [|inner x y u]; [destruct H1|exact H1]).
  destruct H2 as (Hb & F). rewrite <- Hb in H1. destruct (close_fin E cl b F) as [(b' & -> & Hb' & F')|(e & ->)].
  - apply finish_len; [rewrite Hb'; exact H1|exact F'].
  - cbn [fst]. destruct (b_buffer b) as [|inner x y u]; [destruct H1|exact H1].
Qed.

(** ** The memory behind the packet *)
(** At most [n] bytes of the slice are in use; behind those in use it holds what it held. *)
Definition kept {E : env} (s : bytes) (n : N) (buf : buffer) : Prop :=
  match buf with
  | Slice inner o l u => o + l <= u /\ u <= n /\ u <= len s /\ len inner = len s /\ dropN u inner = dropN u s
  | Dynamic _ _ _ => False
  end.
(** A call that adds [m] bytes if it succeeds. *)
Definition Kp {E : env} (s : bytes) (n m : N) (r : buffer * res builder) : Prop :=
  match snd r with
  | Ok b => b_buffer b = fst r /\ fin_ok b /\ kept s (n + m) (fst r)
  | _ => kept s n (fst r)
  end.
Section Behind.
Context {E : env} (s : bytes) (Hs : len s <= ISIZE_MAX).
Lemma kept_weaken n m buf : n <= m -> kept s n buf -> kept s m buf.
Proof. intros H. destruct buf; [intros []|]. cbn [kept]. intros (H1 & H2 & H3). repeat split; try tauto; lia. Qed.
Lemma range_behind i j u f b : keeps_len f -> j <= u -> dropN u (fst (range_mut i j f b)) = dropN u b.
Proof.
  intros Hf Hu. unfold range_mut. destruct ((i <=? j) && (j <=? len b))%bool eqn:H; [|reflexivity].
  pose proof (Hf (takeN (j - i) (dropN i b))) as Hm. destruct (f _) as [m r]. cbn [fst] in *. autorewrite with len in Hm.
  rewrite app_assoc, dropN_app2 by (autorewrite with len; lia). rewrite dropN_dropN. f_equal. autorewrite with len. lia.
Qed.
Lemma kept_data_mut n f buf : keeps_len f -> kept s n buf -> kept s n (fst (buf_data_mut E f buf)).
Proof.
  intros Hf H. destruct buf as [inner o l|inner o l u]; [destruct H|]. destruct H as (H1 & H2 & H3 & H4 & H5). cbn [buf_data_mut].
  pose proof isize_usize. rewrite usize_add_ok by lia.
  pose proof (kl_range o (o + l) f Hf inner) as Hl. pose proof (range_behind o (o + l) u f inner Hf H1) as Hd.
  destruct (range_mut o (o + l) f inner) as [i r]. cbn [fst kept] in *. repeat split; try assumption; congruence.
Qed.
(** A new layer of [m] bytes: reserved, or the buffer is as before. *)
Lemma next_cases n m buf : m <= 1000 -> kept s n buf ->
  (buf_next E m buf = (buf, Err SmallBuffer)) \/
  (exists inner u, buf_next E m buf = (Slice inner u m (u + m), Ok tt) /\ kept s (n + m) (Slice inner u m (u + m))).
Proof.
  intros Hm H. destruct buf as [inner o l|inner o l u]; [destruct H|]. unfold buf_next.
  pose proof isize_usize as Hu. assert (Hk : 1000 <= ISIZE_MAX) by (widths; lia).
  pose proof H as (H1 & H2 & H3 & H4 & H5). rewrite (usize_add_ok E u m) by lia. destruct (len inner <? u + m) eqn:Hi; [left; reflexivity|]. right.
  assert (K : kept s (n + m) (Slice inner u m (u + m))).
  { cbn [kept]. repeat split; try lia. rewrite <- !(dropN_dropN m u). rewrite H5. reflexivity. }
  pose proof (kept_data_mut _ zero_all _ kl_zero_all K) as K'. cbn [buf_data_mut] in *. rewrite usize_add_ok in * by lia. unfold range_mut in *.
  replace ((u <=? u + m) && (u + m <=? len inner))%bool with true in * by lia. cbn [zero_all] in *. eexists _, u. split; [reflexivity|exact K'].
Qed.
Lemma Kp_with n m ip buf : m <= 1000 -> kept s n buf -> Kp s n m (with_left E m ip buf).
Proof.
  intros Hm H. unfold with_left. destruct (next_cases n m buf Hm H) as [->|(inner & u & -> & K)]; [exact H|].
  split; [reflexivity|]. split; [apply fresh_ok|exact K].
Qed.
(** Its first bytes can be set. *)
Lemma set_first n i v inner u m : i < m -> kept s n (Slice inner u m (u + m)) ->
  exists inner', buf_data_mut E (set_index i v) (Slice inner u m (u + m)) = (Slice inner' u m (u + m), Ok tt) /\ kept s n (Slice inner' u m (u + m)).
Proof.
  intros Hi K. pose proof (kept_data_mut n (set_index i v) _ (kl_set_index i v) K) as K'. destruct K as (H1 & H2 & H3 & H4 & H5). pose proof isize_usize.
  cbn [buf_data_mut] in *. rewrite usize_add_ok in * by lia. unfold range_mut in *.
  replace ((u <=? u + m) && (u + m <=? len inner))%bool with true in * by lia. unfold set_index in *. autorewrite with len in *.
  replace (i <? N.min (u + m - u) (len inner - u)) with true in * by lia. eexists. split; [reflexivity|exact K'].
Qed.
Lemma Kp_v4_with n buf : kept s n buf -> Kp s n 20 (v4_with_left E buf).
Proof.
  intros H. unfold v4_with_left, v4_header_min. destruct (next_cases n 20 buf ltac:(lia) H) as [->|(inner & u & -> & K)]; [exact H|]. cbn [then_left].
  destruct (set_first _ 0 (N.lor 64 (as_u8 (20 / 4))) inner u 20 ltac:(lia) K) as (inner' & -> & K'). split; [reflexivity|]. split; [apply fresh_ok|exact K'].
Qed.
Lemma Kp_tcp_with n buf : kept s n buf -> Kp s n 20 (tcp_with_left E buf).
Proof.
  intros H. unfold tcp_with_left, tcp_header_min. destruct (next_cases n 20 buf ltac:(lia) H) as [->|(inner & u & -> & K)]; [exact H|]. cbn [then_left].
  destruct (set_first _ 12 (shl_u8 (as_u8 (20 / 4)) 4) inner u 20 ltac:(lia) K) as (inner' & -> & K'). split; [reflexivity|]. split; [apply fresh_ok|exact K'].
Qed.
Lemma Kp_done n b : kept s n (b_buffer b) -> fin_ok b -> Kp s n 0 (done_left b).
Proof. intros H F. split; [reflexivity|]. split; [exact F|]. rewrite N.add_0_r. exact H. Qed.
Lemma Kp_edit n f b : keeps_len f -> kept s n (b_buffer b) -> fin_ok b -> Kp s n 0 (edit_left E f b).
Proof.
  intros Hf H F. pose proof (kept_data_mut n f _ Hf H) as K. unfold edit_left. destruct (buf_data_mut _ _ _) as [buf [[]|e|]]; cbn [fst then_left] in *; [|exact K|exact K].
  apply Kp_done; [exact K|exact F].
Qed.
Lemma Kp_sub n m mk b : (forall buf, kept s n buf -> Kp s n m (mk buf)) -> kept s n (b_buffer b) -> fin_ok b -> Kp s n m (sub_left mk b).
Proof.
  intros Hm H F. unfold sub_left. specialize (Hm _ H). destruct (mk _) as [buf [c|e|]]; cbn [bind_left]; [|exact Hm|exact Hm].
  destruct Hm as (Hc & Fc & K). cbn [fst] in *. split; [reflexivity|]. split; [apply Forall_app; split; assumption|]. cbn [fst done_left b_buffer with_fin]. rewrite Hc. exact K.
Qed.
Lemma Kp_ip_with n buf : kept s n buf -> Kp s n 0 (ip_with_left buf).
Proof. intros H. apply Kp_done; [exact H|apply fresh_ok]. Qed.
Lemma Kp_v4_sub n m proto mk b : (forall buf, kept s n buf -> Kp s n m (mk buf)) -> kept s n (b_buffer b) -> fin_ok b -> Kp s n m (v4_sub_left E proto mk b).
Proof.
  intros Hm H F. unfold v4_sub_left. destruct (b_payload b); [exact H|].
  pose proof (Kp_edit n _ b (kl_v4 (V4SetProtocol proto)) H F) as K. cbn [v4_apply] in K. destruct (edit_left E _ b) as [buf [b1|e|]]; cbn [bind_left]; [|exact K|exact K].
  destruct K as (K1 & K2 & K3). cbn [fst] in *. rewrite N.add_0_r in K3. apply Kp_sub; [exact Hm|cbn [b_buffer with_fin v4_prepare]; rewrite K1; exact K3|].
  apply fin_add_ok; [exact K2|apply kl_v4_fin].
Qed.
Lemma Kp_empty n e count b : kept s n (b_buffer b) -> fin_ok b -> Kp s n 0 (add_payload_left E e count [] b).
Proof. intros H F. unfold add_payload_left. destruct (b_payload b); [exact H|]. apply Kp_done; [exact H|exact F]. Qed.
Lemma Kp_call n c b : no_payload c -> confined c -> kept s n (b_buffer b) -> fin_ok b -> Kp s n (adds c) (call_left E c b).
Proof.
  intros Hp Hc H F.
  destruct c as [[]| | | |[]| | | |[]|[]| | | |[]|[]|[]|f|parse f]; cbn [call_left confined no_payload adds header_of] in *;
    try (subst p; apply Kp_empty; assumption);
    try (apply Kp_edit; [first [apply kl_copy|apply kl_cursor|apply kl_v4|apply kl_udp|apply kl_tcp|apply kl_set_index]|exact H|exact F]);
    try (apply Kp_sub; [first [intros buf Hb; apply Kp_with; [lia|exact Hb]|exact (Kp_v4_with n)|exact (Kp_ip_with n)]|exact H|exact F]).
  - unfold ether_ip_left. destruct (b_payload b); [exact H|]. apply Kp_sub; [exact (Kp_ip_with n)|exact H|]. apply fin_add_ok; [exact F|apply kl_ether_fin].
  - apply Kp_v4_sub; [intros buf Hb; apply Kp_with; [unfold udp_header_min; lia|exact Hb]|exact H|exact F].
  - apply Kp_v4_sub; [exact (Kp_tcp_with n)|exact H|exact F].
  - apply Kp_v4_sub; [exact (Kp_ip_with n)|exact H|exact F].
  - apply Kp_done; [exact H|]. apply fin_add_ok; assumption.
  - apply Kp_edit; [apply kl_mlet; intros _; exact Hc|exact H|exact F].
Qed.
Lemma Kp_calls cs : Forall no_payload cs -> Forall confined cs -> forall n b, kept s n (b_buffer b) -> fin_ok b ->
  match calls_left E cs b with
  | (buf, Ok b') => b_buffer b' = buf /\ fin_ok b' /\ kept s (n + fold_right N.add 0 (map adds cs)) buf
  | (buf, _) => kept s (n + fold_right N.add 0 (map adds cs)) buf
  end.
Proof.
  intros Hp. induction Hp as [|c cs Hc _ IH]; intros Hf n b H F; cbn [calls_left map fold_right].
  - rewrite N.add_0_r. split; [reflexivity|]. split; [exact F|exact H].
  - inversion Hf; subst. pose proof (Kp_call n c b Hc ltac:(assumption) H F) as K. destruct (call_left E c b) as [buf [b1|e|]]; cbn [bind_left]; unfold Kp in K; cbn [fst snd] in K.
    + destruct K as (K1 & K2 & K3). rewrite N.add_assoc. apply IH; [assumption|rewrite K1; exact K3|exact K2].
    + eapply kept_weaken; [|exact K]. lia.
    + eapply kept_weaken; [|exact K]. lia.
Qed.
Lemma Kp_open o : Kp s 0 (header_of (opened o)) (open_left E o (slice_new s)).
Proof.
  assert (H : kept s 0 (slice_new s)) by (cbn [slice_new kept]; repeat split; lia).
  destruct o; cbn [open_left opened header_of]; first [apply Kp_with; [cbv; discriminate|exact H]|apply Kp_ip_with; exact H|apply Kp_v4_with; exact H|apply Kp_tcp_with; exact H].
Qed.
Lemma Kp_program o cs : Forall no_payload cs -> Forall confined cs ->
  match bind_left (open_left E o (slice_new s)) (calls_left E cs) with
  | (buf, Ok b') => b_buffer b' = buf /\ fin_ok b' /\ kept s (added o cs) buf
  | (buf, _) => kept s (added o cs) buf
  end.
Proof.
  intros Hp Hf. pose proof (Kp_open o) as K. unfold added. destruct (open_left E o (slice_new s)) as [buf [b1|e|]]; cbn [bind_left]; unfold Kp in K; cbn [fst snd] in K.
  - destruct K as (K1 & K2 & K3). rewrite N.add_0_l in K3. apply Kp_calls; [exact Hp|exact Hf|rewrite K1; exact K3|exact K2].
  - eapply kept_weaken; [|exact K]. lia.
  - eapply kept_weaken; [|exact K]. lia.
Qed.
End Behind.
Lemma kept_behind {E : env} s n buf : kept s n buf -> dropN n (memory buf) = dropN n s.
Proof.
  intros H. destruct buf as [|inner o l u]; [destruct H|]. destruct H as (_ & H2 & _ & _ & H5). cbn [memory].
  replace n with (u + (n - u)) by lia. rewrite <- !dropN_dropN, H5. reflexivity.
Qed.
(** The end of [build], on a slice of which [u] bytes are in use. *)
Lemma finish_kept {E : env} s n b : fin_ok b -> kept s n (b_buffer b) ->
  dropN n (fst (finish_left b)) = dropN n s /\ (forall out, snd (finish_left b) = Ok out -> fst (finish_left b) = out ++ dropN (len out) s).
Proof.
  intros F H. pose proof (kept_behind s n _ H) as Hk. destruct (b_buffer b) as [|inner o l u] eqn:Hb; [destruct H|]. destruct H as (H1 & H2 & H3 & H4 & H5).
  rewrite (finish_left_eq inner o l u b F Hb). replace (u <=? len inner) with true by lia.
  pose proof (finalize_len b (takeN u inner) F) as Hl. destruct (fin_finalize _ _) as [out r]. cbn [fst snd] in *. autorewrite with len in Hl. split.
  - rewrite dropN_app2 by lia. rewrite dropN_dropN. replace (u + (n - len out)) with n by lia. exact Hk.
  - intros out' Ho. destruct r as [[]|e|]; cbn [bind] in Ho; try discriminate. injection Ho as <-. f_equal. rewrite H5. f_equal. lia.
Qed.
(** C74: behind the headers the program adds (if it ran to its end), the caller's
    memory holds what it held: whether the program builds a packet, is refused,
    lacks room or panics, in a call or in a finalizer. *)
Lemma c74_behind : forall E o cs cl s, Forall no_payload cs -> Forall confined cs -> len s <= ISIZE_MAX ->
  dropN (added o cs) (fst (program_left E o cs cl (slice_new s))) = dropN (added o cs) s.
Proof.
  intros E o cs cl s Hp Hf Hs. unfold program_left. pose proof (Kp_program s Hs o cs Hp Hf) as K.
  destruct (bind_left _ _) as [buf [b|e|]]; cbn [fst].
  - destruct K as (K1 & K2 & K3). rewrite <- K1 in K3. destruct (close_fin E cl b K2) as [(b' & -> & Hb' & F')|(e & ->)].
    + apply finish_kept; [exact F'|rewrite Hb'; exact K3].
    + apply kept_behind. exact K3.
  - apply kept_behind. exact K.
  - apply kept_behind. exact K.
Qed.
(** C74: when it succeeds the packet is at the front of the caller's memory and
    the rest is as it was. *)
Lemma c74_success : forall E o cs cl s out, Forall no_payload cs -> Forall confined cs -> len s <= ISIZE_MAX ->
  program E o cs cl (slice_new s) = Ok out -> fst (program_left E o cs cl (slice_new s)) = out ++ dropN (len out) s.
Proof.
  intros E o cs cl s out Hp Hf Hs H. rewrite <- c74_outcome in H. unfold program_left in *. pose proof (Kp_program s Hs o cs Hp Hf) as K.
  destruct (bind_left _ _) as [buf [b|e|]]; cbn [fst snd] in *; try discriminate.
  destruct K as (K1 & K2 & K3). rewrite <- K1 in K3. destruct (close_fin E cl b K2) as [(b' & Hcl & Hb' & F')|(e & Hcl)]; rewrite Hcl in *.
  - refine (proj2 (finish_kept s (added o cs) b' F' _) out H). rewrite Hb'. exact K3.
  - discriminate H.
Qed.
(** C74: a call that fails leaves what lies behind the layers made before it. *)
Lemma c74_failed : forall E o cs c s b, Forall no_payload cs -> Forall confined cs -> no_payload c -> confined c -> len s <= ISIZE_MAX ->
  (let* b := open E o (slice_new s) in run (call1 E) cs b) = Ok b -> (forall b', call1 E c b <> Ok b') ->
  dropN (added o cs) (memory (fst (call_left E c b))) = dropN (added o cs) s.
Proof.
  intros E o cs c s b Hp Hf Hpc Hfc Hs H Hn. pose proof (Kp_program s Hs o cs Hp Hf) as K.
  pose proof (bind_left_snd (open_left E o (slice_new s)) _ _ (calls_left_snd E cs)) as H'. rewrite open_left_snd, H in H'.
  destruct (bind_left _ _) as [buf r]; cbn [snd] in H'. subst r. destruct K as (K1 & K2 & K3). rewrite <- K1 in K3.
  pose proof (Kp_call s Hs (added o cs) c b Hpc Hfc K3 K2) as K. rewrite <- call_left_snd in Hn. unfold Kp in K.
  destruct (call_left E c b) as [buf' [b'|e|]]; cbn [fst snd] in *; [destruct (Hn b' eq_refl)| |]; apply kept_behind; exact K.
Qed.

(** ** Using the memory again *)
(** C74: so whatever a program did, and however it ended, the memory serves the
    next program as if new. *)
Lemma c74_retry : forall E o cs cl s o' cs' cl', Forall confined cs -> len s <= ISIZE_MAX ->
  compiles o' cs' cl' -> Forall ordinary cs' -> Forall no_payload cs' -> added o' cs' <= ISIZE_MAX ->
  program E o' cs' cl' (slice_new (fst (program_left E o cs cl (slice_new s)))) = program E o' cs' cl' (slice_new s).
Proof.
  intros E o cs cl s o' cs' cl' Hf Hs Hc Ho Hp HM. pose proof (c74_length E o cs cl s Hf) as Hl.
  rewrite !c65_slice by (assumption || lia). rewrite Hl. reflexivity.
Qed.

(** ** A call that fails *)
Lemma edit_left_same E s r pre cur f fin ip k pl n x : sized r pre cur -> r = Some s -> f cur = (cur, x) ->
  memory (fst (edit_left E f (B r pre cur fin ip k pl n))) = memory (mkbuf r pre cur).
Proof.
  intros H Hr Hf. unfold edit_left. change (b_buffer (B r pre cur fin ip k pl n)) with (mkbuf r pre cur). rewrite (mk_edit E r pre cur f cur x H Hf eq_refl).
  destruct x as [[]|e|]; reflexivity.
Qed.
Lemma small_with E rest pre cur m ip : sized (Some rest) pre cur -> len rest < m -> m <= ISIZE_MAX ->
  with_left E m ip (mkbuf (Some rest) pre cur) = (mkbuf (Some rest) pre cur, Err SmallBuffer).
Proof. intros H1 H2 H3. unfold with_left. rewrite mk_next_small by assumption. reflexivity. Qed.
Lemma sub_left_err mk b buf e : mk (b_buffer b) = (buf, Err e) -> sub_left mk b = (buf, Err e).
Proof. intros H. unfold sub_left. rewrite H. reflexivity. Qed.
(** An inner layer of [m] bytes that does not fit behind an IPv4 header. *)
Lemma v4_sub_small E e f rest proto mk fs ip k n : v4_building f -> u8 (ip_protocol_into proto) -> sized (Some rest) (eth_part e) (v4_wire f) ->
  (forall cur, len cur = 20 -> mk (mkbuf (Some rest) (eth_part e) cur) = (mkbuf (Some rest) (eth_part e) cur, Err SmallBuffer)) ->
  let b := B (Some rest) (eth_part e) (v4_wire f) fs ip k false n in
  memory (fst (v4_sub_left E proto mk b)) = alter (memory (b_buffer b)) (buf_offset (b_buffer b) + 9) (ip_protocol_into proto) /\ snd (v4_sub_left E proto mk b) = Err SmallBuffer.
Proof.
  intros Hf Hp Hs Hm b. unfold v4_sub_left. change (b_payload b) with false. cbv iota.
  pose proof (v4_apply_wire f (V4SetProtocol proto) [] Hf (conj Hp I) ltac:(constructor)) as Ha. rewrite !app_nil_r in Ha. cbn [v4_apply] in Ha.
  unfold edit_left. change (b_buffer b) with (mkbuf (Some rest) (eth_part e) (v4_wire f)). rewrite (mk_edit E _ _ _ _ _ _ Hs Ha) by reflexivity. cbn [then_left bind_left done_left].
  rewrite (sub_left_err mk _ (mkbuf (Some rest) (eth_part e) (v4_wire (v4_put f (V4SetProtocol proto)))) SmallBuffer) by (apply Hm; reflexivity).
  split; [|reflexivity]. cbn [fst memory mkbuf sli]. change (buf_offset (sli (eth_part e, v4_wire f, rest))) with (len (eth_part e)).
  unfold alter. cbn [buf_offset]. rewrite takeN_app2, (dropN_app2 (len (eth_part e) + 9 + 1)) by lia. replace (len (eth_part e) + 9 - len (eth_part e)) with 9 by lia. replace (len (eth_part e) + 9 + 1 - len (eth_part e)) with 10 by lia.
  rewrite <- app_assoc. f_equal.
  rewrite takeN_app1, (dropN_app1 10) by (rewrite len_v4_wire; lia). rewrite app_comm_cons, app_assoc. f_equal. destruct f. reflexivity.
Qed.
Lemma kind_small E s a m : mem_ok (E := E) (Some s) -> size (DraftIcmp a) <= len s -> size (DraftIcmp a) <= ISIZE_MAX -> len (dropN (size (DraftIcmp a)) s) < m -> m <= ISIZE_MAX ->
  memory (fst (sub_left (with_left E m (0, 0)) (image (Some s) E (DraftIcmp a)))) = memory (b_buffer (image (Some s) E (DraftIcmp a))).
Proof.
  intros HR Hf HM Hr Hm.
  assert (Hg : exists pre cur, len pre + len cur = size (DraftIcmp a) /\ b_buffer (image (Some s) E (DraftIcmp a)) = mkbuf (use (Some s) (size (DraftIcmp a))) pre cur).
  { destruct a as [[e f]|].
    - exists (eth_part e), (v4_wire (v4_put f (V4SetProtocol IP_Icmp))). split; [cbn [size]; lens; lia|reflexivity].
    - exists [], []. split; reflexivity. }
  destruct Hg as (pre & cur & G1 & G2). rewrite (sub_left_err _ _ (mkbuf (use (Some s) (size (DraftIcmp a))) pre cur) SmallBuffer); [rewrite G2; reflexivity|].
  rewrite G2. cbn [use option_map]. apply small_with; [|exact Hr|exact Hm]. change (Some (dropN (size (DraftIcmp a)) s)) with (use (Some s) (size (DraftIcmp a))). apply sized_R; assumption.
Qed.
Lemma call_failed E s c d t : len s <= ISIZE_MAX -> no_payload c -> good d -> returns (ty_of d) c = Some t -> ordinary c ->
  size d <= len s -> size d + adds c <= ISIZE_MAX ->
  let b := image (Some s) E d in
  (forall b', call1 E c b <> Ok b') ->
  memory (fst (call_left E c b)) =
  match starts c, call1 E c b with
  | Some p, Err SmallBuffer => alter (memory (b_buffer b)) (buf_offset (b_buffer b) + 9) p
  | _, _ => memory (b_buffer b)
  end.
Proof.
  intros Hs Hnp Hg Ht Ho Hf HM b Hn. pose proof (imax (E := E)) as HI.
  pose proof (call_step (Some s) E c d t Hs (or_intror Hnp) Hg Ht Ho Hf HM) as S. fold b in S.
  assert (HR : mem_ok (E := E) (Some s)) by exact Hs. assert (HM' : size d <= ISIZE_MAX) by lia. assert (Hf' : fits (Some s) (size d)) by exact Hf.
  assert (Hfit : forall d', draft_call c d = Ok d' -> len s < size d + adds c).
  { intros d' Hd. rewrite Hd in S. cbn [steps] in S. destruct S as (S1 & _ & S3 & _). destruct (N.ltb_spec (len s) (size d + adds c)) as [H|H]; [exact H|].
    exfalso. rewrite room_fits in S1 by (cbn [fits]; lia). exact (Hn _ S1). }
  assert (Hrest : forall n, len s < size d + n -> len (dropN (size d) s) < n) by (intros n; autorewrite with len; lia).
  destruct d; destruct c; try (discriminate Ht || contradiction Ho); clear Ht; cbn [adds header_of] in *.
  - destruct o; cbn [draft_call no_payload] in *; try (specialize (Hfit _ eq_refl); lia). subst p0. destruct p as [p|]; [|specialize (Hfit _ eq_refl); rewrite ?len_nil in *; lia].
    reflexivity.
  - cbn [draft_call] in *. destruct p as [p|]; [|specialize (Hfit _ eq_refl); lia]. reflexivity.
  - cbn [call_left]. specialize (Hfit _ eq_refl). unfold b, image. cbv zeta. cbn [use option_map]. rewrite (sub_left_err _ _ (mkbuf (Some (dropN (size (DraftIp e)) s)) [] (eth_part e)) SmallBuffer); [reflexivity|].
    cbn [b_buffer B]. unfold v4_with_left. change v4_header_min with 20. rewrite mk_next_small; [reflexivity| |apply Hrest; exact Hfit|lia].
    change (Some (dropN (size (DraftIp e)) s)) with (use (Some s) (size (DraftIp e))). apply sized_R; [exact HR|exact Hf'|exact HM'|reflexivity].
  - specialize (Hfit _ eq_refl). lia.
  - destruct o as [x|q]; cbn [draft_call no_payload] in *.
    + destruct (v4_refuses x) eqn:Hx; [|specialize (Hfit _ eq_refl); lia]. cbn [call_left]. unfold b, image. cbv zeta. cbn [use option_map].
      eapply edit_left_same; [|reflexivity|apply v4_refused; exact Hx]. change (Some (dropN (size (DraftV4 e f p)) s)) with (use (Some s) (size (DraftV4 e f p))). szr.
    + subst q. destruct p as [p|]; [|specialize (Hfit _ eq_refl); rewrite ?len_nil in *; lia]. reflexivity.
  - cbn [draft_call] in *. destruct p as [p|]; [reflexivity|]. specialize (Hfit _ eq_refl). 
    assert (HS : sized (use (Some s) (size (DraftV4 e f None))) (eth_part e) (v4_wire f)) by szr.
    rewrite <- call_left_snd. cbn [call_left]. unfold b, image. cbv zeta. cbn [given some use option_map] in *. rewrite app_nil_r.
    cbn [starts]. edestruct (v4_sub_small E e f (dropN (size (DraftV4 e f None)) s) IP_Udp (udp_with_left E)) as (G1 & G2); [apply Hg|reflexivity|exact HS| |rewrite G2, G1; reflexivity]. intros cur Hc. unfold udp_with_left. change udp_header_min with 8.
    apply small_with; [|apply Hrest; exact Hfit|lia]. eapply sized_same; [exact HS|]. rewrite Hc. reflexivity.
  - cbn [draft_call] in *. destruct p as [p|]; [reflexivity|]. specialize (Hfit _ eq_refl). 
    assert (HS : sized (use (Some s) (size (DraftV4 e f None))) (eth_part e) (v4_wire f)) by szr.
    rewrite <- call_left_snd. cbn [call_left]. unfold b, image. cbv zeta. cbn [given some use option_map] in *. rewrite app_nil_r.
    cbn [starts]. edestruct (v4_sub_small E e f (dropN (size (DraftV4 e f None)) s) IP_Tcp (tcp_with_left E)) as (G1 & G2); [apply Hg|reflexivity|exact HS| |rewrite G2, G1; reflexivity]. intros cur Hc. unfold tcp_with_left. change tcp_header_min with 20. cbv zeta.
    rewrite mk_next_small; [reflexivity| |apply Hrest; exact Hfit|lia]. eapply sized_same; [exact HS|]. rewrite Hc. reflexivity.
  - cbn [draft_call] in *. destruct p as [p|]; [reflexivity|]. specialize (Hfit _ eq_refl). lia.
  - destruct o as [x|q]; cbn [draft_call no_payload] in *; [specialize (Hfit _ eq_refl); lia|].
    subst q. destruct p as [p|]; [|specialize (Hfit _ eq_refl); rewrite ?len_nil in *; lia]. reflexivity.
  - destruct o as [x|q]; cbn [draft_call no_payload] in *.
    + destruct flags_set; [|specialize (Hfit _ eq_refl); lia]. cbn [call_left]. destruct Hg as (Ha & Hb & Hr & Hc & Hp & Hpl). unfold b, image. cbv zeta. cbn [use option_map].
      eapply edit_left_same; [|reflexivity|apply tcp_apply_zero; [rewrite len_app, len_tcp_wire; lia|apply tcp_flags_byte; [apply Hb|exact Hr]]].
      change (Some (dropN (size (DraftTcp a f true p)) s)) with (use (Some s) (size (DraftTcp a f true p))). szr.
    + subst q. destruct p as [p|]; [|specialize (Hfit _ eq_refl); rewrite ?len_nil in *; lia]. reflexivity.
  - specialize (Hfit _ eq_refl). apply (kind_small E s a); [exact HR|exact Hf|exact HM'|apply Hrest; exact Hfit|lia].
  - specialize (Hfit _ eq_refl). apply (kind_small E s a); [exact HR|exact Hf|exact HM'|apply Hrest; exact Hfit|lia].
  - specialize (Hfit _ eq_refl). apply (kind_small E s a); [exact HR|exact Hf|exact HM'|apply Hrest; exact Hfit|lia].
  - destruct o; cbn [draft_call no_payload] in *; try (specialize (Hfit _ eq_refl); lia). subst p0. destruct p as [p|]; [|specialize (Hfit _ eq_refl); rewrite ?len_nil in *; lia].
    reflexivity.
  - specialize (Hfit _ eq_refl); lia.
  - specialize (Hfit _ eq_refl); lia.
Qed.
Lemma runs_fits s cs : forall d d', fits (Some s) (size d) -> runs (Some s) cs d = Ok d' -> size d' <= len s.
Proof.
  induction cs as [|c cs IH]; intros d d' Hf H; cbn [runs] in H; [apply Ok_inj in H; subst d'; exact Hf|].
  destruct (draft_call c d) as [d1|e|]; cbn [bind] in H; try discriminate. destruct (ReferenceProofs.room (Some s) d1) as [d2|e|] eqn:Hr; cbn [bind] in H; try discriminate.
  destruct (room_ok _ _ _ Hr) as [-> Hf1]. exact (IH d1 d' Hf1 H).
Qed.
(** C74: more exactly, a call that fails leaves the whole memory as it was; but an
    inner builder that finds no room has already set the protocol field of the IPv4
    header around it. *)
Lemma c74_refused : forall E o cs c s b t t', Forall no_payload cs -> Forall ordinary cs -> no_payload c -> ordinary c ->
  typed (opened o) cs t -> returns t c = Some t' -> len s <= ISIZE_MAX -> added o cs + adds c <= ISIZE_MAX ->
  (let* b := open E o (slice_new s) in run (call1 E) cs b) = Ok b -> (forall b', call1 E c b <> Ok b') ->
  memory (fst (call_left E c b)) =
  match starts c, call1 E c b with
  | Some p, Err SmallBuffer => alter (memory (b_buffer b)) (buf_offset (b_buffer b) + 9) p
  | _, _ => memory (b_buffer b)
  end.
Proof.
  intros E o cs c s b t t' Hp Ho Hpc Hoc Hty Hret Hs HM H Hn.
  assert (HR : mem_ok (E := E) (Some s)) by exact Hs. rewrite slice_mk in H.
  destruct (open_image (Some s) E o HR) as (O1 & O2 & O3 & O4). rewrite O1 in H. rewrite <- O4 in Hty. unfold added in HM. rewrite <- O3 in HM.
  destruct (ReferenceProofs.room (Some s) (draft_open o)) as [d0|e|] eqn:Hr; cbn [bind] in H; try discriminate. destruct (room_ok _ _ _ Hr) as [-> Hf].
  pose proof (calls_image (Some s) E cs HR (or_intror Hp) _ _ O2 Hf Hty Ho ltac:(lia)) as C. pose proof (runs_fits s cs (draft_open o)) as Hfd. destruct (runs (Some s) cs (draft_open o)) as [d|e|]; try congruence.
  destruct C as (C1 & C2 & C3 & C4). rewrite C1 in H. apply Ok_inj in H. subst b. subst t.
  eapply call_failed; try eassumption; [apply Hfd; [exact Hf|reflexivity]|lia].
Qed.
(** C74: a build() that returns an error leaves the memory as it was. *)
Lemma c74_build_refused : forall E o cs cl s b e, compiles o cs cl -> Forall no_payload cs -> Forall ordinary cs -> len s <= ISIZE_MAX -> added o cs <= ISIZE_MAX ->
  (let* b := open E o (slice_new s) in run (call1 E) cs b) = Ok b -> close E cl b = Err e ->
  fst (close_left E cl b) = memory (b_buffer b).
Proof.
  intros E o cs cl s b e Hty Hp Ho Hs HM H Hcl.
  assert (HR : mem_ok (E := E) (Some s)) by exact Hs. rewrite slice_mk in H. unfold compiles in Hty.
  destruct (open_image (Some s) E o HR) as (O1 & O2 & O3 & O4). rewrite O1 in H. rewrite <- O4 in Hty. unfold added in HM. rewrite <- O3 in HM.
  destruct (ReferenceProofs.room (Some s) (draft_open o)) as [d0|x|] eqn:Hr; cbn [bind] in H; try discriminate. destruct (room_ok _ _ _ Hr) as [-> Hf].
  pose proof (calls_image (Some s) E cs HR (or_intror Hp) _ _ O2 Hf Hty Ho ltac:(lia)) as C. destruct (runs (Some s) cs (draft_open o)) as [d|x|]; try congruence.
  destruct C as (C1 & C2 & C3 & C4). rewrite C1 in H. apply Ok_inj in H. subst b.
  rewrite close_image in Hcl by (assumption || lia || (symmetry; exact C4)).
  destruct d; cbn [ty_of] in C4; destruct cl; cbn [closed] in C4; try discriminate C4; cbn [close_left draft_close] in *; try reflexivity; try discriminate Hcl.
  - exfalso. unfold v4_alone in Hcl. destruct e0 as [ef|]; [|discriminate Hcl]. destruct (type_for _); discriminate Hcl.
  - destruct a as [[e0 v]|]; discriminate Hcl.
  - destruct a as [[e0 v]|]; [|discriminate Hcl]. destruct (match cursor_eof E with EofKeep => false | EofSeek => _ end); discriminate Hcl.
  - destruct f as [[t i] q]. unfold icmp_done in Hcl. destruct kind_set; [discriminate Hcl|reflexivity].
  - destruct f as [[t i] q]. unfold icmp_done in Hcl. destruct kind_set; [discriminate Hcl|reflexivity].
  - destruct f as [[[[[t i] q] x] y] z]. unfold icmp_done in Hcl. destruct kind_set; [discriminate Hcl|reflexivity].
Qed.

(** ** Payloads *)
(** C74: with a payload this is not so: an Ethernet builder given two bytes on a slice
    of 40 returns a packet of 16 bytes and has also overwritten memory behind it,
    where a new layer would start; with 30 bytes it panics and leaves the memory
    behind its header changed. *)
Lemma c74_payload_refuted : ~ (forall E o cs cl s, Forall confined cs -> len s <= ISIZE_MAX ->
  dropN (added o cs) (fst (program_left E o cs cl (slice_new s))) = dropN (added o cs) s).
Proof.
  intros H. specialize (H (release EofKeep Bits64) OpEther [CallEther (EtherPayload [1; 2])] ClEther (repeat 170 40%nat) ltac:(repeat constructor) ltac:(vm_compute; discriminate)).
  vm_compute in H. discriminate H.
Qed.
(** C74: programs that fail, and what they leave: no room for UDP behind IPv4 (the
    protocol is set); a DSCP that is refused; a finalizer function of the user that
    writes and fails. *)
Example c74_example : forall E,
  let s := repeat 170 25%nat in
  let p x := 69 :: zeros 8 ++ x :: zeros 10 ++ repeat 170 5%nat in
  program_left E OpV4 [CallV4Udp] ClUdp (slice_new s) = (p 17, Err SmallBuffer) /\
  program_left E OpV4 [CallV4 (V4Set (V4SetDscp 64))] ClV4 (slice_new s) = (p 0, Err InvalidValue) /\
  program_left E OpEther [CallFinalizer (mseq (set_index 3 9) (fun b => (b, Err Io)))] ClEther (slice_new s) = ([0; 0; 0; 9] ++ zeros 10 ++ repeat 170 11%nat, Err Io) /\
  program_left E OpV6 [] ClV6 (slice_new s) = (s, Err InvalidPacket) /\
  (exists m, program_left E OpUdp [] ClUdp (slice_new s) = (m, Panic) /\ dropN 8 m = repeat 170 17%nat) /\
  confined (CallFinalizer (mseq (set_index 3 9) (fun b => (b, Err Io)))).
Proof.
  intros E. split; [destruct E as [[] [] []]; vm_compute; reflexivity|]. split; [destruct E as [[] [] []]; vm_compute; reflexivity|].
  split; [destruct E as [[] [] []]; vm_compute; reflexivity|]. split; [reflexivity|]. split.
  - destruct E as [[] [] []]; eexists; (split; [vm_compute; reflexivity|reflexivity]).
  - cbn [confined]. apply kl_mseq; [apply kl_set_index|]. intros b. reflexivity.
Qed.
(** C74: with payloads: the 16 bytes returned are at the front (the payload is not
    there), and bytes behind them have changed; with less memory, a panic. *)
Example c74_payload_example : forall E,
  program_left E OpEther [CallEther (EtherPayload [1; 2])] ClEther (slice_new (repeat 170 40%nat)) =
    (zeros 14 ++ repeat 170 14%nat ++ [1; 170; 2] ++ repeat 170 9%nat, Ok (zeros 14 ++ [170; 170])) /\
  program_left E OpEther [CallEther (EtherPayload [1; 2])] ClEther (slice_new (repeat 170 30%nat)) =
    (zeros 14 ++ repeat 170 14%nat ++ [1; 170], Panic).
Proof. intros E. split; destruct E as [[] [] []]; vm_compute; reflexivity. Qed.
