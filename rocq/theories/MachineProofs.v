(** * MachineProofs: packets in use are records of fields (C71). *)
From Verif Require Import Base Enums Ether Ipv4 Ip Udp Tcp Icmp Spec SpecCalls SpecEdit SpecForward SpecMachine Mutable Lemmas AccessProofs
  ParseProofs FieldProofs SliceProofs MutableProofs ChecksumLemmas ChecksumProofs GuardProofs EditProofs ForwardProofs.
From Coq Require Import ZifyBool ZifyNat ZifyN.
Ltac Zify.zify_post_hook ::= Z.div_mod_to_equations.

(** ** Histories that agree step by step *)
Lemma history_sim {S A} (act : A -> mut) (do : A -> S -> S * res unit) (view : S -> bytes) (wf : S -> Prop) (ok : A -> S -> Prop) :
  (forall a s, wf s -> ok a s ->
     snd (act a (view s)) = snd (do a s) /\
     (snd (do a s) <> Panic -> fst (act a (view s)) = view (fst (do a s)) /\ wf (fst (do a s)))) ->
  forall l s, wf s -> allowed ok do l s ->
  history act l (view s) = (let (rs, o) := history do l s in (rs, option_map view o)) /\
  forall s', snd (history do l s) = Some s' -> wf s'.
Proof.
  intros H. induction l as [|a l IH]; intros s Hs Ha; cbn [history].
  { split; [reflexivity|]. intros s' E. cbn in E. injection E as <-. exact Hs. }
  cbn [allowed] in Ha. destruct Ha as [Ha Hl]. destruct (H a s Hs Ha) as [H1 H2].
  destruct (act a (view s)) as [b' r'], (do a s) as [s' r]. cbn [fst snd] in *. subst r'.
  destruct r as [u|e|]; [| |split; [reflexivity|intros s'' E; discriminate]];
    (destruct H2 as [-> Hw]; [discriminate|]; destruct (IH s' Hw (Hl ltac:(discriminate))) as [I1 I2]; rewrite I1;
     destruct (history do l s') as [rs o]; split; [reflexivity|exact I2]).
Qed.
(** A guard whose setters never panic. *)
Lemma guard_sim {S O} (apply : O -> mut) (drop : mut) (put : O -> S -> S * res unit) (view : S -> bytes) (wf : S -> Prop) (ok : O -> Prop) :
  (forall o s, wf s -> ok o -> apply o (view s) = (view (fst (put o s)), snd (put o s)) /\ snd (put o s) <> Panic /\ wf (fst (put o s))) ->
  forall ops s, wf s -> Forall ok ops -> wf (assigns put ops s) /\
  run_guard apply drop ops (view s) = match drop (view (assigns put ops s)) with (b', Ok _) => (b', Ok tt) | (b', _) => (b', Panic) end.
Proof.
  intros H. induction ops as [|o ops IH]; intros s Hs Hok; [split; [exact Hs|reflexivity]|].
  inversion Hok as [|? ? Ho Hok']; subst. destruct (H o s Hs Ho) as (H1 & H2 & H3). destruct (IH _ H3 Hok') as [I1 I2].
  unfold assigns in *. cbn [fold_left]. split; [exact I1|]. cbn [run_guard]. rewrite H1.
  destruct (snd (put o s)) as [u|e|]; [| |congruence]; exact I2.
Qed.
(** Overwriting the middle of a message. *)
Lemma patch_mid (a x y r : bytes) : len x = len y -> patch (len a) x (a ++ y ++ r) = a ++ x ++ r.
Proof.
  intros H. unfold patch. rewrite takeN_app_len. do 2 f_equal. rewrite H. rewrite <- len_app, app_assoc. apply dropN_app_len.
Qed.
Lemma zero_patch off b : off + 2 <= len b -> zero_field off b = patch off [0; 0] b.
Proof. apply zero_field_patch. Qed.

(** ** UDP *)
Lemma udp_len u : len (udp_bytes u) = 8 + len (up_payload u) + len (up_behind u).
Proof. unfold udp_bytes. rewrite !len_app. change (len (udp_wire (up_header u))) with 8. lia. Qed.
Lemma udp_is_bytes u : udp_packet_ok u -> is_bytes (udp_bytes u).
Proof.
  intros ((A & B & C & D) & _ & Hp & Hb). unfold udp_bytes, udp_wire. rewrite !is_bytes_app.
  repeat split; try assumption; apply is_bytes_enc16; assumption.
Qed.
Lemma udp_new_bytes u : udp_packet_ok u -> udp_new (udp_bytes u) = Ok (udp_bytes u).
Proof. intros (Hf & Hl & _). exact (proj1 (c09_udp (up_header u) (up_payload u) (up_behind u) Hf Hl)). Qed.
Lemma udp_store_step v u : udp_set_checksum v (udp_bytes u) = (udp_bytes (udp_store v u), Ok tt).
Proof.
  unfold udp_set_checksum. rewrite udp_header_write by (rewrite ?udp_len; lia). reflexivity.
Qed.
Lemma udp_assign_step o u : udp_packet_ok u -> udp_setter_ok o ->
  udp_apply o (udp_bytes u) = (udp_bytes (fst (udp_assign o u)), snd (udp_assign o u)) /\ snd (udp_assign o u) <> Panic /\
  udp_packet_ok (fst (udp_assign o u)).
Proof.
  intros ((A & B & C & D) & Hl & Hp & Hb) Ho. split; [|split; [destruct o; discriminate|]].
  - destruct o; cbn [udp_apply]; unfold udp_set_source, udp_set_destination;
      rewrite udp_header_write by (rewrite ?udp_len; lia); reflexivity.
  - destruct o; repeat split; assumption.
Qed.
Lemma udp_zero u : zero_field 6 (udp_bytes u) = udp_bytes (udp_store 0 u).
Proof. rewrite zero_patch by (rewrite udp_len; lia). reflexivity. Qed.
Lemma udp_store_ok v u : u16 v -> udp_packet_ok u -> udp_packet_ok (udp_store v u).
Proof. intros Hv ((A & B & C & D) & Hl & Hp & Hb). repeat split; assumption. Qed.
Lemma inet_checksum_u16 b : u16 (inet_checksum b).
Proof. unfold inet_checksum, u16. lia. Qed.
Lemma udp_assigns_len ops u : len (udp_bytes (assigns udp_assign ops u)) = len (udp_bytes u).
Proof.
  unfold assigns. revert u. induction ops as [|o ops IH]; intros u; [reflexivity|]. cbn [fold_left]. rewrite IH, !udp_len. reflexivity.
Qed.
Lemma udp_update_step E p u : is_bytes p -> 20 <= len p -> udp_packet_ok u ->
  len (udp_bytes u) mod 2 = 0 \/ cursor_eof E = EofKeep ->
  udp_update_checksum E (V4 p) (udp_bytes u) = (udp_bytes (udp_sum (wire_addr p 12) (wire_addr p 16) u), Ok tt).
Proof.
  intros Hp Hl Hu Hc. unfold udp_update_checksum, mlet.
  rewrite udp_checksum_eq; [|exact Hp|apply udp_is_bytes; exact Hu|exact Hl].
  rewrite seen_covered by (rewrite len_zero_field; exact Hc). rewrite udp_zero. apply udp_store_step.
Qed.
Lemma fill_ok split_mut (h q r : bytes) new : split_mut (h ++ q ++ r) = Ok (Span 0 (len h), Span (len h) (len q)) ->
  fill split_mut new (h ++ q ++ r) = if len new =? len q then (h ++ new ++ r, Ok tt) else (h ++ q ++ r, Panic).
Proof.
  intros H. unfold fill. rewrite H. cbn [s_len]. destruct (N.eqb_spec (len new) (len q)) as [e|]; [|reflexivity].
  rewrite span_write_patch by exact e. cbn [s_at]. rewrite patch_mid by exact e. reflexivity.
Qed.
Lemma fill_end split_mut (h q : bytes) new : split_mut (h ++ q) = Ok (Span 0 (len h), Span (len h) (len q)) ->
  fill split_mut new (h ++ q) = if len new =? len q then (h ++ new, Ok tt) else (h ++ q, Panic).
Proof.
  intros H. pose proof (fill_ok split_mut h q [] new) as Q. rewrite !app_nil_r in Q. apply Q. exact H.
Qed.
Lemma udp_step E p a u : is_bytes p -> 20 <= len p -> udp_packet_ok u -> udp_action_ok a ->
  len (udp_bytes u) mod 2 = 0 \/ cursor_eof E = EofKeep ->
  let src := wire_addr p 12 in let dst := wire_addr p 16 in
  snd (udp_act E (V4 p) a (udp_bytes u)) = snd (udp_do src dst a u) /\
  (snd (udp_do src dst a u) <> Panic ->
   fst (udp_act E (V4 p) a (udp_bytes u)) = udp_bytes (fst (udp_do src dst a u)) /\ udp_packet_ok (fst (udp_do src dst a u)) /\
   len (udp_bytes (fst (udp_do src dst a u))) = len (udp_bytes u)).
Proof.
  intros Hp Hl Hu Ha Hc src dst. destruct a as [o|ops|new|[v|]]; cbn [udp_act udp_do].
  - destruct (udp_assign_step o u Hu Ha) as (H1 & H2 & H3). rewrite H1. cbn [fst snd].
    split; [reflexivity|]. intros _. split; [reflexivity|]. split; [exact H3|]. rewrite !udp_len. destruct o; reflexivity.
  - unfold udp_checked.
    destruct (guard_sim udp_apply (udp_update_checksum E (V4 p)) udp_assign udp_bytes udp_packet_ok udp_setter_ok udp_assign_step ops u Hu Ha) as [G1 G2].
    rewrite G2. rewrite udp_update_step; [|exact Hp|exact Hl|exact G1|rewrite udp_assigns_len; exact Hc].
    cbn [fst snd]. split; [reflexivity|]. intros _. split; [reflexivity|]. split; [apply udp_store_ok; [apply inet_checksum_u16|exact G1]|].
    rewrite <- (udp_assigns_len ops u). rewrite !udp_len. reflexivity.
  - assert (Hs : udp_split_mut (udp_bytes u) = Ok (Span 0 (len (udp_wire (up_header u))), Span (len (udp_wire (up_header u))) (len (up_payload u)))).
    { change (len (udp_wire (up_header u))) with 8. pose proof (c49_udp (udp_bytes u) (udp_new_bytes u Hu)) as Q. cbv zeta in Q.
      destruct Q as (Q & _). rewrite Q. do 3 f_equal. destruct Hu as ((A & B & C & D) & Hlen & _).
      assert (Hw : wire16 (udp_bytes u) 4 = uf_length (up_header u)) by (change (wire16 (udp_bytes u) 4) with (uf_length (up_header u) / 256 * 256 + uf_length (up_header u) mod 256); lia).
      rewrite Hw. f_equal. lia. }
    unfold udp_bytes in Hs |- *. rewrite (fill_ok _ _ _ _ new Hs). destruct (N.eqb_spec (len new) (len (up_payload u))) as [e|n]; cbn [fst snd].
    + split; [reflexivity|]. intros _. split; [reflexivity|]. split.
      * destruct Hu as (Hf & Hlen & _ & Hb). cbn [udp_action_ok action_ok] in Ha. split; [exact Hf|]. split; [|split; assumption].
        cbn [up_header up_payload]. lia.
      * cbn [up_header up_payload up_behind]. rewrite !len_app. lia.
    + split; [reflexivity|congruence].
  - rewrite udp_store_step. cbn [fst snd]. split; [reflexivity|]. intros _. split; [reflexivity|].
    split; [apply udp_store_ok; [exact Ha|exact Hu]|]. rewrite !udp_len. reflexivity.
  - rewrite udp_update_step by assumption. cbn [fst snd]. split; [reflexivity|]. intros _. split; [reflexivity|].
    split; [apply udp_store_ok; [apply inet_checksum_u16|exact Hu]|]. rewrite !udp_len. reflexivity.
Qed.

(** ** TCP *)
Lemma tcp_wire_len f : len (tcp_wire f) = 20.
Proof. reflexivity. Qed.
Lemma tcp_len t : len (tcp_bytes t) = 20 + len (tp_options t) + len (tp_payload t).
Proof. unfold tcp_bytes. rewrite !len_app, tcp_wire_len. lia. Qed.
Lemma is_bytes_tcp_wire f : tcp_fields_ok f -> is_bytes (tcp_wire f).
Proof.
  intros (A & B & C & D & F & G & H & I & J & K). unfold tcp_wire. rewrite !is_bytes_app.
  repeat split; try (apply is_bytes_enc16; assumption); try (apply is_bytes_enc32; assumption).
  apply is_bytes_enc16. unfold u16. lia.
Qed.
Lemma tcp_is_bytes t : tcp_packet_ok t -> is_bytes (tcp_bytes t).
Proof.
  intros (Hf & _ & Ho & Hp). unfold tcp_bytes. rewrite !is_bytes_app. repeat split; try assumption. apply is_bytes_tcp_wire, Hf.
Qed.
Lemma tcp_offset_bytes t : tcp_packet_ok t -> nthN (tcp_bytes t) 12 / 16 = tf_offset (tp_header t).
Proof.
  intros ((A & B & C & D & F & G & H & _) & _).
  change (nthN (tcp_bytes t) 12) with ((tf_offset (tp_header t) * 4096 + tf_reserved (tp_header t) * 512 + tf_flags (tp_header t)) / 256). lia.
Qed.
Lemma tcp_new_bytes t : tcp_packet_ok t -> tcp_new (tcp_bytes t) = Ok (tcp_bytes t).
Proof.
  intros H. apply tcp_new_iff. rewrite tcp_offset_bytes by exact H. rewrite tcp_len. destruct H as (_ & Ho & _). repeat split; lia.
Qed.
Lemma tcp_store_step v t : tcp_packet_ok t -> tcp_spoiled t = false ->
  tcp_set_checksum v (tcp_bytes t) = (tcp_bytes (tcp_store v t), Ok tt).
Proof.
  intros H Hs. unfold tcp_set_checksum. unfold tcp_spoiled in Hs. apply N.eqb_neq in Hs.
  rewrite tcp_header_write16; [reflexivity|apply tcp_new_bytes; exact H|]. rewrite tcp_offset_bytes by exact H.
  destruct H as (_ & Ho & _). lia.
Qed.
Lemma tcp_store_spoiled v t : tcp_packet_ok t -> tcp_spoiled t = true -> tcp_set_checksum v (tcp_bytes t) = (tcp_bytes t, Panic).
Proof.
  intros H Hs. unfold tcp_spoiled in Hs. apply N.eqb_eq in Hs.
  pose proof (c12_tcp_short_header (tcp_bytes t) (tcp_new_bytes t H) v) as Q. cbv zeta in Q.
  rewrite tcp_offset_bytes, Hs in Q by exact H. rewrite Forall_forall in Q.
  specialize (Q (tcp_set_checksum v, 16, 18)). cbn beta iota in Q. apply Q; [cbn; tauto|lia].
Qed.
Lemma tcp_assign_ok o t : tcp_packet_ok t -> tcp_setter_ok o -> tcp_packet_ok (fst (tcp_assign o t)).
Proof.
  intros H Ho. unfold tcp_assign. destruct (tcp_spoiled t) eqn:Es; [exact H|]. cbn [fst].
  destruct H as ((A & B & C & D & F & G & H & I & J & K) & Hl & H1 & H2).
  destruct o; repeat split; cbn; try assumption; try lia; right; reflexivity.
Qed.
Lemma tcp_assign_len o t : len (tcp_bytes (fst (tcp_assign o t))) = len (tcp_bytes t).
Proof. unfold tcp_assign. destruct (tcp_spoiled t); [reflexivity|]. rewrite !tcp_len. reflexivity. Qed.
Lemma tcp_assign_step o t : tcp_packet_ok t -> tcp_setter_ok o ->
  tcp_apply o (tcp_bytes t) = (tcp_bytes (fst (tcp_assign o t)), snd (tcp_assign o t)).
Proof.
  intros H Ho. pose proof (tcp_new_bytes t H) as Hn. pose proof (tcp_offset_bytes t H) as Hof.
  unfold tcp_assign. destruct (tcp_spoiled t) eqn:Es; cbn [fst snd].
  - unfold tcp_spoiled in Es. apply N.eqb_eq in Es. rewrite Es in Hof.
    assert (Q : forall v, _) by (intros v; exact (c12_tcp_short_header (tcp_bytes t) Hn v)). cbv zeta in Q. rewrite Hof in Q.
    assert (X : forall v f lo hi, In (f, lo, hi) [(tcp_set_source v, 0, 2); (tcp_set_destination v, 2, 4); (tcp_set_sequence v, 4, 8);
     (tcp_set_acknowledgment v, 8, 12); (tcp_set_window v, 14, 16); (tcp_set_checksum v, 16, 18);
     (tcp_set_pointer v, 18, 20)] -> (0 = lo -> f (tcp_bytes t) = (tcp_bytes t, Err Io)) /\ (0 < lo -> f (tcp_bytes t) = (tcp_bytes t, Panic))).
    { intros v f lo hi Hin. specialize (Q v). rewrite Forall_forall in Q. specialize (Q _ Hin). cbn beta iota in Q. tauto. }
    destruct o as [v|v|v|v|v|v|v]; cbn [tcp_apply].
    + apply (X v _ 0 2); [cbn; tauto|reflexivity].
    + apply (X v _ 2 4); [cbn; tauto|reflexivity].
    + apply (X v _ 4 8); [cbn; tauto|reflexivity].
    + apply (X v _ 8 12); [cbn; tauto|reflexivity].
    + unfold tcp_set_flags, mlet, tcp_header, tcp_split, tcp_offset. rewrite index_ok by (rewrite tcp_len; lia). cbn [bind].
      rewrite N.shiftr_div_pow2. change (2 ^ 4) with 16. rewrite Hof. rewrite split_at_ok by lia. cbn [bind].
      replace (takeN (0 * 4) (tcp_bytes t)) with (@nil N) by reflexivity. reflexivity.
    + apply (X v _ 14 16); [cbn; tauto|reflexivity].
    + apply (X v _ 18 20); [cbn; tauto|reflexivity].
  - unfold tcp_spoiled in Es. apply N.eqb_neq in Es. pose proof (proj1 (proj2 H)) as Hl.
    destruct o as [v|v|v|v|v|v|v]; cbn [tcp_apply];
      unfold tcp_set_source, tcp_set_destination, tcp_set_sequence, tcp_set_acknowledgment, tcp_set_window, tcp_set_pointer.
    + rewrite tcp_header_write16; [reflexivity|exact Hn|lia].
    + rewrite tcp_header_write16; [reflexivity|exact Hn|lia].
    + rewrite tcp_header_write32; [reflexivity|exact Hn|lia].
    + rewrite tcp_header_write32; [reflexivity|exact Hn|lia].
    + rewrite tcp_set_flags_ok; [reflexivity|apply tcp_is_bytes; exact H|exact Hn|lia].
    + rewrite tcp_header_write16; [reflexivity|exact Hn|lia].
    + rewrite tcp_header_write16; [reflexivity|exact Hn|lia].
Qed.
Lemma tcp_zero t : zero_field 16 (tcp_bytes t) = tcp_bytes (tcp_store 0 t).
Proof. rewrite zero_patch by (rewrite tcp_len; lia). reflexivity. Qed.
Lemma tcp_store_ok v t : u16 v -> tcp_packet_ok t -> tcp_packet_ok (tcp_store v t).
Proof. intros Hv ((A & B & C & D & F & G & H & I & J & K) & Hl & H1 & H2). repeat split; assumption. Qed.
Lemma tcp_checksum_bytes E p t : is_bytes p -> 20 <= len p -> tcp_packet_ok t -> len (tcp_bytes t) <= 131065 ->
  len (tcp_bytes t) mod 2 = 0 \/ cursor_eof E = EofKeep ->
  tcp_checksum_of E (V4 p) (tcp_bytes t) = Ok (inet_checksum (with_pseudo_header (wire_addr p 12) (wire_addr p 16) 6 (tcp_bytes (tcp_store 0 t)))).
Proof.
  intros Hp Hl Ht Hm Hc. rewrite tcp_checksum_eq; [|exact Hp|apply tcp_is_bytes; exact Ht|exact Hl|exact Hm|exact Hc].
  rewrite tcp_zero. reflexivity.
Qed.
Lemma tcp_update_step E p t : is_bytes p -> 20 <= len p -> tcp_packet_ok t -> len (tcp_bytes t) <= 131065 ->
  len (tcp_bytes t) mod 2 = 0 \/ cursor_eof E = EofKeep ->
  tcp_update_checksum E (V4 p) (tcp_bytes t) =
  if tcp_spoiled t then (tcp_bytes t, Panic) else (tcp_bytes (tcp_sum (wire_addr p 12) (wire_addr p 16) t), Ok tt).
Proof.
  intros Hp Hl Ht Hm Hc. unfold tcp_update_checksum, mlet. rewrite tcp_checksum_bytes by assumption.
  destruct (tcp_spoiled t) eqn:Es; [apply tcp_store_spoiled; assumption|apply tcp_store_step; assumption].
Qed.
Lemma tcp_assigns_len ops t : len (tcp_bytes (assigns tcp_assign ops t)) = len (tcp_bytes t).
Proof.
  unfold assigns. revert t. induction ops as [|o ops IH]; intros t; [reflexivity|]. cbn [fold_left]. rewrite IH. apply tcp_assign_len.
Qed.
Lemma tcp_assigns_spoiled ops t : tcp_spoiled t = true -> assigns tcp_assign ops t = t.
Proof.
  intros H. unfold assigns. induction ops as [|o ops IH]; [reflexivity|]. cbn [fold_left].
  replace (fst (tcp_assign o t)) with t by (unfold tcp_assign; rewrite H; reflexivity). exact IH.
Qed.
Lemma tcp_assigns_ok ops t : tcp_packet_ok t -> Forall tcp_setter_ok ops -> tcp_packet_ok (assigns tcp_assign ops t).
Proof.
  intros H Hok. revert t H. unfold assigns. induction Hok as [|o ops Ho Hok IH]; intros t H; [exact H|]. cbn [fold_left].
  apply IH, tcp_assign_ok; assumption.
Qed.
(** The guard: the same as the calls and then the update; a spoiled packet panics
    at one or the other. *)
Lemma tcp_guard_step E p ops t : is_bytes p -> 20 <= len p -> tcp_packet_ok t -> len (tcp_bytes t) <= 131065 ->
  len (tcp_bytes t) mod 2 = 0 \/ cursor_eof E = EofKeep -> Forall tcp_setter_ok ops ->
  let t' := assigns tcp_assign ops t in
  snd (tcp_checked E (V4 p) ops (tcp_bytes t)) = (if tcp_spoiled t' then Panic else Ok tt) /\
  (tcp_spoiled t' = false -> fst (tcp_checked E (V4 p) ops (tcp_bytes t)) = tcp_bytes (tcp_sum (wire_addr p 12) (wire_addr p 16) t')).
Proof.
  intros Hp Hl Ht Hm Hc Hok. revert t Ht Hm Hc. unfold tcp_checked, assigns.
  induction Hok as [|o ops Ho Hok IH]; intros t Ht Hm Hc; cbn [run_guard fold_left]; cbv zeta.
  { rewrite tcp_update_step by assumption. destruct (tcp_spoiled t); split; try reflexivity. discriminate. }
  rewrite (tcp_assign_step o t Ht Ho).
  pose proof (tcp_assign_ok o t Ht Ho) as Ht'. pose proof (tcp_assign_len o t) as Hl'.
  destruct (IH (fst (tcp_assign o t)) Ht' ltac:(lia) ltac:(rewrite Hl'; exact Hc)) as [I1 I2].
  destruct (snd (tcp_assign o t)) as [u|e|] eqn:Er; [split; assumption|split; assumption|].
  cbn [fst snd]. assert (Hs : tcp_spoiled t = true) by (unfold tcp_assign in Er; destruct (tcp_spoiled t); [reflexivity|discriminate]).
  assert (Hf : fst (tcp_assign o t) = t) by (unfold tcp_assign; rewrite Hs; reflexivity). rewrite Hf.
  change (fold_left _ ops t) with (assigns tcp_assign ops t). rewrite tcp_assigns_spoiled, Hs by exact Hs. split; [reflexivity|discriminate].
Qed.
Lemma tcp_step E p a t : is_bytes p -> 20 <= len p -> tcp_packet_ok t -> tcp_action_ok a t -> len (tcp_bytes t) <= 131065 ->
  len (tcp_bytes t) mod 2 = 0 \/ cursor_eof E = EofKeep ->
  let src := wire_addr p 12 in let dst := wire_addr p 16 in
  snd (tcp_act E (V4 p) a (tcp_bytes t)) = snd (tcp_do src dst a t) /\
  (snd (tcp_do src dst a t) <> Panic ->
   fst (tcp_act E (V4 p) a (tcp_bytes t)) = tcp_bytes (fst (tcp_do src dst a t)) /\ tcp_packet_ok (fst (tcp_do src dst a t)) /\
   len (tcp_bytes (fst (tcp_do src dst a t))) = len (tcp_bytes t)).
Proof.
  intros Hp Hl Ht [Ha Hf] Hm Hc src dst. destruct a as [o|ops|new|x]; cbn [tcp_act tcp_do].
  - rewrite tcp_assign_step by assumption. cbn [fst snd]. split; [reflexivity|]. intros _. split; [reflexivity|].
    split; [apply tcp_assign_ok; assumption|apply tcp_assign_len].
  - destruct (tcp_guard_step E p ops t Hp Hl Ht Hm Hc Ha) as [G1 G2]. rewrite G1.
    destruct (tcp_spoiled (assigns tcp_assign ops t)) eqn:Es; cbn [fst snd]; (split; [reflexivity|]); [congruence|].
    intros _. split; [apply G2; reflexivity|]. split; [apply tcp_store_ok; [apply inet_checksum_u16|apply tcp_assigns_ok; assumption]|].
    rewrite <- (tcp_assigns_len ops t), !tcp_len. reflexivity.
  - assert (Hs : tcp_split_mut ((tcp_wire (tp_header t) ++ tp_options t) ++ tp_payload t) =
      Ok (Span 0 (len (tcp_wire (tp_header t) ++ tp_options t)), Span (len (tcp_wire (tp_header t) ++ tp_options t)) (len (tp_payload t)))).
    { rewrite <- app_assoc. fold (tcp_bytes t). unfold tcp_spoiled in Hf. apply N.eqb_neq in Hf.
      pose proof (proj1 (proj2 Ht)) as Hlen.
      pose proof (tcp_offset_bytes t Ht) as Hof. unfold tcp_split_mut, tcp_offset. rewrite index_ok by (rewrite tcp_len; lia). cbn [bind].
      rewrite N.shiftr_div_pow2. change (2 ^ 4) with 16. rewrite Hof. unfold split_at_mut, whole. cbn [s_len s_at].
      rewrite len_app, tcp_wire_len. rewrite tcp_len.
      destruct (N.leb_spec (tf_offset (tp_header t) * 4) (20 + len (tp_options t) + len (tp_payload t))); [|lia].
      do 2 f_equal; f_equal; lia. }
    unfold tcp_bytes. rewrite !(app_assoc (tcp_wire _)).
    rewrite (fill_end _ _ _ new Hs). destruct (N.eqb_spec (len new) (len (tp_payload t))) as [e|n]; cbn [fst snd].
    + split; [reflexivity|]. intros _. split; [reflexivity|]. split.
      * destruct Ht as (H1 & H2 & H3 & H4). split; [exact H1|]. split; [exact H2|]. split; [exact H3|exact Ha].
      * cbn [tp_header tp_options tp_payload]. rewrite !len_app. lia.
    + split; [reflexivity|congruence].
  - destruct x as [v|]; cbn [tcp_act].
    + destruct (tcp_spoiled t) eqn:Es.
      * rewrite tcp_store_spoiled by assumption. cbn [fst snd]. split; [reflexivity|congruence].
      * rewrite tcp_store_step by assumption. cbn [fst snd]. split; [reflexivity|]. intros _. split; [reflexivity|].
        split; [apply tcp_store_ok; [exact Ha|exact Ht]|]. rewrite !tcp_len. reflexivity.
    + rewrite tcp_update_step by assumption. destruct (tcp_spoiled t); cbn [fst snd]; (split; [reflexivity|]); [congruence|].
      intros _. split; [reflexivity|]. split; [apply tcp_store_ok; [apply inet_checksum_u16|exact Ht]|]. rewrite !tcp_len. reflexivity.
Qed.

(** ** ICMP echo *)
Lemma echo_len c : len (echo_bytes c) = 8 + len (cp_payload c).
Proof. unfold echo_bytes. rewrite len_app. reflexivity. Qed.
Lemma echo_is_bytes c : echo_packet_ok c -> is_bytes (echo_bytes c).
Proof.
  intros ((A & B & C) & Ht & Hi & Hs & Hp). unfold echo_bytes, ident_wire, icmp_wire. rewrite !is_bytes_app.
  repeat split; try (apply is_bytes_enc16; assumption); try assumption. repeat constructor; assumption.
Qed.
Lemma echo_new_bytes c : echo_packet_ok c -> echo_new (echo_bytes c) = Ok (echo_bytes c).
Proof. intros (Hf & Ht & _). exact (proj1 (c09_echo (cp_header c) (cp_ident c) (cp_seq c) (cp_payload c) Hf Ht)). Qed.
Lemma echo_assign_step o c : echo_packet_ok c -> echo_setter_ok o ->
  echo_apply o (echo_bytes c) = (echo_bytes (fst (echo_assign o c)), snd (echo_assign o c)) /\ snd (echo_assign o c) <> Panic /\
  echo_packet_ok (fst (echo_assign o c)).
Proof.
  intros ((A & B & C) & Ht & Hi & Hs & Hp) Ho. split; [|split; [destruct o; discriminate|]].
  - destruct o; cbn [echo_apply]; unfold echo_make_request, echo_make_reply, echo_set_identifier, echo_set_sequence.
    + rewrite set_index_ok by (rewrite echo_len; lia). reflexivity.
    + rewrite set_index_ok by (rewrite echo_len; lia). reflexivity.
    + rewrite write_u16_ok by (rewrite echo_len; lia). reflexivity.
    + rewrite write_u16_ok by (rewrite echo_len; lia). reflexivity.
  - destruct o; repeat split; cbn; try assumption; try reflexivity; first [left; reflexivity|right; reflexivity].
Qed.
Lemma echo_zero c : zero_field 2 (echo_bytes c) = echo_bytes (echo_store 0 c).
Proof. rewrite zero_patch by (rewrite echo_len; lia). reflexivity. Qed.
Lemma nonzero_checksum_u16 b : u16 (nonzero_checksum b).
Proof. unfold nonzero_checksum. destruct (word_sum b =? 0); [reflexivity|apply inet_checksum_u16]. Qed.
Lemma echo_store_ok v c : u16 v -> echo_packet_ok c -> echo_packet_ok (echo_store v c).
Proof. intros Hv ((A & B & C) & Ht & Hi & Hs & Hp). repeat split; assumption. Qed.
Lemma echo_assigns_len ops c : len (echo_bytes (assigns echo_assign ops c)) = len (echo_bytes c).
Proof.
  unfold assigns. revert c. induction ops as [|o ops IH]; intros c; [reflexivity|]. cbn [fold_left]. rewrite IH, !echo_len. destruct o; reflexivity.
Qed.
Lemma echo_drop_step E c : echo_packet_ok c -> len (echo_bytes c) <= ISIZE_MAX ->
  icmp_checked_drop E (echo_as_ref E) (echo_bytes c) = (echo_bytes (echo_sum c), Ok tt).
Proof.
  intros Hc Hi.
  assert (Hr : echo_as_ref E (echo_bytes c) = Ok (takeN (len (echo_bytes c)) (echo_bytes c))).
  { rewrite takeN_all by lia.
    pose proof (c07_echo E (echo_bytes c) (conj (echo_is_bytes c Hc) Hi) (echo_new_bytes c Hc)) as Q. cbv zeta in Q. tauto. }
  rewrite (icmp_drop_ok E _ _ _ (echo_is_bytes c Hc) Hr) by (rewrite echo_len; lia). rewrite takeN_all by lia.
  rewrite echo_zero. reflexivity.
Qed.
Lemma echo_step E a c : echo_packet_ok c -> echo_action_ok a -> len (echo_bytes c) <= ISIZE_MAX ->
  snd (echo_act E a (echo_bytes c)) = snd (echo_do a c) /\
  (snd (echo_do a c) <> Panic ->
   fst (echo_act E a (echo_bytes c)) = echo_bytes (fst (echo_do a c)) /\ echo_packet_ok (fst (echo_do a c)) /\
   len (echo_bytes (fst (echo_do a c))) = len (echo_bytes c)).
Proof.
  intros Hc Ha Hi. destruct a as [o|ops|new|[]]; cbn [echo_act echo_do].
  - destruct (echo_assign_step o c Hc Ha) as (H1 & H2 & H3). rewrite H1. cbn [fst snd].
    split; [reflexivity|]. intros _. split; [reflexivity|]. split; [exact H3|]. rewrite !echo_len. destruct o; reflexivity.
  - unfold echo_checked.
    destruct (guard_sim echo_apply (icmp_checked_drop E (echo_as_ref E)) echo_assign echo_bytes echo_packet_ok echo_setter_ok echo_assign_step ops c Hc Ha) as [G1 G2].
    rewrite G2. rewrite echo_drop_step; [|exact G1|rewrite echo_assigns_len; exact Hi].
    cbn [fst snd]. split; [reflexivity|]. intros _. split; [reflexivity|]. split; [apply echo_store_ok; [apply nonzero_checksum_u16|exact G1]|].
    rewrite <- (echo_assigns_len ops c), !echo_len. reflexivity.
  - assert (Hs : echo_split_mut (echo_bytes c) = Ok (Span 0 (len (ident_wire (cp_header c) (cp_ident c) (cp_seq c))),
      Span (len (ident_wire (cp_header c) (cp_ident c) (cp_seq c))) (len (cp_payload c)))).
    { change (len (ident_wire (cp_header c) (cp_ident c) (cp_seq c))) with 8. unfold echo_split_mut, split_at_mut, whole. cbn [s_len s_at].
      rewrite echo_len. destruct (N.leb_spec 8 (8 + len (cp_payload c))); [|lia]. do 3 f_equal. lia. }
    unfold echo_bytes in *. rewrite (fill_end _ _ _ new Hs). destruct (N.eqb_spec (len new) (len (cp_payload c))) as [e|n]; cbn [fst snd].
    + split; [reflexivity|]. intros _. split; [reflexivity|]. split.
      * destruct Hc as (H1 & H2 & H3 & H4 & H5). split; [exact H1|]. split; [exact H2|]. split; [exact H3|]. split; [exact H4|exact Ha].
      * cbn [cp_header cp_ident cp_seq cp_payload]. rewrite !len_app. lia.
    + split; [reflexivity|congruence].
Qed.

(** ** IPv4 *)
Lemma v4_wire_len f : len (v4_wire f) = 20.
Proof. reflexivity. Qed.
Lemma v4_len p : len (v4_bytes p) = 20 + len (vp_options p) + len (vp_payload p) + len (vp_behind p).
Proof. unfold v4_bytes. rewrite !len_app, v4_wire_len. lia. Qed.
Lemma is_bytes_v4_wire f : v4_fields_ok f -> is_bytes (v4_wire f).
Proof.
  intros (A & B & C & D & F & G & H & I & J & K & L & M). unfold v4_wire. rewrite !is_bytes_app.
  assert (Hb : forall x, bit x <= 1) by (intros []; unfold bit; lia).
  pose proof (Hb (vf_reserved f)). pose proof (Hb (vf_df f)). pose proof (Hb (vf_mf f)).
  repeat split; try (apply is_bytes_enc16; (assumption || (unfold u16; lia))).
  - repeat constructor; unfold u8; lia.
  - repeat constructor; assumption.
  - exact L.
  - exact M.
Qed.
Lemma v4_is_bytes p : v4_packet_ok p -> is_bytes (v4_bytes p).
Proof.
  intros (Hf & _ & _ & _ & H1 & H2 & H3). unfold v4_bytes. rewrite !is_bytes_app. repeat split; try assumption. apply is_bytes_v4_wire, Hf.
Qed.
Lemma v4_new_bytes p : v4_packet_ok p -> v4_new (v4_bytes p) = Ok (v4_bytes p).
Proof.
  intros (Hf & Hv & Hi & Ht & _). exact (proj1 (c09_v4_parts (vp_header p) (vp_options p) (vp_payload p) (vp_behind p) Hf Hv Hi Ht)).
Qed.
Lemma v4_ihl_bytes p : v4_packet_ok p -> nthN (v4_bytes p) 0 mod 16 = vf_ihl (vp_header p).
Proof.
  intros ((A & B & _) & _). change (nthN (v4_bytes p) 0) with (vf_version (vp_header p) * 16 + vf_ihl (vp_header p)). lia.
Qed.
Lemma v4_no_payload_bytes p : v4_packet_ok p -> v4_no_payload (v4_bytes p) = Ok (v4_bytes p).
Proof. intros H. apply new_no_payload, v4_new_bytes, H. Qed.
Lemma word_split v : u16 v -> bit (N.testbit v 15) * 32768 + bit (N.testbit v 14) * 16384 + bit (N.testbit v 13) * 8192 + v mod 8192 = v.
Proof.
  intros H. unfold u16 in H. rewrite !N.testbit_eqb. change (2 ^ 15) with 32768. change (2 ^ 14) with 16384. change (2 ^ 13) with 8192.
  unfold bit. destruct (N.eqb_spec (v / 32768 mod 2) 1), (N.eqb_spec (v / 16384 mod 2) 1), (N.eqb_spec (v / 8192 mod 2) 1); lia.
Qed.
Lemma dscp_byte old v : old < 256 -> v <= 63 -> N.lor (N.land old 3) (shl_u8 v 2) = v * 4 + old mod 4.
Proof.
  intros Ho Hv.
  assert (H : forallb (fun o => forallb (fun v => N.lor (N.land o 3) (shl_u8 v 2) =? v * 4 + o mod 4) (map N.of_nat (seq 0 64))) (map N.of_nat (seq 0 256)) = true)
    by (vm_compute; reflexivity).
  rewrite forallb_forall in H. specialize (H old). rewrite forallb_forall in H.
  apply N.eqb_eq. apply H; apply in_map_iff; [exists (N.to_nat old)|exists (N.to_nat v)]; (split; [apply N2Nat.id|apply in_seq; lia]).
Qed.
Lemma ecn_byte d e v : d < 64 -> e < 4 -> v <= 3 -> N.lor (N.land (d * 4 + e) 63) v = d mod 16 * 4 + N.lor e v.
Proof.
  intros Hd He Hv.
  assert (H : forallb (fun d => forallb (fun e => forallb (fun v => N.lor (N.land (d * 4 + e) 63) v =? d mod 16 * 4 + N.lor e v)
    (map N.of_nat (seq 0 4))) (map N.of_nat (seq 0 4))) (map N.of_nat (seq 0 64)) = true) by (vm_compute; reflexivity).
  rewrite forallb_forall in H. specialize (H d). rewrite forallb_forall in H. specialize (H ltac:(apply in_map_iff; exists (N.to_nat d); split; [apply N2Nat.id|apply in_seq; lia]) e).
  rewrite forallb_forall in H. specialize (H ltac:(apply in_map_iff; exists (N.to_nat e); split; [apply N2Nat.id|apply in_seq; lia]) v).
  apply N.eqb_eq. apply H. apply in_map_iff; exists (N.to_nat v); split; [apply N2Nat.id|apply in_seq; lia].
Qed.
Lemma lor_4 e v : e < 4 -> v < 4 -> N.lor e v < 4.
Proof.
  intros He Hv. pose proof (ecn_byte 0 e v ltac:(lia) He ltac:(lia)) as Q.
  assert (H : e = 0 \/ e = 1 \/ e = 2 \/ e = 3) by lia. assert (H' : v = 0 \/ v = 1 \/ v = 2 \/ v = 3) by lia.
  destruct H as [->|[->|[->| ->]]], H' as [->|[->|[->| ->]]]; reflexivity.
Qed.
(** The header as a function of its fields, the rest fixed. *)
Lemma v4_assign_ok o p : v4_packet_ok p -> v4_setter_ok o -> v4_packet_ok (with_header p (fst (v4_assign o (vp_header p)))).
Proof.
  intros ((A & B & C & D & F & G & H & I & J & K & L & M) & Hv & Hi & Ht & H1 & H2 & H3) Ho.
  assert (Hk : forall f, v4_fields_ok f -> vf_version f = 4 -> vf_ihl f = vf_ihl (vp_header p) -> vf_total f = vf_total (vp_header p) -> v4_packet_ok (with_header p f)).
  { intros f Hf X1 X2 X3. split; [exact Hf|]. split; [exact X1|]. cbn [with_header vp_header vp_options vp_payload vp_behind]. rewrite X2, X3. tauto. }
  destruct o as [v|v|v|v|v|v|v|v|v]; cbn [v4_assign v4_setter_ok] in *; try (destruct (N.ltb_spec 63 v)); try (destruct (N.ltb_spec 3 v)); cbn [fst];
    (apply Hk; [|try exact Hv|reflexivity|reflexivity]); try exact Hv; unfold v4_fields_ok, v4_tos, v4_word, v4_fields_with; cbn; repeat split; try assumption; try lia.
  apply lor_4; lia.
Qed.
Lemma v4_assign_step o p : v4_packet_ok p -> v4_setter_ok o ->
  v4_apply o (v4_bytes p) = (v4_bytes (with_header p (fst (v4_assign o (vp_header p)))), snd (v4_assign o (vp_header p))).
Proof.
  intros Hp Ho. pose proof (v4_no_payload_bytes p Hp) as Hn. pose proof (v4_ihl_bytes p Hp) as Hi.
  pose proof Hp as ((A & B & C & D & F & G & H & I & J & K & L & M) & Hv & Hl & Ht & _).
  assert (Hw : forall off bs f, (forall h, off + len bs <= len h -> f h = (patch off bs h, Ok tt)) -> off + len bs <= 20 ->
    header_mut v4_split f (v4_bytes p) = (patch off bs (v4_bytes p), Ok tt)).
  { intros off bs f Hf Hb. apply v4_header_mut; [exact Hn|exact Hf|lia]. }
  destruct o as [v|v|v|v|v|v|v|v|v]; cbn [v4_apply v4_assign v4_setter_ok] in *.
  - unfold v4_set_dscp. destruct (N.ltb_spec 63 v); [destruct p; reflexivity|]. unfold mlet. rewrite index_ok by (rewrite v4_len; lia).
    rewrite set_index_ok by (rewrite v4_len; lia).
    change (nthN (v4_bytes p) 1) with (vf_dscp (vp_header p) * 4 + vf_ecn (vp_header p)). rewrite dscp_byte by lia.
    replace ((vf_dscp (vp_header p) * 4 + vf_ecn (vp_header p)) mod 4) with (vf_ecn (vp_header p)) by lia. reflexivity.
  - unfold v4_set_ecn. destruct (N.ltb_spec 3 v); [destruct p; reflexivity|]. unfold mlet. rewrite index_ok by (rewrite v4_len; lia).
    rewrite set_index_ok by (rewrite v4_len; lia).
    change (nthN (v4_bytes p) 1) with (vf_dscp (vp_header p) * 4 + vf_ecn (vp_header p)). rewrite ecn_byte by lia. reflexivity.
  - unfold v4_set_id. rewrite write_u16_ok by (rewrite v4_len; lia). reflexivity.
  - unfold v4_set_flags. rewrite (Hw 6 (enc16 v)); [|intros h Hh; apply write_u16_ok; exact Hh|cbn; lia].
    rewrite <- (word_split v Ho) at 1. reflexivity.
  - unfold v4_set_offset. rewrite (Hw 6 (enc16 v)); [|intros h Hh; apply write_u16_ok; exact Hh|cbn; lia].
    rewrite <- (word_split v Ho) at 1. reflexivity.
  - unfold v4_set_ttl. rewrite (Hw 8 [v]); [reflexivity| |cbn; lia]. intros h Hh. cbn in Hh. apply set_index_ok. lia.
  - unfold v4_set_source. rewrite (Hw 12 (octets v)); [reflexivity| |cbn; lia]. intros h Hh. cbn in Hh. apply copy_range_ok; [reflexivity|lia].
  - unfold v4_set_destination. rewrite (Hw 16 (octets v)); [reflexivity| |cbn; lia]. intros h Hh. cbn in Hh. apply copy_range_ok; [reflexivity|lia].
  - unfold v4_set_protocol. rewrite (Hw 9 [ip_protocol_into v]); [reflexivity| |cbn; lia]. intros h Hh. cbn in Hh. apply set_index_ok. lia.
Qed.
Lemma v4_wire_parts p : v4_packet_ok p -> takeN (vf_ihl (vp_header p) * 4) (v4_bytes p) = v4_wire (vp_header p) ++ vp_options p.
Proof.
  intros (_ & _ & Hi & _). rewrite Hi. unfold v4_bytes. rewrite (app_assoc (v4_wire _)).
  replace (20 + len (vp_options p)) with (len (v4_wire (vp_header p) ++ vp_options p)) by (rewrite len_app, v4_wire_len; reflexivity).
  apply takeN_app_len.
Qed.
Lemma v4_store_step v p : v4_packet_ok p -> v4_set_checksum v (v4_bytes p) = (v4_bytes (with_header p (v4_summed v (vp_header p))), Ok tt).
Proof.
  intros Hp. rewrite v4_set_checksum_ok; [reflexivity|apply v4_no_payload_bytes; exact Hp|].
  rewrite v4_ihl_bytes by exact Hp. destruct Hp as (_ & _ & Hi & _). lia.
Qed.
Lemma v4_update_step E p : v4_packet_ok p ->
  v4_update_checksum E (v4_bytes p) = (v4_bytes (with_header p (v4_sum (vp_options p) (vp_header p))), Ok tt).
Proof.
  intros Hp. pose proof (v4_ihl_bytes p Hp) as Hi. pose proof (v4_is_bytes p Hp) as Hb. pose proof (v4_wire_parts p Hp) as Hw.
  pose proof (proj1 (proj2 (proj2 Hp))) as Hl.
  unfold v4_update_checksum, mlet.
  assert (Hh : v4_header (v4_bytes p) = Ok (v4_wire (vp_header p) ++ vp_options p)).
  { destruct Hp as (Hf & Hv & Hi' & Ht & _). apply (c09_v4_parts (vp_header p) (vp_options p) (vp_payload p) (vp_behind p) Hf Hv Hi' Ht). }
  rewrite Hh. cbn [bind].
  assert (Hs : zero_field 10 (v4_wire (vp_header p) ++ vp_options p) = v4_wire (v4_summed 0 (vp_header p)) ++ vp_options p).
  { rewrite zero_patch by (rewrite len_app, v4_wire_len; lia). reflexivity. }
  rewrite c20_v4_checksum_rfc.
  - rewrite Hs. apply v4_store_step, Hp.
  - rewrite <- Hw. apply is_bytes_takeN, Hb.
  - rewrite len_app, v4_wire_len. lia.
  - pose proof (v4_header_sum (v4_bytes p)) as Q. rewrite Hi, Hw, v4_len in Q.
    assert (H0 : nthN (v4_bytes p) 0 = vf_version (vp_header p) * 16 + vf_ihl (vp_header p)) by reflexivity. lia.
Qed.
Lemma v4_assigns_step E ops p drop : v4_packet_ok p -> Forall v4_setter_ok ops ->
  let p' := with_header p (assigns v4_assign ops (vp_header p)) in
  v4_packet_ok p' /\ (drop = v4_update_checksum E ->
  run_guard v4_apply drop ops (v4_bytes p) = (v4_bytes (with_header p' (v4_sum (vp_options p') (vp_header p'))), Ok tt)).
Proof.
  intros Hp Hok.
  set (put := fun o (p : v4_packet) => (with_header p (fst (v4_assign o (vp_header p))), snd (v4_assign o (vp_header p)))).
  assert (Hput : forall ops p, assigns put ops p = with_header p (assigns v4_assign ops (vp_header p))).
  { clear. unfold assigns. induction ops as [|o ops IH]; intros p; [destruct p; reflexivity|]. cbn [fold_left]. rewrite IH. reflexivity. }
  assert (Hstep : forall o p, v4_packet_ok p -> v4_setter_ok o ->
    v4_apply o (v4_bytes p) = (v4_bytes (fst (put o p)), snd (put o p)) /\ snd (put o p) <> Panic /\ v4_packet_ok (fst (put o p))).
  { clear. intros o p Hp Ho. split; [apply v4_assign_step; assumption|]. split; [|apply v4_assign_ok; assumption].
    unfold put. cbn [snd]. destruct o; cbn [v4_assign snd]; try discriminate; destruct (_ <? _); discriminate. }
  cbv zeta. rewrite <- Hput.
  destruct (guard_sim v4_apply drop put v4_bytes v4_packet_ok v4_setter_ok Hstep ops p Hp Hok) as [G1 G2].
  split; [exact G1|]. intros ->. rewrite G2, v4_update_step by exact G1. reflexivity.
Qed.
Lemma with_header_len p f : len (v4_bytes (with_header p f)) = len (v4_bytes p).
Proof. rewrite !v4_len. reflexivity. Qed.
Lemma v4_summed_ok v p : u16 v -> v4_packet_ok p -> v4_packet_ok (with_header p (v4_summed v (vp_header p))).
Proof.
  intros Hv ((A & B & C & D & F & G & H & I & J & K & L & M) & X). split; [|exact X]. repeat split; assumption.
Qed.
Lemma v4_step E a p : v4_packet_ok p -> v4_action_ok a ->
  snd (v4_act E a (v4_bytes p)) = snd (v4_do a p) /\
  (snd (v4_do a p) <> Panic ->
   fst (v4_act E a (v4_bytes p)) = v4_bytes (fst (v4_do a p)) /\ v4_packet_ok (fst (v4_do a p)) /\
   len (v4_bytes (fst (v4_do a p))) = len (v4_bytes p)).
Proof.
  intros Hp Ha. destruct a as [o|ops|new|[v|]]; cbn [v4_act v4_do].
  - rewrite v4_assign_step by assumption. pose proof (v4_assign_ok o p Hp Ha) as Q.
    destruct (v4_assign o (vp_header p)) as [f r]. cbn [fst snd] in *.
    split; [reflexivity|]. intros _. split; [reflexivity|]. split; [exact Q|apply with_header_len].
  - destruct (v4_assigns_step E ops p (v4_update_checksum E) Hp Ha) as [G1 G2]. unfold v4_checked. rewrite (G2 eq_refl). cbn [fst snd].
    split; [reflexivity|]. intros _. split; [reflexivity|]. split; [|rewrite !v4_len; reflexivity].
    apply (v4_summed_ok _ _ (inet_checksum_u16 _) G1).
  - assert (Hs : v4_split_mut ((v4_wire (vp_header p) ++ vp_options p) ++ vp_payload p ++ vp_behind p) =
      Ok (Span 0 (len (v4_wire (vp_header p) ++ vp_options p)), Span (len (v4_wire (vp_header p) ++ vp_options p)) (len (vp_payload p)))).
    { rewrite <- app_assoc. fold (v4_bytes p). pose proof (v4_ihl_bytes p Hp) as Hi. pose proof (proj1 (proj2 (proj2 Hp))) as Hl.
      pose proof (proj1 (proj2 (proj2 (proj2 Hp)))) as Ht.
      pose proof (c49_v4 (v4_bytes p) (v4_new_bytes p Hp) ltac:(lia)) as Q. cbv zeta in Q. destruct Q as (Q & _). rewrite Q.
      assert (Hw : wire16 (v4_bytes p) 2 = vf_total (vp_header p)).
      { change (wire16 (v4_bytes p) 2) with (vf_total (vp_header p) / 256 * 256 + vf_total (vp_header p) mod 256). lia. }
      rewrite Hw, Hi, len_app, v4_wire_len, Hl, Ht. do 2 f_equal; f_equal; lia. }
    unfold v4_bytes. rewrite !(app_assoc (v4_wire _)). rewrite (fill_ok _ _ _ _ new Hs).
    destruct (N.eqb_spec (len new) (len (vp_payload p))) as [e|n]; cbn [fst snd].
    + split; [reflexivity|]. intros _. split; [reflexivity|]. split.
      * destruct Hp as (H1 & H2 & H3 & H4 & H5 & H6 & H7). split; [exact H1|]. split; [exact H2|]. split; [exact H3|].
        cbn [vp_header vp_options vp_payload vp_behind]. split; [rewrite e; exact H4|]. split; [exact H5|]. split; [exact Ha|exact H7].
      * cbn [vp_header vp_options vp_payload vp_behind]. rewrite !len_app. lia.
    + split; [reflexivity|congruence].
  - rewrite v4_store_step by exact Hp. cbn [fst snd]. split; [reflexivity|]. intros _. split; [reflexivity|].
    split; [apply v4_summed_ok; assumption|apply with_header_len].
  - rewrite v4_update_step by exact Hp. cbn [fst snd]. split; [reflexivity|]. intros _. split; [reflexivity|].
    split; [apply v4_summed_ok; [apply inet_checksum_u16|exact Hp]|apply with_header_len].
Qed.

(** ** C71, one layer *)
(** C71: a UDP packet.  Each action comes with the IPv4 packet the checksum is
    taken under. *)
Lemma c71_udp : forall E (l : list (bytes * action udp_setter checksum_call)) u, udp_packet_ok u ->
  Forall (fun '(p, a) => is_bytes p /\ 20 <= len p /\ udp_action_ok a) l ->
  len (udp_bytes u) mod 2 = 0 \/ cursor_eof E = EofKeep ->
  let (rs, last) := history (fun '(p, a) => udp_do (wire_addr p 12) (wire_addr p 16) a) l u in
  history (fun '(p, a) => udp_act E (V4 p) a) l (udp_bytes u) = (rs, option_map udp_bytes last) /\
  forall u', last = Some u' -> udp_packet_ok u' /\ len (udp_bytes u') = len (udp_bytes u).
Proof.
  intros E l u Hu Hl Hc.
  pose proof (history_sim (fun '(p, a) => udp_act E (V4 p) a) (fun '(p, a) => udp_do (wire_addr p 12) (wire_addr p 16) a) udp_bytes
    (fun x => udp_packet_ok x /\ len (udp_bytes x) = len (udp_bytes u)) (fun '(p, a) _ => is_bytes p /\ 20 <= len p /\ udp_action_ok a)) as Q.
  specialize (Q ltac:(intros [p a] s [H1 H2] (H3 & H4 & H5);
    destruct (udp_step E p a s H3 H4 H1 H5 ltac:(rewrite H2; exact Hc)) as [G1 G2]; split; [exact G1|]; intros H; destruct (G2 H) as (G3 & G4 & G5);
    split; [exact G3|]; split; [exact G4|exact (eq_trans G5 H2)])).
  specialize (Q l u (conj Hu eq_refl)).
  destruct (history (fun '(p, a) => udp_do _ _ a) l u) as [rs last]. apply Q.
  clear -Hl. revert u. induction Hl as [|[p a] l H Hl IH]; intros u; cbn [allowed]; [exact Logic.I|split; [exact H|intros _; apply IH]].
Qed.
(** C71: a TCP segment. *)
Lemma c71_tcp : forall E (l : list (bytes * action tcp_setter checksum_call)) t, tcp_packet_ok t ->
  let do := fun '(p, a) => tcp_do (wire_addr p 12) (wire_addr p 16) a in
  allowed (fun '(p, a) t => is_bytes p /\ 20 <= len p /\ tcp_action_ok a t) do l t ->
  len (tcp_bytes t) <= 131065 -> len (tcp_bytes t) mod 2 = 0 \/ cursor_eof E = EofKeep ->
  let (rs, last) := history do l t in
  history (fun '(p, a) => tcp_act E (V4 p) a) l (tcp_bytes t) = (rs, option_map tcp_bytes last) /\
  forall t', last = Some t' -> tcp_packet_ok t' /\ len (tcp_bytes t') = len (tcp_bytes t).
Proof.
  intros E l t Ht do Hl Hm Hc.
  pose proof (history_sim (fun '(p, a) => tcp_act E (V4 p) a) do tcp_bytes
    (fun x => tcp_packet_ok x /\ len (tcp_bytes x) = len (tcp_bytes t)) (fun '(p, a) t => is_bytes p /\ 20 <= len p /\ tcp_action_ok a t)) as Q.
  specialize (Q ltac:(intros [p a] s [H1 H2] (H3 & H4 & H5);
    destruct (tcp_step E p a s H3 H4 H1 H5 ltac:(lia) ltac:(rewrite H2; exact Hc)) as [G1 G2]; split; [exact G1|]; intros H; destruct (G2 H) as (G3 & G4 & G5);
    split; [exact G3|]; split; [exact G4|exact (eq_trans G5 H2)])).
  specialize (Q l t (conj Ht eq_refl)).
  destruct (history do l t) as [rs last]. apply Q. exact Hl.
Qed.
(** C71: an ICMP echo packet. *)
Lemma c71_echo : forall E (l : list (action echo_setter Empty_set)) c, echo_packet_ok c -> Forall echo_action_ok l ->
  len (echo_bytes c) <= ISIZE_MAX ->
  let (rs, last) := history echo_do l c in
  history (echo_act E) l (echo_bytes c) = (rs, option_map echo_bytes last) /\
  forall c', last = Some c' -> echo_packet_ok c' /\ len (echo_bytes c') = len (echo_bytes c).
Proof.
  intros E l c Hu Hl Hc.
  pose proof (history_sim (echo_act E) echo_do echo_bytes
    (fun x => echo_packet_ok x /\ len (echo_bytes x) = len (echo_bytes c)) (fun a _ => echo_action_ok a)) as Q.
  specialize (Q ltac:(intros a s [H1 H2] H5;
    destruct (echo_step E a s H1 H5 ltac:(rewrite H2; exact Hc)) as [G1 G2]; split; [exact G1|]; intros H; destruct (G2 H) as (G3 & G4 & G5);
    split; [exact G3|]; split; [exact G4|exact (eq_trans G5 H2)])).
  specialize (Q l c (conj Hu eq_refl)).
  destruct (history echo_do l c) as [rs last]. apply Q.
  clear -Hl. revert c. induction Hl as [|a l H Hl IH]; intros u; cbn [allowed]; [exact Logic.I|split; [exact H|intros _; apply IH]].
Qed.
(** C71: an IPv4 packet. *)
Lemma c71_v4 : forall E (l : list (action v4_setter checksum_call)) p, v4_packet_ok p -> Forall v4_action_ok l ->
  let (rs, last) := history v4_do l p in
  history (v4_act E) l (v4_bytes p) = (rs, option_map v4_bytes last) /\
  forall p', last = Some p' -> v4_packet_ok p' /\ len (v4_bytes p') = len (v4_bytes p).
Proof.
  intros E l c Hu Hl.
  pose proof (history_sim (v4_act E) v4_do v4_bytes
    (fun x => v4_packet_ok x /\ len (v4_bytes x) = len (v4_bytes c)) (fun a _ => v4_action_ok a)) as Q.
  specialize (Q ltac:(intros a s [H1 H2] H5;
    destruct (v4_step E a s H1 H5) as [G1 G2]; split; [exact G1|]; intros H; destruct (G2 H) as (G3 & G4 & G5);
    split; [exact G3|]; split; [exact G4|exact (eq_trans G5 H2)])).
  specialize (Q l c (conj Hu eq_refl)).
  destruct (history v4_do l c) as [rs last]. apply Q.
  clear -Hl. revert c. induction Hl as [|a l H Hl IH]; intros u; cbn [allowed]; [exact Logic.I|split; [exact H|intros _; apply IH]].
Qed.
