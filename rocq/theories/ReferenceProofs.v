(** * ReferenceProofs: every builder program does what the reference says (C65). *)
From Verif Require Import Base Enums Buffer Ether Ipv4 Ip Udp Tcp Icmp Builders Spec SpecCalls SpecBuild SpecProfile SpecShift SpecReference
  Lemmas ParseProofs SliceProofs AccessProofs FieldProofs ChecksumLemmas ChecksumProofs GuardProofs BufferProofs BuildLemmas FinalLemmas ChainLemmas ReadLemmas BuilderProofs MisuseProofs SliceBuildProofs.
From Coq Require Import ZifyBool ZifyNat ZifyN.
Ltac Zify.zify_post_hook ::= Z.div_mod_to_equations.

Definition some {A} (p : option A) : bool := match p with Some _ => true | None => false end.
Definition eth_part (e : option ether_fields) : bytes := match e with Some f => ether_wire f | None => [] end.
Definition eth_fins (E : env) (e : option ether_fields) : finalization := match e with Some _ => [ether_ip_finalizer E 0 14] | None => [] end.
Definition ip_part (proto : ip_protocol) (a : option around) : bytes :=
  match a with Some (e, f) => eth_part e ++ v4_wire (v4_put f (V4SetProtocol proto)) | None => [] end.
Definition ip_fins (E : env) (a : option around) : finalization :=
  match a with Some (e, _) => eth_fins E e ++ [v4_finalizer E (len (eth_part e)) 20] | None => [] end.
Definition ip_place (a : option around) : N * N := match a with Some (e, _) => (len (eth_part e), 20) | None => (0, 0) end.
Definition size (d : draft) : N :=
  match d with
  | DraftEther f p => 14 + len (given p)
  | DraftIp e | DraftV6 e => len (eth_part e)
  | DraftV4 e f p => len (eth_part e) + 20 + len (given p)
  | DraftUdp a f p => len (ip_part IP_Udp a) + 8 + len (given p)
  | DraftTcp a f fl p => len (ip_part IP_Tcp a) + 20 + len (given p)
  | DraftIcmp a => len (ip_part IP_Icmp a)
  | DraftEcho a f k p => len (ip_part IP_Icmp a) + 8 + len (given p)
  | DraftInformation a f k => len (ip_part IP_Icmp a) + 8
  | DraftTimestamp a f k => len (ip_part IP_Icmp a) + 20
  end.
(** The builder a draft stands for. *)
Definition image (R : option bytes) (E : env) (d : draft) : builder :=
  let r := use R (size d) in
  match d with
  | DraftEther f p => B r [] (ether_wire f ++ given p) [] (0, 0) false (some p) 0
  | DraftIp e | DraftV6 e => B r [] (eth_part e) (eth_fins E e) (0, 0) false false 0
  | DraftV4 e f p => B r (eth_part e) (v4_wire f ++ given p) (eth_fins E e) (0, 0) false (some p) 0
  | DraftUdp a f p => B r (ip_part IP_Udp a) (udp_wire f ++ given p) (ip_fins E a) (ip_place a) false (some p) 0
  | DraftTcp a f fl p => B r (ip_part IP_Tcp a) (tcp_wire (if fl then tcp_fill f 0 0 else f) ++ given p) (ip_fins E a) (ip_place a) false (some p) (len (given p))
  | DraftIcmp None => B r [] [] [] (0, 0) false false 0
  | DraftIcmp (Some (e, f)) => B r (eth_part e) (v4_wire (v4_put f (V4SetProtocol IP_Icmp))) (ip_fins E (Some (e, f))) (0, 0) false false 0
  | DraftEcho a f k p => B r (ip_part IP_Icmp a) (ident_of f ++ given p) (ip_fins E a) (0, 0) k (some p) 0
  | DraftInformation a f k => B r (ip_part IP_Icmp a) (ident_of f ++ []) (ip_fins E a) (0, 0) k false 0
  | DraftTimestamp a f k => B r (ip_part IP_Icmp a) (timestamp_of f ++ []) (ip_fins E a) (0, 0) k false 0
  end.
Definition agood (a : option around) : Prop := match a with Some (_, f) => v4_building f | None => True end.
Definition good (d : draft) : Prop :=
  match d with
  | DraftEther f p => is_bytes (given p)
  | DraftIp e | DraftV6 e => True
  | DraftV4 e f p => v4_building f /\ is_bytes (given p)
  | DraftUdp a f p => agood a /\ udp_fields_ok f /\ is_bytes (given p)
  | DraftTcp a f fl p => agood a /\ tcp_building f /\ tf_reserved f = 0 /\ tf_checksum f = 0 /\ is_bytes (given p) /\ len (given p) <= 131045
  | DraftIcmp a => agood a
  | DraftEcho a (t, i, s) _ p => agood a /\ u8 t /\ u16 i /\ u16 s /\ is_bytes (given p)
  | DraftInformation a (t, i, s) _ => agood a /\ u8 t /\ u16 i /\ u16 s
  | DraftTimestamp a (t, i, s, x, y, z) _ => agood a /\ u8 t /\ u16 i /\ u16 s /\ u32 x /\ u32 y /\ u32 z
  end.
Definition ty_of (d : draft) : ty :=
  match d with
  | DraftEther _ _ => TyEther | DraftIp _ => TyIp | DraftV6 _ => TyV6 | DraftV4 _ _ _ => TyV4 | DraftUdp _ _ _ => TyUdp | DraftTcp _ _ _ _ => TyTcp
  | DraftIcmp _ => TyIcmp | DraftEcho _ _ _ _ => TyEcho | DraftInformation _ _ _ => TyInformation | DraftTimestamp _ _ _ => TyTimestamp
  end.
Lemma len_ip_part proto a : len (ip_part proto a) = match a with Some (e, _) => len (eth_part e) + 20 | None => 0 end.
Proof. destruct a as [[e f]|]; [|reflexivity]. cbn [ip_part]. rewrite len_app, len_v4_wire. reflexivity. Qed.
Lemma imax {E : env} : 1000 <= ISIZE_MAX. Proof. widths; lia. Qed.
Definition mem_ok {E : env} (R : option bytes) : Prop := match R with None => True | Some s => len s <= ISIZE_MAX end.
Lemma sized_R {E : env} R n pre cur : mem_ok R -> fits R n -> n <= ISIZE_MAX -> len pre + len cur = n -> sized (use R n) pre cur.
Proof. unfold sized. intros HR Hf Hn Hl. destruct R as [s|]; cbn [use option_map free mem_ok fits] in *; [rewrite len_dropN|]; lia. Qed.
Lemma size_eq d : size d = draft_size d.
Proof. destruct d; cbn [size draft_size]; rewrite ?len_ip_part; try (destruct a as [[[] ]|]; reflexivity); try (destruct e; reflexivity); reflexivity. Qed.
Definition room (R : option bytes) (d : draft) : res draft := match R with None => Ok d | Some s => fitting (len s) d end.
Lemma room_fits R d : fits R (size d) -> room R d = Ok d.
Proof. rewrite size_eq. destruct R as [s|]; [|reflexivity]. cbn [fits room]. unfold fitting. intros H. destruct (N.leb_spec (draft_size d) (len s)); [reflexivity|lia]. Qed.
Lemma room_full s d : len s < size d -> room (Some s) d = Err SmallBuffer.
Proof. rewrite size_eq. cbn [room]. unfold fitting. intros H. destruct (N.leb_spec (draft_size d) (len s)); [lia|reflexivity]. Qed.
Lemma use_pay R n (q : bytes) : R = None \/ q = [] -> use R (n + len q) = use R n.
Proof. intros [-> | ->]; [reflexivity|]. rewrite len_nil, N.add_0_r. reflexivity. Qed.
Lemma fits_pay R n (q : bytes) : R = None \/ q = [] -> fits R n -> fits R (n + len q).
Proof. intros [-> | ->]; [intros; exact I|]. rewrite len_nil, N.add_0_r. trivial. Qed.
Lemma use_none R n (q : bytes) : R = None \/ q = [] -> use R n = None \/ q = [].
Proof. intros [-> | ->]; [left; reflexivity|right; reflexivity]. Qed.
Ltac lens := rewrite ?len_app, ?len_ip_part, ?len_ether_wire, ?len_v4_wire, ?len_udp_wire, ?len_tcp_wire, ?len_ident_of, ?len_timestamp_of, ?len_nil.
Ltac szr := apply sized_R; [assumption|assumption|assumption|cbn [size given]; lens; lia].

(** What a step shows. *)
Definition steps (R : option bytes) (E : env) (n : N) (t : ty) (x : res draft) (y : res builder) : Prop :=
  match x with
  | Ok d => y = (let* d := room R d in Ok (image R E d)) /\ good d /\ size d = n /\ ty_of d = t
  | Err e => y = Err e
  | Panic => y = Panic
  end.
(** A step that needs no room. *)
Lemma same_room R E d d' y : fits R (size d) -> size d' = size d -> y = Ok (image R E d') -> y = (let* d := room R d' in Ok (image R E d)).
Proof. intros Hf Hs ->. rewrite room_fits by (rewrite Hs; exact Hf). reflexivity. Qed.
(** A step that needs [n] bytes. *)
Lemma more_room R E n m d' y : mem_ok R -> fits R n -> n + m <= ISIZE_MAX -> size d' = n + m ->
  (fits (use R n) m -> y = Ok (image R E d')) -> (forall rest, use R n = Some rest -> len rest < m -> y = Err SmallBuffer) ->
  y = (let* d := room R d' in Ok (image R E d)).
Proof.
  intros HR Hf Hl Hs H1 H2. destruct R as [s|].
  - cbn [fits use option_map] in *. destruct (N.leb_spec (n + m) (len s)) as [H|H].
    + rewrite H1 by (rewrite len_dropN; lia). rewrite room_fits by (cbn [fits]; lia). reflexivity.
    + rewrite (H2 _ eq_refl) by (rewrite len_dropN; lia). rewrite room_full by lia. reflexivity.
  - rewrite H1 by exact I. reflexivity.
Qed.
Lemma small_next E rest pre cur n : sized (Some rest) pre cur -> len rest < n -> n <= ISIZE_MAX ->
  try_buf (buf_next E n (mkbuf (Some rest) pre cur)) = Err SmallBuffer.
Proof. intros. rewrite mk_next_small by assumption. reflexivity. Qed.
Lemma use_0 R : use R 0 = R. Proof. destruct R; reflexivity. Qed.
Lemma fits_0 R : fits R 0. Proof. destruct R; cbn [fits]; [lia|exact I]. Qed.
Lemma open_image R E o : mem_ok R -> steps R E (header_of (opened o)) (opened o) (Ok (draft_open o)) (open E o (mkbuf R [] [])).
Proof.
  intros HR. pose proof imax as HM. cbn [steps]. 
  assert (HZ : sized R [] []) by (rewrite <- (use_0 R); apply sized_R; [exact HR|apply fits_0|lia|reflexivity]).
  assert (HS : forall n rest, use R 0 = Some rest -> len rest < n -> n <= 1000 -> try_buf (buf_next E n (mkbuf R [] [])) = Err SmallBuffer).
  { intros n rest H1 H2 H3. rewrite use_0 in H1. subst R. apply small_next; [exact HZ|exact H2|lia]. }
  destruct o; cbn [draft_open open opened header_of ty_of]; (split; [|split; [|split; reflexivity]]).
  - apply (more_room R E 0 14); [exact HR|apply fits_0|lia|reflexivity| |].
    + rewrite use_0. intros Hf. rewrite ether_with_ok by (assumption || (rewrite len_nil; lia)). reflexivity.
    + intros rest H1 H2. unfold ether_with. change ether_header_min with 14. rewrite (HS 14 rest) by (assumption || lia). reflexivity.
  - constructor.
  - rewrite room_fits by apply fits_0. cbn [image bind]. change (size (DraftIp None)) with 0. rewrite use_0. reflexivity.
  - exact I.
  - apply (more_room R E 0 20); [exact HR|apply fits_0|lia|reflexivity| |].
    + rewrite use_0. intros Hf. rewrite v4_with_ok by (assumption || (rewrite len_nil; lia)). reflexivity.
    + intros rest H1 H2. unfold v4_with. change v4_header_min with 20. rewrite (HS 20 rest) by (assumption || lia). reflexivity.
  - split; [apply v4_zero_building|constructor].
  - rewrite room_fits by apply fits_0. cbn [image bind]. change (size (DraftV6 None)) with 0. rewrite use_0. reflexivity.
  - exact I.
  - apply (more_room R E 0 8); [exact HR|apply fits_0|lia|reflexivity| |].
    + rewrite use_0. intros Hf. rewrite udp_with_ok by (assumption || (rewrite len_nil; lia)). reflexivity.
    + intros rest H1 H2. unfold udp_with. change udp_header_min with 8. rewrite (HS 8 rest) by (assumption || lia). reflexivity.
  - split; [exact I|]. split; [repeat split|constructor].
  - apply (more_room R E 0 20); [exact HR|apply fits_0|lia|reflexivity| |].
    + rewrite use_0. intros Hf. rewrite tcp_with_ok by (assumption || (rewrite len_nil; lia)). reflexivity.
    + intros rest H1 H2. unfold tcp_with. change tcp_header_min with 20. rewrite (HS 20 rest) by (assumption || lia). reflexivity.
  - split; [exact I|]. split; [apply tcp_zero_building|]. split; [reflexivity|]. split; [reflexivity|]. split; [constructor|vm_compute; discriminate].
  - rewrite room_fits by apply fits_0. cbn [image bind]. change (size (DraftIcmp None)) with 0. rewrite use_0. reflexivity.
  - exact I.
  - apply (more_room R E 0 8); [exact HR|apply fits_0|lia|reflexivity| |].
    + rewrite use_0. intros Hf. unfold echo_with. rewrite mk_next by (assumption || (rewrite len_nil; lia)). reflexivity.
    + intros rest H1 H2. unfold echo_with. rewrite (HS 8 rest) by (assumption || lia). reflexivity.
  - split; [exact I|]. repeat split. constructor.
  - apply (more_room R E 0 8); [exact HR|apply fits_0|lia|reflexivity| |].
    + rewrite use_0. intros Hf. unfold information_with. rewrite mk_next by (assumption || (rewrite len_nil; lia)). reflexivity.
    + intros rest H1 H2. unfold information_with. rewrite (HS 8 rest) by (assumption || lia). reflexivity.
  - split; [exact I|]. repeat split.
  - apply (more_room R E 0 20); [exact HR|apply fits_0|lia|reflexivity| |].
    + rewrite use_0. intros Hf. unfold timestamp_with. rewrite mk_next by (assumption || (rewrite len_nil; lia)). reflexivity.
    + intros rest H1 H2. unfold timestamp_with. rewrite (HS 20 rest) by (assumption || lia). reflexivity.
  - split; [exact I|]. repeat split.
Qed.
Lemma call_ether R E f p o : mem_ok R -> R = None \/ no_payload (CallEther o) -> is_bytes (given p) -> ether_op_ok o ->
  fits R (size (DraftEther f p)) -> size (DraftEther f p) + adds (CallEther o) <= ISIZE_MAX ->
  steps R E (size (DraftEther f p) + adds (CallEther o)) TyEther (draft_call (CallEther o) (DraftEther f p)) (ether_run1 E o (image R E (DraftEther f p))).
Proof.
  intros HR Hnp Hp Ho Hf HM. assert (HM' : size (DraftEther f p) <= ISIZE_MAX) by lia. destruct (ether_pay o) as [|q l] eqn:Hq.
  - assert (Hd : draft_call (CallEther o) (DraftEther f p) = Ok (DraftEther (ether_put f o) p)) by (destruct o; try reflexivity; discriminate Hq).
    assert (Ha : adds (CallEther o) = 0) by (destruct o; try reflexivity; discriminate Hq). rewrite Ha, N.add_0_r. rewrite Hd. cbn [steps].
    split; [|split; [exact Hp|split; reflexivity]]. apply (same_room R E (DraftEther f p)); [exact Hf|reflexivity|].
    unfold image. cbv zeta. rewrite ether_step; [rewrite orb_false_r; reflexivity|exact I|exact Hq|exact Hp|szr].
  - destruct o as [v|v|v|q0]; try discriminate Hq. cbn [draft_call no_payload] in *. change (adds (CallEther (EtherPayload q0))) with (len q0) in *.
    destruct p as [p0|]; cbn [pay_once steps]; [apply add_payload_again|].
    assert (Hz : size (DraftEther f (Some q0)) = size (DraftEther f None) + len q0) by (cbn [size given]; lens; lia).
    split; [|split; [exact Ho|split; [exact Hz|reflexivity]]].
    rewrite room_fits by (rewrite Hz; apply fits_pay; assumption). cbn [bind]. unfold image. cbv zeta. rewrite Hz, use_pay by exact Hnp. cbn [given some].
    rewrite (ether_step_pay E f (EtherPayload q0) _ [] [] [] (0,0) false 0 q0);
      [reflexivity|exact I|reflexivity|szr|cbn [size given] in HM; lens; rewrite len_nil in HM; lia|lia|apply use_none, Hnp].
Qed.
Lemma v4_arg_of s : v4_setter_ok s -> v4_refuses s = false -> v4_arg_ok s.
Proof. intros H Hr. split; [exact H|]. destruct s; cbn [v4_refuses] in Hr; try exact I; lia. Qed.
Lemma v4_refused s b : v4_refuses s = true -> v4_apply s b = (b, Err InvalidValue).
Proof.
  intros H. destruct s; try discriminate H; cbn [v4_refuses] in H; cbn [v4_apply]; [unfold v4_set_dscp|unfold v4_set_ecn]; rewrite H; reflexivity.
Qed.
Lemma call_v4 R E e f p o : mem_ok R -> R = None \/ no_payload (CallV4 o) -> v4_building f -> is_bytes (given p) -> ordinary (CallV4 o) ->
  fits R (size (DraftV4 e f p)) -> size (DraftV4 e f p) + adds (CallV4 o) <= ISIZE_MAX ->
  steps R E (size (DraftV4 e f p) + adds (CallV4 o)) TyV4 (draft_call (CallV4 o) (DraftV4 e f p)) (v4_run1 E o (image R E (DraftV4 e f p))).
Proof.
  intros HR Hnp Hb Hp Ho Hf HM. assert (HM' : size (DraftV4 e f p) <= ISIZE_MAX) by lia. destruct o as [s|q].
  - cbn [draft_call]. change (adds (CallV4 (V4Set s))) with 0 in *. rewrite N.add_0_r. cbn [ordinary] in Ho. destruct (v4_refuses s) eqn:Hr.
    + cbn [steps v4_run1]. unfold image. cbv zeta. eapply edit_err; [szr|apply v4_refused, Hr|reflexivity].
    + cbn [steps]. pose proof (v4_arg_of s Ho Hr) as Ha. split; [|split; [split; [apply v4_put_building; assumption|exact Hp]|split; reflexivity]].
      apply (same_room R E (DraftV4 e f p)); [exact Hf|reflexivity|].
      unfold image. cbv zeta. rewrite (v4_step E f (V4Set s)); [rewrite orb_false_r; reflexivity|split; assumption|reflexivity|exact Hp|szr].
  - cbn [draft_call no_payload ordinary] in *. change (adds (CallV4 (V4Payload q))) with (len q) in *.
    destruct p as [p0|]; cbn [pay_once steps]; [apply add_payload_again|].
    assert (Hz : size (DraftV4 e f (Some q)) = size (DraftV4 e f None) + len q) by (cbn [size given]; lens; lia).
    split; [|split; [split; assumption|split; [exact Hz|reflexivity]]].
    rewrite room_fits by (rewrite Hz; apply fits_pay; assumption). cbn [bind]. unfold image. cbv zeta. rewrite Hz, use_pay by exact Hnp. cbn [given some].
    rewrite (v4_step_pay E f (V4Payload q) _ (eth_part e) [] _ (0,0) false 0 q);
      [reflexivity|split; [exact Hb|exact Ho]|reflexivity|szr|cbn [size given] in HM; lens; rewrite len_nil in HM; lia|lia|apply use_none, Hnp].
Qed.
Lemma call_udp R E a f p o : mem_ok R -> R = None \/ no_payload (CallUdp o) -> agood a -> udp_fields_ok f -> is_bytes (given p) -> udp_op_ok o ->
  fits R (size (DraftUdp a f p)) -> size (DraftUdp a f p) + adds (CallUdp o) <= ISIZE_MAX ->
  steps R E (size (DraftUdp a f p) + adds (CallUdp o)) TyUdp (draft_call (CallUdp o) (DraftUdp a f p)) (udp_run1 E o (image R E (DraftUdp a f p))).
Proof.
  intros HR Hnp Ha Hg Hp Ho Hf HM. assert (HM' : size (DraftUdp a f p) <= ISIZE_MAX) by lia. destruct o as [s|q].
  - cbn [draft_call]. change (adds (CallUdp (UdpSet s))) with 0 in *. rewrite N.add_0_r.
    cbn [steps]. split; [|split; [split; [exact Ha|split; [|exact Hp]]|split; reflexivity]].
    + apply (same_room R E (DraftUdp a f p)); [exact Hf|reflexivity|].
      unfold image. cbv zeta. rewrite (udp_step E f (UdpSet s)); [rewrite orb_false_r; reflexivity|exact I|reflexivity|exact Hp|szr].
    + destruct Hg as (F1 & F2 & F3 & F4). destruct s; repeat split; cbn in *; assumption.
  - cbn [draft_call no_payload] in *. change (adds (CallUdp (UdpPayload q))) with (len q) in *.
    destruct p as [p0|]; cbn [pay_once steps]; [apply add_payload_again|].
    assert (Hz : size (DraftUdp a f (Some q)) = size (DraftUdp a f None) + len q) by (cbn [size given]; lens; lia).
    split; [|split; [repeat split; assumption || apply Hg|split; [exact Hz|reflexivity]]].
    rewrite room_fits by (rewrite Hz; apply fits_pay; assumption). cbn [bind]. unfold image. cbv zeta. rewrite Hz, use_pay by exact Hnp. cbn [given some].
    rewrite (udp_step_pay E f (UdpPayload q) _ (ip_part IP_Udp a) [] _ (ip_place a) false 0 q);
      [reflexivity|exact I|reflexivity|szr|cbn [size given] in HM; lens; rewrite len_nil, len_ip_part in HM; lia|lia|apply use_none, Hnp].
Qed.
Lemma tcp_put_kept f s : tf_reserved f = 0 -> tf_checksum f = 0 -> tf_reserved (tcp_put f s) = 0 /\ tf_checksum (tcp_put f s) = 0.
Proof. intros H1 H2. destruct f, s; split; assumption. Qed.
Lemma tcp_putop_fill f s : tcp_building f -> tf_reserved f = 0 -> tf_checksum f = 0 ->
  tcp_putop f (TcpSet s) = if tcp_sets_flags s then tcp_fill (tcp_put f s) 0 0 else tcp_put f s.
Proof.
  intros Hf H1 H2. destruct s; try reflexivity. destruct f as [src dst seq ack off rs fl win ck ptr]. cbn in H1, H2 |- *. subst. reflexivity.
Qed.
Lemma tcp_flags_byte f q : tcp_fields_ok f -> tf_reserved f = 0 -> nthN (tcp_wire (tcp_fill f 0 0) ++ q) 12 < 16.
Proof.
  intros Hf Hr. destruct Hf as (H1 & H2 & H3 & H4 & H5 & H6 & H7 & H8 & H9 & H10).
  destruct f as [src dst seq ack off rs fl win ck ptr]. cbn [tf_src tf_dst tf_seq tf_ack tf_offset tf_reserved tf_flags tf_window tf_checksum tf_pointer] in *.
  change (nthN (tcp_wire (tcp_fill (Build_tcp_fields src dst seq ack off rs fl win ck ptr) 0 0) ++ q) 12) with ((0 * 4096 + rs * 512 + fl) / 256). lia.
Qed.
Lemma call_tcp R E a f fl p o : mem_ok R -> R = None \/ no_payload (CallTcp o) -> good (DraftTcp a f fl p) -> ordinary (CallTcp o) ->
  fits R (size (DraftTcp a f fl p)) -> size (DraftTcp a f fl p) + adds (CallTcp o) <= ISIZE_MAX ->
  steps R E (size (DraftTcp a f fl p) + adds (CallTcp o)) TyTcp (draft_call (CallTcp o) (DraftTcp a f fl p)) (tcp_run1 E o (image R E (DraftTcp a f fl p))).
Proof.
  intros HR Hnp (Ha & Hb & Hr & Hc & Hp & Hpl) [Ho Hol] Hf HM. assert (HM' : size (DraftTcp a f fl p) <= ISIZE_MAX) by lia. destruct o as [s|q].
  - cbn [draft_call]. change (adds (CallTcp (TcpSet s))) with 0 in *. rewrite N.add_0_r. cbn [tcp_op_ok] in Ho. destruct fl.
    + assert (Hz : tcp_apply s (tcp_wire (tcp_fill f 0 0) ++ given p) = (tcp_wire (tcp_fill f 0 0) ++ given p, tcp_after_flags s)).
      { apply tcp_apply_zero; [rewrite len_app, len_tcp_wire; lia|apply tcp_flags_byte; [apply Hb|exact Hr]]. }
      destruct s; cbn [steps tcp_run1]; unfold image; cbv zeta; (eapply edit_panic || eapply edit_err); try exact Hz; try reflexivity; szr.
    + cbn [steps]. destruct (tcp_put_kept f s Hr Hc) as [Hr' Hc'].
      split; [|split; [repeat split; try assumption; apply tcp_put_building; assumption|split; reflexivity]].
      apply (same_room R E (DraftTcp a f false p)); [exact Hf|reflexivity|].
      unfold image. cbv zeta. rewrite (tcp_step E f (TcpSet s)); [|split; assumption|reflexivity|exact Hp|szr].
      rewrite orb_false_r, tcp_putop_fill by assumption. destruct (tcp_sets_flags s); reflexivity.
  - cbn [draft_call no_payload tcp_op_ok] in *. change (adds (CallTcp (TcpPayload q))) with (len q) in *.
    destruct p as [p0|]; cbn [pay_once steps]; [apply add_payload_again|].
    assert (Hz : size (DraftTcp a f fl (Some q)) = size (DraftTcp a f fl None) + len q) by (cbn [size given]; lens; lia).
    split; [|split; [repeat split; assumption || apply Hb|split; [exact Hz|reflexivity]]].
    rewrite room_fits by (rewrite Hz; apply fits_pay; assumption). cbn [bind]. unfold image. cbv zeta. rewrite Hz, use_pay by exact Hnp. cbn [given some].
    rewrite (tcp_step_pay E (if fl then tcp_fill f 0 0 else f) (TcpPayload q) _ (ip_part IP_Tcp a) [] _ (ip_place a) false (len []) q);
      [reflexivity|exact I|reflexivity|szr|cbn [size given] in HM; lens; rewrite len_nil, len_ip_part in HM; lia|rewrite len_nil; lia|apply use_none, Hnp].
Qed.
Lemma call_echo R E a f k p o : mem_ok R -> R = None \/ no_payload (CallEcho o) -> good (DraftEcho a f k p) -> echo_op_ok o ->
  fits R (size (DraftEcho a f k p)) -> size (DraftEcho a f k p) + adds (CallEcho o) <= ISIZE_MAX ->
  steps R E (size (DraftEcho a f k p) + adds (CallEcho o)) TyEcho (draft_call (CallEcho o) (DraftEcho a f k p)) (echo_run1 E o (image R E (DraftEcho a f k p))).
Proof.
  intros HR Hnp Hg Ho Hf HM. assert (HM' : size (DraftEcho a f k p) <= ISIZE_MAX) by lia. assert (Hp : is_bytes (given p)) by (destruct f as [[t i] s]; apply Hg). destruct (echo_pay o) as [|q l] eqn:Hq.
  - assert (Hd : draft_call (CallEcho o) (DraftEcho a f k p) = Ok (DraftEcho a (echo_put f o) (k || echo_sets_kind o) p)) by (destruct o; try reflexivity; discriminate Hq).
    assert (Hz : adds (CallEcho o) = 0) by (destruct o; try reflexivity; discriminate Hq). rewrite Hz, N.add_0_r. rewrite Hd. cbn [steps].
    split; [|split; [|split; reflexivity]].
    + apply (same_room R E (DraftEcho a f k p)); [exact Hf|reflexivity|]. unfold image. cbv zeta. rewrite echo_step; [reflexivity|exact I|exact Hq|exact Hp|szr].
    + clear - Hg Ho. destruct f as [[t i] s]. destruct Hg as (G1 & G2 & G3 & G4 & G5). destruct o; cbn in *; repeat split; assumption || reflexivity.
  - destruct o as [| | | |q0]; try discriminate Hq. cbn [draft_call no_payload] in *. change (adds (CallEcho (EchoPayload q0))) with (len q0) in *.
    destruct p as [p0|]; cbn [pay_once steps]; [apply add_payload_again|].
    assert (Hz : size (DraftEcho a f k (Some q0)) = size (DraftEcho a f k None) + len q0) by (cbn [size given]; lens; lia).
    split; [|split; [|split; [exact Hz|reflexivity]]].
    + rewrite room_fits by (rewrite Hz; apply fits_pay; assumption). cbn [bind]. unfold image. cbv zeta. rewrite Hz, use_pay by exact Hnp. cbn [given some].
      rewrite (echo_step_pay E f (EchoPayload q0) _ (ip_part IP_Icmp a) [] _ (0, 0) k 0 q0);
        [rewrite orb_false_r; destruct f as [[t i] s]; reflexivity|exact I|reflexivity|szr|cbn [size given] in HM; lens; rewrite len_nil, len_ip_part in HM; lia|lia|apply use_none, Hnp].
    + destruct f as [[t i] s]. destruct Hg as (G1 & G2 & G3 & G4 & G5). repeat split; assumption.
Qed.
Lemma call_information R E a f k o : mem_ok R -> good (DraftInformation a f k) -> information_op_ok o ->
  fits R (size (DraftInformation a f k)) -> size (DraftInformation a f k) <= ISIZE_MAX ->
  steps R E (size (DraftInformation a f k)) TyInformation (draft_call (CallInformation o) (DraftInformation a f k)) (information_run1 E o (image R E (DraftInformation a f k))).
Proof.
  intros HR Hg Ho Hf HM. cbn [draft_call steps].
  split; [|split; [|split; reflexivity]].
  - apply (same_room R E (DraftInformation a f k)); [exact Hf|reflexivity|]. unfold image. cbv zeta. rewrite information_step; [reflexivity|exact I|reflexivity|constructor|szr].
  - clear - Hg Ho. destruct f as [[t i] s]. destruct Hg as (G1 & G2 & G3 & G4). destruct o; cbn in *; repeat split; assumption || reflexivity.
Qed.
Lemma call_timestamp R E a f k o : mem_ok R -> good (DraftTimestamp a f k) -> timestamp_op_ok o ->
  fits R (size (DraftTimestamp a f k)) -> size (DraftTimestamp a f k) <= ISIZE_MAX ->
  steps R E (size (DraftTimestamp a f k)) TyTimestamp (draft_call (CallTimestamp o) (DraftTimestamp a f k)) (timestamp_run1 E o (image R E (DraftTimestamp a f k))).
Proof.
  intros HR Hg Ho Hf HM. cbn [draft_call steps].
  split; [|split; [|split; reflexivity]].
  - apply (same_room R E (DraftTimestamp a f k)); [exact Hf|reflexivity|]. unfold image. cbv zeta. rewrite timestamp_step; [reflexivity|exact I|reflexivity|constructor|szr].
  - clear - Hg Ho. destruct f as [[[[[t i] s] x] y] z]. destruct Hg as (G1 & G2 & G3 & G4 & G5 & G6 & G7). destruct o; cbn in *; repeat split; assumption || reflexivity.
Qed.
(** Inner layers. *)
Lemma v4_proto_building f v : v4_building f -> u8 (ip_protocol_into v) -> v4_building (v4_put f (V4SetProtocol v)).
Proof. intros H Hv. apply v4_put_building; [exact H|split; [exact Hv|exact I]]. Qed.
Lemma sub_err mk r pre cur fin ip k pl n e : mk (mkbuf r pre cur) = Err e -> sub mk (B r pre cur fin ip k pl n) = Err e.
Proof. intros H. unfold sub. change (b_buffer (B r pre cur fin ip k pl n)) with (mkbuf r pre cur). rewrite H. reflexivity. Qed.
Lemma v4_sub_err E proto mk r a f fs ip k n e : v4_building f -> u8 (ip_protocol_into proto) -> sized r a (v4_wire f) ->
  mk (mkbuf r a (v4_wire (v4_put f (V4SetProtocol proto)))) = Err e ->
  v4_sub E proto mk (B r a (v4_wire f) fs ip k false n) = Err e.
Proof.
  intros Hf Hp Hs Hm. unfold v4_sub. change (b_payload (B r a (v4_wire f) fs ip k false n)) with false. cbv iota.
  pose proof (v4_apply_wire f (V4SetProtocol proto) [] Hf (conj Hp I) ltac:(constructor)) as Ha. rewrite !app_nil_r in Ha.
  rewrite (edit_ok E r a (v4_wire f) (v4_set_protocol proto) (v4_wire (v4_put f (V4SetProtocol proto)))) by (exact Hs || exact Ha || reflexivity).
  cbn [bind]. apply sub_err. exact Hm.
Qed.
(** An inner layer of [m] bytes in IPv4. *)
Lemma call_inner R E e f proto mk m d' : mem_ok R -> v4_building f -> u8 (ip_protocol_into proto) -> size (DraftV4 e f None) + m <= ISIZE_MAX -> fits R (size (DraftV4 e f None)) ->
  size d' = size (DraftV4 e f None) + m ->
  (forall r pre cur, sized r pre cur -> fits r m -> len pre + len cur + m <= ISIZE_MAX -> len cur = 20 -> exists cur' ip', 
    mk (mkbuf r pre cur) = Ok (B (use r m) (pre ++ cur) cur' [] ip' false false 0) /\
    (r = use R (size (DraftV4 e f None)) -> pre = eth_part e -> cur = v4_wire (v4_put f (V4SetProtocol proto)) ->
     image R E d' = B (use r m) (pre ++ cur) cur' (eth_fins E e ++ [v4_finalizer E (len (eth_part e)) 20]) ip' false false 0)) ->
  (forall rest pre cur, sized (Some rest) pre cur -> len rest < m -> mk (mkbuf (Some rest) pre cur) = Err SmallBuffer) ->
  v4_sub E proto mk (image R E (DraftV4 e f None)) = (let* d := room R d' in Ok (image R E d)).
Proof.
  intros HR Hb Hpr HM Hf Hz H1 H2. assert (HM' : size (DraftV4 e f None) <= ISIZE_MAX) by lia.
  assert (HS : forall g, sized (use R (size (DraftV4 e f None))) (eth_part e) (v4_wire g)) by (intros g; szr).
  assert (Hl : len (eth_part e) + 20 = size (DraftV4 e f None)) by (cbn [size given]; lens; lia).
  unfold image at 1. cbv zeta. cbn [given some]. rewrite app_nil_r.
  apply (more_room R E (size (DraftV4 e f None)) m); [exact HR|exact Hf|exact HM|exact Hz| |].
  - intros Hfm. destruct (H1 (use R (size (DraftV4 e f None))) (eth_part e) (v4_wire (v4_put f (V4SetProtocol proto)))) as (cur' & ip' & G1 & G2);
      [apply HS|exact Hfm|rewrite len_v4_wire; lia|apply len_v4_wire|].
    rewrite (v4_sub_ok E proto mk _ _ f _ _ _ _ _ _ _ _ Hb Hpr (HS f) G1). rewrite G2 by reflexivity. reflexivity.
  - intros rest G1 G2. rewrite G1. apply v4_sub_err; [exact Hb|exact Hpr|rewrite <- G1; apply HS|]. apply H2; [rewrite <- G1; apply HS|exact G2].
Qed.
(** An ICMP message of [m] bytes. *)
Lemma call_kind R E a mk m d' : (forall buf, mk buf = let* buf := try_buf (buf_next E m buf) in Ok (fresh buf (0, 0))) -> m <= 20 ->
  mem_ok R -> size (DraftIcmp a) + m <= ISIZE_MAX -> fits R (size (DraftIcmp a)) -> size d' = size (DraftIcmp a) + m ->
  image R E d' = B (use R (size (DraftIcmp a) + m)) (ip_part IP_Icmp a) (zeros m) (ip_fins E a) (0, 0) false false 0 ->
  sub mk (image R E (DraftIcmp a)) = (let* d := room R d' in Ok (image R E d)).
Proof.
  intros Hmk Hm HR HM Hf Hz Hi. pose proof imax. assert (HM' : size (DraftIcmp a) <= ISIZE_MAX) by lia.
  assert (Hg : exists pre cur, len pre + len cur = size (DraftIcmp a) /\ pre ++ cur = ip_part IP_Icmp a /\
    image R E (DraftIcmp a) = B (use R (size (DraftIcmp a))) pre cur (ip_fins E a) (0, 0) false false 0).
  { destruct a as [[e f]|].
    - exists (eth_part e), (v4_wire (v4_put f (V4SetProtocol IP_Icmp))). split; [cbn [size]; lens; lia|]. split; reflexivity.
    - exists [], []. split; [reflexivity|]. split; reflexivity. }
  destruct Hg as (pre & cur & G1 & G2 & G3). rewrite G3. assert (HS : sized (use R (size (DraftIcmp a))) pre cur) by (apply sized_R; assumption).
  apply (more_room R E (size (DraftIcmp a)) m); [exact HR|exact Hf|exact HM|exact Hz| |].
  - intros Hfm. rewrite (icmp_next E mk m Hmk) by (assumption || lia). rewrite G2, use_use, <- Hi. reflexivity.
  - intros rest G4 G5. rewrite G4. apply sub_err. rewrite Hmk, small_next; [reflexivity|rewrite <- G4; exact HS|exact G5|lia].
Qed.
Lemma call_step R E c d t : mem_ok R -> R = None \/ no_payload c -> good d -> returns (ty_of d) c = Some t -> ordinary c ->
  fits R (size d) -> size d + adds c <= ISIZE_MAX ->
  steps R E (size d + adds c) t (draft_call c d) (call1 E c (image R E d)).
Proof.
  intros HR Hnp Hg Ht Ho Hf HM. pose proof imax as HI. destruct d; destruct c; try (discriminate Ht || contradiction Ho); injection Ht as <-.
  - apply call_ether; assumption.
  - cbn [draft_call call1]. destruct p as [p|]; cbn [no_payload_yet]; [reflexivity|]. cbn [steps]. split; [|split; [exact I|split; reflexivity]].
    apply (same_room R E (DraftEther f None)); [exact Hf|reflexivity|]. unfold image. cbv zeta. cbn [given some]. rewrite app_nil_r, ether_ip_ok. reflexivity.
  - cbn [draft_call call1 steps]. change (adds CallIpV4) with 20 in *.
    assert (Hz : size (DraftV4 e v4_zero None) = size (DraftIp e) + 20) by (cbn [size given]; lens; lia).
    split; [|split; [split; [apply v4_zero_building|constructor]|split; [exact Hz|reflexivity]]].
    assert (HS : sized (use R (size (DraftIp e))) [] (eth_part e)) by (apply sized_R; [exact HR|exact Hf|lia|reflexivity]).
    unfold ip_v4. apply (more_room R E (size (DraftIp e)) 20); [exact HR|exact Hf|exact HM|exact Hz| |].
    + intros Hfm. unfold image. cbv zeta. rewrite Hz. eapply sub_ok. rewrite v4_with_ok; [rewrite use_use; cbn [given some app]; reflexivity|exact HS|exact Hfm|cbn [size] in HM; lens; lia].
    + intros rest G1 G2. unfold image. cbv zeta. rewrite G1. apply sub_err. unfold v4_with. change v4_header_min with 20. rewrite small_next; [reflexivity|rewrite <- G1; exact HS|exact G2|lia].
  - cbn [draft_call call1 steps]. change (adds CallIpV6) with 0 in *. rewrite N.add_0_r. split; [|split; [exact I|split; reflexivity]].
    apply (same_room R E (DraftIp e)); [exact Hf|reflexivity|]. reflexivity.
  - destruct Hg as [G1 G2]. apply call_v4; assumption.
  - cbn [draft_call call1]. destruct p as [p|]; cbn [no_payload_yet]; [reflexivity|]. cbn [steps]. destruct Hg as [G1 G2]. change (adds CallV4Udp) with 8 in *.
    set (d' := DraftUdp _ _ _). assert (Hz : size d' = size (DraftV4 e f None) + 8) by (unfold d'; cbn [size given]; lens; lia).
    split; [|split; [split; [exact G1|]; split; [repeat split|constructor]|split; [exact Hz|reflexivity]]].
    unfold v4_udp. apply (call_inner R E e f IP_Udp _ 8 d' HR G1 eq_refl HM Hf Hz).
    + intros r pre cur H1 H2 H3 Hc. exists (zeros 8), (len pre, len cur). split; [apply udp_with_ok; assumption|]. intros -> -> ->. unfold image at 1. cbv zeta. rewrite Hz, use_use. reflexivity.
    + intros rest pre cur H1 H2. unfold udp_with. change udp_header_min with 8. rewrite small_next by (assumption || lia). reflexivity.
  - cbn [draft_call call1]. destruct p as [p|]; cbn [no_payload_yet]; [reflexivity|]. cbn [steps]. destruct Hg as [G1 G2]. change (adds CallV4Tcp) with 20 in *.
    set (d' := DraftTcp _ _ _ _). assert (Hz : size d' = size (DraftV4 e f None) + 20) by (unfold d'; cbn [size given]; lens; lia).
    split; [|split; [split; [exact G1|]; split; [apply tcp_zero_building|]; repeat split; [constructor|vm_compute; discriminate]|split; [exact Hz|reflexivity]]].
    unfold v4_tcp. apply (call_inner R E e f IP_Tcp _ 20 d' HR G1 eq_refl HM Hf Hz).
    + intros r pre cur H1 H2 H3 Hc. eexists _, (len pre, len cur). split; [apply tcp_with_ok; assumption|]. intros -> -> ->. unfold image at 1. cbv zeta. rewrite Hz, use_use. reflexivity.
    + intros rest pre cur H1 H2. unfold tcp_with. change tcp_header_min with 20. rewrite small_next by (assumption || lia). reflexivity.
  - cbn [draft_call call1]. destruct p as [p|]; cbn [no_payload_yet]; [reflexivity|]. cbn [steps]. destruct Hg as [G1 G2]. change (adds CallV4Icmp) with 0 in *.
    set (d' := DraftIcmp _). assert (Hz : size d' = size (DraftV4 e f None) + 0) by (unfold d'; cbn [size given]; lens; lia).
    split; [|split; [exact G1|split; [exact Hz|reflexivity]]]. rewrite N.add_0_r in Hz, HM.
    apply (same_room R E (DraftV4 e f None)); [exact Hf|exact Hz|]. subst d'. unfold image. cbv zeta. cbn [given some]. rewrite Hz, app_nil_r. unfold v4_icmp.
    erewrite v4_sub_ok; [|exact G1|reflexivity|szr|reflexivity]. reflexivity.
  - destruct Hg as (G1 & G2 & G3). apply call_udp; assumption.
  - apply call_tcp; assumption.
  - cbn [draft_call call1 steps]. change (adds CallIcmpEcho) with 8 in *. set (d' := DraftEcho _ _ _ _). assert (Hz : size d' = size (DraftIcmp a) + 8) by (unfold d'; cbn [size given]; lens; lia).
    split; [|split; [repeat split; try exact Hg; constructor|split; [exact Hz|reflexivity]]].
    unfold icmp_echo. apply (call_kind R E a _ 8); try assumption; [reflexivity|vm_compute; discriminate|]. unfold image. cbv zeta. rewrite Hz. reflexivity.
  - cbn [draft_call call1 steps]. change (adds CallIcmpInformation) with 8 in *. set (d' := DraftInformation _ _ _). assert (Hz : size d' = size (DraftIcmp a) + 8) by reflexivity.
    split; [|split; [repeat split; try exact Hg|split; [exact Hz|reflexivity]]].
    unfold icmp_information. apply (call_kind R E a _ 8); try assumption; [reflexivity|vm_compute; discriminate|]. unfold image. cbv zeta. rewrite Hz. reflexivity.
  - cbn [draft_call call1 steps]. change (adds CallIcmpTimestamp) with 20 in *. set (d' := DraftTimestamp _ _ _). assert (Hz : size d' = size (DraftIcmp a) + 20) by reflexivity.
    split; [|split; [repeat split; try exact Hg|split; [exact Hz|reflexivity]]].
    unfold icmp_timestamp. apply (call_kind R E a _ 20); try assumption; [reflexivity|apply N.le_refl|]. unfold image. cbv zeta. rewrite Hz. reflexivity.
  - apply call_echo; assumption.
  - change (adds (CallInformation o)) with 0 in *. rewrite N.add_0_r in *. apply call_information; assumption.
  - change (adds (CallTimestamp o)) with 0 in *. rewrite N.add_0_r in *. apply call_timestamp; assumption.
Qed.
(** Closing. *)
Lemma eth_closes E e : closes (eth_fins E e) (eth_part e) (match e with Some f => ether_wire (ether_set_type f 0x0800) | None => [] end).
Proof.
  destruct e as [f|]; [|apply closes_nil]. split; [reflexivity|]. intros rest H1 H2 H3. cbn [eth_part eth_fins] in *. rewrite len_ether_wire in H3.
  change [ether_ip_finalizer E 0 14] with ([] ++ [ether_ip_finalizer E 0 14]). rewrite fin_last. pose proof (ether_fin E [] f rest H1 ltac:(rewrite len_nil; lia)) as F. rewrite H2 in F. cbn [app] in F.
  change (len []) with 0 in F. rewrite F. reflexivity.
Qed.
Lemma ip_wraps E proto a : agood a -> u8 (ip_protocol_into proto) -> wraps (ip_fins E a) (ip_part proto a) (front a (ip_protocol_into proto)).
Proof.
  intros Ha Hp. destruct a as [[e f]|]; cbn [agood ip_fins ip_part] in *.
  - pose proof (v4_wraps E _ _ _ _ (eth_closes E e) (v4_proto_building f proto Ha Hp)) as [W1 W2]. split.
    + intros n. rewrite <- (W1 n). cbn [front]. rewrite v4_finished_proto. reflexivity.
    + intros rest Hl. rewrite W2 by exact Hl. cbn [front]. rewrite v4_finished_proto. reflexivity.
  - split; [intros n; reflexivity|]. intros rest _. reflexivity.
Qed.
Lemma bare_panic r pre cur f ip k pl n : snd (f (pre ++ cur)) = Panic -> finish (B r pre cur [f] ip k pl n) = Panic.
Proof. intros H. destruct (f (pre ++ cur)) as [out x] eqn:Hf. cbn [snd] in H. subst x. exact (finish_panic r pre cur [] f ip k pl n out Hf). Qed.
Lemma close_udp R E a f p : agood a -> udp_fields_ok f -> is_bytes (given p) -> size (DraftUdp a f p) <= ISIZE_MAX ->
  udp_build E (image R E (DraftUdp a f p)) = draft_close E (DraftUdp a f p).
Proof.
  intros Ha Hf Hp HM. cbn [size] in HM. rewrite len_ip_part in HM. unfold image. cbv zeta. set (r := use R (size (DraftUdp a f p))). clearbody r. unfold udp_build, udp_prepare.
  set (cur := udp_wire f ++ given p). assert (Hlc : len cur = 8 + len (given p)) by (unfold cur; rewrite len_app, len_udp_wire; reflexivity).
  match goal with |- finish (with_fin ?b _) = _ => change (b_buffer b) with (mkbuf r (ip_part IP_Udp a) cur); change (b_ip b) with (ip_place a) end.
  rewrite mk_length. match goal with |- finish (with_fin ?b ?x) = _ => change (finish (with_fin b x)) with
    (finish (B r (ip_part IP_Udp a) cur (ip_fins E a ++ [udp_finalizer E (ip_place a) (len cur)]) (ip_place a) false (some p) 0)) end.
  destruct a as [[e v]|].
  - pose proof (ip_wraps E IP_Udp (Some (e, v)) Ha eq_refl) as W. cbn [agood] in Ha. cbn [draft_close]. set (n := 8 + len (given p)) in *.
    match goal with |- _ = Ok (_ ++ udp_wire (udp_fill f ?m ?c) ++ _) => set (ck := c); set (l := m) in * end.
    rewrite (finish_ok _ _ _ _ _ _ _ _ _ (udp_wire (udp_fill f l ck) ++ given p) _ W).
    + rewrite (len_app _ (given p)), len_udp_wire. reflexivity.
    + unfold ip_part, ip_place, cur. rewrite len_app, len_udp_wire, <- !app_assoc.
      rewrite udp_fin_gen by (apply v4_proto_building; [exact Ha|reflexivity] || exact Hf || exact Hp || lia).
      replace (vf_src (v4_put v (V4SetProtocol IP_Udp))) with (vf_src v) by (destruct v; reflexivity).
      replace (vf_dst (v4_put v (V4SetProtocol IP_Udp))) with (vf_dst v) by (destruct v; reflexivity). reflexivity.
    + rewrite len_ip_part, len_app, len_udp_wire. lia.
  - cbn [draft_close ip_part ip_fins ip_place app]. apply bare_panic, udp_bare_fin. lia.
Qed.
Lemma close_tcp R E a f fl p : good (DraftTcp a f fl p) -> size (DraftTcp a f fl p) <= ISIZE_MAX ->
  tcp_build E (image R E (DraftTcp a f fl p)) = draft_close E (DraftTcp a f fl p).
Proof.
  intros (Ha & Hf & Hr & Hc & Hp & Hpl) HM. cbn [size] in HM. rewrite len_ip_part in HM. unfold image. cbv zeta. set (r := use R (size (DraftTcp a f fl p))). clearbody r. unfold tcp_build, tcp_prepare.
  set (ga := if fl then tcp_fill f 0 0 else f).
  assert (Hga : tcp_fields_ok ga /\ tf_checksum ga = 0 /\ forall o c, tcp_fill ga o c = tcp_fill f o c).
  { unfold ga. destruct fl; [|repeat split; try apply Hf; exact Hc]. split; [apply tcp_fill_offset; [apply Hf|lia|reflexivity]|].
    split; [apply tcp_fill_checksum|]. intros. apply tcp_fill_fill. }
  destruct Hga as (Hga1 & Hga2 & Hga3). clearbody ga.
  set (cur := tcp_wire ga ++ given p). assert (Hlc : len cur = 20 + len (given p)) by (unfold cur; rewrite len_app, len_tcp_wire; reflexivity).
  match goal with |- finish (with_fin ?b _) = _ => change (b_buffer b) with (mkbuf r (ip_part IP_Tcp a) cur); change (b_ip b) with (ip_place a) end.
  rewrite mk_length. match goal with |- finish (with_fin ?b ?x) = _ => change (finish (with_fin b x)) with
    (finish (B r (ip_part IP_Tcp a) cur (ip_fins E a ++ [tcp_finalizer E (ip_place a) (len cur) (len (given p))]) (ip_place a) false (some p) (len (given p)))) end.
  destruct a as [[e v]|].
  - pose proof (ip_wraps E IP_Tcp (Some (e, v)) Ha eq_refl) as W. cbn [agood] in Ha.
    pose proof (v4_proto_building v IP_Tcp Ha eq_refl) as Hb'. set (v' := v4_put v (V4SetProtocol IP_Tcp)) in *.
    pose proof (tcp_fin_gen E (eth_part e) v' ga (given p) Hb' Hga1 Hp ltac:(lia) _ eq_refl) as T. rewrite Hga2, !Hga3 in T.
    assert (Hcur : ip_part IP_Tcp (Some (e, v)) ++ cur = eth_part e ++ v4_wire v' ++ tcp_wire ga ++ given p) by (unfold cur; cbn [ip_part]; rewrite <- !app_assoc; reflexivity).
    set (seg := tcp_wire (tcp_fill f 5 0) ++ given p) in *.
    assert (Hseg : is_bytes seg /\ len seg = 20 + len (given p)).
    { split; [apply is_bytes_app; split; [apply is_bytes_tcp_wire, tcp_fill_offset; [apply Hf|lia|reflexivity]|exact Hp]|unfold seg; rewrite len_app, len_tcp_wire; reflexivity]. }
    destruct Hseg as [Hseg Hsegl].
    assert (Hn : tcp_new seg = Ok seg) by (apply tcp_building_new; split; [apply tcp_fill_offset; [apply Hf|lia|reflexivity]|destruct f; reflexivity]).
    assert (Hb4 : is_bytes (v4_wire v')) by (apply is_bytes_v4_wire, Hb').
    assert (H4l : 20 <= len (v4_wire v')) by (rewrite len_v4_wire; lia).
    cbn [draft_close]. change (tcp_wire (tcp_fill f 5 0) ++ given p) with seg. rewrite <- Hsegl.
    destruct (match cursor_eof E with EofSeek => len seg mod 2 =? 1 | EofKeep => false end) eqn:Hodd.
    + assert (Hcs : tcp_checksum_of E (V4 (v4_wire v')) seg = Panic).
      { destruct (cursor_eof E) eqn:HE; [discriminate Hodd|]. apply c22_tcp_checksum_odd; try assumption; try lia. }
      rewrite Hcs in T. eapply finish_panic. unfold ip_place. rewrite Hlc. etransitivity; [|exact T]. f_equal. exact Hcur.
    + assert (Hcs : tcp_checksum_of E (V4 (v4_wire v')) seg = Ok (inet_checksum (with_pseudo_header (vf_src v) (vf_dst v) 6 seg))).
      { rewrite tcp_checksum_eq; try assumption; try lia.
        - destruct (v4_wire_addrs v') as [-> ->]. unfold seg at 1. rewrite tcp_fill_zero. fold seg.
          replace (vf_src v') with (vf_src v) by (destruct v; reflexivity). replace (vf_dst v') with (vf_dst v) by (destruct v; reflexivity). reflexivity.
        - destruct (cursor_eof E) eqn:HE; [right; reflexivity|left; lia]. }
      rewrite Hcs in T. set (ck := inet_checksum _) in *.
      rewrite (finish_ok _ _ _ _ _ _ _ _ _ (tcp_wire (tcp_fill f 5 ck) ++ given p) _ W).
      * rewrite (len_app _ (given p)), len_tcp_wire, <- Hsegl. reflexivity.
      * rewrite Hcur. unfold ip_place. rewrite Hlc, T. cbn [ip_part]. fold v'. rewrite Hga3, <- app_assoc. reflexivity.
      * rewrite len_ip_part, len_app, len_tcp_wire. lia.
  - cbn [draft_close ip_part ip_fins ip_place app]. apply bare_panic, tcp_bare_fin. lia.
Qed.
Lemma close_icmp r E a m k pl : agood a -> is_bytes (m 0) -> 4 <= len (m 0) -> len (ip_part IP_Icmp a) + len (m 0) <= ISIZE_MAX ->
  (forall ck, patch 2 (enc16 ck) (m 0) = m ck) ->
  icmp_kind_build E (B r (ip_part IP_Icmp a) (m 0) (ip_fins E a) (0, 0) k pl 0) = icmp_done a k m.
Proof.
  intros Ha Hm H4 HM Hp. rewrite (icmp_kind_finish E _ _ _ _ _ _ _ _ (ip_wraps E IP_Icmp a Ha eq_refl)) by assumption.
  unfold icmp_done. destruct k; [|reflexivity]. change (ip_protocol_into IP_Icmp) with 1. rewrite Hp.
  rewrite zero_field_patch by lia. change [0; 0] with (enc16 0). rewrite Hp. reflexivity.
Qed.
Lemma close_v4 R E e f p : v4_building f -> is_bytes (given p) -> size (DraftV4 e f p) <= ISIZE_MAX ->
  v4_build E (image R E (DraftV4 e f p)) = draft_close E (DraftV4 e f p).
Proof.
  intros Hb Hpb HM. cbn [size] in HM. unfold image. cbv zeta. set (r := use R (size (DraftV4 e f p))). clearbody r. cbn [draft_close]. unfold v4_alone. set (q := given p) in *. set (L := 20 + len q) in *.
  set (b0 := N.lor 64 (L / 4 mod 256)). cbv zeta. set (h := fun ck => v4_wire (v4_head f b0 (L mod 65536) ck)).
  unfold v4_build, v4_prepare.
  match goal with |- finish (with_fin ?b _) = _ => change (b_buffer b) with (mkbuf r (eth_part e) (v4_wire f ++ q)) end.
  rewrite mk_offset, mk_length. rewrite len_app, len_v4_wire. fold L.
  match goal with |- finish (with_fin ?b ?x) = _ => change (finish (with_fin b x)) with
    (finish (B r (eth_part e) (v4_wire f ++ q) (eth_fins E e ++ [v4_finalizer E (len (eth_part e)) L]) (0, 0) false (some p) 0)) end.
  pose proof (v4_fin E (eth_part e) f q [] (proj1 Hb) Hpb ltac:(rewrite len_nil; lia)) as F. cbv zeta in F. rewrite len_nil, N.add_0_r in F.
  rewrite !app_nil_r in F. fold L in F. change (N.lor 64 (as_u8 (L / 4))) with b0 in F.
  change (v4_wire (v4_head f b0 (L mod 65536) 0)) with (h 0) in F |- *.
  set (c := inet_checksum _) in *. change (v4_wire (v4_head f b0 (L mod 65536) c)) with (h c) in F |- *.
  unfold finish. change (b_buffer (B r (eth_part e) (v4_wire f ++ q) (eth_fins E e ++ [v4_finalizer E (len (eth_part e)) L]) (0, 0) false (some p) 0))
    with (mkbuf r (eth_part e) (v4_wire f ++ q)). rewrite mk_inner. cbn [bind].
  change (b_fin (B r (eth_part e) (v4_wire f ++ q) (eth_fins E e ++ [v4_finalizer E (len (eth_part e)) L]) (0, 0) false (some p) 0)) with (eth_fins E e ++ [v4_finalizer E (len (eth_part e)) L]).
  rewrite fin_last, F.
  assert (Hlr : len (h c ++ q) = 20 + len q) by (rewrite len_app; unfold h; rewrite len_v4_wire; reflexivity).
  assert (Hb0 : 64 <= b0 < 256) by (apply lor64; lia).
  destruct e as [ef|]; cbn [eth_fins eth_part app].
  - cbn [eth_part] in HM. rewrite len_ether_wire in HM.
    change [ether_ip_finalizer E 0 14] with ([] ++ [ether_ip_finalizer E 0 14]). rewrite fin_last.
    pose proof (ether_fin E [] ef (h c ++ q) ltac:(lia) ltac:(rewrite len_nil; lia)) as F2. cbn [app] in F2. change (len []) with 0 in F2. rewrite F2. clear F2.
    unfold h at 1. rewrite v4_head_first by lia. unfold type_for.
    destruct (N.eqb_spec (b0 / 16) 4) as [E4|E4]; [rewrite E4; reflexivity|].
    destruct (N.eqb_spec (b0 / 16) 6) as [E6|E6]; [rewrite E6; reflexivity|].
    destruct (b0 / 16) as [|[[[|[]|]|[[]|[]|]|]|[[|[]|]|[[]|[]|]|]|]]; try reflexivity; contradiction.
  - reflexivity.
Qed.
Lemma close_image R E cl d : good d -> size d <= ISIZE_MAX -> closed cl = ty_of d -> close E cl (image R E d) = draft_close E d.
Proof.
  intros Hg HM Ht. destruct d; destruct cl; try discriminate Ht; cbn [close].
  - unfold image. cbv zeta. set (r := use R (size (DraftEther f p))). cbn [draft_close]. unfold ether_build, finish. match goal with |- context [buf_into_inner (b_buffer ?b)] => change (b_buffer b) with (mkbuf r [] (ether_wire f ++ given p)) end.
    rewrite mk_inner. reflexivity.
  - reflexivity.
  - reflexivity.
  - apply close_v4; [apply Hg|apply Hg|exact HM].
  - apply close_udp; [apply Hg|apply Hg|apply Hg|exact HM].
  - apply close_tcp; assumption.
  - destruct a as [[e f]|]; reflexivity.
  - destruct f as [[t i] s]. destruct Hg as (G1 & G2 & G3 & G4 & G5). cbn [size] in HM. unfold image. cbv zeta. cbn [draft_close]. unfold echo_build.
    apply (close_icmp _ E a (fun ck => ident_wire (icmp_head t ck) i s ++ given p)); [exact G1| | | |].
    + apply is_bytes_app; split; [apply is_bytes_ident; [repeat split; assumption || reflexivity|assumption|assumption]|exact G5].
    + rewrite len_app. change (len (ident_wire (icmp_head t 0) i s)) with 8. lia.
    + rewrite len_app. change (len (ident_wire (icmp_head t 0) i s)) with 8. lia.
    + intros ck. rewrite patch_app1 by (change_lens; change (len (ident_wire (icmp_head t 0) i s)) with 8; lia). reflexivity.
  - destruct f as [[t i] s]. destruct Hg as (G1 & G2 & G3 & G4). cbn [size] in HM. unfold image. cbv zeta. cbn [draft_close]. rewrite app_nil_r. unfold information_build.
    apply (close_icmp _ E a (fun ck => ident_wire (icmp_head t ck) i s)); [exact G1| | | |].
    + apply is_bytes_ident; [repeat split; assumption || reflexivity|assumption|assumption].
    + change (len (ident_wire (icmp_head t 0) i s)) with 8. lia.
    + change (len (ident_wire (icmp_head t 0) i s)) with 8. lia.
    + intros ck. reflexivity.
  - destruct f as [[[[[t i] s] x] y] z]. destruct Hg as (G1 & G2 & G3 & G4 & G5 & G6 & G7). cbn [size] in HM. unfold image. cbv zeta. cbn [draft_close]. rewrite app_nil_r. unfold timestamp_build.
    apply (close_icmp _ E a (fun ck => timestamp_wire (icmp_head t ck) i s x y z)); [exact G1| | | |].
    + apply is_bytes_timestamp; [repeat split; assumption || reflexivity|assumption|assumption|assumption|assumption|assumption].
    + change (len (timestamp_wire (icmp_head t 0) i s x y z)) with 20. lia.
    + change (len (timestamp_wire (icmp_head t 0) i s x y z)) with 20. lia.
    + intros ck. reflexivity.
Qed.

(** The whole run. *)
Fixpoint runs (R : option bytes) (cs : list call) (d : draft) : res draft :=
  match cs with [] => Ok d | c :: cs' => let* d' := draft_call c d in let* d' := room R d' in runs R cs' d' end.
Lemma runs_none cs : forall d, runs None cs d = draft_calls cs d.
Proof. induction cs as [|c cs IH]; intros d; [reflexivity|]. cbn [runs draft_calls room]. destruct (draft_call c d); cbn [bind]; [apply IH|reflexivity|reflexivity]. Qed.
Lemma runs_some s cs : forall d, runs (Some s) cs d = draft_calls_within (len s) cs d.
Proof.
  induction cs as [|c cs IH]; intros d; [reflexivity|]. cbn [runs draft_calls_within room]. destruct (draft_call c d) as [d1| |]; cbn [bind]; [|reflexivity|reflexivity].
  destruct (fitting (len s) d1); cbn [bind]; [apply IH|reflexivity|reflexivity].
Qed.
Lemma room_ok R d d' : room R d = Ok d' -> d' = d /\ fits R (size d).
Proof.
  destruct R as [s|]; cbn [room fits]; [|intros H; apply Ok_inj in H; subst d'; split; [reflexivity|exact I]].
  unfold fitting. rewrite size_eq. destruct (N.leb_spec (draft_size d) (len s)); [|discriminate]. intros H'. apply Ok_inj in H'. subst d'. split; [reflexivity|assumption].
Qed.
Lemma calls_image R E cs : mem_ok R -> R = None \/ Forall no_payload cs ->
  forall d t', good d -> fits R (size d) -> typed (ty_of d) cs t' -> Forall ordinary cs -> size d + fold_right N.add 0 (map adds cs) <= ISIZE_MAX ->
  match runs R cs d with
  | Ok d' => run (call1 E) cs (image R E d) = Ok (image R E d') /\ good d' /\ size d' = size d + fold_right N.add 0 (map adds cs) /\ ty_of d' = t'
  | Err e => run (call1 E) cs (image R E d) = Err e
  | Panic => run (call1 E) cs (image R E d) = Panic
  end.
Proof.
  intros HR. induction cs as [|c cs IH]; intros Hnp d t' Hg Hf Ht Ho HM.
  - cbn [runs run map fold_right]. split; [reflexivity|]. split; [exact Hg|]. split; [lia|exact Ht].
  - destruct Ht as (t1 & H1 & H2). inversion_clear Ho as [|? ? Ho1 Ho2]. cbn [map fold_right] in HM.
    assert (Hn1 : R = None \/ no_payload c) by (destruct Hnp as [Hnp|Hnp]; [left; exact Hnp|right; inversion_clear Hnp; assumption]).
    assert (Hn2 : R = None \/ Forall no_payload cs) by (destruct Hnp as [Hnp|Hnp]; [left; exact Hnp|right; inversion_clear Hnp; assumption]).
    pose proof (call_step R E c d t1 HR Hn1 Hg H1 Ho1 Hf ltac:(lia)) as S. cbn [runs run map fold_right].
    destruct (draft_call c d) as [d1|e|]; cbn [steps] in S; cbn [bind]; [|rewrite S; reflexivity|rewrite S; reflexivity].
    destruct S as (S1 & S2 & S3 & S4). rewrite S1. cbn [bind]. subst t1.
    destruct (room R d1) as [d1'|e|] eqn:Hr; cbn [bind]; [|reflexivity|reflexivity]. destruct (room_ok _ _ _ Hr) as [-> Hf1].
    specialize (IH Hn2 d1 t' S2 Hf1 H2 Ho2 ltac:(lia)). destruct (runs R cs d1) as [d'|e|]; [|exact IH|exact IH].
    destruct IH as (I1 & I2 & I3 & I4). split; [exact I1|]. split; [exact I2|]. split; [lia|exact I4].
Qed.
(** A program is followed by the reference up to [k], which finishes. *)
Lemma whole R E o cs t' (k : builder -> res bytes) (k' : draft -> res bytes) :
  mem_ok R -> R = None \/ Forall no_payload cs -> typed (opened o) cs t' -> Forall ordinary cs -> added o cs <= ISIZE_MAX ->
  (forall d, good d -> size d = added o cs -> ty_of d = t' -> k (image R E d) = k' d) ->
  (let* b := open E o (mkbuf R [] []) in let* b := run (call1 E) cs b in k b) = (let* d := room R (draft_open o) in let* d := runs R cs d in k' d).
Proof.
  intros HR Hnp Hc Ho HM Hk. destruct (open_image R E o HR) as (O1 & O2 & O3 & O4). rewrite O1.
  rewrite <- O4 in Hc. unfold added in *. rewrite <- O3 in HM, Hk.
  destruct (room R (draft_open o)) as [d0|e|] eqn:Hr; cbn [bind]; [|reflexivity|reflexivity]. destruct (room_ok _ _ _ Hr) as [-> Hf].
  pose proof (calls_image R E cs HR Hnp _ _ O2 Hf Hc Ho HM) as C. destruct (runs R cs (draft_open o)) as [d|e|]; cbn [bind]; [|rewrite C; reflexivity|rewrite C; reflexivity].
  destruct C as (C1 & C2 & C3 & C4). rewrite C1. cbn [bind]. apply Hk; assumption.
Qed.
(** C65: every builder program that compiles, on a new growable buffer, in every
    order of calls: the bytes, error or panic are those of the reference. *)
Lemma c65_reference : forall E o cs cl, compiles o cs cl -> Forall ordinary cs -> added o cs <= ISIZE_MAX ->
  program E o cs cl dynamic_new = reference E o cs.
Proof.
  intros E o cs cl Hc Ho HM. unfold program, reference. change dynamic_new with (mkbuf None [] []).
  rewrite (whole None E o cs (closed cl) (close E cl) (draft_close E) I (or_introl eq_refl) Hc Ho HM).
  - cbn [room bind]. rewrite runs_none. reflexivity.
  - intros d Hg Hs Ht. apply close_image; [exact Hg|lia|symmetry; exact Ht].
Qed.
(** C65: and in a Slice of any size, with whatever was in it before, for every
    program that gives no payloads: the bytes, error or panic of the reference with
    that much room; in particular SmallBuffer comes from the first header that does not fit. *)
Lemma c65_slice : forall E o cs cl s, compiles o cs cl -> Forall ordinary cs -> Forall no_payload cs -> len s <= ISIZE_MAX -> added o cs <= ISIZE_MAX ->
  program E o cs cl (slice_new s) = reference_within E (len s) o cs.
Proof.
  intros E o cs cl s Hc Ho Hp Hs HM. unfold program, reference_within. rewrite slice_mk.
  rewrite (whole (Some s) E o cs (closed cl) (close E cl) (draft_close E) Hs (or_intror Hp) Hc Ho HM).
  - cbn [room]. destruct (fitting (len s) (draft_open o)) as [d| |]; cbn [bind]; [|reflexivity|reflexivity]. rewrite runs_some. reflexivity.
  - intros d Hg Hz Ht. apply close_image; [exact Hg|lia|symmetry; exact Ht].
Qed.
(** C65: so a buffer can be reused: after [clear], whatever was done with it before,
    it serves like a new one. *)
Lemma c65_reuse : forall E o cs cl b, compiles o cs cl -> Forall ordinary cs -> added o cs <= ISIZE_MAX ->
  match b with
  | Dynamic _ _ _ => program E o cs cl (buf_clear b) = reference E o cs
  | Slice s _ _ _ => Forall no_payload cs -> len s <= ISIZE_MAX -> program E o cs cl (buf_clear b) = reference_within E (len s) o cs
  end.
Proof.
  intros E o cs cl b Hc Ho HM. destruct b as [i off l|s off l u]; cbn [buf_clear].
  - apply c65_reference; assumption.
  - intros Hp Hs. apply (c65_slice E o cs cl s); assumption.
Qed.
(** C65: [Default] gives the builder that [with] makes on a new growable buffer; it never panics. *)
Lemma c65_defaults : forall E,
  (exists b, ether_default E = Ok b /\ open E OpEther dynamic_new = Ok b) /\
  (exists b, ip_default = Ok b /\ open E OpIp dynamic_new = Ok b /\ open E OpV6 dynamic_new = Ok b) /\
  (exists b, v4_default E = Ok b /\ open E OpV4 dynamic_new = Ok b) /\
  (exists b, udp_default E = Ok b /\ open E OpUdp dynamic_new = Ok b) /\
  (exists b, tcp_default E = Ok b /\ open E OpTcp dynamic_new = Ok b) /\
  (exists b, icmp_default = Ok b /\ open E OpIcmp dynamic_new = Ok b) /\
  (exists b, echo_default E = Ok b /\ open E OpEcho dynamic_new = Ok b) /\
  (exists b, information_default E = Ok b /\ open E OpInformation dynamic_new = Ok b) /\
  (exists b, timestamp_default E = Ok b /\ open E OpTimestamp dynamic_new = Ok b).
Proof.
  intros E.
  assert (H : forall o, exists b, open E o dynamic_new = Ok b).
  { intros o. destruct (open_image None E o I) as (O1 & _). change (mkbuf None [] []) with dynamic_new in O1. rewrite O1. cbn [room bind]. eexists. reflexivity. }
  repeat apply conj.
  - destruct (H OpEther) as [b Hb]. exists b. split; [|exact Hb]. unfold ether_default. cbn [open] in Hb. rewrite Hb. reflexivity.
  - eexists. repeat apply conj; reflexivity.
  - destruct (H OpV4) as [b Hb]. exists b. split; [|exact Hb]. unfold v4_default. cbn [open] in Hb. rewrite Hb. reflexivity.
  - destruct (H OpUdp) as [b Hb]. exists b. split; [|exact Hb]. unfold udp_default. cbn [open] in Hb. rewrite Hb. reflexivity.
  - destruct (H OpTcp) as [b Hb]. exists b. split; [|exact Hb]. unfold tcp_default. cbn [open] in Hb. rewrite Hb. reflexivity.
  - eexists. repeat apply conj; reflexivity.
  - destruct (H OpEcho) as [b Hb]. exists b. split; [|exact Hb]. unfold echo_default. cbn [open] in Hb. rewrite Hb. reflexivity.
  - destruct (H OpInformation) as [b Hb]. exists b. split; [|exact Hb]. unfold information_default. cbn [open] in Hb. rewrite Hb. reflexivity.
  - destruct (H OpTimestamp) as [b Hb]. exists b. split; [|exact Hb]. unfold timestamp_default. cbn [open] in Hb. rewrite Hb. reflexivity.
Qed.
Lemma shows_image R E d : mem_ok R -> fits R (size d) -> size d <= ISIZE_MAX -> buf_data E (b_buffer (image R E d)) = Ok (draft_shows d).
Proof.
  intros HR Hf HM.
  assert (Hz : forall pre cur, len pre + len cur = size d -> buf_data E (mkbuf (use R (size d)) pre cur) = Ok cur).
  { intros pre cur Hl. apply mk_data. apply sized_R; assumption. }
  destruct d; cbn [image draft_shows]; try (apply Hz; cbn [size given]; lens; lia).
  - apply (Hz [] (eth_part e)). reflexivity.
  - apply (Hz [] (eth_part e)). reflexivity.
  - destruct a as [[e f]|]; [|exact (Hz [] [] eq_refl)]. apply Hz. cbn [size]. rewrite len_ip_part. lens. lia.
  - destruct f as [[t i] s]. apply (Hz _ (ident_of (t, i, s) ++ given p)). cbn [size]. lens. lia.
  - rewrite app_nil_r. destruct f as [[t i] s]. apply (Hz _ (ident_of (t, i, s))). cbn [size]. lens. lia.
  - rewrite app_nil_r. destruct f as [[[[[t i] s] x] y] z]. apply (Hz _ (timestamp_of (t, i, s, x, y, z))). cbn [size]. lens. lia.
Qed.
(** C65: and at any moment [as_packet] shows the bytes of the reference. *)
Lemma c65_preview : forall E o cs cl parse, compiles o cs cl -> Forall ordinary cs -> added o cs <= ISIZE_MAX ->
  preview E o cs parse dynamic_new = let* d := draft_calls cs (draft_open o) in parse (draft_shows d).
Proof.
  intros E o cs cl parse Hc Ho HM. unfold preview. change dynamic_new with (mkbuf None [] []). fold (builder_as_packet E).
  rewrite (whole None E o cs (closed cl) _ (fun d => parse (draft_shows d)) I (or_introl eq_refl) Hc Ho HM).
  - cbn [room bind]. rewrite runs_none. reflexivity.
  - intros d Hg Hs Ht. unfold builder_as_packet. rewrite shows_image; [reflexivity|exact I|exact I|lia].
Qed.

Lemma len_front proto a n : len (front a proto n) = len (ip_part IP_Icmp a).
Proof. rewrite len_ip_part. destruct a as [[e f]|]; [|reflexivity]. cbn [front]. rewrite len_app, len_v4_wire. destruct e; reflexivity. Qed.
Lemma icmp_done_len a k m out n : icmp_done a k m = Ok out -> (forall ck, len (m ck) = n) -> len out = len (ip_part IP_Icmp a) + n.
Proof. unfold icmp_done. destruct k; [|discriminate]. intros H Hm. apply Ok_inj in H. subst out. rewrite len_app, len_front, Hm. reflexivity. Qed.
(** C65: what a finished program returns is as long as the headers and payloads put in. *)
Lemma c65_length : forall E o cs cl out, compiles o cs cl -> Forall ordinary cs -> added o cs <= ISIZE_MAX ->
  program E o cs cl dynamic_new = Ok out -> len out = added o cs.
Proof.
  intros E o cs cl out Hc Ho HM H. rewrite (c65_reference E o cs cl Hc Ho HM) in H. unfold reference in H.
  destruct (open_image None E o I) as (O1 & O2 & O3 & O4). unfold compiles in Hc. rewrite <- O4 in Hc. unfold added in *. rewrite <- O3 in HM |- *.
  pose proof (calls_image None E cs I (or_introl eq_refl) _ _ O2 I Hc Ho HM) as C. rewrite runs_none in C. destruct (draft_calls cs (draft_open o)) as [d|e|]; cbn [bind] in H; try discriminate.
  destruct C as (C1 & C2 & C3 & C4). rewrite <- C3. clear - H.
  destruct d; cbn [draft_close size] in *; try discriminate H.
  - apply Ok_inj in H. subst out. rewrite len_app, len_ether_wire. reflexivity.
  - unfold v4_alone in H. destruct e as [e|]; cbn [eth_part].
    + destruct (type_for _) as [t|]; [|discriminate]. apply Ok_inj in H. subst out. rewrite !len_app, len_v4_wire, !len_ether_wire. lia.
    + apply Ok_inj in H. subst out. rewrite !len_app, len_v4_wire, len_nil. lia.
  - destruct a as [[e v]|]; [|discriminate]. apply Ok_inj in H. subst out. rewrite !len_app, len_front, len_udp_wire, !len_ip_part. lia.
  - destruct a as [[e v]|]; [|discriminate]. destruct (match cursor_eof E with EofSeek => _ | EofKeep => _ end); [discriminate|].
    apply Ok_inj in H. subst out. rewrite !len_app, len_front, len_tcp_wire, !len_ip_part. lia.
  - destruct f as [[t i] s]. rewrite (icmp_done_len _ _ _ _ (8 + len (given p)) H); [lia|]. intros ck. rewrite len_app. reflexivity.
  - destruct f as [[t i] s]. rewrite (icmp_done_len _ _ _ _ 8 H); [lia|]. intros ck. reflexivity.
  - destruct f as [[[[[t i] s] x] y] z]. rewrite (icmp_done_len _ _ _ _ 20 H); [lia|]. intros ck. reflexivity.
Qed.
(** Where a draft comes from. *)
Definition from (o : opening) (pre : list call) (d : draft) : Prop :=
  match d with
  | DraftIp e | DraftV6 e => e <> None -> o = OpEther
  | DraftV4 e f p => (e <> None -> o = OpEther) /\ (forall q, p = Some q -> In (CallV4 (V4Payload q)) pre)
  | DraftUdp a f p => a = None -> o = OpUdp
  | DraftTcp a f fl p => (a = None -> o = OpTcp) /\ (fl = true -> exists v, In (CallTcp (TcpSet (TcpSetFlags v))) pre) /\ (forall q, p = Some q -> In (CallTcp (TcpPayload q)) pre)
  | DraftEther f p => o = OpEther
  | _ => True
  end.
Lemma in_snoc {A} (x c : A) l : In x l -> In x (l ++ [c]). Proof. intros H. apply in_or_app. left. exact H. Qed.
Lemma in_last {A} (c : A) l : In c (l ++ [c]). Proof. apply in_or_app. right. left. reflexivity. Qed.
Lemma from_step o pre c d d' : from o pre d -> draft_call c d = Ok d' -> from o (pre ++ [c]) d'.
Proof.
  intros Hf H. destruct d; destruct c; try discriminate H; cbn [draft_call from] in *.
  - destruct o0; try (apply Ok_inj in H; subst d'; exact Hf). destruct p; [discriminate H|]. cbn [pay_once] in H. apply Ok_inj in H. subst d'. exact Hf.
  - destruct p; [discriminate H|]. cbn [no_payload_yet] in H. apply Ok_inj in H. subst d'. intros _. exact Hf.
  - apply Ok_inj in H. subst d'. split; [exact Hf|discriminate].
  - apply Ok_inj in H. subst d'. exact Hf.
  - destruct Hf as [F1 F2]. destruct o0 as [s|q].
    + destruct (v4_refuses s); [discriminate|]. apply Ok_inj in H. subst d'. split; [exact F1|]. intros q Hq. apply in_snoc, F2, Hq.
    + destruct p; [discriminate H|]. cbn [pay_once] in H. apply Ok_inj in H. subst d'. split; [exact F1|]. intros q' Hq. injection Hq as <-. apply in_last.
  - destruct p; [discriminate H|]. cbn [no_payload_yet] in H. apply Ok_inj in H. subst d'. discriminate.
  - destruct p; [discriminate H|]. cbn [no_payload_yet] in H. apply Ok_inj in H. subst d'. split; [discriminate|]. split; discriminate.
  - destruct p; [discriminate H|]. cbn [no_payload_yet] in H. apply Ok_inj in H. subst d'. exact I.
  - destruct o0 as [s|q]; [apply Ok_inj in H; subst d'; exact Hf|]. destruct p; [discriminate H|]. cbn [pay_once] in H. apply Ok_inj in H. subst d'. exact Hf.
  - destruct Hf as (F1 & F2 & F3). destruct o0 as [s|q].
    + destruct flags_set; [destruct s; discriminate H|]. apply Ok_inj in H. subst d'. split; [exact F1|]. split.
      * intros Hs. destruct s; try discriminate Hs. eexists. apply in_last.
      * intros q Hq. apply in_snoc, F3, Hq.
    + destruct p; [discriminate H|]. cbn [pay_once] in H. apply Ok_inj in H. subst d'. split; [exact F1|]. split.
      * intros Hs. destruct (F2 Hs) as [v Hv]. exists v. apply in_snoc, Hv.
      * intros q' Hq. injection Hq as <-. apply in_last.
  - apply Ok_inj in H. subst d'. exact I.
  - apply Ok_inj in H. subst d'. exact I.
  - apply Ok_inj in H. subst d'. exact I.
  - destruct o0; try (apply Ok_inj in H; subst d'; exact I). destruct p; [discriminate H|]. cbn [pay_once] in H. apply Ok_inj in H. subst d'. exact I.
  - apply Ok_inj in H. subst d'. exact I.
  - apply Ok_inj in H. subst d'. exact I.
Qed.
Lemma panic_step o pre c d t : from o pre d -> returns (ty_of d) c = Some t -> ordinary c -> draft_call c d = Panic ->
  exists v s, In (CallTcp (TcpSet (TcpSetFlags v))) pre /\ c = CallTcp (TcpSet s).
Proof.
  intros Hf Ht Ho H. destruct d; destruct c; try (discriminate Ht || contradiction Ho); cbn [draft_call] in H; try discriminate H.
  - destruct o0; try discriminate H. destruct p; discriminate H.
  - destruct p; discriminate H.
  - destruct o0 as [s|q]; [destruct (v4_refuses s); discriminate H|destruct p; discriminate H].
  - destruct p; discriminate H.
  - destruct p; discriminate H.
  - destruct p; discriminate H.
  - destruct o0 as [s|q]; [discriminate H|destruct p; discriminate H].
  - destruct o0 as [s|q]; [|destruct p; discriminate H]. destruct flags_set; [|discriminate H]. destruct Hf as (_ & F2 & _). destruct (F2 eq_refl) as [v Hv]. exists v, s. split; [exact Hv|reflexivity].
  - destruct o0; try discriminate H. destruct p; discriminate H.
Qed.
Lemma draft_step_ty c d d' t : returns (ty_of d) c = Some t -> draft_call c d = Ok d' -> ty_of d' = t.
Proof.
  intros Ht H. destruct d; destruct c; try discriminate H; cbn [draft_call] in H; injection Ht as <-;
    repeat match type of H with
    | match ?x with _ => _ end = _ => destruct x
    | pay_once _ ?p _ _ = _ => destruct p; cbn [pay_once] in H
    | no_payload_yet ?p _ = _ => destruct p; cbn [no_payload_yet] in H
    end; try discriminate H; apply Ok_inj in H; subst d'; reflexivity.
Qed.
Lemma calls_from o cs : forall pre d t', from o pre d -> typed (ty_of d) cs t' -> Forall ordinary cs ->
  match draft_calls cs d with
  | Ok d' => from o (pre ++ cs) d' /\ ty_of d' = t'
  | Err _ => True
  | Panic => exists v s l1 l2 l3, pre ++ cs = l1 ++ CallTcp (TcpSet (TcpSetFlags v)) :: l2 ++ CallTcp (TcpSet s) :: l3
  end.
Proof.
  induction cs as [|c cs IH]; intros pre d t' Hf Ht Ho; cbn [draft_calls]; [rewrite app_nil_r; split; assumption|].
  destruct Ht as (t1 & H1 & H2). inversion_clear Ho as [|? ? Ho1 Ho2]. destruct (draft_call c d) as [d1|e|] eqn:Hd; cbn [bind]; [|exact I|].
  - specialize (IH (pre ++ [c]) d1 t' (from_step _ _ _ _ _ Hf Hd)). rewrite (draft_step_ty _ _ _ _ H1 Hd) in IH. specialize (IH H2 Ho2).
    rewrite <- app_assoc in IH. exact IH.
  - destruct (panic_step _ _ _ _ _ Hf H1 Ho1 Hd) as (v & s & Hin & ->). destruct (in_split _ _ Hin) as (l1 & l2 & ->).
    exists v, s, l1, l2, cs. rewrite <- app_assoc. reflexivity.
Qed.
(** C65: the only ways to panic: a UDP or TCP builder outside IPv4; a TCP setter
    after [flags]; a TCP payload of odd length with the older std; in Ethernet, an
    IPv4 payload of 44 bytes or more given to the IPv4 builder itself. *)
Lemma c65_panics : forall E o cs cl, compiles o cs cl -> Forall ordinary cs -> added o cs <= ISIZE_MAX ->
  program E o cs cl dynamic_new = Panic ->
  o = OpUdp \/ o = OpTcp \/
  (exists v s l1 l2 l3, cs = l1 ++ CallTcp (TcpSet (TcpSetFlags v)) :: l2 ++ CallTcp (TcpSet s) :: l3) \/
  (exists p, In (CallTcp (TcpPayload p)) cs /\ len p mod 2 = 1 /\ cursor_eof E = EofSeek) \/
  (o = OpEther /\ cl = ClV4 /\ exists p, In (CallV4 (V4Payload p)) cs /\ 44 <= len p).
Proof.
  intros E o cs cl Hc Ho HM H. rewrite (c65_reference E o cs cl Hc Ho HM) in H. unfold reference in H.
  assert (Hf : from o [] (draft_open o)) by (destruct o; cbn; repeat split; congruence).
  unfold compiles in Hc. replace (opened o) with (ty_of (draft_open o)) in Hc by (destruct o; reflexivity).
  pose proof (calls_from o cs [] _ _ Hf Hc Ho) as C. cbn [app] in C.
  destruct (draft_calls cs (draft_open o)) as [d|e|]; cbn [bind] in H; [|discriminate H|right; right; left; exact C].
  destruct C as [F T]. clear Hf Hc Ho HM. destruct d; cbn [draft_close] in H; try discriminate H.
  - unfold v4_alone in H. destruct e as [e|]; [|discriminate H]. destruct F as [F1 F2]. right. right. right. right.
    split; [apply F1; discriminate|]. split; [destruct cl; try discriminate T; reflexivity|].
    assert (Hp : 44 <= len (given p)).
    { destruct (N.leb_spec 44 (len (given p))) as [|Hl]; [assumption|exfalso]. set (L := 20 + len (given p)) in H.
      replace (L / 4 mod 256) with (L / 4) in H by (unfold L; lia). rewrite lor64_small in H by (unfold L; lia).
      replace (type_for ((64 + L / 4) / 16)) with (Some 2048) in H; [discriminate H|]. unfold type_for. replace ((64 + L / 4) / 16) with 4 by (unfold L; lia). reflexivity. }
    destruct p as [q|]; [|cbn [given] in Hp; rewrite len_nil in Hp; lia]. exists q. split; [apply F2; reflexivity|exact Hp].
  - destruct a as [[e v]|]; [discriminate H|]. left. apply F. reflexivity.
  - destruct F as (F1 & F2 & F3). destruct a as [[e v]|]; [|right; left; apply F1; reflexivity].
    destruct (match cursor_eof E with EofSeek => (20 + len (given p)) mod 2 =? 1 | EofKeep => false end) eqn:Hodd; [|discriminate H].
    right. right. right. left. destruct (cursor_eof E); [discriminate Hodd|]. destruct p as [q|]; cbn [given] in Hodd.
    + exists q. split; [apply F3; reflexivity|]. split; [lia|reflexivity].
    + rewrite len_nil in Hodd. discriminate Hodd.
  - destruct f as [[t i] s]. unfold icmp_done in H. destruct kind_set; discriminate H.
  - destruct f as [[t i] s]. unfold icmp_done in H. destruct kind_set; discriminate H.
  - destruct f as [[[[[t i] s] x] y] z]. unfold icmp_done in H. destruct kind_set; discriminate H.
Qed.
(** C65: [calls_example] meets the hypotheses; so does a misused program, whose
    outcome the reference gives as well. *)
Example c65_example : forall E, compiles OpEther calls_example ClUdp /\ Forall ordinary calls_example /\ added OpEther calls_example <= ISIZE_MAX /\
  reference E OpEther calls_example = Ok
    [0;0;0;0;0;0; 1;2;3;4;5;6; 8;0;
     69;0;0;30; 0;0;0;0; 64;17;122;208; 0;0;0;0; 0;0;0;0;
     0;53;0;0; 0;10;151;60; 104;105].
Proof.
  intros E. repeat apply conj.
  - repeat (eexists; split; [reflexivity|]). reflexivity.
  - repeat constructor.
  - destruct E as [[] [] []]; vm_compute; discriminate.
  - destruct E as [[] [] []]; vm_compute; reflexivity.
Qed.
Example c65_misused : forall E,
  (let cs := [CallV4 (V4Payload [1; 2]); CallV4 (V4Set (V4SetTtl 9)); CallV4Tcp] in
   compiles OpV4 cs ClTcp /\ Forall ordinary cs /\ reference E OpV4 cs = Err AlreadyDefined) /\
  (let cs := [CallTcp (TcpSet (TcpSetFlags 2)); CallTcp (TcpPayload [1; 2]); CallTcp (TcpSet (TcpSetSource 80))] in
   compiles OpTcp cs ClTcp /\ Forall ordinary cs /\ reference E OpTcp cs = Err Io) /\
  (let cs := [CallUdp (UdpSet (UdpSetSource 80))] in compiles OpUdp cs ClUdp /\ Forall ordinary cs /\ reference E OpUdp cs = Panic).
Proof.
  intros E. cbv zeta. repeat apply conj; try (repeat (eexists; split; [reflexivity|]); reflexivity).
  all: try (repeat constructor; vm_compute; discriminate).
  all: destruct E as [[] [] []]; vm_compute; reflexivity.
Qed.
(** C65: in a Slice of 34 bytes with stale contents, Ethernet over IPv4 over UDP without payload does not fit; in 50 bytes it does. *)
Example c65_slice_example : forall E,
  let cs := [CallEther (EtherSource (Hw 1 2 3 4 5 6)); CallEtherIp; CallIpV4; CallV4 (V4Set (V4SetTtl 64)); CallV4Udp; CallUdp (UdpSet (UdpSetSource 53)); CallUdp (UdpPayload [])] in
  compiles OpEther cs ClUdp /\ Forall ordinary cs /\ Forall no_payload cs /\ added OpEther cs = 42 /\
  reference_within E 34 OpEther cs = Err SmallBuffer /\
  reference_within E (len (zeros 50)) OpEther cs = program E OpEther cs ClUdp (slice_new (repeat 7 50)) /\
  reference_within E 50 OpEther cs = Ok
    [0;0;0;0;0;0; 1;2;3;4;5;6; 8;0;
     69;0;0;28; 0;0;0;0; 64;17;122;210; 0;0;0;0; 0;0;0;0;
     0;53;0;0; 0;8;255;169].
Proof.
  intros E. cbv zeta. repeat apply conj.
  - repeat (eexists; split; [reflexivity|]). reflexivity.
  - repeat constructor; vm_compute; reflexivity.
  - repeat constructor.
  - vm_compute. reflexivity.
  - destruct E as [[] [] []]; vm_compute; reflexivity.
  - destruct E as [[] [] []]; vm_compute; reflexivity.
  - destruct E as [[] [] []]; vm_compute; reflexivity.
Qed.
