(** * BlockProofs: guards in blocks of user code that may panic (C73). *)
From Verif Require Import Base Enums Ipv4 Ip Udp Tcp Icmp Spec SpecCalls SpecBlock Lemmas ParseProofs SliceProofs AccessProofs FieldProofs ChecksumLemmas ChecksumProofs GuardProofs.
From Coq Require Import ZifyBool ZifyNat ZifyN.
Ltac Zify.zify_post_hook ::= Z.div_mod_to_equations.

(** ** A block and its list of calls *)
Definition finish (drop : mut) (e : ending) (b : bytes) : outcome :=
  match e with Left => drop_guard drop false b | Panicked | SetterPanicked => drop_guard drop true b | Forgot => Continues b end.
Lemma run_block_finish {A} (apply : A -> mut) drop k : forall b ops e, life apply k b = (ops, e) ->
  run_block apply drop k b = finish drop e (calls apply ops b).
Proof.
  induction k as [| | |o go_on IH]; intros b ops e H; cbn [life run_block] in *.
  - injection H as <- <-. reflexivity.
  - injection H as <- <-. reflexivity.
  - injection H as <- <-. reflexivity.
  - destruct (apply o b) as [b' r] eqn:Ha. destruct r as [u|x|].
    + destruct (life apply (go_on (Ok u)) b') as [ops' e'] eqn:Hl. injection H as <- <-.
      rewrite (IH _ _ _ _ Hl). cbn [calls fold_left]. rewrite Ha. reflexivity.
    + destruct (life apply (go_on (Err x)) b') as [ops' e'] eqn:Hl. injection H as <- <-.
      rewrite (IH _ _ _ _ Hl). cbn [calls fold_left]. rewrite Ha. reflexivity.
    + injection H as <- <-. cbn [calls fold_left finish]. rewrite Ha. reflexivity.
Qed.
Lemma life_ok {A} (apply : A -> mut) ok k : block_ok ok k -> forall b ops e, life apply k b = (ops, e) -> Forall ok ops.
Proof.
  induction 1 as [| | |o go_on Ho Hk IH]; intros b ops e H; cbn [life] in H; try (injection H as <- <-; constructor).
  destruct (apply o b) as [b' r] eqn:Ha. destruct r as [u|x|].
  - destruct (life apply (go_on (Ok u)) b') as [ops' e'] eqn:Hl. injection H as <- <-. constructor; [exact Ho|]. eapply IH; [|exact Hl]; discriminate.
  - destruct (life apply (go_on (Err x)) b') as [ops' e'] eqn:Hl. injection H as <- <-. constructor; [exact Ho|]. eapply IH; [|exact Hl]; discriminate.
  - injection H as <- <-. repeat constructor. exact Ho.
Qed.
(** If the list of calls made goes well, so does the block. *)
Lemma block_guard {A} (apply : A -> mut) drop k : forall b ops e b', life apply k b = (ops, e) ->
  run_guard apply drop ops b = (b', Ok tt) ->
  e <> SetterPanicked /\ (exists u, drop (calls apply ops b) = (b', Ok u)).
Proof.
  induction k as [| | |o go_on IH]; intros b ops e b' H Hg; cbn [life] in H.
  1-3: injection H as <- <-; split; [discriminate|]; cbn [run_guard calls fold_left] in *;
    destruct (drop b) as [c [u| |]]; try discriminate; injection Hg as <-; exists u; reflexivity.
  destruct (apply o b) as [c r] eqn:Ha. destruct r as [u|x|].
  - destruct (life apply (go_on (Ok u)) c) as [ops' e'] eqn:Hl. injection H as <- <-.
    cbn [run_guard] in Hg. rewrite Ha in Hg. cbn [calls fold_left]. rewrite Ha. cbn [fst]. apply (IH _ _ _ _ _ Hl Hg).
  - destruct (life apply (go_on (Err x)) c) as [ops' e'] eqn:Hl. injection H as <- <-.
    cbn [run_guard] in Hg. rewrite Ha in Hg. cbn [calls fold_left]. rewrite Ha. cbn [fst]. apply (IH _ _ _ _ _ Hl Hg).
  - injection H as <- <-. cbn [run_guard] in Hg. rewrite Ha in Hg. discriminate.
Qed.
Lemma block_keeps {A} (apply : A -> mut) drop k b ops e b' : life apply k b = (ops, e) ->
  run_guard apply drop ops b = (b', Ok tt) ->
  e <> SetterPanicked /\
  (e = Forgot -> run_block apply drop k b = Continues (calls apply ops b)) /\
  (e <> Forgot -> run_block apply drop k b = as_the_block e b').
Proof.
  intros H Hg. destruct (block_guard apply drop k b ops e b' H Hg) as [He (u & Hd)].
  rewrite (run_block_finish apply drop k b ops e H). split; [exact He|].
  split; [intros ->; reflexivity|]. intros Hf. unfold finish, as_the_block, drop_guard. rewrite Hd. destruct e; try reflexivity; contradiction.
Qed.
(** A [drop] that fails on the bytes the calls leave. *)
Lemma block_fails {A} (apply : A -> mut) drop k b ops e : life apply k b = (ops, e) ->
  (forall u, snd (drop (calls apply ops b)) <> Ok u) -> drop_panicked e (run_block apply drop k b).
Proof.
  intros H Hd. rewrite (run_block_finish apply drop k b ops e H). set (c := calls apply ops b) in *.
  unfold finish, drop_guard, drop_panicked. destruct (drop c) as [d [u|x|]]; cbn [snd] in Hd; [exfalso; exact (Hd u eq_refl)| |];
    destruct e; try reflexivity; eexists; reflexivity.
Qed.

(** ** The guards *)
(** C73: IPv4.  Wherever the block ends, by whatever way, the calls made until
    then are in the packet with a valid checksum; a panic is the block's own.
    Only a forgotten guard leaves the checksum as it was. *)
Lemma c73_v4 : forall E k b ops e, is_bytes b -> v4_no_payload b = Ok b -> 5 <= nthN b 0 mod 16 ->
  block_ok v4_setter_ok k -> life v4_apply k b = (ops, e) ->
  e <> SetterPanicked /\
  (e = Forgot -> run_block v4_apply (v4_update_checksum E) k b = Continues (calls v4_apply ops b)) /\
  (e <> Forgot -> exists b', run_block v4_apply (v4_update_checksum E) k b = as_the_block e b' /\
     only_changes 10 12 (calls v4_apply ops b) b' /\ only_changes 1 20 b b' /\ v4_is_valid E b' = Ok true).
Proof.
  intros E k b ops e Hb Hn Hi Hk Hl. pose proof (life_ok _ _ _ Hk _ _ _ Hl) as Hok.
  destruct (c25_v4 E ops b Hb Hn Hi Hok) as (b' & H1 & H2 & H3 & H4 & _).
  destruct (block_keeps v4_apply (v4_update_checksum E) k b ops e b' Hl H1) as (G1 & G2 & G3).
  split; [exact G1|]. split; [exact G2|]. intros Hf. exists b'. repeat split; try apply H2; try apply H3; auto.
Qed.
(** C73: UDP over IPv4. *)
Lemma c73_udp : forall E p k b ops e, is_bytes p -> is_bytes b -> 20 <= len p -> udp_no_payload b = Ok b ->
  block_ok udp_setter_ok k -> life udp_apply k b = (ops, e) ->
  e <> SetterPanicked /\
  (e = Forgot -> run_block udp_apply (udp_update_checksum E (V4 p)) k b = Continues (calls udp_apply ops b)) /\
  (e <> Forgot -> exists b', run_block udp_apply (udp_update_checksum E (V4 p)) k b = as_the_block e b' /\
     only_changes 6 8 (calls udp_apply ops b) b' /\ only_changes 0 8 b b' /\ udp_is_valid E (V4 p) b' = Ok true).
Proof.
  intros E p k b ops e Hp Hb Hlp Hn Hk Hl. pose proof (life_ok _ _ _ Hk _ _ _ Hl) as Hok.
  destruct (c25_udp E p ops b Hp Hb Hlp Hn Hok) as (b' & H1 & H2 & H3 & _ & H4).
  destruct (block_keeps udp_apply (udp_update_checksum E (V4 p)) k b ops e b' Hl H1) as (G1 & G2 & G3).
  split; [exact G1|]. split; [exact G2|]. intros Hf. exists b'. repeat split; try apply H2; try apply H3; auto.
Qed.
(** C73: TCP over IPv4, when set_flags is not called. *)
Lemma c73_tcp : forall E p k b ops e, is_bytes p -> is_bytes b -> 20 <= len p -> len b <= 131065 ->
  len b mod 2 = 0 \/ cursor_eof E = EofKeep -> tcp_new b = Ok b -> 5 <= nthN b 12 / 16 ->
  block_ok tcp_setter_ok k -> life tcp_apply k b = (ops, e) -> ~ Exists tcp_is_flags ops ->
  e <> SetterPanicked /\
  (e = Forgot -> run_block tcp_apply (tcp_update_checksum E (V4 p)) k b = Continues (calls tcp_apply ops b)) /\
  (e <> Forgot -> exists b', run_block tcp_apply (tcp_update_checksum E (V4 p)) k b = as_the_block e b' /\
     only_changes 16 18 (calls tcp_apply ops b) b' /\ only_changes 0 20 b b' /\ tcp_is_valid E (V4 p) b' = Ok true).
Proof.
  intros E p k b ops e Hp Hb Hlp Hlb Hc Hn Ho Hk Hl Hf. pose proof (life_ok _ _ _ Hk _ _ _ Hl) as Hok.
  assert (Hok' : Forall (fun s => tcp_setter_ok s /\ ~ tcp_is_flags s) ops).
  { apply Forall_Exists_neg in Hf. clear - Hok Hf. induction Hok; [constructor|]. inversion Hf; subst. constructor; auto. }
  destruct (c25_tcp E p ops b Hp Hb Hlp Hlb Hc Hn Ho Hok') as (b' & H1 & H2 & H3 & _ & H4).
  destruct (block_keeps tcp_apply (tcp_update_checksum E (V4 p)) k b ops e b' Hl H1) as (G1 & G2 & G3).
  split; [exact G1|]. split; [exact G2|]. intros Hf'. exists b'. repeat split; try apply H2; try apply H3; auto.
Qed.
(** C73: echo. *)
Lemma c73_echo : forall E k b ops e, rust_slice b -> echo_new b = Ok b ->
  block_ok echo_setter_ok k -> life echo_apply k b = (ops, e) ->
  e <> SetterPanicked /\
  (e = Forgot -> run_block echo_apply (icmp_checked_drop E (echo_as_ref E)) k b = Continues (calls echo_apply ops b)) /\
  (e <> Forgot -> exists b', run_block echo_apply (icmp_checked_drop E (echo_as_ref E)) k b = as_the_block e b' /\
     only_changes 2 4 (calls echo_apply ops b) b' /\ only_changes 0 8 b b' /\ icmp_is_valid E b' = Ok true).
Proof.
  intros E k b ops e Hb Hn Hk Hl. pose proof (life_ok _ _ _ Hk _ _ _ Hl) as Hok.
  destruct (c25_echo E ops b Hb Hn Hok) as (b' & H1 & H2 & H3 & _ & H4).
  destruct (block_keeps echo_apply (icmp_checked_drop E (echo_as_ref E)) k b ops e b' Hl H1) as (G1 & G2 & G3).
  split; [exact G1|]. split; [exact G2|]. intros Hf. exists b'. repeat split; try apply H2; try apply H3; auto.
Qed.
(** C73: information, whose checksum covers its eight bytes. *)
Lemma c73_information : forall E k b ops e, is_bytes b -> information_new b = Ok b ->
  block_ok information_setter_ok k -> life information_apply k b = (ops, e) ->
  e <> SetterPanicked /\
  (e = Forgot -> run_block information_apply (icmp_checked_drop E (information_as_ref E)) k b = Continues (calls information_apply ops b)) /\
  (e <> Forgot -> exists b', run_block information_apply (icmp_checked_drop E (information_as_ref E)) k b = as_the_block e b' /\
     only_changes 2 4 (calls information_apply ops b) b' /\ only_changes 0 8 b b' /\ icmp_is_valid E (takeN 8 b') = Ok true).
Proof.
  intros E k b ops e Hb Hn Hk Hl. pose proof (life_ok _ _ _ Hk _ _ _ Hl) as Hok.
  destruct (c25_information E ops b Hb Hn Hok) as (b' & H1 & H2 & H3 & _ & H4).
  destruct (block_keeps information_apply (icmp_checked_drop E (information_as_ref E)) k b ops e b' Hl H1) as (G1 & G2 & G3).
  split; [exact G1|]. split; [exact G2|]. intros Hf. exists b'. repeat split; try apply H2; try apply H3; auto.
Qed.
(** C73: timestamp, whose checksum covers its twenty bytes. *)
Lemma c73_timestamp : forall E k b ops e, is_bytes b -> timestamp_new b = Ok b ->
  block_ok timestamp_setter_ok k -> life timestamp_apply k b = (ops, e) ->
  e <> SetterPanicked /\
  (e = Forgot -> run_block timestamp_apply (icmp_checked_drop E (timestamp_as_ref E)) k b = Continues (calls timestamp_apply ops b)) /\
  (e <> Forgot -> exists b', run_block timestamp_apply (icmp_checked_drop E (timestamp_as_ref E)) k b = as_the_block e b' /\
     only_changes 2 4 (calls timestamp_apply ops b) b' /\ only_changes 0 20 b b' /\ icmp_is_valid E (takeN 20 b') = Ok true).
Proof.
  intros E k b ops e Hb Hn Hk Hl. pose proof (life_ok _ _ _ Hk _ _ _ Hl) as Hok.
  destruct (c25_timestamp E ops b Hb Hn Hok) as (b' & H1 & H2 & H3 & _ & H4).
  destruct (block_keeps timestamp_apply (icmp_checked_drop E (timestamp_as_ref E)) k b ops e b' Hl H1) as (G1 & G2 & G3).
  split; [exact G1|]. split; [exact G2|]. intros Hf. exists b'. repeat split; try apply H2; try apply H3; auto.
Qed.

(** ** Guards whose drop panics *)
(** One call on a TCP guard: it panics, and then the offset is below 5 and the
    bytes are as they were, or the segment is still one the parser accepts. *)
Lemma tcp_block_step o b : tcp_setter_ok o -> is_bytes b -> tcp_new b = Ok b ->
  tcp_apply o b = (b, Panic) /\ nthN b 12 / 16 < 5 \/
  snd (tcp_apply o b) <> Panic /\ is_bytes (fst (tcp_apply o b)) /\ tcp_new (fst (tcp_apply o b)) = Ok (fst (tcp_apply o b)) /\
  len (fst (tcp_apply o b)) = len b /\
  (tcp_is_flags o \/ nthN b 12 / 16 < 5 -> nthN (fst (tcp_apply o b)) 12 / 16 < 5).
Proof.
  intros Ho Hb Hn. pose proof Hn as Hn'. apply tcp_new_iff in Hn'. destruct Hn' as (_ & Hl & Hh).
  assert (Hwrite : forall off bs, off + len bs <= 12 \/ 14 <= off /\ off + len bs <= 20 -> is_bytes bs -> 0 < len bs ->
    off + len bs <= nthN b 12 / 16 * 4 \/ nthN b 12 / 16 * 4 <= off ->
    forall r, r = header_mut tcp_split (cursor_write off bs) b ->
    r = (b, Panic) /\ nthN b 12 / 16 < 5 \/
    snd r <> Panic /\ is_bytes (fst r) /\ tcp_new (fst r) = Ok (fst r) /\ len (fst r) = len b /\
    (False \/ nthN b 12 / 16 < 5 -> nthN (fst r) 12 / 16 < 5)).
  { intros off bs H1 H2 H3 H4 r ->. destruct (tcp_write_cases b off bs Hn H4 H3) as [[-> Hin]|[->|Hp]]; cbn [fst snd].
    - right. assert (H0 : nthN (patch off bs b) 12 = nthN b 12) by (apply nthN_patch_out; lia).
      assert (Hl' : len (patch off bs b) = len b) by (apply len_patch; lia).
      split; [discriminate|]. split; [apply is_bytes_patch; assumption|]. split; [apply tcp_new_iff; rewrite H0, Hl'; repeat split; lia|].
      split; [exact Hl'|]. lia.
    - right. repeat split; try assumption; try discriminate. lia.
    - left. split; [exact Hp|]. destruct H4 as [H4|H4]; [|lia]. exfalso.
      rewrite (tcp_header_write b (cursor_write off bs) off bs Hn) in Hp; [discriminate| |exact H4].
      intros h Hh'. apply cursor_write_ok. exact Hh'. }
  destruct o; cbn [tcp_apply tcp_setter_ok tcp_is_flags] in *.
  - eapply (Hwrite 0 (be16 v)); [cbn; lia|apply is_bytes_enc16; exact Ho|cbn; lia|cbn; lia|reflexivity].
  - eapply (Hwrite 2 (be16 v)); [cbn; lia|apply is_bytes_enc16; exact Ho|cbn; lia|cbn; lia|reflexivity].
  - eapply (Hwrite 4 (be32 v)); [cbn; lia|apply is_bytes_enc32; exact Ho|cbn; lia|cbn; lia|reflexivity].
  - eapply (Hwrite 8 (be32 v)); [cbn; lia|apply is_bytes_enc32; exact Ho|cbn; lia|cbn; lia|reflexivity].
  - destruct (N.ltb_spec (nthN b 12 / 16) 4).
    + left. split; [|lia]. unfold tcp_set_flags, mlet, tcp_header. rewrite tcp_split_ok by lia. cbn [bind].
      unfold index. autorewrite with len. destruct (N.ltb_spec 12 (N.min (nthN b 12 / 16 * 4) (len b))); [lia|]. reflexivity.
    + right. destruct (c16_tcp_set_flags b v Hb Hn Ho) as [H1 _].
      destruct (H1 ltac:(lia)) as (b' & Hf & [Hlen _] & _ & Hof & _ & Hn2 & _). rewrite Hf. cbn [fst snd].
      rewrite tcp_set_flags_ok in Hf by (assumption || lia). apply pair_equal_spec in Hf. destruct Hf as [Hf _].
      split; [discriminate|]. split; [rewrite <- Hf; apply is_bytes_patch; [exact Hb|apply is_bytes_enc16; unfold u16; lia]|].
      split; [exact Hn2|]. split; [exact Hlen|]. intros _. rewrite tcp_offset_ok in Hof by lia. injection Hof as Hof. lia.
  - eapply (Hwrite 14 (be16 v)); [cbn; lia|apply is_bytes_enc16; exact Ho|cbn; lia|cbn; lia|reflexivity].
  - eapply (Hwrite 18 (be16 v)); [cbn; lia|apply is_bytes_enc16; exact Ho|cbn; lia|cbn; lia|reflexivity].
Qed.
Lemma tcp_life k : block_ok tcp_setter_ok k -> forall b ops e, is_bytes b -> tcp_new b = Ok b -> life tcp_apply k b = (ops, e) ->
  let c := calls tcp_apply ops b in
  is_bytes c /\ tcp_new c = Ok c /\ len c = len b /\
  (Exists tcp_is_flags ops \/ nthN b 12 / 16 < 5 \/ e = SetterPanicked -> nthN c 12 / 16 < 5).
Proof.
  induction 1 as [| | |o go_on Ho Hk IH]; intros b ops e Hb Hn H; cbn [life] in H;
    try (injection H as <- <-; cbn [calls fold_left]; cbv zeta; repeat split; try assumption;
         intros [Hx|[Hx|Hx]]; [inversion Hx|exact Hx|discriminate]).
  destruct (tcp_block_step o b Ho Hb Hn) as [[Ha Hlt]|(H1 & H2 & H3 & H4 & H5)].
  - rewrite Ha in H. injection H as <- <-. cbn [calls fold_left]. rewrite Ha. cbn [fst]. cbv zeta. repeat split; auto.
  - destruct (tcp_apply o b) as [b' r] eqn:Ha. cbn [fst snd] in *.
    assert (Hgo : exists ops', ops = o :: ops' /\ life tcp_apply (go_on r) b' = (ops', e)).
    { destruct r as [u|x|]; [| |contradiction];
        match type of H with (let (_, _) := ?l in _) = _ => destruct l as [ops' e'] eqn:Hl end; injection H as <- <-; exists ops'; split; auto. }
    destruct Hgo as (ops' & -> & Hl). destruct (IH _ H1 _ _ _ H2 H3 Hl) as (G1 & G2 & G3 & G4).
    cbn [calls fold_left]. rewrite Ha. cbn [fst]. fold (calls tcp_apply ops' b'). cbv zeta.
    split; [exact G1|]. split; [exact G2|]. split; [lia|]. intros Hc. apply G4.
    destruct Hc as [Hc|[Hc|Hc]]; [|right; left; apply H5; right; exact Hc|right; right; exact Hc].
    inversion Hc as [? ? Hf|? ? Hex]; subst; [right; left; apply H5; left; exact Hf|left; exact Hex].
Qed.
Lemma tcp_drop_short E ip b u : tcp_new b = Ok b -> nthN b 12 / 16 < 5 -> snd (tcp_update_checksum E ip b) <> Ok u.
Proof.
  intros Hn H0. pose proof Hn as Hn'. apply tcp_new_iff in Hn'. destruct Hn' as (_ & Hl & Hh).
  unfold tcp_update_checksum, mlet. destruct (tcp_checksum_of E ip b) as [c|e|]; [|discriminate|discriminate].
  unfold tcp_set_checksum, write_u16.
  destruct (header_mut_cursor tcp_split (nthN b 12 / 16 * 4) (dropN (nthN b 12 / 16 * 4) b) b 16 (be16 c)) as [H1 H2];
    [apply tcp_split_ok; lia|lia|].
  destruct (N.eq_dec (nthN b 12 / 16 * 4) 16) as [He|He]; [rewrite H1 by (assumption || cbn; lia); discriminate|rewrite H2 by lia; discriminate].
Qed.
(** C73: once set_flags is called, or when the segment came with a data offset
    below 5, drop panics: leaving the block panics, and a panic of the block or
    of a setter aborts the process, whatever the parent is. *)
Lemma c73_tcp_flags : forall E ip k b ops e, is_bytes b -> tcp_new b = Ok b -> block_ok tcp_setter_ok k ->
  life tcp_apply k b = (ops, e) -> Exists tcp_is_flags ops \/ nthN b 12 / 16 < 5 ->
  drop_panicked e (run_block tcp_apply (tcp_update_checksum E ip) k b).
Proof.
  intros E ip k b ops e Hb Hn Hk Hl Hx. destruct (tcp_life k Hk b ops e Hb Hn Hl) as (H1 & H2 & H3 & H4).
  apply (block_fails tcp_apply _ k b ops e Hl). intros u. apply tcp_drop_short; [exact H2|]. apply H4. tauto.
Qed.
(** C73: so any call after set_flags but set_source aborts the process. *)
Lemma c73_tcp_call_after_flags : forall E ip v o go_on b, is_bytes b -> tcp_new b = Ok b -> v < 512 ->
  (forall p, o <> TcpSetSource p) ->
  run_block tcp_apply (tcp_update_checksum E ip) (CallThen (TcpSetFlags v) (fun _ => CallThen o go_on)) b = Aborts.
Proof.
  intros E ip v o go_on b Hb Hn Hv Ho. cbn [run_block].
  assert (Hab : forall c, tcp_new c = Ok c -> nthN c 12 / 16 < 5 -> drop_guard (tcp_update_checksum E ip) true c = Aborts).
  { intros c Hc Hlt. unfold drop_guard. pose proof (fun u => tcp_drop_short E ip c u Hc Hlt) as Hd.
    destruct (tcp_update_checksum E ip c) as [c' [u|x|]]; [exfalso; exact (Hd u eq_refl)|reflexivity|reflexivity]. }
  destruct (tcp_block_step (TcpSetFlags v) b) as [[Ha Hlt]|(H1 & H2 & H3 & H4 & H5)]; try assumption.
  - rewrite Ha. apply Hab; assumption.
  - cbn [tcp_apply] in *. destruct (c16_tcp_set_flags b v Hb Hn Hv) as [F1 F2].
    destruct (N.ltb_spec (nthN b 12 / 16) 4) as [Hx|Hx]; [exfalso; apply H1; apply F2; exact Hx|].
    destruct (F1 Hx) as (c & Hf & _ & _ & Hof & _ & _). rewrite Hf in *. cbn [fst snd] in *.
    pose proof H3 as Hc'. apply tcp_new_iff in Hc'. destruct Hc' as (_ & Hl & Hh).
    rewrite tcp_offset_ok in Hof by lia. injection Hof as Hof.
    assert (Hp : tcp_apply o c = (c, Panic)).
    { assert (Hw : forall off bs, 0 < off -> header_mut tcp_split (cursor_write off bs) c = (c, Panic)).
      { intros off bs Hoff. apply (header_mut_cursor tcp_split (nthN c 12 / 16 * 4) (dropN (nthN c 12 / 16 * 4) c) c off bs); [apply tcp_split_ok; lia|lia|lia]. }
      destruct o; cbn [tcp_apply]; try (apply Hw; lia); [exfalso; exact (Ho v0 eq_refl)|].
      unfold tcp_set_flags, mlet, tcp_header. rewrite tcp_split_ok by lia. cbn [bind].
      unfold index. autorewrite with len. destruct (N.ltb_spec 12 (N.min (nthN c 12 / 16 * 4) (len c))); [lia|]. reflexivity. }
    rewrite Hp. apply Hab; [exact H3|lia].
Qed.
(** C73: likewise a TCP segment of odd length when it is compiled with the other
    kind of std. *)
Lemma c73_tcp_odd : forall E p k b ops e, is_bytes p -> is_bytes b -> 20 <= len p -> len b <= 131065 -> tcp_new b = Ok b ->
  len b mod 2 = 1 -> cursor_eof E = EofSeek -> block_ok tcp_setter_ok k -> life tcp_apply k b = (ops, e) ->
  drop_panicked e (run_block tcp_apply (tcp_update_checksum E (V4 p)) k b).
Proof.
  intros E p k b ops e Hp Hb Hlp Hlb Hn Hodd He Hk Hl. destruct (tcp_life k Hk b ops e Hb Hn Hl) as (H1 & H2 & H3 & _).
  apply (block_fails tcp_apply _ k b ops e Hl). intros u. unfold tcp_update_checksum, mlet.
  rewrite c22_tcp_checksum_odd by (rewrite ?H3; assumption). discriminate.
Qed.
(** C73: and a UDP or TCP guard with an IPv6 parent. *)
Lemma c73_v6_parent : forall E q b,
  (forall k ops e, life udp_apply k b = (ops, e) -> drop_panicked e (run_block udp_apply (udp_update_checksum E (V6 q)) k b)) /\
  (forall k ops e, life tcp_apply k b = (ops, e) -> drop_panicked e (run_block tcp_apply (tcp_update_checksum E (V6 q)) k b)).
Proof.
  intros E q b. split; intros k ops e Hl; eapply block_fails; try exact Hl; intros u; discriminate.
Qed.
(** C73: a block that stops at the first refused value, one that panics after
    two calls, and TCP blocks whose drop panics. *)
Example c73_example : forall E,
  let b := [69; 0; 0; 20; 1; 2; 64; 0; 64; 17; 9; 9; 10; 0; 0; 1; 10; 0; 0; 2] in
  let c := [69; 0; 0; 20; 1; 2; 64; 0; 5; 17; 96; 213; 10; 0; 0; 1; 10; 0; 0; 2] in
  let t := [0; 80; 0; 99; 0; 0; 0; 1; 0; 0; 0; 2; 80; 2; 1; 0; 0; 0; 0; 0; 104; 105] in
  let stop k := fun r : res unit => match r with Ok _ => k | _ => Leave end in
  let early := CallThen (V4SetTtl 5) (stop (CallThen (V4SetDscp 200) (stop (CallThen (V4SetId 7) (fun _ => Leave))))) in
  let crash := CallThen (V4SetTtl 5) (stop (CallThen (V4SetEcn 0) (fun _ => UserPanic))) in
  let flags k := CallThen (TcpSetFlags 2) (fun _ => k) in
  v4_no_payload b = Ok b /\ is_bytes b /\ block_ok v4_setter_ok early /\ block_ok v4_setter_ok crash /\
  life v4_apply early b = ([V4SetTtl 5; V4SetDscp 200], Left) /\
  run_block v4_apply (v4_update_checksum E) early b = Continues c /\
  run_block v4_apply (v4_update_checksum E) crash b = Unwinds c /\
  tcp_new t = Ok t /\ is_bytes t /\ block_ok tcp_setter_ok (flags UserPanic) /\
  (exists t', run_block tcp_apply (tcp_update_checksum E (V4 b)) (flags Leave) t = Unwinds t') /\
  run_block tcp_apply (tcp_update_checksum E (V4 b)) (flags UserPanic) t = Aborts /\
  (exists t', run_block tcp_apply (tcp_update_checksum E (V4 b)) (CallThen (TcpSetWindow 9) (fun _ => UserPanic)) t = Unwinds t' /\
     tcp_is_valid E (V4 b) t' = Ok true).
Proof.
  intros [[] [] []]; cbv zeta; repeat split; try (repeat constructor; fail); try (eexists; reflexivity);
    try (repeat (constructor; try (vm_compute; reflexivity); intros [[]| |] ?; try contradiction); fail);
    try (eexists; split; reflexivity).
Qed.
