(** * RefreshProofs: C57 (recomputing a checksum). *)
From Verif Require Import Base Enums Ether Ipv4 Ip Udp Tcp Icmp Spec SpecCalls SpecEdit SpecOrder.
From Verif Require Import Lemmas ParseProofs SliceProofs AccessProofs FieldProofs ChecksumLemmas ChecksumProofs GuardProofs CopyProofs.
From Coq Require Import ZifyBool ZifyNat ZifyN.
Ltac Zify.zify_post_hook ::= Z.div_mod_to_equations.

Lemma zero_field_same off b c : only_changes off (off + 2) b c -> off + 2 <= len b -> zero_field off c = zero_field off b.
Proof.
  intros [Hl H] Ho. apply nthN_ext; [rewrite !len_zero_field; exact Hl|]. intros i Hi.
  rewrite !zero_field_patch by lia. assert (D : off <= i < off + 2 \/ (i < off \/ off + 2 <= i)) by lia.
  destruct D as [D|D].
  - rewrite !nthN_patch_in by (cbn; lia). reflexivity.
  - rewrite !nthN_patch_out by (cbn; lia). apply H. exact D.
Qed.
Lemma patch_same off v b c : only_changes off (off + 2) b c -> off + 2 <= len b -> patch off (enc16 v) c = patch off (enc16 v) b.
Proof.
  intros [Hl H] Ho. apply nthN_ext; [rewrite !len_patch by (cbn; lia); exact Hl|]. intros i Hi.
  assert (D : off <= i < off + 2 \/ (i < off \/ off + 2 <= i)) by lia. destruct D as [D|D].
  - rewrite !nthN_patch_in by (cbn; lia). reflexivity.
  - rewrite !nthN_patch_out by (cbn; lia). apply H. exact D.
Qed.
Lemma patch_fixed off v b : v < 65536 -> is_bytes b -> off + 2 <= len b ->
  ((patch off (enc16 v) b, Ok tt) = (b, Ok tt) <-> Ok (v =? wire16 b off) = Ok true).
Proof.
  intros Hv Hb Ho. split.
  - intros H. assert (E : patch off (enc16 v) b = b) by congruence.
    rewrite <- E. rewrite wire16_patch by lia. rewrite N.eqb_refl. reflexivity.
  - intros H. assert (E : v = wire16 b off) by (apply ok_true_eqb; exact H). f_equal. subst v.
    apply nthN_ext; [apply len_patch; cbn; lia|]. intros i Hi.
    assert (D : off <= i < off + 2 \/ (i < off \/ off + 2 <= i)) by lia. destruct D as [D|D].
    + rewrite nthN_patch_in by (cbn; lia). rewrite (enc16_wire b off) by assumption.
      assert (D' : i = off \/ i = off + 1) by lia. destruct D' as [-> | ->].
      * replace (off - off) with 0 by lia. reflexivity.
      * replace (off + 1 - off) with 1 by lia. reflexivity.
    + apply nthN_patch_out; cbn; lia.
Qed.
Lemma only_changes_takeN n lo hi b c : only_changes lo hi b c -> only_changes lo hi (takeN n b) (takeN n c).
Proof.
  intros [Hl H]. split; [autorewrite with len; lia|]. intros i Hi.
  destruct (N.ltb_spec i n); [rewrite !nthN_takeN by lia; apply H; exact Hi|].
  rewrite !nthN_out; [reflexivity|autorewrite with len; lia|autorewrite with len; lia].
Qed.

Lemma v4_update_eq E b : is_bytes b -> v4_no_payload b = Ok b -> 3 <= nthN b 0 mod 16 ->
  v4_update_checksum E b = (patch 10 (enc16 (inet_checksum (zero_field 10 (takeN (nthN b 0 mod 16 * 4) b)))) b, Ok tt).
Proof.
  intros Hb Hn Hi. pose proof Hn as Hn'. apply v4_no_payload_iff in Hn. destruct Hn as (_ & Hl & Hv & Hh).
  unfold v4_update_checksum, mlet, v4_header. rewrite v4_split_ok by lia. cbn [bind].
  pose proof (v4_header_sum b ltac:(lia) ltac:(lia) ltac:(lia)).
  rewrite c20_v4_checksum_rfc; [|apply is_bytes_takeN; exact Hb|autorewrite with len; lia|lia].
  apply v4_set_checksum_ok; (assumption || lia).
Qed.
Lemma inet_lt b : inet_checksum b < 65536. Proof. unfold inet_checksum. lia. Qed.
(** C57: IPv4: the result does not depend on the checksum stored before. *)
Lemma c57_v4_stored : forall E b c, is_bytes b -> is_bytes c -> v4_no_payload b = Ok b -> 3 <= nthN b 0 mod 16 ->
  only_changes 10 12 b c -> v4_update_checksum E c = v4_update_checksum E b.
Proof.
  intros E b c Hb Hc Hn Hi Ho. pose proof Hn as Hn1. apply v4_no_payload_iff in Hn1. destruct Hn1 as (_ & Hl & Hv & Hh).
  pose proof Ho as [Hl' Hx]. assert (H0 : nthN c 0 = nthN b 0) by (apply Hx; lia).
  assert (Hnc : v4_no_payload c = Ok c) by (apply v4_no_payload_iff; rewrite H0, Hl'; repeat split; assumption).
  rewrite !v4_update_eq by (rewrite ?H0; assumption). rewrite H0.
  rewrite (zero_field_same 10 (takeN _ b)) by (try (apply only_changes_takeN; exact Ho); autorewrite with len; lia).
  f_equal. apply patch_same; [exact Ho|lia].
Qed.
(** C57: IPv4: updating is the identity exactly on the valid packets. *)
Lemma c57_v4_fixed : forall E b, is_bytes b -> v4_no_payload b = Ok b -> 3 <= nthN b 0 mod 16 ->
  (v4_update_checksum E b = (b, Ok tt) <-> v4_is_valid E b = Ok true).
Proof.
  intros E b Hb Hn Hi. rewrite v4_update_eq by assumption. rewrite c20_v4_is_valid by (assumption || lia).
  apply v4_no_payload_iff in Hn. apply patch_fixed; [apply inet_lt|exact Hb|lia].
Qed.
Lemma udp_update_eq E p b : is_bytes p -> is_bytes b -> 20 <= len p -> 8 <= len b ->
  udp_update_checksum E (V4 p) b =
  (patch 6 (enc16 (inet_checksum (with_pseudo_header (wire_addr p 12) (wire_addr p 16) 17 (seen E (zero_field 6 b))))) b, Ok tt).
Proof. intros Hp Hb Hl Hlb. unfold udp_update_checksum, mlet. rewrite udp_checksum_eq by assumption. apply udp_header_write; lia. Qed.
(** C57: UDP, any datagram, any build profile, any std. *)
Lemma c57_udp_stored : forall E p b c, is_bytes p -> is_bytes b -> is_bytes c -> 20 <= len p -> 8 <= len b ->
  only_changes 6 8 b c -> udp_update_checksum E (V4 p) c = udp_update_checksum E (V4 p) b.
Proof.
  intros E p b c Hp Hb Hc Hl Hlb Ho. assert (Hl' : len c = len b) by apply Ho.
  rewrite !udp_update_eq by (assumption || lia). rewrite (zero_field_same 6 b c) by (assumption || lia).
  f_equal. apply patch_same; [exact Ho|lia].
Qed.
(** C57: UDP. *)
Lemma c57_udp_fixed : forall E p b, is_bytes p -> is_bytes b -> 20 <= len p -> 8 <= len b ->
  (udp_update_checksum E (V4 p) b = (b, Ok tt) <-> udp_is_valid E (V4 p) b = Ok true).
Proof.
  intros E p b Hp Hb Hl Hlb. rewrite udp_update_eq by assumption. rewrite udp_is_valid_eq by assumption.
  apply patch_fixed; [apply inet_lt|exact Hb|lia].
Qed.
(** C57: TCP. *)
Lemma c57_tcp_stored : forall E p b c, is_bytes p -> is_bytes b -> is_bytes c -> 20 <= len p -> len b <= 131065 ->
  len b mod 2 = 0 \/ cursor_eof E = EofKeep -> tcp_new b = Ok b -> 5 <= nthN b 12 / 16 ->
  only_changes 16 18 b c -> tcp_update_checksum E (V4 p) c = tcp_update_checksum E (V4 p) b.
Proof.
  intros E p b c Hp Hb Hc Hl Hlb He Hn Ho Hoc. pose proof Hoc as [Hl' Hx].
  assert (H12 : nthN c 12 = nthN b 12) by (apply Hx; lia). pose proof Hn as Hn1. apply tcp_new_iff in Hn1. destruct Hn1 as (_ & Hn1).
  assert (Hnc : tcp_new c = Ok c) by (apply tcp_new_iff; rewrite H12, Hl'; split; [reflexivity|exact Hn1]).
  rewrite !tcp_update_eq by (rewrite ?Hl', ?H12; assumption). rewrite (zero_field_same 16 b c) by (assumption || lia).
  f_equal. apply patch_same; [exact Hoc|lia].
Qed.
(** C57: TCP. *)
Lemma c57_tcp_fixed : forall E p b, is_bytes p -> is_bytes b -> 20 <= len p -> len b <= 131065 ->
  len b mod 2 = 0 \/ cursor_eof E = EofKeep -> tcp_new b = Ok b -> 5 <= nthN b 12 / 16 ->
  (tcp_update_checksum E (V4 p) b = (b, Ok tt) <-> tcp_is_valid E (V4 p) b = Ok true).
Proof.
  intros E p b Hp Hb Hl Hlb He Hn Ho. rewrite tcp_update_eq by assumption. apply tcp_new_iff in Hn. destruct Hn as (_ & Hn & _).
  rewrite c22_tcp_is_valid by (assumption || lia). apply patch_fixed; [apply inet_lt|exact Hb|lia].
Qed.
(** ICMP guards, with no call between checked() and the drop. *)
Lemma icmp_drop_same E as_ref n b c : is_bytes b -> is_bytes c -> as_ref b = Ok (takeN n b) -> as_ref c = Ok (takeN n c) -> 4 <= n <= len b ->
  only_changes 2 4 b c -> icmp_checked_drop E as_ref c = icmp_checked_drop E as_ref b.
Proof.
  intros Hb Hc Rb Rc Hn Ho. assert (Hl' : len c = len b) by apply Ho.
  rewrite (icmp_drop_ok E as_ref n b), (icmp_drop_ok E as_ref n c) by (assumption || lia).
  rewrite (zero_field_same 2 (takeN n b)) by (try (apply only_changes_takeN; exact Ho); autorewrite with len; lia).
  f_equal. apply patch_same; [exact Ho|lia].
Qed.
Lemma icmp_drop_fixed E as_ref n b : is_bytes b -> as_ref b = Ok (takeN n b) -> 4 <= n <= len b ->
  (icmp_checked_drop E as_ref b = (b, Ok tt) <-> icmp_is_valid E (takeN n b) = Ok true).
Proof.
  intros Hb Rb Hn. rewrite (icmp_drop_ok E as_ref n b) by (assumption || lia).
  unfold icmp_is_valid. rewrite c23_icmp_checksum by (apply is_bytes_takeN; exact Hb). cbn [bind].
  unfold icmp_checksum. rewrite get16 by (autorewrite with len; lia). cbn [bind].
  assert (Hw : wire16 (takeN n b) 2 = wire16 b 2) by (unfold wire16; rewrite !nthN_takeN by lia; reflexivity). rewrite Hw.
  apply patch_fixed; [apply nonzero_lt|exact Hb|lia].
Qed.
Lemma guard_nil {A} (apply : A -> mut) drop b c : drop c = drop b -> run_guard apply drop [] c = run_guard apply drop [] b.
Proof. intros H. cbn [run_guard]. rewrite H. reflexivity. Qed.
Lemma guard_nil_fixed {A} (apply : A -> mut) E as_ref n b : is_bytes b -> as_ref b = Ok (takeN n b) -> 4 <= n <= len b ->
  (run_guard apply (icmp_checked_drop E as_ref) [] b = (b, Ok tt) <-> icmp_is_valid E (takeN n b) = Ok true).
Proof.
  intros Hb Rb Hn. rewrite <- (icmp_drop_fixed E as_ref n b Hb Rb Hn). cbn [run_guard].
  rewrite (icmp_drop_ok E as_ref n b Hb Rb Hn). reflexivity.
Qed.
Lemma echo_ref E b : rust_slice b -> 8 <= len b -> echo_as_ref E b = Ok (takeN (len b) b).
Proof.
  intros [Hb Hi] Hl. unfold echo_as_ref, echo_size, echo_header_size, echo_payload_size. cbn [bind].
  apply isize_usize in Hi. rewrite usize_sub_ok by lia. cbn [bind]. rewrite usize_add_ok by lia. cbn [bind].
  rewrite slice_to_ok by lia. f_equal. f_equal. lia.
Qed.
Lemma information_ref E b : 8 <= len b -> information_as_ref E b = Ok (takeN 8 b).
Proof.
  intros Hl. unfold information_as_ref, information_size, information_header_size, information_payload_size. cbn [bind].
  rewrite usize_add_ok by (widths; lia). cbn [bind]. apply slice_to_ok. lia.
Qed.
Lemma timestamp_ref E b : 20 <= len b -> timestamp_as_ref E b = Ok (takeN 20 b).
Proof.
  intros Hl. unfold timestamp_as_ref, timestamp_size, timestamp_header_size, timestamp_payload_size. cbn [bind].
  rewrite usize_add_ok by (widths; lia). cbn [bind]. apply slice_to_ok. lia.
Qed.
Lemma rust_slice_same {E : env} b c : rust_slice b -> is_bytes c -> len c = len b -> rust_slice c.
Proof. intros [Hb Hi] Hc Hl. split; [exact Hc|]. rewrite Hl. exact Hi. Qed.
(** C57: echo: opening and dropping the checked guard. *)
Lemma c57_echo_stored : forall E b c, rust_slice b -> is_bytes c -> echo_new b = Ok b -> only_changes 2 4 b c ->
  echo_checked E [] c = echo_checked E [] b.
Proof.
  intros E b c Hb Hc Hn Ho. destruct (typed_inv _ _ _ _ _ c05_echo_new Hn) as (_ & H & _). assert (Hl : len c = len b) by apply Ho.
  apply guard_nil. apply (icmp_drop_same E (echo_as_ref E) (len b)); try assumption; try apply Hb; try lia.
  - apply echo_ref; assumption.
  - rewrite <- Hl. apply echo_ref; [eapply rust_slice_same; eassumption|lia].
Qed.
(** C57: echo. *)
Lemma c57_echo_fixed : forall E b, rust_slice b -> echo_new b = Ok b ->
  (echo_checked E [] b = (b, Ok tt) <-> icmp_is_valid E b = Ok true).
Proof.
  intros E b Hb Hn. destruct (typed_inv _ _ _ _ _ c05_echo_new Hn) as (_ & H & _).
  rewrite <- (takeN_all (len b) b) at 3 by lia.
  apply (guard_nil_fixed echo_apply E (echo_as_ref E)); [apply Hb|apply echo_ref; assumption|lia].
Qed.
(** C57: information. *)
Lemma c57_information_stored : forall E b c, is_bytes b -> is_bytes c -> information_new b = Ok b -> only_changes 2 4 b c ->
  information_checked E [] c = information_checked E [] b.
Proof.
  intros E b c Hb Hc Hn Ho. destruct (typed_inv _ _ _ _ _ c05_information_new Hn) as (_ & H & _). assert (Hl : len c = len b) by apply Ho.
  apply guard_nil. apply (icmp_drop_same E (information_as_ref E) 8); try assumption; try lia; apply information_ref; lia.
Qed.
(** C57: information. *)
Lemma c57_information_fixed : forall E b, is_bytes b -> information_new b = Ok b ->
  (information_checked E [] b = (b, Ok tt) <-> icmp_is_valid E (takeN 8 b) = Ok true).
Proof.
  intros E b Hb Hn. destruct (typed_inv _ _ _ _ _ c05_information_new Hn) as (_ & H & _).
  apply (guard_nil_fixed information_apply E (information_as_ref E)); [exact Hb|apply information_ref; lia|lia].
Qed.
(** C57: timestamp. *)
Lemma c57_timestamp_stored : forall E b c, is_bytes b -> is_bytes c -> timestamp_new b = Ok b -> only_changes 2 4 b c ->
  timestamp_checked E [] c = timestamp_checked E [] b.
Proof.
  intros E b c Hb Hc Hn Ho. destruct (typed_inv _ _ _ _ _ c05_timestamp_new Hn) as (_ & H & _). assert (Hl : len c = len b) by apply Ho.
  apply guard_nil. apply (icmp_drop_same E (timestamp_as_ref E) 20); try assumption; try lia; apply timestamp_ref; lia.
Qed.
(** C57: timestamp. *)
Lemma c57_timestamp_fixed : forall E b, is_bytes b -> timestamp_new b = Ok b ->
  (timestamp_checked E [] b = (b, Ok tt) <-> icmp_is_valid E (takeN 20 b) = Ok true).
Proof.
  intros E b Hb Hn. destruct (typed_inv _ _ _ _ _ c05_timestamp_new Hn) as (_ & H & _).
  apply (guard_nil_fixed timestamp_apply E (timestamp_as_ref E)); [exact Hb|apply timestamp_ref; lia|lia].
Qed.
Example c57_example : forall E, let b := [69; 0; 0; 20; 1; 2; 64; 0; 64; 17; 9; 9; 10; 0; 0; 1; 10; 0; 0; 2] in
  let c := [69; 0; 0; 20; 1; 2; 64; 0; 64; 17; 37; 213; 10; 0; 0; 1; 10; 0; 0; 2] in
  v4_no_payload b = Ok b /\ is_bytes b /\ only_changes 10 12 b c /\ v4_update_checksum E b = (c, Ok tt) /\
  v4_update_checksum E c = (c, Ok tt) /\ v4_is_valid E c = Ok true.
Proof.
  intros E b c. repeat apply conj; try (vm_compute; reflexivity); try (repeat constructor).
  intros i Hi. unfold nthN. assert (D : i < 10 \/ 12 <= i < 20 \/ 20 <= i) by lia.
  destruct D as [D|[D|D]].
  - assert (D' : i = 0 \/ i = 1 \/ i = 2 \/ i = 3 \/ i = 4 \/ i = 5 \/ i = 6 \/ i = 7 \/ i = 8 \/ i = 9) by lia.
    repeat (destruct D' as [->|D']; [reflexivity|]). subst i. reflexivity.
  - assert (D' : i = 12 \/ i = 13 \/ i = 14 \/ i = 15 \/ i = 16 \/ i = 17 \/ i = 18 \/ i = 19) by lia.
    repeat (destruct D' as [->|D']; [reflexivity|]). subst i. reflexivity.
  - change (nthN c i = nthN b i). rewrite !nthN_out; [reflexivity|unfold b; cbn; lia|unfold c; cbn; lia].
Qed.
