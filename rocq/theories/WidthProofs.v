(** * WidthProofs: 32-bit and 64-bit targets (C67). *)
From Coq Require Import ZifyBool ZifyNat ZifyN String.
From Verif Require Import Base Enums Buffer Ether Ipv4 Ip Udp Tcp Icmp Builders Debug Mutable Spec SpecCalls SpecBuild SpecProfile SpecShift SpecReference SpecSucceed Lemmas ProfileProofs ReferenceProofs SucceedProofs.
Ltac Zify.zify_post_hook ::= Z.div_mod_to_equations.
Open Scope N_scope.

Lemma w_stricter (E : env) c : overflow_checks E = true -> overflow_checks (debug c Bits32) = true.
Proof. reflexivity. Qed.
(** C67: sizes and whole slices of every type, on any bytes (accepted or unchecked). *)
Lemma c67_sizes : forall E b, let D := debug (cursor_eof E) Bits32 in
  (agrees (ether_payload_size D b) (ether_payload_size E b) /\ agrees (ether_size D b) (ether_size E b) /\
   agrees (ether_as_ref D b) (ether_as_ref E b) /\ agrees (ether_as_mut D b) (ether_as_mut E b)) /\
  (agrees (tcp_payload_size D b) (tcp_payload_size E b) /\ agrees (tcp_size D b) (tcp_size E b) /\
   agrees (tcp_as_ref D b) (tcp_as_ref E b) /\ agrees (tcp_as_mut D b) (tcp_as_mut E b)) /\
  (agrees (icmp_payload_size D b) (icmp_payload_size E b) /\ agrees (icmp_size D b) (icmp_size E b) /\
   agrees (icmp_as_ref D b) (icmp_as_ref E b) /\ agrees (icmp_as_mut D b) (icmp_as_mut E b)) /\
  (agrees (echo_payload_size D b) (echo_payload_size E b) /\ agrees (echo_size D b) (echo_size E b) /\
   agrees (echo_as_ref D b) (echo_as_ref E b) /\ agrees (echo_as_mut D b) (echo_as_mut E b)) /\
  (agrees (information_size D b) (information_size E b) /\
   agrees (information_as_ref D b) (information_as_ref E b) /\ agrees (information_as_mut D b) (information_as_mut E b)) /\
  (agrees (timestamp_size D b) (timestamp_size E b) /\
   agrees (timestamp_as_ref D b) (timestamp_as_ref E b) /\ agrees (timestamp_as_mut D b) (timestamp_as_mut E b)) /\
  (agrees (embedded_payload_size D b) (embedded_payload_size E b) /\ agrees (embedded_size D b) (embedded_size E b) /\
   agrees (embedded_as_ref D b) (embedded_as_ref E b) /\ agrees (redirect_message_as_mut D b) (redirect_message_as_mut E b) /\
   agrees (parameter_problem_as_mut D b) (parameter_problem_as_mut E b) /\ agrees (previous_as_mut D b) (previous_as_mut E b)).
Proof.
  intros E b D. pose proof (w_stricter E (cursor_eof E)) as S. assert (W : target E = target D \/ (target D = Bits32 /\ overflow_checks D = true)) by (right; split; reflexivity). repeat apply conj.
  all: first [apply ag_ether_payload_size|apply ag_ether_size|apply ag_ether_as_ref|apply ag_ether_as_mut|apply ag_tcp_payload_size|apply ag_tcp_size
    |apply ag_tcp_as_ref|apply ag_tcp_as_mut|apply ag_icmp_payload_size|apply ag_icmp_size|apply ag_icmp_as_ref|apply ag_icmp_as_mut
    |apply ag_echo_payload_size|apply ag_echo_size|apply ag_echo_as_ref|apply ag_echo_as_mut|apply ag_information_size|apply ag_information_as_ref
    |apply ag_information_as_mut|apply ag_timestamp_size|apply ag_timestamp_as_ref|apply ag_timestamp_as_mut|apply ag_embedded_payload_size
    |apply ag_embedded_size|apply ag_embedded_as_ref|apply ag_redirect_as_mut|apply ag_parameter_as_mut|apply ag_previous_as_mut]; first [exact S|exact W].
Qed.
(** C67: checksums, is_valid, update_checksum and checked guards. *)
Lemma c67_checksums : forall E ip b, let D := debug (cursor_eof E) Bits32 in
  (agrees (v4_checksum_of D b) (v4_checksum_of E b) /\ agrees (v4_is_valid D b) (v4_is_valid E b) /\
   agrees_mut (v4_update_checksum D b) (v4_update_checksum E b) /\ forall ops, agrees_mut (v4_checked D ops b) (v4_checked E ops b)) /\
  (agrees (udp_checksum_of D ip b) (udp_checksum_of E ip b) /\ agrees (udp_is_valid D ip b) (udp_is_valid E ip b) /\
   agrees_mut (udp_update_checksum D ip b) (udp_update_checksum E ip b) /\ forall ops, agrees_mut (udp_checked D ip ops b) (udp_checked E ip ops b)) /\
  (agrees (tcp_checksum_of D ip b) (tcp_checksum_of E ip b) /\ agrees (tcp_is_valid D ip b) (tcp_is_valid E ip b) /\
   agrees_mut (tcp_update_checksum D ip b) (tcp_update_checksum E ip b) /\ forall ops, agrees_mut (tcp_checked D ip ops b) (tcp_checked E ip ops b)) /\
  (agrees (icmp_checksum_of D b) (icmp_checksum_of E b) /\ agrees (icmp_is_valid D b) (icmp_is_valid E b)) /\
  (forall ops, agrees_mut (echo_checked D ops b) (echo_checked E ops b)) /\
  (forall ops, agrees_mut (information_checked D ops b) (information_checked E ops b)) /\
  (forall ops, agrees_mut (timestamp_checked D ops b) (timestamp_checked E ops b)).
Proof.
  intros E ip b D. pose proof (w_stricter E (cursor_eof E)) as S. assert (W : target E = target D \/ (target D = Bits32 /\ overflow_checks D = true)) by (right; split; reflexivity). assert (K : cursor_eof D = cursor_eof E) by reflexivity. repeat apply conj; intros.
  all: first [apply ag_v4_checksum_of|apply ag_v4_is_valid|apply am_v4_update|apply am_v4_checked|apply ag_udp_checksum_of|apply ag_udp_is_valid
    |apply am_udp_update|apply am_udp_checked|apply ag_tcp_checksum_of|apply ag_tcp_is_valid|apply am_tcp_update|apply am_tcp_checked
    |apply ag_icmp_checksum_of|apply ag_icmp_is_valid|apply am_echo_checked|apply am_information_checked|apply am_timestamp_checked];
    assumption.
Qed.
(** C67: options and loops over them. *)
Lemma c67_options : forall E b, let D := debug (cursor_eof E) Bits32 in
  (agrees (tcpopt_payload_size D b) (tcpopt_payload_size E b) /\ agrees (tcpopt_size D b) (tcpopt_size E b) /\
   agrees (tcpopt_as_ref D b) (tcpopt_as_ref E b) /\ agrees (tcpopt_as_mut D b) (tcpopt_as_mut E b)) /\
  (agrees (v4opt_payload_size D b) (v4opt_payload_size E b) /\ agrees (v4opt_size D b) (v4opt_size E b) /\
   agrees (v4opt_as_ref D b) (v4opt_as_ref E b) /\ agrees (v4opt_as_mut D b) (v4opt_as_mut E b)) /\
  (forall n, nexts (tcp_iter_next D) n b = nexts (tcp_iter_next E) n b \/ In Panic (nexts (tcp_iter_next D) n b)) /\
  (forall n, nexts (v4_iter_next D) n b = nexts (v4_iter_next E) n b \/ In Panic (nexts (v4_iter_next D) n b)).
Proof.
  intros E b D. pose proof (w_stricter E (cursor_eof E)) as S. assert (W : target E = target D \/ (target D = Bits32 /\ overflow_checks D = true)) by (right; split; reflexivity). repeat apply conj; intros.
  all: first [apply ag_tcpopt_payload_size|apply ag_tcpopt_size|apply ag_tcpopt_as_ref|apply ag_tcpopt_as_mut
    |apply ag_v4opt_payload_size|apply ag_v4opt_size|apply ag_v4opt_as_ref|apply ag_v4opt_as_mut
    |apply nexts_ag; intros; first [apply ag_tcp_iter_next|apply ag_v4_iter_next]]; first [exact S|exact W].
Qed.
(** C67: Debug formatting. *)
Lemma c67_formatting : forall E b, let D := debug (cursor_eof E) Bits32 in
  agrees (v4_debug D b) (v4_debug E b) /\ (forall ip, agrees (ip_debug D ip) (ip_debug E ip)) /\ agrees (icmp_debug D b) (icmp_debug E b) /\
  agrees (parameter_problem_debug D b) (parameter_problem_debug E b) /\ agrees (redirect_message_debug D b) (redirect_message_debug E b) /\
  agrees (previous_debug D b) (previous_debug E b).
Proof.
  intros E b D. pose proof (w_stricter E (cursor_eof E)) as S. assert (W : target E = target D \/ (target D = Bits32 /\ overflow_checks D = true)) by (right; split; reflexivity). repeat apply conj; intros.
  all: first [apply ag_v4_debug|apply ag_ip_debug|apply ag_icmp_debug|apply ag_parameter_debug|apply ag_redirect_debug|apply ag_previous_debug]; first [exact S|exact W].
Qed.
(** C67: buffers, in any state. *)
Lemma c67_buffers : forall E n f b, let D := debug (cursor_eof E) Bits32 in
  agrees (buf_data D b) (buf_data E b) /\ agrees_mut (buf_data_mut D f b) (buf_data_mut E f b) /\
  agrees_mut (buf_next D n b) (buf_next E n b) /\ agrees_mut (buf_more D n b) (buf_more E n b).
Proof.
  intros E n f b D. pose proof (w_stricter E (cursor_eof E)) as S. assert (W : target E = target D \/ (target D = Bits32 /\ overflow_checks D = true)) by (right; split; reflexivity). repeat apply conj.
  - apply ag_buf_data; [exact S|exact W].
  - apply am_buf_data_mut; [exact S|exact W|apply am_same].
  - apply am_buf_next; [exact S|exact W].
  - apply am_buf_more; [exact S|exact W].
Qed.
(** C67: every builder program, well used or misused, on any buffer. *)
Lemma c67_builders : forall E o cs cl buf, agrees (program (debug (cursor_eof E) Bits32) o cs cl buf) (program E o cs cl buf).
Proof. intros. apply ag_program_all; [apply w_stricter|right; split; reflexivity|reflexivity]. Qed.
(** C67: and every look at an unfinished packet. *)
Lemma c67_previews : forall E o cs parse buf, agrees (preview (debug (cursor_eof E) Bits32) o cs parse buf) (preview E o cs parse buf).
Proof. intros. apply ag_preview; [apply w_stricter|right; split; reflexivity]. Qed.
(** C67: ordinary programs that stay below 2 GiB give the same packet or the same
    error whatever the profile and the width; only the std can matter. *)
Lemma c67_programs : forall E E' o cs cl, cursor_eof E = cursor_eof E' ->
  compiles o cs cl -> Forall ordinary cs -> added o cs < 2 ^ 31 ->
  program E o cs cl dynamic_new = program E' o cs cl dynamic_new /\
  (forall s, Forall no_payload cs -> len s < 2 ^ 31 -> program E o cs cl (slice_new s) = program E' o cs cl (slice_new s)).
Proof.
  intros E E' o cs cl HE Hc Ho Hn. change (2 ^ 31) with 2147483648 in *.
  assert (W : forall F : env, 2147483647 <= ISIZE_MAX) by (intros F; widths; lia).
  pose proof (W E) as W1. pose proof (W E') as W2.
  assert (D : forall d, draft_close E d = draft_close E' d) by (intros []; unfold draft_close, counted; rewrite ?HE; reflexivity). split.
  - rewrite (c65_reference E o cs cl Hc Ho), (c65_reference E' o cs cl Hc Ho) by lia. unfold reference.
    destruct (draft_calls cs (draft_open o)); cbn [bind]; [apply D|reflexivity|reflexivity].
  - intros s Hs Hl. rewrite (c65_slice E o cs cl s Hc Ho Hs), (c65_slice E' o cs cl s Hc Ho Hs) by lia.
    unfold reference_within. destruct (fitting (len s) (draft_open o)) as [d| |]; cbn [bind]; [|reflexivity|reflexivity].
    match goal with |- (let* _ := ?x in _) = _ => destruct x end; cbn [bind]; [apply D|reflexivity|reflexivity].
Qed.
(** C67: the widths do differ where sums wrap, and where a buffer of 2 GiB is asked for. *)
Lemma c67_equal_refuted : forall c,
  (exists b, ether_payload_size (release c Bits32) b = Ok 4294967285 /\ ether_payload_size (release c Bits64) b = Ok 18446744073709551605) /\
  (forall r, snd (buf_next {| overflow_checks := r; cursor_eof := c; target := Bits32 |} (2 ^ 31) dynamic_new) = Panic) /\
  (forall r, snd (buf_next {| overflow_checks := r; cursor_eof := c; target := Bits64 |} (2 ^ 31) dynamic_new) = Ok tt).
Proof.
  intros c. split; [exists [1; 2; 3]; split; reflexivity|]. split; intros r; reflexivity.
Qed.
(** C67: the hypotheses are met by a UDP datagram in IPv4 in Ethernet. *)
Example c67_example : forall E, let cs := [CallEther (EtherSource (Hw 1 2 3 4 5 6)); CallEtherIp; CallIpV4; CallV4 (V4Set (V4SetTtl 9)); CallV4Udp; CallUdp (UdpPayload [7; 8])] in
  compiles OpEther cs ClUdp /\ Forall ordinary cs /\ added OpEther cs < 2 ^ 31 /\
  exists out, program E OpEther cs ClUdp dynamic_new = Ok out /\ len out = 44.
Proof.
  intros E. repeat apply conj.
  - repeat (eexists; split; [reflexivity|]). reflexivity.
  - repeat constructor.
  - vm_compute. reflexivity.
  - destruct E as [[] [] []]; vm_compute; (eexists; split; reflexivity).
Qed.
