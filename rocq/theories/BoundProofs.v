(** * BoundProofs: C43, the declared bounds of every packet type. *)
From Verif Require Import Base Enums Ether Ipv4 Ip Udp Tcp Icmp Sizes Spec SpecSize.
From Verif Require Import Lemmas ParseProofs SliceProofs AccessProofs FieldProofs OptionProofs.
From Coq Require Import ZifyBool ZifyNat ZifyN.
Ltac Zify.zify_post_hook ::= Z.div_mod_to_equations.

Ltac consts := unfold total_min, total_max in *;
  cbn [b_hmin b_hmax b_pmin b_pmax option_map ether_bounds v4_bounds v6_bounds udp_bounds tcp_bounds v4opt_bounds tcpopt_bounds icmp_bounds
       echo_bounds information_bounds timestamp_bounds embedded_bounds] in *;
  unfold ether_header_min, ether_header_max, ether_payload_min, v4_header_min, v4_header_max, v4_payload_min, v4_payload_max, v6_header_min, v6_header_max,
    udp_header_min, udp_header_max, udp_payload_min, udp_payload_max, tcp_header_min, tcp_header_max, tcp_payload_min, icmp_header_min, icmp_header_max in *.
Ltac wi := eexists; split; [first [reflexivity|eassumption]|consts; lia].
Lemma opt_header_within (l : N) : within 1 2 (Ok (if l =? 1 then 1 else 2)).
Proof. exists (if l =? 1 then 1 else 2). split; [reflexivity|]. destruct (l =? 1); lia. Qed.
Lemma opt_new_len len_of mn b : mn = 1 -> (if len b <? mn then Err SmallBuffer else let* l := len_of b in if len b <? l then Err SmallBuffer else Ok b) = Ok b ->
  1 <= len b /\ exists l, len_of b = Ok l /\ l <= len b.
Proof.
  intros -> H. destruct (N.ltb_spec (len b) 1); [discriminate|]. split; [lia|].
  destruct (len_of b) as [l| |]; try discriminate. exists l. split; [reflexivity|]. cbn [bind] in H. destruct (N.ltb_spec (len b) l); [discriminate|lia].
Qed.
(** C43: the header size of every accepted packet is within header::Min and header::Max. *)
Lemma c43_headers : forall b,
  (ether_new b = Ok b -> within (b_hmin ether_bounds) (b_hmax ether_bounds) (ether_header_size b)) /\
  (v4_no_payload b = Ok b -> 5 <= nthN b 0 mod 16 -> within (b_hmin v4_bounds) (b_hmax v4_bounds) (v4_header_size b)) /\
  (v6_new b = Ok b -> within (b_hmin v6_bounds) (b_hmax v6_bounds) (v6_header_size b)) /\
  (udp_no_payload b = Ok b -> within (b_hmin udp_bounds) (b_hmax udp_bounds) (udp_header_size b)) /\
  (is_bytes b -> tcp_new b = Ok b -> 5 <= nthN b 12 / 16 -> within (b_hmin tcp_bounds) (b_hmax tcp_bounds) (tcp_header_size b)) /\
  (v4opt_new b = Ok b -> within (b_hmin v4opt_bounds) (b_hmax v4opt_bounds) (v4opt_header_size b)) /\
  (tcpopt_new b = Ok b -> within (b_hmin tcpopt_bounds) (b_hmax tcpopt_bounds) (tcpopt_header_size b)) /\
  (icmp_new b = Ok b -> within (b_hmin icmp_bounds) (b_hmax icmp_bounds) (icmp_header_size b)) /\
  (echo_new b = Ok b -> within (b_hmin echo_bounds) (b_hmax echo_bounds) (echo_header_size b)) /\
  (information_new b = Ok b -> within (b_hmin information_bounds) (b_hmax information_bounds) (information_header_size b)) /\
  (timestamp_new b = Ok b -> within (b_hmin timestamp_bounds) (b_hmax timestamp_bounds) (timestamp_header_size b)) /\
  (parameter_problem_new b = Ok b -> within (b_hmin embedded_bounds) (b_hmax embedded_bounds) (parameter_problem_header_size b)) /\
  (redirect_message_new b = Ok b -> within (b_hmin embedded_bounds) (b_hmax embedded_bounds) (redirect_message_header_size b)) /\
  (previous_new b = Ok b -> within (b_hmin embedded_bounds) (b_hmax embedded_bounds) (previous_header_size b)).
Proof.
  intros b. repeat apply conj; intros.
  - wi.
  - apply v4_no_payload_iff in H. destruct H as (_ & H & _). rewrite v4_header_size_ok by lia. wi.
  - wi.
  - wi.
  - pose proof (is_bytes_nth b 12 H). apply tcp_new_iff in H0. destruct H0 as (_ & H0 & _). unfold tcp_header_size.
    rewrite tcp_offset_ok by lia. cbn [bind]. wi.
  - destruct (opt_new_len v4opt_length v4opt_header_min b eq_refl H) as (_ & l & Hl & _). unfold v4opt_header_size. rewrite Hl. apply opt_header_within.
  - destruct (opt_new_len tcpopt_length tcpopt_header_min b eq_refl H) as (_ & l & Hl & _). unfold tcpopt_header_size. rewrite Hl. apply opt_header_within.
  - wi.
  - wi.
  - wi.
  - wi.
  - wi.
  - wi.
  - wi.
Qed.
Lemma embedded_payload_ok E b : 8 <= len b ->
  embedded_payload_size E b = Ok (match v4_new (dropN 8 b) with Ok _ => nthN b 8 mod 16 * 4 | _ => len b - 8 end).
Proof.
  intros H. unfold embedded_payload_size. rewrite embedded_packet_ok by exact H.
  pose proof (v4_new_no_panic (dropN 8 b)) as Hnp.
  destruct (v4_new (dropN 8 b)) as [p|e|] eqn:Hp; [| |congruence].
  - apply c02_v4_new_iff in Hp. destruct Hp as (-> & H1 & _). autorewrite with len in H1.
    rewrite v4_header_size_ok by (autorewrite with len; lia). rewrite nthN_dropN. reflexivity.
  - apply usize_sub_ok. lia.
Qed.
Definition embedded_kind (b : bytes) : Prop := parameter_problem_new b = Ok b \/ redirect_message_new b = Ok b \/ previous_new b = Ok b.
Lemma embedded_kind_len b : embedded_kind b -> 8 <= len b.
Proof.
  intros [Hn|[Hn|Hn]].
  - destruct (typed_inv _ _ _ _ _ c05_parameter_problem_new Hn) as (_ & H & _). exact H.
  - destruct (typed_inv _ _ _ _ _ c05_redirect_message_new Hn) as (_ & H & _). exact H.
  - destruct (typed_inv _ _ _ _ _ c05_previous_new Hn) as (_ & H & _). exact H.
Qed.
(** C43: so is the payload size where the bound is not refuted below. *)
Lemma c43_payloads : forall E b, rust_slice b ->
  (udp_no_payload b = Ok b -> within udp_payload_min udp_payload_max (udp_payload_size b)) /\
  (v6_new b = Ok b -> within 0 0 (v6_payload_size b)) /\
  (information_new b = Ok b -> within 0 0 (information_payload_size b)) /\
  (timestamp_new b = Ok b -> within 0 0 (timestamp_payload_size b)) /\
  (parameter_problem_new b = Ok b \/ redirect_message_new b = Ok b \/ previous_new b = Ok b ->
     forall p, embedded_packet b = Ok p -> 5 <= nthN p 0 mod 16 ->
     within (b_pmin embedded_bounds) v4_header_max (embedded_payload_size E b)) /\
  (ether_new b = Ok b -> at_least (b_pmin ether_bounds) (ether_payload_size E b)) /\
  (v4_no_payload b = Ok b -> at_least (b_pmin v4_bounds) (v4_payload_size b)) /\
  (tcp_new b = Ok b -> at_least (b_pmin tcp_bounds) (tcp_payload_size E b)) /\
  (icmp_new b = Ok b -> at_least (b_pmin icmp_bounds) (icmp_payload_size E b)) /\
  (echo_new b = Ok b -> at_least (b_pmin echo_bounds) (echo_payload_size E b)).
Proof.
  intros E b Hr. repeat apply conj; intros.
  - rewrite udp_payload_size_ok by (apply udp_no_payload_len in H; lia). eexists. split; [reflexivity|].
    pose proof (wire16_lt b 4 (proj1 Hr)). unfold udp_payload_min, udp_payload_max. lia.
  - wi.
  - wi.
  - wi.
  - assert (H8 : 8 <= len b) by (apply embedded_kind_len; exact H). rewrite embedded_payload_ok by exact H8.
    rewrite embedded_packet_ok in H0 by exact H8. rewrite H0. apply c02_v4_new_iff in H0. destruct H0 as (-> & _).
    rewrite nthN_dropN in H1. replace (8 + 0) with 8 in H1 by lia. eexists. split; [reflexivity|].
    cbn [b_pmin embedded_bounds]. unfold v4_header_min, v4_header_max. lia.
  - apply ether_new_len in H. unfold ether_payload_size. rewrite usize_sub_ok by lia. wi.
  - apply v4_no_payload_iff in H. destruct H as (_ & H & _). rewrite v4_payload_size_ok by lia. wi.
  - destruct (c07_tcp E b Hr H) as (_ & _ & _ & _ & _ & _ & _ & Hp & _). wi.
  - unfold icmp_new, icmp_header_min in H. destruct (N.ltb_spec (len b) 4); [discriminate|].
    unfold icmp_payload_size. rewrite usize_sub_ok by lia. wi.
  - destruct (typed_inv _ _ _ _ _ c05_echo_new H) as (_ & H8 & _). unfold echo_payload_size. rewrite usize_sub_ok by lia. wi.
Qed.
(** C43: total sizes against Min::min() and Max::max(). *)
Lemma c43_totals : forall E b, rust_slice b ->
  (udp_no_payload b = Ok b -> exists m, total_max udp_bounds = Some m /\ within (total_min udp_bounds) m (udp_size b)) /\
  (v4_no_payload b = Ok b -> 5 <= nthN b 0 mod 16 -> exists m, total_max v4_bounds = Some m /\ within (total_min v4_bounds) m (v4_size b)) /\
  (v6_new b = Ok b -> exists m, total_max v6_bounds = Some m /\ within (total_min v6_bounds) m (v6_size b)) /\
  (information_new b = Ok b -> exists m, total_max information_bounds = Some m /\ within (total_min information_bounds) m (information_size E b)) /\
  (timestamp_new b = Ok b -> exists m, total_max timestamp_bounds = Some m /\ within (total_min timestamp_bounds) m (timestamp_size E b)) /\
  (parameter_problem_new b = Ok b \/ redirect_message_new b = Ok b \/ previous_new b = Ok b ->
     forall p, embedded_packet b = Ok p -> 5 <= nthN p 0 mod 16 ->
     exists m, total_max embedded_bounds = Some m /\ within (total_min embedded_bounds) m (embedded_size E b)) /\
  (ether_new b = Ok b -> at_least (total_min ether_bounds) (ether_size E b)) /\
  (tcp_new b = Ok b -> at_least (total_min tcp_bounds) (tcp_size E b)) /\
  (icmp_new b = Ok b -> at_least (total_min icmp_bounds) (icmp_size E b)) /\
  (echo_new b = Ok b -> at_least (total_min echo_bounds) (echo_size E b)).
Proof.
  intros E b Hr. repeat apply conj; intros.
  - eexists. split; [reflexivity|]. rewrite udp_size_ok by (apply udp_no_payload_len in H; lia). eexists. split; [reflexivity|].
    pose proof (wire16_lt b 4 (proj1 Hr)). consts; lia.
  - eexists. split; [reflexivity|]. apply v4_no_payload_iff in H. destruct H as (_ & H & _). rewrite v4_size_ok by lia.
    eexists. split; [reflexivity|]. pose proof (wire16_lt b 2 (proj1 Hr)).
    set (q := nthN b 0 mod 16) in *. assert (q < 16) by (subst q; apply N.mod_lt; lia). clearbody q. consts; lia.
  - eexists. split; [reflexivity|]. wi.
  - eexists. split; [reflexivity|]. unfold information_size, information_header_size, information_payload_size. cbn [bind].
    rewrite usize_add_ok by (widths; lia). wi.
  - eexists. split; [reflexivity|]. unfold timestamp_size, timestamp_header_size, timestamp_payload_size. cbn [bind].
    rewrite usize_add_ok by (widths; lia). wi.
  - eexists. split; [reflexivity|]. assert (H8 : 8 <= len b) by (apply embedded_kind_len; exact H).
    rewrite embedded_packet_ok in H0 by exact H8. rewrite embedded_size_ok by assumption. rewrite H0.
    apply c02_v4_new_iff in H0. destruct H0 as (-> & _).
    rewrite nthN_dropN in H1. replace (8 + 0) with 8 in H1 by lia. eexists. split; [reflexivity|].
    set (q := nthN b 8 mod 16) in *. assert (q < 16) by (subst q; apply N.mod_lt; lia). clearbody q. consts; lia.
  - destruct (c07_ether E b Hr H) as (Q & _). pose proof (c07_ether E b Hr H) as R. apply ether_new_len in H.
    destruct Hr as [_ Hf]. apply isize_usize in Hf. unfold ether_size, ether_header_size, ether_payload_size. cbn [bind].
    rewrite usize_sub_ok by lia. cbn [bind]. rewrite usize_add_ok by lia. wi.
  - destruct (c07_tcp E b Hr H) as (_ & _ & _ & _ & _ & _ & _ & _ & Hp & _). rewrite Hp. apply tcp_new_iff in H. wi.
  - unfold icmp_new, icmp_header_min in H. destruct (N.ltb_spec (len b) 4); [discriminate|].
    destruct Hr as [_ Hf]. apply isize_usize in Hf. unfold icmp_size, icmp_header_size, icmp_payload_size. cbn [bind].
    rewrite usize_sub_ok by lia. cbn [bind]. rewrite usize_add_ok by lia. wi.
  - destruct (typed_inv _ _ _ _ _ c05_echo_new H) as (_ & H8 & _).
    destruct Hr as [_ Hf]. apply isize_usize in Hf. unfold echo_size, echo_header_size, echo_payload_size. cbn [bind].
    rewrite usize_sub_ok by lia. cbn [bind]. rewrite usize_add_ok by lia. wi.
Qed.
(** C43: the header bounds are not wider than need be: fixed headers have the one size
    allowed, and of the others both the smallest and the largest size
    occur; where payload::Max is zero the payload is empty, UDP reaches it, and
    UDP and IPv4 reach Max::max(). *)
Lemma c43_headers_attained :
  (forall b, ether_header_size b = Ok (b_hmin ether_bounds) /\ ether_header_size b = Ok (b_hmax ether_bounds)) /\
  (forall b, v6_header_size b = Ok (b_hmin v6_bounds) /\ v6_header_size b = Ok (b_hmax v6_bounds)) /\
  (forall b, udp_header_size b = Ok (b_hmin udp_bounds) /\ udp_header_size b = Ok (b_hmax udp_bounds)) /\
  (forall b, icmp_header_size b = Ok (b_hmin icmp_bounds) /\ icmp_header_size b = Ok (b_hmax icmp_bounds)) /\
  (forall b, echo_header_size b = Ok (b_hmin echo_bounds) /\ echo_header_size b = Ok (b_hmax echo_bounds)) /\
  (forall b, information_header_size b = Ok (b_hmin information_bounds) /\ information_header_size b = Ok (b_hmax information_bounds)) /\
  (forall b, timestamp_header_size b = Ok (b_hmin timestamp_bounds) /\ timestamp_header_size b = Ok (b_hmax timestamp_bounds)) /\
  (forall b, previous_header_size b = Ok (b_hmin embedded_bounds) /\ previous_header_size b = Ok (b_hmax embedded_bounds)) /\
  (exists b c, v4_new b = Ok b /\ v4_header_size b = Ok (b_hmin v4_bounds) /\ v4_new c = Ok c /\ v4_header_size c = Ok (b_hmax v4_bounds)) /\
  (exists b c, tcp_new b = Ok b /\ tcp_header_size b = Ok (b_hmin tcp_bounds) /\ tcp_new c = Ok c /\ tcp_header_size c = Ok (b_hmax tcp_bounds)) /\
  (exists b c, v4opt_new b = Ok b /\ v4opt_header_size b = Ok (b_hmin v4opt_bounds) /\ v4opt_new c = Ok c /\ v4opt_header_size c = Ok (b_hmax v4opt_bounds)) /\
  (exists b c, tcpopt_new b = Ok b /\ tcpopt_header_size b = Ok (b_hmin tcpopt_bounds) /\ tcpopt_new c = Ok c /\ tcpopt_header_size c = Ok (b_hmax tcpopt_bounds)) /\
  (exists m, b_pmax v6_bounds = Some m /\ forall b, v6_payload_size b = Ok m) /\
  (exists m, b_pmax information_bounds = Some m /\ forall b, information_payload_size b = Ok m) /\
  (exists m, b_pmax timestamp_bounds = Some m /\ forall b, timestamp_payload_size b = Ok m) /\
  (exists m b, b_pmax udp_bounds = Some m /\ udp_no_payload b = Ok b /\ udp_payload_size b = Ok m) /\
  (exists m b, total_max udp_bounds = Some m /\ udp_no_payload b = Ok b /\ udp_size b = Ok m) /\
  (exists m b, total_max v4_bounds = Some m /\ v4_no_payload b = Ok b /\ v4_size b = Ok m).
Proof.
  repeat apply conj; try (intros b; split; reflexivity).
  - exists (69 :: 0 :: 0 :: 20 :: repeat 0 16%nat), (79 :: 0 :: 0 :: 60 :: repeat 0 56%nat). repeat apply conj; vm_compute; reflexivity.
  - exists (repeat 0 12%nat ++ 80 :: repeat 0 7%nat), (repeat 0 12%nat ++ 240 :: repeat 0 47%nat). repeat apply conj; vm_compute; reflexivity.
  - exists [1], [7; 3; 0]. repeat apply conj; vm_compute; reflexivity.
  - exists [1], [2; 4; 0; 0]. repeat apply conj; vm_compute; reflexivity.
  - exists 0. split; reflexivity.
  - exists 0. split; reflexivity.
  - exists 0. split; reflexivity.
  - exists 65527, [0; 0; 0; 0; 255; 255; 0; 0]. repeat apply conj; vm_compute; reflexivity.
  - exists 65535, [0; 0; 0; 0; 255; 255; 0; 0]. repeat apply conj; vm_compute; reflexivity.
  - exists 65535, (69 :: 0 :: 255 :: 255 :: repeat 0 16%nat). repeat apply conj; vm_compute; reflexivity.
Qed.
(** C43: Min::min() is the length of the shortest buffer the parser accepts, for every
    type but IPv6 (which takes any buffer of version 6), and the ICMP error messages
    (accepted from 8 bytes on, although Min::min() is 28). *)
Lemma c43_shortest :
  (forall b, ether_new b = Ok b -> total_min ether_bounds <= len b) /\ (exists b, ether_new b = Ok b /\ len b = total_min ether_bounds) /\
  (forall b, v4_new b = Ok b -> total_min v4_bounds <= len b) /\ (exists b, v4_new b = Ok b /\ len b = total_min v4_bounds) /\
  (forall b, udp_new b = Ok b -> total_min udp_bounds <= len b) /\ (exists b, udp_new b = Ok b /\ len b = total_min udp_bounds) /\
  (forall b, tcp_new b = Ok b -> total_min tcp_bounds <= len b) /\ (exists b, tcp_new b = Ok b /\ len b = total_min tcp_bounds) /\
  (forall b, v4opt_new b = Ok b -> total_min v4opt_bounds <= len b) /\ (exists b, v4opt_new b = Ok b /\ len b = total_min v4opt_bounds) /\
  (forall b, tcpopt_new b = Ok b -> total_min tcpopt_bounds <= len b) /\ (exists b, tcpopt_new b = Ok b /\ len b = total_min tcpopt_bounds) /\
  (forall b, icmp_new b = Ok b -> total_min icmp_bounds <= len b) /\ (exists b, icmp_new b = Ok b /\ len b = total_min icmp_bounds) /\
  (forall b, echo_new b = Ok b -> total_min echo_bounds <= len b) /\ (exists b, echo_new b = Ok b /\ len b = total_min echo_bounds) /\
  (forall b, information_new b = Ok b -> total_min information_bounds <= len b) /\ (exists b, information_new b = Ok b /\ len b = total_min information_bounds) /\
  (forall b, timestamp_new b = Ok b -> total_min timestamp_bounds <= len b) /\ (exists b, timestamp_new b = Ok b /\ len b = total_min timestamp_bounds).
Proof.
  repeat apply conj.
  2: exists (repeat 0 14%nat); split; vm_compute; reflexivity.
  3: exists (69 :: 0 :: 0 :: 20 :: repeat 0 16%nat); split; vm_compute; reflexivity.
  4: exists [0; 0; 0; 0; 0; 8; 0; 0]; split; vm_compute; reflexivity.
  5: exists (repeat 0 12%nat ++ 80 :: repeat 0 7%nat); split; vm_compute; reflexivity.
  6: exists [1]; split; vm_compute; reflexivity.
  7: exists [1]; split; vm_compute; reflexivity.
  8: exists [3; 0; 0; 0]; split; vm_compute; reflexivity.
  9: exists [8; 0; 0; 0; 0; 0; 0; 0]; split; vm_compute; reflexivity.
  10: exists [15; 0; 0; 0; 0; 0; 0; 0]; split; vm_compute; reflexivity.
  11: exists (13 :: repeat 0 19%nat); split; vm_compute; reflexivity.
  all: intros b H.
  - destruct (c01_ether_new b) as [_ N1]. destruct (N.ltb_spec (len b) 14); [rewrite N1 in H by assumption; discriminate|]. consts. lia.
  - apply c02_v4_new_iff in H. consts. lia.
  - apply udp_new_iff in H. consts. lia.
  - apply tcp_new_iff in H. consts. lia.
  - unfold v4opt_new in H. destruct (opt_new_len _ _ _ eq_refl H) as [H1 _]. consts. unfold v4opt_header_min. lia.
  - unfold tcpopt_new in H. destruct (opt_new_len _ _ _ eq_refl H) as [H1 _]. consts. unfold tcpopt_header_min. lia.
  - destruct (c05_icmp_new b) as [_ N1]. destruct (N.ltb_spec (len b) 4); [rewrite N1 in H by assumption; discriminate|]. consts. lia.
  - apply (typed_inv _ _ _ _ _ c05_echo_new) in H. consts. lia.
  - apply (typed_inv _ _ _ _ _ c05_information_new) in H. consts. lia.
  - apply (typed_inv _ _ _ _ _ c05_timestamp_new) in H. consts. lia.
Qed.
(** C43: the exceptions.  The shortest IPv6 packet accepted is one byte long although
    Min::min() is 0, and the ICMP error messages are accepted from eight bytes on,
    twenty less than their Min::min(). *)
Lemma c43_shortest_refuted :
  (forall b, v6_new b = Ok b -> 1 <= len b) /\ (exists b, v6_new b = Ok b /\ len b = 1) /\ total_min v6_bounds = 0 /\
  total_min embedded_bounds = 28 /\
  (forall b, previous_new b = Ok b -> 8 <= len b) /\ (exists b, previous_new b = Ok b /\ len b = 8) /\
  (forall b, redirect_message_new b = Ok b -> 8 <= len b) /\ (exists b, redirect_message_new b = Ok b /\ len b = 8) /\
  (forall b, parameter_problem_new b = Ok b -> 8 <= len b) /\ (exists b, parameter_problem_new b = Ok b /\ len b = 8).
Proof.
  repeat apply conj.
  2: exists [96]; split; vm_compute; reflexivity.
  2, 3: vm_compute; reflexivity.
  3: exists (3 :: repeat 0 7%nat); split; vm_compute; reflexivity.
  4: exists (5 :: repeat 0 7%nat); split; vm_compute; reflexivity.
  5: exists (12 :: repeat 0 7%nat); split; vm_compute; reflexivity.
  all: intros b H.
  - destruct b; [discriminate H|]. rewrite len_cons. lia.
  - apply (typed_inv _ _ _ _ _ c05_previous_new) in H. lia.
  - apply (typed_inv _ _ _ _ _ c05_redirect_message_new) in H. lia.
  - apply (typed_inv _ _ _ _ _ c05_parameter_problem_new) in H. lia.
Qed.
Example c43_example : forall E, let u := [0; 1; 0; 2; 0; 9; 0; 0; 7; 8] in let h := 69 :: 0 :: 0 :: 22 :: repeat 7 30%nat in
  udp_no_payload u = Ok u /\ udp_size u = Ok 9 /\ total_max udp_bounds = Some 65535 /\ total_min udp_bounds = 8 /\
  v4_no_payload h = Ok h /\ 5 <= nthN h 0 mod 16 /\ v4_size h = Ok 22 /\ total_max v4_bounds = Some 65535 /\
  echo_size E [8; 0; 0; 0; 0; 1; 0; 2; 5] = Ok 9.
Proof. intros [[] [] []]; repeat apply conj; try reflexivity; vm_compute; discriminate. Qed.
(** C43: an ICMP error message needs only 8 bytes to be accepted, fewer than its
    Min::min() of 28, and its payload can exceed payload::Max. *)
Lemma c43_embedded_refuted : forall E,
  (exists b, previous_new b = Ok b /\ rust_slice b /\ total_min embedded_bounds = 28 /\
     below (total_min embedded_bounds) (embedded_size E b) /\ below (b_pmin embedded_bounds) (embedded_payload_size E b)) /\
  (exists b, previous_new b = Ok b /\ rust_slice b /\ above v4_header_max (embedded_payload_size E b)).
Proof.
  intros E. split.
  - exists [3; 0; 0; 0; 0; 0; 0; 0]. split; [reflexivity|]. split; [split; [repeat constructor|destruct E as [[] [] []]; vm_compute; congruence]|].
    split; [reflexivity|]. split; eexists; (split; [destruct E as [[] [] []]; vm_compute; reflexivity|]); reflexivity.
  - exists ([3; 0; 0; 0; 0; 0; 0; 0] ++ zeros 61). split; [reflexivity|]. split; [split; [repeat constructor|destruct E as [[] [] []]; vm_compute; congruence]|].
    exists 61. split; [destruct E as [[] [] []]; vm_compute; reflexivity|reflexivity].
Qed.
(** C43: and Ethernet, TCP and the options exceed Max::max(). *)
Lemma c43_total_max_refuted : forall E,
  total_max ether_bounds = Some 1500 /\ total_max tcp_bounds = Some 65535 /\ total_max tcpopt_bounds = Some 34 /\ total_max v4opt_bounds = Some 34 /\
  (exists b, ether_new b = Ok b /\ rust_slice b /\ above 1500 (ether_size E b)) /\
  (exists b, tcp_new b = Ok b /\ rust_slice b /\ 5 <= nthN b 12 / 16 /\ above 65535 (tcp_size E b)) /\
  (exists b, tcpopt_new b = Ok b /\ rust_slice b /\ above 34 (tcpopt_size E b)) /\
  (exists b, v4opt_new b = Ok b /\ rust_slice b /\ above 34 (v4opt_size E b)).
Proof.
  intros E. do 4 (split; [reflexivity|]). repeat apply conj.
  - assert (Hl : len (zeros 1501) = 1501) by apply len_zeros. assert (R : rust_slice (zeros 1501)).
    { split; [apply is_bytes_zeros|rewrite Hl; widths; lia]. }
    exists (zeros 1501). split; [apply c01_ether_new; rewrite Hl; lia|]. split; [exact R|].
    exists 1501. split; [|lia]. unfold ether_size, ether_header_size, ether_payload_size. cbn [bind]. rewrite Hl.
    rewrite usize_sub_ok by lia. cbn [bind]. rewrite usize_add_ok by (widths; lia). reflexivity.
  - assert (Hl : len (zeros 65536) = 65536) by apply len_zeros. pose proof (is_bytes_zeros 65536) as Hb.
    set (z := zeros 65536) in *. clearbody z.
    set (b := [0;0;0;0;0;0;0;0;0;0;0;0;80] ++ z). assert (Hlb : len b = 65549) by (unfold b; rewrite len_app, Hl; reflexivity).
    assert (H12 : nthN b 12 = 80) by reflexivity.
    assert (R : rust_slice b).
    { split; [apply is_bytes_app; split; [repeat constructor|exact Hb]|rewrite Hlb; widths; lia]. }
    clearbody b. assert (Hn : tcp_new b = Ok b) by (apply tcp_new_iff; rewrite Hlb, H12; repeat split; cbn; lia).
    exists b. split; [exact Hn|]. split; [exact R|]. split; [rewrite H12; cbn; lia|].
    destruct (c07_tcp E b R Hn) as (_ & _ & _ & _ & _ & _ & _ & _ & Hp & _). exists 65549. split; [congruence|lia].
  - exists (7 :: 40 :: zeros 38). split; [reflexivity|]. split; [split; [repeat constructor|destruct E as [[] [] []]; vm_compute; congruence]|].
    exists 40. split; [destruct E as [[] [] []]; vm_compute; reflexivity|reflexivity].
  - exists (7 :: 40 :: zeros 38). split; [reflexivity|]. split; [split; [repeat constructor|destruct E as [[] [] []]; vm_compute; congruence]|].
    exists 40. split; [destruct E as [[] [] []]; vm_compute; reflexivity|reflexivity].
Qed.
