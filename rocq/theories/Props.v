(** * Props: the property theorems, generated by tools/gen_props.py.
    Each is closed by the lemma of the same name in the *Proofs files. *)
From Coq Require Import String.
From Verif Require Import Base Enums Buffer Ether Ipv4 Ip Udp Tcp Icmp Builders Generic Debug Mutable Sizes Spec SpecCalls SpecNumbers SpecBuild SpecUser SpecMut SpecEdit SpecUnchecked SpecCopy SpecFrame SpecOrder SpecSize SpecOptions SpecVia SpecProfile SpecShift SpecOwnIp SpecGeneric SpecHooks SpecReference SpecSucceed SpecCorrupt SpecForward SpecIncremental SpecMachine SpecMachineIcmp SpecReceiver SpecRoute SpecNat SpecHost SpecDump SpecFind SpecBlame SpecTrace SpecShake SpecStream SpecBlock SpecMemory SpecStore Memory.
From Verif Require ParseProofs SliceProofs AccessProofs FieldProofs SizeProofs ChecksumProofs GuardProofs OptionProofs BufferProofs EnumProofs BuilderProofs MessageProofs PayloadProofs MisuseProofs SliceBuildProofs DebugProofs MutableProofs EditProofs AsPacketProofs HookProofs UncheckedProofs CopyProofs FrameProofs OrderProofs RefreshProofs BoundProofs TileProofs ViaProofs ProfileProofs ShiftProofs OwnIpProofs GenericProofs IpProofs TrailProofs ProgramHookProofs ReferenceProofs SucceedProofs InUseProofs WidthProofs CorruptProofs ForwardProofs FrameAnswerProofs IncrementalProofs MachineProofs FrameMachineProofs IcmpMachineProofs ReceiverProofs BuiltProofs BlockProofs MemoryProofs StoreProofs RouteProofs NatProofs HostProofs DumpProofs FindProofs BlameProofs ShakeProofs StreamProofs TraceProofs AlikeProofs AnyServiceProofs AnyNatProofs WitnessProofs.


(** ** C01 *)
(** C01: ether::Packet::new. *)
Theorem C01_ether_new : forall b,
  (14 <= len b -> ether_new b = Ok b) /\ (len b < 14 -> ether_new b = Err SmallBuffer).
Proof. exact ParseProofs.c01_ether_new. Qed.
Print Assumptions C01_ether_new.
(** C01: the hypotheses of C01_ether_new can be met. *)
Example C01_ether_new_meets :
  (exists (b : bytes), 14 <= len b) /\
  (exists (b : bytes), len b < 14).
Proof. exact WitnessProofs.c01_ether_new_meets. Qed.
Example C01_example : len (repeat 7 14%nat) = 14 /\ ether_new (repeat 7 14%nat) = Ok (repeat 7 14%nat) /\
  ether_new (repeat 7 13%nat) = Err SmallBuffer /\ ether_new [] = Err SmallBuffer.
Proof. exact ParseProofs.c01_example. Qed.

(** ** C02 *)
(** C02: ip::v4::Packet::no_payload. *)
Theorem C02_v4_no_payload : forall b,
  let version := nthN b 0 / 16 in
  let ihl := nthN b 0 mod 16 in
  (len b < 20 -> v4_no_payload b = Err SmallBuffer) /\
  (20 <= len b -> version <> 4 -> v4_no_payload b = Err InvalidPacket) /\
  (20 <= len b -> version = 4 -> len b < ihl * 4 -> v4_no_payload b = Err SmallBuffer) /\
  (20 <= len b -> version = 4 -> ihl * 4 <= len b -> v4_no_payload b = Ok b).
Proof. exact ParseProofs.c02_v4_no_payload. Qed.
Print Assumptions C02_v4_no_payload.
(** C02: the hypotheses of C02_v4_no_payload can be met. *)
Example C02_v4_no_payload_meets :
  (exists (b : bytes), len b < 20) /\
  (exists (b : bytes), let version := nthN b 0 / 16 in 20 <= len b /\ version <> 4) /\
  (exists (b : bytes), let version := nthN b 0 / 16 in let ihl := nthN b 0 mod 16 in 20 <= len b /\ version = 4 /\ len b < ihl * 4) /\
  (exists (b : bytes), let version := nthN b 0 / 16 in let ihl := nthN b 0 mod 16 in 20 <= len b /\ version = 4 /\ ihl * 4 <= len b).
Proof. exact WitnessProofs.c02_v4_no_payload_meets. Qed.
(** C02: ip::v4::Packet::new. *)
Theorem C02_v4_new : forall b,
  let version := nthN b 0 / 16 in
  let ihl := nthN b 0 mod 16 in
  let total := wire16 b 2 in
  (len b < 20 -> v4_new b = Err SmallBuffer) /\
  (20 <= len b -> version <> 4 -> v4_new b = Err InvalidPacket) /\
  (20 <= len b -> version = 4 -> len b < ihl * 4 \/ len b < total -> v4_new b = Err SmallBuffer) /\
  (20 <= len b -> version = 4 -> ihl * 4 <= len b -> total <= len b -> v4_new b = Ok b).
Proof. exact ParseProofs.c02_v4_new. Qed.
Print Assumptions C02_v4_new.
(** C02: the hypotheses of C02_v4_new can be met. *)
Example C02_v4_new_meets :
  (exists (b : bytes), len b < 20) /\
  (exists (b : bytes), let version := nthN b 0 / 16 in 20 <= len b /\ version <> 4) /\
  (exists (b : bytes), let version := nthN b 0 / 16 in let ihl := nthN b 0 mod 16 in let total := wire16 b 2 in 20 <= len b /\ version = 4 /\ (len b < ihl * 4 \/ len b < total)) /\
  (exists (b : bytes), let version := nthN b 0 / 16 in let ihl := nthN b 0 mod 16 in let total := wire16 b 2 in 20 <= len b /\ version = 4 /\ ihl * 4 <= len b /\ total <= len b).
Proof. exact WitnessProofs.c02_v4_new_meets. Qed.
(** C02: what acceptance means, and that IHL below 5 is accepted. *)
Theorem C02_v4_new_iff : forall b p,
  v4_new b = Ok p <->
  p = b /\ 20 <= len b /\ nthN b 0 / 16 = 4 /\ nthN b 0 mod 16 * 4 <= len b /\ wire16 b 2 <= len b.
Proof. exact ParseProofs.c02_v4_new_iff. Qed.
Print Assumptions C02_v4_new_iff.
Theorem C02_v4_ihl_below_5_accepted_refuted : exists b,
  v4_new b = Ok b /\ nthN b 0 mod 16 < 5.
Proof. exact ParseProofs.c02_v4_ihl_below_5_accepted_refuted. Qed.
Print Assumptions C02_v4_ihl_below_5_accepted_refuted.
Example C02_example : let h := 70 :: 0 :: 0 :: 25 :: repeat 0 20%nat in
  v4_new (h ++ [9]) = Ok (h ++ [9]) /\ v4_new h = Err SmallBuffer /\ v4_no_payload h = Ok h /\
  v4_no_payload (takeN 23 h) = Err SmallBuffer /\ v4_new (96 :: repeat 0 19%nat) = Err InvalidPacket.
Proof. exact ParseProofs.c02_example. Qed.

(** ** C03 *)
(** C03: udp::Packet::no_payload. *)
Theorem C03_udp_no_payload : forall b,
  (8 <= len b -> udp_no_payload b = Ok b) /\ (len b < 8 -> udp_no_payload b = Err SmallBuffer).
Proof. exact ParseProofs.c03_udp_no_payload. Qed.
Print Assumptions C03_udp_no_payload.
(** C03: the hypotheses of C03_udp_no_payload can be met. *)
Example C03_udp_no_payload_meets :
  (exists (b : bytes), 8 <= len b) /\
  (exists (b : bytes), len b < 8).
Proof. exact WitnessProofs.c03_udp_no_payload_meets. Qed.
(** C03: udp::Packet::new. *)
Theorem C03_udp_new : forall b,
  (8 <= len b -> wire16 b 4 <= len b -> udp_new b = Ok b) /\
  (len b < 8 \/ len b < wire16 b 4 -> udp_new b = Err SmallBuffer).
Proof. exact ParseProofs.c03_udp_new. Qed.
Print Assumptions C03_udp_new.
(** C03: the hypotheses of C03_udp_new can be met. *)
Example C03_udp_new_meets :
  (exists (b : bytes), 8 <= len b /\ wire16 b 4 <= len b) /\
  (exists (b : bytes), (len b < 8 \/ len b < wire16 b 4)).
Proof. exact WitnessProofs.c03_udp_new_meets. Qed.
Example C03_example : udp_new [0; 1; 0; 2; 0; 9; 0; 0; 7] = Ok [0; 1; 0; 2; 0; 9; 0; 0; 7] /\
  udp_new [0; 1; 0; 2; 0; 9; 0; 0] = Err SmallBuffer /\ udp_no_payload [0; 1; 0; 2; 0; 9; 0; 0] = Ok [0; 1; 0; 2; 0; 9; 0; 0] /\
  udp_new [0; 1; 0; 2; 0; 7; 0] = Err SmallBuffer.
Proof. exact ParseProofs.c03_example. Qed.

(** ** C04 *)
(** C04: tcp::Packet::new. *)
Theorem C04_tcp_new : forall b,
  let offset := nthN b 12 / 16 in
  (20 <= len b -> offset * 4 <= len b -> tcp_new b = Ok b) /\
  (len b < 20 \/ len b < offset * 4 -> tcp_new b = Err SmallBuffer).
Proof. exact ParseProofs.c04_tcp_new. Qed.
Print Assumptions C04_tcp_new.
(** C04: the hypotheses of C04_tcp_new can be met. *)
Example C04_tcp_new_meets :
  (exists (b : bytes), let offset := nthN b 12 / 16 in 20 <= len b /\ offset * 4 <= len b) /\
  (exists (b : bytes), let offset := nthN b 12 / 16 in (len b < 20 \/ len b < offset * 4)).
Proof. exact WitnessProofs.c04_tcp_new_meets. Qed.
Theorem C04_tcp_offset_below_5_accepted_refuted : exists b,
  tcp_new b = Ok b /\ nthN b 12 / 16 < 5.
Proof. exact ParseProofs.c04_tcp_offset_below_5_accepted_refuted. Qed.
Print Assumptions C04_tcp_offset_below_5_accepted_refuted.
Example C04_example : let b := repeat 0 12%nat ++ [96] ++ repeat 0 11%nat in
  tcp_new b = Ok b /\ tcp_new (takeN 23 b) = Err SmallBuffer /\ tcp_new (takeN 19 b) = Err SmallBuffer.
Proof. exact ParseProofs.c04_example. Qed.

(** ** C05 *)
(** C05: icmp::Packet::new. *)
Theorem C05_icmp_new : forall b,
  (4 <= len b -> icmp_new b = Ok b) /\ (len b < 4 -> icmp_new b = Err SmallBuffer).
Proof. exact ParseProofs.c05_icmp_new. Qed.
Print Assumptions C05_icmp_new.
(** C05: the hypotheses of C05_icmp_new can be met. *)
Example C05_icmp_new_meets :
  (exists (b : bytes), 4 <= len b) /\
  (exists (b : bytes), len b < 4).
Proof. exact WitnessProofs.c05_icmp_new_meets. Qed.
(** C05: echo (8 bytes, types 8 and 0). *)
Theorem C05_echo_new : typed_parser echo_new 8 [8; 0].
Proof. exact ParseProofs.c05_echo_new. Qed.
Print Assumptions C05_echo_new.
(** C05: timestamp (20 bytes, types 13 and 14). *)
Theorem C05_timestamp_new : typed_parser timestamp_new 20 [13; 14].
Proof. exact ParseProofs.c05_timestamp_new. Qed.
Print Assumptions C05_timestamp_new.
(** C05: information (8 bytes, types 15 and 16). *)
Theorem C05_information_new : typed_parser information_new 8 [15; 16].
Proof. exact ParseProofs.c05_information_new. Qed.
Print Assumptions C05_information_new.
(** C05: parameter problem (8 bytes, type 12). *)
Theorem C05_parameter_problem_new : typed_parser parameter_problem_new 8 [12].
Proof. exact ParseProofs.c05_parameter_problem_new. Qed.
Print Assumptions C05_parameter_problem_new.
(** C05: redirect (8 bytes, type 5). *)
Theorem C05_redirect_message_new : typed_parser redirect_message_new 8 [5].
Proof. exact ParseProofs.c05_redirect_message_new. Qed.
Print Assumptions C05_redirect_message_new.
(** C05: destination unreachable, source quench, time exceeded (8 bytes, types 3, 4, 11). *)
Theorem C05_previous_new : typed_parser previous_new 8 [3; 4; 11].
Proof. exact ParseProofs.c05_previous_new. Qed.
Print Assumptions C05_previous_new.
(** C05: no message is accepted by two of the typed parsers. *)
Theorem C05_typed_parsers_disjoint :
  let parsers := [echo_new; timestamp_new; information_new; parameter_problem_new;
                  redirect_message_new; previous_new] in
  forall i j f g b p q,
  nth_error parsers i = Some f -> nth_error parsers j = Some g ->
  f b = Ok p -> g b = Ok q -> i = j.
Proof. exact ParseProofs.c05_typed_parsers_disjoint. Qed.
Print Assumptions C05_typed_parsers_disjoint.
(** C05: the hypotheses of C05_typed_parsers_disjoint can be met. *)
Example C05_typed_parsers_disjoint_meets :
  exists (i : nat) (j : nat) (f : bytes -> res bytes) (g : bytes -> res bytes) (b : bytes) (p : bytes) (q : bytes), let parsers := [echo_new; timestamp_new; information_new; parameter_problem_new; redirect_message_new; previous_new] in nth_error parsers i = Some f /\ nth_error parsers j = Some g /\ f b = Ok p /\ g b = Ok q.
Proof. exact WitnessProofs.c05_typed_parsers_disjoint_meets. Qed.
Example C05_examples :
  echo_new [8; 0; 0; 0; 0; 1; 0; 2] = Ok [8; 0; 0; 0; 0; 1; 0; 2] /\
  previous_new [8; 0; 0; 0; 0; 1; 0; 2] = Err InvalidPacket /\ echo_new [8] = Err SmallBuffer.
Proof. exact ParseProofs.c05_examples. Qed.

(** ** C06 *)
(** C06: the generic IP constructors. *)
Theorem C06_ip_new : forall b,
  let version := nthN b 0 / 16 in
  (b = [] -> ip_new b = Panic) /\
  (b <> [] -> version = 4 -> ip_new b = match v4_new b with Ok p => Ok (V4 p) | Err e => Err e | Panic => Panic end) /\
  (b <> [] -> version = 6 -> ip_new b = Ok (V6 b)) /\
  (b <> [] -> version <> 4 -> version <> 6 -> ip_new b = Err InvalidPacket).
Proof. exact ParseProofs.c06_ip_new. Qed.
Print Assumptions C06_ip_new.
(** C06: the hypotheses of C06_ip_new can be met. *)
Example C06_ip_new_meets :
  (exists (b : bytes), b = []) /\
  (exists (b : bytes), let version := nthN b 0 / 16 in b <> [] /\ version = 4) /\
  (exists (b : bytes), let version := nthN b 0 / 16 in b <> [] /\ version = 6) /\
  (exists (b : bytes), let version := nthN b 0 / 16 in b <> [] /\ version <> 4 /\ version <> 6).
Proof. exact WitnessProofs.c06_ip_new_meets. Qed.
Theorem C06_ip_no_payload : forall b,
  let version := nthN b 0 / 16 in
  (b = [] -> ip_no_payload b = Panic) /\
  (b <> [] -> version = 4 -> ip_no_payload b = match v4_no_payload b with Ok p => Ok (V4 p) | Err e => Err e | Panic => Panic end) /\
  (b <> [] -> version = 6 -> ip_no_payload b = Ok (V6 b)) /\
  (b <> [] -> version <> 4 -> version <> 6 -> ip_no_payload b = Err InvalidPacket).
Proof. exact ParseProofs.c06_ip_no_payload. Qed.
Print Assumptions C06_ip_no_payload.
(** C06: the hypotheses of C06_ip_no_payload can be met. *)
Example C06_ip_no_payload_meets :
  (exists (b : bytes), b = []) /\
  (exists (b : bytes), let version := nthN b 0 / 16 in b <> [] /\ version = 4) /\
  (exists (b : bytes), let version := nthN b 0 / 16 in b <> [] /\ version = 6) /\
  (exists (b : bytes), let version := nthN b 0 / 16 in b <> [] /\ version <> 4 /\ version <> 6).
Proof. exact WitnessProofs.c06_ip_no_payload_meets. Qed.
(** C06: unchecked panics exactly on empty input or a version other than 4 and 6. *)
Theorem C06_ip_unchecked : forall b,
  let version := nthN b 0 / 16 in
  (b = [] \/ (version <> 4 /\ version <> 6) -> ip_unchecked b = Panic) /\
  (b <> [] -> version = 4 -> ip_unchecked b = Ok (V4 b)) /\
  (b <> [] -> version = 6 -> ip_unchecked b = Ok (V6 b)).
Proof. exact ParseProofs.c06_ip_unchecked. Qed.
Print Assumptions C06_ip_unchecked.
(** C06: the hypotheses of C06_ip_unchecked can be met. *)
Example C06_ip_unchecked_meets :
  (exists (b : bytes), let version := nthN b 0 / 16 in (b = [] \/ (version <> 4 /\ version <> 6))) /\
  (exists (b : bytes), let version := nthN b 0 / 16 in b <> [] /\ version = 4) /\
  (exists (b : bytes), let version := nthN b 0 / 16 in b <> [] /\ version = 6).
Proof. exact WitnessProofs.c06_ip_unchecked_meets. Qed.
(** C06: ip::v6::Packet::new. *)
Theorem C06_v6_new : forall b,
  (b = [] -> v6_new b = Panic) /\
  (b <> [] -> nthN b 0 / 16 = 6 -> v6_new b = Ok b) /\
  (b <> [] -> nthN b 0 / 16 <> 6 -> v6_new b = Err InvalidPacket).
Proof. exact ParseProofs.c06_v6_new. Qed.
Print Assumptions C06_v6_new.
(** C06: the hypotheses of C06_v6_new can be met. *)
Example C06_v6_new_meets :
  (exists (b : list N), b = []) /\
  (exists (b : list N), b <> [] /\ nthN b 0 / 16 = 6) /\
  (exists (b : list N), b <> [] /\ nthN b 0 / 16 <> 6).
Proof. exact WitnessProofs.c06_v6_new_meets. Qed.
Example C06_example : let b := 69 :: 0 :: 0 :: 20 :: repeat 0 16%nat in
  ip_new b = Ok (V4 b) /\ ip_new [96; 1] = Ok (V6 [96; 1]) /\ ip_new [80; 1] = Err InvalidPacket /\
  ip_new [69] = Err SmallBuffer /\ ip_new [] = Panic /\ v6_new [] = Panic /\ ip_unchecked [80; 1] = Panic.
Proof. exact ParseProofs.c06_example. Qed.

(** ** C07 *)
(** C07: Ethernet.  Sizes, header, payload and the whole packet. *)
Theorem C07_ether : forall E b, rust_slice b -> ether_new b = Ok b ->
  ether_split b = Ok (takeN 14 b, dropN 14 b) /\
  ether_header b = Ok (takeN 14 b) /\ ether_payload b = Ok (dropN 14 b) /\
  takeN 14 b ++ dropN 14 b = b /\ len (takeN 14 b) = 14 /\
  ether_header_size b = Ok 14 /\ ether_payload_size E b = Ok (len (dropN 14 b)) /\
  ether_size E b = Ok (len b) /\ ether_as_ref E b = Ok b.
Proof. exact SliceProofs.c07_ether. Qed.
Print Assumptions C07_ether.
(** C07: the hypotheses of C07_ether can be met. *)
Example C07_ether_meets :
  exists (E : env) (b : bytes), rust_slice b /\ ether_new b = Ok b.
Proof. exact WitnessProofs.c07_ether_meets. Qed.
Theorem C07_v4 : forall b, v4_new b = Ok b ->
  let h := nthN b 0 mod 16 * 4 in
  let n := N.max h (wire16 b 2) in
  h <= n <= len b /\
  v4_split b = Ok (takeN h b, dropN h (takeN n b)) /\
  v4_header b = Ok (takeN h b) /\ v4_payload b = Ok (dropN h (takeN n b)) /\
  takeN h b ++ dropN h (takeN n b) = takeN n b /\ len (takeN h b) = h /\
  v4_header_size b = Ok h /\ v4_payload_size b = Ok (len (dropN h (takeN n b))) /\
  v4_size b = Ok n /\ v4_as_ref b = Ok (takeN n b).
Proof. exact SliceProofs.c07_v4. Qed.
Print Assumptions C07_v4.
(** C07: the hypotheses of C07_v4 can be met. *)
Example C07_v4_meets :
  exists (b : bytes), v4_new b = Ok b.
Proof. exact WitnessProofs.c07_v4_meets. Qed.
Theorem C07_v4_no_payload : forall b, v4_no_payload b = Ok b ->
  let h := nthN b 0 mod 16 * 4 in
  v4_header b = Ok (takeN h b) /\ v4_header_size b = Ok h /\ len (takeN h b) = h /\
  (wire16 b 2 <= len b -> v4_new b = Ok b) /\
  (len b < wire16 b 2 -> v4_payload b = Ok (dropN h b) /\ v4_size b = Ok (wire16 b 2) /\ v4_as_ref b = Panic).
Proof. exact SliceProofs.c07_v4_no_payload. Qed.
Print Assumptions C07_v4_no_payload.
(** C07: the hypotheses of C07_v4_no_payload can be met. *)
Example C07_v4_no_payload_meets :
  (exists (b : bytes), v4_no_payload b = Ok b /\ wire16 b 2 <= len b) /\
  (exists (b : bytes), v4_no_payload b = Ok b /\ len b < wire16 b 2).
Proof. exact WitnessProofs.c07_v4_no_payload_meets. Qed.
Example C07_v4_example : let b := 69 :: 0 :: 0 :: 22 :: repeat 7 30%nat in
  v4_new b = Ok b /\ v4_payload b = Ok [7; 7] /\ v4_size b = Ok 22.
Proof. exact SliceProofs.c07_v4_example. Qed.
Example C07_v4_no_payload_example : let b := 69 :: 0 :: 0 :: 100 :: repeat 7 20%nat in
  v4_no_payload b = Ok b /\ v4_payload b = Ok [7; 7; 7; 7] /\ v4_as_ref b = Panic.
Proof. exact SliceProofs.c07_v4_no_payload_example. Qed.
(** C07: UDP datagrams accepted by [new]: they end at the larger of 8 and the length field. *)
Theorem C07_udp : forall b, udp_new b = Ok b ->
  let n := N.max 8 (wire16 b 4) in
  8 <= n <= len b /\
  udp_split b = Ok (takeN 8 b, dropN 8 (takeN n b)) /\
  udp_header b = Ok (takeN 8 b) /\ udp_payload b = Ok (dropN 8 (takeN n b)) /\
  takeN 8 b ++ dropN 8 (takeN n b) = takeN n b /\ len (takeN 8 b) = 8 /\
  udp_header_size b = Ok 8 /\ udp_payload_size b = Ok (len (dropN 8 (takeN n b))) /\
  udp_size b = Ok n /\ udp_as_ref b = Ok (takeN n b).
Proof. exact SliceProofs.c07_udp. Qed.
Print Assumptions C07_udp.
(** C07: the hypotheses of C07_udp can be met. *)
Example C07_udp_meets :
  exists (b : bytes), udp_new b = Ok b.
Proof. exact WitnessProofs.c07_udp_meets. Qed.
(** C07: UDP datagrams accepted by [no_payload] only: as_ref panics. *)
Theorem C07_udp_no_payload : forall b, udp_no_payload b = Ok b ->
  udp_header b = Ok (takeN 8 b) /\
  (wire16 b 4 <= len b -> udp_new b = Ok b) /\
  (len b < wire16 b 4 -> udp_payload b = Ok (dropN 8 b) /\ udp_size b = Ok (wire16 b 4) /\ udp_as_ref b = Panic).
Proof. exact SliceProofs.c07_udp_no_payload. Qed.
Print Assumptions C07_udp_no_payload.
(** C07: the hypotheses of C07_udp_no_payload can be met. *)
Example C07_udp_no_payload_meets :
  (exists (b : bytes), udp_no_payload b = Ok b /\ wire16 b 4 <= len b) /\
  (exists (b : bytes), udp_no_payload b = Ok b /\ len b < wire16 b 4).
Proof. exact WitnessProofs.c07_udp_no_payload_meets. Qed.
Example C07_udp_example : let b := [0; 1; 0; 2; 0; 10; 0; 0; 7; 8; 9] in
  udp_new b = Ok b /\ udp_payload b = Ok [7; 8] /\ udp_as_ref b = Ok [0; 1; 0; 2; 0; 10; 0; 0; 7; 8].
Proof. exact SliceProofs.c07_udp_example. Qed.
(** C07: TCP. *)
Theorem C07_tcp : forall E b, rust_slice b -> tcp_new b = Ok b ->
  let h := nthN b 12 / 16 * 4 in
  h <= len b /\
  tcp_split b = Ok (takeN h b, dropN h b) /\
  tcp_header b = Ok (takeN h b) /\ tcp_payload b = Ok (dropN h b) /\
  takeN h b ++ dropN h b = b /\ len (takeN h b) = h /\
  tcp_header_size b = Ok h /\ tcp_payload_size E b = Ok (len (dropN h b)) /\
  tcp_size E b = Ok (len b) /\ tcp_as_ref E b = Ok b.
Proof. exact SliceProofs.c07_tcp. Qed.
Print Assumptions C07_tcp.
(** C07: the hypotheses of C07_tcp can be met. *)
Example C07_tcp_meets :
  exists (E : env) (b : bytes), rust_slice b /\ tcp_new b = Ok b.
Proof. exact WitnessProofs.c07_tcp_meets. Qed.
(** C07: generic ICMP. *)
Theorem C07_icmp : forall E b, rust_slice b -> icmp_new b = Ok b ->
  icmp_split b = Ok (takeN 4 b, dropN 4 b) /\
  icmp_header b = Ok (takeN 4 b) /\ icmp_payload b = Ok (dropN 4 b) /\
  takeN 4 b ++ dropN 4 b = b /\ len (takeN 4 b) = 4 /\
  icmp_header_size b = Ok 4 /\ icmp_payload_size E b = Ok (len (dropN 4 b)) /\
  icmp_size E b = Ok (len b) /\ icmp_as_ref E b = Ok b.
Proof. exact SliceProofs.c07_icmp. Qed.
Print Assumptions C07_icmp.
(** C07: the hypotheses of C07_icmp can be met. *)
Example C07_icmp_meets :
  exists (E : env) (b : bytes), rust_slice b /\ icmp_new b = Ok b.
Proof. exact WitnessProofs.c07_icmp_meets. Qed.
(** C07: ICMP echo. *)
Theorem C07_echo : forall E b, rust_slice b -> echo_new b = Ok b ->
  echo_split b = Ok (takeN 8 b, dropN 8 b) /\
  echo_header b = Ok (takeN 8 b) /\ echo_payload b = Ok (dropN 8 b) /\
  takeN 8 b ++ dropN 8 b = b /\ len (takeN 8 b) = 8 /\
  echo_header_size b = Ok 8 /\ echo_payload_size E b = Ok (len (dropN 8 b)) /\
  echo_size E b = Ok (len b) /\ echo_as_ref E b = Ok b.
Proof. exact SliceProofs.c07_echo. Qed.
Print Assumptions C07_echo.
(** C07: the hypotheses of C07_echo can be met. *)
Example C07_echo_meets :
  exists (E : env) (b : bytes), rust_slice b /\ echo_new b = Ok b.
Proof. exact WitnessProofs.c07_echo_meets. Qed.
Theorem C07_information : forall E b, information_new b = Ok b ->
  information_split b = Ok (takeN 8 b, dropN 8 b) /\
  information_header b = Ok (takeN 8 b) /\ information_payload b = Ok (dropN 8 b) /\
  takeN 8 b ++ dropN 8 b = b /\ len (takeN 8 b) = 8 /\
  information_header_size b = Ok 8 /\ information_payload_size b = Ok 0 /\
  information_size E b = Ok 8 /\ information_as_ref E b = Ok (takeN 8 b).
Proof. exact SliceProofs.c07_information. Qed.
Print Assumptions C07_information.
(** C07: the hypotheses of C07_information can be met. *)
Example C07_information_meets :
  exists (b : bytes), information_new b = Ok b.
Proof. exact WitnessProofs.c07_information_meets. Qed.
(** C07: ICMP timestamp: header() is 8 bytes although header::Size is 20. *)
Theorem C07_timestamp : forall E b, timestamp_new b = Ok b ->
  timestamp_split b = Ok (takeN 8 b, dropN 8 b) /\
  timestamp_header b = Ok (takeN 8 b) /\ timestamp_payload b = Ok (dropN 8 b) /\
  takeN 8 b ++ dropN 8 b = b /\ len (takeN 8 b) = 8 /\
  timestamp_header_size b = Ok 20 /\ timestamp_payload_size b = Ok 0 /\
  timestamp_size E b = Ok 20 /\ timestamp_as_ref E b = Ok (takeN 20 b).
Proof. exact SliceProofs.c07_timestamp. Qed.
Print Assumptions C07_timestamp.
(** C07: the hypotheses of C07_timestamp can be met. *)
Example C07_timestamp_meets :
  exists (b : bytes), timestamp_new b = Ok b.
Proof. exact WitnessProofs.c07_timestamp_meets. Qed.
(** C07: redirect: an 8-byte header, then the embedded datagram. *)
Theorem C07_redirect_message : forall b, redirect_message_new b = Ok b ->
  redirect_message_split b = Ok (takeN 8 b, dropN 8 b) /\
  redirect_message_header b = Ok (takeN 8 b) /\ redirect_message_payload b = Ok (dropN 8 b) /\
  takeN 8 b ++ dropN 8 b = b /\ len (takeN 8 b) = 8 /\ redirect_message_header_size b = Ok 8.
Proof. exact SliceProofs.c07_redirect_message. Qed.
Print Assumptions C07_redirect_message.
(** C07: the hypotheses of C07_redirect_message can be met. *)
Example C07_redirect_message_meets :
  exists (b : bytes), redirect_message_new b = Ok b.
Proof. exact WitnessProofs.c07_redirect_message_meets. Qed.
Theorem C07_parameter_problem : forall b, parameter_problem_new b = Ok b ->
  parameter_problem_split b = Ok (takeN 5 b, dropN 8 b) /\
  parameter_problem_header b = Ok (takeN 5 b) /\ parameter_problem_payload b = Ok (dropN 8 b) /\
  len (takeN 5 b) = 5 /\ parameter_problem_header_size b = Ok 8.
Proof. exact SliceProofs.c07_parameter_problem. Qed.
Print Assumptions C07_parameter_problem.
(** C07: the hypotheses of C07_parameter_problem can be met. *)
Example C07_parameter_problem_meets :
  exists (b : bytes), parameter_problem_new b = Ok b.
Proof. exact WitnessProofs.c07_parameter_problem_meets. Qed.
(** C07: previous: header() is the first 4 bytes, header::Size says 8. *)
Theorem C07_previous : forall b, previous_new b = Ok b ->
  previous_split b = Ok (takeN 4 b, dropN 8 b) /\
  previous_header b = Ok (takeN 4 b) /\ previous_payload b = Ok (dropN 8 b) /\
  len (takeN 4 b) = 4 /\ previous_header_size b = Ok 8.
Proof. exact SliceProofs.c07_previous. Qed.
Print Assumptions C07_previous.
(** C07: the hypotheses of C07_previous can be met. *)
Example C07_previous_meets :
  exists (b : bytes), previous_new b = Ok b.
Proof. exact WitnessProofs.c07_previous_meets. Qed.
Example C07_icmp_examples :
  echo_payload [8; 0; 0; 0; 0; 1; 0; 2; 5; 6] = Ok [5; 6] /\
  parameter_problem_header [12; 0; 1; 1; 3; 0; 0; 0] = Ok [12; 0; 1; 1; 3] /\
  previous_header [3; 0; 1; 1; 3; 0; 0; 0] = Ok [3; 0; 1; 1].
Proof. exact SliceProofs.c07_icmp_examples. Qed.
(** C07: IPv6: everything is empty. *)
Theorem C07_v6 : forall b, v6_new b = Ok b ->
  v6_split b = Ok ([], []) /\ v6_size b = Ok 0 /\ v6_as_ref b = Ok [] /\ v6_header_size b = Ok 0.
Proof. exact SliceProofs.c07_v6. Qed.
Print Assumptions C07_v6.
(** C07: the hypotheses of C07_v6 can be met. *)
Example C07_v6_meets :
  exists (b : bytes), v6_new b = Ok b.
Proof. exact WitnessProofs.c07_v6_meets. Qed.
Theorem C07_embedded : forall E b, rust_slice b ->
  (parameter_problem_new b = Ok b \/ redirect_message_new b = Ok b \/ previous_new b = Ok b) ->
  exists n, embedded_size E b = Ok n /\ 8 <= n <= len b /\ embedded_as_ref E b = Ok (takeN n b).
Proof. exact SliceProofs.c07_embedded. Qed.
Print Assumptions C07_embedded.
(** C07: the hypotheses of C07_embedded can be met. *)
Example C07_embedded_meets :
  exists (E : env) (b : bytes), rust_slice b /\ ((parameter_problem_new b = Ok b \/ redirect_message_new b = Ok b \/ previous_new b = Ok b)).
Proof. exact WitnessProofs.c07_embedded_meets. Qed.

(** ** C08 *)
Theorem C08_v4 : forall b, is_bytes b -> v4_no_payload b = Ok b ->
  let ihl := nthN b 0 mod 16 in
  v4_version b = Ok 4 /\ v4_ihl b = Ok ihl /\
  v4_dscp b = Ok (nthN b 1 / 4) /\ v4_ecn b = Ok (nthN b 1 mod 4) /\
  v4_length b = Ok (wire16 b 2) /\ v4_id b = Ok (wire16 b 4) /\
  v4_offset b = Ok (wire16 b 6 mod 8192) /\
  v4_ttl b = Ok (nthN b 8) /\ v4_protocol b = Ok (ip_protocol_from (nthN b 9)) /\
  v4_checksum b = Ok (wire16 b 10) /\
  v4_source b = Ok (wire_addr b 12) /\ v4_destination b = Ok (wire_addr b 16) /\
  (wire16 b 6 / 8192 mod 2 = 0 -> v4_flags b = Ok (wire16 b 6 / 8192)) /\
  (wire16 b 6 / 8192 mod 2 = 1 -> v4_flags b = Panic) /\
  (5 <= ihl -> v4_options b = Ok (takeN (ihl * 4 - 20) (dropN 20 b))) /\
  (ihl < 5 -> v4_options b = Panic).
Proof. exact AccessProofs.c08_v4. Qed.
Print Assumptions C08_v4.
(** C08: the hypotheses of C08_v4 can be met. *)
Example C08_v4_meets :
  (exists (b : bytes), is_bytes b /\ v4_no_payload b = Ok b /\ wire16 b 6 / 8192 mod 2 = 0) /\
  (exists (b : bytes), is_bytes b /\ v4_no_payload b = Ok b /\ wire16 b 6 / 8192 mod 2 = 1) /\
  (exists (b : bytes), is_bytes b /\ v4_no_payload b = Ok b /\ let ihl := nthN b 0 mod 16 in 5 <= ihl) /\
  (exists (b : bytes), is_bytes b /\ v4_no_payload b = Ok b /\ let ihl := nthN b 0 mod 16 in ihl < 5).
Proof. exact WitnessProofs.c08_v4_meets. Qed.
Example C08_v4_example :
  let b := 70 :: 5 :: 0 :: 24 :: 1 :: 2 :: 64 :: 7 :: 9 :: 17 :: repeat 1 14%nat in
  v4_no_payload b = Ok b /\ v4_flags b = Ok IP_DONT_FRAGMENT /\ v4_options b = Ok [1; 1; 1; 1] /\
  v4_dscp b = Ok 1 /\ v4_ecn b = Ok 1 /\ v4_offset b = Ok 7 /\ v4_protocol b = Ok IP_Udp.
Proof. exact AccessProofs.c08_v4_example. Qed.
Theorem C08_v4_accessors_total_refuted :
  (exists b, v4_new b = Ok b /\ is_bytes b /\ v4_flags b = Panic) /\
  (exists b, v4_new b = Ok b /\ is_bytes b /\ v4_options b = Panic).
Proof. exact AccessProofs.c08_v4_accessors_total_refuted. Qed.
Print Assumptions C08_v4_accessors_total_refuted.
(** C08: the accessors of an Ethernet frame never panic. *)
Theorem C08_ether : forall b, ether_new b = Ok b ->
  ether_destination b = Ok (wire_mac b 0) /\ ether_source b = Ok (wire_mac b 6) /\
  ether_get_protocol b = Ok (ether_protocol_from (wire16 b 12)).
Proof. exact AccessProofs.c08_ether. Qed.
Print Assumptions C08_ether.
(** C08: the hypotheses of C08_ether can be met. *)
Example C08_ether_meets :
  exists (b : bytes), ether_new b = Ok b.
Proof. exact WitnessProofs.c08_ether_meets. Qed.
(** C08: the accessors of a UDP datagram never panic. *)
Theorem C08_udp : forall b, udp_no_payload b = Ok b ->
  udp_source b = Ok (wire16 b 0) /\ udp_destination b = Ok (wire16 b 2) /\
  udp_length b = Ok (wire16 b 4) /\ udp_checksum b = Ok (wire16 b 6).
Proof. exact AccessProofs.c08_udp. Qed.
Print Assumptions C08_udp.
(** C08: the hypotheses of C08_udp can be met. *)
Example C08_udp_meets :
  exists (b : bytes), udp_no_payload b = Ok b.
Proof. exact WitnessProofs.c08_udp_meets. Qed.
Theorem C08_tcp : forall b, tcp_new b = Ok b ->
  let offset := nthN b 12 / 16 in
  tcp_source b = Ok (wire16 b 0) /\ tcp_destination b = Ok (wire16 b 2) /\
  tcp_sequence b = Ok (wire32 b 4) /\ tcp_acknowledgment b = Ok (wire32 b 8) /\
  tcp_offset b = Ok offset /\ tcp_flags b = Ok (wire16 b 12 mod 512) /\
  tcp_window b = Ok (wire16 b 14) /\ tcp_checksum b = Ok (wire16 b 16) /\
  tcp_pointer b = Ok (wire16 b 18) /\
  (5 <= offset -> tcp_options b = Ok (takeN (offset * 4 - 20) (dropN 20 b))) /\
  (offset < 5 -> tcp_options b = Panic).
Proof. exact AccessProofs.c08_tcp. Qed.
Print Assumptions C08_tcp.
(** C08: the hypotheses of C08_tcp can be met. *)
Example C08_tcp_meets :
  (exists (b : bytes), tcp_new b = Ok b /\ let offset := nthN b 12 / 16 in 5 <= offset) /\
  (exists (b : bytes), tcp_new b = Ok b /\ let offset := nthN b 12 / 16 in offset < 5).
Proof. exact WitnessProofs.c08_tcp_meets. Qed.
(** C08: the accessors of ICMP packets never panic. *)
Theorem C08_icmp : forall b, icmp_new b = Ok b ->
  icmp_get_kind b = Ok (icmp_kind_from (nthN b 0)) /\ icmp_code b = Ok (nthN b 1) /\
  icmp_checksum b = Ok (wire16 b 2).
Proof. exact AccessProofs.c08_icmp. Qed.
Print Assumptions C08_icmp.
(** C08: the hypotheses of C08_icmp can be met. *)
Example C08_icmp_meets :
  exists (b : bytes), icmp_new b = Ok b.
Proof. exact WitnessProofs.c08_icmp_meets. Qed.
(** C08: typed ICMP packets: is_request / is_reply compare the type byte. *)
Theorem C08_echo : forall b, echo_new b = Ok b ->
  echo_is_request b = Ok (nthN b 0 =? 8) /\ echo_is_reply b = Ok (nthN b 0 =? 0) /\
  echo_identifier b = Ok (wire16 b 4) /\ echo_sequence b = Ok (wire16 b 6).
Proof. exact AccessProofs.c08_echo. Qed.
Print Assumptions C08_echo.
(** C08: the hypotheses of C08_echo can be met. *)
Example C08_echo_meets :
  exists (b : bytes), echo_new b = Ok b.
Proof. exact WitnessProofs.c08_echo_meets. Qed.
Theorem C08_information : forall b, information_new b = Ok b ->
  information_is_request b = Ok (nthN b 0 =? 15) /\ information_is_reply b = Ok (nthN b 0 =? 16) /\
  information_identifier b = Ok (wire16 b 4) /\ information_sequence b = Ok (wire16 b 6).
Proof. exact AccessProofs.c08_information. Qed.
Print Assumptions C08_information.
(** C08: the hypotheses of C08_information can be met. *)
Example C08_information_meets :
  exists (b : bytes), information_new b = Ok b.
Proof. exact WitnessProofs.c08_information_meets. Qed.
Theorem C08_timestamp : forall b, timestamp_new b = Ok b ->
  timestamp_is_request b = Ok (nthN b 0 =? 13) /\ timestamp_is_reply b = Ok (nthN b 0 =? 14) /\
  timestamp_identifier b = Ok (wire16 b 4) /\ timestamp_sequence b = Ok (wire16 b 6) /\
  timestamp_originate b = Ok (wire32 b 8) /\ timestamp_receive b = Ok (wire32 b 12) /\
  timestamp_transmit b = Ok (wire32 b 16).
Proof. exact AccessProofs.c08_timestamp. Qed.
Print Assumptions C08_timestamp.
(** C08: the hypotheses of C08_timestamp can be met. *)
Example C08_timestamp_meets :
  exists (b : bytes), timestamp_new b = Ok b.
Proof. exact WitnessProofs.c08_timestamp_meets. Qed.
Example C08_icmp_examples :
  timestamp_is_reply (14 :: repeat 1 19%nat) = Ok true /\ echo_is_request [8; 0; 0; 0; 0; 0; 0; 0] = Ok true /\
  information_identifier [15; 0; 0; 0; 1; 2; 0; 0] = Ok 258.
Proof. exact AccessProofs.c08_icmp_examples. Qed.

(** ** C09 *)
(** C09: Ethernet. *)
Theorem C09_ether : forall f rest, ether_fields_ok f ->
  let b := ether_wire f ++ rest in
  ether_new b = Ok b /\
  ether_destination b = Ok (ef_dst f) /\ ether_source b = Ok (ef_src f) /\
  ether_get_protocol b = Ok (ether_protocol_from (ef_type f)) /\ ether_payload b = Ok rest.
Proof. exact AccessProofs.c09_ether. Qed.
Print Assumptions C09_ether.
(** C09: the hypotheses of C09_ether can be met. *)
Example C09_ether_meets :
  exists (f : ether_fields), ether_fields_ok f.
Proof. exact WitnessProofs.c09_ether_meets. Qed.
Theorem C09_v4 : forall f rest, v4_fields_ok f -> vf_version f = 4 ->
  vf_ihl f * 4 <= 20 + len rest ->
  let b := v4_wire f ++ rest in
  v4_no_payload b = Ok b /\
  v4_version b = Ok 4 /\ v4_ihl b = Ok (vf_ihl f) /\
  v4_dscp b = Ok (vf_dscp f) /\ v4_ecn b = Ok (vf_ecn f) /\
  v4_length b = Ok (vf_total f) /\ v4_id b = Ok (vf_id f) /\
  v4_flags b = (if vf_mf f then Panic
                else Ok (bit (vf_reserved f) * IP_MORE_FRAGMENTS + bit (vf_df f) * IP_DONT_FRAGMENT)) /\
  v4_offset b = Ok (vf_frag f) /\
  v4_ttl b = Ok (vf_ttl f) /\ v4_protocol b = Ok (ip_protocol_from (vf_proto f)) /\
  v4_checksum b = Ok (vf_checksum f) /\
  v4_source b = Ok (vf_src f) /\ v4_destination b = Ok (vf_dst f).
Proof. exact AccessProofs.c09_v4. Qed.
Print Assumptions C09_v4.
(** C09: the hypotheses of C09_v4 can be met. *)
Example C09_v4_meets :
  exists (f : v4_fields) (rest : bytes), v4_fields_ok f /\ vf_version f = 4 /\ vf_ihl f * 4 <= 20 + len rest.
Proof. exact WitnessProofs.c09_v4_meets. Qed.
Theorem C09_v4_parts : forall f opts payload trailer, v4_fields_ok f -> vf_version f = 4 ->
  vf_ihl f * 4 = 20 + len opts -> vf_total f = 20 + len opts + len payload ->
  let b := v4_wire f ++ opts ++ payload ++ trailer in
  v4_new b = Ok b /\ v4_header b = Ok (v4_wire f ++ opts) /\ v4_options b = Ok opts /\
  v4_payload b = Ok payload /\ v4_as_ref b = Ok (v4_wire f ++ opts ++ payload).
Proof. exact AccessProofs.c09_v4_parts. Qed.
Print Assumptions C09_v4_parts.
(** C09: the hypotheses of C09_v4_parts can be met. *)
Example C09_v4_parts_meets :
  exists (f : v4_fields) (opts : bytes) (payload : bytes), v4_fields_ok f /\ vf_version f = 4 /\ vf_ihl f * 4 = 20 + len opts /\ vf_total f = 20 + len opts + len payload.
Proof. exact WitnessProofs.c09_v4_parts_meets. Qed.
Theorem C09_v4_layout_total : forall b, is_bytes b -> 20 <= len b ->
  exists f, v4_fields_ok f /\ takeN 20 b = v4_wire f.
Proof. exact AccessProofs.c09_v4_layout_total. Qed.
Print Assumptions C09_v4_layout_total.
(** C09: the hypotheses of C09_v4_layout_total can be met. *)
Example C09_v4_layout_total_meets :
  exists (b : bytes), is_bytes b /\ 20 <= len b.
Proof. exact WitnessProofs.c09_v4_layout_total_meets. Qed.
(** C09: UDP. *)
Theorem C09_udp : forall f payload trailer, udp_fields_ok f -> uf_length f = 8 + len payload ->
  let b := udp_wire f ++ payload ++ trailer in
  udp_new b = Ok b /\
  udp_source b = Ok (uf_src f) /\ udp_destination b = Ok (uf_dst f) /\
  udp_length b = Ok (uf_length f) /\ udp_checksum b = Ok (uf_checksum f) /\
  udp_payload b = Ok payload /\ udp_as_ref b = Ok (udp_wire f ++ payload).
Proof. exact AccessProofs.c09_udp. Qed.
Print Assumptions C09_udp.
(** C09: the hypotheses of C09_udp can be met. *)
Example C09_udp_meets :
  exists (f : udp_fields) (payload : bytes), udp_fields_ok f /\ uf_length f = 8 + len payload.
Proof. exact WitnessProofs.c09_udp_meets. Qed.
Theorem C09_udp_layout_total : forall b, is_bytes b -> 8 <= len b ->
  exists f, udp_fields_ok f /\ takeN 8 b = udp_wire f.
Proof. exact AccessProofs.c09_udp_layout_total. Qed.
Print Assumptions C09_udp_layout_total.
(** C09: the hypotheses of C09_udp_layout_total can be met. *)
Example C09_udp_layout_total_meets :
  exists (b : bytes), is_bytes b /\ 8 <= len b.
Proof. exact WitnessProofs.c09_udp_layout_total_meets. Qed.
(** C09: TCP. *)
Theorem C09_tcp : forall f opts payload, tcp_fields_ok f -> tf_offset f * 4 = 20 + len opts ->
  let b := tcp_wire f ++ opts ++ payload in
  tcp_new b = Ok b /\
  tcp_source b = Ok (tf_src f) /\ tcp_destination b = Ok (tf_dst f) /\
  tcp_sequence b = Ok (tf_seq f) /\ tcp_acknowledgment b = Ok (tf_ack f) /\
  tcp_offset b = Ok (tf_offset f) /\ tcp_flags b = Ok (tf_flags f) /\
  tcp_window b = Ok (tf_window f) /\ tcp_checksum b = Ok (tf_checksum f) /\
  tcp_pointer b = Ok (tf_pointer f) /\ tcp_options b = Ok opts /\
  tcp_header b = Ok (tcp_wire f ++ opts) /\ tcp_payload b = Ok payload.
Proof. exact AccessProofs.c09_tcp. Qed.
Print Assumptions C09_tcp.
(** C09: the hypotheses of C09_tcp can be met. *)
Example C09_tcp_meets :
  exists (f : tcp_fields) (opts : bytes), tcp_fields_ok f /\ tf_offset f * 4 = 20 + len opts.
Proof. exact WitnessProofs.c09_tcp_meets. Qed.
Theorem C09_tcp_layout_total : forall b, is_bytes b -> 20 <= len b ->
  exists f, tcp_fields_ok f /\ takeN 20 b = tcp_wire f.
Proof. exact AccessProofs.c09_tcp_layout_total. Qed.
Print Assumptions C09_tcp_layout_total.
(** C09: the hypotheses of C09_tcp_layout_total can be met. *)
Example C09_tcp_layout_total_meets :
  exists (b : bytes), is_bytes b /\ 20 <= len b.
Proof. exact WitnessProofs.c09_tcp_layout_total_meets. Qed.
(** C09: ICMP and its typed messages. *)
Theorem C09_icmp : forall f rest, icmp_fields_ok f ->
  let b := icmp_wire f ++ rest in
  icmp_new b = Ok b /\
  icmp_get_kind b = Ok (icmp_kind_from (cf_type f)) /\ icmp_code b = Ok (cf_code f) /\
  icmp_checksum b = Ok (cf_checksum f) /\ icmp_payload b = Ok rest.
Proof. exact AccessProofs.c09_icmp. Qed.
Print Assumptions C09_icmp.
(** C09: the hypotheses of C09_icmp can be met. *)
Example C09_icmp_meets :
  exists (f : icmp_fields), icmp_fields_ok f.
Proof. exact WitnessProofs.c09_icmp_meets. Qed.
Theorem C09_echo : forall f ident seq payload, icmp_fields_ok f -> cf_type f = 8 \/ cf_type f = 0 ->
  let b := ident_wire f ident seq ++ payload in
  echo_new b = Ok b /\ echo_identifier b = Ok ident /\ echo_sequence b = Ok seq /\
  echo_is_request b = Ok (cf_type f =? 8) /\ echo_is_reply b = Ok (cf_type f =? 0) /\
  echo_payload b = Ok payload.
Proof. exact AccessProofs.c09_echo. Qed.
Print Assumptions C09_echo.
(** C09: the hypotheses of C09_echo can be met. *)
Example C09_echo_meets :
  exists (f : icmp_fields), icmp_fields_ok f /\ (cf_type f = 8 \/ cf_type f = 0).
Proof. exact WitnessProofs.c09_echo_meets. Qed.
Theorem C09_information : forall f ident seq rest, icmp_fields_ok f -> cf_type f = 15 \/ cf_type f = 16 ->
  let b := ident_wire f ident seq ++ rest in
  information_new b = Ok b /\ information_identifier b = Ok ident /\ information_sequence b = Ok seq /\
  information_is_request b = Ok (cf_type f =? 15) /\ information_is_reply b = Ok (cf_type f =? 16).
Proof. exact AccessProofs.c09_information. Qed.
Print Assumptions C09_information.
(** C09: the hypotheses of C09_information can be met. *)
Example C09_information_meets :
  exists (f : icmp_fields), icmp_fields_ok f /\ (cf_type f = 15 \/ cf_type f = 16).
Proof. exact WitnessProofs.c09_information_meets. Qed.
Theorem C09_timestamp : forall f ident seq orig recv tran rest,
  icmp_fields_ok f -> cf_type f = 13 \/ cf_type f = 14 ->
  let b := timestamp_wire f ident seq orig recv tran ++ rest in
  timestamp_new b = Ok b /\ timestamp_identifier b = Ok ident /\ timestamp_sequence b = Ok seq /\
  timestamp_originate b = Ok orig /\ timestamp_receive b = Ok recv /\ timestamp_transmit b = Ok tran /\
  timestamp_is_request b = Ok (cf_type f =? 13) /\ timestamp_is_reply b = Ok (cf_type f =? 14).
Proof. exact AccessProofs.c09_timestamp. Qed.
Print Assumptions C09_timestamp.
(** C09: the hypotheses of C09_timestamp can be met. *)
Example C09_timestamp_meets :
  exists (f : icmp_fields), icmp_fields_ok f /\ (cf_type f = 13 \/ cf_type f = 14).
Proof. exact WitnessProofs.c09_timestamp_meets. Qed.
Example C09_example :
  let f := {| vf_version := 4; vf_ihl := 6; vf_dscp := 10; vf_ecn := 1; vf_total := 26; vf_id := 4660;
              vf_reserved := false; vf_df := true; vf_mf := false; vf_frag := 100; vf_ttl := 64; vf_proto := 17;
              vf_checksum := 43981; vf_src := Ip4 10 0 0 1; vf_dst := Ip4 10 0 0 2 |} in
  v4_fields_ok f /\
  v4_wire f = [70; 41; 0; 26; 18; 52; 64; 100; 64; 17; 171; 205; 10; 0; 0; 1; 10; 0; 0; 2] /\
  v4_payload (v4_wire f ++ [1; 1; 1; 0] ++ [8; 9] ++ [255]) = Ok [8; 9].
Proof. exact AccessProofs.c09_example. Qed.

(** ** C10 *)
Theorem C10_ether_set_destination : forall b v, ether_new b = Ok b ->
  sets (ether_set_destination v) ether_destination v 0 6 b.
Proof. exact FieldProofs.c10_ether_set_destination. Qed.
Print Assumptions C10_ether_set_destination.
(** C10: the hypotheses of C10_ether_set_destination can be met. *)
Example C10_ether_set_destination_meets :
  exists (b : bytes), ether_new b = Ok b.
Proof. exact WitnessProofs.c10_ether_set_destination_meets. Qed.
Theorem C10_ether_set_source : forall b v, ether_new b = Ok b ->
  sets (ether_set_source v) ether_source v 6 12 b.
Proof. exact FieldProofs.c10_ether_set_source. Qed.
Print Assumptions C10_ether_set_source.
(** C10: the hypotheses of C10_ether_set_source can be met. *)
Example C10_ether_set_source_meets :
  exists (b : bytes), ether_new b = Ok b.
Proof. exact WitnessProofs.c10_ether_set_source_meets. Qed.
Theorem C10_ether_set_protocol : forall b v, ether_new b = Ok b ->
  sets (ether_set_protocol v) ether_get_protocol (ether_protocol_from (ether_protocol_into v)) 12 14 b.
Proof. exact FieldProofs.c10_ether_set_protocol. Qed.
Print Assumptions C10_ether_set_protocol.
(** C10: the hypotheses of C10_ether_set_protocol can be met. *)
Example C10_ether_set_protocol_meets :
  exists (b : bytes), ether_new b = Ok b.
Proof. exact WitnessProofs.c10_ether_set_protocol_meets. Qed.
Example C10_example : let b := repeat 7 16%nat in
  ether_new b = Ok b /\
  ether_set_source (Hw 1 2 3 4 5 6) b = ([7; 7; 7; 7; 7; 7; 1; 2; 3; 4; 5; 6; 7; 7; 7; 7], Ok tt).
Proof. exact FieldProofs.c10_example. Qed.

(** ** C11 *)
Theorem C11_udp_set_source : forall b v, udp_no_payload b = Ok b -> sets (udp_set_source v) udp_source v 0 2 b.
Proof. exact FieldProofs.c11_udp_set_source. Qed.
Print Assumptions C11_udp_set_source.
(** C11: the hypotheses of C11_udp_set_source can be met. *)
Example C11_udp_set_source_meets :
  exists (b : bytes), udp_no_payload b = Ok b.
Proof. exact WitnessProofs.c11_udp_set_source_meets. Qed.
Theorem C11_udp_set_destination : forall b v, udp_no_payload b = Ok b ->
  sets (udp_set_destination v) udp_destination v 2 4 b.
Proof. exact FieldProofs.c11_udp_set_destination. Qed.
Print Assumptions C11_udp_set_destination.
(** C11: the hypotheses of C11_udp_set_destination can be met. *)
Example C11_udp_set_destination_meets :
  exists (b : bytes), udp_no_payload b = Ok b.
Proof. exact WitnessProofs.c11_udp_set_destination_meets. Qed.
Theorem C11_udp_set_checksum : forall b v, udp_no_payload b = Ok b ->
  sets (udp_set_checksum v) udp_checksum v 6 8 b.
Proof. exact FieldProofs.c11_udp_set_checksum. Qed.
Print Assumptions C11_udp_set_checksum.
(** C11: the hypotheses of C11_udp_set_checksum can be met. *)
Example C11_udp_set_checksum_meets :
  exists (b : bytes), udp_no_payload b = Ok b.
Proof. exact WitnessProofs.c11_udp_set_checksum_meets. Qed.
Example C11_example : let b := [0; 1; 0; 2; 0; 10; 0; 0; 7; 8; 9] in
  udp_no_payload b = Ok b /\ udp_set_source 4660 b = ([18; 52; 0; 2; 0; 10; 0; 0; 7; 8; 9], Ok tt).
Proof. exact FieldProofs.c11_example. Qed.

(** ** C12 *)
Theorem C12_tcp_setters : forall b, tcp_new b = Ok b -> 5 <= nthN b 12 / 16 -> forall v,
  sets (tcp_set_source v) tcp_source v 0 2 b /\
  sets (tcp_set_destination v) tcp_destination v 2 4 b /\
  sets (tcp_set_sequence v) tcp_sequence v 4 8 b /\
  sets (tcp_set_acknowledgment v) tcp_acknowledgment v 8 12 b /\
  sets (tcp_set_window v) tcp_window v 14 16 b /\
  sets (tcp_set_checksum v) tcp_checksum v 16 18 b /\
  sets (tcp_set_pointer v) tcp_pointer v 18 20 b.
Proof. exact FieldProofs.c12_tcp_setters. Qed.
Print Assumptions C12_tcp_setters.
(** C12: the hypotheses of C12_tcp_setters can be met. *)
Example C12_tcp_setters_meets :
  exists (b : bytes), tcp_new b = Ok b /\ 5 <= nthN b 12 / 16.
Proof. exact WitnessProofs.c12_tcp_setters_meets. Qed.
Theorem C12_tcp_short_header : forall b, tcp_new b = Ok b -> forall v,
  let h := nthN b 12 / 16 * 4 in
  Forall (fun '(f, lo, hi) =>
            (hi <= h -> snd (f b) = Ok tt) /\
            (h = lo -> f b = (b, Err Io)) /\
            (h < lo -> f b = (b, Panic)) /\
            (hi <= h \/ h = lo \/ h < lo))
    [(tcp_set_source v, 0, 2); (tcp_set_destination v, 2, 4); (tcp_set_sequence v, 4, 8);
     (tcp_set_acknowledgment v, 8, 12); (tcp_set_window v, 14, 16); (tcp_set_checksum v, 16, 18);
     (tcp_set_pointer v, 18, 20)].
Proof. exact FieldProofs.c12_tcp_short_header. Qed.
Print Assumptions C12_tcp_short_header.
(** C12: the hypotheses of C12_tcp_short_header can be met. *)
Example C12_tcp_short_header_meets :
  exists (b : bytes), tcp_new b = Ok b.
Proof. exact WitnessProofs.c12_tcp_short_header_meets. Qed.
Example C12_example : let b := repeat 0 12%nat ++ [80] ++ repeat 0 9%nat in
  tcp_new b = Ok b /\ nthN b 12 / 16 = 5 /\
  tcp_set_sequence 16909060 b = ([0; 0; 0; 0; 1; 2; 3; 4; 0; 0; 0; 0; 80; 0; 0; 0; 0; 0; 0; 0; 0; 0], Ok tt) /\
  tcp_new (zeros 20) = Ok (zeros 20) /\ tcp_set_source 1 (zeros 20) = (zeros 20, Err Io) /\
  tcp_set_window 1 (zeros 20) = (zeros 20, Panic).
Proof. exact FieldProofs.c12_example. Qed.

(** ** C13 *)
(** C13: set_dscp changes only byte 1 and keeps ECN. *)
Theorem C13_v4_set_dscp : forall b v, is_bytes b -> v4_no_payload b = Ok b -> v <= 63 ->
  sets (v4_set_dscp v) v4_dscp v 1 2 b /\
  v4_ecn (fst (v4_set_dscp v b)) = v4_ecn b.
Proof. exact FieldProofs.c13_v4_set_dscp. Qed.
Print Assumptions C13_v4_set_dscp.
(** C13: the hypotheses of C13_v4_set_dscp can be met. *)
Example C13_v4_set_dscp_meets :
  exists (b : bytes) (v : N), is_bytes b /\ v4_no_payload b = Ok b /\ v <= 63.
Proof. exact WitnessProofs.c13_v4_set_dscp_meets. Qed.
(** C13: the other setters of an IPv4 packet with IHL at least 5. *)
Theorem C13_v4_setters : forall b, v4_no_payload b = Ok b -> 5 <= nthN b 0 mod 16 ->
  (forall v, sets (v4_set_id v) v4_id v 4 6 b) /\
  (forall v, sets (v4_set_ttl v) v4_ttl v 8 9 b) /\
  (forall v, sets (v4_set_protocol v) v4_protocol (ip_protocol_from (ip_protocol_into v)) 9 10 b) /\
  (forall v, sets (v4_set_checksum v) v4_checksum v 10 12 b) /\
  (forall v, sets (v4_set_source v) v4_source v 12 16 b) /\
  (forall v, sets (v4_set_destination v) v4_destination v 16 20 b).
Proof. exact FieldProofs.c13_v4_setters. Qed.
Print Assumptions C13_v4_setters.
(** C13: the hypotheses of C13_v4_setters can be met. *)
Example C13_v4_setters_meets :
  exists (b : bytes), v4_no_payload b = Ok b /\ 5 <= nthN b 0 mod 16.
Proof. exact WitnessProofs.c13_v4_setters_meets. Qed.
Theorem C13_v4_short_header : forall b, v4_no_payload b = Ok b ->
  forall v w x y,
  let h := nthN b 0 mod 16 * 4 in
  snd (v4_set_id v b) = Ok tt /\
  Forall (fun '(f, hi) => (hi <= h -> snd (f b) = Ok tt) /\ (h < hi -> f b = (b, Panic)))
    [(v4_set_flags v, 8); (v4_set_offset v, 8); (v4_set_ttl v, 9); (v4_set_protocol w, 10);
     (v4_set_checksum v, 12); (v4_set_source x, 16); (v4_set_destination y, 20)].
Proof. exact FieldProofs.c13_v4_short_header. Qed.
Print Assumptions C13_v4_short_header.
(** C13: the hypotheses of C13_v4_short_header can be met. *)
Example C13_v4_short_header_meets :
  exists (b : bytes), v4_no_payload b = Ok b.
Proof. exact WitnessProofs.c13_v4_short_header_meets. Qed.
Example C13_example : let b := 69 :: 7 :: 0 :: 20 :: repeat 0 16%nat in
  v4_no_payload b = Ok b /\ is_bytes b /\ 5 <= nthN b 0 mod 16 /\
  v4_set_dscp 46 b = (69 :: 187 :: 0 :: 20 :: repeat 0 16%nat, Ok tt) /\
  v4_set_source (Ip4 1 2 3 4) b = (69 :: 7 :: 0 :: 20 :: repeat 0 8%nat ++ [1; 2; 3; 4; 0; 0; 0; 0], Ok tt).
Proof. exact FieldProofs.c13_example. Qed.

(** ** C14 *)
(** C14: what set_ecn does, and exactly when that is right. *)
Theorem C14_v4_set_ecn : forall b v, is_bytes b -> 2 <= len b -> v <= 3 ->
  let dscp := nthN b 1 / 4 in
  let ecn := nthN b 1 mod 4 in
  exists b', v4_set_ecn v b = (b', Ok tt) /\ only_changes 1 2 b b' /\
    v4_dscp b' = Ok (dscp mod 16) /\ v4_ecn b' = Ok (N.lor ecn v) /\
    (v4_ecn b' = Ok v /\ v4_dscp b' = v4_dscp b <-> dscp < 16 /\ N.land ecn v = ecn).
Proof. exact FieldProofs.c14_v4_set_ecn. Qed.
Print Assumptions C14_v4_set_ecn.
(** C14: the hypotheses of C14_v4_set_ecn can be met. *)
Example C14_v4_set_ecn_meets :
  exists (b : bytes) (v : N), is_bytes b /\ 2 <= len b /\ v <= 3.
Proof. exact WitnessProofs.c14_v4_set_ecn_meets. Qed.
(** C14: so it is not a setter: DSCP 46 with ECN 3 set to 0. *)
Theorem C14_v4_set_ecn_refuted : exists b, v4_new b = Ok b /\ is_bytes b /\
  v4_dscp b = Ok 46 /\ v4_ecn b = Ok 3 /\
  v4_dscp (fst (v4_set_ecn 0 b)) = Ok 14 /\ v4_ecn (fst (v4_set_ecn 0 b)) = Ok 3.
Proof. exact FieldProofs.c14_v4_set_ecn_refuted. Qed.
Print Assumptions C14_v4_set_ecn_refuted.
Example C14_example : let b := 69 :: 4 :: 0 :: 20 :: repeat 0 16%nat in
  v4_set_ecn 1 b = (69 :: 5 :: 0 :: 20 :: repeat 0 16%nat, Ok tt).
Proof. exact FieldProofs.c14_example. Qed.

(** ** C15 *)
(** C15: set_flags (the flag bits are a subset of 2 and 4). *)
Theorem C15_v4_set_flags : forall b v, is_bytes b -> v4_no_payload b = Ok b -> 2 <= nthN b 0 mod 16 ->
  In v [0; 2; 4; 6] ->
  exists b', v4_set_flags v b = (b', Ok tt) /\ only_changes 6 8 b b' /\
    v4_flags b' = Ok 0 /\ v4_offset b' = Ok v /\
    (v4_flags b' = Ok v /\ v4_offset b' = v4_offset b <-> v = 0 /\ v4_offset b = Ok 0).
Proof. exact FieldProofs.c15_v4_set_flags. Qed.
Print Assumptions C15_v4_set_flags.
(** C15: the hypotheses of C15_v4_set_flags can be met. *)
Example C15_v4_set_flags_meets :
  exists (b : bytes) (v : N), is_bytes b /\ v4_no_payload b = Ok b /\ 2 <= nthN b 0 mod 16 /\ In v [0; 2; 4; 6].
Proof. exact WitnessProofs.c15_v4_set_flags_meets. Qed.
Theorem C15_v4_set_offset : forall b v, is_bytes b -> v4_no_payload b = Ok b -> 2 <= nthN b 0 mod 16 ->
  u16 v ->
  exists b', v4_set_offset v b = (b', Ok tt) /\ only_changes 6 8 b b' /\
    v4_offset b' = Ok (v mod 8192) /\ wire16 b' 6 / 8192 = v / 8192 /\
    (v4_offset b' = Ok v /\ wire16 b' 6 / 8192 = wire16 b 6 / 8192 <->
     v < 8192 /\ wire16 b 6 / 8192 = 0).
Proof. exact FieldProofs.c15_v4_set_offset. Qed.
Print Assumptions C15_v4_set_offset.
(** C15: the hypotheses of C15_v4_set_offset can be met. *)
Example C15_v4_set_offset_meets :
  exists (b : bytes) (v : N), is_bytes b /\ v4_no_payload b = Ok b /\ 2 <= nthN b 0 mod 16 /\ u16 v.
Proof. exact WitnessProofs.c15_v4_set_offset_meets. Qed.
Theorem C15_v4_flags_offset_refuted :
  exists b, v4_new b = Ok b /\ is_bytes b /\
  v4_flags (fst (v4_set_flags IP_DONT_FRAGMENT b)) = Ok 0 /\
  v4_offset (fst (v4_set_flags IP_DONT_FRAGMENT b)) = Ok 2 /\
  v4_flags b = Ok IP_DONT_FRAGMENT /\ v4_flags (fst (v4_set_offset 1 b)) = Ok 0 /\
  snd (v4_set_offset 65535 b) = Ok tt /\ v4_flags (fst (v4_set_offset 65535 b)) = Panic.
Proof. exact FieldProofs.c15_v4_flags_offset_refuted. Qed.
Print Assumptions C15_v4_flags_offset_refuted.
Example C15_example : let b := 69 :: 0 :: 0 :: 20 :: 0 :: 0 :: 0 :: repeat 0 13%nat in
  is_bytes b /\ v4_no_payload b = Ok b /\ 2 <= nthN b 0 mod 16 /\ In IP_MORE_FRAGMENTS [0; 2; 4; 6] /\
  v4_set_flags IP_MORE_FRAGMENTS b = (69 :: 0 :: 0 :: 20 :: 0 :: 0 :: 0 :: 4 :: repeat 0 12%nat, Ok tt) /\
  v4_set_offset 513 b = (69 :: 0 :: 0 :: 20 :: 0 :: 0 :: 2 :: 1 :: repeat 0 12%nat, Ok tt).
Proof. exact FieldProofs.c15_example. Qed.

(** ** C16 *)
Theorem C16_tcp_set_flags : forall b v, is_bytes b -> tcp_new b = Ok b -> v < 512 ->
  (4 <= nthN b 12 / 16 ->
   exists b', tcp_set_flags v b = (b', Ok tt) /\ only_changes 12 14 b b' /\
     tcp_flags b' = Ok v /\ tcp_offset b' = Ok 0 /\ wire16 b' 12 = v /\
     tcp_new b' = Ok b' /\ tcp_header b' = Ok [] /\ tcp_payload b' = Ok b') /\
  (nthN b 12 / 16 < 4 -> snd (tcp_set_flags v b) = Panic).
Proof. exact FieldProofs.c16_tcp_set_flags. Qed.
Print Assumptions C16_tcp_set_flags.
(** C16: the hypotheses of C16_tcp_set_flags can be met. *)
Example C16_tcp_set_flags_meets :
  (exists (b : bytes) (v : N), is_bytes b /\ tcp_new b = Ok b /\ v < 512 /\ 4 <= nthN b 12 / 16) /\
  (exists (b : bytes) (v : N), is_bytes b /\ tcp_new b = Ok b /\ v < 512 /\ nthN b 12 / 16 < 4).
Proof. exact WitnessProofs.c16_tcp_set_flags_meets. Qed.
(** C16: so a data offset never survives set_flags. *)
Theorem C16_tcp_set_flags_keeps_offset_refuted : exists b, tcp_new b = Ok b /\ is_bytes b /\
  tcp_offset b = Ok 5 /\ tcp_offset (fst (tcp_set_flags 2 b)) = Ok 0.
Proof. exact FieldProofs.c16_tcp_set_flags_keeps_offset_refuted. Qed.
Print Assumptions C16_tcp_set_flags_keeps_offset_refuted.
Example C16_example : let b := repeat 7 12%nat ++ [80; 16] ++ repeat 7 10%nat in
  is_bytes b /\ tcp_new b = Ok b /\ 4 <= nthN b 12 / 16 /\
  tcp_set_flags 258 b = (repeat 7 12%nat ++ [1; 2] ++ repeat 7 10%nat, Ok tt) /\
  tcp_payload (repeat 7 12%nat ++ [1; 2] ++ repeat 7 10%nat) = Ok (repeat 7 12%nat ++ [1; 2] ++ repeat 7 10%nat).
Proof. exact FieldProofs.c16_example. Qed.

(** ** C17 *)
(** C17: identifier and sequence of echo packets. *)
Theorem C17_echo_setters : forall b, echo_new b = Ok b -> forall v,
  sets (echo_set_identifier v) echo_identifier v 4 6 b /\ sets (echo_set_sequence v) echo_sequence v 6 8 b.
Proof. exact FieldProofs.c17_echo_setters. Qed.
Print Assumptions C17_echo_setters.
(** C17: the hypotheses of C17_echo_setters can be met. *)
Example C17_echo_setters_meets :
  exists (b : bytes), echo_new b = Ok b.
Proof. exact WitnessProofs.c17_echo_setters_meets. Qed.
Theorem C17_information_setters : forall b, information_new b = Ok b -> forall v,
  sets (information_set_identifier v) information_identifier v 4 6 b /\
  sets (information_set_sequence v) information_sequence v 6 8 b.
Proof. exact FieldProofs.c17_information_setters. Qed.
Print Assumptions C17_information_setters.
(** C17: the hypotheses of C17_information_setters can be met. *)
Example C17_information_setters_meets :
  exists (b : bytes), information_new b = Ok b.
Proof. exact WitnessProofs.c17_information_setters_meets. Qed.
Theorem C17_timestamp_setters : forall b, timestamp_new b = Ok b -> forall v,
  sets (timestamp_set_identifier v) timestamp_identifier v 4 6 b /\
  sets (timestamp_set_sequence v) timestamp_sequence v 6 8 b /\
  sets (timestamp_set_originate v) timestamp_originate v 8 12 b /\
  sets (timestamp_set_receive v) timestamp_receive v 12 16 b /\
  sets (timestamp_set_transmit v) timestamp_transmit v 16 20 b.
Proof. exact FieldProofs.c17_timestamp_setters. Qed.
Print Assumptions C17_timestamp_setters.
(** C17: the hypotheses of C17_timestamp_setters can be met. *)
Example C17_timestamp_setters_meets :
  exists (b : bytes), timestamp_new b = Ok b.
Proof. exact WitnessProofs.c17_timestamp_setters_meets. Qed.
Example C17_example : let b := 13 :: repeat 0 19%nat in
  timestamp_new b = Ok b /\
  timestamp_set_receive 67305985 b = (13 :: repeat 0 11%nat ++ [4; 3; 2; 1; 0; 0; 0; 0], Ok tt).
Proof. exact FieldProofs.c17_example. Qed.

(** ** C18 *)
(** C18: echo. *)
Theorem C18_echo_make : forall b, echo_new b = Ok b ->
  sets echo_make_request echo_is_request true 0 1 b /\ sets echo_make_reply echo_is_reply true 0 1 b.
Proof. exact FieldProofs.c18_echo_make. Qed.
Print Assumptions C18_echo_make.
(** C18: the hypotheses of C18_echo_make can be met. *)
Example C18_echo_make_meets :
  exists (b : bytes), echo_new b = Ok b.
Proof. exact WitnessProofs.c18_echo_make_meets. Qed.
Theorem C18_timestamp_make : forall b f, timestamp_new b = Ok b ->
  f = timestamp_make_request \/ f = timestamp_make_reply ->
  exists b', f b = (b', Ok tt) /\ only_changes 0 1 b b' /\
    timestamp_is_request b' = Ok false /\ timestamp_is_reply b' = Ok false /\
    timestamp_new b' = Err InvalidPacket /\ echo_new b' = Ok b'.
Proof. exact FieldProofs.c18_timestamp_make. Qed.
Print Assumptions C18_timestamp_make.
(** C18: the hypotheses of C18_timestamp_make can be met. *)
Example C18_timestamp_make_meets :
  exists (b : bytes) (f : mut), timestamp_new b = Ok b /\ (f = timestamp_make_request \/ f = timestamp_make_reply).
Proof. exact WitnessProofs.c18_timestamp_make_meets. Qed.
Theorem C18_information_make : forall b f, information_new b = Ok b ->
  f = information_make_request \/ f = information_make_reply ->
  exists b', f b = (b', Ok tt) /\ only_changes 0 1 b b' /\
    information_is_request b' = Ok false /\ information_is_reply b' = Ok false /\
    information_new b' = Err InvalidPacket /\ echo_new b' = Ok b'.
Proof. exact FieldProofs.c18_information_make. Qed.
Print Assumptions C18_information_make.
(** C18: the hypotheses of C18_information_make can be met. *)
Example C18_information_make_meets :
  exists (b : bytes) (f : mut), information_new b = Ok b /\ (f = information_make_request \/ f = information_make_reply).
Proof. exact WitnessProofs.c18_information_make_meets. Qed.
Example C18_example :
  echo_make_reply [8; 0; 1; 2; 0; 1; 0; 2] = ([0; 0; 1; 2; 0; 1; 0; 2], Ok tt) /\
  information_new [15; 0; 1; 2; 0; 1; 0; 2] = Ok [15; 0; 1; 2; 0; 1; 0; 2] /\
  information_make_reply [15; 0; 1; 2; 0; 1; 0; 2] = ([0; 0; 1; 2; 0; 1; 0; 2], Ok tt).
Proof. exact FieldProofs.c18_example. Qed.

(** ** C19 *)
Theorem C19_rejects : forall b v,
  (63 < v -> v4_set_dscp v b = (b, Err InvalidValue)) /\
  (v <= 63 -> 2 <= len b -> snd (v4_set_dscp v b) = Ok tt) /\
  (3 < v -> v4_set_ecn v b = (b, Err InvalidValue)) /\
  (v <= 3 -> 2 <= len b -> snd (v4_set_ecn v b) = Ok tt) /\
  (len b < 2 -> (v <= 63 -> v4_set_dscp v b = (b, Panic)) /\ (v <= 3 -> v4_set_ecn v b = (b, Panic))).
Proof. exact FieldProofs.c19_rejects. Qed.
Print Assumptions C19_rejects.
(** C19: the hypotheses of C19_rejects can be met. *)
Example C19_rejects_meets :
  (exists (v : N), 63 < v) /\
  (exists (b : bytes) (v : N), v <= 63 /\ 2 <= len b) /\
  (exists (v : N), 3 < v) /\
  (exists (b : bytes) (v : N), v <= 3 /\ 2 <= len b) /\
  (exists (b : bytes) (v : N), len b < 2 /\ v <= 63) /\
  (exists (b : bytes) (v : N), len b < 2 /\ v <= 3).
Proof. exact WitnessProofs.c19_rejects_meets. Qed.
Example C19_example : let b := 69 :: 7 :: 0 :: 20 :: repeat 0 16%nat in
  v4_set_dscp 64 b = (b, Err InvalidValue) /\ v4_set_ecn 4 b = (b, Err InvalidValue) /\
  v4_set_dscp 63 b = (69 :: 255 :: 0 :: 20 :: repeat 0 16%nat, Ok tt) /\ v4_set_dscp 1 [69] = ([69], Panic).
Proof. exact FieldProofs.c19_example. Qed.

(** ** C20 *)
Theorem C20_v4_checksum : forall E b, is_bytes b ->
  v4_checksum_of E b = Ok (nonzero_checksum (drop_odd (zero_field 10 b))).
Proof. exact ChecksumProofs.c20_v4_checksum. Qed.
Print Assumptions C20_v4_checksum.
(** C20: the hypotheses of C20_v4_checksum can be met. *)
Example C20_v4_checksum_meets :
  exists (b : bytes), is_bytes b.
Proof. exact WitnessProofs.c20_v4_checksum_meets. Qed.
Theorem C20_v4_checksum_rfc : forall E b, is_bytes b -> len b mod 2 = 0 ->
  word_sum (zero_field 10 b) <> 0 -> v4_checksum_of E b = Ok (inet_checksum (zero_field 10 b)).
Proof. exact ChecksumProofs.c20_v4_checksum_rfc. Qed.
Print Assumptions C20_v4_checksum_rfc.
(** C20: the hypotheses of C20_v4_checksum_rfc can be met. *)
Example C20_v4_checksum_rfc_meets :
  exists (b : bytes), is_bytes b /\ len b mod 2 = 0 /\ word_sum (zero_field 10 b) <> 0.
Proof. exact WitnessProofs.c20_v4_checksum_rfc_meets. Qed.
(** C20: all zero. *)
Theorem C20_v4_checksum_zero : forall E b, is_bytes b -> len b mod 2 = 0 ->
  word_sum (zero_field 10 b) = 0 -> v4_checksum_of E b = Ok 0 /\ inet_checksum (zero_field 10 b) = 65535.
Proof. exact ChecksumProofs.c20_v4_checksum_zero. Qed.
Print Assumptions C20_v4_checksum_zero.
(** C20: the hypotheses of C20_v4_checksum_zero can be met. *)
Example C20_v4_checksum_zero_meets :
  exists (b : bytes), is_bytes b /\ len b mod 2 = 0 /\ word_sum (zero_field 10 b) = 0.
Proof. exact WitnessProofs.c20_v4_checksum_zero_meets. Qed.
Theorem C20_v4_is_valid : forall E b, is_bytes b -> v4_no_payload b = Ok b -> 1 <= nthN b 0 mod 16 ->
  v4_is_valid E b = Ok (inet_checksum (zero_field 10 (takeN (nthN b 0 mod 16 * 4) b)) =? wire16 b 10).
Proof. exact ChecksumProofs.c20_v4_is_valid. Qed.
Print Assumptions C20_v4_is_valid.
(** C20: the hypotheses of C20_v4_is_valid can be met. *)
Example C20_v4_is_valid_meets :
  exists (b : bytes), is_bytes b /\ v4_no_payload b = Ok b /\ 1 <= nthN b 0 mod 16.
Proof. exact WitnessProofs.c20_v4_is_valid_meets. Qed.
Theorem C20_v4_is_valid_receiver : forall E b, is_bytes b -> v4_no_payload b = Ok b -> 3 <= nthN b 0 mod 16 ->
  (v4_is_valid E b = Ok true <->
   receiver_accepts (takeN (nthN b 0 mod 16 * 4) b) /\ wire16 b 10 <> 65535).
Proof. exact ChecksumProofs.c20_v4_is_valid_receiver. Qed.
Print Assumptions C20_v4_is_valid_receiver.
(** C20: the hypotheses of C20_v4_is_valid_receiver can be met. *)
Example C20_v4_is_valid_receiver_meets :
  exists (b : bytes), is_bytes b /\ v4_no_payload b = Ok b /\ 3 <= nthN b 0 mod 16.
Proof. exact WitnessProofs.c20_v4_is_valid_receiver_meets. Qed.
(** C20: update_checksum. *)
Theorem C20_v4_update_checksum : forall E b, is_bytes b -> v4_no_payload b = Ok b -> 3 <= nthN b 0 mod 16 ->
  exists b', v4_update_checksum E b = (b', Ok tt) /\ only_changes 10 12 b b' /\ is_bytes b' /\
    v4_is_valid E b' = Ok true /\ receiver_accepts (takeN (nthN b' 0 mod 16 * 4) b').
Proof. exact ChecksumProofs.c20_v4_update_checksum. Qed.
Print Assumptions C20_v4_update_checksum.
(** C20: the hypotheses of C20_v4_update_checksum can be met. *)
Example C20_v4_update_checksum_meets :
  exists (b : bytes), is_bytes b /\ v4_no_payload b = Ok b /\ 3 <= nthN b 0 mod 16.
Proof. exact WitnessProofs.c20_v4_update_checksum_meets. Qed.
Theorem C20_v4_update_short : forall E b, is_bytes b -> v4_no_payload b = Ok b -> nthN b 0 mod 16 < 3 ->
  v4_update_checksum E b = (b, Panic).
Proof. exact ChecksumProofs.c20_v4_update_short. Qed.
Print Assumptions C20_v4_update_short.
(** C20: the hypotheses of C20_v4_update_short can be met. *)
Example C20_v4_update_short_meets :
  exists (b : bytes), is_bytes b /\ v4_no_payload b = Ok b /\ nthN b 0 mod 16 < 3.
Proof. exact WitnessProofs.c20_v4_update_short_meets. Qed.
Example C20_example : forall E, let b := [69; 0; 0; 20; 1; 2; 64; 0; 64; 17; 9; 9; 10; 0; 0; 1; 10; 0; 0; 2] in
  v4_no_payload b = Ok b /\ is_bytes b /\ v4_is_valid E b = Ok false /\
  v4_update_checksum E b = ([69; 0; 0; 20; 1; 2; 64; 0; 64; 17; 37; 213; 10; 0; 0; 1; 10; 0; 0; 2], Ok tt).
Proof. exact ChecksumProofs.c20_example. Qed.

(** ** C21 *)
Theorem C21_udp_checksum : forall E p b, is_bytes p -> is_bytes b -> 20 <= len p ->
  len b mod 2 = 0 \/ cursor_eof E = EofKeep ->
  udp_checksum_of E (V4 p) b =
  Ok (inet_checksum (with_pseudo_header (wire_addr p 12) (wire_addr p 16) 17 (zero_field 6 b))).
Proof. exact ChecksumProofs.c21_udp_checksum. Qed.
Print Assumptions C21_udp_checksum.
(** C21: the hypotheses of C21_udp_checksum can be met. *)
Example C21_udp_checksum_meets :
  exists (E : env) (p : bytes) (b : bytes), is_bytes p /\ is_bytes b /\ 20 <= len p /\ (len b mod 2 = 0 \/ cursor_eof E = EofKeep).
Proof. exact WitnessProofs.c21_udp_checksum_meets. Qed.
(** C21: otherwise an odd last byte counts as zero. *)
Theorem C21_udp_checksum_odd : forall E p b, is_bytes p -> is_bytes b -> 20 <= len p ->
  len b mod 2 = 1 -> cursor_eof E = EofSeek ->
  udp_checksum_of E (V4 p) b =
  Ok (inet_checksum (with_pseudo_header (wire_addr p 12) (wire_addr p 16) 17
                       (alter (zero_field 6 b) (len b - 1) 0))).
Proof. exact ChecksumProofs.c21_udp_checksum_odd. Qed.
Print Assumptions C21_udp_checksum_odd.
(** C21: the hypotheses of C21_udp_checksum_odd can be met. *)
Example C21_udp_checksum_odd_meets :
  exists (E : env) (p : bytes) (b : bytes), is_bytes p /\ is_bytes b /\ 20 <= len p /\ len b mod 2 = 1 /\ cursor_eof E = EofSeek.
Proof. exact WitnessProofs.c21_udp_checksum_odd_meets. Qed.
Theorem C21_udp_checksum_odd_wrong : forall E p b, is_bytes p -> is_bytes b -> 20 <= len p -> 8 <= len b ->
  len b mod 2 = 1 -> cursor_eof E = EofSeek -> nthN b (len b - 1) <> 0 ->
  udp_checksum_of E (V4 p) b <>
  Ok (inet_checksum (with_pseudo_header (wire_addr p 12) (wire_addr p 16) 17 (zero_field 6 b))).
Proof. exact ChecksumProofs.c21_udp_checksum_odd_wrong. Qed.
Print Assumptions C21_udp_checksum_odd_wrong.
(** C21: the hypotheses of C21_udp_checksum_odd_wrong can be met. *)
Example C21_udp_checksum_odd_wrong_meets :
  exists (E : env) (p : bytes) (b : bytes), is_bytes p /\ is_bytes b /\ 20 <= len p /\ 8 <= len b /\ len b mod 2 = 1 /\ cursor_eof E = EofSeek /\ nthN b (len b - 1) <> 0.
Proof. exact WitnessProofs.c21_udp_checksum_odd_wrong_meets. Qed.
(** C21: with an IPv6 parent every checksum operation panics. *)
Theorem C21_udp_v6 : forall E q b,
  udp_checksum_of E (V6 q) b = Panic /\ udp_is_valid E (V6 q) b = Panic /\
  udp_update_checksum E (V6 q) b = (b, Panic).
Proof. exact ChecksumProofs.c21_udp_v6. Qed.
Print Assumptions C21_udp_v6.
(** C21: a computed checksum of 0 is reachable (RFC 768 asks for 65535 then). *)
Theorem C21_udp_zero_refuted : forall E, exists p b, v4_new p = Ok p /\ udp_new b = Ok b /\
  is_bytes p /\ is_bytes b /\ udp_checksum_of E (V4 p) b = Ok 0.
Proof. exact ChecksumProofs.c21_udp_zero_refuted. Qed.
Print Assumptions C21_udp_zero_refuted.
(** C21: is_valid compares the stored checksum with that of RFC 768 ... *)
Theorem C21_udp_is_valid : forall E p b, is_bytes p -> is_bytes b -> 20 <= len p -> 8 <= len b ->
  len b mod 2 = 0 \/ cursor_eof E = EofKeep ->
  udp_is_valid E (V4 p) b =
  Ok (inet_checksum (with_pseudo_header (wire_addr p 12) (wire_addr p 16) 17 (zero_field 6 b)) =? wire16 b 6).
Proof. exact ChecksumProofs.c21_udp_is_valid. Qed.
Print Assumptions C21_udp_is_valid.
(** C21: the hypotheses of C21_udp_is_valid can be met. *)
Example C21_udp_is_valid_meets :
  exists (E : env) (p : bytes) (b : bytes), is_bytes p /\ is_bytes b /\ 20 <= len p /\ 8 <= len b /\ (len b mod 2 = 0 \/ cursor_eof E = EofKeep).
Proof. exact WitnessProofs.c21_udp_is_valid_meets. Qed.
Theorem C21_udp_is_valid_receiver : forall E p b, is_bytes p -> is_bytes b -> 20 <= len p -> 8 <= len b ->
  len b mod 2 = 0 \/ cursor_eof E = EofKeep ->
  (udp_is_valid E (V4 p) b = Ok true <->
   receiver_accepts (with_pseudo_header (wire_addr p 12) (wire_addr p 16) 17 b) /\ wire16 b 6 <> 65535).
Proof. exact ChecksumProofs.c21_udp_is_valid_receiver. Qed.
Print Assumptions C21_udp_is_valid_receiver.
(** C21: the hypotheses of C21_udp_is_valid_receiver can be met. *)
Example C21_udp_is_valid_receiver_meets :
  exists (E : env) (p : bytes) (b : bytes), is_bytes p /\ is_bytes b /\ 20 <= len p /\ 8 <= len b /\ (len b mod 2 = 0 \/ cursor_eof E = EofKeep).
Proof. exact WitnessProofs.c21_udp_is_valid_receiver_meets. Qed.
(** C21: update_checksum. *)
Theorem C21_udp_update_checksum : forall E p b, is_bytes p -> is_bytes b -> 20 <= len p -> 8 <= len b ->
  exists b', udp_update_checksum E (V4 p) b = (b', Ok tt) /\ only_changes 6 8 b b' /\ is_bytes b' /\
    udp_is_valid E (V4 p) b' = Ok true.
Proof. exact ChecksumProofs.c21_udp_update_checksum. Qed.
Print Assumptions C21_udp_update_checksum.
(** C21: the hypotheses of C21_udp_update_checksum can be met. *)
Example C21_udp_update_checksum_meets :
  exists (p : bytes) (b : bytes), is_bytes p /\ is_bytes b /\ 20 <= len p /\ 8 <= len b.
Proof. exact WitnessProofs.c21_udp_update_checksum_meets. Qed.
Example C21_example : forall E, let p := [69;0;0;30;0;0;0;0;64;17;0;0;10;0;0;1;10;0;0;2] in
  let b := [0; 53; 0; 99; 0; 10; 0; 0; 104; 105] in
  v4_no_payload p = Ok p /\ udp_new b = Ok b /\ udp_is_valid E (V4 p) b = Ok false /\
  udp_update_checksum E (V4 p) b = ([0; 53; 0; 99; 0; 10; 130; 214; 104; 105], Ok tt).
Proof. exact ChecksumProofs.c21_example. Qed.
Theorem C21_udp_trailing : forall E p datagram trailing, is_bytes p -> is_bytes datagram -> is_bytes trailing ->
  20 <= len p -> 8 <= len datagram -> len datagram mod 2 = 0 -> len datagram + len trailing < 65536 ->
  len trailing mod 2 = 0 \/ cursor_eof E = EofKeep ->
  udp_is_valid E (V4 p) (datagram ++ trailing) = Ok true ->
  (udp_is_valid E (V4 p) datagram = Ok true <-> (word_sum trailing + len trailing) mod 65535 = 0).
Proof. exact TrailProofs.c21_udp_trailing. Qed.
Print Assumptions C21_udp_trailing.
(** C21: the hypotheses of C21_udp_trailing can be met. *)
Example C21_udp_trailing_meets :
  exists (E : env) (p : bytes) (datagram : bytes) (trailing : bytes), is_bytes p /\ is_bytes datagram /\ is_bytes trailing /\ 20 <= len p /\ 8 <= len datagram /\ len datagram mod 2 = 0 /\ len datagram + len trailing < 65536 /\ (len trailing mod 2 = 0 \/ cursor_eof E = EofKeep) /\ udp_is_valid E (V4 p) (datagram ++ trailing) = Ok true.
Proof. exact WitnessProofs.c21_udp_trailing_meets. Qed.
Theorem C21_udp_trailing_refuted : forall E, exists p b c, v4_new p = Ok p /\ is_bytes p /\ v4_payload p = Ok b /\ udp_new b = Ok b /\
  udp_as_ref b = Ok c /\ udp_new c = Ok c /\ udp_is_valid E (V4 p) c = Ok true /\ udp_is_valid E (V4 p) b = Ok false.
Proof. exact TrailProofs.c21_udp_trailing_refuted. Qed.
Print Assumptions C21_udp_trailing_refuted.
Example C21_udp_trailing_example : forall E, udp_is_valid E (V4 [69;0;0;32;0;0;0;0;64;17;0;0;10;0;0;1;10;0;0;2]) ([0;53;0;53;0;8;235;113] ++ [255; 253]) = Ok true.
Proof. exact TrailProofs.c21_udp_trailing_example. Qed.
(** C21: udp::checksum never fails: it returns a value or panics, for any parent and any bytes. *)
Theorem C21_udp_no_error : forall E ip b e, udp_checksum_of E ip b <> Err e.
Proof. exact StoreProofs.c21_udp_no_error. Qed.
Print Assumptions C21_udp_no_error.

(** ** C22 *)
Theorem C22_tcp_checksum : forall E p b, is_bytes p -> is_bytes b -> 20 <= len p -> len b <= 131065 ->
  len b mod 2 = 0 \/ cursor_eof E = EofKeep ->
  tcp_checksum_of E (V4 p) b =
  Ok (inet_checksum (with_pseudo_header (wire_addr p 12) (wire_addr p 16) 6 (zero_field 16 b))).
Proof. exact ChecksumProofs.c22_tcp_checksum. Qed.
Print Assumptions C22_tcp_checksum.
(** C22: the hypotheses of C22_tcp_checksum can be met. *)
Example C22_tcp_checksum_meets :
  exists (E : env) (p : bytes) (b : bytes), is_bytes p /\ is_bytes b /\ 20 <= len p /\ len b <= 131065 /\ (len b mod 2 = 0 \/ cursor_eof E = EofKeep).
Proof. exact WitnessProofs.c22_tcp_checksum_meets. Qed.
(** C22: an odd length panics with the other kind of std. *)
Theorem C22_tcp_checksum_odd : forall E p b, is_bytes p -> is_bytes b -> 20 <= len p -> len b <= 131065 ->
  len b mod 2 = 1 -> cursor_eof E = EofSeek -> tcp_checksum_of E (V4 p) b = Panic.
Proof. exact ChecksumProofs.c22_tcp_checksum_odd. Qed.
Print Assumptions C22_tcp_checksum_odd.
(** C22: the hypotheses of C22_tcp_checksum_odd can be met. *)
Example C22_tcp_checksum_odd_meets :
  exists (E : env) (p : bytes) (b : bytes), is_bytes p /\ is_bytes b /\ 20 <= len p /\ len b <= 131065 /\ len b mod 2 = 1 /\ cursor_eof E = EofSeek.
Proof. exact WitnessProofs.c22_tcp_checksum_odd_meets. Qed.
Theorem C22_tcp_overflow_refuted : exists p b, v4_no_payload p = Ok p /\ tcp_new b = Ok b /\
  is_bytes p /\ is_bytes b /\ len b = 131066 /\
  forall E,
    (overflow_checks E = true -> tcp_checksum_of E (V4 p) b = Panic) /\
    (overflow_checks E = false ->
      tcp_checksum_of E (V4 p) b = Ok 65535 /\
      inet_checksum (with_pseudo_header (wire_addr p 12) (wire_addr p 16) 6 (zero_field 16 b)) = 65534).
Proof. exact ChecksumProofs.c22_tcp_overflow_refuted. Qed.
Print Assumptions C22_tcp_overflow_refuted.
(** C22: with an IPv6 parent every checksum operation panics. *)
Theorem C22_tcp_v6 : forall E q b,
  tcp_checksum_of E (V6 q) b = Panic /\ tcp_is_valid E (V6 q) b = Panic /\
  tcp_update_checksum E (V6 q) b = (b, Panic).
Proof. exact ChecksumProofs.c22_tcp_v6. Qed.
Print Assumptions C22_tcp_v6.
(** C22: is_valid compares the stored checksum with that of RFC 793 ... *)
Theorem C22_tcp_is_valid : forall E p b, is_bytes p -> is_bytes b -> 20 <= len p -> 18 <= len b <= 131065 ->
  len b mod 2 = 0 \/ cursor_eof E = EofKeep ->
  tcp_is_valid E (V4 p) b =
  Ok (inet_checksum (with_pseudo_header (wire_addr p 12) (wire_addr p 16) 6 (zero_field 16 b)) =? wire16 b 16).
Proof. exact ChecksumProofs.c22_tcp_is_valid. Qed.
Print Assumptions C22_tcp_is_valid.
(** C22: the hypotheses of C22_tcp_is_valid can be met. *)
Example C22_tcp_is_valid_meets :
  exists (E : env) (p : bytes) (b : bytes), is_bytes p /\ is_bytes b /\ 20 <= len p /\ 18 <= len b <= 131065 /\ (len b mod 2 = 0 \/ cursor_eof E = EofKeep).
Proof. exact WitnessProofs.c22_tcp_is_valid_meets. Qed.
(** C22: ... which is the test of an RFC 793 receiver, except that a stored 65535 is refused. *)
Theorem C22_tcp_is_valid_receiver : forall E p b, is_bytes p -> is_bytes b -> 20 <= len p -> 18 <= len b <= 131065 ->
  len b mod 2 = 0 \/ cursor_eof E = EofKeep ->
  (tcp_is_valid E (V4 p) b = Ok true <->
   receiver_accepts (with_pseudo_header (wire_addr p 12) (wire_addr p 16) 6 b) /\ wire16 b 16 <> 65535).
Proof. exact ChecksumProofs.c22_tcp_is_valid_receiver. Qed.
Print Assumptions C22_tcp_is_valid_receiver.
(** C22: the hypotheses of C22_tcp_is_valid_receiver can be met. *)
Example C22_tcp_is_valid_receiver_meets :
  exists (E : env) (p : bytes) (b : bytes), is_bytes p /\ is_bytes b /\ 20 <= len p /\ 18 <= len b <= 131065 /\ (len b mod 2 = 0 \/ cursor_eof E = EofKeep).
Proof. exact WitnessProofs.c22_tcp_is_valid_receiver_meets. Qed.
(** C22: update_checksum on an accepted segment whose header covers the checksum. *)
Theorem C22_tcp_update_checksum : forall E p b, is_bytes p -> is_bytes b -> 20 <= len p -> len b <= 131065 ->
  len b mod 2 = 0 \/ cursor_eof E = EofKeep -> tcp_new b = Ok b -> 5 <= nthN b 12 / 16 ->
  exists b', tcp_update_checksum E (V4 p) b = (b', Ok tt) /\ only_changes 16 18 b b' /\ is_bytes b' /\
    tcp_is_valid E (V4 p) b' = Ok true.
Proof. exact ChecksumProofs.c22_tcp_update_checksum. Qed.
Print Assumptions C22_tcp_update_checksum.
(** C22: the hypotheses of C22_tcp_update_checksum can be met. *)
Example C22_tcp_update_checksum_meets :
  exists (E : env) (p : bytes) (b : bytes), is_bytes p /\ is_bytes b /\ 20 <= len p /\ len b <= 131065 /\ (len b mod 2 = 0 \/ cursor_eof E = EofKeep) /\ tcp_new b = Ok b /\ 5 <= nthN b 12 / 16.
Proof. exact WitnessProofs.c22_tcp_update_checksum_meets. Qed.
Example C22_example : forall E, let p := [69;0;0;42;0;0;0;0;64;6;0;0;10;0;0;1;10;0;0;2] in
  let b := [0; 80; 0; 99; 0; 0; 0; 1; 0; 0; 0; 2; 80; 2; 1; 0; 0; 0; 0; 0; 104; 105] in
  v4_no_payload p = Ok p /\ tcp_new b = Ok b /\ is_bytes p /\ is_bytes b /\ nthN b 12 / 16 = 5 /\
  tcp_is_valid E (V4 p) b = Ok false /\
  tcp_update_checksum E (V4 p) b = ([0; 80; 0; 99; 0; 0; 0; 1; 0; 0; 0; 2; 80; 2; 1; 0; 49; 191; 0; 0; 104; 105], Ok tt).
Proof. exact ChecksumProofs.c22_example. Qed.
(** C22: tcp::checksum never fails and its folding loop terminates, for any parent and any bytes. *)
Theorem C22_tcp_no_error : forall E ip b e, tcp_checksum_of E ip b <> Err e.
Proof. exact StoreProofs.c22_tcp_no_error. Qed.
Print Assumptions C22_tcp_no_error.

(** ** C23 *)
(** C23: icmp::checksum on an arbitrary byte string. *)
Theorem C23_icmp_checksum : forall E b, is_bytes b ->
  icmp_checksum_of E b = Ok (nonzero_checksum (drop_odd (zero_field 2 b))).
Proof. exact ChecksumProofs.c23_icmp_checksum. Qed.
Print Assumptions C23_icmp_checksum.
(** C23: the hypotheses of C23_icmp_checksum can be met. *)
Example C23_icmp_checksum_meets :
  exists (b : bytes), is_bytes b.
Proof. exact WitnessProofs.c23_icmp_checksum_meets. Qed.
Theorem C23_icmp_checksum_rfc : forall E b, is_bytes b -> len b mod 2 = 0 ->
  word_sum (zero_field 2 b) <> 0 -> icmp_checksum_of E b = Ok (inet_checksum (zero_field 2 b)).
Proof. exact ChecksumProofs.c23_icmp_checksum_rfc. Qed.
Print Assumptions C23_icmp_checksum_rfc.
(** C23: the hypotheses of C23_icmp_checksum_rfc can be met. *)
Example C23_icmp_checksum_rfc_meets :
  exists (b : bytes), is_bytes b /\ len b mod 2 = 0 /\ word_sum (zero_field 2 b) <> 0.
Proof. exact WitnessProofs.c23_icmp_checksum_rfc_meets. Qed.
(** C23: an odd last byte is ignored ... *)
Theorem C23_icmp_odd_ignored : forall E b x, is_bytes (b ++ [x]) -> len b mod 2 = 0 ->
  icmp_checksum_of E (b ++ [x]) = icmp_checksum_of E b.
Proof. exact ChecksumProofs.c23_icmp_odd_ignored. Qed.
Print Assumptions C23_icmp_odd_ignored.
(** C23: the hypotheses of C23_icmp_odd_ignored can be met. *)
Example C23_icmp_odd_ignored_meets :
  exists (b : list N) (x : N), is_bytes (b ++ [x]) /\ len b mod 2 = 0.
Proof. exact WitnessProofs.c23_icmp_odd_ignored_meets. Qed.
Theorem C23_icmp_odd_wrong : forall E b x, is_bytes (b ++ [x]) -> len b mod 2 = 0 -> 4 <= len b -> x <> 0 ->
  icmp_checksum_of E (b ++ [x]) <> Ok (inet_checksum (zero_field 2 (b ++ [x]))).
Proof. exact ChecksumProofs.c23_icmp_odd_wrong. Qed.
Print Assumptions C23_icmp_odd_wrong.
(** C23: the hypotheses of C23_icmp_odd_wrong can be met. *)
Example C23_icmp_odd_wrong_meets :
  exists (b : list N) (x : N), is_bytes (b ++ [x]) /\ len b mod 2 = 0 /\ 4 <= len b /\ x <> 0.
Proof. exact WitnessProofs.c23_icmp_odd_wrong_meets. Qed.
Theorem C23_icmp_zero : forall E b, is_bytes b -> word_sum (zero_field 2 b) = 0 ->
  icmp_checksum_of E b = Ok 0 /\ inet_checksum (zero_field 2 b) = 65535.
Proof. exact ChecksumProofs.c23_icmp_zero. Qed.
Print Assumptions C23_icmp_zero.
(** C23: the hypotheses of C23_icmp_zero can be met. *)
Example C23_icmp_zero_meets :
  exists (b : bytes), is_bytes b /\ word_sum (zero_field 2 b) = 0.
Proof. exact WitnessProofs.c23_icmp_zero_meets. Qed.
(** C23: is_valid. *)
Theorem C23_icmp_is_valid : forall E b, is_bytes b -> icmp_new b = Ok b -> len b mod 2 = 0 ->
  word_sum (zero_field 2 b) <> 0 ->
  icmp_is_valid E b = Ok (inet_checksum (zero_field 2 b) =? wire16 b 2) /\
  (icmp_is_valid E b = Ok true <-> receiver_accepts b /\ wire16 b 2 <> 65535).
Proof. exact ChecksumProofs.c23_icmp_is_valid. Qed.
Print Assumptions C23_icmp_is_valid.
(** C23: the hypotheses of C23_icmp_is_valid can be met. *)
Example C23_icmp_is_valid_meets :
  exists (b : bytes), is_bytes b /\ icmp_new b = Ok b /\ len b mod 2 = 0 /\ word_sum (zero_field 2 b) <> 0.
Proof. exact WitnessProofs.c23_icmp_is_valid_meets. Qed.
Example C23_example : forall E,
  icmp_is_valid E [8; 0; 10; 59; 18; 52; 0; 1; 220; 143; 0; 0] = Ok false /\
  icmp_is_valid E [8; 0; 229; 202; 18; 52; 0; 1] = Ok true /\
  icmp_checksum_of E [0; 0; 0; 0; 0; 0; 0; 0] = Ok 0.
Proof. exact ChecksumProofs.c23_example. Qed.

(** ** C24 *)
Theorem C24_v4 : forall E b i v, is_bytes b -> v4_no_payload b = Ok b ->
  v4_is_valid E b = Ok true ->
  i < nthN b 0 mod 16 * 4 -> u8 v -> v <> nthN b i ->
  (i = 0 -> v mod 16 = nthN b 0 mod 16) ->
  v4_is_valid E (alter b i v) = Ok false.
Proof. exact ChecksumProofs.c24_v4. Qed.
Print Assumptions C24_v4.
(** C24: the hypotheses of C24_v4 can be met. *)
Example C24_v4_meets :
  exists (E : env) (b : bytes) (i : N) (v : N), is_bytes b /\ v4_no_payload b = Ok b /\ v4_is_valid E b = Ok true /\ i < nthN b 0 mod 16 * 4 /\ u8 v /\ v <> nthN b i /\ ((i = 0 -> v mod 16 = nthN b 0 mod 16)).
Proof. exact WitnessProofs.c24_v4_meets. Qed.
(** C24: any byte of a UDP datagram. *)
Theorem C24_udp : forall E p b i v, is_bytes p -> is_bytes b -> 20 <= len p -> 8 <= len b ->
  len b mod 2 = 0 \/ cursor_eof E = EofKeep ->
  udp_is_valid E (V4 p) b = Ok true -> i < len b -> u8 v -> v <> nthN b i ->
  udp_is_valid E (V4 p) (alter b i v) = Ok false.
Proof. exact ChecksumProofs.c24_udp. Qed.
Print Assumptions C24_udp.
(** C24: the hypotheses of C24_udp can be met. *)
Example C24_udp_meets :
  exists (E : env) (p : bytes) (b : bytes) (i : N) (v : N), is_bytes p /\ is_bytes b /\ 20 <= len p /\ 8 <= len b /\ (len b mod 2 = 0 \/ cursor_eof E = EofKeep) /\ udp_is_valid E (V4 p) b = Ok true /\ i < len b /\ u8 v /\ v <> nthN b i.
Proof. exact WitnessProofs.c24_udp_meets. Qed.
(** C24: any byte of a TCP segment. *)
Theorem C24_tcp : forall E p b i v, is_bytes p -> is_bytes b -> 20 <= len p -> 18 <= len b <= 131065 ->
  len b mod 2 = 0 \/ cursor_eof E = EofKeep ->
  tcp_is_valid E (V4 p) b = Ok true -> i < len b -> u8 v -> v <> nthN b i ->
  tcp_is_valid E (V4 p) (alter b i v) = Ok false.
Proof. exact ChecksumProofs.c24_tcp. Qed.
Print Assumptions C24_tcp.
(** C24: the hypotheses of C24_tcp can be met. *)
Example C24_tcp_meets :
  exists (E : env) (p : bytes) (b : bytes) (i : N) (v : N), is_bytes p /\ is_bytes b /\ 20 <= len p /\ 18 <= len b <= 131065 /\ (len b mod 2 = 0 \/ cursor_eof E = EofKeep) /\ tcp_is_valid E (V4 p) b = Ok true /\ i < len b /\ u8 v /\ v <> nthN b i.
Proof. exact WitnessProofs.c24_tcp_meets. Qed.
(** C24: any byte of the addresses of the parent of a UDP datagram or TCP segment. *)
Theorem C24_udp_parent : forall E p b i v, is_bytes p -> is_bytes b -> 20 <= len p -> 8 <= len b ->
  len b mod 2 = 0 \/ cursor_eof E = EofKeep ->
  udp_is_valid E (V4 p) b = Ok true -> 12 <= i < 20 -> u8 v -> v <> nthN p i ->
  udp_is_valid E (V4 (alter p i v)) b = Ok false.
Proof. exact ChecksumProofs.c24_udp_parent. Qed.
Print Assumptions C24_udp_parent.
(** C24: the hypotheses of C24_udp_parent can be met. *)
Example C24_udp_parent_meets :
  exists (E : env) (p : bytes) (b : bytes) (i : N) (v : N), is_bytes p /\ is_bytes b /\ 20 <= len p /\ 8 <= len b /\ (len b mod 2 = 0 \/ cursor_eof E = EofKeep) /\ udp_is_valid E (V4 p) b = Ok true /\ 12 <= i < 20 /\ u8 v /\ v <> nthN p i.
Proof. exact WitnessProofs.c24_udp_parent_meets. Qed.
Theorem C24_tcp_parent : forall E p b i v, is_bytes p -> is_bytes b -> 20 <= len p -> 18 <= len b <= 131065 ->
  len b mod 2 = 0 \/ cursor_eof E = EofKeep ->
  tcp_is_valid E (V4 p) b = Ok true -> 12 <= i < 20 -> u8 v -> v <> nthN p i ->
  tcp_is_valid E (V4 (alter p i v)) b = Ok false.
Proof. exact ChecksumProofs.c24_tcp_parent. Qed.
Print Assumptions C24_tcp_parent.
(** C24: the hypotheses of C24_tcp_parent can be met. *)
Example C24_tcp_parent_meets :
  exists (E : env) (p : bytes) (b : bytes) (i : N) (v : N), is_bytes p /\ is_bytes b /\ 20 <= len p /\ 18 <= len b <= 131065 /\ (len b mod 2 = 0 \/ cursor_eof E = EofKeep) /\ tcp_is_valid E (V4 p) b = Ok true /\ 12 <= i < 20 /\ u8 v /\ v <> nthN p i.
Proof. exact WitnessProofs.c24_tcp_parent_meets. Qed.
(** C24: any byte of an ICMP message of even length. *)
Theorem C24_icmp : forall E b i v, is_bytes b -> icmp_new b = Ok b -> len b mod 2 = 0 ->
  icmp_is_valid E b = Ok true -> i < len b -> u8 v -> v <> nthN b i ->
  icmp_is_valid E (alter b i v) = Ok false.
Proof. exact ChecksumProofs.c24_icmp. Qed.
Print Assumptions C24_icmp.
(** C24: the hypotheses of C24_icmp can be met. *)
Example C24_icmp_meets :
  exists (E : env) (b : bytes) (i : N) (v : N), is_bytes b /\ icmp_new b = Ok b /\ len b mod 2 = 0 /\ icmp_is_valid E b = Ok true /\ i < len b /\ u8 v /\ v <> nthN b i.
Proof. exact WitnessProofs.c24_icmp_meets. Qed.
(** C24: of an odd ICMP message, the last byte is not protected at all. *)
Theorem C24_icmp_odd_refuted : forall E b x y, is_bytes b -> u8 x -> u8 y -> icmp_new b = Ok b -> len b mod 2 = 0 ->
  icmp_is_valid E (b ++ [x]) = icmp_is_valid E (b ++ [y]).
Proof. exact ChecksumProofs.c24_icmp_odd_refuted. Qed.
Print Assumptions C24_icmp_odd_refuted.
(** C24: the hypotheses of C24_icmp_odd_refuted can be met. *)
Example C24_icmp_odd_refuted_meets :
  exists (b : bytes) (x : N) (y : N), is_bytes b /\ u8 x /\ u8 y /\ icmp_new b = Ok b /\ len b mod 2 = 0.
Proof. exact WitnessProofs.c24_icmp_odd_refuted_meets. Qed.
Theorem C24_udp_odd_refuted : forall E p b x y, cursor_eof E = EofSeek -> is_bytes p -> 20 <= len p ->
  is_bytes b -> u8 x -> u8 y -> 8 <= len b -> len b mod 2 = 0 ->
  udp_is_valid E (V4 p) (b ++ [x]) = udp_is_valid E (V4 p) (b ++ [y]).
Proof. exact ChecksumProofs.c24_udp_odd_refuted. Qed.
Print Assumptions C24_udp_odd_refuted.
(** C24: the hypotheses of C24_udp_odd_refuted can be met. *)
Example C24_udp_odd_refuted_meets :
  exists (E : env) (p : bytes) (b : bytes) (x : N) (y : N), cursor_eof E = EofSeek /\ is_bytes p /\ 20 <= len p /\ is_bytes b /\ u8 x /\ u8 y /\ 8 <= len b /\ len b mod 2 = 0.
Proof. exact WitnessProofs.c24_udp_odd_refuted_meets. Qed.
Example C24_example : forall E,
  let p := [69; 0; 0; 20; 1; 2; 64; 0; 64; 17; 37; 213; 10; 0; 0; 1; 10; 0; 0; 2] in
  let b := [0; 53; 0; 99; 0; 10; 130; 214; 104; 105] in
  v4_no_payload p = Ok p /\ v4_is_valid E p = Ok true /\ udp_is_valid E (V4 p) b = Ok true /\
  v4_is_valid E (alter p 8 63) = Ok false /\ udp_is_valid E (V4 p) (alter b 9 106) = Ok false /\
  udp_is_valid E (V4 (alter p 12 11)) b = Ok false.
Proof. exact ChecksumProofs.c24_example. Qed.

(** ** C25 *)
Theorem C25_v4 : forall E ops b, is_bytes b -> v4_no_payload b = Ok b -> 5 <= nthN b 0 mod 16 ->
  Forall v4_setter_ok ops ->
  exists b', v4_checked E ops b = (b', Ok tt) /\
    only_changes 10 12 (calls v4_apply ops b) b' /\ only_changes 1 20 b b' /\
    v4_is_valid E b' = Ok true /\ receiver_accepts (takeN (nthN b' 0 mod 16 * 4) b').
Proof. exact GuardProofs.c25_v4. Qed.
Print Assumptions C25_v4.
(** C25: the hypotheses of C25_v4 can be met. *)
Example C25_v4_meets :
  exists (ops : list v4_setter) (b : bytes), is_bytes b /\ v4_no_payload b = Ok b /\ 5 <= nthN b 0 mod 16 /\ Forall v4_setter_ok ops.
Proof. exact WitnessProofs.c25_v4_meets. Qed.
(** C25: UDP. *)
Theorem C25_udp : forall E p ops b, is_bytes p -> is_bytes b -> 20 <= len p -> udp_no_payload b = Ok b ->
  Forall udp_setter_ok ops ->
  exists b', udp_checked E (V4 p) ops b = (b', Ok tt) /\
    only_changes 6 8 (calls udp_apply ops b) b' /\ only_changes 0 8 b b' /\ is_bytes b' /\
    udp_is_valid E (V4 p) b' = Ok true.
Proof. exact GuardProofs.c25_udp. Qed.
Print Assumptions C25_udp.
(** C25: the hypotheses of C25_udp can be met. *)
Example C25_udp_meets :
  exists (p : bytes) (ops : list udp_setter) (b : bytes), is_bytes p /\ is_bytes b /\ 20 <= len p /\ udp_no_payload b = Ok b /\ Forall udp_setter_ok ops.
Proof. exact WitnessProofs.c25_udp_meets. Qed.
(** C25: TCP without set_flags. *)
Theorem C25_tcp : forall E p ops b, is_bytes p -> is_bytes b -> 20 <= len p -> len b <= 131065 ->
  len b mod 2 = 0 \/ cursor_eof E = EofKeep -> tcp_new b = Ok b -> 5 <= nthN b 12 / 16 ->
  Forall (fun s => tcp_setter_ok s /\ ~ tcp_is_flags s) ops ->
  exists b', tcp_checked E (V4 p) ops b = (b', Ok tt) /\
    only_changes 16 18 (calls tcp_apply ops b) b' /\ only_changes 0 20 b b' /\ is_bytes b' /\
    tcp_is_valid E (V4 p) b' = Ok true.
Proof. exact GuardProofs.c25_tcp. Qed.
Print Assumptions C25_tcp.
(** C25: the hypotheses of C25_tcp can be met. *)
Example C25_tcp_meets :
  exists (E : env) (p : bytes) (ops : list tcp_setter) (b : bytes), is_bytes p /\ is_bytes b /\ 20 <= len p /\ len b <= 131065 /\ (len b mod 2 = 0 \/ cursor_eof E = EofKeep) /\ tcp_new b = Ok b /\ 5 <= nthN b 12 / 16 /\ Forall (fun s => tcp_setter_ok s /\ ~ tcp_is_flags s) ops.
Proof. exact WitnessProofs.c25_tcp_meets. Qed.
(** C25: echo.  The whole message is covered. *)
Theorem C25_echo : forall E ops b, rust_slice b -> echo_new b = Ok b -> Forall echo_setter_ok ops ->
  exists b', echo_checked E ops b = (b', Ok tt) /\
    only_changes 2 4 (calls echo_apply ops b) b' /\ only_changes 0 8 b b' /\ is_bytes b' /\
    icmp_is_valid E b' = Ok true.
Proof. exact GuardProofs.c25_echo. Qed.
Print Assumptions C25_echo.
(** C25: the hypotheses of C25_echo can be met. *)
Example C25_echo_meets :
  exists (E : env) (ops : list echo_setter) (b : bytes), rust_slice b /\ echo_new b = Ok b /\ Forall echo_setter_ok ops.
Proof. exact WitnessProofs.c25_echo_meets. Qed.
(** C25: information.  The guard's checksum covers the eight bytes of the message. *)
Theorem C25_information : forall E ops b, is_bytes b -> information_new b = Ok b -> Forall information_setter_ok ops ->
  exists b', information_checked E ops b = (b', Ok tt) /\
    only_changes 2 4 (calls information_apply ops b) b' /\ only_changes 0 8 b b' /\ is_bytes b' /\
    icmp_is_valid E (takeN 8 b') = Ok true.
Proof. exact GuardProofs.c25_information. Qed.
Print Assumptions C25_information.
(** C25: the hypotheses of C25_information can be met. *)
Example C25_information_meets :
  exists (ops : list information_setter) (b : bytes), is_bytes b /\ information_new b = Ok b /\ Forall information_setter_ok ops.
Proof. exact WitnessProofs.c25_information_meets. Qed.
(** C25: timestamp, likewise its twenty bytes. *)
Theorem C25_timestamp : forall E ops b, is_bytes b -> timestamp_new b = Ok b -> Forall timestamp_setter_ok ops ->
  exists b', timestamp_checked E ops b = (b', Ok tt) /\
    only_changes 2 4 (calls timestamp_apply ops b) b' /\ only_changes 0 20 b b' /\ is_bytes b' /\
    icmp_is_valid E (takeN 20 b') = Ok true.
Proof. exact GuardProofs.c25_timestamp. Qed.
Print Assumptions C25_timestamp.
(** C25: the hypotheses of C25_timestamp can be met. *)
Example C25_timestamp_meets :
  exists (ops : list timestamp_setter) (b : bytes), is_bytes b /\ timestamp_new b = Ok b /\ Forall timestamp_setter_ok ops.
Proof. exact WitnessProofs.c25_timestamp_meets. Qed.
Theorem C25_information_trailing : forall E ops b, is_bytes b -> information_new b = Ok b -> Forall information_setter_ok ops ->
  (icmp_is_valid E (fst (information_checked E ops b)) = Ok true <-> word_sum (drop_odd (dropN 8 b)) mod 65535 = 0).
Proof. exact GuardProofs.c25_information_trailing. Qed.
Print Assumptions C25_information_trailing.
(** C25: the hypotheses of C25_information_trailing can be met. *)
Example C25_information_trailing_meets :
  exists (ops : list information_setter) (b : bytes), is_bytes b /\ information_new b = Ok b /\ Forall information_setter_ok ops.
Proof. exact WitnessProofs.c25_information_trailing_meets. Qed.
(** C25: and of a timestamp message, after the twentieth byte. *)
Theorem C25_timestamp_trailing : forall E ops b, is_bytes b -> timestamp_new b = Ok b -> Forall timestamp_setter_ok ops ->
  (icmp_is_valid E (fst (timestamp_checked E ops b)) = Ok true <-> word_sum (drop_odd (dropN 20 b)) mod 65535 = 0).
Proof. exact GuardProofs.c25_timestamp_trailing. Qed.
Print Assumptions C25_timestamp_trailing.
(** C25: the hypotheses of C25_timestamp_trailing can be met. *)
Example C25_timestamp_trailing_meets :
  exists (ops : list timestamp_setter) (b : bytes), is_bytes b /\ timestamp_new b = Ok b /\ Forall timestamp_setter_ok ops.
Proof. exact WitnessProofs.c25_timestamp_trailing_meets. Qed.
Theorem C25_information_trailing_refuted : forall E, exists b ops b', information_new b = Ok b /\ is_bytes b /\
  information_checked E ops b = (b', Ok tt) /\ icmp_is_valid E b' = Ok false.
Proof. exact GuardProofs.c25_information_trailing_refuted. Qed.
Print Assumptions C25_information_trailing_refuted.
Theorem C25_v6_parent : forall E q b,
  (forall ops, snd (udp_checked E (V6 q) ops b) = Panic) /\ (forall ops, snd (tcp_checked E (V6 q) ops b) = Panic).
Proof. exact GuardProofs.c25_v6_parent. Qed.
Print Assumptions C25_v6_parent.
Example C25_example : forall E,
  let b := [69; 0; 0; 20; 1; 2; 64; 0; 64; 17; 9; 9; 10; 0; 0; 1; 10; 0; 0; 2] in
  v4_no_payload b = Ok b /\ is_bytes b /\
  v4_checked E [V4SetTtl 5; V4SetDscp 200; V4SetId 7] b =
  ([69; 0; 0; 20; 0; 7; 64; 0; 5; 17; 97; 208; 10; 0; 0; 1; 10; 0; 0; 2], Ok tt).
Proof. exact GuardProofs.c25_example. Qed.

(** ** C26 *)
Theorem C26_tcp_guard_flags : forall E ip ops b, is_bytes b -> tcp_new b = Ok b ->
  Forall tcp_setter_ok ops -> Exists tcp_is_flags ops ->
  snd (tcp_checked E ip ops b) = Panic.
Proof. exact GuardProofs.c26_tcp_guard_flags. Qed.
Print Assumptions C26_tcp_guard_flags.
(** C26: the hypotheses of C26_tcp_guard_flags can be met. *)
Example C26_tcp_guard_flags_meets :
  exists (ops : list tcp_setter) (b : bytes), is_bytes b /\ tcp_new b = Ok b /\ Forall tcp_setter_ok ops /\ Exists tcp_is_flags ops.
Proof. exact WitnessProofs.c26_tcp_guard_flags_meets. Qed.
Example C26_example : forall E, let b := [0; 80; 0; 99; 0; 0; 0; 1; 0; 0; 0; 2; 80; 2; 1; 0; 0; 0; 0; 0; 104; 105] in
  let p := [69;0;0;42;0;0;0;0;64;6;0;0;10;0;0;1;10;0;0;2] in
  tcp_new b = Ok b /\ is_bytes b /\
  snd (tcp_checked E (V4 p) [TcpSetWindow 9] b) = Ok tt /\
  snd (tcp_checked E (V4 p) [TcpSetWindow 9; TcpSetFlags 2] b) = Panic.
Proof. exact GuardProofs.c26_example. Qed.

(** ** C27 *)
Theorem C27_tcp : forall E f os t payload, tcp_fields_ok f -> is_bytes (opts_wire os ++ t) ->
  Forall tcp_opt_ok os -> opt_end t -> tf_offset f * 4 = 20 + len (opts_wire os ++ t) ->
  exists area, tcp_options (tcp_wire f ++ (opts_wire os ++ t) ++ payload) = Ok area /\
  forall n, exists bufs,
    nexts (tcp_iter_next E) (length os + n) area =
      map (fun b => Ok (Yield b)) bufs ++ repeat (Ok Finished) n /\
    Forall2 (tcp_opt_view E) os bufs.
Proof. exact OptionProofs.c27_tcp. Qed.
Print Assumptions C27_tcp.
(** C27: the hypotheses of C27_tcp can be met. *)
Example C27_tcp_meets :
  exists (f : tcp_fields) (os : list opt) (t : list N), tcp_fields_ok f /\ is_bytes (opts_wire os ++ t) /\ Forall tcp_opt_ok os /\ opt_end t /\ tf_offset f * 4 = 20 + len (opts_wire os ++ t).
Proof. exact WitnessProofs.c27_tcp_meets. Qed.
(** C27: likewise IPv4. *)
Theorem C27_v4 : forall E f os t payload trailer, v4_fields_ok f -> vf_version f = 4 ->
  is_bytes (opts_wire os ++ t) -> Forall v4_opt_ok os -> opt_end t ->
  vf_ihl f * 4 = 20 + len (opts_wire os ++ t) -> vf_total f = 20 + len (opts_wire os ++ t) + len payload ->
  exists area, v4_options (v4_wire f ++ (opts_wire os ++ t) ++ payload ++ trailer) = Ok area /\
  forall n, exists bufs,
    nexts (v4_iter_next E) (length os + n) area =
      map (fun b => Ok (Yield b)) bufs ++ repeat (Ok Finished) n /\
    Forall2 (v4_opt_view E) os bufs.
Proof. exact OptionProofs.c27_v4. Qed.
Print Assumptions C27_v4.
(** C27: the hypotheses of C27_v4 can be met. *)
Example C27_v4_meets :
  exists (f : v4_fields) (os : list opt) (t : list N) (payload : bytes), v4_fields_ok f /\ vf_version f = 4 /\ is_bytes (opts_wire os ++ t) /\ Forall v4_opt_ok os /\ opt_end t /\ vf_ihl f * 4 = 20 + len (opts_wire os ++ t) /\ vf_total f = 20 + len (opts_wire os ++ t) + len payload.
Proof. exact WitnessProofs.c27_v4_meets. Qed.
Theorem C27_nop_payload_refuted : forall E r,
  tcpopt_payload (1 :: r) = Ok r /\ tcpopt_payload_size E (1 :: r) = Ok 0 /\
  v4opt_payload (1 :: r) = Ok r /\ v4opt_payload_size E (1 :: r) = Ok 0.
Proof. exact OptionProofs.c27_nop_payload_refuted. Qed.
Print Assumptions C27_nop_payload_refuted.
Example C27_example :
  let os := [Opt 2 [5; 180]; Nop; Opt 8 [1; 2; 3; 4; 5; 6; 7; 8]] in let t := [0] in
  Forall tcp_opt_ok os /\ opt_end t /\ is_bytes (opts_wire os ++ t) /\ len (opts_wire os ++ t) = 9 * 4 - 20 /\
  Forall v4_opt_ok [Opt 130 [1; 2; 3; 4]; Nop; Opt 68 [9]] /\
  forall E, nexts (tcp_iter_next E) 4 (opts_wire os ++ t) =
    [Ok (Yield (opts_wire os ++ t)); Ok (Yield (dropN 4 (opts_wire os ++ t)));
     Ok (Yield (dropN 5 (opts_wire os ++ t))); Ok Finished].
Proof. exact OptionProofs.c27_example. Qed.

(** ** C28 *)
Theorem C28_tcp_next : forall E b, is_bytes b ->
  (b = [] -> tcp_iter_next E b = Ok (Finished, b)) /\
  (forall k r, b = k :: r ->
     (k = 0 -> tcp_iter_next E b = Ok (Finished, b)) /\
     (k = 1 -> tcp_iter_next E b = Ok (Yield b, r)) /\
     (2 <= k -> r = [] -> tcp_iter_next E b = Panic) /\
     (forall l r', 2 <= k -> r = l :: r' ->
        (len b < l -> tcp_iter_next E b = Ok (YieldErr SmallBuffer, b)) /\
        (l = 0 -> tcp_iter_next E b = if overflow_checks E then Panic else Ok (Yield b, b)) /\
        (l = 1 -> tcp_iter_next E b = Ok (Yield b, r)) /\
        (2 <= l <= len b -> tcp_iter_next E b = Ok (Yield b, dropN l b)))).
Proof. exact OptionProofs.c28_tcp_next. Qed.
Print Assumptions C28_tcp_next.
(** C28: the hypotheses of C28_tcp_next can be met. *)
Example C28_tcp_next_meets :
  (exists (b : bytes), is_bytes b /\ b = []) /\
  (exists (b : bytes) (k : N) (r : list N), is_bytes b /\ b = k :: r /\ k = 0) /\
  (exists (b : bytes) (k : N) (r : list N), is_bytes b /\ b = k :: r /\ k = 1) /\
  (exists (b : bytes) (k : N) (r : list N), is_bytes b /\ b = k :: r /\ 2 <= k /\ r = []) /\
  (exists (b : bytes) (k : N) (r : list N) (l : N) (r' : list N), is_bytes b /\ b = k :: r /\ 2 <= k /\ r = l :: r' /\ len b < l) /\
  (exists (b : bytes) (k : N) (r : list N) (l : N) (r' : list N), is_bytes b /\ b = k :: r /\ 2 <= k /\ r = l :: r' /\ l = 0) /\
  (exists (b : bytes) (k : N) (r : list N) (l : N) (r' : list N), is_bytes b /\ b = k :: r /\ 2 <= k /\ r = l :: r' /\ l = 1) /\
  (exists (b : bytes) (k : N) (r : list N) (l : N) (r' : list N), is_bytes b /\ b = k :: r /\ 2 <= k /\ r = l :: r' /\ 2 <= l <= len b).
Proof. exact WitnessProofs.c28_tcp_next_meets. Qed.
Theorem C28_tcp_error_forever : forall E k l r, is_bytes (k :: l :: r) -> 2 <= k -> 2 + len r < l ->
  forall n, nexts (tcp_iter_next E) n (k :: l :: r) = repeat (Ok (YieldErr SmallBuffer)) n.
Proof. exact OptionProofs.c28_tcp_error_forever. Qed.
Print Assumptions C28_tcp_error_forever.
(** C28: the hypotheses of C28_tcp_error_forever can be met. *)
Example C28_tcp_error_forever_meets :
  exists (k : N) (l : N) (r : list N), is_bytes (k :: l :: r) /\ 2 <= k /\ 2 + len r < l.
Proof. exact WitnessProofs.c28_tcp_error_forever_meets. Qed.
Theorem C28_tcp_zero_length : forall E k r, is_bytes (k :: 0 :: r) -> 2 <= k ->
  (overflow_checks E = true -> tcp_iter_next E (k :: 0 :: r) = Panic) /\
  (overflow_checks E = false ->
   forall n, nexts (tcp_iter_next E) n (k :: 0 :: r) = repeat (Ok (Yield (k :: 0 :: r))) n).
Proof. exact OptionProofs.c28_tcp_zero_length. Qed.
Print Assumptions C28_tcp_zero_length.
(** C28: the hypotheses of C28_tcp_zero_length can be met. *)
Example C28_tcp_zero_length_meets :
  (exists (E : env) (k : N) (r : list N), is_bytes (k :: 0 :: r) /\ 2 <= k /\ overflow_checks E = true) /\
  (exists (E : env) (k : N) (r : list N), is_bytes (k :: 0 :: r) /\ 2 <= k /\ overflow_checks E = false).
Proof. exact WitnessProofs.c28_tcp_zero_length_meets. Qed.
Theorem C28_tcp_run : forall E n b, is_bytes b ->
  exists bufs tail, nexts (tcp_iter_next E) n b = map (fun o => Ok (Yield o)) bufs ++ tail /\
    N.of_nat (length bufs) <= len b /\
    Forall (fun o => exists p, b = p ++ o) bufs /\
    (tail = repeat (Ok Finished) (n - length bufs) \/
     tail = repeat (Ok (YieldErr SmallBuffer)) (n - length bufs) \/
     tail = [Panic] \/
     (overflow_checks E = false /\ exists k r, 2 <= k /\ (exists p, b = p ++ k :: 0 :: r) /\
      tail = repeat (Ok (Yield (k :: 0 :: r))) (n - length bufs))).
Proof. exact OptionProofs.c28_tcp_run. Qed.
Print Assumptions C28_tcp_run.
(** C28: the hypotheses of C28_tcp_run can be met. *)
Example C28_tcp_run_meets :
  exists (b : bytes), is_bytes b.
Proof. exact WitnessProofs.c28_tcp_run_meets. Qed.
Theorem C28_v4_next : forall E b, is_bytes b ->
  (b = [] -> v4_iter_next E b = Ok (Finished, b)) /\
  (forall k r, b = k :: r ->
     (k mod 32 = 0 -> v4_iter_next E b = Ok (Finished, b)) /\
     (k mod 32 = 1 -> v4_iter_next E b = Ok (Yield b, r)) /\
     (2 <= k mod 32 -> r = [] -> v4_iter_next E b = Panic) /\
     (forall l r', 2 <= k mod 32 -> r = l :: r' ->
        (len b < l -> v4_iter_next E b = Ok (YieldErr SmallBuffer, b)) /\
        (l = 0 -> v4_iter_next E b = if overflow_checks E then Panic else Ok (Yield b, b)) /\
        (l = 1 -> v4_iter_next E b = Ok (Yield b, r)) /\
        (2 <= l <= len b -> v4_iter_next E b = Ok (Yield b, dropN l b)))).
Proof. exact OptionProofs.c28_v4_next. Qed.
Print Assumptions C28_v4_next.
(** C28: the hypotheses of C28_v4_next can be met. *)
Example C28_v4_next_meets :
  (exists (b : bytes), is_bytes b /\ b = []) /\
  (exists (b : bytes) (k : N) (r : list N), is_bytes b /\ b = k :: r /\ k mod 32 = 0) /\
  (exists (b : bytes) (k : N) (r : list N), is_bytes b /\ b = k :: r /\ k mod 32 = 1) /\
  (exists (b : bytes) (k : N) (r : list N), is_bytes b /\ b = k :: r /\ 2 <= k mod 32 /\ r = []) /\
  (exists (b : bytes) (k : N) (r : list N) (l : N) (r' : list N), is_bytes b /\ b = k :: r /\ 2 <= k mod 32 /\ r = l :: r' /\ len b < l) /\
  (exists (b : bytes) (k : N) (r : list N) (l : N) (r' : list N), is_bytes b /\ b = k :: r /\ 2 <= k mod 32 /\ r = l :: r' /\ l = 0) /\
  (exists (b : bytes) (k : N) (r : list N) (l : N) (r' : list N), is_bytes b /\ b = k :: r /\ 2 <= k mod 32 /\ r = l :: r' /\ l = 1) /\
  (exists (b : bytes) (k : N) (r : list N) (l : N) (r' : list N), is_bytes b /\ b = k :: r /\ 2 <= k mod 32 /\ r = l :: r' /\ 2 <= l <= len b).
Proof. exact WitnessProofs.c28_v4_next_meets. Qed.
Theorem C28_v4_error_forever : forall E k l r, is_bytes (k :: l :: r) -> 2 <= k mod 32 -> 2 + len r < l ->
  forall n, nexts (v4_iter_next E) n (k :: l :: r) = repeat (Ok (YieldErr SmallBuffer)) n.
Proof. exact OptionProofs.c28_v4_error_forever. Qed.
Print Assumptions C28_v4_error_forever.
(** C28: the hypotheses of C28_v4_error_forever can be met. *)
Example C28_v4_error_forever_meets :
  exists (k : N) (l : N) (r : list N), is_bytes (k :: l :: r) /\ 2 <= k mod 32 /\ 2 + len r < l.
Proof. exact WitnessProofs.c28_v4_error_forever_meets. Qed.
Theorem C28_v4_zero_length : forall E k r, is_bytes (k :: 0 :: r) -> 2 <= k mod 32 ->
  (overflow_checks E = true -> v4_iter_next E (k :: 0 :: r) = Panic) /\
  (overflow_checks E = false ->
   forall n, nexts (v4_iter_next E) n (k :: 0 :: r) = repeat (Ok (Yield (k :: 0 :: r))) n).
Proof. exact OptionProofs.c28_v4_zero_length. Qed.
Print Assumptions C28_v4_zero_length.
(** C28: the hypotheses of C28_v4_zero_length can be met. *)
Example C28_v4_zero_length_meets :
  (exists (E : env) (k : N) (r : list N), is_bytes (k :: 0 :: r) /\ 2 <= k mod 32 /\ overflow_checks E = true) /\
  (exists (E : env) (k : N) (r : list N), is_bytes (k :: 0 :: r) /\ 2 <= k mod 32 /\ overflow_checks E = false).
Proof. exact WitnessProofs.c28_v4_zero_length_meets. Qed.
Theorem C28_v4_run : forall E n b, is_bytes b ->
  exists bufs tail, nexts (v4_iter_next E) n b = map (fun o => Ok (Yield o)) bufs ++ tail /\
    N.of_nat (length bufs) <= len b /\
    Forall (fun o => exists p, b = p ++ o) bufs /\
    (tail = repeat (Ok Finished) (n - length bufs) \/
     tail = repeat (Ok (YieldErr SmallBuffer)) (n - length bufs) \/
     tail = [Panic] \/
     (overflow_checks E = false /\ exists k r, 2 <= k mod 32 /\ (exists p, b = p ++ k :: 0 :: r) /\
      tail = repeat (Ok (Yield (k :: 0 :: r))) (n - length bufs))).
Proof. exact OptionProofs.c28_v4_run. Qed.
Print Assumptions C28_v4_run.
(** C28: the hypotheses of C28_v4_run can be met. *)
Example C28_v4_run_meets :
  exists (b : bytes), is_bytes b.
Proof. exact WitnessProofs.c28_v4_run_meets. Qed.
Example C28_example : forall E,
  nexts (tcp_iter_next E) 3 [1; 3; 200; 7] = [Ok (Yield [1; 3; 200; 7]); Ok (YieldErr SmallBuffer); Ok (YieldErr SmallBuffer)] /\
  nexts (v4_iter_next E) 3 [129; 68] = [Ok (Yield [129; 68]); Panic] /\
  nexts (tcp_iter_next {| overflow_checks := false; cursor_eof := EofKeep; target := target E |}) 3 [5; 0; 7] =
    [Ok (Yield [5; 0; 7]); Ok (Yield [5; 0; 7]); Ok (Yield [5; 0; 7])].
Proof. exact OptionProofs.c28_example. Qed.

(** ** C29 *)
Theorem C29_dynamic : forall E ops, ops_size ops <= ISIZE_MAX ->
  match layers_run ([], []) ops with
  | Some (pre, cur) => exists b, buf_calls E dynamic_new ops = (b, map (fun _ => Ok tt) ops) /\ shows E b pre cur
  | None => exists b k, buf_calls E dynamic_new ops = (b, repeat (Ok tt) k ++ [Panic])
  end.
Proof. exact BufferProofs.c29_dynamic. Qed.
Print Assumptions C29_dynamic.
(** C29: the hypotheses of C29_dynamic can be met. *)
Example C29_dynamic_meets :
  exists (E : env) (ops : list buf_op), ops_size ops <= ISIZE_MAX.
Proof. exact WitnessProofs.c29_dynamic_meets. Qed.
Theorem C29_capacity : forall E ops pre cur b n, ops_size ops <= ISIZE_MAX ->
  layers_run ([], []) ops = Some (pre, cur) -> fst (buf_calls E dynamic_new ops) = b ->
  ISIZE_MAX < len pre + len cur + n < USIZE ->
  snd (buf_next E n b) = Panic /\ snd (buf_more E n b) = Panic.
Proof. exact BufferProofs.c29_capacity. Qed.
Print Assumptions C29_capacity.
(** C29: the hypotheses of C29_capacity can be met. *)
Example C29_capacity_meets :
  exists (E : env) (ops : list buf_op) (pre : bytes) (cur : bytes) (b : buffer) (n : N), ops_size ops <= ISIZE_MAX /\ layers_run ([], []) ops = Some (pre, cur) /\ fst (buf_calls E dynamic_new ops) = b /\ ISIZE_MAX < len pre + len cur + n < USIZE.
Proof. exact WitnessProofs.c29_capacity_meets. Qed.
Theorem C29_wrap_refuted : forall E pre cur n, len pre + len cur <= ISIZE_MAX -> n < USIZE ->
  USIZE <= len pre + len cur + n ->
  let b := Dynamic (pre ++ cur) (len pre) (len cur) in
  (overflow_checks E = true -> snd (buf_next E n b) = Panic) /\
  (overflow_checks E = false ->
   exists b', buf_next E n b = (b', Ok tt) /\
     buf_into_inner b' = Ok (takeN (len pre + len cur + n - USIZE) (pre ++ cur)) /\ buf_data E b' = Panic).
Proof. exact BufferProofs.c29_wrap_refuted. Qed.
Print Assumptions C29_wrap_refuted.
(** C29: the hypotheses of C29_wrap_refuted can be met. *)
Example C29_wrap_refuted_meets :
  (exists (E : env) (pre : bytes) (cur : bytes) (n : N), len pre + len cur <= ISIZE_MAX /\ n < USIZE /\ USIZE <= len pre + len cur + n /\ overflow_checks E = true) /\
  (exists (E : env) (pre : bytes) (cur : bytes) (n : N), len pre + len cur <= ISIZE_MAX /\ n < USIZE /\ USIZE <= len pre + len cur + n /\ overflow_checks E = false).
Proof. exact WitnessProofs.c29_wrap_refuted_meets. Qed.
Example C29_example : forall E,
  buf_calls E dynamic_new [Next 2; Write 1 7; Next 1; More 2; Write 2 9] = (Dynamic [0; 7; 0; 0; 9] 2 3, [Ok tt; Ok tt; Ok tt; Ok tt; Ok tt]) /\
  layers_run ([], []) [Next 2; Write 1 7; Next 1; More 2; Write 2 9] = Some ([0; 7], [0; 0; 9]).
Proof. exact BufferProofs.c29_example. Qed.

(** ** C30 *)
Theorem C30_slice : forall E s ops, len s <= ISIZE_MAX -> Forall buf_op_ok ops ->
  more_on_empty ([], [], s) ops ->
  let '(pre, cur, rest, rs) := bounded_steps ([], [], s) ops in
  snd (buf_calls E (slice_new s) ops) = rs /\
  len pre + len cur + len rest = len s /\
  (~ In Panic rs -> exists b, fst (buf_calls E (slice_new s) ops) = b /\ shows E b pre cur /\
     b = Slice (pre ++ cur ++ rest) (len pre) (len cur) (len pre + len cur)).
Proof. exact BufferProofs.c30_slice. Qed.
Print Assumptions C30_slice.
(** C30: the hypotheses of C30_slice can be met. *)
Example C30_slice_meets :
  exists (E : env) (s : bytes) (ops : list buf_op), len s <= ISIZE_MAX /\ Forall buf_op_ok ops /\ more_on_empty ([], [], s) ops /\ let '(pre, cur, rest, rs) := bounded_steps ([], [], s) ops in ~ In Panic rs.
Proof. exact WitnessProofs.c30_slice_meets. Qed.
Theorem C30_frame : forall E s off l used o b', buf_op_ok o ->
  off + l < USIZE -> used + l < USIZE -> len s <= ISIZE_MAX -> used <= len s ->
  forall r, buf_call E (Slice s off l used) o = (b', r) -> r <> Panic ->
  exists s' off' l' used', b' = Slice s' off' l' used' /\ len s' = len s /\
    match r, o with
    | Ok _, Next n => only_changes used (used + n) s s'
    | Ok _, More n => only_changes (used + l) (used + l + n) s s'
    | Ok _, Write i v => only_changes (off + i) (off + i + 1) s s'
    | _, _ => s' = s /\ (o <> Clear -> off' = off /\ l' = l /\ used' = used)
    end.
Proof. exact BufferProofs.c30_frame. Qed.
Print Assumptions C30_frame.
(** C30: the hypotheses of C30_frame can be met. *)
Example C30_frame_meets :
  exists (E : env) (s : bytes) (off : N) (l : N) (used : N) (o : buf_op) (b' : buffer) (r : res unit), buf_op_ok o /\ off + l < USIZE /\ used + l < USIZE /\ len s <= ISIZE_MAX /\ used <= len s /\ buf_call E (Slice s off l used) o = (b', r) /\ r <> Panic.
Proof. exact WitnessProofs.c30_frame_meets. Qed.
Example C30_example : forall E,
  let ops := [Next 3; Write 1 7; Next 4; Clear; Next 2] in
  more_on_empty ([], [], [9; 8; 7; 6; 5]) ops /\ Forall buf_op_ok ops /\
  buf_calls E (slice_new [9; 8; 7; 6; 5]) ops = (Slice [0; 0; 0; 6; 5] 0 2 2, [Ok tt; Ok tt; Err SmallBuffer; Ok tt; Ok tt]).
Proof. exact BufferProofs.c30_example. Qed.

(** ** C31 *)
Theorem C31_slice_more : forall E pre cur rest n, cur <> [] ->
  len pre + len cur + len rest <= ISIZE_MAX -> n < USIZE ->
  let b := Slice (pre ++ cur ++ rest) (len pre) (len cur) (len pre + len cur) in
  (len rest < n -> len pre + len cur + n < USIZE -> buf_more E n b = (b, Err SmallBuffer)) /\
  (USIZE <= len pre + len cur + n -> snd (buf_more E n b) = Panic) /\
  (n <= len rest < len cur + n -> snd (buf_more E n b) = Panic) /\
  (len cur + n <= len rest -> exists b', buf_more E n b = (b', Ok tt) /\
     buf_offset b' = len pre + len cur /\ buf_offset b' <> buf_offset b /\
     buf_length b' = len cur + n /\ buf_used b' = len pre + len cur + n /\
     buf_used b' < buf_offset b' + buf_length b' /\
     buf_data E b' = Ok (takeN (len cur) rest ++ zeros n) /\
     b' = Slice (pre ++ cur ++ takeN (len cur) rest ++ zeros n ++ dropN (len cur + n) rest)
                (len pre + len cur) (len cur + n) (len pre + len cur + n)).
Proof. exact BufferProofs.c31_slice_more. Qed.
Print Assumptions C31_slice_more.
(** C31: the hypotheses of C31_slice_more can be met. *)
Example C31_slice_more_meets :
  (exists (E : env) (pre : bytes) (cur : list N) (rest : bytes) (n : N), cur <> [] /\ len pre + len cur + len rest <= ISIZE_MAX /\ n < USIZE /\ len rest < n /\ len pre + len cur + n < USIZE) /\
  (exists (E : env) (pre : bytes) (cur : list N) (rest : bytes) (n : N), cur <> [] /\ len pre + len cur + len rest <= ISIZE_MAX /\ n < USIZE /\ USIZE <= len pre + len cur + n) /\
  (exists (E : env) (pre : bytes) (cur : list N) (rest : bytes) (n : N), cur <> [] /\ len pre + len cur + len rest <= ISIZE_MAX /\ n < USIZE /\ n <= len rest < len cur + n) /\
  (exists (E : env) (pre : bytes) (cur : list N) (rest : bytes) (n : N), cur <> [] /\ len pre + len cur + len rest <= ISIZE_MAX /\ n < USIZE /\ len cur + n <= len rest).
Proof. exact WitnessProofs.c31_slice_more_meets. Qed.
Example C31_example : forall E,
  let b := fst (buf_calls E (slice_new [9; 8; 7; 6; 5; 4]) [Next 2; Write 1 7]) in
  b = Slice [0; 7; 7; 6; 5; 4] 0 2 2 /\
  buf_more E 1 b = (Slice [0; 7; 7; 6; 0; 4] 2 3 3, Ok tt) /\
  snd (buf_more E 3 b) = Panic /\ snd (buf_more E 5 b) = Err SmallBuffer.
Proof. exact BufferProofs.c31_example. Qed.

(** ** C32 *)
(** C32: [finalize] runs the finalizers from the last added to the first, up to the first failure. *)
Theorem C32_finalize : forall fs b b' r, fin_finalize fs b = (b', r) <-> runs (rev fs) b b' r.
Proof. exact BuilderProofs.c32_finalize. Qed.
Print Assumptions C32_finalize.
(** C32: the order of [add] and [extend], seen through finalizers that append a mark. *)
Theorem C32_order : forall (ms ns : list N) b,
  let mark m : finalizer := fun s => (s ++ [m], Ok tt) in
  fin_finalize (fin_extend (fold_left fin_add (map mark ms) fin_default) (fold_left fin_add (map mark ns) fin_default)) b =
  (b ++ rev ns ++ rev ms, Ok tt).
Proof. exact BuilderProofs.c32_order. Qed.
Print Assumptions C32_order.
Theorem C32_sub : forall mk b c, sub mk b = Ok c -> (forall x, mk (b_buffer b) = Ok x -> b_fin x = fin_default) -> b_fin c = b_fin b.
Proof. exact BuilderProofs.c32_sub. Qed.
Print Assumptions C32_sub.
(** C32: the hypotheses of C32_sub can be met. *)
Example C32_sub_meets :
  exists (mk : buffer -> res builder) (b : builder) (c : builder), sub mk b = Ok c /\ ((forall x, mk (b_buffer b) = Ok x -> b_fin x = fin_default)).
Proof. exact WitnessProofs.c32_sub_meets. Qed.
Example C32_example :
  let ok m : finalizer := fun s => (s ++ [m], Ok tt) in
  let bad : finalizer := fun s => (s ++ [99], Err InvalidPacket) in
  fin_finalize (fin_add (fin_add (fin_add fin_default (ok 1)) bad) (ok 3)) [0] = ([0; 3; 99], Err InvalidPacket).
Proof. exact BuilderProofs.c32_example. Qed.

(** ** C33 *)
(** C33: the bytes built, for payloads of any size that fits in memory. *)
Theorem C33_udp_bytes : forall E eth vs us p,
  eth_ok eth -> Forall v4_arg_ok vs -> Forall udp_op_ok us -> one_payload (udp_payloads us) p ->
  42 + len p <= ISIZE_MAX -> len p mod 2 = 0 \/ cursor_eof E = EofKeep ->
  let f := v4_after vs in
  udp_chain E eth vs us dynamic_new =
  Ok (ether_layer eth ++ v4_wire (v4_finished f 17 (8 + len p)) ++
      udp_wire (udp_finished (vf_src f) (vf_dst f) (udp_after us) p) ++ p).
Proof. exact BuilderProofs.c33_udp_bytes. Qed.
Print Assumptions C33_udp_bytes.
(** C33: the hypotheses of C33_udp_bytes can be met. *)
Example C33_udp_bytes_meets :
  exists (E : env) (eth : option (list ether_op)) (vs : list v4_setter) (us : list udp_op) (p : bytes), eth_ok eth /\ Forall v4_arg_ok vs /\ Forall udp_op_ok us /\ one_payload (udp_payloads us) p /\ 42 + len p <= ISIZE_MAX /\ (len p mod 2 = 0 \/ cursor_eof E = EofKeep).
Proof. exact WitnessProofs.c33_udp_bytes_meets. Qed.
Theorem C33_udp_bytes_odd : forall E eth vs us p,
  eth_ok eth -> Forall v4_arg_ok vs -> Forall udp_op_ok us -> one_payload (udp_payloads us) p ->
  42 + len p <= ISIZE_MAX -> len p mod 2 = 1 -> cursor_eof E = EofSeek ->
  let f := v4_after vs in
  udp_chain E eth vs us dynamic_new =
  Ok (ether_layer eth ++ v4_wire (v4_finished f 17 (8 + len p)) ++
      udp_wire (udp_finished (vf_src f) (vf_dst f) (udp_after us) (alter p (len p - 1) 0)) ++ p).
Proof. exact BuilderProofs.c33_udp_bytes_odd. Qed.
Print Assumptions C33_udp_bytes_odd.
(** C33: the hypotheses of C33_udp_bytes_odd can be met. *)
Example C33_udp_bytes_odd_meets :
  exists (E : env) (eth : option (list ether_op)) (vs : list v4_setter) (us : list udp_op) (p : bytes), eth_ok eth /\ Forall v4_arg_ok vs /\ Forall udp_op_ok us /\ one_payload (udp_payloads us) p /\ 42 + len p <= ISIZE_MAX /\ len p mod 2 = 1 /\ cursor_eof E = EofSeek.
Proof. exact WitnessProofs.c33_udp_bytes_odd_meets. Qed.
Theorem C33_udp_reparse : forall E eops vs us p,
  eth_ok (Some eops) -> Forall v4_arg_ok vs -> Forall v4_faithful vs -> Forall udp_op_ok us ->
  one_payload (udp_payloads us) p -> 28 + len p <= 65535 -> len p mod 2 = 0 \/ cursor_eof E = EofKeep ->
  exists frame ip udp,
    udp_chain E (Some eops) vs us dynamic_new = Ok frame /\
    ether_reads eops ET_Ipv4 ip frame /\ v4_reads E vs IP_Udp udp ip /\ udp_reads E us p ip udp /\
    udp_chain E None vs us dynamic_new = Ok ip.
Proof. exact BuilderProofs.c33_udp_reparse. Qed.
Print Assumptions C33_udp_reparse.
(** C33: the hypotheses of C33_udp_reparse can be met. *)
Example C33_udp_reparse_meets :
  exists (E : env) (eops : list ether_op) (vs : list v4_setter) (us : list udp_op) (p : bytes), eth_ok (Some eops) /\ Forall v4_arg_ok vs /\ Forall v4_faithful vs /\ Forall udp_op_ok us /\ one_payload (udp_payloads us) p /\ 28 + len p <= 65535 /\ (len p mod 2 = 0 \/ cursor_eof E = EofKeep).
Proof. exact WitnessProofs.c33_udp_reparse_meets. Qed.
(** C33: the odd case: the checksum of the built packet is wrong for a receiver. *)
Theorem C33_udp_odd_refuted : forall E eth vs us p,
  eth_ok eth -> Forall v4_arg_ok vs -> Forall udp_op_ok us -> one_payload (udp_payloads us) p ->
  28 + len p <= 65535 -> len p mod 2 = 1 -> nthN p (len p - 1) <> 0 -> cursor_eof E = EofSeek ->
  exists front udp, udp_chain E eth vs us dynamic_new = Ok (front ++ udp) /\ len udp = 8 + len p /\
    dropN 8 udp = p /\
    ~ receiver_accepts (with_pseudo_header (vf_src (v4_after vs)) (vf_dst (v4_after vs)) 17 udp).
Proof. exact BuilderProofs.c33_udp_odd_refuted. Qed.
Print Assumptions C33_udp_odd_refuted.
(** C33: the hypotheses of C33_udp_odd_refuted can be met. *)
Example C33_udp_odd_refuted_meets :
  exists (E : env) (eth : option (list ether_op)) (vs : list v4_setter) (us : list udp_op) (p : bytes), eth_ok eth /\ Forall v4_arg_ok vs /\ Forall udp_op_ok us /\ one_payload (udp_payloads us) p /\ 28 + len p <= 65535 /\ len p mod 2 = 1 /\ nthN p (len p - 1) <> 0 /\ cursor_eof E = EofSeek.
Proof. exact WitnessProofs.c33_udp_odd_refuted_meets. Qed.
Example C33_example : forall E,
  let eops := [EtherSource (Hw 0 35 105 99 89 190); EtherDestination (Hw 1 2 3 4 5 6)] in
  let vs := [V4SetTtl 1; V4SetSource (Ip4 127 0 0 1); V4SetTtl 64; V4SetDestination (Ip4 127 0 0 2); V4SetId 12298; V4SetDscp 3] in
  let us := [UdpSet (UdpSetSource 1337); UdpPayload [116; 101; 115; 116]; UdpSet (UdpSetDestination 9001)] in
  eth_ok (Some eops) /\ Forall v4_arg_ok vs /\ Forall v4_faithful vs /\ Forall udp_op_ok us /\
  one_payload (udp_payloads us) [116; 101; 115; 116] /\
  udp_chain E (Some eops) vs us dynamic_new =
  Ok ([1; 2; 3; 4; 5; 6; 0; 35; 105; 99; 89; 190; 8; 0] ++
      [69; 12; 0; 32; 48; 10; 0; 0; 64; 17; 76; 180; 127; 0; 0; 1; 127; 0; 0; 2] ++
      [5; 57; 35; 41; 0; 12; 241; 150] ++ [116; 101; 115; 116]).
Proof. exact BuilderProofs.c33_example. Qed.

(** ** C34 *)
(** C34: the bytes built. *)
Theorem C34_tcp_bytes : forall E eth vs ts p,
  eth_ok eth -> Forall v4_arg_ok vs -> Forall tcp_op_ok ts -> flags_last (tcp_setters ts) ->
  one_payload (tcp_payloads ts) p -> 20 + len p <= 131065 -> len p mod 2 = 0 \/ cursor_eof E = EofKeep ->
  let f := v4_after vs in
  tcp_chain E eth vs ts dynamic_new =
  Ok (ether_layer eth ++ v4_wire (v4_finished f 6 (20 + len p)) ++
      tcp_wire (tcp_finished (vf_src f) (vf_dst f) (tcp_after ts) p) ++ p).
Proof. exact BuilderProofs.c34_tcp_bytes. Qed.
Print Assumptions C34_tcp_bytes.
(** C34: the hypotheses of C34_tcp_bytes can be met. *)
Example C34_tcp_bytes_meets :
  exists (E : env) (eth : option (list ether_op)) (vs : list v4_setter) (ts : list tcp_op) (p : bytes), eth_ok eth /\ Forall v4_arg_ok vs /\ Forall tcp_op_ok ts /\ flags_last (tcp_setters ts) /\ one_payload (tcp_payloads ts) p /\ 20 + len p <= 131065 /\ (len p mod 2 = 0 \/ cursor_eof E = EofKeep).
Proof. exact WitnessProofs.c34_tcp_bytes_meets. Qed.
(** C34: with an odd payload under the other kind of std, [build] panics. *)
Theorem C34_tcp_odd_panics : forall E eth vs ts p,
  eth_ok eth -> Forall v4_arg_ok vs -> Forall tcp_op_ok ts -> flags_last (tcp_setters ts) ->
  one_payload (tcp_payloads ts) p -> 20 + len p <= 131065 -> len p mod 2 = 1 -> cursor_eof E = EofSeek ->
  tcp_chain E eth vs ts dynamic_new = Panic.
Proof. exact BuilderProofs.c34_tcp_odd_panics. Qed.
Print Assumptions C34_tcp_odd_panics.
(** C34: the hypotheses of C34_tcp_odd_panics can be met. *)
Example C34_tcp_odd_panics_meets :
  exists (E : env) (eth : option (list ether_op)) (vs : list v4_setter) (ts : list tcp_op) (p : bytes), eth_ok eth /\ Forall v4_arg_ok vs /\ Forall tcp_op_ok ts /\ flags_last (tcp_setters ts) /\ one_payload (tcp_payloads ts) p /\ 20 + len p <= 131065 /\ len p mod 2 = 1 /\ cursor_eof E = EofSeek.
Proof. exact WitnessProofs.c34_tcp_odd_panics_meets. Qed.
(** C34: read back with the crate's own parsers. *)
Theorem C34_tcp_reparse : forall E eops vs ts p,
  eth_ok (Some eops) -> Forall v4_arg_ok vs -> Forall v4_faithful vs -> Forall tcp_op_ok ts -> flags_last (tcp_setters ts) ->
  one_payload (tcp_payloads ts) p -> 40 + len p <= 65535 -> len p mod 2 = 0 \/ cursor_eof E = EofKeep ->
  exists frame ip tcp,
    tcp_chain E (Some eops) vs ts dynamic_new = Ok frame /\
    ether_reads eops ET_Ipv4 ip frame /\ v4_reads E vs IP_Tcp tcp ip /\ tcp_reads E ts p ip tcp /\
    tcp_chain E None vs ts dynamic_new = Ok ip.
Proof. exact BuilderProofs.c34_tcp_reparse. Qed.
Print Assumptions C34_tcp_reparse.
(** C34: the hypotheses of C34_tcp_reparse can be met. *)
Example C34_tcp_reparse_meets :
  exists (E : env) (eops : list ether_op) (vs : list v4_setter) (ts : list tcp_op) (p : bytes), eth_ok (Some eops) /\ Forall v4_arg_ok vs /\ Forall v4_faithful vs /\ Forall tcp_op_ok ts /\ flags_last (tcp_setters ts) /\ one_payload (tcp_payloads ts) p /\ 40 + len p <= 65535 /\ (len p mod 2 = 0 \/ cursor_eof E = EofKeep).
Proof. exact WitnessProofs.c34_tcp_reparse_meets. Qed.
Example C34_example : forall E,
  let vs := [V4SetTtl 64; V4SetSource (Ip4 127 0 0 1); V4SetDestination (Ip4 127 0 0 1); V4SetId 12298] in
  let ts := [TcpSet (TcpSetSource 1337); TcpSet (TcpSetDestination 9001); TcpPayload [104; 105]; TcpSet (TcpSetWindow 512); TcpSet (TcpSetFlags 2)] in
  eth_ok (Some []) /\ Forall v4_arg_ok vs /\ Forall v4_faithful vs /\ Forall tcp_op_ok ts /\ flags_last (tcp_setters ts) /\
  one_payload (tcp_payloads ts) [104; 105] /\
  tcp_chain E None vs ts dynamic_new =
  Ok ([69; 0; 0; 42; 48; 10; 0; 0; 64; 6; 76; 194; 127; 0; 0; 1; 127; 0; 0; 1] ++
      [5; 57; 35; 41; 0; 0; 0; 0; 0; 0; 0; 0; 80; 2; 2; 0; 31; 19; 0; 0] ++ [104; 105]).
Proof. exact BuilderProofs.c34_example. Qed.

(** ** C35 *)
(** C35: right after [flags], whatever the state of the builder, no setter succeeds. *)
Theorem C35_next_setter : forall E v s b b1, v < 512 -> tcp_run1 E (TcpSet (TcpSetFlags v)) b = Ok b1 ->
  tcp_run1 E (TcpSet s) b1 = match s with TcpSetSource _ => Err Io | _ => Panic end.
Proof. exact MisuseProofs.c35_next_setter. Qed.
Print Assumptions C35_next_setter.
(** C35: the hypotheses of C35_next_setter can be met. *)
Example C35_next_setter_meets :
  exists (E : env) (v : N) (b : builder) (b1 : builder), v < 512 /\ tcp_run1 E (TcpSet (TcpSetFlags v)) b = Ok b1.
Proof. exact WitnessProofs.c35_next_setter_meets. Qed.
Theorem C35_programs : forall E eth vs ops v p s rest,
  eth_ok eth -> Forall v4_arg_ok vs -> Forall tcp_op_ok ops ->
  flags_last (tcp_setters ops) -> last (tcp_setters ops) (TcpSetSource 0) = TcpSetFlags v ->
  one_payload (tcp_payloads ops) p -> 54 + len p <= ISIZE_MAX ->
  let outcome : res bytes := match s with TcpSetSource _ => Err Io | _ => Panic end in
  tcp_chain E eth vs (ops ++ TcpSet s :: rest) dynamic_new = outcome /\
  (let* t := tcp_default E in let* t := run (tcp_run1 E) (ops ++ TcpSet s :: rest) t in tcp_build E t) = outcome.
Proof. exact MisuseProofs.c35_programs. Qed.
Print Assumptions C35_programs.
(** C35: the hypotheses of C35_programs can be met. *)
Example C35_programs_meets :
  exists (E : env) (eth : option (list ether_op)) (vs : list v4_setter) (ops : list tcp_op) (v : N) (p : bytes), eth_ok eth /\ Forall v4_arg_ok vs /\ Forall tcp_op_ok ops /\ flags_last (tcp_setters ops) /\ last (tcp_setters ops) (TcpSetSource 0) = TcpSetFlags v /\ one_payload (tcp_payloads ops) p /\ 54 + len p <= ISIZE_MAX.
Proof. exact WitnessProofs.c35_programs_meets. Qed.
Example C35_example : forall E,
  let ops := [TcpSet (TcpSetSource 80); TcpPayload [1; 2]; TcpSet (TcpSetFlags 18)] in
  Forall tcp_op_ok ops /\ flags_last (tcp_setters ops) /\ last (tcp_setters ops) (TcpSetSource 0) = TcpSetFlags 18 /\
  one_payload (tcp_payloads ops) [1; 2] /\
  tcp_chain E (Some []) [V4SetTtl 64] (ops ++ [TcpSet (TcpSetSource 443)]) dynamic_new = Err Io /\
  tcp_chain E (Some []) [V4SetTtl 64] (ops ++ [TcpSet (TcpSetWindow 443)]) dynamic_new = Panic.
Proof. exact MisuseProofs.c35_example. Qed.

(** ** C36 *)
Theorem C36_echo_bytes : forall E outer ops p,
  outer_ok outer -> Forall echo_op_ok ops -> one_payload (echo_payloads ops) p -> 42 + len p <= ISIZE_MAX ->
  let '(t, i, s) := echo_after ops in
  let message ck := ident_wire {| cf_type := t; cf_code := 0; cf_checksum := ck |} i s ++ p in
  (echo_kind_given ops ->
   echo_chain E outer ops dynamic_new =
   Ok (icmp_outer outer (8 + len p) ++ message (nonzero_checksum (drop_odd (message 0))))) /\
  (~ echo_kind_given ops -> echo_chain E outer ops dynamic_new = Err InvalidPacket).
Proof. exact MessageProofs.c36_echo_bytes. Qed.
Print Assumptions C36_echo_bytes.
(** C36: the hypotheses of C36_echo_bytes can be met. *)
Example C36_echo_bytes_meets :
  (exists (E : env) (outer : option (option (list ether_op) * list v4_setter)) (ops : list echo_op) (p : bytes), outer_ok outer /\ Forall echo_op_ok ops /\ one_payload (echo_payloads ops) p /\ 42 + len p <= ISIZE_MAX /\ let '(t, i, s) := echo_after ops in echo_kind_given ops) /\
  (exists (E : env) (outer : option (option (list ether_op) * list v4_setter)) (ops : list echo_op) (p : bytes), outer_ok outer /\ Forall echo_op_ok ops /\ one_payload (echo_payloads ops) p /\ 42 + len p <= ISIZE_MAX /\ let '(t, i, s) := echo_after ops in ~ echo_kind_given ops).
Proof. exact WitnessProofs.c36_echo_bytes_meets. Qed.
Theorem C36_information_bytes : forall E outer ops,
  outer_ok outer -> Forall information_op_ok ops ->
  let '(t, i, s) := information_after ops in
  let message ck := ident_wire {| cf_type := t; cf_code := 0; cf_checksum := ck |} i s in
  (information_kind_given ops ->
   information_chain E outer ops dynamic_new =
   Ok (icmp_outer outer 8 ++ message (nonzero_checksum (message 0)))) /\
  (~ information_kind_given ops -> information_chain E outer ops dynamic_new = Err InvalidPacket).
Proof. exact MessageProofs.c36_information_bytes. Qed.
Print Assumptions C36_information_bytes.
(** C36: the hypotheses of C36_information_bytes can be met. *)
Example C36_information_bytes_meets :
  (exists (outer : option (option (list ether_op) * list v4_setter)) (ops : list information_op), outer_ok outer /\ Forall information_op_ok ops /\ let '(t, i, s) := information_after ops in information_kind_given ops) /\
  (exists (outer : option (option (list ether_op) * list v4_setter)) (ops : list information_op), outer_ok outer /\ Forall information_op_ok ops /\ let '(t, i, s) := information_after ops in ~ information_kind_given ops).
Proof. exact WitnessProofs.c36_information_bytes_meets. Qed.
Theorem C36_timestamp_bytes : forall E outer ops,
  outer_ok outer -> Forall timestamp_op_ok ops ->
  let '(t, i, s, x, y, z) := timestamp_after ops in
  let message ck := timestamp_wire {| cf_type := t; cf_code := 0; cf_checksum := ck |} i s x y z in
  (timestamp_kind_given ops ->
   timestamp_chain E outer ops dynamic_new =
   Ok (icmp_outer outer 20 ++ message (nonzero_checksum (message 0)))) /\
  (~ timestamp_kind_given ops -> timestamp_chain E outer ops dynamic_new = Err InvalidPacket).
Proof. exact MessageProofs.c36_timestamp_bytes. Qed.
Print Assumptions C36_timestamp_bytes.
(** C36: the hypotheses of C36_timestamp_bytes can be met. *)
Example C36_timestamp_bytes_meets :
  (exists (outer : option (option (list ether_op) * list v4_setter)) (ops : list timestamp_op), outer_ok outer /\ Forall timestamp_op_ok ops /\ let '(t, i, s, x, y, z) := timestamp_after ops in timestamp_kind_given ops) /\
  (exists (outer : option (option (list ether_op) * list v4_setter)) (ops : list timestamp_op), outer_ok outer /\ Forall timestamp_op_ok ops /\ let '(t, i, s, x, y, z) := timestamp_after ops in ~ timestamp_kind_given ops).
Proof. exact WitnessProofs.c36_timestamp_bytes_meets. Qed.
Theorem C36_echo_reparse : forall E ops p eth vs,
  Forall echo_op_ok ops -> echo_kind_given ops -> one_payload (echo_payloads ops) p ->
  eth_ok eth -> Forall v4_arg_ok vs -> Forall v4_faithful vs -> 28 + len p <= 65535 ->
  exists m ip,
    echo_chain E None ops dynamic_new = Ok m /\ echo_reads E ops p m /\
    echo_chain E (Some (None, vs)) ops dynamic_new = Ok ip /\ v4_reads E vs IP_Icmp m ip /\
    echo_chain E (Some (eth, vs)) ops dynamic_new = Ok (ether_layer eth ++ ip) /\
    (len p mod 2 = 0 -> word_sum m <> 0 -> receiver_accepts m).
Proof. exact MessageProofs.c36_echo_reparse. Qed.
Print Assumptions C36_echo_reparse.
(** C36: the hypotheses of C36_echo_reparse can be met. *)
Example C36_echo_reparse_meets :
  exists (ops : list echo_op) (p : bytes) (eth : option (list ether_op)) (vs : list v4_setter), Forall echo_op_ok ops /\ echo_kind_given ops /\ one_payload (echo_payloads ops) p /\ eth_ok eth /\ Forall v4_arg_ok vs /\ Forall v4_faithful vs /\ 28 + len p <= 65535.
Proof. exact WitnessProofs.c36_echo_reparse_meets. Qed.
Theorem C36_information_reparse : forall E ops eth vs,
  Forall information_op_ok ops -> information_kind_given ops ->
  eth_ok eth -> Forall v4_arg_ok vs -> Forall v4_faithful vs ->
  exists m ip,
    information_chain E None ops dynamic_new = Ok m /\ information_reads E ops m /\
    information_chain E (Some (None, vs)) ops dynamic_new = Ok ip /\ v4_reads E vs IP_Icmp m ip /\
    information_chain E (Some (eth, vs)) ops dynamic_new = Ok (ether_layer eth ++ ip) /\ receiver_accepts m.
Proof. exact MessageProofs.c36_information_reparse. Qed.
Print Assumptions C36_information_reparse.
(** C36: the hypotheses of C36_information_reparse can be met. *)
Example C36_information_reparse_meets :
  exists (ops : list information_op) (eth : option (list ether_op)) (vs : list v4_setter), Forall information_op_ok ops /\ information_kind_given ops /\ eth_ok eth /\ Forall v4_arg_ok vs /\ Forall v4_faithful vs.
Proof. exact WitnessProofs.c36_information_reparse_meets. Qed.
Theorem C36_timestamp_reparse : forall E ops eth vs,
  Forall timestamp_op_ok ops -> timestamp_kind_given ops ->
  eth_ok eth -> Forall v4_arg_ok vs -> Forall v4_faithful vs ->
  exists m ip,
    timestamp_chain E None ops dynamic_new = Ok m /\ timestamp_reads E ops m /\
    timestamp_chain E (Some (None, vs)) ops dynamic_new = Ok ip /\ v4_reads E vs IP_Icmp m ip /\
    timestamp_chain E (Some (eth, vs)) ops dynamic_new = Ok (ether_layer eth ++ ip) /\ receiver_accepts m.
Proof. exact MessageProofs.c36_timestamp_reparse. Qed.
Print Assumptions C36_timestamp_reparse.
(** C36: the hypotheses of C36_timestamp_reparse can be met. *)
Example C36_timestamp_reparse_meets :
  exists (ops : list timestamp_op) (eth : option (list ether_op)) (vs : list v4_setter), Forall timestamp_op_ok ops /\ timestamp_kind_given ops /\ eth_ok eth /\ Forall v4_arg_ok vs /\ Forall v4_faithful vs.
Proof. exact WitnessProofs.c36_timestamp_reparse_meets. Qed.
Example C36_example : forall E,
  let ops := [EchoRequest; EchoIdentifier 42; EchoSequence 2; EchoPayload [116; 101; 115; 116]] in
  Forall echo_op_ok ops /\ echo_kind_given ops /\ one_payload (echo_payloads ops) [116; 101; 115; 116] /\
  echo_chain E None ops dynamic_new = Ok [8; 0; 15; 250; 0; 42; 0; 2; 116; 101; 115; 116] /\
  echo_chain E None [EchoIdentifier 42] dynamic_new = Err InvalidPacket /\
  information_chain E None [InfoReply; InfoSequence 258] dynamic_new = Ok [16; 0; 238; 253; 0; 0; 1; 2].
Proof. exact MessageProofs.c36_example. Qed.

(** ** C37 *)
Theorem C37_v4_bytes : forall E eth vops p,
  eth_ok eth -> Forall v4_op_ok vops -> one_payload (v4_payloads vops) p -> 34 + len p <= ISIZE_MAX ->
  let L := 20 + len p in
  let b0 := N.lor 64 (L / 4 mod 256) in
  let h := fun ck => v4_wire (v4_head (v4_after (v4_setters vops)) b0 (L mod 65536) ck) in
  v4_chain E eth vops dynamic_new =
  match eth_front eth (b0 / 16) with
  | Some e => Ok (e ++ h (inet_checksum (takeN (L / 4 * 4) (h 0 ++ p))) ++ p)
  | None => Panic
  end.
Proof. exact PayloadProofs.c37_v4_bytes. Qed.
Print Assumptions C37_v4_bytes.
(** C37: the hypotheses of C37_v4_bytes can be met. *)
Example C37_v4_bytes_meets :
  exists (E : env) (eth : option (list ether_op)) (vops : list v4_op) (p : bytes), eth_ok eth /\ Forall v4_op_ok vops /\ one_payload (v4_payloads vops) p /\ 34 + len p <= ISIZE_MAX.
Proof. exact WitnessProofs.c37_v4_bytes_meets. Qed.
(** C37: fewer than four bytes of payload: the packet reads back as built. *)
Theorem C37_v4_small : forall E eops vops p,
  eth_ok (Some eops) -> Forall v4_op_ok vops -> Forall v4_faithful (v4_setters vops) ->
  one_payload (v4_payloads vops) p -> len p < 4 ->
  let proto := ip_protocol_from (ip_protocol_into (last_set sel_v4_proto (v4_setters vops) (ip_protocol_from 0))) in
  exists frame ip,
    v4_chain E (Some eops) vops dynamic_new = Ok frame /\ v4_chain E None vops dynamic_new = Ok ip /\
    ether_reads eops ET_Ipv4 ip frame /\ v4_reads E (v4_setters vops) proto p ip.
Proof. exact PayloadProofs.c37_v4_small. Qed.
Print Assumptions C37_v4_small.
(** C37: the hypotheses of C37_v4_small can be met. *)
Example C37_v4_small_meets :
  exists (eops : list ether_op) (vops : list v4_op) (p : bytes), eth_ok (Some eops) /\ Forall v4_op_ok vops /\ Forall v4_faithful (v4_setters vops) /\ one_payload (v4_payloads vops) p /\ len p < 4.
Proof. exact WitnessProofs.c37_v4_small_meets. Qed.
Theorem C37_v4_eaten : forall E eops vops p,
  eth_ok (Some eops) -> Forall v4_op_ok vops -> one_payload (v4_payloads vops) p -> 4 <= len p <= 43 ->
  exists frame ip,
    v4_chain E (Some eops) vops dynamic_new = Ok frame /\ v4_chain E None vops dynamic_new = Ok ip /\
    ether_reads eops ET_Ipv4 ip frame /\
    v4_new ip = Ok ip /\ v4_ihl ip = Ok (5 + len p / 4) /\ v4_length ip = Ok (20 + len p) /\
    v4_options ip = Ok (takeN (len p / 4 * 4) p) /\ v4_payload ip = Ok (dropN (len p / 4 * 4) p) /\
    v4_is_valid E ip = Ok true.
Proof. exact PayloadProofs.c37_v4_eaten. Qed.
Print Assumptions C37_v4_eaten.
(** C37: the hypotheses of C37_v4_eaten can be met. *)
Example C37_v4_eaten_meets :
  exists (eops : list ether_op) (vops : list v4_op) (p : bytes), eth_ok (Some eops) /\ Forall v4_op_ok vops /\ one_payload (v4_payloads vops) p /\ 4 <= len p <= 43.
Proof. exact WitnessProofs.c37_v4_eaten_meets. Qed.
(** C37: with 44 to 235 bytes of payload, the packet is not even one of version 4. *)
Theorem C37_v4_refused : forall E vops p,
  Forall v4_op_ok vops -> one_payload (v4_payloads vops) p -> 44 <= len p <= 235 ->
  exists ip, v4_chain E None vops dynamic_new = Ok ip /\ v4_new ip = Err InvalidPacket.
Proof. exact PayloadProofs.c37_v4_refused. Qed.
Print Assumptions C37_v4_refused.
(** C37: the hypotheses of C37_v4_refused can be met. *)
Example C37_v4_refused_meets :
  exists (vops : list v4_op) (p : bytes), Forall v4_op_ok vops /\ one_payload (v4_payloads vops) p /\ 44 <= len p <= 235.
Proof. exact WitnessProofs.c37_v4_refused_meets. Qed.
Theorem C37_v4_in_ether : forall E eops vops p,
  eth_ok (Some eops) -> Forall v4_op_ok vops -> one_payload (v4_payloads vops) p -> 34 + len p <= ISIZE_MAX ->
  let w := (5 + len p / 4) mod 256 in
  let frame type := exists q, v4_chain E (Some eops) vops dynamic_new = Ok (ether_wire (ether_set_type (ether_after eops) type) ++ q) /\
                    v4_chain E None vops dynamic_new = Ok q in
  (w / 16 = 0 \/ w / 16 = 4 -> frame 0x0800) /\
  (w / 16 = 2 \/ w / 16 = 6 -> frame 0x86dd) /\
  (v4_chain E (Some eops) vops dynamic_new = Panic <-> ~ (w / 16 = 0 \/ w / 16 = 4 \/ w / 16 = 2 \/ w / 16 = 6)).
Proof. exact PayloadProofs.c37_v4_in_ether. Qed.
Print Assumptions C37_v4_in_ether.
(** C37: the hypotheses of C37_v4_in_ether can be met. *)
Example C37_v4_in_ether_meets :
  (exists (E : env) (eops : list ether_op) (vops : list v4_op) (p : bytes), eth_ok (Some eops) /\ Forall v4_op_ok vops /\ one_payload (v4_payloads vops) p /\ 34 + len p <= ISIZE_MAX /\ let w := (5 + len p / 4) mod 256 in (w / 16 = 0 \/ w / 16 = 4)) /\
  (exists (E : env) (eops : list ether_op) (vops : list v4_op) (p : bytes), eth_ok (Some eops) /\ Forall v4_op_ok vops /\ one_payload (v4_payloads vops) p /\ 34 + len p <= ISIZE_MAX /\ let w := (5 + len p / 4) mod 256 in (w / 16 = 2 \/ w / 16 = 6)).
Proof. exact WitnessProofs.c37_v4_in_ether_meets. Qed.
Example C37_example : forall E,
  let vops := [V4Set (V4SetTtl 64); V4Set (V4SetSource (Ip4 10 0 0 1)); V4Payload [1; 2; 3; 4; 5; 6]; V4Set (V4SetProtocol IP_Udp)] in
  Forall v4_op_ok vops /\ Forall v4_faithful (v4_setters vops) /\ one_payload (v4_payloads vops) [1; 2; 3; 4; 5; 6] /\
  v4_chain E None vops dynamic_new = Ok [70; 0; 0; 26; 0; 0; 0; 0; 64; 17; 107; 205; 10; 0; 0; 1; 0; 0; 0; 0; 1; 2; 3; 4; 5; 6] /\
  v4_chain E (Some []) [V4Payload (zeros 172)] dynamic_new = Panic /\
  v4_chain E None [V4Set (V4SetTtl 9); V4Payload [7; 8; 9]] dynamic_new = Ok [69; 0; 0; 23; 0; 0; 0; 0; 9; 0; 177; 232; 0; 0; 0; 0; 0; 0; 0; 0; 7; 8; 9].
Proof. exact PayloadProofs.c37_example. Qed.

(** ** C38 *)
Theorem C38_second_payload : forall E p q b b',
  (forall ops, In (EtherPayload p) ops -> run (ether_run1 E) ops b = Ok b' -> ether_run1 E (EtherPayload q) b' = Err AlreadyDefined) /\
  (forall ops, In (V4Payload p) ops -> run (v4_run1 E) ops b = Ok b' -> v4_run1 E (V4Payload q) b' = Err AlreadyDefined) /\
  (forall ops, In (UdpPayload p) ops -> run (udp_run1 E) ops b = Ok b' -> udp_run1 E (UdpPayload q) b' = Err AlreadyDefined) /\
  (forall ops, In (TcpPayload p) ops -> run (tcp_run1 E) ops b = Ok b' -> tcp_run1 E (TcpPayload q) b' = Err AlreadyDefined) /\
  (forall ops, In (EchoPayload p) ops -> run (echo_run1 E) ops b = Ok b' -> echo_run1 E (EchoPayload q) b' = Err InvalidPacket).
Proof. exact MisuseProofs.c38_second_payload. Qed.
Print Assumptions C38_second_payload.
(** C38: the hypotheses of C38_second_payload can be met. *)
Example C38_second_payload_meets :
  (exists (E : env) (p : bytes) (b : builder) (b' : builder) ops, In (EtherPayload p) ops /\ run (ether_run1 E) ops b = Ok b') /\
  (exists (E : env) (p : bytes) (b : builder) (b' : builder) ops, In (V4Payload p) ops /\ run (v4_run1 E) ops b = Ok b') /\
  (exists (E : env) (p : bytes) (b : builder) (b' : builder) ops, In (UdpPayload p) ops /\ run (udp_run1 E) ops b = Ok b') /\
  (exists (E : env) (p : bytes) (b : builder) (b' : builder) ops, In (TcpPayload p) ops /\ run (tcp_run1 E) ops b = Ok b') /\
  (exists (E : env) (p : bytes) (b : builder) (b' : builder) ops, In (EchoPayload p) ops /\ run (echo_run1 E) ops b = Ok b').
Proof. exact WitnessProofs.c38_second_payload_meets. Qed.
(** C38: and so is a sub-protocol after a payload. *)
Theorem C38_sub_after_payload : forall E p b b',
  (forall ops, In (EtherPayload p) ops -> run (ether_run1 E) ops b = Ok b' -> ether_ip E b' = Err AlreadyDefined) /\
  (forall ops, In (V4Payload p) ops -> run (v4_run1 E) ops b = Ok b' ->
     v4_udp E b' = Err AlreadyDefined /\ v4_tcp E b' = Err AlreadyDefined /\ v4_icmp E b' = Err AlreadyDefined).
Proof. exact MisuseProofs.c38_sub_after_payload. Qed.
Print Assumptions C38_sub_after_payload.
(** C38: the hypotheses of C38_sub_after_payload can be met. *)
Example C38_sub_after_payload_meets :
  (exists (E : env) (p : bytes) (b : builder) (b' : builder) ops, In (EtherPayload p) ops /\ run (ether_run1 E) ops b = Ok b') /\
  (exists (E : env) (p : bytes) (b : builder) (b' : builder) ops, In (V4Payload p) ops /\ run (v4_run1 E) ops b = Ok b').
Proof. exact WitnessProofs.c38_sub_after_payload_meets. Qed.
(** C38: a builder that stops at the generic IP, IPv6 or ICMP layer builds nothing. *)
Theorem C38_incomplete : forall E eops vs, eth_ok (Some eops) -> Forall v4_arg_ok vs ->
  (let* e := ether_with E dynamic_new in let* e := run (ether_run1 E) eops e in let* i := ether_ip E e in ip_build i) = Err InvalidPacket /\
  (let* e := ether_with E dynamic_new in let* e := run (ether_run1 E) eops e in let* i := ether_ip E e in let* x := ip_v6 i in v6_build x) = Err InvalidPacket /\
  (forall eth, eth_ok eth -> (let* v := v4_layer E eth vs dynamic_new in let* i := v4_icmp E v in icmp_build i) = Err InvalidPacket) /\
  (let* i := ip_default in ip_build i) = Err InvalidPacket /\
  (let* i := icmp_default in icmp_build i) = Err InvalidPacket.
Proof. exact MisuseProofs.c38_incomplete. Qed.
Print Assumptions C38_incomplete.
(** C38: the hypotheses of C38_incomplete can be met. *)
Example C38_incomplete_meets :
  exists (eops : list ether_op) (vs : list v4_setter) (eth : option (list ether_op)), eth_ok (Some eops) /\ Forall v4_arg_ok vs /\ eth_ok eth.
Proof. exact WitnessProofs.c38_incomplete_meets. Qed.
Theorem C38_no_kind : forall E i c0 c,
  (forall ops, icmp_echo E i = Ok c0 -> run (echo_run1 E) ops c0 = Ok c ->
     ~ echo_kind_given ops -> echo_build E c = Err InvalidPacket) /\
  (forall ops, icmp_information E i = Ok c0 -> run (information_run1 E) ops c0 = Ok c ->
     ~ information_kind_given ops -> information_build E c = Err InvalidPacket) /\
  (forall ops, icmp_timestamp E i = Ok c0 -> run (timestamp_run1 E) ops c0 = Ok c ->
     ~ timestamp_kind_given ops -> timestamp_build E c = Err InvalidPacket).
Proof. exact MisuseProofs.c38_no_kind. Qed.
Print Assumptions C38_no_kind.
(** C38: the hypotheses of C38_no_kind can be met. *)
Example C38_no_kind_meets :
  (exists (E : env) (i : builder) (c0 : builder) (c : builder) ops, icmp_echo E i = Ok c0 /\ run (echo_run1 E) ops c0 = Ok c /\ ~ echo_kind_given ops) /\
  (exists (E : env) (i : builder) (c0 : builder) (c : builder) ops, icmp_information E i = Ok c0 /\ run (information_run1 E) ops c0 = Ok c /\ ~ information_kind_given ops) /\
  (exists (E : env) (i : builder) (c0 : builder) (c : builder) ops, icmp_timestamp E i = Ok c0 /\ run (timestamp_run1 E) ops c0 = Ok c /\ ~ timestamp_kind_given ops).
Proof. exact WitnessProofs.c38_no_kind_meets. Qed.
Example C38_example : forall E,
  (let* u := udp_default E in run (udp_run1 E) [UdpPayload []; UdpSet (UdpSetSource 1); UdpPayload [1]] u) = Err AlreadyDefined /\
  (let* v := v4_default E in let* v := run (v4_run1 E) [V4Payload [1; 2]; V4Set (V4SetTtl 3)] v in v4_udp E v) = Err AlreadyDefined /\
  (let* c := echo_default E in run (echo_run1 E) [EchoPayload [5]; EchoRequest; EchoPayload [6]] c) = Err InvalidPacket /\
  (exists b, (let* u := udp_default E in run (udp_run1 E) [UdpPayload []; UdpSet (UdpSetSource 1)] u) = Ok b).
Proof. exact MisuseProofs.c38_example. Qed.

(** ** C39 *)
(** C39: on a new buffer of either kind, whatever is called, [build] panics. *)
Theorem C39_bare : forall E buf u,
  buf = dynamic_new \/ (exists s, len s <= ISIZE_MAX /\ buf = slice_new s) ->
  (forall ops, (let* u0 := udp_with E buf in run (udp_run1 E) ops u0) = Ok u -> udp_build E u = Panic) /\
  (forall ops, (let* u0 := tcp_with E buf in run (tcp_run1 E) ops u0) = Ok u -> tcp_build E u = Panic).
Proof. exact MisuseProofs.c39_bare. Qed.
Print Assumptions C39_bare.
(** C39: the hypotheses of C39_bare can be met. *)
Example C39_bare_meets :
  (exists (E : env) (buf : buffer) (u : builder) ops, (buf = dynamic_new \/ (exists s, len s <= ISIZE_MAX /\ buf = slice_new s)) /\ ((let* u0 := udp_with E buf in run (udp_run1 E) ops u0) = Ok u)) /\
  (exists (E : env) (buf : buffer) (u : builder) ops, (buf = dynamic_new \/ (exists s, len s <= ISIZE_MAX /\ buf = slice_new s)) /\ ((let* u0 := tcp_with E buf in run (tcp_run1 E) ops u0) = Ok u)).
Proof. exact WitnessProofs.c39_bare_meets. Qed.
Theorem C39_default : forall E p,
  (forall us, Forall udp_op_ok us -> one_payload (udp_payloads us) p -> 8 + len p <= ISIZE_MAX ->
     (exists u, (let* u0 := udp_default E in run (udp_run1 E) us u0) = Ok u) /\
     (let* u0 := udp_default E in let* u := run (udp_run1 E) us u0 in udp_build E u) = Panic) /\
  (forall ts, Forall tcp_op_ok ts -> flags_last (tcp_setters ts) -> one_payload (tcp_payloads ts) p -> 20 + len p <= ISIZE_MAX ->
     (exists t, (let* t0 := tcp_default E in run (tcp_run1 E) ts t0) = Ok t) /\
     (let* t0 := tcp_default E in let* t := run (tcp_run1 E) ts t0 in tcp_build E t) = Panic).
Proof. exact MisuseProofs.c39_default. Qed.
Print Assumptions C39_default.
(** C39: the hypotheses of C39_default can be met. *)
Example C39_default_meets :
  (exists (E : env) (p : bytes) (us : list udp_op), Forall udp_op_ok us /\ one_payload (udp_payloads us) p /\ 8 + len p <= ISIZE_MAX) /\
  (exists (E : env) (p : bytes) (ts : list tcp_op), Forall tcp_op_ok ts /\ flags_last (tcp_setters ts) /\ one_payload (tcp_payloads ts) p /\ 20 + len p <= ISIZE_MAX).
Proof. exact WitnessProofs.c39_default_meets. Qed.
Example C39_example : forall E,
  (let* u := udp_default E in let* u := run (udp_run1 E) [UdpSet (UdpSetSource 1337); UdpPayload [1; 2]] u in udp_build E u) = Panic /\
  (let* t := tcp_default E in let* t := run (tcp_run1 E) [TcpPayload [1; 2]; TcpSet (TcpSetFlags 2)] t in tcp_build E t) = Panic /\
  (let* u := udp_with E (slice_new (zeros 100)) in let* u := run (udp_run1 E) [UdpSet (UdpSetSource 1337)] u in udp_build E u) = Panic.
Proof. exact MisuseProofs.c39_example. Qed.

(** ** C40 *)
Theorem C40_udp_wraps : forall E vs us p,
  Forall v4_arg_ok vs -> Forall udp_op_ok us -> one_payload (udp_payloads us) p -> 42 + len p <= ISIZE_MAX ->
  exists ip udp, udp_chain E None vs us dynamic_new = Ok ip /\ len ip = 28 + len p /\
    dropN 20 ip = udp /\ dropN 8 udp = p /\
    v4_new ip = Ok ip /\ v4_length ip = Ok ((28 + len p) mod 65536) /\
    udp_length udp = Ok ((8 + len p) mod 65536) /\
    v4_payload ip = Ok (takeN ((28 + len p) mod 65536 - 20) udp) /\
    (65535 < 28 + len p -> v4_payload ip <> Ok udp).
Proof. exact BuilderProofs.c40_udp_wraps. Qed.
Print Assumptions C40_udp_wraps.
(** C40: the hypotheses of C40_udp_wraps can be met. *)
Example C40_udp_wraps_meets :
  exists (E : env) (vs : list v4_setter) (us : list udp_op) (p : bytes), Forall v4_arg_ok vs /\ Forall udp_op_ok us /\ one_payload (udp_payloads us) p /\ 42 + len p <= ISIZE_MAX.
Proof. exact WitnessProofs.c40_udp_wraps_meets. Qed.
Example C40_example : forall E : env, exists us p, one_payload (udp_payloads us) p /\ Forall udp_op_ok us /\ len p = 70000 /\ 42 + len p <= ISIZE_MAX /\
  (28 + len p) mod 65536 = 4492.
Proof. exact BuilderProofs.c40_example. Qed.

(** ** C41 *)
(** C41: without payload, a slice with enough room gives what a vector gives. *)
Theorem C41_same_bytes : forall E eth vs outer s,
  eth_ok eth -> Forall v4_arg_ok vs -> outer_ok outer -> len s <= ISIZE_MAX ->
  (forall eops, Forall ether_op_ok eops -> ether_payloads eops = [] -> 14 <= len s ->
     ether_chain E eops (slice_new s) = ether_chain E eops dynamic_new) /\
  (v4_room eth <= len s -> v4_chain E eth (map V4Set vs) (slice_new s) = v4_chain E eth (map V4Set vs) dynamic_new) /\
  (forall us, Forall udp_op_ok us -> udp_payloads us = [] -> v4_room eth + 8 <= len s ->
     udp_chain E eth vs us (slice_new s) = udp_chain E eth vs us dynamic_new) /\
  (forall ts, Forall tcp_op_ok ts -> flags_last (tcp_setters ts) -> tcp_payloads ts = [] -> v4_room eth + 20 <= len s ->
     tcp_chain E eth vs ts (slice_new s) = tcp_chain E eth vs ts dynamic_new) /\
  (forall ops, Forall echo_op_ok ops -> echo_payloads ops = [] -> outer_room outer + 8 <= len s ->
     echo_chain E outer ops (slice_new s) = echo_chain E outer ops dynamic_new) /\
  (forall ops, Forall information_op_ok ops -> outer_room outer + 8 <= len s ->
     information_chain E outer ops (slice_new s) = information_chain E outer ops dynamic_new) /\
  (forall ops, Forall timestamp_op_ok ops -> outer_room outer + 20 <= len s ->
     timestamp_chain E outer ops (slice_new s) = timestamp_chain E outer ops dynamic_new).
Proof. exact SliceBuildProofs.c41_same_bytes. Qed.
Print Assumptions C41_same_bytes.
(** C41: the hypotheses of C41_same_bytes can be met. *)
Example C41_same_bytes_meets :
  (exists (E : env) (eth : option (list ether_op)) (vs : list v4_setter) (outer : option (option (list ether_op) * list v4_setter)) (s : bytes) (eops : list ether_op), eth_ok eth /\ Forall v4_arg_ok vs /\ outer_ok outer /\ len s <= ISIZE_MAX /\ Forall ether_op_ok eops /\ ether_payloads eops = [] /\ 14 <= len s) /\
  (exists (E : env) (eth : option (list ether_op)) (vs : list v4_setter) (outer : option (option (list ether_op) * list v4_setter)) (s : bytes), eth_ok eth /\ Forall v4_arg_ok vs /\ outer_ok outer /\ len s <= ISIZE_MAX /\ v4_room eth <= len s) /\
  (exists (E : env) (eth : option (list ether_op)) (vs : list v4_setter) (outer : option (option (list ether_op) * list v4_setter)) (s : bytes) (us : list udp_op), eth_ok eth /\ Forall v4_arg_ok vs /\ outer_ok outer /\ len s <= ISIZE_MAX /\ Forall udp_op_ok us /\ udp_payloads us = [] /\ v4_room eth + 8 <= len s) /\
  (exists (E : env) (eth : option (list ether_op)) (vs : list v4_setter) (outer : option (option (list ether_op) * list v4_setter)) (s : bytes) (ts : list tcp_op), eth_ok eth /\ Forall v4_arg_ok vs /\ outer_ok outer /\ len s <= ISIZE_MAX /\ Forall tcp_op_ok ts /\ flags_last (tcp_setters ts) /\ tcp_payloads ts = [] /\ v4_room eth + 20 <= len s) /\
  (exists (E : env) (eth : option (list ether_op)) (vs : list v4_setter) (outer : option (option (list ether_op) * list v4_setter)) (s : bytes) ops, eth_ok eth /\ Forall v4_arg_ok vs /\ outer_ok outer /\ len s <= ISIZE_MAX /\ Forall echo_op_ok ops /\ echo_payloads ops = [] /\ outer_room outer + 8 <= len s) /\
  (exists (E : env) (eth : option (list ether_op)) (vs : list v4_setter) (outer : option (option (list ether_op) * list v4_setter)) (s : bytes) ops, eth_ok eth /\ Forall v4_arg_ok vs /\ outer_ok outer /\ len s <= ISIZE_MAX /\ Forall information_op_ok ops /\ outer_room outer + 8 <= len s) /\
  (exists (E : env) (eth : option (list ether_op)) (vs : list v4_setter) (outer : option (option (list ether_op) * list v4_setter)) (s : bytes) ops, eth_ok eth /\ Forall v4_arg_ok vs /\ outer_ok outer /\ len s <= ISIZE_MAX /\ Forall timestamp_op_ok ops /\ outer_room outer + 20 <= len s).
Proof. exact WitnessProofs.c41_same_bytes_meets. Qed.
Theorem C41_small : forall E eth vs outer s,
  eth_ok eth -> Forall v4_arg_ok vs -> outer_ok outer -> len s <= ISIZE_MAX ->
  (forall eops, len s < 14 -> ether_chain E eops (slice_new s) = Err SmallBuffer) /\
  (forall vops, len s < v4_room eth -> v4_chain E eth vops (slice_new s) = Err SmallBuffer) /\
  (forall us, len s < v4_room eth + 8 -> udp_chain E eth vs us (slice_new s) = Err SmallBuffer) /\
  (forall ts, len s < v4_room eth + 20 -> tcp_chain E eth vs ts (slice_new s) = Err SmallBuffer) /\
  (forall ops, len s < outer_room outer + 8 -> echo_chain E outer ops (slice_new s) = Err SmallBuffer) /\
  (forall ops, len s < outer_room outer + 8 -> information_chain E outer ops (slice_new s) = Err SmallBuffer) /\
  (forall ops, len s < outer_room outer + 20 -> timestamp_chain E outer ops (slice_new s) = Err SmallBuffer).
Proof. exact SliceBuildProofs.c41_small. Qed.
Print Assumptions C41_small.
(** C41: the hypotheses of C41_small can be met. *)
Example C41_small_meets :
  (exists (E : env) (eth : option (list ether_op)) (vs : list v4_setter) (outer : option (option (list ether_op) * list v4_setter)) (s : bytes), eth_ok eth /\ Forall v4_arg_ok vs /\ outer_ok outer /\ len s <= ISIZE_MAX /\ len s < 14) /\
  (exists (E : env) (eth : option (list ether_op)) (vs : list v4_setter) (outer : option (option (list ether_op) * list v4_setter)) (s : bytes), eth_ok eth /\ Forall v4_arg_ok vs /\ outer_ok outer /\ len s <= ISIZE_MAX /\ len s < v4_room eth) /\
  (exists (E : env) (eth : option (list ether_op)) (vs : list v4_setter) (outer : option (option (list ether_op) * list v4_setter)) (s : bytes), eth_ok eth /\ Forall v4_arg_ok vs /\ outer_ok outer /\ len s <= ISIZE_MAX /\ len s < v4_room eth + 8) /\
  (exists (E : env) (eth : option (list ether_op)) (vs : list v4_setter) (outer : option (option (list ether_op) * list v4_setter)) (s : bytes), eth_ok eth /\ Forall v4_arg_ok vs /\ outer_ok outer /\ len s <= ISIZE_MAX /\ len s < v4_room eth + 20) /\
  (exists (E : env) (eth : option (list ether_op)) (vs : list v4_setter) (outer : option (option (list ether_op) * list v4_setter)) (s : bytes), eth_ok eth /\ Forall v4_arg_ok vs /\ outer_ok outer /\ len s <= ISIZE_MAX /\ len s < outer_room outer + 8) /\
  (exists (E : env) (eth : option (list ether_op)) (vs : list v4_setter) (outer : option (option (list ether_op) * list v4_setter)) (s : bytes), eth_ok eth /\ Forall v4_arg_ok vs /\ outer_ok outer /\ len s <= ISIZE_MAX /\ len s < outer_room outer + 20).
Proof. exact WitnessProofs.c41_small_meets. Qed.
Theorem C41_ether_payload : forall E eops p s,
  Forall ether_op_ok eops -> ether_payloads eops = [] -> is_bytes p -> p <> [] -> len s <= ISIZE_MAX ->
  ether_chain E (eops ++ [EtherPayload p]) (slice_new s) =
  if len s <? 15 then Err SmallBuffer
  else if len s <? 27 + 2 * len p then Panic
  else Ok (ether_wire (ether_after eops) ++ takeN (len p) (scatter (dropN 14 s) 14 p)).
Proof. exact SliceBuildProofs.c41_ether_payload. Qed.
Print Assumptions C41_ether_payload.
(** C41: the hypotheses of C41_ether_payload can be met. *)
Example C41_ether_payload_meets :
  exists (E : env) (eops : list ether_op) (p : bytes) (s : bytes), Forall ether_op_ok eops /\ ether_payloads eops = [] /\ is_bytes p /\ p <> [] /\ len s <= ISIZE_MAX.
Proof. exact WitnessProofs.c41_ether_payload_meets. Qed.
Theorem C41_udp_payload : forall E eth vs us p s,
  eth_ok eth -> Forall v4_arg_ok vs -> Forall udp_op_ok us -> udp_payloads us = [] ->
  is_bytes p -> p <> [] -> is_bytes s -> len s <= ISIZE_MAX ->
  let room := v4_room eth + 8 in
  udp_chain E eth vs (us ++ [UdpPayload p]) (slice_new s) =
  if len s <? room + 1 then Err SmallBuffer
  else if len s <? room + 7 + 2 * len p then Panic
  else udp_chain E eth vs (us ++ [UdpPayload (takeN (len p) (scatter (dropN room s) 8 p))]) dynamic_new.
Proof. exact SliceBuildProofs.c41_udp_payload. Qed.
Print Assumptions C41_udp_payload.
(** C41: the hypotheses of C41_udp_payload can be met. *)
Example C41_udp_payload_meets :
  exists (E : env) (eth : option (list ether_op)) (vs : list v4_setter) (us : list udp_op) (p : bytes) (s : bytes), eth_ok eth /\ Forall v4_arg_ok vs /\ Forall udp_op_ok us /\ udp_payloads us = [] /\ is_bytes p /\ p <> [] /\ is_bytes s /\ len s <= ISIZE_MAX.
Proof. exact WitnessProofs.c41_udp_payload_meets. Qed.
Theorem C41_tcp_payload : forall E eth vs us p s,
  eth_ok eth -> Forall v4_arg_ok vs -> Forall tcp_op_ok us -> flags_last (tcp_setters us) -> tcp_payloads us = [] ->
  is_bytes p -> p <> [] -> is_bytes s -> len s <= ISIZE_MAX ->
  let room := v4_room eth + 20 in
  tcp_chain E eth vs (us ++ [TcpPayload p]) (slice_new s) =
  if len s <? room + 1 then Err SmallBuffer
  else if len s <? room + 19 + 2 * len p then Panic
  else tcp_chain E eth vs (us ++ [TcpPayload (takeN (len p) (scatter (dropN room s) 20 p))]) dynamic_new.
Proof. exact SliceBuildProofs.c41_tcp_payload. Qed.
Print Assumptions C41_tcp_payload.
(** C41: the hypotheses of C41_tcp_payload can be met. *)
Example C41_tcp_payload_meets :
  exists (E : env) (eth : option (list ether_op)) (vs : list v4_setter) (us : list tcp_op) (p : bytes) (s : bytes), eth_ok eth /\ Forall v4_arg_ok vs /\ Forall tcp_op_ok us /\ flags_last (tcp_setters us) /\ tcp_payloads us = [] /\ is_bytes p /\ p <> [] /\ is_bytes s /\ len s <= ISIZE_MAX.
Proof. exact WitnessProofs.c41_tcp_payload_meets. Qed.
(** C41: an echo message with a payload cannot be built on a slice at all. *)
Theorem C41_echo_payload : forall E outer ops p s,
  outer_ok outer -> Forall echo_op_ok ops -> echo_payloads ops = [] -> echo_kind_given ops ->
  is_bytes p -> p <> [] -> len s <= ISIZE_MAX ->
  echo_chain E outer (ops ++ [EchoPayload p]) (slice_new s) =
  if len s <? outer_room outer + 9 then Err SmallBuffer else Panic.
Proof. exact SliceBuildProofs.c41_echo_payload. Qed.
Print Assumptions C41_echo_payload.
(** C41: the hypotheses of C41_echo_payload can be met. *)
Example C41_echo_payload_meets :
  exists (E : env) (outer : option (option (list ether_op) * list v4_setter)) (ops : list echo_op) (p : bytes) (s : bytes), outer_ok outer /\ Forall echo_op_ok ops /\ echo_payloads ops = [] /\ echo_kind_given ops /\ is_bytes p /\ p <> [] /\ len s <= ISIZE_MAX.
Proof. exact WitnessProofs.c41_echo_payload_meets. Qed.
(** C41: nor can an IPv4 packet with its own payload. *)
Theorem C41_v4_payload : forall E eth vs p s,
  eth_ok eth -> Forall v4_arg_ok vs -> is_bytes p -> p <> [] -> len s <= ISIZE_MAX ->
  v4_chain E eth (map V4Set vs ++ [V4Payload p]) (slice_new s) =
  if len s <? v4_room eth + 1 then Err SmallBuffer else Panic.
Proof. exact SliceBuildProofs.c41_v4_payload. Qed.
Print Assumptions C41_v4_payload.
(** C41: the hypotheses of C41_v4_payload can be met. *)
Example C41_v4_payload_meets :
  exists (E : env) (eth : option (list ether_op)) (vs : list v4_setter) (p : bytes) (s : bytes), eth_ok eth /\ Forall v4_arg_ok vs /\ is_bytes p /\ p <> [] /\ len s <= ISIZE_MAX.
Proof. exact WitnessProofs.c41_v4_payload_meets. Qed.
Theorem C41_untouched : forall E s b, len s <= ISIZE_MAX -> obtained E (slice_new s) b ->
  exists inner o l used, b_buffer b = Slice inner o l used /\ used <= len s /\ len inner = len s /\
    dropN used inner = dropN used s /\ buf_into_inner (b_buffer b) = Ok (takeN used inner).
Proof. exact SliceBuildProofs.c41_untouched. Qed.
Print Assumptions C41_untouched.
(** C41: the hypotheses of C41_untouched can be met. *)
Example C41_untouched_meets :
  exists (E : env) (s : bytes) (b : builder), len s <= ISIZE_MAX /\ obtained E (slice_new s) b.
Proof. exact WitnessProofs.c41_untouched_meets. Qed.
(** C41: a UDP packet in a slice, with and without a payload. *)
Example C41_example : forall E,
  let s := repeat 170 60 in
  udp_chain E None [V4SetTtl 64] [UdpSet (UdpSetSource 7)] (slice_new s) = udp_chain E None [V4SetTtl 64] [UdpSet (UdpSetSource 7)] dynamic_new /\
  udp_chain E None [V4SetTtl 64] [UdpSet (UdpSetSource 7)] (slice_new (repeat 170 27)) = Err SmallBuffer /\
  (exists out, udp_chain E None [] [UdpPayload [1; 2; 3; 4]] (slice_new s) = Ok out /\ dropN 28 out = [170; 170; 170; 170]) /\
  udp_chain E None [] [UdpPayload [1; 2; 3; 4]] (slice_new (repeat 170 40)) = Panic /\
  ether_chain E [EtherPayload [1; 2; 3; 4]] (slice_new (repeat 170 40)) = Ok (zeros 14 ++ [170; 170; 170; 170]) /\
  echo_chain E None [EchoRequest; EchoPayload [1; 2]] (slice_new s) = Panic /\
  v4_chain E None [V4Payload [1; 2]] (slice_new s) = Panic.
Proof. exact SliceBuildProofs.c41_example. Qed.

(** ** C42 *)
(** C42: ip::Protocol. *)
Theorem C42_ip : lossless ip_protocol_from ip_protocol_into IP_Unknown ip_registry.
Proof. exact EnumProofs.c42_ip. Qed.
Print Assumptions C42_ip.
(** C42: ether::Protocol. *)
Theorem C42_ether : lossless ether_protocol_from ether_protocol_into ET_Unknown ether_registry.
Proof. exact EnumProofs.c42_ether. Qed.
Print Assumptions C42_ether.
(** C42: icmp::Kind. *)
Theorem C42_icmp_kind : lossless icmp_kind_from icmp_kind_into K_Unknown icmp_registry.
Proof. exact EnumProofs.c42_icmp_kind. Qed.
Print Assumptions C42_icmp_kind.
(** C42: icmp::code::DestinationUnreachable. *)
Theorem C42_dest_unreachable : lossless dest_unreachable_from dest_unreachable_into DU_Unknown dest_unreachable_registry.
Proof. exact EnumProofs.c42_dest_unreachable. Qed.
Print Assumptions C42_dest_unreachable.
(** C42: icmp::code::RedirectMessage. *)
Theorem C42_redirect : lossless redirect_code_from redirect_code_into RC_Unknown redirect_registry.
Proof. exact EnumProofs.c42_redirect. Qed.
Print Assumptions C42_redirect.
(** C42: icmp::code::ParameterProblem. *)
Theorem C42_param : lossless param_code_from param_code_into PC_Unknown param_registry.
Proof. exact EnumProofs.c42_param. Qed.
Print Assumptions C42_param.
(** C42: ip::v4::option::Number. *)
Theorem C42_v4opt : lossless v4opt_number_from v4opt_number_into ON_Unknown v4opt_registry.
Proof. exact EnumProofs.c42_v4opt. Qed.
Print Assumptions C42_v4opt.
(** C42: tcp::option::Number. *)
Theorem C42_tcpopt : lossless tcpopt_number_from tcpopt_number_into TN_Unknown tcpopt_registry.
Proof. exact EnumProofs.c42_tcpopt. Qed.
Print Assumptions C42_tcpopt.
Theorem C42_class : 
  (forall n, n < 4 -> exists c, v4opt_class_from n = Ok c /\ v4opt_class_into c = n) /\
  (forall n, 4 <= n -> v4opt_class_from n = Panic) /\
  v4opt_class_from 0 = Ok OC_Control /\ v4opt_class_from 2 = Ok OC_Debugging /\
  (forall c, v4opt_class_from (v4opt_class_into c) = Ok c <->
     c = OC_Control \/ c = OC_Debugging \/ c = OC_Reserved 1 \/ c = OC_Reserved 3).
Proof. exact EnumProofs.c42_class. Qed.
Print Assumptions C42_class.
(** C42: the hypotheses of C42_class can be met. *)
Example C42_class_meets :
  (exists (n : N), n < 4) /\
  (exists (n : N), 4 <= n).
Proof. exact WitnessProofs.c42_class_meets. Qed.
Example C42_example : ip_protocol_from 17 = IP_Udp /\ ip_protocol_into IP_Udp = 17 /\ ip_protocol_from 143 = IP_Unknown 143 /\
  ip_protocol_into (IP_Unknown 17) = 17 /\ ether_protocol_from 0x0800 = ET_Ipv4 /\ icmp_kind_into K_EchoRequest = 8 /\
  v4opt_class_from 3 = Ok (OC_Reserved 3) /\ v4opt_class_from (v4opt_class_into (OC_Reserved 2)) = Ok OC_Debugging.
Proof. exact EnumProofs.c42_example. Qed.

(** ** C43 *)
(** C43: IPv4 header size against header::Min and header::Max. *)
Theorem C43_v4_header_bounds : forall b, v4_no_payload b = Ok b ->
  exists h, v4_header_size b = Ok h /\ h <= v4_header_max /\ (v4_header_min <= h <-> 5 <= nthN b 0 mod 16).
Proof. exact SizeProofs.c43_v4_header_bounds. Qed.
Print Assumptions C43_v4_header_bounds.
(** C43: the hypotheses of C43_v4_header_bounds can be met. *)
Example C43_v4_header_bounds_meets :
  exists (b : bytes), v4_no_payload b = Ok b.
Proof. exact WitnessProofs.c43_v4_header_bounds_meets. Qed.
(** C43: TCP header size. *)
Theorem C43_tcp_header_bounds : forall b, is_bytes b -> tcp_new b = Ok b ->
  exists h, tcp_header_size b = Ok h /\ h <= tcp_header_max /\ (tcp_header_min <= h <-> 5 <= nthN b 12 / 16).
Proof. exact SizeProofs.c43_tcp_header_bounds. Qed.
Print Assumptions C43_tcp_header_bounds.
(** C43: the hypotheses of C43_tcp_header_bounds can be met. *)
Example C43_tcp_header_bounds_meets :
  exists (b : bytes), is_bytes b /\ tcp_new b = Ok b.
Proof. exact WitnessProofs.c43_tcp_header_bounds_meets. Qed.
(** C43: UDP payload size never exceeds payload::Max. *)
Theorem C43_udp_payload_bound : forall b, is_bytes b -> udp_no_payload b = Ok b ->
  exists n, udp_payload_size b = Ok n /\ n <= udp_payload_max.
Proof. exact SizeProofs.c43_udp_payload_bound. Qed.
Print Assumptions C43_udp_payload_bound.
(** C43: the hypotheses of C43_udp_payload_bound can be met. *)
Example C43_udp_payload_bound_meets :
  exists (b : bytes), is_bytes b /\ udp_no_payload b = Ok b.
Proof. exact WitnessProofs.c43_udp_payload_bound_meets. Qed.
(** C43: the same does not hold for IPv4, TCP, Ethernet and the two kinds of options. *)
Theorem C43_payload_max_refuted : forall E,
  (exists b n, v4_new b = Ok b /\ rust_slice b /\ v4_payload_size b = Ok n /\ v4_payload_max < n) /\
  (exists b n, tcp_new b = Ok b /\ rust_slice b /\ tcp_payload_size E b = Ok n /\ tcp_payload_max < n) /\
  (exists b n, ether_new b = Ok b /\ rust_slice b /\ ether_payload_size E b = Ok n /\ ether_payload_max < n) /\
  (exists b n, v4opt_new b = Ok b /\ rust_slice b /\ v4opt_payload_size E b = Ok n /\ v4opt_payload_max < n) /\
  (exists b n, tcpopt_new b = Ok b /\ rust_slice b /\ tcpopt_payload_size E b = Ok n /\ tcpopt_payload_max < n).
Proof. exact SizeProofs.c43_payload_max_refuted. Qed.
Print Assumptions C43_payload_max_refuted.
(** C43: the header size of every accepted packet is within header::Min and header::Max. *)
Theorem C43_headers : forall b,
  (ether_new b = Ok b -> within (b_hmin ether_bounds) (b_hmax ether_bounds) (ether_header_size b)) /\
  (v4_no_payload b = Ok b -> 5 <= nthN b 0 mod 16 -> within (b_hmin v4_bounds) (b_hmax v4_bounds) (v4_header_size b)) /\
  (v6_new b = Ok b -> within (b_hmin v6_bounds) (b_hmax v6_bounds) (v6_header_size b)) /\
  (udp_no_payload b = Ok b -> within (b_hmin udp_bounds) (b_hmax udp_bounds) (udp_header_size b)) /\
  (is_bytes b -> tcp_new b = Ok b -> 5 <= nthN b 12 / 16 -> within (b_hmin tcp_bounds) (b_hmax tcp_bounds) (tcp_header_size b)) /\
  (v4opt_new b = Ok b -> within (b_hmin v4opt_bounds) (b_hmax v4opt_bounds) (v4opt_header_size b)) /\
  (tcpopt_new b = Ok b -> within (b_hmin tcpopt_bounds) (b_hmax tcpopt_bounds) (tcpopt_header_size b)) /\
  (icmp_new b = Ok b -> within (b_hmin icmp_bounds) (b_hmax icmp_bounds) (icmp_header_size b)) /\
  (echo_new b = Ok b -> within (b_hmin echo_bounds) (b_hmax echo_bounds) (echo_header_size b)) /\
  (information_new b = Ok b -> within (b_hmin information_bounds) (b_hmax information_bounds) (information_header_size b)) /\
  (timestamp_new b = Ok b -> within (b_hmin timestamp_bounds) (b_hmax timestamp_bounds) (timestamp_header_size b)) /\
  (parameter_problem_new b = Ok b -> within (b_hmin embedded_bounds) (b_hmax embedded_bounds) (parameter_problem_header_size b)) /\
  (redirect_message_new b = Ok b -> within (b_hmin embedded_bounds) (b_hmax embedded_bounds) (redirect_message_header_size b)) /\
  (previous_new b = Ok b -> within (b_hmin embedded_bounds) (b_hmax embedded_bounds) (previous_header_size b)).
Proof. exact BoundProofs.c43_headers. Qed.
Print Assumptions C43_headers.
(** C43: the hypotheses of C43_headers can be met. *)
Example C43_headers_meets :
  (exists (b : bytes), ether_new b = Ok b) /\
  (exists (b : bytes), v4_no_payload b = Ok b /\ 5 <= nthN b 0 mod 16) /\
  (exists (b : bytes), v6_new b = Ok b) /\
  (exists (b : bytes), udp_no_payload b = Ok b) /\
  (exists (b : bytes), is_bytes b /\ tcp_new b = Ok b /\ 5 <= nthN b 12 / 16) /\
  (exists (b : bytes), v4opt_new b = Ok b) /\
  (exists (b : bytes), tcpopt_new b = Ok b) /\
  (exists (b : bytes), icmp_new b = Ok b) /\
  (exists (b : bytes), echo_new b = Ok b) /\
  (exists (b : bytes), information_new b = Ok b) /\
  (exists (b : bytes), timestamp_new b = Ok b) /\
  (exists (b : bytes), parameter_problem_new b = Ok b) /\
  (exists (b : bytes), redirect_message_new b = Ok b) /\
  (exists (b : bytes), previous_new b = Ok b).
Proof. exact WitnessProofs.c43_headers_meets. Qed.
(** C43: so is the payload size where the bound is not refuted below. *)
Theorem C43_payloads : forall E b, rust_slice b ->
  (udp_no_payload b = Ok b -> within udp_payload_min udp_payload_max (udp_payload_size b)) /\
  (v6_new b = Ok b -> within 0 0 (v6_payload_size b)) /\
  (information_new b = Ok b -> within 0 0 (information_payload_size b)) /\
  (timestamp_new b = Ok b -> within 0 0 (timestamp_payload_size b)) /\
  (parameter_problem_new b = Ok b \/ redirect_message_new b = Ok b \/ previous_new b = Ok b ->
     forall p, embedded_packet b = Ok p -> 5 <= nthN p 0 mod 16 ->
     within (b_pmin embedded_bounds) v4_header_max (embedded_payload_size E b)) /\
  (ether_new b = Ok b -> at_least (b_pmin ether_bounds) (ether_payload_size E b)) /\
  (v4_no_payload b = Ok b -> at_least (b_pmin v4_bounds) (v4_payload_size b)) /\
  (tcp_new b = Ok b -> at_least (b_pmin tcp_bounds) (tcp_payload_size E b)) /\
  (icmp_new b = Ok b -> at_least (b_pmin icmp_bounds) (icmp_payload_size E b)) /\
  (echo_new b = Ok b -> at_least (b_pmin echo_bounds) (echo_payload_size E b)).
Proof. exact BoundProofs.c43_payloads. Qed.
Print Assumptions C43_payloads.
(** C43: the hypotheses of C43_payloads can be met. *)
Example C43_payloads_meets :
  (exists (E : env) (b : bytes), rust_slice b /\ udp_no_payload b = Ok b) /\
  (exists (E : env) (b : bytes), rust_slice b /\ v6_new b = Ok b) /\
  (exists (E : env) (b : bytes), rust_slice b /\ information_new b = Ok b) /\
  (exists (E : env) (b : bytes), rust_slice b /\ timestamp_new b = Ok b) /\
  (exists (E : env) (b : bytes) (p : bytes), rust_slice b /\ (parameter_problem_new b = Ok b \/ redirect_message_new b = Ok b \/ previous_new b = Ok b) /\ embedded_packet b = Ok p /\ 5 <= nthN p 0 mod 16) /\
  (exists (E : env) (b : bytes), rust_slice b /\ ether_new b = Ok b) /\
  (exists (E : env) (b : bytes), rust_slice b /\ v4_no_payload b = Ok b) /\
  (exists (E : env) (b : bytes), rust_slice b /\ tcp_new b = Ok b) /\
  (exists (E : env) (b : bytes), rust_slice b /\ icmp_new b = Ok b) /\
  (exists (E : env) (b : bytes), rust_slice b /\ echo_new b = Ok b).
Proof. exact WitnessProofs.c43_payloads_meets. Qed.
(** C43: total sizes against Min::min() and Max::max(). *)
Theorem C43_totals : forall E b, rust_slice b ->
  (udp_no_payload b = Ok b -> exists m, total_max udp_bounds = Some m /\ within (total_min udp_bounds) m (udp_size b)) /\
  (v4_no_payload b = Ok b -> 5 <= nthN b 0 mod 16 -> exists m, total_max v4_bounds = Some m /\ within (total_min v4_bounds) m (v4_size b)) /\
  (v6_new b = Ok b -> exists m, total_max v6_bounds = Some m /\ within (total_min v6_bounds) m (v6_size b)) /\
  (information_new b = Ok b -> exists m, total_max information_bounds = Some m /\ within (total_min information_bounds) m (information_size E b)) /\
  (timestamp_new b = Ok b -> exists m, total_max timestamp_bounds = Some m /\ within (total_min timestamp_bounds) m (timestamp_size E b)) /\
  (parameter_problem_new b = Ok b \/ redirect_message_new b = Ok b \/ previous_new b = Ok b ->
     forall p, embedded_packet b = Ok p -> 5 <= nthN p 0 mod 16 ->
     exists m, total_max embedded_bounds = Some m /\ within (total_min embedded_bounds) m (embedded_size E b)) /\
  (ether_new b = Ok b -> at_least (total_min ether_bounds) (ether_size E b)) /\
  (tcp_new b = Ok b -> at_least (total_min tcp_bounds) (tcp_size E b)) /\
  (icmp_new b = Ok b -> at_least (total_min icmp_bounds) (icmp_size E b)) /\
  (echo_new b = Ok b -> at_least (total_min echo_bounds) (echo_size E b)).
Proof. exact BoundProofs.c43_totals. Qed.
Print Assumptions C43_totals.
(** C43: the hypotheses of C43_totals can be met. *)
Example C43_totals_meets :
  (exists (E : env) (b : bytes), rust_slice b /\ udp_no_payload b = Ok b) /\
  (exists (E : env) (b : bytes), rust_slice b /\ v4_no_payload b = Ok b /\ 5 <= nthN b 0 mod 16) /\
  (exists (E : env) (b : bytes), rust_slice b /\ v6_new b = Ok b) /\
  (exists (E : env) (b : bytes), rust_slice b /\ information_new b = Ok b) /\
  (exists (E : env) (b : bytes), rust_slice b /\ timestamp_new b = Ok b) /\
  (exists (E : env) (b : bytes) (p : bytes), rust_slice b /\ (parameter_problem_new b = Ok b \/ redirect_message_new b = Ok b \/ previous_new b = Ok b) /\ embedded_packet b = Ok p /\ 5 <= nthN p 0 mod 16) /\
  (exists (E : env) (b : bytes), rust_slice b /\ ether_new b = Ok b) /\
  (exists (E : env) (b : bytes), rust_slice b /\ tcp_new b = Ok b) /\
  (exists (E : env) (b : bytes), rust_slice b /\ icmp_new b = Ok b) /\
  (exists (E : env) (b : bytes), rust_slice b /\ echo_new b = Ok b).
Proof. exact WitnessProofs.c43_totals_meets. Qed.
Theorem C43_headers_attained :
  (forall b, ether_header_size b = Ok (b_hmin ether_bounds) /\ ether_header_size b = Ok (b_hmax ether_bounds)) /\
  (forall b, v6_header_size b = Ok (b_hmin v6_bounds) /\ v6_header_size b = Ok (b_hmax v6_bounds)) /\
  (forall b, udp_header_size b = Ok (b_hmin udp_bounds) /\ udp_header_size b = Ok (b_hmax udp_bounds)) /\
  (forall b, icmp_header_size b = Ok (b_hmin icmp_bounds) /\ icmp_header_size b = Ok (b_hmax icmp_bounds)) /\
  (forall b, echo_header_size b = Ok (b_hmin echo_bounds) /\ echo_header_size b = Ok (b_hmax echo_bounds)) /\
  (forall b, information_header_size b = Ok (b_hmin information_bounds) /\ information_header_size b = Ok (b_hmax information_bounds)) /\
  (forall b, timestamp_header_size b = Ok (b_hmin timestamp_bounds) /\ timestamp_header_size b = Ok (b_hmax timestamp_bounds)) /\
  (forall b, previous_header_size b = Ok (b_hmin embedded_bounds) /\ previous_header_size b = Ok (b_hmax embedded_bounds)) /\
  (exists b c, v4_new b = Ok b /\ v4_header_size b = Ok (b_hmin v4_bounds) /\ v4_new c = Ok c /\ v4_header_size c = Ok (b_hmax v4_bounds)) /\
  (exists b c, tcp_new b = Ok b /\ tcp_header_size b = Ok (b_hmin tcp_bounds) /\ tcp_new c = Ok c /\ tcp_header_size c = Ok (b_hmax tcp_bounds)) /\
  (exists b c, v4opt_new b = Ok b /\ v4opt_header_size b = Ok (b_hmin v4opt_bounds) /\ v4opt_new c = Ok c /\ v4opt_header_size c = Ok (b_hmax v4opt_bounds)) /\
  (exists b c, tcpopt_new b = Ok b /\ tcpopt_header_size b = Ok (b_hmin tcpopt_bounds) /\ tcpopt_new c = Ok c /\ tcpopt_header_size c = Ok (b_hmax tcpopt_bounds)) /\
  (exists m, b_pmax v6_bounds = Some m /\ forall b, v6_payload_size b = Ok m) /\
  (exists m, b_pmax information_bounds = Some m /\ forall b, information_payload_size b = Ok m) /\
  (exists m, b_pmax timestamp_bounds = Some m /\ forall b, timestamp_payload_size b = Ok m) /\
  (exists m b, b_pmax udp_bounds = Some m /\ udp_no_payload b = Ok b /\ udp_payload_size b = Ok m) /\
  (exists m b, total_max udp_bounds = Some m /\ udp_no_payload b = Ok b /\ udp_size b = Ok m) /\
  (exists m b, total_max v4_bounds = Some m /\ v4_no_payload b = Ok b /\ v4_size b = Ok m).
Proof. exact BoundProofs.c43_headers_attained. Qed.
Print Assumptions C43_headers_attained.
Theorem C43_shortest :
  (forall b, ether_new b = Ok b -> total_min ether_bounds <= len b) /\ (exists b, ether_new b = Ok b /\ len b = total_min ether_bounds) /\
  (forall b, v4_new b = Ok b -> total_min v4_bounds <= len b) /\ (exists b, v4_new b = Ok b /\ len b = total_min v4_bounds) /\
  (forall b, udp_new b = Ok b -> total_min udp_bounds <= len b) /\ (exists b, udp_new b = Ok b /\ len b = total_min udp_bounds) /\
  (forall b, tcp_new b = Ok b -> total_min tcp_bounds <= len b) /\ (exists b, tcp_new b = Ok b /\ len b = total_min tcp_bounds) /\
  (forall b, v4opt_new b = Ok b -> total_min v4opt_bounds <= len b) /\ (exists b, v4opt_new b = Ok b /\ len b = total_min v4opt_bounds) /\
  (forall b, tcpopt_new b = Ok b -> total_min tcpopt_bounds <= len b) /\ (exists b, tcpopt_new b = Ok b /\ len b = total_min tcpopt_bounds) /\
  (forall b, icmp_new b = Ok b -> total_min icmp_bounds <= len b) /\ (exists b, icmp_new b = Ok b /\ len b = total_min icmp_bounds) /\
  (forall b, echo_new b = Ok b -> total_min echo_bounds <= len b) /\ (exists b, echo_new b = Ok b /\ len b = total_min echo_bounds) /\
  (forall b, information_new b = Ok b -> total_min information_bounds <= len b) /\ (exists b, information_new b = Ok b /\ len b = total_min information_bounds) /\
  (forall b, timestamp_new b = Ok b -> total_min timestamp_bounds <= len b) /\ (exists b, timestamp_new b = Ok b /\ len b = total_min timestamp_bounds).
Proof. exact BoundProofs.c43_shortest. Qed.
Print Assumptions C43_shortest.
(** C43: the hypotheses of C43_shortest can be met. *)
Example C43_shortest_meets :
  (exists (b : bytes), ether_new b = Ok b) /\
  (exists (b : bytes), v4_new b = Ok b) /\
  (exists (b : bytes), udp_new b = Ok b) /\
  (exists (b : bytes), tcp_new b = Ok b) /\
  (exists (b : bytes), v4opt_new b = Ok b) /\
  (exists (b : bytes), tcpopt_new b = Ok b) /\
  (exists (b : bytes), icmp_new b = Ok b) /\
  (exists (b : bytes), echo_new b = Ok b) /\
  (exists (b : bytes), information_new b = Ok b) /\
  (exists (b : bytes), timestamp_new b = Ok b).
Proof. exact WitnessProofs.c43_shortest_meets. Qed.
Theorem C43_shortest_refuted :
  (forall b, v6_new b = Ok b -> 1 <= len b) /\ (exists b, v6_new b = Ok b /\ len b = 1) /\ total_min v6_bounds = 0 /\
  total_min embedded_bounds = 28 /\
  (forall b, previous_new b = Ok b -> 8 <= len b) /\ (exists b, previous_new b = Ok b /\ len b = 8) /\
  (forall b, redirect_message_new b = Ok b -> 8 <= len b) /\ (exists b, redirect_message_new b = Ok b /\ len b = 8) /\
  (forall b, parameter_problem_new b = Ok b -> 8 <= len b) /\ (exists b, parameter_problem_new b = Ok b /\ len b = 8).
Proof. exact BoundProofs.c43_shortest_refuted. Qed.
Print Assumptions C43_shortest_refuted.
(** C43: the hypotheses of C43_shortest_refuted can be met. *)
Example C43_shortest_refuted_meets :
  (exists (b : bytes), v6_new b = Ok b) /\
  (exists (b : bytes), previous_new b = Ok b) /\
  (exists (b : bytes), redirect_message_new b = Ok b) /\
  (exists (b : bytes), parameter_problem_new b = Ok b).
Proof. exact WitnessProofs.c43_shortest_refuted_meets. Qed.
Example C43_example : forall E, let u := [0; 1; 0; 2; 0; 9; 0; 0; 7; 8] in let h := 69 :: 0 :: 0 :: 22 :: repeat 7 30%nat in
  udp_no_payload u = Ok u /\ udp_size u = Ok 9 /\ total_max udp_bounds = Some 65535 /\ total_min udp_bounds = 8 /\
  v4_no_payload h = Ok h /\ 5 <= nthN h 0 mod 16 /\ v4_size h = Ok 22 /\ total_max v4_bounds = Some 65535 /\
  echo_size E [8; 0; 0; 0; 0; 1; 0; 2; 5] = Ok 9.
Proof. exact BoundProofs.c43_example. Qed.
Theorem C43_embedded_refuted : forall E,
  (exists b, previous_new b = Ok b /\ rust_slice b /\ total_min embedded_bounds = 28 /\
     below (total_min embedded_bounds) (embedded_size E b) /\ below (b_pmin embedded_bounds) (embedded_payload_size E b)) /\
  (exists b, previous_new b = Ok b /\ rust_slice b /\ above v4_header_max (embedded_payload_size E b)).
Proof. exact BoundProofs.c43_embedded_refuted. Qed.
Print Assumptions C43_embedded_refuted.
(** C43: and Ethernet, TCP and the options exceed Max::max(). *)
Theorem C43_total_max_refuted : forall E,
  total_max ether_bounds = Some 1500 /\ total_max tcp_bounds = Some 65535 /\ total_max tcpopt_bounds = Some 34 /\ total_max v4opt_bounds = Some 34 /\
  (exists b, ether_new b = Ok b /\ rust_slice b /\ above 1500 (ether_size E b)) /\
  (exists b, tcp_new b = Ok b /\ rust_slice b /\ 5 <= nthN b 12 / 16 /\ above 65535 (tcp_size E b)) /\
  (exists b, tcpopt_new b = Ok b /\ rust_slice b /\ above 34 (tcpopt_size E b)) /\
  (exists b, v4opt_new b = Ok b /\ rust_slice b /\ above 34 (v4opt_size E b)).
Proof. exact BoundProofs.c43_total_max_refuted. Qed.
Print Assumptions C43_total_max_refuted.

(** ** C44 *)
Theorem C44_v4 : forall b, v4_new b = Ok b ->
  let n := N.max (nthN b 0 mod 16 * 4) (wire16 b 2) in
  let c := takeN n b in
  v4_as_ref b = Ok c /\
  (n < 20 -> v4_new c = Err SmallBuffer) /\
  (20 <= n ->
     v4_new c = Ok c /\ v4_as_ref c = Ok c /\
     v4_header c = v4_header b /\ v4_payload c = v4_payload b /\ v4_size c = v4_size b /\
     v4_version c = v4_version b /\ v4_ihl c = v4_ihl b /\ v4_dscp c = v4_dscp b /\ v4_ecn c = v4_ecn b /\
     v4_length c = v4_length b /\ v4_id c = v4_id b /\ v4_flags c = v4_flags b /\
     v4_offset c = v4_offset b /\ v4_ttl c = v4_ttl b /\ v4_protocol c = v4_protocol b /\
     v4_checksum c = v4_checksum b /\ v4_source c = v4_source b /\ v4_destination c = v4_destination b /\
     v4_options c = v4_options b /\ forall E, v4_is_valid E c = v4_is_valid E b).
Proof. exact SizeProofs.c44_v4. Qed.
Print Assumptions C44_v4.
(** C44: the hypotheses of C44_v4 can be met. *)
Example C44_v4_meets :
  (exists (b : bytes), v4_new b = Ok b /\ let n := N.max (nthN b 0 mod 16 * 4) (wire16 b 2) in n < 20) /\
  (exists (b : bytes), v4_new b = Ok b /\ let n := N.max (nthN b 0 mod 16 * 4) (wire16 b 2) in 20 <= n).
Proof. exact WitnessProofs.c44_v4_meets. Qed.
Theorem C44_v4_as_ref_refused_refuted : exists b, v4_new b = Ok b /\ is_bytes b /\
  exists c, v4_as_ref b = Ok c /\ v4_new c = Err SmallBuffer.
Proof. exact SizeProofs.c44_v4_as_ref_refused_refuted. Qed.
Print Assumptions C44_v4_as_ref_refused_refuted.
(** C44: UDP. *)
Theorem C44_udp : forall b, udp_new b = Ok b ->
  exists c, udp_as_ref b = Ok c /\ udp_new c = Ok c /\ udp_as_ref c = Ok c /\
  udp_header c = udp_header b /\ udp_payload c = udp_payload b /\ udp_size c = udp_size b /\
  udp_source c = udp_source b /\ udp_destination c = udp_destination b /\
  udp_length c = udp_length b /\ udp_checksum c = udp_checksum b.
Proof. exact SizeProofs.c44_udp. Qed.
Print Assumptions C44_udp.
(** C44: the hypotheses of C44_udp can be met. *)
Example C44_udp_meets :
  exists (b : bytes), udp_new b = Ok b.
Proof. exact WitnessProofs.c44_udp_meets. Qed.
(** C44: Ethernet, TCP, ICMP and echo: as_ref is the whole buffer. *)
Theorem C44_whole_buffer : forall E b, rust_slice b ->
  (ether_new b = Ok b -> ether_as_ref E b = Ok b) /\
  (tcp_new b = Ok b -> tcp_as_ref E b = Ok b) /\
  (icmp_new b = Ok b -> icmp_as_ref E b = Ok b) /\
  (echo_new b = Ok b -> echo_as_ref E b = Ok b).
Proof. exact SizeProofs.c44_whole_buffer. Qed.
Print Assumptions C44_whole_buffer.
(** C44: the hypotheses of C44_whole_buffer can be met. *)
Example C44_whole_buffer_meets :
  (exists (E : env) (b : bytes), rust_slice b /\ ether_new b = Ok b) /\
  (exists (E : env) (b : bytes), rust_slice b /\ tcp_new b = Ok b) /\
  (exists (E : env) (b : bytes), rust_slice b /\ icmp_new b = Ok b) /\
  (exists (E : env) (b : bytes), rust_slice b /\ echo_new b = Ok b).
Proof. exact WitnessProofs.c44_whole_buffer_meets. Qed.
Theorem C44_information : forall E b, information_new b = Ok b ->
  exists c, information_as_ref E b = Ok c /\ c = takeN 8 b /\ information_new c = Ok c /\ information_as_ref E c = Ok c /\
  information_header c = information_header b /\ information_payload c = Ok [] /\ information_size E c = information_size E b /\
  information_is_request c = information_is_request b /\ information_is_reply c = information_is_reply b /\
  information_identifier c = information_identifier b /\ information_sequence c = information_sequence b.
Proof. exact SizeProofs.c44_information. Qed.
Print Assumptions C44_information.
(** C44: the hypotheses of C44_information can be met. *)
Example C44_information_meets :
  exists (b : bytes), information_new b = Ok b.
Proof. exact WitnessProofs.c44_information_meets. Qed.
Theorem C44_timestamp : forall E b, timestamp_new b = Ok b ->
  exists c, timestamp_as_ref E b = Ok c /\ c = takeN 20 b /\ timestamp_new c = Ok c /\ timestamp_as_ref E c = Ok c /\
  timestamp_header c = timestamp_header b /\ timestamp_payload c = Ok (takeN 12 (dropN 8 b)) /\ timestamp_size E c = timestamp_size E b /\
  timestamp_is_request c = timestamp_is_request b /\ timestamp_is_reply c = timestamp_is_reply b /\
  timestamp_identifier c = timestamp_identifier b /\ timestamp_sequence c = timestamp_sequence b /\
  timestamp_originate c = timestamp_originate b /\ timestamp_receive c = timestamp_receive b /\ timestamp_transmit c = timestamp_transmit b.
Proof. exact SizeProofs.c44_timestamp. Qed.
Print Assumptions C44_timestamp.
(** C44: the hypotheses of C44_timestamp can be met. *)
Example C44_timestamp_meets :
  exists (b : bytes), timestamp_new b = Ok b.
Proof. exact WitnessProofs.c44_timestamp_meets. Qed.
(** C44: to_owned copies the whole buffer, so every accessor agrees. *)
Theorem C44_to_owned : forall b,
  ether_to_owned b = b /\ v4_to_owned b = b /\ v6_to_owned b = b /\ udp_to_owned b = b /\ tcp_to_owned b = b /\
  icmp_to_owned b = b /\ echo_to_owned b = b /\ information_to_owned b = b /\ timestamp_to_owned b = b /\
  parameter_problem_to_owned b = b /\ redirect_message_to_owned b = b /\ previous_to_owned b = b /\
  ip_to_owned (V4 b) = V4 b /\ ip_to_owned (V6 b) = V6 b.
Proof. exact SizeProofs.c44_to_owned. Qed.
Print Assumptions C44_to_owned.
Example C44_example : let b := 69 :: 0 :: 0 :: 22 :: repeat 7 30%nat in
  v4_new b = Ok b /\ v4_as_ref b = Ok (takeN 22 b) /\ v4_payload (takeN 22 b) = Ok [7; 7].
Proof. exact SizeProofs.c44_example. Qed.

(** ** C45 *)
Theorem C45_embedded : forall E b, rust_slice b ->
  (parameter_problem_new b = Ok b \/ redirect_message_new b = Ok b \/ previous_new b = Ok b) ->
  embedded_packet b = v4_new (dropN 8 b) /\ embedded_packet b <> Panic /\
  (forall p, embedded_packet b = Ok p ->
     embedded_size E b = Ok (8 + nthN p 0 mod 16 * 4) /\
     embedded_as_ref E b = Ok (takeN (8 + nthN p 0 mod 16 * 4) b)) /\
  (forall e, embedded_packet b = Err e ->
     embedded_size E b = Ok (len b) /\ embedded_as_ref E b = Ok b).
Proof. exact SliceProofs.c45_embedded. Qed.
Print Assumptions C45_embedded.
(** C45: the hypotheses of C45_embedded can be met. *)
Example C45_embedded_meets :
  (exists (E : env) (b : bytes) (p : bytes), rust_slice b /\ ((parameter_problem_new b = Ok b \/ redirect_message_new b = Ok b \/ previous_new b = Ok b)) /\ embedded_packet b = Ok p) /\
  (exists (E : env) (b : bytes) (e : error), rust_slice b /\ ((parameter_problem_new b = Ok b \/ redirect_message_new b = Ok b \/ previous_new b = Ok b)) /\ embedded_packet b = Err e).
Proof. exact WitnessProofs.c45_embedded_meets. Qed.
(** C45: so an embedded datagram cut short, as RFC 792 messages carry, is rejected. *)
Theorem C45_truncated_embedded : forall b,
  8 <= len b -> 20 <= len (dropN 8 b) -> nthN b 8 / 16 = 4 -> len b - 8 < wire16 b 10 ->
  embedded_packet b = Err SmallBuffer.
Proof. exact SliceProofs.c45_truncated_embedded. Qed.
Print Assumptions C45_truncated_embedded.
(** C45: the hypotheses of C45_truncated_embedded can be met. *)
Example C45_truncated_embedded_meets :
  exists (b : bytes), 8 <= len b /\ 20 <= len (dropN 8 b) /\ nthN b 8 / 16 = 4 /\ len b - 8 < wire16 b 10.
Proof. exact WitnessProofs.c45_truncated_embedded_meets. Qed.
(** C45: gateway and pointer. *)
Theorem C45_gateway_pointer : forall b,
  (redirect_message_new b = Ok b -> redirect_message_gateway b = Ok (wire_addr b 4)) /\
  (parameter_problem_new b = Ok b -> parameter_problem_pointer b = Ok (nthN b 4)).
Proof. exact SliceProofs.c45_gateway_pointer. Qed.
Print Assumptions C45_gateway_pointer.
(** C45: the hypotheses of C45_gateway_pointer can be met. *)
Example C45_gateway_pointer_meets :
  (exists (b : bytes), redirect_message_new b = Ok b) /\
  (exists (b : bytes), parameter_problem_new b = Ok b).
Proof. exact WitnessProofs.c45_gateway_pointer_meets. Qed.
Example C45_example : let b := [5; 1; 0; 0; 10; 0; 0; 1] ++ (69 :: 0 :: 0 :: 20 :: repeat 1 20%nat) in
  redirect_message_new b = Ok b /\ redirect_message_gateway b = Ok (Ip4 10 0 0 1) /\
  embedded_packet b = Ok (69 :: 0 :: 0 :: 20 :: repeat 1 20%nat) /\
  forall E, embedded_size E b = Ok 28.
Proof. exact SliceProofs.c45_example. Qed.

(** ** C46 *)
(** C46: the bytes built. *)
Theorem C46_ether_bytes : forall E eops p,
  Forall ether_op_ok eops -> one_payload (ether_payloads eops) p -> 14 + len p <= ISIZE_MAX ->
  ether_chain E eops dynamic_new = Ok (ether_wire (ether_after eops) ++ p).
Proof. exact PayloadProofs.c46_ether_bytes. Qed.
Print Assumptions C46_ether_bytes.
(** C46: the hypotheses of C46_ether_bytes can be met. *)
Example C46_ether_bytes_meets :
  exists (E : env) (eops : list ether_op) (p : bytes), Forall ether_op_ok eops /\ one_payload (ether_payloads eops) p /\ 14 + len p <= ISIZE_MAX.
Proof. exact WitnessProofs.c46_ether_bytes_meets. Qed.
(** C46: and what they read back as. *)
Theorem C46_ether_reparse : forall E eops p,
  Forall ether_op_ok eops -> one_payload (ether_payloads eops) p -> 14 + len p <= ISIZE_MAX ->
  exists frame, ether_chain E eops dynamic_new = Ok frame /\ ether_reads eops (ether_protocol_from (ether_protocol_into (last_set sel_eth_type eops (ether_protocol_from 0)))) p frame.
Proof. exact PayloadProofs.c46_ether_reparse. Qed.
Print Assumptions C46_ether_reparse.
(** C46: the hypotheses of C46_ether_reparse can be met. *)
Example C46_ether_reparse_meets :
  exists (E : env) (eops : list ether_op) (p : bytes), Forall ether_op_ok eops /\ one_payload (ether_payloads eops) p /\ 14 + len p <= ISIZE_MAX.
Proof. exact WitnessProofs.c46_ether_reparse_meets. Qed.
Example C46_example : forall E,
  let eops := [EtherDestination (Hw 1 2 3 4 5 6); EtherPayload [9; 8; 7]; EtherProtocol ET_Arp; EtherDestination (Hw 6 5 4 3 2 1)] in
  Forall ether_op_ok eops /\ one_payload (ether_payloads eops) [9; 8; 7] /\
  ether_chain E eops dynamic_new = Ok [6; 5; 4; 3; 2; 1; 0; 0; 0; 0; 0; 0; 8; 6; 9; 8; 7].
Proof. exact PayloadProofs.c46_example. Qed.

(** ** C47 *)
(** C47: an Ethernet frame: the labels "destination" and "source" are swapped. *)
Theorem C47_ether : forall f payload, ether_fields_ok f ->
  ether_debug (ether_wire f ++ payload) =
  Ok (ShStruct "ether::Packet"
        [("destination", ShMac (ef_src f)); ("source", ShMac (ef_dst f));
         ("protocol", ShEtherType (ether_protocol_from (ef_type f))); ("payload", ShBytes payload)])%string.
Proof. exact DebugProofs.c47_ether. Qed.
Print Assumptions C47_ether.
(** C47: the hypotheses of C47_ether can be met. *)
Example C47_ether_meets :
  exists (f : ether_fields), ether_fields_ok f.
Proof. exact WitnessProofs.c47_ether_meets. Qed.
(** C47: so the value labelled "destination" is not the destination. *)
Theorem C47_ether_destination_refuted :
  ~ (forall b name fs, ether_new b = Ok b -> ether_debug b = Ok (ShStruct name fs) ->
       exists d, ether_destination b = Ok d /\ In ("destination"%string, ShMac d) fs).
Proof. exact DebugProofs.c47_ether_destination_refuted. Qed.
Print Assumptions C47_ether_destination_refuted.
(** C47: a UDP datagram: the length is shown under a first label "checksum". *)
Theorem C47_udp : forall f payload trailer, udp_fields_ok f -> uf_length f = 8 + len payload ->
  udp_debug (udp_wire f ++ payload ++ trailer) =
  Ok (ShStruct "udp::Packet"
        [("source", ShNum (uf_src f)); ("destination", ShNum (uf_dst f));
         ("checksum", ShNum (uf_length f)); ("checksum", ShNum (uf_checksum f));
         ("payload", ShBytes payload)])%string.
Proof. exact DebugProofs.c47_udp. Qed.
Print Assumptions C47_udp.
(** C47: the hypotheses of C47_udp can be met. *)
Example C47_udp_meets :
  exists (f : udp_fields) (payload : bytes), udp_fields_ok f /\ uf_length f = 8 + len payload.
Proof. exact WitnessProofs.c47_udp_meets. Qed.
Theorem C47_udp_labels_refuted :
  ~ (forall b name fs, udp_new b = Ok b -> udp_debug b = Ok (ShStruct name fs) ->
       forall v, In ("checksum"%string, ShNum v) fs -> udp_checksum b = Ok v) /\
  (forall b name fs v, udp_debug b = Ok (ShStruct name fs) -> ~ In ("length"%string, v) fs).
Proof. exact DebugProofs.c47_udp_labels_refuted. Qed.
Print Assumptions C47_udp_labels_refuted.
(** C47: the hypotheses of C47_udp_labels_refuted can be met. *)
Example C47_udp_labels_refuted_meets :
  exists (b : bytes) (name : string) (fs : list (string * shown)), udp_debug b = Ok (ShStruct name fs).
Proof. exact WitnessProofs.c47_udp_labels_refuted_meets. Qed.
(** C47: a TCP segment. *)
Theorem C47_tcp : forall f opts payload, tcp_fields_ok f -> tf_offset f * 4 = 20 + len opts ->
  tcp_debug (tcp_wire f ++ opts ++ payload) =
  Ok (ShStruct "tcp::Packet"
        [("source", ShNum (tf_src f)); ("destination", ShNum (tf_dst f));
         ("sequence", ShNum (tf_seq f)); ("acknowledgment", ShNum (tf_ack f));
         ("offset", ShNum (tf_offset f)); ("flags", ShTcpFlags (tf_flags f));
         ("window", ShNum (tf_window f)); ("checksum", ShNum (tf_checksum f));
         ("pointer", ShNum (tf_pointer f)); ("payload", ShBytes payload)])%string.
Proof. exact DebugProofs.c47_tcp. Qed.
Print Assumptions C47_tcp.
(** C47: the hypotheses of C47_tcp can be met. *)
Example C47_tcp_meets :
  exists (f : tcp_fields) (opts : bytes), tcp_fields_ok f /\ tf_offset f * 4 = 20 + len opts.
Proof. exact WitnessProofs.c47_tcp_meets. Qed.
Theorem C47_tcp_total : forall (E : env) b, rust_slice b -> tcp_new b = Ok b ->
  tcp_debug b = Ok (ShStruct "tcp::Packet"
    [("source", ShNum (wire16 b 0)); ("destination", ShNum (wire16 b 2));
     ("sequence", ShNum (wire32 b 4)); ("acknowledgment", ShNum (wire32 b 8));
     ("offset", ShNum (nthN b 12 / 16)%N); ("flags", ShTcpFlags (wire16 b 12 mod 512)%N);
     ("window", ShNum (wire16 b 14)); ("checksum", ShNum (wire16 b 16)); ("pointer", ShNum (wire16 b 18));
     ("payload", ShBytes (dropN (nthN b 12 / 16 * 4) b))])%string.
Proof. exact DebugProofs.c47_tcp_total. Qed.
Print Assumptions C47_tcp_total.
(** C47: the hypotheses of C47_tcp_total can be met. *)
Example C47_tcp_total_meets :
  exists (E : env) (b : bytes), rust_slice b /\ tcp_new b = Ok b.
Proof. exact WitnessProofs.c47_tcp_total_meets. Qed.
(** C47: no accepted UDP datagram does, whatever its length field. *)
Theorem C47_udp_total : forall b, udp_new b = Ok b ->
  udp_debug b = Ok (ShStruct "udp::Packet"
    [("source", ShNum (wire16 b 0)); ("destination", ShNum (wire16 b 2));
     ("checksum", ShNum (wire16 b 4)); ("checksum", ShNum (wire16 b 6));
     ("payload", ShBytes (dropN 8 (takeN (N.max 8 (wire16 b 4)) b)))])%string.
Proof. exact DebugProofs.c47_udp_total. Qed.
Print Assumptions C47_udp_total.
(** C47: the hypotheses of C47_udp_total can be met. *)
Example C47_udp_total_meets :
  exists (b : bytes), udp_new b = Ok b.
Proof. exact WitnessProofs.c47_udp_total_meets. Qed.
Theorem C47_v4 : forall E f opts payload trailer, v4_fields_ok f -> vf_version f = 4 ->
  vf_ihl f * 4 = 20 + len opts -> vf_total f = 20 + len opts + len payload ->
  is_bytes (opts ++ payload ++ trailer) ->
  let b := v4_wire f ++ opts ++ payload ++ trailer in
  exists valid, v4_is_valid E b = Ok valid /\
  v4_debug E b =
  if vf_mf f then Panic else
  Ok (ShStruct (if valid then "ip::v4::Packet" else "ip::v4::Packet!")
        [("version", ShNum 4); ("header", ShNum (vf_ihl f)); ("dscp", ShNum (vf_dscp f));
         ("ecn", ShNum (vf_ecn f)); ("length", ShNum (vf_total f)); ("id", ShNum (vf_id f));
         ("flags", ShIpFlags (bit (vf_reserved f) * IP_MORE_FRAGMENTS + bit (vf_df f) * IP_DONT_FRAGMENT));
         ("offset", ShNum (vf_frag f)); ("ttl", ShNum (vf_ttl f));
         ("protocol", ShProtocol (ip_protocol_from (vf_proto f)));
         ("checksum", ShNum (vf_checksum f));
         ("source", ShAddr (vf_src f)); ("destination", ShAddr (vf_dst f));
         ("payload", ShBytes payload)])%string.
Proof. exact DebugProofs.c47_v4. Qed.
Print Assumptions C47_v4.
(** C47: the hypotheses of C47_v4 can be met. *)
Example C47_v4_meets :
  exists (f : v4_fields) (opts : bytes) (payload : bytes) (trailer : list N), v4_fields_ok f /\ vf_version f = 4 /\ vf_ihl f * 4 = 20 + len opts /\ vf_total f = 20 + len opts + len payload /\ is_bytes (opts ++ payload ++ trailer).
Proof. exact WitnessProofs.c47_v4_meets. Qed.
Theorem C47_v4_panics_iff : forall E b, is_bytes b -> v4_new b = Ok b ->
  (v4_debug E b = Panic <-> nthN b 6 / 32 mod 2 = 1) /\
  (forall e, v4_debug E b <> Err e) /\
  (forall s, v4_debug E b = Ok s -> exists valid, v4_is_valid E b = Ok valid /\
     s = ShStruct (if valid then "ip::v4::Packet" else "ip::v4::Packet!")
       [("version", ShNum 4); ("header", ShNum (nthN b 0 mod 16)%N); ("dscp", ShNum (nthN b 1 / 4)%N);
        ("ecn", ShNum (nthN b 1 mod 4)%N); ("length", ShNum (wire16 b 2)); ("id", ShNum (wire16 b 4));
        ("flags", ShIpFlags (wire16 b 6 / 8192)%N); ("offset", ShNum (wire16 b 6 mod 8192)%N); ("ttl", ShNum (nthN b 8));
        ("protocol", ShProtocol (ip_protocol_from (nthN b 9))); ("checksum", ShNum (wire16 b 10));
        ("source", ShAddr (wire_addr b 12)); ("destination", ShAddr (wire_addr b 16));
        ("payload", ShBytes (dropN (nthN b 0 mod 16 * 4) (takeN (N.max (nthN b 0 mod 16 * 4) (wire16 b 2)) b)))]%string).
Proof. exact DebugProofs.c47_v4_panics_iff. Qed.
Print Assumptions C47_v4_panics_iff.
(** C47: the hypotheses of C47_v4_panics_iff can be met. *)
Example C47_v4_panics_iff_meets :
  exists (E : env) (b : bytes) (s : shown), is_bytes b /\ v4_new b = Ok b /\ v4_debug E b = Ok s.
Proof. exact WitnessProofs.c47_v4_panics_iff_meets. Qed.
(** C47: an ICMP packet: the name carries "!" exactly when is_valid() is false. *)
Theorem C47_icmp : forall E f rest, icmp_fields_ok f -> is_bytes rest ->
  let b := icmp_wire f ++ rest in
  exists valid, icmp_is_valid E b = Ok valid /\
  icmp_debug E b =
  Ok (ShStruct (if valid then "icmp::Packet" else "icmp::Packet!")
        [("kind", ShKind (icmp_kind_from (cf_type f))); ("code", ShNum (cf_code f));
         ("checksum", ShNum (cf_checksum f)); ("payload", ShBytes rest)])%string.
Proof. exact DebugProofs.c47_icmp. Qed.
Print Assumptions C47_icmp.
(** C47: the hypotheses of C47_icmp can be met. *)
Example C47_icmp_meets :
  exists (f : icmp_fields) (rest : bytes), icmp_fields_ok f /\ is_bytes rest.
Proof. exact WitnessProofs.c47_icmp_meets. Qed.
(** C47: echo. *)
Theorem C47_echo : forall f ident seq payload, icmp_fields_ok f -> cf_type f = 8 \/ cf_type f = 0 ->
  echo_debug (ident_wire f ident seq ++ payload) =
  Ok (ShStruct "icmp::echo::Packet"
        [("request", ShBool (cf_type f =? 8)%N); ("identifier", ShNum ident);
         ("sequence", ShNum seq); ("payload", ShBytes payload)])%string.
Proof. exact DebugProofs.c47_echo. Qed.
Print Assumptions C47_echo.
(** C47: the hypotheses of C47_echo can be met. *)
Example C47_echo_meets :
  exists (f : icmp_fields), icmp_fields_ok f /\ (cf_type f = 8 \/ cf_type f = 0).
Proof. exact WitnessProofs.c47_echo_meets. Qed.
(** C47: information. *)
Theorem C47_information : forall f ident seq rest, icmp_fields_ok f -> cf_type f = 15 \/ cf_type f = 16 ->
  information_debug (ident_wire f ident seq ++ rest) =
  Ok (ShStruct "icmp::information::Packet"
        [("request", ShBool (cf_type f =? 15)%N); ("identifier", ShNum ident); ("sequence", ShNum seq)])%string.
Proof. exact DebugProofs.c47_information. Qed.
Print Assumptions C47_information.
(** C47: the hypotheses of C47_information can be met. *)
Example C47_information_meets :
  exists (f : icmp_fields), icmp_fields_ok f /\ (cf_type f = 15 \/ cf_type f = 16).
Proof. exact WitnessProofs.c47_information_meets. Qed.
Theorem C47_timestamp : forall f ident seq orig recv tran rest, icmp_fields_ok f -> cf_type f = 13 \/ cf_type f = 14 ->
  let times := enc32 orig ++ enc32 recv ++ enc32 tran ++ rest in
  timestamp_debug (timestamp_wire f ident seq orig recv tran ++ rest) =
  Ok (ShStruct "icmp::timestamp::Packet"
        [("request", ShBool (cf_type f =? 13)%N); ("identifier", ShNum ident); ("sequence", ShNum seq);
         ("originate", ShBytes times); ("receive", ShBytes times); ("transmit", ShBytes times)])%string.
Proof. exact DebugProofs.c47_timestamp. Qed.
Print Assumptions C47_timestamp.
(** C47: the hypotheses of C47_timestamp can be met. *)
Example C47_timestamp_meets :
  exists (f : icmp_fields), icmp_fields_ok f /\ (cf_type f = 13 \/ cf_type f = 14).
Proof. exact WitnessProofs.c47_timestamp_meets. Qed.
Theorem C47_timestamp_refuted :
  ~ (forall b name fs, timestamp_new b = Ok b -> timestamp_debug b = Ok (ShStruct name fs) ->
       exists v, timestamp_receive b = Ok v /\ In ("receive"%string, ShNum v) fs).
Proof. exact DebugProofs.c47_timestamp_refuted. Qed.
Print Assumptions C47_timestamp_refuted.
Theorem C47_embedded : forall E b, rust_slice b ->
  let inner (label : list (string * shown)) (name : string) :=
    match v4_new (dropN 8 b) with
    | Ok p => match v4_debug E p with
              | Ok s => Ok (ShStruct name (label ++ [("packet"%string, s)]))
              | _ => Panic
              end
    | Err e => Ok (ShStruct name (label ++ [("packet"%string, ShErr e)]))
    | Panic => Panic
    end in
  (parameter_problem_new b = Ok b ->
   parameter_problem_debug E b = inner [("pointer"%string, ShNum (nthN b 4))] "icmp::parameter_problem::Packet"%string) /\
  (redirect_message_new b = Ok b ->
   redirect_message_debug E b = inner [("gateway"%string, ShAddr (wire_addr b 4))] "icmp::redirect_message::Packet"%string) /\
  (previous_new b = Ok b ->
   previous_debug E b = inner [] "icmp::previous::Packet"%string).
Proof. exact DebugProofs.c47_embedded. Qed.
Print Assumptions C47_embedded.
(** C47: the hypotheses of C47_embedded can be met. *)
Example C47_embedded_meets :
  (exists (E : env) (b : bytes), rust_slice b /\ parameter_problem_new b = Ok b) /\
  (exists (E : env) (b : bytes), rust_slice b /\ redirect_message_new b = Ok b) /\
  (exists (E : env) (b : bytes), rust_slice b /\ previous_new b = Ok b).
Proof. exact WitnessProofs.c47_embedded_meets. Qed.
(** C47: so it is not true that every accepted packet can be shown. *)
Theorem C47_debug_total_refuted :
  (exists b, is_bytes b /\ v4_new b = Ok b /\ forall E, v4_debug E b = Panic) /\
  (exists b, is_bytes b /\ previous_new b = Ok b /\ forall E, previous_debug E b = Panic) /\
  (exists b, is_bytes b /\ tcpopt_new b = Ok b /\ tcpopt_debug b = Panic) /\
  (exists b, is_bytes b /\ v4opt_new b = Ok b /\ v4opt_debug b = Panic).
Proof. exact DebugProofs.c47_debug_total_refuted. Qed.
Print Assumptions C47_debug_total_refuted.
Theorem C47_ip : forall E b p, is_bytes b -> ip_new b = Ok p ->
  (nthN b 0 / 16 = 6 -> ip_debug E p = Ok (ShVariant "V6" (ShStruct "ip::v6::Packet" []))) /\
  (nthN b 0 / 16 = 4 -> nthN b 6 / 32 mod 2 = 0 -> exists s, v4_debug E b = Ok s /\ ip_debug E p = Ok (ShVariant "V4" s)) /\
  (nthN b 0 / 16 = 4 -> nthN b 6 / 32 mod 2 = 1 -> ip_debug E p = Panic).
Proof. exact DebugProofs.c47_ip. Qed.
Print Assumptions C47_ip.
(** C47: the hypotheses of C47_ip can be met. *)
Example C47_ip_meets :
  (exists (b : bytes) (p : ip_packet), is_bytes b /\ ip_new b = Ok p /\ nthN b 0 / 16 = 6) /\
  (exists (b : bytes) (p : ip_packet), is_bytes b /\ ip_new b = Ok p /\ nthN b 0 / 16 = 4 /\ nthN b 6 / 32 mod 2 = 0) /\
  (exists (b : bytes) (p : ip_packet), is_bytes b /\ ip_new b = Ok p /\ nthN b 0 / 16 = 4 /\ nthN b 6 / 32 mod 2 = 1).
Proof. exact WitnessProofs.c47_ip_meets. Qed.
(** C47: a well-formed option at the front of the remaining area. *)
Theorem C47_tcp_option : forall k d rest, tcp_opt_ok (Opt k d) -> is_bytes (opt_wire (Opt k d) ++ rest) ->
  exists n, tcpopt_number_into n = k /\
  tcpopt_debug (opt_wire (Opt k d) ++ rest) =
  Ok (ShStruct "tcp::Option" [("number", ShTcpNumber n); ("length", ShNum (2 + len d)%N); ("payload", ShBytes d)])%string.
Proof. exact DebugProofs.c47_tcp_option. Qed.
Print Assumptions C47_tcp_option.
(** C47: the hypotheses of C47_tcp_option can be met. *)
Example C47_tcp_option_meets :
  exists (k : N) (d : bytes) (rest : list N), tcp_opt_ok (Opt k d) /\ is_bytes (opt_wire (Opt k d) ++ rest).
Proof. exact WitnessProofs.c47_tcp_option_meets. Qed.
(** C47: a one-byte No-Operation shows everything after it as its payload. *)
Theorem C47_tcp_option_nop : forall rest,
  tcpopt_debug (1 :: rest) =
  Ok (ShStruct "tcp::Option" [("number", ShTcpNumber TN_NoOperation); ("length", ShNum 1); ("payload", ShBytes rest)])%string.
Proof. exact DebugProofs.c47_tcp_option_nop. Qed.
Print Assumptions C47_tcp_option_nop.
Theorem C47_v4_option : forall k d rest, v4_opt_ok (Opt k d) -> is_bytes (opt_wire (Opt k d) ++ rest) ->
  exists n c, v4opt_number_into n = k mod 32 /\ v4opt_class_into c = k / 32 mod 4 /\
  v4opt_debug (opt_wire (Opt k d) ++ rest) =
  Ok (ShStruct "ip::v4::Option"
        [("is_copied", ShBool (128 <=? k)%N); ("class", ShClass c); ("number", ShV4Number n);
         ("length", ShNum (2 + len d)%N); ("payload", ShBytes d)])%string.
Proof. exact DebugProofs.c47_v4_option. Qed.
Print Assumptions C47_v4_option.
(** C47: the hypotheses of C47_v4_option can be met. *)
Example C47_v4_option_meets :
  exists (k : N) (d : bytes) (rest : list N), v4_opt_ok (Opt k d) /\ is_bytes (opt_wire (Opt k d) ++ rest).
Proof. exact WitnessProofs.c47_v4_option_meets. Qed.
Theorem C47_v4_option_nop : forall rest,
  v4opt_debug (1 :: rest) =
  Ok (ShStruct "ip::v4::Option"
        [("is_copied", ShBool false); ("class", ShClass OC_Control); ("number", ShV4Number ON_NoOperation);
         ("length", ShNum 1); ("payload", ShBytes rest)])%string.
Proof. exact DebugProofs.c47_v4_option_nop. Qed.
Print Assumptions C47_v4_option_nop.
(** C47: of the accepted options exactly those with a length field of zero cannot be shown. *)
Theorem C47_options_panic_iff : forall b,
  (tcpopt_new b = Ok b -> (tcpopt_debug b = Panic <-> 2 <= nthN b 0 /\ nthN b 1 = 0) /\ forall e, tcpopt_debug b <> Err e) /\
  (v4opt_new b = Ok b -> (v4opt_debug b = Panic <-> 2 <= nthN b 0 mod 32 /\ nthN b 1 = 0) /\ forall e, v4opt_debug b <> Err e).
Proof. exact DebugProofs.c47_options_panic_iff. Qed.
Print Assumptions C47_options_panic_iff.
(** C47: the hypotheses of C47_options_panic_iff can be met. *)
Example C47_options_panic_iff_meets :
  (exists (b : bytes), tcpopt_new b = Ok b) /\
  (exists (b : bytes), v4opt_new b = Ok b).
Proof. exact WitnessProofs.c47_options_panic_iff_meets. Qed.
Example C47_example :
  ether_debug [1; 1; 1; 1; 1; 1; 2; 2; 2; 2; 2; 2; 8; 0; 7] =
    Ok (ShStruct "ether::Packet"
         [("destination", ShMac (Hw 2 2 2 2 2 2)); ("source", ShMac (Hw 1 1 1 1 1 1));
          ("protocol", ShEtherType ET_Ipv4); ("payload", ShBytes [7])])%string /\
  udp_debug [0; 1; 0; 2; 0; 9; 0; 4; 5; 6] =
    Ok (ShStruct "udp::Packet"
         [("source", ShNum 1); ("destination", ShNum 2); ("checksum", ShNum 9); ("checksum", ShNum 4);
          ("payload", ShBytes [5])])%string.
Proof. exact DebugProofs.c47_example. Qed.

(** ** C48 *)
(** C48: Ethernet: the frame as it stands, payload included. *)
Theorem C48_ether : forall E eops p buf, Forall ether_op_ok eops -> one_payload (ether_payloads eops) p ->
  fresh_buffer buf 14 p ->
  let f := ether_after eops in let b := ether_wire f ++ p in
  (let* x := ether_builder E eops buf in builder_as_packet E ether_new x) = Ok b /\
  ether_destination b = Ok (ef_dst f) /\ ether_source b = Ok (ef_src f) /\
  ether_get_protocol b = Ok (ether_protocol_from (ef_type f)) /\ ether_payload b = Ok p.
Proof. exact AsPacketProofs.c48_ether. Qed.
Print Assumptions C48_ether.
(** C48: the hypotheses of C48_ether can be met. *)
Example C48_ether_meets :
  exists (E : env) (eops : list ether_op) (p : bytes) (buf : buffer), Forall ether_op_ok eops /\ one_payload (ether_payloads eops) p /\ fresh_buffer buf 14 p.
Proof. exact WitnessProofs.c48_ether_meets. Qed.
Theorem C48_v4 : forall E eth vops p buf, eth_ok eth -> Forall v4_op_ok vops -> one_payload (v4_payloads vops) p ->
  fresh_buffer buf (eth_bytes eth + 20) p ->
  let f := v4_after (v4_setters vops) in let b := v4_wire f ++ p in
  (let* x := v4_builder E eth vops buf in builder_as_packet E v4_new x) = Ok b /\
  v4_length b = Ok 0 /\ v4_checksum b = Ok 0 /\ v4_payload b = Ok [] /\ v4_ihl b = Ok 5 /\
  v4_dscp b = Ok (vf_dscp f) /\ v4_ecn b = Ok (vf_ecn f) /\ v4_id b = Ok (vf_id f) /\ v4_ttl b = Ok (vf_ttl f) /\
  v4_protocol b = Ok (ip_protocol_from (vf_proto f)) /\ v4_source b = Ok (vf_src f) /\ v4_destination b = Ok (vf_dst f).
Proof. exact AsPacketProofs.c48_v4. Qed.
Print Assumptions C48_v4.
(** C48: the hypotheses of C48_v4 can be met. *)
Example C48_v4_meets :
  exists (E : env) (eth : option (list ether_op)) (vops : list v4_op) (p : bytes) (buf : buffer), eth_ok eth /\ Forall v4_op_ok vops /\ one_payload (v4_payloads vops) p /\ fresh_buffer buf (eth_bytes eth + 20) p.
Proof. exact WitnessProofs.c48_v4_meets. Qed.
(** C48: UDP: length and checksum still zero, payload() empty. *)
Theorem C48_udp : forall E eth vs us p buf,
  eth_ok eth -> Forall v4_arg_ok vs -> Forall udp_op_ok us -> one_payload (udp_payloads us) p ->
  fresh_buffer buf (eth_bytes eth + 28) p ->
  let f := udp_after us in let b := udp_wire f ++ p in
  (let* x := udp_builder E eth vs us buf in builder_as_packet E udp_new x) = Ok b /\
  udp_source b = Ok (uf_src f) /\ udp_destination b = Ok (uf_dst f) /\
  udp_length b = Ok 0 /\ udp_checksum b = Ok 0 /\ udp_payload b = Ok [].
Proof. exact AsPacketProofs.c48_udp. Qed.
Print Assumptions C48_udp.
(** C48: the hypotheses of C48_udp can be met. *)
Example C48_udp_meets :
  exists (E : env) (eth : option (list ether_op)) (vs : list v4_setter) (us : list udp_op) (p : bytes) (buf : buffer), eth_ok eth /\ Forall v4_arg_ok vs /\ Forall udp_op_ok us /\ one_payload (udp_payloads us) p /\ fresh_buffer buf (eth_bytes eth + 28) p.
Proof. exact WitnessProofs.c48_udp_meets. Qed.
Theorem C48_tcp : forall E eth vs ts p buf,
  eth_ok eth -> Forall v4_arg_ok vs -> Forall tcp_op_ok ts -> flags_last (tcp_setters ts) -> one_payload (tcp_payloads ts) p ->
  fresh_buffer buf (eth_bytes eth + 40) p ->
  let f := tcp_after ts in
  exists b, (let* x := tcp_builder E eth vs ts buf in builder_as_packet E tcp_new x) = Ok b /\
    b = tcp_wire (if flags_called ts then tcp_fill f 0 0 else f) ++ p /\
    tcp_source b = Ok (tf_src f) /\ tcp_destination b = Ok (tf_dst f) /\
    tcp_sequence b = Ok (tf_seq f) /\ tcp_acknowledgment b = Ok (tf_ack f) /\ tcp_flags b = Ok (tf_flags f) /\
    tcp_window b = Ok (tf_window f) /\ tcp_pointer b = Ok (tf_pointer f) /\ tcp_checksum b = Ok 0 /\
    tcp_offset b = Ok (if flags_called ts then 0 else 5) /\
    tcp_payload b = Ok (if flags_called ts then b else p).
Proof. exact AsPacketProofs.c48_tcp. Qed.
Print Assumptions C48_tcp.
(** C48: the hypotheses of C48_tcp can be met. *)
Example C48_tcp_meets :
  exists (E : env) (eth : option (list ether_op)) (vs : list v4_setter) (ts : list tcp_op) (p : bytes) (buf : buffer), eth_ok eth /\ Forall v4_arg_ok vs /\ Forall tcp_op_ok ts /\ flags_last (tcp_setters ts) /\ one_payload (tcp_payloads ts) p /\ fresh_buffer buf (eth_bytes eth + 40) p.
Proof. exact WitnessProofs.c48_tcp_meets. Qed.
Theorem C48_echo : forall E outer ops p buf, outer_ok outer -> Forall echo_op_ok ops -> one_payload (echo_payloads ops) p ->
  fresh_buffer buf (outer_bytes outer + 8) p ->
  let '(t, i, s) := echo_after ops in
  let b := ident_wire (unsummed t) i s ++ p in
  (let* x := echo_builder E outer ops buf in builder_as_packet E echo_new x) = Ok b /\
  echo_identifier b = Ok i /\ echo_sequence b = Ok s /\ echo_payload b = Ok p /\ icmp_checksum b = Ok 0 /\
  echo_is_request b = Ok (t =? 8) /\ echo_is_reply b = Ok (t =? 0) /\
  (~ echo_kind_given ops -> t = 0 /\ echo_chain E outer ops buf = Err InvalidPacket).
Proof. exact AsPacketProofs.c48_echo. Qed.
Print Assumptions C48_echo.
(** C48: the hypotheses of C48_echo can be met. *)
Example C48_echo_meets :
  exists (E : env) (outer : option (option (list ether_op) * list v4_setter)) (ops : list echo_op) (p : bytes) (buf : buffer), outer_ok outer /\ Forall echo_op_ok ops /\ one_payload (echo_payloads ops) p /\ fresh_buffer buf (outer_bytes outer + 8) p /\ let '(t, i, s) := echo_after ops in ~ echo_kind_given ops.
Proof. exact WitnessProofs.c48_echo_meets. Qed.
(** C48: information and timestamp: refused until [request] or [reply] is called. *)
Theorem C48_information : forall E outer ops buf, outer_ok outer -> Forall information_op_ok ops ->
  fresh_buffer buf (outer_bytes outer + 8) [] ->
  let '(t, i, s) := information_after ops in
  let b := ident_wire (unsummed t) i s in
  let r := (let* x := information_builder E outer ops buf in builder_as_packet E information_new x) in
  (information_kind_given ops -> r = Ok b /\ information_identifier b = Ok i /\ information_sequence b = Ok s /\
     icmp_checksum b = Ok 0 /\ information_is_request b = Ok (t =? 15) /\ information_is_reply b = Ok (t =? 16)) /\
  (~ information_kind_given ops -> r = Err InvalidPacket).
Proof. exact AsPacketProofs.c48_information. Qed.
Print Assumptions C48_information.
(** C48: the hypotheses of C48_information can be met. *)
Example C48_information_meets :
  (exists (E : env) (outer : option (option (list ether_op) * list v4_setter)) (ops : list information_op) (buf : buffer), outer_ok outer /\ Forall information_op_ok ops /\ fresh_buffer buf (outer_bytes outer + 8) [] /\ let '(t, i, s) := information_after ops in information_kind_given ops) /\
  (exists (E : env) (outer : option (option (list ether_op) * list v4_setter)) (ops : list information_op) (buf : buffer), outer_ok outer /\ Forall information_op_ok ops /\ fresh_buffer buf (outer_bytes outer + 8) [] /\ let '(t, i, s) := information_after ops in ~ information_kind_given ops).
Proof. exact WitnessProofs.c48_information_meets. Qed.
Theorem C48_timestamp : forall E outer ops buf, outer_ok outer -> Forall timestamp_op_ok ops ->
  fresh_buffer buf (outer_bytes outer + 20) [] ->
  let '(t, i, s, x, y, z) := timestamp_after ops in
  let b := timestamp_wire (unsummed t) i s x y z in
  let r := (let* x := timestamp_builder E outer ops buf in builder_as_packet E timestamp_new x) in
  (timestamp_kind_given ops -> r = Ok b /\ timestamp_identifier b = Ok i /\ timestamp_sequence b = Ok s /\
     timestamp_originate b = Ok x /\ timestamp_receive b = Ok y /\ timestamp_transmit b = Ok z /\
     icmp_checksum b = Ok 0 /\ timestamp_is_request b = Ok (t =? 13) /\ timestamp_is_reply b = Ok (t =? 14)) /\
  (~ timestamp_kind_given ops -> r = Err InvalidPacket).
Proof. exact AsPacketProofs.c48_timestamp. Qed.
Print Assumptions C48_timestamp.
(** C48: the hypotheses of C48_timestamp can be met. *)
Example C48_timestamp_meets :
  (exists (E : env) (outer : option (option (list ether_op) * list v4_setter)) (ops : list timestamp_op) (buf : buffer), outer_ok outer /\ Forall timestamp_op_ok ops /\ fresh_buffer buf (outer_bytes outer + 20) [] /\ let '(t, i, s, x, y, z) := timestamp_after ops in timestamp_kind_given ops) /\
  (exists (E : env) (outer : option (option (list ether_op) * list v4_setter)) (ops : list timestamp_op) (buf : buffer), outer_ok outer /\ Forall timestamp_op_ok ops /\ fresh_buffer buf (outer_bytes outer + 20) [] /\ let '(t, i, s, x, y, z) := timestamp_after ops in ~ timestamp_kind_given ops).
Proof. exact WitnessProofs.c48_timestamp_meets. Qed.
Example C48_example : forall E,
  (let* x := udp_builder E (Some [EtherProtocol ET_Arp]) [V4SetTtl 9] [UdpSet (UdpSetSource 1337); UdpSet (UdpSetDestination 53)] (slice_new (repeat 7 60%nat)) in
   builder_as_packet E udp_new x) = Ok [5; 57; 0; 53; 0; 0; 0; 0] /\
  fresh_buffer (slice_new (repeat 7 60%nat)) (eth_bytes (Some [EtherProtocol ET_Arp]) + 28) [] /\
  (let* x := tcp_builder E None [] [TcpSet (TcpSetWindow 2); TcpPayload [9]] dynamic_new in
   let* b := builder_as_packet E tcp_new x in tcp_payload b) = Ok [9] /\
  (let* x := tcp_builder E None [] [TcpSet (TcpSetFlags 2); TcpPayload [9]] dynamic_new in
   let* b := builder_as_packet E tcp_new x in tcp_payload b) =
   Ok [0; 0; 0; 0; 0; 0; 0; 0; 0; 0; 0; 0; 0; 2; 0; 0; 0; 0; 0; 0; 9] /\
  flags_called [TcpSet (TcpSetFlags 2); TcpPayload [9]] = true /\ flags_last (tcp_setters [TcpSet (TcpSetFlags 2); TcpPayload [9]]).
Proof. exact AsPacketProofs.c48_example. Qed.

(** ** C49 *)
Theorem C49_split_mut : forall b p,
  same_slices b (ether_split_mut b) (ether_split b) /\
  same_slices b (v4_split_mut b) (v4_split b) /\
  same_slices b (v6_split_mut b) (v6_split b) /\
  same_slices (match p with V4 q => q | V6 q => q end) (ip_split_mut p) (ip_split p) /\
  same_slices b (udp_split_mut b) (udp_split b) /\
  same_slices b (tcp_split_mut b) (tcp_split b) /\
  same_slices b (icmp_split_mut b) (icmp_split b) /\
  same_slices b (echo_split_mut b) (echo_split b) /\
  same_slices b (information_split_mut b) (information_split b) /\
  same_slices b (timestamp_split_mut b) (timestamp_split b) /\
  same_slices b (redirect_message_split_mut b) (redirect_message_split b) /\
  same_slices b (parameter_problem_split_mut b) (parameter_problem_split b) /\
  same_slices b (previous_split_mut b) (previous_split b) /\
  same_slices b (tcpopt_split_mut b) (tcpopt_split b) /\
  same_slices b (v4opt_split_mut b) (v4opt_split b).
Proof. exact MutableProofs.c49_split_mut. Qed.
Print Assumptions C49_split_mut.
Theorem C49_as_mut : forall E b p,
  same_slice b (ether_as_mut E b) (ether_as_ref E b) /\
  same_slice b (v4_as_mut b) (v4_as_ref b) /\
  same_slice b (v6_as_mut b) (v6_as_ref b) /\
  same_slice (match p with V4 q => q | V6 q => q end) (ip_as_mut p) (ip_as_ref p) /\
  same_slice b (udp_as_mut b) (udp_as_ref b) /\
  same_slice b (tcp_as_mut E b) (tcp_as_ref E b) /\
  same_slice b (icmp_as_mut E b) (icmp_as_ref E b) /\
  same_slice b (echo_as_mut E b) (echo_as_ref E b) /\
  same_slice b (information_as_mut E b) (information_as_ref E b) /\
  same_slice b (timestamp_as_mut E b) (timestamp_as_ref E b) /\
  same_slice b (redirect_message_as_mut E b) (embedded_as_ref E b) /\
  same_slice b (parameter_problem_as_mut E b) (embedded_as_ref E b) /\
  same_slice b (previous_as_mut E b) (embedded_as_ref E b) /\
  same_slice b (tcpopt_as_mut E b) (tcpopt_as_ref E b) /\
  same_slice b (v4opt_as_mut E b) (v4opt_as_ref E b).
Proof. exact MutableProofs.c49_as_mut. Qed.
Print Assumptions C49_as_mut.
Theorem C49_ether : forall E b, rust_slice b -> ether_new b = Ok b ->
  ether_split_mut b = Ok (Span 0 14, Span 14 (len b - 14)) /\ ether_as_mut E b = Ok (whole b) /\
  rewrites (Span 0 14) b /\
  payload_rewrites ether_new ether_header ether_payload (Span 14 (len b - 14)) b.
Proof. exact MutableProofs.c49_ether. Qed.
Print Assumptions C49_ether.
(** C49: the hypotheses of C49_ether can be met. *)
Example C49_ether_meets :
  exists (E : env) (b : bytes), rust_slice b /\ ether_new b = Ok b.
Proof. exact WitnessProofs.c49_ether_meets. Qed.
Theorem C49_v4 : forall b, v4_new b = Ok b -> 5 <= nthN b 0 mod 16 ->
  let h := nthN b 0 mod 16 * 4 in
  let n := N.max h (wire16 b 2) in
  v4_split_mut b = Ok (Span 0 h, Span h (n - h)) /\ v4_as_mut b = Ok (Span 0 n) /\
  rewrites (Span 0 h) b /\
  payload_rewrites v4_new v4_header v4_payload (Span h (n - h)) b.
Proof. exact MutableProofs.c49_v4. Qed.
Print Assumptions C49_v4.
(** C49: the hypotheses of C49_v4 can be met. *)
Example C49_v4_meets :
  exists (b : bytes), v4_new b = Ok b /\ 5 <= nthN b 0 mod 16.
Proof. exact WitnessProofs.c49_v4_meets. Qed.
Theorem C49_v4_header : forall b new, v4_new b = Ok b -> 5 <= nthN b 0 mod 16 ->
  len new = nthN b 0 mod 16 * 4 -> nthN new 0 = nthN b 0 -> wire16 new 2 = wire16 b 2 ->
  let b' := span_write (Span 0 (nthN b 0 mod 16 * 4)) new b in
  v4_new b' = Ok b' /\ v4_header b' = Ok new /\ v4_payload b' = v4_payload b.
Proof. exact MutableProofs.c49_v4_header. Qed.
Print Assumptions C49_v4_header.
(** C49: the hypotheses of C49_v4_header can be met. *)
Example C49_v4_header_meets :
  exists (b : bytes) (new : bytes), v4_new b = Ok b /\ 5 <= nthN b 0 mod 16 /\ len new = nthN b 0 mod 16 * 4 /\ nthN new 0 = nthN b 0 /\ wire16 new 2 = wire16 b 2.
Proof. exact WitnessProofs.c49_v4_header_meets. Qed.
Theorem C49_v4_short_header_refuted : exists b h p new, v4_new b = Ok b /\ is_bytes b /\
  v4_split_mut b = Ok (h, p) /\ len new = s_len p /\ is_bytes new /\
  let b' := span_write p new b in
  v4_source b' <> v4_source b /\ v4_destination b' <> v4_destination b.
Proof. exact MutableProofs.c49_v4_short_header_refuted. Qed.
Print Assumptions C49_v4_short_header_refuted.
(** C49: UDP: payload_mut() is what the length field says. *)
Theorem C49_udp : forall b, udp_new b = Ok b ->
  let n := N.max 8 (wire16 b 4) in
  udp_split_mut b = Ok (Span 0 8, Span 8 (n - 8)) /\ udp_as_mut b = Ok (Span 0 n) /\
  rewrites (Span 0 8) b /\
  payload_rewrites udp_new udp_header udp_payload (Span 8 (n - 8)) b.
Proof. exact MutableProofs.c49_udp. Qed.
Print Assumptions C49_udp.
(** C49: the hypotheses of C49_udp can be met. *)
Example C49_udp_meets :
  exists (b : bytes), udp_new b = Ok b.
Proof. exact WitnessProofs.c49_udp_meets. Qed.
Theorem C49_tcp : forall E b, rust_slice b -> tcp_new b = Ok b -> 5 <= nthN b 12 / 16 ->
  let h := nthN b 12 / 16 * 4 in
  tcp_split_mut b = Ok (Span 0 h, Span h (len b - h)) /\ tcp_as_mut E b = Ok (whole b) /\
  rewrites (Span 0 h) b /\
  payload_rewrites tcp_new tcp_header tcp_payload (Span h (len b - h)) b.
Proof. exact MutableProofs.c49_tcp. Qed.
Print Assumptions C49_tcp.
(** C49: the hypotheses of C49_tcp can be met. *)
Example C49_tcp_meets :
  exists (E : env) (b : bytes), rust_slice b /\ tcp_new b = Ok b /\ 5 <= nthN b 12 / 16.
Proof. exact WitnessProofs.c49_tcp_meets. Qed.
(** C49: ICMP, the general packet and the echo message. *)
Theorem C49_icmp : forall E b, rust_slice b -> icmp_new b = Ok b ->
  icmp_split_mut b = Ok (Span 0 4, Span 4 (len b - 4)) /\ icmp_as_mut E b = Ok (whole b) /\
  rewrites (Span 0 4) b /\
  payload_rewrites icmp_new icmp_header icmp_payload (Span 4 (len b - 4)) b.
Proof. exact MutableProofs.c49_icmp. Qed.
Print Assumptions C49_icmp.
(** C49: the hypotheses of C49_icmp can be met. *)
Example C49_icmp_meets :
  exists (E : env) (b : bytes), rust_slice b /\ icmp_new b = Ok b.
Proof. exact WitnessProofs.c49_icmp_meets. Qed.
(** C49: echo. *)
Theorem C49_echo : forall E b, rust_slice b -> echo_new b = Ok b ->
  echo_split_mut b = Ok (Span 0 8, Span 8 (len b - 8)) /\ echo_as_mut E b = Ok (whole b) /\
  rewrites (Span 0 8) b /\
  payload_rewrites echo_new echo_header echo_payload (Span 8 (len b - 8)) b.
Proof. exact MutableProofs.c49_echo. Qed.
Print Assumptions C49_echo.
(** C49: the hypotheses of C49_echo can be met. *)
Example C49_echo_meets :
  exists (E : env) (b : bytes), rust_slice b /\ echo_new b = Ok b.
Proof. exact WitnessProofs.c49_echo_meets. Qed.
Theorem C49_information : forall E b, information_new b = Ok b ->
  information_split_mut b = Ok (Span 0 8, Span 8 (len b - 8)) /\ information_as_mut E b = Ok (Span 0 8) /\
  rewrites (Span 0 8) b /\
  payload_rewrites information_new information_header information_payload (Span 8 (len b - 8)) b.
Proof. exact MutableProofs.c49_information. Qed.
Print Assumptions C49_information.
(** C49: the hypotheses of C49_information can be met. *)
Example C49_information_meets :
  exists (b : bytes), information_new b = Ok b.
Proof. exact WitnessProofs.c49_information_meets. Qed.
Theorem C49_timestamp : forall E b, timestamp_new b = Ok b ->
  timestamp_split_mut b = Ok (Span 0 8, Span 8 (len b - 8)) /\ timestamp_as_mut E b = Ok (Span 0 20) /\
  rewrites (Span 0 8) b /\
  payload_rewrites timestamp_new timestamp_header timestamp_payload (Span 8 (len b - 8)) b.
Proof. exact MutableProofs.c49_timestamp. Qed.
Print Assumptions C49_timestamp.
(** C49: the hypotheses of C49_timestamp can be met. *)
Example C49_timestamp_meets :
  exists (b : bytes), timestamp_new b = Ok b.
Proof. exact WitnessProofs.c49_timestamp_meets. Qed.
(** C49: redirect message. *)
Theorem C49_redirect_message : forall b, redirect_message_new b = Ok b ->
  redirect_message_split_mut b = Ok (Span 0 8, Span 8 (len b - 8)) /\ rewrites (Span 0 8) b /\
  payload_rewrites redirect_message_new redirect_message_header redirect_message_payload (Span 8 (len b - 8)) b.
Proof. exact MutableProofs.c49_redirect_message. Qed.
Print Assumptions C49_redirect_message.
(** C49: the hypotheses of C49_redirect_message can be met. *)
Example C49_redirect_message_meets :
  exists (b : bytes), redirect_message_new b = Ok b.
Proof. exact WitnessProofs.c49_redirect_message_meets. Qed.
(** C49: parameter problem: header_mut() is 5 bytes; bytes 5..8 are in neither slice. *)
Theorem C49_parameter_problem : forall b, parameter_problem_new b = Ok b ->
  parameter_problem_split_mut b = Ok (Span 0 5, Span 8 (len b - 8)) /\ rewrites (Span 0 5) b /\
  payload_rewrites parameter_problem_new parameter_problem_header parameter_problem_payload (Span 8 (len b - 8)) b.
Proof. exact MutableProofs.c49_parameter_problem. Qed.
Print Assumptions C49_parameter_problem.
(** C49: the hypotheses of C49_parameter_problem can be met. *)
Example C49_parameter_problem_meets :
  exists (b : bytes), parameter_problem_new b = Ok b.
Proof. exact WitnessProofs.c49_parameter_problem_meets. Qed.
(** C49: previous: header_mut() is 4 bytes; bytes 4..8 are in neither slice. *)
Theorem C49_previous : forall b, previous_new b = Ok b ->
  previous_split_mut b = Ok (Span 0 4, Span 8 (len b - 8)) /\ rewrites (Span 0 4) b /\
  payload_rewrites previous_new previous_header previous_payload (Span 8 (len b - 8)) b.
Proof. exact MutableProofs.c49_previous. Qed.
Print Assumptions C49_previous.
(** C49: the hypotheses of C49_previous can be met. *)
Example C49_previous_meets :
  exists (b : bytes), previous_new b = Ok b.
Proof. exact WitnessProofs.c49_previous_meets. Qed.
(** C49: TCP option. *)
Theorem C49_tcp_option : forall b, tcpopt_new b = Ok b -> 2 <= nthN b 0 -> 2 <= nthN b 1 ->
  let l := nthN b 1 in
  tcpopt_split_mut b = Ok (Span 0 2, Span 2 (l - 2)) /\ rewrites (Span 0 2) b /\
  payload_rewrites tcpopt_new tcpopt_header tcpopt_payload (Span 2 (l - 2)) b.
Proof. exact MutableProofs.c49_tcp_option. Qed.
Print Assumptions C49_tcp_option.
(** C49: the hypotheses of C49_tcp_option can be met. *)
Example C49_tcp_option_meets :
  exists (b : bytes), tcpopt_new b = Ok b /\ 2 <= nthN b 0 /\ 2 <= nthN b 1.
Proof. exact WitnessProofs.c49_tcp_option_meets. Qed.
(** C49: IPv4 option (the low five bits of the first byte are the number). *)
Theorem C49_v4_option : forall b, v4opt_new b = Ok b -> 2 <= nthN b 0 mod 32 -> 2 <= nthN b 1 ->
  let l := nthN b 1 in
  v4opt_split_mut b = Ok (Span 0 2, Span 2 (l - 2)) /\ rewrites (Span 0 2) b /\
  payload_rewrites v4opt_new v4opt_header v4opt_payload (Span 2 (l - 2)) b.
Proof. exact MutableProofs.c49_v4_option. Qed.
Print Assumptions C49_v4_option.
(** C49: the hypotheses of C49_v4_option can be met. *)
Example C49_v4_option_meets :
  exists (b : bytes), v4opt_new b = Ok b /\ 2 <= nthN b 0 mod 32 /\ 2 <= nthN b 1.
Proof. exact WitnessProofs.c49_v4_option_meets. Qed.
Theorem C49_setters : forall b f,
  (v4_no_payload b = Ok b -> exists h p, v4_split_mut b = Ok (h, p) /\ header_mut v4_split f b = span_run h f b) /\
  (udp_no_payload b = Ok b -> exists h p, udp_split_mut b = Ok (h, p) /\ header_mut udp_split f b = span_run h f b) /\
  (tcp_new b = Ok b -> exists h p, tcp_split_mut b = Ok (h, p) /\ header_mut tcp_split f b = span_run h f b).
Proof. exact MutableProofs.c49_setters. Qed.
Print Assumptions C49_setters.
(** C49: the hypotheses of C49_setters can be met. *)
Example C49_setters_meets :
  (exists (b : bytes), v4_no_payload b = Ok b) /\
  (exists (b : bytes), udp_no_payload b = Ok b) /\
  (exists (b : bytes), tcp_new b = Ok b).
Proof. exact WitnessProofs.c49_setters_meets. Qed.
Example C49_example :
  (* an IPv4 datagram of 24 bytes followed by two bytes that are not part of it *)
  let b := [69; 0; 0; 24; 0; 1; 0; 0; 64; 17; 0; 0; 10; 0; 0; 1; 10; 0; 0; 2; 1; 2; 3; 4; 99; 98] in
  v4_new b = Ok b /\ v4_split_mut b = Ok (Span 0 20, Span 20 4) /\
  v4_payload (span_write (Span 20 4) [5; 6; 7; 8] b) = Ok [5; 6; 7; 8] /\
  dropN 24 (span_write (Span 20 4) [5; 6; 7; 8] b) = [99; 98] /\
  tcpopt_split_mut [2; 4; 5; 180; 1] = Ok (Span 0 2, Span 2 2) /\
  previous_split_mut [3; 1; 0; 0; 9; 9; 9; 9; 7] = Ok (Span 0 4, Span 8 1).
Proof. exact MutableProofs.c49_example. Qed.

(** ** C50 *)
Theorem C50_udp : forall E b u ops, is_bytes b -> v4_new b = Ok b -> 5 <= nthN b 0 mod 16 ->
  v4_payload b = Ok u -> udp_new u = Ok u -> Forall udp_setter_ok ops ->
  let h := nthN b 0 mod 16 * 4 in
  exists b' u', edit_udp E ops b = (b', Ok tt) /\
    only_changes h (h + 8) b b' /\
    v4_new b' = Ok b' /\ v4_header b' = v4_header b /\ v4_is_valid E b' = v4_is_valid E b /\
    v4_payload b' = Ok u' /\ udp_new u' = Ok u' /\ udp_length u' = udp_length u /\ udp_payload u' = udp_payload u /\
    udp_source u' = Ok (last_value udp_src ops (wire16 u 0)) /\
    udp_destination u' = Ok (last_value udp_dst ops (wire16 u 2)) /\
    udp_is_valid E (V4 b') u' = Ok true /\
    (len u mod 2 = 0 \/ cursor_eof E = EofKeep ->
     receiver_accepts (with_pseudo_header (wire_addr b 12) (wire_addr b 16) 17 u')).
Proof. exact EditProofs.c50_udp. Qed.
Print Assumptions C50_udp.
(** C50: the hypotheses of C50_udp can be met. *)
Example C50_udp_meets :
  exists (b : bytes) (u : bytes) (ops : list udp_setter), is_bytes b /\ v4_new b = Ok b /\ 5 <= nthN b 0 mod 16 /\ v4_payload b = Ok u /\ udp_new u = Ok u /\ Forall udp_setter_ok ops.
Proof. exact WitnessProofs.c50_udp_meets. Qed.
(** C50: TCP, data offset of at least 5, no set_flags. *)
Theorem C50_tcp : forall E b u ops, is_bytes b -> v4_new b = Ok b -> 5 <= nthN b 0 mod 16 ->
  v4_payload b = Ok u -> tcp_new u = Ok u -> 5 <= nthN u 12 / 16 ->
  len u mod 2 = 0 \/ cursor_eof E = EofKeep ->
  Forall (fun s => tcp_setter_ok s /\ ~ tcp_is_flags s) ops ->
  let h := nthN b 0 mod 16 * 4 in
  exists b' u', edit_tcp E ops b = (b', Ok tt) /\
    only_changes h (h + 20) b b' /\
    v4_new b' = Ok b' /\ v4_header b' = v4_header b /\ v4_is_valid E b' = v4_is_valid E b /\
    v4_payload b' = Ok u' /\ tcp_new u' = Ok u' /\
    tcp_offset u' = tcp_offset u /\ tcp_flags u' = tcp_flags u /\
    tcp_options u' = tcp_options u /\ tcp_payload u' = tcp_payload u /\
    tcp_source u' = Ok (last_value tcp_src ops (wire16 u 0)) /\
    tcp_destination u' = Ok (last_value tcp_dst ops (wire16 u 2)) /\
    tcp_sequence u' = Ok (last_value tcp_seq ops (wire32 u 4)) /\
    tcp_acknowledgment u' = Ok (last_value tcp_ack ops (wire32 u 8)) /\
    tcp_window u' = Ok (last_value tcp_win ops (wire16 u 14)) /\
    tcp_pointer u' = Ok (last_value tcp_ptr ops (wire16 u 18)) /\
    tcp_is_valid E (V4 b') u' = Ok true /\
    receiver_accepts (with_pseudo_header (wire_addr b 12) (wire_addr b 16) 6 u').
Proof. exact EditProofs.c50_tcp. Qed.
Print Assumptions C50_tcp.
(** C50: the hypotheses of C50_tcp can be met. *)
Example C50_tcp_meets :
  exists (E : env) (b : bytes) (u : bytes) (ops : list tcp_setter), is_bytes b /\ v4_new b = Ok b /\ 5 <= nthN b 0 mod 16 /\ v4_payload b = Ok u /\ tcp_new u = Ok u /\ 5 <= nthN u 12 / 16 /\ (len u mod 2 = 0 \/ cursor_eof E = EofKeep) /\ Forall (fun s => tcp_setter_ok s /\ ~ tcp_is_flags s) ops.
Proof. exact WitnessProofs.c50_tcp_meets. Qed.
(** C50: nothing is written when the datagram does not hold a UDP or TCP packet. *)
Theorem C50_refused : forall E b u, v4_new b = Ok b -> 5 <= nthN b 0 mod 16 -> v4_payload b = Ok u ->
  (forall ops e, udp_new u = Err e -> edit_udp E ops b = (b, Err e)) /\
  (forall ops e, tcp_new u = Err e -> edit_tcp E ops b = (b, Err e)).
Proof. exact EditProofs.c50_refused. Qed.
Print Assumptions C50_refused.
(** C50: the hypotheses of C50_refused can be met. *)
Example C50_refused_meets :
  (exists (b : bytes) (u : bytes) (e : error), v4_new b = Ok b /\ 5 <= nthN b 0 mod 16 /\ v4_payload b = Ok u /\ udp_new u = Err e) /\
  (exists (b : bytes) (u : bytes) (e : error), v4_new b = Ok b /\ 5 <= nthN b 0 mod 16 /\ v4_payload b = Ok u /\ tcp_new u = Err e).
Proof. exact WitnessProofs.c50_refused_meets. Qed.
Example C50_example : forall E,
  let b := [69; 0; 0; 30; 0; 0; 0; 0; 64; 17; 0; 0; 10; 0; 0; 1; 10; 0; 0; 2; 0; 1; 0; 2; 0; 10; 0; 0; 104; 105; 77] in
  v4_new b = Ok b /\ v4_payload b = Ok [0; 1; 0; 2; 0; 10; 0; 0; 104; 105] /\
  edit_udp E [UdpSetSource 53; UdpSetDestination 99] b =
    ([69; 0; 0; 30; 0; 0; 0; 0; 64; 17; 0; 0; 10; 0; 0; 1; 10; 0; 0; 2; 0; 53; 0; 99; 0; 10; 130; 214; 104; 105; 77], Ok tt).
Proof. exact EditProofs.c50_example. Qed.

(** ** C51 *)
Theorem C51_udp : forall E eops he vs hv us hu p udp' ip' last,
  eth_ok (Some eops) -> Forall v4_arg_ok vs -> Forall udp_op_ok us -> one_payload (udp_payloads us) p ->
  42 + len p <= ISIZE_MAX -> len p mod 2 = 0 \/ cursor_eof E = EofKeep ->
  let f := v4_after vs in
  let e0 := ether_wire (ether_after eops) in
  let ip0 := v4_wire (v4_put f (V4SetProtocol IP_Udp)) in
  let udp := udp_wire (udp_finished (vf_src f) (vf_dst f) (udp_after us) p) ++ p in
  hooks hu (e0 ++ ip0 ++ udp) = (e0 ++ ip0 ++ udp', Ok tt) -> len udp' = len udp ->
  let ip := v4_wire (v4_finished f 17 (8 + len p)) ++ udp' in
  hooks hv (e0 ++ ip) = (e0 ++ ip', Ok tt) -> len ip' = len ip -> nthN ip' 0 / 16 = 4 ->
  hooks he (ether_layer (Some eops) ++ ip') = last ->
  hooked_udp E eops he vs hv us hu dynamic_new = built last.
Proof. exact HookProofs.c51_udp. Qed.
Print Assumptions C51_udp.
(** C51: the hypotheses of C51_udp can be met. *)
Example C51_udp_meets :
  exists (E : env) (eops : list ether_op) (he : list finalizer) (vs : list v4_setter) (hv : list finalizer) (us : list udp_op) (hu : list finalizer) (p : bytes) (udp' : list N) (ip' : list N) (last : bytes * res unit), eth_ok (Some eops) /\ Forall v4_arg_ok vs /\ Forall udp_op_ok us /\ one_payload (udp_payloads us) p /\ 42 + len p <= ISIZE_MAX /\ (len p mod 2 = 0 \/ cursor_eof E = EofKeep) /\ let f := v4_after vs in let e0 := ether_wire (ether_after eops) in let ip0 := v4_wire (v4_put f (V4SetProtocol IP_Udp)) in let udp := udp_wire (udp_finished (vf_src f) (vf_dst f) (udp_after us) p) ++ p in hooks hu (e0 ++ ip0 ++ udp) = (e0 ++ ip0 ++ udp', Ok tt) /\ len udp' = len udp /\ let ip := v4_wire (v4_finished f 17 (8 + len p)) ++ udp' in hooks hv (e0 ++ ip) = (e0 ++ ip', Ok tt) /\ len ip' = len ip /\ nthN ip' 0 / 16 = 4 /\ hooks he (ether_layer (Some eops) ++ ip') = last.
Proof. exact WitnessProofs.c51_udp_meets. Qed.
(** C51: a failing finalizer of the UDP or IPv4 builder ends the build with its error. *)
Theorem C51_udp_error : forall E eops he vs hv us hu p,
  eth_ok (Some eops) -> Forall v4_arg_ok vs -> Forall udp_op_ok us -> one_payload (udp_payloads us) p ->
  42 + len p <= ISIZE_MAX -> len p mod 2 = 0 \/ cursor_eof E = EofKeep ->
  let f := v4_after vs in
  let e0 := ether_wire (ether_after eops) in
  let ip0 := v4_wire (v4_put f (V4SetProtocol IP_Udp)) in
  let udp := udp_wire (udp_finished (vf_src f) (vf_dst f) (udp_after us) p) ++ p in
  let r := hooked_udp E eops he vs hv us hu dynamic_new in
  (forall out e, hooks hu (e0 ++ ip0 ++ udp) = (out, Err e) -> r = Err e) /\
  (forall out, hooks hu (e0 ++ ip0 ++ udp) = (out, Panic) -> r = Panic) /\
  (forall udp', hooks hu (e0 ++ ip0 ++ udp) = (e0 ++ ip0 ++ udp', Ok tt) -> len udp' = len udp ->
     let ip := v4_wire (v4_finished f 17 (8 + len p)) ++ udp' in
     (forall out e, hooks hv (e0 ++ ip) = (out, Err e) -> r = Err e) /\
     (forall out, hooks hv (e0 ++ ip) = (out, Panic) -> r = Panic)).
Proof. exact HookProofs.c51_udp_error. Qed.
Print Assumptions C51_udp_error.
(** C51: the hypotheses of C51_udp_error can be met. *)
Example C51_udp_error_meets :
  (exists (E : env) (eops : list ether_op) (he : list finalizer) (vs : list v4_setter) (hv : list finalizer) (us : list udp_op) (hu : list finalizer) (p : bytes) (out : bytes) (e : error), eth_ok (Some eops) /\ Forall v4_arg_ok vs /\ Forall udp_op_ok us /\ one_payload (udp_payloads us) p /\ 42 + len p <= ISIZE_MAX /\ (len p mod 2 = 0 \/ cursor_eof E = EofKeep) /\ let f := v4_after vs in let e0 := ether_wire (ether_after eops) in let ip0 := v4_wire (v4_put f (V4SetProtocol IP_Udp)) in let udp := udp_wire (udp_finished (vf_src f) (vf_dst f) (udp_after us) p) ++ p in hooks hu (e0 ++ ip0 ++ udp) = (out, Err e)) /\
  (exists (E : env) (eops : list ether_op) (he : list finalizer) (vs : list v4_setter) (hv : list finalizer) (us : list udp_op) (hu : list finalizer) (p : bytes) (out : bytes), eth_ok (Some eops) /\ Forall v4_arg_ok vs /\ Forall udp_op_ok us /\ one_payload (udp_payloads us) p /\ 42 + len p <= ISIZE_MAX /\ (len p mod 2 = 0 \/ cursor_eof E = EofKeep) /\ let f := v4_after vs in let e0 := ether_wire (ether_after eops) in let ip0 := v4_wire (v4_put f (V4SetProtocol IP_Udp)) in let udp := udp_wire (udp_finished (vf_src f) (vf_dst f) (udp_after us) p) ++ p in hooks hu (e0 ++ ip0 ++ udp) = (out, Panic)) /\
  (exists (E : env) (eops : list ether_op) (he : list finalizer) (vs : list v4_setter) (hv : list finalizer) (us : list udp_op) (hu : list finalizer) (p : bytes) (udp' : list N) (out : bytes) (e : error), eth_ok (Some eops) /\ Forall v4_arg_ok vs /\ Forall udp_op_ok us /\ one_payload (udp_payloads us) p /\ 42 + len p <= ISIZE_MAX /\ (len p mod 2 = 0 \/ cursor_eof E = EofKeep) /\ let f := v4_after vs in let e0 := ether_wire (ether_after eops) in let ip0 := v4_wire (v4_put f (V4SetProtocol IP_Udp)) in let udp := udp_wire (udp_finished (vf_src f) (vf_dst f) (udp_after us) p) ++ p in hooks hu (e0 ++ ip0 ++ udp) = (e0 ++ ip0 ++ udp', Ok tt) /\ len udp' = len udp /\ let ip := v4_wire (v4_finished f 17 (8 + len p)) ++ udp' in hooks hv (e0 ++ ip) = (out, Err e)) /\
  (exists (E : env) (eops : list ether_op) (he : list finalizer) (vs : list v4_setter) (hv : list finalizer) (us : list udp_op) (hu : list finalizer) (p : bytes) (udp' : list N) (out : bytes), eth_ok (Some eops) /\ Forall v4_arg_ok vs /\ Forall udp_op_ok us /\ one_payload (udp_payloads us) p /\ 42 + len p <= ISIZE_MAX /\ (len p mod 2 = 0 \/ cursor_eof E = EofKeep) /\ let f := v4_after vs in let e0 := ether_wire (ether_after eops) in let ip0 := v4_wire (v4_put f (V4SetProtocol IP_Udp)) in let udp := udp_wire (udp_finished (vf_src f) (vf_dst f) (udp_after us) p) ++ p in hooks hu (e0 ++ ip0 ++ udp) = (e0 ++ ip0 ++ udp', Ok tt) /\ len udp' = len udp /\ let ip := v4_wire (v4_finished f 17 (8 + len p)) ++ udp' in hooks hv (e0 ++ ip) = (out, Panic)).
Proof. exact WitnessProofs.c51_udp_error_meets. Qed.
(** C51: without added finalizers this is the plain chain. *)
Theorem C51_none : forall E eops vs us buf,
  hooked_udp E eops [] vs [] us [] buf = udp_chain E (Some eops) vs us buf.
Proof. exact HookProofs.c51_none. Qed.
Print Assumptions C51_none.
Example C51_example : forall E,
  let set i v : finalizer := fun b => set_index i v b in
  let fail : finalizer := fun b => (b, Err InvalidPacket) in
  (* rewrite the last payload byte after the UDP checksum, the TTL after the IPv4 checksum *)
  hooked_udp E [] [] [V4SetTtl 9] [set 22 64] [UdpPayload [1; 2]] [set 43 77; set 43 5] dynamic_new =
    Ok (zeros 12 ++ [8; 0; 69; 0; 0; 30; 0; 0; 0; 0; 64; 17; 177; 208; 0; 0; 0; 0; 0; 0; 0; 0; 0; 0; 0; 0; 0; 10; 254; 216; 1; 77]) /\
  hooked_udp E [] [] [] [] [UdpPayload [1; 2]] [set 43 77; fail; set 43 5] dynamic_new = Err InvalidPacket /\
  hooked_udp E [] [fail] [] [] [] [] dynamic_new = Err InvalidPacket.
Proof. exact HookProofs.c51_example. Qed.
Theorem C51_any_program : forall E o plain cl buf, exists laid : res (bytes * list finalizer), forall cs, erase cs = plain ->
  program E o cs cl buf = (let* x := laid in execute (rev (steps cs cl)) (snd x) (fst x)).
Proof. exact ProgramHookProofs.c51_any_program. Qed.
Print Assumptions C51_any_program.
(** C51: so a program whose functions change nothing builds what it builds without them. *)
Theorem C51_idle_functions : forall E o cs cl buf, Forall (fun c => match c with CallFinalizer f => forall b, f b = (b, Ok tt) | _ => True end) cs ->
  program E o cs cl buf = program E o (erase cs) cl buf.
Proof. exact ProgramHookProofs.c51_idle_functions. Qed.
Print Assumptions C51_idle_functions.
(** C51: the hypotheses of C51_idle_functions can be met. *)
Example C51_idle_functions_meets :
  exists (cs : list call), (Forall (fun c => match c with CallFinalizer f => forall b, f b = (b, Ok tt) | _ => True end) cs).
Proof. exact WitnessProofs.c51_idle_functions_meets. Qed.
Example C51_any_example : length (erase hooked_calls) = 3%nat /\ length (steps hooked_calls ClUdp) = 5%nat /\
  forall E, exists out, program E OpV4 hooked_calls ClUdp dynamic_new = Ok out /\ nthN out 8 = 64 /\ nthN out 29 = 5.
Proof. exact ProgramHookProofs.c51_any_example. Qed.

(** ** C52 *)
Theorem C52_ether : forall ops b, ether_new b = Ok b ->
  exists b', all_ok ether_apply ops b = Some b' /\
    ether_destination b' = Ok (last_value eth_dst ops (wire_mac b 0)) /\
    ether_source b' = Ok (last_value eth_src ops (wire_mac b 6)) /\
    ether_get_protocol b' = Ok (ether_protocol_from (last_value eth_proto ops (wire16 b 12))) /\
    only_changes 0 14 b b'.
Proof. exact EditProofs.c52_ether. Qed.
Print Assumptions C52_ether.
(** C52: the hypotheses of C52_ether can be met. *)
Example C52_ether_meets :
  exists (b : bytes), ether_new b = Ok b.
Proof. exact WitnessProofs.c52_ether_meets. Qed.
Theorem C52_udp : forall ops b, udp_no_payload b = Ok b ->
  exists b', all_ok udp_apply ops b = Some b' /\
    udp_source b' = Ok (last_value udp_src ops (wire16 b 0)) /\
    udp_destination b' = Ok (last_value udp_dst ops (wire16 b 2)) /\
    only_changes 0 4 b b'.
Proof. exact EditProofs.c52_udp. Qed.
Print Assumptions C52_udp.
(** C52: the hypotheses of C52_udp can be met. *)
Example C52_udp_meets :
  exists (b : bytes), udp_no_payload b = Ok b.
Proof. exact WitnessProofs.c52_udp_meets. Qed.
Theorem C52_tcp : forall ops b, tcp_new b = Ok b -> 5 <= nthN b 12 / 16 ->
  Forall (fun o => ~ tcp_is_flags o) ops ->
  exists b', all_ok tcp_apply ops b = Some b' /\
    tcp_source b' = Ok (last_value tcp_src ops (wire16 b 0)) /\
    tcp_destination b' = Ok (last_value tcp_dst ops (wire16 b 2)) /\
    tcp_sequence b' = Ok (last_value tcp_seq ops (wire32 b 4)) /\
    tcp_acknowledgment b' = Ok (last_value tcp_ack ops (wire32 b 8)) /\
    tcp_window b' = Ok (last_value tcp_win ops (wire16 b 14)) /\
    tcp_pointer b' = Ok (last_value tcp_ptr ops (wire16 b 18)) /\
    tcp_offset b' = tcp_offset b /\ tcp_flags b' = tcp_flags b /\ tcp_checksum b' = tcp_checksum b /\
    only_changes 0 20 b b'.
Proof. exact EditProofs.c52_tcp. Qed.
Print Assumptions C52_tcp.
(** C52: the hypotheses of C52_tcp can be met. *)
Example C52_tcp_meets :
  exists (ops : list tcp_setter) (b : bytes), tcp_new b = Ok b /\ 5 <= nthN b 12 / 16 /\ Forall (fun o => ~ tcp_is_flags o) ops.
Proof. exact WitnessProofs.c52_tcp_meets. Qed.
Theorem C52_v4 : forall ops b, is_bytes b -> v4_no_payload b = Ok b -> 5 <= nthN b 0 mod 16 ->
  Forall v4_setter_ok ops -> Forall v4_in_range ops ->
  exists b', all_ok v4_apply ops b = Some b' /\
    v4_id b' = Ok (last_value v4_id_of ops (wire16 b 4)) /\
    wire16 b' 6 = last_value v4_frag_of ops (wire16 b 6) /\
    v4_ttl b' = Ok (last_value v4_ttl_of ops (nthN b 8)) /\
    v4_protocol b' = Ok (ip_protocol_from (last_value v4_proto_of ops (nthN b 9))) /\
    v4_source b' = Ok (last_value v4_src_of ops (wire_addr b 12)) /\
    v4_destination b' = Ok (last_value v4_dst_of ops (wire_addr b 16)) /\
    (Forall (fun o => ~ is_ecn o) ops ->
       v4_dscp b' = Ok (last_value v4_dscp_of ops (nthN b 1 / 4)) /\ v4_ecn b' = v4_ecn b) /\
    v4_length b' = v4_length b /\ v4_checksum b' = v4_checksum b /\
    only_changes 1 20 b b'.
Proof. exact EditProofs.c52_v4. Qed.
Print Assumptions C52_v4.
(** C52: the hypotheses of C52_v4 can be met. *)
Example C52_v4_meets :
  exists (ops : list v4_setter) (b : bytes), is_bytes b /\ v4_no_payload b = Ok b /\ 5 <= nthN b 0 mod 16 /\ Forall v4_setter_ok ops /\ Forall v4_in_range ops.
Proof. exact WitnessProofs.c52_v4_meets. Qed.
(** C52: echo: type, identifier and sequence; code, checksum and payload stay. *)
Theorem C52_echo : forall ops b, echo_new b = Ok b ->
  exists b', all_ok echo_apply ops b = Some b' /\ echo_new b' = Ok b' /\
    echo_is_request b' = Ok (last_value echo_kind_of ops (nthN b 0) =? 8) /\
    echo_is_reply b' = Ok (last_value echo_kind_of ops (nthN b 0) =? 0) /\
    echo_identifier b' = Ok (last_value echo_ident_of ops (wire16 b 4)) /\
    echo_sequence b' = Ok (last_value echo_seq_of ops (wire16 b 6)) /\
    nthN b' 1 = nthN b 1 /\ wire16 b' 2 = wire16 b 2 /\ only_changes 0 8 b b'.
Proof. exact EditProofs.c52_echo. Qed.
Print Assumptions C52_echo.
(** C52: the hypotheses of C52_echo can be met. *)
Example C52_echo_meets :
  exists (b : bytes), echo_new b = Ok b.
Proof. exact WitnessProofs.c52_echo_meets. Qed.
(** C52: information. *)
Theorem C52_information : forall ops b, information_new b = Ok b ->
  exists b', all_ok information_apply ops b = Some b' /\
    nthN b' 0 = last_value info_kind_of ops (nthN b 0) /\
    information_identifier b' = Ok (last_value info_ident_of ops (wire16 b 4)) /\
    information_sequence b' = Ok (last_value info_seq_of ops (wire16 b 6)) /\
    nthN b' 1 = nthN b 1 /\ wire16 b' 2 = wire16 b 2 /\ only_changes 0 8 b b'.
Proof. exact EditProofs.c52_information. Qed.
Print Assumptions C52_information.
(** C52: the hypotheses of C52_information can be met. *)
Example C52_information_meets :
  exists (b : bytes), information_new b = Ok b.
Proof. exact WitnessProofs.c52_information_meets. Qed.
(** C52: timestamp. *)
Theorem C52_timestamp : forall ops b, timestamp_new b = Ok b ->
  exists b', all_ok timestamp_apply ops b = Some b' /\
    nthN b' 0 = last_value ts_kind_of ops (nthN b 0) /\
    timestamp_identifier b' = Ok (last_value ts_ident_of ops (wire16 b 4)) /\
    timestamp_sequence b' = Ok (last_value ts_seq_of ops (wire16 b 6)) /\
    timestamp_originate b' = Ok (last_value ts_orig_of ops (wire32 b 8)) /\
    timestamp_receive b' = Ok (last_value ts_recv_of ops (wire32 b 12)) /\
    timestamp_transmit b' = Ok (last_value ts_tran_of ops (wire32 b 16)) /\
    nthN b' 1 = nthN b 1 /\ wire16 b' 2 = wire16 b 2 /\ only_changes 0 20 b b'.
Proof. exact EditProofs.c52_timestamp. Qed.
Print Assumptions C52_timestamp.
(** C52: the hypotheses of C52_timestamp can be met. *)
Example C52_timestamp_meets :
  exists (b : bytes), timestamp_new b = Ok b.
Proof. exact WitnessProofs.c52_timestamp_meets. Qed.
Example C52_example :
  let b := [0; 1; 0; 2; 0; 10; 0; 0; 7; 8; 9] in
  udp_no_payload b = Ok b /\
  all_ok udp_apply [UdpSetSource 4660; UdpSetDestination 80; UdpSetSource 53] b = Some [0; 53; 0; 80; 0; 10; 0; 0; 7; 8; 9] /\
  last_value udp_src [UdpSetSource 4660; UdpSetDestination 80; UdpSetSource 53] (wire16 b 0) = 53.
Proof. exact EditProofs.c52_example. Qed.

(** ** C53 *)
(** C53: Ethernet. *)
Theorem C53_ether : forall b,
  needs 6 b (ether_destination (ether_unchecked b)) (wire_mac b 0) /\ needs 12 b (ether_source (ether_unchecked b)) (wire_mac b 6) /\
  needs 14 b (ether_get_protocol (ether_unchecked b)) (ether_protocol_from (wire16 b 12)) /\
  needs 14 b (ether_split (ether_unchecked b)) (takeN 14 b, dropN 14 b).
Proof. exact UncheckedProofs.c53_ether. Qed.
Print Assumptions C53_ether.
(** C53: UDP. *)
Theorem C53_udp : forall b,
  needs 2 b (udp_source (udp_unchecked b)) (wire16 b 0) /\ needs 4 b (udp_destination (udp_unchecked b)) (wire16 b 2) /\
  needs 6 b (udp_length (udp_unchecked b)) (wire16 b 4) /\ needs 8 b (udp_checksum (udp_unchecked b)) (wire16 b 6) /\
  needs 8 b (udp_split (udp_unchecked b)) (takeN 8 b, dropN 8 (takeN (N.max 8 (wire16 b 4)) b)) /\
  needs (N.max 8 (wire16 b 4)) b (udp_as_ref (udp_unchecked b)) (takeN (N.max 8 (wire16 b 4)) b).
Proof. exact UncheckedProofs.c53_udp. Qed.
Print Assumptions C53_udp.
(** C53: TCP. *)
Theorem C53_tcp : forall b,
  let h := nthN b 12 / 16 * 4 in
  needs 2 b (tcp_source (tcp_unchecked b)) (wire16 b 0) /\ needs 4 b (tcp_destination (tcp_unchecked b)) (wire16 b 2) /\
  needs 8 b (tcp_sequence (tcp_unchecked b)) (wire32 b 4) /\ needs 12 b (tcp_acknowledgment (tcp_unchecked b)) (wire32 b 8) /\
  needs 13 b (tcp_offset (tcp_unchecked b)) (nthN b 12 / 16) /\ needs 14 b (tcp_flags (tcp_unchecked b)) (wire16 b 12 mod 512) /\
  needs 16 b (tcp_window (tcp_unchecked b)) (wire16 b 14) /\ needs 18 b (tcp_checksum (tcp_unchecked b)) (wire16 b 16) /\
  needs 20 b (tcp_pointer (tcp_unchecked b)) (wire16 b 18) /\
  needs (N.max 13 h) b (tcp_split (tcp_unchecked b)) (takeN h b, dropN h b) /\
  (5 <= nthN b 12 / 16 -> needs h b (tcp_options (tcp_unchecked b)) (takeN (h - 20) (dropN 20 b))) /\
  (nthN b 12 / 16 < 5 -> tcp_options (tcp_unchecked b) = Panic).
Proof. exact UncheckedProofs.c53_tcp. Qed.
Print Assumptions C53_tcp.
(** C53: the hypotheses of C53_tcp can be met. *)
Example C53_tcp_meets :
  (exists (b : bytes), 5 <= nthN b 12 / 16) /\
  (exists (b : bytes), nthN b 12 / 16 < 5).
Proof. exact WitnessProofs.c53_tcp_meets. Qed.
(** C53: IPv4. *)
Theorem C53_v4 : forall b, is_bytes b ->
  let ihl := nthN b 0 mod 16 in
  needs 1 b (v4_version (v4_unchecked b)) (nthN b 0 / 16) /\ needs 1 b (v4_ihl (v4_unchecked b)) ihl /\
  needs 2 b (v4_dscp (v4_unchecked b)) (nthN b 1 / 4) /\ needs 2 b (v4_ecn (v4_unchecked b)) (nthN b 1 mod 4) /\
  needs 4 b (v4_length (v4_unchecked b)) (wire16 b 2) /\ needs 6 b (v4_id (v4_unchecked b)) (wire16 b 4) /\
  (wire16 b 6 / 8192 mod 2 = 0 -> needs 8 b (v4_flags (v4_unchecked b)) (wire16 b 6 / 8192)) /\
  (wire16 b 6 / 8192 mod 2 = 1 -> v4_flags (v4_unchecked b) = Panic) /\
  needs 8 b (v4_offset (v4_unchecked b)) (wire16 b 6 mod 8192) /\
  needs 9 b (v4_ttl (v4_unchecked b)) (nthN b 8) /\ needs 10 b (v4_protocol (v4_unchecked b)) (ip_protocol_from (nthN b 9)) /\
  needs 12 b (v4_checksum (v4_unchecked b)) (wire16 b 10) /\
  needs 16 b (v4_source (v4_unchecked b)) (wire_addr b 12) /\ needs 20 b (v4_destination (v4_unchecked b)) (wire_addr b 16) /\
  needs (N.max 4 (ihl * 4)) b (v4_split (v4_unchecked b)) (takeN (ihl * 4) b, dropN (ihl * 4) (takeN (N.max (ihl * 4) (wire16 b 2)) b)) /\
  (5 <= ihl -> needs (ihl * 4) b (v4_options (v4_unchecked b)) (takeN (ihl * 4 - 20) (dropN 20 b))) /\
  (ihl < 5 -> v4_options (v4_unchecked b) = Panic).
Proof. exact UncheckedProofs.c53_v4. Qed.
Print Assumptions C53_v4.
(** C53: the hypotheses of C53_v4 can be met. *)
Example C53_v4_meets :
  (exists (b : bytes), is_bytes b /\ wire16 b 6 / 8192 mod 2 = 0) /\
  (exists (b : bytes), is_bytes b /\ wire16 b 6 / 8192 mod 2 = 1) /\
  (exists (b : bytes), is_bytes b /\ let ihl := nthN b 0 mod 16 in 5 <= ihl) /\
  (exists (b : bytes), is_bytes b /\ let ihl := nthN b 0 mod 16 in ihl < 5).
Proof. exact WitnessProofs.c53_v4_meets. Qed.
(** C53: ICMP and its typed messages. *)
Theorem C53_icmp : forall b,
  needs 1 b (icmp_get_kind (icmp_unchecked b)) (icmp_kind_from (nthN b 0)) /\ needs 2 b (icmp_code (icmp_unchecked b)) (nthN b 1) /\
  needs 4 b (icmp_checksum (icmp_unchecked b)) (wire16 b 2) /\ needs 4 b (icmp_split (icmp_unchecked b)) (takeN 4 b, dropN 4 b) /\
  needs 6 b (echo_identifier (echo_unchecked b)) (wire16 b 4) /\ needs 8 b (echo_sequence (echo_unchecked b)) (wire16 b 6) /\
  needs 8 b (echo_split (echo_unchecked b)) (takeN 8 b, dropN 8 b) /\
  needs 6 b (information_identifier (information_unchecked b)) (wire16 b 4) /\ needs 8 b (information_sequence (information_unchecked b)) (wire16 b 6) /\
  needs 8 b (information_split (information_unchecked b)) (takeN 8 b, dropN 8 b) /\
  needs 6 b (timestamp_identifier (timestamp_unchecked b)) (wire16 b 4) /\ needs 8 b (timestamp_sequence (timestamp_unchecked b)) (wire16 b 6) /\
  needs 12 b (timestamp_originate (timestamp_unchecked b)) (wire32 b 8) /\ needs 16 b (timestamp_receive (timestamp_unchecked b)) (wire32 b 12) /\
  needs 20 b (timestamp_transmit (timestamp_unchecked b)) (wire32 b 16) /\ needs 8 b (timestamp_split (timestamp_unchecked b)) (takeN 8 b, dropN 8 b) /\
  needs 5 b (parameter_problem_pointer (parameter_problem_unchecked b)) (nthN b 4) /\ needs 8 b (redirect_message_gateway (redirect_message_unchecked b)) (wire_addr b 4).
Proof. exact UncheckedProofs.c53_icmp. Qed.
Print Assumptions C53_icmp.
(** C53: the request/reply tests of the typed messages look at the first byte only. *)
Theorem C53_icmp_kinds : forall b,
  needs 1 b (echo_is_request (echo_unchecked b)) (nthN b 0 =? 8) /\ needs 1 b (echo_is_reply (echo_unchecked b)) (nthN b 0 =? 0) /\
  needs 1 b (information_is_request (information_unchecked b)) (nthN b 0 =? 15) /\ needs 1 b (information_is_reply (information_unchecked b)) (nthN b 0 =? 16) /\
  needs 1 b (timestamp_is_request (timestamp_unchecked b)) (nthN b 0 =? 13) /\ needs 1 b (timestamp_is_reply (timestamp_unchecked b)) (nthN b 0 =? 14).
Proof. exact UncheckedProofs.c53_icmp_kinds. Qed.
Print Assumptions C53_icmp_kinds.
Theorem C53_icmp_errors : forall b,
  needs 8 b (redirect_message_split (redirect_message_unchecked b)) (takeN 8 b, dropN 8 b) /\
  needs 8 b (parameter_problem_split (parameter_problem_unchecked b)) (takeN 5 b, dropN 8 b) /\
  needs 8 b (previous_split (previous_unchecked b)) (takeN 4 b, dropN 8 b) /\
  (8 <= len b -> embedded_packet (redirect_message_unchecked b) = v4_new (dropN 8 b) /\
     embedded_packet (parameter_problem_unchecked b) = v4_new (dropN 8 b) /\ embedded_packet (previous_unchecked b) = v4_new (dropN 8 b)) /\
  (len b < 8 -> embedded_packet (redirect_message_unchecked b) = Panic /\
     embedded_packet (parameter_problem_unchecked b) = Panic /\ embedded_packet (previous_unchecked b) = Panic).
Proof. exact UncheckedProofs.c53_icmp_errors. Qed.
Print Assumptions C53_icmp_errors.
(** C53: the hypotheses of C53_icmp_errors can be met. *)
Example C53_icmp_errors_meets :
  (exists (b : bytes), 8 <= len b) /\
  (exists (b : bytes), len b < 8).
Proof. exact WitnessProofs.c53_icmp_errors_meets. Qed.
Example C53_example : needs 12 [1; 2; 3; 4] (v4_checksum [1; 2; 3; 4]) 0 /\ v4_checksum [1; 2; 3; 4] = Panic /\
  v4_length [1; 2; 3; 4] = Ok 772 /\ v4_split [1; 2; 3; 4] = Ok ([1; 2; 3; 4], []) /\ v4_split [2; 2; 3; 4] = Panic.
Proof. exact UncheckedProofs.c53_example. Qed.
(** C53: the sizes, and the packet as a slice, of the packets that take the rest of the buffer for their payload. *)
Theorem C53_sizes : forall E b, rust_slice b -> let h := nthN b 12 / 16 * 4 in
  ether_header_size (ether_unchecked b) = Ok 14 /\ icmp_header_size (icmp_unchecked b) = Ok 4 /\ echo_header_size (echo_unchecked b) = Ok 8 /\
  rest_sizes E 14 b (ether_payload_size E (ether_unchecked b)) (ether_size E (ether_unchecked b)) (ether_as_ref E (ether_unchecked b)) /\
  rest_sizes E 4 b (icmp_payload_size E (icmp_unchecked b)) (icmp_size E (icmp_unchecked b)) (icmp_as_ref E (icmp_unchecked b)) /\
  rest_sizes E 8 b (echo_payload_size E (echo_unchecked b)) (echo_size E (echo_unchecked b)) (echo_as_ref E (echo_unchecked b)) /\
  needs 13 b (tcp_header_size (tcp_unchecked b)) h /\
  (13 <= len b -> rest_sizes E h b (tcp_payload_size E (tcp_unchecked b)) (tcp_size E (tcp_unchecked b)) (tcp_as_ref E (tcp_unchecked b))) /\
  (len b < 13 -> tcp_payload_size E (tcp_unchecked b) = Panic /\ tcp_size E (tcp_unchecked b) = Panic /\ tcp_as_ref E (tcp_unchecked b) = Panic).
Proof. exact StoreProofs.c53_sizes. Qed.
Print Assumptions C53_sizes.
(** C53: the hypotheses of C53_sizes can be met. *)
Example C53_sizes_meets :
  (exists (E : env) (b : bytes), rust_slice b /\ 13 <= len b) /\
  (exists (E : env) (b : bytes), rust_slice b /\ len b < 13).
Proof. exact WitnessProofs.c53_sizes_meets. Qed.
(** C53: the sizes of the packets that have a length of their own, and of the messages embedding a datagram. *)
Theorem C53_own_sizes : forall E b, rust_slice b -> let h := nthN b 0 mod 16 * 4 in
  needs 1 b (v4_header_size (v4_unchecked b)) h /\ needs 4 b (v4_payload_size (v4_unchecked b)) (wire16 b 2 - h) /\
  needs 4 b (v4_size (v4_unchecked b)) (N.max h (wire16 b 2)) /\
  needs (N.max 4 (N.max h (wire16 b 2))) b (v4_as_ref (v4_unchecked b)) (takeN (N.max h (wire16 b 2)) b) /\
  udp_header_size (udp_unchecked b) = Ok 8 /\ needs 6 b (udp_payload_size (udp_unchecked b)) (wire16 b 4 - 8) /\
  needs 6 b (udp_size (udp_unchecked b)) (N.max 8 (wire16 b 4)) /\
  information_header_size (information_unchecked b) = Ok 8 /\ information_payload_size (information_unchecked b) = Ok 0 /\ information_size E (information_unchecked b) = Ok 8 /\
  needs 8 b (information_as_ref E (information_unchecked b)) (takeN 8 b) /\
  timestamp_header_size (timestamp_unchecked b) = Ok 20 /\ timestamp_payload_size (timestamp_unchecked b) = Ok 0 /\ timestamp_size E (timestamp_unchecked b) = Ok 20 /\
  needs 20 b (timestamp_as_ref E (timestamp_unchecked b)) (takeN 20 b).
Proof. exact StoreProofs.c53_own_sizes. Qed.
Print Assumptions C53_own_sizes.
(** C53: the hypotheses of C53_own_sizes can be met. *)
Example C53_own_sizes_meets :
  exists (E : env) (b : bytes), rust_slice b.
Proof. exact WitnessProofs.c53_own_sizes_meets. Qed.
(** C53: the ICMP error messages: the payload counts as the header of the embedded datagram, or as all that is left if there is none; the message is cut accordingly. *)
Theorem C53_embedded_sizes : forall E b, rust_slice b ->
  (len b < 8 -> embedded_payload_size E b = Panic /\ embedded_size E b = Panic /\ embedded_as_ref E b = Panic) /\
  (8 <= len b -> v4_new (dropN 8 b) = Ok (dropN 8 b) -> let n := nthN b 8 mod 16 * 4 in
     embedded_payload_size E b = Ok n /\ embedded_size E b = Ok (8 + n) /\ embedded_as_ref E b = Ok (takeN (8 + n) b)) /\
  (8 <= len b -> v4_new (dropN 8 b) <> Ok (dropN 8 b) ->
     embedded_payload_size E b = Ok (len b - 8) /\ embedded_size E b = Ok (len b) /\ embedded_as_ref E b = Ok b).
Proof. exact StoreProofs.c53_embedded_sizes. Qed.
Print Assumptions C53_embedded_sizes.
(** C53: the hypotheses of C53_embedded_sizes can be met. *)
Example C53_embedded_sizes_meets :
  (exists (E : env) (b : bytes), rust_slice b /\ len b < 8) /\
  (exists (E : env) (b : bytes), rust_slice b /\ 8 <= len b /\ v4_new (dropN 8 b) = Ok (dropN 8 b)) /\
  (exists (E : env) (b : bytes), rust_slice b /\ 8 <= len b /\ v4_new (dropN 8 b) <> Ok (dropN 8 b)).
Proof. exact WitnessProofs.c53_embedded_sizes_meets. Qed.
Example C53_sizes_example : forall E, rust_slice [1; 2; 3] /\ ether_as_ref E (ether_unchecked [1; 2; 3]) = (if overflow_checks E then Panic else Ok [1; 2; 3]) /\
  embedded_size E ([3; 0; 0; 0; 0; 0; 0; 0] ++ [69; 0; 0; 21] ++ zeros 17) = Ok 28 /\ embedded_size E [3; 0; 0; 0; 0; 0; 0; 0; 69] = Ok 9.
Proof. exact StoreProofs.c53_sizes_example. Qed.

(** ** C54 *)
Theorem C54_panics : forall b, dissect b = Panic <-> len b = 14 /\ is_ip_type (wire16 b 12).
Proof. exact FrameProofs.c54_panics. Qed.
Print Assumptions C54_panics.
(** C54: through ip::v4::Packet it never panics. *)
Theorem C54_v4_no_panic : forall b, dissect_v4 b <> Panic.
Proof. exact FrameProofs.c54_v4_no_panic. Qed.
Print Assumptions C54_v4_no_panic.
(** C54: where each layer of a dissected frame lies, and what is accepted. *)
Theorem C54_udp : forall b ip u, dissect b = Ok (DUdp ip u) <->
  exists ty, is_ip_type ty /\ frame_of ty 17 b ip u /\ udp_fits u.
Proof. exact FrameProofs.c54_udp. Qed.
Print Assumptions C54_udp.
Theorem C54_tcp : forall b ip t, dissect b = Ok (DTcp ip t) <->
  exists ty, is_ip_type ty /\ frame_of ty 6 b ip t /\ tcp_fits t.
Proof. exact FrameProofs.c54_tcp. Qed.
Print Assumptions C54_tcp.
Theorem C54_icmp : forall b ip m, dissect b = Ok (DIcmp ip m) <->
  exists ty, is_ip_type ty /\ frame_of ty 1 b ip m /\ icmp_fits m.
Proof. exact FrameProofs.c54_icmp. Qed.
Print Assumptions C54_icmp.
(** C54: every other frame that is accepted. *)
Theorem C54_other : forall b,
  (forall e, dissect b = Ok (DOtherEther e) <-> e = b /\ 14 <= len b /\ ~ is_ip_type (wire16 b 12)) /\
  (forall ip, dissect b = Ok (DIp6 ip) <-> is_ip_type (wire16 b 12) /\ ip = dropN 14 b /\ 15 <= len b /\ nthN b 14 / 16 = 6) /\
  (forall ip, dissect b = Ok (DOtherIp4 ip) <->
     exists ty proto body, is_ip_type ty /\ frame_of ty proto b ip body /\ proto <> 1 /\ proto <> 6 /\ proto <> 17).
Proof. exact FrameProofs.c54_other. Qed.
Print Assumptions C54_other.
(** C54: through ip::v4::Packet the same layers, for the IPv4 EtherType. *)
Theorem C54_v4_same : forall b, wire16 b 12 = 0x0800 -> nthN b 14 / 16 = 4 -> 15 <= len b -> dissect_v4 b = dissect b.
Proof. exact FrameProofs.c54_v4_same. Qed.
Print Assumptions C54_v4_same.
(** C54: the hypotheses of C54_v4_same can be met. *)
Example C54_v4_same_meets :
  exists (b : bytes), wire16 b 12 = 0x0800 /\ nthN b 14 / 16 = 4 /\ 15 <= len b.
Proof. exact WitnessProofs.c54_v4_same_meets. Qed.
Example C54_example :
  let u := [5; 57; 35; 41; 0; 12; 241; 150; 116; 101; 115; 116] in
  let ip := [69; 12; 0; 32; 48; 10; 64; 0; 64; 17; 12; 180; 127; 0; 0; 1; 127; 0; 0; 2] ++ u ++ [9; 9; 9] in
  let e := [1; 2; 3; 4; 5; 6; 0; 35; 105; 99; 89; 190; 8; 0] in
  dissect (e ++ ip) = Ok (DUdp ip u) /\ dissect_v4 (e ++ ip) = Ok (DUdp ip u) /\ dissect e = Panic /\ dissect_v4 e = Err SmallBuffer /\
  dissect (takeN 30 (e ++ ip)) = Err SmallBuffer.
Proof. exact FrameProofs.c54_example. Qed.

(** ** C55 *)
(** C55: UDP. *)
Theorem C55_udp : forall E b ip u, is_bytes b ->
  ether_new b = Ok b -> wire16 b 12 = 0x0800 -> ether_payload b = Ok ip ->
  v4_new ip = Ok ip -> plain_ip E 17 ip -> v4_payload ip = Ok u ->
  udp_new u = Ok u -> plain_udp E ip u -> len u mod 2 = 0 \/ cursor_eof E = EofKeep ->
  copy_udp E b = Ok b.
Proof. exact CopyProofs.c55_udp. Qed.
Print Assumptions C55_udp.
(** C55: the hypotheses of C55_udp can be met. *)
Example C55_udp_meets :
  exists (E : env) (b : bytes) (ip : bytes) (u : bytes), is_bytes b /\ ether_new b = Ok b /\ wire16 b 12 = 0x0800 /\ ether_payload b = Ok ip /\ v4_new ip = Ok ip /\ plain_ip E 17 ip /\ v4_payload ip = Ok u /\ udp_new u = Ok u /\ plain_udp E ip u /\ (len u mod 2 = 0 \/ cursor_eof E = EofKeep).
Proof. exact WitnessProofs.c55_udp_meets. Qed.
Theorem C55_order_refuted : forall E b ip u, is_bytes b ->
  ether_new b = Ok b -> wire16 b 12 = 0x0800 -> ether_payload b = Ok ip ->
  v4_new ip = Ok ip -> plain_ip E 17 ip -> v4_payload ip = Ok u ->
  udp_new u = Ok u -> plain_udp E ip u -> len u mod 2 = 0 \/ cursor_eof E = EofKeep ->
  (copy_udp_by dscp_then_ecn E b = Ok b <-> nthN ip 1 / 4 < 16).
Proof. exact CopyProofs.c55_order_refuted. Qed.
Print Assumptions C55_order_refuted.
(** C55: the hypotheses of C55_order_refuted can be met. *)
Example C55_order_refuted_meets :
  exists (E : env) (b : bytes) (ip : bytes) (u : bytes), is_bytes b /\ ether_new b = Ok b /\ wire16 b 12 = 0x0800 /\ ether_payload b = Ok ip /\ v4_new ip = Ok ip /\ plain_ip E 17 ip /\ v4_payload ip = Ok u /\ udp_new u = Ok u /\ plain_udp E ip u /\ (len u mod 2 = 0 \/ cursor_eof E = EofKeep).
Proof. exact WitnessProofs.c55_order_refuted_meets. Qed.
Theorem C55_flags_refuted : forall E b ip u, is_bytes b ->
  ether_new b = Ok b -> wire16 b 12 = 0x0800 -> ether_payload b = Ok ip ->
  v4_new ip = Ok ip -> plain_ip_word 0x4000 E 17 ip -> v4_payload ip = Ok u ->
  udp_new u = Ok u -> plain_udp E ip u -> len u mod 2 = 0 \/ cursor_eof E = EofKeep ->
  exists c, copy_udp_by and_flags E b = Ok c /\ len c = len b /\ wire16 c 20 = 2 /\ wire16 b 20 = 0x4000.
Proof. exact CopyProofs.c55_flags_refuted. Qed.
Print Assumptions C55_flags_refuted.
(** C55: the hypotheses of C55_flags_refuted can be met. *)
Example C55_flags_refuted_meets :
  exists (E : env) (b : bytes) (ip : bytes) (u : bytes), is_bytes b /\ ether_new b = Ok b /\ wire16 b 12 = 0x0800 /\ ether_payload b = Ok ip /\ v4_new ip = Ok ip /\ plain_ip_word 0x4000 E 17 ip /\ v4_payload ip = Ok u /\ udp_new u = Ok u /\ plain_udp E ip u /\ (len u mod 2 = 0 \/ cursor_eof E = EofKeep).
Proof. exact WitnessProofs.c55_flags_refuted_meets. Qed.
(** C55: TCP. *)
Theorem C55_tcp : forall E b ip t, is_bytes b ->
  ether_new b = Ok b -> wire16 b 12 = 0x0800 -> ether_payload b = Ok ip ->
  v4_new ip = Ok ip -> plain_ip E 6 ip -> v4_payload ip = Ok t ->
  tcp_new t = Ok t -> plain_tcp E ip t -> len t mod 2 = 0 \/ cursor_eof E = EofKeep ->
  copy_tcp E b = Ok b.
Proof. exact CopyProofs.c55_tcp. Qed.
Print Assumptions C55_tcp.
(** C55: the hypotheses of C55_tcp can be met. *)
Example C55_tcp_meets :
  exists (E : env) (b : bytes) (ip : bytes) (t : bytes), is_bytes b /\ ether_new b = Ok b /\ wire16 b 12 = 0x0800 /\ ether_payload b = Ok ip /\ v4_new ip = Ok ip /\ plain_ip E 6 ip /\ v4_payload ip = Ok t /\ tcp_new t = Ok t /\ plain_tcp E ip t /\ (len t mod 2 = 0 \/ cursor_eof E = EofKeep).
Proof. exact WitnessProofs.c55_tcp_meets. Qed.
(** C55: ICMP Echo, of any length. *)
Theorem C55_echo : forall E b ip m, is_bytes b ->
  ether_new b = Ok b -> wire16 b 12 = 0x0800 -> ether_payload b = Ok ip ->
  v4_new ip = Ok ip -> plain_ip E 1 ip -> v4_payload ip = Ok m ->
  echo_new m = Ok m -> plain_echo E m -> copy_echo E b = Ok b.
Proof. exact CopyProofs.c55_echo. Qed.
Print Assumptions C55_echo.
(** C55: the hypotheses of C55_echo can be met. *)
Example C55_echo_meets :
  exists (E : env) (b : bytes) (ip : bytes) (m : bytes), is_bytes b /\ ether_new b = Ok b /\ wire16 b 12 = 0x0800 /\ ether_payload b = Ok ip /\ v4_new ip = Ok ip /\ plain_ip E 1 ip /\ v4_payload ip = Ok m /\ echo_new m = Ok m /\ plain_echo E m.
Proof. exact WitnessProofs.c55_echo_meets. Qed.
Example C55_example : forall E,
  let u := [5; 57; 35; 41; 0; 12; 241; 150; 116; 101; 115; 116] in
  let ip := [69; 12; 0; 32; 48; 10; 0; 0; 64; 17; 76; 180; 127; 0; 0; 1; 127; 0; 0; 2] ++ u in
  let b := [1; 2; 3; 4; 5; 6; 0; 35; 105; 99; 89; 190; 8; 0] ++ ip in
  ether_new b = Ok b /\ ether_payload b = Ok ip /\ v4_new ip = Ok ip /\ plain_ip E 17 ip /\ v4_payload ip = Ok u /\
  udp_new u = Ok u /\ plain_udp E ip u /\ copy_udp E b = Ok b /\ copy_udp_by dscp_then_ecn E b = Ok b /\
  (exists t, tcp_chain E (Some []) [V4SetTtl 64; V4SetDscp 46] [TcpSet (TcpSetWindow 512); TcpPayload [104; 105]; TcpSet (TcpSetFlags 258)] dynamic_new = Ok t /\
     copy_tcp E t = Ok t) /\
  (exists m, echo_chain E (Some (Some [], [V4SetTtl 64; V4SetDscp 46])) [EchoReply; EchoSequence 7; EchoPayload [104; 105; 106]] dynamic_new = Ok m /\
     copy_echo E m = Ok m).
Proof. exact CopyProofs.c55_example. Qed.
(** C55: Don't Fragment. *)
Example C55_flags_example : forall E,
  let u := [5; 57; 35; 41; 0; 12; 241; 150; 116; 101; 115; 116] in
  let ip := [69; 12; 0; 32; 48; 10; 64; 0; 64; 17; 12; 180; 127; 0; 0; 1; 127; 0; 0; 2] ++ u in
  let b := [1; 2; 3; 4; 5; 6; 0; 35; 105; 99; 89; 190; 8; 0] ++ ip in
  ether_new b = Ok b /\ ether_payload b = Ok ip /\ v4_new ip = Ok ip /\ plain_ip_word 0x4000 E 17 ip /\ v4_payload ip = Ok u /\
  udp_new u = Ok u /\ plain_udp E ip u /\ copy_udp_by and_flags E b <> Ok b.
Proof. exact CopyProofs.c55_flags_example. Qed.

(** ** C56 *)
(** C56: Ethernet. *)
Theorem C56_ether_order : forall ops ops' b, ether_new b = Ok b -> each_once ether_field ops -> Permutation ops ops' ->
  all_ok ether_apply ops b = all_ok ether_apply ops' b.
Proof. exact OrderProofs.c56_ether_order. Qed.
Print Assumptions C56_ether_order.
(** C56: the hypotheses of C56_ether_order can be met. *)
Example C56_ether_order_meets :
  exists (ops : list ether_call) (ops' : list ether_call) (b : bytes), ether_new b = Ok b /\ each_once ether_field ops /\ Permutation ops ops'.
Proof. exact WitnessProofs.c56_ether_order_meets. Qed.
(** C56: UDP. *)
Theorem C56_udp_order : forall ops ops' b, udp_no_payload b = Ok b -> each_once udp_field ops -> Permutation ops ops' ->
  all_ok udp_apply ops b = all_ok udp_apply ops' b.
Proof. exact OrderProofs.c56_udp_order. Qed.
Print Assumptions C56_udp_order.
(** C56: the hypotheses of C56_udp_order can be met. *)
Example C56_udp_order_meets :
  exists (ops : list udp_setter) (ops' : list udp_setter) (b : bytes), udp_no_payload b = Ok b /\ each_once udp_field ops /\ Permutation ops ops'.
Proof. exact WitnessProofs.c56_udp_order_meets. Qed.
(** C56: TCP, without set_flags. *)
Theorem C56_tcp_order : forall ops ops' b, tcp_new b = Ok b -> 5 <= nthN b 12 / 16 ->
  Forall (fun o => ~ tcp_is_flags o) ops -> each_once tcp_field ops -> Permutation ops ops' ->
  all_ok tcp_apply ops b = all_ok tcp_apply ops' b.
Proof. exact OrderProofs.c56_tcp_order. Qed.
Print Assumptions C56_tcp_order.
(** C56: the hypotheses of C56_tcp_order can be met. *)
Example C56_tcp_order_meets :
  exists (ops : list tcp_setter) (ops' : list tcp_setter) (b : bytes), tcp_new b = Ok b /\ 5 <= nthN b 12 / 16 /\ Forall (fun o => ~ tcp_is_flags o) ops /\ each_once tcp_field ops /\ Permutation ops ops'.
Proof. exact WitnessProofs.c56_tcp_order_meets. Qed.
(** C56: IPv4, when no two calls write the same bytes. *)
Theorem C56_v4_order : forall ops ops' b, is_bytes b -> v4_no_payload b = Ok b -> 5 <= nthN b 0 mod 16 ->
  Forall v4_setter_ok ops -> Forall v4_in_range ops -> each_once v4_field ops -> Permutation ops ops' ->
  all_ok v4_apply ops b = all_ok v4_apply ops' b.
Proof. exact OrderProofs.c56_v4_order. Qed.
Print Assumptions C56_v4_order.
(** C56: the hypotheses of C56_v4_order can be met. *)
Example C56_v4_order_meets :
  exists (ops : list v4_setter) (ops' : list v4_setter) (b : bytes), is_bytes b /\ v4_no_payload b = Ok b /\ 5 <= nthN b 0 mod 16 /\ Forall v4_setter_ok ops /\ Forall v4_in_range ops /\ each_once v4_field ops /\ Permutation ops ops'.
Proof. exact WitnessProofs.c56_v4_order_meets. Qed.
(** C56: echo. *)
Theorem C56_echo_order : forall ops ops' b, echo_new b = Ok b -> each_once echo_field ops -> Permutation ops ops' ->
  all_ok echo_apply ops b = all_ok echo_apply ops' b.
Proof. exact OrderProofs.c56_echo_order. Qed.
Print Assumptions C56_echo_order.
(** C56: the hypotheses of C56_echo_order can be met. *)
Example C56_echo_order_meets :
  exists (ops : list echo_setter) (ops' : list echo_setter) (b : bytes), echo_new b = Ok b /\ each_once echo_field ops /\ Permutation ops ops'.
Proof. exact WitnessProofs.c56_echo_order_meets. Qed.
(** C56: information. *)
Theorem C56_information_order : forall ops ops' b, information_new b = Ok b -> each_once information_field ops -> Permutation ops ops' ->
  all_ok information_apply ops b = all_ok information_apply ops' b.
Proof. exact OrderProofs.c56_information_order. Qed.
Print Assumptions C56_information_order.
(** C56: the hypotheses of C56_information_order can be met. *)
Example C56_information_order_meets :
  exists (ops : list information_setter) (ops' : list information_setter) (b : bytes), information_new b = Ok b /\ each_once information_field ops /\ Permutation ops ops'.
Proof. exact WitnessProofs.c56_information_order_meets. Qed.
(** C56: timestamp. *)
Theorem C56_timestamp_order : forall ops ops' b, timestamp_new b = Ok b -> each_once timestamp_field ops -> Permutation ops ops' ->
  all_ok timestamp_apply ops b = all_ok timestamp_apply ops' b.
Proof. exact OrderProofs.c56_timestamp_order. Qed.
Print Assumptions C56_timestamp_order.
(** C56: the hypotheses of C56_timestamp_order can be met. *)
Example C56_timestamp_order_meets :
  exists (ops : list timestamp_setter) (ops' : list timestamp_setter) (b : bytes), timestamp_new b = Ok b /\ each_once timestamp_field ops /\ Permutation ops ops'.
Proof. exact WitnessProofs.c56_timestamp_order_meets. Qed.
(** C56: the same inside checked(): the recomputed checksums agree. *)
Theorem C56_v4_checked : forall E ops ops' b, is_bytes b -> v4_no_payload b = Ok b -> 5 <= nthN b 0 mod 16 ->
  Forall v4_setter_ok ops -> Forall v4_in_range ops -> each_once v4_field ops -> Permutation ops ops' ->
  v4_checked E ops b = v4_checked E ops' b.
Proof. exact OrderProofs.c56_v4_checked. Qed.
Print Assumptions C56_v4_checked.
(** C56: the hypotheses of C56_v4_checked can be met. *)
Example C56_v4_checked_meets :
  exists (ops : list v4_setter) (ops' : list v4_setter) (b : bytes), is_bytes b /\ v4_no_payload b = Ok b /\ 5 <= nthN b 0 mod 16 /\ Forall v4_setter_ok ops /\ Forall v4_in_range ops /\ each_once v4_field ops /\ Permutation ops ops'.
Proof. exact WitnessProofs.c56_v4_checked_meets. Qed.
(** C56: UDP, with any parent packet. *)
Theorem C56_udp_checked : forall E ip ops ops' b, udp_no_payload b = Ok b -> each_once udp_field ops -> Permutation ops ops' ->
  udp_checked E ip ops b = udp_checked E ip ops' b.
Proof. exact OrderProofs.c56_udp_checked. Qed.
Print Assumptions C56_udp_checked.
(** C56: the hypotheses of C56_udp_checked can be met. *)
Example C56_udp_checked_meets :
  exists (ops : list udp_setter) (ops' : list udp_setter) (b : bytes), udp_no_payload b = Ok b /\ each_once udp_field ops /\ Permutation ops ops'.
Proof. exact WitnessProofs.c56_udp_checked_meets. Qed.
(** C56: TCP. *)
Theorem C56_tcp_checked : forall E ip ops ops' b, tcp_new b = Ok b -> 5 <= nthN b 12 / 16 ->
  Forall (fun o => ~ tcp_is_flags o) ops -> each_once tcp_field ops -> Permutation ops ops' ->
  tcp_checked E ip ops b = tcp_checked E ip ops' b.
Proof. exact OrderProofs.c56_tcp_checked. Qed.
Print Assumptions C56_tcp_checked.
(** C56: the hypotheses of C56_tcp_checked can be met. *)
Example C56_tcp_checked_meets :
  exists (ops : list tcp_setter) (ops' : list tcp_setter) (b : bytes), tcp_new b = Ok b /\ 5 <= nthN b 12 / 16 /\ Forall (fun o => ~ tcp_is_flags o) ops /\ each_once tcp_field ops /\ Permutation ops ops'.
Proof. exact WitnessProofs.c56_tcp_checked_meets. Qed.
(** C56: ICMP. *)
Theorem C56_icmp_checked : forall E b,
  (forall ops ops', echo_new b = Ok b -> each_once echo_field ops -> Permutation ops ops' ->
     echo_checked E ops b = echo_checked E ops' b) /\
  (forall ops ops', information_new b = Ok b -> each_once information_field ops -> Permutation ops ops' ->
     information_checked E ops b = information_checked E ops' b) /\
  (forall ops ops', timestamp_new b = Ok b -> each_once timestamp_field ops -> Permutation ops ops' ->
     timestamp_checked E ops b = timestamp_checked E ops' b).
Proof. exact OrderProofs.c56_icmp_checked. Qed.
Print Assumptions C56_icmp_checked.
(** C56: the hypotheses of C56_icmp_checked can be met. *)
Example C56_icmp_checked_meets :
  (exists (b : bytes) ops ops', echo_new b = Ok b /\ each_once echo_field ops /\ Permutation ops ops') /\
  (exists (b : bytes) ops ops', information_new b = Ok b /\ each_once information_field ops /\ Permutation ops ops') /\
  (exists (b : bytes) ops ops', timestamp_new b = Ok b /\ each_once timestamp_field ops /\ Permutation ops ops').
Proof. exact WitnessProofs.c56_icmp_checked_meets. Qed.
Theorem C56_tcp_flags_refuted : exists b c, tcp_new b = Ok b /\ nthN b 12 / 16 = 5 /\
  each_once tcp_field [TcpSetFlags 2; TcpSetWindow 9] /\
  all_ok tcp_apply [TcpSetWindow 9; TcpSetFlags 2] b = Some c /\
  all_ok tcp_apply [TcpSetFlags 2; TcpSetWindow 9] b = None.
Proof. exact OrderProofs.c56_tcp_flags_refuted. Qed.
Print Assumptions C56_tcp_flags_refuted.
(** C56: DSCP and ECN do not commute (set_ecn keeps four of the six DSCP bits). *)
Theorem C56_v4_dscp_ecn_refuted : exists b c d, v4_no_payload b = Ok b /\ nthN b 0 mod 16 = 5 /\
  all_ok v4_apply [V4SetDscp 46; V4SetEcn 1] b = Some c /\ all_ok v4_apply [V4SetEcn 1; V4SetDscp 46] b = Some d /\ c <> d.
Proof. exact OrderProofs.c56_v4_dscp_ecn_refuted. Qed.
Print Assumptions C56_v4_dscp_ecn_refuted.
Example C56_example : forall E, let b := [69; 0; 0; 20; 1; 2; 64; 0; 64; 17; 9; 9; 10; 0; 0; 1; 10; 0; 0; 2] in
  let ops := [V4SetTtl 3; V4SetId 513; V4SetDscp 46] in let ops' := [V4SetDscp 46; V4SetTtl 3; V4SetId 513] in
  is_bytes b /\ v4_no_payload b = Ok b /\ Forall v4_setter_ok ops /\ Forall v4_in_range ops /\
  each_once v4_field ops /\ Permutation ops ops' /\ v4_checked E ops b = v4_checked E ops' b /\
  all_ok v4_apply ops b = Some [69; 184; 0; 20; 2; 1; 64; 0; 3; 17; 9; 9; 10; 0; 0; 1; 10; 0; 0; 2].
Proof. exact OrderProofs.c56_example. Qed.

(** ** C57 *)
(** C57: IPv4: the result does not depend on the checksum stored before. *)
Theorem C57_v4_stored : forall E b c, is_bytes b -> is_bytes c -> v4_no_payload b = Ok b -> 3 <= nthN b 0 mod 16 ->
  only_changes 10 12 b c -> v4_update_checksum E c = v4_update_checksum E b.
Proof. exact RefreshProofs.c57_v4_stored. Qed.
Print Assumptions C57_v4_stored.
(** C57: the hypotheses of C57_v4_stored can be met. *)
Example C57_v4_stored_meets :
  exists (b : bytes) (c : bytes), is_bytes b /\ is_bytes c /\ v4_no_payload b = Ok b /\ 3 <= nthN b 0 mod 16 /\ only_changes 10 12 b c.
Proof. exact WitnessProofs.c57_v4_stored_meets. Qed.
(** C57: IPv4: updating is the identity exactly on the valid packets. *)
Theorem C57_v4_fixed : forall E b, is_bytes b -> v4_no_payload b = Ok b -> 3 <= nthN b 0 mod 16 ->
  (v4_update_checksum E b = (b, Ok tt) <-> v4_is_valid E b = Ok true).
Proof. exact RefreshProofs.c57_v4_fixed. Qed.
Print Assumptions C57_v4_fixed.
(** C57: the hypotheses of C57_v4_fixed can be met. *)
Example C57_v4_fixed_meets :
  exists (b : bytes), is_bytes b /\ v4_no_payload b = Ok b /\ 3 <= nthN b 0 mod 16.
Proof. exact WitnessProofs.c57_v4_fixed_meets. Qed.
(** C57: UDP, any datagram, any build profile, any std. *)
Theorem C57_udp_stored : forall E p b c, is_bytes p -> is_bytes b -> is_bytes c -> 20 <= len p -> 8 <= len b ->
  only_changes 6 8 b c -> udp_update_checksum E (V4 p) c = udp_update_checksum E (V4 p) b.
Proof. exact RefreshProofs.c57_udp_stored. Qed.
Print Assumptions C57_udp_stored.
(** C57: the hypotheses of C57_udp_stored can be met. *)
Example C57_udp_stored_meets :
  exists (p : bytes) (b : bytes) (c : bytes), is_bytes p /\ is_bytes b /\ is_bytes c /\ 20 <= len p /\ 8 <= len b /\ only_changes 6 8 b c.
Proof. exact WitnessProofs.c57_udp_stored_meets. Qed.
(** C57: UDP. *)
Theorem C57_udp_fixed : forall E p b, is_bytes p -> is_bytes b -> 20 <= len p -> 8 <= len b ->
  (udp_update_checksum E (V4 p) b = (b, Ok tt) <-> udp_is_valid E (V4 p) b = Ok true).
Proof. exact RefreshProofs.c57_udp_fixed. Qed.
Print Assumptions C57_udp_fixed.
(** C57: the hypotheses of C57_udp_fixed can be met. *)
Example C57_udp_fixed_meets :
  exists (p : bytes) (b : bytes), is_bytes p /\ is_bytes b /\ 20 <= len p /\ 8 <= len b.
Proof. exact WitnessProofs.c57_udp_fixed_meets. Qed.
(** C57: TCP. *)
Theorem C57_tcp_stored : forall E p b c, is_bytes p -> is_bytes b -> is_bytes c -> 20 <= len p -> len b <= 131065 ->
  len b mod 2 = 0 \/ cursor_eof E = EofKeep -> tcp_new b = Ok b -> 5 <= nthN b 12 / 16 ->
  only_changes 16 18 b c -> tcp_update_checksum E (V4 p) c = tcp_update_checksum E (V4 p) b.
Proof. exact RefreshProofs.c57_tcp_stored. Qed.
Print Assumptions C57_tcp_stored.
(** C57: the hypotheses of C57_tcp_stored can be met. *)
Example C57_tcp_stored_meets :
  exists (E : env) (p : bytes) (b : bytes) (c : bytes), is_bytes p /\ is_bytes b /\ is_bytes c /\ 20 <= len p /\ len b <= 131065 /\ (len b mod 2 = 0 \/ cursor_eof E = EofKeep) /\ tcp_new b = Ok b /\ 5 <= nthN b 12 / 16 /\ only_changes 16 18 b c.
Proof. exact WitnessProofs.c57_tcp_stored_meets. Qed.
(** C57: TCP. *)
Theorem C57_tcp_fixed : forall E p b, is_bytes p -> is_bytes b -> 20 <= len p -> len b <= 131065 ->
  len b mod 2 = 0 \/ cursor_eof E = EofKeep -> tcp_new b = Ok b -> 5 <= nthN b 12 / 16 ->
  (tcp_update_checksum E (V4 p) b = (b, Ok tt) <-> tcp_is_valid E (V4 p) b = Ok true).
Proof. exact RefreshProofs.c57_tcp_fixed. Qed.
Print Assumptions C57_tcp_fixed.
(** C57: the hypotheses of C57_tcp_fixed can be met. *)
Example C57_tcp_fixed_meets :
  exists (E : env) (p : bytes) (b : bytes), is_bytes p /\ is_bytes b /\ 20 <= len p /\ len b <= 131065 /\ (len b mod 2 = 0 \/ cursor_eof E = EofKeep) /\ tcp_new b = Ok b /\ 5 <= nthN b 12 / 16.
Proof. exact WitnessProofs.c57_tcp_fixed_meets. Qed.
(** C57: echo: opening and dropping the checked guard. *)
Theorem C57_echo_stored : forall E b c, rust_slice b -> is_bytes c -> echo_new b = Ok b -> only_changes 2 4 b c ->
  echo_checked E [] c = echo_checked E [] b.
Proof. exact RefreshProofs.c57_echo_stored. Qed.
Print Assumptions C57_echo_stored.
(** C57: the hypotheses of C57_echo_stored can be met. *)
Example C57_echo_stored_meets :
  exists (E : env) (b : bytes) (c : bytes), rust_slice b /\ is_bytes c /\ echo_new b = Ok b /\ only_changes 2 4 b c.
Proof. exact WitnessProofs.c57_echo_stored_meets. Qed.
(** C57: echo. *)
Theorem C57_echo_fixed : forall E b, rust_slice b -> echo_new b = Ok b ->
  (echo_checked E [] b = (b, Ok tt) <-> icmp_is_valid E b = Ok true).
Proof. exact RefreshProofs.c57_echo_fixed. Qed.
Print Assumptions C57_echo_fixed.
(** C57: the hypotheses of C57_echo_fixed can be met. *)
Example C57_echo_fixed_meets :
  exists (E : env) (b : bytes), rust_slice b /\ echo_new b = Ok b.
Proof. exact WitnessProofs.c57_echo_fixed_meets. Qed.
(** C57: information. *)
Theorem C57_information_stored : forall E b c, is_bytes b -> is_bytes c -> information_new b = Ok b -> only_changes 2 4 b c ->
  information_checked E [] c = information_checked E [] b.
Proof. exact RefreshProofs.c57_information_stored. Qed.
Print Assumptions C57_information_stored.
(** C57: the hypotheses of C57_information_stored can be met. *)
Example C57_information_stored_meets :
  exists (b : bytes) (c : bytes), is_bytes b /\ is_bytes c /\ information_new b = Ok b /\ only_changes 2 4 b c.
Proof. exact WitnessProofs.c57_information_stored_meets. Qed.
(** C57: information. *)
Theorem C57_information_fixed : forall E b, is_bytes b -> information_new b = Ok b ->
  (information_checked E [] b = (b, Ok tt) <-> icmp_is_valid E (takeN 8 b) = Ok true).
Proof. exact RefreshProofs.c57_information_fixed. Qed.
Print Assumptions C57_information_fixed.
(** C57: the hypotheses of C57_information_fixed can be met. *)
Example C57_information_fixed_meets :
  exists (b : bytes), is_bytes b /\ information_new b = Ok b.
Proof. exact WitnessProofs.c57_information_fixed_meets. Qed.
(** C57: timestamp. *)
Theorem C57_timestamp_stored : forall E b c, is_bytes b -> is_bytes c -> timestamp_new b = Ok b -> only_changes 2 4 b c ->
  timestamp_checked E [] c = timestamp_checked E [] b.
Proof. exact RefreshProofs.c57_timestamp_stored. Qed.
Print Assumptions C57_timestamp_stored.
(** C57: the hypotheses of C57_timestamp_stored can be met. *)
Example C57_timestamp_stored_meets :
  exists (b : bytes) (c : bytes), is_bytes b /\ is_bytes c /\ timestamp_new b = Ok b /\ only_changes 2 4 b c.
Proof. exact WitnessProofs.c57_timestamp_stored_meets. Qed.
(** C57: timestamp. *)
Theorem C57_timestamp_fixed : forall E b, is_bytes b -> timestamp_new b = Ok b ->
  (timestamp_checked E [] b = (b, Ok tt) <-> icmp_is_valid E (takeN 20 b) = Ok true).
Proof. exact RefreshProofs.c57_timestamp_fixed. Qed.
Print Assumptions C57_timestamp_fixed.
(** C57: the hypotheses of C57_timestamp_fixed can be met. *)
Example C57_timestamp_fixed_meets :
  exists (b : bytes), is_bytes b /\ timestamp_new b = Ok b.
Proof. exact WitnessProofs.c57_timestamp_fixed_meets. Qed.
Example C57_example : forall E, let b := [69; 0; 0; 20; 1; 2; 64; 0; 64; 17; 9; 9; 10; 0; 0; 1; 10; 0; 0; 2] in
  let c := [69; 0; 0; 20; 1; 2; 64; 0; 64; 17; 37; 213; 10; 0; 0; 1; 10; 0; 0; 2] in
  v4_no_payload b = Ok b /\ is_bytes b /\ only_changes 10 12 b c /\ v4_update_checksum E b = (c, Ok tt) /\
  v4_update_checksum E c = (c, Ok tt) /\ v4_is_valid E c = Ok true.
Proof. exact RefreshProofs.c57_example. Qed.

(** ** C58 *)
Theorem C58_tcp_finishes : forall E area, is_bytes area ->
  ((exists n, In (Ok Finished) (nexts (tcp_iter_next E) n area)) <->
   exists ps t, area = area_of ps t /\ Forall (piece_ok tcp_num) ps /\ area_end tcp_num t).
Proof. exact TileProofs.c58_tcp_finishes. Qed.
Print Assumptions C58_tcp_finishes.
(** C58: the hypotheses of C58_tcp_finishes can be met. *)
Example C58_tcp_finishes_meets :
  exists (area : bytes), is_bytes area.
Proof. exact WitnessProofs.c58_tcp_finishes_meets. Qed.
(** C58: IPv4. *)
Theorem C58_v4_finishes : forall E area, is_bytes area ->
  ((exists n, In (Ok Finished) (nexts (v4_iter_next E) n area)) <->
   exists ps t, area = area_of ps t /\ Forall (piece_ok v4_num) ps /\ area_end v4_num t).
Proof. exact TileProofs.c58_v4_finishes. Qed.
Print Assumptions C58_v4_finishes.
(** C58: the hypotheses of C58_v4_finishes can be met. *)
Example C58_v4_finishes_meets :
  exists (area : bytes), is_bytes area.
Proof. exact WitnessProofs.c58_v4_finishes_meets. Qed.
Theorem C58_tcp_tiles : forall E area, is_bytes area -> (exists n, In (Ok Finished) (nexts (tcp_iter_next E) n area)) ->
  exists os outs t, area = concat outs ++ t /\ area_end tcp_num t /\ Forall2 (fun y o => tcpopt_as_ref E o = Ok y) outs os /\
    forall m, nexts (tcp_iter_next E) (length os + m) area = map (fun o => Ok (Yield o)) os ++ repeat (Ok Finished) m.
Proof. exact TileProofs.c58_tcp_tiles. Qed.
Print Assumptions C58_tcp_tiles.
(** C58: the hypotheses of C58_tcp_tiles can be met. *)
Example C58_tcp_tiles_meets :
  exists (E : env) (area : bytes), is_bytes area /\ ((exists n, In (Ok Finished) (nexts (tcp_iter_next E) n area))).
Proof. exact WitnessProofs.c58_tcp_tiles_meets. Qed.
(** C58: IPv4. *)
Theorem C58_v4_tiles : forall E area, is_bytes area -> (exists n, In (Ok Finished) (nexts (v4_iter_next E) n area)) ->
  exists os outs t, area = concat outs ++ t /\ area_end v4_num t /\ Forall2 (fun y o => v4opt_as_ref E o = Ok y) outs os /\
    forall m, nexts (v4_iter_next E) (length os + m) area = map (fun o => Ok (Yield o)) os ++ repeat (Ok Finished) m.
Proof. exact TileProofs.c58_v4_tiles. Qed.
Print Assumptions C58_v4_tiles.
(** C58: the hypotheses of C58_v4_tiles can be met. *)
Example C58_v4_tiles_meets :
  exists (E : env) (area : bytes), is_bytes area /\ ((exists n, In (Ok Finished) (nexts (v4_iter_next E) n area))).
Proof. exact WitnessProofs.c58_v4_tiles_meets. Qed.
(** C58: a loop that ends does so after at most one call of next() per byte of the area, and one more. *)
Theorem C58_bounded : forall E area, is_bytes area ->
  ((exists n, In (Ok Finished) (nexts (tcp_iter_next E) n area)) -> In (Ok Finished) (nexts (tcp_iter_next E) (S (length area)) area)) /\
  ((exists n, In (Ok Finished) (nexts (v4_iter_next E) n area)) -> In (Ok Finished) (nexts (v4_iter_next E) (S (length area)) area)).
Proof. exact TileProofs.c58_bounded. Qed.
Print Assumptions C58_bounded.
(** C58: the hypotheses of C58_bounded can be met. *)
Example C58_bounded_meets :
  (exists (E : env) (area : bytes), is_bytes area /\ ((exists n, In (Ok Finished) (nexts (tcp_iter_next E) n area)))) /\
  (exists (E : env) (area : bytes), is_bytes area /\ ((exists n, In (Ok Finished) (nexts (v4_iter_next E) n area)))).
Proof. exact WitnessProofs.c58_bounded_meets. Qed.
(** C58: whether a loop ends does not depend on the build profile. *)
Theorem C58_profile : forall E E' area, is_bytes area ->
  ((exists n, In (Ok Finished) (nexts (tcp_iter_next E) n area)) <-> (exists n, In (Ok Finished) (nexts (tcp_iter_next E') n area))) /\
  ((exists n, In (Ok Finished) (nexts (v4_iter_next E) n area)) <-> (exists n, In (Ok Finished) (nexts (v4_iter_next E') n area))).
Proof. exact TileProofs.c58_profile. Qed.
Print Assumptions C58_profile.
(** C58: the hypotheses of C58_profile can be met. *)
Example C58_profile_meets :
  exists (area : bytes), is_bytes area.
Proof. exact WitnessProofs.c58_profile_meets. Qed.
Example C58_example : forall E, let area := [1; 2; 4; 5; 180; 7; 1; 0; 99] in
  is_bytes area /\ area = area_of [One 1; Tlv 2 [5; 180]; Odd 7] [0; 99] /\
  nexts (tcp_iter_next E) 5 area =
    [Ok (Yield area); Ok (Yield [2; 4; 5; 180; 7; 1; 0; 99]); Ok (Yield [7; 1; 0; 99]); Ok (Yield [1; 0; 99]); Ok Finished].
Proof. exact TileProofs.c58_example. Qed.

(** ** C59 *)
Theorem C59_ether : forall E xs p buf, let ops := map (as_method ether_method) xs in
  Forall ether_op_ok ops -> one_payload (ether_payloads ops) p -> fresh_buffer buf 14 p ->
  ether_mixed E xs buf = ether_builder E ops buf.
Proof. exact ViaProofs.c59_ether. Qed.
Print Assumptions C59_ether.
(** C59: the hypotheses of C59_ether can be met. *)
Example C59_ether_meets :
  exists (E : env) (xs : list (via ether_op ether_call)) (p : bytes) (buf : buffer), let ops := map (as_method ether_method) xs in Forall ether_op_ok ops /\ one_payload (ether_payloads ops) p /\ fresh_buffer buf 14 p.
Proof. exact WitnessProofs.c59_ether_meets. Qed.
(** C59: IPv4, on its own or in Ethernet. *)
Theorem C59_v4 : forall E eth xs p buf, let eops := option_map (map (as_method ether_method)) eth in let ops := map (as_method V4Set) xs in
  eth_ok eops -> Forall v4_op_ok ops -> one_payload (v4_payloads ops) p -> fresh_buffer buf (eth_bytes eops + 20) p ->
  v4_mixed E eth xs buf = v4_builder E eops ops buf.
Proof. exact ViaProofs.c59_v4. Qed.
Print Assumptions C59_v4.
(** C59: the hypotheses of C59_v4 can be met. *)
Example C59_v4_meets :
  exists (E : env) (eth : option (list (via ether_op ether_call))) (xs : list (via v4_op v4_setter)) (p : bytes) (buf : buffer), let eops := option_map (map (as_method ether_method)) eth in let ops := map (as_method V4Set) xs in eth_ok eops /\ Forall v4_op_ok ops /\ one_payload (v4_payloads ops) p /\ fresh_buffer buf (eth_bytes eops + 20) p.
Proof. exact WitnessProofs.c59_v4_meets. Qed.
(** C59: UDP, mixing in all three layers. *)
Theorem C59_udp : forall E eth vs xs p buf, let eops := option_map (map (as_method ether_method)) eth in
  let vops := map (as_method V4Set) vs in let ops := map (as_method UdpSet) xs in
  eth_ok eops -> Forall v4_op_ok vops -> v4_payloads vops = [] -> Forall udp_op_ok ops -> one_payload (udp_payloads ops) p ->
  fresh_buffer buf (eth_bytes eops + 28) p ->
  udp_mixed E eth vs xs buf = udp_builder E eops (v4_setters vops) ops buf.
Proof. exact ViaProofs.c59_udp. Qed.
Print Assumptions C59_udp.
(** C59: the hypotheses of C59_udp can be met. *)
Example C59_udp_meets :
  exists (E : env) (eth : option (list (via ether_op ether_call))) (vs : list (via v4_op v4_setter)) (xs : list (via udp_op udp_setter)) (p : bytes) (buf : buffer), let eops := option_map (map (as_method ether_method)) eth in let vops := map (as_method V4Set) vs in let ops := map (as_method UdpSet) xs in eth_ok eops /\ Forall v4_op_ok vops /\ v4_payloads vops = [] /\ Forall udp_op_ok ops /\ one_payload (udp_payloads ops) p /\ fresh_buffer buf (eth_bytes eops + 28) p.
Proof. exact WitnessProofs.c59_udp_meets. Qed.
(** C59: TCP, where [flags] is the last setter called. *)
Theorem C59_tcp : forall E eth vs xs p buf, let eops := option_map (map (as_method ether_method)) eth in
  let vops := map (as_method V4Set) vs in let ops := map (as_method TcpSet) xs in
  eth_ok eops -> Forall v4_op_ok vops -> v4_payloads vops = [] -> Forall tcp_op_ok ops -> flags_last (tcp_setters ops) -> one_payload (tcp_payloads ops) p ->
  fresh_buffer buf (eth_bytes eops + 40) p ->
  tcp_mixed E eth vs xs buf = tcp_builder E eops (v4_setters vops) ops buf.
Proof. exact ViaProofs.c59_tcp. Qed.
Print Assumptions C59_tcp.
(** C59: the hypotheses of C59_tcp can be met. *)
Example C59_tcp_meets :
  exists (E : env) (eth : option (list (via ether_op ether_call))) (vs : list (via v4_op v4_setter)) (xs : list (via tcp_op tcp_setter)) (p : bytes) (buf : buffer), let eops := option_map (map (as_method ether_method)) eth in let vops := map (as_method V4Set) vs in let ops := map (as_method TcpSet) xs in eth_ok eops /\ Forall v4_op_ok vops /\ v4_payloads vops = [] /\ Forall tcp_op_ok ops /\ flags_last (tcp_setters ops) /\ one_payload (tcp_payloads ops) p /\ fresh_buffer buf (eth_bytes eops + 40) p.
Proof. exact WitnessProofs.c59_tcp_meets. Qed.
Theorem C59_echo : forall E outer xs p buf, let ops := map (as_method echo_method) xs in
  outer_ok outer -> Forall echo_op_ok ops -> one_payload (echo_payloads ops) p -> fresh_buffer buf (outer_bytes outer + 8) p ->
  let out := (let* c := echo_mixed E outer xs buf in echo_build E c) in
  (echo_kind_given (methods xs) -> out = echo_chain E outer ops buf) /\
  (~ echo_kind_given (methods xs) -> out = Err InvalidPacket).
Proof. exact ViaProofs.c59_echo. Qed.
Print Assumptions C59_echo.
(** C59: the hypotheses of C59_echo can be met. *)
Example C59_echo_meets :
  (exists (E : env) (outer : option (option (list ether_op) * list v4_setter)) (xs : list (via echo_op echo_setter)) (p : bytes) (buf : buffer), let ops := map (as_method echo_method) xs in outer_ok outer /\ Forall echo_op_ok ops /\ one_payload (echo_payloads ops) p /\ fresh_buffer buf (outer_bytes outer + 8) p /\ echo_kind_given (methods xs)) /\
  (exists (E : env) (outer : option (option (list ether_op) * list v4_setter)) (xs : list (via echo_op echo_setter)) (p : bytes) (buf : buffer), let ops := map (as_method echo_method) xs in outer_ok outer /\ Forall echo_op_ok ops /\ one_payload (echo_payloads ops) p /\ fresh_buffer buf (outer_bytes outer + 8) p /\ ~ echo_kind_given (methods xs)).
Proof. exact WitnessProofs.c59_echo_meets. Qed.
Theorem C59_information : forall E outer xs buf, let ops := map (as_method information_method) xs in
  outer_ok outer -> Forall information_op_ok ops -> fresh_buffer buf (outer_bytes outer + 8) [] ->
  (forall s, In (Through s) xs -> ~ info_make s) ->
  (after_kind information_kind_given xs -> information_mixed E outer xs buf = information_builder E outer ops buf) /\
  (~ after_kind information_kind_given xs -> information_mixed E outer xs buf = Err InvalidPacket) /\
  (after_kind information_kind_given xs \/ ~ after_kind information_kind_given xs).
Proof. exact ViaProofs.c59_information. Qed.
Print Assumptions C59_information.
(** C59: the hypotheses of C59_information can be met. *)
Example C59_information_meets :
  (exists (E : env) (outer : option (option (list ether_op) * list v4_setter)) (xs : list (via information_op information_setter)) (buf : buffer), let ops := map (as_method information_method) xs in outer_ok outer /\ Forall information_op_ok ops /\ fresh_buffer buf (outer_bytes outer + 8) [] /\ ((forall s, In (Through s) xs -> ~ info_make s)) /\ after_kind information_kind_given xs) /\
  (exists (E : env) (outer : option (option (list ether_op) * list v4_setter)) (xs : list (via information_op information_setter)) (buf : buffer), let ops := map (as_method information_method) xs in outer_ok outer /\ Forall information_op_ok ops /\ fresh_buffer buf (outer_bytes outer + 8) [] /\ ((forall s, In (Through s) xs -> ~ info_make s)) /\ ~ after_kind information_kind_given xs).
Proof. exact WitnessProofs.c59_information_meets. Qed.
(** C59: timestamp. *)
Theorem C59_timestamp : forall E outer xs buf, let ops := map (as_method timestamp_method) xs in
  outer_ok outer -> Forall timestamp_op_ok ops -> fresh_buffer buf (outer_bytes outer + 20) [] ->
  (forall s, In (Through s) xs -> ~ ts_make s) ->
  (after_kind timestamp_kind_given xs -> timestamp_mixed E outer xs buf = timestamp_builder E outer ops buf) /\
  (~ after_kind timestamp_kind_given xs -> timestamp_mixed E outer xs buf = Err InvalidPacket) /\
  (after_kind timestamp_kind_given xs \/ ~ after_kind timestamp_kind_given xs).
Proof. exact ViaProofs.c59_timestamp. Qed.
Print Assumptions C59_timestamp.
(** C59: the hypotheses of C59_timestamp can be met. *)
Example C59_timestamp_meets :
  (exists (E : env) (outer : option (option (list ether_op) * list v4_setter)) (xs : list (via timestamp_op timestamp_setter)) (buf : buffer), let ops := map (as_method timestamp_method) xs in outer_ok outer /\ Forall timestamp_op_ok ops /\ fresh_buffer buf (outer_bytes outer + 20) [] /\ ((forall s, In (Through s) xs -> ~ ts_make s)) /\ after_kind timestamp_kind_given xs) /\
  (exists (E : env) (outer : option (option (list ether_op) * list v4_setter)) (xs : list (via timestamp_op timestamp_setter)) (buf : buffer), let ops := map (as_method timestamp_method) xs in outer_ok outer /\ Forall timestamp_op_ok ops /\ fresh_buffer buf (outer_bytes outer + 20) [] /\ ((forall s, In (Through s) xs -> ~ ts_make s)) /\ ~ after_kind timestamp_kind_given xs).
Proof. exact WitnessProofs.c59_timestamp_meets. Qed.
Theorem C59_udp_edit : forall E eth vs us p buf mutate g q,
  eth_ok eth -> Forall v4_arg_ok vs -> Forall udp_op_ok us -> one_payload (udp_payloads us) p -> fresh_buffer buf (eth_bytes eth + 28) p ->
  len p mod 2 = 0 \/ cursor_eof E = EofKeep ->
  mutate (udp_wire (udp_after us) ++ p) = (udp_wire g ++ q, Ok tt) -> udp_fields_ok g -> is_bytes q -> len q = len p ->
  let f := v4_after vs in
  (let* u := udp_builder E eth vs us buf in let* u := through E udp_new mutate u in udp_build E u) =
  Ok (ether_layer eth ++ v4_wire (v4_finished f 17 (8 + len q)) ++ udp_wire (udp_finished (vf_src f) (vf_dst f) g q) ++ q).
Proof. exact ViaProofs.c59_udp_edit. Qed.
Print Assumptions C59_udp_edit.
(** C59: the hypotheses of C59_udp_edit can be met. *)
Example C59_udp_edit_meets :
  exists (E : env) (eth : option (list ether_op)) (vs : list v4_setter) (us : list udp_op) (p : bytes) (buf : buffer) (mutate : list N -> list N * res unit) (g : udp_fields) (q : list N), eth_ok eth /\ Forall v4_arg_ok vs /\ Forall udp_op_ok us /\ one_payload (udp_payloads us) p /\ fresh_buffer buf (eth_bytes eth + 28) p /\ (len p mod 2 = 0 \/ cursor_eof E = EofKeep) /\ mutate (udp_wire (udp_after us) ++ p) = (udp_wire g ++ q, Ok tt) /\ udp_fields_ok g /\ is_bytes q /\ len q = len p.
Proof. exact WitnessProofs.c59_udp_edit_meets. Qed.
(** C59: TCP: the data offset becomes 5 again and the checksum covers the bytes found. *)
Theorem C59_tcp_edit : forall E eth vs ts p buf mutate g q,
  eth_ok eth -> Forall v4_arg_ok vs -> Forall tcp_op_ok ts -> flags_last (tcp_setters ts) -> one_payload (tcp_payloads ts) p ->
  fresh_buffer buf (eth_bytes eth + 40) p -> 20 + len p <= 131065 -> len p mod 2 = 0 \/ cursor_eof E = EofKeep ->
  let f := v4_after vs in
  mutate (tcp_wire (if flags_called ts then tcp_fill (tcp_after ts) 0 0 else tcp_after ts) ++ p) = (tcp_wire g ++ q, Ok tt) ->
  tcp_fields_ok g -> is_bytes q -> len q = len p ->
  (let* t := tcp_builder E eth vs ts buf in let* t := through E tcp_new mutate t in tcp_build E t) =
  Ok (ether_layer eth ++ v4_wire (v4_finished f 6 (20 + len q)) ++ tcp_wire (tcp_finished (vf_src f) (vf_dst f) g q) ++ q).
Proof. exact ViaProofs.c59_tcp_edit. Qed.
Print Assumptions C59_tcp_edit.
(** C59: the hypotheses of C59_tcp_edit can be met. *)
Example C59_tcp_edit_meets :
  exists (E : env) (eth : option (list ether_op)) (vs : list v4_setter) (ts : list tcp_op) (p : bytes) (buf : buffer) (mutate : list N -> list N * res unit) (g : tcp_fields) (q : list N), eth_ok eth /\ Forall v4_arg_ok vs /\ Forall tcp_op_ok ts /\ flags_last (tcp_setters ts) /\ one_payload (tcp_payloads ts) p /\ fresh_buffer buf (eth_bytes eth + 40) p /\ 20 + len p <= 131065 /\ (len p mod 2 = 0 \/ cursor_eof E = EofKeep) /\ mutate (tcp_wire (if flags_called ts then tcp_fill (tcp_after ts) 0 0 else tcp_after ts) ++ p) = (tcp_wire g ++ q, Ok tt) /\ tcp_fields_ok g /\ is_bytes q /\ len q = len p.
Proof. exact WitnessProofs.c59_tcp_edit_meets. Qed.
Theorem C59_echo_edit : forall E outer ops p buf mutate h q,
  outer_ok outer -> Forall echo_op_ok ops -> one_payload (echo_payloads ops) p -> fresh_buffer buf (outer_bytes outer + 8) p ->
  let '(t, i, s) := echo_after ops in
  mutate (ident_wire (unsummed t) i s ++ p) = (icmp_wire h ++ q, Ok tt) -> icmp_fields_ok h -> is_bytes q -> len q = 4 + len p ->
  let sum ck := icmp_wire {| cf_type := cf_type h; cf_code := cf_code h; cf_checksum := ck |} ++ q in
  let out := (let* c := echo_builder E outer ops buf in let* c := through E echo_new mutate c in echo_build E c) in
  (echo_kind_given ops -> out = Ok (icmp_outer outer (8 + len p) ++ sum (nonzero_checksum (drop_odd (sum 0))))) /\
  (~ echo_kind_given ops -> out = Err InvalidPacket).
Proof. exact ViaProofs.c59_echo_edit. Qed.
Print Assumptions C59_echo_edit.
(** C59: the hypotheses of C59_echo_edit can be met. *)
Example C59_echo_edit_meets :
  (exists (E : env) (outer : option (option (list ether_op) * list v4_setter)) (ops : list echo_op) (p : bytes) (buf : buffer) (mutate : list N -> list N * res unit) (h : icmp_fields) (q : list N), outer_ok outer /\ Forall echo_op_ok ops /\ one_payload (echo_payloads ops) p /\ fresh_buffer buf (outer_bytes outer + 8) p /\ let '(t, i, s) := echo_after ops in mutate (ident_wire (unsummed t) i s ++ p) = (icmp_wire h ++ q, Ok tt) /\ icmp_fields_ok h /\ is_bytes q /\ len q = 4 + len p /\ echo_kind_given ops) /\
  (exists (E : env) (outer : option (option (list ether_op) * list v4_setter)) (ops : list echo_op) (p : bytes) (buf : buffer) (mutate : list N -> list N * res unit) (h : icmp_fields) (q : list N), outer_ok outer /\ Forall echo_op_ok ops /\ one_payload (echo_payloads ops) p /\ fresh_buffer buf (outer_bytes outer + 8) p /\ let '(t, i, s) := echo_after ops in mutate (ident_wire (unsummed t) i s ++ p) = (icmp_wire h ++ q, Ok tt) /\ icmp_fields_ok h /\ is_bytes q /\ len q = 4 + len p /\ ~ echo_kind_given ops).
Proof. exact WitnessProofs.c59_echo_edit_meets. Qed.
Theorem C59_as_packet : forall E parse mutate b,
  (forall e, builder_as_packet E parse b = Err e -> builder_as_packet_mut E parse mutate b = (b, Err e)) /\
  (builder_as_packet E parse b = Panic -> builder_as_packet_mut E parse mutate b = (b, Panic)) /\
  (forall d, builder_as_packet E parse b = Ok d ->
     exists data, buf_data E (b_buffer b) = Ok data /\ parse data = Ok d /\
       snd (builder_as_packet_mut E parse mutate b) = snd (mutate data) /\
       (len (fst (mutate data)) = len data -> builder_as_packet E (fun x => Ok x) (fst (builder_as_packet_mut E parse mutate b)) = Ok (fst (mutate data)))).
Proof. exact ViaProofs.c59_as_packet. Qed.
Print Assumptions C59_as_packet.
(** C59: the hypotheses of C59_as_packet can be met.  (The panicking case is met by a builder no call sequence makes; the theorem covers it all the same.) *)
Example C59_as_packet_meets :
  (exists (E : env) (parse : bytes -> res bytes) (b : builder) (e : error), builder_as_packet E parse b = Err e) /\
  (exists (E : env) (parse : bytes -> res bytes) (b : builder), builder_as_packet E parse b = Panic) /\
  (exists (E : env) (parse : bytes -> res bytes) (b : builder) (d : bytes), builder_as_packet E parse b = Ok d).
Proof. exact WitnessProofs.c59_as_packet_meets. Qed.
(** C59: a builder is built with [build] (the C32-C41 programs are builders built). *)
Theorem C59_builds : forall E eth vs us ts vops eops outer es is ss buf,
  udp_chain E eth vs us buf = (let* b := udp_builder E eth vs us buf in udp_build E b) /\
  tcp_chain E eth vs ts buf = (let* b := tcp_builder E eth vs ts buf in tcp_build E b) /\
  v4_chain E eth vops buf = (let* b := v4_builder E eth vops buf in v4_build E b) /\
  ether_chain E eops buf = (let* b := ether_builder E eops buf in ether_build b) /\
  echo_chain E outer es buf = (let* b := echo_builder E outer es buf in echo_build E b) /\
  information_chain E outer is buf = (let* b := information_builder E outer is buf in information_build E b) /\
  timestamp_chain E outer ss buf = (let* b := timestamp_builder E outer ss buf in timestamp_build E b).
Proof. exact ViaProofs.c59_builds. Qed.
Print Assumptions C59_builds.
Example C59_example : forall E,
  let eth := Some [Method (EtherProtocol ET_Arp); Through (EthSource (Hw 1 2 3 4 5 6))] in
  let vs := [Through (V4SetTtl 9); Method (V4Set (V4SetId 5)); Through (V4SetSource (Ip4 10 0 0 1))] in
  let us := [Method (UdpPayload [7; 8]); Through (UdpSetSource 1337)] in
  let mutate : mut := fun d => set_index 9 99 d in
  let u := udp_builder E (option_map (map (as_method ether_method)) eth) [V4SetTtl 9; V4SetId 5; V4SetSource (Ip4 10 0 0 1)] (map (as_method UdpSet) us) dynamic_new in
  udp_mixed E eth vs us dynamic_new = u /\
  mutate (udp_wire (udp_after (map (as_method UdpSet) us)) ++ [7; 8]) = (udp_wire (Build_udp_fields 1337 0 0 0) ++ [7; 99], Ok tt) /\
  (let* b := u in let* b := through E udp_new mutate b in udp_build E b) =
    Ok (ether_wire (Build_ether_fields mac_zero (Hw 1 2 3 4 5 6) 0x0800) ++
        [69; 0; 0; 30; 0; 5; 0; 0; 9; 17; 167; 202; 10; 0; 0; 1; 0; 0; 0; 0; 5; 57; 0; 0; 0; 10; 233; 61; 7; 99]) /\
  (let* c := echo_mixed E None [Through EchoMakeRequest; Through (EchoSetIdentifier 3)] dynamic_new in echo_build E c) = Err InvalidPacket /\
  (let* c := echo_mixed E None [Method EchoReply; Through EchoMakeRequest; Through (EchoSetIdentifier 3)] dynamic_new in echo_build E c) =
    echo_chain E None [EchoRequest; EchoIdentifier 3] dynamic_new /\
  information_mixed E None [Through (InfoSetIdentifier 3); Method InfoRequest] dynamic_new = Err InvalidPacket /\
  information_mixed E None [Method InfoRequest; Through InfoMakeRequest; Through (InfoSetIdentifier 3)] dynamic_new = Err InvalidPacket.
Proof. exact ViaProofs.c59_example. Qed.

(** ** C60 *)
(** C60: sizes and whole slices of every type, on any bytes (accepted or unchecked). *)
Theorem C60_sizes : forall c w b, let D := debug c w in let R := release c w in
  (agrees (ether_payload_size D b) (ether_payload_size R b) /\ agrees (ether_size D b) (ether_size R b) /\
   agrees (ether_as_ref D b) (ether_as_ref R b) /\ agrees (ether_as_mut D b) (ether_as_mut R b)) /\
  (agrees (tcp_payload_size D b) (tcp_payload_size R b) /\ agrees (tcp_size D b) (tcp_size R b) /\
   agrees (tcp_as_ref D b) (tcp_as_ref R b) /\ agrees (tcp_as_mut D b) (tcp_as_mut R b)) /\
  (agrees (icmp_payload_size D b) (icmp_payload_size R b) /\ agrees (icmp_size D b) (icmp_size R b) /\
   agrees (icmp_as_ref D b) (icmp_as_ref R b) /\ agrees (icmp_as_mut D b) (icmp_as_mut R b)) /\
  (agrees (echo_payload_size D b) (echo_payload_size R b) /\ agrees (echo_size D b) (echo_size R b) /\
   agrees (echo_as_ref D b) (echo_as_ref R b) /\ agrees (echo_as_mut D b) (echo_as_mut R b)) /\
  (agrees (information_size D b) (information_size R b) /\
   agrees (information_as_ref D b) (information_as_ref R b) /\ agrees (information_as_mut D b) (information_as_mut R b)) /\
  (agrees (timestamp_size D b) (timestamp_size R b) /\
   agrees (timestamp_as_ref D b) (timestamp_as_ref R b) /\ agrees (timestamp_as_mut D b) (timestamp_as_mut R b)) /\
  (agrees (embedded_payload_size D b) (embedded_payload_size R b) /\ agrees (embedded_size D b) (embedded_size R b) /\
   agrees (embedded_as_ref D b) (embedded_as_ref R b) /\ agrees (redirect_message_as_mut D b) (redirect_message_as_mut R b) /\
   agrees (parameter_problem_as_mut D b) (parameter_problem_as_mut R b) /\ agrees (previous_as_mut D b) (previous_as_mut R b)).
Proof. exact ProfileProofs.c60_sizes. Qed.
Print Assumptions C60_sizes.
(** C60: checksums, is_valid, update_checksum and checked guards. *)
Theorem C60_checksums : forall c w ip b, let D := debug c w in let R := release c w in
  (agrees (v4_checksum_of D b) (v4_checksum_of R b) /\ agrees (v4_is_valid D b) (v4_is_valid R b) /\
   agrees_mut (v4_update_checksum D b) (v4_update_checksum R b) /\ forall ops, agrees_mut (v4_checked D ops b) (v4_checked R ops b)) /\
  (agrees (udp_checksum_of D ip b) (udp_checksum_of R ip b) /\ agrees (udp_is_valid D ip b) (udp_is_valid R ip b) /\
   agrees_mut (udp_update_checksum D ip b) (udp_update_checksum R ip b) /\ forall ops, agrees_mut (udp_checked D ip ops b) (udp_checked R ip ops b)) /\
  (agrees (tcp_checksum_of D ip b) (tcp_checksum_of R ip b) /\ agrees (tcp_is_valid D ip b) (tcp_is_valid R ip b) /\
   agrees_mut (tcp_update_checksum D ip b) (tcp_update_checksum R ip b) /\ forall ops, agrees_mut (tcp_checked D ip ops b) (tcp_checked R ip ops b)) /\
  (agrees (icmp_checksum_of D b) (icmp_checksum_of R b) /\ agrees (icmp_is_valid D b) (icmp_is_valid R b)) /\
  (forall ops, agrees_mut (echo_checked D ops b) (echo_checked R ops b)) /\
  (forall ops, agrees_mut (information_checked D ops b) (information_checked R ops b)) /\
  (forall ops, agrees_mut (timestamp_checked D ops b) (timestamp_checked R ops b)).
Proof. exact ProfileProofs.c60_checksums. Qed.
Print Assumptions C60_checksums.
(** C60: options and loops over them. *)
Theorem C60_options : forall c w b, let D := debug c w in let R := release c w in
  (agrees (tcpopt_payload_size D b) (tcpopt_payload_size R b) /\ agrees (tcpopt_size D b) (tcpopt_size R b) /\
   agrees (tcpopt_as_ref D b) (tcpopt_as_ref R b) /\ agrees (tcpopt_as_mut D b) (tcpopt_as_mut R b)) /\
  (agrees (v4opt_payload_size D b) (v4opt_payload_size R b) /\ agrees (v4opt_size D b) (v4opt_size R b) /\
   agrees (v4opt_as_ref D b) (v4opt_as_ref R b) /\ agrees (v4opt_as_mut D b) (v4opt_as_mut R b)) /\
  (forall n, nexts (tcp_iter_next D) n b = nexts (tcp_iter_next R) n b \/ In Panic (nexts (tcp_iter_next D) n b)) /\
  (forall n, nexts (v4_iter_next D) n b = nexts (v4_iter_next R) n b \/ In Panic (nexts (v4_iter_next D) n b)).
Proof. exact ProfileProofs.c60_options. Qed.
Print Assumptions C60_options.
(** C60: Debug formatting. *)
Theorem C60_formatting : forall c w b, let D := debug c w in let R := release c w in
  agrees (v4_debug D b) (v4_debug R b) /\ (forall ip, agrees (ip_debug D ip) (ip_debug R ip)) /\ agrees (icmp_debug D b) (icmp_debug R b) /\
  agrees (parameter_problem_debug D b) (parameter_problem_debug R b) /\ agrees (redirect_message_debug D b) (redirect_message_debug R b) /\
  agrees (previous_debug D b) (previous_debug R b).
Proof. exact ProfileProofs.c60_formatting. Qed.
Print Assumptions C60_formatting.
(** C60: buffers, in any state. *)
Theorem C60_buffers : forall c w n f b, let D := debug c w in let R := release c w in
  agrees (buf_data D b) (buf_data R b) /\ agrees_mut (buf_data_mut D f b) (buf_data_mut R f b) /\
  agrees_mut (buf_next D n b) (buf_next R n b) /\ agrees_mut (buf_more D n b) (buf_more R n b).
Proof. exact ProfileProofs.c60_buffers. Qed.
Print Assumptions C60_buffers.
(** C60: every builder program, well used or misused, on any buffer. *)
Theorem C60_builders : forall c w o cs cl buf, agrees (program (debug c w) o cs cl buf) (program (release c w) o cs cl buf).
Proof. exact ProfileProofs.c60_builders. Qed.
Print Assumptions C60_builders.
Theorem C60_previews : forall c w o cs parse buf, agrees (preview (debug c w) o cs parse buf) (preview (release c w) o cs parse buf).
Proof. exact ProfileProofs.c60_previews. Qed.
Print Assumptions C60_previews.
Theorem C60_equal_refuted : exists b o, forall c w,
  ether_payload_size (debug c w) b = Panic /\ ether_payload_size (release c w) b = Ok (@USIZE (release c w) - 11) /\
  tcp_iter_next (debug c w) o = Panic /\ tcp_iter_next (release c w) o = Ok (Yield o, o).
Proof. exact ProfileProofs.c60_equal_refuted. Qed.
Print Assumptions C60_equal_refuted.
(** C60: the version of std matters only for UDP and TCP checksums of odd length. *)
Theorem C60_std : forall E E' b ip, overflow_checks E = overflow_checks E' -> target E = target E' ->
  v4_checksum_of E b = v4_checksum_of E' b /\ icmp_checksum_of E b = icmp_checksum_of E' b /\
  v4_is_valid E b = v4_is_valid E' b /\ icmp_is_valid E b = icmp_is_valid E' b /\
  tcp_iter_next E b = tcp_iter_next E' b /\ v4_iter_next E b = v4_iter_next E' b /\
  (len b mod 2 = 0 -> udp_checksum_of E ip b = udp_checksum_of E' ip b /\ tcp_checksum_of E ip b = tcp_checksum_of E' ip b) /\
  (forall o cs parse buf, preview E o cs parse buf = preview E' o cs parse buf) /\
  (forall o cs cl buf, cl <> ClUdp -> cl <> ClTcp -> program E o cs cl buf = program E' o cs cl buf).
Proof. exact ProfileProofs.c60_std. Qed.
Print Assumptions C60_std.
(** C60: the hypotheses of C60_std can be met. *)
Example C60_std_meets :
  (exists (E : env) (E' : env) (b : bytes), overflow_checks E = overflow_checks E' /\ target E = target E' /\ len b mod 2 = 0) /\
  (exists (E : env) (E' : env) (cl : closing), overflow_checks E = overflow_checks E' /\ target E = target E' /\ cl <> ClUdp /\ cl <> ClTcp).
Proof. exact WitnessProofs.c60_std_meets. Qed.
Example C60_example : forall c w, let p := program (debug c w) OpEther [CallEther (EtherSource (Hw 1 2 3 4 5 6)); CallEtherIp; CallIpV4; CallV4 (V4Set (V4SetTtl 9)); CallV4Udp; CallUdp (UdpPayload [7; 8])] ClUdp dynamic_new in
  (exists out, p = Ok out /\ len out = 44) /\ p = program (release c w) OpEther [CallEther (EtherSource (Hw 1 2 3 4 5 6)); CallEtherIp; CallIpV4; CallV4 (V4Set (V4SetTtl 9)); CallV4Udp; CallUdp (UdpPayload [7; 8])] ClUdp dynamic_new.
Proof. exact ProfileProofs.c60_example. Qed.

(** ** C61 *)
Theorem C61_dynamic : forall E o cs cl held off l, compiles o cs cl -> o <> OpUdp -> o <> OpTcp -> Forall plain cs ->
  off + l = len held -> len held + added o cs <= ISIZE_MAX ->
  program E o cs cl (Dynamic held off l) = (let* out := program E o cs cl dynamic_new in Ok (held ++ out)).
Proof. exact ShiftProofs.c61_dynamic. Qed.
Print Assumptions C61_dynamic.
(** C61: the hypotheses of C61_dynamic can be met. *)
Example C61_dynamic_meets :
  exists (E : env) (o : opening) (cs : list call) (cl : closing) (held : bytes) (off : N) (l : N), compiles o cs cl /\ o <> OpUdp /\ o <> OpTcp /\ Forall plain cs /\ off + l = len held /\ len held + added o cs <= ISIZE_MAX.
Proof. exact WitnessProofs.c61_dynamic_meets. Qed.
(** C61: the same on a slice of which [held] is in use. *)
Theorem C61_slice : forall E o cs cl held mem off l, compiles o cs cl -> o <> OpUdp -> o <> OpTcp -> Forall plain cs ->
  len held + len mem <= ISIZE_MAX ->
  program E o cs cl (Slice (held ++ mem) off l (len held)) = (let* out := program E o cs cl (slice_new mem) in Ok (held ++ out)).
Proof. exact ShiftProofs.c61_slice. Qed.
Print Assumptions C61_slice.
(** C61: the hypotheses of C61_slice can be met. *)
Example C61_slice_meets :
  exists (E : env) (o : opening) (cs : list call) (cl : closing) (held : bytes) (mem : bytes), compiles o cs cl /\ o <> OpUdp /\ o <> OpTcp /\ Forall plain cs /\ len held + len mem <= ISIZE_MAX.
Proof. exact WitnessProofs.c61_slice_meets. Qed.
Example C61_example : compiles OpEther calls_example ClUdp /\ Forall plain calls_example /\ added OpEther calls_example = 44 /\
  forall E, exists out, program E OpEther calls_example ClUdp dynamic_new = Ok out /\ len out = 44 /\
    program E OpEther calls_example ClUdp (Dynamic held_example 2 1) = Ok (held_example ++ out) /\
    program E OpV4 [CallV4Tcp] ClTcp (Slice (held_example ++ zeros 50) 0 3 3) =
    (let* out := program E OpV4 [CallV4Tcp] ClTcp (slice_new (zeros 50)) in Ok (held_example ++ out)).
Proof. exact ShiftProofs.c61_example. Qed.

(** ** C62 *)
Theorem C62_udp : forall E held h us p, is_bytes h -> is_v4 h -> Forall udp_op_ok us -> one_payload (udp_payloads us) p ->
  len held + len h + 8 + len p <= ISIZE_MAX -> len p mod 2 = 0 \/ cursor_eof E = EofKeep ->
  udp_over_own E held h us = Ok (held ++ h ++ udp_wire (udp_finished (wire_addr h 12) (wire_addr h 16) (udp_after us) p) ++ p).
Proof. exact OwnIpProofs.c62_udp. Qed.
Print Assumptions C62_udp.
(** C62: the hypotheses of C62_udp can be met. *)
Example C62_udp_meets :
  exists (E : env) (held : bytes) (h : bytes) (us : list udp_op) (p : bytes), is_bytes h /\ is_v4 h /\ Forall udp_op_ok us /\ one_payload (udp_payloads us) p /\ len held + len h + 8 + len p <= ISIZE_MAX /\ (len p mod 2 = 0 \/ cursor_eof E = EofKeep).
Proof. exact WitnessProofs.c62_udp_meets. Qed.
Theorem C62_tcp : forall E held h us p, is_bytes h -> is_v4 h -> Forall tcp_op_ok us -> flags_last (tcp_setters us) -> one_payload (tcp_payloads us) p ->
  len held + len h + 20 + len p <= ISIZE_MAX -> 20 + len p <= 131065 -> len p mod 2 = 0 \/ cursor_eof E = EofKeep ->
  tcp_over_own E held h us = Ok (held ++ h ++ tcp_wire (tcp_finished (wire_addr h 12) (wire_addr h 16) (tcp_after us) p) ++ p).
Proof. exact OwnIpProofs.c62_tcp. Qed.
Print Assumptions C62_tcp.
(** C62: the hypotheses of C62_tcp can be met. *)
Example C62_tcp_meets :
  exists (E : env) (held : bytes) (h : bytes) (us : list tcp_op) (p : bytes), is_bytes h /\ is_v4 h /\ Forall tcp_op_ok us /\ flags_last (tcp_setters us) /\ one_payload (tcp_payloads us) p /\ len held + len h + 20 + len p <= ISIZE_MAX /\ 20 + len p <= 131065 /\ (len p mod 2 = 0 \/ cursor_eof E = EofKeep).
Proof. exact WitnessProofs.c62_tcp_meets. Qed.
Theorem C62_not_ip : forall E held h p, ~ is_v4 h ->
  (forall us, Forall udp_op_ok us -> one_payload (udp_payloads us) p -> len held + len h + 8 + len p <= ISIZE_MAX ->
   udp_over_own E held h us = if (len h =? 0) || (nthN h 0 / 16 =? 6) then Panic else Err InvalidPacket) /\
  (forall us, Forall tcp_op_ok us -> flags_last (tcp_setters us) -> one_payload (tcp_payloads us) p -> len held + len h + 20 + len p <= ISIZE_MAX ->
   tcp_over_own E held h us = if (len h =? 0) || (nthN h 0 / 16 =? 6) then Panic
                              else if nthN h 0 / 16 =? 4 then Err SmallBuffer else Err InvalidPacket).
Proof. exact OwnIpProofs.c62_not_ip. Qed.
Print Assumptions C62_not_ip.
(** C62: the hypotheses of C62_not_ip can be met. *)
Example C62_not_ip_meets :
  (exists (E : env) (held : bytes) (h : bytes) (p : bytes) us, ~ is_v4 h /\ Forall udp_op_ok us /\ one_payload (udp_payloads us) p /\ len held + len h + 8 + len p <= ISIZE_MAX) /\
  (exists (E : env) (held : bytes) (h : bytes) (p : bytes) us, ~ is_v4 h /\ Forall tcp_op_ok us /\ flags_last (tcp_setters us) /\ one_payload (tcp_payloads us) p /\ len held + len h + 20 + len p <= ISIZE_MAX).
Proof. exact WitnessProofs.c62_not_ip_meets. Qed.
(** C62: a buffer like that comes from [next] and [data_mut]. *)
Theorem C62_buffer : forall E held h, len held + len h <= ISIZE_MAX ->
  write_two E held h = Ok (own_buffer held h).
Proof. exact OwnIpProofs.c62_buffer. Qed.
Print Assumptions C62_buffer.
(** C62: the hypotheses of C62_buffer can be met. *)
Example C62_buffer_meets :
  exists (E : env) (held : bytes) (h : bytes), len held + len h <= ISIZE_MAX.
Proof. exact WitnessProofs.c62_buffer_meets. Qed.
Example C62_example : forall E, is_v4 own_header_example /\ is_bytes own_header_example /\
  udp_over_own E [9; 9] own_header_example [UdpSet (UdpSetSource 53); UdpPayload [104; 105]] =
  Ok ([9; 9] ++ own_header_example ++ [0; 53; 0; 0; 0; 10; 131; 57; 104; 105]) /\
  udp_over_own E [9; 9] [69; 0] [] = Err InvalidPacket /\ tcp_over_own E [9; 9] [69; 0] [] = Err SmallBuffer /\
  udp_over_own E [9; 9] (96 :: zeros 39) [] = Panic.
Proof. exact OwnIpProofs.c62_example. Qed.

(** ** C63 *)
Theorem C63_any_buffer : forall T (I : impl T) E cap refused holds, lawful I E cap refused holds ->
  forall o cs cl t before layer, holds t before layer -> Forall in_place cs -> len before + len layer + added o cs <= ISIZE_MAX ->
  gprogram I E o cs cl t = program E o cs cl (Dynamic (before ++ layer) (len before) (len layer)) \/
  exists e, gprogram I E o cs cl t = Err e /\ refused e /\ cap < len before + len layer + added o cs.
Proof. exact GenericProofs.c63_any_buffer. Qed.
Print Assumptions C63_any_buffer.
(** C63: the hypotheses of C63_any_buffer can be met. *)
Example C63_any_buffer_meets :
  exists (T : Type) (I : impl T) (E : env) (cap : N) (refused : error -> Prop) (holds : T -> bytes -> bytes -> Prop) (o : opening) (cs : list call) (t : T) (before : bytes) (layer : bytes), lawful I E cap refused holds /\ holds t before layer /\ Forall in_place cs /\ len before + len layer + added o cs <= ISIZE_MAX.
Proof. exact WitnessProofs.c63_any_buffer_meets. Qed.
(** C63: the same for what as_packet shows. *)
Theorem C63_any_preview : forall T (I : impl T) E cap refused holds, lawful I E cap refused holds ->
  forall o cs parse t before layer, holds t before layer -> Forall in_place cs -> len before + len layer + added o cs <= ISIZE_MAX ->
  gpreview I E o cs parse t = preview E o cs parse (Dynamic (before ++ layer) (len before) (len layer)) \/
  exists e, gpreview I E o cs parse t = Err e /\ refused e /\ cap < len before + len layer + added o cs.
Proof. exact GenericProofs.c63_any_preview. Qed.
Print Assumptions C63_any_preview.
(** C63: the hypotheses of C63_any_preview can be met. *)
Example C63_any_preview_meets :
  exists (T : Type) (I : impl T) (E : env) (cap : N) (refused : error -> Prop) (holds : T -> bytes -> bytes -> Prop) (o : opening) (cs : list call) (t : T) (before : bytes) (layer : bytes), lawful I E cap refused holds /\ holds t before layer /\ Forall in_place cs /\ len before + len layer + added o cs <= ISIZE_MAX.
Proof. exact WitnessProofs.c63_any_preview_meets. Qed.
(** C63: when everything fits, no alternative is left. *)
Theorem C63_room : forall T (I : impl T) E cap refused holds, lawful I E cap refused holds ->
  forall o cs cl t before layer, holds t before layer -> Forall in_place cs ->
  len before + len layer + added o cs <= cap -> len before + len layer + added o cs <= ISIZE_MAX ->
  gprogram I E o cs cl t = program E o cs cl (Dynamic (before ++ layer) (len before) (len layer)).
Proof. exact GenericProofs.c63_room. Qed.
Print Assumptions C63_room.
(** C63: the hypotheses of C63_room can be met. *)
Example C63_room_meets :
  exists (T : Type) (I : impl T) (E : env) (cap : N) (refused : error -> Prop) (holds : T -> bytes -> bytes -> Prop) (o : opening) (cs : list call) (t : T) (before : bytes) (layer : bytes), lawful I E cap refused holds /\ holds t before layer /\ Forall in_place cs /\ len before + len layer + added o cs <= cap /\ len before + len layer + added o cs <= ISIZE_MAX.
Proof. exact WitnessProofs.c63_room_meets. Qed.
(** C63: two implementations, however different inside, build the same packets. *)
Theorem C63_same_packets : forall T (I : impl T) T' (I' : impl T') E cap refused holds cap' refused' holds',
  lawful I E cap refused holds -> lawful I' E cap' refused' holds' ->
  forall o cs cl t t' before layer out out', holds t before layer -> holds' t' before layer -> Forall in_place cs -> len before + len layer + added o cs <= ISIZE_MAX ->
  gprogram I E o cs cl t = Ok out -> gprogram I' E o cs cl t' = Ok out' -> out = out'.
Proof. exact GenericProofs.c63_same_packets. Qed.
Print Assumptions C63_same_packets.
(** C63: the hypotheses of C63_same_packets can be met. *)
Example C63_same_packets_meets :
  exists (T : Type) (I : impl T) (T' : Type) (I' : impl T') (E : env) (cap : N) (refused : error -> Prop) (holds : T -> bytes -> bytes -> Prop) (cap' : N) (refused' : error -> Prop) (holds' : T' -> bytes -> bytes -> Prop) (o : opening) (cs : list call) (cl : closing) (t : T) (t' : T') (before : bytes) (layer : bytes) (out : bytes) (out' : bytes), lawful I E cap refused holds /\ lawful I' E cap' refused' holds' /\ holds t before layer /\ holds' t' before layer /\ Forall in_place cs /\ len before + len layer + added o cs <= ISIZE_MAX /\ gprogram I E o cs cl t = Ok out /\ gprogram I' E o cs cl t' = Ok out'.
Proof. exact WitnessProofs.c63_same_packets_meets. Qed.
Theorem C63_instance : forall E o cs cl buf, gprogram crate_impl E o cs cl buf = program E o cs cl buf.
Proof. exact GenericProofs.c63_instance. Qed.
Print Assumptions C63_instance.
(** C63: the same for what as_packet shows. *)
Theorem C63_instance_preview : forall E o cs parse buf, gpreview crate_impl E o cs parse buf = preview E o cs parse buf.
Proof. exact GenericProofs.c63_instance_preview. Qed.
Print Assumptions C63_instance_preview.
(** C63: Dynamic keeps the contract and never refuses. *)
Theorem C63_dynamic_lawful : forall E cap, lawful crate_impl E cap (fun _ => False)
  (fun t before layer => t = Dynamic (before ++ layer) (len before) (len layer) /\ len before + len layer <= ISIZE_MAX).
Proof. exact GenericProofs.c63_dynamic_lawful. Qed.
Print Assumptions C63_dynamic_lawful.
Theorem C63_slice_refuted : forall E cap refused (holds : buffer -> bytes -> bytes -> Prop) mem, 2 <= len mem -> 2 <= cap -> len mem <= ISIZE_MAX -> holds (slice_new mem) [] [] -> ~ lawful crate_impl E cap refused holds.
Proof. exact GenericProofs.c63_slice_refuted. Qed.
Print Assumptions C63_slice_refuted.
(** C63: the hypotheses of C63_slice_refuted can be met. *)
Example C63_slice_refuted_meets :
  exists (E : env) (cap : N) (holds : buffer -> bytes -> bytes -> Prop) (mem : bytes), 2 <= len mem /\ 2 <= cap /\ len mem <= ISIZE_MAX /\ holds (slice_new mem) [] [].
Proof. exact WitnessProofs.c63_slice_refuted_meets. Qed.
Example C63_bounded_lawful : forall E limit, lawful bounded_impl E limit (fun e => e = SmallBuffer) (bounded_holds limit).
Proof. exact GenericProofs.c63_bounded_lawful. Qed.
Example C63_example : Forall in_place calls_example /\ forall E,
  gprogram bounded_impl E OpEther calls_example ClUdp (Bounded [] held_example 47) = program E OpEther calls_example ClUdp (Dynamic held_example 0 3) /\
  gprogram bounded_impl E OpEther calls_example ClUdp (Bounded [] held_example 46) = Err SmallBuffer /\
  exists out, program E OpEther calls_example ClUdp (Dynamic held_example 0 3) = Ok out /\ len out = 47.
Proof. exact GenericProofs.c63_example. Qed.

(** ** C64 *)
Theorem C64_new : forall b p, ip_new b = Ok p <-> (v4_new b = Ok b /\ p = ip_from_v4 b) \/ (v6_new b = Ok b /\ p = ip_from_v6 b).
Proof. exact IpProofs.c64_new. Qed.
Print Assumptions C64_new.
Theorem C64_slices : forall E b p, rust_slice b -> ip_new b = Ok p ->
  let h := if nthN b 0 / 16 =? 4 then nthN b 0 mod 16 * 4 else 0 in
  let n := if nthN b 0 / 16 =? 4 then N.max h (wire16 b 2) else 0 in
  h <= n <= len b /\ ip_buffer p = b /\
  ip_split p = Ok (takeN h b, dropN h (takeN n b)) /\ ip_header p = Ok (takeN h b) /\ ip_payload p = Ok (dropN h (takeN n b)) /\
  ip_header_size p = Ok h /\ ip_payload_size p = Ok (n - h) /\ ip_size E p = Ok n /\ ip_as_ref p = Ok (takeN n b).
Proof. exact IpProofs.c64_slices. Qed.
Print Assumptions C64_slices.
(** C64: the hypotheses of C64_slices can be met. *)
Example C64_slices_meets :
  exists (E : env) (b : bytes) (p : ip_packet), rust_slice b /\ ip_new b = Ok p.
Proof. exact WitnessProofs.c64_slices_meets. Qed.
Theorem C64_from : forall E b,
  (forall p, p = ip_from_v4 b \/ p = ip_to_owned (ip_from_v4 b) ->
     ip_buffer p = b /\ ip_split p = v4_split b /\ ip_header p = v4_header b /\ ip_payload p = v4_payload b /\ ip_as_ref p = v4_as_ref b /\
     ip_header_size p = v4_header_size b /\ ip_payload_size p = v4_payload_size b /\ ip_split_mut p = v4_split_mut b /\ ip_as_mut p = v4_as_mut b /\
     (is_bytes b -> ip_size E p = v4_size b)) /\
  (forall p, p = ip_from_v6 b \/ p = ip_to_owned (ip_from_v6 b) ->
     ip_buffer p = b /\ ip_split p = Ok ([], []) /\ ip_header p = Ok [] /\ ip_payload p = Ok [] /\ ip_as_ref p = Ok [] /\
     ip_header_size p = Ok 0 /\ ip_payload_size p = Ok 0 /\ ip_size E p = Ok 0).
Proof. exact IpProofs.c64_from. Qed.
Print Assumptions C64_from.
(** C64: the hypotheses of C64_from can be met. *)
Example C64_from_meets :
  (exists (b : bytes) (p : ip_packet), (p = ip_from_v4 b \/ p = ip_to_owned (ip_from_v4 b)) /\ is_bytes b) /\
  (exists (b : bytes) (p : ip_packet), (p = ip_from_v6 b \/ p = ip_to_owned (ip_from_v6 b))).
Proof. exact WitnessProofs.c64_from_meets. Qed.
Example C64_example : forall E : env, rust_slice (69 :: 0 :: 0 :: 24 :: zeros 20) /\
  ip_new (69 :: 0 :: 0 :: 24 :: zeros 20) = Ok (ip_from_v4 (69 :: 0 :: 0 :: 24 :: zeros 20)) /\
  ip_payload (ip_from_v4 (69 :: 0 :: 0 :: 24 :: zeros 20)) = Ok [0; 0; 0; 0] /\
  ip_new [96; 1; 2] = Ok (ip_from_v6 [96; 1; 2]) /\ ip_as_ref (ip_from_v6 [96; 1; 2]) = Ok [].
Proof. exact IpProofs.c64_example. Qed.

(** ** C65 *)
Theorem C65_reference : forall E o cs cl, compiles o cs cl -> Forall ordinary cs -> added o cs <= ISIZE_MAX ->
  program E o cs cl dynamic_new = reference E o cs.
Proof. exact ReferenceProofs.c65_reference. Qed.
Print Assumptions C65_reference.
(** C65: the hypotheses of C65_reference can be met. *)
Example C65_reference_meets :
  exists (E : env) (o : opening) (cs : list call) (cl : closing), compiles o cs cl /\ Forall ordinary cs /\ added o cs <= ISIZE_MAX.
Proof. exact WitnessProofs.c65_reference_meets. Qed.
Theorem C65_slice : forall E o cs cl s, compiles o cs cl -> Forall ordinary cs -> Forall no_payload cs -> len s <= ISIZE_MAX -> added o cs <= ISIZE_MAX ->
  program E o cs cl (slice_new s) = reference_within E (len s) o cs.
Proof. exact ReferenceProofs.c65_slice. Qed.
Print Assumptions C65_slice.
(** C65: the hypotheses of C65_slice can be met. *)
Example C65_slice_meets :
  exists (E : env) (o : opening) (cs : list call) (cl : closing) (s : bytes), compiles o cs cl /\ Forall ordinary cs /\ Forall no_payload cs /\ len s <= ISIZE_MAX /\ added o cs <= ISIZE_MAX.
Proof. exact WitnessProofs.c65_slice_meets. Qed.
Theorem C65_reuse : forall E o cs cl b, compiles o cs cl -> Forall ordinary cs -> added o cs <= ISIZE_MAX ->
  match b with
  | Dynamic _ _ _ => program E o cs cl (buf_clear b) = reference E o cs
  | Slice s _ _ _ => Forall no_payload cs -> len s <= ISIZE_MAX -> program E o cs cl (buf_clear b) = reference_within E (len s) o cs
  end.
Proof. exact ReferenceProofs.c65_reuse. Qed.
Print Assumptions C65_reuse.
(** C65: the hypotheses of C65_reuse can be met. *)
Example C65_reuse_meets :
  exists (E : env) (o : opening) (cs : list call) (cl : closing), compiles o cs cl /\ Forall ordinary cs /\ added o cs <= ISIZE_MAX.
Proof. exact WitnessProofs.c65_reuse_meets. Qed.
(** C65: [Default] gives the builder that [with] makes on a new growable buffer; it never panics. *)
Theorem C65_defaults : forall E,
  (exists b, ether_default E = Ok b /\ open E OpEther dynamic_new = Ok b) /\
  (exists b, ip_default = Ok b /\ open E OpIp dynamic_new = Ok b /\ open E OpV6 dynamic_new = Ok b) /\
  (exists b, v4_default E = Ok b /\ open E OpV4 dynamic_new = Ok b) /\
  (exists b, udp_default E = Ok b /\ open E OpUdp dynamic_new = Ok b) /\
  (exists b, tcp_default E = Ok b /\ open E OpTcp dynamic_new = Ok b) /\
  (exists b, icmp_default = Ok b /\ open E OpIcmp dynamic_new = Ok b) /\
  (exists b, echo_default E = Ok b /\ open E OpEcho dynamic_new = Ok b) /\
  (exists b, information_default E = Ok b /\ open E OpInformation dynamic_new = Ok b) /\
  (exists b, timestamp_default E = Ok b /\ open E OpTimestamp dynamic_new = Ok b).
Proof. exact ReferenceProofs.c65_defaults. Qed.
Print Assumptions C65_defaults.
(** C65: and at any moment [as_packet] shows the bytes of the reference. *)
Theorem C65_preview : forall E o cs cl parse, compiles o cs cl -> Forall ordinary cs -> added o cs <= ISIZE_MAX ->
  preview E o cs parse dynamic_new = let* d := draft_calls cs (draft_open o) in parse (draft_shows d).
Proof. exact ReferenceProofs.c65_preview. Qed.
Print Assumptions C65_preview.
(** C65: the hypotheses of C65_preview can be met. *)
Example C65_preview_meets :
  exists (E : env) (o : opening) (cs : list call) (cl : closing), compiles o cs cl /\ Forall ordinary cs /\ added o cs <= ISIZE_MAX.
Proof. exact WitnessProofs.c65_preview_meets. Qed.
(** C65: what a finished program returns is as long as the headers and payloads put in. *)
Theorem C65_length : forall E o cs cl out, compiles o cs cl -> Forall ordinary cs -> added o cs <= ISIZE_MAX ->
  program E o cs cl dynamic_new = Ok out -> len out = added o cs.
Proof. exact ReferenceProofs.c65_length. Qed.
Print Assumptions C65_length.
(** C65: the hypotheses of C65_length can be met. *)
Example C65_length_meets :
  exists (E : env) (o : opening) (cs : list call) (cl : closing) (out : bytes), compiles o cs cl /\ Forall ordinary cs /\ added o cs <= ISIZE_MAX /\ program E o cs cl dynamic_new = Ok out.
Proof. exact WitnessProofs.c65_length_meets. Qed.
Theorem C65_panics : forall E o cs cl, compiles o cs cl -> Forall ordinary cs -> added o cs <= ISIZE_MAX ->
  program E o cs cl dynamic_new = Panic ->
  o = OpUdp \/ o = OpTcp \/
  (exists v s l1 l2 l3, cs = l1 ++ CallTcp (TcpSet (TcpSetFlags v)) :: l2 ++ CallTcp (TcpSet s) :: l3) \/
  (exists p, In (CallTcp (TcpPayload p)) cs /\ len p mod 2 = 1 /\ cursor_eof E = EofSeek) \/
  (o = OpEther /\ cl = ClV4 /\ exists p, In (CallV4 (V4Payload p)) cs /\ 44 <= len p).
Proof. exact ReferenceProofs.c65_panics. Qed.
Print Assumptions C65_panics.
(** C65: the hypotheses of C65_panics can be met. *)
Example C65_panics_meets :
  exists (E : env) (o : opening) (cs : list call) (cl : closing), compiles o cs cl /\ Forall ordinary cs /\ added o cs <= ISIZE_MAX /\ program E o cs cl dynamic_new = Panic.
Proof. exact WitnessProofs.c65_panics_meets. Qed.
Example C65_example : forall E, compiles OpEther calls_example ClUdp /\ Forall ordinary calls_example /\ added OpEther calls_example <= ISIZE_MAX /\
  reference E OpEther calls_example = Ok
    [0;0;0;0;0;0; 1;2;3;4;5;6; 8;0;
     69;0;0;30; 0;0;0;0; 64;17;122;208; 0;0;0;0; 0;0;0;0;
     0;53;0;0; 0;10;151;60; 104;105].
Proof. exact ReferenceProofs.c65_example. Qed.
Example C65_misused : forall E,
  (let cs := [CallV4 (V4Payload [1; 2]); CallV4 (V4Set (V4SetTtl 9)); CallV4Tcp] in
   compiles OpV4 cs ClTcp /\ Forall ordinary cs /\ reference E OpV4 cs = Err AlreadyDefined) /\
  (let cs := [CallTcp (TcpSet (TcpSetFlags 2)); CallTcp (TcpPayload [1; 2]); CallTcp (TcpSet (TcpSetSource 80))] in
   compiles OpTcp cs ClTcp /\ Forall ordinary cs /\ reference E OpTcp cs = Err Io) /\
  (let cs := [CallUdp (UdpSet (UdpSetSource 80))] in compiles OpUdp cs ClUdp /\ Forall ordinary cs /\ reference E OpUdp cs = Panic).
Proof. exact ReferenceProofs.c65_misused. Qed.
(** C65: in a Slice of 34 bytes with stale contents, Ethernet over IPv4 over UDP without payload does not fit; in 50 bytes it does. *)
Example C65_slice_example : forall E,
  let cs := [CallEther (EtherSource (Hw 1 2 3 4 5 6)); CallEtherIp; CallIpV4; CallV4 (V4Set (V4SetTtl 64)); CallV4Udp; CallUdp (UdpSet (UdpSetSource 53)); CallUdp (UdpPayload [])] in
  compiles OpEther cs ClUdp /\ Forall ordinary cs /\ Forall no_payload cs /\ added OpEther cs = 42 /\
  reference_within E 34 OpEther cs = Err SmallBuffer /\
  reference_within E (len (zeros 50)) OpEther cs = program E OpEther cs ClUdp (slice_new (repeat 7 50)) /\
  reference_within E 50 OpEther cs = Ok
    [0;0;0;0;0;0; 1;2;3;4;5;6; 8;0;
     69;0;0;28; 0;0;0;0; 64;17;122;210; 0;0;0;0; 0;0;0;0;
     0;53;0;0; 0;8;255;169].
Proof. exact ReferenceProofs.c65_slice_example. Qed.
(** C65: on a growable buffer already in use, behind what it holds. *)
Theorem C65_in_use : forall E o cs cl held off l, compiles o cs cl -> o <> OpUdp -> o <> OpTcp -> Forall ordinary cs ->
  off + l = len held -> len held + added o cs <= ISIZE_MAX ->
  program E o cs cl (Dynamic held off l) = (let* out := reference E o cs in Ok (held ++ out)).
Proof. exact InUseProofs.c65_in_use. Qed.
Print Assumptions C65_in_use.
(** C65: the hypotheses of C65_in_use can be met. *)
Example C65_in_use_meets :
  exists (E : env) (o : opening) (cs : list call) (cl : closing) (held : bytes) (off : N) (l : N), compiles o cs cl /\ o <> OpUdp /\ o <> OpTcp /\ Forall ordinary cs /\ off + l = len held /\ len held + added o cs <= ISIZE_MAX.
Proof. exact WitnessProofs.c65_in_use_meets. Qed.
(** C65: in a Slice of which a part is in use. *)
Theorem C65_slice_in_use : forall E o cs cl held mem off l, compiles o cs cl -> o <> OpUdp -> o <> OpTcp -> Forall ordinary cs -> Forall no_payload cs ->
  len held + len mem <= ISIZE_MAX -> added o cs <= ISIZE_MAX ->
  program E o cs cl (Slice (held ++ mem) off l (len held)) = (let* out := reference_within E (len mem) o cs in Ok (held ++ out)).
Proof. exact InUseProofs.c65_slice_in_use. Qed.
Print Assumptions C65_slice_in_use.
(** C65: the hypotheses of C65_slice_in_use can be met. *)
Example C65_slice_in_use_meets :
  exists (E : env) (o : opening) (cs : list call) (cl : closing) (held : bytes) (mem : bytes), compiles o cs cl /\ o <> OpUdp /\ o <> OpTcp /\ Forall ordinary cs /\ Forall no_payload cs /\ len held + len mem <= ISIZE_MAX /\ added o cs <= ISIZE_MAX.
Proof. exact WitnessProofs.c65_slice_in_use_meets. Qed.
(** C65: over any implementation of Buffer that keeps the trait's contract and has the room. *)
Theorem C65_any_buffer : forall T (I : impl T) E cap refused holds, lawful I E cap refused holds ->
  forall o cs cl t before layer, holds t before layer -> compiles o cs cl -> o <> OpUdp -> o <> OpTcp -> Forall ordinary cs ->
  len before + len layer + added o cs <= cap -> len before + len layer + added o cs <= ISIZE_MAX ->
  gprogram I E o cs cl t = (let* out := reference E o cs in Ok (before ++ layer ++ out)).
Proof. exact InUseProofs.c65_any_buffer. Qed.
Print Assumptions C65_any_buffer.
(** C65: the hypotheses of C65_any_buffer can be met. *)
Example C65_any_buffer_meets :
  exists (T : Type) (I : impl T) (E : env) (cap : N) (refused : error -> Prop) (holds : T -> bytes -> bytes -> Prop) (o : opening) (cs : list call) (cl : closing) (t : T) (before : bytes) (layer : bytes), lawful I E cap refused holds /\ holds t before layer /\ compiles o cs cl /\ o <> OpUdp /\ o <> OpTcp /\ Forall ordinary cs /\ len before + len layer + added o cs <= cap /\ len before + len layer + added o cs <= ISIZE_MAX.
Proof. exact WitnessProofs.c65_any_buffer_meets. Qed.
Theorem C65_builds : forall E E' o cs cl, compiles o cs cl -> Forall ordinary cs -> added o cs <= @ISIZE_MAX E -> added o cs <= @ISIZE_MAX E' ->
  (cl = ClUdp \/ cl = ClTcp -> added o cs mod 2 = 0 \/ cursor_eof E = cursor_eof E') ->
  program E o cs cl dynamic_new = program E' o cs cl dynamic_new.
Proof. exact BuiltProofs.c65_builds. Qed.
Print Assumptions C65_builds.
(** C65: the hypotheses of C65_builds can be met. *)
Example C65_builds_meets :
  exists (E : env) (E' : env) (o : opening) (cs : list call) (cl : closing), compiles o cs cl /\ Forall ordinary cs /\ added o cs <= @ISIZE_MAX E /\ added o cs <= @ISIZE_MAX E' /\ ((cl = ClUdp \/ cl = ClTcp -> added o cs mod 2 = 0 \/ cursor_eof E = cursor_eof E')).
Proof. exact WitnessProofs.c65_builds_meets. Qed.

(** ** C66 *)
Theorem C66_succeeds : forall E o cs cl, compiles o cs cl -> Forall ordinary cs -> added o cs <= ISIZE_MAX ->
  ((exists out, program E o cs cl dynamic_new = Ok out) <-> succeeds E o cs cl).
Proof. exact SucceedProofs.c66_succeeds. Qed.
Print Assumptions C66_succeeds.
(** C66: the hypotheses of C66_succeeds can be met. *)
Example C66_succeeds_meets :
  exists (E : env) (o : opening) (cs : list call) (cl : closing), compiles o cs cl /\ Forall ordinary cs /\ added o cs <= ISIZE_MAX.
Proof. exact WitnessProofs.c66_succeeds_meets. Qed.
Theorem C66_udp : forall E o cs out, compiles o cs ClUdp -> Forall ordinary cs -> faithful_calls cs -> added o cs <= ISIZE_MAX ->
  28 + len (payload_given cs) <= 65535 -> len (payload_given cs) mod 2 = 0 \/ cursor_eof E = EofKeep ->
  program E o cs ClUdp dynamic_new = Ok out ->
  exists ip u, frame_reads o cs ip out /\ v4_reads E (v4_setters (v4_calls cs)) IP_Udp u ip /\ udp_reads E (udp_calls cs) (payload_given cs) ip u.
Proof. exact SucceedProofs.c66_udp. Qed.
Print Assumptions C66_udp.
(** C66: the hypotheses of C66_udp can be met. *)
Example C66_udp_meets :
  exists (E : env) (o : opening) (cs : list call) (out : bytes), compiles o cs ClUdp /\ Forall ordinary cs /\ faithful_calls cs /\ added o cs <= ISIZE_MAX /\ 28 + len (payload_given cs) <= 65535 /\ (len (payload_given cs) mod 2 = 0 \/ cursor_eof E = EofKeep) /\ program E o cs ClUdp dynamic_new = Ok out.
Proof. exact WitnessProofs.c66_udp_meets. Qed.
(** C66: the same for TCP. *)
Theorem C66_tcp : forall E o cs out, compiles o cs ClTcp -> Forall ordinary cs -> faithful_calls cs -> added o cs <= ISIZE_MAX ->
  40 + len (payload_given cs) <= 65535 -> program E o cs ClTcp dynamic_new = Ok out ->
  exists ip t, frame_reads o cs ip out /\ v4_reads E (v4_setters (v4_calls cs)) IP_Tcp t ip /\ tcp_reads E (tcp_calls cs) (payload_given cs) ip t.
Proof. exact SucceedProofs.c66_tcp. Qed.
Print Assumptions C66_tcp.
(** C66: the hypotheses of C66_tcp can be met. *)
Example C66_tcp_meets :
  exists (E : env) (o : opening) (cs : list call) (out : bytes), compiles o cs ClTcp /\ Forall ordinary cs /\ faithful_calls cs /\ added o cs <= ISIZE_MAX /\ 40 + len (payload_given cs) <= 65535 /\ program E o cs ClTcp dynamic_new = Ok out.
Proof. exact WitnessProofs.c66_tcp_meets. Qed.
(** C66: an Ethernet frame with a payload of its own. *)
Theorem C66_ether : forall E o cs out, compiles o cs ClEther -> Forall ordinary cs -> added o cs <= ISIZE_MAX ->
  program E o cs ClEther dynamic_new = Ok out ->
  ether_reads (ether_calls cs) (ether_protocol_from (ether_protocol_into (last_set sel_eth_type (ether_calls cs) (ether_protocol_from 0)))) (payload_given cs) out.
Proof. exact SucceedProofs.c66_ether. Qed.
Print Assumptions C66_ether.
(** C66: the hypotheses of C66_ether can be met. *)
Example C66_ether_meets :
  exists (E : env) (o : opening) (cs : list call) (out : bytes), compiles o cs ClEther /\ Forall ordinary cs /\ added o cs <= ISIZE_MAX /\ program E o cs ClEther dynamic_new = Ok out.
Proof. exact WitnessProofs.c66_ether_meets. Qed.
(** C66: an IPv4 packet with fewer than four bytes of payload of its own (for more, see C37). *)
Theorem C66_v4 : forall E o cs out, compiles o cs ClV4 -> Forall ordinary cs -> faithful_calls cs -> added o cs <= ISIZE_MAX ->
  len (payload_given cs) < 4 -> program E o cs ClV4 dynamic_new = Ok out ->
  let vs := v4_setters (v4_calls cs) in
  exists ip, frame_reads o cs ip out /\ v4_reads E vs (ip_protocol_from (ip_protocol_into (last_set sel_v4_proto vs (ip_protocol_from 0)))) (payload_given cs) ip.
Proof. exact SucceedProofs.c66_v4. Qed.
Print Assumptions C66_v4.
(** C66: the hypotheses of C66_v4 can be met. *)
Example C66_v4_meets :
  exists (E : env) (o : opening) (cs : list call) (out : bytes), compiles o cs ClV4 /\ Forall ordinary cs /\ faithful_calls cs /\ added o cs <= ISIZE_MAX /\ len (payload_given cs) < 4 /\ program E o cs ClV4 dynamic_new = Ok out.
Proof. exact WitnessProofs.c66_v4_meets. Qed.
(** C66: echo messages, on their own or in IPv4. *)
Theorem C66_echo : forall E o cs out, compiles o cs ClEcho -> Forall ordinary cs -> faithful_calls cs -> added o cs <= ISIZE_MAX ->
  28 + len (payload_given cs) <= 65535 -> program E o cs ClEcho dynamic_new = Ok out ->
  exists m, message_reads E o cs m out /\ echo_reads E (echo_calls cs) (payload_given cs) m /\
    (len (payload_given cs) mod 2 = 0 -> word_sum m <> 0 -> receiver_accepts m).
Proof. exact SucceedProofs.c66_echo. Qed.
Print Assumptions C66_echo.
(** C66: the hypotheses of C66_echo can be met. *)
Example C66_echo_meets :
  exists (E : env) (o : opening) (cs : list call) (out : bytes), compiles o cs ClEcho /\ Forall ordinary cs /\ faithful_calls cs /\ added o cs <= ISIZE_MAX /\ 28 + len (payload_given cs) <= 65535 /\ program E o cs ClEcho dynamic_new = Ok out.
Proof. exact WitnessProofs.c66_echo_meets. Qed.
(** C66: information messages, on their own or in IPv4. *)
Theorem C66_information : forall E o cs out, compiles o cs ClInformation -> Forall ordinary cs -> faithful_calls cs -> added o cs <= ISIZE_MAX ->
  program E o cs ClInformation dynamic_new = Ok out ->
  exists m, message_reads E o cs m out /\ information_reads E (information_calls cs) m /\ receiver_accepts m.
Proof. exact SucceedProofs.c66_information. Qed.
Print Assumptions C66_information.
(** C66: the hypotheses of C66_information can be met. *)
Example C66_information_meets :
  exists (E : env) (o : opening) (cs : list call) (out : bytes), compiles o cs ClInformation /\ Forall ordinary cs /\ faithful_calls cs /\ added o cs <= ISIZE_MAX /\ program E o cs ClInformation dynamic_new = Ok out.
Proof. exact WitnessProofs.c66_information_meets. Qed.
(** C66: timestamp messages, on their own or in IPv4. *)
Theorem C66_timestamp : forall E o cs out, compiles o cs ClTimestamp -> Forall ordinary cs -> faithful_calls cs -> added o cs <= ISIZE_MAX ->
  program E o cs ClTimestamp dynamic_new = Ok out ->
  exists m, message_reads E o cs m out /\ timestamp_reads E (timestamp_calls cs) m /\ receiver_accepts m.
Proof. exact SucceedProofs.c66_timestamp. Qed.
Print Assumptions C66_timestamp.
(** C66: the hypotheses of C66_timestamp can be met. *)
Example C66_timestamp_meets :
  exists (E : env) (o : opening) (cs : list call) (out : bytes), compiles o cs ClTimestamp /\ Forall ordinary cs /\ faithful_calls cs /\ added o cs <= ISIZE_MAX /\ program E o cs ClTimestamp dynamic_new = Ok out.
Proof. exact WitnessProofs.c66_timestamp_meets. Qed.
Theorem C66_slice : forall E o cs cl s out, compiles o cs cl -> Forall ordinary cs -> Forall no_payload cs -> len s <= ISIZE_MAX -> added o cs <= ISIZE_MAX ->
  (program E o cs cl (slice_new s) = Ok out <-> program E o cs cl dynamic_new = Ok out /\ added o cs <= len s).
Proof. exact SucceedProofs.c66_slice. Qed.
Print Assumptions C66_slice.
(** C66: the hypotheses of C66_slice can be met. *)
Example C66_slice_meets :
  exists (E : env) (o : opening) (cs : list call) (cl : closing) (s : bytes), compiles o cs cl /\ Forall ordinary cs /\ Forall no_payload cs /\ len s <= ISIZE_MAX /\ added o cs <= ISIZE_MAX.
Proof. exact WitnessProofs.c66_slice_meets. Qed.
Example C66_example : forall E,
  compiles OpEther calls_example ClUdp /\ Forall ordinary calls_example /\ faithful_calls calls_example /\ payload_given calls_example = [104; 105] /\
  succeeds E OpEther calls_example ClUdp /\
  ~ succeeds E OpEther (calls_example ++ [CallUdp (UdpPayload [])]) ClUdp /\
  ~ succeeds E OpV4 [CallV4Tcp; CallTcp (TcpSet (TcpSetFlags 2)); CallTcp (TcpSet (TcpSetWindow 9))] ClTcp /\
  succeeds E OpEcho [CallEcho (EchoSequence 7); CallEcho EchoRequest] ClEcho /\ ~ succeeds E OpEcho [CallEcho (EchoSequence 7)] ClEcho.
Proof. exact SucceedProofs.c66_example. Qed.

(** ** C67 *)
(** C67: sizes and whole slices of every type, on any bytes (accepted or unchecked). *)
Theorem C67_sizes : forall E b, let D := debug (cursor_eof E) Bits32 in
  (agrees (ether_payload_size D b) (ether_payload_size E b) /\ agrees (ether_size D b) (ether_size E b) /\
   agrees (ether_as_ref D b) (ether_as_ref E b) /\ agrees (ether_as_mut D b) (ether_as_mut E b)) /\
  (agrees (tcp_payload_size D b) (tcp_payload_size E b) /\ agrees (tcp_size D b) (tcp_size E b) /\
   agrees (tcp_as_ref D b) (tcp_as_ref E b) /\ agrees (tcp_as_mut D b) (tcp_as_mut E b)) /\
  (agrees (icmp_payload_size D b) (icmp_payload_size E b) /\ agrees (icmp_size D b) (icmp_size E b) /\
   agrees (icmp_as_ref D b) (icmp_as_ref E b) /\ agrees (icmp_as_mut D b) (icmp_as_mut E b)) /\
  (agrees (echo_payload_size D b) (echo_payload_size E b) /\ agrees (echo_size D b) (echo_size E b) /\
   agrees (echo_as_ref D b) (echo_as_ref E b) /\ agrees (echo_as_mut D b) (echo_as_mut E b)) /\
  (agrees (information_size D b) (information_size E b) /\
   agrees (information_as_ref D b) (information_as_ref E b) /\ agrees (information_as_mut D b) (information_as_mut E b)) /\
  (agrees (timestamp_size D b) (timestamp_size E b) /\
   agrees (timestamp_as_ref D b) (timestamp_as_ref E b) /\ agrees (timestamp_as_mut D b) (timestamp_as_mut E b)) /\
  (agrees (embedded_payload_size D b) (embedded_payload_size E b) /\ agrees (embedded_size D b) (embedded_size E b) /\
   agrees (embedded_as_ref D b) (embedded_as_ref E b) /\ agrees (redirect_message_as_mut D b) (redirect_message_as_mut E b) /\
   agrees (parameter_problem_as_mut D b) (parameter_problem_as_mut E b) /\ agrees (previous_as_mut D b) (previous_as_mut E b)).
Proof. exact WidthProofs.c67_sizes. Qed.
Print Assumptions C67_sizes.
(** C67: checksums, is_valid, update_checksum and checked guards. *)
Theorem C67_checksums : forall E ip b, let D := debug (cursor_eof E) Bits32 in
  (agrees (v4_checksum_of D b) (v4_checksum_of E b) /\ agrees (v4_is_valid D b) (v4_is_valid E b) /\
   agrees_mut (v4_update_checksum D b) (v4_update_checksum E b) /\ forall ops, agrees_mut (v4_checked D ops b) (v4_checked E ops b)) /\
  (agrees (udp_checksum_of D ip b) (udp_checksum_of E ip b) /\ agrees (udp_is_valid D ip b) (udp_is_valid E ip b) /\
   agrees_mut (udp_update_checksum D ip b) (udp_update_checksum E ip b) /\ forall ops, agrees_mut (udp_checked D ip ops b) (udp_checked E ip ops b)) /\
  (agrees (tcp_checksum_of D ip b) (tcp_checksum_of E ip b) /\ agrees (tcp_is_valid D ip b) (tcp_is_valid E ip b) /\
   agrees_mut (tcp_update_checksum D ip b) (tcp_update_checksum E ip b) /\ forall ops, agrees_mut (tcp_checked D ip ops b) (tcp_checked E ip ops b)) /\
  (agrees (icmp_checksum_of D b) (icmp_checksum_of E b) /\ agrees (icmp_is_valid D b) (icmp_is_valid E b)) /\
  (forall ops, agrees_mut (echo_checked D ops b) (echo_checked E ops b)) /\
  (forall ops, agrees_mut (information_checked D ops b) (information_checked E ops b)) /\
  (forall ops, agrees_mut (timestamp_checked D ops b) (timestamp_checked E ops b)).
Proof. exact WidthProofs.c67_checksums. Qed.
Print Assumptions C67_checksums.
(** C67: options and loops over them. *)
Theorem C67_options : forall E b, let D := debug (cursor_eof E) Bits32 in
  (agrees (tcpopt_payload_size D b) (tcpopt_payload_size E b) /\ agrees (tcpopt_size D b) (tcpopt_size E b) /\
   agrees (tcpopt_as_ref D b) (tcpopt_as_ref E b) /\ agrees (tcpopt_as_mut D b) (tcpopt_as_mut E b)) /\
  (agrees (v4opt_payload_size D b) (v4opt_payload_size E b) /\ agrees (v4opt_size D b) (v4opt_size E b) /\
   agrees (v4opt_as_ref D b) (v4opt_as_ref E b) /\ agrees (v4opt_as_mut D b) (v4opt_as_mut E b)) /\
  (forall n, nexts (tcp_iter_next D) n b = nexts (tcp_iter_next E) n b \/ In Panic (nexts (tcp_iter_next D) n b)) /\
  (forall n, nexts (v4_iter_next D) n b = nexts (v4_iter_next E) n b \/ In Panic (nexts (v4_iter_next D) n b)).
Proof. exact WidthProofs.c67_options. Qed.
Print Assumptions C67_options.
(** C67: Debug formatting. *)
Theorem C67_formatting : forall E b, let D := debug (cursor_eof E) Bits32 in
  agrees (v4_debug D b) (v4_debug E b) /\ (forall ip, agrees (ip_debug D ip) (ip_debug E ip)) /\ agrees (icmp_debug D b) (icmp_debug E b) /\
  agrees (parameter_problem_debug D b) (parameter_problem_debug E b) /\ agrees (redirect_message_debug D b) (redirect_message_debug E b) /\
  agrees (previous_debug D b) (previous_debug E b).
Proof. exact WidthProofs.c67_formatting. Qed.
Print Assumptions C67_formatting.
(** C67: buffers, in any state. *)
Theorem C67_buffers : forall E n f b, let D := debug (cursor_eof E) Bits32 in
  agrees (buf_data D b) (buf_data E b) /\ agrees_mut (buf_data_mut D f b) (buf_data_mut E f b) /\
  agrees_mut (buf_next D n b) (buf_next E n b) /\ agrees_mut (buf_more D n b) (buf_more E n b).
Proof. exact WidthProofs.c67_buffers. Qed.
Print Assumptions C67_buffers.
(** C67: every builder program, well used or misused, on any buffer. *)
Theorem C67_builders : forall E o cs cl buf, agrees (program (debug (cursor_eof E) Bits32) o cs cl buf) (program E o cs cl buf).
Proof. exact WidthProofs.c67_builders. Qed.
Print Assumptions C67_builders.
(** C67: and every look at an unfinished packet. *)
Theorem C67_previews : forall E o cs parse buf, agrees (preview (debug (cursor_eof E) Bits32) o cs parse buf) (preview E o cs parse buf).
Proof. exact WidthProofs.c67_previews. Qed.
Print Assumptions C67_previews.
Theorem C67_programs : forall E E' o cs cl, cursor_eof E = cursor_eof E' ->
  compiles o cs cl -> Forall ordinary cs -> added o cs < 2 ^ 31 ->
  program E o cs cl dynamic_new = program E' o cs cl dynamic_new /\
  (forall s, Forall no_payload cs -> len s < 2 ^ 31 -> program E o cs cl (slice_new s) = program E' o cs cl (slice_new s)).
Proof. exact WidthProofs.c67_programs. Qed.
Print Assumptions C67_programs.
(** C67: the hypotheses of C67_programs can be met. *)
Example C67_programs_meets :
  exists (E : env) (E' : env) (o : opening) (cs : list call) (cl : closing) (s : bytes), cursor_eof E = cursor_eof E' /\ compiles o cs cl /\ Forall ordinary cs /\ added o cs < 2 ^ 31 /\ Forall no_payload cs /\ len s < 2 ^ 31.
Proof. exact WitnessProofs.c67_programs_meets. Qed.
(** C67: the widths do differ where sums wrap, and where a buffer of 2 GiB is asked for. *)
Theorem C67_equal_refuted : forall c,
  (exists b, ether_payload_size (release c Bits32) b = Ok 4294967285 /\ ether_payload_size (release c Bits64) b = Ok 18446744073709551605) /\
  (forall r, snd (buf_next {| overflow_checks := r; cursor_eof := c; target := Bits32 |} (2 ^ 31) dynamic_new) = Panic) /\
  (forall r, snd (buf_next {| overflow_checks := r; cursor_eof := c; target := Bits64 |} (2 ^ 31) dynamic_new) = Ok tt).
Proof. exact WidthProofs.c67_equal_refuted. Qed.
Print Assumptions C67_equal_refuted.
(** C67: the hypotheses are met by a UDP datagram in IPv4 in Ethernet. *)
Example C67_example : forall E, let cs := [CallEther (EtherSource (Hw 1 2 3 4 5 6)); CallEtherIp; CallIpV4; CallV4 (V4Set (V4SetTtl 9)); CallV4Udp; CallUdp (UdpPayload [7; 8])] in
  compiles OpEther cs ClUdp /\ Forall ordinary cs /\ added OpEther cs < 2 ^ 31 /\
  exists out, program E OpEther cs ClUdp dynamic_new = Ok out /\ len out = 44.
Proof. exact WidthProofs.c67_example. Qed.

(** ** C68 *)
Theorem C68_v4_burst : forall E b b' j, is_bytes b -> is_bytes b' ->
  v4_no_payload b = Ok b -> v4_no_payload b' = Ok b' -> 3 <= nthN b 0 mod 16 ->
  nthN b' 0 mod 16 = nthN b 0 mod 16 -> j + 16 <= 8 * (nthN b 0 mod 16 * 4) ->
  burst j (takeN (nthN b 0 mod 16 * 4) b) (takeN (nthN b 0 mod 16 * 4) b') ->
  v4_is_valid E b = Ok true ->
  (v4_is_valid E b' = Ok true <->
   blind_burst j (takeN (nthN b 0 mod 16 * 4) b) (takeN (nthN b 0 mod 16 * 4) b') /\ wire16 b' 10 <> 65535).
Proof. exact CorruptProofs.c68_v4_burst. Qed.
Print Assumptions C68_v4_burst.
(** C68: the hypotheses of C68_v4_burst can be met. *)
Example C68_v4_burst_meets :
  exists (E : env) (b : bytes) (b' : bytes) (j : N), is_bytes b /\ is_bytes b' /\ v4_no_payload b = Ok b /\ v4_no_payload b' = Ok b' /\ 3 <= nthN b 0 mod 16 /\ nthN b' 0 mod 16 = nthN b 0 mod 16 /\ j + 16 <= 8 * (nthN b 0 mod 16 * 4) /\ burst j (takeN (nthN b 0 mod 16 * 4) b) (takeN (nthN b 0 mod 16 * 4) b') /\ v4_is_valid E b = Ok true.
Proof. exact WitnessProofs.c68_v4_burst_meets. Qed.
(** C68: a UDP datagram hit by a burst. *)
Theorem C68_udp_burst : forall E p b b' j, is_bytes p -> is_bytes b -> is_bytes b' -> 20 <= len p -> 8 <= len b ->
  len b mod 2 = 0 \/ cursor_eof E = EofKeep ->
  j + 16 <= 8 * len b -> burst j b b' -> udp_is_valid E (V4 p) b = Ok true ->
  (udp_is_valid E (V4 p) b' = Ok true <-> blind_burst j b b' /\ wire16 b' 6 <> 65535).
Proof. exact CorruptProofs.c68_udp_burst. Qed.
Print Assumptions C68_udp_burst.
(** C68: the hypotheses of C68_udp_burst can be met. *)
Example C68_udp_burst_meets :
  exists (E : env) (p : bytes) (b : bytes) (b' : bytes) (j : N), is_bytes p /\ is_bytes b /\ is_bytes b' /\ 20 <= len p /\ 8 <= len b /\ (len b mod 2 = 0 \/ cursor_eof E = EofKeep) /\ j + 16 <= 8 * len b /\ burst j b b' /\ udp_is_valid E (V4 p) b = Ok true.
Proof. exact WitnessProofs.c68_udp_burst_meets. Qed.
(** C68: a TCP segment hit by a burst. *)
Theorem C68_tcp_burst : forall E p b b' j, is_bytes p -> is_bytes b -> is_bytes b' -> 20 <= len p ->
  18 <= len b <= 131065 -> len b mod 2 = 0 \/ cursor_eof E = EofKeep ->
  j + 16 <= 8 * len b -> burst j b b' -> tcp_is_valid E (V4 p) b = Ok true ->
  (tcp_is_valid E (V4 p) b' = Ok true <-> blind_burst j b b' /\ wire16 b' 16 <> 65535).
Proof. exact CorruptProofs.c68_tcp_burst. Qed.
Print Assumptions C68_tcp_burst.
(** C68: the hypotheses of C68_tcp_burst can be met. *)
Example C68_tcp_burst_meets :
  exists (E : env) (p : bytes) (b : bytes) (b' : bytes) (j : N), is_bytes p /\ is_bytes b /\ is_bytes b' /\ 20 <= len p /\ 18 <= len b <= 131065 /\ (len b mod 2 = 0 \/ cursor_eof E = EofKeep) /\ j + 16 <= 8 * len b /\ burst j b b' /\ tcp_is_valid E (V4 p) b = Ok true.
Proof. exact WitnessProofs.c68_tcp_burst_meets. Qed.
(** C68: an ICMP message of even length hit by a burst (an odd last byte is not covered at all, C23). *)
Theorem C68_icmp_burst : forall E b b' j, is_bytes b -> is_bytes b' -> 4 <= len b -> len b mod 2 = 0 ->
  j + 16 <= 8 * len b -> burst j b b' -> icmp_is_valid E b = Ok true ->
  (icmp_is_valid E b' = Ok true <-> blind_burst j b b' /\ wire16 b' 2 <> 65535).
Proof. exact CorruptProofs.c68_icmp_burst. Qed.
Print Assumptions C68_icmp_burst.
(** C68: the hypotheses of C68_icmp_burst can be met. *)
Example C68_icmp_burst_meets :
  exists (E : env) (b : bytes) (b' : bytes) (j : N), is_bytes b /\ is_bytes b' /\ 4 <= len b /\ len b mod 2 = 0 /\ j + 16 <= 8 * len b /\ burst j b b' /\ icmp_is_valid E b = Ok true.
Proof. exact WitnessProofs.c68_icmp_burst_meets. Qed.
(** C68: the addresses of the IPv4 header hit by a burst, as seen by UDP ... *)
Theorem C68_udp_parent_burst : forall E p p' b j, is_bytes p -> is_bytes p' -> is_bytes b -> 20 <= len p -> 8 <= len b ->
  len b mod 2 = 0 \/ cursor_eof E = EofKeep ->
  96 <= j -> j + 16 <= 160 -> burst j p p' -> udp_is_valid E (V4 p) b = Ok true ->
  (udp_is_valid E (V4 p') b = Ok true <-> blind_burst j p p').
Proof. exact CorruptProofs.c68_udp_parent_burst. Qed.
Print Assumptions C68_udp_parent_burst.
(** C68: the hypotheses of C68_udp_parent_burst can be met. *)
Example C68_udp_parent_burst_meets :
  exists (E : env) (p : bytes) (p' : bytes) (b : bytes) (j : N), is_bytes p /\ is_bytes p' /\ is_bytes b /\ 20 <= len p /\ 8 <= len b /\ (len b mod 2 = 0 \/ cursor_eof E = EofKeep) /\ 96 <= j /\ j + 16 <= 160 /\ burst j p p' /\ udp_is_valid E (V4 p) b = Ok true.
Proof. exact WitnessProofs.c68_udp_parent_burst_meets. Qed.
(** C68: ... and by TCP. *)
Theorem C68_tcp_parent_burst : forall E p p' b j, is_bytes p -> is_bytes p' -> is_bytes b -> 20 <= len p ->
  18 <= len b <= 131065 -> len b mod 2 = 0 \/ cursor_eof E = EofKeep ->
  96 <= j -> j + 16 <= 160 -> burst j p p' -> tcp_is_valid E (V4 p) b = Ok true ->
  (tcp_is_valid E (V4 p') b = Ok true <-> blind_burst j p p').
Proof. exact CorruptProofs.c68_tcp_parent_burst. Qed.
Print Assumptions C68_tcp_parent_burst.
(** C68: the hypotheses of C68_tcp_parent_burst can be met. *)
Example C68_tcp_parent_burst_meets :
  exists (E : env) (p : bytes) (p' : bytes) (b : bytes) (j : N), is_bytes p /\ is_bytes p' /\ is_bytes b /\ 20 <= len p /\ 18 <= len b <= 131065 /\ (len b mod 2 = 0 \/ cursor_eof E = EofKeep) /\ 96 <= j /\ j + 16 <= 160 /\ burst j p p' /\ tcp_is_valid E (V4 p) b = Ok true.
Proof. exact WitnessProofs.c68_tcp_parent_burst_meets. Qed.
Example C68_burst_example : forall E,
  let b := [69; 0; 0; 20; 1; 2; 64; 0; 64; 17; 37; 213; 10; 0; 0; 1; 10; 0; 0; 2] in
  let c := [69; 255; 255; 20; 1; 2; 64; 0; 64; 17; 37; 213; 10; 0; 0; 1; 10; 0; 0; 2] in
  let d := [69; 0; 0; 20; 1; 2; 64; 0; 64; 17; 37; 213; 10; 0; 1; 1; 10; 0; 0; 2] in
  is_bytes b /\ v4_no_payload b = Ok b /\ v4_no_payload d = Ok d /\ v4_is_valid E b = Ok true /\
  burst 8 b c /\ blind_burst 8 b c /\ burst 104 b d /\ d <> b /\ v4_is_valid E d = Ok false /\
  v4_no_payload c = Ok c /\ v4_is_valid E c = Ok true.
Proof. exact CorruptProofs.c68_burst_example. Qed.
Theorem C68_v4_reorder : forall E b b', is_bytes b -> is_bytes b' ->
  v4_no_payload b = Ok b -> v4_no_payload b' = Ok b' -> 3 <= nthN b 0 mod 16 ->
  nthN b' 0 mod 16 = nthN b 0 mod 16 -> wire16 b' 10 = wire16 b 10 ->
  reordered (takeN (nthN b 0 mod 16 * 4) b) (takeN (nthN b 0 mod 16 * 4) b') ->
  v4_is_valid E b' = v4_is_valid E b.
Proof. exact CorruptProofs.c68_v4_reorder. Qed.
Print Assumptions C68_v4_reorder.
(** C68: the hypotheses of C68_v4_reorder can be met. *)
Example C68_v4_reorder_meets :
  exists (b : bytes) (b' : bytes), is_bytes b /\ is_bytes b' /\ v4_no_payload b = Ok b /\ v4_no_payload b' = Ok b' /\ 3 <= nthN b 0 mod 16 /\ nthN b' 0 mod 16 = nthN b 0 mod 16 /\ wire16 b' 10 = wire16 b 10 /\ reordered (takeN (nthN b 0 mod 16 * 4) b) (takeN (nthN b 0 mod 16 * 4) b').
Proof. exact WitnessProofs.c68_v4_reorder_meets. Qed.
Theorem C68_udp_reorder : forall E p p' b b', is_bytes p -> is_bytes p' -> is_bytes b -> is_bytes b' ->
  20 <= len p -> 20 <= len p' -> 8 <= len b -> len b' = len b -> len b mod 2 = 0 \/ cursor_eof E = EofKeep ->
  wire16 b' 6 = wire16 b 6 ->
  reordered (octets (wire_addr p 12) ++ octets (wire_addr p 16) ++ b)
            (octets (wire_addr p' 12) ++ octets (wire_addr p' 16) ++ b') ->
  udp_is_valid E (V4 p') b' = udp_is_valid E (V4 p) b.
Proof. exact CorruptProofs.c68_udp_reorder. Qed.
Print Assumptions C68_udp_reorder.
(** C68: the hypotheses of C68_udp_reorder can be met. *)
Example C68_udp_reorder_meets :
  exists (E : env) (p : bytes) (p' : bytes) (b : bytes) (b' : bytes), is_bytes p /\ is_bytes p' /\ is_bytes b /\ is_bytes b' /\ 20 <= len p /\ 20 <= len p' /\ 8 <= len b /\ len b' = len b /\ (len b mod 2 = 0 \/ cursor_eof E = EofKeep) /\ wire16 b' 6 = wire16 b 6 /\ reordered (octets (wire_addr p 12) ++ octets (wire_addr p 16) ++ b) (octets (wire_addr p' 12) ++ octets (wire_addr p' 16) ++ b').
Proof. exact WitnessProofs.c68_udp_reorder_meets. Qed.
Theorem C68_tcp_reorder : forall E p p' b b', is_bytes p -> is_bytes p' -> is_bytes b -> is_bytes b' ->
  20 <= len p -> 20 <= len p' -> 18 <= len b <= 131065 -> len b' = len b ->
  wire16 b' 16 = wire16 b 16 ->
  reordered (octets (wire_addr p 12) ++ octets (wire_addr p 16) ++ b)
            (octets (wire_addr p' 12) ++ octets (wire_addr p' 16) ++ b') ->
  tcp_is_valid E (V4 p') b' = tcp_is_valid E (V4 p) b.
Proof. exact CorruptProofs.c68_tcp_reorder. Qed.
Print Assumptions C68_tcp_reorder.
(** C68: the hypotheses of C68_tcp_reorder can be met. *)
Example C68_tcp_reorder_meets :
  exists (p : bytes) (p' : bytes) (b : bytes) (b' : bytes), is_bytes p /\ is_bytes p' /\ is_bytes b /\ is_bytes b' /\ 20 <= len p /\ 20 <= len p' /\ 18 <= len b <= 131065 /\ len b' = len b /\ wire16 b' 16 = wire16 b 16 /\ reordered (octets (wire_addr p 12) ++ octets (wire_addr p 16) ++ b) (octets (wire_addr p' 12) ++ octets (wire_addr p' 16) ++ b').
Proof. exact WitnessProofs.c68_tcp_reorder_meets. Qed.
(** C68: the same for ICMP. *)
Theorem C68_icmp_reorder : forall E b b', is_bytes b -> is_bytes b' -> 4 <= len b -> len b' = len b ->
  wire16 b' 2 = wire16 b 2 -> reordered (drop_odd b) (drop_odd b') ->
  icmp_is_valid E b' = icmp_is_valid E b.
Proof. exact CorruptProofs.c68_icmp_reorder. Qed.
Print Assumptions C68_icmp_reorder.
(** C68: the hypotheses of C68_icmp_reorder can be met. *)
Example C68_icmp_reorder_meets :
  exists (b : bytes) (b' : bytes), is_bytes b /\ is_bytes b' /\ 4 <= len b /\ len b' = len b /\ wire16 b' 2 = wire16 b 2 /\ reordered (drop_odd b) (drop_odd b').
Proof. exact WitnessProofs.c68_icmp_reorder_meets. Qed.
(** C68: UDP and TCP look at nothing of the parent but its addresses. *)
Theorem C68_parent_addresses : forall E p p' b, 20 <= len p -> 20 <= len p' ->
  wire_addr p' 12 = wire_addr p 12 -> wire_addr p' 16 = wire_addr p 16 ->
  udp_is_valid E (V4 p') b = udp_is_valid E (V4 p) b /\
  tcp_is_valid E (V4 p') b = tcp_is_valid E (V4 p) b /\
  udp_checksum_of E (V4 p') b = udp_checksum_of E (V4 p) b /\
  tcp_checksum_of E (V4 p') b = tcp_checksum_of E (V4 p) b /\
  udp_update_checksum E (V4 p') b = udp_update_checksum E (V4 p) b /\
  tcp_update_checksum E (V4 p') b = tcp_update_checksum E (V4 p) b.
Proof. exact CorruptProofs.c68_parent_addresses. Qed.
Print Assumptions C68_parent_addresses.
(** C68: the hypotheses of C68_parent_addresses can be met. *)
Example C68_parent_addresses_meets :
  exists (p : bytes) (p' : bytes), 20 <= len p /\ 20 <= len p' /\ wire_addr p' 12 = wire_addr p 12 /\ wire_addr p' 16 = wire_addr p 16.
Proof. exact WitnessProofs.c68_parent_addresses_meets. Qed.
Theorem C68_other_addresses : forall E p p' b, is_bytes p -> is_bytes p' -> is_bytes b -> 20 <= len p -> 20 <= len p' ->
  len b mod 2 = 0 \/ cursor_eof E = EofKeep ->
  let same := word_sum (octets (wire_addr p' 12) ++ octets (wire_addr p' 16)) mod 65535 =
              word_sum (octets (wire_addr p 12) ++ octets (wire_addr p 16)) mod 65535 in
  (8 <= len b -> udp_is_valid E (V4 p) b = Ok true -> (udp_is_valid E (V4 p') b = Ok true <-> same)) /\
  (18 <= len b <= 131065 -> tcp_is_valid E (V4 p) b = Ok true -> (tcp_is_valid E (V4 p') b = Ok true <-> same)).
Proof. exact CorruptProofs.c68_other_addresses. Qed.
Print Assumptions C68_other_addresses.
(** C68: the hypotheses of C68_other_addresses can be met. *)
Example C68_other_addresses_meets :
  (exists (E : env) (p : bytes) (p' : bytes) (b : bytes), is_bytes p /\ is_bytes p' /\ is_bytes b /\ 20 <= len p /\ 20 <= len p' /\ (len b mod 2 = 0 \/ cursor_eof E = EofKeep) /\ 8 <= len b /\ udp_is_valid E (V4 p) b = Ok true) /\
  (exists (E : env) (p : bytes) (p' : bytes) (b : bytes), is_bytes p /\ is_bytes p' /\ is_bytes b /\ 20 <= len p /\ 20 <= len p' /\ (len b mod 2 = 0 \/ cursor_eof E = EofKeep) /\ 18 <= len b <= 131065 /\ tcp_is_valid E (V4 p) b = Ok true).
Proof. exact WitnessProofs.c68_other_addresses_meets. Qed.
Example C68_reorder_example : forall E,
  let p := [69;0;0;30;0;0;0;0;64;17;0;0;10;0;0;1;10;0;0;2] in
  let p' := [69;0;0;30;0;0;0;0;64;17;0;0;10;0;0;2;10;0;0;1] in
  let p2 := [69;0;0;30;0;0;0;0;64;17;0;0;10;0;0;3;10;0;0;2] in
  let b := [0; 53; 0; 99; 0; 10; 130; 214; 104; 105] in
  let b' := [0; 99; 0; 53; 0; 10; 130; 214; 104; 105] in
  is_bytes p /\ is_bytes p' /\ is_bytes b /\ udp_is_valid E (V4 p) b = Ok true /\ wire16 b' 6 = wire16 b 6 /\
  reordered (octets (wire_addr p 12) ++ octets (wire_addr p 16) ++ b)
            (octets (wire_addr p' 12) ++ octets (wire_addr p' 16) ++ b') /\
  udp_is_valid E (V4 p') b' = Ok true /\ udp_is_valid E (V4 p2) b = Ok false.
Proof. exact CorruptProofs.c68_reorder_example. Qed.

(** ** C69 *)
Theorem C69_forward : forall E b ops, is_bytes b -> v4_new b = Ok b -> 5 <= nthN b 0 mod 16 ->
  Forall v4_setter_ok ops -> Forall v4_in_range ops -> Forall keeps_addresses ops ->
  exists b', v4_checked E ops b = (b', Ok tt) /\ v4_new b' = Ok b' /\ v4_is_valid E b' = Ok true /\
    v4_payload b' = v4_payload b /\
    v4_source b' = v4_source b /\ v4_destination b' = v4_destination b /\
    v4_ttl b' = Ok (last_value v4_ttl_of ops (nthN b 8)) /\
    (forall u, udp_is_valid E (V4 b') u = udp_is_valid E (V4 b) u /\
               tcp_is_valid E (V4 b') u = tcp_is_valid E (V4 b) u).
Proof. exact ForwardProofs.c69_forward. Qed.
Print Assumptions C69_forward.
(** C69: the hypotheses of C69_forward can be met. *)
Example C69_forward_meets :
  exists (b : bytes) (ops : list v4_setter), is_bytes b /\ v4_new b = Ok b /\ 5 <= nthN b 0 mod 16 /\ Forall v4_setter_ok ops /\ Forall v4_in_range ops /\ Forall keeps_addresses ops.
Proof. exact WitnessProofs.c69_forward_meets. Qed.
Theorem C69_answer_udp : forall E b u, is_bytes b -> v4_new b = Ok b -> 5 <= nthN b 0 mod 16 ->
  v4_payload b = Ok u -> udp_new u = Ok u ->
  exists b' u', answer_udp b = (b', Ok tt) /\ v4_new b' = Ok b' /\
    v4_source b' = v4_destination b /\ v4_destination b' = v4_source b /\
    v4_is_valid E b' = v4_is_valid E b /\
    v4_payload b' = Ok u' /\ udp_new u' = Ok u' /\
    udp_source u' = udp_destination u /\ udp_destination u' = udp_source u /\
    udp_payload u' = udp_payload u /\ len b' = len b /\
    udp_is_valid E (V4 b') u' = udp_is_valid E (V4 b) u.
Proof. exact ForwardProofs.c69_answer_udp. Qed.
Print Assumptions C69_answer_udp.
(** C69: the hypotheses of C69_answer_udp can be met. *)
Example C69_answer_udp_meets :
  exists (b : bytes) (u : bytes), is_bytes b /\ v4_new b = Ok b /\ 5 <= nthN b 0 mod 16 /\ v4_payload b = Ok u /\ udp_new u = Ok u.
Proof. exact WitnessProofs.c69_answer_udp_meets. Qed.
(** C69: an answer to a TCP segment (its data offset at least 5). *)
Theorem C69_answer_tcp : forall E b u, is_bytes b -> v4_new b = Ok b -> 5 <= nthN b 0 mod 16 ->
  v4_payload b = Ok u -> tcp_new u = Ok u -> 5 <= nthN u 12 / 16 ->
  exists b' u', answer_tcp b = (b', Ok tt) /\ v4_new b' = Ok b' /\
    v4_source b' = v4_destination b /\ v4_destination b' = v4_source b /\
    v4_is_valid E b' = v4_is_valid E b /\
    v4_payload b' = Ok u' /\ tcp_new u' = Ok u' /\
    tcp_source u' = tcp_destination u /\ tcp_destination u' = tcp_source u /\
    tcp_payload u' = tcp_payload u /\ tcp_options u' = tcp_options u /\ len b' = len b /\
    tcp_is_valid E (V4 b') u' = tcp_is_valid E (V4 b) u.
Proof. exact ForwardProofs.c69_answer_tcp. Qed.
Print Assumptions C69_answer_tcp.
(** C69: the hypotheses of C69_answer_tcp can be met. *)
Example C69_answer_tcp_meets :
  exists (b : bytes) (u : bytes), is_bytes b /\ v4_new b = Ok b /\ 5 <= nthN b 0 mod 16 /\ v4_payload b = Ok u /\ tcp_new u = Ok u /\ 5 <= nthN u 12 / 16.
Proof. exact WitnessProofs.c69_answer_tcp_meets. Qed.
(** C69: an answer to a ping. *)
Theorem C69_answer_ping : forall E b u, rust_slice b -> v4_new b = Ok b -> 5 <= nthN b 0 mod 16 ->
  v4_payload b = Ok u -> echo_new u = Ok u ->
  exists b' u', answer_ping E b = (b', Ok tt) /\ v4_new b' = Ok b' /\
    v4_source b' = v4_destination b /\ v4_destination b' = v4_source b /\
    v4_is_valid E b' = v4_is_valid E b /\
    v4_payload b' = Ok u' /\ echo_new u' = Ok u' /\ echo_is_reply u' = Ok true /\
    echo_identifier u' = echo_identifier u /\ echo_sequence u' = echo_sequence u /\
    echo_payload u' = echo_payload u /\ len b' = len b /\ icmp_is_valid E u' = Ok true.
Proof. exact ForwardProofs.c69_answer_ping. Qed.
Print Assumptions C69_answer_ping.
(** C69: the hypotheses of C69_answer_ping can be met. *)
Example C69_answer_ping_meets :
  exists (E : env) (b : bytes) (u : bytes), rust_slice b /\ v4_new b = Ok b /\ 5 <= nthN b 0 mod 16 /\ v4_payload b = Ok u /\ echo_new u = Ok u.
Proof. exact WitnessProofs.c69_answer_ping_meets. Qed.
Example C69_example : forall E,
  let b := [69;0;0;30;0;0;0;0;64;17;102;205;10;0;0;1;10;0;0;2; 0;53;0;99;0;10;130;214;104;105] in
  let u := [0;53;0;99;0;10;130;214;104;105] in
  let r := [69;0;0;30;0;0;0;0;64;17;102;205;10;0;0;2;10;0;0;1; 0;99;0;53;0;10;130;214;104;105] in
  let f := [69;0;0;30;0;0;0;0;63;17;103;205;10;0;0;1;10;0;0;2; 0;53;0;99;0;10;130;214;104;105] in
  rust_slice b /\ v4_new b = Ok b /\ v4_payload b = Ok u /\ udp_new u = Ok u /\
  v4_is_valid E b = Ok true /\ udp_is_valid E (V4 b) u = Ok true /\
  answer_udp b = (r, Ok tt) /\ v4_is_valid E r = Ok true /\
  v4_checked E [V4SetTtl 63] b = (f, Ok tt).
Proof. exact ForwardProofs.c69_example. Qed.
Example C69_ping_example : forall E,
  let b := [69;0;0;28;0;0;0;0;64;1;102;223;10;0;0;1;10;0;0;2; 8;0;229;202;18;52;0;1] in
  let r := [69;0;0;28;0;0;0;0;64;1;102;223;10;0;0;2;10;0;0;1; 0;0;237;202;18;52;0;1] in
  v4_new b = Ok b /\ v4_is_valid E b = Ok true /\ answer_ping E b = (r, Ok tt).
Proof. exact ForwardProofs.c69_ping_example. Qed.
Theorem C69_answer_frame : forall b edit ip ip', ether_new b = Ok b -> ether_payload b = Ok ip -> v4_new ip = Ok ip ->
  edit ip = (ip', Ok tt) -> len ip' = len ip ->
  exists b', answer_frame edit b = (b', Ok tt) /\ ether_new b' = Ok b' /\ len b' = len b /\
    ether_source b' = ether_destination b /\ ether_destination b' = ether_source b /\
    ether_get_protocol b' = ether_get_protocol b /\ ether_payload b' = Ok ip'.
Proof. exact FrameAnswerProofs.c69_answer_frame. Qed.
Print Assumptions C69_answer_frame.
(** C69: the hypotheses of C69_answer_frame can be met. *)
Example C69_answer_frame_meets :
  exists (b : bytes) (edit : bytes -> bytes * res unit) (ip : bytes) (ip' : bytes), ether_new b = Ok b /\ ether_payload b = Ok ip /\ v4_new ip = Ok ip /\ edit ip = (ip', Ok tt) /\ len ip' = len ip.
Proof. exact WitnessProofs.c69_answer_frame_meets. Qed.
(** C69: a UDP datagram answered in its frame, all layers. *)
Theorem C69_answer_frame_udp : forall E b ip u, is_bytes b -> ether_new b = Ok b ->
  ether_payload b = Ok ip -> v4_new ip = Ok ip -> 5 <= nthN ip 0 mod 16 -> v4_payload ip = Ok u -> udp_new u = Ok u ->
  exists b' ip' u', answer_frame answer_udp b = (b', Ok tt) /\ len b' = len b /\
    ether_new b' = Ok b' /\ ether_payload b' = Ok ip' /\ v4_new ip' = Ok ip' /\ v4_payload ip' = Ok u' /\ udp_new u' = Ok u' /\
    ether_source b' = ether_destination b /\ ether_destination b' = ether_source b /\
    ether_get_protocol b' = ether_get_protocol b /\
    v4_source ip' = v4_destination ip /\ v4_destination ip' = v4_source ip /\
    udp_source u' = udp_destination u /\ udp_destination u' = udp_source u /\ udp_payload u' = udp_payload u /\
    v4_is_valid E ip' = v4_is_valid E ip /\ udp_is_valid E (V4 ip') u' = udp_is_valid E (V4 ip) u.
Proof. exact FrameAnswerProofs.c69_answer_frame_udp. Qed.
Print Assumptions C69_answer_frame_udp.
(** C69: the hypotheses of C69_answer_frame_udp can be met. *)
Example C69_answer_frame_udp_meets :
  exists (b : bytes) (ip : bytes) (u : bytes), is_bytes b /\ ether_new b = Ok b /\ ether_payload b = Ok ip /\ v4_new ip = Ok ip /\ 5 <= nthN ip 0 mod 16 /\ v4_payload ip = Ok u /\ udp_new u = Ok u.
Proof. exact WitnessProofs.c69_answer_frame_udp_meets. Qed.
Example C69_frame_example : forall E,
  let b := [0;35;105;99;89;190; 228;179;24;38;99;163; 8;0;
            69;0;0;30;0;0;0;0;64;17;102;205;10;0;0;1;10;0;0;2; 0;53;0;99;0;10;130;214;104;105; 0;0] in
  let r := [228;179;24;38;99;163; 0;35;105;99;89;190; 8;0;
            69;0;0;30;0;0;0;0;64;17;102;205;10;0;0;2;10;0;0;1; 0;99;0;53;0;10;130;214;104;105; 0;0] in
  is_bytes b /\ ether_new b = Ok b /\ v4_new (dropN 14 b) = Ok (dropN 14 b) /\ v4_is_valid E (dropN 14 b) = Ok true /\
  answer_frame answer_udp b = (r, Ok tt) /\
  answer_frame (v4_checked E [V4SetTtl 64]) b = (takeN 12 r ++ dropN 12 b, Ok tt).
Proof. exact FrameAnswerProofs.c69_frame_example. Qed.

(** ** C70 *)
Theorem C70_v4 : forall E b i w, is_bytes b -> u16 w -> v4_no_payload b = Ok b -> 3 <= nthN b 0 mod 16 ->
  i mod 2 = 0 -> i + 2 <= nthN b 0 mod 16 * 4 -> i <> 10 ->
  let b1 := put16 i w b in nthN b1 0 = nthN b 0 ->
  v4_is_valid E b = Ok true ->
  v4_update_checksum E b1 = (put16 10 (rfc1624 (wire16 b 10) (wire16 b i) w) b1, Ok tt).
Proof. exact IncrementalProofs.c70_v4. Qed.
Print Assumptions C70_v4.
(** C70: the hypotheses of C70_v4 can be met. *)
Example C70_v4_meets :
  exists (E : env) (b : bytes) (i : N) (w : N), is_bytes b /\ u16 w /\ v4_no_payload b = Ok b /\ 3 <= nthN b 0 mod 16 /\ i mod 2 = 0 /\ i + 2 <= nthN b 0 mod 16 * 4 /\ i <> 10 /\ let b1 := put16 i w b in nthN b1 0 = nthN b 0 /\ v4_is_valid E b = Ok true.
Proof. exact WitnessProofs.c70_v4_meets. Qed.
(** C70: in particular a router's step: set_ttl() through checked(). *)
Theorem C70_ttl : forall E b v, is_bytes b -> u8 v -> v4_no_payload b = Ok b -> 5 <= nthN b 0 mod 16 ->
  v4_is_valid E b = Ok true ->
  v4_checked E [V4SetTtl v] b =
  (put16 10 (rfc1624 (wire16 b 10) (wire16 b 8) (v * 256 + nthN b 9)) (alter b 8 v), Ok tt).
Proof. exact IncrementalProofs.c70_ttl. Qed.
Print Assumptions C70_ttl.
(** C70: the hypotheses of C70_ttl can be met. *)
Example C70_ttl_meets :
  exists (E : env) (b : bytes) (v : N), is_bytes b /\ u8 v /\ v4_no_payload b = Ok b /\ 5 <= nthN b 0 mod 16 /\ v4_is_valid E b = Ok true.
Proof. exact WitnessProofs.c70_ttl_meets. Qed.
(** C70: any word of a valid UDP datagram ... *)
Theorem C70_udp : forall E p b i w, is_bytes p -> is_bytes b -> u16 w -> 20 <= len p -> 8 <= len b ->
  len b mod 2 = 0 \/ cursor_eof E = EofKeep ->
  i mod 2 = 0 -> i + 2 <= len b -> i <> 6 -> udp_is_valid E (V4 p) b = Ok true ->
  let b1 := put16 i w b in
  udp_update_checksum E (V4 p) b1 = (put16 6 (rfc1624 (wire16 b 6) (wire16 b i) w) b1, Ok tt).
Proof. exact IncrementalProofs.c70_udp. Qed.
Print Assumptions C70_udp.
(** C70: the hypotheses of C70_udp can be met. *)
Example C70_udp_meets :
  exists (E : env) (p : bytes) (b : bytes) (i : N) (w : N), is_bytes p /\ is_bytes b /\ u16 w /\ 20 <= len p /\ 8 <= len b /\ (len b mod 2 = 0 \/ cursor_eof E = EofKeep) /\ i mod 2 = 0 /\ i + 2 <= len b /\ i <> 6 /\ udp_is_valid E (V4 p) b = Ok true.
Proof. exact WitnessProofs.c70_udp_meets. Qed.
(** C70: ... or TCP segment ... *)
Theorem C70_tcp : forall E p b i w, is_bytes p -> is_bytes b -> u16 w -> 20 <= len p -> len b <= 131065 ->
  len b mod 2 = 0 \/ cursor_eof E = EofKeep -> tcp_new b = Ok b -> 5 <= nthN b 12 / 16 ->
  i mod 2 = 0 -> i + 2 <= len b -> i <> 16 -> tcp_is_valid E (V4 p) b = Ok true ->
  let b1 := put16 i w b in nthN b1 12 / 16 = nthN b 12 / 16 ->
  tcp_update_checksum E (V4 p) b1 = (put16 16 (rfc1624 (wire16 b 16) (wire16 b i) w) b1, Ok tt).
Proof. exact IncrementalProofs.c70_tcp. Qed.
Print Assumptions C70_tcp.
(** C70: the hypotheses of C70_tcp can be met. *)
Example C70_tcp_meets :
  exists (E : env) (p : bytes) (b : bytes) (i : N) (w : N), is_bytes p /\ is_bytes b /\ u16 w /\ 20 <= len p /\ len b <= 131065 /\ (len b mod 2 = 0 \/ cursor_eof E = EofKeep) /\ tcp_new b = Ok b /\ 5 <= nthN b 12 / 16 /\ i mod 2 = 0 /\ i + 2 <= len b /\ i <> 16 /\ tcp_is_valid E (V4 p) b = Ok true /\ let b1 := put16 i w b in nthN b1 12 / 16 = nthN b 12 / 16.
Proof. exact WitnessProofs.c70_tcp_meets. Qed.
(** C70: ... or ICMP message of even length that is not all zero outside its checksum. *)
Theorem C70_icmp : forall E b i w, is_bytes b -> u16 w -> 4 <= len b -> len b mod 2 = 0 ->
  i mod 2 = 0 -> i + 2 <= len b -> i <> 2 -> icmp_is_valid E b = Ok true ->
  let b1 := put16 i w b in
  word_sum (zero_field 2 b) <> 0 -> word_sum (zero_field 2 b1) <> 0 ->
  icmp_checksum_of E b1 = Ok (rfc1624 (wire16 b 2) (wire16 b i) w).
Proof. exact IncrementalProofs.c70_icmp. Qed.
Print Assumptions C70_icmp.
(** C70: the hypotheses of C70_icmp can be met. *)
Example C70_icmp_meets :
  exists (E : env) (b : bytes) (i : N) (w : N), is_bytes b /\ u16 w /\ 4 <= len b /\ len b mod 2 = 0 /\ i mod 2 = 0 /\ i + 2 <= len b /\ i <> 2 /\ icmp_is_valid E b = Ok true /\ let b1 := put16 i w b in word_sum (zero_field 2 b) <> 0 /\ word_sum (zero_field 2 b1) <> 0.
Proof. exact WitnessProofs.c70_icmp_meets. Qed.
Theorem C70_nat : forall E p b i w, is_bytes p -> is_bytes b -> u16 w -> 20 <= len p ->
  len b mod 2 = 0 \/ cursor_eof E = EofKeep ->
  i mod 2 = 0 -> 12 <= i -> i + 2 <= 20 ->
  let p1 := put16 i w p in
  (8 <= len b -> udp_is_valid E (V4 p) b = Ok true ->
   udp_checksum_of E (V4 p1) b = Ok (rfc1624 (wire16 b 6) (wire16 p i) w)) /\
  (18 <= len b <= 131065 -> tcp_is_valid E (V4 p) b = Ok true ->
   tcp_checksum_of E (V4 p1) b = Ok (rfc1624 (wire16 b 16) (wire16 p i) w)).
Proof. exact IncrementalProofs.c70_nat. Qed.
Print Assumptions C70_nat.
(** C70: the hypotheses of C70_nat can be met. *)
Example C70_nat_meets :
  (exists (E : env) (p : bytes) (b : bytes) (i : N) (w : N), is_bytes p /\ is_bytes b /\ u16 w /\ 20 <= len p /\ (len b mod 2 = 0 \/ cursor_eof E = EofKeep) /\ i mod 2 = 0 /\ 12 <= i /\ i + 2 <= 20 /\ 8 <= len b /\ udp_is_valid E (V4 p) b = Ok true) /\
  (exists (E : env) (p : bytes) (b : bytes) (i : N) (w : N), is_bytes p /\ is_bytes b /\ u16 w /\ 20 <= len p /\ (len b mod 2 = 0 \/ cursor_eof E = EofKeep) /\ i mod 2 = 0 /\ 12 <= i /\ i + 2 <= 20 /\ 18 <= len b <= 131065 /\ tcp_is_valid E (V4 p) b = Ok true).
Proof. exact WitnessProofs.c70_nat_meets. Qed.
Example C70_example : forall E,
  let b := [69; 0; 0; 20; 1; 2; 64; 0; 64; 17; 37; 213; 10; 0; 0; 1; 10; 0; 0; 2] in
  is_bytes b /\ v4_no_payload b = Ok b /\ v4_is_valid E b = Ok true /\
  wire16 b 10 = 9685 /\ rfc1624 9685 (64 * 256 + 17) (63 * 256 + 17) = 9941 /\
  v4_checked E [V4SetTtl 63] b = ([69; 0; 0; 20; 1; 2; 64; 0; 63; 17; 38; 213; 10; 0; 0; 1; 10; 0; 0; 2], Ok tt).
Proof. exact IncrementalProofs.c70_example. Qed.

(** ** C71 *)
Theorem C71_udp : forall E (l : list (bytes * action udp_setter checksum_call)) u, udp_packet_ok u ->
  Forall (fun '(p, a) => is_bytes p /\ 20 <= len p /\ udp_action_ok a) l ->
  len (udp_bytes u) mod 2 = 0 \/ cursor_eof E = EofKeep ->
  let (rs, last) := history (fun '(p, a) => udp_do (wire_addr p 12) (wire_addr p 16) a) l u in
  history (fun '(p, a) => udp_act E (V4 p) a) l (udp_bytes u) = (rs, option_map udp_bytes last) /\
  forall u', last = Some u' -> udp_packet_ok u' /\ len (udp_bytes u') = len (udp_bytes u).
Proof. exact MachineProofs.c71_udp. Qed.
Print Assumptions C71_udp.
(** C71: the hypotheses of C71_udp can be met. *)
Example C71_udp_meets :
  exists (E : env) (l : list (bytes * action udp_setter checksum_call)) (u : udp_packet) (u' : udp_packet), udp_packet_ok u /\ Forall (fun '(p, a) => is_bytes p /\ 20 <= len p /\ udp_action_ok a) l /\ (len (udp_bytes u) mod 2 = 0 \/ cursor_eof E = EofKeep) /\ let (rs, last) := history (fun '(p, a) => udp_do (wire_addr p 12) (wire_addr p 16) a) l u in last = Some u'.
Proof. exact WitnessProofs.c71_udp_meets. Qed.
(** C71: a TCP segment. *)
Theorem C71_tcp : forall E (l : list (bytes * action tcp_setter checksum_call)) t, tcp_packet_ok t ->
  let do := fun '(p, a) => tcp_do (wire_addr p 12) (wire_addr p 16) a in
  allowed (fun '(p, a) t => is_bytes p /\ 20 <= len p /\ tcp_action_ok a t) do l t ->
  len (tcp_bytes t) <= 131065 -> len (tcp_bytes t) mod 2 = 0 \/ cursor_eof E = EofKeep ->
  let (rs, last) := history do l t in
  history (fun '(p, a) => tcp_act E (V4 p) a) l (tcp_bytes t) = (rs, option_map tcp_bytes last) /\
  forall t', last = Some t' -> tcp_packet_ok t' /\ len (tcp_bytes t') = len (tcp_bytes t).
Proof. exact MachineProofs.c71_tcp. Qed.
Print Assumptions C71_tcp.
(** C71: the hypotheses of C71_tcp can be met. *)
Example C71_tcp_meets :
  exists (E : env) (l : list (bytes * action tcp_setter checksum_call)) (t : tcp_packet) (t' : tcp_packet), tcp_packet_ok t /\ let do := fun '(p, a) => tcp_do (wire_addr p 12) (wire_addr p 16) a in allowed (fun '(p, a) t => is_bytes p /\ 20 <= len p /\ tcp_action_ok a t) do l t /\ len (tcp_bytes t) <= 131065 /\ (len (tcp_bytes t) mod 2 = 0 \/ cursor_eof E = EofKeep) /\ let (rs, last) := history do l t in last = Some t'.
Proof. exact WitnessProofs.c71_tcp_meets. Qed.
(** C71: an ICMP echo packet. *)
Theorem C71_echo : forall E (l : list (action echo_setter Empty_set)) c, echo_packet_ok c -> Forall echo_action_ok l ->
  len (echo_bytes c) <= ISIZE_MAX ->
  let (rs, last) := history echo_do l c in
  history (echo_act E) l (echo_bytes c) = (rs, option_map echo_bytes last) /\
  forall c', last = Some c' -> echo_packet_ok c' /\ len (echo_bytes c') = len (echo_bytes c).
Proof. exact MachineProofs.c71_echo. Qed.
Print Assumptions C71_echo.
(** C71: the hypotheses of C71_echo can be met. *)
Example C71_echo_meets :
  exists (E : env) (l : list (action echo_setter Empty_set)) (c : echo_packet) (c' : echo_packet), echo_packet_ok c /\ Forall echo_action_ok l /\ len (echo_bytes c) <= ISIZE_MAX /\ let (rs, last) := history echo_do l c in last = Some c'.
Proof. exact WitnessProofs.c71_echo_meets. Qed.
(** C71: an IPv4 packet. *)
Theorem C71_v4 : forall E (l : list (action v4_setter checksum_call)) p, v4_packet_ok p -> Forall v4_action_ok l ->
  let (rs, last) := history v4_do l p in
  history (v4_act E) l (v4_bytes p) = (rs, option_map v4_bytes last) /\
  forall p', last = Some p' -> v4_packet_ok p' /\ len (v4_bytes p') = len (v4_bytes p).
Proof. exact MachineProofs.c71_v4. Qed.
Print Assumptions C71_v4.
(** C71: the hypotheses of C71_v4 can be met. *)
Example C71_v4_meets :
  exists (l : list (action v4_setter checksum_call)) (p : v4_packet) (p' : v4_packet), v4_packet_ok p /\ Forall v4_action_ok l /\ let (rs, last) := history v4_do l p in last = Some p'.
Proof. exact WitnessProofs.c71_v4_meets. Qed.
(** C71: a frame with a UDP datagram in it. *)
Theorem C71_frame_udp : forall E l s, frame_packet_ok udp_bytes udp_packet_ok s ->
  allowed (frame_action_ok (fun a _ => udp_action_ok a)) (frame_do udp_bytes udp_do) l s ->
  len (udp_bytes (fr_inner s)) mod 2 = 0 \/ cursor_eof E = EofKeep ->
  let (rs, last) := history (frame_do udp_bytes udp_do) l s in
  history (frame_act E udp_new (udp_act E)) l (frame_bytes udp_bytes s) = (rs, option_map (frame_bytes udp_bytes) last) /\
  forall s', last = Some s' -> frame_packet_ok udp_bytes udp_packet_ok s' /\ len (frame_bytes udp_bytes s') = len (frame_bytes udp_bytes s).
Proof. exact FrameMachineProofs.c71_frame_udp. Qed.
Print Assumptions C71_frame_udp.
(** C71: the hypotheses of C71_frame_udp can be met. *)
Example C71_frame_udp_meets :
  exists (E : env) (l : list (frame_action (action udp_setter checksum_call))) (s : frame_packet udp_packet) (s' : frame_packet udp_packet), frame_packet_ok udp_bytes udp_packet_ok s /\ allowed (frame_action_ok (fun a _ => udp_action_ok a)) (frame_do udp_bytes udp_do) l s /\ (len (udp_bytes (fr_inner s)) mod 2 = 0 \/ cursor_eof E = EofKeep) /\ let (rs, last) := history (frame_do udp_bytes udp_do) l s in last = Some s'.
Proof. exact WitnessProofs.c71_frame_udp_meets. Qed.
(** C71: a frame with a TCP segment in it. *)
Theorem C71_frame_tcp : forall E l s, frame_packet_ok tcp_bytes tcp_packet_ok s ->
  allowed (frame_action_ok tcp_action_ok) (frame_do tcp_bytes tcp_do) l s ->
  len (tcp_bytes (fr_inner s)) mod 2 = 0 \/ cursor_eof E = EofKeep ->
  let (rs, last) := history (frame_do tcp_bytes tcp_do) l s in
  history (frame_act E tcp_new (tcp_act E)) l (frame_bytes tcp_bytes s) = (rs, option_map (frame_bytes tcp_bytes) last) /\
  forall s', last = Some s' -> frame_packet_ok tcp_bytes tcp_packet_ok s' /\ len (frame_bytes tcp_bytes s') = len (frame_bytes tcp_bytes s).
Proof. exact FrameMachineProofs.c71_frame_tcp. Qed.
Print Assumptions C71_frame_tcp.
(** C71: the hypotheses of C71_frame_tcp can be met. *)
Example C71_frame_tcp_meets :
  exists (E : env) (l : list (frame_action (action tcp_setter checksum_call))) (s : frame_packet tcp_packet) (s' : frame_packet tcp_packet), frame_packet_ok tcp_bytes tcp_packet_ok s /\ allowed (frame_action_ok tcp_action_ok) (frame_do tcp_bytes tcp_do) l s /\ (len (tcp_bytes (fr_inner s)) mod 2 = 0 \/ cursor_eof E = EofKeep) /\ let (rs, last) := history (frame_do tcp_bytes tcp_do) l s in last = Some s'.
Proof. exact WitnessProofs.c71_frame_tcp_meets. Qed.
(** C71: a frame with an ICMP echo packet in it. *)
Theorem C71_frame_echo : forall E l s, frame_packet_ok echo_bytes echo_packet_ok s ->
  allowed (frame_action_ok (fun a _ => echo_action_ok a)) (frame_do echo_bytes (fun _ _ => echo_do)) l s ->
  let (rs, last) := history (frame_do echo_bytes (fun _ _ => echo_do)) l s in
  history (frame_act E echo_new (fun _ => echo_act E)) l (frame_bytes echo_bytes s) = (rs, option_map (frame_bytes echo_bytes) last) /\
  forall s', last = Some s' -> frame_packet_ok echo_bytes echo_packet_ok s' /\ len (frame_bytes echo_bytes s') = len (frame_bytes echo_bytes s).
Proof. exact FrameMachineProofs.c71_frame_echo. Qed.
Print Assumptions C71_frame_echo.
(** C71: the hypotheses of C71_frame_echo can be met. *)
Example C71_frame_echo_meets :
  exists (l : list (frame_action (action echo_setter Empty_set))) (s : frame_packet echo_packet) (s' : frame_packet echo_packet), frame_packet_ok echo_bytes echo_packet_ok s /\ allowed (frame_action_ok (fun a _ => echo_action_ok a)) (frame_do echo_bytes (fun _ _ => echo_do)) l s /\ let (rs, last) := history (frame_do echo_bytes (fun _ _ => echo_do)) l s in last = Some s'.
Proof. exact WitnessProofs.c71_frame_echo_meets. Qed.
(** C71: every UDP packet with a length field of at least 8. *)
Theorem C71_udp_received : forall b, is_bytes b -> udp_new b = Ok b -> 8 <= wire16 b 4 ->
  exists u, udp_packet_ok u /\ udp_bytes u = b.
Proof. exact FrameMachineProofs.c71_udp_received. Qed.
Print Assumptions C71_udp_received.
(** C71: the hypotheses of C71_udp_received can be met. *)
Example C71_udp_received_meets :
  exists (b : bytes), is_bytes b /\ udp_new b = Ok b /\ 8 <= wire16 b 4.
Proof. exact WitnessProofs.c71_udp_received_meets. Qed.
(** C71: every TCP segment with a data offset of at least 5. *)
Theorem C71_tcp_received : forall b, is_bytes b -> tcp_new b = Ok b -> 5 <= nthN b 12 / 16 ->
  exists t, tcp_packet_ok t /\ tcp_bytes t = b /\ tcp_spoiled t = false.
Proof. exact FrameMachineProofs.c71_tcp_received. Qed.
Print Assumptions C71_tcp_received.
(** C71: the hypotheses of C71_tcp_received can be met. *)
Example C71_tcp_received_meets :
  exists (b : bytes), is_bytes b /\ tcp_new b = Ok b /\ 5 <= nthN b 12 / 16.
Proof. exact WitnessProofs.c71_tcp_received_meets. Qed.
(** C71: every ICMP echo packet. *)
Theorem C71_echo_received : forall b, is_bytes b -> echo_new b = Ok b -> exists c, echo_packet_ok c /\ echo_bytes c = b.
Proof. exact FrameMachineProofs.c71_echo_received. Qed.
Print Assumptions C71_echo_received.
(** C71: the hypotheses of C71_echo_received can be met. *)
Example C71_echo_received_meets :
  exists (b : bytes), is_bytes b /\ echo_new b = Ok b.
Proof. exact WitnessProofs.c71_echo_received_meets. Qed.
Theorem C71_v4_received : forall b, is_bytes b -> v4_new b = Ok b -> 5 <= nthN b 0 mod 16 -> nthN b 0 mod 16 * 4 <= wire16 b 2 ->
  exists p, v4_packet_ok p /\ v4_bytes p = b /\ v4_payload b = Ok (vp_payload p).
Proof. exact FrameMachineProofs.c71_v4_received. Qed.
Print Assumptions C71_v4_received.
(** C71: the hypotheses of C71_v4_received can be met. *)
Example C71_v4_received_meets :
  exists (b : bytes), is_bytes b /\ v4_new b = Ok b /\ 5 <= nthN b 0 mod 16 /\ nthN b 0 mod 16 * 4 <= wire16 b 2.
Proof. exact WitnessProofs.c71_v4_received_meets. Qed.
(** C71: every received frame, given its transport packet is. *)
Theorem C71_frame_received : forall (S : Type) (inner : S -> bytes) (inner_ok : S -> Prop) b ip x, is_bytes b -> ether_new b = Ok b ->
  ether_payload b = Ok ip -> v4_new ip = Ok ip -> 5 <= nthN ip 0 mod 16 -> nthN ip 0 mod 16 * 4 <= wire16 ip 2 ->
  v4_payload ip = Ok (inner x) -> inner_ok x ->
  exists s, frame_packet_ok inner inner_ok s /\ frame_bytes inner s = b /\ fr_inner s = x.
Proof. exact FrameMachineProofs.c71_frame_received. Qed.
Print Assumptions C71_frame_received.
(** C71: the hypotheses of C71_frame_received can be met. *)
Example C71_frame_received_meets :
  exists (S : Type) (inner : S -> bytes) (inner_ok : S -> Prop) (b : bytes) (ip : bytes) (x : S), is_bytes b /\ ether_new b = Ok b /\ ether_payload b = Ok ip /\ v4_new ip = Ok ip /\ 5 <= nthN ip 0 mod 16 /\ nthN ip 0 mod 16 * 4 <= wire16 ip 2 /\ v4_payload ip = Ok (inner x) /\ inner_ok x.
Proof. exact WitnessProofs.c71_frame_received_meets. Qed.
Example C71_example : forall E,
  let s := {| fr_ether := {| ef_dst := Hw 0 35 105 99 89 190; ef_src := Hw 228 179 24 38 99 163; ef_type := 2048 |};
              fr_ip := {| vf_version := 4; vf_ihl := 5; vf_dscp := 0; vf_ecn := 0; vf_total := 30; vf_id := 0; vf_reserved := false;
                          vf_df := false; vf_mf := false; vf_frag := 0; vf_ttl := 64; vf_proto := 17; vf_checksum := 26317;
                          vf_src := Ip4 10 0 0 1; vf_dst := Ip4 10 0 0 2 |};
              fr_options := [];
              fr_inner := {| up_header := {| uf_src := 53; uf_dst := 99; uf_length := 10; uf_checksum := 33494 |};
                             up_payload := [104; 105]; up_behind := [] |};
              fr_padding := [0; 0] |} in
  let l := [OnEther (EthSource (Hw 2 0 0 0 0 1)); OnIp (Call (V4SetDscp 64)); OnIp (Checked [V4SetTtl 63]);
            OnTransport (Call (UdpSetSource 99)); OnTransport (Fill [111; 107]); OnTransport (Extra UpdateChecksum)] in
  let b := [0;35;105;99;89;190; 2;0;0;0;0;1; 8;0; 69;0;0;30;0;0;0;0;63;17;103;205;10;0;0;1;10;0;0;2;
            0;99;0;99;0;10;123;166;111;107; 0;0] in
  frame_packet_ok udp_bytes udp_packet_ok s /\
  allowed (frame_action_ok (fun a _ => udp_action_ok a)) (frame_do udp_bytes udp_do) l s /\
  len (udp_bytes (fr_inner s)) mod 2 = 0 /\
  history (frame_act E udp_new (udp_act E)) l (frame_bytes udp_bytes s) =
    ([Ok tt; Err InvalidValue; Ok tt; Ok tt; Ok tt; Ok tt], Some b) /\
  v4_is_valid E (dropN 14 b) = Ok true /\ udp_is_valid E (V4 (dropN 14 b)) (takeN 10 (dropN 34 b)) = Ok true /\
  history (frame_act E udp_new (udp_act E)) (l ++ [OnTransport (Fill [1])]) (frame_bytes udp_bytes s) =
    ([Ok tt; Err InvalidValue; Ok tt; Ok tt; Ok tt; Ok tt; Panic], None) /\
  let t := {| tp_header := {| tf_src := 1; tf_dst := 2; tf_seq := 3; tf_ack := 4; tf_offset := 5; tf_reserved := 0; tf_flags := 2;
                              tf_window := 5; tf_checksum := 0; tf_pointer := 0 |}; tp_options := []; tp_payload := [1; 2] |} in
  let p := takeN 20 (dropN 14 b) in
  tcp_packet_ok t /\ tcp_spoiled t = false /\
  history (fun '(p, a) => tcp_act E (V4 p) a)
    [(p, Call (TcpSetWindow 9)); (p, Checked [TcpSetSource 7]); (p, Call (TcpSetFlags 18)); (p, Call (TcpSetSource 8)); (p, Checked [])]
    (tcp_bytes t) = ([Ok tt; Ok tt; Ok tt; Err Io; Panic], None) /\
  fst (history (fun '(p, a) => tcp_do (wire_addr p 12) (wire_addr p 16) a)
    [(p, Call (TcpSetWindow 9)); (p, Checked [TcpSetSource 7]); (p, Call (TcpSetFlags 18)); (p, Call (TcpSetSource 8)); (p, Checked [])] t)
    = [Ok tt; Ok tt; Ok tt; Err Io; Panic].
Proof. exact FrameMachineProofs.c71_example. Qed.
(** C71: an ICMP information message. *)
Theorem C71_information : forall E (l : list (action information_setter Empty_set)) c, information_packet_ok c -> Forall information_action_ok l ->
  let (rs, last) := history information_do l c in
  history (information_act E) l (information_bytes c) = (rs, option_map information_bytes last) /\
  forall c', last = Some c' -> information_packet_ok c' /\ len (information_bytes c') = len (information_bytes c).
Proof. exact IcmpMachineProofs.c71_information. Qed.
Print Assumptions C71_information.
(** C71: the hypotheses of C71_information can be met. *)
Example C71_information_meets :
  exists (l : list (action information_setter Empty_set)) (c : information_packet) (c' : information_packet), information_packet_ok c /\ Forall information_action_ok l /\ let (rs, last) := history information_do l c in last = Some c'.
Proof. exact WitnessProofs.c71_information_meets. Qed.
(** C71: an ICMP timestamp message. *)
Theorem C71_timestamp : forall E (l : list (action timestamp_setter Empty_set)) c, timestamp_packet_ok c -> Forall timestamp_action_ok l ->
  let (rs, last) := history timestamp_do l c in
  history (timestamp_act E) l (timestamp_bytes c) = (rs, option_map timestamp_bytes last) /\
  forall c', last = Some c' -> timestamp_packet_ok c' /\ len (timestamp_bytes c') = len (timestamp_bytes c).
Proof. exact IcmpMachineProofs.c71_timestamp. Qed.
Print Assumptions C71_timestamp.
(** C71: the hypotheses of C71_timestamp can be met. *)
Example C71_timestamp_meets :
  exists (l : list (action timestamp_setter Empty_set)) (c : timestamp_packet) (c' : timestamp_packet), timestamp_packet_ok c /\ Forall timestamp_action_ok l /\ let (rs, last) := history timestamp_do l c in last = Some c'.
Proof. exact WitnessProofs.c71_timestamp_meets. Qed.
(** C71: every information message and every timestamp message, with whatever follows it. *)
Theorem C71_messages_received :
  (forall b, is_bytes b -> information_new b = Ok b -> exists c, information_packet_ok c /\ information_bytes c = b) /\
  (forall b, is_bytes b -> timestamp_new b = Ok b -> exists c, timestamp_packet_ok c /\ timestamp_bytes c = b).
Proof. exact IcmpMachineProofs.c71_messages_received. Qed.
Print Assumptions C71_messages_received.
(** C71: the hypotheses of C71_messages_received can be met. *)
Example C71_messages_received_meets :
  (exists (b : bytes), is_bytes b /\ information_new b = Ok b) /\
  (exists (b : bytes), is_bytes b /\ timestamp_new b = Ok b).
Proof. exact WitnessProofs.c71_messages_received_meets. Qed.
Example C71_messages_example :
  let t := timestamp_with {| cf_type := 13; cf_code := 0; cf_checksum := 0 |} 1 2 3 4 5 [9] in
  let l := [Call (TsSetReceive 77); Checked [TsMakeReply]; Fill [0;0;0;1;0;0;0;2;0;0;0;3;8]; Fill []] in
  timestamp_packet_ok t /\ Forall timestamp_action_ok l /\
  history timestamp_do l t = ([Ok tt; Ok tt; Ok tt; Panic], None).
Proof. exact IcmpMachineProofs.c71_messages_example. Qed.

(** ** C72 *)
Theorem C72_udp : forall E b, is_bytes b -> wire16 b 16 mod 2 = 0 \/ cursor_eof E = EofKeep ->
  (receive_udp E b = Ok true <->
   exists s, rfc_udp b s /\ vf_checksum (fr_ip s) <> 65535 /\ uf_checksum (up_header (fr_inner s)) <> 65535 /\
     (uf_checksum (up_header (fr_inner s)) = 0 -> sums_up udp_bytes s)).
Proof. exact ReceiverProofs.c72_udp. Qed.
Print Assumptions C72_udp.
(** C72: the hypotheses of C72_udp can be met. *)
Example C72_udp_meets :
  exists (E : env) (b : bytes), is_bytes b /\ (wire16 b 16 mod 2 = 0 \/ cursor_eof E = EofKeep).
Proof. exact WitnessProofs.c72_udp_meets. Qed.
Theorem C72_tcp : forall E b, is_bytes b -> wire16 b 16 mod 2 = 0 \/ cursor_eof E = EofKeep ->
  (receive_tcp E b = Ok true <->
   exists s, rfc_tcp b s /\ vf_checksum (fr_ip s) <> 65535 /\ tf_checksum (tp_header (fr_inner s)) <> 65535).
Proof. exact ReceiverProofs.c72_tcp. Qed.
Print Assumptions C72_tcp.
(** C72: the hypotheses of C72_tcp can be met. *)
Example C72_tcp_meets :
  exists (E : env) (b : bytes), is_bytes b /\ (wire16 b 16 mod 2 = 0 \/ cursor_eof E = EofKeep).
Proof. exact WitnessProofs.c72_tcp_meets. Qed.
Theorem C72_echo : forall E b, is_bytes b ->
  (receive_echo E b = Ok true <->
   exists s, frame_packet_ok echo_bytes echo_packet_ok s /\ b = frame_bytes echo_bytes s /\ rfc_ip 1 s /\ vf_checksum (fr_ip s) <> 65535 /\
     let m := drop_odd (echo_bytes (fr_inner s)) in
     (receiver_accepts m /\ cf_checksum (cp_header (fr_inner s)) <> 65535) \/ word_sum m = 0).
Proof. exact ReceiverProofs.c72_echo. Qed.
Print Assumptions C72_echo.
(** C72: the hypotheses of C72_echo can be met. *)
Example C72_echo_meets :
  exists (b : bytes), is_bytes b.
Proof. exact WitnessProofs.c72_echo_meets. Qed.
(** C72: for an even number of bytes, not all zero, that is RFC 792. *)
Theorem C72_echo_even : forall E b, is_bytes b -> wire16 b 16 mod 2 = 0 ->
  (receive_echo E b = Ok true <->
   (exists s, rfc_echo b s /\ vf_checksum (fr_ip s) <> 65535 /\ cf_checksum (cp_header (fr_inner s)) <> 65535) \/
   (exists s, frame_packet_ok echo_bytes echo_packet_ok s /\ b = frame_bytes echo_bytes s /\ rfc_ip 1 s /\ vf_checksum (fr_ip s) <> 65535 /\
      Forall (eq 0) (echo_bytes (fr_inner s)))).
Proof. exact ReceiverProofs.c72_echo_even. Qed.
Print Assumptions C72_echo_even.
(** C72: the hypotheses of C72_echo_even can be met. *)
Example C72_echo_even_meets :
  exists (b : bytes), is_bytes b /\ wire16 b 16 mod 2 = 0.
Proof. exact WitnessProofs.c72_echo_even_meets. Qed.
Theorem C72_total : forall E b, is_bytes b ->
  (exists v, receive_udp E b = Ok v) /\ (exists v, receive_echo E b = Ok v) /\
  (wire16 b 16 mod 2 = 0 \/ cursor_eof E = EofKeep -> exists v, receive_tcp E b = Ok v).
Proof. exact ReceiverProofs.c72_total. Qed.
Print Assumptions C72_total.
(** C72: the hypotheses of C72_total can be met. *)
Example C72_total_meets :
  exists (E : env) (b : bytes), is_bytes b /\ (wire16 b 16 mod 2 = 0 \/ cursor_eof E = EofKeep).
Proof. exact WitnessProofs.c72_total_meets. Qed.
(** C72: ... which panic, whoever sent them. *)
Theorem C72_tcp_odd_refuted : forall E s, frame_packet_ok tcp_bytes tcp_packet_ok s -> rfc_ip 6 s -> vf_checksum (fr_ip s) <> 65535 ->
  tcp_spoiled (fr_inner s) = false -> vf_total (fr_ip s) mod 2 = 1 -> cursor_eof E = EofSeek ->
  receive_tcp E (frame_bytes tcp_bytes s) = Panic.
Proof. exact ReceiverProofs.c72_tcp_odd_refuted. Qed.
Print Assumptions C72_tcp_odd_refuted.
(** C72: the hypotheses of C72_tcp_odd_refuted can be met. *)
Example C72_tcp_odd_refuted_meets :
  exists (E : env) (s : frame_packet tcp_packet), frame_packet_ok tcp_bytes tcp_packet_ok s /\ rfc_ip 6 s /\ vf_checksum (fr_ip s) <> 65535 /\ tcp_spoiled (fr_inner s) = false /\ vf_total (fr_ip s) mod 2 = 1 /\ cursor_eof E = EofSeek.
Proof. exact WitnessProofs.c72_tcp_odd_refuted_meets. Qed.
Theorem C72_built_udp : forall E E' cs out, compiles OpEther cs ClUdp -> Forall ordinary cs -> faithful_calls cs ->
  added OpEther cs <= @ISIZE_MAX E -> added OpEther cs <= @ISIZE_MAX E' -> 28 + len (payload_given cs) <= 65535 ->
  len (payload_given cs) mod 2 = 0 \/ (cursor_eof E = EofKeep /\ cursor_eof E' = EofKeep) ->
  program E OpEther cs ClUdp dynamic_new = Ok out -> receive_udp E' out = Ok true.
Proof. exact BuiltProofs.c72_built_udp. Qed.
Print Assumptions C72_built_udp.
(** C72: the hypotheses of C72_built_udp can be met. *)
Example C72_built_udp_meets :
  exists (E : env) (E' : env) (cs : list call) (out : bytes), compiles OpEther cs ClUdp /\ Forall ordinary cs /\ faithful_calls cs /\ added OpEther cs <= @ISIZE_MAX E /\ added OpEther cs <= @ISIZE_MAX E' /\ 28 + len (payload_given cs) <= 65535 /\ (len (payload_given cs) mod 2 = 0 \/ (cursor_eof E = EofKeep /\ cursor_eof E' = EofKeep)) /\ program E OpEther cs ClUdp dynamic_new = Ok out.
Proof. exact WitnessProofs.c72_built_udp_meets. Qed.
(** C72: TCP. *)
Theorem C72_built_tcp : forall E E' cs out, compiles OpEther cs ClTcp -> Forall ordinary cs -> faithful_calls cs ->
  added OpEther cs <= @ISIZE_MAX E -> added OpEther cs <= @ISIZE_MAX E' -> 40 + len (payload_given cs) <= 65535 ->
  len (payload_given cs) mod 2 = 0 \/ cursor_eof E' = EofKeep ->
  program E OpEther cs ClTcp dynamic_new = Ok out -> receive_tcp E' out = Ok true.
Proof. exact BuiltProofs.c72_built_tcp. Qed.
Print Assumptions C72_built_tcp.
(** C72: the hypotheses of C72_built_tcp can be met. *)
Example C72_built_tcp_meets :
  exists (E : env) (E' : env) (cs : list call) (out : bytes), compiles OpEther cs ClTcp /\ Forall ordinary cs /\ faithful_calls cs /\ added OpEther cs <= @ISIZE_MAX E /\ added OpEther cs <= @ISIZE_MAX E' /\ 40 + len (payload_given cs) <= 65535 /\ (len (payload_given cs) mod 2 = 0 \/ cursor_eof E' = EofKeep) /\ program E OpEther cs ClTcp dynamic_new = Ok out.
Proof. exact WitnessProofs.c72_built_tcp_meets. Qed.
(** C72: echo. *)
Theorem C72_built_echo : forall E E' cs out, compiles OpEther cs ClEcho -> Forall ordinary cs -> faithful_calls cs ->
  added OpEther cs <= @ISIZE_MAX E -> added OpEther cs <= @ISIZE_MAX E' -> 28 + len (payload_given cs) <= 65535 ->
  program E OpEther cs ClEcho dynamic_new = Ok out -> receive_echo E' out = Ok true.
Proof. exact BuiltProofs.c72_built_echo. Qed.
Print Assumptions C72_built_echo.
(** C72: the hypotheses of C72_built_echo can be met. *)
Example C72_built_echo_meets :
  exists (E : env) (E' : env) (cs : list call) (out : bytes), compiles OpEther cs ClEcho /\ Forall ordinary cs /\ faithful_calls cs /\ added OpEther cs <= @ISIZE_MAX E /\ added OpEther cs <= @ISIZE_MAX E' /\ 28 + len (payload_given cs) <= 65535 /\ program E OpEther cs ClEcho dynamic_new = Ok out.
Proof. exact WitnessProofs.c72_built_echo_meets. Qed.
Example C72_example : forall E,
  let mac := [0;35;105;99;89;190; 228;179;24;38;99;163; 8;0] in
  let udp ck := mac ++ [69;0;0;30;0;0;0;0;64;17;102;205;10;0;0;1;10;0;0;2; 0;53;0;99;0;10] ++ ck ++ [104;105; 7;7] in
  let s ck := {| fr_ether := {| ef_dst := Hw 0 35 105 99 89 190; ef_src := Hw 228 179 24 38 99 163; ef_type := 2048 |};
              fr_ip := {| vf_version := 4; vf_ihl := 5; vf_dscp := 0; vf_ecn := 0; vf_total := 30; vf_id := 0; vf_reserved := false;
                          vf_df := false; vf_mf := false; vf_frag := 0; vf_ttl := 64; vf_proto := 17; vf_checksum := 26317;
                          vf_src := Ip4 10 0 0 1; vf_dst := Ip4 10 0 0 2 |};
              fr_options := [];
              fr_inner := {| up_header := {| uf_src := 53; uf_dst := 99; uf_length := 10; uf_checksum := ck |};
                             up_payload := [104; 105]; up_behind := [] |};
              fr_padding := [7; 7] |} in
  receive_udp E (udp [130; 214]) = Ok true /\ rfc_udp (udp [130; 214]) (s 33494) /\
  receive_udp E (udp [0; 0]) = Ok false /\ rfc_udp (udp [0; 0]) (s 0) /\
  receive_udp E (udp [130; 215]) = Ok false /\
  receive_echo E (mac ++ [69;0;0;28;0;0;0;0;64;1;102;223;10;0;0;1;10;0;0;2; 0;0;0;0;0;0;0;0]) = Ok true /\
  receive_echo E (mac ++ [69;0;0;28;0;0;0;0;64;1;102;223;10;0;0;1;10;0;0;2; 0;0;255;255;0;0;0;0]) = Ok false /\
  receive_tcp E (mac ++ [69;0;0;41;0;0;0;0;64;6;102;205;10;0;0;1;10;0;0;2; 0;53;0;99;0;0;0;1;0;0;0;2;80;16;1;0;50;54;0;0;104]) =
    (match cursor_eof E with EofKeep => Ok true | EofSeek => Panic end) /\
  let cs := [CallEther (EtherSource (Hw 228 179 24 38 99 163)); CallEtherIp; CallIpV4; CallV4 (V4Set (V4SetTtl 64)); CallV4Udp; CallUdp (UdpSet (UdpSetSource 53)); CallUdp (UdpPayload [104; 105])] in
  compiles OpEther cs ClUdp /\ Forall ordinary cs /\ faithful_calls cs /\ added OpEther cs <= 1000 /\
  exists out, program E OpEther cs ClUdp dynamic_new = Ok out.
Proof. exact BuiltProofs.c72_example. Qed.
Theorem C72_built_udp_alike : forall E E' cs out, compiles OpEther cs ClUdp -> Forall ordinary cs -> added OpEther cs <= @ISIZE_MAX E -> 28 + len (payload_given cs) <= 65535 ->
  program E OpEther cs ClUdp dynamic_new = Ok out ->
  exists v, receive_udp E' out = Ok v /\ (v = true <-> alike E E' (payload_given cs)).
Proof. exact AlikeProofs.c72_built_udp_alike. Qed.
Print Assumptions C72_built_udp_alike.
(** C72: the hypotheses of C72_built_udp_alike can be met, with either verdict. *)
Example C72_built_udp_alike_meets :
  (exists (E E' : env) (cs : list call) (out : bytes), compiles OpEther cs ClUdp /\ Forall ordinary cs /\ added OpEther cs <= @ISIZE_MAX E /\ 28 + len (payload_given cs) <= 65535 /\ program E OpEther cs ClUdp dynamic_new = Ok out /\ alike E E' (payload_given cs)) /\
  (exists (E E' : env) (cs : list call) (out : bytes), compiles OpEther cs ClUdp /\ Forall ordinary cs /\ added OpEther cs <= @ISIZE_MAX E /\ 28 + len (payload_given cs) <= 65535 /\ program E OpEther cs ClUdp dynamic_new = Ok out /\ ~ alike E E' (payload_given cs)).
Proof. exact WitnessProofs.c72_built_udp_alike_meets. Qed.

(** ** C73 *)
Theorem C73_v4 : forall E k b ops e, is_bytes b -> v4_no_payload b = Ok b -> 5 <= nthN b 0 mod 16 ->
  block_ok v4_setter_ok k -> life v4_apply k b = (ops, e) ->
  e <> SetterPanicked /\
  (e = Forgot -> run_block v4_apply (v4_update_checksum E) k b = Continues (calls v4_apply ops b)) /\
  (e <> Forgot -> exists b', run_block v4_apply (v4_update_checksum E) k b = as_the_block e b' /\
     only_changes 10 12 (calls v4_apply ops b) b' /\ only_changes 1 20 b b' /\ v4_is_valid E b' = Ok true).
Proof. exact BlockProofs.c73_v4. Qed.
Print Assumptions C73_v4.
(** C73: the hypotheses of C73_v4 can be met. *)
Example C73_v4_meets :
  (exists (k : block v4_setter) (b : bytes) (ops : list v4_setter) (e : ending), is_bytes b /\ v4_no_payload b = Ok b /\ 5 <= nthN b 0 mod 16 /\ block_ok v4_setter_ok k /\ life v4_apply k b = (ops, e) /\ e = Forgot) /\
  (exists (k : block v4_setter) (b : bytes) (ops : list v4_setter) (e : ending), is_bytes b /\ v4_no_payload b = Ok b /\ 5 <= nthN b 0 mod 16 /\ block_ok v4_setter_ok k /\ life v4_apply k b = (ops, e) /\ e <> Forgot).
Proof. exact WitnessProofs.c73_v4_meets. Qed.
(** C73: UDP over IPv4. *)
Theorem C73_udp : forall E p k b ops e, is_bytes p -> is_bytes b -> 20 <= len p -> udp_no_payload b = Ok b ->
  block_ok udp_setter_ok k -> life udp_apply k b = (ops, e) ->
  e <> SetterPanicked /\
  (e = Forgot -> run_block udp_apply (udp_update_checksum E (V4 p)) k b = Continues (calls udp_apply ops b)) /\
  (e <> Forgot -> exists b', run_block udp_apply (udp_update_checksum E (V4 p)) k b = as_the_block e b' /\
     only_changes 6 8 (calls udp_apply ops b) b' /\ only_changes 0 8 b b' /\ udp_is_valid E (V4 p) b' = Ok true).
Proof. exact BlockProofs.c73_udp. Qed.
Print Assumptions C73_udp.
(** C73: the hypotheses of C73_udp can be met. *)
Example C73_udp_meets :
  (exists (p : bytes) (k : block udp_setter) (b : bytes) (ops : list udp_setter) (e : ending), is_bytes p /\ is_bytes b /\ 20 <= len p /\ udp_no_payload b = Ok b /\ block_ok udp_setter_ok k /\ life udp_apply k b = (ops, e) /\ e = Forgot) /\
  (exists (p : bytes) (k : block udp_setter) (b : bytes) (ops : list udp_setter) (e : ending), is_bytes p /\ is_bytes b /\ 20 <= len p /\ udp_no_payload b = Ok b /\ block_ok udp_setter_ok k /\ life udp_apply k b = (ops, e) /\ e <> Forgot).
Proof. exact WitnessProofs.c73_udp_meets. Qed.
(** C73: TCP over IPv4, when set_flags is not called. *)
Theorem C73_tcp : forall E p k b ops e, is_bytes p -> is_bytes b -> 20 <= len p -> len b <= 131065 ->
  len b mod 2 = 0 \/ cursor_eof E = EofKeep -> tcp_new b = Ok b -> 5 <= nthN b 12 / 16 ->
  block_ok tcp_setter_ok k -> life tcp_apply k b = (ops, e) -> ~ Exists tcp_is_flags ops ->
  e <> SetterPanicked /\
  (e = Forgot -> run_block tcp_apply (tcp_update_checksum E (V4 p)) k b = Continues (calls tcp_apply ops b)) /\
  (e <> Forgot -> exists b', run_block tcp_apply (tcp_update_checksum E (V4 p)) k b = as_the_block e b' /\
     only_changes 16 18 (calls tcp_apply ops b) b' /\ only_changes 0 20 b b' /\ tcp_is_valid E (V4 p) b' = Ok true).
Proof. exact BlockProofs.c73_tcp. Qed.
Print Assumptions C73_tcp.
(** C73: the hypotheses of C73_tcp can be met. *)
Example C73_tcp_meets :
  (exists (E : env) (p : bytes) (k : block tcp_setter) (b : bytes) (ops : list tcp_setter) (e : ending), is_bytes p /\ is_bytes b /\ 20 <= len p /\ len b <= 131065 /\ (len b mod 2 = 0 \/ cursor_eof E = EofKeep) /\ tcp_new b = Ok b /\ 5 <= nthN b 12 / 16 /\ block_ok tcp_setter_ok k /\ life tcp_apply k b = (ops, e) /\ ~ Exists tcp_is_flags ops /\ e = Forgot) /\
  (exists (E : env) (p : bytes) (k : block tcp_setter) (b : bytes) (ops : list tcp_setter) (e : ending), is_bytes p /\ is_bytes b /\ 20 <= len p /\ len b <= 131065 /\ (len b mod 2 = 0 \/ cursor_eof E = EofKeep) /\ tcp_new b = Ok b /\ 5 <= nthN b 12 / 16 /\ block_ok tcp_setter_ok k /\ life tcp_apply k b = (ops, e) /\ ~ Exists tcp_is_flags ops /\ e <> Forgot).
Proof. exact WitnessProofs.c73_tcp_meets. Qed.
(** C73: echo. *)
Theorem C73_echo : forall E k b ops e, rust_slice b -> echo_new b = Ok b ->
  block_ok echo_setter_ok k -> life echo_apply k b = (ops, e) ->
  e <> SetterPanicked /\
  (e = Forgot -> run_block echo_apply (icmp_checked_drop E (echo_as_ref E)) k b = Continues (calls echo_apply ops b)) /\
  (e <> Forgot -> exists b', run_block echo_apply (icmp_checked_drop E (echo_as_ref E)) k b = as_the_block e b' /\
     only_changes 2 4 (calls echo_apply ops b) b' /\ only_changes 0 8 b b' /\ icmp_is_valid E b' = Ok true).
Proof. exact BlockProofs.c73_echo. Qed.
Print Assumptions C73_echo.
(** C73: the hypotheses of C73_echo can be met. *)
Example C73_echo_meets :
  (exists (E : env) (k : block echo_setter) (b : bytes) (ops : list echo_setter) (e : ending), rust_slice b /\ echo_new b = Ok b /\ block_ok echo_setter_ok k /\ life echo_apply k b = (ops, e) /\ e = Forgot) /\
  (exists (E : env) (k : block echo_setter) (b : bytes) (ops : list echo_setter) (e : ending), rust_slice b /\ echo_new b = Ok b /\ block_ok echo_setter_ok k /\ life echo_apply k b = (ops, e) /\ e <> Forgot).
Proof. exact WitnessProofs.c73_echo_meets. Qed.
(** C73: information, whose checksum covers its eight bytes. *)
Theorem C73_information : forall E k b ops e, is_bytes b -> information_new b = Ok b ->
  block_ok information_setter_ok k -> life information_apply k b = (ops, e) ->
  e <> SetterPanicked /\
  (e = Forgot -> run_block information_apply (icmp_checked_drop E (information_as_ref E)) k b = Continues (calls information_apply ops b)) /\
  (e <> Forgot -> exists b', run_block information_apply (icmp_checked_drop E (information_as_ref E)) k b = as_the_block e b' /\
     only_changes 2 4 (calls information_apply ops b) b' /\ only_changes 0 8 b b' /\ icmp_is_valid E (takeN 8 b') = Ok true).
Proof. exact BlockProofs.c73_information. Qed.
Print Assumptions C73_information.
(** C73: the hypotheses of C73_information can be met. *)
Example C73_information_meets :
  (exists (k : block information_setter) (b : bytes) (ops : list information_setter) (e : ending), is_bytes b /\ information_new b = Ok b /\ block_ok information_setter_ok k /\ life information_apply k b = (ops, e) /\ e = Forgot) /\
  (exists (k : block information_setter) (b : bytes) (ops : list information_setter) (e : ending), is_bytes b /\ information_new b = Ok b /\ block_ok information_setter_ok k /\ life information_apply k b = (ops, e) /\ e <> Forgot).
Proof. exact WitnessProofs.c73_information_meets. Qed.
(** C73: timestamp, whose checksum covers its twenty bytes. *)
Theorem C73_timestamp : forall E k b ops e, is_bytes b -> timestamp_new b = Ok b ->
  block_ok timestamp_setter_ok k -> life timestamp_apply k b = (ops, e) ->
  e <> SetterPanicked /\
  (e = Forgot -> run_block timestamp_apply (icmp_checked_drop E (timestamp_as_ref E)) k b = Continues (calls timestamp_apply ops b)) /\
  (e <> Forgot -> exists b', run_block timestamp_apply (icmp_checked_drop E (timestamp_as_ref E)) k b = as_the_block e b' /\
     only_changes 2 4 (calls timestamp_apply ops b) b' /\ only_changes 0 20 b b' /\ icmp_is_valid E (takeN 20 b') = Ok true).
Proof. exact BlockProofs.c73_timestamp. Qed.
Print Assumptions C73_timestamp.
(** C73: the hypotheses of C73_timestamp can be met. *)
Example C73_timestamp_meets :
  (exists (k : block timestamp_setter) (b : bytes) (ops : list timestamp_setter) (e : ending), is_bytes b /\ timestamp_new b = Ok b /\ block_ok timestamp_setter_ok k /\ life timestamp_apply k b = (ops, e) /\ e = Forgot) /\
  (exists (k : block timestamp_setter) (b : bytes) (ops : list timestamp_setter) (e : ending), is_bytes b /\ timestamp_new b = Ok b /\ block_ok timestamp_setter_ok k /\ life timestamp_apply k b = (ops, e) /\ e <> Forgot).
Proof. exact WitnessProofs.c73_timestamp_meets. Qed.
Theorem C73_tcp_flags : forall E ip k b ops e, is_bytes b -> tcp_new b = Ok b -> block_ok tcp_setter_ok k ->
  life tcp_apply k b = (ops, e) -> Exists tcp_is_flags ops \/ nthN b 12 / 16 < 5 ->
  drop_panicked e (run_block tcp_apply (tcp_update_checksum E ip) k b).
Proof. exact BlockProofs.c73_tcp_flags. Qed.
Print Assumptions C73_tcp_flags.
(** C73: the hypotheses of C73_tcp_flags can be met. *)
Example C73_tcp_flags_meets :
  exists (k : block tcp_setter) (b : bytes) (ops : list tcp_setter) (e : ending), is_bytes b /\ tcp_new b = Ok b /\ block_ok tcp_setter_ok k /\ life tcp_apply k b = (ops, e) /\ (Exists tcp_is_flags ops \/ nthN b 12 / 16 < 5).
Proof. exact WitnessProofs.c73_tcp_flags_meets. Qed.
(** C73: so any call after set_flags but set_source aborts the process. *)
Theorem C73_tcp_call_after_flags : forall E ip v o go_on b, is_bytes b -> tcp_new b = Ok b -> v < 512 ->
  (forall p, o <> TcpSetSource p) ->
  run_block tcp_apply (tcp_update_checksum E ip) (CallThen (TcpSetFlags v) (fun _ => CallThen o go_on)) b = Aborts.
Proof. exact BlockProofs.c73_tcp_call_after_flags. Qed.
Print Assumptions C73_tcp_call_after_flags.
(** C73: the hypotheses of C73_tcp_call_after_flags can be met. *)
Example C73_tcp_call_after_flags_meets :
  exists (v : N) (o : tcp_setter) (b : bytes), is_bytes b /\ tcp_new b = Ok b /\ v < 512 /\ ((forall p, o <> TcpSetSource p)).
Proof. exact WitnessProofs.c73_tcp_call_after_flags_meets. Qed.
Theorem C73_tcp_odd : forall E p k b ops e, is_bytes p -> is_bytes b -> 20 <= len p -> len b <= 131065 -> tcp_new b = Ok b ->
  len b mod 2 = 1 -> cursor_eof E = EofSeek -> block_ok tcp_setter_ok k -> life tcp_apply k b = (ops, e) ->
  drop_panicked e (run_block tcp_apply (tcp_update_checksum E (V4 p)) k b).
Proof. exact BlockProofs.c73_tcp_odd. Qed.
Print Assumptions C73_tcp_odd.
(** C73: the hypotheses of C73_tcp_odd can be met. *)
Example C73_tcp_odd_meets :
  exists (E : env) (p : bytes) (k : block tcp_setter) (b : bytes) (ops : list tcp_setter) (e : ending), is_bytes p /\ is_bytes b /\ 20 <= len p /\ len b <= 131065 /\ tcp_new b = Ok b /\ len b mod 2 = 1 /\ cursor_eof E = EofSeek /\ block_ok tcp_setter_ok k /\ life tcp_apply k b = (ops, e).
Proof. exact WitnessProofs.c73_tcp_odd_meets. Qed.
(** C73: and a UDP or TCP guard with an IPv6 parent. *)
Theorem C73_v6_parent : forall E q b,
  (forall k ops e, life udp_apply k b = (ops, e) -> drop_panicked e (run_block udp_apply (udp_update_checksum E (V6 q)) k b)) /\
  (forall k ops e, life tcp_apply k b = (ops, e) -> drop_panicked e (run_block tcp_apply (tcp_update_checksum E (V6 q)) k b)).
Proof. exact BlockProofs.c73_v6_parent. Qed.
Print Assumptions C73_v6_parent.
(** C73: the hypotheses of C73_v6_parent can be met. *)
Example C73_v6_parent_meets :
  (exists (b : bytes) k ops (e : ending), life udp_apply k b = (ops, e)) /\
  (exists (b : bytes) k ops (e : ending), life tcp_apply k b = (ops, e)).
Proof. exact WitnessProofs.c73_v6_parent_meets. Qed.
Example C73_example : forall E,
  let b := [69; 0; 0; 20; 1; 2; 64; 0; 64; 17; 9; 9; 10; 0; 0; 1; 10; 0; 0; 2] in
  let c := [69; 0; 0; 20; 1; 2; 64; 0; 5; 17; 96; 213; 10; 0; 0; 1; 10; 0; 0; 2] in
  let t := [0; 80; 0; 99; 0; 0; 0; 1; 0; 0; 0; 2; 80; 2; 1; 0; 0; 0; 0; 0; 104; 105] in
  let stop k := fun r : res unit => match r with Ok _ => k | _ => Leave end in
  let early := CallThen (V4SetTtl 5) (stop (CallThen (V4SetDscp 200) (stop (CallThen (V4SetId 7) (fun _ => Leave))))) in
  let crash := CallThen (V4SetTtl 5) (stop (CallThen (V4SetEcn 0) (fun _ => UserPanic))) in
  let flags k := CallThen (TcpSetFlags 2) (fun _ => k) in
  v4_no_payload b = Ok b /\ is_bytes b /\ block_ok v4_setter_ok early /\ block_ok v4_setter_ok crash /\
  life v4_apply early b = ([V4SetTtl 5; V4SetDscp 200], Left) /\
  run_block v4_apply (v4_update_checksum E) early b = Continues c /\
  run_block v4_apply (v4_update_checksum E) crash b = Unwinds c /\
  tcp_new t = Ok t /\ is_bytes t /\ block_ok tcp_setter_ok (flags UserPanic) /\
  (exists t', run_block tcp_apply (tcp_update_checksum E (V4 b)) (flags Leave) t = Unwinds t') /\
  run_block tcp_apply (tcp_update_checksum E (V4 b)) (flags UserPanic) t = Aborts /\
  (exists t', run_block tcp_apply (tcp_update_checksum E (V4 b)) (CallThen (TcpSetWindow 9) (fun _ => UserPanic)) t = Unwinds t' /\
     tcp_is_valid E (V4 b) t' = Ok true).
Proof. exact BlockProofs.c73_example. Qed.

(** ** C74 *)
Theorem C74_outcome : forall E o cs cl buf, snd (program_left E o cs cl buf) = program E o cs cl buf.
Proof. exact MemoryProofs.c74_outcome. Qed.
Print Assumptions C74_outcome.
(** C74: the memory keeps its length (payloads or not, whatever happens). *)
Theorem C74_length : forall E o cs cl s, Forall confined cs -> len (fst (program_left E o cs cl (slice_new s))) = len s.
Proof. exact MemoryProofs.c74_length. Qed.
Print Assumptions C74_length.
(** C74: the hypotheses of C74_length can be met. *)
Example C74_length_meets :
  exists (cs : list call), Forall confined cs.
Proof. exact WitnessProofs.c74_length_meets. Qed.
Theorem C74_behind : forall E o cs cl s, Forall no_payload cs -> Forall confined cs -> len s <= ISIZE_MAX ->
  dropN (added o cs) (fst (program_left E o cs cl (slice_new s))) = dropN (added o cs) s.
Proof. exact MemoryProofs.c74_behind. Qed.
Print Assumptions C74_behind.
(** C74: the hypotheses of C74_behind can be met. *)
Example C74_behind_meets :
  exists (E : env) (cs : list call) (s : bytes), Forall no_payload cs /\ Forall confined cs /\ len s <= ISIZE_MAX.
Proof. exact WitnessProofs.c74_behind_meets. Qed.
Theorem C74_success : forall E o cs cl s out, Forall no_payload cs -> Forall confined cs -> len s <= ISIZE_MAX ->
  program E o cs cl (slice_new s) = Ok out -> fst (program_left E o cs cl (slice_new s)) = out ++ dropN (len out) s.
Proof. exact MemoryProofs.c74_success. Qed.
Print Assumptions C74_success.
(** C74: the hypotheses of C74_success can be met. *)
Example C74_success_meets :
  exists (E : env) (o : opening) (cs : list call) (cl : closing) (s : bytes) (out : bytes), Forall no_payload cs /\ Forall confined cs /\ len s <= ISIZE_MAX /\ program E o cs cl (slice_new s) = Ok out.
Proof. exact WitnessProofs.c74_success_meets. Qed.
(** C74: a call that fails leaves what lies behind the layers made before it. *)
Theorem C74_failed : forall E o cs c s b, Forall no_payload cs -> Forall confined cs -> no_payload c -> confined c -> len s <= ISIZE_MAX ->
  (let* b := open E o (slice_new s) in run (call1 E) cs b) = Ok b -> (forall b', call1 E c b <> Ok b') ->
  dropN (added o cs) (memory (fst (call_left E c b))) = dropN (added o cs) s.
Proof. exact MemoryProofs.c74_failed. Qed.
Print Assumptions C74_failed.
(** C74: the hypotheses of C74_failed can be met. *)
Example C74_failed_meets :
  exists (E : env) (o : opening) (cs : list call) (c : call) (s : bytes) (b : builder), Forall no_payload cs /\ Forall confined cs /\ no_payload c /\ confined c /\ len s <= ISIZE_MAX /\ ((let* b := open E o (slice_new s) in run (call1 E) cs b) = Ok b) /\ ((forall b', call1 E c b <> Ok b')).
Proof. exact WitnessProofs.c74_failed_meets. Qed.
Theorem C74_retry : forall E o cs cl s o' cs' cl', Forall confined cs -> len s <= ISIZE_MAX ->
  compiles o' cs' cl' -> Forall ordinary cs' -> Forall no_payload cs' -> added o' cs' <= ISIZE_MAX ->
  program E o' cs' cl' (slice_new (fst (program_left E o cs cl (slice_new s)))) = program E o' cs' cl' (slice_new s).
Proof. exact MemoryProofs.c74_retry. Qed.
Print Assumptions C74_retry.
(** C74: the hypotheses of C74_retry can be met. *)
Example C74_retry_meets :
  exists (E : env) (cs : list call) (s : bytes) (o' : opening) (cs' : list call) (cl' : closing), Forall confined cs /\ len s <= ISIZE_MAX /\ compiles o' cs' cl' /\ Forall ordinary cs' /\ Forall no_payload cs' /\ added o' cs' <= ISIZE_MAX.
Proof. exact WitnessProofs.c74_retry_meets. Qed.
Theorem C74_refused : forall E o cs c s b t t', Forall no_payload cs -> Forall ordinary cs -> no_payload c -> ordinary c ->
  typed (opened o) cs t -> returns t c = Some t' -> len s <= ISIZE_MAX -> added o cs + adds c <= ISIZE_MAX ->
  (let* b := open E o (slice_new s) in run (call1 E) cs b) = Ok b -> (forall b', call1 E c b <> Ok b') ->
  memory (fst (call_left E c b)) =
  match starts c, call1 E c b with
  | Some p, Err SmallBuffer => alter (memory (b_buffer b)) (buf_offset (b_buffer b) + 9) p
  | _, _ => memory (b_buffer b)
  end.
Proof. exact MemoryProofs.c74_refused. Qed.
Print Assumptions C74_refused.
(** C74: the hypotheses of C74_refused can be met. *)
Example C74_refused_meets :
  exists (E : env) (o : opening) (cs : list call) (c : call) (s : bytes) (b : builder) (t : ty) (t' : ty), Forall no_payload cs /\ Forall ordinary cs /\ no_payload c /\ ordinary c /\ typed (opened o) cs t /\ returns t c = Some t' /\ len s <= ISIZE_MAX /\ added o cs + adds c <= ISIZE_MAX /\ ((let* b := open E o (slice_new s) in run (call1 E) cs b) = Ok b) /\ ((forall b', call1 E c b <> Ok b')).
Proof. exact WitnessProofs.c74_refused_meets. Qed.
(** C74: a build() that returns an error leaves the memory as it was. *)
Theorem C74_build_refused : forall E o cs cl s b e, compiles o cs cl -> Forall no_payload cs -> Forall ordinary cs -> len s <= ISIZE_MAX -> added o cs <= ISIZE_MAX ->
  (let* b := open E o (slice_new s) in run (call1 E) cs b) = Ok b -> close E cl b = Err e ->
  fst (close_left E cl b) = memory (b_buffer b).
Proof. exact MemoryProofs.c74_build_refused. Qed.
Print Assumptions C74_build_refused.
(** C74: the hypotheses of C74_build_refused can be met. *)
Example C74_build_refused_meets :
  exists (E : env) (o : opening) (cs : list call) (cl : closing) (s : bytes) (b : builder) (e : error), compiles o cs cl /\ Forall no_payload cs /\ Forall ordinary cs /\ len s <= ISIZE_MAX /\ added o cs <= ISIZE_MAX /\ ((let* b := open E o (slice_new s) in run (call1 E) cs b) = Ok b) /\ close E cl b = Err e.
Proof. exact WitnessProofs.c74_build_refused_meets. Qed.
Theorem C74_payload_refuted : ~ (forall E o cs cl s, Forall confined cs -> len s <= ISIZE_MAX ->
  dropN (added o cs) (fst (program_left E o cs cl (slice_new s))) = dropN (added o cs) s).
Proof. exact MemoryProofs.c74_payload_refuted. Qed.
Print Assumptions C74_payload_refuted.
Example C74_example : forall E,
  let s := repeat 170 25%nat in
  let p x := 69 :: zeros 8 ++ x :: zeros 10 ++ repeat 170 5%nat in
  program_left E OpV4 [CallV4Udp] ClUdp (slice_new s) = (p 17, Err SmallBuffer) /\
  program_left E OpV4 [CallV4 (V4Set (V4SetDscp 64))] ClV4 (slice_new s) = (p 0, Err InvalidValue) /\
  program_left E OpEther [CallFinalizer (mseq (set_index 3 9) (fun b => (b, Err Io)))] ClEther (slice_new s) = ([0; 0; 0; 9] ++ zeros 10 ++ repeat 170 11%nat, Err Io) /\
  program_left E OpV6 [] ClV6 (slice_new s) = (s, Err InvalidPacket) /\
  (exists m, program_left E OpUdp [] ClUdp (slice_new s) = (m, Panic) /\ dropN 8 m = repeat 170 17%nat) /\
  confined (CallFinalizer (mseq (set_index 3 9) (fun b => (b, Err Io)))).
Proof. exact MemoryProofs.c74_example. Qed.
Example C74_payload_example : forall E,
  program_left E OpEther [CallEther (EtherPayload [1; 2])] ClEther (slice_new (repeat 170 40%nat)) =
    (zeros 14 ++ repeat 170 14%nat ++ [1; 170; 2] ++ repeat 170 9%nat, Ok (zeros 14 ++ [170; 170])) /\
  program_left E OpEther [CallEther (EtherPayload [1; 2])] ClEther (slice_new (repeat 170 30%nat)) =
    (zeros 14 ++ repeat 170 14%nat ++ [1; 170], Panic).
Proof. exact MemoryProofs.c74_payload_example. Qed.

(** ** C75 *)
(** C75: Ethernet: the fields are looked for in the whole buffer. *)
Theorem C75_ether : forall b,
  (forall v, ether_set_destination v (ether_unchecked b) = placed (len b) 0 (hw_octets v) b) /\
  (forall v, ether_set_source v (ether_unchecked b) = placed (len b) 6 (hw_octets v) b) /\
  (forall v, ether_set_protocol v (ether_unchecked b) = stored (len b) 12 (enc16 (ether_protocol_into v)) b).
Proof. exact StoreProofs.c75_ether. Qed.
Print Assumptions C75_ether.
(** C75: IPv4: dscp, ecn and id are looked for in the whole buffer, the other fields in the header the IHL announces. *)
Theorem C75_v4 : forall b, is_bytes b -> let h := nthN b 0 mod 16 * 4 in let need := N.max 4 h in
  (forall v, v4_apply (V4SetDscp v) (v4_unchecked b) = if 63 <? v then (b, Err InvalidValue) else placed (len b) 1 [v * 4 + nthN b 1 mod 4] b) /\
  (forall v, v4_apply (V4SetEcn v) (v4_unchecked b) = if 3 <? v then (b, Err InvalidValue)
     else placed (len b) 1 [nthN b 1 / 4 mod 16 * 4 + N.lor (nthN b 1 mod 4) v] b) /\
  (forall v, v4_apply (V4SetId v) (v4_unchecked b) = stored (len b) 4 (enc16 v) b) /\
  (forall v, v4_apply (V4SetFlags v) (v4_unchecked b) = behind need b (stored h 6 (enc16 v) b)) /\
  (forall v, v4_apply (V4SetOffset v) (v4_unchecked b) = behind need b (stored h 6 (enc16 v) b)) /\
  (forall v, v4_apply (V4SetTtl v) (v4_unchecked b) = behind need b (placed h 8 [v] b)) /\
  (forall v, v4_apply (V4SetProtocol v) (v4_unchecked b) = behind need b (placed h 9 [ip_protocol_into v] b)) /\
  (forall v, v4_apply (V4SetSource v) (v4_unchecked b) = behind need b (placed h 12 (octets v) b)) /\
  (forall v, v4_apply (V4SetDestination v) (v4_unchecked b) = behind need b (placed h 16 (octets v) b)) /\
  (forall v, v4_set_checksum v (v4_unchecked b) = behind need b (stored h 10 (enc16 v) b)) /\
  (forall E, v4_update_checksum E (v4_unchecked b) =
     behind need b (stored h 10 (enc16 (nonzero_checksum (zero_field 10 (takeN h b)))) b)).
Proof. exact StoreProofs.c75_v4. Qed.
Print Assumptions C75_v4.
(** C75: the hypotheses of C75_v4 can be met. *)
Example C75_v4_meets :
  exists (b : bytes), is_bytes b.
Proof. exact WitnessProofs.c75_v4_meets. Qed.
(** C75: UDP: every field is looked for in the eight bytes of the header. *)
Theorem C75_udp : forall b,
  (forall v, udp_apply (UdpSetSource v) (udp_unchecked b) = behind 8 b (overwrite b 0 (enc16 v), Ok tt)) /\
  (forall v, udp_apply (UdpSetDestination v) (udp_unchecked b) = behind 8 b (overwrite b 2 (enc16 v), Ok tt)) /\
  (forall v, udp_set_checksum v (udp_unchecked b) = behind 8 b (overwrite b 6 (enc16 v), Ok tt)).
Proof. exact StoreProofs.c75_udp. Qed.
Print Assumptions C75_udp.
(** C75: TCP: every field is looked for in the header the data offset announces. *)
Theorem C75_tcp : forall b, is_bytes b -> let h := nthN b 12 / 16 * 4 in let need := N.max 13 h in
  (forall v, tcp_apply (TcpSetSource v) (tcp_unchecked b) = behind need b (stored h 0 (enc16 v) b)) /\
  (forall v, tcp_apply (TcpSetDestination v) (tcp_unchecked b) = behind need b (stored h 2 (enc16 v) b)) /\
  (forall v, tcp_apply (TcpSetSequence v) (tcp_unchecked b) = behind need b (stored h 4 (enc32 v) b)) /\
  (forall v, tcp_apply (TcpSetAcknowledgment v) (tcp_unchecked b) = behind need b (stored h 8 (enc32 v) b)) /\
  (forall v, tcp_apply (TcpSetFlags v) (tcp_unchecked b) = behind need b (if h <=? 12 then (b, Panic) else (overwrite b 12 (enc16 v), Ok tt))) /\
  (forall v, tcp_apply (TcpSetWindow v) (tcp_unchecked b) = behind need b (stored h 14 (enc16 v) b)) /\
  (forall v, tcp_apply (TcpSetPointer v) (tcp_unchecked b) = behind need b (stored h 18 (enc16 v) b)) /\
  (forall v, tcp_set_checksum v (tcp_unchecked b) = behind need b (stored h 16 (enc16 v) b)).
Proof. exact StoreProofs.c75_tcp. Qed.
Print Assumptions C75_tcp.
(** C75: the hypotheses of C75_tcp can be met. *)
Example C75_tcp_meets :
  exists (b : bytes), is_bytes b.
Proof. exact WitnessProofs.c75_tcp_meets. Qed.
(** C75: update_checksum of UDP and TCP stores what checksum() returns for the whole buffer, and panics, storing nothing, when that panics. *)
Theorem C75_update : forall E ip b, is_bytes b -> let h := nthN b 12 / 16 * 4 in
  (forall c, udp_checksum_of E ip b = Ok c -> udp_update_checksum E ip (udp_unchecked b) = behind 8 b (overwrite b 6 (enc16 c), Ok tt)) /\
  (udp_checksum_of E ip b = Panic -> udp_update_checksum E ip (udp_unchecked b) = (b, Panic)) /\
  (forall c, tcp_checksum_of E ip b = Ok c -> tcp_update_checksum E ip (tcp_unchecked b) = behind (N.max 13 h) b (stored h 16 (enc16 c) b)) /\
  (tcp_checksum_of E ip b = Panic -> tcp_update_checksum E ip (tcp_unchecked b) = (b, Panic)).
Proof. exact StoreProofs.c75_update. Qed.
Print Assumptions C75_update.
(** C75: the hypotheses of C75_update can be met. *)
Example C75_update_meets :
  (exists (E : env) (ip : ip_packet) (b : bytes) (c : N), is_bytes b /\ udp_checksum_of E ip b = Ok c) /\
  (exists (E : env) (ip : ip_packet) (b : bytes), is_bytes b /\ udp_checksum_of E ip b = Panic) /\
  (exists (E : env) (ip : ip_packet) (b : bytes) (c : N), is_bytes b /\ tcp_checksum_of E ip b = Ok c) /\
  (exists (E : env) (ip : ip_packet) (b : bytes), is_bytes b /\ tcp_checksum_of E ip b = Panic).
Proof. exact WitnessProofs.c75_update_meets. Qed.
(** C75: the typed ICMP messages: every field is looked for in the whole buffer, whatever the size of the message. *)
Theorem C75_icmp : forall b,
  echo_apply EchoMakeRequest (echo_unchecked b) = placed (len b) 0 [8] b /\ echo_apply EchoMakeReply (echo_unchecked b) = placed (len b) 0 [0] b /\
  (forall v, echo_apply (EchoSetIdentifier v) (echo_unchecked b) = stored (len b) 4 (enc16 v) b) /\
  (forall v, echo_apply (EchoSetSequence v) (echo_unchecked b) = stored (len b) 6 (enc16 v) b) /\
  information_apply InfoMakeRequest (information_unchecked b) = placed (len b) 0 [8] b /\ information_apply InfoMakeReply (information_unchecked b) = placed (len b) 0 [0] b /\
  (forall v, information_apply (InfoSetIdentifier v) (information_unchecked b) = stored (len b) 4 (enc16 v) b) /\
  (forall v, information_apply (InfoSetSequence v) (information_unchecked b) = stored (len b) 6 (enc16 v) b) /\
  timestamp_apply TsMakeRequest (timestamp_unchecked b) = placed (len b) 0 [8] b /\ timestamp_apply TsMakeReply (timestamp_unchecked b) = placed (len b) 0 [0] b /\
  (forall v, timestamp_apply (TsSetIdentifier v) (timestamp_unchecked b) = stored (len b) 4 (enc16 v) b) /\
  (forall v, timestamp_apply (TsSetSequence v) (timestamp_unchecked b) = stored (len b) 6 (enc16 v) b) /\
  (forall v, timestamp_apply (TsSetOriginate v) (timestamp_unchecked b) = stored (len b) 8 (enc32 v) b) /\
  (forall v, timestamp_apply (TsSetReceive v) (timestamp_unchecked b) = stored (len b) 12 (enc32 v) b) /\
  (forall v, timestamp_apply (TsSetTransmit v) (timestamp_unchecked b) = stored (len b) 16 (enc32 v) b).
Proof. exact StoreProofs.c75_icmp. Qed.
Print Assumptions C75_icmp.
(** C75: the guard of an ICMP message, taken and dropped at once. An echo message covers the whole buffer: one shorter than its header panics where overflow is checked, and elsewhere is given a checksum if that fits, or half of one and then a panic. *)
Theorem C75_icmp_drop : forall E b, rust_slice b ->
  let ck m := enc16 (nonzero_checksum (drop_odd (zero_field 2 m))) in
  (8 <= len b -> echo_checked E [] (echo_unchecked b) = (overwrite b 2 (ck b), Ok tt)) /\
  (len b < 8 -> overflow_checks E = true -> echo_checked E [] (echo_unchecked b) = (b, Panic)) /\
  (len b < 8 -> overflow_checks E = false -> echo_checked E [] (echo_unchecked b) =
     (fst (stored (len b) 2 (ck b) b), if 4 <=? len b then Ok tt else Panic)) /\
  information_checked E [] (information_unchecked b) = behind 8 b (overwrite b 2 (ck (takeN 8 b)), Ok tt) /\
  timestamp_checked E [] (timestamp_unchecked b) = behind 20 b (overwrite b 2 (ck (takeN 20 b)), Ok tt).
Proof. exact StoreProofs.c75_icmp_drop. Qed.
Print Assumptions C75_icmp_drop.
(** C75: the hypotheses of C75_icmp_drop can be met. *)
Example C75_icmp_drop_meets :
  (exists (E : env) (b : bytes), rust_slice b /\ 8 <= len b) /\
  (exists (E : env) (b : bytes), rust_slice b /\ len b < 8 /\ overflow_checks E = true) /\
  (exists (E : env) (b : bytes), rust_slice b /\ len b < 8 /\ overflow_checks E = false).
Proof. exact WitnessProofs.c75_icmp_drop_meets. Qed.
(** C75: whatever the bytes and however the call ends, a setter changes at most the bytes of its field and never the length. *)
Theorem C75_frame : forall b,
  (forall s, only_changes (fst (v4_place s)) (snd (v4_place s)) b (fst (v4_apply s (v4_unchecked b)))) /\
  (forall s, only_changes (fst (udp_place s)) (snd (udp_place s)) b (fst (udp_apply s (udp_unchecked b)))) /\
  (forall s, only_changes (fst (tcp_place s)) (snd (tcp_place s)) b (fst (tcp_apply s (tcp_unchecked b)))) /\
  (forall s, only_changes (fst (echo_place s)) (snd (echo_place s)) b (fst (echo_apply s (echo_unchecked b)))) /\
  (forall s, only_changes (fst (information_place s)) (snd (information_place s)) b (fst (information_apply s (information_unchecked b)))) /\
  (forall s, only_changes (fst (timestamp_place s)) (snd (timestamp_place s)) b (fst (timestamp_apply s (timestamp_unchecked b)))) /\
  (forall E, only_changes 10 12 b (fst (v4_update_checksum E (v4_unchecked b)))) /\
  (forall E ip, only_changes 6 8 b (fst (udp_update_checksum E ip (udp_unchecked b)))) /\
  (forall E ip, only_changes 16 18 b (fst (tcp_update_checksum E ip (tcp_unchecked b)))).
Proof. exact StoreProofs.c75_frame. Qed.
Print Assumptions C75_frame.
(** C75: a block of code holding a guard over any bytes, however it ends: if the process lives on, only the fields whose setters it called and the checksum can have changed. *)
Theorem C75_blocks : forall E ip b b',
  (forall k ops e, life v4_apply k (v4_unchecked b) = (ops, e) ->
     run_block v4_apply (v4_update_checksum E) k (v4_unchecked b) = Continues b' \/ run_block v4_apply (v4_update_checksum E) k (v4_unchecked b) = Unwinds b' ->
     differs_in v4_place 10 ops b b') /\
  (forall k ops e, life udp_apply k (udp_unchecked b) = (ops, e) ->
     run_block udp_apply (udp_update_checksum E ip) k (udp_unchecked b) = Continues b' \/ run_block udp_apply (udp_update_checksum E ip) k (udp_unchecked b) = Unwinds b' ->
     differs_in udp_place 6 ops b b') /\
  (forall k ops e, life tcp_apply k (tcp_unchecked b) = (ops, e) ->
     run_block tcp_apply (tcp_update_checksum E ip) k (tcp_unchecked b) = Continues b' \/ run_block tcp_apply (tcp_update_checksum E ip) k (tcp_unchecked b) = Unwinds b' ->
     differs_in tcp_place 16 ops b b') /\
  (forall k ops e, life echo_apply k (echo_unchecked b) = (ops, e) ->
     run_block echo_apply (icmp_checked_drop E (echo_as_ref E)) k (echo_unchecked b) = Continues b' \/ run_block echo_apply (icmp_checked_drop E (echo_as_ref E)) k (echo_unchecked b) = Unwinds b' ->
     differs_in echo_place 2 ops b b') /\
  (forall k ops e, life information_apply k (information_unchecked b) = (ops, e) ->
     run_block information_apply (icmp_checked_drop E (information_as_ref E)) k (information_unchecked b) = Continues b' \/
     run_block information_apply (icmp_checked_drop E (information_as_ref E)) k (information_unchecked b) = Unwinds b' ->
     differs_in information_place 2 ops b b') /\
  (forall k ops e, life timestamp_apply k (timestamp_unchecked b) = (ops, e) ->
     run_block timestamp_apply (icmp_checked_drop E (timestamp_as_ref E)) k (timestamp_unchecked b) = Continues b' \/
     run_block timestamp_apply (icmp_checked_drop E (timestamp_as_ref E)) k (timestamp_unchecked b) = Unwinds b' ->
     differs_in timestamp_place 2 ops b b').
Proof. exact StoreProofs.c75_blocks. Qed.
Print Assumptions C75_blocks.
(** C75: the hypotheses of C75_blocks can be met. *)
Example C75_blocks_meets :
  (exists (E : env) (b : bytes) (b' : bytes) k ops (e : ending), life v4_apply k (v4_unchecked b) = (ops, e) /\ (run_block v4_apply (v4_update_checksum E) k (v4_unchecked b) = Continues b' \/ run_block v4_apply (v4_update_checksum E) k (v4_unchecked b) = Unwinds b')) /\
  (exists (E : env) (ip : ip_packet) (b : bytes) (b' : bytes) k ops (e : ending), life udp_apply k (udp_unchecked b) = (ops, e) /\ (run_block udp_apply (udp_update_checksum E ip) k (udp_unchecked b) = Continues b' \/ run_block udp_apply (udp_update_checksum E ip) k (udp_unchecked b) = Unwinds b')) /\
  (exists (E : env) (ip : ip_packet) (b : bytes) (b' : bytes) k ops (e : ending), life tcp_apply k (tcp_unchecked b) = (ops, e) /\ (run_block tcp_apply (tcp_update_checksum E ip) k (tcp_unchecked b) = Continues b' \/ run_block tcp_apply (tcp_update_checksum E ip) k (tcp_unchecked b) = Unwinds b')) /\
  (exists (E : env) (b : bytes) (b' : bytes) k ops (e : ending), life echo_apply k (echo_unchecked b) = (ops, e) /\ (run_block echo_apply (icmp_checked_drop E (echo_as_ref E)) k (echo_unchecked b) = Continues b' \/ run_block echo_apply (icmp_checked_drop E (echo_as_ref E)) k (echo_unchecked b) = Unwinds b')) /\
  (exists (E : env) (b : bytes) (b' : bytes) k ops (e : ending), life information_apply k (information_unchecked b) = (ops, e) /\ (run_block information_apply (icmp_checked_drop E (information_as_ref E)) k (information_unchecked b) = Continues b' \/ run_block information_apply (icmp_checked_drop E (information_as_ref E)) k (information_unchecked b) = Unwinds b')) /\
  (exists (E : env) (b : bytes) (b' : bytes) k ops (e : ending), life timestamp_apply k (timestamp_unchecked b) = (ops, e) /\ (run_block timestamp_apply (icmp_checked_drop E (timestamp_as_ref E)) k (timestamp_unchecked b) = Continues b' \/ run_block timestamp_apply (icmp_checked_drop E (timestamp_as_ref E)) k (timestamp_unchecked b) = Unwinds b')).
Proof. exact WitnessProofs.c75_blocks_meets. Qed.
(** C75: half a field: five bytes, the second byte of the id does not fit. *)
Example C75_example : forall E, let b := [69; 0; 0; 20; 7] in
  v4_apply (V4SetId 258) (v4_unchecked b) = ([69; 0; 0; 20; 1], Err Io) /\ v4_apply (V4SetTtl 9) (v4_unchecked b) = (b, Panic) /\
  tcp_apply (TcpSetFlags 2) (tcp_unchecked (zeros 12 ++ [80; 0] ++ zeros 6)) = (zeros 12 ++ [0; 2] ++ zeros 6, Ok tt) /\
  run_block v4_apply (v4_update_checksum E) (CallThen (V4SetId 258) (fun _ => CallThen (V4SetDscp 1) (fun _ => Leave))) (v4_unchecked b) = Unwinds [69; 4; 0; 20; 1] /\
  echo_checked E [] (echo_unchecked [8; 0; 0]) = (if overflow_checks E then [8; 0; 0] else [8; 0; 247], Panic).
Proof. exact StoreProofs.c75_example. Qed.

(** ** C76 *)
(** C76: one router, on every frame that is one ... *)
Theorem C76_router : forall (S : Type) (inner : S -> bytes) (inner_ok : S -> Prop) E h s, frame_packet_ok inner inner_ok s ->
  (routable s -> 2 <= vf_ttl (fr_ip s) ->
   router E h (frame_bytes inner s) = (frame_bytes inner (readdressed h (vf_ttl (fr_ip s) - 1) s), Ok tt)) /\
  (~ (routable s /\ 2 <= vf_ttl (fr_ip s)) -> router E h (frame_bytes inner s) = (frame_bytes inner s, Err InvalidPacket)).
Proof. exact RouteProofs.c76_router. Qed.
Print Assumptions C76_router.
(** C76: the hypotheses of C76_router can be met. *)
Example C76_router_meets :
  (exists (S : Type) (inner : S -> bytes) (inner_ok : S -> Prop) s, frame_packet_ok inner inner_ok s /\ routable s /\ 2 <= vf_ttl (fr_ip s)) /\
  (exists (S : Type) (inner : S -> bytes) (inner_ok : S -> Prop) s, frame_packet_ok inner inner_ok s /\ ~ (routable s /\ 2 <= vf_ttl (fr_ip s))).
Proof. exact WitnessProofs.c76_router_meets. Qed.
Theorem C76_router_any : forall E h b, is_bytes b ->
  (exists s, frame_packet_ok (fun p => p) is_bytes s /\ b = frame_bytes (fun p => p) s /\ routable s /\ 2 <= vf_ttl (fr_ip s) /\
     router E h b = (frame_bytes (fun p => p) (readdressed h (vf_ttl (fr_ip s) - 1) s), Ok tt)) \/
  (exists e, router E h b = (b, Err e)).
Proof. exact RouteProofs.c76_router_any. Qed.
Print Assumptions C76_router_any.
(** C76: the hypotheses of C76_router_any can be met. *)
Example C76_router_any_meets : exists (b : bytes), is_bytes b.
Proof. exact WitnessProofs.c76_router_any_meets. Qed.
(** C76: routers in a row.  The TTL limits how many. *)
Theorem C76_route : forall (S : Type) (inner : S -> bytes) (inner_ok : S -> Prop) E hops s, frame_packet_ok inner inner_ok s ->
  routable s -> Forall hop_ok hops -> hops <> [] ->
  (N.of_nat (length hops) < vf_ttl (fr_ip s) -> route E hops (frame_bytes inner s) = (frame_bytes inner (travelled hops s), Ok tt)) /\
  (vf_ttl (fr_ip s) <= N.of_nat (length hops) ->
   route E hops (frame_bytes inner s) =
   (frame_bytes inner (travelled (firstn (N.to_nat (vf_ttl (fr_ip s) - 1)) hops) s), Err InvalidPacket)).
Proof. exact RouteProofs.c76_route. Qed.
Print Assumptions C76_route.
(** C76: the hypotheses of C76_route can be met. *)
Example C76_route_meets :
  (exists (S : Type) (inner : S -> bytes) (inner_ok : S -> Prop) hops s, frame_packet_ok inner inner_ok s /\ routable s /\ Forall hop_ok hops /\ hops <> [] /\ N.of_nat (length hops) < vf_ttl (fr_ip s)) /\
  (exists (S : Type) (inner : S -> bytes) (inner_ok : S -> Prop) hops s, frame_packet_ok inner inner_ok s /\ routable s /\ Forall hop_ok hops /\ hops <> [] /\ vf_ttl (fr_ip s) <= N.of_nat (length hops)).
Proof. exact WitnessProofs.c76_route_meets. Qed.
(** C76: the receiver's verdict on the frame does not depend on the route it took. *)
Theorem C76_received : forall (S : Type) (inner : S -> bytes) (inner_ok : S -> Prop) E E' hops s b, frame_packet_ok inner inner_ok s ->
  routable s -> Forall hop_ok hops -> route E hops (frame_bytes inner s) = (b, Ok tt) ->
  receive_udp E' b = receive_udp E' (frame_bytes inner s) /\
  receive_tcp E' b = receive_tcp E' (frame_bytes inner s) /\
  receive_echo E' b = receive_echo E' (frame_bytes inner s).
Proof. exact RouteProofs.c76_received. Qed.
Print Assumptions C76_received.
(** C76: the hypotheses of C76_received can be met. *)
Example C76_received_meets :
  exists (S : Type) (inner : S -> bytes) (inner_ok : S -> Prop) E hops s b, frame_packet_ok inner inner_ok s /\ routable s /\ Forall hop_ok hops /\ route E hops (frame_bytes inner s) = (b, Ok tt).
Proof. exact WitnessProofs.c76_received_meets. Qed.
Theorem C76_built_udp : forall E E' eops vs us p hops h,
  eth_ok (Some eops) -> Forall v4_arg_ok vs -> Forall udp_op_ok us -> one_payload (udp_payloads us) p -> 28 + len p <= 65535 ->
  Forall hop_ok (hops ++ [h]) -> N.of_nat (length (hops ++ [h])) < vf_ttl (v4_after vs) ->
  exists frame frame',
    udp_chain E (Some eops) vs us dynamic_new = Ok frame /\
    udp_chain E (Some (eops ++ [Builders.EtherSource (mine h); Builders.EtherDestination (next h)]))
      (vs ++ [V4SetTtl (vf_ttl (v4_after vs) - N.of_nat (length (hops ++ [h])))]) us dynamic_new = Ok frame' /\
    route E' (hops ++ [h]) frame = (frame', Ok tt).
Proof. exact RouteProofs.c76_built_udp. Qed.
Print Assumptions C76_built_udp.
(** C76: the hypotheses of C76_built_udp can be met. *)
Example C76_built_udp_meets :
  exists (E : env) (eops : list ether_op) (vs : list v4_setter) (us : list udp_op) (p : bytes) (hops : list hop) (h : hop), eth_ok (Some eops) /\ Forall v4_arg_ok vs /\ Forall udp_op_ok us /\ one_payload (udp_payloads us) p /\ 28 + len p <= 65535 /\ Forall hop_ok (hops ++ [h]) /\ N.of_nat (length (hops ++ [h])) < vf_ttl (v4_after vs).
Proof. exact WitnessProofs.c76_built_udp_meets. Qed.
(** C76: the same for TCP ... *)
Theorem C76_built_tcp : forall E E' eops vs ts p hops h,
  eth_ok (Some eops) -> Forall v4_arg_ok vs -> Forall tcp_op_ok ts -> flags_last (tcp_setters ts) -> one_payload (tcp_payloads ts) p ->
  40 + len p <= 65535 -> len p mod 2 = 0 \/ cursor_eof E = EofKeep ->
  Forall hop_ok (hops ++ [h]) -> N.of_nat (length (hops ++ [h])) < vf_ttl (v4_after vs) ->
  exists frame frame',
    tcp_chain E (Some eops) vs ts dynamic_new = Ok frame /\
    tcp_chain E (Some (eops ++ [Builders.EtherSource (mine h); Builders.EtherDestination (next h)]))
      (vs ++ [V4SetTtl (vf_ttl (v4_after vs) - N.of_nat (length (hops ++ [h])))]) ts dynamic_new = Ok frame' /\
    route E' (hops ++ [h]) frame = (frame', Ok tt).
Proof. exact RouteProofs.c76_built_tcp. Qed.
Print Assumptions C76_built_tcp.
(** C76: the hypotheses of C76_built_tcp can be met. *)
Example C76_built_tcp_meets :
  exists (E : env) (eops : list ether_op) (vs : list v4_setter) (ts : list tcp_op) (p : bytes) (hops : list hop) (h : hop), eth_ok (Some eops) /\ Forall v4_arg_ok vs /\ Forall tcp_op_ok ts /\ flags_last (tcp_setters ts) /\ one_payload (tcp_payloads ts) p /\ 40 + len p <= 65535 /\ (len p mod 2 = 0 \/ cursor_eof E = EofKeep) /\ Forall hop_ok (hops ++ [h]) /\ N.of_nat (length (hops ++ [h])) < vf_ttl (v4_after vs).
Proof. exact WitnessProofs.c76_built_tcp_meets. Qed.
(** C76: ... and for an ICMP echo. *)
Theorem C76_built_echo : forall E E' eops vs os p hops h,
  eth_ok (Some eops) -> Forall v4_arg_ok vs -> Forall echo_op_ok os -> one_payload (echo_payloads os) p -> echo_kind_given os ->
  28 + len p <= 65535 -> Forall hop_ok (hops ++ [h]) -> N.of_nat (length (hops ++ [h])) < vf_ttl (v4_after vs) ->
  exists frame frame',
    echo_chain E (Some (Some eops, vs)) os dynamic_new = Ok frame /\
    echo_chain E (Some (Some (eops ++ [Builders.EtherSource (mine h); Builders.EtherDestination (next h)]),
      vs ++ [V4SetTtl (vf_ttl (v4_after vs) - N.of_nat (length (hops ++ [h])))])) os dynamic_new = Ok frame' /\
    route E' (hops ++ [h]) frame = (frame', Ok tt).
Proof. exact RouteProofs.c76_built_echo. Qed.
Print Assumptions C76_built_echo.
(** C76: the hypotheses of C76_built_echo can be met. *)
Example C76_built_echo_meets :
  exists (E : env) (eops : list ether_op) (vs : list v4_setter) (os : list echo_op) (p : bytes) (hops : list hop) (h : hop), eth_ok (Some eops) /\ Forall v4_arg_ok vs /\ Forall echo_op_ok os /\ one_payload (echo_payloads os) p /\ echo_kind_given os /\ 28 + len p <= 65535 /\ Forall hop_ok (hops ++ [h]) /\ N.of_nat (length (hops ++ [h])) < vf_ttl (v4_after vs).
Proof. exact WitnessProofs.c76_built_echo_meets. Qed.
Theorem C76_ping : forall E E' there back s, frame_packet_ok echo_bytes echo_packet_ok s -> routable s ->
  Forall hop_ok there -> Forall hop_ok back -> N.of_nat (length there) + N.of_nat (length back) < vf_ttl (fr_ip s) ->
  exists r, ping_and_back E there back (frame_bytes echo_bytes s) = (frame_bytes echo_bytes r, Ok tt) /\
    r = travelled back (answered (travelled there s)) /\ frame_packet_ok echo_bytes echo_packet_ok r /\ routable r /\
    vf_src (fr_ip r) = vf_dst (fr_ip s) /\ vf_dst (fr_ip r) = vf_src (fr_ip s) /\
    vf_ttl (fr_ip r) = vf_ttl (fr_ip s) - N.of_nat (length there) - N.of_nat (length back) /\
    cf_type (cp_header (fr_inner r)) = 0 /\ cp_ident (fr_inner r) = cp_ident (fr_inner s) /\
    cp_seq (fr_inner r) = cp_seq (fr_inner s) /\ cp_payload (fr_inner r) = cp_payload (fr_inner s) /\
    (vf_proto (fr_ip s) = 1 -> receive_echo E' (frame_bytes echo_bytes r) = Ok true).
Proof. exact RouteProofs.c76_ping. Qed.
Print Assumptions C76_ping.
(** C76: the hypotheses of C76_ping can be met. *)
Example C76_ping_meets :
  exists (there back : list hop) (s : frame_packet echo_packet), frame_packet_ok echo_bytes echo_packet_ok s /\ routable s /\ Forall hop_ok there /\ Forall hop_ok back /\ N.of_nat (length there) + N.of_nat (length back) < vf_ttl (fr_ip s) /\ vf_proto (fr_ip s) = 1.
Proof. exact WitnessProofs.c76_ping_meets. Qed.
(** C76: a frame whose IPv4 header was damaged in one byte is dropped by the next router, as it is. *)
Theorem C76_damaged : forall (S : Type) (inner : S -> bytes) (inner_ok : S -> Prop) E h s i v, frame_packet_ok inner inner_ok s -> routable s ->
  i < vf_ihl (fr_ip s) * 4 -> u8 v -> v <> nthN (frame_bytes inner s) (14 + i) ->
  (i = 0 -> v mod 16 = vf_ihl (fr_ip s)) ->
  exists e, router E h (alter (frame_bytes inner s) (14 + i) v) = (alter (frame_bytes inner s) (14 + i) v, Err e).
Proof. exact RouteProofs.c76_damaged. Qed.
Print Assumptions C76_damaged.
(** C76: the hypotheses of C76_damaged can be met. *)
Example C76_damaged_meets :
  exists (S : Type) (inner : S -> bytes) (inner_ok : S -> Prop) s i v, frame_packet_ok inner inner_ok s /\ routable s /\ i < vf_ihl (fr_ip s) * 4 /\ u8 v /\ v <> nthN (frame_bytes inner s) (14 + i) /\ (i = 0 -> v mod 16 = vf_ihl (fr_ip s)).
Proof. exact WitnessProofs.c76_damaged_meets. Qed.
(** C76: a ping with a TTL of 6, two routers there, three back, and what arrives.  One router more and it does not. *)
Example C76_example : forall E,
  let h n := {| mine := Hw 2 0 0 0 n 1; next := Hw 2 0 0 0 n 2 |} in
  let ping := [2;0;0;0;0;2; 2;0;0;0;0;1; 8;0; 69;0;0;32;18;52;0;0;6;1;142;167;10;0;0;1;10;0;0;2; 8;0;243;241;0;7;0;1;1;2;3;4] in
  ping_and_back E [h 1; h 2] [h 3; h 4; h 5] ping =
    ([2;0;0;0;5;2; 2;0;0;0;5;1; 8;0; 69;0;0;32;18;52;0;0;1;1;147;167;10;0;0;2;10;0;0;1; 0;0;251;241;0;7;0;1;1;2;3;4], Ok tt) /\
  snd (ping_and_back E [h 1; h 2] [h 3; h 4; h 5; h 6] ping) = Err InvalidPacket /\
  snd (route E [h 1; h 2; h 3; h 4; h 5; h 6] ping) = Err InvalidPacket /\
  receive_echo E (fst (ping_and_back E [h 1; h 2] [h 3; h 4; h 5] ping)) = Ok true.
Proof. exact RouteProofs.c76_example. Qed.

(** ** C77 *)
(** C77: the program does what it says, on every frame with a UDP datagram in it. *)
Theorem C77_udp : forall E vs us s, frame_packet_ok udp_bytes udp_packet_ok s -> Forall v4_setter_ok vs -> Forall udp_setter_ok us ->
  len (udp_bytes (fr_inner s)) mod 2 = 0 \/ cursor_eof E = EofKeep ->
  rewrite_udp E vs us (frame_bytes udp_bytes s) = (frame_bytes udp_bytes (rewritten_udp vs us s), Ok tt) /\
  frame_packet_ok udp_bytes udp_packet_ok (rewritten_udp vs us s).
Proof. exact NatProofs.c77_udp. Qed.
Print Assumptions C77_udp.
(** C77: the hypotheses of C77_udp can be met. *)
Example C77_udp_meets :
  exists (E : env) (vs : list v4_setter) (us : list udp_setter) (s : frame_packet udp_packet), frame_packet_ok udp_bytes udp_packet_ok s /\ Forall v4_setter_ok vs /\ Forall udp_setter_ok us /\ (len (udp_bytes (fr_inner s)) mod 2 = 0 \/ cursor_eof E = EofKeep).
Proof. exact WitnessProofs.c77_udp_meets. Qed.
(** C77: whatever the checksums were before, a receiver accepts what comes out. *)
Theorem C77_udp_received : forall E E' vs us s, frame_packet_ok udp_bytes udp_packet_ok s -> Forall v4_setter_ok vs -> Forall udp_setter_ok us ->
  carries_udp s -> Forall keeps_protocol vs ->
  len (udp_bytes (fr_inner s)) mod 2 = 0 \/ (cursor_eof E = EofKeep /\ cursor_eof E' = EofKeep) ->
  receive_udp E' (fst (rewrite_udp E vs us (frame_bytes udp_bytes s))) = Ok true.
Proof. exact NatProofs.c77_udp_received. Qed.
Print Assumptions C77_udp_received.
(** C77: the hypotheses of C77_udp_received can be met. *)
Example C77_udp_received_meets :
  exists (E E' : env) (vs : list v4_setter) (us : list udp_setter) (s : frame_packet udp_packet), frame_packet_ok udp_bytes udp_packet_ok s /\ Forall v4_setter_ok vs /\ Forall udp_setter_ok us /\ carries_udp s /\ Forall keeps_protocol vs /\ (len (udp_bytes (fr_inner s)) mod 2 = 0 \/ (cursor_eof E = EofKeep /\ cursor_eof E' = EofKeep)).
Proof. exact WitnessProofs.c77_udp_received_meets. Qed.
Theorem C77_udp_order : forall E E' us s a, frame_packet_ok udp_bytes udp_packet_ok s -> Forall udp_setter_ok us -> addr_ok a -> carries_udp s ->
  len (udp_bytes (fr_inner s)) mod 2 = 0 \/ (cursor_eof E = EofKeep /\ cursor_eof E' = EofKeep) ->
  (receive_udp E' (fst (rewrite_udp_first E [V4SetSource a] us (frame_bytes udp_bytes s))) = Ok true <->
   word_sum (octets a) mod 65535 = word_sum (octets (vf_src (fr_ip s))) mod 65535).
Proof. exact NatProofs.c77_udp_order. Qed.
Print Assumptions C77_udp_order.
(** C77: the hypotheses of C77_udp_order can be met. *)
Example C77_udp_order_meets :
  exists (E E' : env) (us : list udp_setter) (s : frame_packet udp_packet) (a : ipv4addr), frame_packet_ok udp_bytes udp_packet_ok s /\ Forall udp_setter_ok us /\ addr_ok a /\ carries_udp s /\ (len (udp_bytes (fr_inner s)) mod 2 = 0 \/ (cursor_eof E = EofKeep /\ cursor_eof E' = EofKeep)).
Proof. exact WitnessProofs.c77_udp_order_meets. Qed.
(** C77: translating back gives the frame that was translated, byte for byte, if its checksums were right. *)
Theorem C77_udp_undone : forall E s a port, frame_packet_ok udp_bytes udp_packet_ok s -> addr_ok a -> u16 port ->
  len (udp_bytes (fr_inner s)) mod 2 = 0 \/ cursor_eof E = EofKeep -> summed_udp s ->
  mseq (nat_out_udp E a port) (nat_out_udp E (vf_src (fr_ip s)) (uf_src (up_header (fr_inner s)))) (frame_bytes udp_bytes s) = (frame_bytes udp_bytes s, Ok tt).
Proof. exact NatProofs.c77_udp_undone. Qed.
Print Assumptions C77_udp_undone.
(** C77: the hypotheses of C77_udp_undone can be met. *)
Example C77_udp_undone_meets :
  exists (E : env) (s : frame_packet udp_packet) (a : ipv4addr) (port : N), frame_packet_ok udp_bytes udp_packet_ok s /\ addr_ok a /\ u16 port /\ (len (udp_bytes (fr_inner s)) mod 2 = 0 \/ cursor_eof E = EofKeep) /\ summed_udp s.
Proof. exact WitnessProofs.c77_udp_undone_meets. Qed.
Theorem C77_udp_session : forall E E' s public port private own, frame_packet_ok udp_bytes udp_packet_ok s -> carries_udp s ->
  addr_ok public -> u16 port -> addr_ok private -> u16 own ->
  len (udp_bytes (fr_inner s)) mod 2 = 0 \/ (cursor_eof E = EofKeep /\ cursor_eof E' = EofKeep) ->
  exists r, udp_session E public port private own (frame_bytes udp_bytes s) = (frame_bytes udp_bytes r, Ok tt) /\
    frame_packet_ok udp_bytes udp_packet_ok r /\
    ef_src (fr_ether r) = ef_dst (fr_ether s) /\ ef_dst (fr_ether r) = ef_src (fr_ether s) /\
    vf_src (fr_ip r) = vf_dst (fr_ip s) /\ vf_dst (fr_ip r) = private /\
    uf_src (up_header (fr_inner r)) = uf_dst (up_header (fr_inner s)) /\ uf_dst (up_header (fr_inner r)) = own /\
    up_payload (fr_inner r) = up_payload (fr_inner s) /\
    receive_udp E' (frame_bytes udp_bytes r) = Ok true.
Proof. exact NatProofs.c77_udp_session. Qed.
Print Assumptions C77_udp_session.
(** C77: the hypotheses of C77_udp_session can be met. *)
Example C77_udp_session_meets :
  exists (E E' : env) (s : frame_packet udp_packet) (public : ipv4addr) (port : N) (private : ipv4addr) (own : N), frame_packet_ok udp_bytes udp_packet_ok s /\ carries_udp s /\ addr_ok public /\ u16 port /\ addr_ok private /\ u16 own /\ (len (udp_bytes (fr_inner s)) mod 2 = 0 \/ (cursor_eof E = EofKeep /\ cursor_eof E' = EofKeep)).
Proof. exact WitnessProofs.c77_udp_session_meets. Qed.
(** C77: the translated frame is the frame the sender would have built with that source. *)
Theorem C77_built_udp : forall E E' eops vs us p a port,
  eth_ok (Some eops) -> Forall v4_arg_ok vs -> Forall udp_op_ok us -> one_payload (udp_payloads us) p -> 28 + len p <= 65535 ->
  addr_ok a -> u16 port -> len p mod 2 = 0 \/ (cursor_eof E = EofKeep /\ cursor_eof E' = EofKeep) ->
  exists frame frame',
    udp_chain E (Some eops) vs us dynamic_new = Ok frame /\
    udp_chain E (Some eops) (vs ++ [V4SetSource a]) (us ++ [Builders.UdpSet (UdpSetSource port)]) dynamic_new = Ok frame' /\
    nat_out_udp E' a port frame = (frame', Ok tt).
Proof. exact NatProofs.c77_built_udp. Qed.
Print Assumptions C77_built_udp.
(** C77: the hypotheses of C77_built_udp can be met. *)
Example C77_built_udp_meets :
  exists (E E' : env) (eops : list ether_op) (vs : list v4_setter) (us : list udp_op) (p : bytes) (a : ipv4addr) (port : N), eth_ok (Some eops) /\ Forall v4_arg_ok vs /\ Forall udp_op_ok us /\ one_payload (udp_payloads us) p /\ 28 + len p <= 65535 /\ addr_ok a /\ u16 port /\ (len p mod 2 = 0 \/ (cursor_eof E = EofKeep /\ cursor_eof E' = EofKeep)).
Proof. exact WitnessProofs.c77_built_udp_meets. Qed.
(** C77: ... and on every frame with a TCP segment in it. *)
Theorem C77_tcp : forall E vs ts s, frame_packet_ok tcp_bytes tcp_packet_ok s -> tcp_spoiled (fr_inner s) = false ->
  Forall v4_setter_ok vs -> Forall tcp_setter_ok ts -> Forall (fun o => ~ tcp_is_flags o) ts ->
  len (tcp_bytes (fr_inner s)) mod 2 = 0 \/ cursor_eof E = EofKeep ->
  rewrite_tcp E vs ts (frame_bytes tcp_bytes s) = (frame_bytes tcp_bytes (rewritten_tcp vs ts s), Ok tt) /\
  frame_packet_ok tcp_bytes tcp_packet_ok (rewritten_tcp vs ts s).
Proof. exact NatProofs.c77_tcp. Qed.
Print Assumptions C77_tcp.
(** C77: the hypotheses of C77_tcp can be met. *)
Example C77_tcp_meets :
  exists (E : env) (vs : list v4_setter) (ts : list tcp_setter) (s : frame_packet tcp_packet), frame_packet_ok tcp_bytes tcp_packet_ok s /\ tcp_spoiled (fr_inner s) = false /\ Forall v4_setter_ok vs /\ Forall tcp_setter_ok ts /\ Forall (fun o => ~ tcp_is_flags o) ts /\ (len (tcp_bytes (fr_inner s)) mod 2 = 0 \/ cursor_eof E = EofKeep).
Proof. exact WitnessProofs.c77_tcp_meets. Qed.
(** C77: whatever the checksums were before, a receiver accepts what comes out. *)
Theorem C77_tcp_received : forall E E' vs ts s, frame_packet_ok tcp_bytes tcp_packet_ok s -> Forall v4_setter_ok vs ->
  Forall tcp_setter_ok ts -> Forall (fun o => ~ tcp_is_flags o) ts -> carries_tcp s -> Forall keeps_protocol vs ->
  len (tcp_bytes (fr_inner s)) mod 2 = 0 \/ (cursor_eof E = EofKeep /\ cursor_eof E' = EofKeep) ->
  receive_tcp E' (fst (rewrite_tcp E vs ts (frame_bytes tcp_bytes s))) = Ok true.
Proof. exact NatProofs.c77_tcp_received. Qed.
Print Assumptions C77_tcp_received.
(** C77: the hypotheses of C77_tcp_received can be met. *)
Example C77_tcp_received_meets :
  exists (E E' : env) (vs : list v4_setter) (ts : list tcp_setter) (s : frame_packet tcp_packet), frame_packet_ok tcp_bytes tcp_packet_ok s /\ Forall v4_setter_ok vs /\ Forall tcp_setter_ok ts /\ Forall (fun o => ~ tcp_is_flags o) ts /\ carries_tcp s /\ Forall keeps_protocol vs /\ (len (tcp_bytes (fr_inner s)) mod 2 = 0 \/ (cursor_eof E = EofKeep /\ cursor_eof E' = EofKeep)).
Proof. exact WitnessProofs.c77_tcp_received_meets. Qed.
(** C77: in the wrong order, the frame is accepted only if the old and the new address happen to have the same sum. *)
Theorem C77_tcp_order : forall E E' ts s a, frame_packet_ok tcp_bytes tcp_packet_ok s -> Forall tcp_setter_ok ts -> Forall (fun o => ~ tcp_is_flags o) ts ->
  addr_ok a -> carries_tcp s ->
  len (tcp_bytes (fr_inner s)) mod 2 = 0 \/ (cursor_eof E = EofKeep /\ cursor_eof E' = EofKeep) ->
  (receive_tcp E' (fst (rewrite_tcp_first E [V4SetSource a] ts (frame_bytes tcp_bytes s))) = Ok true <->
   word_sum (octets a) mod 65535 = word_sum (octets (vf_src (fr_ip s))) mod 65535).
Proof. exact NatProofs.c77_tcp_order. Qed.
Print Assumptions C77_tcp_order.
(** C77: the hypotheses of C77_tcp_order can be met. *)
Example C77_tcp_order_meets :
  exists (E E' : env) (ts : list tcp_setter) (s : frame_packet tcp_packet) (a : ipv4addr), frame_packet_ok tcp_bytes tcp_packet_ok s /\ Forall tcp_setter_ok ts /\ Forall (fun o => ~ tcp_is_flags o) ts /\ addr_ok a /\ carries_tcp s /\ (len (tcp_bytes (fr_inner s)) mod 2 = 0 \/ (cursor_eof E = EofKeep /\ cursor_eof E' = EofKeep)).
Proof. exact WitnessProofs.c77_tcp_order_meets. Qed.
(** C77: translating a segment back gives the frame that was translated. *)
Theorem C77_tcp_undone : forall E s a port, frame_packet_ok tcp_bytes tcp_packet_ok s -> tcp_spoiled (fr_inner s) = false -> addr_ok a -> u16 port ->
  len (tcp_bytes (fr_inner s)) mod 2 = 0 \/ cursor_eof E = EofKeep -> summed_tcp s ->
  mseq (nat_out_tcp E a port) (nat_out_tcp E (vf_src (fr_ip s)) (tf_src (tp_header (fr_inner s)))) (frame_bytes tcp_bytes s) = (frame_bytes tcp_bytes s, Ok tt).
Proof. exact NatProofs.c77_tcp_undone. Qed.
Print Assumptions C77_tcp_undone.
(** C77: the hypotheses of C77_tcp_undone can be met. *)
Example C77_tcp_undone_meets :
  exists (E : env) (s : frame_packet tcp_packet) (a : ipv4addr) (port : N), frame_packet_ok tcp_bytes tcp_packet_ok s /\ tcp_spoiled (fr_inner s) = false /\ addr_ok a /\ u16 port /\ (len (tcp_bytes (fr_inner s)) mod 2 = 0 \/ cursor_eof E = EofKeep) /\ summed_tcp s.
Proof. exact WitnessProofs.c77_tcp_undone_meets. Qed.
(** C77: ... and a TCP segment, with its options, sequence and acknowledgment numbers. *)
Theorem C77_tcp_session : forall E E' s public port private own, frame_packet_ok tcp_bytes tcp_packet_ok s -> carries_tcp s ->
  addr_ok public -> u16 port -> addr_ok private -> u16 own ->
  len (tcp_bytes (fr_inner s)) mod 2 = 0 \/ (cursor_eof E = EofKeep /\ cursor_eof E' = EofKeep) ->
  exists r, tcp_session E public port private own (frame_bytes tcp_bytes s) = (frame_bytes tcp_bytes r, Ok tt) /\
    frame_packet_ok tcp_bytes tcp_packet_ok r /\
    ef_src (fr_ether r) = ef_dst (fr_ether s) /\ ef_dst (fr_ether r) = ef_src (fr_ether s) /\
    vf_src (fr_ip r) = vf_dst (fr_ip s) /\ vf_dst (fr_ip r) = private /\
    tf_src (tp_header (fr_inner r)) = tf_dst (tp_header (fr_inner s)) /\ tf_dst (tp_header (fr_inner r)) = own /\
    tf_seq (tp_header (fr_inner r)) = tf_seq (tp_header (fr_inner s)) /\ tf_ack (tp_header (fr_inner r)) = tf_ack (tp_header (fr_inner s)) /\
    tf_flags (tp_header (fr_inner r)) = tf_flags (tp_header (fr_inner s)) /\
    tp_options (fr_inner r) = tp_options (fr_inner s) /\ tp_payload (fr_inner r) = tp_payload (fr_inner s) /\
    receive_tcp E' (frame_bytes tcp_bytes r) = Ok true.
Proof. exact NatProofs.c77_tcp_session. Qed.
Print Assumptions C77_tcp_session.
(** C77: the hypotheses of C77_tcp_session can be met. *)
Example C77_tcp_session_meets :
  exists (E E' : env) (s : frame_packet tcp_packet) (public : ipv4addr) (port : N) (private : ipv4addr) (own : N), frame_packet_ok tcp_bytes tcp_packet_ok s /\ carries_tcp s /\ addr_ok public /\ u16 port /\ addr_ok private /\ u16 own /\ (len (tcp_bytes (fr_inner s)) mod 2 = 0 \/ (cursor_eof E = EofKeep /\ cursor_eof E' = EofKeep)).
Proof. exact WitnessProofs.c77_tcp_session_meets. Qed.
(** C77: ... and for TCP, where flags() may only be called last ([late] holds that call, and the payload). *)
Theorem C77_built_tcp : forall E E' eops vs ts late p a port,
  eth_ok (Some eops) -> Forall v4_arg_ok vs -> Forall tcp_op_ok (ts ++ late) -> flags_last (tcp_setters (ts ++ late)) ->
  Forall tcp_is_flags (tcp_setters late) -> Forall (fun o => ~ tcp_is_flags o) (tcp_setters ts) ->
  one_payload (tcp_payloads (ts ++ late)) p -> 40 + len p <= 65535 ->
  addr_ok a -> u16 port -> len p mod 2 = 0 \/ (cursor_eof E = EofKeep /\ cursor_eof E' = EofKeep) ->
  exists frame frame',
    tcp_chain E (Some eops) vs (ts ++ late) dynamic_new = Ok frame /\
    tcp_chain E (Some eops) (vs ++ [V4SetSource a]) (ts ++ [Builders.TcpSet (TcpSetSource port)] ++ late) dynamic_new = Ok frame' /\
    nat_out_tcp E' a port frame = (frame', Ok tt).
Proof. exact NatProofs.c77_built_tcp. Qed.
Print Assumptions C77_built_tcp.
(** C77: the hypotheses of C77_built_tcp can be met. *)
Example C77_built_tcp_meets :
  exists (E E' : env) (eops : list ether_op) (vs : list v4_setter) (ts late : list tcp_op) (p : bytes) (a : ipv4addr) (port : N), eth_ok (Some eops) /\ Forall v4_arg_ok vs /\ Forall tcp_op_ok (ts ++ late) /\ flags_last (tcp_setters (ts ++ late)) /\ Forall tcp_is_flags (tcp_setters late) /\ Forall (fun o => ~ tcp_is_flags o) (tcp_setters ts) /\ one_payload (tcp_payloads (ts ++ late)) p /\ 40 + len p <= 65535 /\ addr_ok a /\ u16 port /\ (len p mod 2 = 0 \/ (cursor_eof E = EofKeep /\ cursor_eof E' = EofKeep)).
Proof. exact WitnessProofs.c77_built_tcp_meets. Qed.
Example C77_example : forall E,
  let b := [0;35;105;99;89;190; 228;179;24;38;99;163; 8;0; 69;0;0;30;0;0;0;0;64;17;102;205;10;0;0;1;10;0;0;2; 0;53;0;99;0;10;130;214;104;105; 0;0] in
  let bad := [0;35;105;99;89;190; 228;179;24;38;99;163; 8;0; 69;0;0;30;0;0;0;0;64;17;102;205;10;0;0;1;10;0;0;2; 0;53;0;99;0;10;130;214;255;105; 0;0] in
  let public := Ip4 192 0 2 1 in
  receive_udp E b = Ok true /\
  nat_out_udp E public 40000 b =
    ([0;35;105;99;89;190; 228;179;24;38;99;163; 8;0; 69;0;0;30;0;0;0;0;64;17;174;204;192;0;2;1;10;0;0;2; 156;64;0;99;0;10;46;202;104;105; 0;0], Ok tt) /\
  udp_session E public 40000 (Ip4 10 0 0 1) 53 b =
    ([228;179;24;38;99;163; 0;35;105;99;89;190; 8;0; 69;0;0;30;0;0;0;0;64;17;102;205;10;0;0;2;10;0;0;1; 0;99;0;53;0;10;130;214;104;105; 0;0], Ok tt) /\
  receive_udp E (fst (rewrite_udp_first E [V4SetSource public] [UdpSetSource 40000] b)) = Ok false /\
  receive_udp E (fst (rewrite_udp_first E [V4SetSource (Ip4 0 1 10 0)] [UdpSetSource 40000] b)) = Ok true /\
  receive_udp E bad = Ok false /\ receive_udp E (fst (nat_out_udp E public 40000 bad)) = Ok true.
Proof. exact NatProofs.c77_example. Qed.
Theorem C77_udp_alike : forall E E' vs us s, frame_packet_ok udp_bytes udp_packet_ok s -> Forall v4_setter_ok vs -> Forall udp_setter_ok us ->
  carries_udp s -> Forall keeps_protocol vs ->
  exists b v, rewrite_udp E vs us (frame_bytes udp_bytes s) = (b, Ok tt) /\
    receive_udp E' b = Ok v /\ (v = true <-> alike E E' (up_payload (fr_inner s))).
Proof. exact AnyNatProofs.c77_udp_alike. Qed.
Print Assumptions C77_udp_alike.
(** C77: the hypotheses of C77_udp_alike can be met, with either verdict. *)
Example C77_udp_alike_meets :
  (exists (E E' : env) (vs : list v4_setter) (us : list udp_setter) (s : frame_packet udp_packet), cursor_eof E <> cursor_eof E' /\ len (up_payload (fr_inner s)) mod 2 = 1 /\
     frame_packet_ok udp_bytes udp_packet_ok s /\ Forall v4_setter_ok vs /\ Forall udp_setter_ok us /\ carries_udp s /\ Forall keeps_protocol vs /\ alike E E' (up_payload (fr_inner s))) /\
  (exists (E E' : env) (vs : list v4_setter) (us : list udp_setter) (s : frame_packet udp_packet),
     frame_packet_ok udp_bytes udp_packet_ok s /\ Forall v4_setter_ok vs /\ Forall udp_setter_ok us /\ carries_udp s /\ Forall keeps_protocol vs /\ ~ alike E E' (up_payload (fr_inner s))).
Proof. exact WitnessProofs.c77_udp_alike_meets. Qed.
Theorem C77_tcp_odd_refuted : forall E vs ts s, frame_packet_ok tcp_bytes tcp_packet_ok s -> Forall v4_setter_ok vs -> Forall tcp_setter_ok ts ->
  len (tcp_bytes (fr_inner s)) mod 2 = 1 -> cursor_eof E = EofSeek ->
  snd (rewrite_tcp E vs ts (frame_bytes tcp_bytes s)) = Panic.
Proof. exact AnyNatProofs.c77_tcp_odd_refuted. Qed.
Print Assumptions C77_tcp_odd_refuted.
(** C77: the hypotheses of C77_tcp_odd_refuted can be met. *)
Example C77_tcp_odd_refuted_meets :
  exists (E : env) (vs : list v4_setter) (ts : list tcp_setter) (s : frame_packet tcp_packet), frame_packet_ok tcp_bytes tcp_packet_ok s /\ Forall v4_setter_ok vs /\ Forall tcp_setter_ok ts /\
    len (tcp_bytes (fr_inner s)) mod 2 = 1 /\ cursor_eof E = EofSeek.
Proof. exact WitnessProofs.c77_tcp_odd_refuted_meets. Qed.

(** ** C78 *)
Theorem C78_ping_host : forall E me b, is_bytes b ->
  (exists s, pings me b s /\ ping_host E me b = (frame_bytes echo_bytes (answered s), Ok true)) \/
  ((~ exists s, pings me b s) /\ ping_host E me b = (b, Ok false)).
Proof. exact HostProofs.c78_ping_host. Qed.
Print Assumptions C78_ping_host.
(** C78: the hypotheses of C78_ping_host can be met. *)
Example C78_ping_host_meets : exists (b : bytes), is_bytes b.
Proof. exact WitnessProofs.c78_ping_host_meets. Qed.
(** C78: an answer is as long as the request, every build accepts it, and no host answers it. *)
Theorem C78_reply : forall E me b b', is_bytes b -> ping_host E me b = (b', Ok true) ->
  len b' = len b /\ (forall E', receive_echo E' b' = Ok true) /\ (forall E' you, ping_host E' you b' = (b', Ok false)).
Proof. exact HostProofs.c78_reply. Qed.
Print Assumptions C78_reply.
(** C78: the hypotheses of C78_reply can be met. *)
Example C78_reply_meets :
  exists (E : env) (me : ipv4addr) (b b' : bytes), is_bytes b /\ ping_host E me b = (b', Ok true).
Proof. exact WitnessProofs.c78_reply_meets. Qed.
(** C78: a ping through routers to a host that answers, and back. *)
Theorem C78_ping : forall E E' there me back s, pings me (frame_bytes echo_bytes s) s ->
  Forall hop_ok there -> Forall hop_ok back -> N.of_nat (length there) + N.of_nat (length back) < vf_ttl (fr_ip s) ->
  ping E E' there me back (frame_bytes echo_bytes s) = ping_and_back E there back (frame_bytes echo_bytes s) /\
  forall E'', receive_echo E'' (fst (ping E E' there me back (frame_bytes echo_bytes s))) = Ok true.
Proof. exact HostProofs.c78_ping. Qed.
Print Assumptions C78_ping.
(** C78: the hypotheses of C78_ping can be met. *)
Example C78_ping_meets :
  exists (there : list hop) (me : ipv4addr) (back : list hop) (s : frame_packet echo_packet), pings me (frame_bytes echo_bytes s) s /\ Forall hop_ok there /\ Forall hop_ok back /\ N.of_nat (length there) + N.of_nat (length back) < vf_ttl (fr_ip s).
Proof. exact WitnessProofs.c78_ping_meets. Qed.
Theorem C78_echo_service : forall E me port b, is_bytes b -> wire16 b 16 mod 2 = 0 \/ cursor_eof E = EofKeep ->
  (exists s, queries me port b s /\ echo_service E me port b = (frame_bytes udp_bytes (returned s), Ok true)) \/
  ((~ exists s, queries me port b s) /\ echo_service E me port b = (b, Ok false)).
Proof. exact HostProofs.c78_echo_service. Qed.
Print Assumptions C78_echo_service.
(** C78: the hypotheses of C78_echo_service can be met. *)
Example C78_echo_service_meets : exists (E : env) (b : bytes), is_bytes b /\ (wire16 b 16 mod 2 = 0 \/ cursor_eof E = EofKeep).
Proof. exact WitnessProofs.c78_echo_service_meets. Qed.
(** C78: a service's answer is as long as the query and is accepted at the other end. *)
Theorem C78_echo_answer : forall E me port b b', is_bytes b -> wire16 b 16 mod 2 = 0 \/ cursor_eof E = EofKeep ->
  echo_service E me port b = (b', Ok true) ->
  len b' = len b /\ is_bytes b' /\ wire16 b' 16 = wire16 b 16 /\
  (forall E', wire16 b 16 mod 2 = 0 \/ cursor_eof E' = EofKeep -> receive_udp E' b' = Ok true).
Proof. exact HostProofs.c78_echo_answer. Qed.
Print Assumptions C78_echo_answer.
(** C78: the hypotheses of C78_echo_answer can be met. *)
Example C78_echo_answer_meets :
  exists (E : env) (me : ipv4addr) (port : N) (b b' : bytes), is_bytes b /\ (wire16 b 16 mod 2 = 0 \/ cursor_eof E = EofKeep) /\ echo_service E me port b = (b', Ok true).
Proof. exact WitnessProofs.c78_echo_answer_meets. Qed.
Theorem C78_to_and_fro : forall E E' me port you other b s n, is_bytes b ->
  wire16 b 16 mod 2 = 0 \/ (cursor_eof E = EofKeep /\ cursor_eof E' = EofKeep) -> queries me port b s ->
  vf_src (fr_ip s) = you -> uf_src (up_header (fr_inner s)) = other ->
  to_and_fro (echo_service E me port) (echo_service E' you other) n b =
  (if N.of_nat n mod 2 =? 0 then b else frame_bytes udp_bytes (returned s), Ok true).
Proof. exact HostProofs.c78_to_and_fro. Qed.
Print Assumptions C78_to_and_fro.
(** C78: the hypotheses of C78_to_and_fro can be met. *)
Example C78_to_and_fro_meets :
  exists (E E' : env) (me : ipv4addr) (port : N) (you : ipv4addr) (other : N) (b : bytes) (s : frame_packet udp_packet), is_bytes b /\ (wire16 b 16 mod 2 = 0 \/ (cursor_eof E = EofKeep /\ cursor_eof E' = EofKeep)) /\ queries me port b s /\ vf_src (fr_ip s) = you /\ uf_src (up_header (fr_inner s)) = other.
Proof. exact WitnessProofs.c78_to_and_fro_meets. Qed.
Example C78_example : forall E,
  let me := Ip4 10 0 0 2 in
  let ping := [2;0;0;0;0;2; 2;0;0;0;0;1; 8;0; 69;0;0;32;18;52;0;0;6;1;142;167;10;0;0;1;10;0;0;2; 8;0;243;241;0;7;0;1;1;2;3;4] in
  let reply := [2;0;0;0;0;1; 2;0;0;0;0;2; 8;0; 69;0;0;32;18;52;0;0;6;1;142;167;10;0;0;2;10;0;0;1; 0;0;251;241;0;7;0;1;1;2;3;4] in
  let query := [2;0;0;0;0;2; 2;0;0;0;0;1; 8;0; 69;0;0;30;0;0;0;0;64;17;102;205;10;0;0;1;10;0;0;2; 0;7;0;7;0;10;131;96;104;105] in
  let answer := [2;0;0;0;0;1; 2;0;0;0;0;2; 8;0; 69;0;0;30;0;0;0;0;64;17;102;205;10;0;0;2;10;0;0;1; 0;7;0;7;0;10;131;96;104;105] in
  ping_host E me ping = (reply, Ok true) /\ ping_host E (Ip4 10 0 0 1) reply = (reply, Ok false) /\
  ping_host E (Ip4 10 0 0 3) ping = (ping, Ok false) /\ ping_host E me [1; 2; 3] = ([1; 2; 3], Ok false) /\
  echo_service E me 7 query = (answer, Ok true) /\ echo_service E me 8 query = (query, Ok false) /\
  to_and_fro (echo_service E me 7) (echo_service E (Ip4 10 0 0 1) 7) 6 query = (query, Ok true) /\
  to_and_fro (echo_service E me 7) (echo_service E (Ip4 10 0 0 1) 9) 6 query = (answer, Ok false).
Proof. exact HostProofs.c78_example. Qed.
Theorem C78_echo_service_any : forall E me port b, is_bytes b ->
  (exists s, takes E me port b s /\ echo_service E me port b = (frame_bytes udp_bytes (returned s), Ok true)) \/
  ((~ exists s, takes E me port b s) /\ echo_service E me port b = (b, Ok false)).
Proof. exact AnyServiceProofs.c78_echo_service_any. Qed.
Print Assumptions C78_echo_service_any.
(** C78: the hypotheses of C78_echo_service_any can be met, with either outcome. *)
Example C78_echo_service_any_meets :
  (exists (E : env) (me : ipv4addr) (port : N) (b : bytes) (s : frame_packet udp_packet), is_bytes b /\ wire16 b 16 mod 2 = 1 /\ cursor_eof E = EofSeek /\ takes E me port b s) /\
  (exists (E : env) (b : bytes), is_bytes b /\ wire16 b 16 mod 2 = 1 /\ cursor_eof E = EofSeek /\ receive_udp E b = Ok false).
Proof. exact WitnessProofs.c78_echo_service_any_meets. Qed.
(** C78: every receiver, on any build, says of the answer what it says of the query. *)
Theorem C78_answer_received : forall E me port b b', is_bytes b -> echo_service E me port b = (b', Ok true) ->
  forall E', receive_udp E' b' = receive_udp E' b.
Proof. exact AnyServiceProofs.c78_answer_received. Qed.
Print Assumptions C78_answer_received.
(** C78: the hypotheses of C78_answer_received can be met. *)
Example C78_answer_received_meets :
  exists (E : env) (me : ipv4addr) (port : N) (b b' : bytes), is_bytes b /\ echo_service E me port b = (b', Ok true) /\ wire16 b 16 mod 2 = 1.
Proof. exact WitnessProofs.c78_answer_received_meets. Qed.
(** C78: two services, each on its own build, keep a datagram between them going forever as soon as both accept it. *)
Theorem C78_to_and_fro_any : forall E E' me port you other b s n, is_bytes b ->
  takes E me port b s -> receive_udp E' b = Ok true ->
  vf_src (fr_ip s) = you -> uf_src (up_header (fr_inner s)) = other ->
  to_and_fro (echo_service E me port) (echo_service E' you other) n b =
  (if N.of_nat n mod 2 =? 0 then b else frame_bytes udp_bytes (returned s), Ok true).
Proof. exact AnyServiceProofs.c78_to_and_fro_any. Qed.
Print Assumptions C78_to_and_fro_any.
(** C78: the hypotheses of C78_to_and_fro_any can be met, by two standard libraries that differ and a datagram of odd length. *)
Example C78_to_and_fro_any_meets :
  exists (E E' : env) (me : ipv4addr) (port : N) (you : ipv4addr) (other : N) (b : bytes) (s : frame_packet udp_packet), cursor_eof E <> cursor_eof E' /\ wire16 b 16 mod 2 = 1 /\
    is_bytes b /\ takes E me port b s /\ receive_udp E' b = Ok true /\ vf_src (fr_ip s) = you /\ uf_src (up_header (fr_inner s)) = other.
Proof. exact WitnessProofs.c78_to_and_fro_any_meets. Qed.
(** C78: and if the other side does not accept the query, it does not accept the answer either, and leaves it. *)
Theorem C78_one_way : forall E E' me port you other b n, is_bytes b ->
  receive_udp E' b <> Ok true ->
  to_and_fro (echo_service E me port) (echo_service E' you other) (S (S n)) b =
  (fst (echo_service E me port b), Ok false).
Proof. exact AnyServiceProofs.c78_one_way. Qed.
Print Assumptions C78_one_way.
(** C78: the hypotheses of C78_one_way can be met, with a query that the service takes. *)
Example C78_one_way_meets :
  exists (E E' : env) (me : ipv4addr) (port : N) (b b' : bytes), is_bytes b /\ receive_udp E' b <> Ok true /\ echo_service E me port b = (b', Ok true).
Proof. exact WitnessProofs.c78_one_way_meets. Qed.

(** ** C79 *)
Theorem C79_panics : forall E n b, rust_slice b -> (41 <= n)%nat ->
  exists r, dump E n b = Some r /\ (r = Panic <-> crashes b) /\ forall e, r <> Err e.
Proof. exact DumpProofs.c79_panics. Qed.
Print Assumptions C79_panics.
(** C79: the hypotheses of C79_panics can be met. *)
Example C79_panics_meets :
  exists (E : env) (n : nat) (b : bytes), rust_slice b /\ (41 <= n)%nat.
Proof. exact WitnessProofs.c79_panics_meets. Qed.
(** C79: for the other bytes it prints one line for each layer and for each option, in their order. *)
Theorem C79_prints : forall E n b, rust_slice b -> (41 <= n)%nat -> ~ crashes b ->
  exists ls, dump E n b = Some (Ok ls) /\
    (len b < 14 -> ls = []) /\
    (14 <= len b -> exists e, ether_debug b = Ok e /\
      ((~ (exists proto ip body, frame_of 0x0800 proto b ip body) -> ls = [e]) /\
       forall proto ip body, frame_of 0x0800 proto b ip body -> exists i os rest, ls = e :: i :: os ++ rest /\ v4_debug E ip = Ok i /\
         option_lines v4_num (v4opt_as_ref E) v4opt_debug (v4_area ip) os /\ body_lines E proto body rest)).
Proof. exact DumpProofs.c79_prints. Qed.
Print Assumptions C79_prints.
(** C79: the hypotheses of C79_prints can be met. *)
Example C79_prints_meets :
  (exists (E : env) (n : nat) (b : bytes), rust_slice b /\ (41 <= n)%nat /\ ~ crashes b /\ len b < 14) /\
  (exists (E : env) (n : nat) (b : bytes), rust_slice b /\ (41 <= n)%nat /\ ~ crashes b /\ 14 <= len b /\ ~ (exists proto ip body, frame_of 0x0800 proto b ip body)) /\
  (exists (E : env) (n : nat) (b : bytes) (proto : N) (ip body : bytes), rust_slice b /\ (41 <= n)%nat /\ ~ crashes b /\ 14 <= len b /\ frame_of 0x0800 proto b ip body).
Proof. exact WitnessProofs.c79_prints_meets. Qed.
(** C79: a frame around UDP: exactly a fragment that is not the last, and a broken option, crash the program; *)
Theorem C79_udp_frame : forall s, frame_packet_ok udp_bytes udp_packet_ok s -> ef_type (fr_ether s) = 0x0800 -> vf_proto (fr_ip s) = 17 ->
  (crashes (frame_bytes udp_bytes s) <-> vf_mf (fr_ip s) = true \/ broken_area v4_num (fr_options s)).
Proof. exact DumpProofs.c79_udp_frame. Qed.
Print Assumptions C79_udp_frame.
(** C79: the hypotheses of C79_udp_frame can be met. *)
Example C79_udp_frame_meets :
  exists (s : frame_packet udp_packet), frame_packet_ok udp_bytes udp_packet_ok s /\ ef_type (fr_ether s) = 0x0800 /\ vf_proto (fr_ip s) = 17.
Proof. exact WitnessProofs.c79_udp_frame_meets. Qed.
(** C79: around TCP also a broken TCP option, and the data offset that set_flags() leaves behind; *)
Theorem C79_tcp_frame : forall s, frame_packet_ok tcp_bytes tcp_packet_ok s -> ef_type (fr_ether s) = 0x0800 -> vf_proto (fr_ip s) = 6 ->
  (crashes (frame_bytes tcp_bytes s) <->
   vf_mf (fr_ip s) = true \/ broken_area v4_num (fr_options s) \/ tcp_spoiled (fr_inner s) = true \/ broken_area tcp_num (tp_options (fr_inner s))).
Proof. exact DumpProofs.c79_tcp_frame. Qed.
Print Assumptions C79_tcp_frame.
(** C79: the hypotheses of C79_tcp_frame can be met. *)
Example C79_tcp_frame_meets :
  exists (s : frame_packet tcp_packet), frame_packet_ok tcp_bytes tcp_packet_ok s /\ ef_type (fr_ether s) = 0x0800 /\ vf_proto (fr_ip s) = 6.
Proof. exact WitnessProofs.c79_tcp_frame_meets. Qed.
(** C79: around an echo message nothing more than the IPv4 header's. *)
Theorem C79_echo_frame : forall s, frame_packet_ok echo_bytes echo_packet_ok s -> ef_type (fr_ether s) = 0x0800 -> vf_proto (fr_ip s) = 1 ->
  (crashes (frame_bytes echo_bytes s) <-> vf_mf (fr_ip s) = true \/ broken_area v4_num (fr_options s)).
Proof. exact DumpProofs.c79_echo_frame. Qed.
Print Assumptions C79_echo_frame.
(** C79: the hypotheses of C79_echo_frame can be met. *)
Example C79_echo_frame_meets :
  exists (s : frame_packet echo_packet), frame_packet_ok echo_bytes echo_packet_ok s /\ ef_type (fr_ether s) = 0x0800 /\ vf_proto (fr_ip s) = 1.
Proof. exact WitnessProofs.c79_echo_frame_meets. Qed.
(** C79: which bytes crash the program does not depend on the build. *)
Theorem C79_builds : forall E E' n n' b, is_bytes b -> len b < 2 ^ 31 -> (41 <= n)%nat -> (41 <= n')%nat ->
  (dump E n b = Some Panic <-> dump E' n' b = Some Panic).
Proof. exact DumpProofs.c79_builds. Qed.
Print Assumptions C79_builds.
(** C79: the hypotheses of C79_builds can be met. *)
Example C79_builds_meets :
  exists (n n' : nat) (b : bytes), is_bytes b /\ len b < 2 ^ 31 /\ (41 <= n)%nat /\ (41 <= n')%nat.
Proof. exact WitnessProofs.c79_builds_meets. Qed.
Example C79_example : forall E,
  let eth := [1; 1; 1; 1; 1; 1; 2; 2; 2; 2; 2; 2; 8; 0] in
  let ip f p := [70; 0; 0; 32; 0; 0; f; 0; 64; p; 0; 0; 1; 2; 3; 4; 5; 6; 7; 8] in
  let udp := [0; 7; 0; 9; 0; 8; 0; 0] in
  (exists e i u, dump E 41 (eth ++ ip 64 17 ++ [1; 1; 1; 0] ++ udp) =
     Some (Ok [e; i; ShStruct "ip::v4::Option"
        [("is_copied", ShBool false); ("class", ShClass OC_Control); ("number", ShV4Number ON_NoOperation); ("length", ShNum 1); ("payload", ShBytes [1; 1; 0])];
        ShStruct "ip::v4::Option"
        [("is_copied", ShBool false); ("class", ShClass OC_Control); ("number", ShV4Number ON_NoOperation); ("length", ShNum 1); ("payload", ShBytes [1; 0])];
        ShStruct "ip::v4::Option"
        [("is_copied", ShBool false); ("class", ShClass OC_Control); ("number", ShV4Number ON_NoOperation); ("length", ShNum 1); ("payload", ShBytes [0])]; u])%string) /\
  dump E 41 (eth ++ ip 96 17 ++ [1; 1; 1; 0] ++ udp) = Some Panic /\
  dump E 41 (eth ++ ip 64 17 ++ [1; 1; 1; 7] ++ udp) = Some Panic /\
  dump E 41 (eth ++ ip 64 17 ++ [7; 0; 1; 1] ++ udp) = Some Panic /\
  dump E 41 (eth ++ ip 64 17 ++ [7; 9; 1; 1] ++ udp) <> Some Panic.
Proof. exact DumpProofs.c79_example. Qed.

(** ** C80 *)
Theorem C80_tcp_find : forall E w area n, 2 <= w < 256 -> is_bytes area -> (length area < n)%nat ->
  lookup_table tcp_num w area (overflow_checks E) (tcp_find E (tcpopt_number_from w) n area).
Proof. exact FindProofs.c80_tcp_find. Qed.
Print Assumptions C80_tcp_find.
(** C80: the hypotheses of C80_tcp_find can be met. *)
Example C80_tcp_find_meets :
  exists (w : N) (area : bytes) (n : nat), 2 <= w < 256 /\ is_bytes area /\ (length area < n)%nat.
Proof. exact WitnessProofs.c80_tcp_find_meets. Qed.
(** C80: IPv4, where the number is the low five bits of the type. *)
Theorem C80_v4_find : forall E w area n, 2 <= w < 32 -> is_bytes area -> (length area < n)%nat ->
  lookup_table v4_num w area (overflow_checks E) (v4_find E (v4opt_number_from w) n area).
Proof. exact FindProofs.c80_v4_find. Qed.
Print Assumptions C80_v4_find.
(** C80: the hypotheses of C80_v4_find can be met. *)
Example C80_v4_find_meets :
  exists (w : N) (area : bytes) (n : nat), 2 <= w < 32 /\ is_bytes area /\ (length area < n)%nat.
Proof. exact WitnessProofs.c80_v4_find_meets. Qed.
Theorem C80_tcp_hangs : forall E w v area, 2 <= w < 256 -> is_bytes area ->
  overflow_checks E = false -> zero_length tcp_num w v area -> v <> w ->
  forall n, tcp_find E (tcpopt_number_from w) n area = None.
Proof. exact FindProofs.c80_tcp_hangs. Qed.
Print Assumptions C80_tcp_hangs.
(** C80: the hypotheses of C80_tcp_hangs can be met. *)
Example C80_tcp_hangs_meets :
  exists (E : env) (w v : N) (area : bytes), 2 <= w < 256 /\ is_bytes area /\ overflow_checks E = false /\ zero_length tcp_num w v area /\ v <> w.
Proof. exact WitnessProofs.c80_tcp_hangs_meets. Qed.
(** C80: IPv4. *)
Theorem C80_v4_hangs : forall E w v area, 2 <= w < 32 -> is_bytes area ->
  overflow_checks E = false -> zero_length v4_num w v area -> v <> w ->
  forall n, v4_find E (v4opt_number_from w) n area = None.
Proof. exact FindProofs.c80_v4_hangs. Qed.
Print Assumptions C80_v4_hangs.
(** C80: the hypotheses of C80_v4_hangs can be met. *)
Example C80_v4_hangs_meets :
  exists (E : env) (w v : N) (area : bytes), 2 <= w < 32 /\ is_bytes area /\ overflow_checks E = false /\ zero_length v4_num w v area /\ v <> w.
Proof. exact WitnessProofs.c80_v4_hangs_meets. Qed.
Theorem C80_tcp_packet : forall E w p n, 2 <= w < 256 -> rust_slice p -> tcp_new p = Ok p -> (41 <= n)%nat ->
  (nthN p 12 / 16 < 5 -> tcp_lookup E (tcpopt_number_from w) n p = Some Panic) /\
  (5 <= nthN p 12 / 16 -> lookup_table tcp_num w (tcp_area p) (overflow_checks E) (tcp_lookup E (tcpopt_number_from w) n p)).
Proof. exact FindProofs.c80_tcp_packet. Qed.
Print Assumptions C80_tcp_packet.
(** C80: the hypotheses of C80_tcp_packet can be met. *)
Example C80_tcp_packet_meets :
  (exists (E : env) (w : N) (p : bytes) (n : nat), 2 <= w < 256 /\ rust_slice p /\ tcp_new p = Ok p /\ (41 <= n)%nat /\ nthN p 12 / 16 < 5) /\
  (exists (E : env) (w : N) (p : bytes) (n : nat), 2 <= w < 256 /\ rust_slice p /\ tcp_new p = Ok p /\ (41 <= n)%nat /\ 5 <= nthN p 12 / 16).
Proof. exact WitnessProofs.c80_tcp_packet_meets. Qed.
(** C80: IPv4, where the header length is what has to be at least 5. *)
Theorem C80_v4_packet : forall E w p n, 2 <= w < 32 -> rust_slice p -> v4_new p = Ok p -> (41 <= n)%nat ->
  (nthN p 0 mod 16 < 5 -> v4_lookup E (v4opt_number_from w) n p = Some Panic) /\
  (5 <= nthN p 0 mod 16 -> lookup_table v4_num w (v4_area p) (overflow_checks E) (v4_lookup E (v4opt_number_from w) n p)).
Proof. exact FindProofs.c80_v4_packet. Qed.
Print Assumptions C80_v4_packet.
(** C80: the hypotheses of C80_v4_packet can be met. *)
Example C80_v4_packet_meets :
  (exists (E : env) (w : N) (p : bytes) (n : nat), 2 <= w < 32 /\ rust_slice p /\ v4_new p = Ok p /\ (41 <= n)%nat /\ nthN p 0 mod 16 < 5) /\
  (exists (E : env) (w : N) (p : bytes) (n : nat), 2 <= w < 32 /\ rust_slice p /\ v4_new p = Ok p /\ (41 <= n)%nat /\ 5 <= nthN p 0 mod 16).
Proof. exact WitnessProofs.c80_v4_packet_meets. Qed.
Theorem C80_tcp_present : forall E f pre k d post t payload n, tcp_fields_ok f ->
  is_bytes (opts_wire (pre ++ Opt k d :: post) ++ t) -> Forall tcp_opt_ok (pre ++ [Opt k d]) -> (forall d', ~ In (Opt k d') pre) ->
  tf_offset f * 4 = 20 + len (opts_wire (pre ++ Opt k d :: post) ++ t) -> (41 <= n)%nat ->
  tcp_lookup E (tcpopt_number_from k) n (tcp_wire f ++ (opts_wire (pre ++ Opt k d :: post) ++ t) ++ payload) = Some (Ok (Some d)).
Proof. exact FindProofs.c80_tcp_present. Qed.
Print Assumptions C80_tcp_present.
(** C80: the hypotheses of C80_tcp_present can be met. *)
Example C80_tcp_present_meets :
  exists (f : tcp_fields) (pre : list opt) (k : N) (d : bytes) (post : list opt) (t : bytes) (n : nat), tcp_fields_ok f /\
  is_bytes (opts_wire (pre ++ Opt k d :: post) ++ t) /\ Forall tcp_opt_ok (pre ++ [Opt k d]) /\ (forall d', ~ In (Opt k d') pre) /\
  tf_offset f * 4 = 20 + len (opts_wire (pre ++ Opt k d :: post) ++ t) /\ (41 <= n)%nat.
Proof. exact WitnessProofs.c80_tcp_present_meets. Qed.
(** C80: and None if there is none with that kind. *)
Theorem C80_tcp_absent : forall E f os w t payload n, tcp_fields_ok f -> 2 <= w < 256 ->
  is_bytes (opts_wire os ++ t) -> Forall tcp_opt_ok os -> opt_end t -> (forall d, ~ In (Opt w d) os) ->
  tf_offset f * 4 = 20 + len (opts_wire os ++ t) -> (41 <= n)%nat ->
  tcp_lookup E (tcpopt_number_from w) n (tcp_wire f ++ (opts_wire os ++ t) ++ payload) = Some (Ok None).
Proof. exact FindProofs.c80_tcp_absent. Qed.
Print Assumptions C80_tcp_absent.
(** C80: the hypotheses of C80_tcp_absent can be met. *)
Example C80_tcp_absent_meets :
  exists (f : tcp_fields) (os : list opt) (w : N) (t : bytes) (n : nat), tcp_fields_ok f /\ 2 <= w < 256 /\
  is_bytes (opts_wire os ++ t) /\ Forall tcp_opt_ok os /\ opt_end t /\ (forall d, ~ In (Opt w d) os) /\
  tf_offset f * 4 = 20 + len (opts_wire os ++ t) /\ (41 <= n)%nat.
Proof. exact WitnessProofs.c80_tcp_absent_meets. Qed.
(** C80: IPv4: the first option with that number, whatever its copied flag and class. *)
Theorem C80_v4_present : forall E f pre k d post t payload trailer n, v4_fields_ok f -> vf_version f = 4 ->
  is_bytes (opts_wire (pre ++ Opt k d :: post) ++ t) -> Forall v4_opt_ok (pre ++ [Opt k d]) ->
  (forall k' d', In (Opt k' d') pre -> k' mod 32 <> k mod 32) ->
  vf_ihl f * 4 = 20 + len (opts_wire (pre ++ Opt k d :: post) ++ t) ->
  vf_total f = 20 + len (opts_wire (pre ++ Opt k d :: post) ++ t) + len payload -> (41 <= n)%nat ->
  v4_lookup E (v4opt_number_from (k mod 32)) n (v4_wire f ++ (opts_wire (pre ++ Opt k d :: post) ++ t) ++ payload ++ trailer) = Some (Ok (Some d)).
Proof. exact FindProofs.c80_v4_present. Qed.
Print Assumptions C80_v4_present.
(** C80: the hypotheses of C80_v4_present can be met. *)
Example C80_v4_present_meets :
  exists (f : v4_fields) (pre : list opt) (k : N) (d : bytes) (post : list opt) (t payload : bytes) (n : nat), v4_fields_ok f /\ vf_version f = 4 /\
  is_bytes (opts_wire (pre ++ Opt k d :: post) ++ t) /\ Forall v4_opt_ok (pre ++ [Opt k d]) /\
  (forall k' d', In (Opt k' d') pre -> k' mod 32 <> k mod 32) /\
  vf_ihl f * 4 = 20 + len (opts_wire (pre ++ Opt k d :: post) ++ t) /\
  vf_total f = 20 + len (opts_wire (pre ++ Opt k d :: post) ++ t) + len payload /\ (41 <= n)%nat.
Proof. exact WitnessProofs.c80_v4_present_meets. Qed.
(** C80: IPv4, None if there is none. *)
Theorem C80_v4_absent : forall E f os w t payload trailer n, v4_fields_ok f -> vf_version f = 4 -> 2 <= w < 32 ->
  is_bytes (opts_wire os ++ t) -> Forall v4_opt_ok os -> opt_end t -> (forall k d, In (Opt k d) os -> k mod 32 <> w) ->
  vf_ihl f * 4 = 20 + len (opts_wire os ++ t) -> vf_total f = 20 + len (opts_wire os ++ t) + len payload -> (41 <= n)%nat ->
  v4_lookup E (v4opt_number_from w) n (v4_wire f ++ (opts_wire os ++ t) ++ payload ++ trailer) = Some (Ok None).
Proof. exact FindProofs.c80_v4_absent. Qed.
Print Assumptions C80_v4_absent.
(** C80: the hypotheses of C80_v4_absent can be met. *)
Example C80_v4_absent_meets :
  exists (f : v4_fields) (os : list opt) (w : N) (t payload : bytes) (n : nat), v4_fields_ok f /\ vf_version f = 4 /\ 2 <= w < 32 /\
  is_bytes (opts_wire os ++ t) /\ Forall v4_opt_ok os /\ opt_end t /\ (forall k d, In (Opt k d) os -> k mod 32 <> w) /\
  vf_ihl f * 4 = 20 + len (opts_wire os ++ t) /\ vf_total f = 20 + len (opts_wire os ++ t) + len payload /\ (41 <= n)%nat.
Proof. exact WitnessProofs.c80_v4_absent_meets. Qed.
Example C80_example : forall E,
  tcp_find E TN_MaximumSegmentSize 41 [2; 4; 5; 180] = Some (Ok (Some [5; 180])) /\
  tcp_find E TN_WindowScale 41 [2; 4; 5; 180; 1; 3; 3; 7; 3; 3; 9] = Some (Ok (Some [7])) /\
  tcp_find E TN_WindowScale 41 [2; 4; 5; 180; 0; 3; 3; 7] = Some (Ok None) /\
  tcp_find E TN_MaximumSegmentSize 41 [2; 1; 5; 180] = Some (Ok (Some [1; 5; 180])) /\
  tcp_find E TN_MaximumSegmentSize 41 [3; 9; 5; 180] = Some (Err SmallBuffer) /\
  tcp_find E TN_MaximumSegmentSize 41 [1; 3] = Some Panic /\
  tcp_find E TN_MaximumSegmentSize 41 [3; 0; 5; 180] = (if overflow_checks E then Some Panic else None) /\
  zero_length tcp_num 2 3 [3; 0; 5; 180] /\
  v4_find E (v4opt_number_from 20) 41 [1; 130; 3; 9; 148; 4; 0; 0] = Some (Ok (Some [0; 0])).
Proof. exact FindProofs.c80_example. Qed.

(** ** C81 *)
(** C81: the tolerant program names a flow exactly when the message is one of the five errors, the quoted header is all there, the quoted protocol is UDP or TCP and at least the four bytes with the ports are quoted; the flow is what the bytes say. *)
Theorem C81_tolerant : forall m fl, is_bytes m ->
  (tolerant m = Ok fl <-> exists h, names m h fl /\ 4 <= len (quoted_body m h)).
Proof. exact BlameProofs.c81_tolerant. Qed.
Print Assumptions C81_tolerant.
(** C81: the hypotheses of C81_tolerant can be met. *)
Example C81_tolerant_meets : exists (m : bytes) (fl : flow), is_bytes m.
Proof. exact WitnessProofs.c81_tolerant_meets. Qed.
(** C81: the strict program needs more: the whole quoted datagram, and in it a whole UDP datagram or a whole TCP header. *)
Theorem C81_strict : forall m fl, is_bytes m ->
  (strict m = Ok fl <-> exists h, names m h fl /\ 8 + wire16 m 10 <= len m /\
     (fl_proto fl = IP_Udp -> udp_fits (quoted_body m h)) /\ (fl_proto fl = IP_Tcp -> tcp_fits (quoted_body m h))).
Proof. exact BlameProofs.c81_strict. Qed.
Print Assumptions C81_strict.
(** C81: the hypotheses of C81_strict can be met. *)
Example C81_strict_meets : exists (m : bytes) (fl : flow), is_bytes m.
Proof. exact WitnessProofs.c81_strict_meets. Qed.
(** C81: neither ever panics, and each error says whether bytes are missing or the message is not of the kind. *)
Theorem C81_total : forall m, is_bytes m ->
  In (strict m) [Err SmallBuffer; Err InvalidPacket] \/ (exists fl, strict m = Ok fl /\ tolerant m = Ok fl).
Proof. exact BlameProofs.c81_total. Qed.
Print Assumptions C81_total.
(** C81: the hypotheses of C81_total can be met. *)
Example C81_total_meets : exists m : bytes, is_bytes m.
Proof. exact WitnessProofs.c81_total_meets. Qed.
Theorem C81_tolerant_total : forall m, is_bytes m ->
  In (tolerant m) [Err SmallBuffer; Err InvalidPacket] \/ (exists fl, tolerant m = Ok fl).
Proof. exact BlameProofs.c81_tolerant_total. Qed.
Print Assumptions C81_tolerant_total.
(** C81: the hypotheses of C81_tolerant_total can be met. *)
Example C81_tolerant_total_meets : exists m : bytes, is_bytes m.
Proof. exact WitnessProofs.c81_tolerant_total_meets. Qed.
(** C81: an error about a UDP datagram: the tolerant program finds the sender's own addresses and ports as soon as four bytes of the body are quoted; the strict one only when all of it is. *)
Theorem C81_udp : forall c four f options u payload n,
  icmp_fields_ok c -> error_type (cf_type c) -> len four = 4 -> is_bytes four -> is_bytes options -> is_bytes payload ->
  udp_fields_ok u -> uf_length u = 8 + len payload -> sent_ok f options (udp_wire u ++ payload) -> vf_proto f = 17 ->
  let m := error_message c four f options (udp_wire u ++ payload) n in
  let fl := flow_of IP_Udp f (uf_src u) (uf_dst u) in
  (4 <= n -> tolerant m = Ok fl) /\ (n < 4 -> tolerant m = Err SmallBuffer) /\
  (8 + len payload <= n -> strict m = Ok fl) /\ (n < 8 + len payload -> strict m = Err SmallBuffer).
Proof. exact BlameProofs.c81_udp. Qed.
Print Assumptions C81_udp.
(** C81: the hypotheses of C81_udp can be met. *)
Example C81_udp_meets :
  exists (c : icmp_fields) (four : bytes) (f : v4_fields) (options : bytes) (u : udp_fields) (payload : bytes) (n : N),
  icmp_fields_ok c /\ error_type (cf_type c) /\ len four = 4 /\ is_bytes four /\ is_bytes options /\ is_bytes payload /\
  udp_fields_ok u /\ uf_length u = 8 + len payload /\ sent_ok f options (udp_wire u ++ payload) /\ vf_proto f = 17 /\ 4 <= n /\ n < 8 + len payload.
Proof. exact WitnessProofs.c81_udp_meets. Qed.
(** C81: an error about a TCP segment: the same, whatever options the segment has. *)
Theorem C81_tcp : forall c four f options t topts payload n,
  icmp_fields_ok c -> error_type (cf_type c) -> len four = 4 -> is_bytes four -> is_bytes options -> is_bytes topts -> is_bytes payload ->
  tcp_fields_ok t -> tf_offset t * 4 = 20 + len topts -> sent_ok f options (tcp_wire t ++ topts ++ payload) -> vf_proto f = 6 ->
  let m := error_message c four f options (tcp_wire t ++ topts ++ payload) n in
  let fl := flow_of IP_Tcp f (tf_src t) (tf_dst t) in
  (4 <= n -> tolerant m = Ok fl) /\ (n < 4 -> tolerant m = Err SmallBuffer) /\
  (20 + len topts + len payload <= n -> strict m = Ok fl) /\ (n < 20 + len topts + len payload -> strict m = Err SmallBuffer).
Proof. exact BlameProofs.c81_tcp. Qed.
Print Assumptions C81_tcp.
(** C81: the hypotheses of C81_tcp can be met. *)
Example C81_tcp_meets :
  exists (c : icmp_fields) (four : bytes) (f : v4_fields) (options : bytes) (t : tcp_fields) (topts payload : bytes) (n : N),
  icmp_fields_ok c /\ error_type (cf_type c) /\ len four = 4 /\ is_bytes four /\ is_bytes options /\ is_bytes topts /\ is_bytes payload /\
  tcp_fields_ok t /\ tf_offset t * 4 = 20 + len topts /\ sent_ok f options (tcp_wire t ++ topts ++ payload) /\ vf_proto f = 6 /\
  4 <= n /\ n < 20 + len topts + len payload.
Proof. exact WitnessProofs.c81_tcp_meets. Qed.
(** C81: port unreachable about a UDP datagram of twelve bytes: with RFC 792's eight bytes of it quoted packet() refuses the message, yet the ports can be had; with all of it both programs name it; with a header of 24 bytes the ports are four further on. *)
Example C81_example :
  let ip := [69;0;0;32;18;52;0;0;64;17;84;151;10;0;0;1;10;0;0;2] in
  let udp := [20;233;0;53;0;12;210;175;1;2;3;4] in
  let icmp := [3;3;0;0;0;0;0;0] in
  let fl := {| fl_proto := IP_Udp; fl_src := Ip4 10 0 0 1; fl_dst := Ip4 10 0 0 2; fl_sport := 5353; fl_dport := 53 |} in
  strict (icmp ++ ip ++ takeN 8 udp) = Err SmallBuffer /\ tolerant (icmp ++ ip ++ takeN 8 udp) = Ok fl /\
  strict (icmp ++ ip ++ udp) = Ok fl /\ tolerant (icmp ++ ip ++ takeN 3 udp) = Err SmallBuffer /\
  tolerant ([8] ++ dropN 1 icmp ++ ip ++ udp) = Err InvalidPacket /\
  (let ip' := [70;0;0;36;18;52;0;0;64;17;84;151;10;0;0;1;10;0;0;2;7;3;4;0] in
   strict (icmp ++ ip' ++ udp) = Ok fl /\ tolerant (icmp ++ ip' ++ takeN 4 udp) = Ok fl).
Proof. exact BlameProofs.c81_example. Qed.

(** ** C82 *)
(** C82: the receiving program returns a segment exactly for the frames an RFC 793 receiver accepts (with C72's exceptions), and then the one in the frame. *)
Theorem C82_receive : forall E b g, is_bytes b -> wire16 b 16 mod 2 = 0 \/ cursor_eof E = EofKeep ->
  (receive E b = Ok (Some g) <->
   exists s, rfc_tcp b s /\ vf_checksum (fr_ip s) <> 65535 /\ tf_checksum (tp_header (fr_inner s)) <> 65535 /\ g = described s).
Proof. exact ShakeProofs.c82_receive. Qed.
Print Assumptions C82_receive.
(** C82: the hypotheses of C82_receive can be met. *)
Example C82_receive_meets : exists (E : env) (b : bytes) (g : segment), is_bytes b /\ (wire16 b 16 mod 2 = 0 \/ cursor_eof E = EofKeep).
Proof. exact WitnessProofs.c82_receive_meets. Qed.
(** C82: it never fails on any bytes. *)
Theorem C82_receive_total : forall E b, is_bytes b -> wire16 b 16 mod 2 = 0 \/ cursor_eof E = EofKeep -> exists o, receive E b = Ok o.
Proof. exact ShakeProofs.c82_receive_total. Qed.
Print Assumptions C82_receive_total.
(** C82: the hypotheses of C82_receive_total can be met. *)
Example C82_receive_total_meets : exists (E : env) (b : bytes), is_bytes b /\ (wire16 b 16 mod 2 = 0 \/ cursor_eof E = EofKeep).
Proof. exact WitnessProofs.c82_receive_total_meets. Qed.
(** C82: what one program sends the other receives, field for field. *)
Theorem C82_send : forall E E' g, segment_ok g -> len (sg_data g) mod 2 = 0 \/ (cursor_eof E = EofKeep /\ cursor_eof E' = EofKeep) ->
  exists b, send E g = Ok b /\ is_bytes b /\ receive E' b = Ok (Some g).
Proof. exact ShakeProofs.c82_send. Qed.
Print Assumptions C82_send.
(** C82: the hypotheses of C82_send can be met. *)
Example C82_send_meets : exists (E E' : env) (g : segment), segment_ok g /\ (len (sg_data g) mod 2 = 0 \/ (cursor_eof E = EofKeep /\ cursor_eof E' = EofKeep)).
Proof. exact WitnessProofs.c82_send_meets. Qed.
(** C82: across any number of routers (fewer than the 64 the TTL allows) and translators, in any order, a segment arrives with the data, sequence numbers and flags it was sent with. *)
Theorem C82_way : forall E Er E' steps g, segment_ok g -> Forall step_ok steps -> (hops steps < 64)%nat ->
  len (sg_data g) mod 2 = 0 \/ (cursor_eof E = EofKeep /\ cursor_eof Er = EofKeep /\ cursor_eof E' = EofKeep) ->
  exists b b', send E g = Ok b /\ way Er steps b = (b', Ok tt) /\ is_bytes b' /\ receive E' b' = Ok (Some (arrives steps g)).
Proof. exact ShakeProofs.c82_way. Qed.
Print Assumptions C82_way.
(** C82: the hypotheses of C82_way can be met. *)
Example C82_way_meets : exists (E Er E' : env) (steps : list middlebox) (g : segment), segment_ok g /\ Forall step_ok steps /\ (hops steps < 64)%nat /\
  (len (sg_data g) mod 2 = 0 \/ (cursor_eof E = EofKeep /\ cursor_eof Er = EofKeep /\ cursor_eof E' = EofKeep)).
Proof. exact WitnessProofs.c82_way_meets. Qed.
(** C82: the listening program never fails on any bytes, and answers exactly the frames that hold, for an RFC 793 receiver, a segment for its address and port with SYN alone set. *)
Theorem C82_listen : forall E me isn window b, is_bytes b -> wire16 b 16 mod 2 = 0 \/ cursor_eof E = EofKeep -> u32 isn -> u16 window ->
  (exists o, listen E me isn window b = Ok o) /\
  forall b', listen E me isn window b = Ok (Some b') <->
    exists s, rfc_tcp b s /\ vf_checksum (fr_ip s) <> 65535 /\ tf_checksum (tp_header (fr_inner s)) <> 65535 /\
      (vf_dst (fr_ip s) = at_ip me /\ tf_dst (tp_header (fr_inner s)) = at_port me /\ tf_flags (tp_header (fr_inner s)) = SYN) /\
      send E (answering (described s) isn SYN_ACK window []) = Ok b'.
Proof. exact ShakeProofs.c82_listen. Qed.
Print Assumptions C82_listen.
(** C82: the hypotheses of C82_listen can be met. *)
Example C82_listen_meets : exists (E : env) (me : endpoint) (isn window : N) (b : bytes), is_bytes b /\ (wire16 b 16 mod 2 = 0 \/ cursor_eof E = EofKeep) /\ u32 isn /\ u16 window.
Proof. exact WitnessProofs.c82_listen_meets. Qed.
(** C82: the connecting program never fails either, and confirms exactly the segments from the peer to it with SYN and ACK alone set that acknowledge its own sequence number plus one. *)
Theorem C82_confirm : forall E me peer isn window data b, is_bytes b -> wire16 b 16 mod 2 = 0 \/ cursor_eof E = EofKeep -> u16 window ->
  is_bytes data -> 40 + len data <= 65535 -> len data mod 2 = 0 \/ cursor_eof E = EofKeep ->
  (exists o, confirm E me peer isn window data b = Ok o) /\
  forall b', confirm E me peer isn window data b = Ok (Some b') <->
    exists s, rfc_tcp b s /\ vf_checksum (fr_ip s) <> 65535 /\ tf_checksum (tp_header (fr_inner s)) <> 65535 /\
      (vf_dst (fr_ip s) = at_ip me /\ tf_dst (tp_header (fr_inner s)) = at_port me /\ vf_src (fr_ip s) = at_ip peer /\ tf_src (tp_header (fr_inner s)) = at_port peer /\
       tf_flags (tp_header (fr_inner s)) = SYN_ACK /\ tf_ack (tp_header (fr_inner s)) = succ32 isn) /\
      send E (answering (described s) (succ32 isn) ACK window data) = Ok b'.
Proof. exact ShakeProofs.c82_confirm. Qed.
Print Assumptions C82_confirm.
(** C82: the hypotheses of C82_confirm can be met. *)
Example C82_confirm_meets : exists (E : env) (me peer : endpoint) (isn window : N) (data b : bytes), is_bytes b /\ (wire16 b 16 mod 2 = 0 \/ cursor_eof E = EofKeep) /\ u16 window /\
  is_bytes data /\ 40 + len data <= 65535 /\ (len data mod 2 = 0 \/ cursor_eof E = EofKeep).
Proof. exact WitnessProofs.c82_confirm_meets. Qed.
(** C82: and the listening program accepts exactly the segments for it with ACK alone set that acknowledge its own sequence number plus one, never failing. *)
Theorem C82_accept : forall E me isn b, is_bytes b -> wire16 b 16 mod 2 = 0 \/ cursor_eof E = EofKeep ->
  (exists o, accept E me isn b = Ok o) /\
  forall a port seq data, accept E me isn b = Ok (Some (a, port, seq, data)) <->
    exists s, rfc_tcp b s /\ vf_checksum (fr_ip s) <> 65535 /\ tf_checksum (tp_header (fr_inner s)) <> 65535 /\
      vf_dst (fr_ip s) = at_ip me /\ tf_dst (tp_header (fr_inner s)) = at_port me /\
      tf_flags (tp_header (fr_inner s)) = ACK /\ tf_ack (tp_header (fr_inner s)) = succ32 isn /\
      vf_src (fr_ip s) = a /\ tf_src (tp_header (fr_inner s)) = port /\ tf_seq (tp_header (fr_inner s)) = seq /\ tp_payload (fr_inner s) = data.
Proof. exact ShakeProofs.c82_accept. Qed.
Print Assumptions C82_accept.
(** C82: the hypotheses of C82_accept can be met. *)
Example C82_accept_meets : exists (E : env) (me : endpoint) (isn : N) (b : bytes), is_bytes b /\ (wire16 b 16 mod 2 = 0 \/ cursor_eof E = EofKeep).
Proof. exact WitnessProofs.c82_accept_meets. Qed.
Theorem C82_handshake : forall E E' Er Er' forth back client peer server x isn isn' w w' data,
  endpoint_ok client -> endpoint_ok peer -> endpoint_ok server -> u32 isn -> u32 isn' -> u16 w -> u16 w' -> is_bytes data -> 40 + len data <= 65535 ->
  len data mod 2 = 0 \/ (cursor_eof E = EofKeep /\ cursor_eof Er = EofKeep /\ cursor_eof E' = EofKeep) ->
  Forall step_ok forth -> (hops forth < 64)%nat -> Forall step_ok back -> (hops back < 64)%nat ->
  delivers forth (end_of client) (end_of peer) x (end_of server) -> delivers back (end_of server) x (end_of peer) (end_of client) ->
  exists syn syn' syn_ack syn_ack' ack ack',
    connect E client peer isn w = Ok syn /\ way Er forth syn = (syn', Ok tt) /\
    listen E' server isn' w' syn' = Ok (Some syn_ack) /\ way Er' back syn_ack = (syn_ack', Ok tt) /\
    confirm E client peer isn w data syn_ack' = Ok (Some ack) /\ way Er forth ack = (ack', Ok tt) /\
    accept E' server isn' ack' = Ok (Some (fst x, snd x, succ32 isn, data)).
Proof. exact ShakeProofs.c82_handshake. Qed.
Print Assumptions C82_handshake.
(** C82: the hypotheses of C82_handshake can be met. *)
Example C82_handshake_meets :
  exists (E E' Er Er' : env) (forth back : list middlebox) (client peer server : endpoint) (x : ipv4addr * N) (isn isn' w w' : N) (data : bytes),
  endpoint_ok client /\ endpoint_ok peer /\ endpoint_ok server /\ u32 isn /\ u32 isn' /\ u16 w /\ u16 w' /\ is_bytes data /\ 40 + len data <= 65535 /\
  (len data mod 2 = 0 \/ (cursor_eof E = EofKeep /\ cursor_eof Er = EofKeep /\ cursor_eof E' = EofKeep)) /\
  Forall step_ok forth /\ (hops forth < 64)%nat /\ Forall step_ok back /\ (hops back < 64)%nat /\
  delivers forth (end_of client) (end_of peer) x (end_of server) /\ delivers back (end_of server) x (end_of peer) (end_of client).
Proof. exact WitnessProofs.c82_handshake_meets. Qed.
Example C82_example_ways : Forall step_ok x_forth /\ Forall step_ok x_back /\ hops x_forth = 2%nat /\ hops x_back = 2%nat /\
  delivers x_forth (end_of x_client) (end_of x_peer) x_outside (end_of x_server) /\ delivers x_back (end_of x_server) x_outside (end_of x_peer) (end_of x_client).
Proof. exact ShakeProofs.c82_example_ways. Qed.
Example C82_example : forall E, exists syn syn_ack ack,
  connect E x_client x_peer 4294967295 1000 = Ok syn /\
  listen E x_server 7 2000 (fst (way E x_forth syn)) = Ok (Some syn_ack) /\
  confirm E x_client x_peer 4294967295 1000 [1; 2; 3; 4] (fst (way E x_back syn_ack)) = Ok (Some ack) /\
  accept E x_server 7 (fst (way E x_forth ack)) = Ok (Some (fst x_outside, snd x_outside, 0, [1; 2; 3; 4])).
Proof. exact ShakeProofs.c82_example. Qed.
Example C82_example_refused : forall E, exists syn syn_ack,
  connect E x_client x_peer 5 1000 = Ok syn /\ listen E x_server 7 2000 (fst (way E x_forth syn)) = Ok (Some syn_ack) /\
  confirm E x_client x_peer 4 1000 [] (fst (way E x_back syn_ack)) = Ok None /\
  confirm E x_client x_server 5 1000 [] (fst (way E x_back syn_ack)) = Ok None /\
  confirm E x_client x_peer 5 1000 [] syn_ack = Ok None /\ accept E x_server 7 (fst (way E x_forth syn)) = Ok None.
Proof. exact ShakeProofs.c82_example_refused. Qed.

(** ** C83 *)
Theorem C83_damage_refused : forall E b g i v, is_bytes b -> wire16 b 16 mod 2 = 0 \/ cursor_eof E = EofKeep ->
  receive E b = Ok (Some g) -> covered b i -> u8 v -> v <> nthN b i -> receive E (alter b i v) = Ok None.
Proof. exact StreamProofs.c83_damage_refused. Qed.
Print Assumptions C83_damage_refused.
(** C83: the hypotheses of C83_damage_refused can be met. *)
Example C83_damage_refused_meets : exists (E : env) (b : bytes) (g : segment) (i v : N), is_bytes b /\ (wire16 b 16 mod 2 = 0 \/ cursor_eof E = EofKeep) /\
  receive E b = Ok (Some g) /\ covered b i /\ u8 v /\ v <> nthN b i.
Proof. exact WitnessProofs.c83_damage_refused_meets. Qed.
(** C83: and where it is changed before or behind that, the segment is received as before, but for the MAC addresses. *)
Theorem C83_damage_harmless : forall E b g i v, is_bytes b -> wire16 b 16 mod 2 = 0 \/ cursor_eof E = EofKeep ->
  receive E b = Ok (Some g) -> i < len b -> ~ covered b i -> u8 v ->
  exists g', receive E (alter b i v) = Ok (Some g') /\ same_but_macs g g'.
Proof. exact StreamProofs.c83_damage_harmless. Qed.
Print Assumptions C83_damage_harmless.
(** C83: the hypotheses of C83_damage_harmless can be met. *)
Example C83_damage_harmless_meets : exists (E : env) (b : bytes) (g : segment) (i v : N), is_bytes b /\ (wire16 b 16 mod 2 = 0 \/ cursor_eof E = EofKeep) /\
  receive E b = Ok (Some g) /\ i < len b /\ ~ covered b i /\ u8 v.
Proof. exact WitnessProofs.c83_damage_harmless_meets. Qed.
Theorem C83_stream : forall Es E from to me peer seq ack window chunks arrived, endpoint_ok from -> endpoint_ok to -> u32 seq -> u32 ack -> u16 window ->
  chunks_ok Es E chunks ->
  Forall (fun a => arrival Es E from to peer me (segments from to seq ack window chunks) (fst a) (snd a)) arrived ->
  let n := progress (map fst arrived) in
  (n <= length chunks)%nat /\
  collect E me peer {| next_seq := seq; so_far := [] |} (map snd arrived) =
  Ok {| next_seq := (seq + len (concat (firstn n chunks))) mod 4294967296; so_far := concat (firstn n chunks) |}.
Proof. exact StreamProofs.c83_stream. Qed.
Print Assumptions C83_stream.
(** C83: the hypotheses of C83_stream can be met. *)
Example C83_stream_meets : exists (Es E : env) (from to me peer : endpoint) (seq ack window : N) (chunks : list bytes) (arrived : list (option nat * bytes)),
  endpoint_ok from /\ endpoint_ok to /\ u32 seq /\ u32 ack /\ u16 window /\ chunks_ok Es E chunks /\
  Forall (fun a => arrival Es E from to peer me (segments from to seq ack window chunks) (fst a) (snd a)) arrived.
Proof. exact WitnessProofs.c83_stream_meets. Qed.
(** C83: and if whole copies of all segments have come in order, with anything between them (a sender that goes on repeating sees to that), it has the whole stream. *)
Theorem C83_complete : forall Es E from to me peer sq ack window chunks arrived, endpoint_ok from -> endpoint_ok to -> u32 sq -> u32 ack -> u16 window ->
  chunks_ok Es E chunks ->
  Forall (fun a => arrival Es E from to peer me (segments from to sq ack window chunks) (fst a) (snd a)) arrived ->
  subsequence (map Some (seq 0 (length chunks))) (map fst arrived) ->
  collect E me peer {| next_seq := sq; so_far := [] |} (map snd arrived) = Ok {| next_seq := (sq + len (concat chunks)) mod 4294967296; so_far := concat chunks |}.
Proof. exact StreamProofs.c83_complete. Qed.
Print Assumptions C83_complete.
(** C83: the hypotheses of C83_complete can be met. *)
Example C83_complete_meets : exists (Es E : env) (from to me peer : endpoint) (sq ack window : N) (chunks : list bytes) (arrived : list (option nat * bytes)),
  endpoint_ok from /\ endpoint_ok to /\ u32 sq /\ u32 ack /\ u16 window /\ chunks_ok Es E chunks /\
  Forall (fun a => arrival Es E from to peer me (segments from to sq ack window chunks) (fst a) (snd a)) arrived /\
  subsequence (map Some (seq 0 (length chunks))) (map fst arrived).
Proof. exact WitnessProofs.c83_complete_meets. Qed.
Theorem C83_translator_refuted : forall E b g i v a port, is_bytes b -> wire16 b 16 mod 2 = 0 \/ cursor_eof E = EofKeep ->
  receive E b = Ok (Some g) -> 14 + wire16 b 16 - len (sg_data g) <= i < 14 + wire16 b 16 -> u8 v -> addr_ok a -> u16 port ->
  exists b', nat_out_tcp E a port (alter b i v) = (b', Ok tt) /\
    receive E b' = Ok (Some (with_data (alter (sg_data g) (i - (14 + wire16 b 16 - len (sg_data g))) v) (stepped (SetFrom a port) g))).
Proof. exact StreamProofs.c83_translator_refuted. Qed.
Print Assumptions C83_translator_refuted.
(** C83: the hypotheses of C83_translator_refuted can be met. *)
Example C83_translator_refuted_meets : exists (E : env) (b : bytes) (g : segment) (i v : N) (a : ipv4addr) (port : N), is_bytes b /\ (wire16 b 16 mod 2 = 0 \/ cursor_eof E = EofKeep) /\
  receive E b = Ok (Some g) /\ 14 + wire16 b 16 - len (sg_data g) <= i < 14 + wire16 b 16 /\ u8 v /\ addr_ok a /\ u16 port.
Proof. exact WitnessProofs.c83_translator_refuted_meets. Qed.
(** C83: non-vacuity. *)
Example C83_example : forall E,
  progress (map fst (x_arrived E)) = 3%nat /\
  collect E x_server x_seen {| next_seq := 4294967294; so_far := [] |} (map snd (x_arrived E)) = Ok {| next_seq := 6; so_far := [65; 66; 67; 68; 69; 70; 71; 72] |} /\
  collect E x_server x_seen {| next_seq := 4294967294; so_far := [] |} (firstn 7 (map snd (x_arrived E))) = Ok {| next_seq := 0; so_far := [65; 66] |}.
Proof. exact StreamProofs.c83_example. Qed.

(** ** C84 *)
(** C84: the error about any frame the parsers take is the message RFC 792 describes, its checksum right, from the router's address to the sender. *)
Theorem C84_report : forall E kind code mac a s, frame_packet_ok (fun p => p) is_bytes s -> mac_ok mac -> addr_ok a -> u8 kind -> u8 code -> 0 < kind ->
  exists r, report E kind code mac a (frame_bytes (fun p => p) s) = Ok (frame_bytes (fun p => p) r) /\
    error_about kind code mac a s r /\ frame_packet_ok (fun p => p) is_bytes r /\ routable r.
Proof. exact TraceProofs.c84_report. Qed.
Print Assumptions C84_report.
(** C84: the hypotheses of C84_report can be met. *)
Example C84_report_meets : exists (kind code : N) (mac : hwaddr) (a : ipv4addr) s, frame_packet_ok (fun p => p) is_bytes s /\ mac_ok mac /\ addr_ok a /\ u8 kind /\ u8 code /\ 0 < kind.
Proof. exact WitnessProofs.c84_report_meets. Qed.
Theorem C84_exchange : forall E path target s u payload, host_ok target -> Forall station_ok path ->
  probes E target s u payload -> 1 <= vf_ttl (fr_ip s) ->
  let n := Nat.min (N.to_nat (vf_ttl (fr_ip s) - 1)) (length path) in
  let seen := travelled (firstn n (map forth path)) s in
  let '(kind, code, mac, ip) := reporter path target n in
  ((n < 64)%nat ->
   exists r, exchange E path target (frame_bytes (fun p => p) s) = Ok (Some (frame_bytes (fun p => p) (travelled (rev (firstn n (map back path))) r))) /\
    error_about kind code mac ip seen r) /\
  ((64 <= n)%nat -> exchange E path target (frame_bytes (fun p => p) s) = Ok None).
Proof. exact TraceProofs.c84_exchange. Qed.
Print Assumptions C84_exchange.
(** C84: the hypotheses of C84_exchange can be met, with either end. *)
Example C84_exchange_meets : (exists (E : env) (path : list station) (target : host) s (u : udp_fields) (payload : bytes), host_ok target /\ Forall station_ok path /\
    probes E target s u payload /\ 1 <= vf_ttl (fr_ip s) /\ (Nat.min (N.to_nat (vf_ttl (fr_ip s) - 1)) (length path) < 64)%nat) /\
  (exists (E : env) (path : list station) (target : host) s (u : udp_fields) (payload : bytes), host_ok target /\ Forall station_ok path /\
    probes E target s u payload /\ 1 <= vf_ttl (fr_ip s) /\ (64 <= Nat.min (N.to_nat (vf_ttl (fr_ip s) - 1)) (length path))%nat).
Proof. exact WitnessProofs.c84_exchange_meets. Qed.
(** C84: what the tracer makes of an error: who sent it, of which kind, and the probe it is about - however many routers it came over. *)
Theorem C84_heard : forall E hops kind code mac a s r u payload,
  frame_packet_ok (fun p => p) is_bytes s -> vf_proto (fr_ip s) = 17 -> routable s -> fr_inner s = udp_wire u ++ payload -> udp_fields_ok u -> uf_length u = 8 + len payload -> is_bytes payload ->
  report E kind code mac a (frame_bytes (fun p => p) s) = Ok (frame_bytes (fun p => p) r) -> mac_ok mac -> addr_ok a -> u8 code -> error_type kind ->
  Forall hop_ok hops -> (length hops < 64)%nat ->
  exists b, route E hops (frame_bytes (fun p => p) r) = (b, Ok tt) /\
    heard E b = Ok (Some (a, icmp_kind_from kind, flow_of IP_Udp (fr_ip s) (uf_src u) (uf_dst u))).
Proof. exact TraceProofs.c84_heard. Qed.
Print Assumptions C84_heard.
(** C84: the hypotheses of C84_heard can be met. *)
Example C84_heard_meets : exists (E : env) (hops : list hop) (kind code : N) (mac : hwaddr) (a : ipv4addr) s r (u : udp_fields) (payload : bytes),
  frame_packet_ok (fun p => p) is_bytes s /\ vf_proto (fr_ip s) = 17 /\ routable s /\ fr_inner s = udp_wire u ++ payload /\ udp_fields_ok u /\ uf_length u = 8 + len payload /\ is_bytes payload /\
  report E kind code mac a (frame_bytes (fun p => p) s) = Ok (frame_bytes (fun p => p) r) /\ mac_ok mac /\ addr_ok a /\ u8 code /\ error_type kind /\
  Forall hop_ok hops /\ (length hops < 64)%nat.
Proof. exact WitnessProofs.c84_heard_meets. Qed.
(** C84: the tracer finds every router on the way, in order, and then the goal - as many of them as it has tries. *)
Theorem C84_trace : forall E En x path target tries, tracer_ok x -> host_ok target -> address target = goal x -> Forall station_ok path ->
  (length path < 64)%nat -> alike E En (filler x) ->
  trace E En x path target 1 tries = Ok (firstn tries (map (fun r => Some (its_ip r)) path ++ [Some (goal x)])).
Proof. exact TraceProofs.c84_trace. Qed.
Print Assumptions C84_trace.
(** C84: the hypotheses of C84_trace can be met. *)
Example C84_trace_meets : exists (E En : env) (x : tracer) (path : list station) (target : host), tracer_ok x /\ host_ok target /\ address target = goal x /\ Forall station_ok path /\
  (length path < 64)%nat /\ alike E En (filler x).
Proof. exact WitnessProofs.c84_trace_meets. Qed.
Theorem C84_trace_silent : forall E En x path target tries, tracer_ok x -> host_ok target -> address target <> goal x \/ ~ alike E En (filler x) \/ (64 <= length path)%nat -> Forall station_ok path ->
  (tries < 256)%nat ->
  trace E En x path target 1 tries = Ok (firstn tries (map (fun r => Some (its_ip r)) (firstn 64 path)) ++ repeat None (tries - Nat.min 64 (length path))).
Proof. exact TraceProofs.c84_trace_silent. Qed.
Print Assumptions C84_trace_silent.
(** C84: the hypotheses of C84_trace_silent can be met. *)
Example C84_trace_silent_meets : (exists (E En : env) (x : tracer) (path : list station) (target : host) (tries : nat), tracer_ok x /\ host_ok target /\ address target <> goal x /\ Forall station_ok path /\ (tries < 256)%nat) /\
  (exists (E En : env) (x : tracer) (path : list station) (target : host) (tries : nat), tracer_ok x /\ host_ok target /\ ~ alike E En (filler x) /\ Forall station_ok path /\ (tries < 256)%nat) /\
  (exists (E En : env) (x : tracer) (path : list station) (target : host) (tries : nat), tracer_ok x /\ host_ok target /\ (64 <= length path)%nat /\ Forall station_ok path /\ (tries < 256)%nat).
Proof. exact WitnessProofs.c84_trace_silent_meets. Qed.
(** C84: whatever is sent into such a path, nothing panics. *)
Theorem C84_exchange_total : forall E path target b, is_bytes b -> host_ok target -> Forall station_ok path ->
  exists answer, exchange E path target b = Ok answer /\ match answer with Some a => is_bytes a | None => True end.
Proof. exact TraceProofs.c84_exchange_total. Qed.
Print Assumptions C84_exchange_total.
(** C84: the hypotheses of C84_exchange_total can be met. *)
Example C84_exchange_total_meets : exists (path : list station) (target : host) (b : bytes), is_bytes b /\ host_ok target /\ Forall station_ok path.
Proof. exact WitnessProofs.c84_exchange_total_meets. Qed.
(** C84: ... and whatever the tracer receives, it makes of it what C81's tolerant reader does, or nothing. *)
Theorem C84_heard_total : forall E b, is_bytes b -> exists h, heard E b = Ok h.
Proof. exact TraceProofs.c84_heard_total. Qed.
Print Assumptions C84_heard_total.
(** C84: the hypotheses of C84_heard_total can be met. *)
Example C84_heard_total_meets : exists (b : bytes), is_bytes b.
Proof. exact WitnessProofs.c84_heard_total_meets. Qed.
(** C84: it takes an error for one about a probe exactly when the datagram named is a UDP datagram with that probe's addresses and ports. *)
Theorem C84_about : forall x ttl fl, about x ttl fl = true <->
  fl = {| fl_proto := IP_Udp; fl_src := address (me x); fl_dst := goal x; fl_sport := port x; fl_dport := 33434 + ttl |}.
Proof. exact TraceProofs.c84_about. Qed.
Print Assumptions C84_about.
Theorem C84_heard_only : forall E b who kind fl, is_bytes b ->
  (heard E b = Ok (Some (who, kind, fl)) <->
   exists s h, frame_packet_ok (fun p => p) is_bytes s /\ b = frame_bytes (fun p => p) s /\ rfc_ip 1 s /\ vf_checksum (fr_ip s) <> 65535 /\
     receiver_accepts (drop_odd (fr_inner s)) /\ wire16 (fr_inner s) 2 <> 65535 /\
     who = vf_src (fr_ip s) /\ kind = icmp_kind_from (nthN (fr_inner s) 0) /\ names (fr_inner s) h fl /\ 4 <= len (quoted_body (fr_inner s) h)).
Proof. exact TraceProofs.c84_heard_only. Qed.
Print Assumptions C84_heard_only.
(** C84: the hypotheses of C84_heard_only can be met, and so can either side. *)
Example C84_heard_only_meets : exists (E : env) (b : bytes) (who : ipv4addr) (kind : icmp_kind) (fl : flow), is_bytes b /\ heard E b = Ok (Some (who, kind, fl)).
Proof. exact WitnessProofs.c84_heard_only_meets. Qed.
Example C84_example : forall E En,
  let station n := {| forth := {| mine := Hw 2 0 0 0 n 1; next := Hw 2 0 0 0 (n + 1) 0 |}; back := {| mine := Hw 2 0 0 0 n 0; next := Hw 2 0 0 0 (n - 1) 1 |}; its_ip := Ip4 10 0 n 1 |} in
  let target := {| its_mac := Hw 2 0 0 0 3 0; address := Ip4 192 0 2 7 |} in
  let x := {| me := {| its_mac := Hw 2 0 0 0 0 1; address := Ip4 10 0 0 9 |}; gateway := Hw 2 0 0 0 1 0; goal := Ip4 192 0 2 7; port := 40000; filler := [104; 105] |} in
  let y := {| me := me x; gateway := gateway x; goal := Ip4 192 0 2 8; port := 40000; filler := [104; 105] |} in
  trace E En x [station 1; station 2] target 1 30 = Ok [Some (Ip4 10 0 1 1); Some (Ip4 10 0 2 1); Some (Ip4 192 0 2 7)] /\
  trace E En y [station 1; station 2] target 1 4 = Ok [Some (Ip4 10 0 1 1); Some (Ip4 10 0 2 1); None; None].
Proof. exact TraceProofs.c84_example. Qed.
