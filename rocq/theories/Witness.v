(** The concrete values the witnesses in WitnessProofs.v are made of: packets as
    they appear on the wire, option areas, edited and damaged copies, buffers,
    method calls, and two environments.  They model no code. *)
From Coq Require Import String.
From Verif Require Import Base Enums Buffer Ether Ipv4 Ip Udp Tcp Icmp Builders Generic Debug Mutable Sizes Spec SpecCalls SpecNumbers SpecBuild SpecUser SpecMut SpecEdit SpecUnchecked SpecCopy SpecFrame SpecOrder SpecSize SpecOptions SpecVia SpecProfile SpecShift SpecOwnIp SpecGeneric SpecHooks SpecReference SpecSucceed SpecCorrupt SpecForward SpecIncremental SpecMachine SpecMachineIcmp SpecReceiver SpecRoute SpecNat SpecHost SpecBlock SpecMemory SpecStore Memory.

(** A debug build on a 64-bit target, a release build on a 64-bit target with the
    other cursor, and a debug build on a 32-bit target. *)
Definition w_debug : env := {| overflow_checks := true; cursor_eof := EofKeep; target := Bits64 |}.
Definition w_release : env := {| overflow_checks := false; cursor_eof := EofSeek; target := Bits64 |}.
Definition w_debug32 : env := {| overflow_checks := true; cursor_eof := EofKeep; target := Bits32 |}.

(** ** Packets on the wire *)
Definition w_mac1 : hwaddr := Hw 2 0 0 0 0 1.
Definition w_mac2 : hwaddr := Hw 2 0 0 0 0 2.
Definition w_eth : bytes := [2;0;0;0;0;2;2;0;0;0;0;1;8;0].
(** UDP from port 5353 to port 53 with the payload 1 2 3 4, and its IPv4 packet and frame. *)
Definition w_udp : bytes := [20;233;0;53;0;12;210;175;1;2;3;4].
Definition w_v4_udp : bytes := [69;0;0;32;18;52;0;0;64;17;84;151;10;0;0;1;10;0;0;2] ++ w_udp.
Definition w_udp_frame : bytes := w_eth ++ w_v4_udp.
(** TCP from port 40000 to port 80 with the payload "GET ". *)
Definition w_tcp : bytes := [156;64;0;80;18;52;86;120;0;0;0;0;80;0;2;0;249;59;0;0;71;69;84;32].
Definition w_v4_tcp : bytes := [69;0;0;44;18;52;0;0;64;6;84;150;10;0;0;1;10;0;0;2] ++ w_tcp.
Definition w_tcp_frame : bytes := w_eth ++ w_v4_tcp.
(** An Echo request with identifier 7, sequence number 1 and payload 1 2 3 4. *)
Definition w_echo : bytes := [8;0;243;241;0;7;0;1;1;2;3;4].
Definition w_v4_echo : bytes := [69;0;0;32;18;52;0;0;64;1;84;167;10;0;0;1;10;0;0;2] ++ w_echo.
Definition w_echo_frame : bytes := w_eth ++ w_v4_echo.
Definition w_info : bytes := [15;0;240;247;0;7;0;1].
Definition w_v4_info : bytes := [69;0;0;28;18;52;0;0;64;1;84;171;10;0;0;1;10;0;0;2] ++ w_info.
Definition w_info_frame : bytes := w_eth ++ w_v4_info.
Definition w_ts : bytes := [13;0;239;15;0;7;0;1;0;0;3;232;0;0;0;0;0;0;0;0].
Definition w_v4_ts : bytes := [69;0;0;40;18;52;0;0;64;1;84;159;10;0;0;1;10;0;0;2] ++ w_ts.
Definition w_ts_frame : bytes := w_eth ++ w_v4_ts.
(** IPv4 and TCP with a word of options; the three ICMP error messages, each
    carrying the header of the UDP packet above; an IPv6 header. *)
Definition w_v4_options : bytes := [70;0;0;28;18;52;0;0;64;17;0;0;10;0;0;1;10;0;0;2;7;3;4;0;9;9;9;9].
Definition w_tcp_options : bytes := [156;64;0;80;18;52;86;120;0;0;0;0;96;0;2;0;0;0;0;0;2;4;5;180;71;69].
Definition w_unreachable : bytes := [3;1;0;0;0;0;0;0] ++ w_v4_udp.
Definition w_redirect : bytes := [5;1;0;0;10;0;0;254] ++ w_v4_udp.
Definition w_problem : bytes := [12;0;0;0;20;0;0;0] ++ w_v4_udp.
Definition w_quench : bytes := [4;0;0;0;0;0;0;0] ++ w_v4_udp.
Definition w_exceeded : bytes := [11;0;0;0;0;0;0;0] ++ w_v4_udp.
Definition w_v6 : bytes := [96;0;0;0;0;0;59;64] ++ zeros 32.
(** Odd lengths, the version or the length wrong, one byte damaged, a checksum of zero. *)
Definition w_udp_odd : bytes := [20;233;0;53;0;11;212;180;1;2;3].
Definition w_udp_damaged : bytes := [20;233;0;53;0;12;210;175;1;2;9;4].
Definition w_udp_long : bytes := [20;233;0;53;0;99;210;175;1;2;3;4].
Definition w_udp_unsummed : bytes := [20;233;0;53;0;12;0;0;1;2;3;4].
Definition w_v4_damaged : bytes := [69;0;0;32;18;52;0;0;63;17;84;151;10;0;0;1;10;0;0;2] ++ w_udp.
Definition w_v4_long : bytes := [69;0;0;99;18;52;0;0;64;17;84;151;10;0;0;1;10;0;0;2] ++ w_udp.
Definition w_v4_short : bytes := [69;0;0;10;18;52;0;0;64;17;84;151;10;0;0;1;10;0;0;2] ++ w_udp.
Definition w_v4_ihl2 : bytes := [66;0;0;32;18;52;0;0;64;17;84;151;10;0;0;1;10;0;0;2] ++ w_udp.
Definition w_v4_ihl15 : bytes := [79;0;0;32;18;52;0;0;64;17;84;151;10;0;0;1;10;0;0;2] ++ w_udp.
Definition w_echo_damaged : bytes := [8;0;243;241;0;7;0;1;1;2;3;5].
Definition w_tcp_damaged : bytes := [156;64;0;80;18;52;86;120;0;0;0;0;80;0;2;0;249;59;0;0;71;69;84;33].
Definition w_tcp_offset0 : bytes := [156;64;0;80;18;52;86;120;0;0;0;0;0;0;2;0;249;59;0;0;71;69;84;32].
Definition w_tcp_offset15 : bytes := [156;64;0;80;18;52;86;120;0;0;0;0;240;0;2;0;249;59;0;0;71;69;84;32].
Definition w_payload : bytes := [1;2;3;4].
Definition w_four : bytes := [9;8;7;6].
Definition w_odd : bytes := [1;2;3].
Definition w_nine : N := 9.
(** Option areas: Record Route, padding, End; MSS, padding; one of length zero. *)
Definition w_area4 : bytes := [7;7;4;10;0;0;1;1;0].
Definition w_area_tcp : bytes := [2;4;5;180;1;0].
Definition w_zero_option : bytes := [7;0;1;2].

(** ** Calls *)
Definition w_v4_setters : list v4_setter :=
  [V4SetId 4660; V4SetTtl 64; V4SetSource (Ip4 10 0 0 1); V4SetDestination (Ip4 10 0 0 2)].
Definition w_udp_setters : list udp_setter := [UdpSetSource 5353; UdpSetDestination 53].
Definition w_tcp_setters : list tcp_setter := [TcpSetSource 40000; TcpSetDestination 80; TcpSetSequence 305419896; TcpSetWindow 512].
Definition w_tcp_setters_flags : list tcp_setter := [TcpSetSource 40000; TcpSetFlags 2].
Definition w_echo_setters : list echo_setter := [EchoMakeReply; EchoSetIdentifier 7; EchoSetSequence 2].
Definition w_info_setters : list information_setter := [InfoMakeReply; InfoSetIdentifier 7; InfoSetSequence 2].
Definition w_ts_setters : list timestamp_setter := [TsMakeReply; TsSetIdentifier 7; TsSetReceive 1000].
Definition w_ether_calls : list ether_call := [EthSource w_mac1; EthProtocol ET_Ipv4].
Definition w_ether_ops : list ether_op := [EtherDestination w_mac2; EtherSource w_mac1].
Definition w_ether_ops_payload : list ether_op := [EtherDestination w_mac2; EtherPayload w_payload].
Definition w_v4_ops : list v4_op := map V4Set w_v4_setters.
Definition w_v4_ops_payload : list v4_op := w_v4_ops ++ [V4Payload w_payload].
Definition w_udp_ops : list udp_op := map UdpSet w_udp_setters.
Definition w_udp_ops_payload : list udp_op := w_udp_ops ++ [UdpPayload w_payload].
Definition w_tcp_ops : list tcp_op := map TcpSet w_tcp_setters.
Definition w_tcp_ops_payload : list tcp_op := w_tcp_ops ++ [TcpPayload w_payload].
Definition w_tcp_ops_flags : list tcp_op := map TcpSet w_tcp_setters_flags.
Definition w_tcp_ops_payload_flags : list tcp_op := [TcpPayload w_payload; TcpSet (TcpSetFlags 2)].
Definition w_echo_ops : list echo_op := [EchoRequest; EchoIdentifier 7; EchoSequence 1].
Definition w_echo_ops_payload : list echo_op := w_echo_ops ++ [EchoPayload w_payload].
Definition w_echo_ops_nokind : list echo_op := [EchoIdentifier 7; EchoPayload w_payload].
Definition w_info_ops : list information_op := [InfoRequest; InfoIdentifier 7; InfoSequence 1].
Definition w_info_ops_nokind : list information_op := [InfoIdentifier 7].
Definition w_ts_ops : list timestamp_op := [TsRequest; TsIdentifier 7; TsSequence 1; TsOriginate 1000].
Definition w_ts_ops_nokind : list timestamp_op := [TsIdentifier 7].
Definition w_outer : option (option (list ether_op) * list v4_setter) := Some (Some w_ether_ops, w_v4_setters).
(** Whole programs, from Ethernet to the innermost layer. *)
Definition w_calls_v4 : list call :=
  map CallEther w_ether_ops ++ [CallEtherIp; CallIpV4] ++ map CallV4 w_v4_ops.
Definition w_calls_udp : list call := w_calls_v4 ++ [CallV4Udp] ++ map CallUdp w_udp_ops_payload.
Definition w_calls_udp0 : list call := w_calls_v4 ++ [CallV4Udp] ++ map CallUdp w_udp_ops.
Definition w_calls_tcp : list call := w_calls_v4 ++ [CallV4Tcp] ++ map CallTcp w_tcp_ops_payload.
Definition w_calls_tcp0 : list call := w_calls_v4 ++ [CallV4Tcp] ++ map CallTcp w_tcp_ops.
Definition w_calls_echo : list call := w_calls_v4 ++ [CallV4Icmp; CallIcmpEcho] ++ map CallEcho w_echo_ops_payload.
Definition w_calls_echo0 : list call := w_calls_v4 ++ [CallV4Icmp; CallIcmpEcho] ++ map CallEcho w_echo_ops.
Definition w_calls_info : list call := w_calls_v4 ++ [CallV4Icmp; CallIcmpInformation] ++ map CallInformation w_info_ops.
Definition w_calls_ts : list call := w_calls_v4 ++ [CallV4Icmp; CallIcmpTimestamp] ++ map CallTimestamp w_ts_ops.
Definition w_calls_v4_payload : list call := w_calls_v4 ++ [CallV4 (V4Payload w_odd)].
Definition w_calls_ether_payload : list call := map CallEther w_ether_ops_payload.
Definition w_calls_ether : list call := map CallEther w_ether_ops.

(** ** Fields *)
Definition w_ether_fields : ether_fields := {| ef_dst := w_mac2; ef_src := w_mac1; ef_type := 2048 |}.
Definition w_v4_fields : v4_fields :=
  {| vf_version := 4; vf_ihl := 5; vf_dscp := 10; vf_ecn := 1; vf_total := 24; vf_id := 4660; vf_reserved := false; vf_df := true;
     vf_mf := false; vf_frag := 0; vf_ttl := 64; vf_proto := 17; vf_checksum := 4242; vf_src := Ip4 10 0 0 1; vf_dst := Ip4 10 0 0 2 |}.
Definition w_v4_fields_options : v4_fields :=
  {| vf_version := 4; vf_ihl := 6; vf_dscp := 10; vf_ecn := 1; vf_total := 28; vf_id := 4660; vf_reserved := false; vf_df := true;
     vf_mf := false; vf_frag := 0; vf_ttl := 64; vf_proto := 17; vf_checksum := 4242; vf_src := Ip4 10 0 0 1; vf_dst := Ip4 10 0 0 2 |}.
Definition w_udp_fields : udp_fields := {| uf_src := 5353; uf_dst := 53; uf_length := 12; uf_checksum := 4242 |}.
Definition w_tcp_fields : tcp_fields :=
  {| tf_src := 40000; tf_dst := 80; tf_seq := 305419896; tf_ack := 1; tf_offset := 5; tf_reserved := 0; tf_flags := 24; tf_window := 512;
     tf_checksum := 4242; tf_pointer := 0 |}.
Definition w_tcp_fields_options : tcp_fields :=
  {| tf_src := 40000; tf_dst := 80; tf_seq := 305419896; tf_ack := 1; tf_offset := 6; tf_reserved := 0; tf_flags := 24; tf_window := 512;
     tf_checksum := 4242; tf_pointer := 0 |}.
Definition w_echo_fields : icmp_fields := {| cf_type := 8; cf_code := 0; cf_checksum := 4242 |}.
Definition w_info_fields : icmp_fields := {| cf_type := 15; cf_code := 0; cf_checksum := 4242 |}.
Definition w_ts_fields : icmp_fields := {| cf_type := 13; cf_code := 0; cf_checksum := 4242 |}.
Definition w_redirect_fields : icmp_fields := {| cf_type := 5; cf_code := 1; cf_checksum := 4242 |}.
Definition w_problem_fields : icmp_fields := {| cf_type := 12; cf_code := 0; cf_checksum := 4242 |}.
Definition w_unreachable_fields : icmp_fields := {| cf_type := 3; cf_code := 1; cf_checksum := 4242 |}.
Definition w_udp_packet : udp_packet := {| up_header := w_udp_fields; up_payload := w_payload; up_behind := [] |}.
Definition w_tcp_packet : tcp_packet := {| tp_header := w_tcp_fields; tp_options := []; tp_payload := w_payload |}.
Definition w_echo_packet : echo_packet := {| cp_header := w_echo_fields; cp_ident := 7; cp_seq := 1; cp_payload := w_payload |}.
Definition w_v4_packet : v4_packet := {| vp_header := w_v4_fields; vp_options := []; vp_payload := w_payload; vp_behind := [] |}.
Definition w_info_packet : information_packet := {| np_header := w_info_fields; np_ident := 7; np_seq := 1; np_behind := [] |}.
Definition w_ts_packet : timestamp_packet :=
  {| mp_header := w_ts_fields; mp_ident := 7; mp_seq := 1; mp_originate := 1000; mp_receive := 0; mp_transmit := 0; mp_behind := [] |}.
(** ** Frames with fields, and histories of edits *)
Definition w_v4_of (total proto : N) : v4_fields :=
  {| vf_version := 4; vf_ihl := 5; vf_dscp := 10; vf_ecn := 1; vf_total := total; vf_id := 4660; vf_reserved := false; vf_df := true;
     vf_mf := false; vf_frag := 0; vf_ttl := 64; vf_proto := proto; vf_checksum := 4242; vf_src := Ip4 10 0 0 1; vf_dst := Ip4 10 0 0 2 |}.
Definition w_frame {S : Type} (total proto : N) (s : S) : frame_packet S :=
  {| fr_ether := w_ether_fields; fr_ip := w_v4_of total proto; fr_options := []; fr_inner := s; fr_padding := [0; 0] |}.
(** Frames whose header adds up, and routers. *)
Definition w_summed {S : Type} (s : frame_packet S) : frame_packet S :=
  {| fr_ether := fr_ether s; fr_ip := v4_sum (fr_options s) (fr_ip s); fr_options := fr_options s; fr_inner := fr_inner s; fr_padding := fr_padding s |}.
(** A ping and a query with right checksums. *)
Definition w_ping_frame : frame_packet echo_packet := w_summed (w_frame 32 1 (echo_sum w_echo_packet)).
Definition w_query_frame : frame_packet udp_packet := rewritten_udp [] [] (w_frame 32 17 w_udp_packet).
(** The same with a payload of three bytes. *)
Definition w_odd_query (last : N) : frame_packet udp_packet :=
  rewritten_udp [] [] (w_frame 31 17 {| up_header := {| uf_src := 5353; uf_dst := 53; uf_length := 11; uf_checksum := 0 |}; up_payload := [104; 105; last]; up_behind := [] |}).
Definition w_hop1 : hop := {| mine := Hw 2 0 0 0 1 1; next := Hw 2 0 0 0 1 2 |}.
Definition w_hop2 : hop := {| mine := Hw 2 0 0 0 2 1; next := Hw 2 0 0 0 2 2 |}.
Definition w_udp_history : list (bytes * action udp_setter checksum_call) :=
  [(w_v4_udp, Call (UdpSetSource 99)); (w_v4_udp, Checked w_udp_setters); (w_v4_tcp, Fill w_four); (w_v4_udp, Extra UpdateChecksum)].
Definition w_tcp_history : list (bytes * action tcp_setter checksum_call) :=
  [(w_v4_udp, Call (TcpSetSource 99)); (w_v4_tcp, Checked w_tcp_setters); (w_v4_tcp, Fill w_four); (w_v4_tcp, Extra UpdateChecksum)].
Definition w_echo_history : list (action echo_setter Empty_set) := [Call EchoMakeReply; Checked w_echo_setters; Fill w_four].
Definition w_info_history : list (action information_setter Empty_set) := [Call InfoMakeReply; Checked w_info_setters].
Definition w_ts_history : list (action timestamp_setter Empty_set) := [Call TsMakeReply; Checked w_ts_setters].
Definition w_v4_history : list (action v4_setter checksum_call) :=
  [Call (V4SetTtl 9); Checked w_v4_setters; Fill w_four; Extra (StoreChecksum 7); Extra UpdateChecksum].
Definition w_frame_history {A : Type} (a b : A) : list (frame_action A) :=
  [OnEther (EthSource w_mac2); OnIp (Checked w_v4_setters); OnTransport a; OnTransport b].
(** ** Blocks a user runs on a checksum guard: read what a setter returned, then
    leave, panic or forget the guard. *)
Definition w_block {A : Type} (a b : A) (e : block A) : block A :=
  CallThen a (fun r => match r with Ok _ => CallThen b (fun _ => e) | _ => Leave end).
Definition w_v4_block : block v4_setter := w_block (V4SetTtl 9) (V4SetId 7) UserPanic.
Definition w_v4_block_left : block v4_setter := w_block (V4SetTtl 9) (V4SetId 7) Leave.
Definition w_v4_block_forgot : block v4_setter := w_block (V4SetTtl 9) (V4SetId 7) Forget.
Definition w_udp_block : block udp_setter := w_block (UdpSetSource 9) (UdpSetDestination 7) UserPanic.
Definition w_udp_block_left : block udp_setter := w_block (UdpSetSource 9) (UdpSetDestination 7) Leave.
Definition w_udp_block_forgot : block udp_setter := w_block (UdpSetSource 9) (UdpSetDestination 7) Forget.
Definition w_tcp_block : block tcp_setter := w_block (TcpSetSource 9) (TcpSetDestination 7) UserPanic.
Definition w_tcp_block_left : block tcp_setter := w_block (TcpSetSource 9) (TcpSetDestination 7) Leave.
Definition w_tcp_block_forgot : block tcp_setter := w_block (TcpSetSource 9) (TcpSetDestination 7) Forget.
Definition w_tcp_block_flags : block tcp_setter := w_block (TcpSetSource 9) (TcpSetFlags 2) Leave.
Definition w_echo_block : block echo_setter := w_block (EchoSetIdentifier 9) EchoMakeReply UserPanic.
Definition w_echo_block_left : block echo_setter := w_block (EchoSetIdentifier 9) EchoMakeReply Leave.
Definition w_echo_block_forgot : block echo_setter := w_block (EchoSetIdentifier 9) EchoMakeReply Forget.
Definition w_info_block : block information_setter := w_block (InfoSetIdentifier 9) InfoMakeReply UserPanic.
Definition w_info_block_left : block information_setter := w_block (InfoSetIdentifier 9) InfoMakeReply Leave.
Definition w_info_block_forgot : block information_setter := w_block (InfoSetIdentifier 9) InfoMakeReply Forget.
Definition w_ts_block : block timestamp_setter := w_block (TsSetIdentifier 9) TsMakeReply UserPanic.
Definition w_ts_block_left : block timestamp_setter := w_block (TsSetIdentifier 9) TsMakeReply Leave.
Definition w_ts_block_forgot : block timestamp_setter := w_block (TsSetIdentifier 9) TsMakeReply Forget.
(** ** Setters called as methods of the builder, or on the packet inside it *)
Definition w_ether_via : list (via ether_op ether_call) := [Method (EtherDestination w_mac2); Through (EthSource w_mac1)].
Definition w_v4_via : list (via v4_op v4_setter) := [Method (V4Set (V4SetTtl 64)); Through (V4SetId 4660); Method (V4Payload w_payload)].
Definition w_v4_via0 : list (via v4_op v4_setter) := [Method (V4Set (V4SetTtl 64)); Through (V4SetId 4660)].
Definition w_udp_via : list (via udp_op udp_setter) := [Through (UdpSetSource 5353); Method (UdpPayload w_payload); Through (UdpSetDestination 53)].
Definition w_tcp_via : list (via tcp_op tcp_setter) := [Through (TcpSetSource 40000); Method (TcpPayload w_payload)].
Definition w_echo_via : list (via echo_op echo_setter) := [Method EchoRequest; Through (EchoSetIdentifier 7); Method (EchoPayload w_payload)].
Definition w_echo_via_nokind : list (via echo_op echo_setter) := [Through (EchoSetIdentifier 7); Method (EchoPayload w_payload)].
Definition w_info_via : list (via information_op information_setter) := [Method InfoRequest; Through (InfoSetIdentifier 7)].
Definition w_info_via_nokind : list (via information_op information_setter) := [Through (InfoSetIdentifier 7)].
Definition w_ts_via : list (via timestamp_op timestamp_setter) := [Method TsRequest; Through (TsSetOriginate 1000)].
Definition w_ts_via_nokind : list (via timestamp_op timestamp_setter) := [Through (TsSetOriginate 1000)].
(** ** More packets: Don't Fragment or More Fragments set, a header that says it is
    two words long in a packet of ten bytes, an ICMP error with no packet inside,
    a header to copy over another *)
Definition w_v4_udp_df : bytes := [69;0;0;32;18;52;64;0;64;17;20;151;10;0;0;1;10;0;0;2] ++ w_udp.
Definition w_udp_frame_df : bytes := w_eth ++ w_v4_udp_df.
Definition w_v4_mf : bytes := [69;0;0;32;18;52;32;0;64;17;52;151;10;0;0;1;10;0;0;2] ++ w_udp.
Definition w_v4_tiny : bytes := [66;0;0;10;18;52;0;0;64;17;84;151;10;0;0;1;10;0;0;2].
Definition w_redirect_empty : bytes := [5;1;0;0;10;0;0;254;0;0;0;0;0;0;0;0;0;0;0;0;0;0;0;0;0;0;0;0].
Definition w_v4_header : bytes := [69;16;0;32;0;7;0;0;9;17;0;0;10;0;0;3;10;0;0;4].
Definition w_tcp_odd : bytes := [156;64;0;80;18;52;86;120;0;0;0;0;80;0;2;0;249;59;0;0;71;69;84].
(** Odd and long payloads. *)
Definition w_udp_ops_odd : list udp_op := w_udp_ops ++ [UdpPayload w_odd].
Definition w_tcp_ops_odd : list tcp_op := w_tcp_ops ++ [TcpPayload w_odd].
Definition w_long : bytes := zeros 60 ++ w_payload.
Definition w_v4_ops_long : list v4_op := w_v4_ops ++ [V4Payload w_long].
(** Finalizers a user registers: one refuses, one panics, one flips the last byte. *)
Definition w_refuse : finalizer := fun b => (b, Err InvalidValue).
Definition w_panic : finalizer := fun b => (b, Panic).
(** A closure that overwrites the packet it is given. *)
Definition w_overwrite (new : bytes) : mut := fun _ => (new, Ok tt).
(** Builders in the middle of a program. *)
Definition w_built (r : res builder) : builder := match r with Ok b => b | _ => Build_builder dynamic_new fin_default (0, 0) false false 0 end.
Definition w_ether_builder : builder := w_built (ether_with w_debug dynamic_new).
Definition w_v4_builder : builder := w_built (v4_with w_debug dynamic_new).
Definition w_udp_builder : builder := w_built (udp_with w_debug dynamic_new).
Definition w_tcp_builder : builder := w_built (tcp_with w_debug dynamic_new).
Definition w_echo_builder : builder := w_built (echo_with w_debug dynamic_new).
Definition w_icmp_builder : builder := w_built (icmp_with dynamic_new).
(** A TCP frame whose payload has odd length and whose IPv4 header sums up. *)
Definition w_tcp_frame_odd : frame_packet tcp_packet :=
  {| fr_ether := w_ether_fields;
     fr_ip := {| vf_version := 4; vf_ihl := 5; vf_dscp := 0; vf_ecn := 0; vf_total := 43; vf_id := 4660; vf_reserved := false; vf_df := false;
                 vf_mf := false; vf_frag := 0; vf_ttl := 64; vf_proto := 6; vf_checksum := 21655; vf_src := Ip4 10 0 0 1; vf_dst := Ip4 10 0 0 2 |};
     fr_options := [];
     fr_inner := {| tp_header := w_tcp_fields; tp_options := []; tp_payload := w_odd |};
     fr_padding := [] |}.
Definition w_flip : finalizer := fun b => (removelast b ++ [255 - last b 0], Ok tt).
Definition w_v4_ops_odd : list v4_op := w_v4_ops ++ [V4Payload w_odd].
Definition w_ether_via_payload : list (via ether_op ether_call) := [Method (EtherDestination w_mac2); Through (EthSource w_mac1); Method (EtherPayload w_payload)].
Definition w_longer : bytes := zeros 108 ++ w_payload.
Definition w_v4_ops_longer : list v4_op := w_v4_ops ++ [V4Payload w_longer].
Definition w_long_echo : bytes := w_four ++ w_payload.
(** A builder whose buffer has no layer where it says: no program makes one. *)
Definition w_wrong_builder : builder := Build_builder (Slice [1; 2] 1 9 2) fin_default (0, 0) false false 0.
(** ** Datagrams an ICMP error quotes *)
Definition w_error_fields : icmp_fields := {| cf_type := 3; cf_code := 3; cf_checksum := 4242 |}.
Definition w_quoted_udp : v4_fields :=
  {| vf_version := 4; vf_ihl := 6; vf_dscp := 10; vf_ecn := 1; vf_total := 36; vf_id := 4660; vf_reserved := false; vf_df := true;
     vf_mf := false; vf_frag := 0; vf_ttl := 1; vf_proto := 17; vf_checksum := 4242; vf_src := Ip4 10 0 0 1; vf_dst := Ip4 10 0 0 2 |}.
Definition w_quoted_tcp : v4_fields :=
  {| vf_version := 4; vf_ihl := 6; vf_dscp := 10; vf_ecn := 1; vf_total := 52; vf_id := 4660; vf_reserved := false; vf_df := true;
     vf_mf := false; vf_frag := 0; vf_ttl := 1; vf_proto := 6; vf_checksum := 4242; vf_src := Ip4 10 0 0 1; vf_dst := Ip4 10 0 0 2 |}.
