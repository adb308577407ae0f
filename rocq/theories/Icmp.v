(** * Icmp: src/icmp (packet.rs, mod.rs and the typed messages). *)
From Verif Require Import Base Enums Ipv4.

(** ** Checksum: src/icmp/mod.rs:46-67 *)
Definition icmp_checksum_of (E : env) (b : bytes) : res N :=
  let* (r, _) := carry_loop E 4 0 b 65535 in Ok (not_u32_as_u16 r).

(** ** Generic packet: src/icmp/packet.rs *)
(** src/icmp/packet.rs:29-39 (sized!) *)
Definition icmp_header_min : N := 4.
Definition icmp_header_max : N := 4.
Definition icmp_header_size (b : bytes) : res N := Ok 4.
Definition icmp_payload_size (E : env) (b : bytes) : res N := usize_sub E (len b) 4.
(** src/size.rs:87-91 *)
Definition icmp_size (E : env) (b : bytes) : res N :=
  let* h := icmp_header_size b in let* p := icmp_payload_size E b in usize_add E h p.
(** src/icmp/packet.rs:54-56 *)
Definition icmp_unchecked (b : bytes) : bytes := b.
(** src/icmp/packet.rs:59-69; also as_packet/as_packet_mut, 101-111 *)
Definition icmp_new (b : bytes) : res bytes :=
  if len b <? icmp_header_min then Err SmallBuffer else Ok b.
(** src/icmp/packet.rs:79-81 *)
Definition icmp_to_owned (b : bytes) : bytes := b.
(** src/icmp/packet.rs:84-90; as_mut, 92-99, is the same range *)
Definition icmp_as_ref (E : env) (b : bytes) : res bytes := let* n := icmp_size E b in slice_to b n.
(** src/icmp/packet.rs:113-117; split_mut, 119-123, is the same ranges *)
Definition icmp_split (b : bytes) : res (bytes * bytes) := split_at b 4.
(** src/packet.rs:20-27 *)
Definition icmp_header (b : bytes) : res bytes := let* (h, _) := icmp_split b in Ok h.
Definition icmp_payload (b : bytes) : res bytes := let* (_, p) := icmp_split b in Ok p.
(** src/icmp/packet.rs:141-143 *)
Definition icmp_get_kind (b : bytes) : res icmp_kind :=
  let* x := index b 0 in Ok (icmp_kind_from x).
(** src/icmp/packet.rs:146-148 *)
Definition icmp_code (b : bytes) : res N := index b 1.
(** src/icmp/packet.rs:151-153 *)
Definition icmp_checksum (b : bytes) : res N := get_u16 b 2.
(** src/icmp/packet.rs:156-158 *)
Definition icmp_is_valid (E : env) (b : bytes) : res bool :=
  let* c := icmp_checksum_of E b in
  let* s := icmp_checksum b in Ok (c =? s).

(** ** Checked guard: src/icmp/packet.rs:184-194.  [as_ref] is the packet's
    own; the write goes through [as_mut()[2 ..]] (the same range). *)
Definition icmp_checked_drop (E : env) (as_ref : bytes -> res bytes) : mut :=
  mlet (fun b => let* s := as_ref b in
                 let* c := icmp_checksum_of E s in Ok (len s, c))
       (fun nc => prefix_mut (fst nc) (write_u16 2 (snd nc))).

(** The guard common to every typed parser: a minimum length, then a set of
    accepted kinds (e.g. src/icmp/echo/packet.rs:60-79). *)
Definition icmp_typed_new (min : N) (accept : icmp_kind -> bool) (b : bytes) : res bytes :=
  if len b <? min then Err SmallBuffer
  else
    let* x := index b 0 in
    if accept (icmp_kind_from x) then Ok b else Err InvalidPacket.

(** ** Echo: src/icmp/echo/packet.rs *)
(** src/icmp/echo/packet.rs:29-39 (sized!) *)
Definition echo_header_size (b : bytes) : res N := Ok 8.
Definition echo_payload_size (E : env) (b : bytes) : res N := usize_sub E (len b) 8.
Definition echo_size (E : env) (b : bytes) : res N :=
  let* h := echo_header_size b in let* p := echo_payload_size E b in usize_add E h p.
(** src/icmp/echo/packet.rs:54-56 *)
Definition echo_unchecked (b : bytes) : bytes := b.
(** src/icmp/echo/packet.rs:60-79 (min at line 31); icmp::Packet::echo/echo_mut
    (src/icmp/packet.rs:125-137, 160-161) and as_packet, 111-121, call it. *)
Definition echo_new (b : bytes) : res bytes :=
  icmp_typed_new 8 (fun k => match k with K_EchoRequest | K_EchoReply => true | _ => false end) b.
(** src/icmp/echo/packet.rs:89-91 *)
Definition echo_to_owned (b : bytes) : bytes := b.
(** src/icmp/echo/packet.rs:94-100; as_mut, 102-109, is the same range *)
Definition echo_as_ref (E : env) (b : bytes) : res bytes := let* n := echo_size E b in slice_to b n.
(** src/icmp/echo/packet.rs:123-127; split_mut, 129-133 *)
Definition echo_split (b : bytes) : res (bytes * bytes) := split_at b 8.
Definition echo_header (b : bytes) : res bytes := let* (h, _) := echo_split b in Ok h.
Definition echo_payload (b : bytes) : res bytes := let* (_, p) := echo_split b in Ok p.
(** src/icmp/echo/packet.rs:137-139 *)
Definition echo_is_request (b : bytes) : res bool :=
  let* x := index b 0 in Ok (match icmp_kind_from x with K_EchoRequest => true | _ => false end).
(** src/icmp/echo/packet.rs:142-144 *)
Definition echo_is_reply (b : bytes) : res bool :=
  let* x := index b 0 in Ok (match icmp_kind_from x with K_EchoReply => true | _ => false end).
(** src/icmp/echo/packet.rs:147-149 *)
Definition echo_identifier (b : bytes) : res N := get_u16 b 4.
(** src/icmp/echo/packet.rs:152-154 *)
Definition echo_sequence (b : bytes) : res N := get_u16 b 6.
(** src/icmp/echo/packet.rs:159-163 *)
Definition echo_make_request : mut := set_index 0 (icmp_kind_into K_EchoRequest).
(** src/icmp/echo/packet.rs:166-170 *)
Definition echo_make_reply : mut := set_index 0 (icmp_kind_into K_EchoReply).
(** src/icmp/echo/packet.rs:173-178 *)
Definition echo_set_identifier (v : N) : mut := write_u16 4 v.
(** src/icmp/echo/packet.rs:181-186 *)
Definition echo_set_sequence (v : N) : mut := write_u16 6 v.
(** Calls on a packet or guard (src/icmp/echo/packet.rs:196-220). *)
Inductive echo_setter :=
| EchoMakeRequest | EchoMakeReply | EchoSetIdentifier (v : N) | EchoSetSequence (v : N).
Definition echo_apply (s : echo_setter) : mut :=
  match s with
  | EchoMakeRequest => echo_make_request
  | EchoMakeReply => echo_make_reply
  | EchoSetIdentifier v => echo_set_identifier v
  | EchoSetSequence v => echo_set_sequence v
  end.
(** src/icmp/echo/packet.rs:189-193 *)
Definition echo_checked (E : env) (ops : list echo_setter) : mut :=
  run_guard echo_apply (icmp_checked_drop E (echo_as_ref E)) ops.

(** ** Information: src/icmp/information/packet.rs *)
(** src/icmp/information/packet.rs:29-40 (sized!) *)
Definition information_header_size (b : bytes) : res N := Ok 8.
Definition information_payload_size (b : bytes) : res N := Ok 0.
Definition information_size (E : env) (b : bytes) : res N :=
  let* h := information_header_size b in let* p := information_payload_size b in usize_add E h p.
(** src/icmp/information/packet.rs:53-55 *)
Definition information_unchecked (b : bytes) : bytes := b.
(** src/icmp/information/packet.rs:59-78; as_packet/as_packet_mut, 110-120; src/icmp/packet.rs:166-167 *)
Definition information_new (b : bytes) : res bytes :=
  icmp_typed_new 8 (fun k => match k with K_InformationRequest | K_InformationReply => true | _ => false end) b.
(** src/icmp/information/packet.rs:88-90 *)
Definition information_to_owned (b : bytes) : bytes := b.
(** src/icmp/information/packet.rs:93-99; as_mut, 101-108 *)
Definition information_as_ref (E : env) (b : bytes) : res bytes :=
  let* n := information_size E b in slice_to b n.
(** src/icmp/information/packet.rs:122-126; split_mut, 128-132 *)
Definition information_split (b : bytes) : res (bytes * bytes) := split_at b 8.
Definition information_header (b : bytes) : res bytes := let* (h, _) := information_split b in Ok h.
Definition information_payload (b : bytes) : res bytes := let* (_, p) := information_split b in Ok p.
(** src/icmp/information/packet.rs:136-138 *)
Definition information_is_request (b : bytes) : res bool :=
  let* x := index b 0 in Ok (match icmp_kind_from x with K_InformationRequest => true | _ => false end).
(** src/icmp/information/packet.rs:141-143 *)
Definition information_is_reply (b : bytes) : res bool :=
  let* x := index b 0 in Ok (match icmp_kind_from x with K_InformationReply => true | _ => false end).
(** src/icmp/information/packet.rs:146-148 *)
Definition information_identifier (b : bytes) : res N := get_u16 b 4.
(** src/icmp/information/packet.rs:151-153 *)
Definition information_sequence (b : bytes) : res N := get_u16 b 6.
(** src/icmp/information/packet.rs:158-162 (writes the Echo kind, as the code does) *)
Definition information_make_request : mut := set_index 0 (icmp_kind_into K_EchoRequest).
(** src/icmp/information/packet.rs:165-169 *)
Definition information_make_reply : mut := set_index 0 (icmp_kind_into K_EchoReply).
(** src/icmp/information/packet.rs:172-177 *)
Definition information_set_identifier (v : N) : mut := write_u16 4 v.
(** src/icmp/information/packet.rs:180-185 *)
Definition information_set_sequence (v : N) : mut := write_u16 6 v.
(** src/icmp/information/packet.rs:195-219 *)
Inductive information_setter :=
| InfoMakeRequest | InfoMakeReply | InfoSetIdentifier (v : N) | InfoSetSequence (v : N).
Definition information_apply (s : information_setter) : mut :=
  match s with
  | InfoMakeRequest => information_make_request
  | InfoMakeReply => information_make_reply
  | InfoSetIdentifier v => information_set_identifier v
  | InfoSetSequence v => information_set_sequence v
  end.
(** src/icmp/information/packet.rs:188-192 *)
Definition information_checked (E : env) (ops : list information_setter) : mut :=
  run_guard information_apply (icmp_checked_drop E (information_as_ref E)) ops.

(** ** Timestamp: src/icmp/timestamp/packet.rs *)
(** src/icmp/timestamp/packet.rs:29-40 (sized!) *)
Definition timestamp_header_size (b : bytes) : res N := Ok 20.
Definition timestamp_payload_size (b : bytes) : res N := Ok 0.
Definition timestamp_size (E : env) (b : bytes) : res N :=
  let* h := timestamp_header_size b in let* p := timestamp_payload_size b in usize_add E h p.
(** src/icmp/timestamp/packet.rs:57-59 *)
Definition timestamp_unchecked (b : bytes) : bytes := b.
(** src/icmp/timestamp/packet.rs:63-82; as_packet/as_packet_mut, 114-124; src/icmp/packet.rs:163-164 *)
Definition timestamp_new (b : bytes) : res bytes :=
  icmp_typed_new 20 (fun k => match k with K_TimestampRequest | K_TimestampReply => true | _ => false end) b.
(** src/icmp/timestamp/packet.rs:92-94 *)
Definition timestamp_to_owned (b : bytes) : bytes := b.
(** src/icmp/timestamp/packet.rs:97-103; as_mut, 105-112 *)
Definition timestamp_as_ref (E : env) (b : bytes) : res bytes :=
  let* n := timestamp_size E b in slice_to b n.
(** src/icmp/timestamp/packet.rs:126-130; split_mut, 132-136 *)
Definition timestamp_split (b : bytes) : res (bytes * bytes) := split_at b 8.
Definition timestamp_header (b : bytes) : res bytes := let* (h, _) := timestamp_split b in Ok h.
Definition timestamp_payload (b : bytes) : res bytes := let* (_, p) := timestamp_split b in Ok p.
(** src/icmp/timestamp/packet.rs:140-142 *)
Definition timestamp_is_request (b : bytes) : res bool :=
  let* x := index b 0 in Ok (match icmp_kind_from x with K_TimestampRequest => true | _ => false end).
(** src/icmp/timestamp/packet.rs:145-147 *)
Definition timestamp_is_reply (b : bytes) : res bool :=
  let* x := index b 0 in Ok (match icmp_kind_from x with K_TimestampReply => true | _ => false end).
(** src/icmp/timestamp/packet.rs:150-152 *)
Definition timestamp_identifier (b : bytes) : res N := get_u16 b 4.
(** src/icmp/timestamp/packet.rs:155-157 *)
Definition timestamp_sequence (b : bytes) : res N := get_u16 b 6.
(** src/icmp/timestamp/packet.rs:160-162 *)
Definition timestamp_originate (b : bytes) : res N := get_u32 b 8.
(** src/icmp/timestamp/packet.rs:165-167 *)
Definition timestamp_receive (b : bytes) : res N := get_u32 b 12.
(** src/icmp/timestamp/packet.rs:170-172 *)
Definition timestamp_transmit (b : bytes) : res N := get_u32 b 16.
(** src/icmp/timestamp/packet.rs:177-181 (writes the Echo kind, as the code does) *)
Definition timestamp_make_request : mut := set_index 0 (icmp_kind_into K_EchoRequest).
(** src/icmp/timestamp/packet.rs:184-188 *)
Definition timestamp_make_reply : mut := set_index 0 (icmp_kind_into K_EchoReply).
(** src/icmp/timestamp/packet.rs:191-196 *)
Definition timestamp_set_identifier (v : N) : mut := write_u16 4 v.
(** src/icmp/timestamp/packet.rs:199-204 *)
Definition timestamp_set_sequence (v : N) : mut := write_u16 6 v.
(** src/icmp/timestamp/packet.rs:207-212 *)
Definition timestamp_set_originate (v : N) : mut := write_u32 8 v.
(** src/icmp/timestamp/packet.rs:215-220 *)
Definition timestamp_set_receive (v : N) : mut := write_u32 12 v.
(** src/icmp/timestamp/packet.rs:223-228 *)
Definition timestamp_set_transmit (v : N) : mut := write_u32 16 v.
(** src/icmp/timestamp/packet.rs:238-280 *)
Inductive timestamp_setter :=
| TsMakeRequest | TsMakeReply | TsSetIdentifier (v : N) | TsSetSequence (v : N)
| TsSetOriginate (v : N) | TsSetReceive (v : N) | TsSetTransmit (v : N).
Definition timestamp_apply (s : timestamp_setter) : mut :=
  match s with
  | TsMakeRequest => timestamp_make_request
  | TsMakeReply => timestamp_make_reply
  | TsSetIdentifier v => timestamp_set_identifier v
  | TsSetSequence v => timestamp_set_sequence v
  | TsSetOriginate v => timestamp_set_originate v
  | TsSetReceive v => timestamp_set_receive v
  | TsSetTransmit v => timestamp_set_transmit v
  end.
(** src/icmp/timestamp/packet.rs:231-235 *)
Definition timestamp_checked (E : env) (ops : list timestamp_setter) : mut :=
  run_guard timestamp_apply (icmp_checked_drop E (timestamp_as_ref E)) ops.

(** ** Messages embedding the offending datagram *)
(** [packet()]: src/icmp/parameter_problem/packet.rs:148-150,
    src/icmp/redirect_message/packet.rs:150-152, src/icmp/previous/packet.rs:145-147 *)
Definition embedded_packet (b : bytes) : res bytes :=
  let* s := slice_from b 8 in v4_new s.
(** payload size:
    src/icmp/parameter_problem/packet.rs:38-45, src/icmp/redirect_message/packet.rs:39-46, src/icmp/previous/packet.rs:38-45 *)
Definition embedded_payload_size (E : env) (b : bytes) : res N :=
  match embedded_packet b with
  | Ok p => v4_header_size p
  | Err _ => usize_sub E (len b) 8
  | Panic => Panic
  end.
(** header size 8 (parameter_problem/packet.rs:32, redirect_message/packet.rs:33,
    previous/packet.rs:32) plus payload size (src/size.rs:87-91) *)
Definition embedded_size (E : env) (b : bytes) : res N :=
  let* p := embedded_payload_size E b in usize_add E 8 p.
(** as_ref, and as_mut likewise:
    src/icmp/parameter_problem/packet.rs:98-104, src/icmp/redirect_message/packet.rs:98-104, src/icmp/previous/packet.rs:100-106 *)
Definition embedded_as_ref (E : env) (b : bytes) : res bytes :=
  let* n := embedded_size E b in slice_to b n.

(** *** Parameter Problem *)
(** src/icmp/parameter_problem/packet.rs:59-61 *)
Definition parameter_problem_unchecked (b : bytes) : bytes := b.
(** src/icmp/parameter_problem/packet.rs:65-83; as_packet/as_packet_mut, 115-125; src/icmp/packet.rs:169-170 *)
Definition parameter_problem_new (b : bytes) : res bytes :=
  icmp_typed_new 8 (fun k => match k with K_ParameterProblem => true | _ => false end) b.
(** src/icmp/parameter_problem/packet.rs:93-95 *)
Definition parameter_problem_to_owned (b : bytes) : bytes := b.
(** src/icmp/parameter_problem/packet.rs:29-33 *)
Definition parameter_problem_header_size (b : bytes) : res N := Ok 8.
(** src/icmp/parameter_problem/packet.rs:127-132; split_mut, 134-139 *)
Definition parameter_problem_split (b : bytes) : res (bytes * bytes) :=
  let* (h, p) := split_at b 8 in let* h' := slice_to h 5 in Ok (h', p).
Definition parameter_problem_header (b : bytes) : res bytes :=
  let* (h, _) := parameter_problem_split b in Ok h.
Definition parameter_problem_payload (b : bytes) : res bytes :=
  let* (_, p) := parameter_problem_split b in Ok p.
(** src/icmp/parameter_problem/packet.rs:143-145 *)
Definition parameter_problem_pointer (b : bytes) : res N := index b 4.

(** *** Redirect Message *)
(** src/icmp/redirect_message/packet.rs:60-62 *)
Definition redirect_message_unchecked (b : bytes) : bytes := b.
(** src/icmp/redirect_message/packet.rs:65-83; as_packet/as_packet_mut, 115-125; src/icmp/packet.rs:172-173 *)
Definition redirect_message_new (b : bytes) : res bytes :=
  icmp_typed_new 8 (fun k => match k with K_RedirectMessage => true | _ => false end) b.
(** src/icmp/redirect_message/packet.rs:93-95 *)
Definition redirect_message_to_owned (b : bytes) : bytes := b.
(** src/icmp/redirect_message/packet.rs:30-34 *)
Definition redirect_message_header_size (b : bytes) : res N := Ok 8.
(** src/icmp/redirect_message/packet.rs:127-131; split_mut, 133-137 *)
Definition redirect_message_split (b : bytes) : res (bytes * bytes) := split_at b 8.
Definition redirect_message_header (b : bytes) : res bytes :=
  let* (h, _) := redirect_message_split b in Ok h.
Definition redirect_message_payload (b : bytes) : res bytes :=
  let* (_, p) := redirect_message_split b in Ok p.
(** src/icmp/redirect_message/packet.rs:141-147 *)
Definition redirect_message_gateway (b : bytes) : res ipv4addr :=
  let* x := index b 4 in let* y := index b 5 in
  let* z := index b 6 in let* w := index b 7 in Ok (Ip4 x y z w).

(** *** Previous (Source Quench, Destination Unreachable, Time Exceeded) *)
(** src/icmp/previous/packet.rs:59-61 *)
Definition previous_unchecked (b : bytes) : bytes := b.
(** src/icmp/previous/packet.rs:65-85; as_packet/as_packet_mut, 117-127; src/icmp/packet.rs:175-176 *)
Definition previous_new (b : bytes) : res bytes :=
  icmp_typed_new 8 (fun k => match k with
                             | K_SourceQuench | K_DestinationUnreachable | K_TimeExceeded => true
                             | _ => false end) b.
(** src/icmp/previous/packet.rs:95-97 *)
Definition previous_to_owned (b : bytes) : bytes := b.
(** src/icmp/previous/packet.rs:29-33 *)
Definition previous_header_size (b : bytes) : res N := Ok 8.
(** src/icmp/previous/packet.rs:129-134; split_mut, 136-141 *)
Definition previous_split (b : bytes) : res (bytes * bytes) :=
  let* (h, p) := split_at b 8 in let* h' := slice_to h 4 in Ok (h', p).
Definition previous_header (b : bytes) : res bytes := let* (h, _) := previous_split b in Ok h.
Definition previous_payload (b : bytes) : res bytes := let* (_, p) := previous_split b in Ok p.
