(** * Tcp: src/tcp (packet.rs, mod.rs, option.rs, flag.rs). *)
From Verif Require Import Base Enums Ipv4 Ip Udp.

(** ** Checksum *)
(** The loops of src/tcp/mod.rs:70-72 and 75-84: adds without folding.  Returns
    the accumulator and the bytes not consumed (at most one; nonempty is the
    test [bytes_read != buffer_length] of line 88). *)
Fixpoint plain_loop (E : env) (skip pos : N) (b : bytes) (result : N) : res (N * bytes) :=
  match b with
  | x :: y :: rest =>
      let pos' := pos + 2 in
      if pos' =? skip then plain_loop E skip pos' rest result
      else
        let* s := u32_add E result (x * 256 + y) in
        plain_loop E skip pos' rest s
  | _ => Ok (result, b)
  end.
(** src/tcp/mod.rs:95-97: [while result >> 16 != 0].  Explicit fuel; [None]
    when it runs out (no u32 needs more than 3 rounds, proved). *)
Fixpoint fold_loop (E : env) (fuel : nat) (result : N) : option (res N) :=
  if N.shiftr result 16 =? 0 then Some (Ok result)
  else match fuel with
       | O => None
       | S k => match u32_add E (N.land result 65535) (N.shiftr result 16) with
                | Ok r => fold_loop E k r
                | Err e => Some (Err e)
                | Panic => Some Panic
                end
       end.
(** src/tcp/mod.rs:39-100.  Running out of fuel would be non-termination; it is
    rendered as [Err Io], which a Rust u16-returning function cannot produce, so
    the theorems exclude it. *)
Definition tcp_checksum_of (E : env) (ip : ip_packet) (b : bytes) : res N :=
  let* prefix := pseudo_header IP_Tcp ip b in
  let* (r1, _) := plain_loop E 0 0 prefix 0 in
  let* (r2, rest) := plain_loop E 18 0 b r1 in
  let* r3 :=
    match rest with
    | [] => Ok r2
    | x :: _ =>
        match cursor_eof E with
        | EofKeep => u32_add E r2 (N.shiftl x 8)
        | EofSeek => Panic               (* read_u8().unwrap() at the end *)
        end
    end in
  match fold_loop E 3 r3 with
  | Some r => let* r4 := r in Ok (not_u32_as_u16 r4)
  | None => Err Io
  end.

(** ** Packet *)
(** src/tcp/packet.rs:142-144 *)
Definition tcp_source (b : bytes) : res N := get_u16 b 0.
(** src/tcp/packet.rs:147-149 *)
Definition tcp_destination (b : bytes) : res N := get_u16 b 2.
(** src/tcp/packet.rs:152-154 *)
Definition tcp_sequence (b : bytes) : res N := get_u32 b 4.
(** src/tcp/packet.rs:157-159 *)
Definition tcp_acknowledgment (b : bytes) : res N := get_u32 b 8.
(** src/tcp/packet.rs:162-164 *)
Definition tcp_offset (b : bytes) : res N := let* x := index b 12 in Ok (N.shiftr x 4).
(** src/tcp/flag.rs:17-47: all nine bits are defined *)
Definition tcp_flags_all : N := 511.
(** src/tcp/packet.rs:167-170 *)
Definition tcp_flags (b : bytes) : res N :=
  let* v := get_u16 b 12 in unwrap (flags_from_bits tcp_flags_all (N.land v 511)).
(** src/tcp/packet.rs:173-175 *)
Definition tcp_window (b : bytes) : res N := get_u16 b 14.
(** src/tcp/packet.rs:178-180 *)
Definition tcp_checksum (b : bytes) : res N := get_u16 b 16.
(** src/tcp/packet.rs:188-190 *)
Definition tcp_pointer (b : bytes) : res N := get_u16 b 18.
(** src/tcp/packet.rs:183-185 *)
Definition tcp_is_valid (E : env) (ip : ip_packet) (b : bytes) : res bool :=
  let* c := tcp_checksum_of E ip b in
  let* s := tcp_checksum b in Ok (c =? s).
(** src/tcp/packet.rs:193-197: the iterator starts as this slice *)
Definition tcp_options (b : bytes) : res bytes := let* o := tcp_offset b in slice b 20 (o * 4).

(** src/tcp/packet.rs:31-42 (sized!) *)
Definition tcp_header_min : N := 20.
Definition tcp_header_max : N := 60.
Definition tcp_payload_min : N := 0.
Definition tcp_payload_max : N := 65535 - 60.
Definition tcp_header_size (b : bytes) : res N := let* o := tcp_offset b in Ok (o * 4).
Definition tcp_payload_size (E : env) (b : bytes) : res N :=
  let* o := tcp_offset b in usize_sub E (len b) (o * 4).
(** src/size.rs:87-91 *)
Definition tcp_size (E : env) (b : bytes) : res N :=
  let* h := tcp_header_size b in let* p := tcp_payload_size E b in usize_add E h p.

(** src/tcp/packet.rs:63-65 *)
Definition tcp_unchecked (b : bytes) : bytes := b.
(** src/tcp/packet.rs:68-82; also as_packet/as_packet_mut, 114-124 *)
Definition tcp_new (b : bytes) : res bytes :=
  if len b <? tcp_header_min then Err SmallBuffer
  else
    let* o := tcp_offset b in
    if len b <? o * 4 then Err SmallBuffer else Ok b.
(** src/tcp/packet.rs:92-94 *)
Definition tcp_to_owned (b : bytes) : bytes := b.
(** src/tcp/packet.rs:97-103; as_mut, 105-112, is the same range *)
Definition tcp_as_ref (E : env) (b : bytes) : res bytes := let* n := tcp_size E b in slice_to b n.
(** src/tcp/packet.rs:126-131; split_mut, 133-138, is the same ranges *)
Definition tcp_split (b : bytes) : res (bytes * bytes) :=
  let* o := tcp_offset b in split_at b (o * 4).
(** src/packet.rs:20-27 *)
Definition tcp_header (b : bytes) : res bytes := let* (h, _) := tcp_split b in Ok h.
Definition tcp_payload (b : bytes) : res bytes := let* (_, p) := tcp_split b in Ok p.

(** ** Setters *)
(** src/tcp/packet.rs:202-207 *)
Definition tcp_set_source (v : N) : mut := header_mut tcp_split (write_u16 0 v).
(** src/tcp/packet.rs:210-215 *)
Definition tcp_set_destination (v : N) : mut := header_mut tcp_split (write_u16 2 v).
(** src/tcp/packet.rs:218-223 *)
Definition tcp_set_sequence (v : N) : mut := header_mut tcp_split (write_u32 4 v).
(** src/tcp/packet.rs:226-231 *)
Definition tcp_set_acknowledgment (v : N) : mut := header_mut tcp_split (write_u32 8 v).
(** src/tcp/packet.rs:234-241; [v] is [value.bits()] *)
Definition tcp_set_flags (v : N) : mut :=
  mlet (fun b => let* h := tcp_header b in index h 12)
       (fun x => header_mut tcp_split
                   (write_u16 12 (N.lor (shl_u16 (N.land x 240) 12) v))).
(** src/tcp/packet.rs:244-249 *)
Definition tcp_set_window (v : N) : mut := header_mut tcp_split (write_u16 14 v).
(** src/tcp/packet.rs:252-257 *)
Definition tcp_set_pointer (v : N) : mut := header_mut tcp_split (write_u16 18 v).
(** src/tcp/packet.rs:268-273 *)
Definition tcp_set_checksum (v : N) : mut := header_mut tcp_split (write_u16 16 v).
(** src/tcp/packet.rs:276-279 *)
Definition tcp_update_checksum (E : env) (ip : ip_packet) : mut :=
  mlet (tcp_checksum_of E ip) tcp_set_checksum.

(** Calls on a packet or [Checked] guard (src/tcp/packet.rs:295-340). *)
Inductive tcp_setter :=
| TcpSetSource (v : N) | TcpSetDestination (v : N) | TcpSetSequence (v : N)
| TcpSetAcknowledgment (v : N) | TcpSetFlags (v : N) | TcpSetWindow (v : N)
| TcpSetPointer (v : N).
Definition tcp_apply (s : tcp_setter) : mut :=
  match s with
  | TcpSetSource v => tcp_set_source v
  | TcpSetDestination v => tcp_set_destination v
  | TcpSetSequence v => tcp_set_sequence v
  | TcpSetAcknowledgment v => tcp_set_acknowledgment v
  | TcpSetFlags v => tcp_set_flags v
  | TcpSetWindow v => tcp_set_window v
  | TcpSetPointer v => tcp_set_pointer v
  end.
(** src/tcp/packet.rs:260-265, 342-349 *)
Definition tcp_checked (E : env) (ip : ip_packet) (ops : list tcp_setter) : mut :=
  run_guard tcp_apply (tcp_update_checksum E ip) ops.

(** ** Options: src/tcp/option.rs *)
(** src/tcp/option.rs:157-159 *)
Definition tcpopt_get_number (b : bytes) : res tcpopt_number :=
  let* x := index b 0 in Ok (tcpopt_number_from x).
(** src/tcp/option.rs:162-171 *)
Definition tcpopt_length (b : bytes) : res N :=
  let* n := tcpopt_get_number b in
  match n with
  | TN_End | TN_NoOperation => Ok 1
  | _ => index b 1
  end.
(** src/tcp/option.rs:26-43 (sized!) *)
Definition tcpopt_header_min : N := 1.
Definition tcpopt_header_max : N := 2.
Definition tcpopt_payload_max : N := 32.
Definition tcpopt_header_size (b : bytes) : res N :=
  let* l := tcpopt_length b in Ok (if l =? 1 then 1 else 2).
Definition tcpopt_payload_size (E : env) (b : bytes) : res N :=
  let* l := tcpopt_length b in if l =? 1 then Ok 0 else usize_sub E l 2.
(** src/size.rs:87-91 *)
Definition tcpopt_size (E : env) (b : bytes) : res N :=
  let* h := tcpopt_header_size b in let* p := tcpopt_payload_size E b in usize_add E h p.
(** src/tcp/option.rs:85-99; also as_packet/as_packet_mut, 119-129 *)
Definition tcpopt_new (b : bytes) : res bytes :=
  if len b <? tcpopt_header_min then Err SmallBuffer
  else let* l := tcpopt_length b in
       if len b <? l then Err SmallBuffer else Ok b.
(** src/tcp/option.rs:102-108; as_mut, 110-117, is the same range *)
Definition tcpopt_as_ref (E : env) (b : bytes) : res bytes :=
  let* n := tcpopt_size E b in slice_to b n.
(** src/tcp/option.rs:131-141; split_mut, 143-153, is the same ranges *)
Definition tcpopt_split (b : bytes) : res (bytes * bytes) :=
  let* l := tcpopt_length b in
  if l =? 1 then split_at b 1 else let* s := slice_to b l in split_at s 2.
Definition tcpopt_payload (b : bytes) : res bytes := let* (_, p) := tcpopt_split b in Ok p.

(** src/tcp/packet.rs:359-379: one call of [OptionIter::next]. *)
Definition tcp_iter_next (E : env) (b : bytes) : res (step * bytes) :=
  if len b =? 0 then Ok (Finished, b)
  else match tcpopt_new b with
       | Ok o =>
           let* n := tcpopt_get_number o in
           match n with
           | TN_End => Ok (Finished, b)
           | _ => let* s := tcpopt_size E o in
                  let* b' := slice_from b s in Ok (Yield o, b')
           end
       | Err e => Ok (YieldErr e, b)
       | Panic => Panic
       end.
