(** * Ipv4: src/ip/v4 (packet.rs, option.rs, flag.rs, mod.rs). *)
From Verif Require Import Base Enums.

(** ** Checksum *)
(** The loop of src/ip/v4/mod.rs:37-48 (also src/icmp/mod.rs:53-64 and
    src/udp/mod.rs:60-66, 68-79, with other [skip]): reads 16-bit words through a
    Cursor whose position is [pos], skips the word after which the position is
    [skip] ([skip] = 0 never matches), adds with end-around carry.  Returns the
    accumulator and the bytes not consumed (at most one). *)
Fixpoint carry_loop (E : env) (skip pos : N) (b : bytes) (result : N) : res (N * bytes) :=
  match b with
  | x :: y :: rest =>
      let pos' := pos + 2 in
      if pos' =? skip then carry_loop E skip pos' rest result
      else
        let* s := u32_add E result (x * 256 + y) in
        carry_loop E skip pos' rest (if 65535 <? s then s - 65535 else s)
  | _ => Ok (result, b)
  end.

(** src/ip/v4/mod.rs:30-51 *)
Definition v4_checksum_of (E : env) (b : bytes) : res N :=
  let* (r, _) := carry_loop E 12 0 b 65535 in Ok (not_u32_as_u16 r).

(** ** Packet *)
(** src/ip/v4/packet.rs:187-189 *)
Definition v4_version (b : bytes) : res N := let* x := index b 0 in Ok (N.shiftr x 4).
(** src/ip/v4/packet.rs:192-194 *)
Definition v4_ihl (b : bytes) : res N := let* x := index b 0 in Ok (N.land x 15).
(** src/ip/v4/packet.rs:197-199 *)
Definition v4_dscp (b : bytes) : res N := let* x := index b 1 in Ok (N.shiftr x 2).
(** src/ip/v4/packet.rs:202-204 *)
Definition v4_ecn (b : bytes) : res N := let* x := index b 1 in Ok (N.land x 3).
(** src/ip/v4/packet.rs:207-209 *)
Definition v4_length (b : bytes) : res N := get_u16 b 2.
(** src/ip/v4/packet.rs:212-214 *)
Definition v4_id (b : bytes) : res N := get_u16 b 4.
(** src/ip/v4/flag.rs:17-26: DONT_FRAGMENT = 0b010, MORE_FRAGMENTS = 0b100 *)
Definition IP_DONT_FRAGMENT : N := 2.
Definition IP_MORE_FRAGMENTS : N := 4.
Definition ip_flags_all : N := 6.
(** src/ip/v4/packet.rs:217-220 *)
Definition v4_flags (b : bytes) : res N :=
  let* v := get_u16 b 6 in unwrap (flags_from_bits ip_flags_all (N.shiftr v 13)).
(** src/ip/v4/packet.rs:223-225 *)
Definition v4_offset (b : bytes) : res N :=
  let* v := get_u16 b 6 in Ok (N.land v 8191).
(** src/ip/v4/packet.rs:228-230 *)
Definition v4_ttl (b : bytes) : res N := index b 8.
(** src/ip/v4/packet.rs:233-235 *)
Definition v4_protocol (b : bytes) : res ip_protocol :=
  let* x := index b 9 in Ok (ip_protocol_from x).
(** src/ip/v4/packet.rs:238-240 *)
Definition v4_checksum (b : bytes) : res N := get_u16 b 10.
(** src/ip/v4/packet.rs:248-254 *)
Definition v4_source (b : bytes) : res ipv4addr :=
  let* x := index b 12 in let* y := index b 13 in
  let* z := index b 14 in let* w := index b 15 in Ok (Ip4 x y z w).
(** src/ip/v4/packet.rs:257-263 *)
Definition v4_destination (b : bytes) : res ipv4addr :=
  let* x := index b 16 in let* y := index b 17 in
  let* z := index b 18 in let* w := index b 19 in Ok (Ip4 x y z w).

(** src/ip/v4/packet.rs:33-44 (sized!).  Sums of u8/u16-derived sizes cannot
    overflow usize, so plain [+] and [*] are used; [N] subtraction is saturating. *)
Definition v4_header_min : N := 20.
Definition v4_header_max : N := 60.
Definition v4_payload_min : N := 0.
Definition v4_payload_max : N := 65535 - 60.
Definition v4_header_size (b : bytes) : res N := let* h := v4_ihl b in Ok (h * 4).
Definition v4_payload_size (b : bytes) : res N :=
  let* l := v4_length b in let* h := v4_ihl b in Ok (l - h * 4).
(** src/size.rs:87-91 *)
Definition v4_size (b : bytes) : res N :=
  let* h := v4_header_size b in let* p := v4_payload_size b in Ok (h + p).

(** src/ip/v4/packet.rs:69-71 *)
Definition v4_unchecked (b : bytes) : bytes := b.
(** src/ip/v4/packet.rs:74-92 *)
Definition v4_no_payload (b : bytes) : res bytes :=
  if len b <? v4_header_min then Err SmallBuffer
  else
    let* x := index b 0 in
    if negb (N.shiftr x 4 =? 4) then Err InvalidPacket
    else
      let* h := v4_ihl b in
      if len b <? h * 4 then Err SmallBuffer else Ok b.
(** src/ip/v4/packet.rs:95-103; also as_packet/as_packet_mut, 135-145 *)
Definition v4_new (b : bytes) : res bytes :=
  let* p := v4_no_payload b in
  let* l := v4_length p in
  if len p <? l then Err SmallBuffer else Ok p.
(** src/ip/v4/packet.rs:113-115 *)
Definition v4_to_owned (b : bytes) : bytes := b.
(** src/ip/v4/packet.rs:118-124 *)
Definition v4_as_ref (b : bytes) : res bytes := let* n := v4_size b in slice_to b n.
(** src/ip/v4/packet.rs:147-164; split_mut, 166-183, is the same ranges *)
Definition v4_split (b : bytes) : res (bytes * bytes) :=
  let* i := v4_ihl b in
  let header := i * 4 in
  let* payload := v4_payload_size b in
  let* b' := (if len b <? header + payload then Ok b else slice_to b (header + payload)) in
  split_at b' header.
(** src/packet.rs:20-27 *)
Definition v4_header (b : bytes) : res bytes := let* (h, _) := v4_split b in Ok h.
Definition v4_payload (b : bytes) : res bytes := let* (_, p) := v4_split b in Ok p.

(** src/ip/v4/packet.rs:243-245 *)
Definition v4_is_valid (E : env) (b : bytes) : res bool :=
  let* h := v4_header b in
  let* c := v4_checksum_of E h in
  let* s := v4_checksum b in Ok (c =? s).
(** src/ip/v4/packet.rs:266-270: the iterator starts as this slice *)
Definition v4_options (b : bytes) : res bytes := let* h := v4_ihl b in slice b 20 (h * 4).

(** ** Setters *)
(** src/ip/v4/packet.rs:275-284 *)
Definition v4_set_dscp (v : N) : mut :=
  if 63 <? v then fun b => (b, Err InvalidValue)
  else mlet (fun b => index b 1)
            (fun old => set_index 1 (N.lor (N.land old 3) (shl_u8 v 2))).
(** src/ip/v4/packet.rs:287-296 *)
Definition v4_set_ecn (v : N) : mut :=
  if 3 <? v then fun b => (b, Err InvalidValue)
  else mlet (fun b => index b 1)
            (fun old => set_index 1 (N.lor (N.land old 63) v)).
(** src/ip/v4/packet.rs:299-304 *)
Definition v4_set_id (v : N) : mut := write_u16 4 v.
(** src/ip/v4/packet.rs:307-312; [v] is [value.bits()] *)
Definition v4_set_flags (v : N) : mut := header_mut v4_split (write_u16 6 v).
(** src/ip/v4/packet.rs:315-320 *)
Definition v4_set_offset (v : N) : mut := header_mut v4_split (write_u16 6 v).
(** src/ip/v4/packet.rs:323-327 *)
Definition v4_set_ttl (v : N) : mut := header_mut v4_split (set_index 8 v).
(** src/ip/v4/packet.rs:330-334 *)
Definition v4_set_source (v : ipv4addr) : mut := header_mut v4_split (copy_range 12 16 (octets v)).
(** src/ip/v4/packet.rs:337-341 *)
Definition v4_set_destination (v : ipv4addr) : mut := header_mut v4_split (copy_range 16 20 (octets v)).
(** src/ip/v4/packet.rs:344-348 *)
Definition v4_set_protocol (v : ip_protocol) : mut := header_mut v4_split (set_index 9 (ip_protocol_into v)).
(** src/ip/v4/packet.rs:358-363 *)
Definition v4_set_checksum (v : N) : mut := header_mut v4_split (write_u16 10 v).
(** src/ip/v4/packet.rs:366-369 *)
Definition v4_update_checksum (E : env) : mut :=
  mlet (fun b => let* h := v4_header b in v4_checksum_of E h) v4_set_checksum.

(** The calls available on a packet / on a [Checked] guard
    (src/ip/v4/packet.rs:381-435 forwards each to the packet). *)
Inductive v4_setter :=
| V4SetDscp (v : N) | V4SetEcn (v : N) | V4SetId (v : N) | V4SetFlags (v : N)
| V4SetOffset (v : N) | V4SetTtl (v : N) | V4SetSource (v : ipv4addr)
| V4SetDestination (v : ipv4addr) | V4SetProtocol (v : ip_protocol).
Definition v4_apply (s : v4_setter) : mut :=
  match s with
  | V4SetDscp v => v4_set_dscp v | V4SetEcn v => v4_set_ecn v | V4SetId v => v4_set_id v
  | V4SetFlags v => v4_set_flags v | V4SetOffset v => v4_set_offset v
  | V4SetTtl v => v4_set_ttl v | V4SetSource v => v4_set_source v
  | V4SetDestination v => v4_set_destination v | V4SetProtocol v => v4_set_protocol v
  end.
(** A guard's life: the user makes the calls in order (an [Err] is returned to
    the user, who may go on: stopping early is a shorter list), then the guard
    is dropped (src/ip/v4/packet.rs:437-441): [update_checksum().unwrap()]. *)
Fixpoint run_guard {A} (apply : A -> mut) (drop : mut) (ops : list A) : mut := fun b =>
  match ops with
  | [] => match drop b with (b', Ok _) => (b', Ok tt) | (b', _) => (b', Panic) end
  | o :: ops' => match apply o b with
                 | (b', Panic) => (b', Panic)
                 | (b', _) => run_guard apply drop ops' b'
                 end
  end.
Definition v4_checked (E : env) (ops : list v4_setter) : mut :=
  run_guard v4_apply (v4_update_checksum E) ops.

(** ** Options: src/ip/v4/option.rs *)
(** src/ip/v4/option.rs:239-241 *)
Definition v4opt_get_number (b : bytes) : res v4opt_number :=
  let* x := index b 0 in Ok (v4opt_number_from (N.land x 31)).
(** src/ip/v4/option.rs:225-227 *)
Definition v4opt_is_copied (b : bytes) : res bool :=
  let* x := index b 0 in Ok (N.shiftr x 7 =? 1).
(** src/ip/v4/option.rs:230-236 *)
Definition v4opt_get_class (b : bytes) : res v4opt_class :=
  let* x := index b 0 in
  Ok (match N.land (N.shiftr x 5) 3 with
      | 0 => OC_Control
      | 2 => OC_Debugging
      | v => OC_Reserved v
      end).
(** src/ip/v4/option.rs:244-253 *)
Definition v4opt_length (b : bytes) : res N :=
  let* n := v4opt_get_number b in
  match n with
  | ON_End | ON_NoOperation => Ok 1
  | _ => index b 1
  end.
(** src/ip/v4/option.rs:25-42 (sized!) *)
Definition v4opt_header_min : N := 1.
Definition v4opt_header_max : N := 2.
Definition v4opt_payload_max : N := 32.
Definition v4opt_header_size (b : bytes) : res N :=
  let* l := v4opt_length b in Ok (if l =? 1 then 1 else 2).
Definition v4opt_payload_size (E : env) (b : bytes) : res N :=
  let* l := v4opt_length b in if l =? 1 then Ok 0 else usize_sub E l 2.
(** src/size.rs:87-91 *)
Definition v4opt_size (E : env) (b : bytes) : res N :=
  let* h := v4opt_header_size b in let* p := v4opt_payload_size E b in usize_add E h p.
(** src/ip/v4/option.rs:150-166; as_packet/as_packet_mut, 186-196 *)
Definition v4opt_new (b : bytes) : res bytes :=
  if len b <? v4opt_header_min then Err SmallBuffer
  else let* l := v4opt_length b in
       if len b <? l then Err SmallBuffer else Ok b.
(** src/ip/v4/option.rs:169-175 *)
Definition v4opt_as_ref (E : env) (b : bytes) : res bytes :=
  let* n := v4opt_size E b in slice_to b n.
(** src/ip/v4/option.rs:198-208; split_mut, 210-220, is the same ranges *)
Definition v4opt_split (b : bytes) : res (bytes * bytes) :=
  let* l := v4opt_length b in
  if l =? 1 then split_at b 1 else let* s := slice_to b l in split_at s 2.
Definition v4opt_payload (b : bytes) : res bytes := let* (_, p) := v4opt_split b in Ok p.

(** The outcome of one call of an option iterator: [Finished] is [None],
    [Yield b] is [Some(Ok(option over b))], [YieldErr e] is [Some(Err(e))].
    src/ip/v4/packet.rs:448-451, src/tcp/packet.rs:356-359 *)
Inductive step := Finished | Yield (b : bytes) | YieldErr (e : error).

(** src/ip/v4/packet.rs:451-471: one call of [OptionIter::next] on the remaining
    area; gives what is returned and the area left for the next call. *)
Definition v4_iter_next (E : env) (b : bytes) : res (step * bytes) :=
  if len b =? 0 then Ok (Finished, b)
  else match v4opt_new b with
       | Ok o =>
           let* n := v4opt_get_number o in
           match n with
           | ON_End => Ok (Finished, b)
           | _ => let* s := v4opt_size E o in
                  let* b' := slice_from b s in Ok (Yield o, b')
           end
       | Err e => Ok (YieldErr e, b)
       | Panic => Panic
       end.
