(** * Ip: the generic IP packet and IPv6 (src/ip/packet.rs, src/ip/v6/packet.rs). *)
From Verif Require Import Base Enums Ipv4.

(** ** IPv6 *)
(** src/ip/v6/packet.rs:25-36 (sized!) *)
Definition v6_header_min : N := 0.
Definition v6_header_max : N := 0.
Definition v6_header_size (b : bytes) : res N := Ok 0.
Definition v6_payload_size (b : bytes) : res N := Ok 0.
(** src/size.rs:87-91 *)
Definition v6_size (b : bytes) : res N := Ok 0.
(** src/ip/v6/packet.rs:47-49 *)
Definition v6_unchecked (b : bytes) : bytes := b.
(** src/ip/v6/packet.rs:52-66 *)
Definition v6_no_payload (b : bytes) : res bytes :=
  if len b <? v6_header_min then Err SmallBuffer
  else
    let* x := index b 0 in
    if negb (N.shiftr x 4 =? 6) then Err InvalidPacket else Ok b.
(** src/ip/v6/packet.rs:69-71; also as_packet/as_packet_mut, 98-108 *)
Definition v6_new (b : bytes) : res bytes := v6_no_payload b.
(** src/ip/v6/packet.rs:81-83 *)
Definition v6_to_owned (b : bytes) : bytes := b.
(** src/ip/v6/packet.rs:86-90; as_mut, 92-96, is the same *)
Definition v6_as_ref (b : bytes) : res bytes := Ok [].
(** src/ip/v6/packet.rs:110-114; split_mut, 116-120, is the same *)
Definition v6_split (b : bytes) : res (bytes * bytes) := Ok ([], []).

(** ** Generic *)
(** src/ip/packet.rs:22-28 *)
Inductive ip_packet := V4 (b : bytes) | V6 (b : bytes).
(** The bytes of the buffer a packet holds. src/ip/packet.rs:22-28 *)
Definition ip_buffer (p : ip_packet) : bytes := match p with V4 b => b | V6 b => b end.

(** src/ip/packet.rs:36-47 *)
Definition ip_unchecked (b : bytes) : res ip_packet :=
  let* x := index b 0 in
  match N.shiftr x 4 with
  | 4 => Ok (V4 (v4_unchecked b))
  | 6 => Ok (V6 (v6_unchecked b))
  | _ => Panic
  end.
(** src/ip/packet.rs:50-61 *)
Definition ip_no_payload (b : bytes) : res ip_packet :=
  let* x := index b 0 in
  match N.shiftr x 4 with
  | 4 => let* p := v4_no_payload b in Ok (V4 p)
  | 6 => let* p := v6_no_payload b in Ok (V6 p)
  | _ => Err InvalidPacket
  end.
(** src/ip/packet.rs:64-75; also as_packet/as_packet_mut, 144-154 *)
Definition ip_new (b : bytes) : res ip_packet :=
  let* x := index b 0 in
  match N.shiftr x 4 with
  | 4 => let* p := v4_new b in Ok (V4 p)
  | 6 => let* p := v6_new b in Ok (V6 p)
  | _ => Err InvalidPacket
  end.
(** src/ip/packet.rs:109-117 *)
Definition ip_to_owned (p : ip_packet) : ip_packet :=
  match p with V4 b => V4 (v4_to_owned b) | V6 b => V6 (v6_to_owned b) end.
(** src/ip/packet.rs:120-130; as_mut, 132-142, is the same ranges *)
Definition ip_as_ref (p : ip_packet) : res bytes :=
  match p with V4 b => v4_as_ref b | V6 b => v6_as_ref b end.
(** src/ip/packet.rs:156-166; split_mut, 168-178, is the same ranges *)
Definition ip_split (p : ip_packet) : res (bytes * bytes) :=
  match p with V4 b => v4_split b | V6 b => v6_split b end.
(** src/packet.rs:20-27 *)
Definition ip_header (p : ip_packet) : res bytes := let* (h, _) := ip_split p in Ok h.
Definition ip_payload (p : ip_packet) : res bytes := let* (_, q) := ip_split p in Ok q.
(** src/ip/packet.rs:180-190 *)
Definition ip_header_size (p : ip_packet) : res N :=
  match p with V4 b => v4_header_size b | V6 b => v6_header_size b end.
(** src/ip/packet.rs:192-202 *)
Definition ip_payload_size (p : ip_packet) : res N :=
  match p with V4 b => v4_payload_size b | V6 b => v6_payload_size b end.
(** src/size.rs:87-91 *)
Definition ip_size (E : env) (p : ip_packet) : res N :=
  let* h := ip_header_size p in let* q := ip_payload_size p in usize_add E h q.
(** src/ip/packet.rs:78-82; from a reference, 90-94, is the same on a clone *)
Definition ip_from_v4 (b : bytes) : ip_packet := V4 b.
(** src/ip/packet.rs:84-88, and 96-100 *)
Definition ip_from_v6 (b : bytes) : ip_packet := V6 b.
