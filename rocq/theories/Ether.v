(** * Ether: src/ether/packet.rs.  A [Packet<B>] is its buffer's bytes. *)
From Verif Require Import Base Enums.

(** src/ether/packet.rs:29-40 (sized!) *)
Definition ether_header_min : N := 14.
Definition ether_header_max : N := 14.
Definition ether_payload_min : N := 0.
Definition ether_payload_max : N := 1486.
Definition ether_header_size (b : bytes) : res N := Ok 14.
Definition ether_payload_size (E : env) (b : bytes) : res N := usize_sub E (len b) 14.
(** src/size.rs:87-91 *)
Definition ether_size (E : env) (b : bytes) : res N :=
  let* h := ether_header_size b in let* p := ether_payload_size E b in usize_add E h p.

(** src/ether/packet.rs:55-57 *)
Definition ether_unchecked (b : bytes) : bytes := b.
(** src/ether/packet.rs:60-70; also as_packet/as_packet_mut, 102-112 *)
Definition ether_new (b : bytes) : res bytes :=
  if len b <? ether_header_min then Err SmallBuffer else Ok b.
(** src/ether/packet.rs:80-82 *)
Definition ether_to_owned (b : bytes) : bytes := b.
(** src/ether/packet.rs:85-91 *)
Definition ether_as_ref (E : env) (b : bytes) : res bytes :=
  let* n := ether_size E b in slice_to b n.
(** src/ether/packet.rs:114-118; split_mut, 120-124, is the same ranges *)
Definition ether_split (b : bytes) : res (bytes * bytes) := split_at b 14.
(** src/packet.rs:20-27 *)
Definition ether_header (b : bytes) : res bytes := let* (h, _) := ether_split b in Ok h.
Definition ether_payload (b : bytes) : res bytes := let* (_, p) := ether_split b in Ok p.

(** src/ether/packet.rs:128-130 *)
Definition ether_destination (b : bytes) : res hwaddr :=
  let* s := slice b 0 6 in hw_of_slice s.
(** src/ether/packet.rs:133-135 *)
Definition ether_source (b : bytes) : res hwaddr :=
  let* s := slice b 6 12 in hw_of_slice s.
(** src/ether/packet.rs:138-140 *)
Definition ether_get_protocol (b : bytes) : res ether_protocol :=
  let* v := get_u16 b 12 in Ok (ether_protocol_from v).

(** src/ether/packet.rs:145-149 *)
Definition ether_set_destination (v : hwaddr) : mut := copy_range 0 6 (hw_octets v).
(** src/ether/packet.rs:152-156 *)
Definition ether_set_source (v : hwaddr) : mut := copy_range 6 12 (hw_octets v).
(** src/ether/packet.rs:159-164 *)
Definition ether_set_protocol (v : ether_protocol) : mut := write_u16 12 (ether_protocol_into v).
