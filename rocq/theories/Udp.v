(** * Udp: src/udp (packet.rs, mod.rs). *)
From Verif Require Import Base Enums Ipv4 Ip.

(** ** Checksum *)
(** The pseudo-header built at src/udp/mod.rs:34-48 (protocol 17) and
    src/tcp/mod.rs:44-58 (protocol 6), restricted to the 12 bytes that are read
    (udp/mod.rs:53-54, tcp/mod.rs:63-64).  For a V6 parent: unimplemented!(). *)
Definition pseudo_header (proto : ip_protocol) (ip : ip_packet) (b : bytes) : res bytes :=
  match ip with
  | V4 p =>
      let* s := v4_source p in
      let* d := v4_destination p in
      Ok (octets s ++ octets d ++ [0; ip_protocol_into proto] ++ be16 (as_u16 (len b)))
  | V6 _ => Panic
  end.

(** src/udp/mod.rs:30-93.  The trailing byte of lines 81-90 is only seen if the
    failed read_u16 left the Cursor's position alone. *)
Definition udp_checksum_of (E : env) (ip : ip_packet) (b : bytes) : res N :=
  let* prefix := pseudo_header IP_Udp ip b in
  let* (r1, _) := carry_loop E 0 0 prefix 0 in
  let* (r2, rest) := carry_loop E 8 0 b r1 in
  let* r3 :=
    match rest, cursor_eof E with
    | x :: _, EofKeep =>
        let* s := u32_add E r2 (shl_u16 x 8) in
        Ok (if 65535 <? s then s - 65535 else s)
    | _, _ => Ok r2
    end in
  Ok (not_u32_as_u16 r3).

(** ** Packet *)
(** src/udp/packet.rs:168-170 *)
Definition udp_source (b : bytes) : res N := get_u16 b 0.
(** src/udp/packet.rs:173-175 *)
Definition udp_destination (b : bytes) : res N := get_u16 b 2.
(** src/udp/packet.rs:178-180 *)
Definition udp_length (b : bytes) : res N := get_u16 b 4.
(** src/udp/packet.rs:183-185 *)
Definition udp_checksum (b : bytes) : res N := get_u16 b 6.
(** src/udp/packet.rs:188-190 *)
Definition udp_is_valid (E : env) (ip : ip_packet) (b : bytes) : res bool :=
  let* c := udp_checksum_of E ip b in
  let* s := udp_checksum b in Ok (c =? s).

(** src/udp/packet.rs:29-40 (sized!) *)
Definition udp_header_min : N := 8.
Definition udp_header_max : N := 8.
Definition udp_payload_min : N := 0.
Definition udp_payload_max : N := 65535 - 8.
Definition udp_header_size (b : bytes) : res N := Ok 8.
Definition udp_payload_size (b : bytes) : res N := let* l := udp_length b in Ok (l - 8).
(** src/size.rs:87-91 *)
Definition udp_size (b : bytes) : res N :=
  let* h := udp_header_size b in let* p := udp_payload_size b in Ok (h + p).

(** src/udp/packet.rs:56-58 *)
Definition udp_unchecked (b : bytes) : bytes := b.
(** src/udp/packet.rs:61-71 *)
Definition udp_no_payload (b : bytes) : res bytes :=
  if len b <? udp_header_min then Err SmallBuffer else Ok b.
(** src/udp/packet.rs:74-82; also as_packet/as_packet_mut, 116-126 *)
Definition udp_new (b : bytes) : res bytes :=
  let* p := udp_no_payload b in
  let* l := udp_length p in
  if len p <? l then Err SmallBuffer else Ok p.
(** src/udp/packet.rs:92-96 *)
Definition udp_to_owned (b : bytes) : bytes := b.
(** src/udp/packet.rs:99-105; as_mut, 107-114, is the same range *)
Definition udp_as_ref (b : bytes) : res bytes := let* n := udp_size b in slice_to b n.
(** src/udp/packet.rs:128-145; split_mut, 147-164, is the same ranges *)
Definition udp_split (b : bytes) : res (bytes * bytes) :=
  let header := 8 in
  let* payload := udp_payload_size b in
  let* b' := (if len b <? header + payload then Ok b else slice_to b (header + payload)) in
  split_at b' header.
(** src/packet.rs:20-27 *)
Definition udp_header (b : bytes) : res bytes := let* (h, _) := udp_split b in Ok h.
Definition udp_payload (b : bytes) : res bytes := let* (_, p) := udp_split b in Ok p.

(** ** Setters *)
(** src/udp/packet.rs:195-200 *)
Definition udp_set_source (v : N) : mut := header_mut udp_split (write_u16 0 v).
(** src/udp/packet.rs:203-208 *)
Definition udp_set_destination (v : N) : mut := header_mut udp_split (write_u16 2 v).
(** src/udp/packet.rs:219-224 *)
Definition udp_set_checksum (v : N) : mut := header_mut udp_split (write_u16 6 v).
(** src/udp/packet.rs:227-230 *)
Definition udp_update_checksum (E : env) (ip : ip_packet) : mut :=
  mlet (udp_checksum_of E ip) udp_set_checksum.

(** Calls on a packet or [Checked] guard (src/udp/packet.rs:246-261). *)
Inductive udp_setter := UdpSetSource (v : N) | UdpSetDestination (v : N).
Definition udp_apply (s : udp_setter) : mut :=
  match s with
  | UdpSetSource v => udp_set_source v
  | UdpSetDestination v => udp_set_destination v
  end.
(** src/udp/packet.rs:211-216, 263-270 *)
Definition udp_checked (E : env) (ip : ip_packet) (ops : list udp_setter) : mut :=
  run_guard udp_apply (udp_update_checksum E ip) ops.
