(** * Mutable: the mutable slices handed out by [PacketMut] and [AsMut].

    A [&mut [u8]] into a packet's buffer is modelled by where it lies in that
    buffer: its first position and its length.  Reading and writing through it
    are [span_read] and [span_write]. *)
From Verif Require Import Base Ether Ipv4 Ip Udp Tcp Icmp.

(** E.g. src/ether/packet.rs:94 *)
Record span := Span { s_at : N; s_len : N }.
(** reading, e.g. src/tcp/builder.rs:166 *)
Definition span_read (s : span) (b : bytes) : bytes := takeN (s_len s) (dropN (s_at s) b).
(** writing, e.g. src/tcp/builder.rs:169 *)
Definition span_write (s : span) (new b : bytes) : bytes :=
  takeN (s_at s) b ++ new ++ dropN (s_at s + s_len s) b.
(** Running a mutation on the slice, in place. E.g. src/tcp/packet.rs:203-204 *)
Definition span_run (s : span) (f : mut) : mut := fun b =>
  let (new, r) := f (span_read s b) in (span_write s new b, r).

(** [self.buffer.as_mut()]; e.g. src/ether/packet.rs:98 *)
Definition whole (b : bytes) : span := Span 0 (len b).
(** [&mut s[.. j]]; e.g. src/ether/packet.rs:98 *)
Definition span_to (s : span) (j : N) : res span :=
  if j <=? s_len s then Ok (Span (s_at s) j) else Panic.
(** [s.split_at_mut(n)]; e.g. src/ether/packet.rs:122 *)
Definition split_at_mut (s : span) (n : N) : res (span * span) :=
  if n <=? s_len s then Ok (Span (s_at s) n, Span (s_at s + n) (s_len s - n)) else Panic.

(** src/ether/packet.rs:93-100 *)
Definition ether_as_mut (E : env) (b : bytes) : res span :=
  let* n := ether_size E b in span_to (whole b) n.
(** src/ether/packet.rs:120-124 *)
Definition ether_split_mut (b : bytes) : res (span * span) := split_at_mut (whole b) 14.

(** src/ip/v4/packet.rs:126-133 *)
Definition v4_as_mut (b : bytes) : res span := let* n := v4_size b in span_to (whole b) n.
(** src/ip/v4/packet.rs:166-183 *)
Definition v4_split_mut (b : bytes) : res (span * span) :=
  let* h := v4_ihl b in
  let header := h * 4 in
  let* payload := v4_payload_size b in
  let* s := if len b <? header + payload then Ok (whole b) else span_to (whole b) (header + payload) in
  split_at_mut s header.

(** src/ip/v6/packet.rs:92-96 and 116-120: empty slices (nothing of the buffer). *)
Definition v6_as_mut (b : bytes) : res span := Ok (Span 0 0).
Definition v6_split_mut (b : bytes) : res (span * span) := Ok (Span 0 0, Span 0 0).

(** src/ip/packet.rs:132-141 and 168-178 *)
Definition ip_as_mut (p : ip_packet) : res span :=
  match p with V4 b => v4_as_mut b | V6 b => v6_as_mut b end.
Definition ip_split_mut (p : ip_packet) : res (span * span) :=
  match p with V4 b => v4_split_mut b | V6 b => v6_split_mut b end.

(** src/udp/packet.rs:107-114 *)
Definition udp_as_mut (b : bytes) : res span := let* n := udp_size b in span_to (whole b) n.
(** src/udp/packet.rs:147-164 *)
Definition udp_split_mut (b : bytes) : res (span * span) :=
  let header := 8 in
  let* payload := udp_payload_size b in
  let* s := if len b <? header + payload then Ok (whole b) else span_to (whole b) (header + payload) in
  split_at_mut s header.

(** src/tcp/packet.rs:105-112 *)
Definition tcp_as_mut (E : env) (b : bytes) : res span :=
  let* n := tcp_size E b in span_to (whole b) n.
(** src/tcp/packet.rs:133-138 *)
Definition tcp_split_mut (b : bytes) : res (span * span) :=
  let* o := tcp_offset b in split_at_mut (whole b) (o * 4).

(** src/icmp/packet.rs:92-99 and 119-123 *)
Definition icmp_as_mut (E : env) (b : bytes) : res span :=
  let* n := icmp_size E b in span_to (whole b) n.
Definition icmp_split_mut (b : bytes) : res (span * span) := split_at_mut (whole b) 4.

(** src/icmp/echo/packet.rs:102-109 and 129-133 *)
Definition echo_as_mut (E : env) (b : bytes) : res span :=
  let* n := echo_size E b in span_to (whole b) n.
Definition echo_split_mut (b : bytes) : res (span * span) := split_at_mut (whole b) 8.
(** src/icmp/information/packet.rs:101-108 and 128-132 *)
Definition information_as_mut (E : env) (b : bytes) : res span :=
  let* n := information_size E b in span_to (whole b) n.
Definition information_split_mut (b : bytes) : res (span * span) := split_at_mut (whole b) 8.
(** src/icmp/timestamp/packet.rs:105-112 and 132-136 *)
Definition timestamp_as_mut (E : env) (b : bytes) : res span :=
  let* n := timestamp_size E b in span_to (whole b) n.
Definition timestamp_split_mut (b : bytes) : res (span * span) := split_at_mut (whole b) 8.
(** src/icmp/redirect_message/packet.rs:106-113 and 133-137 *)
Definition redirect_message_as_mut (E : env) (b : bytes) : res span :=
  let* n := embedded_size E b in span_to (whole b) n.
Definition redirect_message_split_mut (b : bytes) : res (span * span) := split_at_mut (whole b) 8.
(** src/icmp/parameter_problem/packet.rs:106-113 and 134-139 *)
Definition parameter_problem_as_mut (E : env) (b : bytes) : res span :=
  let* n := embedded_size E b in span_to (whole b) n.
Definition parameter_problem_split_mut (b : bytes) : res (span * span) :=
  let* (h, p) := split_at_mut (whole b) 8 in let* h' := span_to h 5 in Ok (h', p).
(** src/icmp/previous/packet.rs:108-115 and 136-141 *)
Definition previous_as_mut (E : env) (b : bytes) : res span :=
  let* n := embedded_size E b in span_to (whole b) n.
Definition previous_split_mut (b : bytes) : res (span * span) :=
  let* (h, p) := split_at_mut (whole b) 8 in let* h' := span_to h 4 in Ok (h', p).

(** src/tcp/option.rs:110-117 (AsMut) and 143-153 *)
Definition tcpopt_as_mut (E : env) (b : bytes) : res span :=
  let* n := tcpopt_size E b in span_to (whole b) n.
Definition tcpopt_split_mut (b : bytes) : res (span * span) :=
  let* l := tcpopt_length b in
  if l =? 1 then split_at_mut (whole b) 1 else let* s := span_to (whole b) l in split_at_mut s 2.
(** src/ip/v4/option.rs:177-184 (AsMut) and 210-220 *)
Definition v4opt_as_mut (E : env) (b : bytes) : res span :=
  let* n := v4opt_size E b in span_to (whole b) n.
Definition v4opt_split_mut (b : bytes) : res (span * span) :=
  let* l := v4opt_length b in
  if l =? 1 then split_at_mut (whole b) 1 else let* s := span_to (whole b) l in split_at_mut s 2.
(** [header()] of an option: src/packet.rs:20-22 *)
Definition tcpopt_header (b : bytes) : res bytes := let* (h, _) := tcpopt_split b in Ok h.
Definition v4opt_header (b : bytes) : res bytes := let* (h, _) := v4opt_split b in Ok h.
