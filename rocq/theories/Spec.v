(** * Spec: the independent specification the theorems are stated against.

    Nothing here looks at how the model computes; it only uses the vocabulary
    of Base.v (bytes, outcomes, addresses). *)
From Verif Require Import Base.

(** ** Well-typed values *)
Definition u8 (v : N) : Prop := v < 256.
Definition u16 (v : N) : Prop := v < 65536.
Definition u32 (v : N) : Prop := v < 4294967296.
Definition is_bytes (b : bytes) : Prop := Forall u8 b.
Definition addr_ok (a : ipv4addr) : Prop := is_bytes (octets a).
Definition mac_ok (a : hwaddr) : Prop := is_bytes (hw_octets a).

(** The length of a Rust byte slice is at most isize::MAX (of the target). *)
Definition rust_slice {E : env} (b : bytes) : Prop := is_bytes b /\ len b <= ISIZE_MAX.

(** ** Big-endian encoding *)
Definition enc16 (v : N) : bytes := [v / 256; v mod 256].
Definition enc32 (v : N) : bytes :=
  [v / 16777216; (v / 65536) mod 256; (v / 256) mod 256; v mod 256].

(** ** A call on a mutable byte string *)
(** [b'] is [b] except possibly at positions [lo <= i < hi]. *)
Definition only_changes (lo hi : N) (b b' : bytes) : Prop :=
  len b' = len b /\ forall i, i < lo \/ hi <= i -> nthN b' i = nthN b i.
(** Calling [f] on [b] succeeds, afterwards the accessor [get] returns [v], and
    only the bytes of the field at positions [lo <= i < hi] may have changed. *)
Definition sets {A} (f : mut) (get : bytes -> res A) (v : A) (lo hi : N) (b : bytes) : Prop :=
  exists b', f b = (b', Ok tt) /\ get b' = Ok v /\ only_changes lo hi b b'.
(** The byte at position [i] replaced by [v]. *)
Definition alter (b : bytes) (i v : N) : bytes := takeN i b ++ v :: dropN (i + 1) b.

(** ** RFC 1071 Internet checksum, on exact (unbounded) sums *)
(** Sum of the 16-bit big-endian words; an odd last byte is padded with zero. *)
Fixpoint word_sum (b : bytes) : N :=
  match b with
  | x :: y :: rest => (x * 256 + y) + word_sum rest
  | [x] => x * 256
  | [] => 0
  end.
(** The ones'-complement sum: adding carries back in until 16 bits are left
    leaves the residue mod 65535, with 65535 (not 0) for a non-zero multiple. *)
Definition ones_sum (t : N) : N := if t =? 0 then 0 else 1 + (t - 1) mod 65535.
(** The Internet checksum: the complement of the ones'-complement sum. *)
Definition inet_checksum (b : bytes) : N := 65535 - ones_sum (word_sum b).
(** A message with the two bytes at [off] set to zero (a message too short to
    have them is left as it is). *)
Definition zero_field (off : N) (b : bytes) : bytes :=
  if off + 2 <=? len b then takeN off b ++ [0; 0] ++ dropN (off + 2) b else b.
(** A message without the last byte of an odd length. *)
Definition drop_odd (b : bytes) : bytes := takeN (len b / 2 * 2) b.
(** The Internet checksum, except that 0 stands for the all-zero message (for
    which the Internet checksum is 65535). *)
Definition nonzero_checksum (b : bytes) : N :=
  if word_sum b =? 0 then 0 else inet_checksum b.
(** What a receiver checks (RFC 791/792/793): the sum over everything,
    checksum included, is all ones. *)
Definition receiver_accepts (b : bytes) : Prop := ones_sum (word_sum b) = 65535.
(** RFC 768/793 pseudo-header followed by the segment. *)
Definition with_pseudo_header (src dst : ipv4addr) (proto : N) (seg : bytes) : bytes :=
  octets src ++ octets dst ++ [0; proto] ++ enc16 (len seg mod 65536) ++ seg.

(** ** Wire layouts *)
(** Ethernet II *)
Record ether_fields := {
  ef_dst : hwaddr; ef_src : hwaddr; ef_type : N }.
Definition ether_wire (f : ether_fields) : bytes :=
  hw_octets (ef_dst f) ++ hw_octets (ef_src f) ++ enc16 (ef_type f).
Definition ether_fields_ok (f : ether_fields) : Prop :=
  mac_ok (ef_dst f) /\ mac_ok (ef_src f) /\ u16 (ef_type f).

(** RFC 791, section 3.1.  The three flag bits are, in wire order, reserved,
    DF and MF. *)
Record v4_fields := {
  vf_version : N; vf_ihl : N; vf_dscp : N; vf_ecn : N; vf_total : N;
  vf_id : N; vf_reserved : bool; vf_df : bool; vf_mf : bool; vf_frag : N;
  vf_ttl : N; vf_proto : N; vf_checksum : N; vf_src : ipv4addr; vf_dst : ipv4addr }.
Definition bit (b : bool) : N := if b then 1 else 0.
Definition v4_wire (f : v4_fields) : bytes :=
  [vf_version f * 16 + vf_ihl f; vf_dscp f * 4 + vf_ecn f] ++ enc16 (vf_total f) ++
  enc16 (vf_id f) ++
  enc16 (bit (vf_reserved f) * 32768 + bit (vf_df f) * 16384 + bit (vf_mf f) * 8192 + vf_frag f) ++
  [vf_ttl f; vf_proto f] ++ enc16 (vf_checksum f) ++ octets (vf_src f) ++ octets (vf_dst f).
Definition v4_fields_ok (f : v4_fields) : Prop :=
  vf_version f < 16 /\ vf_ihl f < 16 /\ vf_dscp f < 64 /\ vf_ecn f < 4 /\ u16 (vf_total f) /\
  u16 (vf_id f) /\ vf_frag f < 8192 /\ u8 (vf_ttl f) /\ u8 (vf_proto f) /\ u16 (vf_checksum f) /\
  addr_ok (vf_src f) /\ addr_ok (vf_dst f).

(** RFC 768 *)
Record udp_fields := { uf_src : N; uf_dst : N; uf_length : N; uf_checksum : N }.
Definition udp_wire (f : udp_fields) : bytes :=
  enc16 (uf_src f) ++ enc16 (uf_dst f) ++ enc16 (uf_length f) ++ enc16 (uf_checksum f).
Definition udp_fields_ok (f : udp_fields) : Prop :=
  u16 (uf_src f) /\ u16 (uf_dst f) /\ u16 (uf_length f) /\ u16 (uf_checksum f).

(** RFC 793 (and RFC 3540 for the ninth flag bit): data offset (4 bits), three
    reserved bits, nine flag bits. *)
Record tcp_fields := {
  tf_src : N; tf_dst : N; tf_seq : N; tf_ack : N; tf_offset : N; tf_reserved : N;
  tf_flags : N; tf_window : N; tf_checksum : N; tf_pointer : N }.
Definition tcp_wire (f : tcp_fields) : bytes :=
  enc16 (tf_src f) ++ enc16 (tf_dst f) ++ enc32 (tf_seq f) ++ enc32 (tf_ack f) ++
  enc16 (tf_offset f * 4096 + tf_reserved f * 512 + tf_flags f) ++ enc16 (tf_window f) ++
  enc16 (tf_checksum f) ++ enc16 (tf_pointer f).
Definition tcp_fields_ok (f : tcp_fields) : Prop :=
  u16 (tf_src f) /\ u16 (tf_dst f) /\ u32 (tf_seq f) /\ u32 (tf_ack f) /\ tf_offset f < 16 /\
  tf_reserved f < 8 /\ tf_flags f < 512 /\ u16 (tf_window f) /\ u16 (tf_checksum f) /\
  u16 (tf_pointer f).

(** RFC 792: type, code, checksum, then the message. *)
Record icmp_fields := { cf_type : N; cf_code : N; cf_checksum : N }.
Definition icmp_wire (f : icmp_fields) : bytes :=
  [cf_type f; cf_code f] ++ enc16 (cf_checksum f).
Definition icmp_fields_ok (f : icmp_fields) : Prop :=
  u8 (cf_type f) /\ u8 (cf_code f) /\ u16 (cf_checksum f).
(** Echo and Information: identifier and sequence number. *)
Definition ident_wire (f : icmp_fields) (ident seq : N) : bytes :=
  icmp_wire f ++ enc16 ident ++ enc16 seq.
(** Timestamp: then the three timestamps. *)
Definition timestamp_wire (f : icmp_fields) (ident seq orig recv tran : N) : bytes :=
  ident_wire f ident seq ++ enc32 orig ++ enc32 recv ++ enc32 tran.

(** ** Options (RFC 791 / RFC 793): the one-byte No-Operation, or kind, length, data *)
Inductive opt := Nop | Opt (kind : N) (data : bytes).
Definition opt_wire (o : opt) : bytes :=
  match o with Nop => [1] | Opt k d => k :: (2 + len d) :: d end.
Definition opts_wire (os : list opt) : bytes := concat (map opt_wire os).
(** TCP: every kind byte but 0 and 1 has a length.  IPv4: the low five bits of
    the type are the number; numbers 0 and 1 have no length. *)
Definition tcp_opt_ok (o : opt) : Prop :=
  match o with Nop => True | Opt k d => 2 <= k < 256 /\ 2 + len d < 256 end.
Definition v4_opt_ok (o : opt) : Prop :=
  match o with Nop => True | Opt k d => k < 256 /\ 2 <= k mod 32 /\ 2 + len d < 256 end.
(** What may follow the last option: nothing, or End and arbitrary padding. *)
Definition opt_end (t : bytes) : Prop := t = [] \/ exists pad, t = 0 :: pad.

(** ** Buffers: the bytes of the earlier layers and of the current one *)
Inductive buf_op := Next (n : N) | More (n : N) | Clear | Write (i v : N).
(** [None]: the write is out of range (a panic). *)
Definition layers_step (s : bytes * bytes) (o : buf_op) : option (bytes * bytes) :=
  let (pre, cur) := s in
  match o with
  | Next n => Some (pre ++ cur, zeros n)
  | More n => Some (pre, cur ++ zeros n)
  | Clear => Some ([], [])
  | Write i v => if i <? len cur then Some (pre, alter cur i v) else None
  end.
Fixpoint layers_run (s : bytes * bytes) (ops : list buf_op) : option (bytes * bytes) :=
  match ops with
  | [] => Some s
  | o :: ops' => match layers_step s o with Some s' => layers_run s' ops' | None => None end
  end.
(** Bytes an operation asks for. *)
Definition op_size (o : buf_op) : N := match o with Next n | More n => n | _ => 0 end.
Definition ops_size (ops : list buf_op) : N := fold_right (fun o t => op_size o + t) 0 ops.

(** ** Reading numbers off the wire *)
Definition wire16 (b : bytes) (i : N) : N := nthN b i * 256 + nthN b (i + 1).
Definition wire32 (b : bytes) (i : N) : N :=
  ((nthN b i * 256 + nthN b (i + 1)) * 256 + nthN b (i + 2)) * 256 + nthN b (i + 3).
Definition wire_addr (b : bytes) (i : N) : ipv4addr :=
  Ip4 (nthN b i) (nthN b (i + 1)) (nthN b (i + 2)) (nthN b (i + 3)).
Definition wire_mac (b : bytes) (i : N) : hwaddr :=
  Hw (nthN b i) (nthN b (i + 1)) (nthN b (i + 2)) (nthN b (i + 3)) (nthN b (i + 4)) (nthN b (i + 5)).

(** ** Parsers *)
(** The decision table of a typed ICMP parser: a minimum length, then the types. *)
Definition typed_parser (parse : bytes -> res bytes) (min : N) (types : list N) : Prop :=
  forall b,
  (len b < min -> parse b = Err SmallBuffer) /\
  (min <= len b -> In (nthN b 0) types -> parse b = Ok b) /\
  (min <= len b -> ~ In (nthN b 0) types -> parse b = Err InvalidPacket).
