(** * Base: outcomes, environment, and the parts of core/std/byteorder the crate uses.

    Byte strings are [list N] (each element below 256 for well-formed ones);
    [usize] values are [N].  Everything here models Rust's core library, std's
    [io::Cursor] and the byteorder crate as used by /repo; the code itself is
    not in /repo, so this file is part of the trusted base. *)
From Coq Require Export NArith ZArith List Bool Lia.
Export ListNotations.
Open Scope N_scope.

(** src/error.rs:19-37.  [Io] stands for [Error::Io(_)] (the inner io::Error is
    not distinguished); [Error::Nul] is never constructed in the crate. *)
Inductive error := SmallBuffer | InvalidPacket | InvalidValue | AlreadyDefined | Io.

(** Outcome of a Rust call: a value, [Err(e)], or a panic. A function whose Rust
    type is not [Result] never produces [Err]. src/error.rs:39 *)
Inductive res (A : Type) : Type :=
| Ok (a : A)
| Err (e : error)
| Panic.
Arguments Ok {A} a.
Arguments Err {A} e.
Arguments Panic {A}.

(** The [?] operator / sequencing. E.g. src/ip/v4/packet.rs:96-97 *)
Definition bind {A B} (r : res A) (f : A -> res B) : res B :=
  match r with Ok a => f a | Err e => Err e | Panic => Panic end.
Notation "'let*' x := r 'in' k" := (bind r (fun x => k))
  (at level 200, x pattern, r at level 100, k at level 200).

(** [Result::unwrap]: panics on [Err]. E.g. src/tcp/packet.rs:143 *)
Definition unwrap {A} (r : res A) : res A :=
  match r with Ok a => Ok a | _ => Panic end.

(** What [io::Cursor::read_exact] does to the position when fewer bytes remain
    than requested: older std keeps it, newer std moves it to the end.
    It matters for src/udp/mod.rs:68-81 and src/tcp/mod.rs:75-90 *)
Inductive eof_policy := EofKeep | EofSeek.

(** The width of [usize] on the target, e.g. src/buffer/mod.rs:50 *)
Inductive pointer_width := Bits32 | Bits64.

(** Facts outside the crate. [overflow_checks]: the profile's setting
    (on in debug, off in release). E.g. src/size.rs:87-91 overflows or not.
    [target]: the width of [usize]. *)
Record env := { overflow_checks : bool; cursor_eof : eof_policy; target : pointer_width }.
(** An [env] in the context is found where it is not written: [USIZE],
    [ISIZE_MAX] and what is defined from them are those of that environment. *)
Existing Class env.

(** ** Integers *)
(** usize, e.g. src/buffer/mod.rs:50: 2^64 or 2^32 *)
Definition USIZE {E : env} : N :=
  match target E with Bits64 => 18446744073709551616 | Bits32 => 4294967296 end.
(** The greatest length of a slice or Vec, e.g. src/buffer/dynamic.rs:47: 2^63 - 1 or 2^31 - 1 *)
Definition ISIZE_MAX {E : env} : N :=
  match target E with Bits64 => 9223372036854775807 | Bits32 => 2147483647 end.
(** u32, e.g. src/udp/mod.rs:50: 2^32 *)
Definition U32 : N := 4294967296.

(** [a + b] on usize. E.g. src/buffer/slice.rs:50 *)
Definition usize_add (E : env) (a b : N) : res N :=
  if a + b <? USIZE then Ok (a + b)
  else if overflow_checks E then Panic else Ok ((a + b) mod USIZE).
(** [a - b] on usize. E.g. src/buffer/slice.rs:75 *)
Definition usize_sub (E : env) (a b : N) : res N :=
  if b <=? a then Ok (a - b)
  else if overflow_checks E then Panic else Ok (a + USIZE - b).
(** [a + b] on u32. E.g. src/tcp/mod.rs:91 *)
Definition u32_add (E : env) (a b : N) : res N :=
  if a + b <? U32 then Ok (a + b)
  else if overflow_checks E then Panic else Ok ((a + b) mod U32).
(** [x as u8], [x as u16]. E.g. src/tcp/builder.rs:168 *)
Definition as_u8 (x : N) : N := x mod 256.
(** E.g. src/udp/builder.rs:122 *)
Definition as_u16 (x : N) : N := x mod 65536.
(** [!x as u16] for a u32 [x]: the cast truncates the 32-bit complement.
    src/udp/mod.rs:92, src/tcp/mod.rs:99, src/ip/v4/mod.rs:50, src/icmp/mod.rs:66 *)
Definition not_u32_as_u16 (x : N) : N := as_u16 (N.lxor x 4294967295).
(** [x << k] on u8 / u16: bits shifted out are lost, no overflow check on them.
    E.g. src/tcp/builder.rs:50 *)
Definition shl_u8 (x k : N) : N := as_u8 (N.shiftl x k).
(** E.g. src/udp/mod.rs:83 *)
Definition shl_u16 (x k : N) : N := as_u16 (N.shiftl x k).

(** ** Slices *)
(** [&[u8]] and [Vec<u8>], e.g. src/buffer/dynamic.rs:22, src/buffer/slice.rs:22 *)
Definition bytes := list N.
(** [s.len()], e.g. src/ether/packet.rs:65 *)
Definition len (b : bytes) : N := N.of_nat (length b).
(** the first bytes of a slice, for [&s[.. n]] below, e.g. src/ether/packet.rs:89 *)
Definition takeN (n : N) (b : bytes) : bytes := firstn (N.to_nat n) b.
(** the rest of a slice, for [&s[n ..]] below, e.g. src/tcp/packet.rs:143 *)
Definition dropN (n : N) (b : bytes) : bytes := skipn (N.to_nat n) b.
(** a byte of a slice, for [s[i]] below, e.g. src/tcp/builder.rs:166 *)
Definition nthN (b : bytes) (i : N) : N := nth (N.to_nat i) b 0.
(** fresh memory, e.g. [resize(.., 0)] at src/buffer/dynamic.rs:47 *)
Definition zeros (n : N) : bytes := repeat 0 (N.to_nat n).

(** [s[i]]; e.g. src/ip/packet.rs:37 *)
Definition index (b : bytes) (i : N) : res N :=
  if i <? len b then Ok (nthN b i) else Panic.
(** [&s[i ..]]; e.g. src/tcp/packet.rs:143 *)
Definition slice_from (b : bytes) (i : N) : res bytes :=
  if i <=? len b then Ok (dropN i b) else Panic.
(** [&s[.. j]]; e.g. src/ether/packet.rs:89 *)
Definition slice_to (b : bytes) (j : N) : res bytes :=
  if j <=? len b then Ok (takeN j b) else Panic.
(** [&s[i .. j]]; e.g. src/buffer/slice.rs:101 *)
Definition slice (b : bytes) (i j : N) : res bytes :=
  if (i <=? j) && (j <=? len b) then Ok (takeN (j - i) (dropN i b)) else Panic.
(** [s.split_at(n)]; e.g. src/ether/packet.rs:116 *)
Definition split_at (b : bytes) (n : N) : res (bytes * bytes) :=
  if n <=? len b then Ok (takeN n b, dropN n b) else Panic.

(** ** byteorder *)
(** [(&s).read_u16::<BigEndian>()] on a byte slice; fails at end of input.
    E.g. src/tcp/packet.rs:143 *)
Definition read_u16 (b : bytes) : res N :=
  match b with x :: y :: _ => Ok (x * 256 + y) | _ => Err Io end.
(** [(&s).read_u32::<BigEndian>()]; e.g. src/tcp/packet.rs:153 *)
Definition read_u32 (b : bytes) : res N :=
  match b with
  | x :: y :: z :: w :: _ => Ok (((x * 256 + y) * 256 + z) * 256 + w)
  | _ => Err Io
  end.
(** The idiom [(&s[off ..]).read_u16::<BigEndian>().unwrap()]. E.g. src/tcp/packet.rs:143 *)
Definition get_u16 (b : bytes) (off : N) : res N :=
  let* s := slice_from b off in unwrap (read_u16 s).
(** E.g. src/tcp/packet.rs:153 *)
Definition get_u32 (b : bytes) (off : N) : res N :=
  let* s := slice_from b off in unwrap (read_u32 s).

(** Big-endian encodings of u16 / u32 values. E.g. src/udp/builder.rs:122 *)
Definition be16 (v : N) : bytes := [v / 256; v mod 256].
(** E.g. src/tcp/packet.rs:220 *)
Definition be32 (v : N) : bytes :=
  [v / 16777216; v / 65536 mod 256; v / 256 mod 256; v mod 256].

(** ** In-place mutation: the new contents and the outcome of the call.
    After [Panic] the contents are not meaningful. *)
(** E.g. src/ether/packet.rs:145-149 *)
Definition mut := bytes -> bytes * res unit.

(** [s[i] = v]; e.g. src/tcp/builder.rs:169 *)
Definition set_index (i v : N) : mut := fun b =>
  if i <? len b then (takeN i b ++ v :: dropN (i + 1) b, Ok tt) else (b, Panic).

(** [Cursor::new(&mut s[off ..]).write_all(bs)?]: the slicing may panic; the
    write stores as many bytes as fit and fails with WriteZero if not all fit.
    E.g. src/tcp/packet.rs:219-220 *)
Definition cursor_write (off : N) (bs : bytes) : mut := fun b =>
  if off <=? len b then
    let k := N.min (len b - off) (len bs) in
    (takeN off b ++ takeN k bs ++ dropN (off + k) b,
     if k <? len bs then Err Io else Ok tt)
  else (b, Panic).
(** E.g. src/tcp/packet.rs:203-204 *)
Definition write_u16 (off v : N) : mut := cursor_write off (be16 v).
(** E.g. src/tcp/packet.rs:219-220 *)
Definition write_u32 (off v : N) : mut := cursor_write off (be32 v).

(** [s[i .. j].copy_from_slice(bs)]: panics on a bad range or length mismatch.
    E.g. src/ether/packet.rs:146 *)
Definition copy_range (i j : N) (bs : bytes) : mut := fun b =>
  if (i <=? j) && (j <=? len b) && (j - i =? len bs)
  then (takeN i b ++ bs ++ dropN j b, Ok tt) else (b, Panic).

(** Sequencing of mutations; stops at the first error or panic. E.g. src/tcp/builder.rs:166-175 *)
Definition mseq (f g : mut) : mut := fun b =>
  match f b with
  | (b', Ok _) => g b'
  | (b', Err e) => (b', Err e)
  | (b', Panic) => (b', Panic)
  end.
(** A computation on the current contents whose value the next mutation uses.
    E.g. src/tcp/packet.rs:235-238 *)
Definition mlet {A} (r : bytes -> res A) (k : A -> mut) : mut := fun b =>
  match r b with
  | Ok a => k a b
  | Err e => (b, Err e)
  | Panic => (b, Panic)
  end.

(** Running a mutation on the first part of a split (src/packet.rs:36-38,
    [header_mut] is [split_mut().0], always a prefix of the buffer): [split]
    gives the slices, the rest of the buffer stays. *)
Definition header_mut (split : bytes -> res (bytes * bytes)) (f : mut) : mut := fun b =>
  match split b with
  | Ok (h, _) => let (h', r) := f h in (h' ++ dropN (len h) b, r)
  | Err e => (b, Err e)
  | Panic => (b, Panic)
  end.
(** Running a mutation on [&mut s[.. n]]. E.g. src/tcp/builder.rs:163 *)
Definition prefix_mut (n : N) (f : mut) : mut := fun b =>
  if n <=? len b then let (h', r) := f (takeN n b) in (h' ++ dropN n b, r)
  else (b, Panic).
(** Running a mutation on [&mut s[i .. j]]. E.g. src/tcp/builder.rs:161-163 *)
Definition range_mut (i j : N) (f : mut) : mut := fun b =>
  if (i <=? j) && (j <=? len b) then
    let (m, r) := f (takeN (j - i) (dropN i b)) in (takeN i b ++ m ++ dropN j b, r)
  else (b, Panic).

(** ** bitflags 1.x: [from_bits] is [Some] iff no bit outside [all] is set. *)
(** src/tcp/packet.rs:168, src/ip/v4/packet.rs:218 *)
Definition flags_from_bits (all bits : N) : res N :=
  if N.ldiff bits all =? 0 then Ok bits else Err InvalidValue.

(** ** std::net::Ipv4Addr and hwaddr::HwAddr, as their octets. *)
(** E.g. src/ip/v4/packet.rs:331 *)
Record ipv4addr := Ip4 { ip_a : N; ip_b : N; ip_c : N; ip_d : N }.
(** E.g. src/ip/v4/packet.rs:331 *)
Definition octets (a : ipv4addr) : bytes := [ip_a a; ip_b a; ip_c a; ip_d a].
(** E.g. src/ether/packet.rs:128 *)
Record hwaddr := Hw { hw_0 : N; hw_1 : N; hw_2 : N; hw_3 : N; hw_4 : N; hw_5 : N }.
(** src/ether/packet.rs:146, src/ether/packet.rs:153 *)
Definition hw_octets (a : hwaddr) : bytes :=
  [hw_0 a; hw_1 a; hw_2 a; hw_3 a; hw_4 a; hw_5 a].
(** [HwAddr::from(&[u8])]; panics unless given exactly six bytes.
    src/ether/packet.rs:129, src/ether/packet.rs:134 *)
Definition hw_of_slice (b : bytes) : res hwaddr :=
  match b with
  | [x0; x1; x2; x3; x4; x5] => Ok (Hw x0 x1 x2 x3 x4 x5)
  | _ => Panic
  end.
