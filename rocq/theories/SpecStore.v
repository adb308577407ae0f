(** * SpecStore: setters called on packets made by [unchecked] from any bytes, for C75. *)
From Verif Require Import Base Spec Ether Ipv4 Udp Tcp Icmp.

(** [v] put over the bytes of [b] from position [i] on. *)
Definition overwrite (b : bytes) (i : N) (v : bytes) : bytes :=
  takeN i b ++ v ++ dropN (i + len v) b.
(** A field of a region of [reach] bytes at the start of the buffer, written by
    [io::Write]: the whole of it if it lies in the region; if it is cut off by
    the end of the region, the bytes that fit are stored and the call returns
    [Err(Io)]; if it lies behind the end, the call panics and stores nothing. *)
Definition stored (reach i : N) (v b : bytes) : bytes * res unit :=
  if i + len v <=? reach then (overwrite b i v, Ok tt)
  else if i <=? reach then (overwrite b i (takeN (reach - i) v), Err Io)
  else (b, Panic).
(** A field written by indexing or [copy_from_slice]: all or nothing. *)
Definition placed (reach i : N) (v b : bytes) : bytes * res unit :=
  if i + len v <=? reach then (overwrite b i v, Ok tt) else (b, Panic).
(** The call first looks at the first [need] bytes: it panics without them. *)
Definition behind (need : N) (b : bytes) (out : bytes * res unit) : bytes * res unit :=
  if need <=? len b then out else (b, Panic).

(** The field a setter is about: the bytes from the first position on up to
    before the second one. *)
Definition v4_place (s : v4_setter) : N * N :=
  match s with
  | V4SetDscp _ | V4SetEcn _ => (1, 2) | V4SetId _ => (4, 6)
  | V4SetFlags _ | V4SetOffset _ => (6, 8) | V4SetTtl _ => (8, 9) | V4SetProtocol _ => (9, 10)
  | V4SetSource _ => (12, 16) | V4SetDestination _ => (16, 20)
  end.
Definition udp_place (s : udp_setter) : N * N :=
  match s with UdpSetSource _ => (0, 2) | UdpSetDestination _ => (2, 4) end.
Definition tcp_place (s : tcp_setter) : N * N :=
  match s with
  | TcpSetSource _ => (0, 2) | TcpSetDestination _ => (2, 4) | TcpSetSequence _ => (4, 8)
  | TcpSetAcknowledgment _ => (8, 12) | TcpSetFlags _ => (12, 14) | TcpSetWindow _ => (14, 16)
  | TcpSetPointer _ => (18, 20)
  end.
Definition echo_place (s : echo_setter) : N * N :=
  match s with
  | EchoMakeRequest | EchoMakeReply => (0, 1) | EchoSetIdentifier _ => (4, 6) | EchoSetSequence _ => (6, 8)
  end.
Definition information_place (s : information_setter) : N * N :=
  match s with
  | InfoMakeRequest | InfoMakeReply => (0, 1) | InfoSetIdentifier _ => (4, 6) | InfoSetSequence _ => (6, 8)
  end.
Definition timestamp_place (s : timestamp_setter) : N * N :=
  match s with
  | TsMakeRequest | TsMakeReply => (0, 1) | TsSetIdentifier _ => (4, 6) | TsSetSequence _ => (6, 8)
  | TsSetOriginate _ => (8, 12) | TsSetReceive _ => (12, 16) | TsSetTransmit _ => (16, 20)
  end.
(** Position [i] is in none of the fields. *)
Definition elsewhere {A} (place : A -> N * N) (ops : list A) (i : N) : Prop :=
  Forall (fun s => i < fst (place s) \/ snd (place s) <= i) ops.
(** [b'] differs from [b] at most in the fields of [ops] and in the two bytes of
    the checksum at [c]. *)
Definition differs_in {A} (place : A -> N * N) (c : N) (ops : list A) (b b' : bytes) : Prop :=
  len b' = len b /\
  forall i, elsewhere place ops i -> i < c \/ c + 2 <= i -> nthN b' i = nthN b i.

(** The sizes of a packet whose payload is all that follows the first [n] bytes:
    with them, the payload size is what is left, the size is that of the buffer
    and the packet is the buffer.  Without them, a build that checks overflow
    panics in all three; one that does not gives a payload size just under 2^32
    or 2^64, although the size and the packet are still those of the buffer. *)
Definition rest_sizes (E : env) (n : N) (b : bytes) (payload size : res N) (packet : res bytes) : Prop :=
  if n <=? len b then payload = Ok (len b - n) /\ size = Ok (len b) /\ packet = Ok b
  else if overflow_checks E then payload = Panic /\ size = Panic /\ packet = Panic
  else payload = Ok (USIZE - (n - len b)) /\ size = Ok (len b) /\ packet = Ok b.
