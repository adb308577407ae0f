(** * Memory: what a builder program leaves in its buffer, however it ends.

    In Builders.v a call that fails yields only the error: the builder it
    consumed is gone.  When the buffer is a [Slice], its memory is the caller's
    and outlives the builder.  This file models the same functions again,
    keeping the buffer also when they fail: each yields the buffer as it is when
    the call ends, and the outcome.  MemoryProofs.v shows that the outcomes are
    those of Builders.v (C74).  (A [Dynamic] buffer is freed with its builder.) *)
From Verif Require Import Base Enums Buffer Ether Ipv4 Ip Udp Tcp Icmp Builders SpecProfile.

(** The memory behind a buffer. src/buffer/dynamic.rs:21-26, src/buffer/slice.rs:21-27 *)
Definition memory (b : buffer) : bytes := match b with Dynamic inner _ _ => inner | Slice inner _ _ _ => inner end.
(** A buffer operation under [?]: on failure the buffer stays as the operation
    left it. E.g. src/udp/builder.rs:41 *)
Definition then_left (r : buffer * res unit) (k : buffer -> buffer * res builder) : buffer * res builder :=
  match r with (buf, Ok _) => k buf | (buf, Err e) => (buf, Err e) | (buf, Panic) => (buf, Panic) end.
(** Likewise for a call. E.g. src/ip/builder.rs:53 *)
Definition bind_left (r : buffer * res builder) (k : builder -> buffer * res builder) : buffer * res builder :=
  match r with (_, Ok b) => k b | (buf, Err e) => (buf, Err e) | (buf, Panic) => (buf, Panic) end.
(** [Ok(self)] E.g. src/tcp/builder.rs:98 *)
Definition done_left (b : builder) : buffer * res builder := (b_buffer b, Ok b).
(** Running a setter on [self.buffer.data_mut()], under [?]. E.g. src/tcp/builder.rs:97 *)
Definition edit_left (E : env) (f : mut) (b : builder) : buffer * res builder :=
  then_left (buf_data_mut E f (b_buffer b)) (fun buf => done_left (with_buffer b buf)).
(** The loop of the [payload] methods: src/ether/builder.rs:107-110,
    src/ip/v4/builder.rs:173-176, src/udp/builder.rs:104-107,
    src/icmp/echo/builder.rs:125-128, src/tcp/builder.rs:145-149 *)
Fixpoint payload_loop_left (E : env) (count : bool) (p : bytes) (b : builder) : buffer * res builder :=
  match p with
  | [] => done_left b
  | x :: p' =>
      then_left (buf_more E 1 (b_buffer b)) (fun buf =>
        let b1 := with_buffer b buf in
        bind_left (if count
                   then match usize_add E (b_payload_length b1) 1 with
                        | Ok n => done_left (with_payload_length b1 n)
                        | Err e => (buf, Err e)
                        | Panic => (buf, Panic)
                        end
                   else done_left b1) (fun b2 =>
        bind_left (edit_left E (set_last x) b2) (fun b3 => payload_loop_left E count p' b3)))
  end.
(** src/ether/builder.rs:100-113, src/ip/v4/builder.rs:166-179,
    src/udp/builder.rs:97-110, src/tcp/builder.rs:138-152, src/icmp/echo/builder.rs:118-131 *)
Definition add_payload_left (E : env) (e : error) (count : bool) (p : bytes) (b : builder) : buffer * res builder :=
  if b_payload b then (b_buffer b, Err e) else payload_loop_left E count p (with_payload b).
(** A [with] that reserves [n] bytes. src/ether/builder.rs:36-46, src/udp/builder.rs:37-50,
    src/icmp/echo/builder.rs:37-47, src/icmp/information/builder.rs:35-44,
    src/icmp/timestamp/builder.rs:36-45 *)
Definition with_left (E : env) (n : N) (ip : N * N) (buf : buffer) : buffer * res builder :=
  then_left (buf_next E n buf) (fun buf => done_left (fresh buf ip)).
(** src/ip/builder.rs:28-33, src/ip/v6/builder.rs:29-34, src/icmp/builder.rs:32-37 *)
Definition ip_with_left (buf : buffer) : buffer * res builder := done_left (fresh buf (0, 0)).
(** src/ip/v4/builder.rs:39-58 *)
Definition v4_with_left (E : env) (buf : buffer) : buffer * res builder :=
  then_left (buf_next E v4_header_min buf) (fun buf =>
  then_left (buf_data_mut E (set_index 0 (N.lor 64 (as_u8 (v4_header_min / 4)))) buf) (fun buf => done_left (fresh buf (0, 0)))).
(** src/udp/builder.rs:37-50 *)
Definition udp_with_left (E : env) (buf : buffer) : buffer * res builder := with_left E udp_header_min (buf_offset buf, buf_length buf) buf.
(** src/tcp/builder.rs:40-61 *)
Definition tcp_with_left (E : env) (buf : buffer) : buffer * res builder :=
  let ip := (buf_offset buf, buf_length buf) in
  then_left (buf_next E tcp_header_min buf) (fun buf =>
  then_left (buf_data_mut E (set_index 12 (shl_u8 (as_u8 (tcp_header_min / 4)) 4)) buf) (fun buf => done_left (fresh buf ip))).
(** Taking a sub-builder. E.g. src/ip/builder.rs:53-54 *)
Definition sub_left (mk : buffer -> buffer * res builder) (b : builder) : buffer * res builder :=
  bind_left (mk (b_buffer b)) (fun c => done_left (with_fin c (fin_extend (b_fin c) (b_fin b)))).
(** src/ether/builder.rs:116-145 *)
Definition ether_ip_left (E : env) (b : builder) : buffer * res builder :=
  if b_payload b then (b_buffer b, Err AlreadyDefined)
  else sub_left ip_with_left (with_fin b (fin_add (b_fin b) (ether_ip_finalizer E (buf_offset (b_buffer b)) (buf_length (b_buffer b))))).
(** src/ip/v4/builder.rs:91-108, 204-211: the protocol is written before the
    inner builder is made. *)
Definition v4_sub_left (E : env) (proto : ip_protocol) (mk : buffer -> buffer * res builder) (b : builder) : buffer * res builder :=
  if b_payload b then (b_buffer b, Err AlreadyDefined)
  else bind_left (edit_left E (v4_set_protocol proto) b) (fun b1 => sub_left mk (v4_prepare E b1)).

(** The [with]s, as SpecProfile.open. E.g. src/ip/v4/builder.rs:39-58 *)
Definition open_left (E : env) (o : opening) (buf : buffer) : buffer * res builder :=
  match o with
  | OpEther => with_left E ether_header_min (0, 0) buf
  | OpIp | OpV6 | OpIcmp => ip_with_left buf
  | OpV4 => v4_with_left E buf
  | OpUdp => udp_with_left E buf
  | OpTcp => tcp_with_left E buf
  | OpEcho | OpInformation => with_left E 8 (0, 0) buf
  | OpTimestamp => with_left E 20 (0, 0) buf
  end.
(** The calls, as SpecProfile.call1: src/ether/builder.rs:79-145, src/ip/builder.rs:52-65,
    src/ip/v4/builder.rs:112-211, src/udp/builder.rs:85-110, src/tcp/builder.rs:96-152,
    src/icmp/builder.rs:56-77, src/icmp/echo/builder.rs:86-131,
    src/icmp/information/builder.rs:83-112, src/icmp/timestamp/builder.rs:84-137,
    src/builder.rs:54-56 *)
Definition call_left (E : env) (c : call) (b : builder) : buffer * res builder :=
  match c with
  | CallEther (EtherDestination v) => edit_left E (ether_set_destination v) b
  | CallEther (EtherSource v) => edit_left E (ether_set_source v) b
  | CallEther (EtherProtocol v) => edit_left E (ether_set_protocol v) b
  | CallEther (EtherPayload p) => add_payload_left E AlreadyDefined false p b
  | CallEtherIp => ether_ip_left E b
  | CallIpV4 => sub_left (v4_with_left E) b
  | CallIpV6 => sub_left ip_with_left b
  | CallV4 (V4Set s) => edit_left E (v4_apply s) b
  | CallV4 (V4Payload p) => add_payload_left E AlreadyDefined false p b
  | CallV4Udp => v4_sub_left E IP_Udp (udp_with_left E) b
  | CallV4Tcp => v4_sub_left E IP_Tcp (tcp_with_left E) b
  | CallV4Icmp => v4_sub_left E IP_Icmp ip_with_left b
  | CallUdp (UdpSet s) => edit_left E (udp_apply s) b
  | CallUdp (UdpPayload p) => add_payload_left E AlreadyDefined false p b
  | CallTcp (TcpSet s) => edit_left E (tcp_apply s) b
  | CallTcp (TcpPayload p) => add_payload_left E AlreadyDefined true p b
  | CallIcmpEcho | CallIcmpInformation => sub_left (with_left E 8 (0, 0)) b
  | CallIcmpTimestamp => sub_left (with_left E 20 (0, 0)) b
  | CallEcho EchoRequest => edit_left E (set_index 0 (icmp_kind_into K_EchoRequest)) (with_kind b)
  | CallEcho EchoReply => edit_left E (set_index 0 (icmp_kind_into K_EchoReply)) (with_kind b)
  | CallEcho (EchoIdentifier v) | CallInformation (InfoIdentifier v) | CallTimestamp (TsIdentifier v) => edit_left E (write_u16 4 v) b
  | CallEcho (EchoSequence v) | CallInformation (InfoSequence v) | CallTimestamp (TsSequence v) => edit_left E (write_u16 6 v) b
  | CallEcho (EchoPayload p) => add_payload_left E InvalidPacket false p b
  | CallInformation InfoRequest => edit_left E (set_index 0 (icmp_kind_into K_InformationRequest)) (with_kind b)
  | CallInformation InfoReply => edit_left E (set_index 0 (icmp_kind_into K_InformationReply)) (with_kind b)
  | CallTimestamp TsRequest => edit_left E (set_index 0 (icmp_kind_into K_TimestampRequest)) (with_kind b)
  | CallTimestamp TsReply => edit_left E (set_index 0 (icmp_kind_into K_TimestampReply)) (with_kind b)
  | CallTimestamp (TsOriginate v) => edit_left E (write_u32 8 v) b
  | CallTimestamp (TsReceive v) => edit_left E (write_u32 12 v) b
  | CallTimestamp (TsTransmit v) => edit_left E (write_u32 16 v) b
  | CallFinalizer f => done_left (with_fin b (fin_add (b_fin b) f))
  | CallEdit parse f => edit_left E (mlet parse (fun _ => f)) b
  end.
(** Calls in a row, each under [?]. E.g. src/udp/builder.rs:85-110 *)
Fixpoint calls_left (E : env) (cs : list call) (b : builder) : buffer * res builder :=
  match cs with
  | [] => done_left b
  | c :: cs' => bind_left (call_left E c b) (calls_left E cs')
  end.
(** The tail common to the [build]s: [into_inner], then the finalizers on that
    part of the memory. E.g. src/ether/builder.rs:53-55, src/buffer/slice.rs:45-47 *)
Definition finish_left (b : builder) : bytes * res bytes :=
  let m := memory (b_buffer b) in
  match buf_into_inner (b_buffer b) with
  | Ok inner => let (out, r) := fin_finalize (b_fin b) inner in (out ++ dropN (len inner) m, let* _ := r in Ok out)
  | Err e => (m, Err e)
  | Panic => (m, Panic)
  end.
(** src/icmp/echo/builder.rs:53-63, src/icmp/information/builder.rs:50-60, src/icmp/timestamp/builder.rs:51-61 *)
Definition icmp_kind_build_left (E : env) (b : builder) : bytes * res bytes :=
  if negb (b_kind b) then (memory (b_buffer b), Err InvalidPacket) else finish_left (icmp_prepare E b).
(** The [build]s, as SpecProfile.close: src/ether/builder.rs:52-56, src/ip/builder.rs:39-41,
    src/ip/v6/builder.rs:40-42, src/icmp/builder.rs:43-45, src/ip/v4/builder.rs:64-70,
    src/udp/builder.rs:56-62, src/tcp/builder.rs:67-73 *)
Definition close_left (E : env) (c : closing) (b : builder) : bytes * res bytes :=
  match c with
  | ClEther => finish_left b
  | ClIp | ClV6 | ClIcmp => (memory (b_buffer b), Err InvalidPacket)
  | ClV4 => finish_left (v4_prepare E b)
  | ClUdp => finish_left (udp_prepare E b)
  | ClTcp => finish_left (tcp_prepare E b)
  | ClEcho | ClInformation | ClTimestamp => icmp_kind_build_left E b
  end.
(** A whole program: the memory when it ends, at whatever call, and its outcome.
    E.g. src/udp/builder.rs:37-139 *)
Definition program_left (E : env) (o : opening) (cs : list call) (c : closing) (buf : buffer) : bytes * res bytes :=
  match bind_left (open_left E o buf) (calls_left E cs) with
  | (_, Ok b) => close_left E c b
  | (buf, Err e) => (memory buf, Err e)
  | (buf, Panic) => (memory buf, Panic)
  end.
