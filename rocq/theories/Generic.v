(** * Generic: every builder over any implementation of [buffer::Buffer].

    Generated by tools/gen_generic.py from Builders.v: the same functions, with the
    operations of an arbitrary implementation [I] in place of those of the crate's
    two buffers.  In the crate the builders are generic over [B: Buffer]; the
    theorem c63_instance says that Builders.v is this file at the crate's buffers. *)
From Verif Require Import Base Enums Buffer Ether Ipv4 Ip Udp Tcp Icmp Builders.

(** The methods of the trait builders use (src/buffer/mod.rs:42-72); [T] is the type implementing it. *)
Record impl (T : Type) := Impl {
  im_into_inner : T -> res bytes;                          (* and as_mut() on the result *)
  im_next : env -> N -> T -> T * res unit;
  im_more : env -> N -> T -> T * res unit;
  im_offset : T -> N;
  im_length : T -> N;
  im_data : env -> T -> res bytes;
  im_data_mut : env -> mut -> T -> T * res unit }.          (* running [f] on data_mut() *)
Arguments im_into_inner {T} i. Arguments im_next {T} i. Arguments im_more {T} i. Arguments im_offset {T} i.
Arguments im_length {T} i. Arguments im_data {T} i. Arguments im_data_mut {T} i.
(** The crate's own implementations: src/buffer/dynamic.rs:35-85, src/buffer/slice.rs:42-107 *)
Definition crate_impl : impl buffer := Impl buffer buf_into_inner buf_next buf_more buf_offset buf_length buf_data buf_data_mut.

Section Generic.
Context {T : Type} (I : impl T).

(** ** The builder structs *)
(** src/ether/builder.rs:28-33, src/ip/builder.rs:22-25, src/ip/v4/builder.rs:30-36,
    src/ip/v6/builder.rs:23-26, src/udp/builder.rs:28-34, src/tcp/builder.rs:29-37,
    src/icmp/builder.rs:26-29, src/icmp/echo/builder.rs:28-34,
    src/icmp/information/builder.rs:27-32, src/icmp/timestamp/builder.rs:28-33 *)
Record gbuilder := {
  gb_buffer : T;
  gb_fin : finalization;
  gb_ip : N * N;             (* udp, tcp *)
  gb_kind : bool;            (* echo, information, timestamp *)
  gb_payload : bool;         (* ether, v4, udp, tcp, echo *)
  gb_payload_length : N      (* tcp *)
}.
(** A fresh builder around a buffer (the struct literals of the [with]s).
    E.g. src/ether/builder.rs:40-45, src/udp/builder.rs:43-49 *)
Definition gfresh (buf : T) (ip : N * N) : gbuilder :=
  {| gb_buffer := buf; gb_fin := fin_default; gb_ip := ip; gb_kind := false;
     gb_payload := false; gb_payload_length := 0 |}.
(** Record update. [self.buffer] changed, e.g. src/ether/builder.rs:107-110 *)
Definition gwith_buffer (b : gbuilder) (buf : T) : gbuilder :=
  {| gb_buffer := buf; gb_fin := gb_fin b; gb_ip := gb_ip b; gb_kind := gb_kind b;
     gb_payload := gb_payload b; gb_payload_length := gb_payload_length b |}.
(** [self.finalizer] changed, e.g. src/udp/builder.rs:116 *)
Definition gwith_fin (b : gbuilder) (fs : finalization) : gbuilder :=
  {| gb_buffer := gb_buffer b; gb_fin := fs; gb_ip := gb_ip b; gb_kind := gb_kind b;
     gb_payload := gb_payload b; gb_payload_length := gb_payload_length b |}.
(** [self.kind = true], e.g. src/icmp/echo/builder.rs:87 *)
Definition gwith_kind (b : gbuilder) : gbuilder :=
  {| gb_buffer := gb_buffer b; gb_fin := gb_fin b; gb_ip := gb_ip b; gb_kind := true;
     gb_payload := gb_payload b; gb_payload_length := gb_payload_length b |}.
(** [self.payload = true], e.g. src/udp/builder.rs:102 *)
Definition gwith_payload (b : gbuilder) : gbuilder :=
  {| gb_buffer := gb_buffer b; gb_fin := gb_fin b; gb_ip := gb_ip b; gb_kind := gb_kind b;
     gb_payload := true; gb_payload_length := gb_payload_length b |}.
(** [self.payload_length += 1], src/tcp/builder.rs:147 *)
Definition gwith_payload_length (b : gbuilder) (n : N) : gbuilder :=
  {| gb_buffer := gb_buffer b; gb_fin := gb_fin b; gb_ip := gb_ip b; gb_kind := gb_kind b;
     gb_payload := gb_payload b; gb_payload_length := n |}.

(** A buffer operation under [?]: the buffer is lost on [Err]. E.g. src/udp/builder.rs:41 *)
Definition gtry_buf (r : T * res unit) : res T :=
  match r with (buf, Ok _) => Ok buf | (_, Err e) => Err e | (_, Panic) => Panic end.
(** Running a setter on [self.buffer.data_mut()], under [?]. E.g. src/tcp/builder.rs:97 *)
Definition gedit (E : env) (f : mut) (b : gbuilder) : res gbuilder :=
  let* buf := gtry_buf (im_data_mut I E f (gb_buffer b)) in Ok (gwith_buffer b buf).

(** The loop of the [payload] methods: src/ether/builder.rs:107-110,
    src/ip/v4/builder.rs:173-176, src/udp/builder.rs:104-107,
    src/icmp/echo/builder.rs:125-128 ([count] = false) and
    src/tcp/builder.rs:145-149 ([count] = true). *)
Fixpoint gpayload_loop (E : env) (count : bool) (p : bytes) (b : gbuilder) : res gbuilder :=
  match p with
  | [] => Ok b
  | x :: p' =>
      let* buf := gtry_buf (im_more I E 1 (gb_buffer b)) in
      let b1 := gwith_buffer b buf in
      let* b2 := (if count
                  then let* n := usize_add E (gb_payload_length b1) 1 in Ok (gwith_payload_length b1 n)
                  else Ok b1) in
      let* b3 := gedit E (set_last x) b2 in
      gpayload_loop E count p' b3
  end.
(** src/ether/builder.rs:100-113, src/ip/v4/builder.rs:166-179,
    src/udp/builder.rs:97-110, src/tcp/builder.rs:138-152 ([e] = AlreadyDefined),
    src/icmp/echo/builder.rs:118-131 ([e] = InvalidPacket) *)
Definition gadd_payload (E : env) (e : error) (count : bool) (p : bytes) (b : gbuilder) : res gbuilder :=
  if gb_payload b then Err e else gpayload_loop E count p (gwith_payload b).

(** The tail common to the [build]s: [into_inner], [finalize(..)?], [Ok(buffer)]
    (e.g. src/ether/builder.rs:53-55). *)
Definition gfinish (b : gbuilder) : res bytes :=
  let* inner := im_into_inner I (gb_buffer b) in
  match fin_finalize (gb_fin b) inner with
  | (out, Ok _) => Ok out
  | (_, Err e) => Err e
  | (_, Panic) => Panic
  end.

(** ** Ethernet: src/ether/builder.rs *)
(** src/ether/builder.rs:36-46 *)
Definition gether_with (E : env) (buf : T) : res gbuilder :=
  let* buf := gtry_buf (im_next I E ether_header_min buf) in Ok (gfresh buf (0, 0)).
(** src/ether/builder.rs:52-56 *)
Definition gether_build (b : gbuilder) : res bytes := gfinish b.
(** Method calls, src/ether/builder.rs:79-113 *)
Definition gether_run1 (E : env) (o : ether_op) (b : gbuilder) : res gbuilder :=
  match o with
  | EtherDestination v => gedit E (ether_set_destination v) b
  | EtherSource v => gedit E (ether_set_source v) b
  | EtherProtocol v => gedit E (ether_set_protocol v) b
  | EtherPayload p => gadd_payload E AlreadyDefined false p b
  end.
(** src/ip/builder.rs:28-33 (and v6, src/ip/v6/builder.rs:29-34, icmp,
    src/icmp/builder.rs:32-37) *)
Definition gip_with (buf : T) : res gbuilder := Ok (gfresh buf (0, 0)).
(** Taking a sub-builder: [let mut x = X::with(self.buffer)?; x.finalizer().extend(self.finalizer)];
    e.g. src/ip/builder.rs:53-54 *)
Definition gsub (mk : T -> res gbuilder) (b : gbuilder) : res gbuilder :=
  let* c := mk (gb_buffer b) in Ok (gwith_fin c (fin_extend (gb_fin c) (gb_fin b))).
(** src/ether/builder.rs:116-145 *)
Definition gether_ip (E : env) (b : gbuilder) : res gbuilder :=
  if gb_payload b then Err AlreadyDefined
  else
    let f := ether_ip_finalizer E (im_offset I (gb_buffer b)) (im_length I (gb_buffer b)) in
    gsub gip_with (gwith_fin b (fin_add (gb_fin b) f)).

(** ** Generic IP, IPv6: src/ip/builder.rs, src/ip/v6/builder.rs *)
(** src/ip/builder.rs:39-41, src/ip/v6/builder.rs:40-42, src/icmp/builder.rs:43-45 *)
Definition gip_build (b : gbuilder) : res bytes := Err InvalidPacket.
Definition gv6_build (b : gbuilder) : res bytes := Err InvalidPacket.
Definition gicmp_build (b : gbuilder) : res bytes := Err InvalidPacket.

(** ** IPv4: src/ip/v4/builder.rs *)
(** src/ip/v4/builder.rs:39-58 *)
Definition gv4_with (E : env) (buf : T) : res gbuilder :=
  let* buf := gtry_buf (im_next I E v4_header_min buf) in
  let* buf := gtry_buf (im_data_mut I E (set_index 0 (N.lor 64 (as_u8 (v4_header_min / 4)))) buf) in
  Ok (gfresh buf (0, 0)).
(** src/ip/builder.rs:52-57 *)
Definition gip_v4 (E : env) (b : gbuilder) : res gbuilder := gsub (gv4_with E) b.
(** src/ip/builder.rs:60-65 *)
Definition gip_v6 (b : gbuilder) : res gbuilder := gsub gip_with b.
(** src/ip/v4/builder.rs:181-202 *)
Definition gv4_prepare (E : env) (b : gbuilder) : gbuilder :=
  gwith_fin b (fin_add (gb_fin b)
    (v4_finalizer E (im_offset I (gb_buffer b)) (im_length I (gb_buffer b)))).
(** src/ip/v4/builder.rs:64-70 *)
Definition gv4_build (E : env) (b : gbuilder) : res bytes := gfinish (gv4_prepare E b).
(** Method calls, src/ip/v4/builder.rs:112-179; the setters take the argument
    of the packet setter of the same name. *)
Definition gv4_run1 (E : env) (o : v4_op) (b : gbuilder) : res gbuilder :=
  match o with
  | V4Set s => gedit E (v4_apply s) b
  | V4Payload p => gadd_payload E AlreadyDefined false p b
  end.
(** src/ip/v4/builder.rs:91-108 *)
Definition gv4_sub (E : env) (proto : ip_protocol) (mk : T -> res gbuilder) (b : gbuilder) : res gbuilder :=
  if gb_payload b then Err AlreadyDefined
  else
    let* b1 := gedit E (v4_set_protocol proto) b in
    gsub mk (gv4_prepare E b1).

(** ** UDP: src/udp/builder.rs *)
(** src/udp/builder.rs:37-50 *)
Definition gudp_with (E : env) (buf : T) : res gbuilder :=
  let ip := (im_offset I buf, im_length I buf) in
  let* buf := gtry_buf (im_next I E udp_header_min buf) in Ok (gfresh buf ip).
(** src/ip/v4/builder.rs:210-211 *)
Definition gv4_udp (E : env) (b : gbuilder) : res gbuilder := gv4_sub E IP_Udp (gudp_with E) b.
(** Method calls, src/udp/builder.rs:85-110 *)
Definition gudp_run1 (E : env) (o : udp_op) (b : gbuilder) : res gbuilder :=
  match o with
  | UdpSet s => gedit E (udp_apply s) b
  | UdpPayload p => gadd_payload E AlreadyDefined false p b
  end.
(** src/udp/builder.rs:112-139 *)
Definition gudp_prepare (E : env) (b : gbuilder) : gbuilder :=
  gwith_fin b (fin_add (gb_fin b) (udp_finalizer E (gb_ip b) (im_length I (gb_buffer b)))).
(** src/udp/builder.rs:56-62 *)
Definition gudp_build (E : env) (b : gbuilder) : res bytes := gfinish (gudp_prepare E b).

(** ** TCP: src/tcp/builder.rs *)
(** src/tcp/builder.rs:40-61 *)
Definition gtcp_with (E : env) (buf : T) : res gbuilder :=
  let ip := (im_offset I buf, im_length I buf) in
  let* buf := gtry_buf (im_next I E tcp_header_min buf) in
  let* buf := gtry_buf (im_data_mut I E (set_index 12 (shl_u8 (as_u8 (tcp_header_min / 4)) 4)) buf) in
  Ok (gfresh buf ip).
(** src/ip/v4/builder.rs:207-208 *)
Definition gv4_tcp (E : env) (b : gbuilder) : res gbuilder := gv4_sub E IP_Tcp (gtcp_with E) b.
(** Method calls, src/tcp/builder.rs:96-152 *)
Definition gtcp_run1 (E : env) (o : tcp_op) (b : gbuilder) : res gbuilder :=
  match o with
  | TcpSet s => gedit E (tcp_apply s) b
  | TcpPayload p => gadd_payload E AlreadyDefined true p b
  end.
(** src/tcp/builder.rs:154-178 *)
Definition gtcp_prepare (E : env) (b : gbuilder) : gbuilder :=
  gwith_fin b (fin_add (gb_fin b)
    (tcp_finalizer E (gb_ip b) (im_length I (gb_buffer b)) (gb_payload_length b))).
(** src/tcp/builder.rs:67-73 *)
Definition gtcp_build (E : env) (b : gbuilder) : res bytes := gfinish (gtcp_prepare E b).

(** ** ICMP: src/icmp/builder.rs *)
(** src/icmp/builder.rs:32-37 *)
Definition gicmp_with (buf : T) : res gbuilder := gip_with buf.
(** src/ip/v4/builder.rs:204-205 *)
Definition gv4_icmp (E : env) (b : gbuilder) : res gbuilder := gv4_sub E IP_Icmp gicmp_with b.
(** src/icmp/builder.rs:80-91 *)
Definition gicmp_prepare (E : env) (b : gbuilder) : gbuilder :=
  gwith_fin b (fin_add (gb_fin b)
    (icmp_finalizer E (im_offset I (gb_buffer b)) (im_length I (gb_buffer b)))).
(** src/icmp/echo/builder.rs:53-63, src/icmp/information/builder.rs:50-60,
    src/icmp/timestamp/builder.rs:51-61 *)
Definition gicmp_kind_build (E : env) (b : gbuilder) : res bytes :=
  if negb (gb_kind b) then Err InvalidPacket else gfinish (gicmp_prepare E b).

(** *** Echo *)
(** src/icmp/echo/builder.rs:37-47 *)
Definition gecho_with (E : env) (buf : T) : res gbuilder :=
  let* buf := gtry_buf (im_next I E 8 buf) in Ok (gfresh buf (0, 0)).
(** src/icmp/builder.rs:56-61 *)
Definition gicmp_echo (E : env) (b : gbuilder) : res gbuilder := gsub (gecho_with E) b.
Definition gecho_build (E : env) (b : gbuilder) : res bytes := gicmp_kind_build E b.
(** Method calls, src/icmp/echo/builder.rs:86-131 *)
Definition gecho_run1 (E : env) (o : echo_op) (b : gbuilder) : res gbuilder :=
  match o with
  | EchoRequest => gedit E (set_index 0 (icmp_kind_into K_EchoRequest)) (gwith_kind b)
  | EchoReply => gedit E (set_index 0 (icmp_kind_into K_EchoReply)) (gwith_kind b)
  | EchoIdentifier v => gedit E (write_u16 4 v) b
  | EchoSequence v => gedit E (write_u16 6 v) b
  | EchoPayload p => gadd_payload E InvalidPacket false p b
  end.

(** *** Information *)
(** src/icmp/information/builder.rs:35-44 *)
Definition ginformation_with (E : env) (buf : T) : res gbuilder :=
  let* buf := gtry_buf (im_next I E 8 buf) in Ok (gfresh buf (0, 0)).
(** src/icmp/builder.rs:64-69 *)
Definition gicmp_information (E : env) (b : gbuilder) : res gbuilder := gsub (ginformation_with E) b.
Definition ginformation_build (E : env) (b : gbuilder) : res bytes := gicmp_kind_build E b.
(** Method calls, src/icmp/information/builder.rs:83-112 *)
Definition ginformation_run1 (E : env) (o : information_op) (b : gbuilder) : res gbuilder :=
  match o with
  | InfoRequest => gedit E (set_index 0 (icmp_kind_into K_InformationRequest)) (gwith_kind b)
  | InfoReply => gedit E (set_index 0 (icmp_kind_into K_InformationReply)) (gwith_kind b)
  | InfoIdentifier v => gedit E (write_u16 4 v) b
  | InfoSequence v => gedit E (write_u16 6 v) b
  end.

(** *** Timestamp *)
(** src/icmp/timestamp/builder.rs:36-45 *)
Definition gtimestamp_with (E : env) (buf : T) : res gbuilder :=
  let* buf := gtry_buf (im_next I E 20 buf) in Ok (gfresh buf (0, 0)).
(** src/icmp/builder.rs:72-77 *)
Definition gicmp_timestamp (E : env) (b : gbuilder) : res gbuilder := gsub (gtimestamp_with E) b.
Definition gtimestamp_build (E : env) (b : gbuilder) : res bytes := gicmp_kind_build E b.
(** Method calls, src/icmp/timestamp/builder.rs:84-137 *)
Definition gtimestamp_run1 (E : env) (o : timestamp_op) (b : gbuilder) : res gbuilder :=
  match o with
  | TsRequest => gedit E (set_index 0 (icmp_kind_into K_TimestampRequest)) (gwith_kind b)
  | TsReply => gedit E (set_index 0 (icmp_kind_into K_TimestampReply)) (gwith_kind b)
  | TsIdentifier v => gedit E (write_u16 4 v) b
  | TsSequence v => gedit E (write_u16 6 v) b
  | TsOriginate v => gedit E (write_u32 8 v) b
  | TsReceive v => gedit E (write_u32 12 v) b
  | TsTransmit v => gedit E (write_u32 16 v) b
  end.

(** A chain of method calls, each under [?]. E.g. src/udp/builder.rs:67-110 called in a row *)
Fixpoint grun {A} (run1 : A -> gbuilder -> res gbuilder) (ops : list A) (b : gbuilder) : res gbuilder :=
  match ops with
  | [] => Ok b
  | o :: ops' => let* b' := run1 o b in grun run1 ops' b'
  end.

(** [as_packet] on builders parses [self.buffer.data()]: ether/builder.rs:65-69,
    ip/v4/builder.rs:79-83, udp/builder.rs:71-75, tcp/builder.rs:82-86,
    icmp/echo/builder.rs:72-76, icmp/information/builder.rs:69-73,
    icmp/timestamp/builder.rs:70-74. E.g. src/ether/builder.rs:65-69 *)
Definition gbuilder_as_packet (E : env) (parse : bytes -> res bytes) (b : gbuilder) : res bytes :=
  let* d := im_data I E (gb_buffer b) in parse d.
(** [as_packet_mut] on builders parses [self.buffer.data_mut()], and the caller
    runs [f] on the packet: ether/builder.rs:71-75, ip/v4/builder.rs:85-89,
    udp/builder.rs:77-81, tcp/builder.rs:88-92, icmp/echo/builder.rs:78-82,
    icmp/information/builder.rs:75-79, icmp/timestamp/builder.rs:76-80.  The
    builder survives an error. E.g. src/ether/builder.rs:71-75 *)
Definition gbuilder_as_packet_mut (E : env) (parse : bytes -> res bytes) (f : mut) (b : gbuilder) : gbuilder * res unit :=
  let (buf, r) := im_data_mut I E (mlet parse (fun _ => f)) (gb_buffer b) in (gwith_buffer b buf, r).
End Generic.
