(** * Builders: src/builder.rs and every builder of the crate.

    A call that returns [Err] consumes the builder, so a builder method is a
    function [builder -> res builder].  One record stands for all the builder
    structs; a field a given builder type lacks keeps its initial value (the
    [options] field of the IPv4 and TCP builders is never read and is left out).
    Iterators given to [payload] are finite lists of bytes. *)
From Verif Require Import Base Enums Buffer Ether Ipv4 Ip Udp Tcp Icmp.

(** ** Finalization: src/builder.rs:23-86 *)
(** A finalizer: [FnOnce(&mut [u8]) -> Result<()>]. src/builder.rs:36 *)
Definition finalizer := mut.
(** src/builder.rs:36 *)
Definition finalization := list finalizer.
(** src/builder.rs:38-42 *)
Definition fin_default : finalization := [].
(** src/builder.rs:54-56 *)
Definition fin_add (fs : finalization) (f : finalizer) : finalization := fs ++ [f].
(** src/builder.rs:59-61 *)
Definition fin_extend (fs gs : finalization) : finalization := fs ++ gs.
(** the loop of src/builder.rs:65-67 over an already reversed list *)
Fixpoint fin_run (fs : list finalizer) : mut := fun b =>
  match fs with
  | [] => (b, Ok tt)
  | f :: fs' => match f b with
                | (b', Ok _) => fin_run fs' b'
                | (b', Err e) => (b', Err e)
                | (b', Panic) => (b', Panic)
                end
  end.
(** src/builder.rs:64-70 *)
Definition fin_finalize (fs : finalization) : mut := fin_run (rev fs).

(** ** The builder structs *)
(** src/ether/builder.rs:28-33, src/ip/builder.rs:22-25, src/ip/v4/builder.rs:30-36,
    src/ip/v6/builder.rs:23-26, src/udp/builder.rs:28-34, src/tcp/builder.rs:29-37,
    src/icmp/builder.rs:26-29, src/icmp/echo/builder.rs:28-34,
    src/icmp/information/builder.rs:27-32, src/icmp/timestamp/builder.rs:28-33 *)
Record builder := {
  b_buffer : buffer;
  b_fin : finalization;
  b_ip : N * N;             (* udp, tcp *)
  b_kind : bool;            (* echo, information, timestamp *)
  b_payload : bool;         (* ether, v4, udp, tcp, echo *)
  b_payload_length : N      (* tcp *)
}.
(** A fresh builder around a buffer (the struct literals of the [with]s).
    E.g. src/ether/builder.rs:40-45, src/udp/builder.rs:43-49 *)
Definition fresh (buf : buffer) (ip : N * N) : builder :=
  {| b_buffer := buf; b_fin := fin_default; b_ip := ip; b_kind := false;
     b_payload := false; b_payload_length := 0 |}.
(** Record update. [self.buffer] changed, e.g. src/ether/builder.rs:107-110 *)
Definition with_buffer (b : builder) (buf : buffer) : builder :=
  {| b_buffer := buf; b_fin := b_fin b; b_ip := b_ip b; b_kind := b_kind b;
     b_payload := b_payload b; b_payload_length := b_payload_length b |}.
(** [self.finalizer] changed, e.g. src/udp/builder.rs:116 *)
Definition with_fin (b : builder) (fs : finalization) : builder :=
  {| b_buffer := b_buffer b; b_fin := fs; b_ip := b_ip b; b_kind := b_kind b;
     b_payload := b_payload b; b_payload_length := b_payload_length b |}.
(** [self.kind = true], e.g. src/icmp/echo/builder.rs:87 *)
Definition with_kind (b : builder) : builder :=
  {| b_buffer := b_buffer b; b_fin := b_fin b; b_ip := b_ip b; b_kind := true;
     b_payload := b_payload b; b_payload_length := b_payload_length b |}.
(** [self.payload = true], e.g. src/udp/builder.rs:102 *)
Definition with_payload (b : builder) : builder :=
  {| b_buffer := b_buffer b; b_fin := b_fin b; b_ip := b_ip b; b_kind := b_kind b;
     b_payload := true; b_payload_length := b_payload_length b |}.
(** [self.payload_length += 1], src/tcp/builder.rs:147 *)
Definition with_payload_length (b : builder) (n : N) : builder :=
  {| b_buffer := b_buffer b; b_fin := b_fin b; b_ip := b_ip b; b_kind := b_kind b;
     b_payload := b_payload b; b_payload_length := n |}.

(** A buffer operation under [?]: the buffer is lost on [Err]. E.g. src/udp/builder.rs:41 *)
Definition try_buf (r : buffer * res unit) : res buffer :=
  match r with (buf, Ok _) => Ok buf | (_, Err e) => Err e | (_, Panic) => Panic end.
(** Running a setter on [self.buffer.data_mut()], under [?]. E.g. src/tcp/builder.rs:97 *)
Definition edit (E : env) (f : mut) (b : builder) : res builder :=
  let* buf := try_buf (buf_data_mut E f (b_buffer b)) in Ok (with_buffer b buf).

(** [*s.last_mut().unwrap() = v];
    src/ether/builder.rs:109, src/ip/v4/builder.rs:175, src/udp/builder.rs:106, src/tcp/builder.rs:148, src/icmp/echo/builder.rs:127 *)
Definition set_last (v : N) : mut := fun s =>
  if len s =? 0 then (s, Panic) else set_index (len s - 1) v s.
(** The loop of the [payload] methods: src/ether/builder.rs:107-110,
    src/ip/v4/builder.rs:173-176, src/udp/builder.rs:104-107,
    src/icmp/echo/builder.rs:125-128 ([count] = false) and
    src/tcp/builder.rs:145-149 ([count] = true). *)
Fixpoint payload_loop (E : env) (count : bool) (p : bytes) (b : builder) : res builder :=
  match p with
  | [] => Ok b
  | x :: p' =>
      let* buf := try_buf (buf_more E 1 (b_buffer b)) in
      let b1 := with_buffer b buf in
      let* b2 := (if count
                  then let* n := usize_add E (b_payload_length b1) 1 in Ok (with_payload_length b1 n)
                  else Ok b1) in
      let* b3 := edit E (set_last x) b2 in
      payload_loop E count p' b3
  end.
(** src/ether/builder.rs:100-113, src/ip/v4/builder.rs:166-179,
    src/udp/builder.rs:97-110, src/tcp/builder.rs:138-152 ([e] = AlreadyDefined),
    src/icmp/echo/builder.rs:118-131 ([e] = InvalidPacket) *)
Definition add_payload (E : env) (e : error) (count : bool) (p : bytes) (b : builder) : res builder :=
  if b_payload b then Err e else payload_loop E count p (with_payload b).

(** The tail common to the [build]s: [into_inner], [finalize(..)?], [Ok(buffer)]
    (e.g. src/ether/builder.rs:53-55). *)
Definition finish (b : builder) : res bytes :=
  let* inner := buf_into_inner (b_buffer b) in
  match fin_finalize (b_fin b) inner with
  | (out, Ok _) => Ok out
  | (_, Err e) => Err e
  | (_, Panic) => Panic
  end.

(** ** Ethernet: src/ether/builder.rs *)
(** src/ether/builder.rs:36-46 *)
Definition ether_with (E : env) (buf : buffer) : res builder :=
  let* buf := try_buf (buf_next E ether_header_min buf) in Ok (fresh buf (0, 0)).
(** src/ether/builder.rs:59-63 *)
Definition ether_default (E : env) : res builder := unwrap (ether_with E dynamic_new).
(** src/ether/builder.rs:52-56 *)
Definition ether_build (b : builder) : res bytes := finish b.
(** Method calls, src/ether/builder.rs:79-113 *)
Inductive ether_op :=
| EtherDestination (v : hwaddr) | EtherSource (v : hwaddr)
| EtherProtocol (v : ether_protocol) | EtherPayload (p : bytes).
Definition ether_run1 (E : env) (o : ether_op) (b : builder) : res builder :=
  match o with
  | EtherDestination v => edit E (ether_set_destination v) b
  | EtherSource v => edit E (ether_set_source v) b
  | EtherProtocol v => edit E (ether_set_protocol v) b
  | EtherPayload p => add_payload E AlreadyDefined false p b
  end.
(** The closure of src/ether/builder.rs:124-139 *)
Definition ether_ip_finalizer (E : env) (offset length : N) : finalizer :=
  mlet (fun out => let* i := usize_add E offset length in
                   let* x := index out i in
                   let* at_ := usize_add E offset 12 in Ok (N.shiftr x 4, at_))
       (fun va => match fst va with
                  | 4 => write_u16 (snd va) (ether_protocol_into ET_Ipv4)
                  | 6 => write_u16 (snd va) (ether_protocol_into ET_Ipv6)
                  | _ => fun out => (out, Panic)
                  end).
(** src/ip/builder.rs:28-33 (and v6, src/ip/v6/builder.rs:29-34, icmp,
    src/icmp/builder.rs:32-37) *)
Definition ip_with (buf : buffer) : res builder := Ok (fresh buf (0, 0)).
(** Taking a sub-builder: [let mut x = X::with(self.buffer)?; x.finalizer().extend(self.finalizer)];
    e.g. src/ip/builder.rs:53-54 *)
Definition sub (mk : buffer -> res builder) (b : builder) : res builder :=
  let* c := mk (b_buffer b) in Ok (with_fin c (fin_extend (b_fin c) (b_fin b))).
(** src/ether/builder.rs:116-145 *)
Definition ether_ip (E : env) (b : builder) : res builder :=
  if b_payload b then Err AlreadyDefined
  else
    let f := ether_ip_finalizer E (buf_offset (b_buffer b)) (buf_length (b_buffer b)) in
    sub ip_with (with_fin b (fin_add (b_fin b) f)).

(** ** Generic IP, IPv6: src/ip/builder.rs, src/ip/v6/builder.rs *)
(** src/ip/builder.rs:39-41, src/ip/v6/builder.rs:40-42, src/icmp/builder.rs:43-45 *)
Definition ip_build (b : builder) : res bytes := Err InvalidPacket.
Definition v6_build (b : builder) : res bytes := Err InvalidPacket.
Definition icmp_build (b : builder) : res bytes := Err InvalidPacket.

(** ** IPv4: src/ip/v4/builder.rs *)
(** src/ip/v4/builder.rs:39-58 *)
Definition v4_with (E : env) (buf : buffer) : res builder :=
  let* buf := try_buf (buf_next E v4_header_min buf) in
  let* buf := try_buf (buf_data_mut E (set_index 0 (N.lor 64 (as_u8 (v4_header_min / 4)))) buf) in
  Ok (fresh buf (0, 0)).
(** src/ip/v4/builder.rs:73-77 *)
Definition v4_default (E : env) : res builder := unwrap (v4_with E dynamic_new).
(** src/ip/builder.rs:44-48, src/ip/v6/builder.rs:45-49 *)
Definition ip_default : res builder := unwrap (ip_with dynamic_new).
(** src/ip/builder.rs:52-57 *)
Definition ip_v4 (E : env) (b : builder) : res builder := sub (v4_with E) b.
(** src/ip/builder.rs:60-65 *)
Definition ip_v6 (b : builder) : res builder := sub ip_with b.
(** The closure of src/ip/v4/builder.rs:185-201 *)
Definition v4_finalizer (E : env) (offset length : N) : finalizer :=
  let header := length / 4 in
  mseq (set_index offset (N.lor 64 (as_u8 header)))
  (mseq (mlet (fun out => let* e := usize_add E offset length in
                          let* rest := usize_sub E (len out) e in
                          let* total := usize_add E length rest in
                          let* at_ := usize_add E offset 2 in Ok (at_, total))
              (fun al => write_u16 (fst al) (as_u16 (snd al))))
        (mlet (fun out => let* e := usize_add E offset (header * 4) in
                          let* h := slice out offset e in
                          let* c := v4_checksum_of E h in
                          let* at_ := usize_add E offset 10 in Ok (at_, c))
              (fun ac => write_u16 (fst ac) (snd ac)))).
(** src/ip/v4/builder.rs:181-202 *)
Definition v4_prepare (E : env) (b : builder) : builder :=
  with_fin b (fin_add (b_fin b)
    (v4_finalizer E (buf_offset (b_buffer b)) (buf_length (b_buffer b)))).
(** src/ip/v4/builder.rs:64-70 *)
Definition v4_build (E : env) (b : builder) : res bytes := finish (v4_prepare E b).
(** Method calls, src/ip/v4/builder.rs:112-179; the setters take the argument
    of the packet setter of the same name. *)
Inductive v4_op := V4Set (s : v4_setter) | V4Payload (p : bytes).
Definition v4_run1 (E : env) (o : v4_op) (b : builder) : res builder :=
  match o with
  | V4Set s => edit E (v4_apply s) b
  | V4Payload p => add_payload E AlreadyDefined false p b
  end.
(** src/ip/v4/builder.rs:91-108 *)
Definition v4_sub (E : env) (proto : ip_protocol) (mk : buffer -> res builder) (b : builder) : res builder :=
  if b_payload b then Err AlreadyDefined
  else
    let* b1 := edit E (v4_set_protocol proto) b in
    sub mk (v4_prepare E b1).

(** ** UDP: src/udp/builder.rs *)
(** src/udp/builder.rs:37-50 *)
Definition udp_with (E : env) (buf : buffer) : res builder :=
  let ip := (buf_offset buf, buf_length buf) in
  let* buf := try_buf (buf_next E udp_header_min buf) in Ok (fresh buf ip).
(** src/udp/builder.rs:65-69 *)
Definition udp_default (E : env) : res builder := unwrap (udp_with E dynamic_new).
(** src/ip/v4/builder.rs:210-211 *)
Definition v4_udp (E : env) (b : builder) : res builder := v4_sub E IP_Udp (udp_with E) b.
(** Method calls, src/udp/builder.rs:85-110 *)
Inductive udp_op := UdpSet (s : udp_setter) | UdpPayload (p : bytes).
Definition udp_run1 (E : env) (o : udp_op) (b : builder) : res builder :=
  match o with
  | UdpSet s => edit E (udp_apply s) b
  | UdpPayload p => add_payload E AlreadyDefined false p b
  end.
(** [out.split_at_mut(ip.0 + ip.1)], [&mut before[ip.0 ..]] and
    [&mut after[.. length]]: src/udp/builder.rs:117-119, src/tcp/builder.rs:161-163.
    The parent's bytes and the bounds of the inner packet. *)
Definition split_layers (E : env) (ip : N * N) (length : N) (out : bytes) : res (bytes * N * N) :=
  let* m := usize_add E (fst ip) (snd ip) in
  let* (before, after) := split_at out m in
  let* p := slice_from before (fst ip) in
  let* _ := slice_to after length in
  Ok (p, m, m + length).
(** src/udp/builder.rs:124-132 *)
Definition udp_builder_checksum (E : env) (ip udp : bytes) : res N :=
  match v4_no_payload ip with
  | Ok p => udp_checksum_of E (V4 p) udp
  | Err _ => match v6_no_payload ip with
             | Ok p => udp_checksum_of E (V6 p) udp
             | Err _ => Err InvalidPacket
             | Panic => Panic
             end
  | Panic => Panic
  end.
(** The closure of src/udp/builder.rs:116-138 *)
Definition udp_finalizer (E : env) (ip : N * N) (length : N) : finalizer :=
  mlet (split_layers E ip length)
       (fun l => let '(p, i, j) := l in
          range_mut i j
            (mseq (write_u16 4 (as_u16 length))
                  (mlet (udp_builder_checksum E p) (write_u16 6)))).
(** src/udp/builder.rs:112-139 *)
Definition udp_prepare (E : env) (b : builder) : builder :=
  with_fin b (fin_add (b_fin b) (udp_finalizer E (b_ip b) (buf_length (b_buffer b)))).
(** src/udp/builder.rs:56-62 *)
Definition udp_build (E : env) (b : builder) : res bytes := finish (udp_prepare E b).

(** ** TCP: src/tcp/builder.rs *)
(** src/tcp/builder.rs:40-61 *)
Definition tcp_with (E : env) (buf : buffer) : res builder :=
  let ip := (buf_offset buf, buf_length buf) in
  let* buf := try_buf (buf_next E tcp_header_min buf) in
  let* buf := try_buf (buf_data_mut E (set_index 12 (shl_u8 (as_u8 (tcp_header_min / 4)) 4)) buf) in
  Ok (fresh buf ip).
(** src/tcp/builder.rs:76-80 *)
Definition tcp_default (E : env) : res builder := unwrap (tcp_with E dynamic_new).
(** src/ip/v4/builder.rs:207-208 *)
Definition v4_tcp (E : env) (b : builder) : res builder := v4_sub E IP_Tcp (tcp_with E) b.
(** Method calls, src/tcp/builder.rs:96-152 *)
Inductive tcp_op := TcpSet (s : tcp_setter) | TcpPayload (p : bytes).
Definition tcp_run1 (E : env) (o : tcp_op) (b : builder) : res builder :=
  match o with
  | TcpSet s => edit E (tcp_apply s) b
  | TcpPayload p => add_payload E AlreadyDefined true p b
  end.
(** The closure of src/tcp/builder.rs:159-177 *)
Definition tcp_finalizer (E : env) (ip : N * N) (length payload_length : N) : finalizer :=
  mlet (split_layers E ip length)
       (fun l => let '(p, i, j) := l in
          range_mut i j
            (mseq (mlet (fun tcp => let* x := index tcp 12 in
                                    let* h := usize_sub E length payload_length in
                                    Ok (N.lor (shl_u8 (as_u8 (h / 4)) 4) (N.land x 15)))
                        (set_index 12))
                  (mlet (fun tcp => let* q := ip_no_payload p in tcp_checksum_of E q tcp)
                        (write_u16 16)))).
(** src/tcp/builder.rs:154-178 *)
Definition tcp_prepare (E : env) (b : builder) : builder :=
  with_fin b (fin_add (b_fin b)
    (tcp_finalizer E (b_ip b) (buf_length (b_buffer b)) (b_payload_length b))).
(** src/tcp/builder.rs:67-73 *)
Definition tcp_build (E : env) (b : builder) : res bytes := finish (tcp_prepare E b).

(** ** ICMP: src/icmp/builder.rs *)
(** src/icmp/builder.rs:32-37 *)
Definition icmp_with (buf : buffer) : res builder := ip_with buf.
(** src/icmp/builder.rs:48-52 *)
Definition icmp_default : res builder := unwrap (icmp_with dynamic_new).
(** src/ip/v4/builder.rs:204-205 *)
Definition v4_icmp (E : env) (b : builder) : res builder := v4_sub E IP_Icmp icmp_with b.
(** The closure of src/icmp/builder.rs:84-90 *)
Definition icmp_finalizer (E : env) (offset length : N) : finalizer :=
  mlet (fun out => let* e := usize_add E offset length in
                   let* s := slice out offset e in
                   let* c := icmp_checksum_of E s in
                   let* at_ := usize_add E offset 2 in Ok (at_, c))
       (fun ac => write_u16 (fst ac) (snd ac)).
(** src/icmp/builder.rs:80-91 *)
Definition icmp_prepare (E : env) (b : builder) : builder :=
  with_fin b (fin_add (b_fin b)
    (icmp_finalizer E (buf_offset (b_buffer b)) (buf_length (b_buffer b)))).
(** src/icmp/echo/builder.rs:53-63, src/icmp/information/builder.rs:50-60,
    src/icmp/timestamp/builder.rs:51-61 *)
Definition icmp_kind_build (E : env) (b : builder) : res bytes :=
  if negb (b_kind b) then Err InvalidPacket else finish (icmp_prepare E b).

(** *** Echo *)
(** src/icmp/echo/builder.rs:37-47 *)
Definition echo_with (E : env) (buf : buffer) : res builder :=
  let* buf := try_buf (buf_next E 8 buf) in Ok (fresh buf (0, 0)).
(** src/icmp/builder.rs:56-61 *)
Definition icmp_echo (E : env) (b : builder) : res builder := sub (echo_with E) b.
(** src/icmp/echo/builder.rs:66-70 *)
Definition echo_default (E : env) : res builder := unwrap (echo_with E dynamic_new).
Definition echo_build (E : env) (b : builder) : res bytes := icmp_kind_build E b.
(** Method calls, src/icmp/echo/builder.rs:86-131 *)
Inductive echo_op :=
| EchoRequest | EchoReply | EchoIdentifier (v : N) | EchoSequence (v : N) | EchoPayload (p : bytes).
Definition echo_run1 (E : env) (o : echo_op) (b : builder) : res builder :=
  match o with
  | EchoRequest => edit E (set_index 0 (icmp_kind_into K_EchoRequest)) (with_kind b)
  | EchoReply => edit E (set_index 0 (icmp_kind_into K_EchoReply)) (with_kind b)
  | EchoIdentifier v => edit E (write_u16 4 v) b
  | EchoSequence v => edit E (write_u16 6 v) b
  | EchoPayload p => add_payload E InvalidPacket false p b
  end.

(** *** Information *)
(** src/icmp/information/builder.rs:35-44 *)
Definition information_with (E : env) (buf : buffer) : res builder :=
  let* buf := try_buf (buf_next E 8 buf) in Ok (fresh buf (0, 0)).
(** src/icmp/builder.rs:64-69 *)
Definition icmp_information (E : env) (b : builder) : res builder := sub (information_with E) b.
(** src/icmp/information/builder.rs:63-67 *)
Definition information_default (E : env) : res builder := unwrap (information_with E dynamic_new).
Definition information_build (E : env) (b : builder) : res bytes := icmp_kind_build E b.
(** Method calls, src/icmp/information/builder.rs:83-112 *)
Inductive information_op :=
| InfoRequest | InfoReply | InfoIdentifier (v : N) | InfoSequence (v : N).
Definition information_run1 (E : env) (o : information_op) (b : builder) : res builder :=
  match o with
  | InfoRequest => edit E (set_index 0 (icmp_kind_into K_InformationRequest)) (with_kind b)
  | InfoReply => edit E (set_index 0 (icmp_kind_into K_InformationReply)) (with_kind b)
  | InfoIdentifier v => edit E (write_u16 4 v) b
  | InfoSequence v => edit E (write_u16 6 v) b
  end.

(** *** Timestamp *)
(** src/icmp/timestamp/builder.rs:36-45 *)
Definition timestamp_with (E : env) (buf : buffer) : res builder :=
  let* buf := try_buf (buf_next E 20 buf) in Ok (fresh buf (0, 0)).
(** src/icmp/builder.rs:72-77 *)
Definition icmp_timestamp (E : env) (b : builder) : res builder := sub (timestamp_with E) b.
(** src/icmp/timestamp/builder.rs:64-68 *)
Definition timestamp_default (E : env) : res builder := unwrap (timestamp_with E dynamic_new).
Definition timestamp_build (E : env) (b : builder) : res bytes := icmp_kind_build E b.
(** Method calls, src/icmp/timestamp/builder.rs:84-137 *)
Inductive timestamp_op :=
| TsRequest | TsReply | TsIdentifier (v : N) | TsSequence (v : N)
| TsOriginate (v : N) | TsReceive (v : N) | TsTransmit (v : N).
Definition timestamp_run1 (E : env) (o : timestamp_op) (b : builder) : res builder :=
  match o with
  | TsRequest => edit E (set_index 0 (icmp_kind_into K_TimestampRequest)) (with_kind b)
  | TsReply => edit E (set_index 0 (icmp_kind_into K_TimestampReply)) (with_kind b)
  | TsIdentifier v => edit E (write_u16 4 v) b
  | TsSequence v => edit E (write_u16 6 v) b
  | TsOriginate v => edit E (write_u32 8 v) b
  | TsReceive v => edit E (write_u32 12 v) b
  | TsTransmit v => edit E (write_u32 16 v) b
  end.

(** A chain of method calls, each under [?]. E.g. src/udp/builder.rs:67-110 called in a row *)
Fixpoint run {A} (run1 : A -> builder -> res builder) (ops : list A) (b : builder) : res builder :=
  match ops with
  | [] => Ok b
  | o :: ops' => let* b' := run1 o b in run run1 ops' b'
  end.

(** [as_packet] on builders parses [self.buffer.data()]: ether/builder.rs:65-69,
    ip/v4/builder.rs:79-83, udp/builder.rs:71-75, tcp/builder.rs:82-86,
    icmp/echo/builder.rs:72-76, icmp/information/builder.rs:69-73,
    icmp/timestamp/builder.rs:70-74. E.g. src/ether/builder.rs:65-69 *)
Definition builder_as_packet (E : env) (parse : bytes -> res bytes) (b : builder) : res bytes :=
  let* d := buf_data E (b_buffer b) in parse d.
(** [as_packet_mut] on builders parses [self.buffer.data_mut()], and the caller
    runs [f] on the packet: ether/builder.rs:71-75, ip/v4/builder.rs:85-89,
    udp/builder.rs:77-81, tcp/builder.rs:88-92, icmp/echo/builder.rs:78-82,
    icmp/information/builder.rs:75-79, icmp/timestamp/builder.rs:76-80.  The
    builder survives an error. E.g. src/ether/builder.rs:71-75 *)
Definition builder_as_packet_mut (E : env) (parse : bytes -> res bytes) (f : mut) (b : builder) : builder * res unit :=
  let (buf, r) := buf_data_mut E (mlet parse (fun _ => f)) (b_buffer b) in (with_buffer b buf, r).
