(** * SpecEdit: sequences of setter calls, and editing a datagram in place. *)
From Verif Require Import Base Enums Ether Ipv4 Ip Udp Tcp Icmp Spec SpecCalls Mutable.

(** ** A sequence of calls that all return Ok: the final contents *)
Fixpoint all_ok {A} (apply : A -> mut) (ops : list A) (b : bytes) : option bytes :=
  match ops with
  | [] => Some b
  | o :: ops' => match apply o b with (b', Ok _) => all_ok apply ops' b' | _ => None end
  end.
(** The last value given to a field, or its old value. *)
Definition last_value {A B} (pick : A -> option B) (ops : list A) (old : B) : B :=
  fold_left (fun v o => match pick o with Some w => w | None => v end) ops old.

(** ** Which field a call sets *)
Inductive ether_call := EthDestination (v : hwaddr) | EthSource (v : hwaddr) | EthProtocol (v : ether_protocol).
Definition ether_apply (o : ether_call) : mut :=
  match o with
  | EthDestination v => ether_set_destination v
  | EthSource v => ether_set_source v
  | EthProtocol v => ether_set_protocol v
  end.
Definition eth_dst o := match o with EthDestination v => Some v | _ => None end.
Definition eth_src o := match o with EthSource v => Some v | _ => None end.
Definition eth_proto o := match o with EthProtocol v => Some (ether_protocol_into v) | _ => None end.

Definition udp_src o := match o with UdpSetSource v => Some v | _ => None end.
Definition udp_dst o := match o with UdpSetDestination v => Some v | _ => None end.

Definition tcp_src o := match o with TcpSetSource v => Some v | _ => None end.
Definition tcp_dst o := match o with TcpSetDestination v => Some v | _ => None end.
Definition tcp_seq o := match o with TcpSetSequence v => Some v | _ => None end.
Definition tcp_ack o := match o with TcpSetAcknowledgment v => Some v | _ => None end.
Definition tcp_win o := match o with TcpSetWindow v => Some v | _ => None end.
Definition tcp_ptr o := match o with TcpSetPointer v => Some v | _ => None end.

(** Values the setters accept. *)
Definition v4_in_range (o : v4_setter) : Prop :=
  match o with V4SetDscp v => v <= 63 | V4SetEcn v => v <= 3 | _ => True end.
Definition is_ecn (o : v4_setter) : Prop := match o with V4SetEcn _ => True | _ => False end.
Definition v4_dscp_of o := match o with V4SetDscp v => Some v | _ => None end.
Definition v4_id_of o := match o with V4SetId v => Some v | _ => None end.
(** set_flags() and set_offset() both write their argument to bytes 6 and 7. *)
Definition v4_frag_of o := match o with V4SetFlags v | V4SetOffset v => Some v | _ => None end.
Definition v4_ttl_of o := match o with V4SetTtl v => Some v | _ => None end.
Definition v4_proto_of o := match o with V4SetProtocol v => Some (ip_protocol_into v) | _ => None end.
Definition v4_src_of o := match o with V4SetSource v => Some v | _ => None end.
Definition v4_dst_of o := match o with V4SetDestination v => Some v | _ => None end.

Definition echo_kind_of o := match o with EchoMakeRequest => Some 8 | EchoMakeReply => Some 0 | _ => None end.
Definition echo_ident_of o := match o with EchoSetIdentifier v => Some v | _ => None end.
Definition echo_seq_of o := match o with EchoSetSequence v => Some v | _ => None end.
(** The information and timestamp setters write the echo types (C18). *)
Definition info_kind_of o := match o with InfoMakeRequest => Some 8 | InfoMakeReply => Some 0 | _ => None end.
Definition info_ident_of o := match o with InfoSetIdentifier v => Some v | _ => None end.
Definition info_seq_of o := match o with InfoSetSequence v => Some v | _ => None end.
Definition ts_kind_of o := match o with TsMakeRequest => Some 8 | TsMakeReply => Some 0 | _ => None end.
Definition ts_ident_of o := match o with TsSetIdentifier v => Some v | _ => None end.
Definition ts_seq_of o := match o with TsSetSequence v => Some v | _ => None end.
Definition ts_orig_of o := match o with TsSetOriginate v => Some v | _ => None end.
Definition ts_recv_of o := match o with TsSetReceive v => Some v | _ => None end.
Definition ts_tran_of o := match o with TsSetTransmit v => Some v | _ => None end.

(** ** Editing the transport layer of a datagram in place
    (the tests udp/packet.rs:291-330 and tcp/packet.rs:402-440):
<<
    let (ip, udp) = ip.split_mut();
    let ip = ip::Packet::from(ip::v4::Packet::unchecked(ip));
    let mut udp = udp::Packet::new(udp)?;
    udp.checked(&ip) .set_...() ...
>>
    The IP packet given to the guard is the header slice alone. *)
Definition edit_transport (parse : bytes -> res bytes) (edit : ip_packet -> mut) : mut := fun b =>
  match v4_split_mut b with
  | Ok (h, p) =>
      match parse (span_read p b) with
      | Ok _ => span_run p (edit (V4 (span_read h b))) b
      | Err e => (b, Err e)
      | Panic => (b, Panic)
      end
  | Err e => (b, Err e)
  | Panic => (b, Panic)
  end.
Definition edit_udp (E : env) (ops : list udp_setter) : mut :=
  edit_transport udp_new (fun ip => udp_checked E ip ops).
Definition edit_tcp (E : env) (ops : list tcp_setter) : mut :=
  edit_transport tcp_new (fun ip => tcp_checked E ip ops).
