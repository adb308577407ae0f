(** * SpecOrder: which setter calls may be exchanged. *)
From Coq Require Export Permutation.
From Verif Require Import Base Enums Ether Ipv4 Udp Tcp Icmp SpecEdit.

(** The header field a call writes. *)
Definition ether_field (o : ether_call) : N := match o with EthDestination _ => 0 | EthSource _ => 1 | EthProtocol _ => 2 end.
Definition udp_field (o : udp_setter) : N := match o with UdpSetSource _ => 0 | UdpSetDestination _ => 1 end.
Definition tcp_field (o : tcp_setter) : N :=
  match o with
  | TcpSetSource _ => 0 | TcpSetDestination _ => 1 | TcpSetSequence _ => 2 | TcpSetAcknowledgment _ => 3
  | TcpSetFlags _ => 4 | TcpSetWindow _ => 5 | TcpSetPointer _ => 6
  end.
(** DSCP and ECN share a byte, flags and offset share two. *)
Definition v4_field (o : v4_setter) : N :=
  match o with
  | V4SetDscp _ | V4SetEcn _ => 0 | V4SetId _ => 1 | V4SetFlags _ | V4SetOffset _ => 2 | V4SetTtl _ => 3
  | V4SetProtocol _ => 4 | V4SetSource _ => 5 | V4SetDestination _ => 6
  end.
Definition echo_field (o : echo_setter) : N :=
  match o with EchoMakeRequest | EchoMakeReply => 0 | EchoSetIdentifier _ => 1 | EchoSetSequence _ => 2 end.
Definition information_field (o : information_setter) : N :=
  match o with InfoMakeRequest | InfoMakeReply => 0 | InfoSetIdentifier _ => 1 | InfoSetSequence _ => 2 end.
Definition timestamp_field (o : timestamp_setter) : N :=
  match o with
  | TsMakeRequest | TsMakeReply => 0 | TsSetIdentifier _ => 1 | TsSetSequence _ => 2
  | TsSetOriginate _ => 3 | TsSetReceive _ => 4 | TsSetTransmit _ => 5
  end.
(** No field is written twice. *)
Definition each_once {A} (field : A -> N) (ops : list A) : Prop := NoDup (map field ops).
