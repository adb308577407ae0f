(** * SpecForward: forwarding a datagram and answering it in place, for C69. *)
From Verif Require Import Base Enums Ether Ipv4 Ip Udp Tcp Icmp Spec SpecCalls SpecEdit Mutable.

(** ** Forwarding: setters that leave the two addresses alone *)
Definition keeps_addresses (o : v4_setter) : Prop :=
  match o with V4SetSource _ | V4SetDestination _ => False | _ => True end.

(** ** Answering
<<
    let (s, d) = (ip.source(), ip.destination());
    ip.set_source(d)?.set_destination(s)?;
>>
    and the same for the ports.  No checksum is recomputed. *)
Definition swap_addresses : mut :=
  mlet v4_source (fun s => mlet v4_destination (fun d =>
    mseq (v4_set_source d) (v4_set_destination s))).
Definition swap_udp_ports : mut :=
  mlet udp_source (fun s => mlet udp_destination (fun d =>
    mseq (udp_set_source d) (udp_set_destination s))).
Definition swap_tcp_ports : mut :=
  mlet tcp_source (fun s => mlet tcp_destination (fun d =>
    mseq (tcp_set_source d) (tcp_set_destination s))).
(** An answer to a UDP datagram, to a TCP segment and to a ping, made in the
    buffer of the received IPv4 packet.  For the ping the message is edited
    through the checked guard. *)
Definition answer_udp : mut := mseq swap_addresses (edit_transport udp_new (fun _ => swap_udp_ports)).
Definition answer_tcp : mut := mseq swap_addresses (edit_transport tcp_new (fun _ => swap_tcp_ports)).
Definition answer_ping (E : env) : mut :=
  mseq swap_addresses (edit_transport echo_new (fun _ => echo_checked E [EchoMakeReply])).

(** ** The same in the Ethernet frame that carried the datagram
<<
    let (s, d) = (frame.source(), frame.destination());
    frame.set_source(d)?.set_destination(s)?;
    let mut ip = v4::Packet::new(frame.payload_mut())?;
    ... edit ip ...
>> *)
Definition swap_macs : mut :=
  mlet ether_source (fun s => mlet ether_destination (fun d =>
    mseq (ether_set_source d) (ether_set_destination s))).
Definition edit_datagram (edit : mut) : mut := fun b =>
  match ether_split_mut b with
  | Ok (_, p) =>
      match v4_new (span_read p b) with
      | Ok _ => span_run p edit b
      | Err e => (b, Err e)
      | Panic => (b, Panic)
      end
  | Err e => (b, Err e)
  | Panic => (b, Panic)
  end.
Definition answer_frame (edit : mut) : mut := mseq swap_macs (edit_datagram edit).
