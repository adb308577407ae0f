(** * SpecShift: builder programs Rust's type checker accepts, and how many bytes they add. *)
From Verif Require Import Base Enums Buffer Ether Ipv4 Ip Udp Tcp Icmp Builders Spec SpecProfile.

(** The builder types. *)
Inductive ty := TyEther | TyIp | TyV4 | TyV6 | TyUdp | TyTcp | TyIcmp | TyEcho | TyInformation | TyTimestamp.
Definition opened (o : opening) : ty :=
  match o with
  | OpEther => TyEther | OpIp => TyIp | OpV4 => TyV4 | OpV6 => TyV6 | OpUdp => TyUdp | OpTcp => TyTcp
  | OpIcmp => TyIcmp | OpEcho => TyEcho | OpInformation => TyInformation | OpTimestamp => TyTimestamp
  end.
Definition closed (c : closing) : ty :=
  match c with
  | ClEther => TyEther | ClIp => TyIp | ClV4 => TyV4 | ClV6 => TyV6 | ClUdp => TyUdp | ClTcp => TyTcp
  | ClIcmp => TyIcmp | ClEcho => TyEcho | ClInformation => TyInformation | ClTimestamp => TyTimestamp
  end.
(** The type a call on a builder of type [t] returns, if [t] has such a method.
    as_packet_mut exists on all but ip, ip::v6 and icmp builders. *)
Definition returns (t : ty) (c : call) : option ty :=
  match t, c with
  | TyEther, CallEther _ => Some TyEther
  | TyEther, CallEtherIp => Some TyIp
  | TyIp, CallIpV4 => Some TyV4
  | TyIp, CallIpV6 => Some TyV6
  | TyV4, CallV4 _ => Some TyV4
  | TyV4, CallV4Udp => Some TyUdp
  | TyV4, CallV4Tcp => Some TyTcp
  | TyV4, CallV4Icmp => Some TyIcmp
  | TyUdp, CallUdp _ => Some TyUdp
  | TyTcp, CallTcp _ => Some TyTcp
  | TyIcmp, CallIcmpEcho => Some TyEcho
  | TyIcmp, CallIcmpInformation => Some TyInformation
  | TyIcmp, CallIcmpTimestamp => Some TyTimestamp
  | TyEcho, CallEcho _ => Some TyEcho
  | TyInformation, CallInformation _ => Some TyInformation
  | TyTimestamp, CallTimestamp _ => Some TyTimestamp
  | _, CallFinalizer _ => Some t
  | (TyIp | TyV6 | TyIcmp), CallEdit _ _ => None
  | _, CallEdit _ _ => Some t
  | _, _ => None
  end.
Fixpoint typed (t : ty) (cs : list call) (t' : ty) : Prop :=
  match cs with
  | [] => t = t'
  | c :: cs' => exists t1, returns t c = Some t1 /\ typed t1 cs' t'
  end.
(** A program that compiles. *)
Definition compiles (o : opening) (cs : list call) (cl : closing) : Prop := typed (opened o) cs (closed cl).

(** Bytes a call adds to the buffer, if it succeeds. *)
Definition header_of (t : ty) : N :=
  match t with
  | TyEther => 14 | TyV4 => 20 | TyUdp => 8 | TyTcp => 20 | TyEcho => 8 | TyInformation => 8 | TyTimestamp => 20
  | TyIp | TyV6 | TyIcmp => 0
  end.
Definition adds (c : call) : N :=
  match c with
  | CallIpV4 => header_of TyV4
  | CallV4Udp => header_of TyUdp
  | CallV4Tcp => header_of TyTcp
  | CallIcmpEcho => header_of TyEcho
  | CallIcmpInformation => header_of TyInformation
  | CallIcmpTimestamp => header_of TyTimestamp
  | CallEther (EtherPayload p) | CallV4 (V4Payload p) | CallUdp (UdpPayload p) | CallTcp (TcpPayload p) | CallEcho (EchoPayload p) => len p
  | _ => 0
  end.
Definition added (o : opening) (cs : list call) : N := header_of (opened o) + fold_right N.add 0 (map adds cs).
(** No finalizer functions of the user; in-place edits keep the length, as
    everything done through a [&mut [u8]] does. *)
Definition plain (c : call) : Prop :=
  match c with CallFinalizer _ => False | CallEdit _ f => forall b, len (fst (f b)) = len b | _ => True end.

(** Data for the example. *)
Definition held_example : bytes := [200; 201; 202].
Definition calls_example : list call :=
  [CallEther (EtherSource (Hw 1 2 3 4 5 6)); CallEtherIp; CallIpV4; CallV4 (V4Set (V4SetTtl 64)); CallV4Udp;
   CallUdp (UdpSet (UdpSetSource 53)); CallUdp (UdpPayload [104; 105])].
