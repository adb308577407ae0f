(** * Debug: the [fmt::Debug] implementations (what [{:?}] shows).

    The output of [Formatter::debug_struct(name).field(label, value)...finish()]
    is modelled as the name and the list of labels and values in order; how std
    lays these out as text, and how the derived [Debug] of the enums, integers,
    addresses, flags and slices prints one value, is not modelled. *)
From Coq Require Import String.
From Verif Require Import Base Enums Ether Ipv4 Ip Udp Tcp Icmp.

(** the values given to [field], e.g. src/ether/packet.rs:42-51 *)
Inductive shown :=
| ShNum (v : N)                       (* u8, u16, u32 *)
| ShBool (v : bool)
| ShMac (v : hwaddr)
| ShAddr (v : ipv4addr)
| ShEtherType (v : ether_protocol)
| ShProtocol (v : ip_protocol)
| ShIpFlags (bits : N)
| ShTcpFlags (bits : N)
| ShKind (v : icmp_kind)
| ShClass (v : v4opt_class)
| ShV4Number (v : v4opt_number)
| ShTcpNumber (v : tcpopt_number)
| ShBytes (v : bytes)                 (* a slice, as a list of numbers *)
| ShErr (e : error)                   (* Result::Err *)
| ShStruct (name : string) (fields : list (string * shown))   (* also inside Result::Ok *)
| ShVariant (name : string) (v : shown).                      (* a tuple variant *)

(** One [.field(label, &value)]: the value is computed when the call is reached.
    E.g. src/ether/packet.rs:45 *)
Definition field {A} (label : string) (sh : A -> shown) (v : res A)
    (rest : res (list (string * shown))) : res (list (string * shown)) :=
  let* a := v in let* fs := rest in Ok ((label, sh a) :: fs).
(** [finish()], e.g. src/ether/packet.rs:49 *)
Definition no_more : res (list (string * shown)) := Ok [].
(** [debug_struct(name)], e.g. src/ether/packet.rs:44 *)
Definition struct (name : string) (fields : res (list (string * shown))) : res shown :=
  let* fs := fields in Ok (ShStruct name fs).

(** src/ether/packet.rs:42-51 (the labels as in the code) *)
Definition ether_debug (b : bytes) : res shown :=
  struct "ether::Packet"
    (field "destination" ShMac (ether_source b)
    (field "source" ShMac (ether_destination b)
    (field "protocol" ShEtherType (ether_get_protocol b)
    (field "payload" ShBytes (ether_payload b) no_more)))).

(** src/ip/v4/packet.rs:46-65; [self.header()] is the inherent method, 192-194 *)
Definition v4_debug (E : env) (b : bytes) : res shown :=
  let* valid := v4_is_valid E b in
  struct (if valid then "ip::v4::Packet" else "ip::v4::Packet!")
    (field "version" ShNum (v4_version b)
    (field "header" ShNum (v4_ihl b)
    (field "dscp" ShNum (v4_dscp b)
    (field "ecn" ShNum (v4_ecn b)
    (field "length" ShNum (v4_length b)
    (field "id" ShNum (v4_id b)
    (field "flags" ShIpFlags (v4_flags b)
    (field "offset" ShNum (v4_offset b)
    (field "ttl" ShNum (v4_ttl b)
    (field "protocol" ShProtocol (v4_protocol b)
    (field "checksum" ShNum (v4_checksum b)
    (field "source" ShAddr (v4_source b)
    (field "destination" ShAddr (v4_destination b)
    (field "payload" ShBytes (v4_payload b) no_more)))))))))))))).

(** src/ip/v6/packet.rs:38-43 *)
Definition v6_debug (b : bytes) : res shown := struct "ip::v6::Packet" no_more.

(** src/ip/packet.rs:21-28 (derived) *)
Definition ip_debug (E : env) (p : ip_packet) : res shown :=
  match p with
  | V4 b => let* s := v4_debug E b in Ok (ShVariant "V4" s)
  | V6 b => let* s := v6_debug b in Ok (ShVariant "V6" s)
  end.

(** src/udp/packet.rs:42-52 (the labels as in the code) *)
Definition udp_debug (b : bytes) : res shown :=
  struct "udp::Packet"
    (field "source" ShNum (udp_source b)
    (field "destination" ShNum (udp_destination b)
    (field "checksum" ShNum (udp_length b)
    (field "checksum" ShNum (udp_checksum b)
    (field "payload" ShBytes (udp_payload b) no_more))))).

(** src/tcp/packet.rs:44-59 *)
Definition tcp_debug (b : bytes) : res shown :=
  struct "tcp::Packet"
    (field "source" ShNum (tcp_source b)
    (field "destination" ShNum (tcp_destination b)
    (field "sequence" ShNum (tcp_sequence b)
    (field "acknowledgment" ShNum (tcp_acknowledgment b)
    (field "offset" ShNum (tcp_offset b)
    (field "flags" ShTcpFlags (tcp_flags b)
    (field "window" ShNum (tcp_window b)
    (field "checksum" ShNum (tcp_checksum b)
    (field "pointer" ShNum (tcp_pointer b)
    (field "payload" ShBytes (tcp_payload b) no_more)))))))))).

(** src/ip/v4/option.rs:136-146 *)
Definition v4opt_debug (b : bytes) : res shown :=
  struct "ip::v4::Option"
    (field "is_copied" ShBool (v4opt_is_copied b)
    (field "class" ShClass (v4opt_get_class b)
    (field "number" ShV4Number (v4opt_get_number b)
    (field "length" ShNum (v4opt_length b)
    (field "payload" ShBytes (v4opt_payload b) no_more))))).

(** src/tcp/option.rs:73-81 *)
Definition tcpopt_debug (b : bytes) : res shown :=
  struct "tcp::Option"
    (field "number" ShTcpNumber (tcpopt_get_number b)
    (field "length" ShNum (tcpopt_length b)
    (field "payload" ShBytes (tcpopt_payload b) no_more))).

(** src/icmp/packet.rs:41-50 *)
Definition icmp_debug (E : env) (b : bytes) : res shown :=
  let* valid := icmp_is_valid E b in
  struct (if valid then "icmp::Packet" else "icmp::Packet!")
    (field "kind" ShKind (icmp_get_kind b)
    (field "code" ShNum (icmp_code b)
    (field "checksum" ShNum (icmp_checksum b)
    (field "payload" ShBytes (icmp_payload b) no_more)))).

(** src/icmp/echo/packet.rs:41-50 *)
Definition echo_debug (b : bytes) : res shown :=
  struct "icmp::echo::Packet"
    (field "request" ShBool (echo_is_request b)
    (field "identifier" ShNum (echo_identifier b)
    (field "sequence" ShNum (echo_sequence b)
    (field "payload" ShBytes (echo_payload b) no_more)))).

(** src/icmp/information/packet.rs:42-50 *)
Definition information_debug (b : bytes) : res shown :=
  struct "icmp::information::Packet"
    (field "request" ShBool (information_is_request b)
    (field "identifier" ShNum (information_identifier b)
    (field "sequence" ShNum (information_sequence b) no_more))).

(** src/icmp/timestamp/packet.rs:42-53 (the values as in the code) *)
Definition timestamp_debug (b : bytes) : res shown :=
  struct "icmp::timestamp::Packet"
    (field "request" ShBool (timestamp_is_request b)
    (field "identifier" ShNum (timestamp_identifier b)
    (field "sequence" ShNum (timestamp_sequence b)
    (field "originate" ShBytes (timestamp_payload b)
    (field "receive" ShBytes (timestamp_payload b)
    (field "transmit" ShBytes (timestamp_payload b) no_more)))))).

(** The derived [Debug] of [Result<ip::v4::Packet<..>>] on [packet()].
    src/icmp/parameter_problem/packet.rs:52 *)
Definition show_embedded (E : env) (b : bytes) : res shown :=
  match embedded_packet b with
  | Ok p => v4_debug E p
  | Err e => Ok (ShErr e)
  | Panic => Panic
  end.
(** src/icmp/parameter_problem/packet.rs:48-55 *)
Definition parameter_problem_debug (E : env) (b : bytes) : res shown :=
  struct "icmp::parameter_problem::Packet"
    (field "pointer" ShNum (parameter_problem_pointer b)
    (field "packet" (fun s => s) (show_embedded E b) no_more)).
(** src/icmp/redirect_message/packet.rs:49-56 *)
Definition redirect_message_debug (E : env) (b : bytes) : res shown :=
  struct "icmp::redirect_message::Packet"
    (field "gateway" ShAddr (redirect_message_gateway b)
    (field "packet" (fun s => s) (show_embedded E b) no_more)).
(** src/icmp/previous/packet.rs:48-54 *)
Definition previous_debug (E : env) (b : bytes) : res shown :=
  struct "icmp::previous::Packet"
    (field "packet" (fun s => s) (show_embedded E b) no_more).
