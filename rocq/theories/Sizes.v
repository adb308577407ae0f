(** * Sizes: the static bounds of src/size.rs for every packet type. *)
From Verif Require Import Base Enums Ether Ipv4 Ip Udp Tcp Icmp.

(** header::Min, header::Max, payload::Min and payload::Max of one type
    (src/size.rs:15-54); [None] where the type has no payload::Max. *)
Record bounds := Bounds { b_hmin : N; b_hmax : N; b_pmin : N; b_pmax : option N }.
(** src/size.rs:75-79: [<T as Min>::min()] *)
Definition total_min (s : bounds) : N := b_hmin s + b_pmin s.
(** src/size.rs:81-85: [<T as Max>::max()], when payload::Max exists *)
Definition total_max (s : bounds) : option N := option_map (fun p => b_hmax s + p) (b_pmax s).

(** src/ether/packet.rs:29-40 *)
Definition ether_bounds := Bounds ether_header_min ether_header_max ether_payload_min (Some ether_payload_max).
(** src/ip/v4/packet.rs:33-44 *)
Definition v4_bounds := Bounds v4_header_min v4_header_max v4_payload_min (Some v4_payload_max).
(** src/ip/v6/packet.rs:25-36 *)
Definition v6_bounds := Bounds v6_header_min v6_header_max 0 (Some 0).
(** src/udp/packet.rs:29-40 *)
Definition udp_bounds := Bounds udp_header_min udp_header_max udp_payload_min (Some udp_payload_max).
(** src/tcp/packet.rs:31-42 *)
Definition tcp_bounds := Bounds tcp_header_min tcp_header_max tcp_payload_min (Some tcp_payload_max).
(** src/ip/v4/option.rs:25-42 *)
Definition v4opt_bounds := Bounds v4opt_header_min v4opt_header_max 0 (Some v4opt_payload_max).
(** src/tcp/option.rs:26-43 *)
Definition tcpopt_bounds := Bounds tcpopt_header_min tcpopt_header_max 0 (Some tcpopt_payload_max).
(** src/icmp/packet.rs:29-39: no payload max *)
Definition icmp_bounds := Bounds icmp_header_min icmp_header_max 0 None.
(** src/icmp/echo/packet.rs:29-39: no payload max *)
Definition echo_bounds := Bounds 8 8 0 None.
(** src/icmp/information/packet.rs:29-40 *)
Definition information_bounds := Bounds 8 8 0 (Some 0).
(** src/icmp/timestamp/packet.rs:29-40 *)
Definition timestamp_bounds := Bounds 20 20 0 (Some 0).
(** src/icmp/parameter_problem/packet.rs:28-46, src/icmp/redirect_message/packet.rs:29-47,
    src/icmp/previous/packet.rs:28-46: the payload bounds are those of an IPv4 header *)
Definition embedded_bounds := Bounds 8 8 v4_header_min (Some v4_header_max).
