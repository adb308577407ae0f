(** * SpecFrame: a program that takes a received frame apart, layer after layer. *)
From Verif Require Import Base Enums Ether Ipv4 Ip Udp Tcp Icmp Spec.

Inductive dissected :=
| DTcp (ip t : bytes) | DUdp (ip u : bytes) | DIcmp (ip m : bytes)
| DOtherIp4 (ip : bytes) | DIp6 (ip : bytes) | DOtherEther (e : bytes).
Definition dissect_body (ip : bytes) : res dissected :=
  let* proto := v4_protocol ip in
  let* body := v4_payload ip in
  match proto with
  | IP_Tcp => let* t := tcp_new body in Ok (DTcp ip t)
  | IP_Udp => let* u := udp_new body in Ok (DUdp ip u)
  | IP_Icmp => let* m := icmp_new body in Ok (DIcmp ip m)
  | _ => Ok (DOtherIp4 ip)
  end.
(** With ip::Packet. *)
Definition dissect (b : bytes) : res dissected :=
  let* e := ether_new b in
  let* p := ether_get_protocol e in
  match p with
  | ET_Ipv4 | ET_Ipv6 =>
      let* payload := ether_payload e in
      let* ip := ip_new payload in
      match ip with V4 ip => dissect_body ip | V6 ip => Ok (DIp6 ip) end
  | _ => Ok (DOtherEther e)
  end.
(** With ip::v4::Packet. *)
Definition dissect_v4 (b : bytes) : res dissected :=
  let* e := ether_new b in
  let* p := ether_get_protocol e in
  match p with
  | ET_Ipv4 => let* payload := ether_payload e in let* ip := v4_new payload in dissect_body ip
  | _ => Ok (DOtherEther e)
  end.

(** [b] is an Ethernet frame of type [ty] around an IPv4 packet of protocol
    [proto] with [body] between the header's end and the total length. *)
Definition frame_of (ty proto : N) (b ip body : bytes) : Prop :=
  34 <= len b /\ wire16 b 12 = ty /\ ip = dropN 14 b /\
  nthN b 14 / 16 = 4 /\ nthN b 23 = proto /\
  let header := nthN b 14 mod 16 * 4 in
  let total := wire16 b 16 in
  14 + header <= len b /\ 14 + total <= len b /\
  body = takeN (total - header) (dropN (14 + header) b).
Definition is_ip_type (ty : N) : Prop := ty = 0x0800 \/ ty = 0x86dd.
Definition tcp_fits (t : bytes) : Prop := 20 <= len t /\ nthN t 12 / 16 * 4 <= len t.
Definition udp_fits (u : bytes) : Prop := 8 <= len u /\ wire16 u 4 <= len u.
Definition icmp_fits (m : bytes) : Prop := 4 <= len m.
