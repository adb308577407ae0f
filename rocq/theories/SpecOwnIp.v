(** * SpecOwnIp: UDP and TCP builders over an IP header the user wrote. *)
From Verif Require Import Base Enums Buffer Ether Ipv4 Ip Udp Tcp Icmp Builders Spec.

(** A buffer whose last layer is [h], behind the bytes [held]. *)
Definition own_buffer (held h : bytes) : buffer := Dynamic (held ++ h) (len held) (len h).
(** How to get it: per layer, [buf.next(l.len())?; buf.data_mut().copy_from_slice(l)]. *)
Definition write_layer (E : env) (l : bytes) (buf : buffer) : res buffer :=
  let* buf := try_buf (buf_next E (len l) buf) in try_buf (buf_data_mut E (fun _ => (l, Ok tt)) buf).
Definition write_two (E : env) (held h : bytes) : res buffer :=
  let* buf := write_layer E held dynamic_new in write_layer E h buf.
(** The layer begins with a complete IPv4 header. *)
Definition is_v4 (h : bytes) : Prop := 20 <= len h /\ nthN h 0 / 16 = 4 /\ nthN h 0 mod 16 * 4 <= len h.
(** [udp::Builder::with(buf)?. .. .build()], and TCP's. *)
Definition udp_over_own (E : env) (held h : bytes) (us : list udp_op) : res bytes :=
  let* u := udp_with E (own_buffer held h) in let* u := run (udp_run1 E) us u in udp_build E u.
Definition tcp_over_own (E : env) (held h : bytes) (us : list tcp_op) : res bytes :=
  let* u := tcp_with E (own_buffer held h) in let* u := run (tcp_run1 E) us u in tcp_build E u.

(** An IPv4 header with one word of options, behind two bytes of something else. *)
Definition own_header_example : bytes := [70; 0; 0; 0; 1; 2; 64; 0; 64; 17; 0; 0; 10; 0; 0; 1; 10; 0; 0; 2; 1; 1; 1; 0].
