(** * SpecProfile: debug and release builds, and any program of builder calls. *)
From Verif Require Import Base Enums Buffer Ether Ipv4 Ip Udp Tcp Icmp Builders Spec.

(** The same crate compiled with and without overflow checks; [c] is the std in use,
    [w] the width of usize. *)
Definition debug (c : eof_policy) (w : pointer_width) : env := {| overflow_checks := true; cursor_eof := c; target := w |}.
Definition release (c : eof_policy) (w : pointer_width) : env := {| overflow_checks := false; cursor_eof := c; target := w |}.
(** The same call in debug ([d]) and in release ([r]): the debug one panics, or
    they are the same, value or error. *)
Definition agrees {A} (d r : res A) : Prop := d = Panic \/ d = r.
(** The same for a call that changes something: after a panic nothing is claimed;
    otherwise the outcome and what is left behind are the same. *)
Definition agrees_mut {S} (d r : S * res unit) : Prop := snd d = Panic \/ d = r.

(** ** Builder programs *)
(** How a program gets its first builder, around a given buffer. *)
Inductive opening := OpEther | OpIp | OpV4 | OpV6 | OpUdp | OpTcp | OpIcmp | OpEcho | OpInformation | OpTimestamp.
Definition open (E : env) (o : opening) (buf : buffer) : res builder :=
  match o with
  | OpEther => ether_with E buf
  | OpIp | OpV6 => ip_with buf
  | OpV4 => v4_with E buf
  | OpUdp => udp_with E buf
  | OpTcp => tcp_with E buf
  | OpIcmp => icmp_with buf
  | OpEcho => echo_with E buf
  | OpInformation => information_with E buf
  | OpTimestamp => timestamp_with E buf
  end.
(** One call: a method; taking the builder of an inner layer; adding a finalizer
    function; editing through as_packet_mut (with any parser and any code).
    Rust's types allow only some sequences; all sequences are considered. *)
Inductive call :=
| CallEther (o : ether_op) | CallEtherIp | CallIpV4 | CallIpV6
| CallV4 (o : v4_op) | CallV4Udp | CallV4Tcp | CallV4Icmp
| CallUdp (o : udp_op) | CallTcp (o : tcp_op)
| CallIcmpEcho | CallIcmpInformation | CallIcmpTimestamp
| CallEcho (o : echo_op) | CallInformation (o : information_op) | CallTimestamp (o : timestamp_op)
| CallFinalizer (f : finalizer)
| CallEdit (parse : bytes -> res bytes) (f : mut).
Definition call1 (E : env) (c : call) (b : builder) : res builder :=
  match c with
  | CallEther o => ether_run1 E o b
  | CallEtherIp => ether_ip E b
  | CallIpV4 => ip_v4 E b
  | CallIpV6 => ip_v6 b
  | CallV4 o => v4_run1 E o b
  | CallV4Udp => v4_udp E b
  | CallV4Tcp => v4_tcp E b
  | CallV4Icmp => v4_icmp E b
  | CallUdp o => udp_run1 E o b
  | CallTcp o => tcp_run1 E o b
  | CallIcmpEcho => icmp_echo E b
  | CallIcmpInformation => icmp_information E b
  | CallIcmpTimestamp => icmp_timestamp E b
  | CallEcho o => echo_run1 E o b
  | CallInformation o => information_run1 E o b
  | CallTimestamp o => timestamp_run1 E o b
  | CallFinalizer f => Ok (with_fin b (fin_add (b_fin b) f))
  | CallEdit parse f => match builder_as_packet_mut E parse f b with
                        | (b', Ok _) => Ok b'
                        | (_, Err e) => Err e
                        | (_, Panic) => Panic
                        end
  end.
(** The build() of each builder type. *)
Inductive closing := ClEther | ClIp | ClV6 | ClV4 | ClUdp | ClTcp | ClIcmp | ClEcho | ClInformation | ClTimestamp.
Definition close (E : env) (c : closing) (b : builder) : res bytes :=
  match c with
  | ClEther => ether_build b
  | ClIp => ip_build b
  | ClV6 => v6_build b
  | ClV4 => v4_build E b
  | ClUdp => udp_build E b
  | ClTcp => tcp_build E b
  | ClIcmp => icmp_build b
  | ClEcho => echo_build E b
  | ClInformation => information_build E b
  | ClTimestamp => timestamp_build E b
  end.
Definition program (E : env) (o : opening) (cs : list call) (c : closing) (buf : buffer) : res bytes :=
  let* b := open E o buf in let* b := run (call1 E) cs b in close E c b.
(** What as_packet shows instead. *)
Definition preview (E : env) (o : opening) (cs : list call) (parse : bytes -> res bytes) (buf : buffer) : res bytes :=
  let* b := open E o buf in let* b := run (call1 E) cs b in builder_as_packet E parse b.
