(** * SpecHost: hosts that answer, for C78. *)
From Verif Require Import Base Enums Ether Ipv4 Ip Udp Tcp Icmp Spec SpecCalls SpecEdit SpecForward SpecMachine SpecReceiver SpecRoute.

(** ** The programs
    A host takes the frame it received and returns whether the buffer now holds
    an answer.
<<
    if !receive_echo(&bytes) { return Ok(false) }              // C72
    let frame = ether::Packet::new(&bytes)?;
    let ip = v4::Packet::new(frame.payload())?;
    let echo = icmp::echo::Packet::new(ip.payload())?;
    if ip.destination() != me || !echo.is_request() { return Ok(false) }
    answer_frame(&mut bytes)?;                                 // C69
    Ok(true)
>> *)
Definition same_addr (x y : ipv4addr) : bool :=
  (ip_a x =? ip_a y) && (ip_b x =? ip_b y) && (ip_c x =? ip_c y) && (ip_d x =? ip_d y).
Definition ping_for_me (E : env) (me : ipv4addr) (b : bytes) : res bool :=
  let* ok := receive_echo E b in
  if negb ok then Ok false
  else
    let* frame := ether_new b in
    let* q := ether_payload frame in
    let* ip := v4_new q in
    let* body := v4_payload ip in
    let* echo := echo_new body in
    let* d := v4_destination ip in
    if negb (same_addr d me) then Ok false else echo_is_request echo.
Definition query_for_me (E : env) (me : ipv4addr) (port : N) (b : bytes) : res bool :=
  let* ok := receive_udp E b in
  if negb ok then Ok false
  else
    let* frame := ether_new b in
    let* q := ether_payload frame in
    let* ip := v4_new q in
    let* body := v4_payload ip in
    let* u := udp_new body in
    let* d := v4_destination ip in
    if negb (same_addr d me) then Ok false else let* p := udp_destination u in Ok (p =? port).
Definition serve (wanted : bytes -> res bool) (answer : mut) (b : bytes) : bytes * res bool :=
  match wanted b with
  | Ok true => match answer b with (b', Ok _) => (b', Ok true) | (b', Err e) => (b', Err e) | (b', Panic) => (b', Panic) end
  | Ok false => (b, Ok false)
  | Err e => (b, Err e)
  | Panic => (b, Panic)
  end.
(** A host that answers pings, and one with a UDP echo service (RFC 862). *)
Definition ping_host (E : env) (me : ipv4addr) : bytes -> bytes * res bool :=
  serve (ping_for_me E me) (answer_frame (answer_ping E)).
Definition echo_service (E : env) (me : ipv4addr) (port : N) : bytes -> bytes * res bool :=
  serve (query_for_me E me port) (answer_frame answer_udp).

(** ** What they are for *)
(** An echo request to [me] that the receiving program accepts (C72). *)
Definition pings (me : ipv4addr) (b : bytes) (s : frame_packet echo_packet) : Prop :=
  frame_packet_ok echo_bytes echo_packet_ok s /\ b = frame_bytes echo_bytes s /\ rfc_ip 1 s /\ vf_checksum (fr_ip s) <> 65535 /\
  (let m := drop_odd (echo_bytes (fr_inner s)) in
   (receiver_accepts m /\ cf_checksum (cp_header (fr_inner s)) <> 65535) \/ word_sum m = 0) /\
  vf_dst (fr_ip s) = me /\ cf_type (cp_header (fr_inner s)) = 8.
(** A datagram to [me], [port] that the receiving program accepts (C72). *)
Definition queries (me : ipv4addr) (port : N) (b : bytes) (s : frame_packet udp_packet) : Prop :=
  rfc_udp b s /\ vf_checksum (fr_ip s) <> 65535 /\ uf_checksum (up_header (fr_inner s)) <> 65535 /\
  (uf_checksum (up_header (fr_inner s)) = 0 -> sums_up udp_bytes s) /\
  vf_dst (fr_ip s) = me /\ uf_dst (up_header (fr_inner s)) = port.
(** A datagram to [me], [port] in a frame that the receiving program accepts on this build. *)
Definition takes (E : env) (me : ipv4addr) (port : N) (b : bytes) (s : frame_packet udp_packet) : Prop :=
  frame_packet_ok udp_bytes udp_packet_ok s /\ b = frame_bytes udp_bytes s /\ receive_udp E b = Ok true /\
  vf_dst (fr_ip s) = me /\ uf_dst (up_header (fr_inner s)) = port.
(** Stations, addresses and ports exchanged, everything else as it came. *)
Definition returned (s : frame_packet udp_packet) : frame_packet udp_packet :=
  let e := fr_ether s in let f := fr_ip s in let u := fr_inner s in let h := up_header u in
  {| fr_ether := {| ef_dst := ef_src e; ef_src := ef_dst e; ef_type := ef_type e |};
     fr_ip := v4_fields_with f (vf_dscp f) (vf_ecn f) (vf_id f) (vf_reserved f) (vf_df f) (vf_mf f) (vf_frag f)
                (vf_ttl f) (vf_proto f) (vf_checksum f) (vf_dst f) (vf_src f);
     fr_options := fr_options s;
     fr_inner := {| up_header := {| uf_src := uf_dst h; uf_dst := uf_src h; uf_length := uf_length h; uf_checksum := uf_checksum h |};
                    up_payload := up_payload u; up_behind := up_behind u |};
     fr_padding := fr_padding s |}.
(** A ping to a host behind routers, and its answer through routers. *)
Definition then_serve (f : mut) (g : bytes -> bytes * res bool) (b : bytes) : bytes * res bool :=
  match f b with (b', Ok _) => g b' | (b', Err e) => (b', Err e) | (b', Panic) => (b', Panic) end.
Definition then_send (f : bytes -> bytes * res bool) (g : mut) (b : bytes) : bytes * res unit :=
  match f b with (b', Ok true) => g b' | (b', Ok false) => (b', Err InvalidPacket) | (b', Err e) => (b', Err e) | (b', Panic) => (b', Panic) end.
Definition ping (E E' : env) (there : list hop) (me : ipv4addr) (back : list hop) : mut :=
  then_send (then_serve (route E there) (ping_host E' me)) (route E back).
(** A datagram going to and fro between two echo services, [n] times. *)
Fixpoint to_and_fro (one other : bytes -> bytes * res bool) (n : nat) (b : bytes) : bytes * res bool :=
  match n with
  | O => (b, Ok true)
  | S n => match one b with (b', Ok true) => to_and_fro other one n b' | r => r end
  end.
