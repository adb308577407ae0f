(** * SpecTrace: finding the way to a host, from the errors the routers on it send back, for C84. *)
From Verif Require Import Base Enums Buffer Ether Ipv4 Ip Udp Tcp Icmp Builders Spec SpecCalls SpecBuild SpecEdit SpecForward SpecFrame SpecMachine SpecReceiver SpecRoute SpecBlame.

(** ** Sending an ICMP error about a frame
<<
    let frame = ether::Packet::new(bytes)?;
    let ip    = ip::v4::Packet::new(frame.payload())?;
    let quote = &frame.payload()[.. min(ip.header() as usize * 4 + 8, ip.length() as usize)];
    let mut error = ether::Builder::default().source(mac)?.destination(frame.source())?.ip()?.v4()?
                      .ttl(64)?.source(address)?.destination(ip.source())?
                      .icmp()?.echo()?.request()?.payload(quote)?.build()?;
    { let mut frame = ether::Packet::new(&mut error)?;
      let mut ip = ip::v4::Packet::new(frame.payload_mut())?;
      let mut message = icmp::Packet::new(ip.payload_mut())?;
      let message = message.as_mut();
      message[0] = kind; message[1] = code;
      let checksum = icmp::checksum(message);
      Cursor::new(&mut message[2 ..]).write_u16::<BigEndian>(checksum)?; }
>>
    The crate has no builder for errors: the echo builder lays the message out, and its type,
    code and checksum are written over. *)
Definition as_error (E : env) (kind code : N) : mut :=
  mseq (set_index 0 kind) (mseq (set_index 1 code) (mlet (icmp_checksum_of E) (fun checksum => write_u16 2 checksum))).
Definition report (E : env) (kind code : N) (mac : hwaddr) (address : ipv4addr) (b : bytes) : res bytes :=
  let* e := ether_new b in
  let* from := ether_source e in
  let* q := ether_payload e in
  let* ip := v4_new q in
  let* h := v4_ihl ip in
  let* l := v4_length ip in
  let* to := v4_source ip in
  let* quote := slice_to q (N.min (h * 4 + 8) l) in
  let* frame := echo_chain E (Some (Some [EtherSource mac; EtherDestination from], [V4SetTtl 64; V4SetSource address; V4SetDestination to]))
                  [EchoRequest; EchoPayload quote] dynamic_new in
  match edit_datagram (edit_transport icmp_new (fun _ => as_error E kind code)) frame with
  | (error, Ok _) => Ok error
  | (_, Err x) => Err x
  | (_, Panic) => Panic
  end.

(** ** Routers that report, and a host that has no use for the datagram *)
(** A router (C76) that reports a UDP datagram it cannot send on because its time is over. *)
Record station := { forth : hop; back : hop; its_ip : ipv4addr }.
Definition gives_up (E : env) (b : bytes) : res bool :=
  receive_ip E (fun p => match p with IP_Udp => true | _ => false end) (fun ip _ => let* t := v4_ttl ip in Ok (t <=? 1)) b.
Record host := { its_mac : hwaddr; address : ipv4addr }.
Definition same_address (x y : ipv4addr) : bool :=
  (ip_a x =? ip_a y) && (ip_b x =? ip_b y) && (ip_c x =? ip_c y) && (ip_d x =? ip_d y).
(** A UDP datagram, checksums right, for this host. *)
Definition for_host (E : env) (y : host) (b : bytes) : res bool :=
  let* good := receive_udp E b in
  if good then
    let* e := ether_new b in
    let* q := ether_payload e in
    let* ip := v4_new q in
    let* to := v4_destination ip in
    Ok (same_address to (address y))
  else Ok false.
(** What comes back from behind these routers when [b] is sent. *)
Fixpoint exchange (E : env) (path : list station) (target : host) (b : bytes) : res (option bytes) :=
  match path with
  | [] =>
      let* mine := for_host E target b in
      if mine then let* a := report E 3 3 (its_mac target) (address target) b in Ok (Some a) else Ok None
  | r :: path' =>
      match router E (forth r) b with
      | (b', Ok _) =>
          let* a := exchange E path' target b' in
          match a with
          | None => Ok None
          | Some a => match router E (back r) a with
                      | (a', Ok _) => Ok (Some a')
                      | (_, Err _) => Ok None
                      | (_, Panic) => Panic
                      end
          end
      | (_, Err _) =>
          let* late := verdict (gives_up E b) in
          if late then let* a := report E 11 0 (mine (back r)) (its_ip r) b in Ok (Some a) else Ok None
      | (_, Panic) => Panic
      end
  end.

(** ** The program *)
Record tracer := { me : host; gateway : hwaddr; goal : ipv4addr; port : N; filler : bytes }.
(** The probe of this TTL. *)
Definition probe (E : env) (x : tracer) (ttl : N) : res bytes :=
  udp_chain E (Some [EtherSource (its_mac (me x)); EtherDestination (gateway x)])
    [V4SetTtl ttl; V4SetSource (address (me x)); V4SetDestination (goal x)]
    [UdpSet (UdpSetSource (port x)); UdpSet (UdpSetDestination (33434 + ttl)); UdpPayload (filler x)] dynamic_new.
(** Of a frame that holds an ICMP message, checksums right: who sent it, of which kind it is, and about which datagram. *)
Definition heard (E : env) (b : bytes) : res (option (ipv4addr * icmp_kind * flow)) :=
  let* good := verdict (receive_ip E (fun p => match p with IP_Icmp => true | _ => false end)
                          (fun _ body => let* m := icmp_new body in icmp_is_valid E m) b) in
  if good then
    let* e := ether_new b in
    let* q := ether_payload e in
    let* ip := v4_new q in
    let* who := v4_source ip in
    let* body := v4_payload ip in
    let* m := icmp_new body in
    let* kind := icmp_get_kind m in
    match tolerant body with
    | Ok fl => Ok (Some (who, kind, fl))
    | Err _ => Ok None
    | Panic => Panic
    end
  else Ok None.
(** A UDP datagram with the addresses and ports of this probe. *)
Definition about (x : tracer) (ttl : N) (fl : flow) : bool :=
  match fl_proto fl with IP_Udp => true | _ => false end &&
  same_address (fl_src fl) (address (me x)) && same_address (fl_dst fl) (goal x) &&
  (fl_sport fl =? port x) && (fl_dport fl =? 33434 + ttl).
(** Send a probe, listen, and send the next one with a TTL one higher, until the goal says that it has no use for it. *)
Fixpoint trace (E En : env) (x : tracer) (path : list station) (target : host) (ttl : N) (tries : nat) : res (list (option ipv4addr)) :=
  match tries with
  | O => Ok []
  | S tries' =>
      let* p := probe E x ttl in
      let* a := exchange En path target p in
      let* h := match a with Some a => heard E a | None => Ok None end in
      let further := fun found => let* rest := trace E En x path target (ttl + 1) tries' in Ok (found :: rest) in
      match h with
      | Some (who, kind, fl) =>
          if about x ttl fl then
            match kind with
            | K_TimeExceeded => further (Some who)
            | K_DestinationUnreachable => Ok [Some who]
            | _ => further None
            end
          else further None
      | None => further None
      end
  end.

(** ** What it should do *)
Definition station_ok (r : station) : Prop := hop_ok (forth r) /\ hop_ok (back r) /\ addr_ok (its_ip r).
Definition host_ok (y : host) : Prop := mac_ok (its_mac y) /\ addr_ok (address y).
Definition tracer_ok (x : tracer) : Prop :=
  host_ok (me x) /\ mac_ok (gateway x) /\ addr_ok (goal x) /\ u16 (port x) /\ is_bytes (filler x) /\ 28 + len (filler x) <= 65535.
(** An error about the datagram of [s]: the message RFC 792 describes, with the header as it came
    and the first eight bytes of what it carries, from this address to the sender, and back over the
    station the frame came from. *)
Definition error_about (kind code : N) (mac : hwaddr) (address : ipv4addr) (s r : frame_packet bytes) : Prop :=
  exists checksum, u16 checksum /\
  fr_inner r = error_message {| cf_type := kind; cf_code := code; cf_checksum := checksum |} [0; 0; 0; 0] (fr_ip s) (fr_options s) (fr_inner s) 8 /\
  (len (fr_inner r) mod 2 = 0 -> receiver_accepts (fr_inner r)) /\
  fr_ether r = {| ef_dst := ef_src (fr_ether s); ef_src := mac; ef_type := 0x0800 |} /\
  vf_src (fr_ip r) = address /\ vf_dst (fr_ip r) = vf_src (fr_ip s) /\ vf_proto (fr_ip r) = 1 /\ vf_ttl (fr_ip r) = 64 /\
  fr_options r = [] /\ fr_padding r = [].
(** The [n]th station on the way (the target comes after the last one): the kind and code of its error, its MAC and IP address. *)
Definition reporter (path : list station) (target : host) (n : nat) : N * N * hwaddr * ipv4addr :=
  match nth_error path n with
  | Some r => (11, 0, mine (back r), its_ip r)
  | None => (3, 3, its_mac target, address target)
  end.
(** A UDP frame for this host, as the target takes it. *)
Definition probes (E : env) (target : host) (s : frame_packet bytes) (u : udp_fields) (payload : bytes) : Prop :=
  frame_packet_ok (fun p => p) is_bytes s /\ routable s /\ vf_proto (fr_ip s) = 17 /\ vf_dst (fr_ip s) = address target /\
  fr_inner s = udp_wire u ++ payload /\ udp_fields_ok u /\ uf_length u = 8 + len payload /\ is_bytes payload /\
  receive_udp E (frame_bytes (fun p => p) s) = Ok true.
(** A payload that the two standard libraries read alike when they sum it: all of it, but under
    [EofSeek] a last byte that has no partner counts as zero. *)
Definition alike (E En : env) (payload : bytes) : Prop :=
  len payload mod 2 = 0 \/ nthN payload (len payload - 1) = 0 \/ cursor_eof E = cursor_eof En.
