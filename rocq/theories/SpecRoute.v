(** * SpecRoute: a router written with the crate, routes, and a ping there and
    back, for C76. *)
From Verif Require Import Base Enums Ether Ipv4 Ip Udp Tcp Icmp Spec SpecCalls SpecEdit SpecForward SpecMachine SpecReceiver.

(** ** The router
<<
    let mut frame = ether::Packet::new(bytes)?;
    if frame.protocol() != Ipv4 { drop }
    { let mut ip = ip::v4::Packet::new(frame.payload_mut())?;
      if ip.header() < 5 { drop }
      if ip.length() < ip.header() as u16 * 4 { drop }
      if !ip.is_valid() { drop }
      let ttl = ip.ttl();
      if ttl <= 1 { drop }
      ip.checked().set_ttl(ttl - 1)?; }
    frame.set_source(mine)?.set_destination(next)?;
>>
    where a frame is dropped by returning [Err(InvalidPacket)]. *)
Definition refuse : mut := fun b => (b, Err InvalidPacket).
Definition forward_datagram (E : env) : mut :=
  mlet v4_ihl (fun h => if h <? 5 then refuse else
  mlet v4_length (fun l => if l <? h * 4 then refuse else
  mlet (v4_is_valid E) (fun valid => if negb valid then refuse else
  mlet v4_ttl (fun t => if t <=? 1 then refuse else v4_checked E [V4SetTtl (t - 1)])))).
(** A hop: the router's address and that of the next station. *)
Record hop := { mine : hwaddr; next : hwaddr }.
Definition router (E : env) (h : hop) : mut :=
  mlet (fun b => let* e := ether_new b in ether_get_protocol e) (fun ty =>
    match ty with
    | ET_Ipv4 => mseq (edit_datagram (forward_datagram E)) (mseq (ether_set_source (mine h)) (ether_set_destination (next h)))
    | _ => refuse
    end).
(** Routers in a row. *)
Fixpoint route (E : env) (hops : list hop) : mut :=
  match hops with
  | [] => fun b => (b, Ok tt)
  | h :: hops' => mseq (router E h) (route E hops')
  end.
Definition hop_ok (h : hop) : Prop := mac_ok (mine h) /\ mac_ok (next h).

(** ** What it should do, on the fields of the frame *)
(** IPv4, and the header adds up. *)
Definition routable {S : Type} (s : frame_packet S) : Prop :=
  ef_type (fr_ether s) = 0x0800 /\ receiver_accepts (v4_wire (fr_ip s) ++ fr_options s) /\ vf_checksum (fr_ip s) <> 65535.
Definition with_ttl (t : N) (f : v4_fields) : v4_fields :=
  v4_fields_with f (vf_dscp f) (vf_ecn f) (vf_id f) (vf_reserved f) (vf_df f) (vf_mf f) (vf_frag f)
    t (vf_proto f) (vf_checksum f) (vf_src f) (vf_dst f).
(** The frame with other stations and another TTL, its header summed up again. *)
Definition readdressed {S : Type} (h : hop) (t : N) (s : frame_packet S) : frame_packet S :=
  {| fr_ether := {| ef_dst := next h; ef_src := mine h; ef_type := ef_type (fr_ether s) |};
     fr_ip := v4_sum (fr_options s) (with_ttl t (fr_ip s));
     fr_options := fr_options s; fr_inner := fr_inner s; fr_padding := fr_padding s |}.
(** The frame behind these routers: the last one's stations, and as many off the TTL as there were. *)
Definition travelled {S : Type} (hops : list hop) (s : frame_packet S) : frame_packet S :=
  match rev hops with
  | [] => s
  | h :: _ => readdressed h (vf_ttl (fr_ip s) - N.of_nat (length hops)) s
  end.

(** ** A ping there and back: routers, the answer made in the received frame, routers *)
Definition ping_and_back (E : env) (there back : list hop) : mut :=
  mseq (route E there) (mseq (answer_frame (answer_ping E)) (route E back)).
(** The answer on the fields: stations and addresses exchanged, an echo reply
    with its checksum, everything else as it came. *)
Definition answered (s : frame_packet echo_packet) : frame_packet echo_packet :=
  let e := fr_ether s in let f := fr_ip s in let c := fr_inner s in
  {| fr_ether := {| ef_dst := ef_src e; ef_src := ef_dst e; ef_type := ef_type e |};
     fr_ip := v4_fields_with f (vf_dscp f) (vf_ecn f) (vf_id f) (vf_reserved f) (vf_df f) (vf_mf f) (vf_frag f)
                (vf_ttl f) (vf_proto f) (vf_checksum f) (vf_dst f) (vf_src f);
     fr_options := fr_options s;
     fr_inner := echo_sum {| cp_header := {| cf_type := 0; cf_code := cf_code (cp_header c); cf_checksum := cf_checksum (cp_header c) |};
                             cp_ident := cp_ident c; cp_seq := cp_seq c; cp_payload := cp_payload c |};
     fr_padding := fr_padding s |}.
