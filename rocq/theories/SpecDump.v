(** * SpecDump: a program that prints whatever it captures, for C79. *)
From Coq Require Import String.
From Verif Require Import Base Enums Ether Ipv4 Ip Udp Tcp Icmp Debug Spec SpecFrame SpecOptions.

(** ** The program
<<
    let Ok(frame) = ether::Packet::new(bytes) else { return };
    println!("{:?}", frame);
    if frame.protocol() != Ipv4 { return }
    let Ok(ip) = v4::Packet::new(frame.payload()) else { return };
    println!("{:?}", ip);
    for o in ip.options() { match o { Ok(o) => println!("{:?}", o), Err(_) => break } }
    match ip.protocol() {
      Tcp => { let Ok(t) = tcp::Packet::new(ip.payload()) else { return };
               println!("{:?}", t);
               for o in t.options() { match o { Ok(o) => println!("{:?}", o), Err(_) => break } } }
      Udp => { let Ok(u) = udp::Packet::new(ip.payload()) else { return }; println!("{:?}", u) }
      Icmp => { let Ok(m) = icmp::Packet::new(ip.payload()) else { return };
                println!("{:?}", m);
                match m.kind() {
                  EchoRequest | EchoReply => if let Ok(p) = m.echo() { println!("{:?}", p) }
                  TimestampRequest | TimestampReply => ...timestamp()...
                  InformationRequest | InformationReply => ...information()...
                  ParameterProblem => ...parameter_problem()...
                  RedirectMessage => ...redirect_message()...
                  SourceQuench | DestinationUnreachable | TimeExceeded => ...previous()...
                  _ => () } }
      _ => () }
>>
    The lines printed; [None]: one of the loops has called next() [n] times and
    is not over. *)
Definition lines := option (res (list shown)).
Definition nothing : lines := Some (Ok []).
Definition print (s : res shown) (rest : lines) : lines :=
  match s with
  | Ok s => match rest with Some (Ok l) => Some (Ok (s :: l)) | r => r end
  | Err e => Some (Err e)
  | Panic => Some Panic
  end.
Definition next_lines (first rest : lines) : lines :=
  match first with
  | Some (Ok l) => match rest with Some (Ok m) => Some (Ok (l ++ m)) | r => r end
  | r => r
  end.
(** [let Ok(x) = r else { return }] *)
Definition or_return {A} (r : res A) (rest : A -> lines) : lines :=
  match r with Ok a => rest a | Err _ => nothing | Panic => Some Panic end.
(** A value that is no Result. *)
Definition value {A} (r : res A) (rest : A -> lines) : lines :=
  match r with Ok a => rest a | Err e => Some (Err e) | Panic => Some Panic end.
Fixpoint print_options (next : bytes -> res (step * bytes)) (show : bytes -> res shown) (n : nat) (area : bytes) : lines :=
  match n with
  | O => None
  | S n => value (next area) (fun '(s, area') =>
      match s with
      | Finished | YieldErr _ => nothing
      | Yield o => print (show o) (print_options next show n area')
      end)
  end.
Definition print_kind (E : env) (m : bytes) : lines :=
  value (icmp_get_kind m) (fun k =>
    match k with
    | K_EchoRequest | K_EchoReply => or_return (echo_new m) (fun p => print (echo_debug p) nothing)
    | K_TimestampRequest | K_TimestampReply => or_return (timestamp_new m) (fun p => print (timestamp_debug p) nothing)
    | K_InformationRequest | K_InformationReply => or_return (information_new m) (fun p => print (information_debug p) nothing)
    | K_ParameterProblem => or_return (parameter_problem_new m) (fun p => print (parameter_problem_debug E p) nothing)
    | K_RedirectMessage => or_return (redirect_message_new m) (fun p => print (redirect_message_debug E p) nothing)
    | K_SourceQuench | K_DestinationUnreachable | K_TimeExceeded => or_return (previous_new m) (fun p => print (previous_debug E p) nothing)
    | _ => nothing
    end).
Definition print_body (E : env) (n : nat) (proto : ip_protocol) (body : bytes) : lines :=
  match proto with
  | IP_Tcp => or_return (tcp_new body) (fun t => print (tcp_debug t) (value (tcp_options t) (print_options (tcp_iter_next E) tcpopt_debug n)))
  | IP_Udp => or_return (udp_new body) (fun u => print (udp_debug u) nothing)
  | IP_Icmp => or_return (icmp_new body) (fun m => print (icmp_debug E m) (print_kind E m))
  | _ => nothing
  end.
Definition dump (E : env) (n : nat) (b : bytes) : lines :=
  or_return (ether_new b) (fun frame =>
  print (ether_debug frame) (
  value (ether_get_protocol frame) (fun ty =>
  match ty with
  | ET_Ipv4 =>
      value (ether_payload frame) (fun q =>
      or_return (v4_new q) (fun ip =>
      print (v4_debug E ip) (
      next_lines (value (v4_options ip) (print_options (v4_iter_next E) v4opt_debug n)) (
      value (v4_protocol ip) (fun proto => value (v4_payload ip) (print_body E n proto))))))
  | _ => nothing
  end))).

(** ** Where it crashes, in terms of the bytes *)
(** After well-formed options (C58) comes one whose length byte is missing or zero. *)
Definition broken_area (num : N -> N) (area : bytes) : Prop :=
  exists ps t, area = area_of ps t /\ Forall (piece_ok num) ps /\
    exists k, 2 <= num k /\ (t = [k] \/ exists rest, t = k :: 0 :: rest).
(** After well-formed options comes one that says it is longer than what is left. *)
Definition overlong_area (num : N -> N) (area : bytes) : Prop :=
  exists ps t, area = area_of ps t /\ Forall (piece_ok num) ps /\
    exists k l rest, t = k :: l :: rest /\ 2 <= num k /\ len t < l.
(** The more-fragments bit of an IPv4 header. *)
Definition more_fragments (ip : bytes) : Prop := nthN ip 6 / 32 mod 2 = 1.
Definition v4_area (ip : bytes) : bytes := takeN (nthN ip 0 mod 16 * 4 - 20) (dropN 20 ip).
Definition tcp_area (t : bytes) : bytes := takeN (nthN t 12 / 16 * 4 - 20) (dropN 20 t).
(** An ICMP error message quotes an IPv4 packet (with all of its payload there). *)
Definition quotes (m q : bytes) : Prop :=
  8 <= len m /\ (nthN m 0 = 3 \/ nthN m 0 = 4 \/ nthN m 0 = 5 \/ nthN m 0 = 11 \/ nthN m 0 = 12) /\
  q = dropN 8 m /\ 20 <= len q /\ nthN q 0 / 16 = 4 /\ nthN q 0 mod 16 * 4 <= len q /\ wire16 q 2 <= len q.
Definition crashes (b : bytes) : Prop :=
  exists proto ip body, frame_of 0x0800 proto b ip body /\
  (more_fragments ip \/ nthN ip 0 mod 16 < 5 \/ broken_area v4_num (v4_area ip) \/
   (proto = 6 /\ tcp_fits body /\ (nthN body 12 / 16 < 5 \/ broken_area tcp_num (tcp_area body))) \/
   (proto = 1 /\ exists q, quotes body q /\ more_fragments q)).

(** ** What it prints *)
(** One line for each option, in order: [out]s are the bytes of the options. *)
Definition option_lines (num : N -> N) (as_ref : bytes -> res bytes) (show : bytes -> res shown) (area : bytes) (ls : list shown) : Prop :=
  exists ps t, area = area_of ps t /\ Forall (piece_ok num) ps /\ (area_end num t \/ overlong_area num t) /\
    Forall2 (fun out l => exists o, as_ref o = Ok out /\ show o = Ok l) (concat (map piece_yields ps)) ls.
(** The line for the message in an ICMP packet, if it has one of its own. *)
Definition kind_lines (E : env) (m : bytes) (ls : list shown) : Prop :=
  let t := nthN m 0 in let long := 8 <=? len m in
  (long = true -> t = 0 \/ t = 8 -> exists l, echo_debug m = Ok l /\ ls = [l]) /\
  (20 <= len m -> t = 13 \/ t = 14 -> exists l, timestamp_debug m = Ok l /\ ls = [l]) /\
  (long = true -> t = 15 \/ t = 16 -> exists l, information_debug m = Ok l /\ ls = [l]) /\
  (long = true -> t = 12 -> exists l, parameter_problem_debug E m = Ok l /\ ls = [l]) /\
  (long = true -> t = 5 -> exists l, redirect_message_debug E m = Ok l /\ ls = [l]) /\
  (long = true -> t = 3 \/ t = 4 \/ t = 11 -> exists l, previous_debug E m = Ok l /\ ls = [l]) /\
  (long = false \/ (len m < 20 /\ (t = 13 \/ t = 14)) \/ ~ In t [0; 3; 4; 5; 8; 11; 12; 13; 14; 15; 16] -> ls = []).
Definition body_lines (E : env) (proto : N) (body : bytes) (ls : list shown) : Prop :=
  (proto = 6 -> tcp_fits body -> exists l os, ls = l :: os /\ tcp_debug body = Ok l /\
     option_lines tcp_num (tcpopt_as_ref E) tcpopt_debug (tcp_area body) os) /\
  (proto = 17 -> udp_fits body -> exists l, ls = [l] /\ udp_debug body = Ok l) /\
  (proto = 1 -> icmp_fits body -> exists l ks, ls = l :: ks /\ icmp_debug E body = Ok l /\ kind_lines E body ks) /\
  (~ (proto = 6 /\ tcp_fits body) -> ~ (proto = 17 /\ udp_fits body) -> ~ (proto = 1 /\ icmp_fits body) -> ls = []).
