(** * Tests: the crate's own unit tests, replayed on the model.

    Every [#[test]] of /repo is transcribed here assertion by assertion, for all
    eight environments (overflow checks on/off, both Cursor behaviours at end of
    file, 32- and 64-bit usize) unless said otherwise.  They are not theorems about all inputs: they
    check that the model computes what the crate's authors observed. *)
From Verif Require Import Base Enums Buffer Ether Ipv4 Ip Udp Tcp Icmp Builders SpecBuild.

(** Boolean tests on outcomes. *)
Definition is_ok {A} (r : res A) : bool := match r with Ok _ => true | _ => false end.
Definition is_err {A} (r : res A) : bool := match r with Err _ => true | _ => false end.
(** The value of a call known to succeed ([unwrap] in the tests). *)
Definition get {A} (d : A) (r : res A) : A := match r with Ok a => a | _ => d end.
(** The bytes after a mutation known to succeed. *)
Definition after (m : mut) (b : bytes) : bytes := match m b with (b', Ok _) => b' | _ => [] end.
Definition the_builder (r : res builder) : builder := get (fresh dynamic_new (0, 0)) r.

Ltac replay := intros [[] [] []]; vm_compute; repeat split; reflexivity.

(** src/ether/packet.rs:176 *)
Definition raw_ether : bytes :=
  [0; 35; 105; 99; 89; 190; 228; 179; 24; 38; 99; 163; 8; 0; 69; 0; 0; 66; 71; 7; 64; 0; 64; 17;
   110; 204; 192; 168; 1; 137; 192; 168; 1; 254; 186; 47; 0; 53; 0; 46; 29; 248; 188; 129; 1; 0;
   0; 1; 0; 0; 0; 0; 0; 0; 3; 97; 112; 105; 12; 115; 116; 101; 97; 109; 112; 111; 119; 101; 114;
   101; 100; 3; 99; 111; 109; 0; 0; 28; 0; 1].
(** src/ip/v4/packet.rs:488, 504, 513, 529 *)
Definition raw_v4 : bytes :=
  [69; 0; 0; 52; 45; 135; 0; 0; 44; 6; 92; 116; 66; 102; 1; 108; 192; 168; 0; 79].
(** src/udp/packet.rs:280, 293, 313 *)
Definition raw_udp : bytes :=
  [69; 0; 0; 66; 71; 7; 64; 0; 64; 17; 110; 204; 192; 168; 1; 137; 192; 168; 1; 254; 186; 47; 0;
   53; 0; 46; 29; 248; 188; 129; 1; 0; 0; 1; 0; 0; 0; 0; 0; 0; 3; 97; 112; 105; 12; 115; 116; 101;
   97; 109; 112; 111; 119; 101; 114; 101; 100; 3; 99; 111; 109; 0; 0; 28; 0; 1].
(** src/tcp/packet.rs:390, 404, 424 *)
Definition raw_tcp : bytes :=
  [69; 0; 0; 60; 200; 165; 64; 0; 64; 6; 159; 213; 192; 168; 1; 137; 8; 8; 8; 8; 155; 138; 0; 80;
   222; 103; 199; 74; 0; 0; 0; 0; 160; 2; 114; 16; 63; 95; 0; 0; 2; 4; 5; 180; 4; 2; 8; 10; 89;
   43; 41; 151; 0; 0; 0; 0; 1; 3; 3; 7].
(** src/udp/mod.rs:101-111 *)
Definition raw_udp_checksum : bytes :=
  [69; 0; 0; 68; 173; 11; 0; 0; 64; 17; 114; 114; 172; 20; 2; 253; 172; 20; 0; 6; 229; 135; 0; 53;
   0; 48; 227; 32; 171; 201; 1; 0; 0; 1; 0; 0; 0; 0; 0; 0; 9; 109; 99; 99; 108; 101; 108; 108; 97;
   110; 2; 99; 115; 5; 109; 105; 97; 109; 105; 3; 101; 100; 117; 0; 0; 1; 0; 1].
(** src/tcp/mod.rs:112-122 *)
Definition raw_tcp_odd : bytes :=
  [69; 0; 0; 125; 245; 49; 64; 0; 64; 6; 49; 71; 10; 0; 0; 1; 10; 0; 0; 2; 146; 174; 4; 210; 44;
   46; 95; 244; 90; 210; 213; 176; 128; 24; 1; 246; 145; 65; 0; 0; 1; 1; 8; 10; 140; 166; 191;
   185; 221; 194; 162; 199; 71; 69; 84; 32; 47; 32; 72; 84; 84; 80; 47; 49; 46; 49; 13; 10; 72;
   111; 115; 116; 58; 32; 103; 111; 111; 100; 58; 49; 50; 51; 52; 13; 10; 85; 115; 101; 114; 45;
   65; 103; 101; 110; 116; 58; 32; 99; 117; 114; 108; 47; 55; 46; 56; 53; 46; 48; 13; 10; 65; 99;
   99; 101; 112; 116; 58; 32; 42; 47; 42; 13; 10; 13; 10].

(** src/ether/packet.rs:174-189 *)
Example test_ether_values : forall E,
  let ether := get [] (ether_new raw_ether) in
  let ip := get [] (v4_new (get [] (ether_payload ether))) in
  let udp := get [] (udp_new (get [] (v4_payload ip))) in
  v4_is_valid E ip = Ok true /\ udp_is_valid E (V4 ip) udp = Ok true /\
  ether_destination ether = Ok (Hw 0 35 105 99 89 190) /\
  ether_source ether = Ok (Hw 228 179 24 38 99 163) /\
  ether_get_protocol ether = Ok ET_Ipv4.
Proof. replay. Qed.

(** src/ip/v4/packet.rs:479-483 *)
Example test_v4_short_packet :
  is_err (v4_no_payload (repeat 64 10)) = true /\
  is_err (v4_no_payload (repeat 64 19)) = true /\
  is_ok (v4_no_payload (repeat 64 20)) = true.
Proof. vm_compute. auto. Qed.

(** src/ip/v4/packet.rs:486-499 *)
Example test_v4_values : forall E,
  v4_no_payload raw_v4 = Ok raw_v4 /\ v4_ihl raw_v4 = Ok 5 /\ v4_length raw_v4 = Ok 52 /\
  v4_id raw_v4 = Ok 11655 /\ v4_flags raw_v4 = Ok 0 /\ v4_protocol raw_v4 = Ok IP_Tcp /\
  v4_checksum raw_v4 = Ok 23668 /\ v4_is_valid E raw_v4 = Ok true /\
  v4_source raw_v4 = Ok (Ip4 66 102 1 108) /\ v4_destination raw_v4 = Ok (Ip4 192 168 0 79).
Proof. replay. Qed.

(** src/ip/v4/packet.rs:502-508 is a subset of [test_v4_values] on a Vec. *)
(** src/ip/v4/packet.rs:511-524 *)
Example test_v4_mutable : forall E,
  v4_is_valid E raw_v4 = Ok true /\
  v4_id (after (v4_set_id 16962) raw_v4) = Ok 16962 /\
  v4_is_valid E (after (v4_set_id 16962) raw_v4) = Ok false /\
  v4_is_valid E (after (v4_update_checksum E) (after (v4_set_id 16962) raw_v4)) = Ok true.
Proof. replay. Qed.

(** src/ip/v4/packet.rs:527-536 *)
Example test_v4_mutable_checked : forall E,
  v4_is_valid E (after (v4_checked E [V4SetId 16962]) raw_v4) = Ok true.
Proof. replay. Qed.

(** src/udp/packet.rs:278-288 *)
Example test_udp_values : forall E,
  let ip := get [] (v4_new raw_udp) in
  let udp := get [] (udp_new (get [] (v4_payload ip))) in
  v4_is_valid E ip = Ok true /\ udp_is_valid E (V4 ip) udp = Ok true /\
  udp_destination udp = Ok 53.
Proof. replay. Qed.

(** src/udp/packet.rs:291-308: the IP packet is the header half of [split_mut] *)
Example test_udp_mutable : forall E,
  let (ip, pay) := get ([], []) (v4_split (get [] (v4_new raw_udp))) in
  let udp := get [] (udp_new pay) in
  let udp1 := after (udp_set_destination 9001) udp in
  let udp2 := after (udp_update_checksum E (V4 ip)) udp1 in
  udp_is_valid E (V4 ip) udp = Ok true /\ udp_destination udp = Ok 53 /\
  udp_destination udp1 = Ok 9001 /\ udp_is_valid E (V4 ip) udp1 = Ok false /\
  udp_is_valid E (V4 ip) udp2 = Ok true.
Proof. replay. Qed.

(** src/udp/packet.rs:311-326 *)
Example test_udp_mutable_checked : forall E,
  let (ip, pay) := get ([], []) (v4_split (get [] (v4_new raw_udp))) in
  let udp := after (udp_checked E (V4 ip) [UdpSetDestination 9001]) (get [] (udp_new pay)) in
  udp_destination udp = Ok 9001 /\ udp_is_valid E (V4 ip) udp = Ok true.
Proof. replay. Qed.

(** src/tcp/packet.rs:388-399; SYN is 0b10 *)
Example test_tcp_values : forall E,
  let ip := get [] (v4_new raw_tcp) in
  let tcp := get [] (tcp_new (get [] (v4_payload ip))) in
  v4_is_valid E ip = Ok true /\ tcp_is_valid E (V4 ip) tcp = Ok true /\
  tcp_flags tcp = Ok 2 /\ tcp_destination tcp = Ok 80.
Proof. replay. Qed.

(** src/tcp/packet.rs:402-419 *)
Example test_tcp_mutable : forall E,
  let (ip, pay) := get ([], []) (v4_split (get [] (v4_new raw_tcp))) in
  let tcp := get [] (tcp_new pay) in
  let tcp1 := after (tcp_set_destination 9001) tcp in
  let tcp2 := after (tcp_update_checksum E (V4 ip)) tcp1 in
  tcp_is_valid E (V4 ip) tcp = Ok true /\ tcp_destination tcp = Ok 80 /\
  tcp_destination tcp1 = Ok 9001 /\ tcp_is_valid E (V4 ip) tcp1 = Ok false /\
  tcp_is_valid E (V4 ip) tcp2 = Ok true.
Proof. replay. Qed.

(** src/tcp/packet.rs:422-437 *)
Example test_tcp_mutable_checked : forall E,
  let (ip, pay) := get ([], []) (v4_split (get [] (v4_new raw_tcp))) in
  let tcp := after (tcp_checked E (V4 ip) [TcpSetDestination 9001]) (get [] (tcp_new pay)) in
  tcp_destination tcp = Ok 9001 /\ tcp_is_valid E (V4 ip) tcp = Ok true.
Proof. replay. Qed.

(** src/udp/mod.rs:100-118 *)
Example test_udp_checksum : forall E,
  let ip := get [] (v4_new raw_udp_checksum) in
  let pay := get [] (v4_payload ip) in
  exists c, udp_checksum_of E (V4 ip) pay = Ok c /\ udp_checksum (get [] (udp_new pay)) = Ok c.
Proof. intros [[] [] []]; vm_compute; eexists; split; reflexivity. Qed.

(** src/tcp/mod.rs:107-146, odd length.  The test passes exactly when the
    Cursor keeps its position on a failed read; with the newer std it panics. *)
Example test_tcp_checksum_on_odd_length : forall E,
  let tcp := get [] (v4_payload raw_tcp_odd) in
  let fake := get [] (v4_build E (the_builder (run (v4_run1 E)
       [V4Set (V4SetSource (get addr_zero (v4_source raw_tcp_odd)));
        V4Set (V4SetDestination (get addr_zero (v4_destination raw_tcp_odd)))]
       (the_builder (v4_default E))))) in
  len tcp mod 2 = 1 /\
  match cursor_eof E with
  | EofKeep => tcp_checksum (after (tcp_update_checksum E (get (V6 []) (ip_unchecked fake))) tcp)
               = tcp_checksum tcp
  | EofSeek => snd (tcp_update_checksum E (get (V6 []) (ip_unchecked fake)) tcp) = Panic
  end.
Proof. replay. Qed.

(** The IPv4 calls common to the builder tests *)
Definition v4_calls : list v4_op :=
  map V4Set [V4SetId 11655; V4SetTtl 64; V4SetSource (Ip4 66 102 1 108);
             V4SetDestination (Ip4 192 168 0 79)].

(** src/ip/v4/builder.rs:221-244 and src/icmp/builder.rs:98-109 *)
Example test_v4_builder_icmp : forall E,
  let echo := the_builder (run (echo_run1 E)
       [EchoRequest; EchoIdentifier 42; EchoSequence 2; EchoPayload [116; 101; 115; 116]]
       (the_builder (icmp_echo E (the_builder (v4_icmp E (the_builder
          (run (v4_run1 E) v4_calls (the_builder (v4_default E))))))))) in
  let p := get [] (v4_new (get [] (echo_build E echo))) in
  v4_id p = Ok 11655 /\ v4_flags p = Ok 0 /\ v4_length p = Ok 32 /\ v4_ttl p = Ok 64 /\
  v4_protocol p = Ok IP_Icmp /\ v4_source p = Ok (Ip4 66 102 1 108) /\
  v4_destination p = Ok (Ip4 192 168 0 79) /\ v4_is_valid E p = Ok true.
Proof. replay. Qed.
Example test_icmp_builder_simple : forall E,
  let echo := the_builder (run (echo_run1 E)
       [EchoRequest; EchoIdentifier 42; EchoSequence 2; EchoPayload [116; 101; 115; 116]]
       (the_builder (icmp_echo E (the_builder icmp_default)))) in
  let p := get [] (icmp_new (get [] (echo_build E echo))) in
  icmp_get_kind p = Ok K_EchoRequest.
Proof. replay. Qed.

(** src/ip/v4/builder.rs:247-269 *)
Example test_v4_builder_tcp : forall E,
  let tcp := the_builder (run (tcp_run1 E)
       [TcpSet (TcpSetSource 1337); TcpSet (TcpSetDestination 9001); TcpSet (TcpSetFlags 2)]
       (the_builder (v4_tcp E (the_builder (run (v4_run1 E) v4_calls (the_builder (v4_default E))))))) in
  let p := get [] (v4_new (get [] (tcp_build E tcp))) in
  v4_id p = Ok 11655 /\ v4_flags p = Ok 0 /\ v4_length p = Ok 40 /\ v4_ttl p = Ok 64 /\
  v4_protocol p = Ok IP_Tcp /\ v4_source p = Ok (Ip4 66 102 1 108) /\
  v4_destination p = Ok (Ip4 192 168 0 79) /\ v4_is_valid E p = Ok true.
Proof. replay. Qed.

(** src/udp/builder.rs:150-176 *)
Example test_udp_builder : forall E,
  let udpb := the_builder (run (udp_run1 E)
       [UdpSet (UdpSetSource 1337); UdpSet (UdpSetDestination 9001)]
       (the_builder (v4_udp E (the_builder (run (v4_run1 E) v4_calls (the_builder (v4_default E))))))) in
  let p := get [] (v4_new (get [] (udp_build E udpb))) in
  let udp := get [] (udp_new (get [] (v4_payload p))) in
  v4_id p = Ok 11655 /\ v4_flags p = Ok 0 /\ v4_length p = Ok 28 /\ v4_ttl p = Ok 64 /\
  v4_protocol p = Ok IP_Udp /\ v4_source p = Ok (Ip4 66 102 1 108) /\
  v4_destination p = Ok (Ip4 192 168 0 79) /\ v4_is_valid E p = Ok true /\
  udp_source udp = Ok 1337 /\ udp_destination udp = Ok 9001 /\
  udp_is_valid E (V4 p) udp = Ok true.
Proof. replay. Qed.

(** src/tcp/builder.rs:189-218: payload "lol" makes the segment odd, so the test
    passes exactly when the Cursor keeps its position on a failed read. *)
Example test_tcp_builder : forall E,
  let tcpb := the_builder (run (tcp_run1 E)
       [TcpSet (TcpSetSource 1337); TcpSet (TcpSetDestination 9001); TcpSet (TcpSetFlags 2);
        TcpPayload [108; 111; 108]]
       (the_builder (v4_tcp E (the_builder (run (v4_run1 E) v4_calls (the_builder (v4_default E))))))) in
  let p := get [] (v4_new (get [] (tcp_build E tcpb))) in
  let tcp := get [] (tcp_new (get [] (v4_payload p))) in
  match cursor_eof E with
  | EofKeep =>
      v4_id p = Ok 11655 /\ v4_flags p = Ok 0 /\ v4_length p = Ok 43 /\ v4_ttl p = Ok 64 /\
      v4_protocol p = Ok IP_Tcp /\ v4_source p = Ok (Ip4 66 102 1 108) /\
      v4_destination p = Ok (Ip4 192 168 0 79) /\ v4_is_valid E p = Ok true /\
      tcp_source tcp = Ok 1337 /\ tcp_destination tcp = Ok 9001 /\ tcp_flags tcp = Ok 2 /\
      tcp_is_valid E (V4 p) tcp = Ok true
  | EofSeek => tcp_build E tcpb = Panic
  end.
Proof. replay. Qed.

(** src/ether/builder.rs:157-191 *)
Example test_ether_builder : forall E,
  let eth := the_builder (run (ether_run1 E)
       [EtherDestination (Hw 0 35 105 99 89 190); EtherSource (Hw 228 179 24 38 99 163)]
       (the_builder (ether_default E))) in
  let v4 := the_builder (run (v4_run1 E) v4_calls
       (the_builder (ip_v4 E (the_builder (ether_ip E eth))))) in
  let udpb := the_builder (run (udp_run1 E)
       [UdpSet (UdpSetSource 1337); UdpSet (UdpSetDestination 9001)] (the_builder (v4_udp E v4))) in
  let e := get [] (ether_new (get [] (udp_build E udpb))) in
  let p := get [] (v4_new (get [] (ether_payload e))) in
  let udp := get [] (udp_new (get [] (v4_payload p))) in
  ether_destination e = Ok (Hw 0 35 105 99 89 190) /\
  ether_source e = Ok (Hw 228 179 24 38 99 163) /\ ether_get_protocol e = Ok ET_Ipv4 /\
  v4_id p = Ok 11655 /\ v4_flags p = Ok 0 /\ v4_length p = Ok 28 /\ v4_ttl p = Ok 64 /\
  v4_protocol p = Ok IP_Udp /\ v4_source p = Ok (Ip4 66 102 1 108) /\
  v4_destination p = Ok (Ip4 192 168 0 79) /\ v4_is_valid E p = Ok true /\
  udp_source udp = Ok 1337 /\ udp_destination udp = Ok 9001 /\
  udp_is_valid E (V4 p) udp = Ok true.
Proof. replay. Qed.
