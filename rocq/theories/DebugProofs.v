(** * DebugProofs: what [{:?}] shows of an accepted packet (C47). *)
From Coq Require Import String.
From Verif Require Import Base Enums Ether Ipv4 Ip Udp Tcp Icmp Spec SpecCalls Debug Lemmas ParseProofs SliceProofs
  AccessProofs ChecksumLemmas ChecksumProofs OptionProofs.
From Coq Require Import ZifyBool ZifyNat ZifyN.
Ltac Zify.zify_post_hook ::= Z.div_mod_to_equations.

(** C47: an Ethernet frame: the labels "destination" and "source" are swapped. *)
Lemma c47_ether : forall f payload, ether_fields_ok f ->
  ether_debug (ether_wire f ++ payload) =
  Ok (ShStruct "ether::Packet"
        [("destination", ShMac (ef_src f)); ("source", ShMac (ef_dst f));
         ("protocol", ShEtherType (ether_protocol_from (ef_type f))); ("payload", ShBytes payload)])%string.
Proof.
  intros f payload Hf. destruct (c09_ether f payload Hf) as (_ & A1 & A2 & A3 & A4).
  unfold ether_debug, field. rewrite A1, A2, A3, A4. reflexivity.
Qed.
(** C47: so the value labelled "destination" is not the destination. *)
Lemma c47_ether_destination_refuted :
  ~ (forall b name fs, ether_new b = Ok b -> ether_debug b = Ok (ShStruct name fs) ->
       exists d, ether_destination b = Ok d /\ In ("destination"%string, ShMac d) fs).
Proof.
  intros H. destruct (H [1; 1; 1; 1; 1; 1; 2; 2; 2; 2; 2; 2; 8; 0] _ _ eq_refl eq_refl) as (d & Hd & Hi).
  cbv in Hd. injection Hd as <-. cbn in Hi. repeat destruct Hi as [Hi|Hi]; try discriminate. exact Hi.
Qed.

(** C47: a UDP datagram: the length is shown under a first label "checksum". *)
Lemma c47_udp : forall f payload trailer, udp_fields_ok f -> uf_length f = 8 + len payload ->
  udp_debug (udp_wire f ++ payload ++ trailer) =
  Ok (ShStruct "udp::Packet"
        [("source", ShNum (uf_src f)); ("destination", ShNum (uf_dst f));
         ("checksum", ShNum (uf_length f)); ("checksum", ShNum (uf_checksum f));
         ("payload", ShBytes payload)])%string.
Proof.
  intros f payload trailer Hf Hl. destruct (c09_udp f payload trailer Hf Hl) as (_ & A1 & A2 & A3 & A4 & A5 & _).
  unfold udp_debug, field. rewrite A1, A2, A3, A4, A5. reflexivity.
Qed.
(** C47: no label "length" is shown of a UDP datagram, and the first "checksum"
    need not be the checksum. *)
Lemma c47_udp_labels_refuted :
  ~ (forall b name fs, udp_new b = Ok b -> udp_debug b = Ok (ShStruct name fs) ->
       forall v, In ("checksum"%string, ShNum v) fs -> udp_checksum b = Ok v) /\
  (forall b name fs v, udp_debug b = Ok (ShStruct name fs) -> ~ In ("length"%string, v) fs).
Proof.
  split.
  - intros H. discriminate (H [0; 1; 0; 2; 0; 8; 0; 9] _ _ eq_refl eq_refl 8 ltac:(cbn; tauto)).
  - intros b name fs v. unfold udp_debug, struct, field, no_more.
    destruct (udp_source b); try discriminate. destruct (udp_destination b); try discriminate.
    destruct (udp_length b); try discriminate. destruct (udp_checksum b); try discriminate.
    destruct (udp_payload b); try discriminate. cbn. intros [= <- <-].
    cbn. intros Hi. repeat destruct Hi as [Hi|Hi]; try discriminate. exact Hi.
Qed.

(** C47: a TCP segment. *)
Lemma c47_tcp : forall f opts payload, tcp_fields_ok f -> tf_offset f * 4 = 20 + len opts ->
  tcp_debug (tcp_wire f ++ opts ++ payload) =
  Ok (ShStruct "tcp::Packet"
        [("source", ShNum (tf_src f)); ("destination", ShNum (tf_dst f));
         ("sequence", ShNum (tf_seq f)); ("acknowledgment", ShNum (tf_ack f));
         ("offset", ShNum (tf_offset f)); ("flags", ShTcpFlags (tf_flags f));
         ("window", ShNum (tf_window f)); ("checksum", ShNum (tf_checksum f));
         ("pointer", ShNum (tf_pointer f)); ("payload", ShBytes payload)])%string.
Proof.
  intros f opts payload Hf Ho.
  destruct (c09_tcp f opts payload Hf Ho) as (_ & A1 & A2 & A3 & A4 & A5 & A6 & A7 & A8 & A9 & _ & _ & A10).
  unfold tcp_debug, field. rewrite A1, A2, A3, A4, A5, A6, A7, A8, A9, A10. reflexivity.
Qed.
(** C47: no accepted TCP segment makes it panic, whatever its data offset; the
    bytes shown as payload are those behind the header. *)
Lemma c47_tcp_total : forall (E : env) b, rust_slice b -> tcp_new b = Ok b ->
  tcp_debug b = Ok (ShStruct "tcp::Packet"
    [("source", ShNum (wire16 b 0)); ("destination", ShNum (wire16 b 2));
     ("sequence", ShNum (wire32 b 4)); ("acknowledgment", ShNum (wire32 b 8));
     ("offset", ShNum (nthN b 12 / 16)%N); ("flags", ShTcpFlags (wire16 b 12 mod 512)%N);
     ("window", ShNum (wire16 b 14)); ("checksum", ShNum (wire16 b 16)); ("pointer", ShNum (wire16 b 18));
     ("payload", ShBytes (dropN (nthN b 12 / 16 * 4) b))])%string.
Proof.
  intros E b Hr Hn. destruct (c08_tcp b Hn) as (A1 & A2 & A3 & A4 & A5 & A6 & A7 & A8 & A9 & _).
  destruct (c07_tcp E b Hr Hn) as (_ & _ & _ & A10 & _).
  unfold tcp_debug, field. rewrite A1, A2, A3, A4, A5, A6, A7, A8, A9, A10. reflexivity.
Qed.
(** C47: no accepted UDP datagram does, whatever its length field. *)
Lemma c47_udp_total : forall b, udp_new b = Ok b ->
  udp_debug b = Ok (ShStruct "udp::Packet"
    [("source", ShNum (wire16 b 0)); ("destination", ShNum (wire16 b 2));
     ("checksum", ShNum (wire16 b 4)); ("checksum", ShNum (wire16 b 6));
     ("payload", ShBytes (dropN 8 (takeN (N.max 8 (wire16 b 4)) b)))])%string.
Proof.
  intros b Hn. pose proof Hn as Hn'. apply udp_new_iff in Hn'. destruct Hn' as (_ & H8 & _).
  destruct (c07_udp b Hn) as (_ & _ & _ & A5 & _).
  unfold udp_debug, field, udp_source, udp_destination, udp_length, udp_checksum.
  rewrite !get16 by lia. rewrite A5. reflexivity.
Qed.

Lemma v4_is_valid_total E b : is_bytes b -> v4_no_payload b = Ok b -> exists v, v4_is_valid E b = Ok v.
Proof.
  intros Hb Hn. destruct (c07_v4_no_payload b Hn) as (Hh & _).
  unfold v4_is_valid. rewrite Hh. cbn [bind].
  rewrite c20_v4_checksum by (apply is_bytes_takeN; exact Hb). cbn [bind].
  destruct (c08_v4 b Hb Hn) as (_ & _ & _ & _ & _ & _ & _ & _ & _ & A & _). rewrite A. cbn [bind]. eexists. reflexivity.
Qed.
(** C47: an IPv4 packet: the name carries "!" exactly when is_valid() is false; a
    packet with the More Fragments bit cannot be shown at all; reserved and DF
    show as the two flags of the crate. *)
Lemma c47_v4 : forall E f opts payload trailer, v4_fields_ok f -> vf_version f = 4 ->
  vf_ihl f * 4 = 20 + len opts -> vf_total f = 20 + len opts + len payload ->
  is_bytes (opts ++ payload ++ trailer) ->
  let b := v4_wire f ++ opts ++ payload ++ trailer in
  exists valid, v4_is_valid E b = Ok valid /\
  v4_debug E b =
  if vf_mf f then Panic else
  Ok (ShStruct (if valid then "ip::v4::Packet" else "ip::v4::Packet!")
        [("version", ShNum 4); ("header", ShNum (vf_ihl f)); ("dscp", ShNum (vf_dscp f));
         ("ecn", ShNum (vf_ecn f)); ("length", ShNum (vf_total f)); ("id", ShNum (vf_id f));
         ("flags", ShIpFlags (bit (vf_reserved f) * IP_MORE_FRAGMENTS + bit (vf_df f) * IP_DONT_FRAGMENT));
         ("offset", ShNum (vf_frag f)); ("ttl", ShNum (vf_ttl f));
         ("protocol", ShProtocol (ip_protocol_from (vf_proto f)));
         ("checksum", ShNum (vf_checksum f));
         ("source", ShAddr (vf_src f)); ("destination", ShAddr (vf_dst f));
         ("payload", ShBytes payload)])%string.
Proof.
  intros E f opts payload trailer Hf Hv Hi Ht Hb b.
  pose proof (c09_v4 f (opts ++ payload ++ trailer) Hf Hv ltac:(autorewrite with len; lia)) as Q.
  cbv zeta in Q. fold b in Q. destruct Q as (Hn & A1 & A2 & A3 & A4 & A5 & A6 & A7 & A8 & A9 & A10 & A11 & A12 & A13).
  destruct (c09_v4_parts f opts payload trailer Hf Hv Hi Ht) as (_ & _ & _ & A14 & _). fold b in A14.
  assert (Hbb : is_bytes b).
  { unfold b. apply Forall_app. split; [|exact Hb].
    clear - Hf. destruct f as [ver ihl dscp ecn tot id rs df mf frag ttl pr ck src dst]. unfold v4_fields_ok in Hf.
    cbn [vf_version vf_ihl vf_dscp vf_ecn vf_total vf_id vf_frag vf_ttl vf_proto vf_checksum vf_src vf_dst] in Hf.
    destruct Hf as (? & ? & ? & ? & ? & ? & ? & ? & ? & ? & Hs & Hd). unfold u8, u16 in *.
    unfold v4_wire, enc16. cbn [vf_version vf_ihl vf_dscp vf_ecn vf_total vf_id vf_reserved vf_df vf_mf vf_frag vf_ttl vf_proto vf_checksum vf_src vf_dst].
    repeat (apply Forall_app; split); try exact Hs; try exact Hd; repeat constructor; unfold u8; try lia.
    destruct rs, df, mf; unfold bit; lia. }
  destruct (v4_is_valid_total E b Hbb Hn) as (v & Hval). exists v. split; [exact Hval|].
  unfold v4_debug. rewrite Hval. cbn [bind]. unfold field.
  rewrite A1, A2, A3, A4, A5, A6, A7. destruct (vf_mf f); [reflexivity|].
  rewrite A8, A9, A10, A11, A12, A13, A14. reflexivity.
Qed.
(** C47: for every accepted IPv4 packet, of any header length: it panics exactly
    when the More Fragments bit is set. *)
Lemma c47_v4_panics_iff : forall E b, is_bytes b -> v4_new b = Ok b ->
  (v4_debug E b = Panic <-> nthN b 6 / 32 mod 2 = 1) /\
  (forall e, v4_debug E b <> Err e) /\
  (forall s, v4_debug E b = Ok s -> exists valid, v4_is_valid E b = Ok valid /\
     s = ShStruct (if valid then "ip::v4::Packet" else "ip::v4::Packet!")
       [("version", ShNum 4); ("header", ShNum (nthN b 0 mod 16)%N); ("dscp", ShNum (nthN b 1 / 4)%N);
        ("ecn", ShNum (nthN b 1 mod 4)%N); ("length", ShNum (wire16 b 2)); ("id", ShNum (wire16 b 4));
        ("flags", ShIpFlags (wire16 b 6 / 8192)%N); ("offset", ShNum (wire16 b 6 mod 8192)%N); ("ttl", ShNum (nthN b 8));
        ("protocol", ShProtocol (ip_protocol_from (nthN b 9))); ("checksum", ShNum (wire16 b 10));
        ("source", ShAddr (wire_addr b 12)); ("destination", ShAddr (wire_addr b 16));
        ("payload", ShBytes (dropN (nthN b 0 mod 16 * 4) (takeN (N.max (nthN b 0 mod 16 * 4) (wire16 b 2)) b)))]%string).
Proof.
  intros E b Hb Hw.
  assert (Hn : v4_no_payload b = Ok b).
  { apply c02_v4_new_iff in Hw. apply v4_no_payload_iff. tauto. }
  destruct (v4_is_valid_total E b Hb Hn) as (v & Hval).
  destruct (c08_v4 b Hb Hn) as (A1 & A2 & A3 & A4 & A5 & A6 & A8 & A9 & A10 & A11 & A12 & A13 & F0 & F1 & _).
  destruct (c07_v4 b Hw) as (_ & _ & _ & A14 & _).
  assert (Hx : nthN b 7 < 256) by (apply is_bytes_nth; exact Hb).
  assert (Hm : wire16 b 6 / 8192 mod 2 = nthN b 6 / 32 mod 2) by (unfold wire16; change (6 + 1) with 7; lia).
  rewrite Hm in *.
  unfold v4_debug. rewrite Hval. cbn [bind]. unfold field. rewrite A1, A2, A3, A4, A5, A6.
  assert (C : nthN b 6 / 32 mod 2 = 0 \/ nthN b 6 / 32 mod 2 = 1) by lia.
  destruct C as [C|C].
  - rewrite (F0 C), A8, A9, A10, A11, A12, A13, A14. cbn -[nthN].
    split; [split; [discriminate|lia]|]. split; [discriminate|]. intros s Hs. apply Ok_inj in Hs. subst s. exists v. split; reflexivity.
  - rewrite (F1 C). cbn -[nthN]. split; [split; [intros; exact C|reflexivity]|]. split; discriminate.
Qed.

(** C47: an ICMP packet: the name carries "!" exactly when is_valid() is false. *)
Lemma c47_icmp : forall E f rest, icmp_fields_ok f -> is_bytes rest ->
  let b := icmp_wire f ++ rest in
  exists valid, icmp_is_valid E b = Ok valid /\
  icmp_debug E b =
  Ok (ShStruct (if valid then "icmp::Packet" else "icmp::Packet!")
        [("kind", ShKind (icmp_kind_from (cf_type f))); ("code", ShNum (cf_code f));
         ("checksum", ShNum (cf_checksum f)); ("payload", ShBytes rest)])%string.
Proof.
  intros E f rest Hf Hr b. pose proof (c09_icmp f rest Hf) as Q. cbv zeta in Q. fold b in Q.
  destruct Q as (Hn & A1 & A2 & A3 & A4).
  assert (Hbb : is_bytes b).
  { unfold b. apply Forall_app. split; [|exact Hr]. destruct f as [t c k]. destruct Hf as (H1 & H2 & H3). cbn in *.
    unfold u8, u16 in *. unfold icmp_wire, enc16. repeat constructor; cbn; unfold u8; try assumption; lia. }
  assert (Hv : exists v, icmp_is_valid E b = Ok v).
  { unfold icmp_is_valid. rewrite c23_icmp_checksum by exact Hbb. cbn [bind]. rewrite A3. eexists. reflexivity. }
  destruct Hv as (v & Hv). exists v. split; [exact Hv|]. unfold icmp_debug. rewrite Hv. cbn [bind]. unfold field.
  rewrite A1, A2, A3, A4. reflexivity.
Qed.
(** C47: echo. *)
Lemma c47_echo : forall f ident seq payload, icmp_fields_ok f -> cf_type f = 8 \/ cf_type f = 0 ->
  echo_debug (ident_wire f ident seq ++ payload) =
  Ok (ShStruct "icmp::echo::Packet"
        [("request", ShBool (cf_type f =? 8)%N); ("identifier", ShNum ident);
         ("sequence", ShNum seq); ("payload", ShBytes payload)])%string.
Proof.
  intros f ident seq payload Hf Ht.
  destruct (c09_echo f ident seq payload Hf Ht) as (_ & A1 & A2 & A3 & _ & A5).
  unfold echo_debug, field. rewrite A1, A2, A3, A5. reflexivity.
Qed.
(** C47: information. *)
Lemma c47_information : forall f ident seq rest, icmp_fields_ok f -> cf_type f = 15 \/ cf_type f = 16 ->
  information_debug (ident_wire f ident seq ++ rest) =
  Ok (ShStruct "icmp::information::Packet"
        [("request", ShBool (cf_type f =? 15)%N); ("identifier", ShNum ident); ("sequence", ShNum seq)])%string.
Proof.
  intros f ident seq rest Hf Ht.
  destruct (c09_information f ident seq rest Hf Ht) as (_ & A1 & A2 & A3 & _).
  unfold information_debug, field. rewrite A1, A2, A3. reflexivity.
Qed.
(** C47: timestamp: all three times show the same bytes, the ones after the
    sequence number, and no time is shown as a number. *)
Lemma c47_timestamp : forall f ident seq orig recv tran rest, icmp_fields_ok f -> cf_type f = 13 \/ cf_type f = 14 ->
  let times := enc32 orig ++ enc32 recv ++ enc32 tran ++ rest in
  timestamp_debug (timestamp_wire f ident seq orig recv tran ++ rest) =
  Ok (ShStruct "icmp::timestamp::Packet"
        [("request", ShBool (cf_type f =? 13)%N); ("identifier", ShNum ident); ("sequence", ShNum seq);
         ("originate", ShBytes times); ("receive", ShBytes times); ("transmit", ShBytes times)])%string.
Proof.
  intros f ident seq orig recv tran rest Hf Ht times.
  destruct (c09_timestamp f ident seq orig recv tran rest Hf Ht) as (Hn & A1 & A2 & _ & _ & _ & A3 & _).
  destruct (c07_timestamp {| overflow_checks := true; cursor_eof := EofKeep; target := Bits64 |} _ Hn) as (_ & _ & A4 & _).
  unfold timestamp_debug, field. rewrite A1, A2, A3, A4.
  assert (T : dropN 8 (timestamp_wire f ident seq orig recv tran ++ rest) = times).
  { unfold timestamp_wire. rewrite <- !app_assoc. exact (dropN_app_len (ident_wire f ident seq) times). }
  rewrite T. reflexivity.
Qed.
Lemma c47_timestamp_refuted :
  ~ (forall b name fs, timestamp_new b = Ok b -> timestamp_debug b = Ok (ShStruct name fs) ->
       exists v, timestamp_receive b = Ok v /\ In ("receive"%string, ShNum v) fs).
Proof.
  intros H. destruct (H (13 :: repeat 0 19%nat) _ _ eq_refl eq_refl) as (d & Hd & Hi).
  cbv in Hd. injection Hd as <-. cbn in Hi. repeat destruct Hi as [Hi|Hi]; try discriminate. exact Hi.
Qed.

(** C47: messages that carry a datagram: bytes 8.. that are no IPv4 packet show as
    the error, an IPv4 packet shows as such, and one with More Fragments set
    makes the whole output panic. *)
Lemma c47_embedded : forall E b, rust_slice b ->
  let inner (label : list (string * shown)) (name : string) :=
    match v4_new (dropN 8 b) with
    | Ok p => match v4_debug E p with
              | Ok s => Ok (ShStruct name (label ++ [("packet"%string, s)]))
              | _ => Panic
              end
    | Err e => Ok (ShStruct name (label ++ [("packet"%string, ShErr e)]))
    | Panic => Panic
    end in
  (parameter_problem_new b = Ok b ->
   parameter_problem_debug E b = inner [("pointer"%string, ShNum (nthN b 4))] "icmp::parameter_problem::Packet"%string) /\
  (redirect_message_new b = Ok b ->
   redirect_message_debug E b = inner [("gateway"%string, ShAddr (wire_addr b 4))] "icmp::redirect_message::Packet"%string) /\
  (previous_new b = Ok b ->
   previous_debug E b = inner [] "icmp::previous::Packet"%string).
Proof.
  intros E b Hr.
  assert (K : forall p, v4_new (dropN 8 b) = Ok p -> forall e, v4_debug E p <> Err e).
  { intros p Hp. apply c02_v4_new_iff in Hp as Hq. destruct Hq as (-> & _). 
    destruct (c47_v4_panics_iff E (dropN 8 b)) as (_ & H & _); [apply is_bytes_dropN; apply Hr|exact Hp|exact H]. }
  split; [|split]; intros Hn.
  - destruct (c45_embedded E b Hr) as (He & _); [tauto|].
    unfold parameter_problem_debug, struct, field, show_embedded.
    rewrite (proj2 (c45_gateway_pointer b) Hn), He. cbn [bind].
    destruct (v4_new (dropN 8 b)) as [p|e|] eqn:Q; cbn [bind]; try reflexivity.
    destruct (v4_debug E p) eqn:D; cbn [bind]; try reflexivity. exfalso. exact (K p eq_refl _ D).
  - destruct (c45_embedded E b Hr) as (He & _); [tauto|].
    unfold redirect_message_debug, struct, field, show_embedded.
    rewrite (proj1 (c45_gateway_pointer b) Hn), He. cbn [bind].
    destruct (v4_new (dropN 8 b)) as [p|e|] eqn:Q; cbn [bind]; try reflexivity.
    destruct (v4_debug E p) eqn:D; cbn [bind]; try reflexivity. exfalso. exact (K p eq_refl _ D).
  - destruct (c45_embedded E b Hr) as (He & _); [tauto|].
    unfold previous_debug, struct, field, show_embedded.
    rewrite He. cbn [bind].
    destruct (v4_new (dropN 8 b)) as [p|e|] eqn:Q; cbn [bind]; try reflexivity.
    destruct (v4_debug E p) eqn:D; cbn [bind]; try reflexivity. exfalso. exact (K p eq_refl _ D).
Qed.
(** C47: so it is not true that every accepted packet can be shown. *)
Lemma c47_debug_total_refuted :
  (exists b, is_bytes b /\ v4_new b = Ok b /\ forall E, v4_debug E b = Panic) /\
  (exists b, is_bytes b /\ previous_new b = Ok b /\ forall E, previous_debug E b = Panic) /\
  (exists b, is_bytes b /\ tcpopt_new b = Ok b /\ tcpopt_debug b = Panic) /\
  (exists b, is_bytes b /\ v4opt_new b = Ok b /\ v4opt_debug b = Panic).
Proof.
  split; [|split; [|split]].
  - exists (69 :: 0 :: 0 :: 20 :: 0 :: 0 :: 32 :: repeat 0 13%nat).
    split; [repeat constructor|]. split; [reflexivity|]. intros [[] [] []]; reflexivity.
  - exists ([3; 0; 0; 0; 0; 0; 0; 0] ++ 69 :: 0 :: 0 :: 20 :: 0 :: 0 :: 32 :: repeat 0 13%nat).
    split; [repeat constructor|]. split; [reflexivity|]. intros [[] [] []]; reflexivity.
  - exists [2; 0]. split; [repeat constructor|]. split; reflexivity.
  - exists [2; 0]. split; [repeat constructor|]. split; reflexivity.
Qed.

(** C47: generic IP packets show their version; IPv6 shows nothing else, and only
    IPv4 with More Fragments panics. *)
Lemma c47_ip : forall E b p, is_bytes b -> ip_new b = Ok p ->
  (nthN b 0 / 16 = 6 -> ip_debug E p = Ok (ShVariant "V6" (ShStruct "ip::v6::Packet" []))) /\
  (nthN b 0 / 16 = 4 -> nthN b 6 / 32 mod 2 = 0 -> exists s, v4_debug E b = Ok s /\ ip_debug E p = Ok (ShVariant "V4" s)) /\
  (nthN b 0 / 16 = 4 -> nthN b 6 / 32 mod 2 = 1 -> ip_debug E p = Panic).
Proof.
  intros E b p Hb Hn.
  assert (Hl : 0 < len b).
  { destruct b; [discriminate Hn|]. autorewrite with len; lia. }
  unfold ip_new in Hn. rewrite index_ok in Hn by exact Hl. cbn [bind] in Hn.
  rewrite N.shiftr_div_pow2 in Hn. change (2 ^ 4) with 16 in Hn.
  split; [|split].
  - intros H. rewrite H in Hn. unfold v6_new in Hn. destruct (v6_no_payload b) as [q|e|] eqn:Q; try discriminate.
    injection Hn as <-. reflexivity.
  - intros H Hm. rewrite H in Hn. destruct (v4_new b) as [q|e|] eqn:Q; try discriminate. injection Hn as <-.
    apply c02_v4_new_iff in Q as Q'. destruct Q' as (-> & _).
    destruct (c47_v4_panics_iff E b Hb Q) as (H1 & H2 & _). cbn [ip_debug].
    destruct (v4_debug E b) as [s|e|] eqn:D.
    + exists s. split; reflexivity.
    + exfalso. exact (H2 e eq_refl).
    + exfalso. rewrite (proj1 H1 eq_refl) in Hm. discriminate.
  - intros H Hm. rewrite H in Hn. destruct (v4_new b) as [q|e|] eqn:Q; try discriminate. injection Hn as <-.
    apply c02_v4_new_iff in Q as Q'. destruct Q' as (-> & _).
    destruct (c47_v4_panics_iff E b Hb Q) as (H1 & _). cbn [ip_debug]. rewrite (proj2 H1 Hm). reflexivity.
Qed.

(** C47: a well-formed option at the front of the remaining area. *)
Lemma c47_tcp_option : forall k d rest, tcp_opt_ok (Opt k d) -> is_bytes (opt_wire (Opt k d) ++ rest) ->
  exists n, tcpopt_number_into n = k /\
  tcpopt_debug (opt_wire (Opt k d) ++ rest) =
  Ok (ShStruct "tcp::Option" [("number", ShTcpNumber n); ("length", ShNum (2 + len d)%N); ("payload", ShBytes d)])%string.
Proof.
  intros k d rest Ho Hb.
  destruct (tcp_opt_step {| overflow_checks := true; cursor_eof := EofKeep; target := Bits64 |} _ _ Ho Hb) as (_ & HL & _ & (n & Hn & Hk) & HP).
  exists n. split; [exact Hk|]. unfold tcpopt_debug, field. rewrite HL, Hn, HP. cbn [bind no_more struct opt_wire].
  do 6 f_equal. autorewrite with len. lia.
Qed.
(** C47: a one-byte No-Operation shows everything after it as its payload. *)
Lemma c47_tcp_option_nop : forall rest,
  tcpopt_debug (1 :: rest) =
  Ok (ShStruct "tcp::Option" [("number", ShTcpNumber TN_NoOperation); ("length", ShNum 1); ("payload", ShBytes rest)])%string.
Proof.
  intros rest. unfold tcpopt_debug, field.
  assert (H : 0 < len (1 :: rest)) by (autorewrite with len; lia).
  rewrite tcpopt_number_eq by exact H.
  assert (HL : tcpopt_length (1 :: rest) = Ok 1) by (rewrite tcpopt_length_eq by exact H; reflexivity).
  unfold tcpopt_payload, tcpopt_split. rewrite HL. cbn [bind N.eqb Pos.eqb].
  rewrite split_at_ok by (autorewrite with len; lia). reflexivity.
Qed.
Lemma c47_v4_option : forall k d rest, v4_opt_ok (Opt k d) -> is_bytes (opt_wire (Opt k d) ++ rest) ->
  exists n c, v4opt_number_into n = k mod 32 /\ v4opt_class_into c = k / 32 mod 4 /\
  v4opt_debug (opt_wire (Opt k d) ++ rest) =
  Ok (ShStruct "ip::v4::Option"
        [("is_copied", ShBool (128 <=? k)%N); ("class", ShClass c); ("number", ShV4Number n);
         ("length", ShNum (2 + len d)%N); ("payload", ShBytes d)])%string.
Proof.
  intros k d rest Ho Hb.
  destruct (v4_opt_step {| overflow_checks := true; cursor_eof := EofKeep; target := Bits64 |} _ _ Ho Hb)
    as (_ & HL & _ & (n & Hn & Hk) & HC & (c & Hc & Hkc) & HP).
  exists n, c. split; [exact Hk|]. split; [exact Hkc|]. unfold v4opt_debug, field.
  rewrite HL, Hn, HC, Hc, HP. cbn [bind no_more struct opt_wire].
  do 8 f_equal. autorewrite with len. lia.
Qed.
Lemma c47_v4_option_nop : forall rest,
  v4opt_debug (1 :: rest) =
  Ok (ShStruct "ip::v4::Option"
        [("is_copied", ShBool false); ("class", ShClass OC_Control); ("number", ShV4Number ON_NoOperation);
         ("length", ShNum 1); ("payload", ShBytes rest)])%string.
Proof.
  intros rest. unfold v4opt_debug, field.
  assert (H : 0 < len (1 :: rest)) by (autorewrite with len; lia).
  assert (HI : index (1 :: rest) 0 = Ok 1) by (rewrite index_ok by exact H; reflexivity).
  assert (HL : v4opt_length (1 :: rest) = Ok 1).
  { unfold v4opt_length, v4opt_get_number. rewrite HI. reflexivity. }
  unfold v4opt_payload, v4opt_split, v4opt_is_copied, v4opt_get_class, v4opt_get_number. rewrite HL, HI.
  cbn [bind N.eqb Pos.eqb].
  rewrite split_at_ok by (autorewrite with len; lia). reflexivity.
Qed.
(** C47: of the accepted options exactly those with a length field of zero cannot be shown. *)
Lemma c47_options_panic_iff : forall b,
  (tcpopt_new b = Ok b -> (tcpopt_debug b = Panic <-> 2 <= nthN b 0 /\ nthN b 1 = 0) /\ forall e, tcpopt_debug b <> Err e) /\
  (v4opt_new b = Ok b -> (v4opt_debug b = Panic <-> 2 <= nthN b 0 mod 32 /\ nthN b 1 = 0) /\ forall e, v4opt_debug b <> Err e).
Proof.
  assert (Q : forall b l, l <= len b -> 0 < len b ->
    (let* (_, p) := (if l =? 1 then split_at b 1 else let* s := slice_to b l in split_at s 2) in Ok p) =
    if l =? 0 then @Panic bytes else if l =? 1 then Ok (dropN 1 b) else Ok (dropN 2 (takeN l b))).
  { intros b l Hl H0. destruct (N.eqb_spec l 1) as [->|H1].
    - rewrite split_at_ok by lia. reflexivity.
    - rewrite slice_to_ok by exact Hl. cbn [bind]. destruct (N.eqb_spec l 0) as [->|Hz].
      + reflexivity.
      + rewrite split_at_ok by (rewrite len_takeN; lia). reflexivity. }
  intros b. split; intros Hn.
  - unfold tcpopt_new, tcpopt_header_min in Hn. destruct (N.ltb_spec (len b) 1); [discriminate|].
    unfold tcpopt_debug, field, tcpopt_payload, tcpopt_split. rewrite tcpopt_number_eq by lia.
    rewrite tcpopt_length_eq in * by lia. destruct (N.ltb_spec (nthN b 0) 2).
    + cbn [bind] in *. rewrite Q by lia. cbn. split; [split; [discriminate|lia]|discriminate].
    + destruct (N.ltb_spec 1 (len b)); [rewrite index_ok in * by lia|rewrite index_panic in Hn by lia; discriminate].
      cbn [bind] in *. destruct (N.ltb_spec (len b) (nthN b 1)); [discriminate|]. rewrite Q by lia.
      destruct (N.eqb_spec (nthN b 1) 0) as [Hz|Hz]; [rewrite Hz; cbn; split; [split; [intros; split; [lia|reflexivity]|reflexivity]|discriminate]|].
      destruct (N.eqb_spec (nthN b 1) 1); cbn -[nthN dropN takeN]; (split; [split; [discriminate|lia]|discriminate]).
  - unfold v4opt_new, v4opt_header_min in Hn. destruct (N.ltb_spec (len b) 1); [discriminate|].
    unfold v4opt_debug, field, v4opt_payload, v4opt_split, v4opt_is_copied, v4opt_get_class. rewrite v4opt_number_eq by lia.
    rewrite v4opt_length_eq in * by lia. rewrite index_ok by lia. cbn [bind]. destruct (N.ltb_spec (nthN b 0 mod 32) 2).
    + cbn [bind] in *. rewrite Q by lia. cbn -[nthN]. split; [split; [discriminate|lia]|discriminate].
    + destruct (N.ltb_spec 1 (len b)); [rewrite index_ok in * by lia|rewrite index_panic in Hn by lia; discriminate].
      cbn [bind] in *. destruct (N.ltb_spec (len b) (nthN b 1)); [discriminate|]. rewrite Q by lia.
      destruct (N.eqb_spec (nthN b 1) 0) as [Hz|Hz]; [rewrite Hz; cbn -[nthN]; split; [split; [intros; split; [lia|reflexivity]|reflexivity]|discriminate]|].
      destruct (N.eqb_spec (nthN b 1) 1); cbn -[nthN dropN takeN]; (split; [split; [discriminate|lia]|discriminate]).
Qed.
Example c47_example :
  ether_debug [1; 1; 1; 1; 1; 1; 2; 2; 2; 2; 2; 2; 8; 0; 7] =
    Ok (ShStruct "ether::Packet"
         [("destination", ShMac (Hw 2 2 2 2 2 2)); ("source", ShMac (Hw 1 1 1 1 1 1));
          ("protocol", ShEtherType ET_Ipv4); ("payload", ShBytes [7])])%string /\
  udp_debug [0; 1; 0; 2; 0; 9; 0; 4; 5; 6] =
    Ok (ShStruct "udp::Packet"
         [("source", ShNum 1); ("destination", ShNum 2); ("checksum", ShNum 9); ("checksum", ShNum 4);
          ("payload", ShBytes [5])])%string.
Proof. split; reflexivity. Qed.
