(** * MutableProofs: C49, the mutable slices of a packet. *)
From Verif Require Import Base Enums Ether Ipv4 Ip Udp Tcp Icmp Spec Mutable SpecMut.
From Verif Require Import Lemmas ParseProofs SliceProofs FieldProofs OptionProofs.
From Coq Require Import ZifyBool ZifyNat ZifyN.
Ltac Zify.zify_post_hook ::= Z.div_mod_to_equations.

Lemma read_prefix n b : span_read (Span 0 n) b = takeN n b.
Proof. unfold span_read. cbn [s_at s_len]. f_equal. Qed.
Lemma read_split_le m n b : m <= len b -> n <= m ->
  span_read (Span n (m - n)) b = dropN n (takeN m b).
Proof. intros H1 H2. unfold span_read. cbn [s_at s_len]. rewrite takeN_dropN_comm. f_equal. f_equal. lia. Qed.
Lemma read_rest n b : n <= len b -> span_read (Span n (len b - n)) b = dropN n b.
Proof. intros H. rewrite (read_split_le (len b) n b) by lia. now rewrite takeN_all by lia. Qed.
Lemma span_write_patch s new b : len new = s_len s -> span_write s new b = patch (s_at s) new b.
Proof. intros H. unfold span_write, patch. now rewrite H. Qed.
Lemma split_whole b n : same_slices b (split_at_mut (whole b) n) (split_at b n).
Proof.
  unfold split_at_mut, split_at, whole. cbn [s_at s_len]. destruct (N.leb_spec n (len b)); [|reflexivity].
  cbn [same_slices]. split; [|right; unfold apart; cbn [s_at s_len]; lia].
  rewrite read_prefix. replace (0 + n) with n by lia. now rewrite read_rest.
Qed.
Lemma split_prefix b m n : m <= len b ->
  same_slices b (split_at_mut (Span 0 m) n) (split_at (takeN m b) n).
Proof.
  intros Hm. unfold split_at_mut, split_at. cbn [s_at s_len]. autorewrite with len.
  replace (N.min m (len b)) with m by lia.
  destruct (N.leb_spec n m); [|reflexivity]. cbn [same_slices].
  split; [|right; unfold apart; cbn [s_at s_len]; lia].
  rewrite read_prefix, takeN_takeN. replace (0 + n) with n by lia. replace (N.min n m) with n by lia.
  now rewrite read_split_le.
Qed.
Lemma as_whole b (n : res N) : (forall e, n <> Err e) -> same_slice b (let* m := n in span_to (whole b) m) (let* m := n in slice_to b m).
Proof.
  intros Hn. destruct n as [m|e|]; [|destruct (Hn e); reflexivity|reflexivity]. cbn [bind].
  unfold span_to, slice_to, whole. cbn [s_at s_len]. destruct (N.leb_spec m (len b)); [|reflexivity].
  cbn [same_slice]. rewrite read_prefix. split; [reflexivity|cbn [s_at s_len]; lia].
Qed.
Lemma narrow b n m (k : N) : m <= n ->
  same_slices b (split_at_mut (whole b) n) (split_at b n) ->
  same_slices b (let* (h, p) := split_at_mut (whole b) n in let* h' := span_to h m in Ok (h', p))
    (let* (h, p) := split_at b n in let* h' := slice_to h m in Ok (h', p)).
Proof.
  intros Hm _. unfold split_at_mut, split_at, whole. cbn [s_at s_len]. destruct (N.leb_spec n (len b)); [|reflexivity].
  cbn [bind]. unfold span_to. cbn [s_at s_len]. destruct (N.leb_spec m n); [|lia]. cbn [bind].
  rewrite slice_to_ok by (autorewrite with len; lia). cbn [bind same_slices].
  rewrite read_prefix, takeN_takeN. replace (0 + n) with n by lia. replace (N.min m n) with m by lia.
  rewrite read_rest by lia. split; [reflexivity|]. right. unfold apart. cbn [s_at s_len]. lia.
Qed.
Lemma option_split b (l : res N) : (forall e, l <> Err e) ->
  same_slices b
    (let* l := l in if l =? 1 then split_at_mut (whole b) 1 else let* s := span_to (whole b) l in split_at_mut s 2)
    (let* l := l in if l =? 1 then split_at b 1 else let* s := slice_to b l in split_at s 2).
Proof.
  intros Hl. destruct l as [n|e|]; [|destruct (Hl e); reflexivity|reflexivity]. cbn [bind].
  destruct (n =? 1); [apply split_whole|].
  unfold span_to, slice_to, whole. cbn [s_at s_len]. destruct (N.leb_spec n (len b)); [|reflexivity].
  cbn [bind]. apply split_prefix. exact H.
Qed.
Lemma patch_before h new b : h + len new <= len b -> takeN h (patch h new b) = takeN h b.
Proof.
  intros H. unfold patch. rewrite takeN_app1 by (autorewrite with len; lia). now rewrite takeN_takeN, N.min_id.
Qed.
Lemma patch_read h new b : h + len new <= len b -> dropN h (takeN (h + len new) (patch h new b)) = new.
Proof.
  intros H. unfold patch. rewrite takeN_app2 by (autorewrite with len; lia). autorewrite with len.
  replace (h + len new - N.min h (len b)) with (len new) by lia. rewrite takeN_app_len.
  rewrite dropN_app2 by (autorewrite with len; lia). autorewrite with len.
  replace (h - N.min h (len b)) with 0 by lia. reflexivity.
Qed.
Lemma patch_after h new b k : h + len new <= len b -> h + len new <= k -> dropN k (patch h new b) = dropN k b.
Proof.
  intros H1 H2. unfold patch. rewrite app_assoc. rewrite dropN_app2 by (autorewrite with len; lia). autorewrite with len.
  rewrite dropN_dropN. f_equal. lia.
Qed.
Lemma wire16_patch_before h new b i : h + len new <= len b -> i + 2 <= h -> wire16 (patch h new b) i = wire16 b i.
Proof. intros H1 H2. unfold wire16. rewrite !nthN_patch_out by lia. reflexivity. Qed.
Lemma span_rewrites s b : s_at s + s_len s <= len b -> rewrites s b.
Proof.
  intros H new Hn. rewrite span_write_patch by exact Hn. rewrite <- Hn. split.
  - apply patch_only_changes. lia.
  - unfold span_read. rewrite takeN_dropN_comm, <- Hn. apply patch_read. lia.
Qed.
(** The pattern for packets whose payload is the rest of the buffer. *)
Lemma rest_rewrites parse header payload h b :
  h <= len b ->
  (forall new, h + len new = len b -> let b' := patch h new b in
     parse b' = Ok b' /\ header b' = header b /\ payload b' = Ok (dropN h b')) ->
  payload_rewrites parse header payload (Span h (len b - h)) b.
Proof.
  intros Hh H new Hn b'. cbn [s_at s_len] in *. unfold b'. rewrite span_write_patch by exact Hn. cbn [s_at].
  destruct (H new) as (H1 & H2 & H3); [lia|]. split; [exact H1|]. split; [exact H2|]. split.
  - rewrite H3. f_equal. rewrite <- (takeN_all (h + len new) (patch h new b)) at 1 by (rewrite len_patch; lia).
    apply patch_read. lia.
  - rewrite <- Hn. apply patch_only_changes. lia.
Qed.

(** ** C49 *)
(** C49: on every buffer, split_mut() hands out the slices split() shows: the
    same bytes, header before payload, not overlapping, and it panics exactly
    when split() does.  All packet and option types. *)
Lemma c49_split_mut : forall b p,
  same_slices b (ether_split_mut b) (ether_split b) /\
  same_slices b (v4_split_mut b) (v4_split b) /\
  same_slices b (v6_split_mut b) (v6_split b) /\
  same_slices (match p with V4 q => q | V6 q => q end) (ip_split_mut p) (ip_split p) /\
  same_slices b (udp_split_mut b) (udp_split b) /\
  same_slices b (tcp_split_mut b) (tcp_split b) /\
  same_slices b (icmp_split_mut b) (icmp_split b) /\
  same_slices b (echo_split_mut b) (echo_split b) /\
  same_slices b (information_split_mut b) (information_split b) /\
  same_slices b (timestamp_split_mut b) (timestamp_split b) /\
  same_slices b (redirect_message_split_mut b) (redirect_message_split b) /\
  same_slices b (parameter_problem_split_mut b) (parameter_problem_split b) /\
  same_slices b (previous_split_mut b) (previous_split b) /\
  same_slices b (tcpopt_split_mut b) (tcpopt_split b) /\
  same_slices b (v4opt_split_mut b) (v4opt_split b).
Proof.
  intros b p.
  assert (V : forall b, same_slices b (v4_split_mut b) (v4_split b)).
  { clear. intros b. unfold v4_split_mut, v4_split.
    assert (He : forall e, v4_ihl b <> Err e) by (intros e; unfold v4_ihl, index; destruct (0 <? len b); discriminate).
    destruct (v4_ihl b) as [h|e|]; [|destruct (He e); reflexivity|reflexivity]. cbn [bind].
    assert (Hp : forall e, v4_payload_size b <> Err e).
    { intros e. unfold v4_payload_size, v4_length, v4_ihl, get_u16, slice_from, index. destruct (2 <=? len b); [|discriminate].
      cbn [bind]. destruct (read_u16 (dropN 2 b)); cbn [unwrap bind]; try discriminate. destruct (0 <? len b); discriminate. }
    destruct (v4_payload_size b) as [n|e|]; [|destruct (Hp e); reflexivity|reflexivity]. cbn [bind].
    destruct (N.ltb_spec (len b) (h * 4 + n)) as [Hl|Hl].
    - apply split_whole.
    - unfold span_to, whole. cbn [s_at s_len]. destruct (N.leb_spec (h * 4 + n) (len b)); [|lia]. 
      rewrite slice_to_ok by lia. cbn [bind]. apply split_prefix. lia. }
  assert (S : same_slices b (v6_split_mut b) (v6_split b)).
  { split; [reflexivity|]. left. reflexivity. }
  split; [apply split_whole|]. split; [apply V|]. split; [exact S|].
  split.
  { destruct p as [q|q]; [apply V|]. split; [reflexivity|left; reflexivity]. }
  split.
  { unfold udp_split_mut, udp_split.
    assert (Hp : forall e, udp_payload_size b <> Err e).
    { intros e. unfold udp_payload_size, udp_length, get_u16, slice_from. destruct (4 <=? len b); [|discriminate].
      cbn [bind]. destruct (read_u16 (dropN 4 b)); cbn [unwrap bind]; discriminate. }
    destruct (udp_payload_size b) as [n|e|]; [|destruct (Hp e); reflexivity|reflexivity]. cbn [bind].
    destruct (N.ltb_spec (len b) (8 + n)) as [Hl|Hl].
    - apply split_whole.
    - unfold span_to, whole. cbn [s_at s_len]. destruct (N.leb_spec (8 + n) (len b)); [|lia].
      rewrite slice_to_ok by lia. cbn [bind]. apply split_prefix. lia. }
  split.
  { unfold tcp_split_mut, tcp_split.
    assert (Hp : forall e, tcp_offset b <> Err e).
    { intros e. unfold tcp_offset, index. destruct (12 <? len b); discriminate. }
    destruct (tcp_offset b) as [n|e|]; [|destruct (Hp e); reflexivity|reflexivity]. cbn [bind]. apply split_whole. }
  split; [apply split_whole|]. split; [apply split_whole|]. split; [apply split_whole|]. split; [apply split_whole|].
  split; [apply split_whole|]. split; [apply narrow; [exact 0|lia|apply split_whole]|].
  split; [apply narrow; [exact 0|lia|apply split_whole]|].
  split; apply option_split; intros e.
  - unfold tcpopt_length, tcpopt_get_number, index. destruct (0 <? len b); [|discriminate]. cbn [bind].
    destruct (tcpopt_number_from (nthN b 0)); try discriminate; destruct (1 <? len b); discriminate.
  - unfold v4opt_length, v4opt_get_number, index. destruct (0 <? len b); [|discriminate]. cbn [bind].
    destruct (v4opt_number_from _); try discriminate; destruct (1 <? len b); discriminate.
Qed.
Lemma no_err_bind {A B} (r : res A) (k : A -> res B) :
  (forall e, r <> Err e) -> (forall a e, k a <> Err e) -> forall e, bind r k <> Err e.
Proof. intros H1 H2 e. destruct r as [a|e'|]; cbn [bind]; [apply H2|destruct (H1 e'); reflexivity|discriminate]. Qed.
Lemma no_err_add E x y e : usize_add E x y <> Err e.
Proof. unfold usize_add. repeat (match goal with |- context [if ?c then _ else _] => destruct c end); discriminate. Qed.
Lemma no_err_sub E x y e : usize_sub E x y <> Err e.
Proof. unfold usize_sub. repeat (match goal with |- context [if ?c then _ else _] => destruct c end); discriminate. Qed.
Lemma no_err_index b i e : index b i <> Err e.
Proof. unfold index. destruct (i <? len b); discriminate. Qed.
Lemma no_err_get16 b i e : get_u16 b i <> Err e.
Proof. unfold get_u16, slice_from. destruct (i <=? len b); [|discriminate]. cbn [bind]. destruct (read_u16 _); discriminate. Qed.
Ltac noerr := repeat (first [apply no_err_index | apply no_err_get16 | apply no_err_add | apply no_err_sub
  | apply no_err_bind; intros | discriminate ]).

(** C49: on every buffer, as_mut() is the slice as_ref() shows (and panics
    exactly when as_ref() does).  All packet and option types. *)
Lemma c49_as_mut : forall E b p,
  same_slice b (ether_as_mut E b) (ether_as_ref E b) /\
  same_slice b (v4_as_mut b) (v4_as_ref b) /\
  same_slice b (v6_as_mut b) (v6_as_ref b) /\
  same_slice (match p with V4 q => q | V6 q => q end) (ip_as_mut p) (ip_as_ref p) /\
  same_slice b (udp_as_mut b) (udp_as_ref b) /\
  same_slice b (tcp_as_mut E b) (tcp_as_ref E b) /\
  same_slice b (icmp_as_mut E b) (icmp_as_ref E b) /\
  same_slice b (echo_as_mut E b) (echo_as_ref E b) /\
  same_slice b (information_as_mut E b) (information_as_ref E b) /\
  same_slice b (timestamp_as_mut E b) (timestamp_as_ref E b) /\
  same_slice b (redirect_message_as_mut E b) (embedded_as_ref E b) /\
  same_slice b (parameter_problem_as_mut E b) (embedded_as_ref E b) /\
  same_slice b (previous_as_mut E b) (embedded_as_ref E b) /\
  same_slice b (tcpopt_as_mut E b) (tcpopt_as_ref E b) /\
  same_slice b (v4opt_as_mut E b) (v4opt_as_ref E b).
Proof.
  intros E b p.
  assert (S : forall b, same_slice b (v6_as_mut b) (v6_as_ref b)).
  { clear. intros b. split; [reflexivity|cbn; lia]. }
  assert (V : forall b, same_slice b (v4_as_mut b) (v4_as_ref b)).
  { clear. intros b. apply as_whole. unfold v4_size, v4_header_size, v4_payload_size, v4_ihl, v4_length. noerr. }
  assert (M : same_slice b (let* n := embedded_size E b in span_to (whole b) n) (embedded_as_ref E b)).
  { apply as_whole. unfold embedded_size, embedded_payload_size. apply no_err_bind; [|noerr].
    destruct (embedded_packet b); [|noerr|discriminate]. unfold v4_header_size, v4_ihl. noerr. }
  split; [apply as_whole; unfold ether_size, ether_header_size, ether_payload_size; noerr|].
  split; [apply V|]. split; [apply S|]. split; [destruct p; [apply V|apply S]|].
  split; [apply as_whole; unfold udp_size, udp_header_size, udp_payload_size, udp_length; noerr|].
  split; [apply as_whole; unfold tcp_size, tcp_header_size, tcp_payload_size, tcp_offset; noerr|].
  split; [apply as_whole; unfold icmp_size, icmp_header_size, icmp_payload_size; noerr|].
  split; [apply as_whole; unfold echo_size, echo_header_size, echo_payload_size; noerr|].
  split; [apply as_whole; unfold information_size, information_header_size, information_payload_size; noerr|].
  split; [apply as_whole; unfold timestamp_size, timestamp_header_size, timestamp_payload_size; noerr|].
  split; [exact M|]. split; [exact M|]. split; [exact M|].
  split; apply as_whole.
  - assert (H : forall e, tcpopt_length b <> Err e).
    { unfold tcpopt_length, tcpopt_get_number. noerr. destruct a; noerr. }
    unfold tcpopt_size, tcpopt_header_size, tcpopt_payload_size. apply no_err_bind; [apply no_err_bind; [exact H|discriminate]|]. intros a. apply no_err_bind; [|noerr].
    apply no_err_bind; [exact H|]. intros c e. destruct (c =? 1); noerr.
  - assert (H : forall e, v4opt_length b <> Err e).
    { unfold v4opt_length, v4opt_get_number. noerr. destruct a; noerr. }
    unfold v4opt_size, v4opt_header_size, v4opt_payload_size. apply no_err_bind; [apply no_err_bind; [exact H|discriminate]|]. intros a. apply no_err_bind; [|noerr].
    apply no_err_bind; [exact H|]. intros c e. destruct (c =? 1); noerr.
Qed.

(** C49: Ethernet.  payload_mut() is everything after the 14 header bytes;
    whatever is written there, the packet still parses, the header is the same
    and payload() returns it.  header_mut() is the 14 bytes. *)
Lemma c49_ether : forall E b, rust_slice b -> ether_new b = Ok b ->
  ether_split_mut b = Ok (Span 0 14, Span 14 (len b - 14)) /\ ether_as_mut E b = Ok (whole b) /\
  rewrites (Span 0 14) b /\
  payload_rewrites ether_new ether_header ether_payload (Span 14 (len b - 14)) b.
Proof.
  intros E b Hb Hn. destruct (c07_ether E b Hb Hn) as (_ & _ & _ & _ & Hl & _ & _ & Hs & _).
  autorewrite with len in Hl. assert (H14 : 14 <= len b) by lia.
  unfold ether_split_mut, ether_as_mut, split_at_mut. rewrite Hs. cbn [bind]. unfold span_to, whole. cbn [s_at s_len].
  destruct (N.leb_spec 14 (len b)); [|lia]. destruct (N.leb_spec (len b) (len b)); [|lia].
  split; [reflexivity|]. split; [reflexivity|]. split; [apply span_rewrites; cbn [s_at s_len]; lia|].
  apply rest_rewrites; [lia|]. intros new Hnew b'.
  assert (Hb' : len b' = len b) by (apply len_patch; lia).
  split; [apply c01_ether_new; lia|]. unfold ether_header, ether_payload, ether_split.
  rewrite !split_at_ok by lia. cbn [bind]. split; [|reflexivity]. f_equal. apply patch_before. lia.
Qed.
(** C49: IPv4, header of at least five words: payload_mut() is what lies between
    the header and the total length; bytes behind the datagram are out of reach. *)
Lemma c49_v4 : forall b, v4_new b = Ok b -> 5 <= nthN b 0 mod 16 ->
  let h := nthN b 0 mod 16 * 4 in
  let n := N.max h (wire16 b 2) in
  v4_split_mut b = Ok (Span 0 h, Span h (n - h)) /\ v4_as_mut b = Ok (Span 0 n) /\
  rewrites (Span 0 h) b /\
  payload_rewrites v4_new v4_header v4_payload (Span h (n - h)) b.
Proof.
  intros b Hn Hi h n. pose proof (c07_v4 b Hn) as Q. cbv zeta in Q. fold h in Q. fold n in Q.
  destruct Q as (Hhn & _ & Hh & Hp & _ & _ & Hhs & Hps & Hz & _).
  assert (Hih : v4_ihl b = Ok (nthN b 0 mod 16)) by (apply v4_ihl_ok; lia).
  split.
  { unfold v4_split_mut. rewrite Hih. cbn [bind]. rewrite Hps. cbn [bind]. autorewrite with len. fold h.
    destruct (N.ltb_spec (len b) (h + (N.min n (len b) - h))); [lia|]. unfold span_to, whole. cbn [s_at s_len].
    destruct (N.leb_spec (h + (N.min n (len b) - h)) (len b)); [|lia]. cbn [bind]. unfold split_at_mut. cbn [s_at s_len].
    destruct (N.leb_spec h (h + (N.min n (len b) - h))); [|lia]. repeat f_equal; lia. }
  split.
  { unfold v4_as_mut. rewrite Hz. cbn [bind]. unfold span_to, whole. cbn [s_at s_len].
    destruct (N.leb_spec n (len b)); [reflexivity|lia]. }
  split; [apply span_rewrites; cbn [s_at s_len]; lia|].
  intros new Hnew b'. cbn [s_at s_len] in *. assert (Eb : b' = patch h new b) by (apply span_write_patch; exact Hnew).
  assert (Hin : h + len new <= len b) by lia.
  assert (Hw : nthN b' 0 = nthN b 0) by (rewrite Eb; apply nthN_patch_out; lia).
  assert (Ht : wire16 b' 2 = wire16 b 2) by (rewrite Eb; apply wire16_patch_before; lia).
  assert (Hl : len b' = len b) by (rewrite Eb; apply len_patch; lia).
  assert (Hn' : v4_new b' = Ok b').
  { apply c02_v4_new_iff in Hn. destruct Hn as (_ & H1 & H2 & H3 & H4). apply c02_v4_new_iff.
    rewrite Hw, Ht, Hl. repeat split; assumption. }
  pose proof (c07_v4 b' Hn') as Q. cbv zeta in Q. rewrite Hw, Ht in Q. fold h in Q. fold n in Q.
  destruct Q as (_ & _ & Hh' & Hp' & _).
  split; [exact Hn'|]. split; [rewrite Hh', Hh, Eb, patch_before by lia; reflexivity|]. split.
  - rewrite Hp'. f_equal. replace n with (h + len new) by lia. rewrite Eb. apply patch_read. lia.
  - rewrite Eb, <- Hnew. apply patch_only_changes. lia.
Qed.
(** C49: IPv4: a new header through header_mut() that keeps version, IHL and total
    length leaves a packet with that header and the old payload. *)
Lemma c49_v4_header : forall b new, v4_new b = Ok b -> 5 <= nthN b 0 mod 16 ->
  len new = nthN b 0 mod 16 * 4 -> nthN new 0 = nthN b 0 -> wire16 new 2 = wire16 b 2 ->
  let b' := span_write (Span 0 (nthN b 0 mod 16 * 4)) new b in
  v4_new b' = Ok b' /\ v4_header b' = Ok new /\ v4_payload b' = v4_payload b.
Proof.
  intros b new Hn Hi Hnew H0 H2 b'. pose proof (c07_v4 b Hn) as Q. cbv zeta in Q.
  set (h := nthN b 0 mod 16 * 4) in *. set (n := N.max h (wire16 b 2)) in *.
  destruct Q as (Hhn & _ & _ & Hp & _).
  assert (Eb : b' = new ++ dropN h b) by reflexivity.
  assert (Hw : nthN b' 0 = nthN b 0) by (rewrite Eb, nthN_app1 by lia; exact H0).
  assert (Ht : wire16 b' 2 = wire16 b 2) by (unfold wire16 in *; rewrite Eb, !nthN_app1 by lia; exact H2).
  assert (Hl : len b' = len b) by (rewrite Eb; autorewrite with len; lia).
  assert (Hn' : v4_new b' = Ok b').
  { apply c02_v4_new_iff in Hn. destruct Hn as (_ & H1 & H3 & H4 & H5). apply c02_v4_new_iff.
    rewrite Hw, Ht, Hl. repeat split; assumption. }
  pose proof (c07_v4 b' Hn') as Q. cbv zeta in Q. rewrite Hw, Ht in Q. fold h in Q. fold n in Q.
  destruct Q as (_ & _ & Hh' & Hp' & _). split; [exact Hn'|]. rewrite Hh', Hp', Hp, Eb. rewrite <- Hnew. rewrite takeN_app_len.
  split; [reflexivity|]. f_equal. rewrite Hnew.
  rewrite takeN_app2 by lia. rewrite dropN_app2 by lia. rewrite takeN_dropN_comm.
  rewrite Hnew. replace (h - h) with 0 by lia. replace (h + (n - h)) with n by lia. reflexivity.
Qed.
(** C49: with an IHL below five (accepted by the parser) the payload slice lies
    over the header fields: writing payload_mut() changes the addresses. *)
Lemma c49_v4_short_header_refuted : exists b h p new, v4_new b = Ok b /\ is_bytes b /\
  v4_split_mut b = Ok (h, p) /\ len new = s_len p /\ is_bytes new /\
  let b' := span_write p new b in
  v4_source b' <> v4_source b /\ v4_destination b' <> v4_destination b.
Proof.
  exists [64; 0; 0; 20; 0; 0; 0; 0; 64; 17; 0; 0; 10; 0; 0; 1; 10; 0; 0; 2], (Span 0 0), (Span 0 20),
    [64; 0; 0; 20; 0; 0; 0; 0; 64; 17; 0; 0; 10; 0; 0; 9; 10; 0; 0; 8].
  repeat split; try reflexivity; try (repeat constructor); vm_compute; discriminate.
Qed.
(** C49: UDP: payload_mut() is what the length field says. *)
Lemma c49_udp : forall b, udp_new b = Ok b ->
  let n := N.max 8 (wire16 b 4) in
  udp_split_mut b = Ok (Span 0 8, Span 8 (n - 8)) /\ udp_as_mut b = Ok (Span 0 n) /\
  rewrites (Span 0 8) b /\
  payload_rewrites udp_new udp_header udp_payload (Span 8 (n - 8)) b.
Proof.
  intros b Hn n. pose proof (c07_udp b Hn) as Q. cbv zeta in Q. fold n in Q.
  destruct Q as (Hhn & _ & Hh & Hp & _ & _ & Hhs & Hps & Hz & _).
  split.
  { unfold udp_split_mut. rewrite Hps. cbn [bind]. autorewrite with len.
    destruct (N.ltb_spec (len b) (8 + (N.min n (len b) - 8))); [lia|]. unfold span_to, whole. cbn [s_at s_len].
    destruct (N.leb_spec (8 + (N.min n (len b) - 8)) (len b)); [|lia]. cbn [bind]. unfold split_at_mut. cbn [s_at s_len].
    destruct (N.leb_spec 8 (8 + (N.min n (len b) - 8))); [|lia]. repeat f_equal; lia. }
  split.
  { unfold udp_as_mut. rewrite Hz. cbn [bind]. unfold span_to, whole. cbn [s_at s_len].
    destruct (N.leb_spec n (len b)); [reflexivity|lia]. }
  split; [apply span_rewrites; cbn [s_at s_len]; lia|].
  intros new Hnew b'. cbn [s_at s_len] in *. assert (Eb : b' = patch 8 new b) by (apply span_write_patch; exact Hnew).
  assert (Hin : 8 + len new <= len b) by lia.
  assert (Ht : wire16 b' 4 = wire16 b 4) by (rewrite Eb; apply wire16_patch_before; lia).
  assert (Hl : len b' = len b) by (rewrite Eb; apply len_patch; lia).
  assert (Hn' : udp_new b' = Ok b').
  { apply udp_new_iff in Hn. destruct Hn as (_ & H1 & H2). apply udp_new_iff.
    rewrite Ht, Hl. repeat split; assumption. }
  pose proof (c07_udp b' Hn') as Q. cbv zeta in Q. rewrite Ht in Q. fold n in Q.
  destruct Q as (_ & _ & Hh' & Hp' & _).
  split; [exact Hn'|]. split; [rewrite Hh', Hh, Eb, patch_before by lia; reflexivity|]. split.
  - rewrite Hp'. f_equal. replace n with (8 + len new) by lia. rewrite Eb. apply patch_read. lia.
  - rewrite Eb, <- Hnew. apply patch_only_changes. lia.
Qed.
(** C49: TCP, data offset of at least five words: payload_mut() is everything
    after the header. *)
Lemma c49_tcp : forall E b, rust_slice b -> tcp_new b = Ok b -> 5 <= nthN b 12 / 16 ->
  let h := nthN b 12 / 16 * 4 in
  tcp_split_mut b = Ok (Span 0 h, Span h (len b - h)) /\ tcp_as_mut E b = Ok (whole b) /\
  rewrites (Span 0 h) b /\
  payload_rewrites tcp_new tcp_header tcp_payload (Span h (len b - h)) b.
Proof.
  intros E b Hb Hn Hi h. pose proof (c07_tcp E b Hb Hn) as Q. cbv zeta in Q. fold h in Q.
  destruct Q as (Hhn & _ & Hh & Hp & _ & _ & Hhs & Hps & Hz & _).
  apply tcp_new_iff in Hn. destruct Hn as (_ & H20 & _).
  split.
  { unfold tcp_split_mut. rewrite tcp_offset_ok by lia. cbn [bind]. fold h. unfold split_at_mut, whole. cbn [s_at s_len].
    destruct (N.leb_spec h (len b)); [reflexivity|lia]. }
  split.
  { unfold tcp_as_mut. rewrite Hz. cbn [bind]. unfold span_to, whole. cbn [s_at s_len].
    destruct (N.leb_spec (len b) (len b)); [reflexivity|lia]. }
  split; [apply span_rewrites; cbn [s_at s_len]; lia|].
  apply rest_rewrites; [lia|]. intros new Hnew b'.
  assert (Hl : len b' = len b) by (apply len_patch; lia).
  assert (Hw : nthN b' 12 = nthN b 12) by (apply nthN_patch_out; lia).
  split; [apply tcp_new_iff; rewrite Hw, Hl; fold h; repeat split; lia|].
  rewrite Hh. unfold tcp_header, tcp_payload. rewrite tcp_split_ok by (rewrite ?Hw; fold h; lia). cbn [bind]. rewrite Hw. fold h.
  split; [|reflexivity]. f_equal. apply patch_before. lia.
Qed.
(** C49: ICMP, the general packet and the echo message. *)
Lemma c49_icmp : forall E b, rust_slice b -> icmp_new b = Ok b ->
  icmp_split_mut b = Ok (Span 0 4, Span 4 (len b - 4)) /\ icmp_as_mut E b = Ok (whole b) /\
  rewrites (Span 0 4) b /\
  payload_rewrites icmp_new icmp_header icmp_payload (Span 4 (len b - 4)) b.
Proof.
  intros E b Hb Hn. destruct (c07_icmp E b Hb Hn) as (_ & _ & _ & _ & Hl & _ & _ & Hs & _).
  autorewrite with len in Hl. assert (H4 : 4 <= len b) by lia.
  unfold icmp_split_mut, icmp_as_mut, split_at_mut. rewrite Hs. cbn [bind]. unfold span_to, whole. cbn [s_at s_len].
  destruct (N.leb_spec 4 (len b)); [|lia]. destruct (N.leb_spec (len b) (len b)); [|lia].
  split; [reflexivity|]. split; [reflexivity|]. split; [apply span_rewrites; cbn [s_at s_len]; lia|].
  apply rest_rewrites; [lia|]. intros new Hnew b'.
  assert (Hb' : len b' = len b) by (apply len_patch; lia).
  split; [apply c05_icmp_new; lia|]. unfold icmp_header, icmp_payload, icmp_split.
  rewrite !split_at_ok by lia. cbn [bind]. split; [|reflexivity]. f_equal. apply patch_before. lia.
Qed.
(** The pattern of the typed ICMP messages: header [k] bytes, payload from byte 8. *)
Lemma typed_rewrites parse min types (header payload : bytes -> res bytes) k b :
  typed_parser parse min types -> 8 <= min -> k <= 8 ->
  (forall c, 8 <= len c -> header c = Ok (takeN k c) /\ payload c = Ok (dropN 8 c)) ->
  parse b = Ok b ->
  rewrites (Span 0 k) b /\ payload_rewrites parse header payload (Span 8 (len b - 8)) b.
Proof.
  intros Ht Hm Hk Hs Hn. destruct (typed_inv _ _ _ _ _ Ht Hn) as (_ & H & Hi).
  split; [apply span_rewrites; cbn [s_at s_len]; lia|].
  apply rest_rewrites; [lia|]. intros new Hnew b'.
  assert (Hb' : len b' = len b) by (apply len_patch; lia).
  split.
  - destruct (Ht b') as (_ & H2 & _). apply H2; [lia|]. unfold b'. rewrite nthN_patch_out by lia. exact Hi.
  - destruct (Hs b) as [H1 _]; [lia|]. destruct (Hs b') as [H1' H2']; [lia|]. rewrite H1, H1'. split; [|exact H2'].
    f_equal. replace k with (N.min k 8) by lia. rewrite <- !takeN_takeN. f_equal. apply patch_before. lia.
Qed.
Lemma split8 c : 8 <= len c -> split_at c 8 = Ok (takeN 8 c, dropN 8 c).
Proof. intros H. apply split_at_ok. exact H. Qed.
Lemma split_mut8 b : 8 <= len b -> split_at_mut (whole b) 8 = Ok (Span 0 8, Span 8 (len b - 8)).
Proof. intros H. unfold split_at_mut, whole. cbn [s_at s_len]. destruct (N.leb_spec 8 (len b)); [reflexivity|lia]. Qed.
(** C49: echo. *)
Lemma c49_echo : forall E b, rust_slice b -> echo_new b = Ok b ->
  echo_split_mut b = Ok (Span 0 8, Span 8 (len b - 8)) /\ echo_as_mut E b = Ok (whole b) /\
  rewrites (Span 0 8) b /\
  payload_rewrites echo_new echo_header echo_payload (Span 8 (len b - 8)) b.
Proof.
  intros E b Hb Hn. destruct (c07_echo E b Hb Hn) as (_ & _ & _ & _ & Hl & _ & _ & Hs & _).
  autorewrite with len in Hl. split; [apply split_mut8; lia|]. split.
  { unfold echo_as_mut. rewrite Hs. cbn [bind]. unfold span_to, whole. cbn [s_at s_len].
    destruct (N.leb_spec (len b) (len b)); [reflexivity|lia]. }
  apply (typed_rewrites _ _ _ _ _ 8 _ c05_echo_new); try lia; [|exact Hn].
  intros c Hc. unfold echo_header, echo_payload, echo_split. rewrite split8 by exact Hc. split; reflexivity.
Qed.
(** C49: information: as_mut() stops after the 8 header bytes although
    payload_mut() goes to the end of the buffer. *)
Lemma c49_information : forall E b, information_new b = Ok b ->
  information_split_mut b = Ok (Span 0 8, Span 8 (len b - 8)) /\ information_as_mut E b = Ok (Span 0 8) /\
  rewrites (Span 0 8) b /\
  payload_rewrites information_new information_header information_payload (Span 8 (len b - 8)) b.
Proof.
  intros E b Hn. destruct (c07_information E b Hn) as (_ & _ & _ & _ & Hl & _ & _ & Hs & _).
  autorewrite with len in Hl. split; [apply split_mut8; lia|]. split.
  { unfold information_as_mut. rewrite Hs. cbn [bind]. unfold span_to, whole. cbn [s_at s_len].
    destruct (N.leb_spec 8 (len b)); [reflexivity|lia]. }
  apply (typed_rewrites _ _ _ _ _ 8 _ c05_information_new); try lia; [|exact Hn].
  intros c Hc. unfold information_header, information_payload, information_split. rewrite split8 by exact Hc. split; reflexivity.
Qed.
(** C49: timestamp: header_mut() is 8 bytes, so payload_mut() starts with the
    three timestamps; as_mut() is the 20 bytes. *)
Lemma c49_timestamp : forall E b, timestamp_new b = Ok b ->
  timestamp_split_mut b = Ok (Span 0 8, Span 8 (len b - 8)) /\ timestamp_as_mut E b = Ok (Span 0 20) /\
  rewrites (Span 0 8) b /\
  payload_rewrites timestamp_new timestamp_header timestamp_payload (Span 8 (len b - 8)) b.
Proof.
  intros E b Hn. destruct (c07_timestamp E b Hn) as (_ & _ & _ & _ & Hl & _ & _ & Hs & _).
  destruct (typed_inv _ _ _ _ _ c05_timestamp_new Hn) as (_ & H20 & _).
  split; [apply split_mut8; lia|]. split.
  { unfold timestamp_as_mut. rewrite Hs. cbn [bind]. unfold span_to, whole. cbn [s_at s_len].
    destruct (N.leb_spec 20 (len b)); [reflexivity|lia]. }
  apply (typed_rewrites _ _ _ _ _ 8 _ c05_timestamp_new); try lia; [|exact Hn].
  intros c Hc. unfold timestamp_header, timestamp_payload, timestamp_split. rewrite split8 by exact Hc. split; reflexivity.
Qed.
(** C49: redirect message. *)
Lemma c49_redirect_message : forall b, redirect_message_new b = Ok b ->
  redirect_message_split_mut b = Ok (Span 0 8, Span 8 (len b - 8)) /\ rewrites (Span 0 8) b /\
  payload_rewrites redirect_message_new redirect_message_header redirect_message_payload (Span 8 (len b - 8)) b.
Proof.
  intros b Hn. destruct (typed_inv _ _ _ _ _ c05_redirect_message_new Hn) as (_ & H & _).
  split; [apply split_mut8; lia|].
  apply (typed_rewrites _ _ _ _ _ 8 _ c05_redirect_message_new); try lia; [|exact Hn].
  intros c Hc. unfold redirect_message_header, redirect_message_payload, redirect_message_split. rewrite split8 by exact Hc. split; reflexivity.
Qed.
(** C49: parameter problem: header_mut() is 5 bytes; bytes 5..8 are in neither slice. *)
Lemma c49_parameter_problem : forall b, parameter_problem_new b = Ok b ->
  parameter_problem_split_mut b = Ok (Span 0 5, Span 8 (len b - 8)) /\ rewrites (Span 0 5) b /\
  payload_rewrites parameter_problem_new parameter_problem_header parameter_problem_payload (Span 8 (len b - 8)) b.
Proof.
  intros b Hn. destruct (typed_inv _ _ _ _ _ c05_parameter_problem_new Hn) as (_ & H & _).
  split; [unfold parameter_problem_split_mut; rewrite split_mut8 by lia; reflexivity|].
  apply (typed_rewrites _ _ _ _ _ 5 _ c05_parameter_problem_new); try lia; [|exact Hn].
  intros c Hc. unfold parameter_problem_header, parameter_problem_payload, parameter_problem_split. rewrite split8 by exact Hc.
  cbn [bind]. rewrite slice_to_ok by (autorewrite with len; lia). cbn [bind]. rewrite takeN_takeN. split; reflexivity.
Qed.
(** C49: previous: header_mut() is 4 bytes; bytes 4..8 are in neither slice. *)
Lemma c49_previous : forall b, previous_new b = Ok b ->
  previous_split_mut b = Ok (Span 0 4, Span 8 (len b - 8)) /\ rewrites (Span 0 4) b /\
  payload_rewrites previous_new previous_header previous_payload (Span 8 (len b - 8)) b.
Proof.
  intros b Hn. destruct (typed_inv _ _ _ _ _ c05_previous_new Hn) as (_ & H & _).
  split; [unfold previous_split_mut; rewrite split_mut8 by lia; reflexivity|].
  apply (typed_rewrites _ _ _ _ _ 4 _ c05_previous_new); try lia; [|exact Hn].
  intros c Hc. unfold previous_header, previous_payload, previous_split. rewrite split8 by exact Hc.
  cbn [bind]. rewrite slice_to_ok by (autorewrite with len; lia). cbn [bind]. rewrite takeN_takeN. split; reflexivity.
Qed.
(** C49: TCP and IPv4 options with a length byte of at least two: payload_mut() is
    the option's data; the rest of the option area is out of reach. *)
Lemma option_rewrites parse (header payload : bytes -> res bytes) l b :
  2 <= l <= len b ->
  (forall c, len c = len b -> nthN c 0 = nthN b 0 -> nthN c 1 = nthN b 1 ->
     parse c = Ok c /\ header c = Ok (takeN 2 c) /\ payload c = Ok (dropN 2 (takeN l c))) ->
  payload_rewrites parse header payload (Span 2 (l - 2)) b.
Proof.
  intros Hl H new Hnew b'. cbn [s_at s_len] in *. assert (Eb : b' = patch 2 new b) by (apply span_write_patch; exact Hnew).
  destruct (H b) as (_ & H1 & _); [reflexivity|reflexivity|reflexivity|].
  destruct (H b') as (H2 & H3 & H4);
    [rewrite Eb; apply len_patch; lia|rewrite Eb; apply nthN_patch_out; lia|rewrite Eb; apply nthN_patch_out; lia|].
  split; [exact H2|]. split; [rewrite H1, H3, Eb, patch_before by lia; reflexivity|]. split.
  - rewrite H4. f_equal. replace l with (2 + len new) by lia. rewrite Eb. apply patch_read. lia.
  - rewrite Eb, <- Hnew. apply patch_only_changes. lia.
Qed.
Lemma opt_split_ok b l : 2 <= l <= len b -> (let* s := slice_to b l in split_at s 2) = Ok (takeN 2 b, dropN 2 (takeN l b)).
Proof.
  intros H. rewrite slice_to_ok by lia. cbn [bind]. rewrite split_at_ok by (autorewrite with len; lia).
  rewrite takeN_takeN. replace (N.min 2 l) with 2 by lia. reflexivity.
Qed.
Lemma opt_split_mut_ok b l : 2 <= l <= len b -> (let* s := span_to (whole b) l in split_at_mut s 2) = Ok (Span 0 2, Span 2 (l - 2)).
Proof.
  intros H. unfold span_to, whole. cbn [s_at s_len]. destruct (N.leb_spec l (len b)); [|lia]. cbn [bind].
  unfold split_at_mut. cbn [s_at s_len]. destruct (N.leb_spec 2 l); [reflexivity|lia].
Qed.
(** C49: TCP option. *)
Lemma c49_tcp_option : forall b, tcpopt_new b = Ok b -> 2 <= nthN b 0 -> 2 <= nthN b 1 ->
  let l := nthN b 1 in
  tcpopt_split_mut b = Ok (Span 0 2, Span 2 (l - 2)) /\ rewrites (Span 0 2) b /\
  payload_rewrites tcpopt_new tcpopt_header tcpopt_payload (Span 2 (l - 2)) b.
Proof.
  intros b Hn Hk H2 l.
  assert (Hb : 1 < len b).
  { destruct (N.ltb_spec 1 (len b)); [assumption|]. unfold l in *. rewrite nthN_out in H2 by lia. lia. }
  assert (HL : forall c, len c = len b -> nthN c 0 = nthN b 0 -> nthN c 1 = nthN b 1 -> tcpopt_length c = Ok l).
  { intros c H1 H3 H4. rewrite tcpopt_length_eq by lia. rewrite H3. destruct (N.ltb_spec (nthN b 0) 2); [lia|].
    rewrite index_ok by lia. rewrite H4. reflexivity. }
  assert (Hl : l <= len b).
  { unfold tcpopt_new, tcpopt_header_min in Hn. destruct (len b <? 1); [discriminate|]. rewrite HL in Hn by reflexivity.
    cbn [bind] in Hn. destruct (N.ltb_spec (len b) l); [discriminate|assumption]. }
  unfold tcpopt_split_mut. rewrite HL by reflexivity. cbn [bind]. destruct (N.eqb_spec l 1); [unfold l in *; lia|].
  rewrite opt_split_mut_ok by (unfold l in *; lia). split; [reflexivity|]. split; [apply span_rewrites; cbn [s_at s_len]; lia|].
  apply option_rewrites; [unfold l in *; lia|]. intros c H1 H3 H4. specialize (HL c H1 H3 H4).
  unfold tcpopt_new, tcpopt_header_min, tcpopt_header, tcpopt_payload, tcpopt_split. rewrite HL. cbn [bind].
  destruct (N.ltb_spec (len c) 1); [lia|]. destruct (N.ltb_spec (len c) l); [lia|]. destruct (N.eqb_spec l 1); [contradiction|].
  rewrite opt_split_ok by (unfold l in *; lia). repeat split.
Qed.
(** C49: IPv4 option (the low five bits of the first byte are the number). *)
Lemma c49_v4_option : forall b, v4opt_new b = Ok b -> 2 <= nthN b 0 mod 32 -> 2 <= nthN b 1 ->
  let l := nthN b 1 in
  v4opt_split_mut b = Ok (Span 0 2, Span 2 (l - 2)) /\ rewrites (Span 0 2) b /\
  payload_rewrites v4opt_new v4opt_header v4opt_payload (Span 2 (l - 2)) b.
Proof.
  intros b Hn Hk H2 l.
  assert (Hb : 1 < len b).
  { destruct (N.ltb_spec 1 (len b)); [assumption|]. unfold l in *. rewrite nthN_out in H2 by lia. lia. }
  assert (HL : forall c, len c = len b -> nthN c 0 = nthN b 0 -> nthN c 1 = nthN b 1 -> v4opt_length c = Ok l).
  { intros c H1 H3 H4. rewrite v4opt_length_eq by lia. rewrite H3. destruct (N.ltb_spec (nthN b 0 mod 32) 2); [lia|].
    rewrite index_ok by lia. rewrite H4. reflexivity. }
  assert (Hl : l <= len b).
  { unfold v4opt_new, v4opt_header_min in Hn. destruct (len b <? 1); [discriminate|]. rewrite HL in Hn by reflexivity.
    cbn [bind] in Hn. destruct (N.ltb_spec (len b) l); [discriminate|assumption]. }
  unfold v4opt_split_mut. rewrite HL by reflexivity. cbn [bind]. destruct (N.eqb_spec l 1); [unfold l in *; lia|].
  rewrite opt_split_mut_ok by (unfold l in *; lia). split; [reflexivity|]. split; [apply span_rewrites; cbn [s_at s_len]; lia|].
  apply option_rewrites; [unfold l in *; lia|]. intros c H1 H3 H4. specialize (HL c H1 H3 H4).
  unfold v4opt_new, v4opt_header_min, v4opt_header, v4opt_payload, v4opt_split. rewrite HL. cbn [bind].
  destruct (N.ltb_spec (len c) 1); [lia|]. destruct (N.ltb_spec (len c) l); [lia|]. destruct (N.eqb_spec l 1); [contradiction|].
  rewrite opt_split_ok by (unfold l in *; lia). repeat split.
Qed.
(** The setters of the model run on [header_mut()], the first slice of split_mut(). *)
Lemma header_mut_through split split_mut f b h p :
  same_slices b (split_mut b) (split b) -> split_mut b = Ok (h, p) -> s_at h = 0 -> s_len h <= len b ->
  header_mut split f b = span_run h f b.
Proof.
  intros HS HM H0 Hl. rewrite HM in HS. destruct HS as [HS _]. unfold header_mut, span_run. rewrite HS.
  destruct (f (span_read h b)) as [new r]. f_equal. unfold span_write. rewrite H0.
  change (takeN 0 b) with (@nil N). cbn [app]. f_equal. f_equal.
  unfold span_read. rewrite H0. change (dropN 0 b) with b. autorewrite with len. lia.
Qed.
(** C49: every setter of IPv4, UDP and TCP that goes through header_mut() is the
    same write on the first slice of split_mut(): it cannot reach the payload. *)
Lemma c49_setters : forall b f,
  (v4_no_payload b = Ok b -> exists h p, v4_split_mut b = Ok (h, p) /\ header_mut v4_split f b = span_run h f b) /\
  (udp_no_payload b = Ok b -> exists h p, udp_split_mut b = Ok (h, p) /\ header_mut udp_split f b = span_run h f b) /\
  (tcp_new b = Ok b -> exists h p, tcp_split_mut b = Ok (h, p) /\ header_mut tcp_split f b = span_run h f b).
Proof.
  intros b f. destruct (c49_split_mut b (V4 b)) as (_ & HV & _ & _ & HU & HT & _).
  split; [|split]; intros Hn.
  - assert (X : exists h p, v4_split_mut b = Ok (h, p) /\ s_at h = 0 /\ s_len h <= len b).
    { apply v4_no_payload_iff in Hn. destruct Hn as (_ & H1 & _ & H2). unfold v4_split_mut.
      rewrite v4_ihl_ok by lia. rewrite v4_payload_size_ok by lia. cbn [bind].
      set (h := nthN b 0 mod 16 * 4) in *. set (q := wire16 b 2 - h).
      destruct (N.ltb_spec (len b) (h + q)).
      - cbn [bind]. unfold split_at_mut, whole. cbn [s_at s_len]. destruct (N.leb_spec h (len b)); [|lia].
        eexists _, _. split; [reflexivity|]. cbn [s_at s_len]. lia.
      - unfold span_to, whole. cbn [s_at s_len]. destruct (N.leb_spec (h + q) (len b)); [|lia]. cbn [bind].
        unfold split_at_mut. cbn [s_at s_len]. destruct (N.leb_spec h (h + q)); [|lia].
        eexists _, _. split; [reflexivity|]. cbn [s_at s_len]. lia. }
    destruct X as (h & p & H1 & H2 & H3). exists h, p. split; [exact H1|].
    eapply (header_mut_through v4_split v4_split_mut); eassumption.
  - assert (X : exists h p, udp_split_mut b = Ok (h, p) /\ s_at h = 0 /\ s_len h <= len b).
    { assert (H1 : 8 <= len b).
      { destruct (N.ltb_spec (len b) 8); [|lia]. destruct (c03_udp_no_payload b) as [_ H1]. rewrite H1 in Hn by lia. discriminate. }
      unfold udp_split_mut. rewrite udp_payload_size_ok by lia. cbn [bind]. set (q := wire16 b 4 - 8).
      destruct (N.ltb_spec (len b) (8 + q)).
      - cbn [bind]. unfold split_at_mut, whole. cbn [s_at s_len]. destruct (N.leb_spec 8 (len b)); [|lia].
        eexists _, _. split; [reflexivity|]. cbn [s_at s_len]. lia.
      - unfold span_to, whole. cbn [s_at s_len]. destruct (N.leb_spec (8 + q) (len b)); [|lia]. cbn [bind].
        unfold split_at_mut. cbn [s_at s_len]. destruct (N.leb_spec 8 (8 + q)); [|lia].
        eexists _, _. split; [reflexivity|]. cbn [s_at s_len]. lia. }
    destruct X as (h & p & H1 & H2 & H3). exists h, p. split; [exact H1|].
    eapply (header_mut_through udp_split udp_split_mut); eassumption.
  - assert (X : exists h p, tcp_split_mut b = Ok (h, p) /\ s_at h = 0 /\ s_len h <= len b).
    { apply tcp_new_iff in Hn. destruct Hn as (_ & H1 & H2). unfold tcp_split_mut. rewrite tcp_offset_ok by lia. cbn [bind].
      unfold split_at_mut, whole. cbn [s_at s_len]. destruct (N.leb_spec (nthN b 12 / 16 * 4) (len b)); [|lia].
      eexists _, _. split; [reflexivity|]. cbn [s_at s_len]. lia. }
    destruct X as (h & p & H1 & H2 & H3). exists h, p. split; [exact H1|].
    eapply (header_mut_through tcp_split tcp_split_mut); eassumption.
Qed.
Example c49_example :
  (* an IPv4 datagram of 24 bytes followed by two bytes that are not part of it *)
  let b := [69; 0; 0; 24; 0; 1; 0; 0; 64; 17; 0; 0; 10; 0; 0; 1; 10; 0; 0; 2; 1; 2; 3; 4; 99; 98] in
  v4_new b = Ok b /\ v4_split_mut b = Ok (Span 0 20, Span 20 4) /\
  v4_payload (span_write (Span 20 4) [5; 6; 7; 8] b) = Ok [5; 6; 7; 8] /\
  dropN 24 (span_write (Span 20 4) [5; 6; 7; 8] b) = [99; 98] /\
  tcpopt_split_mut [2; 4; 5; 180; 1] = Ok (Span 0 2, Span 2 2) /\
  previous_split_mut [3; 1; 0; 0; 9; 9; 9; 9; 7] = Ok (Span 0 4, Span 8 1).
Proof. vm_compute. repeat split. Qed.
