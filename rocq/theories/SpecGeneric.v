(** * SpecGeneric: what a third-party implementation of the Buffer trait promises,
      and builder programs over it. *)
From Verif Require Import Base Enums Buffer Ether Ipv4 Ip Udp Tcp Icmp Builders Generic Spec SpecProfile.

(** The documentation of the trait (src/buffer/mod.rs:16-72) as a contract.
    [holds t before layer]: the buffer [t] has the bytes [before ++ layer], of which
    [layer] is the current layer.  [cap] is how many bytes it certainly takes;
    [refused] are the errors next and more may give beyond that. *)
Record lawful {T} (I : impl T) (E : env) (cap : N) (refused : error -> Prop) (holds : T -> bytes -> bytes -> Prop) : Prop := {
  (** into_inner gives all the bytes *)
  law_into_inner : forall t before layer, holds t before layer -> im_into_inner I t = Ok (before ++ layer);
  (** offset() counts from the beginning of the whole buffer *)
  law_offset : forall t before layer, holds t before layer -> im_offset I t = len before;
  law_length : forall t before layer, holds t before layer -> im_length I t = len layer;
  (** data() and data_mut() are the current layer; code using the latter changes it only *)
  law_data : forall t before layer, holds t before layer -> im_data I E t = Ok layer;
  law_data_mut : forall t before layer f, holds t before layer -> (forall b, len (fst (f b)) = len b) ->
    exists t', im_data_mut I E f t = (t', snd (f layer)) /\ holds t' before (fst (f layer));
  (** next: a new layer, zeroed, behind all there is *)
  law_next : forall t before layer n, holds t before layer -> len before + len layer + n <= ISIZE_MAX ->
    (exists t', im_next I E n t = (t', Ok tt) /\ holds t' (before ++ layer) (zeros n)) \/
    (exists t' e, im_next I E n t = (t', Err e) /\ refused e /\ cap < len before + len layer + n);
  (** more: the current layer grows, zeroed *)
  law_more : forall t before layer n, holds t before layer -> len before + len layer + n <= ISIZE_MAX ->
    (exists t', im_more I E n t = (t', Ok tt) /\ holds t' before (layer ++ zeros n)) \/
    (exists t' e, im_more I E n t = (t', Err e) /\ refused e /\ cap < len before + len layer + n) }.

(** ** The programs of SpecProfile.v over any implementation *)
Section Programs.
Context {T : Type} (I : impl T).
Definition gopen (E : env) (o : opening) (buf : T) : res (gbuilder (T:=T)) :=
  match o with
  | OpEther => gether_with I E buf
  | OpIp | OpV6 => gip_with buf
  | OpV4 => gv4_with I E buf
  | OpUdp => gudp_with I E buf
  | OpTcp => gtcp_with I E buf
  | OpIcmp => gicmp_with buf
  | OpEcho => gecho_with I E buf
  | OpInformation => ginformation_with I E buf
  | OpTimestamp => gtimestamp_with I E buf
  end.
Definition gcall1 (E : env) (c : call) (b : gbuilder (T:=T)) : res gbuilder :=
  match c with
  | CallEther o => gether_run1 I E o b
  | CallEtherIp => gether_ip I E b
  | CallIpV4 => gip_v4 I E b
  | CallIpV6 => gip_v6 b
  | CallV4 o => gv4_run1 I E o b
  | CallV4Udp => gv4_udp I E b
  | CallV4Tcp => gv4_tcp I E b
  | CallV4Icmp => gv4_icmp I E b
  | CallUdp o => gudp_run1 I E o b
  | CallTcp o => gtcp_run1 I E o b
  | CallIcmpEcho => gicmp_echo I E b
  | CallIcmpInformation => gicmp_information I E b
  | CallIcmpTimestamp => gicmp_timestamp I E b
  | CallEcho o => gecho_run1 I E o b
  | CallInformation o => ginformation_run1 I E o b
  | CallTimestamp o => gtimestamp_run1 I E o b
  | CallFinalizer f => Ok (gwith_fin b (fin_add (gb_fin b) f))
  | CallEdit parse f => match gbuilder_as_packet_mut I E parse f b with
                        | (b', Ok _) => Ok b'
                        | (_, Err e) => Err e
                        | (_, Panic) => Panic
                        end
  end.
Definition gclose (E : env) (c : closing) (b : gbuilder (T:=T)) : res bytes :=
  match c with
  | ClEther => gether_build I b
  | ClIp => gip_build b
  | ClV6 => gv6_build b
  | ClV4 => gv4_build I E b
  | ClUdp => gudp_build I E b
  | ClTcp => gtcp_build I E b
  | ClIcmp => gicmp_build b
  | ClEcho => gecho_build I E b
  | ClInformation => ginformation_build I E b
  | ClTimestamp => gtimestamp_build I E b
  end.
Definition gprogram (E : env) (o : opening) (cs : list call) (c : closing) (buf : T) : res bytes :=
  let* b := gopen E o buf in let* b := grun (gcall1 E) cs b in gclose E c b.
Definition gpreview (E : env) (o : opening) (cs : list call) (parse : bytes -> res bytes) (buf : T) : res bytes :=
  let* b := gopen E o buf in let* b := grun (gcall1 E) cs b in gbuilder_as_packet I E parse b.
End Programs.

(** In-place edits keep the length, as everything done through a [&mut [u8]] does;
    the user's finalizer functions may be anything. *)
Definition in_place (c : call) : Prop :=
  match c with CallEdit _ f => forall b, len (fst (f b)) = len b | _ => True end.

(** ** A third-party buffer, for the example *)
(** Two vectors, the bytes before the layer and the layer, with a limit on the total. *)
Record bounded := Bounded { bd_before : bytes; bd_layer : bytes; bd_limit : N }.
Definition bounded_impl : impl bounded := {|
  im_into_inner := fun t => Ok (bd_before t ++ bd_layer t);
  im_next := fun E n t => if bd_limit t <? len (bd_before t) + len (bd_layer t) + n then (t, Err SmallBuffer)
                          else (Bounded (bd_before t ++ bd_layer t) (zeros n) (bd_limit t), Ok tt);
  im_more := fun E n t => if bd_limit t <? len (bd_before t) + len (bd_layer t) + n then (t, Err SmallBuffer)
                          else (Bounded (bd_before t) (bd_layer t ++ zeros n) (bd_limit t), Ok tt);
  im_offset := fun t => len (bd_before t);
  im_length := fun t => len (bd_layer t);
  im_data := fun E t => Ok (bd_layer t);
  im_data_mut := fun E f t => let (l, r) := f (bd_layer t) in (Bounded (bd_before t) l (bd_limit t), r) |}.
Definition bounded_holds (limit : N) (t : bounded) (before layer : bytes) : Prop := t = Bounded before layer limit.
