(** * SpecMachineIcmp: ICMP information and timestamp messages in use as records
    of fields, for C71 (see SpecMachine). *)
From Verif Require Import Base Enums Icmp Spec SpecCalls SpecMachine Mutable.

(** ** Information: the eight bytes of the message, and what follows them in the
    buffer (the crate's [payload()]) *)
Record information_packet := { np_header : icmp_fields; np_ident : N; np_seq : N; np_behind : bytes }.
Definition information_message (c : information_packet) : bytes := ident_wire (np_header c) (np_ident c) (np_seq c).
Definition information_bytes (c : information_packet) : bytes := information_message c ++ np_behind c.
Definition information_packet_ok (c : information_packet) : Prop :=
  icmp_fields_ok (np_header c) /\ u16 (np_ident c) /\ u16 (np_seq c) /\ is_bytes (np_behind c).
(** make_request and make_reply store the types of an echo message (C18). *)
Definition information_kind (k : N) (c : information_packet) : information_packet :=
  {| np_header := {| cf_type := k; cf_code := cf_code (np_header c); cf_checksum := cf_checksum (np_header c) |};
     np_ident := np_ident c; np_seq := np_seq c; np_behind := np_behind c |}.
Definition information_assign (o : information_setter) (c : information_packet) : information_packet * res unit :=
  (match o with
   | InfoMakeRequest => information_kind 8 c
   | InfoMakeReply => information_kind 0 c
   | InfoSetIdentifier v => {| np_header := np_header c; np_ident := v; np_seq := np_seq c; np_behind := np_behind c |}
   | InfoSetSequence v => {| np_header := np_header c; np_ident := np_ident c; np_seq := v; np_behind := np_behind c |}
   end, Ok tt).
Definition information_store (k : N) (c : information_packet) : information_packet :=
  {| np_header := {| cf_type := cf_type (np_header c); cf_code := cf_code (np_header c); cf_checksum := k |};
     np_ident := np_ident c; np_seq := np_seq c; np_behind := np_behind c |}.
(** The checksum of the eight bytes: what follows is left out. *)
Definition information_sum (c : information_packet) : information_packet :=
  information_store (nonzero_checksum (information_message (information_store 0 c))) c.
Definition information_do (a : action information_setter Empty_set) (c : information_packet) : information_packet * res unit :=
  match a with
  | Call o => information_assign o c
  | Checked ops => (information_sum (assigns information_assign ops c), Ok tt)
  | Fill new => if len new =? len (np_behind c)
                then ({| np_header := np_header c; np_ident := np_ident c; np_seq := np_seq c; np_behind := new |}, Ok tt)
                else (c, Panic)
  | Extra x => match x with end
  end.
Definition information_act (E : env) (a : action information_setter Empty_set) : mut :=
  match a with
  | Call o => information_apply o
  | Checked ops => information_checked E ops
  | Fill new => fill information_split_mut new
  | Extra x => match x with end
  end.
Definition information_action_ok (a : action information_setter Empty_set) : Prop := action_ok information_setter_ok (fun _ => True) a.

(** ** Timestamp: the twenty bytes of the message, and what follows them.  The
    crate's [payload()] starts after eight bytes, so it holds the three times
    and what follows. *)
Record timestamp_packet := { mp_header : icmp_fields; mp_ident : N; mp_seq : N;
  mp_originate : N; mp_receive : N; mp_transmit : N; mp_behind : bytes }.
Definition timestamp_message (c : timestamp_packet) : bytes :=
  timestamp_wire (mp_header c) (mp_ident c) (mp_seq c) (mp_originate c) (mp_receive c) (mp_transmit c).
Definition timestamp_bytes (c : timestamp_packet) : bytes := timestamp_message c ++ mp_behind c.
Definition timestamp_packet_ok (c : timestamp_packet) : Prop :=
  icmp_fields_ok (mp_header c) /\ u16 (mp_ident c) /\ u16 (mp_seq c) /\
  u32 (mp_originate c) /\ u32 (mp_receive c) /\ u32 (mp_transmit c) /\ is_bytes (mp_behind c).
Definition timestamp_with (h : icmp_fields) (ident seq orig recv tran : N) (behind : bytes) : timestamp_packet :=
  {| mp_header := h; mp_ident := ident; mp_seq := seq; mp_originate := orig; mp_receive := recv; mp_transmit := tran; mp_behind := behind |}.
Definition timestamp_kind (k : N) (c : timestamp_packet) : timestamp_packet :=
  timestamp_with {| cf_type := k; cf_code := cf_code (mp_header c); cf_checksum := cf_checksum (mp_header c) |}
    (mp_ident c) (mp_seq c) (mp_originate c) (mp_receive c) (mp_transmit c) (mp_behind c).
Definition timestamp_assign (o : timestamp_setter) (c : timestamp_packet) : timestamp_packet * res unit :=
  let h := mp_header c in let i := mp_ident c in let s := mp_seq c in
  let x := mp_originate c in let y := mp_receive c in let z := mp_transmit c in let r := mp_behind c in
  (match o with
   | TsMakeRequest => timestamp_kind 8 c
   | TsMakeReply => timestamp_kind 0 c
   | TsSetIdentifier v => timestamp_with h v s x y z r
   | TsSetSequence v => timestamp_with h i v x y z r
   | TsSetOriginate v => timestamp_with h i s v y z r
   | TsSetReceive v => timestamp_with h i s x v z r
   | TsSetTransmit v => timestamp_with h i s x y v r
   end, Ok tt).
Definition timestamp_store (k : N) (c : timestamp_packet) : timestamp_packet :=
  timestamp_with {| cf_type := cf_type (mp_header c); cf_code := cf_code (mp_header c); cf_checksum := k |}
    (mp_ident c) (mp_seq c) (mp_originate c) (mp_receive c) (mp_transmit c) (mp_behind c).
(** The checksum of the twenty bytes: what follows is left out. *)
Definition timestamp_sum (c : timestamp_packet) : timestamp_packet :=
  timestamp_store (nonzero_checksum (timestamp_message (timestamp_store 0 c))) c.
(** Overwriting the payload assigns the three times and what follows. *)
Definition timestamp_do (a : action timestamp_setter Empty_set) (c : timestamp_packet) : timestamp_packet * res unit :=
  match a with
  | Call o => timestamp_assign o c
  | Checked ops => (timestamp_sum (assigns timestamp_assign ops c), Ok tt)
  | Fill new => if len new =? 12 + len (mp_behind c)
                then (timestamp_with (mp_header c) (mp_ident c) (mp_seq c) (wire32 new 0) (wire32 new 4) (wire32 new 8) (dropN 12 new), Ok tt)
                else (c, Panic)
  | Extra x => match x with end
  end.
Definition timestamp_act (E : env) (a : action timestamp_setter Empty_set) : mut :=
  match a with
  | Call o => timestamp_apply o
  | Checked ops => timestamp_checked E ops
  | Fill new => fill timestamp_split_mut new
  | Extra x => match x with end
  end.
Definition timestamp_action_ok (a : action timestamp_setter Empty_set) : Prop := action_ok timestamp_setter_ok (fun _ => True) a.
