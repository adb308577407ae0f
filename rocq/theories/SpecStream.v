(** * SpecStream: a stream of data in TCP segments over a network that loses, repeats, reorders and damages, for C83. *)
From Verif Require Import Base Enums Buffer Ether Ipv4 Ip Udp Tcp Icmp Builders Spec SpecCalls SpecBuild SpecEdit SpecForward SpecMachine SpecReceiver SpecRoute SpecNat SpecShake.

(** ** The sender: one segment for each chunk of the stream, numbered by what went before *)
Fixpoint segments (from to : endpoint) (seq ack window : N) (chunks : list bytes) : list segment :=
  match chunks with
  | [] => []
  | d :: rest =>
      {| sg_from := from; sg_to := to; sg_seq := seq; sg_ack := ack; sg_flags := ACK; sg_window := window; sg_data := d |} ::
      segments from to ((seq + len d) mod 4294967296) ack window rest
  end.

(** ** The receiver: of the segments of this connection it takes the one that comes next *)
Record stream := { next_seq : N; so_far : bytes }.
Definition of_connection (me peer : endpoint) (g : segment) : bool :=
  same_end (sg_to g) me && same_end (sg_from g) peer && (sg_flags g =? ACK).
Definition take_in (E : env) (me peer : endpoint) (st : stream) (b : bytes) : res stream :=
  let* g := receive E b in
  Ok (match g with
      | None => st
      | Some g =>
          if of_connection me peer g && (sg_seq g =? next_seq st)
          then {| next_seq := (next_seq st + len (sg_data g)) mod 4294967296; so_far := so_far st ++ sg_data g |}
          else st
      end).
Fixpoint collect (E : env) (me peer : endpoint) (st : stream) (arrived : list bytes) : res stream :=
  match arrived with
  | [] => Ok st
  | b :: rest => let* st' := take_in E me peer st b in collect E me peer st' rest
  end.

(** ** The network *)
(** The bytes of a frame that a checksum or the protocol numbers cover: from the Ethernet type to the end of the datagram. *)
Definition covered (b : bytes) (i : N) : Prop := 12 <= i < 14 + wire16 b 16.
(** The same segment, but perhaps for the MAC addresses. *)
Definition same_but_macs (g g' : segment) : Prop :=
  ends g' = ends g /\ sg_seq g' = sg_seq g /\ sg_ack g' = sg_ack g /\ sg_flags g' = sg_flags g /\ sg_window g' = sg_window g /\ sg_data g' = sg_data g.
(** What arrives, and which of the segments [sent] it is a whole copy of. *)
Inductive arrival (Es E : env) (from to peer me : endpoint) (sent : list segment) : option nat -> bytes -> Prop :=
| Carried n g sent_bytes Er steps b :
    (** a segment carried over some way of routers and translators that delivers to the receiver *)
    nth_error sent n = Some g -> send Es g = Ok sent_bytes ->
    Forall step_ok steps -> (hops steps < 64)%nat -> delivers steps (end_of from) (end_of to) (end_of peer) (end_of me) ->
    (len (sg_data g) mod 2 = 0 \/ cursor_eof Er = EofKeep) ->
    way Er steps sent_bytes = (b, Ok tt) ->
    arrival Es E from to peer me sent (Some n) b
| Harmless n b i v :
    (** one damaged where it does not matter: the MAC addresses and the padding *)
    arrival Es E from to peer me sent (Some n) b -> i < len b -> ~ covered b i -> u8 v ->
    arrival Es E from to peer me sent (Some n) (alter b i v)
| Damaged n b i v :
    (** one with any byte from the Ethernet type to the end of the datagram changed *)
    arrival Es E from to peer me sent (Some n) b -> covered b i -> u8 v -> v <> nthN b i ->
    arrival Es E from to peer me sent None (alter b i v)
| Foreign b :
    (** any bytes that are not a segment of this connection *)
    is_bytes b -> wire16 b 16 mod 2 = 0 \/ cursor_eof E = EofKeep ->
    (forall s, rfc_tcp b s -> of_connection me peer (described s) = false) ->
    arrival Es E from to peer me sent None b.
(** How many segments have come in their turn. *)
Definition progress (labels : list (option nat)) : nat :=
  fold_left (fun k l => match l with Some n => if Nat.eqb n k then S k else k | None => k end) labels 0%nat.
(** The first list is what is left of the second when some of it is crossed out. *)
Inductive subsequence {A : Type} : list A -> list A -> Prop :=
| SubNil l : subsequence [] l
| SubKeep x l m : subsequence l m -> subsequence (x :: l) (x :: m)
| SubSkip x l m : subsequence l m -> subsequence l (x :: m).
(** The chunks can be sent: none is empty, each fits, and an odd one needs the cursor that does not seek (C20-C22). *)
Definition chunks_ok (Es E : env) (chunks : list bytes) : Prop :=
  Forall (fun d => d <> [] /\ is_bytes d /\ 40 + len d <= 65535 /\ (len d mod 2 = 0 \/ cursor_eof Es = EofKeep /\ cursor_eof E = EofKeep)) chunks /\
  len (concat chunks) < 4294967296.
(** The segment with other data. *)
Definition with_data (d : bytes) (g : segment) : segment :=
  {| sg_from := sg_from g; sg_to := sg_to g; sg_seq := sg_seq g; sg_ack := sg_ack g; sg_flags := sg_flags g; sg_window := sg_window g; sg_data := d |}.

(** ** A case: "ABCDEFGH" in three chunks, the sequence numbers wrapping, on the way of C82. *)
Definition x_chunks : list bytes := [[65; 66]; [67; 68; 69; 70]; [71; 72]].
Definition x_segments : list segment := segments x_client x_peer 4294967294 7 1000 x_chunks.
(** The copy of a segment that arrives. *)
Definition x_copy (E : env) (n : nat) : bytes :=
  match nth_error x_segments n with
  | Some g => match send E g with Ok b => fst (way E x_forth b) | _ => [] end
  | None => []
  end.
(** The other end, as the server sees it. *)
Definition x_seen : endpoint := {| at_mac := Hw 0 0 0 0 0 0; at_ip := fst x_outside; at_port := snd x_outside |}.
(** The second before the first, a damaged second, the first twice, one for somebody else, the third too early, and then what was missing. *)
Definition x_arrived (E : env) : list (option nat * bytes) :=
  [(Some 1%nat, x_copy E 1); (None, alter (x_copy E 0) 14 70); (None, alter (x_copy E 1) 57 0); (Some 0%nat, x_copy E 0); (Some 0%nat, alter (x_copy E 0) 3 99);
   (None, [1; 2; 3]); (Some 2%nat, x_copy E 2); (Some 1%nat, x_copy E 1); (Some 2%nat, x_copy E 2)].
