(** * SpecHooks: finalizer functions of the user in any builder program. *)
From Verif Require Import Base Enums Buffer Ether Ipv4 Ip Udp Tcp Icmp Builders Spec SpecProfile.

(** The program without them. *)
Definition erase (cs : list call) : list call := filter (fun c => match c with CallFinalizer _ => false | _ => true end) cs.
(** What is done after the bytes are laid out, in the order the program asks for it:
    [None] is the crate's own finishing step of a layer (of Ethernet when ip() is
    called, of IPv4 when udp(), tcp() or icmp() is, of the innermost layer at
    build()), [Some f] a function of the user. *)
Definition step (c : call) : list (option finalizer) :=
  match c with
  | CallFinalizer f => [Some f]
  | CallEtherIp | CallV4Udp | CallV4Tcp | CallV4Icmp => [None]
  | _ => []
  end.
Definition last_step (cl : closing) : list (option finalizer) :=
  match cl with
  | ClV4 | ClUdp | ClTcp | ClEcho | ClInformation | ClTimestamp => [None]
  | ClEther | ClIp | ClV6 | ClIcmp => []
  end.
Definition steps (cs : list call) (cl : closing) : list (option finalizer) := flat_map step cs ++ last_step cl.
(** They are executed in the opposite order: the crate's steps are taken from
    [own], which has the innermost layer's first. *)
Fixpoint execute (todo : list (option finalizer)) (own : list finalizer) (b : bytes) : res bytes :=
  match todo, own with
  | [], [] => Ok b
  | Some f :: todo', _ => match f b with (b', Ok _) => execute todo' own b' | (_, Err e) => Err e | (_, Panic) => Panic end
  | None :: todo', f :: own' => match f b with (b', Ok _) => execute todo' own' b' | (_, Err e) => Err e | (_, Panic) => Panic end
  | [], _ :: _ | None :: _, [] => Panic
  end.
(** Data for the example. *)
Definition poke (i v : N) : finalizer := fun b => set_index i v b.
Definition hooked_calls : list call :=
  [CallV4 (V4Set (V4SetTtl 9)); CallFinalizer (poke 8 64); CallV4Udp; CallFinalizer (poke 29 5); CallUdp (UdpPayload [1; 2]); CallFinalizer (poke 29 77)].
