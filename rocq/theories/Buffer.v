(** * Buffer: buffer::Dynamic and buffer::Slice (src/buffer/). *)
From Verif Require Import Base.

(** src/buffer/dynamic.rs:21-26 and src/buffer/slice.rs:21-27.  The trait
    [Buffer] (src/buffer/mod.rs:41-72) is modelled by the sum of its two
    implementations in the crate; user-defined buffers are in Generic.v. *)
Inductive buffer :=
| Dynamic (inner : bytes) (offset length : N)
| Slice (inner : bytes) (offset length used : N).

(** src/buffer/dynamic.rs:30-32 (and the derived Default, line 20) *)
Definition dynamic_new : buffer := Dynamic [] 0 0.
(** src/buffer/slice.rs:31-39 *)
Definition slice_new (s : bytes) : buffer := Slice s 0 0 0.

(** src/buffer/dynamic.rs:38-40 (and 89-93, Into<Vec<u8>>), src/buffer/slice.rs:45-47 *)
Definition buf_into_inner (b : buffer) : res bytes :=
  match b with
  | Dynamic inner _ _ => Ok inner
  | Slice inner _ _ used => slice inner 0 used
  end.

(** [Vec::resize(n, 0)] (std): truncates or extends with zeroes; panics with
    "capacity overflow" beyond isize::MAX.  Allocation failure is not modelled. *)
Definition vec_resize {E : env} (v : bytes) (n : N) : res bytes :=
  if ISIZE_MAX <? n then Panic
  else if n <=? len v then Ok (takeN n v) else Ok (v ++ zeros (n - len v)).

(** src/buffer/dynamic.rs:78-80, src/buffer/slice.rs:100-102; also as_ref/deref
    (dynamic.rs:95-100,109-116, slice.rs:109-114,123-130). *)
Definition buf_data (E : env) (b : buffer) : res bytes :=
  match b with
  | Dynamic inner offset length
  | Slice inner offset length _ =>
      let* e := usize_add E offset length in slice inner offset e
  end.

(** src/buffer/dynamic.rs:82-84, src/buffer/slice.rs:104-106; also as_mut/deref_mut
    (dynamic.rs:102-107,118-123, slice.rs:116-121,132-137): running a mutation
    on the slice [data_mut()]. *)
Definition buf_data_mut (E : env) (f : mut) (b : buffer) : buffer * res unit :=
  match b with
  | Dynamic inner offset length =>
      match usize_add E offset length with
      | Ok e => let (i, r) := range_mut offset e f inner in (Dynamic i offset length, r)
      | _ => (b, Panic)
      end
  | Slice inner offset length used =>
      match usize_add E offset length with
      | Ok e => let (i, r) := range_mut offset e f inner in (Slice i offset length used, r)
      | _ => (b, Panic)
      end
  end.

(** [for byte in s { *byte = 0; }] (src/buffer/slice.rs:58-60, 75-77) *)
Definition zero_all : mut := fun s => (zeros (len s), Ok tt).
(** the same on [&mut s[i ..]]; src/buffer/slice.rs:75-77 *)
Definition zero_from (i : N) : mut := fun s =>
  if i <=? len s then (takeN i s ++ zeros (len s - i), Ok tt) else (s, Panic).

(** src/buffer/dynamic.rs:42-50, src/buffer/slice.rs:49-63 *)
Definition buf_next (E : env) (size : N) (b : buffer) : buffer * res unit :=
  match b with
  | Dynamic inner offset length =>
      match usize_add E offset length with
      | Ok offset' =>
          let b' := Dynamic inner offset' size in
          match usize_add E (len inner) size with
          | Ok n => match vec_resize inner n with
                    | Ok inner' => (Dynamic inner' offset' size, Ok tt)
                    | _ => (b', Panic)
                    end
          | _ => (b', Panic)
          end
      | _ => (b, Panic)
      end
  | Slice inner offset length used =>
      match usize_add E used size with
      | Ok u =>
          if len inner <? u then (b, Err SmallBuffer)
          else buf_data_mut E zero_all (Slice inner used size u)
      | _ => (b, Panic)
      end
  end.

(** src/buffer/dynamic.rs:52-58, src/buffer/slice.rs:65-80 *)
Definition buf_more (E : env) (size : N) (b : buffer) : buffer * res unit :=
  match b with
  | Dynamic inner offset length =>
      match usize_add E (len inner) size with
      | Ok n => match vec_resize inner n with
                | Ok inner' =>
                    match usize_add E length size with
                    | Ok length' => (Dynamic inner' offset length', Ok tt)
                    | _ => (Dynamic inner' offset length, Panic)
                    end
                | _ => (b, Panic)
                end
      | _ => (b, Panic)
      end
  | Slice inner offset length used =>
      match usize_add E used size with
      | Ok u =>
          if len inner <? u then (b, Err SmallBuffer)
          else match usize_add E length size with
               | Ok length' =>
                   match usize_sub E length' size with
                   | Ok i => buf_data_mut E (zero_from i) (Slice inner used length' u)
                   | _ => (b, Panic)
                   end
               | _ => (b, Panic)
               end
      | _ => (b, Panic)
      end
  end.

(** src/buffer/dynamic.rs:60-64, src/buffer/slice.rs:82-86 *)
Definition buf_clear (b : buffer) : buffer :=
  match b with
  | Dynamic _ _ _ => Dynamic [] 0 0
  | Slice inner _ _ _ => Slice inner 0 0 0
  end.

(** src/buffer/dynamic.rs:66-68, src/buffer/slice.rs:88-90 *)
Definition buf_used (b : buffer) : N :=
  match b with Dynamic inner _ _ => len inner | Slice _ _ _ used => used end.
(** src/buffer/dynamic.rs:70-72, src/buffer/slice.rs:92-94 *)
Definition buf_offset (b : buffer) : N :=
  match b with Dynamic _ o _ => o | Slice _ o _ _ => o end.
(** src/buffer/dynamic.rs:74-76, src/buffer/slice.rs:96-98 *)
Definition buf_length (b : buffer) : N :=
  match b with Dynamic _ _ l => l | Slice _ _ l _ => l end.
