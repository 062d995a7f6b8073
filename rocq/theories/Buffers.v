(** * Underlying buffers: the trait, [Vec<u8>] and [FixedLinearBuffer] *)
From Coq Require Import List NArith Bool.
From Verif Require Import Base.
Import ListNotations.
Open Scope N_scope.

(** parser.rs 15-52: [trait UnderlyingBuffer].  A record of its operations (an
    implementation of the trait for the type [T]).  [&mut self] methods return the
    new value of [self].  [len] and [max_capacity] are taken not to panic. *)
Record buf_ops (T : Type) : Type := mk_buf_ops {
  b_clear    : T -> res T;                       (* 18-19 *)
  b_len      : T -> N;                           (* 21-22 *)
  b_max_cap  : T -> N;                           (* 24-31 *)
  b_extend   : T -> list byte -> res (T * N);    (* 33-38 *)
  b_drain    : T -> N -> res T;                  (* 40-41 *)
  b_find     : T -> byte -> res (option N);      (* 43-46 *)
  b_index    : T -> N -> res byte;               (* 16: Index<usize> *)
  b_range    : T -> N -> N -> res (list byte);   (* 16: Index<Range<usize>> *)
}.
Arguments b_clear {T}.
Arguments b_len {T}.
Arguments b_max_cap {T}.
Arguments b_extend {T}.
Arguments b_drain {T}.
Arguments b_find {T}.
Arguments b_index {T}.
Arguments b_range {T}.

(** parser.rs 49-51: provided method [is_empty] *)
Definition b_is_empty {T} (ops : buf_ops T) (t : T) : bool := b_len ops t =? 0.

(** parser.rs 44-46: provided method [find] *)
Definition b_find_default {T} (len : T -> N) (index : T -> N -> res byte) (t : T) (v : byte)
  : res (option N) :=
  find_range (fun i => let! x := index t i in Ret (byte_eqb x v)) 0 (N.to_nat (len t)).

(** ** [Vec<u8>] *)

(** parser.rs 68-71.  [Vec::extend_from_slice] panics with "capacity overflow" when the new
    length would exceed [isize::MAX]; running out of heap memory (an abort) is not modelled. *)
Definition vec_extend (v other : list byte) : res (list byte * N) :=
  if lenN v + lenN other <=? isize_max then Ret (v ++ other, 0) else Panic.

(** parser.rs 73-75: [self.drain(0..count)], which panics when [count > len] *)
Definition vec_drain (v : list byte) (count : N) : res (list byte) :=
  if count <=? lenN v then Ret (dropN count v) else Panic.

(** parser.rs 77-79: [self.iter().position(|elem| *elem == value)] *)
Fixpoint position (v : list byte) (value : byte) : option N :=
  match v with
  | [] => None
  | x :: v' =>
      if byte_eqb x value then Some 0
      else match position v' value with Some k => Some (k + 1) | None => None end
  end.

(** parser.rs 54-80: [impl UnderlyingBuffer for Vec<u8>] *)
Definition vec_ops : buf_ops (list byte) := {|
  b_clear := fun _ => Ret [];                       (* 56-58 *)
  b_len := fun v => lenN v;                         (* 60-62 *)
  b_max_cap := fun _ => usize_max;                  (* 64-66 *)
  b_extend := vec_extend;
  b_drain := vec_drain;
  b_find := fun v x => Ret (position v x);
  b_index := fun v i => get v i;
  b_range := fun v s e => slice v s e;
|}.

(** ** [FixedLinearBuffer] *)

(** parser.rs 82-85 *)
Record flb := mk_flb { flb_buffer : list byte; flb_len : N }.

(** parser.rs 88-93: [FixedLinearBuffer::new] *)
Definition flb_new (buf : list byte) : flb := mk_flb buf 0.

(** parser.rs 99-104: [Index<Range<usize>>] *)
Definition flb_range (f : flb) (s e : N) : res (list byte) :=
  if flb_len f <? e then Panic else slice (flb_buffer f) s e.

(** parser.rs 110-112: [Index<usize>]: only the backing array is bounds-checked *)
Definition flb_index (f : flb) (i : N) : res byte := get (flb_buffer f) i.

(** parser.rs 116-118 *)
Definition flb_clear (f : flb) : res flb := Ret (mk_flb (flb_buffer f) 0).

(** parser.rs 128-134.  [dst.copy_from_slice(src)] on the sub-slice [len..len+to_copy] *)
Definition flb_extend (f : flb) (other : list byte) : res (flb * N) :=
  let! room := usub (lenN (flb_buffer f)) (flb_len f) in
  let to_copy := N.min (lenN other) room in
  let! uncopyable := usub (lenN other) to_copy in
  let! stop := uadd (flb_len f) to_copy in
  let! dst := slice (flb_buffer f) (flb_len f) stop in
  let! src := slice other 0 to_copy in
  if lenN dst =? lenN src then
    Ret (mk_flb (takeN (flb_len f) (flb_buffer f) ++ src ++ dropN stop (flb_buffer f)) stop,
         uncopyable)
  else Panic.

(** parser.rs 136-150.  The raw [core::ptr::copy(buf+count, buf, new_size)] is a memmove; reading or
    writing outside the backing slice would be undefined behaviour, modelled as [Panic]. *)
Definition flb_drain (f : flb) (count : N) : res flb :=
  if flb_len f <=? count then Ret (mk_flb (flb_buffer f) 0)
  else
    let! new_size := usub (flb_len f) count in
    if count + new_size <=? lenN (flb_buffer f) then
      Ret (mk_flb (takeN new_size (dropN count (flb_buffer f)) ++ dropN new_size (flb_buffer f))
                  new_size)
    else Panic.

(** parser.rs 115-155: [impl UnderlyingBuffer for FixedLinearBuffer] *)
Definition flb_ops : buf_ops flb := {|
  b_clear := flb_clear;
  b_len := flb_len;                                   (* 120-122 *)
  b_max_cap := fun f => lenN (flb_buffer f);          (* 124-126 *)
  b_extend := flb_extend;
  b_drain := flb_drain;
  b_find := b_find_default flb_len flb_index;         (* 152-154 *)
  b_index := flb_index;
  b_range := flb_range;
|}.
