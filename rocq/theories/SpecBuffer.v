(** * Specification: what an underlying buffer has to be

    A byte queue of bounded capacity, written on plain lists, and the contract of the trait
    [UnderlyingBuffer] (its doc comments, parser.rs 9-52) as a relation to that queue. *)
From Coq Require Import List NArith Bool.
From Verif Require Import Base Buffers.
Import ListNotations.
Open Scope N_scope.

(** The reference queue of capacity [cap]: it answers exactly the calls the contract covers, and
    panics on all others. *)
Definition queue_ops (cap : N) : buf_ops (list byte) := {|
  b_clear := fun _ => Ret [];
  b_len := fun v => lenN v;
  b_max_cap := fun _ => cap;
  b_extend := fun v l =>
    (* no slice and no buffer is longer than isize::MAX *)
    if lenN v + lenN l <=? isize_max then
      let k := N.min (lenN l) (cap - lenN v) in
      Ret (v ++ takeN k l, lenN l - k)
    else Panic;
  b_drain := fun v n => if n <=? lenN v then Ret (dropN n v) else Panic;
  b_find := fun v x => Ret (position v x);
  b_index := fun v i => get v i;
  b_range := fun v s e => slice v s e;
|}.

(** [Lawful ops cap inv contents]: in all states satisfying the representation invariant [inv], the
    operations [ops] behave like those of the queue of capacity [cap] whose content is
    [contents t]. *)
Record Lawful {T} (ops : buf_ops T) (cap : N) (inv : T -> Prop) (contents : T -> list byte) : Prop := {
  law_len : forall t, inv t -> b_len ops t = lenN (contents t);
  law_cap : forall t, inv t -> b_max_cap ops t = cap;
  (* a buffer never holds more than its maximum capacity *)
  law_fits : forall t, inv t -> lenN (contents t) <= cap;
  law_clear : forall t, inv t -> exists t', b_clear ops t = Ret t' /\ inv t' /\ contents t' = [];
  (* the longest prefix that fits is appended; the number of bytes that did not fit is returned *)
  law_extend : forall t l, inv t -> lenN (contents t) + lenN l <= isize_max ->
     exists t', b_extend ops t l = Ret (t', lenN l - N.min (lenN l) (cap - lenN (contents t))) /\
       inv t' /\ contents t' = contents t ++ takeN (cap - lenN (contents t)) l;
  law_drain : forall t n, inv t -> n <= lenN (contents t) ->
     exists t', b_drain ops t n = Ret t' /\ inv t' /\ contents t' = dropN n (contents t);
  law_find : forall t x, inv t -> b_find ops t x = Ret (position (contents t) x);
  law_index : forall t i, inv t -> i < lenN (contents t) -> b_index ops t i = get (contents t) i;
  law_range : forall t s e, inv t -> s <= e -> e <= lenN (contents t) ->
     b_range ops t s e = slice (contents t) s e;
}.

(** ** Operation sequences on one buffer *)

(** The calls a user of a buffer can make (single-index reads apart) *)
Inductive buf_op : Type :=
| BExtend (l : list byte) | BDrain (n : N) | BClear | BFind (x : byte) | BLen | BRange (s e : N).

(** What the caller observes *)
Inductive buf_out : Type :=
| OUnit | ONum (n : N) | OFound (o : option N) | OBytes (l : list byte).

(** First index of a byte in a list, by counting *)
Fixpoint first_index (l : list byte) (x : byte) (k : N) : option N :=
  match l with
  | [] => None
  | y :: l' => if byte_eqb y x then Some k else first_index l' x (k + 1)
  end.

(** The bounded queue: [None] = the call panics *)
Definition fifo_step (cap : N) (v : list byte) (o : buf_op) : option (buf_out * list byte) :=
  match o with
  | BExtend l => Some (ONum (lenN l - (cap - lenN v)), takeN cap (v ++ l))
  | BDrain n => Some (OUnit, dropN n v)
  | BClear => Some (OUnit, [])
  | BFind x => Some (OFound (first_index v x 0), v)
  | BLen => Some (ONum (lenN v), v)
  | BRange s e => if (s <=? e) && (e <=? lenN v) then Some (OBytes (takeN (e - s) (dropN s v)), v) else None
  end.

(** The same calls on an implementation of the trait *)
Definition impl_step {T} (ops : buf_ops T) (t : T) (o : buf_op) : res (buf_out * T) :=
  match o with
  | BExtend l => let! (t', n) := b_extend ops t l in Ret (ONum n, t')
  | BDrain n => let! t' := b_drain ops t n in Ret (OUnit, t')
  | BClear => let! t' := b_clear ops t in Ret (OUnit, t')
  | BFind x => let! r := b_find ops t x in Ret (OFound r, t)
  | BLen => Ret (ONum (b_len ops t), t)
  | BRange s e => let! l := b_range ops t s e in Ret (OBytes l, t)
  end.

(** Outputs of a whole sequence; the final state is [None] after a panic *)
Fixpoint fifo_run (cap : N) (v : list byte) (os : list buf_op) : list buf_out * option (list byte) :=
  match os with
  | [] => ([], Some v)
  | o :: os' =>
      match fifo_step cap v o with
      | None => ([], None)
      | Some (x, v') => let (xs, w) := fifo_run cap v' os' in (x :: xs, w)
      end
  end.
Fixpoint impl_run {T} (ops : buf_ops T) (t : T) (os : list buf_op) : list buf_out * res T :=
  match os with
  | [] => ([], Ret t)
  | o :: os' =>
      match impl_step ops t o with
      | Ret (x, t') => let (xs, w) := impl_run ops t' os' in (x :: xs, w)
      | Panic => ([], Panic)
      | Diverge => ([], Diverge)
      end
  end.
