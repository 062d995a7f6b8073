(** * Base: bytes, [usize] arithmetic, slices and the result monad

    Conventions shared by every model file.

    - A Rust [u8] is a [Coq.Init.Byte.byte].
    - A Rust [usize] is an [N]; the arithmetic operators that the Rust text
      applies to [usize] values are [uadd]/[usub] below, which yield [Panic] when
      the mathematical result does not fit (64-bit target, debug build).
    - A Rust function which may panic returns a [res].
    - [Diverge] is only produced by loops whose fuel ran out. *)

From Coq Require Import List NArith Bool.
From Coq Require Export Strings.Byte.
Import ListNotations.
Open Scope N_scope.

Notation byte := Byte.byte.

(** The number of a byte, and the byte of a number ([n as u8]). *)
Definition b2n (b : byte) : N := Byte.to_N b.
Definition n2b (n : N) : byte :=
  match Byte.of_N (n mod 256) with Some b => b | None => x00 end.

Definition byte_eqb (a b : byte) : bool := b2n a =? b2n b.

(** ** Results *)

Inductive res (A : Type) : Type :=
| Ret (a : A)   (* the Rust code returned [a] *)
| Panic         (* the Rust code panicked *)
| Diverge.      (* the model's loop fuel was exhausted *)
Arguments Ret {A} a.
Arguments Panic {A}.
Arguments Diverge {A}.

Definition bind {A B} (x : res A) (f : A -> res B) : res B :=
  match x with Ret a => f a | Panic => Panic | Diverge => Diverge end.

Notation "'let!' x ':=' e 'in' k" := (bind e (fun x => k))
  (at level 200, x pattern, e at level 100, k at level 200, right associativity).

Definition ret_map {A B} (f : A -> B) (x : res A) : res B :=
  match x with Ret a => Ret (f a) | Panic => Panic | Diverge => Diverge end.

(** ** [usize] *)

Definition usize_max : N := 18446744073709551615. (* 2^64 - 1 *)
Definition isize_max : N := 9223372036854775807.  (* 2^63 - 1 *)

(** [a + b] on [usize] *)
Definition uadd (a b : N) : res N := if a + b <=? usize_max then Ret (a + b) else Panic.
(** [a - b] on [usize] *)
Definition usub (a b : N) : res N := if b <=? a then Ret (a - b) else Panic.
(** [a.saturating_sub(b)] on [usize]: truncated subtraction *)
Definition sat_sub (a b : N) : N := a - b.

(** ** Slices *)

Definition lenN {A} (l : list A) : N := N.of_nat (length l).
Definition takeN {A} (n : N) (l : list A) : list A := firstn (N.to_nat n) l.
Definition dropN {A} (n : N) (l : list A) : list A := skipn (N.to_nat n) l.

(** [l[i]] *)
Definition get {A} (l : list A) (i : N) : res A :=
  match nth_error l (N.to_nat i) with Some x => Ret x | None => Panic end.
(** [&l[s..e]] *)
Definition slice {A} (l : list A) (s e : N) : res (list A) :=
  if (s <=? e) && (e <=? lenN l) then Ret (takeN (e - s) (dropN s l)) else Panic.
(** [&l[s..]] *)
Definition slice_from {A} (l : list A) (s : N) : res (list A) :=
  if s <=? lenN l then Ret (dropN s l) else Panic.

(** [(lo..lo+fuel).find(|&i| p(i))] with a predicate that may panic *)
Fixpoint find_range (p : N -> res bool) (lo : N) (fuel : nat) : res (option N) :=
  match fuel with
  | O => Ret None
  | S f => let! b := p lo in if b then Ret (Some lo) else find_range p (lo + 1) f
  end.

(** ** Integers from little-endian bytes and back *)

(** [uN::from_le_bytes] *)
Fixpoint le_num (l : list byte) : N :=
  match l with [] => 0 | b :: l' => b2n b + 256 * le_num l' end.

(** [x.to_le_bytes()] for an integer type of [k] bytes *)
Fixpoint le_bytes (k : nat) (x : N) : list byte :=
  match k with O => [] | S k' => n2b x :: le_bytes k' (x / 256) end.
