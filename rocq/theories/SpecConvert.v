(** * Specification: numbers in payloads, and floats close to real numbers *)
From Coq Require Import List NArith ZArith Reals SpecFloat.
From Flocq Require Import Core.
From Verif Require Import Base DualBuffer PackDesc Floats SpecPacket SpecReal.
Open Scope R_scope.

(** Little-endian integers at a position of a payload *)
Definition u32_at (payload : list byte) (off : N) : Z := unsigned_of (takeN 4 (dropN off payload)).
Definition i32_at (payload : list byte) (off : N) : Z := signed_of 32 (unsigned_of (takeN 4 (dropN off payload))).
Definition i8_at (payload : list byte) (off : N) : Z := signed_of 8 (unsigned_of (takeN 1 (dropN off payload))).

(** [x] is an [f64] and stands for a number at most [eps] away from [r] *)
Definition near (x : spec_float) (r eps : R) : Prop :=
  float_ok FTy64 x /\ finite x /\ Rabs (real x - r) <= eps.

(** [1 / 10^k] *)
Definition tenth (k : Z) : R := / IZR (10 ^ k).

(** [x] is correct to 51 bits *)
Definition exact_to (x : spec_float) (r : R) : Prop := near x r (Rabs r / 2251799813685248).

(** [x * n], rounded to a float and towards zero to an integer, within the range of [i32] *)
Definition cut (x : spec_float) (n : Z) : Z := clamp I32 (Ztrunc (nearest FTy64 (real x * IZR n))).
