(** * Specification vocabulary: real numbers

    The real number a float stands for, rounding to the nearest float and to the nearest integer, and the
    value of a decimal literal, with the definitions of the Flocq library. *)
From Coq Require Import ZArith Reals SpecFloat.
From Flocq Require Import Core.
From Flocq.IEEE754 Require Import BinarySingleNaN.
From Verif Require Import Base PackDesc Floats.
Open Scope R_scope.

(** The real number denoted by a finite float *)
Definition real (x : spec_float) : R := SF2R radix2 x.
Definition finite (x : spec_float) : Prop := is_finite_SF x = true.

(** The nearest value with the precision (and the smallest exponent) of the format, ties to even;
    the range is not limited. *)
Definition nearest (t : fty) (r : R) : R := round radix2 (SpecFloat.fexp (fprec t) (femax t)) ZnearestE r.
(** The real number [m * 10^e] *)
Definition decimal (m : positive) (e : Z) : R := IZR (Zpos m) * powerRZ 10 e.
(** The nearest integer, ties away from zero *)
Definition nearest_int (r : R) : Z := ZnearestA r.
(** The nearest number in the range of an integer type *)
Definition clamp (s : scalar) (z : Z) : Z := Z.max (scalar_min s) (Z.min (scalar_max s) z).
Definition clampR (s : scalar) (r : R) : R := Rmax (IZR (scalar_min s)) (Rmin (IZR (scalar_max s)) r).

(** The integer type has (at least 8) bits less than the significand of the float type. *)
Definition fits (t : fty) (s : scalar) : Prop := (8 * Z.of_N (scalar_size s) + 8 <= fprec t)%Z.
(** A scale that is not extremely small or large *)
Definition scale_exp (t : fty) : Z := match t with FTy32 => 100 | FTy64 => 900 end.
Definition scale_ok (t : fty) (m : positive) (e : Z) : Prop :=
  2 * bpow radix2 (- scale_exp t) <= decimal m e <= bpow radix2 (scale_exp t) / 2.
