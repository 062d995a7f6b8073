(** * Floating point: scaled fields

    [f32] and [f64] are the IEEE 754 formats of the standard library's [SpecFloat] (there is one NaN; its sign
    and payload are not represented). *)
From Coq Require Import String List NArith ZArith Bool SpecFloat.
From Verif Require Import Base PackDesc.
Import ListNotations.
Open Scope Z_scope.

(** ** The two formats *)

Inductive fty := FTy32 | FTy64.
Definition fprec (t : fty) : Z := match t with FTy32 => 24 | FTy64 => 53 end.
Definition femax (t : fty) : Z := match t with FTy32 => 128 | FTy64 => 1024 end.

Definition float_ok (t : fty) (x : spec_float) : Prop := valid_binary (fprec t) (femax t) x = true.

Definition fmul (t : fty) := SFmul (fprec t) (femax t).
Definition fadd (t : fty) := SFadd (fprec t) (femax t).
Definition fdiv (t : fty) := SFdiv (fprec t) (femax t).

(** [f64::from(i32)] and the like, [n as f64]: the nearest float, ties to even *)
Definition of_int (t : fty) (z : Z) : spec_float := binary_normalize (fprec t) (femax t) z 0 false.

(** The float literal [m * 10^e] (m > 0): correctly rounded.  [SFdiv] rounds the exact quotient of its
    two arguments, whose mantissas may have any length. *)
Definition lit (t : fty) (m : positive) (e : Z) : spec_float :=
  if 0 <=? e then of_int t (Zpos m * 10 ^ e)
  else fdiv t (S754_finite false m 0) (S754_finite false (Z.to_pos (10 ^ (- e))) 0).

(** [f64::round]: to the nearest integer, ties away from zero; keeps zeros, infinities and NaN *)
Definition fround (t : fty) (x : spec_float) : spec_float :=
  match x with
  | S754_finite s m e =>
      if 0 <=? e then x
      else
        let d := 2 ^ (- e) in
        let q := Zpos m / d in
        let q' := if d <=? 2 * (Zpos m mod d) then q + 1 else q in
        match q' with
        | Zpos n => binary_round (fprec t) (femax t) s n 0
        | _ => S754_zero s
        end
  | _ => x
  end.

(** The integer part (towards zero) of a finite float *)
Definition ftrunc (x : spec_float) : option Z :=
  match x with
  | S754_zero _ => Some 0
  | S754_finite s m e =>
      let n := if 0 <=? e then Zpos m * 2 ^ e else Zpos m / 2 ^ (- e) in
      Some (if s then - n else n)
  | _ => None
  end.

(** num_traits' [ToPrimitive::to_i8 ...]: [Some] of the truncated value if it fits *)
Definition to_scalar (s : scalar) (x : spec_float) : option Z :=
  match ftrunc x with
  | Some z => if (scalar_min s <=? z) && (z <=? scalar_max s) then Some z else None
  | None => None
  end.

Definition unwrap {A} (o : option A) : res A := match o with Some x => Ret x | None => Panic end.

(** [is_sign_negative].  The sign of a NaN that an operation produced is not specified: [nan_neg]. *)
Definition is_sign_negative (nan_neg : bool) (x : spec_float) : bool :=
  match x with
  | S754_zero s | S754_infinity s | S754_finite s _ _ => s
  | S754_nan => nan_neg
  end.

(** ** [ScaleBack], packets.rs 2391-2467 *)

(** 2396-2405, 2407-2416, 2418-2427: [as_i8], [as_i16], [as_i32] *)
Definition as_signed (t : fty) (scale_back : spec_float) (s : scalar) (x : spec_float) : res Z :=
  let x := fround t (fmul t x scale_back) in
  if SFltb x (of_int t (scalar_min s)) then Ret (scalar_min s)
  else if SFltb (of_int t (scalar_max s)) x then Ret (scalar_max s)
  else unwrap (to_scalar s x).

(** 2429-2440, 2442-2453, 2455-2466: [as_u32], [as_u16], [as_u8] *)
Definition as_unsigned (nan_neg : bool) (t : fty) (scale_back : spec_float) (s : scalar) (x : spec_float)
  : res Z :=
  let x := fround t (fmul t x scale_back) in
  if negb (is_sign_negative nan_neg x) then
    if SFleb x (of_int t (scalar_max s)) then unwrap (to_scalar s x)
    else Ret (scalar_max s)
  else Ret 0.

(** The conversion selected by types.rs (ublox_derive) 123-128: [ScaleBack::<ty>(1. / scale).as_<raw type>] *)
Definition scale_back (nan_neg : bool) (t : fty) (scale : spec_float) (s : scalar) (x : spec_float) : res Z :=
  let back := fdiv t (of_int t 1) scale in
  if scalar_signed s then as_signed t back s x else as_unsigned nan_neg t back s x.

(** A field with [map_type = f32/f64] and optionally [scale = m * 10^e].  ([from_fn] is [f64::from];
    without a scale there is no builder using it in the library, its [into_raw] does not exist.
    For a NaN given to an unsigned conversion the model takes the sign to be positive.) *)
Definition float_map (t : fty) (s : scalar) (scale : option (positive * Z)) : mapping (Scalar s) :=
  mk_mapping (t := Scalar s) spec_float (float_ok t)
    (fun z => Ret (of_int t z))
    None
    (match scale with Some (m, e) => Some (fun x => fmul t x (lit t m e)) | None => None end)
    (match scale with
     | Some (m, e) => scale_back false t (lit t m e) s
     | None => fun _ => Panic
     end).
