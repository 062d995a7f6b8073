(** * The code generated by [ubx_extend] (enums) and [ubx_extend_bitflags] *)
From Coq Require Import String List NArith ZArith Bool DecimalString.
From Verif Require Import Base PackDesc.
Import ListNotations.
Open Scope N_scope.

(** Decimal digits of a number, as in [format_ident!("Reserved{}", i)] *)
Definition dec (n : N) : string := NilZero.string_of_uint (N.to_uint n).

(** ** Enums *)

(** types.rs (ublox_derive) 198-201 *)
Inductive rest_handling := RestReserved | RestError.

(** types.rs 176-184 [UbxExtendEnum] (the [repr] is always [u8], output.rs 499-502) *)
Record enum_desc := mk_enum {
  e_name : string;
  e_variants : list (string * N);
  e_rest : option rest_handling;
}.

(** A value of the enum type: variant name and discriminant *)
Definition enum_val := (string * N)%type.

(** output.rs 504-514: the declared variants and, for [rest_reserved], one variant [Reserved<i>] for each
    other [u8].  (The set [defined] is [existsb].) *)
Definition enum_variants (d : enum_desc) : list enum_val :=
  match e_rest d with
  | Some RestReserved =>
      e_variants d ++
      map (fun i => (("Reserved" ++ dec i)%string, i))
          (filter (fun i => negb (existsb (fun v => snd v =? i) (e_variants d)))
                  (map N.of_nat (seq 0 256)))
  | _ => e_variants d
  end.

(** output.rs 516-536 [from] and 538-571 [from_unchecked]: the first matching arm; without one
    [unreachable!()] (for [from] the compiler accepts only exhaustive matches). *)
Definition enum_from (d : enum_desc) (x : N) : res enum_val :=
  match find (fun v => snd v =? x) (enum_variants d) with
  | Some v => Ret v
  | None => Panic
  end.

(** output.rs 561-566 [is_valid] *)
Definition enum_is_valid (d : enum_desc) (x : N) : bool :=
  existsb (fun v => snd v =? x) (enum_variants d).

(** output.rs 573-582 [into_raw]: [self as u8] *)
Definition enum_into_raw (v : enum_val) : N := snd v.

(** A field mapped to an enum with [from] resp. [from_unchecked] and [may_fail] *)
Definition enum_map (d : enum_desc) (may_fail : bool) : mapping (Scalar U8) :=
  mk_mapping (t := Scalar U8) enum_val (fun v => In v (enum_variants d))
    (fun z => enum_from d (Z.to_N z))
    (if may_fail then Some (fun z => Ret (enum_is_valid d (Z.to_N z))) else None)
    None
    (fun v => Ret (Z.of_N (enum_into_raw v))).

(** ** Bit flags *)

(** types.rs 203-219 [BitFlagsMacro] *)
Record flags_desc := mk_flags {
  b_name : string;
  b_nbits : N;
  b_consts : list (string * N);
}.

(** output.rs 626-651: one constant for each bit: the declared one, otherwise [RESERVED<bit>] *)
Definition flags_items (d : flags_desc) : list (string * N) :=
  map (fun bit =>
         let flag_bit := N.shiftl 1 bit in
         match find (fun c => snd c =? flag_bit) (b_consts d) with
         | Some c => (fst c, flag_bit)
         | None => (("RESERVED" ++ dec bit)%string, flag_bit)
         end)
      (map N.of_nat (seq 0 (N.to_nat (b_nbits d)))).

(** output.rs 653-660: the macro fails unless as many declared values as constants are single bits *)
Definition flags_accepted (d : flags_desc) : bool :=
  lenN (filter (fun bit => existsb (fun c => snd c =? N.shiftl 1 bit) (b_consts d))
               (map N.of_nat (seq 0 (N.to_nat (b_nbits d)))))
  =? lenN (b_consts d).

(** [all()] of the [bitflags!] type: the union of its constants *)
Definition flags_all (d : flags_desc) : N := fold_right (fun c a => N.lor (snd c) a) 0 (flags_items d).

(** output.rs 666-676 [from]: [from_bits_truncate]; the value is the bit pattern *)
Definition flags_from (d : flags_desc) (x : N) : N := N.land x (flags_all d).

(** output.rs 678-687 [into_raw]: [bits()] *)
Definition flags_into_raw (v : N) : N := v.

(** [contains(FLAG)] of the [bitflags!] type *)
Definition flags_contains (v flag : N) : bool := N.land v flag =? flag.

Definition flags_map (s : scalar) (d : flags_desc) : mapping (Scalar s) :=
  mk_mapping (t := Scalar s) N (fun v => v < 2 ^ b_nbits d)
    (fun z => Ret (flags_from d (Z.to_N z)))
    None None
    (fun v => Ret (Z.of_N (flags_into_raw v))).
