(** * UTF-8 validation and the string fields of MON-VER and INF-* *)
From Coq Require Import String List NArith ZArith Bool.
From Verif Require Import Base PackDesc.
Import ListNotations.
Open Scope N_scope.

Definition in_range (lo hi : N) (b : byte) : bool := (lo <=? b2n b) && (b2n b <=? hi).
Definition cont (b : byte) : bool := in_range 128 191 b.

(** [core::str::from_utf8(bytes).is_ok()]: the table of well-formed byte sequences of the Unicode standard
    (table 3-7), which is what the standard library documents *)
Fixpoint utf8_valid (l : list byte) : bool :=
  match l with
  | [] => true
  | b0 :: l0 =>
      if in_range 0 127 b0 then utf8_valid l0
      else if in_range 194 223 b0 then
        match l0 with b1 :: l1 => cont b1 && utf8_valid l1 | _ => false end
      else if in_range 224 239 b0 then
        match l0 with
        | b1 :: b2 :: l2 =>
            (if b2n b0 =? 224 then in_range 160 191 b1
             else if b2n b0 =? 237 then in_range 128 159 b1
             else cont b1) && cont b2 && utf8_valid l2
        | _ => false
        end
      else if in_range 240 244 b0 then
        match l0 with
        | b1 :: b2 :: b3 :: l3 =>
            (if b2n b0 =? 240 then in_range 144 191 b1
             else if b2n b0 =? 244 then in_range 128 143 b1
             else cont b1) && cont b2 && cont b3 && utf8_valid l3
        | _ => false
        end
      else false
  end.

(** [bytes.iter().position(|x| *x == 0)] *)
Fixpoint null_position (l : list byte) : option N :=
  match l with
  | [] => None
  | b :: l' => if byte_eqb b x00 then Some 0
               else match null_position l' with Some n => Some (n + 1) | None => None end
  end.

(** packets.rs 3108-3116: [mon_ver::is_cstr_valid] *)
Definition is_cstr_valid (bytes : list byte) : res bool :=
  match null_position bytes with
  | Some pos => let! l := slice bytes 0 pos in Ret (utf8_valid l)
  | None => Ret false
  end.

(** packets.rs 3099-3106: [mon_ver::convert_to_str_unchecked].  A [&str] is its bytes. *)
Definition convert_to_str_unchecked (bytes : list byte) : res (list byte) :=
  match null_position bytes with
  | Some pos => let! l := slice bytes 0 pos in if utf8_valid l then Ret l else Panic
  | None => Panic
  end.

(** packets.rs 1210-1215: [inf::convert_to_str] *)
Definition inf_convert_to_str (bytes : list byte) : option (list byte) :=
  if utf8_valid bytes then Some bytes else None.

(** packets.rs 1217-1220: [inf::is_valid] *)
Definition inf_is_valid (_ : list byte) : bool := true.

(** The mappings of the string fields of MON-VER (packets.rs 3084-3089) and INF-* (e.g. 1133-1138) *)
Definition cstr_map (n : N) : mapping (Bytes n) :=
  mk_mapping (t := Bytes n) (list byte) (fun _ => True) convert_to_str_unchecked (Some is_cstr_valid) None
    (fun _ => Panic).
Definition inf_map : mapping (Bytes 0) :=
  mk_mapping (t := Bytes 0) (option (list byte)) (fun _ => True)
    (fun l => Ret (inf_convert_to_str l)) (Some (fun l => Ret (inf_is_valid l))) None
    (fun _ => Panic).
