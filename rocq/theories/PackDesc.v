(** * Packet descriptions: the input of the derive macro

    [ubx_packet_recv], [ubx_packet_send] and [ubx_packet_recv_send] turn a struct declaration into a
    [PackDesc] (ublox_derive/src/types.rs) and generate code from it (ublox_derive/src/output.rs).
    This file models the description; GenRecv.v and GenSend.v model the generated code. *)
From Coq Require Import String List NArith ZArith Bool.
From Verif Require Import Base.
Import ListNotations.
Open Scope N_scope.

(** ** Raw field types *)

(** The scalar types of ublox_derive/src/input.rs 564-573 *)
Inductive scalar : Type := U8 | I8 | U16 | I16 | U32 | I32 | F32 | F64.

(** The Rust type written for a field (input.rs 574-592): a scalar, [[u8; n]], or a reference
    (only [&'a [CfgVal]] in this library). *)
Inductive raw_ty : Type :=
| Scalar (s : scalar)
| Bytes (n : N)
| Items.

(** input.rs 564-573 *)
Definition scalar_size (s : scalar) : N :=
  match s with
  | U8 | I8 => 1
  | U16 | I16 => 2
  | U32 | I32 | F32 => 4
  | F64 => 8
  end.

(** input.rs 563-608: [field_size_bytes]; [NonZeroUsize::new(0)] is [None] *)
Definition size_bytes (t : raw_ty) : option N :=
  match t with
  | Scalar s => Some (scalar_size s)
  | Bytes n => if n =? 0 then None else Some n
  | Items => None
  end.

(** One element of an [Items] field, seen through its method [extend_to(&self, buf) -> usize]
    (output.rs 327-330): the bytes it appends and the number it returns. *)
Record item := mk_item { it_bytes : list byte; it_ret : N }.

(** Values of a raw type.  An integer is its mathematical value; an [f32]/[f64] is its bit pattern
    ([to_bits]).  A [Bytes] value is the array or the slice.  (That an integer is in the range of
    its type and an array has its length is [raw_ok] below.) *)
Definition raw_val (t : raw_ty) : Type :=
  match t with
  | Scalar _ => Z
  | Bytes _ => list byte
  | Items => list item
  end.

Definition scalar_signed (s : scalar) : bool :=
  match s with I8 | I16 | I32 => true | _ => false end.

(** The values of the Rust type *)
Definition scalar_min (s : scalar) : Z :=
  if scalar_signed s then (- 2 ^ (8 * Z.of_N (scalar_size s) - 1))%Z else 0%Z.
Definition scalar_max (s : scalar) : Z :=
  if scalar_signed s then (2 ^ (8 * Z.of_N (scalar_size s) - 1) - 1)%Z
  else (2 ^ (8 * Z.of_N (scalar_size s)) - 1)%Z.
Definition raw_ok (t : raw_ty) : raw_val t -> Prop :=
  match t with
  | Scalar s => fun z => (scalar_min s <= z <= scalar_max s)%Z
  | Bytes n => fun l => n = 0 \/ lenN l = n
  | Items => fun _ => True
  end.

(** [<ty>::from_le_bytes(bytes)] (two's complement for the signed types) *)
Definition from_le_bytes (s : scalar) (bytes : list byte) : Z :=
  let n := Z.of_N (le_num bytes) in
  if scalar_signed s && (scalar_max s <? n)%Z
  then (n - 2 ^ (8 * Z.of_N (scalar_size s)))%Z
  else n.

(** [x.to_le_bytes()] *)
Definition to_le_bytes (s : scalar) (z : Z) : list byte :=
  le_bytes (N.to_nat (scalar_size s)) (Z.to_N (z mod 2 ^ (8 * Z.of_N (scalar_size s)))).

(** ** Field and packet descriptions *)

(** types.rs 93-100 [MapTypeDesc] together with 87 [scale], 89 [convert_may_fail]: the Rust type
    the field is mapped to and the functions named by the attribute.  [m_ok] holds of the values
    of the Rust type [m_ty] stands for. *)
Record mapping (t : raw_ty) := mk_mapping {
  m_ty : Type;
  m_ok : m_ty -> Prop;
  m_from : raw_val t -> res m_ty;              (* [from_fn] *)
  m_valid : option (raw_val t -> res bool);    (* [is_valid_fn], present iff [may_fail] *)
  m_scale : option (m_ty -> m_ty);             (* [val * scale] *)
  m_into : m_ty -> res (raw_val t);            (* [into_fn] *)
}.
Arguments mk_mapping {t}.
Arguments m_ty {t}. Arguments m_ok {t}. Arguments m_from {t}. Arguments m_valid {t}.
Arguments m_scale {t}. Arguments m_into {t}.

(** types.rs 63-69 [PackField] with 85-91 [PackFieldMapDesc].  [f_size_fn] is the method named by
    [size_fn], as a function of the payload. *)
Record field := mk_field {
  f_name : string;
  f_alias : option string;
  f_ty : raw_ty;
  f_map : option (mapping f_ty);
  f_get_as_ref : bool;
  f_size_fn : option (list byte -> res N);
}.

(** types.rs 46-60 *)
Inductive payload_len := Fixed (n : N) | Max (n : N).

(** types.rs 6-11, 39-44 [PackDesc], [PackHeader] *)
Record pack_desc := mk_desc {
  p_name : string;
  p_class : byte;
  p_id : byte;
  p_len : payload_len;
  p_fields : list field;
}.

Definition f_size (f : field) : option N := size_bytes (f_ty f).

(** types.rs 164-166: [intermediate_field_name] *)
Definition accessor (f : field) : string :=
  match f_alias f with Some a => a | None => f_name f end.

(** types.rs 157-163: [intermediate_type] *)
Definition fvalue (f : field) : Type :=
  match f_map f with Some m => m_ty m | None => raw_val (f_ty f) end.
Definition fvalue_ok (f : field) : fvalue f -> Prop :=
  match f_map f as o return match o with Some m => m_ty m | None => raw_val (f_ty f) end -> Prop with
  | Some m => m_ok m
  | None => raw_ok (f_ty f)
  end.

(** types.rs 27-36: [fields_size] ([checked_add] cannot overflow in a source file of possible size:
    left out) *)
Fixpoint fields_size (fs : list field) : option N :=
  match fs with
  | [] => Some 0
  | f :: fs' =>
      match f_size f, fields_size fs' with
      | Some a, Some b => Some (a + b)
      | _, _ => None
      end
  end.

(** types.rs 15-17, 19-21, 23-25 *)
Definition packet_payload_size (p : pack_desc) : option N := fields_size (p_fields p).
Definition packet_payload_size_except_last_field (p : pack_desc) : option N :=
  fields_size (removelast (p_fields p)).
Definition packet_payload_size_except_size_fn (p : pack_desc) : option N :=
  fields_size (filter (fun f => match f_size_fn f with None => true | Some _ => false end) (p_fields p)).

(** ** What the macro accepts *)

(** input.rs 28-38: every field but the last has a size or a size function *)
Definition unsized_only_last (fs : list field) : bool :=
  forallb (fun f => match f_size f, f_size_fn f with None, None => false | _, _ => true end)
          (removelast fs).

(** input.rs 47: the declared fixed length (if any) is the sum of the field sizes (if all fields have one) *)
Definition length_matches (p : pack_desc) : bool :=
  match p_len p, packet_payload_size p with
  | Fixed n, Some m => n =? m
  | Max _, None => true
  | _, _ => false
  end.

(** The length is an [u16] literal (input.rs 311, 322) *)
Definition length_is_u16 (p : pack_desc) : bool :=
  match p_len p with Fixed n | Max n => n <=? 65535 end.

(** input.rs 15-59: [parse_packet_description] succeeds *)
Definition accepted (p : pack_desc) : bool :=
  unsized_only_last (p_fields p) && length_matches p && length_is_u16 p.
