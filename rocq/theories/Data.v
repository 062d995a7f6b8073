(** * Serialized packets down to the last value (feature [serde])

    Serialize.v stops at the values handed to [serialize_entry].  This file models what the [Serialize] implementation of each
    type of the library hands to the serializer for its value, so that a serialized packet is a tree of the data model of serde. *)
From Coq Require Import String List NArith ZArith Bool SpecFloat.
From Verif Require Import Base DualBuffer PackDesc Enums Floats Bits Utf8 Iterators GenRecv Dispatch Serialize Macro Meaning.
Import ListNotations.
Open Scope N_scope.
Open Scope list_scope.

(** ** The data model of serde, as far as it is used *)
Inductive data : Type :=
| DNum (s : scalar) (z : Z)                (* [serialize_u8] ... [serialize_f64]; of a float its bits ([to_bits]) *)
| DFloat (t : fty) (x : spec_float)        (* [serialize_f32], [serialize_f64] of a computed float *)
| DBool (b : bool)                         (* [serialize_bool] *)
| DStr (bytes : list byte)                 (* [serialize_str] *)
| DNone                                    (* [serialize_none] *)
| DSome (d : data)                         (* [serialize_some] *)
| DVariant (name : string)                 (* [serialize_unit_variant] *)
| DVariantOf (name : string) (d : data)    (* [serialize_newtype_variant] *)
| DSeq (l : list data)                     (* [serialize_seq], [serialize_tuple] *)
| DMap (l : list (string * data)).         (* [serialize_map], [serialize_struct] *)

(** A list of values, the first one which panics ends it *)
Fixpoint map_res {A B} (f : A -> res B) (l : list A) : res (list B) :=
  match l with
  | [] => Ret []
  | x :: l' => let! y := f x in let! ys := map_res f l' in Ret (y :: ys)
  end.

(** ** The values of fields *)

(** serde's implementations for the integers, the floats and [[u8; n]] *)
Definition raw_data (t : raw_ty) : raw_val t -> data :=
  match t return raw_val t -> data with
  | Scalar s => fun z => DNum s z
  | Bytes _ => fun l => DSeq (map (fun b => DNum U8 (Z.of_N (b2n b))) l)
  | Items => fun _ => DSeq []
  end.

(** output.rs 598-607: [serializer.serialize_u8( *self as u8)] of an enum of [ubx_extend] *)
Definition enum_data (v : enum_val) : data := DNum U8 (Z.of_N (snd v)).
(** output.rs 689-698: [serializer.serialize_<repr>(self.bits())] *)
Definition flags_data (s : scalar) (v : N) : data := DNum s (Z.of_N v).
(** [derive(Serialize)] of [struct X(uN)]: [serialize_newtype_struct], taken to be the number alone: packets.rs 503-504, 562-563,
    921-922, 946-947, 971-972, 1038-1039, 2735-2736, 2780-2781, 2861-2862 *)
Definition word_data (s : scalar) (v : N) : data := DNum s (Z.of_N v).

(** [derive(Serialize)] of a struct: packets.rs 873-885 *)
Definition itfm_config_data (c : itfm_config) : data :=
  DMap [("enable", DBool (ic_enable c)); ("bb_threshold", word_data U32 (ic_bb_threshold c));
        ("cw_threshold", word_data U32 (ic_cw_threshold c)); ("algorithm_bits", word_data U32 (ic_algorithm_bits c))]%string.
(** packets.rs 996-1006; the antenna settings are an enum of [ubx_extend] (1064-1078) *)
Definition itfm_config2_data (c : itfm_config2) : data :=
  DMap [("general", word_data U32 (ic2_general c)); ("antenna", DNum U8 (Z.of_N (itfm_antenna_into_raw (ic2_antenna c))));
        ("scan_aux_bands", DBool (ic2_scan_aux_bands c))]%string.
(** packets.rs 1902-1907 with 1938-1942, 1969-1974, 2002-2008: [derive(Serialize)] of enums without data *)
Definition data_bits_name (d : data_bits) : string := match d with Seven => "Seven" | Eight => "Eight" end.
Definition parity_name (p : parity) : string := match p with ParityEven => "Even" | ParityOdd => "Odd" | ParityNone => "None" end.
Definition stop_bits_name (s : stop_bits) : string :=
  match s with StopOne => "One" | StopOneHalf => "OneHalf" | StopTwo => "Two" | StopHalf => "Half" end.
Definition uart_mode_data (m : uart_mode) : data :=
  DMap [("data_bits", DVariant (data_bits_name (um_data_bits m))); ("parity", DVariant (parity_name (um_parity m)));
        ("stop_bits", DVariant (stop_bits_name (um_stop_bits m)))]%string.

(** serde's implementation for [Option] *)
Definition option_data {A} (f : A -> data) (o : option A) : data := match o with Some a => DSome (f a) | None => DNone end.

(** [derive(Serialize)]: packets.rs 3172-3176 and 3217-3222 *)
Definition esf_meas_data_data (x : esf_meas_data) : data :=
  DMap [("data_type", DNum U8 (Z.of_N (emd_type x))); ("data_field", DNum U32 (Z.of_N (emd_field x)))]%string.
Definition esf_raw_data_data (x : esf_raw_data) : data :=
  DMap [("data_type", DNum U8 (Z.of_N (erd_type x))); ("data_field", DNum U32 (Z.of_N (erd_field x)));
        ("sensor_time_tag", DNum U32 (Z.of_N (erd_time_tag x)))]%string.

(** types.rs 139-152: [FieldIter(it)]: [collect_seq] calls [next] until it returns [None].  [fuel] bounds the number of calls. *)
Fixpoint collect {S A} (fuel : nat) (next : S -> res (option (A * S))) (it : S) : res (list A) :=
  match fuel with
  | O => Diverge
  | S fuel' =>
      let! r := next it in
      match r with
      | None => Ret []
      | Some (x, it') => let! xs := collect fuel' next it' in Ret (x :: xs)
      end
  end.

(** How the values of a type are serialized: by its own implementation, or, for an iterator, element by element *)
Inductive writes (V : Type) : Type :=
| Itself (f : V -> res data)
| Elements (f : V -> res (list data)).
Arguments Itself {V} f.
Arguments Elements {V} f.

Definition collect_offset {A} (next : offset_iter -> res (option (A * offset_iter))) (f : A -> res data) (it : offset_iter) : res (list data) :=
  let! l := collect (S (length (oi_data it))) next it in map_res f l.
Definition collect_chunks {A} (next : list byte -> res (option (A * list byte))) (f : A -> res data) (it : list byte) : res (list data) :=
  let! l := collect (S (length it)) next it in map_res f l.

(** The mapping of a field, as in [Meaning.map_meaning], with the [Serialize] implementation of its type.  [inner name bytes] is the
    serialized packet [name] with the payload [bytes]: the items of [NavSatIter] and [RxmRawxInfoIter] are packets without a frame. *)
Section Inner.
  Context (inner : string -> list byte -> res data).

  Definition writes_ty (t : raw_ty) : Type := {m : mapping t & writes (m_ty m)}.
  Definition wr {t} (m : mapping t) (w : writes (m_ty m)) : option (writes_ty t) := Some (existT (fun m => writes (m_ty m)) m w).
  Definition itself {V} (f : V -> data) : writes V := Itself (fun v => Ret (f v)).

  Definition data_meaning (t : raw_ty) (c : map_code) : option (writes_ty t) :=
    match t, c with
    | Scalar s, CFloat f sc => wr (float_map f s sc) (itself (DFloat f))
    | Scalar U8, CEnum d mf => wr (enum_map d mf) (itself enum_data)
    | Scalar s, CFlags d => if b_nbits d =? 8 * scalar_size s then wr (flags_map s d) (itself (flags_data s)) else None
    | Scalar s, CWord => wr (word_map s) (itself (word_data s))
    | Scalar U32, CItfm => wr itfm_config_map (itself itfm_config_data)
    | Scalar U32, CItfm2 => wr itfm_config2_map (itself itfm_config2_data)
    | Scalar U32, CUart => wr uart_mode_map (itself uart_mode_data)
    | Bytes n, CStr => wr (cstr_map n) (itself DStr)
    | Bytes 0, CInf => wr inf_map (itself (option_data DStr))
    | Bytes 0, CCalib => wr calib_tag_map (itself (option_data (fun n => DNum U32 (Z.of_N n))))
    | Bytes 0, CNavSat =>
        wr (offset_iter_map (fun l => Ret (nav_sat_is_valid l))) (Elements (collect_offset nav_sat_next (inner "NavSatSvInfo"%string)))
    | Bytes 0, CMonVer =>
        wr (offset_iter_map mon_ver_ext_is_valid) (Elements (collect_offset mon_ver_ext_next (fun s => Ret (DStr s))))
    | Bytes 0, CRawx => wr (chunks_iter_map rawx_new rawx_is_valid) (Elements (collect_chunks rawx_next (inner "RxmRawxInfo"%string)))
    | Bytes 0, CEsfMeas =>
        wr (chunks_iter_map esf_meas_new esf_meas_is_valid) (Elements (collect_chunks esf_meas_next (fun x => Ret (esf_meas_data_data x))))
    | Bytes 0, CEsfRaw =>
        wr (chunks_iter_map esf_raw_new esf_raw_is_valid) (Elements (collect_chunks esf_raw_next (fun x => Ret (esf_raw_data_data x))))
    | Bytes 0, CDwrd =>
        wr (chunks_iter_map dwrd_new dwrd_is_valid) (Elements (collect_chunks dwrd_next (fun x => Ret (DNum U32 (Z.of_N x)))))
    | _, _ => None
    end.

  (** ** Fields and packets *)

  (** output.rs 35-50: the value of a field with a size, or of an [Option], is serialized itself; any other one through [FieldIter].
      (The types of the library fit: otherwise the generated code would not compile.) *)
  Definition entry_of {V} (single : bool) (w : writes V) : option (V -> res data) :=
    match single, w with
    | true, Itself f => Some f
    | false, Elements f => Some (fun v => let! l := f v in Ret (DSeq l))
    | _, _ => None
    end.

  Definition field_ty : Type := {f : field & fvalue f -> res data}.
  Definition fld (f : field) (w : fvalue f -> res data) : field_ty := existT (fun f => fvalue f -> res data) f w.

  Definition single (pname : string) (c : field_code) : bool :=
    match size_bytes (fc_ty c) with
    | Some _ => true
    | None => existsb (fun x => String.eqb (fst x) pname && String.eqb (snd x) (fc_name c)) optional_fields
    end.
  Definition field_data (pname : string) (c : field_code) : option field_ty :=
    match fc_map c with
    | None =>
        option_map (fun w => fld (mk_field (fc_name c) (fc_alias c) (fc_ty c) None (fc_as_ref c) (option_map size_meaning (fc_size c))) w)
                   (entry_of (single pname c) (itself (raw_data (fc_ty c))))
    | Some m =>
        match data_meaning (fc_ty c) m with
        | Some (existT _ mm w) =>
            option_map (fun w => fld (mk_field (fc_name c) (fc_alias c) (fc_ty c) (Some mm) (fc_as_ref c) (option_map size_meaning (fc_size c))) w)
                       (entry_of (single pname c) w)
        | None => None
        end
    end.
  Definition fields_data (c : pack_code) : option (list field_ty) := all_some (field_data (pc_name c)) (pc_fields c).
End Inner.

(** output.rs 51-62: the entries of a packet: the names of the fields with the value of each getter (GenRecv.v, [gen_getters]) *)
Fixpoint entries_at (off : N) (fns : list (list byte -> res N)) (l : list field_ty) (payload : list byte) : res (list (string * data)) :=
  match l with
  | [] => Ret []
  | existT _ f w :: l' =>
      match f_size f with
      | Some size =>
          let! r := get_raw_field (f_ty f) (f_get_as_ref f) off payload in
          let! v := from_raw f r in
          let! d := w v in
          let! ds := entries_at (off + size) fns l' payload in
          Ret ((f_name f, d) :: ds)
      | None =>
          let! s := unsized_slice f off fns payload in
          let! r := slice_val (f_ty f) s in
          let! v := from_raw_unsized f r in
          let! d := w v in
          let! ds := entries_at off (match f_size_fn f with Some g => fns ++ [g] | None => fns end) l' payload in
          Ret ((f_name f, d) :: ds)
      end
  end.

Definition find_code (codes : list pack_code) (name : string) : option pack_code :=
  find (fun c => String.eqb (pc_name c) name) codes.

(** A packet among [codes]: its entries, with the packets inside repeated groups [depth] deep (2 is enough for the library) *)
Fixpoint packet_entries (depth : nat) (codes : list pack_code) (name : string) (payload : list byte) : res (list (string * data)) :=
  match depth with
  | O => Diverge
  | S depth' =>
      match find_code codes name with
      | None => Panic
      | Some c =>
          match fields_data (fun name' bytes => ret_map DMap (packet_entries depth' codes name' bytes)) c with
          | None => Panic
          | Some l => entries_at 0 [] l payload
          end
      end
  end.
(** output.rs 64-74: [NameRef] *)
Definition packet_data (codes : list pack_code) (name : string) (payload : list byte) : res data :=
  ret_map DMap (packet_entries 2 codes name payload).
(** output.rs 790-823 [PacketSerializer] and [PacketRef]; ubx_packets.rs 87-92 [UbxUnknownPacketRef] *)
Definition ref_data (codes : list pack_code) (r : packet_ref) : res data :=
  match r with
  | Known p payload =>
      let! l := packet_entries 2 codes (p_name p) payload in
      Ret (DMap ([("class", DNum U8 (Z.of_N (b2n (p_class p)))); ("msg_id", DNum U8 (Z.of_N (b2n (p_id p))))]%string ++ l))
  | Unknown payload class msg_id =>
      Ret (DMap [("payload", raw_data (Bytes 0) payload); ("class", DNum U8 (Z.of_N (b2n class)));
                 ("msg_id", DNum U8 (Z.of_N (b2n msg_id)))]%string)
  end.
