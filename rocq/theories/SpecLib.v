(** * The library as a program for the generated code

    Used in the statements of PropCode.v.  The code which the macros generate for packets.rs names functions, methods and
    constants of the library.  [lib] says which definition of the model stands for each of these names; for a name or an
    argument which is not listed there is nothing ([None]), and code which uses it goes wrong. *)
From Coq Require Import String Ascii List NArith ZArith Bool SpecFloat.
From Verif Require Import Base Tokens Syntax DualBuffer Parser Checksum PackDesc GenRecv GenSend Dispatch Enums Floats Bits Utf8 Iterators
  Macro Meaning Output Rust Code SpecCode.
Import ListNotations.
Open Scope N_scope.
Open Scope list_scope.

(** The values which the generated code only passes on: those of the types with hand-written code, the elements of
    [CfgValSet], a writer and its errors *)
Inductive lib_val (W E : Type) :=
| LFloat (t : fty) (x : spec_float)
| LFlags (name : string) (x : N)
| LWord (x : N)
| LItfm (c : itfm_config) | LItfm2 (c : itfm_config2) | LUart (m : uart_mode)
| LStr (l : list byte) | LOptStr (o : option (list byte)) | LOptNum (o : option N)
| LOffset (i : offset_iter) | LChunks (l : list byte)
| LItem (x : item) | LWriter (x : W) | LError (x : E).
Arguments LFloat {W E}. Arguments LFlags {W E}. Arguments LWord {W E}. Arguments LItfm {W E}. Arguments LItfm2 {W E}.
Arguments LUart {W E}. Arguments LStr {W E}. Arguments LOptStr {W E}. Arguments LOptNum {W E}. Arguments LOffset {W E}.
Arguments LChunks {W E}. Arguments LItem {W E}. Arguments LWriter {W E}. Arguments LError {W E}.

Section Lib.
  Context {W E : Type} (w : mem_writer W E).
  Notation value := (value (lib_val W E)).

  (** The declared enums, flags and C-like enums of the file *)
  Context (e : Meaning.env).
  (** Its packets, and those with receiving code with their descriptions *)
  Context (decls : list pack_decl) (received : list (pack_decl * pack_desc)).
  (** The packet whose code runs: [Self] *)
  Context (cur : pack_decl).

  Definition ret (a : lib_val W E) : option (res value) := Some (Ret (VAny a)).

  (** ** Functions *)

  Definition float_of (ty : string) : option fty :=
    if String.eqb ty "f32" then Some FTy32 else if String.eqb ty "f64" then Some FTy64 else None.
  Definition enum_named (ty : string) : option enum_decl := Meaning.lookup (fun x => e_name (ed_desc x)) ty (en_enums e).
  Definition flags_named (ty : string) : option flags_decl := Meaning.lookup (fun x => b_name (fl_desc x)) ty (en_flags e).
  Definition variant_named (vs : list enum_val) (x : string) : option enum_val := find (fun v => String.eqb (fst v) x) vs.

  (** The functions of a type with generated code: enums (output.rs 516-582), flags (666-687) *)
  Definition enum_fn (ty fn : string) (x : enum_decl) (v : value) : option (res value) :=
    match v with
    | VInt (I U8) z =>
        if String.eqb fn "from" && from_fn_ok (ed_from x) false || String.eqb fn "from_unchecked" && from_fn_ok (ed_from x) true
        then Some (ret_map (variant_v ty) (enum_from (ed_desc x) (Z.to_N z)))
        else if String.eqb fn "is_valid" && from_fn_ok (ed_from x) true
        then Some (Ret (VBool (enum_is_valid (ed_desc x) (Z.to_N z))))
        else None
    | VAdt [n; y] [] =>
        if String.eqb fn "into_raw" && ed_into_raw x && String.eqb n ty
        then option_map (fun v => Ret (VInt (I U8) (Z.of_N (enum_into_raw v)))) (variant_named (enum_variants (ed_desc x)) y)
        else None
    | _ => None
    end.
  Definition unsigned_of (nbits : N) : scalar := if nbits =? 8 then U8 else if nbits =? 16 then U16 else U32.
  Definition flags_fn (ty fn : string) (x : flags_decl) (v : value) : option (res value) :=
    match v with
    | VInt (I s) z =>
        if String.eqb fn "from" && from_fn_ok (fl_from x) false && (b_nbits (fl_desc x) =? 8 * scalar_size s)
        then ret (LFlags ty (flags_from (fl_desc x) (Z.to_N z))) else None
    | VAny (LFlags n y) =>
        if String.eqb fn "into_raw" && fl_into_raw x && String.eqb n ty
        then Some (Ret (VInt (I (unsigned_of (b_nbits (fl_desc x)))) (Z.of_N (flags_into_raw y)))) else None
    | _ => None
    end.

  (** packets.rs 1759-1763 [ResetMode::into_raw], 2184-2188 [AlignmentToReferenceTime::into_raw]: C-like enums with a
      hand-written [into_raw] *)
  Definition c_like_types : list (string * scalar) := [("ResetMode", U8); ("AlignmentToReferenceTime", U16)]%string.

  (** [<ty>::fn] *)
  Definition type_fn (ty fn : string) (v : value) : option (res value) :=
    match float_of ty with
    | Some t =>                                                                    (* [f64::from] *)
        match v with
        | VInt (I F32) _ | VInt (I F64) _ => None
        | VInt (I _) z => if String.eqb fn "from" then ret (LFloat t (of_int t z)) else None
        | _ => None
        end
    | None =>
    match enum_named ty with
    | Some x => enum_fn ty fn x v
    | None =>
    match flags_named ty with
    | Some x => flags_fn ty fn x v
    | None =>
        if existsb (String.eqb ty) word_types then
          match v with VInt (I _) z => if String.eqb fn "from" then ret (LWord (Z.to_N z)) else None | _ => None end
        else if String.eqb ty "CfgItfmConfig" then
          match v with
          | VInt (I U32) z => if String.eqb fn "from" then ret (LItfm (itfm_config_from (Z.to_N z))) else None
          | VAny (LItfm c) => if String.eqb fn "into_raw" then Some (Ret (VInt (I U32) (Z.of_N (itfm_config_into_raw c)))) else None
          | _ => None
          end
        else if String.eqb ty "CfgItfmConfig2" then
          match v with
          | VInt (I U32) z => if String.eqb fn "from" then ret (LItfm2 (itfm_config2_from (Z.to_N z))) else None
          | VAny (LItfm2 c) => if String.eqb fn "into_raw" then Some (Ret (VInt (I U32) (Z.of_N (itfm_config2_into_raw c)))) else None
          | _ => None
          end
        else if String.eqb ty "UartMode" then
          match v with
          | VInt (I U32) z => if String.eqb fn "from" then Some (ret_map (fun m => VAny (LUart m)) (uart_mode_from (Z.to_N z))) else None
          | VAny (LUart m) => if String.eqb fn "into_raw" then Some (Ret (VInt (I U32) (Z.of_N (uart_mode_into_raw m)))) else None
          | _ => None
          end
        else
          match Meaning.lookup fst ty (en_c_like e), Meaning.lookup fst ty c_like_types, v with
          | Some (_, vs), Some (_, s), VAdt [n; y] [] =>
              if String.eqb fn "into_raw" && String.eqb n ty
              then option_map (fun v => Ret (VInt (I s) (Z.of_N (c_like_into_raw v)))) (variant_named vs y) else None
          | _, _, _ => None
          end
    end end end.

  (** [NameRef::validate] *)
  Definition validate_of (ref : string) (v : value) : option (res value) :=
    match find (fun x => String.eqb (ref_name (pd_name (fst x))) ref) received, v with
    | Some (_, p), VBytes payload => Some (ret_map unit_result_v (validate p payload))
    | _, _ => None
    end.

  (** [ScaleBack::<ty>(1. / s).as_x] *)
  Definition scale_back_tokens (ty s as_x : string) : list token :=
    TIdent "ScaleBack" :: TPunct ":" :: TPunct ":" :: TPunct "<" :: [TIdent ty] ++
    [TPunct ">"; TGroup Paren [TFloat "1."; TPunct "/"; TFloat s]; TPunct "."; TIdent as_x].
  Definition as_names : list (string * scalar) :=
    [("as_i8", I8); ("as_i16", I16); ("as_i32", I32); ("as_u8", U8); ("as_u16", U16); ("as_u32", U32)]%string.
  Definition scale_back_fn (ty s as_x : string) (v : value) : option (res value) :=
    match float_of ty, decimal s, Meaning.lookup fst as_x as_names, v with
    | Some t, Some (m, x), Some (_, sc), VAny (LFloat t' y) =>
        match t, t' with
        | FTy32, FTy32 | FTy64, FTy64 => Some (ret_map (fun z => VInt (I sc) z) (scale_back false t (lit t m x) sc y))
        | _, _ => None
        end
    | _, _, _, _ => None
    end.

  (** The iterators: [X::new] and [X::is_valid] *)
  Definition iter_from (c : map_code) (l : list byte) : lib_val W E :=
    match c with
    | CNavSat | CMonVer => LOffset (offset_iter_new l)
    | CRawx => LChunks (rawx_new l)
    | CEsfMeas => LChunks (esf_meas_new l)
    | CEsfRaw => LChunks (esf_raw_new l)
    | _ => LChunks (dwrd_new l)
    end.
  Definition iter_valid (c : map_code) (l : list byte) : res bool :=
    match c with
    | CNavSat => Ret (nav_sat_is_valid l)
    | CMonVer => mon_ver_ext_is_valid l
    | CRawx => Ret (rawx_is_valid l)
    | CEsfMeas => Ret (esf_meas_is_valid l)
    | CEsfRaw => Ret (esf_raw_is_valid l)
    | _ => Ret (dwrd_is_valid l)
    end.
  (** A path [a::b] applied to bytes *)
  Definition path_fn (a b : string) (l : list byte) : option (res value) :=
    if String.eqb a "mon_ver" then
      if String.eqb b "convert_to_str_unchecked" then Some (ret_map (fun x => VAny (LStr x)) (convert_to_str_unchecked l))
      else if String.eqb b "is_cstr_valid" then Some (ret_map VBool (is_cstr_valid l))
      else None
    else if String.eqb a "inf" then
      if String.eqb b "convert_to_str" then ret (LOptStr (inf_convert_to_str l))
      else if String.eqb b "is_valid" then Some (Ret (VBool (inf_is_valid l)))
      else None
    else if String.eqb a "EsfMeas" then
      if String.eqb b "calib_tag" then ret (LOptNum (calib_tag l)) else None
    else
      match find (fun p => String.eqb (fst p) a) iter_types with
      | Some (_, c) => if String.eqb b "new" then ret (iter_from c l)
                       else if String.eqb b "is_valid" then Some (ret_map VBool (iter_valid c l)) else None
      | None => None
      end.

  Definition lib_fn1 (f : list token) (v : value) : option (res value) :=
    match f with
    | [TIdent x] =>
        if String.eqb x "ubx_checksum" then match v with VBytes l => Some (Ret (two_v (ubx_checksum l))) | _ => None end
        else if existsb (String.eqb x) word_types then match v with VInt (I _) z => ret (LWord (Z.to_N z)) | _ => None end
        else None
    | [TIdent a; TPunct _; TPunct _; TIdent b] =>
        if is_path f [a; b] then match v with VBytes l => path_fn a b l | _ => None end else None
    | [TPunct _; TIdent ty; TPunct _; TPunct _; TPunct _; TIdent fn] =>
        if tokens_eqb f (method [TIdent ty] fn)
        then if String.eqb fn "validate" then validate_of ty v else type_fn ty fn v
        else None
    | [TIdent _; TPunct _; TPunct _; TPunct _; TIdent ty; TPunct _; TGroup _ [TFloat _; TPunct _; TFloat s]; TPunct _; TIdent as_x] =>
        if tokens_eqb f (scale_back_tokens ty s as_x) then scale_back_fn ty s as_x v else None
    | _ => None
    end.
  Definition lib_fn (f : list token) (l : list value) : option (res value) :=
    match l with
    | [] => if is_path f ["UbxChecksumCalc"; "default"]%string then Some (Ret (checksum_v cksum_new))
            else if is_path f ["Vec"; "new"]%string then Some (Ret (VBytes [])) else None
    | [v] => lib_fn1 f v
    | [x; y] =>
        match x, y with
        | VInt (I U16) a, VInt (I U16) b =>
            if is_path f ["max_u16"]%string then Some (Ret (VInt (I U16) (Z.of_N (max_u16 (Z.to_N a) (Z.to_N b))))) else None
        | _, _ => None
        end
    | _ => None
    end.

  (** ** Methods *)

  Definition error_value (x : E) : value := VAny (LError x).
  Definition lib_method (m : list token) (r : value) (l : list value) : option (res (value * list value * value)) :=
    match m with
    | [TIdent x] =>
        match r, l with
        | VAdt [n] [(_, VBytes payload)], [] =>                                    (* packets.rs 3157-3168 *)
            match size_of m with
            | Some c => if String.eqb n "EsfMeasRef"
                        then Some (ret_map (fun k => (r, [], usize_v k)) (size_meaning c payload)) else None
            | None => None
            end
        | VAdt [n] [(_, VInt (I U8) a); (_, VInt (I U8) b)], [] =>                 (* ubx_packets.rs 47-49 *)
            if String.eqb n "UbxChecksumCalc" && String.eqb x "result"
            then Some (Ret (r, [], two_v (cksum_result (n2b (Z.to_N a), n2b (Z.to_N b))))) else None
        | VAdt [n] [(_, VInt (I U8) a); (_, VInt (I U8) b)], [VBytes bs] =>        (* ubx_packets.rs 41-46 *)
            if String.eqb n "UbxChecksumCalc" && String.eqb x "update"
            then Some (Ret (checksum_v (cksum_update (n2b (Z.to_N a), n2b (Z.to_N b)) bs), l, unit_v)) else None
        | VAny (LItem i), [VBytes bs] =>                                           (* cfg_val.rs 255-272 *)
            if String.eqb x "extend_to" then Some (Ret (r, [VBytes (bs ++ it_bytes i)], usize_v (it_ret i))) else None
        | VAny (LWriter out), [VInt Usize n] =>                                    (* ubx_packets.rs 55-60 *)
            if String.eqb x "reserve_allocate"
            then let (out', o) := w_reserve w (Z.to_N n) out in Some (Ret (VAny (LWriter out'), l, write_result_v error_value o)) else None
        | VAny (LWriter out), [VBytes bs] =>
            if String.eqb x "write"
            then let (out', o) := w_write w bs out in Some (Ret (VAny (LWriter out'), l, write_result_v error_value o)) else None
        | _, _ => None
        end
    | _ => None
    end.

  (** ** Constants *)

  Definition decl_named (name : string) : option pack_decl :=
    find (fun x => String.eqb (pd_name x) name) decls.
  Definition none_v : value := VAdt ["None"%string] [].
  Definition plain : program (lib_val W E) :=
    mk_program (fun p => if path_eqb p ["None"%string] then Some none_v else None) (fun _ _ => None) (fun _ _ _ => None)
      (fun _ _ => None) (fun _ => None).
  Definition lib_const (p : list string) : option value :=
    match p with
    | [x] => if String.eqb x "SYNC_CHAR_1" then Some (u8_v SYNC_CHAR_1)
             else if String.eqb x "SYNC_CHAR_2" then Some (u8_v SYNC_CHAR_2)
             else if String.eqb x "None" then Some none_v else None
    | [x; y] =>
        if String.eqb x "Self" then
          match decl_size 0 (pd_fields cur) with
          | Good (Some size) => if String.eqb y "PACKET_LEN" then Some (usize_v (size + 8)) else None
          | _ => None
          end
        else
        match decl_named x with
        | Some d => match find (fun k => String.eqb (k_name k) y) (packet_consts d) with
                    | Some k => const plain (k_val k)
                    | None => None
                    end
        | None =>
            match enum_named x with
            | Some d => option_map (variant_v x) (variant_named (enum_variants (ed_desc d)) y)
            | None => None
            end
        end
    | _ => None
    end.
  Definition lib_discr (p : list string) : option Z :=
    match p with
    | [x; y] =>
        match enum_named x with
        | Some d => option_map (fun v => Z.of_N (snd v)) (variant_named (enum_variants (ed_desc d)) y)
        | None => None
        end
    | _ => None
    end.

  (** Scaling of a field: the literal is of the type of the field *)
  Definition lib_scale (s : string) (v : value) : option (res value) :=
    match decimal s, v with
    | Some (m, x), VAny (LFloat t y) => ret (LFloat t (fmul t y (lit t m x)))
    | _, _ => None
    end.

  Definition lib : program (lib_val W E) := mk_program lib_const lib_fn lib_method lib_scale lib_discr.
  Definition lib_item_v (x : item) : value := VAny (LItem x).
End Lib.
