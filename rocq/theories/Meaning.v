(** * From a parsed declaration to the packet description of the model

    The macros' output names Rust types and functions ([map_type], [from], [is_valid], [size_fn]).  This file says which
    definition of the model stands for which name, so that the tables TableTypes.v, TablePackets.v and TableCfg.v can be
    compared with the source text (PropSource.v). *)
From Coq Require Import String Ascii List NArith ZArith Bool.
From Verif Require Import Base Tokens Syntax PackDesc Enums Floats Bits Utf8 Iterators CfgVal Macro.
Import ListNotations.
Open Scope N_scope.
Open Scope list_scope.

(** ** The mapping of a field, as data *)
Inductive map_code :=
| CFloat (t : fty) (scale : option (positive * Z))
| CEnum (d : enum_desc) (may_fail : bool)
| CFlags (d : flags_desc)
| CWord
| CItfm | CItfm2 | CUart
| CCLike (vs : list enum_val)
| CStr | CInf | CCalib
| CNavSat | CMonVer
| CRawx | CEsfMeas | CEsfRaw | CDwrd.

(** Its meaning on a field of raw type [t].  Types with hand-written code: packets.rs 520-537 ([FixStatusInfo]),
    596-718 ([NavSatSvFlags]), 2789-2900 ([TimTpFlags], [TimTpRefInfo], [TimTm2Flags]): [CWord], where [from] is the
    function of this name or the constructor;
    the other names are those of Bits.v, Utf8.v and Iterators.v. *)
Definition map_meaning (t : raw_ty) (c : map_code) : option (mapping t) :=
  match t, c with
  | Scalar s, CFloat f sc => Some (float_map f s sc)
  | Scalar U8, CEnum d mf => Some (enum_map d mf)
  | Scalar s, CFlags d => if b_nbits d =? 8 * scalar_size s then Some (flags_map s d) else None
  | Scalar s, CWord => Some (word_map s)
  | Scalar U32, CItfm => Some itfm_config_map
  | Scalar U32, CItfm2 => Some itfm_config2_map
  | Scalar U32, CUart => Some uart_mode_map
  | Scalar s, CCLike vs => Some (c_like_map s vs)
  | Bytes n, CStr => Some (cstr_map n)
  | Bytes 0, CInf => Some inf_map
  | Bytes 0, CCalib => Some calib_tag_map
  | Bytes 0, CNavSat => Some (offset_iter_map (fun l => Ret (nav_sat_is_valid l)))
  | Bytes 0, CMonVer => Some (offset_iter_map mon_ver_ext_is_valid)
  | Bytes 0, CRawx => Some (chunks_iter_map rawx_new rawx_is_valid)
  | Bytes 0, CEsfMeas => Some (chunks_iter_map esf_meas_new esf_meas_is_valid)
  | Bytes 0, CEsfRaw => Some (chunks_iter_map esf_raw_new esf_raw_is_valid)
  | Bytes 0, CDwrd => Some (chunks_iter_map dwrd_new dwrd_is_valid)
  | _, _ => None
  end.

(** ** Decimal literals: [m * 10^e] with [m] not divisible by ten *)

Fixpoint strip_zeros (fuel : nat) (m : N) (e : Z) : N * Z :=
  match fuel with
  | O => (m, e)
  | S f => if (m mod 10 =? 0) && negb (m =? 0) then strip_zeros f (m / 10) (e + 1) else (m, e)
  end.

Definition decimal (text : string) : option (positive * Z) :=
  let (ip, r) := span is_digit text in
  let (fp, r') := match r with String "." r1 => span is_digit r1 | _ => (EmptyString, r) end in
  let ex := match r' with
            | EmptyString => Some 0%Z
            | String "e" (String "-" d) => Some (- Z.of_N (fst (number_in 10 0 d)))%Z
            | String "e" (String "+" d) => Some (Z.of_N (fst (number_in 10 0 d)))
            | String "e" d => Some (Z.of_N (fst (number_in 10 0 d)))
            | _ => None
            end in
  match ex with
  | None => None
  | Some x =>
      match strip_zeros (String.length text) (fst (number_in 10 0 (ip ++ fp)))
              (x - Z.of_nat (String.length fp)) with
      | (N0, _) => None
      | (Npos m, e) => Some (m, e)
      end
  end.

(** ** Names *)

(** The declared enums and flags and the plain C-like enums of the file *)
Record env := mk_env {
  en_enums : list enum_decl;
  en_flags : list flags_decl;
  en_c_like : list (string * list enum_val);
}.

Definition lookup {A} (name : A -> string) (n : string) (l : list A) : option A :=
  find (fun a => String.eqb (name a) n) l.

Definition is_path (ts : list token) (p : list string) : bool := tokens_eqb ts (path_tokens p).

(** The default functions of a type (types.rs 107-112) for a mapping that may or may not fail *)
Definition default_fns (d : map_desc) (may_fail : bool) : bool :=
  tokens_eqb (md_from d) (method (md_ty d) (if may_fail then "from_unchecked" else "from")) &&
  tokens_eqb (md_is_valid d) (method (md_ty d) "is_valid").

Definition custom_fns (d : map_desc) (from valid : list string) : bool :=
  is_path (md_from d) from && is_path (md_is_valid d) valid.

Definition from_fn_ok (o : option from_fn) (may_fail : bool) : bool :=
  match o, may_fail with
  | Some From, false | Some FromUnchecked, true => true
  | _, _ => false
  end.

Definition word_types : list string :=
  ["FixStatusInfo"; "NavSatSvFlags"; "TimTpFlags"; "TimTpRefInfo"; "TimTm2Flags"]%string.

(** The iterators: [from = X::new, is_valid = X::is_valid, may_fail] *)
Definition iter_types : list (string * map_code) :=
  [("NavSatIter", CNavSat); ("MonVerExtensionIter", CMonVer); ("RxmRawxInfoIter", CRawx);
   ("EsfMeasDataIter", CEsfMeas); ("EsfRawDataIter", CEsfRaw); ("DwrdIter", CDwrd)]%string.

Definition map_of (e : env) (f : field_decl) (d : map_desc) : option map_code :=
  match md_ty d with
  | [TPunct "&"; TIdent "str"] =>
      if custom_fns d ["mon_ver"; "convert_to_str_unchecked"]%string ["mon_ver"; "is_cstr_valid"]%string
         && fd_may_fail f then Some CStr else None
  | [TIdent "Option"; TPunct "<"; TPunct "&"; TIdent "str"; TPunct ">"] =>
      if custom_fns d ["inf"; "convert_to_str"]%string ["inf"; "is_valid"]%string && fd_may_fail f
      then Some CInf else None
  | [TIdent "Option"; TPunct "<"; TIdent "u32"; TPunct ">"] =>
      if is_path (md_from d) ["EsfMeas"; "calib_tag"]%string && negb (fd_may_fail f) then Some CCalib else None
  | [TIdent ty] =>
      if (String.eqb ty "f32" || String.eqb ty "f64") then
        let t := if String.eqb ty "f32" then FTy32 else FTy64 in
        if default_fns d false && negb (fd_may_fail f) then
          match fd_scale f with
          | None => Some (CFloat t None)
          | Some s => match decimal s with Some sc => Some (CFloat t (Some sc)) | None => None end
          end
        else None
      else match fd_scale f with
      | Some _ => None
      | None =>
      match lookup (fun x => e_name (ed_desc x)) ty (en_enums e) with
      | Some x => if default_fns d (fd_may_fail f) && from_fn_ok (ed_from x) (fd_may_fail f)
                  then Some (CEnum (ed_desc x) (fd_may_fail f)) else None
      | None =>
      match lookup (fun x => b_name (fl_desc x)) ty (en_flags e) with
      | Some x => if default_fns d false && negb (fd_may_fail f) then Some (CFlags (fl_desc x)) else None
      | None =>
      match find (fun p => String.eqb (fst p) ty) iter_types with
      | Some (n, c) => if custom_fns d [n; "new"]%string [n; "is_valid"]%string && fd_may_fail f then Some c else None
      | None =>
      if existsb (String.eqb ty) word_types && negb (fd_may_fail f) &&
         (default_fns d false || is_path (md_from d) [ty])
      then Some CWord
      else if negb (default_fns d (fd_may_fail f)) then None
      else if String.eqb ty "CfgItfmConfig" then Some CItfm
      else if String.eqb ty "CfgItfmConfig2" then Some CItfm2
      else if String.eqb ty "UartMode" then Some CUart
      else match lookup fst ty (en_c_like e) with
           | Some (_, vs) => Some (CCLike vs)
           | None => None
           end
      end end end end
  | _ => None
  end.

(** The methods named by [size_fn]: packets.rs 3157-3176 *)
Inductive size_code := SzDataLen | SzCalibTagLen.
Definition size_of (ts : list token) : option size_code :=
  if is_path ts ["data_len"]%string then Some SzDataLen
  else if is_path ts ["calib_tag_len"]%string then Some SzCalibTagLen
  else None.
Definition size_meaning (c : size_code) : list byte -> res N :=
  match c with SzDataLen => esf_meas_data_len | SzCalibTagLen => esf_meas_calib_tag_len end.

(** ** Fields and packets, as data *)

Record field_code := mk_fc {
  fc_name : string; fc_alias : option string; fc_ty : raw_ty;
  fc_map : option map_code; fc_as_ref : bool; fc_size : option size_code }.

Record pack_code := mk_pc {
  pc_name : string; pc_class : N; pc_id : N; pc_len : payload_len; pc_fields : list field_code }.

Fixpoint all_some {A B} (f : A -> option B) (l : list A) : option (list B) :=
  match l with
  | [] => Some []
  | a :: l' => match f a, all_some f l' with Some b, Some bs => Some (b :: bs) | _, _ => None end
  end.

Definition field_of (e : env) (f : field_decl) : option field_code :=
  let sz := match fd_size_fn f with
            | None => Some None
            | Some ts => match size_of ts with Some c => Some (Some c) | None => None end
            end in
  let mp := match fd_map f with
            | None => match fd_scale f with None => Some None | Some _ => None end
            | Some d => match map_of e f d with Some c => Some (Some c) | None => None end
            end in
  match sz, mp with
  | Some s, Some m => Some (mk_fc (fd_name f) (fd_alias f) (fd_raw f) m (fd_get_as_ref f) s)
  | _, _ => None
  end.

Definition packet_of (e : env) (d : pack_decl) : option pack_code :=
  match all_some (field_of e) (pd_fields d) with
  | Some fs => Some (mk_pc (pd_name d) (h_class (pd_header d)) (h_id (pd_header d)) (h_len (pd_header d)) fs)
  | None => None
  end.

(** ** Their meaning *)

Definition field_meaning (c : field_code) : option field :=
  match fc_map c with
  | None => Some (mk_field (fc_name c) (fc_alias c) (fc_ty c) None (fc_as_ref c)
                           (option_map size_meaning (fc_size c)))
  | Some m =>
      match map_meaning (fc_ty c) m with
      | Some mm => Some (mk_field (fc_name c) (fc_alias c) (fc_ty c) (Some mm) (fc_as_ref c)
                                  (option_map size_meaning (fc_size c)))
      | None => None
      end
  end.

Definition packet_meaning (c : pack_code) : option pack_desc :=
  match all_some field_meaning (pc_fields c) with
  | Some fs => Some (mk_desc (pc_name c) (n2b (pc_class c)) (n2b (pc_id c)) (pc_len c) fs)
  | None => None
  end.

(** ** A source file *)

(** A C-like enum: every variant has a literal value *)
Definition c_like_of (vs : list variant) : option (list enum_val) :=
  all_some (fun v => match v_unit v, v_disc v with
                     | true, Some [TInt n _] => Some (v_name v, n)
                     | _, _ => None
                     end) vs.

Fixpoint c_likes (l : list syn_item) : list (string * list enum_val) :=
  match l with
  | IEnum _ name (Good vs) :: l' =>
      match c_like_of vs with Some x => (name, x) :: c_likes l' | None => c_likes l' end
  | _ :: l' => c_likes l'
  | [] => []
  end.

Definition file_items (text : string) : list syn_item :=
  match lex text with Some ts => items ts | None => [] end.

Definition outputs (text : string) : list output :=
  match expand_file text with Good l => l | _ => [] end.

Definition enums_of (l : list output) : list enum_decl :=
  flat_map (fun o => match o with OEnum d => [d] | _ => [] end) l.
Definition flags_of (l : list output) : list flags_decl :=
  flat_map (fun o => match o with OFlags d => [d] | _ => [] end) l.
Definition recv_of (l : list output) : list pack_decl :=
  flat_map (fun o => match o with OPacket (Recv | RecvSend) d => [d] | _ => [] end) l.
Definition send_of (l : list output) : list pack_decl :=
  flat_map (fun o => match o with OPacket (Send | RecvSend) d => [d] | _ => [] end) l.
Definition unions_of (l : list output) : list recv_decl :=
  flat_map (fun o => match o with ORecv d => [d] | _ => [] end) l.

Definition env_of (text : string) : env :=
  mk_env (enums_of (outputs text)) (flags_of (outputs text)) (c_likes (file_items text)).

(** The packets with receiving code and those with a builder, as descriptions *)
Definition recv_codes (text : string) : option (list pack_code) :=
  all_some (packet_of (env_of text)) (recv_of (outputs text)).
Definition send_codes (text : string) : option (list pack_code) :=
  all_some (packet_of (env_of text)) (send_of (outputs text)).
Definition meanings (o : option (list pack_code)) : option (list pack_desc) :=
  match o with Some l => all_some packet_meaning l | None => None end.

(** ** The table of configuration keys: cfg_val.rs 211-215, the pattern of [cfg_val!]: attributes, name, key, type, each
    followed by a comma *)
Definition cfg_types : list (string * cfg_ty) :=
  [("bool", TBool); ("u8", TU8); ("u16", TU16); ("i16", TI16); ("u32", TU32); ("u64", TU64);
   ("CfgInfMask", TCfgInfMask); ("DataBits", TDataBits); ("Parity", TParity); ("StopBits", TStopBits);
   ("AlignmentToReferenceTime", TAlignment); ("TpPulse", TTpPulse); ("TpPulseLength", TTpPulseLength)]%string.

Fixpoint cfg_rows (fuel : nat) (ts : list token) : option (list cfg_item) :=
  match fuel with
  | O => None
  | S fuel' =>
      match snd (outer_attrs ts) with
      | [] => Some []
      | TIdent name :: TPunct "," :: TInt key _ :: TPunct "," :: TIdent ty :: TPunct "," :: r =>
          match find (fun p => String.eqb (fst p) ty) cfg_types, cfg_rows fuel' r with
          | Some (_, t), Some l => Some (mk_cfg_item name key t :: l)
          | _, _ => None
          end
      | _ => None
      end
  end.

Definition cfg_tables (text : string) : list (option (list cfg_item)) :=
  flat_map (fun i => match i with
                     | IMacro _ ["cfg_val"%string] body => [cfg_rows (length body) body]
                     | _ => []
                     end) (file_items text).
