(** * The derive macros' front end: ublox_derive/src/input.rs, types.rs and lib.rs

    Each function reads syntax trees and yields the description from which the code is generated (GenRecv.v, GenSend.v,
    Enums.v, Dispatch.v), an error message, or a panic. *)
From Coq Require Import String Ascii List NArith Bool.
From Verif Require Import Base Tokens Syntax PackDesc Enums.
Import ListNotations.
Open Scope N_scope.
Open Scope list_scope.

(** [LitInt::base10_parse] for an unsigned type with values up to [max] *)
Definition base10_parse (max n : N) : mres N :=
  if n <=? max then Good n else Bad "number too large to fit in target type".

(** [attrs.iter().find(|a| a.path.is_ident(name))] *)
Definition find_attr (name : string) (attrs : list attribute) : option attribute :=
  find (fun a => is_ident (a_path a) name) attrs.

(** ** The header: input.rs 260-367 *)

(** types.rs 221-224 [PacketFlag] *)
Inductive packet_flag := DefaultForBuilder.

(** types.rs 39-44 [PackHeader] *)
Record header := mk_header { h_class : N; h_id : N; h_len : payload_len; h_flags : list packet_flag }.

(** input.rs 665-685: [StructFlags::parse], [PacketFlag::parse] *)
Definition parse_flag (seg : list token) : mres packet_flag :=
  match seg with
  | [t] => if is_kw "default_for_builder" t then Good DefaultForBuilder else Bad "expected `default_for_builder`"
  | _ => Bad "expected `default_for_builder`"
  end.
Definition parse_flags (text : string) : mres (list packet_flag) :=
  match lex text with
  | Some ts => mmap parse_flag (split_commas ts)
  | None => Bad "cannot parse string into token stream"
  end.

(** input.rs 276-280: the local variables *)
Record header_vars := mk_hv {
  hv_class : option N; hv_id : option N; hv_fixed : option N; hv_flags : list packet_flag; hv_max : option N }.

Definition int_lit (max : N) (l : lit) : mres N :=
  match l with LInt x => base10_parse max x | _ => Bad "Should be integer literal" end.

(** input.rs 282-338: one round of the loop *)
Definition header_item (v : header_vars) (e : nested) : mres header_vars :=
  match e with
  | NValue path l =>
      if is_ident path "class" then
        match hv_class v with
        | Some _ => Bad "Duplicate ""class"" attribute"
        | None => do x <- int_lit 255 l; Good (mk_hv (Some x) (hv_id v) (hv_fixed v) (hv_flags v) (hv_max v))
        end
      else if is_ident path "id" then
        match hv_id v with
        | Some _ => Bad "Duplicate ""id"" attribute"
        | None => do x <- int_lit 255 l; Good (mk_hv (hv_class v) (Some x) (hv_fixed v) (hv_flags v) (hv_max v))
        end
      else if is_ident path "fixed_payload_len" then
        match hv_fixed v with
        | Some _ => Bad "Duplicate ""fixed_payload_len"" attribute"
        | None => do x <- int_lit 65535 l; Good (mk_hv (hv_class v) (hv_id v) (Some x) (hv_flags v) (hv_max v))
        end
      else if is_ident path "max_payload_len" then
        match hv_max v with
        | Some _ => Bad "Duplicate ""max_payload_len"" attribute"
        | None => do x <- int_lit 65535 l; Good (mk_hv (hv_class v) (hv_id v) (hv_fixed v) (hv_flags v) (Some x))
        end
      else if is_ident path "flags" then
        match hv_flags v with
        | _ :: _ => Bad "Duplicate flags"
        | [] =>
            do fl <- match l with LStr x => parse_flags x | _ => Bad "Should be string literal" end;
            Good (mk_hv (hv_class v) (hv_id v) (hv_fixed v) fl (hv_max v))
        end
      else Bad "Unsupported attribute"
  | _ => Bad "Unsupported attribute"
  end.

Fixpoint header_items (v : header_vars) (l : list nested) : mres header_vars :=
  match l with
  | [] => Good v
  | e :: l' => do v' <- header_item v e; header_items v' l'
  end.

(** input.rs 260-367: [parse_ubx_attr] *)
Definition parse_ubx_attr (attrs : list attribute) : mres header :=
  match find_attr "ubx" attrs with
  | None => Bad "No ubx attribute for struct"
  | Some attr =>
      do meta <- parse_meta attr;
      match meta with
      | MList l =>
          do v <- header_items (mk_hv None None None [] None) l;
          match hv_class v with
          | None => Bad "No ""class"" attribute"
          | Some class =>
              match hv_id v with
              | None => Bad "No ""id"" attribute"
              | Some id =>
                  match hv_max v, hv_fixed v with
                  | Some x, None => Good (mk_header class id (Max x) (hv_flags v))
                  | None, Some x => Good (mk_header class id (Fixed x) (hv_flags v))
                  | Some _, Some _ => Bad "You should not note max_payload_len AND fixed_payload_len"
                  | None, None => Bad "You should note max_payload_len or fixed_payload_len"
                  end
              end
          end
      | _ => Bad "Invalid ubx attribute syntax"
      end
  end.

(** input.rs 369-387: [extract_item_comment] *)
Fixpoint extract_item_comment (attrs : list attribute) : mres string :=
  match attrs with
  | [] => Good ""%string
  | a :: attrs' =>
      if is_ident (a_path a) "doc" then
        do m <- parse_meta a;
        match m with
        | MValue (LStr s) => do rest <- extract_item_comment attrs'; Good (s ++ rest)%string
        | MValue _ => Bad "Invalid comment"
        | _ => Bad "Invalid comments"
        end
      else extract_item_comment attrs'
  end.

(** ** The options of a field: input.rs 458-547 *)

(** input.rs 473-479 [MapType] *)
Record map_type := mk_mt {
  mt_ty : list token;
  mt_from : option (list token);
  mt_is_valid : option (list token);
  mt_into : option (list token);
  mt_size : option (list token);
}.

(** input.rs 458-465 [PackFieldMap] *)
Record field_map := mk_fm {
  fm_map_type : option map_type;
  fm_scale : option string;
  fm_alias : option string;
  fm_may_fail : bool;
  fm_get_as_ref : bool;
}.
Definition no_map : field_map := mk_fm None None None false false.

(** input.rs 467-471: [is_none] *)
Definition map_is_none (m : field_map) : bool :=
  match fm_map_type m, fm_scale m, fm_alias m with None, None, None => true | _, _, _ => false end.

(** input.rs 483-488: the local variables ([fm_map_type] of [ov_map] stays [None] in the loop) *)
Record option_vars := mk_ov {
  ov_map : field_map;
  ov_ty : option (list token);
  ov_from : option (list token);
  ov_into : option (list token);
  ov_is_valid : option (list token);
  ov_size : option (list token);
}.
Definition no_options : option_vars := mk_ov no_map None None None None None.

Definition parse_path (ts : list token) : mres (list token * list token) :=
  match path_prefix ts with Some (p, r) => Good (path_tokens p, r) | None => Bad "expected identifier" end.

(** [input.parse::<Token![=]>()?] *)
Definition parse_eq (ts : list token) : mres (list token) :=
  match ts with
  | t :: r => if is_p "=" t then Good r else Bad "expected `=`"
  | [] => Bad "expected `=`"
  end.

(** input.rs 490-528: one option *)
Definition parse_option (v : option_vars) (ts : list token) : mres (option_vars * list token) :=
  let m := ov_map v in
  match ts with
  | [] => Bad "unexpected end of input"
  | t :: ts' =>
      if is_kw "map_type" t then
        do r <- parse_eq ts';
        match ty_prefix Start r with
        | Some (ty, r') => Good (mk_ov m (Some ty) (ov_from v) (ov_into v) (ov_is_valid v) (ov_size v), r')
        | None => Bad "expected type"
        end
      else if is_kw "scale" t then
        do r <- parse_eq ts';
        match r with
        | TFloat s :: r' =>
            Good (mk_ov (mk_fm (fm_map_type m) (Some s) (fm_alias m) (fm_may_fail m) (fm_get_as_ref m))
                        (ov_ty v) (ov_from v) (ov_into v) (ov_is_valid v) (ov_size v), r')
        | _ => Bad "expected floating point literal"
        end
      else if is_kw "alias" t then
        do r <- parse_eq ts';
        match r with
        | TIdent i :: r' =>
            Good (mk_ov (mk_fm (fm_map_type m) (fm_scale m) (Some i) (fm_may_fail m) (fm_get_as_ref m))
                        (ov_ty v) (ov_from v) (ov_into v) (ov_is_valid v) (ov_size v), r')
        | _ => Bad "expected identifier"
        end
      else if is_kw "may_fail" t then
        Good (mk_ov (mk_fm (fm_map_type m) (fm_scale m) (fm_alias m) true (fm_get_as_ref m))
                    (ov_ty v) (ov_from v) (ov_into v) (ov_is_valid v) (ov_size v), ts')
      else if is_kw "from" t then
        do r <- parse_eq ts';
        do (p, r') <- parse_path r;
        Good (mk_ov m (ov_ty v) (Some p) (ov_into v) (ov_is_valid v) (ov_size v), r')
      else if is_kw "is_valid" t then
        do r <- parse_eq ts';
        do (p, r') <- parse_path r;
        Good (mk_ov m (ov_ty v) (ov_from v) (ov_into v) (Some p) (ov_size v), r')
      else if is_kw "size_fn" t then
        do r <- parse_eq ts';
        do (p, r') <- parse_path r;
        Good (mk_ov m (ov_ty v) (ov_from v) (ov_into v) (ov_is_valid v) (Some p), r')
      else if is_kw "get_as_ref" t then
        Good (mk_ov (mk_fm (fm_map_type m) (fm_scale m) (fm_alias m) (fm_may_fail m) true)
                    (ov_ty v) (ov_from v) (ov_into v) (ov_is_valid v) (ov_size v), ts')
      else if is_kw "into" t then
        do r <- parse_eq ts';
        match to_comma r with
        | ([], _) => Bad "expected expression"
        | (e, r') => Good (mk_ov m (ov_ty v) (ov_from v) (Some e) (ov_is_valid v) (ov_size v), r')
        end
      else Bad "unexpected token"
  end.

(** input.rs 530-532: an optional comma *)
Definition skip_comma (ts : list token) : list token :=
  match ts with t :: r => if is_p "," t then r else ts | [] => [] end.

(** input.rs 489-533: the loop.  Every round consumes a token, so [length ts] rounds suffice. *)
Fixpoint parse_options (fuel : nat) (v : option_vars) (ts : list token) : mres option_vars :=
  match ts, fuel with
  | [], _ => Good v
  | _, O => Crash
  | _, S fuel' => do (v', r) <- parse_option v ts; parse_options fuel' v' (skip_comma r)
  end.

(** input.rs 481-547: [PackFieldMap::parse] *)
Definition parse_field_map (ts : list token) : mres field_map :=
  do v <- parse_options (length ts) no_options ts;
  let m := ov_map v in
  match ov_ty v with
  | Some ty => Good (mk_fm (Some (mk_mt ty (ov_from v) (ov_is_valid v) (ov_into v) (ov_size v)))
                           (fm_scale m) (fm_alias m) (fm_may_fail m) (fm_get_as_ref m))
  | None => Good m
  end.

(** [Attribute::parse_args] *)
Definition parse_args (a : attribute) : mres (list token) :=
  match a_tokens a with
  | [TGroup Paren ts] => Good ts
  | _ => Bad "expected attribute arguments in parentheses"
  end.

(** ** Fields: input.rs 389-443, 563-608 and types.rs 63-150 *)

(** input.rs 564-573 *)
Definition scalar_of (ty : list token) : option scalar :=
  if tokens_eqb ty [TIdent "u8"] then Some U8
  else if tokens_eqb ty [TIdent "i8"] then Some I8
  else if tokens_eqb ty [TIdent "u16"] then Some U16
  else if tokens_eqb ty [TIdent "i16"] then Some I16
  else if tokens_eqb ty [TIdent "u32"] then Some U32
  else if tokens_eqb ty [TIdent "i32"] then Some I32
  else if tokens_eqb ty [TIdent "f32"] then Some F32
  else if tokens_eqb ty [TIdent "f64"] then Some F64
  else None.

(** The element type and the length of an array type [[T; n]] *)
Fixpoint array_parts (ts : list token) : option (list token * list token) :=
  match ts with
  | [] => None
  | t :: ts' =>
      if is_p ";" t then Some ([], ts')
      else match array_parts ts' with Some (e, n) => Some (t :: e, n) | None => None end
  end.

(** input.rs 563-608: [field_size_bytes], where the size is left inside the raw type ([size_bytes] of PackDesc.v) *)
Definition field_raw_ty (ty : list token) : mres raw_ty :=
  match scalar_of ty with
  | Some s => Good (Scalar s)
  | None =>
      match ty with
      | [TGroup Bracket inner] =>
          match array_parts inner with
          | Some (elem, len) =>
              if negb (tokens_eqb elem [TIdent "u8"]) then Bad "Only u8 supported"
              else match len with
                   | [TInt n _] => do n' <- base10_parse usize_max n; Good (Bytes n')
                   | _ => Bad "Can not interpret array length"
                   end
          | None => Bad "Not supported type"
          end
      | t :: _ => if is_p "&" t then Good Items else Bad "Not supported type"
      | [] => Bad "Not supported type"
      end
  end.

(** types.rs 93-100 [MapTypeDesc]: the functions as token lists *)
Record map_desc := mk_md {
  md_ty : list token;
  md_from : list token;
  md_is_valid : list token;
  md_into : list token;
  md_size : option (list token);
}.

(** types.rs 63-69 [PackField] with 85-91 [PackFieldMapDesc] *)
Record field_decl := mk_fd {
  fd_name : string;
  fd_ty : list token;
  fd_raw : raw_ty;
  fd_map : option map_desc;
  fd_scale : option string;
  fd_alias : option string;
  fd_may_fail : bool;
  fd_get_as_ref : bool;
  fd_comment : string;
}.

(** [<ty>::name] *)
Definition method (ty : list token) (name : string) : list token :=
  TPunct "<" :: ty ++ [TPunct ">"; TPunct ":"; TPunct ":"; TIdent name].

Definition is_float_ty (ty : list token) : bool := tokens_eqb ty [TIdent "f32"] || tokens_eqb ty [TIdent "f64"].

(** [raw_ty.into_token_stream().to_string()] for the scalar types (others give no valid method name) *)
Definition ty_text (ty : list token) : string :=
  match ty with [TIdent s] => s | _ => "?"%string end.

(** types.rs 103-150: [PackFieldMapDesc::new] *)
Definition map_desc_new (m : field_map) (raw : list token) : option map_desc :=
  match fm_map_type m with
  | None => None
  | Some mt =>
      let ty := mt_ty mt in
      Some (mk_md ty
        (match mt_from mt with
         | Some f => f
         | None => method ty (if fm_may_fail m then "from_unchecked" else "from")
         end)
        (match mt_is_valid mt with Some f => f | None => method ty "is_valid" end)
        (match mt_into mt with
         | Some f => f
         | None =>
             match is_float_ty ty, fm_scale m with
             | true, Some s =>
                 (* [ScaleBack::<ty>(1. / scale).as_raw] *)
                 TIdent "ScaleBack" :: TPunct ":" :: TPunct ":" :: TPunct "<" :: ty ++
                 [TPunct ">"; TGroup Paren [TFloat "1."; TPunct "/"; TFloat s]; TPunct ".";
                  TIdent ("as_" ++ ty_text raw)]
             | _, _ => method ty "into_raw"
             end
         end)
        (mt_size mt))
  end.

(** input.rs 409-420: the attributes of a field *)
Fixpoint field_attrs (m : field_map) (attrs : list attribute) : mres field_map :=
  match attrs with
  | [] => Good m
  | a :: attrs' =>
      if is_ident (a_path a) "doc" then field_attrs m attrs'
      else if negb (map_is_none m) then Bad "Two map attributes for the same field"
      else do ts <- parse_args a; do m' <- parse_field_map ts; field_attrs m' attrs'
  end.

(** input.rs 397-439: one field *)
Definition parse_one_field (f : syn_field) : mres field_decl :=
  do raw <- field_raw_ty (sf_ty f);
  do comment <- extract_item_comment (sf_attrs f);
  do m <- field_attrs no_map (sf_attrs f);
  if match fm_map_type m with Some mt => tokens_eqb (mt_ty mt) (sf_ty f) | None => false end
  then Bad "You map type to the same type"
  else Good (mk_fd (sf_name f) (sf_ty f) raw (map_desc_new m (sf_ty f)) (fm_scale m) (fm_alias m)
                   (fm_may_fail m) (fm_get_as_ref m) comment).

(** input.rs 389-443: [parse_fields] *)
Definition parse_fields (fs : fields) : mres (list field_decl) :=
  match fs with
  | Named l => mmap parse_one_field l
  | _ => Bad "Unsupported fields format"
  end.

(** types.rs 71-74: [size_fn] *)
Definition fd_size_fn (f : field_decl) : option (list token) :=
  match fd_map f with Some d => md_size d | None => None end.

(** ** Packets: input.rs 15-59 *)

(** types.rs 6-11 [PackDesc] *)
Record pack_decl := mk_pd {
  pd_name : string;
  pd_header : header;
  pd_comment : string;
  pd_fields : list field_decl;
}.

(** types.rs 76-81 [is_optional]; lib.rs 185-191 [type_is_option], [path_is_option]: a path of the single segment [Option].
    (Arrows inside the type are not told from closing brackets.) *)
Fixpoint one_segment (depth : nat) (ts : list token) : bool :=
  match ts with
  | [] => true
  | t :: ts' =>
      if is_p "<" t then one_segment (S depth) ts'
      else if is_p ">" t then one_segment (pred depth) ts'
      else if is_p ":" t then match depth with O => false | S _ => one_segment depth ts' end
      else one_segment depth ts'
  end.
Definition type_is_option (ts : list token) : bool :=
  match ts with
  | t :: ts' => is_kw "Option" t && one_segment 0 ts'
  | [] => false
  end.
Definition fd_is_optional (f : field_decl) : bool :=
  match fd_map f with Some d => type_is_option (md_ty d) | None => false end.

(** types.rs 27-36: [fields_size]; [checked_add(...).expect(...)] panics *)
Fixpoint decl_size (acc : N) (fs : list field_decl) : mres (option N) :=
  match fs with
  | [] => Good (Some acc)
  | f :: fs' =>
      match size_bytes (fd_raw f) with
      | None => Good None
      | Some n => if acc + n <=? usize_max then decl_size (acc + n) fs' else Crash
      end
  end.

Definition opt_eqb (a b : option N) : bool :=
  match a, b with Some x, Some y => x =? y | None, None => true | _, _ => false end.

(** types.rs 52-60: [PayloadLen::fixed] *)
Definition fixed (l : payload_len) : option N := match l with Fixed n => Some n | Max _ => None end.

(** input.rs 15-59: [parse_packet_description] *)
Definition parse_packet_description (name : string) (attrs : list attribute) (fs : fields) : mres pack_decl :=
  do h <- parse_ubx_attr attrs;
  do comment <- extract_item_comment attrs;
  do fl <- parse_fields fs;
  if existsb (fun f => match size_bytes (fd_raw f), fd_size_fn f with None, None => true | _, _ => false end)
             (tl (rev fl))
  then Bad "Non-finite size for field which is not the last field"
  else
    do size <- decl_size 0 fl;
    if opt_eqb (fixed (h_len h)) size then Good (mk_pd name h comment fl)
    else Bad "Calculated packet size doesn't match specified".

(** ** Enums and bit flags: input.rs 61-258 *)

(** types.rs 186-196 *)
Inductive from_fn := From | FromUnchecked.

Record extend_attrs := mk_ea { ea_from : option from_fn; ea_into_raw : bool; ea_rest : option rest_handling }.

(** input.rs 216-243: one round of the loop *)
Definition extend_item (v : extend_attrs) (e : nested) : mres extend_attrs :=
  match e with
  | NPath p =>
      if is_ident p "from" then Good (mk_ea (Some From) (ea_into_raw v) (ea_rest v))
      else if is_ident p "into_raw" then Good (mk_ea (ea_from v) true (ea_rest v))
      else if is_ident p "from_unchecked" then Good (mk_ea (Some FromUnchecked) (ea_into_raw v) (ea_rest v))
      else if is_ident p "rest_reserved" || is_ident p "rest_error" then
        match ea_rest v with
        | Some _ => Bad "rest_reserved or rest_error already defined"
        | None => Good (mk_ea (ea_from v) (ea_into_raw v)
                          (Some (if is_ident p "rest_reserved" then RestReserved else RestError)))
        end
      else Bad "Invalid ubx attribute"
  | _ => Bad "Invalid ubx attribute"
  end.

Fixpoint extend_items (v : extend_attrs) (l : list nested) : mres extend_attrs :=
  match l with
  | [] => Good v
  | e :: l' => do v' <- extend_item v e; extend_items v' l'
  end.

(** input.rs 196-258: [parse_ubx_extend_attrs] *)
Definition parse_ubx_extend_attrs (attrs : list attribute) : mres extend_attrs :=
  match find_attr "ubx" attrs with
  | None => Bad "No ubx attribute"
  | Some attr =>
      do m <- parse_meta attr;
      match m with
      | MList l =>
          do v <- extend_items (mk_ea None false None) l;
          match ea_from v, ea_rest v with
          | Some From, Some RestError => Bad "you should use rest_error with from_unchecked"
          | _, _ => Good v
          end
      | _ => Bad "Invalid ubx attributes"
      end
  end.

(** input.rs 101-124: one variant *)
Definition enum_variant (v : variant) : mres (string * N) :=
  if negb (v_unit v) then Bad "Invalid variant for ubx_type enum"
  else match v_disc v with
       | None => Bad "ubx_type enum variant should has value"
       | Some [TInt n _] => do x <- base10_parse 255 n; Good (v_name v, x)
       | Some _ => Bad "Invalid variant value for ubx_type enum"
       end.

(** input.rs 69-99: the [repr] attribute; [unimplemented!()] for any other name than [u8] *)
Definition enum_repr (attrs : list attribute) : mres unit :=
  match find_attr "repr" attrs with
  | None => Bad "No repr attribute for ubx_type enum"
  | Some a =>
      do m <- parse_meta a;
      match m with
      | MList [NPath p] => if is_ident p "u8" then Good tt else Crash
      | _ => Bad "Invalid repr attribute for ubx_type enum"
      end
  end.

(** types.rs 176-184 [UbxExtendEnum] *)
Record enum_decl := mk_ed { ed_desc : enum_desc; ed_from : option from_fn; ed_into_raw : bool }.

(** input.rs 61-141: [parse_ubx_enum_type] *)
Definition parse_ubx_enum_type (name : string) (attrs : list attribute) (vs : list variant) : mres enum_decl :=
  do e <- parse_ubx_extend_attrs attrs;
  do _ <- enum_repr attrs;
  do l <- mmap enum_variant vs;
  Good (mk_ed (mk_enum name l (ea_rest e)) (ea_from e) (ea_into_raw e)).

(** input.rs 653-663: [BitFlagsAstConst::parse] *)
Definition parse_const (seg : list token) : mres (string * N) :=
  match snd (outer_attrs seg) with
  | [c; TIdent n; e; TInt x _] =>
      if is_kw "const" c && is_p "=" e then do v <- base10_parse usize_max x; Good (n, v) else Bad "expected const"
  | _ => Bad "expected const"
  end.

(** types.rs 203-213 [BitFlagsMacro] *)
Record flags_decl := mk_fld { fl_desc : flags_desc; fl_from : option from_fn; fl_into_raw : bool; fl_rest : option rest_handling }.

(** input.rs 143-190 [parse_bitflags], 629-651 [BitFlagsAst::parse] *)
Definition parse_bitflags (attrs : list attribute) (body : list token) : mres flags_decl :=
  do e <- parse_ubx_extend_attrs attrs;
  match skip_vis (snd (outer_attrs body)) with
  | [st; TIdent name; co; TIdent ty; TGroup Brace items] =>
      if negb (is_kw "struct" st && is_p ":" co) then Bad "expected struct" else
      do nbits <- (if String.eqb ty "u8" then Good 8
                   else if String.eqb ty "u16" then Good 16
                   else if String.eqb ty "u32" then Good 32
                   else Bad "Not supported type, expect one of ""u8, u16, u32""");
      do consts <- mmap parse_const (split_semis items);
      Good (mk_fld (mk_flags name nbits consts) (ea_from e) (ea_into_raw e) (ea_rest e))
  | _ => Bad "expected struct"
  end.

(** input.rs 687-704: [RecvPackets::parse] *)
Record recv_decl := mk_rd { rd_name : string; rd_unknown : string; rd_packets : list string }.
Definition parse_idents_list (ts : list token) : mres recv_decl :=
  match ts with
  | [e; TIdent n; TGroup Brace (w :: q :: TIdent u :: c :: l)] =>
      if is_kw "enum" e && is_kw "_" w && is_p "=" q && is_p "," c then
        do ps <- mmap (fun seg => match seg with [TIdent p] => Good p | _ => Bad "expected identifier" end)
                      (split_commas l);
        Good (mk_rd n u ps)
      else Bad "expected enum"
  | _ => Bad "expected enum"
  end.

(** ** The macros: lib.rs 17-110 and the generate functions 112-183 *)

Inductive kind := Recv | Send | RecvSend.
Inductive macro := MPacket (k : kind) | MExtend | MBitflags.
Definition macro_of (a : attribute) : option macro :=
  if is_ident (a_path a) "ubx_packet_recv" then Some (MPacket Recv)
  else if is_ident (a_path a) "ubx_packet_send" then Some (MPacket Send)
  else if is_ident (a_path a) "ubx_packet_recv_send" then Some (MPacket RecvSend)
  else if is_ident (a_path a) "ubx_extend" then Some MExtend
  else if is_ident (a_path a) "ubx_extend_bitflags" then Some MBitflags
  else None.
(** The compiler invokes the macro of the first attribute which is one; it gets the item with the other attributes.  (Left
    out: what becomes of a second attribute which is a macro.) *)
Fixpoint first_macro (attrs : list attribute) : option macro :=
  match attrs with
  | [] => None
  | a :: attrs' => match macro_of a with Some m => Some m | None => first_macro attrs' end
  end.

(** ** The panics of the code generators: output.rs

    The generated code is modelled in GenRecv.v, GenSend.v, Enums.v and Dispatch.v; here only whether the generators
    finish.  (Left out: memory and arithmetic overflow on offsets, for fields of an impossible size.) *)

Definition unsized (f : field_decl) : bool := match size_bytes (fd_raw f) with None => true | Some _ => false end.
Definition no_size_fn (f : field_decl) : bool := match fd_size_fn f with None => true | Some _ => false end.
Definition but_last (fs : list field_decl) : list field_decl := removelast fs.

(** output.rs 145: [assert!] on each field without size; 213-221: [expect] if no field has a size function *)
Definition gen_recv (d : pack_decl) : mres unit :=
  let fs := pd_fields d in
  if existsb (fun f => unsized f && no_size_fn f) (but_last fs) then Crash
  else if existsb unsized fs && forallb no_size_fn fs && existsb unsized (but_last fs) then Crash
  else Good tt.

(** output.rs 334-338: [assert_eq!] on the first field without size; 411: the length is an [u16] *)
Definition gen_send (d : pack_decl) : mres unit :=
  let fs := pd_fields d in
  if existsb unsized (but_last fs) then Crash
  else do size <- decl_size 0 fs;
       match size with
       | Some n => if n <=? 65535 then Good tt else Crash
       | None => Good tt
       end.

(** lib.rs 112-151 *)
Definition gen_packet (k : kind) (d : pack_decl) : mres unit :=
  match k with
  | Recv => gen_recv d
  | Send => gen_send d
  | RecvSend => do _ <- gen_send d; gen_recv d
  end.

(** output.rs 518-521 and 538: [assert_ne!] *)
Definition gen_enum (d : enum_decl) : mres unit :=
  match ed_from d, e_rest (ed_desc d) with
  | Some From, Some RestError => Crash
  | Some FromUnchecked, Some RestReserved => Crash
  | _, _ => Good tt
  end.

(** output.rs 612-620: only [rest_reserved]; 653-660: the check on the constants; 675: [unimplemented!()] *)
Definition gen_flags (d : flags_decl) : mres unit :=
  match fl_rest d with
  | Some RestError | None => Bad "Only reserved supported"
  | Some RestReserved =>
      if flags_accepted (fl_desc d)
      then match fl_from d with Some FromUnchecked => Crash | _ => Good tt end
      else Bad "Strange flags, not power of 2?"
  end.

(** What a macro invocation is turned into *)
Inductive output :=
| OPacket (k : kind) (d : pack_decl)
| OEnum (d : enum_decl)
| OFlags (d : flags_decl)
| ORecv (d : recv_decl).

(** lib.rs 17-72, 112-151 *)
Definition packet_macro (k : kind) (name : string) (attrs : list attribute) (fs : fields) : mres output :=
  do d <- parse_packet_description name attrs fs; do _ <- gen_packet k d; Good (OPacket k d).
(** lib.rs 74-91, 153-161 *)
Definition enum_macro (name : string) (attrs : list attribute) (vs : list variant) : mres output :=
  do d <- parse_ubx_enum_type name attrs vs; do _ <- gen_enum d; Good (OEnum d).
(** lib.rs 93-103, 163-178 *)
Definition flags_macro (attrs : list attribute) (path : list string) (body : list token) : mres output :=
  if is_ident path "bitflags"
  then do d <- parse_bitflags attrs body; do _ <- gen_flags d; Good (OFlags d)
  else Bad "Expect bitflags invocation here".

(** The macro invoked on an item: lib.rs 17-110 ([parse_macro_input!] refuses the other items) *)
Definition expand (i : syn_item) : mres (list output) :=
  match i with
  | IStruct attrs name fs =>
      match first_macro attrs with
      | Some (MPacket k) => do f <- fs; do o <- packet_macro k name attrs f; Good [o]
      | Some MExtend => Bad "This attribute can only be used for enum"
      | Some MBitflags => Bad "expected macro"
      | None => Good []
      end
  | IEnum attrs name vs =>
      match first_macro attrs with
      | Some (MPacket _) => Bad "This attribute can only be used for struct"
      | Some MExtend => do v <- vs; do o <- enum_macro name attrs v; Good [o]
      | Some MBitflags => Bad "expected macro"
      | None => Good []
      end
  | IMacro attrs path body =>
      match first_macro attrs with
      | Some MBitflags => do o <- flags_macro attrs path body; Good [o]
      | Some _ => Bad "expected one of: `struct`, `enum`, `union`"
      | None => if is_ident path "define_recv_packets" then do d <- parse_idents_list body; Good [ORecv d] else Good []
      end
  | IOther => Good []
  end.

Fixpoint expand_all (l : list syn_item) : mres (list output) :=
  match l with
  | [] => Good []
  | i :: l' => do a <- expand i; do b <- expand_all l'; Good (a ++ b)
  end.

(** All macro invocations of a source file *)
Definition expand_file (text : string) : mres (list output) :=
  match lex text with
  | Some ts => expand_all (items ts)
  | None => Bad "lexer"
  end.
