(** * The default values of builders: [#[derive(Default)]]

    output.rs 382-391 derives [Default] for the builder of a packet declared with [flags = "default_for_builder"].  The
    derived function is the compiler's: the default of every field.  Modelled by its documentation, as are the derived
    defaults of the enums and the bit flags of packets.rs. *)
From Coq Require Import String Ascii List NArith ZArith Bool SpecFloat.
From Verif Require Import Base Tokens Syntax PackDesc Enums Floats Bits Macro Meaning GenSend.
Import ListNotations.
Open Scope N_scope.
Open Scope list_scope.

(** [#[derive(..., name, ...)]] is among the attributes *)
Definition derives (name : string) (attrs : list attribute) : bool :=
  existsb (fun a =>
    is_ident (a_path a) "derive" &&
    match a_tokens a with
    | [TGroup Paren ts] => existsb (fun seg => match seg with [TIdent n] => String.eqb n name | _ => false end) (split_commas ts)
    | _ => false
    end) attrs.

(** The attributes before the first one which is a macro of ublox_derive.  ([ubx_extend] drops the attributes of the
    variants, output.rs 585-589: a [derive(Default)] behind it finds no default and is refused by the compiler.) *)
Fixpoint before_macro (attrs : list attribute) : list attribute :=
  match attrs with
  | [] => []
  | a :: attrs' => match macro_of a with Some _ => [] | None => a :: before_macro attrs' end
  end.

(** [derive(Default)] of an enum: its one variant with the attribute [default].  packets.rs 846-858 [OdoProfile], 1410-1419
    [CfgTp5TimePulseMode], 1460-1472 [CfgTmode2TimeXferModes], 1861-1869 [I2cPortId], 2097-2105 [SpiPortId], 2337-2356
    [CfgNav5DynModel], 2359-2369 [CfgNav5FixMode], 2372-2389 [CfgNav5UtcStandard] *)
Definition marked (v : variant) : bool := existsb (fun a => is_ident (a_path a) "default") (v_attrs v).
Definition enum_default (attrs : list attribute) (vs : list variant) : option enum_val :=
  if derives "Default" (before_macro attrs) then
    match filter marked vs with
    | [v] => match enum_variant v with Good x => Some x | _ => None end
    | _ => None
    end
  else None.

(** The enums with a default and the bit flags with a derived one: no flag set *)
Definition enum_defaults (l : list syn_item) : list (string * enum_val) :=
  flat_map (fun i => match i with
                     | IEnum attrs name (Good vs) => match enum_default attrs vs with Some x => [(name, x)] | None => [] end
                     | _ => []
                     end) l.
Definition flags_defaults (l : list syn_item) : list string :=
  flat_map (fun i => match i with
                     | IMacro _ ["bitflags"%string] body =>
                         let (attrs, r) := outer_attrs body in
                         match skip_vis r with
                         | _ :: TIdent name :: _ => if derives "Default" attrs then [name] else []
                         | _ => []
                         end
                     | _ => []
                     end) l.
Record defaults := mk_defaults { df_enums : list (string * enum_val); df_flags : list string }.
Definition defaults_of (text : string) : defaults := mk_defaults (enum_defaults (file_items text)) (flags_defaults (file_items text)).

(** The default of the type of a builder field (output.rs 313-321): zero for numbers, at most 32 zeros for an array, the empty
    slice.  [None]: the type has no default, the builder does not compile.  (Left out: the hand-written defaults, packets.rs
    933-937, 958-962, 983-987, 1050-1054 and 1829-1833, of types which no builder with a default uses; Bits.v has them.) *)
Definition raw_default (t : raw_ty) : option (raw_val t) :=
  match t with
  | Scalar _ => Some 0%Z
  | Bytes n => if n <=? 32 then Some (repeat x00 (N.to_nat n)) else None
  | Items => Some []
  end.

Definition enum_default_of (e : defaults) (d : enum_desc) : option enum_val :=
  option_map snd (find (fun p => String.eqb (fst p) (e_name d)) (df_enums e)).

Definition map_default (e : defaults) (t : raw_ty) (c : map_code) : option {m : mapping t & m_ty m} :=
  match t, c with
  | Scalar s, CFloat f sc => Some (existT (@m_ty _) (float_map f s sc) (S754_zero false))
  | Scalar U8, CEnum d mf =>
      match enum_default_of e d with Some v => Some (existT (@m_ty _) (enum_map d mf) v) | None => None end
  | Scalar s, CFlags d =>
      if (b_nbits d =? 8 * scalar_size s) && existsb (String.eqb (b_name d)) (df_flags e)
      then Some (existT (@m_ty _) (flags_map s d) 0) else None
  | _, _ => None
  end.

Definition field_default (e : defaults) (c : field_code) : option {f : field & fvalue f} :=
  match fc_map c with
  | None =>
      match raw_default (fc_ty c) with
      | Some v => Some (existT fvalue (mk_field (fc_name c) (fc_alias c) (fc_ty c) None (fc_as_ref c)
                                                (option_map size_meaning (fc_size c))) v)
      | None => None
      end
  | Some m =>
      match map_default e (fc_ty c) m with
      | Some (existT _ mm v) =>
          Some (existT fvalue (mk_field (fc_name c) (fc_alias c) (fc_ty c) (Some mm) (fc_as_ref c)
                                        (option_map size_meaning (fc_size c))) v)
      | None => None
      end
  end.

Fixpoint fields_default (e : defaults) (l : list field_code) : option {fs : list field & builder fs} :=
  match l with
  | [] => Some (existT builder [] tt)
  | c :: l' =>
      match field_default e c, fields_default e l' with
      | Some (existT _ f v), Some (existT _ fs b) => Some (existT builder (f :: fs) (v, b))
      | _, _ => None
      end
  end.

(** output.rs 382-391 *)
Definition has_default (d : pack_decl) : bool :=
  existsb (fun x => match x with DefaultForBuilder => true end) (h_flags (pd_header d)).

(** [XBuilder::default()] of a packet declaration in a source file *)
Definition builder_default (text : string) (d : pack_decl) : option {p : pack_desc & builder (p_fields p)} :=
  if has_default d then
    match Meaning.packet_of (env_of text) d with
    | Some c =>
        match fields_default (defaults_of text) (pc_fields c) with
        | Some (existT _ fs b) =>
            Some (existT (fun p => builder (p_fields p))
                    (mk_desc (pc_name c) (n2b (pc_class c)) (n2b (pc_id c)) (pc_len c) fs) b)
        | None => None
        end
    | None => None
    end
  else None.
