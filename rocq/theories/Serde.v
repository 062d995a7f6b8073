(** * Reading values back: [derive(Serialize)] and [derive(Deserialize)] (feature [serde])

    Fifteen types of packets.rs and three of types.rs derive [serde::Deserialize].  The derived code is serde's: modelled here by its
    documentation, for a format which keeps the kinds of the data model apart (as JSON does).  The declarations are read from the text of
    the two files. *)
From Coq Require Import String Ascii List NArith ZArith Bool SpecFloat.
From Verif Require Import Base Tokens Syntax PackDesc Floats Macro Data.
Import ListNotations.
Open Scope N_scope.
Open Scope list_scope.

(** ** Types and values *)

(** A type which can be deserialized, and how it is serialized *)
Inductive ty : Type :=
| TBool
| TInt (s : scalar)
| TReal (t : fty)
| TStruct (fs : list (string * ty))               (* [struct X { a: A, ... }] *)
| TNew (t : ty)                                   (* [struct X(A)] *)
| TEnum (vs : list (string * option ty))          (* [enum X { A, B(T), ... }] *)
| TCoded (vs : list (string * N)).                (* an enum of [ubx_extend]: serialized as its number (output.rs 598-607) *)

Inductive value : Type :=
| VBool (b : bool)
| VInt (z : Z)
| VReal (x : spec_float)
| VStruct (l : list value)
| VNew (v : value)
| VVariant (name : string) (content : option value).

(** The first entry with a name *)
Fixpoint assoc {A} (name : string) (l : list (string * A)) : option A :=
  match l with
  | [] => None
  | (n, a) :: l' => if String.eqb n name then Some a else assoc name l'
  end.

(** ** [derive(Serialize)] *)

(** [serialize_field] for each field in order *)
Fixpoint write_fields (ws : list (string * (value -> option data))) (vs : list value) : option (list (string * data)) :=
  match ws, vs with
  | [], [] => Some []
  | (n, w) :: ws', v :: vs' =>
      match w v, write_fields ws' vs' with
      | Some d, Some l => Some ((n, d) :: l)
      | _, _ => None
      end
  | _, _ => None
  end.

(** [None]: not a value of the type *)
Fixpoint ser (t : ty) (v : value) : option data :=
  match t, v with
  | TBool, VBool b => Some (DBool b)
  | TInt s, VInt z => Some (DNum s z)
  | TReal f, VReal x => Some (DFloat f x)
  | TStruct fs, VStruct vs => option_map DMap (write_fields (map (fun '(n, t) => (n, ser t)) fs) vs)
  | TNew t, VNew v => ser t v
  | TEnum vs, VVariant n content =>
      match assoc n (map (fun '(n, o) => (n, match o with Some t => Some (ser t) | None => None end)) vs), content with
      | Some None, None => Some (DVariant n)
      | Some (Some w), Some v => option_map (DVariantOf n) (w v)
      | _, _ => None
      end
  | TCoded vs, VVariant n None => option_map (fun c => DNum U8 (Z.of_N c)) (assoc n vs)
  | _, _ => None
  end.

(** ** [derive(Deserialize)] *)

(** serde's integers: any integer that fits *)
Definition de_int (s : scalar) (d : data) : option value :=
  match d with
  | DNum _ z => if (scalar_min s <=? z)%Z && (z <=? scalar_max s)%Z then Some (VInt z) else None
  | _ => None
  end.
(** A float of its own width.  (serde would also take integers and floats of the other width.) *)
Definition de_real (t : fty) (d : data) : option value :=
  match t, d with
  | FTy32, DFloat FTy32 x | FTy64, DFloat FTy64 x => Some (VReal x)
  | _, _ => None
  end.

(** [visit_map]: one entry, given to the field with its name; the field must still be empty, an unknown name is ignored *)
Fixpoint place (rs : list (string * (data -> option value))) (slots : list (option value)) (k : string) (d : data)
    : option (list (option value)) :=
  match rs, slots with
  | (n, r) :: rs', s :: slots' =>
      if String.eqb n k then
        match s with
        | Some _ => None                                       (* [duplicate_field] *)
        | None => match r d with Some v => Some (Some v :: slots') | None => None end
        end
      else option_map (cons s) (place rs' slots' k d)
  | _, _ => Some slots
  end.
Fixpoint place_all (rs : list (string * (data -> option value))) (slots : list (option value)) (l : list (string * data))
    : option (list (option value)) :=
  match l with
  | [] => Some slots
  | (k, d) :: l' => match place rs slots k d with Some slots' => place_all rs slots' l' | None => None end
  end.
(** [missing_field] *)
Fixpoint filled (slots : list (option value)) : option (list value) :=
  match slots with
  | [] => Some []
  | Some v :: slots' => option_map (cons v) (filled slots')
  | None :: _ => None
  end.
(** [visit_seq]: the fields in order; too few or too many are refused *)
Fixpoint in_order (rs : list (string * (data -> option value))) (l : list data) : option (list value) :=
  match rs, l with
  | [], [] => Some []
  | (_, r) :: rs', d :: l' => match r d, in_order rs' l' with Some v, Some vs => Some (v :: vs) | _, _ => None end
  | _, _ => None
  end.

(** [None]: an error.  [deserialize_enum] takes the name of a variant, alone or with its content; a number is an error. *)
Fixpoint de (t : ty) (d : data) : option value :=
  match t with
  | TBool => match d with DBool b => Some (VBool b) | _ => None end
  | TInt s => de_int s d
  | TReal f => de_real f d
  | TStruct fs =>
      let rs := map (fun '(n, t) => (n, de t)) fs in
      match d with
      | DMap l =>
          match place_all rs (map (fun _ => None) rs) l with
          | Some slots => option_map VStruct (filled slots)
          | None => None
          end
      | DSeq l => option_map VStruct (in_order rs l)
      | _ => None
      end
  | TNew t => option_map VNew (de t d)
  | TEnum vs =>
      let rs := map (fun '(n, o) => (n, match o with Some t => Some (de t) | None => None end)) vs in
      match d with
      | DVariant n => match assoc n rs with Some None => Some (VVariant n None) | _ => None end
      | DVariantOf n d =>
          match assoc n rs with
          | Some (Some r) => match r d with Some v => Some (VVariant n (Some v)) | None => None end
          | _ => None
          end
      | _ => None
      end
  | TCoded vs =>
      match d with
      | DVariant n => match assoc n vs with Some _ => Some (VVariant n None) | None => None end
      | _ => None
      end
  end.

(** ** Reading the declarations *)

(** [#[cfg_attr(feature = "serde", derive(serde::A, ...))]] *)
Definition serde_derive (a : attribute) : option (list token) :=
  if is_ident (a_path a) "cfg_attr" then
    match a_tokens a with
    | [TGroup Paren (TIdent f :: e :: TStr s :: c :: [TIdent d; TGroup Paren ts])] =>
        if String.eqb f "feature" && is_p "=" e && String.eqb s "serde" && is_p "," c && String.eqb d "derive" then Some ts else None
    | _ => None
    end
  else None.
Definition serde_derives (name : string) (attrs : list attribute) : bool :=
  existsb (fun a =>
    match serde_derive a with
    | Some ts =>
        existsb (fun seg => match path_prefix seg with
                            | Some ([p; n], []) => String.eqb p "serde" && String.eqb n name
                            | _ => false
                            end) (split_commas ts)
    | None => false
    end) attrs.
(** No attribute changes the derived code: of a type, and of a field or variant *)
Definition plain_type (attrs : list attribute) : bool :=
  forallb (fun a => negb (is_ident (a_path a) "serde") &&
                    (negb (is_ident (a_path a) "cfg_attr") || match serde_derive a with Some _ => true | None => false end)) attrs.
Definition plain_part (attrs : list attribute) : bool :=
  forallb (fun a => negb (is_ident (a_path a) "serde") && negb (is_ident (a_path a) "cfg_attr")) attrs.

(** A declaration with its body: fields, contents of a tuple, variants, or anything else *)
Inductive decl_body := BStruct (ts : list token) | BTuple (ts : list token) | BEnum (ts : list token) | BElse.
Record decl := mk_decl { dc_attrs : list attribute; dc_name : string; dc_body : decl_body }.

Definition decl_at (ts : list token) : list decl :=
  let (attrs, r) := outer_attrs ts in
  match skip_vis r with
  | TIdent k :: TIdent n :: r' =>
      if String.eqb k "struct" then
        match r' with
        | TGroup Brace b :: _ => [mk_decl attrs n (BStruct b)]
        | TGroup Paren b :: _ => [mk_decl attrs n (BTuple b)]
        | _ => [mk_decl attrs n BElse]
        end
      else if String.eqb k "enum" then
        match r' with
        | TGroup Brace b :: _ => [mk_decl attrs n (BEnum b)]
        | _ => [mk_decl attrs n BElse]
        end
      else []
  | _ => []
  end.
Fixpoint decls_of (fuel : nat) (ts : list token) : list decl :=
  match ts, fuel with
  | [], _ | _, O => []
  | _, S fuel' => decl_at ts ++ decls_of fuel' (snd (next_item ts))
  end.
Definition decls (ts : list token) : list decl := decls_of (length ts) ts.
(** The declarations which derive [Deserialize] *)
Definition readable (text : string) : list decl :=
  match lex text with
  | Some ts => filter (fun d => serde_derives "Deserialize" (dc_attrs d)) (decls ts)
  | None => []
  end.

Fixpoint all_of {A B} (f : A -> option B) (l : list A) : option (list B) :=
  match l with
  | [] => Some []
  | a :: l' => match f a, all_of f l' with Some b, Some bs => Some (b :: bs) | _, _ => None end
  end.

(** The type of a declaration, [named ts] being the type written [ts] *)
Definition field_decl (named : list token -> option ty) (seg : list token) : option (string * ty) :=
  match parse_field seg with
  | Good f => if plain_part (sf_attrs f) then option_map (pair (sf_name f)) (named (sf_ty f)) else None
  | _ => None
  end.
Definition variant_decl (named : list token -> option ty) (seg : list token) : option (string * option ty) :=
  match parse_variant seg with
  | Good v =>
      if plain_part (v_attrs v) then
        if v_unit v then Some (v_name v, None)
        else match snd (outer_attrs seg) with
             | [TIdent _; TGroup Paren ts] =>
                 match outer_attrs ts with
                 | ([], ts') => option_map (fun t => (v_name v, Some t)) (named (skip_vis ts'))
                 | _ => None
                 end
             | _ => None
             end
      else None
  | _ => None
  end.
Definition code_decl (seg : list token) : option (string * N) :=
  match parse_variant seg with
  | Good v => if plain_part (v_attrs v) then match enum_variant v with Good x => Some x | _ => None end else None
  | _ => None
  end.
Definition decl_ty (named : list token -> option ty) (d : decl) : option ty :=
  if plain_type (dc_attrs d) then
    if serde_derives "Serialize" (dc_attrs d) then
      match dc_body d with
      | BStruct ts => option_map TStruct (all_of (field_decl named) (split_fields O [] ts))
      | BTuple ts => option_map TNew (named (skip_vis ts))
      | BEnum ts => option_map TEnum (all_of (variant_decl named) (split_commas ts))
      | BElse => None
      end
    else if existsb (fun a => is_ident (a_path a) "ubx_extend") (dc_attrs d) then
      match dc_body d with
      | BEnum ts => option_map TCoded (all_of code_decl (split_commas ts))
      | _ => None
      end
    else None
  else None.

(** The type written [ts]: a type of the language, or one declared in [ds], whose fields are [fuel] deep *)
Fixpoint named_ty (fuel : nat) (ds : list decl) (ts : list token) : option ty :=
  match fuel, ts with
  | S fuel', [TIdent n] =>
      if String.eqb n "bool" then Some TBool
      else match scalar_of ts with
           | Some F32 => Some (TReal FTy32)
           | Some F64 => Some (TReal FTy64)
           | Some s => Some (TInt s)
           | None =>
               match find (fun d => String.eqb (dc_name d) n) ds with
               | Some d => decl_ty (named_ty fuel' ds) d
               | None => None
               end
           end
  | _, _ => None
  end.

(** The types which can be deserialized, with their names *)
Definition types_of (ds : list decl) : option (list (string * ty)) :=
  all_of (fun d => option_map (pair (dc_name d)) (named_ty 4 ds [TIdent (dc_name d)])) ds.
Definition readable_types (texts : list string) : option (list (string * ty)) := types_of (flat_map readable texts).
