(** * The syntax trees of the crate syn which the derive macros use

    Not code of /repo: a small version of syn 1, by its documentation.  A type, an expression or a path argument is kept as
    its token list (syn compares and prints them as such). *)
From Coq Require Import String Ascii List NArith Bool.
From Verif Require Import Tokens.
Import ListNotations.
Open Scope N_scope.
Open Scope list_scope.

(** [syn::Result], where the macro may also panic.  The text is the message of the error; its span is left out. *)
Inductive mres (A : Type) : Type :=
| Good (a : A)
| Bad (msg : string)
| Crash.
Arguments Good {A}. Arguments Bad {A}. Arguments Crash {A}.

Definition mbind {A B} (x : mres A) (f : A -> mres B) : mres B :=
  match x with Good a => f a | Bad m => Bad m | Crash => Crash end.
Notation "'do' x '<-' e ';' k" := (mbind e (fun x => k))
  (at level 200, x pattern, e at level 100, k at level 200, right associativity).

Fixpoint mmap {A B} (f : A -> mres B) (l : list A) : mres (list B) :=
  match l with
  | [] => Good []
  | a :: l' => do b <- f a; do bs <- mmap f l'; Good (b :: bs)
  end.

(** ** Lists of tokens *)

(** [input.peek(Token![c])] *)
Definition is_p (c : ascii) (t : token) : bool :=
  match t with TPunct d => Ascii.eqb d c | _ => false end.
(** [input.peek(kw::name)] *)
Definition is_kw (name : string) (t : token) : bool :=
  match t with TIdent s => String.eqb s name | _ => false end.

(** [Punctuated::parse_terminated]: the segments between separators [c]; a trailing one is allowed, an empty segment
    elsewhere is left to the parser of the segments *)
Fixpoint split_at (c : ascii) (cur : list token) (ts : list token) : list (list token) :=
  match ts with
  | [] => match cur with [] => [] | _ => [rev cur] end
  | t :: ts' => if is_p c t then rev cur :: split_at c [] ts' else split_at c (t :: cur) ts'
  end.
Definition split_commas (ts : list token) : list (list token) := split_at "," [] ts.
Definition split_semis (ts : list token) : list (list token) := split_at ";" [] ts.

(** The same for fields, whose types may contain commas between [<] and [>] (depth [d]) *)
Fixpoint split_fields (d : nat) (cur : list token) (ts : list token) : list (list token) :=
  match ts with
  | [] => match cur with [] => [] | _ => [rev cur] end
  | t :: ts' =>
      if is_p "," t then
        match d with O => rev cur :: split_fields O [] ts' | _ => split_fields d (t :: cur) ts' end
      else if is_p "<" t then split_fields (S d) (t :: cur) ts'
      else if is_p ">" t then split_fields (pred d) (t :: cur) ts'
      else split_fields d (t :: cur) ts'
  end.

(** A path of names [a::b::c], and the rest *)
Fixpoint path_prefix (ts : list token) : option (list string * list token) :=
  match ts with
  | TIdent i :: ts1 =>
      match ts1 with
      | a :: b :: ts2 =>
          if is_p ":" a && is_p ":" b
          then match path_prefix ts2 with Some (p, r) => Some (i :: p, r) | None => None end
          else Some ([i], ts1)
      | _ => Some ([i], ts1)
      end
  | _ => None
  end.
Definition is_ident (p : list string) (name : string) : bool :=
  match p with [i] => String.eqb i name | _ => false end.
Fixpoint path_tokens (p : list string) : list token :=
  match p with
  | [] => []
  | [i] => [TIdent i]
  | i :: p' => TIdent i :: TPunct ":" :: TPunct ":" :: path_tokens p'
  end.

(** A type in front, and the rest: references, one bracketed token, or a path with generic arguments.
    [Angle n]: inside [n + 1] open angle brackets. *)
Inductive ty_state := Start | After | Colon | Angle (n : nat).
Fixpoint ty_prefix (st : ty_state) (ts : list token) : option (list token * list token) :=
  match ts with
  | [] => match st with After => Some ([], []) | _ => None end
  | t :: ts' =>
      let more st' := match ty_prefix st' ts' with Some (a, r) => Some (t :: a, r) | None => None end in
      match st with
      | Start =>
          if is_p "&" t || is_kw "mut" t then more Start
          else match t with
               | TLife _ => more Start
               | TIdent _ => more After
               | TGroup _ _ => Some ([t], ts')
               | _ => None
               end
      | After =>
          if is_p "<" t then more (Angle 0)
          else if is_p ":" t then more Colon
          else Some ([], ts)
      | Colon => if is_p ":" t then more Start else None
      | Angle n =>
          if is_p "<" t then more (Angle (S n))
          else if is_p ">" t then match n with O => Some ([t], ts') | S n' => more (Angle n') end
          else more (Angle n)
      end
  end.

(** The tokens up to a comma (an expression in an attribute) *)
Fixpoint to_comma (ts : list token) : list token * list token :=
  match ts with
  | [] => ([], [])
  | t :: ts' => if is_p "," t then ([], ts) else let (a, r) := to_comma ts' in (t :: a, r)
  end.

(** ** Attributes and meta items *)

(** [#[path tokens]] *)
Record attribute := mk_attr { a_path : list string; a_tokens : list token }.

Fixpoint outer_attrs (ts : list token) : list attribute * list token :=
  match ts with
  | h :: TGroup Bracket body :: ts' =>
      if is_p "#" h then
        let (l, r) := outer_attrs ts' in
        match path_prefix body with
        | Some (p, rest) => (mk_attr p rest :: l, r)
        | None => (mk_attr [] body :: l, r)
        end
      else ([], ts)
  | _ => ([], ts)
  end.

Inductive lit := LInt (n : N) | LFloat (s : string) | LStr (s : string) | LBool (b : bool).

Definition lit_of (t : token) : option lit :=
  match t with
  | TInt n _ => Some (LInt n)
  | TFloat s => Some (LFloat s)
  | TStr s => Some (LStr s)
  | TIdent s => if String.eqb s "true" then Some (LBool true)
                else if String.eqb s "false" then Some (LBool false) else None
  | _ => None
  end.

(** [syn::NestedMeta]: [name], [name = literal], [name(...)] (the inside is not parsed further) or a literal *)
Inductive nested :=
| NPath (p : list string)
| NValue (p : list string) (l : lit)
| NList (p : list string) (ts : list token)
| NLit (l : lit).

(** Behind the path of a meta item *)
Definition meta_rest {A} (rest : list token) (path : A) (value : lit -> A) (list_ : list token -> mres A) : mres A :=
  match rest with
  | [] => Good path
  | [TGroup Paren ts] => list_ ts
  | [e; t] => if is_p "=" e then match lit_of t with Some l => Good (value l) | None => Bad "expected literal" end
              else Bad "unexpected token"
  | _ => Bad "unexpected token"
  end.

Definition nested_of (seg : list token) : mres nested :=
  match seg with
  | [t] => match lit_of t, t with
           | Some l, _ => Good (NLit l)
           | None, TIdent i => Good (NPath [i])
           | None, _ => Bad "expected identifier or literal"
           end
  | _ => match path_prefix seg with
         | Some (p, rest) => meta_rest rest (NPath p) (NValue p) (fun ts => Good (NList p ts))
         | None => Bad "expected identifier or literal"
         end
  end.

(** [syn::Meta] *)
Inductive meta :=
| MPath
| MList (l : list nested)
| MValue (l : lit).

(** [Attribute::parse_meta] *)
Definition parse_meta (a : attribute) : mres meta :=
  meta_rest (a_tokens a) MPath MValue (fun ts => do l <- mmap nested_of (split_commas ts); Good (MList l)).

(** ** Items *)

Record syn_field := mk_sf { sf_attrs : list attribute; sf_name : string; sf_ty : list token }.
Inductive fields := Named (l : list syn_field) | Unnamed | Unit.

Record variant := mk_variant { v_attrs : list attribute; v_name : string; v_unit : bool; v_disc : option (list token) }.

Definition skip_vis (ts : list token) : list token :=
  match ts with
  | TIdent "pub" :: TGroup Paren _ :: ts' => ts'
  | TIdent "pub" :: ts' => ts'
  | _ => ts
  end.

Definition parse_field (seg : list token) : mres syn_field :=
  let (attrs, r) := outer_attrs seg in
  match skip_vis r with
  | TIdent n :: TPunct ":" :: ty =>
      match ty_prefix Start ty with
      | Some (t, []) => Good (mk_sf attrs n t)
      | _ => Bad "expected type"
      end
  | _ => Bad "expected identifier"
  end.

Definition parse_variant (seg : list token) : mres variant :=
  let (attrs, r) := outer_attrs seg in
  match r with
  | [TIdent n] => Good (mk_variant attrs n true None)
  | TIdent n :: TPunct "=" :: e => Good (mk_variant attrs n true (Some e))
  | [TIdent n; TGroup _ _] => Good (mk_variant attrs n false None)
  | TIdent n :: TGroup _ _ :: TPunct "=" :: e => Good (mk_variant attrs n false (Some e))
  | _ => Bad "expected variant"
  end.

Inductive syn_item :=
| IStruct (attrs : list attribute) (name : string) (fs : mres fields)
| IEnum (attrs : list attribute) (name : string) (vs : mres (list variant))
| IMacro (attrs : list attribute) (path : list string) (body : list token)
| IOther.

(** Behind [struct Name] or [enum Name]: the body, and the rest of the file *)
Fixpoint body_of (ts : list token) : fields + list token -> (fields + list token) * list token :=
  fun d =>
  match ts with
  | [] => (d, [])
  | TPunct ";" :: ts' => (d, ts')
  | TGroup Brace b :: ts' => (inr b, ts')
  | TGroup Paren _ :: ts' => body_of ts' (inl Unnamed)
  | _ :: ts' => body_of ts' d
  end.

(** Any other item ends with a semicolon or a braced group *)
Fixpoint skip_item (ts : list token) : list token :=
  match ts with
  | [] => []
  | TPunct ";" :: ts' => ts'
  | TGroup Brace _ :: ts' => ts'
  | _ :: ts' => skip_item ts'
  end.

(** The next item and the rest.  (Modules are skipped as other items.) *)
Definition next_item (ts : list token) : syn_item * list token :=
  let (attrs, r) := outer_attrs ts in
  match skip_vis r with
  | TIdent "struct" :: TIdent n :: r' =>
      match body_of r' (inl Unit) with
      | (inr b, r'') => (IStruct attrs n (do l <- mmap parse_field (split_fields O [] b); Good (Named l)), r'')
      | (inl f, r'') => (IStruct attrs n (Good f), r'')
      end
  | TIdent "enum" :: TIdent n :: r' =>
      match body_of r' (inl Unit) with
      | (inr b, r'') => (IEnum attrs n (mmap parse_variant (split_commas b)), r'')
      | (inl _, r'') => (IOther, r'')
      end
  | TPunct "#" :: TPunct "!" :: TGroup Bracket _ :: r' => (IOther, r')
  | r0 =>
      match path_prefix r0 with
      | Some (p, TPunct "!" :: TGroup _ b :: r') => (IMacro attrs p b, r')
      | _ => (IOther, skip_item r0)
      end
  end.

Fixpoint items_of (fuel : nat) (ts : list token) : list syn_item :=
  match ts, fuel with
  | [], _ | _, O => []
  | _, S fuel' => let (i, r) := next_item ts in i :: items_of fuel' r
  end.
Definition items (ts : list token) : list syn_item := items_of (length ts) ts.
