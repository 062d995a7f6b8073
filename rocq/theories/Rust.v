(** * The subset of Rust in which the macros write their code

    Not code of /repo: the syntax trees of the functions which ublox_derive/src/output.rs generates, the tokens they are
    written with, and their meaning by the Rust reference.  References are transparent ([&e] is the value of [e]): no value
    of this subset is changed through two names.  A value which the functions of this subset do not look into (a mapped
    field, a writer, an element of a list field) is a [VAny]. *)
From Coq Require Import String Ascii List NArith ZArith Bool.
From Verif Require Import Base Tokens Syntax PackDesc Macro GenSend.
Import ListNotations.
Open Scope N_scope.
Open Scope list_scope.

(** ** Syntax *)

(** The integer types (and, as bit patterns, [f32] and [f64]) *)
Inductive ity := I (s : scalar) | Usize.

Inductive op := Add | Sub | Shl | EqOp | Lt | Ge.

Inductive code :=
(* expressions *)
| ENum (n : N) (suffix : string) (t : ity)          (* a literal; [t] is the type which the compiler gives it *)
| EStr (s : string)
| EBool (b : bool)
| EVar (x : string)
| EConst (p : list string)                          (* a path [A::B] which names a constant *)
| EField (e : code) (n : N)                         (* [e.0] *)
| ENamed (e : code) (x : string)                    (* [e.x] *)
| EIndex (e i : code)
| EFrom (a : code)                                  (* [a..] *)
| ERange (a b : code)                               (* [a..b] *)
| ERef (e : code)                                   (* [&e] *)
| ERefMut (x : string)                              (* [&mut x] *)
| EDeref (e : code)                                 (* [*e] *)
| ENot (e : code)
| EBin (o : op) (a b : code)
| EScale (e : code) (s : string)                    (* [e * s] with a literal [s] of a float type *)
| EParen (e : code)
| ECast (e : code) (ty : list token)                (* [e as ty] *)
| EArray (l : list code)
| ERepeat (e n : code)                              (* [[e; n]] *)
| ETuple (l : list code)
| EFromLe (ty : list token) (e : code)              (* [<ty>::from_le_bytes(e)] *)
| ECall (f : list token) (l : list code)            (* a function of the library *)
| ECtor (p : list string) (l : list code)           (* a tuple struct or variant *)
| EStruct (p : list string) (l : list code) (comma : bool)
                                                    (* [p { ... }]: the fields are [EInit] or [EShort]; a trailing comma *)
| EInit (x : string) (e : code)                     (* [x: e] *)
| EShort (x : string)                               (* [x], for [x: x] *)
| EMethod (e : code) (m : list token) (l : list code)
| ETry (e : code)
| EIf (c t e : code)                                (* [if c t else e]: [t] and [e] are blocks *)
| EReturn (e : code)
| EMatch (e : code) (arms : list code)              (* the arms are [EArm] or [EArmIf] *)
| EArm (p : pat) (e : code) (comma : bool)          (* [p => e], and whether a comma follows *)
| EArmIf (p : pat) (g e : code) (comma : bool)
| EStringify (x : string)
| EUnreachable
| EBlock (l : list code)                            (* statements; the last one may be an expression *)
(* statements *)
| SLet (m : bool) (x : string) (ty : list token) (e : code)   (* [let mut? x (: ty)? = e;] *)
| SLet2 (x y : string) (e : code)                   (* [let (x, y) = e;] *)
| SExpr (e : code)                                  (* [e;] *)
| SIf (c t : code)                                  (* [if c t] *)
| SSet (x : string) (i e : code)                    (* [x[i] = e;] *)
| SAdd (x : string) (e : code)                      (* [x += e;] *)
| SFor (x : string) (e b : code)                    (* [for x in e b] *)
| SEmpty                                            (* [;] *)
with pat :=
| PNum (n : N) (suffix : string)
| PAny
| PVar (x : string)
| PRef (x : string)                                 (* [ref x] *)
| POr (l : list N) (suffix : string)                (* [1 | 2 | 3] *)
| PConst2 (p q : list string)                       (* [(A::B, A::C)] *)
| PCtor (p : list string) (q : pat).                (* [A::B(q)] *)

(** ** Tokens *)

Definition p1 (c : ascii) : list token := [TPunct c].
Definition p2 (c d : ascii) : list token := [TPunct c; TPunct d].
Definition op_tokens (o : op) : list token :=
  match o with
  | Add => p1 "+" | Sub => p1 "-" | Shl => p2 "<" "<" | EqOp => p2 "=" "=" | Lt => p1 "<" | Ge => p2 ">" "="
  end.

Fixpoint with_sep (sep : list token) (l : list (list token)) : list token :=
  match l with
  | [] => []
  | [a] => a
  | a :: l' => a ++ sep ++ with_sep sep l'
  end.
Definition commas := with_sep (p1 ",").

Fixpoint print_pat (p : pat) : list token :=
  match p with
  | PNum n s => [TInt n s]
  | PAny => [TIdent "_"]
  | PVar x => [TIdent x]
  | PRef x => [TIdent "ref"; TIdent x]
  | POr l s => with_sep (p1 "|") (map (fun n => [TInt n s]) l)
  | PConst2 p q => [TGroup Paren (path_tokens p ++ p1 "," ++ path_tokens q)]
  | PCtor p q => path_tokens p ++ [TGroup Paren (print_pat q)]
  end.

Fixpoint print (c : code) : list token :=
  match c with
  | ENum n s _ => [TInt n s]
  | EStr s => [TStr s]
  | EBool b => [TIdent (if b then "true" else "false")%string]
  | EVar x => [TIdent x]
  | EConst p => path_tokens p
  | EField e n => print e ++ p1 "." ++ [TInt n ""]
  | ENamed e x => print e ++ p1 "." ++ [TIdent x]
  | EIndex e i => print e ++ [TGroup Bracket (print i)]
  | EFrom a => print a ++ p2 "." "."
  | ERange a b => print a ++ p2 "." "." ++ print b
  | ERef e => p1 "&" ++ print e
  | ERefMut x => p1 "&" ++ [TIdent "mut"; TIdent x]
  | EDeref e => p1 "*" ++ print e
  | ENot e => p1 "!" ++ print e
  | EBin o a b => print a ++ op_tokens o ++ print b
  | EScale e s => print e ++ p1 "*" ++ [TFloat s]
  | EParen e => [TGroup Paren (print e)]
  | ECast e ty => print e ++ [TIdent "as"] ++ ty
  | EArray l => [TGroup Bracket (commas (map print l))]
  | ERepeat e n => [TGroup Bracket (print e ++ p1 ";" ++ print n)]
  | ETuple l => [TGroup Paren (commas (map print l))]
  | EFromLe ty e => p1 "<" ++ ty ++ p1 ">" ++ p2 ":" ":" ++ [TIdent "from_le_bytes"; TGroup Paren (print e)]
  | ECall f l => f ++ [TGroup Paren (commas (map print l))]
  | ECtor p l => path_tokens p ++ [TGroup Paren (commas (map print l))]
  | EStruct p l c => path_tokens p ++ [TGroup Brace (commas (map print l) ++ (if c then p1 "," else []))]
  | EInit x e => TIdent x :: p1 ":" ++ print e
  | EShort x => [TIdent x]
  | EMethod e m l => print e ++ p1 "." ++ m ++ [TGroup Paren (commas (map print l))]
  | ETry e => print e ++ p1 "?"
  | EIf c t e => TIdent "if" :: print c ++ print t ++ TIdent "else" :: print e
  | EReturn e => TIdent "return" :: print e
  | EMatch e arms => TIdent "match" :: print e ++ [TGroup Brace (flat_map print arms)]
  | EArm p e c => print_pat p ++ p2 "=" ">" ++ print e ++ (if c then p1 "," else [])
  | EArmIf p g e c => print_pat p ++ TIdent "if" :: print g ++ p2 "=" ">" ++ print e ++ (if c then p1 "," else [])
  | EStringify x => TIdent "stringify" :: p1 "!" ++ [TGroup Paren [TIdent x]]
  | EUnreachable => TIdent "unreachable" :: p1 "!" ++ [TGroup Paren []]
  | EBlock l => [TGroup Brace (flat_map print l)]
  | SLet m x ty e =>
      TIdent "let" :: (if m then [TIdent "mut"] else []) ++ [TIdent x] ++
      match ty with [] => [] | _ => p1 ":" ++ ty end ++ p1 "=" ++ print e ++ p1 ";"
  | SLet2 x y e => TIdent "let" :: TGroup Paren ([TIdent x] ++ p1 "," ++ [TIdent y]) :: p1 "=" ++ print e ++ p1 ";"
  | SExpr e => print e ++ p1 ";"
  | SIf c t => TIdent "if" :: print c ++ print t
  | SSet x i e => TIdent x :: [TGroup Bracket (print i)] ++ p1 "=" ++ print e ++ p1 ";"
  | SAdd x e => TIdent x :: p2 "+" "=" ++ print e ++ p1 ";"
  | SFor x e b => TIdent "for" :: TIdent x :: TIdent "in" :: print e ++ print b
  | SEmpty => p1 ";"
  end.

(** A function: what is written up to [fn], its name, its generic parameters, its parameters (the name and what is
    written), what is written between them and the body, the body *)
Record func := mk_func {
  fn_head : list token;
  fn_name : string;
  fn_generics : list token;
  fn_params : list (string * list token);
  fn_ret : list token;
  fn_body : list code;
}.
Definition print_func (f : func) : list token :=
  fn_head f ++ [TIdent (fn_name f)] ++ fn_generics f ++ [TGroup Paren (commas (map snd (fn_params f)))] ++ fn_ret f ++
  [TGroup Brace (flat_map print (fn_body f))].

(** A constant: what is written up to [const], its name, its type, its value *)
Record constant := mk_constant { k_head : list token; k_name : string; k_ty : list token; k_val : code }.
Definition print_constant (k : constant) : list token :=
  k_head k ++ [TIdent (k_name k)] ++ p1 ":" ++ k_ty k ++ p1 "=" ++ print (k_val k) ++ p1 ";".

(** Items: [impl] blocks with their header; the rest, of which the text is kept *)
Inductive ritem :=
| Text (ts : list token)
| Fn (f : func)
| Const (k : constant)
| Impl (head : list token) (consts : list constant) (fns : list func).
Definition print_item (i : ritem) : list token :=
  match i with
  | Text ts => ts
  | Fn f => print_func f
  | Const k => print_constant k
  | Impl head ks fs => head ++ [TGroup Brace (flat_map print_constant ks ++ flat_map print_func fs)]
  end.

(** ** Values *)

Section Meaning.
  Context {A : Type}.

  Inductive value :=
  | VInt (t : ity) (z : Z)
  | VBool (b : bool)
  | VStr (s : string)
  | VBytes (l : list byte)                          (* an array, slice or vector of [u8] *)
  | VList (l : list value)                          (* an array or iterator of other values *)
  | VTuple (l : list value)
  | VFrom (a : N)                                   (* ranges *)
  | VRange (a b : N)
  | VAdt (p : list string) (l : list (string * value))   (* a struct or variant with its fields *)
  | VAny (a : A).

  Definition unit_v : value := VTuple [].
  Definition u8_v (b : byte) : value := VInt (I U8) (Z.of_N (b2n b)).
  Definition usize_v (n : N) : value := VInt Usize (Z.of_N n).
  Definition ok_v (v : value) : value := VAdt ["Ok"%string] [("0"%string, v)].
  Definition err_v (v : value) : value := VAdt ["Err"%string] [("0"%string, v)].

  (** What the generated code uses of the rest of the program.  [None]: there is no such thing for these values. *)
  Record program := mk_program {
    c_const : list string -> option value;
    c_fn : list token -> list value -> option (res value);
    (* receiver, arguments; the receiver and the arguments afterwards and the result *)
    c_method : list token -> value -> list value -> option (res (value * list value * value));
    c_scale : string -> value -> option (res value);
    c_discr : list string -> option Z;              (* [v as u8] of a variant *)
  }.
  Context (P : program).

  (** The variables in scope, the innermost first *)
  Definition env := list (string * value).
  Fixpoint lookup (x : string) (e : env) : option value :=
    match e with
    | [] => None
    | (y, v) :: e' => if String.eqb x y then Some v else lookup x e'
    end.
  Fixpoint assign (x : string) (v : value) (e : env) : env :=
    match e with
    | [] => []
    | (y, w) :: e' => if String.eqb x y then (y, v) :: e' else (y, w) :: assign x v e'
    end.
  (** At the end of a block its variables go *)
  Definition leave (before after : env) : env := skipn (length after - length before) after.

  Inductive outcome (B : Type) :=
  | Done (b : B) (e : env)
  | Return (v : value) (e : env)                    (* [return] or [?] *)
  | Panics
  | Diverges
  | Wrong.                                          (* outside the subset, or a type error *)
  Arguments Done {B}. Arguments Return {B}. Arguments Panics {B}. Arguments Diverges {B}. Arguments Wrong {B}.

  Definition obind {B C} (o : outcome B) (k : B -> env -> outcome C) : outcome C :=
    match o with
    | Done b e => k b e
    | Return v e => Return v e
    | Panics => Panics
    | Diverges => Diverges
    | Wrong => Wrong
    end.
  Definition of_res {B} (e : env) (r : res B) : outcome B :=
    match r with Ret b => Done b e | Panic => Panics | Diverge => Diverges end.
  Definition of_opt {B} (e : env) (r : option (res B)) : outcome B :=
    match r with Some r => of_res e r | None => Wrong end.

  (** Indexing and slicing *)
  Definition index_v (v i : value) : option (res value) :=
    match v, i with
    | VBytes l, VInt Usize z => Some (ret_map u8_v (get l (Z.to_N z)))
    | VBytes l, VFrom a => Some (ret_map VBytes (slice_from l a))
    | VBytes l, VRange a b => Some (ret_map VBytes (slice l a b))
    | VList l, VInt Usize z => Some (get l (Z.to_N z))
    | _, _ => None
    end.

  (** An array of values *)
  Definition as_u8 (v : value) : option byte := match v with VInt (I U8) z => Some (n2b (Z.to_N z)) | _ => None end.
  Fixpoint all_u8 (l : list value) : option (list byte) :=
    match l with
    | [] => Some []
    | v :: l' => match as_u8 v, all_u8 l' with Some b, Some bs => Some (b :: bs) | _, _ => None end
    end.
  Definition array_v (l : list value) : value := match all_u8 l with Some bs => VBytes bs | None => VList l end.

  Definition ity_eqb (a b : ity) : bool :=
    match a, b with
    | Usize, Usize => true
    | I U8, I U8 | I I8, I I8 | I U16, I U16 | I I16, I I16 | I U32, I U32 | I I32, I I32 => true
    | _, _ => false
    end.
  Definition bin_v (o : op) (a b : value) : option (res value) :=
    match o, a, b with
    | Add, VInt Usize x, VInt Usize y => Some (ret_map usize_v (uadd (Z.to_N x) (Z.to_N y)))
    | Sub, VInt Usize x, VInt Usize y => Some (ret_map usize_v (usub (Z.to_N x) (Z.to_N y)))
    | EqOp, VInt t x, VInt u y => if ity_eqb t u then Some (Ret (VBool (x =? y)%Z)) else None
    | Lt, VInt t x, VInt u y => if ity_eqb t u then Some (Ret (VBool (x <? y)%Z)) else None
    | Ge, VInt t x, VInt u y => if ity_eqb t u then Some (Ret (VBool (y <=? x)%Z)) else None
    (* a left operand of an unsigned type, a right one of type [u32] *)
    | Shl, VInt (I s) x, VInt (I U32) y =>
        if scalar_signed s then None
        else Some (if (y <? 8 * Z.of_N (scalar_size s))%Z
                   then Ret (VInt (I s) (Z.shiftl x y mod 2 ^ (8 * Z.of_N (scalar_size s)))) else Panic)
    | _, _, _ => None
    end.

  (** [v as ty], as far as it occurs *)
  Definition cast_v (v : value) (ty : list token) : option (res value) :=
    match v with
    | VBool b => if tokens_eqb ty [TIdent "usize"] then Some (Ret (usize_v (if b then 1 else 0))) else None
    | VInt (I s) z => match scalar_of ty with
                      | Some t => if (0 <=? z)%Z && (z <=? scalar_max t)%Z then Some (Ret (VInt (I t) z)) else None
                      | None => None
                      end
    | VAdt p [] => if tokens_eqb ty [TIdent "u8"]
                   then match c_discr P p with Some z => Some (Ret (VInt (I U8) z)) | None => None end else None
    | _ => None
    end.

  (** The methods of the standard library: [None] if it is none of them *)
  Definition std_method (m : list token) (r : value) (l : list value) : option (value * list value * value) :=
    match m with
    | [TIdent s] =>
        match r, l with
        | VBytes bs, [] =>
            if String.eqb s "len" then Some (r, l, usize_v (lenN bs))
            else if String.eqb s "iter" then Some (r, l, VList (map u8_v bs))
            else None
        | VBytes bs, [VList vs] =>
            if String.eqb s "extend" then
              match all_u8 vs with Some bs' => Some (VBytes (bs ++ bs'), l, unit_v) | None => None end
            else None
        | VInt t z, [] =>
            if String.eqb s "to_le_bytes" then
              Some (r, l, VBytes (match t with I sc => to_le_bytes sc z | Usize => le_bytes 8 (Z.to_N z) end))
            else None
        | VAdt [c] _, [] =>
            if String.eqb s "is_ok" then Some (r, l, VBool (String.eqb c "Ok")) else None
        | _, _ => None
        end
    | _ => None
    end.
  Definition method_v (m : list token) (r : value) (l : list value) : option (res (value * list value * value)) :=
    match std_method m r l with
    | Some x => Some (Ret x)
    | None => c_method P m r l
    end.

  (** [core::iter::once] *)
  Definition once_path : list token := path_tokens ["core"; "iter"; "once"]%string.
  Definition fn_v (f : list token) (l : list value) : option (res value) :=
    if tokens_eqb f once_path then match l with [v] => Some (Ret (VList [v])) | _ => None end
    else c_fn P f l.

  (** What a place expression given as receiver or argument names: after the call it has the new value *)
  Definition write_back (c : code) (v : value) (e : env) : env :=
    match c with EVar x | ERefMut x => assign x v e | _ => e end.
  Fixpoint write_all_back (cs : list code) (vs : list value) (e : env) : env :=
    match cs, vs with
    | c :: cs', v :: vs' => write_all_back cs' vs' (write_back c v e)
    | _, _ => e
    end.

  (** Patterns: the variables they bind *)
  Fixpoint path_eqb (p q : list string) : bool :=
    match p, q with
    | [], [] => true
    | a :: p', b :: q' => String.eqb a b && path_eqb p' q'
    | _, _ => false
    end.
  Definition same_int (v : value) (c : option value) : bool :=
    match v, c with VInt t x, Some (VInt u y) => ity_eqb t u && (x =? y)%Z | _, _ => false end.
  Fixpoint matches (p : pat) (v : value) : option env :=
    match p, v with
    | PAny, _ => Some []
    | PVar x, _ | PRef x, _ => Some [(x, v)]
    | PNum n _, VInt _ z => if (z =? Z.of_N n)%Z then Some [] else None
    | POr l _, VInt _ z => if existsb (fun n => (z =? Z.of_N n)%Z) l then Some [] else None
    | PConst2 p q, VTuple [a; b] => if same_int a (c_const P p) && same_int b (c_const P q) then Some [] else None
    | PCtor p q, VAdt r [(_, w)] => if path_eqb p r then matches q w else None
    | _, _ => None
    end.

  Section Lists.
    Context (eval : code -> env -> outcome value).
    (** Expressions from left to right *)
    Fixpoint eval_list (l : list code) (e : env) : outcome (list value) :=
      match l with
      | [] => Done [] e
      | c :: l' => obind (eval c e) (fun v e => obind (eval_list l' e) (fun vs e => Done (v :: vs) e))
      end.
    (** The statements of a block: its value is that of the last one *)
    Fixpoint eval_seq (l : list code) (e : env) : outcome value :=
      match l with
      | [] => Done unit_v e
      | [c] => eval c e
      | c :: l' => obind (eval c e) (fun _ e => eval_seq l' e)
      end.
    (** The fields of a struct expression *)
    Fixpoint inits (l : list code) (e : env) : outcome (list (string * value)) :=
      match l with
      | [] => Done [] e
      | EInit x c :: l' => obind (eval c e) (fun v e => obind (inits l' e) (fun vs e => Done ((x, v) :: vs) e))
      | EShort x :: l' =>
          match lookup x e with
          | Some v => obind (inits l' e) (fun vs e => Done ((x, v) :: vs) e)
          | None => Wrong
          end
      | _ :: _ => Wrong
      end.
    (** The rounds of a [for] loop *)
    Definition each (x : string) (b : code) : list value -> env -> outcome value :=
      fix go vs e :=
        match vs with
        | [] => Done unit_v e
        | v :: vs' => obind (eval b ((x, v) :: e)) (fun _ e' => go vs' (leave e e'))
        end.
    (** The arms of a [match] *)
    Fixpoint eval_arms (v : value) (l : list code) (e : env) : outcome value :=
      match l with
      | [] => Wrong
      | EArm p c _ :: l' =>
          match matches p v with
          | Some b => obind (eval c (b ++ e)) (fun w e' => Done w (leave e e'))
          | None => eval_arms v l' e
          end
      | EArmIf p g c _ :: l' =>
          match matches p v with
          | Some b =>
              obind (eval g (b ++ e)) (fun w e' =>
                match w with
                | VBool true => obind (eval c e') (fun w e'' => Done w (leave e e''))
                | VBool false => eval_arms v l' (leave e e')
                | _ => Wrong
                end)
          | None => eval_arms v l' e
          end
      | _ :: _ => Wrong
      end.
  End Lists.

  Fixpoint eval (c : code) (e : env) {struct c} : outcome value :=
    match c with
    | ENum n _ t => Done (VInt t (Z.of_N n)) e
    | EStr s => Done (VStr s) e
    | EBool b => Done (VBool b) e
    | EVar x => match lookup x e with Some v => Done v e | None => Wrong end
    | EConst p => match c_const P p with Some v => Done v e | None => Wrong end
    | EField c n =>
        obind (eval c e) (fun v e =>
          match v with
          | VAdt _ l => match nth_error l (N.to_nat n) with Some (_, w) => Done w e | None => Wrong end
          | _ => Wrong
          end)
    | ENamed c x =>
        obind (eval c e) (fun v e =>
          match v with
          | VAdt _ l => match lookup x l with Some w => Done w e | None => Wrong end
          | _ => Wrong
          end)
    | EIndex c i => obind (eval c e) (fun v e => obind (eval i e) (fun w e => of_opt e (index_v v w)))
    | EFrom a =>
        obind (eval a e) (fun v e => match v with VInt Usize z => Done (VFrom (Z.to_N z)) e | _ => Wrong end)
    | ERange a b =>
        obind (eval a e) (fun v e => obind (eval b e) (fun w e =>
          match v, w with
          | VInt Usize x, VInt Usize y => Done (VRange (Z.to_N x) (Z.to_N y)) e
          | _, _ => Wrong
          end))
    | ERef c | EDeref c | EParen c => eval c e
    | ERefMut x => match lookup x e with Some v => Done v e | None => Wrong end
    | ENot c => obind (eval c e) (fun v e => match v with VBool b => Done (VBool (negb b)) e | _ => Wrong end)
    | EBin o a b => obind (eval a e) (fun v e => obind (eval b e) (fun w e => of_opt e (bin_v o v w)))
    | EScale c s => obind (eval c e) (fun v e => of_opt e (c_scale P s v))
    | ECast c ty => obind (eval c e) (fun v e => of_opt e (cast_v v ty))
    | EArray l => obind (eval_list eval l e) (fun vs e => Done (array_v vs) e)
    | ERepeat c n =>
        obind (eval c e) (fun v e => obind (eval n e) (fun w e =>
          match as_u8 v, w with
          | Some b, VInt Usize z => Done (VBytes (repeat b (Z.to_nat z))) e
          | _, _ => Wrong
          end))
    | ETuple l => obind (eval_list eval l e) (fun vs e => Done (VTuple vs) e)
    | EFromLe ty c =>
        obind (eval c e) (fun v e =>
          match v, scalar_of ty with
          | VBytes l, Some s => if lenN l =? scalar_size s then Done (VInt (I s) (from_le_bytes s l)) e else Wrong
          | _, _ => Wrong
          end)
    | ECall f l => obind (eval_list eval l e) (fun vs e => of_opt e (fn_v f vs))
    | ECtor p l =>
        obind (eval_list eval l e) (fun vs e => match vs with [v] => Done (VAdt p [("0"%string, v)]) e | _ => Wrong end)
    | EStruct p l _ => obind (inits eval l e) (fun vs e => Done (VAdt p vs) e)
    | EInit _ _ | EShort _ => Wrong
    | EMethod c m l =>
        obind (eval c e) (fun r e => obind (eval_list eval l e) (fun vs e =>
          match method_v m r vs with
          | Some (Ret (r', vs', v)) => Done v (write_all_back l vs' (write_back c r' e))
          | Some Panic => Panics
          | Some Diverge => Diverges
          | None => Wrong
          end))
    | ETry c =>
        obind (eval c e) (fun v e =>
          match v with
          | VAdt [k] [(_, w)] =>
              if String.eqb k "Ok" then Done w e else if String.eqb k "Err" then Return (err_v w) e else Wrong
          | _ => Wrong
          end)
    | EIf c t f =>
        obind (eval c e) (fun v e =>
          match v with VBool true => eval t e | VBool false => eval f e | _ => Wrong end)
    | EReturn c => obind (eval c e) (fun v e => Return v e)
    | EMatch c arms => obind (eval c e) (fun v e => eval_arms eval v arms e)
    | EArm _ _ _ | EArmIf _ _ _ _ => Wrong
    | EStringify x => Done (VStr x) e
    | EUnreachable => Panics
    | EBlock l => obind (eval_seq eval l e) (fun v e' => Done v (leave e e'))
    | SLet _ x _ c => obind (eval c e) (fun v e => Done unit_v ((x, v) :: e))
    | SLet2 x y c =>
        obind (eval c e) (fun v e =>
          match v with VTuple [a; b] => Done unit_v ((y, b) :: (x, a) :: e) | _ => Wrong end)
    | SExpr c => obind (eval c e) (fun _ e => Done unit_v e)
    | SIf c t =>
        obind (eval c e) (fun v e =>
          match v with VBool true => eval t e | VBool false => Done unit_v e | _ => Wrong end)
    | SSet x i c =>
        (* the right-hand side first *)
        obind (eval c e) (fun v e => obind (eval i e) (fun w e =>
          match lookup x e, w, as_u8 v with
          | Some (VBytes l), VInt Usize z, Some b =>
              match set_at l (Z.to_N z) b with
              | Ret l' => Done unit_v (assign x (VBytes l') e)
              | Panic => Panics
              | Diverge => Diverges
              end
          | _, _, _ => Wrong
          end))
    | SAdd x c =>
        obind (eval c e) (fun v e =>
          match lookup x e with
          | Some w => match bin_v Add w v with
                      | Some (Ret s) => Done unit_v (assign x s e)
                      | Some Panic => Panics
                      | Some Diverge => Diverges
                      | None => Wrong
                      end
          | None => Wrong
          end)
    | SFor x c b => obind (eval c e) (fun v e => match v with VList vs => each eval x b vs e | _ => Wrong end)
    | SEmpty => Done unit_v e
    end.

  (** ** Functions *)

  (** A call: the result, and the values of the parameters at the end (a parameter [&mut x] may have changed).  [None]: the
      evaluation went wrong. *)
  Definition call (f : func) (args : list value) : option (res (value * list value)) :=
    if Nat.eqb (length args) (length (fn_params f)) then
      let e0 := combine (map fst (fn_params f)) args in
      match eval (EBlock (fn_body f)) e0 with
      | Done v e | Return v e => Some (Ret (v, map snd (leave e0 e)))
      | Panics => Some Panic
      | Diverges => Some Diverge
      | Wrong => None
      end
    else None.

  (** The result alone *)
  Definition result (f : func) (args : list value) : option (res value) := option_map (ret_map fst) (call f args).

  (** A constant *)
  Definition const (c : code) : option value := match eval c [] with Done v _ => Some v | _ => None end.
End Meaning.
Arguments value : clear implicits.
Arguments program : clear implicits.
Arguments outcome : clear implicits.
Arguments Done {A B}. Arguments Return {A B}. Arguments Panics {A B}. Arguments Diverges {A B}. Arguments Wrong {A B}.
