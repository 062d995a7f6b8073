(** * Hand-written functions: their text as syntax trees

    The library's own functions (parser.rs, ubx_packets.rs, packets.rs) are written in a small part of Rust.  This file gives that part a
    syntax and reads it from token trees (Tokens.v), the way rustc's parser reads it: paths, literals, operators with their
    precedences, fields, indexing, calls, method calls, closures, blocks, [if], [match], [while], [for], [return], [break],
    [continue], [let], assignments, struct literals and macro calls.  Anything else makes the reader fail.
    (The reader is rustc's, not code of /repo.) *)
From Coq Require Import String Ascii List NArith Bool.
From Verif Require Import Tokens.
Import ListNotations.
Open Scope N_scope.
Open Scope list_scope.

(** ** Syntax *)

Inductive binop :=
| OAdd | OSub | OMul | ODiv | ORem | OShl | OShr | OAnd | OOr | OXor
| OEq | ONe | OLt | OLe | OGt | OGe | OLand | OLor.

Inductive unop := UNot | UNeg | UDeref | URef | URefMut.

(** A pattern: a variable, [_], a number, a range of numbers ([a..=b]), a truth value, alternatives, a tuple, or a
    constructor with arguments *)
Inductive lpat :=
| LVar (x : string)
| LWild
| LNum (n : N)
| LRange (a b : N)
| LBool (b : bool)
| LOr (ps : list lpat)
| LTuple (ps : list lpat)
| LCtor (path : list string) (ps : list lpat).

Inductive expr :=
| ENum (n : N) (suffix : string)
| EFloat (text : string)
| EText (s : string)
| EBool (b : bool)
| EPath (path : list string)
| EField (e : expr) (x : string)
| EIndex (e i : expr)
| EUn (o : unop) (e : expr)
| EBin (o : binop) (a b : expr)
| EAssign (o : option binop) (place e : expr)
| ERange (a b : option expr)
| ECall (path : list string) (args : list expr)
| EMethod (e : expr) (m : string) (args : list expr)
| EMacro (m : string) (args : list token)
| ETuple (es : list expr)
| EArray (es : list expr)
| EStruct (path : list string) (fields : list (string * expr))
| EClosure (p : lpat) (body : expr)
| EIf (c t : expr) (f : option expr)
| EMatch (e : expr) (arms : list (lpat * expr))
| EWhile (c body : expr)
| EFor (x : string) (e body : expr)
| EReturn (e : option expr)
| EBreak
| EContinue
| ETry (e : expr)
| ECast (e : expr) (ty : list token)
| EBlock (stmts : list expr)
| ELet (p : lpat) (ty : list token) (e : expr)
| ESemi (e : expr).

(** A function or a constant: the type of its [impl] block, the tokens of the trait it implements (if any), its name, its parameters with
    their types ([self] without one), its result type and its body.  A constant of an [impl] block is a function without
    parameters whose trait is [const]. *)
Record lfn := mk_lfn {
  lf_type : string; lf_trait : list token; lf_name : string;
  lf_params : list (string * list token); lf_ret : list token; lf_body : expr }.

(** ** Reading *)

Definition is_p (c : ascii) (t : token) : bool := token_eqb t (TPunct c).
Definition is_kw (s : string) (t : token) : bool := token_eqb t (TIdent s).

(** An operator in front with its precedence *)
Definition peek_op (ts : list token) : option (binop * N * list token) :=
  match ts with
  | TPunct "="%char :: TPunct "="%char :: r => Some (OEq, 4, r)
  | TPunct "!"%char :: TPunct "="%char :: r => Some (ONe, 4, r)
  | TPunct "<"%char :: TPunct "="%char :: r => Some (OLe, 4, r)
  | TPunct ">"%char :: TPunct "="%char :: r => Some (OGe, 4, r)
  | TPunct "<"%char :: TPunct "<"%char :: r => Some (OShl, 8, r)
  | TPunct ">"%char :: TPunct ">"%char :: r => Some (OShr, 8, r)
  | TPunct "<"%char :: r => Some (OLt, 4, r)
  | TPunct ">"%char :: r => Some (OGt, 4, r)
  | TPunct "&"%char :: TPunct "&"%char :: r => Some (OLand, 3, r)
  | TPunct "|"%char :: TPunct "|"%char :: r => Some (OLor, 2, r)
  | TPunct "|"%char :: TPunct "="%char :: _ => None
  | TPunct "|"%char :: r => Some (OOr, 5, r)
  | TPunct "^"%char :: r => Some (OXor, 6, r)
  | TPunct "&"%char :: r => Some (OAnd, 7, r)
  | TPunct _ :: TPunct "="%char :: r => None
  | TPunct "+"%char :: r => Some (OAdd, 9, r)
  | TPunct "-"%char :: r => Some (OSub, 9, r)
  | TPunct "*"%char :: r => Some (OMul, 10, r)
  | TPunct "/"%char :: r => Some (ODiv, 10, r)
  | TPunct "%"%char :: r => Some (ORem, 10, r)
  | _ => None
  end.

(** The operator of an assignment: [=], [+=], [-=], [|=] *)
Definition peek_assign (ts : list token) : option (option binop * list token) :=
  match ts with
  | TPunct "="%char :: TPunct ">"%char :: _ => None
  | TPunct "="%char :: r => Some (None, r)
  | TPunct "+"%char :: TPunct "="%char :: r => Some (Some OAdd, r)
  | TPunct "-"%char :: TPunct "="%char :: r => Some (Some OSub, r)
  | TPunct "|"%char :: TPunct "="%char :: r => Some (Some OOr, r)
  | _ => None
  end.

Fixpoint path_rest (ts : list token) : list string * list token :=
  match ts with
  | TPunct ":"%char :: TPunct ":"%char :: TIdent x :: r => let (p, r') := path_rest r in (x :: p, r')
  | _ => ([], ts)
  end.

(** The tokens up to a comma which is not between [<] and [>], and the rest after it *)
Fixpoint until_comma (depth : nat) (ts : list token) : list token * list token :=
  match ts with
  | [] => ([], [])
  | t :: r =>
      if is_p "," t && Nat.eqb depth 0 then ([], r)
      else let d := if is_p "<" t then S depth else if is_p ">" t then pred depth else depth in
           let (a, b) := until_comma d r in (t :: a, b)
  end.

Fixpoint commas (fuel : nat) (ts : list token) : list (list token) :=
  match fuel, ts with
  | O, _ | _, [] => []
  | S fuel', _ => let (a, b) := until_comma 0 ts in a :: commas fuel' b
  end.

Fixpoint until_p (c : ascii) (ts : list token) : option (list token * list token) :=
  match ts with
  | [] => None
  | t :: r => if is_p c t then Some ([], r)
              else match until_p c r with Some (a, b) => Some (t :: a, b) | None => None end
  end.

Fixpoint map_opt {A B} (f : A -> option B) (l : list A) : option (list B) :=
  match l with
  | [] => Some []
  | a :: l' => match f a, map_opt f l' with Some b, Some bs => Some (b :: bs) | _, _ => None end
  end.

(** A name which starts with a capital letter (a constructor or a type) *)
Definition capital (s : string) : bool :=
  match s with
  | String c _ => existsb (Ascii.eqb c) (list_ascii_of_string "ABCDEFGHIJKLMNOPQRSTUVWXYZ")
  | EmptyString => false
  end.

Fixpoint read_pat (fuel : nat) (ts : list token) : option (lpat * list token) :=
  match fuel with
  | O => None
  | S fuel' =>
      let sub (l : list token) : option lpat :=
        match read_pat fuel' l with Some (p, []) => Some p | _ => None end in
      match ts with
      | TPunct "&"%char :: r => read_pat fuel' r
      | TIdent "mut" :: TIdent x :: r => Some (LVar x, r)
      | TInt n _ :: TPunct "."%char :: TPunct "."%char :: TPunct "="%char :: TInt m _ :: r => Some (LRange n m, r)
      | TInt n _ :: r => Some (LNum n, r)
      | TIdent "true" :: r => Some (LBool true, r)
      | TIdent "false" :: r => Some (LBool false, r)
      | TGroup Paren l :: r =>
          match map_opt sub (commas (List.length l) l) with Some ps => Some (LTuple ps, r) | None => None end
      | TIdent x :: r =>
          let (p, r') := path_rest r in
          match r' with
          | TGroup Paren l :: r'' =>
              match map_opt sub (commas (List.length l) l) with Some ps => Some (LCtor (x :: p) ps, r'') | None => None end
          | _ =>
              if String.eqb x "_" then Some (LWild, r')
              else if capital x then Some (LCtor (x :: p) [], r')
              else match p with [] => Some (LVar x, r') | _ => None end
          end
      | _ => None
      end
  end.

(** Alternatives [p | q | r] *)
Fixpoint read_alts (n fuel : nat) (ts : list token) : option (list lpat * list token) :=
  match n with
  | O => None
  | S n' =>
      match read_pat fuel ts with
      | Some (p, TPunct "|"%char :: r) =>
          match read_alts n' fuel r with Some (ps, r') => Some (p :: ps, r') | None => None end
      | Some (p, r) => Some ([p], r)
      | None => None
      end
  end.

Definition read_arm_pat (fuel : nat) (ts : list token) : option (lpat * list token) :=
  match read_alts (List.length ts) fuel ts with
  | Some ([p], r) => Some (p, r)
  | Some (ps, r) => Some (LOr ps, r)
  | None => None
  end.

Definition block_like (e : expr) : bool :=
  match e with EIf _ _ _ | EMatch _ _ | EWhile _ _ | EFor _ _ _ | EBlock _ => true | _ => false end.

(** [ns]: no struct literal here (the condition of [if], [while], [match], [for]) *)
Fixpoint read (fuel : nat) : (bool -> N -> list token -> option (expr * list token)) :=
  match fuel with
  | O => fun _ _ _ => None
  | S fuel' =>
      let rd := read fuel' in
      (** a whole group as one expression *)
      let whole (l : list token) : option expr :=
        match rd false 0 l with Some (e, []) => Some e | _ => None end in
      let wholes (l : list token) : option (list expr) := map_opt whole (commas (List.length l) l) in
      (** the statements of a block *)
      let block :=
        fix block (n : nat) (ts : list token) : option (list expr) :=
          match n, ts with
          | _, [] => Some []
          | O, _ => None
          | S n', TPunct ";"%char :: r => block n' r
          | S n', TIdent "let" :: r =>
              match read_pat fuel' r with
              | Some (p, TPunct ":"%char :: r') =>
                  match until_p "=" r' with
                  | Some (ty, r'') =>
                      match rd false 0 r'' with
                      | Some (e, TPunct ";"%char :: r3) =>
                          match block n' r3 with Some l => Some (ELet p ty e :: l) | None => None end
                      | _ => None
                      end
                  | None => None
                  end
              | Some (p, TPunct "="%char :: r') =>
                  match rd false 0 r' with
                  | Some (e, TPunct ";"%char :: r3) =>
                      match block n' r3 with Some l => Some (ELet p [] e :: l) | None => None end
                  | _ => None
                  end
              | _ => None
              end
          | S n', _ =>
              (** an expression which ends with a block is a statement by itself *)
              match rd true 100 ts with
              | Some (e, r) =>
                  if block_like e && match r with TPunct _ :: _ => false | _ => true end then
                    match r with
                    | [] => Some [e]
                    | _ => match block n' r with Some l => Some (ESemi e :: l) | None => None end
                    end
                  else
                    match rd false 0 ts with
                    | Some (e, TPunct ";"%char :: r) =>
                        match block n' r with Some l => Some (ESemi e :: l) | None => None end
                    | Some (e, []) => Some [e]
                    | _ => None
                    end
              | None => None
              end
          end in
      let blk (l : list token) : option expr :=
        match block (S (List.length l)) l with Some ss => Some (EBlock ss) | None => None end in
      let arms :=
        fix arms (n : nat) (ts : list token) : option (list (lpat * expr)) :=
          match n, ts with
          | _, [] => Some []
          | O, _ => None
          | S n', TPunct ","%char :: r => arms n' r
          | S n', _ =>
              match read_arm_pat fuel' ts with
              | Some (p, TPunct "="%char :: TPunct ">"%char :: r) =>
                  match rd false 0 r with
                  | Some (e, r') => match arms n' r' with Some l => Some ((p, e) :: l) | None => None end
                  | None => None
                  end
              | _ => None
              end
          end in
      let field (l : list token) : option (string * expr) :=
        match l with
        | [TIdent x] => Some (x, EPath [x])
        | TIdent x :: TPunct ":"%char :: r => match whole r with Some e => Some (x, e) | None => None end
        | _ => None
        end in
      let primary (ns : bool) (ts : list token) : option (expr * list token) :=
        match ts with
        | TInt n s :: r => Some (ENum n s, r)
        | TFloat s :: r => Some (EFloat s, r)
        | TStr s :: r => Some (EText s, r)
        | TIdent "true" :: r => Some (EBool true, r)
        | TIdent "false" :: r => Some (EBool false, r)
        | TGroup Brace l :: r => match blk l with Some b => Some (b, r) | None => None end
        | TIdent "unsafe" :: TGroup Brace l :: r => match blk l with Some b => Some (b, r) | None => None end
        | TGroup Bracket l :: r => match wholes l with Some es => Some (EArray es, r) | None => None end
        | TGroup Paren l :: r =>
            match wholes l with
            | Some [e] => if is_p "," (last l (TPunct "(")) then Some (ETuple [e], r) else Some (e, r)
            | Some es => Some (ETuple es, r)
            | None => None
            end
        | TIdent "if" :: r =>
            match rd true 0 r with
            | Some (c, TGroup Brace l :: r') =>
                match blk l with
                | Some t =>
                    match r' with
                    | TIdent "else" :: TGroup Brace l' :: r'' =>
                        match blk l' with Some f => Some (EIf c t (Some f), r'') | None => None end
                    | TIdent "else" :: r'' =>
                        match rd true 100 r'' with Some (f, r3) => Some (EIf c t (Some f), r3) | None => None end
                    | _ => Some (EIf c t None, r')
                    end
                | None => None
                end
            | _ => None
            end
        | TIdent "while" :: r =>
            match rd true 0 r with
            | Some (c, TGroup Brace l :: r') => match blk l with Some b => Some (EWhile c b, r') | None => None end
            | _ => None
            end
        | TIdent "for" :: TIdent x :: TIdent "in" :: r =>
            match rd true 0 r with
            | Some (e, TGroup Brace l :: r') => match blk l with Some b => Some (EFor x e b, r') | None => None end
            | _ => None
            end
        | TIdent "match" :: r =>
            match rd true 0 r with
            | Some (e, TGroup Brace l :: r') =>
                match arms (S (List.length l)) l with Some a => Some (EMatch e a, r') | None => None end
            | _ => None
            end
        | TIdent x :: r =>
            let (p, r') := path_rest r in
            match r' with
            | TPunct "!"%char :: TGroup Paren l :: r'' => Some (EMacro x l, r'')
            | TGroup Paren l :: r'' => match wholes l with Some es => Some (ECall (x :: p) es, r'') | None => None end
            | TGroup Brace l :: r'' =>
                if ns || negb (capital x) then Some (EPath (x :: p), r')
                else match map_opt field (commas (List.length l) l) with
                     | Some fs => Some (EStruct (x :: p) fs, r'')
                     | None => None
                     end
            | _ => Some (EPath (x :: p), r')
            end
        (** [<dyn a::B>::f(args)] *)
        | TPunct "<"%char :: TIdent "dyn" :: TIdent x :: r =>
            let (p, r') := path_rest r in
            match r' with
            | TPunct ">"%char :: r'' =>
                match path_rest r'' with
                | (q, TGroup Paren l :: r3) =>
                    match wholes l with Some es => Some (ECall (x :: p ++ q) es, r3) | None => None end
                | _ => None
                end
            | _ => None
            end
        | _ => None
        end in
      let postfix :=
        fix postfix (n : nat) (e : expr) (ts : list token) : option (expr * list token) :=
          match n with
          | O => None
          | S n' =>
              match ts with
              | TPunct "."%char :: TPunct "."%char :: _ => Some (e, ts)
              | TPunct "."%char :: TIdent x :: TGroup Paren l :: r =>
                  match wholes l with Some es => postfix n' (EMethod e x es) r | None => None end
              | TPunct "."%char :: TIdent x :: r => postfix n' (EField e x) r
              | TPunct "."%char :: TInt 0 _ :: r => postfix n' (EField e "0") r
              | TPunct "."%char :: TInt 1 _ :: r => postfix n' (EField e "1") r
              | TGroup Bracket l :: r => match whole l with Some i => postfix n' (EIndex e i) r | None => None end
              | TPunct "?"%char :: r => postfix n' (ETry e) r
              | _ => Some (e, ts)
              end
          end in
      let unary (ns : bool) (ts : list token) : option (expr * list token) :=
        let un o r := match rd ns 12 r with Some (e, r') => Some (EUn o e, r') | None => None end in
        match ts with
        | TPunct "!"%char :: r => un UNot r
        | TPunct "-"%char :: r => un UNeg r
        | TPunct "*"%char :: r => un UDeref r
        | TPunct "&"%char :: TIdent "mut" :: r => un URefMut r
        | TPunct "&"%char :: r => un URef r
        | TPunct "|"%char :: r =>
            match until_p "|" r with
            | Some (pt, r') =>
                match read_pat fuel' pt with
                | Some (p, []) => match rd ns 0 r' with Some (b, r'') => Some (EClosure p b, r'') | None => None end
                | _ => None
                end
            | None => None
            end
        | TIdent "break" :: r => Some (EBreak, r)
        | TIdent "continue" :: r => Some (EContinue, r)
        | TIdent "return" :: r =>
            match r with
            | [] | TPunct _ :: _ =>
                match r with
                | TPunct "&"%char :: _ | TPunct "!"%char :: _ | TPunct "*"%char :: _ | TPunct "-"%char :: _ =>
                    match rd ns 0 r with Some (e, r') => Some (EReturn (Some e), r') | None => None end
                | _ => Some (EReturn None, r)
                end
            | _ => match rd ns 0 r with Some (e, r') => Some (EReturn (Some e), r') | None => None end
            end
        | _ => match primary ns ts with Some (e, r) => postfix (S (List.length r)) e r | None => None end
        end in
      let climb :=
        fix climb (n : nat) (ns : bool) (min : N) (e : expr) (ts : list token) : option (expr * list token) :=
          match n with
          | O => None
          | S n' =>
              match ts with
              | TIdent "as" :: TIdent ty :: r => if min <=? 11 then climb n' ns min (ECast e [TIdent ty]) r else Some (e, ts)
              | _ =>
                  match peek_op ts with
                  | Some (o, p, r) =>
                      if min <=? p then
                        match rd ns (p + 1) r with
                        | Some (e', r') => climb n' ns min (EBin o e e') r'
                        | None => None
                        end
                      else Some (e, ts)
                  | None => Some (e, ts)
                  end
              end
          end in
      fun ns min ts =>
        (** 0: ranges and assignments; 1: operators; 12: operands; 100: an operand without operators after it *)
        match ts with
        | TPunct "."%char :: TPunct "."%char :: r =>
            if min =? 0 then
              match r with
              | [] => Some (ERange None None, [])
              | _ => match rd ns 1 r with Some (e, r') => Some (ERange None (Some e), r') | None => None end
              end
            else None
        | _ =>
            if min =? 100 then match primary ns ts with Some x => Some x | None => Some (EBreak, TPunct "?" :: ts) end
            else
              match unary ns ts with
              | Some (e, r) =>
                  match climb (S (List.length r)) ns min e r with
                  | Some (e1, r1) =>
                      if min =? 0 then
                        match r1 with
                        | TPunct "."%char :: TPunct "."%char :: r2 =>
                            match r2 with
                            | [] => Some (ERange (Some e1) None, [])
                            | _ =>
                                match rd ns 1 r2 with
                                | Some (e2, r3) => Some (ERange (Some e1) (Some e2), r3)
                                | None => None
                                end
                            end
                        | _ =>
                            match peek_assign r1 with
                            | Some (o, r2) =>
                                match rd ns 0 r2 with Some (e2, r3) => Some (EAssign o e1 e2, r3) | None => None end
                            | None => Some (e1, r1)
                            end
                        end
                      else Some (e1, r1)
                  | None => None
                  end
              | None => None
              end
        end
  end.

(** ** Items *)

(** The tokens between [<] and its [>], and the rest *)
Fixpoint angle (depth : nat) (ts : list token) : list token :=
  match ts with
  | [] => []
  | TPunct "-"%char :: TPunct ">"%char :: r => angle depth r
  | t :: r =>
      if is_p "<" t then angle (S depth) r
      else if is_p ">" t then match depth with S (S d) => angle (S d) r | _ => r end
      else match depth with O => ts | _ => angle depth r end
  end.

(** The tokens up to a brace group or a semicolon, and that token with the rest *)
Fixpoint until_body (ts : list token) : list token * list token :=
  match ts with
  | [] => ([], [])
  | TGroup Brace l :: r => ([], ts)
  | TPunct ";"%char :: r => ([], ts)
  | t :: r => let (a, b) := until_body r in (t :: a, b)
  end.

Fixpoint split_for (ts : list token) : option (list token * list token) :=
  match ts with
  | [] => None
  | TIdent "for" :: r => Some ([], r)
  | t :: r => match split_for r with Some (a, b) => Some (t :: a, b) | None => None end
  end.

Definition first_ident (ts : list token) : string :=
  match ts with TIdent x :: _ => x | _ => "" end.

Definition read_param (l : list token) : option (string * list token) :=
  match l with
  | TIdent "mut" :: TIdent x :: TPunct ":"%char :: ty => Some (x, ty)
  | TIdent x :: TPunct ":"%char :: ty => Some (x, ty)
  | _ => if existsb (is_kw "self") l then Some ("self"%string, []) else None
  end.

Definition body_of (fuel : nat) (l : list token) : option expr :=
  match read fuel false 100 [TGroup Brace l] with Some (e, []) => Some e | _ => None end.

(** [Self] in an [impl] block is its type *)
Fixpoint no_self (ty : string) (t : token) : token :=
  match t with
  | TIdent x => if String.eqb x "Self" then TIdent ty else t
  | TGroup d l => TGroup d (map (no_self ty) l)
  | _ => t
  end.

Definition is_arrow (ts : list token) : list token :=
  match ts with TPunct "-"%char :: TPunct ">"%char :: r => r | _ => [] end.

(** The functions and constants among the items of a block.  A function without body is skipped. *)
Fixpoint read_fns (fuel : nat) (ty : string) (tr : list token) (ts : list token) : option (list lfn) :=
  match fuel with
  | O => None
  | S fuel' =>
      match ts with
      | [] => Some []
      | TIdent "fn" :: TIdent name :: r =>
          match angle 0 r with
          | TGroup Paren l :: r1 =>
              let (ret, r2) := until_body r1 in
              match r2 with
              | TGroup Brace b :: r3 =>
                  match map_opt read_param (commas (List.length l) l), body_of fuel (map (no_self ty) b), read_fns fuel' ty tr r3 with
                  | Some ps, Some body, Some fs => Some (mk_lfn ty tr name ps (is_arrow ret) body :: fs)
                  | _, _, _ => None
                  end
              | _ :: r3 => read_fns fuel' ty tr r3
              | [] => None
              end
          | _ => None
          end
      | TIdent "const" :: TIdent name :: TPunct ":"%char :: t :: TPunct "="%char :: r =>
          match until_p ";" r with
          | Some (b, r1) =>
              match body_of fuel (map (no_self ty) b), read_fns fuel' ty tr r1 with
              | Some body, Some fs => Some (mk_lfn ty [TIdent "const"] name [] [t] body :: fs)
              | _, _ => None
              end
          | None => None
          end
      | _ :: r => read_fns fuel' ty tr r
      end
  end.

(** The functions of a file: those of its [impl] and [trait] blocks, and the free ones (type [""]).  The functions of
    [trait X] have the type ["trait X"], those of a module [mod x] the type ["x"].  A [#[test]] function is skipped. *)
Fixpoint read_file (fuel : nat) (ts : list token) : option (list lfn) :=
  match fuel with
  | O => None
  | S fuel' =>
      match ts with
      | [] => Some []
      | TIdent "impl" :: r =>
          let (h, r1) := until_body (angle 0 r) in
          match r1 with
          | TGroup Brace b :: r2 =>
              let (tr, ty) := match split_for h with Some (a, b) => (a, first_ident b) | None => ([], first_ident h) end in
              match read_fns fuel ty tr b, read_file fuel' r2 with
              | Some fs, Some fs' => Some (fs ++ fs')
              | _, _ => None
              end
          | _ => None
          end
      | TIdent "trait" :: TIdent x :: r =>
          let (_, r1) := until_body r in
          match r1 with
          | TGroup Brace b :: r2 =>
              match read_fns fuel ("trait " ++ x)%string [] b, read_file fuel' r2 with
              | Some fs, Some fs' => Some (fs ++ fs')
              | _, _ => None
              end
          | _ => None
          end
      | TIdent "mod" :: TIdent x :: TGroup Brace b :: r =>
          match read_fns fuel x [] b, read_file fuel' r with
          | Some fs, Some fs' => Some (fs ++ fs')
          | _, _ => None
          end
      | TPunct "#"%char :: TGroup Bracket [TIdent "test"] :: r =>
          match until_body r with
          | (_, _ :: r1) => read_file fuel' r1
          | (_, []) => None
          end
      | TIdent "fn" :: r =>
          let (h, r1) := until_body r in
          match r1 with
          | TGroup Brace b :: r2 =>
              match read_fns fuel "" [] (TIdent "fn" :: h ++ [TGroup Brace b]), read_file fuel' r2 with
              | Some fs, Some fs' => Some (fs ++ fs')
              | _, _ => None
              end
          | _ => None
          end
      | _ :: r => read_file fuel' r
      end
  end.

(** The structs of a file with the types of their fields *)
Fixpoint read_field (l : list token) : option (string * list token) :=
  match l with
  | TPunct "#"%char :: TGroup Bracket _ :: r => read_field r
  | TIdent "pub" :: TIdent x :: TPunct ":"%char :: ty => Some (x, ty)
  | TIdent "pub" :: TGroup Paren _ :: TIdent x :: TPunct ":"%char :: ty => Some (x, ty)
  | TIdent x :: TPunct ":"%char :: ty => Some (x, ty)
  | _ => None
  end.

Fixpoint read_structs (ts : list token) : list (string * list (string * list token)) :=
  match ts with
  | [] => []
  | TIdent "struct" :: TIdent x :: r =>
      match until_body (angle 0 r) with
      | (_, TGroup Brace l :: _) =>
          match map_opt read_field (commas (List.length l) l) with
          | Some fs => [(x, fs)]
          | None => []
          end
      | _ => []
      end ++ read_structs r
  | _ :: r => read_structs r
  end.

(** [const NAME: ty = n;] *)
Fixpoint read_consts (ts : list token) : list (string * (list token * N)) :=
  match ts with
  | TIdent "const" :: TIdent x :: TPunct ":"%char :: ty :: TPunct "="%char :: TInt n _ :: TPunct ";"%char :: r =>
      (x, ([ty], n)) :: read_consts r
  | _ :: r => read_consts r
  | [] => []
  end.
