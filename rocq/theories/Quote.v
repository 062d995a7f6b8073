(** * Templates of the macro [quote!]

    Not code of /repo: the part of the crate quote which ublox_derive/src/output.rs uses, by its documentation.  In a
    template [#name] stands for the tokens of the variable [name]; [#( body )*] repeats the body, once for each element of
    the list variable in it, with an optional separator before the star.  (Each repetition of output.rs has one list
    variable.  A variable which does not exist is an error of the compiler; here it leaves no tokens.) *)
From Coq Require Import String Ascii List NArith Bool.
From Verif Require Import Tokens Syntax.
Import ListNotations.
Open Scope N_scope.
Open Scope list_scope.

Inductive tmpl :=
| Tok (t : token)
| Grp (d : delim) (body : list tmpl)
| Hole (x : string)
| Rep (body : list tmpl) (sep : list token).

(** The template written in a token list.  [fuel] bounds the depth and length. *)
Fixpoint read_tmpl (fuel : nat) (ts : list token) : list tmpl :=
  match fuel with
  | O => []
  | S n =>
      match ts with
      | [] => []
      | TPunct "#" :: TIdent x :: r => Hole x :: read_tmpl n r
      | TPunct "#" :: TGroup Paren b :: TPunct "*" :: r => Rep (read_tmpl n b) [] :: read_tmpl n r
      | TPunct "#" :: TGroup Paren b :: TPunct c :: TPunct "*" :: r => Rep (read_tmpl n b) [TPunct c] :: read_tmpl n r
      | TGroup d b :: r => Grp d (read_tmpl n b) :: read_tmpl n r
      | t :: r => Tok t :: read_tmpl n r
      end
  end.

(** The template of a text *)
Definition template (text : string) : list tmpl :=
  match lex text with Some ts => read_tmpl (String.length text) ts | None => [] end.

(** A variable: tokens, or a list of them *)
Inductive qval := One (ts : list token) | Many (l : list (list token)).
Definition qenv := list (string * qval).

Fixpoint qlookup (x : string) (e : qenv) : option qval :=
  match e with
  | [] => None
  | (y, v) :: e' => if String.eqb x y then Some v else qlookup x e'
  end.

(** The list variable of a repetition: the first one in the body *)
Fixpoint hole_names (t : tmpl) : list string :=
  match t with
  | Tok _ => []
  | Grp _ b => flat_map hole_names b
  | Hole x => [x]
  | Rep _ _ => []
  end.
Fixpoint first_list (e : qenv) (xs : list string) : option (string * list (list token)) :=
  match xs with
  | [] => None
  | x :: xs' => match qlookup x e with Some (Many l) => Some (x, l) | _ => first_list e xs' end
  end.

Fixpoint join (sep : list token) (l : list (list token)) : list token :=
  match l with
  | [] => []
  | [a] => a
  | a :: l' => a ++ sep ++ join sep l'
  end.

Fixpoint fill1 (e : qenv) (t : tmpl) : list token :=
  match t with
  | Tok t => [t]
  | Grp d b => [TGroup d (flat_map (fill1 e) b)]
  | Hole x => match qlookup x e with Some (One ts) => ts | _ => [] end
  | Rep b sep =>
      match first_list e (flat_map hole_names b) with
      | Some (x, l) => join sep (map (fun ts => flat_map (fill1 ((x, One ts) :: e)) b) l)
      | None => []
      end
  end.
(** [quote! { ... }] *)
Definition fill (e : qenv) (t : list tmpl) : list token := flat_map (fill1 e) t.

(** [ToTokens]: an identifier, a string (its text as written in the source: escapes are not decoded), a number of a type *)
Definition qident (s : string) : qval := One [TIdent s].
Definition qstr (s : string) : qval := One [TStr s].
Definition qnum (suffix : string) (n : N) : qval := One [TInt n suffix].
Definition qusize (n : N) : qval := qnum "usize" n.
