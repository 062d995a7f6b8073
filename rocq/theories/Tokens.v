(** * Rust tokens

    The derive macros of ublox_derive read token trees.  This file models the token trees of the crate proc_macro2 and the
    lexer which makes them from a source text, as far as the sources of this library need it.  (The lexer is rustc's, not
    code of /repo.)  Left out: character literals, raw and byte strings, block comments: on these [lex] fails. *)
From Coq Require Import String Ascii List NArith Bool.
Import ListNotations.
Open Scope N_scope.
Open Scope list_scope.

Inductive delim := Paren | Bracket | Brace.

(** A token tree.  A literal is its value or its text: [TInt] the number and the suffix, [TFloat] the text without suffix,
    [TStr] the text between the quotes (escapes are kept as written). *)
Inductive token : Type :=
| TIdent (s : string)
| TPunct (c : ascii)
| TLife (s : string)
| TInt (n : N) (suffix : string)
| TFloat (text : string)
| TStr (text : string)
| TGroup (d : delim) (ts : list token).

(** ** Equality *)

Definition delim_eqb (a b : delim) : bool :=
  match a, b with Paren, Paren | Bracket, Bracket | Brace, Brace => true | _, _ => false end.

Fixpoint token_eqb (a b : token) {struct a} : bool :=
  match a, b with
  | TIdent x, TIdent y => String.eqb x y
  | TPunct x, TPunct y => Ascii.eqb x y
  | TLife x, TLife y => String.eqb x y
  | TInt x s, TInt y t => (x =? y) && String.eqb s t
  | TFloat x, TFloat y => String.eqb x y
  | TStr x, TStr y => String.eqb x y
  | TGroup d x, TGroup e y =>
      delim_eqb d e &&
      (fix go (x y : list token) {struct x} : bool :=
         match x, y with
         | [], [] => true
         | a :: x', b :: y' => token_eqb a b && go x' y'
         | _, _ => false
         end) x y
  | _, _ => false
  end.

Fixpoint tokens_eqb (x y : list token) : bool :=
  match x, y with
  | [], [] => true
  | a :: x', b :: y' => token_eqb a b && tokens_eqb x' y'
  | _, _ => false
  end.

(** ** Characters *)

Definition code (c : ascii) : N := N_of_ascii c.
Definition between (a b : ascii) (c : ascii) : bool := (code a <=? code c) && (code c <=? code b).
Definition is_digit (c : ascii) : bool := between "0" "9" c.
Definition is_alpha (c : ascii) : bool := between "a" "z" c || between "A" "Z" c || Ascii.eqb c "_".
Definition is_word (c : ascii) : bool := is_alpha c || is_digit c.
Definition is_space (c : ascii) : bool := (code c =? 32) || ((9 <=? code c) && (code c <=? 13)).
Definition is_punct (c : ascii) : bool := (33 <=? code c) && (code c <=? 126) && negb (is_word c).

Definition newline : ascii := ascii_of_N 10.
Definition quote_char : ascii := ascii_of_N 34.
Definition backslash : ascii := ascii_of_N 92.

(** The longest prefix of characters with [p], and the rest *)
Fixpoint span (p : ascii -> bool) (s : string) : string * string :=
  match s with
  | EmptyString => (EmptyString, EmptyString)
  | String c s' => if p c then let (a, b) := span p s' in (String c a, b) else (EmptyString, s)
  end.

(** ** Numbers *)

Definition digit_value (c : ascii) : N :=
  if is_digit c then code c - 48
  else if between "a" "f" c then code c - 87
  else if between "A" "F" c then code c - 55
  else 99.

(** The digits of base [b] in front (underscores skipped): value so far [acc] *)
Fixpoint number_in (b : N) (acc : N) (s : string) : N * string :=
  match s with
  | String c s' =>
      if Ascii.eqb c "_" then number_in b acc s'
      else if digit_value c <? b then number_in b (b * acc + digit_value c) s'
      else (acc, s)
  | EmptyString => (acc, s)
  end.

Definition digit_or_underscore (c : ascii) : bool := is_digit c || Ascii.eqb c "_".

(** The fraction of a float: a point not followed by a second point or a name *)
Definition fraction (s : string) : option (string * string) :=
  match s with
  | String "." s' =>
      match s' with
      | String c _ => if Ascii.eqb c "." || is_alpha c then None
                      else let (d, r) := span digit_or_underscore s' in Some (String "." d, r)
      | EmptyString => Some (String "." EmptyString, s')
      end
  | _ => None
  end.

(** The exponent of a float *)
Definition exponent (s : string) : option (string * string) :=
  match s with
  | String e s' =>
      if Ascii.eqb e "e" || Ascii.eqb e "E" then
        match s' with
        | String c s'' =>
            if Ascii.eqb c "-" || Ascii.eqb c "+"
            then let (d, r) := span digit_or_underscore s'' in Some (String e (String c d), r)
            else if is_digit c then let (d, r) := span digit_or_underscore s' in Some (String e d, r)
            else None
        | EmptyString => None
        end
      else None
  | EmptyString => None
  end.

(** A number literal: [s] starts with a digit *)
Definition lex_number (s : string) : token * string :=
  match s with
  | String "0" (String c s') =>
      if Ascii.eqb c "x" then
        let (n, r) := number_in 16 0 s' in let (suf, r') := span is_word r in (TInt n suf, r')
      else if Ascii.eqb c "b" then
        let (n, r) := number_in 2 0 s' in let (suf, r') := span is_word r in (TInt n suf, r')
      else if Ascii.eqb c "o" then
        let (n, r) := number_in 8 0 s' in let (suf, r') := span is_word r in (TInt n suf, r')
      else
        let (d, r) := span digit_or_underscore s in
        match fraction r with
        | Some (f, r1) =>
            match exponent r1 with
            | Some (e, r2) => let (_, r3) := span is_word r2 in (TFloat (d ++ f ++ e)%string, r3)
            | None => let (_, r3) := span is_word r1 in (TFloat (d ++ f)%string, r3)
            end
        | None =>
            match exponent r with
            | Some (e, r2) => let (_, r3) := span is_word r2 in (TFloat (d ++ e)%string, r3)
            | None => let (suf, r') := span is_word r in (TInt (fst (number_in 10 0 d)) suf, r')
            end
        end
  | _ =>
      let (d, r) := span digit_or_underscore s in
      match fraction r with
      | Some (f, r1) =>
          match exponent r1 with
          | Some (e, r2) => let (_, r3) := span is_word r2 in (TFloat (d ++ f ++ e)%string, r3)
          | None => let (_, r3) := span is_word r1 in (TFloat (d ++ f)%string, r3)
          end
      | None =>
          match exponent r with
          | Some (e, r2) => let (_, r3) := span is_word r2 in (TFloat (d ++ e)%string, r3)
          | None => let (suf, r') := span is_word r in (TInt (fst (number_in 10 0 d)) suf, r')
          end
      end
  end.

(** A string literal after its opening quote *)
Fixpoint lex_string (s : string) : option (string * string) :=
  match s with
  | EmptyString => None
  | String c s' =>
      if Ascii.eqb c quote_char then Some (EmptyString, s')
      else if Ascii.eqb c backslash then
        match s' with
        | String c' s'' =>
            match lex_string s'' with
            | Some (a, r) => Some (String c (String c' a), r)
            | None => None
            end
        | EmptyString => None
        end
      else match lex_string s' with Some (a, r) => Some (String c a, r) | None => None end
  end.

(** ** The lexer *)

Inductive flat := FTok (t : token) | FOpen (d : delim) | FClose (d : delim).

(** A comment after the two slashes: [/// text] is the attribute [#[doc = "text"]], [//! text] is [#![doc = "text"]], any
    other comment is skipped. *)
Definition comment_tokens (text : string) : list flat :=
  let doc t := [FOpen Bracket; FTok (TIdent "doc"); FTok (TPunct "="); FTok (TStr t); FClose Bracket] in
  match text with
  | String "/" (String "/" _) => []
  | String "/" t => FTok (TPunct "#") :: doc t
  | String "!" t => FTok (TPunct "#") :: FTok (TPunct "!") :: doc t
  | _ => []
  end.

Definition delim_token (c : ascii) : option flat :=
  match c with
  | "("%char => Some (FOpen Paren) | ")"%char => Some (FClose Paren)
  | "["%char => Some (FOpen Bracket) | "]"%char => Some (FClose Bracket)
  | "{"%char => Some (FOpen Brace) | "}"%char => Some (FClose Brace)
  | _ => None
  end.

Definition lex_step (s : string) : option (list flat * string) :=
  match s with
  | EmptyString => Some ([], s)
  | String c s' =>
      if is_space c then Some ([], s')
      else if is_alpha c then let (w, r) := span is_word s in Some ([FTok (TIdent w)], r)
      else if is_digit c then let (t, r) := lex_number s in Some ([FTok t], r)
      else if Ascii.eqb c quote_char then
        match lex_string s' with Some (t, r) => Some ([FTok (TStr t)], r) | None => None end
      else if Ascii.eqb c "'" then
        match span is_word s' with
        | (w, String c' r) => if Ascii.eqb c' "'" then None else Some ([FTok (TLife w)], String c' r)
        | (w, EmptyString) => Some ([FTok (TLife w)], EmptyString)
        end
      else match delim_token c with
           | Some f => Some ([f], s')
           | None =>
               match c, s' with
               | "/"%char, String "/" s'' =>
                   let (text, r) := span (fun c => negb (Ascii.eqb c newline)) s'' in
                   Some (comment_tokens text, r)
               | "/"%char, String "*" _ => None
               | _, _ => if is_punct c then Some ([FTok (TPunct c)], s') else None
               end
           end
  end.

Fixpoint lex_flat (fuel : nat) (s : string) : option (list flat) :=
  match s, fuel with
  | EmptyString, _ => Some []
  | _, O => None
  | _, S fuel' =>
      match lex_step s with
      | Some (ts, r) => match lex_flat fuel' r with Some l => Some (ts ++ l) | None => None end
      | None => None
      end
  end.

(** The trees: [cur] is the current group reversed, [stack] the enclosing groups *)
Fixpoint trees (fs : list flat) (cur : list token) (stack : list (delim * list token)) : option (list token) :=
  match fs with
  | [] => match stack with [] => Some (rev cur) | _ => None end
  | FTok t :: fs' => trees fs' (t :: cur) stack
  | FOpen d :: fs' => trees fs' [] ((d, cur) :: stack)
  | FClose d :: fs' =>
      match stack with
      | (d', cur') :: stack' => if delim_eqb d d' then trees fs' (TGroup d (rev cur) :: cur') stack' else None
      | [] => None
      end
  end.

Definition lex (s : string) : option (list token) :=
  match lex_flat (String.length s) s with Some fs => trees fs [] [] | None => None end.
