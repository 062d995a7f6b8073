(** * [macro_rules!]

    How rustc expands the macros of cfg_val.rs (the macro expander is rustc's, not code of /repo): a rule is a pair of
    groups [(matcher) => { transcriber }]; the first rule whose matcher accepts the whole input is used.

    - [$x:frag] takes one fragment: [ident] one identifier, [expr] the expression up to the next comma (it must be one for the
      reader of Lang.v), [meta] the
      rest of its group.
    - [$( .. ) sep op] takes as many repetitions as the input has ([op] is [*] or [+]).
    - A fragment of several tokens is put between invisible delimiters, here parentheses. *)
From Coq Require Import String Ascii List NArith Bool.
From Verif Require Import Tokens Lang.
Import ListNotations.
Open Scope N_scope.
Open Scope list_scope.

(** What a variable stands for: tokens, or one thing for each repetition *)
Inductive binding := BOne (ts : list token) | BMany (l : list binding).
Definition bindings := list (string * binding).

(** The variables [$x] in a matcher or transcriber *)
Fixpoint vars1 (t : token) : list string :=
  let fix go (ts : list token) : list string :=
    match ts with
    | [] => []
    | TPunct "$"%char :: r => match r with TIdent x :: _ => x :: go r | _ => go r end
    | t :: r => vars1 t ++ go r
    end in
  match t with TGroup _ ts => go ts | _ => [] end.
Definition vars (ts : list token) : list string := vars1 (TGroup Paren ts).

(** [*], [+], [, *] and the like: the separator and the rest *)
Definition read_op (ts : list token) : option (list token * bool * list token) :=
  match ts with
  | TPunct "*"%char :: r => Some ([], false, r)
  | TPunct "+"%char :: r => Some ([], true, r)
  | s :: TPunct "*"%char :: r => Some ([s], false, r)
  | s :: TPunct "+"%char :: r => Some ([s], true, r)
  | _ => None
  end.

Definition fragment_depth : nat := 30.

Fixpoint before_comma (ts : list token) : list token * list token :=
  match ts with
  | [] => ([], [])
  | t :: r => if is_p "," t then ([], ts) else let (a, b) := before_comma r in (t :: a, b)
  end.

(** One fragment in front *)
Definition take_fragment (frag : string) (ts : list token) : option (list token * list token) :=
  if String.eqb frag "ident" then
    match ts with TIdent x :: r => Some ([TIdent x], r) | _ => None end
  else if String.eqb frag "expr" then
    let (l, r) := before_comma ts in
    match read fragment_depth false 0 l with
    | Some (_, []) => Some (match l with [t] => [t] | _ => [TGroup Paren l] end, r)
    | _ => None
    end
  else if String.eqb frag "meta" then Some (ts, [])
  else None.

(** [s] if it is in front *)
Definition take_sep (sep ts : list token) : option (list token) :=
  match sep, ts with
  | [], _ => Some ts
  | s :: _, t :: r => if token_eqb s t then Some r else None
  | _, [] => None
  end.

(** Adds the bindings of one repetition in front of those of the later ones *)
Definition more_bindings (one : bindings) (later : bindings) : bindings :=
  map (fun b => (fst b, BMany match find (fun d => String.eqb (fst b) (fst d)) one with
                              | Some (_, x) => x :: match snd b with BMany l => l | BOne _ => [] end
                              | None => match snd b with BMany l => l | BOne _ => [] end
                              end)) later.

(** Matches the pattern [ps] with a beginning of [ts]; [many] reads repetitions *)
Fixpoint matches (fuel : nat) (ps ts : list token) : option (bindings * list token) :=
  match fuel with
  | O => None
  | S fuel' =>
      match ps with
      | [] => Some ([], ts)
      | TPunct "$"%char :: TIdent x :: TPunct ":"%char :: TIdent frag :: ps' =>
          match take_fragment frag ts with
          | Some (l, r) =>
              match matches fuel' ps' r with Some (b, r') => Some ((x, BOne l) :: b, r') | None => None end
          | None => None
          end
      | TPunct "$"%char :: TGroup Paren p :: ps' =>
          match read_op ps' with
          | Some (sep, needed, ps'') =>
              let none := map (fun x => (x, BMany [])) (vars p) in
              let many :=
                fix many (n : nat) (first : bool) (ts : list token) : option (bindings * list token) :=
                  match n with
                  | O => None
                  | S n' =>
                      match (if first then Some ts else take_sep sep ts) with
                      | Some ts' =>
                          match matches fuel' p ts' with
                          | Some (b, r) =>
                              match many n' false r with Some (bs, r') => Some (more_bindings b bs, r') | None => None end
                          | None => if first && needed then None else Some (none, ts)
                          end
                      | None => Some (none, ts)
                      end
                  end in
              match many (S (List.length ts)) true ts with
              | Some (b, r) =>
                  match matches fuel' ps'' r with Some (b', r') => Some (b ++ b', r') | None => None end
              | None => None
              end
          | None => None
          end
      | TGroup d p :: ps' =>
          match ts with
          | TGroup d' l :: r =>
              if delim_eqb d d' then
                match matches fuel' p l with
                | Some (b, []) =>
                    match matches fuel' ps' r with Some (b', r') => Some (b ++ b', r') | None => None end
                | _ => None
                end
              else None
          | _ => None
          end
      | p :: ps' =>
          match ts with
          | t :: r => if token_eqb p t then matches fuel' ps' r else None
          | [] => None
          end
      end
  end.

(** The bindings in the first repetition, and in those after it; [None] when there is none *)
Fixpoint heads (b : bindings) : option (bindings * bindings) :=
  match b with
  | [] => Some ([], [])
  | (x, v) :: b' =>
      match heads b' with
      | Some (h, t) =>
          match v with
          | BOne _ => Some ((x, v) :: h, (x, v) :: t)
          | BMany (v1 :: vs) => Some ((x, v1) :: h, (x, BMany vs) :: t)
          | BMany [] => None
          end
      | None => None
      end
  end.

Fixpoint longest (b : bindings) : nat :=
  match b with
  | [] => O
  | (_, BMany l) :: b' => Nat.max (List.length l) (longest b')
  | _ :: b' => longest b'
  end.

(** Writes the transcriber [ps] *)
Fixpoint transcribe (fuel : nat) (ps : list token) (b : bindings) : option (list token) :=
  match fuel with
  | O => None
  | S fuel' =>
      match ps with
      | [] => Some []
      | TPunct "$"%char :: TIdent x :: ps' =>
          match find (fun d => String.eqb x (fst d)) b, transcribe fuel' ps' b with
          | Some (_, BOne l), Some r => Some (l ++ r)
          | _, _ => None
          end
      | TPunct "$"%char :: TGroup Paren p :: ps' =>
          match read_op ps' with
          | Some (sep, _, ps'') =>
              let used := vars p in
              let many :=
                fix many (n : nat) (first : bool) (b : bindings) : option (list token) :=
                  match n with
                  | O => Some []
                  | S n' =>
                      match heads b with
                      | Some (h, t) =>
                          match transcribe fuel' p h, many n' false t with
                          | Some l, Some r => Some ((if first then [] else sep) ++ l ++ r)
                          | _, _ => None
                          end
                      | None => None
                      end
                  end in
              let inner := filter (fun d => existsb (String.eqb (fst d)) used) b in
              match many (longest inner) true inner, transcribe fuel' ps'' b with
              | Some l, Some r => Some (l ++ r)
              | _, _ => None
              end
          | None => None
          end
      | TGroup d p :: ps' =>
          match transcribe fuel' p b, transcribe fuel' ps' b with
          | Some l, Some r => Some (TGroup d l :: r)
          | _, _ => None
          end
      | t :: ps' => match transcribe fuel' ps' b with Some r => Some (t :: r) | None => None end
      end
  end.

(** ** Macros of a file *)

Definition rules := list (list token * list token).

Fixpoint read_rules (ts : list token) : rules :=
  match ts with
  | TGroup _ p :: TPunct "="%char :: TPunct ">"%char :: TGroup _ q :: r => (p, q) :: read_rules r
  | _ :: r => read_rules r
  | [] => []
  end.

(** [macro_rules! name { rules }] *)
Fixpoint read_macros (ts : list token) : list (string * rules) :=
  match ts with
  | TIdent "macro_rules" :: TPunct "!"%char :: TIdent x :: TGroup Brace l :: r => (x, read_rules l) :: read_macros r
  | _ :: r => read_macros r
  | [] => []
  end.

Definition rule_depth : nat := 200.

(** The first rule which accepts the input *)
Fixpoint apply_rules (rs : rules) (ts : list token) : option (list token) :=
  match rs with
  | [] => None
  | (p, q) :: rs' =>
      match matches rule_depth p ts with
      | Some (b, []) => transcribe rule_depth q b
      | _ => apply_rules rs' ts
      end
  end.

Section Expand.
  Context (ms : list (string * rules)).

  (** Expands the calls in [ts], and those in their expansions, [fuel] deep.  A call inside a group is an expression: its
      expansion is put in parentheses. *)
  Fixpoint expand (fuel : nat) (inside : bool) (ts : list token) : option (list token) :=
    match fuel with
    | O => None
    | S fuel' =>
        let fix go (ts : list token) : option (list token) :=
          match ts with
          | [] => Some []
          | TIdent "macro_rules" :: TPunct "!"%char :: TIdent _ :: TGroup _ _ :: r => go r
          | TIdent x :: r =>
              match r with
              | TPunct "!"%char :: TGroup _ l :: r' =>
                  match find (fun d => String.eqb x (fst d)) ms with
                  | Some (_, rs) =>
                      match apply_rules rs l with
                      | Some e =>
                          match expand fuel' inside e, go r' with
                          | Some e', Some o => Some (if inside then TGroup Paren e' :: o else e' ++ o)
                          | _, _ => None
                          end
                      | None => None
                      end
                  | None => match go r with Some o => Some (TIdent x :: o) | None => None end
                  end
              | _ => match go r with Some o => Some (TIdent x :: o) | None => None end
              end
          | TGroup d l :: r =>
              match expand fuel' true l, go r with
              | Some l', Some o => Some (TGroup d l' :: o)
              | _, _ => None
              end
          | t :: r => match go r with Some o => Some (t :: o) | None => None end
          end in
        go ts
    end.
End Expand.

Definition expand_file (ts : list token) : option (list token) := expand (read_macros ts) 30 false ts.
