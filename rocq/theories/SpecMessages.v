(** * Specification: numerals and names in messages *)
From Coq Require Import String Ascii List NArith Bool.
From Verif Require Import Base DualBuffer.
Open Scope N_scope.

(** The digits, in lower case *)
Definition digit (c : ascii) : option N :=
  let n := N_of_ascii c in
  if (48 <=? n) && (n <=? 57) then Some (n - 48)         (* 0-9 *)
  else if (97 <=? n) && (n <=? 102) then Some (n - 87)   (* a-f *)
  else None.

(** [numeral base s n]: [s] is made of digits below [base] and denotes [n] *)
Inductive numeral (base : N) : string -> N -> Prop :=
| numeral_nil : numeral base EmptyString 0
| numeral_cons c s d n :
    digit c = Some d -> d < base -> numeral base s n ->
    numeral base (String c s) (d * base ^ N.of_nat (String.length s) + n).

(** The usual way to write [n]: at least one digit, no leading zero *)
Definition written (base : N) (s : string) (n : N) : Prop :=
  numeral base s n /\ s <> EmptyString /\ forall s', s = String "0" s' -> s' = EmptyString.

(** Names in Rust: letters, digits and underscores *)
Definition name_char (c : ascii) : bool :=
  let n := N_of_ascii c in
  ((48 <=? n) && (n <=? 57)) || ((65 <=? n) && (n <=? 90)) || ((97 <=? n) && (n <=? 122)) || (n =? 95).
Fixpoint all_chars (f : ascii -> bool) (s : string) : bool :=
  match s with EmptyString => true | String c s' => f c && all_chars f s' end.
Definition is_name (s : string) : bool := all_chars name_char s.

(** The names in an error are names of types and fields *)
Definition named (e : parser_error) : Prop :=
  match e with
  | InvalidField packet field => is_name packet = true /\ is_name field = true
  | InvalidPacketLen packet _ _ => is_name packet = true
  | _ => True
  end.
