(** * Specification: bit fields, iteration, text *)
From Coq Require Import String List NArith ZArith Bool.
From Verif Require Import Base.
Import ListNotations.
Open Scope N_scope.

(** The [len] bits of the word [w] which start at bit [pos] *)
Definition bits (w pos len : N) : N := (w / 2 ^ pos) mod 2 ^ len.
(** Bit [pos] of [w] *)
Definition bit (w pos : N) : bool := (w / 2 ^ pos) mod 2 =? 1.

(** [yields next it items]: calling [next] again and again returns these items and then [None] *)
Inductive yields {I A} (next : I -> res (option (A * I))) : I -> list A -> Prop :=
| yields_end it : next it = Ret None -> yields next it []
| yields_item it x it' items : next it = Ret (Some (x, it')) -> yields next it' items -> yields next it (x :: items).

(** [blocks n l bs]: [bs] are the successive blocks of [n] bytes of [l], without a remainder *)
Definition blocks (n : N) (l : list byte) (bs : list (list byte)) : Prop :=
  concat bs = l /\ Forall (fun b => lenN b = n) bs.

(** The number with these little-endian bytes *)
Fixpoint le_value (l : list byte) : N :=
  match l with [] => 0 | b :: l' => b2n b + 256 * le_value l' end.

(** ** Text *)

(** Unicode scalar values, and their encoding as UTF-8 (The Unicode Standard, table 3-6) *)
Definition scalar_value (c : N) : Prop := c <= 0xD7FF \/ 0xE000 <= c <= 0x10FFFF.
Definition utf8_encode (c : N) : list byte :=
  if c <=? 0x7F then [n2b c]
  else if c <=? 0x7FF then [n2b (0xC0 + c / 64); n2b (0x80 + c mod 64)]
  else if c <=? 0xFFFF then [n2b (0xE0 + c / 4096); n2b (0x80 + (c / 64) mod 64); n2b (0x80 + c mod 64)]
  else [n2b (0xF0 + c / 262144); n2b (0x80 + (c / 4096) mod 64); n2b (0x80 + (c / 64) mod 64); n2b (0x80 + c mod 64)].

(** These bytes are the text [cs] *)
Definition is_text (l : list byte) : Prop :=
  exists cs, Forall scalar_value cs /\ l = concat (map utf8_encode cs).

(** A field of bytes holds the C string [s]: [s], a NUL, and anything *)
Definition c_string (field s : list byte) : Prop :=
  ~ In x00 s /\ exists rest, field = s ++ x00 :: rest.

(** The text in a field: the bytes before the first NUL, which are UTF-8 *)
Definition has_text (field s : list byte) : Prop := c_string field s /\ is_text s.
