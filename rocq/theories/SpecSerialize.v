(** * What serializing a packet should write *)
From Coq Require Import String List NArith ZArith Bool.
From Verif Require Import Base PackDesc GenRecv Dispatch SpecTypes Serialize.
Import ListNotations.
Open Scope N_scope.

(** Give a serializer the entries of a map, in order.  The first error is the result, and nothing is given after it. *)
Fixpoint give (S : serializer) (state : se_state S) (entries : list (string * ser_value)) : se_error S + se_ok S :=
  match entries with
  | [] => se_end S state
  | (key, v) :: rest => match se_entry S state key v with inl e => inl e | inr state' => give S state' rest end
  end.
Definition write_map (S : serializer) (entries : list (string * ser_value)) : se_error S + se_ok S :=
  match se_map S with inl e => inl e | inr state => give S state entries end.

(** The fields at the end of a packet which have one value (a text, if it is one; a word, if it is there) and not a sequence of
    values *)
Definition single_values : list (string * string) :=
  [("InfError", "message"); ("InfWarning", "message"); ("InfNotice", "message"); ("InfTest", "message"); ("InfDebug", "message");
   ("EsfMeas", "calib_tag")]%string.

(** The value an entry carries is what the getter returns: as it is if the field has a fixed size or a single value, and as the
    sequence of its items if it is an iterator. *)
Definition carries (p : pack_desc) (g : getter) (payload : list byte) (e : string * ser_value) : Prop :=
  fst e = f_name (g_field g) /\
  exists v, g_val g payload = Ret v /\
    (f_size (g_field g) <> None \/ In (p_name p, f_name (g_field g)) single_values -> snd e = SerField (g_field g) v) /\
    (f_size (g_field g) = None -> ~ In (p_name p, f_name (g_field g)) single_values -> snd e = SerSeq (g_field g) v).

(** A UART configuration has a mode the library can represent: 7 or 8 data bits, and no reserved parity.  (All other packets
    can be read whatever they hold.) *)
Definition readable (p : pack_desc) (payload : list byte) : Prop :=
  p_name p = "CfgPrtUart"%string ->
  let mode := le_value (takeN 4 (dropN 4 payload)) in 2 <= bits mode 6 2 /\ ~ In (bits mode 9 3) [2; 3; 6; 7].

(** A serializer that keeps all entries, and one that has room for [n] entries *)
Definition recorder : serializer :=
  mk_serializer (list (string * ser_value)) unit (list (string * ser_value)) (inr []) (fun s k v => inr (s ++ [(k, v)])) (fun s => inr s).
Definition bounded_recorder (n : N) : serializer :=
  mk_serializer (list (string * ser_value)) (list (string * ser_value)) (list (string * ser_value)) (inr [])
    (fun s k v => if lenN s <? n then inr (s ++ [(k, v)]) else inl s) (fun s => inr s).
