(** * Serialization (feature [serde]) and debug formatting of packets *)
From Coq Require Import String List NArith ZArith Bool.
From Verif Require Import Base DualBuffer PackDesc GenRecv Dispatch.
Import ListNotations.
Open Scope N_scope.

(** A value handed to [serialize_entry].  How the value itself is written is the affair of its own [Serialize]
    implementation (derived, or that of a primitive type): see Data.v. *)
Inductive ser_value : Type :=
| SerU8 (b : byte)                       (* a [u8] *)
| SerBytes (l : list byte)               (* a [&[u8]] *)
| SerField (f : field) (v : fvalue f)    (* the value of a getter *)
| SerSeq (f : field) (v : fvalue f).     (* [FieldIter(v)]: the elements of the iterator [v] in a sequence, types.rs 139-152 *)

(** An implementation of serde's [Serializer], as far as it is used: [serialize_map(None)], then
    [serialize_entry(key, value)] any number of times, then [end()].  Each may refuse with an error of the
    implementation's choice.  ([serialize_struct], which the derived [Serialize] of the unknown packet calls, is taken
    to be the same as a map.) *)
Record serializer := mk_serializer {
  se_state : Type; se_error : Type; se_ok : Type;
  se_map : se_error + se_state;
  se_entry : se_state -> string -> ser_value -> se_error + se_state;
  se_end : se_state -> se_error + se_ok;
}.

(** types.rs (derive) 76-81 and lib.rs (derive) 185-191 [is_optional]: whether the [map_type] of the field is written
    [Option<...>].  The fields of the library with such a type: packets.rs 1138, 1154, 1170, 1186, 1202, 3144. *)
Definition optional_fields : list (string * string) :=
  [("InfError", "message"); ("InfNotice", "message"); ("InfTest", "message"); ("InfWarning", "message"); ("InfDebug", "message");
   ("EsfMeas", "calib_tag")]%string.
Definition is_optional (p : pack_desc) (f : field) : bool :=
  existsb (fun x => String.eqb (fst x) (p_name p) && String.eqb (snd x) (f_name f)) optional_fields.

(** output.rs 35-50: the value of the entry of one field *)
Definition entry_value (p : pack_desc) (g : getter) (payload : list byte) : res ser_value :=
  let! v := g_val g payload in
  Ret (match f_size (g_field g) with
       | Some _ => SerField (g_field g) v
       | None => if is_optional p (g_field g) then SerField (g_field g) v else SerSeq (g_field g) v
       end).

(** output.rs 51-62: [serialize_fields]; [?] returns at the first error *)
Fixpoint serialize_getters (S : serializer) (p : pack_desc) (gs : list getter) (payload : list byte) (state : se_state S)
  : res (se_error S + se_state S) :=
  match gs with
  | [] => Ret (inr state)
  | g :: gs' =>
      let! v := entry_value p g payload in
      match se_entry S state (f_name (g_field g)) v with
      | inl e => Ret (inl e)
      | inr state' => serialize_getters S p gs' payload state'
      end
  end.
Definition serialize_fields (S : serializer) (p : pack_desc) (payload : list byte) (state : se_state S)
  : res (se_error S + se_state S) := serialize_getters S p (getters p) payload state.

(** output.rs 64-74: [Serialize] for one packet, [NameRef(payload)] *)
Definition serialize_packet (S : serializer) (p : pack_desc) (payload : list byte) : res (se_error S + se_ok S) :=
  match se_map S with
  | inl e => Ret (inl e)
  | inr state =>
      let! r := serialize_fields S p payload state in
      match r with
      | inl e => Ret (inl e)
      | inr state' => Ret (se_end S state')
      end
  end.

(** output.rs 735-742, 790-823: [PacketSerializer] and [Serialize] for [PacketRef]; ubx_packets.rs 86-92: the derived
    [Serialize] of [UbxUnknownPacketRef] *)
Definition serialize_ref (S : serializer) (r : packet_ref) : res (se_error S + se_ok S) :=
  match se_map S with
  | inl e => Ret (inl e)
  | inr s0 =>
      match r with
      | Known p payload =>
          match se_entry S s0 "class" (SerU8 (p_class p)) with
          | inl e => Ret (inl e)
          | inr s1 =>
              match se_entry S s1 "msg_id" (SerU8 (p_id p)) with
              | inl e => Ret (inl e)
              | inr s2 =>
                  let! r := serialize_fields S p payload s2 in
                  match r with
                  | inl e => Ret (inl e)
                  | inr s3 => Ret (se_end S s3)
                  end
              end
          end
      | Unknown payload class msg_id =>
          match se_entry S s0 "payload" (SerBytes payload) with
          | inl e => Ret (inl e)
          | inr s1 =>
              match se_entry S s1 "class" (SerU8 class) with
              | inl e => Ret (inl e)
              | inr s2 =>
                  match se_entry S s2 "msg_id" (SerU8 msg_id) with
                  | inl e => Ret (inl e)
                  | inr s3 => Ret (se_end S s3)
                  end
              end
          end
      end
  end.

(** output.rs 11-28: [Debug] for one packet: the name of the packet, then the name and value of each field.  (The text
    made of them by the formatter and by the [Debug] implementations of the values is not modelled.) *)
Fixpoint debug_getters (gs : list getter) (payload : list byte) : res (list (string * {f : field & fvalue f})) :=
  match gs with
  | [] => Ret []
  | g :: gs' =>
      let! v := g_val g payload in
      let! l := debug_getters gs' payload in
      Ret ((f_name (g_field g), existT _ (g_field g) v) :: l)
  end.
Definition debug_packet (p : pack_desc) (payload : list byte) : res (string * list (string * {f : field & fvalue f})) :=
  let! l := debug_getters (getters p) payload in
  Ret (p_name p, l).
