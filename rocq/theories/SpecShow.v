(** * What it means that generated code shows a packet: [Debug] and [Serialize]

    Used in the statements of PropShow.v.  A getter with the value in the program of each of its results is a [shown] getter;
    what a packet shows is given by the list of its shown getters, to a formatter or a serializer of any kind. *)
From Coq Require Import String Ascii List NArith ZArith Bool.
From Verif Require Import Base Tokens Syntax DualBuffer Parser PackDesc GenRecv GenSend Dispatch Serialize Macro Output Rust Code SpecCode SpecLib.
Import ListNotations.
Open Scope N_scope.
Open Scope list_scope.

(** ** Showing a packet, whatever the values are *)

Definition shown (V : Type) : Type := {g : getter & fvalue (g_field g) -> V}.
Definition show {V} (g : getter) (emb : fvalue (g_field g) -> V) : shown V := existT (fun g => fvalue (g_field g) -> V) g emb.

(** A serializer of maps, as in Serialize.v, for values of any type [V] *)
Record map_writer (V St Er Ok : Type) := mk_map_writer {
  mw_map : Er + St;
  mw_entry : St -> string -> V -> Er + St;
  mw_end : St -> Er + Ok;
}.
Arguments mw_map {V St Er Ok}. Arguments mw_entry {V St Er Ok}. Arguments mw_end {V St Er Ok}.
Definition of_serializer (S : serializer) : map_writer ser_value (se_state S) (se_error S) (se_ok S) :=
  mk_map_writer _ _ _ _ (se_map S) (se_entry S) (se_end S).

Section Show.
  Context {V St Er Ok : Type} (T : map_writer V St Er Ok).

  (** One entry for each getter, in order, up to the first error; a getter which panics ends it *)
  Fixpoint write_fields (l : list (shown V)) (payload : list byte) (s : St) : res (Er + St) :=
    match l with
    | [] => Ret (inr s)
    | existT _ g emb :: l' =>
        let! v := g_val g payload in
        match mw_entry T s (f_name (g_field g)) (emb v) with
        | inl e => Ret (inl e)
        | inr s' => write_fields l' payload s'
        end
    end.
  (** Entries known beforehand *)
  Fixpoint write_entries (l : list (string * V)) (s : St) : Er + St :=
    match l with
    | [] => inr s
    | (k, v) :: l' => match mw_entry T s k v with inl e => inl e | inr s' => write_entries l' s' end
    end.
  (** A whole map: some entries, then those of the getters *)
  Definition write_map (first : list (string * V)) (l : list (shown V)) (payload : list byte) : res (Er + Ok) :=
    match mw_map T with
    | inl e => Ret (inl e)
    | inr s =>
        match write_entries first s with
        | inl e => Ret (inl e)
        | inr s =>
            let! r := write_fields l payload s in
            Ret (match r with inl e => inl e | inr s => mw_end T s end)
        end
    end.

  (** The same for a formatter: [field] is given the name and the value of each field *)
  Fixpoint show_fields {B} (field : B -> string -> V -> B) (l : list (shown V)) (payload : list byte) (b : B) : res B :=
    match l with
    | [] => Ret b
    | existT _ g emb :: l' =>
        let! v := g_val g payload in
        show_fields field l' payload (field b (f_name (g_field g)) (emb v))
    end.
End Show.

(** A formatter: [debug_struct], [field], [finish] *)
Record formatter (V B R : Type) := mk_formatter { fo_start : string -> B; fo_field : B -> string -> V -> B; fo_finish : B -> R }.
Arguments fo_start {V B R}. Arguments fo_field {V B R}. Arguments fo_finish {V B R}.

(** The values which Serialize.v shows *)
Definition model_entry (p : pack_desc) (g : getter) : shown ser_value :=
  show g (fun v => match f_size (g_field g) with
                   | Some _ => SerField (g_field g) v
                   | None => if is_optional p (g_field g) then SerField (g_field g) v else SerSeq (g_field g) v
                   end).
Definition model_field (g : getter) : shown {f : field & fvalue f} := show g (fun v => existT _ (g_field g) v).

(** ** In a program *)
Section Spec.
  Context {A : Type} (P : program A).
  Notation value := (value A).

  (** The getter of a declared field is a method of [NameRef] *)
  Definition getter_means (name : string) (df : field_decl) (s : shown value) : Prop :=
    fd_name df = f_name (g_field (projT1 s)) /\
    forall payload, method_v P [TIdent (intermediate_field_name df)] (ref_v name payload) [] =
      Some (ret_map (fun v => (ref_v name payload, [], projT2 s v)) (g_val (projT1 s) payload)).

  (** [FieldIter(v)], types.rs 139 *)
  Definition field_iter_v (v : value) : value := VAdt ["crate"; "ubx_packets"; "FieldIter"]%string [("0"%string, v)].
  Definition entry_of (single : bool) (s : shown value) : shown value :=
    if single then s else show (projT1 s) (fun v => field_iter_v (projT2 s v)).
  (** An entry for each getter: a field without size is a sequence, unless it is an [Option] *)
  Definition entries_of (p : pack_desc) (l : list (shown value)) : list (shown value) :=
    map (fun s => entry_of (match f_size (g_field (projT1 s)) with Some _ => true | None => is_optional p (g_field (projT1 s)) end) s) l.

  (** The same by the declaration: what [is_optional] of the macro says (types.rs (derive) 76-81) *)
  Definition decl_entry (df : field_decl) (s : shown value) : shown value :=
    entry_of (match size_bytes (fd_raw df) with Some _ => true | None => false end || fd_is_optional df) s.
  Fixpoint decl_entries (ds : list field_decl) (l : list (shown value)) : list (shown value) :=
    match ds, l with
    | df :: ds', s :: l' => decl_entry df s :: decl_entries ds' l'
    | _, _ => []
    end.

  (** A formatter: [f.debug_struct(name)] gives a builder, [field] adds a field, [finish] gives the result.  What the formatter is
      afterwards is left open. *)
  Record formatter_means {B R} (F : formatter value B R) (f_v : value) (b_v : B -> value) (r_v : R -> value) : Prop := {
    fm_start : forall name, exists x,
      method_v P [TIdent "debug_struct"] f_v [VStr name] = Some (Ret (x, [VStr name], b_v (fo_start F name)));
    fm_field : forall b k v, exists x,
      method_v P [TIdent "field"] (b_v b) [VStr k; v] = Some (Ret (x, [VStr k; v], b_v (fo_field F b k v)));
    fm_finish : forall b, exists x, method_v P [TIdent "finish"] (b_v b) [] = Some (Ret (x, [], r_v (fo_finish F b)));
  }.

  (** A serializer *)
  Section Serializer.
    Context {St Er Ok : Type} (T : map_writer value St Er Ok) (ser_v : value) (st_v : St -> value) (er_v : Er -> value) (ok_v' : Ok -> value).
    Definition written_v (r : Er + Ok) : value := match r with inl e => err_v (er_v e) | inr o => ok_v (ok_v' o) end.
    Record serializer_means : Prop := {
      sm_map : exists none x y, c_const P ["None"%string] = Some none /\
        method_v P [TIdent "serialize_map"] ser_v [none] =
        Some (Ret (x, y, match mw_map T with inl e => err_v (er_v e) | inr s => ok_v (st_v s) end));
      sm_entry : forall s k v,
        match mw_entry T s k v with
        | inr s' => method_v P [TIdent "serialize_entry"] (st_v s) [VStr k; v] = Some (Ret (st_v s', [VStr k; v], ok_v unit_v))
        | inl e => exists x, method_v P [TIdent "serialize_entry"] (st_v s) [VStr k; v] = Some (Ret (x, [VStr k; v], err_v (er_v e)))
        end;
      sm_end : forall s, exists x, method_v P [TIdent "end"] (st_v s) [] = Some (Ret (x, [], written_v (mw_end T s)));
    }.
    (** A call of [serialize_fields(&self, &mut state)] *)
    Definition fields_written (r : res (Er + St)) (self : value) (o : option (res (value * list value))) : Prop :=
      match r with
      | Ret (inr s) => o = Some (Ret (ok_v unit_v, [self; st_v s]))
      | Ret (inl e) => exists x, o = Some (Ret (err_v (er_v e), [self; x]))
      | Panic => o = Some Panic
      | Diverge => o = Some Diverge
      end.
    (** The method [serialize_fields] of the value [self] writes [r] *)
    Definition offers_fields (self : value) (r : St -> res (Er + St)) : Prop :=
      forall s, fields_written (r s) self
        (option_map (ret_map (fun x => (snd x, fst (fst x) :: snd (fst x)))) (method_v P [TIdent "serialize_fields"] self [st_v s])).
  End Serializer.

  (** The program with more methods: of each [NameRef], the functions [fns d] as they run in [P].  (Their receiver is [&self]: it
      stays as it is.) *)
  Definition with_refs (ds : list pack_decl) (fns : pack_decl -> list func) : program A :=
    mk_program (c_const P) (c_fn P)
      (fun ts r l =>
         match ts, r with
         | [TIdent m], VAdt [n] _ =>
             match find (fun d => String.eqb (ref_name (pd_name d)) n) ds with
             | Some d => match fn_named (fns d) m with
                         | Some f => option_map (ret_map (fun x => (r, tl (snd x), fst x))) (call P f (r :: l))
                         | None => c_method P ts r l
                         end
             | None => c_method P ts r l
             end
         | _, _ => c_method P ts r l
         end) (c_scale P) (c_discr P).
  (** The same with given methods *)
  Definition with_methods (m : string -> value -> list value -> option (res (value * list value * value))) : program A :=
    mk_program (c_const P) (c_fn P)
      (fun ts r l => match ts with
                     | [TIdent x] => match m x r l with Some o => Some o | None => c_method P ts r l end
                     | _ => c_method P ts r l
                     end) (c_scale P) (c_discr P).

  (** [PacketSerializer { class, msg_id, msg }] *)
  Definition packet_serializer_v (class msg_id : byte) (msg : value) : value :=
    VAdt ["crate"; "ubx_packets"; "PacketSerializer"]%string [("class"%string, u8_v class); ("msg_id"%string, u8_v msg_id); ("msg"%string, msg)].
  (** [UbxUnknownPacketRef { payload, class, msg_id }] *)
  Definition unknown_fields (payload : list byte) (class msg_id : byte) : list (string * value) :=
    [("payload", VBytes payload); ("class", u8_v class); ("msg_id", u8_v msg_id)]%string.
End Spec.

(** ** In the library

    The values of a serializer (or formatter) which is given from outside: itself, its states, its results *)
Inductive outer (St Ok : Type) := OStart | OState (s : St) | OEnd (o : Ok).
Arguments OStart {St Ok}. Arguments OState {St Ok}. Arguments OEnd {St Ok}.

Section LibShow.
  Context {St Er Ok : Type}.
  Notation value := (value (lib_val (outer St Ok) Er)).
  Context (T : map_writer value St Er Ok) (F : formatter value St Ok).

  Definition start_v : value := VAny (LWriter OStart).
  Definition state_v (s : St) : value := VAny (LWriter (OState s)).
  Definition end_v (o : Ok) : value := VAny (LWriter (OEnd o)).
  Definition outer_method (x : string) (r : value) (l : list value) : option (res (value * list value * value)) :=
    match r, l with
    | VAny (LWriter OStart), [v] =>
        if String.eqb x "serialize_map" then
          Some (Ret (r, l, match mw_map T with inl e => err_v (error_value e) | inr s => ok_v (state_v s) end))
        else if String.eqb x "debug_struct" then
          match v with VStr name => Some (Ret (r, l, state_v (fo_start F name))) | _ => None end
        else None
    | VAny (LWriter (OState s)), [VStr k; v] =>
        if String.eqb x "serialize_entry" then
          Some (Ret (match mw_entry T s k v with
                     | inl e => (r, l, err_v (error_value e))
                     | inr s' => (state_v s', l, ok_v unit_v)
                     end))
        else if String.eqb x "field" then Some (Ret (r, l, state_v (fo_field F s k v)))
        else None
    | VAny (LWriter (OState s)), [] =>
        if String.eqb x "end" then Some (Ret (r, l, written_v error_value end_v (mw_end T s)))
        else if String.eqb x "finish" then Some (Ret (r, l, end_v (fo_finish F s)))
        else None
    | _, _ => None
    end.

  (** The program [P] with these, and with the methods of the packets [ds]: the getters; then also [serialize_fields]; then also
      [serialize] of [PacketSerializer] (generated code) and of [UbxUnknownPacketRef] (derived by serde, see Serialize.v) *)
  Context (P : program (lib_val (outer St Ok) Er)) (ds : list pack_decl) (ref_fns : pack_decl -> list func).
  Definition with_getters := with_refs (with_methods P outer_method) ds ref_fns.
  Definition with_fields := with_refs with_getters ds (fun d => [serialize_fields_fn d]).
  Definition with_serialize (unknown : string) := with_methods with_fields (fun x r l =>
    if String.eqb x "serialize" then
      match r, l with
      | VAdt [a; b; c] _, [s] =>
          if path_eqb [a; b; c] ["crate"; "ubx_packets"; "PacketSerializer"]%string
          then option_map (ret_map (fun v => (r, l, v))) (result with_fields packet_serializer_fn [r; s]) else None
      | VAdt [a] fields, [VAny (LWriter OStart)] =>
          if String.eqb a unknown
          then Some (ret_map (fun o => (r, l, written_v error_value end_v o)) (write_map T fields [] [])) else None
      | _, _ => None
      end
    else None).
End LibShow.
