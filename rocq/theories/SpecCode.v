(** * What it means that generated code computes a packet of the model

    Used in the statements of PropCode.v.  The code of a packet (syntax trees, Code.v) runs in a program [P] (Rust.v), which gives
    the functions and constants that the code names.  [packet_means] says that these are the functions of a packet description
    (PackDesc.v): a declaration names them, the description has them. *)
From Coq Require Import String Ascii List NArith ZArith Bool.
From Verif Require Import Base Tokens Syntax DualBuffer Parser Checksum PackDesc GenRecv GenSend Dispatch Enums Macro Output Rust Code ProofOutput.
Import ListNotations.
Open Scope N_scope.
Open Scope list_scope.

Section Spec.
  Context {A : Type} (P : program A).
  (** A value of the list of a field without size, e.g. [CfgVal] *)
  Context (item_v : item -> value A).

  (** The values of the raw types *)
  Definition raw_v (t : raw_ty) : raw_val t -> value A :=
    match t with
    | Scalar s => fun z => VInt (I s) z
    | Bytes _ => fun l => VBytes l
    | Items => fun l => VList (map item_v l)
    end.

  (** [NameRef(payload)] *)
  Definition ref_v (name : string) (payload : list byte) : value A :=
    VAdt [(name ++ "Ref")%string] [("0"%string, VBytes payload)].

  (** A field of a declaration stands for a field of a description: the same names, type and options, and the named
      functions compute those of the description; [emb] is the value in [P] of a value of the field. *)
  Inductive field_means (pack : string) : field_decl -> forall f : field, (fvalue f -> value A) -> Prop :=
  | raw_means name ty t alias may_fail as_ref comment :
      field_raw_ty ty = Good t ->
      (as_ref = true -> exists n, t = Bytes n) ->
      field_means pack (mk_fd name ty t None None alias may_fail as_ref comment) (mk_field name alias t None as_ref None) (raw_v t)
  | map_means name ty t md scale alias may_fail as_ref comment (m : mapping t) size (emb : m_ty m -> value A) :
      field_raw_ty ty = Good t ->
      (as_ref = true -> exists n, t = Bytes n) ->
      (forall r, fn_v P (md_from md) [raw_v t r] = Some (ret_map emb (m_from m r))) ->
      match scale, m_scale m with
      | None, None => True
      | Some s, Some g => forall x, c_scale P s (emb x) = Some (Ret (emb (g x)))
      | _, _ => False
      end ->
      match may_fail, m_valid m with
      | false, None => True
      | true, Some g => forall r, fn_v P (md_is_valid md) [raw_v t r] = Some (ret_map VBool (g r))
      | _, _ => False
      end ->
      match md_size md, size with
      | None, None => True
      | Some s, Some g => forall payload,
          method_v P s (ref_v pack payload) [] = Some (ret_map (fun n => (ref_v pack payload, [], usize_v n)) (g payload))
      | _, _ => False
      end ->
      field_means pack (mk_fd name ty t (Some md) scale alias may_fail as_ref comment) (mk_field name alias t (Some m) as_ref size) emb.

  (** Different values of a field are different in the program *)
  Definition faithful (f : field) (emb : fvalue f -> value A) : Prop :=
    forall x y, fvalue_ok f x -> fvalue_ok f y -> emb x = emb y -> x = y.

  Record header_means (d : pack_decl) (p : pack_desc) : Prop := {
    pm_name : p_name p = pd_name d;
    pm_class : b2n (p_class p) = h_class (pd_header d);
    pm_id : b2n (p_id p) = h_id (pd_header d);
    pm_len : p_len p = h_len (pd_header d);
  }.
  Record packet_means (d : pack_decl) (p : pack_desc) : Prop := {
    pm_header : header_means d p;
    pm_fields : Forall2 (fun df f => exists emb, field_means (pd_name d) df f emb) (pd_fields d) (p_fields p);
  }.

  (** The same for a field of a builder, whose value is written: the function [md_into] *)
  Inductive field_sends : field_decl -> forall f : field, (fvalue f -> value A) -> Prop :=
  | raw_sends name ty t alias may_fail as_ref comment :
      field_raw_ty ty = Good t -> (size_bytes t = None -> t = Items) ->
      field_sends (mk_fd name ty t None None alias may_fail as_ref comment) (mk_field name alias t None as_ref None) (raw_v t)
  | map_sends name ty s md scale alias may_fail as_ref comment (m : mapping (Scalar s)) size (emb : m_ty m -> value A) :
      field_raw_ty ty = Good (Scalar s) ->
      (forall x, m_ok m x -> fn_v P (md_into md) [emb x] = Some (ret_map (raw_v (Scalar s)) (m_into m x))) ->
      field_sends (mk_fd name ty (Scalar s) (Some md) scale alias may_fail as_ref comment)
                  (mk_field name alias (Scalar s) (Some m) as_ref size) emb.

  (** The fields of a builder in [P] *)
  Inductive builder_means : list field_decl -> forall fs : list field, builder fs -> list (string * value A) -> Prop :=
  | no_fields : builder_means [] [] tt []
  | one_field df f emb v ds fs b l :
      field_sends df f emb -> fvalue_ok f v -> builder_means ds fs b l ->
      builder_means (df :: ds) (f :: fs) (v, b) ((accessor f, emb v) :: l).
  Definition builder_v (name : string) (l : list (string * value A)) : value A := VAdt [(name ++ "Builder")%string] l.

  (** ubx_packets.rs 9-13, 24-53: what the library offers to the code of builders *)
  Definition checksum_v (s : cksum_state) : value A :=
    VAdt ["UbxChecksumCalc"%string] [("ck_a"%string, u8_v (fst s)); ("ck_b"%string, u8_v (snd s))].
  Definition two_v (s : byte * byte) : value A := VTuple [u8_v (fst s); u8_v (snd s)].
  Record library : Prop := {
    lib_sync_1 : c_const P ["SYNC_CHAR_1"%string] = Some (u8_v SYNC_CHAR_1);
    lib_sync_2 : c_const P ["SYNC_CHAR_2"%string] = Some (u8_v SYNC_CHAR_2);
    lib_checksum : forall l, c_fn P [TIdent "ubx_checksum"] [VBytes l] = Some (Ret (two_v (ubx_checksum l)));
    lib_default : c_fn P (path_tokens ["UbxChecksumCalc"; "default"]%string) [] = Some (Ret (checksum_v cksum_new));
    lib_update : forall s l,
      c_method P [TIdent "update"] (checksum_v s) [VBytes l] = Some (Ret (checksum_v (cksum_update s l), [VBytes l], unit_v));
    lib_result : forall s,
      c_method P [TIdent "result"] (checksum_v s) [] = Some (Ret (checksum_v s, [], two_v (cksum_result s)));
    lib_vec : c_fn P (path_tokens ["Vec"; "new"]%string) [] = Some (Ret (VBytes []));
    lib_item : forall x l, method_v P [TIdent "extend_to"] (item_v x) [VBytes l] =
      Some (Ret (item_v x, [VBytes (l ++ it_bytes x)], usize_v (it_ret x)));
  }.

  (** The constants of the packet type (types_items of Code.v) are what the program knows under their names *)
  Definition knows_consts (d : pack_decl) : Prop :=
    Forall (fun k => c_const P [pd_name d; k_name k] = const P (k_val k)) (packet_consts d).

  (** A writer (ubx_packets.rs 55-60) *)
  Definition write_result_v {E} (error : E -> value A) (r : option (writer_error E)) : value A :=
    match r with
    | None => ok_v unit_v
    | Some NotEnoughMem => err_v (VAdt ["MemWriterError"; "NotEnoughMem"]%string [])
    | Some (Custom e) => err_v (VAdt ["MemWriterError"; "Custom"]%string [("0"%string, error e)])
    end.
  Record writer_means {W E} (w : mem_writer W E) (w_v : W -> value A) (error : E -> value A) : Prop := {
    wm_reserve : forall n x, method_v P [TIdent "reserve_allocate"] (w_v x) [usize_v n] =
      Some (Ret (w_v (fst (w_reserve w n x)), [usize_v n], write_result_v error (snd (w_reserve w n x))));
    wm_write : forall l x, method_v P [TIdent "write"] (w_v x) [VBytes l] =
      Some (Ret (w_v (fst (w_write w l x)), [VBytes l], write_result_v error (snd (w_write w l x))));
  }.

  (** The results of [validate] *)
  Definition error_v (e : parser_error) : value A :=
    match e with
    | InvalidField packet field =>
        VAdt ["ParserError"; "InvalidField"]%string [("packet"%string, VStr packet); ("field"%string, VStr field)]
    | InvalidPacketLen packet expect got =>
        VAdt ["ParserError"; "InvalidPacketLen"]%string
          [("packet"%string, VStr packet); ("expect"%string, usize_v expect); ("got"%string, usize_v got)]
    | InvalidChecksum expect got =>
        VAdt ["ParserError"; "InvalidChecksum"]%string
          [("expect"%string, VInt (I U16) (Z.of_N expect)); ("got"%string, VInt (I U16) (Z.of_N got))]
    | OutOfMemory n => VAdt ["ParserError"; "OutOfMemory"]%string [("required_size"%string, usize_v n)]
    end.
  Definition unit_result_v (r : DualBuffer.result unit) : value A :=
    match r with Ok _ => ok_v unit_v | Err e => err_v (error_v e) end.

  (** A packet type which the program has: its constants, and its function [validate] is the generated one *)
  Record knows_packet (d : pack_decl) : Prop := {
    kp_consts : knows_consts d;
    kp_validate : forall payload, fn_v P (validate_path (pd_name d)) [VBytes payload] = result P (validate_fn d) [VBytes payload];
  }.
  (** A declaration for which the receiving code is generated *)
  Record receivable (d : pack_decl) : Prop := {
    rv_accepted : gen_recv d = Good tt;
    rv_size : sized_total (pd_fields d) <= usize_max;
    rv_items : Forall (fun f => fd_raw f <> Items) (pd_fields d);
  }.
  Definition table_entry (name : string) (p : pack_desc) : Prop :=
    exists d, pd_name d = name /\ packet_means d p /\ receivable d /\ knows_packet d.

  (** [PacketRef] *)
  Definition packet_v (union unknown : string) (r : packet_ref) : value A :=
    match r with
    | Known p payload => VAdt [union; p_name p] [("0"%string, ref_v (p_name p) payload)]
    | Unknown payload class msg_id =>
        VAdt [union; "Unknown"%string]
          [("0"%string, VAdt [unknown] [("payload"%string, VBytes payload); ("class"%string, u8_v class); ("msg_id"%string, u8_v msg_id)])]
    end.
  Definition packet_result_v (union unknown : string) (r : DualBuffer.result packet_ref) : value A :=
    match r with Ok x => ok_v (packet_v union unknown x) | Err e => err_v (error_v e) end.
  Definition u16_v (n : N) : value A := VInt (I U16) (Z.of_N n).

  (** A value of an enum, and the variants which the program has *)
  Definition variant_v (name : string) (v : enum_val) : value A := VAdt [name; fst v] [].
  Definition knows_variants (name : string) (vs : list enum_val) : Prop :=
    Forall (fun v => c_const P [name; fst v] = Some (variant_v name v) /\ c_discr P [name; fst v] = Some (Z.of_N (snd v))) vs.

  (** The program with one more method: the function [f], as it runs in [P].  (Its receiver is [self] or [&self]: it stays as
      it is.) *)
  Definition linked (m : string) (f : func) : program A :=
    mk_program (c_const P) (c_fn P)
      (fun ts r l => if tokens_eqb ts [TIdent m]
                     then option_map (ret_map (fun x => (r, tl (snd x), fst x))) (call P f (r :: l))
                     else c_method P ts r l)
      (c_scale P) (c_discr P).

  (** The functions in the [impl] blocks with a given header *)
  Definition impl_fns (head : list token) (l : list ritem) : list func :=
    flat_map (fun i => match i with Impl h _ fns => if tokens_eqb h head then fns else [] | _ => [] end) l.
  (** Rust's choice of a function by its name *)
  Definition fn_named (fns : list func) (name : string) : option func := find (fun f => String.eqb (fn_name f) name) fns.
End Spec.
