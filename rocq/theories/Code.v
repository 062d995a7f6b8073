(** * The generated code as syntax trees: ublox_derive/src/output.rs

    What output.rs writes (Output.v), read as Rust.  PropOutput.v proves that these trees, printed, are the generated tokens
    of every declaration, PropCode.v that their meaning (Rust.v) is GenRecv.v, GenSend.v, Enums.v and Dispatch.v.  The line
    numbers are those of the templates which the trees read. *)
From Coq Require Import String Ascii List NArith ZArith Bool.
From Verif Require Import Base Tokens Syntax PackDesc Enums Macro Quote Output Rust.
Import ListNotations.
Open Scope N_scope.
Open Scope list_scope.

(** Tokens of a text: [toks "text"] is the list itself *)
Definition text_tokens (text : string) : list token := fill [] (template text).
Notation toks text := ltac:(let v := eval vm_compute in (text_tokens text) in exact v) (only parsing).

Definition usz (n : N) : code := ENum n "usize" Usize.
Definition ix (n : N) : code := ENum n "" Usize.        (* an index written in the template *)
Definition self_e : code := EVar "self".
Definition m_name (s : string) : list token := [TIdent s].

Definition doc (comment : string) : list token := [TPunct "#"; TGroup Bracket [TIdent "doc"; TPunct "="; TStr comment]].
Definition t_inline : list token := toks "#[inline]".
Definition t_pub_fn : list token := toks "pub fn".
Definition arrow (ty : list token) : list token := p2 "-" ">" ++ ty.
Definition self_param : string * list token := ("self"%string, toks "&self").
Definition own_self_param : string * list token := ("self"%string, toks "self").
Definition payload_param : string * list token := ("payload"%string, toks "payload: &[u8]").

(** ** Getters: output.rs 86-196 *)

(** 833-836 *)
Fixpoint byte_exprs (off : N) (data : code) (n : nat) : list code :=
  match n with
  | O => []
  | S n' => EIndex data (usz off) :: byte_exprs (off + 1) data n'
  end.

(** 841-850, for a field of [size] bytes *)
Definition raw_expr (f : field_decl) (size off : N) (data : code) : code :=
  if fd_get_as_ref f then ERef (EIndex data (ERange (usz off) (EParen (EBin Add (usz off) (usz size)))))
  else if is_field_raw_ty_byte_array f then EArray (byte_exprs off data (N.to_nat size))
  else if negb (size =? 1) || tokens_eqb (fd_ty f) [TIdent "i8"]
  then EFromLe (fd_ty f) (EArray (byte_exprs off data (N.to_nat size)))
  else EIndex data (usz off).

Definition self_data : code := EField self_e 0.         (* [self.0] *)
Definition let_val (e : code) : code := SLet false "val" [] e.

(** 104-111, 135-142, 188-194 *)
Definition getter_fn (comment name : string) (ty : list token) (body : list code) : func :=
  mk_func (doc comment ++ t_inline ++ t_pub_fn) name [] [self_param] (arrow ty) body.

(** 119-122, 175-178: [return Err(ParserError::InvalidField { ... });] *)
Definition invalid_field (pack_name name : string) : code :=
  SExpr (EReturn (ECtor ["Err"%string]
    [EStruct ["ParserError"; "InvalidField"]%string [EInit "packet" (EStr pack_name); EInit "field" (EStringify name)] false])).
(** 118-123, 174-179 *)
Definition check_val (is_valid : list token) (pack_name name : string) : code :=
  SIf (ENot (ECall is_valid [EVar "val"])) (EBlock [invalid_field pack_name name]).

(** 91-143 *)
Definition sized_getters (f : field_decl) (size off : N) : list func :=
  let name := intermediate_field_name f in
  let raw := let_val (raw_expr f size off self_data) in
  let scale := match fd_scale f with Some s => [let_val (EScale (EVar "val") s)] | None => [] end in
  match fd_map f with
  | Some m =>
      [getter_fn (fd_comment f) (name ++ "_raw") (if is_field_raw_ty_byte_array f then slice_ty else fd_ty f)
                 [raw; EVar "val"];
       getter_fn (fd_comment f) name (intermediate_type f)
                 (raw :: let_val (ECall (md_from m) [EVar "val"]) :: scale ++ [EVar "val"])]
  | None => [getter_fn (fd_comment f) name (intermediate_type f) (raw :: scale ++ [EVar "val"])]
  end.
Definition sized_validators (pack_name : string) (f : field_decl) (size off : N) : list code :=
  match fd_map f with
  | Some m => if fd_may_fail f
              then [let_val (raw_expr f size off (EVar "payload"));
                    check_val (md_is_valid m) pack_name (intermediate_field_name f)]
              else []
  | None => []
  end.

(** [off + recv.f1() + recv.f2() ...]: 150, 234 *)
Definition sum_expr (start recv : code) (fns : list (list token)) : code :=
  fold_left (fun a s => EBin Add a (EMethod recv s [])) fns start.

(** 147-160 *)
Definition unsized_expr (f : field_decl) (off : N) (size_fns : list (list token)) : code :=
  ERef (EIndex self_data
          match fd_size_fn f with
          | Some s => EBlock [SLet false "offset" [] (sum_expr (usz off) self_e size_fns);
                              ERange (EVar "offset") (EBin Add (EVar "offset") (EMethod self_e s []))]
          | None => EFrom (usz off)
          end).
(** 160-169, 183-194 *)
Definition unsized_getters (f : field_decl) (off : N) (size_fns : list (list token)) : list func :=
  let raw := unsized_expr f off size_fns in
  [getter_fn (fd_comment f) (intermediate_field_name f) (if has_intermediate_type f then intermediate_type f else slice_ty)
     match fd_map f with
     | Some m => [let_val raw; ECall (md_from m) [EVar "val"]]
     | None => [raw]
     end].
(** 170-181 *)
Definition unsized_validators (pack_name : string) (f : field_decl) (off : N) : list code :=
  match fd_map f with
  | Some m => if fd_may_fail f
              then [let_val (ERef (EIndex (EVar "payload") (EFrom (usz off))));
                    check_val (md_is_valid m) pack_name (intermediate_field_name f)]
              else []
  | None => []
  end.

(** 86-196: the loop *)
Fixpoint getter_fns (off : N) (size_fns : list (list token)) (fs : list field_decl) : list func :=
  match fs with
  | [] => []
  | f :: fs' =>
      match size_bytes (fd_raw f) with
      | Some size => sized_getters f size off ++ getter_fns (off + size) size_fns fs'
      | None => unsized_getters f off size_fns ++
                getter_fns off (match fd_size_fn f with Some s => size_fns ++ [s] | None => size_fns end) fs'
      end
  end.
Fixpoint field_validators (pack_name : string) (off : N) (fs : list field_decl) : list code :=
  match fs with
  | [] => []
  | f :: fs' =>
      match size_bytes (fd_raw f) with
      | Some size => sized_validators pack_name f size off ++ field_validators pack_name (off + size) fs'
      | None => unsized_validators pack_name f off ++ field_validators pack_name off fs'
      end
  end.

(** ** [validate]: output.rs 198-251 *)

Definition unit_e : code := ETuple [].
Definition ok_unit : code := ECtor ["Ok"%string] [unit_e].
(** [Err(ParserError::InvalidPacketLen { packet: ..., expect..., got })] *)
Definition invalid_len (pack_name : string) (expect : code) : code :=
  ECtor ["Err"%string]
    [EStruct ["ParserError"; "InvalidPacketLen"]%string [EInit "packet" (EStr pack_name); expect; EShort "got"] false].
Definition let_got : code := SLet false "got" [] (EMethod (EVar "payload") (m_name "len") []).
(** [if cond { validators Ok(()) } else { Err(...) }] *)
Definition check_all (cond : code) (validators : list code) (pack_name : string) (expect : code) : code :=
  EIf cond (EBlock (validators ++ [ok_unit])) (EBlock [invalid_len pack_name expect]).

Definition the_size (o : mres (option N)) : N := match o with Good (Some n) => n | _ => 0 end.

Definition validate_body (d : pack_decl) : list code :=
  let validators := field_validators (pd_name d) 0 (pd_fields d) in
  match decl_size 0 (pd_fields d) with
  | Good (Some payload_len) =>                                                       (* 199-210 *)
      [SLet false "expect" [] (usz payload_len); let_got;
       check_all (EBin EqOp (EVar "got") (EVar "expect")) validators (pd_name d) (EShort "expect")]
  | _ =>                                                                             (* 211-250 *)
      let fns := size_fn_codes d in
      let min :=
        match fns with
        | [] => [SLet false "min" [] (usz (the_size (decl_size 0 (removelast (pd_fields d))))); SEmpty]
        | _ =>
            let size := usz (the_size (decl_size 0 (filter (fun f => match fd_size_fn f with None => true | Some _ => false end)
                                                           (pd_fields d)))) in
            [SLet false "min" []
               (EBlock [SIf (EBin Lt (EVar "got") size)
                            (EBlock [SExpr (EReturn (invalid_len (pd_name d) (EInit "expect" size)))]);
                        sum_expr size (ECtor [(pd_name d ++ "Ref")%string] [EVar "payload"]) fns])]
        end in
      let_got :: min ++
      [check_all (EBin Ge (EVar "got") (EVar "min")) validators (pd_name d) (EInit "expect" (EVar "min"))]
  end.
Definition validate_fn (d : pack_decl) : func :=
  mk_func [TIdent "fn"] "validate" [] [payload_param] (toks "-> Result<(), ParserError>") (validate_body d).

(** ** Debug and Serialize: output.rs 11-75 *)

(** 19-27 *)
Definition get_self (f : field_decl) : code := EMethod self_e (m_name (intermediate_field_name f)) [].
Definition fmt_fn (d : pack_decl) : func :=
  mk_func [TIdent "fn"] "fmt" [] [self_param; ("f"%string, toks "f: &mut core::fmt::Formatter<'_>")]
    (arrow (toks "core::fmt::Result"))
    [EMethod
       (fold_left (fun a f => EMethod a (m_name "field") [EStringify (fd_name f); ERef (get_self f)]) (pd_fields d)
          (EMethod (EVar "f") (m_name "debug_struct") [EStr (pd_name d)]))
       (m_name "finish") []].

(** 39-48 *)
Definition serialize_stmt (f : field_decl) : code :=
  SExpr (ETry (EMethod (EVar "state") (m_name "serialize_entry")
    [EStringify (fd_name f);
     ERef (if match size_bytes (fd_raw f) with Some _ => true | None => false end || fd_is_optional f
           then get_self f else ECtor ["crate"; "ubx_packets"; "FieldIter"]%string [get_self f])])).
(** 51-61 *)
Definition serialize_fields_fn (d : pack_decl) : func :=
  mk_func [TIdent "fn"] "serialize_fields" (toks "<S>") [self_param; ("state"%string, toks "state: &mut S")]
    (toks "-> Result<(), S::Error> where S: serde::ser::SerializeMap,")
    (map serialize_stmt (pd_fields d) ++ [ok_unit]).
(** 63-73 *)
Definition serialize_head : list token := toks "-> Result<S::Ok, S::Error> where S: serde::Serializer,".
Definition serialize_fn : func :=
  mk_func [TIdent "fn"] "serialize" (toks "<S>") [self_param; ("serializer"%string, toks "serializer: S")] serialize_head
    [SLet true "state" [] (ETry (EMethod (EVar "serializer") (m_name "serialize_map") [EConst ["None"%string]]));
     SExpr (ETry (EMethod self_e (m_name "serialize_fields") [ERefMut "state"]));
     EMethod (EVar "state") (m_name "end") []].

(** ** The receiving code: output.rs 253-273 *)

Definition as_bytes_fn : func :=
  mk_func (t_inline ++ t_pub_fn) "as_bytes" [] [self_param] (arrow slice_ty) [self_data].

Definition recv_items (d : pack_decl) : list ritem :=
  let ref_name := (pd_name d ++ "Ref")%string in
  let ref_any := TIdent ref_name :: toks "<'_>" in
  [Text (doc (pd_comment d) ++
         doc "Contains a reference to an underlying buffer, contains accessor methods to retrieve data." ++
         toks "pub struct" ++ TIdent ref_name :: toks "<'a>(&'a [u8]);");
   Impl (toks "impl<'a>" ++ TIdent ref_name :: toks "<'a>") [] (as_bytes_fn :: getter_fns 0 [] (pd_fields d) ++ [validate_fn d]);
   Impl (toks "impl core::fmt::Debug for" ++ ref_any) [] [fmt_fn d];
   Impl (toks "#[cfg(feature = ""serde"")] impl SerializeUbxPacketFields for" ++ ref_any) [] [serialize_fields_fn d];
   Impl (toks "#[cfg(feature = ""serde"")] impl serde::Serialize for" ++ ref_any) [] [serialize_fn]].

(** ** Constants of a packet: output.rs 276-300 *)

Definition u8_e (n : N) : code := ENum n "u8" (I U8).
Definition u16_e (n : N) : code := ENum n "u16" (I U16).
Definition packet_consts (d : pack_decl) : list constant :=
  let h := pd_header d in
  [mk_constant [TIdent "const"] "CLASS" [TIdent "u8"] (u8_e (h_class h));
   mk_constant [TIdent "const"] "ID" [TIdent "u8"] (u8_e (h_id h));
   mk_constant [TIdent "const"] "FIXED_PAYLOAD_LEN" (toks "Option<u16>")
     match h_len h with Fixed x => ECtor ["Some"%string] [u16_e x] | Max _ => EConst ["None"%string] end;
   mk_constant [TIdent "const"] "MAX_PAYLOAD_LEN" [TIdent "u16"]
     match h_len h with Fixed x => u16_e x | Max x => u16_e x end].
Definition types_items (d : pack_decl) : list ritem :=
  [Text (doc (pd_comment d) ++ toks "pub struct" ++ TIdent (pd_name d) :: p1 ";");
   Impl (toks "impl UbxPacketMeta for" ++ [TIdent (pd_name d)]) (packet_consts d) []].

(** ** Builders: output.rs 302-496 *)

Definition bytes_e : code := EVar "bytes".
Definition self_field (f : field_decl) : code := ENamed self_e (intermediate_field_name f).

(** 343-355, with the semicolons of 426, 448 or 481 *)
Definition let_bytes (f : field_decl) : list code :=
  match fd_map f with
  | Some m => [SLet false "bytes" [] (EMethod (ECall (md_into m) [self_field f]) (m_name "to_le_bytes") [])]
  | None => if negb (is_field_raw_ty_byte_array f)
            then [SLet false "bytes" [] (EMethod (self_field f) (m_name "to_le_bytes") [])]
            else [SLet false "bytes" slice_ty (ERef (self_field f)); SEmpty]
  end.
(** 373-378 *)
Fixpoint copy_stmts (off i0 : N) (n : nat) : list code :=
  match n with
  | O => []
  | S n' => SSet "ret" (usz (off + i0)) (EIndex bytes_e (usz i0)) :: copy_stmts off (i0 + 1) n'
  end.
(** 358-361 *)
Definition write_stmts : list code :=
  [SExpr (ETry (EMethod (EVar "out") (m_name "write") [ERef bytes_e]));
   SExpr (EMethod (EVar "checksum_calc") (m_name "update") [ERef bytes_e])].
(** 368-370 *)
Definition push_all (e : code) : code :=
  SFor "b" (EMethod e (m_name "iter") [])
    (EBlock [SExpr (EMethod (EVar "out") (m_name "extend") [ECall once_path [EDeref (EVar "b")]])]).
(** 364-371 *)
Definition extend_stmts : list code := [SAdd "len_bytes" (EMethod bytes_e (m_name "len") []); push_all bytes_e; SEmpty].
(** 326-330 *)
Definition extend_items_stmts (f : field_decl) : list code :=
  [SFor "f" (self_field f) (EBlock [SAdd "len_bytes" (EMethod (EVar "f") (m_name "extend_to") [EVar "out"])]); SEmpty].

(** 313-381: the loop *)
Fixpoint pack_stmts (off : N) (fs : list field_decl) : list code :=
  match fs with
  | [] => []
  | f :: fs' =>
      match size_bytes (fd_raw f) with
      | Some size => let_bytes f ++ copy_stmts off 0 (N.to_nat size) ++ pack_stmts (off + size) fs'
      | None => []
      end
  end.
Fixpoint write_all_stmts (fs : list field_decl) : list code :=
  match fs with
  | [] => []
  | f :: fs' =>
      match size_bytes (fd_raw f) with
      | Some _ => let_bytes f ++ write_stmts ++ write_all_stmts fs'
      | None => []
      end
  end.
Fixpoint extend_all_stmts (fs : list field_decl) : list code :=
  match fs with
  | [] => []
  | f :: fs' =>
      match size_bytes (fd_raw f) with
      | Some _ => let_bytes f ++ extend_stmts ++ extend_all_stmts fs'
      | None => extend_items_stmts f
      end
  end.
(** [#(...);*;] of an empty list leaves a semicolon *)
Definition or_empty (l : list code) : list code := match l with [] => [SEmpty] | _ => l end.

Definition packet_const (d : pack_decl) (x : string) : code := EConst [pd_name d; x].
Definition self_len : code := EConst ["Self"; "PACKET_LEN"]%string.
Definition sync_1 : code := EConst ["SYNC_CHAR_1"%string].
Definition sync_2 : code := EConst ["SYNC_CHAR_2"%string].
Definition f_checksum : list token := [TIdent "ubx_checksum"].

(** 416-431 *)
Definition into_packet_bytes_fn (d : pack_decl) (size : N) : func :=
  mk_func (t_inline ++ t_pub_fn) "into_packet_bytes" [] [own_self_param] (arrow (toks "[u8; Self::PACKET_LEN]"))
    ([SLet true "ret" [] (ERepeat (ENum 0 "u8" (I U8)) self_len);
      SSet "ret" (ix 0) sync_1;
      SSet "ret" (ix 1) sync_2;
      SSet "ret" (ix 2) (packet_const d "CLASS");
      SSet "ret" (ix 3) (packet_const d "ID");
      SLet false "pack_len_bytes" [] (EMethod (u16_e size) (m_name "to_le_bytes") []);
      SSet "ret" (ix 4) (EIndex (EVar "pack_len_bytes") (ix 0));
      SSet "ret" (ix 5) (EIndex (EVar "pack_len_bytes") (ix 1))] ++
     or_empty (pack_stmts 6 (pd_fields d)) ++
     [SLet2 "ck_a" "ck_b" (ECall f_checksum
        [ERef (EIndex (EVar "ret") (ERange (ix 2) (EParen (EBin Sub self_len (ix 2)))))]);
      SSet "ret" (EBin Sub self_len (ix 2)) (EVar "ck_a");
      SSet "ret" (EBin Sub self_len (ix 1)) (EVar "ck_b");
      EVar "ret"]).

(** 433-437 *)
Definition from_builder_fn (payload_struct : string) : func :=
  mk_func [TIdent "fn"] "from" [] [("x"%string, TIdent "x" :: p1 ":" ++ [TIdent payload_struct])] (toks "-> Self")
    [EMethod (EVar "x") (m_name "into_packet_bytes") []].

(** 440-452 *)
Definition create_packet_fn (d : pack_decl) (size : N) : func :=
  mk_func (t_inline ++ [TIdent "fn"]) "create_packet" (toks "<T: MemWriter>")
    [own_self_param; ("out"%string, toks "out: &mut T")] (toks "-> Result<(), MemWriterError<T::Error>>")
    ([SExpr (ETry (EMethod (EVar "out") (m_name "reserve_allocate") [usz (size + 8)]));
      SLet false "len_bytes" [] (EMethod (u16_e size) (m_name "to_le_bytes") []);
      SLet false "header" [] (EArray [sync_1; sync_2; packet_const d "CLASS"; packet_const d "ID";
                                      EIndex (EVar "len_bytes") (ix 0); EIndex (EVar "len_bytes") (ix 1)]);
      SExpr (ETry (EMethod (EVar "out") (m_name "write") [ERef (EVar "header")]));
      SLet true "checksum_calc" [] (ECall (path_tokens ["UbxChecksumCalc"; "default"]%string) []);
      SExpr (EMethod (EVar "checksum_calc") (m_name "update") [ERef (EIndex (EVar "header") (EFrom (ix 2)))])] ++
     or_empty (write_all_stmts (pd_fields d)) ++
     [SLet2 "ck_a" "ck_b" (EMethod (EVar "checksum_calc") (m_name "result") []);
      SExpr (ETry (EMethod (EVar "out") (m_name "write") [ERef (EArray [EVar "ck_a"; EVar "ck_b"])]));
      ok_unit]).

(** 458-464 *)
Definition into_packet_vec_fn : func :=
  mk_func (toks "#[cfg(feature = ""alloc"")]" ++ t_inline ++ t_pub_fn) "into_packet_vec" [] [own_self_param]
    (arrow (toks "Vec<u8>"))
    [SLet true "vec" [] (ECall (path_tokens ["Vec"; "new"]%string) []);
     SExpr (EMethod self_e (m_name "extend_to") [ERefMut "vec"]);
     EVar "vec"].

(** 466-490 *)
Definition extend_to_fn (d : pack_decl) : func :=
  mk_func (t_inline ++ t_pub_fn) "extend_to" (toks "<T>") [own_self_param; ("out"%string, toks "out: &mut T")]
    (toks "where T: core::iter::Extend<u8> + core::ops::DerefMut<Target = [u8]>")
    ([SLet true "len_bytes" [] (ENum 0 "" Usize);
      SLet false "header" [] (EArray [sync_1; sync_2; packet_const d "CLASS"; packet_const d "ID";
                                      ENum 0 "" (I U8); ENum 0 "" (I U8)]);
      push_all (EVar "header")] ++
     or_empty (extend_all_stmts (pd_fields d)) ++
     [SLet false "len_bytes" [] (EMethod (EVar "len_bytes") (m_name "to_le_bytes") []);
      SSet "out" (ix 4) (EIndex (EVar "len_bytes") (ix 0));
      SSet "out" (ix 5) (EIndex (EVar "len_bytes") (ix 1));
      SLet2 "ck_a" "ck_b" (ECall f_checksum [ERef (EIndex (EVar "out") (EFrom (ix 2)))]);
      SExpr (EMethod (EVar "out") (m_name "extend") [ECall once_path [EVar "ck_a"]]);
      SExpr (EMethod (EVar "out") (m_name "extend") [ECall once_path [EVar "ck_b"]])]).

(** 317-320 *)
Definition builder_field (f : field_decl) : list token :=
  doc (fd_comment f) ++ [TIdent "pub"; TIdent (intermediate_field_name f)] ++ p1 ":" ++ intermediate_type f.
(** 332: a last field without size *)
Definition needs_lifetime (d : pack_decl) : list token :=
  if existsb unsized (pd_fields d) then toks "<'a>" else [].
(** 382-407 *)
Definition builder_struct (d : pack_decl) : list token :=
  doc (pd_comment d) ++
  doc "Struct that is used to construct packets, see the crate-level documentation for more information" ++
  (if existsb (fun x => match x with DefaultForBuilder => true end) (h_flags (pd_header d)) then toks "#[derive(Default)]" else []) ++
  toks "pub struct" ++ TIdent (pd_name d ++ "Builder") :: needs_lifetime d ++
  [TGroup Brace (commas (map builder_field (pd_fields d)))].

Definition send_items (d : pack_decl) : list ritem :=
  let payload_struct := (pd_name d ++ "Builder")%string in
  let head := TIdent "impl" :: needs_lifetime d ++ TIdent payload_struct :: needs_lifetime d in
  Text (builder_struct d) ::
  match decl_size 0 (pd_fields d) with
  | Good (Some size) =>
      [Impl head [mk_constant (toks "pub const") "PACKET_LEN" [TIdent "usize"] (usz (size + 8))] [into_packet_bytes_fn d size];
       Impl (TIdent "impl" :: TIdent "From" :: p1 "<" ++ TIdent payload_struct :: p1 ">" ++ TIdent "for" ::
             [TGroup Bracket ([TIdent "u8"] ++ p1 ";" ++ [TInt (size + 8) "usize"])]) [] [from_builder_fn payload_struct];
       Impl (toks "impl UbxPacketCreator for" ++ [TIdent payload_struct]) [] [create_packet_fn d size]]
  | _ => [Impl head [] [into_packet_vec_fn; extend_to_fn d]]
  end.

(** ** Enums: output.rs 498-609 *)

(** Arms with commas between them, and after the last one if [comma] *)
Fixpoint arms (comma : bool) (l : list (pat * code)) : list code :=
  match l with
  | [] => []
  | [(p, e)] => [EArm p e comma]
  | (p, e) :: l' => EArm p e true :: arms comma l'
  end.
Definition branches (name : string) (vs : list enum_val) : list (pat * code) :=
  map (fun v => (PNum (snd v) "u8", EConst [name; fst v])) vs.

Definition x_param : string * list token := ("x"%string, toks "x: u8").
(** 529-533 *)
Definition enum_from_fn (name : string) (vs : list enum_val) : func :=
  mk_func [TIdent "fn"] "from" [] [x_param] (toks "-> Self") [EMatch (EVar "x") (arms false (branches name vs))].
(** 555-560 *)
Definition enum_from_unchecked_fn (name : string) (vs : list enum_val) : func :=
  mk_func [TIdent "fn"] "from_unchecked" [] [x_param] (toks "-> Self")
    [EMatch (EVar "x") (arms true (branches name vs) ++ [EArm PAny EUnreachable true])].
(** 561-566 *)
Definition enum_is_valid_fn (vs : list enum_val) : func :=
  mk_func [TIdent "fn"] "is_valid" [] [x_param] (toks "-> bool")
    [EMatch (EVar "x") [EArm (POr (map snd vs) "u8") (EBool true) true; EArm PAny (EBool false) true]].
(** 577-579 *)
Definition enum_into_raw_fn : func :=
  mk_func (toks "const fn") "into_raw" [] [own_self_param] (toks "-> u8") [ECast self_e [TIdent "u8"]].
(** 600-605 *)
Definition enum_serialize_fn : func :=
  mk_func [TIdent "fn"] "serialize" (toks "<S>") [self_param; ("serializer"%string, toks "serializer: S")] serialize_head
    [EMethod (EVar "serializer") (m_name "serialize_u8") [ECast (EDeref self_e) [TIdent "u8"]]].

(** 590-593 *)
Definition enum_text (attrs : list attribute) (name : string) (vs : list enum_val) : list token :=
  concat (map attr_tokens (kept_attrs attrs)) ++ TIdent "pub" :: TIdent "enum" :: TIdent name ::
  [TGroup Brace (commas (map (fun v => TIdent (fst v) :: p1 "=" ++ [TInt (snd v) "u8"]) vs))].

Definition enum_items (attrs : list attribute) (d : enum_decl) : list ritem :=
  let name := e_name (ed_desc d) in
  let vs := enum_variants (ed_desc d) in
  let head := [TIdent "impl"; TIdent name] in
  Text (enum_text attrs name vs) ::
  match ed_from d with
  | Some From => [Impl head [] [enum_from_fn name vs]]
  | Some FromUnchecked => [Impl head [] [enum_from_unchecked_fn name vs; enum_is_valid_fn vs]]
  | None => []
  end ++
  (if ed_into_raw d then [Impl head [] [enum_into_raw_fn]] else []) ++
  [Impl (toks "#[cfg(feature = ""serde"")] impl serde::Serialize for" ++ [TIdent name]) [] [enum_serialize_fn]].

(** ** Bit flags: output.rs 611-713 *)

(** 635, 640, 646, 648 *)
Definition flag_value (repr : string) (s : scalar) (bit : N) : code :=
  let one := EParen (ECast (ENum 1 "" (I s)) [TIdent repr]) in
  if negb (bit =? 0) then EParen (EBin Shl one (ENum bit "u32" (I U32))) else one.
Definition flag_text (repr : string) (s : scalar) (consts : list ((string * N) * list attribute)) (bit : N) : list token :=
  match find (fun c => snd (fst c) =? N.shiftl 1 bit) consts with
  | Some ((name, _), attrs) => concat (map attr_tokens attrs) ++ TIdent "const" :: TIdent name :: p1 "=" ++ print (flag_value repr s bit)
  | None => TIdent "const" :: TIdent ("RESERVED" ++ dec bit) :: p1 "=" ++ print (flag_value repr s bit)
  end.

(** 668-674 *)
Definition flags_from_fn (repr : string) : func :=
  mk_func (toks "const fn") "from" [] [("x"%string, TIdent "x" :: p1 ":" ++ [TIdent repr])] (toks "-> Self")
    [ECall (path_tokens ["Self"; "from_bits_truncate"]%string) [EVar "x"]].
(** 680-686 *)
Definition flags_into_raw_fn (repr : string) : func :=
  mk_func (toks "const fn") "into_raw" [] [own_self_param] (arrow [TIdent repr]) [EMethod self_e (m_name "bits") []].
(** 690-700 *)
Definition flags_serialize_fn (repr : string) : func :=
  mk_func [TIdent "fn"] "serialize" (toks "<S>") [self_param; ("serializer"%string, toks "serializer: S")] serialize_head
    [EMethod (EVar "serializer") (m_name ("serialize_" ++ repr)) [EMethod self_e (m_name "bits") []]].

Definition flags_items_code (x : flags_text) (s : scalar) (d : flags_decl) : list ritem :=
  let name := b_name (fl_desc d) in
  let repr := ft_repr x in
  let head := [TIdent "impl"; TIdent name] in
  let bits := map N.of_nat (seq 0 (N.to_nat (b_nbits (fl_desc d)))) in
  let consts := combine (b_consts (fl_desc d)) (ft_const_attrs x) in
  Text (TIdent "bitflags" :: p1 "!" ++
        [TGroup Brace (concat (map attr_tokens (ft_attrs x)) ++ ft_vis x ++ TIdent "struct" :: TIdent name :: p1 ":" ++ TIdent repr ::
           [TGroup Brace (match bits with [] => p1 ";" | _ => flat_map (fun bit => flag_text repr s consts bit ++ p1 ";") bits end)])]) ::
  match fl_from d with Some _ => [Impl head [] [flags_from_fn repr]] | None => [] end ++
  (if fl_into_raw d then [Impl head [] [flags_into_raw_fn repr]] else []) ++
  [Impl (toks "#[cfg(feature = ""serde"")] impl serde::Serialize for" ++ [TIdent name]) [] [flags_serialize_fn repr]].

(** ** The packets of the parser: output.rs 715-824 *)

Definition ref_name (name : string) : string := (name ++ "Ref")%string.
Definition name_const (name x : string) : code := EConst [name; x].
(** 730-732 *)
Definition validate_path (name : string) : list token := p1 "<" ++ [TIdent (ref_name name)] ++ p1 ">" ++ p2 ":" ":" ++ [TIdent "validate"].
Definition match_arm (union name : string) : code :=
  EArmIf (PConst2 [name; "CLASS"%string] [name; "ID"%string])
    (EMethod (ECall (validate_path name) [EVar "payload"]) (m_name "is_ok") [])
    (EBlock [ECtor ["Ok"%string] [ECtor [union; name] [ECtor [ref_name name] [EVar "payload"]]]]) false.
(** 775-784 *)
Definition match_packet_fn (d : recv_decl) : func :=
  mk_func (toks "pub(crate) fn") "match_packet" []
    [("class"%string, toks "class: u8"); ("msg_id"%string, toks "msg_id: u8"); payload_param]
    (TPunct "-" :: TPunct ">" :: TIdent "Result" :: p1 "<" ++ TIdent (rd_name d) :: p1 "," ++ toks "ParserError>")
    [EMatch (ETuple [EVar "class"; EVar "msg_id"])
       (map (match_arm (rd_name d)) (rd_packets d) ++
        [EArm PAny (ECtor ["Ok"%string] [ECtor [rd_name d; "Unknown"%string]
           [EStruct [rd_unknown d] [EShort "payload"; EShort "class"; EShort "msg_id"] false]]) true])].
(** 767-772 *)
Definition class_and_msg_id_fn (d : recv_decl) : func :=
  mk_func t_pub_fn "class_and_msg_id" [] [self_param] (toks "-> (u8, u8)")
    [EMatch (EDeref self_e)
       (map (fun name => EArm (PCtor [rd_name d; name] PAny) (ETuple [name_const name "CLASS"; name_const name "ID"]) true)
            (rd_packets d) ++
        [EArm (PCtor [rd_name d; "Unknown"%string] (PRef "pack"))
              (ETuple [ENamed (EVar "pack") "class"; ENamed (EVar "pack") "msg_id"]) true])].
(** 786-788 *)
Definition max_u16_fn : func :=
  mk_func (toks "const fn") "max_u16" [] [("a"%string, toks "a: u16"); ("b"%string, toks "b: u16")] (toks "-> u16")
    [EIndex (EArray [EVar "a"; EVar "b"]) (ECast (EParen (EBin Lt (EVar "a") (EVar "b"))) [TIdent "usize"])].
(** 751-756, 789 *)
Definition max_payload_len_const (d : recv_decl) : constant :=
  mk_constant (toks "pub(crate) const") "MAX_PAYLOAD_LEN" [TIdent "u16"]
    (fold_left (fun prev name => ECall [TIdent "max_u16"] [name_const name "MAX_PAYLOAD_LEN"; prev]) (rd_packets d) (u16_e 0)).
(** 799-808 *)
Definition entry (x : string) (e : code) : code :=
  SExpr (ETry (EMethod (EVar "state") (m_name "serialize_entry") [EStr x; ERef e])).
Definition packet_serializer_fn : func :=
  mk_func [TIdent "fn"] "serialize" (toks "<S>") [self_param; ("serializer"%string, toks "serializer: S")] serialize_head
    [SLet true "state" [] (ETry (EMethod (EVar "serializer") (m_name "serialize_map") [EConst ["None"%string]]));
     entry "class" (ENamed self_e "class");
     entry "msg_id" (ENamed self_e "msg_id");
     SExpr (ETry (EMethod (ENamed self_e "msg") (m_name "serialize_fields") [ERefMut "state"]));
     EMethod (EVar "state") (m_name "end") []].
(** 739-746, 811-822 *)
Definition union_arm (union name : string) : code :=
  EArm (PCtor [union; name] (PRef "msg"))
    (EMethod (EStruct ["crate"; "ubx_packets"; "PacketSerializer"]%string
                [EInit "class" (name_const name "CLASS"); EInit "msg_id" (name_const name "ID"); EShort "msg"] true)
       (m_name "serialize") [EVar "serializer"]) true.
Definition union_serialize_fn (d : recv_decl) : func :=
  mk_func [TIdent "fn"] "serialize" (toks "<S>") [self_param; ("serializer"%string, toks "serializer: S")] serialize_head
    [EMatch (EDeref self_e)
       (map (union_arm (rd_name d)) (rd_packets d) ++
        [EArm (PCtor [rd_name d; "Unknown"%string] (PRef "pack"))
              (EMethod (EVar "pack") (m_name "serialize") [EVar "serializer"]) true])].

Definition parse_items (d : recv_decl) : list ritem :=
  let of_a := TIdent (rd_name d) :: toks "<'a>" in
  [Text (doc "All possible packets enum" ++ toks "#[derive(Debug)] pub enum" ++ of_a ++
         [TGroup Brace (flat_map (fun name => TIdent name :: TGroup Paren (TIdent (ref_name name) :: toks "<'a>") :: p1 ",")
                                 (rd_packets d) ++
                        TIdent "Unknown" :: [TGroup Paren (TIdent (rd_unknown d) :: toks "<'a>")])]);
   Impl (toks "impl<'a>" ++ of_a) [] [class_and_msg_id_fn d];
   Fn (match_packet_fn d);
   Fn max_u16_fn;
   Const (max_payload_len_const d);
   Text (toks "#[cfg(feature = ""serde"")]
        pub struct PacketSerializer<'a, T> {
            class: u8,
            msg_id: u8,
            msg: &'a T,
        }");
   Impl (toks "#[cfg(feature = ""serde"")] impl<'a, T: SerializeUbxPacketFields> serde::Serialize for PacketSerializer<'a, T>")
        [] [packet_serializer_fn];
   Impl (toks "#[cfg(feature = ""serde"")] impl serde::Serialize for" ++ TIdent (rd_name d) :: toks "<'_>") [] [union_serialize_fn d]].
