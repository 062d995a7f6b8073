(** * The derive macros read a declaration as it is written, or reject it *)
From Coq Require Import String Ascii List NArith ZArith Bool Lia Permutation.
From Verif Require Import Base Tokens Syntax PackDesc Enums Macro Meaning SpecMacro ProofMacro ProofMeaning ProofText.
Import ListNotations.
Open Scope N_scope.
Open Scope list_scope.

(** Declarations for the examples *)
Definition item_in (text : string) : syn_item := match lex text with Some ts => fst (next_item ts) | None => IOther end.
Definition attrs_in (text : string) : list attribute :=
  match item_in text with IStruct a _ _ | IEnum a _ _ | IMacro a _ _ => a | IOther => [] end.
Definition fields_in (text : string) : fields := match item_in text with IStruct _ _ (Good f) => f | _ => Unit end.
Definition variants_in (text : string) : list variant := match item_in text with IEnum _ _ (Good v) => v | _ => [] end.
Definition first_field (text : string) : syn_field :=
  match fields_in text with Named (f :: _) => f | _ => mk_sf [] "" [] end.
Definition tokens_in (text : string) : list token := match lex text with Some ts => ts | None => [] end.

(** From ublox_derive/src/tests.rs 14-28 *)
Definition test_text : string :=
"#[ubx_packet_recv]
#[ubx(class = 1, id = 2, fixed_payload_len = 16)]
#[doc = ""Some comment""]
struct Test {
    itow: u32,
    #[doc = ""this is lat""]
    #[ubx(map_type = f64, scale = 1e-7, alias = lat_degrees)]
    lat: i32,
    #[doc = ""this is a""]
    a: u8,
    reserved1: [u8; 5],
    #[ubx(map_type = Flags, may_fail)]
    flags: u8,
    b: i8,
}".

(** ** C63: the header *)

(** A header is accepted exactly if the first [ubx] attribute is a list which says it. *)
Theorem header_exact attrs h :
  parse_ubx_attr attrs = Good h <->
  exists a l, first_attr "ubx" attrs a /\ parse_meta a = Good (MList l) /\ header_says l h.
Proof. apply parse_ubx_attr_good. Qed.

Example header_exact_ex : parse_ubx_attr (attrs_in test_text) = Good (mk_header 1 2 (Fixed 16) []).
Proof. reflexivity. Qed.
Example header_rejects_ex :
  map (fun t => parse_ubx_attr (attrs_in t))
    ["#[ubx(class = 256, id = 2, fixed_payload_len = 16)] struct A {}";
     "#[ubx(class = 1, class = 1, id = 2, fixed_payload_len = 16)] struct A {}";
     "#[ubx(class = 1, id = 2, fixed_payload_len = 16, max_payload_len = 20)] struct A {}";
     "#[ubx(class = 1, id = 2)] struct A {}";
     "#[ubx(class = 1, id = 2, max_payload_len = 65536)] struct A {}";
     "#[ubx(class = 1, id = 2, len = 6)] struct A {}"]%string
  = [Bad "number too large to fit in target type";
     Bad "Duplicate ""class"" attribute";
     Bad "You should not note max_payload_len AND fixed_payload_len";
     Bad "You should note max_payload_len or fixed_payload_len";
     Bad "number too large to fit in target type";
     Bad "Unsupported attribute"].
Proof. reflexivity. Qed.

(** The order of the items does not matter. *)
Theorem header_order attrs attrs' a a' l l' h :
  first_attr "ubx" attrs a -> parse_meta a = Good (MList l) ->
  first_attr "ubx" attrs' a' -> parse_meta a' = Good (MList l') ->
  Permutation l l' -> (length (written "flags" l) <= 1)%nat ->
  parse_ubx_attr attrs = Good h -> parse_ubx_attr attrs' = Good h.
Proof.
  intros H1 H2 H1' H2' P L H. apply header_exact in H. destruct H as (b & m & B1 & B2 & B3).
  apply find_attr_first in H1, B1. rewrite H1 in B1. injection B1 as <-. rewrite H2 in B2. injection B2 as <-.
  apply header_exact. exists a', l'. split; [exact H1'|]. split; [exact H2'|]. eapply header_says_perm; eassumption.
Qed.

Example header_order_ex :
  parse_ubx_attr (attrs_in "#[ubx(flags = ""default_for_builder"", id = 0x24, max_payload_len = 36, class = 0x06)] struct A {}")
  = Good (mk_header 6 36 (Max 36) [DefaultForBuilder]) /\
  parse_ubx_attr (attrs_in "#[ubx(class = 0x06, id = 0x24, max_payload_len = 36, flags = ""default_for_builder"")] struct A {}")
  = Good (mk_header 6 36 (Max 36) [DefaultForBuilder]).
Proof. split; reflexivity. Qed.

(** Reading a header never panics. *)
Theorem header_total attrs : parse_ubx_attr attrs <> Crash.
Proof. apply parse_ubx_attr_total. Qed.
Example header_total_ex : parse_ubx_attr (attrs_in "#[ubx] struct A {}") = Bad "Invalid ubx attribute syntax".
Proof. reflexivity. Qed.

(** Every key but [flags] is rejected when written twice; [flags] is not, if the first one is empty. *)
Theorem duplicate_flags_refuted :
  exists attrs a l h, first_attr "ubx" attrs a /\ parse_meta a = Good (MList l) /\
    (2 <= length (written "flags" l))%nat /\ parse_ubx_attr attrs = Good h.
Proof.
  pose (t := "#[ubx(class = 1, id = 2, fixed_payload_len = 4, flags = """", flags = ""default_for_builder"")] struct A {}"%string).
  exists (attrs_in t), (hd (mk_attr [] []) (attrs_in t)).
  exists [NValue ["class"%string] (LInt 1); NValue ["id"%string] (LInt 2); NValue ["fixed_payload_len"%string] (LInt 4);
          NValue ["flags"%string] (LStr ""); NValue ["flags"%string] (LStr "default_for_builder")].
  exists (mk_header 1 2 (Fixed 4) [DefaultForBuilder]).
  split; [apply find_attr_first; reflexivity|]. split; [reflexivity|]. split; [cbn; lia|reflexivity].
Qed.

(** ** C64: the options of a field *)

(** The options are accepted exactly if they are written as the grammar says, and mean what is written, where the last one
    of a kind counts. *)
Theorem options_exact ts m :
  parse_field_map ts = Good m <-> exists os, opts_written os ts /\ m = options_mean os.
Proof. apply parse_field_map_good. Qed.

Example options_exact_ex :
  parse_field_map (tokens_in "map_type = Option<&str>, may_fail, is_valid = inf::is_valid, from = inf::convert_to_str, get_as_ref,")
  = Good (mk_fm (Some (mk_mt [TIdent "Option"; TPunct "<"; TPunct "&"; TIdent "str"; TPunct ">"]
                         (Some (path_tokens ["inf"; "convert_to_str"]%string)) (Some (path_tokens ["inf"; "is_valid"]%string)) None None))
                None None true true) /\
  parse_field_map (tokens_in "scale = 1e-2 alias = x") = Good (mk_fm None (Some "1e-2"%string) (Some "x"%string) false false) /\
  parse_field_map (tokens_in "scale = 7") = Bad "expected floating point literal" /\
  parse_field_map (tokens_in "map_type = f64,, scale = 1.0") = Bad "unexpected token".
Proof. repeat split; reflexivity. Qed.

Theorem options_total ts : parse_field_map ts <> Crash.
Proof. apply parse_field_map_total. Qed.
Example options_total_ex : parse_field_map (tokens_in "map_type = ,") = Bad "expected type".
Proof. reflexivity. Qed.

(** The order of options of different kinds does not matter. *)
Theorem options_order os os' ts ts' :
  opts_written os ts -> opts_written os' ts' -> Permutation os os' -> NoDup (map opt_key os) ->
  parse_field_map ts = parse_field_map ts'.
Proof.
  intros H1 H2 P ND. assert (E1 : parse_field_map ts = Good (options_mean os)) by (apply options_exact; eauto).
  assert (E2 : parse_field_map ts' = Good (options_mean os')) by (apply options_exact; eauto).
  rewrite E1, E2. f_equal. now apply options_mean_perm.
Qed.

Example options_order_ex :
  parse_field_map (tokens_in "map_type = f64, scale = 1e-7, alias = lat_degrees") =
  parse_field_map (tokens_in "alias = lat_degrees, map_type = f64, scale = 1e-7") /\
  NoDup (map opt_key [OMapType [TIdent "f64"]; OScale "1e-7"; OAlias "lat_degrees"]) /\
  opts_written [OMapType [TIdent "f64"]; OScale "1e-7"; OAlias "lat_degrees"]
    (tokens_in "map_type = f64, scale = 1e-7, alias = lat_degrees").
Proof.
  split; [reflexivity|]. split; [repeat constructor; cbn; intuition discriminate|].
  change (tokens_in "map_type = f64, scale = 1e-7, alias = lat_degrees") with
    (kv "map_type" [TIdent "f64"] ++ TPunct "," :: (kv "scale" [TFloat "1e-7"] ++ TPunct "," :: kv "alias" [TIdent "lat_degrees"])).
  repeat constructor.
Qed.

(** Without [map_type] the functions are forgotten. *)
Theorem functions_need_type os ts m :
  opts_written os ts -> the_type os = None -> parse_field_map ts = Good m -> fm_map_type m = None.
Proof.
  intros H N E. assert (E' : parse_field_map ts = Good (options_mean os)) by (apply options_exact; eauto).
  rewrite E' in E. injection E as <-. unfold options_mean. now rewrite N.
Qed.
Example functions_need_type_ex : parse_field_map (tokens_in "from = a::b, may_fail") = Good (mk_fm None None None true false).
Proof. reflexivity. Qed.

(** A field is accepted exactly if its type, comments and attributes are those of the description. *)
Theorem field_exact f d : parse_one_field f = Good d <-> field_says f d.
Proof. apply parse_one_field_good. Qed.
Example field_exact_ex :
  parse_one_field (first_field "struct A { /// in mm
    #[ubx(map_type = f64, scale = 1e-3)] x: i32 }") =
  Good (mk_fd "x" [TIdent "i32"] (Scalar I32)
          (Some (mk_md [TIdent "f64"] (method [TIdent "f64"] "from") (method [TIdent "f64"] "is_valid")
                       (tokens_in "ScaleBack::<f64>(1. / 1e-3).as_i32") None))
          (Some "1e-3"%string) None false false " in mm") /\
  parse_one_field (first_field "struct A { #[ubx(map_type = i32)] x: i32 }") = Bad "You map type to the same type" /\
  parse_one_field (first_field "struct A { x: u64 }") = Bad "Not supported type" /\
  parse_one_field (first_field "struct A { x: [u16; 4] }") = Bad "Only u8 supported".
Proof. repeat split; reflexivity. Qed.

(** A second attribute is refused only if the first one holds a type, a scale or an alias; otherwise the options of the first
    one are dropped. *)
Theorem two_attributes_refuted :
  exists f d, length (filter (fun a => negb (is_ident (a_path a) "doc")) (sf_attrs f)) = 2%nat /\
    In (mk_attr ["ubx"%string] [TGroup Paren [TIdent "may_fail"]]) (sf_attrs f) /\
    parse_one_field f = Good d /\ fd_may_fail d = false.
Proof.
  exists (first_field "struct A { #[ubx(may_fail)] #[ubx(map_type = Flags)] x: u8 }"). eexists.
  split; [reflexivity|]. split; [left; reflexivity|]. split; reflexivity.
Qed.

(** ** C65: whole packets *)

(** A packet declaration is accepted exactly if the description says what is written, only the last field lacks a size, and
    the declared length is that of the fields. *)
Theorem packet_exact name attrs fs p :
  parse_packet_description name attrs fs = Good p <-> packet_says name attrs fs p.
Proof. apply packet_good. Qed.

Example packet_exact_ex :
  exists p, parse_packet_description "Test" (attrs_in test_text) (fields_in test_text) = Good p /\
    map fd_name (pd_fields p) = ["itow"; "lat"; "a"; "reserved1"; "flags"; "b"]%string /\ pd_comment p = "Some comment"%string /\
    widths (pd_fields p) = 16.
Proof. eexists. split; [reflexivity|]. repeat split; reflexivity. Qed.
Example packet_rejects_ex :
  parse_packet_description "A" (attrs_in "#[ubx(class = 1, id = 2, fixed_payload_len = 5)] struct A { x: u32 }")
    (fields_in "struct A { x: u32 }") = Bad "Calculated packet size doesn't match specified" /\
  parse_packet_description "A" (attrs_in "#[ubx(class = 1, id = 2, max_payload_len = 5)] struct A { x: u32 }")
    (fields_in "struct A { x: u32 }") = Bad "Calculated packet size doesn't match specified" /\
  parse_packet_description "A" (attrs_in "#[ubx(class = 1, id = 2, max_payload_len = 5)] struct A { x: u32 }")
    (fields_in "struct A { d: [u8; 0], x: u32 }") = Bad "Non-finite size for field which is not the last field".
Proof. repeat split; reflexivity. Qed.

(** The macro for a kind of packet yields a description exactly if it is accepted and, for packets to be sent, only the last
    field lacks a size. *)
Theorem packet_macro_exact k name attrs fs o :
  packet_macro k name attrs fs = Good o <->
  exists d, o = OPacket k d /\ packet_says name attrs fs d /\
    (k <> Recv -> forall f e rest after, pd_fields d = rest ++ f :: e :: after -> width f <> None).
Proof. apply packet_macro_good. Qed.
Example packet_macro_exact_ex :
  exists d, packet_macro RecvSend "Test" (attrs_in test_text) (fields_in test_text) = Good (OPacket RecvSend d) /\
    length (pd_fields d) = 6%nat.
Proof. eexists. split; reflexivity. Qed.

(** It panics in two cases only: the sizes of the fields overflow, or a packet to be sent has a field without size which is
    not the last one. *)
Theorem packet_macro_panics k name attrs fs :
  packet_macro k name attrs fs = Crash <->
  (exists h c l ds, (exists a items, first_attr "ubx" attrs a /\ parse_meta a = Good (MList items) /\ header_says items h) /\
     comments_say attrs c /\ fs = Named l /\ Forall2 field_says l ds /\ sized_but_last ds /\ ~ sum_fits ds) \/
  (k <> Recv /\ exists d, packet_says name attrs fs d /\
     exists f e rest after, pd_fields d = rest ++ f :: e :: after /\ width f = None).
Proof. apply packet_macro_crash. Qed.

(** Both cases exist: the macros are not total. *)
Theorem packet_macro_total_refuted :
  (exists name attrs fs, packet_macro Recv name attrs fs = Crash) /\
  (exists name attrs fs, packet_macro Send name attrs fs = Crash /\ packet_macro Recv name attrs fs <> Crash).
Proof.
  split.
  - pose (t := "#[ubx(class = 1, id = 2, fixed_payload_len = 5)] struct A { x: [u8; 18446744073709551615], y: u8 }"%string).
    exists "A"%string, (attrs_in t), (fields_in t). reflexivity.
  - pose (t := "#[ubx(class = 1, id = 2, max_payload_len = 5)] struct A { #[ubx(map_type = X, size_fn = len)] x: [u8; 0], y: u8 }"%string).
    exists "A"%string, (attrs_in t), (fields_in t). split; [reflexivity|discriminate].
Qed.

(** What is accepted satisfies the hypothesis [accepted] of the theorems on all packet descriptions (GenRecv.v, GenSend.v),
    whatever meaning the names of types and functions have. *)
Theorem accepted_description name attrs fs e d c p :
  parse_packet_description name attrs fs = Good d -> packet_of e d = Some c -> packet_meaning c = Some p ->
  accepted p = true /\ p_name p = name /\ p_len p = h_len (pd_header d) /\
  b2n (p_class p) = h_class (pd_header d) /\ b2n (p_id p) = h_id (pd_header d) /\
  map f_name (p_fields p) = map fd_name (pd_fields d) /\ map f_ty (p_fields p) = map fd_raw (pd_fields d).
Proof.
  intros H1 H2 H3. apply packet_exact in H1. split; [eapply says_accepted; eassumption|].
  destruct (packet_fields_same _ _ _ _ H2 H3) as (F & -> & -> & -> & ->).
  destruct H1 as (-> & (a & l & _ & _ & (_ & _ & Cl & _ & Il & _)) & _).
  split; [reflexivity|]. split; [reflexivity|]. split; [now apply b2n_n2b_small|]. split; [now apply b2n_n2b_small|].
  clear - F. induction F as [|x y l m S _ [IH1 IH2]]; [split; reflexivity|]. cbn. destruct S as (S1 & _ & S2 & _). split; [now rewrite S1, IH1|now rewrite S2, IH2].
Qed.
Example accepted_description_ex :
  let t := "#[ubx(class = 0x10, id = 0x02, max_payload_len = 1240)] struct A { x: u32, #[ubx(map_type = f64, scale = 1e-3)] y: i16, d: [u8; 0] }"%string in
  exists d c p, parse_packet_description "A" (attrs_in t) (fields_in t) = Good d /\
    packet_of (mk_env [] [] []) d = Some c /\ packet_meaning c = Some p /\ length (p_fields p) = 3%nat.
Proof. do 3 eexists. repeat split; reflexivity. Qed.

(** ** C66: enums, bit flags and the list of packets *)

Theorem enum_exact name attrs vs o :
  enum_macro name attrs vs = Good o <->
  exists e, o = OEnum e /\ enum_says name attrs vs e /\
    ~ (ed_from e = Some FromUnchecked /\ e_rest (ed_desc e) = Some RestReserved).
Proof. apply enum_macro_good. Qed.
Definition enum_text : string :=
"#[ubx_extend]
#[ubx(from, rest_reserved, into_raw)]
#[repr(u8)]
enum Test { A = 1, B = 0x0f, }".
Example enum_exact_ex :
  enum_macro "Test" (attrs_in enum_text) (variants_in enum_text) =
  Good (OEnum (mk_ed (mk_enum "Test" [("A"%string, 1); ("B"%string, 15)] (Some RestReserved)) (Some From) true)) /\
  enum_macro "Test" (attrs_in "#[ubx(from, rest_error)] #[repr(u8)] enum Test { A = 1 }") (variants_in enum_text) =
    Bad "you should use rest_error with from_unchecked" /\
  enum_macro "Test" (attrs_in enum_text) (variants_in "enum Test { A = 256 }") = Bad "number too large to fit in target type" /\
  enum_macro "Test" (attrs_in enum_text) (variants_in "enum Test { A }") = Bad "ubx_type enum variant should has value".
Proof. repeat split; reflexivity. Qed.

(** It panics exactly if the representation is not [u8], or if [from_unchecked] comes with [rest_reserved]. *)
Theorem enum_panics name attrs vs :
  enum_macro name attrs vs = Crash <->
  ((exists a l v, first_attr "ubx" attrs a /\ parse_meta a = Good (MList l) /\ extend_says l v) /\
   exists b p, first_attr "repr" attrs b /\ parse_meta b = Good (MList [NPath p]) /\ p <> ["u8"%string]) \/
  (exists e, enum_says name attrs vs e /\ ed_from e = Some FromUnchecked /\ e_rest (ed_desc e) = Some RestReserved).
Proof. apply enum_macro_crash. Qed.
Theorem enum_total_refuted :
  (exists attrs vs, enum_macro "A" attrs vs = Crash /\ attrs = attrs_in "#[ubx(from)] #[repr(u16)] enum A { X = 1 }") /\
  (exists attrs vs, enum_macro "A" attrs vs = Crash /\ attrs = attrs_in "#[ubx(from_unchecked, rest_reserved)] #[repr(u8)] enum A { X = 1 }").
Proof.
  split; eexists; exists (variants_in "enum A { X = 1 }"); (split; [|reflexivity]); reflexivity.
Qed.

Theorem bitflags_exact attrs path body o :
  flags_macro attrs path body = Good o <->
  path = ["bitflags"%string] /\ exists f, o = OFlags f /\ bitflags_say attrs body f /\ fl_from f <> Some FromUnchecked.
Proof. apply flags_macro_good. Qed.
Example bitflags_exact_ex :
  let a := attrs_in "#[ubx(from, into_raw, rest_reserved)] struct A {}" in
  flags_macro a ["bitflags"%string] (tokens_in "/// comment
    pub struct Test : u8 { const A = 1; /// b
    const B = 0x20; }") =
  Good (OFlags (mk_fld (mk_flags "Test" 8 [("A"%string, 1); ("B"%string, 32)]) (Some From) true (Some RestReserved))) /\
  flags_macro a ["bitflags"%string] (tokens_in "struct Test : u8 { const A = 3; }") = Bad "Strange flags, not power of 2?" /\
  flags_macro a ["bitflags"%string] (tokens_in "struct Test : u8 { const A = 256; }") = Bad "Strange flags, not power of 2?" /\
  flags_macro a ["bitflags"%string] (tokens_in "struct Test : u8 { const A = 1; const B = 1; }") = Bad "Strange flags, not power of 2?" /\
  flags_macro (attrs_in "#[ubx(from_unchecked, rest_error)] struct A {}") ["bitflags"%string] (tokens_in "struct Test : u8 { const A = 1; }") =
    Bad "Only reserved supported".
Proof. repeat split; reflexivity. Qed.

(** It panics exactly if [from_unchecked] is asked for with [rest_reserved]. *)
Theorem bitflags_panics attrs path body :
  flags_macro attrs path body = Crash <->
  path = ["bitflags"%string] /\ exists f, bitflags_say attrs body f /\ fl_from f = Some FromUnchecked.
Proof. apply flags_macro_crash. Qed.
Theorem bitflags_total_refuted : exists attrs body, flags_macro attrs ["bitflags"%string] body = Crash.
Proof.
  exists (attrs_in "#[ubx(from_unchecked, rest_reserved)] struct A {}"), (tokens_in "struct Test : u8 { const A = 1; }"). reflexivity.
Qed.

Theorem recv_list_exact ts r :
  parse_idents_list ts = Good r <->
  exists c, ts = [TIdent "enum"; TIdent (rd_name r);
                  TGroup Brace (TIdent "_" :: TPunct "=" :: TIdent (rd_unknown r) :: TPunct "," ::
                                name_tokens (rd_packets r) c)].
Proof. apply recv_good. Qed.
Example recv_list_exact_ex :
  parse_idents_list (tokens_in "enum PacketRef { _ = Unknown, NavPosLlh, NavStatus, }") =
  Good (mk_rd "PacketRef" "Unknown" ["NavPosLlh"; "NavStatus"]%string).
Proof. reflexivity. Qed.

(** The items of a file are turned, one by one and in order, into what they say; if one of them says nothing that the macros
    understand, the file is not accepted. *)
Theorem file_exact text outs :
  expand_file text = Good outs <->
  exists ts each, lex text = Some ts /\ Forall2 item_says (items ts) each /\ outs = concat each.
Proof.
  unfold expand_file. destruct (lex text) as [ts|].
  - rewrite expand_all_good. split.
    + intros (each & H). eauto.
    + intros (ts' & each & E & H). injection E as <-. eauto.
  - split; [discriminate|]. intros (ts & each & E & _). discriminate.
Qed.
Example file_exact_ex :
  (exists d, expand_file "struct A; #[ubx_extend] #[ubx(from, rest_reserved)] #[repr(u8)] enum E { X = 1 } fn f() {} 
    #[ubx_packet_recv] #[ubx(class = 1, id = 2, fixed_payload_len = 1)] struct B { #[ubx(map_type = E)] e: u8 }" =
    Good [OEnum (mk_ed (mk_enum "E" [("X"%string, 1)] (Some RestReserved)) (Some From) false); OPacket Recv d] /\ pd_name d = "B"%string) /\
  expand_file "#[ubx_extend] #[ubx(from)] struct A {}" = Bad "This attribute can only be used for enum" /\
  expand_file "#[ubx_packet_send] enum A { X = 1 }" = Bad "This attribute can only be used for struct".
Proof. split; [eexists; split; reflexivity|]. split; reflexivity. Qed.

Print Assumptions header_exact.
Print Assumptions header_order.
Print Assumptions header_total.
Print Assumptions duplicate_flags_refuted.
Print Assumptions options_exact.
Print Assumptions options_total.
Print Assumptions options_order.
Print Assumptions functions_need_type.
Print Assumptions field_exact.
Print Assumptions two_attributes_refuted.
Print Assumptions packet_exact.
Print Assumptions packet_macro_exact.
Print Assumptions packet_macro_panics.
Print Assumptions packet_macro_total_refuted.
Print Assumptions accepted_description.
Print Assumptions enum_exact.
Print Assumptions enum_panics.
Print Assumptions enum_total_refuted.
Print Assumptions bitflags_exact.
Print Assumptions bitflags_panics.
Print Assumptions bitflags_total_refuted.
Print Assumptions recv_list_exact.
Print Assumptions file_exact.
