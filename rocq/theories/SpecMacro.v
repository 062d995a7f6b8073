(** * Specification: what the attributes of a declaration say *)
From Coq Require Import String Ascii List NArith Bool.
From Verif Require Import Base Tokens Syntax PackDesc Enums Macro.
Import ListNotations.
Open Scope N_scope.
Open Scope list_scope.

(** The first attribute with the given name *)
Definition first_attr (name : string) (attrs : list attribute) (a : attribute) : Prop :=
  exists before after, attrs = before ++ a :: after /\ a_path a = [name] /\ forall b, In b before -> a_path b <> [name].

(** ** The header of a packet *)

(** The literals written behind [key =], in order *)
Definition written (key : string) (l : list nested) : list lit :=
  flat_map (fun e => match e with
                     | NValue [k] v => if String.eqb k key then [v] else []
                     | _ => []
                     end) l.

Definition header_keys : list string := ["class"; "id"; "fixed_payload_len"; "max_payload_len"; "flags"]%string.

(** The only flag there is, [n] times, separated by commas, with or without a last comma *)
Fixpoint flag_tokens (n : nat) (last_comma : bool) : list token :=
  match n with
  | O => []
  | S O => TIdent "default_for_builder" :: (if last_comma then [TPunct ","] else [])
  | S n' => TIdent "default_for_builder" :: TPunct "," :: flag_tokens n' last_comma
  end.
Definition flag_list (l : lit) (fl : list packet_flag) : Prop :=
  exists s n c, l = LStr s /\ lex s = Some (flag_tokens n c) /\ fl = repeat DefaultForBuilder n.

(** What the [flags] say.  (More than one is accepted if all but the last are empty.) *)
Inductive flags_say : list lit -> list packet_flag -> Prop :=
| fs_none : flags_say [] []
| fs_one l fl : flag_list l fl -> flags_say [l] fl
| fs_empty l ls fl : flag_list l [] -> flags_say ls fl -> flags_say (l :: ls) fl.

(** The items between the parentheses of [ubx(...)] say [h]: each is [key = literal] with one of the five keys; class, id
    and exactly one of the two lengths are written once, as numbers which fit. *)
Definition header_says (l : list nested) (h : header) : Prop :=
  (forall e, In e l -> exists k v, e = NValue [k] v /\ In k header_keys) /\
  written "class" l = [LInt (h_class h)] /\ h_class h < 256 /\
  written "id" l = [LInt (h_id h)] /\ h_id h < 256 /\
  match h_len h with
  | Fixed n => written "fixed_payload_len" l = [LInt n] /\ written "max_payload_len" l = [] /\ n < 65536
  | Max n => written "max_payload_len" l = [LInt n] /\ written "fixed_payload_len" l = [] /\ n < 65536
  end /\
  flags_say (written "flags" l) (h_flags h).

(** ** Enums and bit flags *)

Definition extend_words : list string :=
  ["from"; "from_unchecked"; "into_raw"; "rest_reserved"; "rest_error"]%string.
Definition rest_words (ws : list string) : list string :=
  filter (fun w => String.eqb w "rest_reserved" || String.eqb w "rest_error") ws.
Definition from_words (ws : list string) : list string :=
  filter (fun w => String.eqb w "from" || String.eqb w "from_unchecked") ws.

(** The items are words; at most one says what happens to the other values; of [from] and [from_unchecked] the last one
    counts; [from] does not go with [rest_error]. *)
Definition extend_says (l : list nested) (v : extend_attrs) : Prop :=
  exists ws, l = map (fun w => NPath [w]) ws /\ incl ws extend_words /\
    (ea_rest v = match rest_words ws with
                 | [] => None
                 | w :: _ => Some (if String.eqb w "rest_reserved" then RestReserved else RestError)
                 end) /\ (length (rest_words ws) <= 1)%nat /\
    (ea_into_raw v = true <-> In "into_raw"%string ws) /\
    (ea_from v = match rev (from_words ws) with
                 | [] => None
                 | w :: _ => Some (if String.eqb w "from" then From else FromUnchecked)
                 end) /\
    ~ (ea_from v = Some From /\ ea_rest v = Some RestError).

(** A variant [Name = number] *)
Definition variant_says (v : variant) (x : string * N) : Prop :=
  v_unit v = true /\ v_name v = fst x /\ (exists suffix, v_disc v = Some [TInt (snd x) suffix]) /\ snd x < 256.

(** ** The options of a field *)

Inductive opt :=
| OMapType (ty : list token) | OScale (text : string) | OAlias (name : string) | OMayFail | OGetAsRef
| OFrom (path : list string) | OIsValid (path : list string) | OSizeFn (path : list string) | OInto (e : list token).

(** A type, as syn reads it *)
Definition is_type (ty : list token) : Prop := ty_prefix Start ty = Some (ty, []).

Definition kv (key : string) (v : list token) : list token := TIdent key :: TPunct "=" :: v.
Inductive opt_written : opt -> list token -> Prop :=
| w_map_type ty : is_type ty -> opt_written (OMapType ty) (kv "map_type" ty)
| w_scale s : opt_written (OScale s) (kv "scale" [TFloat s])
| w_alias i : opt_written (OAlias i) (kv "alias" [TIdent i])
| w_may_fail : opt_written OMayFail [TIdent "may_fail"]
| w_get_as_ref : opt_written OGetAsRef [TIdent "get_as_ref"]
| w_from p : p <> [] -> opt_written (OFrom p) (kv "from" (path_tokens p))
| w_is_valid p : p <> [] -> opt_written (OIsValid p) (kv "is_valid" (path_tokens p))
| w_size_fn p : p <> [] -> opt_written (OSizeFn p) (kv "size_fn" (path_tokens p))
| w_into e : e <> [] -> (forall t, In t e -> t <> TPunct ",") -> opt_written (OInto e) (kv "into" e).

(** Options one after the other; a comma may stand behind each (and must behind an expression) *)
Inductive opts_written : list opt -> list token -> Prop :=
| ws_nil : opts_written [] []
| ws_last o ts : opt_written o ts -> opts_written [o] ts
| ws_comma o ts os rest : opt_written o ts -> opts_written os rest -> opts_written (o :: os) (ts ++ TPunct "," :: rest)
| ws_next o ts o' os rest : opt_written o ts -> (forall e, o <> OInto e) -> opts_written (o' :: os) rest ->
    opts_written (o :: o' :: os) (ts ++ rest).

(** The last of the options which [pick] selects *)
Fixpoint last_of {A} (pick : opt -> option A) (os : list opt) : option A :=
  match os with
  | [] => None
  | o :: os' => match last_of pick os' with Some a => Some a | None => pick o end
  end.

Definition the_type := last_of (fun o => match o with OMapType t => Some t | _ => None end).
Definition the_scale := last_of (fun o => match o with OScale s => Some s | _ => None end).
Definition the_alias := last_of (fun o => match o with OAlias a => Some a | _ => None end).
Definition the_from := last_of (fun o => match o with OFrom p => Some (path_tokens p) | _ => None end).
Definition the_is_valid := last_of (fun o => match o with OIsValid p => Some (path_tokens p) | _ => None end).
Definition the_size_fn := last_of (fun o => match o with OSizeFn p => Some (path_tokens p) | _ => None end).
Definition the_into := last_of (fun o => match o with OInto e => Some e | _ => None end).
Definition has (o : opt -> bool) (os : list opt) : bool := existsb o os.

(** What the options mean: functions are used only together with a type *)
Definition options_mean (os : list opt) : field_map :=
  mk_fm (match the_type os with
         | Some ty => Some (mk_mt ty (the_from os) (the_is_valid os) (the_into os) (the_size_fn os))
         | None => None
         end)
        (the_scale os) (the_alias os)
        (has (fun o => match o with OMayFail => true | _ => false end) os)
        (has (fun o => match o with OGetAsRef => true | _ => false end) os).

(** ** Fields *)

(** The type of a field *)
Inductive type_says : list token -> raw_ty -> Prop :=
| ts_u8 : type_says [TIdent "u8"] (Scalar U8) | ts_i8 : type_says [TIdent "i8"] (Scalar I8)
| ts_u16 : type_says [TIdent "u16"] (Scalar U16) | ts_i16 : type_says [TIdent "i16"] (Scalar I16)
| ts_u32 : type_says [TIdent "u32"] (Scalar U32) | ts_i32 : type_says [TIdent "i32"] (Scalar I32)
| ts_f32 : type_says [TIdent "f32"] (Scalar F32) | ts_f64 : type_says [TIdent "f64"] (Scalar F64)
| ts_bytes n suffix : n < 2 ^ 64 ->
    type_says [TGroup Bracket [TIdent "u8"; TPunct ";"; TInt n suffix]] (Bytes n)
| ts_ref ts : type_says (TPunct "&" :: ts) Items.

(** Comments: the attributes named [doc], which have the form [#[doc = "text"]] *)
Inductive comments_say : list attribute -> string -> Prop :=
| cs_nil : comments_say [] ""
| cs_doc s attrs c : comments_say attrs c ->
    comments_say (mk_attr ["doc"%string] [TPunct "="; TStr s] :: attrs) (s ++ c)
| cs_other a attrs c : a_path a <> ["doc"%string] -> comments_say attrs c -> comments_say (a :: attrs) c.

(** The other attributes of a field: each is [#[name(options)]].  Only the last counts; those before it may hold neither
    a type, nor a scale, nor an alias. *)
Inductive attrs_say : list attribute -> field_map -> Prop :=
| as_none attrs : (forall a, In a attrs -> a_path a = ["doc"%string]) -> attrs_say attrs no_map
| as_last before p ts os after :
    (forall a, In a after -> a_path a = ["doc"%string]) -> p <> ["doc"%string] -> opts_written os ts ->
    (forall a, In a before -> a_path a = ["doc"%string] \/
       exists ts' os', a_tokens a = [TGroup Paren ts'] /\ opts_written os' ts' /\
                       the_type os' = None /\ the_scale os' = None /\ the_alias os' = None) ->
    attrs_say (before ++ mk_attr p [TGroup Paren ts] :: after) (options_mean os).

(** A field declaration and its description *)
Definition field_says (f : syn_field) (d : field_decl) : Prop :=
  exists m,
    fd_name d = sf_name f /\ fd_ty d = sf_ty f /\ type_says (sf_ty f) (fd_raw d) /\
    comments_say (sf_attrs f) (fd_comment d) /\ attrs_say (sf_attrs f) m /\
    (forall mt, fm_map_type m = Some mt -> mt_ty mt <> sf_ty f) /\
    fd_scale d = fm_scale m /\ fd_alias d = fm_alias m /\
    fd_may_fail d = fm_may_fail m /\ fd_get_as_ref d = fm_get_as_ref m /\
    fd_map d = map_desc_new m (sf_ty f).

(** ** Packets *)

(** The number of bytes of a field, if it has one *)
Definition width (d : field_decl) : option N :=
  match fd_raw d with
  | Scalar s => Some (scalar_size s)
  | Bytes n => if n =? 0 then None else Some n
  | Items => None
  end.
Definition widths (ds : list field_decl) : N := fold_right (fun d a => match width d with Some n => n + a | None => a end) 0 ds.
Definition has_size_fn (d : field_decl) : Prop := exists m, fd_map d = Some m /\ md_size m <> None.

(** The declared length is that of the fields *)
Definition length_says (len : payload_len) (ds : list field_decl) : Prop :=
  match len with
  | Fixed n => (forall d, In d ds -> width d <> None) /\ widths ds = n
  | Max _ => exists d, In d ds /\ width d = None
  end.

(** Only the last field may lack a size and a function giving it *)
Definition sized_but_last (ds : list field_decl) : Prop :=
  forall d e rest after, ds = rest ++ d :: e :: after -> width d = None -> has_size_fn d.

(** The sum of the widths of the fields in front of the first one without width is a [usize] *)
Definition sum_fits (ds : list field_decl) : Prop :=
  forall before after, ds = before ++ after -> (forall d, In d before -> width d <> None) -> widths before < 2 ^ 64.

(** The whole declaration *)
Definition packet_says (name : string) (attrs : list attribute) (fs : fields) (p : pack_decl) : Prop :=
  pd_name p = name /\
  (exists a l, first_attr "ubx" attrs a /\ parse_meta a = Good (MList l) /\ header_says l (pd_header p)) /\
  comments_say attrs (pd_comment p) /\
  (exists l, fs = Named l /\ Forall2 field_says l (pd_fields p)) /\
  sized_but_last (pd_fields p) /\ sum_fits (pd_fields p) /\
  length_says (h_len (pd_header p)) (pd_fields p).

Definition enum_says (name : string) (attrs : list attribute) (vs : list variant) (e : enum_decl) : Prop :=
  (exists a l v, first_attr "ubx" attrs a /\ parse_meta a = Good (MList l) /\ extend_says l v /\
     e_rest (ed_desc e) = ea_rest v /\ ed_from e = ea_from v /\ ed_into_raw e = ea_into_raw v) /\
  (exists b, first_attr "repr" attrs b /\ parse_meta b = Good (MList [NPath ["u8"%string]])) /\
  e_name (ed_desc e) = name /\ Forall2 variant_says vs (e_variants (ed_desc e)).

(** [const NAME = number], possibly with attributes *)
Definition const_says (seg : list token) (x : string * N) : Prop :=
  snd x < 2 ^ 64 /\
  exists suffix, snd (outer_attrs seg) = [TIdent "const"; TIdent (fst x); TPunct "="; TInt (snd x) suffix].

Definition bits_of (ty : string) (n : N) : Prop :=
  (ty = "u8"%string /\ n = 8) \/ (ty = "u16"%string /\ n = 16) \/ (ty = "u32"%string /\ n = 32).

Definition bitflags_written (attrs : list attribute) (body : list token) (f : flags_decl) : Prop :=
  (exists a l v, first_attr "ubx" attrs a /\ parse_meta a = Good (MList l) /\ extend_says l v /\
     fl_from f = ea_from v /\ fl_into_raw f = ea_into_raw v /\ fl_rest f = ea_rest v) /\
  (exists ty items,
     skip_vis (snd (outer_attrs body)) =
       [TIdent "struct"; TIdent (b_name (fl_desc f)); TPunct ":"; TIdent ty; TGroup Brace items] /\
     bits_of ty (b_nbits (fl_desc f)) /\
     Forall2 const_says (split_semis items) (b_consts (fl_desc f))).

(** The other bits must be kept, and each constant must be a bit of its own *)
Definition bitflags_say (attrs : list attribute) (body : list token) (f : flags_decl) : Prop :=
  bitflags_written attrs body f /\ fl_rest f = Some RestReserved /\
  NoDup (map snd (b_consts (fl_desc f))) /\
  forall n x, In (n, x) (b_consts (fl_desc f)) -> exists k, k < b_nbits (fl_desc f) /\ x = 2 ^ k.

(** Names separated by commas *)
Fixpoint name_tokens (l : list string) (last_comma : bool) : list token :=
  match l with
  | [] => []
  | [n] => TIdent n :: (if last_comma then [TPunct ","] else [])
  | n :: l' => TIdent n :: TPunct "," :: name_tokens l' last_comma
  end.

(** ** The items of a file *)

Definition macro_name (m : macro) : string :=
  match m with
  | MPacket Recv => "ubx_packet_recv"
  | MPacket Send => "ubx_packet_send"
  | MPacket RecvSend => "ubx_packet_recv_send"
  | MExtend => "ubx_extend"
  | MBitflags => "ubx_extend_bitflags"
  end.
(** The first attribute which is a macro *)
Definition asks (attrs : list attribute) (m : macro) : Prop :=
  exists before a after, attrs = before ++ a :: after /\ a_path a = [macro_name m] /\
    forall b m', In b before -> a_path b <> [macro_name m'].
Definition asks_nothing (attrs : list attribute) : Prop := forall a m, In a attrs -> a_path a <> [macro_name m].

(** What an item is turned into: structs into packets, enums into enums, [bitflags!] into flags, [define_recv_packets!] into
    the union of the packets; an item which asks for nothing stays as it is. *)
Inductive item_says : syn_item -> list output -> Prop :=
| is_packet attrs name fs k d :
    asks attrs (MPacket k) -> packet_says name attrs fs d ->
    (k <> Recv -> forall f e rest after, pd_fields d = rest ++ f :: e :: after -> width f <> None) ->
    item_says (IStruct attrs name (Good fs)) [OPacket k d]
| is_enum attrs name vs e :
    asks attrs MExtend -> enum_says name attrs vs e ->
    ~ (ed_from e = Some FromUnchecked /\ e_rest (ed_desc e) = Some RestReserved) ->
    item_says (IEnum attrs name (Good vs)) [OEnum e]
| is_flags attrs body f :
    asks attrs MBitflags -> bitflags_say attrs body f -> fl_from f <> Some FromUnchecked ->
    item_says (IMacro attrs ["bitflags"%string] body) [OFlags f]
| is_union attrs body r c :
    asks_nothing attrs ->
    body = [TIdent "enum"; TIdent (rd_name r);
            TGroup Brace (TIdent "_" :: TPunct "=" :: TIdent (rd_unknown r) :: TPunct "," :: name_tokens (rd_packets r) c)] ->
    item_says (IMacro attrs ["define_recv_packets"%string] body) [ORecv r]
| is_struct attrs name fs : asks_nothing attrs -> item_says (IStruct attrs name fs) []
| is_plain_enum attrs name vs : asks_nothing attrs -> item_says (IEnum attrs name vs) []
| is_macro attrs path body :
    asks_nothing attrs -> path <> ["define_recv_packets"%string] -> item_says (IMacro attrs path body) []
| is_other : item_says IOther [].
