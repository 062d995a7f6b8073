(** * Running the expanded macros of cfg_val.rs: the functions as templates, symbolic execution *)
From Coq Require Import String Ascii List NArith ZArith Bool Lia.
From Verif Require Import Base Buffers PackDesc Enums TableTypes Bits CfgVal TableCfg Tokens Lang Exec MacroRules SourceCfg SpecExec
  SpecExecPackets SpecExecCfg BaseFacts ProofExecPackets ProofExecCfgText.
Import ListNotations.
Open Scope N_scope.
Open Scope list_scope.

(** ** The expansion as templates over the table *)

Section Templates.
  Open Scope string_scope.
  Notation path x := (EPath [x]).
  Notation idx e n := (EIndex e (ENum n "")).

  (** [into_cfg_kv_bytes!(@inner [..])] *)
  Definition inner (n : string) (bytes : list expr) : expr :=
    EBlock [ELet (LVar "key_id") [] (EMethod (EField (EPath [n; "KEY"]) "0") "to_le_bytes" []);
            EArray (app [idx (path "key_id") 0; idx (path "key_id") 1; idx (path "key_id") 2; idx (path "key_id") 3] bytes)].
  Definition this : expr := EField (path "self") "0".
  Definition via_bytes (n : string) (l : list N) : expr :=
    EBlock [ELet (LVar "bytes") [] (EMethod this "to_le_bytes" []); inner n (map (fun i => idx (path "bytes") i) l)].
  Definition by_match (n ty : string) (arms : list (string * N)) : expr :=
    inner n [EMatch this (map (fun a => (LCtor [ty; fst a] [], ENum (snd a) "")) arms)].
  Definition as_u8 (n : string) : expr := inner n [ECast this [TIdent "u8"]].

  Definition kv_body (n : string) (t : cfg_ty) : expr :=
    EBlock [match t with
            | TBool | TAlignment | TTpPulse | TTpPulseLength => as_u8 n
            | TU8 => EBlock [inner n [this]]
            | TU16 | TI16 => via_bytes n [0; 1]
            | TU32 => via_bytes n [0; 1; 2; 3]
            | TU64 => via_bytes n [0; 1; 2; 3; 4; 5; 6; 7]
            | TCfgInfMask => inner n [EMethod this "bits" []]
            | TDataBits => by_match n "DataBits" [("Eight", 0); ("Seven", 1)]
            | TParity => by_match n "Parity" [("None", 0); ("Odd", 1); ("Even", 2)]
            | TStopBits => by_match n "StopBits" [("Half", 0); ("One", 1); ("OneHalf", 2); ("Two", 3)]
            end].
  Definition kv_ret : list token := Eval vm_compute in match cf_find "Uart1Baudrate" "into_cfg_kv_bytes" with Some f => lf_ret f | None => [] end.
  Definition kv_fn (i : cfg_item) : lfn :=
    mk_lfn (ci_name i) [] "into_cfg_kv_bytes" [("self", [])] kv_ret (kv_body (ci_name i) (ci_ty i)).

  (** [from_cfg_v_bytes!(&buf[4..], type)] *)
  Definition value_bytes : expr := EUn URef (EIndex (path "buf") (ERange (Some (ENum 4 "")) None)).
  Definition num_of (ty : string) (l : list N) : expr := ECall [ty; "from_le_bytes"] [EArray (map (fun i => idx value_bytes i) l)].
  Definition match_of (arms : list (lpat * expr)) : expr :=
    EMatch (idx value_bytes 0) (app arms [(LWild, EMacro "unreachable" [])]).
  Definition from_expr (t : cfg_ty) : expr :=
    match t with
    | TBool => match_of [(LNum 0, EBool false); (LNum 1, EBool true)]
    | TU8 => idx value_bytes 0
    | TU16 => num_of "u16" [0; 1]
    | TI16 => num_of "i16" [0; 1]
    | TU32 => num_of "u32" [0; 1; 2; 3]
    | TU64 => num_of "u64" [0; 1; 2; 3; 4; 5; 6; 7]
    | TCfgInfMask => ECall ["CfgInfMask"; "from_bits_truncate"] [idx value_bytes 0]
    | TDataBits => match_of [(LNum 0, EPath ["DataBits"; "Eight"]); (LNum 1, EPath ["DataBits"; "Seven"])]
    | TParity => match_of [(LNum 0, EPath ["Parity"; "None"]); (LNum 1, EPath ["Parity"; "Odd"]); (LNum 2, EPath ["Parity"; "Even"])]
    | TStopBits => match_of [(LNum 0, EPath ["StopBits"; "Half"]); (LNum 1, EPath ["StopBits"; "One"]);
                             (LNum 2, EPath ["StopBits"; "OneHalf"]); (LNum 3, EPath ["StopBits"; "Two"])]
    | TAlignment => match_of [(LNum 0, EPath ["AlignmentToReferenceTime"; "Utc"]); (LNum 1, EPath ["AlignmentToReferenceTime"; "Gps"]);
                              (LNum 2, EPath ["AlignmentToReferenceTime"; "Glo"]); (LNum 3, EPath ["AlignmentToReferenceTime"; "Bds"]);
                              (LNum 4, EPath ["AlignmentToReferenceTime"; "Gal"])]
    | TTpPulse => match_of [(LNum 0, EPath ["TpPulse"; "Period"]); (LNum 1, EPath ["TpPulse"; "Freq"])]
    | TTpPulseLength => match_of [(LNum 0, EPath ["TpPulseLength"; "Ratio"]); (LNum 1, EPath ["TpPulseLength"; "Length"])]
    end.

  Definition by_name (p : lpat) (body : cfg_item -> expr) (i : cfg_item) : lpat * expr :=
    (LCtor ["CfgVal"; ci_name i] [p], body i).
  Definition len_body (i : cfg_item) : expr := EBlock [EPath [ci_name i; "SIZE"]].
  Definition kv_call (i : cfg_item) : expr :=
    EMethod (ECall [ci_name i] [EUn UDeref (path "value")]) "into_cfg_kv_bytes" [].
  Definition extend_body (i : cfg_item) : expr :=
    EBlock [ELet (LVar "bytes") [] (kv_call i);
            ELet (LVar "bytes_len") [] (EMethod (path "bytes") "len" []);
            ESemi (EFor "b" (EMethod (path "bytes") "iter" [])
                     (EBlock [ESemi (EMethod (path "buf") "extend" [ECall ["core"; "iter"; "once"] [EUn UDeref (path "b")]])]));
            path "bytes_len"].
  Definition write_ty (i : cfg_item) : list token :=
    [TGroup Bracket [TIdent "u8"; TPunct ";"%char; TIdent (ci_name i); TPunct ":"%char; TPunct ":"%char; TIdent "SIZE"]].
  Definition write_body (i : cfg_item) : expr :=
    EBlock [ELet (LVar "kv") (write_ty i) (kv_call i);
            ESemi (EMethod (EIndex (path "buf") (ERange None (Some (EMethod (path "kv") "len" [])))) "copy_from_slice"
                     [EUn URef (EIndex (path "kv") (ERange None None))]);
            EMethod (path "kv") "len" []].
  Definition parse_arm (i : cfg_item) : lpat * expr :=
    (LNum (ci_key i), EBlock [ECall ["CfgVal"; ci_name i] [from_expr (ci_ty i)]]).

  Definition slice_ty : list token := [TPunct "&"%char; TGroup Bracket [TIdent "u8"]].
  Definition mut_slice_ty : list token := [TPunct "&"%char; TIdent "mut"; TGroup Bracket [TIdent "u8"]].
  Definition usize_where : list token :=
    Eval vm_compute in match cf_find "CfgVal" "extend_to" with Some f => lf_ret f | None => [] end.
  Definition on_self (arms : list (lpat * expr)) : expr := EBlock [EMatch (path "self") arms].
  Definition parse_head : expr :=
    ELet (LVar "key_id") [] (ECall ["u32"; "from_le_bytes"] [EArray (map (fun i => idx (path "buf") i) [0; 1; 2; 3])]).
  Definition parse_rest : list (lpat * expr) :=
    [(LWild, EMacro "unimplemented" [TStr "unknown key ID: 0x{:8X}"; TPunct ","%char; TIdent "key_id"])].
End Templates.
Local Open Scope string_scope.

Lemma kv_fns : map (fun i => cf_find (ci_name i) "into_cfg_kv_bytes") cfg_table = map (fun i => Some (kv_fn i)) cfg_table.
Proof. vm_cast_no_check (eq_refl (map (fun i => Some (kv_fn i)) cfg_table)). Qed.
Lemma keys_and_sizes :
  map (fun i => (cf_const (ci_name i ++ "::" ++ "KEY"), cf_const (ci_name i ++ "::" ++ "SIZE"))) cfg_table =
  map (fun i => (Some (key_v (ci_key i)), Some (vusize (ci_size i) : val))) cfg_table.
Proof. vm_cast_no_check (eq_refl (map (fun i => (Some (key_v (ci_key i)), Some (vusize (ci_size i) : val))) cfg_table)). Qed.
Definition len_fn : lfn := mk_lfn "CfgVal" [] "len" [("self", [])] [TIdent "usize"] (on_self (map (by_name LWild len_body) cfg_table)).
Lemma len_text : cf_find "CfgVal" "len" = Some len_fn.
Proof. vm_cast_no_check (eq_refl (Some len_fn)). Qed.
Definition empty_fn : lfn :=
  mk_lfn "CfgVal" [] "is_empty" [("self", [])] [TIdent "bool"]
    (EBlock [EBin OEq (EMethod (EPath ["self"]) "len" []) (ENum 0 "")]).
Lemma empty_text : cf_find "CfgVal" "is_empty" = Some empty_fn.
Proof. vm_cast_no_check (eq_refl (Some empty_fn)). Qed.
Definition extend_fn : lfn :=
  mk_lfn "CfgVal" [] "extend_to" [("self", []); ("buf", [TPunct "&"%char; TIdent "mut"; TIdent "T"])] usize_where
    (on_self (map (by_name (LVar "value") extend_body) cfg_table)).
Lemma extend_text : cf_find "CfgVal" "extend_to" = Some extend_fn.
Proof. vm_cast_no_check (eq_refl (Some extend_fn)). Qed.
Definition write_fn : lfn :=
  mk_lfn "CfgVal" [] "write_to" [("self", []); ("buf", mut_slice_ty)] [TIdent "usize"]
    (on_self (map (by_name (LVar "value") write_body) cfg_table)).
Lemma write_text : cf_find "CfgVal" "write_to" = Some write_fn.
Proof. vm_cast_no_check (eq_refl (Some write_fn)). Qed.
Definition parse_fn : lfn :=
  mk_lfn "CfgVal" [] "parse" [("buf", slice_ty)] [TIdent "Self"]
    (EBlock [parse_head; EMatch (EPath ["key_id"]) (map parse_arm cfg_table ++ parse_rest)%list]).
Lemma parse_text : cf_find "CfgVal" "parse" = Some parse_fn.
Proof. vm_cast_no_check (eq_refl (Some parse_fn)). Qed.
Definition plain_name (n : string) : bool :=
  capital n && negb (existsb (String.eqb n) ["Some"; "Ok"; "Err"; "Self"; "from_bits_truncate"; "from_le_bytes"; "to_le_bytes"]) &&
  match cf_find "CfgVal" n, cf_find "" n with None, None => true | _, _ => false end.
Lemma plain_names : forallb plain_name (map ci_name cfg_table) = true.
Proof. vm_cast_no_check (eq_refl true). Qed.
(** ** Facts about one item *)

Lemma map_at {A B} (f g : A -> B) l x : map f l = map g l -> In x l -> f x = g x.
Proof. induction l as [|a l IH]; cbn; [tauto|]. intros H [->|Hx]; injection H; auto. Qed.

Lemma kv_at i : In i cfg_table -> cf_find (ci_name i) "into_cfg_kv_bytes" = Some (kv_fn i).
Proof. exact (map_at _ _ _ i kv_fns). Qed.
Lemma key_at i : In i cfg_table -> cf_const (ci_name i ++ "::" ++ "KEY") = Some (key_v (ci_key i)).
Proof. intros H. pose proof (map_at _ _ _ i keys_and_sizes H) as E. cbv beta in E. congruence. Qed.
Lemma size_at i : In i cfg_table -> cf_const (ci_name i ++ "::" ++ "SIZE") = Some (vusize (ci_size i)).
Proof. intros H. pose proof (map_at _ _ _ i keys_and_sizes H) as E. cbv beta in E. congruence. Qed.

Lemma plain_at i : In i cfg_table -> plain_name (ci_name i) = true.
Proof.
  intros H. pose proof plain_names as E. rewrite forallb_forall in E. apply E. now apply in_map.
Qed.

Definition nodup_names : bool :=
  (fix go (l : list string) : bool := match l with [] => true | x :: l' => negb (existsb (String.eqb x) l') && go l' end)
    (map ci_name cfg_table).
Lemma names_distinct : NoDup (map ci_name cfg_table).
Proof.
  assert (E : nodup_names = true) by (vm_cast_no_check (eq_refl true)).
  unfold nodup_names in E. induction (map ci_name cfg_table) as [|x l IH]; constructor.
  - apply andb_true_iff in E as [E _]. intros H. rewrite (proj2 (existsb_exists _ _)) in E; [discriminate|].
    exists x. split; [assumption|apply String.eqb_refl].
  - apply IH. now apply andb_true_iff in E as [_ E].
Qed.

(** ** Arms *)

Lemma same_path_2 a x y : same_path [a; x] [a; y] = String.eqb x y.
Proof. cbn. rewrite String.eqb_refl. cbn. apply andb_true_r. Qed.

Lemma arms_by_name evl p body table (v : val) bs i e k :
  NoDup (map ci_name table) -> In i table -> bind_pat p v = Some (Some bs) ->
  ev_arms evl (map (by_name p body) table) (VAdt ["CfgVal"; ci_name i] [("0", v)]) e k =
  evl (body i) (bs ++ e)%list (fun w e' => k w (leave e e')).
Proof.
  intros N I B. induction table as [|j table IH]; [destruct I|].
  cbn [map ev_arms by_name]. unfold by_name at 1. cbn [bind_pat map snd].
  inversion N as [|? ? N1 N2]; subst. rewrite same_path_2.
  destruct (String.eqb_spec (ci_name j) (ci_name i)) as [E|E].
  - assert (j = i) as -> .
    { destruct I as [I|I]; [assumption|]. destruct N1. rewrite E. now apply in_map. }
    rewrite B. cbn. reflexivity.
  - cbn [on_some on_opt]. destruct I as [->|I]; [congruence|]. auto.
Qed.

Lemma arms_by_key (evl : expr -> list (string * val) -> (val -> list (string * val) -> ans) -> ans) table rest t key e k :
  ev_arms evl (map parse_arm table ++ rest)%list (VNum t key) e k =
  match find (fun i => (ci_key i =? key)%N) table with
  | Some i => evl (snd (parse_arm i)) e (fun w e' => k w (leave e e'))
  | None => ev_arms evl rest (VNum t key) e k
  end.
Proof.
  induction table as [|j table IH]; [reflexivity|].
  cbn [map app ev_arms parse_arm find bind_pat on_some]. unfold parse_arm at 1. cbn [ev_arms bind_pat on_some].
  destruct (ci_key j =? key)%N; cbn [on_opt app snd parse_arm]; auto.
Qed.

Ltac cf :=
  lazy -[cf_call cf_const String.append n2b b2n N.div N.modulo N.pow le_num le_bytes lenN takeN dropN slice slice_from get
         Z.to_N Z.modulo flags_from ci_size for_bytes N.eqb N.leb N.ltb].

(** The same with bytes at known places *)
Ltac cf2 :=
  lazy -[cf_call cf_const String.append n2b b2n N.div N.modulo N.pow le_num lenN takeN dropN slice slice_from
         Z.to_N Z.modulo flags_from ci_size for_bytes N.eqb N.leb N.ltb].

(** Constants whose name is known *)
Ltac consts_known :=
  repeat match goal with
         | |- context [cf_const ?s] =>
             let v := eval vm_compute in (cf_const s) in
             replace (cf_const s) with v by (symmetry; vm_cast_no_check (eq_refl v))
         end.

Lemma ext_u64 d n : cf_call (S d) "u64" "to_le_bytes" [VAdt ["u64"] [("0", VNum ILit n)]] = Some (Ret (u64_v n, VBytes (le_bytes 8 n))).
Proof. reflexivity. Qed.
Lemma ext_i16 d n : cf_call (S d) "i16" "to_le_bytes" [VAdt ["i16"] [("0", VNum ILit n)]] = Some (Ret (i16_v n, VBytes (le_bytes 2 n))).
Proof. reflexivity. Qed.

Ltac variants v := cbn [cfg_value] in v; lazymatch type of v with N => idtac | Z => idtac | _ => destruct v end.

(** ** into_cfg_kv_bytes *)

Lemma kv_run d i (v : cfg_value (ci_ty i)) (self := wrap_v (ci_name i) (cfg_value_v (ci_ty i) v)) : In i cfg_table ->
  cf_call (S (S d)) (ci_name i) "into_cfg_kv_bytes" [self] = Some (Ret (self, VBytes (cfg_kv_bytes (mk_cfg_val i v)))).
Proof.
  intros I. subst self. pose proof (kv_at i I) as F. pose proof (key_at i I) as K. destruct i as [n key t].
  cbn [ci_name ci_key ci_ty] in *. rewrite cf_step, F. clear F I.
  destruct t; variants v; cf; rewrite ?K; cf; consts_known; try rewrite ext_i16; try rewrite ext_u64; cf2; rewrite !n2b_b2n.
  all: reflexivity.
Qed.

(** ** Constructors *)

Lemma plain_facts n : plain_name n = true ->
  capital n = true /\ cf_find "CfgVal" n = None /\ cf_find "" n = None /\ String.eqb n "Some" = false /\ String.eqb n "Ok" = false /\
  String.eqb n "Err" = false /\ String.eqb n "Self" = false /\ String.eqb n "from_bits_truncate" = false /\
  String.eqb n "from_le_bytes" = false /\ String.eqb n "to_le_bytes" = false.
Proof.
  unfold plain_name. intros H. apply andb_true_iff in H as [H F]. apply andb_true_iff in H as [C E].
  apply negb_true_iff in E. cbn [existsb] in E.
  repeat (apply orb_false_iff in E as [? E]).
  destruct (cf_find "CfgVal" n); [discriminate|]. destruct (cf_find "" n); [discriminate|]. conjs; assumption || reflexivity.
Qed.

Lemma new_item d i (v : cfg_value (ci_ty i)) (x := cfg_value_v (ci_ty i) v) : In i cfg_table ->
  cf_call (S d) "" (ci_name i) [x] = Some (Ret (vunit, wrap_v (ci_name i) x)).
Proof.
  intros I. destruct (plain_facts _ (plain_at i I)) as (C & _ & F & _ & _ & _ & _ & E1 & E2 & E3).
  rewrite cf_step, F. subst x. destruct i as [n key t]; cbn [ci_name ci_ty ci_key] in *.
  destruct t; cbn [cfg_value_v cfg_ext u8_v u16_v u32_v i16_v u64_v data_bits_v parity_v stop_bits_v alignment_v tp_pulse_v
    tp_pulse_length_v unit_v]; rewrite ?E1, ?E2, ?E3; cbn [String.eqb Ascii.eqb]; rewrite C; try reflexivity; unfold construct;
    cbn [fit]; try reflexivity; destruct v; reflexivity.
Qed.

Lemma new_val d i x : In i cfg_table ->
  (exists v, x = cfg_value_v (ci_ty i) v) ->
  cf_call (S d) "CfgVal" (ci_name i) [x] = Some (Ret (vunit, VAdt ["CfgVal"; ci_name i] [("0", x)])).
Proof.
  intros I [v ->]. destruct (plain_facts _ (plain_at i I)) as (C & F & _ & _ & _ & _ & _ & E1 & E2 & E3).
  rewrite cf_step, F. destruct i as [n key t]; cbn [ci_name ci_ty ci_key] in *.
  destruct t; cbn [cfg_value_v cfg_ext u8_v u16_v u32_v i16_v u64_v data_bits_v parity_v stop_bits_v alignment_v tp_pulse_v
    tp_pulse_length_v unit_v]; rewrite ?E1, ?E2, ?E3; change (String.eqb "CfgVal" "") with false; change (capital "CfgVal") with true;
    rewrite C; try reflexivity; destruct v; reflexivity.
Qed.

Lemma std_item i v : In i cfg_table -> std_call (T:=list byte) (P:=cfg_val) [ci_name i] [v] = None.
Proof.
  intros I. destruct (plain_facts _ (plain_at i I)) as (_ & _ & _ & S1 & S2 & S3 & _).
  unfold std_call. cbn [same_path]. rewrite S1, S2, S3. cbn [andb].
  destruct v; try reflexivity; rewrite !andb_false_r; reflexivity.
Qed.
Lemma self_item i : In i cfg_table -> self_path "CfgVal" [ci_name i] = [ci_name i].
Proof. intros I. destruct (plain_facts _ (plain_at i I)) as (_ & _ & _ & _ & _ & _ & S & _). unfold self_path. now rewrite S. Qed.

Lemma no_write p args (v : val) : write_args p args [v] = None.
Proof. destruct args; [reflexivity|]. destruct v; reflexivity. Qed.
Lemma no_copy p (v : val) : copy_args p [v] = None.
Proof. destruct v; reflexivity. Qed.

(** [X( *value).into_cfg_kv_bytes()] *)
Lemma ev_kv d i (v : cfg_value (ci_ty i)) h e k : In i cfg_table ->
  ev vec_ops cf_const [] (cf_call (S (S d))) 0 "CfgVal" (kv_call i) h (("value", cfg_value_v (ci_ty i) v) :: e) k =
  k (VBytes (cfg_kv_bytes (mk_cfg_val i v))) (("value", cfg_value_v (ci_ty i) v) :: e).
Proof.
  intros I. unfold kv_call. cbn [ev ev_step place_of String.eqb Ascii.eqb Bool.eqb].
  cbn [ev_list ev ev_step path_val find_var String.eqb Ascii.eqb Bool.eqb on_some un].
  rewrite no_write, no_copy. cbn [on_opt].
  rewrite std_item by assumption. cbn [on_opt]. rewrite self_item by assumption. cbn [call_path].
  rewrite new_item by assumption. cbn [on_ret snd].
  unfold call_on, wrap_v. change (String.eqb "into_cfg_kv_bytes" "map_err") with false. cbv iota.
  pose proof (kv_run d i v I) as K. unfold wrap_v in K. rewrite K. reflexivity.
Qed.

(** ** The methods *)

(** [match self { .. }] at the arm of an item *)
Lemma ev_on_self consts structs call w sty p body v h e k bs :
  In (cv_item v) cfg_table -> bind_pat p (cfg_value_v (ci_ty (cv_item v)) (cv_value v)) = Some (Some bs) ->
  ev vec_ops consts structs call w sty (on_self (map (by_name p body) cfg_table)) h (("self", cfg_enum_v v) :: e) k =
  ev vec_ops consts structs call w sty (body (cv_item v)) h (bs ++ ("self", cfg_enum_v v) :: e)%list
    (fun w e' => k w (leave (("self", cfg_enum_v v) :: e) (leave (("self", cfg_enum_v v) :: e) e'))).
Proof.
  intros I B. unfold on_self. cbn [ev ev_step ev_stmts path_val find_var String.eqb Ascii.eqb Bool.eqb on_some].
  unfold cfg_enum_v at 2. rewrite (arms_by_name _ p body cfg_table _ bs (cv_item v) _ _ names_distinct I B). reflexivity.
Qed.

(** [{ let p = c; r }] *)
Lemma ev_let_first consts structs (call : prog) w sty p t c r1 r h e k :
  ev vec_ops consts structs call w sty (EBlock (ELet p t c :: r1 :: r)) h e k =
  ev vec_ops consts structs call w sty c h e (fun v e1 =>
    on_some (bind_pat p (fit t v)) (fun o => on_some o (fun bs =>
      ev_stmts (fun c => ev vec_ops consts structs call w sty c h) (r1 :: r) (bs ++ e1)%list (fun v e' => k v (leave e e'))))).
Proof. reflexivity. Qed.

Lemma run_len d v : In (cv_item v) cfg_table ->
  cf_call (S d) "CfgVal" "len" [cfg_enum_v v] = gives (cfg_enum_v v) (Ret (vusize (cfg_len v))).
Proof.
  intros I. rewrite cf_step, len_text. unfold run_fn. cbn [length lf_params len_fn Nat.eqb lf_body].
  unfold params. cbn [lf_params len_fn combine map fst snd fit]. 
  replace (fit [] (cfg_enum_v v)) with (cfg_enum_v v) by reflexivity.
  rewrite (ev_on_self _ _ _ _ _ LWild len_body v _ _ _ [] I eq_refl). unfold len_body.
  cbn [ev ev_step ev_stmts path_val app]. rewrite size_at by assumption. reflexivity.
Qed.

Lemma run_empty d v : In (cv_item v) cfg_table ->
  cf_call (S (S d)) "CfgVal" "is_empty" [cfg_enum_v v] = gives (cfg_enum_v v) (Ret (VBool (cfg_is_empty v))).
Proof.
  intros I. rewrite cf_step, empty_text. pose proof (run_len d v I) as L. unfold cfg_enum_v in *.
  destruct v as [[n key t] x]. cbn [cv_item cv_value ci_name ci_ty] in *.
  revert L. generalize (cfg_value_v t x). intros y L. unfold cfg_is_empty, cfg_len in *. cf. rewrite L. cf. reflexivity.
Qed.

Lemma for_push (one : byte -> list (string * val) -> (list (string * val) -> ans) -> ans) (e : list byte -> list (string * val)) :
  (forall y acc kn, one y (e acc) kn = kn (e (acc ++ [y])%list)) ->
  forall l acc k, for_bytes one l (e acc) k = k (e (fold_left (fun buf b => buf ++ [b])%list l acc)).
Proof. intros H. induction l as [|y l IH]; intros acc k; [reflexivity|]. cbn. rewrite H. apply IH. Qed.

Lemma run_extend d v buf : In (cv_item v) cfg_table ->
  run_out vec_ops cf_const [] (cf_call (S (S d))) 0 "CfgVal" "buf" extend_fn [cfg_enum_v v; VBytes buf] =
  Some (Ret (VBytes (fst (cfg_extend_to v buf)), vusize (snd (cfg_extend_to v buf)))).
Proof.
  intros I. unfold run_out. cbn [length lf_params extend_fn Nat.eqb lf_body lf_ret].
  unfold params. cbn [lf_params extend_fn combine map fst snd].
  change (fit [] (cfg_enum_v v)) with (cfg_enum_v v).
  rewrite (ev_on_self _ _ _ _ _ (LVar "value") extend_body v _ _ _ _ I eq_refl). unfold extend_body.
  destruct v as [i x]. cbn [cv_item cv_value app] in *.
  rewrite ev_let_first, ev_kv by assumption. unfold cfg_extend_to.
cbn [fst snd].
  generalize (cfg_kv_bytes (mk_cfg_val i x)). intros l. unfold cfg_enum_v. cbn [cv_item cv_value].
  destruct i as [n key t]. cbn [ci_name ci_ty] in *. generalize (cfg_value_v t x). intros y.
  remember (fold_left (fun buf b => buf ++ [b])%list l buf) as R eqn:ER. cf.
  etransitivity.
  - apply (for_push _ (fun acc => [("bytes_len", vusize (lenN l)); ("bytes", VBytes l); ("value", y);
                                   ("self", VAdt ["CfgVal"; n] [("0", y)]); ("buf", VBytes acc)])).
    intros b acc kn. cf. rewrite n2b_b2n. reflexivity.
  - rewrite <- ER. cf. reflexivity.
Qed.

Lemma run_write d v buf : In (cv_item v) cfg_table ->
  run_out vec_ops cf_const [] (cf_call (S (S d))) 0 "CfgVal" "buf" write_fn [cfg_enum_v v; VBytes buf] =
  Some (ret_map (fun p => (VBytes (fst p), vusize (snd p))) (cfg_write_to v buf)).
Proof.
  intros I. unfold run_out. cbn [length lf_params write_fn Nat.eqb lf_body lf_ret].
  unfold params. cbn [lf_params write_fn combine map fst snd].
  change (fit [] (cfg_enum_v v)) with (cfg_enum_v v).
  rewrite (ev_on_self _ _ _ _ _ (LVar "value") write_body v _ _ _ _ I eq_refl). unfold write_body.
  destruct v as [i x]. cbn [cv_item cv_value app] in *.
  rewrite ev_let_first, ev_kv by assumption. unfold cfg_write_to.
  generalize (cfg_kv_bytes (mk_cfg_val i x)). intros l. unfold cfg_enum_v. cbn [cv_item cv_value].
  destruct i as [n key t]. cbn [ci_name ci_ty] in *. generalize (cfg_value_v t x). intros y.
  cf. unfold slice. rewrite (proj2 (N.leb_le 0 (lenN l)) (N.le_0_l _)). rewrite N.sub_0_r. cbn [andb].
  destruct (lenN l <=? lenN buf)%N eqn:E.
  - replace (dropN 0 buf) with buf by reflexivity. cf.
    rewrite lenN_takeN. rewrite N.min_l by now apply N.leb_le. rewrite N.eqb_refl. cf. reflexivity.
  - reflexivity.
Qed.

(** ** parse *)

Lemma slice_from_4 {A} (b0 b1 b2 b3 : A) rest : slice_from (b0 :: b1 :: b2 :: b3 :: rest) 4 = Ret rest.
Proof.
  unfold slice_from, lenN. cbn [length]. replace (4 <=? _)%N with true by (symmetry; apply N.leb_le; lia). reflexivity.
Qed.

Lemma inf_mask d b : cf_call (S d) "CfgInfMask" "from_bits_truncate" [VNum IU8 (b2n b)] = Some (Ret (vunit, VNum IU8 (b2n b))).
Proof.
  rewrite cf_step. replace (cf_find "CfgInfMask" "from_bits_truncate") with (@None lfn) by (symmetry; vm_cast_no_check (eq_refl (@None lfn))).
  destruct b; vm_compute; reflexivity.
Qed.
Lemma u32_of d l : cf_call (S d) "u32" "from_le_bytes" [VBytes l] = Some (Ret (vunit, VNum IU32 (le_num l))).
Proof.
  rewrite cf_step. replace (cf_find "u32" "from_le_bytes") with (@None lfn) by (symmetry; vm_cast_no_check (eq_refl (@None lfn))).
  reflexivity.
Qed.
Lemma u64_of d l : cf_call (S d) "u64" "from_le_bytes" [VBytes l] = Some (Ret (vunit, u64_v (le_num l))).
Proof.
  rewrite cf_step. replace (cf_find "u64" "from_le_bytes") with (@None lfn) by (symmetry; vm_cast_no_check (eq_refl (@None lfn))).
  reflexivity.
Qed.
Lemma i16_of d a b : cf_call (S d) "i16" "from_le_bytes" [VBytes [a; b]] =
  Some (Ret (vunit, VAdt ["i16"] [("0", VNum ILit (Z.to_N (from_le_bytes I16 [a; b] mod 65536)))])).
Proof.
  rewrite cf_step. replace (cf_find "i16" "from_le_bytes") with (@None lfn) by (symmetry; vm_cast_no_check (eq_refl (@None lfn))).
  cbn [cfg_ext]. change (Some (Ret (vunit : val, i16_v (le_num [a; b]))) = Some (Ret (vunit, i16_v (Z.to_N (from_le_bytes I16 [a; b] mod 65536))))).
  do 4 f_equal. unfold from_le_bytes. cbn [scalar_signed scalar_size andb le_num]. pose proof (b2n_lt a). pose proof (b2n_lt b).
  destruct (_ <? _)%Z eqn:E.
  - change (2 ^ (8 * Z.of_N 2))%Z with 65536%Z. rewrite <- (Z.mod_add _ 1) by lia. rewrite Z.mod_small; lia.
  - rewrite Z.mod_small; lia.
Qed.

Ltac decide_bytes :=
  repeat match goal with |- context [if N.eqb ?a ?b then _ else _] => destruct (N.eqb a b) end.

Lemma ev_from d t b0 b1 b2 b3 rest h key k (e := [("key_id", key); ("buf", VBytes (b0 :: b1 :: b2 :: b3 :: rest))]) :
  ev vec_ops cf_const [] (cf_call (S d)) 0 "CfgVal" (from_expr t) h e k =
  on_ret (Some (from_cfg_v_bytes t rest)) (fun v => k (cfg_value_v t v) e).
Proof.
  subst e. destruct t.
  all: cf; rewrite ?slice_from_4.
  all: destruct rest as [|c0 rest]; [reflexivity|].
  all: cf2; consts_known; cf2.
  all: try (decide_bytes; reflexivity).
  5: rewrite inf_mask; cf2; reflexivity.
  all: destruct rest as [|c1 rest]; [reflexivity|].
  1: cf2; rewrite !n2b_b2n; reflexivity.
  1: cf2; rewrite !n2b_b2n, i16_of; cf2; reflexivity.
  all: destruct rest as [|c2 rest]; [reflexivity|]; destruct rest as [|c3 rest]; [reflexivity|].
  1: cf2; rewrite !n2b_b2n, u32_of; cf2; reflexivity.
  all: destruct rest as [|c4 rest]; [reflexivity|]; destruct rest as [|c5 rest]; [reflexivity|].
  all: destruct rest as [|c6 rest]; [reflexivity|]; destruct rest as [|c7 rest]; [reflexivity|].
  cf2; rewrite !n2b_b2n, u64_of; cf2; reflexivity.
Qed.

Definition key_of : expr :=
  ECall ["u32"; "from_le_bytes"] [EArray (map (fun i => EIndex (EPath ["buf"]) (ENum i "")) [0; 1; 2; 3]%N)].
Lemma ev_key d b0 b1 b2 b3 rest h k (e := [("buf", VBytes (b0 :: b1 :: b2 :: b3 :: rest))]) :
  ev vec_ops cf_const [] (cf_call (S d)) 0 "CfgVal" key_of h e k = k (VNum IU32 (le_num [b0; b1; b2; b3])) e.
Proof. subst e. cf2. rewrite !n2b_b2n, u32_of. cf2. reflexivity. Qed.

Lemma std_val i (v : val) : std_call ["CfgVal"; ci_name i] [v] = None.
Proof. unfold std_call. destruct v; reflexivity. Qed.

Lemma ev_new d i h e k (r : res (cfg_value (ci_ty i))) : In i cfg_table ->
  (forall k, ev vec_ops cf_const [] (cf_call (S d)) 0 "CfgVal" (from_expr (ci_ty i)) h e k = on_ret (Some r) (fun v => k (cfg_value_v (ci_ty i) v) e)) ->
  ev vec_ops cf_const [] (cf_call (S d)) 0 "CfgVal" (EBlock [ECall ["CfgVal"; ci_name i] [from_expr (ci_ty i)]]) h e k =
  on_ret (Some r) (fun v => k (cfg_enum_v (mk_cfg_val i v)) (leave e e)).
Proof.
  intros I H. cbn [ev ev_step ev_stmts ev_list]. rewrite H. destruct r as [v| |]; try reflexivity.
  cbn [on_ret]. rewrite no_write, no_copy. cbn [on_opt]. rewrite std_val. cbn [on_opt].
  change (self_path "CfgVal" ["CfgVal"; ci_name i]) with ["CfgVal"; ci_name i]. cbn [call_path].
  rewrite new_val by eauto. reflexivity.
Qed.

Lemma run_parse d buf :
  cf_call (S (S d)) "CfgVal" "parse" [VBytes buf] = returns (ret_map cfg_enum_v (cfg_parse cfg_table buf)).
Proof.
  rewrite cf_step, parse_text. unfold run_fn. cbn [length lf_params parse_fn Nat.eqb lf_body].
  unfold params. cbn [lf_params parse_fn combine map fst snd].
  change (fit slice_ty (VBytes buf : val)) with (VBytes buf : val).
  unfold parse_head. rewrite ev_let_first. fold key_of. unfold cfg_parse.
  destruct buf as [|b0 [|b1 [|b2 [|b3 rest]]]]; try reflexivity.
  rewrite ev_key. cbn [fit bind_pat on_some app ev_stmts].
  cbn [ev ev_step path_val find_var String.eqb Ascii.eqb Bool.eqb on_some].
  rewrite arms_by_key.
  change (first_bytes (b0 :: b1 :: b2 :: b3 :: rest) 4) with (Ret [b0; b1; b2; b3]). cbn [bind].
  destruct (find _ cfg_table) as [i|] eqn:F; [|reflexivity].
  apply find_some in F as [I _]. rewrite slice_from_4. cbn [bind]. unfold parse_arm. cbn [snd].
  rewrite (ev_new d i _ _ _ (from_cfg_v_bytes (ci_ty i) rest) I) by (intros; apply ev_from).
  destruct (from_cfg_v_bytes (ci_ty i) rest); reflexivity.
Qed.
