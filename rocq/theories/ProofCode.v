(** * The trees of Code.v are the text which Output.v generates *)
From Coq Require Import String Ascii List NArith ZArith Bool Lia.
From Verif Require Import Base Tokens Syntax PackDesc Enums Macro Quote Output Rust Code.
Import ListNotations.
Open Scope N_scope.
Open Scope list_scope.

Lemma join_nil : forall l, join [] l = concat l.
Proof. induction l as [|a [|b l] IH]; cbn in *; [reflexivity|now rewrite app_nil_r|now rewrite IH]. Qed.
Lemma join_commas : forall l, join [TPunct ","] l = commas l.
Proof. induction l as [|a [|b l] IH]; cbn in *; [reflexivity|reflexivity|now rewrite IH]. Qed.
Lemma map_app_nil : forall (l : list (list token)), map (fun ts => ts ++ []) l = l.
Proof. induction l as [|a l IH]; cbn; [reflexivity|now rewrite IH, app_nil_r]. Qed.
Lemma concat_map_flat : forall {A} (f : A -> list token) l, concat (map f l) = flat_map f l.
Proof. intros. symmetry. apply flat_map_concat_map. Qed.

(* evaluation of templates *)
Ltac fills :=
  cbn [fill fill1 flat_map qlookup String.eqb Ascii.eqb Bool.eqb first_list hole_names app map qident qstr qnum qusize];
  rewrite ?map_app_nil, ?join_nil, ?join_commas, ?app_nil_r.

Lemma byte_exprs_print : forall n off data, map print (byte_exprs off data n) = byte_codes off (print data) n.
Proof.
  induction n as [|n IH]; intros; [reflexivity|]. cbn [byte_exprs byte_codes map]. rewrite IH. reflexivity.
Qed.

Lemma raw_expr_print f size off data :
  size_bytes (fd_raw f) = Some size -> get_raw_field_code f off (print data) = Good (print (raw_expr f size off data)).
Proof.
  intros Hs. unfold get_raw_field_code, raw_expr. rewrite Hs. f_equal.
  destruct (fd_get_as_ref f); [unfold t_as_ref; fills; reflexivity|].
  destruct (is_field_raw_ty_byte_array f).
  { unfold t_array; fills. cbn [print]. rewrite byte_exprs_print. reflexivity. }
  destruct (negb (size =? 1) || tokens_eqb (fd_ty f) [TIdent "i8"]); [|reflexivity].
  unfold t_from_le; fills. cbn [print map]. rewrite byte_exprs_print. reflexivity.
Qed.

(* both sides as right-nested lists *)
Ltac norm :=
  unfold getter_fn, doc, arrow, t_inline, t_pub_fn, self_param, own_self_param, payload_param, x_param, let_val, check_val,
    invalid_field, invalid_len, unit_e, ok_unit, let_got, usz, ix, m_name, self_e, p1, p2 in *;
  repeat progress (
    cbn [print_func fn_head fn_name fn_generics fn_params fn_ret fn_body print_item print_constant k_head k_name k_ty k_val
         print print_pat path_tokens flat_map app map concat commas with_sep snd fst op_tokens];
    unfold p1, p2; rewrite <- ?app_assoc, ?app_nil_r).

Lemma sized_code_print pn f size off :
  size_bytes (fd_raw f) = Some size ->
  exists gs vs, sized_code pn off f = Good (gs, vs) /\ concat gs = flat_map print_func (sized_getters f size off) /\
    concat vs = flat_map print (sized_validators pn f size off).
Proof.
  intros Hs. unfold sized_code, sized_getters, sized_validators.
  change self_0 with (print self_data). rewrite (raw_expr_print f size off self_data Hs). cbn [mbind].
  destruct (fd_map f) as [m|].
  - change payload_toks with (print (EVar "payload")). rewrite (raw_expr_print f size off (EVar "payload") Hs). cbn [mbind].
    eexists _, _. split; [reflexivity|]. split.
    + unfold t_getter, t_raw_getter, t_let, t_from, t_scale. fills.
      destruct (fd_scale f) as [s|]; fills; norm; reflexivity.
    + destruct (fd_may_fail f); [|reflexivity].
      unfold t_validator; fills. norm. reflexivity.
  - eexists _, _. split; [reflexivity|]. split; [|reflexivity].
    unfold t_getter, t_let, t_scale. fills.
    destruct (fd_scale f) as [s|]; fills; norm; reflexivity.
Qed.

Lemma sum_expr_print start recv fns :
  print (sum_expr start recv fns) = print start ++ flat_map (fun s => TPunct "+" :: print recv ++ TPunct "." :: s ++ [TGroup Paren []]) fns.
Proof.
  unfold sum_expr. revert start. induction fns as [|s fns IH]; intros; cbn [fold_left flat_map]; [now rewrite app_nil_r|].
  rewrite IH. norm. reflexivity.
Qed.

Lemma unsized_code_print pn f off fns :
  let (gs, vs) := unsized_code pn off fns f in
  concat gs = flat_map print_func (unsized_getters f off fns) /\ concat vs = flat_map print (unsized_validators pn f off).
Proof.
  unfold unsized_code, unsized_getters, unsized_validators, unsized_expr, self_data, has_intermediate_type.
  assert (Hr : fill [("range"%string, One
      match fd_size_fn f with
      | Some size_fn => fill [("off", qusize off); ("size_fns", Many fns); ("size_fn", One size_fn)]%string t_range
      | None => fill [("off"%string, qusize off)] t_rest
      end)] t_slice = print (unsized_expr f off fns)).
  { unfold unsized_expr, t_range, t_rest, t_slice, self_data. destruct (fd_size_fn f) as [s|]; fills; norm; [|reflexivity].
    rewrite sum_expr_print. norm. rewrite <- !flat_map_concat_map. 
    repeat f_equal. }
  rewrite Hr. destruct (fd_map f) as [m|].
  - split.
    + unfold t_getter_rest, t_let, t_from_tail. fills. norm. reflexivity.
    + destruct (fd_may_fail f); [|reflexivity]. unfold t_validator_rest. fills. norm. reflexivity.
  - split; [|reflexivity]. unfold t_getter_rest. fills. norm. reflexivity.
Qed.

Lemma recv_fields_print pn : forall fs off fns gs vs,
  recv_fields pn off fns fs = Good (gs, vs) ->
  concat gs = flat_map print_func (getter_fns off fns fs) /\ concat vs = flat_map print (field_validators pn off fs).
Proof.
  induction fs as [|f fs IH]; intros off fns gs vs H; cbn [recv_fields getter_fns field_validators] in *.
  { injection H as <- <-. split; reflexivity. }
  destruct (size_bytes (fd_raw f)) as [size|] eqn:Hs.
  - destruct (sized_code_print pn f size off Hs) as (g & v & E & Hg & Hv). rewrite E in H. cbn [mbind] in H.
    destruct (recv_fields pn (off + size) fns fs) as [[gs' vs']| |] eqn:E'; try discriminate H.
    cbn [mbind] in H. injection H as <- <-. destruct (IH _ _ _ _ E') as [IHg IHv].
    rewrite !concat_app, !flat_map_app, Hg, Hv, IHg, IHv. split; reflexivity.
  - destruct (_ || _); [|discriminate H].
    pose proof (unsized_code_print pn f off fns) as Hu. destruct (unsized_code pn off fns f) as [g v]. destruct Hu as [Hg Hv].
    destruct (recv_fields pn off _ fs) as [[gs' vs']| |] eqn:E'; try discriminate H.
    cbn [mbind] in H. injection H as <- <-. destruct (IH _ _ _ _ E') as [IHg IHv].
    rewrite !concat_app, !flat_map_app, Hg, Hv, IHg, IHv. split; reflexivity.
Qed.

Lemma validator_code_print d vs ts :
  concat vs = flat_map print (field_validators (pd_name d) 0 (pd_fields d)) ->
  validator_code d vs = Good ts -> ts = print_func (validate_fn d).
Proof.
  intros Hv H. unfold validator_code in H. unfold validate_fn, validate_body.
  destruct (decl_size 0 (pd_fields d)) as [[n|]| |]; try discriminate H; cbn [mbind] in H.
  - injection H as <-. unfold t_validate_fixed. fills. rewrite Hv. unfold check_all. norm.
    rewrite !flat_map_app. norm. reflexivity.
  - destruct (size_fn_codes d) as [|s fns].
    + destruct (decl_size 0 (removelast (pd_fields d))) as [[n|]| |]; try discriminate H; cbn [mbind] in H.
      injection H as <-. unfold t_validate_min, t_min_size. fills. rewrite Hv. unfold check_all. cbn [the_size]. norm.
      rewrite !flat_map_app. norm. reflexivity.
    + destruct (decl_size 0 (filter _ (pd_fields d))) as [o| |]; try discriminate H; cbn [mbind] in H.
      injection H as <-. unfold t_validate_min, t_min_size_fns. fills. rewrite Hv. unfold check_all, the_size.
      norm. rewrite !flat_map_app, sum_expr_print. norm. rewrite concat_map_flat. destruct o; destruct fns; cbn [flat_map map]; norm; reflexivity.
Qed.

Lemma debug_print d : generate_debug_impl (pd_name d) (pd_name d ++ "Ref") d
  = print_item (Impl (toks "impl core::fmt::Debug for" ++ TIdent (pd_name d ++ "Ref") :: toks "<'_>") [] [fmt_fn d]).
Proof.
  unfold generate_debug_impl, t_debug, fmt_fn. fills.
  assert (H : forall start, print (fold_left (fun a f => EMethod a (m_name "field") [EStringify (fd_name f); ERef (get_self f)])
                                     (pd_fields d) start)
              = print start ++ concat (map (fun f => fill [("field_name", qident (fd_name f));
                                             ("field_accessor", qident (intermediate_field_name f))]%string t_debug_field)
                             (pd_fields d))).
  { induction (pd_fields d) as [|f fs IH]; intros; cbn [fold_left map concat]; [now rewrite app_nil_r|].
    rewrite IH. unfold t_debug_field, get_self at 1. fills. norm. reflexivity. }
  norm. rewrite H. norm. reflexivity.
Qed.

Lemma serialize_print d : generate_serialize_impl (pd_name d ++ "Ref") d =
  let ref_any := TIdent (pd_name d ++ "Ref") :: toks "<'_>" in
  print_item (Impl (toks "#[cfg(feature = ""serde"")] impl SerializeUbxPacketFields for" ++ ref_any) [] [serialize_fields_fn d]) ++
  print_item (Impl (toks "#[cfg(feature = ""serde"")] impl serde::Serialize for" ++ ref_any) [] [serialize_fn]).
Proof.
  unfold generate_serialize_impl, t_ser, serialize_fields_fn, serialize_fn, serialize_head. fills.
  assert (H : concat (map serialize_field (pd_fields d)) = flat_map print (map serialize_stmt (pd_fields d))).
  { induction (pd_fields d) as [|f fs IH]; [reflexivity|]. cbn [map concat flat_map]. rewrite IH. f_equal.
    unfold serialize_field, serialize_stmt, t_ser_field, t_ser_iter, get_self. destruct (_ || _); fills; norm; reflexivity. }
  rewrite H. norm. rewrite flat_map_app. norm. reflexivity.
Qed.

Lemma good_inj {A} (a b : A) : Good a = Good b -> b = a.
Proof. congruence. Qed.

Theorem recv_print d ts :
  generate_recv_code_for_packet d = Good ts -> ts = flat_map print_item (recv_items d).
Proof.
  unfold generate_recv_code_for_packet. cbv zeta. intros H.
  destruct (recv_fields (pd_name d) 0 [] (pd_fields d)) as [[gs vs]| |] eqn:E; try discriminate H. cbn [mbind] in H.
  destruct (recv_fields_print _ _ _ _ _ _ E) as [Hg Hv].
  destruct (validator_code d vs) as [v| |] eqn:Ev; try discriminate H. cbn [mbind] in H.
  apply good_inj in H. rewrite H. clear H ts. apply validator_code_print in Ev; [|exact Hv]. subst v.
  rewrite debug_print, serialize_print. unfold t_recv. fills. rewrite Hg. unfold recv_items.
  cbn [flat_map print_item]. rewrite flat_map_app. cbn [flat_map]. unfold as_bytes_fn, slice_ty, self_data.
  rewrite ?app_nil_r.
  generalize (print_func (validate_fn d)) (flat_map print_func (getter_fns 0 [] (pd_fields d))) (print_func (fmt_fn d))
    (print_func (serialize_fields_fn d)) (print_func serialize_fn). intros.
  norm. reflexivity.
Qed.

Theorem types_print d : generate_types_for_packet d = flat_map print_item (types_items d).
Proof.
  unfold generate_types_for_packet, types_items, packet_consts, t_types, t_some, t_none, u8_e, u16_e.
  destruct (h_len (pd_header d)); cbn [fixed]; fills; norm; reflexivity.
Qed.

(** ** Builders *)

Definition semis (l : list (list token)) : list token := flat_map (fun x => x ++ [TPunct ";"]) l.
Lemma join_semis l : join [TPunct ";"] l ++ [TPunct ";"] = match l with [] => [TPunct ";"] | _ => semis l end.
Proof.
  unfold semis. induction l as [|a [|b l] IH]; [reflexivity|cbn; now rewrite app_nil_r|].
  cbn [join flat_map] in *. rewrite <- app_assoc, <- app_assoc, IH. cbn. now rewrite <- !app_assoc.
Qed.

Lemma pack_code_print f : pack_code f ++ [TPunct ";"] = flat_map print (let_bytes f).
Proof.
  unfold pack_code, let_bytes, t_pack_into, t_pack_le, t_pack_array, self_field, slice_ty.
  destruct (fd_map f); [|destruct (negb _)]; fills; norm; reflexivity.
Qed.

Lemma copy_codes_print : forall n off i0, semis (copy_codes off i0 n) = flat_map print (copy_stmts off i0 n).
Proof.
  unfold semis. induction n as [|n IH]; intros; [reflexivity|]. cbn [copy_codes copy_stmts flat_map]. rewrite IH. f_equal.
Qed.


Definition same (l : list (list token)) (cs : list code) : Prop :=
  (l = [] <-> cs = []) /\ semis l = flat_map print cs.
Lemma same_join l cs : same l cs -> join [TPunct ";"] l ++ [TPunct ";"] = flat_map print (or_empty cs).
Proof.
  intros [He H]. rewrite join_semis. destruct l as [|a l].
  - rewrite (proj1 He eq_refl). reflexivity.
  - destruct cs as [|c cs]; [|exact H]. discriminate (proj2 He eq_refl).
Qed.
Lemma semis_app a b : semis (a ++ b) = semis a ++ semis b.
Proof. apply flat_map_app. Qed.
Lemma semis_cons a l : semis (a :: l) = a ++ [TPunct ";"] ++ semis l.
Proof. unfold semis. cbn. now rewrite <- app_assoc. Qed.
Lemma let_bytes_cons f l : let_bytes f ++ l <> [].
Proof. unfold let_bytes. destruct (fd_map f); [|destruct (negb _)]; discriminate. Qed.
Lemma same_cons f l x cs : semis l = flat_map print cs -> x = pack_code f -> same (x :: l) (let_bytes f ++ cs).
Proof.
  intros H ->. split.
  - split; [discriminate|]. intros Hn. now apply let_bytes_cons in Hn.
  - change (semis (pack_code f :: l)) with ((pack_code f ++ [TPunct ";"]) ++ semis l).
    now rewrite pack_code_print, H, flat_map_app.
Qed.

Lemma send_fields_print : forall fs off r, send_fields off fs = Good r ->
  same (sp_pack r) (pack_stmts off fs) /\ same (sp_write r) (write_all_stmts fs) /\ same (sp_extend r) (extend_all_stmts fs) /\
  sp_fields r = map builder_field fs /\ sp_lifetime r = existsb unsized fs.
Proof.
  assert (H0 : same [] []) by (split; [tauto|reflexivity]).
  induction fs as [|f fs IH]; intros off r H; cbn [send_fields pack_stmts write_all_stmts extend_all_stmts map existsb] in *.
  { injection H as <-. cbn. auto. }
  assert (Hf : fill [("field_comment", qstr (fd_comment f)); ("name", qident (intermediate_field_name f));
                     ("ty", One (intermediate_type f))]%string t_builder_field = builder_field f) by
    (unfold builder_field, t_builder_field; fills; norm; reflexivity).
  unfold unsized at 1. destruct (size_bytes (fd_raw f)) as [size|] eqn:Hs.
  - destruct (send_fields (off + size) fs) as [r'| |] eqn:E; try discriminate H. cbn [mbind] in H. apply good_inj in H. subst r.
    cbn [sp_pack sp_write sp_extend sp_fields sp_lifetime]. destruct (IH _ _ E) as ((_ & Hp) & (_ & Hw) & (_ & He) & Hfs & Hl).
    rewrite Hf, Hfs, Hl.
    split; [apply (same_cons f); [|reflexivity]|split; [apply (same_cons f); [|reflexivity]|
      split; [apply (same_cons f); [|reflexivity]|split; reflexivity]]].
    + rewrite semis_app, flat_map_app, copy_codes_print, Hp. reflexivity.
    + rewrite semis_cons, Hw, flat_map_app. reflexivity.
    + rewrite semis_cons, He, flat_map_app. reflexivity.
  - destruct fs; [|discriminate H]. apply good_inj in H. subst r. cbn [sp_pack sp_write sp_extend sp_fields sp_lifetime].
    rewrite Hf. split; [exact H0|]. split; [exact H0|]. split; [|split; reflexivity].
    split; [split; discriminate|]. unfold extend_items_stmts, self_field, t_extend_items, semis. cbn [flat_map]. fills. norm. reflexivity.
Qed.

Theorem send_print d ts :
  generate_send_code_for_packet d = Good ts -> ts = flat_map print_item (send_items d).
Proof.
  unfold generate_send_code_for_packet, send_items. cbv zeta. intros H.
  destruct (send_fields 6 (pd_fields d)) as [r| |] eqn:E; try discriminate H. cbn [mbind] in H.
  destruct (send_fields_print _ _ _ E) as (Hp & Hw & He & Hfs & Hl).
  apply same_join in Hp, Hw, He. rewrite Hfs, Hl in H.
  change (if existsb unsized (pd_fields d) then fill [] t_lifetime else []) with (needs_lifetime d) in H.
  assert (Hb : fill [("struct_comment", qstr (pd_comment d));
            ("builder_attr", One (if existsb (fun x => match x with DefaultForBuilder => true end) (h_flags (pd_header d))
                      then fill [] t_default else []));
            ("payload_struct", qident (pd_name d ++ "Builder")); ("payload_struct_lifetime", One (needs_lifetime d));
            ("fields", Many (map builder_field (pd_fields d)))]%string t_builder = builder_struct d).
  { unfold t_builder, builder_struct. fills. destruct (existsb _ (h_flags _)); unfold t_default; fills; norm; reflexivity. }
  rewrite Hb in H. clear Hb Hfs Hl E.
  destruct (decl_size 0 (pd_fields d)) as [[n|]| |]; try discriminate H; cbn [mbind] in H.
  - destruct (n <=? 65535); [|discriminate H]. apply good_inj in H. subst ts.
    cbn [flat_map print_item]. rewrite app_nil_r. f_equal.
    unfold t_send_fixed, into_packet_bytes_fn, create_packet_fn, from_builder_fn, self_len, sync_1, sync_2, packet_const, u16_e,
      f_checksum.
    fills. norm. rewrite !flat_map_app, <- Hp, <- Hw. norm. rewrite ?app_nil_r. reflexivity.
  - apply good_inj in H. subst ts. cbn [flat_map print_item]. rewrite app_nil_r. f_equal.
    unfold t_send_dyn, into_packet_vec_fn, extend_to_fn, push_all, sync_1, sync_2, packet_const, f_checksum.
    fills. norm. rewrite !flat_map_app, <- He. norm. reflexivity.
Qed.


(** ** Enums *)

Definition branch_print (b : pat * code) : list token := print_pat (fst b) ++ p2 "=" ">" ++ print (snd b).
Lemma arms_print comma l : l <> [] ->
  flat_map print (arms comma l) = commas (map branch_print l) ++ (if comma then p1 "," else []).
Proof.
  induction l as [|[p e] [|q l] IH]; intros Hn; [congruence| |].
  - cbn [arms]. unfold branch_print. norm. reflexivity.
  - change (flat_map print (arms comma ((p, e) :: q :: l))) with (print (EArm p e true) ++ flat_map print (arms comma (q :: l))).
    rewrite IH by discriminate.
    change (commas (map ?f ((p, e) :: q :: l))) with (f (p, e) ++ [TPunct ","] ++ commas (map f (q :: l))).
    generalize (commas (map branch_print (q :: l))). intros r. unfold branch_print. norm. reflexivity.
Qed.
Lemma arms_print_false l :
  flat_map print (arms false l) = commas (map branch_print l).
Proof. destruct l as [|a l]; [reflexivity|]. rewrite arms_print by discriminate. apply app_nil_r. Qed.

Lemma branches_print name vs :
  map (fun v => fill [("val", qnum "u8" (snd v)); ("name", qident name); ("id", qident (fst v))]%string t_branch) vs
  = map branch_print (branches name vs).
Proof. unfold branches. rewrite map_map. apply map_ext. intros [id n]. reflexivity. Qed.

Lemma values_print vs : concat (value_codes vs) = print_pat (POr (map snd vs) "u8").
Proof.
  destruct vs as [|v vs]; [reflexivity|]. cbn [value_codes concat print_pat map]. unfold t_val, t_or.
  assert (H : forall a, a ++ concat (map (fun v => fill [("val"%string, qnum "u8" (snd v))] (t_or)) vs)
     = with_sep (p1 "|") (a :: map (fun n => [TInt n "u8"]) (map snd vs))).
  { induction vs as [|w vs IH]; intros; [cbn; now rewrite app_nil_r|].
    cbn [map concat].
    change (with_sep (p1 "|") (a :: [TInt (snd w) "u8"] :: ?l)) with (a ++ p1 "|" ++ with_sep (p1 "|") ([TInt (snd w) "u8"] :: l)).
    rewrite <- IH. unfold t_or. fills. reflexivity. }
  apply H.
Qed.

Theorem enum_print attrs d ts : enum_variants (ed_desc d) <> [] ->
  generate_code_to_extend_enum attrs d = Good ts -> ts = flat_map print_item (enum_items attrs d).
Proof.
  intros Hn H. unfold generate_code_to_extend_enum, enum_items in *. cbv zeta in H. rewrite branches_print in H.
  set (name := e_name (ed_desc d)) in *. set (vs := enum_variants (ed_desc d)) in *. clearbody name.
  assert (Hvs : map (fun v => fill [("id", qident (fst v)); ("val", qnum "u8" (snd v))]%string t_enum_variant) vs
                = map (fun v => TIdent (fst v) :: p1 "=" ++ [TInt (snd v) "u8"]) vs) by (apply map_ext; reflexivity).
  rewrite Hvs in H. clear Hvs.
  set (from_items := match ed_from d with Some From => _ | Some FromUnchecked => _ | None => _ end).
  match type of H with mbind ?x _ = _ => assert (Hf : forall c, x = Good c -> c = flat_map print_item from_items) end.
  { intros c Hc. subst from_items. destruct (ed_from d) as [[|]|].
    - assert (Hb : c = fill [("name", qident name); ("repr_ty", One [TIdent "u8"]);
         ("match_branches", Many (map branch_print (branches name vs)))]%string t_enum_from)
        by (destruct (e_rest (ed_desc d)) as [[|]|]; congruence).
      subst c. unfold t_enum_from. fills. unfold enum_from_fn. norm. rewrite arms_print_false. reflexivity.
    - assert (Hb : c = fill [("name", qident name); ("repr_ty", One [TIdent "u8"]);
         ("match_branches", Many (map branch_print (branches name vs)));
         ("values", Many (value_codes vs))]%string t_enum_from_unchecked)
        by (destruct (e_rest (ed_desc d)) as [[|]|]; congruence).
      subst c. unfold t_enum_from_unchecked. fills. unfold enum_from_unchecked_fn, enum_is_valid_fn. rewrite values_print.
      cbn [print_pat]. norm.
      rewrite flat_map_app, arms_print by (unfold branches; destruct vs; [congruence|discriminate]). norm. reflexivity.
    - apply good_inj in Hc. exact Hc. }
  match type of H with mbind ?x _ = _ => destruct x as [c| |] eqn:Ec; try discriminate H end.
  specialize (Hf c eq_refl). cbn [mbind] in H. apply good_inj in H. subst ts.
  cbn [flat_map print_item]. rewrite flat_map_app, <- Hf. generalize c. intros c'. unfold t_enum. fills.
  unfold enum_text, enum_into_raw_fn, enum_serialize_fn, serialize_head. destruct (ed_into_raw d); unfold t_enum_into; fills; norm; reflexivity.
Qed.

(** ** Bit flags *)

Lemma flag_item_print repr s consts bit :
  flag_item (One [TIdent repr]) consts bit = flag_text repr s consts bit.
Proof.
  unfold flag_item, flag_text, flag_value. destruct (find _ consts) as [[[name v] attrs]|]; destruct (negb (bit =? 0));
    unfold t_const, t_const0, t_reserved, t_reserved0; fills; norm; reflexivity.
Qed.

Theorem flags_print x s d ts :
  generate_code_to_extend_bitflags x d = Good ts -> ts = flat_map print_item (flags_items_code x s d).
Proof.
  unfold generate_code_to_extend_bitflags, flags_items_code. intros H.
  destruct (fl_rest d) as [[|]|]; try discriminate H. cbv zeta in H. destruct (negb (flags_accepted (fl_desc d))); try discriminate H.
  set (bits := map N.of_nat (seq 0 (N.to_nat (b_nbits (fl_desc d))))) in *.
  set (consts := combine (b_consts (fl_desc d)) (ft_const_attrs x)) in *. clearbody bits consts.
  set (name := b_name (fl_desc d)) in *. clearbody name.
  assert (Hb : join [TPunct ";"] (map (flag_item (One [TIdent (ft_repr x)]) consts) bits) ++ [TPunct ";"]
     = match bits with [] => p1 ";" | _ => flat_map (fun bit => flag_text (ft_repr x) s consts bit ++ p1 ";") bits end).
  { rewrite join_semis. destruct bits as [|b bits]; [reflexivity|]. unfold semis. cbn [map]. 
    rewrite flat_map_concat_map, (flat_map_concat_map _ (b :: bits)). f_equal. rewrite <- map_cons, map_map.
    apply map_ext. intros. rewrite (flag_item_print _ s). reflexivity. }
  destruct (fl_from d) as [[|]|]; try discriminate H; cbn [mbind] in H; apply good_inj in H; subst ts;
    unfold t_flags, t_flags_from, t_flags_serde, flags_from_fn, flags_into_raw_fn, flags_serialize_fn, serialize_head;
    destruct (fl_into_raw d); unfold t_flags_into; cbn [flat_map app print_item]; fills; norm; rewrite Hb; reflexivity.
Qed.

(** ** The packets of the parser *)

Lemma commas_each {A} (f : A -> list token) l : l <> [] -> commas (map f l) ++ [TPunct ","] = flat_map (fun a => f a ++ [TPunct ","]) l.
Proof.
  induction l as [|a [|b l] IH]; intros Hn; [congruence|cbn; now rewrite app_nil_r|].
  change (commas (map f (a :: b :: l))) with (f a ++ [TPunct ","] ++ commas (map f (b :: l))).
  rewrite <- !app_assoc, IH by discriminate. cbn. now rewrite <- !app_assoc.
Qed.
Lemma flat_map_map {A B} (f : A -> B) (g : B -> list token) l : flat_map g (map f l) = flat_map (fun a => g (f a)) l.
Proof. induction l as [|a l IH]; [reflexivity|]. cbn. now rewrite IH. Qed.

Lemma flat_map_eq {A} (f g : A -> list token) l : (forall a, f a = g a) -> flat_map f l = flat_map g l.
Proof. intros H. induction l as [|a l IH]; [reflexivity|]. cbn. now rewrite H, IH. Qed.

Lemma commas_flat {A} (f : A -> list token) (g : A -> list token) l r : l <> [] ->
  (forall a, f a ++ [TPunct ","] = g a) -> commas (map f l) ++ TPunct "," :: r = flat_map g l ++ r.
Proof.
  intros Hn H. rewrite <- (flat_map_eq _ _ l H), <- commas_each by assumption. rewrite <- app_assoc. reflexivity.
Qed.

Theorem parse_print d : rd_packets d <> [] -> generate_code_for_parse d = flat_map print_item (parse_items d).
Proof.
  intros Hn. unfold generate_code_for_parse. cbv zeta.
  assert (Hm : forall start, fold_left (fun prev name => fill [("name", qident name); ("prev", One prev)]%string t_max) (rd_packets d) (print start)
            = print (fold_left (fun prev name => ECall [TIdent "max_u16"] [name_const name "MAX_PAYLOAD_LEN"; prev]) (rd_packets d) start)).
  { clear Hn. induction (rd_packets d) as [|a l IH]; intros; [reflexivity|]. cbn [fold_left]. rewrite <- IH. f_equal.
    unfold t_max, name_const. fills. norm. reflexivity. }
  change (fill [] t_zero) with (print (u16_e 0)). rewrite Hm. clear Hm.
  unfold t_parse, packet_env. fills.
  unfold parse_items, class_and_msg_id_fn, match_packet_fn, max_u16_fn, max_payload_len_const, packet_serializer_fn, union_serialize_fn, entry.
  generalize (fold_left (fun prev name => ECall [TIdent "max_u16"] [name_const name "MAX_PAYLOAD_LEN"; prev]) (rd_packets d) (u16_e 0)).
  intros maxc. cbn [flat_map print_item app].
  norm. rewrite !flat_map_app, !flat_map_map. unfold match_arm, union_arm, name_const, validate_path, entry, ref_name. norm.
  set (packets := rd_packets d) in *. set (un := rd_name d). set (uk := rd_unknown d). clearbody packets un uk.
  erewrite !commas_flat by (exact Hn || (intros; reflexivity)). rewrite concat_map_flat.
  unfold t_union_variant, t_match, t_class_id, t_serializer. fills. norm. reflexivity.
Qed.
