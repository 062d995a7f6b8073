(** * The meaning of the rest of the generated code: dispatch, constants, enums, bit flags *)
From Coq Require Import String Ascii List NArith ZArith Bool Lia.
From Verif Require Import Base BaseFacts Tokens Syntax DualBuffer Parser Checksum PackDesc GenRecv GenSend Dispatch Enums Macro Output
  Rust Code SpecCode ProofMacro ProofOutput ProofEval ProofEvalSend.
Import ListNotations.
Open Scope N_scope.
Open Scope list_scope.

Section Rest.
  Context {A : Type} (P : program A).
  Context (item_v : item -> value A).
  Notation value := (value A).
  Notation eval := (eval P).

  (** ** Dispatch *)

  Lemma byte_z a b : (Z.of_N (b2n a) =? Z.of_N (b2n b))%Z = byte_eqb a b.
  Proof. unfold byte_eqb. apply z_of_n_eqb. Qed.

  Lemma consts_class d p : header_means d p -> knows_consts P d ->
    c_const P [pd_name d; "CLASS"%string] = Some (u8_v (p_class p)) /\ c_const P [pd_name d; "ID"%string] = Some (u8_v (p_id p)) /\
    c_const P [pd_name d; "MAX_PAYLOAD_LEN"%string] = Some (u16_v (max_payload_len p)).
  Proof.
    intros Hh Hk. unfold knows_consts, packet_consts in Hk. rewrite !Forall_cons_iff in Hk.
    destruct Hk as (H1 & H2 & _ & H4 & _). cbn [k_name k_val] in *.
    unfold u8_v. rewrite (pm_class _ _ Hh), (pm_id _ _ Hh). split; [exact H1|]. split; [exact H2|].
    rewrite H4. unfold max_payload_len. rewrite (pm_len _ _ Hh). destruct (h_len (pd_header d)); reflexivity.
  Qed.

  Lemma receivable_items d p : packet_means P item_v d p -> receivable d -> Forall (fun f => f_ty f <> Items) (p_fields p).
  Proof.
    intros [_ Hf] [_ _ Hi]. induction Hf as [|df f ds fs [emb Hm] Hf IH]; [constructor|]. inversion Hi; subst.
    constructor; [|now apply IH]. destruct (means_names P item_v (pd_name d) _ _ _ Hm) as (_ & Hr & _). congruence.
  Qed.

  Lemma packet_validate d p payload : packet_means P item_v d p -> receivable d ->
    result P (validate_fn d) [VBytes payload] = Some (ret_map unit_result_v (validate p payload)).
  Proof.
    intros Hm Hr. destruct Hr as [H1 H2 H3] eqn:E. clear E. eapply (validate_eval P item_v (pd_name d)); auto.
    - exact (pm_name _ _ (pm_header _ _ _ _ Hm)).
    - exact (pm_fields _ _ _ _ Hm).
    - eapply receivable_items; eauto.
  Qed.

  Lemma match_eval union unknown names table : Forall2 (table_entry P item_v) names table ->
    forall class msg_id payload e,
    lookup "class" e = Some (u8_v class) -> lookup "msg_id" e = Some (u8_v msg_id) -> lookup "payload" e = Some (VBytes payload) ->
    ends_as (eval_arms P eval (VTuple [u8_v class; u8_v msg_id]) (map (match_arm union) names ++
        [EArm PAny (ECtor ["Ok"%string] [ECtor [union; "Unknown"%string]
           [EStruct [unknown] [EShort "payload"; EShort "class"; EShort "msg_id"] false]]) true]) e) =
    Some (ret_map (packet_result_v union unknown) (match_packet table class msg_id payload)).
  Proof.
    intros Ht class msg_id payload e Hc Hi Hp. induction Ht as [|name p names table He Ht IH].
    - cbn [map app eval_arms matches Rust.eval eval_list inits]. rewrite Hc, Hi, Hp. reflexivity.
    - cbn [map app match_packet]. unfold match_arm at 1. cbn [eval_arms matches].
      destruct He as (d & <- & Hm & Hr & Hk). destruct (consts_class d p (pm_header _ _ _ _ Hm) (kp_consts _ _ Hk)) as (H1 & H2 & _).
      rewrite H1, H2. cbn [same_int u8_v ity_eqb andb]. rewrite !byte_z.
      destruct (byte_eqb class (p_class p) && byte_eqb msg_id (p_id p)); [|exact IH].
      cbn [app Rust.eval eval_list]. rewrite Hp. cbn [obind]. rewrite (kp_validate _ _ Hk), (packet_validate d p) by assumption.
      destruct (validate p payload) as [[u|err]| |]; cbn [ret_map of_opt of_res obind bind unit_result_v]; [| |reflexivity..].
      + unfold method_v. cbn [std_method ok_v m_name String.eqb Ascii.eqb Bool.eqb write_all_back write_back eval_seq Rust.eval eval_list obind].
        rewrite Hp. cbn [obind ends_as ret_map packet_result_v packet_v]. unfold ok_v, ref_v.
        rewrite (pm_name _ _ (pm_header _ _ _ _ Hm)). reflexivity.
      + unfold method_v. cbn [obind std_method err_v m_name String.eqb Ascii.eqb Bool.eqb write_all_back write_back]. rewrite leave_self. exact IH.
  Qed.

  Lemma match_packet_eval r table class msg_id payload : Forall2 (table_entry P item_v) (rd_packets r) table ->
    result P (match_packet_fn r) [u8_v class; u8_v msg_id; VBytes payload] =
    Some (ret_map (packet_result_v (rd_name r) (rd_unknown r)) (match_packet table class msg_id payload)).
  Proof.
    intros Ht. rewrite result_ends by reflexivity. cbn [match_packet_fn fn_params fn_body map fst payload_param combine eval_seq].
    cbn [Rust.eval eval_list lookup String.eqb Ascii.eqb Bool.eqb obind]. apply match_eval; auto.
  Qed.

  Lemma arms_const union (t : packet_ref) names rest e :
    (forall name, In name names -> exists c i, c_const P [name; "CLASS"%string] = Some (u8_v c) /\ c_const P [name; "ID"%string] = Some (u8_v i)) ->
    forall x w, (forall c i, c_const P [x; "CLASS"%string] = Some (u8_v c) -> c_const P [x; "ID"%string] = Some (u8_v i) -> two_v (c, i) = w) ->
    In x names -> forall f v,
    eval_arms P eval (VAdt [union; x] [(f, v)]) (map (fun name => EArm (PCtor [union; name] PAny)
       (ETuple [name_const name "CLASS"; name_const name "ID"]) true) names ++ rest) e = Done w e.
  Proof.
    intros Hk x w Hw Hx f v. induction names as [|n names IH]; [destruct Hx|]. cbn [map app eval_arms matches path_eqb].
    rewrite String.eqb_refl. cbn [andb]. destruct (String.eqb n x) eqn:E.
    - apply String.eqb_eq in E. subst n. cbn [andb]. destruct (Hk x (or_introl eq_refl)) as (c & i & H1 & H2).
      cbn [app Rust.eval eval_list name_const]. rewrite H1. cbn [obind]. rewrite H2. cbn [obind]. rewrite leave_self, <- (Hw c i H1 H2). reflexivity.
    - cbn [andb]. apply IH; [intros; apply Hk; now right|]. destruct Hx as [->|Hx]; [rewrite String.eqb_refl in E; discriminate E|exact Hx].
  Qed.
  Lemma arms_other union x names rest e f v : ~ In x names ->
    eval_arms P eval (VAdt [union; x] [(f, v)]) (map (fun name => EArm (PCtor [union; name] PAny)
       (ETuple [name_const name "CLASS"; name_const name "ID"]) true) names ++ rest) e = eval_arms P eval (VAdt [union; x] [(f, v)]) rest e.
  Proof.
    induction names as [|n names IH]; intros Hx; [reflexivity|]. cbn [map app eval_arms matches path_eqb].
    rewrite String.eqb_refl. cbn [andb]. destruct (String.eqb n x) eqn:E.
    - apply String.eqb_eq in E. subst n. exfalso. apply Hx. now left.
    - cbn [andb]. apply IH. intros H. apply Hx. now right.
  Qed.

  Lemma table_names names table : Forall2 (table_entry P item_v) names table ->
    forall name, In name names -> exists c i, c_const P [name; "CLASS"%string] = Some (u8_v c) /\ c_const P [name; "ID"%string] = Some (u8_v i).
  Proof.
    intros Ht. induction Ht as [|n p names table He Ht IH]; intros name Hn; [destruct Hn|]. destruct Hn as [->|Hn]; [|now apply IH].
    destruct He as (d & <- & Hm & Hr & Hk). destruct (consts_class d p (pm_header _ _ _ _ Hm) (kp_consts _ _ Hk)) as (H1 & H2 & _). eauto.
  Qed.
  Lemma table_entry_in names table p : Forall2 (table_entry P item_v) names table -> In p table ->
    In (p_name p) names /\ c_const P [p_name p; "CLASS"%string] = Some (u8_v (p_class p)) /\ c_const P [p_name p; "ID"%string] = Some (u8_v (p_id p)).
  Proof.
    intros Ht. induction Ht as [|n q names table He Ht IH]; intros Hp; [destruct Hp|]. destruct Hp as [->|Hp].
    - destruct He as (d & <- & Hm & Hr & Hk). destruct (consts_class d p (pm_header _ _ _ _ Hm) (kp_consts _ _ Hk)) as (H1 & H2 & _).
      rewrite (pm_name _ _ (pm_header _ _ _ _ Hm)). split; [now left|auto].
    - destruct (IH Hp) as (H1 & H2). split; [now right|exact H2].
  Qed.

  Lemma class_and_msg_id_eval r table x : Forall2 (table_entry P item_v) (rd_packets r) table -> ~ In "Unknown"%string (rd_packets r) ->
    match x with Known p _ => In p table | Unknown _ _ _ => True end ->
    result P (class_and_msg_id_fn r) [packet_v (rd_name r) (rd_unknown r) x] = Some (Ret (two_v (class_and_msg_id x))).
  Proof.
    intros Ht Hu Hx. rewrite result_ends by reflexivity. cbn [class_and_msg_id_fn fn_params fn_body map fst self_param combine eval_seq].
    cbn [Rust.eval self_e lookup String.eqb Ascii.eqb Bool.eqb obind]. destruct x as [p payload|payload c i].
    - cbn [packet_v]. destruct (table_entry_in _ _ _ Ht Hx) as (H0 & H1 & H2).
      rewrite (arms_const _ (Known p payload) _ _ _ (table_names _ _ Ht) _ (two_v (p_class p, p_id p))); auto.
      intros c i H1' H2'. rewrite H1 in H1'. rewrite H2 in H2'. unfold two_v. cbn [fst snd]. congruence.
    - cbn [packet_v]. rewrite arms_other by exact Hu. cbn [eval_arms matches path_eqb]. rewrite !String.eqb_refl. reflexivity.
  Qed.

  (** ** The capacity which the parser asks for *)

  Lemma max_u16_eval a b : result P max_u16_fn [u16_v a; u16_v b] = Some (Ret (u16_v (max_u16 a b))).
  Proof.
    rewrite result_ends by reflexivity. cbn [max_u16_fn fn_params fn_body map fst combine eval_seq Rust.eval eval_list].
    cbn [lookup String.eqb Ascii.eqb Bool.eqb obind array_v all_u8 as_u8 u16_v bin_v ity_eqb of_opt of_res].
    rewrite z_of_n_ltb. unfold max_u16. destruct (a <? b); reflexivity.
  Qed.

  Lemma const_eval k v : (forall e, eval k e = Done v e) -> const P k = Some v.
  Proof. intros H. unfold const. rewrite H. reflexivity. Qed.

  Lemma max_payload_len_eval r table : Forall2 (table_entry P item_v) (rd_packets r) table ->
    (forall a b, fn_v P [TIdent "max_u16"] [u16_v a; u16_v b] = result P max_u16_fn [u16_v a; u16_v b]) ->
    const P (k_val (max_payload_len_const r)) = Some (u16_v (parser_max_payload_len table)).
  Proof.
    intros Ht Hmax. apply const_eval. intros e. cbn [max_payload_len_const k_val]. unfold parser_max_payload_len.
    assert (Hg : forall c n, (forall e, eval c e = Done (u16_v n) e) ->
      eval (fold_left (fun prev name => ECall [TIdent "max_u16"] [name_const name "MAX_PAYLOAD_LEN"; prev]) (rd_packets r) c) e =
      Done (u16_v (fold_left (fun prev p => max_u16 (max_payload_len p) prev) table n)) e).
    { induction Ht as [|name p names table He Ht IH]; intros c n Hc; [apply Hc|]. cbn [fold_left]. apply IH. intros e'.
      destruct He as (d & <- & Hm & Hr & Hk). destruct (consts_class d p (pm_header _ _ _ _ Hm) (kp_consts _ _ Hk)) as (_ & _ & H3).
      cbn [Rust.eval eval_list name_const]. rewrite H3. cbn [obind]. rewrite Hc. cbn [obind]. rewrite Hmax, max_u16_eval. reflexivity. }
    apply Hg. intros. reflexivity.
  Qed.

  (** ** Enums *)

  Lemma arms_eval name x comma (vs : list enum_val) rest e : knows_variants P name vs ->
    (comma = true \/ rest = []) ->
    eval_arms P eval (VInt (I U8) (Z.of_N x)) (arms comma (branches name vs) ++ rest) e =
    match find (fun v => snd v =? x) vs with
    | Some v => Done (variant_v name v) e
    | None => eval_arms P eval (VInt (I U8) (Z.of_N x)) rest e
    end.
  Proof.
    intros Hk _. induction Hk as [|v vs [Hc _] Hk IH]; [reflexivity|]. cbn [find].
    assert (Harm : forall b rest, eval_arms P eval (VInt (I U8) (Z.of_N x)) (EArm (PNum (snd v) "u8") (EConst [name; fst v]) b :: rest) e =
      if snd v =? x then Done (variant_v name v) e else eval_arms P eval (VInt (I U8) (Z.of_N x)) rest e).
    { intros b rest'. cbn [eval_arms matches]. rewrite z_of_n_eqb, N.eqb_sym. destruct (snd v =? x); [|reflexivity].
      cbn [app Rust.eval]. rewrite Hc. cbn [obind]. rewrite leave_self. reflexivity. }
    change (branches name (v :: vs)) with ((PNum (snd v) "u8", EConst [name; fst v]) :: branches name vs).
    destruct (branches name vs) as [|b bs] eqn:E.
    - destruct vs; [|discriminate E]. cbn [arms app find]. rewrite Harm. destruct (snd v =? x); reflexivity.
    - cbn [arms app]. rewrite Harm. destruct (snd v =? x); [reflexivity|].
      destruct b as [bp be]. exact IH.
  Qed.

  Lemma enum_from_eval name vs x v : knows_variants P name vs -> find (fun v => snd v =? x) vs = Some v ->
    result P (enum_from_fn name vs) [VInt (I U8) (Z.of_N x)] = Some (Ret (variant_v name v)).
  Proof.
    intros Hk Hf. rewrite result_ends by reflexivity. cbn [enum_from_fn fn_params fn_body map fst x_param combine eval_seq Rust.eval].
    cbn [lookup String.eqb Ascii.eqb Bool.eqb obind]. rewrite <- (app_nil_r (arms _ _)), arms_eval by auto. rewrite Hf. reflexivity.
  Qed.
  Lemma enum_from_unchecked_eval name vs x : knows_variants P name vs ->
    result P (enum_from_unchecked_fn name vs) [VInt (I U8) (Z.of_N x)] =
    Some (ret_map (variant_v name) match find (fun v => snd v =? x) vs with Some v => Ret v | None => Panic end).
  Proof.
    intros Hk. rewrite result_ends by reflexivity. cbn [enum_from_unchecked_fn fn_params fn_body map fst x_param combine eval_seq Rust.eval].
    cbn [lookup String.eqb Ascii.eqb Bool.eqb obind]. rewrite arms_eval by auto. match goal with |- context [find ?f vs] => destruct (find f vs) end; reflexivity.
  Qed.
  Lemma enum_is_valid_eval vs x :
    result P (enum_is_valid_fn vs) [VInt (I U8) (Z.of_N x)] = Some (Ret (VBool (existsb (fun v => snd v =? x) vs))).
  Proof.
    rewrite result_ends by reflexivity. cbn [enum_is_valid_fn fn_params fn_body map fst x_param combine eval_seq Rust.eval].
    cbn [lookup String.eqb Ascii.eqb Bool.eqb obind eval_arms matches].
    assert (He : existsb (fun n => (Z.of_N x =? Z.of_N n)%Z) (map snd vs) = existsb (fun v : string * N => snd v =? x) vs).
    { induction vs as [|v vs IH]; [reflexivity|]. cbn [map existsb]. rewrite z_of_n_eqb, N.eqb_sym, IH. reflexivity. }
    rewrite He. destruct (existsb (fun v : string * N => snd v =? x) vs); reflexivity.
  Qed.
  Lemma enum_into_raw_eval name vs v : knows_variants P name vs -> In v vs ->
    result P enum_into_raw_fn [variant_v name v] = Some (Ret (VInt (I U8) (Z.of_N (snd v)))).
  Proof.
    intros Hk Hv. rewrite result_ends by reflexivity. cbn. rewrite (proj2 (proj1 (Forall_forall _ _) Hk v Hv)). reflexivity.
  Qed.

  (** ** Bit flags *)

  Lemma flag_value_eval repr s bit : scalar_of [TIdent repr] = Some s -> scalar_signed s = false -> bit < 8 * scalar_size s ->
    const P (flag_value repr s bit) = Some (VInt (I s) (Z.of_N (N.shiftl 1 bit))).
  Proof.
    intros Hs Hu Hb. apply const_eval. intros e. unfold flag_value.
    assert (Hone : eval (EParen (ECast (ENum 1 "" (I s)) [TIdent repr])) e = Done (VInt (I s) 1) e).
    { cbn [Rust.eval obind cast_v]. rewrite Hs. destruct s; reflexivity. }
    destruct (bit =? 0) eqn:E; cbn [negb].
    - apply N.eqb_eq in E. subst bit. rewrite Hone. reflexivity.
    - change (eval (EParen (EBin Shl ?a ?b)) e) with (obind (eval a e) (fun v e => obind (eval b e) (fun w e => of_opt e (bin_v Shl v w)))).
      rewrite Hone. cbn [obind Rust.eval bin_v]. rewrite Hu.
      replace (Z.of_N bit <? 8 * Z.of_N (scalar_size s))%Z with true by (symmetry; apply Z.ltb_lt; lia).
      cbn [of_opt of_res]. do 2 f_equal. rewrite N.shiftl_1_l, N2Z.inj_pow, Z.shiftl_mul_pow2 by lia.
      rewrite Z.mul_1_l. change (Z.of_N 2) with 2%Z. apply Z.mod_small. split; [apply Z.pow_nonneg; lia|].
      apply Z.pow_lt_mono_r; lia.
  Qed.
  Lemma flags_from_eval repr x v : c_fn P (path_tokens ["Self"; "from_bits_truncate"]%string) [x] = Some (Ret v) ->
    result P (flags_from_fn repr) [x] = Some (Ret v).
  Proof.
    intros H. rewrite result_ends by reflexivity. cbn [flags_from_fn fn_params fn_body map fst combine eval_seq Rust.eval eval_list lookup].
    cbn [String.eqb Ascii.eqb Bool.eqb obind]. unfold fn_v. change (tokens_eqb (path_tokens ["Self"; "from_bits_truncate"]%string) once_path) with false.
    cbv iota. rewrite H. reflexivity.
  Qed.

  (** ** The other functions of a builder *)

  Lemma from_builder_eval name l :
    result P (from_builder_fn (name ++ "Builder")) [builder_v name l] =
    option_map (ret_map snd) (c_method P [TIdent "into_packet_bytes"] (builder_v name l) []).
  Proof.
    rewrite result_ends by reflexivity. cbn [from_builder_fn fn_params fn_body map fst combine eval_seq Rust.eval eval_list lookup].
    cbn [String.eqb Ascii.eqb Bool.eqb obind eval_list]. unfold method_v, builder_v, m_name in *. cbn [std_method String.eqb Ascii.eqb Bool.eqb].
    match goal with |- context [c_method P ?m ?r ?x] => destruct (c_method P m r x) as [[[[? ?] ?]| |]|] end; reflexivity.
  Qed.
  Lemma into_packet_vec_eval name out l : c_fn P (path_tokens ["Vec"; "new"]%string) [] = Some (Ret (VBytes [])) ->
    c_method P [TIdent "extend_to"] (builder_v name l) [VBytes []] =
      Some (ret_map (fun x => (builder_v name l, [VBytes x], unit_v)) out) ->
    result P into_packet_vec_fn [builder_v name l] = Some (ret_map VBytes out).
  Proof.
    intros L Hm. rewrite result_ends by reflexivity. cbn [into_packet_vec_fn fn_params fn_body own_self_param map fst combine eval_seq].
    cbn [Rust.eval eval_list obind]. unfold fn_v. change (tokens_eqb (path_tokens ["Vec"; "new"]%string) once_path) with false.
    cbv iota. rewrite L. cbn [of_opt of_res obind self_e Rust.eval lookup String.eqb Ascii.eqb Bool.eqb].
    unfold method_v, builder_v, m_name in *. cbn [std_method String.eqb Ascii.eqb Bool.eqb]. rewrite Hm. destruct out; reflexivity.
  Qed.
End Rest.
