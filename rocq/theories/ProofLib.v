(** * The generated code in the program of the library *)
From Coq Require Import String Ascii List NArith ZArith Bool Lia SpecFloat.
From Verif Require Import Base BaseFacts Tokens Syntax DualBuffer Parser Checksum PackDesc GenRecv GenSend Dispatch Enums Floats Bits Utf8
  Iterators Macro Meaning Output Rust Code SpecCode SpecLib ProofMacro ProofMeaning ProofOutput ProofEval ProofEvalSend ProofEvalRest.
Import ListNotations.
Open Scope N_scope.
Open Scope list_scope.

Inductive map_case (e : Meaning.env) (f : field_decl) (d : map_desc) : map_code -> Prop :=
| mc_str : md_from d = path_tokens ["mon_ver"; "convert_to_str_unchecked"]%string -> md_is_valid d = path_tokens ["mon_ver"; "is_cstr_valid"]%string ->
    fd_may_fail f = true -> map_case e f d CStr
| mc_inf : md_from d = path_tokens ["inf"; "convert_to_str"]%string -> md_is_valid d = path_tokens ["inf"; "is_valid"]%string ->
    fd_may_fail f = true -> map_case e f d CInf
| mc_calib : md_from d = path_tokens ["EsfMeas"; "calib_tag"]%string -> fd_may_fail f = false -> map_case e f d CCalib
| mc_float ty t sc : float_of ty = Some t -> md_ty d = [TIdent ty] -> md_from d = method [TIdent ty] "from" -> fd_may_fail f = false ->
    match fd_scale f with None => sc = None | Some s => exists x, decimal s = Some x /\ sc = Some x end ->
    map_case e f d (CFloat t sc)
| mc_enum ty x : float_of ty = None -> enum_named e ty = Some x -> md_ty d = [TIdent ty] -> fd_scale f = None ->
    md_from d = method [TIdent ty] (if fd_may_fail f then "from_unchecked" else "from") -> md_is_valid d = method [TIdent ty] "is_valid" ->
    from_fn_ok (ed_from x) (fd_may_fail f) = true ->
    map_case e f d (CEnum (ed_desc x) (fd_may_fail f))
| mc_flags ty x : float_of ty = None -> enum_named e ty = None -> flags_named e ty = Some x -> md_ty d = [TIdent ty] -> fd_scale f = None ->
    md_from d = method [TIdent ty] "from" -> fd_may_fail f = false -> map_case e f d (CFlags (fl_desc x))
| mc_iter ty n c : find (fun p => String.eqb (fst p) ty) iter_types = Some (n, c) -> fd_scale f = None ->
    md_from d = path_tokens [n; "new"]%string -> md_is_valid d = path_tokens [n; "is_valid"]%string -> fd_may_fail f = true -> map_case e f d c
| mc_word ty : float_of ty = None -> enum_named e ty = None -> flags_named e ty = None -> existsb (String.eqb ty) word_types = true ->
    md_ty d = [TIdent ty] -> fd_scale f = None -> fd_may_fail f = false -> md_from d = method [TIdent ty] "from" \/ md_from d = [TIdent ty] ->
    map_case e f d CWord
| mc_type ty c : float_of ty = None -> enum_named e ty = None -> flags_named e ty = None ->
    md_ty d = [TIdent ty] -> fd_scale f = None -> md_from d = method [TIdent ty] (if fd_may_fail f then "from_unchecked" else "from") ->
    match c with
    | CItfm => ty = "CfgItfmConfig"%string
    | CItfm2 => ty = "CfgItfmConfig2"%string
    | CUart => ty = "UartMode"%string
    | CCLike vs => (String.eqb ty "CfgItfmConfig" || String.eqb ty "CfgItfmConfig2" || String.eqb ty "UartMode") = false /\
                   exists n, Meaning.lookup fst ty (en_c_like e) = Some (n, vs)
    | _ => False
    end -> map_case e f d c.

Ltac bools := repeat match goal with
  | H : (_ && _)%bool = true |- _ => apply andb_prop in H; destruct H
  | H : negb _ = true |- _ => apply negb_true_iff in H
  | H : is_path _ _ = true |- _ => apply tokens_eqb_eq in H
  | H : tokens_eqb _ _ = true |- _ => apply tokens_eqb_eq in H
  end.

Definition map_ident (e : Meaning.env) (f : field_decl) (d : map_desc) (ty : string) : option map_code :=
  if (String.eqb ty "f32" || String.eqb ty "f64") then
    let t := if String.eqb ty "f32" then FTy32 else FTy64 in
    if default_fns d false && negb (fd_may_fail f) then
      match fd_scale f with
      | None => Some (CFloat t None)
      | Some s => match decimal s with Some sc => Some (CFloat t (Some sc)) | None => None end
      end
    else None
  else match fd_scale f with
  | Some _ => None
  | None =>
  match enum_named e ty with
  | Some x => if default_fns d (fd_may_fail f) && from_fn_ok (ed_from x) (fd_may_fail f)
              then Some (CEnum (ed_desc x) (fd_may_fail f)) else None
  | None =>
  match flags_named e ty with
  | Some x => if default_fns d false && negb (fd_may_fail f) then Some (CFlags (fl_desc x)) else None
  | None =>
  match find (fun p => String.eqb (fst p) ty) iter_types with
  | Some (n, c) => if custom_fns d [n; "new"]%string [n; "is_valid"]%string && fd_may_fail f then Some c else None
  | None =>
  if existsb (String.eqb ty) word_types && negb (fd_may_fail f) &&
     (default_fns d false || is_path (md_from d) [ty])
  then Some CWord
  else if negb (default_fns d (fd_may_fail f)) then None
  else if String.eqb ty "CfgItfmConfig" then Some CItfm
  else if String.eqb ty "CfgItfmConfig2" then Some CItfm2
  else if String.eqb ty "UartMode" then Some CUart
  else match Meaning.lookup fst ty (en_c_like e) with
       | Some (_, vs) => Some (CCLike vs)
       | None => None
       end
  end end end end.
Lemma map_of_ident e f d ty : md_ty d = [TIdent ty] -> map_of e f d = map_ident e f d ty.
Proof.
  intros E. unfold map_of. rewrite E.
  repeat match goal with |- match ?x with _ => _ end = _ => is_var x; destruct x; try reflexivity end.
Qed.

Lemma default_ident d ty mf : md_ty d = [TIdent ty] -> default_fns d mf = true ->
  md_from d = method [TIdent ty] (if mf then "from_unchecked" else "from") /\ md_is_valid d = method [TIdent ty] "is_valid".
Proof. intros E H. unfold default_fns in H. rewrite E in H. bools. auto. Qed.

Lemma map_ident_case e f d ty c : md_ty d = [TIdent ty] -> map_ident e f d ty = Some c -> map_case e f d c.
Proof.
  intros Ety. unfold map_ident.
  assert (Hf : float_of ty = if String.eqb ty "f32" || String.eqb ty "f64" then Some (if String.eqb ty "f32" then FTy32 else FTy64) else None)
    by (unfold float_of; destruct (String.eqb ty "f32"), (String.eqb ty "f64"); reflexivity).
  destruct (String.eqb ty "f32" || String.eqb ty "f64").
  { destruct (default_fns d false) eqn:Ed; [|discriminate]. destruct (default_ident _ _ _ Ety Ed) as [Hfrom _].
    destruct (fd_may_fail f) eqn:Em; [discriminate|]. cbn [andb negb].
    destruct (fd_scale f) as [s|] eqn:Es.
    - destruct (decimal s) as [sc|] eqn:Esc; [|discriminate]. intros H. injection H as <-.
      eapply mc_float; eauto. rewrite Es. eauto.
    - intros H. injection H as <-. eapply mc_float; eauto. rewrite Es. reflexivity. }
  destruct (fd_scale f) as [s|] eqn:Es; [discriminate|].
  destruct (enum_named e ty) as [x|] eqn:Ee.
  { destruct (default_fns d (fd_may_fail f)) eqn:Ed; [|discriminate]. destruct (default_ident _ _ _ Ety Ed) as [Hfrom Hv].
    destruct (from_fn_ok (ed_from x) (fd_may_fail f)) eqn:Eo; [|discriminate]. intros H. injection H as <-. eapply mc_enum; eauto. }
  destruct (flags_named e ty) as [x|] eqn:Efl.
  { destruct (default_fns d false) eqn:Ed; [|discriminate]. destruct (default_ident _ _ _ Ety Ed) as [Hfrom Hv].
    destruct (fd_may_fail f) eqn:Em; [discriminate|]. intros H. injection H as <-. eapply mc_flags; eauto. }
  destruct (find (fun p => String.eqb (fst p) ty) iter_types) as [[n c0]|] eqn:Ei.
  { destruct (custom_fns d _ _ && fd_may_fail f) eqn:E; [|discriminate]. intros H. injection H as <-. unfold custom_fns in E. bools.
    eapply mc_iter; eauto. }
  destruct (existsb (String.eqb ty) word_types && negb (fd_may_fail f) && (default_fns d false || is_path (md_from d) [ty])) eqn:Ew.
  { intros H. injection H as <-. bools. apply orb_prop in H0. eapply mc_word; eauto. destruct H0 as [H0|H0].
    - left. exact (proj1 (default_ident _ _ _ Ety H0)).
    - right. bools. exact H0. }
  destruct (default_fns d (fd_may_fail f)) eqn:Ed; [|discriminate]. destruct (default_ident _ _ _ Ety Ed) as [Hfrom Hv]. cbn [negb].
  destruct (String.eqb ty "CfgItfmConfig") eqn:E1.
  { intros H. injection H as <-. apply String.eqb_eq in E1. eapply mc_type; eauto. }
  destruct (String.eqb ty "CfgItfmConfig2") eqn:E2.
  { intros H. injection H as <-. apply String.eqb_eq in E2. eapply mc_type; eauto. }
  destruct (String.eqb ty "UartMode") eqn:E3.
  { intros H. injection H as <-. apply String.eqb_eq in E3. eapply mc_type; eauto. }
  destruct (Meaning.lookup fst ty (en_c_like e)) as [[n vs]|] eqn:El; [|discriminate]. intros H. injection H as <-.
  eapply mc_type; eauto. cbn beta iota. rewrite E1, E2, E3. split; [reflexivity|eauto].
Qed.

Lemma map_of_case e f d c : map_of e f d = Some c -> map_case e f d c.
Proof.
  intros H. assert (Hi : forall ty, md_ty d = [TIdent ty] -> map_case e f d c)
    by (intros ty E; rewrite (map_of_ident _ _ _ _ E) in H; exact (map_ident_case _ _ _ _ _ E H)).
  unfold map_of in H. destruct (md_ty d) as [|t [|t' r]] eqn:Ety.
  - discriminate H.
  - destruct t; try discriminate H; [exact (Hi _ eq_refl)|].
    repeat match type of H with match ?x with _ => _ end = _ => is_var x; destruct x; try discriminate H end.
  - clear Hi. repeat match type of H with match ?x with _ => _ end = _ => is_var x; destruct x; try discriminate H end;
      match type of H with (if ?b then _ else _) = _ => destruct b eqn:E; [|discriminate H] end; injection H as <-;
      unfold custom_fns in E; bools.
    all: first [now apply mc_calib | now apply mc_inf | now apply mc_str].
Qed.

(** ** Reading fields *)

Definition raw_ty_eqb (a b : raw_ty) : bool :=
  match a, b with
  | Scalar s, Scalar t => match s, t with
                          | U8, U8 | I8, I8 | U16, U16 | I16, I16 | U32, U32 | I32, I32 | F32, F32 | F64, F64 => true
                          | _, _ => false
                          end
  | Bytes n, Bytes m => n =? m
  | Items, Items => true
  | _, _ => false
  end.
Lemma raw_ty_eqb_eq a b : raw_ty_eqb a b = true -> a = b.
Proof.
  destruct a as [s|n|], b as [t|m|]; cbn; try discriminate; try reflexivity.
  - destruct s, t; try discriminate; reflexivity.
  - intros H. apply N.eqb_eq in H. now subst.
Qed.

Definition no_dup_names (vs : list enum_val) : bool :=
  (fix go l := match l with [] => true | v :: l' => negb (existsb (String.eqb (fst v)) (map fst l')) && go l' end) vs.
Lemma no_dup_names_ok vs : no_dup_names vs = true -> NoDup (map fst vs).
Proof.
  induction vs as [|v vs IH]; intros H; [constructor|]. cbn [no_dup_names] in H. apply andb_prop in H. destruct H as [H1 H2].
  cbn [map]. constructor; [|exact (IH H2)]. apply negb_true_iff in H1. intros Hin.
  assert (existsb (String.eqb (fst v)) (map fst vs) = true); [|congruence].
  apply existsb_exists. exists (fst v). split; [exact Hin|apply String.eqb_refl].
Qed.
Lemma nodup_fst (vs : list enum_val) : NoDup (map fst vs) -> forall x y, In x vs -> In y vs -> fst x = fst y -> x = y.
Proof.
  induction vs as [|v vs IH]; intros Hn x y Hx Hy E; [destruct Hx|]. cbn [map] in Hn. inversion Hn as [|? ? Hnot Hn']; subst.
  destruct Hx as [<-|Hx], Hy as [<-|Hy].
  - reflexivity.
  - destruct Hnot. rewrite E. now apply in_map.
  - destruct Hnot. rewrite <- E. now apply in_map.
  - now apply IH.
Qed.
Lemma variant_named_in vs v : NoDup (map fst vs) -> In v vs -> variant_named vs (fst v) = Some v.
Proof.
  intros Hn Hv. unfold variant_named. destruct (find (fun x => String.eqb (fst x) (fst v)) vs) as [x|] eqn:E.
  - apply find_some in E. destruct E as [Hx E]. apply String.eqb_eq in E. f_equal. exact (nodup_fst _ Hn _ _ Hx Hv E).
  - apply (find_none _ _ E) in Hv. rewrite String.eqb_refl in Hv. discriminate Hv.
Qed.

Lemma append_length (a b : string) : String.length (a ++ b) = (String.length a + String.length b)%nat.
Proof. induction a as [|c a IH]; [reflexivity|]. cbn. now rewrite IH. Qed.
Lemma append_inj (s a b : string) : (a ++ s)%string = (b ++ s)%string -> a = b.
Proof.
  revert b. induction a as [|c a IH]; intros [|c' b] H; try reflexivity.
  - apply (f_equal String.length) in H. cbn in H. rewrite append_length in H. lia.
  - apply (f_equal String.length) in H. cbn in H. rewrite append_length in H. lia.
  - cbn in H. injection H as <- H. f_equal. now apply IH.
Qed.
Lemma find_same {B} (f g : B -> bool) l : (forall x, f x = g x) -> find f l = find g l.
Proof. intros H. induction l as [|x l IH]; [reflexivity|]. cbn. rewrite H, IH. reflexivity. Qed.

Section Fields.
  Context {W E : Type} (w : mem_writer W E) (e : Meaning.env) (decls : list pack_decl)
    (received : list (pack_decl * pack_desc)) (cur : pack_decl).
  Notation value := (value (lib_val W E)).
  Notation P := (lib w e decls received cur).
  Notation item_v := (lib_item_v (W := W) (E := E)).

  (** What is checked of a field which is read *)
  Definition map_reads (f : field_decl) (d : map_desc) (c : map_code) : bool :=
    match c with
    | CFloat _ _ => match fd_raw f with Scalar F32 | Scalar F64 => false | _ => true end
    | CFlags _ => match md_ty d with
                  | [TIdent ty] => match flags_named e ty with Some x => from_fn_ok (fl_from x) false | None => false end
                  | _ => false
                  end
    | CItfm | CItfm2 | CUart => negb (fd_may_fail f)
    | CCLike _ => false
    | _ => true
    end &&
    match c with CFloat _ _ => true | _ => match fd_scale f with None => true | Some _ => false end end.
  Definition field_reads (pack : string) (f : field_decl) (c : field_code) : bool :=
    match field_raw_ty (fd_ty f) with Good t => raw_ty_eqb t (fd_raw f) | _ => false end &&
    (negb (fd_get_as_ref f) || match fd_raw f with Bytes _ => true | _ => false end) &&
    match fd_map f, fc_map c with
    | None, None => true
    | Some d, Some m => map_reads f d m && match md_size d with None => true | Some _ => String.eqb pack "EsfMeas" end
    | _, _ => false
    end.

  Lemma tokens_eqb_refl ts : tokens_eqb ts ts = true.
  Proof. now apply tokens_eqb_eq. Qed.

  Lemma fn_method ty fn v : String.eqb fn "validate" = false -> fn_v P (method [TIdent ty] fn) [v] = type_fn e ty fn v.
  Proof.
    intros Hn. unfold fn_v. change (tokens_eqb (method [TIdent ty] fn) once_path) with false. cbv iota.
    cbn [c_fn lib lib_fn]. unfold lib_fn1, method. cbn [app]. fold (method [TIdent ty] fn).
    change ([TPunct "<"; TIdent ty; TPunct ">"; TPunct ":"; TPunct ":"; TIdent fn]) with (method [TIdent ty] fn).
    rewrite tokens_eqb_refl, Hn. reflexivity.
  Qed.

  Context (enums_ok : Forall (fun x => NoDup (map fst (enum_variants (ed_desc x)))) (en_enums e)).
  Lemma named_ok ty x : enum_named e ty = Some x -> NoDup (map fst (enum_variants (ed_desc x))).
  Proof. intros H. apply find_some in H. exact (proj1 (Forall_forall _ _) enums_ok x (proj1 H)). Qed.

  Definition emb_ok {t : raw_ty} (m : mapping t) (emb : m_ty m -> value) : Prop :=
    forall x y, m_ok m x -> m_ok m y -> emb x = emb y -> x = y.
  Definition map_lib (f : field_decl) (d : map_desc) (t : raw_ty) (m : mapping t) (emb : m_ty m -> value) : Prop :=
    (forall r, fn_v P (md_from d) [raw_v item_v t r] = Some (ret_map emb (m_from m r))) /\
    match fd_scale f, m_scale m with
    | None, None => True
    | Some s, Some g => forall x, c_scale P s (emb x) = Some (Ret (emb (g x)))
    | _, _ => False
    end /\
    match fd_may_fail f, m_valid m with
    | false, None => True
    | true, Some g => forall r, fn_v P (md_is_valid d) [raw_v item_v t r] = Some (ret_map VBool (g r))
    | _, _ => False
    end /\ emb_ok m emb.

  Lemma variant_inj ty (vs : list enum_val) : NoDup (map fst vs) -> forall x y : enum_val, In x vs -> In y vs ->
    (variant_v ty x : value) = variant_v ty y -> x = y.
  Proof. intros Hn x y Hx Hy H. injection H as H. exact (nodup_fst _ Hn _ _ Hx Hy H). Qed.

  Lemma map_lib_ok f d t c m : map_case e f d c -> map_meaning t c = Some m -> fd_raw f = t -> map_reads f d c = true ->
    exists emb, map_lib f d t m emb.
  Proof.
    intros Hc Hm Ht Hr. unfold map_reads in Hr. apply andb_prop in Hr. destruct Hr as [Hr Hs].
    assert (Hsc : match c with CFloat _ _ => True | _ => fd_scale f = None end)
      by (destruct (fd_scale f), c; try discriminate Hs; easy). clear Hs.
    destruct Hc.
    - destruct t as [s|n|]; try discriminate Hm; [destruct s; discriminate Hm|]. destruct n; injection Hm as <-;
        exists (fun x => VAny (LStr x)); unfold map_lib; rewrite H, H0, H1, Hsc; repeat split; intros x y _ _ Hxy; now injection Hxy.
    - destruct t as [s|n|]; try discriminate Hm; [destruct s; discriminate Hm|]. destruct n; [|discriminate Hm]. injection Hm as <-.
      exists (fun x => VAny (LOptStr x)); unfold map_lib; rewrite H, H0, H1, Hsc; repeat split; intros x y _ _ Hxy; now injection Hxy.
    - destruct t as [s|n|]; try discriminate Hm; [destruct s; discriminate Hm|]. destruct n; [|discriminate Hm]. injection Hm as <-.
      exists (fun x => VAny (LOptNum x)); unfold map_lib; rewrite H, H0, Hsc; repeat split; intros x y _ _ Hxy; now injection Hxy.
    - (* floats *)
      destruct t as [s|n|]; [|destruct n; discriminate Hm|discriminate Hm].
      assert (Em : m = float_map t0 s sc) by (destruct s; injection Hm as <-; reflexivity). subst m. clear Hm. rewrite Ht in Hr.
      exists (fun x => VAny (LFloat t0 x)). unfold map_lib. rewrite H1, H2. split; [|split; [|split; [exact Logic.I|]]].
      + intros r. rewrite fn_method by reflexivity. unfold type_fn. rewrite H. destruct s; try discriminate Hr; reflexivity.
      + cbn [m_scale float_map]. destruct (fd_scale f) as [s'|].
        * destruct H3 as ([m x] & Hd & ->). intros y. cbn [c_scale lib lib_scale]. unfold lib_scale. rewrite Hd. reflexivity.
        * subst sc. exact Logic.I.
      + intros x y _ _ Hxy. now injection Hxy.
    - (* enums *)
      destruct t as [s|n|]; [|destruct n; discriminate Hm|discriminate Hm].
      destruct s; try discriminate Hm. injection Hm as <-. clear Hr. pose proof (named_ok _ _ H0) as Hr.
      exists (variant_v ty). unfold map_lib. rewrite H3, H4, H2. split; [|split; [exact Logic.I|split]].
      + intros r. rewrite fn_method by (destruct (fd_may_fail f); reflexivity). unfold type_fn. rewrite H, H0. cbn [raw_v enum_fn].
        destruct (fd_may_fail f); cbn [String.eqb Ascii.eqb Bool.eqb andb orb]; rewrite H5; [|reflexivity].
        rewrite ?orb_true_r. reflexivity.
      + cbn [m_valid enum_map]. destruct (fd_may_fail f); [|exact Logic.I]. intros r. rewrite fn_method by reflexivity.
        unfold type_fn. rewrite H, H0. cbn [raw_v enum_fn String.eqb Ascii.eqb Bool.eqb andb orb]. rewrite H5. reflexivity.
      + exact (variant_inj ty _ Hr).
    - (* flags *)
      destruct t as [s|n|]; [|destruct n; discriminate Hm|discriminate Hm].
      assert (Em : (b_nbits (fl_desc x) =? 8 * scalar_size s) = true /\ m = flags_map s (fl_desc x))
        by (destruct s; cbn [map_meaning] in Hm; match type of Hm with (if ?b then _ else _) = _ => destruct b; [|discriminate Hm] end;
            injection Hm as <-; auto).
      destruct Em as [Hb ->]. clear Hm. rewrite H2, H1 in Hr.
      exists (fun y => VAny (LFlags ty y)). unfold map_lib. rewrite H3, H4, H5. split; [|split; [exact Logic.I|split; [exact Logic.I|]]].
      + intros r. rewrite fn_method by reflexivity. unfold type_fn. rewrite H, H0, H1. cbn [raw_v flags_fn String.eqb Ascii.eqb Bool.eqb].
        rewrite Hr, Hb. reflexivity.
      + intros y z _ _ Hxy. now injection Hxy.
    - (* iterators *)
      apply find_some in H. destruct H as [H _].
      destruct t as [s|m0|]; [| |]; [exfalso| |exfalso].
      1, 3: cbn [In iter_types] in H; repeat (destruct H as [H|H]; [injection H as <- <-; try (destruct s); discriminate Hm|]); destruct H.
      assert (m0 = 0) by (destruct m0; [reflexivity|]; cbn [In iter_types] in H;
        repeat (destruct H as [H|H]; [injection H as <- <-; discriminate Hm|]); destruct H). subst m0.
      cbn [In iter_types] in H. unfold map_lib. rewrite H0, H1, H2, H3.
      repeat (destruct H as [H|H]; [injection H as <- <-; injection Hm as <-;
        first [exists (fun x => VAny (LOffset x)); repeat split; intros x y _ _ Hxy; now injection Hxy
             | exists (fun x => VAny (LChunks x)); repeat split; intros x y _ _ Hxy; now injection Hxy] |]); destruct H.
    - (* words *)
      destruct t as [s|n|]; [|destruct n; discriminate Hm|discriminate Hm].
      assert (Em : m = word_map s) by (destruct s; injection Hm as <-; reflexivity). subst m. clear Hm.
      exists (fun y => VAny (LWord y)). unfold map_lib. rewrite H4, H5. split; [|split; [exact Logic.I|split; [exact Logic.I|]]].
      + intros r. destruct H6 as [-> | ->].
        * rewrite fn_method by reflexivity. unfold type_fn. rewrite H, H0, H1, H2. reflexivity.
        * unfold fn_v. change (tokens_eqb [TIdent ty] once_path) with (String.eqb ty "core" && false)%bool.
          rewrite andb_false_r. cbn [c_fn lib lib_fn lib_fn1].
          assert (Hu : String.eqb ty "ubx_checksum" = false).
          { destruct (String.eqb ty "ubx_checksum") eqn:Eu; [|reflexivity]. apply String.eqb_eq in Eu. subst ty. discriminate H2. }
          rewrite Hu, H2. reflexivity.
      + intros y z _ _ Hxy. now injection Hxy.
    - destruct c; try contradiction; try discriminate Hr; subst ty;
        destruct t as [s|n|]; try (destruct n; discriminate Hm); try discriminate Hm; destruct s; try discriminate Hm; injection Hm as <-;
        apply negb_true_iff in Hr; unfold map_lib; rewrite H4, H3, Hr; cbv iota.
      + exists (fun y => VAny (LItfm y)). split; [|split; [exact Logic.I|split; [exact Logic.I|intros x y _ _ Hxy; now injection Hxy]]].
        intros r. rewrite fn_method by reflexivity. unfold type_fn. rewrite H, H0, H1. reflexivity.
      + exists (fun y => VAny (LItfm2 y)). split; [|split; [exact Logic.I|split; [exact Logic.I|intros x y _ _ Hxy; now injection Hxy]]].
        intros r. rewrite fn_method by reflexivity. unfold type_fn. rewrite H, H0, H1. reflexivity.
      + exists (fun y => VAny (LUart y)). split; [|split; [exact Logic.I|split; [exact Logic.I|intros x y _ _ Hxy; now injection Hxy]]].
        intros r. rewrite fn_method by reflexivity. unfold type_fn. rewrite H, H0, H1. cbn. reflexivity.
  Qed.

  Lemma raw_v_inj t x y : raw_v item_v t x = raw_v item_v t y -> x = y.
  Proof.
    destruct t as [s|n|]; cbn [raw_v]; intros H; [now injection H | now injection H |]. injection H as H.
    revert y H. induction x as [|a x IH]; intros [|b y] H; try discriminate H; [reflexivity|]. cbn [map] in H.
    injection H as Ha H. subst. f_equal. exact (IH _ H).
  Qed.

  Lemma size_lib s c payload : size_of s = Some c ->
    method_v P s (ref_v "EsfMeas" payload) [] = Some (ret_map (fun n => (ref_v "EsfMeas" payload, [], usize_v n)) (size_meaning c payload)).
  Proof.
    unfold size_of. intros H.
    destruct (is_path s ["data_len"%string]) eqn:E1; [bools|destruct (is_path s ["calib_tag_len"%string]) eqn:E2; [bools|discriminate H]];
      subst s; injection H as <-; reflexivity.
  Qed.

  Lemma field_lib pack df c f : field_of e df = Some c -> field_meaning c = Some f -> field_reads pack df c = true ->
    exists emb, field_means P item_v pack df f emb /\ faithful f emb.
  Proof.
    intros Hf Hm Hr. destruct df as [name ty t map scale alias may_fail as_ref comment].
    unfold field_reads in Hr. cbn [fd_ty fd_raw fd_get_as_ref fd_map] in Hr. bools.
    rename H into Hty, H1 into Href, H0 into Hmap.
    assert (Ht : field_raw_ty ty = Good t) by (destruct (field_raw_ty ty); try discriminate Hty; apply raw_ty_eqb_eq in Hty; now subst).
    assert (Ha : as_ref = true -> exists n, t = Bytes n) by (intros ->; destruct t; try discriminate Href; eauto).
    unfold field_of, fd_size_fn in Hf. cbn [fd_map fd_scale fd_name fd_alias fd_raw fd_get_as_ref] in Hf. unfold field_meaning in Hm.
    destruct map as [d|].
    - destruct (map_of e _ d) as [mc|] eqn:Emap; [|destruct (md_size d) as [s|]; [destruct (size_of s)|]; discriminate Hf].
      assert (Hsz : exists sz, match md_size d with None => sz = None | Some s => exists x, size_of s = Some x /\ sz = Some x end /\
                               c = mk_fc name alias t (Some mc) as_ref sz).
      { destruct (md_size d) as [s|]; [destruct (size_of s) as [x|]; [|discriminate Hf]|]; injection Hf as <-; eauto. }
      destruct Hsz as (sz & Hsz & ->). clear Hf. cbn [fc_map fc_ty fc_name fc_alias fc_as_ref fc_size] in *. bools.
      rename H into Hreads, H0 into Hpack. destruct (map_meaning t mc) as [m|] eqn:Emm; [|discriminate Hm]. injection Hm as <-.
      destruct (map_lib_ok _ _ _ _ _ (map_of_case _ _ _ _ Emap) Emm eq_refl Hreads) as (emb & H1 & H2 & H3 & H4).
      exists emb. split; [|exact H4]. apply map_means; try assumption.
      destruct (md_size d) as [s|].
      + destruct Hsz as (x & Hx & ->). cbn [option_map]. apply String.eqb_eq in Hpack. subst pack. intros payload. now apply size_lib.
      + subst sz. exact Logic.I.
    - destruct scale; [discriminate Hf|]. injection Hf as <-. cbn [fc_map fc_ty fc_name fc_alias fc_as_ref fc_size option_map] in *.
      injection Hm as <-. exists (raw_v item_v t). split; [now apply raw_means|]. intros x y _ _. apply raw_v_inj.
  Qed.

  (** ** Writing fields *)

  Definition map_writes (f : field_decl) (d : map_desc) (c : map_code) : bool :=
    match md_ty d with
    | [TIdent ty] =>
        let own := tokens_eqb (md_into d) (method [TIdent ty] "into_raw") in
        match c with
        | CFloat _ (Some _) =>
            match fd_scale f with
            | Some s => existsb (fun p => raw_ty_eqb (fd_raw f) (Scalar (snd p)) && tokens_eqb (md_into d) (scale_back_tokens ty s (fst p))) as_names
            | None => false
            end
        | CEnum x _ => own && match enum_named e ty with Some x => ed_into_raw x | None => false end
        | CFlags _ => own && match flags_named e ty with
                             | Some x => fl_into_raw x && raw_ty_eqb (fd_raw f) (Scalar (unsigned_of (b_nbits (fl_desc x))))
                             | None => false
                             end
        | CItfm | CItfm2 | CUart => own
        | CCLike vs => own && no_dup_names vs && negb (existsb (String.eqb ty) word_types) &&
                       match Meaning.lookup fst ty c_like_types with Some (_, s) => raw_ty_eqb (fd_raw f) (Scalar s) | None => false end
        | _ => false
        end
    | _ => false
    end.
  Definition field_writes (f : field_decl) (c : field_code) : bool :=
    match field_raw_ty (fd_ty f) with Good t => raw_ty_eqb t (fd_raw f) | _ => false end &&
    match fd_map f, fc_map c with
    | None, None => match fd_raw f with Bytes 0 => false | _ => true end
    | Some d, Some m => match fd_raw f with Scalar _ => map_writes f d m | _ => false end
    | _, _ => false
    end.

  Definition into_lib (d : map_desc) (s : scalar) (m : mapping (Scalar s)) (emb : m_ty m -> value) : Prop :=
    (forall x, m_ok m x -> fn_v P (md_into d) [emb x] = Some (ret_map (raw_v item_v (Scalar s)) (m_into m x))) /\ emb_ok m emb.

  Lemma as_named s as_x : In (as_x, s) as_names -> Meaning.lookup fst as_x as_names = Some (as_x, s).
  Proof. cbn [In as_names]. intros H. repeat (destruct H as [H|H]; [injection H as <- <-; reflexivity|]). destruct H. Qed.

  Lemma into_lib_ok f d s c m : map_case e f d c -> map_meaning (Scalar s) c = Some m -> fd_raw f = Scalar s -> map_writes f d c = true ->
    exists emb, into_lib d s m emb.
  Proof.
    intros Hc Hm Ht Hr. unfold map_writes in Hr. rewrite Ht in Hr. destruct (md_ty d) as [|t1 [|]] eqn:Ety; try discriminate Hr.
    2: destruct t1; discriminate Hr.
    destruct t1 as [ty0| | | | | |]; try discriminate Hr. destruct Hc; try discriminate Hr.
    - (* floats *)
      assert (ty = ty0) by congruence. subst ty0.
      destruct sc as [sc|]; [|discriminate Hr]. destruct (fd_scale f) as [text|]; [|discriminate Hr]. destruct H3 as ([mm x] & Hd & Esc). injection Esc as ->.
      assert (Em : m = float_map t s (Some (mm, x))) by (destruct s; injection Hm as <-; reflexivity). subst m. clear Hm.
      apply existsb_exists in Hr. destruct Hr as ([as_x s'] & Hin & Hr). cbn [fst snd] in Hr. apply andb_prop in Hr. destruct Hr as [Hs Hi].
      apply raw_ty_eqb_eq in Hs. injection Hs as <-. apply tokens_eqb_eq in Hi.
      exists (fun y => VAny (LFloat t y)). unfold into_lib. rewrite Hi. split; [|intros a b _ _ Hab; now injection Hab].
      intros y _. unfold fn_v. change (tokens_eqb (scale_back_tokens ty text as_x) once_path) with false. cbv iota.
      cbn [c_fn lib lib_fn]. unfold lib_fn1. unfold scale_back_tokens at 1. cbn [app]. 
      match goal with |- (if tokens_eqb ?a ?b then _ else _) = _ => change a with b end. rewrite tokens_eqb_refl.
      unfold scale_back_fn. rewrite H, Hd, (as_named _ _ Hin). destruct t; reflexivity.
    - (* enums *)
      assert (ty = ty0) by congruence. subst ty0. rewrite H0 in Hr. apply andb_prop in Hr. destruct Hr as [Hi H6].
      apply tokens_eqb_eq in Hi. pose proof (named_ok _ _ H0) as H7. destruct s; try discriminate Hm. injection Hm as <-.
      exists (variant_v ty). unfold into_lib. rewrite Hi. split; [|exact (variant_inj ty _ H7)].
      intros y Hy. rewrite fn_method by reflexivity. unfold type_fn. rewrite H, H0. unfold variant_v, enum_fn.
      rewrite H6, (String.eqb_refl ty). cbn [String.eqb Ascii.eqb Bool.eqb andb]. rewrite (variant_named_in _ _ H7 Hy). reflexivity.
    - (* flags *)
      assert (ty = ty0) by congruence. subst ty0. rewrite H1 in Hr. apply andb_prop in Hr. destruct Hr as [Hi Hr]. apply andb_prop in Hr. destruct Hr as [H6 H7].
      apply tokens_eqb_eq in Hi. apply raw_ty_eqb_eq in H7. injection H7 as Es.
      assert (Em : m = flags_map s (fl_desc x)).
      { destruct s; cbn [map_meaning] in Hm; match type of Hm with (if ?b then _ else _) = _ => destruct b; [|discriminate Hm] end;
          injection Hm as <-; reflexivity. }
      subst m. clear Hm. exists (fun y => VAny (LFlags ty y)). unfold into_lib. rewrite Hi. split; [|intros a b _ _ Hab; now injection Hab].
      intros y Hy. rewrite fn_method by reflexivity. unfold type_fn. rewrite H, H0, H1. unfold flags_fn.
      rewrite H6, (String.eqb_refl ty). cbn [String.eqb Ascii.eqb Bool.eqb andb]. rewrite <- Es. reflexivity.
    - (* iterators *)
      exfalso. apply find_some in H. destruct H as [H _]. cbn [In iter_types] in H.
      repeat (destruct H as [H|H]; [injection H as <- <-; discriminate Hr|]). destruct H.
    - (* the rest *)
      assert (ty = ty0) by congruence. subst ty0. destruct c; try contradiction.
      1-3: subst ty; bools; destruct s; try discriminate Hm; injection Hm as <-.
      + exists (fun y => VAny (LItfm y)). unfold into_lib. rewrite Hr. split; [|intros a b _ _ Hab; now injection Hab].
        intros y _. rewrite fn_method by reflexivity. unfold type_fn. rewrite H, H0, H1. reflexivity.
      + exists (fun y => VAny (LItfm2 y)). unfold into_lib. rewrite Hr. split; [|intros a b _ _ Hab; now injection Hab].
        intros y _. rewrite fn_method by reflexivity. unfold type_fn. rewrite H, H0, H1. reflexivity.
      + exists (fun y => VAny (LUart y)). unfold into_lib. rewrite Hr. split; [|intros a b _ _ Hab; now injection Hab].
        intros y _. rewrite fn_method by reflexivity. unfold type_fn. rewrite H, H0, H1. reflexivity.
      + destruct H5 as (Hn & n & Hl). apply andb_prop in Hr. destruct Hr as [Hr H5]. apply andb_prop in Hr. destruct Hr as [Hr H6].
        apply andb_prop in Hr. destruct Hr as [Hi H7]. apply tokens_eqb_eq in Hi. apply negb_true_iff in H6. apply no_dup_names_ok in H7. destruct (Meaning.lookup fst ty c_like_types) as [[k s']|] eqn:Ec; [|discriminate H5].
        apply raw_ty_eqb_eq in H5. injection H5 as <-.
        assert (Em : m = c_like_map s vs) by (destruct s; injection Hm as <-; reflexivity). subst m. clear Hm.
        exists (variant_v ty). unfold into_lib. rewrite Hi. split; [|exact (variant_inj ty _ H7)].
        intros y Hy. rewrite fn_method by reflexivity. unfold type_fn. rewrite H, H0, H1, H6.
        apply orb_false_iff in Hn. destruct Hn as [Hn Hn3]. apply orb_false_iff in Hn. destruct Hn as [Hn1 Hn2].
        rewrite Hn1, Hn2, Hn3, Hl, Ec. unfold variant_v. rewrite (String.eqb_refl ty). cbn [String.eqb Ascii.eqb Bool.eqb andb].
        rewrite (variant_named_in _ _ H7 Hy). reflexivity.
  Qed.

  Lemma field_lib_sends df c f : field_of e df = Some c -> field_meaning c = Some f -> field_writes df c = true ->
    exists emb, field_sends P item_v df f emb /\ faithful f emb.
  Proof.
    intros Hf Hm Hr. destruct df as [name ty t map scale alias may_fail as_ref comment].
    unfold field_writes in Hr. cbn [fd_ty fd_raw fd_get_as_ref fd_map] in Hr. apply andb_prop in Hr. destruct Hr as [Hty Hmap].
    assert (Ht : field_raw_ty ty = Good t) by (destruct (field_raw_ty ty); try discriminate Hty; apply raw_ty_eqb_eq in Hty; now subst).
    unfold field_of, fd_size_fn in Hf. cbn [fd_map fd_scale fd_name fd_alias fd_raw fd_get_as_ref] in Hf. unfold field_meaning in Hm.
    destruct map as [d|].
    - destruct (map_of e _ d) as [mc|] eqn:Emap; [|destruct (md_size d) as [s|]; [destruct (size_of s)|]; discriminate Hf].
      assert (Hsz : exists sz, c = mk_fc name alias t (Some mc) as_ref sz).
      { destruct (md_size d) as [s|]; [destruct (size_of s) as [x|]; [|discriminate Hf]|]; injection Hf as <-; eauto. }
      destruct Hsz as (sz & ->). clear Hf. cbn [fc_map fc_ty fc_name fc_alias fc_as_ref fc_size] in *.
      destruct (map_meaning t mc) as [m|] eqn:Emm; [|discriminate Hm]. injection Hm as <-. destruct t as [s|n|]; try discriminate Hmap.
      destruct (into_lib_ok _ _ _ _ _ (map_of_case _ _ _ _ Emap) Emm eq_refl Hmap) as (emb & H1 & H2).
      exists emb. split; [|exact H2]. now apply map_sends.
    - destruct scale; [discriminate Hf|]. injection Hf as <-. cbn [fc_map fc_ty fc_name fc_alias fc_as_ref fc_size option_map] in *.
      injection Hm as <-. exists (raw_v item_v t). split; [|intros x y _ _; apply raw_v_inj].
      apply raw_sends; [exact Ht|]. destruct t as [s|n|]; [discriminate| |reflexivity]. destruct n; [discriminate Hmap|discriminate].
  Qed.

  (** ** Packets *)

  Fixpoint forall2b {B C} (f : B -> C -> bool) (l : list B) (m : list C) : bool :=
    match l, m with
    | [], [] => true
    | b :: l', c :: m' => f b c && forall2b f l' m'
    | _, _ => false
    end.
  Lemma forall2b_ok {B C} (f : B -> C -> bool) l m : forall2b f l m = true -> Forall2 (fun b c => f b c = true) l m.
  Proof.
    revert m. induction l as [|b l IH]; intros [|c m] H; try discriminate H; [constructor|]. cbn [forall2b] in H.
    apply andb_prop in H. destruct H as [H1 H2]. constructor; [exact H1|exact (IH _ H2)].
  Qed.

  Definition header_ok (d : pack_decl) : bool := (h_class (pd_header d) <? 256) && (h_id (pd_header d) <? 256).
  Definition packet_reads (d : pack_decl) (c : Meaning.pack_code) : bool :=
    header_ok d && forall2b (field_reads (pd_name d)) (pd_fields d) (pc_fields c).
  Definition packet_writes (d : pack_decl) (c : Meaning.pack_code) : bool :=
    header_ok d && forall2b field_writes (pd_fields d) (pc_fields c).

  Lemma header_lib d c p : Meaning.packet_of e d = Some c -> packet_meaning c = Some p -> header_ok d = true -> header_means d p.
  Proof.
    intros H1 H2 H3. destruct (packet_fields_same _ _ _ _ H1 H2) as (_ & Hn & Hc & Hi & Hl).
    apply andb_prop in H3. destruct H3 as [H3 H4]. apply N.ltb_lt in H3, H4.
    constructor; [exact Hn | rewrite Hc, b2n_n2b; now apply N.mod_small | rewrite Hi, b2n_n2b; now apply N.mod_small | exact Hl].
  Qed.
  Lemma packet_of_fields d c p : Meaning.packet_of e d = Some c -> packet_meaning c = Some p ->
    Forall2 (fun df k => field_of e df = Some k) (pd_fields d) (pc_fields c) /\
    Forall2 (fun k f => field_meaning k = Some f) (pc_fields c) (p_fields p).
  Proof.
    unfold Meaning.packet_of, packet_meaning. intros H1 H2. destruct (all_some (field_of e) (pd_fields d)) as [cs|] eqn:E1; [|discriminate].
    injection H1 as <-. cbn in H2. destruct (all_some field_meaning cs) as [fs|] eqn:E2; [|discriminate]. injection H2 as <-. cbn.
    split; now apply all_some_forall.
  Qed.

  Lemma packet_lib d c p : Meaning.packet_of e d = Some c -> packet_meaning c = Some p -> packet_reads d c = true ->
    header_means d p /\
    Forall2 (fun df f => exists emb, field_means P item_v (pd_name d) df f emb /\ faithful f emb) (pd_fields d) (p_fields p).
  Proof.
    intros H1 H2 H3. apply andb_prop in H3. destruct H3 as [H3 H4]. split; [exact (header_lib _ _ _ H1 H2 H3)|].
    destruct (packet_of_fields _ _ _ H1 H2) as [F1 F2]. apply forall2b_ok in H4.
    generalize dependent (p_fields p). generalize dependent (pc_fields c). clear - enums_ok. generalize (pd_fields d) as ds.
    induction ds as [|df ds IH]; intros cs F1 H4 fs F2; inversion F1; subst; inversion F2; subst; constructor.
    - inversion H4; subst. eapply field_lib; eauto.
    - inversion H4; subst. eapply IH; eauto.
  Qed.

  Lemma packet_lib_sends d c p : Meaning.packet_of e d = Some c -> packet_meaning c = Some p -> packet_writes d c = true ->
    header_means d p /\
    Forall2 (fun df f => exists emb, field_sends P item_v df f emb /\ faithful f emb) (pd_fields d) (p_fields p).
  Proof.
    intros H1 H2 H3. apply andb_prop in H3. destruct H3 as [H3 H4]. split; [exact (header_lib _ _ _ H1 H2 H3)|].
    destruct (packet_of_fields _ _ _ H1 H2) as [F1 F2]. apply forall2b_ok in H4.
    generalize dependent (p_fields p). generalize dependent (pc_fields c). clear - enums_ok. generalize (pd_fields d) as ds.
    induction ds as [|df ds IH]; intros cs F1 H4 fs F2; inversion F1; subst; inversion F2; subst; constructor.
    - inversion H4; subst. eapply field_lib_sends; eauto.
    - inversion H4; subst. eapply IH; eauto.
  Qed.

  (** The builder in [P], a function of the builder of the model *)
  Lemma builder_lib ds fs : Forall2 (fun df f => exists emb, field_sends P item_v df f emb /\ faithful f emb) ds fs ->
    exists bv, (forall b, builder_ok fs b -> builder_means P item_v ds fs b (bv b)) /\
               (forall b c, builder_ok fs b -> builder_ok fs c -> bv b = bv c -> b = c).
  Proof.
    induction 1 as [|df f ds fs (emb & Hs & Hi) _ (bv & H1 & H2)].
    - exists (fun _ => []). split; [intros [] _; constructor|intros [] [] _ _ _; reflexivity].
    - exists (fun b => (accessor f, emb (fst b)) :: bv (snd b)). split.
      + intros [v b] [Hv Hb]. cbn [fst snd] in *. constructor; auto.
      + intros [v b] [v' b'] [Hv Hb] [Hv' Hb'] Heq. cbn [fst snd] in *. injection Heq as Ha Hr. f_equal; auto.
  Qed.

  (** ** The library *)

  Lemma lib_library : library P item_v.
  Proof.
    constructor; try reflexivity.
    - intros [a b] l. cbn [c_method lib]. unfold lib_method, checksum_v, u8_v. cbn [fst snd String.eqb Ascii.eqb Bool.eqb andb].
      rewrite !N2Z.id, !n2b_b2n. reflexivity.
    - intros [a b]. cbn [c_method lib]. unfold lib_method, checksum_v, u8_v. cbn [fst snd String.eqb Ascii.eqb Bool.eqb andb].
      rewrite !N2Z.id, !n2b_b2n. reflexivity.
  Qed.
  Lemma lib_writer : writer_means P w (fun x => VAny (LWriter x)) error_value.
  Proof.
    constructor; intros; unfold method_v; cbn [std_method c_method lib lib_method].
    - unfold usize_v. rewrite N2Z.id. destruct (w_reserve w n x). reflexivity.
    - destruct (w_write w l x). reflexivity.
  Qed.
  Lemma lib_max_u16 a b : fn_v P [TIdent "max_u16"] [u16_v a; u16_v b] = Some (Ret (u16_v (max_u16 a b))).
  Proof. unfold fn_v, u16_v. cbn. rewrite !N2Z.id. reflexivity. Qed.

  Lemma find_named {B} (name : B -> string) (l : list B) d : NoDup (map name l) -> In d l -> find (fun x => String.eqb (name x) (name d)) l = Some d.
  Proof.
    induction l as [|x l IH]; intros Hn Hd; [destruct Hd|]. cbn [map find] in *. inversion Hn as [|? ? Hnot Hn']; subst.
    destruct Hd as [->|Hd]; [now rewrite String.eqb_refl|]. destruct (String.eqb (name x) (name d)) eqn:Ex; [|now apply IH].
    apply String.eqb_eq in Ex. destruct Hnot. rewrite Ex. now apply in_map.
  Qed.

  Lemma lib_consts d : NoDup (map pd_name decls) -> In d decls -> pd_name d <> "Self"%string -> knows_consts P d.
  Proof.
    intros Hn Hd Hs. unfold knows_consts. apply Forall_forall. intros k Hk. cbn [c_const lib]. unfold lib_const.
    destruct (String.eqb (pd_name d) "Self") eqn:Es; [apply String.eqb_eq in Es; contradiction|].
    unfold decl_named. rewrite (find_named pd_name decls d Hn Hd).
    destruct Hk as [<-|[<-|[<-|[<-|[]]]]]; cbn; destruct (h_len (pd_header d)); reflexivity.
  Qed.

  Lemma lib_validate d p payload : NoDup (map (fun x => pd_name (fst x)) received) -> In (d, p) received ->
    packet_means P item_v d p -> receivable d ->
    fn_v P (validate_path (pd_name d)) [VBytes payload] = result P (validate_fn d) [VBytes payload].
  Proof.
    intros Hn Hd Hm Hr. rewrite (packet_validate P item_v d p) by assumption.
    unfold fn_v. change (tokens_eqb (validate_path (pd_name d)) once_path) with false. cbv iota.
    cbn [c_fn lib lib_fn]. unfold lib_fn1, validate_path. cbn [app p1 p2].
    match goal with |- (if tokens_eqb ?a ?b then _ else _) = _ => change a with b end. rewrite tokens_eqb_refl.
    cbn [String.eqb Ascii.eqb Bool.eqb]. unfold validate_of.
    assert (Hfind : find (fun x => String.eqb (ref_name (pd_name (fst x))) (ref_name (pd_name d))) received = Some (d, p)).
    { rewrite <- (find_named (fun x => pd_name (fst x)) received (d, p) Hn Hd). cbn [fst]. apply find_same. intros x.
      unfold ref_name. destruct (String.eqb (pd_name (fst x)) (pd_name d)) eqn:Ex.
      - apply String.eqb_eq in Ex. rewrite Ex. apply String.eqb_refl.
      - destruct (String.eqb (pd_name (fst x) ++ "Ref") (pd_name d ++ "Ref")) eqn:Ey; [|reflexivity]. exfalso.
        apply String.eqb_eq, append_inj in Ey. rewrite Ey, String.eqb_refl in Ex. discriminate Ex. }
    rewrite Hfind. reflexivity.
  Qed.

  Lemma lib_variants ty x : enum_named e ty = Some x -> ty <> "Self"%string -> decl_named decls ty = None ->
    knows_variants P ty (enum_variants (ed_desc x)).
  Proof.
    intros Hx Hs Hd. apply Forall_forall. intros v Hv. cbn [c_const c_discr lib]. unfold lib_const, lib_discr.
    destruct (String.eqb ty "Self") eqn:Es; [apply String.eqb_eq in Es; contradiction|].
    rewrite Hd, Hx, (variant_named_in _ _ (named_ok _ _ Hx) Hv). split; reflexivity.
  Qed.
End Fields.
