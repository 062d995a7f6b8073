(** * The meaning of the generated code of [Debug] and [Serialize] *)
From Coq Require Import String Ascii List NArith ZArith Bool Lia.
From Verif Require Import Base BaseFacts Tokens Syntax DualBuffer Parser PackDesc GenRecv GenSend Dispatch Enums Serialize Macro Output
  Rust Code SpecCode SpecLib SpecShow ProofMacro ProofOutput ProofEval ProofEvalSend ProofEvalRest.
Import ListNotations.
Open Scope N_scope.
Open Scope list_scope.

Section Eval.
  Context {A : Type} (P : program A).
  Notation value := (value A).
  Notation eval := (eval P).

  (** A getter of [self] *)
  Lemma get_self_eval name df s payload e :
    getter_means P name df s -> lookup "self" e = Some (ref_v name payload) ->
    eval (get_self df) e = of_res e (ret_map (projT2 s) (g_val (projT1 s) payload)).
  Proof.
    intros [_ H] Hs. unfold get_self, self_e, m_name. cbn [Rust.eval eval_list]. rewrite Hs. cbn [obind]. rewrite H.
    destruct (g_val (projT1 s) payload); cbn [ret_map bind of_res]; [|reflexivity..].
    cbn [write_all_back write_back]. rewrite assign_same by exact Hs. reflexivity.
  Qed.

  (** ** [Debug] *)

  Section Debug.
    Context {B R : Type} (F : formatter value B R) (f_v : value) (b_v : B -> value) (r_v : R -> value).
    Context (Hf : formatter_means P F f_v b_v r_v).
    Notation start := (fo_start F). Notation field := (fo_field F). Notation finish := (fo_finish F).

    Definition field_call (c : code) (f : field_decl) : code := EMethod c (m_name "field") [EStringify (fd_name f); ERef (get_self f)].
    Lemma fields_stop ds e : forall c,
      (eval c e = Panics -> eval (fold_left field_call ds c) e = Panics) /\
      (eval c e = Diverges -> eval (fold_left field_call ds c) e = Diverges).
    Proof.
      induction ds as [|df ds IH]; intros c; [split; auto|]. cbn [fold_left].
      split; intros Hc; apply IH; unfold field_call; cbn [Rust.eval]; rewrite Hc; reflexivity.
    Qed.
    Lemma fields_eval name payload : forall ds l, Forall2 (getter_means P name) ds l ->
      forall c e e' b, eval c e = Done (b_v b) e' -> (forall x e, write_back (A := A) c x e = e) -> lookup "self" e' = Some (ref_v name payload) ->
      eval (fold_left field_call ds c) e = of_res e' (ret_map b_v (show_fields field l payload b)).
    Proof.
      induction 1 as [|df s ds l Hm H IH]; intros c e e' b Hc Hw Hs; [exact Hc|]. cbn [fold_left show_fields].
      pose proof (get_self_eval name df s payload e' Hm Hs) as Hg. destruct Hm as [Hn _]. destruct s as [g emb].
      cbn [projT1 projT2] in *.
      assert (Hcall : eval (field_call c df) e =
                match g_val g payload with
                | Ret v => Done (b_v (field b (f_name (g_field g)) (emb v))) e'
                | Panic => Panics | Diverge => Diverges
                end).
      { unfold field_call, m_name. cbn [Rust.eval eval_list]. rewrite Hc. cbn [obind]. rewrite Hg.
        destruct (g_val g payload) as [v| |]; cbn [ret_map bind of_res obind]; [|reflexivity..].
        rewrite Hn. destruct (fm_field _ _ _ _ _ Hf b (f_name (g_field g)) (emb v)) as (x & Hx). rewrite Hx.
        cbn [write_all_back write_back]. rewrite Hw. reflexivity. }
      destruct (g_val g payload) as [v| |]; cbn [bind].
      - apply (IH _ _ _ _ Hcall); [reflexivity|exact Hs].
      - exact (proj1 (fields_stop ds e _) Hcall).
      - exact (proj2 (fields_stop ds e _) Hcall).
    Qed.
    Lemma fmt_eval d l payload : Forall2 (getter_means P (pd_name d)) (pd_fields d) l ->
      result P (fmt_fn d) [ref_v (pd_name d) payload; f_v] =
      Some (ret_map (fun b => r_v (finish b)) (show_fields field l payload (start (pd_name d)))).
    Proof.
      intros Hl. rewrite result_ends by reflexivity. cbn [fmt_fn fn_params fn_body self_param map fst combine eval_seq].
      set (e := [("self"%string, _); ("f"%string, f_v)]).
      destruct (fm_start _ _ _ _ _ Hf (pd_name d)) as (x & Hx).
      pose proof (fields_eval (pd_name d) payload _ _ Hl (EMethod (EVar "f") (m_name "debug_struct") [EStr (pd_name d)]) e
                    (assign "f" x e) (start (pd_name d))) as H.
      assert (H0 : eval (EMethod (EVar "f") (m_name "debug_struct") [EStr (pd_name d)]) e = Done (b_v (start (pd_name d))) (assign "f" x e)).
      { unfold m_name, e. cbn [Rust.eval eval_list lookup String.eqb Ascii.eqb Bool.eqb obind]. rewrite Hx. reflexivity. }
      specialize (H H0 ltac:(reflexivity) ltac:(reflexivity)).
      cbn [Rust.eval]. change (fun a f => EMethod a (m_name "field") [EStringify (fd_name f); ERef (get_self f)]) with field_call.
      rewrite H. destruct (show_fields field l payload (start (pd_name d))) as [b| |]; cbn [ret_map bind of_res obind ends_as]; [|reflexivity..].
      cbn [eval_list obind]. destruct (fm_finish _ _ _ _ _ Hf b) as (y & Hy). unfold m_name. rewrite Hy. reflexivity.
    Qed.
  End Debug.

  (** ** [Serialize] *)

  Section Serialize.
    Context {St Er Ok : Type} (T : map_writer value St Er Ok) (ser_v : value) (st_v : St -> value) (er_v : Er -> value) (ok_v' : Ok -> value).
    Context (HT : serializer_means P T ser_v st_v er_v ok_v').

    Lemma stmt_value_eval name df s payload e :
      getter_means P name df s -> lookup "self" e = Some (ref_v name payload) ->
      eval (if match size_bytes (fd_raw df) with Some _ => true | None => false end || fd_is_optional df
            then get_self df else ECtor ["crate"; "ubx_packets"; "FieldIter"]%string [get_self df]) e =
      of_res e (ret_map (projT2 (decl_entry df s)) (g_val (projT1 (decl_entry df s)) payload)).
    Proof.
      intros Hm Hs. pose proof (get_self_eval name df s payload e Hm Hs) as Hg. unfold decl_entry, entry_of.
      destruct (match size_bytes (fd_raw df) with Some _ => true | None => false end || fd_is_optional df); [exact Hg|].
      cbn [Rust.eval eval_list show projT1 projT2]. rewrite Hg. destruct (g_val (projT1 s) payload); reflexivity.
    Qed.

    (** One entry *)
    Lemma entry_eval k c e s v :
      eval c e = Done v e -> lookup "state" e = Some (st_v s) -> (forall x e, write_back (A := A) (ERef c) x e = e) ->
      forall ek, eval ek e = Done (VStr k) e -> (forall x e, write_back (A := A) ek x e = e) ->
      match mw_entry T s k v with
      | inr s' => eval (SExpr (ETry (EMethod (EVar "state") (m_name "serialize_entry") [ek; ERef c]))) e = Done unit_v (assign "state" (st_v s') e)
      | inl er => exists x, eval (SExpr (ETry (EMethod (EVar "state") (m_name "serialize_entry") [ek; ERef c]))) e = Return (err_v (er_v er)) (assign "state" x e)
      end.
    Proof.
      intros Hc Hs Hw ek Hk Hwk. pose proof (sm_entry _ _ _ _ _ _ HT s k v) as H. unfold m_name. cbn [Rust.eval eval_list].
      rewrite Hs. cbn [obind]. rewrite Hk. cbn [obind]. rewrite Hc. cbn [obind].
      destruct (mw_entry T s k v) as [er|s'].
      - destruct H as (x & Hx). exists x. rewrite Hx. cbn [write_all_back write_back]. rewrite Hwk. reflexivity.
      - rewrite H. cbn [write_all_back write_back]. rewrite Hwk. reflexivity.
    Qed.

    Lemma stmts_eval name payload : forall ds l, Forall2 (getter_means P name) ds l ->
      forall s, let e s := [("self"%string, ref_v name payload); ("state"%string, s)] in
      match write_fields T (decl_entries ds l) payload s with
      | Ret (inr s') => exec P (map serialize_stmt ds) (e (st_v s)) = Done tt (e (st_v s'))
      | Ret (inl er) => exists x, exec P (map serialize_stmt ds) (e (st_v s)) = Return (err_v (er_v er)) (e x)
      | Panic => exec P (map serialize_stmt ds) (e (st_v s)) = Panics
      | Diverge => exec P (map serialize_stmt ds) (e (st_v s)) = Diverges
      end.
    Proof.
      induction 1 as [|df sh ds l Hm H IH]; intros s e; [reflexivity|]. cbn [decl_entries write_fields map exec].
      pose proof (stmt_value_eval name df sh payload (e (st_v s)) Hm eq_refl) as Hv.
      assert (Hn : f_name (g_field (projT1 (decl_entry df sh))) = fd_name df).
      { destruct Hm as [-> _]. unfold decl_entry, entry_of. destruct (_ || _); reflexivity. }
      destruct (decl_entry df sh) as [g emb]. cbn [projT1 projT2] in *.
      set (c := if _ : bool then get_self df else _) in *.
      change (serialize_stmt df) with (SExpr (ETry (EMethod (EVar "state") (m_name "serialize_entry") [EStringify (fd_name df); ERef c]))).
      destruct (g_val g payload) as [v| |]; cbn [ret_map bind of_res] in *.
      - rewrite Hn. pose proof (entry_eval (fd_name df) c (e (st_v s)) s (emb v) Hv eq_refl ltac:(reflexivity) (EStringify (fd_name df)) eq_refl ltac:(reflexivity)) as He.
        destruct (mw_entry T s (fd_name df) (emb v)) as [er|s'].
        + destruct He as (x & Hx). exists x. rewrite Hx. reflexivity.
        + rewrite He. cbn [obind]. exact (IH s').
      - cbn [Rust.eval eval_list]. unfold e. cbn [lookup String.eqb Ascii.eqb Bool.eqb obind]. fold (e (st_v s)). rewrite Hv. reflexivity.
      - cbn [Rust.eval eval_list]. unfold e. cbn [lookup String.eqb Ascii.eqb Bool.eqb obind]. fold (e (st_v s)). rewrite Hv. reflexivity.
    Qed.
    Lemma serialize_fields_eval d l payload s : Forall2 (getter_means P (pd_name d)) (pd_fields d) l ->
      fields_written st_v er_v (write_fields T (decl_entries (pd_fields d) l) payload s) (ref_v (pd_name d) payload)
        (call P (serialize_fields_fn d) [ref_v (pd_name d) payload; st_v s]).
    Proof.
      intros Hl. unfold fields_written, call. cbn [serialize_fields_fn fn_params fn_body length Nat.eqb self_param map fst combine].
      cbn [Rust.eval]. rewrite seq_app by discriminate. pose proof (stmts_eval (pd_name d) payload _ _ Hl s) as H. cbv zeta in H.
      destruct (write_fields T (decl_entries (pd_fields d) l) payload s) as [[er|s']| |].
      - destruct H as (x & H). exists x. rewrite H. reflexivity.
      - rewrite H. reflexivity.
      - rewrite H. reflexivity.
      - rewrite H. reflexivity.
    Qed.

    (** [self.serialize_fields(&mut state)?; state.end()] *)
    Lemma tail_eval c self e s r : eval c e = Done self e -> (forall x e, write_back (A := A) c x e = e \/ write_back (A := A) c x e = assign "self" x e) ->
      lookup "state" e = Some (st_v s) -> 
      fields_written st_v er_v r self (option_map (ret_map (fun x => (snd x, fst (fst x) :: snd (fst x)))) (method_v P [TIdent "serialize_fields"] self [st_v s])) ->
      ends_as (eval_seq eval [SExpr (ETry (EMethod c (m_name "serialize_fields") [ERefMut "state"])); EMethod (EVar "state") (m_name "end") []] e) =
      Some (ret_map (fun r => written_v er_v ok_v' (match r with inl e => inl e | inr s => mw_end T s end)) r).
    Proof.
      intros Hc Hw Hs Hr. unfold m_name. cbn [eval_seq Rust.eval eval_list]. rewrite Hc. cbn [obind]. rewrite Hs. cbn [obind].
      assert (Hl : forall x y, lookup "state" (assign "state" x (write_back (A := A) c y e)) = Some x).
      { intros x y. assert (Hy : exists w, lookup "state" (write_back (A := A) c y e) = Some w).
        { destruct (Hw y e) as [->| ->]; [eauto|]. clear - Hs. induction e as [|[z u] e IH]; [discriminate Hs|].
          cbn [assign lookup] in *. destruct (String.eqb "self" z) eqn:E1; cbn [lookup]; destruct (String.eqb "state" z) eqn:E2; eauto.  }
        destruct Hy as (w & Hy). revert Hy. generalize (write_back (A := A) c y e) as e'. clear. induction e' as [|[z u] e' IH]; [discriminate|].
        cbn [assign lookup]. destruct (String.eqb "state" z) eqn:E; cbn [lookup]; rewrite E; auto. }
      destruct (method_v P [TIdent "serialize_fields"] self [st_v s]) as [[[[r' vs] v]| |]|]; cbn [option_map ret_map bind fst snd] in Hr.
      - destruct r as [[er|s']| |]; cbn [fields_written] in Hr; try discriminate Hr.
        + destruct Hr as (x & Hr). injection Hr as -> -> ->. reflexivity.
        + injection Hr as -> -> ->. cbn [ok_v String.eqb Ascii.eqb Bool.eqb obind write_all_back write_back eval_seq]. 
          cbn [Rust.eval]. rewrite Hl. cbn [obind eval_list]. destruct (sm_end _ _ _ _ _ _ HT s') as (y & Hy). rewrite Hy. reflexivity.
      - destruct r as [[er|s']| |]; cbn [fields_written] in Hr; try discriminate Hr; [destruct Hr; discriminate|reflexivity].
      - destruct r as [[er|s']| |]; cbn [fields_written] in Hr; try discriminate Hr; [destruct Hr; discriminate|reflexivity].
      - destruct r as [[er|s']| |]; cbn [fields_written] in Hr; try discriminate Hr; destruct Hr; discriminate.
    Qed.

    (** [let mut state = serializer.serialize_map(None)?;] *)
    Lemma head_eval e rest : rest <> [] -> lookup "serializer" e = Some ser_v -> (forall x, lookup "self" (assign "serializer" x e) = lookup "self" e) ->
      exists e', lookup "self" e' = lookup "self" e /\
      ends_as (eval_seq eval (SLet true "state" [] (ETry (EMethod (EVar "serializer") (m_name "serialize_map") [EConst ["None"%string]])) :: rest) e) =
      match mw_map T with
      | inl er => Some (Ret (err_v (er_v er)))
      | inr s => ends_as (eval_seq eval rest (("state"%string, st_v s) :: e'))
      end.
    Proof.
      intros Hr Hs Hself. destruct (sm_map _ _ _ _ _ _ HT) as (none & x & y & Hn & Hm). exists (assign "serializer" x e). split; [apply Hself|].
      rewrite seq_cons by exact Hr. unfold m_name. cbn [Rust.eval eval_list]. rewrite Hs. cbn [obind]. rewrite Hn. cbn [obind]. rewrite Hm.
      destruct (mw_map T) as [er|s]; [reflexivity|]. cbn [ok_v write_back]. cbv beta iota.
      assert (Hw : write_all_back (A := A) [EConst ["None"%string]] y (assign "serializer" x e) = assign "serializer" x e) by (destruct y as [|? []]; reflexivity).
      rewrite Hw. reflexivity.
    Qed.

    Lemma written_bind {X} (r : res X) f (g : X -> Er + Ok) :
      ret_map f (ret_map g r) = ret_map (fun x => f (g x)) r :> res value.
    Proof. destruct r; reflexivity. Qed.

    (** [Serialize] for [NameRef] *)
    Lemma serialize_eval l payload self : offers_fields P st_v er_v self (fun s => write_fields T l payload s) ->
      result P serialize_fn [self; ser_v] = Some (ret_map (written_v er_v ok_v') (write_map T [] l payload)).
    Proof.
      intros Ho. rewrite result_ends by reflexivity. cbn [serialize_fn fn_params fn_body self_param map fst combine].
      set (e := [("self"%string, self); ("serializer"%string, ser_v)]).
      match goal with |- context [eval_seq _ (_ :: ?r) e] => destruct (head_eval e r ltac:(discriminate) eq_refl ltac:(reflexivity)) as (e' & Hs & ->) end.
      unfold write_map. destruct (mw_map T) as [er|s]; [reflexivity|]. cbn [write_entries].
      rewrite (tail_eval (EVar "self") self _ s (write_fields T l payload s)).
      - destruct (write_fields T l payload s); reflexivity.
      - unfold self_e. cbn [Rust.eval lookup String.eqb Ascii.eqb Bool.eqb]. rewrite Hs. reflexivity.
      - intros x e0. right. reflexivity.
      - reflexivity.
      - apply Ho.
    Qed.

    (** [Serialize] for [PacketSerializer] *)
    Lemma packet_serializer_eval l payload class msg_id msg : offers_fields P st_v er_v msg (fun s => write_fields T l payload s) ->
      result P packet_serializer_fn [packet_serializer_v class msg_id msg; ser_v] =
      Some (ret_map (written_v er_v ok_v') (write_map T [("class", u8_v class); ("msg_id", u8_v msg_id)]%string l payload)).
    Proof.
      intros Ho. rewrite result_ends by reflexivity. cbn [packet_serializer_fn fn_params fn_body self_param map fst combine].
      set (self := packet_serializer_v class msg_id msg). set (e := [("self"%string, self); ("serializer"%string, ser_v)]).
      match goal with |- context [eval_seq _ (_ :: ?r) e] => destruct (head_eval e r ltac:(discriminate) eq_refl ltac:(reflexivity)) as (e' & Hs & ->) end.
      assert (He' : lookup "self" e' = Some self) by exact Hs. clear Hs.
      unfold write_map. destruct (mw_map T) as [er|s]; [reflexivity|]. cbn [write_entries].
      assert (Hn : forall x (v : value) s, x = "class"%string /\ v = u8_v class \/ x = "msg_id"%string /\ v = u8_v msg_id ->
        eval (ENamed self_e x) (("state"%string, st_v s) :: e') = Done v (("state"%string, st_v s) :: e')).
      { intros x v s0 Hx. unfold self_e. cbn [Rust.eval lookup String.eqb Ascii.eqb Bool.eqb]. rewrite He'. cbn [obind self packet_serializer_v].
        destruct Hx as [[-> ->]|[-> ->]]; reflexivity. }
      unfold entry. rewrite seq_cons by discriminate.
      pose proof (entry_eval "class" _ _ s _ (Hn "class"%string _ s (or_introl (conj eq_refl eq_refl))) eq_refl ltac:(reflexivity) (EStr "class") eq_refl ltac:(reflexivity)) as H1.
      destruct (mw_entry T s "class" (u8_v class)) as [er|s1].
      { destruct H1 as (x & ->). reflexivity. }
      rewrite H1. cbn [assign String.eqb Ascii.eqb Bool.eqb obind]. rewrite seq_cons by discriminate.
      pose proof (entry_eval "msg_id" _ _ s1 _ (Hn "msg_id"%string _ s1 (or_intror (conj eq_refl eq_refl))) eq_refl ltac:(reflexivity) (EStr "msg_id") eq_refl ltac:(reflexivity)) as H2.
      destruct (mw_entry T s1 "msg_id" (u8_v msg_id)) as [er|s2].
      { destruct H2 as (x & ->). reflexivity. }
      rewrite H2. cbn [assign String.eqb Ascii.eqb Bool.eqb obind].
      rewrite (tail_eval (ENamed self_e "msg") msg _ s2 (write_fields T l payload s2)).
      - destruct (write_fields T l payload s2); reflexivity.
      - unfold self_e. cbn [Rust.eval lookup String.eqb Ascii.eqb Bool.eqb]. rewrite He'. reflexivity.
      - intros x e0. left. reflexivity.
      - reflexivity.
      - apply Ho.
    Qed.
  End Serialize.

  (** [Serialize] for the union: the arm of the packet *)
  Lemma union_known_eval r ser_v p payload v x y :
    In (p_name p) (rd_packets r) ->
    c_const P [p_name p; "CLASS"%string] = Some (u8_v (p_class p)) -> c_const P [p_name p; "ID"%string] = Some (u8_v (p_id p)) ->
    method_v P [TIdent "serialize"] (packet_serializer_v (p_class p) (p_id p) (ref_v (p_name p) payload)) [ser_v] = Some (ret_map (fun v => (x, y, v)) v) ->
    result P (union_serialize_fn r) [packet_v (rd_name r) (rd_unknown r) (Known p payload); ser_v] = Some v.
  Proof.
    intros Hin Hc Hi Hm. rewrite result_ends by reflexivity. cbn [union_serialize_fn fn_params fn_body self_param map fst combine eval_seq].
    unfold self_e. cbn [Rust.eval lookup String.eqb Ascii.eqb Bool.eqb obind packet_v].
    set (e := [("self"%string, _); ("serializer"%string, ser_v)]). assert (Hs : lookup "serializer" e = Some ser_v) by reflexivity. clearbody e.
    generalize ([EArm (PCtor [rd_name r; "Unknown"%string] (PRef "pack")) (EMethod (EVar "pack") (m_name "serialize") [EVar "serializer"]) true]) as rest.
    induction (rd_packets r) as [|n names IH]; intros rest; [destruct Hin|]. cbn [map app]. unfold union_arm at 1. cbn [eval_arms matches path_eqb].
    rewrite String.eqb_refl. cbn [andb]. destruct (String.eqb n (p_name p)) eqn:E.
    - apply String.eqb_eq in E. subst n. cbn [andb app]. unfold m_name, name_const. cbn [Rust.eval inits eval_list].
      rewrite Hc. cbn [obind]. rewrite Hi. cbn [obind lookup String.eqb Ascii.eqb Bool.eqb]. rewrite Hs. cbn [obind].
      unfold packet_serializer_v in Hm. rewrite Hm. destruct v; reflexivity.
    - cbn [andb]. apply IH. destruct Hin as [->|Hin]; [rewrite String.eqb_refl in E; discriminate E|exact Hin].
  Qed.
  Lemma union_unknown_eval r ser_v payload class msg_id v x y :
    ~ In "Unknown"%string (rd_packets r) ->
    (forall u, packet_v (A := A) (rd_name r) (rd_unknown r) (Unknown payload class msg_id) = VAdt [rd_name r; "Unknown"%string] [("0"%string, u)] ->
       method_v P [TIdent "serialize"] u [ser_v] = Some (ret_map (fun v => (x, y, v)) v)) ->
    result P (union_serialize_fn r) [packet_v (rd_name r) (rd_unknown r) (Unknown payload class msg_id); ser_v] = Some v.
  Proof.
    intros Hin Hm. rewrite result_ends by reflexivity. cbn [union_serialize_fn fn_params fn_body self_param map fst combine eval_seq].
    unfold self_e. cbn [Rust.eval lookup String.eqb Ascii.eqb Bool.eqb obind packet_v].
    set (e := [("self"%string, _); ("serializer"%string, ser_v)]). assert (Hs : lookup "serializer" e = Some ser_v) by reflexivity. clearbody e.
    specialize (Hm _ eq_refl).
    induction (rd_packets r) as [|n names IH].
    - cbn [map app eval_arms matches path_eqb]. rewrite !String.eqb_refl. cbn [andb app]. unfold m_name. cbn [Rust.eval eval_list lookup String.eqb Ascii.eqb Bool.eqb obind].
      rewrite Hs. cbn [obind]. rewrite Hm. destruct v; reflexivity.
    - cbn [map app]. unfold union_arm at 1. cbn [eval_arms matches path_eqb]. rewrite String.eqb_refl. cbn [andb].
      destruct (String.eqb n "Unknown") eqn:E.
      + apply String.eqb_eq in E. subst n. exfalso. apply Hin. now left.
      + cbn [andb]. apply IH. intros H. apply Hin. now right.
  Qed.

  (** Enums and bit flags *)
  Lemma enum_serialize_eval name vs v ser_v x l w : knows_variants P name vs -> In v vs ->
    method_v P [TIdent "serialize_u8"] ser_v [VInt (I U8) (Z.of_N (snd v))] = Some (Ret (x, l, w)) ->
    result P enum_serialize_fn [variant_v name v; ser_v] = Some (Ret w).
  Proof.
    intros Hk Hv Hm. pose proof (proj2 (proj1 (Forall_forall _ _) Hk v Hv)) as Hd.
    rewrite result_ends by reflexivity. cbn [enum_serialize_fn fn_params fn_body self_param map fst combine eval_seq].
    unfold self_e, m_name, variant_v. cbn [Rust.eval eval_list lookup String.eqb Ascii.eqb Bool.eqb obind cast_v].
    change (tokens_eqb [TIdent "u8"] [TIdent "u8"]) with true. cbv iota. rewrite Hd. cbn [of_opt of_res obind]. rewrite Hm. reflexivity.
  Qed.
  Lemma flags_serialize_eval repr self ser_v bits x l w :
    method_v P [TIdent "bits"] self [] = Some (Ret (self, [], bits)) ->
    method_v P [TIdent ("serialize_" ++ repr)] ser_v [bits] = Some (Ret (x, l, w)) ->
    result P (flags_serialize_fn repr) [self; ser_v] = Some (Ret w).
  Proof.
    intros Hb Hm. rewrite result_ends by reflexivity. cbn [flags_serialize_fn fn_params fn_body self_param map fst combine eval_seq].
    unfold self_e, m_name. cbn [Rust.eval eval_list lookup String.eqb Ascii.eqb Bool.eqb obind]. rewrite Hb. cbn [obind]. rewrite Hm. reflexivity.
  Qed.
End Eval.
