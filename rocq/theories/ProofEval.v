(** * The meaning of the generated receiving code *)
From Coq Require Import String Ascii List NArith ZArith Bool Lia.
From Verif Require Import Base BaseFacts Tokens Syntax DualBuffer PackDesc GenRecv Macro Output Rust Code SpecCode ProofMacro ProofOutput.
Import ListNotations.
Open Scope N_scope.
Open Scope list_scope.

Section Eval.
  Context {A : Type} (P : program A).
  Context (item_v : item -> value A).
  Notation value := (value A).
  Notation eval := (eval P).
  Notation raw_v := (raw_v item_v).

  (** ** Scopes *)

  Lemma leave_self (e : env (A := A)) : leave e e = e.
  Proof. unfold leave. rewrite Nat.sub_diag. reflexivity. Qed.
  Lemma leave_app (l e : env (A := A)) : leave e (l ++ e) = e.
  Proof.
    unfold leave. rewrite app_length, Nat.add_sub, skipn_app, skipn_all, Nat.sub_diag. reflexivity.
  Qed.
  Lemma leave_cons p (e : env (A := A)) : leave e (p :: e) = e.
  Proof. apply (leave_app [p]). Qed.

  Lemma assign_same x v (e : env (A := A)) : lookup x e = Some v -> assign x v e = e.
  Proof.
    induction e as [|[y w] e IH]; [reflexivity|]. cbn [lookup assign]. destruct (String.eqb x y); intros H; [congruence|].
    rewrite IH by assumption. reflexivity.
  Qed.

  (** ** Statements *)

  Lemma obind_obind {B C D} (o : outcome A B) (k : B -> env -> outcome A C) (k' : C -> env -> outcome A D) :
    obind (obind o k) k' = obind o (fun b e => obind (k b e) k').
  Proof. destruct o; reflexivity. Qed.

  (** Statements in a row, without the value of the last one *)
  Fixpoint exec (l : list code) (e : env) : outcome A unit :=
    match l with
    | [] => Done tt e
    | c :: l' => obind (eval c e) (fun _ e => exec l' e)
    end.
  Lemma exec_app l l' e : exec (l ++ l') e = obind (exec l e) (fun _ e => exec l' e).
  Proof.
    revert e. induction l as [|c l IH]; intros e; [reflexivity|]. cbn [app exec].
    destruct (eval c e); cbn [obind]; auto.
  Qed.
  Lemma seq_app l l' e : l' <> [] -> eval_seq eval (l ++ l') e = obind (exec l e) (fun _ e => eval_seq eval l' e).
  Proof.
    intros Hn. revert e. induction l as [|c l IH]; intros e; [reflexivity|].
    destruct (l ++ l') as [|d r] eqn:E; [apply app_eq_nil in E; tauto|].
    change ((c :: l) ++ l') with (c :: (l ++ l')). rewrite E. cbn [eval_seq exec].
    rewrite obind_obind. destruct (eval c e); cbn [obind]; auto. rewrite <- IH. reflexivity.
  Qed.

  Lemma obind_of_res {B C D} (f : B -> C) e (r : res B) (k : C -> env -> outcome A D) :
    obind (of_res e (ret_map f r)) k = match r with Ret b => k (f b) e | Panic => Panics | Diverge => Diverges end.
  Proof. destruct r; reflexivity. Qed.

  (** ** Raw fields *)

  Lemma as_u8_v b : as_u8 (u8_v b : value) = Some b.
  Proof. unfold as_u8, u8_v. rewrite N2Z.id, n2b_b2n. reflexivity. Qed.
  Lemma all_u8_v l : all_u8 (map u8_v l : list value) = Some l.
  Proof. induction l as [|b l IH]; [reflexivity|]. cbn [map all_u8]. rewrite as_u8_v, IH. reflexivity. Qed.
  Lemma array_u8_v l : array_v (map u8_v l : list value) = VBytes l.
  Proof. unfold array_v. rewrite all_u8_v. reflexivity. Qed.

  Lemma index_eval data l off e :
    eval data e = Done (VBytes l) e -> eval (EIndex data (usz off)) e = of_res e (ret_map u8_v (get l off)).
  Proof. intros H. cbn [Rust.eval]. rewrite H. cbn [obind usz Rust.eval index_v]. rewrite N2Z.id. reflexivity. Qed.

  Lemma bytes_eval data l e : eval data e = Done (VBytes l) e ->
    forall n off, eval_list eval (byte_exprs off data n) e = of_res e (ret_map (map u8_v) (read_bytes l off n)).
  Proof.
    intros H. induction n as [|n IH]; intros off; [reflexivity|]. cbn [byte_exprs eval_list read_bytes].
    rewrite (index_eval data l off e H). destruct (get l off) as [b| |]; cbn [ret_map of_res obind bind]; [|reflexivity..].
    rewrite IH. destruct (read_bytes l (off + 1) n); reflexivity.
  Qed.
  Lemma array_eval data l off n e : eval data e = Done (VBytes l) e ->
    eval (EArray (byte_exprs off data n)) e = of_res e (ret_map VBytes (read_bytes l off n)).
  Proof.
    intros H. cbn [Rust.eval]. rewrite (bytes_eval data l e H). destruct (read_bytes l off n); cbn [ret_map of_res obind]; [|reflexivity..].
    rewrite array_u8_v. reflexivity.
  Qed.

  Lemma read_bytes_length l : forall n off r, read_bytes l off n = Ret r -> length r = n.
  Proof.
    induction n as [|n IH]; intros off r H; cbn [read_bytes] in H; [injection H as <-; reflexivity|].
    destruct (get l off); try discriminate H. cbn [bind] in H. destruct (read_bytes l (off + 1) n) eqn:E; try discriminate H.
    injection H as <-. cbn. f_equal. eapply IH, E.
  Qed.

  Lemma scalar_of_raw ty s : field_raw_ty ty = Good (Scalar s) -> scalar_of ty = Some s.
  Proof.
    unfold field_raw_ty. destruct (scalar_of ty); [intros H; injection H as ->; reflexivity|].
    destruct ty as [|t ty]; [discriminate|].
    destruct t as [x|x|x|x y|x|x|d b]; [destruct (is_p _ _); discriminate..|].
    destruct d; [destruct (is_p _ _); discriminate| |destruct (is_p _ _); discriminate].
    destruct ty; [|destruct (is_p _ _); discriminate].
    destruct (array_parts b) as [[el len]|]; [|discriminate]. destruct (negb _); [discriminate|].
    destruct len as [|[] [|]]; try discriminate. destruct (base10_parse _ _); discriminate.
  Qed.
  Lemma u8_not_i8 ty s : scalar_of ty = Some s -> tokens_eqb ty [TIdent "i8"] = match s with I8 => true | _ => false end.
  Proof.
    intros H. destruct (tokens_eqb ty [TIdent "i8"]) eqn:E.
    - apply tokens_eqb_eq in E. subst ty. injection H as <-. reflexivity.
    - destruct s; try reflexivity. exfalso. unfold scalar_of in H. rewrite E in H.
      repeat (destruct (tokens_eqb ty _); [discriminate H|]). discriminate H.
  Qed.

  Lemma raw_eval f t size off data l e :
    fd_raw f = t -> field_raw_ty (fd_ty f) = Good t -> (fd_get_as_ref f = true -> exists n, t = Bytes n) ->
    size_bytes t = Some size -> off + size <= usize_max ->
    eval data e = Done (VBytes l) e ->
    eval (raw_expr f size off data) e = of_res e (ret_map (raw_v t) (get_raw_field t (fd_get_as_ref f) off l)).
  Proof.
    intros Hr Ht Ha Hs Hm He. unfold raw_expr, is_field_raw_ty_byte_array. rewrite Hr. destruct (fd_get_as_ref f) eqn:Eg.
    - destruct (Ha eq_refl) as [n ->]. cbn [size_bytes] in Hs. destruct (n =? 0) eqn:En; [discriminate Hs|].
      injection Hs as <-. cbn [Rust.eval usz]. rewrite He. cbn [obind bin_v]. rewrite !N2Z.id. unfold uadd.
      rewrite (proj2 (N.leb_le _ _)) by assumption. cbn [ret_map of_res of_opt obind usize_v]. rewrite N2Z.id.
      cbn [index_v of_opt get_raw_field]. reflexivity.
    - destruct t as [s|n|]; [| |discriminate Hs].
      + cbn [size_bytes] in Hs. injection Hs as <-. apply scalar_of_raw in Ht. rewrite (u8_not_i8 _ _ Ht).
        assert (Hle : forall s', s' = s -> eval (EFromLe (fd_ty f) (EArray (byte_exprs off data (N.to_nat (scalar_size s'))))) e
          = of_res e (ret_map (raw_v (Scalar s)) (let! l0 := read_bytes l off (N.to_nat (scalar_size s)) in Ret (from_le_bytes s l0)))).
        { intros s' ->. cbn [Rust.eval]. change (obind (eval_list eval (byte_exprs off data (N.to_nat (scalar_size s))) e)
            (fun vs e => Done (array_v vs) e)) with (eval (EArray (byte_exprs off data (N.to_nat (scalar_size s)))) e).
          rewrite (array_eval data l off _ e He), Ht.
          destruct (read_bytes l off (N.to_nat (scalar_size s))) as [r| |] eqn:E; cbn [ret_map of_res obind bind]; [|reflexivity..].
          apply read_bytes_length in E. unfold lenN. rewrite E, N2Nat.id, N.eqb_refl. reflexivity. }
        specialize (Hle s eq_refl). destruct s; cbn [scalar_size] in *; try exact Hle.
        change (eval (EIndex data (usz off)) e = of_res e (ret_map (raw_v (Scalar U8)) (let! b := get l off in Ret (Z.of_N (b2n b))))).
        rewrite (index_eval data l off e He). destruct (get l off); reflexivity.
      + cbn [size_bytes] in Hs. destruct (n =? 0); [discriminate Hs|]. injection Hs as <-. apply (array_eval data l off _ e He).
  Qed.

  (** ** Results *)

  Definition ends_as (o : outcome A value) : option (res value) :=
    match o with
    | Done v _ | Return v _ => Some (Ret v)
    | Panics => Some Panic
    | Diverges => Some Diverge
    | Wrong => None
    end.
  Lemma ends_block o e : ends_as (obind o (fun v e' => Done v (leave e e'))) = ends_as o.
  Proof. destruct o; reflexivity. Qed.
  Lemma result_ends f args : length args = length (fn_params f) ->
    result P f args = ends_as (eval_seq eval (fn_body f) (combine (map fst (fn_params f)) args)).
  Proof.
    intros H. unfold result, call. rewrite (proj2 (Nat.eqb_eq _ _) H). cbn [Rust.eval].
    destruct (eval_seq eval (fn_body f) (combine (map fst (fn_params f)) args)); reflexivity.
  Qed.
  Lemma ends_of_res e (r : res value) : ends_as (of_res e r) = Some r.
  Proof. destruct r; reflexivity. Qed.

  (** ** Getters *)

  Context (pack : string).
  Notation field_means := (field_means P item_v pack).
  Definition self_env (payload : list byte) : env (A := A) := [("self"%string, ref_v pack payload)].

  Lemma self_data_eval payload : eval self_data (self_env payload) = Done (VBytes payload) (self_env payload).
  Proof. reflexivity. Qed.

  Lemma getter_result comment name ty body payload :
    result P (getter_fn comment name ty body) [ref_v pack payload] = ends_as (eval_seq eval body (self_env payload)).
  Proof. rewrite result_ends; reflexivity. Qed.

  Lemma means_names df f emb : field_means df f emb ->
    intermediate_field_name df = accessor f /\ fd_raw df = f_ty f /\ fd_get_as_ref df = f_get_as_ref f /\
    field_raw_ty (fd_ty df) = Good (f_ty f) /\ (fd_get_as_ref df = true -> exists n, f_ty f = Bytes n).
  Proof. intros []; cbn; auto. Qed.

  (** What stands before the scaling *)
  Lemma sized_getter_eval df f emb size off payload :
    field_means df f emb -> size_bytes (f_ty f) = Some size -> off + size <= usize_max ->
    exists fn, In fn (sized_getters df size off) /\ fn_name fn = accessor f /\
      result P fn [ref_v pack payload] =
        Some (ret_map emb (let! v := get_raw_field (f_ty f) (f_get_as_ref f) off payload in from_raw f v)).
  Proof.
    intros Hm Hs Ho. destruct (means_names _ _ _ Hm) as (_ & Hr & Hg & Ht & Ha).
    pose proof (raw_eval df (f_ty f) size off self_data payload (self_env payload) Hr Ht Ha Hs Ho (self_data_eval payload)) as He.
    rewrite Hg in He. clear Hr Hg Ht Ha Hs Ho. unfold sized_getters.
    set (raw := raw_expr df size off self_data) in *. clearbody raw. set (g := get_raw_field (f_ty f) (f_get_as_ref f) off payload) in *.
    clearbody g. destruct Hm as [name ty t alias may_fail as_ref comment Ht Ha
      | name ty t md scale alias may_fail as_ref comment m sz emb Ht Ha Hfrom Hscale Hvalid Hsize]; cbn [fd_map fd_scale fd_comment] in *.
    - eexists. split; [left; reflexivity|]. split; [reflexivity|]. rewrite getter_result. cbn [app eval_seq let_val Rust.eval f_ty] in *.
      rewrite He. destruct g; reflexivity.
    - eexists. split; [right; left; reflexivity|]. split; [reflexivity|]. rewrite getter_result.
      cbn [app eval_seq let_val Rust.eval f_ty from_raw f_map] in *. unfold from_raw. cbn [f_map f_ty].
      rewrite He, !obind_obind, obind_of_res. destruct g as [v| |]; cbn [bind ret_map]; [|reflexivity..].
      cbn [obind eval_seq app]. 
      assert (Hseq : forall w e, ends_as (eval_seq eval (match scale with Some s => [let_val (EScale (EVar "val") s)] | None => [] end ++ [EVar "val"])
                       (("val"%string, emb w) :: e))
                     = Some (Ret (emb (match m_scale m with Some g => g w | None => w end)))).
      { intros w e. destruct scale as [s|], (m_scale m) as [sc|]; try contradiction; [|reflexivity].
        cbn [app eval_seq let_val Rust.eval lookup String.eqb Ascii.eqb Bool.eqb obind]. rewrite Hscale. reflexivity. }
      set (rest := match scale with Some s => _ | None => _ end ++ [EVar "val"]) in *.
      assert (Hne : rest <> []) by (subst rest; destruct scale; discriminate).
      change (let_val (ECall (md_from md) [EVar "val"]) :: rest) with ([let_val (ECall (md_from md) [EVar "val"])] ++ rest).
      destruct rest as [|c rest]; [destruct (Hne eq_refl)|]. cbn [app eval_seq let_val Rust.eval eval_list lookup String.eqb Ascii.eqb Bool.eqb obind].
      rewrite Hfrom. cbn [of_opt]. destruct (m_from m v) as [w| |]; cbn [ret_map of_res obind bind]; [|reflexivity..]. apply Hseq.
  Qed.

  Lemma sized_raw_getter_eval df f emb size off payload :
    field_means df f emb -> size_bytes (f_ty f) = Some size -> off + size <= usize_max -> f_map f <> None ->
    exists fn, In fn (sized_getters df size off) /\ fn_name fn = (accessor f ++ "_raw")%string /\
      result P fn [ref_v pack payload] = Some (ret_map (raw_v (f_ty f)) (get_raw_field (f_ty f) (f_get_as_ref f) off payload)).
  Proof.
    intros Hm Hs Ho Hn. destruct (means_names _ _ _ Hm) as (_ & Hr & Hg & Ht & Ha).
    pose proof (raw_eval df (f_ty f) size off self_data payload (self_env payload) Hr Ht Ha Hs Ho (self_data_eval payload)) as He.
    rewrite Hg in He. clear Hr Hg Ht Ha Hs Ho. unfold sized_getters.
    set (raw := raw_expr df size off self_data) in *. clearbody raw. set (g := get_raw_field (f_ty f) (f_get_as_ref f) off payload) in *.
    clearbody g. destruct Hm; cbn [fd_map fd_scale fd_comment f_map] in *; [destruct (Hn eq_refl)|].
    eexists. split; [left; reflexivity|]. split; [reflexivity|]. rewrite getter_result. cbn [app eval_seq let_val Rust.eval f_ty] in *.
    rewrite He. destruct g; reflexivity.
  Qed.

  (** ** Sums of size functions *)

  Definition size_means (s : list token) (g : list byte -> res N) : Prop := forall payload,
    method_v P s (ref_v pack payload) [] = Some (ret_map (fun n => (ref_v pack payload, [], usize_v n)) (g payload)).

  Lemma bin_add e x (r : res N) (k : value -> env -> outcome A value) :
    obind (of_res e (ret_map usize_v r)) (fun w e => obind (of_opt e (bin_v Add (usize_v x) w)) k) =
    match (let! n := r in uadd x n) with Ret z => k (usize_v z) e | Panic => Panics | Diverge => Diverges end.
  Proof.
    destruct r as [n| |]; [|reflexivity..]. cbn [ret_map of_res obind bind bin_v usize_v of_opt]. rewrite !N2Z.id.
    destruct (uadd x n); reflexivity.
  Qed.

  Lemma sum_eval recv payload e :
    (forall s g, size_means s g -> eval (EMethod recv s []) e = of_res e (ret_map usize_v (g payload))) ->
    forall fns gs, Forall2 size_means fns gs -> forall start x,
    eval start e = of_res e (ret_map usize_v x) ->
    eval (sum_expr start recv fns) e = of_res e (ret_map usize_v (let! n := x in add_size_fns n gs payload)).
  Proof.
    intros Hr fns gs H. induction H as [|s g fns gs Hs H IH]; intros start x Hx.
    - unfold sum_expr. cbn [fold_left add_size_fns]. rewrite Hx. destruct x; reflexivity.
    - change (sum_expr start recv (s :: fns)) with (sum_expr (EBin Add start (EMethod recv s [])) recv fns).
      rewrite (IH _ (let! n := x in let! k := g payload in uadd n k)).
      + destruct x as [n| |]; [|reflexivity..]. cbn [bind add_size_fns]. destruct (g payload) as [k| |]; [|reflexivity..]. reflexivity.
      + change (eval (EBin Add start (EMethod recv s [])) e) with
          (obind (eval start e) (fun v e => obind (eval (EMethod recv s []) e) (fun w e => of_opt e (bin_v Add v w)))).
        rewrite Hx. destruct x as [n| |]; [|reflexivity..]. cbn [ret_map of_res obind bind]. rewrite (Hr s g Hs).
        destruct (g payload) as [k| |]; [|reflexivity..]. cbn [ret_map of_res obind bind of_opt bin_v usize_v]. rewrite !N2Z.id. reflexivity.
  Qed.

  Lemma self_size_eval payload e s g : lookup "self" e = Some (ref_v pack payload) -> size_means s g ->
    eval (EMethod self_e s []) e = of_res e (ret_map usize_v (g payload)).
  Proof.
    intros Hl Hs. cbn [Rust.eval self_e]. rewrite Hl. cbn [obind eval_list]. rewrite (Hs payload).
    destruct (g payload); cbn [ret_map of_res write_all_back write_back self_e]; [|reflexivity..]. rewrite assign_same by assumption. reflexivity.
  Qed.

  (** ** Fields without a size *)

  Lemma unsized_eval df f emb off fns gs payload :
    field_means df f emb -> off <= usize_max -> Forall2 size_means fns gs ->
    eval (unsized_expr df off fns) (self_env payload) = of_res (self_env payload) (ret_map VBytes (unsized_slice f off gs payload)).
  Proof.
    intros Hm Ho Hf.
    assert (Hsz : match fd_size_fn df, f_size_fn f with
                  | None, None => True | Some s, Some g => size_means s g | _, _ => False end)
      by (destruct Hm; [exact Logic.I | unfold fd_size_fn; cbn; assumption]).
    unfold unsized_expr, unsized_slice. destruct (fd_size_fn df) as [s|], (f_size_fn f) as [g|]; try contradiction.
    - set (e := self_env payload). cbn [Rust.eval]. change (eval self_data e) with (Done (VBytes payload : value) e). cbn [obind eval_seq Rust.eval].
      rewrite (sum_eval self_e payload e (fun s g => self_size_eval payload e s g eq_refl) fns gs Hf (usz off) (Ret off) eq_refl).
      cbn [bind]. destruct (add_size_fns off gs payload) as [o| |]; cbn [ret_map of_res obind bind]; [|reflexivity..].
      cbn [lookup String.eqb Ascii.eqb Bool.eqb obind].
      set (e1 := ("offset"%string, usize_v o) :: e). change (eval (EMethod self_e s []) e1) with (eval (EMethod self_e s []) e1).
      assert (H1 := self_size_eval payload e1 s g eq_refl Hsz). cbn [Rust.eval] in H1. rewrite H1. clear H1.
      destruct (g payload) as [n| |]; cbn [ret_map of_res obind bind of_opt bin_v usize_v]; [|reflexivity..]. rewrite !N2Z.id.
      destruct (uadd o n) as [z| |]; cbn [ret_map of_res obind bind of_opt usize_v]; [|reflexivity..]. rewrite !N2Z.id.
      unfold e1. rewrite leave_cons. reflexivity.
    - cbn [Rust.eval]. change (eval self_data (self_env payload)) with (Done (VBytes payload : value) (self_env payload)).
      cbn [obind usz Rust.eval]. rewrite N2Z.id. cbn [index_v of_opt]. reflexivity.
  Qed.

  Lemma unsized_getter_eval df f emb off fns gs payload :
    field_means df f emb -> size_bytes (f_ty f) = None -> f_ty f <> Items -> off <= usize_max -> Forall2 size_means fns gs ->
    exists fn, In fn (unsized_getters df off fns) /\ fn_name fn = accessor f /\
      result P fn [ref_v pack payload] =
        Some (ret_map emb (let! v := (let! l := unsized_slice f off gs payload in slice_val (f_ty f) l) in from_raw_unsized f v)).
  Proof.
    intros Hm Hs Hi Ho Hf. pose proof (unsized_eval df f emb off fns gs payload Hm Ho Hf) as He. unfold unsized_getters.
    set (raw := unsized_expr df off fns) in *. clearbody raw. set (g := unsized_slice f off gs payload) in *. clearbody g.
    eexists. split; [left; reflexivity|]. split; [apply (means_names _ _ _ Hm)|]. rewrite getter_result.
    destruct Hm as [name ty t alias may_fail as_ref comment Ht Ha
      | name ty t md scale alias may_fail as_ref comment m sz emb Ht Ha Hfrom Hscale Hvalid Hsize]; cbn [fd_map f_ty] in *;
      destruct t as [|n|]; try discriminate Hs; try (destruct (Hi eq_refl)); cbn [eval_seq let_val Rust.eval].
    - rewrite He, ends_of_res. destruct g; reflexivity.
    - rewrite He. destruct g as [l| |]; cbn [ret_map of_res obind bind slice_val]; [|reflexivity..].
      cbn [eval_list Rust.eval lookup String.eqb Ascii.eqb Bool.eqb obind]. pose proof (Hfrom l) as Hl. cbn [SpecCode.raw_v] in Hl. rewrite Hl. unfold from_raw_unsized. cbn [f_map of_opt].
      rewrite ends_of_res. reflexivity.
  Qed.

  (** ** All getters *)

  Notation means := (fun df f => exists emb, field_means df f emb).

  Lemma getters_eval ds fs : Forall2 means ds fs -> Forall (fun f => f_ty f <> Items) fs ->
    forall off fns gs, off + sized_total ds <= usize_max -> Forall2 size_means fns gs ->
    forall i df g, nth_error ds i = Some df -> nth_error (gen_getters off gs fs) i = Some g ->
    forall emb, field_means df (g_field g) emb -> forall payload,
    (exists fn, In fn (getter_fns off fns ds) /\ fn_name fn = accessor (g_field g) /\
       result P fn [ref_v pack payload] = Some (ret_map emb (g_val g payload))) /\
    (f_map (g_field g) <> None -> f_size (g_field g) <> None ->
     exists fn, In fn (getter_fns off fns ds) /\ fn_name fn = (accessor (g_field g) ++ "_raw")%string /\
       result P fn [ref_v pack payload] = Some (ret_map (raw_v (f_ty (g_field g))) (g_raw g payload))).
  Proof.
    intros H. induction H as [|d f ds fs [emb0 Hm] H IH]; intros Hi off fns gs Ho Hf i df g Hd Hg emb He payload;
      [destruct i; discriminate Hd|].
    inversion Hi as [|? ? Hi1 Hi2]; subst. cbn [gen_getters getter_fns sized_total fold_right] in *. fold (sized_total ds) in Ho.
    destruct (means_names _ _ _ Hm) as (_ & Hr & _). rewrite Hr in *. unfold f_size in *.
    destruct (size_bytes (f_ty f)) as [size|] eqn:Hs; destruct i as [|i]; cbn [nth_error] in *.
    - injection Hd as <-. injection Hg as <-. cbn [g_field g_val g_raw] in *. split.
      + destruct (sized_getter_eval d f emb size off payload He Hs ltac:(lia)) as (fn & Hin & Hn & Hres).
        exists fn. split; [apply in_or_app; left; exact Hin|]. split; assumption.
      + intros Hmap _. destruct (sized_raw_getter_eval d f emb size off payload He Hs ltac:(lia) Hmap) as (fn & Hin & Hn & Hres).
        exists fn. split; [apply in_or_app; left; exact Hin|]. split; assumption.
    - destruct (IH Hi2 (off + size) fns gs ltac:(lia) Hf i df g Hd Hg emb He payload) as [(fn & Hin & Hn & Hres) H2]. split.
      + exists fn. split; [apply in_or_app; right; exact Hin|]. split; assumption.
      + intros Hmap Hsz. destruct (H2 Hmap Hsz) as (fn2 & Hin2 & Hn2 & Hres2).
        exists fn2. split; [apply in_or_app; right; exact Hin2|]. split; assumption.
    - injection Hd as <-. injection Hg as <-. cbn [g_field g_val g_raw] in *. split; [|intros _ Hsz; destruct (Hsz Hs)].
      destruct (unsized_getter_eval d f emb off fns gs payload He Hs Hi1 ltac:(lia) Hf) as (fn & Hin & Hn & Hres).
      exists fn. split; [apply in_or_app; left; exact Hin|]. split; assumption.
    - assert (Hf' : Forall2 size_means (match fd_size_fn d with Some s => fns ++ [s] | None => fns end)
                            (match f_size_fn f with Some s => gs ++ [s] | None => gs end)).
      { destruct Hm; cbn [fd_size_fn fd_map f_size_fn] in *; [exact Hf|]. unfold fd_size_fn. cbn [fd_map f_size_fn].
        destruct (md_size md), size; try easy. apply Forall2_app; [exact Hf|]. constructor; [assumption|constructor]. }
      destruct (IH Hi2 off _ _ ltac:(lia) Hf' i df g Hd Hg emb He payload) as [(fn & Hin & Hn & Hres) H2]. split.
      + exists fn. split; [apply in_or_app; right; exact Hin|]. split; assumption.
      + intros Hmap Hsz. destruct (H2 Hmap Hsz) as (fn2 & Hin2 & Hn2 & Hres2).
        exists fn2. split; [apply in_or_app; right; exact Hin2|]. split; assumption.
  Qed.

  Lemma find_unique fns name fn : NoDup (map fn_name fns) -> In fn fns -> fn_name fn = name -> fn_named fns name = Some fn.
  Proof.
    unfold fn_named. induction fns as [|g fns IH]; intros Hn Hin Hname; [destruct Hin|]. cbn [map find] in *.
    inversion Hn as [|? ? Hnot Hn']; subst. destruct Hin as [->|Hin]; [rewrite String.eqb_refl; reflexivity|].
    destruct (String.eqb (fn_name g) (fn_name fn)) eqn:E; [|apply IH; auto].
    apply String.eqb_eq in E. destruct Hnot. rewrite E. apply in_map, Hin.
  Qed.

  (** ** [validate] *)

  Lemma seq_cons c l e : l <> [] -> eval_seq eval (c :: l) e = obind (eval c e) (fun _ e => eval_seq eval l e).
  Proof. intros Hn. destruct l; [destruct (Hn eq_refl)|reflexivity]. Qed.

  Lemma check_val_eval is_valid name v e rest (r : res bool) : rest <> [] ->
    lookup "val" e = Some v -> fn_v P is_valid [v] = Some (ret_map VBool r) ->
    ends_as (eval_seq eval (check_val is_valid pack name :: rest) e) =
    match r with
    | Ret true => ends_as (eval_seq eval rest e)
    | Ret false => Some (Ret (err_v (error_v (InvalidField pack name))))
    | Panic => Some Panic
    | Diverge => Some Diverge
    end.
  Proof.
    intros Hn Hl Hv. rewrite seq_cons by assumption. cbn [check_val Rust.eval eval_list]. rewrite Hl. cbn [obind].
    rewrite Hv. cbn [of_opt]. destruct r as [[]| |]; reflexivity.
  Qed.

  Lemma payload_index_from payload off e : lookup "payload" e = Some (VBytes payload) ->
    eval (ERef (EIndex (EVar "payload") (EFrom (usz off)))) e = of_res e (ret_map VBytes (slice_from payload off)).
  Proof. intros Hl. cbn [Rust.eval]. rewrite Hl. cbn [obind usz Rust.eval index_v of_opt]. rewrite N2Z.id. reflexivity. Qed.

  Lemma validators_eval payload rest ds fs : Forall2 means ds fs -> Forall (fun f => f_ty f <> Items) fs ->
    rest <> [] -> (forall e, lookup "payload" e = Some (VBytes payload) -> ends_as (eval_seq eval rest e) = Some (Ret (ok_v unit_v))) ->
    forall off, off + sized_total ds <= usize_max ->
    forall e, lookup "payload" e = Some (VBytes payload) ->
    ends_as (eval_seq eval (field_validators pack off ds ++ rest) e) =
    Some (ret_map unit_result_v (run_validators pack off fs payload)).
  Proof.
    intros H Hi Hn Hrest. induction H as [|d f ds fs [emb Hm] H IH]; intros off Ho e He; [apply Hrest, He|].
    inversion Hi as [|? ? Hi1 Hi2]; subst. specialize (IH Hi2).
    destruct (means_names _ _ _ Hm) as (Hacc & Hr & Hg & Ht & Ha).
    cbn [field_validators run_validators sized_total fold_right] in *. fold (sized_total ds) in Ho. rewrite Hr in *. unfold f_size in *.
    (* one validator *)
    assert (Hone : forall code_v off', (forall e, lookup "payload" e = Some (VBytes payload) -> eval code_v e =
                      of_res e (ret_map (raw_v (f_ty f)) (match size_bytes (f_ty f) with
                                                      | Some _ => get_raw_field (f_ty f) (f_get_as_ref f) off payload
                                                      | None => let! l := slice_from payload off in slice_val (f_ty f) l end))) ->
              off' + sized_total ds <= usize_max ->
              ends_as (eval_seq eval (match fd_map d with
                                      | Some m => if fd_may_fail d then [let_val code_v; check_val (md_is_valid m) pack (intermediate_field_name d)] else []
                                      | None => [] end ++ field_validators pack off' ds ++ rest) e) =
              Some (ret_map unit_result_v (let! r := field_validator pack f off payload in
                                           match r with Err e => Ret (Err e) | Ok _ => run_validators pack off' fs payload end))).
    { intros code_v off' Hc Ho'. specialize (IH off' Ho'). unfold field_validator, f_size. rewrite Hacc.
      assert (Hne : field_validators pack off' ds ++ rest <> []) by (intros E; apply app_eq_nil in E; tauto).
      set (more := field_validators pack off' ds ++ rest) in *. clearbody more.
      clear Ho.
      set (raw := match size_bytes (f_ty f) with Some _ => get_raw_field _ _ _ _ | None => _ end) in *. clearbody raw.
      set (acc := accessor f). clearbody acc.
      destruct Hm as [name ty t alias may_fail as_ref comment Ht' Ha'
        | name ty t md scale alias may_fail as_ref comment m sz emb Ht' Ha' Hfrom Hscale Hvalid Hsize];
        cbn [fd_map f_map fd_may_fail f_ty] in *; [cbn [app bind]; apply IH; exact He|].
      destruct may_fail, (m_valid m) as [is_valid|]; try contradiction; [|cbn [app bind]; apply IH; exact He].
      cbn [app]. rewrite seq_cons by discriminate. cbn [let_val Rust.eval]. rewrite (Hc e He).
      destruct raw as [v| |]; cbn [ret_map of_res obind bind]; [|reflexivity..].
      rewrite (check_val_eval (md_is_valid md) acc (raw_v t v) (("val"%string, raw_v t v) :: e) more (is_valid v) Hne eq_refl (Hvalid v)).
      destruct (is_valid v) as [[]| |]; cbn [bind negb]; [|reflexivity..]. apply IH. exact He. }
    destruct (size_bytes (f_ty f)) as [size|] eqn:Hs.
    - unfold sized_validators. rewrite <- app_assoc. apply Hone; [|lia]. intros e' He'.
      rewrite <- Hg. apply (raw_eval d (f_ty f) size off (EVar "payload") payload e' Hr Ht Ha Hs ltac:(lia)).
      cbn [Rust.eval]. rewrite He'. reflexivity.
    - unfold unsized_validators. rewrite <- app_assoc. apply Hone; [|lia]. intros e' He'.
      rewrite (payload_index_from payload off e' He'). destruct (f_ty f) as [|n|]; [discriminate Hs| |destruct (Hi1 eq_refl)].
      destruct (slice_from payload off); reflexivity.
  Qed.

  Lemma decl_size_fields ds fs : Forall2 means ds fs -> forall acc, acc + sized_total ds <= usize_max ->
    decl_size acc ds = Good (option_map (N.add acc) (fields_size fs)).
  Proof.
    intros H. induction H as [|d f ds fs [emb Hm] H IH]; intros acc Ho; [cbn; rewrite N.add_0_r; reflexivity|].
    destruct (means_names _ _ _ Hm) as (_ & Hr & _). cbn [decl_size fields_size sized_total fold_right] in *. fold (sized_total ds) in Ho.
    unfold f_size. rewrite Hr in *. destruct (size_bytes (f_ty f)) as [n|]; [|reflexivity].
    rewrite (proj2 (N.leb_le _ _)) by lia. rewrite IH by lia. destruct (fields_size fs); cbn [option_map]; [|reflexivity].
    do 2 f_equal. lia.
  Qed.
  Lemma decl_size_zero ds fs : Forall2 means ds fs -> sized_total ds <= usize_max -> decl_size 0 ds = Good (fields_size fs).
  Proof. intros H Ho. rewrite (decl_size_fields ds fs H 0 Ho). destruct (fields_size fs); reflexivity. Qed.

  Lemma forall2_removelast {B C} (R : B -> C -> Prop) l l' : Forall2 R l l' -> Forall2 R (removelast l) (removelast l').
  Proof.
    intros H. induction H as [|x y l l' Hxy H IH]; [constructor|]. destruct H as [|x2 y2 l l' H2 H]; [constructor|].
    change (Forall2 R (x :: removelast (x2 :: l)) (y :: removelast (y2 :: l'))). constructor; assumption.
  Qed.
  Lemma means_size_fn d f emb : field_means d f emb ->
    match fd_size_fn d, f_size_fn f with None, None => True | Some s, Some g => size_means s g | _, _ => False end.
  Proof. intros []; [exact Logic.I | unfold fd_size_fn; cbn; assumption]. Qed.
  Lemma forall2_filter ds fs : Forall2 means ds fs ->
    Forall2 means (filter (fun f => match fd_size_fn f with None => true | Some _ => false end) ds)
                  (filter (fun f => match f_size_fn f with None => true | Some _ => false end) fs).
  Proof.
    intros H. induction H as [|d f ds fs [emb Hm] H IH]; [constructor|]. cbn [filter]. pose proof (means_size_fn _ _ _ Hm) as Hs.
    destruct (fd_size_fn d), (f_size_fn f); try contradiction; [exact IH|]. constructor; [exists emb|]; assumption.
  Qed.
  Lemma forall2_size_fns ds fs : Forall2 means ds fs ->
    Forall2 size_means (flat_map (fun f => match fd_size_fn f with Some s => [s] | None => [] end) ds)
                       (concat (map (fun f => match f_size_fn f with Some g => [g] | None => [] end) fs)).
  Proof.
    intros H. induction H as [|d f ds fs [emb Hm] H IH]; [constructor|]. cbn [flat_map map concat].
    pose proof (means_size_fn _ _ _ Hm) as Hs. destruct (fd_size_fn d), (f_size_fn f); try contradiction; [|exact IH].
    constructor; assumption.
  Qed.

  Lemma ctor_size_eval payload e s g : lookup "payload" e = Some (VBytes payload) -> size_means s g ->
    eval (EMethod (ECtor [(pack ++ "Ref")%string] [EVar "payload"]) s []) e = of_res e (ret_map usize_v (g payload)).
  Proof.
    intros Hl Hs. cbn [Rust.eval eval_list]. rewrite Hl. cbn [obind]. specialize (Hs payload). unfold ref_v in Hs. rewrite Hs.
    destruct (g payload); reflexivity.
  Qed.

  Lemma check_all_eval payload ds fs cond b e1 (expect_c : code) expect :
    Forall2 means ds fs -> Forall (fun f => f_ty f <> Items) fs -> sized_total ds <= usize_max ->
    lookup "payload" e1 = Some (VBytes payload) -> lookup "got" e1 = Some (usize_v (lenN payload)) ->
    eval cond e1 = Done (VBool b) e1 ->
    inits eval [expect_c] e1 = Done [("expect"%string, usize_v expect)] e1 ->
    ends_as (eval (check_all cond (field_validators pack 0 ds) pack expect_c) e1) =
    Some (ret_map unit_result_v (if b then run_validators pack 0 fs payload else Ret (Err (InvalidPacketLen pack expect (lenN payload))))).
  Proof.
    intros H Hi Ho Hp Hg Hc Hx. unfold check_all. cbn [Rust.eval]. rewrite Hc. cbn [obind]. destruct b; cbn [Rust.eval]; rewrite ends_block.
    - apply validators_eval; try assumption; try discriminate. intros; reflexivity.
    - cbn [eval_seq Rust.eval eval_list invalid_len]. cbn [inits] in Hx |- *. cbn [Rust.eval obind].
      destruct expect_c; try discriminate Hx.
      + destruct (eval expect_c e1) as [v e'| | | |] eqn:E; try discriminate Hx. cbn [obind] in Hx |- *. injection Hx as -> -> ->.
        rewrite Hg. reflexivity.
      + destruct (lookup x e1) as [v|] eqn:E; try discriminate Hx. cbn [obind] in Hx |- *. injection Hx as -> ->.
        rewrite Hg. reflexivity.
  Qed.

  Lemma got_eval payload e : lookup "payload" e = Some (VBytes payload) ->
    eval let_got e = Done unit_v (("got"%string, usize_v (lenN payload)) :: e).
  Proof.
    intros Hl. cbn [let_got Rust.eval eval_list]. rewrite Hl. cbn [obind m_name method_v std_method String.eqb Ascii.eqb Bool.eqb].
    unfold method_v. cbn [std_method String.eqb Ascii.eqb Bool.eqb write_all_back write_back obind].
    rewrite assign_same by assumption. reflexivity.
  Qed.

  Lemma z_of_n_eqb a b : (Z.of_N a =? Z.of_N b)%Z = (a =? b).
  Proof. destruct (N.eqb_spec a b) as [->|]; [apply Z.eqb_refl|]. apply Z.eqb_neq. lia. Qed.
  Lemma z_of_n_leb a b : (Z.of_N a <=? Z.of_N b)%Z = (a <=? b).
  Proof. destruct (N.leb_spec a b); [apply Z.leb_le|apply Z.leb_gt]; lia. Qed.
  Lemma z_of_n_ltb a b : (Z.of_N a <? Z.of_N b)%Z = (a <? b).
  Proof. destruct (N.ltb_spec a b); [apply Z.ltb_lt|apply Z.ltb_ge]; lia. Qed.

  Lemma validate_eval d p payload : pack = pd_name d -> p_name p = pd_name d -> Forall2 means (pd_fields d) (p_fields p) ->
    Forall (fun f => f_ty f <> Items) (p_fields p) ->
    gen_recv d = Good tt -> sized_total (pd_fields d) <= usize_max ->
    result P (validate_fn d) [VBytes payload] = Some (ret_map unit_result_v (validate p payload)).
  Proof.
    intros Hpack Hname Hf Hi Hgen Ho. rewrite result_ends by reflexivity.
    cbn [validate_fn fn_params fn_body map fst payload_param combine].
    set (e0 := [("payload"%string, VBytes payload)] : env (A := A)).
    unfold validate_body, validate, packet_payload_size. rewrite (decl_size_zero _ _ Hf Ho), Hname, <- Hpack.
    destruct (fields_size (p_fields p)) as [expect|] eqn:Hsize.
    - cbn [eval_seq Rust.eval usz obind]. fold let_got. rewrite (got_eval payload) by reflexivity. cbn [obind].
      rewrite (check_all_eval payload (pd_fields d) (p_fields p) _ (lenN payload =? expect) _ _ expect Hf Hi Ho); try reflexivity.
      cbn [Rust.eval lookup String.eqb Ascii.eqb Bool.eqb obind bin_v usize_v ity_eqb of_opt of_res]. rewrite z_of_n_eqb. reflexivity.
    - unfold all_size_fns, packet_payload_size_except_last_field, packet_payload_size_except_size_fn, size_fn_codes.
      pose proof (forall2_size_fns _ _ Hf) as Hfns. remember (flat_map _ (pd_fields d)) as fns eqn:Efns in *. symmetry in Efns.
      remember (concat (map _ (p_fields p))) as gs eqn:Egs in *.
      assert (Hfin : forall min e, lookup "payload" e = Some (VBytes payload) -> lookup "got" e = Some (usize_v (lenN payload)) ->
        lookup "min" e = Some (usize_v min) ->
        ends_as (eval_seq eval [check_all (EBin Ge (EVar "got") (EVar "min")) (field_validators pack 0 (pd_fields d)) pack
                                  (EInit "expect" (EVar "min"))] e) =
        Some (ret_map unit_result_v (if min <=? lenN payload then run_validators pack 0 (p_fields p) payload
                                     else Ret (Err (InvalidPacketLen pack min (lenN payload)))))).
      { intros min e H1 H2 H3. cbn [eval_seq]. apply check_all_eval; auto.
        - cbn [Rust.eval]. rewrite H2. cbn [obind]. rewrite H3. cbn [obind bin_v usize_v ity_eqb of_opt of_res]. rewrite z_of_n_leb. reflexivity.
        - cbn [inits Rust.eval]. rewrite H3. reflexivity. }
      rewrite seq_cons by (destruct fns; discriminate). rewrite (got_eval payload) by reflexivity. cbn [obind].
      destruct Hfns as [|s g fns' gs' Hs Hfns'].
      + assert (Hl : exists n, fields_size (removelast (p_fields p)) = Some n).
        { unfold gen_recv in Hgen. destruct (existsb (fun f => unsized f && no_size_fn f) (but_last (pd_fields d))); [discriminate Hgen|].
          assert (Hr : sized_total (removelast (pd_fields d)) <= usize_max) by (pose proof (sized_total_removelast (pd_fields d)); lia).
          destruct (fields_size (removelast (p_fields p))) as [n|] eqn:En; [eexists; reflexivity|]. exfalso.
          pose proof (decl_size_zero _ _ (forall2_removelast _ _ _ Hf) Hr) as Hd. rewrite En in Hd. apply decl_size_none in Hd.
          pose proof (decl_size_zero _ _ Hf Ho) as Hd'. rewrite Hsize in Hd'. apply decl_size_none in Hd'.
          unfold but_last in Hgen. rewrite Hd, Hd', <- no_fns in Hgen. cbn [andb] in Hgen.
          unfold size_fn_codes in Hgen. rewrite Efns in Hgen. discriminate Hgen. }
        destruct Hl as [n Hl]. rewrite Hl.
        assert (Hr : sized_total (removelast (pd_fields d)) <= usize_max) by (pose proof (sized_total_removelast (pd_fields d)); lia).
        rewrite (decl_size_zero _ _ (forall2_removelast _ _ _ Hf) Hr), Hl. cbn [the_size app].
        rewrite !seq_cons by discriminate. cbn [Rust.eval usz obind]. apply Hfin; reflexivity.
      + assert (Hr : sized_total (filter (fun f => match fd_size_fn f with None => true | Some _ => false end) (pd_fields d)) <= usize_max)
          by (pose proof (sized_total_filter (fun f => match fd_size_fn f with None => true | Some _ => false end) (pd_fields d)); lia).
        rewrite (decl_size_zero _ _ (forall2_filter _ _ Hf) Hr). cbn [the_size].
        set (size := match fields_size (filter _ (p_fields p)) with Some n => n | None => 0 end). clearbody size.
        cbn [app]. rewrite seq_cons by discriminate.
        set (e1 := ("got"%string, usize_v (lenN payload)) :: e0).
        pose proof (sum_eval (ECtor [(pack ++ "Ref")%string] [EVar "payload"]) payload e1
          (fun s g => ctor_size_eval payload e1 s g eq_refl) (s :: fns') (g :: gs') (Forall2_cons _ _ Hs Hfns') (usz size) (Ret size) eq_refl) as Hsum.
        set (sum := sum_expr _ _ _) in *. clearbody sum. cbn [bind] in Hsum. set (r := add_size_fns _ _ _) in *. clearbody r.
        cbn [Rust.eval eval_seq eval_list usz invalid_len inits].
        change (lookup "got" e1) with (Some (usize_v (lenN payload) : value)).
        cbn [obind bin_v usize_v ity_eqb of_opt of_res]. rewrite z_of_n_ltb. destruct (lenN payload <? size); cbn [obind].
        * reflexivity.
        * rewrite Hsum. destruct r as [min| |]; cbn [ret_map of_res obind bind]; [|reflexivity..]. rewrite leave_self.
          apply Hfin; reflexivity.
  Qed.
End Eval.
