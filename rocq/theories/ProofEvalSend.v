(** * The meaning of the generated sending code *)
From Coq Require Import String Ascii List NArith ZArith Bool Lia.
From Verif Require Import Base BaseFacts Tokens Syntax DualBuffer Checksum Parser PackDesc GenRecv GenSend Macro Output Rust Code SpecCode
  ProofMacro ProofOutput ProofEval.
Import ListNotations.
Open Scope N_scope.
Open Scope list_scope.

Section Send.
  Context {A : Type} (P : program A).
  Context (item_v : item -> value A).
  Notation value := (value A).
  Notation eval := (eval P).
  Notation raw_v := (raw_v item_v).

  (** ** Variables *)

  Lemma lookup_app_none x (l e : env (A := A)) : lookup x l = None -> lookup x (l ++ e) = lookup x e.
  Proof. induction l as [|[y v] l IH]; [reflexivity|]. cbn [app lookup]. destruct (String.eqb x y); [discriminate|exact IH]. Qed.
  Lemma lookup_app_some x v (l e : env (A := A)) : lookup x l = Some v -> lookup x (l ++ e) = Some v.
  Proof. induction l as [|[y w] l IH]; [discriminate|]. cbn [app lookup]. destruct (String.eqb x y); [auto|exact IH]. Qed.
  Lemma assign_app_none x v (l e : env (A := A)) : lookup x l = None -> assign x v (l ++ e) = l ++ assign x v e.
  Proof.
    induction l as [|[y w] l IH]; [reflexivity|]. cbn [app lookup assign]. destruct (String.eqb x y); [discriminate|].
    intros H. rewrite IH by exact H. reflexivity.
  Qed.
  Lemma assign_app_some x v w (l e : env (A := A)) : lookup x l = Some w -> assign x v (l ++ e) = assign x v l ++ e.
  Proof.
    induction l as [|[y u] l IH]; [discriminate|]. cbn [app lookup assign]. destruct (String.eqb x y); [reflexivity|].
    intros H. rewrite IH by exact H. reflexivity.
  Qed.
  Lemma lookup_assign x v w (e : env (A := A)) : lookup x e = Some w -> lookup x (assign x v e) = Some v.
  Proof.
    induction e as [|[y u] e IH]; [discriminate|]. cbn [lookup assign]. destruct (String.eqb x y) eqn:E; cbn [lookup]; rewrite E; [reflexivity|exact IH].
  Qed.
  Lemma lookup_assign_other x y v (e : env (A := A)) : String.eqb y x = false -> lookup y (assign x v e) = lookup y e.
  Proof.
    intros N. induction e as [|[z u] e IH]; [reflexivity|]. cbn [lookup assign]. destruct (String.eqb x z) eqn:E; cbn [lookup].
    - apply String.eqb_eq in E. subst z. rewrite N. reflexivity.
    - destruct (String.eqb y z); [reflexivity|exact IH].
  Qed.
  Lemma assign_assign x v w (e : env (A := A)) : assign x w (assign x v e) = assign x w e.
  Proof.
    induction e as [|[y u] e IH]; [reflexivity|]. cbn [assign]. destruct (String.eqb x y) eqn:E; cbn [assign]; rewrite E; [reflexivity|].
    rewrite IH. reflexivity.
  Qed.
  Lemma assign_length x v (e : env (A := A)) : length (assign x v e) = length e.
  Proof. induction e as [|[y u] e IH]; [reflexivity|]. cbn [assign]. destruct (String.eqb x y); cbn; [|rewrite IH]; reflexivity. Qed.

  (** ** The bytes of a field *)

  Lemma sends_names df f emb : field_sends P item_v df f emb -> intermediate_field_name df = accessor f /\ fd_raw df = f_ty f.
  Proof. intros []; cbn; auto. Qed.

  Lemma u8_index bytes i e : lookup "bytes" e = Some (VBytes bytes) ->
    eval (EIndex bytes_e (usz i)) e = of_res e (ret_map u8_v (get bytes i)).
  Proof. intros H. cbn [Rust.eval bytes_e usz]. rewrite H. cbn [obind index_v of_opt]. rewrite N2Z.id. reflexivity. Qed.


  Lemma assign_comm x y v w (e : env (A := A)) : String.eqb x y = false ->
    assign x v (assign y w e) = assign y w (assign x v e).
  Proof.
    intros N. assert (N' : String.eqb y x = false) by (rewrite String.eqb_sym; exact N).
    induction e as [|[z u] e IH]; [reflexivity|]. cbn [assign].
    destruct (String.eqb y z) eqn:Ey; cbn [assign]; destruct (String.eqb x z) eqn:Ex; cbn [assign]; rewrite ?Ey, ?Ex; try reflexivity.
    - apply String.eqb_eq in Ex, Ey. subst. rewrite String.eqb_refl in N. discriminate N.
    - rewrite IH. reflexivity.
  Qed.

  Definition junk (j : env (A := A)) : Prop := Forall (fun p => fst p = "bytes"%string) j.
  Lemma junk_lookup x j : String.eqb x "bytes" = false -> junk j -> lookup x j = None.
  Proof.
    intros N H. induction H as [|[y v] j Hy H IH]; [reflexivity|]. cbn [fst] in Hy. subst y. cbn [lookup]. rewrite N. exact IH.
  Qed.
  Lemma junk_look x j e : String.eqb x "bytes" = false -> junk j -> lookup x (j ++ e) = lookup x e.
  Proof. intros N H. apply lookup_app_none, junk_lookup; assumption. Qed.
  Lemma junk_assign x v j e : String.eqb x "bytes" = false -> junk j -> assign x v (j ++ e) = j ++ assign x v e.
  Proof. intros N H. apply assign_app_none, junk_lookup; assumption. Qed.

  Lemma let_bytes_eval df f emb v n l size rest e : field_sends P item_v df f emb -> fvalue_ok f v ->
    size_bytes (f_ty f) = Some size -> rest <> [] ->
    lookup "self" e = Some (VAdt n l) -> lookup (accessor f) l = Some (emb v) ->
    eval_seq eval (let_bytes df ++ rest) e =
    match field_bytes f v with
    | Ret bs => eval_seq eval rest (("bytes"%string, VBytes bs) :: e)
    | Panic => Panics
    | Diverge => Diverges
    end.
  Proof.
    intros Hs Hok Hz Hn He Hl. destruct (sends_names _ _ _ Hs) as [Ha Hr]. unfold let_bytes, self_field. rewrite Ha.
    unfold is_field_raw_ty_byte_array. rewrite Hr. set (acc := accessor f) in *. clearbody acc. clear Ha Hr.
    unfold field_bytes, to_raw.
    destruct Hs as [name ty t alias may_fail as_ref comment Ht Hi
      | name ty s md scale alias may_fail as_ref comment m sz emb Ht Hinto]; cbn [fd_map f_map f_ty] in *.
    - destruct t as [s|k|]; [| |discriminate Hz]; cbn [negb app bind raw_bytes].
      + rewrite seq_cons by assumption. cbn [Rust.eval self_e eval_list]. rewrite He. cbn [obind]. rewrite Hl. reflexivity.
      + rewrite seq_cons by discriminate. cbn [Rust.eval self_e]. rewrite He. cbn [obind]. rewrite Hl. cbn [obind].
        rewrite seq_cons by assumption. reflexivity.
    - cbn [app]. rewrite seq_cons by assumption. cbn [Rust.eval self_e eval_list]. rewrite He. cbn [obind]. rewrite Hl. cbn [obind].
      rewrite Hinto by exact Hok. cbn [of_opt]. destruct (m_into m v); reflexivity.
  Qed.

  Lemma set_eval x i c e l b k rest : rest <> [] -> lookup x e = Some (VBytes l) -> eval c e = of_res e (ret_map u8_v b) ->
    eval i e = Done (usize_v k) e ->
    eval_seq eval (SSet x i c :: rest) e =
    match (let! b := b in set_at l k b) with
    | Ret l' => eval_seq eval rest (assign x (VBytes l') e)
    | Panic => Panics
    | Diverge => Diverges
    end.
  Proof.
    intros Hn Hx Hc Hi. rewrite seq_cons by assumption. cbn [Rust.eval]. rewrite Hc. destruct b as [b| |]; cbn [ret_map of_res obind bind]; [|reflexivity..].
    rewrite Hi. cbn [obind usize_v]. rewrite Hx, as_u8_v, N2Z.id. destruct (set_at l k b); reflexivity.
  Qed.

  Lemma copy_eval bytes rest : rest <> [] -> forall n off i0 ret e,
    lookup "bytes" e = Some (VBytes bytes) -> lookup "ret" e = Some (VBytes ret) ->
    eval_seq eval (copy_stmts off i0 n ++ rest) e =
    match copy_bytes ret off i0 bytes n with
    | Ret ret' => eval_seq eval rest (assign "ret" (VBytes ret') e)
    | Panic => Panics
    | Diverge => Diverges
    end.
  Proof.
    intros Hn. induction n as [|n IH]; intros off i0 ret e Hb Hr.
    - cbn [copy_stmts app copy_bytes]. rewrite assign_same by assumption. reflexivity.
    - cbn [copy_stmts app copy_bytes].
      rewrite (set_eval "ret" (usz (off + i0)) _ e ret (get bytes i0) (off + i0)); [| | |apply u8_index|]; try assumption; try reflexivity.
      2: { intros E. apply app_eq_nil in E. tauto. }
      destruct (get bytes i0) as [b| |]; cbn [bind]; [|reflexivity..].
      destruct (set_at ret (off + i0) b) as [ret'| |]; cbn [bind]; [|reflexivity..].
      rewrite (IH off (i0 + 1) ret').
      + destruct (copy_bytes ret' off (i0 + 1) bytes n); [|reflexivity..]. rewrite assign_assign. reflexivity.
      + rewrite lookup_assign_other by reflexivity. exact Hb.
      + eapply lookup_assign, Hr.
  Qed.

  (** The rest of the fields of a builder can be found by their names *)
  Definition finds (fs : list field) (l all : list (string * value)) : Prop :=
    forall x v, lookup x l = Some v -> lookup x all = Some v.

  Lemma builder_names ds fs b l : builder_means P item_v ds fs b l -> map fst l = map accessor fs.
  Proof. intros H. induction H; cbn; congruence. Qed.

  Lemma pack_eval bn all rest : rest <> [] -> forall ds fs b l, builder_means P item_v ds fs b l ->
    NoDup (map fst l) -> (forall x v, In (x, v) l -> lookup x all = Some v) ->
    forall off ret e, lookup "self" e = Some (VAdt bn all) -> lookup "ret" e = Some (VBytes ret) ->
    match pack_fields fs off b ret with
    | Ret ret' => exists j, junk j /\ eval_seq eval (pack_stmts off ds ++ rest) e = eval_seq eval rest (j ++ assign "ret" (VBytes ret') e)
    | Panic => eval_seq eval (pack_stmts off ds ++ rest) e = Panics
    | Diverge => eval_seq eval (pack_stmts off ds ++ rest) e = Diverges
    end.
  Proof.
    intros Hn ds fs b l H. induction H as [|df f emb v ds fs b l Hs Hok H IH]; intros Hd Hall off ret e He Hr.
    - exists []. split; [constructor|]. cbn [app pack_stmts]. rewrite assign_same by assumption. reflexivity.
    - cbn [map fst] in Hd. inversion Hd as [|? ? Hnot Hd']; subst. destruct (sends_names _ _ _ Hs) as [_ Hraw].
      cbn [pack_fields pack_stmts fst snd]. unfold f_size. rewrite Hraw. destruct (size_bytes (f_ty f)) as [size|] eqn:Hz.
      2: { exists []. split; [constructor|]. cbn [app]. rewrite assign_same by assumption. reflexivity. }
      rewrite <- !app_assoc.
      assert (Hne : forall off, pack_stmts off ds ++ rest <> []) by (intros o E; apply app_eq_nil in E; tauto).
      assert (Hne2 : forall off, copy_stmts off 0 (N.to_nat size) ++ pack_stmts (off + size) ds ++ rest <> [])
        by (intros o E; apply app_eq_nil in E; destruct E as [_ E]; apply (Hne _ E)).
      rewrite (let_bytes_eval df f emb v bn all size _ e Hs Hok Hz (Hne2 off) He (Hall _ _ (or_introl eq_refl))).
      destruct (field_bytes f v) as [bs| |]; cbn [bind]; [|reflexivity..].
      rewrite (copy_eval bs _ (Hne _) (N.to_nat size) off 0 ret) by (try reflexivity; exact Hr).
      destruct (copy_bytes ret off 0 bs (N.to_nat size)) as [ret'| |]; cbn [bind]; [|reflexivity..].
      cbn [assign String.eqb Ascii.eqb Bool.eqb].
      specialize (IH Hd' (fun x w Hin => Hall x w (or_intror Hin)) (off + size) ret'
                     (("bytes"%string, VBytes bs) :: assign "ret" (VBytes ret') e)).
      cbn [lookup String.eqb Ascii.eqb Bool.eqb] in IH. rewrite lookup_assign_other in IH by reflexivity.
      specialize (IH He (lookup_assign _ _ _ _ Hr)). destruct (pack_fields fs (off + size) b ret') as [ret''| |]; [|exact IH..].
      destruct IH as (j & Hj & IH). exists (j ++ [("bytes"%string, VBytes bs)]). split; [apply Forall_app; split; [exact Hj|]; repeat constructor|].
      rewrite IH. cbn [assign String.eqb Ascii.eqb Bool.eqb]. rewrite assign_assign, <- app_assoc. reflexivity.
  Qed.

  Lemma or_empty_eval l rest e : rest <> [] -> eval_seq eval (or_empty l ++ rest) e = eval_seq eval (l ++ rest) e.
  Proof. intros Hn. destruct l; [|reflexivity]. cbn [or_empty app]. rewrite seq_cons by assumption. reflexivity. Qed.

  (** ** [into_packet_bytes] *)

  Context (L : library P item_v).

  Lemma consts_eval d p : header_means d p -> knows_consts P d ->
    c_const P [pd_name d; "CLASS"%string] = Some (u8_v (p_class p)) /\ c_const P [pd_name d; "ID"%string] = Some (u8_v (p_id p)).
  Proof.
    intros Hh Hk. unfold knows_consts, packet_consts in Hk. inversion Hk as [|? ? H1 Hk1]. inversion Hk1 as [|? ? H2 _]. subst.
    cbn [k_name k_val] in *. rewrite H1, H2. unfold const, u8_v. cbn [u8_e Rust.eval]. rewrite (pm_class d p Hh), (pm_id d p Hh). auto.
  Qed.

  Lemma const_eval p v e : c_const P p = Some v -> eval (EConst p) e = Done v e.
  Proof. intros H. cbn [Rust.eval]. rewrite H. reflexivity. Qed.

  Lemma nodup_lookup (l : list (string * value)) : NoDup (map fst l) -> forall x v, In (x, v) l -> lookup x l = Some v.
  Proof.
    intros H x v. induction l as [|[y w] l IH]; [intros []|]. cbn [map fst lookup] in *. inversion H as [|? ? Hn H']; subst.
    intros [E|Hin]; [injection E as -> ->; rewrite String.eqb_refl; reflexivity|].
    destruct (String.eqb x y) eqn:E; [|apply IH; assumption]. apply String.eqb_eq in E. subst y. destruct Hn. apply (in_map fst) in Hin. exact Hin.
  Qed.


  Lemma u16_le n : n <= 65535 -> to_le_bytes U16 (Z.of_N n) = u16_bytes n.
  Proof.
    intros H. unfold to_le_bytes, u16_bytes. cbn [scalar_size]. change (2 ^ (8 * Z.of_N 2))%Z with 65536%Z.
    rewrite Z.mod_small by lia. rewrite N2Z.id. reflexivity.
  Qed.

  Lemma checksum_eval c l e : eval c e = Done (VBytes l) e -> eval (ECall f_checksum [c]) e = Done (two_v (ubx_checksum l)) e.
  Proof.
    intros H. cbn [Rust.eval eval_list]. rewrite H. cbn [obind]. unfold fn_v.
    change (tokens_eqb f_checksum once_path) with false. cbn iota. unfold f_checksum. rewrite (lib_checksum _ _ L). reflexivity.
  Qed.

  Lemma set_const x i p k b l rest e : rest <> [] -> lookup x e = Some (VBytes l) -> c_const P p = Some (u8_v b) ->
    eval i e = Done (usize_v k) e ->
    eval_seq eval (SSet x i (EConst p) :: rest) e =
    match set_at l k b with
    | Ret l' => eval_seq eval rest (assign x (VBytes l') e)
    | Panic => Panics
    | Diverge => Diverges
    end.
  Proof.
    intros Hn Hx Hp Hi. rewrite (set_eval x i (EConst p) e l (Ret b) k rest Hn Hx); [reflexivity| |exact Hi].
    apply const_eval, Hp.
  Qed.
  Lemma set_index x i y j k l m rest e : rest <> [] -> lookup x e = Some (VBytes l) -> lookup y e = Some (VBytes m) ->
    eval i e = Done (usize_v k) e ->
    eval_seq eval (SSet x i (EIndex (EVar y) (ix j)) :: rest) e =
    match (let! b := get m j in set_at l k b) with
    | Ret l' => eval_seq eval rest (assign x (VBytes l') e)
    | Panic => Panics
    | Diverge => Diverges
    end.
  Proof.
    intros Hn Hx Hy Hi. apply set_eval; try assumption. cbn [Rust.eval ix]. rewrite Hy. cbn [obind index_v of_opt]. rewrite N2Z.id. reflexivity.
  Qed.

  Lemma ends_match {B} (r : res B) (k : B -> outcome A value) (k' : B -> res (list byte)) :
    (forall b, r = Ret b -> ends_as (k b) = Some (ret_map VBytes (k' b))) ->
    ends_as match r with Ret b => k b | Panic => Panics | Diverge => Diverges end = Some (ret_map VBytes (let! b := r in k' b)).
  Proof. intros H. destruct r as [b| |]; [apply H; reflexivity|reflexivity..]. Qed.

  Lemma into_packet_bytes_eval d p b l size : header_means d p -> knows_consts P d ->
    builder_means P item_v (pd_fields d) (p_fields p) b l -> NoDup (map accessor (p_fields p)) ->
    packet_payload_size p = Some size -> size <= 65535 ->
    c_const P ["Self"; "PACKET_LEN"]%string = Some (usize_v (size + 8)) ->
    result P (into_packet_bytes_fn d size) [builder_v (pd_name d) l] = Some (ret_map VBytes (into_packet_bytes p b)).
  Proof.
    intros Hh Hk Hb Hnd Hsize Hmax Hself. destruct (consts_eval d p Hh Hk) as [Hclass Hid].
    rewrite result_ends by reflexivity. cbn [into_packet_bytes_fn fn_params fn_body map fst own_self_param combine].
    unfold into_packet_bytes, packet_len. rewrite Hsize. unfold builder_v. set (bv := VAdt _ l : value).
    unfold sync_1, sync_2, packet_const. cbn [app]. rewrite seq_cons by discriminate.
    assert (Hz : forall e, eval (SLet true "ret" [] (ERepeat (ENum 0 "u8" (I U8)) self_len)) e =
                 Done unit_v (("ret"%string, VBytes (repeat x00 (N.to_nat (size + 8)))) :: e)).
    { intros e. cbn [Rust.eval self_len]. rewrite Hself. cbn [obind usize_v as_u8]. change (n2b (Z.to_N (Z.of_N 0))) with x00.
      rewrite <- Z_N_nat, N2Z.id. reflexivity. }
    rewrite Hz. cbn [obind]. clear Hz. set (e0 := [("self"%string, bv)]).
    set (n := size + 8). set (r0 := repeat x00 (N.to_nat n)). clearbody r0.
    rewrite (set_const "ret" (ix 0) _ 0 SYNC_CHAR_1 r0); [|discriminate|reflexivity|apply (lib_sync_1 _ _ L)|reflexivity].
    apply ends_match. intros r1 _. cbn [assign String.eqb Ascii.eqb Bool.eqb].
    rewrite (set_const "ret" (ix 1) _ 1 SYNC_CHAR_2 r1); [|discriminate|reflexivity|apply (lib_sync_2 _ _ L)|reflexivity].
    apply ends_match. intros r2 _. cbn [assign String.eqb Ascii.eqb Bool.eqb].
    rewrite (set_const "ret" (ix 2) _ 2 (p_class p) r2); [|discriminate|reflexivity|exact Hclass|reflexivity].
    apply ends_match. intros r3 _. cbn [assign String.eqb Ascii.eqb Bool.eqb].
    rewrite (set_const "ret" (ix 3) _ 3 (p_id p) r3); [|discriminate|reflexivity|exact Hid|reflexivity].
    apply ends_match. intros r4 _. cbn [assign String.eqb Ascii.eqb Bool.eqb].
    rewrite seq_cons by discriminate.
    change (eval (SLet false "pack_len_bytes" [] (EMethod (u16_e size) (m_name "to_le_bytes") [])) (("ret"%string, VBytes r4) :: e0))
      with (Done (unit_v : value) (("pack_len_bytes"%string, VBytes (to_le_bytes U16 (Z.of_N size))) :: ("ret"%string, VBytes r4) :: e0)).
    cbn [obind]. rewrite u16_le by exact Hmax. set (lb := u16_bytes size). clearbody lb.
    rewrite (set_index "ret" (ix 4) "pack_len_bytes" 0 4 r4 lb); [|discriminate|reflexivity..].
    destruct (get lb 0) as [l0| |]; cbn [bind]; [|reflexivity..].
    apply ends_match. intros r5 _. cbn [assign String.eqb Ascii.eqb Bool.eqb].
    rewrite (set_index "ret" (ix 5) "pack_len_bytes" 1 5 r5 lb); [| |reflexivity..].
    2: { intros E. apply app_eq_nil in E. destruct E as [_ E]. discriminate E. }
    destruct (get lb 1) as [l1| |]; cbn [bind]; [|reflexivity..].
    apply ends_match. intros r6 _. cbn [assign String.eqb Ascii.eqb Bool.eqb].
    rewrite or_empty_eval by discriminate.
    set (e6 := ("pack_len_bytes"%string, VBytes lb) :: ("ret"%string, VBytes r6) :: e0).
    match goal with |- context [pack_stmts 6 (pd_fields d) ++ ?r] => set (rest := r) end.
    assert (Hnd' : NoDup (map fst l)) by (rewrite (builder_names _ _ _ _ Hb); exact Hnd).
    pose proof (pack_eval [(pd_name d ++ "Builder")%string] l rest ltac:(discriminate) (pd_fields d) (p_fields p) b l Hb Hnd'
                  (nodup_lookup l Hnd') 6 r6 e6 eq_refl eq_refl) as Hp.
    destruct (pack_fields (p_fields p) 6 b r6) as [r7| |]; cbn [bind]; [|rewrite Hp; reflexivity..].
    destruct Hp as (j & Hj & Hp). rewrite Hp. clear Hp. cbn [assign String.eqb Ascii.eqb Bool.eqb e6].
    set (e7 := ("pack_len_bytes"%string, VBytes lb) :: ("ret"%string, VBytes r7) :: e0).
    assert (Hret : forall r, lookup "ret" (j ++ ("pack_len_bytes"%string, VBytes lb) :: ("ret"%string, VBytes r) :: e0) = Some (VBytes r))
      by (intros r; rewrite junk_look by (assumption || reflexivity); reflexivity).
    subst rest. rewrite seq_cons by discriminate. cbn [Rust.eval self_len eval_list].
    unfold e7 at 1. rewrite Hret. fold e7. cbn [obind ix Rust.eval]. rewrite Hself. cbn [obind usize_v bin_v of_opt]. rewrite !N2Z.id.
    fold n. destruct (usub n 2) as [stop| |] eqn:Hstop; cbn [ret_map of_res obind bind usize_v]; [|reflexivity..].
    rewrite !N2Z.id. cbn [index_v of_opt]. destruct (slice r7 2 stop) as [body| |]; cbn [ret_map of_res obind bind]; [|reflexivity..].
    unfold fn_v. change (tokens_eqb f_checksum once_path) with false. cbn iota. unfold f_checksum. rewrite (lib_checksum _ _ L).
    destruct (ubx_checksum body) as [ck_a ck_b]. cbn [of_opt of_res obind two_v fst snd].
    assert (Hix : forall k e, eval (EBin Sub self_len (ix k)) e = of_res e (ret_map usize_v (usub n k))).
    { intros k e. cbn [Rust.eval self_len ix]. rewrite Hself. cbn [obind usize_v bin_v of_opt]. rewrite !N2Z.id. reflexivity. }
    set (e8 := ("ck_b"%string, u8_v ck_b) :: ("ck_a"%string, u8_v ck_a) :: j ++ e7).
    rewrite (set_eval "ret" _ _ e8 r7 (Ret ck_a) stop); [|discriminate|apply Hret|reflexivity|rewrite Hix, Hstop; reflexivity].
    cbn [bind]. apply ends_match. intros r8 _.
    assert (He8 : assign "ret" (VBytes r8) e8 = ("ck_b"%string, u8_v ck_b) :: ("ck_a"%string, u8_v ck_a) :: j ++
                    ("pack_len_bytes"%string, VBytes lb) :: ("ret"%string, VBytes r8) :: e0).
    { unfold e8. cbn [assign String.eqb Ascii.eqb Bool.eqb]. rewrite junk_assign by (assumption || reflexivity). reflexivity. }
    rewrite He8. clear He8 e8. set (e9 := ("ck_b"%string, _) :: _).
    rewrite seq_cons by discriminate. cbn [Rust.eval self_len ix]. change (lookup "ck_b" e9) with (Some (u8_v ck_b : value)). cbn [obind].
    rewrite Hself. cbn [obind usize_v bin_v of_opt]. rewrite !N2Z.id. fold n.
    destruct (usub n 1) as [k| |]; cbn [ret_map of_res obind bind usize_v]; [|reflexivity..].
    assert (H9 : lookup "ret" e9 = Some (VBytes r8)) by apply Hret. rewrite H9, as_u8_v, N2Z.id.
    destruct (set_at r8 k ck_b) as [r9| |]; cbn [ret_map of_res obind bind]; [|reflexivity..].
    cbn [eval_seq Rust.eval]. rewrite (lookup_assign "ret" _ _ _ H9). reflexivity.
  Qed.

  (** ** [create_packet] *)

  Section Writer.
    Context {W E : Type} (w : mem_writer W E) (w_v : W -> value) (error : E -> value).
    Context (Hw : writer_means P w w_v error).

    Lemma try_ok c e r e' : eval c e = Done (write_result_v error r) e' ->
      eval (SExpr (ETry c)) e = match r with None => Done unit_v e' | Some _ => Return (write_result_v error r) e' end.
    Proof. intros H. cbn [Rust.eval]. rewrite H. destruct r as [[|]|]; reflexivity. Qed.

    Lemma write_eval c l out e : eval c e = Done (VBytes l) e -> lookup "out" e = Some (w_v out) ->
      eval (EMethod (EVar "out") (m_name "write") [ERef c]) e =
      Done (write_result_v error (snd (w_write w l out))) (assign "out" (w_v (fst (w_write w l out))) e).
    Proof.
      intros Hc Ho. cbn [Rust.eval eval_list]. rewrite Ho. cbn [obind]. rewrite Hc. cbn [obind]. unfold m_name. rewrite (wm_write _ _ _ _ Hw).
      reflexivity.
    Qed.
    Lemma update_eval c l ck e : eval c e = Done (VBytes l) e -> lookup "checksum_calc" e = Some (checksum_v ck) ->
      eval (SExpr (EMethod (EVar "checksum_calc") (m_name "update") [ERef c])) e =
      Done unit_v (assign "checksum_calc" (checksum_v (cksum_update ck l)) e).
    Proof.
      intros Hc Ho. cbn [Rust.eval eval_list]. rewrite Ho. cbn [obind]. rewrite Hc. cbn [obind]. unfold m_name, method_v.
      change (std_method [TIdent "update"] (checksum_v ck) [VBytes l]) with (@None (value * list value * value)). cbn iota.
      rewrite (lib_update _ _ L). reflexivity.
    Qed.

    Lemma write_all_eval bn all rest : rest <> [] -> forall ds fs b l, builder_means P item_v ds fs b l ->
      NoDup (map fst l) -> (forall x v, In (x, v) l -> lookup x all = Some v) ->
      forall out ck e, lookup "self" e = Some (VAdt bn all) -> lookup "out" e = Some (w_v out) ->
      lookup "checksum_calc" e = Some (checksum_v ck) ->
      match write_fields w fs b out ck with
      | Ret (out', ck', r) =>
          exists j, junk j /\
          eval_seq eval (write_all_stmts ds ++ rest) e =
          let e' := j ++ assign "checksum_calc" (checksum_v ck') (assign "out" (w_v out') e) in
          match r with None => eval_seq eval rest e' | Some _ => Return (write_result_v error r) e' end
      | Panic => eval_seq eval (write_all_stmts ds ++ rest) e = Panics
      | Diverge => eval_seq eval (write_all_stmts ds ++ rest) e = Diverges
      end.
    Proof.
      intros Hn ds fs b l H. induction H as [|df f emb v ds fs b l Hs Hok H IH]; intros Hd Hall out ck e He Ho Hc.
      - exists []. split; [constructor|]. cbn [app write_all_stmts]. rewrite (assign_same "out") by assumption.
        rewrite assign_same by assumption. reflexivity.
      - cbn [map fst] in Hd. inversion Hd as [|? ? Hnot Hd']; subst. destruct (sends_names _ _ _ Hs) as [_ Hraw].
        cbn [write_fields write_all_stmts fst snd]. unfold f_size. rewrite Hraw. destruct (size_bytes (f_ty f)) as [size|] eqn:Hz.
        2: { exists []. split; [constructor|]. cbn [app]. rewrite (assign_same "out") by assumption. rewrite assign_same by assumption. reflexivity. }
        rewrite <- !app_assoc.
        assert (Hne : write_all_stmts ds ++ rest <> []) by (intros E0; apply app_eq_nil in E0; tauto).
        rewrite (let_bytes_eval df f emb v bn all size _ e Hs Hok Hz) by (try assumption; try discriminate; apply Hall; left; reflexivity).
        destruct (field_bytes f v) as [bs| |]; cbn [bind]; [|reflexivity..].
        set (e1 := ("bytes"%string, VBytes bs) :: e). unfold write_stmts. cbn [app]. rewrite seq_cons by discriminate.
        rewrite (try_ok _ _ _ _ (write_eval bytes_e bs out e1 eq_refl Ho)).
        destruct (w_write w bs out) as [out' [err|]]; cbn [fst snd].
        + cbn [obind]. exists [("bytes"%string, VBytes bs)]. split; [repeat constructor|]. unfold e1. cbn [assign String.eqb Ascii.eqb Bool.eqb].
          rewrite (assign_same "checksum_calc"); [reflexivity|]. rewrite lookup_assign_other by reflexivity. exact Hc.
        + cbn [obind]. set (e2 := assign "out" (w_v out') e1). rewrite seq_cons by assumption.
          assert (H2 : e2 = ("bytes"%string, VBytes bs) :: assign "out" (w_v out') e) by reflexivity. clearbody e2. subst e2.
          rewrite (update_eval bytes_e bs ck) by (try reflexivity; cbn [lookup String.eqb Ascii.eqb Bool.eqb]; rewrite lookup_assign_other by reflexivity; exact Hc).
          cbn [obind assign String.eqb Ascii.eqb Bool.eqb].
          set (e3 := assign "checksum_calc" _ (assign "out" _ e)).
          specialize (IH Hd' (fun x u Hin => Hall x u (or_intror Hin)) out' (cksum_update ck bs) (("bytes"%string, VBytes bs) :: e3)).
          cbn [lookup String.eqb Ascii.eqb Bool.eqb] in IH. unfold e3 in IH.
          rewrite !(lookup_assign_other "checksum_calc") in IH by reflexivity. rewrite (lookup_assign_other "out") in IH by reflexivity.
          specialize (IH He (lookup_assign _ _ _ _ Ho)).
          assert (Hc' : lookup "checksum_calc" (assign "out" (w_v out') e) = Some (checksum_v ck))
            by (rewrite lookup_assign_other by reflexivity; exact Hc).
          specialize (IH (lookup_assign _ _ _ _ Hc')). fold e3 in IH.
          destruct (write_fields w fs b out' (cksum_update ck bs)) as [[[out'' ck''] r]| |]; [|exact IH..].
          destruct IH as (j & Hj & IH). exists (j ++ [("bytes"%string, VBytes bs)]). split; [apply Forall_app; split; [exact Hj|]; repeat constructor|].
          rewrite IH. cbv zeta. cbn [assign String.eqb Ascii.eqb Bool.eqb]. rewrite <- app_assoc. cbn [app].
          assert (Hee : assign "checksum_calc" (checksum_v ck'') (assign "out" (w_v out'') e3) =
                        assign "checksum_calc" (checksum_v ck'') (assign "out" (w_v out'') e)).
          { unfold e3. rewrite (assign_comm "out" "checksum_calc") by reflexivity. rewrite !assign_assign. reflexivity. }
          rewrite Hee. reflexivity.
    Qed.

    (** The result of a call and the parameters afterwards *)
    Definition ends_call (e0 : env (A := A)) (o : outcome A value) : option (res (value * list value)) :=
      match o with
      | Done v e | Return v e => Some (Ret (v, map snd (leave e0 e)))
      | Panics => Some Panic
      | Diverges => Some Diverge
      | Wrong => None
      end.
    Lemma leave_leave (e0 e : env (A := A)) : leave e0 (leave e0 e) = leave e0 e.
    Proof.
      unfold leave. rewrite skipn_length. destruct (Nat.le_gt_cases (length e0) (length e)).
      - replace (length e - (length e - length e0) - length e0)%nat with O by lia. reflexivity.
      - replace (length e - length e0)%nat with O by lia. rewrite Nat.sub_0_r. replace (length e - length e0)%nat with O by lia. reflexivity.
    Qed.
    Lemma call_ends f args : length args = length (fn_params f) ->
      call P f args = ends_call (combine (map fst (fn_params f)) args) (eval_seq eval (fn_body f) (combine (map fst (fn_params f)) args)).
    Proof.
      intros H. unfold call. rewrite (proj2 (Nat.eqb_eq _ _) H). cbn [Rust.eval].
      destruct (eval_seq eval (fn_body f) (combine (map fst (fn_params f)) args)); cbn [obind ends_call]; [|reflexivity..].
      rewrite leave_leave. reflexivity.
    Qed.
    Lemma leave_suffix (l e e' : env (A := A)) : length e = length e' -> leave e (l ++ e') = e'.
    Proof. intros H. rewrite <- (leave_app l e') at 2. unfold leave. rewrite H. reflexivity. Qed.

    Lemma index_eval2 x m k e : lookup x e = Some (VBytes m) ->
      eval (EIndex (EVar x) (ix k)) e = of_res e (ret_map u8_v (get m k)).
    Proof. intros H. cbn [Rust.eval ix]. rewrite H. cbn [obind index_v of_opt]. rewrite N2Z.id. reflexivity. Qed.
    Lemma eval_list_res c cs e (r : res byte) (rs : res (list byte)) :
      eval c e = of_res e (ret_map u8_v r) -> eval_list eval cs e = of_res e (ret_map (map u8_v) rs) ->
      eval_list eval (c :: cs) e = of_res e (ret_map (map u8_v) (let! b := r in let! l := rs in Ret (b :: l))).
    Proof.
      intros Hc Hcs. cbn [eval_list]. rewrite Hc. destruct r as [b| |]; cbn [ret_map of_res obind bind]; [|reflexivity..].
      rewrite Hcs. destruct rs; reflexivity.
    Qed.
    Lemma array_res cs e (rs : res (list byte)) : eval_list eval cs e = of_res e (ret_map (map u8_v) rs) ->
      eval (EArray cs) e = of_res e (ret_map VBytes rs).
    Proof.
      intros H. cbn [Rust.eval]. rewrite H. destruct rs; cbn [ret_map of_res obind]; [|reflexivity..]. rewrite array_u8_v. reflexivity.
    Qed.
    Lemma const_res p b e : c_const P p = Some (u8_v b) -> eval (EConst p) e = of_res e (ret_map u8_v (Ret b)).
    Proof. apply const_eval. Qed.

    Lemma create_packet_eval d p b l size out : header_means d p -> knows_consts P d ->
      builder_means P item_v (pd_fields d) (p_fields p) b l -> NoDup (map accessor (p_fields p)) ->
      packet_payload_size p = Some size -> size <= 65535 ->
      call P (create_packet_fn d size) [builder_v (pd_name d) l; w_v out] =
      Some (ret_map (fun x => (write_result_v error (snd x), [builder_v (pd_name d) l; w_v (fst x)])) (create_packet w p b out)).
    Proof.
      intros Hh Hk Hb Hnd Hsize Hmax. destruct (consts_eval d p Hh Hk) as [Hclass Hid].
      rewrite call_ends by reflexivity. cbn [create_packet_fn fn_params fn_body map fst own_self_param combine].
      unfold create_packet, packet_len. rewrite Hsize. unfold builder_v. set (bv := VAdt _ l : value).
      set (e0 := [("self"%string, bv); ("out"%string, w_v out)]).
      unfold sync_1, sync_2, packet_const. cbn [app]. rewrite seq_cons by discriminate.
      assert (Hres : eval (EMethod (EVar "out") (m_name "reserve_allocate") [usz (size + 8)]) e0 =
        Done (write_result_v error (snd (w_reserve w (size + 8) out))) [("self"%string, bv); ("out"%string, w_v (fst (w_reserve w (size + 8) out)))]).
      { cbn [Rust.eval eval_list usz]. change (lookup "out" e0) with (Some (w_v out)). cbn [obind].
        change (VInt Usize (Z.of_N (size + 8))) with (usize_v (size + 8) : value). unfold m_name. rewrite (wm_reserve _ _ _ _ Hw). reflexivity. }
      rewrite (try_ok _ _ _ _ Hres). clear Hres. destruct (w_reserve w (size + 8) out) as [out1 [err|]]; cbn [fst snd]; [reflexivity|].
      cbn [obind]. rewrite seq_cons by discriminate.
      set (e1 := [("self"%string, bv); ("out"%string, w_v out1)]).
      change (eval (SLet false "len_bytes" [] (EMethod (u16_e size) (m_name "to_le_bytes") [])) e1)
        with (Done (unit_v : value) (("len_bytes"%string, VBytes (to_le_bytes U16 (Z.of_N size))) :: e1)).
      cbn [obind]. rewrite u16_le by exact Hmax. set (lb := u16_bytes size). clearbody lb.
      rewrite seq_cons by discriminate. set (e2 := ("len_bytes"%string, VBytes lb) :: e1).
      match goal with |- context [eval (SLet false "header" [] ?c) e2] =>
        assert (Hhd : eval c e2 = of_res e2 (ret_map VBytes (let! l0 := get lb 0 in let! l1 := get lb 1 in
                        Ret [SYNC_CHAR_1; SYNC_CHAR_2; p_class p; p_id p; l0; l1]))) end.
      { erewrite array_res.
        2: { repeat first [eapply eval_list_res | apply (const_res _ _ _ (lib_sync_1 _ _ L)) | apply (const_res _ _ _ (lib_sync_2 _ _ L))
               | apply (const_res _ _ _ Hclass) | apply (const_res _ _ _ Hid) | apply (index_eval2 "len_bytes" lb); reflexivity].
             instantiate (1 := Ret []). reflexivity. }
        destruct (get lb 0); [|reflexivity..]. destruct (get lb 1); reflexivity. }
      match goal with |- context [eval (SLet false "header" [] ?c) e2] =>
        change (eval (SLet false "header" [] c) e2) with (obind (eval c e2) (fun v e => Done (unit_v : value) (("header"%string, v) :: e))) end.
      rewrite Hhd. clear Hhd.
      destruct (get lb 0) as [l0| |]; cbn [ret_map of_res obind bind]; [|reflexivity..].
      destruct (get lb 1) as [l1| |]; cbn [ret_map of_res obind bind]; [|reflexivity..].
      set (header := [SYNC_CHAR_1; SYNC_CHAR_2; p_class p; p_id p; l0; l1]).
      set (e3 := ("header"%string, VBytes header) :: e2). rewrite seq_cons by discriminate.
      rewrite (try_ok _ _ _ _ (write_eval (EVar "header") header out1 e3 eq_refl eq_refl)).
      destruct (w_write w header out1) as [out2 [err|]]; cbn [fst snd]; [reflexivity|]. cbn [obind].
      unfold e3, e2, e1. cbn [assign String.eqb Ascii.eqb Bool.eqb]. clear e3 e2 e1.
      set (e3 := ("header"%string, VBytes header) :: ("len_bytes"%string, VBytes lb) :: [("self"%string, bv); ("out"%string, w_v out2)]).
      rewrite seq_cons by discriminate. cbn [Rust.eval eval_list obind]. unfold fn_v.
      change (tokens_eqb (path_tokens ["UbxChecksumCalc"; "default"]%string) once_path) with false. cbn iota.
      rewrite (lib_default _ _ L). cbn [of_opt of_res obind].
      set (e4 := ("checksum_calc"%string, checksum_v cksum_new) :: e3).
      rewrite seq_cons by (intros E0; apply app_eq_nil in E0; destruct E0 as [_ E0]; discriminate E0).
      change (slice_from header 2) with (Ret [p_class p; p_id p; l0; l1]). cbn [bind].
      rewrite (update_eval (EIndex (EVar "header") (EFrom (ix 2))) [p_class p; p_id p; l0; l1] cksum_new e4 eq_refl eq_refl).
      set (ck := cksum_update cksum_new _). clearbody ck. cbn [obind]. rewrite or_empty_eval by discriminate.
      change (assign "checksum_calc" (checksum_v ck) e4) with (("checksum_calc"%string, checksum_v ck : value) :: e3). clear e4.
      set (e4 := ("checksum_calc"%string, checksum_v ck : value) :: e3).
      match goal with |- context [write_all_stmts (pd_fields d) ++ ?r] => set (rest := r) end.
      assert (Hnd' : NoDup (map fst l)) by (rewrite (builder_names _ _ _ _ Hb); exact Hnd).
      pose proof (write_all_eval [(pd_name d ++ "Builder")%string] l rest ltac:(discriminate) (pd_fields d) (p_fields p) b l Hb Hnd'
                    (nodup_lookup l Hnd') out2 ck e4 eq_refl eq_refl eq_refl) as Hwr.
      destruct (write_fields w (p_fields p) b out2 ck) as [[[out3 ck'] r]| |]; cbn [bind]; [|rewrite Hwr; reflexivity..].
      destruct Hwr as (j & Hj & Hwr). rewrite Hwr. clear Hwr. unfold e4, e3. cbn [assign String.eqb Ascii.eqb Bool.eqb]. cbv zeta.
      clear e4 e3.
      assert (Hleave : forall (j' : env) x1 x2 x3 o, leave e0 (j' ++ x1 :: x2 :: x3 :: [("self"%string, bv); ("out"%string, o)]) =
                        [("self"%string, bv); ("out"%string, o)]).
      { intros j' x1 x2 x3 o. change (x1 :: x2 :: x3 :: [("self"%string, bv); ("out"%string, o)]) with
          ([x1; x2; x3] ++ [("self"%string, bv); ("out"%string, o)]). rewrite app_assoc. apply leave_suffix. reflexivity. }
      destruct r as [err|].
      { cbn [ends_call]. rewrite Hleave. reflexivity. }
      set (e4 := ("checksum_calc"%string, checksum_v ck' : value) :: _). subst rest. rewrite seq_cons by discriminate.
      assert (Hlk : lookup "checksum_calc" (j ++ e4) = Some (checksum_v ck')) by (rewrite junk_look by (assumption || reflexivity); reflexivity).
      assert (Hck : eval (EMethod (EVar "checksum_calc") (m_name "result") []) (j ++ e4) = Done (two_v (cksum_result ck')) (j ++ e4)).
      { cbn [Rust.eval eval_list]. rewrite Hlk. cbn [obind]. unfold m_name, method_v.
        change (std_method [TIdent "result"] (checksum_v ck') []) with (@None (value * list value * value)). cbn iota.
        rewrite (lib_result _ _ L). cbn [write_all_back write_back]. rewrite assign_same by exact Hlk. reflexivity. }
      change (eval (SLet2 "ck_a" "ck_b" (EMethod (EVar "checksum_calc") (m_name "result") [])) (j ++ e4)) with
        (obind (eval (EMethod (EVar "checksum_calc") (m_name "result") []) (j ++ e4)) (fun v e =>
          match v with VTuple [a; b0] => Done (unit_v : value) (("ck_b"%string, b0) :: ("ck_a"%string, a) :: e) | _ => Wrong end)).
      rewrite Hck. clear Hck. destruct (cksum_result ck') as [ck_a ck_b]. cbn [obind two_v fst snd].
      set (e5 := ("ck_b"%string, u8_v ck_b) :: ("ck_a"%string, u8_v ck_a) :: j ++ e4).
      rewrite seq_cons by discriminate.
      assert (Harr : eval (EArray [EVar "ck_a"; EVar "ck_b"]) e5 = Done (VBytes [ck_a; ck_b]) e5).
      { cbn [Rust.eval eval_list]. unfold e5 at 1. cbn [lookup String.eqb Ascii.eqb Bool.eqb obind].
        pose proof (array_u8_v (A := A) [ck_a; ck_b]) as Hu. cbn [map] in Hu. rewrite <- Hu. reflexivity. }
      assert (Hout : lookup "out" e5 = Some (w_v out3)).
      { unfold e5. cbn [lookup String.eqb Ascii.eqb Bool.eqb]. rewrite junk_look by (assumption || reflexivity). reflexivity. }
      rewrite (try_ok _ _ _ _ (write_eval _ [ck_a; ck_b] out3 e5 Harr Hout)).
      assert (He5 : forall o, assign "out" o e5 = (("ck_b"%string, u8_v ck_b) :: ("ck_a"%string, u8_v ck_a) :: j) ++
                 assign "out" o e4).
      { intros o. unfold e5. cbn [assign String.eqb Ascii.eqb Bool.eqb app]. rewrite junk_assign by (assumption || reflexivity). reflexivity. }
      rewrite He5. unfold e4. cbn [assign String.eqb Ascii.eqb Bool.eqb].
      destruct (w_write w [ck_a; ck_b] out3) as [out4 [err|]]; cbn [fst snd obind eval_seq Rust.eval ok_unit eval_list unit_e ends_call];
        rewrite Hleave; reflexivity.
    Qed.
  End Writer.

  (** ** [extend_to] *)

  Lemma all_u8_one b : all_u8 [u8_v b : value] = Some [b].
  Proof. apply (all_u8_v [b]). Qed.

  Lemma push_one c b o e : eval c e = Done (u8_v b) e -> lookup "out" e = Some (VBytes o) ->
    eval (SExpr (EMethod (EVar "out") (m_name "extend") [ECall once_path [c]])) e = Done unit_v (assign "out" (VBytes (o ++ [b])) e).
  Proof.
    intros Hc Ho. cbn [Rust.eval eval_list]. rewrite Ho. cbn [obind]. rewrite Hc. cbn [obind]. unfold fn_v.
    change (tokens_eqb once_path once_path) with true. cbn [of_opt of_res obind]. unfold method_v, m_name.
    cbn [std_method String.eqb Ascii.eqb Bool.eqb]. rewrite all_u8_one. reflexivity.
  Qed.

  Definition push_body : code := EBlock [SExpr (EMethod (EVar "out") (m_name "extend") [ECall once_path [EDeref (EVar "b")]])].
  Lemma push_each bs : forall o e, lookup "out" e = Some (VBytes o) ->
    each eval "b" push_body (map u8_v bs) e = Done unit_v (assign "out" (VBytes (o ++ bs)) e).
  Proof.
    induction bs as [|b bs IH]; intros o e Ho.
    - cbn [map each]. rewrite app_nil_r, assign_same by assumption. reflexivity.
    - cbn [map each]. unfold push_body at 1.
      change (eval (EBlock ?l) ?e) with (obind (eval_seq eval l e) (fun v e' => Done v (leave e e'))). cbn [eval_seq].
      rewrite (push_one (EDeref (EVar "b")) b o) by (reflexivity || exact Ho). cbn [obind assign String.eqb Ascii.eqb Bool.eqb].
      assert (Hl : forall x, leave e (leave (("b"%string, x) :: e) (("b"%string, x) :: assign "out" (VBytes (o ++ [b])) e)) =
                   assign "out" (VBytes (o ++ [b])) e).
      { intros x. unfold leave at 2. cbn [length]. rewrite assign_length, Nat.sub_diag. cbn [skipn].
        apply (leave_suffix [("b"%string, x)]). symmetry. apply assign_length. }
      rewrite Hl, (IH (o ++ [b])) by (eapply lookup_assign, Ho). rewrite assign_assign, <- app_assoc. reflexivity.
  Qed.
  Lemma push_all_eval x bs o e : lookup x e = Some (VBytes bs) -> lookup "out" e = Some (VBytes o) ->
    eval (push_all (EVar x)) e = Done unit_v (assign "out" (VBytes (o ++ bs)) e).
  Proof.
    intros Hx Ho. unfold push_all. cbn [Rust.eval eval_list]. rewrite Hx. cbn [obind]. unfold method_v, m_name.
    cbn [std_method String.eqb Ascii.eqb Bool.eqb write_all_back write_back obind]. rewrite assign_same by assumption.
    apply push_each, Ho.
  Qed.

  Lemma add_len_eval (x : N) c n e e' r : eval c e = Done (usize_v x) e' -> lookup "len_bytes" e' = Some (usize_v n) ->
    uadd n x = r ->
    eval (SAdd "len_bytes" c) e =
    match r with Ret m => Done unit_v (assign "len_bytes" (usize_v m) e') | Panic => Panics | Diverge => Diverges end.
  Proof.
    intros Hc Hl <-. cbn [Rust.eval]. rewrite Hc. cbn [obind]. rewrite Hl. cbn [bin_v usize_v]. rewrite !N2Z.id. destruct (uadd n x); reflexivity.
  Qed.

  Lemma len_eval x bs e : lookup x e = Some (VBytes bs) -> eval (EMethod (EVar x) (m_name "len") []) e = Done (usize_v (lenN bs)) e.
  Proof.
    intros Hx. cbn [Rust.eval eval_list]. rewrite Hx. cbn [obind]. unfold method_v, m_name.
    cbn [std_method String.eqb Ascii.eqb Bool.eqb write_all_back write_back obind]. rewrite assign_same by assumption. reflexivity.
  Qed.

  Definition items_body : code := EBlock [SAdd "len_bytes" (EMethod (EVar "f") (m_name "extend_to") [EVar "out"])].
  Lemma items_each l : forall n o e, lookup "out" e = Some (VBytes o) -> lookup "len_bytes" e = Some (usize_v n) ->
    each eval "f" items_body (map item_v l) e =
    match GenSend.extend_items l n o with
    | Ret (n', o') => Done unit_v (assign "len_bytes" (usize_v n') (assign "out" (VBytes o') e))
    | Panic => Panics
    | Diverge => Diverges
    end.
  Proof.
    induction l as [|x l IH]; intros n o e Ho Hn.
    - cbn [map each GenSend.extend_items]. rewrite (assign_same "out") by assumption. rewrite assign_same by assumption. reflexivity.
    - cbn [map each GenSend.extend_items]. unfold items_body at 1.
      change (eval (EBlock ?l) ?e) with (obind (eval_seq eval l e) (fun v e' => Done v (leave e e'))). cbn [eval_seq].
      set (e1 := ("f"%string, item_v x) :: e).
      assert (Hm : eval (EMethod (EVar "f") (m_name "extend_to") [EVar "out"]) e1 =
                   Done (usize_v (it_ret x)) (("f"%string, item_v x) :: assign "out" (VBytes (o ++ it_bytes x)) e)).
      { cbn [Rust.eval eval_list]. change (lookup "f" e1) with (Some (item_v x)). cbn [obind].
        change (lookup "out" e1) with (lookup "out" e). rewrite Ho. cbn [obind]. unfold m_name. rewrite (lib_item _ _ L). reflexivity. }
      rewrite (add_len_eval (it_ret x) _ n e1 _ (uadd n (it_ret x)) Hm).
      2: { cbn [lookup String.eqb Ascii.eqb Bool.eqb]. rewrite lookup_assign_other by reflexivity. exact Hn. }
      2: reflexivity.
      destruct (uadd n (it_ret x)) as [n1| |]; cbn [obind bind]; [|reflexivity..]. cbn [assign String.eqb Ascii.eqb Bool.eqb].
      set (e2 := assign "len_bytes" _ (assign "out" _ e)).
      assert (Hlen : length e = length e2) by (unfold e2; rewrite !assign_length; reflexivity).
      assert (Hl : leave e (leave e1 (("f"%string, item_v x) :: e2)) = e2).
      { unfold leave at 2. unfold e1. cbn [length]. rewrite <- Hlen, Nat.sub_diag. cbn [skipn].
        apply (leave_suffix [("f"%string, item_v x)]), Hlen. }
      rewrite Hl, (IH n1 (o ++ it_bytes x)).
      + destruct (GenSend.extend_items l n1 (o ++ it_bytes x)) as [[n2 o2]| |]; [|reflexivity..]. unfold e2.
        rewrite (assign_comm "out" "len_bytes") by reflexivity. rewrite !assign_assign. reflexivity.
      + unfold e2. rewrite lookup_assign_other by reflexivity. eapply lookup_assign, Ho.
      + unfold e2. eapply lookup_assign. rewrite lookup_assign_other by reflexivity. exact Hn.
  Qed.

  Lemma extend_all_eval bn all rest : rest <> [] -> forall ds fs b l, builder_means P item_v ds fs b l ->
    NoDup (map fst l) -> (forall x v, In (x, v) l -> lookup x all = Some v) ->
    forall n o e, lookup "self" e = Some (VAdt bn all) -> lookup "out" e = Some (VBytes o) -> lookup "len_bytes" e = Some (usize_v n) ->
    match extend_fields fs b n o with
    | Ret (n', o') => exists j, junk j /\
        eval_seq eval (extend_all_stmts ds ++ rest) e =
        eval_seq eval rest (j ++ assign "len_bytes" (usize_v n') (assign "out" (VBytes o') e))
    | Panic => eval_seq eval (extend_all_stmts ds ++ rest) e = Panics
    | Diverge => eval_seq eval (extend_all_stmts ds ++ rest) e = Diverges
    end.
  Proof.
    intros Hn ds fs b l H. induction H as [|df f emb v ds fs b l Hs Hok H IH]; intros Hd Hall n o e He Ho Hl.
    - exists []. split; [constructor|]. cbn [app extend_all_stmts]. rewrite (assign_same "out") by assumption.
      rewrite assign_same by assumption. reflexivity.
    - cbn [map fst] in Hd. inversion Hd as [|? ? Hnot Hd']; subst. destruct (sends_names _ _ _ Hs) as [Hacc Hraw].
      cbn [extend_fields extend_all_stmts fst snd]. unfold f_size. rewrite Hraw. destruct (size_bytes (f_ty f)) as [size|] eqn:Hz.
      + rewrite <- !app_assoc.
        assert (Hne : extend_all_stmts ds ++ rest <> []) by (intros E0; apply app_eq_nil in E0; tauto).
        rewrite (let_bytes_eval df f emb v bn all size _ e Hs Hok Hz) by (try assumption; try discriminate; apply Hall; left; reflexivity).
        destruct (field_bytes f v) as [bs| |]; cbn [bind]; [|reflexivity..].
        set (e1 := ("bytes"%string, VBytes bs) :: e). unfold extend_stmts, bytes_e. cbn [app]. rewrite seq_cons by discriminate.
        rewrite (add_len_eval (lenN bs) _ n e1 e1 (uadd n (lenN bs)) (len_eval "bytes" bs e1 eq_refl) Hl eq_refl).
        destruct (uadd n (lenN bs)) as [n1| |]; cbn [obind bind]; [|reflexivity..].
        unfold e1. cbn [assign String.eqb Ascii.eqb Bool.eqb]. rewrite seq_cons by discriminate.
        rewrite (push_all_eval "bytes" bs o) by
          (try reflexivity; cbn [lookup String.eqb Ascii.eqb Bool.eqb]; rewrite lookup_assign_other by reflexivity; exact Ho).
        cbn [obind assign String.eqb Ascii.eqb Bool.eqb]. rewrite seq_cons by assumption. cbn [Rust.eval obind].
        set (e2 := assign "out" _ (assign "len_bytes" _ e)).
        specialize (IH Hd' (fun x u Hin => Hall x u (or_intror Hin)) n1 (o ++ bs) (("bytes"%string, VBytes bs) :: e2)).
        cbn [lookup String.eqb Ascii.eqb Bool.eqb] in IH.
        assert (H1 : lookup "self" e2 = Some (VAdt bn all)) by (unfold e2; rewrite !lookup_assign_other by reflexivity; exact He).
        assert (H2 : lookup "out" e2 = Some (VBytes (o ++ bs)))
          by (unfold e2; eapply lookup_assign; rewrite lookup_assign_other by reflexivity; exact Ho).
        assert (H3 : lookup "len_bytes" e2 = Some (usize_v n1))
          by (unfold e2; rewrite lookup_assign_other by reflexivity; eapply lookup_assign, Hl).
        specialize (IH H1 H2 H3).
        destruct (extend_fields fs b n1 (o ++ bs)) as [[n2 o2]| |]; [|exact IH..].
        destruct IH as (j & Hj & IH). exists (j ++ [("bytes"%string, VBytes bs)]). split; [apply Forall_app; split; [exact Hj|]; repeat constructor|].
        rewrite IH. cbn [assign String.eqb Ascii.eqb Bool.eqb]. rewrite <- app_assoc. cbn [app]. unfold e2.
        rewrite assign_assign, (assign_comm "out" "len_bytes") by reflexivity. rewrite assign_assign. reflexivity.
      + unfold extend_items_stmts, self_field. rewrite Hacc. cbn [app]. rewrite seq_cons by discriminate.
        cbn [Rust.eval self_e]. rewrite He. cbn [obind]. rewrite (Hall _ _ (or_introl eq_refl)). cbn [obind].
        destruct Hs as [name ty t alias may_fail as_ref comment Ht Hi
          | name ty s md scale alias may_fail as_ref comment m sz emb Ht Hinto]; cbn [f_ty f_map] in *; [|discriminate Hz].
        pose proof (Hi Hz) as Et. subst t. unfold to_raw. cbn [f_map bind f_ty items_of SpecCode.raw_v].
        fold items_body. rewrite (items_each v n o e Ho Hl).
        destruct (GenSend.extend_items v n o) as [[n1 o1]| |]; cbn [obind]; [|reflexivity..].
        exists []. split; [constructor|]. rewrite seq_cons by assumption. reflexivity.
  Qed.

  Lemma usize_le n : le_bytes 8 (Z.to_N (Z.of_N n)) = le_bytes 8 n.
  Proof. rewrite N2Z.id. reflexivity. Qed.

  Lemma extend_to_eval d p b l o : header_means d p -> knows_consts P d ->
    builder_means P item_v (pd_fields d) (p_fields p) b l -> NoDup (map accessor (p_fields p)) ->
    packet_payload_size p = None ->
    call P (extend_to_fn d) [builder_v (pd_name d) l; VBytes o] =
    Some (ret_map (fun o' => (unit_v, [builder_v (pd_name d) l; VBytes o'])) (extend_to p b o)).
  Proof.
    intros Hh Hk Hb Hnd Hsize. destruct (consts_eval d p Hh Hk) as [Hclass Hid].
    rewrite call_ends by reflexivity. cbn [extend_to_fn fn_params fn_body map fst own_self_param combine].
    unfold extend_to. rewrite Hsize. unfold builder_v. set (bv := VAdt _ l : value).
    set (e0 := [("self"%string, bv); ("out"%string, VBytes o)]).
    unfold sync_1, sync_2, packet_const. cbn [app]. rewrite seq_cons by discriminate.
    set (e1 := ("len_bytes"%string, usize_v 0) :: e0).
    change (eval (SLet true "len_bytes" [] (ENum 0 "" Usize)) e0) with (Done (unit_v : value) e1). cbn [obind].
    set (header := [SYNC_CHAR_1; SYNC_CHAR_2; p_class p; p_id p; x00; x00]).
    rewrite seq_cons by discriminate.
    match goal with |- context [eval (SLet false "header" [] ?c) e1] =>
      assert (Hhd : eval c e1 = Done (VBytes header) e1);
      [|change (eval (SLet false "header" [] c) e1) with (obind (eval c e1) (fun v e => Done (unit_v : value) (("header"%string, v) :: e)))] end.
    { erewrite array_res.
      2: { repeat first [eapply eval_list_res | apply (const_res _ _ _ (lib_sync_1 _ _ L)) | apply (const_res _ _ _ (lib_sync_2 _ _ L))
             | apply (const_res _ _ _ Hclass) | apply (const_res _ _ _ Hid)].
           1, 2: instantiate (1 := Ret x00); reflexivity.
           instantiate (1 := Ret []). reflexivity. }
      reflexivity. }
    rewrite Hhd. clear Hhd. cbn [obind]. rewrite seq_cons by (intros E0; apply app_eq_nil in E0; destruct E0 as [_ E0]; discriminate E0).
    rewrite (push_all_eval "header" header o) by reflexivity. cbn [obind]. rewrite or_empty_eval by discriminate.
    set (e2 := assign "out" _ _).
    match goal with |- context [extend_all_stmts (pd_fields d) ++ ?r] => set (rest := r) end.
    assert (Hnd' : NoDup (map fst l)) by (rewrite (builder_names _ _ _ _ Hb); exact Hnd).
    pose proof (extend_all_eval [(pd_name d ++ "Builder")%string] l rest ltac:(discriminate) (pd_fields d) (p_fields p) b l Hb Hnd'
                  (nodup_lookup l Hnd') 0 (o ++ header) e2 eq_refl eq_refl eq_refl) as Hex.
    destruct (extend_fields (p_fields p) b 0 (o ++ header)) as [[n o1]| |]; cbn [bind]; [|rewrite Hex; reflexivity..].
    destruct Hex as (j & Hj & Hex). rewrite Hex. clear Hex. unfold e2, e1, e0. cbn [assign String.eqb Ascii.eqb Bool.eqb]. clear e2 e1.
    set (tl := fun x (o' : list byte) => ("header"%string, VBytes header) :: ("len_bytes"%string, usize_v x) ::
                        [("self"%string, bv); ("out"%string, VBytes o')]).
    match goal with |- context [j ++ ?t] => change t with (tl n o1) end.
    assert (Hleave : forall j' x o', leave e0 (j' ++ tl x o') = [("self"%string, bv); ("out"%string, VBytes o')]).
    { intros j' x o'. unfold tl. change (("header"%string, VBytes header) :: ("len_bytes"%string, usize_v x) :: [("self"%string, bv); ("out"%string, VBytes o')])
        with ([("header"%string, VBytes header); ("len_bytes"%string, usize_v x)] ++ [("self"%string, bv); ("out"%string, VBytes o')]).
      rewrite app_assoc. apply leave_suffix. reflexivity. }
    assert (Hlook : forall x, lookup "len_bytes" (j ++ tl n x) = Some (usize_v n))
      by (intros; rewrite junk_look by (assumption || reflexivity); reflexivity).
    assert (Hout : forall x, lookup "out" (j ++ tl n x) = Some (VBytes x))
      by (intros; rewrite junk_look by (assumption || reflexivity); reflexivity).
    assert (Hset : forall v x, assign "out" (VBytes v) (j ++ tl n x) = j ++ tl n v)
      by (intros; rewrite junk_assign by (assumption || reflexivity); reflexivity).
    clearbody tl. subst rest. rewrite seq_cons by discriminate. cbn [Rust.eval eval_list]. rewrite Hlook. cbn [obind]. unfold method_v, m_name.
    cbn [std_method usize_v String.eqb Ascii.eqb Bool.eqb write_all_back write_back obind]. rewrite usize_le.
    fold (usize_v (A := A) n). rewrite assign_same by apply Hlook.
    set (lb := le_bytes 8 n). clearbody lb.
    rewrite (set_index "out" (ix 4) "len_bytes" 0 4 o1 lb); [|discriminate|exact (Hout o1)|reflexivity..].
    destruct (get lb 0) as [l0| |]; cbn [bind]; [|reflexivity..]. destruct (set_at o1 4 l0) as [o2| |]; cbn [bind]; [|reflexivity..].
    cbn [assign String.eqb Ascii.eqb Bool.eqb]. rewrite Hset.
    rewrite (set_index "out" (ix 5) "len_bytes" 1 5 o2 lb); [|discriminate|exact (Hout o2)|reflexivity..].
    destruct (get lb 1) as [l1| |]; cbn [bind]; [|reflexivity..]. destruct (set_at o2 5 l1) as [o3| |]; cbn [bind]; [|reflexivity..].
    cbn [assign String.eqb Ascii.eqb Bool.eqb]. rewrite Hset.
    rewrite seq_cons by discriminate. set (e3 := ("len_bytes"%string, _) :: _).
    assert (H3 : lookup "out" e3 = Some (VBytes o3)) by apply Hout.
    change (eval (SLet2 "ck_a" "ck_b" ?c) e3) with
      (obind (eval c e3) (fun v e => match v with VTuple [a; b0] => Done (unit_v : value) (("ck_b"%string, b0) :: ("ck_a"%string, a) :: e) | _ => Wrong end)).
    assert (Hbody : eval (ERef (EIndex (EVar "out") (EFrom (ix 2)))) e3 = of_res e3 (ret_map VBytes (slice_from o3 2)))
      by (cbn [Rust.eval ix]; rewrite H3; reflexivity).
    destruct (slice_from o3 2) as [body| |]; cbn [ret_map of_res bind] in *.
    2, 3: change (eval (ECall f_checksum ?l) e3) with (obind (eval_list eval l e3) (fun vs e => of_opt e (fn_v P f_checksum vs)));
          cbn [eval_list]; rewrite Hbody; reflexivity.
    rewrite (checksum_eval _ body e3 Hbody). destruct (ubx_checksum body) as [ck_a ck_b]. cbn [obind two_v fst snd].
    rewrite seq_cons by discriminate.
    rewrite (push_one (EVar "ck_a") ck_a o3) by (reflexivity || exact H3). cbn [obind eval_seq].
    set (e4 := assign "out" _ _).
    assert (H4 : e4 = ("ck_b"%string, u8_v ck_b) :: ("ck_a"%string, u8_v ck_a) :: ("len_bytes"%string, VBytes lb) :: j ++ tl n (o3 ++ [ck_a])).
    { unfold e4, e3. cbn [assign String.eqb Ascii.eqb Bool.eqb]. rewrite Hset. reflexivity. }
    clearbody e4. subst e4. rewrite (push_one (EVar "ck_b") ck_b (o3 ++ [ck_a])) by (reflexivity || exact (Hout _)).
    cbn [assign String.eqb Ascii.eqb Bool.eqb ends_call]. rewrite Hset.
    match goal with |- context [j ++ ?t] => change (_ :: _ :: _ :: j ++ t) with (([("ck_b"%string, u8_v ck_b); ("ck_a"%string, u8_v ck_a); ("len_bytes"%string, VBytes lb)] ++ j) ++ t) end.
    rewrite Hleave. reflexivity.
  Qed.
End Send.
