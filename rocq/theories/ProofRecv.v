(** * Generated getters and validators (proof support) *)
From Coq Require Import String List NArith ZArith Bool Lia ZifyBool ZifyNat ZifyN.
From Verif Require Import Base BaseFacts Checksum DualBuffer Parser PackDesc GenRecv GenSend SpecFrame SpecPacket
  ProofChecksum ProofSend.
Import ListNotations.
Open Scope N_scope.

(** ** Reading raw values *)

Lemma read_bytes_ok data n : forall off, off + N.of_nat n <= lenN data ->
  read_bytes data off n = Ret (takeN (N.of_nat n) (dropN off data)).
Proof.
  induction n as [|n IH]; intros off H; cbn [read_bytes]; [reflexivity|].
  rewrite get_nthN by lia. cbn [bind]. rewrite IH by lia. cbn [bind].
  rewrite (dropN_nthN data off) by lia. rewrite takeN_cons by lia.
  do 3 f_equal. lia.
Qed.

Lemma read_bytes_Ret data n : forall off l, read_bytes data off n = Ret l -> n <> O -> off + N.of_nat n <= lenN data.
Proof.
  induction n as [|n IH]; intros off l H Hn; [congruence|]. cbn [read_bytes] in H.
  apply bind_Ret in H. destruct H as (b & Hb & H). apply bind_Ret in H. destruct H as (l' & Hl & H).
  apply get_Ret in Hb. destruct n; [lia|]. specialize (IH _ _ Hl). lia.
Qed.

Lemma unsigned_of_le_num l : unsigned_of l = Z.of_N (le_num l).
Proof. induction l as [|b l IH]; cbn [unsigned_of le_num]; [reflexivity|]. rewrite IH. lia. Qed.

Lemma pow256 n : (2 ^ (8 * Z.of_N n) = Z.of_N (256 ^ n))%Z.
Proof. rewrite N2Z.inj_pow. change (Z.of_N 256) with (2 ^ 8)%Z. rewrite Z.pow_mul_r by lia. reflexivity. Qed.

Lemma from_le_bytes_decode s l : lenN l = scalar_size s -> from_le_bytes s l = decode (Scalar s) l.
Proof.
  intros L. unfold from_le_bytes, decode. rewrite unsigned_of_le_num.
  destruct (scalar_signed s) eqn:Sg; cbn [andb]; [|reflexivity].
  pose proof (le_num_bound l) as B. rewrite L in B. unfold scalar_max, signed_of. rewrite Sg.
  set (bits := (8 * Z.of_N (scalar_size s))%Z).
  assert (Hb : (2 ^ bits = 2 * 2 ^ (bits - 1))%Z).
  { rewrite <- Z.pow_succ_r; [f_equal; lia|]. destruct s; cbn in bits; lia. }
  assert (Hpos : (0 < 2 ^ (bits - 1))%Z) by (apply Z.pow_pos_nonneg; destruct s; cbn in bits; lia).
  assert (Hu : (0 <= Z.of_N (le_num l) < 2 ^ bits)%Z).
  { unfold bits. rewrite pow256. lia. }
  destruct (2 ^ (bits - 1) - 1 <? Z.of_N (le_num l))%Z eqn:C.
  - rewrite <- (Z.mod_unique (Z.of_N (le_num l) + 2 ^ (bits - 1)) (2 ^ bits) 1 (Z.of_N (le_num l) + 2 ^ (bits - 1) - 2 ^ bits)).
    + lia.
    + left. lia.
    + lia.
  - rewrite Z.mod_small; lia.
Qed.

Lemma get_raw_field_ok t gar off data n :
  size_bytes t = Some n -> off + n <= lenN data ->
  get_raw_field t gar off data = Ret (decode t (takeN n (dropN off data))).
Proof.
  intros S H. destruct t as [s|k|]; cbn [size_bytes] in S; [| |discriminate].
  - injection S as <-. cbn [get_raw_field].
    assert (R : (let! l := read_bytes data off (N.to_nat (scalar_size s)) in Ret (from_le_bytes s l)) =
                Ret (decode (Scalar s) (takeN (scalar_size s) (dropN off data)))).
    { rewrite read_bytes_ok by lia. cbn [bind]. rewrite N2Nat.id. rewrite from_le_bytes_decode; [reflexivity|].
      rewrite lenN_takeN, lenN_dropN. lia. }
    destruct s; try exact R. cbn [scalar_size] in *. rewrite get_nthN by lia. cbn [bind].
    rewrite (dropN_nthN data off) by lia. rewrite takeN_cons by lia. change (1 - 1) with 0. rewrite takeN_0.
    unfold decode. cbn [scalar_signed unsigned_of]. now rewrite Z.mul_0_r, Z.add_0_r.
  - destruct (k =? 0) eqn:K; [discriminate|]. injection S as <-. cbn [get_raw_field decode].
    destruct gar.
    + rewrite slice_ok by lia. replace (off + k - off) with k by lia. reflexivity.
    + rewrite read_bytes_ok by lia. now rewrite N2Nat.id.
Qed.

Lemma decode_ok t n l : size_bytes t = Some n -> lenN l = n -> raw_ok t (decode t l).
Proof.
  intros S L. destruct t as [s|k|]; cbn [size_bytes] in S; [| |discriminate].
  - injection S as <-. cbn [decode raw_ok]. rewrite unsigned_of_le_num.
    pose proof (le_num_bound l) as B. rewrite L in B.
    assert (Hu : (0 <= Z.of_N (le_num l) < 2 ^ (8 * Z.of_N (scalar_size s)))%Z) by (rewrite pow256; lia).
    unfold scalar_min, scalar_max. destruct (scalar_signed s) eqn:Sg; [|lia].
    unfold signed_of. set (bits := (8 * Z.of_N (scalar_size s))%Z) in *.
    assert (Hb : (2 ^ bits = 2 * 2 ^ (bits - 1))%Z).
    { rewrite <- Z.pow_succ_r; [f_equal; lia|]. destruct s; cbn in bits; lia. }
    assert (Hpos : (0 < 2 ^ (bits - 1))%Z) by (apply Z.pow_pos_nonneg; destruct s; cbn in bits; lia).
    pose proof (Z.mod_pos_bound (Z.of_N (le_num l) + 2 ^ (bits - 1)) (2 ^ bits)). lia.
  - destruct (k =? 0) eqn:K; [discriminate|]. injection S as <-. cbn. right. lia.
Qed.

Lemma unsigned_of_int_bytes n z : (0 <= z < 2 ^ (8 * Z.of_N n))%Z -> unsigned_of (int_bytes n z) = z.
Proof.
  intros H. rewrite unsigned_of_le_num. unfold int_bytes. rewrite int_bytes_le_bytes by lia.
  rewrite le_num_le_bytes, N2Nat.id. rewrite N.mod_small; [lia|].
  rewrite pow256 in H. lia.
Qed.

Lemma decode_wire t n r : size_bytes t = Some n -> raw_ok t r -> decode t (wire t r) = r.
Proof.
  intros S H. destruct t as [s|k|]; cbn [size_bytes] in S; [| |discriminate].
  - cbn [wire]. cbn [raw_ok] in H. unfold decode. unfold scalar_min, scalar_max in H.
    destruct (scalar_signed s) eqn:Sg.
    + rewrite int_bytes_mod. rewrite unsigned_of_int_bytes.
      2: { apply Z.mod_pos_bound. apply Z.pow_pos_nonneg; lia. }
      unfold signed_of. set (bits := (8 * Z.of_N (scalar_size s))%Z) in *.
      assert (Hb : (2 ^ bits = 2 * 2 ^ (bits - 1))%Z).
      { rewrite <- Z.pow_succ_r; [f_equal; lia|]. destruct s; cbn in bits; lia. }
      assert (Hpos : (0 < 2 ^ (bits - 1))%Z) by (apply Z.pow_pos_nonneg; destruct s; cbn in bits; lia).
      rewrite Z.add_mod_idemp_l by lia. rewrite Z.mod_small; lia.
    + rewrite unsigned_of_int_bytes; lia.
  - reflexivity.
Qed.

(** ** Getters of packets whose fields all have a size *)

Lemma reads_back_gen fs : forall b n ws off pre payload,
  Forall field_typed fs -> builder_ok fs b -> fields_size fs = Some n -> wire_fields fs b = Ret ws ->
  payload = pre ++ concat ws -> lenN pre = off ->
  reads_back payload (gen_getters off [] fs) fs b.
Proof.
  induction fs as [|f fs IH]; intros b n ws off pre payload T B S Ew Ep Lp; cbn [gen_getters].
  - destruct b. constructor.
  - cbn in S. destruct (f_size f) as [a|] eqn:Sf; [|discriminate].
    destruct (fields_size fs) as [c|] eqn:Sfs; [|discriminate]. injection S as Sn.
    apply Forall_cons_iff in T. destruct T as [Tf Tfs]. destruct B as [Bf Bfs]. destruct b as [v b]; cbn [fst snd] in *.
    cbn [wire_fields fst snd] in Ew. destruct (to_raw f v) as [r| |] eqn:Er; cbn [bind] in *; try discriminate.
    destruct (wire_fields fs b) as [ws'| |] eqn:Ew'; cbn [bind] in *; try discriminate.
    inversion Ew; subst ws. cbn [concat] in Ep.
    pose proof (typed_len f v r a Tf Bf Er Sf) as L.
    assert (G : get_raw_field (f_ty f) (f_get_as_ref f) off payload = Ret r).
    { rewrite (get_raw_field_ok _ _ _ _ a Sf) by (subst payload; rewrite !lenN_app; lia).
      subst payload. rewrite dropN_app_exact by auto. rewrite takeN_app_exact by auto.
      rewrite (decode_wire _ a) by (auto; eapply Tf; eauto). reflexivity. }
    set (g := mk_getter f (get_raw_field (f_ty f) (f_get_as_ref f) off) _).
    change (reads_back payload (g :: gen_getters (off + a) [] fs) (g_field g :: fs) (v, b)).
    apply rb_cons with (r := r).
    + exact Er.
    + exact G.
    + cbn [g g_val]. rewrite G. reflexivity.
    + apply (IH b c ws' (off + a) (pre ++ wire (f_ty f) r)); auto.
      * subst payload. now rewrite <- app_assoc.
      * rewrite lenN_app. lia.
Qed.

(** ** Layouts *)

Lemma is_sized_size f : is_sized f = true -> exists n, f_size f = Some n /\ field_size f = n /\ f_size_fn f = None.
Proof.
  unfold is_sized, field_size. destruct (f_size f) as [n|] eqn:E; [|discriminate].
  destruct (f_size_fn f); [discriminate|]. intros _. exists n. auto.
Qed.

Lemma is_rest_facts f : is_rest f = true -> f_ty f = Bytes 0 /\ f_size f = None /\ f_size_fn f = None /\ field_size f = 0.
Proof.
  unfold is_rest. destruct (f_ty f) as [s|n|] eqn:E; try discriminate. destruct n; try discriminate.
  destruct (f_size_fn f); try discriminate. intros _. unfold field_size, f_size. rewrite E. auto.
Qed.

Lemma is_counted_facts f : is_counted f = true ->
  f_ty f = Bytes 0 /\ f_size f = None /\ (exists g, f_size_fn f = Some g) /\ field_size f = 0.
Proof.
  unfold is_counted. destruct (f_ty f) as [s|n|] eqn:E; try discriminate. destruct n; try discriminate.
  destruct (f_size_fn f) as [g|]; try discriminate. intros _. unfold field_size, f_size. rewrite E. eauto.
Qed.

Lemma counted_not_sized f : is_counted f = true -> is_sized f = false.
Proof. intros H. apply is_counted_facts in H. unfold is_sized. destruct H as (_ & -> & _). reflexivity. Qed.
Lemma rest_not_sized f : is_rest f = true -> is_sized f = false.
Proof. intros H. apply is_rest_facts in H. unfold is_sized. destruct H as (_ & -> & _). reflexivity. Qed.

(** A layout is a list of sized fields followed by a tail *)
Definition tail_ok (us : list field) : Prop :=
  us = [] \/ (exists u, us = [u] /\ is_rest u = true) \/ (us <> [] /\ forallb is_counted us = true).

Lemma layout_split fs : layout_ok fs = true ->
  exists ss us, fs = ss ++ us /\ forallb is_sized ss = true /\ tail_ok us.
Proof.
  induction fs as [|f fs IH]; cbn [layout_ok]; intros H.
  - exists [], []. repeat split; auto. left. reflexivity.
  - destruct (is_sized f) eqn:Sf.
    + destruct (IH H) as (ss & us & -> & H1 & H2). exists (f :: ss), us. cbn. rewrite Sf, H1. auto.
    + exists [], (f :: fs). split; [reflexivity|]. split; [reflexivity|]. right.
      apply orb_true_iff in H. destruct H as [H|H].
      * left. apply andb_true_iff in H. destruct H as [H1 H2]. destruct fs; [|discriminate]. eauto.
      * right. split; [discriminate|exact H].
Qed.

Lemma fixed_size_app a b : fixed_size (a ++ b) = fixed_size a + fixed_size b.
Proof. unfold fixed_size. induction a as [|f a IH]; cbn; [reflexivity|]. rewrite IH. lia. Qed.

Lemma fields_size_sized ss : forallb is_sized ss = true -> fields_size ss = Some (fixed_size ss).
Proof.
  induction ss as [|f ss IH]; cbn; intros H; [reflexivity|]. apply andb_true_iff in H. destruct H as [H1 H2].
  destruct (is_sized_size f H1) as (n & E & E2 & _). rewrite E, (IH H2), E2. reflexivity.
Qed.

Lemma fields_size_fixed fs n : fields_size fs = Some n -> fixed_size fs = n.
Proof.
  revert n. induction fs as [|f fs IH]; cbn; intros n H; [congruence|].
  fold (fixed_size fs). unfold field_size. destruct (f_size f); [|discriminate].
  destruct (fields_size fs); [|discriminate]. rewrite (IH _ eq_refl). congruence.
Qed.

Lemma fixed_size_tail us : tail_ok us -> fixed_size us = 0.
Proof.
  intros [->|[(u & -> & H)|[_ H]]]; [reflexivity| |].
  - cbn. destruct (is_rest_facts u H) as (_ & _ & _ & ->). reflexivity.
  - induction us as [|u us IH]; [reflexivity|]. cbn in *. apply andb_true_iff in H. destruct H as [H1 H2].
    fold (fixed_size us). destruct (is_counted_facts u H1) as (_ & _ & _ & ->). rewrite (IH H2). reflexivity.
Qed.

Lemma offset_of_app_l a b k : (k <= length a)%nat -> offset_of (a ++ b) k = offset_of a k.
Proof.
  revert k. induction a as [|f a IH]; intros k H; cbn in *.
  - destruct k; [|lia]. destruct b; reflexivity.
  - destruct k; [reflexivity|]. rewrite IH by lia. reflexivity.
Qed.
Lemma offset_of_all a : offset_of a (length a) = fixed_size a.
Proof. induction a as [|f a IH]; cbn; [reflexivity|]. rewrite IH. reflexivity. Qed.
Lemma offset_of_app_r a b k : offset_of (a ++ b) (length a + k) = fixed_size a + offset_of b k.
Proof.
  induction a as [|f a IH]; [reflexivity|]. cbn [app length Nat.add offset_of]. rewrite IH.
  change (fixed_size (f :: a)) with (field_size f + fixed_size a). lia.
Qed.

Lemma offset_of_le fs : forall k f, nth_error fs k = Some f -> offset_of fs k + field_size f <= fixed_size fs.
Proof.
  induction fs as [|g fs IH]; intros [|k] f H; cbn in *; try discriminate.
  - inversion H; subst. lia.
  - specialize (IH _ _ H). unfold fixed_size in IH. lia.
Qed.
Lemma offset_of_le' fs k : offset_of fs k <= fixed_size fs.
Proof.
  revert k. induction fs as [|g fs IH]; intros [|k]; cbn; try lia. specialize (IH k). unfold fixed_size in IH. lia.
Qed.

(** ** Validators *)

Definition Acc (off : N) (fs : list field) (payload : list byte) : Prop :=
  forall k f m v, nth_error fs k = Some f -> f_map f = Some m -> m_valid m = Some v ->
    v (decode (f_ty f) (match f_size f with
                        | Some n => takeN n (dropN (off + offset_of fs k) payload)
                        | None => dropN (off + offset_of fs k) payload end)) = Ret true.

Lemma Acc_0 fs payload : Acc 0 fs payload <-> forall k, field_accepts fs k payload.
Proof.
  unfold Acc, field_accepts, field_bytes_at. split.
  - intros H k f m v H1 H2 H3. specialize (H k f m v H1 H2 H3). rewrite N.add_0_l in H. exact H.
  - intros H k f m v H1 H2 H3. specialize (H k f m v H1 H2 H3). rewrite N.add_0_l. exact H.
Qed.

Lemma Acc_cons off f fs payload :
  Acc off (f :: fs) payload <->
  ((forall m v, f_map f = Some m -> m_valid m = Some v ->
     v (decode (f_ty f) (match f_size f with
                         | Some n => takeN n (dropN off payload)
                         | None => dropN off payload end)) = Ret true) /\
   Acc (off + field_size f) fs payload).
Proof.
  unfold Acc. split.
  - intros H. split.
    + intros m v H1 H2. specialize (H 0%nat f m v eq_refl H1 H2). cbn in H. rewrite N.add_0_r in H. exact H.
    + intros k f' m v H0 H1 H2. specialize (H (S k) f' m v H0 H1 H2). cbn in H. rewrite N.add_assoc in H. exact H.
  - intros [Hf Hr] [|k] f' m v H0 H1 H2; cbn in *.
    + inversion H0; subst f'. rewrite N.add_0_r. eapply Hf; eauto.
    + rewrite N.add_assoc. eapply Hr; eauto.
Qed.

Definition field_layout (f : field) : Prop := is_sized f = true \/ f_ty f = Bytes 0.

Lemma layout_fields fs : layout_ok fs = true -> Forall field_layout fs.
Proof.
  intros H. destruct (layout_split fs H) as (ss & us & -> & Hs & Ht). apply Forall_app. split.
  - rewrite forallb_forall in Hs. apply Forall_forall. intros f Hf. left. auto.
  - destruct Ht as [->|[(u & -> & Hu)|[_ Hu]]].
    + constructor.
    + constructor; [|constructor]. right. apply is_rest_facts in Hu. tauto.
    + rewrite forallb_forall in Hu. apply Forall_forall. intros f Hf. right. specialize (Hu f Hf).
      apply is_counted_facts in Hu. tauto.
Qed.

Lemma field_value_read f off payload :
  field_layout f -> off + field_size f <= lenN payload ->
  match f_size f with
  | Some _ => get_raw_field (f_ty f) (f_get_as_ref f) off payload
  | None => let! l := slice_from payload off in slice_val (f_ty f) l
  end = Ret (decode (f_ty f) (match f_size f with
                              | Some n => takeN n (dropN off payload)
                              | None => dropN off payload end)).
Proof.
  intros L H. unfold field_size in H. destruct (f_size f) as [n|] eqn:S.
  - apply get_raw_field_ok; [exact S|lia].
  - destruct L as [L|L]; [destruct (is_sized_size f L) as (n & E & _); congruence|].
    rewrite slice_from_ok by lia. cbn [bind]. rewrite L. reflexivity.
Qed.

Lemma run_validators_iff pname fs : forall off payload,
  Forall field_layout fs -> off + fixed_size fs <= lenN payload ->
  (run_validators pname off fs payload = Ret (Ok tt) <-> Acc off fs payload).
Proof.
  induction fs as [|f fs IH]; intros off payload L H; cbn [run_validators].
  - split; [|reflexivity]. intros _ [|k]; discriminate.
  - apply Forall_cons_iff in L. destruct L as [Lf L]. cbn in H. fold (fixed_size fs) in H.
    rewrite Acc_cons.
    replace (match f_size f with Some n => off + n | None => off end) with (off + field_size f)
      by (unfold field_size; destruct (f_size f); lia).
    rewrite <- (IH (off + field_size f) payload L ltac:(lia)).
    unfold field_validator. destruct (f_map f) as [m|] eqn:Em; cbn [bind].
    2: { split; [intros HH; split; [discriminate|exact HH]|intros [_ HH]; exact HH]. }
    destruct (m_valid m) as [v|] eqn:Ev; cbn [bind].
    2: { split; [intros HH; split; [congruence|exact HH]|intros [_ HH]; exact HH]. }
    rewrite (field_value_read f off payload Lf) by lia. cbn [bind].
    destruct (v _) as [ok| |] eqn:Eok; cbn [bind].
    + destruct ok; cbn [negb bind].
      * split; [intros HH; split; [|exact HH]; intros m' v' H1 H2; congruence|intros [_ HH]; exact HH].
      * split; [discriminate|]. intros [HH _]. specialize (HH m v eq_refl Ev). congruence.
    + split; [discriminate|]. intros [HH _]. specialize (HH m v eq_refl Ev). congruence.
    + split; [discriminate|]. intros [HH _]. specialize (HH m v eq_refl Ev). congruence.
Qed.

Lemma decode_ok_layout f off payload : field_layout f -> off + field_size f <= lenN payload ->
  raw_ok (f_ty f) (decode (f_ty f) (match f_size f with
                              | Some n => takeN n (dropN off payload)
                              | None => dropN off payload end)).
Proof.
  intros L H. unfold field_size in H. destruct (f_size f) as [n|] eqn:S.
  - eapply decode_ok; [exact S|]. rewrite lenN_takeN, lenN_dropN. lia.
  - destruct L as [L|L]; [destruct (is_sized_size f L) as (n & E & _); congruence|]. rewrite L. cbn. auto.
Qed.

Lemma run_validators_total pname fs : forall off payload,
  Forall field_layout fs -> off + fixed_size fs <= lenN payload ->
  (forall f m v r, In f fs -> f_map f = Some m -> m_valid m = Some v -> raw_ok (f_ty f) r ->
     exists b, v r = Ret b) ->
  exists r, run_validators pname off fs payload = Ret r.
Proof.
  induction fs as [|f fs IH]; intros off payload L H Tv; cbn [run_validators]; [eauto|].
  apply Forall_cons_iff in L. destruct L as [Lf L]. cbn in H. fold (fixed_size fs) in H.
  replace (match f_size f with Some n => off + n | None => off end) with (off + field_size f)
      by (unfold field_size; destruct (f_size f); lia).
  assert (K : exists r, run_validators pname (off + field_size f) fs payload = Ret r).
  { apply IH; [exact L|lia|]. intros. eapply Tv; eauto. right. assumption. }
  unfold field_validator. destruct (f_map f) as [m|] eqn:Em; cbn [bind]; [|exact K].
  destruct (m_valid m) as [v|] eqn:Ev; cbn [bind]; [|exact K].
  rewrite (field_value_read f off payload Lf) by lia. cbn [bind].
  destruct (Tv f m v _ (or_introl eq_refl) Em Ev (decode_ok_layout f off payload Lf ltac:(lia))) as (b & ->).
  cbn [bind]. destruct b; cbn [negb bind]; [exact K|eauto].
Qed.

(** ** Size functions *)

Definition size_fns (fs : list field) := concat (map (fun f => match f_size_fn f with Some g => [g] | None => [] end) fs).

Lemma add_size_fns_counted fs payload : forall off,
  (forall ns, counted_sizes fs payload = Ret ns -> off + sumN ns <= usize_max ->
     add_size_fns off (size_fns fs) payload = Ret (off + sumN ns)) /\
  (forall t, add_size_fns off (size_fns fs) payload = Ret t ->
     exists ns, counted_sizes fs payload = Ret ns /\ t = off + sumN ns).
Proof.
  unfold size_fns. induction fs as [|f fs IH]; intros off; cbn [counted_sizes map concat add_size_fns].
  - split.
    + intros ns H _. inversion H; subst. cbn. f_equal. lia.
    + intros t H. inversion H; subst. exists []. split; [reflexivity|cbn; lia].
  - destruct (f_size_fn f) as [g|]; cbn [app add_size_fns]; [|apply IH].
    destruct (g payload) as [n| |]; cbn [bind].
    + split.
      * intros ns H Hl. destruct (counted_sizes fs payload) as [ns'| |] eqn:Ec; cbn in H; try discriminate.
        inversion H; subst. cbn in Hl. fold (sumN ns') in Hl. rewrite uadd_ok by lia. cbn [bind].
        rewrite (proj1 (IH (off + n)) ns' eq_refl) by lia. cbn. f_equal. fold (sumN ns'). lia.
      * intros t H. apply bind_Ret in H. destruct H as (o & Ho & H).
        unfold uadd in Ho. destruct (off + n <=? usize_max); [|discriminate]. inversion Ho; subst o.
        destruct (proj2 (IH (off + n)) t H) as (ns & -> & ->). cbn. eexists. split; [reflexivity|].
        cbn. fold (sumN ns). lia.
    + split; [discriminate|discriminate].
    + split; [discriminate|discriminate].
Qed.

Lemma counted_sizes_none fs payload : size_fns fs = [] -> counted_sizes fs payload = Ret [].
Proof.
  unfold size_fns. induction fs as [|f fs IH]; cbn; intros H; [reflexivity|].
  destruct (f_size_fn f); cbn in H; [discriminate|]. auto.
Qed.

Lemma size_fns_app a b : size_fns (a ++ b) = size_fns a ++ size_fns b.
Proof. unfold size_fns. rewrite map_app, concat_app. reflexivity. Qed.
Lemma size_fns_sized ss : forallb is_sized ss = true -> size_fns ss = [].
Proof.
  unfold size_fns. induction ss as [|f ss IH]; cbn; intros H; [reflexivity|].
  apply andb_true_iff in H. destruct H as [H1 H2]. destruct (is_sized_size f H1) as (n & _ & _ & ->). cbn. auto.
Qed.
Lemma size_fns_counted us : us <> [] -> forallb is_counted us = true -> size_fns us <> [].
Proof.
  destruct us as [|u us]; [congruence|]. intros _ H. cbn in H. apply andb_true_iff in H. destruct H as [H _].
  apply is_counted_facts in H. destruct H as (_ & _ & (g & E) & _). unfold size_fns. cbn. rewrite E. discriminate.
Qed.

Lemma fields_size_unsized a u b : f_size u = None -> fields_size (a ++ u :: b) = None.
Proof.
  intros H. induction a as [|f a IH]; cbn.
  - now rewrite H.
  - rewrite IH. destruct (f_size f); reflexivity.
Qed.

Lemma forallb_sized_app_false ss u us : is_sized u = false -> forallb is_sized (ss ++ u :: us) = false.
Proof. intros H. rewrite forallb_app. cbn. rewrite H. cbn. apply andb_false_r. Qed.

(** The three shapes of [validate] *)
Lemma validate_shape p payload : layout_ok (p_fields p) = true ->
  let fs := p_fields p in
  (forallb is_sized fs = true /\
     validate p payload = (if lenN payload =? fixed_size fs then run_validators (p_name p) 0 fs payload
                           else Ret (Err (InvalidPacketLen (p_name p) (fixed_size fs) (lenN payload))))) \/
  (forallb is_sized fs = false /\ size_fns fs = [] /\
     validate p payload = (if fixed_size fs <=? lenN payload then run_validators (p_name p) 0 fs payload
                           else Ret (Err (InvalidPacketLen (p_name p) (fixed_size fs) (lenN payload))))) \/
  (forallb is_sized fs = false /\ size_fns fs <> [] /\
     validate p payload = (if lenN payload <? fixed_size fs
                           then Ret (Err (InvalidPacketLen (p_name p) (fixed_size fs) (lenN payload)))
                           else let! min := add_size_fns (fixed_size fs) (size_fns fs) payload in
                                if min <=? lenN payload then run_validators (p_name p) 0 fs payload
                                else Ret (Err (InvalidPacketLen (p_name p) min (lenN payload))))).
Proof.
  intros H fs. unfold validate. unfold packet_payload_size, packet_payload_size_except_last_field,
    packet_payload_size_except_size_fn, all_size_fns. fold (size_fns (p_fields p)). fold fs.
  destruct (layout_split fs H) as (ss & us & E & Hs & Ht).
  destruct Ht as [->|[(u & -> & Hu)|[Hne Hu]]].
  - left. rewrite app_nil_r in E. subst ss. rewrite Hs, fields_size_sized by exact Hs. auto.
  - right. left. pose proof (is_rest_facts u Hu) as (_ & Su & Sfn & Sz).
    assert (Hz : size_fns fs = []).
    { rewrite E, size_fns_app, size_fns_sized by exact Hs. unfold size_fns. cbn. rewrite Sfn. reflexivity. }
    split; [|split; [exact Hz|]].
    + rewrite E. apply forallb_sized_app_false. apply rest_not_sized. exact Hu.
    + rewrite Hz. replace (fields_size fs) with (@None N) by (rewrite E; symmetry; apply fields_size_unsized; exact Su).
      replace (removelast fs) with ss by (rewrite E; symmetry; apply removelast_last).
      rewrite fields_size_sized by exact Hs.
      replace (fixed_size fs) with (fixed_size ss); [reflexivity|].
      rewrite E, fixed_size_app. cbn. lia.
  - right. right. destruct us as [|u us]; [congruence|].
    assert (Hu0 := Hu). cbn in Hu. apply andb_true_iff in Hu. destruct Hu as [Hu Hus].
    pose proof (is_counted_facts u Hu) as (_ & Su & _).
    assert (Hz : size_fns fs <> []).
    { rewrite E, size_fns_app. intros HH. apply app_eq_nil in HH. destruct HH as [_ HH].
      revert HH. apply size_fns_counted; [discriminate|exact Hu0]. }
    split; [|split; [exact Hz|]].
    + rewrite E. apply forallb_sized_app_false. apply counted_not_sized. exact Hu.
    + replace (fields_size fs) with (@None N) by (rewrite E; symmetry; apply fields_size_unsized; exact Su).
      replace (filter (fun f => match f_size_fn f with Some _ => false | None => true end) fs) with ss.
      2: { rewrite E, filter_app.
           assert (F1 : forall l, forallb is_sized l = true ->
             filter (fun f => match f_size_fn f with Some _ => false | None => true end) l = l).
           { induction l as [|f l IHl]; cbn; intros HH; [reflexivity|]. apply andb_true_iff in HH. destruct HH as [H1 H2].
             destruct (is_sized_size f H1) as (n & _ & _ & ->). now rewrite IHl. }
           assert (F2 : forall l, forallb is_counted l = true ->
             filter (fun f => match f_size_fn f with Some _ => false | None => true end) l = []).
           { induction l as [|f l IHl]; cbn; intros HH; [reflexivity|]. apply andb_true_iff in HH. destruct HH as [H1 H2].
             destruct (is_counted_facts f H1) as (_ & _ & (g & ->) & _). auto. }
           rewrite F1, F2 by assumption. now rewrite app_nil_r. }
      rewrite (fields_size_sized ss Hs).
      replace (fixed_size fs) with (fixed_size ss).
      2: { rewrite E, fixed_size_app. rewrite (fixed_size_tail (u :: us)); [lia|]. right. right. split; [discriminate|exact Hu0]. }
      destruct (size_fns fs) as [|g gs] eqn:Ez; [congruence|]. reflexivity.
Qed.

Lemma validate_accepts p payload : layout_ok (p_fields p) = true -> lenN payload <= usize_max ->
  (validate p payload = Ret (Ok tt) <-> accepts p payload).
Proof.
  intros L Hl. unfold accepts, length_accepts. rewrite <- Acc_0.
  pose proof (layout_fields _ L) as Fl.
  destruct (validate_shape p payload L) as [[Hs ->]|[(Hs & Hz & ->)|(Hs & Hz & ->)]]; rewrite Hs.
  - destruct (lenN payload =? fixed_size (p_fields p)) eqn:E.
    + apply N.eqb_eq in E. rewrite run_validators_iff by (auto; lia). tauto.
    + apply N.eqb_neq in E. split; [discriminate|]. intros [HH _]. congruence.
  - destruct (fixed_size (p_fields p) <=? lenN payload) eqn:E.
    + apply N.leb_le in E. rewrite run_validators_iff by (auto; lia).
      rewrite counted_sizes_none by exact Hz. split.
      * intros HH. split; [|exact HH]. split; [exact E|]. exists []. split; [reflexivity|]. cbn. lia.
      * intros [_ HH]. exact HH.
    + apply N.leb_gt in E. split; [discriminate|]. intros [[HH _] _]. lia.
  - destruct (lenN payload <? fixed_size (p_fields p)) eqn:E.
    + apply N.ltb_lt in E. split; [discriminate|]. intros [[HH _] _]. lia.
    + apply N.ltb_ge in E. destruct (add_size_fns_counted (p_fields p) payload (fixed_size (p_fields p))) as [A1 A2].
      split.
      * intros HH. apply bind_Ret in HH. destruct HH as (t & Ht & HH).
        destruct (A2 t Ht) as (ns & Ec & ->).
        destruct (fixed_size (p_fields p) + sumN ns <=? lenN payload) eqn:E2; [|discriminate].
        apply N.leb_le in E2. apply run_validators_iff in HH; [|exact Fl|lia].
        split; [|exact HH]. split; [exact E|]. eauto.
      * intros [[_ (ns & Ec & E2)] HH]. rewrite (A1 ns Ec) by lia. cbn [bind].
        rewrite (proj2 (N.leb_le _ _) E2). apply run_validators_iff; [exact Fl|lia|exact HH].
Qed.

Lemma add_size_fns_total fs payload : forall off B,
  (forall f g, In f fs -> f_size_fn f = Some g -> exists n, g payload = Ret n /\ n <= B) ->
  off + B * lenN fs <= usize_max ->
  exists t, add_size_fns off (size_fns fs) payload = Ret t.
Proof.
  unfold size_fns. induction fs as [|f fs IH]; intros off B H Hl; cbn [map concat add_size_fns]; [eauto|].
  rewrite lenN_cons in Hl. destruct (f_size_fn f) as [g|] eqn:E; cbn [app add_size_fns].
  - destruct (H f g (or_introl eq_refl) E) as (n & -> & Hn). cbn [bind]. rewrite uadd_ok by nia. cbn [bind].
    apply (IH _ B); [|nia]. intros; eapply H; eauto. right; assumption.
  - apply (IH _ B); [|nia]. intros; eapply H; eauto. right; assumption.
Qed.

Lemma validate_total p payload : layout_ok (p_fields p) = true -> checks_total p ->
  lenN payload <= 65535 -> lenN (p_fields p) <= 65535 ->
  exists r, validate p payload = Ret r.
Proof.
  intros L [T1 T2] Hl Hf. pose proof (layout_fields _ L) as Fl.
  assert (R : 0 + fixed_size (p_fields p) <= lenN payload ->
              exists r, run_validators (p_name p) 0 (p_fields p) payload = Ret r).
  { intros HH. apply run_validators_total; auto. }
  destruct (validate_shape p payload L) as [[Hs ->]|[(Hs & Hz & ->)|(Hs & Hz & ->)]].
  - destruct (_ =? _) eqn:E; [|eauto]. apply R. lia.
  - destruct (_ <=? _) eqn:E; [|eauto]. apply R. lia.
  - destruct (_ <? _) eqn:E; [eauto|].
    destruct (add_size_fns_total (p_fields p) payload (fixed_size (p_fields p)) 65535) as (t & ->).
    + intros f g HI HS. apply (T2 f g payload HI HS). lia.
    + unfold usize_max. nia.
    + cbn [bind]. destruct (_ <=? _) eqn:E2; [|eauto]. apply R. lia.
Qed.

(** ** Getters of all layouts *)

Definition raw_at (f : field) (off : N) (fns : list (list byte -> res N)) : list byte -> res (raw_val (f_ty f)) :=
  match f_size f with
  | Some _ => get_raw_field (f_ty f) (f_get_as_ref f) off
  | None => fun data => let! l := unsized_slice f off fns data in slice_val (f_ty f) l
  end.
Definition getter_at (f : field) (off : N) (fns : list (list byte -> res N)) : getter :=
  mk_getter f (raw_at f off fns) (fun data => let! v := raw_at f off fns data in convert f v).

Definition no_sized_fn (f : field) : Prop := f_size f <> None -> f_size_fn f = None.

Lemma layout_no_sized_fn fs : layout_ok fs = true -> Forall no_sized_fn fs.
Proof.
  intros H. destruct (layout_split fs H) as (ss & us & -> & Hs & Ht). apply Forall_app. split.
  - rewrite forallb_forall in Hs. apply Forall_forall. intros f Hf _. destruct (is_sized_size f (Hs f Hf)) as (n & _ & _ & E). exact E.
  - destruct Ht as [->|[(u & -> & Hu)|[_ Hu]]].
    + constructor.
    + constructor; [|constructor]. intros HH. apply is_rest_facts in Hu. destruct Hu as (_ & E & _). congruence.
    + rewrite forallb_forall in Hu. apply Forall_forall. intros f Hf HH. specialize (Hu f Hf).
      apply is_counted_facts in Hu. destruct Hu as (_ & E & _). congruence.
Qed.

Lemma gen_getters_nth fs : Forall no_sized_fn fs -> forall off fns k,
  nth_error (gen_getters off fns fs) k =
  option_map (fun f => getter_at f (off + offset_of fs k) (fns ++ size_fns (firstn k fs))) (nth_error fs k).
Proof.
  induction fs as [|f fs IH]; intros Nf off fns k; cbn [gen_getters].
  - destruct k; reflexivity.
  - apply Forall_cons_iff in Nf. destruct Nf as [Nf Nfs].
    destruct k as [|k].
    + cbn [nth_error firstn option_map offset_of]. unfold size_fns. cbn [map concat]. rewrite app_nil_r, N.add_0_r.
      unfold getter_at, raw_at, convert. destruct (f_size f); reflexivity.
    + unfold no_sized_fn in Nf. destruct (f_size f) as [n|] eqn:Sf; cbn [nth_error firstn offset_of].
      * rewrite IH by exact Nfs. unfold size_fns. cbn [map concat]. rewrite Nf by discriminate. cbn [app].
        unfold field_size. rewrite Sf, N.add_assoc. reflexivity.
      * rewrite IH by exact Nfs. unfold size_fns. cbn [map concat]. unfold field_size. rewrite Sf, N.add_0_l.
        destruct (f_size_fn f); cbn [app]; [|reflexivity]. rewrite <- app_assoc. reflexivity.
Qed.

Lemma gen_getters_fields fs : forall off fns, map g_field (gen_getters off fns fs) = fs.
Proof.
  induction fs as [|f fs IH]; intros off fns; cbn [gen_getters]; [reflexivity|].
  destruct (f_size f); cbn [map g_field]; now rewrite IH.
Qed.

Lemma counted_sizes_app a b payload :
  counted_sizes (a ++ b) payload =
  (let! x := counted_sizes a payload in let! y := counted_sizes b payload in Ret (x ++ y)).
Proof.
  induction a as [|f a IH]; cbn [app counted_sizes bind].
  - destruct (counted_sizes b payload); reflexivity.
  - destruct (f_size_fn f); [|exact IH]. destruct (r payload); cbn [bind]; try reflexivity.
    rewrite IH. destruct (counted_sizes a payload); cbn [bind]; try reflexivity.
    destruct (counted_sizes b payload); reflexivity.
Qed.

Lemma counted_sizes_len us payload ns : forallb is_counted us = true -> counted_sizes us payload = Ret ns -> length ns = length us.
Proof.
  revert ns. induction us as [|u us IH]; cbn [counted_sizes forallb]; intros ns H E.
  - inversion E. reflexivity.
  - apply andb_true_iff in H. destruct H as [H1 H2]. destruct (is_counted_facts u H1) as (_ & _ & (g & Eg) & _).
    rewrite Eg in E. destruct (g payload); cbn [bind] in E; try discriminate.
    destruct (counted_sizes us payload) as [ns'| |]; cbn [bind] in E; try discriminate. inversion E; subst. cbn.
    f_equal. auto.
Qed.

Lemma sumN_app a b : sumN (a ++ b) = sumN a + sumN b.
Proof. unfold sumN. induction a as [|x a IH]; cbn; [reflexivity|]. rewrite IH. lia. Qed.
Lemma sumN_firstn_le k l : sumN (firstn k l) <= sumN l.
Proof. rewrite <- (firstn_skipn k l) at 2. rewrite sumN_app. lia. Qed.

Lemma filter_counted_sized ss : forallb is_sized ss = true -> filter is_counted ss = [].
Proof.
  induction ss as [|f ss IH]; cbn; intros H; [reflexivity|]. apply andb_true_iff in H. destruct H as [H1 H2].
  destruct (is_counted f) eqn:C; [|auto]. apply counted_not_sized in C. congruence.
Qed.
Lemma filter_counted_all us : forallb is_counted us = true -> filter is_counted us = us.
Proof.
  induction us as [|f ss IH]; cbn; intros H; [reflexivity|]. apply andb_true_iff in H. destruct H as [H1 H2].
  rewrite H1. now rewrite IH.
Qed.
Lemma forallb_firstn {A} (q : A -> bool) k l : forallb q l = true -> forallb q (firstn k l) = true.
Proof.
  revert k. induction l as [|x l IH]; intros [|k]; cbn; auto. intros H. apply andb_true_iff in H. destruct H as [H1 H2].
  rewrite H1. cbn. auto.
Qed.

Lemma counted_firstn us payload k ns : counted_sizes us payload = Ret ns -> forallb is_counted us = true ->
  counted_sizes (firstn k us) payload = Ret (firstn k ns).
Proof.
  revert k ns. induction us as [|u us IH]; intros k ns E H.
  - cbn in E. inversion E; subst. destruct k; reflexivity.
  - cbn in H. apply andb_true_iff in H. destruct H as [H1 H2]. destruct (is_counted_facts u H1) as (_ & _ & (g & Eg) & _).
    destruct k as [|k]; [reflexivity|]. cbn [firstn counted_sizes] in *. rewrite Eg in *.
    destruct (g payload) as [n| |]; cbn [bind] in *; try discriminate.
    destruct (counted_sizes us payload) as [ns'| |]; cbn [bind] in *; try discriminate. inversion E; subst ns. cbn [firstn].
    rewrite (IH k ns' eq_refl H2). reflexivity.
Qed.

Lemma getter_located p payload k f :
  layout_ok (p_fields p) = true -> lenN payload <= usize_max -> length_accepts p payload ->
  nth_error (p_fields p) k = Some f ->
  exists off fns start stop,
    nth_error (getters p) k = Some (getter_at f off fns) /\
    located (p_fields p) k f payload start stop /\ start <= stop /\ stop <= lenN payload /\
    raw_at f off fns payload = Ret (decode (f_ty f) (takeN (stop - start) (dropN start payload))).
Proof.
  intros L Hl La Hk. set (fs := p_fields p) in *.
  exists (0 + offset_of fs k), ([] ++ size_fns (firstn k fs)).
  assert (Hn : nth_error (getters p) k = Some (getter_at f (0 + offset_of fs k) ([] ++ size_fns (firstn k fs)))).
  { unfold getters. fold fs. rewrite gen_getters_nth by (apply layout_no_sized_fn; exact L). rewrite Hk. reflexivity. }
  rewrite Hn. cbn [app] in *. rewrite N.add_0_l in *. clear Hn.
  destruct (layout_split fs L) as (ss & us & E & Hs & Ht).
  assert (Hfix : fixed_size fs <= lenN payload).
  { unfold length_accepts in La. fold fs in La. destruct (forallb is_sized fs); [lia|]. tauto. }
  assert (Hkl : (k < length fs)%nat) by (apply nth_error_Some; congruence).
  destruct (Nat.ltb k (length ss)) eqn:Kl.
  - apply Nat.ltb_lt in Kl.
    assert (Sf : is_sized f = true).
    { rewrite forallb_forall in Hs. apply Hs. rewrite E, nth_error_app1 in Hk by exact Kl. eapply nth_error_In. exact Hk. }
    destruct (is_sized_size f Sf) as (n & Sz & Fz & Fn).
    pose proof (offset_of_le fs k f Hk) as Ho.
    exists (offset_of fs k), (offset_of fs k + n). split; [reflexivity|]. unfold located. rewrite Sf, Fz.
    split; [auto|]. split; [lia|]. split; [lia|].
    cbn [getter_at g_raw g_field]. unfold raw_at. rewrite Sz. rewrite (get_raw_field_ok _ _ _ _ n Sz) by lia.
    do 3 f_equal. lia.
  - apply Nat.ltb_ge in Kl.
    assert (Hk' : nth_error us (k - length ss) = Some f) by (rewrite E, nth_error_app2 in Hk by exact Kl; exact Hk).
    assert (Hoff : offset_of fs k = fixed_size fs).
    { assert (Z : forall us j, fixed_size us = 0 -> offset_of us j = 0).
      { intros us0 j HH. pose proof (offset_of_le' us0 j). lia. }
      rewrite E. replace k with (length ss + (k - length ss))%nat by lia. rewrite offset_of_app_r, fixed_size_app.
      rewrite Z by (apply fixed_size_tail; exact Ht). rewrite (fixed_size_tail us Ht). reflexivity. }
    destruct Ht as [->|[(u & -> & Hu)|[Hne Hu]]].
    + destruct (k - length ss)%nat; discriminate.
    + destruct (k - length ss)%nat as [|[|]] eqn:Ek; try discriminate. cbn in Hk'. inversion Hk'; subst u.
      destruct (is_rest_facts f Hu) as (Et & Sz & Fn & Fz).
      exists (offset_of fs k), (lenN payload). split; [reflexivity|]. unfold located. rewrite (rest_not_sized f Hu), Hu.
      split; [auto|]. split; [lia|]. split; [lia|].
      cbn [getter_at g_raw g_field]. unfold raw_at. rewrite Sz. unfold unsized_slice. rewrite Fn.
      rewrite slice_from_ok by lia. cbn [bind]. rewrite takeN_all by (rewrite lenN_dropN; lia).
      rewrite Et. reflexivity.
    + assert (Cf : is_counted f = true).
      { rewrite forallb_forall in Hu. apply Hu. eapply nth_error_In. exact Hk'. }
      destruct (is_counted_facts f Cf) as (Et & Sz & (g & Fn) & Fz).
      unfold length_accepts in La. fold fs in La.
      assert (Hns : forallb is_sized fs = false).
      { destruct us as [|u us]; [congruence|]. rewrite E. apply forallb_sized_app_false. apply counted_not_sized.
        cbn in Hu. apply andb_true_iff in Hu. tauto. }
      rewrite Hns in La. destruct La as (_ & ns & Ec & Hsum).
      assert (Ecu : counted_sizes us payload = Ret ns).
      { rewrite E, counted_sizes_app, (counted_sizes_none ss) in Ec by (apply size_fns_sized; exact Hs).
        cbn [bind] in Ec. destruct (counted_sizes us payload); cbn [bind app] in Ec; congruence. }
      set (i := (k - length ss)%nat) in *.
      assert (Ei : length (filter is_counted (firstn k fs)) = i).
      { rewrite E. replace k with (length ss + i)%nat by lia. rewrite firstn_app_2, filter_app.
        rewrite filter_counted_sized by exact Hs. rewrite filter_counted_all by (apply forallb_firstn; exact Hu).
        cbn. apply firstn_length_le. assert (i < length us)%nat by (apply nth_error_Some; congruence). lia. }
      exists (fixed_size fs + sumN (firstn i ns)), (fixed_size fs + sumN (firstn (S i) ns)).
      split; [reflexivity|].
      assert (Hf1 : counted_sizes (firstn i us) payload = Ret (firstn i ns)) by (apply counted_firstn; auto).
      assert (Hgi : exists n, g payload = Ret n /\ firstn (S i) ns = firstn i ns ++ [n]).
      { clear - Hk' Fn Ecu Hu. clearbody i. revert i ns Hk' Ecu. induction us as [|u us IH]; intros i ns Hk' Ecu.
        - destruct i; discriminate.
        - cbn in Hu. apply andb_true_iff in Hu. destruct Hu as [H1 H2].
          destruct (is_counted_facts u H1) as (_ & _ & (g' & Eg) & _). cbn [counted_sizes] in Ecu. rewrite Eg in Ecu.
          destruct (g' payload) as [n| |] eqn:Egp; cbn [bind] in Ecu; try discriminate.
          destruct (counted_sizes us payload) as [ns'| |]; cbn [bind] in Ecu; try discriminate. inversion Ecu; subst ns.
          destruct i as [|i]; cbn in Hk'.
          + inversion Hk'; subst u. exists n. split; [congruence|]. reflexivity.
          + destruct (IH H2 i ns' Hk' eq_refl) as (m & Hm & Hf). exists m. split; [exact Hm|].
            change (firstn (S (S i)) (n :: ns')) with (n :: firstn (S i) ns'). rewrite Hf. reflexivity. }
      destruct Hgi as (n & Egn & Efn).
      assert (Hle : fixed_size fs + sumN (firstn (S i) ns) <= lenN payload).
      { pose proof (sumN_firstn_le (S i) ns). lia. }
      rewrite Efn, sumN_app in *. change (sumN [n]) with (n + 0) in *.
      split.
      { unfold located. rewrite (counted_not_sized f Cf).
        assert (is_rest f = false) as ->. { unfold is_rest. rewrite Et, Fn. reflexivity. }
        exists ns. split; [exact Ec|]. cbv zeta. rewrite Ei. split; [reflexivity|].
        rewrite Efn, sumN_app. change (sumN [n]) with (n + 0). reflexivity. }
      split; [lia|]. split; [lia|].
      cbn [getter_at g_raw g_field]. unfold raw_at. rewrite Sz. unfold unsized_slice. rewrite Fn.
      replace (size_fns (firstn k fs)) with (size_fns (firstn i us)).
      2: { rewrite E. replace k with (length ss + i)%nat by lia. rewrite firstn_app_2, size_fns_app.
           rewrite (size_fns_sized ss Hs). reflexivity. }
      destruct (add_size_fns_counted (firstn i us) payload (offset_of fs k)) as [A1 _].
      rewrite (A1 _ Hf1) by (rewrite Hoff; lia). cbn [bind]. rewrite Egn. cbn [bind].
      rewrite uadd_ok by (rewrite Hoff; lia). cbn [bind]. rewrite Hoff.
      rewrite slice_ok by lia. cbn [bind]. rewrite Et. cbn [slice_val decode].
      replace (fixed_size fs + (sumN (firstn i ns) + (n + 0)) - (fixed_size fs + sumN (firstn i ns)))
        with (fixed_size fs + sumN (firstn i ns) + n - (fixed_size fs + sumN (firstn i ns))) by lia.
      reflexivity.
Qed.

