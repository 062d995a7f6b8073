(** * The conversions of builder fields: totality and recoding *)
From Coq Require Import String List NArith ZArith Bool Lia ZifyBool ZifyNat ZifyN SpecFloat.
From Verif Require Import Base BaseFacts DualBuffer PackDesc GenRecv GenSend Enums Floats Bits TableTypes TablePackets
  SpecFrame SpecPacket SpecReal ProofFloat ProofSend ProofRecv ProofTable PropFloat SpecFields.
Import ListNotations.
Open Scope N_scope.
Open Scope list_scope.

(** ** Totality *)
Definition total (f : field) : Prop :=
  forall v, fvalue_ok f v -> ~ is_nan f v -> exists r, to_raw f v = Ret r.

Lemma total_none n a t gar sz : total (mk_field n a t None gar sz).
Proof. intros v _ _. eexists. reflexivity. Qed.
Lemma total_ret n a t m gar sz g : (forall v, m_into m v = Ret (g v)) -> total (mk_field n a t (Some m) gar sz).
Proof. intros E v _ _. eexists. unfold to_raw. cbn. apply E. Qed.
Lemma total_float n a t s m e gar sz : fits t s -> scale_okb t m e = true ->
  total (mk_field n a (Scalar s) (Some (float_map t s (Some (m, e)))) gar sz).
Proof.
  intros Ft Sc v Ov Nn. apply scale_okb_ok in Sc. unfold fvalue_ok in Ov. cbn in v, Ov. unfold to_raw.
  change (exists r, scale_back false t (lit t m e) s v = Ret r).
  destruct v as [sg|sg| |sg mm ee].
  - destruct (scale_back_finite false t s m e (S754_zero sg) Ft Sc Ov eq_refl) as (k & E & _). eauto.
  - rewrite (scale_back_infinite false t s m e sg Ft Sc). eauto.
  - rewrite scale_back_nan_refuted. destruct (scalar_signed s) eqn:Sg; [|eauto]. exfalso. apply Nn. constructor. exact Sg.
  - destruct (scale_back_finite false t s m e (S754_finite sg mm ee) Ft Sc Ov eq_refl) as (k & E & _). eauto.
Qed.

Ltac fits_tac := unfold fits; vm_compute; discriminate.
Lemma send_total : Forall (fun p => Forall total (p_fields p)) send_packets.
Proof.
  unfold send_packets. each; match goal with |- Forall _ (p_fields ?x) => unfold x end; cbn [p_fields]; each;
    first [ apply total_none | apply total_float; [fits_tac|reflexivity] | eapply total_ret; intros; reflexivity ].
Qed.

Lemma wire_fields_total fs : Forall total fs -> forall b, builder_ok fs b -> ~ has_nan fs b -> exists ws, wire_fields fs b = Ret ws.
Proof.
  induction 1 as [|f fs Tf Tfs IH]; intros b B Nn; [eexists; reflexivity|].
  destruct B as [Bf Bfs]. cbn [has_nan] in Nn. cbn [wire_fields].
  destruct (Tf (fst b) Bf) as (r & ->); [tauto|]. destruct (IH (snd b) Bfs) as (ws & ->); [tauto|]. cbn. eauto.
Qed.

Lemma nan_panics f v : is_nan f v -> to_raw f v = Panic.
Proof.
  intros [n a t s scale gar sz Sg]. unfold to_raw. cbn. destruct scale as [[m e]|]; [|reflexivity].
  change (scale_back false t (lit t m e) s S754_nan = Panic). rewrite scale_back_nan_refuted, Sg. reflexivity.
Qed.
Lemma wire_fields_nan fs : forall b, Forall total fs -> builder_ok fs b -> has_nan fs b -> wire_fields fs b = Panic.
Proof.
  induction fs as [|f fs IH]; intros b T B H; [destruct H|]. apply Forall_cons_iff in T. destruct T as [Tf Tfs].
  destruct B as [Bf Bfs]. cbn [wire_fields]. destruct (to_raw f (fst b)) as [r| |] eqn:Er; cbn [bind].
  - destruct H as [H|H]; [apply nan_panics in H; congruence|]. rewrite (IH (snd b) Tfs Bfs H). reflexivity.
  - reflexivity.
  - exfalso. assert (~ is_nan f (fst b)) as Nn by (intros Hn; apply nan_panics in Hn; congruence).
    destruct (Tf _ Bf Nn) as (r & E). congruence.
Qed.

(** ** Recoding *)
Definition stable (f : field) : Prop :=
  forall r x, raw_ok (f_ty f) r -> from_raw f r = Ret x -> fvalue_ok f x /\ to_raw f x = Ret r.

Lemma stable_none n a t gar sz : stable (mk_field n a t None gar sz).
Proof.
  intros r x H E. unfold from_raw in E. cbn in E. injection E as <-. split; [exact H|reflexivity].
Qed.
Lemma stable_float n a t s m e gar sz : fits t s -> scale_okb t m e = true ->
  stable (mk_field n a (Scalar s) (Some (float_map t s (Some (m, e)))) gar sz).
Proof.
  intros Ft Sc r x H E. apply scale_okb_ok in Sc. unfold from_raw in E. cbn in r, x, H, E.
  change (Ret (fmul t (of_int t r) (lit t m e)) = Ret x) in E. injection E as <-.
  change (scalar_min s <= r <= scalar_max s)%Z in H. split.
  - exact (proj1 (getter_accurate t s m e r Ft H Sc)).
  - exact (scaled_round_trip false t s m e r Ft H Sc).
Qed.
Lemma stable_enum n a d b gar sz : stable (mk_field n a (Scalar U8) (Some (enum_map d b)) gar sz).
Proof.
  intros r x H E. unfold from_raw in E. cbn in r, x, H, E. unfold enum_from in E.
  destruct (find _ _) as [v|] eqn:F; cbn [bind] in E; [|discriminate]. injection E as <-.
  apply find_some in F. destruct F as [F1 F2]. apply N.eqb_eq in F2. split; [exact F1|].
  unfold to_raw. cbn. unfold enum_into_raw. rewrite F2. f_equal. cbn in H. lia.
Qed.
Lemma stable_flags n a s d gar sz : scalar_signed s = false -> b_nbits d = 8 * scalar_size s -> flags_all d = N.ones (b_nbits d) ->
  stable (mk_field n a (Scalar s) (Some (flags_map s d)) gar sz).
Proof.
  intros Us Nb Al r x H E. unfold from_raw in E. cbn in r, x, H, E. injection E as <-.
  change (scalar_min s <= r <= scalar_max s)%Z in H. unfold scalar_min, scalar_max in H. rewrite Us in H.
  unfold flags_from. rewrite Al, N.land_ones.
  assert (Hr : (0 <= r < 2 ^ Z.of_N (b_nbits d))%Z).
  { rewrite Nb. split; [lia|]. replace (Z.of_N (8 * scalar_size s)) with (8 * Z.of_N (scalar_size s))%Z by lia. lia. }
  assert (Hn : Z.to_N r < 2 ^ b_nbits d).
  { change 2 with (Z.to_N 2). rewrite <- (N2Z.id (b_nbits d)), <- Z2N.inj_pow by lia. apply Z2N.inj_lt; lia. }
  rewrite N.mod_small by exact Hn. split; [exact Hn|]. unfold to_raw. cbn. unfold flags_into_raw. f_equal. lia.
Qed.

Lemma stable_never n a t m gar sz : (forall r, m_from m r = Panic) -> stable (mk_field n a t (Some m) gar sz).
Proof. intros H r x _ E. unfold from_raw in E. cbn in E. rewrite H in E. discriminate. Qed.

Ltac stable_tac :=
  first [ apply stable_none | apply stable_enum | apply stable_flags; [reflexivity|reflexivity|vm_compute; reflexivity]
        | apply stable_float; [fits_tac|reflexivity]
        | apply stable_never; reflexivity ].
Lemma send_stable : Forall (fun p => (In (p_name p) ["CfgItfm"; "CfgPrtUart"]%string) \/ Forall stable (p_fields p)) send_packets.
Proof.
  unfold send_packets. each;
    first [ left; cbn; tauto
          | right; match goal with |- Forall _ (p_fields ?x) => unfold x end; cbn [p_fields]; each; stable_tac ].
Qed.

(** Getters of fields which follow each other from [off] on *)
Inductive chain : N -> list getter -> Prop :=
| chain_nil off : chain off []
| chain_cons off f n gs : f_size f = Some n -> chain (off + n) gs ->
    chain off (mk_getter f (get_raw_field (f_ty f) (f_get_as_ref f) off)
                 (fun data => let! v := get_raw_field (f_ty f) (f_get_as_ref f) off data in from_raw f v) :: gs).

Lemma gen_getters_chain fs : forall off fns n, fields_size fs = Some n -> chain off (gen_getters off fns fs).
Proof.
  induction fs as [|f fs IH]; intros off fns n S; cbn [gen_getters]; [constructor|].
  cbn in S. destruct (f_size f) as [a|] eqn:Sf; [|discriminate]. destruct (fields_size fs) as [c|] eqn:Sfs; [|discriminate].
  apply (chain_cons off f a); [exact Sf|]. eapply IH. reflexivity.
Qed.

Lemma takeN_add {A} a c (l : list A) : takeN (a + c) l = takeN a l ++ takeN c (dropN a l).
Proof.
  unfold takeN, dropN. rewrite N2Nat.inj_add. revert l. induction (N.to_nat a) as [|k IH]; intros l; [reflexivity|].
  destruct l as [|x l]; cbn [Nat.add firstn skipn app]; [now rewrite firstn_nil|]. now rewrite IH.
Qed.

Lemma wire_decode t n l : size_bytes t = Some n -> lenN l = n -> wire t (decode t l) = l.
Proof.
  intros S L. destruct t as [s|m|]; cbn in *.
  - injection S as S. rewrite <- S in L. rewrite <- to_le_bytes_int. change (to_le_bytes s (decode (Scalar s) l) = l).
    rewrite <- from_le_bytes_decode by exact L. unfold to_le_bytes, from_le_bytes.
    pose proof (le_num_bound l) as B. rewrite L in B.
    assert (Hu : (0 <= Z.of_N (le_num l) < 2 ^ (8 * Z.of_N (scalar_size s)))%Z) by (rewrite pow256; lia).
    match goal with |- le_bytes _ (Z.to_N ?x) = _ => replace x with (Z.of_N (le_num l)) end.
    + rewrite N2Z.id. replace (N.to_nat (scalar_size s)) with (length l) by (unfold lenN in L; lia). apply le_bytes_le_num.
    + destruct (_ && _); [|symmetry; apply Z.mod_small; lia].
      apply Z.mod_unique with (-1)%Z; lia.
  - reflexivity.
  - discriminate.
Qed.

Lemma copied_wire off gs : chain off gs -> forall fs payload n (b : builder (map g_field gs)) (b1 : builder fs),
  existT builder (map g_field gs) b = existT builder fs b1 ->
  fields_size fs = Some n -> Forall stable fs -> off + n <= lenN payload -> getter_values payload gs = Ret b ->
  builder_ok fs b1 /\ exists ws, wire_fields fs b1 = Ret ws /\ concat ws = takeN n (dropN off payload).
Proof.
  intros Ch fs payload n b b1 E S St L G.
  pose proof (f_equal (@projT1 _ _) E) as E1. cbn [projT1] in E1.
  assert (Ok : builder_ok (map g_field gs) b /\ exists ws, wire_fields (map g_field gs) b = Ret ws /\ concat ws = takeN n (dropN off payload)).
  { rewrite <- E1 in S, St. clear E E1 b1 fs. revert n S L b G. induction Ch as [off|off f a gs Sf Ch IH]; intros n S L b G; cbn [map g_field] in *.
    - cbn in S. injection S as <-. split; [exact I|]. exists []. split; [reflexivity|]. rewrite takeN_0. reflexivity.
    - cbn in S. rewrite Sf in S. destruct (fields_size (map g_field gs)) as [c|] eqn:Sfs; [|discriminate]. injection S as <-.
      apply Forall_cons_iff in St. destruct St as [Stf Sts].
      cbn [getter_values g_val] in G. rewrite (get_raw_field_ok (f_ty f) (f_get_as_ref f) off payload a) in G by (assumption || lia).
      cbn [bind] in G. destruct (from_raw f _) as [v| |] eqn:Ev; cbn [bind] in G; try discriminate.
      destruct (getter_values payload gs) as [b2| |] eqn:Eb; cbn [bind] in G; try discriminate. injection G as <-.
      assert (Ln : lenN (takeN a (dropN off payload)) = a) by (rewrite lenN_takeN, lenN_dropN; lia).
      destruct (Stf _ v (decode_ok _ a _ Sf Ln) Ev) as (Ov & Er).
      destruct (IH Sts c eq_refl ltac:(lia) b2 eq_refl) as (B2 & ws & Ew & Ec). split; [split; assumption|].
      exists (takeN a (dropN off payload) :: ws). cbn [wire_fields fst snd]. rewrite Er. cbn [bind]. rewrite Ew. cbn [bind].
      rewrite (wire_decode _ a) by assumption. split; [reflexivity|]. cbn [concat]. rewrite Ec.
      rewrite <- dropN_dropN. symmetry. apply takeN_add. }
  pose (P := fun s : {fs & builder fs} => builder_ok (projT1 s) (projT2 s) /\ exists ws,
    wire_fields (projT1 s) (projT2 s) = Ret ws /\ concat ws = takeN n (dropN off payload)).
  change (P (existT builder fs b1)). rewrite <- E. exact Ok.
Qed.

Lemma getter_values_total payload gs : (forall g, In g gs -> exists v, g_val g payload = Ret v) ->
  exists b, getter_values payload gs = Ret b.
Proof.
  induction gs as [|g gs IH]; intros H; [eexists; reflexivity|]. cbn [getter_values].
  destruct (H g (or_introl eq_refl)) as (v & ->). destruct IH as (b & ->); [intros g' Hg; apply H; right; exact Hg|]. cbn. eauto.
Qed.
