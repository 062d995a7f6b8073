(** * Properties of the enum and bit flag types (C31, C32) *)
From Coq Require Import String List NArith ZArith Bool Lia ZifyBool ZifyNat ZifyN FinFun.
From Verif Require Import Base BaseFacts DualBuffer PackDesc GenRecv Enums TableTypes TablePackets SpecPacket SpecTypes
  ProofTable ProofDispatch.
Import ListNotations.
Open Scope N_scope.
Open Scope list_scope.

(** ** C31 *)

Lemma find_nodup {A} (f : A -> N) (l : list A) x : NoDup (map f l) -> In x l -> find (fun v => f v =? f x) l = Some x.
Proof.
  induction l as [|y l IH]; intros ND HI; [destruct HI|]. cbn [find map] in *. inversion ND as [|z zs NI ND']; subst.
  destruct (f y =? f x) eqn:E.
  - destruct HI as [->|HI]; [reflexivity|]. exfalso. apply NI. apply N.eqb_eq in E. rewrite E. now apply in_map.
  - destruct HI as [->|HI]; [lia|auto].
Qed.

Lemma find_none {A} (f : A -> N) (l : list A) x : ~ In x (map f l) -> find (fun v => f v =? x) l = None.
Proof.
  induction l as [|y l IH]; intros N; [reflexivity|]. cbn [find map In] in *.
  destruct (f y =? x) eqn:E; [apply N.eqb_eq in E; tauto|auto].
Qed.

Lemma in_bytes i : In i (map N.of_nat (seq 0 256)) <-> i < 256.
Proof.
  rewrite in_map_iff. split.
  - intros (k & <- & Hk). apply in_seq in Hk. lia.
  - intros H. exists (N.to_nat i). split; [lia|]. apply in_seq. lia.
Qed.

Lemma existsb_snd (vs : list (string * N)) x : existsb (fun v => snd v =? x) vs = true <-> In x (map snd vs).
Proof.
  rewrite existsb_exists, in_map_iff. split; intros (v & H); exists v; rewrite N.eqb_eq in *; tauto.
Qed.

Lemma in_snd_map {A} (l : list N) (g : N -> A) : map snd (map (fun i => (g i, i)) l) = l.
Proof. rewrite map_map. cbn. now rewrite map_id. Qed.

Lemma nodup_app {A} (a b : list A) : NoDup a -> (forall x, In x a -> In x b -> False) -> NoDup b -> NoDup (a ++ b).
Proof.
  induction a as [|x a IH]; intros Na D Nb; [exact Nb|]. inversion Na; subst. cbn. constructor.
  - rewrite in_app_iff. intros [H|H]; [tauto|]. apply (D x); [now left|exact H].
  - apply IH; auto. intros y Hy. apply D. now right.
Qed.

Lemma variants_nodup d : NoDup (map snd (e_variants d)) -> NoDup (map snd (enum_variants d)).
Proof.
  intros ND. unfold enum_variants. destruct (e_rest d) as [[|]|]; auto.
  rewrite map_app, in_snd_map. apply nodup_app; [exact ND| |].
  - intros x Hx Hf. apply filter_In in Hf. destruct Hf as [_ Hf]. apply negb_true_iff in Hf.
    assert (existsb (fun v => snd v =? x) (e_variants d) = true) by (apply existsb_snd; exact Hx). congruence.
  - apply NoDup_filter. apply Injective_map_NoDup; [|apply seq_NoDup]. intros a b H. lia.
Qed.

(** Decoding a declared number gives its variant, and encoding the variant gives its number again: for any enum declaration
    with distinct numbers. *)
Theorem enum_declared :
  forall d name x, NoDup (map snd (e_variants d)) -> In (name, x) (e_variants d) ->
    enum_from d x = Ret (name, x) /\ enum_into_raw (name, x) = x /\ enum_is_valid d x = true.
Proof.
  intros d name x ND HI. assert (HV : In (name, x) (enum_variants d)).
  { unfold enum_variants. destruct (e_rest d) as [[|]|]; auto. apply in_app_iff. now left. }
  split; [|split; [reflexivity|]].
  - unfold enum_from. pose proof (find_nodup snd (enum_variants d) (name, x) (variants_nodup d ND) HV) as F. cbn [snd] in F.
    rewrite F. reflexivity.
  - unfold enum_is_valid. apply existsb_exists. exists (name, x). split; [exact HV|]. apply N.eqb_refl.
Qed.

(** An undeclared byte: a variant [Reserved<x>] of its own if the enum is declared [rest_reserved], otherwise the
    check fails (and the decoding function, which is called only after the check, would panic). *)
Theorem enum_undeclared :
  forall d x, NoDup (map snd (e_variants d)) -> x < 256 -> ~ In x (map snd (e_variants d)) ->
    match e_rest d with
    | Some RestReserved => enum_from d x = Ret (("Reserved" ++ dec x)%string, x)
    | _ => enum_is_valid d x = false /\ enum_from d x = Panic
    end.
Proof.
  intros d x ND Hx NI.
  assert (NV : e_rest d <> Some RestReserved -> enum_is_valid d x = false /\ enum_from d x = Panic).
  { intros R. assert (E : enum_variants d = e_variants d) by (unfold enum_variants; destruct (e_rest d) as [[|]|]; congruence).
    unfold enum_is_valid, enum_from. rewrite E, (find_none snd _ _ NI). split; [|reflexivity].
    destruct (existsb _ _) eqn:Ex; [|reflexivity]. apply existsb_snd in Ex. tauto. }
  destruct (e_rest d) as [[|]|] eqn:R; try (apply NV; congruence).
  assert (HV : In (("Reserved" ++ dec x)%string, x) (enum_variants d)).
  { unfold enum_variants. rewrite R. apply in_app_iff. right. apply in_map_iff. exists x. split; [reflexivity|].
    apply filter_In. split; [now apply in_bytes|]. apply negb_true_iff.
    destruct (existsb _ _) eqn:Ex; [|reflexivity]. apply existsb_snd in Ex. tauto. }
  unfold enum_from. pose proof (find_nodup snd (enum_variants d) _ (variants_nodup d ND) HV) as F. cbn [snd] in F. rewrite F. reflexivity.
Qed.

(** Decoding and encoding are inverse to each other on all values of the type and all bytes that decode. *)
Theorem enum_round_trip :
  forall d, NoDup (map snd (e_variants d)) ->
    (forall v, In v (enum_variants d) -> enum_from d (enum_into_raw v) = Ret v) /\
    (forall x v, enum_from d x = Ret v -> In v (enum_variants d) /\ enum_into_raw v = x).
Proof.
  intros d ND. split.
  - intros v HV. unfold enum_from, enum_into_raw. rewrite (find_nodup snd _ v (variants_nodup d ND) HV). reflexivity.
  - intros x v E. unfold enum_from in E. destruct (find _ _) as [w|] eqn:F; [|discriminate]. injection E as ->.
    apply find_some in F. destruct F as [F1 F2]. split; [exact F1|]. unfold enum_into_raw. lia.
Qed.

(** The enums of the library: numbers are distinct bytes, names are distinct; those decoded without a check decode every
    byte. *)
Theorem library_enums :
  (forall d, In d all_enums ->
     NoDup (map snd (e_variants d)) /\ NoDup (map fst (e_variants d)) /\ Forall (fun x => x < 256) (map snd (e_variants d))) /\
  (forall d, In d enums_from -> forall x, x < 256 -> exists v, enum_from d x = Ret v /\ enum_into_raw v = x) /\
  (forall d, In d all_enums -> In d enums_from \/ In d enums_from_unchecked).
Proof.
  split; [|split].
  - assert (F : Forall (fun d => NoDup (map snd (e_variants d)) /\ NoDup (map fst (e_variants d)) /\ Forall (fun x => x < 256) (map snd (e_variants d))) all_enums).
    { unfold all_enums. each; match goal with |- context [e_variants ?d] => unfold d end; cbn [e_variants map snd fst];
        (split; [|split]); try (repeat (apply NoDup_cons; [intros HI; cbn in HI; repeat (destruct HI as [HI|HI]; [discriminate HI|]); exact HI|]); apply NoDup_nil);
        repeat (apply Forall_cons; [reflexivity|]); apply Forall_nil. }
    rewrite Forall_forall in F. exact F.
  - intros d Hd x Hx.
    assert (F : forallb (fun d => forallb (fun x => match enum_from d x with Ret v => snd v =? x | _ => false end)
              (map N.of_nat (seq 0 256))) enums_from = true) by (vm_compute; reflexivity).
    rewrite forallb_forall in F. specialize (F d Hd). rewrite forallb_forall in F. specialize (F x (proj2 (in_bytes x) Hx)).
    destruct (enum_from d x) as [v| |]; try discriminate. exists v. split; [reflexivity|]. unfold enum_into_raw. lia.
  - assert (F : Forall (fun d => In d enums_from \/ In d enums_from_unchecked) all_enums).
    { unfold all_enums, enums_from, enums_from_unchecked. each; first [left; in_list; fail | right; in_list; fail | solve [left; in_list] | solve [right; in_list]]. }
    rewrite Forall_forall in F. exact F.
Qed.
Example library_enums_ex :
  In e_gps_fix all_enums /\ enum_from e_gps_fix 3 = Ret ("Fix3D"%string, 3) /\ enum_from e_gps_fix 200 = Ret ("Reserved200"%string, 200) /\
  In e_uart_port_id all_enums /\ enum_from e_uart_port_id 3 = Ret ("Usb"%string, 3) /\ enum_is_valid e_uart_port_id 4 = false.
Proof.
  split; [unfold all_enums; in_list|]. split; [reflexivity|]. split; [reflexivity|]. split; [unfold all_enums; in_list|]. split; reflexivity.
Qed.

(** In an accepted packet a checked enum field holds a declared number, which its getter returns as the variant. *)
Theorem checked_enum_field :
  forall p payload k name alias gar fn d,
    accepts p payload ->
    nth_error (p_fields p) k = Some (mk_field name alias (Scalar U8) (Some (enum_map d true)) gar fn) ->
    e_rest d <> Some RestReserved ->
    In (b2n (nthN payload (offset_of (p_fields p) k))) (map snd (e_variants d)).
Proof.
  intros p payload k name alias gar fn d A Hk R.
  pose proof (proj2 A k (mk_field name alias (Scalar U8) (Some (enum_map d true)) gar fn) (enum_map d true) (fun z => Ret (enum_is_valid d (Z.to_N z))) Hk eq_refl eq_refl) as FA.
  cbn [f_ty] in FA. injection FA as FA. unfold enum_is_valid in FA.
  assert (E : enum_variants d = e_variants d) by (unfold enum_variants; destruct (e_rest d) as [[|]|]; congruence).
  rewrite E in FA. apply existsb_snd in FA. unfold field_bytes_at in FA. cbn [f_size f_ty size_bytes scalar_size] in FA.
  replace (b2n (nthN payload (offset_of (p_fields p) k)))
    with (Z.to_N (decode (Scalar U8) (takeN 1 (dropN (offset_of (p_fields p) k) payload)))); [exact FA|].
  cbn [decode scalar_signed].
  assert (H : lenN (dropN (offset_of (p_fields p) k) payload) > 0 \/ dropN (offset_of (p_fields p) k) payload = []).
  { destruct (dropN _ _); [now right|left]. rewrite lenN_cons. lia. }
  destruct H as [H|H].
  - rewrite lenN_dropN in H. rewrite dropN_nthN by lia. change (takeN 1 (?a :: ?b)) with [a]. cbn [unsigned_of]. lia.
  - rewrite H. assert (lenN payload <= offset_of (p_fields p) k) by (rewrite <- (takeN_dropN (offset_of (p_fields p) k) payload) at 1; rewrite H, app_nil_r, lenN_takeN; lia).
    unfold nthN. rewrite nth_overflow; [reflexivity|]. unfold lenN in *. lia.
Qed.
Example checked_enum_field_ex :
  accepts p_cfg_prt_uart (x02 :: repeat x00 19) /\
  nth_error (p_fields p_cfg_prt_uart) 0 = Some (mk_field "portid" None (Scalar U8) (Some (enum_map e_uart_port_id true)) false None) /\
  e_rest e_uart_port_id <> Some RestReserved.
Proof. split; [|split; [reflexivity|discriminate]]. apply accepts_uart. split; [reflexivity|]. right. left. reflexivity. Qed.

(** ** C32 *)

Lemma flags_items_values d : map snd (flags_items d) = map (fun b => 2 ^ b) (map N.of_nat (seq 0 (N.to_nat (b_nbits d)))).
Proof.
  unfold flags_items. rewrite map_map. apply map_ext. intros b. rewrite N.shiftl_1_l. destruct (find _ _); reflexivity.
Qed.

Lemma lor_pows n : forall s, fold_right (fun c a => N.lor c a) 0 (map (fun b => 2 ^ b) (map N.of_nat (seq s n))) = N.shiftl (N.ones (N.of_nat n)) (N.of_nat s).
Proof.
  induction n as [|n IH]; intros s; cbn [seq map fold_right].
  - rewrite N.ones_equiv. reflexivity.
  - rewrite IH. apply N.bits_inj. intros k. rewrite N.lor_spec.
    rewrite N.pow2_bits_eqb.
    destruct (N.ltb_spec k (N.of_nat s)).
    + rewrite !N.shiftl_spec_low by lia. destruct (N.of_nat s =? k) eqn:E; [lia|reflexivity].
    + destruct (N.of_nat s =? k) eqn:E.
      * apply N.eqb_eq in E. subst k. cbn [orb]. rewrite N.shiftl_spec_high' by lia. rewrite N.ones_spec_low by lia. reflexivity.
      * apply N.eqb_neq in E. rewrite !N.shiftl_spec_high' by lia. cbn [orb].
        destruct (N.ltb_spec (k - N.of_nat (S s)) (N.of_nat n)).
        -- rewrite !N.ones_spec_low by lia. reflexivity.
        -- rewrite !N.ones_spec_high by lia. reflexivity.
Qed.

Lemma flags_all_ones d : flags_all d = N.ones (b_nbits d).
Proof.
  assert (E : forall l : list (string * N), fold_right (fun c a => N.lor (snd c) a) 0 l = fold_right (fun c a => N.lor c a) 0 (map snd l)).
  { induction l as [|c l IH]; [reflexivity|]. cbn. now rewrite IH. }
  unfold flags_all. rewrite E, flags_items_values, lor_pows, N.shiftl_0_r, N2Nat.id. reflexivity.
Qed.

(** Every bit of the word has a constant of its own, declared or reserved; so nothing is lost: decoding a word keeps all its
    bits, encoding returns them.  For any declaration. *)
Theorem flags_keep_all_bits :
  forall d x, x < 2 ^ b_nbits d -> flags_from d x = x /\ flags_into_raw (flags_from d x) = x.
Proof.
  intros d x Hx. unfold flags_into_raw, flags_from. rewrite flags_all_ones, N.land_ones, N.mod_small by exact Hx. split; reflexivity.
Qed.

(** For a declaration the macro accepts, each declared constant is one bit of the word, no two are the same,
    and [contains] says whether this bit is set. *)
Theorem flags_declared :
  forall d, flags_accepted d = true ->
    NoDup (map snd (b_consts d)) /\
    forall name v, In (name, v) (b_consts d) ->
      exists b, b < b_nbits d /\ v = 2 ^ b /\ forall x, flags_contains (flags_from d x) v = bit x b.
Proof.
  intros d A. unfold flags_accepted in A. apply N.eqb_eq in A.
  set (bs := filter _ _) in A.
  assert (NDb : NoDup bs) by (apply NoDup_filter; apply Injective_map_NoDup; [intros a b H; lia|apply seq_NoDup]).
  set (vals := map (fun b => 2 ^ b) bs).
  assert (NDv : NoDup vals).
  { apply Injective_map_NoDup; [|exact NDb]. intros a b H. apply N.pow_inj_r in H; lia. }
  assert (Inc : incl vals (map snd (b_consts d))).
  { intros v Hv. apply in_map_iff in Hv. destruct Hv as (b & <- & Hb). apply filter_In in Hb. destruct Hb as [_ Hb].
    apply existsb_snd in Hb. rewrite N.shiftl_1_l in Hb. exact Hb. }
  assert (Len : length (map snd (b_consts d)) = length vals).
  { unfold vals. rewrite !map_length. unfold lenN in A. lia. }
  split; [apply (NoDup_incl_NoDup NDv); [lia|exact Inc]|].
  intros name v HI.
  assert (Hv : In v vals).
  { apply (@NoDup_length_incl _ vals (map snd (b_consts d)) NDv); [lia|exact Inc|]. apply in_map_iff. exists (name, v). auto. }
  apply in_map_iff in Hv. destruct Hv as (b & <- & Hb). apply filter_In in Hb. destruct Hb as [Hb _].
  exists b. assert (Hlt : b < b_nbits d).
  { apply in_map_iff in Hb. destruct Hb as (k & <- & Hk). apply in_seq in Hk. lia. }
  split; [exact Hlt|]. split; [reflexivity|]. intros x. unfold flags_contains, flags_from. rewrite flags_all_ones, N.land_ones.
  assert (E : N.land (x mod 2 ^ b_nbits d) (2 ^ b) = if N.testbit x b then 2 ^ b else 0).
  { apply N.bits_inj. intros k. rewrite N.land_spec, N.pow2_bits_eqb. destruct (b =? k) eqn:Ek.
    - apply N.eqb_eq in Ek. subst k. rewrite N.mod_pow2_bits_low by exact Hlt.
      destruct (N.testbit x b); [rewrite N.pow2_bits_true|rewrite N.bits_0]; reflexivity.
    - rewrite andb_false_r. destruct (N.testbit x b); [|now rewrite N.bits_0].
      rewrite N.pow2_bits_eqb, Ek. reflexivity. }
  rewrite E. unfold bit. rewrite <- N.testbit_spec'. assert (P : 2 ^ b <> 0) by (apply N.pow_nonzero; lia).
  destruct (N.testbit x b); cbn [N.b2n].
  - rewrite N.eqb_refl. reflexivity.
  - destruct (0 =? 2 ^ b) eqn:E0; [lia|reflexivity].
Qed.

(** The bit flags of the library are accepted declarations with distinct names. *)
Theorem library_flags :
  forall d, In d all_flags -> flags_accepted d = true /\ NoDup (map fst (b_consts d)).
Proof.
  assert (F : Forall (fun d => flags_accepted d = true /\ NoDup (map fst (b_consts d))) all_flags).
  { unfold all_flags. each; match goal with |- context [b_consts ?d] => unfold d end; cbn [b_consts map fst]; (split; [vm_compute; reflexivity|]);
      repeat (apply NoDup_cons; [intros HI; cbn in HI; repeat (destruct HI as [HI|HI]; [discriminate HI|]); exact HI|]); apply NoDup_nil. }
  rewrite Forall_forall in F. exact F.
Qed.
Example library_flags_ex :
  In bf_nav_pvt_flags2 all_flags /\ flags_from bf_nav_pvt_flags2 0xff = 0xff /\
  In ("CONFIRMED_DATE"%string, 64) (b_consts bf_nav_pvt_flags2) /\ flags_contains (flags_from bf_nav_pvt_flags2 0x41) 64 = true.
Proof. split; [unfold all_flags; in_list|]. split; [reflexivity|]. split; [unfold bf_nav_pvt_flags2; cbn; in_list|reflexivity]. Qed.

Print Assumptions enum_declared.
Print Assumptions enum_undeclared.
Print Assumptions enum_round_trip.
Print Assumptions library_enums.
Print Assumptions checked_enum_field.
Print Assumptions flags_keep_all_bits.
Print Assumptions flags_declared.
Print Assumptions library_flags.
