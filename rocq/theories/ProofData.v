(** * Proofs about serialized packets *)
From Coq Require Import String List NArith ZArith Bool Lia ZifyBool ZifyNat ZifyN Eqdep_dec SpecFloat Reals.
From Verif Require Import Base DualBuffer PackDesc Enums Floats Bits Utf8 Iterators GenRecv Dispatch Serialize Macro Meaning Data
  SpecPacket SpecTypes SpecData BaseFacts ProofText ProofRecv ProofTable PropTypes PropBits PropIter.
From Verif Require SpecReal ProofFields ProofFloat PropFloat ProofDispatch.
Import ListNotations.
Open Scope N_scope.
Open Scope list_scope.

(** ** The entries of a packet *)

Definition raw_ty_dec (a b : raw_ty) : {a = b} + {a <> b}.
Proof. decide equality; [decide equality|apply N.eq_dec]. Defined.

Lemma raw_located p payload k f :
  layout_ok (p_fields p) = true -> lenN payload <= usize_max -> length_accepts p payload ->
  nth_error (p_fields p) k = Some f ->
  exists start stop,
    located (p_fields p) k f payload start stop /\ start <= stop /\ stop <= lenN payload /\
    raw_at f (0 + offset_of (p_fields p) k) ([] ++ size_fns (firstn k (p_fields p))) payload =
    Ret (decode (f_ty f) (takeN (stop - start) (dropN start payload))).
Proof.
  intros L Hl La Hk. destruct (getter_located p payload k f L Hl La Hk) as (off & fns & start & stop & G & Lo & H1 & H2 & E).
  exists start, stop. split; [exact Lo|]. split; [exact H1|]. split; [exact H2|]. rewrite <- E.
  pose proof (gen_getters_nth (p_fields p) (layout_no_sized_fn _ L) 0 [] k) as G'. rewrite Hk in G'. cbn [option_map] in G'.
  change (gen_getters 0 [] (p_fields p)) with (getters p) in G'. rewrite G in G'. injection G' as G' _.
  apply (f_equal (fun x : {f : field & list byte -> res (raw_val (f_ty f))} => existT (fun t => res (raw_val t)) (f_ty (projT1 x)) (projT2 x payload))) in G'. cbn [projT1 projT2] in G'.
  apply inj_pair2_eq_dec in G'; [|exact raw_ty_dec]. symmetry. exact G'.
Qed.

Definition entry (fw : field_ty) (off : N) (fns : list (list byte -> res N)) (payload : list byte) : res data :=
  let! r := raw_at (projT1 fw) off fns payload in let! v := convert (projT1 fw) r in projT2 fw v.

Lemma entries_at_cons fw l off fns payload : no_sized_fn (projT1 fw) ->
  entries_at off fns (fw :: l) payload =
  let! d := entry fw off fns payload in
  let! ds := entries_at (off + field_size (projT1 fw)) (fns ++ size_fns [projT1 fw]) l payload in
  Ret ((f_name (projT1 fw), d) :: ds).
Proof.
  intros Nf. destruct fw as (f & w). cbn [entries_at projT1 projT2] in *. unfold entry, raw_at, convert, field_size, size_fns, no_sized_fn in *.
  cbn [projT1 projT2 map concat]. destruct (f_size f) as [n|] eqn:S.
  - rewrite Nf by discriminate. cbn [app]. rewrite app_nil_r.
    destruct (get_raw_field (f_ty f) (f_get_as_ref f) off payload) as [r| |]; cbn [bind]; [|reflexivity|reflexivity].
    destruct (from_raw f r) as [v| |]; cbn [bind]; [|reflexivity|reflexivity]. destruct (w v); reflexivity.
  - rewrite N.add_0_r, app_nil_r.
    destruct (unsized_slice f off fns payload) as [s| |]; cbn [bind]; [|reflexivity|reflexivity].
    destruct (slice_val (f_ty f) s) as [r| |]; cbn [bind]; [|reflexivity|reflexivity].
    destruct (from_raw_unsized f r) as [v| |]; cbn [bind]; [|reflexivity|reflexivity]. destruct (w v); cbn [bind]; [|reflexivity|reflexivity]. destruct (f_size_fn f); [reflexivity|now rewrite app_nil_r].
Qed.

Lemma entries_total (l : list field_ty) payload : Forall (fun fw : field_ty => no_sized_fn (projT1 fw)) l -> forall off fns (P : nat -> field_ty -> data -> Prop),
  (forall k fw, nth_error l k = Some fw ->
     exists d, entry fw (off + offset_of (map (@projT1 _ _) l) k) (fns ++ size_fns (firstn k (map (@projT1 _ _) l))) payload = Ret d /\ P k fw d) ->
  exists ds, entries_at off fns l payload = Ret ds /\ length ds = length l /\
    forall k fw, nth_error l k = Some fw -> exists d, nth_error ds k = Some (f_name (projT1 fw), d) /\ P k fw d.
Proof.
  induction 1 as [|fw l Nf Nfs IH]; intros off fns P H.
  - exists []. split; [reflexivity|]. split; [reflexivity|]. intros [|k] fw; discriminate.
  - destruct (H O fw eq_refl) as (d & E & Pd). cbn [map firstn offset_of] in E. unfold size_fns in E at 1. cbn [map concat] in E. rewrite N.add_0_r, app_nil_r in E.
    destruct (IH (off + field_size (projT1 fw)) (fns ++ size_fns [projT1 fw]) (fun k => P (S k))) as (ds & Es & Ls & Hs).
    + intros k fw' Hk. destruct (H (S k) fw' Hk) as (d' & E' & Pd'). exists d'. split; [|exact Pd']. rewrite <- E'.
      cbn [map firstn offset_of]. rewrite N.add_assoc, <- app_assoc. f_equal. f_equal. unfold size_fns. cbn [map concat]. now rewrite app_nil_r.
    + exists ((f_name (projT1 fw), d) :: ds). split; [|split].
      * rewrite entries_at_cons by exact Nf. rewrite E. cbn [bind]. rewrite Es. reflexivity.
      * cbn. now rewrite Ls.
      * intros [|k] fw' Hk; cbn [nth_error] in *; [injection Hk as <-; eauto|]. exact (Hs k fw' Hk).
Qed.

Lemma entries_panic (l : list field_ty) payload : Forall (fun fw : field_ty => no_sized_fn (projT1 fw)) l -> forall off fns k0 fw0,
  nth_error l k0 = Some fw0 ->
  entry fw0 (off + offset_of (map (@projT1 _ _) l) k0) (fns ++ size_fns (firstn k0 (map (@projT1 _ _) l))) payload = Panic ->
  (forall k fw, (k < k0)%nat -> nth_error l k = Some fw ->
     exists d, entry fw (off + offset_of (map (@projT1 _ _) l) k) (fns ++ size_fns (firstn k (map (@projT1 _ _) l))) payload = Ret d) ->
  entries_at off fns l payload = Panic.
Proof.
  induction 1 as [|fw l Nf Nfs IH]; intros off fns k0 fw0 Hk0 E0 H; [destruct k0; discriminate|].
  rewrite entries_at_cons by exact Nf. destruct k0 as [|k0]; cbn [nth_error] in Hk0.
  - injection Hk0 as <-. cbn [map firstn offset_of] in E0. unfold size_fns in E0 at 1. cbn [map concat] in E0. rewrite N.add_0_r, app_nil_r in E0. now rewrite E0.
  - destruct (H O fw ltac:(lia) eq_refl) as (d & E). cbn [map firstn offset_of] in E. unfold size_fns in E at 1. cbn [map concat] in E. rewrite N.add_0_r, app_nil_r in E.
    rewrite E. cbn [bind].
    assert (S : forall k, size_fns (firstn (S k) (map (@projT1 _ _) (fw :: l))) = size_fns [projT1 fw] ++ size_fns (firstn k (map (@projT1 _ _) l))).
    { intros k. unfold size_fns. cbn [map firstn concat]. now rewrite app_nil_r. }
    rewrite (IH (off + field_size (projT1 fw)) (fns ++ size_fns [projT1 fw]) k0 fw0 Hk0); [reflexivity| |].
    + rewrite <- E0. rewrite S. cbn [map offset_of]. now rewrite N.add_assoc, app_assoc.
    + intros k fw' Hlt Hk. destruct (H (Datatypes.S k) fw' ltac:(lia) Hk) as (d' & E'). exists d'. rewrite <- E'.
      rewrite S. cbn [map offset_of]. now rewrite N.add_assoc, app_assoc.
Qed.

(** ** The fields of the model and those with their serialization *)

Lemma data_meaning_fst inner t c m w : data_meaning inner t c = Some (existT _ m w) -> map_meaning t c = Some m.
Proof.
  intros H. pose proof H as H0. apply (f_equal (option_map (@projT1 _ _))) in H. cbn [option_map projT1] in H. rewrite <- H. clear H.
  destruct t as [s|n|], c; cbn [data_meaning map_meaning]; try reflexivity;
    repeat match goal with |- context [match ?x with _ => _ end] => destruct x; try reflexivity end; discriminate H0.
Qed.

Lemma field_data_fst inner pname c fw : field_data inner pname c = Some fw -> field_meaning c = Some (projT1 fw).
Proof.
  unfold field_data, field_meaning. destruct (fc_map c) as [m|].
  - destruct (data_meaning inner (fc_ty c) m) as [(mm & w)|] eqn:E; [|discriminate]. rewrite (data_meaning_fst _ _ _ _ _ E).
    destruct (entry_of _ w); [|discriminate]. cbn. intros H. injection H as <-. reflexivity.
  - destruct (entry_of _ _); [|discriminate]. cbn. intros H. injection H as <-. reflexivity.
Qed.

Lemma all_some_nth {A B} (f : A -> option B) l l' : all_some f l = Some l' ->
  length l' = length l /\ forall k x, nth_error l k = Some x -> exists y, nth_error l' k = Some y /\ f x = Some y.
Proof.
  revert l'. induction l as [|x l IH]; intros l' H; cbn in H.
  - injection H as <-. split; [reflexivity|]. intros [|k] x; discriminate.
  - destruct (f x) as [y|] eqn:E; [|discriminate]. destruct (all_some f l) as [ys|] eqn:Es; [|discriminate]. injection H as <-.
    destruct (IH ys eq_refl) as (L & H). split; [cbn; now rewrite L|]. intros [|k] z Hk; cbn in *; [injection Hk as <-; eauto|exact (H k z Hk)].
Qed.

Lemma all_some_map {A B C} (f : A -> option B) (g : A -> option C) (h : B -> C) l l' :
  (forall x y, f x = Some y -> g x = Some (h y)) -> all_some f l = Some l' -> all_some g l = Some (map h l').
Proof.
  intros H. revert l'. induction l as [|x l IH]; intros l' E; cbn in *; [injection E as <-; reflexivity|].
  destruct (f x) as [y|] eqn:Ex; [|discriminate]. destruct (all_some f l) as [ys|]; [|discriminate]. injection E as <-.
  rewrite (H x y Ex), (IH ys eq_refl). reflexivity.
Qed.

(** ** Fields *)

Definition code_fine (t : raw_ty) (c : option map_code) : bool :=
  match t, c with
  | Scalar s, Some (CFloat f sc) =>
      (8 * Z.of_N (scalar_size s) + 8 <=? fprec f)%Z && match sc with Some (m, e) => PropFloat.scale_okb f m e | None => true end
  | Scalar s, Some (CEnum d mf) => mf || enum_total d
  | Scalar s, Some (CFlags _) | Scalar s, Some CWord => negb (scalar_signed s)
  | Bytes n, None => negb (n =? 0)
  | Items, _ => false
  | _, _ => true
  end.

Definition says (fw : field_ty) (bytes : list byte) : res data :=
  let! v := convert (projT1 fw) (decode (f_ty (projT1 fw)) bytes) in projT2 fw v.

(** The check of the field accepts these bytes *)
Definition checked (f : field) (bytes : list byte) : Prop :=
  forall m v, f_map f = Some m -> m_valid m = Some v -> v (decode (f_ty f) bytes) = Ret true.
(** The size is right *)
Definition measured (t : raw_ty) (bytes : list byte) : Prop :=
  match size_bytes t with Some n => lenN bytes = n | None => lenN bytes <= 65535 end.

Lemma unsigned_le l : unsigned_of l = Z.of_N (le_value l).
Proof. induction l as [|b l IH]; [reflexivity|]. cbn [unsigned_of le_value]. rewrite IH. lia. Qed.
Lemma decode_unsigned s l : scalar_signed s = false -> decode (Scalar s) l = Z.of_N (le_value l).
Proof. intros H. unfold decode. rewrite H. apply unsigned_le. Qed.

Lemma collect_yields {I A} (next : I -> res (option (A * I))) it items : yields next it items ->
  forall fuel, (length items < fuel)%nat -> collect fuel next it = Ret items.
Proof.
  induction 1 as [it E|it x it' items E Y IH]; intros [|fuel] Hf; try (cbn in Hf; lia); cbn [collect]; rewrite E; cbn [bind]; [reflexivity|].
  rewrite IH by (cbn in Hf; lia). reflexivity.
Qed.

Lemma map_res_ret {A B} (f : A -> B) l : map_res (fun x => Ret (f x)) l = Ret (map f l).
Proof. induction l as [|x l IH]; [reflexivity|]. cbn [map_res map bind]. rewrite IH. reflexivity. Qed.

Lemma map_res_total {A B} (f : A -> res B) (P : A -> B -> Prop) l :
  Forall (fun x => exists y, f x = Ret y /\ P x y) l -> exists ys, map_res f l = Ret ys /\ Forall2 P l ys.
Proof.
  induction 1 as [|x l (y & E & Py) F (ys & Es & Ps)]; [exists []; split; [reflexivity|constructor]|].
  exists (y :: ys). cbn [map_res]. rewrite E. cbn [bind]. rewrite Es. split; [reflexivity|now constructor].
Qed.

Lemma blocks_count n l bs : 0 < n -> blocks n l bs -> (length bs <= length l)%nat.
Proof.
  intros Hn [<- F]. induction F as [|b bs Hb F IH]; [cbn; lia|]. cbn [concat length]. rewrite app_length. unfold lenN in Hb. lia.
Qed.

(** Iterators *)
Lemma forall2_len {A B} (P : A -> B -> Prop) l l' : Forall2 P l l' -> length l = length l'.
Proof. induction 1; cbn; congruence. Qed.
Lemma offset_told {A} (next : offset_iter -> res (option (A * offset_iter))) n (g : list byte -> res A) (f : A -> res data) (Q : list byte -> data -> Prop) bytes :
  0 < n ->
  (forall data off, off + n <= lenN data -> lenN data <= usize_max ->
     next (mk_offset_iter data off) = let! x := g (takeN n (dropN off data)) in Ret (Some (x, mk_offset_iter data (off + n)))) ->
  (forall data off, lenN data <= off -> next (mk_offset_iter data off) = Ret None) ->
  lenN bytes <= 65535 -> lenN bytes mod n = 0 ->
  (forall b, In b (chunks n bytes) -> lenN b = n -> exists x d, g b = Ret x /\ f x = Ret d /\ Q b d) ->
  exists d, (let! l := collect_offset next f (offset_iter_new bytes) in Ret (DSeq l)) = Ret d /\ sequence n Q bytes d.
Proof.
  intros Hn Hnext Hend Hl M HQ. pose proof (chunks_blocks n bytes Hn M) as B. set (bs := chunks n bytes) in *. clearbody bs.
  assert (exists xs ds, Forall2 (fun b x => g b = Ret x) bs xs /\ map_res f xs = Ret ds /\ Forall2 Q bs ds) as (xs & ds & F1 & F2 & F3).
  { destruct B as [_ F]. clear - F HQ. induction F as [|b bs Hb F IH]; [exists [], []; repeat constructor|].
    destruct (HQ b ltac:(now left) Hb) as (x & d & E1 & E2 & Hq). destruct IH as (xs & ds & I1 & I2 & I3); [intros b' Hb'; apply HQ; now right|].
    exists (x :: xs), (d :: ds). split; [now constructor|]. split; [|now constructor]. cbn [map_res]. rewrite E2. cbn [bind]. now rewrite I2. }
  assert (Y : yields next (mk_offset_iter bytes 0) xs).
  { apply (offset_iter_yields next n g bs Hn Hnext Hend); [unfold usize_max; lia|lia|rewrite dropN_0; exact B|exact F1]. }
  exists (DSeq ds). split; [|exists bs, ds; auto]. unfold collect_offset, offset_iter_new. cbn [oi_data].
  rewrite (collect_yields _ _ _ Y); [cbn [bind]; now rewrite F2|].
  pose proof (blocks_count n bytes bs Hn B). apply forall2_len in F1. lia.
Qed.

Lemma chunks_told {A} (next : list byte -> res (option (A * list byte))) n (g : list byte -> res A) (f : A -> res data) (Q : list byte -> data -> Prop) bytes :
  0 < n ->
  (forall it, n <= lenN it -> next it = let! x := g (takeN n it) in Ret (Some (x, dropN n it))) ->
  (forall it, lenN it < n -> next it = Ret None) ->
  lenN bytes mod n = 0 ->
  (forall b, lenN b = n -> exists x d, g b = Ret x /\ f x = Ret d /\ Q b d) ->
  exists d, (let! l := collect_chunks next f (chunks_exact n bytes) in Ret (DSeq l)) = Ret d /\ sequence n Q bytes d.
Proof.
  intros Hn Hnext Hend M HQ. pose proof (chunks_blocks n bytes Hn M) as B. set (bs := chunks n bytes) in *. clearbody bs.
  rewrite chunks_exact_all by assumption.
  assert (exists xs ds, Forall2 (fun b x => g b = Ret x) bs xs /\ map_res f xs = Ret ds /\ Forall2 Q bs ds) as (xs & ds & F1 & F2 & F3).
  { destruct B as [_ F]. clear - F HQ. induction F as [|b bs Hb F IH]; [exists [], []; repeat constructor|].
    destruct (HQ b Hb) as (x & d & E1 & E2 & Hq). destruct IH as (xs & ds & I1 & I2 & I3).
    exists (x :: xs), (d :: ds). split; [now constructor|]. split; [|now constructor]. cbn [map_res]. rewrite E2. cbn [bind]. now rewrite I2. }
  pose proof (chunks_iter_yields next n g bs Hn Hnext Hend bytes xs B F1) as Y.
  exists (DSeq ds). split; [|exists bs, ds; auto]. unfold collect_chunks.
  rewrite (collect_yields _ _ _ Y); [cbn [bind]; now rewrite F2|].
  pose proof (blocks_count n bytes bs Hn B). apply forall2_len in F1. lia.
Qed.

Lemma esf_meas_step it : 4 <= lenN it -> esf_meas_next it = let! x := Ret (meas_item (takeN 4 it)) in Ret (Some (x, dropN 4 it)).
Proof.
  intros H. unfold esf_meas_next. rewrite chunks_next_some by exact H.
  assert (L4 : lenN (takeN 4 it) = 4) by (rewrite lenN_takeN; lia). set (b := takeN 4 it) in *. clearbody b.
  unfold u32_of_slice. rewrite L4. change (4 =? 4) with true. cbn iota. cbn [bind]. rewrite le_num_value.
  change 1056964608 with (N.shiftl (N.ones 6) 24). rewrite N.shiftr_land, N.shiftr_shiftl_l by lia.
  change (24 - 24) with 0. rewrite N.shiftl_0_r, shift_land_bits. change 16777215 with (N.ones 24). rewrite land_ones_bits.
  pose proof (bits_bound (le_value b) 24 6) as Bd. change (2 ^ 6) with 64 in Bd. unfold u8_try_into.
  replace (bits (le_value b) 24 6 <=? 255) with true by (symmetry; lia). reflexivity.
Qed.
Lemma esf_raw_step it : 8 <= lenN it -> esf_raw_next it = let! x := Ret (raw_item (takeN 8 it)) in Ret (Some (x, dropN 8 it)).
Proof.
  intros H. unfold esf_raw_next. rewrite chunks_next_some by exact H.
  assert (L8 : lenN (takeN 8 it) = 8) by (rewrite lenN_takeN; lia). set (b := takeN 8 it) in *. clearbody b.
  rewrite slice_ok by lia. cbn [bind]. change (4 - 0) with 4. rewrite dropN_0.
  assert (L4 : lenN (takeN 4 b) = 4) by (rewrite lenN_takeN; lia).
  unfold u32_of_slice at 1. rewrite L4. cbn [bind N.eqb Pos.eqb].
  rewrite slice_ok by lia. cbn [bind]. change (8 - 4) with 4. rewrite (takeN_all 4 (dropN 4 b)) by (rewrite lenN_dropN; lia).
  unfold u32_of_slice. rewrite lenN_dropN, L8. change (8 - 4 =? 4) with true. cbn iota. cbn [bind].
  change 255 with (N.ones 8). rewrite shift_land_bits. change 16777215 with (N.ones 24). rewrite land_ones_bits.
  unfold u8_try_into. rewrite le_num_value. pose proof (bits_bound (le_value (takeN 4 b)) 24 8) as Bd. change (2 ^ 8) with 256 in Bd.
  replace (bits (le_value (takeN 4 b)) 24 8 <=? 255) with true by (symmetry; lia). cbn [bind]. unfold raw_item. rewrite (le_num_value (dropN 4 b)). reflexivity.
Qed.

(** The packets inside of packets *)
Definition inner_ok (inner : string -> list byte -> res data) (spec : string -> list byte -> data -> Prop) : Prop :=
  (forall b, lenN b = 12 -> exists d, inner "NavSatSvInfo"%string b = Ret d /\ spec "NavSatSvInfo"%string b d) /\
  (forall b, lenN b = 32 -> exists d, inner "RxmRawxInfo"%string b = Ret d /\ spec "RxmRawxInfo"%string b d).
Definition nests (c : option map_code) : bool := match c with Some CNavSat | Some CRawx => true | _ => false end.

(** The modes of a UART for which there are names *)
Definition named_mode (w : N) : Prop := mode_data_bits w <> None /\ mode_parity w <> None.

Lemma enum_from_snd d x v : enum_from d x = Ret v -> snd v = x.
Proof.
  unfold enum_from. destruct (find _ _) as [v'|] eqn:E; [|discriminate]. intros H. injection H as <-.
  apply find_some in E. destruct E as [_ E]. now apply N.eqb_eq in E.
Qed.

Lemma uart_named w : named_mode w -> exists m, uart_mode_from w = Ret m /\
  mode_data_bits w = Some (data_bits_name (um_data_bits m)) /\ mode_parity w = Some (parity_name (um_parity m)) /\
  mode_stop_bits w = stop_bits_name (um_stop_bits m).
Proof.
  intros [H1 H2]. unfold mode_data_bits, mode_parity, mode_stop_bits in *. unfold uart_mode_from, data_bits_from, parity_from, stop_bits_from.
  change (N.land (N.shiftr w 6) 3) with (N.land (N.shiftr w 6) (N.ones 2)). change (N.land (N.shiftr w 12) 3) with (N.land (N.shiftr w 12) (N.ones 2)).
  change (N.land (N.shiftr w 9) 7) with (N.land (N.shiftr w 9) (N.ones 3)). rewrite !shift_land_bits.
  pose proof (bits_bound w 6 2) as B1. pose proof (bits_bound w 9 3) as B2. pose proof (bits_bound w 12 2) as B3.
  change (2 ^ 2) with 4 in *. change (2 ^ 3) with 8 in *.
  generalize dependent (bits w 6 2). generalize dependent (bits w 9 3). generalize dependent (bits w 12 2). clear w. intros c Bc b H2 Bb a H1 Ba.
  assert (Ca : a = 0 \/ a = 1 \/ a = 2 \/ a = 3) by lia. assert (Cc : c = 0 \/ c = 1 \/ c = 2 \/ c = 3) by lia.
  assert (Cb : b = 0 \/ b = 1 \/ b = 2 \/ b = 3 \/ b = 4 \/ b = 5 \/ b = 6 \/ b = 7) by lia. clear Ba Bb Bc.
  destruct Ca as [->|[->|[->| ->]]]; try (exfalso; apply H1; reflexivity);
    destruct Cb as [->|[->|[->|[->|[->|[->|[->| ->]]]]]]]; try (exfalso; apply H2; reflexivity);
    destruct Cc as [->|[->|[->| ->]]]; eexists; repeat split.
Qed.

Lemma uart_unnamed w : ~ named_mode w -> uart_mode_from w = Panic.
Proof.
  intros H. unfold named_mode, mode_data_bits, mode_parity in *. unfold uart_mode_from, data_bits_from, parity_from, stop_bits_from.
  change (N.land (N.shiftr w 6) 3) with (N.land (N.shiftr w 6) (N.ones 2)). change (N.land (N.shiftr w 12) 3) with (N.land (N.shiftr w 12) (N.ones 2)).
  change (N.land (N.shiftr w 9) 7) with (N.land (N.shiftr w 9) (N.ones 3)). rewrite !shift_land_bits.
  pose proof (bits_bound w 6 2) as B1. pose proof (bits_bound w 9 3) as B2. 
  change (2 ^ 2) with 4 in *. change (2 ^ 3) with 8 in *. generalize dependent (bits w 6 2). generalize dependent (bits w 9 3). generalize (bits w 12 2). clear w. intros c b Bb a H Ba.
  assert (Ca : a = 0 \/ a = 1 \/ a = 2 \/ a = 3) by lia.
  assert (Cb : b = 0 \/ b = 1 \/ b = 2 \/ b = 3 \/ b = 4 \/ b = 5 \/ b = 6 \/ b = 7) by lia. clear Ba Bb.
  destruct Ca as [->|[->|[->| ->]]]; try reflexivity;
    destruct Cb as [->|[->|[->|[->|[->|[->|[->| ->]]]]]]]; try reflexivity; exfalso; apply H; split; discriminate.
Qed.

Lemma scaled_ok f s sc z : (8 * Z.of_N (scalar_size s) + 8 <= fprec f)%Z -> (scalar_min s <= z <= scalar_max s)%Z ->
  match sc with Some (m, e) => PropFloat.scale_okb f m e = true | None => True end ->
  scaled f sc z (match sc with Some (m, e) => fmul f (of_int f z) (lit f m e) | None => of_int f z end).
Proof.
  intros Ft Hz Hs. destruct (ProofFloat.fits_range f s Ft) as (M1 & M2 & M3 & M4 & M5).
  assert (Z2 : (2 ^ (8 * Z.of_N (scalar_size s)) <= 2 ^ (fprec f - 8))%Z) by (apply Z.pow_le_mono_r; lia).
  assert (Za : (Z.abs z <= 2 ^ (fprec f - 8))%Z) by lia. unfold scaled. destruct sc as [[m e]|].
  - destruct (ProofFloat.getter_exact f z m e Za (PropFloat.scale_okb_ok f m e Hs)) as (_ & F & R). split; [exact F|exact R].
  - assert (Zb : (Z.abs z <= 2 ^ fprec f)%Z) by lia. destruct (ProofFloat.of_int_exact f z Zb) as (_ & F & R & _). split; [exact F|exact R].
Qed.


Definition map_value {t} (m : mapping t) (r : raw_val t) : res (m_ty m) :=
  match size_bytes t with
  | Some _ => let! x := m_from m r in Ret (match m_scale m with Some g => g x | None => x end)
  | None => m_from m r
  end.

Lemma dm_float inner s f sc : data_meaning inner (Scalar s) (CFloat f sc) = wr (float_map f s sc) (itself (DFloat f)).
Proof. destruct s; reflexivity. Qed.
Lemma dm_flags inner s d : data_meaning inner (Scalar s) (CFlags d) =
  if b_nbits d =? 8 * scalar_size s then wr (flags_map s d) (itself (flags_data s)) else None.
Proof. destruct s; reflexivity. Qed.
Lemma dm_word inner s : data_meaning inner (Scalar s) CWord = wr (word_map s) (itself (word_data s)).
Proof. destruct s; reflexivity. Qed.

Lemma dm_str inner n : data_meaning inner (Bytes n) CStr = wr (cstr_map n) (itself DStr).
Proof. destruct n; reflexivity. Qed.

Lemma map_told inner spec t c bytes :
  code_fine t (Some c) = true -> (nests (Some c) = true -> inner_ok inner spec) -> measured t bytes ->
  (c = CUart -> named_mode (le_value bytes)) ->
  match data_meaning inner t c with
  | Some (existT _ m w) =>
      forall one w', entry_of one w = Some w' -> (forall v, m_valid m = Some v -> v (decode t bytes) = Ret true) ->
        exists d, (let! x := map_value m (decode t bytes) in w' x) = Ret d /\ told spec t (Some c) bytes d
  | None => True
  end.
Proof.
  intros Fine In M U. unfold measured in M.
  destruct t as [s|n|]; [| |discriminate Fine].
  - (* scalars *)
    cbn [size_bytes] in M. pose proof (decode_ok (Scalar s) (scalar_size s) bytes eq_refl M) as Hr. cbn [raw_ok] in Hr.
    destruct c; try (destruct s; exact I).
    + (* floats *) rewrite dm_float. unfold wr. intros [|] w' Ew V; [|discriminate Ew]. injection Ew as <-. unfold map_value. cbn [size_bytes m_from m_scale float_map bind].
      cbn [code_fine] in Fine. apply andb_true_iff in Fine. destruct Fine as [F1 F2]. apply Z.leb_le in F1.
      pose proof (scaled_ok t s scale (decode (Scalar s) bytes) F1 Hr) as Sc.
      destruct scale as [[m e]|]; (eexists; split; [reflexivity|]; cbn [told]; eexists; split; [reflexivity|]; apply Sc; auto).
    + (* enums *) destruct s; try exact I. cbn [data_meaning]. unfold wr. intros [|] w' Ew V; [|discriminate Ew]. injection Ew as <-. unfold map_value. cbn [size_bytes m_scale enum_map].
      assert (X : exists x, m_from (enum_map d may_fail) (decode (Scalar U8) bytes) = Ret x).
      { cbn [code_fine] in Fine. destruct may_fail; [|cbn [orb] in Fine; exact (enum_from_total d false Fine _ Hr)].
        exact (enum_from_valid d _ _ eq_refl Hr (V _ eq_refl)). }
      destruct X as (x & X). rewrite X. cbn [bind]. eexists. split; [reflexivity|]. cbn [told]. unfold enum_data. cbn [enum_map m_from] in X.
      rewrite (enum_from_snd _ _ _ X). f_equal. apply Z2N.id. apply Hr.
    + (* flags *) rewrite dm_flags. destruct (N.eqb_spec (b_nbits d) (8 * scalar_size s)) as [Eb|]; [|exact I].
      unfold wr. intros [|] w' Ew V; [|discriminate Ew]. injection Ew as <-. unfold map_value. cbn [size_bytes m_scale m_from flags_map bind].
      eexists. split; [reflexivity|]. cbn [told]. unfold flags_data, flags_from. cbn [code_fine] in Fine. apply negb_true_iff in Fine.
      f_equal. rewrite flags_all_ones, N.land_ones, Eb. unfold scalar_min, scalar_max in Hr. rewrite Fine in Hr.
      rewrite N.mod_small; [apply Z2N.id; lia|]. clear - Hr. set (z := decode (Scalar s) bytes) in *. cbn in z. clearbody z.
      apply N2Z.inj_lt. rewrite Z2N.id by lia. rewrite N2Z.inj_pow. change (Z.of_N 2) with 2%Z. lia.
    + (* words *) rewrite dm_word. unfold wr. intros [|] w' Ew V; [|discriminate Ew]. injection Ew as <-. unfold map_value. cbn [size_bytes m_scale m_from word_map bind].
      eexists. split; [reflexivity|]. cbn [told]. unfold word_data. cbn [code_fine] in Fine. apply negb_true_iff in Fine.
      f_equal. unfold scalar_min in Hr. rewrite Fine in Hr. apply Z2N.id. lia.
    + destruct s; try exact I. cbn [data_meaning]. unfold wr. intros [|] w' Ew V; [|discriminate Ew]. injection Ew as <-. unfold map_value. cbn [size_bytes m_scale m_from itfm_config_map bind].
      eexists. split; [reflexivity|]. cbn [told]. rewrite decode_unsigned, N2Z.id by reflexivity. rewrite itfm_config_decodes. reflexivity.
    + destruct s; try exact I. cbn [data_meaning]. unfold wr. intros [|] w' Ew V; [|discriminate Ew]. injection Ew as <-. unfold map_value. cbn [size_bytes m_scale m_from itfm_config2_map bind].
      eexists. split; [reflexivity|]. cbn [told]. rewrite decode_unsigned, N2Z.id by reflexivity. rewrite itfm_config2_decodes. unfold itfm_config2_data. cbn [ic2_general ic2_antenna ic2_scan_aux_bands].
      do 4 f_equal. destruct (bits (le_value bytes) 12 2) as [|[| |]]; try reflexivity. all: destruct p; reflexivity.
    + destruct s; try exact I. cbn [data_meaning]. unfold wr. intros [|] w' Ew V; [|discriminate Ew]. injection Ew as <-. unfold map_value. cbn [size_bytes m_scale m_from uart_mode_map].
      rewrite decode_unsigned, N2Z.id by reflexivity. destruct (uart_named _ (U eq_refl)) as (m & Em & E1 & E2 & E3). rewrite Em. cbn [bind].
      eexists. split; [reflexivity|]. cbn [told]. do 2 eexists. split; [exact E1|]. split; [exact E2|]. rewrite E3. reflexivity.
  - (* bytes *)
    change (decode (Bytes n) bytes) with bytes in *.
    destruct c; try (destruct n; exact I).
    { (* text *) rewrite dm_str. unfold wr. intros [|] w' Ew V; [|discriminate Ew]. injection Ew as <-. unfold map_value. cbn [m_scale cstr_map].
      pose proof (V is_cstr_valid eq_refl) as Vs. apply cstr_valid_iff in Vs. destruct Vs as (s & C & T).
      assert (Es : m_from (cstr_map n) bytes = Ret s) by (cbn [cstr_map m_from]; now apply cstr_convert).
      exists (DStr s). split; [|cbn [told]; exists s; split; [reflexivity|split; assumption]].
      destruct (size_bytes (Bytes n)); rewrite Es; reflexivity. }
    all: destruct n as [|n]; [|exact I]; cbn [data_meaning]; cbn [size_bytes] in M; change (0 =? 0) with true in M; cbn iota in M; unfold wr; intros [|] w' Ew V; try discriminate Ew; injection Ew as <-;
      unfold map_value; cbn [size_bytes]; change (0 =? 0) with true; cbn iota; cbn [m_from inf_map calib_tag_map offset_iter_map chunks_iter_map bind].
    + unfold inf_convert_to_str. pose proof (utf8_valid_iff bytes) as Ut. destruct (utf8_valid bytes).
      * eexists. split; [reflexivity|]. cbn [told]. left. split; [now apply Ut|reflexivity].
      * eexists. split; [reflexivity|]. cbn [told]. right. split; [intros T; apply Ut in T; discriminate|reflexivity].
    + unfold calib_tag. eexists. split; [reflexivity|]. cbn [told]. destruct (lenN bytes =? 4); [|reflexivity]. now rewrite le_num_value.
    + pose proof (V _ eq_refl) as Vs. injection Vs as Vs. unfold nav_sat_is_valid in Vs. apply N.eqb_eq in Vs.
      apply (offset_told nav_sat_next 12 (fun b => Ret b)); [lia|exact nav_sat_item| |lia|exact Vs|].
      * intros data off H. unfold nav_sat_next. cbn [oi_data oi_offset]. replace (off <? lenN data) with false by (symmetry; lia). reflexivity.
      * intros b _ Hb. destruct (In eq_refl) as [In1 _]. destruct (In1 b Hb) as (d & Hd & Sd). eauto.
    + pose proof (V _ eq_refl) as Vs. unfold mon_ver_ext_is_valid in Vs. destruct (N.eqb_spec (lenN bytes mod 30) 0) as [Vm|]; [|discriminate].
      apply all_res_true in Vs. rewrite Forall_forall in Vs.
      apply (offset_told mon_ver_ext_next 30 convert_to_str_unchecked); [lia|exact mon_ver_ext_item| |lia|exact Vm|].
      * intros data off H. unfold mon_ver_ext_next. cbn [oi_data oi_offset]. replace (off <? lenN data) with false by (symmetry; lia). reflexivity.
      * intros b Hb _. specialize (Vs b Hb). apply cstr_valid_iff in Vs. destruct Vs as (s & C & T). exists s, (DStr s). split; [now apply cstr_convert|].
        split; [reflexivity|]. exists s. split; [reflexivity|split; assumption].
    + pose proof (V _ eq_refl) as Vs. injection Vs as Vs. unfold rawx_is_valid in Vs. apply N.eqb_eq in Vs.
      apply (chunks_told rawx_next 32 (fun b => Ret b)); [lia| | |exact Vs|].
      * intros it H. unfold rawx_next. now rewrite chunks_next_some.
      * intros it H. unfold rawx_next. now rewrite chunks_next_none.
      * intros b Hb. destruct (In eq_refl) as [_ In2]. destruct (In2 b Hb) as (d & Hd & Sd). eauto.
    + pose proof (V _ eq_refl) as Vs. injection Vs as Vs. unfold esf_meas_is_valid in Vs. apply N.eqb_eq in Vs.
      apply (chunks_told esf_meas_next 4 (fun b => Ret (meas_item b))); [lia|exact esf_meas_step| |exact Vs|].
      * intros it H. unfold esf_meas_next. now rewrite chunks_next_none.
      * intros b Hb. do 2 eexists. split; [reflexivity|]. split; reflexivity.
    + pose proof (V _ eq_refl) as Vs. injection Vs as Vs. unfold esf_raw_is_valid in Vs. apply N.eqb_eq in Vs.
      apply (chunks_told esf_raw_next 8 (fun b => Ret (raw_item b))); [lia|exact esf_raw_step| |exact Vs|].
      * intros it H. unfold esf_raw_next. now rewrite chunks_next_none.
      * intros b Hb. do 2 eexists. split; [reflexivity|]. split; reflexivity.
    + pose proof (V _ eq_refl) as Vs. injection Vs as Vs. unfold dwrd_is_valid in Vs. apply N.eqb_eq in Vs.
      apply (chunks_told dwrd_next 4 u32_of_slice); [lia| | |exact Vs|].
      * intros it H. unfold dwrd_next. now rewrite chunks_next_some.
      * intros it H. unfold dwrd_next. now rewrite chunks_next_none.
      * intros b Hb. do 2 eexists. split; [unfold u32_of_slice; rewrite Hb; reflexivity|]. split; [reflexivity|]. now rewrite le_num_value.
Qed.

Ltac entry_some H := destruct (single _ _) in H; cbn [entry_of option_map itself] in H; try discriminate H; injection H as <-;
  unfold says, checked, measured, convert, from_raw, from_raw_unsized, f_size in *; cbn [projT1 projT2 fld f_ty f_map f_size_fn size_bytes] in *.

Lemma field_told inner spec pname fc fw bytes :
  code_fine (fc_ty fc) (fc_map fc) = true -> field_data inner pname fc = Some fw ->
  (nests (fc_map fc) = true -> inner_ok inner spec) -> measured (fc_ty fc) bytes -> checked (projT1 fw) bytes ->
  (fc_map fc = Some CUart -> named_mode (le_value bytes)) ->
  exists d, says fw bytes = Ret d /\ told spec (fc_ty fc) (fc_map fc) bytes d.
Proof.
  destruct fc as [name alias t c as_ref size]. cbn [fc_ty fc_map]. intros Fine H In M V U.
  unfold field_data in H. cbn [fc_map fc_ty fc_name fc_alias fc_as_ref fc_size] in H.
  assert (Hr : forall s, t = Scalar s -> (scalar_min s <= decode (Scalar s) bytes <= scalar_max s)%Z).
  { intros s ->. apply (decode_ok (Scalar s) (scalar_size s) bytes eq_refl M). }
  destruct c as [c|]; [|destruct t as [s|n|]; entry_some H].
  2: { cbn [bind raw_data]. eexists. split; reflexivity. }
  2: { cbn [code_fine] in Fine. cbn [raw_data]. destruct (n =? 0); [discriminate|]. cbn [bind]. eexists. split; reflexivity. }
  2: { discriminate Fine. }
  pose proof (map_told inner spec t c bytes Fine In M) as X.
  destruct (data_meaning inner t c) as [(mm & w)|]; [|discriminate]. destruct (entry_of _ w) as [w'|] eqn:Ew in H; [|discriminate].
  cbn [option_map] in H. injection H as <-. unfold says, checked in *. cbn [projT1 projT2 fld f_ty f_map] in *.
  destruct (X ltac:(intros ->; now apply U) _ _ Ew) as (d & Ed & T); [intros v Hv; exact (V mm v eq_refl Hv)|].
  exists d. split; [|exact T]. rewrite <- Ed. unfold convert, from_raw, from_raw_unsized, map_value, f_size. cbn [f_ty f_map].
  destruct (size_bytes t); reflexivity.
Qed.

(** ** Packets *)

Lemma size_not_counted f : f_size f <> None -> is_counted f = false.
Proof. unfold f_size, is_counted. destruct (f_ty f) as [s|[|n]|]; cbn; try reflexivity; intros H; destruct (f_size_fn f); try reflexivity; exfalso; apply H; reflexivity. Qed.

(** The bytes of a field which is not counted are those its check sees *)
Lemma located_bytes fs k f payload start stop : nth_error fs k = Some f -> is_sized f = true \/ is_rest f = true ->
  located fs k f payload start stop -> start <= stop -> takeN (stop - start) (dropN start payload) = field_bytes_at fs k f payload.
Proof.
  intros Hk [S|R] L Le; unfold located in L; unfold field_bytes_at.
  - rewrite S in L. destruct L as [-> ->]. destruct (is_sized_size f S) as (n & Sz & Fz & _). rewrite Sz, Fz. f_equal. lia.
  - rewrite (rest_not_sized f R), R in L. destruct L as [-> ->]. destruct (is_rest_facts f R) as (_ & Sz & _). rewrite Sz.
    apply takeN_all. rewrite lenN_dropN. lia.
Qed.

Lemma layout_kind fs f : layout_ok fs = true -> In f fs -> is_sized f = true \/ is_rest f = true \/ is_counted f = true.
Proof.
  intros L Hf. destruct (layout_split fs L) as (ss & us & -> & Hs & Ht). apply in_app_iff in Hf. destruct Hf as [Hf|Hf].
  - left. rewrite forallb_forall in Hs. now apply Hs.
  - right. destruct Ht as [->|[(u & -> & Hu)|[_ Hu]]]; [destruct Hf| |].
    + destruct Hf as [->|[]]. now left.
    + right. rewrite forallb_forall in Hu. now apply Hu.
Qed.

Lemma located_measured fs k f payload start stop : layout_ok fs = true -> nth_error fs k = Some f ->
  located fs k f payload start stop -> start <= stop -> stop <= lenN payload -> lenN payload <= 65535 ->
  measured (f_ty f) (takeN (stop - start) (dropN start payload)).
Proof.
  intros L Hk Lo H1 H2 H3. unfold measured. change (size_bytes (f_ty f)) with (f_size f).
  destruct (f_size f) as [n|] eqn:Sz; [|rewrite lenN_takeN, lenN_dropN; lia].
  assert (S : is_sized f = true).
  { destruct (layout_kind fs f L (nth_error_In _ _ Hk)) as [S|[R|C]]; [exact S| |].
    - destruct (is_rest_facts f R) as (_ & E & _). congruence.
    - rewrite size_not_counted in C by congruence. discriminate. }
  unfold located in Lo. rewrite S in Lo. destruct (is_sized_size f S) as (m & Em & Fm & _). destruct Lo as [-> ->].
  rewrite lenN_takeN, lenN_dropN. assert (m = n) by congruence. subst m. lia.
Qed.

(** One field of an accepted packet *)
Lemma entry_told inner spec c p l payload k fw :
  fields_data inner c = Some l -> packet_meaning c = Some p -> layout_ok (p_fields p) = true ->
  lenN payload <= 65535 -> accepts p payload -> nth_error l k = Some fw ->
  map (@projT1 _ _) l = p_fields p /\ Forall (fun fw : field_ty => no_sized_fn (projT1 fw)) l /\
  exists fc start stop,
    nth_error (pc_fields c) k = Some fc /\ nth_error (p_fields p) k = Some (projT1 fw) /\ f_name (projT1 fw) = fc_name fc /\
    field_data inner (pc_name c) fc = Some fw /\ f_ty (projT1 fw) = fc_ty fc /\
    located (p_fields p) k (projT1 fw) payload start stop /\
    measured (fc_ty fc) (takeN (stop - start) (dropN start payload)) /\
    entry fw (0 + offset_of (p_fields p) k) ([] ++ size_fns (firstn k (p_fields p))) payload = says fw (takeN (stop - start) (dropN start payload)) /\
    (code_fine (fc_ty fc) (fc_map fc) = true -> (nests (fc_map fc) = true -> inner_ok inner spec) ->
     (fc_map fc = Some CUart -> named_mode (le_value (takeN (stop - start) (dropN start payload)))) ->
     (is_counted (projT1 fw) = true -> checked (projT1 fw) (takeN (stop - start) (dropN start payload))) ->
     exists d, entry fw (0 + offset_of (p_fields p) k) ([] ++ size_fns (firstn k (p_fields p))) payload = Ret d /\
       told spec (fc_ty fc) (fc_map fc) (takeN (stop - start) (dropN start payload)) d).
Proof.
  intros Hl Hp L Hlen [A1 A2] Hk. unfold fields_data in Hl. unfold field_ty in *. destruct (all_some_nth _ _ _ Hl) as (Len & Hnth).
  assert (Ef : map (@projT1 _ _) l = p_fields p).
  { unfold packet_meaning in Hp. rewrite (all_some_map _ field_meaning (@projT1 _ _) _ _ (field_data_fst inner (pc_name c)) Hl) in Hp.
    injection Hp as <-. reflexivity. }
  split; [exact Ef|]. split.
  { apply (proj1 (Forall_map (@projT1 _ _) no_sized_fn l)). rewrite Ef. exact (layout_no_sized_fn _ L). }
  assert (Hkf : nth_error (p_fields p) k = Some (projT1 fw)) by (rewrite <- Ef, nth_error_map, Hk; reflexivity).
  assert (Hkc : exists fc, nth_error (pc_fields c) k = Some fc).
  { destruct (nth_error (pc_fields c) k) eqn:E; [eauto|]. apply nth_error_None in E. pose proof (proj1 (nth_error_Some l k)) as X. rewrite Hk in X. specialize (X ltac:(discriminate)). lia. }
  destruct Hkc as (fc & Hkc). destruct (Hnth k fc Hkc) as (fw' & E1 & E2). assert (fw' = fw) by congruence. subst fw'.
  destruct (raw_located p payload k (projT1 fw) L ltac:(unfold usize_max; lia) A1 Hkf) as (start & stop & Lo & H1 & H2 & Er).
  pose proof (field_data_fst _ _ _ _ E2) as Efm.
  assert (Ty : f_ty (projT1 fw) = fc_ty fc /\ f_name (projT1 fw) = fc_name fc).
  { clear - Efm. unfold field_meaning in Efm. destruct (fc_map fc); [destruct (map_meaning (fc_ty fc) m)|]; try discriminate; injection Efm as <-; split; reflexivity. }
  destruct Ty as [Ty Nm].
  assert (M : measured (fc_ty fc) (takeN (stop - start) (dropN start payload))) by (rewrite <- Ty; exact (located_measured _ _ _ _ _ _ L Hkf Lo H1 H2 Hlen)).
  assert (Es : entry fw (0 + offset_of (p_fields p) k) ([] ++ size_fns (firstn k (p_fields p))) payload = says fw (takeN (stop - start) (dropN start payload))).
  { unfold entry. rewrite Er. reflexivity. }
  exists fc, start, stop. repeat (split; [assumption|]). intros Fine In U C.
  destruct (field_told inner spec (pc_name c) fc fw (takeN (stop - start) (dropN start payload)) Fine E2 In M) as (d & Ed & T).
  - destruct (layout_kind _ _ L (nth_error_In _ _ Hkf)) as [S|[R|Cn]]; [| |exact (C Cn)].
    + intros m v Em Ev. rewrite (located_bytes _ _ _ _ _ _ Hkf (or_introl S) Lo H1). exact (A2 k _ m v Hkf Em Ev).
    + intros m v Em Ev. rewrite (located_bytes _ _ _ _ _ _ Hkf (or_intror R) Lo H1). exact (A2 k _ m v Hkf Em Ev).
  - exact U.
  - exists d. split; [congruence|exact T].
Qed.

Lemma packet_told inner spec c p l payload :
  fields_data inner c = Some l -> packet_meaning c = Some p -> layout_ok (p_fields p) = true ->
  lenN payload <= 65535 -> accepts p payload ->
  forallb (fun fc => code_fine (fc_ty fc) (fc_map fc)) (pc_fields c) = true ->
  (existsb (fun fc => nests (fc_map fc)) (pc_fields c) = true -> inner_ok inner spec) ->
  (forall k fc f start stop, nth_error (pc_fields c) k = Some fc -> nth_error (p_fields p) k = Some f -> fc_map fc = Some CUart ->
     located (p_fields p) k f payload start stop -> named_mode (le_value (takeN (stop - start) (dropN start payload)))) ->
  (forall k f start stop, nth_error (p_fields p) k = Some f -> is_counted f = true -> located (p_fields p) k f payload start stop ->
     checked f (takeN (stop - start) (dropN start payload))) ->
  exists ds, entries_at 0 [] l payload = Ret ds /\ length ds = length (pc_fields c) /\
    forall k fc f, nth_error (pc_fields c) k = Some fc -> nth_error (p_fields p) k = Some f ->
      exists start stop d, nth_error ds k = Some (fc_name fc, d) /\ located (p_fields p) k f payload start stop /\
        told spec (fc_ty fc) (fc_map fc) (takeN (stop - start) (dropN start payload)) d.
Proof.
  intros Hl Hp L Hlen A Fine In U C. pose proof (fun k fw => entry_told inner spec c p l payload k fw Hl Hp L Hlen A) as X.
  unfold fields_data in Hl. unfold field_ty in *. destruct (all_some_nth _ _ _ Hl) as (Len & Hnth).
  assert (Nf : Forall (fun fw : field_ty => no_sized_fn (projT1 fw)) l).
  { destruct l as [|fw l]; [constructor|]. exact (proj1 (proj2 (X O fw eq_refl))). }
  destruct (entries_total l payload Nf 0 [] (fun k fw d => forall fc, nth_error (pc_fields c) k = Some fc -> f_name (projT1 fw) = fc_name fc /\
      nth_error (p_fields p) k = Some (projT1 fw) /\
      exists start stop, located (p_fields p) k (projT1 fw) payload start stop /\
        told spec (fc_ty fc) (fc_map fc) (takeN (stop - start) (dropN start payload)) d)) as (ds & E & Ld & Hd).
  - intros k fw Hk. destruct (X k fw Hk) as (Ef & _ & fc & start & stop & Hkc & Hkf & Nm & _ & _ & Lo & _ & _ & H). unfold field_ty in *. rewrite Ef.
    rewrite forallb_forall in Fine. destruct (H (Fine _ (nth_error_In _ _ Hkc))) as (d & Ed & T).
    + intros Hn. apply In. apply existsb_exists. exists fc. split; [eapply nth_error_In; exact Hkc|exact Hn].
    + intros Hu. exact (U k fc _ start stop Hkc Hkf Hu Lo).
    + intros Cn. exact (C _ _ _ _ Hkf Cn Lo).
    + exists d. split; [exact Ed|]. intros fc' Hfc'. assert (fc' = fc) by congruence. subst fc'. split; [exact Nm|]. split; [exact Hkf|].
      exists start, stop. split; assumption.
  - exists ds. split; [exact E|]. split; [unfold field_ty in *; congruence|]. intros k fc f Hkc Hkf.
    destruct (Hnth k fc Hkc) as (fw & E1 & E2). destruct (Hd k fw E1) as (d & En & P). destruct (P fc Hkc) as (Nm & Hkf' & start & stop & Lo & T).
    assert (f = projT1 fw) as -> by congruence.
    exists start, stop, d. split; [|split; assumption]. rewrite En, Nm. reflexivity.
Qed.

(** ** Nothing is lost *)

(** The kinds of fields whose value shows all their bytes *)
Definition shows_all (t : raw_ty) (c : option map_code) : bool :=
  match t, c with
  | Scalar _, None | Bytes _, None => true
  | Scalar _, Some (CFloat _ _) | Scalar _, Some (CEnum _ _) | Scalar _, Some (CFlags _) | Scalar _, Some CWord => true
  | Scalar U32, Some CItfm | Scalar U32, Some CItfm2 => true
  | Bytes _, Some CNavSat | Bytes _, Some CRawx | Bytes _, Some CEsfRaw | Bytes _, Some CDwrd => true
  | _, _ => false
  end.
Definition whole (t : raw_ty) (c : option map_code) : bool := code_fine t c && shows_all t c.

Lemma le_value_inj l1 l2 : lenN l1 = lenN l2 -> le_value l1 = le_value l2 -> l1 = l2.
Proof.
  revert l2. induction l1 as [|a l1 IH]; intros [|b l2] L E; try reflexivity; rewrite ?lenN_cons, ?lenN_nil in L; try lia.
  cbn [le_value] in E. pose proof (b2n_lt a). pose proof (b2n_lt b).
  assert (b2n a = b2n b /\ le_value l1 = le_value l2) as [E1 E2] by lia.
  f_equal; [|apply IH; [lia|exact E2]]. rewrite <- (n2b_b2n a), <- (n2b_b2n b), E1. reflexivity.
Qed.

Lemma decode_inj s l1 l2 : lenN l1 = scalar_size s -> lenN l2 = scalar_size s -> decode (Scalar s) l1 = decode (Scalar s) l2 -> l1 = l2.
Proof.
  intros L1 L2 E. rewrite <- (ProofFields.wire_decode (Scalar s) _ l1 eq_refl L1), <- (ProofFields.wire_decode (Scalar s) _ l2 eq_refl L2). now rewrite E.
Qed.

Lemma scaled_inj f s sc z1 z2 x : (8 * Z.of_N (scalar_size s) + 8 <= fprec f)%Z ->
  match sc with Some (m, e) => PropFloat.scale_okb f m e = true | None => True end ->
  (scalar_min s <= z1 <= scalar_max s)%Z -> (scalar_min s <= z2 <= scalar_max s)%Z ->
  scaled f sc z1 x -> scaled f sc z2 x -> z1 = z2.
Proof.
  intros Ft Hs H1 H2 [F S1] [_ S2]. destruct sc as [[m e]|]; [|apply eq_IZR; congruence].
  apply PropFloat.scale_okb_ok in Hs.
  assert (G : forall z, (scalar_min s <= z <= scalar_max s)%Z -> SpecReal.real x = SpecReal.nearest f (IZR z * SpecReal.nearest f (SpecReal.decimal m e)) ->
    SpecReal.clamp s (SpecReal.nearest_int (SpecReal.nearest f (SpecReal.real x * SpecReal.nearest f (1 / SpecReal.real (lit f m e))))) = z).
  { intros z Hz Sz. destruct (ProofFloat.fits_range f s Ft) as (M1 & M2 & M3 & M4 & M5).
    assert (Z2 : (2 ^ (8 * Z.of_N (scalar_size s)) <= 2 ^ (fprec f - 8))%Z) by (apply Z.pow_le_mono_r; lia).
    assert (Za : (Z.abs z <= 2 ^ (fprec f - 8))%Z) by lia.
    pose proof (PropFloat.scaled_round_trip false f s m e z Ft Hz Hs) as R.
    destruct (ProofFloat.getter_exact f z m e Za Hs) as (O & Fi & Re). destruct (ProofFloat.lit_exact f m e Hs) as (Lo & Lf & Ls & Lr & Lb).
    rewrite ProofFloat.scale_back_exact in R by assumption. injection R as R. rewrite Re, <- Sz in R. exact R. }
  rewrite <- (G z1 H1 S1), <- (G z2 H2 S2). reflexivity.
Qed.

Lemma sequence_inj n (item : list byte -> data -> Prop) b1 b2 d :
  (forall x1 x2 y, lenN x1 = n -> lenN x2 = n -> item x1 y -> item x2 y -> x1 = x2) ->
  sequence n item b1 d -> sequence n item b2 d -> b1 = b2.
Proof.
  intros Inj (g1 & ds & [<- F1] & Q1 & ->) (g2 & ds2 & [<- F2] & Q2 & E). injection E as <-. f_equal.
  revert g2 F2 Q2. induction Q1 as [|x y g1 ds Hx Q1 IH]; intros g2 F2 Q2; inversion Q2; subst; [reflexivity|].
  apply Forall_cons_iff in F1, F2. destruct F1 as [L1 F1]. destruct F2 as [L2 F2]. f_equal; [eapply Inj; eassumption|]. apply IH; assumption.
Qed.

Lemma u8_inj a b : u8 a = u8 b -> a = b.
Proof. unfold u8. intros H. injection H. lia. Qed.
Lemma u32_inj a b : u32 a = u32 b -> a = b.
Proof. unfold u32. intros H. injection H. lia. Qed.

Lemma le_value_4 b : lenN b = 4 -> le_value b < 2 ^ 32.
Proof.
  destruct b as [|b0 [|b1 [|b2 [|b3 [|]]]]]; unfold lenN; cbn [length]; try lia. intros _. cbn [le_value].
  pose proof (b2n_lt b0). pose proof (b2n_lt b1). pose proof (b2n_lt b2). pose proof (b2n_lt b3). lia.
Qed.

Lemma told_inj (spec : string -> list byte -> data -> Prop) t c b1 b2 d : whole t c = true -> measured t b1 -> measured t b2 ->
  (forall name x1 x2 y, (name = "NavSatSvInfo"%string /\ c = Some CNavSat /\ lenN x1 = 12 /\ lenN x2 = 12 \/
                         name = "RxmRawxInfo"%string /\ c = Some CRawx /\ lenN x1 = 32 /\ lenN x2 = 32) ->
     spec name x1 y -> spec name x2 y -> x1 = x2) ->
  told spec t c b1 d -> told spec t c b2 d -> b1 = b2.
Proof.
  intros W M1 M2 Inn T1 T2. unfold whole in W. apply andb_true_iff in W. destruct W as [Fine W]. unfold measured, shows_all in *.
  destruct t as [s|n|]; [| |destruct c; discriminate Fine].
  - cbn [size_bytes] in *. pose proof (decode_ok (Scalar s) _ b1 eq_refl M1) as R1. pose proof (decode_ok (Scalar s) _ b2 eq_refl M2) as R2. cbn [raw_ok] in *.
    destruct c as [c|]; [|cbn [told] in *; apply (decode_inj s); congruence].
    destruct c; cbn [told code_fine] in *; try (destruct s; discriminate W); try (apply (decode_inj s); congruence).
    + destruct T1 as (x1 & -> & S1). destruct T2 as (x2 & E & S2). injection E as <-. apply (decode_inj s); [assumption|assumption|].
      apply andb_true_iff in Fine. destruct Fine as [F1 F2]. apply Z.leb_le in F1.
      eapply scaled_inj; try eassumption. destruct scale as [[m e]|]; [exact F2|exact I].
    + rewrite T1 in T2. injection T2 as _ T2. apply le_value_inj; [congruence|lia].
    + rewrite T1 in T2. injection T2 as T2. apply le_value_inj; [congruence|lia].
  - destruct c as [c|].
    + destruct c; cbn [told] in *; try discriminate W.
      * eapply sequence_inj; [|exact T1|exact T2]. intros x1 x2 y L1 L2. apply (Inn "NavSatSvInfo"%string). left. auto.
      * eapply sequence_inj; [|exact T1|exact T2]. intros x1 x2 y L1 L2. apply (Inn "RxmRawxInfo"%string). right. auto.
      * eapply sequence_inj; [|exact T1|exact T2]. cbv zeta. intros x1 x2 y L1 L2 -> E. injection E as E1 E2 E3.
        assert (K1 : lenN (takeN 4 x1) = 4) by (rewrite lenN_takeN; lia). assert (K2 : lenN (takeN 4 x2) = 4) by (rewrite lenN_takeN; lia).
        rewrite <- (takeN_dropN 4 x1), <- (takeN_dropN 4 x2). f_equal; apply le_value_inj; rewrite ?lenN_dropN; try congruence; [|lia].
        pose proof (le_value_4 _ K1) as V1. pose proof (le_value_4 _ K2) as V2. unfold bits in *. rewrite N.pow_0_r, !N.div_1_r in E2.
        change (2 ^ 24) with 16777216 in *. change (2 ^ 8) with 256 in *. change (2 ^ 32) with 4294967296 in *. lia.
      * eapply sequence_inj; [|exact T1|exact T2]. intros x1 x2 y L1 L2 -> E. apply u32_inj in E. apply le_value_inj; congruence.
    + cbn [told] in *. rewrite T1 in T2. injection T2 as T2. clear - T2. revert b2 T2.
      induction b1 as [|x b1 IH]; intros [|y b2] E; try discriminate; [reflexivity|]. cbn [map] in E. injection E as E1 E2.
      f_equal; [|now apply IH]. rewrite <- (n2b_b2n x), <- (n2b_b2n y). f_equal. lia.
Qed.

(** A payload is its fields one after the other *)
Lemma whole_payload fs : layout_ok fs = true -> forallb (fun f => negb (is_counted f)) fs = true -> forall off (p1 p2 : list byte),
  (forallb is_sized fs = true -> lenN p1 = off + fixed_size fs /\ lenN p2 = off + fixed_size fs) ->
  (forall k f, nth_error fs k = Some f ->
     (is_sized f = true -> takeN (field_size f) (dropN (off + offset_of fs k) p1) = takeN (field_size f) (dropN (off + offset_of fs k) p2)) /\
     (is_rest f = true -> dropN (off + offset_of fs k) p1 = dropN (off + offset_of fs k) p2)) ->
  dropN off p1 = dropN off p2.
Proof.
  induction fs as [|f fs IH]; intros L C off p1 p2 Len H.
  - destruct (Len eq_refl) as [E1 E2]. cbn in E1, E2. rewrite N.add_0_r in E1, E2.
    assert (forall p : list byte, lenN p = off -> dropN off p = []) as Z.
    { intros p <-. unfold dropN, lenN. rewrite Nat2N.id. apply skipn_all. }
    rewrite !Z by assumption. reflexivity.
  - cbn [layout_ok forallb] in *. apply andb_true_iff in C. destruct C as [C Cs]. destruct (is_sized f) eqn:S.
    + assert (E : dropN (off + field_size f) p1 = dropN (off + field_size f) p2).
      { apply (IH L Cs).
        - intros Hs. destruct (Len Hs) as [E1 E2]. cbn [fixed_size fold_right] in E1, E2. fold (fixed_size fs) in E1, E2. lia.
        - intros k f' Hk. destruct (H (Datatypes.S k) f' Hk) as [A B]. cbn [offset_of] in A, B. rewrite N.add_assoc in A, B. split; assumption. }
      destruct (H O f eq_refl) as [A _]. cbn [offset_of] in A. rewrite N.add_0_r in A. specialize (A S).
      rewrite <- (takeN_dropN (field_size f) (dropN off p1)), <- (takeN_dropN (field_size f) (dropN off p2)), A. f_equal.
      rewrite !dropN_dropN. rewrite N.add_comm in E. rewrite ?(N.add_comm off). exact E.
    + destruct (is_counted f); [discriminate C|]. cbn [negb forallb andb] in L. rewrite orb_false_r in L. apply andb_true_iff in L. destruct L as [R L].
      destruct (H O f eq_refl) as [_ B]. cbn [offset_of] in B. rewrite N.add_0_r in B. exact (B R).
Qed.

Lemma meaning_field c p : packet_meaning c = Some p ->
  length (pc_fields c) = length (p_fields p) /\ p_name p = pc_name c /\
  forall k fc, nth_error (pc_fields c) k = Some fc -> exists f, nth_error (p_fields p) k = Some f /\ f_ty f = fc_ty fc /\ f_name f = fc_name fc.
Proof.
  unfold packet_meaning. destruct (all_some field_meaning (pc_fields c)) as [fs|] eqn:E; [|discriminate]. intros H. injection H as <-.
  destruct (all_some_nth _ _ _ E) as [L H]. cbn [p_fields p_name]. split; [congruence|]. split; [reflexivity|]. intros k fc Hk.
  destruct (H k fc Hk) as (f & H1 & H2). exists f. split; [exact H1|]. clear - H2. unfold field_meaning in H2.
  destruct (fc_map fc); [destruct (map_meaning (fc_ty fc) m)|]; try discriminate; injection H2 as <-; split; reflexivity.
Qed.

Lemma tells_inj (spec : string -> list byte -> data -> Prop) codes c p p1 p2 e :
  NoDup (map pc_name codes) -> In c codes -> packet_meaning c = Some p -> layout_ok (p_fields p) = true ->
  forallb (fun f => negb (is_counted f)) (p_fields p) = true ->
  forallb (fun fc => whole (fc_ty fc) (fc_map fc)) (pc_fields c) = true ->
  lenN p1 <= 65535 -> lenN p2 <= 65535 -> length_accepts p p1 -> length_accepts p p2 ->
  (existsb (fun fc => nests (fc_map fc)) (pc_fields c) = true -> forall name x1 x2 y,
     name = "NavSatSvInfo"%string /\ lenN x1 = 12 /\ lenN x2 = 12 \/ name = "RxmRawxInfo"%string /\ lenN x1 = 32 /\ lenN x2 = 32 ->
     spec name x1 y -> spec name x2 y -> x1 = x2) ->
  tells_with spec codes (pc_name c) p1 e -> tells_with spec codes (pc_name c) p2 e -> p1 = p2.
Proof.
  intros N Hc Hp L Cn W Hl1 Hl2 A1 A2 Inn (c1 & q1 & I1 & N1 & M1 & _ & T1) (c2 & q2 & I2 & N2 & M2 & _ & T2).
  assert (c1 = c) by (eapply (ProofDispatch.nodup_map_inj pc_name codes); eassumption).
  assert (c2 = c) by (eapply (ProofDispatch.nodup_map_inj pc_name codes); eassumption). subst c1 c2.
  assert (q1 = p) by congruence. assert (q2 = p) by congruence. subst q1 q2. clear N1 N2 I1 I2 M1 M2.
  destruct (meaning_field c p Hp) as (Ln & _ & Hf).
  change p1 with (dropN 0 p1). change p2 with (dropN 0 p2).
  apply (whole_payload (p_fields p) L Cn).
  - intros S. unfold length_accepts in A1, A2. rewrite S in A1, A2. split; lia.
  - intros k f Hk. rewrite N.add_0_l.
    assert (Hkc : exists fc, nth_error (pc_fields c) k = Some fc).
    { destruct (nth_error (pc_fields c) k) eqn:E; [eauto|]. apply nth_error_None in E. assert (k < length (p_fields p))%nat by (apply nth_error_Some; congruence). lia. }
    destruct Hkc as (fc & Hkc). destruct (Hf k fc Hkc) as (f' & Hk' & Ty & _). assert (f' = f) by congruence. subst f'.
    destruct (T1 k fc f Hkc Hk) as (a1 & b1 & d1 & E1 & L1 & Q1). destruct (T2 k fc f Hkc Hk) as (a2 & b2 & d2 & E2 & L2 & Q2).
    assert (d2 = d1) by congruence. subst d2.
    destruct (raw_located p p1 k f L ltac:(unfold usize_max; lia) A1 Hk) as (a1' & b1' & Lo1 & H11 & H12 & _).
    destruct (raw_located p p2 k f L ltac:(unfold usize_max; lia) A2 Hk) as (a2' & b2' & Lo2 & H21 & H22 & _).
    assert (Cf : is_counted f = false).
    { rewrite forallb_forall in Cn. specialize (Cn f (nth_error_In _ _ Hk)). now apply negb_true_iff in Cn. }
    assert (Kind : is_sized f = true \/ is_rest f = true).
    { destruct (layout_kind _ _ L (nth_error_In _ _ Hk)) as [S|[R|C]]; [now left|now right|congruence]. }
    assert (Eq1 : a1' = a1 /\ b1' = b1).
    { unfold located in *. destruct (is_sized f); [destruct L1, Lo1; split; congruence|]. destruct (is_rest f); [destruct L1, Lo1; split; congruence|destruct Kind; discriminate]. }
    assert (Eq2 : a2' = a2 /\ b2' = b2).
    { unfold located in *. destruct (is_sized f); [destruct L2, Lo2; split; congruence|]. destruct (is_rest f); [destruct L2, Lo2; split; congruence|destruct Kind; discriminate]. }
    destruct Eq1 as [-> ->]. destruct Eq2 as [-> ->].
    assert (B : takeN (b1 - a1) (dropN a1 p1) = takeN (b2 - a2) (dropN a2 p2)).
    { rewrite forallb_forall in W. apply (told_inj spec (fc_ty fc) (fc_map fc) _ _ d1).
      - exact (W fc (nth_error_In _ _ Hkc)).
      - rewrite <- Ty. exact (located_measured _ _ _ _ _ _ L Hk L1 H11 H12 Hl1).
      - rewrite <- Ty. exact (located_measured _ _ _ _ _ _ L Hk L2 H21 H22 Hl2).
      - intros name x1 x2 y Hn. apply Inn.
        + apply existsb_exists. exists fc. split; [exact (nth_error_In _ _ Hkc)|]. destruct Hn as [(_ & -> & _)|(_ & -> & _)]; reflexivity.
        + destruct Hn as [(-> & _ & H)|(-> & _ & H)]; [left|right]; auto.
      - exact Q1.
      - exact Q2. }
    rewrite (located_bytes _ _ _ _ _ _ Hk Kind L1 H11), (located_bytes _ _ _ _ _ _ Hk Kind L2 H21) in B. unfold field_bytes_at in B. split.
    + intros S. destruct (is_sized_size f S) as (n & Sz & Fz & _). rewrite Sz in B. rewrite Fz. exact B.
    + intros R. destruct (is_rest_facts f R) as (_ & Sz & _). rewrite Sz in B. exact B.
Qed.

Lemma entries_names l payload : forall off fns ds, entries_at off fns l payload = Ret ds -> map fst ds = map (fun fw : field_ty => f_name (projT1 fw)) l.
Proof.
  induction l as [|[f w] l IH]; intros off fns ds E; cbn [entries_at] in E; [injection E as <-; reflexivity|].
  destruct (f_size f).
  - destruct (get_raw_field _ _ _ _); try discriminate. cbn [bind] in E. destruct (from_raw f _); try discriminate. cbn [bind] in E.
    destruct (w _); try discriminate. cbn [bind] in E. destruct (entries_at _ _ l payload) eqn:El; try discriminate. injection E as <-.
    cbn [map fst projT1]. f_equal. exact (IH _ _ _ El).
  - destruct (unsized_slice _ _ _ _); try discriminate. cbn [bind] in E. destruct (slice_val _ _); try discriminate. cbn [bind] in E.
    destruct (from_raw_unsized f _); try discriminate. cbn [bind] in E.
    destruct (w _); try discriminate. cbn [bind] in E. destruct (entries_at _ _ l payload) eqn:El; try discriminate. injection E as <-.
    cbn [map fst projT1]. f_equal. exact (IH _ _ _ El).
Qed.

(** A mode without a name: the field panics *)
Lemma uart_says inner pname fc fw bytes : field_data inner pname fc = Some fw -> fc_map fc = Some CUart -> measured (fc_ty fc) bytes ->
  ~ named_mode (le_value bytes) -> says fw bytes = Panic.
Proof.
  destruct fc as [name alias t c as_ref size]. cbn [fc_ty fc_map]. intros H -> M N. unfold field_data in H. cbn [fc_map fc_ty fc_name fc_alias fc_as_ref fc_size] in H.
  destruct t as [[]|[|n]|]; try discriminate H. cbn [data_meaning] in H.
  unfold wr in H. cbv iota in H.
  unfold single, itself in H. cbn [fc_ty size_bytes entry_of option_map] in H. injection H as <-.
  unfold says, fld. cbn [projT1 projT2 f_ty]. unfold convert, f_size, from_raw. cbn [f_ty f_map size_bytes].
  change (m_from (uart_mode_map)) with (fun r : Z => uart_mode_from (Z.to_N r)). cbv beta.
  rewrite (decode_unsigned U32 bytes eq_refl), N2Z.id, uart_unnamed by exact N. reflexivity.
Qed.

Lemma packet_panic inner spec c p l payload k0 fc0 :
  fields_data inner c = Some l -> packet_meaning c = Some p -> layout_ok (p_fields p) = true ->
  lenN payload <= 65535 -> accepts p payload ->
  forallb (fun fc => code_fine (fc_ty fc) (fc_map fc)) (pc_fields c) = true ->
  (existsb (fun fc => nests (fc_map fc)) (pc_fields c) = true -> inner_ok inner spec) ->
  forallb (fun f => negb (is_counted f)) (p_fields p) = true ->
  nth_error (pc_fields c) k0 = Some fc0 -> fc_map fc0 = Some CUart ->
  (forall k fc, (k < k0)%nat -> nth_error (pc_fields c) k = Some fc -> fc_map fc <> Some CUart) ->
  (forall f start stop, nth_error (p_fields p) k0 = Some f ->
     located (p_fields p) k0 f payload start stop -> ~ named_mode (le_value (takeN (stop - start) (dropN start payload)))) ->
  entries_at 0 [] l payload = Panic.
Proof.
  intros Hl Hp L Hlen A Fine In Cn Hk0 Hm Bf N. pose proof (fun k fw => entry_told inner spec c p l payload k fw Hl Hp L Hlen A) as X.
  unfold fields_data in Hl. unfold field_ty in *. destruct (all_some_nth _ _ _ Hl) as (Len & Hnth).
  destruct (Hnth k0 fc0 Hk0) as (fw0 & E0 & E0').
  destruct (X k0 fw0 E0) as (Ef & Nf & fc & start & stop & Hkc & Hkf & Nm & Fd & _ & Lo & M & Es & _).
  assert (fc = fc0) by congruence. subst fc.
  apply (entries_panic l payload Nf 0 [] k0 fw0 E0).
  - unfold field_ty in *. rewrite Ef, Es. exact (uart_says _ _ _ _ _ Fd Hm M (N _ _ _ Hkf Lo)).
  - intros k fw Hlt Hk. unfold field_ty in *. rewrite Ef. destruct (X k fw Hk) as (_ & _ & fc & a & b & Hc & Hf & _ & _ & _ & _ & _ & _ & H).
    rewrite forallb_forall in Fine. destruct (H (Fine _ (nth_error_In _ _ Hc))) as (d & Ed & _); [| | |eauto].
    + intros Hn. apply In. apply existsb_exists. exists fc. split; [eapply nth_error_In; exact Hc|exact Hn].
    + intros Hu. exfalso. exact (Bf k fc Hlt Hc Hu).
    + intros Hcn. rewrite forallb_forall in Cn. specialize (Cn _ (nth_error_In _ _ Hf)). rewrite Hcn in Cn. discriminate.
Qed.
