(** * Facts about the packets of the library (proof support) *)
From Coq Require Import String List NArith ZArith Bool Lia ZifyBool ZifyNat ZifyN.
From Verif Require Import Base BaseFacts DualBuffer Parser PackDesc GenRecv GenSend Dispatch Enums Floats Bits Utf8 Iterators
  TableTypes TablePackets SpecPacket ProofSend ProofRecv.
Import ListNotations.
Open Scope N_scope.

(** ** Conversions of fields of each kind *)

Definition from_total {t} (m : mapping t) : Prop := forall r, raw_ok t r -> exists x, m_from m r = Ret x.
Definition valid_total {t} (m : mapping t) : Prop := forall v r, m_valid m = Some v -> raw_ok t r -> exists b, v r = Ret b.
Definition into_typed {t} (m : mapping t) : Prop := forall v r, m_ok m v -> m_into m v = Ret r -> raw_ok t r.

Lemma safe_none n a t gar sz : field_safe (mk_field n a t None gar sz).
Proof. intros m r H. discriminate. Qed.
Lemma safe_total n a t m gar sz : from_total m -> field_safe (mk_field n a t (Some m) gar sz).
Proof. intros T m' r H. cbn in m', r, H. injection H as <-. intros Hr _. apply T. exact Hr. Qed.
Lemma safe_valid n a t m gar :
  (forall v r, m_valid m = Some v -> raw_ok t r -> v r = Ret true -> exists x, m_from m r = Ret x) ->
  m_valid m <> None ->
  field_safe (mk_field n a t (Some m) gar None).
Proof.
  intros T Hv m' r H. cbn in m', r, H. injection H as <-. cbn [f_ty]. intros Hr HV. unfold is_counted in HV. cbn [f_ty f_size_fn] in HV.
  destruct (m_valid m) as [v|] eqn:E; [|congruence]. eapply T; [reflexivity|exact Hr|].
  apply HV; [|reflexivity]. destruct t as [s|k|]; try reflexivity. destruct k; reflexivity.
Qed.

Lemma typed_none n a t gar sz : field_typed (mk_field n a t None gar sz).
Proof. intros v r. unfold fvalue_ok, to_raw. cbn. intros H E. inversion E; subst. exact H. Qed.
Lemma typed_some n a t m gar sz : into_typed m -> field_typed (mk_field n a t (Some m) gar sz).
Proof. intros T v r. unfold fvalue_ok, to_raw. cbn. apply T. Qed.

Definition checks_ok (f : field) : Prop :=
  forall m v r, f_map f = Some m -> m_valid m = Some v -> raw_ok (f_ty f) r -> exists b, v r = Ret b.
Lemma checks_none n a t gar sz : checks_ok (mk_field n a t None gar sz).
Proof. intros m v r H. discriminate. Qed.
Lemma checks_some n a t m gar sz : valid_total m -> checks_ok (mk_field n a t (Some m) gar sz).
Proof. intros T m' v r H. cbn in m', r, H. injection H as <-. apply T. Qed.

(** *** Enums *)
Definition enum_total (d : enum_desc) : bool :=
  forallb (fun i => existsb (fun v => snd v =? i) (enum_variants d)) (map N.of_nat (seq 0 256)).

Lemma in_bytes i : i < 256 -> In i (map N.of_nat (seq 0 256)).
Proof. intros H. apply in_map_iff. exists (N.to_nat i). split; [lia|]. apply in_seq. lia. Qed.

Lemma find_existsb {A} (q : A -> bool) l : existsb q l = true <-> exists x, find q l = Some x.
Proof.
  induction l as [|x l IH]; cbn.
  - split; [discriminate|]. intros [x H]. discriminate.
  - destruct (q x); cbn; [split; eauto|]. exact IH.
Qed.

Lemma enum_from_total d b : enum_total d = true -> from_total (enum_map d b).
Proof.
  intros H r Hr. unfold raw_ok, scalar_min, scalar_max in Hr. cbn in r, Hr. cbn [enum_map m_from].
  unfold enum_total in H. rewrite forallb_forall in H. assert (Hb : Z.to_N r < 256).
  { lia. }
  specialize (H (Z.to_N r) (in_bytes _ Hb)).
  apply find_existsb in H. destruct H as (v & H). unfold enum_from. rewrite H. eauto.
Qed.

Lemma enum_from_valid d v r : m_valid (enum_map d true) = Some v -> raw_ok (Scalar U8) r -> v r = Ret true ->
  exists x, m_from (enum_map d true) r = Ret x.
Proof.
  cbn [enum_map m_valid m_from]. intros E _ Hv. inversion E; subst v. inversion Hv as [Hv']. unfold enum_is_valid in Hv'.
  apply find_existsb in Hv'. destruct Hv' as (x & H). unfold enum_from. rewrite H. eauto.
Qed.

Lemma enum_valid_total d b : valid_total (enum_map d b).
Proof. intros v r. cbn [enum_map m_valid]. destruct b; [|discriminate]. intros E _. inversion E; subst. eauto. Qed.

Lemma enum_into_typed d b : forallb (fun v => snd v <? 256) (enum_variants d) = true -> into_typed (enum_map d b).
Proof.
  intros H v r. cbn [enum_map m_ok m_into raw_ok]. intros Hin E. rewrite forallb_forall in H. specialize (H v Hin).
  inversion E; subst. unfold enum_into_raw. unfold scalar_min, scalar_max. cbn. lia.
Qed.

(** *** Flags *)
Lemma flags_from_total s d : from_total (flags_map s d).
Proof. intros r _. cbn. eauto. Qed.
Lemma flags_valid_total s d : valid_total (flags_map s d).
Proof. intros v r. cbn. discriminate. Qed.
Lemma flags_into_typed s d : scalar_signed s = false -> b_nbits d = 8 * scalar_size s -> into_typed (flags_map s d).
Proof.
  intros Sg H v r. cbn [flags_map m_ok m_into raw_ok]. intros Hin E. inversion E; subst. unfold flags_into_raw.
  unfold scalar_min, scalar_max. rewrite Sg. rewrite H in Hin.
  assert ((2 ^ (8 * Z.of_N (scalar_size s)))%Z = Z.of_N (2 ^ (8 * scalar_size s))) as ->; [|lia].
  rewrite N2Z.inj_pow. f_equal. lia.
Qed.

(** *** Floats *)
Lemma float_from_total t s o : from_total (float_map t s o).
Proof. intros r _. cbn. eauto. Qed.
Lemma float_valid_total t s o : valid_total (float_map t s o).
Proof. intros v r. cbn. discriminate. Qed.

Lemma scalar_min_le_max s : (scalar_min s <= 0 <= scalar_max s)%Z.
Proof. destruct s; cbv; split; congruence. Qed.

Lemma scale_back_range nn t sc s x z : scale_back nn t sc s x = Ret z -> (scalar_min s <= z <= scalar_max s)%Z.
Proof.
  pose proof (scalar_min_le_max s) as B.
  assert (U : forall y, unwrap (to_scalar s y) = Ret z -> (scalar_min s <= z <= scalar_max s)%Z).
  { intros y. unfold to_scalar. destruct (ftrunc y); [|discriminate].
    destruct ((scalar_min s <=? z0)%Z && (z0 <=? scalar_max s)%Z) eqn:E; [|discriminate]. cbn. intros H. inversion H; subst. lia. }
  unfold scale_back, as_signed, as_unsigned. destruct (scalar_signed s).
  - destruct (SpecFloat.SFltb _ _); [intros H; inversion H; lia|]. destruct (SpecFloat.SFltb _ _); [intros H; inversion H; lia|]. apply U.
  - destruct (negb _); [|intros H; inversion H; lia]. destruct (SpecFloat.SFleb _ _); [apply U|intros H; inversion H; lia].
Qed.

Lemma float_into_typed t s o : into_typed (float_map t s o).
Proof.
  intros v r _. cbn [float_map m_into]. destruct o as [[m e]|]; [|discriminate]. apply scale_back_range.
Qed.

(** *** Words *)
Lemma word_from_total s : from_total (word_map s). Proof. intros r _. cbn. eauto. Qed.
Lemma word_valid_total s : valid_total (word_map s). Proof. intros v r. cbn. discriminate. Qed.
Lemma itfm_from_total : from_total itfm_config_map. Proof. intros r _. cbn. eauto. Qed.
Lemma itfm_valid_total : valid_total itfm_config_map. Proof. intros v r. cbn. discriminate. Qed.
Lemma itfm2_from_total : from_total itfm_config2_map. Proof. intros r _. cbn. eauto. Qed.
Lemma itfm2_valid_total : valid_total itfm_config2_map. Proof. intros v r. cbn. discriminate. Qed.
Lemma uart_valid_total : valid_total uart_mode_map. Proof. intros v r. cbn. discriminate. Qed.
Lemma c_like_valid_total s vs : valid_total (c_like_map s vs). Proof. intros v r. cbn. discriminate. Qed.

Lemma lor_lt a b n : a < 2 ^ n -> b < 2 ^ n -> N.lor a b < 2 ^ n.
Proof.
  intros Ha Hb. destruct (N.eq_dec (N.lor a b) 0) as [E|E].
  - rewrite E. assert (2 ^ n <> 0) by (apply N.pow_nonzero; discriminate). lia.
  - apply N.log2_lt_pow2; [lia|]. rewrite N.log2_lor.
    destruct (N.eq_dec a 0) as [->|A]; destruct (N.eq_dec b 0) as [->|B].
    + exfalso. apply E. reflexivity.
    + cbn [N.log2]. rewrite N.max_0_l. apply N.log2_lt_pow2; lia.
    + cbn [N.log2]. rewrite N.max_0_r. apply N.log2_lt_pow2; lia.
    + apply N.max_lub_lt; apply N.log2_lt_pow2; lia.
Qed.
Lemma shl32_lt x n : shl32 x n < 2 ^ 32.
Proof. apply N.mod_lt. discriminate. Qed.

Lemma word_in_range x r : x < 2 ^ 32 -> Ret (Z.of_N x) = Ret r -> raw_ok (Scalar U32) r.
Proof. intros H E. inversion E; subst. cbn [raw_ok]. unfold scalar_min, scalar_max. cbn. cbn in H. lia. Qed.

Lemma itfm_into_typed : into_typed itfm_config_map.
Proof.
  intros v r _. cbn [itfm_config_map m_into]. apply word_in_range. unfold itfm_config_into_raw.
  repeat apply lor_lt; try apply shl32_lt.
Qed.
Lemma itfm2_into_typed : into_typed itfm_config2_map.
Proof.
  intros v r _. cbn [itfm_config2_map m_into]. apply word_in_range. unfold itfm_config2_into_raw.
  repeat apply lor_lt; try apply shl32_lt. destruct (ic2_antenna v); reflexivity.
Qed.
Lemma uart_into_typed : into_typed uart_mode_map.
Proof.
  intros v r _. cbn [uart_mode_map m_into]. apply word_in_range. unfold uart_mode_into_raw.
  repeat apply lor_lt; apply shl32_lt.
Qed.
Lemma c_like_into_typed s vs : scalar_signed s = false -> forallb (fun v => snd v <? 256) vs = true -> into_typed (c_like_map s vs).
Proof.
  intros Sg H v r. cbn [c_like_map m_ok m_into raw_ok]. intros Hin E. rewrite forallb_forall in H. specialize (H v Hin).
  inversion E; subst. unfold c_like_into_raw. unfold scalar_min, scalar_max. destruct s; cbn in *; first [discriminate|lia].
Qed.
Lemma word_into_typed s : into_typed (word_map s).
Proof. intros v r _. discriminate. Qed.

(** *** Strings and groups *)
Lemma null_position_lt l n : null_position l = Some n -> n < lenN l.
Proof.
  revert n. induction l as [|b l IH]; cbn [null_position]; intros n H; [discriminate|]. rewrite lenN_cons.
  destruct (byte_eqb b x00); [inversion H; lia|]. destruct (null_position l) as [k|]; [|discriminate].
  specialize (IH k eq_refl). inversion H; lia.
Qed.

Lemma is_cstr_valid_total l : exists b, is_cstr_valid l = Ret b.
Proof.
  unfold is_cstr_valid. destruct (null_position l) as [n|] eqn:E; [|eauto]. apply null_position_lt in E.
  rewrite slice_ok by lia. cbn. eauto.
Qed.
Lemma cstr_valid_total n : valid_total (cstr_map n).
Proof. intros v r. cbn. intros E _. inversion E; subst. apply is_cstr_valid_total. Qed.
Lemma cstr_from_valid n v r : m_valid (cstr_map n) = Some v -> raw_ok (Bytes n) r -> v r = Ret true ->
  exists x, m_from (cstr_map n) r = Ret x.
Proof.
  cbn [cstr_map m_valid m_from]. intros E _ Hv. inversion E; subst v. unfold is_cstr_valid in Hv. unfold convert_to_str_unchecked.
  destruct (null_position r) as [k|] eqn:En; [|discriminate]. apply null_position_lt in En. rewrite slice_ok in * by lia.
  cbn [bind] in *. injection Hv as Hu. rewrite Hu. eauto.
Qed.
Lemma inf_from_total : from_total inf_map. Proof. intros r _. cbn. eauto. Qed.
Lemma inf_valid_total : valid_total inf_map. Proof. intros v r. cbn. intros E _. inversion E; subst. eauto. Qed.
Lemma offset_from_total q : from_total (offset_iter_map q). Proof. intros r _. cbn. eauto. Qed.
Lemma offset_valid_total q : (forall l, exists b, q l = Ret b) -> valid_total (offset_iter_map q).
Proof. intros H v r. cbn. intros E _. inversion E; subst. apply H. Qed.
Lemma chunks_from_total n q : from_total (chunks_iter_map n q). Proof. intros r _. cbn. eauto. Qed.
Lemma chunks_valid_total n q : valid_total (chunks_iter_map n q).
Proof. intros v r. cbn. intros E _. inversion E; subst. eauto. Qed.
Lemma calib_from_total : from_total calib_tag_map. Proof. intros r _. cbn. eauto. Qed.
Lemma calib_valid_total : valid_total calib_tag_map. Proof. intros v r. cbn. discriminate. Qed.
Lemma all_res_total {A} (q : A -> res bool) l : (forall x, exists b, q x = Ret b) -> exists b, all_res q l = Ret b.
Proof.
  intros H. induction l as [|x l IH]; cbn; [eauto|]. destruct (H x) as (b & ->). cbn. destruct b; eauto.
Qed.
Lemma mon_ver_ext_valid_total l : exists b, mon_ver_ext_is_valid l = Ret b.
Proof.
  unfold mon_ver_ext_is_valid. destruct (_ =? _); [|eauto]. apply all_res_total. apply is_cstr_valid_total.
Qed.

(** ** The tables *)
Ltac each := lazymatch goal with |- Forall _ (_ :: _) => apply Forall_cons; [cbv beta|each] | |- Forall _ [] => apply Forall_nil end.
Ltac checks_tac :=
  first [ apply checks_none
        | apply checks_some;
          first [ apply enum_valid_total | apply flags_valid_total | apply float_valid_total | apply word_valid_total
                | apply itfm_valid_total | apply itfm2_valid_total | apply uart_valid_total | apply c_like_valid_total
                | apply cstr_valid_total | apply inf_valid_total | apply chunks_valid_total | apply calib_valid_total
                | apply offset_valid_total; first [ apply mon_ver_ext_valid_total | intros; eexists; reflexivity ] ] ].
Ltac safe_tac :=
  first [ apply safe_none
        | apply safe_total;
          first [ apply flags_from_total | apply float_from_total | apply word_from_total | apply itfm_from_total
                | apply itfm2_from_total | apply inf_from_total | apply chunks_from_total | apply calib_from_total
                | apply offset_from_total | apply enum_from_total; vm_compute; reflexivity ]
        | apply safe_valid; [first [apply enum_from_valid | apply cstr_from_valid] | discriminate ] ].

(** All packets but one: CFG-PRT for the UART *)
Lemma recv_checks_ok : Forall (fun p => Forall checks_ok (p_fields p)) recv_packets.
Proof.
  unfold recv_packets. each; match goal with |- Forall _ (p_fields ?x) => unfold x end; cbn [p_fields]; each; checks_tac.
Qed.

Lemma recv_safe : Forall (fun p => p_name p = "CfgPrtUart"%string \/ Forall field_safe (p_fields p)) recv_packets.
Proof.
  unfold recv_packets. each;
    first [ left; reflexivity
          | right; match goal with |- Forall _ (p_fields ?x) => unfold x end; cbn [p_fields]; each; safe_tac ].
Qed.

Lemma uart_safe : Forall (fun f => f_name f = "mode"%string \/ field_safe f) (p_fields p_cfg_prt_uart).
Proof.
  unfold p_cfg_prt_uart. cbn [p_fields]. each; first [left; reflexivity | right; safe_tac].
Qed.

Lemma recv_layout : forallb (fun p => layout_ok (p_fields p)) recv_packets = true.
Proof. vm_compute. reflexivity. Qed.

Ltac typed_tac :=
  first [ apply typed_none
        | apply typed_some;
          first [ apply flags_into_typed; reflexivity | apply float_into_typed | apply word_into_typed
                | apply itfm_into_typed | apply itfm2_into_typed | apply uart_into_typed
                | apply c_like_into_typed; reflexivity
                | apply enum_into_typed; vm_compute; reflexivity ] ].
Lemma send_typed : Forall desc_typed send_packets.
Proof.
  unfold send_packets. each; unfold desc_typed; match goal with |- Forall _ (p_fields ?x) => unfold x end; cbn [p_fields];
    each; typed_tac.
Qed.


