(** * C62: the documented messages *)
From Coq Require Import String List NArith ZArith Bool Lia Reals Lra SpecFloat Classical_Prop.
From Flocq Require Import Core.
From Verif Require Import Base BaseFacts DualBuffer PackDesc GenRecv GenSend Enums TableTypes TablePackets Bits Floats SpecPacket SpecReal
  SpecFrame SpecInterface ProofRecv ProofSend ProofTable ProofDispatch ProofFloat PropFloat PropTypes PropPackets PropDispatch.
Import ListNotations.
Open Scope N_scope.
Open Scope list_scope.

(** ** Lemmas *)

Fixpoint index_of (name : string) (fs : list field) : option nat :=
  match fs with
  | [] => None
  | f :: fs' => if String.eqb (accessor f) name then Some O else option_map S (index_of name fs')
  end.

Lemma find_index name : forall gs k g,
  index_of name (map g_field gs) = Some k -> nth_error gs k = Some g ->
  find (fun g => String.eqb (accessor (g_field g)) name) gs = Some g.
Proof.
  induction gs as [|h gs IH]; intros k g; cbn [map index_of find]; [discriminate|].
  destruct (String.eqb (accessor (g_field h)) name) eqn:E.
  - intros [= <-]. cbn. auto.
  - destruct (index_of name (map g_field gs)) as [j|] eqn:Ej; [|discriminate]. intros [= <-] Hn. cbn in Hn. eauto.
Qed.

Lemma index_name name : forall fs k f, index_of name fs = Some k -> nth_error fs k = Some f -> accessor f = name.
Proof.
  induction fs as [|h fs IH]; intros k f; cbn [index_of]; [discriminate|].
  destruct (String.eqb (accessor h) name) eqn:E.
  - intros [= <-]. cbn. intros [= <-]. now apply String.eqb_eq.
  - destruct (index_of name fs) as [j|] eqn:Ej; [|discriminate]. intros [= <-] Hn. cbn in Hn. eauto.
Qed.

(** The format belongs to the type *)
Definition fmt_ok (t : raw_ty) (fm : format) : bool :=
  match t, fm with
  | Scalar s, U n => (scalar_size s =? n) && match s with U8 | U16 | U32 => true | _ => false end
  | Scalar s, I n => (scalar_size s =? n) && match s with I8 | I16 | I32 => true | _ => false end
  | Scalar s, R n => (scalar_size s =? n) && match s with F32 | F64 => true | _ => false end
  | Bytes n, A m => (n =? m) && negb (n =? 0)
  | Bytes 0, Rest => true
  | _, _ => false
  end.

Lemma fmt_number s fm off payload : fmt_ok (Scalar s) fm = true ->
  decode (Scalar s) (takeN (scalar_size s) (dropN off payload)) = number fm off payload.
Proof.
  destruct fm as [n|n|n|n|]; cbn [fmt_ok]; try discriminate; intros H; apply andb_prop in H; destruct H as [H1 H2];
    apply N.eqb_eq in H1; subst n; destruct s; try discriminate; reflexivity.
Qed.

Definition means_flags_ok (s : scalar) (fd : flags_desc) (d : flags_doc) : bool :=
  existsb (fun x => String.eqb (b_name x) (fd_type d) &&
     forallb (fun c => existsb (fun i => String.eqb (fst c) (fst i) && (2 ^ snd c =? snd i)) (flags_items x)) (fd_bits d)) all_flags &&
  (flags_all fd =? 2 ^ (8 * scalar_size s) - 1) && negb (scalar_signed s).

Inductive means : field -> meaning -> Prop :=
| means_plain n a t rf sf : means (mk_field n a t None rf sf) Plain
| means_scaled n a s rf sf t m e : (8 * Z.of_N (scalar_size s) + 8 <=? fprec t)%Z = true -> scale_okb t m e = true ->
    means (mk_field n a (Scalar s) (Some (float_map t s (Some (m, e)))) rf sf) (Scaled t m 10 e)
| means_unscaled n a s rf sf t : (8 * Z.of_N (scalar_size s) + 8 <=? fprec t)%Z = true ->
    means (mk_field n a (Scalar s) (Some (float_map t s None)) rf sf) (Scaled t 1 10 0)
| means_word n a s rf sf : means (mk_field n a (Scalar s) (Some (word_map s)) rf sf) Word
| means_flags n a s rf sf fd d : means_flags_ok s fd d = true ->
    means (mk_field n a (Scalar s) (Some (flags_map s fd)) rf sf) (Flags d)
| means_enum n a rf sf ed mf codes : Forall (fun c => enum_from ed (snd c) = Ret c) codes ->
    means (mk_field n a (Scalar U8) (Some (enum_map ed mf)) rf sf) (Enum codes)
| means_code f : means f Code.

Lemma flags_named_ok s fd d : means_flags_ok s fd d = true -> flags_named d.
Proof.
  intros H. apply andb_prop in H. destruct H as [H _]. apply andb_prop in H. destruct H as [H _].
  apply existsb_exists in H. destruct H as (x & Hx & H). apply andb_prop in H. destruct H as [H1 H2].
  apply String.eqb_eq in H1. exists x. split; [exact Hx|]. split; [exact H1|].
  apply Forall_forall. intros c Hc. rewrite forallb_forall in H2. specialize (H2 c Hc). apply existsb_exists in H2.
  destruct H2 as (i & Hi & H2). apply andb_prop in H2. destruct H2 as [H3 H4]. apply String.eqb_eq in H3. apply N.eqb_eq in H4.
  rewrite H3, H4. destruct i; exact Hi.
Qed.

Lemma quantity_scaled t s m e z : (8 * Z.of_N (scalar_size s) + 8 <=? fprec t)%Z = true -> scale_okb t m e = true ->
  (scalar_min s <= z <= scalar_max s)%Z -> quantity t m 10 e z (fmul t (of_int t z) (lit t m e)).
Proof.
  intros F S Z. apply Z.leb_le in F. apply scale_okb_ok in S. destruct (getter_accurate t s m e z F Z S) as (_ & H1 & H2).
  split; [exact H1|]. rewrite bpow_powerRZ in H2. exact H2.
Qed.

Lemma quantity_unscaled t s z : (8 * Z.of_N (scalar_size s) + 8 <=? fprec t)%Z = true ->
  (scalar_min s <= z <= scalar_max s)%Z -> quantity t 1 10 0 z (of_int t z).
Proof.
  intros F Z. apply Z.leb_le in F. destruct (fits_range t s F) as (M1 & M2 & M3 & M4 & M5).
  assert (Za : (Z.abs z <= 2 ^ fprec t)%Z).
  { apply Z.le_trans with (2 ^ (8 * Z.of_N (scalar_size s)))%Z; [lia|]. apply Z.pow_le_mono_r; lia. }
  destruct (of_int_exact t z Za) as (_ & H1 & H2). split; [exact H1|]. destruct H2 as [H2 _]. rewrite H2.
  cbn [powerRZ]. rewrite !Rmult_1_r, Rminus_diag_eq, Rabs_R0 by reflexivity.
  apply Rmult_le_pos; [|apply Rabs_pos]. rewrite <- (bpow_powerRZ radix2). apply bpow_ge_0.
Qed.

Definition result_of (f : field) (me : meaning) (z : Z) (whole : {T : Type & T}) (v : res (fvalue f)) : Prop :=
  match me with
  | Plain => typed v = whole
  | Scaled t m base e => exists x, typed v = typed (Ret x) /\ quantity t m base e z x
  | Word => typed v = typed (Ret (Z.to_N z))
  | Flags d => flags_named d /\ typed v = typed (Ret (Z.to_N z))
  | Enum codes => forall name code, In (name, code) codes -> z = Z.of_N code -> typed v = typed (Ret (name, code))
  | Code => True
  end.

Lemma means_result f me z whole (r : raw_val (f_ty f)) : means f me ->
  (f_size f = None -> me = Plain \/ me = Code) ->
  typed (Ret r) = whole ->
  (forall s (E : f_ty f = Scalar s), eq_rect _ raw_val r _ E = z /\ (scalar_min s <= z <= scalar_max s)%Z) ->
  result_of f me z whole (convert f r).
Proof.
  intros M. revert z whole r. destruct M as [n a t rf sf|n a s rf sf t m e Hf Hs|n a s rf sf t Hf|n a s rf sf|n a s rf sf fd d Hd|n a rf sf ed mf codes Hc|f];
    intros z whole r Hn Hw Hz; cbn [result_of].
  - rewrite <- Hw. unfold convert. destruct (f_size _); reflexivity.
  - destruct (Hz s eq_refl) as [Ez Rz]. cbn in Ez. subst z. eexists. split; [reflexivity|]. eapply quantity_scaled; eassumption.
  - destruct (Hz s eq_refl) as [Ez Rz]. cbn in Ez. subst z. eexists. split; [reflexivity|]. eapply quantity_unscaled; eassumption.
  - destruct (Hz s eq_refl) as [Ez Rz]. cbn in Ez. subst z. reflexivity.
  - destruct (Hz s eq_refl) as [Ez Rz]. cbn in Ez. subst z. split; [eapply flags_named_ok; exact Hd|].
    change (convert _ r) with (Ret (flags_from fd (Z.to_N r))). do 2 f_equal.
    apply andb_prop in Hd. destruct Hd as [Hd Hu]. apply andb_prop in Hd. destruct Hd as [_ Hd]. apply N.eqb_eq in Hd.
    unfold flags_from. rewrite Hd. replace (2 ^ (8 * scalar_size s) - 1) with (N.ones (8 * scalar_size s)) by (destruct s; reflexivity).
    rewrite N.land_ones. apply N.mod_small. unfold scalar_min, scalar_max in Rz. destruct s; cbn in Hu; try discriminate; cbn in *; lia.
  - destruct (Hz U8 eq_refl) as [Ez Rz]. cbn in Ez. subst z. intros name code Hi Ecode. rewrite Forall_forall in Hc. specialize (Hc _ Hi). cbn in Hc.
    change (convert _ r) with (let! x := enum_from ed (Z.to_N r) in Ret x). rewrite Ecode, N2Z.id, Hc. reflexivity.
  - exact Logic.I.
Qed.

Lemma row_reads p payload k f r :
  layout_ok (p_fields p) = true -> lenN payload <= usize_max -> length_accepts p payload ->
  nth_error (p_fields p) k = Some f -> index_of (r_name r) (p_fields p) = Some k ->
  offset_of (p_fields p) k = r_off r -> fmt_ok (f_ty f) (r_fmt r) = true -> f_size_fn f = None -> means f (r_meaning r) ->
  (f_size f = None -> r_meaning r = Plain \/ r_meaning r = Code) ->
  reads p r payload.
Proof.
  intros L Hl La Hk Hi Ho Hf Hfn M Hsz.
  destruct (getter_located p payload k f L Hl La Hk) as (off & fns & start & stop & Hn & Loc & S1 & S2 & Raw).
  assert (Eg : the_getter p (r_name r) = getter_at f off fns).
  { unfold the_getter. rewrite (find_index _ _ k (getter_at f off fns)); [reflexivity| |exact Hn].
    unfold getters. rewrite gen_getters_fields. exact Hi. }
  unfold reads. rewrite Eg. cbn [getter_at g_field].
  split; [eapply index_name; eassumption|]. split; [eapply nth_error_In; exact Hn|].
  change (g_raw (getter_at f off fns) payload) with (raw_at f off fns payload).
  change (g_val (getter_at f off fns) payload) with (let! v := raw_at f off fns payload in convert f v).
  rewrite Raw. cbn [bind]. unfold located in Loc.
  assert (W : typed (Ret (decode (f_ty f) (takeN (stop - start) (dropN start payload)))) = raw_result (r_fmt r) (r_off r) payload).
  { clear - Loc Hfn Ho Hf S2. unfold is_sized, is_rest, f_size, field_size, f_size, size_bytes in *. rewrite Hfn in Loc. clear Hfn.
    destruct (f_ty f) as [s|n|]; [| |destruct (r_fmt r); discriminate].
    - destruct Loc as [-> ->]. rewrite Ho in *. replace (r_off r + scalar_size s - r_off r) with (scalar_size s) by lia.
      rewrite (fmt_number _ _ _ _ Hf). destruct (r_fmt r); try discriminate; reflexivity.
    - cbn in Hf. destruct (r_fmt r) as [m|m|m|m|]; try (destruct n; discriminate).
      + assert (E : (n =? m) && negb (n =? 0) = true) by (destruct n; exact Hf). apply andb_prop in E. destruct E as [E1 E2]. apply N.eqb_eq in E1. subst m.
        destruct (n =? 0) eqn:E0; [discriminate|]. destruct Loc as [-> ->]. rewrite Ho.
        replace (r_off r + n - r_off r) with n by lia. reflexivity.
      + destruct n; [|discriminate]. cbn in Loc. destruct Loc as [-> ->]. rewrite Ho.
        cbn [decode raw_result]. do 2 f_equal. apply takeN_all. rewrite lenN_dropN. lia. }
  split; [exact W|]. apply (means_result f (r_meaning r) (number (r_fmt r) (r_off r) payload)); try assumption.
  intros s E. unfold is_sized, is_rest, f_size, field_size, f_size, size_bytes in Loc. rewrite Hfn, E in Loc.
  destruct Loc as [-> ->]. rewrite E in Hf. rewrite Ho in *.
  replace (r_off r + scalar_size s - r_off r) with (scalar_size s) by lia.
  assert (D : eq_rect (f_ty f) raw_val (decode (f_ty f) (takeN (scalar_size s) (dropN (r_off r) payload))) (Scalar s) E =
              decode (Scalar s) (takeN (scalar_size s) (dropN (r_off r) payload))) by (destruct E; reflexivity).
  split; [rewrite D; apply fmt_number; exact Hf|]. rewrite <- (fmt_number _ _ _ _ Hf).
  apply (decode_ok (Scalar s) (scalar_size s)); [reflexivity|].
  rewrite lenN_takeN, lenN_dropN. lia.
Qed.

Ltac row_tac :=
  match goal with |- reads ?p ?r ?payload =>
    let k := eval vm_compute in (index_of (r_name r) (p_fields p)) in
    match k with Some ?k =>
      let f := eval cbv [nth_error p_fields p] in (nth_error (p_fields p) k) in
      match f with Some ?f =>
        eapply (row_reads p payload k f r); [assumption|assumption|assumption|reflexivity|vm_compute; reflexivity|vm_compute; reflexivity|reflexivity|reflexivity| |]
      end
    end
  end.
Ltac means_tac :=
  cbn [r_meaning]; first [ apply means_plain | apply means_code | apply means_word | apply means_scaled; [reflexivity|vm_compute; reflexivity]
    | apply means_unscaled; reflexivity | apply means_flags; vm_compute; reflexivity | apply means_enum; repeat (constructor; [vm_compute; reflexivity|]); constructor ].
Ltac sized_tac := cbn; first [discriminate | auto].

Ltac rows_tac := repeat (constructor; [row_tac; [means_tac | sized_tac]|]); constructor.

(** What is proved for each message *)
Definition documented (m : message) (p : pack_desc) : Prop :=
  p_name p = i_type m /\ p_class p = i_class m /\ p_id p = i_id m /\
  forall payload, lenN payload <= 65535 -> accepts p payload ->
    (forall n, i_len m = Some n -> lenN payload = n) /\ Forall (fun r => reads p r payload) (i_rows m).

Lemma documented_intro m p : layout_ok (p_fields p) = true ->
  p_name p = i_type m /\ p_class p = i_class m /\ p_id p = i_id m ->
  match i_len m with Some n => forallb is_sized (p_fields p) && (fixed_size (p_fields p) =? n) = true | None => True end ->
  (forall payload, lenN payload <= usize_max -> length_accepts p payload -> Forall (fun r => reads p r payload) (i_rows m)) ->
  documented m p.
Proof.
  intros L (N1 & N2 & N3) Ln H. split; [exact N1|]. split; [exact N2|]. split; [exact N3|]. intros payload Hl [A _]. split.
  - intros n En. rewrite En in Ln. apply andb_prop in Ln. destruct Ln as [L1 L2]. unfold length_accepts in A. rewrite L1 in A.
    apply N.eqb_eq in L2. congruence.
  - apply H; [|exact A]. assert (65535 <= usize_max) by (vm_compute; discriminate). lia.
Qed.

Ltac message_tac p :=
  let L := fresh "L" in
  assert (L : layout_ok (p_fields p) = true) by (vm_compute; reflexivity);
  apply documented_intro; [exact L|repeat split|first [exact Logic.I|vm_compute; reflexivity]|];
  intros payload Hl La; match goal with |- Forall _ (i_rows ?m) => unfold m; cbn [i_rows] end; rows_tac.

(** The packet type of each message *)
Definition message_types : list (message * pack_desc) :=
  [(i_nav_pos_llh, p_nav_pos_llh); (i_nav_vel_ned, p_nav_vel_ned); (i_nav_hp_pos_llh, p_nav_hp_pos_llh);
   (i_nav_hp_pos_ecef, p_nav_hp_pos_ecef); (i_nav_pvt, p_nav_pvt); (i_nav_status, p_nav_status); (i_nav_dop,
   p_nav_dop); (i_nav_eoe, p_nav_eoe); (i_nav_solution, p_nav_solution); (i_nav_sat, p_nav_sat); (i_nav_odo,
   p_nav_odo); (i_cfg_odo, p_cfg_odo); (i_cfg_itfm, p_cfg_itfm); (i_inf_error, p_inf_error); (i_inf_notice,
   p_inf_notice); (i_inf_test, p_inf_test); (i_inf_warning, p_inf_warning); (i_inf_debug, p_inf_debug); (i_alp_srv,
   p_alp_srv); (i_ack_ack, p_ack_ack); (i_ack_nak, p_ack_nak); (i_cfg_ant, p_cfg_ant); (i_cfg_tp5, p_cfg_tp5);
   (i_cfg_tmode2, p_cfg_tmode2); (i_tim_svin, p_tim_svin); (i_nav_time_ls, p_nav_time_ls); (i_cfg_tmode3,
   p_cfg_tmode3); (i_cfg_prt_i2c, p_cfg_prt_i2c); (i_cfg_prt_uart, p_cfg_prt_uart); (i_cfg_prt_spi, p_cfg_prt_spi);
   (i_nav_time_utc, p_nav_time_utc); (i_cfg_nav5, p_cfg_nav5); (i_mga_ack, p_mga_ack); (i_mga_glo_eph, p_mga_glo_eph);
   (i_mga_gps_iono, p_mga_gps_iono); (i_mga_gps_eph, p_mga_gps_eph); (i_tim_tp, p_tim_tp); (i_tim_tm2, p_tim_tm2);
   (i_rxm_rawx, p_rxm_rawx); (i_mon_hw, p_mon_hw); (i_mon_gnss, p_mon_gnss); (i_mon_ver, p_mon_ver); (i_rxm_rtcm,
   p_rxm_rtcm); (i_esf_meas, p_esf_meas); (i_esf_raw, p_esf_raw); (i_esf_ins, p_esf_ins); (i_hnr_att, p_hnr_att);
   (i_hnr_ins, p_hnr_ins); (i_hnr_pvt, p_hnr_pvt); (i_nav_att, p_nav_att); (i_nav_clock, p_nav_clock); (i_rxm_sfrbx,
   p_rxm_sfrbx); (i_nav_vel_ecef, p_nav_vel_ecef); (i_mga_gps_EPH, p_mga_gps_EPH); (i_sec_uniq_id, p_sec_uniq_id)].
Definition block_types : list (message * pack_desc) :=
  [(i_nav_sat_sv_info, p_nav_sat_sv_info); (i_cfg_inf, p_cfg_inf); (i_cfg_nav_x5, p_cfg_nav_x5); (i_rxm_rawx_info,
   p_rxm_rawx_info)].

Lemma messages_documented : Forall (fun x => documented (fst x) (snd x)) message_types.
Proof.
  unfold message_types. each; cbn [fst snd]; match goal with |- documented _ ?p => message_tac p end.
Qed.
Lemma blocks_documented : Forall (fun x => documented (fst x) (snd x)) block_types.
Proof.
  unfold block_types. each; cbn [fst snd]; match goal with |- documented _ ?p => message_tac p end.
Qed.

Lemma message_type m : In m messages -> exists p, In p recv_table /\ documented m p.
Proof.
  intros Hm. change messages with (map fst message_types) in Hm. apply in_map_iff in Hm. destruct Hm as ((m' & p) & <- & H).
  exists p. split; [|exact (proj1 (Forall_forall _ _) messages_documented _ H)].
  assert (F : Forall (fun x => In (snd x) recv_table) message_types) by (unfold message_types, recv_table; each; cbn [snd]; in_list).
  exact (proj1 (Forall_forall _ _) F _ H).
Qed.
Lemma block_type m : In m blocks -> exists p, In p recv_packets /\ documented m p.
Proof.
  intros Hm. change blocks with (map fst block_types) in Hm. apply in_map_iff in Hm. destruct Hm as ((m' & p) & <- & H).
  exists p. split; [|exact (proj1 (Forall_forall _ _) blocks_documented _ H)].
  assert (F : Forall (fun x => In (snd x) recv_packets) block_types) by (unfold block_types, recv_packets; each; cbn [snd]; in_list).
  exact (proj1 (Forall_forall _ _) F _ H).
Qed.

Lemma typed_inj {T} (a b : T) : typed a = typed b -> a = b.
Proof. apply Classical_Prop.EqdepTheory.inj_pair2. Qed.

Definition numeric (f : format) : bool := match f with U _ | I _ | R _ => true | _ => false end.

Lemma reads_number p r1 r2 payload : reads p r1 payload -> reads p r2 payload -> r_name r1 = r_name r2 ->
  numeric (r_fmt r1) = true -> numeric (r_fmt r2) = true ->
  number (r_fmt r1) (r_off r1) payload = number (r_fmt r2) (r_off r2) payload.
Proof.
  intros (_ & _ & H1 & _) (_ & _ & H2 & _) E N1 N2. rewrite E in H1. rewrite H1 in H2. clear H1.
  destruct (r_fmt r1), (r_fmt r2); try discriminate; cbn [raw_result] in H2; apply typed_inj in H2; injection H2; auto.
Qed.

Lemma reads_factor p r1 r2 payload t m1 b1 e1 m2 b2 e2 : reads p r1 payload -> reads p r2 payload -> r_name r1 = r_name r2 ->
  r_meaning r1 = Scaled t m1 b1 e1 -> r_meaning r2 = Scaled t m2 b2 e2 -> r_fmt r1 = r_fmt r2 -> r_off r1 = r_off r2 ->
  number (r_fmt r1) (r_off r1) payload <> 0%Z ->
  let f1 := (IZR (Zpos m1) * powerRZ (IZR b1) e1)%R in let f2 := (IZR (Zpos m2) * powerRZ (IZR b2) e2)%R in
  (Rabs (f1 - f2) <= powerRZ 2 (2 - fprec t) * (Rabs f1 + Rabs f2))%R.
Proof.
  intros (_ & _ & _ & H1) (_ & _ & _ & H2) E M1 M2 Ef Eo Nz f1 f2. rewrite E, M1 in H1. rewrite M2, <- Ef, <- Eo in H2.
  destruct H1 as (x1 & V1 & _ & Q1). destruct H2 as (x2 & V2 & _ & Q2). rewrite V1 in V2. apply typed_inj in V2. injection V2 as <-.
  set (z := number (r_fmt r1) (r_off r1) payload) in *. fold f1 in Q1. fold f2 in Q2.
  set (u := powerRZ 2 (2 - fprec t)) in *.
  assert (A0 : (0 < Rabs (IZR z))%R) by (apply Rabs_pos_lt; apply IZR_neq; exact Nz).
  rewrite !Rabs_mult in *.
  assert (H : (Rabs (IZR z) * Rabs (f1 - f2) <= Rabs (IZR z) * (u * (Rabs f1 + Rabs f2)))%R).
  { rewrite <- Rabs_mult, Rmult_minus_distr_l.
    replace (IZR z * f1 - IZR z * f2)%R with ((real x1 - IZR z * f2) - (real x1 - IZR z * f1))%R by ring.
    eapply Rle_trans; [apply Rabs_triang|]. rewrite Rabs_Ropp. lra. }
  apply Rmult_le_reg_l in H; assumption.
Qed.

Definition ones (n : N) : list byte := repeat xff (N.to_nat n).

Lemma powerRZ_neg_IZR b n : powerRZ (IZR b) (Zneg n) = (/ IZR (b ^ Zpos n))%R.
Proof. cbn [powerRZ]. rewrite pow_IZR, positive_nat_Z. reflexivity. Qed.
Lemma powerRZ_pos_IZR b n : powerRZ (IZR b) (Zpos n) = IZR (b ^ Zpos n).
Proof. cbn [powerRZ]. rewrite pow_IZR, positive_nat_Z. reflexivity. Qed.
Lemma far_apart f1 f2 t : (0 < f1)%R -> (0 < f2)%R -> (2 * f1 <= f2 \/ 2 * f2 <= f1)%R ->
  ~ (Rabs (f1 - f2) <= powerRZ 2 (2 - fprec t) * (Rabs f1 + Rabs f2))%R.
Proof.
  intros P1 P2 F H. rewrite (Rabs_pos_eq f1), (Rabs_pos_eq f2) in H by lra.
  assert (U : (0 < powerRZ 2 (2 - fprec t) <= / 4)%R).
  { rewrite <- (bpow_powerRZ radix2). split; [apply bpow_gt_0|]. change (/ 4)%R with (bpow radix2 (-2)). apply bpow_le. destruct t; cbn; lia. }
  set (u := powerRZ 2 (2 - fprec t)) in *. destruct F as [F|F].
  - rewrite Rabs_left1 in H by lra. nra.
  - rewrite Rabs_pos_eq in H by lra. nra.
Qed.
Ltac factor_tac :=
  try rewrite !powerRZ_neg_IZR; try rewrite !powerRZ_pos_IZR;
  repeat match goal with |- context [(?b ^ Zpos ?n)%Z] => let v := eval vm_compute in (b ^ Zpos n)%Z in change (b ^ Zpos n)%Z with v end;
  cbn [powerRZ]; lra.


Definition deviates (d : deviation) (p : pack_desc) : Prop :=
  p_name p = dv_type d /\
  (forall payload, lenN payload <= 65535 -> accepts p payload -> reads p (dv_actual d) payload) /\
  exists payload, lenN payload <= 65535 /\ accepts p payload /\ ~ reads p (dv_documented d) payload.

Lemma deviates_intro d p n : layout_ok (p_fields p) = true -> p_name p = dv_type d -> n <= 65535 ->
  (forall payload, lenN payload <= usize_max -> length_accepts p payload -> reads p (dv_actual d) payload) ->
  validate p (ones n) = Ret (Ok tt) ->
  (reads p (dv_actual d) (ones n) -> ~ reads p (dv_documented d) (ones n)) -> deviates d p.
Proof.
  intros L E Hn R V D. assert (U : 65535 <= usize_max) by (vm_compute; discriminate).
  assert (Ln : lenN (ones n) = n) by (unfold ones, lenN; rewrite repeat_length; lia).
  assert (A : accepts p (ones n)) by (apply validate_accepts; [exact L|lia|exact V]).
  split; [exact E|]. split.
  - intros payload Hl [Hx _]. apply R; [lia|exact Hx].
  - exists (ones n). split; [lia|]. split; [exact A|]. apply D. apply R; [lia|exact (proj1 A)].
Qed.

Ltac type_named s :=
  match s with
  | "NavPvt"%string => constr:((p_nav_pvt, 92)) | "TimSvin"%string => constr:((p_tim_svin, 28))
  | "MgaGloEph"%string => constr:((p_mga_glo_eph, 48)) | "MgaGpsIono"%string => constr:((p_mga_gps_iono, 16))
  | "NavVelECEF"%string => constr:((p_nav_vel_ecef, 20)) | "MgaGpsEPH"%string => constr:((p_mga_gps_EPH, 68))
  end.
Ltac deviation_tac p n :=
  let L := fresh "L" in
  assert (L : layout_ok (p_fields p) = true) by (vm_compute; reflexivity);
  apply (deviates_intro _ p n); [exact L|reflexivity|vm_compute; discriminate| |vm_compute; reflexivity|];
  [intros payload Hl La; cbn [dv_actual]; row_tac; [means_tac|sized_tac]|];
  cbn [dv_actual dv_documented]; intros A D;
  first
  [ pose proof (reads_number _ _ _ _ A D eq_refl eq_refl eq_refl) as X; vm_compute in X; discriminate X
  | refine (far_apart _ _ _ _ _ _ (reads_factor _ _ _ _ _ _ _ _ _ _ _ A D eq_refl eq_refl eq_refl eq_refl eq_refl _));
    [factor_tac|factor_tac|first [left; factor_tac|right; factor_tac]|vm_compute; discriminate] ].

Lemma each_deviates : Forall (fun d => exists p, In p recv_packets /\ deviates d p) deviations.
Proof.
  unfold deviations. each;
  match goal with |- exists p, In p recv_packets /\ deviates (mk_deviation ?s _ _) p =>
    let q := type_named s in match q with (?p, ?n) => exists p; split; [unfold recv_packets; in_list|deviation_tac p n] end end.
Qed.

(** *** Writing *)

Inductive sends : field -> meaning -> Prop :=
| sends_plain n a t rf sf : sends (mk_field n a t None rf sf) Plain
| sends_scaled n a s rf sf t m e : (8 * Z.of_N (scalar_size s) + 8 <=? fprec t)%Z = true -> scale_okb t m e = true ->
    sends (mk_field n a (Scalar s) (Some (float_map t s (Some (m, e)))) rf sf) (Scaled t m 10 e)
| sends_flags n a s rf sf fd d : means_flags_ok s fd d = true ->
    sends (mk_field n a (Scalar s) (Some (flags_map s fd)) rf sf) (Flags d)
| sends_enum n a rf sf ed mf codes : enum_variants ed = codes ->
    sends (mk_field n a (Scalar U8) (Some (enum_map ed mf)) rf sf) (Enum codes)
| sends_c_like n a s rf sf vs : sends (mk_field n a (Scalar s) (Some (c_like_map s vs)) rf sf) (Enum vs)
| sends_code f : sends f Code.

Definition written_as (f : field) (me : meaning) (z : Z) (whole : {T : Type & T}) (v : fvalue f) : Prop :=
  match me with
  | Plain => typed (Ret v) = whole
  | Scaled t m base e =>
      exists x s, typed v = typed x /\ f_ty f = Scalar s /\
        (finite x -> Rabs (IZR z - clampR s (real x / (IZR (Zpos m) * powerRZ (IZR base) e))) <=
                     / 2 + powerRZ 2 (8 * Z.of_N (scalar_size s) + 4 - fprec t))%R
  | Word => typed v = typed (Z.to_N z)
  | Flags d => flags_named d /\ typed v = typed (Z.to_N z)
  | Enum codes => exists name code, In (name, code) codes /\ typed v = typed (name, code) /\ z = Z.of_N code
  | Code => True
  end.

Lemma sends_written f me z whole (v : fvalue f) (r : raw_val (f_ty f)) : sends f me -> fvalue_ok f v -> to_raw f v = Ret r ->
  typed (Ret r) = whole -> (forall s (E : f_ty f = Scalar s), eq_rect _ raw_val r _ E = z) -> written_as f me z whole v.
Proof.
  intros M. revert z whole v r. destruct M as [n a t rf sf|n a s rf sf t m e Hf Hs|n a s rf sf fd d Hd|n a rf sf ed mf codes Hc|n a s rf sf vs|f];
    intros z whole v r Ok Ev Hw Hz; cbn [written_as].
  - rewrite <- Hw, <- Ev. reflexivity.
  - specialize (Hz s eq_refl). cbn in Hz. subst z. exists v, s. split; [reflexivity|]. split; [reflexivity|]. intros Fx.
    apply Z.leb_le in Hf. apply scale_okb_ok in Hs. destruct (scale_back_finite false t s m e v Hf Hs Ok Fx) as (k & Ek & _ & B).
    change (to_raw _ v) with (scale_back false t (lit t m e) s v) in Ev. assert (r = k) by congruence. subst r. rewrite bpow_powerRZ in B. exact B.
  - specialize (Hz s eq_refl). cbn in Hz. subst z. split; [eapply flags_named_ok; exact Hd|].
    change (to_raw _ v) with (Ret (Z.of_N v)) in Ev. injection Ev as <-. rewrite N2Z.id. reflexivity.
  - specialize (Hz U8 eq_refl). cbn in Hz. subst z. change (to_raw _ v) with (Ret (Z.of_N (snd v))) in Ev. injection Ev as <-.
    change (In v (enum_variants ed)) in Ok. rewrite Hc in Ok. change (fvalue _) with enum_val in v. destruct v as [name code]. exists name, code. repeat split. exact Ok.
  - specialize (Hz s eq_refl). cbn in Hz. subst z. change (to_raw _ v) with (Ret (Z.of_N (snd v))) in Ev. injection Ev as <-.
    change (In v vs) in Ok. change (fvalue _) with enum_val in v. destruct v as [name code]. exists name, code. repeat split. exact Ok.
  - exact Logic.I.
Qed.

Lemma nth_value_some : forall fs (b : builder fs) k f, builder_ok fs b -> nth_error fs k = Some f ->
  exists v : fvalue f, nth_value fs b k = Some (existT _ f v) /\ fvalue_ok f v.
Proof.
  induction fs as [|g fs IH]; intros b k f B Hk; [destruct k; discriminate|]. destruct B as [B1 B2]. destruct k as [|k]; cbn [nth_error nth_value] in *.
  - injection Hk as <-. eauto.
  - eauto.
Qed.

Lemma row_writes p (b : builder (p_fields p)) n frame k f r :
  desc_typed p -> builder_ok (p_fields p) b -> packet_payload_size p = Some n -> n <= 65535 -> into_packet_bytes p b = Ret frame ->
  nth_error (p_fields p) k = Some f -> index_of (r_name r) (p_fields p) = Some k ->
  offset_of (p_fields p) k = r_off r -> fmt_ok (f_ty f) (r_fmt r) = true -> f_size f <> None -> sends f (r_meaning r) ->
  writes p b r frame.
Proof.
  intros T B S Hn Ef Hk Hi Ho Hf Hs M. destruct (nth_value_some _ b k f B Hk) as (v & Hv & Ok).
  destruct (builder_places_fields p b n frame T B S Hn Ef) as (P & _ & _). destruct (P k f v Hv) as (raw & Er & W & _).
  exists k, f, v, raw. split; [exact Hv|]. split; [eapply index_name; eassumption|]. split; [exact Er|]. cbv zeta.
  assert (Ty : raw_ok (f_ty f) raw).
  { unfold desc_typed in T. rewrite Forall_forall in T. apply (T f (nth_error_In _ _ Hk) v); assumption. }
  assert (D : decode (f_ty f) (takeN (field_size f) (dropN (r_off r) (dropN 6 frame))) = raw).
  { rewrite dropN_dropN, <- Ho. rewrite W. destruct (f_size f) as [a|] eqn:Ea; [|congruence]. apply (decode_wire _ a); assumption. }
  assert (W2 : typed (Ret raw) = raw_result (r_fmt r) (r_off r) (dropN 6 frame)).
  { clear - D Hf Hs. rewrite <- D. clear D. unfold field_size, f_size, size_bytes in *. destruct (f_ty f) as [s|m|]; [| |destruct (r_fmt r); discriminate].
    - rewrite (fmt_number _ _ _ _ Hf). destruct (r_fmt r); try discriminate; reflexivity.
    - cbn in Hf. destruct (r_fmt r) as [m'|m'|m'|m'|]; try (destruct m; discriminate).
      + assert (E : (m =? m') && negb (m =? 0) = true) by (destruct m; exact Hf). apply andb_prop in E. destruct E as [E1 E2]. apply N.eqb_eq in E1. subst m'.
        destruct (m =? 0) eqn:E0; [discriminate|]. reflexivity.
      + destruct m; [|discriminate]. exfalso. apply Hs. reflexivity. }
  split; [exact W2|]. apply (sends_written f (r_meaning r) _ _ v raw M Ok Er W2).
  intros s E. rewrite <- D. clear - E Hf. unfold field_size, f_size, size_bytes.
  destruct f as [n a t mp rf sf]. cbn [f_ty] in *. subst t. cbn [eq_rect]. apply fmt_number. exact Hf.
Qed.

Ltac wrow_tac :=
  match goal with |- writes ?p ?b ?r ?frame =>
    let k := eval vm_compute in (index_of (r_name r) (p_fields p)) in
    match k with Some ?k =>
      let f := eval cbv [nth_error p_fields p] in (nth_error (p_fields p) k) in
      match f with Some ?f =>
        eapply (row_writes p b _ frame k f r); [eassumption|eassumption|eassumption|eassumption|eassumption|reflexivity|vm_compute; reflexivity|vm_compute; reflexivity|reflexivity|discriminate|]
      end
    end
  end.
Ltac sends_tac :=
  cbn [r_meaning]; first [ apply sends_plain | apply sends_code | apply sends_scaled; [reflexivity|vm_compute; reflexivity]
    | apply sends_flags; vm_compute; reflexivity | apply sends_enum; vm_compute; reflexivity | apply sends_c_like ].

Definition sent_types : list (message * pack_desc) :=
  [(i_nav_reset_odo, p_nav_reset_odo); (i_cfg_odo, p_cfg_odo); (i_cfg_itfm, p_cfg_itfm); (i_cfg_inf, p_cfg_inf);
   (i_aid_ini, p_aid_ini); (i_cfg_rst, p_cfg_rst); (i_cfg_ant, p_cfg_ant); (i_cfg_tp5, p_cfg_tp5); (i_cfg_tmode2,
   p_cfg_tmode2); (i_cfg_tmode3, p_cfg_tmode3); (i_cfg_prt_i2c, p_cfg_prt_i2c); (i_cfg_prt_uart, p_cfg_prt_uart);
   (i_cfg_prt_spi, p_cfg_prt_spi); (i_cfg_rate, p_cfg_rate); (i_cfg_msg_single_port, p_cfg_msg_single_port);
   (i_cfg_msg_all_ports, p_cfg_msg_all_ports); (i_cfg_nav5, p_cfg_nav5); (i_cfg_nav_x5, p_cfg_nav_x5)].

Lemma sent_written : Forall (fun x => forall n (b : builder (p_fields (snd x))) frame, desc_typed (snd x) -> builder_ok _ b ->
  packet_payload_size (snd x) = Some n -> n <= 65535 -> into_packet_bytes (snd x) b = Ret frame ->
  Forall (fun r => writes (snd x) b r frame) (i_rows (fst x))) sent_types.
Proof.
  unfold sent_types. each; cbn [fst snd]; intros n b frame T B S Hn Ef;
    match goal with |- Forall _ (i_rows ?m) => unfold m; cbn [i_rows] end;
    repeat (constructor; [wrow_tac; sends_tac|]); constructor.
Qed.

(** *** Completeness of the table *)

Definition row_names (ms : list message) (name : string) : list string :=
  flat_map (fun m => if String.eqb (i_type m) name then map r_name (i_rows m) else []) ms.
Definition deviation_names (name : string) : list string :=
  flat_map (fun d => if String.eqb (dv_type d) name then [r_name (dv_actual d)] else []) deviations.

Lemma row_names_in ms name x : In x (row_names ms name) -> exists m r, In m ms /\ i_type m = name /\ In r (i_rows m) /\ r_name r = x.
Proof.
  intros H. apply in_flat_map in H. destruct H as (m & Hm & H). destruct (String.eqb (i_type m) name) eqn:E; [|destruct H].
  apply String.eqb_eq in E. apply in_map_iff in H. destruct H as (r & Er & Hr). eauto 8.
Qed.
Lemma deviation_names_in name x : In x (deviation_names name) -> exists d, In d deviations /\ dv_type d = name /\ r_name (dv_actual d) = x.
Proof.
  intros H. apply in_flat_map in H. destruct H as (d & Hd & H). destruct (String.eqb (dv_type d) name) eqn:E; [|destruct H].
  apply String.eqb_eq in E. destruct H as [H|[]]. eauto.
Qed.

Definition member (x : string) (l : list string) : bool := existsb (String.eqb x) l.
Lemma member_in x l : member x l = true -> In x l.
Proof. intros H. apply existsb_exists in H. destruct H as (y & Hy & E). apply String.eqb_eq in E. now subst. Qed.

Lemma recv_complete : forallb (fun p => forallb (fun f =>
  (String.eqb (p_name p) "EsfMeas" && member (accessor f) ["data"; "calib_tag"]%string) ||
  member (accessor f) (row_names (messages ++ blocks) (p_name p)) || member (accessor f) (deviation_names (p_name p))) (p_fields p)) recv_packets = true.
Proof. vm_compute. reflexivity. Qed.
Lemma sent_complete : forallb (fun p => String.eqb (p_name p) "CfgValSet" || forallb (fun f =>
  member (accessor f) (row_names sent (p_name p))) (p_fields p)) send_packets = true.
Proof. vm_compute. reflexivity. Qed.

(** ** C62 *)

(** Every message of the table has a type among those the parser delivers, with the documented class and id.  Of an accepted
    payload (it has the documented length) every getter returns what the documentation says: from the documented bytes,
    in the documented format, with the documented unit, flags or codes. *)
Theorem documented_getters :
  forall m, In m messages ->
    exists p, In p recv_table /\ p_name p = i_type m /\ p_class p = i_class m /\ p_id p = i_id m /\
      forall payload, lenN payload <= 65535 -> accepts p payload ->
        (forall n, i_len m = Some n -> lenN payload = n) /\ Forall (fun r => reads p r payload) (i_rows m).
Proof. exact message_type. Qed.
(** A NAV-POSLLH message: longitude 0x01020304 * 10^-7 degrees, latitude -1 * 10^-7 degrees *)
Example documented_getters_ex :
  let payload := [x00; x00; x00; x00; x04; x03; x02; x01; xff; xff; xff; xff] ++ repeat x00 16 in
  In i_nav_pos_llh messages /\ accepts p_nav_pos_llh payload /\
  number (I 4) 4 payload = 16909060%Z /\ number (I 4) 8 payload = (-1)%Z /\
  In (row "lat_degrees" 8 (I 4) (Scaled FTy64 1 10 (-7))) (i_rows i_nav_pos_llh).
Proof.
  split; [unfold messages; in_list|]. split; [apply validate_accepts; [reflexivity|vm_compute; discriminate|vm_compute; reflexivity]|].
  split; [reflexivity|]. split; [reflexivity|]. unfold i_nav_pos_llh. cbn [i_rows]. in_list.
Qed.

(** The same for the blocks inside messages, and for the types which the parser does not deliver *)
Theorem documented_blocks :
  forall m, In m blocks ->
    exists p, In p recv_packets /\ p_name p = i_type m /\ p_class p = i_class m /\ p_id p = i_id m /\
      forall payload, lenN payload <= 65535 -> accepts p payload ->
        (forall n, i_len m = Some n -> lenN payload = n) /\ Forall (fun r => reads p r payload) (i_rows m).
Proof. exact block_type. Qed.
Example documented_blocks_ex : In i_nav_sat_sv_info blocks /\ accepts p_nav_sat_sv_info (repeat x01 12) /\ number (I 2) 4 (repeat x01 12) = 257%Z.
Proof.
  split; [unfold blocks; in_list|]. split; [apply validate_accepts; [reflexivity|vm_compute; discriminate|vm_compute; reflexivity]|]. reflexivity.
Qed.

(** No getter is left out, except the two of ESF-MEAS whose place depends on the payload. *)
Theorem documented_complete :
  forall p f, In p recv_packets -> In f (p_fields p) ->
    (exists m r, In m (messages ++ blocks) /\ i_type m = p_name p /\ In r (i_rows m) /\ r_name r = accessor f) \/
    (exists d, In d deviations /\ dv_type d = p_name p /\ r_name (dv_actual d) = accessor f) \/
    (p_name p = "EsfMeas" /\ (accessor f = "data" \/ accessor f = "calib_tag"))%string.
Proof.
  intros p f Hp Hf. pose proof recv_complete as C. rewrite forallb_forall in C. specialize (C p Hp). rewrite forallb_forall in C. specialize (C f Hf).
  apply orb_prop in C. destruct C as [C|C]; [apply orb_prop in C; destruct C as [C|C]|].
  - right. right. apply andb_prop in C. destruct C as [C1 C2]. apply String.eqb_eq in C1. split; [exact C1|]. apply member_in in C2. cbn in C2. intuition.
  - left. apply member_in in C. exact (row_names_in _ _ _ C).
  - right. left. apply member_in in C. exact (deviation_names_in _ _ C).
Qed.

(** The deviations: each of these getters returns what the second row says, and not what the documentation says. *)
Theorem documented_deviations_refuted :
  forall d, In d deviations ->
    exists p, In p recv_packets /\ p_name p = dv_type d /\
      (forall payload, lenN payload <= 65535 -> accepts p payload -> reads p (dv_actual d) payload) /\
      exists payload, lenN payload <= 65535 /\ accepts p payload /\ ~ reads p (dv_documented d) payload.
Proof. apply Forall_forall. exact each_deviates. Qed.

(** What a builder writes: a frame with the documented class, id and length, in whose payload every field of the builder has
    its documented place and format. *)
Theorem documented_builders :
  forall m, In m sent ->
    exists p, In p send_packets /\ p_name p = i_type m /\
      forall (b : builder (p_fields p)) bytes, builder_ok (p_fields p) b -> into_packet_bytes p b = Ret bytes ->
        (exists payload, bytes = frame (i_class m) (i_id m) payload /\ i_len m = Some (lenN payload)) /\
        Forall (fun r => writes p b r bytes) (i_rows m).
Proof.
  intros m Hm. change sent with (map fst sent_types) in Hm. apply in_map_iff in Hm. destruct Hm as ((m' & p) & <- & H). cbn [fst snd] in *.
  exists p.
  assert (F : Forall (fun x => In (snd x) send_packets /\ p_name (snd x) = i_type (fst x) /\ p_class (snd x) = i_class (fst x) /\
      p_id (snd x) = i_id (fst x) /\ exists n, i_len (fst x) = Some n /\ p_len (snd x) = Fixed n) sent_types).
  { unfold sent_types, send_packets. each; cbn [fst snd]; (split; [in_list|]); (split; [reflexivity|]); (split; [reflexivity|]); (split; [reflexivity|]);
      eexists; split; reflexivity. }
  rewrite Forall_forall in F. destruct (F _ H) as (F1 & F2 & F3 & F4 & n & F5 & F6). cbn [fst snd] in *.
  split; [exact F1|]. split; [exact F2|]. intros b bytes B E.
  destruct (send_fixed p n F1 F6) as (S & Hn & _ & _).
  pose proof (proj1 (Forall_forall _ _) send_typed p F1) as T. split.
  - rewrite (into_packet_bytes_spec p b n T B S Hn) in E. destruct (wire_fields (p_fields p) b) as [ws| |] eqn:Ew; cbn [ret_map bind] in E; try discriminate.
    injection E as <-. exists (concat ws). rewrite <- F3, <- F4. split; [reflexivity|]. rewrite F5. f_equal.
    destruct (wire_fields_len _ _ _ _ T B S Ew) as [_ Lc]. auto.
  - exact (proj1 (Forall_forall _ _) sent_written _ H n b bytes T B S Hn E).
Qed.

(** CFG-RATE: 1000 ms, every measurement, GPS time *)
Example documented_builders_ex :
  In i_cfg_rate sent /\ builder_ok (p_fields p_cfg_rate) (1000%Z, (1%Z, (("Gps"%string, 1), tt))) /\
  into_packet_bytes p_cfg_rate (1000%Z, (1%Z, (("Gps"%string, 1), tt))) =
    Ret (frame x06 x08 [xe8; x03; x01; x00; x01; x00]).
Proof.
  split; [unfold sent; in_list|]. split; [|vm_compute; reflexivity].
  split; [split; vm_compute; discriminate|]. split; [split; vm_compute; discriminate|]. split; [|exact Logic.I]. right. left. reflexivity.
Qed.

(** No field of a builder is left out. *)
Theorem documented_builders_complete :
  forall p f, In p send_packets -> In f (p_fields p) -> p_name p <> "CfgValSet"%string ->
    exists m r, In m sent /\ i_type m = p_name p /\ In r (i_rows m) /\ r_name r = accessor f.
Proof.
  intros p f Hp Hf Np. pose proof sent_complete as C. rewrite forallb_forall in C. specialize (C p Hp). apply orb_prop in C. destruct C as [C|C].
  - apply String.eqb_eq in C. congruence.
  - rewrite forallb_forall in C. specialize (C f Hf). apply member_in in C. exact (row_names_in _ _ _ C).
Qed.

(** NAV-STATUS flags2: the documentation has the power save state in bits 0 and 1, and the spoofing detection state in bits 3 and 4;
    the library takes the whole byte as the power save state. *)
Theorem nav_status_flags2_refuted :
  ~ (forall payload name code, lenN payload <= 65535 -> accepts p_nav_status payload -> In (name, code) d_nav_status_flags2 ->
       (number (U 1) 7 payload mod 4 = Z.of_N code)%Z -> g_val (the_getter p_nav_status "flags2") payload = Ret (name, code)).
Proof.
  intros H. specialize (H (repeat x00 7 ++ [x08] ++ repeat x00 8) "Acquisition"%string 0 ltac:(vm_compute; discriminate)
    ltac:(apply validate_accepts; [reflexivity|vm_compute; discriminate|vm_compute; reflexivity]) ltac:(left; reflexivity) eq_refl).
  vm_compute in H. discriminate.
Qed.

(** CFG-TMODE3: the receiver modes are codes, but the library has the flags [2^code] for them: the flags of a receiver
    in survey-in mode contain [DISABLED] and not [SURVEY_IN]. *)
Theorem rcvr_mode_refuted :
  Forall (fun c => In (fst c, 2 ^ snd c) (flags_items bf_cfg_tmode3_rcvr_mode)) d_rcvr_mode /\
  (forall payload, lenN payload <= 65535 -> accepts p_cfg_tmode3 payload -> number (U 1) 2 payload = 1%Z ->
     g_val (the_getter p_cfg_tmode3 "rcvr_mode") payload = Ret (2 ^ 0)) /\
  accepts p_cfg_tmode3 ([x00; x00; x01] ++ repeat x00 37).
Proof.
  split; [|split].
  - unfold d_rcvr_mode. repeat (constructor; [vm_compute; tauto|]). constructor.
  - intros payload Hl A Hm.
    pose proof messages_documented as D. rewrite Forall_forall in D. specialize (D (i_cfg_tmode3, p_cfg_tmode3) ltac:(unfold message_types; in_list)).
    destruct D as (_ & _ & _ & D). destruct (D payload Hl A) as [_ R]. rewrite Forall_forall in R.
    specialize (R (row "rcvr_mode" 2 (U 1) (Flags d_cfg_tmode3_rcvr_mode)) ltac:(unfold i_cfg_tmode3; cbn [i_rows]; in_list)).
    destruct R as (_ & _ & _ & _ & R). cbn [r_name r_fmt r_off] in R. rewrite Hm in R. exact (typed_inj _ _ R).
  - apply validate_accepts; [reflexivity|vm_compute; discriminate|vm_compute; reflexivity].
Qed.

(** CFG-TP5: none of the constants for the time grid has its code in bits 7 to 10. *)
Theorem time_grid_refuted :
  Forall (fun c => exists v, In (fst c, v) (flags_items bf_cfg_tp5_flags) /\ (v / 2 ^ 7) mod 2 ^ 4 <> snd c) d_time_grid.
Proof.
  unfold d_time_grid.
  constructor; [exists 128; split; [vm_compute; tauto|vm_compute; discriminate]|].
  constructor; [exists 256; split; [vm_compute; tauto|vm_compute; discriminate]|].
  constructor; [exists 512; split; [vm_compute; tauto|vm_compute; discriminate]|].
  constructor; [exists 1024; split; [vm_compute; tauto|vm_compute; discriminate]|].
  constructor; [exists 2048; split; [vm_compute; tauto|vm_compute; discriminate]|]. constructor.
Qed.

(** CFG-ITFM: the codes of the active and the passive antenna are exchanged. *)
Theorem antenna_setting_refuted :
  ~ In ("Passive"%string, 1) (enum_variants e_cfg_itfm_antenna_settings) /\ ~ In ("Active"%string, 2) (enum_variants e_cfg_itfm_antenna_settings) /\
  enum_from e_cfg_itfm_antenna_settings 1 = Ret ("Active"%string, 1) /\ enum_from e_cfg_itfm_antenna_settings 2 = Ret ("Passive"%string, 2).
Proof. vm_compute. intuition discriminate. Qed.

Print Assumptions documented_getters.
Print Assumptions documented_blocks.
Print Assumptions documented_complete.
Print Assumptions documented_deviations_refuted.
Print Assumptions documented_builders.
Print Assumptions documented_builders_complete.
Print Assumptions nav_status_flags2_refuted.
Print Assumptions rcvr_mode_refuted.
Print Assumptions time_grid_refuted.
Print Assumptions antenna_setting_refuted.
