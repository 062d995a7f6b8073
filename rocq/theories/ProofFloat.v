(** * Proofs about the floating point model, on top of Flocq *)
From Coq Require Import ZArith Reals Lia Lra Bool SpecFloat.
From Flocq Require Import Core Relative Operations Round.
From Flocq.IEEE754 Require Import BinarySingleNaN.
From Verif Require Import Base PackDesc Floats SpecReal.
Open Scope R_scope.

#[global] Instance fprec_gt_0 t : Prec_gt_0 (fprec t).
Proof. destruct t; reflexivity. Qed.
#[global] Instance fprec_lt t : Prec_lt_emax (fprec t) (femax t).
Proof. destruct t; reflexivity. Qed.
#[global] Instance fexp_valid t : Valid_exp (SpecFloat.fexp (fprec t) (femax t)).
Proof. exact (fexp_correct (fprec t) (femax t) (fprec_gt_0 t)). Qed.

(** ** The operations of [SpecFloat] are those of Flocq (rounding to nearest even) *)

Lemma round_nearest_even_equiv s m l : round_nearest_even m l = choice_mode mode_NE s m l.
Proof. destruct l as [|c]; [reflexivity|]. destruct c; try reflexivity. cbn. unfold cond_incr. now destruct (Z.even m). Qed.
Lemma round_aux_equiv t sx mx ex lx :
  SpecFloat.binary_round_aux (fprec t) (femax t) sx mx ex lx = BinarySingleNaN.binary_round_aux (fprec t) (femax t) mode_NE sx mx ex lx.
Proof.
  unfold SpecFloat.binary_round_aux, BinarySingleNaN.binary_round_aux. destruct (shr_fexp _ _ _) as [mrs e]. rewrite (round_nearest_even_equiv sx). reflexivity.
Qed.
Lemma round_equiv t s m e :
  SpecFloat.binary_round (fprec t) (femax t) s m e = BinarySingleNaN.binary_round (fprec t) (femax t) mode_NE s m e.
Proof.
  unfold SpecFloat.binary_round, BinarySingleNaN.binary_round, shl_align_fexp. destruct (shl_align _ _ _). apply round_aux_equiv.
Qed.

(** Result of an operation with exact value [r] and sign [s] *)
Definition rounds_to (t : fty) (r : R) (s : bool) (z : spec_float) : Prop :=
  float_ok t z /\
  ((Rabs (nearest t r) < bpow radix2 (femax t) /\ real z = nearest t r /\ finite z /\ sign_SF z = s) \/
   (bpow radix2 (femax t) <= Rabs (nearest t r) /\ z = S754_infinity s)).

Lemma nearest_0 t : nearest t 0 = 0.
Proof. unfold nearest. apply round_0. typeclasses eauto. Qed.
Lemma rounds_to_0 t s : rounds_to t 0 s (S754_zero s).
Proof.
  split; [reflexivity|]. left. rewrite nearest_0, Rabs_R0. split; [apply bpow_gt_0|]. repeat split.
Qed.

Lemma sign_real x : finite x -> real x <> 0 -> sign_SF x = Rlt_bool (real x) 0.
Proof.
  destruct x as [s| | |s m e]; cbn; intros F H; try discriminate F; [congruence|]. symmetry. destruct s; cbn.
  - apply Rlt_bool_true. now apply F2R_lt_0.
  - apply Rlt_bool_false. now apply F2R_ge_0.
Qed.

Lemma fmul_rounds t x y : float_ok t x -> float_ok t y -> finite x -> finite y ->
  rounds_to t (real x * real y) (xorb (sign_SF x) (sign_SF y)) (fmul t x y).
Proof.
  intros Ox Oy Fx Fy. destruct x as [sx| | |sx mx ex], y as [sy| | |sy my ey]; try discriminate Fx; try discriminate Fy; cbn [real SF2R sign_SF];
    rewrite ?Rmult_0_l, ?Rmult_0_r; try apply rounds_to_0.
  unfold fmul, SFmul. rewrite round_aux_equiv.
  destruct (Bmult_correct_aux (fprec t) (femax t) _ _ mode_NE sx mx ex Ox sy my ey Oy) as [V C]. split; [exact V|].
  destruct (Rlt_bool_spec (Rabs (round radix2 (SpecFloat.fexp (fprec t) (femax t)) (round_mode mode_NE)
    (F2R (Float radix2 (cond_Zopp sx (Zpos mx)) ex) * F2R (Float radix2 (cond_Zopp sy (Zpos my)) ey)))) (bpow radix2 (femax t))) as [L|L].
  - left. destruct C as (C1 & C2 & C3). repeat split; assumption.
  - right. split; [exact L|]. exact C.
Qed.

Lemma fdiv_rounds t sx mx ex sy my ey :
  rounds_to t (real (S754_finite sx mx ex) / real (S754_finite sy my ey)) (xorb sx sy) (fdiv t (S754_finite sx mx ex) (S754_finite sy my ey)).
Proof.
  unfold fdiv, SFdiv. cbn [real SF2R].
  destruct (Bdiv_correct_aux (fprec t) (femax t) _ _ mode_NE sx mx ex sy my ey) as [V C].
  destruct (SFdiv_core_binary (fprec t) (femax t) (Zpos mx) ex (Zpos my) ey) as [[mz ez] lz]. rewrite round_aux_equiv. split; [exact V|].
  destruct (Rlt_bool_spec (Rabs (round radix2 (SpecFloat.fexp (fprec t) (femax t)) (round_mode mode_NE)
    (F2R (Float radix2 (cond_Zopp sx (Zpos mx)) ex) / F2R (Float radix2 (cond_Zopp sy (Zpos my)) ey)))) (bpow radix2 (femax t))) as [L|L].
  - left. destruct C as (C1 & C2 & C3). repeat split; assumption.
  - right. split; [exact L|]. exact C.
Qed.

Lemma round_rounds t s m e :
  rounds_to t (real (S754_finite s m e)) s (SpecFloat.binary_round (fprec t) (femax t) s m e).
Proof.
  rewrite round_equiv. destruct (binary_round_correct (fprec t) (femax t) _ _ mode_NE s m e) as [V C]. split; [exact V|]. cbn zeta in C.
  destruct (Rlt_bool_spec (Rabs (round radix2 (SpecFloat.fexp (fprec t) (femax t)) (round_mode mode_NE)
    (F2R (Float radix2 (cond_Zopp s (Zpos m)) e)))) (bpow radix2 (femax t))) as [L|L].
  - left. destruct C as (C1 & C2 & C3). repeat split; assumption.
  - right. split; [exact L|]. exact C.
Qed.

Lemma F2R_0 z : F2R (Float radix2 z 0) = IZR z.
Proof. unfold F2R. cbn. ring. Qed.

Lemma of_int_rounds t z : rounds_to t (IZR z) (z <? 0)%Z (of_int t z).
Proof.
  unfold of_int, SpecFloat.binary_normalize. destruct z as [|p|p].
  - apply rounds_to_0.
  - pose proof (round_rounds t false p 0) as H. cbn [real SF2R cond_Zopp] in H. now rewrite F2R_0 in H.
  - pose proof (round_rounds t true p 0) as H. cbn [real SF2R cond_Zopp] in H. now rewrite F2R_0 in H.
Qed.

(** Integers of at most [fprec] bits are floats *)
Lemma nearest_IZR t z : (Z.abs z <= 2 ^ fprec t)%Z -> nearest t (IZR z) = IZR z.
Proof.
  intros H. unfold nearest. apply round_generic; [typeclasses eauto|].
  destruct (Z.eq_dec (Z.abs z) (2 ^ fprec t)) as [E|E].
  - assert (G : generic_format radix2 (SpecFloat.fexp (fprec t) (femax t)) (IZR (Z.abs z))).
    { rewrite E. change 2%Z with (radix_val radix2). rewrite IZR_Zpower by (destruct t; cbn; lia).
      apply generic_format_bpow. destruct t; vm_compute; discriminate. }
    destruct (Z.abs_eq_or_opp z) as [A|A]; rewrite A in G; [exact G|]. rewrite opp_IZR in G.
    apply generic_format_opp in G. now rewrite Ropp_involutive in G.
  - rewrite <- F2R_0. apply (generic_format_FLT radix2 (SpecFloat.emin (fprec t) (femax t)) (fprec t)).
    exists (Float radix2 z 0); cbn; [reflexivity|lia|]. destruct t; vm_compute; discriminate.
Qed.
Lemma pow_lt_emax t z : (Z.abs z <= 2 ^ fprec t)%Z -> Rabs (IZR z) < bpow radix2 (femax t).
Proof.
  intros H. rewrite <- abs_IZR. apply Rle_lt_trans with (bpow radix2 (fprec t)).
  - rewrite <- IZR_Zpower by (destruct t; cbn; lia). apply IZR_le. exact H.
  - apply bpow_lt. destruct t; reflexivity.
Qed.
Lemma of_int_exact t z : (Z.abs z <= 2 ^ fprec t)%Z ->
  float_ok t (of_int t z) /\ finite (of_int t z) /\ real (of_int t z) = IZR z /\ sign_SF (of_int t z) = (z <? 0)%Z.
Proof.
  intros H. destruct (of_int_rounds t z) as (V & [(_ & R & F & S)|(O & _)]).
  - rewrite nearest_IZR in R by exact H. auto.
  - rewrite nearest_IZR in O by exact H. pose proof (pow_lt_emax t z H). lra.
Qed.

(** ** Rounding to integers *)

Lemma nearest_int_opp r : nearest_int (- r) = (- nearest_int r)%Z.
Proof.
  unfold nearest_int. rewrite Znearest_opp. f_equal. unfold Znearest. destruct (Rcompare _ _); try reflexivity.
  replace (negb (0 <=? - (Zfloor r + 1)))%Z with (0 <=? Zfloor r)%Z; [reflexivity|]. lia.
Qed.
Lemma nearest_int_IZR z : nearest_int (IZR z) = z.
Proof. unfold nearest_int. apply (Zrnd_IZR (Znearest (Z.leb 0))). Qed.
Lemma nearest_int_half r : Rabs (IZR (nearest_int r) - r) <= / 2.
Proof. rewrite Rabs_minus_sym. apply (Znearest_half (Z.leb 0) r). Qed.
Lemma nearest_int_le a b : a <= b -> (nearest_int a <= nearest_int b)%Z.
Proof. apply (Zrnd_le (Znearest (Z.leb 0))). Qed.

(** Nearest integer of [m / d] *)
Lemma nearest_int_div m d : (0 <= m)%Z -> (0 < d)%Z ->
  nearest_int (IZR m / IZR d) = if (d <=? 2 * (m mod d))%Z then (m / d + 1)%Z else (m / d)%Z.
Proof.
  intros Hm Hd. assert (Dp : 0 < IZR d) by (apply (IZR_lt 0 d); lia).
  assert (E : IZR m / IZR d = IZR (m / d) + IZR (m mod d) / IZR d).
  { rewrite (Z.div_mod m d) at 1 by lia. rewrite plus_IZR, mult_IZR. field. lra. }
  pose proof (Z.mod_pos_bound m d Hd) as B. pose proof (Z.div_pos m d Hm Hd) as Q.
  assert (Fl : Zfloor (IZR m / IZR d) = (m / d)%Z).
  { apply Zfloor_imp. rewrite plus_IZR. rewrite E. assert (0 <= IZR (m mod d) / IZR d < 1); [|lra].
    split; [apply Rmult_le_pos; [apply IZR_le; lia|apply Rlt_le, Rinv_0_lt_compat; exact Dp]|]. apply Rmult_lt_reg_r with (IZR d); [exact Dp|].
    unfold Rdiv. rewrite Rmult_assoc, Rinv_l, Rmult_1_r, Rmult_1_l by lra. apply IZR_lt. lia. }
  unfold nearest_int, Znearest. rewrite Fl.
  assert (Df : IZR m / IZR d - IZR (m / d) = IZR (m mod d) / IZR d) by (rewrite E; ring). rewrite Df.
  assert (Cl : IZR (m mod d) / IZR d <> 0 -> Zceil (IZR m / IZR d) = (m / d + 1)%Z).
  { intros N0. rewrite Zceil_floor_neq; [now rewrite Fl|]. rewrite Fl. intros A. apply N0. lra. }
  assert (C2 : Rcompare (IZR (m mod d) / IZR d) (/ 2) = Z.compare (2 * (m mod d)) d).
  { replace (IZR (m mod d) / IZR d) with (IZR (2 * (m mod d)) * (/ (2 * IZR d))) by (rewrite mult_IZR; field; lra).
    replace (/ 2) with (IZR d * / (2 * IZR d)) by (field; lra). rewrite Rcompare_mult_r by (apply Rinv_0_lt_compat; lra).
    now rewrite Rcompare_IZR. }
  rewrite C2. destruct (Z.compare_spec (2 * (m mod d)) d) as [C|C|C].
  - replace (0 <=? m / d)%Z with true by lia. replace (d <=? 2 * (m mod d))%Z with true by lia. apply Cl.
    intros Z0. assert (IZR (m mod d) = 0) by (apply Rmult_eq_reg_r with (/ IZR d); [unfold Rdiv in Z0; lra|apply Rinv_neq_0_compat; lra]).
    apply eq_IZR in H. lia.
  - replace (d <=? 2 * (m mod d))%Z with false by lia. reflexivity.
  - replace (d <=? 2 * (m mod d))%Z with true by lia. apply Cl.
    intros Z0. assert (IZR (m mod d) = 0) by (apply Rmult_eq_reg_r with (/ IZR d); [unfold Rdiv in Z0; lra|apply Rinv_neq_0_compat; lra]).
    apply eq_IZR in H. lia.
Qed.

(** The magnitude of a finite float *)
Lemma real_finite s m e : real (S754_finite s m e) = (if s then -1 else 1) * F2R (Float radix2 (Zpos m) e).
Proof. unfold real, SF2R. destruct s; cbn [cond_Zopp]; [|ring]. rewrite F2R_Zopp. ring. Qed.
Lemma F2R_div m e : (e < 0)%Z -> F2R (Float radix2 m e) = IZR m / IZR (2 ^ (- e)).
Proof.
  intros H. unfold F2R. cbn [Fnum Fexp]. unfold Rdiv. f_equal. rewrite <- (Z.opp_involutive e) at 1. rewrite bpow_opp. f_equal.
  now rewrite <- IZR_Zpower by lia.
Qed.
Lemma F2R_mul m e : (0 <= e)%Z -> F2R (Float radix2 m e) = IZR (m * 2 ^ e).
Proof. intros H. unfold F2R. cbn [Fnum Fexp]. rewrite mult_IZR. f_equal. now rewrite <- IZR_Zpower by lia. Qed.

Lemma ok_mantissa t s m e : float_ok t (S754_finite s m e) -> (Zpos m < 2 ^ fprec t)%Z.
Proof.
  intros H. unfold float_ok, valid_binary, bounded in H. apply andb_true_iff in H. destruct H as [H _].
  unfold canonical_mantissa in H. apply Zeq_bool_eq in H. unfold SpecFloat.fexp in H.
  assert (D : (Zpos (digits2_pos m) <= fprec t)%Z) by lia. change (Zpos (digits2_pos m)) with (Zdigits2 (Zpos m)) in D.
  rewrite Zdigits2_Zdigits in D. pose proof (Zdigits_correct radix2 (Zpos m)) as C.
  apply Z.lt_le_trans with (2 ^ Zdigits radix2 (Zpos m))%Z; [exact (proj2 C)|]. apply Z.pow_le_mono_r; lia.
Qed.

Lemma fround_real t x : float_ok t x -> finite x ->
  float_ok t (fround t x) /\ finite (fround t x) /\ real (fround t x) = IZR (nearest_int (real x)) /\ sign_SF (fround t x) = sign_SF x.
Proof.
  intros O F. destruct x as [s| | |s m e]; try discriminate F.
  { cbn. rewrite (nearest_int_IZR 0). auto. }
  unfold fround. destruct (Z.leb_spec 0 e) as [He|He].
  { split; [exact O|]. split; [exact F|]. split; [|reflexivity]. unfold real, SF2R. rewrite F2R_mul by exact He. now rewrite nearest_int_IZR. }
  cbv zeta. set (d := (2 ^ (- e))%Z). assert (Hd : (2 <= d)%Z) by (unfold d; change 2%Z with (2 ^ 1)%Z at 1; apply Z.pow_le_mono_r; lia).
  set (q := if (d <=? 2 * (Zpos m mod d))%Z then (Zpos m / d + 1)%Z else (Zpos m / d)%Z).
  assert (Q : nearest_int (IZR (Zpos m) / IZR d) = q) by (apply nearest_int_div; lia).
  assert (R : nearest_int (real (S754_finite s m e)) = if s then (- q)%Z else q).
  { unfold real, SF2R. destruct s; cbn [cond_Zopp].
    - rewrite F2R_Zopp, nearest_int_opp, F2R_div by exact He. fold d. now rewrite Q.
    - rewrite F2R_div by exact He. fold d. now rewrite Q. }
  assert (Q0 : (0 <= q <= 2 ^ fprec t)%Z).
  { pose proof (ok_mantissa t s m e O) as M. pose proof (Z.div_pos (Zpos m) d ltac:(lia) ltac:(lia)).
    assert (Zpos m / d <= Zpos m / 2)%Z by (apply Z.div_le_compat_l; lia).
    assert (Zpos m / 2 < 2 ^ fprec t)%Z by (apply Z.div_lt_upper_bound; lia).
    unfold q. destruct (d <=? _)%Z; lia. }
  change (binary_round (fprec t) (femax t)) with (SpecFloat.binary_round (fprec t) (femax t)).
  rewrite R. destruct q as [|n|n]; [| |lia].
  - cbn [real SF2R]. split; [reflexivity|]. split; [reflexivity|]. split; [now destruct s|reflexivity].
  - destruct (round_rounds t s n 0) as (V & C). split; [exact V|].
    assert (E : real (S754_finite s n 0) = IZR (if s then Zneg n else Zpos n)) by (destruct s; unfold real, SF2R; cbn [cond_Zopp]; apply F2R_0).
    rewrite E in C. rewrite nearest_IZR in C by (destruct s; lia).
    destruct C as [(_ & C1 & C2 & C3)|(C & _)].
    + split; [exact C2|]. split; [rewrite C1; now destruct s|exact C3].
    + exfalso. assert (Rabs (IZR (if s then Zneg n else Zpos n)) < bpow radix2 (femax t)) by (apply pow_lt_emax; destruct s; lia). lra.
Qed.

Lemma ftrunc_int x z : finite x -> real x = IZR z -> ftrunc x = Some z.
Proof.
  intros F R. destruct x as [s| | |s m e]; try discriminate F; cbn [ftrunc].
  - cbn in R. apply (eq_IZR 0) in R. now subst.
  - f_equal. destruct (Z.leb_spec 0 e) as [He|He].
    + unfold real, SF2R in R. rewrite F2R_mul in R by exact He. apply eq_IZR in R. destruct s; cbn [cond_Zopp] in R; lia.
    + unfold real, SF2R in R. rewrite F2R_div in R by exact He. set (d := (2 ^ (- e))%Z) in *. assert (Hd : (0 < d)%Z) by (unfold d; apply Z.pow_pos_nonneg; lia).
      assert (Dp : 0 < IZR d) by (apply (IZR_lt 0 d); lia).
      assert (E : cond_Zopp s (Zpos m) = (z * d)%Z).
      { apply eq_IZR. rewrite mult_IZR, <- R. field. lra. }
      destruct s; cbn [cond_Zopp] in E.
      * assert (Zpos m = (- z) * d)%Z as -> by lia. rewrite Z.div_mul by lia. lia.
      * rewrite E, Z.div_mul by lia. reflexivity.
Qed.

(** ** Comparisons *)
Lemma SFltb_real t x y : float_ok t x -> float_ok t y -> finite x -> finite y -> SFltb x y = Rlt_bool (real x) (real y).
Proof.
  intros Ox Oy Fx Fy. pose proof (Bltb_correct (fprec t) (femax t) (SF2B x Ox) (SF2B y Oy)) as H. rewrite !is_finite_SF2B in H. specialize (H Fx Fy).
  unfold Bltb in H. rewrite !B2SF_SF2B, !B2R_SF2B in H. exact H.
Qed.
Lemma SFleb_real t x y : float_ok t x -> float_ok t y -> finite x -> finite y -> SFleb x y = Rle_bool (real x) (real y).
Proof.
  intros Ox Oy Fx Fy. pose proof (Bleb_correct (fprec t) (femax t) (SF2B x Ox) (SF2B y Oy)) as H. rewrite !is_finite_SF2B in H. specialize (H Fx Fy).
  unfold Bleb in H. rewrite !B2SF_SF2B, !B2R_SF2B in H. exact H.
Qed.

(** ** The conversions of [ScaleBack] *)

Lemma fits_range t s : fits t s ->
  (scalar_min s <= 0 /\ 0 < scalar_max s /\ - scalar_max s - 1 <= scalar_min s /\ scalar_max s < 2 ^ (8 * Z.of_N (scalar_size s)) /\
   2 ^ (8 * Z.of_N (scalar_size s)) * 256 <= 2 ^ fprec t)%Z.
Proof.
  unfold fits. intros H. assert (E : (2 ^ (8 * Z.of_N (scalar_size s)) * 256 <= 2 ^ fprec t)%Z).
  { change 256%Z with (2 ^ 8)%Z. rewrite <- Z.pow_add_r by lia. apply Z.pow_le_mono_r; lia. }
  destruct s; unfold scalar_min, scalar_max in *; cbn [scalar_signed scalar_size] in *;
    repeat match goal with |- context [(2 ^ (8 * Z.of_N ?n - 1))%Z] => let v := eval vm_compute in (2 ^ (8 * Z.of_N n - 1))%Z in change (2 ^ (8 * Z.of_N n - 1))%Z with v end;
    repeat match goal with |- context [(2 ^ (8 * Z.of_N ?n))%Z] => let v := eval vm_compute in (2 ^ (8 * Z.of_N n))%Z in change (2 ^ (8 * Z.of_N n))%Z with v in * end; lia.
Qed.

Lemma sign_le x : finite x -> (if sign_SF x then real x <= 0 else 0 <= real x).
Proof.
  destruct x as [s| | |s m e]; intros F; try discriminate F; cbn [sign_SF].
  - destruct s; cbn; lra.
  - destruct s; unfold real, SF2R; cbn [cond_Zopp]; [apply F2R_le_0|apply F2R_ge_0]; cbn; lia.
Qed.
Lemma sign_mul x y : finite x -> finite y -> (if xorb (sign_SF x) (sign_SF y) then real x * real y <= 0 else 0 <= real x * real y).
Proof.
  intros Fx Fy. pose proof (sign_le x Fx) as Hx. pose proof (sign_le y Fy) as Hy.
  destruct (sign_SF x), (sign_SF y); cbn [xorb]; nra.
Qed.

Lemma nearest_le t a b : a <= b -> nearest t a <= nearest t b.
Proof. intros H. unfold nearest. apply round_le; try typeclasses eauto. exact H. Qed.

Lemma big_int t b r : (Z.abs b <= 2 ^ fprec t)%Z -> bpow radix2 (femax t) <= r -> (b <= nearest_int r)%Z.
Proof.
  intros H L. rewrite <- (nearest_int_IZR b). apply nearest_int_le. apply Rle_trans with (bpow radix2 (femax t)); [|exact L].
  apply Rlt_le. apply Rle_lt_trans with (Rabs (IZR b)); [apply Rle_abs|]. now apply pow_lt_emax.
Qed.

Lemma SFltb_inf_l s y : finite y -> SFltb (S754_infinity s) y = s.
Proof. unfold finite; destruct y, s; cbn; intros H; first [discriminate H|reflexivity]. Qed.
Lemma SFltb_inf_r s y : finite y -> SFltb y (S754_infinity s) = negb s.
Proof. unfold finite; destruct y, s; cbn; intros H; first [discriminate H|reflexivity]. Qed.
Lemma SFleb_inf_l s y : finite y -> SFleb (S754_infinity s) y = s.
Proof. unfold finite; destruct y, s; cbn; intros H; first [discriminate H|reflexivity]. Qed.

Lemma as_signed_finite t back s x :
  fits t s -> float_ok t back -> finite back -> float_ok t x -> finite x ->
  as_signed t back s x = Ret (clamp s (nearest_int (nearest t (real x * real back)))).
Proof.
  intros Ft Ob Fb Ox Fx. destruct (fits_range t s Ft) as (M1 & M2 & M3 & M4 & M5). set (B := (2 ^ (8 * Z.of_N (scalar_size s)))%Z) in *.
  destruct (of_int_exact t (scalar_min s)) as (Imo & Imf & Imr & Ims); [lia|].
  destruct (of_int_exact t (scalar_max s)) as (Ixo & Ixf & Ixr & Ixs); [lia|].
  unfold as_signed. destruct (fmul_rounds t x back Ox Ob Fx Fb) as (V & C). set (y := fmul t x back) in *.
  set (p := nearest t (real x * real back)) in *.
  destruct C as [(_ & Cr & Cf & Cs)|(Cl & Ce)].
  - destruct (fround_real t y V Cf) as (Ro & Rf & Rr & _). set (z := fround t y) in *. rewrite Cr in Rr. set (n := nearest_int p) in *.
    rewrite (SFltb_real t) by assumption. rewrite (SFltb_real t) by assumption. rewrite Rr, Imr, Ixr.
    unfold clamp. destruct (Rlt_bool_spec (IZR n) (IZR (scalar_min s))) as [L|L].
    + apply lt_IZR in L. f_equal. lia.
    + apply le_IZR in L. destruct (Rlt_bool_spec (IZR (scalar_max s)) (IZR n)) as [L2|L2].
      * apply lt_IZR in L2. f_equal. lia.
      * apply le_IZR in L2. unfold to_scalar. rewrite (ftrunc_int z n Rf Rr).
        replace ((scalar_min s <=? n) && (n <=? scalar_max s))%Z with true by (symmetry; apply andb_true_iff; lia). cbn. f_equal. lia.
  - rewrite Ce. cbn [fround]. pose proof (sign_mul x back Fx Fb) as Sg. rewrite SFltb_inf_l by exact Imf. rewrite SFltb_inf_r by exact Ixf. unfold clamp.
    destruct (xorb (sign_SF x) (sign_SF back)); cbn [negb].
    + apply (nearest_le t) in Sg. rewrite nearest_0 in Sg. fold p in Sg. rewrite Rabs_left1 in Cl by exact Sg.
      assert (- scalar_min s <= nearest_int (- p))%Z by (apply (big_int t); [lia|exact Cl]). rewrite nearest_int_opp in H. f_equal. lia.
    + apply (nearest_le t) in Sg. rewrite nearest_0 in Sg. fold p in Sg. rewrite Rabs_pos_eq in Cl by exact Sg.
      assert (scalar_max s <= nearest_int p)%Z by (apply (big_int t); [lia|exact Cl]). f_equal. lia.
Qed.

Lemma as_unsigned_finite nn t back s x :
  fits t s -> scalar_signed s = false -> float_ok t back -> finite back -> float_ok t x -> finite x ->
  as_unsigned nn t back s x = Ret (clamp s (nearest_int (nearest t (real x * real back)))).
Proof.
  intros Ft Us Ob Fb Ox Fx. destruct (fits_range t s Ft) as (M1 & M2 & M3 & M4 & M5). set (B := (2 ^ (8 * Z.of_N (scalar_size s)))%Z) in *.
  assert (M0 : scalar_min s = 0%Z) by (unfold scalar_min; now rewrite Us).
  destruct (of_int_exact t (scalar_max s)) as (Ixo & Ixf & Ixr & Ixs); [lia|].
  unfold as_unsigned. destruct (fmul_rounds t x back Ox Ob Fx Fb) as (V & C). set (y := fmul t x back) in *.
  set (p := nearest t (real x * real back)) in *. pose proof (sign_mul x back Fx Fb) as Sg.
  set (sg := xorb (sign_SF x) (sign_SF back)) in *.
  destruct C as [(_ & Cr & Cf & Cs)|(Cl & Ce)].
  - destruct (fround_real t y V Cf) as (Ro & Rf & Rr & Rs). set (z := fround t y) in *. rewrite Cr in Rr. set (n := nearest_int p) in *.
    assert (Sz : is_sign_negative nn z = sg) by (rewrite <- Cs, <- Rs; destruct z; try discriminate Rf; reflexivity). rewrite Sz.
    unfold clamp. rewrite M0. clearbody sg. destruct sg; cbn [negb].
    + apply (nearest_le t) in Sg. rewrite nearest_0 in Sg. fold p in Sg. apply nearest_int_le in Sg. rewrite (nearest_int_IZR 0) in Sg. fold n in Sg. f_equal. lia.
    + apply (nearest_le t) in Sg. rewrite nearest_0 in Sg. fold p in Sg. apply nearest_int_le in Sg. rewrite (nearest_int_IZR 0) in Sg. fold n in Sg.
      rewrite (SFleb_real t) by assumption. rewrite Rr, Ixr. destruct (Rle_bool_spec (IZR n) (IZR (scalar_max s))) as [L|L].
      * apply le_IZR in L. unfold to_scalar. rewrite (ftrunc_int z n Rf Rr).
        replace ((scalar_min s <=? n) && (n <=? scalar_max s))%Z with true by (symmetry; apply andb_true_iff; lia). cbn. f_equal. lia.
      * apply lt_IZR in L. f_equal. lia.
  - rewrite Ce. cbn [fround is_sign_negative]. rewrite SFleb_inf_l by exact Ixf. unfold clamp. rewrite M0. clearbody sg.
    destruct sg; cbn [negb].
    + apply (nearest_le t) in Sg. rewrite nearest_0 in Sg. fold p in Sg. apply nearest_int_le in Sg. rewrite (nearest_int_IZR 0) in Sg. f_equal. lia.
    + apply (nearest_le t) in Sg. rewrite nearest_0 in Sg. fold p in Sg. rewrite Rabs_pos_eq in Cl by exact Sg.
      assert (scalar_max s <= nearest_int p)%Z by (apply (big_int t); [lia|exact Cl]). f_equal. lia.
Qed.

(** ** Error bounds *)

Definition u (t : fty) : R := bpow radix2 (- fprec t).
Lemma u_pos t : 0 < u t. Proof. apply bpow_gt_0. Qed.
Lemma u_small t : u t <= / 16777216.
Proof.
  unfold u. replace (/ 16777216) with (bpow radix2 (-24)) by (cbn; lra). apply bpow_le. destruct t; cbn; lia.
Qed.
Lemma nearest_rel t r : bpow radix2 (2 - femax t) <= Rabs r -> Rabs (nearest t r - r) <= u t * Rabs r.
Proof.
  intros H. unfold nearest, u.
  pose proof (relative_error_N_FLT radix2 (SpecFloat.emin (fprec t) (femax t)) (fprec t) (fprec_gt_0 t) (fun x => negb (Z.even x)) r) as E.
  replace (bpow radix2 (- fprec t)) with (/ 2 * bpow radix2 (- fprec t + 1)).
  - apply E. apply Rle_trans with (2 := H). apply bpow_le. destruct t; vm_compute; discriminate.
  - rewrite bpow_plus. change (bpow radix2 1) with 2. lra.
Qed.
Lemma nearest_abs t r : Rabs (nearest t r - r) <= u t * Rabs r + bpow radix2 (-140).
Proof.
  destruct (error_N_FLT radix2 (SpecFloat.emin (fprec t) (femax t)) (fprec t) (fprec_gt_0 t) (fun x => negb (Z.even x)) r) as (eps & eta & He & Hn & _ & E).
  unfold nearest. change (round radix2 (SpecFloat.fexp (fprec t) (femax t)) ZnearestE r) with
    (round radix2 (FLT_exp (SpecFloat.emin (fprec t) (femax t)) (fprec t)) (Znearest (fun x => negb (Z.even x))) r). rewrite E.
  replace (r * (1 + eps) + eta - r) with (r * eps + eta) by ring.
  apply Rle_trans with (1 := Rabs_triang _ _). rewrite Rabs_mult. apply Rplus_le_compat.
  - rewrite Rmult_comm. apply Rmult_le_compat_r; [apply Rabs_pos|]. apply Rle_trans with (1 := He). unfold u.
    replace (bpow radix2 (- fprec t)) with (/ 2 * bpow radix2 (- fprec t + 1)) by (rewrite bpow_plus; change (bpow radix2 1) with 2; lra). lra.
  - apply Rle_trans with (1 := Hn). apply Rle_trans with (bpow radix2 (SpecFloat.emin (fprec t) (femax t))).
    + pose proof (bpow_gt_0 radix2 (SpecFloat.emin (fprec t) (femax t))). lra.
    + apply bpow_le. destruct t; vm_compute; discriminate.
Qed.

(** ** Literals and scales *)

Lemma powerRZ_pow e : (0 <= e)%Z -> powerRZ 10 e = IZR (10 ^ e).
Proof.
  intros H. destruct e as [|p|p]; [reflexivity| |lia]. cbn [powerRZ]. rewrite <- (positive_nat_Z p), <- pow_IZR. reflexivity.
Qed.
Lemma powerRZ_neg e : (e < 0)%Z -> powerRZ 10 e = / IZR (10 ^ (- e)).
Proof.
  intros H. destruct e as [|p|p]; [lia|lia|]. cbn [powerRZ Z.opp]. f_equal. rewrite <- (positive_nat_Z p), <- pow_IZR. reflexivity.
Qed.
Lemma lit_rounds t m e : rounds_to t (decimal m e) false (lit t m e).
Proof.
  unfold lit, decimal. destruct (Z.leb_spec 0 e) as [H|H].
  - pose proof (of_int_rounds t (Zpos m * 10 ^ e)) as R. rewrite mult_IZR in R. rewrite powerRZ_pow by exact H.
    replace (Zpos m * 10 ^ e <? 0)%Z with false in R; [exact R|]. symmetry. apply Z.ltb_ge. apply Z.mul_nonneg_nonneg; [lia|apply Z.pow_nonneg; lia].
  - pose proof (fdiv_rounds t false m 0 false (Z.to_pos (10 ^ (- e))) 0) as R. cbn [xorb] in R.
    unfold real, SF2R in R. cbn [cond_Zopp] in R. rewrite !F2R_0 in R. rewrite Z2Pos.id in R by (apply Z.pow_pos_nonneg; lia).
    rewrite powerRZ_neg by exact H. exact R.
Qed.

Lemma nearest_bound t r : bpow radix2 (- scale_exp t) <= r <= bpow radix2 (scale_exp t) -> r / 2 <= nearest t r <= 2 * r.
Proof.
  intros H. pose proof (bpow_gt_0 radix2 (- scale_exp t)) as P. assert (N0 : 0 < r) by lra.
  pose proof (nearest_rel t r) as E. rewrite Rabs_pos_eq in E by lra.
  assert (bpow radix2 (2 - femax t) <= r) by (apply Rle_trans with (bpow radix2 (- scale_exp t)); [apply bpow_le; destruct t; cbn; lia|lra]).
  specialize (E H0). apply Rabs_le_inv in E. pose proof (u_small t). pose proof (u_pos t). nra.
Qed.
Lemma scale_exp_emax t : 2 * bpow radix2 (scale_exp t) < bpow radix2 (femax t).
Proof.
  replace (2 * bpow radix2 (scale_exp t)) with (bpow radix2 (scale_exp t + 1)) by (rewrite bpow_plus; change (bpow radix2 1) with 2; lra).
  apply bpow_lt. destruct t; reflexivity.
Qed.
Definition in_scale (t : fty) (r : R) : Prop := bpow radix2 (- scale_exp t) <= r <= bpow radix2 (scale_exp t).
Lemma lit_exact t m e : scale_ok t m e ->
  float_ok t (lit t m e) /\ finite (lit t m e) /\ sign_SF (lit t m e) = false /\ real (lit t m e) = nearest t (decimal m e) /\
  in_scale t (real (lit t m e)).
Proof.
  intros H. unfold scale_ok in H. pose proof (bpow_gt_0 radix2 (- scale_exp t)). pose proof (bpow_gt_0 radix2 (scale_exp t)).
  pose proof (nearest_bound t (decimal m e) ltac:(lra)) as B. pose proof (scale_exp_emax t). unfold in_scale.
  destruct (lit_rounds t m e) as (V & [(_ & R & F & S)|(O & _)]).
  - rewrite R. do 4 (split; [auto|]). lra.
  - exfalso. rewrite Rabs_pos_eq in O by lra. lra.
Qed.

Lemma in_scale_inv t l : in_scale t l -> in_scale t (1 / l).
Proof.
  unfold in_scale. intros H. pose proof (bpow_gt_0 radix2 (- scale_exp t)) as P. pose proof (bpow_gt_0 radix2 (scale_exp t)) as P2.
  assert (E : bpow radix2 (- scale_exp t) = / bpow radix2 (scale_exp t)) by apply bpow_opp.
  unfold Rdiv. rewrite Rmult_1_l. split; [rewrite E; apply Rinv_le; lra|].
  replace (bpow radix2 (scale_exp t)) with (/ bpow radix2 (- scale_exp t)) by (rewrite E; apply Rinv_inv). apply Rinv_le; lra.
Qed.
Lemma back_exact t L :
  float_ok t L -> finite L -> sign_SF L = false -> in_scale t (real L) ->
  let back := fdiv t (of_int t 1) L in
  float_ok t back /\ finite back /\ real back = nearest t (1 / real L) /\ sign_SF back = false.
Proof.
  intros O F S B back. pose proof (bpow_gt_0 radix2 (- scale_exp t)) as P.
  destruct L as [s| | |s m e]; try discriminate F. { destruct B as [B _]. cbn in B. cbn in P. lra. }
  cbn [sign_SF] in S. subst s.
  assert (One : exists m1 e1, of_int t 1 = S754_finite false m1 e1) by (destruct t; vm_compute; eauto).
  destruct One as (m1 & e1 & E1). destruct (of_int_exact t 1) as (_ & _ & R1 & _); [destruct t; vm_compute; discriminate|].
  pose proof (fdiv_rounds t false m1 e1 false m e) as R. rewrite <- E1, R1 in R. cbn [xorb] in R. fold back in R.
  set (l := real (S754_finite false m e)) in *. apply in_scale_inv in B.
  pose proof (nearest_bound t (1 / l) B) as B3. unfold in_scale in B.
  destruct R as (V & [(_ & R & F' & S')|(O' & _)]); [auto|]. exfalso. rewrite Rabs_pos_eq in O' by lra.
  pose proof (scale_exp_emax t). lra.
Qed.

(** What the conversion of the builders computes from a finite value *)
Lemma scale_back_exact nn t L s x :
  fits t s -> float_ok t L -> finite L -> sign_SF L = false -> in_scale t (real L) ->
  float_ok t x -> finite x ->
  scale_back nn t L s x = Ret (clamp s (nearest_int (nearest t (real x * nearest t (1 / real L))))).
Proof.
  intros Ft O F S B Ox Fx. destruct (back_exact t L O F S B) as (Bo & Bf & Br & _). unfold scale_back.
  destruct (scalar_signed s) eqn:Sg.
  - rewrite as_signed_finite by assumption. now rewrite Br.
  - rewrite as_unsigned_finite by assumption. now rewrite Br.
Qed.

(** ** The values of the getters *)

Lemma int_bound_emax t z L : (Z.abs z <= 2 ^ (fprec t - 8))%Z -> in_scale t L -> Rabs (IZR z * L) <= bpow radix2 (femax t) / 4.
Proof.
  intros Hz HL. rewrite Rabs_mult. unfold in_scale in HL. pose proof (bpow_gt_0 radix2 (- scale_exp t)). rewrite (Rabs_pos_eq L) by lra.
  apply Rle_trans with (bpow radix2 (fprec t - 8) * bpow radix2 (scale_exp t)).
  - apply Rmult_le_compat; [apply Rabs_pos|lra| |lra]. rewrite <- abs_IZR. rewrite <- IZR_Zpower by (destruct t; cbn; lia). apply IZR_le. exact Hz.
  - rewrite <- bpow_plus. replace (bpow radix2 (femax t) / 4) with (bpow radix2 (femax t - 2)).
    + apply bpow_le. destruct t; cbn; lia.
    + unfold Zminus. rewrite bpow_plus. change (bpow radix2 (-(2))) with (/ 4). lra.
Qed.
Lemma int_lower t z L : z <> 0%Z -> in_scale t L -> bpow radix2 (- scale_exp t) <= Rabs (IZR z * L).
Proof.
  intros Hz HL. rewrite Rabs_mult. unfold in_scale in HL. pose proof (bpow_gt_0 radix2 (- scale_exp t)). rewrite (Rabs_pos_eq L) by lra.
  rewrite <- abs_IZR. assert (1 <= IZR (Z.abs z)) by (apply (IZR_le 1); lia). nra.
Qed.

(** The getter of a scaled field returns the float nearest to raw value times (float) scale. *)
Lemma getter_exact t z m e : (Z.abs z <= 2 ^ (fprec t - 8))%Z -> scale_ok t m e ->
  let x := fmul t (of_int t z) (lit t m e) in
  float_ok t x /\ finite x /\ real x = nearest t (IZR z * nearest t (decimal m e)).
Proof.
  intros Hz Hs x. destruct (lit_exact t m e Hs) as (Lo & Lf & Ls & Lr & Lb).
  assert (Hz2 : (Z.abs z <= 2 ^ fprec t)%Z) by (apply Z.le_trans with (1 := Hz); apply Z.pow_le_mono_r; destruct t; cbn; lia).
  destruct (of_int_exact t z Hz2) as (Zo & Zf & Zr & Zs).
  destruct (fmul_rounds t _ _ Zo Lo Zf Lf) as (V & C). fold x in V, C. rewrite Zr, <- Lr in *. split; [exact V|].
  destruct C as [(_ & R & F & _)|(O & _)]; [auto|]. exfalso.
  pose proof (int_bound_emax t z _ Hz Lb) as A. pose proof (nearest_abs t (IZR z * real (lit t m e))) as E.
  pose proof (Rabs_triang_inv (nearest t (IZR z * real (lit t m e))) (IZR z * real (lit t m e))) as T.
  pose proof (u_small t). pose proof (u_pos t). pose proof (Rabs_pos (IZR z * real (lit t m e))).
  assert (bpow radix2 (-140) <= bpow radix2 (femax t) / 4).
  { apply Rle_trans with (bpow radix2 (femax t - 2)); [apply bpow_le; destruct t; cbn; lia|]. unfold Zminus. rewrite bpow_plus. change (bpow radix2 (-(2))) with (/ 4). lra. }
  pose proof (bpow_gt_0 radix2 (femax t)). nra.
Qed.
