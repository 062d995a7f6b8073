(** * Properties of the scaled fields (C45, C46) *)
From Coq Require Import ZArith Reals Lia Lra Bool SpecFloat.
From Flocq Require Import Core.
From Flocq.IEEE754 Require Import BinarySingleNaN.
From Verif Require Import Base PackDesc Floats SpecReal ProofFloat.
Open Scope R_scope.

(** ** The numbers there are *)

(** The finite numbers of [f32] and [f64] other than the zeros are those of IEEE 754: a mantissa of exactly 24 (53) binary
    digits with an exponent from -149 to 104 (-1074 to 971), or a shorter mantissa with the least exponent. *)
Theorem float_formats :
  forall s m e,
    (float_ok FTy32 (S754_finite s m e) <->
       ((2 ^ 23 <= Zpos m < 2 ^ 24)%Z /\ (-149 <= e <= 104)%Z) \/ ((Zpos m < 2 ^ 23)%Z /\ e = (-149)%Z)) /\
    (float_ok FTy64 (S754_finite s m e) <->
       ((2 ^ 52 <= Zpos m < 2 ^ 53)%Z /\ (-1074 <= e <= 971)%Z) \/ ((Zpos m < 2 ^ 52)%Z /\ e = (-1074)%Z)).
Proof.
  intros s m e.
  assert (D : forall k, (0 <= k)%Z -> (Zpos (digits2_pos m) <= k <-> Zpos m < 2 ^ k)%Z).
  { intros k K. change (digits2_pos m) with (Digits.digits2_pos m). rewrite Digits.Zpos_digits2_pos. split; intros H.
    - exact (Digits.Zpower_gt_Zdigits radix2 k (Zpos m) H).
    - exact (Digits.Zdigits_le_Zpower radix2 k (Zpos m) H). }
  pose proof (D 23 ltac:(lia))%Z. pose proof (D 24 ltac:(lia))%Z. pose proof (D 52 ltac:(lia))%Z. pose proof (D 53 ltac:(lia))%Z. clear D.
  unfold float_ok, valid_binary, bounded, canonical_mantissa, fexp, emin. cbn [fprec femax].
  rewrite !andb_true_iff, !Z.leb_le, <- !Zeq_is_eq_bool. set (d := Zpos (digits2_pos m)) in *.
  generalize dependent (2 ^ 23)%Z. generalize dependent (2 ^ 24)%Z. generalize dependent (2 ^ 52)%Z. generalize dependent (2 ^ 53)%Z.
  intros a A b B c C f F. lia.
Qed.
Example float_formats_ex :
  float_ok FTy32 (S754_finite false (2 ^ 24 - 1) 104) /\ float_ok FTy32 (S754_finite true 1 (-149)) /\
  float_ok FTy64 (S754_finite false (2 ^ 53 - 1) 971) /\ ~ float_ok FTy64 (S754_finite false (2 ^ 53 - 1) 972) /\
  fadd FTy32 (S754_finite false (2 ^ 24 - 1) 104) (S754_finite false (2 ^ 23) 80) = S754_infinity false.
Proof. unfold float_ok. vm_compute. split; [|split; [|split; [|split]]]; try reflexivity; discriminate. Qed.

(** ** What getters return *)

(** The getter of a field with raw value [z] and scale [m * 10^e] returns a number within relative distance
    [2^(2 - precision)] of [z * m * 10^e]. *)
Theorem getter_accurate :
  forall t s m e z, fits t s -> (scalar_min s <= z <= scalar_max s)%Z -> scale_ok t m e ->
    let x := fmul t (of_int t z) (lit t m e) in
    float_ok t x /\ finite x /\
    Rabs (real x - IZR z * decimal m e) <= bpow radix2 (2 - fprec t) * Rabs (IZR z * decimal m e).
Proof.
  intros t s m e z Ft Hz Hs x. destruct (fits_range t s Ft) as (M1 & M2 & M3 & M4 & M5).
  assert (Za : (Z.abs z <= 2 ^ (fprec t - 8))%Z).
  { apply Z.le_trans with (2 ^ (8 * Z.of_N (scalar_size s)))%Z; [lia|]. apply Z.pow_le_mono_r; [lia|]. unfold fits in Ft. lia. }
  destruct (getter_exact t z m e Za Hs) as (O & F & R). fold x in O, F, R. split; [exact O|]. split; [exact F|]. rewrite R.
  destruct (lit_exact t m e Hs) as (_ & _ & _ & Lr & Lb). rewrite Lr in Lb.
  destruct (Z.eq_dec z 0) as [->|Nz]. { rewrite !Rmult_0_l, nearest_0, Rabs_R0. rewrite Rminus_0_r, Rabs_R0. lra. }
  pose proof (int_lower t z _ Nz Lb) as Lo. set (L := nearest t (decimal m e)) in *. unfold scale_ok in Hs.
  pose proof (bpow_gt_0 radix2 (- scale_exp t)) as P. pose proof (bpow_gt_0 radix2 (scale_exp t)) as P2.
  assert (Mn : bpow radix2 (2 - femax t) <= bpow radix2 (- scale_exp t)) by (apply bpow_le; destruct t; cbn; lia).
  assert (E1 : Rabs (L - decimal m e) <= u t * Rabs (decimal m e)) by (apply nearest_rel; rewrite Rabs_pos_eq by lra; lra).
  assert (E2 : Rabs (nearest t (IZR z * L) - IZR z * L) <= u t * Rabs (IZR z * L)) by (apply nearest_rel; lra).
  set (A := Rabs (IZR z)) in *. assert (A0 : 0 <= A) by apply Rabs_pos.
  assert (E3 : Rabs (IZR z * L - IZR z * decimal m e) <= u t * Rabs (IZR z * decimal m e)).
  { rewrite <- Rmult_minus_distr_l, !Rabs_mult. fold A. rewrite Rmult_comm, (Rmult_comm A), <- Rmult_assoc. apply Rmult_le_compat_r; assumption. }
  pose proof (u_pos t) as U0. pose proof (u_small t) as U1.
  assert (E4 : Rabs (IZR z * L) <= (1 + u t) * Rabs (IZR z * decimal m e)).
  { pose proof (Rabs_triang_inv (IZR z * L) (IZR z * decimal m e)). lra. }
  replace (bpow radix2 (2 - fprec t)) with (4 * u t) by (unfold u, Zminus; rewrite bpow_plus; change (bpow radix2 2) with 4; ring).
  pose proof (Rabs_pos (IZR z * decimal m e)).
  apply Rle_trans with (Rabs (nearest t (IZR z * L) - IZR z * L) + Rabs (IZR z * L - IZR z * decimal m e)).
  - replace (nearest t (IZR z * L) - IZR z * decimal m e) with ((nearest t (IZR z * L) - IZR z * L) + (IZR z * L - IZR z * decimal m e)) by ring. apply Rabs_triang.
  - apply Rmult_le_compat_l with (r := u t) in E4; [|lra]. set (D := Rabs (IZR z * decimal m e)) in *.
    assert (0 <= u t * D) by (apply Rmult_le_pos; lra). assert (u t * ((1 + u t) * D) <= 2 * (u t * D)) by nra. lra.
Qed.

(** ** C45 *)

(** Reading a scaled field and giving the value to the builder returns the same raw value. *)
Theorem scaled_round_trip :
  forall nan_neg t s m e z, fits t s -> (scalar_min s <= z <= scalar_max s)%Z -> scale_ok t m e ->
    scale_back nan_neg t (lit t m e) s (fmul t (of_int t z) (lit t m e)) = Ret z.
Proof.
  intros nn t s m e z Ft Hz Hs. destruct (fits_range t s Ft) as (M1 & M2 & M3 & M4 & M5).
  assert (Z2 : (2 ^ (8 * Z.of_N (scalar_size s)) <= 2 ^ (fprec t - 8))%Z) by (apply Z.pow_le_mono_r; [lia|unfold fits in Ft; lia]).
  assert (Za : (Z.abs z <= 2 ^ (fprec t - 8))%Z) by lia.
  destruct (getter_exact t z m e Za Hs) as (O & F & R).
  destruct (lit_exact t m e Hs) as (Lo & Lf & Ls & Lr & Lb). rewrite scale_back_exact by assumption. rewrite R, <- Lr. set (L := real (lit t m e)) in *.
  assert (N : nearest_int (nearest t (nearest t (IZR z * L) * nearest t (1 / L))) = z); [|rewrite N; unfold clamp; f_equal; lia].
  destruct (Z.eq_dec z 0) as [->|Nz]. { rewrite Rmult_0_l, nearest_0, Rmult_0_l, nearest_0. apply (nearest_int_IZR 0). }
  pose proof (bpow_gt_0 radix2 (- scale_exp t)) as P. pose proof (bpow_gt_0 radix2 (scale_exp t)) as P2.
  assert (Mn : bpow radix2 (2 - femax t) <= bpow radix2 (- scale_exp t)) by (apply bpow_le; destruct t; cbn; lia).
  pose proof (int_lower t z _ Nz Lb) as Low. pose proof (in_scale_inv t L Lb) as Ib.
  assert (E1 : Rabs (nearest t (IZR z * L) - IZR z * L) <= u t * Rabs (IZR z * L)) by (apply nearest_rel; lra).
  unfold in_scale in Lb, Ib. assert (E2 : Rabs (nearest t (1 / L) - 1 / L) <= u t * Rabs (1 / L)) by (apply nearest_rel; rewrite Rabs_pos_eq by lra; lra).
  pose proof (u_pos t) as U0. pose proof (u_small t) as U1.
  assert (L0 : 0 < L) by lra.
  (* relative errors *)
  assert (Rel : forall a b, Rabs (b - a) <= u t * Rabs a -> exists d, Rabs d <= u t /\ b = a * (1 + d)).
  { intros a b H. destruct (Req_dec a 0) as [->|Na].
    - exists 0. rewrite Rabs_R0 in *. split; [lra|]. rewrite Rminus_0_r, Rmult_0_r in H. rewrite Rmult_0_l.
      pose proof (Rabs_pos b). destruct (Req_dec b 0) as [->|Nb]; [reflexivity|]. apply Rabs_pos_lt in Nb. lra.
    - exists ((b - a) / a). split; [|field; exact Na]. unfold Rdiv. rewrite Rabs_mult, Rabs_inv.
      pose proof (Rabs_pos_lt a Na) as Pa. apply Rmult_le_reg_r with (Rabs a); [exact Pa|]. rewrite Rmult_assoc, Rinv_l by lra. lra. }
  destruct (Rel _ _ E1) as (d1 & D1 & ->). destruct (Rel _ _ E2) as (d2 & D2 & ->).
  apply Rabs_le_inv in D1. apply Rabs_le_inv in D2.
  replace (IZR z * L * (1 + d1) * (1 / L * (1 + d2))) with (IZR z * ((1 + d1) * (1 + d2))) by (field; lra).
  assert (Zl : 1 <= Rabs (IZR z)) by (rewrite <- abs_IZR; apply (IZR_le 1); lia).
  assert (G : / 2 <= (1 + d1) * (1 + d2)) by nra.
  assert (E3 : Rabs (nearest t (IZR z * ((1 + d1) * (1 + d2))) - IZR z * ((1 + d1) * (1 + d2))) <= u t * Rabs (IZR z * ((1 + d1) * (1 + d2)))).
  { apply nearest_rel. rewrite Rabs_mult, (Rabs_pos_eq ((1 + d1) * (1 + d2))) by lra. apply Rle_trans with (/ 2); [|nra].
    change (/ 2) with (bpow radix2 (-1)). apply bpow_le. destruct t; cbn; lia. }
  destruct (Rel _ _ E3) as (d3 & D3 & ->). apply Rabs_le_inv in D3.
  unfold nearest_int. apply Znearest_imp.
  replace (IZR z * ((1 + d1) * (1 + d2)) * (1 + d3) - IZR z) with (IZR z * ((1 + d1) * (1 + d2) * (1 + d3) - 1)) by ring.
  rewrite Rabs_mult.
  assert (Zu : Rabs (IZR z) * u t <= / 256).
  { apply Rle_trans with (bpow radix2 (fprec t - 8) * u t).
    - apply Rmult_le_compat_r; [lra|]. rewrite <- abs_IZR. rewrite <- IZR_Zpower by (destruct t; cbn; lia). apply IZR_le. exact Za.
    - unfold u. rewrite <- bpow_plus. replace (fprec t - 8 + - fprec t)%Z with (-8)%Z by lia. cbn. lra. }
  assert (D4 : Rabs ((1 + d1) * (1 + d2) * (1 + d3) - 1) <= 4 * u t).
  { assert (A1 : Rabs (d1 + d2 + d1 * d2) <= 2.5 * u t) by (apply Rabs_le; nra). apply Rabs_le_inv in A1.
    replace ((1 + d1) * (1 + d2) * (1 + d3) - 1) with ((d1 + d2 + d1 * d2) * (1 + d3) + d3) by ring. set (w := d1 + d2 + d1 * d2) in *. apply Rabs_le. nra. }
  pose proof (Rabs_pos (IZR z)). pose proof (Rabs_pos ((1 + d1) * (1 + d2) * (1 + d3) - 1)). nra.
Qed.

(** The bounds on scale and type hold in particular for a scale of 0.0001 with a 32-bit integer and [f64], and of 0.1
    with a 16-bit integer and [f32]. *)
Definition scale_okb (t : fty) (m : positive) (e : Z) : bool :=
  if (0 <=? e)%Z then (2 * (Zpos m * 10 ^ e) <=? 2 ^ scale_exp t)%Z
  else (2 * 10 ^ (- e) <=? Zpos m * 2 ^ scale_exp t)%Z && (2 * Zpos m <=? 2 ^ scale_exp t * 10 ^ (- e))%Z.
Lemma scale_okb_ok t m e : scale_okb t m e = true -> scale_ok t m e.
Proof.
  unfold scale_okb, scale_ok, decimal. set (K := (2 ^ scale_exp t)%Z).
  assert (EK : bpow radix2 (scale_exp t) = IZR K) by (rewrite <- IZR_Zpower by (destruct t; cbn; lia); reflexivity).
  assert (K1 : (2 <= K)%Z) by (unfold K; destruct t; cbn [scale_exp]; vm_compute; discriminate).
  rewrite bpow_opp, EK. assert (KR : 2 <= IZR K) by (apply IZR_le; exact K1). pose proof (Rinv_0_lt_compat (IZR K) ltac:(lra)) as I0.
  assert (I1 : / IZR K * IZR K = 1) by (apply Rinv_l; lra).
  destruct (Z.leb_spec 0 e) as [He|He]; intros H.
  - rewrite powerRZ_pow by exact He. rewrite <- mult_IZR. apply Z.leb_le in H. apply IZR_le in H. rewrite mult_IZR in H.
    assert (1 <= Zpos m * 10 ^ e)%Z by (assert (0 < 10 ^ e)%Z by (apply Z.pow_pos_nonneg; lia); nia). apply IZR_le in H0. split; [nra|lra].
  - rewrite powerRZ_neg by exact He. apply andb_true_iff in H. destruct H as [H1 H2]. apply Z.leb_le in H1, H2. set (D := (10 ^ (- e))%Z) in *.
    assert (D0 : (0 < D)%Z) by (apply Z.pow_pos_nonneg; lia). apply IZR_lt in D0. apply IZR_le in H1, H2. rewrite !mult_IZR in H1, H2.
    assert (J : / IZR D * IZR D = 1) by (apply Rinv_l; lra). pose proof (Rinv_0_lt_compat _ D0) as J0. split.
    + apply Rmult_le_reg_r with (IZR D * IZR K); [nra|].
      replace (2 * / IZR K * (IZR D * IZR K)) with (2 * IZR D * (/ IZR K * IZR K)) by ring.
      replace (IZR (Zpos m) * / IZR D * (IZR D * IZR K)) with (IZR (Zpos m) * IZR K * (/ IZR D * IZR D)) by ring. rewrite I1, J. lra.
    + apply Rmult_le_reg_r with (2 * IZR D); [lra|].
      replace (IZR (Zpos m) * / IZR D * (2 * IZR D)) with (2 * IZR (Zpos m) * (/ IZR D * IZR D)) by ring. rewrite J. lra.
Qed.
Example scaled_round_trip_ex :
  fits FTy64 U32 /\ scale_ok FTy64 1 (-4) /\ fits FTy32 U16 /\ scale_ok FTy32 1 (-1) /\ ~ fits FTy32 U32.
Proof.
  repeat split; try (apply scale_okb_ok; reflexivity); try (unfold fits; vm_compute; discriminate). unfold fits. cbn. intros H. apply H. reflexivity.
Qed.

(** ** C46 *)

(** A finite value is divided by the scale, rounded to the nearest integer (up to the rounding errors of the three
    floating point operations) and put into the range of the type. *)
Theorem scale_back_finite :
  forall nan_neg t s m e x, fits t s -> scale_ok t m e -> float_ok t x -> finite x ->
    exists k, scale_back nan_neg t (lit t m e) s x = Ret k /\ (scalar_min s <= k <= scalar_max s)%Z /\
      Rabs (IZR k - clampR s (real x / decimal m e)) <= / 2 + bpow radix2 (8 * Z.of_N (scalar_size s) + 4 - fprec t).
Proof.
  intros nn t s m e x Ft Hs Ox Fx. destruct (fits_range t s Ft) as (M1 & M2 & M3 & M4 & M5).
  destruct (lit_exact t m e Hs) as (Lo & Lf & Ls & Lr & Lb). rewrite scale_back_exact by assumption. rewrite Lr in *. set (L := nearest t (decimal m e)) in *.
  eexists. split; [reflexivity|]. split; [unfold clamp; lia|].
  pose proof (bpow_gt_0 radix2 (- scale_exp t)) as P. pose proof (bpow_gt_0 radix2 (scale_exp t)) as P2. unfold scale_ok in Hs.
  assert (Mn : bpow radix2 (2 - femax t) <= bpow radix2 (- scale_exp t)) by (apply bpow_le; destruct t; cbn; lia).
  pose proof (in_scale_inv t L Lb) as Ib. unfold in_scale in Lb, Ib.
  pose proof (u_pos t) as U0. pose proof (u_small t) as U1.
  set (D := decimal m e) in *. set (B := nearest t (1 / L)).
  assert (E0 : Rabs (L - D) <= u t * D) by (rewrite <- (Rabs_pos_eq D) at 2 by lra; apply nearest_rel; rewrite Rabs_pos_eq by lra; lra).
  assert (E2 : Rabs (B - 1 / L) <= u t * (1 / L)) by (rewrite <- (Rabs_pos_eq (1 / L)) at 2 by lra; apply nearest_rel; rewrite Rabs_pos_eq by lra; lra).
  pose proof (nearest_abs t (real x * B)) as E3. set (pq := nearest t (real x * B)) in *. set (q := real x / D).
  (* B * D is close to 1 *)
  assert (EB : Rabs (B * D - 1) <= 2.2 * u t).
  { apply Rabs_le_inv in E0. apply Rabs_le_inv in E2. assert (Bl : (1 - u t) * (1 / L) <= B <= (1 + u t) * (1 / L)) by lra.
    assert (Dl : (1 - u t) * D <= L <= (1 + u t) * D) by lra. assert (L0 : 0 < L) by lra. assert (D0 : 0 < D) by lra.
    assert (DL : (1 - 1.1 * u t) <= 1 / L * D <= 1 + 1.1 * u t).
    { assert (W : 1 / L * L = 1) by (field; lra). assert (W0 : 0 < 1 / L) by lra. set (w := 1 / L) in *.
      assert (UD : 0 <= u t * D) by nra. assert (UUD : 0 <= u t * (u t * D) <= / 100 * (u t * D)) by (split; nra).
      split.
      - apply Rmult_le_reg_r with L; [exact L0|]. replace (w * D * L) with (w * L * D) by ring. rewrite W.
        apply Rle_trans with ((1 - 1.1 * u t) * ((1 + u t) * D)); [apply Rmult_le_compat_l; lra|].
        replace ((1 - 1.1 * u t) * ((1 + u t) * D)) with (D - 0.1 * (u t * D) - 1.1 * (u t * (u t * D))) by lra. lra.
      - apply Rmult_le_reg_r with L; [exact L0|]. replace (w * D * L) with (w * L * D) by ring. rewrite W.
        apply Rle_trans with ((1 + 1.1 * u t) * ((1 - u t) * D)); [|apply Rmult_le_compat_l; lra].
        replace ((1 + 1.1 * u t) * ((1 - u t) * D)) with (D + 0.1 * (u t * D) - 1.1 * (u t * (u t * D))) by lra. lra. }
    assert (BD : (1 - u t) * (1 / L * D) <= B * D <= (1 + u t) * (1 / L * D)) by nra. apply Rabs_le. nra. }
  assert (Q : real x * B = q * (B * D)) by (unfold q; field; lra).
  assert (Q2 : Rabs (pq - q) <= 4 * u t * Rabs q + bpow radix2 (-140)).
  { replace (pq - q) with ((pq - real x * B) + q * (B * D - 1)) by (rewrite Q; ring). apply Rle_trans with (1 := Rabs_triang _ _). rewrite Rabs_mult.
    rewrite Q, Rabs_mult in E3. pose proof (Rabs_pos q) as Aq. pose proof (Rabs_pos (B * D)).
    assert (Rabs (B * D) <= 1.5) by (apply Rabs_le; apply Rabs_le_inv in EB; lra).
    rewrite <- Q in E3. assert (0 <= u t * Rabs q) by (apply Rmult_le_pos; lra). assert (u t * (Rabs q * Rabs (B * D)) <= 1.5 * (u t * Rabs q)) by (assert (0 <= u t * Rabs q) by (apply Rmult_le_pos; lra); nra).
    assert (Rabs q * Rabs (B * D - 1) <= 2.2 * (u t * Rabs q)) by nra. lra. }
  (* the two clamps *)
  set (n := nearest_int pq). pose proof (nearest_int_half pq) as Hn. fold n in Hn.
  set (W := bpow radix2 (8 * Z.of_N (scalar_size s))). assert (EW : IZR (2 ^ (8 * Z.of_N (scalar_size s))) = W) by (unfold W; rewrite <- IZR_Zpower by lia; reflexivity).
  assert (W1 : 256 <= W).
  { unfold W. change 256 with (bpow radix2 8). apply bpow_le. destruct s; cbn; lia. }
  assert (EE : bpow radix2 (8 * Z.of_N (scalar_size s) + 4 - fprec t) = 16 * (W * u t)).
  { unfold W, u. replace (8 * Z.of_N (scalar_size s) + 4 - fprec t)%Z with (8 * Z.of_N (scalar_size s) + - fprec t + 4)%Z by lia. rewrite bpow_plus, bpow_plus.
    change (bpow radix2 4) with 16. ring. }
  rewrite EE.
  assert (T : bpow radix2 (-140) <= W * u t).
  { unfold W, u. rewrite <- bpow_plus. apply bpow_le. destruct t, s; cbn; lia. }
  assert (Smin : - W <= IZR (scalar_min s)) by (rewrite <- EW, <- opp_IZR; apply IZR_le; lia).
  assert (Smax : IZR (scalar_max s) <= W) by (rewrite <- EW; apply IZR_le; lia).
  assert (Smm : IZR (scalar_min s) <= 0 /\ 0 < IZR (scalar_max s)) by (split; [apply (IZR_le _ 0); lia|apply (IZR_lt 0); lia]).
  assert (CC : IZR (clamp s n) = clampR s (IZR n)).
  { unfold clamp, clampR. destruct (Z.le_gt_cases (scalar_max s) n) as [A|A].
    - rewrite Z.min_l by lia. rewrite Rmin_left by (apply IZR_le; lia). rewrite Z.max_r by lia. rewrite Rmax_right by lra. reflexivity.
    - rewrite Z.min_r by lia. rewrite Rmin_right by (apply IZR_le; lia). destruct (Z.le_gt_cases (scalar_min s) n).
      + rewrite Z.max_r by lia. rewrite Rmax_right by (apply IZR_le; lia). reflexivity.
      + rewrite Z.max_l by lia. rewrite Rmax_left by (apply IZR_le; lia). reflexivity. }
  rewrite CC.
  assert (Lip : forall a b, Rabs (clampR s a - clampR s b) <= Rabs (a - b)).
  { intros a b. unfold clampR, Rmax, Rmin. repeat destruct (Rle_dec _ _); unfold Rabs; repeat destruct (Rcase_abs _); lra. }
  destruct (Rle_lt_dec (Rabs q) (2 * W)) as [Sm|Bg].
  - apply Rle_trans with (1 := Lip _ _). replace (IZR n - q) with ((IZR n - pq) + (pq - q)) by ring. apply Rle_trans with (1 := Rabs_triang _ _).
    assert (u t * Rabs q <= 2 * (W * u t)) by nra. assert (0 <= W * u t) by nra. lra.
  - assert (UB : 4 * u t * Rabs q <= Rabs q / 8) by nra. assert (T2 : bpow radix2 (-140) <= 1).
    { change 1 with (bpow radix2 0). apply bpow_le. lia. }
    assert (0 <= W * u t) by nra.
    assert (Z0 : clampR s (IZR n) - clampR s q = 0); [|rewrite Z0, Rabs_R0; lra].
    apply Rabs_le_inv in Q2. apply Rabs_le_inv in Hn.
    destruct (Rle_lt_dec 0 q) as [Qp|Qn].
    + rewrite (Rabs_pos_eq q) in * by exact Qp. unfold clampR. rewrite !Rmin_left by lra. ring.
    + rewrite (Rabs_left q) in * by exact Qn. unfold clampR. rewrite !Rmin_right by lra. rewrite !Rmax_left by lra. ring.
Qed.
(** The same, exactly: the integer nearest (ties away from zero) to the float nearest to [x] times the float nearest to
    the inverse of the float nearest to the scale; then put into the range. *)
Theorem scale_back_formula :
  forall nan_neg t s m e x, fits t s -> scale_ok t m e -> float_ok t x -> finite x ->
    scale_back nan_neg t (lit t m e) s x =
    Ret (clamp s (nearest_int (nearest t (real x * nearest t (1 / nearest t (decimal m e)))))).
Proof.
  intros nn t s m e x Ft Hs Ox Fx. destruct (lit_exact t m e Hs) as (Lo & Lf & Ls & Lr & Lb). rewrite scale_back_exact by assumption. now rewrite Lr.
Qed.
(** Infinities go to the ends of the range. *)
Theorem scale_back_infinite :
  forall nan_neg t s m e (negative : bool), fits t s -> scale_ok t m e ->
    scale_back nan_neg t (lit t m e) s (S754_infinity negative) = Ret (if negative then scalar_min s else scalar_max s).
Proof.
  intros nn t s m e neg Ft Hs. destruct (fits_range t s Ft) as (M1 & M2 & M3 & M4 & M5).
  destruct (lit_exact t m e Hs) as (Lo & Lf & Ls & Lr & Lb).
  destruct (back_exact t _ Lo Lf Ls Lb) as (Bo & Bf & Br & Bs). unfold scale_back.
  destruct (of_int_exact t (scalar_min s)) as (_ & Imf & _); [lia|]. destruct (of_int_exact t (scalar_max s)) as (_ & Ixf & _); [lia|].
  assert (NB : exists mb eb, fdiv t (of_int t 1) (lit t m e) = S754_finite false mb eb).
  { apply in_scale_inv in Lb. pose proof (nearest_bound t _ Lb) as NB. rewrite <- Br in NB. unfold in_scale in Lb. pose proof (bpow_gt_0 radix2 (- scale_exp t)).
    destruct (fdiv t (of_int t 1) (lit t m e)) as [b| | |b mb eb]; try discriminate Bf; [cbn in NB; lra|]. cbn in Bs. subst b. eauto. }
  destruct NB as (mb & eb & ->).
  assert (FI : fround t (fmul t (S754_infinity neg) (S754_finite false mb eb)) = S754_infinity neg) by (destruct neg; reflexivity).
  destruct (scalar_signed s) eqn:Sg.
  - unfold as_signed. rewrite FI. rewrite SFltb_inf_l by exact Imf. rewrite SFltb_inf_r by exact Ixf. destruct neg; reflexivity.
  - unfold as_unsigned. rewrite FI. cbn [is_sign_negative]. rewrite SFleb_inf_l by exact Ixf. destruct neg; cbn [negb]; [|reflexivity].
    unfold scalar_min. now rewrite Sg.
Qed.
(** NaN: the signed conversions panic; the unsigned ones return one end of the range, depending on the sign of the NaN. *)
Theorem scale_back_nan_refuted :
  forall nan_neg t s m e,
    scale_back nan_neg t (lit t m e) s S754_nan =
    if scalar_signed s then Panic else Ret (if nan_neg then 0%Z else scalar_max s).
Proof.
  intros nn t s m e. unfold scale_back. destruct (scalar_signed s).
  - unfold as_signed. cbn [fmul SFmul fround]. destruct (of_int t (scalar_min s)), (of_int t (scalar_max s)); reflexivity.
  - unfold as_unsigned. cbn. now destruct nn.
Qed.
Example scale_back_ex :
  scale_back false FTy64 (lit FTy64 1 (-2)) I32 (lit FTy64 123456 (-4)) = Ret 1235%Z /\
  scale_back false FTy64 (lit FTy64 1 (-2)) I32 (lit FTy64 3 30) = Ret (2 ^ 31 - 1)%Z /\
  scale_back false FTy32 (lit FTy32 1 (-1)) U16 (fmul FTy32 (of_int FTy32 (-1)) (lit FTy32 5 0)) = Ret 0%Z /\
  scale_back false FTy64 (lit FTy64 1 (-2)) I32 S754_nan = Panic.
Proof. vm_compute. auto. Qed.

(** Latent: with [f32] and a 32-bit integer (a combination no packet uses) the conversion panics at the first value
    beyond the range, because the greatest integer of the type is not an [f32]. *)
Theorem scale_back_wide_refuted :
  scale_back false FTy32 (lit FTy32 1 0) I32 (of_int FTy32 (2 ^ 31)) = Panic /\
  scale_back false FTy32 (lit FTy32 1 0) U32 (of_int FTy32 (2 ^ 32)) = Panic.
Proof. split; vm_compute; reflexivity. Qed.

Print Assumptions float_formats.
Print Assumptions getter_accurate.
Print Assumptions scaled_round_trip.
Print Assumptions scale_back_finite.
Print Assumptions scale_back_formula.
Print Assumptions scale_back_infinite.
Print Assumptions scale_back_nan_refuted.
Print Assumptions scale_back_wide_refuted.
