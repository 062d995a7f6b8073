(** * Properties of the conversions to positions and velocities (C47) *)
From Coq Require Import String List NArith ZArith Reals Lia Lra Bool SpecFloat.
From Flocq Require Import Core.
From Flocq.IEEE754 Require Import BinarySingleNaN.
From Verif Require Import Base BaseFacts DualBuffer PackDesc GenRecv Floats TablePackets Convert SpecPacket SpecDispatch SpecReal SpecConvert
  ProofRecv ProofDispatch ProofFloat PropFloat PropDispatch PropIter.
Import ListNotations.
Open Scope R_scope.

Lemma fadd_bplus t x y (Ox : float_ok t x) (Oy : float_ok t y) :
  fadd t x y = B2SF (Bplus mode_NE (SF2B x Ox) (SF2B y Oy)).
Proof.
  destruct x as [sx|sx| |sx mx ex], y as [sy|sy| |sy my ey]; try (now (trivial || (cbn; case Bool.eqb))).
  unfold fadd, SFadd. cbn [SF2B Bplus]. unfold Fplus_naive. unfold SpecFloat.binary_normalize, BinarySingleNaN.binary_normalize.
  match goal with |- match ?a with _ => _ end = _ => destruct a as [|p|p] end.
  - reflexivity.
  - rewrite B2SF_SF2B. apply round_equiv.
  - rewrite B2SF_SF2B. apply round_equiv.
Qed.

Lemma fadd_rounds t x y : float_ok t x -> float_ok t y -> finite x -> finite y ->
  Rabs (nearest t (real x + real y)) < bpow radix2 (femax t) ->
  float_ok t (fadd t x y) /\ finite (fadd t x y) /\ real (fadd t x y) = nearest t (real x + real y).
Proof.
  intros Ox Oy Fx Fy L. rewrite (fadd_bplus t x y Ox Oy).
  pose proof (Bplus_correct (fprec t) (femax t) _ _ mode_NE (SF2B x Ox) (SF2B y Oy)) as C. rewrite !is_finite_SF2B in C. specialize (C Fx Fy).
  rewrite !B2R_SF2B in C. unfold nearest, real in L.
  change (round_mode mode_NE) with ZnearestE in C. rewrite Rlt_bool_true in C by exact L. destruct C as (C1 & C2 & _).
  set (z := Bplus mode_NE (SF2B x Ox) (SF2B y Oy)) in *. clearbody z.
  split; [apply valid_binary_B2SF|]. split; [unfold finite; rewrite is_finite_SF_B2SF; exact C2|].
  transitivity (B2R z); [apply SF2R_B2SF|exact C1].
Qed.

(** Errors of up to [2^-53] of the result, when numbers are moderate *)
Definition moderate (B : R) : Prop := 0 <= B <= bpow radix2 100.
Definition err (B : R) : R := bpow radix2 (-53) * B + bpow radix2 (-140).

Lemma nearest_moderate r B : moderate B -> Rabs r <= B ->
  Rabs (nearest FTy64 r - r) <= err B /\ Rabs (nearest FTy64 r) < bpow radix2 1024.
Proof.
  intros M H. pose proof (nearest_abs FTy64 r) as E. unfold u in E. cbn [fprec] in E. unfold err.
  assert (Hp : 0 < bpow radix2 (-53)) by apply bpow_gt_0.
  assert (E2 : Rabs (nearest FTy64 r - r) <= bpow radix2 (-53) * B + bpow radix2 (-140)).
  { apply Rle_trans with (1 := E). apply Rplus_le_compat_r. apply Rmult_le_compat_l; lra. }
  split; [exact E2|]. pose proof (Rabs_triang_inv (nearest FTy64 r) r) as T. destruct M as [M0 M1].
  assert (P1 : bpow radix2 (-53) <= 1) by (change 1 with (bpow radix2 0); apply bpow_le; lia).
  assert (P2 : bpow radix2 (-140) <= bpow radix2 100) by (apply bpow_le; lia).
  assert (P3 : bpow radix2 100 * 4 <= bpow radix2 102) by (replace 4 with (bpow radix2 2) by reflexivity; rewrite <- bpow_plus; apply Rle_refl).
  assert (P4 : bpow radix2 102 < bpow radix2 1024) by (apply bpow_lt; lia).
  assert (bpow radix2 (-53) * B <= bpow radix2 100) by nra. assert (0 < bpow radix2 100) by apply bpow_gt_0. lra.
Qed.

Lemma near_real x r e : near x r e -> Rabs (real x) <= Rabs r + e.
Proof. intros (_ & _ & H). pose proof (Rabs_triang_inv (real x) r). lra. Qed.

Lemma near_add x y a b e1 e2 B : near x a e1 -> near y b e2 -> moderate B -> Rabs a + e1 + Rabs b + e2 <= B ->
  near (fadd FTy64 x y) (a + b) (e1 + e2 + err B).
Proof.
  intros X Y M H. pose proof (near_real _ _ _ X) as Nx. pose proof (near_real _ _ _ Y) as Ny.
  destruct X as (Ox & Fx & Ex), Y as (Oy & Fy & Ey).
  assert (S : Rabs (real x + real y) <= B) by (pose proof (Rabs_triang (real x) (real y)); lra).
  destruct (nearest_moderate _ B M S) as (E1 & E2).
  destruct (fadd_rounds FTy64 x y Ox Oy Fx Fy E2) as (Oz & Fz & Rz). split; [exact Oz|]. split; [exact Fz|]. rewrite Rz.
  replace (nearest FTy64 (real x + real y) - (a + b)) with ((nearest FTy64 (real x + real y) - (real x + real y)) + ((real x - a) + (real y - b))) by ring.
  pose proof (Rabs_triang (nearest FTy64 (real x + real y) - (real x + real y)) ((real x - a) + (real y - b))).
  pose proof (Rabs_triang (real x - a) (real y - b)). lra.
Qed.

Lemma near_mul x y a b e1 e2 B : near x a e1 -> near y b e2 -> moderate B -> (Rabs a + e1) * (Rabs b + e2) <= B -> 0 <= e1 -> 0 <= e2 ->
  near (fmul FTy64 x y) (a * b) (Rabs a * e2 + (Rabs b + e2) * e1 + err B).
Proof.
  intros X Y M H P1 P2. pose proof (near_real _ _ _ X) as Nx. pose proof (near_real _ _ _ Y) as Ny.
  destruct X as (Ox & Fx & Ex), Y as (Oy & Fy & Ey). pose proof (Rabs_pos a). pose proof (Rabs_pos b). pose proof (Rabs_pos (real x)). pose proof (Rabs_pos (real y)).
  assert (S : Rabs (real x * real y) <= B).
  { rewrite Rabs_mult. apply Rle_trans with (2 := H). apply Rmult_le_compat; lra. }
  destruct (nearest_moderate _ B M S) as (E1 & E2).
  destruct (fmul_rounds FTy64 x y Ox Oy Fx Fy) as (Oz & [(_ & Rz & Fz & _)|(C & _)]); [|cbn [femax] in C; lra].
  split; [exact Oz|]. split; [exact Fz|]. rewrite Rz.
  replace (nearest FTy64 (real x * real y) - a * b) with ((nearest FTy64 (real x * real y) - real x * real y) + (a * (real y - b) + real y * (real x - a))) by ring.
  pose proof (Rabs_triang (nearest FTy64 (real x * real y) - real x * real y) (a * (real y - b) + real y * (real x - a))).
  pose proof (Rabs_triang (a * (real y - b)) (real y * (real x - a))) as T. rewrite !Rabs_mult in T.
  assert (Rabs a * Rabs (real y - b) <= Rabs a * e2) by (apply Rmult_le_compat_l; lra).
  assert (Rabs (real y) * Rabs (real x - a) <= (Rabs b + e2) * e1) by (apply Rmult_le_compat; lra || apply Rabs_pos). lra.
Qed.

Lemma near_weaken x r e e' : near x r e -> e <= e' -> near x r e'.
Proof. intros (O & F & H) L. split; [exact O|]. split; [exact F|]. lra. Qed.

(** Scaled getters *)
Lemma decimal_tenth k : (0 <= k)%Z -> decimal 1 (- k) = tenth k.
Proof.
  intros H. unfold decimal, tenth. rewrite Rmult_1_l. destruct k as [|p|p]; [cbn; lra| |lia].
  cbn [Z.opp powerRZ]. f_equal. change (10 ^ Zpos p)%Z with (Z.pow_pos 10 p). rewrite Zpower_pos_powerRZ. reflexivity.
Qed.
Lemma scaled_near s z k : fits FTy64 s -> (scalar_min s <= z <= scalar_max s)%Z -> (0 <= k)%Z -> scale_okb FTy64 1 (- k) = true ->
  exact_to (fmul FTy64 (of_int FTy64 z) (lit FTy64 1 (- k))) (IZR z * tenth k).
Proof.
  intros F Hz Hk Sc. destruct (getter_accurate FTy64 s 1 (- k) z F Hz (scale_okb_ok _ _ _ Sc)) as (O & Fi & E).
  rewrite decimal_tenth in E by exact Hk. split; [exact O|]. split; [exact Fi|]. cbn [fprec] in E.
  change (bpow radix2 (2 - 53)) with (/ 2251799813685248) in E. unfold Rdiv. lra.
Qed.

Lemma signed_range b x : (0 < b)%Z -> (- 2 ^ (b - 1) <= signed_of b x < 2 ^ (b - 1))%Z.
Proof.
  intros H. unfold signed_of. pose proof (Z.mod_pos_bound (x + 2 ^ (b - 1)) (2 ^ b) ltac:(apply Z.pow_pos_nonneg; lia)).
  replace (2 ^ b)%Z with (2 * 2 ^ (b - 1))%Z in * by (rewrite <- Z.pow_succ_r by lia; f_equal; lia). lia.
Qed.
Lemma i32_range payload off : (-2147483648 <= i32_at payload off <= 2147483647)%Z.
Proof. unfold i32_at. pose proof (signed_range 32 (unsigned_of (takeN 4 (dropN off payload))) eq_refl) as H. change (2 ^ (32 - 1))%Z with 2147483648%Z in H. lia. Qed.
Lemma i8_range payload off : (-128 <= i8_at payload off <= 127)%Z.
Proof. unfold i8_at. pose proof (signed_range 8 (unsigned_of (takeN 1 (dropN off payload))) eq_refl) as H. change (2 ^ (8 - 1))%Z with 128%Z in H. lia. Qed.
Lemma u32_range payload off : (0 <= u32_at payload off <= 4294967295)%Z.
Proof.
  unfold u32_at. rewrite unsigned_of_le_num. pose proof (le_num_bound (takeN 4 (dropN off payload))) as B. rewrite lenN_takeN in B.
  assert (le_num (takeN 4 (dropN off payload)) < 256 ^ 4)%N; [|change (256 ^ 4)%N with 4294967296%N in *; lia].
  eapply N.lt_le_trans; [exact B|]. apply N.pow_le_mono_r; lia.
Qed.

Lemma getter_i32 payload off k (g : list byte -> res spec_float) :
  g payload = (let! v := get_raw_field (Scalar I32) false off payload in let! x := Ret (of_int FTy64 v) in Ret (fmul FTy64 x (lit FTy64 1 (- k)))) ->
  (off + 4 <= lenN payload)%N -> (0 <= k)%Z -> scale_okb FTy64 1 (- k) = true ->
  exists x, g payload = Ret x /\ exact_to x (IZR (i32_at payload off) * tenth k).
Proof.
  intros E L Hk Sc. rewrite (get_raw_field_ok (Scalar I32) false off payload 4 eq_refl L) in E. cbn [bind] in E.
  eexists. split; [exact E|]. apply (scaled_near I32); [vm_compute; discriminate| |exact Hk|exact Sc]. apply i32_range.
Qed.
Lemma getter_u32 payload off k (g : list byte -> res spec_float) :
  g payload = (let! v := get_raw_field (Scalar U32) false off payload in let! x := Ret (of_int FTy64 v) in Ret (fmul FTy64 x (lit FTy64 1 (- k)))) ->
  (off + 4 <= lenN payload)%N -> (0 <= k)%Z -> scale_okb FTy64 1 (- k) = true ->
  exists x, g payload = Ret x /\ exact_to x (IZR (u32_at payload off) * tenth k).
Proof.
  intros E L Hk Sc. rewrite (get_raw_field_ok (Scalar U32) false off payload 4 eq_refl L) in E. cbn [bind] in E.
  eexists. split; [exact E|]. apply (scaled_near U32); [vm_compute; discriminate| |exact Hk|exact Sc]. apply u32_range.
Qed.
Lemma getter_i8 payload off k (g : list byte -> res spec_float) :
  g payload = (let! v := get_raw_field (Scalar I8) false off payload in let! x := Ret (of_int FTy64 v) in Ret (fmul FTy64 x (lit FTy64 1 (- k)))) ->
  (off + 1 <= lenN payload)%N -> (0 <= k)%Z -> scale_okb FTy64 1 (- k) = true ->
  exists x, g payload = Ret x /\ exact_to x (IZR (i8_at payload off) * tenth k).
Proof.
  intros E L Hk Sc. rewrite (get_raw_field_ok (Scalar I8) false off payload 1 eq_refl L) in E. cbn [bind] in E.
  eexists. split; [exact E|]. apply (scaled_near I8); [vm_compute; discriminate| |exact Hk|exact Sc]. apply i8_range.
Qed.
Lemma getter_i32_unscaled payload off (g : list byte -> res spec_float) :
  g payload = (let! v := get_raw_field (Scalar I32) false off payload in let! x := Ret (of_int FTy64 v) in Ret x) ->
  (off + 4 <= lenN payload)%N -> exists x, g payload = Ret x /\ near x (IZR (i32_at payload off)) 0.
Proof.
  intros E L. rewrite (get_raw_field_ok (Scalar I32) false off payload 4 eq_refl L) in E. cbn [bind] in E.
  eexists. split; [exact E|]. pose proof (i32_range payload off) as Rg.
  destruct (of_int_exact FTy64 (i32_at payload off)) as (O & F & R & _); [cbn; lia|].
  split; [exact O|]. split; [exact F|]. change (decode (Scalar I32) (takeN 4 (dropN off payload))) with (i32_at payload off).
  rewrite R, Rminus_eq_0, Rabs_R0. lra.
Qed.

Ltac len_of p :=
  match goal with R : received p ?payload |- _ =>
    let Hl := fresh in
    apply received_iff in R; [|unfold recv_table; in_list|discriminate|assumption];
    apply proj1 in R end.

(** ** NAV-POSLLH *)
Theorem position_pos_llh :
  forall payload, received p_nav_pos_llh payload -> (lenN payload <= 65535)%N ->
    exists p, position_from_pos_llh payload = Ret p /\
      exact_to (pos_lon p) (IZR (i32_at payload 4) * tenth 7) /\
      exact_to (pos_lat p) (IZR (i32_at payload 8) * tenth 7) /\
      exact_to (pos_alt p) (IZR (i32_at payload 16) * tenth 3).
Proof.
  intros payload R Hl. len_of p_nav_pos_llh. change (lenN payload = 28%N) in R.
  destruct (getter_i32 payload 4 7 NavPosLlh_lon_degrees eq_refl) as (lon & E1 & H1); [lia|lia|reflexivity|].
  destruct (getter_i32 payload 8 7 NavPosLlh_lat_degrees eq_refl) as (lat & E2 & H2); [lia|lia|reflexivity|].
  destruct (getter_i32 payload 16 3 NavPosLlh_height_msl eq_refl) as (alt & E3 & H3); [lia|lia|reflexivity|].
  unfold position_from_pos_llh. rewrite E1, E2, E3. cbn [bind]. eexists. split; [reflexivity|]. auto.
Qed.

Definition ex_pos_llh : list byte :=
  [x00;x00;x00;x00; x80;x96;x98;x00; x00;xd3;xce;xfe] ++ repeat x00 4 ++ [xe8;x03;x00;x00] ++ repeat x00 8.
(** One degree east, two degrees south, one metre high *)
Example position_pos_llh_ex : received p_nav_pos_llh ex_pos_llh /\
  i32_at ex_pos_llh 4 = 10000000%Z /\ i32_at ex_pos_llh 8 = (-20000000)%Z /\ i32_at ex_pos_llh 16 = 1000%Z.
Proof.
  split; [|vm_compute; auto]. apply received_iff; [unfold recv_table; in_list|discriminate|vm_compute; discriminate|].
  apply validate_accepts; [reflexivity|vm_compute; discriminate|vm_compute; reflexivity].
Qed.

(** ** NAV-PVT *)
Theorem position_pvt :
  forall payload, received p_nav_pvt payload -> (lenN payload <= 65535)%N ->
    exists p, position_from_pvt payload = Ret p /\
      exact_to (pos_lon p) (IZR (i32_at payload 24) * tenth 7) /\
      exact_to (pos_lat p) (IZR (i32_at payload 28) * tenth 7) /\
      exact_to (pos_alt p) (IZR (i32_at payload 36) * tenth 3).
Proof.
  intros payload R Hl. len_of p_nav_pvt. change (lenN payload = 92%N) in R.
  destruct (getter_i32 payload 24 7 NavPvt_lon_degrees eq_refl) as (lon & E1 & H1); [lia|lia|reflexivity|].
  destruct (getter_i32 payload 28 7 NavPvt_lat_degrees eq_refl) as (lat & E2 & H2); [lia|lia|reflexivity|].
  destruct (getter_i32 payload 36 3 NavPvt_height_msl eq_refl) as (alt & E3 & H3); [lia|lia|reflexivity|].
  unfold position_from_pvt. rewrite E1, E2, E3. cbn [bind]. eexists. split; [reflexivity|]. auto.
Qed.

Theorem velocity_pvt :
  forall payload, received p_nav_pvt payload -> (lenN payload <= 65535)%N ->
    exists v, velocity_from_pvt payload = Ret v /\
      exact_to (vel_speed v) (IZR (u32_at payload 60) * tenth 3) /\
      exact_to (vel_heading v) (IZR (i32_at payload 64) * tenth 5).
Proof.
  intros payload R Hl. len_of p_nav_pvt. change (lenN payload = 92%N) in R.
  destruct (getter_u32 payload 60 3 NavPvt_ground_speed eq_refl) as (sp & E1 & H1); [lia|lia|reflexivity|].
  destruct (getter_i32 payload 64 5 NavPvt_heading_degrees eq_refl) as (hd & E2 & H2); [lia|lia|reflexivity|].
  unfold velocity_from_pvt. rewrite E1, E2. cbn [bind]. eexists. split; [reflexivity|]. auto.
Qed.

Definition ex_pvt_pos : list byte :=
  repeat x00 24 ++ [x80;x96;x98;x00; x00;xd3;xce;xfe] ++ repeat x00 4 ++ [xe8;x03;x00;x00] ++ repeat x00 20 ++
  [xff;xff;xff;xff; x00;x00;x00;x80] ++ repeat x00 24.
Example position_pvt_ex : received p_nav_pvt ex_pvt_pos /\
  i32_at ex_pvt_pos 24 = 10000000%Z /\ i32_at ex_pvt_pos 28 = (-20000000)%Z /\ i32_at ex_pvt_pos 36 = 1000%Z.
Proof.
  split; [|vm_compute; auto]. apply received_iff; [unfold recv_table; in_list|discriminate|vm_compute; discriminate|].
  apply validate_accepts; [reflexivity|vm_compute; discriminate|vm_compute; reflexivity].
Qed.
(** The largest speed and the smallest heading *)
Example velocity_pvt_ex : received p_nav_pvt ex_pvt_pos /\
  u32_at ex_pvt_pos 60 = 4294967295%Z /\ i32_at ex_pvt_pos 64 = (-2147483648)%Z.
Proof. split; [apply position_pvt_ex|vm_compute; auto]. Qed.

(** ** NAV-VELNED *)
Theorem velocity_vel_ned :
  forall payload, received p_nav_vel_ned payload -> (lenN payload <= 65535)%N ->
    exists v, velocity_from_vel_ned payload = Ret v /\
      exact_to (vel_speed v) (IZR (u32_at payload 20) * tenth 2) /\
      exact_to (vel_heading v) (IZR (i32_at payload 24) * tenth 5).
Proof.
  intros payload R Hl. len_of p_nav_vel_ned. change (lenN payload = 36%N) in R.
  destruct (getter_u32 payload 20 2 NavVelNed_ground_speed eq_refl) as (sp & E1 & H1); [lia|lia|reflexivity|].
  destruct (getter_i32 payload 24 5 NavVelNed_heading_degrees eq_refl) as (hd & E2 & H2); [lia|lia|reflexivity|].
  unfold velocity_from_vel_ned. rewrite E1, E2. cbn [bind]. eexists. split; [reflexivity|]. auto.
Qed.

Definition ex_vel_ned : list byte := repeat x00 20 ++ [x64;x00;x00;x00; x40;x54;x89;x00] ++ repeat x00 8.
(** One metre per second, heading east *)
Example velocity_vel_ned_ex : received p_nav_vel_ned ex_vel_ned /\
  u32_at ex_vel_ned 20 = 100%Z /\ i32_at ex_vel_ned 24 = 9000000%Z.
Proof.
  split; [|vm_compute; auto]. apply received_iff; [unfold recv_table; in_list|discriminate|vm_compute; discriminate|].
  apply validate_accepts; [reflexivity|vm_compute; discriminate|vm_compute; reflexivity].
Qed.

(** ** NAV-HPPOSLLH *)
Lemma moderate_small B : 0 <= B <= 1267650600228229401496703205376 -> moderate B.
Proof. intros H. unfold moderate. change (bpow radix2 100) with 1267650600228229401496703205376. exact H. Qed.
Lemma err_small B : 0 <= B -> err B <= B * (1 / 9000000000000000) + 1 / 1000000000000000000000000000000.
Proof.
  intros H. unfold err. change (bpow radix2 (-53)) with (/ 9007199254740992).
  assert (bpow radix2 (-140) <= bpow radix2 (-100)) by (apply bpow_le; lia).
  change (bpow radix2 (-100)) with (/ 1267650600228229401496703205376) in *. lra.
Qed.
Lemma Rabs_IZR z b : (- b <= z <= b)%Z -> Rabs (IZR z) <= IZR b.
Proof. intros H. rewrite <- abs_IZR. apply IZR_le. lia. Qed.
Lemma tenth_pos k : 0 <= tenth k.
Proof.
  unfold tenth. destruct (Z.eq_dec (10 ^ k) 0) as [E|E]; [rewrite E, Rinv_0; lra|].
  left. apply Rinv_0_lt_compat. apply IZR_lt. pose proof (Z.pow_nonneg 10 k). lia.
Qed.

(** A scaled [i32] and a scaled [i8], added *)
Lemma sum_near x y a b k j B : exact_to x (IZR a * tenth k) -> exact_to y (IZR b * tenth j) ->
  (-2147483648 <= a <= 2147483647)%Z -> (-128 <= b <= 127)%Z ->
  2147483648 * tenth k + 128 * tenth j <= B -> 1 <= B <= 1000000000000000 ->
  near (fadd FTy64 x y) (IZR a * tenth k + IZR b * tenth j) (B / 1000000000000000).
Proof.
  intros X Y Ha Hb HB HB2. pose proof (tenth_pos k) as Pk. pose proof (tenth_pos j) as Pj.
  pose proof (Rabs_IZR a 2147483648 ltac:(lia)) as Aa. pose proof (Rabs_IZR b 128 ltac:(lia)) as Ab.
  assert (Ax : Rabs (IZR a * tenth k) <= 2147483648 * tenth k)
    by (rewrite Rabs_mult, (Rabs_pos_eq (tenth k)) by exact Pk; apply Rmult_le_compat_r; assumption).
  assert (Ay : Rabs (IZR b * tenth j) <= 128 * tenth j)
    by (rewrite Rabs_mult, (Rabs_pos_eq (tenth j)) by exact Pj; apply Rmult_le_compat_r; assumption).
  unfold exact_to in X, Y. pose proof (Rabs_pos (IZR a * tenth k)). pose proof (Rabs_pos (IZR b * tenth j)).
  pose proof (near_add x y _ _ _ _ (2 * B) X Y ltac:(apply moderate_small; lra) ltac:(lra)) as Nn.
  apply (near_weaken _ _ _ _ Nn). pose proof (err_small (2 * B) ltac:(lra)). lra.
Qed.

Theorem position_hp_pos_llh :
  forall payload, received p_nav_hp_pos_llh payload -> (lenN payload <= 65535)%N ->
    exists p, position_from_hp_pos_llh payload = Ret p /\
      near (pos_lon p) (IZR (i32_at payload 8) * tenth 7 + IZR (i8_at payload 24) * tenth 9) (tenth 12) /\
      near (pos_lat p) (IZR (i32_at payload 12) * tenth 7 + IZR (i8_at payload 25) * tenth 9) (tenth 12) /\
      near (pos_alt p) (IZR (i32_at payload 20) * tenth 3 + IZR (i8_at payload 27) * tenth 1) (tenth 8).
Proof.
  intros payload R Hl. len_of p_nav_hp_pos_llh. change (lenN payload = 36%N) in R.
  destruct (getter_i32 payload 8 7 NavHpPosLlh_lon_degrees eq_refl) as (lon & E1 & H1); [lia|lia|reflexivity|].
  destruct (getter_i32 payload 12 7 NavHpPosLlh_lat_degrees eq_refl) as (lat & E2 & H2); [lia|lia|reflexivity|].
  destruct (getter_i32 payload 20 3 NavHpPosLlh_height_msl eq_refl) as (alt & E3 & H3); [lia|lia|reflexivity|].
  destruct (getter_i8 payload 24 9 NavHpPosLlh_lon_hp_degrees eq_refl) as (lonh & E4 & H4); [lia|lia|reflexivity|].
  destruct (getter_i8 payload 25 9 NavHpPosLlh_lat_hp_degrees eq_refl) as (lath & E5 & H5); [lia|lia|reflexivity|].
  destruct (getter_i8 payload 27 1 NavHpPosLlh_height_hp_msl eq_refl) as (alth & E6 & H6); [lia|lia|reflexivity|].
  unfold position_from_hp_pos_llh. rewrite E1, E2, E3, E4, E5, E6. cbn [bind]. eexists. split; [reflexivity|]. cbn [pos_lon pos_lat pos_alt].
  pose proof (i32_range payload 8). pose proof (i32_range payload 12). pose proof (i32_range payload 20).
  pose proof (i8_range payload 24). pose proof (i8_range payload 25). pose proof (i8_range payload 27).
  assert (T7 : tenth 7 = / 10000000) by reflexivity. assert (T9 : tenth 9 = / 1000000000) by reflexivity.
  assert (T3 : tenth 3 = / 1000) by reflexivity. assert (T1 : tenth 1 = / 10) by reflexivity.
  assert (T12 : tenth 12 = / 1000000000000) by reflexivity. assert (T8 : tenth 8 = / 100000000) by reflexivity.
  split; [|split].
  - eapply near_weaken; [apply (sum_near _ _ _ _ 7 9 216 H1 H4); assumption || lra|lra].
  - eapply near_weaken; [apply (sum_near _ _ _ _ 7 9 216 H2 H5); assumption || lra|lra].
  - eapply near_weaken; [apply (sum_near _ _ _ _ 3 1 2200000 H3 H6); assumption || lra|lra].
Qed.

Definition ex_hp_pos_llh : list byte :=
  repeat x00 8 ++ [x80;x96;x98;x00; x00;xd3;xce;xfe] ++ repeat x00 4 ++ [xe8;x03;x00;x00] ++ [x63; x9d; x00; x09] ++ repeat x00 8.
Example position_hp_pos_llh_ex : received p_nav_hp_pos_llh ex_hp_pos_llh /\
  i32_at ex_hp_pos_llh 8 = 10000000%Z /\ i8_at ex_hp_pos_llh 24 = 99%Z /\
  i32_at ex_hp_pos_llh 12 = (-20000000)%Z /\ i8_at ex_hp_pos_llh 25 = (-99)%Z /\
  i32_at ex_hp_pos_llh 20 = 1000%Z /\ i8_at ex_hp_pos_llh 27 = 9%Z.
Proof.
  split; [|vm_compute; auto 10]. apply received_iff; [unfold recv_table; in_list|discriminate|vm_compute; discriminate|].
  apply validate_accepts; [reflexivity|vm_compute; discriminate|vm_compute; reflexivity].
Qed.

(** The precise altitude is [hMSL + 0.1 hMSLHp] millimetres: the altitude given is not within 80 centimetres of it *)
Theorem hp_altitude_refuted :
  ~ (forall payload p, received p_nav_hp_pos_llh payload -> (-9 <= i8_at payload 27 <= 9)%Z ->
       position_from_hp_pos_llh payload = Ret p ->
       near (pos_alt p) ((IZR (i32_at payload 20) + IZR (i8_at payload 27) * tenth 1) * tenth 3) (8 / 10)).
Proof.
  intros H. destruct position_hp_pos_llh_ex as (Rc & _ & _ & _ & _ & Ea & Eh).
  destruct (position_hp_pos_llh _ Rc ltac:(vm_compute; discriminate)) as (p & E & _ & _ & (_ & _ & N1)).
  destruct (H _ p Rc ltac:(rewrite Eh; lia) E) as (_ & _ & N2). rewrite Ea, Eh in *.
  assert (T3 : tenth 3 = / 1000) by reflexivity. assert (T1 : tenth 1 = / 10) by reflexivity. assert (T8 : tenth 8 = / 100000000) by reflexivity.
  rewrite T3, T1, T8 in *. apply Rabs_le_inv in N1. apply Rabs_le_inv in N2. lra.
Qed.

(** ** NAV-HPPOSECEF *)
Lemma tenth_literal : exact_to (lit FTy64 1 (-1)) (/ 10).
Proof.
  split; [vm_compute; reflexivity|]. split; [vm_compute; reflexivity|].
  replace (real (lit FTy64 1 (-1))) with (7205759403792794 / 72057594037927936)
    by (replace (lit FTy64 1 (-1)) with (S754_finite false 7205759403792794 (-56)) by (vm_compute; reflexivity); reflexivity).
  rewrite (Rabs_pos_eq (/ 10)) by lra. apply Rabs_le. lra.
Qed.

Lemma ecef_near cm hp a b : near cm (IZR a) 0 -> exact_to hp (IZR b * tenth 1) ->
  (-2147483648 <= a <= 2147483647)%Z -> (-128 <= b <= 127)%Z ->
  near (ecef_coordinate cm hp) (10 * (IZR a * tenth 2 + IZR b * tenth 4)) (tenth 6).
Proof.
  intros X Y Ha Hb. unfold ecef_coordinate.
  replace (lit FTy64 10 (-2)) with (lit FTy64 1 (-1)) by (vm_compute; reflexivity).
  pose proof tenth_literal as T. unfold exact_to in T, Y. rewrite (Rabs_pos_eq (/ 10)) in T by lra.
  assert (T1 : tenth 1 = / 10) by reflexivity. assert (T2 : tenth 2 = / 100) by reflexivity.
  assert (T4 : tenth 4 = / 10000) by reflexivity. assert (T6 : tenth 6 = / 1000000) by reflexivity. rewrite T1, T2, T4, T6 in *.
  pose proof (Rabs_IZR a 2147483648 ltac:(lia)) as Aa. pose proof (Rabs_IZR b 128 ltac:(lia)) as Ab.
  rewrite Rabs_mult, (Rabs_pos_eq (/ 10)) in Y by lra. pose proof (Rabs_pos (IZR a)). pose proof (Rabs_pos (IZR b)).
  pose proof (near_weaken _ _ _ (13 / 2251799813685248) Y ltac:(lra)) as Y'.
  pose proof (near_mul _ _ _ _ _ _ 2 T Y' ltac:(apply moderate_small; lra)) as M.
  rewrite Rabs_mult, !(Rabs_pos_eq (/ 10)) in M by lra. specialize (M ltac:(nra) ltac:(lra) ltac:(lra)).
  apply (near_weaken _ _ _ (1 / 100000000000000)) in M; [|pose proof (err_small 2 ltac:(lra)); nra].
  pose proof (near_add _ _ _ _ _ _ 2147483700 X M ltac:(apply moderate_small; lra)) as S.
  rewrite !Rabs_mult, !(Rabs_pos_eq (/ 10)) in S by lra. specialize (S ltac:(nra)).
  apply (near_weaken _ _ _ (1 / 1000000)) in S; [|pose proof (err_small 2147483700 ltac:(lra)); lra].
  assert (As : Rabs (IZR a + / 10 * (IZR b * / 10)) <= 2147483700).
  { pose proof (Rabs_triang (IZR a) (/ 10 * (IZR b * / 10))) as Tr. rewrite !Rabs_mult, !(Rabs_pos_eq (/ 10)) in Tr by lra. lra. }
  pose proof (near_mul _ _ _ _ _ _ 214748390 T S ltac:(apply moderate_small; lra)) as P.
  rewrite (Rabs_pos_eq (/ 10)) in P by lra. pose proof (Rabs_pos (IZR a + / 10 * (IZR b * / 10))).
  specialize (P ltac:(nra) ltac:(lra) ltac:(lra)).
  replace (10 * (IZR a * / 100 + IZR b * / 10000)) with (/ 10 * (IZR a + / 10 * (IZR b * / 10))) by lra.
  apply (near_weaken _ _ _ _ P). pose proof (err_small 214748390 ltac:(lra)). nra.
Qed.

(** Ten times the metres documented *)
Theorem position_hp_pos_ecef :
  forall payload, received p_nav_hp_pos_ecef payload -> (lenN payload <= 65535)%N ->
    exists p, position_from_hp_pos_ecef payload = Ret p /\
      near (ecef_x p) (10 * (IZR (i32_at payload 8) * tenth 2 + IZR (i8_at payload 20) * tenth 4)) (tenth 6) /\
      near (ecef_y p) (10 * (IZR (i32_at payload 12) * tenth 2 + IZR (i8_at payload 21) * tenth 4)) (tenth 6) /\
      near (ecef_z p) (10 * (IZR (i32_at payload 16) * tenth 2 + IZR (i8_at payload 22) * tenth 4)) (tenth 6).
Proof.
  intros payload R Hl. len_of p_nav_hp_pos_ecef. change (lenN payload = 28%N) in R.
  destruct (getter_i32_unscaled payload 8 NavHpPosEcef_ecef_x_cm eq_refl) as (x & E1 & H1); [lia|].
  destruct (getter_i32_unscaled payload 12 NavHpPosEcef_ecef_y_cm eq_refl) as (y & E2 & H2); [lia|].
  destruct (getter_i32_unscaled payload 16 NavHpPosEcef_ecef_z_cm eq_refl) as (z & E3 & H3); [lia|].
  destruct (getter_i8 payload 20 1 NavHpPosEcef_ecef_x_hp_mm eq_refl) as (xh & E4 & H4); [lia|lia|reflexivity|].
  destruct (getter_i8 payload 21 1 NavHpPosEcef_ecef_y_hp_mm eq_refl) as (yh & E5 & H5); [lia|lia|reflexivity|].
  destruct (getter_i8 payload 22 1 NavHpPosEcef_ecef_z_hp_mm eq_refl) as (zh & E6 & H6); [lia|lia|reflexivity|].
  unfold position_from_hp_pos_ecef. rewrite E1, E2, E3, E4, E5, E6. cbn [bind]. eexists. split; [reflexivity|]. cbn [ecef_x ecef_y ecef_z].
  split; [|split]; apply ecef_near; auto using i32_range, i8_range.
Qed.

Definition ex_hp_pos_ecef : list byte :=
  repeat x00 8 ++ [x10;x27;x00;x00; xf0;xd8;xff;xff] ++ repeat x00 4 ++ [x63; x9d; x00; x00] ++ repeat x00 4.
Example position_hp_pos_ecef_ex : received p_nav_hp_pos_ecef ex_hp_pos_ecef /\
  i32_at ex_hp_pos_ecef 8 = 10000%Z /\ i8_at ex_hp_pos_ecef 20 = 99%Z /\
  i32_at ex_hp_pos_ecef 12 = (-10000)%Z /\ i8_at ex_hp_pos_ecef 21 = (-99)%Z.
Proof.
  split; [|vm_compute; auto 10]. apply received_iff; [unfold recv_table; in_list|discriminate|vm_compute; discriminate|].
  apply validate_accepts; [reflexivity|vm_compute; discriminate|vm_compute; reflexivity].
Qed.

(** The precise coordinate is [ecef_x + 0.01 ecef_x_hp] centimetres: the one given is not even within 100 metres of it *)
Theorem ecef_metres_refuted :
  ~ (forall payload p, received p_nav_hp_pos_ecef payload -> position_from_hp_pos_ecef payload = Ret p ->
       near (ecef_x p) ((IZR (i32_at payload 8) + IZR (i8_at payload 20) * tenth 2) * tenth 2) 100).
Proof.
  intros H. destruct position_hp_pos_ecef_ex as (Rc & Ea & Eh & _).
  destruct (position_hp_pos_ecef _ Rc ltac:(vm_compute; discriminate)) as (p & E & (_ & _ & N1) & _).
  destruct (H _ p Rc E) as (_ & _ & N2). rewrite Ea, Eh in *.
  assert (T2 : tenth 2 = / 100) by reflexivity. assert (T4 : tenth 4 = / 10000) by reflexivity. assert (T6 : tenth 6 = / 1000000) by reflexivity.
  rewrite T2, T4, T6 in *. apply Rabs_le_inv in N1. apply Rabs_le_inv in N2. lra.
Qed.

Print Assumptions position_pos_llh.
Print Assumptions position_pvt.
Print Assumptions velocity_pvt.
Print Assumptions velocity_vel_ned.
Print Assumptions position_hp_pos_llh.
Print Assumptions hp_altitude_refuted.
Print Assumptions position_hp_pos_ecef.
Print Assumptions ecef_metres_refuted.
