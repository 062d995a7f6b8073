(** * Properties of AID-INI's position (C48) *)
From Coq Require Import String List NArith ZArith Reals Lia Lra Bool SpecFloat.
From Flocq Require Import Core.
From Flocq.IEEE754 Require Import BinarySingleNaN.
From Verif Require Import Base BaseFacts DualBuffer PackDesc GenRecv GenSend Floats TablePackets DateTime Convert Setters SpecDate SpecFrame SpecPacket SpecDispatch SpecReal SpecConvert
  ProofRecv ProofDispatch ProofFloat PropFloat PropDispatch PropIter PropConvert.
Import ListNotations.
Open Scope R_scope.



Lemma ftrunc_real x : finite x -> ftrunc x = Some (Ztrunc (real x)).
Proof.
  intros F. destruct x as [s| | |s m e]; try discriminate F; cbn [ftrunc].
  - cbn. now rewrite (Ztrunc_IZR 0).
  - f_equal. assert (P : (if (0 <=? e)%Z then (Zpos m * 2 ^ e)%Z else (Zpos m / 2 ^ (- e))%Z) = Ztrunc (F2R (Float radix2 (Zpos m) e))).
    { destruct (Z.leb_spec 0 e) as [He|He].
      - rewrite F2R_mul by exact He. now rewrite Ztrunc_IZR.
      - rewrite Ztrunc_floor by now apply F2R_ge_0. rewrite F2R_div by exact He. symmetry. apply Zfloor_div. pose proof (Z.pow_pos_nonneg 2 (- e)). lia. }
    rewrite P. unfold real, SF2R. destruct s; cbn [cond_Zopp]; [|reflexivity]. rewrite F2R_Zopp, Ztrunc_opp. reflexivity.
Qed.

Lemma ten_million : lit FTy64 10000000 0 = of_int FTy64 10000000. Proof. reflexivity. Qed.

(** The cast of a product with an integer constant *)
Lemma cast_product x n : float_ok FTy64 x -> finite x -> (1 <= n <= 2 ^ 53)%Z ->
  float_as I32 (fmul FTy64 x (of_int FTy64 n)) = clamp I32 (Ztrunc (nearest FTy64 (real x * IZR n))).
Proof.
  intros Ox Fx Hn. destruct (of_int_exact FTy64 n) as (On & Fn & Rn & _); [cbn [fprec]; lia|].
  destruct (fmul_rounds FTy64 x _ Ox On Fx Fn) as (V & C). rewrite Rn in C. set (y := fmul FTy64 x (of_int FTy64 n)) in *.
  set (p := nearest FTy64 (real x * IZR n)) in *. destruct C as [(_ & Cr & Cf & _)|(Cl & Ce)].
  - unfold float_as. rewrite (ftrunc_real y Cf), Cr. unfold clamp.
    change (scalar_min I32) with (-2147483648)%Z. change (scalar_max I32) with 2147483647%Z.
    destruct (Z.ltb_spec (Ztrunc p) (-2147483648)); [lia|]. destruct (Z.ltb_spec 2147483647 (Ztrunc p)); lia.
  - assert (B : IZR 2147483648 <= bpow radix2 (femax FTy64)).
    { change (IZR 2147483648) with (bpow radix2 31). apply bpow_le. cbn. lia. }
    unfold float_as, clamp. rewrite Ce. cbn [ftrunc].
    change (scalar_min I32) with (-2147483648)%Z. change (scalar_max I32) with 2147483647%Z.
    destruct (sign_SF (of_int FTy64 n)) eqn:Sn.
    { exfalso. pose proof (sign_le _ Fn) as S. rewrite Sn, Rn in S. apply (le_IZR _ 0) in S. lia. }
    rewrite xorb_false_r in *. pose proof (sign_le x Fx) as S. assert (N0 : 0 <= IZR n) by (apply (IZR_le 0); lia).
    destruct (sign_SF x).
    + assert (p <= 0) by (unfold p; rewrite <- (nearest_0 FTy64); apply nearest_le; nra).
      rewrite Rabs_left1 in Cl by assumption.
      assert (Ztrunc p <= -2147483648)%Z by (rewrite <- (Ztrunc_IZR (-2147483648)); apply Ztrunc_le; lra). lia.
    + assert (0 <= p) by (unfold p; rewrite <- (nearest_0 FTy64); apply nearest_le; nra).
      rewrite Rabs_pos_eq in Cl by assumption.
      assert (2147483648 <= Ztrunc p)%Z by (rewrite <- (Ztrunc_IZR 2147483648); apply Ztrunc_le; lra). lia.
Qed.

(** ** The payload *)
Lemma int_bytes_len n z : lenN (int_bytes n z) = n.
Proof. unfold int_bytes, lenN. rewrite map_length, seq_length. lia. Qed.

(** The thirteen fields of AID-INI *)
Definition aid_of (f0 f1 f2 f3 f4 f5 f6 f7 f8 f9 f10 f11 f12 : Z) : aid_ini :=
  (f0, (f1, (f2, (f3, (f4, (f5, (f6, (f7, (f8, (f9, (f10, (f11, (f12, tt))))))))))))).
Definition i32 (z : Z) : Prop := (-2147483648 <= z <= 2147483647)%Z.
Definition u32 (z : Z) : Prop := (0 <= z <= 4294967295)%Z.
Definition u16 (z : Z) : Prop := (0 <= z <= 65535)%Z.
Definition aid_ok (f0 f1 f2 f3 f4 f5 f6 f7 f8 f9 f10 f11 f12 : Z) : Prop :=
  i32 f0 /\ i32 f1 /\ i32 f2 /\ u32 f3 /\ u16 f4 /\ u16 f5 /\ u32 f6 /\ i32 f7 /\ u32 f8 /\ u32 f9 /\ i32 f10 /\ u32 f11 /\ u32 f12.
Lemma aid_split (b : aid_ini) : exists f0 f1 f2 f3 f4 f5 f6 f7 f8 f9 f10 f11 f12,
  b = aid_of f0 f1 f2 f3 f4 f5 f6 f7 f8 f9 f10 f11 f12.
Proof. destruct b as (f0 & f1 & f2 & f3 & f4 & f5 & f6 & f7 & f8 & f9 & f10 & f11 & f12 & []). do 13 eexists. reflexivity. Qed.
Lemma aid_ok_iff f0 f1 f2 f3 f4 f5 f6 f7 f8 f9 f10 f11 f12 :
  builder_ok (p_fields p_aid_ini) (aid_of f0 f1 f2 f3 f4 f5 f6 f7 f8 f9 f10 f11 f12) <-> aid_ok f0 f1 f2 f3 f4 f5 f6 f7 f8 f9 f10 f11 f12.
Proof.
  unfold aid_ok, aid_of. cbn [p_aid_ini p_fields builder_ok fst snd].
  change (builder_ok (p_fields p_aid_ini) (aid_of f0 f1 f2 f3 f4 f5 f6 f7 f8 f9 f10 f11 f12)) with
    (i32 f0 /\ i32 f1 /\ i32 f2 /\ u32 f3 /\ u16 f4 /\ u16 f5 /\ u32 f6 /\ i32 f7 /\ u32 f8 /\ u32 f9 /\ i32 f10 /\ u32 f11 /\ u32 f12 /\ True).
  tauto.
Qed.

(** The bytes of AID-INI's thirteen fields *)
Definition aid_wire (b : aid_ini) : list (list byte) :=
  let '(f0, (f1, (f2, (f3, (f4, (f5, (f6, (f7, (f8, (f9, (f10, (f11, (f12, tt))))))))))))) := b in
  [int_bytes 4 f0; int_bytes 4 f1; int_bytes 4 f2; int_bytes 4 f3; int_bytes 2 f4; int_bytes 2 f5; int_bytes 4 f6;
   int_bytes 4 f7; int_bytes 4 f8; int_bytes 4 f9; int_bytes 4 f10; int_bytes 4 f11; int_bytes 4 f12].
Lemma aid_bytes (b : aid_ini) : builder_ok (p_fields p_aid_ini) b ->
  into_packet_bytes p_aid_ini b = Ret (frame x0b x01 (concat (aid_wire b))).
Proof.
  intros B. destruct (PropPackets.builder_emits_frame p_aid_ini b 48 (aid_wire b)) as (E & _); [unfold send_packets; in_list|reflexivity|exact B| |exact E].
  destruct b as (f0 & f1 & f2 & f3 & f4 & f5 & f6 & f7 & f8 & f9 & f10 & f11 & f12 & []). reflexivity.
Qed.

Lemma app2_inj {A} (l m : list A) a b c d : l ++ [a; b] = m ++ [c; d] -> l = m.
Proof.
  intros E. change [a; b] with ([a] ++ [b]) in E. change [c; d] with ([c] ++ [d]) in E. rewrite !app_assoc in E.
  apply app_inj_tail in E. destruct E as [E _]. apply app_inj_tail in E. exact (proj1 E).
Qed.
Lemma frame_payload c i P Q : frame c i P = frame c i Q -> P = Q.
Proof.
  unfold frame, header, fletcher. cbn [app]. intros E. injection E as _ _ E. exact (app2_inj _ _ _ _ _ _ E).
Qed.
Lemma aid_payload (b : aid_ini) P : builder_ok (p_fields p_aid_ini) b -> into_packet_bytes p_aid_ini b = Ret (frame x0b x01 P) ->
  P = concat (aid_wire b).
Proof. intros B E. rewrite (aid_bytes b B) in E. apply (f_equal (fun r => match r with Ret x => x | _ => [] end)) in E. symmetry. exact (frame_payload _ _ _ _ E). Qed.

Lemma clamp_range s z : (scalar_min s <= scalar_max s)%Z -> (scalar_min s <= clamp s z <= scalar_max s)%Z.
Proof. unfold clamp. lia. Qed.
Lemma float_as_range x : (-2147483648 <= float_as I32 x <= 2147483647)%Z.
Proof.
  unfold float_as. change (scalar_min I32) with (-2147483648)%Z. change (scalar_max I32) with 2147483647%Z.
  destruct (ftrunc x) as [z|].
  - destruct (Z.ltb_spec z (-2147483648)); [lia|]. destruct (Z.ltb_spec 2147483647 z); lia.
  - destruct x as [|[]| |]; lia.
Qed.
Lemma lor_u32 a b : (0 <= a < 2 ^ 32)%Z -> (0 <= b < 2 ^ 32)%Z -> (0 <= Z.lor a b < 2 ^ 32)%Z.
Proof.
  intros Ha Hb. assert (0 <= Z.lor a b)%Z by (apply Z.lor_nonneg; lia). split; [assumption|].
  destruct (Z.eq_dec (Z.lor a b) 0) as [->|N0]; [lia|]. apply Z.log2_lt_pow2; [lia|]. rewrite Z.log2_lor by lia.
  destruct (Z.eq_dec a 0) as [->|], (Z.eq_dec b 0) as [->|]; try (cbn in N0; lia); apply Z.max_lub_lt;
    try (apply Z.log2_lt_pow2; lia); cbn; lia.
Qed.

Lemma take_skip n x (A : list byte) B : lenN A = n -> takeN x (dropN n (A ++ B)) = takeN x B.
Proof. intros <-. rewrite dropN_app_exact by reflexivity. reflexivity. Qed.

Theorem set_position_exact :
  forall (b : aid_ini) P pos,
    builder_ok (p_fields p_aid_ini) b -> into_packet_bytes p_aid_ini b = Ret (frame x0b x01 P) ->
    (float_ok FTy64 (pos_lat pos) /\ finite (pos_lat pos)) ->
    (float_ok FTy64 (pos_lon pos) /\ finite (pos_lon pos)) ->
    (float_ok FTy64 (pos_alt pos) /\ finite (pos_alt pos)) ->
    builder_ok (p_fields p_aid_ini) (set_position b pos) /\
    into_packet_bytes p_aid_ini (set_position b pos) = Ret (frame x0b x01
      (int_bytes 4 (cut (pos_lat pos) 10000000) ++ int_bytes 4 (cut (pos_lon pos) 10000000) ++ int_bytes 4 (cut (pos_alt pos) 100) ++
       takeN 32 (dropN 12 P) ++ int_bytes 4 (Z.lor (u32_at P 44) (1 + 32)))).
Proof.
  intros b P pos B E [O1 F1] [O2 F2] [O3 F3]. pose proof (aid_payload b P B E) as ->.
  destruct (aid_split b) as (f0 & f1 & f2 & f3 & f4 & f5 & f6 & f7 & f8 & f9 & f10 & f11 & f12 & ->). clear E. apply aid_ok_iff in B.
  set (v0 := float_as I32 (fmul FTy64 (pos_lat pos) (lit FTy64 10000000 0))).
  set (v1 := float_as I32 (fmul FTy64 (pos_lon pos) (lit FTy64 10000000 0))).
  set (v2 := float_as I32 (fmul FTy64 (pos_alt pos) (lit FTy64 100 0))).
  change (set_position (aid_of f0 f1 f2 f3 f4 f5 f6 f7 f8 f9 f10 f11 f12) pos) with (aid_of v0 v1 v2 f3 f4 f5 f6 f7 f8 f9 f10 f11 (Z.lor f12 33)).
  assert (B12 : u32 f12) by (unfold aid_ok in B; tauto).
  assert (B' : builder_ok (p_fields p_aid_ini) (aid_of v0 v1 v2 f3 f4 f5 f6 f7 f8 f9 f10 f11 (Z.lor f12 33))).
  { apply aid_ok_iff. unfold aid_ok in *. pose proof (float_as_range (fmul FTy64 (pos_lat pos) (lit FTy64 10000000 0))) as R0.
    pose proof (float_as_range (fmul FTy64 (pos_lon pos) (lit FTy64 10000000 0))) as R1.
    pose proof (float_as_range (fmul FTy64 (pos_alt pos) (lit FTy64 100 0))) as R2. fold v0 in R0. fold v1 in R1. fold v2 in R2.
    fold (i32 v0) in R0. fold (i32 v1) in R1. fold (i32 v2) in R2.
    assert (u32 (Z.lor f12 33)) by (unfold u32 in *; pose proof (lor_u32 f12 33 ltac:(lia) ltac:(lia)); lia). tauto. }
  split; [exact B'|]. rewrite (aid_bytes _ B'). do 2 f_equal.
  assert (V0 : v0 = cut (pos_lat pos) 10000000) by (apply cast_product; assumption || lia).
  assert (V1 : v1 = cut (pos_lon pos) 10000000) by (apply cast_product; assumption || lia).
  assert (V2 : v2 = cut (pos_alt pos) 100) by (apply cast_product; assumption || lia).
  rewrite <- V0, <- V1, <- V2. clearbody v0 v1 v2. unfold aid_of, aid_wire. cbn [concat app]. rewrite !app_nil_r.
  set (mid := int_bytes 4 f3 ++ int_bytes 2 f4 ++ int_bytes 2 f5 ++ int_bytes 4 f6 ++ int_bytes 4 f7 ++ int_bytes 4 f8 ++ int_bytes 4 f9 ++ int_bytes 4 f10 ++ int_bytes 4 f11).
  assert (Lm : lenN mid = 32%N) by (unfold mid; rewrite !lenN_app, !int_bytes_len; reflexivity).
  replace (int_bytes 4 f0 ++ _) with ((int_bytes 4 f0 ++ int_bytes 4 f1 ++ int_bytes 4 f2) ++ mid ++ int_bytes 4 f12) by (unfold mid; rewrite <- !app_assoc; reflexivity).
  rewrite take_skip by (rewrite !lenN_app, !int_bytes_len; reflexivity). rewrite takeN_app_exact by (symmetry; exact Lm).
  assert (U : u32_at ((int_bytes 4 f0 ++ int_bytes 4 f1 ++ int_bytes 4 f2) ++ mid ++ int_bytes 4 f12) 44 = f12).
  { unfold u32_at. rewrite app_assoc, take_skip by (rewrite !lenN_app, !int_bytes_len, Lm; reflexivity).
    rewrite takeN_all by (rewrite int_bytes_len; lia). apply unsigned_of_int_bytes. unfold u32 in B12. change (2 ^ (8 * Z.of_N 4))%Z with 4294967296%Z. lia. }
  rewrite U. unfold mid. rewrite <- !app_assoc. reflexivity.
Qed.

(** In range the encoded number is less than a unit (and a millionth) away *)
Theorem set_position_accurate :
  forall x n, (1 <= n <= 10000000)%Z -> Rabs (real x * IZR n) <= 2147483647 ->
    Rabs (IZR (cut x n) - real x * IZR n) < 1 + tenth 6.
Proof.
  intros x n Hn H. unfold cut. set (r := real x * IZR n) in *.
  assert (D : Rabs (nearest FTy64 r - r) <= err 2147483648).
  { apply (nearest_moderate r 2147483648); [apply moderate_small; lra|lra]. }
  pose proof (err_small 2147483648 ltac:(lra)) as Es. set (q := nearest FTy64 r) in *.
  assert (Q : Rabs q <= 2147483647).
  { unfold q, Rabs. apply Rabs_le_inv in H. destruct (Rcase_abs _).
    - assert (nearest FTy64 (IZR (-2147483647)) <= nearest FTy64 r) by (apply nearest_le; lra). rewrite nearest_IZR in H0 by (cbn [fprec]; lia). lra.
    - assert (nearest FTy64 r <= nearest FTy64 (IZR 2147483647)) by (apply nearest_le; lra). rewrite nearest_IZR in H0 by (cbn [fprec]; lia). lra. }
  assert (T : Rabs (IZR (Ztrunc q) - q) < 1 /\ (-2147483647 <= Ztrunc q <= 2147483647)%Z).
  { apply Rabs_le_inv in Q. split.
    - destruct (Rle_or_lt 0 q) as [Hq|Hq].
      + rewrite Ztrunc_floor by exact Hq. pose proof (Zfloor_lb q). pose proof (Zfloor_ub q). apply Rabs_lt. lra.
      + rewrite Ztrunc_ceil by lra. pose proof (Zceil_ub q). pose proof (Zceil_lb q). apply Rabs_lt. lra.
    - split; [rewrite <- (Ztrunc_IZR (-2147483647))|rewrite <- (Ztrunc_IZR 2147483647)]; apply Ztrunc_le; lra. }
  destruct T as [T1 T2]. unfold clamp. change (scalar_min I32) with (-2147483648)%Z. change (scalar_max I32) with 2147483647%Z.
  replace (Z.max (-2147483648) (Z.min 2147483647 (Ztrunc q))) with (Ztrunc q) by lia.
  assert (T6 : tenth 6 = / 1000000) by reflexivity. rewrite T6.
  replace (IZR (Ztrunc q) - r) with ((IZR (Ztrunc q) - q) + (q - r)) by ring.
  pose proof (Rabs_triang (IZR (Ztrunc q) - q) (q - r)). lra.
Qed.

(** The position of the example of NAV-POSLLH, and the default builder with another flag *)
Definition ex_aid : aid_ini := aid_of 0 0 0 7 0 0 0 0 0 0 0 0 4.
Definition ex_position : position :=
  mk_position (lit FTy64 1 0) (fmul FTy64 (of_int FTy64 (-20000000)) (lit FTy64 1 (-7))) (lit FTy64 1 0).
Lemma ex_aid_ok : builder_ok (p_fields p_aid_ini) ex_aid.
Proof. apply aid_ok_iff. unfold aid_ok, i32, u32, u16. lia. Qed.
Example set_position_ex :
  builder_ok (p_fields p_aid_ini) ex_aid /\
  into_packet_bytes p_aid_ini ex_aid = Ret (frame x0b x01 (concat (aid_wire ex_aid))) /\
  (float_ok FTy64 (pos_lat ex_position) /\ finite (pos_lat ex_position)) /\
  (float_ok FTy64 (pos_lon ex_position) /\ finite (pos_lon ex_position)) /\
  (float_ok FTy64 (pos_alt ex_position) /\ finite (pos_alt ex_position)) /\
  into_packet_bytes p_aid_ini (set_position ex_aid ex_position) = Ret (frame x0b x01
    ([x00;xd3;xce;xfe; x80;x96;x98;x00; x64;x00;x00;x00; x07;x00;x00;x00] ++ repeat x00 28 ++ [x25;x00;x00;x00])).
Proof.
  split; [exact ex_aid_ok|]. split; [apply aid_bytes; exact ex_aid_ok|]. repeat (split; [split; vm_compute; reflexivity|]).
  vm_compute. reflexivity.
Qed.
Example set_position_accurate_ex : Rabs (real (lit FTy64 1 0) * IZR 10000000) <= 2147483647.
Proof. replace (real (lit FTy64 1 0)) with 1; [rewrite Rabs_pos_eq; lra|]. destruct (of_int_exact FTy64 1 ltac:(cbn; lia)) as (_ & _ & E & _). symmetry. exact E. Qed.

(** Violation: the latitude of a received position is not the latitude put into AID-INI, though both have the
    same unit (the product is cut off, not rounded). *)
Theorem set_position_round_trip_refuted :
  ~ (forall payload pos P, received p_nav_pos_llh payload -> position_from_pos_llh payload = Ret pos ->
       into_packet_bytes p_aid_ini (set_position aid_ini_default pos) = Ret (frame x0b x01 P) ->
       i32_at P 0 = i32_at payload 8).
Proof.
  intros H. set (payload := repeat x00 8 ++ [x0d; x00; x00; x00] ++ repeat x00 16).
  specialize (H payload (mk_position (S754_zero false) (fmul FTy64 (of_int FTy64 13) (lit FTy64 1 (-7))) (S754_zero false))
                ([x0c; x00; x00; x00] ++ repeat x00 40 ++ [x21; x00; x00; x00])).
  assert (R : received p_nav_pos_llh payload).
  { apply received_iff; [unfold recv_table; in_list|discriminate|vm_compute; discriminate|].
    apply validate_accepts; [reflexivity|vm_compute; discriminate|vm_compute; reflexivity]. }
  specialize (H R ltac:(vm_compute; reflexivity) ltac:(vm_compute; reflexivity)). vm_compute in H. discriminate.
Qed.

(** ** Time *)
Lemma u32_checked_ok z : (0 <= z <= 4294967295)%Z -> u32_checked z = Ret z.
Proof. intros H. unfold u32_checked. destruct (Z.leb_spec 0 z); [|lia]. destruct (Z.ltb_spec z 4294967296); [reflexivity|lia]. Qed.

Lemma set_time_early b tm : (d_year (dt_date tm) < 2000)%Z -> set_time b tm = Panic.
Proof.
  intros H. destruct (aid_split b) as (f0 & f1 & f2 & f3 & f4 & f5 & f6 & f7 & f8 & f9 & f10 & f11 & f12 & ->).
  unfold set_time, aid_of, year_ce. destruct (Z.ltb_spec (d_year (dt_date tm)) 1); [reflexivity|].
  unfold u32_checked at 1. destruct (Z.leb_spec 0 (d_year (dt_date tm) - 2000)); [lia|reflexivity].
Qed.

Definition year_month (tm : datetime) : Z := ((d_year (dt_date tm) - 2000) * 100 + (d_month (dt_date tm) - 1))%Z.
Definition hour_minute_second (tm : datetime) : Z := (t_hour (dt_time tm) * 10000 + t_min (dt_time tm) * 100 + t_sec (dt_time tm))%Z.

Lemma set_time_late f0 f1 f2 f3 f4 f5 f6 f7 f8 f9 f10 f11 f12 tm : proper tm -> (2000 <= d_year (dt_date tm) <= 262142)%Z ->
  set_time (aid_of f0 f1 f2 f3 f4 f5 f6 f7 f8 f9 f10 f11 f12) tm =
  Ret (aid_of f0 f1 f2 f3 f4 (year_month tm mod 65536) (hour_minute_second tm) (t_nano (dt_time tm)) f8 f9 f10 f11 (Z.lor f12 1026)).
Proof.
  intros (D & T & Nn) H. unfold is_date, is_time in *. unfold set_time, aid_of, year_ce.
  destruct (Z.ltb_spec (d_year (dt_date tm)) 1); [lia|]. rewrite u32_checked_ok by lia. cbn [bind].
  rewrite u32_checked_ok by lia. cbn [bind]. rewrite u32_checked_ok by lia. cbn [bind]. rewrite u32_checked_ok by lia. cbn [bind].
  rewrite u32_checked_ok by lia. cbn [bind]. rewrite u32_checked_ok by lia. cbn [bind]. rewrite u32_checked_ok by lia. cbn [bind]. reflexivity.
Qed.

(** The year must not be before 2000.  Up to 2655, the bytes 18-27 of the payload become year and month, hour, minute
    and second, and nanoseconds, in this order, and bits 1 and 10 of the flags are set; nothing else changes. *)
Theorem set_time_exact :
  forall (b : aid_ini) P tm,
    builder_ok (p_fields p_aid_ini) b -> into_packet_bytes p_aid_ini b = Ret (frame x0b x01 P) -> proper tm ->
    ((d_year (dt_date tm) < 2000)%Z -> set_time b tm = Panic) /\
    ((2000 <= d_year (dt_date tm) <= 2655)%Z ->
       exists b', set_time b tm = Ret b' /\ builder_ok (p_fields p_aid_ini) b' /\
         into_packet_bytes p_aid_ini b' = Ret (frame x0b x01
           (takeN 18 P ++
            int_bytes 2 ((d_year (dt_date tm) - 2000) * 100 + (d_month (dt_date tm) - 1)) ++
            int_bytes 4 (t_hour (dt_time tm) * 10000 + t_min (dt_time tm) * 100 + t_sec (dt_time tm)) ++
            int_bytes 4 (t_nano (dt_time tm)) ++
            takeN 16 (dropN 28 P) ++ int_bytes 4 (Z.lor (u32_at P 44) (2 + 1024))))).
Proof.
  intros b P tm B E Pr. split; [apply set_time_early|]. intros Hy. pose proof (aid_payload b P B E) as ->. clear E.
  destruct (aid_split b) as (f0 & f1 & f2 & f3 & f4 & f5 & f6 & f7 & f8 & f9 & f10 & f11 & f12 & ->). apply aid_ok_iff in B.
  rewrite set_time_late by (assumption || lia). eexists. split; [reflexivity|].
  assert (B12 : u32 f12) by (unfold aid_ok in B; tauto).
  assert (B' : builder_ok (p_fields p_aid_ini)
    (aid_of f0 f1 f2 f3 f4 (year_month tm mod 65536) (hour_minute_second tm) (t_nano (dt_time tm)) f8 f9 f10 f11 (Z.lor f12 1026))).
  { apply aid_ok_iff. unfold aid_ok in *. destruct Pr as (D & T & Nn). unfold is_time in T.
    assert (u16 (year_month tm mod 65536)) by (unfold u16; pose proof (Z.mod_pos_bound (year_month tm) 65536); lia).
    assert (u32 (hour_minute_second tm)) by (unfold u32, hour_minute_second; lia).
    assert (i32 (t_nano (dt_time tm))) by (unfold i32; lia).
    assert (u32 (Z.lor f12 1026)) by (unfold u32 in *; pose proof (lor_u32 f12 1026 ltac:(lia) ltac:(lia)); lia). tauto. }
  split; [exact B'|]. rewrite (aid_bytes _ B'). do 2 f_equal.
  assert (Ym : (year_month tm mod 65536 = year_month tm)%Z).
  { apply Z.mod_small. unfold year_month. destruct Pr as (D & _). unfold is_date in D. lia. }
  rewrite Ym. unfold aid_of, aid_wire. cbn [concat app]. rewrite !app_nil_r.
  set (pre := int_bytes 4 f0 ++ int_bytes 4 f1 ++ int_bytes 4 f2 ++ int_bytes 4 f3 ++ int_bytes 2 f4).
  set (set3 := int_bytes 2 f5 ++ int_bytes 4 f6 ++ int_bytes 4 f7).
  set (mid := int_bytes 4 f8 ++ int_bytes 4 f9 ++ int_bytes 4 f10 ++ int_bytes 4 f11).
  assert (Lp : lenN pre = 18%N) by (unfold pre; rewrite !lenN_app, !int_bytes_len; reflexivity).
  assert (Ls : lenN set3 = 10%N) by (unfold set3; rewrite !lenN_app, !int_bytes_len; reflexivity).
  assert (Lm : lenN mid = 16%N) by (unfold mid; rewrite !lenN_app, !int_bytes_len; reflexivity).
  replace (int_bytes 4 f0 ++ int_bytes 4 f1 ++ int_bytes 4 f2 ++ int_bytes 4 f3 ++ int_bytes 2 f4 ++ int_bytes 2 f5 ++ _)
    with (pre ++ set3 ++ mid ++ int_bytes 4 f12) by (unfold pre, set3, mid; rewrite <- !app_assoc; reflexivity).
  rewrite takeN_app_exact by (symmetry; exact Lp).
  replace (takeN 16 (dropN 28 (pre ++ set3 ++ mid ++ int_bytes 4 f12))) with mid.
  2: { rewrite (app_assoc pre), take_skip by (rewrite lenN_app, Lp, Ls; reflexivity). rewrite takeN_app_exact by (symmetry; exact Lm). reflexivity. }
  replace (u32_at (pre ++ set3 ++ mid ++ int_bytes 4 f12) 44) with f12.
  2: { unfold u32_at. rewrite (app_assoc pre), app_assoc, take_skip by (rewrite !lenN_app, Lp, Ls, Lm; reflexivity).
       rewrite takeN_all by (rewrite int_bytes_len; lia). symmetry. apply unsigned_of_int_bytes. unfold u32 in B12. change (2 ^ (8 * Z.of_N 4))%Z with 4294967296%Z. lia. }
  unfold pre, mid. rewrite <- !app_assoc. reflexivity.
Qed.

(** The packet determines year, month and time of day *)
Theorem set_time_injective :
  forall (b : aid_ini) tm1 tm2 b', proper tm1 -> proper tm2 ->
    (2000 <= d_year (dt_date tm1) <= 2655)%Z -> (2000 <= d_year (dt_date tm2) <= 2655)%Z ->
    set_time b tm1 = Ret b' -> set_time b tm2 = Ret b' ->
    d_year (dt_date tm1) = d_year (dt_date tm2) /\ d_month (dt_date tm1) = d_month (dt_date tm2) /\ dt_time tm1 = dt_time tm2.
Proof.
  intros b tm1 tm2 b' P1 P2 Y1 Y2 E1 E2.
  destruct (aid_split b) as (f0 & f1 & f2 & f3 & f4 & f5 & f6 & f7 & f8 & f9 & f10 & f11 & f12 & ->).
  rewrite set_time_late in E1, E2 by (assumption || lia). rewrite <- E1 in E2. clear E1.
  assert (H : (year_month tm2 mod 65536 = year_month tm1 mod 65536)%Z /\ hour_minute_second tm2 = hour_minute_second tm1 /\ t_nano (dt_time tm2) = t_nano (dt_time tm1)).
  { generalize dependent (year_month tm2 mod 65536)%Z. generalize dependent (year_month tm1 mod 65536)%Z. intros a c.
    generalize dependent (hour_minute_second tm1). generalize dependent (hour_minute_second tm2). intros u v E.
    unfold aid_of in E. injection E as -> -> ->. auto. }
  destruct H as (H1 & H2 & H3), P1 as (D1 & T1 & N1), P2 as (D2 & T2 & N2). unfold is_date, is_time, year_month, hour_minute_second in *.
  rewrite !Z.mod_small in H1 by lia. destruct tm1 as [dd1 [h1 m1 s1 n1]], tm2 as [dd2 [h2 m2 s2 n2]]. cbn [dt_date dt_time t_hour t_min t_sec t_nano] in *.
  assert (h1 = h2) by lia. assert (m1 = m2) by lia. assert (s1 = s2) by lia. subst. repeat split; lia.
Qed.

Definition ex_time : datetime := mk_dt (mk_date 2024 2 29) (mk_time 23 59 58 999999999).
Lemma ex_time_proper : proper ex_time.
Proof. vm_compute. repeat split; discriminate. Qed.
Example set_time_ex :
  builder_ok (p_fields p_aid_ini) ex_aid /\ into_packet_bytes p_aid_ini ex_aid = Ret (frame x0b x01 (concat (aid_wire ex_aid))) /\
  proper ex_time /\ (2000 <= d_year (dt_date ex_time) <= 2655)%Z /\
  set_time ex_aid ex_time = Ret (aid_of 0 0 0 7 0 2401 235958 999999999 0 0 0 0 1030).
Proof.
  split; [exact ex_aid_ok|]. split; [apply aid_bytes; exact ex_aid_ok|]. split; [exact ex_time_proper|]. split; [cbn; lia|vm_compute; reflexivity].
Qed.
Example set_time_injective_ex : exists b', set_time ex_aid ex_time = Ret b'.
Proof. eexists. apply set_time_ex. Qed.

(** Violations: the day is not part of the packet, ... *)
Theorem set_time_day_lost_refuted :
  ~ (forall b tm1 tm2 b', proper tm1 -> proper tm2 ->
       (2000 <= d_year (dt_date tm1) <= 2655)%Z -> (2000 <= d_year (dt_date tm2) <= 2655)%Z ->
       set_time b tm1 = Ret b' -> set_time b tm2 = Ret b' -> tm1 = tm2).
Proof.
  intros H. specialize (H aid_ini_default ex_time (mk_dt (mk_date 2024 2 1) (dt_time ex_time))).
  specialize (H (aid_of 0 0 0 0 0 2401 235958 999999999 0 0 0 0 1026) ex_time_proper).
  assert (P : proper (mk_dt (mk_date 2024 2 1) (dt_time ex_time))) by (vm_compute; repeat split; discriminate).
  specialize (H P ltac:(cbn; lia) ltac:(cbn; lia) eq_refl eq_refl). discriminate.
Qed.

(** ... and after 2655 neither is the year: September 3966 is sent as January 2000. *)
Theorem set_time_late_refuted :
  ~ (forall b tm1 tm2 b', proper tm1 -> proper tm2 ->
       (2000 <= d_year (dt_date tm1) <= 262142)%Z -> (2000 <= d_year (dt_date tm2) <= 262142)%Z ->
       set_time b tm1 = Ret b' -> set_time b tm2 = Ret b' -> d_year (dt_date tm1) = d_year (dt_date tm2)).
Proof.
  intros H. specialize (H aid_ini_default (mk_dt (mk_date 3966 9 1) (mk_time 0 0 0 0)) (mk_dt (mk_date 2000 1 1) (mk_time 0 0 0 0))).
  specialize (H (aid_of 0 0 0 0 0 0 0 0 0 0 0 0 1026)).
  assert (P : forall y m, In (y, m) [(3966, 9); (2000, 1)]%Z -> proper (mk_dt (mk_date y m 1) (mk_time 0 0 0 0))).
  { intros y m [E|[E|[]]]; injection E as <- <-; vm_compute; repeat split; discriminate. }
  specialize (H (P 3966 9 ltac:(cbn; auto))%Z (P 2000 1 ltac:(cbn; auto))%Z ltac:(cbn; lia) ltac:(cbn; lia) eq_refl eq_refl). discriminate.
Qed.

Print Assumptions set_position_exact.
Print Assumptions set_position_accurate.
Print Assumptions set_position_round_trip_refuted.
Print Assumptions set_time_exact.
Print Assumptions set_time_injective.
Print Assumptions set_time_day_lost_refuted.
Print Assumptions set_time_late_refuted.
