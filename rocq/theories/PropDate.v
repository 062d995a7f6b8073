(** * Properties of the conversion of NAV-PVT to a date and time (C44) *)
From Coq Require Import String List NArith ZArith Bool Lia ZifyBool.
From Verif Require Import Base BaseFacts PackDesc GenRecv TablePackets DateTime SpecDate SpecPacket SpecDispatch ProofRecv ProofDispatch PropDispatch PropIter.
Import ListNotations.
Open Scope Z_scope.

Ltac Zify.zify_post_hook ::= Z.to_euclidean_division_equations.

Lemma leap_agrees y : is_leap y = leap_year y.
Proof. unfold is_leap, leap_year. destruct (y mod 400 =? 0) eqn:A, (y mod 100 =? 0) eqn:B, (y mod 4 =? 0) eqn:C; try reflexivity; lia. Qed.

Ltac months m :=
  let H := fresh in assert (H : m = 1 \/ m = 2 \/ m = 3 \/ m = 4 \/ m = 5 \/ m = 6 \/ m = 7 \/ m = 8 \/ m = 9 \/ m = 10 \/ m = 11 \/ m = 12) by lia;
  destruct H as [->|[->|[->|[->|[->|[->|[->|[->|[->|[->|[->| ->]]]]]]]]]]].

Lemma length_agrees y m : 1 <= m <= 12 -> days_in_month y m = month_length y m.
Proof. intros H. unfold days_in_month, month_length. rewrite leap_agrees. months m; reflexivity. Qed.

Lemma month_length_pos y m : 1 <= m <= 12 -> 28 <= month_length y m <= 31.
Proof. intros H. unfold month_length. destruct (leap_year y); months m; simpl; lia. Qed.

(** Days before a year *)
Definition before (y : Z) : Z := 365 * y + ((y + 3) / 4 - (y + 99) / 100 + (y + 399) / 400).
Lemma before_succ y : before (y + 1) = before y + 365 + (if leap_year y then 1 else 0).
Proof.
  unfold before, leap_year. destruct (y mod 400 =? 0) eqn:A; [|destruct (y mod 100 =? 0) eqn:B; [|destruct (y mod 4 =? 0) eqn:C]]; lia.
Qed.
Lemma before_mono y y' : y < y' -> before (y + 1) <= before y'.
Proof. intros H. unfold before. lia. Qed.

Definition before_month (y m : Z) : Z :=
  nth (Z.to_nat (m - 1)) [0; 31; 59; 90; 120; 151; 181; 212; 243; 273; 304; 334] 0 + (if leap_year y && (2 <? m) then 1 else 0).
Lemma day_number_eq y m d : day_number y m d = before y + before_month y m + d.
Proof. unfold day_number, before, before_month. ring. Qed.
Lemma before_month_succ y m : 1 <= m < 12 -> before_month y (m + 1) = before_month y m + month_length y m.
Proof.
  intros H. unfold before_month, month_length. assert (M : 1 <= m <= 12) by lia. destruct (leap_year y); months m; try lia; reflexivity.
Qed.
Lemma before_month_first y : before_month y 1 = 0.
Proof. unfold before_month. destruct (leap_year y); reflexivity. Qed.
Lemma before_month_last y : before_month y 12 + 31 = 365 + (if leap_year y then 1 else 0).
Proof. unfold before_month. destruct (leap_year y); reflexivity. Qed.
Lemma before_month_mono y m m' : 1 <= m -> m < m' -> m' <= 12 -> before_month y m + month_length y m <= before_month y m'.
Proof.
  intros H1 H2 H3. rewrite <- before_month_succ by lia. unfold before_month.
  assert (M : 1 <= m <= 12) by lia. assert (M' : 1 <= m' <= 12) by lia.
  destruct (leap_year y); months m; months m'; try lia; simpl; lia.
Qed.
Lemma before_month_range y m d : is_date y m d -> 1 <= before_month y m + d <= 365 + (if leap_year y then 1 else 0).
Proof.
  intros [H1 H2].
  assert (0 <= before_month y m /\ before_month y m + month_length y m <= 365 + (if leap_year y then 1 else 0)); [|lia].
  clear H2. unfold month_length, before_month. destruct (leap_year y); months m; simpl; lia.
Qed.

(** The day number of a date determines it, and later dates have larger numbers *)
Lemma day_number_lt y m d y' m' d' : is_date y m d -> is_date y' m' d' ->
  (y < y' \/ y = y' /\ (m < m' \/ m = m' /\ d < d')) -> day_number y m d < day_number y' m' d'.
Proof.
  intros D D' L. pose proof (before_month_range _ _ _ D). pose proof (before_month_range _ _ _ D'). rewrite !day_number_eq.
  destruct L as [L|[<- L]].
  - pose proof (before_mono _ _ L) as M. rewrite before_succ in M. lia.
  - destruct L as [L|[<- L]]; [|lia]. pose proof (before_month_mono y m m') as M. destruct D, D'. lia.
Qed.

Lemma succ_date_number x : is_date (d_year x) (d_month x) (d_day x) ->
  let x' := succ_date x in is_date (d_year x') (d_month x') (d_day x') /\
  day_number (d_year x') (d_month x') (d_day x') = day_number (d_year x) (d_month x) (d_day x) + 1 /\ d_year x <= d_year x' <= d_year x + 1.
Proof.
  destruct x as [y m d]. cbn [d_year d_month d_day]. intros [M D]. unfold succ_date. rewrite length_agrees by lia.
  destruct (d <? month_length y m) eqn:L; [|destruct (m <? 12) eqn:L2]; cbn [d_year d_month d_day]; rewrite !day_number_eq.
  - split; [split; lia|]. split; lia.
  - rewrite before_month_succ by lia. split; [split; [lia|]; pose proof (month_length_pos y (m + 1)); lia|]. split; lia.
  - assert (m = 12) as -> by lia. change (month_length y 12) with 31 in *. rewrite before_month_first, before_succ.
    pose proof (before_month_last y). split; [split; [lia|]; pose proof (month_length_pos (y + 1) 1); lia|]. split; lia.
Qed.
Lemma pred_date_number x : is_date (d_year x) (d_month x) (d_day x) ->
  let x' := pred_date x in is_date (d_year x') (d_month x') (d_day x') /\
  day_number (d_year x') (d_month x') (d_day x') = day_number (d_year x) (d_month x) (d_day x) - 1 /\ d_year x - 1 <= d_year x' <= d_year x.
Proof.
  destruct x as [y m d]. cbn [d_year d_month d_day]. intros [M D]. unfold pred_date.
  destruct (1 <? d) eqn:L; [|destruct (1 <? m) eqn:L2]; cbn [d_year d_month d_day]; rewrite !day_number_eq.
  - split; [split; lia|]. split; lia.
  - rewrite length_agrees by lia. pose proof (before_month_succ y (m - 1) ltac:(lia)) as B. replace (m - 1 + 1) with m in B by lia.
    split; [split; [lia|]; pose proof (month_length_pos y (m - 1)); lia|]. split; lia.
  - assert (m = 1) as -> by lia. rewrite before_month_first. pose proof (before_succ (y - 1)) as B. replace (y - 1 + 1) with y in B by lia.
    pose proof (before_month_last (y - 1)). split; [split; [lia|]; change (month_length (y - 1) 12) with 31; lia|]. split; lia.
Qed.

Lemma add_nanoseconds_spec x n : proper x -> -1000000000 < n < 1000000000 -> -262142 <= d_year (dt_date x) <= 262141 ->
  exists x', add_nanoseconds x n = Ret x' /\ proper x' /\ instant x' = instant x + n.
Proof.
  destruct x as [[y m d] [h mi s ns]]. unfold proper, instant, instant_of. cbn [dt_date dt_time d_year d_month d_day t_hour t_min t_sec t_nano].
  intros (D & (Hh & Hm & Hs) & Hn) Nn Y. unfold add_nanoseconds. cbn [dt_date dt_time d_year d_month d_day t_hour t_min t_sec t_nano].
  set (total := ((h * 60 + mi) * 60 + s) * 1000000000 + ns + n). set (q := total / ns_per_day).
  assert (Q : (q = 0 \/ q = 1) \/ q = -1) by (unfold q, ns_per_day; lia).
  assert (A : let x' := add_days (mk_date y m d) q in is_date (d_year x') (d_month x') (d_day x') /\
    day_number (d_year x') (d_month x') (d_day x') = day_number y m d + q /\ -262143 <= d_year x' <= 262142).
  { destruct Q as [[->| ->]| ->]; cbv zeta.
    - change (add_days (mk_date y m d) 0) with (mk_date y m d). cbn [d_year d_month d_day]. split; [exact D|]. lia.
    - change (add_days (mk_date y m d) 1) with (succ_date (mk_date y m d)). destruct (succ_date_number (mk_date y m d) D) as (A1 & A2 & A3).
      cbn [d_year d_month d_day] in A2, A3. split; [exact A1|]. lia.
    - change (add_days (mk_date y m d) (-1)) with (pred_date (mk_date y m d)). destruct (pred_date_number (mk_date y m d) D) as (A1 & A2 & A3).
      cbn [d_year d_month d_day] in A2, A3. split; [exact A1|]. lia. }
  destruct (add_days (mk_date y m d) q) as [y' m' d']. cbn [d_year d_month d_day] in A |- *. destruct A as (A1 & A2 & A3).
  unfold year_ok. replace ((-262143 <=? y') && (y' <=? 262142)) with true by lia.
  eexists. split; [reflexivity|]. cbn [dt_date dt_time d_year d_month d_day t_hour t_min t_sec t_nano].
  set (r := total mod ns_per_day).
  assert (R : 0 <= r < 86400000000000) by (apply Z.mod_pos_bound; reflexivity).
  assert (E : total = 86400000000000 * q + r) by (apply Z.div_mod; discriminate). clearbody r q.
  split.
  - split; [exact A1|]. split; [|lia]. unfold is_time. clear - R. lia.
  - rewrite A2. assert (F : r = (r / 1000000000 / 3600 * 3600 + r / 1000000000 / 60 mod 60 * 60 + r / 1000000000 mod 60) * 1000000000 + r mod 1000000000).
    { clear - R. lia. }
    generalize dependent (day_number y m d). intros dn A2. unfold total in E. lia.
Qed.

(** ** C44 *)

(** A date and time is determined by its instant. *)
Theorem instant_injective : forall x x', proper x -> proper x' -> instant x = instant x' -> x = x'.
Proof.
  intros [[y m d] [h mi s n]] [[y' m' d'] [h' mi' s' n']]. unfold proper, instant, instant_of.
  cbn [dt_date dt_time d_year d_month d_day t_hour t_min t_sec t_nano]. intros (D & (T1 & T2 & T3) & N) (D' & (T1' & T2' & T3') & N') E.
  assert (day_number y m d = day_number y' m' d' /\ h = h' /\ mi = mi' /\ s = s' /\ n = n') as (E1 & -> & -> & -> & ->).
  { generalize dependent (day_number y m d). generalize dependent (day_number y' m' d'). intros a b E. lia. }
  assert (y = y' /\ m = m' /\ d = d') as (-> & -> & ->); [|reflexivity].
  pose proof (day_number_lt y m d y' m' d' D D') as L1. pose proof (day_number_lt y' m' d' y m d D' D) as L2. lia.
Qed.
(** and instants order dates and times as the calendar does: 1 ns after the last nanosecond of February in a leap year *)
Example instant_ex :
  instant (mk_dt (mk_date 2024 3 1) (mk_time 0 0 0 0)) =
  instant (mk_dt (mk_date 2024 2 29) (mk_time 23 59 59 999999999)) + 1.
Proof. reflexivity. Qed.

Lemma pvt_getters payload : lenN payload = 92%N ->
  NavPvt_year payload = Ret (unsigned_of (takeN 2 (dropN 4 payload))) /\
  NavPvt_month payload = Ret (unsigned_of (takeN 1 (dropN 6 payload))) /\
  NavPvt_day payload = Ret (unsigned_of (takeN 1 (dropN 7 payload))) /\
  NavPvt_hour payload = Ret (unsigned_of (takeN 1 (dropN 8 payload))) /\
  NavPvt_min payload = Ret (unsigned_of (takeN 1 (dropN 9 payload))) /\
  NavPvt_sec payload = Ret (unsigned_of (takeN 1 (dropN 10 payload))) /\
  NavPvt_nanosecond payload = Ret (signed_of 32 (unsigned_of (takeN 4 (dropN 16 payload)))).
Proof.
  intros L.
  pose proof (get_raw_field_ok (Scalar U16) false 4 payload 2 eq_refl ltac:(lia)) as H1.
  pose proof (get_raw_field_ok (Scalar U8) false 6 payload 1 eq_refl ltac:(lia)) as H2.
  pose proof (get_raw_field_ok (Scalar U8) false 7 payload 1 eq_refl ltac:(lia)) as H3.
  pose proof (get_raw_field_ok (Scalar U8) false 8 payload 1 eq_refl ltac:(lia)) as H4.
  pose proof (get_raw_field_ok (Scalar U8) false 9 payload 1 eq_refl ltac:(lia)) as H5.
  pose proof (get_raw_field_ok (Scalar U8) false 10 payload 1 eq_refl ltac:(lia)) as H6.
  pose proof (get_raw_field_ok (Scalar I32) false 16 payload 4 eq_refl ltac:(lia)) as H7.
  repeat split;
  [ change (NavPvt_year payload) with (let! v := get_raw_field (Scalar U16) false 4 payload in Ret v); rewrite H1
  | change (NavPvt_month payload) with (let! v := get_raw_field (Scalar U8) false 6 payload in Ret v); rewrite H2
  | change (NavPvt_day payload) with (let! v := get_raw_field (Scalar U8) false 7 payload in Ret v); rewrite H3
  | change (NavPvt_hour payload) with (let! v := get_raw_field (Scalar U8) false 8 payload in Ret v); rewrite H4
  | change (NavPvt_min payload) with (let! v := get_raw_field (Scalar U8) false 9 payload in Ret v); rewrite H5
  | change (NavPvt_sec payload) with (let! v := get_raw_field (Scalar U8) false 10 payload in Ret v); rewrite H6
  | change (NavPvt_nanosecond payload) with (let! v := get_raw_field (Scalar I32) false 16 payload in Ret v); rewrite H7 ]; reflexivity.
Qed.

Lemma unsigned_of_bound l : 0 <= unsigned_of l < 256 ^ Z.of_N (lenN l).
Proof.
  induction l as [|b l IH]; [cbn; lia|]. cbn [unsigned_of]. rewrite lenN_cons, N2Z.inj_add. change (Z.of_N 1) with 1.
  rewrite Z.pow_add_r by lia. change (256 ^ 1) with 256. assert (Z.of_N (b2n b) < 256) by (pose proof (b2n_lt b); lia). nia.
Qed.

(** Converting a received NAV-PVT never panics.  It gives a date and time exactly when the year (bytes 4-5),
    month (6), day (7) are a date, hour (8), minute (9) and second (10) a time of day, and the nanoseconds (bytes 16-19, signed) less
    than a second; the result is that time plus the nanoseconds.  Otherwise the error is that of the first of the three which is wrong. *)
Theorem datetime_exact :
  forall payload, received p_nav_pvt payload -> (lenN payload <= 65535)%N ->
    let year := unsigned_of (takeN 2 (dropN 4 payload)) in
    let month := unsigned_of (takeN 1 (dropN 6 payload)) in
    let day := unsigned_of (takeN 1 (dropN 7 payload)) in
    let hour := unsigned_of (takeN 1 (dropN 8 payload)) in
    let minute := unsigned_of (takeN 1 (dropN 9 payload)) in
    let second := unsigned_of (takeN 1 (dropN 10 payload)) in
    let nano := signed_of 32 (unsigned_of (takeN 4 (dropN 16 payload))) in
    exists r, datetime_try_from payload = Ret r /\
    match r with
    | inl dt => is_date year month day /\ is_time hour minute second /\ -1000000000 < nano < 1000000000 /\
                proper dt /\ instant dt = instant_of year month day hour minute second nano
    | inr InvalidDate => ~ is_date year month day
    | inr InvalidTime => is_date year month day /\ ~ is_time hour minute second
    | inr InvalidNanoseconds => is_date year month day /\ is_time hour minute second /\ ~ (-1000000000 < nano < 1000000000)
    end.
Proof.
  intros payload Rc Hl. apply received_iff in Rc; [|unfold recv_table; in_list|discriminate|exact Hl].
  assert (L : lenN payload = 92%N) by exact (proj1 Rc). clear Rc Hl.
  destruct (pvt_getters payload L) as (E1 & E2 & E3 & E4 & E5 & E6 & E7).
  unfold datetime_try_from. rewrite E1, E2, E3, E4, E5, E6, E7. cbn [bind]. clear E1 E2 E3 E4 E5 E6 E7.
  assert (B : forall a b, 0 <= unsigned_of (takeN a (dropN b payload)) < 256 ^ Z.of_N a).
  { intros a b. pose proof (unsigned_of_bound (takeN a (dropN b payload))) as B. rewrite lenN_takeN in B.
    split; [lia|]. eapply Z.lt_le_trans; [apply B|]. apply Z.pow_le_mono_r; lia. }
  pose proof (B 2%N 4%N) as B1. pose proof (B 1%N 6%N) as B2. pose proof (B 1%N 7%N) as B3. pose proof (B 1%N 8%N) as B4.
  pose proof (B 1%N 9%N) as B5. pose proof (B 1%N 10%N) as B6. pose proof (B 4%N 16%N) as B7. clear B L.
  change (256 ^ Z.of_N 2) with 65536 in *. change (256 ^ Z.of_N 1) with 256 in *. change (256 ^ Z.of_N 4) with 4294967296 in *.
  assert (B8 : -2147483648 <= signed_of 32 (unsigned_of (takeN 4 (dropN 16 payload))) < 2147483648).
  { unfold signed_of. change (2 ^ (32 - 1)) with 2147483648. change (2 ^ 32) with 4294967296.
    pose proof (Z.mod_pos_bound (unsigned_of (takeN 4 (dropN 16 payload)) + 2147483648) 4294967296). lia. }
  generalize dependent (signed_of 32 (unsigned_of (takeN 4 (dropN 16 payload)))).
  generalize dependent (unsigned_of (takeN 2 (dropN 4 payload))). intros y By.
  generalize dependent (unsigned_of (takeN 1 (dropN 6 payload))). intros m Bm.
  generalize dependent (unsigned_of (takeN 1 (dropN 7 payload))). intros d Bd.
  generalize dependent (unsigned_of (takeN 1 (dropN 8 payload))). intros h Bh.
  generalize dependent (unsigned_of (takeN 1 (dropN 9 payload))). intros mi Bmi.
  generalize dependent (unsigned_of (takeN 1 (dropN 10 payload))). intros s Bs n Bn. cbv zeta. clear B7.
  unfold datetime_of_fields, from_ymd_opt, year_ok.
  replace ((-262143 <=? y) && (y <=? 262142)) with true by lia. cbn [andb].
  destruct ((1 <=? m) && (m <=? 12) && (1 <=? d) && (d <=? days_in_month y m)) eqn:D.
  2: { exists (inr InvalidDate). split; [reflexivity|]. intros [H1 H2]. rewrite <- length_agrees in H2 by lia. lia. }
  assert (Dt : is_date y m d) by (split; [lia|]; rewrite <- length_agrees by lia; lia).
  unfold from_hms_opt. destruct ((h <? 24) && (mi <? 60) && (s <? 60)) eqn:T.
  2: { exists (inr InvalidTime). split; [reflexivity|]. split; [exact Dt|]. unfold is_time. lia. }
  assert (Tm : is_time h mi s) by (unfold is_time; lia).
  unfold wrapping_abs_as_u32. change (2 ^ 32) with 4294967296. rewrite Z.mod_small by lia.
  destruct (1000000000 <=? Z.abs n) eqn:Nn.
  { exists (inr InvalidNanoseconds). split; [reflexivity|]. split; [exact Dt|]. split; [exact Tm|]. lia. }
  destruct (add_nanoseconds_spec (mk_dt (mk_date y m d) (mk_time h mi s 0)) n) as (x' & E & P & I).
  - unfold proper. cbn. split; [exact Dt|]. split; [exact Tm|]. lia.
  - lia.
  - cbn. lia.
  - rewrite E. cbn [bind]. exists (inl x'). split; [reflexivity|]. split; [exact Dt|]. split; [exact Tm|]. split; [lia|]. split; [exact P|].
    rewrite I. unfold instant, instant_of. cbn [dt_date dt_time d_year d_month d_day t_hour t_min t_sec t_nano]. lia.
Qed.

(** Half a microsecond before the year 2020 *)
Definition ex_pvt : list byte :=
  [x00;x00;x00;x00; xe4;x07; x01; x01; x00; x00; x00; xff; x00;x00;x00;x00; x0c;xfe;xff;xff] ++ repeat x00 72.
Example datetime_ex :
  received p_nav_pvt ex_pvt /\
  datetime_try_from ex_pvt = Ret (inl (mk_dt (mk_date 2019 12 31) (mk_time 23 59 59 999999500))).
Proof.
  split; [|vm_compute; reflexivity]. apply received_iff; [unfold recv_table; in_list|discriminate|vm_compute; discriminate|].
  apply validate_accepts; [reflexivity|vm_compute; discriminate|vm_compute; reflexivity].
Qed.

Print Assumptions instant_injective.
Print Assumptions datetime_exact.
