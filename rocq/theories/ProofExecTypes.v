(** * Executing the conversions through floats, dates and times: the proofs of C81 *)
From Coq Require Import String Ascii List NArith ZArith Bool Lia SpecFloat.
From Verif Require Import Base PackDesc GenRecv Floats TablePackets DateTime Convert Setters Tokens Lang Meaning SourceTypes SpecExec
  SpecExecPackets SpecExecTypes ProofLex ProofExecPackets PropDate.
Import ListNotations.
Open Scope N_scope.
Open Scope string_scope.
Open Scope list_scope.
Open Scope Z_scope.

Definition ty_tokens : list token := Eval vm_compute in tokens_of types_rs.
Lemma ty_tokens_eq : tokens_of types_rs = ty_tokens.
Proof. unfold tokens_of. rewrite <- lex_flat_eq. vm_cast_no_check (eq_refl ty_tokens). Qed.
Definition ty_fns : list lfn := Eval vm_compute in match fns_of (map const_let ty_tokens) with Some l => l | None => [] end.
Lemma ty_fns_eq : types_fns = ty_fns.
Proof. unfold types_fns. rewrite ty_tokens_eq. vm_cast_no_check (eq_refl ty_fns). Qed.

Ltac exec :=
  lazy -[fadd fmul lit fround of_int to_scalar is_sign_negative SFltb SFleb float_as
         NavPosLlh_lon_degrees NavPosLlh_lat_degrees NavPosLlh_height_msl
         NavHpPosLlh_lon_degrees NavHpPosLlh_lat_degrees NavHpPosLlh_height_msl
         NavHpPosLlh_lon_hp_degrees NavHpPosLlh_lat_hp_degrees NavHpPosLlh_height_hp_msl
         NavHpPosEcef_ecef_x_cm NavHpPosEcef_ecef_y_cm NavHpPosEcef_ecef_z_cm
         NavHpPosEcef_ecef_x_hp_mm NavHpPosEcef_ecef_y_hp_mm NavHpPosEcef_ecef_z_hp_mm
         NavVelNed_ground_speed NavVelNed_heading_degrees
         NavPvt_lon_degrees NavPvt_lat_degrees NavPvt_height_msl NavPvt_ground_speed NavPvt_heading_degrees
         NavPvt_year NavPvt_month NavPvt_day NavPvt_hour NavPvt_min NavPvt_sec NavPvt_nanosecond
         from_ymd_opt from_hms_opt add_nanoseconds year_ce Z.add Z.sub Z.mul Z.modulo Z.leb Z.ltb Z.eqb Z.abs Z.lor Z.shiftl Z.pow
         u32_checked checked scalar_min scalar_max wrapping_abs_as_u32].
Ltac by_getter g := destruct g; [|exec; reflexivity|exec; reflexivity].

Section Types.
  Context (fl : fty) (nan : bool) (payload : list byte).

  Lemma run_pos_llh :
    text_convert fl nan ty_fns 10 "Position" "NavPosLlhRef" "from" [nav_pos_llh_v payload] =
    Some (ret_map position_v (position_from_pos_llh payload)).
  Proof.
    unfold nav_pos_llh_v, position_from_pos_llh. by_getter (NavPosLlh_lon_degrees payload).
    by_getter (NavPosLlh_lat_degrees payload). by_getter (NavPosLlh_height_msl payload). exec. reflexivity.
  Qed.
  Lemma run_hp_pos_llh :
    text_convert fl nan ty_fns 10 "Position" "NavHpPosLlhRef" "from" [nav_hp_pos_llh_v payload] =
    Some (ret_map position_v (position_from_hp_pos_llh payload)).
  Proof.
    unfold nav_hp_pos_llh_v, position_from_hp_pos_llh.
    by_getter (NavHpPosLlh_lon_degrees payload). by_getter (NavHpPosLlh_lon_hp_degrees payload).
    by_getter (NavHpPosLlh_lat_degrees payload). by_getter (NavHpPosLlh_lat_hp_degrees payload).
    by_getter (NavHpPosLlh_height_msl payload). by_getter (NavHpPosLlh_height_hp_msl payload). exec. reflexivity.
  Qed.
  Lemma lit_ten : lit FTy64 10 (-2) = lit FTy64 1 (-1).
  Proof. vm_compute. reflexivity. Qed.
  Lemma run_ecef :
    text_convert fl nan ty_fns 10 "PositionECEF" "NavHpPosEcefRef" "from" [nav_hp_pos_ecef_v payload] =
    Some (ret_map ecef_v (position_from_hp_pos_ecef payload)).
  Proof.
    unfold nav_hp_pos_ecef_v, position_from_hp_pos_ecef.
    by_getter (NavHpPosEcef_ecef_x_cm payload). by_getter (NavHpPosEcef_ecef_x_hp_mm payload).
    by_getter (NavHpPosEcef_ecef_y_cm payload). by_getter (NavHpPosEcef_ecef_y_hp_mm payload).
    by_getter (NavHpPosEcef_ecef_z_cm payload). by_getter (NavHpPosEcef_ecef_z_hp_mm payload).
    exec. rewrite lit_ten. reflexivity.
  Qed.
  Lemma run_vel_ned :
    text_convert fl nan ty_fns 10 "Velocity" "NavVelNedRef" "from" [nav_vel_ned_v payload] =
    Some (ret_map velocity_v (velocity_from_vel_ned payload)).
  Proof.
    unfold nav_vel_ned_v, velocity_from_vel_ned. by_getter (NavVelNed_ground_speed payload).
    by_getter (NavVelNed_heading_degrees payload). exec. reflexivity.
  Qed.
  Lemma run_pvt_position :
    text_convert fl nan ty_fns 10 "Position" "NavPvtRef" "from" [nav_pvt_v payload] =
    Some (ret_map position_v (position_from_pvt payload)).
  Proof.
    unfold nav_pvt_v, position_from_pvt. by_getter (NavPvt_lon_degrees payload).
    by_getter (NavPvt_lat_degrees payload). by_getter (NavPvt_height_msl payload). exec. reflexivity.
  Qed.
  Lemma run_pvt_velocity :
    text_convert fl nan ty_fns 10 "Velocity" "NavPvtRef" "from" [nav_pvt_v payload] =
    Some (ret_map velocity_v (velocity_from_pvt payload)).
  Proof.
    unfold nav_pvt_v, velocity_from_pvt. by_getter (NavPvt_ground_speed payload).
    by_getter (NavPvt_heading_degrees payload). exec. reflexivity.
  Qed.
End Types.

(** ** The date and time of NAV-PVT, statement by statement *)

Lemma pvt_returns payload : lenN payload = 92%N -> exists y mo d h mi s ns,
  NavPvt_year payload = Ret y /\ NavPvt_month payload = Ret mo /\ NavPvt_day payload = Ret d /\ NavPvt_hour payload = Ret h /\
  NavPvt_min payload = Ret mi /\ NavPvt_sec payload = Ret s /\ NavPvt_nanosecond payload = Ret ns.
Proof.
  intros L. destruct (pvt_getters payload L) as (E1 & E2 & E3 & E4 & E5 & E6 & E7). do 7 eexists.
  exact (conj E1 (conj E2 (conj E3 (conj E4 (conj E5 (conj E6 E7)))))).
Qed.
Lemma abs_as_u32 z : ((if z =? -2147483648 then z else Z.abs z) - 0) mod (4294967295 - 0 + 1) + 0 = wrapping_abs_as_u32 z.
Proof.
  unfold wrapping_abs_as_u32. rewrite Z.sub_0_r, Z.add_0_r. change (4294967295 - 0 + 1) with (2 ^ 32).
  destruct (Z.eqb_spec z (-2147483648)) as [->|]; reflexivity.
Qed.

Definition dt_fn : lfn := Eval vm_compute in nth 6 ty_fns (mk_lfn "" [] "" [] [] EBreak).
Definition dt_body : list expr := Eval vm_compute in match lf_body dt_fn with EBlock l => l | _ => [] end.

Lemma eval_block fl nan n e l : eval fl nan (S n) e (EBlock l) = leave e (stmts (eval fl nan n) e l).
Proof. reflexivity. Qed.
Lemma stmts_let ev e v x y r : stmts ev e (ELet (LVar v) [] x :: y :: r) = bind (ev e x) (fun w e1 => stmts ev ((v, w) :: e1) (y :: r)).
Proof. reflexivity. Qed.
Lemma stmts_const ev e v ty x y r :
  stmts ev e (ELet (LCtor [v] []) [TIdent ty] x :: y :: r) = bind (ev e x) (fun w e1 => stmts ev ((v, typed ty w) :: e1) (y :: r)).
Proof. reflexivity. Qed.
Lemma stmts_semi ev e x y r : stmts ev e (ESemi x :: y :: r) = bind (ev e x) (fun _ e1 => stmts ev e1 (y :: r)).
Proof. reflexivity. Qed.
Lemma run_datetime fl nan payload : lenN payload = 92%N ->
  text_convert fl nan ty_fns 10 "DateTime" "NavPvtRef" "try_from" [nav_pvt_v payload] =
  Some (ret_map datetime_result_v (datetime_try_from payload)).
Proof.
  intros L. destruct (pvt_returns payload L) as (y & mo & d & h & mi & s & ns & E1 & E2 & E3 & E4 & E5 & E6 & E7).
  unfold text_convert. replace (find_fn ty_fns "DateTime" "NavPvtRef" "try_from") with (Some dt_fn) by reflexivity.
  unfold run_fn. change (lf_body dt_fn) with (EBlock dt_body). change (lf_ret dt_fn) with (lf_ret dt_fn).
  change (Nat.eqb _ _) with true. cbn [map fst lf_params dt_fn combine].
  unfold datetime_try_from, nav_pvt_v. rewrite E1, E2, E3, E4, E5, E6, E7. clear.
  match goal with |- _ = Some (ret_map _ ?m) => change m with (datetime_of_fields y mo d h mi s ns) end.
  match goal with |- context [XPacket ?l] => set (p := XPacket l) end.
  rewrite eval_block.
  unfold dt_body. rewrite stmts_let.
  match goal with |- context [bind (eval fl nan 9 ?e ?x) _] =>
    assert (A : eval fl nan 9 e x = match from_ymd_opt y mo d with Some a => Some (Ret (Val (XDate a) e)) | None => Some (Ret (Early (XAdt "Err" [("0", XAdt "InvalidDate" [])]))) end) end.
  { subst p. exec. destruct (from_ymd_opt y mo d); reflexivity. }
  rewrite A. clear A. unfold datetime_of_fields. cbn [bind].
  destruct (from_ymd_opt y mo d) as [date|]; [|reflexivity]. cbn [bind]. rewrite stmts_let.
  match goal with |- context [bind (eval fl nan 9 ?e ?x) _] =>
    assert (A : eval fl nan 9 e x = match from_hms_opt h mi s with Some a => Some (Ret (Val (XTime a) e)) | None => Some (Ret (Early (XAdt "Err" [("0", XAdt "InvalidTime" [])]))) end) end.
  { subst p. exec. destruct (from_hms_opt h mi s); reflexivity. }
  rewrite A. clear A.
  destruct (from_hms_opt h mi s) as [time|]; [|reflexivity]. cbn [bind]. rewrite stmts_const.
  match goal with |- context [bind (eval fl nan 9 ?e ?x) _] =>
    assert (A : eval fl nan 9 e x = Some (Ret (Val (XInt "" 1000000000) e))) by reflexivity end.
  rewrite A. clear A. cbn [bind]. change (typed "u32" (XInt "" 1000000000)) with (XInt "u32" 1000000000). rewrite stmts_semi.
  match goal with |- context [bind (eval fl nan 9 ?e ?x) _] =>
    assert (A : eval fl nan 9 e x = if 1000000000 <=? wrapping_abs_as_u32 ns
       then Some (Ret (Early (XAdt "Err" [("0", XAdt "InvalidNanoseconds" [])]))) else Some (Ret (Val (XTuple []) e))) end.
  { rewrite <- abs_as_u32. subst p. exec. destruct (_ <=? _); reflexivity. }
  rewrite A. clear A.
  destruct (1000000000 <=? wrapping_abs_as_u32 ns); [reflexivity|]. cbn [bind]. rewrite stmts_let.
  match goal with |- context [bind (eval fl nan 9 ?e ?x) _] =>
    assert (A : eval fl nan 9 e x = lift (Some (ret_map XNaive (add_nanoseconds (mk_dt date time) ns))) e) end.
  { subst p. exec. reflexivity. }
  rewrite A. clear A. subst p.
  destruct (add_nanoseconds (mk_dt date time) ns); reflexivity.
Qed.

(** ** The functions of packets.rs *)

Definition no_fn : lfn := mk_lfn "" [] "" [] [] EBreak.
Definition pk_get (ty name : string) : lfn := match find_fn pk_fns ty "" name with Some f => f | None => no_fn end.
Definition as_i8_fn := Eval vm_compute in pk_get "ScaleBack" "as_i8".
Definition as_i16_fn := Eval vm_compute in pk_get "ScaleBack" "as_i16".
Definition as_i32_fn := Eval vm_compute in pk_get "ScaleBack" "as_i32".
Definition as_u8_fn := Eval vm_compute in pk_get "ScaleBack" "as_u8".
Definition as_u16_fn := Eval vm_compute in pk_get "ScaleBack" "as_u16".
Definition as_u32_fn := Eval vm_compute in pk_get "ScaleBack" "as_u32".
Definition set_position_fn := Eval vm_compute in pk_get "AidIniBuilder" "set_position".
Definition set_time_fn := Eval vm_compute in pk_get "AidIniBuilder" "set_time".

Lemma pk_found fl nan n ty name f args : find_fn pk_fns ty "" name = Some f ->
  text_convert fl nan pk_fns n ty "" name args = run_fn fl nan n f args.
Proof. unfold text_convert. now intros ->. Qed.

Section ScaleBack.
  Context (t : fty) (nan : bool) (back x : spec_float).
  Ltac ends s lo hi :=
    change (scalar_min s) with lo; change (scalar_max s) with hi;
    repeat (match goal with |- context [if ?b then _ else _] => destruct b end; try reflexivity);
    match goal with |- context [to_scalar ?s ?v] => destruct (to_scalar s v); reflexivity end.
  Lemma run_as_i8 : run_fn t nan 10 as_i8_fn [scale_back_v t back; XFloat t x] = Some (ret_map (XInt "i8") (as_signed t back I8 x)).
  Proof. destruct t; exec; ends I8 (-128) 127. Qed.
  Lemma run_as_i16 : run_fn t nan 10 as_i16_fn [scale_back_v t back; XFloat t x] = Some (ret_map (XInt "i16") (as_signed t back I16 x)).
  Proof. destruct t; exec; ends I16 (-32768) 32767. Qed.
  Lemma run_as_i32 : run_fn t nan 10 as_i32_fn [scale_back_v t back; XFloat t x] = Some (ret_map (XInt "i32") (as_signed t back I32 x)).
  Proof. destruct t; exec; ends I32 (-2147483648) 2147483647. Qed.
  Lemma run_as_u8 : run_fn t nan 10 as_u8_fn [scale_back_v t back; XFloat t x] = Some (ret_map (XInt "u8") (as_unsigned nan t back U8 x)).
  Proof. destruct t; exec; ends U8 0 255. Qed.
  Lemma run_as_u16 : run_fn t nan 10 as_u16_fn [scale_back_v t back; XFloat t x] = Some (ret_map (XInt "u16") (as_unsigned nan t back U16 x)).
  Proof. destruct t; exec; ends U16 0 65535. Qed.
  Lemma run_as_u32 : run_fn t nan 10 as_u32_fn [scale_back_v t back; XFloat t x] = Some (ret_map (XInt "u32") (as_unsigned nan t back U32 x)).
  Proof. destruct t; exec; ends U32 0 4294967295. Qed.
End ScaleBack.

Lemma lit_7 : lit FTy64 10000000 0 = lit FTy64 1 7.
Proof. vm_compute. reflexivity. Qed.
Lemma lit_2 : lit FTy64 100 0 = lit FTy64 1 2.
Proof. vm_compute. reflexivity. Qed.
Lemma run_set_position fl nan b pos :
  run_fn fl nan 10 set_position_fn [aid_ini_v b; position_v pos] = Some (Ret (aid_ini_v (set_position b pos))).
Proof.
  destruct b as (b1 & b2 & b3 & b4 & b5 & b6 & b7 & b8 & b9 & b10 & b11 & b12 & b13 & []). destruct pos as [lon lat alt].
  exec. rewrite lit_7, lit_2. reflexivity.
Qed.

(** ** [set_time], statement by statement *)

Lemma checked_u32 z : checked "u32" z = Some (ret_map (XInt "u32") (u32_checked z)).
Proof.
  unfold checked, u32_checked. change (range "u32") with (Some (0, 4294967295)). cbv beta iota.
  replace (z <? 4294967296) with (z <=? 4294967295) by (destruct (Z.leb_spec z 4294967295), (Z.ltb_spec z 4294967296); lia || reflexivity).
  destruct ((0 <=? z) && (z <=? 4294967295)); reflexivity.
Qed.
Lemma eval_bin fl nan n e o a b : eval fl nan (S n) e (EBin o a b) =
  bind (eval fl nan n e a) (fun v e1 => bind (eval fl nan n e1 b) (fun w e2 => lift (bin_op o v w) e2)).
Proof. reflexivity. Qed.
Lemma eval_cast fl nan n e a ty : eval fl nan (S n) e (ECast a [TIdent ty]) = bind (eval fl nan n e a) (fun v e1 => lift (cast v ty) e1).
Proof. reflexivity. Qed.
(** An assignment, and what comes after its right side *)
Definition assigned (s f : string) (w : xval) (e : xenv) : run :=
  match get s e with
  | Some (XAdt c fs) =>
      match get f fs with
      | Some _ => match put f w fs with
                  | Some fs' => match put s (XAdt c fs') e with Some e' => Some (Ret (Val (XTuple []) e')) | None => None end
                  | None => None
                  end
      | None => None
      end
  | _ => None
  end.
Lemma eval_assign fl nan n e s f a :
  eval fl nan (S n) e (EAssign None (EField (EPath [s]) f) a) = bind (eval fl nan n e a) (fun w e1 => assigned s f w e1).
Proof. reflexivity. Qed.

Definition st_body : list expr := Eval vm_compute in match lf_body set_time_fn with EBlock l => l | _ => [] end.

Ltac leaf r := match goal with |- context [bind (eval ?fl ?nan ?n ?e ?x) _] => change (eval fl nan n e x) with (Some (Ret (Val r e))) end; cbn [bind].

Lemma run_set_time fl nan b tm : 0 <= t_nano (dt_time tm) < 2 ^ 31 ->
  run_fn fl nan 10 set_time_fn [aid_ini_v b; XUtc tm] = Some (ret_map aid_ini_v (set_time b tm)).
Proof.
  intros Hn. destruct b as (b1 & b2 & b3 & b4 & b5 & b6 & b7 & b8 & b9 & b10 & b11 & b12 & b13 & []).
  change Z in b1, b2, b3, b4, b5, b6, b7, b8, b9, b10, b11, b12, b13.
  destruct tm as [[y mo d] [h mi s ns]]. cbn [dt_time t_nano] in Hn.
  unfold run_fn. change (lf_body set_time_fn) with (EBlock st_body). change (Nat.eqb _ _) with true. cbn [map fst lf_params set_time_fn combine].
  unfold set_time. cbn [dt_date dt_time d_year d_month d_day t_hour t_min t_sec t_nano].
  match goal with |- context [aid_ini_v ?l] => set (self := aid_ini_v l) end.
  set (tm := XUtc _). rewrite eval_block. unfold st_body. rewrite stmts_semi, eval_assign, eval_cast, eval_bin, eval_bin.
  match goal with |- context [eval fl nan 5 ?e ?x] =>
    assert (A : eval fl nan 5 e x = if fst (year_ce (mk_date y mo d)) then lift (checked "u32" (snd (year_ce (mk_date y mo d)) - 2000)) e else Some Panic) end.
  { subst tm self. lazy -[Z.sub year_ce checked]. destruct (year_ce (mk_date y mo d)) as [[|] yr]; [|reflexivity].
    destruct (checked _ _) as [[]|]; reflexivity. }
  rewrite A; clear A. destruct (year_ce (mk_date y mo d)) as [[|] yr]; [|reflexivity]. cbn [fst snd]. rewrite checked_u32.
  destruct (u32_checked (yr - 2000)) as [y1| |]; [|reflexivity|reflexivity]. cbn [ret_map lift bind Base.bind].
  match goal with |- context [bind (eval fl nan ?n ?e (ENum 100 "")) _] =>
    change (eval fl nan n e (ENum 100 "")) with (Some (Ret (Val (XInt "" 100) e))) end.
  cbn [bind]. change (bin_op OMul (XInt "u32" y1) (XInt "" 100)) with (checked "u32" (y1 * 100)). rewrite checked_u32.
  destruct (u32_checked (y1 * 100)) as [y2| |]; [|reflexivity|reflexivity]. cbn [ret_map lift bind Base.bind].
  match goal with |- context [bind (eval fl nan ?n ?e ?x) _] =>
    change (eval fl nan n e x) with (Some (Ret (Val (XInt "u32" (mo - 1)) e))) end.
  cbn [bind]. change (bin_op OAdd (XInt "u32" y2) (XInt "u32" (mo - 1))) with (checked "u32" (y2 + (mo - 1))). rewrite checked_u32.
  destruct (u32_checked (y2 + (mo - 1))) as [ym| |]; [|reflexivity|reflexivity]. cbn [ret_map lift bind Base.bind].
  change (cast (XInt "u32" ym) "u16") with (Some (Ret (XInt "u16" ((ym - 0) mod (65535 - 0 + 1) + 0)))).
  replace ((ym - 0) mod (65535 - 0 + 1) + 0) with (ym mod 65536) by now rewrite Z.sub_0_r, Z.add_0_r.
  generalize (ym mod 65536) as week. clear y1 y2 ym yr. intros week. cbn [lift bind]. subst self.
  match goal with |- context [bind (assigned ?s ?f ?w ?e) _] =>
    let r := eval lazy in (assigned s f w e) in change (assigned s f w e) with r end.
  cbn [bind]. rewrite stmts_semi, eval_assign, eval_bin, eval_bin, eval_bin.
  match goal with |- context [bind (eval fl nan _ ?e _) _] => set (e0 := e) end.
  leaf (XInt "u32" h). leaf (XInt "" 10000).
  change (bin_op OMul (XInt "u32" h) (XInt "" 10000)) with (checked "u32" (h * 10000)). rewrite checked_u32.
  destruct (u32_checked (h * 10000)) as [a| |]; [|reflexivity|reflexivity]. cbn [ret_map lift bind Base.bind]. rewrite eval_bin.
  leaf (XInt "u32" mi). leaf (XInt "" 100).
  change (bin_op OMul (XInt "u32" mi) (XInt "" 100)) with (checked "u32" (mi * 100)). rewrite checked_u32.
  destruct (u32_checked (mi * 100)) as [b| |]; [|reflexivity|reflexivity]. cbn [ret_map lift bind Base.bind].
  change (bin_op OAdd (XInt "u32" a) (XInt "u32" b)) with (checked "u32" (a + b)). rewrite checked_u32.
  destruct (u32_checked (a + b)) as [c| |]; [|reflexivity|reflexivity]. cbn [ret_map lift bind Base.bind].
  leaf (XInt "u32" s).
  change (bin_op OAdd (XInt "u32" c) (XInt "u32" s)) with (checked "u32" (c + s)). rewrite checked_u32.
  destruct (u32_checked (c + s)) as [hms| |]; [|reflexivity|reflexivity]. cbn [ret_map lift bind Base.bind].
  clear a b c. subst e0.
  match goal with |- context [bind (assigned ?s ?f ?w ?e) _] =>
    let r := eval lazy in (assigned s f w e) in change (assigned s f w e) with r end.
  cbn [bind]. rewrite stmts_semi, eval_assign, eval_cast.
  leaf (XInt "u32" ns).
  change (cast (XInt "u32" ns) "i32") with (Some (Ret (XInt "i32" ((ns - -2147483648) mod (2147483647 - -2147483648 + 1) + -2147483648)))).
  replace ((ns - -2147483648) mod (2147483647 - -2147483648 + 1) + -2147483648) with ns.
  2:{ change (2147483647 - -2147483648 + 1) with (2 ^ 32). rewrite Z.mod_small by lia. lia. }
  cbn [lift bind].
  match goal with |- context [bind (assigned ?s ?f ?w ?e) _] =>
    let r := eval lazy in (assigned s f w e) in change (assigned s f w e) with r end.
  cbn [bind]. exec. reflexivity.
Qed.
