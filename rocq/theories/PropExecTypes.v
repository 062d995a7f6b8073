(** * C81: the conversions through floats, dates and times, executed from their text *)
From Coq Require Import String Ascii List NArith ZArith Bool Lia SpecFloat.
From Verif Require Import Base PackDesc GenRecv Floats TablePackets DateTime Convert Setters Tokens Lang SourceTypes SpecExec
  SpecExecPackets SpecExecTypes ProofExecPackets ProofExecTypes.
Import ListNotations.
Open Scope string_scope.
Open Scope list_scope.
Open Scope Z_scope.

(** The functions of types.rs *)
Theorem text_types_read :
  map (fun f => (lf_type f, lf_name f)) types_fns =
  [("Position", "from"); ("Position", "from"); ("PositionECEF", "from"); ("Velocity", "from"); ("Position", "from");
   ("Velocity", "from"); ("DateTime", "try_from"); ("FieldIter", "fmt"); ("FieldIter", "serialize")].
Proof. rewrite ty_fns_eq. reflexivity. Qed.

(** ** Positions and velocities *)

(** For every payload (a getter which panics makes the conversion panic): what the text of [Position::from] and the others returns
    is what the model of C47 returns *)
Theorem text_positions :
  forall fl nan payload,
    text_convert fl nan types_fns 10 "Position" "NavPosLlhRef" "from" [nav_pos_llh_v payload] =
      Some (ret_map position_v (position_from_pos_llh payload)) /\
    text_convert fl nan types_fns 10 "Position" "NavHpPosLlhRef" "from" [nav_hp_pos_llh_v payload] =
      Some (ret_map position_v (position_from_hp_pos_llh payload)) /\
    text_convert fl nan types_fns 10 "PositionECEF" "NavHpPosEcefRef" "from" [nav_hp_pos_ecef_v payload] =
      Some (ret_map ecef_v (position_from_hp_pos_ecef payload)) /\
    text_convert fl nan types_fns 10 "Velocity" "NavVelNedRef" "from" [nav_vel_ned_v payload] =
      Some (ret_map velocity_v (velocity_from_vel_ned payload)) /\
    text_convert fl nan types_fns 10 "Position" "NavPvtRef" "from" [nav_pvt_v payload] =
      Some (ret_map position_v (position_from_pvt payload)) /\
    text_convert fl nan types_fns 10 "Velocity" "NavPvtRef" "from" [nav_pvt_v payload] =
      Some (ret_map velocity_v (velocity_from_pvt payload)).
Proof.
  intros. rewrite ty_fns_eq. split; [apply run_pos_llh|]. split; [apply run_hp_pos_llh|]. split; [apply run_ecef|].
  split; [apply run_vel_ned|]. split; [apply run_pvt_position|apply run_pvt_velocity].
Qed.
(** A NAV-VELNED payload with ground speed 250 cm/s and heading 0; one which is too short *)
Definition vel_ned_250 : list byte := repeat x00 20 ++ [xfa; x00; x00; x00] ++ repeat x00 12.
Example text_positions_ex :
  text_convert FTy64 false types_fns 10 "Velocity" "NavVelNedRef" "from" [nav_vel_ned_v vel_ned_250] =
    Some (Ret (XAdt "Velocity" [("speed", XFloat FTy64 (S754_finite false 5629499534213120 (-51))); ("heading", XFloat FTy64 (S754_zero false))])) /\
  text_convert FTy64 false types_fns 10 "Velocity" "NavVelNedRef" "from" [nav_vel_ned_v [x00]] = Some Panic.
Proof.
  destruct (text_positions FTy64 false vel_ned_250) as (_ & _ & _ & -> & _).
  destruct (text_positions FTy64 false [x00]) as (_ & _ & _ & -> & _). vm_compute. auto.
Qed.

(** ** Date and time *)

(** For every payload of the length of NAV-PVT.  (For a shorter one the text could fail before it reads the missing bytes.) *)
Theorem text_datetime :
  forall fl nan payload, lenN payload = 92%N ->
    text_convert fl nan types_fns 10 "DateTime" "NavPvtRef" "try_from" [nav_pvt_v payload] =
    Some (ret_map datetime_result_v (datetime_try_from payload)).
Proof. intros. rewrite ty_fns_eq. now apply run_datetime. Qed.
(** 2024-01-01 00:00:00 with -1 nanoseconds; month 13 *)
Definition pvt_payload (month : byte) : list byte :=
  [x00; x00; x00; x00; xe8; x07; month; x01; x00; x00; x00; x00; x00; x00; x00; x00; xff; xff; xff; xff] ++ repeat x00 72.
Example text_datetime_ex :
  text_convert FTy64 false types_fns 10 "DateTime" "NavPvtRef" "try_from" [nav_pvt_v (pvt_payload x01)] =
    Some (Ret (XAdt "Ok" [("0", XUtc (mk_dt (mk_date 2023 12 31) (mk_time 23 59 59 999999999)))])) /\
  text_convert FTy64 false types_fns 10 "DateTime" "NavPvtRef" "try_from" [nav_pvt_v (pvt_payload x0d)] =
    Some (Ret (XAdt "Err" [("0", XAdt "InvalidDate" [])])).
Proof. rewrite !text_datetime by reflexivity. vm_compute. auto. Qed.

(** ** The setters of AID-INI *)

(** For every builder, every position, and every date and time (the nanoseconds of chrono are below 2 * 10^9) *)
Theorem text_aid_ini_setters :
  forall fl nan b,
    (forall pos, text_convert fl nan packets_fns 10 "AidIniBuilder" "" "set_position" [aid_ini_v b; position_v pos] =
                 Some (Ret (aid_ini_v (set_position b pos)))) /\
    (forall tm, 0 <= t_nano (dt_time tm) < 2 * 10 ^ 9 ->
       text_convert fl nan packets_fns 10 "AidIniBuilder" "" "set_time" [aid_ini_v b; XUtc tm] =
       Some (ret_map aid_ini_v (set_time b tm))).
Proof.
  intros fl nan b. rewrite pk_fns_eq. split.
  - intros pos. rewrite (pk_found fl nan 10 "AidIniBuilder" "set_position" set_position_fn) by reflexivity. apply run_set_position.
  - intros tm H. rewrite (pk_found fl nan 10 "AidIniBuilder" "set_time" set_time_fn) by reflexivity. apply run_set_time.
    assert (2 * 10 ^ 9 < 2 ^ 31) by reflexivity. lia.
Qed.
(** 2023-12-31 23:59:59; a date before 2000 *)
Example text_aid_ini_ex :
  text_convert FTy64 false packets_fns 10 "AidIniBuilder" "" "set_time"
    [aid_ini_v aid_ini_default; XUtc (mk_dt (mk_date 2023 12 31) (mk_time 23 59 59 5))] =
    Some (Ret (aid_ini_v (0, (0, (0, (0, (0, (2311, (235959, (5, (0, (0, (0, (0, (1026, tt))))))))))))))) /\
  text_convert FTy64 false packets_fns 10 "AidIniBuilder" "" "set_time"
    [aid_ini_v aid_ini_default; XUtc (mk_dt (mk_date 1999 12 31) (mk_time 23 59 59 5))] = Some Panic.
Proof.
  destruct (text_aid_ini_setters FTy64 false aid_ini_default) as [_ H]. rewrite !H by (vm_compute; split; congruence).
  vm_compute. auto.
Qed.

(** ** [ScaleBack] *)

(** For both float types, every factor and every float *)
Theorem text_scale_back :
  forall t nan back x,
    let call name := text_convert t nan packets_fns 10 "ScaleBack" "" name [scale_back_v t back; XFloat t x] in
    call "as_i8" = Some (ret_map (XInt "i8") (as_signed t back I8 x)) /\
    call "as_i16" = Some (ret_map (XInt "i16") (as_signed t back I16 x)) /\
    call "as_i32" = Some (ret_map (XInt "i32") (as_signed t back I32 x)) /\
    call "as_u8" = Some (ret_map (XInt "u8") (as_unsigned nan t back U8 x)) /\
    call "as_u16" = Some (ret_map (XInt "u16") (as_unsigned nan t back U16 x)) /\
    call "as_u32" = Some (ret_map (XInt "u32") (as_unsigned nan t back U32 x)).
Proof.
  intros t nan back x. cbv zeta. rewrite pk_fns_eq.
  rewrite (pk_found t nan 10 "ScaleBack" "as_i8" as_i8_fn) by reflexivity.
  rewrite (pk_found t nan 10 "ScaleBack" "as_i16" as_i16_fn) by reflexivity.
  rewrite (pk_found t nan 10 "ScaleBack" "as_i32" as_i32_fn) by reflexivity.
  rewrite (pk_found t nan 10 "ScaleBack" "as_u8" as_u8_fn) by reflexivity.
  rewrite (pk_found t nan 10 "ScaleBack" "as_u16" as_u16_fn) by reflexivity.
  rewrite (pk_found t nan 10 "ScaleBack" "as_u32" as_u32_fn) by reflexivity.
  split; [apply run_as_i8|]. split; [apply run_as_i16|]. split; [apply run_as_i32|].
  split; [apply run_as_u8|]. split; [apply run_as_u16|apply run_as_u32].
Qed.
(** 2.5 and -2.5 as [u8] and [i8], 300 as [u8] *)
Example text_scale_back_ex :
  let call f x := text_convert FTy64 false packets_fns 10 "ScaleBack" "" f [scale_back_v FTy64 (of_int FTy64 1); XFloat FTy64 x] in
  call "as_u8" (lit FTy64 25 (-1)) = Some (Ret (XInt "u8" 3)) /\
  call "as_u8" (lit FTy64 300 0) = Some (Ret (XInt "u8" 255)) /\
  call "as_i8" (SFopp (lit FTy64 25 (-1))) = Some (Ret (XInt "i8" (-3))).
Proof.
  cbv zeta. destruct (text_scale_back FTy64 false (of_int FTy64 1) (lit FTy64 25 (-1))) as (_ & _ & _ & -> & _).
  destruct (text_scale_back FTy64 false (of_int FTy64 1) (lit FTy64 300 0)) as (_ & _ & _ & -> & _).
  destruct (text_scale_back FTy64 false (of_int FTy64 1) (SFopp (lit FTy64 25 (-1)))) as (-> & _). vm_compute. auto.
Qed.

Print Assumptions text_types_read.
Print Assumptions text_positions.
Print Assumptions text_datetime.
Print Assumptions text_aid_ini_setters.
Print Assumptions text_scale_back.
