(** * Positions and velocities from navigation packets, types.rs 6-100 *)
From Coq Require Import String List NArith ZArith Bool SpecFloat.
From Verif Require Import Base PackDesc GenRecv Floats TablePackets.
Import ListNotations.
Open Scope N_scope.

(** types.rs 8-18 [Position], 22-32 [PositionECEF], 34-42 [Velocity] *)
Record position := mk_position { pos_lon : spec_float; pos_lat : spec_float; pos_alt : spec_float }.
Record position_ecef := mk_ecef { ecef_x : spec_float; ecef_y : spec_float; ecef_z : spec_float }.
Record velocity := mk_velocity { vel_speed : spec_float; vel_heading : spec_float }.

(** The getters with these names (packets.rs 44-58, 74-106, 119-159, 194-220, 255-287) *)
Definition NavPosLlh_lon_degrees : list byte -> res spec_float := g_val (the_getter p_nav_pos_llh "lon_degrees").
Definition NavPosLlh_lat_degrees : list byte -> res spec_float := g_val (the_getter p_nav_pos_llh "lat_degrees").
Definition NavPosLlh_height_msl : list byte -> res spec_float := g_val (the_getter p_nav_pos_llh "height_msl").
Definition NavHpPosLlh_lon_degrees : list byte -> res spec_float := g_val (the_getter p_nav_hp_pos_llh "lon_degrees").
Definition NavHpPosLlh_lat_degrees : list byte -> res spec_float := g_val (the_getter p_nav_hp_pos_llh "lat_degrees").
Definition NavHpPosLlh_height_msl : list byte -> res spec_float := g_val (the_getter p_nav_hp_pos_llh "height_msl").
Definition NavHpPosLlh_lon_hp_degrees : list byte -> res spec_float := g_val (the_getter p_nav_hp_pos_llh "lon_hp_degrees").
Definition NavHpPosLlh_lat_hp_degrees : list byte -> res spec_float := g_val (the_getter p_nav_hp_pos_llh "lat_hp_degrees").
Definition NavHpPosLlh_height_hp_msl : list byte -> res spec_float := g_val (the_getter p_nav_hp_pos_llh "height_hp_msl").
Definition NavHpPosEcef_ecef_x_cm : list byte -> res spec_float := g_val (the_getter p_nav_hp_pos_ecef "ecef_x_cm").
Definition NavHpPosEcef_ecef_y_cm : list byte -> res spec_float := g_val (the_getter p_nav_hp_pos_ecef "ecef_y_cm").
Definition NavHpPosEcef_ecef_z_cm : list byte -> res spec_float := g_val (the_getter p_nav_hp_pos_ecef "ecef_z_cm").
Definition NavHpPosEcef_ecef_x_hp_mm : list byte -> res spec_float := g_val (the_getter p_nav_hp_pos_ecef "ecef_x_hp_mm").
Definition NavHpPosEcef_ecef_y_hp_mm : list byte -> res spec_float := g_val (the_getter p_nav_hp_pos_ecef "ecef_y_hp_mm").
Definition NavHpPosEcef_ecef_z_hp_mm : list byte -> res spec_float := g_val (the_getter p_nav_hp_pos_ecef "ecef_z_hp_mm").
Definition NavVelNed_ground_speed : list byte -> res spec_float := g_val (the_getter p_nav_vel_ned "ground_speed").
Definition NavVelNed_heading_degrees : list byte -> res spec_float := g_val (the_getter p_nav_vel_ned "heading_degrees").
Definition NavPvt_lon_degrees : list byte -> res spec_float := g_val (the_getter p_nav_pvt "lon_degrees").
Definition NavPvt_lat_degrees : list byte -> res spec_float := g_val (the_getter p_nav_pvt "lat_degrees").
Definition NavPvt_height_msl : list byte -> res spec_float := g_val (the_getter p_nav_pvt "height_msl").
Definition NavPvt_ground_speed : list byte -> res spec_float := g_val (the_getter p_nav_pvt "ground_speed").
Definition NavPvt_heading_degrees : list byte -> res spec_float := g_val (the_getter p_nav_pvt "heading_degrees").

(** types.rs 44-52: [From<&NavPosLlhRef> for Position] *)
Definition position_from_pos_llh (payload : list byte) : res position :=
  let! lon := NavPosLlh_lon_degrees payload in
  let! lat := NavPosLlh_lat_degrees payload in
  let! alt := NavPosLlh_height_msl payload in
  Ret (mk_position lon lat alt).

(** types.rs 54-62: [From<&NavHpPosLlhRef> for Position] *)
Definition position_from_hp_pos_llh (payload : list byte) : res position :=
  let! lon := NavHpPosLlh_lon_degrees payload in
  let! lon_hp := NavHpPosLlh_lon_hp_degrees payload in
  let! lat := NavHpPosLlh_lat_degrees payload in
  let! lat_hp := NavHpPosLlh_lat_hp_degrees payload in
  let! alt := NavHpPosLlh_height_msl payload in
  let! alt_hp := NavHpPosLlh_height_hp_msl payload in
  Ret (mk_position (fadd FTy64 lon lon_hp) (fadd FTy64 lat lat_hp) (fadd FTy64 alt alt_hp)).

(** types.rs 67-69: [10e-2 * (cm + 0.1 * hp_mm)] *)
Definition ecef_coordinate (cm hp_mm : spec_float) : spec_float :=
  fmul FTy64 (lit FTy64 10 (-2)) (fadd FTy64 cm (fmul FTy64 (lit FTy64 1 (-1)) hp_mm)).

(** types.rs 64-72: [From<&NavHpPosEcefRef> for PositionECEF] *)
Definition position_from_hp_pos_ecef (payload : list byte) : res position_ecef :=
  let! x := NavHpPosEcef_ecef_x_cm payload in
  let! x_hp := NavHpPosEcef_ecef_x_hp_mm payload in
  let! y := NavHpPosEcef_ecef_y_cm payload in
  let! y_hp := NavHpPosEcef_ecef_y_hp_mm payload in
  let! z := NavHpPosEcef_ecef_z_cm payload in
  let! z_hp := NavHpPosEcef_ecef_z_hp_mm payload in
  Ret (mk_ecef (ecef_coordinate x x_hp) (ecef_coordinate y y_hp) (ecef_coordinate z z_hp)).

(** types.rs 74-81: [From<&NavVelNedRef> for Velocity] *)
Definition velocity_from_vel_ned (payload : list byte) : res velocity :=
  let! speed := NavVelNed_ground_speed payload in
  let! heading := NavVelNed_heading_degrees payload in
  Ret (mk_velocity speed heading).

(** types.rs 83-91: [From<&NavPvtRef> for Position] *)
Definition position_from_pvt (payload : list byte) : res position :=
  let! lon := NavPvt_lon_degrees payload in
  let! lat := NavPvt_lat_degrees payload in
  let! alt := NavPvt_height_msl payload in
  Ret (mk_position lon lat alt).

(** types.rs 93-100: [From<&NavPvtRef> for Velocity] *)
Definition velocity_from_pvt (payload : list byte) : res velocity :=
  let! speed := NavPvt_ground_speed payload in
  let! heading := NavPvt_heading_degrees payload in
  Ret (mk_velocity speed heading).
