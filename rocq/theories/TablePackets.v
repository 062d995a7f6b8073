(** * The packets declared in packets.rs

    Written by tools/gen_tables.py from the declarations in packets.rs; the comments give the lines. *)
From Coq Require Import String List NArith ZArith.
From Verif Require Import Base PackDesc Enums Floats Bits Utf8 Iterators TableTypes.
Import ListNotations.
Open Scope N_scope.
Open Scope string_scope.

(** packets.rs 38-67, [ubx_packet_recv] *)
Definition p_nav_pos_llh : pack_desc :=
  mk_desc "NavPosLlh" x01 x02 (Fixed 28) [
    mk_field "itow" None (Scalar U32) None false None; (* 42 *)
    mk_field "lon" (Some "lon_degrees") (Scalar I32) (Some (float_map FTy64 I32 (Some (1%positive, (-7)%Z)))) false None; (* 46 *)
    mk_field "lat" (Some "lat_degrees") (Scalar I32) (Some (float_map FTy64 I32 (Some (1%positive, (-7)%Z)))) false None; (* 50 *)
    mk_field "height_meters" None (Scalar I32) (Some (float_map FTy64 I32 (Some (1%positive, (-3)%Z)))) false None; (* 54 *)
    mk_field "height_msl" None (Scalar I32) (Some (float_map FTy64 I32 (Some (1%positive, (-3)%Z)))) false None; (* 58 *)
    mk_field "h_ack" None (Scalar U32) (Some (float_map FTy64 U32 (Some (1%positive, (-3)%Z)))) false None; (* 62 *)
    mk_field "v_acc" None (Scalar U32) (Some (float_map FTy64 U32 (Some (1%positive, (-3)%Z)))) false None (* 66 *)
  ].

(** packets.rs 70-107, [ubx_packet_recv] *)
Definition p_nav_vel_ned : pack_desc :=
  mk_desc "NavVelNed" x01 x12 (Fixed 36) [
    mk_field "itow" None (Scalar U32) None false None; (* 74 *)
    mk_field "vel_north" None (Scalar I32) (Some (float_map FTy64 I32 (Some (1%positive, (-2)%Z)))) false None; (* 78 *)
    mk_field "vel_east" None (Scalar I32) (Some (float_map FTy64 I32 (Some (1%positive, (-2)%Z)))) false None; (* 82 *)
    mk_field "vel_down" None (Scalar I32) (Some (float_map FTy64 I32 (Some (1%positive, (-2)%Z)))) false None; (* 86 *)
    mk_field "speed_3d" None (Scalar U32) (Some (float_map FTy64 U32 (Some (1%positive, (-2)%Z)))) false None; (* 90 *)
    mk_field "ground_speed" None (Scalar U32) (Some (float_map FTy64 U32 (Some (1%positive, (-2)%Z)))) false None; (* 94 *)
    mk_field "heading" (Some "heading_degrees") (Scalar I32) (Some (float_map FTy64 I32 (Some (1%positive, (-5)%Z)))) false None; (* 98 *)
    mk_field "speed_accuracy_estimate" None (Scalar U32) (Some (float_map FTy64 U32 (Some (1%positive, (-2)%Z)))) false None; (* 102 *)
    mk_field "course_heading_accuracy_estimate" None (Scalar U32) (Some (float_map FTy64 U32 (Some (1%positive, (-5)%Z)))) false None (* 106 *)
  ].

(** packets.rs 110-168, [ubx_packet_recv] *)
Definition p_nav_hp_pos_llh : pack_desc :=
  mk_desc "NavHpPosLlh" x01 x14 (Fixed 36) [
    mk_field "version" None (Scalar U8) None false None; (* 114 *)
    mk_field "reserved1" None (Bytes 3) None false None; (* 116 *)
    mk_field "itow" None (Scalar U32) None false None; (* 119 *)
    mk_field "lon" (Some "lon_degrees") (Scalar I32) (Some (float_map FTy64 I32 (Some (1%positive, (-7)%Z)))) false None; (* 123 *)
    mk_field "lat" (Some "lat_degrees") (Scalar I32) (Some (float_map FTy64 I32 (Some (1%positive, (-7)%Z)))) false None; (* 127 *)
    mk_field "height_meters" None (Scalar I32) (Some (float_map FTy64 I32 (Some (1%positive, (-3)%Z)))) false None; (* 131 *)
    mk_field "height_msl" None (Scalar I32) (Some (float_map FTy64 I32 (Some (1%positive, (-3)%Z)))) false None; (* 135 *)
    mk_field "lon_hp" (Some "lon_hp_degrees") (Scalar I8) (Some (float_map FTy64 I8 (Some (1%positive, (-9)%Z)))) false None; (* 141 *)
    mk_field "lat_hp" (Some "lat_hp_degrees") (Scalar I8) (Some (float_map FTy64 I8 (Some (1%positive, (-9)%Z)))) false None; (* 147 *)
    mk_field "height_hp_meters" None (Scalar I8) (Some (float_map FTy64 I8 (Some (1%positive, (-1)%Z)))) false None; (* 153 *)
    mk_field "height_hp_msl" None (Scalar I8) (Some (float_map FTy64 I8 (Some (1%positive, (-1)%Z)))) false None; (* 159 *)
    mk_field "horizontal_accuracy" None (Scalar U32) (Some (float_map FTy64 U32 (Some (1%positive, (-1)%Z)))) false None; (* 163 *)
    mk_field "vertical_accuracy" None (Scalar U32) (Some (float_map FTy64 U32 (Some (1%positive, (-1)%Z)))) false None (* 167 *)
  ].

(** packets.rs 181-228, [ubx_packet_recv] *)
Definition p_nav_hp_pos_ecef : pack_desc :=
  mk_desc "NavHpPosEcef" x01 x13 (Fixed 28) [
    mk_field "version" None (Scalar U8) None false None; (* 185 *)
    mk_field "reserved1" None (Bytes 3) None false None; (* 187 *)
    mk_field "itow" None (Scalar U32) None false None; (* 190 *)
    mk_field "ecef_x" (Some "ecef_x_cm") (Scalar I32) (Some (float_map FTy64 I32 None)) false None; (* 194 *)
    mk_field "ecef_y" (Some "ecef_y_cm") (Scalar I32) (Some (float_map FTy64 I32 None)) false None; (* 198 *)
    mk_field "ecef_z" (Some "ecef_z_cm") (Scalar I32) (Some (float_map FTy64 I32 None)) false None; (* 202 *)
    mk_field "ecef_x_hp" (Some "ecef_x_hp_mm") (Scalar I8) (Some (float_map FTy64 I8 (Some (1%positive, (-1)%Z)))) false None; (* 208 *)
    mk_field "ecef_y_hp" (Some "ecef_y_hp_mm") (Scalar I8) (Some (float_map FTy64 I8 (Some (1%positive, (-1)%Z)))) false None; (* 214 *)
    mk_field "ecef_z_hp" (Some "ecef_z_hp_mm") (Scalar I8) (Some (float_map FTy64 I8 (Some (1%positive, (-1)%Z)))) false None; (* 220 *)
    mk_field "flags" None (Scalar U8) (Some (flags_map U8 bf_nav_hp_pos_ecef_flags)) false None; (* 223 *)
    mk_field "p_acc" None (Scalar U32) (Some (float_map FTy64 U32 (Some (1%positive, (-1)%Z)))) false None (* 227 *)
  ].

(** packets.rs 231-306, [ubx_packet_recv] *)
Definition p_nav_pvt : pack_desc :=
  mk_desc "NavPvt" x01 x07 (Fixed 92) [
    mk_field "itow" None (Scalar U32) None false None; (* 235 *)
    mk_field "year" None (Scalar U16) None false None; (* 236 *)
    mk_field "month" None (Scalar U8) None false None; (* 237 *)
    mk_field "day" None (Scalar U8) None false None; (* 238 *)
    mk_field "hour" None (Scalar U8) None false None; (* 239 *)
    mk_field "min" None (Scalar U8) None false None; (* 240 *)
    mk_field "sec" None (Scalar U8) None false None; (* 241 *)
    mk_field "valid" None (Scalar U8) None false None; (* 242 *)
    mk_field "time_accuracy" None (Scalar U32) None false None; (* 243 *)
    mk_field "nanosecond" None (Scalar I32) None false None; (* 244 *)
    mk_field "fix_type" None (Scalar U8) (Some (enum_map e_gps_fix false)) false None; (* 248 *)
    mk_field "flags" None (Scalar U8) (Some (flags_map U8 bf_nav_pvt_flags)) false None; (* 250 *)
    mk_field "flags2" None (Scalar U8) (Some (flags_map U8 bf_nav_pvt_flags2)) false None; (* 252 *)
    mk_field "num_satellites" None (Scalar U8) None false None; (* 253 *)
    mk_field "lon" (Some "lon_degrees") (Scalar I32) (Some (float_map FTy64 I32 (Some (1%positive, (-7)%Z)))) false None; (* 255 *)
    mk_field "lat" (Some "lat_degrees") (Scalar I32) (Some (float_map FTy64 I32 (Some (1%positive, (-7)%Z)))) false None; (* 257 *)
    mk_field "height_meters" None (Scalar I32) (Some (float_map FTy64 I32 (Some (1%positive, (-3)%Z)))) false None; (* 261 *)
    mk_field "height_msl" None (Scalar I32) (Some (float_map FTy64 I32 (Some (1%positive, (-3)%Z)))) false None; (* 265 *)
    mk_field "horiz_accuracy" None (Scalar U32) None false None; (* 266 *)
    mk_field "vert_accuracy" None (Scalar U32) None false None; (* 267 *)
    mk_field "vel_north" None (Scalar I32) (Some (float_map FTy64 I32 (Some (1%positive, (-3)%Z)))) false None; (* 271 *)
    mk_field "vel_east" None (Scalar I32) (Some (float_map FTy64 I32 (Some (1%positive, (-3)%Z)))) false None; (* 275 *)
    mk_field "vel_down" None (Scalar I32) (Some (float_map FTy64 I32 (Some (1%positive, (-3)%Z)))) false None; (* 279 *)
    mk_field "ground_speed" None (Scalar U32) (Some (float_map FTy64 U32 (Some (1%positive, (-3)%Z)))) false None; (* 283 *)
    mk_field "heading" (Some "heading_degrees") (Scalar I32) (Some (float_map FTy64 I32 (Some (1%positive, (-5)%Z)))) false None; (* 287 *)
    mk_field "speed_accuracy_estimate" None (Scalar U32) (Some (float_map FTy64 U32 (Some (1%positive, (-3)%Z)))) false None; (* 291 *)
    mk_field "heading_accuracy_estimate" None (Scalar U32) (Some (float_map FTy64 U32 (Some (1%positive, (-5)%Z)))) false None; (* 295 *)
    mk_field "pdop" None (Scalar U16) None false None; (* 298 *)
    mk_field "reserved1" None (Bytes 6) None false None; (* 299 *)
    mk_field "heading_of_vehicle" (Some "heading_of_vehicle_degrees") (Scalar I32) (Some (float_map FTy64 I32 (Some (1%positive, (-5)%Z)))) false None; (* 301 *)
    mk_field "magnetic_declination" (Some "magnetic_declination_degrees") (Scalar I16) (Some (float_map FTy64 I16 (Some (1%positive, (-2)%Z)))) false None; (* 303 *)
    mk_field "magnetic_declination_accuracy" (Some "magnetic_declination_accuracy_degrees") (Scalar U16) (Some (float_map FTy64 U16 (Some (1%positive, (-2)%Z)))) false None (* 305 *)
  ].

(** packets.rs 345-374, [ubx_packet_recv] *)
Definition p_nav_status : pack_desc :=
  mk_desc "NavStatus" x01 x03 (Fixed 16) [
    mk_field "itow" None (Scalar U32) None false None; (* 349 *)
    mk_field "fix_type" None (Scalar U8) (Some (enum_map e_gps_fix false)) false None; (* 355 *)
    mk_field "flags" None (Scalar U8) (Some (flags_map U8 bf_nav_status_flags)) false None; (* 359 *)
    mk_field "fix_stat" None (Scalar U8) (Some (word_map U8)) false None; (* 363 *)
    mk_field "flags2" None (Scalar U8) (Some (enum_map e_nav_status_flags2 false)) false None; (* 367 *)
    mk_field "time_to_first_fix" None (Scalar U32) None false None; (* 370 *)
    mk_field "uptime_ms" None (Scalar U32) None false None (* 373 *)
  ].

(** packets.rs 377-396, [ubx_packet_recv] *)
Definition p_nav_dop : pack_desc :=
  mk_desc "NavDop" x01 x04 (Fixed 18) [
    mk_field "itow" None (Scalar U32) None false None; (* 381 *)
    mk_field "geometric_dop" None (Scalar U16) (Some (float_map FTy32 U16 (Some (1%positive, (-2)%Z)))) false None; (* 383 *)
    mk_field "position_dop" None (Scalar U16) (Some (float_map FTy32 U16 (Some (1%positive, (-2)%Z)))) false None; (* 385 *)
    mk_field "time_dop" None (Scalar U16) (Some (float_map FTy32 U16 (Some (1%positive, (-2)%Z)))) false None; (* 387 *)
    mk_field "vertical_dop" None (Scalar U16) (Some (float_map FTy32 U16 (Some (1%positive, (-2)%Z)))) false None; (* 389 *)
    mk_field "horizontal_dop" None (Scalar U16) (Some (float_map FTy32 U16 (Some (1%positive, (-2)%Z)))) false None; (* 391 *)
    mk_field "northing_dop" None (Scalar U16) (Some (float_map FTy32 U16 (Some (1%positive, (-2)%Z)))) false None; (* 393 *)
    mk_field "easting_dop" None (Scalar U16) (Some (float_map FTy32 U16 (Some (1%positive, (-2)%Z)))) false None (* 395 *)
  ].

(** packets.rs 399-404, [ubx_packet_recv] *)
Definition p_nav_eoe : pack_desc :=
  mk_desc "NavEoe" x01 x61 (Fixed 4) [
    mk_field "itow" None (Scalar U32) None false None (* 403 *)
  ].

(** packets.rs 407-467, [ubx_packet_recv] *)
Definition p_nav_solution : pack_desc :=
  mk_desc "NavSolution" x01 x06 (Fixed 52) [
    mk_field "itow" None (Scalar U32) None false None; (* 411 *)
    mk_field "ftow_ns" None (Scalar I32) None false None; (* 414 *)
    mk_field "week" None (Scalar I16) None false None; (* 417 *)
    mk_field "fix_type" None (Scalar U8) (Some (enum_map e_gps_fix false)) false None; (* 421 *)
    mk_field "flags" None (Scalar U8) (Some (flags_map U8 bf_nav_status_flags)) false None; (* 425 *)
    mk_field "ecef_x" None (Scalar I32) (Some (float_map FTy64 I32 (Some (1%positive, (-2)%Z)))) false None; (* 429 *)
    mk_field "ecef_y" None (Scalar I32) (Some (float_map FTy64 I32 (Some (1%positive, (-2)%Z)))) false None; (* 433 *)
    mk_field "ecef_z" None (Scalar I32) (Some (float_map FTy64 I32 (Some (1%positive, (-2)%Z)))) false None; (* 437 *)
    mk_field "position_accuracy_estimate" None (Scalar U32) (Some (float_map FTy64 U32 (Some (1%positive, (-2)%Z)))) false None; (* 441 *)
    mk_field "ecef_vx" None (Scalar I32) (Some (float_map FTy64 I32 (Some (1%positive, (-2)%Z)))) false None; (* 445 *)
    mk_field "ecef_vy" None (Scalar I32) (Some (float_map FTy64 I32 (Some (1%positive, (-2)%Z)))) false None; (* 449 *)
    mk_field "ecef_vz" None (Scalar I32) (Some (float_map FTy64 I32 (Some (1%positive, (-2)%Z)))) false None; (* 453 *)
    mk_field "speed_accuracy_estimate" None (Scalar U32) (Some (float_map FTy64 U32 (Some (1%positive, (-2)%Z)))) false None; (* 457 *)
    mk_field "pdop" None (Scalar U16) (Some (float_map FTy32 U16 (Some (1%positive, (-2)%Z)))) false None; (* 461 *)
    mk_field "reserved1" None (Scalar U8) None false None; (* 462 *)
    mk_field "num_sv" None (Scalar U8) None false None; (* 465 *)
    mk_field "reserved2" None (Bytes 4) None false None (* 466 *)
  ].

(** packets.rs 720-732, [ubx_packet_recv] *)
Definition p_nav_sat_sv_info : pack_desc :=
  mk_desc "NavSatSvInfo" x01 x35 (Fixed 12) [
    mk_field "gnss_id" None (Scalar U8) None false None; (* 723 *)
    mk_field "sv_id" None (Scalar U8) None false None; (* 724 *)
    mk_field "cno" None (Scalar U8) None false None; (* 725 *)
    mk_field "elev" None (Scalar I8) None false None; (* 726 *)
    mk_field "azim" None (Scalar I16) None false None; (* 727 *)
    mk_field "pr_res" None (Scalar I16) None false None; (* 728 *)
    mk_field "flags" None (Scalar U32) (Some (word_map U32)) false None (* 731 *)
  ].

(** packets.rs 764-785, [ubx_packet_recv] *)
Definition p_nav_sat : pack_desc :=
  mk_desc "NavSat" x01 x35 (Max 1240) [
    mk_field "itow" None (Scalar U32) None false None; (* 768 *)
    mk_field "version" None (Scalar U8) None false None; (* 771 *)
    mk_field "num_svs" None (Scalar U8) None false None; (* 773 *)
    mk_field "reserved" None (Bytes 2) None false None; (* 775 *)
    mk_field "svs" None (Bytes 0) (Some (offset_iter_map (fun l => Ret (nav_sat_is_valid l)))) true None (* 784 *)
  ].

(** packets.rs 788-797, [ubx_packet_recv] *)
Definition p_nav_odo : pack_desc :=
  mk_desc "NavOdo" x01 x09 (Fixed 20) [
    mk_field "version" None (Scalar U8) None false None; (* 791 *)
    mk_field "reserved" None (Bytes 3) None false None; (* 792 *)
    mk_field "itow" None (Scalar U32) None false None; (* 793 *)
    mk_field "distance" None (Scalar U32) None false None; (* 794 *)
    mk_field "total_distance" None (Scalar U32) None false None; (* 795 *)
    mk_field "distance_std" None (Scalar U32) None false None (* 796 *)
  ].

(** packets.rs 800-802, [ubx_packet_send] *)
Definition p_nav_reset_odo : pack_desc :=
  mk_desc "NavResetOdo" x01 x10 (Fixed 0) [

  ].

(** packets.rs 805-827, [ubx_packet_recv_send] *)
Definition p_cfg_odo : pack_desc :=
  mk_desc "CfgOdo" x06 x1e (Fixed 20) [
    mk_field "version" None (Scalar U8) None false None; (* 813 *)
    mk_field "reserved" None (Bytes 3) None false None; (* 814 *)
    mk_field "flags" None (Scalar U8) (Some (flags_map U8 bf_odo_cog_filter_flags)) false None; (* 817 *)
    mk_field "odo_cfg" None (Scalar U8) (Some (enum_map e_odo_profile true)) false None; (* 819 *)
    mk_field "reserved2" None (Bytes 6) None false None; (* 820 *)
    mk_field "cog_max_speed" None (Scalar U8) None false None; (* 821 *)
    mk_field "cog_max_pos_acc" None (Scalar U8) None false None; (* 822 *)
    mk_field "reserved3" None (Bytes 2) None false None; (* 823 *)
    mk_field "vel_lp_gain" None (Scalar U8) None false None; (* 824 *)
    mk_field "cog_lp_gain" None (Scalar U8) None false None; (* 825 *)
    mk_field "reserved4" None (Bytes 2) None false None (* 826 *)
  ].

(** packets.rs 861-870, [ubx_packet_recv_send] *)
Definition p_cfg_itfm : pack_desc :=
  mk_desc "CfgItfm" x06 x39 (Fixed 8) [
    mk_field "config" None (Scalar U32) (Some itfm_config_map) false None; (* 866 *)
    mk_field "config2" None (Scalar U32) (Some itfm_config2_map) false None (* 869 *)
  ].

(** packets.rs 1092-1114, [ubx_packet_recv_send] *)
Definition p_cfg_inf : pack_desc :=
  mk_desc "CfgInf" x06 x02 (Fixed 10) [
    mk_field "protocol_id" None (Scalar U8) None false None; (* 1100 *)
    mk_field "reserved" None (Bytes 3) None false None; (* 1101 *)
    mk_field "inf_msg_mask_0" None (Scalar U8) (Some (flags_map U8 bf_cfg_inf_mask)) false None; (* 1103 *)
    mk_field "inf_msg_mask_1" None (Scalar U8) (Some (flags_map U8 bf_cfg_inf_mask)) false None; (* 1105 *)
    mk_field "inf_msg_mask_2" None (Scalar U8) (Some (flags_map U8 bf_cfg_inf_mask)) false None; (* 1107 *)
    mk_field "inf_msg_mask_3" None (Scalar U8) (Some (flags_map U8 bf_cfg_inf_mask)) false None; (* 1109 *)
    mk_field "inf_msg_mask_4" None (Scalar U8) (Some (flags_map U8 bf_cfg_inf_mask)) false None; (* 1111 *)
    mk_field "inf_msg_mask_5" None (Scalar U8) (Some (flags_map U8 bf_cfg_inf_mask)) false None (* 1113 *)
  ].

(** packets.rs 1130-1144, [ubx_packet_recv] *)
Definition p_inf_error : pack_desc :=
  mk_desc "InfError" x04 x00 (Max 1240) [
    mk_field "message" None (Bytes 0) (Some inf_map) true None (* 1143 *)
  ].

(** packets.rs 1146-1160, [ubx_packet_recv] *)
Definition p_inf_notice : pack_desc :=
  mk_desc "InfNotice" x04 x02 (Max 1240) [
    mk_field "message" None (Bytes 0) (Some inf_map) true None (* 1159 *)
  ].

(** packets.rs 1162-1176, [ubx_packet_recv] *)
Definition p_inf_test : pack_desc :=
  mk_desc "InfTest" x04 x03 (Max 1240) [
    mk_field "message" None (Bytes 0) (Some inf_map) true None (* 1175 *)
  ].

(** packets.rs 1178-1192, [ubx_packet_recv] *)
Definition p_inf_warning : pack_desc :=
  mk_desc "InfWarning" x04 x01 (Max 1240) [
    mk_field "message" None (Bytes 0) (Some inf_map) true None (* 1191 *)
  ].

(** packets.rs 1194-1208, [ubx_packet_recv] *)
Definition p_inf_debug : pack_desc :=
  mk_desc "InfDebug" x04 x04 (Max 1240) [
    mk_field "message" None (Bytes 0) (Some inf_map) true None (* 1207 *)
  ].

(** packets.rs 1224-1245, [ubx_packet_send] *)
Definition p_aid_ini : pack_desc :=
  mk_desc "AidIni" x0b x01 (Fixed 48) [
    mk_field "ecef_x_or_lat" None (Scalar I32) None false None; (* 1232 *)
    mk_field "ecef_y_or_lon" None (Scalar I32) None false None; (* 1233 *)
    mk_field "ecef_z_or_alt" None (Scalar I32) None false None; (* 1234 *)
    mk_field "pos_accuracy" None (Scalar U32) None false None; (* 1235 *)
    mk_field "time_cfg" None (Scalar U16) None false None; (* 1236 *)
    mk_field "week_or_ym" None (Scalar U16) None false None; (* 1237 *)
    mk_field "tow_or_hms" None (Scalar U32) None false None; (* 1238 *)
    mk_field "tow_ns" None (Scalar I32) None false None; (* 1239 *)
    mk_field "tm_accuracy_ms" None (Scalar U32) None false None; (* 1240 *)
    mk_field "tm_accuracy_ns" None (Scalar U32) None false None; (* 1241 *)
    mk_field "clk_drift_or_freq" None (Scalar I32) None false None; (* 1242 *)
    mk_field "clk_drift_or_freq_accuracy" None (Scalar U32) None false None; (* 1243 *)
    mk_field "flags" None (Scalar U32) None false None (* 1244 *)
  ].

(** packets.rs 1272-1284, [ubx_packet_recv] *)
Definition p_alp_srv : pack_desc :=
  mk_desc "AlpSrv" x0b x32 (Fixed 16) [
    mk_field "id_size" None (Scalar U8) None false None; (* 1275 *)
    mk_field "data_type" None (Scalar U8) None false None; (* 1276 *)
    mk_field "offset" None (Scalar U16) None false None; (* 1277 *)
    mk_field "size" None (Scalar U16) None false None; (* 1278 *)
    mk_field "file_id" None (Scalar U16) None false None; (* 1279 *)
    mk_field "data_size" None (Scalar U16) None false None; (* 1280 *)
    mk_field "id1" None (Scalar U8) None false None; (* 1281 *)
    mk_field "id2" None (Scalar U8) None false None; (* 1282 *)
    mk_field "id3" None (Scalar U32) None false None (* 1283 *)
  ].

(** packets.rs 1288-1296, [ubx_packet_recv] *)
Definition p_ack_ack : pack_desc :=
  mk_desc "AckAck" x05 x01 (Fixed 2) [
    mk_field "class" None (Scalar U8) None false None; (* 1292 *)
    mk_field "msg_id" None (Scalar U8) None false None (* 1295 *)
  ].

(** packets.rs 1305-1313, [ubx_packet_recv] *)
Definition p_ack_nak : pack_desc :=
  mk_desc "AckNak" x05 x00 (Fixed 2) [
    mk_field "class" None (Scalar U8) None false None; (* 1309 *)
    mk_field "msg_id" None (Scalar U8) None false None (* 1312 *)
  ].

(** packets.rs 1322-1333, [ubx_packet_send] *)
Definition p_cfg_rst : pack_desc :=
  mk_desc "CfgRst" x06 x04 (Fixed 4) [
    mk_field "nav_bbr_mask" None (Scalar U16) (Some (flags_map U16 bf_nav_bbr_mask)) false None; (* 1327 *)
    mk_field "reset_mode" None (Scalar U8) (Some (c_like_map U8 reset_mode_variants)) false None; (* 1331 *)
    mk_field "reserved1" None (Scalar U8) None false None (* 1332 *)
  ].

(** packets.rs 1336-1344, [ubx_packet_recv_send] *)
Definition p_cfg_ant : pack_desc :=
  mk_desc "CfgAnt" x06 x13 (Fixed 4) [
    mk_field "flags" None (Scalar U16) (Some (flags_map U16 bf_ant_flags)) false None; (* 1341 *)
    mk_field "pins" None (Scalar U16) None false None (* 1343 *)
  ].

(** packets.rs 1365-1407, [ubx_packet_recv_send] *)
Definition p_cfg_tp5 : pack_desc :=
  mk_desc "CfgTp5" x06 x31 (Fixed 32) [
    mk_field "tp_idx" None (Scalar U8) (Some (enum_map e_cfg_tp5_time_pulse_mode true)) false None; (* 1374 *)
    mk_field "version" None (Scalar U8) None false None; (* 1375 *)
    mk_field "reserved1" None (Bytes 2) None false None; (* 1376 *)
    mk_field "ant_cable_delay" None (Scalar I16) (Some (float_map FTy32 I16 (Some (1%positive, 0%Z)))) false None; (* 1379 *)
    mk_field "rf_group_delay" None (Scalar I16) (Some (float_map FTy32 I16 (Some (1%positive, 0%Z)))) false None; (* 1382 *)
    mk_field "freq_period" None (Scalar U32) (Some (float_map FTy64 U32 (Some (1%positive, 0%Z)))) false None; (* 1386 *)
    mk_field "freq_period_lock" None (Scalar U32) (Some (float_map FTy64 U32 (Some (1%positive, 0%Z)))) false None; (* 1391 *)
    mk_field "pulse_len_ratio" None (Scalar U32) (Some (float_map FTy64 U32 (Some (1%positive, 0%Z)))) false None; (* 1395 *)
    mk_field "pulse_len_ratio_lock" None (Scalar U32) (Some (float_map FTy64 U32 (Some (1%positive, 0%Z)))) false None; (* 1400 *)
    mk_field "user_delay" None (Scalar I32) (Some (float_map FTy64 I32 (Some (1%positive, 0%Z)))) false None; (* 1403 *)
    mk_field "flags" None (Scalar U32) (Some (flags_map U32 bf_cfg_tp5_flags)) false None (* 1406 *)
  ].

(** packets.rs 1423-1457, [ubx_packet_recv_send] *)
Definition p_cfg_tmode2 : pack_desc :=
  mk_desc "CfgTmode2" x06 x3d (Fixed 28) [
    mk_field "time_transfer_mode" None (Scalar U8) (Some (enum_map e_cfg_tmode2_time_xfer_modes true)) false None; (* 1433 *)
    mk_field "reserved1" None (Scalar U8) None false None; (* 1434 *)
    mk_field "flags" None (Scalar U16) (Some (flags_map U16 bf_cfg_tmode2_flags)) false None; (* 1436 *)
    mk_field "ecef_x_or_lat" None (Scalar I32) (Some (float_map FTy64 I32 (Some (1%positive, (-2)%Z)))) false None; (* 1440 *)
    mk_field "ecef_y_or_lon" None (Scalar I32) (Some (float_map FTy64 I32 (Some (1%positive, (-2)%Z)))) false None; (* 1444 *)
    mk_field "ecef_z_or_alt" None (Scalar I32) (Some (float_map FTy64 I32 (Some (1%positive, (-2)%Z)))) false None; (* 1448 *)
    mk_field "fixed_pos_acc" None (Scalar U32) (Some (float_map FTy64 U32 (Some (1%positive, (-3)%Z)))) false None; (* 1451 *)
    mk_field "survey_in_min_duration" None (Scalar U32) None false None; (* 1453 *)
    mk_field "survery_in_accur_limit" None (Scalar U32) (Some (float_map FTy64 U32 (Some (1%positive, (-3)%Z)))) false None (* 1456 *)
  ].

(** packets.rs 1488-1509, [ubx_packet_recv] *)
Definition p_tim_svin : pack_desc :=
  mk_desc "TimSvin" x0d x04 (Fixed 28) [
    mk_field "dur" None (Scalar U32) None false None; (* 1493 *)
    mk_field "mean_x" None (Scalar I32) None false None; (* 1495 *)
    mk_field "mean_y" None (Scalar I32) None false None; (* 1497 *)
    mk_field "mean_z" None (Scalar I32) None false None; (* 1499 *)
    mk_field "mean_v" None (Scalar I32) None false None; (* 1501 *)
    mk_field "obs" None (Scalar U32) None false None; (* 1503 *)
    mk_field "valid" None (Scalar U8) None false None; (* 1505 *)
    mk_field "active" None (Scalar U8) None false None; (* 1507 *)
    mk_field "reserved" None (Bytes 2) None false None (* 1508 *)
  ].

(** packets.rs 1512-1560, [ubx_packet_recv] *)
Definition p_nav_time_ls : pack_desc :=
  mk_desc "NavTimeLs" x01 x26 (Fixed 24) [
    mk_field "itow" None (Scalar U32) None false None; (* 1516 *)
    mk_field "version" None (Scalar U8) None false None; (* 1518 *)
    mk_field "reserved_1" None (Bytes 3) None false None; (* 1519 *)
    mk_field "src_of_curr_ls" None (Scalar U8) None false None; (* 1529 *)
    mk_field "current_ls" None (Scalar I8) None false None; (* 1533 *)
    mk_field "src_of_ls_change" None (Scalar U8) None false None; (* 1541 *)
    mk_field "ls_change" None (Scalar I8) None false None; (* 1544 *)
    mk_field "time_to_ls_event" None (Scalar I32) None false None; (* 1548 *)
    mk_field "date_of_ls_gps_wn" None (Scalar U16) None false None; (* 1551 *)
    mk_field "date_of_ls_gps_dn" None (Scalar U16) None false None; (* 1555 *)
    mk_field "reserved_2" None (Bytes 3) None false None; (* 1556 *)
    mk_field "valid" None (Scalar U8) (Some (flags_map U8 bf_nav_time_ls_flags)) false None (* 1559 *)
  ].

(** packets.rs 1578-1630, [ubx_packet_recv_send] *)
Definition p_cfg_tmode3 : pack_desc :=
  mk_desc "CfgTmode3" x06 x71 (Fixed 40) [
    mk_field "version" None (Scalar U8) None false None; (* 1586 *)
    mk_field "reserved1" None (Scalar U8) None false None; (* 1587 *)
    mk_field "rcvr_mode" None (Scalar U8) (Some (flags_map U8 bf_cfg_tmode3_rcvr_mode)) false None; (* 1590 *)
    mk_field "flags" None (Scalar U8) (Some (flags_map U8 bf_cfg_tmode3_flags)) false None; (* 1592 *)
    mk_field "ecef_x_or_lat" None (Scalar I32) (Some (float_map FTy64 I32 (Some (1%positive, (-2)%Z)))) false None; (* 1596 *)
    mk_field "ecef_y_or_lon" None (Scalar I32) (Some (float_map FTy64 I32 (Some (1%positive, (-2)%Z)))) false None; (* 1600 *)
    mk_field "ecef_z_or_alt" None (Scalar I32) (Some (float_map FTy64 I32 (Some (1%positive, (-2)%Z)))) false None; (* 1604 *)
    mk_field "ecef_x_or_lat_hp" None (Scalar I8) (Some (float_map FTy32 I8 (Some (1%positive, 0%Z)))) false None; (* 1609 *)
    mk_field "ecef_y_or_lon_hp" None (Scalar I8) (Some (float_map FTy32 I8 (Some (1%positive, 0%Z)))) false None; (* 1614 *)
    mk_field "ecef_z_or_alt_hp" None (Scalar I8) (Some (float_map FTy32 I8 (Some (1%positive, 0%Z)))) false None; (* 1619 *)
    mk_field "reserved2" None (Scalar U8) None false None; (* 1620 *)
    mk_field "fixed_pos_acc" None (Scalar U32) (Some (float_map FTy64 U32 (Some (1%positive, (-4)%Z)))) false None; (* 1623 *)
    mk_field "sv_in_min_duration" None (Scalar U32) None false None; (* 1625 *)
    mk_field "sv_in_accur_limit" None (Scalar U32) (Some (float_map FTy64 U32 (Some (1%positive, (-4)%Z)))) false None; (* 1628 *)
    mk_field "reserved3" None (Bytes 8) None false None (* 1629 *)
  ].

(** packets.rs 1765-1779, [ubx_packet_send] *)
Definition p_cfg_val_set : pack_desc :=
  mk_desc "CfgValSet" x06 x8a (Max 772) [
    mk_field "version" None (Scalar U8) None false None; (* 1773 *)
    mk_field "layers" None (Scalar U8) (Some (flags_map U8 bf_cfg_layer)) false None; (* 1776 *)
    mk_field "reserved1" None (Scalar U16) None false None; (* 1777 *)
    mk_field "cfg_data" None Items None false None (* 1778 *)
  ].

(** packets.rs 1836-1858, [ubx_packet_recv_send] *)
Definition p_cfg_prt_i2c : pack_desc :=
  mk_desc "CfgPrtI2c" x06 x00 (Fixed 20) [
    mk_field "portid" None (Scalar U8) (Some (enum_map e_i2c_port_id true)) false None; (* 1845 *)
    mk_field "reserved1" None (Scalar U8) None false None; (* 1846 *)
    mk_field "tx_ready" None (Scalar U16) None false None; (* 1848 *)
    mk_field "mode" None (Scalar U32) None false None; (* 1850 *)
    mk_field "reserved2" None (Scalar U32) None false None; (* 1851 *)
    mk_field "in_proto_mask" None (Scalar U16) (Some (flags_map U16 bf_in_proto_mask)) false None; (* 1853 *)
    mk_field "out_proto_mask" None (Scalar U16) (Some (flags_map U16 bf_out_proto_mask)) false None; (* 1855 *)
    mk_field "flags" None (Scalar U16) None false None; (* 1856 *)
    mk_field "reserved3" None (Scalar U16) None false None (* 1857 *)
  ].

(** packets.rs 1872-1888, [ubx_packet_recv_send] *)
Definition p_cfg_prt_uart : pack_desc :=
  mk_desc "CfgPrtUart" x06 x00 (Fixed 20) [
    mk_field "portid" None (Scalar U8) (Some (enum_map e_uart_port_id true)) false None; (* 1876 *)
    mk_field "reserved0" None (Scalar U8) None false None; (* 1877 *)
    mk_field "tx_ready" None (Scalar U16) None false None; (* 1878 *)
    mk_field "mode" None (Scalar U32) (Some uart_mode_map) false None; (* 1880 *)
    mk_field "baud_rate" None (Scalar U32) None false None; (* 1881 *)
    mk_field "in_proto_mask" None (Scalar U16) (Some (flags_map U16 bf_in_proto_mask)) false None; (* 1883 *)
    mk_field "out_proto_mask" None (Scalar U16) (Some (flags_map U16 bf_out_proto_mask)) false None; (* 1885 *)
    mk_field "flags" None (Scalar U16) None false None; (* 1886 *)
    mk_field "reserved5" None (Scalar U16) None false None (* 1887 *)
  ].

(** packets.rs 2037-2059, [ubx_packet_recv_send] *)
Definition p_cfg_prt_spi : pack_desc :=
  mk_desc "CfgPrtSpi" x06 x00 (Fixed 20) [
    mk_field "portid" None (Scalar U8) (Some (enum_map e_spi_port_id true)) false None; (* 2046 *)
    mk_field "reserved0" None (Scalar U8) None false None; (* 2047 *)
    mk_field "tx_ready" None (Scalar U16) None false None; (* 2049 *)
    mk_field "mode" None (Scalar U32) None false None; (* 2051 *)
    mk_field "reserved3" None (Scalar U32) None false None; (* 2052 *)
    mk_field "in_proto_mask" None (Scalar U16) (Some (flags_map U16 bf_in_proto_mask)) false None; (* 2054 *)
    mk_field "out_proto_mask" None (Scalar U16) (Some (flags_map U16 bf_out_proto_mask)) false None; (* 2056 *)
    mk_field "flags" None (Scalar U16) None false None; (* 2057 *)
    mk_field "reserved5" None (Scalar U16) None false None (* 2058 *)
  ].

(** packets.rs 2108-2139, [ubx_packet_recv] *)
Definition p_nav_time_utc : pack_desc :=
  mk_desc "NavTimeUTC" x01 x21 (Fixed 20) [
    mk_field "itow" None (Scalar U32) None false None; (* 2112 *)
    mk_field "time_accuracy_estimate_ns" None (Scalar U32) None false None; (* 2113 *)
    mk_field "nanos" None (Scalar I32) None false None; (* 2116 *)
    mk_field "year" None (Scalar U16) None false None; (* 2119 *)
    mk_field "month" None (Scalar U8) None false None; (* 2122 *)
    mk_field "day" None (Scalar U8) None false None; (* 2125 *)
    mk_field "hour" None (Scalar U8) None false None; (* 2128 *)
    mk_field "min" None (Scalar U8) None false None; (* 2131 *)
    mk_field "sec" None (Scalar U8) None false None; (* 2134 *)
    mk_field "valid" None (Scalar U8) (Some (flags_map U8 bf_nav_time_utc_flags)) false None (* 2138 *)
  ].

(** packets.rs 2157-2171, [ubx_packet_send] *)
Definition p_cfg_rate : pack_desc :=
  mk_desc "CfgRate" x06 x08 (Fixed 6) [
    mk_field "measure_rate_ms" None (Scalar U16) None false None; (* 2161 *)
    mk_field "nav_rate" None (Scalar U16) None false None; (* 2166 *)
    mk_field "time_ref" None (Scalar U16) (Some (c_like_map U16 alignment_variants)) false None (* 2170 *)
  ].

(** packets.rs 2191-2199, [ubx_packet_send] *)
Definition p_cfg_msg_single_port : pack_desc :=
  mk_desc "CfgMsgSinglePort" x06 x01 (Fixed 3) [
    mk_field "msg_class" None (Scalar U8) None false None; (* 2194 *)
    mk_field "msg_id" None (Scalar U8) None false None; (* 2195 *)
    mk_field "rate" None (Scalar U8) None false None (* 2198 *)
  ].

(** packets.rs 2216-2224, [ubx_packet_send] *)
Definition p_cfg_msg_all_ports : pack_desc :=
  mk_desc "CfgMsgAllPorts" x06 x01 (Fixed 8) [
    mk_field "msg_class" None (Scalar U8) None false None; (* 2219 *)
    mk_field "msg_id" None (Scalar U8) None false None; (* 2220 *)
    mk_field "rates" None (Bytes 6) None false None (* 2223 *)
  ].

(** packets.rs 2238-2305, [ubx_packet_recv_send] *)
Definition p_cfg_nav5 : pack_desc :=
  mk_desc "CfgNav5" x06 x24 (Fixed 36) [
    mk_field "mask" None (Scalar U16) (Some (flags_map U16 bf_cfg_nav5_params)) false None; (* 2248 *)
    mk_field "dyn_model" None (Scalar U8) (Some (enum_map e_cfg_nav5_dyn_model true)) false None; (* 2250 *)
    mk_field "fix_mode" None (Scalar U8) (Some (enum_map e_cfg_nav5_fix_mode true)) false None; (* 2252 *)
    mk_field "fixed_alt" None (Scalar I32) (Some (float_map FTy64 I32 (Some (1%positive, (-2)%Z)))) false None; (* 2256 *)
    mk_field "fixed_alt_var" None (Scalar U32) (Some (float_map FTy64 U32 (Some (1%positive, (-4)%Z)))) false None; (* 2260 *)
    mk_field "min_elev_degrees" None (Scalar I8) None false None; (* 2263 *)
    mk_field "dr_limit" None (Scalar U8) None false None; (* 2266 *)
    mk_field "pdop" None (Scalar U16) (Some (float_map FTy32 U16 (Some (1%positive, (-1)%Z)))) false None; (* 2270 *)
    mk_field "tdop" None (Scalar U16) (Some (float_map FTy32 U16 (Some (1%positive, (-1)%Z)))) false None; (* 2274 *)
    mk_field "pacc" None (Scalar U16) None false None; (* 2277 *)
    mk_field "tacc" None (Scalar U16) None false None; (* 2281 *)
    mk_field "static_hold_thresh" None (Scalar U8) (Some (float_map FTy32 U8 (Some (1%positive, (-2)%Z)))) false None; (* 2285 *)
    mk_field "dgps_time_out" None (Scalar U8) None false None; (* 2288 *)
    mk_field "cno_thresh_num_svs" None (Scalar U8) None false None; (* 2292 *)
    mk_field "cno_thresh" None (Scalar U8) None false None; (* 2295 *)
    mk_field "reserved1" None (Bytes 2) None false None; (* 2296 *)
    mk_field "static_hold_max_dist" None (Scalar U16) None false None; (* 2299 *)
    mk_field "utc_standard" None (Scalar U8) (Some (enum_map e_cfg_nav5_utc_standard true)) false None; (* 2303 *)
    mk_field "reserved2" None (Bytes 5) None false None (* 2304 *)
  ].

(** packets.rs 2470-2541, [ubx_packet_recv_send] *)
Definition p_cfg_nav_x5 : pack_desc :=
  mk_desc "CfgNavX5" x06 x23 (Fixed 40) [
    mk_field "version" None (Scalar U16) None false None; (* 2479 *)
    mk_field "mask1" None (Scalar U16) (Some (flags_map U16 bf_cfg_nav_x5_params1)) false None; (* 2483 *)
    mk_field "mask2" None (Scalar U32) (Some (flags_map U32 bf_cfg_nav_x5_params2)) false None; (* 2486 *)
    mk_field "reserved1" None (Bytes 2) None false None; (* 2489 *)
    mk_field "min_svs" None (Scalar U8) None false None; (* 2492 *)
    mk_field "max_svs" None (Scalar U8) None false None; (* 2495 *)
    mk_field "min_cno_dbhz" None (Scalar U8) None false None; (* 2498 *)
    mk_field "reserved2" None (Scalar U8) None false None; (* 2501 *)
    mk_field "ini_fix_3d" None (Scalar U8) None false None; (* 2504 *)
    mk_field "reserved3" None (Bytes 2) None false None; (* 2507 *)
    mk_field "ack_aiding" None (Scalar U8) None false None; (* 2510 *)
    mk_field "wkn_rollover" None (Scalar U16) None false None; (* 2513 *)
    mk_field "sig_atten_comp_mode" None (Scalar U8) None false None; (* 2516 *)
    mk_field "reserved4" None (Scalar U8) None false None; (* 2519 *)
    mk_field "reserved5" None (Bytes 2) None false None; (* 2520 *)
    mk_field "reserved6" None (Bytes 2) None false None; (* 2521 *)
    mk_field "use_ppp" None (Scalar U8) None false None; (* 2524 *)
    mk_field "aop_cfg" None (Scalar U8) None false None; (* 2527 *)
    mk_field "reserved7" None (Bytes 2) None false None; (* 2530 *)
    mk_field "aop_orb_max_err" None (Scalar U16) None false None; (* 2533 *)
    mk_field "reserved8" None (Bytes 4) None false None; (* 2536 *)
    mk_field "reserved9" None (Bytes 3) None false None; (* 2537 *)
    mk_field "use_adr" None (Scalar U8) None false None (* 2540 *)
  ].

(** packets.rs 2580-2599, [ubx_packet_recv] *)
Definition p_mga_ack : pack_desc :=
  mk_desc "MgaAck" x13 x60 (Fixed 8) [
    mk_field "ack_type" None (Scalar U8) None false None; (* 2584 *)
    mk_field "version" None (Scalar U8) None false None; (* 2587 *)
    mk_field "info_code" None (Scalar U8) (Some (enum_map e_msg_ack_info_code false)) false None; (* 2592 *)
    mk_field "msg_id" None (Scalar U8) None false None; (* 2595 *)
    mk_field "msg_payload_start" None (Bytes 4) None false None (* 2598 *)
  ].

(** packets.rs 2615-2641, [ubx_packet_recv] *)
Definition p_mga_glo_eph : pack_desc :=
  mk_desc "MgaGloEph" x13 x06 (Fixed 48) [
    mk_field "msg_type" None (Scalar U8) None false None; (* 2618 *)
    mk_field "version" None (Scalar U8) None false None; (* 2619 *)
    mk_field "sv_id" None (Scalar U8) None false None; (* 2620 *)
    mk_field "reserved1" None (Scalar U8) None false None; (* 2621 *)
    mk_field "ft" None (Scalar U8) None false None; (* 2622 *)
    mk_field "b" None (Scalar U8) None false None; (* 2623 *)
    mk_field "m" None (Scalar U8) None false None; (* 2624 *)
    mk_field "h" None (Scalar I8) None false None; (* 2625 *)
    mk_field "x" None (Scalar I32) None false None; (* 2626 *)
    mk_field "y" None (Scalar I32) None false None; (* 2627 *)
    mk_field "z" None (Scalar I32) None false None; (* 2628 *)
    mk_field "dx" None (Scalar I32) None false None; (* 2629 *)
    mk_field "dy" None (Scalar I32) None false None; (* 2630 *)
    mk_field "dz" None (Scalar I32) None false None; (* 2631 *)
    mk_field "ddx" None (Scalar I8) None false None; (* 2632 *)
    mk_field "ddy" None (Scalar I8) None false None; (* 2633 *)
    mk_field "ddz" None (Scalar I8) None false None; (* 2634 *)
    mk_field "tb" None (Scalar U8) None false None; (* 2635 *)
    mk_field "gamma" None (Scalar U16) None false None; (* 2636 *)
    mk_field "e" None (Scalar U8) None false None; (* 2637 *)
    mk_field "delta_tau" None (Scalar U8) None false None; (* 2638 *)
    mk_field "tau" None (Scalar I32) None false None; (* 2639 *)
    mk_field "reserved2" None (Bytes 4) None false None (* 2640 *)
  ].

(** packets.rs 2643-2676, [ubx_packet_recv] *)
Definition p_mga_gps_iono : pack_desc :=
  mk_desc "MgaGpsIono" x13 x00 (Fixed 16) [
    mk_field "msg_type" None (Scalar U8) None false None; (* 2647 *)
    mk_field "version" None (Scalar U8) None false None; (* 2649 *)
    mk_field "reserved1" None (Bytes 2) None false None; (* 2650 *)
    mk_field "alpha0" None (Scalar I8) (Some (float_map FTy64 I8 (Some (1%positive, 0%Z)))) false None; (* 2653 *)
    mk_field "alpha1" None (Scalar I8) (Some (float_map FTy64 I8 (Some (1%positive, 0%Z)))) false None; (* 2656 *)
    mk_field "alpha2" None (Scalar I8) (Some (float_map FTy64 I8 (Some (1%positive, 0%Z)))) false None; (* 2659 *)
    mk_field "alpha3" None (Scalar I8) (Some (float_map FTy64 I8 (Some (1%positive, 0%Z)))) false None; (* 2662 *)
    mk_field "beta0" None (Scalar I8) (Some (float_map FTy64 I8 (Some (1%positive, 0%Z)))) false None; (* 2665 *)
    mk_field "beta1" None (Scalar I8) (Some (float_map FTy64 I8 (Some (1%positive, 0%Z)))) false None; (* 2668 *)
    mk_field "beta2" None (Scalar I8) (Some (float_map FTy64 I8 (Some (1%positive, 0%Z)))) false None; (* 2671 *)
    mk_field "beta3" None (Scalar I8) (Some (float_map FTy64 I8 (Some (1%positive, 0%Z)))) false None; (* 2674 *)
    mk_field "reserved2" None (Bytes 4) None false None (* 2675 *)
  ].

(** packets.rs 2678-2712, [ubx_packet_recv] *)
Definition p_mga_gps_eph : pack_desc :=
  mk_desc "MgaGpsEph" x13 x00 (Fixed 68) [
    mk_field "msg_type" None (Scalar U8) None false None; (* 2681 *)
    mk_field "version" None (Scalar U8) None false None; (* 2682 *)
    mk_field "sv_id" None (Scalar U8) None false None; (* 2683 *)
    mk_field "reserved1" None (Scalar U8) None false None; (* 2684 *)
    mk_field "fit_interval" None (Scalar U8) None false None; (* 2685 *)
    mk_field "ura_index" None (Scalar U8) None false None; (* 2686 *)
    mk_field "sv_health" None (Scalar U8) None false None; (* 2687 *)
    mk_field "tgd" None (Scalar I8) None false None; (* 2688 *)
    mk_field "iodc" None (Scalar U16) None false None; (* 2689 *)
    mk_field "toc" None (Scalar U16) None false None; (* 2690 *)
    mk_field "reserved2" None (Scalar U8) None false None; (* 2691 *)
    mk_field "af2" None (Scalar I8) None false None; (* 2692 *)
    mk_field "af1" None (Scalar I16) None false None; (* 2693 *)
    mk_field "af0" None (Scalar I32) None false None; (* 2694 *)
    mk_field "crs" None (Scalar I16) None false None; (* 2695 *)
    mk_field "delta_n" None (Scalar I16) None false None; (* 2696 *)
    mk_field "m0" None (Scalar I32) None false None; (* 2697 *)
    mk_field "cuc" None (Scalar I16) None false None; (* 2698 *)
    mk_field "cus" None (Scalar I16) None false None; (* 2699 *)
    mk_field "e" None (Scalar U32) None false None; (* 2700 *)
    mk_field "sqrt_a" None (Scalar U32) None false None; (* 2701 *)
    mk_field "toe" None (Scalar U16) None false None; (* 2702 *)
    mk_field "cic" None (Scalar I16) None false None; (* 2703 *)
    mk_field "omega0" None (Scalar I32) None false None; (* 2704 *)
    mk_field "cis" None (Scalar I16) None false None; (* 2705 *)
    mk_field "crc" None (Scalar I16) None false None; (* 2706 *)
    mk_field "i0" None (Scalar I32) None false None; (* 2707 *)
    mk_field "omega" None (Scalar I32) None false None; (* 2708 *)
    mk_field "omega_dot" None (Scalar I32) None false None; (* 2709 *)
    mk_field "idot" None (Scalar I16) None false None; (* 2710 *)
    mk_field "reserved3" None (Bytes 2) None false None (* 2711 *)
  ].

(** packets.rs 2715-2732, [ubx_packet_recv] *)
Definition p_tim_tp : pack_desc :=
  mk_desc "TimTp" x0d x01 (Fixed 16) [
    mk_field "tow_ms" None (Scalar U32) None false None; (* 2719 *)
    mk_field "tow_sub_ms" None (Scalar U32) None false None; (* 2721 *)
    mk_field "q_err" None (Scalar I32) None false None; (* 2723 *)
    mk_field "week" None (Scalar U16) None false None; (* 2725 *)
    mk_field "flags" None (Scalar U8) (Some (word_map U8)) false None; (* 2728 *)
    mk_field "ref_info" None (Scalar U8) (Some (word_map U8)) false None (* 2731 *)
  ].

(** packets.rs 2834-2858, [ubx_packet_recv] *)
Definition p_tim_tm2 : pack_desc :=
  mk_desc "TimTm2" x0d x03 (Fixed 28) [
    mk_field "ch" None (Scalar U8) None false None; (* 2838 *)
    mk_field "flags" None (Scalar U8) (Some (word_map U8)) false None; (* 2841 *)
    mk_field "count" None (Scalar U16) None false None; (* 2843 *)
    mk_field "wn_r" None (Scalar U16) None false None; (* 2845 *)
    mk_field "wn_f" None (Scalar U16) None false None; (* 2847 *)
    mk_field "tow_ms_r" None (Scalar U32) None false None; (* 2849 *)
    mk_field "tow_sub_ms_r" None (Scalar U32) None false None; (* 2851 *)
    mk_field "tow_ms_f" None (Scalar U32) None false None; (* 2853 *)
    mk_field "tow_sub_ms_f" None (Scalar U32) None false None; (* 2855 *)
    mk_field "acc_est" None (Scalar U32) None false None (* 2857 *)
  ].

(** packets.rs 2924-2949, [ubx_packet_recv] *)
Definition p_rxm_rawx : pack_desc :=
  mk_desc "RxmRawx" x02 x15 (Max 8176) [
    mk_field "rcv_tow" None (Scalar F64) None false None; (* 2928 *)
    mk_field "week" None (Scalar U16) None false None; (* 2930 *)
    mk_field "leap_s" None (Scalar I8) None false None; (* 2932 *)
    mk_field "num_meas" None (Scalar U8) None false None; (* 2934 *)
    mk_field "rec_stat" None (Scalar U8) (Some (flags_map U8 bf_rec_stat_flags)) false None; (* 2937 *)
    mk_field "version" None (Scalar U8) None false None; (* 2939 *)
    mk_field "reserved1" None (Bytes 2) None false None; (* 2940 *)
    mk_field "measurements" None (Bytes 0) (Some (chunks_iter_map rawx_new rawx_is_valid)) false None (* 2948 *)
  ].

(** packets.rs 2965-2987, [ubx_packet_recv] *)
Definition p_mon_hw : pack_desc :=
  mk_desc "MonHw" x0a x09 (Fixed 60) [
    mk_field "pin_sel" None (Scalar U32) None false None; (* 2968 *)
    mk_field "pin_bank" None (Scalar U32) None false None; (* 2969 *)
    mk_field "pin_dir" None (Scalar U32) None false None; (* 2970 *)
    mk_field "pin_val" None (Scalar U32) None false None; (* 2971 *)
    mk_field "noise_per_ms" None (Scalar U16) None false None; (* 2972 *)
    mk_field "agc_cnt" None (Scalar U16) None false None; (* 2973 *)
    mk_field "a_status" None (Scalar U8) (Some (enum_map e_antenna_status false)) false None; (* 2975 *)
    mk_field "a_power" None (Scalar U8) (Some (enum_map e_antenna_power false)) false None; (* 2977 *)
    mk_field "flags" None (Scalar U8) None false None; (* 2978 *)
    mk_field "reserved1" None (Scalar U8) None false None; (* 2979 *)
    mk_field "used_mask" None (Scalar U32) None false None; (* 2980 *)
    mk_field "vp" None (Bytes 17) None false None; (* 2981 *)
    mk_field "jam_ind" None (Scalar U8) None false None; (* 2982 *)
    mk_field "reserved2" None (Bytes 2) None false None; (* 2983 *)
    mk_field "pin_irq" None (Scalar U32) None false None; (* 2984 *)
    mk_field "pull_h" None (Scalar U32) None false None; (* 2985 *)
    mk_field "pull_l" None (Scalar U32) None false None (* 2986 *)
  ].

(** packets.rs 3003-3021, [ubx_packet_recv] *)
Definition p_mon_gnss : pack_desc :=
  mk_desc "MonGnss" x0a x28 (Fixed 8) [
    mk_field "version" None (Scalar U8) None false None; (* 3007 *)
    mk_field "supported" None (Scalar U8) (Some (flags_map U8 bf_mon_gnss_constell_mask)) false None; (* 3010 *)
    mk_field "default" None (Scalar U8) (Some (flags_map U8 bf_mon_gnss_constell_mask)) false None; (* 3013 *)
    mk_field "enabled" None (Scalar U8) (Some (flags_map U8 bf_mon_gnss_constell_mask)) false None; (* 3016 *)
    mk_field "simultaneous" None (Scalar U8) None false None; (* 3019 *)
    mk_field "reserved1" None (Bytes 3) None false None (* 3020 *)
  ].

(** packets.rs 3081-3096, [ubx_packet_recv] *)
Definition p_mon_ver : pack_desc :=
  mk_desc "MonVer" x0a x04 (Max 1240) [
    mk_field "software_version" None (Bytes 30) (Some (cstr_map 30)) true None; (* 3086 *)
    mk_field "hardware_version" None (Bytes 10) (Some (cstr_map 10)) true None; (* 3089 *)
    mk_field "extension" None (Bytes 0) (Some (offset_iter_map mon_ver_ext_is_valid)) false None (* 3095 *)
  ].

(** packets.rs 3119-3127, [ubx_packet_recv] *)
Definition p_rxm_rtcm : pack_desc :=
  mk_desc "RxmRtcm" x02 x32 (Fixed 8) [
    mk_field "version" None (Scalar U8) None false None; (* 3122 *)
    mk_field "flags" None (Scalar U8) None false None; (* 3123 *)
    mk_field "sub_type" None (Scalar U16) None false None; (* 3124 *)
    mk_field "ref_station" None (Scalar U16) None false None; (* 3125 *)
    mk_field "msg_type" None (Scalar U16) None false None (* 3126 *)
  ].

(** packets.rs 3129-3149, [ubx_packet_recv] *)
Definition p_esf_meas : pack_desc :=
  mk_desc "EsfMeas" x10 x02 (Max 1240) [
    mk_field "time_tag" None (Scalar U32) None false None; (* 3132 *)
    mk_field "flags" None (Scalar U16) None false None; (* 3133 *)
    mk_field "id" None (Scalar U16) None false None; (* 3134 *)
    mk_field "data" None (Bytes 0) (Some (chunks_iter_map esf_meas_new esf_meas_is_valid)) false (Some esf_meas_data_len); (* 3142 *)
    mk_field "calib_tag" None (Bytes 0) (Some calib_tag_map) false (Some esf_meas_calib_tag_len) (* 3148 *)
  ].

(** packets.rs 3203-3214, [ubx_packet_recv] *)
Definition p_esf_raw : pack_desc :=
  mk_desc "EsfRaw" x10 x03 (Max 1240) [
    mk_field "msss" None (Scalar U32) None false None; (* 3206 *)
    mk_field "data" None (Bytes 0) (Some (chunks_iter_map esf_raw_new esf_raw_is_valid)) false None (* 3213 *)
  ].

(** packets.rs 3252-3277, [ubx_packet_recv] *)
Definition p_esf_ins : pack_desc :=
  mk_desc "EsfIns" x10 x15 (Fixed 36) [
    mk_field "bit_field" None (Scalar U32) (Some (flags_map U32 bf_esf_ins_bit_flags)) false None; (* 3256 *)
    mk_field "reserved" None (Bytes 4) None false None; (* 3257 *)
    mk_field "itow" None (Scalar U32) None false None; (* 3258 *)
    mk_field "x_ang_rate" (Some "x_angular_rate") (Scalar I32) (Some (float_map FTy64 I32 (Some (1%positive, (-3)%Z)))) false None; (* 3261 *)
    mk_field "y_ang_rate" (Some "y_angular_rate") (Scalar I32) (Some (float_map FTy64 I32 (Some (1%positive, (-3)%Z)))) false None; (* 3264 *)
    mk_field "z_ang_rate" (Some "z_angular_rate") (Scalar I32) (Some (float_map FTy64 I32 (Some (1%positive, (-3)%Z)))) false None; (* 3267 *)
    mk_field "x_accel" (Some "x_acceleration") (Scalar I32) (Some (float_map FTy64 I32 (Some (1%positive, (-2)%Z)))) false None; (* 3270 *)
    mk_field "y_accel" (Some "y_acceleration") (Scalar I32) (Some (float_map FTy64 I32 (Some (1%positive, (-2)%Z)))) false None; (* 3273 *)
    mk_field "z_accel" (Some "z_acceleration") (Scalar I32) (Some (float_map FTy64 I32 (Some (1%positive, (-2)%Z)))) false None (* 3276 *)
  ].

(** packets.rs 3294-3312, [ubx_packet_recv] *)
Definition p_hnr_att : pack_desc :=
  mk_desc "HnrAtt" x28 x01 (Fixed 32) [
    mk_field "itow" None (Scalar U32) None false None; (* 3297 *)
    mk_field "version" None (Scalar U8) None false None; (* 3298 *)
    mk_field "reserved1" None (Bytes 3) None false None; (* 3299 *)
    mk_field "roll" (Some "vehicle_roll") (Scalar I32) (Some (float_map FTy64 I32 (Some (1%positive, (-5)%Z)))) false None; (* 3301 *)
    mk_field "pitch" (Some "vehicle_pitch") (Scalar I32) (Some (float_map FTy64 I32 (Some (1%positive, (-5)%Z)))) false None; (* 3303 *)
    mk_field "heading" (Some "vehicle_heading") (Scalar I32) (Some (float_map FTy64 I32 (Some (1%positive, (-5)%Z)))) false None; (* 3305 *)
    mk_field "acc_roll" (Some "vehicle_roll_accuracy") (Scalar U32) (Some (float_map FTy64 U32 (Some (1%positive, (-5)%Z)))) false None; (* 3307 *)
    mk_field "acc_pitch" (Some "vehicle_pitch_accuracy") (Scalar U32) (Some (float_map FTy64 U32 (Some (1%positive, (-5)%Z)))) false None; (* 3309 *)
    mk_field "acc_heading" (Some "vehicle_heading_accuracy") (Scalar U32) (Some (float_map FTy64 U32 (Some (1%positive, (-5)%Z)))) false None (* 3311 *)
  ].

(** packets.rs 3314-3339, [ubx_packet_recv] *)
Definition p_hnr_ins : pack_desc :=
  mk_desc "HnrIns" x28 x02 (Fixed 36) [
    mk_field "bit_field" None (Scalar U32) (Some (flags_map U32 bf_hnr_ins_bit_flags)) false None; (* 3318 *)
    mk_field "reserved" None (Bytes 4) None false None; (* 3319 *)
    mk_field "itow" None (Scalar U32) None false None; (* 3320 *)
    mk_field "x_ang_rate" (Some "x_angular_rate") (Scalar I32) (Some (float_map FTy64 I32 (Some (1%positive, (-3)%Z)))) false None; (* 3323 *)
    mk_field "y_ang_rate" (Some "y_angular_rate") (Scalar I32) (Some (float_map FTy64 I32 (Some (1%positive, (-3)%Z)))) false None; (* 3326 *)
    mk_field "z_ang_rate" (Some "z_angular_rate") (Scalar I32) (Some (float_map FTy64 I32 (Some (1%positive, (-3)%Z)))) false None; (* 3329 *)
    mk_field "x_accel" (Some "x_acceleration") (Scalar I32) (Some (float_map FTy64 I32 (Some (1%positive, (-2)%Z)))) false None; (* 3332 *)
    mk_field "y_accel" (Some "y_acceleration") (Scalar I32) (Some (float_map FTy64 I32 (Some (1%positive, (-2)%Z)))) false None; (* 3335 *)
    mk_field "z_accel" (Some "z_acceleration") (Scalar I32) (Some (float_map FTy64 I32 (Some (1%positive, (-2)%Z)))) false None (* 3338 *)
  ].

(** packets.rs 3356-3411, [ubx_packet_recv] *)
Definition p_hnr_pvt : pack_desc :=
  mk_desc "HnrPvt" x28 x00 (Fixed 72) [
    mk_field "itow" None (Scalar U32) None false None; (* 3360 *)
    mk_field "year" None (Scalar U16) None false None; (* 3361 *)
    mk_field "month" None (Scalar U8) None false None; (* 3362 *)
    mk_field "day" None (Scalar U8) None false None; (* 3363 *)
    mk_field "hour" None (Scalar U8) None false None; (* 3364 *)
    mk_field "min" None (Scalar U8) None false None; (* 3365 *)
    mk_field "sec" None (Scalar U8) None false None; (* 3366 *)
    mk_field "valid" None (Scalar U8) (Some (flags_map U8 bf_hnr_pvt_valid_flags)) false None; (* 3369 *)
    mk_field "nano" None (Scalar I32) None false None; (* 3370 *)
    mk_field "gps_fix" None (Scalar U8) (Some (enum_map e_gps_fix false)) false None; (* 3372 *)
    mk_field "flags" None (Scalar U8) (Some (flags_map U8 bf_hnr_pvt_flags)) false None; (* 3375 *)
    mk_field "reserved1" None (Bytes 2) None false None; (* 3377 *)
    mk_field "lon" (Some "longitude") (Scalar I32) (Some (float_map FTy64 I32 (Some (1%positive, (-7)%Z)))) false None; (* 3380 *)
    mk_field "lat" (Some "latitude") (Scalar I32) (Some (float_map FTy64 I32 (Some (1%positive, (-7)%Z)))) false None; (* 3383 *)
    mk_field "height" (Some "height_above_ellipsoid") (Scalar I32) (Some (float_map FTy64 I32 (Some (1%positive, (-3)%Z)))) false None; (* 3386 *)
    mk_field "height_msl" (Some "height_msl") (Scalar I32) (Some (float_map FTy64 I32 (Some (1%positive, (-3)%Z)))) false None; (* 3389 *)
    mk_field "g_speed" (Some "ground_speed_2d") (Scalar I32) (Some (float_map FTy64 I32 (Some (1%positive, (-3)%Z)))) false None; (* 3392 *)
    mk_field "speed" (Some "speed_3d") (Scalar I32) (Some (float_map FTy64 I32 (Some (1%positive, (-3)%Z)))) false None; (* 3395 *)
    mk_field "head_mot" (Some "heading_motion") (Scalar I32) (Some (float_map FTy64 I32 (Some (1%positive, (-5)%Z)))) false None; (* 3398 *)
    mk_field "head_veh" (Some "heading_vehicle") (Scalar I32) (Some (float_map FTy64 I32 (Some (1%positive, (-5)%Z)))) false None; (* 3401 *)
    mk_field "h_acc" None (Scalar U32) None false None; (* 3403 *)
    mk_field "v_acc" None (Scalar U32) None false None; (* 3404 *)
    mk_field "s_acc" None (Scalar U32) None false None; (* 3405 *)
    mk_field "head_acc" (Some "heading_accurracy") (Scalar U32) (Some (float_map FTy64 U32 (Some (1%positive, (-5)%Z)))) false None; (* 3408 *)
    mk_field "reserved2" None (Bytes 4) None false None (* 3410 *)
  ].

(** packets.rs 3413-3431, [ubx_packet_recv] *)
Definition p_nav_att : pack_desc :=
  mk_desc "NavAtt" x01 x05 (Fixed 32) [
    mk_field "itow" None (Scalar U32) None false None; (* 3416 *)
    mk_field "version" None (Scalar U8) None false None; (* 3417 *)
    mk_field "reserved1" None (Bytes 3) None false None; (* 3418 *)
    mk_field "roll" (Some "vehicle_roll") (Scalar I32) (Some (float_map FTy64 I32 (Some (1%positive, (-5)%Z)))) false None; (* 3420 *)
    mk_field "pitch" (Some "vehicle_pitch") (Scalar I32) (Some (float_map FTy64 I32 (Some (1%positive, (-5)%Z)))) false None; (* 3422 *)
    mk_field "heading" (Some "vehicle_heading") (Scalar I32) (Some (float_map FTy64 I32 (Some (1%positive, (-5)%Z)))) false None; (* 3424 *)
    mk_field "acc_roll" (Some "vehicle_roll_accuracy") (Scalar U32) (Some (float_map FTy64 U32 (Some (1%positive, (-5)%Z)))) false None; (* 3426 *)
    mk_field "acc_pitch" (Some "vehicle_pitch_accuracy") (Scalar U32) (Some (float_map FTy64 U32 (Some (1%positive, (-5)%Z)))) false None; (* 3428 *)
    mk_field "acc_heading" (Some "vehicle_heading_accuracy") (Scalar U32) (Some (float_map FTy64 U32 (Some (1%positive, (-5)%Z)))) false None (* 3430 *)
  ].

(** packets.rs 3433-3441, [ubx_packet_recv] *)
Definition p_nav_clock : pack_desc :=
  mk_desc "NavClock" x01 x22 (Fixed 20) [
    mk_field "itow" None (Scalar U32) None false None; (* 3436 *)
    mk_field "clk_b" None (Scalar I32) None false None; (* 3437 *)
    mk_field "clk_d" None (Scalar I32) None false None; (* 3438 *)
    mk_field "t_acc" None (Scalar U32) None false None; (* 3439 *)
    mk_field "f_acc" None (Scalar U32) None false None (* 3440 *)
  ].

(** packets.rs 3471-3489, [ubx_packet_recv] *)
Definition p_rxm_sfrbx : pack_desc :=
  mk_desc "RxmSfrbx" x02 x13 (Max 72) [
    mk_field "gnss_id" None (Scalar U8) None false None; (* 3474 *)
    mk_field "sv_id" None (Scalar U8) None false None; (* 3475 *)
    mk_field "reserved1" None (Scalar U8) None false None; (* 3476 *)
    mk_field "freq_id" None (Scalar U8) None false None; (* 3477 *)
    mk_field "num_words" None (Scalar U8) None false None; (* 3478 *)
    mk_field "reserved2" None (Scalar U8) None false None; (* 3479 *)
    mk_field "version" None (Scalar U8) None false None; (* 3480 *)
    mk_field "reserved3" None (Scalar U8) None false None; (* 3481 *)
    mk_field "dwrd" None (Bytes 0) (Some (chunks_iter_map dwrd_new dwrd_is_valid)) false None (* 3488 *)
  ].

(** packets.rs 3514-3522, [ubx_packet_recv] *)
Definition p_nav_vel_ecef : pack_desc :=
  mk_desc "NavVelECEF" x01 x11 (Fixed 20) [
    mk_field "itow" None (Scalar U32) None false None; (* 3517 *)
    mk_field "ecef_vx" None (Scalar I32) None false None; (* 3518 *)
    mk_field "ecef_vy" None (Scalar I32) None false None; (* 3519 *)
    mk_field "ecef_vz" None (Scalar U32) None false None; (* 3520 *)
    mk_field "s_acc" None (Scalar U32) None false None (* 3521 *)
  ].

(** packets.rs 3524-3579, [ubx_packet_recv] *)
Definition p_mga_gps_EPH : pack_desc :=
  mk_desc "MgaGpsEPH" x13 x00 (Fixed 68) [
    mk_field "msg_type" None (Scalar U8) None false None; (* 3527 *)
    mk_field "version" None (Scalar U8) None false None; (* 3528 *)
    mk_field "sv_id" None (Scalar U8) None false None; (* 3529 *)
    mk_field "reserved1" None (Scalar U8) None false None; (* 3530 *)
    mk_field "fit_interval" None (Scalar U8) None false None; (* 3531 *)
    mk_field "ura_index" None (Scalar U8) None false None; (* 3532 *)
    mk_field "sv_health" None (Scalar U8) None false None; (* 3533 *)
    mk_field "tgd" None (Scalar I8) (Some (float_map FTy64 I8 (Some (2%positive, (-31)%Z)))) false None; (* 3535 *)
    mk_field "iodc" None (Scalar U16) None false None; (* 3536 *)
    mk_field "toc" None (Scalar U16) (Some (float_map FTy64 U16 (Some (2%positive, 4%Z)))) false None; (* 3538 *)
    mk_field "reserved2" None (Scalar U8) None false None; (* 3539 *)
    mk_field "af2" None (Scalar I8) (Some (float_map FTy64 I8 (Some (2%positive, (-55)%Z)))) false None; (* 3541 *)
    mk_field "afl" None (Scalar I16) (Some (float_map FTy64 I16 (Some (2%positive, (-43)%Z)))) false None; (* 3543 *)
    mk_field "af0" None (Scalar I32) (Some (float_map FTy64 I32 (Some (2%positive, (-31)%Z)))) false None; (* 3545 *)
    mk_field "crs" None (Scalar I16) (Some (float_map FTy64 I16 (Some (2%positive, (-5)%Z)))) false None; (* 3547 *)
    mk_field "delta_n" None (Scalar I16) (Some (float_map FTy64 I16 (Some (2%positive, (-43)%Z)))) false None; (* 3549 *)
    mk_field "m0" None (Scalar I32) (Some (float_map FTy64 I32 (Some (2%positive, (-31)%Z)))) false None; (* 3551 *)
    mk_field "cuc" None (Scalar I16) (Some (float_map FTy64 I16 (Some (2%positive, (-29)%Z)))) false None; (* 3553 *)
    mk_field "cus" None (Scalar I16) (Some (float_map FTy64 I16 (Some (2%positive, (-29)%Z)))) false None; (* 3555 *)
    mk_field "e" None (Scalar U32) (Some (float_map FTy64 U32 (Some (2%positive, (-33)%Z)))) false None; (* 3557 *)
    mk_field "sqrt_a" None (Scalar U32) (Some (float_map FTy64 U32 (Some (2%positive, (-19)%Z)))) false None; (* 3559 *)
    mk_field "toe" None (Scalar U16) (Some (float_map FTy64 U16 (Some (2%positive, 4%Z)))) false None; (* 3561 *)
    mk_field "cic" None (Scalar I16) (Some (float_map FTy64 I16 (Some (2%positive, (-29)%Z)))) false None; (* 3563 *)
    mk_field "omega0" None (Scalar I32) (Some (float_map FTy64 I32 (Some (2%positive, (-31)%Z)))) false None; (* 3565 *)
    mk_field "cis" None (Scalar I16) (Some (float_map FTy64 I16 (Some (2%positive, (-29)%Z)))) false None; (* 3567 *)
    mk_field "crc" None (Scalar I16) (Some (float_map FTy64 I16 (Some (2%positive, (-5)%Z)))) false None; (* 3569 *)
    mk_field "i0" None (Scalar I32) (Some (float_map FTy64 I32 (Some (2%positive, (-31)%Z)))) false None; (* 3571 *)
    mk_field "omega" None (Scalar I32) (Some (float_map FTy64 I32 (Some (2%positive, (-31)%Z)))) false None; (* 3573 *)
    mk_field "omega_dot" None (Scalar I32) (Some (float_map FTy64 I32 (Some (2%positive, (-43)%Z)))) false None; (* 3575 *)
    mk_field "idot" None (Scalar I16) (Some (float_map FTy64 I16 (Some (2%positive, (-43)%Z)))) false None; (* 3577 *)
    mk_field "reserved3" None (Bytes 2) None false None (* 3578 *)
  ].

(** packets.rs 3581-3603, [ubx_packet_recv] *)
Definition p_rxm_rawx_info : pack_desc :=
  mk_desc "RxmRawxInfo" x02 x15 (Fixed 32) [
    mk_field "pr_mes" None (Scalar F64) None false None; (* 3585 *)
    mk_field "cp_mes" None (Scalar F64) None false None; (* 3586 *)
    mk_field "do_mes" None (Scalar F32) None false None; (* 3587 *)
    mk_field "gnss_id" None (Scalar U8) None false None; (* 3588 *)
    mk_field "sv_id" None (Scalar U8) None false None; (* 3589 *)
    mk_field "reserved2" None (Scalar U8) None false None; (* 3590 *)
    mk_field "freq_id" None (Scalar U8) None false None; (* 3591 *)
    mk_field "lock_time" None (Scalar U16) None false None; (* 3592 *)
    mk_field "cno" None (Scalar U8) None false None; (* 3593 *)
    mk_field "pr_stdev" None (Scalar U8) (Some (flags_map U8 bf_stdev_flags)) false None; (* 3595 *)
    mk_field "cp_stdev" None (Scalar U8) (Some (flags_map U8 bf_stdev_flags)) false None; (* 3597 *)
    mk_field "do_stdev" None (Scalar U8) (Some (flags_map U8 bf_stdev_flags)) false None; (* 3599 *)
    mk_field "trk_stat" None (Scalar U8) (Some (flags_map U8 bf_trk_stat_flags)) false None; (* 3601 *)
    mk_field "reserved3" None (Scalar U8) None false None (* 3602 *)
  ].

(** packets.rs 3651-3657, [ubx_packet_recv] *)
Definition p_sec_uniq_id : pack_desc :=
  mk_desc "SecUniqId" x27 x03 (Fixed 9) [
    mk_field "version" None (Scalar U8) None false None; (* 3654 *)
    mk_field "reserved1" None (Bytes 3) None false None; (* 3655 *)
    mk_field "unique_id" None (Bytes 5) None false None (* 3656 *)
  ].

(** packets.rs 3659-3718: [define_recv_packets!], in this order *)
Definition recv_table : list pack_desc :=
  [p_nav_pos_llh; p_nav_status; p_nav_dop; p_nav_pvt; p_nav_solution; p_nav_vel_ned; p_nav_hp_pos_llh;
   p_nav_hp_pos_ecef; p_nav_time_utc; p_nav_time_ls; p_nav_sat; p_nav_eoe; p_nav_odo; p_cfg_odo;
   p_mga_ack; p_mga_gps_iono; p_mga_gps_eph; p_mga_glo_eph; p_alp_srv; p_ack_ack; p_ack_nak;
   p_cfg_itfm; p_cfg_prt_i2c; p_cfg_prt_spi; p_cfg_prt_uart; p_cfg_nav5; p_cfg_ant; p_cfg_tmode2;
   p_cfg_tmode3; p_cfg_tp5; p_inf_error; p_inf_warning; p_inf_notice; p_inf_test; p_inf_debug;
   p_rxm_rawx; p_tim_tp; p_tim_tm2; p_mon_ver; p_mon_gnss; p_mon_hw; p_rxm_rtcm; p_esf_meas;
   p_esf_ins; p_hnr_att; p_hnr_ins; p_hnr_pvt; p_nav_att; p_nav_clock; p_nav_vel_ecef; p_mga_gps_EPH;
   p_rxm_sfrbx; p_esf_raw; p_tim_svin; p_sec_uniq_id].

(** Every packet with receiving code, and every packet with a builder *)
Definition recv_packets : list pack_desc :=
  [p_nav_pos_llh; p_nav_vel_ned; p_nav_hp_pos_llh; p_nav_hp_pos_ecef; p_nav_pvt; p_nav_status;
   p_nav_dop; p_nav_eoe; p_nav_solution; p_nav_sat_sv_info; p_nav_sat; p_nav_odo; p_cfg_odo;
   p_cfg_itfm; p_cfg_inf; p_inf_error; p_inf_notice; p_inf_test; p_inf_warning; p_inf_debug;
   p_alp_srv; p_ack_ack; p_ack_nak; p_cfg_ant; p_cfg_tp5; p_cfg_tmode2; p_tim_svin; p_nav_time_ls;
   p_cfg_tmode3; p_cfg_prt_i2c; p_cfg_prt_uart; p_cfg_prt_spi; p_nav_time_utc; p_cfg_nav5;
   p_cfg_nav_x5; p_mga_ack; p_mga_glo_eph; p_mga_gps_iono; p_mga_gps_eph; p_tim_tp; p_tim_tm2;
   p_rxm_rawx; p_mon_hw; p_mon_gnss; p_mon_ver; p_rxm_rtcm; p_esf_meas; p_esf_raw; p_esf_ins;
   p_hnr_att; p_hnr_ins; p_hnr_pvt; p_nav_att; p_nav_clock; p_rxm_sfrbx; p_nav_vel_ecef;
   p_mga_gps_EPH; p_rxm_rawx_info; p_sec_uniq_id].
Definition send_packets : list pack_desc :=
  [p_nav_reset_odo; p_cfg_odo; p_cfg_itfm; p_cfg_inf; p_aid_ini; p_cfg_rst; p_cfg_ant; p_cfg_tp5;
   p_cfg_tmode2; p_cfg_tmode3; p_cfg_val_set; p_cfg_prt_i2c; p_cfg_prt_uart; p_cfg_prt_spi;
   p_cfg_rate; p_cfg_msg_single_port; p_cfg_msg_all_ports; p_cfg_nav5; p_cfg_nav_x5].
