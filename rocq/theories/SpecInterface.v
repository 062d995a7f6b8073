(** * Specification: the messages of the u-blox interface description

    The layout of each message, as the u-blox receiver descriptions (UBX-13003221, UBX-18010854) document it: class, id,
    length, and for each field its offset in the payload, its format and the meaning of its number.  The names of the
    fields, flags and codes are those of the library's methods, constants and variants.

    There is no copy of these descriptions in /repo; this table was written from knowledge of them and from the comments
    in packets.rs.  Where the library follows something else, the table has the documented layout under [deviations]. *)
From Coq Require Import String List NArith ZArith Bool Reals SpecFloat.
From Verif Require Import Base PackDesc GenRecv GenSend Enums TableTypes Floats SpecPacket SpecReal.
Import ListNotations.
Open Scope N_scope.
Open Scope list_scope.

(** ** Vocabulary *)

(** The formats of the documentation: [Un] and [Xn] (unsigned, bit field), [In] (signed, two's complement), [Rn] (IEEE float,
    given by its bit pattern), [U1[n]] (bytes), and the repeated blocks up to the end of the payload *)
Inductive format := U (size : N) | I (size : N) | R (size : N) | A (size : N) | Rest.

(** Flags: the Rust type, and for each constant the number of its bit *)
Record flags_doc := mk_flags_doc { fd_type : string; fd_bits : list (string * N) }.

(** What the number in a field means, and so what the getter returns *)
Inductive meaning :=
| Plain                                        (* the number (or the bytes) *)
| Scaled (t : fty) (m : positive) (base e : Z) (* a quantity: the number times [m * base^e] *)
| Word                                         (* bits, which methods of a wrapper type interpret *)
| Flags (d : flags_doc)                        (* bits with names *)
| Enum (codes : list (string * N))             (* a code *)
| Code.                                        (* something else: only the raw value is specified here *)

Record row_doc := row { r_name : string; r_off : N; r_fmt : format; r_meaning : meaning }.
Record message := mk_message {
  i_type : string;          (* the Rust type of the packet *)
  i_class : byte;
  i_id : byte;
  i_len : option N;         (* of the payload; [None]: not fixed *)
  i_rows : list row_doc;
}.

(** ** Reading *)

(** The number at an offset of the payload *)
Definition number (f : format) (off : N) (payload : list byte) : Z :=
  match f with
  | I n => signed_of (8 * Z.of_N n) (unsigned_of (takeN n (dropN off payload)))
  | U n | R n | A n => unsigned_of (takeN n (dropN off payload))
  | Rest => 0%Z
  end.

(** A result together with its type *)
Definition typed {T : Type} (x : T) : {T : Type & T} := existT (fun T => T) T x.

(** The raw value: a number, or bytes *)
Definition raw_result (f : format) (off : N) (payload : list byte) : {T : Type & T} :=
  match f with
  | U _ | I _ | R _ => typed (Ret (number f off payload))
  | A n => typed (Ret (takeN n (dropN off payload)))
  | Rest => typed (Ret (dropN off payload))
  end.

(** [x] is [z * m * base^e], up to the rounding of the float type: two units in the last place *)
Definition quantity (t : fty) (m : positive) (base e : Z) (z : Z) (x : spec_float) : Prop :=
  let exact := (IZR z * (IZR (Zpos m) * powerRZ (IZR base) e))%R in
  finite x /\ (Rabs (real x - exact) <= powerRZ 2 (2 - fprec t) * Rabs exact)%R.

(** The names of the flags are constants of the type, with these bits *)
Definition flags_named (d : flags_doc) : Prop :=
  exists fd, In fd all_flags /\ b_name fd = fd_type d /\
    Forall (fun c => In (fst c, 2 ^ snd c) (flags_items fd)) (fd_bits d).

(** The getters [name()] and [name_raw()] return what the row says. *)
Definition reads (p : pack_desc) (r : row_doc) (payload : list byte) : Prop :=
  let g := the_getter p (r_name r) in
  let z := number (r_fmt r) (r_off r) payload in
  accessor (g_field g) = r_name r /\ In g (getters p) /\
  typed (g_raw g payload) = raw_result (r_fmt r) (r_off r) payload /\
  match r_meaning r with
  | Plain => typed (g_val g payload) = raw_result (r_fmt r) (r_off r) payload
  | Scaled t m base e => exists x, typed (g_val g payload) = typed (Ret x) /\ quantity t m base e z x
  | Word => typed (g_val g payload) = typed (Ret (Z.to_N z))
  | Flags d => flags_named d /\ typed (g_val g payload) = typed (Ret (Z.to_N z))
  | Enum codes => forall name code, In (name, code) codes -> z = Z.of_N code -> typed (g_val g payload) = typed (Ret (name, code))
  | Code => True
  end.

(** ** Writing *)

(** The field [name] of the builder: its value, and the number written for it *)
Definition writes (p : pack_desc) (b : builder (p_fields p)) (r : row_doc) (frame : list byte) : Prop :=
  exists k f (v : fvalue f) raw,
    nth_value (p_fields p) b k = Some (existT _ f v) /\ accessor f = r_name r /\ to_raw f v = Ret raw /\
    let payload := dropN 6 frame in
    let z := number (r_fmt r) (r_off r) payload in
    typed (Ret raw) = raw_result (r_fmt r) (r_off r) payload /\
    match r_meaning r with
    | Plain => typed (Ret v) = raw_result (r_fmt r) (r_off r) payload
    | Scaled t m base e =>
        exists x s, typed v = typed x /\ f_ty f = Scalar s /\
          (finite x -> Rabs (IZR z - clampR s (real x / (IZR (Zpos m) * powerRZ (IZR base) e))) <=
                       / 2 + powerRZ 2 (8 * Z.of_N (scalar_size s) + 4 - fprec t))%R
    | Word => typed v = typed (Z.to_N z)
    | Flags d => flags_named d /\ typed v = typed (Z.to_N z)
    | Enum codes => exists name code, In (name, code) codes /\ typed v = typed (name, code) /\ z = Z.of_N code
    | Code => True
    end.

Open Scope string_scope.

(** ** Codes and flags *)

Definition d_nav_hp_pos_ecef_flags : flags_doc := mk_flags_doc "NavHpPosEcefFlags"
  [("INVALID_ECEF", 0)].

Definition d_nav_pvt_flags : flags_doc := mk_flags_doc "NavPvtFlags"
  [("GPS_FIX_OK", 0); ("DIFF_SOLN", 1); ("HEAD_VEH_VALID", 5); ("CARR_SOLN_FLOAT", 6); ("CARR_SOLN_FIXED", 7)].

Definition d_nav_pvt_flags2 : flags_doc := mk_flags_doc "NavPvtFlags2"
  [("CONFIRMED_AVAI", 5); ("CONFIRMED_DATE", 6); ("CONFIRMED_TIME", 7)].

Definition d_nav_status_flags : flags_doc := mk_flags_doc "NavStatusFlags"
  [("GPS_FIX_OK", 0); ("DIFF_SOLN", 1); ("WKN_SET", 2); ("TOW_SET", 3)].

Definition d_odo_cog_filter_flags : flags_doc := mk_flags_doc "OdoCogFilterFlags"
  [("USE_ODO", 0); ("USE_COG", 1); ("OUT_LP_VEL", 2); ("OUT_LP_COG", 3)].

Definition d_cfg_inf_mask : flags_doc := mk_flags_doc "CfgInfMask"
  [("ERROR", 0); ("WARNING", 1); ("NOTICE", 2); ("TEST", 3); ("DEBUG", 4)].

Definition d_ant_flags : flags_doc := mk_flags_doc "AntFlags"
  [("SVCS", 0); ("SCD", 1); ("OCD", 2); ("PDWN_ON_SCD", 3); ("RECOVERY", 4)].

Definition d_cfg_tmode2_flags : flags_doc := mk_flags_doc "CfgTmode2Flags"
  [("LLA", 0); ("ALT_INVALID", 1)].

Definition d_nav_time_ls_flags : flags_doc := mk_flags_doc "NavTimeLsFlags"
  [("VALID_CURR_LS", 0); ("VALID_TIME_TO_LS_EVENT", 1)].

(** The documentation has codes here ([d_rcvr_mode]), not flags: see [rcvr_mode_refuted] in PropInterface.v *)
Definition d_cfg_tmode3_rcvr_mode : flags_doc := mk_flags_doc "CfgTmode3RcvrMode"
  [("DISABLED", 0); ("SURVEY_IN", 1); ("FIXED_MODE", 2)].

Definition d_cfg_tp5_flags : flags_doc := mk_flags_doc "CfgTp5Flags"
  [("ACTIVE", 0); ("LOCK_GNSS_FREQ", 1); ("LOCKED_OTHER_SET", 2); ("IS_FREQ", 3); ("IS_LENGTH", 4);
   ("ALIGN_TO_TOW", 5); ("POLARITY", 6)].

Definition d_cfg_tmode3_flags : flags_doc := mk_flags_doc "CfgTmode3Flags"
  [("LLA", 0)].

Definition d_nav_bbr_mask : flags_doc := mk_flags_doc "NavBbrMask"
  [("EPHEMERIS", 0); ("ALMANACH", 1); ("HEALTH", 2); ("KLOBUCHARD", 3); ("POSITION", 4); ("CLOCK_DRIFT", 5);
   ("OSCILATOR_PARAMETER", 6); ("UTC_CORRECTION_PARAMETERS", 7); ("RTC", 8); ("SFDR_PARAMETERS", 11);
   ("SFDR_VEHICLE_MONITORING_PARAMETERS", 12); ("TCT_PARAMETERS", 13); ("AUTONOMOUS_ORBIT_PARAMETERS", 15)].

Definition d_cfg_layer : flags_doc := mk_flags_doc "CfgLayer"
  [("RAM", 0); ("BBR", 1); ("FLASH", 2)].

Definition d_in_proto_mask : flags_doc := mk_flags_doc "InProtoMask"
  [("UBLOX", 0); ("NMEA", 1); ("RTCM", 2); ("RTCM3", 5)].

Definition d_out_proto_mask : flags_doc := mk_flags_doc "OutProtoMask"
  [("UBLOX", 0); ("NMEA", 1); ("RTCM3", 5)].

Definition d_nav_time_utc_flags : flags_doc := mk_flags_doc "NavTimeUtcFlags"
  [("VALID_TOW", 0); ("VALID_WKN", 1); ("VALID_UTC", 2)].

Definition d_cfg_nav5_params : flags_doc := mk_flags_doc "CfgNav5Params"
  [("DYN", 0); ("MIN_EL", 1); ("POS_FIX_MODE", 2); ("DR_LIM", 3); ("POS_MASK_APPLY", 4); ("TIME_MASK", 5);
   ("STATIC_HOLD_MASK", 6); ("DGPS_MASK", 7); ("CNO_THRESHOLD", 8); ("UTC", 10)].

Definition d_cfg_nav_x5_params1 : flags_doc := mk_flags_doc "CfgNavX5Params1"
  [("MIN_MAX", 2); ("MIN_CNO", 3); ("INITIAL_3D_FIX", 6); ("WKN_ROLL", 9); ("AID_ACK", 10); ("USE_PPP", 13);
   ("AOP_CFG", 14)].

Definition d_cfg_nav_x5_params2 : flags_doc := mk_flags_doc "CfgNavX5Params2"
  [("USE_ADR", 6); ("USE_SIG_ATTEN_COMP", 7)].

Definition d_rec_stat_flags : flags_doc := mk_flags_doc "RecStatFlags"
  [("LEAP_SEC", 0); ("CLK_RESET", 1)].

Definition d_mon_gnss_constell_mask : flags_doc := mk_flags_doc "MonGnssConstellMask"
  [("GPS", 0); ("GLO", 1); ("BDC", 2); ("GAL", 3)].

Definition d_esf_ins_bit_flags : flags_doc := mk_flags_doc "EsfInsBitFlags"
  [("VERSION", 0); ("X_ANG_RATE_VALID", 8); ("Y_ANG_RATE_VALID", 9); ("Z_ANG_RATE_VALID", 10);
   ("X_ACCEL_VALID", 11); ("Y_ACCEL_VALID", 12); ("Z_ACCEL_VALID", 13)].

Definition d_hnr_ins_bit_flags : flags_doc := mk_flags_doc "HnrInsBitFlags"
  [("VERSION", 0); ("X_ANG_RATE_VALID", 8); ("Y_ANG_RATE_VALID", 9); ("Z_ANG_RATE_VALID", 10);
   ("X_ACCEL_VALID", 11); ("Y_ACCEL_VALID", 12); ("Z_ACCEL_VALID", 13)].

Definition d_hnr_pvt_flags : flags_doc := mk_flags_doc "HnrPvtFlags"
  [("GPS_FIX_OK", 0); ("DIFF_SOLN", 1); ("WKN_SET", 2); ("TOW_SET", 3); ("HEAD_VEH_VALID", 4)].

Definition d_hnr_pvt_valid_flags : flags_doc := mk_flags_doc "HnrPvtValidFlags"
  [("VALID_DATE", 0); ("VALID_TIME", 1); ("FULLY_RESOLVED", 2)].

Definition d_stdev_flags : flags_doc := mk_flags_doc "StdevFlags"
  [("STD_1", 0); ("STD_2", 1); ("STD_3", 2); ("STD_4", 3)].

Definition d_trk_stat_flags : flags_doc := mk_flags_doc "TrkStatFlags"
  [("PR_VALID", 0); ("CP_VALID", 1); ("HALF_CYCLE", 2); ("SUB_HALF_CYCLE", 3)].

(** GpsFix *)
Definition d_gps_fix : list (string * N) :=
  [("NoFix", 0); ("DeadReckoningOnly", 1); ("Fix2D", 2); ("Fix3D", 3); ("GPSPlusDeadReckoning", 4);
   ("TimeOnlyFix", 5)].

(** NavStatusFlags2 *)
Definition d_nav_status_flags2 : list (string * N) :=
  [("Acquisition", 0); ("Tracking", 1); ("PowerOptimizedTracking", 2); ("Inactive", 3)].

(** OdoProfile *)
Definition d_odo_profile : list (string * N) :=
  [("Running", 0); ("Cycling", 1); ("Swimming", 2); ("Car", 3); ("Custom", 4)].

(** CfgTp5TimePulseMode *)
Definition d_cfg_tp5_time_pulse_mode : list (string * N) :=
  [("TimePulse", 0); ("TimePulse2", 1)].

(** CfgTmode2TimeXferModes *)
Definition d_cfg_tmode2_time_xfer_modes : list (string * N) :=
  [("Disabled", 0); ("SurveyIn", 1); ("FixedMode", 2)].

(** I2cPortId *)
Definition d_i2c_port_id : list (string * N) :=
  [("I2c", 0)].

(** UartPortId *)
Definition d_uart_port_id : list (string * N) :=
  [("Uart1", 1); ("Uart2", 2); ("Usb", 3)].

(** SpiPortId *)
Definition d_spi_port_id : list (string * N) :=
  [("Spi", 4)].

(** CfgNav5DynModel *)
Definition d_cfg_nav5_dyn_model : list (string * N) :=
  [("Portable", 0); ("Stationary", 2); ("Pedestrian", 3); ("Automotive", 4); ("Sea", 5);
   ("AirborneWithLess1gAcceleration", 6); ("AirborneWithLess2gAcceleration", 7);
   ("AirborneWith4gAcceleration", 8); ("WristWornWatch", 9); ("Bike", 10)].

(** CfgNav5FixMode *)
Definition d_cfg_nav5_fix_mode : list (string * N) :=
  [("Only2D", 1); ("Only3D", 2); ("Auto2D3D", 3)].

(** CfgNav5UtcStandard *)
Definition d_cfg_nav5_utc_standard : list (string * N) :=
  [("Automatic", 0); ("Usno", 3); ("UtcSu", 6); ("UtcChina", 7)].

(** MsgAckInfoCode *)
Definition d_msg_ack_info_code : list (string * N) :=
  [("Accepted", 0); ("RejectedNoTime", 1); ("RejectedBadVersion", 2); ("RejectedBadSize", 3);
   ("RejectedDBStoreFailed", 4); ("RejectedNotReady", 5); ("RejectedUnknownType", 6)].

(** AntennaStatus *)
Definition d_antenna_status : list (string * N) :=
  [("Init", 0); ("DontKnow", 1); ("Ok", 2); ("Short", 3); ("Open", 4)].

(** AntennaPower *)
Definition d_antenna_power : list (string * N) :=
  [("Off", 0); ("On", 1); ("DontKnow", 2)].

(** CFG-RST resetMode, CFG-RATE timeRef *)
Definition d_reset_mode : list (string * N) :=
  [("HardwareResetImmediately", 0); ("ControlledSoftwareReset", 1); ("ControlledSoftwareResetGpsOnly", 2);
   ("HardwareResetAfterShutdown", 4); ("ControlledGpsStop", 8); ("ControlledGpsStart", 9)].
Definition d_alignment : list (string * N) := [("Utc", 0); ("Gps", 1); ("Glo", 2); ("Bds", 3); ("Gal", 4)].
(** CFG-TMODE3 receiver mode *)
Definition d_rcvr_mode : list (string * N) := [("DISABLED", 0); ("SURVEY_IN", 1); ("FIXED_MODE", 2)].
(** CFG-TP5 flags, bits 7 to 10: the time grid *)
Definition d_time_grid : list (string * N) :=
  [("UTC_TIME_GRID", 0); ("GPS_TIME_GRID", 1); ("GLO_TIME_GRID", 2); ("BDS_TIME_GRID", 3); ("GAL_TIME_GRID", 4)].
(** CFG-ITFM config2, bits 12 and 13: the antenna *)
Definition d_antenna : list (string * N) := [("Unknown", 0); ("Passive", 1); ("Active", 2)].

(** ** Messages *)

(** NAV-POSLLH *)
Definition i_nav_pos_llh : message :=
  mk_message "NavPosLlh" x01 x02 (Some 28) [
    row "itow" 0 (U 4) Plain;
    row "lon_degrees" 4 (I 4) (Scaled FTy64 1 10 (-7));
    row "lat_degrees" 8 (I 4) (Scaled FTy64 1 10 (-7));
    row "height_meters" 12 (I 4) (Scaled FTy64 1 10 (-3));
    row "height_msl" 16 (I 4) (Scaled FTy64 1 10 (-3));
    row "h_ack" 20 (U 4) (Scaled FTy64 1 10 (-3));
    row "v_acc" 24 (U 4) (Scaled FTy64 1 10 (-3))].

(** NAV-VELNED *)
Definition i_nav_vel_ned : message :=
  mk_message "NavVelNed" x01 x12 (Some 36) [
    row "itow" 0 (U 4) Plain;
    row "vel_north" 4 (I 4) (Scaled FTy64 1 10 (-2));
    row "vel_east" 8 (I 4) (Scaled FTy64 1 10 (-2));
    row "vel_down" 12 (I 4) (Scaled FTy64 1 10 (-2));
    row "speed_3d" 16 (U 4) (Scaled FTy64 1 10 (-2));
    row "ground_speed" 20 (U 4) (Scaled FTy64 1 10 (-2));
    row "heading_degrees" 24 (I 4) (Scaled FTy64 1 10 (-5));
    row "speed_accuracy_estimate" 28 (U 4) (Scaled FTy64 1 10 (-2));
    row "course_heading_accuracy_estimate" 32 (U 4) (Scaled FTy64 1 10 (-5))].

(** NAV-HPPOSLLH *)
Definition i_nav_hp_pos_llh : message :=
  mk_message "NavHpPosLlh" x01 x14 (Some 36) [
    row "version" 0 (U 1) Plain;
    row "reserved1" 1 (A 3) Plain;
    row "itow" 4 (U 4) Plain;
    row "lon_degrees" 8 (I 4) (Scaled FTy64 1 10 (-7));
    row "lat_degrees" 12 (I 4) (Scaled FTy64 1 10 (-7));
    row "height_meters" 16 (I 4) (Scaled FTy64 1 10 (-3));
    row "height_msl" 20 (I 4) (Scaled FTy64 1 10 (-3));
    row "lon_hp_degrees" 24 (I 1) (Scaled FTy64 1 10 (-9));
    row "lat_hp_degrees" 25 (I 1) (Scaled FTy64 1 10 (-9));
    row "height_hp_meters" 26 (I 1) (Scaled FTy64 1 10 (-1));
    row "height_hp_msl" 27 (I 1) (Scaled FTy64 1 10 (-1));
    row "horizontal_accuracy" 28 (U 4) (Scaled FTy64 1 10 (-1));
    row "vertical_accuracy" 32 (U 4) (Scaled FTy64 1 10 (-1))].

(** NAV-HPPOSECEF *)
Definition i_nav_hp_pos_ecef : message :=
  mk_message "NavHpPosEcef" x01 x13 (Some 28) [
    row "version" 0 (U 1) Plain;
    row "reserved1" 1 (A 3) Plain;
    row "itow" 4 (U 4) Plain;
    row "ecef_x_cm" 8 (I 4) (Scaled FTy64 1 10 0);
    row "ecef_y_cm" 12 (I 4) (Scaled FTy64 1 10 0);
    row "ecef_z_cm" 16 (I 4) (Scaled FTy64 1 10 0);
    row "ecef_x_hp_mm" 20 (I 1) (Scaled FTy64 1 10 (-1));
    row "ecef_y_hp_mm" 21 (I 1) (Scaled FTy64 1 10 (-1));
    row "ecef_z_hp_mm" 22 (I 1) (Scaled FTy64 1 10 (-1));
    row "flags" 23 (U 1) (Flags d_nav_hp_pos_ecef_flags);
    row "p_acc" 24 (U 4) (Scaled FTy64 1 10 (-1))].

(** NAV-PVT *)
Definition i_nav_pvt : message :=
  mk_message "NavPvt" x01 x07 (Some 92) [
    row "itow" 0 (U 4) Plain;
    row "year" 4 (U 2) Plain;
    row "month" 6 (U 1) Plain;
    row "day" 7 (U 1) Plain;
    row "hour" 8 (U 1) Plain;
    row "min" 9 (U 1) Plain;
    row "sec" 10 (U 1) Plain;
    row "valid" 11 (U 1) Plain;
    row "time_accuracy" 12 (U 4) Plain;
    row "nanosecond" 16 (I 4) Plain;
    row "fix_type" 20 (U 1) (Enum d_gps_fix);
    row "flags" 21 (U 1) (Flags d_nav_pvt_flags);
    row "flags2" 22 (U 1) (Flags d_nav_pvt_flags2);
    row "num_satellites" 23 (U 1) Plain;
    row "lon_degrees" 24 (I 4) (Scaled FTy64 1 10 (-7));
    row "lat_degrees" 28 (I 4) (Scaled FTy64 1 10 (-7));
    row "height_meters" 32 (I 4) (Scaled FTy64 1 10 (-3));
    row "height_msl" 36 (I 4) (Scaled FTy64 1 10 (-3));
    row "horiz_accuracy" 40 (U 4) Plain;
    row "vert_accuracy" 44 (U 4) Plain;
    row "vel_north" 48 (I 4) (Scaled FTy64 1 10 (-3));
    row "vel_east" 52 (I 4) (Scaled FTy64 1 10 (-3));
    row "vel_down" 56 (I 4) (Scaled FTy64 1 10 (-3));
    row "heading_degrees" 64 (I 4) (Scaled FTy64 1 10 (-5));
    row "speed_accuracy_estimate" 68 (U 4) (Scaled FTy64 1 10 (-3));
    row "heading_accuracy_estimate" 72 (U 4) (Scaled FTy64 1 10 (-5));
    row "pdop" 76 (U 2) Plain;
    row "reserved1" 78 (A 6) Plain;
    row "heading_of_vehicle_degrees" 84 (I 4) (Scaled FTy64 1 10 (-5));
    row "magnetic_declination_degrees" 88 (I 2) (Scaled FTy64 1 10 (-2));
    row "magnetic_declination_accuracy_degrees" 90 (U 2) (Scaled FTy64 1 10 (-2))].

(** NAV-STATUS *)
Definition i_nav_status : message :=
  mk_message "NavStatus" x01 x03 (Some 16) [
    row "itow" 0 (U 4) Plain;
    row "fix_type" 4 (U 1) (Enum d_gps_fix);
    row "flags" 5 (U 1) (Flags d_nav_status_flags);
    row "fix_stat" 6 (U 1) Word;
    row "flags2" 7 (U 1) (Enum d_nav_status_flags2);
    row "time_to_first_fix" 8 (U 4) Plain;
    row "uptime_ms" 12 (U 4) Plain].

(** NAV-DOP *)
Definition i_nav_dop : message :=
  mk_message "NavDop" x01 x04 (Some 18) [
    row "itow" 0 (U 4) Plain;
    row "geometric_dop" 4 (U 2) (Scaled FTy32 1 10 (-2));
    row "position_dop" 6 (U 2) (Scaled FTy32 1 10 (-2));
    row "time_dop" 8 (U 2) (Scaled FTy32 1 10 (-2));
    row "vertical_dop" 10 (U 2) (Scaled FTy32 1 10 (-2));
    row "horizontal_dop" 12 (U 2) (Scaled FTy32 1 10 (-2));
    row "northing_dop" 14 (U 2) (Scaled FTy32 1 10 (-2));
    row "easting_dop" 16 (U 2) (Scaled FTy32 1 10 (-2))].

(** NAV-EOE *)
Definition i_nav_eoe : message :=
  mk_message "NavEoe" x01 x61 (Some 4) [
    row "itow" 0 (U 4) Plain].

(** NAV-SOL *)
Definition i_nav_solution : message :=
  mk_message "NavSolution" x01 x06 (Some 52) [
    row "itow" 0 (U 4) Plain;
    row "ftow_ns" 4 (I 4) Plain;
    row "week" 8 (I 2) Plain;
    row "fix_type" 10 (U 1) (Enum d_gps_fix);
    row "flags" 11 (U 1) (Flags d_nav_status_flags);
    row "ecef_x" 12 (I 4) (Scaled FTy64 1 10 (-2));
    row "ecef_y" 16 (I 4) (Scaled FTy64 1 10 (-2));
    row "ecef_z" 20 (I 4) (Scaled FTy64 1 10 (-2));
    row "position_accuracy_estimate" 24 (U 4) (Scaled FTy64 1 10 (-2));
    row "ecef_vx" 28 (I 4) (Scaled FTy64 1 10 (-2));
    row "ecef_vy" 32 (I 4) (Scaled FTy64 1 10 (-2));
    row "ecef_vz" 36 (I 4) (Scaled FTy64 1 10 (-2));
    row "speed_accuracy_estimate" 40 (U 4) (Scaled FTy64 1 10 (-2));
    row "pdop" 44 (U 2) (Scaled FTy32 1 10 (-2));
    row "reserved1" 46 (U 1) Plain;
    row "num_sv" 47 (U 1) Plain;
    row "reserved2" 48 (A 4) Plain].

(** NAV-SAT, one satellite *)
Definition i_nav_sat_sv_info : message :=
  mk_message "NavSatSvInfo" x01 x35 (Some 12) [
    row "gnss_id" 0 (U 1) Plain;
    row "sv_id" 1 (U 1) Plain;
    row "cno" 2 (U 1) Plain;
    row "elev" 3 (I 1) Plain;
    row "azim" 4 (I 2) Plain;
    row "pr_res" 6 (I 2) Plain;
    row "flags" 8 (U 4) Word].

(** NAV-SAT *)
Definition i_nav_sat : message :=
  mk_message "NavSat" x01 x35 None [
    row "itow" 0 (U 4) Plain;
    row "version" 4 (U 1) Plain;
    row "num_svs" 5 (U 1) Plain;
    row "reserved" 6 (A 2) Plain;
    row "svs" 8 Rest Code].

(** NAV-ODO *)
Definition i_nav_odo : message :=
  mk_message "NavOdo" x01 x09 (Some 20) [
    row "version" 0 (U 1) Plain;
    row "reserved" 1 (A 3) Plain;
    row "itow" 4 (U 4) Plain;
    row "distance" 8 (U 4) Plain;
    row "total_distance" 12 (U 4) Plain;
    row "distance_std" 16 (U 4) Plain].

(** NAV-RESETODO *)
Definition i_nav_reset_odo : message :=
  mk_message "NavResetOdo" x01 x10 (Some 0) [].

(** CFG-ODO *)
Definition i_cfg_odo : message :=
  mk_message "CfgOdo" x06 x1e (Some 20) [
    row "version" 0 (U 1) Plain;
    row "reserved" 1 (A 3) Plain;
    row "flags" 4 (U 1) (Flags d_odo_cog_filter_flags);
    row "odo_cfg" 5 (U 1) (Enum d_odo_profile);
    row "reserved2" 6 (A 6) Plain;
    row "cog_max_speed" 12 (U 1) Plain;
    row "cog_max_pos_acc" 13 (U 1) Plain;
    row "reserved3" 14 (A 2) Plain;
    row "vel_lp_gain" 16 (U 1) Plain;
    row "cog_lp_gain" 17 (U 1) Plain;
    row "reserved4" 18 (A 2) Plain].

(** CFG-ITFM *)
Definition i_cfg_itfm : message :=
  mk_message "CfgItfm" x06 x39 (Some 8) [
    row "config" 0 (U 4) Code;
    row "config2" 4 (U 4) Code].

(** CFG-INF *)
Definition i_cfg_inf : message :=
  mk_message "CfgInf" x06 x02 (Some 10) [
    row "protocol_id" 0 (U 1) Plain;
    row "reserved" 1 (A 3) Plain;
    row "inf_msg_mask_0" 4 (U 1) (Flags d_cfg_inf_mask);
    row "inf_msg_mask_1" 5 (U 1) (Flags d_cfg_inf_mask);
    row "inf_msg_mask_2" 6 (U 1) (Flags d_cfg_inf_mask);
    row "inf_msg_mask_3" 7 (U 1) (Flags d_cfg_inf_mask);
    row "inf_msg_mask_4" 8 (U 1) (Flags d_cfg_inf_mask);
    row "inf_msg_mask_5" 9 (U 1) (Flags d_cfg_inf_mask)].

(** INF-ERROR *)
Definition i_inf_error : message :=
  mk_message "InfError" x04 x00 None [
    row "message" 0 Rest Code].

(** INF-NOTICE *)
Definition i_inf_notice : message :=
  mk_message "InfNotice" x04 x02 None [
    row "message" 0 Rest Code].

(** INF-TEST *)
Definition i_inf_test : message :=
  mk_message "InfTest" x04 x03 None [
    row "message" 0 Rest Code].

(** INF-WARNING *)
Definition i_inf_warning : message :=
  mk_message "InfWarning" x04 x01 None [
    row "message" 0 Rest Code].

(** INF-DEBUG *)
Definition i_inf_debug : message :=
  mk_message "InfDebug" x04 x04 None [
    row "message" 0 Rest Code].

(** AID-INI *)
Definition i_aid_ini : message :=
  mk_message "AidIni" x0b x01 (Some 48) [
    row "ecef_x_or_lat" 0 (I 4) Plain;
    row "ecef_y_or_lon" 4 (I 4) Plain;
    row "ecef_z_or_alt" 8 (I 4) Plain;
    row "pos_accuracy" 12 (U 4) Plain;
    row "time_cfg" 16 (U 2) Plain;
    row "week_or_ym" 18 (U 2) Plain;
    row "tow_or_hms" 20 (U 4) Plain;
    row "tow_ns" 24 (I 4) Plain;
    row "tm_accuracy_ms" 28 (U 4) Plain;
    row "tm_accuracy_ns" 32 (U 4) Plain;
    row "clk_drift_or_freq" 36 (I 4) Plain;
    row "clk_drift_or_freq_accuracy" 40 (U 4) Plain;
    row "flags" 44 (U 4) Plain].

(** AID-ALPSRV *)
Definition i_alp_srv : message :=
  mk_message "AlpSrv" x0b x32 (Some 16) [
    row "id_size" 0 (U 1) Plain;
    row "data_type" 1 (U 1) Plain;
    row "offset" 2 (U 2) Plain;
    row "size" 4 (U 2) Plain;
    row "file_id" 6 (U 2) Plain;
    row "data_size" 8 (U 2) Plain;
    row "id1" 10 (U 1) Plain;
    row "id2" 11 (U 1) Plain;
    row "id3" 12 (U 4) Plain].

(** ACK-ACK *)
Definition i_ack_ack : message :=
  mk_message "AckAck" x05 x01 (Some 2) [
    row "class" 0 (U 1) Plain;
    row "msg_id" 1 (U 1) Plain].

(** ACK-NAK *)
Definition i_ack_nak : message :=
  mk_message "AckNak" x05 x00 (Some 2) [
    row "class" 0 (U 1) Plain;
    row "msg_id" 1 (U 1) Plain].

(** CFG-RST *)
Definition i_cfg_rst : message :=
  mk_message "CfgRst" x06 x04 (Some 4) [
    row "nav_bbr_mask" 0 (U 2) (Flags d_nav_bbr_mask);
    row "reset_mode" 2 (U 1) (Enum d_reset_mode);
    row "reserved1" 3 (U 1) Plain].

(** CFG-ANT *)
Definition i_cfg_ant : message :=
  mk_message "CfgAnt" x06 x13 (Some 4) [
    row "flags" 0 (U 2) (Flags d_ant_flags);
    row "pins" 2 (U 2) Plain].

(** CFG-TP5 *)
Definition i_cfg_tp5 : message :=
  mk_message "CfgTp5" x06 x31 (Some 32) [
    row "tp_idx" 0 (U 1) (Enum d_cfg_tp5_time_pulse_mode);
    row "version" 1 (U 1) Plain;
    row "reserved1" 2 (A 2) Plain;
    row "ant_cable_delay" 4 (I 2) (Scaled FTy32 1 10 0);
    row "rf_group_delay" 6 (I 2) (Scaled FTy32 1 10 0);
    row "freq_period" 8 (U 4) (Scaled FTy64 1 10 0);
    row "freq_period_lock" 12 (U 4) (Scaled FTy64 1 10 0);
    row "pulse_len_ratio" 16 (U 4) (Scaled FTy64 1 10 0);
    row "pulse_len_ratio_lock" 20 (U 4) (Scaled FTy64 1 10 0);
    row "user_delay" 24 (I 4) (Scaled FTy64 1 10 0);
    row "flags" 28 (U 4) (Flags d_cfg_tp5_flags)].

(** CFG-TMODE2 *)
Definition i_cfg_tmode2 : message :=
  mk_message "CfgTmode2" x06 x3d (Some 28) [
    row "time_transfer_mode" 0 (U 1) (Enum d_cfg_tmode2_time_xfer_modes);
    row "reserved1" 1 (U 1) Plain;
    row "flags" 2 (U 2) (Flags d_cfg_tmode2_flags);
    row "ecef_x_or_lat" 4 (I 4) (Scaled FTy64 1 10 (-2));
    row "ecef_y_or_lon" 8 (I 4) (Scaled FTy64 1 10 (-2));
    row "ecef_z_or_alt" 12 (I 4) (Scaled FTy64 1 10 (-2));
    row "fixed_pos_acc" 16 (U 4) (Scaled FTy64 1 10 (-3));
    row "survey_in_min_duration" 20 (U 4) Plain;
    row "survery_in_accur_limit" 24 (U 4) (Scaled FTy64 1 10 (-3))].

(** TIM-SVIN *)
Definition i_tim_svin : message :=
  mk_message "TimSvin" x0d x04 (Some 28) [
    row "dur" 0 (U 4) Plain;
    row "mean_x" 4 (I 4) Plain;
    row "mean_y" 8 (I 4) Plain;
    row "mean_z" 12 (I 4) Plain;
    row "obs" 20 (U 4) Plain;
    row "valid" 24 (U 1) Plain;
    row "active" 25 (U 1) Plain;
    row "reserved" 26 (A 2) Plain].

(** NAV-TIMELS *)
Definition i_nav_time_ls : message :=
  mk_message "NavTimeLs" x01 x26 (Some 24) [
    row "itow" 0 (U 4) Plain;
    row "version" 4 (U 1) Plain;
    row "reserved_1" 5 (A 3) Plain;
    row "src_of_curr_ls" 8 (U 1) Plain;
    row "current_ls" 9 (I 1) Plain;
    row "src_of_ls_change" 10 (U 1) Plain;
    row "ls_change" 11 (I 1) Plain;
    row "time_to_ls_event" 12 (I 4) Plain;
    row "date_of_ls_gps_wn" 16 (U 2) Plain;
    row "date_of_ls_gps_dn" 18 (U 2) Plain;
    row "reserved_2" 20 (A 3) Plain;
    row "valid" 23 (U 1) (Flags d_nav_time_ls_flags)].

(** CFG-TMODE3 *)
Definition i_cfg_tmode3 : message :=
  mk_message "CfgTmode3" x06 x71 (Some 40) [
    row "version" 0 (U 1) Plain;
    row "reserved1" 1 (U 1) Plain;
    row "rcvr_mode" 2 (U 1) (Flags d_cfg_tmode3_rcvr_mode);
    row "flags" 3 (U 1) (Flags d_cfg_tmode3_flags);
    row "ecef_x_or_lat" 4 (I 4) (Scaled FTy64 1 10 (-2));
    row "ecef_y_or_lon" 8 (I 4) (Scaled FTy64 1 10 (-2));
    row "ecef_z_or_alt" 12 (I 4) (Scaled FTy64 1 10 (-2));
    row "ecef_x_or_lat_hp" 16 (I 1) (Scaled FTy32 1 10 0);
    row "ecef_y_or_lon_hp" 17 (I 1) (Scaled FTy32 1 10 0);
    row "ecef_z_or_alt_hp" 18 (I 1) (Scaled FTy32 1 10 0);
    row "reserved2" 19 (U 1) Plain;
    row "fixed_pos_acc" 20 (U 4) (Scaled FTy64 1 10 (-4));
    row "sv_in_min_duration" 24 (U 4) Plain;
    row "sv_in_accur_limit" 28 (U 4) (Scaled FTy64 1 10 (-4));
    row "reserved3" 32 (A 8) Plain].

(** CFG-VALSET *)
Definition i_cfg_val_set : message :=
  mk_message "CfgValSet" x06 x8a None [
    row "version" 0 (U 1) Plain;
    row "layers" 1 (U 1) (Flags d_cfg_layer);
    row "reserved1" 2 (U 2) Plain].

(** CFG-PRT for I2C *)
Definition i_cfg_prt_i2c : message :=
  mk_message "CfgPrtI2c" x06 x00 (Some 20) [
    row "portid" 0 (U 1) (Enum d_i2c_port_id);
    row "reserved1" 1 (U 1) Plain;
    row "tx_ready" 2 (U 2) Plain;
    row "mode" 4 (U 4) Plain;
    row "reserved2" 8 (U 4) Plain;
    row "in_proto_mask" 12 (U 2) (Flags d_in_proto_mask);
    row "out_proto_mask" 14 (U 2) (Flags d_out_proto_mask);
    row "flags" 16 (U 2) Plain;
    row "reserved3" 18 (U 2) Plain].

(** CFG-PRT for UART *)
Definition i_cfg_prt_uart : message :=
  mk_message "CfgPrtUart" x06 x00 (Some 20) [
    row "portid" 0 (U 1) (Enum d_uart_port_id);
    row "reserved0" 1 (U 1) Plain;
    row "tx_ready" 2 (U 2) Plain;
    row "mode" 4 (U 4) Code;
    row "baud_rate" 8 (U 4) Plain;
    row "in_proto_mask" 12 (U 2) (Flags d_in_proto_mask);
    row "out_proto_mask" 14 (U 2) (Flags d_out_proto_mask);
    row "flags" 16 (U 2) Plain;
    row "reserved5" 18 (U 2) Plain].

(** CFG-PRT for SPI *)
Definition i_cfg_prt_spi : message :=
  mk_message "CfgPrtSpi" x06 x00 (Some 20) [
    row "portid" 0 (U 1) (Enum d_spi_port_id);
    row "reserved0" 1 (U 1) Plain;
    row "tx_ready" 2 (U 2) Plain;
    row "mode" 4 (U 4) Plain;
    row "reserved3" 8 (U 4) Plain;
    row "in_proto_mask" 12 (U 2) (Flags d_in_proto_mask);
    row "out_proto_mask" 14 (U 2) (Flags d_out_proto_mask);
    row "flags" 16 (U 2) Plain;
    row "reserved5" 18 (U 2) Plain].

(** NAV-TIMEUTC *)
Definition i_nav_time_utc : message :=
  mk_message "NavTimeUTC" x01 x21 (Some 20) [
    row "itow" 0 (U 4) Plain;
    row "time_accuracy_estimate_ns" 4 (U 4) Plain;
    row "nanos" 8 (I 4) Plain;
    row "year" 12 (U 2) Plain;
    row "month" 14 (U 1) Plain;
    row "day" 15 (U 1) Plain;
    row "hour" 16 (U 1) Plain;
    row "min" 17 (U 1) Plain;
    row "sec" 18 (U 1) Plain;
    row "valid" 19 (U 1) (Flags d_nav_time_utc_flags)].

(** CFG-RATE *)
Definition i_cfg_rate : message :=
  mk_message "CfgRate" x06 x08 (Some 6) [
    row "measure_rate_ms" 0 (U 2) Plain;
    row "nav_rate" 2 (U 2) Plain;
    row "time_ref" 4 (U 2) (Enum d_alignment)].

(** CFG-MSG *)
Definition i_cfg_msg_single_port : message :=
  mk_message "CfgMsgSinglePort" x06 x01 (Some 3) [
    row "msg_class" 0 (U 1) Plain;
    row "msg_id" 1 (U 1) Plain;
    row "rate" 2 (U 1) Plain].

(** CFG-MSG *)
Definition i_cfg_msg_all_ports : message :=
  mk_message "CfgMsgAllPorts" x06 x01 (Some 8) [
    row "msg_class" 0 (U 1) Plain;
    row "msg_id" 1 (U 1) Plain;
    row "rates" 2 (A 6) Plain].

(** CFG-NAV5 *)
Definition i_cfg_nav5 : message :=
  mk_message "CfgNav5" x06 x24 (Some 36) [
    row "mask" 0 (U 2) (Flags d_cfg_nav5_params);
    row "dyn_model" 2 (U 1) (Enum d_cfg_nav5_dyn_model);
    row "fix_mode" 3 (U 1) (Enum d_cfg_nav5_fix_mode);
    row "fixed_alt" 4 (I 4) (Scaled FTy64 1 10 (-2));
    row "fixed_alt_var" 8 (U 4) (Scaled FTy64 1 10 (-4));
    row "min_elev_degrees" 12 (I 1) Plain;
    row "dr_limit" 13 (U 1) Plain;
    row "pdop" 14 (U 2) (Scaled FTy32 1 10 (-1));
    row "tdop" 16 (U 2) (Scaled FTy32 1 10 (-1));
    row "pacc" 18 (U 2) Plain;
    row "tacc" 20 (U 2) Plain;
    row "static_hold_thresh" 22 (U 1) (Scaled FTy32 1 10 (-2));
    row "dgps_time_out" 23 (U 1) Plain;
    row "cno_thresh_num_svs" 24 (U 1) Plain;
    row "cno_thresh" 25 (U 1) Plain;
    row "reserved1" 26 (A 2) Plain;
    row "static_hold_max_dist" 28 (U 2) Plain;
    row "utc_standard" 30 (U 1) (Enum d_cfg_nav5_utc_standard);
    row "reserved2" 31 (A 5) Plain].

(** CFG-NAVX5 *)
Definition i_cfg_nav_x5 : message :=
  mk_message "CfgNavX5" x06 x23 (Some 40) [
    row "version" 0 (U 2) Plain;
    row "mask1" 2 (U 2) (Flags d_cfg_nav_x5_params1);
    row "mask2" 4 (U 4) (Flags d_cfg_nav_x5_params2);
    row "reserved1" 8 (A 2) Plain;
    row "min_svs" 10 (U 1) Plain;
    row "max_svs" 11 (U 1) Plain;
    row "min_cno_dbhz" 12 (U 1) Plain;
    row "reserved2" 13 (U 1) Plain;
    row "ini_fix_3d" 14 (U 1) Plain;
    row "reserved3" 15 (A 2) Plain;
    row "ack_aiding" 17 (U 1) Plain;
    row "wkn_rollover" 18 (U 2) Plain;
    row "sig_atten_comp_mode" 20 (U 1) Plain;
    row "reserved4" 21 (U 1) Plain;
    row "reserved5" 22 (A 2) Plain;
    row "reserved6" 24 (A 2) Plain;
    row "use_ppp" 26 (U 1) Plain;
    row "aop_cfg" 27 (U 1) Plain;
    row "reserved7" 28 (A 2) Plain;
    row "aop_orb_max_err" 30 (U 2) Plain;
    row "reserved8" 32 (A 4) Plain;
    row "reserved9" 36 (A 3) Plain;
    row "use_adr" 39 (U 1) Plain].

(** MGA-ACK *)
Definition i_mga_ack : message :=
  mk_message "MgaAck" x13 x60 (Some 8) [
    row "ack_type" 0 (U 1) Plain;
    row "version" 1 (U 1) Plain;
    row "info_code" 2 (U 1) (Enum d_msg_ack_info_code);
    row "msg_id" 3 (U 1) Plain;
    row "msg_payload_start" 4 (A 4) Plain].

(** MGA-GLO-EPH *)
Definition i_mga_glo_eph : message :=
  mk_message "MgaGloEph" x13 x06 (Some 48) [
    row "msg_type" 0 (U 1) Plain;
    row "version" 1 (U 1) Plain;
    row "sv_id" 2 (U 1) Plain;
    row "reserved1" 3 (U 1) Plain;
    row "ft" 4 (U 1) Plain;
    row "b" 5 (U 1) Plain;
    row "m" 6 (U 1) Plain;
    row "h" 7 (I 1) Plain;
    row "x" 8 (I 4) Plain;
    row "y" 12 (I 4) Plain;
    row "z" 16 (I 4) Plain;
    row "dx" 20 (I 4) Plain;
    row "dy" 24 (I 4) Plain;
    row "dz" 28 (I 4) Plain;
    row "ddx" 32 (I 1) Plain;
    row "ddy" 33 (I 1) Plain;
    row "ddz" 34 (I 1) Plain;
    row "tb" 35 (U 1) Plain;
    row "e" 38 (U 1) Plain;
    row "tau" 40 (I 4) Plain;
    row "reserved2" 44 (A 4) Plain].

(** MGA-GPS-IONO *)
Definition i_mga_gps_iono : message :=
  mk_message "MgaGpsIono" x13 x00 (Some 16) [
    row "msg_type" 0 (U 1) Plain;
    row "version" 1 (U 1) Plain;
    row "reserved1" 2 (A 2) Plain;
    row "reserved2" 12 (A 4) Plain].

(** MGA-GPS-EPH *)
Definition i_mga_gps_eph : message :=
  mk_message "MgaGpsEph" x13 x00 (Some 68) [
    row "msg_type" 0 (U 1) Plain;
    row "version" 1 (U 1) Plain;
    row "sv_id" 2 (U 1) Plain;
    row "reserved1" 3 (U 1) Plain;
    row "fit_interval" 4 (U 1) Plain;
    row "ura_index" 5 (U 1) Plain;
    row "sv_health" 6 (U 1) Plain;
    row "tgd" 7 (I 1) Plain;
    row "iodc" 8 (U 2) Plain;
    row "toc" 10 (U 2) Plain;
    row "reserved2" 12 (U 1) Plain;
    row "af2" 13 (I 1) Plain;
    row "af1" 14 (I 2) Plain;
    row "af0" 16 (I 4) Plain;
    row "crs" 20 (I 2) Plain;
    row "delta_n" 22 (I 2) Plain;
    row "m0" 24 (I 4) Plain;
    row "cuc" 28 (I 2) Plain;
    row "cus" 30 (I 2) Plain;
    row "e" 32 (U 4) Plain;
    row "sqrt_a" 36 (U 4) Plain;
    row "toe" 40 (U 2) Plain;
    row "cic" 42 (I 2) Plain;
    row "omega0" 44 (I 4) Plain;
    row "cis" 48 (I 2) Plain;
    row "crc" 50 (I 2) Plain;
    row "i0" 52 (I 4) Plain;
    row "omega" 56 (I 4) Plain;
    row "omega_dot" 60 (I 4) Plain;
    row "idot" 64 (I 2) Plain;
    row "reserved3" 66 (A 2) Plain].

(** TIM-TP *)
Definition i_tim_tp : message :=
  mk_message "TimTp" x0d x01 (Some 16) [
    row "tow_ms" 0 (U 4) Plain;
    row "tow_sub_ms" 4 (U 4) Plain;
    row "q_err" 8 (I 4) Plain;
    row "week" 12 (U 2) Plain;
    row "flags" 14 (U 1) Word;
    row "ref_info" 15 (U 1) Word].

(** TIM-TM2 *)
Definition i_tim_tm2 : message :=
  mk_message "TimTm2" x0d x03 (Some 28) [
    row "ch" 0 (U 1) Plain;
    row "flags" 1 (U 1) Word;
    row "count" 2 (U 2) Plain;
    row "wn_r" 4 (U 2) Plain;
    row "wn_f" 6 (U 2) Plain;
    row "tow_ms_r" 8 (U 4) Plain;
    row "tow_sub_ms_r" 12 (U 4) Plain;
    row "tow_ms_f" 16 (U 4) Plain;
    row "tow_sub_ms_f" 20 (U 4) Plain;
    row "acc_est" 24 (U 4) Plain].

(** RXM-RAWX *)
Definition i_rxm_rawx : message :=
  mk_message "RxmRawx" x02 x15 None [
    row "rcv_tow" 0 (R 8) Plain;
    row "week" 8 (U 2) Plain;
    row "leap_s" 10 (I 1) Plain;
    row "num_meas" 11 (U 1) Plain;
    row "rec_stat" 12 (U 1) (Flags d_rec_stat_flags);
    row "version" 13 (U 1) Plain;
    row "reserved1" 14 (A 2) Plain;
    row "measurements" 16 Rest Code].

(** MON-HW *)
Definition i_mon_hw : message :=
  mk_message "MonHw" x0a x09 (Some 60) [
    row "pin_sel" 0 (U 4) Plain;
    row "pin_bank" 4 (U 4) Plain;
    row "pin_dir" 8 (U 4) Plain;
    row "pin_val" 12 (U 4) Plain;
    row "noise_per_ms" 16 (U 2) Plain;
    row "agc_cnt" 18 (U 2) Plain;
    row "a_status" 20 (U 1) (Enum d_antenna_status);
    row "a_power" 21 (U 1) (Enum d_antenna_power);
    row "flags" 22 (U 1) Plain;
    row "reserved1" 23 (U 1) Plain;
    row "used_mask" 24 (U 4) Plain;
    row "vp" 28 (A 17) Plain;
    row "jam_ind" 45 (U 1) Plain;
    row "reserved2" 46 (A 2) Plain;
    row "pin_irq" 48 (U 4) Plain;
    row "pull_h" 52 (U 4) Plain;
    row "pull_l" 56 (U 4) Plain].

(** MON-GNSS *)
Definition i_mon_gnss : message :=
  mk_message "MonGnss" x0a x28 (Some 8) [
    row "version" 0 (U 1) Plain;
    row "supported" 1 (U 1) (Flags d_mon_gnss_constell_mask);
    row "default" 2 (U 1) (Flags d_mon_gnss_constell_mask);
    row "enabled" 3 (U 1) (Flags d_mon_gnss_constell_mask);
    row "simultaneous" 4 (U 1) Plain;
    row "reserved1" 5 (A 3) Plain].

(** MON-VER *)
Definition i_mon_ver : message :=
  mk_message "MonVer" x0a x04 None [
    row "software_version" 0 (A 30) Code;
    row "hardware_version" 30 (A 10) Code;
    row "extension" 40 Rest Code].

(** RXM-RTCM *)
Definition i_rxm_rtcm : message :=
  mk_message "RxmRtcm" x02 x32 (Some 8) [
    row "version" 0 (U 1) Plain;
    row "flags" 1 (U 1) Plain;
    row "sub_type" 2 (U 2) Plain;
    row "ref_station" 4 (U 2) Plain;
    row "msg_type" 6 (U 2) Plain].

(** ESF-MEAS *)
Definition i_esf_meas : message :=
  mk_message "EsfMeas" x10 x02 None [
    row "time_tag" 0 (U 4) Plain;
    row "flags" 4 (U 2) Plain;
    row "id" 6 (U 2) Plain].

(** ESF-RAW *)
Definition i_esf_raw : message :=
  mk_message "EsfRaw" x10 x03 None [
    row "msss" 0 (U 4) Plain;
    row "data" 4 Rest Code].

(** ESF-INS *)
Definition i_esf_ins : message :=
  mk_message "EsfIns" x10 x15 (Some 36) [
    row "bit_field" 0 (U 4) (Flags d_esf_ins_bit_flags);
    row "reserved" 4 (A 4) Plain;
    row "itow" 8 (U 4) Plain;
    row "x_angular_rate" 12 (I 4) (Scaled FTy64 1 10 (-3));
    row "y_angular_rate" 16 (I 4) (Scaled FTy64 1 10 (-3));
    row "z_angular_rate" 20 (I 4) (Scaled FTy64 1 10 (-3));
    row "x_acceleration" 24 (I 4) (Scaled FTy64 1 10 (-2));
    row "y_acceleration" 28 (I 4) (Scaled FTy64 1 10 (-2));
    row "z_acceleration" 32 (I 4) (Scaled FTy64 1 10 (-2))].

(** HNR-ATT *)
Definition i_hnr_att : message :=
  mk_message "HnrAtt" x28 x01 (Some 32) [
    row "itow" 0 (U 4) Plain;
    row "version" 4 (U 1) Plain;
    row "reserved1" 5 (A 3) Plain;
    row "vehicle_roll" 8 (I 4) (Scaled FTy64 1 10 (-5));
    row "vehicle_pitch" 12 (I 4) (Scaled FTy64 1 10 (-5));
    row "vehicle_heading" 16 (I 4) (Scaled FTy64 1 10 (-5));
    row "vehicle_roll_accuracy" 20 (U 4) (Scaled FTy64 1 10 (-5));
    row "vehicle_pitch_accuracy" 24 (U 4) (Scaled FTy64 1 10 (-5));
    row "vehicle_heading_accuracy" 28 (U 4) (Scaled FTy64 1 10 (-5))].

(** HNR-INS *)
Definition i_hnr_ins : message :=
  mk_message "HnrIns" x28 x02 (Some 36) [
    row "bit_field" 0 (U 4) (Flags d_hnr_ins_bit_flags);
    row "reserved" 4 (A 4) Plain;
    row "itow" 8 (U 4) Plain;
    row "x_angular_rate" 12 (I 4) (Scaled FTy64 1 10 (-3));
    row "y_angular_rate" 16 (I 4) (Scaled FTy64 1 10 (-3));
    row "z_angular_rate" 20 (I 4) (Scaled FTy64 1 10 (-3));
    row "x_acceleration" 24 (I 4) (Scaled FTy64 1 10 (-2));
    row "y_acceleration" 28 (I 4) (Scaled FTy64 1 10 (-2));
    row "z_acceleration" 32 (I 4) (Scaled FTy64 1 10 (-2))].

(** HNR-PVT *)
Definition i_hnr_pvt : message :=
  mk_message "HnrPvt" x28 x00 (Some 72) [
    row "itow" 0 (U 4) Plain;
    row "year" 4 (U 2) Plain;
    row "month" 6 (U 1) Plain;
    row "day" 7 (U 1) Plain;
    row "hour" 8 (U 1) Plain;
    row "min" 9 (U 1) Plain;
    row "sec" 10 (U 1) Plain;
    row "valid" 11 (U 1) (Flags d_hnr_pvt_valid_flags);
    row "nano" 12 (I 4) Plain;
    row "gps_fix" 16 (U 1) (Enum d_gps_fix);
    row "flags" 17 (U 1) (Flags d_hnr_pvt_flags);
    row "reserved1" 18 (A 2) Plain;
    row "longitude" 20 (I 4) (Scaled FTy64 1 10 (-7));
    row "latitude" 24 (I 4) (Scaled FTy64 1 10 (-7));
    row "height_above_ellipsoid" 28 (I 4) (Scaled FTy64 1 10 (-3));
    row "height_msl" 32 (I 4) (Scaled FTy64 1 10 (-3));
    row "ground_speed_2d" 36 (I 4) (Scaled FTy64 1 10 (-3));
    row "speed_3d" 40 (I 4) (Scaled FTy64 1 10 (-3));
    row "heading_motion" 44 (I 4) (Scaled FTy64 1 10 (-5));
    row "heading_vehicle" 48 (I 4) (Scaled FTy64 1 10 (-5));
    row "h_acc" 52 (U 4) Plain;
    row "v_acc" 56 (U 4) Plain;
    row "s_acc" 60 (U 4) Plain;
    row "heading_accurracy" 64 (U 4) (Scaled FTy64 1 10 (-5));
    row "reserved2" 68 (A 4) Plain].

(** NAV-ATT *)
Definition i_nav_att : message :=
  mk_message "NavAtt" x01 x05 (Some 32) [
    row "itow" 0 (U 4) Plain;
    row "version" 4 (U 1) Plain;
    row "reserved1" 5 (A 3) Plain;
    row "vehicle_roll" 8 (I 4) (Scaled FTy64 1 10 (-5));
    row "vehicle_pitch" 12 (I 4) (Scaled FTy64 1 10 (-5));
    row "vehicle_heading" 16 (I 4) (Scaled FTy64 1 10 (-5));
    row "vehicle_roll_accuracy" 20 (U 4) (Scaled FTy64 1 10 (-5));
    row "vehicle_pitch_accuracy" 24 (U 4) (Scaled FTy64 1 10 (-5));
    row "vehicle_heading_accuracy" 28 (U 4) (Scaled FTy64 1 10 (-5))].

(** NAV-CLOCK *)
Definition i_nav_clock : message :=
  mk_message "NavClock" x01 x22 (Some 20) [
    row "itow" 0 (U 4) Plain;
    row "clk_b" 4 (I 4) Plain;
    row "clk_d" 8 (I 4) Plain;
    row "t_acc" 12 (U 4) Plain;
    row "f_acc" 16 (U 4) Plain].

(** RXM-SFRBX *)
Definition i_rxm_sfrbx : message :=
  mk_message "RxmSfrbx" x02 x13 None [
    row "gnss_id" 0 (U 1) Plain;
    row "sv_id" 1 (U 1) Plain;
    row "reserved1" 2 (U 1) Plain;
    row "freq_id" 3 (U 1) Plain;
    row "num_words" 4 (U 1) Plain;
    row "reserved2" 5 (U 1) Plain;
    row "version" 6 (U 1) Plain;
    row "reserved3" 7 (U 1) Plain;
    row "dwrd" 8 Rest Code].

(** NAV-VELECEF *)
Definition i_nav_vel_ecef : message :=
  mk_message "NavVelECEF" x01 x11 (Some 20) [
    row "itow" 0 (U 4) Plain;
    row "ecef_vx" 4 (I 4) Plain;
    row "ecef_vy" 8 (I 4) Plain;
    row "s_acc" 16 (U 4) Plain].

(** MGA-GPS-EPH *)
Definition i_mga_gps_EPH : message :=
  mk_message "MgaGpsEPH" x13 x00 (Some 68) [
    row "msg_type" 0 (U 1) Plain;
    row "version" 1 (U 1) Plain;
    row "sv_id" 2 (U 1) Plain;
    row "reserved1" 3 (U 1) Plain;
    row "fit_interval" 4 (U 1) Plain;
    row "ura_index" 5 (U 1) Plain;
    row "sv_health" 6 (U 1) Plain;
    row "iodc" 8 (U 2) Plain;
    row "reserved2" 12 (U 1) Plain;
    row "reserved3" 66 (A 2) Plain].

(** RXM-RAWX, one measurement *)
Definition i_rxm_rawx_info : message :=
  mk_message "RxmRawxInfo" x02 x15 (Some 32) [
    row "pr_mes" 0 (R 8) Plain;
    row "cp_mes" 8 (R 8) Plain;
    row "do_mes" 16 (R 4) Plain;
    row "gnss_id" 20 (U 1) Plain;
    row "sv_id" 21 (U 1) Plain;
    row "reserved2" 22 (U 1) Plain;
    row "freq_id" 23 (U 1) Plain;
    row "lock_time" 24 (U 2) Plain;
    row "cno" 26 (U 1) Plain;
    row "pr_stdev" 27 (U 1) (Flags d_stdev_flags);
    row "cp_stdev" 28 (U 1) (Flags d_stdev_flags);
    row "do_stdev" 29 (U 1) (Flags d_stdev_flags);
    row "trk_stat" 30 (U 1) (Flags d_trk_stat_flags);
    row "reserved3" 31 (U 1) Plain].

(** SEC-UNIQID *)
Definition i_sec_uniq_id : message :=
  mk_message "SecUniqId" x27 x03 (Some 9) [
    row "version" 0 (U 1) Plain;
    row "reserved1" 1 (A 3) Plain;
    row "unique_id" 4 (A 5) Plain].

(** Messages with a type in [PacketRef] *)
Definition messages : list message :=
  [i_nav_pos_llh; i_nav_vel_ned; i_nav_hp_pos_llh; i_nav_hp_pos_ecef; i_nav_pvt; i_nav_status; i_nav_dop;
   i_nav_eoe; i_nav_solution; i_nav_sat; i_nav_odo; i_cfg_odo; i_cfg_itfm; i_inf_error; i_inf_notice;
   i_inf_test; i_inf_warning; i_inf_debug; i_alp_srv; i_ack_ack; i_ack_nak; i_cfg_ant; i_cfg_tp5;
   i_cfg_tmode2; i_tim_svin; i_nav_time_ls; i_cfg_tmode3; i_cfg_prt_i2c; i_cfg_prt_uart; i_cfg_prt_spi;
   i_nav_time_utc; i_cfg_nav5; i_mga_ack; i_mga_glo_eph; i_mga_gps_iono; i_mga_gps_eph; i_tim_tp; i_tim_tm2;
   i_rxm_rawx; i_mon_hw; i_mon_gnss; i_mon_ver; i_rxm_rtcm; i_esf_meas; i_esf_raw; i_esf_ins; i_hnr_att;
   i_hnr_ins; i_hnr_pvt; i_nav_att; i_nav_clock; i_rxm_sfrbx; i_nav_vel_ecef; i_mga_gps_EPH; i_sec_uniq_id].

(** Blocks of messages, and messages with a type that is not in [PacketRef] *)
Definition blocks : list message :=
  [i_nav_sat_sv_info; i_cfg_inf; i_cfg_nav_x5; i_rxm_rawx_info].

(** Messages with a builder, without CFG-VALSET, which has no fixed length *)
Definition sent : list message :=
  [i_nav_reset_odo; i_cfg_odo; i_cfg_itfm; i_cfg_inf; i_aid_ini; i_cfg_rst; i_cfg_ant; i_cfg_tp5;
   i_cfg_tmode2; i_cfg_tmode3; i_cfg_prt_i2c; i_cfg_prt_uart; i_cfg_prt_spi; i_cfg_rate;
   i_cfg_msg_single_port; i_cfg_msg_all_ports; i_cfg_nav5; i_cfg_nav_x5].

(** Fields which the library reads in another way: the documented row, and the row that describes the library *)
Record deviation := mk_deviation { dv_type : string; dv_documented : row_doc; dv_actual : row_doc }.
Definition deviations : list deviation :=
  [mk_deviation "NavPvt" (row "ground_speed" 60 (I 4) (Scaled FTy64 1 10 (-3)))
     (row "ground_speed" 60 (U 4) (Scaled FTy64 1 10 (-3)));
   mk_deviation "TimSvin" (row "mean_v" 16 (U 4) Plain)
     (row "mean_v" 16 (I 4) Plain);
   mk_deviation "MgaGloEph" (row "gamma" 36 (I 2) Plain)
     (row "gamma" 36 (U 2) Plain);
   mk_deviation "MgaGloEph" (row "delta_tau" 39 (I 1) Plain)
     (row "delta_tau" 39 (U 1) Plain);
   mk_deviation "MgaGpsIono" (row "alpha0" 4 (I 1) (Scaled FTy64 1 2 (-30)))
     (row "alpha0" 4 (I 1) (Scaled FTy64 1 10 0));
   mk_deviation "MgaGpsIono" (row "alpha1" 5 (I 1) (Scaled FTy64 1 2 (-27)))
     (row "alpha1" 5 (I 1) (Scaled FTy64 1 10 0));
   mk_deviation "MgaGpsIono" (row "alpha2" 6 (I 1) (Scaled FTy64 1 2 (-24)))
     (row "alpha2" 6 (I 1) (Scaled FTy64 1 10 0));
   mk_deviation "MgaGpsIono" (row "alpha3" 7 (I 1) (Scaled FTy64 1 2 (-24)))
     (row "alpha3" 7 (I 1) (Scaled FTy64 1 10 0));
   mk_deviation "MgaGpsIono" (row "beta0" 8 (I 1) (Scaled FTy64 1 2 11))
     (row "beta0" 8 (I 1) (Scaled FTy64 1 10 0));
   mk_deviation "MgaGpsIono" (row "beta1" 9 (I 1) (Scaled FTy64 1 2 14))
     (row "beta1" 9 (I 1) (Scaled FTy64 1 10 0));
   mk_deviation "MgaGpsIono" (row "beta2" 10 (I 1) (Scaled FTy64 1 2 16))
     (row "beta2" 10 (I 1) (Scaled FTy64 1 10 0));
   mk_deviation "MgaGpsIono" (row "beta3" 11 (I 1) (Scaled FTy64 1 2 16))
     (row "beta3" 11 (I 1) (Scaled FTy64 1 10 0));
   mk_deviation "NavVelECEF" (row "ecef_vz" 12 (I 4) Plain)
     (row "ecef_vz" 12 (U 4) Plain);
   mk_deviation "MgaGpsEPH" (row "tgd" 7 (I 1) (Scaled FTy64 1 2 (-31)))
     (row "tgd" 7 (I 1) (Scaled FTy64 2 10 (-31)));
   mk_deviation "MgaGpsEPH" (row "toc" 10 (U 2) (Scaled FTy64 1 2 4))
     (row "toc" 10 (U 2) (Scaled FTy64 2 10 4));
   mk_deviation "MgaGpsEPH" (row "af2" 13 (I 1) (Scaled FTy64 1 2 (-55)))
     (row "af2" 13 (I 1) (Scaled FTy64 2 10 (-55)));
   mk_deviation "MgaGpsEPH" (row "afl" 14 (I 2) (Scaled FTy64 1 2 (-43)))
     (row "afl" 14 (I 2) (Scaled FTy64 2 10 (-43)));
   mk_deviation "MgaGpsEPH" (row "af0" 16 (I 4) (Scaled FTy64 1 2 (-31)))
     (row "af0" 16 (I 4) (Scaled FTy64 2 10 (-31)));
   mk_deviation "MgaGpsEPH" (row "crs" 20 (I 2) (Scaled FTy64 1 2 (-5)))
     (row "crs" 20 (I 2) (Scaled FTy64 2 10 (-5)));
   mk_deviation "MgaGpsEPH" (row "delta_n" 22 (I 2) (Scaled FTy64 1 2 (-43)))
     (row "delta_n" 22 (I 2) (Scaled FTy64 2 10 (-43)));
   mk_deviation "MgaGpsEPH" (row "m0" 24 (I 4) (Scaled FTy64 1 2 (-31)))
     (row "m0" 24 (I 4) (Scaled FTy64 2 10 (-31)));
   mk_deviation "MgaGpsEPH" (row "cuc" 28 (I 2) (Scaled FTy64 1 2 (-29)))
     (row "cuc" 28 (I 2) (Scaled FTy64 2 10 (-29)));
   mk_deviation "MgaGpsEPH" (row "cus" 30 (I 2) (Scaled FTy64 1 2 (-29)))
     (row "cus" 30 (I 2) (Scaled FTy64 2 10 (-29)));
   mk_deviation "MgaGpsEPH" (row "e" 32 (U 4) (Scaled FTy64 1 2 (-33)))
     (row "e" 32 (U 4) (Scaled FTy64 2 10 (-33)));
   mk_deviation "MgaGpsEPH" (row "sqrt_a" 36 (U 4) (Scaled FTy64 1 2 (-19)))
     (row "sqrt_a" 36 (U 4) (Scaled FTy64 2 10 (-19)));
   mk_deviation "MgaGpsEPH" (row "toe" 40 (U 2) (Scaled FTy64 1 2 4))
     (row "toe" 40 (U 2) (Scaled FTy64 2 10 4));
   mk_deviation "MgaGpsEPH" (row "cic" 42 (I 2) (Scaled FTy64 1 2 (-29)))
     (row "cic" 42 (I 2) (Scaled FTy64 2 10 (-29)));
   mk_deviation "MgaGpsEPH" (row "omega0" 44 (I 4) (Scaled FTy64 1 2 (-31)))
     (row "omega0" 44 (I 4) (Scaled FTy64 2 10 (-31)));
   mk_deviation "MgaGpsEPH" (row "cis" 48 (I 2) (Scaled FTy64 1 2 (-29)))
     (row "cis" 48 (I 2) (Scaled FTy64 2 10 (-29)));
   mk_deviation "MgaGpsEPH" (row "crc" 50 (I 2) (Scaled FTy64 1 2 (-5)))
     (row "crc" 50 (I 2) (Scaled FTy64 2 10 (-5)));
   mk_deviation "MgaGpsEPH" (row "i0" 52 (I 4) (Scaled FTy64 1 2 (-31)))
     (row "i0" 52 (I 4) (Scaled FTy64 2 10 (-31)));
   mk_deviation "MgaGpsEPH" (row "omega" 56 (I 4) (Scaled FTy64 1 2 (-31)))
     (row "omega" 56 (I 4) (Scaled FTy64 2 10 (-31)));
   mk_deviation "MgaGpsEPH" (row "omega_dot" 60 (I 4) (Scaled FTy64 1 2 (-43)))
     (row "omega_dot" 60 (I 4) (Scaled FTy64 2 10 (-43)));
   mk_deviation "MgaGpsEPH" (row "idot" 64 (I 2) (Scaled FTy64 1 2 (-43)))
     (row "idot" 64 (I 2) (Scaled FTy64 2 10 (-43)))].
