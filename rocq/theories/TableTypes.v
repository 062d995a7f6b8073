(** * The enums and bit flags declared with [ubx_extend] and [ubx_extend_bitflags]

    Written by tools/gen_tables.py from the declarations in packets.rs; the comments give the lines. *)
From Coq Require Import String List NArith.
From Verif Require Import Enums.
Import ListNotations.
Open Scope N_scope.
Open Scope string_scope.

(** packets.rs 474-481 *)
Definition e_gps_fix : enum_desc :=
  mk_enum "GpsFix"
    [("NoFix", 0); ("DeadReckoningOnly", 1); ("Fix2D", 2); ("Fix3D", 3); ("GPSPlusDeadReckoning", 4);
     ("TimeOnlyFix", 5)]
    (Some RestReserved).

(** packets.rs 553-558 *)
Definition e_nav_status_flags2 : enum_desc :=
  mk_enum "NavStatusFlags2"
    [("Acquisition", 0); ("Tracking", 1); ("PowerOptimizedTracking", 2); ("Inactive", 3)]
    (Some RestReserved).

(** packets.rs 851-858 *)
Definition e_odo_profile : enum_desc :=
  mk_enum "OdoProfile"
    [("Running", 0); ("Cycling", 1); ("Swimming", 2); ("Car", 3); ("Custom", 4)]
    (Some RestError).

(** packets.rs 1070-1078 *)
Definition e_cfg_itfm_antenna_settings : enum_desc :=
  mk_enum "CfgItfmAntennaSettings"
    [("Unknown", 0); ("Active", 1); ("Passive", 2)]
    (Some RestError).

(** packets.rs 1415-1419 *)
Definition e_cfg_tp5_time_pulse_mode : enum_desc :=
  mk_enum "CfgTp5TimePulseMode"
    [("TimePulse", 0); ("TimePulse2", 1)]
    (Some RestError).

(** packets.rs 1465-1472 *)
Definition e_cfg_tmode2_time_xfer_modes : enum_desc :=
  mk_enum "CfgTmode2TimeXferModes"
    [("Disabled", 0); ("SurveyIn", 1); ("FixedMode", 2)]
    (Some RestError).

(** packets.rs 1866-1869 *)
Definition e_i2c_port_id : enum_desc :=
  mk_enum "I2cPortId"
    [("I2c", 0)]
    (Some RestError).

(** packets.rs 1895-1899 *)
Definition e_uart_port_id : enum_desc :=
  mk_enum "UartPortId"
    [("Uart1", 1); ("Uart2", 2); ("Usb", 3)]
    (Some RestError).

(** packets.rs 2102-2105 *)
Definition e_spi_port_id : enum_desc :=
  mk_enum "SpiPortId"
    [("Spi", 4)]
    (Some RestError).

(** packets.rs 2342-2356 *)
Definition e_cfg_nav5_dyn_model : enum_desc :=
  mk_enum "CfgNav5DynModel"
    [("Portable", 0); ("Stationary", 2); ("Pedestrian", 3); ("Automotive", 4); ("Sea", 5);
     ("AirborneWithLess1gAcceleration", 6); ("AirborneWithLess2gAcceleration", 7);
     ("AirborneWith4gAcceleration", 8); ("WristWornWatch", 9); ("Bike", 10)]
    (Some RestError).

(** packets.rs 2364-2369 *)
Definition e_cfg_nav5_fix_mode : enum_desc :=
  mk_enum "CfgNav5FixMode"
    [("Only2D", 1); ("Only3D", 2); ("Auto2D3D", 3)]
    (Some RestError).

(** packets.rs 2377-2389 *)
Definition e_cfg_nav5_utc_standard : enum_desc :=
  mk_enum "CfgNav5UtcStandard"
    [("Automatic", 0); ("Usno", 3); ("UtcSu", 6); ("UtcChina", 7)]
    (Some RestError).

(** packets.rs 2605-2613 *)
Definition e_msg_ack_info_code : enum_desc :=
  mk_enum "MsgAckInfoCode"
    [("Accepted", 0); ("RejectedNoTime", 1); ("RejectedBadVersion", 2); ("RejectedBadSize", 3);
     ("RejectedDBStoreFailed", 4); ("RejectedNotReady", 5); ("RejectedUnknownType", 6)]
    (Some RestReserved).

(** packets.rs 2993-2999 *)
Definition e_antenna_status : enum_desc :=
  mk_enum "AntennaStatus"
    [("Init", 0); ("DontKnow", 1); ("Ok", 2); ("Short", 3); ("Open", 4)]
    (Some RestReserved).

(** packets.rs 3044-3048 *)
Definition e_antenna_power : enum_desc :=
  mk_enum "AntennaPower"
    [("Off", 0); ("On", 1); ("DontKnow", 2)]
    (Some RestReserved).

(** packets.rs 172-177 *)
Definition bf_nav_hp_pos_ecef_flags : flags_desc :=
  mk_flags "NavHpPosEcefFlags" 8
    [("INVALID_ECEF", 1)].

(** packets.rs 310-322 *)
Definition bf_nav_pvt_flags : flags_desc :=
  mk_flags "NavPvtFlags" 8
    [("GPS_FIX_OK", 1); ("DIFF_SOLN", 2); ("HEAD_VEH_VALID", 32); ("CARR_SOLN_FLOAT", 64);
     ("CARR_SOLN_FIXED", 128)].

(** packets.rs 327-341 *)
Definition bf_nav_pvt_flags2 : flags_desc :=
  mk_flags "NavPvtFlags2" 8
    [("CONFIRMED_AVAI", 32); ("CONFIRMED_DATE", 64); ("CONFIRMED_TIME", 128)].

(** packets.rs 485-497 *)
Definition bf_nav_status_flags : flags_desc :=
  mk_flags "NavStatusFlags" 8
    [("GPS_FIX_OK", 1); ("DIFF_SOLN", 2); ("WKN_SET", 4); ("TOW_SET", 8)].

(** packets.rs 831-842 *)
Definition bf_odo_cog_filter_flags : flags_desc :=
  mk_flags "OdoCogFilterFlags" 8
    [("USE_ODO", 1); ("USE_COG", 2); ("OUT_LP_VEL", 4); ("OUT_LP_COG", 8)].

(** packets.rs 1118-1127 *)
Definition bf_cfg_inf_mask : flags_desc :=
  mk_flags "CfgInfMask" 8
    [("ERROR", 1); ("WARNING", 2); ("NOTICE", 4); ("TEST", 8); ("DEBUG", 16)].

(** packets.rs 1348-1361 *)
Definition bf_ant_flags : flags_desc :=
  mk_flags "AntFlags" 16
    [("SVCS", 1); ("SCD", 2); ("OCD", 4); ("PDWN_ON_SCD", 8); ("RECOVERY", 16)].

(** packets.rs 1476-1484 *)
Definition bf_cfg_tmode2_flags : flags_desc :=
  mk_flags "CfgTmode2Flags" 16
    [("LLA", 1); ("ALT_INVALID", 2)].

(** packets.rs 1564-1573 *)
Definition bf_nav_time_ls_flags : flags_desc :=
  mk_flags "NavTimeLsFlags" 8
    [("VALID_CURR_LS", 1); ("VALID_TIME_TO_LS_EVENT", 2)].

(** packets.rs 1634-1641 *)
Definition bf_cfg_tmode3_rcvr_mode : flags_desc :=
  mk_flags "CfgTmode3RcvrMode" 8
    [("DISABLED", 1); ("SURVEY_IN", 2); ("FIXED_MODE", 4)].

(** packets.rs 1646-1692 *)
Definition bf_cfg_tp5_flags : flags_desc :=
  mk_flags "CfgTp5Flags" 32
    [("ACTIVE", 1); ("LOCK_GNSS_FREQ", 2); ("LOCKED_OTHER_SET", 4); ("IS_FREQ", 8); ("IS_LENGTH", 16);
     ("ALIGN_TO_TOW", 32); ("POLARITY", 64); ("UTC_TIME_GRID", 128); ("GPS_TIME_GRID", 256);
     ("GLO_TIME_GRID", 512); ("BDS_TIME_GRID", 1024); ("GAL_TIME_GRID", 2048); ("SYNC_MODE_0", 4096);
     ("SYNC_MODE_1", 8192)].

(** packets.rs 1697-1703 *)
Definition bf_cfg_tmode3_flags : flags_desc :=
  mk_flags "CfgTmode3Flags" 8
    [("LLA", 1)].

(** packets.rs 1708-1724 *)
Definition bf_nav_bbr_mask : flags_desc :=
  mk_flags "NavBbrMask" 16
    [("EPHEMERIS", 1); ("ALMANACH", 2); ("HEALTH", 4); ("KLOBUCHARD", 8); ("POSITION", 16);
     ("CLOCK_DRIFT", 32); ("OSCILATOR_PARAMETER", 64); ("UTC_CORRECTION_PARAMETERS", 128); ("RTC", 256);
     ("SFDR_PARAMETERS", 2048); ("SFDR_VEHICLE_MONITORING_PARAMETERS", 4096); ("TCT_PARAMETERS", 8192);
     ("AUTONOMOUS_ORBIT_PARAMETERS", 32768)].

(** packets.rs 1820-1826 *)
Definition bf_cfg_layer : flags_desc :=
  mk_flags "CfgLayer" 8
    [("RAM", 1); ("BBR", 2); ("FLASH", 4)].

(** packets.rs 2063-2076 *)
Definition bf_in_proto_mask : flags_desc :=
  mk_flags "InProtoMask" 16
    [("UBLOX", 1); ("NMEA", 2); ("RTCM", 4); ("RTCM3", 32)].

(** packets.rs 2081-2093 *)
Definition bf_out_proto_mask : flags_desc :=
  mk_flags "OutProtoMask" 16
    [("UBLOX", 1); ("NMEA", 2); ("RTCM3", 32)].

(** packets.rs 2143-2153 *)
Definition bf_nav_time_utc_flags : flags_desc :=
  mk_flags "NavTimeUtcFlags" 8
    [("VALID_TOW", 1); ("VALID_WKN", 2); ("VALID_UTC", 4)].

(** packets.rs 2309-2333 *)
Definition bf_cfg_nav5_params : flags_desc :=
  mk_flags "CfgNav5Params" 16
    [("DYN", 1); ("MIN_EL", 2); ("POS_FIX_MODE", 4); ("DR_LIM", 8); ("POS_MASK_APPLY", 16);
     ("TIME_MASK", 32); ("STATIC_HOLD_MASK", 64); ("DGPS_MASK", 128); ("CNO_THRESHOLD", 256);
     ("UTC", 1024)].

(** packets.rs 2545-2563 *)
Definition bf_cfg_nav_x5_params1 : flags_desc :=
  mk_flags "CfgNavX5Params1" 16
    [("MIN_MAX", 4); ("MIN_CNO", 8); ("INITIAL_3D_FIX", 64); ("WKN_ROLL", 512); ("AID_ACK", 1024);
     ("USE_PPP", 8192); ("AOP_CFG", 16384)].

(** packets.rs 2568-2576 *)
Definition bf_cfg_nav_x5_params2 : flags_desc :=
  mk_flags "CfgNavX5Params2" 32
    [("USE_ADR", 64); ("USE_SIG_ATTEN_COMP", 128)].

(** packets.rs 2953-2961 *)
Definition bf_rec_stat_flags : flags_desc :=
  mk_flags "RecStatFlags" 8
    [("LEAP_SEC", 1); ("CLK_RESET", 2)].

(** packets.rs 3025-3037 *)
Definition bf_mon_gnss_constell_mask : flags_desc :=
  mk_flags "MonGnssConstellMask" 8
    [("GPS", 1); ("GLO", 2); ("BDC", 4); ("GAL", 8)].

(** packets.rs 3281-3291 *)
Definition bf_esf_ins_bit_flags : flags_desc :=
  mk_flags "EsfInsBitFlags" 32
    [("VERSION", 1); ("X_ANG_RATE_VALID", 256); ("Y_ANG_RATE_VALID", 512); ("Z_ANG_RATE_VALID", 1024);
     ("X_ACCEL_VALID", 2048); ("Y_ACCEL_VALID", 4096); ("Z_ACCEL_VALID", 8192)].

(** packets.rs 3343-3353 *)
Definition bf_hnr_ins_bit_flags : flags_desc :=
  mk_flags "HnrInsBitFlags" 32
    [("VERSION", 1); ("X_ANG_RATE_VALID", 256); ("Y_ANG_RATE_VALID", 512); ("Z_ANG_RATE_VALID", 1024);
     ("X_ACCEL_VALID", 2048); ("Y_ACCEL_VALID", 4096); ("Z_ACCEL_VALID", 8192)].

(** packets.rs 3445-3457 *)
Definition bf_hnr_pvt_flags : flags_desc :=
  mk_flags "HnrPvtFlags" 8
    [("GPS_FIX_OK", 1); ("DIFF_SOLN", 2); ("WKN_SET", 4); ("TOW_SET", 8); ("HEAD_VEH_VALID", 16)].

(** packets.rs 3462-3468 *)
Definition bf_hnr_pvt_valid_flags : flags_desc :=
  mk_flags "HnrPvtValidFlags" 8
    [("VALID_DATE", 1); ("VALID_TIME", 2); ("FULLY_RESOLVED", 4)].

(** packets.rs 3607-3614 *)
Definition bf_stdev_flags : flags_desc :=
  mk_flags "StdevFlags" 8
    [("STD_1", 1); ("STD_2", 2); ("STD_3", 4); ("STD_4", 8)].

(** packets.rs 3619-3626 *)
Definition bf_trk_stat_flags : flags_desc :=
  mk_flags "TrkStatFlags" 8
    [("PR_VALID", 1); ("CP_VALID", 2); ("HALF_CYCLE", 4); ("SUB_HALF_CYCLE", 8)].

Definition all_enums : list enum_desc :=
  [e_gps_fix; e_nav_status_flags2; e_odo_profile; e_cfg_itfm_antenna_settings;
   e_cfg_tp5_time_pulse_mode; e_cfg_tmode2_time_xfer_modes; e_i2c_port_id; e_uart_port_id;
   e_spi_port_id; e_cfg_nav5_dyn_model; e_cfg_nav5_fix_mode; e_cfg_nav5_utc_standard;
   e_msg_ack_info_code; e_antenna_status; e_antenna_power].

Definition all_flags : list flags_desc :=
  [bf_nav_hp_pos_ecef_flags; bf_nav_pvt_flags; bf_nav_pvt_flags2; bf_nav_status_flags;
   bf_odo_cog_filter_flags; bf_cfg_inf_mask; bf_ant_flags; bf_cfg_tmode2_flags; bf_nav_time_ls_flags;
   bf_cfg_tmode3_rcvr_mode; bf_cfg_tp5_flags; bf_cfg_tmode3_flags; bf_nav_bbr_mask; bf_cfg_layer;
   bf_in_proto_mask; bf_out_proto_mask; bf_nav_time_utc_flags; bf_cfg_nav5_params;
   bf_cfg_nav_x5_params1; bf_cfg_nav_x5_params2; bf_rec_stat_flags; bf_mon_gnss_constell_mask;
   bf_esf_ins_bit_flags; bf_hnr_ins_bit_flags; bf_hnr_pvt_flags; bf_hnr_pvt_valid_flags;
   bf_stdev_flags; bf_trk_stat_flags].

(** Those whose attribute asks for [from] (resp. [from_unchecked]) and for [into_raw] *)
Definition enums_from : list enum_desc :=
  [e_gps_fix; e_nav_status_flags2; e_msg_ack_info_code; e_antenna_status; e_antenna_power].
Definition enums_from_unchecked : list enum_desc :=
  [e_odo_profile; e_cfg_itfm_antenna_settings; e_cfg_tp5_time_pulse_mode;
   e_cfg_tmode2_time_xfer_modes; e_i2c_port_id; e_uart_port_id; e_spi_port_id; e_cfg_nav5_dyn_model;
   e_cfg_nav5_fix_mode; e_cfg_nav5_utc_standard].
Definition enums_into_raw : list enum_desc :=
  [e_odo_profile; e_cfg_itfm_antenna_settings; e_cfg_tp5_time_pulse_mode;
   e_cfg_tmode2_time_xfer_modes; e_i2c_port_id; e_uart_port_id; e_spi_port_id; e_cfg_nav5_dyn_model;
   e_cfg_nav5_fix_mode; e_cfg_nav5_utc_standard].
