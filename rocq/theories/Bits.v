(** * Hand-written bit-field types of packets.rs

    An [u8]/[u32] word is an [N]; [<<] on [u32] drops the bits above bit 31. *)
From Coq Require Import String List NArith ZArith Bool.
From Verif Require Import Base PackDesc Enums.
Import ListNotations.
Open Scope N_scope.

(** [x << n] on [u32] *)
Definition shl32 (x n : N) : N := N.shiftl x n mod 2 ^ 32.
(** [b as u32] *)
Definition b2w (b : bool) : N := if b then 1 else 0.
(** [(w >> n) & 1 != 0] *)
Definition bit_set (w n : N) : bool := negb (N.land (N.shiftr w n) 1 =? 0).

(** ** [FixStatusInfo], packets.rs 501-545 *)
Definition fix_status_info := N.
(** 520-522 *)
Definition fsi_from (x : N) : fix_status_info := x.
(** 507-509 *)
Definition has_pr_prr_correction (s : fix_status_info) : bool := N.land s 1 =? 1.
(** 535-545 *)
Inductive map_matching_status := MapNone | MapValid | MapUsed | MapDr.
(** 510-519 *)
Definition map_matching (s : fix_status_info) : res map_matching_status :=
  match N.land (N.shiftr s 6) 3 with
  | 0 => Ret MapNone
  | 1 => Ret MapValid
  | 2 => Ret MapUsed
  | 3 => Ret MapDr
  | _ => Panic
  end.

(** ** [NavSatSvFlags], packets.rs 560-718 *)
Definition nav_sat_sv_flags := N.
(** 658-660 *)
Definition nssf_from (x : N) : nav_sat_sv_flags := x.
(** 692-701, 703-709, 711-720 *)
Inductive quality_indicator :=
  NoSignal | Searching | SignalAcquired | SignalDetected | CodeLock | CarrierLock.
Inductive sv_health := Healthy | Unhealthy | UnknownHealth (x : N).
Inductive orbit_source_t :=
  NoInfoAvailable | Ephemeris | Almanac | AssistNowOffline | AssistNowAutonomous | OtherSource (x : N).
(** 566-579 *)
Definition quality_ind (f : nav_sat_sv_flags) : res quality_indicator :=
  match N.land f 7 with
  | 0 => Ret NoSignal
  | 1 => Ret Searching
  | 2 => Ret SignalAcquired
  | 3 => Ret SignalDetected
  | 4 => Ret CodeLock
  | 5 | 6 | 7 => Ret CarrierLock
  | _ => Panic
  end.
(** 581-583 *)
Definition sv_used (f : nav_sat_sv_flags) : bool := bit_set f 3.
(** 585-592 ([x as u8]) *)
Definition health (f : nav_sat_sv_flags) : sv_health :=
  match N.land (N.shiftr f 4) 3 with
  | 1 => Healthy
  | 2 => Unhealthy
  | x => UnknownHealth (x mod 256)
  end.
(** 594-596, 598-600 *)
Definition differential_correction_available (f : nav_sat_sv_flags) : bool := bit_set f 6.
Definition smoothed (f : nav_sat_sv_flags) : bool := bit_set f 7.
(** 602-612 *)
Definition orbit_source (f : nav_sat_sv_flags) : orbit_source_t :=
  match N.land (N.shiftr f 8) 7 with
  | 0 => NoInfoAvailable
  | 1 => Ephemeris
  | 2 => Almanac
  | 3 => AssistNowOffline
  | 4 => AssistNowAutonomous
  | x => OtherSource (x mod 256)
  end.
(** 614-656 *)
Definition ephemeris_available (f : nav_sat_sv_flags) : bool := bit_set f 11.
Definition almanac_available (f : nav_sat_sv_flags) : bool := bit_set f 12.
Definition an_offline_available (f : nav_sat_sv_flags) : bool := bit_set f 13.
Definition an_auto_available (f : nav_sat_sv_flags) : bool := bit_set f 14.
Definition sbas_corr (f : nav_sat_sv_flags) : bool := bit_set f 16.
Definition rtcm_corr (f : nav_sat_sv_flags) : bool := bit_set f 17.
Definition slas_corr (f : nav_sat_sv_flags) : bool := bit_set f 18.
Definition spartn_corr (f : nav_sat_sv_flags) : bool := bit_set f 19.
Definition pr_corr (f : nav_sat_sv_flags) : bool := bit_set f 20.
Definition cr_corr (f : nav_sat_sv_flags) : bool := bit_set f 21.
Definition do_corr (f : nav_sat_sv_flags) : bool := bit_set f 22.

(** ** CFG-ITFM words, packets.rs 872-1090 *)

(** The common shape of [CfgItfmBbThreshold] (919-943), [CfgItfmCwThreshold] (944-968),
    [CfgItfmAlgoBits] (969-993) and [CfgItfmGeneralBits] (1036-1060): a newtype of [u32] with
    [into_raw = (self.0 & MASK) << POSITION], [MASK = (1 << LENGTH) - 1], and [From<u32>] the constructor. *)
Definition itfm_mask (length : N) : N := N.shiftl 1 length - 1.
Definition itfm_into_raw (position length : N) (x : N) : N :=
  shl32 (N.land x (itfm_mask length)) position.
(** 923-930; [Default] 933-937; [From] 939-943 *)
Definition bb_threshold_into_raw := itfm_into_raw 0 4.
Definition bb_threshold_default : N := 3.
Definition bb_threshold_from (thres : N) : N := thres.
(** 948-955; 958-962; 964-968 *)
Definition cw_threshold_into_raw := itfm_into_raw 4 5.
Definition cw_threshold_default : N := 15.
Definition cw_threshold_from (thres : N) : N := thres.
(** 973-980; 983-987; 989-993 *)
Definition algo_bits_into_raw := itfm_into_raw 9 22.
Definition algo_bits_default : N := 1487190. (* 0x16B156 *)
Definition algo_bits_from (thres : N) : N := thres.

(** 872-885 *)
Record itfm_config := mk_itfm_config {
  ic_enable : bool;
  ic_bb_threshold : N;
  ic_cw_threshold : N;
  ic_algorithm_bits : N;
}.
(** 888-895 *)
Definition itfm_config_new (enable : bool) (bb cw : N) : itfm_config :=
  mk_itfm_config enable (bb_threshold_from bb) (cw_threshold_from cw) algo_bits_default.
(** 872: [derive(Default)] *)
Definition itfm_config_default : itfm_config :=
  mk_itfm_config false bb_threshold_default cw_threshold_default algo_bits_default.
(** 897-902 *)
Definition itfm_config_into_raw (c : itfm_config) : N :=
  N.lor (N.lor (N.lor (shl32 (b2w (ic_enable c)) 31) (cw_threshold_into_raw (ic_cw_threshold c)))
               (bb_threshold_into_raw (ic_bb_threshold c)))
        (algo_bits_into_raw (ic_algorithm_bits c)).
(** 905-918 *)
Definition itfm_config_from (cfg : N) : itfm_config :=
  mk_itfm_config (0 <? N.land cfg 2147483648) (* 0x80000000 *)
    (bb_threshold_from cfg) (cw_threshold_from cfg) (algo_bits_from cfg).

(** 1040-1047; 1050-1054; 1056-1060 *)
Definition general_bits_into_raw := itfm_into_raw 0 12.
Definition general_bits_default : N := 798. (* 0x31E *)
Definition general_bits_from (thres : N) : N := thres.

(** 1064-1078: [CfgItfmAntennaSettings], whose [into_raw] is generated by [ubx_extend] *)
Inductive itfm_antenna := AntUnknown | AntActive | AntPassive.
Definition itfm_antenna_into_raw (a : itfm_antenna) : N :=
  match a with AntUnknown => 0 | AntActive => 1 | AntPassive => 2 end.
(** 1080-1089: [From<u32>] *)
Definition itfm_antenna_from (cfg : N) : itfm_antenna :=
  match N.shiftr (N.land cfg 12288) 12 with (* 0x3000 *)
  | 1 => AntActive
  | 2 => AntPassive
  | _ => AntUnknown
  end.

(** 995-1006 *)
Record itfm_config2 := mk_itfm_config2 {
  ic2_general : N;
  ic2_antenna : itfm_antenna;
  ic2_scan_aux_bands : bool;
}.
(** 1009-1015 *)
Definition itfm_config2_new (antenna : itfm_antenna) (scan : bool) : itfm_config2 :=
  mk_itfm_config2 general_bits_default antenna scan.
(** 1017-1021 *)
Definition itfm_config2_into_raw (c : itfm_config2) : N :=
  N.lor (N.lor (shl32 (b2w (ic2_scan_aux_bands c)) 14) (general_bits_into_raw (ic2_general c)))
        (itfm_antenna_into_raw (ic2_antenna c)).
(** 1024-1034 *)
Definition itfm_config2_from (cfg : N) : itfm_config2 :=
  mk_itfm_config2 (general_bits_from cfg) (itfm_antenna_from cfg) (0 <? N.land cfg 16384). (* 0x4000 *)

(** ** [UartMode], packets.rs 1901-2034 *)

(** 1938-1941, 1966-1970 (the order of the variants), 2000-2005 *)
Inductive data_bits := Seven | Eight.
Inductive parity := ParityEven | ParityOdd | ParityNone.
Inductive stop_bits := StopOne | StopOneHalf | StopTwo | StopHalf.

(** 1943-1953 *)
Definition data_bits_into_raw (d : data_bits) : N :=
  shl32 (match d with Seven => 2 | Eight => 3 end) 6.
(** 1956-1966: [unimplemented!] panics *)
Definition data_bits_from (mode : N) : res data_bits :=
  match N.land (N.shiftr mode 6) 3 with
  | 0 => Panic
  | 1 => Panic
  | 2 => Ret Seven
  | 3 => Ret Eight
  | _ => Panic
  end.
(** 1976-1987 *)
Definition parity_into_raw (p : parity) : N :=
  shl32 (match p with ParityEven => 0 | ParityOdd => 1 | ParityNone => 4 end) 9.
(** 1989-1999 *)
Definition parity_from (mode : N) : res parity :=
  match N.land (N.shiftr mode 9) 7 with
  | 0 => Ret ParityEven
  | 1 => Ret ParityOdd
  | 4 | 5 => Ret ParityNone
  | 2 | 3 | 6 | 7 => Panic
  | _ => Panic
  end.
(** 2010-2022 *)
Definition stop_bits_into_raw (s : stop_bits) : N :=
  shl32 (match s with StopOne => 0 | StopOneHalf => 1 | StopTwo => 2 | StopHalf => 3 end) 12.
(** 2024-2034 *)
Definition stop_bits_from (mode : N) : res stop_bits :=
  match N.land (N.shiftr mode 12) 3 with
  | 0 => Ret StopOne
  | 1 => Ret StopOneHalf
  | 2 => Ret StopTwo
  | 3 => Ret StopHalf
  | _ => Panic
  end.

(** 1901-1907, 1909-1916 *)
Record uart_mode := mk_uart_mode { um_data_bits : data_bits; um_parity : parity; um_stop_bits : stop_bits }.
(** 1918-1920 *)
Definition uart_mode_into_raw (m : uart_mode) : N :=
  N.lor (N.lor (data_bits_into_raw (um_data_bits m)) (parity_into_raw (um_parity m)))
        (stop_bits_into_raw (um_stop_bits m)).
(** 1923-1935 *)
Definition uart_mode_from (mode : N) : res uart_mode :=
  let! d := data_bits_from mode in
  let! p := parity_from mode in
  let! s := stop_bits_from mode in
  Ret (mk_uart_mode d p s).

(** ** TIM-TP, packets.rs 2734-2833 *)
Definition tim_tp_flags := N.
Inductive tim_tp_time_base := TpGnss | TpUtc.
(** 2740-2746 *)
Definition tp_time_base (f : tim_tp_flags) : tim_tp_time_base :=
  if N.land f 1 =? 0 then TpGnss else TpUtc.
(** 2749-2751 *)
Definition tp_utc_available (f : tim_tp_flags) : bool := negb (N.land f 2 =? 0).
(** 2756-2765 *)
Definition raim_active (f : tim_tp_flags) : option bool :=
  match N.land (N.shiftr f 2) 3 with
  | 1 => Some false
  | 2 => Some true
  | _ => None
  end.
(** 2768-2770 *)
Definition q_err_valid (f : tim_tp_flags) : bool := N.land f 16 =? 0.

Definition tim_tp_ref_info := N.
Inductive time_ref_gnss_t := RefGps | RefGlo | RefBds | RefGal | RefNavIc.
Inductive utc_standard_t := UtcCrl | UtcNist | UtcUsno | UtcBipm | UtcEu | UtcSu | UtcNtsc | UtcNpli.
(** 2784-2794 *)
Definition time_ref_gnss (r : tim_tp_ref_info) : option time_ref_gnss_t :=
  match N.land r 15 with
  | 0 => Some RefGps
  | 1 => Some RefGlo
  | 2 => Some RefBds
  | 3 => Some RefGal
  | 4 => Some RefNavIc
  | _ => None
  end.
(** 2796-2809 *)
Definition utc_standard (r : tim_tp_ref_info) : option utc_standard_t :=
  match N.shiftr r 4 with
  | 1 => Some UtcCrl
  | 2 => Some UtcNist
  | 3 => Some UtcUsno
  | 4 => Some UtcBipm
  | 5 => Some UtcEu
  | 6 => Some UtcSu
  | 7 => Some UtcNtsc
  | 8 => Some UtcNpli
  | _ => None
  end.

(** ** TIM-TM2 flags, packets.rs 2860-2925 *)
Definition tim_tm2_flags := N.
Inductive tm2_mode_t := Tm2Single | Tm2Running.
Inductive tm2_run_t := Tm2Armed | Tm2Stopped.
Inductive tm2_time_base_t := Tm2Receiver | Tm2Gnss | Tm2Utc.
(** 2865-2871 *)
Definition tm2_mode (f : tim_tm2_flags) : tm2_mode_t := if N.land f 1 =? 0 then Tm2Single else Tm2Running.
(** 2873-2879 *)
Definition tm2_run (f : tim_tm2_flags) : tm2_run_t := if N.land f 2 =? 0 then Tm2Armed else Tm2Stopped.
(** 2881-2883, 2885-2887 *)
Definition new_falling_edge (f : tim_tm2_flags) : bool := negb (N.land f 4 =? 0).
Definition new_rising_edge (f : tim_tm2_flags) : bool := negb (N.land f 128 =? 0).
(** 2889-2896 *)
Definition tm2_time_base (f : tim_tm2_flags) : res tm2_time_base_t :=
  match N.land f 24 with
  | 0 => Ret Tm2Receiver
  | 1 => Ret Tm2Gnss
  | 2 => Ret Tm2Utc
  | _ => Panic
  end.
(** 2899-2901, 2903-2905 *)
Definition tm2_utc_available (f : tim_tm2_flags) : bool := negb (N.land f 32 =? 0).
Definition tm2_time_valid (f : tim_tm2_flags) : bool := negb (N.land f 64 =? 0).

(** ** [ResetMode] (packets.rs 1744-1763) and [AlignmentToReferenceTime] (2172-2188): C-like enums which are only
    sent.  A value is the pair of variant name and discriminant; [into_raw] is [self as u8/u16]. *)
Definition reset_mode_variants : list enum_val :=
  [("HardwareResetImmediately"%string, 0); ("ControlledSoftwareReset"%string, 1);
   ("ControlledSoftwareResetGpsOnly"%string, 2); ("HardwareResetAfterShutdown"%string, 4);
   ("ControlledGpsStop"%string, 8); ("ControlledGpsStart"%string, 9)].
Definition alignment_variants : list enum_val :=
  [("Utc"%string, 0); ("Gps"%string, 1); ("Glo"%string, 2); ("Bds"%string, 3); ("Gal"%string, 4)].
Definition c_like_into_raw (v : enum_val) : N := snd v.

(** ** The mappings of fields of these types.  ([m_from]/[m_into] of a type without such a function is
    [Panic]: the getter resp. the builder is not generated.) *)
Definition word_map (s : scalar) : mapping (Scalar s) :=
  mk_mapping (t := Scalar s) N (fun _ => True) (fun z => Ret (Z.to_N z)) None None (fun _ => Panic).
Definition itfm_config_map : mapping (Scalar U32) :=
  mk_mapping (t := Scalar U32) itfm_config
    (fun c => ic_bb_threshold c < 2 ^ 32 /\ ic_cw_threshold c < 2 ^ 32 /\ ic_algorithm_bits c < 2 ^ 32)
    (fun z => Ret (itfm_config_from (Z.to_N z))) None None
    (fun c => Ret (Z.of_N (itfm_config_into_raw c))).
Definition itfm_config2_map : mapping (Scalar U32) :=
  mk_mapping (t := Scalar U32) itfm_config2 (fun c => ic2_general c < 2 ^ 32)
    (fun z => Ret (itfm_config2_from (Z.to_N z))) None None
    (fun c => Ret (Z.of_N (itfm_config2_into_raw c))).
Definition uart_mode_map : mapping (Scalar U32) :=
  mk_mapping (t := Scalar U32) uart_mode (fun _ => True)
    (fun z => uart_mode_from (Z.to_N z)) None None
    (fun m => Ret (Z.of_N (uart_mode_into_raw m))).
Definition c_like_map (s : scalar) (vs : list enum_val) : mapping (Scalar s) :=
  mk_mapping (t := Scalar s) enum_val (fun v => In v vs) (fun _ => Panic) None None
    (fun v => Ret (Z.of_N (c_like_into_raw v))).
