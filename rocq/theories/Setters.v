(** * Hand-written methods of builders and packets *)
From Coq Require Import String List NArith ZArith Bool SpecFloat.
From Verif Require Import Base DualBuffer PackDesc GenRecv GenSend Enums Floats TableTypes TablePackets DateTime Convert.
Import ListNotations.
Open Scope Z_scope.

(** [x as i32] and the like on a float: towards zero, saturating; 0 for a NaN *)
Definition float_as (s : scalar) (x : spec_float) : Z :=
  match ftrunc x with
  | Some z => if z <? scalar_min s then scalar_min s else if scalar_max s <? z then scalar_max s else z
  | None =>
      match x with
      | S754_infinity neg => if neg then scalar_min s else scalar_max s
      | _ => 0
      end
  end.

(** Checked arithmetic on [u32] (a release build would wrap around instead of panicking) *)
Definition u32_checked (z : Z) : res Z := if (0 <=? z) && (z <? 4294967296) then Ret z else Panic.

(** packets.rs 1224-1245 and output.rs 400-407: [AidIniBuilder] *)
Definition aid_ini : Type := builder (p_fields p_aid_ini).

(** packets.rs 1248-1254: [AidIniBuilder::set_position] *)
Definition set_position (b : aid_ini) (pos : position) : aid_ini :=
  let '(ecef_x_or_lat, (ecef_y_or_lon, (ecef_z_or_alt, (pos_accuracy, (time_cfg, (week_or_ym, (tow_or_hms,
        (tow_ns, (tm_accuracy_ms, (tm_accuracy_ns, (clk_drift_or_freq, (clk_drift_or_freq_accuracy,
        (flags, tt))))))))))))) := b in
  (float_as I32 (fmul FTy64 (pos_lat pos) (lit FTy64 10000000 0)),
  (float_as I32 (fmul FTy64 (pos_lon pos) (lit FTy64 10000000 0)),
  (float_as I32 (fmul FTy64 (pos_alt pos) (lit FTy64 100 0)),
  (pos_accuracy, (time_cfg, (week_or_ym, (tow_or_hms, (tow_ns, (tm_accuracy_ms, (tm_accuracy_ns,
  (clk_drift_or_freq, (clk_drift_or_freq_accuracy,
  (Z.lor flags (Z.lor (Z.shiftl 1 0) (Z.shiftl 1 5)), tt))))))))))))).

(** chrono's [Datelike::year_ce]: whether the year is in the common era, and its number in its era *)
Definition year_ce (d : date) : bool * Z :=
  if d_year d <? 1 then (false, 1 - d_year d) else (true, d_year d).

(** packets.rs 1256-1268: [AidIniBuilder::set_time].  [month0()] counts from 0. *)
Definition set_time (b : aid_ini) (tm : datetime) : res aid_ini :=
  let '(ecef_x_or_lat, (ecef_y_or_lon, (ecef_z_or_alt, (pos_accuracy, (time_cfg, (week_or_ym, (tow_or_hms,
        (tow_ns, (tm_accuracy_ms, (tm_accuracy_ns, (clk_drift_or_freq, (clk_drift_or_freq_accuracy,
        (flags, tt))))))))))))) := b in
  let! y := match year_ce (dt_date tm) with
            | (true, yr) => u32_checked (yr - 2000)
            | (false, _) => Panic
            end in
  let! y := u32_checked (y * 100) in
  let! ym := u32_checked (y + (d_month (dt_date tm) - 1)) in
  let t := dt_time tm in
  let! a := u32_checked (t_hour t * 10000) in
  let! b := u32_checked (t_min t * 100) in
  let! c := u32_checked (a + b) in
  let! hms := u32_checked (c + t_sec t) in
  Ret
  (ecef_x_or_lat, (ecef_y_or_lon, (ecef_z_or_alt, (pos_accuracy, (time_cfg,
  (ym mod 65536, (hms, (t_nano t,
  (tm_accuracy_ms, (tm_accuracy_ns, (clk_drift_or_freq, (clk_drift_or_freq_accuracy,
  (Z.lor flags (Z.lor (Z.shiftl 1 1) (Z.shiftl 1 10)), tt))))))))))))).

(** output.rs 382-391: [derive(Default)] for [AidIniBuilder] *)
Definition aid_ini_default : aid_ini := (0, (0, (0, (0, (0, (0, (0, (0, (0, (0, (0, (0, (0, tt))))))))))))).

(** The getters of ACK-ACK and ACK-NAK, packets.rs 1288-1296, 1305-1313 *)
Definition AckAck_class : list byte -> res Z := g_val (the_getter p_ack_ack "class").
Definition AckAck_msg_id : list byte -> res Z := g_val (the_getter p_ack_ack "msg_id").
Definition AckNak_class : list byte -> res Z := g_val (the_getter p_ack_nak "class").
Definition AckNak_msg_id : list byte -> res Z := g_val (the_getter p_ack_nak "msg_id").

(** [T::CLASS] and [T::ID] of a packet type [T] *)
Definition CLASS (T : pack_desc) : Z := Z.of_N (b2n (p_class T)).
Definition ID (T : pack_desc) : Z := Z.of_N (b2n (p_id T)).

(** packets.rs 1298-1302: [AckAckRef::is_ack_for::<T>] *)
Definition is_ack_for (T : pack_desc) (payload : list byte) : res bool :=
  let! class := AckAck_class payload in
  if class =? CLASS T then let! msg_id := AckAck_msg_id payload in Ret (msg_id =? ID T) else Ret false.
(** packets.rs 1315-1319: [AckNakRef::is_nak_for::<T>] *)
Definition is_nak_for (T : pack_desc) (payload : list byte) : res bool :=
  let! class := AckNak_class payload in
  if class =? CLASS T then let! msg_id := AckNak_msg_id payload in Ret (msg_id =? ID T) else Ret false.

(** packets.rs 2201-2210: [CfgMsgSinglePortBuilder::set_rate_for::<T>] *)
Definition single_port_set_rate_for (T : pack_desc) (rate : Z) : builder (p_fields p_cfg_msg_single_port) :=
  (CLASS T, (ID T, (rate, tt))).
(** packets.rs 2226-2235: [CfgMsgAllPortsBuilder::set_rate_for::<T>] *)
Definition all_ports_set_rate_for (T : pack_desc) (rates : list byte) : builder (p_fields p_cfg_msg_all_ports) :=
  (CLASS T, (ID T, (rates, tt))).

(** packets.rs 1728-1742: [NavBbrPredefinedMask], and [From] into [NavBbrMask] *)
Definition HOT_START : N := 0.
Definition WARM_START : N := 1.
Definition COLD_START : N := 65535. (* 0xFFFF *)
Definition nav_bbr_from_predefined (x : N) : N := flags_from bf_nav_bbr_mask x.
