(** * What a session of the command line tool should look like from outside *)
From Coq Require Import String List NArith ZArith Bool Reals.
From Verif Require Import Base PackDesc GenRecv Dispatch TablePackets Convert DateTime Bits Cli Session SpecFrame SpecParser SpecPacket SpecDispatch SpecTypes SpecReal
  SpecConvert SpecDate SpecSerialize SpecCli.
Import ListNotations.
Open Scope N_scope.
Open Scope list_scope.

(** The frames written, the reads made and the lines printed, each in order *)
Definition writes_of (acts : list act) : list (list byte) := concat (map (fun a => match a with Wrote b => [b] | _ => [] end) acts).
Definition reads_of (acts : list act) : list read_outcome := concat (map (fun a => match a with ReadAs r => [r] | _ => [] end) acts).
Definition lines_of (acts : list act) : list line := concat (map (fun a => match a with Printed l => [l] | _ => [] end) acts).

(** ** What is sent *)

(** The configuration of a port.  (Odd and even parity exchanged and always 9600 baud: this is what the tool sends, and not
    what it is asked for, see [configure_asked_for].) *)
Definition configuration (a : cfg_args) (port : N) : list byte :=
  let swapped := match a_parity a with Some x => Some (if String.eqb x "odd" then "even" else "odd")%string | None => None end in
  frame x06 x00 (prt_payload port
    (2 ^ 6 * data_code (a_data_bits a) + 2 ^ 9 * parity_code_of swapped + 2 ^ 12 * stop_code (a_stop_bits a))
    (in_mask a) (out_mask a) 9600).

(** The requests, in order, with the type of the message: the configuration of the port if asked for; the rates 0, 1, 1, 1, 0, 0 of
    NAV-PVT (01 07) on the six ports; the poll of MON-VER (0a 04) *)
Definition plan (command : option cfg_args) : list (pack_desc * list byte) :=
  match command with
  | Some a => match port_code (a_select a) with Some port => [(p_cfg_prt_uart, configuration a port)] | None => [] end
  | None => []
  end ++
  [(p_cfg_msg_all_ports, frame x06 x01 [x01; x07; x00; x01; x01; x01; x00; x00]); (p_mon_ver, frame x0a x04 [])].

(** What is printed until the poll is sent *)
Definition announcements (command : option cfg_args) : list line :=
  match command with
  | Some a => match port_code (a_select a) with Some _ => [LConfiguring (a_select a)] | None => [] end
  | None => []
  end ++ [LEnabling].

(** The options can not be asked for together *)
Definition conflicting (command : option cfg_args) : bool :=
  match command with Some a => a_in_rtcm a && a_in_rtcm3 a | None => false end.

(** ** What is shown of a packet *)

(** The name of the packet and of all fields, with the values of their getters *)
Definition listing (p : pack_desc) (payload : list byte) (d : string * list (string * {f : field & fvalue f})) : Prop :=
  fst d = p_name p /\
  Forall2 (fun g x => fst x = f_name (g_field g) /\ exists v, g_val g payload = Ret v /\ snd x = existT _ (g_field g) v) (getters p) (snd d).

(** NAV-PVT: the type of the fix is the byte 20: 3 is a 3D-fix, 4 a fix by GNSS and dead reckoning, 5 a fix of time only *)
Definition fix_code (payload : list byte) : N := le_value (takeN 1 (dropN 20 payload)).
Definition has_position (payload : list byte) : bool := (fix_code payload =? 3) || (fix_code payload =? 4).
Definition has_time (payload : list byte) : bool := has_position payload || (fix_code payload =? 5).

Definition year_of payload := unsigned_of (takeN 2 (dropN 4 payload)).
Definition month_of payload := unsigned_of (takeN 1 (dropN 6 payload)).
Definition day_of payload := unsigned_of (takeN 1 (dropN 7 payload)).
Definition hour_of payload := unsigned_of (takeN 1 (dropN 8 payload)).
Definition minute_of payload := unsigned_of (takeN 1 (dropN 9 payload)).
Definition second_of payload := unsigned_of (takeN 1 (dropN 10 payload)).
Definition nano_of payload := signed_of 32 (unsigned_of (takeN 4 (dropN 16 payload))).
(** Its date and time exist, and the nanoseconds are less than a second *)
Definition time_exists (payload : list byte) : Prop :=
  is_date (year_of payload) (month_of payload) (day_of payload) /\ is_time (hour_of payload) (minute_of payload) (second_of payload) /\
  (-1000000000 < nano_of payload < 1000000000)%Z.

Definition position_lines (payload : list byte) (ls : list line) : Prop :=
  if has_position payload then
    exists p v d, ls = [LPosition p; LVelocity v; LSolution d] /\ listing p_nav_pvt payload d /\
      exact_to (pos_lon p) (IZR (i32_at payload 24) * tenth 7) /\
      exact_to (pos_lat p) (IZR (i32_at payload 28) * tenth 7) /\
      exact_to (pos_alt p) (IZR (i32_at payload 36) * tenth 3) /\
      exact_to (vel_speed v) (IZR (u32_at payload 60) * tenth 3) /\
      exact_to (vel_heading v) (IZR (i32_at payload 64) * tenth 5)
  else ls = [].

(** The lines shown for a packet *)
Inductive shows : packet_ref -> list line -> Prop :=
| shows_unknown payload class msg_id : shows (Unknown payload class msg_id) [LUnknown payload class msg_id]
| shows_versions payload software hardware groups extensions d :
    has_text (takeN 30 payload) software -> has_text (takeN 10 (dropN 30 payload)) hardware ->
    blocks 30 (dropN 40 payload) groups -> Forall2 has_text groups extensions -> listing p_mon_ver payload d ->
    shows (Known p_mon_ver payload) [LVersions software hardware extensions; LDebug d]
| shows_solution payload ls : position_lines payload ls -> has_time payload = false ->
    shows (Known p_nav_pvt payload) ls
| shows_solution_time payload ls t : position_lines payload ls -> has_time payload = true -> time_exists payload ->
    proper t ->
    instant t = instant_of (year_of payload) (month_of payload) (day_of payload) (hour_of payload) (minute_of payload) (second_of payload) (nano_of payload) ->
    shows (Known p_nav_pvt payload) (ls ++ [LTime t])
| shows_other p payload d : p <> p_mon_ver -> p <> p_nav_pvt -> readable p payload -> listing p payload d ->
    shows (Known p payload) [LDebug d].

(** The packets the tool does not survive, with the lines shown before it panics: a solution with a time that does not
    exist, and a port configuration whose mode is reserved *)
Inductive fatal : packet_ref -> list line -> Prop :=
| fatal_time payload ls : position_lines payload ls -> has_time payload = true -> ~ time_exists payload ->
    fatal (Known p_nav_pvt payload) ls
| fatal_mode payload : ~ readable p_cfg_prt_uart payload -> fatal (Known p_cfg_prt_uart payload) [].

(** The packets completed by the bytes [s] after the bytes [past] *)
Definition new_packets (past s : list byte) (ps : list packet_ref) : Prop :=
  exists packet es,
    (forall c i p, lenN p <= 65535 -> delivers recv_table c i p (packet c i p)) /\
    new_events past s es /\ ps = oks (map (outcome packet) es).
