(** * A session of the command line tool, examples/ublox-cli/src/main.rs 195-377

    Everything the tool does once the serial port is open.  The port is a schedule: what the successive calls of
    [port.read] and of [port.write_all] will come to.  The run ends when the schedule does. *)
From Coq Require Import String List NArith ZArith Bool.
From Verif Require Import Base PackDesc GenRecv GenSend Enums Dispatch TableTypes TablePackets Iterators DateTime Convert Serialize Setters Cli.
Import ListNotations.
Open Scope N_scope.
Open Scope list_scope.

(** What a call of [port.write_all] comes to: all bytes are written, or an error after the first [n] of them *)
Inductive write_outcome := Written | Refused (n : N).

(** A line on the terminal, as the values put into it.  (The text made of them, with the precisions [:.5] and [:.2] of
    numbers, is not modelled.) *)
Inductive line :=
| LConfiguring (port : string)                                              (* 285 *)
| LEnabling                                                                 (* 315 *)
| LWaiting                                                                  (* 331 *)
| LVersions (software hardware : list byte) (extensions : list (list byte)) (* 336-341 *)
| LDebug (d : string * list (string * {f : field & fvalue f}))              (* 342, 374: a packet [{:?}] *)
| LUnknown (payload : list byte) (class msg_id : byte)                      (* 374: [PacketRef::Unknown] *)
| LPosition (p : position)                                                  (* 354-357 *)
| LVelocity (v : velocity)                                                  (* 358-361 *)
| LSolution (d : string * list (string * {f : field & fvalue f}))           (* 362 *)
| LTime (t : datetime).                                                     (* 369 *)

(** What the tool does, in order, as seen from outside *)
Inductive act := Wrote (bytes : list byte) | ReadAs (r : read_outcome) | Printed (l : line).

(** Where the run is at the end of the schedule: waiting for the port, panicked, or [exit(1)] *)
Inductive status := Waiting | Panicked | Exited.

(** ** The callback of the loop: 334-376.  The lines printed, and whether it returns ([false]: it panics) *)
Definition said := (list line * bool)%type.
Definition says (l : line) (k : said) : said := let (ls, ok) := k in (l :: ls, ok).
Definition with_value {A} (e : res A) (k : A -> said) : said :=
  match e with Ret v => k v | _ => ([], false) end.

(** [iter.collect::<Vec<&str>>()] of the extension iterator; every item takes bytes, so their number is fuel enough *)
Fixpoint collect_extensions (fuel : nat) (it : offset_iter) : res (list (list byte)) :=
  match fuel with
  | O => Diverge
  | S fuel' =>
      let! n := mon_ver_ext_next it in
      match n with
      | None => Ret []
      | Some (x, it') => let! l := collect_extensions fuel' it' in Ret (x :: l)
      end
  end.

(** 335-343 *)
Definition show_mon_ver (payload : list byte) : said :=
  with_value (g_val (the_getter p_mon_ver "software_version") payload) (fun sw =>
  with_value (g_val (the_getter p_mon_ver "hardware_version") payload) (fun hw =>
  with_value (g_val (the_getter p_mon_ver "extension") payload) (fun it =>
  with_value (collect_extensions (S (length payload)) it) (fun ext =>
  says (LVersions sw hw ext)
  (with_value (debug_packet p_mon_ver payload) (fun d => ([LDebug d], true))))))).

Definition NavPvt_fix_type : list byte -> res enum_val := g_val (the_getter p_nav_pvt "fix_type").
(** [==] of [GpsFix], a C-like enum *)
Definition fix_is (v : enum_val) (name : string) : bool := String.eqb (fst v) name.

(** 344-371 *)
Definition show_nav_pvt (payload : list byte) : said :=
  with_value (NavPvt_fix_type payload) (fun fix_type =>
  let has_time := fix_is fix_type "Fix3D" || fix_is fix_type "GPSPlusDeadReckoning" || fix_is fix_type "TimeOnlyFix" in
  let has_posvel := fix_is fix_type "Fix3D" || fix_is fix_type "GPSPlusDeadReckoning" in
  let show_time :=
    if has_time then
      with_value (datetime_try_from payload) (fun r =>
        match r with inl t => ([LTime t], true) | inr _ => ([], false) end)   (* 365-368: [expect] *)
    else ([], true) in
  if has_posvel then
    with_value (position_from_pvt payload) (fun pos =>
    with_value (velocity_from_pvt payload) (fun vel =>
    says (LPosition pos) (says (LVelocity vel)
    (with_value (debug_packet p_nav_pvt payload) (fun d => says (LSolution d) show_time)))))
  else show_time).

(** 334-376 *)
Definition show (p : packet_ref) : said :=
  match p with
  | Known d payload =>
      if String.eqb (p_name d) "MonVer" then show_mon_ver payload
      else if String.eqb (p_name d) "NavPvt" then show_nav_pvt payload
      else with_value (debug_packet d payload) (fun x => ([LDebug x], true))
  | Unknown payload class msg_id => ([LUnknown payload class msg_id], true)
  end.

(** 434-447 with this callback: the packets of one [consume], until the callback panics.  (The packets are parsed before
    the callback is called on the first; the parser does not depend on it.) *)
Fixpoint show_all (ps : list packet_ref) : said :=
  match ps with
  | [] => ([], true)
  | p :: ps' =>
      let (ls, ok) := show p in
      if ok then let (ls', ok') := show_all ps' in (ls ++ ls', ok') else (ls, false)
  end.

(** 422-450: [update] with this callback: what it does, and how it ended (as in Cli.v), or [None] after a panic *)
Fixpoint update_show (reads : list read_outcome) (buf : list byte)
  : list act * option (ended * list read_outcome * list byte) :=
  match reads with
  | [] => ([], Some (Reading, [], buf))
  | r :: reads' =>
      match read_port r with
      | inl e => ([ReadAs r], Some (IoError e, reads', buf))
      | inr bytes =>
          if lenN bytes =? 0 then ([ReadAs r], Some (Done, reads', buf))
          else
            match device_feed buf bytes with
            | Ret (ps, buf1) =>
                let (ls, ok) := show_all ps in
                if ok then
                  let (acts, e) := update_show reads' buf1 in (ReadAs r :: map Printed ls ++ acts, e)
                else (ReadAs r :: map Printed ls, None)
            | _ => ([ReadAs r], None)
            end
      end
  end.

(** 332-377: the loop; [unwrap] panics on an error.  Each turn reads at least once, so the number of reads is fuel enough. *)
Fixpoint show_loop (fuel : nat) (reads : list read_outcome) (buf : list byte) : list act * status :=
  match fuel with
  | O => ([], Waiting)
  | S fuel' =>
      let (acts, e) := update_show reads buf in
      match e with
      | None => (acts, Panicked)
      | Some (IoError _, _, _) => (acts, Panicked)
      | Some (Reading, _, _) => (acts, Waiting)
      | Some (Done, rest, buf') => let (acts', s) := show_loop fuel' rest buf' in (acts ++ acts', s)
      end
  end.

(** ** The steps of [main] *)

Record port := mk_port { pt_reads : list read_outcome; pt_writes : list write_outcome; pt_buf : list byte }.
Definition step := port -> list act * (status + port).
Definition andthen (a : step) (k : port -> list act * status) : port -> list act * status :=
  fun s => match a s with
           | (acts, inl e) => (acts, e)
           | (acts, inr s') => let (acts', e) := k s' in (acts ++ acts', e)
           end.

(** [println!] *)
Definition print (l : line) : step := fun s => ([Printed l], inr s).

(** 417-419 [write_all] with [.expect(...)] *)
Definition device_write (bytes : res (list byte)) : step :=
  fun s =>
    match bytes with
    | Ret bytes =>
        match pt_writes s with
        | [] => ([], inl Waiting)
        | Written :: ws => ([Wrote bytes], inr (mk_port (pt_reads s) ws (pt_buf s)))
        | Refused n :: _ => ([Wrote (takeN n bytes)], inl Panicked)
        end
    | _ => ([], inl Panicked)
    end.

(** [device.wait_for_ack::<T>()] with [.expect(...)] *)
Definition wait (T : pack_desc) : step :=
  fun s =>
    match wait_for_ack T (pt_reads s) (pt_buf s) with
    | Ret (e, rest, buf) =>
        (map ReadAs (firstn (length (pt_reads s) - length rest) (pt_reads s)),
         match e with
         | Done => inr (mk_port rest (pt_writes s) buf)
         | IoError _ => inl Panicked
         | Reading => inl Waiting
         end)
    | _ => ([], inl Panicked)
    end.

(** 332-377 *)
Definition watch : port -> list act * status :=
  fun s => show_loop (S (length (pt_reads s))) (pt_reads s) (pt_buf s).

(** 312-331 and the loop *)
Definition enable_and_watch : port -> list act * status :=
  andthen (print LEnabling)
  (andthen (device_write (into_packet_bytes p_cfg_msg_all_ports (all_ports_set_rate_for p_nav_pvt [x00; x01; x01; x01; x00; x00])))
  (andthen (wait p_cfg_msg_all_ports)
  (andthen (device_write (request_bytes (request_for p_mon_ver)))
  (andthen (print LWaiting) watch)))).

(** 198-377: with the options of the subcommand [configure], if it is given *)
Definition session (command : option cfg_args) : port -> list act * status :=
  match command with
  | None => enable_and_watch
  | Some a =>
      match configure a with
      | Exit => fun _ => ([], Exited)
      | Go None => enable_and_watch
      | Go (Some bytes) =>
          andthen (print (LConfiguring (a_select a)))
          (andthen (device_write bytes)
          (andthen (wait p_cfg_prt_uart) enable_and_watch))
      end
  end.

(** 409-413: [Device::new]: the parser starts with an empty buffer *)
Definition run_tool (command : option cfg_args) (reads : list read_outcome) (writes : list write_outcome) : list act * status :=
  session command (mk_port reads writes []).
