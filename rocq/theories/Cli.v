(** * The command line tool, examples/ublox-cli/src/main.rs *)
From Coq Require Import String List NArith ZArith Bool.
From Verif Require Import Base Buffers DualBuffer Parser PackDesc GenRecv GenSend Enums Bits Dispatch TableTypes TablePackets Setters.
Import ListNotations.
Open Scope N_scope.

(** ** Options *)

(** Lines 60-154: the options of the subcommand [configure] after clap has checked them and put in the defaults.
    clap is not modelled: an option with a list of values has one of these values, [--baud] is a [u32], and a flag is
    whether it was given ([get_flag]).  ([--in-ublox] has the default "true", 106.) *)
Record cfg_args := mk_cfg_args {
  a_select : string;            (* 61-66 *)
  a_baud : Z;                   (* 72-79, under the name "cfg-baud" *)
  a_stop_bits : string;         (* 81-87 *)
  a_data_bits : string;         (* 89-95 *)
  a_parity : option string;     (* 97-102 *)
  a_in_ublox : bool; a_in_nmea : bool; a_in_rtcm : bool; a_in_rtcm3 : bool;   (* 104-133 *)
  a_out_ublox : bool; a_out_nmea : bool; a_out_rtcm3 : bool;                  (* 135-154 *)
}.

(** The types of the crate serialport *)
Inductive serial_stop_bits := SerialOne | SerialTwo.
Inductive serial_data_bits := SerialFive | SerialSix | SerialSeven | SerialEight.
Inductive serial_parity := SerialNone | SerialOdd | SerialEven.

(** [std::process::exit(1)] ends the program *)
Inductive cli (A : Type) := Go (a : A) | Exit.
Arguments Go {A}. Arguments Exit {A}.

(** 163-166, 209-215 *)
Definition cli_stop_bits (s : string) : serial_stop_bits :=
  if String.eqb s "2" then SerialTwo else SerialOne.
(** 168-175, 217-227 *)
Definition cli_data_bits (s : string) : cli serial_data_bits :=
  if String.eqb s "7" then Go SerialSeven else if String.eqb s "8" then Go SerialEight else Exit.
(** 177-181, 229-233 *)
Definition cli_parity (s : option string) : serial_parity :=
  match s with
  | Some x => if String.eqb x "odd" then SerialEven else if String.eqb x "even" then SerialOdd else SerialNone
  | None => SerialNone
  end.
(** 380-386 *)
Definition ublox_stopbits (s : serial_stop_bits) : stop_bits :=
  match s with SerialOne => StopOne | SerialTwo => StopTwo end.
(** 388-397 *)
Definition ublox_databits (d : serial_data_bits) : data_bits :=
  match d with SerialSeven => Seven | SerialEight => Eight | _ => Eight end.
(** 399-405 *)
Definition ublox_parity (v : serial_parity) : parity :=
  match v with SerialEven => ParityEven | SerialOdd => ParityOdd | SerialNone => ParityNone end.

(** The constants of [InProtoMask] and [OutProtoMask], packets.rs 2062-2093, and [union] of bitflags *)
Definition In_UBLOX : N := 1. Definition In_NMEA : N := 2. Definition In_RTCM : N := 4. Definition In_RTCM3 : N := 32.
Definition Out_UBLOX : N := 1. Definition Out_NMEA : N := 2. Definition Out_RTCM3 : N := 32.
Definition union (a b : N) : N := N.lor a b.

(** 234-264 *)
Definition cli_inproto (a : cfg_args) : cli N :=
  match a_in_ublox a, a_in_nmea a, a_in_rtcm a, a_in_rtcm3 a with
  | true, false, false, false => Go In_UBLOX
  | false, true, false, false => Go In_NMEA
  | false, false, true, false => Go In_RTCM
  | false, false, false, true => Go In_RTCM3
  | true, true, false, false => Go (union In_UBLOX In_NMEA)
  | true, false, true, false => Go (union In_UBLOX In_RTCM)
  | true, false, false, true => Go (union In_UBLOX In_RTCM3)
  | false, true, true, false => Go (union In_NMEA In_RTCM)
  | false, true, false, true => Go (union In_NMEA In_RTCM3)
  | true, true, true, false => Go (union (union In_UBLOX In_NMEA) In_RTCM)
  | true, true, false, true => Go (union (union In_UBLOX In_NMEA) In_RTCM3)
  | _, _, true, true => Exit
  | false, false, false, false => Go In_UBLOX
  end.
(** 266-282 *)
Definition cli_outproto (a : cfg_args) : N :=
  match a_out_ublox a, a_out_nmea a, a_out_rtcm3 a with
  | true, false, false => Out_UBLOX
  | false, true, false => Out_NMEA
  | false, false, true => Out_RTCM3
  | true, true, false => union Out_UBLOX Out_NMEA
  | true, false, true => union Out_UBLOX Out_RTCM3
  | false, true, true => union Out_NMEA Out_RTCM3
  | true, true, true => union (union Out_UBLOX Out_NMEA) Out_RTCM3
  | false, false, false => Out_UBLOX
  end.
(** 200-205 *)
Definition cli_port (s : string) : option (string * N) :=
  if String.eqb s "usb" then Some ("Usb"%string, 3)
  else if String.eqb s "uart1" then Some ("Uart1"%string, 1)
  else if String.eqb s "uart2" then Some ("Uart2"%string, 2)
  else None.
(** 207: there is no option named "baud" in the subcommand, so in a release build [get_one] is [None].  (With debug
    assertions clap panics here.) *)
Definition cli_baud (a : cfg_args) : Z := 9600.

(** 199-305: the bytes written to the receiver for the subcommand, if any *)
Definition configure (a : cfg_args) : cli (option (res (list byte))) :=
  let port_id := cli_port (a_select a) in
  let baud := cli_baud a in
  let stop := cli_stop_bits (a_stop_bits a) in
  match cli_data_bits (a_data_bits a) with
  | Exit => Exit
  | Go data =>
      let par := cli_parity (a_parity a) in
      match cli_inproto a with
      | Exit => Exit
      | Go inproto =>
          let outproto := cli_outproto a in
          Go (match port_id with
              | None => None
              | Some portid =>
                  Some (into_packet_bytes p_cfg_prt_uart
                    (portid, (0%Z, (0%Z,
                    (mk_uart_mode (ublox_databits data) (ublox_parity par) (ublox_stopbits stop),
                    (baud, (inproto, (outproto, (0%Z, (0%Z, tt))))))))))
              end)
      end
  end.

(** 158-188: the settings with which the serial port itself is opened: [None] is [exit(1)] *)
Definition open_settings (stop data : string) (par : option string) : cli (serial_stop_bits * serial_data_bits * serial_parity) :=
  match cli_data_bits data with
  | Exit => Exit
  | Go d => Go (cli_stop_bits stop, d, cli_parity par)
  end.

(** ** [Device] *)

(** What a call of [port.read] comes to.  ([kind] stands for the other kinds of I/O errors.) *)
Inductive read_outcome := Got (bytes : list byte) | TimedOut | Failed (kind : N).

(** 466-478: [read_port] *)
Definition read_port (r : read_outcome) : N + list byte :=
  match r with Got bytes => inr bytes | TimedOut => inr [] | Failed kind => inl kind end.

(** [Parser::default()] of a [Vec<u8>] and [consume] followed by the loop 434-447: [it.next()] until [None]; the iterator
    is dropped at the end of the block.  The callback is given the packets of the [Ok] results. *)
Definition device_feed (buf bytes : list byte) : res (list packet_ref * list byte) :=
  let! (rs, buf') := feed vec_ops (match_packet recv_table) (parser_max_payload_len recv_table) buf bytes in
  Ret (concat (map (fun r => match r with Ok p => [p] | Err _ => [] end) rs), buf').

(** How a call ended: [Ok(())], [Err(e)], or not yet: the schedule of reads has ended *)
Inductive ended := Done | IoError (kind : N) | Reading.

(** 422-450: [update], given what the successive calls of [port.read] will come to.  The result: the packets
    given to the callback, how it ended, the reads left, the parser's buffer. *)
Fixpoint update (reads : list read_outcome) (buf : list byte)
  : res (list packet_ref * ended * list read_outcome * list byte) :=
  match reads with
  | [] => Ret ([], Reading, [], buf)
  | r :: reads' =>
      match read_port r with
      | inl e => Ret ([], IoError e, reads', buf)
      | inr bytes =>
          if lenN bytes =? 0 then Ret ([], Done, reads', buf)
          else
            let! (ps, buf1) := device_feed buf bytes in
            let! (ps', e, rest, buf2) := update reads' buf1 in
            Ret ((ps ++ ps')%list, e, rest, buf2)
      end
  end.

(** 455-461: the callback of [wait_for_ack::<T>()], on the packets given to it in turn.  ([AckAckRef] has the payload.) *)
Fixpoint ack_callback (T : pack_desc) (ps : list packet_ref) (found_packet : bool) : res bool :=
  match ps with
  | [] => Ret found_packet
  | Known p payload :: ps' =>
      if String.eqb (p_name p) "AckAck" then
        let! class := AckAck_class payload in
        let! msg_id := AckAck_msg_id payload in
        ack_callback T ps' (if (class =? CLASS T)%Z && (msg_id =? ID T)%Z then true else found_packet)
      else ack_callback T ps' found_packet
  | Unknown _ _ _ :: ps' => ack_callback T ps' found_packet
  end.

(** 452-464: [wait_for_ack]; each turn of the loop makes at least one read, so the fuel is more than their number *)
Fixpoint wait_loop (fuel : nat) (T : pack_desc) (reads : list read_outcome) (buf : list byte)
  : res (ended * list read_outcome * list byte) :=
  match fuel with
  | O => Diverge
  | S fuel' =>
      let! (ps, e, rest, buf') := update reads buf in
      match e with
      | Done =>
          let! found := ack_callback T ps false in
          if found then Ret (Done, rest, buf') else wait_loop fuel' T rest buf'
      | _ => Ret (e, rest, buf')
      end
  end.
Definition wait_for_ack (T : pack_desc) (reads : list read_outcome) (buf : list byte)
  : res (ended * list read_outcome * list byte) := wait_loop (S (length reads)) T reads buf.

(** 332-377: the loop of the program: [update] again and again, until the schedule of reads ends; [unwrap] panics on an
    error.  The result: the packets given to the callback. *)
Fixpoint read_loop (fuel : nat) (reads : list read_outcome) (buf : list byte) : res (list packet_ref * list byte) :=
  match fuel with
  | O => Diverge
  | S fuel' =>
      let! (ps, e, rest, buf') := update reads buf in
      match e with
      | Done => let! (ps', buf2) := read_loop fuel' rest buf' in Ret ((ps ++ ps')%list, buf2)
      | Reading => Ret (ps, buf')
      | IoError _ => Panic
      end
  end.
Definition read_device (reads : list read_outcome) (buf : list byte) : res (list packet_ref * list byte) :=
  read_loop (S (length reads)) reads buf.
