(** * What the command line tool should do *)
From Coq Require Import String List NArith ZArith Bool.
From Verif Require Import Base PackDesc SpecFrame SpecPacket Bits Cli.
Import ListNotations.
Open Scope N_scope.
Open Scope list_scope.

(** ** Reading from a port *)

(** The bytes that have arrived, in order *)
Definition stream (reads : list read_outcome) : list byte :=
  concat (map (fun r => match r with Got bytes => bytes | _ => [] end) reads).
(** A read that brings nothing *)
Definition quiet (r : read_outcome) : Prop := r = TimedOut \/ r = Got [].
(** A read never returns more than the buffer given to it holds (1240 bytes). *)
Definition read_fits (r : read_outcome) : Prop := match r with Got bytes => lenN bytes <= 1240 | _ => True end.
(** No read failed *)
Definition healthy (r : read_outcome) : Prop := match r with Failed _ => False | _ => True end.

(** The frames of a stream which become complete with the bytes [s] after the bytes [past] *)
Definition new_events (past s : list byte) (es : list event) : Prop :=
  fst (scan 8176 (past ++ s)) = fst (scan 8176 past) ++ es.
(** Among them is an acknowledgement (class 05, id 01) of messages of type [T]. *)
Definition acknowledged (T : pack_desc) (past s : list byte) : Prop :=
  exists es, new_events past s es /\ In (EFrame x05 x01 [p_class T; p_id T]) es.

(** ** Options *)

(** What clap admits *)
Definition admitted (a : cfg_args) : Prop :=
  In (a_stop_bits a) ["1"; "2"]%string /\ In (a_data_bits a) ["7"; "8"]%string /\
  (a_parity a = None \/ a_parity a = Some "even"%string \/ a_parity a = Some "odd"%string) /\
  (0 <= a_baud a <= 4294967295)%Z.

(** Codes of the interface description of CFG-PRT *)
Definition port_code (select : string) : option N :=
  if String.eqb select "uart1" then Some 1 else if String.eqb select "uart2" then Some 2
  else if String.eqb select "usb" then Some 3 else None.
Definition data_code (s : string) : N := if String.eqb s "7" then 2 else 3.
Definition stop_code (s : string) : N := if String.eqb s "1" then 0 else 2.
Definition parity_code_of (s : option string) : N :=
  match s with None => 4 | Some x => if String.eqb x "odd" then 1 else 0 end.
Definition bit (b : bool) (w : N) : N := if b then w else 0.
Definition in_mask (a : cfg_args) : N :=
  let m := bit (a_in_ublox a) 1 + bit (a_in_nmea a) 2 + bit (a_in_rtcm a) 4 + bit (a_in_rtcm3 a) 32 in
  if m =? 0 then 1 else m.
Definition out_mask (a : cfg_args) : N :=
  let m := bit (a_out_ublox a) 1 + bit (a_out_nmea a) 2 + bit (a_out_rtcm3 a) 32 in
  if m =? 0 then 1 else m.

(** The payload of CFG-PRT for a UART or USB port *)
Definition prt_payload (port mode in_m out_m : N) (baud : Z) : list byte :=
  [n2b port; x00; x00; x00] ++ int_bytes 4 (Z.of_N mode) ++ int_bytes 4 baud ++ int_bytes 2 (Z.of_N in_m) ++ int_bytes 2 (Z.of_N out_m) ++
  [x00; x00; x00; x00].
