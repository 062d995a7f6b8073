(** * Specification: what a serialized packet says about the bytes of its payload

    For each kind of field, the value in the data model of serde, in terms of the bytes of the field. *)
From Coq Require Import String List NArith ZArith Bool Reals.
From Verif Require Import Base PackDesc Enums Floats Meaning SpecPacket SpecTypes Data.
From Verif Require SpecReal.
Import ListNotations.
Open Scope N_scope.
Open Scope list_scope.

(** A number of [u8], [u32] *)
Definition u8 (n : N) : data := DNum U8 (Z.of_N n).
Definition u32 (n : N) : data := DNum U32 (Z.of_N n).

(** The float [x] is the integer [z] times the scale, rounded once after rounding the scale *)
Definition scaled (t : fty) (scale : option (positive * Z)) (z : Z) (x : SpecFloat.spec_float) : Prop :=
  SpecReal.finite x /\
  SpecReal.real x = match scale with
                    | Some (m, e) => SpecReal.nearest t (IZR z * SpecReal.nearest t (SpecReal.decimal m e))
                    | None => IZR z
                    end.

(** The names of the settings in the mode of a UART *)
Definition mode_data_bits (w : N) : option string :=
  match bits w 6 2 with 2 => Some "Seven"%string | 3 => Some "Eight"%string | _ => None end.
Definition mode_parity (w : N) : option string :=
  match bits w 9 3 with 0 => Some "Even"%string | 1 => Some "Odd"%string | 4 | 5 => Some "None"%string | _ => None end.
Definition mode_stop_bits (w : N) : string :=
  match bits w 12 2 with 0 => "One" | 1 => "OneHalf" | 2 => "Two" | _ => "Half" end.

(** A sequence: block after block of [n] bytes, each with its value *)
Definition sequence (n : N) (item : list byte -> data -> Prop) (bytes : list byte) (d : data) : Prop :=
  exists groups ds, blocks n bytes groups /\ Forall2 item groups ds /\ d = DSeq ds.

(** [told t c bytes d]: for a field of type [t], with the mapping [c] if it has one, whose bytes are [bytes], the value is [d].
    [inner name bytes d] is the same for a packet [name] with the payload [bytes]. *)
Definition told (inner : string -> list byte -> data -> Prop) (t : raw_ty) (c : option map_code) (bytes : list byte) (d : data) : Prop :=
  match t, c with
  (* the number; the bytes *)
  | Scalar s, None => d = DNum s (decode (Scalar s) bytes)
  | Bytes _, None => d = DSeq (map (fun b => u8 (b2n b)) bytes)
  (* the scaled number *)
  | Scalar s, Some (CFloat f sc) => exists x, d = DFloat f x /\ scaled f sc (decode (Scalar s) bytes) x
  (* enums, flags and words with named bits: the number *)
  | Scalar s, Some (CEnum _ _) | Scalar s, Some (CFlags _) | Scalar s, Some CWord => d = DNum s (decode (Scalar s) bytes)
  (* the settings of CFG-ITFM: the whole word in each place (see C49) *)
  | Scalar _, Some CItfm =>
      let w := le_value bytes in
      d = DMap [("enable", DBool (bit w 31)); ("bb_threshold", u32 w); ("cw_threshold", u32 w); ("algorithm_bits", u32 w)]%string
  | Scalar _, Some CItfm2 =>
      let w := le_value bytes in
      d = DMap [("general", u32 w); ("antenna", u8 (match bits w 12 2 with 1 => 1 | 2 => 2 | _ => 0 end));
                ("scan_aux_bands", DBool (bit w 14))]%string
  | Scalar _, Some CUart =>
      let w := le_value bytes in
      exists db pa, mode_data_bits w = Some db /\ mode_parity w = Some pa /\
        d = DMap [("data_bits", DVariant db); ("parity", DVariant pa); ("stop_bits", DVariant (mode_stop_bits w))]%string
  (* text *)
  | Bytes _, Some CStr => exists s, d = DStr s /\ has_text bytes s
  | Bytes _, Some CInf => is_text bytes /\ d = DSome (DStr bytes) \/ ~ is_text bytes /\ d = DNone
  | Bytes _, Some CMonVer => sequence 30 (fun b d => exists s, d = DStr s /\ has_text b s) bytes d
  (* four bytes or none *)
  | Bytes _, Some CCalib => if lenN bytes =? 4 then d = DSome (u32 (le_value bytes)) else d = DNone
  (* repeated groups *)
  | Bytes _, Some CNavSat => sequence 12 (inner "NavSatSvInfo"%string) bytes d
  | Bytes _, Some CRawx => sequence 32 (inner "RxmRawxInfo"%string) bytes d
  | Bytes _, Some CEsfMeas =>
      sequence 4 (fun b d => let w := le_value b in
                             d = DMap [("data_type", u8 (bits w 24 6)); ("data_field", u32 (bits w 0 24))]%string) bytes d
  | Bytes _, Some CEsfRaw =>
      sequence 8 (fun b d => let w := le_value (takeN 4 b) in
                             d = DMap [("data_type", u8 (bits w 24 8)); ("data_field", u32 (bits w 0 24));
                                       ("sensor_time_tag", u32 (le_value (dropN 4 b)))]%string) bytes d
  | Bytes _, Some CDwrd => sequence 4 (fun b d => d = u32 (le_value b)) bytes d
  | _, _ => False
  end.

(** The entries of a packet: one for each field, in order, under its name, about the bytes where the field lies *)
Definition tells_with (inner : string -> list byte -> data -> Prop) (codes : list pack_code) (name : string) (payload : list byte)
    (entries : list (string * data)) : Prop :=
  exists c p, In c codes /\ pc_name c = name /\ packet_meaning c = Some p /\
    length entries = length (pc_fields c) /\
    forall k fc f, nth_error (pc_fields c) k = Some fc -> nth_error (p_fields p) k = Some f ->
      exists start stop d,
        nth_error entries k = Some (fc_name fc, d) /\ located (p_fields p) k f payload start stop /\
        told inner (fc_ty fc) (fc_map fc) (takeN (stop - start) (dropN start payload)) d.

(** A packet without packets inside; and a packet whose repeated groups may be such packets *)
Definition tells_flat (codes : list pack_code) : string -> list byte -> list (string * data) -> Prop := tells_with (fun _ _ _ => False) codes.
Definition tells (codes : list pack_code) : string -> list byte -> list (string * data) -> Prop :=
  tells_with (fun name payload d => exists entries, tells_flat codes name payload entries /\ d = DMap entries) codes.

(** The packets which can be told apart by more than what they say: their text ends at the first NUL or is not shown when it is not
    UTF-8, the bytes after the last measurement and calibration tag are not shown, and the mode of a UART keeps a few bits *)
Definition not_whole : list string :=
  ["MonVer"; "InfError"; "InfNotice"; "InfTest"; "InfWarning"; "InfDebug"; "EsfMeas"; "CfgPrtUart"]%string.
