(** * The hand-written functions of packets.rs as a program

    Used in the statements of PropExecPackets.v.  The functions, the constants, the tuple structs and the numbers of the
    variants are read from the text of the file (SourcePackets.v); the values of the model are written as values of the
    interpreter; the standard library and the generated code which these functions use are given here. *)
From Coq Require Import String Ascii List NArith ZArith Bool.
From Verif Require Import Base Buffers PackDesc Enums TableTypes Bits Utf8 Iterators GenRecv TablePackets CfgVal Setters
  Tokens Lang Exec SourcePackets SpecExec.
Import ListNotations.
Open Scope N_scope.
Open Scope list_scope.

(** ** What is read from the text *)

(** [struct X(ty);] *)
Fixpoint read_tuples (ts : list token) : list (string * list token) :=
  match ts with
  | TIdent "struct" :: TIdent x :: TGroup Paren ty :: r => (x, ty) :: read_tuples r
  | _ :: r => read_tuples r
  | [] => []
  end.

(** [enum X { V = n, ... }]: the number of each variant (of those with a number) *)
Fixpoint read_variants (x : string) (ts : list token) : list (string * N) :=
  match ts with
  | TIdent v :: TPunct "="%char :: TInt n _ :: r => ((x ++ "::" ++ v)%string, n) :: read_variants x r
  | _ :: r => read_variants x r
  | [] => []
  end.
Fixpoint read_enums (ts : list token) : list (string * N) :=
  match ts with
  | TIdent "enum" :: TIdent x :: TGroup Brace vs :: r => read_variants x vs ++ read_enums r
  | _ :: r => read_enums r
  | [] => []
  end.

Definition is_const (f : lfn) : bool := match lf_trait f with [t] => is_kw "const" t | _ => false end.

(** ** Values *)

Notation val := (val (list byte) cfg_val).
Notation prog := (prog (T:=list byte) (P:=cfg_val)).

Section Values.
  Open Scope string_scope.

  (** A tuple struct with one field; a variant without fields *)
  Definition wrap_v (name : string) (v : val) : val := VAdt [name] [("0", v)].
  Definition unit_v (ty name : string) : val := VAdt [ty; name] [].
  Definition u8_v (n : N) : val := VNum IU8 n.
  Definition u16_v (n : N) : val := VNum IU16 n.
  Definition u32_v (n : N) : val := VNum IU32 n.
  Definition bool_v (b : bool) : val := VBool b.
  Definition bytes_v (l : list byte) : val := VBytes l.

  (** packets.rs 536-545 *)
  Definition map_matching_v (m : map_matching_status) : val :=
    unit_v "MapMatchingStatus" (match m with MapNone => "None" | MapValid => "Valid" | MapUsed => "Used" | MapDr => "Dr" end).
  (** packets.rs 692-701 *)
  Definition quality_v (q : quality_indicator) : val :=
    unit_v "NavSatQualityIndicator"
      (match q with
       | NoSignal => "NoSignal" | Searching => "Searching" | SignalAcquired => "SignalAcquired"
       | SignalDetected => "SignalDetected" | CodeLock => "CodeLock" | CarrierLock => "CarrierLock" end).
  (** packets.rs 703-709 *)
  Definition health_v (h : sv_health) : val :=
    match h with
    | Healthy => unit_v "NavSatSvHealth" "Healthy"
    | Unhealthy => unit_v "NavSatSvHealth" "Unhealthy"
    | UnknownHealth x => VAdt ["NavSatSvHealth"; "Unknown"] [("0", u8_v x)]
    end.
  (** packets.rs 711-720 *)
  Definition orbit_v (o : orbit_source_t) : val :=
    match o with
    | NoInfoAvailable => unit_v "NavSatOrbitSource" "NoInfoAvailable"
    | Ephemeris => unit_v "NavSatOrbitSource" "Ephemeris"
    | Almanac => unit_v "NavSatOrbitSource" "Almanac"
    | AssistNowOffline => unit_v "NavSatOrbitSource" "AssistNowOffline"
    | AssistNowAutonomous => unit_v "NavSatOrbitSource" "AssistNowAutonomous"
    | OtherSource x => VAdt ["NavSatOrbitSource"; "Other"] [("0", u8_v x)]
    end.

  (** packets.rs 874-883, 997-1006, 1070-1078 *)
  Definition itfm_config_v (c : itfm_config) : val :=
    VAdt ["CfgItfmConfig"]
      [("enable", VBool (ic_enable c)); ("bb_threshold", wrap_v "CfgItfmBbThreshold" (u32_v (ic_bb_threshold c)));
       ("cw_threshold", wrap_v "CfgItfmCwThreshold" (u32_v (ic_cw_threshold c)));
       ("algorithm_bits", wrap_v "CfgItfmAlgoBits" (u32_v (ic_algorithm_bits c)))].
  Definition antenna_v (a : itfm_antenna) : val :=
    unit_v "CfgItfmAntennaSettings"
      (match a with AntUnknown => "Unknown" | AntActive => "Active" | AntPassive => "Passive" end).
  Definition itfm_config2_v (c : itfm_config2) : val :=
    VAdt ["CfgItfmConfig2"]
      [("general", wrap_v "CfgItfmGeneralBits" (u32_v (ic2_general c))); ("antenna", antenna_v (ic2_antenna c));
       ("scan_aux_bands", VBool (ic2_scan_aux_bands c))].

  (** packets.rs 1903-1907, 1939-1942, 1970-1974, 2003-2008 *)
  Definition data_bits_v (d : data_bits) : val := unit_v "DataBits" (match d with Seven => "Seven" | Eight => "Eight" end).
  Definition parity_v (p : parity) : val :=
    unit_v "Parity" (match p with ParityEven => "Even" | ParityOdd => "Odd" | ParityNone => "None" end).
  Definition stop_bits_v (s : stop_bits) : val :=
    unit_v "StopBits" (match s with StopOne => "One" | StopOneHalf => "OneHalf" | StopTwo => "Two" | StopHalf => "Half" end).
  Definition uart_mode_v (m : uart_mode) : val :=
    VAdt ["UartMode"] [("data_bits", data_bits_v (um_data_bits m)); ("parity", parity_v (um_parity m));
                       ("stop_bits", stop_bits_v (um_stop_bits m))].

  (** packets.rs 2774-2777, 2813-2831, 2908-2922 *)
  Definition tp_time_base_v (t : tim_tp_time_base) : val :=
    unit_v "TimTpTimeBase" (match t with TpGnss => "Gnss" | TpUtc => "Utc" end).
  Definition ref_gnss_v (g : time_ref_gnss_t) : val :=
    unit_v "TimTpRefInfoTimeRefGnss"
      (match g with RefGps => "Gps" | RefGlo => "Glo" | RefBds => "Bds" | RefGal => "Gal" | RefNavIc => "NavIc" end).
  Definition utc_standard_v (u : utc_standard_t) : val :=
    unit_v "TimTpRefInfoUtcStandard"
      (match u with
       | UtcCrl => "Crl" | UtcNist => "Nist" | UtcUsno => "Usno" | UtcBipm => "Bipm" | UtcEu => "Eu" | UtcSu => "Su"
       | UtcNtsc => "Ntsc" | UtcNpli => "Npli" end).
  Definition tm2_mode_v (m : tm2_mode_t) : val :=
    unit_v "TimTm2Mode" (match m with Tm2Single => "Single" | Tm2Running => "Running" end).
  Definition tm2_run_v (r : tm2_run_t) : val :=
    unit_v "TimTm2Run" (match r with Tm2Armed => "Armed" | Tm2Stopped => "Stopped" end).
  Definition tm2_time_base_v (t : tm2_time_base_t) : val :=
    unit_v "TimTm2TimeBase" (match t with Tm2Receiver => "Receiver" | Tm2Gnss => "Gnss" | Tm2Utc => "Utc" end).

  (** packets.rs 735-738, 3051-3054 *)
  Definition offset_iter_v (name : string) (it : offset_iter) : val :=
    VAdt [name] [("data", VBytes (oi_data it)); ("offset", vusize (oi_offset it))].
  (** packets.rs 3179, 3225, 3492, 3630: a struct around a [ChunksExact] with chunks of [n] bytes *)
  Definition chunks_iter_v (name : string) (n : N) (rest : list byte) : val :=
    wrap_v name (VAdt ["ChunksExact"] [("0", VBytes rest); ("1", vusize n)]).
  (** packets.rs 3173-3176, 3218-3222 *)
  Definition esf_meas_data_v (d : esf_meas_data) : val :=
    VAdt ["EsfMeasData"] [("data_type", u8_v (emd_type d)); ("data_field", u32_v (emd_field d))].
  Definition esf_raw_data_v (d : esf_raw_data) : val :=
    VAdt ["EsfRawData"] [("data_type", u8_v (erd_type d)); ("data_field", u32_v (erd_field d));
                         ("sensor_time_tag", u32_v (erd_time_tag d))].
  (** packets.rs 1782-1785 *)
  Definition cfg_iter_v (it : cfg_iter) : val :=
    VAdt ["CfgValIter"] [("data", VBytes (cit_data it)); ("offset", vusize (cit_offset it))].
  Definition cfg_val_v (v : cfg_val) : val := wrap_v "CfgVal" (VPack v).
End Values.

(** ** The library these functions use *)

Section Library.
  Open Scope string_scope.
  (** The tuple structs and the numbers of the variants of the file; the keys of [CfgVal] *)
  Context (tuples : list (string * list token)) (variants : list (string * N)) (cfg_table : list cfg_item).

  (** The type of the field of a tuple struct *)
  Definition tuple_type (name : string) : list token :=
    match find (fun d => String.eqb name (fst d)) tuples with Some (_, ty) => ty | None => [] end.

  (** The constructor of a tuple struct ([NavSatSvInfoRef] and [RxmRawxInfoRef] are generated) *)
  Definition construct (name : string) (v : val) : val := wrap_v name (fit (tuple_type name) v).

  Definition done (v : val) : option (res (val * val)) := Some (Ret (vunit, v)).

  (** [option.unwrap()], [.expect(..)], [.ok()], [.is_ok()] of [Some], [None], [Ok], [Err] *)
  Definition ok_method (ty name : string) (fs : list (string * val)) : option (res (val * val)) :=
    let good := String.eqb ty "Some" || String.eqb ty "Ok" in
    if String.eqb name "unwrap" || String.eqb name "expect" then
      match fs with [(_, v)] => if good then done v else Some Panic | _ => Some Panic end
    else if String.eqb name "is_ok" then done (VBool good)
    else None.

  (** [option.map(Constructor)] *)
  Definition map_ctor (ty name : string) (fs : list (string * val)) (f : val) : option (res (val * val)) :=
    if String.eqb name "map" then
      match f, fs with
      | VAdt [c] [], [(_, v)] => if String.eqb ty "Some" then done (vctor "Some" (construct c v)) else None
      | VAdt [c] [], [] => if String.eqb ty "None" then done vnone else None
      | _, _ => None
      end
    else None.

  Definition is_fn (f : val) (name : string) : bool :=
    match f with VAdt [a; b] [] => String.eqb (a ++ "::" ++ b) name | _ => false end.

  (** [slice.try_into()] into [[u8; 4]] and [number.try_into()] into [u8], before ([TryInto]) and after ([TryOk]) [.ok()] *)
  Definition try_into_method (ty name : string) (v : val) (rest : list val) : option (res (val * val)) :=
    match v, rest with
    | VBytes l, [] =>
        if String.eqb name "unwrap" then (if (lenN l =? 4)%N then done (VBytes l) else Some Panic)
        else if String.eqb name "ok" then done (VAdt ["TryOk"] [("0", VBytes l)])
        else None
    | VBytes l, [f] =>
        if String.eqb name "map" && is_fn f "u32::from_le_bytes" then
          if String.eqb ty "TryOk" then done (if (lenN l =? 4)%N then vctor "Some" (VNum IU32 (le_num l)) else vnone)
          else done (if (lenN l =? 4)%N then vctor "Ok" (VNum IU32 (le_num l)) else vctor "Err" (VAdt ["TryFromSliceError"] []))
        else None
    | VNum _ n, [] =>
        if String.eqb name "unwrap" then (if (n <=? 255)%N then done (VNum IU8 n) else Some Panic) else None
    | _, _ => None
    end.

  (** [ChunksExact::next] *)
  Definition chunks_exact_method (name : string) (l : list byte) (n : N) : option (res (val * val)) :=
    if String.eqb name "next" then
      match chunks_exact_next n l with
      | Some (chunk, rest) =>
          Some (Ret (VAdt ["ChunksExact"] [("0", VBytes rest); ("1", vusize n)], vctor "Some" (VBytes chunk)))
      | None => Some (Ret (VAdt ["ChunksExact"] [("0", VBytes l); ("1", vusize n)], vnone))
      end
    else None.

  (** [f.debug_struct(name).field(name, &value)....finish()]: the result is what it shows: the name of the struct, and
      the fields with their values *)
  Definition debug_method (ty name : string) (args : list val) : option (res (val * val)) :=
    match args with
    | [VText s] => if String.eqb ty "Formatter" && String.eqb name "debug_struct" then done (VAdt ["DebugStruct"] [("", VText s)]) else None
    | _ => None
    end.
  Definition debug_struct_method (name : string) (shown : list (string * val)) (args : list val)
    : option (res (val * val)) :=
    match args with
    | [VText f; v] => if String.eqb name "field" then done (VAdt ["DebugStruct"] (shown ++ [(f, v)])%list) else None
    | [] => if String.eqb name "finish" then done (VAdt ["DebugStruct"] shown) else None
    | _ => None
    end.

  (** The generated getters, on the payload: their meaning in the model *)
  Definition getter_method (ty name : string) (payload : list byte) : option (res (val * val)) :=
    let num t r := Some (ret_map (fun z => (wrap_v ty (VBytes payload), VNum t (Z.to_N z))) r) in
    let is a b := String.eqb ty a && String.eqb name b in
    if is "AckAckRef" "class" then num IU8 (AckAck_class payload)
    else if is "AckAckRef" "msg_id" then num IU8 (AckAck_msg_id payload)
    else if is "AckNakRef" "class" then num IU8 (AckNak_class payload)
    else if is "AckNakRef" "msg_id" then num IU8 (AckNak_msg_id payload)
    else if is "EsfMeasRef" "flags" then
      Some (ret_map (fun n => (wrap_v ty (VBytes payload), VNum IU16 n)) (esf_meas_flags payload))
    else None.

  (** The generated [into_raw] of [CfgItfmAntennaSettings] (ubx_extend): [self as u8] *)
  Definition enum_method (ty variant name : string) : option (res (val * val)) :=
    if String.eqb ty "CfgItfmAntennaSettings" && String.eqb name "into_raw" then
      match find (fun d => String.eqb (ty ++ "::" ++ variant) (fst d)) variants with
      | Some (_, n) => Some (Ret (VAdt [ty; variant] [], VNum IU8 n))
      | None => None
      end
    else None.

  (** Functions called by path *)
  Definition library_fn (ty name : string) (args : list val) : option (res (val * val)) :=
    match args with
    | [VBytes l] =>
        if String.eqb ty "u32" && String.eqb name "from_le_bytes" then done (VNum IU32 (le_num l))
        else if String.eqb ty "CfgVal" && String.eqb name "parse" then
          (* the generated [CfgVal::parse] *)
          Some (ret_map (fun v => (vunit, cfg_val_v v)) (cfg_parse cfg_table l))
        else if String.eqb ty "" && capital name then done (construct name (VBytes l))
        else None
    | [VNum t n] =>
        if String.eqb name "from_bits_truncate" then
          match find (fun d => String.eqb ty (b_name d)) all_flags with
          | Some d => done (VNum t (flags_from d n))
          | None => None
          end
        else if String.eqb ty "" then (if capital name then done (construct name (VNum t n)) else None)
        else if capital ty && capital name then done (VAdt [ty; name] [("0", VNum t n)])
        else None
    | [v] => if String.eqb ty "" && capital name then done (construct name v) else None
    | _ => None
    end.

  Definition packets_ext : prog := fun ty name args =>
    match args with
    | VAdt [c] fs :: rest =>
        if String.eqb c ty then
          if String.eqb ty "Formatter" then debug_method ty name rest
          else if String.eqb ty "DebugStruct" then debug_struct_method name fs rest
          else match fs, rest with
               | [(_, VBytes l); (_, VNum _ n)], [] => if String.eqb ty "ChunksExact" then chunks_exact_method name l n else None
               | [(_, VPack v)], [] => if String.eqb ty "CfgVal" && String.eqb name "len"
                                       then Some (Ret (cfg_val_v v, vusize (cfg_len v))) else None
               | _, _ =>
                   if String.eqb ty "TryInto" || String.eqb ty "TryOk"
                   then match fs with [(_, v)] => try_into_method ty name v rest | _ => None end
                   else match ok_method ty name fs with
                        | Some r => Some r
                        | None =>
                            match rest with
                            | [f] => map_ctor ty name fs f
                            | _ => match fs with [(_, VBytes l)] => getter_method ty name l | _ => None end
                            end
                        end
               end
        else library_fn ty name args
    | [VAdt [c; variant] []] => if String.eqb c ty then enum_method c variant name else library_fn ty name args
    | _ => library_fn ty name args
    end.
End Library.

(** ** The program *)

Section Program.
  Open Scope string_scope.
  Context (tuples : list (string * list token)) (variants : list (string * N))
          (structs : list (string * list (string * list token))) (fns : list lfn) (cfg_table : list cfg_item).

  Definition flags_ity (d : flags_desc) : ity :=
    if (b_nbits d =? 8)%N then IU8 else if (b_nbits d =? 16)%N then IU16 else IU32.

  (** The constants of the [bitflags!] types of the library *)
  Definition flag_consts : list (string * val) :=
    flat_map (fun d => map (fun c => (b_name d ++ "::" ++ fst c, VNum (flags_ity d) (snd c))) (b_consts d)) all_flags.

  (** Functions named without their path; the numbers of the variants; the constants [before] *)
  Definition consts_with (before : list (string * val)) (x : string) : option val :=
    if String.eqb x "is_cstr_valid" then Some (VAdt ["mon_ver"; "is_cstr_valid"] [])
    else if String.eqb x "u32::from_le_bytes" then Some (VAdt ["u32"; "from_le_bytes"] [])
    else match find (fun c => String.eqb x (fst c)) before with
         | Some (_, v) => Some v
         | None =>
             match find (fun d => String.eqb x (fst d ++ " as")) variants with
             | Some (_, n) => Some (VNum ILit n)
             | None => None
             end
         end.

  (** The constants of the [impl] blocks, evaluated in the order of the text *)
  Fixpoint eval_consts (l : list lfn) (before : list (string * val)) : list (string * val) :=
    match l with
    | [] => before
    | f :: l' =>
        eval_consts l'
          (match run_fn vec_ops (consts_with before) structs (packets_ext tuples variants cfg_table) 0 (lf_type f) f [] with
           | Some (Ret (_, v)) => app before [(lf_type f ++ "::" ++ lf_name f, v)]
           | _ => before
           end)
    end.
End Program.

Section Call.
  Open Scope string_scope.
  Context (tuples : list (string * list token)) (variants : list (string * N))
          (structs : list (string * list (string * list token))) (fns : list lfn) (consts : list (string * val))
          (cfg_table : list cfg_item) (class id : byte).

  (** [T::CLASS] and [T::ID] of a packet type [T], and the constants *)
  Definition packets_consts (x : string) : option val :=
    if String.eqb x "T::CLASS" then Some (vu8 class)
    else if String.eqb x "T::ID" then Some (vu8 id)
    else consts_with variants consts x.

  (** A function of the file, which calls at most [depth] deep *)
  Definition packets_call (depth : nat) : prog :=
    link vec_ops packets_consts structs fns (packets_ext tuples variants cfg_table) 0 depth.
End Call.

(** The text of packets.rs as a program *)
Definition packets_tokens : list token := tokens_of packets_rs.
Definition packets_fns : list lfn := match fns_of packets_tokens with Some l => l | None => [] end.
Definition packets_const_table : list (string * val) :=
  eval_consts (read_tuples packets_tokens) (read_enums packets_tokens) (read_structs packets_tokens) []
    (filter is_const packets_fns) flag_consts.

(** Calling a function of packets.rs (a generic one for the packet type with the given class and identifier) *)
Definition packets_text (cfg_table : list cfg_item) (class id : byte) (depth : nat) : prog :=
  packets_call (read_tuples packets_tokens) (read_enums packets_tokens) (read_structs packets_tokens) packets_fns
    packets_const_table cfg_table class id depth.

(** What a call gives: the receiver (of a method which leaves it as it is) and the result.  A function without receiver
    has [vunit] in its place. *)
Definition gives (self : val) (r : res val) : option (res (val * val)) := Some (ret_map (fun v => (self, v)) r).
Definition returns (r : res val) : option (res (val * val)) := gives vunit r.

(** [next] of an iterator: the new iterator and the item *)
Definition steps {I A} (iter : I -> val) (item : A -> val) (it : I) (r : res (option (A * I))) : option (res (val * val)) :=
  Some (ret_map (fun o => match o with
                          | Some (x, it') => (iter it', vctor "Some" (item x))
                          | None => (iter it, vnone)
                          end) r).
