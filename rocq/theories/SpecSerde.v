(** * Specification: values of the types which can be deserialized *)
From Coq Require Import String List NArith ZArith Bool.
From Verif Require Import Base PackDesc Floats Bits Convert Data Serde.
Import ListNotations.
Open Scope N_scope.
Open Scope list_scope.

(** [typed t v]: [v] is a value of the Rust type [t] *)
Inductive typed : ty -> value -> Prop :=
| typed_bool b : typed TBool (VBool b)
| typed_int s z : (scalar_min s <= z <= scalar_max s)%Z -> typed (TInt s) (VInt z)
| typed_real f x : typed (TReal f) (VReal x)
| typed_struct fs vs : Forall2 (fun f v => typed (snd f) v) fs vs -> typed (TStruct fs) (VStruct vs)
| typed_new t v : typed t v -> typed (TNew t) (VNew v)
| typed_unit vs n : In (n, None) vs -> typed (TEnum vs) (VVariant n None)
| typed_content vs n t v : In (n, Some t) vs -> typed t v -> typed (TEnum vs) (VVariant n (Some v))
| typed_coded vs n c : In (n, c) vs -> typed (TCoded vs) (VVariant n None).

(** The names of the fields of a struct, and of the variants of an enum, differ (the compiler sees to it) *)
Inductive distinct : ty -> Prop :=
| distinct_bool : distinct TBool
| distinct_int s : distinct (TInt s)
| distinct_real f : distinct (TReal f)
| distinct_struct fs : NoDup (map fst fs) -> Forall (fun f => distinct (snd f)) fs -> distinct (TStruct fs)
| distinct_new t : distinct t -> distinct (TNew t)
| distinct_enum vs : NoDup (map fst vs) -> (forall n t, In (n, Some t) vs -> distinct t) -> distinct (TEnum vs)
| distinct_coded vs : NoDup (map fst vs) -> distinct (TCoded vs).

(** The type, and every type inside it, derives both [Serialize] and [Deserialize] *)
Inductive both_derived : ty -> Prop :=
| derived_bool : both_derived TBool
| derived_int s : both_derived (TInt s)
| derived_real f : both_derived (TReal f)
| derived_struct fs : Forall (fun f => both_derived (snd f)) fs -> both_derived (TStruct fs)
| derived_new t : both_derived t -> both_derived (TNew t)
| derived_enum vs : (forall n t, In (n, Some t) vs -> both_derived t) -> both_derived (TEnum vs).

(** The values under a name, in order *)
Definition under (name : string) (l : list (string * data)) : list data :=
  map snd (filter (fun e => String.eqb (fst e) name) l).

(** ** The types of the library *)

Definition names (l : list string) : ty := TEnum (map (fun n => (n, None)) l).
Definition word : ty := TNew (TInt U32).
Definition f64 : ty := TReal FTy64.
Definition t_data_bits := names ["Seven"; "Eight"]%string.
Definition t_parity := names ["Even"; "Odd"; "None"]%string.
Definition t_stop_bits := names ["One"; "OneHalf"; "Two"; "Half"]%string.
Definition t_antenna := TCoded [("Unknown", 0); ("Active", 1); ("Passive", 2)]%string.
(** packets.rs 692-700, 703-708, 711-719, 874-885, 922, 947, 972, 997-1006, 1039, 1070-1078, 1748-1757, 1903-1907, 1939-1942,
    1970-1974, 2003-2008; types.rs 9-18, 23-32, 36-42 *)
Definition library_types : list (string * ty) :=
  [("NavSatQualityIndicator", names ["NoSignal"; "Searching"; "SignalAcquired"; "SignalDetected"; "CodeLock"; "CarrierLock"]);
   ("NavSatSvHealth", TEnum [("Healthy", None); ("Unhealthy", None); ("Unknown", Some (TInt U8))]);
   ("NavSatOrbitSource",
    TEnum [("NoInfoAvailable", None); ("Ephemeris", None); ("Almanac", None); ("AssistNowOffline", None); ("AssistNowAutonomous", None);
           ("Other", Some (TInt U8))]);
   ("CfgItfmConfig", TStruct [("enable", TBool); ("bb_threshold", word); ("cw_threshold", word); ("algorithm_bits", word)]);
   ("CfgItfmBbThreshold", word);
   ("CfgItfmCwThreshold", word);
   ("CfgItfmAlgoBits", word);
   ("CfgItfmConfig2", TStruct [("general", word); ("antenna", t_antenna); ("scan_aux_bands", TBool)]);
   ("CfgItfmGeneralBits", word);
   ("CfgItfmAntennaSettings", t_antenna);
   ("ResetMode", names ["HardwareResetImmediately"; "ControlledSoftwareReset"; "ControlledSoftwareResetGpsOnly";
                        "HardwareResetAfterShutdown"; "ControlledGpsStop"; "ControlledGpsStart"]);
   ("UartMode", TStruct [("data_bits", t_data_bits); ("parity", t_parity); ("stop_bits", t_stop_bits)]);
   ("DataBits", t_data_bits);
   ("Parity", t_parity);
   ("StopBits", t_stop_bits);
   ("Position", TStruct [("lon", f64); ("lat", f64); ("alt", f64)]);
   ("PositionECEF", TStruct [("x", f64); ("y", f64); ("z", f64)]);
   ("Velocity", TStruct [("speed", f64); ("heading", f64)])]%string.

(** ** Values of the model (Bits.v, Convert.v) as values of these types *)

Definition v_word (n : N) : value := VNew (VInt (Z.of_N n)).
Definition v_name (n : string) : value := VVariant n None.
Definition v_quality (q : quality_indicator) : value :=
  v_name match q with
         | NoSignal => "NoSignal" | Searching => "Searching" | SignalAcquired => "SignalAcquired" | SignalDetected => "SignalDetected"
         | CodeLock => "CodeLock" | CarrierLock => "CarrierLock"
         end.
Definition v_health (h : sv_health) : value :=
  match h with
  | Healthy => v_name "Healthy"
  | Unhealthy => v_name "Unhealthy"
  | UnknownHealth x => VVariant "Unknown" (Some (VInt (Z.of_N x)))
  end.
Definition v_orbit (o : orbit_source_t) : value :=
  match o with
  | NoInfoAvailable => v_name "NoInfoAvailable"
  | Ephemeris => v_name "Ephemeris"
  | Almanac => v_name "Almanac"
  | AssistNowOffline => v_name "AssistNowOffline"
  | AssistNowAutonomous => v_name "AssistNowAutonomous"
  | OtherSource x => VVariant "Other" (Some (VInt (Z.of_N x)))
  end.
Definition v_itfm (c : itfm_config) : value :=
  VStruct [VBool (ic_enable c); v_word (ic_bb_threshold c); v_word (ic_cw_threshold c); v_word (ic_algorithm_bits c)].
Definition v_antenna (a : itfm_antenna) : value :=
  v_name match a with AntUnknown => "Unknown" | AntActive => "Active" | AntPassive => "Passive" end.
Definition v_itfm2 (c : itfm_config2) : value :=
  VStruct [v_word (ic2_general c); v_antenna (ic2_antenna c); VBool (ic2_scan_aux_bands c)].
Definition v_mode (m : uart_mode) : value :=
  VStruct [v_name match um_data_bits m with Seven => "Seven" | Eight => "Eight" end;
           v_name match um_parity m with ParityEven => "Even" | ParityOdd => "Odd" | ParityNone => "None" end;
           v_name match um_stop_bits m with StopOne => "One" | StopOneHalf => "OneHalf" | StopTwo => "Two" | StopHalf => "Half" end].
Definition v_position (p : position) : value := VStruct [VReal (pos_lon p); VReal (pos_lat p); VReal (pos_alt p)].
Definition v_ecef (p : position_ecef) : value := VStruct [VReal (ecef_x p); VReal (ecef_y p); VReal (ecef_z p)].
Definition v_velocity (v : velocity) : value := VStruct [VReal (vel_speed v); VReal (vel_heading v)].
