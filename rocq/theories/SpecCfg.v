(** * Specification: configuration items on the wire *)
From Coq Require Import String List NArith ZArith Bool.
From Verif Require Import Base PackDesc Bits CfgVal SpecPacket SpecTypes.
Import ListNotations.
Open Scope N_scope.

(** The number of value bytes a key announces in its bits 28-30 (u-blox interface description, "Configuration key ID") *)
Definition announced (key : N) : N :=
  match bits key 28 3 with 1 => 1 | 2 => 1 | 3 => 2 | 4 => 4 | 5 => 8 | _ => 0 end.

(** The number that stands for a value on the wire.  The constants of the enumerations are those of the interface
    description: CFG-UART1-STOPBITS, -DATABITS, -PARITY, CFG-TP-TIMEGRID_TP1, -PULSE_DEF, -PULSE_LENGTH_DEF. *)
Definition cfg_number (t : cfg_ty) : cfg_value t -> Z :=
  match t with
  | TBool => fun v => if v then 1%Z else 0%Z
  | TU8 | TU16 | TU32 | TU64 | TCfgInfMask => fun v => Z.of_N v
  | TI16 => fun v => v
  | TDataBits => fun v => match v with Eight => 0%Z | Seven => 1%Z end
  | TParity => fun v => match v with ParityNone => 0%Z | ParityOdd => 1%Z | ParityEven => 2%Z end
  | TStopBits => fun v => match v with StopHalf => 0%Z | StopOne => 1%Z | StopOneHalf => 2%Z | StopTwo => 3%Z end
  | TAlignment => fun v =>
      match v with AlignUtc => 0%Z | AlignGps => 1%Z | AlignGlo => 2%Z | AlignBds => 3%Z | AlignGal => 4%Z end
  | TTpPulse => fun v => match v with PulsePeriod => 0%Z | PulseFreq => 1%Z end
  | TTpPulseLength => fun v => match v with PulseRatio => 0%Z | PulseLength => 1%Z end
  end.

(** The bytes of an item: the key and the value, both little endian, the value in as many bytes as the key announces *)
Definition cfg_wire (v : cfg_val) : list byte :=
  int_bytes 4 (Z.of_N (ci_key (cv_item v))) ++
  int_bytes (announced (ci_key (cv_item v))) (cfg_number (ci_ty (cv_item v)) (cv_value v)).

(** An item of the library: its key is in the table and its value is one of the Rust type *)
Definition cfg_item_of (table : list cfg_item) (v : cfg_val) : Prop :=
  In (cv_item v) table /\ cfg_value_ok (ci_ty (cv_item v)) (cv_value v).

(** [l] starts with [p] *)
Definition starts_with (l p : list byte) : Prop := exists rest, l = p ++ rest.
