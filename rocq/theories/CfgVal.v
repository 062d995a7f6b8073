(** * Configuration items: [CfgVal], its encoding and its parser (cfg_val.rs) *)
From Coq Require Import String List NArith ZArith Bool.
From Verif Require Import Base PackDesc Enums Bits.
Import ListNotations.
Open Scope N_scope.

(** ** Keys, cfg_val.rs 3-49 *)

(** 5-11 *)
Inductive storage_size := OneBit | OneByte | TwoBytes | FourBytes | EightBytes.
(** 13-22 *)
Definition to_usize (s : storage_size) : N :=
  match s with OneBit | OneByte => 1 | TwoBytes => 2 | FourBytes => 4 | EightBytes => 8 end.
(** 25 *)
Definition key_size : N := 4.
(** 27-41 *)
Definition value_size (key : N) : storage_size :=
  match N.land (N.shiftr key 28) 7 with
  | 1 => OneBit
  | 2 => OneByte
  | 3 => TwoBytes
  | 4 => FourBytes
  | 5 => EightBytes
  | _ => OneBit
  end.
(** 42-44, 46-48 ([as u8]) *)
Definition group_id (key : N) : N := N.shiftr key 16 mod 256.
Definition item_id (key : N) : N := key mod 256.

(** ** Value types *)

(** The types used in the table (first macro arguments of 51-127 and 129-209) *)
Inductive cfg_ty :=
  TBool | TU8 | TU16 | TI16 | TU32 | TU64 | TCfgInfMask | TDataBits | TParity | TStopBits
| TAlignment | TTpPulse | TTpPulseLength.

(** 1116-1129 *)
Inductive tp_pulse := PulsePeriod | PulseFreq.
Inductive tp_pulse_length := PulseRatio | PulseLength.
(** packets.rs 2172-2182 *)
Inductive alignment := AlignUtc | AlignGps | AlignGlo | AlignBds | AlignGal.

(** The Rust type: an integer is its value, the bitflags type its bits *)
Definition cfg_value (t : cfg_ty) : Type :=
  match t with
  | TBool => bool
  | TU8 | TU16 | TU32 | TU64 | TCfgInfMask => N
  | TI16 => Z
  | TDataBits => data_bits
  | TParity => parity
  | TStopBits => stop_bits
  | TAlignment => alignment
  | TTpPulse => tp_pulse
  | TTpPulseLength => tp_pulse_length
  end.
Definition cfg_value_ok (t : cfg_ty) : cfg_value t -> Prop :=
  match t with
  | TU8 | TCfgInfMask => fun v => v < 2 ^ 8
  | TU16 => fun v => v < 2 ^ 16
  | TU32 => fun v => v < 2 ^ 32
  | TU64 => fun v => v < 2 ^ 64
  | TI16 => fun v => (- 2 ^ 15 <= v < 2 ^ 15)%Z
  | _ => fun _ => True
  end.

(** [[buf[0], ..., buf[n-1]]] *)
Fixpoint first_bytes (buf : list byte) (n : nat) : res (list byte) :=
  match n with
  | O => Ret []
  | S n' => let! l := first_bytes buf n' in let! b := get buf (N.of_nat n') in Ret (l ++ [b])
  end.

(** [match buf[0] { ..., _ => unreachable!() }] *)
Definition match_byte {A} (buf : list byte) (arms : list (N * A)) : res A :=
  let! b := get buf 0 in
  match find (fun a => fst a =? b2n b) arms with
  | Some a => Ret (snd a)
  | None => Panic
  end.

(** 51-127: [from_cfg_v_bytes!].  ([CfgInfMask::from_bits_truncate] keeps all 8 bits: the macro declares a
    constant for each bit.) *)
Definition from_cfg_v_bytes (t : cfg_ty) (buf : list byte) : res (cfg_value t) :=
  match t as t0 return res (cfg_value t0) with
  | TBool => match_byte buf [(0, false); (1, true)]
  | TU8 => let! b := get buf 0 in Ret (b2n b)
  | TU16 => let! l := first_bytes buf 2 in Ret (le_num l)
  | TI16 => let! l := first_bytes buf 2 in Ret (from_le_bytes I16 l)
  | TU32 => let! l := first_bytes buf 4 in Ret (le_num l)
  | TU64 => let! l := first_bytes buf 8 in Ret (le_num l)
  | TCfgInfMask => let! b := get buf 0 in Ret (b2n b)
  | TDataBits => match_byte buf [(0, Eight); (1, Seven)]
  | TParity => match_byte buf [(0, ParityNone); (1, ParityOdd); (2, ParityEven)]
  | TStopBits => match_byte buf [(0, StopHalf); (1, StopOne); (2, StopOneHalf); (3, StopTwo)]
  | TAlignment => match_byte buf [(0, AlignUtc); (1, AlignGps); (2, AlignGlo); (3, AlignBds); (4, AlignGal)]
  | TTpPulse => match_byte buf [(0, PulsePeriod); (1, PulseFreq)]
  | TTpPulseLength => match_byte buf [(0, PulseRatio); (1, PulseLength)]
  end.

(** The value bytes of 129-209 [into_cfg_kv_bytes!] *)
Definition cfg_v_bytes (t : cfg_ty) : cfg_value t -> list byte :=
  match t with
  | TBool => fun v => [if v then x01 else x00]
  | TU8 => fun v => [n2b v]
  | TU16 => fun v => le_bytes 2 v
  | TI16 => fun v => to_le_bytes I16 v
  | TU32 => fun v => le_bytes 4 v
  | TU64 => fun v => le_bytes 8 v
  | TCfgInfMask => fun v => [n2b v]
  | TDataBits => fun v => [match v with Eight => x00 | Seven => x01 end]
  | TParity => fun v => [match v with ParityNone => x00 | ParityOdd => x01 | ParityEven => x02 end]
  | TStopBits => fun v => [match v with StopHalf => x00 | StopOne => x01 | StopOneHalf => x02 | StopTwo => x03 end]
  | TAlignment => fun v => [match v with AlignUtc => x00 | AlignGps => x01 | AlignGlo => x02
                                       | AlignBds => x03 | AlignGal => x04 end]
  | TTpPulse => fun v => [match v with PulsePeriod => x00 | PulseFreq => x01 end]
  | TTpPulseLength => fun v => [match v with PulseRatio => x00 | PulseLength => x01 end]
  end.

(** ** The enum generated by [cfg_val!], 211-300 *)

(** One line of the table *)
Record cfg_item := mk_cfg_item { ci_name : string; ci_key : N; ci_ty : cfg_ty }.

(** A value of the enum [CfgVal]: one variant per line *)
Record cfg_val := mk_cfg_val { cv_item : cfg_item; cv_value : cfg_value (ci_ty cv_item) }.

(** 292: the constant [SIZE] *)
Definition ci_size (i : cfg_item) : N := key_size + to_usize (value_size (ci_key i)).
(** 228-236: [len] *)
Definition cfg_len (v : cfg_val) : N := ci_size (cv_item v).
(** 238-240 *)
Definition cfg_is_empty (v : cfg_val) : bool := cfg_len v =? 0.

(** 294-296: [into_cfg_kv_bytes]: the four key bytes and the value bytes *)
Definition cfg_kv_bytes (v : cfg_val) : list byte :=
  le_bytes 4 (ci_key (cv_item v)) ++ cfg_v_bytes (ci_ty (cv_item v)) (cv_value v).

(** 242-253: [parse] *)
Definition cfg_parse (table : list cfg_item) (buf : list byte) : res cfg_val :=
  let! k := first_bytes buf 4 in
  let key_id := le_num k in
  match find (fun i => ci_key i =? key_id) table with
  | Some i =>
      let! rest := slice_from buf 4 in
      let! v := from_cfg_v_bytes (ci_ty i) rest in
      Ret (mk_cfg_val i v)
  | None => Panic
  end.

(** 255-272: [extend_to] for a growable vector *)
Definition cfg_extend_to (v : cfg_val) (buf : list byte) : list byte * N :=
  let bytes := cfg_kv_bytes v in
  (fold_left (fun buf b => buf ++ [b]) bytes buf, lenN bytes).

(** 274-284: [write_to]: [buf[..kv.len()].copy_from_slice(&kv)] *)
Definition cfg_write_to (v : cfg_val) (buf : list byte) : res (list byte * N) :=
  let kv := cfg_kv_bytes v in
  if lenN kv <=? lenN buf then Ret (kv ++ dropN (lenN kv) buf, lenN kv) else Panic.

(** A [CfgVal] as an element of the field [cfg_data] of [CfgValSet] *)
Definition cfg_val_item (v : cfg_val) : item := mk_item (fst (cfg_extend_to v [])) (snd (cfg_extend_to v [])).

(** ** [CfgValIter], packets.rs 1781-1817 *)

(** 1781-1785 *)
Record cfg_iter := mk_cfg_iter { cit_data : list byte; cit_offset : N }.

(** 1791-1793: the loop of [new]; returns the buffer and the offset *)
Fixpoint cfg_iter_fill (data : list byte) (offset : N) (values : list cfg_val) : res (list byte * N) :=
  match values with
  | [] => Ret (data, offset)
  | v :: values' =>
      let! rest := slice_from data offset in
      let! (rest', n) := cfg_write_to v rest in
      let! offset' := uadd offset n in
      cfg_iter_fill (takeN offset data ++ rest') offset' values'
  end.
(** 1788-1799: [new] *)
Definition cfg_iter_new (data : list byte) (values : list cfg_val) : res cfg_iter :=
  let! (data', offset) := cfg_iter_fill data 0 values in
  let! d := slice data' 0 offset in
  Ret (mk_cfg_iter d 0).
(** 1802-1816: [next] *)
Definition cfg_iter_next (table : list cfg_item) (it : cfg_iter) : res (option (cfg_val * cfg_iter)) :=
  if cit_offset it <? lenN (cit_data it) then
    let! rest := slice_from (cit_data it) (cit_offset it) in
    let! v := cfg_parse table rest in
    let! offset := uadd (cit_offset it) (cfg_len v) in
    Ret (Some (v, mk_cfg_iter (cit_data it) offset))
  else Ret None.
