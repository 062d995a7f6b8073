(** * The macros of cfg_val.rs, expanded, as a program

    Used in the statements of PropExecCfg.v.  The macros and their invocation are read from the text of the file
    (SourceCfg.v), expanded (MacroRules.v), and the functions and constants of the expansion are read (Lang.v) and run
    (Exec.v). *)
From Coq Require Import String Ascii List NArith ZArith Bool.
From Verif Require Import Base Buffers PackDesc Enums TableTypes Bits CfgVal Tokens Lang Exec MacroRules SourceCfg SourcePackets
  SpecExec SpecExecPackets.
Import ListNotations.
Open Scope N_scope.
Open Scope list_scope.

(** ** Values *)

Section Values.
  Open Scope string_scope.

  (** packets.rs 2176-2182; cfg_val.rs 1115-1129 *)
  Definition alignment_v (a : alignment) : val :=
    unit_v "AlignmentToReferenceTime"
      (match a with AlignUtc => "Utc" | AlignGps => "Gps" | AlignGlo => "Glo" | AlignBds => "Bds" | AlignGal => "Gal" end).
  Definition tp_pulse_v (p : tp_pulse) : val := unit_v "TpPulse" (match p with PulsePeriod => "Period" | PulseFreq => "Freq" end).
  Definition tp_pulse_length_v (p : tp_pulse_length) : val :=
    unit_v "TpPulseLength" (match p with PulseRatio => "Ratio" | PulseLength => "Length" end).

  (** [u64] and [i16], which the interpreter does not have: their bits *)
  Definition u64_v (n : N) : val := VAdt ["u64"] [("0", VNum ILit n)].
  Definition i16_v (bits : N) : val := VAdt ["i16"] [("0", VNum ILit bits)].

  (** The value of an item, and a value of the enum *)
  Definition cfg_value_v (t : cfg_ty) : cfg_value t -> val :=
    match t with
    | TBool => fun v => VBool v
    | TU8 | TCfgInfMask => fun v => u8_v v
    | TU16 => fun v => u16_v v
    | TI16 => fun v => i16_v (Z.to_N (v mod 2 ^ 16))
    | TU32 => fun v => u32_v v
    | TU64 => fun v => u64_v v
    | TDataBits => fun v => data_bits_v v
    | TParity => fun v => parity_v v
    | TStopBits => fun v => stop_bits_v v
    | TAlignment => fun v => alignment_v v
    | TTpPulse => fun v => tp_pulse_v v
    | TTpPulseLength => fun v => tp_pulse_length_v v
    end.
  Definition cfg_enum_v (v : cfg_val) : val :=
    VAdt ["CfgVal"; ci_name (cv_item v)] [("0", cfg_value_v (ci_ty (cv_item v)) (cv_value v))].

  (** cfg_val.rs 3, 5-11 *)
  Definition key_v (key : N) : val := wrap_v "KeyId" (u32_v key).
  Definition size_v (s : storage_size) : val :=
    unit_v "StorageSize"
      (match s with OneBit => "OneBit" | OneByte => "OneByte" | TwoBytes => "TwoBytes" | FourBytes => "FourBytes"
                  | EightBytes => "EightBytes" end).
End Values.

(** ** The library *)

Section Library.
  Open Scope string_scope.
  Context (tuples : list (string * list token)).

  (** [from_le_bytes] and [to_le_bytes] of the integers; [from_bits_truncate] of the bitflags types (bitflags 2); the
      constructors of tuple structs ([X(..)]) and of variants ([X::Y(..)]) *)
  Definition cfg_ext : prog := fun ty name args =>
    match args with
    | [VBytes l] =>
        if String.eqb name "from_le_bytes" then
          if String.eqb ty "u32" then done (u32_v (le_num l))
          else if String.eqb ty "u64" then done (u64_v (le_num l))
          else if String.eqb ty "i16" then done (i16_v (le_num l))
          else None
        else None
    | [VNum t n] =>
        if String.eqb name "from_bits_truncate" then
          match find (fun d => String.eqb ty (b_name d)) all_flags with
          | Some d => done (VNum t (flags_from d n))
          | None => None
          end
        else if String.eqb ty "" then (if capital name then done (construct tuples name (VNum t n)) else None)
        else if capital ty && capital name then done (VAdt [ty; name] [("0", VNum t n)])
        else None
    | [VAdt [c] [(f, VNum t n)]] =>
        if String.eqb name "to_le_bytes" then
          if String.eqb c "u64" then Some (Ret (VAdt [c] [(f, VNum t n)], VBytes (le_bytes 8 n)))
          else if String.eqb c "i16" then Some (Ret (VAdt [c] [(f, VNum t n)], VBytes (le_bytes 2 n)))
          else None
        else if String.eqb ty "" then (if capital name then done (wrap_v name (VAdt [c] [(f, VNum t n)])) else None)
        else if capital ty && capital name then done (VAdt [ty; name] [("0", VAdt [c] [(f, VNum t n)])])
        else None
    | [v] =>
        if String.eqb ty "" then (if capital name then done (wrap_v name v) else None)
        else if capital ty && capital name then done (VAdt [ty; name] [("0", v)])
        else None
    | _ => None
    end.
End Library.

(** ** The program *)

(** The file with its macros expanded *)
Definition cfg_tokens : list token :=
  match expand_file (tokens_of cfg_val_rs) with Some ts => ts | None => [] end.
Definition cfg_fns : list lfn := match read_file 4000 cfg_tokens with Some l => l | None => [] end.

(** The numbers of the variants, also those of the enums of packets.rs *)
Definition cfg_variants : list (string * N) := app (read_enums cfg_tokens) (read_enums packets_tokens).

Section Consts.
  Context (tuples : list (string * list token)) (variants : list (string * N)) (fns : list lfn).

  (** A function, when the constants are [consts] *)
  Definition cfg_run (consts : list (string * val)) (depth : nat) : prog :=
    link vec_ops (consts_with variants consts) [] fns (cfg_ext tuples) 0 depth.

  (** The constants, evaluated in the order of the text: [KeyId::SIZE], and [KEY] and [SIZE] of each item *)
  Fixpoint cfg_eval_consts (l : list lfn) (before : list (string * val)) : list (string * val) :=
    match l with
    | [] => before
    | f :: l' =>
        cfg_eval_consts l'
          (match run_fn vec_ops (consts_with variants before) [] (cfg_run before 2) 0 (lf_type f) f [] with
           | Some (Ret (_, v)) => ((lf_type f ++ "::" ++ lf_name f)%string, v) :: before
           | _ => before
           end)
    end.

  (** A function which changes what its parameter [buf] refers to *)
  Definition cfg_run_buf (consts : list (string * val)) (depth : nat) : prog := fun ty name args =>
    match find_fn fns ty name with
    | Some f => run_out vec_ops (consts_with variants consts) [] (cfg_run consts depth) 0 ty "buf"%string f args
    | None => None
    end.
End Consts.

Definition cfg_consts : list (string * val) :=
  cfg_eval_consts (read_tuples cfg_tokens) cfg_variants cfg_fns (filter is_const cfg_fns) [].

(** Calling a function of cfg_val.rs: the receiver and the result; the buffer and the result *)
Definition cfg_text (depth : nat) : prog := cfg_run (read_tuples cfg_tokens) cfg_variants cfg_fns cfg_consts depth.
Definition cfg_text_buf (depth : nat) : prog := cfg_run_buf (read_tuples cfg_tokens) cfg_variants cfg_fns cfg_consts depth.
