(** * The texts of the errors: ublox/src/error.rs *)
From Coq Require Import String List NArith Bool DecimalString HexadecimalString.
From Verif Require Import Base DualBuffer GenSend DateTime Enums.
Open Scope N_scope.
Open Scope string_scope.

(** [{:x}] of an unsigned integer, as the standard library documents it; [{}] is [dec] *)
Definition hex (n : N) : string := HexadecimalString.NilZero.string_of_uint (N.to_hex_uint n).

(** error.rs 9-16: [impl Display for MemWriterError<E>]; the text of an [E] is its own *)
Definition display_writer_error {E} (display : E -> string) (e : writer_error E) : string :=
  match e with
  | NotEnoughMem => "Not enough memory error"
  | Custom e => "MemWriterError: " ++ display e
  end.

(** error.rs 43-70: [impl Display for ParserError] *)
Definition display_parser_error (e : parser_error) : string :=
  match e with
  | InvalidChecksum expect got =>
      "Not valid packet's checksum, expect " ++ hex expect ++ ", got " ++ hex got
  | InvalidField packet field => "Invalid field " ++ field ++ " of packet " ++ packet
  | InvalidPacketLen packet expect got =>
      "Invalid packet(" ++ packet ++ ") length, expect " ++ dec expect ++ ", got " ++ dec got
  | OutOfMemory required_size =>
      "Insufficient parser buffer size, required " ++ dec required_size ++ " bytes"
  end.

(** error.rs 82-90: [impl Display for DateTimeError] *)
Definition display_datetime_error (e : datetime_error) : string :=
  match e with
  | InvalidDate => "invalid date"
  | InvalidTime => "invalid time"
  | InvalidNanoseconds => "invalid nanoseconds"
  end.
