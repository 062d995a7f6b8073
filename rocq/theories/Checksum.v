(** * The UBX checksum *)
From Coq Require Import List NArith.
From Verif Require Import Base.
Import ListNotations.
Open Scope N_scope.

(** [a.overflowing_add(b).0] on [u8] *)
Definition u8_wrapping_add (a b : byte) : byte := n2b (b2n a + b2n b).

(** parser.rs 386-391, ubx_packets.rs 34-39: [struct UbxChecksumCalc {ck_a, ck_b}].
    The pair [(ck_a, ck_b)]. *)
Definition cksum_state := (byte * byte)%type.

(** parser.rs 394-396: [UbxChecksumCalc::new] (and [Default], ubx_packets.rs 35) *)
Definition cksum_new : cksum_state := (x00, x00).

(** One iteration of the loops parser.rs 401-404, ubx_packets.rs 28-29 and 43-46 *)
Definition cksum_step (s : cksum_state) (d : byte) : cksum_state :=
  let (a, b) := s in
  let a' := u8_wrapping_add a d in
  let b' := u8_wrapping_add b a' in
  (a', b').

(** parser.rs 398-407, ubx_packets.rs 42-47: [UbxChecksumCalc::update] *)
Definition cksum_update (s : cksum_state) (bytes : list byte) : cksum_state :=
  fold_left cksum_step bytes s.

(** parser.rs 409-411, ubx_packets.rs 48-50: [UbxChecksumCalc::result] *)
Definition cksum_result (s : cksum_state) : byte * byte := s.

(** ubx_packets.rs 24-32: [ubx_checksum] *)
Definition ubx_checksum (data : list byte) : byte * byte :=
  fold_left cksum_step data (x00, x00).
