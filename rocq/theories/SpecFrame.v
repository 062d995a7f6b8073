(** * Specification: UBX frames and the reference scanner

    Everything here is about one plain list of bytes; there are no buffers, offsets or chunks. *)
From Coq Require Import List NArith Bool.
From Verif Require Import Base.
Import ListNotations.
Open Scope N_scope.

(** Sum of the bytes, and sum of the bytes weighted n, n-1, ..., 1 *)
Fixpoint sum1 (d : list byte) : N :=
  match d with [] => 0 | x :: d' => b2n x + sum1 d' end.
Fixpoint sum2 (d : list byte) : N :=
  match d with [] => 0 | x :: d' => lenN (x :: d') * b2n x + sum2 d' end.

(** The two checksum bytes of [d] *)
Definition fletcher (d : list byte) : list byte := [n2b (sum1 d); n2b (sum2 d)].

(** Header (after the sync characters) of a frame: class, id, length (little endian) *)
Definition header (class id : byte) (payload : list byte) : list byte :=
  [class; id; n2b (lenN payload); n2b (lenN payload / 256)].

(** The wire format: B5 62 class id len_lo len_hi payload ck_a ck_b *)
Definition frame (class id : byte) (payload : list byte) : list byte :=
  [xb5; x62] ++ header class id payload ++ payload ++ fletcher (header class id payload ++ payload).

(** What can be said about a byte list from its beginning *)
Inductive verdict : Type :=
| Skip (k : N)                           (* the first [k] bytes are not part of a frame *)
| Wait                                   (* more bytes are needed to decide *)
| Bad (stored computed : N)              (* a complete candidate with a wrong checksum *)
| Good (class id : byte) (payload : list byte).   (* a valid frame *)

Definition decide (max_len : N) (s : list byte) : verdict :=
  match s with
  | b0 :: b1 :: c :: i :: l0 :: l1 :: rest =>
      if negb (byte_eqb b0 xb5) then Skip 1
      else if negb (byte_eqb b1 x62) then Skip 1
      else
        let n := b2n l0 + 256 * b2n l1 in
        if max_len <? n then Skip 2
        else if lenN rest <? n + 2 then Wait
        else
          let payload := takeN n rest in
          let stored := takeN 2 (dropN n rest) in
          let computed := fletcher (c :: i :: l0 :: l1 :: payload) in
          if le_num stored =? le_num computed then Good c i payload
          else Bad (le_num stored) (le_num computed)
  | b0 :: b1 :: _ =>
      if negb (byte_eqb b0 xb5) then Skip 1
      else if negb (byte_eqb b1 x62) then Skip 1
      else Wait
  | [b0] => if negb (byte_eqb b0 xb5) then Skip 1 else Wait
  | [] => Wait
  end.

(** What can be reported about a stream *)
Inductive event : Type :=
| EFrame (class id : byte) (payload : list byte)      (* a valid frame *)
| EBad (stored computed : N)                          (* a complete candidate with a wrong checksum *)
| EOom (required : N).                                (* a candidate that a small buffer cannot hold *)

(** The reference scanner: events in order and the undecided rest *)
Fixpoint scan_loop (max_len : N) (fuel : nat) (s : list byte) : list event * list byte :=
  match fuel with
  | O => ([], s)
  | S f =>
      match decide max_len s with
      | Wait => ([], s)
      | Skip k => scan_loop max_len f (dropN k s)
      | Bad x y => let (es, r) := scan_loop max_len f (dropN 2 s) in (EBad x y :: es, r)
      | Good c i p =>
          let (es, r) := scan_loop max_len f (dropN (lenN p + 8) s) in (EFrame c i p :: es, r)
      end
  end.
Definition scan (max_len : N) (s : list byte) : list event * list byte :=
  scan_loop max_len (S (length s)) s.


(** No valid frame with a payload of at most [max_len] bytes starts at the first byte of [s],
    whatever follows [s] *)
Definition no_frame_at (max_len : N) (s : list byte) : Prop :=
  forall u c i p v, lenN p <= max_len -> s ++ u <> frame c i p ++ v.

(** [trace cap max_len s es t]: reading the stream [s] from its beginning, the events [es] can be
    reported in this order, leaving the suffix [t] pending.  Bytes pass unreported only where no
    frame can start; a frame is reported where a complete frame with correct checksum stands
    and is then removed as a whole; a checksum error is reported for a complete candidate whose stored
    checksum differs from the computed one; lack of memory is only reported for a candidate
    which, without its last byte, exceeds the capacity [cap], while more than [cap] bytes
    are pending.  Errors remove the two sync bytes only. *)
Inductive trace (cap max_len : N) : list byte -> list event -> list byte -> Prop :=
| tr_done s : trace cap max_len s [] s
| tr_skip b s es t :
    no_frame_at max_len (b :: s) ->
    trace cap max_len s es t ->
    trace cap max_len (b :: s) es t
| tr_frame c i p s es t :
    lenN p <= max_len ->
    trace cap max_len s es t ->
    trace cap max_len (frame c i p ++ s) (EFrame c i p :: es) t
| tr_bad c i l0 l1 p k0 k1 s es t :
    lenN p = le_num [l0; l1] -> lenN p <= max_len ->
    [k0; k1] <> fletcher ([c; i; l0; l1] ++ p) ->
    trace cap max_len ([c; i; l0; l1] ++ p ++ [k0; k1] ++ s) es t ->
    trace cap max_len ([xb5; x62; c; i; l0; l1] ++ p ++ [k0; k1] ++ s)
          (EBad (le_num [k0; k1]) (le_num (fletcher ([c; i; l0; l1] ++ p))) :: es) t
| tr_oom c i l0 l1 s es t :
    le_num [l0; l1] <= max_len -> cap < le_num [l0; l1] + 7 ->
    cap < lenN ([xb5; x62; c; i; l0; l1] ++ s) ->
    trace cap max_len ([c; i; l0; l1] ++ s) es t ->
    trace cap max_len ([xb5; x62; c; i; l0; l1] ++ s) (EOom (le_num [l0; l1] + 2) :: es) t.

(** A pending suffix: nothing, or an incomplete candidate *)
Definition pending (max_len : N) (t : list byte) : Prop :=
  t = [] \/ exists c i l0 l1 p k0 k1 x,
    lenN p = le_num [l0; l1] /\ lenN p <= max_len /\ x <> [] /\
    [xb5; x62; c; i; l0; l1] ++ p ++ [k0; k1] = t ++ x.

(** [woven s fs]: the frames [fs] (class, id, payload) occur in the stream [s] in this order, each one
    contiguous, no two overlapping; anything may stand before, between and behind them. *)
Inductive woven : list byte -> list (byte * byte * list byte) -> Prop :=
| woven_nil s : woven s []
| woven_cons g c i p s fs : woven s fs -> woven (g ++ frame c i p ++ s) ((c, i, p) :: fs).

(** A byte string without the sync pair B5 62 *)
Definition no_sync_pair (g : list byte) : Prop := forall a b, g <> a ++ xb5 :: x62 :: b.

(** Frames with other bytes in front of each, and a tail *)
Definition interleave (l : list (list byte * (byte * byte * list byte))) (tail : list byte) : list byte :=
  concat (map (fun x => match x with (g, (c, i, p)) => g ++ frame c i p end) l) ++ tail.
