(** * Iterators over repeated groups *)
From Coq Require Import String List NArith ZArith Bool.
From Verif Require Import Base PackDesc Utf8.
Import ListNotations.
Open Scope N_scope.

(** ** Iterators that hold the data and an offset *)

(** packets.rs 735-738 [NavSatIter], 3051-3054 [MonVerExtensionIter] *)
Record offset_iter := mk_offset_iter { oi_data : list byte; oi_offset : N }.
(** 741-743, 3057-3059: [new] *)
Definition offset_iter_new (data : list byte) : offset_iter := mk_offset_iter data 0.

(** One call of [next]: [None] at the end.  The [&mut self] is returned with the item. *)

(** 745-747, 750-762: [NavSatIter]; the item [NavSatSvInfoRef(data)] is its bytes *)
Definition nav_sat_is_valid (bytes : list byte) : bool := lenN bytes mod 12 =? 0.
Definition nav_sat_next (it : offset_iter) : res (option (list byte * offset_iter)) :=
  if oi_offset it <? lenN (oi_data it) then
    let! stop := uadd (oi_offset it) 12 in
    let! data := slice (oi_data it) (oi_offset it) stop in
    let! offset := uadd (oi_offset it) 12 in
    Ret (Some (data, mk_offset_iter (oi_data it) offset))
  else Ret None.

(** [bytes.chunks(n)] for [n > 0]: the last chunk may be shorter.  (The fuel is the length.) *)
Fixpoint chunks_fuel (fuel : nat) (n : N) (l : list byte) : list (list byte) :=
  match fuel with
  | O => []
  | S fuel' => match l with [] => [] | _ => takeN n l :: chunks_fuel fuel' n (dropN n l) end
  end.
Definition chunks (n : N) (l : list byte) : list (list byte) := chunks_fuel (length l) n l.

(** [iter.all(f)]: stops at the first [false] *)
Fixpoint all_res {A} (f : A -> res bool) (l : list A) : res bool :=
  match l with
  | [] => Ret true
  | x :: l' => let! b := f x in if b then all_res f l' else Ret false
  end.

(** 3061-3063, 3066-3078: [MonVerExtensionIter]; the item is a [&str] *)
Definition mon_ver_ext_is_valid (payload : list byte) : res bool :=
  if lenN payload mod 30 =? 0 then all_res is_cstr_valid (chunks 30 payload) else Ret false.
Definition mon_ver_ext_next (it : offset_iter) : res (option (list byte * offset_iter)) :=
  if oi_offset it <? lenN (oi_data it) then
    let! stop := uadd (oi_offset it) 30 in
    let! data := slice (oi_data it) (oi_offset it) stop in
    let! offset := uadd (oi_offset it) 30 in
    let! s := convert_to_str_unchecked data in
    Ret (Some (s, mk_offset_iter (oi_data it) offset))
  else Ret None.

(** ** Iterators that wrap [core::slice::ChunksExact] *)

(** [slice.chunks_exact(n)]: the state is what is left to iterate, without the remainder of the division;
    [next] returns the next [n] bytes. *)
Definition chunks_exact (n : N) (l : list byte) : list byte := takeN (lenN l - lenN l mod n) l.
Definition chunks_exact_next (n : N) (l : list byte) : option (list byte * list byte) :=
  if lenN l <? n then None else Some (takeN n l, dropN n l).

(** [u32::from_le_bytes(bytes.try_into().unwrap())]: panics unless there are 4 bytes *)
Definition u32_of_slice (l : list byte) : res N := if lenN l =? 4 then Ret (le_num l) else Panic.

(** [x.try_into::<u8>().unwrap()] *)
Definition u8_try_into (x : N) : res N := if x <=? 255 then Ret x else Panic.

(** 3629-3648: [RxmRawxInfoIter]; the item [RxmRawxInfoRef(data)] is its bytes *)
Definition rawx_is_valid (bytes : list byte) : bool := lenN bytes mod 32 =? 0.
Definition rawx_new (data : list byte) : list byte := chunks_exact 32 data.
Definition rawx_next (it : list byte) : res (option (list byte * list byte)) :=
  Ret (chunks_exact_next 32 it).

(** 3170-3175 *)
Record esf_meas_data := mk_esf_meas_data { emd_type : N; emd_field : N }.
(** 3177-3200: [EsfMeasDataIter] *)
Definition esf_meas_is_valid (bytes : list byte) : bool := lenN bytes mod 4 =? 0.
Definition esf_meas_new (bytes : list byte) : list byte := chunks_exact 4 bytes.
Definition esf_meas_next (it : list byte) : res (option (esf_meas_data * list byte)) :=
  match chunks_exact_next 4 it with
  | None => Ret None
  | Some (chunk, rest) =>
      let! data := u32_of_slice chunk in
      let! ty := u8_try_into (N.shiftr (N.land data 1056964608) 24) in      (* 0x3F000000 *)
      Ret (Some (mk_esf_meas_data ty (N.land data 16777215), rest))         (* 0xFFFFFF *)
  end.

(** 3217-3223 *)
Record esf_raw_data := mk_esf_raw_data { erd_type : N; erd_field : N; erd_time_tag : N }.
(** 3225-3251: [EsfRawDataIter] *)
Definition esf_raw_is_valid (bytes : list byte) : bool := lenN bytes mod 8 =? 0.
Definition esf_raw_new (bytes : list byte) : list byte := chunks_exact 8 bytes.
Definition esf_raw_next (it : list byte) : res (option (esf_raw_data * list byte)) :=
  match chunks_exact_next 8 it with
  | None => Ret None
  | Some (chunk, rest) =>
      let! c0 := slice chunk 0 4 in
      let! data := u32_of_slice c0 in
      let! c1 := slice chunk 4 8 in
      let! tag := u32_of_slice c1 in
      let! ty := u8_try_into (N.land (N.shiftr data 24) 255) in
      Ret (Some (mk_esf_raw_data ty (N.land data 16777215) tag, rest))
  end.

(** 3491-3512: [DwrdIter] *)
Definition dwrd_is_valid (bytes : list byte) : bool := lenN bytes mod 4 =? 0.
Definition dwrd_new (bytes : list byte) : list byte := chunks_exact 4 bytes.
Definition dwrd_next (it : list byte) : res (option (N * list byte)) :=
  match chunks_exact_next 4 it with
  | None => Ret None
  | Some (chunk, rest) => let! x := u32_of_slice chunk in Ret (Some (x, rest))
  end.

(** ** The field mappings *)
Definition offset_iter_map (is_valid : list byte -> res bool) : mapping (Bytes 0) :=
  mk_mapping (t := Bytes 0) offset_iter (fun _ => True) (fun l => Ret (offset_iter_new l)) (Some is_valid) None
    (fun _ => Panic).
Definition chunks_iter_map (new : list byte -> list byte) (is_valid : list byte -> bool) : mapping (Bytes 0) :=
  mk_mapping (t := Bytes 0) (list byte) (fun _ => True) (fun l => Ret (new l))
    (Some (fun l => Ret (is_valid l))) None
    (fun _ => Panic).

(** ** ESF-MEAS, packets.rs 3128-3168 *)

(** 3151-3153: [EsfMeas::calib_tag]: [None] unless there are exactly 4 bytes *)
Definition calib_tag (bytes : list byte) : option N := if lenN bytes =? 4 then Some (le_num bytes) else None.
Definition calib_tag_map : mapping (Bytes 0) :=
  mk_mapping (t := Bytes 0) (option N) (fun _ => True) (fun l => Ret (calib_tag l)) None None
    (fun _ => Panic).

(** [self.flags()]: the generated getter of the field [flags: u16] at offset 4 *)
Definition esf_meas_flags (payload : list byte) : res N :=
  let! b0 := get payload 4 in
  let! b1 := get payload 5 in
  Ret (b2n b0 + 256 * b2n b1).
(** 3157-3159: [data_len]; [>>] binds tighter than [&] *)
Definition esf_meas_data_len (payload : list byte) : res N :=
  let! flags := esf_meas_flags payload in
  Ret (N.land (N.shiftr flags 11) 31 * 4).
(** 3161-3167: [calib_tag_len] *)
Definition esf_meas_calib_tag_len (payload : list byte) : res N :=
  let! flags := esf_meas_flags payload in
  Ret (if negb (N.land flags 8 =? 0) then 4 else 0).
