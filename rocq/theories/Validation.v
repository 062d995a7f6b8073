(** * The repository's own run-time tests, replayed on the model

    These are tests of the model, not properties: each [Example] is one [#[test]] of the repository, with the same inputs and the
    same assertions, so that a model which differs from the program on one of them does not build.  (The tests of the macros
    are replayed in PropOutput.v and SourceTests.v.)  What an iterator yields is asserted for as many calls as the test makes. *)
From Coq Require Import String List NArith ZArith Bool SpecFloat.
From Verif Require Import Base Checksum Buffers DualBuffer Parser PackDesc Enums Floats Utf8 Iterators GenRecv GenSend Dispatch
  TableTypes TablePackets Setters.
Import ListNotations.
Open Scope N_scope.
Open Scope list_scope.

(** ** Writing the tests down *)

Definition bytes (l : list N) : list byte := map n2b l.

(** An array [[0; n]] given to [FixedLinearBuffer::new] *)
Definition zeroed (n : N) : flb := flb_new (repeat x00 (N.to_nat n)).
Definition filled (n : N) (l : list N) : res flb := ret_map fst (flb_extend (zeroed n) (bytes l)).

(** [take(n).unwrap()] *)
Definition take_ok {T} (ops : buf_ops T) (d : dual (T:=T)) (n : N) : res (list byte * dual (T:=T)) :=
  let! (r, d') := d_take ops d n in
  match r with Ok l => Ret (l, d') | Err _ => Panic end.

(** What the tests look at: the name of a known packet *)
Definition kind (r : result packet_ref) : result string :=
  match r with
  | Ok (Known p _) => Ok (p_name p)
  | Ok (Unknown _ _ _) => Ok "Unknown"%string
  | Err e => Err e
  end.
Definition kinds (l : list (option (result packet_ref))) : list (option (result string)) := map (option_map kind) l.

Definition library_packet := match_packet recv_table.
Definition library_max : N := Eval vm_compute in parser_max_payload_len recv_table.

(** [let mut it = parser.consume(chunk)], [k] calls of [it.next()], the end of the scope of [it] *)
Definition ask {T} (ops : buf_ops T) (buf : T) (chunk : list byte) (k : nat) : res (list (option (result string)) * T) :=
  let! (rs, buf') := feed_times ops library_packet library_max buf chunk k in
  Ret (kinds rs, buf').

(** tests/parser_tests.rs 15-30 [extract_only_ack_ack] *)
Fixpoint only_ack_ack (l : list (result packet_ref)) : res (list (result (Z * Z))) :=
  match l with
  | [] => Ret []
  | Ok (Known p payload) :: l' =>
      if String.eqb (p_name p) "AckAck" then
        let! c := AckAck_class payload in
        let! i := AckAck_msg_id payload in
        let! r := only_ack_ack l' in
        Ret (Ok (c, i) :: r)
      else Panic
  | Ok (Unknown _ _ _) :: l' => Panic
  | Err e :: l' => let! r := only_ack_ack l' in Ret (Err e :: r)
  end.
Definition extract_only_ack_ack (buf chunk : list byte) : res (list (result (Z * Z)) * list byte) :=
  let! (es, buf') := feed vec_ops library_packet library_max buf chunk in
  let! l := only_ack_ack es in
  Ret (l, buf').

(** ** parser.rs, mod test *)

(** 510-519 *)
Example dl_split_indexing :
  map (d_index vec_ops (d_create (bytes [1; 2; 3; 4]) (bytes [5; 6; 7; 8]))) [0; 1; 2; 3; 4; 5; 6; 7] =
  map (fun b => Ret b) (bytes [1; 2; 3; 4; 5; 6; 7; 8]).
Proof. reflexivity. Qed.
(** 521-533, [should_panic] *)
Example dl_take_too_many : d_take vec_ops (d_create (bytes [1; 2; 3; 4]) []) 6 = Panic.
Proof. reflexivity. Qed.
(** 535-546 *)
Example dl_take_range_underlying :
  (let! (x, d) := take_ok vec_ops (d_create (bytes [1; 2; 3; 4]) []) 3 in let! buf := d_drop vec_ops d in Ret (x, buf)) =
  Ret (bytes [1; 2; 3], bytes [4]).
Proof. reflexivity. Qed.
(** 548-559 *)
Example dl_take_range_new :
  (let! (x, d) := take_ok vec_ops (d_create [] (bytes [1; 2; 3; 4])) 3 in let! buf := d_drop vec_ops d in Ret (x, buf)) =
  Ret (bytes [1; 2; 3], bytes [4]).
Proof. reflexivity. Qed.
(** 561-572 *)
Example dl_take_range_overlapping :
  (let! (x, d) := take_ok vec_ops (d_create (bytes [1; 2; 3; 4]) (bytes [5; 6; 7; 8])) 6 in
   let! buf := d_drop vec_ops d in Ret (x, buf)) =
  Ret (bytes [1; 2; 3; 4; 5; 6], bytes [7; 8]).
Proof. reflexivity. Qed.
(** 574-587 *)
Example dl_take_multi_ranges :
  (let! (x1, d) := take_ok vec_ops (d_create (bytes [1; 2; 3; 4; 5; 6; 7]) (bytes [8; 9; 10; 11; 12])) 3 in
   let! (x2, d) := take_ok vec_ops d 3 in
   let! (x3, d) := take_ok vec_ops d 3 in
   let! (x4, d) := take_ok vec_ops d 3 in
   let! buf := d_drop vec_ops d in Ret (x1, x2, x3, x4, buf)) =
  Ret (bytes [1; 2; 3], bytes [4; 5; 6], bytes [7; 8; 9], bytes [10; 11; 12], []).
Proof. reflexivity. Qed.
(** 589-600 *)
Example dl_take_multi_ranges2 :
  (let! (x1, d) := take_ok vec_ops (d_create (bytes [1; 2; 3; 4; 5; 6; 7]) (bytes [8; 9; 10; 11; 12])) 3 in
   let! (x2, d) := take_ok vec_ops d 6 in
   let! buf := d_drop vec_ops d in Ret (x1, x2, buf)) =
  Ret (bytes [1; 2; 3], bytes [4; 5; 6; 7; 8; 9], bytes [10; 11; 12]).
Proof. reflexivity. Qed.
(** 602-614 *)
Example dl_move_then_copy :
  (let! buf := filled 7 [1; 2; 3; 4; 5; 6; 7] in
   let! (x1, d) := take_ok flb_ops (d_create buf (bytes [8; 9; 10; 11; 12])) 3 in
   let! (x2, d) := take_ok flb_ops d 6 in
   let! buf := d_drop flb_ops d in Ret (x1, x2, flb_len buf)) =
  Ret (bytes [1; 2; 3], bytes [4; 5; 6; 7; 8; 9], 3).
Proof. reflexivity. Qed.
(** 616-628, [should_panic]: the assertion [matches!(..., Err(OutOfMemory {required_size: 6}))] is what panics, because [take]
    succeeds *)
Example dl_take_range_oom :
  ret_map fst (take_ok flb_ops (d_create (zeroed 4) (bytes [1; 2; 3; 4; 5; 6])) 6) = Ret (bytes [1; 2; 3; 4; 5; 6]).
Proof. reflexivity. Qed.
(** 630-642 *)
Example dl_drain_partial_underlying :
  (let! buf := filled 4 [1; 2; 3] in
   let! d := d_drain flb_ops (d_create buf (bytes [4; 5; 6; 7; 8; 9])) 2 in
   let! n := d_len flb_ops d in
   let! (x, d) := take_ok flb_ops d 4 in
   let! n' := d_len flb_ops d in Ret (n, x, n')) =
  Ret (7, bytes [3; 4; 5; 6], 3).
Proof. reflexivity. Qed.
(** 644-655 *)
Example dl_drain :
  (let! buf := filled 4 [1; 2; 3] in
   let! d := d_drain flb_ops (d_create buf (bytes [4; 5; 6; 7; 8; 9])) 5 in
   let! (x, d) := take_ok flb_ops d 3 in
   let! n := d_len flb_ops d in Ret (x, n)) =
  Ret (bytes [6; 7; 8], 1).
Proof. reflexivity. Qed.
(** 657-668 *)
Example dl_clear :
  (let! buf := filled 4 [1; 2; 3] in
   let d := d_create buf (bytes [4; 5; 6; 7; 8; 9]) in
   let! n := d_len flb_ops d in
   let! d := d_clear flb_ops d in
   let! n' := d_len flb_ops d in Ret (n, n')) =
  Ret (9, 0).
Proof. reflexivity. Qed.
(** 670-681 *)
Example dl_peek_raw :
  (let! buf := filled 4 [1; 2; 3] in d_peek_raw flb_ops (d_create buf (bytes [4; 5; 6; 7; 8; 9])) 2 6) =
  Ret (bytes [3], bytes [4; 5; 6]).
Proof. reflexivity. Qed.
(** 683-691 *)
Example flb_clear_test :
  (let! buf := filled 16 [1; 2; 3; 4; 5; 6; 7] in let! buf' := flb_clear buf in Ret (flb_len buf, flb_len buf')) = Ret (7, 0).
Proof. reflexivity. Qed.
(** 693-700, [should_panic] *)
Example flb_index_outside_range : (let! buf := filled 16 [1; 2; 3; 4; 5; 6; 7] in flb_range buf 5 10) = Panic.
Proof. reflexivity. Qed.
(** 702-710 *)
Example flb_extend_outside_range :
  (let! buf := filled 16 [1; 2; 3; 4; 5; 6; 7] in
   let! (buf, _) := flb_extend buf (bytes [1; 2; 3; 4; 5; 6; 7]) in
   let! (buf, _) := flb_extend buf (bytes [1; 2; 3; 4; 5; 6; 7]) in Ret (flb_len buf)) = Ret 16.
Proof. reflexivity. Qed.
(** 712-725 *)
Example flb_drain_test :
  (let! buf := filled 16 [1; 2; 3; 4; 5; 6; 7] in
   let! buf := flb_drain buf 3 in
   let! x := flb_range buf 0 (flb_len buf) in
   let! (buf', _) := flb_extend buf (bytes [1; 2; 3; 4; 5; 6; 7]) in
   let! x' := flb_range buf' 0 (flb_len buf') in Ret (flb_len buf, x, flb_len buf', x')) =
  Ret (4, bytes [4; 5; 6; 7], 11, bytes [4; 5; 6; 7; 1; 2; 3; 4; 5; 6; 7]).
Proof. reflexivity. Qed.
(** 727-735 *)
Example flb_drain_all :
  (let! buf := filled 16 [1; 2; 3; 4; 5; 6; 7] in let! buf := flb_drain buf 7 in Ret (flb_len buf)) = Ret 0.
Proof. reflexivity. Qed.
(** 737-746 *)
Example flb_find :
  (let buf := flb_new (bytes [1; 2; 3; 4; 5; 6; 7; 8]) in
   let! a := b_find flb_ops buf x05 in
   let! (buf, _) := flb_extend buf (bytes [1; 2; 3; 4]) in
   let! b := b_find flb_ops buf x05 in
   let! (buf, _) := flb_extend buf (bytes [5; 6; 7; 8]) in
   let! c := b_find flb_ops buf x05 in Ret (a, b, c)) = Ret (None, None, Some 4).
Proof. reflexivity. Qed.

Definition ack_packet : list byte := [xb5; x62; x05; x01; x02; x00; x04; x05; x11; x38].
Definition ack : option (result string) := Some (Ok "AckAck"%string).

(** 748-769 *)
Example parser_oom_processes_multiple_small_packets :
  ret_map fst (ask flb_ops (zeroed 10) (ack_packet ++ ack_packet ++ ack_packet ++ ack_packet ++ ack_packet) 6) =
  Ret [ack; ack; ack; ack; ack; None].
Proof. vm_compute. reflexivity. Qed.
(** 771-784 *)
Example parser_handle_garbage_first_byte :
  ret_map fst (ask flb_ops (zeroed 12) (xb5 :: ack_packet) 2) = Ret [ack; None].
Proof. vm_compute. reflexivity. Qed.

(** 788-806: the builder of three tests here and of [test_parse_cfg_nav5] *)
Definition nav5_builder : builder (p_fields p_cfg_nav5) :=
  (1, (("AirborneWithLess1gAcceleration"%string, 6), (("Only3D"%string, 2),
   (lit FTy64 10017 (-2), (lit FTy64 17 (-4), (17%Z, (0%Z, (lit FTy32 17 (-1), (lit FTy32 17 (-1), (17%Z, (17%Z,
   (lit FTy32 217 (-2), (17%Z, (17%Z, (17%Z, ([x00; x00], (5911%Z, (("UtcChina"%string, 7),
   ([x00; x00; x00; x00; x00], tt))))))))))))))))))).
Definition nav5_bytes : list byte :=
  Eval vm_compute in match into_packet_bytes p_cfg_nav5 nav5_builder with Ret l => l | _ => [] end.
Example nav5_bytes_ok : into_packet_bytes p_cfg_nav5 nav5_builder = Ret nav5_bytes.
Proof. vm_compute. reflexivity. Qed.

(** 786-834 *)
Example parser_oom_clears_buffer :
  (let! (a, buf) := ask flb_ops (zeroed 12) (takeN 8 nav5_bytes) 1 in
   let! (b, buf) := ask flb_ops buf (dropN 8 nav5_bytes) 2 in
   let! (c, buf) := ask flb_ops buf ack_packet 2 in Ret (a, b, c)) =
  Ret ([None], [Some (Err (OutOfMemory (lenN nav5_bytes - 6))); None], [ack; None]).
Proof. vm_compute. reflexivity. Qed.
(** 836-865 *)
Example parser_accepts_packet_array_underlying :
  ret_map fst (ask flb_ops (zeroed 1024) nav5_bytes 2) = Ret [Some (Ok "CfgNav5"%string); None].
Proof. vm_compute. reflexivity. Qed.
(** 867-895 *)
Example parser_accepts_packet_vec_underlying :
  ret_map fst (ask vec_ops [] nav5_bytes 2) = Ret [Some (Ok "CfgNav5"%string); None].
Proof. vm_compute. reflexivity. Qed.

(** 897-937.  The values of [CfgNav5Builder::default()] are proved in PropDefault.v. *)
Definition nav5_pacc (pacc : Z) : builder (p_fields p_cfg_nav5) :=
  (0, (("AirborneWith4gAcceleration"%string, 8), (("Auto2D3D"%string, 3),
   (S754_zero false, (S754_zero false, (0%Z, (0%Z, (S754_zero false, (S754_zero false, (pacc, (0%Z,
   (S754_zero false, (0%Z, (0%Z, (0%Z, ([x00; x00], (0%Z, (("Automatic"%string, 0),
   ([x00; x00; x00; x00; x00], tt))))))))))))))))))).
Definition CfgNav5_pacc : list byte -> res Z := g_val (the_getter p_cfg_nav5 "pacc").
Definition pacc_of (r : option (result packet_ref)) : option (res Z) :=
  match r with
  | Some (Ok (Known p payload)) => if String.eqb (p_name p) "CfgNav5" then Some (CfgNav5_pacc payload) else None
  | _ => None
  end.
Example parser_accepts_multiple_packets :
  (let! a := into_packet_bytes p_cfg_nav5 (nav5_pacc 21) in
   let! b := into_packet_bytes p_cfg_nav5 (nav5_pacc 18) in
   let! (rs, _) := feed_times vec_ops library_packet library_max [] (a ++ b) 3 in
   Ret (map pacc_of rs, map (fun r => match r with None => true | Some _ => false end) rs)) =
  Ret ([Some (Ret 21%Z); Some (Ret 18%Z); None], [false; false; true]).
Proof. vm_compute. reflexivity. Qed.
(** 939-943 *)
Example test_max_payload_len : 1240 <=? parser_max_payload_len recv_table = true.
Proof. vm_compute. reflexivity. Qed.

(** ** tests/parser_tests.rs *)

(** 31 *)
Definition FULL_ACK_ACK_PACK : list byte := [xb5; x62; x05; x01; x02; x00; x06; x01; x0f; x38].
Definition ack61 : result (Z * Z) := Ok (6%Z, 1%Z).
Notation empty buf := (is_buffer_empty vec_ops buf) (only parsing).

(** 33-39 *)
Example test_parse_empty_buffer :
  empty [] = true /\ (let! (l, buf) := extract_only_ack_ack [] [] in Ret (l, empty buf)) = Ret ([], true).
Proof. split; reflexivity. Qed.
(** 41-54 *)
Fixpoint byte_by_byte (buf : list byte) (l : list byte) : res (list (list (result (Z * Z)) * bool)) :=
  match l with
  | [] => Ret []
  | b :: l' =>
      let! (r, buf') := extract_only_ack_ack buf [b] in
      let! rs := byte_by_byte buf' l' in
      Ret ((r, empty buf') :: rs)
  end.
Example test_parse_ack_ack_byte_by_byte :
  byte_by_byte [] FULL_ACK_ACK_PACK = Ret (repeat ([], false) 9 ++ [([ack61], true)]).
Proof. vm_compute. reflexivity. Qed.
(** 56-64 *)
Example test_parse_ack_ack_in_one_go :
  (let! (l, buf) := extract_only_ack_ack [] FULL_ACK_ACK_PACK in Ret (l, empty buf)) = Ret ([ack61], true).
Proof. vm_compute. reflexivity. Qed.
(** 66-87; 0x380f and 0x3c13 *)
Example test_parse_ack_ack_bad_checksum :
  (let! (a, buf) := extract_only_ack_ack [] [xb5; x62; x05; x01; x02; x00; x06; x05; x0f; x38] in
   let! (b, buf') := extract_only_ack_ack buf (FULL_ACK_ACK_PACK ++ FULL_ACK_ACK_PACK) in
   Ret (a, buffer_len vec_ops buf, b, empty buf')) =
  Ret ([Err (InvalidChecksum 14351 15379)], 0, [ack61; ack61], true).
Proof. vm_compute. reflexivity. Qed.
(** 89-104 *)
Example test_parse_ack_ack_parted_two_packets :
  (let! (a, buf) := extract_only_ack_ack [] (takeN 5 FULL_ACK_ACK_PACK) in
   let! (b, buf') := extract_only_ack_ack buf (dropN 5 FULL_ACK_ACK_PACK ++ FULL_ACK_ACK_PACK) in
   Ret (a, buffer_len vec_ops buf, b, empty buf')) =
  Ret ([], 5, [ack61; ack61], true).
Proof. vm_compute. reflexivity. Qed.
(** 106-116 *)
Example test_parse_ack_ack_two_in_one_go :
  (let! (l, buf) := extract_only_ack_ack [] (FULL_ACK_ACK_PACK ++ FULL_ACK_ACK_PACK) in Ret (l, empty buf)) =
  Ret ([ack61; ack61], true).
Proof. vm_compute. reflexivity. Qed.
(** 118-138 *)
Example test_parse_ack_ack_garbage_before :
  (let! (a, buf) := extract_only_ack_ack [] ([x00; x06; x01; x0f; x38] ++ FULL_ACK_ACK_PACK) in
   let! (b, buf') := extract_only_ack_ack buf ([xb5; xb5; x62; x62; x38] ++ FULL_ACK_ACK_PACK) in
   Ret (a, empty buf, b, empty buf')) =
  Ret ([ack61], true, [ack61], true).
Proof. vm_compute. reflexivity. Qed.

(** 140-196: the frame of [nav5_builder] is parsed, and its getters.  [near x y m e] is [(x - y).abs() < m * 10^e] in the type of the
    field, where [static_hold_thresh] is compared without [abs]. *)
Definition less (x y : spec_float) : bool := SFltb x y.
Definition minus (t : fty) (x y : spec_float) : spec_float := SFsub (fprec t) (femax t) x y.
Definition near (t : fty) (x : res spec_float) (y bound : spec_float) : bool :=
  match x with Ret x => less (SFabs (minus t x y)) bound | _ => false end.
Notation Nav5 name := (g_val (the_getter p_cfg_nav5 name)) (only parsing).
Definition nav5_payload : list byte := Eval vm_compute in takeN 36 (dropN 6 nav5_bytes).
Definition name_payload (r : result packet_ref) : option (string * list byte) :=
  match r with Ok (Known p payload) => Some (p_name p, payload) | _ => None end.
Example test_parse_cfg_nav5_found :
  (let! (es, _) := feed vec_ops library_packet library_max [] nav5_bytes in Ret (map name_payload es)) =
  Ret [Some ("CfgNav5"%string, nav5_payload)].
Proof. vm_compute. reflexivity. Qed.
Example test_parse_cfg_nav5_words :
  Nav5 "mask" nav5_payload = Ret 1 /\
  Nav5 "dyn_model" nav5_payload = Ret ("AirborneWithLess1gAcceleration"%string, 6) /\
  Nav5 "fix_mode" nav5_payload = Ret ("Only3D"%string, 2) /\
  Nav5 "min_elev_degrees" nav5_payload = Ret 17%Z /\
  Nav5 "pacc" nav5_payload = Ret 17%Z /\
  Nav5 "tacc" nav5_payload = Ret 17%Z /\
  Nav5 "dgps_time_out" nav5_payload = Ret 17%Z /\
  Nav5 "cno_thresh_num_svs" nav5_payload = Ret 17%Z /\
  Nav5 "cno_thresh" nav5_payload = Ret 17%Z /\
  Nav5 "static_hold_max_dist" nav5_payload = Ret 5911%Z /\
  Nav5 "utc_standard" nav5_payload = Ret ("UtcChina"%string, 7) /\
  g_raw (the_getter p_cfg_nav5 "fixed_alt") nav5_payload = Ret 10017%Z.
Proof. repeat split; vm_compute; reflexivity. Qed.
Example test_parse_cfg_nav5_floats :
  near FTy64 (Nav5 "fixed_alt" nav5_payload) (lit FTy64 10017 (-2)) (lit FTy64 1 (-2)) = true /\
  near FTy64 (Nav5 "fixed_alt_var" nav5_payload) (lit FTy64 17 (-4)) (lit FTy64 1 (-4)) = true /\
  near FTy32 (Nav5 "pdop" nav5_payload) (lit FTy32 17 (-1)) (lit FTy32 1 (-1)) = true /\
  near FTy32 (Nav5 "tdop" nav5_payload) (lit FTy32 17 (-1)) (lit FTy32 1 (-1)) = true /\
  (let! x := Nav5 "static_hold_thresh" nav5_payload in Ret (less (minus FTy32 x (lit FTy32 217 (-2))) (lit FTy32 1 (-2)))) = Ret true.
Proof. repeat split; vm_compute; reflexivity. Qed.

(** 259-271 *)
Example test_zero_sized_ackack :
  ret_map fst (ask vec_ops [] [xb5; x62; x05; x01; x00; x00; x06; x17] 2) = Ret [Some (Ok "Unknown"%string); None].
Proof. vm_compute. reflexivity. Qed.

(** 273-323: every [consume(&[*byte])] drops its iterator unasked *)
Definition unasked (buf : flb) (b : byte) : res flb := ret_map snd (ask flb_ops buf [b] 0).
Example test_double_start_at_end :
  (let! buf := fold_left (fun r b => let! buf := r in unasked buf b) [xb5; x62; xb5; x62; x05; x01; x00; x00; x06; x17] (Ret (zeroed 10)) in
   let! (a, buf) := ask flb_ops buf ack_packet 4 in
   let! (b, buf) := ask flb_ops buf ack_packet 2 in
   Ret (map (option_map (fun r => match r with Err _ => None | Ok n => Some n end)) a, b)) =
  Ret ([Some None; Some (Some "Unknown"%string); Some (Some "AckAck"%string); None], [ack; None]).
Proof. vm_compute. reflexivity. Qed.

(** ** tests/generator_test.rs 3-14 *)
Example test_cfg_msg_simple :
  into_packet_bytes p_cfg_msg_single_port (single_port_set_rate_for p_nav_pos_llh 1) =
    Ret [xb5; x62; x06; x01; x03; x00; x01; x02; x01; x0e; x47] /\
  into_packet_bytes p_cfg_msg_single_port (single_port_set_rate_for p_nav_status 1) =
    Ret [xb5; x62; x06; x01; x03; x00; x01; x03; x01; x0f; x49].
Proof. split; vm_compute; reflexivity. Qed.

(** ** ubx_packets/packets.rs 3720-3741 *)
Definition mon_ver_payload : list byte := Eval vm_compute in bytes
  [82; 79; 77; 32; 67; 79; 82; 69; 32; 51; 46; 48; 49; 32; 40; 49; 48; 55; 56; 56; 56; 41; 0;
   0; 0; 0; 0; 0; 0; 0; 48; 48; 48; 56; 48; 48; 48; 48; 0; 0; 70; 87; 86; 69; 82; 61; 83; 80;
   71; 32; 51; 46; 48; 49; 0; 0; 0; 0; 0; 0; 0; 0; 0; 0; 0; 0; 0; 0; 0; 0; 80; 82; 79; 84; 86;
   69; 82; 61; 49; 56; 46; 48; 48; 0; 0; 0; 0; 0; 0; 0; 0; 0; 0; 0; 0; 0; 0; 0; 0; 0; 71; 80;
   83; 59; 71; 76; 79; 59; 71; 65; 76; 59; 66; 68; 83; 0; 0; 0; 0; 0; 0; 0; 0; 0; 0; 0; 0; 0;
   0; 0; 83; 66; 65; 83; 59; 73; 77; 69; 83; 59; 81; 90; 83; 83; 0; 0; 0; 0; 0; 0; 0; 0; 0; 0;
   0; 0; 0; 0; 0; 0].
Definition text (l : list byte) : string := string_of_list_byte l.
Fixpoint next_texts (k : nat) (it : offset_iter) : res (list (option string)) :=
  match k with
  | O => Ret []
  | S k' =>
      let! r := mon_ver_ext_next it in
      match r with
      | None => let! l := next_texts k' it in Ret (None :: l)
      | Some (s, it') => let! l := next_texts k' it' in Ret (Some (text s) :: l)
      end
  end.
Example test_mon_ver_interpret :
  validate p_mon_ver mon_ver_payload = Ret (Ok tt) /\
  ret_map text (g_val (the_getter p_mon_ver "software_version") mon_ver_payload) = Ret "ROM CORE 3.01 (107888)"%string /\
  ret_map text (g_val (the_getter p_mon_ver "hardware_version") mon_ver_payload) = Ret "00080000"%string /\
  (let! it := g_val (the_getter p_mon_ver "extension") mon_ver_payload in next_texts 5 it) =
    Ret [Some "FWVER=SPG 3.01"; Some "PROTVER=18.00"; Some "GPS;GLO;GAL;BDS"; Some "SBAS;IMES;QZSS"; None]%string.
Proof. repeat split; vm_compute; reflexivity. Qed.
