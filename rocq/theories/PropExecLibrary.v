(** * C80: the guarantees of the library, about its text

    The theorems of PropLibrary.v, PropDispatch.v and PropCfg.v are about the model; C77 and C79 prove that the text of
    parser.rs, ubx_packets.rs and cfg_val.rs, executed, is the model.  Here the central guarantees are stated about the execution
    of the text.  The packet a frame is delivered as is chosen by the generated [match_packet] (C28, C70). *)
From Coq Require Import String List NArith ZArith Bool Lia.
From Verif Require Import Base Buffers DualBuffer Parser Checksum PackDesc GenRecv GenSend Dispatch TablePackets CfgVal TableCfg
  Tokens Lang Exec SourceParser SourceUbx SpecExec SpecExecPackets SpecExecCfg SpecBuffer SpecFrame SpecParser SpecPacket
  SpecDispatch SpecCfg ProofSend PropParser PropFixed PropDispatch PropLibrary PropCfg PropExec PropExecCfg.
Import ListNotations.
Open Scope N_scope.
Open Scope list_scope.

(** Executing parser.rs: a program which creates a parser on the buffer [t], feeds it the chunks [cs] and asks each iterator
    until it answers [None] gets the answers [rs] and is left with the parser [v] (whatever the bounds of the interpreter, from
    some bounds on) *)
Definition text_answers {T} (ops : buf_ops T) (t : T) (cs : list (list byte)) rs v : Prop :=
  exists n0, forall n depth, (n0 <= n)%nat -> (4 <= depth)%nat ->
    user_program (text_call ops (match_packet recv_table) (parser_max_payload_len recv_table) parser_rs n depth) n t cs =
      Some (Ret (rs, v)).

(** The same for a program which asks each iterator the given number of times; one list of answers for each chunk *)
Definition text_history {T} (ops : buf_ops T) (t : T) (h : list (list byte * nat)) answers v : Prop :=
  exists n0, forall n depth, (n0 <= n)%nat -> (4 <= depth)%nat ->
    user_history (text_call ops (match_packet recv_table) (parser_max_payload_len recv_table) parser_rs n depth) (parser_v t) h =
      Some (Ret (answers, v)).

Lemma answers_of {T} (ops : buf_ops T) t cs rs t' :
  feed_all ops (match_packet recv_table) (parser_max_payload_len recv_table) t cs = Ret (rs, t') ->
  text_answers ops t cs (map (result_v VPack) rs) (parser_v t').
Proof.
  unfold text_answers. generalize (match_packet recv_table) as mp, (parser_max_payload_len recv_table) as mx. intros mp mx E.
  destruct (text_drained_histories _ _ ops mp mx t cs) as [n0 H]; [rewrite E; discriminate|]. rewrite E in H.
  exists n0. exact H.
Qed.
Lemma history_of {T} (ops : buf_ops T) t h a t' :
  run_history ops (match_packet recv_table) (parser_max_payload_len recv_table) t h = Ret (a, t') ->
  text_history ops t h (map (map (option_v (result_v VPack))) a) (parser_v t').
Proof.
  unfold text_history. generalize (match_packet recv_table) as mp, (parser_max_payload_len recv_table) as mx. intros mp mx E.
  destruct (text_histories _ _ ops mp mx t h) as [n0 H]; [rewrite E; discriminate|]. rewrite E in H.
  exists n0. exact H.
Qed.
#[local] Opaque text_answers text_history.

(** ** Receiving *)

(** C01: how the stream is cut does not matter *)
Theorem text_chunking_independent :
  forall cs1 cs2, PropDispatch.fit cs1 -> PropDispatch.fit cs2 -> concat cs1 = concat cs2 ->
    exists rs v, text_answers vec_ops [] cs1 rs v /\ text_answers vec_ops [] cs2 rs v.
Proof.
  intros cs1 cs2 H1 H2 E. destruct (library_chunking_independent cs1 cs2 H1 H2 E) as (rs & t & E1 & E2).
  eexists _, _. split; [exact (answers_of _ _ _ _ _ E1)|exact (answers_of _ _ _ _ _ E2)].
Qed.
(** One frame, whole and cut in two *)
Example text_chunking_ex :
  exists rs v, text_answers vec_ops [] [frame x05 x01 [x06; x08]] rs v /\
    text_answers vec_ops [] [[xb5; x62; x05]; [x01; x02; x00; x06; x08; x16; x3f]] rs v.
Proof.
  apply text_chunking_independent; [| |reflexivity]; unfold PropDispatch.fit;
    repeat (apply Forall_cons; [vm_compute; discriminate|]); constructor.
Qed.

(** C03, C30: a stream of frames is delivered frame by frame, and the buffer is empty afterwards *)
Theorem text_frames_delivered :
  forall frames cs, Forall (fun x => lenN (snd x) <= 8176) frames -> PropDispatch.fit cs ->
    concat cs = concat (map (fun x => match x with (c, i, p) => frame c i p end) frames) ->
    exists packets,
      text_answers vec_ops [] cs (map (fun r => vctor "Ok" (VPack r)) packets) (parser_v []) /\
      Forall2 (fun x r => match x with (c, i, p) => delivers recv_table c i p r end) frames packets.
Proof.
  intros frames cs Hf Hc E. destruct (every_frame_is_delivered frames cs Hf Hc E) as (packets & E1 & D).
  exists packets. split; [|exact D]. pose proof (answers_of _ _ _ _ _ E1) as A. rewrite map_map in A. exact A.
Qed.
(** UBX-ACK-ACK, delivered as this packet, and a frame with its class and id but another length, delivered as unknown *)
Example text_frames_delivered_ex :
  text_answers vec_ops [] [frame x05 x01 [x06; x08]; frame x05 x01 [x06]]
    [vctor "Ok" (VPack (Known p_ack_ack [x06; x08])); vctor "Ok" (VPack (Unknown [x06] x05 x01))] (parser_v []).
Proof. exact (answers_of _ _ _ _ _ (proj2 every_frame_is_delivered_ex)). Qed.

(** C11: also with a fixed buffer in which the frames fit *)
Theorem text_fixed_buffer_delivers :
  forall back cs frames, 5 <= lenN back <= 2 ^ 62 -> PropDispatch.fit cs ->
    Forall (fun x => lenN (snd x) <= 8176 /\ lenN (snd x) + 7 <= lenN back) frames ->
    concat cs = concat (map (fun x => match x with (c, i, p) => frame c i p end) frames) ->
    exists packets v,
      text_answers flb_ops (flb_new back) cs (map (fun r => vctor "Ok" (VPack r)) packets) v /\
      Forall2 (fun x r => match x with (c, i, p) => delivers recv_table c i p r end) frames packets.
Proof.
  intros back cs frames Hb Hc Hf E. destruct (library_fixed_buffer_delivers back cs frames Hb Hc Hf E) as (packets & t & E1 & D).
  exists packets. eexists. split; [|exact D]. pose proof (answers_of _ _ _ _ _ E1) as A. rewrite map_map in A. exact A.
Qed.
Example text_fixed_ex :
  exists packets v,
    text_answers flb_ops (flb_new (repeat x00 12)) [frame x05 x01 [x06; x08]] (map (fun r => vctor "Ok" (VPack r)) packets) v /\
    Forall2 (fun x r => match x with (c, i, p) => delivers recv_table c i p r end) [(x05, x01, [x06; x08])] packets.
Proof.
  apply text_fixed_buffer_delivers; [vm_compute; split; discriminate| | |reflexivity].
  - unfold PropDispatch.fit. repeat (apply Forall_cons; [vm_compute; discriminate|]); constructor.
  - repeat constructor; vm_compute; discriminate.
Qed.

(** C02: whatever the iterators are asked, the packets reported are those of frames which are in the stream, one after the
    other *)
Theorem text_frames_are_on_the_wire :
  forall h, lenN (concat (map fst h)) <= isize_max ->
    exists answers v frames,
      text_history vec_ops [] h (map (map (option_v (result_v VPack))) answers) v /\
      woven (concat (map fst h)) frames /\
      Forall2 (fun x r => match x with (c, i, p) => delivers recv_table c i p r end) frames (oks (somes (concat answers))).
Proof.
  intros h Hl. destruct (library_frames_are_on_the_wire h Hl) as (a & t & frames & E & W & D).
  exists a. eexists. exists frames. split; [exact (history_of _ _ _ _ _ E)|]. split; assumption.
Qed.
(** The iterator over the first chunk is dropped without being asked *)
Example text_on_the_wire_ex :
  text_history vec_ops [] [([xb5; x62; x05], 0%nat); ([x01; x02; x00; x06; x08; x16; x3f], 2%nat)]
    [[]; [vctor "Some" (vctor "Ok" (VPack (Known p_ack_ack [x06; x08]))); vnone]] (parser_v []).
Proof.
  exact (history_of vec_ops [] [([xb5; x62; x05], 0%nat); ([x01; x02; x00; x06; x08; x16; x3f], 2%nat)]
           [[]; [Some (Ok (Known p_ack_ack [x06; x08])); None]] [] ltac:(vm_compute; reflexivity)).
Qed.

(** C06: the text never panics, with either buffer *)
Theorem text_never_panics :
  (forall h, lenN (concat (map fst h)) <= isize_max -> exists answers v, text_history vec_ops [] h answers v) /\
  (forall back h, lenN back < 2 ^ 62 -> PropDispatch.fit (map fst h) -> exists answers v, text_history flb_ops (flb_new back) h answers v).
Proof.
  split.
  - intros h Hl. destruct (library_never_panics_vec h Hl) as (a & t & E). eexists _, _. exact (history_of _ _ _ _ _ E).
  - intros back h Hb Hh. destruct (library_never_panics_fixed back h Hb Hh) as (a & t & E). eexists _, _. exact (history_of _ _ _ _ _ E).
Qed.
Example text_never_panics_ex :
  exists answers v, text_history flb_ops (flb_new (repeat x00 6)) [(frame x05 x01 [x06; x08], 1%nat)] answers v.
Proof.
  apply (proj2 text_never_panics); [vm_compute; reflexivity|].
  unfold PropDispatch.fit. repeat (apply Forall_cons; [vm_compute; discriminate|]); constructor.
Qed.

(** ** Sending and receiving *)

(** C25: the request which the text of ubx_packets.rs makes is received by the text of parser.rs as one packet with this class
    and id and no payload *)
Theorem text_request_round_trip :
  forall class id, exists request bytes,
    (forall (T P : Type) (ops : buf_ops T) (mp : byte -> byte -> list byte -> res (result P)) mx n depth, (2 <= depth)%nat ->
       let call := text_call ops mp mx ubx_packets_rs n depth in
       call "UbxPacketRequest" "request_for_unknown" [vu8 class; vu8 id] = Some (Ret (vunit, request T P)) /\
       call "UbxPacketRequest" "into_packet_bytes" [request T P] = Some (Ret (request T P, VBytes bytes)))%string /\
    forall cs, PropDispatch.fit cs -> concat cs = bytes ->
      exists r, text_answers vec_ops [] cs [vctor "Ok" (VPack r)] (parser_v []) /\
        class_and_msg_id r = (class, id) /\ ref_payload r = [].
Proof.
  intros class id.
  exists (fun T P => VAdt ["UbxPacketRequest"] [("req_class", vu8 class); ("req_id", vu8 id)])%string, (frame class id []). split.
  - intros T P ops mp mx n depth Hd call.
    destruct (text_ubx_packets T P ops mp mx n depth Hd) as (_ & _ & _ & _ & _ & H1 & _ & H2). split; [apply H1|apply H2].
  - intros cs Hc E. destruct (poll_request_round_trip class id (frame class id []) cs) as (_ & _ & r & E1 & C & L); try assumption.
    { apply request_bytes_spec. }
    exists r. split; [exact (answers_of _ _ _ _ _ E1)|]. split; assumption.
Qed.
(** UBX-MON-VER polled *)
Example text_request_ex :
  exists r, text_answers vec_ops [] [[xb5; x62; x0a; x04]; [x00; x00; x0e; x34]] [vctor "Ok" (VPack r)] (parser_v []) /\
    class_and_msg_id r = (x0a, x04) /\ ref_payload r = [].
Proof.
  eexists. split; [exact (answers_of vec_ops [] [[xb5; x62; x0a; x04]; [x00; x00; x0e; x34]] [Ok (Unknown [] x0a x04)] []
    ltac:(vm_compute; reflexivity))|]. split; reflexivity.
Qed.

(** C39, C40: what the text of cfg_val.rs writes for a value, it reads back as this value, whatever follows *)
Theorem text_cfg_round_trip :
  forall v, cfg_item_of cfg_table v -> exists bytes,
    (forall buf, cfg_text_buf 2 "CfgVal" "extend_to" [cfg_enum_v v; VBytes buf] =
                 Some (Ret (VBytes (buf ++ bytes), vusize (lenN bytes)))) /\
    (forall buf, lenN bytes <= lenN buf ->
       cfg_text_buf 2 "CfgVal" "write_to" [cfg_enum_v v; VBytes buf] =
       Some (Ret (VBytes (bytes ++ dropN (lenN bytes) buf), vusize (lenN bytes)))) /\
    (forall buf, lenN buf < lenN bytes -> cfg_text_buf 2 "CfgVal" "write_to" [cfg_enum_v v; VBytes buf] = Some Panic) /\
    (forall rest, cfg_text 2 "CfgVal" "parse" [VBytes (bytes ++ rest)] = returns (Ret (cfg_enum_v v))) /\
    cfg_text 2 "CfgVal" "len" [cfg_enum_v v] = gives (cfg_enum_v v) (Ret (vusize (lenN bytes))).
Proof.
  intros v Hv. destruct (cfg_encoding v Hv) as (_ & L & _ & _ & X & W & Wp). assert (I : In (cv_item v) cfg_table) by apply Hv.
  exists (cfg_wire v). conjs; intros.
  - rewrite text_cfg_extend, X by assumption. cbn [fst snd]. now rewrite L.
  - rewrite text_cfg_write, W by assumption. cbn [ret_map fst snd]. now rewrite L.
  - rewrite text_cfg_write, Wp by assumption. reflexivity.
  - rewrite text_cfg_parse, cfg_round_trip by assumption. reflexivity.
  - rewrite (proj1 (text_cfg_len v I)), L. reflexivity.
Qed.
Example text_cfg_round_trip_ex :
  cfg_item_of cfg_table baudrate_9600 /\ cfg_wire baudrate_9600 = [x01; x00; x52; x40; x80; x25; x00; x00] /\
  cfg_text 2 "CfgVal" "parse" [VBytes [x01; x00; x52; x40; x80; x25; x00; x00; xff]] = Some (Ret (vunit, cfg_enum_v baudrate_9600)).
Proof.
  split; [split; [exact baudrate_in|vm_compute; auto]|]. split; [vm_compute; reflexivity|].
  rewrite text_cfg_parse. vm_compute. reflexivity.
Qed.

Print Assumptions text_chunking_independent.
Print Assumptions text_frames_delivered.
Print Assumptions text_fixed_buffer_delivers.
Print Assumptions text_frames_are_on_the_wire.
Print Assumptions text_never_panics.
Print Assumptions text_request_round_trip.
Print Assumptions text_cfg_round_trip.
