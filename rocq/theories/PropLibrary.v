(** * The properties of the parser, for the parser of the library (C01-C07, C09-C15, C17, C57)

    The theorems of PropParser.v and PropFixed.v hold for every dispatch function.  Here is the one which
    [define_recv_packets!] generates, and what they say about it. *)
From Coq Require Import String List NArith ZArith Bool Lia ZifyBool ZifyNat ZifyN.
From Verif Require Import Base BaseFacts Buffers Checksum DualBuffer Parser PackDesc GenRecv GenSend Dispatch TableTypes TablePackets
  SpecBuffer SpecFrame SpecParser SpecPacket SpecDispatch ProofBuffers ProofDispatch PropParser PropFixed PropPackets PropDispatch.
Import ListNotations.
Open Scope N_scope.
Open Scope list_scope.

(** The calls on a parser of the library: chunks, each with the number of [next] calls before the iterator is dropped *)
Definition library_history {T} (ops : buf_ops T) (parser : T) (h : list (list byte * nat)) :=
  run_history ops (match_packet recv_table) (parser_max_payload_len recv_table) parser h.
(** The same with every iterator drained *)
Definition library_feed_all {T} (ops : buf_ops T) (parser : T) (cs : list (list byte)) :=
  feed_all ops (match_packet recv_table) (parser_max_payload_len recv_table) parser cs.

(** The hypothesis [dispatches] of the general theorems holds for the library, with the packet that [delivers] describes. *)
Theorem library_dispatches :
  exists packet,
    (forall c i p, lenN p <= 65535 -> delivers recv_table c i p (packet c i p)) /\
    dispatches (match_packet recv_table) (parser_max_payload_len recv_table) packet /\
    parser_max_payload_len recv_table = 8176.
Proof.
  exists packet_of. split; [intros; now apply packet_of_delivers|]. split; [|exact recv_max].
  rewrite recv_max. exact recv_dispatches.
Qed.

(** C01 *)
Theorem library_chunking_independent :
  forall cs1 cs2, fit cs1 -> fit cs2 -> concat cs1 = concat cs2 ->
    exists results retained, parse_chunks cs1 = Ret (results, retained) /\ parse_chunks cs2 = Ret (results, retained).
Proof.
  intros cs1 cs2 H1 H2 E. unfold parse_chunks. rewrite recv_max.
  exact (chunking_independent _ _ 8176 _ cs1 cs2 ltac:(lia) recv_dispatches (fit_chunks _ H1) (fit_chunks _ H2) E).
Qed.

(** C02: whatever is done with the iterators, the packets reported are those of frames of the stream *)
Theorem library_frames_are_on_the_wire :
  forall h, lenN (concat (map fst h)) <= isize_max ->
    exists answers retained frames,
      library_history vec_ops [] h = Ret (answers, retained) /\
      woven (concat (map fst h)) frames /\
      Forall2 (fun x r => match x with (c, i, p) => delivers recv_table c i p r end) frames (oks (somes (concat answers))).
Proof.
  intros h Hl. unfold library_history. rewrite recv_max.
  destruct (frames_are_on_the_wire _ _ 8176 _ h ltac:(lia) recv_dispatches Hl) as (a & t & frames & E & W & F & O).
  exists a, t, frames. split; [exact E|]. split; [exact W|]. rewrite O. clear - F.
  induction F as [|((c & i) & p) l Hp F IH]; cbn [map]; constructor; [|exact IH].
  cbn in Hp. apply packet_of_delivers. lia.
Qed.

(** C04: a frame behind bytes without B5 is the first packet, the rest is that of the stream behind it *)
Theorem library_resynchronises :
  forall cs garbage c i p rest, fit cs -> fit [rest] ->
    concat cs = garbage ++ frame c i p ++ rest -> ~ In xb5 garbage -> lenN p <= 8176 ->
    exists r results retained,
      delivers recv_table c i p r /\
      parse_chunks cs = Ret (Ok r :: results, retained) /\ parse_chunks [rest] = Ret (results, retained).
Proof.
  intros cs g c i p rest H1 H2 E Hg Hp. unfold parse_chunks. rewrite recv_max.
  destruct (resynchronisation_clean_prefix _ _ 8176 _ cs g c i p rest ltac:(lia) recv_dispatches
    (fit_chunks _ H1) (fit_chunks _ H2) E Hg Hp) as (rs & t & E1 & E2).
  exists (packet_of c i p), rs, t. split; [apply packet_of_delivers; lia|]. split; assumption.
Qed.

(** C06: no history panics, over [Vec<u8>] or over a fixed buffer of any size *)
Theorem library_never_panics_vec :
  forall h, lenN (concat (map fst h)) <= isize_max -> exists answers parser, library_history vec_ops [] h = Ret (answers, parser).
Proof.
  intros h Hl. unfold library_history. rewrite recv_max.
  exact (parser_never_panics_vec _ _ 8176 _ h ltac:(lia) recv_dispatches Hl).
Qed.
Theorem library_never_panics_fixed :
  forall back h, lenN back < 2 ^ 62 -> fit (map fst h) ->
    exists answers parser, library_history flb_ops (flb_new back) h = Ret (answers, parser).
Proof.
  intros back h Hb Hh. unfold library_history. rewrite recv_max.
  apply (parser_never_panics_fixed _ _ 8176 _ back h ltac:(lia) recv_dispatches).
  - intros c k Hc. unfold fit in Hh. rewrite Forall_forall in Hh.
    specialize (Hh c (in_map fst _ _ Hc)). unfold isize_max. change (2 ^ 62) with 4611686018427387904 in *. lia.
  - unfold isize_max. change (2 ^ 62) with 4611686018427387904 in *. lia.
Qed.

(** C09: after draining at most 8183 bytes are held *)
Theorem library_retains_little :
  forall cs, fit cs -> exists results retained, parse_chunks cs = Ret (results, retained) /\ lenN retained <= 8183 /\ pending 8176 retained.
Proof.
  intros cs Hc. unfold parse_chunks. rewrite recv_max.
  exact (retained_bounded _ _ 8176 _ cs ltac:(lia) recv_dispatches (fit_chunks _ Hc)).
Qed.

(** C10 *)
Theorem library_large_fixed_buffer_is_vec :
  forall back cs, 8183 <= lenN back <= 2 ^ 62 -> fit cs ->
    exists results vec fixed,
      parse_chunks cs = Ret (results, vec) /\ library_feed_all flb_ops (flb_new back) cs = Ret (results, fixed) /\
      buffer_len vec_ops vec = buffer_len flb_ops fixed /\ flb_contents fixed = vec.
Proof.
  intros back cs Hb Hc. unfold parse_chunks, library_feed_all. rewrite recv_max.
  apply (large_fixed_buffer_is_vec _ _ 8176 _ back cs ltac:(lia) recv_dispatches); [|apply fit_chunks; exact Hc].
  unfold isize_max. change (2 ^ 62) with 4611686018427387904 in *. lia.
Qed.

(** C11: frames of at most one byte more than the buffer are all delivered *)
Theorem library_fixed_buffer_delivers :
  forall back cs frames, 5 <= lenN back <= 2 ^ 62 -> fit cs ->
    Forall (fun x => lenN (snd x) <= 8176 /\ lenN (snd x) + 7 <= lenN back) frames ->
    concat cs = concat (map (fun x => match x with (c, i, p) => frame c i p end) frames) ->
    exists packets parser,
      library_feed_all flb_ops (flb_new back) cs = Ret (map Ok packets, parser) /\
      Forall2 (fun x r => match x with (c, i, p) => delivers recv_table c i p r end) frames packets.
Proof.
  intros back cs frames Hb Hc Hf E. unfold library_feed_all. rewrite recv_max.
  assert (Hb2 : lenN back <= isize_max) by (unfold isize_max; change (2 ^ 62) with 4611686018427387904 in *; lia).
  destruct (frames_that_fit_are_delivered _ flb_ops (lenN back) (flb_inv (lenN back)) flb_contents _ (match_packet recv_table) 8176
    packet_of (flb_lawful _)) with (parser := flb_new back) (cs := cs)
    (pieces := map (fun x => (@nil byte, x)) frames) (tail := @nil byte) as (parser & E1 & _).
  - unfold usize_max, isize_max in *. lia.
  - lia.
  - exact recv_dispatches.
  - lia.
  - now apply flb_new_inv.
  - apply flb_new_contents.
  - apply fit_chunks. exact Hc.
  - apply Forall_map. eapply Forall_impl; [|exact Hf]. cbn [fst snd]. intros x [A B]. split; [|auto].
    intros a b Ea. destruct a; discriminate.
  - intros a b Ea. destruct a; discriminate.
  - rewrite E. unfold interleave. rewrite app_nil_r, map_map. f_equal.
  - exists (map (fun x => match x with (c, i, p) => packet_of c i p end) frames), parser. split.
    + rewrite E1. f_equal. f_equal. rewrite !map_map. apply map_ext. intros ((c & i) & p). reflexivity.
    + clear - Hf. induction Hf as [|((c & i) & p) l [Hp _] Hf IH]; cbn [map]; constructor; [|exact IH].
      apply packet_of_delivers. cbn in Hp. lia.
Qed.

Lemma llh_buffer back : 35 <= lenN back <= 2 ^ 62 ->
  forall cs payloads, fit cs -> Forall (fun p => lenN p = 28) payloads ->
    concat cs = concat (map (frame x01 x02) payloads) ->
    exists parser,
      library_feed_all flb_ops (flb_new back) cs = Ret (map (fun p => Ok (Known p_nav_pos_llh p)) payloads, parser).
Proof.
  intros Hb cs payloads Hc Hp E.
  destruct (library_fixed_buffer_delivers back cs (map (fun p => (x01, x02, p)) payloads)) as (packets & parser & E1 & F).
  - lia.
  - exact Hc.
  - apply Forall_map. eapply Forall_impl; [|exact Hp]. cbn [snd]. intros p ->. lia.
  - rewrite E, map_map. reflexivity.
  - exists parser. rewrite E1. f_equal. f_equal. clear E E1. revert packets F.
    induction Hp as [|p l Hp HF IH]; intros packets F; inversion F as [|x r ? ps D F']; subst; [reflexivity|].
    cbn [map]. rewrite (IH _ F'). f_equal. f_equal.
    apply (delivers_exact x01 x02 p p_nav_pos_llh r); [unfold recv_table; in_list|discriminate|exact D|].
    split; [reflexivity|]. split; [reflexivity|]. apply no_checks_accept; [unfold p_nav_pos_llh; cbn [p_fields]; no_checks|].
    exact Hp.
Qed.

(** The documented smallest buffer ("36 bytes, large enough to contain a NavPosLlh packet"): position messages are all
    delivered as such. *)
Theorem documented_buffer_size :
  forall cs payloads, fit cs -> Forall (fun p => lenN p = 28) payloads ->
    concat cs = concat (map (frame x01 x02) payloads) ->
    exists parser,
      library_feed_all flb_ops (flb_new (backing 36)) cs = Ret (map (fun p => Ok (Known p_nav_pos_llh p)) payloads, parser).
Proof. intros cs payloads. apply llh_buffer. change (lenN (backing 36)) with 36. change (2 ^ 62) with 4611686018427387904. lia. Qed.
Example documented_buffer_size_ex :
  let payload := repeat x07 (N.to_nat 28) in
  let cs := [takeN 30 (frame x01 x02 payload); dropN 30 (frame x01 x02 payload) ++ frame x01 x02 payload] in
  fit cs /\ Forall (fun p => lenN p = 28) [payload; payload] /\ concat cs = concat (map (frame x01 x02) [payload; payload]).
Proof.
  split; [repeat (apply Forall_cons; [vm_compute; discriminate|]); constructor|].
  split; [repeat (apply Forall_cons; [reflexivity|]); constructor|vm_compute; reflexivity].
Qed.
(** One byte less is enough as well; with two bytes less such packets are refused as soon as the buffer is full. *)
Theorem documented_buffer_size_minus_one :
  forall cs payloads, fit cs -> Forall (fun p => lenN p = 28) payloads ->
    concat cs = concat (map (frame x01 x02) payloads) ->
    exists parser,
      library_feed_all flb_ops (flb_new (backing 35)) cs = Ret (map (fun p => Ok (Known p_nav_pos_llh p)) payloads, parser).
Proof. intros cs payloads. apply llh_buffer. change (lenN (backing 35)) with 35. change (2 ^ 62) with 4611686018427387904. lia. Qed.
Theorem documented_buffer_size_minus_two_refused :
  forall payload, lenN payload = 28 ->
    exists results parser,
      feed flb_ops (match_packet recv_table) (parser_max_payload_len recv_table) (flb_new (backing 34))
        (takeN 35 (frame x01 x02 payload)) = Ret (Err (OutOfMemory 30) :: results, parser).
Proof.
  intros payload Hp. rewrite recv_max.
  destruct (frames_that_do_not_fit_are_refused _ flb_ops 34 (flb_inv 34) flb_contents _ (match_packet recv_table) 8176
    packet_of (flb_lawful _)) with (parser := flb_new (backing 34)) (c := x01) (i := x02) (p := payload) as (rs & t & E);
    rewrite ?Hp in *; try lia.
  - unfold isize_max. lia.
  - exact recv_dispatches.
  - apply (flb_new_inv (backing 34)). change (lenN (backing 34)) with 34. unfold isize_max. lia.
  - reflexivity.
  - exists rs, t. exact E.
Qed.

(** C13 and C15: what is held after draining is the end of the stream that no result accounts for *)
Theorem library_no_byte_lost :
  forall back cs, 5 <= lenN back <= 2 ^ 62 -> fit cs ->
    exists events done parser packet,
      (forall c i p, lenN p <= 65535 -> delivers recv_table c i p (packet c i p)) /\
      library_feed_all flb_ops (flb_new back) cs = Ret (map (outcome packet) events, parser) /\
      concat cs = done ++ flb_contents parser /\
      trace (lenN back) 8176 (concat cs) events (flb_contents parser) /\ pending 8176 (flb_contents parser).
Proof.
  intros back cs Hb Hc. unfold library_feed_all. rewrite recv_max.
  assert (Hb2 : lenN back <= isize_max) by (unfold isize_max; change (2 ^ 62) with 4611686018427387904 in *; lia).
  destruct (no_byte_lost _ flb_ops (lenN back) (flb_inv (lenN back)) flb_contents _ (match_packet recv_table) 8176
    packet_of (flb_lawful _)) with (parser := flb_new back) (cs := cs) as (events & done & parser & E & H).
  - unfold usize_max, isize_max in *. lia.
  - lia.
  - exact recv_dispatches.
  - lia.
  - now apply flb_new_inv.
  - apply flb_new_contents.
  - apply fit_chunks. exact Hc.
  - exists events, done, parser, packet_of. split; [intros; now apply packet_of_delivers|]. auto.
Qed.

(** C14 *)
Theorem library_early_drop_loses_nothing :
  forall h last, lenN (concat (map fst h)) + lenN last <= 2 ^ 62 ->
    exists answers parser results retained,
      library_history vec_ops [] h = Ret (answers, parser) /\
      feed vec_ops (match_packet recv_table) (parser_max_payload_len recv_table) parser last = Ret (results, retained) /\
      parse_chunks (map fst h ++ [last]) = Ret (somes (concat answers) ++ results, retained).
Proof.
  intros h last Hl. unfold library_history, parse_chunks. rewrite recv_max.
  apply (early_drop_loses_nothing _ _ 8176 _ h last ltac:(lia) recv_dispatches).
  unfold isize_max. change (2 ^ 62) with 4611686018427387904 in *. lia.
Qed.
Example library_early_drop_ex :
  library_history vec_ops [] [(frame x05 x01 [x06; x08] ++ frame x05 x00 [x06; x08], 1%nat); ([], 2%nat)] =
    Ret ([[Some (Ok (Known p_ack_ack [x06; x08]))]; [Some (Ok (Known p_ack_nak [x06; x08])); None]], []).
Proof. vm_compute. reflexivity. Qed.

Print Assumptions library_dispatches.
Print Assumptions library_chunking_independent.
Print Assumptions library_frames_are_on_the_wire.
Print Assumptions library_resynchronises.
Print Assumptions library_never_panics_vec.
Print Assumptions library_never_panics_fixed.
Print Assumptions library_retains_little.
Print Assumptions library_large_fixed_buffer_is_vec.
Print Assumptions library_fixed_buffer_delivers.
Print Assumptions documented_buffer_size.
Print Assumptions documented_buffer_size_minus_one.
Print Assumptions documented_buffer_size_minus_two_refused.
Print Assumptions library_no_byte_lost.
Print Assumptions library_early_drop_loses_nothing.
