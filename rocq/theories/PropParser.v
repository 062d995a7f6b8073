(** * Properties of the streaming parser over [Vec<u8>] (C01-C05, C07-C09, C14, C15, C57) *)
From Coq Require Import List NArith ZArith Bool Lia ZifyBool ZifyNat ZifyN.
From Verif Require Import Base BaseFacts Checksum Buffers DualBuffer Parser SpecBuffer SpecFrame SpecParser
  ProofScan ProofSim ProofParser ProofFeed ProofBuffers ProofStream ProofTrace ProofSmall ProofTop ProofMore.
Import ListNotations.
Open Scope N_scope.

(** A dispatch function for the examples: the packet is the triple itself *)
Definition raw_mp (c i : byte) (p : list byte) : res (result (byte * byte * list byte)) := Ret (Ok (c, i, p)).
Example raw_mp_dispatches : dispatches raw_mp 8176 (fun c i p => (c, i, p)).
Proof. intros c i p _. reflexivity. Qed.

Example ex_f1 : list byte := frame x05 x01 [x06; x08].
Example ex_f2 : list byte := frame x01 x07 [].

(** ** C01 *)

(** Two ways of cutting the same stream give the same results and the same retained bytes. *)
Theorem chunking_independent :
  forall (P : Type) (mp : byte -> byte -> list byte -> res (result P)) mx f cs1 cs2,
    mx <= 65535 -> dispatches mp mx f -> chunks_fit mx cs1 -> chunks_fit mx cs2 ->
    concat cs1 = concat cs2 ->
    exists results retained,
      feed_all vec_ops mp mx [] cs1 = Ret (results, retained) /\
      feed_all vec_ops mp mx [] cs2 = Ret (results, retained).
Proof.
  intros P mp mx f cs1 cs2 Hm Hf H1 H2 E. eexists _, _.
  rewrite (vec_feed_all mp mx f Hm Hf cs1 H1), (vec_feed_all mp mx f Hm Hf cs2 H2), E. split; reflexivity.
Qed.
Example chunking_independent_ex :
  chunks_fit 8176 [ex_f1 ++ [xb5]; [x62]; [x01; x07; x00; x00; x08; x19]] /\
  chunks_fit 8176 (map (fun b => [b]) (ex_f1 ++ ex_f2)) /\
  concat [ex_f1 ++ [xb5]; [x62]; [x01; x07; x00; x00; x08; x19]] = concat (map (fun b => [b]) (ex_f1 ++ ex_f2)) /\
  feed_all vec_ops raw_mp 8176 [] (map (fun b => [b]) (ex_f1 ++ ex_f2)) =
    Ret ([Ok (x05, x01, [x06; x08]); Ok (x01, x07, [])], []).
Proof.
  unfold chunks_fit. split; [|split; [|split; vm_compute; reflexivity]].
  - intros c H. cbn in H. repeat (destruct H as [<-|H]; [vm_compute; discriminate|]). destruct H.
  - intros c H. apply in_map_iff in H. destruct H as (b & <- & _). vm_compute. discriminate.
Qed.

(** The whole behaviour of the parser on drained histories in one equation: it is the reference
    scanner of SpecFrame.v run on the concatenation. *)
Theorem parser_is_scanner :
  forall (P : Type) (mp : byte -> byte -> list byte -> res (result P)) mx f cs,
    mx <= 65535 -> dispatches mp mx f -> chunks_fit mx cs ->
    feed_all vec_ops mp mx [] cs =
      Ret (map (outcome f) (fst (scan mx (concat cs))), snd (scan mx (concat cs))).
Proof. intros P mp mx f cs Hm Hf Hc. exact (vec_feed_all mp mx f Hm Hf cs Hc). Qed.

(** ** C02 *)

(** Any history (iterators may be dropped at any time): the packets reported are the packets made from
    frames which occur in the stream in this order, contiguously and without overlap. *)
Theorem frames_are_on_the_wire :
  forall (P : Type) (mp : byte -> byte -> list byte -> res (result P)) mx f h,
    mx <= 65535 -> dispatches mp mx f -> lenN (concat (map fst h)) <= isize_max ->
    exists answers retained frames,
      run_history vec_ops mp mx [] h = Ret (answers, retained) /\
      woven (concat (map fst h)) frames /\
      Forall (fun x => lenN (snd x) <= mx) frames /\
      oks (somes (concat answers)) = map (fun x => match x with (c, i, p) => f c i p end) frames.
Proof.
  intros P mp mx f h Hm Hf Hl.
  destruct (vec_history mp mx f Hm Hf h Hl) as (rss & es & t & E & Es & Ht & _).
  exists rss, t, (frames_of es). destruct (trace_woven _ _ _ _ _ Ht) as [H1 H2].
  split; [assumption|]. split; [assumption|]. split; [assumption|]. rewrite Es. apply oks_outcome.
Qed.
Example frames_are_on_the_wire_ex :
  let h := [([x00; xb5] ++ ex_f1 ++ [xb5; x63], 1%nat); (ex_f2 ++ [x11], 0%nat); ([], 5%nat)] in
  lenN (concat (map fst h)) <= isize_max /\
  match run_history vec_ops raw_mp 8176 [] h with
  | Ret (answers, _) => oks (somes (concat answers)) = [(x05, x01, [x06; x08]); (x01, x07, [])]
  | _ => False
  end.
Proof. split; [vm_compute; discriminate|vm_compute; reflexivity]. Qed.

(** ** C03 and C57 *)

(** A stream that is a concatenation of frames yields exactly those frames, nothing is left. *)
Theorem clean_stream_complete :
  forall (P : Type) (mp : byte -> byte -> list byte -> res (result P)) mx f frames cs,
    mx <= 65535 -> dispatches mp mx f -> chunks_fit mx cs ->
    Forall (fun x => lenN (snd x) <= mx) frames ->
    concat cs = concat (map (fun x => match x with (c, i, p) => frame c i p end) frames) ->
    feed_all vec_ops mp mx [] cs =
      Ret (map (fun x => match x with (c, i, p) => Ok (f c i p) end) frames, []).
Proof.
  intros P mp mx f fs cs Hm Hf Hc Hp E.
  rewrite (vec_feed_all mp mx f Hm Hf cs Hc), E, <- interleave_no_gaps.
  destruct (interleave_scan mx (map (fun x => ([], x)) fs) [] Hm) as (H1 & _ & H3).
  - apply Forall_forall. intros x Hx. apply in_map_iff in Hx. destruct Hx as (y & <- & Hy).
    split; [apply no_sync_pair_nil|]. rewrite Forall_forall in Hp. now apply Hp.
  - apply no_sync_pair_nil.
  - rewrite H1, H3, map_outcome_frame_ev by auto. rewrite map_map. do 2 f_equal.
Qed.
Example clean_stream_complete_ex :
  Forall (fun x : byte * byte * list byte => lenN (snd x) <= 8176) [(x05, x01, [x06; x08]); (x01, x07, [])] /\
  concat [ex_f1 ++ [xb5]; [x62]; [x01; x07; x00; x00; x08; x19]] =
    concat (map (fun x => match x with (c, i, p) => frame c i p end) [(x05, x01, [x06; x08]); (x01, x07, [])]).
Proof. split; [repeat constructor; vm_compute; discriminate|vm_compute; reflexivity]. Qed.

(** Frames interleaved with other bytes which do not contain the pair B5 62 (for example NMEA text):
    exactly the frames are reported; if the bytes behind the last frame contain no B5 nothing
    is retained, and otherwise at most a last single byte B5. *)
Theorem interleaved_stream_complete :
  forall (P : Type) (mp : byte -> byte -> list byte -> res (result P)) mx f pieces tail cs,
    mx <= 65535 -> dispatches mp mx f -> chunks_fit mx cs ->
    Forall (fun x => no_sync_pair (fst x) /\ lenN (snd (snd x)) <= mx) pieces ->
    no_sync_pair tail ->
    concat cs = interleave pieces tail ->
    exists retained,
      feed_all vec_ops mp mx [] cs =
        Ret (map (fun x => match x with (_, (c, i, p)) => Ok (f c i p) end) pieces, retained) /\
      (retained = [] \/ retained = [xb5]) /\ (~ In xb5 tail -> retained = []).
Proof.
  intros P mp mx f l tl cs Hm Hf Hc Hp Ht E. eexists.
  rewrite (vec_feed_all mp mx f Hm Hf cs Hc), E.
  destruct (interleave_scan mx l tl Hm Hp Ht) as (H1 & H2 & H3).
  rewrite H1, map_outcome_frame_ev. split; [reflexivity|]. auto.
Qed.
Example interleaved_stream_complete_ex :
  (* "$GP*\r\n" frame "\xb5 A" frame "\xb5" *)
  let pieces := [([x24; x47; x50; x2a; x0d; x0a], (x05, x01, [x06; x08])); ([xb5; x41], (x01, x07, []))] in
  Forall (fun x : list byte * (byte * byte * list byte) =>
            no_sync_pair (fst x) /\ lenN (snd (snd x)) <= 8176) pieces /\
  no_sync_pair [xb5] /\
  feed_all vec_ops raw_mp 8176 [] [interleave pieces [xb5]] =
    Ret ([Ok (x05, x01, [x06; x08]); Ok (x01, x07, [])], [xb5]).
Proof.
  cbv zeta. split; [|split; [|vm_compute; reflexivity]].
  - repeat (apply Forall_cons; [split; [|vm_compute; discriminate]|]); [| |apply Forall_nil].
    + apply no_sync_pair_no_b5. cbn [fst In]. intros H. repeat (destruct H as [H|H]; [discriminate|]). destruct H.
    + intros a b E. cbn [fst] in E. destruct a as [|? [|? [|? ?]]]; discriminate.
  - intros a b E. destruct a as [|? [|? ?]]; discriminate.
Qed.

(** ** C04 *)

(** A frame of the stream that is followed by enough bytes (as many as the longest payload) is reported at
    its place, unless a reported frame which starts earlier overlaps it.  [trace s es1 r] says that the
    events [es1] account for the stream [s] up to the suffix [r]. *)
Theorem resynchronisation :
  forall (P : Type) (mp : byte -> byte -> list byte -> res (result P)) mx f cs,
    mx <= 65535 -> dispatches mp mx f -> chunks_fit mx cs ->
    exists events retained,
      feed_all vec_ops mp mx [] cs = Ret (map (outcome f) events, retained) /\
      trace usize_max mx (concat cs) events retained /\
      forall garbage c i p rest,
        concat cs = garbage ++ frame c i p ++ rest -> lenN p <= mx -> mx <= lenN rest ->
        (exists before after,
           events = before ++ EFrame c i p :: after /\
           trace usize_max mx (concat cs) before (frame c i p ++ rest) /\
           trace usize_max mx rest after retained) \/
        (exists g1 g2 c' i' p' rest' before after,
           garbage = g1 ++ g2 /\ g2 <> [] /\ lenN g2 < lenN p' + 8 /\
           g2 ++ frame c i p ++ rest = frame c' i' p' ++ rest' /\
           events = before ++ EFrame c' i' p' :: after /\
           trace usize_max mx (concat cs) before (frame c' i' p' ++ rest')).
Proof.
  intros P mp mx f cs Hm Hf Hc.
  destruct (vec_trace mp mx f Hm Hf cs Hc) as (es & t & E & Ht & Hw).
  exists es, t. split; [assumption|]. split; [assumption|].
  intros g c i p r Es Hp Hr. apply decide_wait_bound in Hw.
  destruct (trace_resync _ _ _ _ _ Hm Ht g c i p r Es Hp)
    as [H|[H|[(a1 & a2 & c' & i' & p' & v & es1 & es2 & H1 & H2 & H3 & H4 & H5 & H6 & H7)|(H & _)]]].
  - lia.
  - left. assumption.
  - right. exists a1, a2, c', i', p', v, es1, es2. rewrite H3 in H6. auto 10.
  - unfold usize_max in H. lia.
Qed.

(** With no B5 in front, the frame is reported first, whatever follows it. *)
Theorem resynchronisation_clean_prefix :
  forall (P : Type) (mp : byte -> byte -> list byte -> res (result P)) mx f cs garbage c i p rest,
    mx <= 65535 -> dispatches mp mx f -> chunks_fit mx cs -> chunks_fit mx [rest] ->
    concat cs = garbage ++ frame c i p ++ rest -> ~ In xb5 garbage -> lenN p <= mx ->
    exists results retained,
      feed_all vec_ops mp mx [] cs = Ret (Ok (f c i p) :: results, retained) /\
      feed_all vec_ops mp mx [] [rest] = Ret (results, retained).
Proof.
  intros P mp mx f cs g c i p r Hm Hf Hc Hr E Hg Hp.
  eexists _, _. rewrite (vec_feed_all mp mx f Hm Hf cs Hc).
  rewrite (vec_feed_all mp mx f Hm Hf [r] Hr).
  cbn [concat]. rewrite app_nil_r, E, scan_garbage, scan_frame by assumption. cbn [fst snd map outcome].
  split; reflexivity.
Qed.
Example resynchronisation_ex :
  (* a broken frame, then a good one nested behind its sync bytes *)
  feed_all vec_ops raw_mp 8176 [] [[xb5; x62; x01; x02; x08; x00] ++ ex_f1 ++ ex_f2] =
    Ret ([Err (InvalidChecksum 16150 1848); Ok (x05, x01, [x06; x08]); Ok (x01, x07, [])], []).
Proof. vm_compute. reflexivity. Qed.
Example resynchronisation_hyp_ex :
  exists garbage, concat [[xb5; x62; x01] ++ ex_f1 ++ repeat x00 300] = garbage ++ frame x05 x01 [x06; x08] ++ repeat x00 300
    /\ lenN [x06; x08] <= 300 /\ 300 <= lenN (repeat x00 300).
Proof. exists [xb5; x62; x01]. vm_compute. repeat split; discriminate. Qed.

(** ** C05 *)

(** Every checksum error stands for a complete candidate in the stream with the reported stored and
    computed checksums, which differ, and what is reported behind it is what is found in the stream
    from the third byte of this candidate on. *)
Theorem checksum_errors_justified :
  forall (P : Type) (mp : byte -> byte -> list byte -> res (result P)) mx f cs,
    mx <= 65535 -> dispatches mp mx f -> chunks_fit mx cs ->
    exists events retained,
      feed_all vec_ops mp mx [] cs = Ret (map (outcome f) events, retained) /\
      forall before expect got after, events = before ++ EBad expect got :: after ->
        exists c i l0 l1 p k0 k1 rest,
          trace usize_max mx (concat cs) before ([xb5; x62; c; i; l0; l1] ++ p ++ [k0; k1] ++ rest) /\
          lenN p = le_num [l0; l1] /\
          expect = le_num [k0; k1] /\ got = le_num (fletcher ([c; i; l0; l1] ++ p)) /\ expect <> got /\
          trace usize_max mx ([c; i; l0; l1] ++ p ++ [k0; k1] ++ rest) after retained.
Proof.
  intros P mp mx f cs Hm Hf Hc.
  destruct (vec_trace mp mx f Hm Hf cs Hc) as (es & t & E & Ht & Hw).
  exists es, t. split; [assumption|]. intros es1 x y es2 Es.
  destruct (trace_split_bad _ _ _ _ _ Ht _ _ _ _ Es) as (c & i & l0 & l1 & p & k0 & k1 & r & H1 & H2 & H3 & H4 & H5 & H6 & H7).
  exists c, i, l0, l1, p, k0, k1, r. auto 10.
Qed.

(** A candidate with a wrong checksum is always reported so, with exactly these numbers, and the rest of the
    results are those of the stream without its two sync bytes. *)
Theorem checksum_error_resumes_two_bytes_later :
  forall (P : Type) (mp : byte -> byte -> list byte -> res (result P)) mx f c i l0 l1 p k0 k1 rest,
    mx <= 65535 -> dispatches mp mx f ->
    lenN p = le_num [l0; l1] -> lenN p <= mx -> [k0; k1] <> fletcher ([c; i; l0; l1] ++ p) ->
    lenN ([xb5; x62; c; i; l0; l1] ++ p ++ [k0; k1] ++ rest) + N.max 5 (mx + 7) <= isize_max ->
    exists results retained,
      feed_all vec_ops mp mx [] [[xb5; x62; c; i; l0; l1] ++ p ++ [k0; k1] ++ rest] =
        Ret (Err (InvalidChecksum (le_num [k0; k1]) (le_num (fletcher ([c; i; l0; l1] ++ p)))) :: results, retained) /\
      feed_all vec_ops mp mx [] [[c; i; l0; l1] ++ p ++ [k0; k1] ++ rest] = Ret (results, retained).
Proof.
  intros P mp mx f c i l0 l1 p k0 k1 r Hm Hf Hl Hp Hk Hsz. eexists _, _.
  rewrite !(vec_feed_all mp mx f Hm Hf).
  2:{ intros x [<-|[]]. cbn [app] in *. rewrite !lenN_cons in *. lia. }
  2:{ intros x [<-|[]]. assumption. }
  cbn [concat]. rewrite !app_nil_r.
  pose proof (decide_candidate mx c i l0 l1 p k0 k1 r Hl Hp Hk) as Hd.
  rewrite (scan_step mx ([xb5; x62; c; i; l0; l1] ++ p ++ [k0; k1] ++ r)) by (rewrite Hd; discriminate).
  rewrite Hd. cbn [vevents vskip fst snd map outcome app].
  change (dropN 2 (xb5 :: x62 :: c :: i :: l0 :: l1 :: p ++ k0 :: k1 :: r)) with (c :: i :: l0 :: l1 :: p ++ k0 :: k1 :: r).
  split; reflexivity.
Qed.
Example checksum_error_ex :
  let p := [x06; x08] in
  lenN p = le_num [x02; x00] /\ [x17; x38] <> fletcher ([x05; x01; x02; x00] ++ p).
Proof. split; [reflexivity|vm_compute; discriminate]. Qed.

(** ** C07 *)

(** In every call of [consume] with any number of [next] calls on any lawful buffer: each packet
    uses up at least 8 bytes and each error at least 2 of the bytes that were there. *)
Theorem progress :
  forall (T : Type) (ops : buf_ops T) cap inv contents
         (P : Type) (mp : byte -> byte -> list byte -> res (result P)) mx f,
    Lawful ops cap inv contents -> cap <= usize_max -> mx <= 65535 -> dispatches mp mx f ->
    forall parser chunk k, inv parser -> lenN (contents parser) + lenN chunk <= isize_max ->
    exists answers parser',
      feed_times ops mp mx parser chunk k = Ret (answers, parser') /\ inv parser' /\
      8 * lenN (oks (somes answers)) + 2 * lenN (errs (somes answers)) + lenN (contents parser')
        <= lenN (contents parser) + lenN chunk.
Proof.
  intros T ops cap inv contents P mp mx f L Hcap Hm Hf t c k Hi Hl.
  destruct (l_feed_times ops cap inv contents L Hcap mp mx f Hm Hf t c k Hi Hl) as (rs & es & u & t' & E & Hi' & Hc' & Es & Ht).
  exists rs, t'. split; [assumption|]. split; [assumption|]. rewrite Es, outcome_weight, Hc', lenN_takeN.
  apply trace_weight in Ht. rewrite lenN_app in Ht. lia.
Qed.

(** Draining terminates (with the same bound on the number of results). *)
Theorem draining_terminates :
  forall (T : Type) (ops : buf_ops T) cap inv contents
         (P : Type) (mp : byte -> byte -> list byte -> res (result P)) mx f,
    Lawful ops cap inv contents -> cap <= usize_max -> mx <= 65535 -> dispatches mp mx f ->
    forall parser chunk, inv parser -> lenN (contents parser) + lenN chunk <= isize_max ->
    exists results parser',
      feed ops mp mx parser chunk = Ret (results, parser') /\ inv parser' /\
      8 * lenN (oks results) + 2 * lenN (errs results) + lenN (contents parser')
        <= lenN (contents parser) + lenN chunk.
Proof.
  intros T ops cap inv contents P mp mx f L Hcap Hm Hf t c Hi Hl.
  destruct (l_feed ops cap inv contents L Hcap mp mx f Hm Hf t c Hi Hl) as (es & u & t' & E & Hi' & Hc' & Ht & _).
  exists (map (outcome f) es), t'. split; [assumption|]. split; [assumption|]. rewrite outcome_weight, Hc', lenN_takeN.
  apply trace_weight in Ht. rewrite lenN_app in Ht. lia.
Qed.

(** Once [next] answered [None], every further call answers [None] and the parser keeps the same bytes. *)
Theorem none_is_final :
  forall (T : Type) (ops : buf_ops T) cap inv contents
         (P : Type) (mp : byte -> byte -> list byte -> res (result P)) mx f,
    Lawful ops cap inv contents -> cap <= usize_max -> mx <= 65535 -> dispatches mp mx f ->
    forall parser chunk k answers parser', inv parser -> lenN (contents parser) + lenN chunk <= isize_max ->
    feed_times ops mp mx parser chunk (S k) = Ret (answers ++ [None], parser') ->
    forall m, exists parser'',
      feed_times ops mp mx parser chunk (S k + m) = Ret (answers ++ [None] ++ repeat None m, parser'') /\
      contents parser'' = contents parser'.
Proof.
  intros T ops cap inv contents P mp mx f L Hcap Hm Hf t c k rs t' Hi Hl E m.
  exact (l_none_stays ops cap inv contents L Hcap mp mx f Hm Hf t c k rs t' m Hi Hl E).
Qed.
Example progress_ex :
  feed_times vec_ops raw_mp 8176 [xb5] (skipn 1 ex_f1 ++ [x00]) 3 = Ret ([Some (Ok (x05, x01, [x06; x08])); None; None], []) /\
  feed_times flb_ops raw_mp 8176 (mk_flb [xb5; x00; x00; x00; x00] 1) (skipn 1 ex_f1 ++ [x00]) 3 =
    Ret ([Some (Ok (x05, x01, [x06; x08])); None; None], mk_flb [xb5; x00; x00; x00; x00] 0).
Proof. split; vm_compute; reflexivity. Qed.

(** ** C08 (the part about the parser itself; dispatch never fails: PropDispatch.v) *)

(** Whatever the buffer and the history, the only errors are checksum errors and lack of memory. *)
Theorem error_surface :
  forall (T : Type) (ops : buf_ops T) cap inv contents
         (P : Type) (mp : byte -> byte -> list byte -> res (result P)) mx f,
    Lawful ops cap inv contents -> cap <= usize_max -> mx <= 65535 -> dispatches mp mx f ->
    forall parser h, inv parser -> history_fits cap (contents parser) h ->
    exists answers parser',
      run_history ops mp mx parser h = Ret (answers, parser') /\
      forall e, In (Err e) (somes (concat answers)) ->
        (exists expect got, e = InvalidChecksum expect got) \/ (exists n, e = OutOfMemory n).
Proof.
  intros T ops cap inv contents P mp mx f L Hcap Hm Hf t h Hi Hl.
  destruct (l_history ops cap inv contents L Hcap mp mx f Hm Hf t h Hi Hl) as (rss & t' & E & Hi' & _ & Hall).
  exists rss, t'. split; [assumption|]. intros e He. rewrite Forall_forall in Hall. apply Hall in He.
  destruct He as ([? ? ?|x y|n] & He); cbn [outcome] in He; [discriminate|left|right]; injection He as ->; eauto.
Qed.

(** With [Vec] there are only checksum errors. *)
Theorem error_surface_vec :
  forall (P : Type) (mp : byte -> byte -> list byte -> res (result P)) mx f h,
    mx <= 65535 -> dispatches mp mx f -> lenN (concat (map fst h)) <= isize_max ->
    exists answers retained,
      run_history vec_ops mp mx [] h = Ret (answers, retained) /\
      forall e, In (Err e) (somes (concat answers)) -> exists expect got, e = InvalidChecksum expect got.
Proof.
  intros P mp mx f h Hm Hf Hl.
  destruct (vec_history mp mx f Hm Hf h Hl) as (rss & es & t & E & Es & Ht & _).
  exists rss, t. split; [assumption|]. rewrite Es. intros e He. apply in_map_iff in He.
  destruct He as ([? ? ?|x y|n] & He & Hin); cbn [outcome] in He; [discriminate|injection He as <-; eauto|].
  exfalso. eapply trace_no_oom; [|eassumption..]. unfold usize_max. lia.
Qed.

(** ** C09 *)

(** After draining, what is retained is bounded, and it is nothing but an incomplete candidate whose length
    field does not exceed the limit. *)
Theorem retained_bounded :
  forall (P : Type) (mp : byte -> byte -> list byte -> res (result P)) mx f cs,
    255 <= mx <= 65535 -> dispatches mp mx f -> chunks_fit mx cs ->
    exists results retained,
      feed_all vec_ops mp mx [] cs = Ret (results, retained) /\
      lenN retained <= mx + 7 /\ pending mx retained.
Proof.
  intros P mp mx f cs Hm Hf Hc.
  destruct (vec_trace mp mx f ltac:(lia) Hf cs Hc) as (es & t & E & Ht & Hw).
  eexists _, t. split; [eassumption|]. split; [|now apply wait_pending].
  apply decide_wait_bound in Hw. lia.
Qed.
(** The bound is reached. *)
Example retained_bounded_ex :
  match feed_all vec_ops raw_mp 8176 [] [takeN 8183 (frame x01 x02 (repeat x00 (N.to_nat 8176))); []] with
  | Ret ([], retained) => lenN retained = 8183
  | _ => False
  end.
Proof. vm_compute. reflexivity. Qed.

(** A header with a length field above the limit is dropped silently. *)
Theorem oversized_header_dropped :
  forall (P : Type) (mp : byte -> byte -> list byte -> res (result P)) mx f c i l0 l1 rest,
    mx <= 65535 -> dispatches mp mx f -> mx < le_num [l0; l1] ->
    lenN ([xb5; x62; c; i; l0; l1] ++ rest) + N.max 5 (mx + 7) <= isize_max ->
    exists results retained,
      feed_all vec_ops mp mx [] [[xb5; x62; c; i; l0; l1] ++ rest] = Ret (results, retained) /\
      feed_all vec_ops mp mx [] [[c; i; l0; l1] ++ rest] = Ret (results, retained).
Proof.
  intros P mp mx f c i l0 l1 r Hm Hf Hl Hsz. eexists _, _.
  rewrite !(vec_feed_all mp mx f Hm Hf).
  2:{ intros x [<-|[]]. cbn [app] in *. rewrite !lenN_cons in *. lia. }
  2:{ intros x [<-|[]]. assumption. }
  cbn [concat]. rewrite !app_nil_r. rewrite scan_oversize by assumption. split; reflexivity.
Qed.
Example oversized_header_dropped_ex :
  8176 < le_num [xf1; x1f] /\
  feed_all vec_ops raw_mp 8176 [] [[xb5; x62; x01; x02; xf1; x1f] ++ ex_f1] = Ret ([Ok (x05, x01, [x06; x08])], []).
Proof. vm_compute. split; reflexivity. Qed.

(** ** C14 *)

(** Iterators dropped after any numbers of [next] calls, then one drained [consume]: all the results together
    and the retained bytes are those of draining every time. *)
Theorem early_drop_loses_nothing :
  forall (P : Type) (mp : byte -> byte -> list byte -> res (result P)) mx f h last,
    mx <= 65535 -> dispatches mp mx f ->
    lenN (concat (map fst h)) + lenN last + N.max 5 (mx + 7) <= isize_max ->
    exists answers parser results retained,
      run_history vec_ops mp mx [] h = Ret (answers, parser) /\
      feed vec_ops mp mx parser last = Ret (results, retained) /\
      feed_all vec_ops mp mx [] (map fst h ++ [last]) = Ret (somes (concat answers) ++ results, retained).
Proof.
  intros P mp mx f h c Hm Hf Hl.
  destruct (vec_history mp mx f Hm Hf h ltac:(lia)) as (rss & es & t & E & Es & Ht & Hlt & E1 & E2).
  exists rss, t. eexists _, _. split; [assumption|]. split.
  { apply (vec_feed mp mx f Hm Hf). lia. }
  rewrite (vec_feed_all mp mx f Hm Hf).
  2:{ intros x Hx. apply in_app_or in Hx. destruct Hx as [Hx|[<-|[]]]; [|lia].
      assert (lenN x <= lenN (concat (map fst h))); [|lia].
      apply in_split in Hx. destruct Hx as (l1 & l2 & ->). rewrite concat_app. cbn [concat]. rewrite !lenN_app. lia. }
  rewrite concat_app. cbn [concat]. rewrite app_nil_r.
  rewrite (scan_app mx (concat (map fst h)) c). cbn [fst snd]. rewrite map_app, E1, E2.
  rewrite (scan_app mx t c). cbn [fst snd]. rewrite map_app, <- app_assoc. reflexivity.
Qed.
Example early_drop_loses_nothing_ex :
  run_history vec_ops raw_mp 8176 [] [(ex_f1 ++ ex_f2, 1%nat); (ex_f1, 0%nat)] =
    Ret ([[Some (Ok (x05, x01, [x06; x08]))]; []], ex_f2 ++ ex_f1).
Proof. vm_compute. reflexivity. Qed.

(** ** C15 *)

(** After a drained history [buffer_len] and [is_buffer_empty] speak about the retained suffix of the stream, which
    starts with B5 if there is any. *)
Theorem buffer_len_reports_pending :
  forall (P : Type) (mp : byte -> byte -> list byte -> res (result P)) mx f cs,
    255 <= mx <= 65535 -> dispatches mp mx f -> chunks_fit mx cs ->
    exists events done parser,
      feed_all vec_ops mp mx [] cs = Ret (map (outcome f) events, parser) /\
      concat cs = done ++ parser /\
      trace usize_max mx (concat cs) events parser /\ pending mx parser /\
      buffer_len vec_ops parser = lenN parser /\
      (is_buffer_empty vec_ops parser = true <-> parser = []) /\
      (parser = [] \/ exists r, parser = xb5 :: r).
Proof.
  intros P mp mx f cs Hm Hf Hc.
  destruct (vec_trace mp mx f ltac:(lia) Hf cs Hc) as (es & t & E & Ht & Hw).
  destruct (trace_suffix _ _ _ _ _ Ht) as (g & Eg).
  exists es, g, t. split; [assumption|]. split; [assumption|]. split; [assumption|].
  split; [apply wait_pending; [lia|assumption]|]. split; [reflexivity|]. split.
  - unfold is_buffer_empty, b_is_empty. cbn [b_len vec_ops]. rewrite N.eqb_eq. split; [apply lenN_0|now intros ->].
  - eapply decide_wait_sync; eassumption.
Qed.
Example buffer_len_ex :
  feed_all vec_ops raw_mp 8176 [] [ex_f1 ++ [x41; xb5; x62; x01]] = Ret ([Ok (x05, x01, [x06; x08])], [xb5; x62; x01]).
Proof. vm_compute. reflexivity. Qed.

(** A stream that ends with the last byte of a frame leaves the buffer empty. *)
Theorem buffer_empty_at_frame_boundary :
  forall (P : Type) (mp : byte -> byte -> list byte -> res (result P)) mx f pieces cs,
    mx <= 65535 -> dispatches mp mx f -> chunks_fit mx cs ->
    Forall (fun x => no_sync_pair (fst x) /\ lenN (snd (snd x)) <= mx) pieces ->
    concat cs = interleave pieces [] ->
    exists results parser,
      feed_all vec_ops mp mx [] cs = Ret (results, parser) /\
      buffer_len vec_ops parser = 0 /\ is_buffer_empty vec_ops parser = true.
Proof.
  intros P mp mx f l cs Hm Hf Hc Hp E.
  destruct (interleaved_stream_complete P mp mx f l [] cs Hm Hf Hc Hp no_sync_pair_nil E) as (t & Et & _ & Hn).
  eexists _, t. split; [exact Et|]. rewrite Hn by (intros []). split; reflexivity.
Qed.
Example buffer_empty_at_frame_boundary_ex :
  interleave [([xb5; x41], (x05, x01, [x06; x08]))] [] = [xb5; x41] ++ ex_f1 /\
  feed_all vec_ops raw_mp 8176 [] [[xb5]; [x41] ++ ex_f1] = Ret ([Ok (x05, x01, [x06; x08])], []).
Proof. split; vm_compute; reflexivity. Qed.

Print Assumptions chunking_independent.
Print Assumptions parser_is_scanner.
Print Assumptions frames_are_on_the_wire.
Print Assumptions clean_stream_complete.
Print Assumptions interleaved_stream_complete.
Print Assumptions resynchronisation.
Print Assumptions resynchronisation_clean_prefix.
Print Assumptions checksum_errors_justified.
Print Assumptions checksum_error_resumes_two_bytes_later.
Print Assumptions progress.
Print Assumptions draining_terminates.
Print Assumptions none_is_final.
Print Assumptions error_surface.
Print Assumptions error_surface_vec.
Print Assumptions retained_bounded.
Print Assumptions oversized_header_dropped.
Print Assumptions early_drop_loses_nothing.
Print Assumptions buffer_len_reports_pending.
Print Assumptions buffer_empty_at_frame_boundary.
