(** * Properties of the parser over fixed-capacity and arbitrary lawful buffers
    (C02 for fixed buffers, C06, C10-C14, C17) *)
From Coq Require Import List NArith ZArith Bool Lia ZifyBool ZifyNat ZifyN.
From Verif Require Import Base BaseFacts Checksum Buffers DualBuffer Parser SpecBuffer SpecFrame SpecParser
  ProofScan ProofSim ProofParser ProofFeed ProofBuffers ProofStream ProofTrace ProofSmall ProofTop ProofMore PropParser.
Import ListNotations.
Open Scope N_scope.

(** A backing slice of [n] bytes *)
Definition backing (n : N) : list byte := repeat x00 (N.to_nat n).

Lemma flb_new_inv b : lenN b <= isize_max -> flb_inv (lenN b) (flb_new b).
Proof. intros H. unfold flb_inv, flb_new. cbn [flb_buffer flb_len]. lia. Qed.
Lemma flb_new_contents b : flb_contents (flb_new b) = [].
Proof. reflexivity. Qed.

(** ** C06 *)

(** Any history on any lawful buffer: no panic and no endless loop. *)
Theorem parser_never_panics :
  forall (T : Type) (ops : buf_ops T) cap inv contents
         (P : Type) (mp : byte -> byte -> list byte -> res (result P)) mx f,
    Lawful ops cap inv contents -> cap <= usize_max -> mx <= 65535 -> dispatches mp mx f ->
    forall parser h, inv parser -> history_fits cap (contents parser) h ->
    exists answers parser',
      run_history ops mp mx parser h = Ret (answers, parser') /\ inv parser' /\
      map (fun a => lenN a) answers = map (fun x => N.of_nat (snd x)) h.
Proof.
  intros T ops cap inv contents P mp mx f L Hcap Hm Hf t h Hi Hl.
  destruct (l_history ops cap inv contents L Hcap mp mx f Hm Hf t h Hi Hl) as (rss & t' & E & Hi' & _ & _).
  exists rss, t'. split; [assumption|]. split; [assumption|].
  clear - E. revert rss t E. induction h as [|[c k] h IH]; intros rss t E; cbn [run_history] in E.
  - injection E as <- <-. reflexivity.
  - destruct (feed_times ops mp mx t c k) as [[rs t1]| |] eqn:E1; cbn [bind] in E; try discriminate.
    destruct (run_history ops mp mx t1 h) as [[rss1 t2]| |] eqn:E2; cbn [bind] in E; try discriminate.
    injection E as <- <-. cbn [map]. f_equal; [|eapply IH; eassumption]. cbn [snd].
    unfold feed_times in E1. destruct (consume ops t c) as [d| |]; cbn [bind] in E1; try discriminate.
    destruct (next_times ops mp mx k d) as [[rs' d']| |] eqn:E3; cbn [bind] in E1; try discriminate.
    destruct (d_drop ops d'); cbn [bind] in E1; try discriminate. injection E1 as <- <-.
    clear - E3. unfold lenN. f_equal. revert d rs' E3. induction k as [|k IH]; intros d rs' E; cbn [next_times] in E.
    + injection E as <- <-. reflexivity.
    + destruct (next ops mp mx d) as [[r d1]| |]; cbn [bind] in E; try discriminate.
      destruct (next_times ops mp mx k d1) as [[rs1 d2]| |] eqn:E2; cbn [bind] in E; try discriminate.
      injection E as <- <-. cbn [length]. f_equal. eapply IH; eassumption.
Qed.

(** [Parser::default()]: every history of at most [isize::MAX] bytes in total. *)
Theorem parser_never_panics_vec :
  forall (P : Type) (mp : byte -> byte -> list byte -> res (result P)) mx f h,
    mx <= 65535 -> dispatches mp mx f -> lenN (concat (map fst h)) <= isize_max ->
    exists answers parser', run_history vec_ops mp mx [] h = Ret (answers, parser').
Proof.
  intros P mp mx f h Hm Hf Hl.
  destruct (parser_never_panics _ vec_ops usize_max vec_inv (fun v => v) P mp mx f vec_lawful ltac:(lia) Hm Hf [] h)
    as (rss & t' & E & _).
  - unfold vec_inv. rewrite lenN_nil. unfold isize_max. lia.
  - left. rewrite lenN_nil. lia.
  - eauto.
Qed.

(** ... and drained histories of any length, in the default parser. *)
Theorem parser_never_panics_vec_drained :
  forall (P : Type) (mp : byte -> byte -> list byte -> res (result P)) mx f cs,
    mx <= 65535 -> dispatches mp mx f -> chunks_fit mx cs ->
    exists results parser', feed_all vec_ops mp mx [] cs = Ret (results, parser').
Proof. intros P mp mx f cs Hm Hf Hc. rewrite (vec_feed_all mp mx f Hm Hf cs Hc). eauto. Qed.

(** A parser over [FixedLinearBuffer]: every history, with no bound on its length, for every
    backing slice (even an empty one). *)
Theorem parser_never_panics_fixed :
  forall (P : Type) (mp : byte -> byte -> list byte -> res (result P)) mx f back h,
    mx <= 65535 -> dispatches mp mx f ->
    (forall c k, In (c, k) h -> lenN back + lenN c <= isize_max) -> lenN back <= isize_max ->
    exists answers parser', run_history flb_ops mp mx (flb_new back) h = Ret (answers, parser').
Proof.
  intros P mp mx f b h Hm Hf Hl Hb.
  destruct (parser_never_panics _ flb_ops (lenN b) (flb_inv (lenN b)) flb_contents P mp mx f (flb_lawful _)) with
    (parser := flb_new b) (h := h) as (rss & t' & E & _).
  - unfold usize_max, isize_max in *. lia.
  - assumption.
  - assumption.
  - now apply flb_new_inv.
  - right. assumption.
  - eauto.
Qed.
Example parser_never_panics_ex :
  run_history flb_ops raw_mp 8176 (flb_new (backing 4)) [(takeN 7 ex_f1, 3%nat); (ex_f2, 0%nat); ([xb5; xb5; x62; x00], 1%nat)] =
    Ret ([[Some (Err (OutOfMemory 4)); None; None]; []; [None]], mk_flb [xb5; x62; x00; x07] 3).
Proof. vm_compute. reflexivity. Qed.

(** ** C02 for fixed buffers *)

(** Drained histories on a lawful buffer of at least 5 bytes: only frames of the stream are reported. *)
Theorem frames_are_on_the_wire_bounded :
  forall (T : Type) (ops : buf_ops T) cap inv contents
         (P : Type) (mp : byte -> byte -> list byte -> res (result P)) mx f,
    Lawful ops cap inv contents -> cap <= usize_max -> mx <= 65535 -> dispatches mp mx f -> 5 <= cap ->
    forall parser cs, inv parser -> contents parser = [] -> chunks_fit mx cs ->
    exists results parser' frames,
      feed_all ops mp mx parser cs = Ret (results, parser') /\
      woven (concat cs) frames /\
      Forall (fun x => lenN (snd x) <= mx) frames /\
      oks results = map (fun x => match x with (c, i, p) => f c i p end) frames.
Proof.
  intros T ops cap inv contents P mp mx f L Hcap Hm Hf H5 t cs Hi Hc Hl.
  destruct (l_feed_all_trace ops cap inv contents L Hcap mp mx f Hm Hf t cs H5 Hi) as (es & t' & E & Hi' & Ht & _).
  - rewrite Hc, lenN_nil. lia.
  - assumption.
  - rewrite Hc in Ht. destruct (trace_woven _ _ _ _ _ Ht) as [H1 H2].
    exists (map (outcome f) es), t', (frames_of es). split; [assumption|]. split; [assumption|]. split; [assumption|]. apply oks_outcome.
Qed.
Theorem frames_are_on_the_wire_fixed :
  forall (P : Type) (mp : byte -> byte -> list byte -> res (result P)) mx f back cs,
    mx <= 65535 -> dispatches mp mx f -> 5 <= lenN back <= isize_max -> chunks_fit mx cs ->
    exists results parser' frames,
      feed_all flb_ops mp mx (flb_new back) cs = Ret (results, parser') /\
      woven (concat cs) frames /\
      Forall (fun x => lenN (snd x) <= mx) frames /\
      oks results = map (fun x => match x with (c, i, p) => f c i p end) frames.
Proof.
  intros P mp mx f b cs Hm Hf Hb Hc.
  apply (frames_are_on_the_wire_bounded _ flb_ops (lenN b) (flb_inv (lenN b)) flb_contents P mp mx f (flb_lawful _));
    try assumption; try lia.
  - unfold usize_max, isize_max in *. lia.
  - apply flb_new_inv. lia.
  - apply flb_new_contents.
Qed.
Example frames_are_on_the_wire_fixed_ex :
  5 <= lenN (backing 9) <= isize_max /\
  feed_all flb_ops raw_mp 8176 (flb_new (backing 9)) [[x00] ++ takeN 3 ex_f1; dropN 3 ex_f1 ++ ex_f2] =
    Ret ([Ok (x05, x01, [x06; x08]); Ok (x01, x07, [])], mk_flb [xb5; x62; x05; x00; x00; x00; x00; x00; x00] 0).
Proof. split; [split; vm_compute; discriminate|vm_compute; reflexivity]. Qed.

(** Without draining it fails: bytes that did not fit are dropped silently when the iterator is dropped, and
    the frame reported later was never on the wire. *)
Theorem frames_on_the_wire_fixed_early_drop_refuted :
  exists back h answers parser' c i p,
    5 <= lenN back /\
    run_history flb_ops raw_mp 8176 (flb_new back) h = Ret (answers, parser') /\
    In (Ok (c, i, p)) (somes (concat answers)) /\
    forall a b, concat (map fst h) <> a ++ frame c i p ++ b.
Proof.
  (* frame 01 07 [aa], 9 bytes; the buffer has 7 *)
  exists (backing 7), [(takeN 7 (frame x01 x07 [xaa]) ++ [xff; xff; xff], 0%nat); (dropN 7 (frame x01 x07 [xaa]), 1%nat)].
  eexists _, _, x01, x07, [xaa]. split; [vm_compute; discriminate|]. split; [vm_compute; reflexivity|].
  split; [vm_compute; auto|].
  intros a b E.
  assert (forallb (fun k => negb (match frame x01 x07 [xaa] with fr => N.eqb (le_num fr) (le_num (takeN (lenN fr) (dropN k
     (takeN 7 (frame x01 x07 [xaa]) ++ [xff; xff; xff] ++ dropN 7 (frame x01 x07 [xaa]))))) end))
     [0;1;2;3;4;5;6;7;8;9;10;11;12] = true) as Hall by (vm_compute; reflexivity).
  assert (lenN a <= 12) as Ha.
  { apply (f_equal lenN) in E. rewrite !lenN_app in E. vm_compute (lenN (concat _)) in E.
    change (lenN (frame x01 x07 [xaa])) with 9 in E. lia. }
  rewrite forallb_forall in Hall. specialize (Hall (lenN a)).
  assert (In (lenN a) [0;1;2;3;4;5;6;7;8;9;10;11;12]) as Hin.
  { assert (lenN a = 0 \/ lenN a = 1 \/ lenN a = 2 \/ lenN a = 3 \/ lenN a = 4 \/ lenN a = 5 \/ lenN a = 6 \/ lenN a = 7 \/
      lenN a = 8 \/ lenN a = 9 \/ lenN a = 10 \/ lenN a = 11 \/ lenN a = 12) as H by lia.
    cbn [In]. intuition. }
  specialize (Hall Hin). cbv beta iota zeta in Hall.
  change (takeN 7 (frame x01 x07 [xaa]) ++ [xff; xff; xff] ++ dropN 7 (frame x01 x07 [xaa])) with
    (concat (map fst [(takeN 7 (frame x01 x07 [xaa]) ++ [xff; xff; xff], 0%nat); (dropN 7 (frame x01 x07 [xaa]), 1%nat)])) in Hall.
  rewrite E, dropN_app_exact, takeN_app_exact, N.eqb_refl in Hall by reflexivity. discriminate.
Qed.

(** ** C10 *)

Theorem large_fixed_buffer_is_vec :
  forall (P : Type) (mp : byte -> byte -> list byte -> res (result P)) mx f back cs,
    mx <= 65535 -> dispatches mp mx f -> N.max 5 (mx + 7) <= lenN back <= isize_max -> chunks_fit mx cs ->
    exists results vec fixed,
      feed_all vec_ops mp mx [] cs = Ret (results, vec) /\
      feed_all flb_ops mp mx (flb_new back) cs = Ret (results, fixed) /\
      buffer_len vec_ops vec = buffer_len flb_ops fixed /\ flb_contents fixed = vec.
Proof.
  intros P mp mx f b cs Hm Hf Hb Hc.
  pose proof (flb_new_inv b ltac:(lia)) as Hi.
  destruct (l_feed_all_scan flb_ops (lenN b) (flb_inv (lenN b)) flb_contents (flb_lawful _)
    ltac:(unfold usize_max, isize_max in *; lia) mp mx f Hm Hf (flb_new b) cs ltac:(lia) Hi eq_refl Hc)
    as (t' & E & Hi' & Hc').
  { left. lia. }
  cbn [app] in *. rewrite flb_new_contents in *. cbn [app] in *.
  eexists _, _, t'. split; [apply (vec_feed_all mp mx f Hm Hf cs Hc)|]. split; [exact E|]. split; [|assumption].
  unfold buffer_len. cbn [b_len vec_ops flb_ops]. rewrite <- Hc'. eapply flb_contents_len; eassumption.
Qed.
Example large_fixed_buffer_is_vec_ex : N.max 5 (8176 + 7) <= lenN (backing 8183) <= isize_max.
Proof. vm_compute. split; discriminate. Qed.

(** 8183 is the smallest such capacity for the limit 8176. *)
Theorem large_fixed_buffer_8182_refuted :
  exists cs results1 results2 vec fixed,
    feed_all vec_ops raw_mp 8176 [] cs = Ret (results1, vec) /\
    feed_all flb_ops raw_mp 8176 (flb_new (backing 8182)) cs = Ret (results2, fixed) /\
    errs results1 = [] /\ errs results2 = [OutOfMemory 8178].
Proof.
  exists [takeN 8183 (frame x01 x02 (repeat x00 (N.to_nat 8176))); dropN 8183 (frame x01 x02 (repeat x00 (N.to_nat 8176)))].
  eexists _, _, _, _. split; [vm_compute; reflexivity|]. split; [vm_compute; reflexivity|]. split; vm_compute; reflexivity.
Qed.

(** ** C11 *)

(** Frames which fit (payload + 7 <= capacity), with other bytes in between that contain no sync pair. *)
Theorem frames_that_fit_are_delivered :
  forall (T : Type) (ops : buf_ops T) cap inv contents
         (P : Type) (mp : byte -> byte -> list byte -> res (result P)) mx f,
    Lawful ops cap inv contents -> cap <= usize_max -> mx <= 65535 -> dispatches mp mx f -> 5 <= cap ->
    forall parser cs pieces tail, inv parser -> contents parser = [] -> chunks_fit mx cs ->
    Forall (fun x => no_sync_pair (fst x) /\ lenN (snd (snd x)) <= mx /\ lenN (snd (snd x)) + 7 <= cap) pieces ->
    no_sync_pair tail ->
    concat cs = interleave pieces tail ->
    exists parser',
      feed_all ops mp mx parser cs =
        Ret (map (fun x => match x with (_, (c, i, p)) => Ok (f c i p) end) pieces, parser') /\
      (contents parser' = [] \/ contents parser' = [xb5]).
Proof.
  intros T ops cap inv contents P mp mx f L Hcap Hm Hf H5 t cs l tl Hi Hc Hl Hp Ht E.
  destruct (l_feed_all_scan ops cap inv contents L Hcap mp mx f Hm Hf t cs H5 Hi) as (t' & E' & Hi' & Hc').
  - rewrite Hc. reflexivity.
  - assumption.
  - right. rewrite Hc, E. cbn [app]. now apply interleave_fits.
  - rewrite Hc, E in *. cbn [app] in *.
    destruct (interleave_scan mx l tl Hm) as (H1 & H2 & _); [|assumption|].
    { eapply Forall_impl; [|exact Hp]. cbn. intros x (A & B & _). auto. }
    exists t'. rewrite E', H1, map_outcome_frame_ev. split; [reflexivity|]. rewrite Hc'. assumption.
Qed.

(** The bound is the least one: over a smaller buffer every frame of that size is refused when all but enough bytes to fill
    the buffer and one more have arrived. *)
Lemma decide_cut m c i p n : 6 <= n < lenN p + 8 -> lenN p <= m -> lenN p <= 65535 -> decide m (takeN n (frame c i p)) = Wait.
Proof.
  intros Hn Hp H16. unfold frame, header. cbn [app].
  rewrite !takeN_cons by lia. rewrite decide_full, len_field by assumption. cbv zeta. replace (m <? lenN p) with false by lia.
  rewrite lenN_takeN, lenN_app, fletcher_len.
  match goal with |- (if ?b then _ else _) = _ => replace b with true by lia end. reflexivity.
Qed.
Theorem frames_that_do_not_fit_are_refused :
  forall (T : Type) (ops : buf_ops T) cap inv contents
         (P : Type) (mp : byte -> byte -> list byte -> res (result P)) mx f,
    Lawful ops cap inv contents -> cap < isize_max -> mx <= 65535 -> dispatches mp mx f -> 5 <= cap ->
    forall parser c i p, inv parser -> contents parser = [] ->
    lenN p <= mx -> cap < lenN p + 7 ->
    exists results parser',
      feed ops mp mx parser (takeN (cap + 1) (frame c i p)) = Ret (Err (OutOfMemory (lenN p + 2)) :: results, parser').
Proof.
  intros T ops cap inv contents P mp mx f L Hcap Hm Hf H5 t c i p Hi Hc Hp Hn.
  assert (Hu : cap <= usize_max) by (unfold usize_max, isize_max in *; lia).
  set (s := takeN (cap + 1) (frame c i p)).
  assert (Ls : lenN s = cap + 1) by (unfold s; rewrite lenN_takeN, frame_len; lia).
  assert (W : decide mx s = Wait) by (apply decide_cut; lia).
  assert (Fr : frame c i p = s ++ dropN (cap + 1) (frame c i p)) by (unfold s; now rewrite takeN_dropN).
  assert (Hh : hdr_len s = lenN p).
  { rewrite <- (hdr_len_app s (dropN (cap + 1) (frame c i p))) by lia. rewrite <- Fr.
    rewrite <- (app_nil_r (frame c i p)). apply hdr_len_frame. lia. }
  destruct (q_feed cap mp mx Hm (mp_total_f mp mx f Hf) [] s) as (es & r & E & R); [rewrite lenN_nil; lia|exact Hu|rewrite lenN_nil; lia|].
  cbn [app] in R.
  assert (No : forall x, skips mx s x -> x = s) by (intros x Hx; inversion Hx; subst; [reflexivity|congruence]).
  assert (exists es', es = Err (OutOfMemory (lenN p + 2)) :: es') as (es' & ->).
  { inversion R as [u ? ? N|u ? r0 s1 es1 ? N R']; subst; inversion N; subst;
      match goal with H : skips _ s _ |- _ => apply No in H; subst end; try congruence; try lia.
    rewrite Hh. eauto. }
  rewrite <- Hc in E.
  destruct (sim_feed ops cap inv contents L mp mx t (contents t) s (RB_self inv contents t Hi) _ E) as ([rs t'] & E' & Ers & _).
  cbn [fst snd] in *. subst rs. exists es', t'. exact E'.
Qed.
Example frames_that_do_not_fit_ex :
  feed flb_ops raw_mp 8176 (flb_new (backing 8)) (takeN 9 ex_f1) = Ret ([Err (OutOfMemory 4)], flb_new (backing 8)).
Proof. vm_compute. reflexivity. Qed.

(** On arbitrary streams: a buffer in which every candidate header of the stream fits behaves like [Vec]. *)
Theorem fixed_buffer_is_vec_when_headers_fit :
  forall (P : Type) (mp : byte -> byte -> list byte -> res (result P)) mx f back cs,
    mx <= 65535 -> dispatches mp mx f -> 5 <= lenN back <= isize_max -> chunks_fit mx cs ->
    (forall a c i l0 l1 b, concat cs = a ++ [xb5; x62; c; i; l0; l1] ++ b -> le_num [l0; l1] <= mx ->
       le_num [l0; l1] + 7 <= lenN back) ->
    exists results vec fixed,
      feed_all vec_ops mp mx [] cs = Ret (results, vec) /\
      feed_all flb_ops mp mx (flb_new back) cs = Ret (results, fixed) /\
      flb_contents fixed = vec.
Proof.
  intros P mp mx f b cs Hm Hf Hb Hc Hh.
  pose proof (flb_new_inv b ltac:(lia)) as Hi.
  destruct (l_feed_all_scan flb_ops (lenN b) (flb_inv (lenN b)) flb_contents (flb_lawful _)
    ltac:(unfold usize_max, isize_max in *; lia) mp mx f Hm Hf (flb_new b) cs ltac:(lia) Hi eq_refl Hc)
    as (t' & E & Hi' & Hc').
  { right. rewrite flb_new_contents. cbn [app]. now apply fits_all_headers. }
  rewrite flb_new_contents in *. cbn [app] in *.
  eexists _, _, t'. split; [apply (vec_feed_all mp mx f Hm Hf cs Hc)|]. split; [exact E|assumption].
Qed.
Example frames_that_fit_ex :
  feed_all flb_ops raw_mp 8176 (flb_new (backing 10)) [[x41; xb5] ++ takeN 3 ex_f1; dropN 3 ex_f1 ++ takeN 7 ex_f2; dropN 7 ex_f2 ++ ex_f1] =
    Ret ([Ok (x05, x01, [x06; x08]); Ok (x01, x07, []); Ok (x05, x01, [x06; x08])], mk_flb [xb5; x62; x01; x07; x00; x00; x08; x19; xb5; x62] 0).
Proof. vm_compute. reflexivity. Qed.
Example frames_that_fit_hyp_ex :
  let pieces := [([x41; xb5], (x05, x01, [x06; x08])); ([], (x01, x07, [])); ([], (x05, x01, [x06; x08]))] in
  concat [[x41; xb5] ++ takeN 3 ex_f1; dropN 3 ex_f1 ++ takeN 7 ex_f2; dropN 7 ex_f2 ++ ex_f1] = interleave pieces [] /\
  Forall (fun x : list byte * (byte * byte * list byte) =>
    no_sync_pair (fst x) /\ lenN (snd (snd x)) <= 8176 /\ lenN (snd (snd x)) + 7 <= 10) pieces.
Proof.
  split; [vm_compute; reflexivity|].
  repeat (apply Forall_cons; [split; [|split; vm_compute; discriminate]|]); [| | |apply Forall_nil]; cbn [fst];
    intros a b E; destruct a as [|? [|? [|? ?]]]; discriminate.
Qed.

(** ** C12 *)

(** One [consume] with any number of [next] calls on any lawful buffer in any state: each [OutOfMemory n]
    stands for a header at that place of the pending data whose length field is [n - 2] and which does not
    fit, while more bytes than the capacity were pending; the rest is read from behind the two sync bytes. *)
Theorem out_of_memory_justified :
  forall (T : Type) (ops : buf_ops T) cap inv contents
         (P : Type) (mp : byte -> byte -> list byte -> res (result P)) mx f,
    Lawful ops cap inv contents -> cap <= usize_max -> mx <= 65535 -> dispatches mp mx f ->
    forall parser chunk k, inv parser -> lenN (contents parser) + lenN chunk <= isize_max ->
    exists answers parser' events rest,
      feed_times ops mp mx parser chunk k = Ret (answers, parser') /\
      somes answers = map (outcome f) events /\ contents parser' = takeN cap rest /\
      forall before n after, events = before ++ EOom n :: after ->
        exists c i l0 l1 s,
          trace cap mx (contents parser ++ chunk) before ([xb5; x62; c; i; l0; l1] ++ s) /\
          n = le_num [l0; l1] + 2 /\ le_num [l0; l1] <= mx /\ cap < le_num [l0; l1] + 7 /\
          cap < lenN ([xb5; x62; c; i; l0; l1] ++ s) /\
          trace cap mx ([c; i; l0; l1] ++ s) after rest.
Proof.
  intros T ops cap inv contents P mp mx f L Hcap Hm Hf t c k Hi Hl.
  destruct (l_feed_times ops cap inv contents L Hcap mp mx f Hm Hf t c k Hi Hl) as (rs & es & u & t' & E & Hi' & Hc' & Es & Ht).
  exists rs, t', es, u. split; [assumption|]. split; [assumption|]. split; [assumption|].
  intros es1 n es2 Ee. destruct (trace_split_oom _ _ _ _ _ Ht _ _ _ Ee) as (c0 & i0 & l0 & l1 & s & H).
  exists c0, i0, l0, l1, s. intuition.
Qed.

Example out_of_memory_ex :
  (* a header announcing 200 bytes in a buffer of 10; two of its bytes arrived earlier *)
  feed_times flb_ops raw_mp 8176 (mk_flb ([xb5; x62] ++ backing 8) 2) ([x01; x01; xc8; x00] ++ ex_f2) 3 =
    Ret ([Some (Err (OutOfMemory 202)); Some (Ok (x01, x07, [])); None], mk_flb ([xb5; x62] ++ backing 8) 0).
Proof. vm_compute. reflexivity. Qed.

(** ** C13 *)

(** Capacity at least 5, drained histories: what the parser retains is exactly the suffix of the stream that no
    result accounts for: nothing in between is lost. *)
Theorem no_byte_lost :
  forall (T : Type) (ops : buf_ops T) cap inv contents
         (P : Type) (mp : byte -> byte -> list byte -> res (result P)) mx f,
    Lawful ops cap inv contents -> cap <= usize_max -> 255 <= mx <= 65535 -> dispatches mp mx f -> 5 <= cap ->
    forall parser cs, inv parser -> contents parser = [] -> chunks_fit mx cs ->
    exists events done parser',
      feed_all ops mp mx parser cs = Ret (map (outcome f) events, parser') /\
      concat cs = done ++ contents parser' /\
      trace cap mx (concat cs) events (contents parser') /\
      pending mx (contents parser').
Proof.
  intros T ops cap inv contents P mp mx f L Hcap Hm Hf H5 t cs Hi Hc Hl.
  destruct (l_feed_all_trace ops cap inv contents L Hcap mp mx f ltac:(lia) Hf t cs H5 Hi) as (es & t' & E & Hi' & Ht & Hw & _).
  - rewrite Hc, lenN_nil. lia.
  - assumption.
  - rewrite Hc in Ht. cbn [app] in Ht. destruct (trace_suffix _ _ _ _ _ Ht) as (g & Eg).
    exists es, g, t'. split; [assumption|]. split; [assumption|]. split; [assumption|].
    apply wait_pending; [lia|]. apply Hw. rewrite Hc. reflexivity.
Qed.
Example no_byte_lost_ex :
  feed_all flb_ops raw_mp 8176 (flb_new (backing 5)) [takeN 5 ex_f2; dropN 5 ex_f2] = Ret ([Ok (x01, x07, [])], mk_flb [xb5; x62; x01; x07; x00] 0).
Proof. vm_compute. reflexivity. Qed.

(** With the documented minimum of 4 bytes a byte is lost silently (five bytes of a frame arrive, four are retained,
    nothing is reported), and the rest of the frame is then misread. *)
Theorem no_byte_lost_capacity_4_refuted :
  exists received rest parser1 parser2,
    received ++ rest = frame x01 x07 [] /\
    feed_all flb_ops raw_mp 8176 (flb_new (backing 4)) [received] = Ret ([], parser1) /\
    (forall done, received <> done ++ flb_contents parser1) /\
    feed_all flb_ops raw_mp 8176 (flb_new (backing 4)) [received; rest] = Ret ([Err (OutOfMemory 2050)], parser2) /\
    pending 8176 received.
Proof.
  exists (takeN 5 ex_f2), (dropN 5 ex_f2). eexists _, _. split; [vm_compute; reflexivity|].
  split; [vm_compute; reflexivity|]. split.
  { intros d E. apply (f_equal (@rev byte)) in E. rewrite rev_app_distr in E.
    change (rev (takeN 5 ex_f2)) with [x00; x07; x01; x62; xb5] in E. discriminate. }
  split; [vm_compute; reflexivity|]. right. exists x01, x07, x00, x00, [], x08, x19, (dropN 5 ex_f2).
  vm_compute. repeat split; discriminate.
Qed.

(** ** C14, fixed buffers *)

(** An iterator dropped early loses frames, whatever the capacity of the buffer: here a frame of 8 bytes sent [cap] + 1
    times in one chunk. *)
Theorem early_drop_fixed_refuted :
  forall back, 8 <= lenN back <= 2 ^ 32 ->
  exists h last answers parser results parser',
    run_history flb_ops raw_mp 8176 (flb_new back) h = Ret (answers, parser) /\
    feed flb_ops raw_mp 8176 parser last = Ret (results, parser') /\
    exists more parser2, feed_all flb_ops raw_mp 8176 (flb_new back) (map fst h ++ [last]) = Ret (more, parser2) /\
    lenN (somes (concat answers) ++ results) < lenN more.
Proof.
  intros back Hb.
  assert (lenN back <= isize_max) as Hb2 by (unfold isize_max; lia).
  pose (n := N.to_nat (lenN back + 1)).
  pose (pieces := repeat (@nil byte, (x01, x07, @nil byte)) n).
  assert (lenN pieces = lenN back + 1) as Hn by (unfold pieces, n, lenN; rewrite repeat_length; lia).
  assert (lenN (interleave pieces []) = 8 * (lenN back + 1)) as Hl.
  { rewrite <- Hn. unfold pieces, interleave. rewrite app_nil_r. clear. induction n as [|k IH]; [reflexivity|].
    cbn [repeat map concat app]. rewrite lenN_app, lenN_cons, IH. change (lenN (frame x01 x07 [])) with 8. lia. }
  destruct (parser_never_panics _ flb_ops (lenN back) (flb_inv (lenN back)) flb_contents _ raw_mp 8176 (fun c i p => (c, i, p)) (flb_lawful _))
    with (parser := flb_new back) (h := [(interleave pieces [], 0%nat)]) as (answers & parser & E & Hi & Ha).
  { unfold usize_max, isize_max in *. lia. }
  { lia. }
  { exact raw_mp_dispatches. }
  { now apply flb_new_inv. }
  { left. rewrite flb_new_contents, lenN_nil. cbn [map fst concat]. rewrite app_nil_r, Hl. unfold isize_max. lia. }
  destruct (draining_terminates _ flb_ops (lenN back) (flb_inv (lenN back)) flb_contents _ raw_mp 8176 (fun c i p => (c, i, p)) (flb_lawful _))
    with (parser := parser) (chunk := @nil byte) as (results & parser' & E2 & Hi2 & Hw).
  { unfold usize_max, isize_max in *. lia. }
  { lia. }
  { exact raw_mp_dispatches. }
  { assumption. }
  { pose proof (law_fits _ _ _ _ (flb_lawful (lenN back)) _ Hi). rewrite lenN_nil. unfold isize_max in *. lia. }
  destruct (frames_that_fit_are_delivered _ flb_ops (lenN back) (flb_inv (lenN back)) flb_contents _ raw_mp 8176 (fun c i p => (c, i, p)) (flb_lawful _))
    with (parser := flb_new back) (cs := [interleave pieces []; []]) (pieces := pieces) (tail := @nil byte) as (parser2 & E3 & _).
  { unfold usize_max, isize_max in *. lia. }
  { lia. }
  { exact raw_mp_dispatches. }
  { lia. }
  { now apply flb_new_inv. }
  { apply flb_new_contents. }
  { intros c [<-|[<-|[]]]; [rewrite Hl|rewrite lenN_nil]; unfold isize_max; lia. }
  { unfold pieces. apply Forall_forall. intros x Hx. apply repeat_spec in Hx as ->. cbn [fst snd].
    rewrite lenN_nil. split; [|lia]. intros a b Ea. destruct a as [|? ?]; discriminate. }
  { intros a b Ea. destruct a as [|? ?]; discriminate. }
  { cbn [concat]. now rewrite !app_nil_r. }
  exists [(interleave pieces [], 0%nat)], [], answers, parser, results, parser'.
  split; [exact E|]. split; [exact E2|]. eexists _, parser2. split; [exact E3|].
  assert (concat answers = []) as ->.
  { destruct answers as [|[|x l] [|y m]]; cbn [map] in Ha; try discriminate; try reflexivity. }
  change (somes [] ++ results) with results.
  match goal with |- _ < lenN (map ?g ?l) => assert (lenN (map g l) = lenN back + 1) as -> end.
  { rewrite <- Hn. unfold lenN. now rewrite map_length. }
  pose proof (law_fits _ _ _ _ (flb_lawful (lenN back)) _ Hi).
  assert (lenN results = lenN (oks results) + lenN (errs results)) as ->.
  { clear. unfold oks, errs. induction results as [|[x|e] l IH]; cbn [map concat app]; rewrite ?lenN_nil, ?lenN_cons; lia. }
  rewrite lenN_nil in Hw. lia.
Qed.
Example early_drop_fixed_ex :
  run_history flb_ops raw_mp 8176 (flb_new (backing 8)) [(ex_f2 ++ ex_f2, 0%nat); ([], 2%nat)] =
    Ret ([[]; [Some (Ok (x01, x07, [])); None]], mk_flb ex_f2 0) /\
  feed_all flb_ops raw_mp 8176 (flb_new (backing 8)) [ex_f2 ++ ex_f2; []] =
    Ret ([Ok (x01, x07, []); Ok (x01, x07, [])], mk_flb (backing 8) 0).
Proof. split; vm_compute; reflexivity. Qed.

(** ** C17 *)

(** The results depend on the capacity, the contents and the history only. *)
Theorem buffers_interchangeable :
  forall (T1 T2 : Type) (ops1 : buf_ops T1) (ops2 : buf_ops T2) cap inv1 inv2 contents1 contents2
         (P : Type) (mp : byte -> byte -> list byte -> res (result P)) mx f,
    Lawful ops1 cap inv1 contents1 -> Lawful ops2 cap inv2 contents2 ->
    cap <= usize_max -> mx <= 65535 -> dispatches mp mx f ->
    forall p1 p2 h, inv1 p1 -> inv2 p2 -> contents1 p1 = contents2 p2 -> history_fits cap (contents1 p1) h ->
    exists answers p1' p2',
      run_history ops1 mp mx p1 h = Ret (answers, p1') /\
      run_history ops2 mp mx p2 h = Ret (answers, p2') /\
      contents1 p1' = contents2 p2'.
Proof.
  intros T1 T2 ops1 ops2 cap inv1 inv2 ct1 ct2 P mp mx f L1 L2 Hcap Hm Hf p1 p2 h Hi1 Hi2 E Hl.
  destruct (l_history ops1 cap inv1 ct1 L1 Hcap mp mx f Hm Hf p1 h Hi1 Hl) as (r1 & t1 & E1 & _ & Q1 & _).
  rewrite E in *.
  destruct (l_history ops2 cap inv2 ct2 L2 Hcap mp mx f Hm Hf p2 h Hi2 Hl) as (r2 & t2 & E2 & _ & Q2 & _).
  rewrite Q1 in Q2. injection Q2 as <- Q2. exists r1, t1, t2. auto.
Qed.
(** The two buffers of the crate meet the contract. *)
Theorem vec_is_lawful : Lawful vec_ops usize_max (fun v => lenN v <= isize_max) (fun v => v).
Proof. exact vec_lawful. Qed.
Theorem fixed_linear_buffer_is_lawful : forall cap,
  Lawful flb_ops cap
    (fun b => lenN (flb_buffer b) = cap /\ flb_len b <= cap /\ cap <= isize_max)
    (fun b => takeN (flb_len b) (flb_buffer b)).
Proof. exact flb_lawful. Qed.
(** So does the reference queue, so that the contract is about something else than those two *)
Theorem queue_is_lawful : forall cap, cap <= isize_max -> Lawful (queue_ops cap) cap (fun v => lenN v <= cap) (fun v => v).
Proof.
  intros cap Hcap. constructor; cbn [queue_ops b_len b_max_cap b_clear b_extend b_drain b_find b_index b_range]; auto.
  - intros t _. exists []. rewrite lenN_nil. repeat split. lia.
  - intros t l Hi Hl. destruct (N.leb_spec (lenN t + lenN l) isize_max); [|lia]. eexists. split; [reflexivity|].
    split; [rewrite lenN_app, lenN_takeN; lia|]. f_equal.
    destruct (N.leb_spec (lenN l) (cap - lenN t)); [rewrite !takeN_all by lia; reflexivity|f_equal; lia].
  - intros t n Hi Hn. destruct (N.leb_spec n (lenN t)); [|lia]. eexists. split; [reflexivity|]. split; [rewrite lenN_dropN; lia|reflexivity].
Qed.

Print Assumptions parser_never_panics.
Print Assumptions parser_never_panics_vec.
Print Assumptions parser_never_panics_vec_drained.
Print Assumptions parser_never_panics_fixed.
Print Assumptions frames_are_on_the_wire_bounded.
Print Assumptions frames_are_on_the_wire_fixed.
Print Assumptions frames_on_the_wire_fixed_early_drop_refuted.
Print Assumptions large_fixed_buffer_is_vec.
Print Assumptions large_fixed_buffer_8182_refuted.
Print Assumptions frames_that_fit_are_delivered.
Print Assumptions frames_that_do_not_fit_are_refused.
Print Assumptions fixed_buffer_is_vec_when_headers_fit.
Print Assumptions out_of_memory_justified.
Print Assumptions no_byte_lost.
Print Assumptions no_byte_lost_capacity_4_refuted.
Print Assumptions early_drop_fixed_refuted.
Print Assumptions buffers_interchangeable.
Print Assumptions vec_is_lawful.
Print Assumptions fixed_linear_buffer_is_lawful.
Print Assumptions queue_is_lawful.
