(** * Parser theorems for every lawful buffer (proof support) *)
From Coq Require Import List NArith ZArith Bool Lia ZifyBool ZifyNat ZifyN.
From Verif Require Import Base BaseFacts Checksum Buffers DualBuffer Parser SpecBuffer SpecFrame SpecParser
  ProofScan ProofDual ProofSim ProofChecksum ProofParser ProofFeed ProofBuffers ProofStream ProofTrace ProofSmall.
Import ListNotations.
Open Scope N_scope.

Lemma outcome_weight {P} (f : byte -> byte -> list byte -> P) es :
  8 * lenN (oks (map (outcome f) es)) + 2 * lenN (errs (map (outcome f) es)) = weight es.
Proof.
  unfold oks, errs. induction es as [|e es IH]; [reflexivity|].
  cbn [map concat weight]. rewrite !lenN_app. destruct e; cbn [outcome is_frame]; rewrite ?lenN_cons, ?lenN_nil; lia.
Qed.

(** [None] stays *)
Section NoneStays.
  Variable cap : N.
  Context {P : Type} (mp : byte -> byte -> list byte -> res (result P)) (mx : N).
  Hypothesis mx_u16 : mx <= 65535.
  Hypothesis mp_total : forall c i p, lenN p <= mx -> exists r, mp c i p = Ret r.
  Notation q := (queue_ops cap).

  Lemma next_times_add a : forall b (d : dual (T:=list byte)),
    next_times q mp mx (a + b) d =
      let! (rs, d1) := next_times q mp mx a d in
      let! (rs', d2) := next_times q mp mx b d1 in Ret (rs ++ rs', d2).
  Proof.
    induction a as [|a IH]; intros b d; cbn [Nat.add next_times bind].
    - destruct (next_times q mp mx b d) as [[? ?]| |]; reflexivity.
    - destruct (next q mp mx d) as [[r d1]| |]; cbn [bind]; try reflexivity.
      rewrite IH. destruct (next_times q mp mx a d1) as [[rs d2]| |]; cbn [bind]; try reflexivity.
      destruct (next_times q mp mx b d2) as [[rs' d3]| |]; reflexivity.
  Qed.

  Lemma q_none_stays m : forall u s d, dinv cap d -> nspec mp cap mx u s None (dview d) ->
    exists d2, next_times q mp mx m d = Ret (repeat None m, d2) /\ dinv cap d2 /\ dview d2 = dview d.
  Proof.
    induction m as [|m IH]; intros u s d Hi Hn; cbn [next_times repeat].
    - exists d. auto.
    - destruct (q_next cap mp mx mx_u16 mp_total d Hi) as (r & d1 & E & Hi1 & Hn1 & _).
      destruct (nspec_none_stays cap mp mx _ _ _ _ _ _ Hn Hn1) as [-> Ev].
      rewrite E. cbn [bind]. destruct (IH _ _ d1 Hi1 Hn1) as (d2 & E2 & Hi2 & Ev2).
      rewrite E2. cbn [bind]. exists d2. split; [reflexivity|]. split; [assumption|congruence].
  Qed.

  Lemma q_feed_none_stays buf c k rs b m : lenN buf <= cap -> cap <= usize_max -> lenN buf + lenN c <= isize_max ->
    feed_times q mp mx buf c (S k) = Ret (rs ++ [None], b) ->
    feed_times q mp mx buf c (S k + m) = Ret (rs ++ [None] ++ repeat None m, b).
  Proof.
    intros H1 H2 H3. unfold feed_times. destruct (q_consume cap mx buf c H1 H2 H3) as (d & E & Hi & _).
    rewrite E. cbn [bind]. intros H. rewrite next_times_add.
    replace (S k) with (k + 1)%nat in * by lia. rewrite next_times_add in *.
    destruct (q_next_times cap mp mx mx_u16 mp_total k d Hi) as (rs1 & d1 & E1 & Hi1 & _).
    rewrite E1 in *. cbn [bind next_times] in *.
    destruct (q_next cap mp mx mx_u16 mp_total d1 Hi1) as (r & d2 & E2 & Hi2 & Hn2 & _).
    rewrite E2 in *. cbn [bind] in *. rewrite q_d_drop in * by assumption. cbn [bind] in *.
    injection H as Ers Eb. apply app_inj_tail in Ers. destruct Ers as [-> ->].
    destruct (q_none_stays m _ _ d2 Hi2 Hn2) as (d3 & E3 & Hi3 & Ev3). rewrite E3. cbn [bind].
    rewrite q_d_drop by assumption. cbn [bind]. rewrite Ev3, Eb. now rewrite <- app_assoc.
  Qed.
End NoneStays.

Section Lawful.
  Context {T : Type} (ops : buf_ops T) (cap : N) (inv : T -> Prop) (contents : T -> list byte).
  Hypothesis L : Lawful ops cap inv contents.
  Hypothesis cap_usize : cap <= usize_max.
  Context {P : Type} (mp : byte -> byte -> list byte -> res (result P)) (mx : N)
          (f : byte -> byte -> list byte -> P).
  Hypothesis mx_u16 : mx <= 65535.
  Hypothesis mp_f : dispatches mp mx f.
  Notation q := (queue_ops cap).

  Lemma RB_self t : inv t -> RB inv contents t (contents t).
  Proof. split; auto. Qed.

  Lemma l_feed t c : inv t -> lenN (contents t) + lenN c <= isize_max ->
    exists es u t', feed ops mp mx t c = Ret (map (outcome f) es, t') /\ inv t' /\ contents t' = takeN cap u /\
      trace cap mx (contents t ++ c) es u /\ decide mx u = Wait /\ (lenN u <= cap \/ lenN u < 6).
  Proof.
    intros Hi Hl. pose proof (law_fits _ _ _ _ L t Hi) as Hcap.
    destruct (q_feed_trace cap mp mx f mx_u16 mp_f (contents t) c Hcap cap_usize Hl) as (es & u & E & Ht & Hw & Hu).
    destruct (sim_feed ops cap inv contents L mp mx t (contents t) c (RB_self t Hi) _ E) as ([rs t'] & E' & Ers & Hi' & Hc').
    cbn [fst snd] in *. subst rs. exists es, u, t'. auto 10.
  Qed.

  Lemma l_feed_times t c k : inv t -> lenN (contents t) + lenN c <= isize_max ->
    exists rs es u t', feed_times ops mp mx t c k = Ret (rs, t') /\ inv t' /\ contents t' = takeN cap u /\
      somes rs = map (outcome f) es /\ trace cap mx (contents t ++ c) es u.
  Proof.
    intros Hi Hl. pose proof (law_fits _ _ _ _ L t Hi) as Hcap.
    destruct (q_feed_times_trace cap mp mx f mx_u16 mp_f (contents t) c k Hcap cap_usize Hl) as (rs & es & u & E & Es & Ht).
    destruct (sim_feed_times ops cap inv contents L mp mx t (contents t) c k (RB_self t Hi) _ E) as ([rs' t'] & E' & Ers & Hi' & Hc').
    cbn [fst snd] in *. subst rs'. exists rs, es, u, t'. auto 10.
  Qed.

  Lemma l_none_stays t c k rs t' m : inv t -> lenN (contents t) + lenN c <= isize_max ->
    feed_times ops mp mx t c (S k) = Ret (rs ++ [None], t') ->
    exists t2, feed_times ops mp mx t c (S k + m) = Ret (rs ++ [None] ++ repeat None m, t2) /\
      contents t2 = contents t'.
  Proof.
    intros Hi Hl E. pose proof (law_fits _ _ _ _ L t Hi) as Hcap.
    destruct (q_feed_times_trace cap mp mx f mx_u16 mp_f (contents t) c (S k) Hcap cap_usize Hl) as (rs0 & es & u & E0 & _).
    destruct (sim_feed_times ops cap inv contents L mp mx t (contents t) c (S k) (RB_self t Hi) _ E0) as ([rs' t1] & E' & Ers & Hi' & Hc').
    cbn [fst snd] in *. subst rs'. rewrite E in E'. injection E' as <- <-.
    pose proof (q_feed_none_stays cap mp mx mx_u16 (mp_tot mp mx f mp_f) _ _ _ _ _ m Hcap cap_usize Hl E0) as E1.
    destruct (sim_feed_times ops cap inv contents L mp mx t (contents t) c (S k + m) (RB_self t Hi) _ E1) as ([rs' t2] & E2 & Ers & Hi2 & Hc2).
    cbn [fst snd] in *. subst rs'. exists t2. split; [assumption|congruence].
  Qed.

  Lemma l_feed_all_trace t cs : 5 <= cap -> inv t -> lenN (contents t) <= N.max 5 (mx + 7) -> chunks_fit mx cs ->
    exists es t', feed_all ops mp mx t cs = Ret (map (outcome f) es, t') /\ inv t' /\
      trace cap mx (contents t ++ concat cs) es (contents t') /\
      (decide mx (contents t) = Wait -> decide mx (contents t') = Wait) /\
      lenN (contents t') <= N.max 5 (mx + 7).
  Proof.
    intros H5 Hi Hl Hf. pose proof (law_fits _ _ _ _ L t Hi) as Hcap.
    destruct (q_feed_all_trace cap mp mx f mx_u16 mp_f cs (contents t) H5 Hcap cap_usize Hl Hf)
      as (es & u & E & Ht & Hw & Hu & Hu2).
    destruct (sim_feed_all ops cap inv contents L mp mx cs t (contents t) (RB_self t Hi) _ E) as ([rs t'] & E' & Ers & Hi' & Hc').
    cbn [fst snd] in *. subst rs. exists es, t'. rewrite Hc'. auto 10.
  Qed.

  Lemma l_feed_all_ret t cs : inv t -> lenN (contents t) <= N.max 5 (mx + 7) -> chunks_fit mx cs ->
    exists es t', feed_all ops mp mx t cs = Ret (map (outcome f) es, t') /\ inv t'.
  Proof.
    intros Hi Hl Hf. pose proof (law_fits _ _ _ _ L t Hi) as Hcap.
    destruct (q_feed_all_ret cap mp mx f mx_u16 mp_f cs (contents t) Hcap cap_usize Hl Hf)
      as (es & u & E & Hu).
    destruct (sim_feed_all ops cap inv contents L mp mx cs t (contents t) (RB_self t Hi) _ E) as ([rs t'] & E' & Ers & Hi' & Hc').
    cbn [fst snd] in *. subst rs. exists es, t'. auto.
  Qed.

  Lemma l_feed_all_scan t cs : 5 <= cap -> inv t -> decide mx (contents t) = Wait -> chunks_fit mx cs ->
    mx + 7 <= cap \/ fits cap mx (contents t ++ concat cs) ->
    exists t', feed_all ops mp mx t cs = Ret (map (outcome f) (fst (scan mx (contents t ++ concat cs))), t') /\
      inv t' /\ contents t' = snd (scan mx (contents t ++ concat cs)).
  Proof.
    intros H5 Hi Hw Hf Hor. pose proof (law_fits _ _ _ _ L t Hi) as Hcap.
    assert (feed_all q mp mx (contents t) cs =
      Ret (map (outcome f) (fst (scan mx (contents t ++ concat cs))), snd (scan mx (contents t ++ concat cs)))) as E.
    { destruct Hor as [Hbig|Hfit].
      - apply q_feed_all_big; assumption.
      - apply q_feed_all_small; assumption. }
    destruct (sim_feed_all ops cap inv contents L mp mx cs t (contents t) (RB_self t Hi) _ E) as ([rs t'] & E' & Ers & Hi' & Hc').
    cbn [fst snd] in *. subst rs. exists t'. auto.
  Qed.

  Lemma l_history t h : inv t -> history_fits cap (contents t) h ->
    exists rss t', run_history ops mp mx t h = Ret (rss, t') /\ inv t' /\
      run_history q mp mx (contents t) h = Ret (rss, contents t') /\
      Forall (fun r => exists e, r = outcome f e) (somes (concat rss)).
  Proof.
    intros Hi Hf. pose proof (law_fits _ _ _ _ L t Hi) as Hcap.
    destruct (q_history_ret cap mp mx f mx_u16 mp_f h (contents t) Hcap cap_usize Hf)
      as (rss & u & E & Hu & Hall).
    destruct (sim_run_history ops cap inv contents L mp mx h t (contents t) (RB_self t Hi) _ E) as ([rs t'] & E' & Ers & Hi' & Hc').
    cbn [fst snd] in *. subst rs. exists rss, t'. rewrite Hc'. auto 10.
  Qed.
End Lawful.

(** ** [Vec] *)
Section Vec.
  Context {P : Type} (mp : byte -> byte -> list byte -> res (result P)) (mx : N)
          (f : byte -> byte -> list byte -> P).
  Hypothesis mx_u16 : mx <= 65535.
  Hypothesis mp_f : dispatches mp mx f.

  Lemma usize_ge : usize_max <= usize_max. Proof. lia. Qed.

  Lemma vec_feed_all cs : chunks_fit mx cs ->
    feed_all vec_ops mp mx [] cs =
      Ret (map (outcome f) (fst (scan mx (concat cs))), snd (scan mx (concat cs))).
  Proof.
    intros Hf.
    destruct (l_feed_all_scan vec_ops usize_max vec_inv (fun v => v) vec_lawful usize_ge mp mx f mx_u16 mp_f [] cs)
      as (t' & E & _ & Hc).
    - unfold usize_max. lia.
    - unfold vec_inv. rewrite lenN_nil. unfold isize_max. lia.
    - reflexivity.
    - assumption.
    - left. unfold usize_max. lia.
    - cbn [app] in *. rewrite E, Hc. reflexivity.
  Qed.

  Lemma vec_trace cs : chunks_fit mx cs ->
    exists es t, feed_all vec_ops mp mx [] cs = Ret (map (outcome f) es, t) /\
      trace usize_max mx (concat cs) es t /\ decide mx t = Wait.
  Proof.
    intros Hf. rewrite vec_feed_all by assumption. eexists _, _. split; [reflexivity|].
    split; [now apply scan_trace|apply scan_rest_wait].
  Qed.

  Lemma vec_history h : lenN (concat (map fst h)) <= isize_max ->
    exists rss es t, run_history vec_ops mp mx [] h = Ret (rss, t) /\ somes (concat rss) = map (outcome f) es /\
      trace usize_max mx (concat (map fst h)) es t /\ lenN t <= lenN (concat (map fst h)) /\
      (map (outcome f) (fst (scan mx (concat (map fst h)))) = somes (concat rss) ++ map (outcome f) (fst (scan mx t))) /\
      snd (scan mx (concat (map fst h))) = snd (scan mx t).
  Proof.
    assert (forall h0 buf, lenN buf + lenN (concat (map fst h0)) <= isize_max ->
      exists rss es t, run_history (queue_ops usize_max) mp mx buf h0 = Ret (rss, t) /\ somes (concat rss) = map (outcome f) es /\
        trace usize_max mx (buf ++ concat (map fst h0)) es t) as Htr.
    { induction h0 as [|[c k] h' IH]; intros buf Hl; cbn [run_history map fst concat] in *.
      - exists [], [], buf. rewrite app_nil_r. split; [reflexivity|]. split; [reflexivity|constructor].
      - rewrite lenN_app in Hl.
        destruct (q_feed_times_trace usize_max mp mx f mx_u16 mp_f buf c k) as (rs & es & t & E & Es & Ht);
          [unfold usize_max, isize_max in *; lia..|].
        rewrite E. cbn [bind]. pose proof (trace_weight _ _ _ _ _ Ht) as Hw. rewrite lenN_app in Hw.
        rewrite takeN_all by (unfold usize_max, isize_max in *; lia).
        destruct (IH t) as (rss & es' & t' & E' & Es' & Ht'); [lia|].
        rewrite E'. cbn [bind]. exists (rs :: rss), (es ++ es'), t'. split; [reflexivity|]. split.
        + unfold somes in *. cbn [concat]. rewrite map_app, concat_app, map_app, Es, Es'. reflexivity.
        + rewrite app_assoc. eapply trace_trans; [|exact Ht']. now apply trace_app. }
    intros Hl. destruct (Htr h []) as (rss & es & t & E & Es & Ht); [rewrite lenN_nil; lia|].
    destruct (q_history_unb mp mx f mx_u16 mp_f h []) as (rss' & t' & E' & H1 & H2 & _); [rewrite lenN_nil; lia|].
    rewrite E in E'. injection E' as <- <-. cbn [app] in *.
    assert (RB vec_inv (fun v => v) [] []) as HRB.
    { split; [|reflexivity]. unfold vec_inv. rewrite lenN_nil. unfold isize_max. lia. }
    destruct (sim_run_history vec_ops usize_max vec_inv (fun v => v) vec_lawful mp mx h [] [] HRB _ E) as ([rs t'] & E' & Ers & Hi' & Hc').
    cbn [fst snd] in *. subst rs t'. exists rss, es, t. do 3 (split; [assumption|]). split; [|auto].
    pose proof (trace_weight _ _ _ _ _ Ht). lia.
  Qed.

  Lemma vec_feed buf c : lenN buf + lenN c <= isize_max ->
    feed vec_ops mp mx buf c = Ret (map (outcome f) (fst (scan mx (buf ++ c))), snd (scan mx (buf ++ c))).
  Proof.
    intros Hl.
    assert (feed (queue_ops usize_max) mp mx buf c = Ret (map (outcome f) (fst (scan mx (buf ++ c))), snd (scan mx (buf ++ c)))) as E.
    { apply q_feed_big; unfold usize_max, isize_max in *; try assumption; lia. }
    assert (RB vec_inv (fun v => v) buf buf) as HRB.
    { split; [|reflexivity]. unfold vec_inv. lia. }
    destruct (sim_feed vec_ops usize_max vec_inv (fun v => v) vec_lawful mp mx buf buf c HRB _ E) as ([rs t'] & E' & Ers & Hi' & Hc').
    cbn [fst snd] in *. subst rs t'. assumption.
  Qed.
End Vec.
