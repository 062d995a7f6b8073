(** * Draining iterators and feeding chunks over the reference queue (proof support) *)
From Coq Require Import List NArith ZArith Bool Lia ZifyBool ZifyNat ZifyN.
From Verif Require Import Base BaseFacts Checksum Buffers DualBuffer Parser SpecBuffer SpecFrame SpecParser
  ProofScan ProofDual ProofChecksum ProofParser.
Import ListNotations.
Open Scope N_scope.

(** results of consecutive [next] calls up to and including the first [None] *)
Inductive nruns {P} (mp : byte -> byte -> list byte -> res (result P)) (cap mx : N)
  : list byte -> list (result P) -> list byte -> Prop :=
| nr_end u s t : nspec mp cap mx u s None t -> nruns mp cap mx s [] t
| nr_cons u s r s1 es t :
    nspec mp cap mx u s (Some r) s1 -> nruns mp cap mx s1 es t -> nruns mp cap mx s (r :: es) t.

(** results of exactly [k] calls of [next] *)
Inductive ntimes {P} (mp : byte -> byte -> list byte -> res (result P)) (cap mx : N)
  : nat -> list byte -> list (option (result P)) -> list byte -> Prop :=
| nt_O s : ntimes mp cap mx O s [] s
| nt_S k u s r s1 rs t :
    nspec mp cap mx u s r s1 -> ntimes mp cap mx k s1 rs t -> ntimes mp cap mx (S k) s (r :: rs) t.

Lemma decide_good_len m s c i p : decide m s = Good c i p -> lenN p + 8 <= lenN s /\ lenN p <= m.
Proof.
  intros H. pose proof (decide_skip_le m s) as Hle. rewrite H in Hle. cbn [vskip] in Hle.
  split; [assumption|].
  destruct s as [|b0 [|b1 [|? [|? [|l0 [|l1 rest]]]]]]; cbn [decide] in H;
    repeat match goal with H : context [if ?b then _ else _] |- _ => destruct b eqn:? end;
    try discriminate. assert (takeN (b2n l0 + 256 * b2n l1) rest = p) as <- by congruence. rewrite lenN_takeN. lia.
Qed.

Lemma decide_bad_len m s x y : decide m s = Bad x y -> 8 <= lenN s.
Proof.
  intros H.
  destruct s as [|b0 [|b1 [|? [|? [|l0 [|l1 rest]]]]]]; cbn [decide] in H;
    repeat match goal with H : context [if ?b then _ else _] |- _ => destruct b eqn:? end;
    try discriminate. rewrite !lenN_cons. lia.
Qed.

Ltac dlen :=
  match goal with
  | H : decide _ _ = Bad _ _ |- _ => pose proof (decide_bad_len _ _ _ _ H)
  | H : decide _ _ = Good _ _ _ |- _ => pose proof (decide_good_len _ _ _ _ _ H)
  end.

Section S.
  Variable cap : N.
  Context {P : Type} (mp : byte -> byte -> list byte -> res (result P)) (mx : N).
  Hypothesis mx_u16 : mx <= 65535.
  Hypothesis mp_total : forall c i p, lenN p <= mx -> exists r, mp c i p = Ret r.
  Notation q := (queue_ops cap).

  Lemma nspec_progress u s r t : nspec mp cap mx u s (Some r) t -> lenN t + 2 <= lenN s.
  Proof. clear mx_u16 mp_total.
    intros H. inversion H; subst;
      match goal with H : skips _ _ _ |- _ => apply skips_len in H end; rewrite lenN_dropN.
    - dlen. lia.
    - dlen. lia.
    - lia.
  Qed.

  Lemma nspec_suffix u s r t : nspec mp cap mx u s r t -> exists k, k <= lenN s /\ t = dropN k s.
  Proof. clear mx_u16 mp_total.
    intros H. inversion H; subst;
      match goal with H : skips _ _ _ |- _ => apply skips_suffix in H; destruct H as (k & Hk & ->) end.
    - exists k. auto.
    - exists (k + 2). rewrite dropN_dropN. dlen. rewrite lenN_dropN in *. split; [lia|reflexivity].
    - exists (k + (lenN p + 8)). rewrite dropN_dropN. dlen. rewrite lenN_dropN in *. split; [lia|reflexivity].
    - exists (k + 2). rewrite dropN_dropN. rewrite lenN_dropN in *. split; [lia|reflexivity].
  Qed.

  Lemma q_drain_loop fuel : forall d, dinv cap d -> (N.to_nat (lenN (dview d)) < fuel)%nat ->
    exists es d', drain_loop q mp mx fuel d = Ret (es, d') /\ dinv cap d' /\
      nruns mp cap mx (dview d) es (dview d').
  Proof.
    induction fuel as [|f IH]; intros d Hi Hf; [lia|]. cbn [drain_loop].
    destruct (q_next cap mp mx mx_u16 mp_total d Hi) as (r & d1 & E & Hi1 & Hn & _).
    rewrite E. cbn [bind]. destruct r as [r|].
    - destruct (IH d1 Hi1) as (es & d2 & E2 & Hi2 & Hr).
      { apply nspec_progress in Hn. lia. }
      rewrite E2. cbn [bind]. eexists _, _. split; [reflexivity|]. split; [assumption|].
      econstructor; eassumption.
    - eexists _, _. split; [reflexivity|]. split; [assumption|]. econstructor; eassumption.
  Qed.

  Lemma q_drain_iter d : dinv cap d ->
    exists es d', drain_iter q mp mx d = Ret (es, d') /\ dinv cap d' /\
      nruns mp cap mx (dview d) es (dview d').
  Proof.
    intros Hi. unfold drain_iter. apply q_drain_loop; [assumption|].
    rewrite dview_len. unfold dunder. cbn [b_len queue_ops]. dinv_destruct Hi. lia.
  Qed.

  Lemma q_next_times k : forall d, dinv cap d ->
    exists rs d', next_times q mp mx k d = Ret (rs, d') /\ dinv cap d' /\
      ntimes mp cap mx k (dview d) rs (dview d').
  Proof.
    induction k as [|k IH]; intros d Hi; cbn [next_times].
    - eexists _, _. split; [reflexivity|]. split; [assumption|constructor].
    - destruct (q_next cap mp mx mx_u16 mp_total d Hi) as (r & d1 & E & Hi1 & Hn & _).
      rewrite E. cbn [bind]. destruct (IH d1 Hi1) as (rs & d2 & E2 & Hi2 & Hr).
      rewrite E2. cbn [bind]. eexists _, _. split; [reflexivity|]. split; [assumption|].
      econstructor; eassumption.
  Qed.

  Lemma nruns_skips s s' es t : skips mx s s' -> nruns mp cap mx s' es t -> nruns mp cap mx s es t.
  Proof. clear mx_u16 mp_total.
    intros Hs H. inversion H; subst; [eapply nr_end|eapply nr_cons; [|eassumption]];
      (eapply nspec_skips; [apply N.le_refl|eassumption..]).
  Qed.

  Lemma ntimes_suffix k s rs t : ntimes mp cap mx k s rs t -> exists j, j <= lenN s /\ t = dropN j s.
  Proof. clear mx_u16 mp_total.
    induction 1.
    - exists 0. split; [lia|reflexivity].
    - destruct (nspec_suffix _ _ _ _ H) as (a & Ha & ->). destruct IHntimes as (b & Hb & ->).
      exists (a + b). rewrite dropN_dropN. rewrite lenN_dropN in Hb. split; [lia|reflexivity].
  Qed.

  Lemma nruns_suffix s es t : nruns mp cap mx s es t -> exists j, j <= lenN s /\ t = dropN j s.
  Proof. clear mx_u16 mp_total.
    induction 1.
    - eapply nspec_suffix; eassumption.
    - destruct (nspec_suffix _ _ _ _ H) as (a & Ha & ->). destruct IHnruns as (b & Hb & ->).
      exists (a + b). rewrite dropN_dropN. rewrite lenN_dropN in Hb. split; [lia|reflexivity].
  Qed.

  Lemma nruns_count s es t : nruns mp cap mx s es t -> 2 * lenN es <= lenN s.
  Proof. clear mx_u16 mp_total.
    induction 1; rewrite ?lenN_nil, ?lenN_cons; [lia|]. apply nspec_progress in H. lia.
  Qed.

  (** [feed], any capacity *)
  Lemma q_feed buf c : lenN buf <= cap -> cap <= usize_max -> lenN buf + lenN c <= isize_max ->
    exists es t, feed q mp mx buf c = Ret (es, takeN cap t) /\ nruns mp cap mx (buf ++ c) es t.
  Proof.
    intros H1 H2 H3. destruct (q_consume cap mx buf c H1 H2 H3) as (d & E & Hi & Hs & _ & _).
    unfold feed. rewrite E. cbn [bind]. destruct (q_drain_iter d Hi) as (es & d' & E' & Hi' & Hr).
    rewrite E'. cbn [bind]. rewrite q_d_drop by assumption. cbn [bind].
    eexists _, _. split; [reflexivity|]. eapply nruns_skips; eassumption.
  Qed.

  Lemma q_feed_times buf c k : lenN buf <= cap -> cap <= usize_max -> lenN buf + lenN c <= isize_max ->
    exists rs s t, feed_times q mp mx buf c k = Ret (rs, takeN cap t) /\ skips mx (buf ++ c) s /\
      ntimes mp cap mx k s rs t.
  Proof.
    intros H1 H2 H3. destruct (q_consume cap mx buf c H1 H2 H3) as (d & E & Hi & Hs & _ & _).
    unfold feed_times. rewrite E. cbn [bind]. destruct (q_next_times k d Hi) as (rs & d' & E' & Hi' & Hr).
    rewrite E'. cbn [bind]. rewrite q_d_drop by assumption. cbn [bind].
    eexists _, _, _. split; [reflexivity|]. split; eassumption.
  Qed.

  (** after [None] the iterator is stuck at [None] *)
  Lemma nspec_none_stays u u' s t r t' :
    nspec mp cap mx u s None t -> nspec mp cap mx u' t r t' -> r = None /\ t' = t.
  Proof. clear mx_u16 mp_total.
    intros H1 H2. inversion H1 as [? ? Hs Hd Hl| | |]; subst.
    assert (forall x, skips mx t x -> x = t) as Hno.
    { intros x Hx. inversion Hx; subst; [reflexivity|congruence]. }
    inversion H2; subst; match goal with H : skips _ t _ |- _ => apply Hno in H; subst end.
    - auto.
    - congruence.
    - congruence.
    - lia.
  Qed.
End S.

Section Big.
  (** Capacities that can hold every incomplete candidate *)
  Variable cap : N.
  Context {P : Type} (mp : byte -> byte -> list byte -> res (result P)) (mx : N)
          (f : byte -> byte -> list byte -> P).
  Hypothesis mx_u16 : mx <= 65535.
  Hypothesis mp_f : forall c i p, lenN p <= mx -> mp c i p = Ret (Ok (f c i p)).
  Hypothesis cap_big : mx + 7 <= cap.
  Notation q := (queue_ops cap).

  Lemma mp_total_f : forall c i p, lenN p <= mx -> exists r, mp c i p = Ret r.
  Proof. intros. rewrite mp_f by assumption. eauto. Qed.

  Lemma nspec_big_some u s r t : nspec mp cap mx u s (Some r) t ->
    exists e, r = outcome f e /\ fst (scan mx s) = e :: fst (scan mx t) /\ snd (scan mx s) = snd (scan mx t).
  Proof.
    intros H. inversion H; subst;
      match goal with H : skips _ _ _ |- _ => rewrite (skips_scan _ _ _ H) end.
    - match goal with H : decide mx ?z = Bad x y |- _ =>
        exists (EBad x y); rewrite (scan_step mx z) by congruence; rewrite H end. cbn. auto.
    - dlen. match goal with H : decide mx ?z = Good c i p |- _ =>
        exists (EFrame c i p); rewrite (scan_step mx z) by congruence; rewrite H end. cbn [vevents vskip].
      match goal with H : mp _ _ _ = _ |- _ => rewrite mp_f in H by lia; injection H as <- end. auto.
    - exfalso. lia.
  Qed.

  Lemma nspec_big_none u s t : nspec mp cap mx u s None t -> scan mx s = ([], t) /\ decide mx t = Wait.
  Proof.
    intros H. inversion H; subst. split; [|assumption].
    match goal with H : skips _ _ _ |- _ => rewrite (skips_scan _ _ _ H) end. now apply scan_wait.
  Qed.

  Lemma nruns_big s es t : nruns mp cap mx s es t -> scan mx s = (fst (scan mx s), t) /\ es = map (outcome f) (fst (scan mx s)).
  Proof.
    induction 1.
    - apply nspec_big_none in H. destruct H as [-> _]. auto.
    - apply nspec_big_some in H. destruct H as (e & -> & E1 & E2). destruct IHnruns as [E3 E4].
      split.
      + rewrite (surjective_pairing (scan mx s)) at 1. f_equal. rewrite E2, E3. reflexivity.
      + rewrite E1. cbn [map]. f_equal. assumption.
  Qed.

  Lemma wait_len s : decide mx s = Wait -> lenN s <= cap.
  Proof. intros H. apply decide_wait_bound in H. lia. Qed.

  Lemma q_feed_big buf c : lenN buf <= cap -> cap <= usize_max -> lenN buf + lenN c <= isize_max ->
    feed q mp mx buf c = Ret (map (outcome f) (fst (scan mx (buf ++ c))), snd (scan mx (buf ++ c))).
  Proof.
    intros H1 H2 H3. destruct (q_feed cap mp mx mx_u16 mp_total_f buf c H1 H2 H3) as (es & t & E & Hr).
    apply nruns_big in Hr. destruct Hr as [E1 E2].
    pose proof (scan_rest_wait mx (buf ++ c)) as Hw. rewrite E1 in Hw. cbn [snd] in Hw.
    rewrite E, E1, E2. cbn [fst snd]. rewrite takeN_all by now apply wait_len. reflexivity.
  Qed.

  Lemma q_feed_all_big cs : forall buf, decide mx buf = Wait -> cap <= usize_max ->
    (forall c, In c cs -> lenN c + N.max 5 (mx + 7) <= isize_max) ->
    feed_all q mp mx buf cs =
      Ret (map (outcome f) (fst (scan mx (buf ++ concat cs))), snd (scan mx (buf ++ concat cs))).
  Proof.
    induction cs as [|c cs IH]; intros buf Hw Hc Hb; cbn [feed_all concat].
    - rewrite app_nil_r, scan_wait by assumption. reflexivity.
    - pose proof (Hb c (or_introl eq_refl)). pose proof (decide_wait_bound mx buf Hw).
      rewrite q_feed_big by (try lia; now apply wait_len). cbn [bind].
      rewrite IH; [|apply scan_rest_wait|assumption|intros; apply Hb; now right]. cbn [bind].
      rewrite app_assoc, (scan_app mx (buf ++ c) (concat cs)). cbn [fst snd].
      now rewrite map_app.
  Qed.

  (** arbitrary numbers of [next] calls *)
  Lemma ntimes_big k s rs t : ntimes mp cap mx k s rs t ->
    map (outcome f) (fst (scan mx s)) = somes rs ++ map (outcome f) (fst (scan mx t)) /\
    snd (scan mx s) = snd (scan mx t).
  Proof.
    induction 1; [auto|]. destruct IHntimes as [E1 E2].
    destruct r as [r|].
    - apply nspec_big_some in H. destruct H as (e & -> & E3 & E4). rewrite E3, E4.
      split; [|assumption]. unfold somes in *. cbn [map concat app]. now f_equal.
    - apply nspec_big_none in H. destruct H as [H Hd]. rewrite H. cbn [fst snd map].
      rewrite (scan_wait mx s1) in E1, E2 by assumption. cbn [fst snd map] in E1, E2.
      split; [|assumption]. unfold somes in *. cbn [map concat app]. assumption.
  Qed.
End Big.

Section Unbounded.
  (** a queue which never truncates (as [Vec]) *)
  Context {P : Type} (mp : byte -> byte -> list byte -> res (result P)) (mx : N)
          (f : byte -> byte -> list byte -> P).
  Hypothesis mx_u16 : mx <= 65535.
  Hypothesis mp_f : forall c i p, lenN p <= mx -> mp c i p = Ret (Ok (f c i p)).
  Notation q := (queue_ops usize_max).

  Lemma q_history_unb h : forall buf, lenN buf + lenN (concat (map fst h)) <= isize_max ->
    exists rss buf', run_history q mp mx buf h = Ret (rss, buf') /\
      map (outcome f) (fst (scan mx (buf ++ concat (map fst h)))) =
        somes (concat rss) ++ map (outcome f) (fst (scan mx buf')) /\
      snd (scan mx (buf ++ concat (map fst h))) = snd (scan mx buf') /\
      exists j, j <= lenN (buf ++ concat (map fst h)) /\ buf' = dropN j (buf ++ concat (map fst h)).
  Proof.
    induction h as [|[c k] h IH]; intros buf Hb; cbn [map fst concat run_history] in *.
    - rewrite app_nil_r. eexists _, _. split; [reflexivity|]. split; [reflexivity|]. split; [reflexivity|].
      exists 0. split; [lia|reflexivity].
    - rewrite lenN_app in Hb.
      destruct (q_feed_times usize_max mp mx mx_u16 (mp_total_f mp mx f mp_f) buf c k)
        as (rs & s & t & E & Hs & Hn); [unfold usize_max, isize_max in *; lia..|].
      assert (mx + 7 <= usize_max) as Hbig by (unfold usize_max; lia).
      destruct (ntimes_big usize_max mp mx f mx_u16 mp_f Hbig _ _ _ _ Hn) as [E1 E2].
      destruct (ntimes_suffix _ _ _ _ _ _ _ Hn) as (j & Hj & Ht).
      destruct (skips_suffix _ _ _ Hs) as (i & Hi & Hs').
      rewrite <- (skips_scan _ _ _ Hs) in E1, E2.
      assert (lenN t <= lenN buf + lenN c) as Hlt.
      { rewrite Ht, lenN_dropN, Hs', lenN_dropN, lenN_app. lia. }
      rewrite takeN_all in E by (unfold usize_max, isize_max in *; lia).
      rewrite E. cbn [bind].
      destruct (IH t) as (rss & buf' & E3 & E4 & E5 & m & Hm & E6); [lia|].
      rewrite E3. cbn [bind]. eexists _, _. split; [reflexivity|].
      assert (t ++ concat (map fst h) = dropN (i + j) (buf ++ c ++ concat (map fst h))) as Et.
      { rewrite Ht, Hs', dropN_dropN. rewrite app_assoc.
        rewrite (dropN_app_le (i + j) (buf ++ c)); [reflexivity|]. rewrite Hs', lenN_dropN in Hj. lia. }
      split; [|split].
      + rewrite app_assoc, (scan_app mx (buf ++ c)). cbn [fst]. rewrite map_app, E1, E2.
        cbn [concat]. unfold somes in *. rewrite map_app, concat_app, <- !app_assoc. f_equal.
        rewrite <- E4. rewrite (scan_app mx t). cbn [fst]. now rewrite map_app.
      + rewrite app_assoc, (scan_app mx (buf ++ c)). cbn [snd]. rewrite E2.
        rewrite <- E5. rewrite (scan_app mx t). reflexivity.
      + exists (i + j + m). rewrite E6, Et, dropN_dropN. split; [|reflexivity].
        rewrite Et, lenN_dropN in Hm. rewrite Hs', lenN_dropN in Hj. rewrite !lenN_app in *. lia.
  Qed.
End Unbounded.
