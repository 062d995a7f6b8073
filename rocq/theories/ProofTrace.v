(** * Traces of the parser over the reference queue (proof support) *)
From Coq Require Import List NArith ZArith Bool Lia ZifyBool ZifyNat ZifyN.
From Verif Require Import Base BaseFacts Checksum Buffers DualBuffer Parser SpecBuffer SpecFrame SpecParser
  ProofScan ProofDual ProofChecksum ProofParser ProofFeed ProofStream.
Import ListNotations.
Open Scope N_scope.

Lemma no_frame_decide m s : m <= 65535 -> decide m s <> Wait ->
  (forall c i p, decide m s <> Good c i p) -> no_frame_at m s.
Proof.
  intros Hm Hw Hg u c i p v Hp E. apply (Hg c i p). rewrite <- (decide_app m s u Hw), E.
  now apply decide_frame.
Qed.

Lemma no_frame_not_sync m b s : b <> xb5 -> no_frame_at m (b :: s).
Proof. intros Hb u c i p v _ E. unfold frame in E. cbn [app] in E. congruence. Qed.

Lemma decide_skip_cases m s k : decide m s = Skip k ->
  (k = 1 /\ exists b s', s = b :: s') \/ (k = 2 /\ exists s', s = xb5 :: x62 :: s').
Proof.
  intros Ed. destruct s as [|b0 [|b1 [|? [|? [|l0 [|l1 rest]]]]]]; cbn [decide] in Ed;
    repeat match goal with H : context [if ?b then _ else _] |- _ => destruct b eqn:? end;
    try discriminate; try (left; split; [congruence|eauto]).
  right. split; [congruence|]. eexists.
  assert (b0 = xb5) as -> by (apply byte_eqb_eq; destruct (byte_eqb b0 xb5); [reflexivity|discriminate]).
  assert (b1 = x62) as -> by (apply byte_eqb_eq; destruct (byte_eqb b1 x62); [reflexivity|discriminate]).
  reflexivity.
Qed.

Lemma trace_skips cap m s t es r : m <= 65535 -> skips m s t -> trace cap m t es r -> trace cap m s es r.
Proof.
  intros Hm H. revert es r. induction H as [s|s k t Hd Hs IH]; intros es r Ht; [assumption|].
  specialize (IH _ _ Ht).
  assert (no_frame_at m s) as Hn by (apply no_frame_decide; congruence).
  destruct (decide_skip_cases _ _ _ Hd) as [(-> & b & s' & ->)|(-> & s' & ->)].
  - apply tr_skip; assumption.
  - apply tr_skip; [assumption|]. apply tr_skip; [now apply no_frame_not_sync|assumption].
Qed.

Lemma trace_trans cap m s es1 t : trace cap m s es1 t ->
  forall es2 r, trace cap m t es2 r -> trace cap m s (es1 ++ es2) r.
Proof.
  induction 1; intros es2 r Hr; [exact Hr|..].
  - apply tr_skip; auto.
  - apply tr_frame; auto.
  - apply tr_bad; auto.
  - apply tr_oom; auto.
Qed.

Lemma no_frame_app m s u : no_frame_at m s -> no_frame_at m (s ++ u).
Proof. intros H v c i p w Hp E. rewrite <- app_assoc in E. now apply H in E. Qed.

Lemma trace_app cap m s es t u : trace cap m s es t -> trace cap m (s ++ u) es (t ++ u).
Proof.
  induction 1.
  - constructor.
  - cbn [app]. constructor; [|assumption]. now apply (no_frame_app m (b :: s)).
  - rewrite <- app_assoc. now constructor.
  - rewrite <- !app_assoc in *. now constructor.
  - rewrite <- app_assoc in *. apply tr_oom; auto. cbn [app] in *. rewrite !lenN_cons, ?lenN_app in *. lia.
Qed.

Lemma trace_suffix cap m s es t : trace cap m s es t -> exists g, s = g ++ t.
Proof.
  induction 1.
  - now exists [].
  - destruct IHtrace as (g & ->). now exists (b :: g).
  - destruct IHtrace as (g & ->). exists (frame c i p ++ g). now rewrite app_assoc.
  - destruct IHtrace as (g & E). exists ([xb5; x62] ++ g). rewrite <- app_assoc, <- E. reflexivity.
  - destruct IHtrace as (g & E). exists ([xb5; x62] ++ g). rewrite <- app_assoc, <- E. reflexivity.
Qed.


(** frames of the events *)
Definition frames_of (es : list event) : list (byte * byte * list byte) :=
  concat (map (fun e => match e with EFrame c i p => [(c, i, p)] | _ => [] end) es).

Lemma woven_prepend g s fs : woven s fs -> woven (g ++ s) fs.
Proof. destruct 1; [constructor|]. rewrite app_assoc. now constructor. Qed.

Lemma trace_woven cap m s es t : trace cap m s es t ->
  woven s (frames_of es) /\ Forall (fun x => lenN (snd x) <= m) (frames_of es).
Proof.
  unfold frames_of. induction 1; cbn [map concat app] in *.
  - split; constructor.
  - split; [|apply IHtrace]. apply (woven_prepend [b]). apply IHtrace.
  - split; [|constructor; [assumption|apply IHtrace]]. apply (woven_cons []). apply IHtrace.
  - split; [|apply IHtrace]. apply (woven_prepend [xb5; x62]). apply IHtrace.
  - split; [|apply IHtrace]. apply (woven_prepend [xb5; x62]). apply IHtrace.
Qed.

(** sizes: a frame removes at least 8 bytes, an error exactly 2 *)
Definition is_frame (e : event) : bool := match e with EFrame _ _ _ => true | _ => false end.
Fixpoint weight (es : list event) : N :=
  match es with [] => 0 | e :: es' => (if is_frame e then 8 else 2) + weight es' end.
Lemma trace_weight cap m s es t : trace cap m s es t -> weight es + lenN t <= lenN s.
Proof.
  induction 1; cbn [weight is_frame] in *.
  - lia.
  - rewrite lenN_cons. lia.
  - rewrite lenN_app, frame_len. lia.
  - cbn [app] in *. rewrite !lenN_cons in *. lia.
  - cbn [app] in *. rewrite !lenN_cons in *. lia.
Qed.

(** ** resynchronisation *)
Lemma decide_unique_frame m c i p s c' i' p' s' : m <= 65535 -> lenN p <= m -> lenN p' <= m ->
  frame c i p ++ s = frame c' i' p' ++ s' -> c = c' /\ i = i' /\ p = p' /\ s = s'.
Proof.
  intros Hm H1 H2 E. pose proof (decide_frame m c i p s H1 Hm) as D1.
  pose proof (decide_frame m c' i' p' s' H2 Hm) as D2. rewrite E in D1. rewrite D1 in D2.
  injection D2 as -> -> ->. repeat split. now apply app_inv_head in E.
Qed.

Lemma trace_resync cap m s es t : m <= 65535 -> trace cap m s es t ->
  forall a c i p b, s = a ++ frame c i p ++ b -> lenN p <= m ->
  (* still pending *)
  lenN p + 8 + lenN b <= lenN t \/
  (* reported *)
  (exists es1 es2, es = es1 ++ EFrame c i p :: es2 /\
     trace cap m s es1 (frame c i p ++ b) /\ trace cap m b es2 t) \/
  (* a reported frame that starts earlier overlaps it *)
  (exists a1 a2 c' i' p' v es1 es2, a = a1 ++ a2 /\ a2 <> [] /\
     a2 ++ frame c i p ++ b = frame c' i' p' ++ v /\ lenN a2 < lenN p' + 8 /\
     es = es1 ++ EFrame c' i' p' :: es2 /\
     trace cap m s es1 (a2 ++ frame c i p ++ b) /\ trace cap m v es2 t) \/
  (* it does not fit the buffer *)
  (cap < lenN p + 7 /\ exists es1 es2, es = es1 ++ EOom (lenN p + 2) :: es2 /\
     trace cap m s es1 (frame c i p ++ b)).
Proof.
  intros Hm. induction 1 as [s|b0 s es t Hn Ht IH|c0 i0 p0 s es t Hp0 Ht IH|
    c0 i0 l0 l1 p0 k0 k1 s es t Hl Hp0 Hk Ht IH|c0 i0 l0 l1 s es t Hl Hc Hc2 Ht IH];
    intros a c i p b E Hp.
  - left. subst s. rewrite !lenN_app, frame_len. lia.
  - destruct a as [|a0 a].
    { exfalso. apply (Hn [] c i p b Hp). now rewrite app_nil_r. }
    cbn [app] in E. injection E as <- E.
    destruct (IH _ _ _ _ _ E Hp) as [H|[(es1 & es2 & H1 & H2 & H3)|
      [(a1 & a2 & c' & i' & p' & v & es1 & es2 & H1 & H2 & H3 & H4 & H5 & H6 & H7)|(H1 & es1 & es2 & H2 & H3)]]].
    + now left.
    + right; left. exists es1, es2. split; [assumption|]. split; [now constructor|assumption].
    + right; right; left. exists (b0 :: a1), a2, c', i', p', v, es1, es2. subst a.
      do 5 (split; [auto|]). split; [now constructor|assumption].
    + right; right; right. split; [assumption|]. exists es1, es2. split; [assumption|]. now constructor.
  - destruct (N.leb_spec (lenN p0 + 8) (lenN a)) as [Ha|Ha].
    + assert (exists a', a = frame c0 i0 p0 ++ a' /\ s = a' ++ frame c i p ++ b) as (a' & -> & Es).
      { exists (dropN (lenN p0 + 8) a).
        assert (takeN (lenN p0 + 8) a = frame c0 i0 p0) as Et.
        { rewrite <- (takeN_app_le (lenN p0 + 8) a (frame c i p ++ b)) by assumption. rewrite <- E.
          apply takeN_app_exact. now rewrite frame_len. }
        split; [rewrite <- Et; now rewrite takeN_dropN|].
        rewrite <- dropN_app_le by assumption. rewrite <- E. symmetry. apply dropN_app_exact. now rewrite frame_len. }
      destruct (IH _ _ _ _ _ Es Hp) as [H|[(es1 & es2 & H1 & H2 & H3)|
        [(a1 & a2 & c' & i' & p' & v & es1 & es2 & H1 & H2 & H3 & H4 & H5 & H6 & H7)|(H1 & es1 & es2 & H2 & H3)]]].
      * now left.
      * right; left. exists (EFrame c0 i0 p0 :: es1), es2. subst es. split; [reflexivity|]. split; [now constructor|assumption].
      * right; right; left. exists (frame c0 i0 p0 ++ a1), a2, c', i', p', v, (EFrame c0 i0 p0 :: es1), es2. subst a' es.
        split; [now rewrite app_assoc|]. do 4 (split; [auto|]). split; [now constructor|assumption].
      * right; right; right. split; [assumption|]. exists (EFrame c0 i0 p0 :: es1), es2. subst es. split; [reflexivity|]. now constructor.
    + destruct a as [|a0 a].
      * cbn [app] in E. destruct (decide_unique_frame m _ _ _ _ _ _ _ _ Hm Hp0 Hp E) as (-> & -> & -> & ->).
        right; left. exists [], es. split; [reflexivity|]. split; [constructor|assumption].
      * right; right; left. exists [], (a0 :: a), c0, i0, p0, s, [], es.
        split; [reflexivity|]. split; [discriminate|]. split; [now rewrite <- E|].
        split; [lia|]. split; [reflexivity|]. split; [|assumption]. rewrite E. constructor.
  - destruct a as [|a0 [|a1 a]].
    { exfalso. cbn [app] in E.
      assert (decide m ([xb5; x62; c0; i0; l0; l1] ++ p0 ++ [k0; k1] ++ s) = Good c i p) as D.
      { cbn [app]. rewrite E. now apply decide_frame. }
      cbn [app decide] in D. change (byte_eqb xb5 xb5) with true in D. change (byte_eqb x62 x62) with true in D.
      cbn [negb] in D. cbn [le_num] in Hl. replace (b2n l0 + 256 * b2n l1) with (lenN p0) in D by lia.
      replace (m <? lenN p0) with false in D by lia.
      rewrite lenN_app, !lenN_cons in D. replace (lenN p0 + (1 + (1 + lenN s)) <? lenN p0 + 2) with false in D by lia.
      rewrite takeN_app_exact in D by reflexivity. rewrite dropN_app_exact in D by reflexivity.
      change (takeN 2 (k0 :: k1 :: s)) with [k0; k1] in D.
      destruct (N.eqb_spec (le_num [k0; k1]) (le_num (fletcher (c0 :: i0 :: l0 :: l1 :: p0)))) as [Eq|]; [|discriminate].
      apply Hk. unfold fletcher in *. apply le_num2_inj in Eq. destruct Eq as [-> ->]. reflexivity. }
    { cbn [app] in E. discriminate. }
    cbn [app] in E. injection E as <- <- E.
    destruct (IH _ _ _ _ _ E Hp) as [H|[(es1 & es2 & H1 & H2 & H3)|
      [(b1 & a2 & c' & i' & p' & v & es1 & es2 & H1 & H2 & H3 & H4 & H5 & H6 & H7)|(H1 & es1 & es2 & H2 & H3)]]].
    + now left.
    + right; left. eexists (_ :: es1), es2. subst es. split; [reflexivity|]. split; [now constructor|assumption].
    + right; right; left. eexists (xb5 :: x62 :: b1), a2, c', i', p', v, (_ :: es1), es2. subst a es.
      do 4 (split; [auto|]). split; [reflexivity|]. split; [now constructor|assumption].
    + right; right; right. split; [assumption|]. eexists (_ :: es1), es2. subst es. split; [reflexivity|]. now constructor.
  - destruct a as [|a0 [|a1 a]].
    { cbn [app] in E. unfold frame, header in E. cbn [app] in E.
      assert (l0 = n2b (lenN p)) as -> by congruence. assert (l1 = n2b (lenN p / 256)) as -> by congruence.
      cbn [le_num] in *. rewrite N.mul_0_r, N.add_0_r, len_field in * by lia.
      right; right; right. split; [assumption|]. exists [], es. split; [reflexivity|].
      cbn [app]. rewrite E. constructor. }
    { cbn [app] in E. discriminate. }
    cbn [app] in E. injection E as <- <- E.
    destruct (IH _ _ _ _ _ E Hp) as [H|[(es1 & es2 & H1 & H2 & H3)|
      [(b1 & a2 & c' & i' & p' & v & es1 & es2 & H1 & H2 & H3 & H4 & H5 & H6 & H7)|(H1 & es1 & es2 & H2 & H3)]]].
    + now left.
    + right; left. eexists (_ :: es1), es2. subst es. split; [reflexivity|]. split; [now constructor|assumption].
    + right; right; left. eexists (xb5 :: x62 :: b1), a2, c', i', p', v, (_ :: es1), es2. subst a es.
      do 4 (split; [auto|]). split; [reflexivity|]. split; [now constructor|assumption].
    + right; right; right. split; [assumption|]. eexists (_ :: es1), es2. subst es. split; [reflexivity|]. now constructor.
Qed.

(** ** the scanner's events are a trace *)
Lemma trace_decide cap m s es t : m <= 65535 -> decide m s <> Wait ->
  trace cap m (dropN (vskip (decide m s)) s) es t -> trace cap m s (vevents (decide m s) ++ es) t.
Proof.
  intros Hm Hw Ht. destruct (decide m s) eqn:Ed; cbn [vskip vevents app] in *.
  - eapply trace_skips; [assumption| |exact Ht]. eapply skips_step; [eassumption|constructor].
  - congruence.
  - destruct (decide_bad _ _ _ _ Ed) as (c & i & l0 & l1 & p & k0 & k1 & rest & -> & H1 & H2 & -> & -> & H3).
    constructor; [assumption..|congruence|exact Ht].
  - destruct (decide_good _ _ _ _ _ Ed) as [Es Hp]. rewrite Es. now constructor.
Qed.

Lemma scan_trace cap m s : m <= 65535 -> trace cap m s (fst (scan m s)) (snd (scan m s)).
Proof.
  intros Hm. induction s as [s H|s H IH] using (scan_ind m).
  - rewrite scan_wait by assumption. constructor.
  - rewrite scan_step by assumption. cbn [fst snd]. now apply trace_decide.
Qed.

(** pending suffixes *)
Lemma app_zeros (r : list byte) n : lenN r < n -> exists x, x <> [] /\ lenN (r ++ x) = n.
Proof.
  intros H. exists (repeat x00 (N.to_nat (n - lenN r))). split.
  - replace (N.to_nat (n - lenN r)) with (S (N.to_nat (n - lenN r - 1))) by lia. discriminate.
  - unfold lenN in *. rewrite app_length, repeat_length. lia.
Qed.

Lemma split_pay (y : list byte) n : lenN y = n + 2 -> exists p k0 k1, y = p ++ [k0; k1] /\ lenN p = n.
Proof.
  intros H. exists (takeN n y). pose proof (lenN_dropN n y) as Hd.
  destruct (dropN n y) as [|k0 [|k1 [|? ?]]] eqn:E; rewrite ?lenN_cons, ?lenN_nil in Hd; try lia.
  exists k0, k1. rewrite <- E, takeN_dropN. split; [reflexivity|]. rewrite lenN_takeN. lia.
Qed.

Lemma wait_pending m t : 255 <= m -> decide m t = Wait -> pending m t.
Proof.
  intros Hm Hd. unfold pending. destruct t as [|b0 t]; [now left|right].
  assert (b0 = xb5) as ->.
  { destruct (decide_wait_sync _ _ Hd) as [?|(? & ?)]; congruence. }
  destruct t as [|b1 t].
  { exists x00, x00, x00, x00, [], x00, x00. eexists. repeat split; try reflexivity; [rewrite lenN_nil; lia|discriminate]. }
  assert (b1 = x62) as ->.
  { apply byte_eqb_eq. destruct (byte_eqb b1 x62) eqn:E; [reflexivity|exfalso].
    destruct t as [|? [|? [|? [|? ?]]]]; cbn [decide] in Hd; rewrite E in Hd;
    change (byte_eqb xb5 xb5) with true in Hd; discriminate. }
  destruct t as [|c t].
  { exists x00, x00, x00, x00, [], x00, x00. eexists. repeat split; try reflexivity; [rewrite lenN_nil; lia|discriminate]. }
  destruct t as [|i t].
  { exists c, x00, x00, x00, [], x00, x00. eexists. repeat split; try reflexivity; [rewrite lenN_nil; lia|discriminate]. }
  destruct t as [|l0 t].
  { exists c, i, x00, x00, [], x00, x00. eexists. repeat split; try reflexivity; [rewrite lenN_nil; lia|discriminate]. }
  destruct t as [|l1 t].
  { pose proof (b2n_lt l0). exists c, i, l0, x00, (repeat x00 (N.to_nat (b2n l0))), x00, x00. eexists.
    split; [|split; [|split; [|reflexivity]]]; [| |discriminate].
    - unfold lenN. rewrite repeat_length. cbn [le_num]. change (b2n x00) with 0. lia.
    - unfold lenN. rewrite repeat_length. lia. }
  cbn [decide] in Hd. change (byte_eqb xb5 xb5) with true in Hd. change (byte_eqb x62 x62) with true in Hd.
  cbn [negb] in Hd. destruct (N.ltb_spec m (b2n l0 + 256 * b2n l1)); [discriminate|].
  destruct (N.ltb_spec (lenN t) (b2n l0 + 256 * b2n l1 + 2)) as [Hlt|].
  2:{ exfalso. revert Hd. match goal with |- context [if ?b then _ else _] => destruct b end; discriminate. }
  destruct (app_zeros _ _ Hlt) as (x & Hx & Hl).
  destruct (split_pay _ _ Hl) as (p & k0 & k1 & Hy & Hp).
  exists c, i, l0, l1, p, k0, k1, x. cbn [le_num]. split; [lia|]. split; [lia|]. split; [assumption|].
  cbn [app]. now rewrite <- Hy.
Qed.

(** ** parser over the queue *)
Section S.
  Variable cap : N.
  Context {P : Type} (mp : byte -> byte -> list byte -> res (result P)) (mx : N)
          (f : byte -> byte -> list byte -> P).
  Hypothesis mx_u16 : mx <= 65535.
  Hypothesis mp_f : dispatches mp mx f.
  Notation q := (queue_ops cap).

  Lemma mp_tot : forall c i p, lenN p <= mx -> exists r, mp c i p = Ret r.
  Proof. intros. rewrite mp_f by assumption. eauto. Qed.

  Lemma nspec_trace u s r t : nspec mp cap mx u s (Some r) t ->
    exists e, r = outcome f e /\ forall es z, trace cap mx t es z -> trace cap mx s (e :: es) z.
  Proof.
    intros H. inversion H as [|? t' x y Hs Hd|? t' c i p r' Hs Hd Hmp|? t' Hs Ht2 Hl6 Hlm Hcap Hcap2 Hor]; subst.
    - exists (EBad x y). split; [reflexivity|]. intros es z Hz.
      eapply trace_skips; [assumption|eassumption|].
      pose proof (trace_decide cap mx t' es z mx_u16) as Htd. rewrite Hd in Htd. apply Htd; [discriminate|exact Hz].
    - exists (EFrame c i p). dlen. rewrite mp_f in Hmp by lia. injection Hmp as <-. split; [reflexivity|].
      intros es z Hz. eapply trace_skips; [assumption|eassumption|].
      pose proof (trace_decide cap mx t' es z mx_u16) as Htd. rewrite Hd in Htd. apply Htd; [discriminate|exact Hz].
    - exists (EOom (hdr_len t' + 2)). split; [reflexivity|]. intros es z Hz.
      eapply trace_skips; [assumption|eassumption|].
      destruct t' as [|b0 [|b1 [|c [|i [|l0 [|l1 rest]]]]]]; rewrite ?lenN_cons, ?lenN_nil in Hl6; try lia.
      change (takeN 2 (b0 :: b1 :: c :: i :: l0 :: l1 :: rest)) with [b0; b1] in Ht2. assert (b0 = xb5) as -> by congruence. assert (b1 = x62) as -> by congruence.
      assert (hdr_len (xb5 :: x62 :: c :: i :: l0 :: l1 :: rest) = le_num [l0; l1]) as E.
      { unfold hdr_len. change (nthN (xb5 :: x62 :: c :: i :: l0 :: l1 :: rest) 4) with l0.
        change (nthN (xb5 :: x62 :: c :: i :: l0 :: l1 :: rest) 5) with l1. cbn [le_num]. lia. }
      rewrite E in *. apply (tr_oom cap mx c i l0 l1 rest); auto.
  Qed.

  Lemma nspec_trace_none u s t : nspec mp cap mx u s None t ->
    trace cap mx s [] t /\ decide mx t = Wait /\ (lenN t <= cap \/ lenN t < 6).
  Proof.
    intros H. inversion H; subst. split; [|auto]. eapply trace_skips; [assumption|eassumption|constructor].
  Qed.

  Lemma nruns_trace s rs t : nruns mp cap mx s rs t ->
    exists es, rs = map (outcome f) es /\ trace cap mx s es t /\ decide mx t = Wait /\ (lenN t <= cap \/ lenN t < 6).
  Proof.
    induction 1.
    - exists []. split; [reflexivity|]. eapply nspec_trace_none; eassumption.
    - destruct (nspec_trace _ _ _ _ H) as (e & -> & He). destruct IHnruns as (es' & -> & Ht & Hw).
      exists (e :: es'). split; [reflexivity|]. split; [now apply He|assumption].
  Qed.

  Lemma ntimes_trace k s rs t : ntimes mp cap mx k s rs t ->
    exists es, somes rs = map (outcome f) es /\ trace cap mx s es t.
  Proof.
    induction 1.
    - exists []. split; [reflexivity|constructor].
    - destruct IHntimes as (es & E & Ht). unfold somes in *. destruct r as [r|].
      + destruct (nspec_trace _ _ _ _ H) as (e & -> & He). exists (e :: es). cbn [map concat app].
        split; [now f_equal|now apply He].
      + destruct (nspec_trace_none _ _ _ H) as (H1 & _). exists es. split; [assumption|].
        change es with ([] ++ es). eapply trace_trans; eassumption.
  Qed.

  Lemma q_feed_trace buf c : lenN buf <= cap -> cap <= usize_max -> lenN buf + lenN c <= isize_max ->
    exists es t, feed q mp mx buf c = Ret (map (outcome f) es, takeN cap t) /\
      trace cap mx (buf ++ c) es t /\ decide mx t = Wait /\ (lenN t <= cap \/ lenN t < 6).
  Proof.
    intros H1 H2 H3. destruct (q_feed cap mp mx mx_u16 mp_tot buf c H1 H2 H3) as (rs & t & E & Hr).
    destruct (nruns_trace _ _ _ Hr) as (es & -> & H). exists es, t. auto.
  Qed.

  Lemma q_feed_times_trace buf c k : lenN buf <= cap -> cap <= usize_max -> lenN buf + lenN c <= isize_max ->
    exists rs es t, feed_times q mp mx buf c k = Ret (rs, takeN cap t) /\
      somes rs = map (outcome f) es /\ trace cap mx (buf ++ c) es t.
  Proof.
    intros H1 H2 H3. destruct (q_feed_times cap mp mx mx_u16 mp_tot buf c k H1 H2 H3) as (rs & s & t & E & Hs & Hr).
    destruct (ntimes_trace _ _ _ _ Hr) as (es & Ees & H). exists rs, es, t. split; [assumption|].
    split; [assumption|]. eapply trace_skips; eassumption.
  Qed.

  (** drained histories, capacity at least 5 *)
  Lemma q_feed_all_trace cs : forall buf, 5 <= cap -> lenN buf <= cap -> cap <= usize_max ->
    lenN buf <= N.max 5 (mx + 7) -> chunks_fit mx cs ->
    exists es t, feed_all q mp mx buf cs = Ret (map (outcome f) es, t) /\
      trace cap mx (buf ++ concat cs) es t /\
      (decide mx buf = Wait -> decide mx t = Wait) /\ lenN t <= cap /\ lenN t <= N.max 5 (mx + 7).
  Proof.
    induction cs as [|c cs IH]; intros buf H5 Hb Hc Hw Hf; cbn [feed_all concat].
    - exists [], buf. rewrite app_nil_r. split; [reflexivity|]. split; [constructor|]. auto.
    - pose proof (Hf c (or_introl eq_refl)).
      destruct (q_feed_trace buf c) as (es & t & E & Ht & Hwt & Hlt); [lia..|].
      rewrite E. cbn [bind]. rewrite takeN_all by lia.
      destruct (IH t) as (es' & t' & E' & Ht' & Hwt' & Hlt' & Hlt2); [assumption|lia|assumption|now apply decide_wait_bound| |].
      { intros x Hx. apply Hf. now right. }
      rewrite E'. cbn [bind]. exists (es ++ es'), t'. rewrite map_app. split; [reflexivity|].
      split; [|auto]. rewrite app_assoc. eapply trace_trans; [|exact Ht']. now apply trace_app.
  Qed.

  (** arbitrary capacity: no panic *)
  Lemma q_feed_all_ret cs : forall buf, lenN buf <= cap -> cap <= usize_max ->
    lenN buf <= N.max 5 (mx + 7) -> chunks_fit mx cs ->
    exists es t, feed_all q mp mx buf cs = Ret (map (outcome f) es, t) /\ lenN t <= cap.
  Proof.
    induction cs as [|c cs IH]; intros buf Hb Hc Hw Hf; cbn [feed_all concat].
    - exists [], buf. auto.
    - pose proof (Hf c (or_introl eq_refl)).
      destruct (q_feed_trace buf c) as (es & t & E & Ht & Hwt & Hlt); [lia..|].
      rewrite E. cbn [bind]. pose proof (decide_wait_bound _ _ Hwt).
      pose proof (lenN_takeN cap t).
      destruct (IH (takeN cap t)) as (es' & t' & E' & Ht'); [lia|assumption|lia| |].
      { intros x Hx. apply Hf. now right. }
      rewrite E'. cbn [bind]. exists (es ++ es'), t'. rewrite map_app. auto.
  Qed.

  (** arbitrary histories: no panic *)
  Lemma q_history_ret h : forall buf, lenN buf <= cap -> cap <= usize_max -> history_fits cap buf h ->
    exists rss t, run_history q mp mx buf h = Ret (rss, t) /\ lenN t <= cap /\
      Forall (fun r => exists e, r = outcome f e) (somes (concat rss)).
  Proof.
    induction h as [|[c k] h IH]; intros buf Hb Hc Hf; cbn [run_history].
    - exists [], buf. split; [reflexivity|]. split; [assumption|]. constructor.
    - assert (lenN buf + lenN c <= isize_max) as Hl.
      { destruct Hf as [Hf|Hf].
        - cbn [map fst concat] in Hf. rewrite lenN_app in Hf. lia.
        - specialize (Hf c k (or_introl eq_refl)). lia. }
      destruct (q_feed_times_trace buf c k Hb Hc Hl) as (rs & es & t & E & Es & Ht).
      rewrite E. cbn [bind]. pose proof (trace_weight _ _ _ _ _ Ht) as Hwt. rewrite lenN_app in Hwt.
      pose proof (lenN_takeN cap t).
      destruct (IH (takeN cap t)) as (rss & t' & E' & Ht' & Hall); [lia|assumption| |].
      { destruct Hf as [Hf|Hf].
        - left. cbn [map fst concat] in Hf. rewrite lenN_app in Hf. lia.
        - right. intros c' k' Hin. apply (Hf c' k'). now right. }
      rewrite E'. cbn [bind]. exists (rs :: rss), t'. split; [reflexivity|]. split; [assumption|].
      unfold somes in *. cbn [concat]. rewrite map_app, concat_app. apply Forall_app. split; [|assumption].
      rewrite Es. apply Forall_forall. intros r Hr. apply in_map_iff in Hr. destruct Hr as (e & <- & _). eauto.
  Qed.
End S.
