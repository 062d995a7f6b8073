(** * Small consequences used by the property files (proof support) *)
From Coq Require Import List NArith ZArith Bool Lia ZifyBool ZifyNat ZifyN.
From Verif Require Import Base BaseFacts Checksum Buffers DualBuffer Parser SpecBuffer SpecFrame SpecParser
  ProofScan ProofDual ProofSim ProofChecksum ProofParser ProofFeed ProofBuffers ProofStream ProofTrace ProofSmall ProofTop.
Import ListNotations.
Open Scope N_scope.

Lemma oks_outcome {P} (f : byte -> byte -> list byte -> P) es :
  oks (map (outcome f) es) = map (fun x => match x with (c, i, p) => f c i p end) (frames_of es).
Proof.
  unfold oks, frames_of. induction es as [|e es IH]; [reflexivity|]. cbn [map concat].
  destruct e; cbn [outcome app map]; [now f_equal|assumption..].
Qed.

Lemma trace_no_oom cap m s es t : m + 7 <= cap -> trace cap m s es t -> forall n, ~ In (EOom n) es.
Proof.
  intros Hc. induction 1; intros n Hin; cbn [In] in Hin; try (destruct Hin as [Hin|Hin]; [discriminate|]);
    try (eapply IHtrace; eassumption).
  - assumption.
  - destruct Hin as [Hin|Hin]; [|eapply IHtrace; eassumption]. lia.
Qed.

(** splitting a trace at one of its events *)
Lemma trace_split_bad cap m s es t : trace cap m s es t ->
  forall es1 x y es2, es = es1 ++ EBad x y :: es2 ->
  exists c i l0 l1 p k0 k1 r,
    trace cap m s es1 ([xb5; x62; c; i; l0; l1] ++ p ++ [k0; k1] ++ r) /\
    lenN p = le_num [l0; l1] /\ lenN p <= m /\ x = le_num [k0; k1] /\
    y = le_num (fletcher ([c; i; l0; l1] ++ p)) /\ x <> y /\
    trace cap m ([c; i; l0; l1] ++ p ++ [k0; k1] ++ r) es2 t.
Proof.
  induction 1 as [s|b0 s es t Hn Ht IH|c0 i0 p0 s es t Hp0 Ht IH|
    c0 i0 l0 l1 p0 k0 k1 s es t Hl Hp0 Hk Ht IH|c0 i0 l0 l1 s es t Hl Hc Hc2 Ht IH];
    intros es1 x y es2 E.
  - destruct es1; discriminate.
  - destruct (IH _ _ _ _ E) as (c & i & l0 & l1 & p & k0 & k1 & r & H1 & H2).
    exists c, i, l0, l1, p, k0, k1, r. split; [now apply tr_skip|assumption].
  - destruct es1 as [|e es1]; [discriminate|]. injection E as <- E.
    destruct (IH _ _ _ _ E) as (c & i & l0 & l1 & p & k0 & k1 & r & H1 & H2).
    exists c, i, l0, l1, p, k0, k1, r. split; [now apply tr_frame|assumption].
  - destruct es1 as [|e es1].
    + injection E as <- <- <-. exists c0, i0, l0, l1, p0, k0, k1, s. split; [constructor|].
      do 4 (split; [auto|]). split; [|assumption]. intros Eq. apply Hk. unfold fletcher in *.
      apply le_num2_inj in Eq. destruct Eq as [-> ->]. reflexivity.
    + injection E as <- E. destruct (IH _ _ _ _ E) as (c & i & l0' & l1' & p & k0' & k1' & r & H1 & H2).
      exists c, i, l0', l1', p, k0', k1', r. split; [now apply tr_bad|assumption].
  - destruct es1 as [|e es1]; [discriminate|]. injection E as <- E.
    destruct (IH _ _ _ _ E) as (c & i & l0' & l1' & p & k0 & k1 & r & H1 & H2).
    exists c, i, l0', l1', p, k0, k1, r. split; [now apply tr_oom|assumption].
Qed.

Lemma trace_split_oom cap m s es t : trace cap m s es t ->
  forall es1 n es2, es = es1 ++ EOom n :: es2 ->
  exists c i l0 l1 r,
    trace cap m s es1 ([xb5; x62; c; i; l0; l1] ++ r) /\
    n = le_num [l0; l1] + 2 /\ le_num [l0; l1] <= m /\ cap < le_num [l0; l1] + 7 /\
    cap < lenN ([xb5; x62; c; i; l0; l1] ++ r) /\
    trace cap m ([c; i; l0; l1] ++ r) es2 t.
Proof.
  induction 1 as [s|b0 s es t Hn Ht IH|c0 i0 p0 s es t Hp0 Ht IH|
    c0 i0 l0 l1 p0 k0 k1 s es t Hl Hp0 Hk Ht IH|c0 i0 l0 l1 s es t Hl Hc Hc2 Ht IH];
    intros es1 n es2 E.
  - destruct es1; discriminate.
  - destruct (IH _ _ _ E) as (c & i & l0 & l1 & r & H1 & H2).
    exists c, i, l0, l1, r. split; [now apply tr_skip|assumption].
  - destruct es1 as [|e es1]; [discriminate|]. injection E as <- E.
    destruct (IH _ _ _ E) as (c & i & l0 & l1 & r & H1 & H2).
    exists c, i, l0, l1, r. split; [now apply tr_frame|assumption].
  - destruct es1 as [|e es1]; [discriminate|]. injection E as <- E.
    destruct (IH _ _ _ E) as (c & i & l0' & l1' & r & H1 & H2).
    exists c, i, l0', l1', r. split; [now apply tr_bad|assumption].
  - destruct es1 as [|e es1].
    + injection E as <- <-. exists c0, i0, l0, l1, s. split; [constructor|]. auto 10.
    + injection E as <- E. destruct (IH _ _ _ E) as (c & i & l0' & l1' & r & H1 & H2).
      exists c, i, l0', l1', r. split; [now apply tr_oom|assumption].
Qed.

(** an oversized header *)
Lemma scan_oversize m c i l0 l1 b : m < le_num [l0; l1] ->
  scan m ([xb5; x62; c; i; l0; l1] ++ b) = scan m ([c; i; l0; l1] ++ b).
Proof.
  intros H. apply skips_scan. eapply skips_step with (k := 2); [|constructor].
  cbn [app decide]. change (byte_eqb xb5 xb5) with true. change (byte_eqb x62 x62) with true. cbn [negb].
  cbn [le_num] in H. replace (m <? b2n l0 + 256 * b2n l1) with true by lia. reflexivity.
Qed.

Lemma interleave_no_gaps fs : interleave (map (fun x => ([], x)) fs) [] =
  concat (map (fun x => match x with (c, i, p) => frame c i p end) fs).
Proof.
  unfold interleave. rewrite app_nil_r, map_map. f_equal.
Qed.

Lemma no_sync_pair_nil : no_sync_pair [].
Proof. intros a b E. destruct a; discriminate. Qed.

Lemma no_sync_pair_no_b5 g : ~ In xb5 g -> no_sync_pair g.
Proof. intros H a b E. apply H. rewrite E. apply in_or_app. right. now left. Qed.

Lemma map_outcome_frame_ev {P} (f : byte -> byte -> list byte -> P) l :
  map (outcome f) (map frame_ev l) = map (fun x => match x with (_, (c, i, p)) => Ok (f c i p) end) l.
Proof. rewrite map_map. apply map_ext. intros [g [[c i] p]]. reflexivity. Qed.

(** checksum algebra *)
Lemma sum1_app a b : sum1 (a ++ b) = sum1 a + sum1 b.
Proof. induction a as [|x a IH]; cbn [app sum1]; lia. Qed.
Lemma sum2_app a b : sum2 (a ++ b) = sum2 a + lenN b * sum1 a + sum2 b.
Proof. induction a as [|x a IH]; cbn [app sum1 sum2]; [lia|]. rewrite IH, !lenN_cons, lenN_app. lia. Qed.

Lemma n2b_inj_mod a b : n2b a = n2b b -> a mod 256 = b mod 256.
Proof. intros H. rewrite <- !b2n_n2b. now rewrite H. Qed.

Lemma mod_cancel a b k : (k + a) mod 256 = (k + b) mod 256 -> a < 256 -> b < 256 -> a = b.
Proof.
  intros H Ha Hb.
  assert (Z.of_N ((k + a) mod 256) = Z.of_N ((k + b) mod 256)) as H' by now rewrite H.
  rewrite !N2Z.inj_mod in H'.
  assert (Z.divide 256 (Z.of_N a - Z.of_N b)) as [z Hz].
  { exists ((Z.of_N (k + a) / 256) - (Z.of_N (k + b) / 256))%Z.
    pose proof (Z.div_mod (Z.of_N (k + a)) 256 ltac:(lia)).
    pose proof (Z.div_mod (Z.of_N (k + b)) 256 ltac:(lia)). lia. }
  lia.
Qed.

Lemma fletcher_one_byte a x y b : fletcher (a ++ [x] ++ b) = fletcher (a ++ [y] ++ b) -> x = y.
Proof.
  unfold fletcher. intros H. injection H as H _. apply n2b_inj_mod in H.
  rewrite !sum1_app in H. cbn [sum1] in H. apply b2n_inj.
  match type of H with ?l mod _ = ?r mod _ =>
    apply (mod_cancel _ _ (sum1 a + sum1 b));
    [replace (sum1 a + sum1 b + b2n x) with l by lia; replace (sum1 a + sum1 b + b2n y) with r by lia; assumption
    |apply b2n_lt..] end.
Qed.

Lemma fletcher_swap a x y b : fletcher (a ++ [x; y] ++ b) = fletcher (a ++ [y; x] ++ b) -> x = y.
Proof.
  unfold fletcher. intros H. injection H as _ H. apply n2b_inj_mod in H.
  rewrite !sum2_app in H. cbn [sum1 sum2 app] in H. rewrite ?lenN_cons, ?lenN_nil, ?lenN_app, ?lenN_cons, ?lenN_nil in H.
  apply b2n_inj.
  match type of H with ?l mod _ = ?r mod _ =>
    apply (mod_cancel _ _ (sum2 a + (2 + lenN b) * sum1 a + (b2n x + b2n y) + (b2n x + b2n y) * lenN b + sum2 b));
    [replace (sum2 a + (2 + lenN b) * sum1 a + (b2n x + b2n y) + (b2n x + b2n y) * lenN b + sum2 b + b2n x) with l by lia;
     replace (sum2 a + (2 + lenN b) * sum1 a + (b2n x + b2n y) + (b2n x + b2n y) * lenN b + sum2 b + b2n y) with r by lia;
     assumption|apply b2n_lt..] end.
Qed.

Lemma decide_candidate m c i l0 l1 p k0 k1 s :
  lenN p = le_num [l0; l1] -> lenN p <= m -> [k0; k1] <> fletcher ([c; i; l0; l1] ++ p) ->
  decide m ([xb5; x62; c; i; l0; l1] ++ p ++ [k0; k1] ++ s) =
    Bad (le_num [k0; k1]) (le_num (fletcher ([c; i; l0; l1] ++ p))).
Proof.
  intros Hl Hp Hk. cbn [app decide]. change (byte_eqb xb5 xb5) with true. change (byte_eqb x62 x62) with true.
  cbn [negb]. replace (b2n l0 + 256 * b2n l1) with (lenN p) by (cbn [le_num] in Hl; lia).
  replace (m <? lenN p) with false by lia.
  rewrite lenN_app, !lenN_cons. replace (lenN p + (1 + (1 + lenN s)) <? lenN p + 2) with false by lia.
  rewrite takeN_app_exact by reflexivity. rewrite dropN_app_exact by reflexivity.
  change (takeN 2 (k0 :: k1 :: s)) with [k0; k1].
  destruct (N.eqb_spec (le_num [k0; k1]) (le_num (fletcher (c :: i :: l0 :: l1 :: p)))) as [Eq|]; [|reflexivity].
  exfalso. apply Hk. unfold fletcher in *. cbn [app]. apply le_num2_inj in Eq. destruct Eq as [-> ->]. reflexivity.
Qed.
