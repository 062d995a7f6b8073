(** * Facts about the reference scanner (proof support) *)
From Coq Require Import List NArith ZArith Bool Lia ZifyBool ZifyNat ZifyN.
From Verif Require Import Base BaseFacts SpecFrame.
Import ListNotations.
Open Scope N_scope.
Ltac Zify.zify_post_hook ::= Z.div_mod_to_equations.

(** bytes consumed by a verdict *)
Definition vskip (v : verdict) : N :=
  match v with Skip k => k | Wait => 0 | Bad _ _ => 2 | Good _ _ p => lenN p + 8 end.
Definition vevents (v : verdict) : list event :=
  match v with Bad x y => [EBad x y] | Good c i p => [EFrame c i p] | _ => [] end.

Ltac dcase :=
  repeat match goal with
  | |- context [if ?b then _ else _] => destruct b eqn:?
  | H : context [if ?b then _ else _] |- _ => destruct b eqn:?
  end.

Lemma decide_skip_le m s : vskip (decide m s) <= lenN s.
Proof.
  destruct s as [|b0 [|b1 [|c [|i [|l0 [|l1 rest]]]]]]; cbn [decide]; dcase;
    cbn [vskip]; rewrite ?lenN_cons; try lia.
  rewrite lenN_takeN. lia.
Qed.

Lemma decide_skip_pos m s : decide m s <> Wait -> 0 < vskip (decide m s).
Proof.
  destruct s as [|b0 [|b1 [|c [|i [|l0 [|l1 rest]]]]]]; cbn [decide]; dcase;
    cbn [vskip]; intros; try congruence; lia.
Qed.

Lemma decide_app m s t : decide m s <> Wait -> decide m (s ++ t) = decide m s.
Proof.
  destruct s as [|b0 [|b1 [|c [|i [|l0 [|l1 rest]]]]]]; cbn [app decide]; intros H.
  - congruence.
  - destruct (negb (byte_eqb b0 xb5)) eqn:?; [|congruence].
    destruct t as [|? [|? [|? [|? [|? ?]]]]]; reflexivity.
  - destruct (negb (byte_eqb b0 xb5)) eqn:?; [|destruct (negb (byte_eqb b1 x62)) eqn:?];
      try congruence; destruct t as [|? [|? [|? [|? ?]]]]; reflexivity.
  - destruct (negb (byte_eqb b0 xb5)) eqn:?; [|destruct (negb (byte_eqb b1 x62)) eqn:?];
      try congruence; destruct t as [|? [|? [|? ?]]]; reflexivity.
  - destruct (negb (byte_eqb b0 xb5)) eqn:?; [|destruct (negb (byte_eqb b1 x62)) eqn:?];
      try congruence; destruct t as [|? [|? ?]]; reflexivity.
  - destruct (negb (byte_eqb b0 xb5)) eqn:?; [|destruct (negb (byte_eqb b1 x62)) eqn:?];
      try congruence; destruct t as [|? ?]; reflexivity.
  - destruct (negb (byte_eqb b0 xb5)) eqn:?; [reflexivity|].
    destruct (negb (byte_eqb b1 x62)) eqn:?; [reflexivity|].
    destruct (m <? b2n l0 + 256 * b2n l1) eqn:?; [reflexivity|].
    destruct (lenN rest <? b2n l0 + 256 * b2n l1 + 2) eqn:E; [congruence|].
    rewrite lenN_app. replace (lenN rest + lenN t <? b2n l0 + 256 * b2n l1 + 2) with false by lia.
    rewrite takeN_app_le by lia. rewrite dropN_app_le by lia.
    rewrite takeN_app_le by (rewrite lenN_dropN; lia). reflexivity.
Qed.

(** [scan] unfolds by one verdict *)
Lemma scan_loop_fuel m s : forall f g, (length s < f)%nat -> (length s < g)%nat ->
  scan_loop m f s = scan_loop m g s.
Proof.
  remember (length s) as n eqn:En. revert s En.
  induction n as [n IH] using lt_wf_ind. intros s En f g Hf Hg.
  destruct f as [|f]; [lia|]. destruct g as [|g]; [lia|]. cbn [scan_loop].
  pose proof (decide_skip_le m s) as Hle.
  assert (decide m s <> Wait -> (length (dropN (vskip (decide m s)) s) < n)%nat) as Hlt.
  { intros Hw. pose proof (decide_skip_pos m s Hw).
    pose proof (lenN_dropN (vskip (decide m s)) s). unfold lenN in *. lia. }
  destruct (decide m s) eqn:E; cbn [vskip] in *; try reflexivity.
  all: rewrite (IH _ (Hlt ltac:(discriminate)) _ eq_refl f g); auto;
    specialize (Hlt ltac:(discriminate)); lia.
Qed.

Lemma scan_eq m s :
  scan m s = match decide m s with
             | Wait => ([], s)
             | v => (vevents v ++ fst (scan m (dropN (vskip v) s)), snd (scan m (dropN (vskip v) s)))
             end.
Proof.
  pose proof (decide_skip_le m s) as Hle.
  assert (decide m s <> Wait ->
    scan_loop m (length s) (dropN (vskip (decide m s)) s) =
    scan m (dropN (vskip (decide m s)) s)) as Hf.
  { intros Hw. pose proof (decide_skip_pos m s Hw).
    pose proof (lenN_dropN (vskip (decide m s)) s).
    apply scan_loop_fuel; unfold lenN in *; lia. }
  unfold scan at 1. cbn [scan_loop].
  destruct (decide m s) eqn:E; cbn [vskip vevents app] in *; try reflexivity;
    rewrite (Hf ltac:(discriminate)); now destruct (scan _ _).
Qed.

Lemma scan_wait m s : decide m s = Wait -> scan m s = ([], s).
Proof. intros H. rewrite scan_eq, H. reflexivity. Qed.

Lemma scan_step m s : decide m s <> Wait ->
  scan m s = (vevents (decide m s) ++ fst (scan m (dropN (vskip (decide m s)) s)),
              snd (scan m (dropN (vskip (decide m s)) s))).
Proof. intros H. rewrite scan_eq at 1. destruct (decide m s); congruence || reflexivity. Qed.

(** induction principle over a scan *)
Lemma scan_ind (m : N) (Q : list byte -> Prop) :
  (forall s, decide m s = Wait -> Q s) ->
  (forall s, decide m s <> Wait -> Q (dropN (vskip (decide m s)) s) -> Q s) ->
  forall s, Q s.
Proof.
  intros HW HS s. remember (length s) as n eqn:En. revert s En.
  induction n as [n IH] using lt_wf_ind. intros s En.
  assert (decide m s = Wait \/ decide m s <> Wait) as [Hw|Hw] by (destruct (decide m s); auto; right; discriminate).
  - auto.
  - apply HS; [assumption|]. eapply IH; [|reflexivity].
    pose proof (decide_skip_pos m s Hw). pose proof (decide_skip_le m s).
    pose proof (lenN_dropN (vskip (decide m s)) s). unfold lenN in *. lia.
Qed.

(** the rest is undecided *)
Lemma scan_rest_wait m s : decide m (snd (scan m s)) = Wait.
Proof.
  induction s using (scan_ind m).
  - rewrite scan_wait by assumption. assumption.
  - rewrite scan_step by assumption. assumption.
Qed.

(** the rest is a suffix *)
Lemma scan_rest_suffix m s : exists k, k <= lenN s /\ snd (scan m s) = dropN k s.
Proof.
  induction s as [s H|s H IH] using (scan_ind m).
  - rewrite scan_wait by assumption. exists 0. split; [lia|]. reflexivity.
  - rewrite scan_step by assumption. destruct IH as (k & Hk & E). cbn [snd]. rewrite E.
    exists (vskip (decide m s) + k). rewrite dropN_dropN. rewrite lenN_dropN in Hk.
    pose proof (decide_skip_le m s). split; [lia|reflexivity].
Qed.

(** compositionality: the scanner can be stopped and resumed anywhere *)
Lemma scan_app m s t :
  scan m (s ++ t) = (fst (scan m s) ++ fst (scan m (snd (scan m s) ++ t)),
                     snd (scan m (snd (scan m s) ++ t))).
Proof.
  induction s as [s H|s H IH] using (scan_ind m).
  - rewrite (scan_wait m s) by assumption. cbn [fst snd app]. now destruct (scan m (s ++ t)).
  - rewrite (scan_step m s) by assumption. cbn [fst snd].
    rewrite (scan_step m (s ++ t)); rewrite decide_app by assumption; [|assumption].
    rewrite dropN_app_le by apply decide_skip_le. rewrite IH. cbn [fst snd].
    now rewrite app_assoc.
Qed.

Lemma scan_nil m : scan m [] = ([], []).
Proof. reflexivity. Qed.

(** memory bound *)
Lemma decide_wait_bound m s : decide m s = Wait -> lenN s <= N.max 5 (m + 7).
Proof.
  destruct s as [|b0 [|b1 [|c [|i [|l0 [|l1 rest]]]]]]; cbn [decide]; dcase;
    intros; try congruence; rewrite ?lenN_cons, ?lenN_nil; lia.
Qed.

Lemma decide_wait_sync m s : decide m s = Wait -> s = [] \/ exists s', s = xb5 :: s'.
Proof.
  destruct s as [|b0 s]; [auto|]. intros H. right. exists s. f_equal.
  apply byte_eqb_eq. destruct (byte_eqb b0 xb5) eqn:E; [reflexivity|exfalso].
  destruct s as [|b1 [|c [|i [|l0 [|l1 rest]]]]]; cbn [decide] in H; rewrite E in H; discriminate.
Qed.
