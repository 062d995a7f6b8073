(** * Streams, frames and the reference scanner (proof support) *)
From Coq Require Import List NArith ZArith Bool Lia ZifyBool ZifyNat ZifyN.
From Verif Require Import Base BaseFacts SpecFrame ProofScan ProofFeed.
Import ListNotations.
Open Scope N_scope.

Lemma fletcher_len d : lenN (fletcher d) = 2.
Proof. reflexivity. Qed.

Lemma frame_len c i p : lenN (frame c i p) = lenN p + 8.
Proof. unfold frame, header, fletcher. rewrite !lenN_app, !lenN_cons, !lenN_nil. lia. Qed.

Lemma len_field (n : N) : n <= 65535 -> b2n (n2b n) + 256 * b2n (n2b (n / 256)) = n.
Proof.
  intros H. rewrite !b2n_n2b.
  rewrite (N.mod_small (n / 256)) by (apply N.div_lt_upper_bound; lia).
  rewrite (N.div_mod n 256) at 3 by lia. lia.
Qed.

Lemma len_field_inj l0 l1 n : b2n l0 + 256 * b2n l1 = n -> l0 = n2b n /\ l1 = n2b (n / 256).
Proof.
  intros <-. pose proof (b2n_lt l0). pose proof (b2n_lt l1). split; apply b2n_inj; rewrite b2n_n2b.
  - rewrite N.mul_comm, N.mod_add, N.mod_small by lia. reflexivity.
  - rewrite N.mul_comm, N.div_add by lia. rewrite (N.div_small (b2n l0)) by lia.
    rewrite N.mod_small by lia. lia.
Qed.

Lemma decide_frame m c i p s : lenN p <= m -> m <= 65535 -> decide m (frame c i p ++ s) = Good c i p.
Proof.
  intros Hp Hm. unfold frame, header. cbn [app decide].
  change (byte_eqb xb5 xb5) with true. change (byte_eqb x62 x62) with true. cbn [negb].
  rewrite len_field by lia. replace (m <? lenN p) with false by lia.
  rewrite <- app_assoc. rewrite lenN_app, lenN_app, fletcher_len.
  replace (lenN p + (2 + lenN s) <? lenN p + 2) with false by lia.
  rewrite takeN_app_exact by reflexivity. rewrite dropN_app_exact by reflexivity.
  rewrite takeN_app_exact by reflexivity. rewrite N.eqb_refl. reflexivity.
Qed.

Lemma decide_good m s c i p : decide m s = Good c i p ->
  s = frame c i p ++ dropN (lenN p + 8) s /\ lenN p <= m.
Proof.
  intros H. split; [|eapply decide_good_len; eassumption].
  destruct s as [|b0 [|b1 [|c' [|i' [|l0 [|l1 rest]]]]]]; cbn [decide] in H;
    repeat match goal with H : context [if ?b then _ else _] |- _ => destruct b eqn:? end;
    try discriminate.
  set (n := b2n l0 + 256 * b2n l1) in *.
  assert (c' = c) as -> by congruence. assert (i' = i) as -> by congruence.
  assert (takeN n rest = p) as Ep by congruence. clear H.
  assert (lenN p = n) as En by (rewrite <- Ep, lenN_takeN; lia).
  destruct (len_field_inj l0 l1 n eq_refl) as [E0 E1].
  assert (b0 = xb5) as -> by (apply byte_eqb_eq; destruct (byte_eqb b0 xb5); [reflexivity|discriminate]).
  assert (b1 = x62) as -> by (apply byte_eqb_eq; destruct (byte_eqb b1 x62); [reflexivity|discriminate]).
  unfold frame, header. rewrite En, <- E0, <- E1. cbn [app].
  replace (dropN (n + 8) (xb5 :: x62 :: c :: i :: l0 :: l1 :: rest)) with (dropN (n + 2) rest).
  2:{ replace (n + 8) with (6 + (n + 2)) by lia. rewrite <- (dropN_dropN (n + 2) 6). reflexivity. }
  do 6 f_equal. rewrite <- app_assoc.
  rewrite <- (takeN_dropN n rest) at 1. rewrite Ep. f_equal.
  rewrite <- (takeN_dropN 2 (dropN n rest)) at 1. rewrite dropN_dropN. f_equal.
  match goal with H : (le_num _ =? le_num _) = true |- _ => apply N.eqb_eq in H; rename H into Hck end.
  rewrite Ep in Hck. clear - Hck Heqb2 .
  assert (2 <= lenN (dropN n rest)) as Hl by (rewrite lenN_dropN; lia).
  destruct (dropN n rest) as [|x [|y z]]; [rewrite lenN_nil in Hl; lia|rewrite lenN_cons, lenN_nil in Hl; lia|].
  change (takeN 2 (x :: y :: z)) with [x; y] in *. unfold fletcher in *.
  cbn [le_num] in Hck.
  match type of Hck with _ = b2n ?a + 256 * (b2n ?b + _) =>
    pose proof (b2n_lt x); pose proof (b2n_lt y); pose proof (b2n_lt a); pose proof (b2n_lt b);
    assert (x = a) as -> by (apply b2n_inj; lia); assert (y = b) as -> by (apply b2n_inj; lia) end.
  reflexivity.
Qed.

Lemma decide_bad m s x y : decide m s = Bad x y ->
  exists c i l0 l1 p ck0 ck1 rest,
    s = [xb5; x62; c; i; l0; l1] ++ p ++ [ck0; ck1] ++ rest /\
    lenN p = le_num [l0; l1] /\ lenN p <= m /\
    x = le_num [ck0; ck1] /\ y = le_num (fletcher ([c; i; l0; l1] ++ p)) /\ x <> y.
Proof.
  intros H.
  destruct s as [|b0 [|b1 [|c' [|i' [|l0 [|l1 rest]]]]]]; cbn [decide] in H;
    repeat match goal with H : context [if ?b then _ else _] |- _ => destruct b eqn:? end;
    try discriminate.
  set (n := b2n l0 + 256 * b2n l1) in *.
  assert (b0 = xb5) as -> by (apply byte_eqb_eq; destruct (byte_eqb b0 xb5); [reflexivity|discriminate]).
  assert (b1 = x62) as -> by (apply byte_eqb_eq; destruct (byte_eqb b1 x62); [reflexivity|discriminate]).
  assert (le_num (takeN 2 (dropN n rest)) = x) as Ex by congruence.
  assert (le_num (fletcher (c' :: i' :: l0 :: l1 :: takeN n rest)) = y) as Ey by congruence. clear H.
  assert (2 <= lenN (dropN n rest)) as Hl by (rewrite lenN_dropN; lia).
  destruct (dropN n rest) as [|ck0 [|ck1 z]] eqn:Ed;
    [rewrite lenN_nil in Hl; lia|rewrite lenN_cons, lenN_nil in Hl; lia|].
  exists c', i', l0, l1, (takeN n rest), ck0, ck1, z.
  split; [|split; [|split; [|split; [|split]]]].
  - cbn [app]. do 6 f_equal. rewrite <- Ed. now rewrite takeN_dropN.
  - rewrite lenN_takeN. cbn [le_num]. subst n. lia.
  - rewrite lenN_takeN. lia.
  - symmetry. exact Ex.
  - symmetry. exact Ey.
  - rewrite Ex, Ey in Heqb3. now apply N.eqb_neq.
Qed.

(** ** scanning streams of frames *)
Lemma scan_frame m c i p s : lenN p <= m -> m <= 65535 ->
  scan m (frame c i p ++ s) = (EFrame c i p :: fst (scan m s), snd (scan m s)).
Proof.
  intros Hp Hm. rewrite scan_step; rewrite decide_frame by assumption; [|discriminate].
  cbn [vevents vskip app]. rewrite dropN_app_exact by (rewrite frame_len; reflexivity). reflexivity.
Qed.

Lemma scan_garbage m g s : ~ In xb5 g -> scan m (g ++ s) = scan m s.
Proof.
  induction g as [|b g IH]; intros H; cbn [app]; [reflexivity|].
  assert (byte_eqb b xb5 = false) as Hb by (apply byte_eqb_neq; intros ->; apply H; now left).
  assert (decide m (b :: g ++ s) = Skip 1) as Hd.
  { destruct (g ++ s) as [|? [|? [|? [|? [|? ?]]]]]; cbn [decide]; now rewrite Hb. }
  rewrite scan_step; rewrite Hd; [|discriminate]. cbn [vevents vskip app].
  change (dropN 1 (b :: g ++ s)) with (g ++ s). rewrite IH by (intros Hin; apply H; now right).
  now destruct (scan m s).
Qed.

