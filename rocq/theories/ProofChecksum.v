(** * The checksum loop computes the two sums (proof support) *)
From Coq Require Import List NArith ZArith Bool Lia ZifyBool ZifyNat ZifyN.
From Verif Require Import Base BaseFacts Checksum SpecFrame.
Import ListNotations.
Open Scope N_scope.

Lemma cksum_update_app s a b : cksum_update (cksum_update s a) b = cksum_update s (a ++ b).
Proof. unfold cksum_update. now rewrite fold_left_app. Qed.

Lemma cksum_step_val a b x d :
  cksum_step (n2b a, n2b b) x = (n2b (a + b2n x), n2b (b + (a + b2n x))) /\ d = d :> N.
Proof.
  split; [|reflexivity]. unfold cksum_step, u8_wrapping_add. f_equal; apply b2n_inj.
  - rewrite !b2n_n2b. now rewrite N.add_mod_idemp_l.
  - rewrite !b2n_n2b. rewrite N.add_mod_idemp_l, N.add_mod_idemp_r by discriminate.
    rewrite <- N.add_mod_idemp_r by discriminate.
    rewrite (N.add_mod_idemp_l a) by discriminate. now rewrite N.add_mod_idemp_r.
Qed.

Lemma cksum_update_val data : forall a b,
  cksum_update (n2b a, n2b b) data = (n2b (a + sum1 data), n2b (b + lenN data * a + sum2 data)).
Proof.
  induction data as [|x data IH]; intros a b; cbn [sum1 sum2].
  - cbn. rewrite !N.add_0_r. reflexivity.
  - unfold cksum_update in *. cbn [fold_left].
    rewrite (proj1 (cksum_step_val a b x 0)), IH. rewrite !lenN_cons. f_equal; f_equal; lia.
Qed.

Lemma cksum_correct data : cksum_update cksum_new data = (n2b (sum1 data), n2b (sum2 data)).
Proof.
  change cksum_new with (n2b 0, n2b 0). rewrite cksum_update_val. f_equal; f_equal; lia.
Qed.

Lemma ubx_checksum_correct data : ubx_checksum data = (n2b (sum1 data), n2b (sum2 data)).
Proof. apply cksum_correct. Qed.
