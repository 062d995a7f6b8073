(** * Streams whose candidates all fit a small buffer (proof support) *)
From Coq Require Import List NArith ZArith Bool Lia ZifyBool ZifyNat ZifyN.
From Verif Require Import Base BaseFacts Checksum Buffers DualBuffer Parser SpecBuffer SpecFrame SpecParser
  ProofScan ProofDual ProofChecksum ProofParser ProofFeed ProofStream ProofTrace.
Import ListNotations.
Open Scope N_scope.

Inductive fits (cap m : N) : list byte -> Prop :=
| f_wait s : decide m s = Wait -> lenN s < 6 \/ hdr_len s + 7 <= cap -> fits cap m s
| f_skip s k : decide m s = Skip k -> fits cap m (dropN k s) -> fits cap m s
| f_bad s x y : decide m s = Bad x y -> hdr_len s + 7 <= cap -> fits cap m (dropN 2 s) -> fits cap m s
| f_good s c i p : decide m s = Good c i p -> hdr_len s + 7 <= cap ->
    fits cap m (dropN (lenN p + 8) s) -> fits cap m s.

Lemma hdr_len_app s z : 6 <= lenN s -> hdr_len (s ++ z) = hdr_len s.
Proof. intros H. unfold hdr_len. rewrite !nthN_app_l by lia. reflexivity. Qed.

Lemma hdr_len_frame c i p s : lenN p <= 65535 -> hdr_len (frame c i p ++ s) = lenN p.
Proof.
  intros H. unfold frame, header, hdr_len. cbn [app].
  match goal with |- b2n (nthN ?l 4) + _ = _ => change (nthN l 4) with (n2b (lenN p));
    change (nthN l 5) with (n2b (lenN p / 256)) end. now apply len_field.
Qed.

Lemma fits_skips cap m s t z : skips m s t -> fits cap m (s ++ z) -> fits cap m (t ++ z).
Proof.
  induction 1 as [|s k t Hd Hs IH]; intros Hf; [assumption|]. apply IH.
  assert (decide m (s ++ z) = Skip k) as Hd' by (rewrite decide_app; congruence).
  pose proof (decide_skip_le m s) as Hle. rewrite Hd in Hle. cbn [vskip] in Hle.
  inversion Hf as [? H|? k' H Hf'|? ? ? H|? ? ? ? H]; subst; rewrite Hd' in H; try discriminate.
  injection H as <-. now rewrite dropN_app_le in Hf' by assumption.
Qed.

Lemma fits_header cap m s : fits cap m s -> takeN 2 s = [xb5; x62] -> 6 <= lenN s -> hdr_len s <= m ->
  hdr_len s + 7 <= cap.
Proof.
  intros Hf H2 H6 Hm. inversion Hf as [? H|? k H Hf'|? ? ? H|? ? ? ? H]; subst; try assumption; [lia|].
  exfalso.
  destruct s as [|b0 [|b1 [|c [|i [|l0 [|l1 rest]]]]]]; rewrite ?lenN_cons, ?lenN_nil in H6; try lia.
  change (takeN 2 (b0 :: b1 :: c :: i :: l0 :: l1 :: rest)) with [b0; b1] in H2.
  assert (b0 = xb5) as -> by congruence. assert (b1 = x62) as -> by congruence.
  cbn [decide] in H. change (byte_eqb xb5 xb5) with true in H. change (byte_eqb x62 x62) with true in H.
  cbn [negb] in H. unfold hdr_len in Hm.
  change (nthN (xb5 :: x62 :: c :: i :: l0 :: l1 :: rest) 4) with l0 in Hm.
  change (nthN (xb5 :: x62 :: c :: i :: l0 :: l1 :: rest) 5) with l1 in Hm.
  replace (m <? b2n l0 + 256 * b2n l1) with false in H by lia.
  revert H. repeat match goal with |- context [if ?b then _ else _] => destruct b end; discriminate.
Qed.

Lemma takeN2_app (s z : list byte) : 2 <= lenN s -> takeN 2 (s ++ z) = takeN 2 s.
Proof. intros. now rewrite takeN_app_le by lia. Qed.

Section S.
  Variable cap : N.
  Context {P : Type} (mp : byte -> byte -> list byte -> res (result P)) (mx : N)
          (f : byte -> byte -> list byte -> P).
  Hypothesis mx_u16 : mx <= 65535.
  Hypothesis mp_f : dispatches mp mx f.
  Notation q := (queue_ops cap).

  Lemma nspec_fits u s r t z : nspec mp cap mx u s r t -> fits cap mx (s ++ z) ->
    fits cap mx (t ++ z) /\
    match r with
    | Some r => exists e, r = outcome f e /\ fst (scan mx s) = e :: fst (scan mx t) /\
                          snd (scan mx s) = snd (scan mx t)
    | None => scan mx s = ([], t)
    end.
  Proof.
    intros H Hf. inversion H as [? t' Hs Hd Hl|? t' x y Hs Hd|? t' c i p r' Hs Hd Hmp|? t' Hs Ht2 Hl6 Hlm Hcap Hcap2 Hor]; subst;
      pose proof (fits_skips _ _ _ _ z Hs Hf) as Hf'; rewrite (skips_scan _ _ _ Hs).
    - split; [assumption|]. now apply scan_wait.
    - dlen. assert (decide mx (t' ++ z) = Bad x y) as Hd' by (rewrite decide_app; congruence).
      inversion Hf' as [? H1|? k' H1 Hf2|? ? ? H1 _ Hf2|? ? ? ? H1]; subst; rewrite Hd' in H1; try discriminate.
      rewrite dropN_app_le in Hf2 by lia. split; [assumption|].
      exists (EBad x y). rewrite (scan_step mx t') by congruence. rewrite Hd. cbn. auto.
    - dlen. assert (decide mx (t' ++ z) = Good c i p) as Hd' by (rewrite decide_app; congruence).
      inversion Hf' as [? H1|? k' H1 Hf2|? ? ? H1 _ Hf2|? ? ? ? H1 Hh Hf2]; subst; rewrite Hd' in H1; try discriminate.
      injection H1 as <- <- <-. rewrite dropN_app_le in Hf2 by lia. split; [assumption|].
      exists (EFrame c i p). rewrite mp_f in Hmp by lia. injection Hmp as <-.
      rewrite (scan_step mx t') by congruence. rewrite Hd. cbn. auto.
    - exfalso. apply fits_header in Hf'.
      + rewrite hdr_len_app in Hf' by lia. lia.
      + rewrite takeN2_app by lia. assumption.
      + rewrite lenN_app. lia.
      + rewrite hdr_len_app by lia. assumption.
  Qed.

  Lemma nruns_fits s rs t : nruns mp cap mx s rs t -> forall z, fits cap mx (s ++ z) ->
    fits cap mx (t ++ z) /\ snd (scan mx s) = t /\ rs = map (outcome f) (fst (scan mx s)).
  Proof.
    induction 1; intros z Hf.
    - destruct (nspec_fits _ _ _ _ z H Hf) as [Hf' E]. rewrite E. auto.
    - destruct (nspec_fits _ _ _ _ z H Hf) as [Hf' (e & -> & E1 & E2)].
      destruct (IHnruns z Hf') as (Hf2 & E3 & E4). rewrite E1, E2. split; [assumption|]. split; [assumption|].
      cbn [map]. now f_equal.
  Qed.

  Lemma q_feed_all_small cs : forall buf, 5 <= cap -> lenN buf <= cap -> cap <= usize_max ->
    decide mx buf = Wait -> chunks_fit mx cs -> fits cap mx (buf ++ concat cs) ->
    feed_all q mp mx buf cs =
      Ret (map (outcome f) (fst (scan mx (buf ++ concat cs))), snd (scan mx (buf ++ concat cs))).
  Proof.
    induction cs as [|c cs IH]; intros buf H5 Hb Hc Hw Hf Hfit; cbn [feed_all concat] in *.
    - rewrite app_nil_r, scan_wait by assumption. reflexivity.
    - pose proof (Hf c (or_introl eq_refl)). pose proof (decide_wait_bound _ _ Hw).
      destruct (q_feed cap mp mx mx_u16 (mp_tot mp mx f mp_f) buf c) as (rs & t & E & Hr); [lia..|].
      rewrite E. cbn [bind]. rewrite app_assoc in Hfit.
      destruct (nruns_fits _ _ _ Hr _ Hfit) as (Hfit' & Est & Ers).
      destruct (nruns_trace cap mp mx f mx_u16 mp_f _ _ _ Hr) as (_ & _ & _ & Hwt & Hlt).
      rewrite takeN_all by lia.
      rewrite IH; [|assumption|lia|assumption|assumption|intros x Hx; apply Hf; now right|assumption]. cbn [bind].
      rewrite app_assoc, (scan_app mx (buf ++ c) (concat cs)). cbn [fst snd].
      rewrite map_app, <- Ers, Est. reflexivity.
  Qed.
End S.

(** every candidate header in the stream announces a frame that fits *)
Lemma fits_all_headers cap m s :
  (forall a c i l0 l1 b, s = a ++ [xb5; x62; c; i; l0; l1] ++ b -> le_num [l0; l1] <= m ->
     le_num [l0; l1] + 7 <= cap) ->
  fits cap m s.
Proof.
  assert (forall s, decide m s <> Wait -> (forall k, decide m s <> Skip k) \/ exists k, decide m s = Skip k) as Hcase.
  { intros s0 _. destruct (decide m s0); eauto; left; congruence. }
  assert (forall s, (decide m s = Wait /\ 6 <= lenN s) \/ (exists x y, decide m s = Bad x y) \/ (exists c i p, decide m s = Good c i p) ->
     exists c i l0 l1 b, s = [xb5; x62; c; i; l0; l1] ++ b /\ le_num [l0; l1] <= m /\ hdr_len s = le_num [l0; l1]) as Hhdr.
  { intros s0 H. destruct s0 as [|b0 [|b1 [|c [|i [|l0 [|l1 rest]]]]]]; cbn [decide] in H; rewrite ?lenN_cons, ?lenN_nil in H;
      repeat match type of H with context [if ?b then _ else _] => destruct b eqn:? end;
      try (exfalso; destruct H as [[H ?]|[(?&?&H)|(?&?&?&H)]]; congruence || lia).
    all: assert (b0 = xb5) as -> by (apply byte_eqb_eq; destruct (byte_eqb b0 xb5); [reflexivity|discriminate]);
      assert (b1 = x62) as -> by (apply byte_eqb_eq; destruct (byte_eqb b1 x62); [reflexivity|discriminate]);
      exists c, i, l0, l1, rest; (split; [reflexivity|]); cbn [le_num]; unfold hdr_len;
      change (nthN (xb5 :: x62 :: c :: i :: l0 :: l1 :: rest) 4) with l0;
      change (nthN (xb5 :: x62 :: c :: i :: l0 :: l1 :: rest) 5) with l1; lia. }
  induction s as [s H|s H IH] using (scan_ind m); intros Hall.
  - apply f_wait; [assumption|]. destruct (N.ltb_spec (lenN s) 6); [now left|right].
    destruct (Hhdr s) as (c & i & l0 & l1 & b & Es & Hl & ->); [left; auto|]. apply (Hall [] c i l0 l1 b); assumption.
  - assert (fits cap m (dropN (vskip (decide m s)) s)) as Hf.
    { apply IH. intros a c i l0 l1 b E. apply (Hall (takeN (vskip (decide m s)) s ++ a) c i l0 l1 b).
      rewrite <- app_assoc, <- E. symmetry. apply takeN_dropN. }
    destruct (decide m s) eqn:Ed; cbn [vskip] in *; [eapply f_skip; eassumption|congruence| |].
    + destruct (Hhdr s) as (c & i & l0 & l1 & b & Es & Hl & Eh); [right; left; eauto|].
      eapply f_bad; [eassumption| |assumption]. rewrite Eh. apply (Hall [] c i l0 l1 b); assumption.
    + destruct (Hhdr s) as (c & i & l0 & l1 & b & Es & Hl & Eh); [right; right; eauto|].
      eapply f_good; [eassumption| |assumption]. rewrite Eh. apply (Hall [] c i l0 l1 b); assumption.
Qed.

(** ** gaps *)
Lemma decide_skip1 m b s : b <> xb5 -> decide m (b :: s) = Skip 1.
Proof.
  intros H. apply byte_eqb_neq in H. destruct s as [|? [|? [|? [|? [|? ?]]]]]; cbn [decide]; now rewrite H.
Qed.
Lemma decide_skip1' m b s : b <> x62 -> decide m (xb5 :: b :: s) = Skip 1.
Proof.
  intros H. apply byte_eqb_neq in H. destruct s as [|? [|? [|? [|? ?]]]]; cbn [decide];
    rewrite H; change (byte_eqb xb5 xb5) with true; reflexivity.
Qed.

Lemma no_sync_pair_tail b g : no_sync_pair (b :: g) -> no_sync_pair g.
Proof. intros H x y E. apply (H (b :: x) y). cbn [app]. now f_equal. Qed.

Lemma gap_skips m g s : no_sync_pair g -> skips m (g ++ xb5 :: s) (xb5 :: s).
Proof.
  induction g as [|b g IH]; intros H; cbn [app]; [constructor|].
  assert (decide m (b :: g ++ xb5 :: s) = Skip 1) as Hd.
  { destruct (byte_eqb b xb5) eqn:E.
    - apply byte_eqb_eq in E. subst b. destruct g as [|b1 g]; cbn [app].
      + apply decide_skip1'. discriminate.
      + apply decide_skip1'. intros ->. apply (H [] g). reflexivity.
    - apply byte_eqb_neq in E. now apply decide_skip1. }
  eapply skips_step; [eassumption|]. change (dropN 1 (b :: g ++ xb5 :: s)) with (g ++ xb5 :: s).
  apply IH. now apply no_sync_pair_tail in H.
Qed.

Lemma gap_end m g : no_sync_pair g -> skips m g [] \/ skips m g [xb5].
Proof.
  induction g as [|b g IH]; intros H; [left; constructor|].
  destruct (byte_eqb b xb5) eqn:E.
  - apply byte_eqb_eq in E. subst b. destruct g as [|b1 g]; [right; constructor|].
    assert (decide m (xb5 :: b1 :: g) = Skip 1) as Hd.
    { apply decide_skip1'. intros ->. apply (H [] g). reflexivity. }
    destruct (IH (no_sync_pair_tail _ _ H)); [left|right]; (eapply skips_step; [eassumption|assumption]).
  - apply byte_eqb_neq in E. pose proof (decide_skip1 m b g E) as Hd.
    destruct (IH (no_sync_pair_tail _ _ H)); [left|right]; (eapply skips_step; [eassumption|assumption]).
Qed.

Lemma interleave_cons g c i p l tl : interleave ((g, (c, i, p)) :: l) tl = g ++ frame c i p ++ interleave l tl.
Proof. unfold interleave. cbn [map concat]. now rewrite <- !app_assoc. Qed.

Lemma frame_cons c i p s : exists s', frame c i p ++ s = xb5 :: s'.
Proof. eexists. reflexivity. Qed.

Definition frame_ev (x : list byte * (byte * byte * list byte)) : event :=
  match x with (_, (c, i, p)) => EFrame c i p end.

Lemma interleave_scan m l tl : m <= 65535 ->
  Forall (fun x => no_sync_pair (fst x) /\ lenN (snd (snd x)) <= m) l -> no_sync_pair tl ->
  fst (scan m (interleave l tl)) = map frame_ev l /\
  (snd (scan m (interleave l tl)) = [] \/ snd (scan m (interleave l tl)) = [xb5]) /\
  (~ In xb5 tl -> snd (scan m (interleave l tl)) = []).
Proof.
  intros Hm Hl Ht. induction Hl as [|[g [[c i] p]] l [Hg Hp] Hl IH].
  - unfold interleave. cbn [map concat app].
    assert (~ In xb5 tl -> snd (scan m tl) = []) as Hno.
    { intros H. rewrite <- (app_nil_r tl), scan_garbage by assumption. reflexivity. }
    destruct (gap_end m tl Ht) as [Hs|Hs]; rewrite (skips_scan _ _ _ Hs) in *; rewrite scan_wait in * by reflexivity; auto.
  - cbn [fst snd] in *. rewrite interleave_cons.
    assert (scan m (g ++ frame c i p ++ interleave l tl) = scan m (frame c i p ++ interleave l tl)) as ->.
    { apply skips_scan. destruct (frame_cons c i p (interleave l tl)) as (s' & ->). now apply gap_skips. }
    rewrite scan_frame by assumption. cbn [fst snd map frame_ev]. destruct IH as [-> IH]. auto.
Qed.

Lemma fits_skips_back cap m s t : skips m s t -> fits cap m t -> fits cap m s.
Proof. induction 1; intros; [assumption|]. eapply f_skip; [eassumption|auto]. Qed.

Lemma interleave_fits cap m l tl : m <= 65535 ->
  Forall (fun x => no_sync_pair (fst x) /\ lenN (snd (snd x)) <= m /\ lenN (snd (snd x)) + 7 <= cap) l -> no_sync_pair tl ->
  fits cap m (interleave l tl).
Proof.
  intros Hm Hl Ht. induction Hl as [|[g [[c i] p]] l (Hg & Hp & Hc) Hl IH].
  - unfold interleave. cbn [map concat app].
    destruct (gap_end m tl Ht) as [Hs|Hs]; (eapply fits_skips_back; [eassumption|]); (apply f_wait; [reflexivity|left]);
      rewrite ?lenN_cons, lenN_nil; lia.
  - cbn [fst snd] in *. rewrite interleave_cons.
    apply fits_skips_back with (t := frame c i p ++ interleave l tl).
    { destruct (frame_cons c i p (interleave l tl)) as (s' & E). rewrite E. now apply gap_skips. }
    eapply f_good; [now apply decide_frame|rewrite hdr_len_frame by lia; assumption|].
    rewrite dropN_app_exact by (now rewrite frame_len). assumption.
Qed.
