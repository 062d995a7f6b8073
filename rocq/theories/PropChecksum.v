(** * Properties of the checksum (C19, C20) *)
From Coq Require Import List NArith ZArith Bool Lia ZifyBool ZifyNat ZifyN.
From Verif Require Import Base BaseFacts Checksum Buffers DualBuffer Parser SpecBuffer SpecFrame SpecParser
  ProofScan ProofChecksum ProofParser ProofFeed ProofBuffers ProofStream ProofTrace ProofSmall ProofTop ProofMore PropParser.
Import ListNotations.
Open Scope N_scope.

(** ** C19 *)

(** [sum1] is the sum of the bytes and [sum2] the sum of the running sums (SpecFrame.v): the second form below says
    that [sum2] weights the i-th of n bytes (from 0) with n - i. *)
Theorem checksum_value :
  forall data, ubx_checksum data = (n2b (sum1 data), n2b (sum2 data)) /\
               cksum_result (cksum_update cksum_new data) = (n2b (sum1 data), n2b (sum2 data)).
Proof. intros data. split; [apply ubx_checksum_correct|apply cksum_correct]. Qed.

(** Weighted sum with explicit positions *)
Fixpoint weighted (n i : N) (d : list byte) : N :=
  match d with [] => 0 | x :: d' => (n - i) * b2n x + weighted n (i + 1) d' end.
Theorem checksum_weights :
  forall data, ubx_checksum data =
    (n2b (fold_right N.add 0 (map b2n data)), n2b (weighted (lenN data) 0 data)).
Proof.
  intros data. rewrite ubx_checksum_correct. f_equal; f_equal.
  - induction data as [|x d IH]; cbn [sum1 map fold_right]; [reflexivity|]. now rewrite IH.
  - assert (forall d k, sum2 d = weighted (k + lenN d) k d) as H.
    { induction d as [|x d IH]; intros k; cbn [sum2 weighted]; [reflexivity|].
      rewrite (IH (k + 1)). rewrite lenN_cons. f_equal; [f_equal; lia|f_equal; lia]. }
    rewrite (H data 0). reflexivity.
Qed.

(** Computing it in pieces gives the same as at once. *)
Theorem checksum_in_pieces :
  forall pieces, fold_left cksum_update pieces cksum_new = cksum_update cksum_new (concat pieces).
Proof.
  intros pieces. generalize cksum_new. induction pieces as [|p ps IH]; intros s; cbn [fold_left concat]; [reflexivity|].
  rewrite IH, cksum_update_app. reflexivity.
Qed.
Theorem checksum_pieces_agree_with_ubx_checksum :
  forall a b, cksum_result (cksum_update (cksum_update cksum_new a) b) = ubx_checksum (a ++ b).
Proof. intros a b. rewrite cksum_update_app. reflexivity. Qed.
Example checksum_ex : ubx_checksum [x06; x01; x08; x00; x01; x06; x00; x01; x00; x00; x00; x00] = (x17, xda) /\
  ubx_checksum [xff; xff; xff] = (xfd, xfa).
Proof. split; vm_compute; reflexivity. Qed.

(** ** C20 *)

(** A candidate whose stored checksum is not that of its contents is reported as a checksum error, however it is cut. *)
Lemma bad_candidate_first {P} (mp : byte -> byte -> list byte -> res (result P)) mx f c i l0 l1 p k0 k1 rest cs :
  mx <= 65535 -> dispatches mp mx f -> chunks_fit mx cs ->
  lenN p = le_num [l0; l1] -> lenN p <= mx -> [k0; k1] <> fletcher ([c; i; l0; l1] ++ p) ->
  concat cs = [xb5; x62; c; i; l0; l1] ++ p ++ [k0; k1] ++ rest ->
  exists more retained, feed_all vec_ops mp mx [] cs =
    Ret (Err (InvalidChecksum (le_num [k0; k1]) (le_num (fletcher ([c; i; l0; l1] ++ p)))) :: more, retained).
Proof.
  intros Hm Hf Hc Hl Hp Hk E. rewrite (vec_feed_all mp mx f Hm Hf cs Hc), E.
  pose proof (decide_candidate mx c i l0 l1 p k0 k1 rest Hl Hp Hk) as Hd.
  rewrite scan_step; rewrite Hd; [|discriminate]. cbn [vevents app fst snd map outcome]. eauto.
Qed.

Lemma header_len (p : list byte) mx : lenN p <= mx -> mx <= 65535 ->
  exists l0 l1, lenN p = le_num [l0; l1] /\ forall c' i' q, lenN q = lenN p -> header c' i' q = [c'; i'; l0; l1].
Proof.
  intros Hp Hm. exists (n2b (lenN p)), (n2b (lenN p / 256)). split.
  - cbn [le_num]. rewrite !b2n_n2b. pose proof (N.div_mod (lenN p) 256 ltac:(lia)).
    rewrite (N.mod_small (lenN p / 256) 256); [lia|]. apply N.div_lt_upper_bound; lia.
  - intros c' i' q Hq. unfold header. rewrite Hq. reflexivity.
Qed.

(** One byte of class, id or payload changed ([a ++ [x] ++ b] to [a ++ [y] ++ b]), length field and checksum unchanged *)
Theorem single_byte_change_detected :
  forall (P : Type) (mp : byte -> byte -> list byte -> res (result P)) mx f c i p c' i' p' a x y b rest cs,
    mx <= 65535 -> dispatches mp mx f -> chunks_fit mx cs -> lenN p <= mx ->
    [c; i] ++ p = a ++ [x] ++ b -> [c'; i'] ++ p' = a ++ [y] ++ b -> x <> y ->
    concat cs = [xb5; x62] ++ header c' i' p' ++ p' ++ fletcher (header c i p ++ p) ++ rest ->
    exists expect got more retained,
      feed_all vec_ops mp mx [] cs = Ret (Err (InvalidChecksum expect got) :: more, retained).
Proof.
  intros P mp mx f c i p c' i' p' a x y b rest cs Hm Hf Hc Hp E1 E2 Hxy Es.
  destruct (header_len p mx Hp Hm) as (l0 & l1 & Hl & Hh).
  assert (lenN p' = lenN p) as Hpp.
  { apply (f_equal lenN) in E1. apply (f_equal lenN) in E2. rewrite !lenN_app, !lenN_cons, !lenN_nil in *. lia. }
  rewrite (Hh c i p eq_refl), (Hh c' i' p' Hpp) in Es. unfold fletcher in Es.
  assert ([n2b (sum1 ([c; i; l0; l1] ++ p)); n2b (sum2 ([c; i; l0; l1] ++ p))] <> fletcher ([c'; i'; l0; l1] ++ p')) as Hk.
  { change ([n2b (sum1 ([c; i; l0; l1] ++ p)); n2b (sum2 ([c; i; l0; l1] ++ p))]) with (fletcher ([c; i; l0; l1] ++ p)).
    intros Hk. apply Hxy.
    destruct a as [|a0 [|a1 a]]; cbn [app] in E1, E2.
    - injection E1 as <- E1. injection E2 as <- E2. rewrite <- E1 in E2. injection E2 as -> ->.
      apply (fletcher_one_byte [] _ _ ([i; l0; l1] ++ p)). exact Hk.
    - injection E1 as <- <- E1. injection E2 as -> <- E2. rewrite <- E1 in E2. subst p'.
      apply (fletcher_one_byte [c] _ _ ([l0; l1] ++ p)). exact Hk.
    - injection E1 as <- <- ->. injection E2 as -> -> ->.
      apply (fletcher_one_byte ([c; i; l0; l1] ++ a) _ _ b). rewrite <- !app_assoc. exact Hk. }
  destruct (bad_candidate_first mp mx f c' i' l0 l1 p' _ _ rest cs Hm Hf Hc ltac:(lia) ltac:(lia) Hk) as (more & t & E).
  - rewrite Es. reflexivity.
  - rewrite E. eauto 10.
Qed.

(** Two adjacent different bytes of the payload exchanged *)
Theorem payload_swap_detected :
  forall (P : Type) (mp : byte -> byte -> list byte -> res (result P)) mx f c i a x y b rest cs,
    mx <= 65535 -> dispatches mp mx f -> chunks_fit mx cs -> lenN (a ++ [x; y] ++ b) <= mx -> x <> y ->
    concat cs = [xb5; x62] ++ header c i (a ++ [y; x] ++ b) ++ (a ++ [y; x] ++ b) ++
                fletcher (header c i (a ++ [x; y] ++ b) ++ a ++ [x; y] ++ b) ++ rest ->
    exists expect got more retained,
      feed_all vec_ops mp mx [] cs = Ret (Err (InvalidChecksum expect got) :: more, retained).
Proof.
  intros P mp mx f c i a x y b rest cs Hm Hf Hc Hp Hxy Es.
  destruct (header_len (a ++ [x; y] ++ b) mx Hp Hm) as (l0 & l1 & Hl & Hh).
  assert (lenN (a ++ [y; x] ++ b) = lenN (a ++ [x; y] ++ b)) as Hpp by (rewrite !lenN_app, !lenN_cons; lia).
  rewrite (Hh c i _ eq_refl), (Hh c i _ Hpp) in Es. unfold fletcher in Es.
  destruct (bad_candidate_first mp mx f c i l0 l1 (a ++ [y; x] ++ b)
    (n2b (sum1 ([c; i; l0; l1] ++ a ++ [x; y] ++ b))) (n2b (sum2 ([c; i; l0; l1] ++ a ++ [x; y] ++ b))) rest cs
    Hm Hf Hc ltac:(lia) ltac:(lia)) as (more & t & E).
  - change (fletcher ([c; i; l0; l1] ++ a ++ [x; y] ++ b) <> fletcher ([c; i; l0; l1] ++ a ++ [y; x] ++ b)).
    intros Hk. rewrite !(app_assoc [c; i; l0; l1]) in Hk. apply fletcher_swap in Hk. contradiction.
  - rewrite Es. reflexivity.
  - rewrite E. eauto 10.
Qed.

(** Class and id exchanged *)
Theorem class_id_swap_detected :
  forall (P : Type) (mp : byte -> byte -> list byte -> res (result P)) mx f c i p rest cs,
    mx <= 65535 -> dispatches mp mx f -> chunks_fit mx cs -> lenN p <= mx -> c <> i ->
    concat cs = [xb5; x62] ++ header i c p ++ p ++ fletcher (header c i p ++ p) ++ rest ->
    exists expect got more retained,
      feed_all vec_ops mp mx [] cs = Ret (Err (InvalidChecksum expect got) :: more, retained).
Proof.
  intros P mp mx f c i p rest cs Hm Hf Hc Hp Hci Es.
  destruct (header_len p mx Hp Hm) as (l0 & l1 & Hl & Hh).
  rewrite (Hh c i _ eq_refl), (Hh i c _ eq_refl) in Es. unfold fletcher in Es.
  destruct (bad_candidate_first mp mx f i c l0 l1 p
    (n2b (sum1 ([c; i; l0; l1] ++ p))) (n2b (sum2 ([c; i; l0; l1] ++ p))) rest cs Hm Hf Hc ltac:(lia) ltac:(lia)) as (more & t & E).
  - change (fletcher ([] ++ [c; i] ++ [l0; l1] ++ p) <> fletcher ([] ++ [i; c] ++ [l0; l1] ++ p)).
    intros Hk. apply fletcher_swap in Hk. contradiction.
  - rewrite Es. reflexivity.
  - rewrite E. eauto 10.
Qed.

(** The checksum bytes changed in any way *)
Theorem checksum_change_detected :
  forall (P : Type) (mp : byte -> byte -> list byte -> res (result P)) mx f c i p k0 k1 rest cs,
    mx <= 65535 -> dispatches mp mx f -> chunks_fit mx cs -> lenN p <= mx ->
    [k0; k1] <> fletcher (header c i p ++ p) ->
    concat cs = [xb5; x62] ++ header c i p ++ p ++ [k0; k1] ++ rest ->
    exists got more retained,
      feed_all vec_ops mp mx [] cs = Ret (Err (InvalidChecksum (b2n k0 + 256 * b2n k1) got) :: more, retained).
Proof.
  intros P mp mx f c i p k0 k1 rest cs Hm Hf Hc Hp Hk Es.
  destruct (header_len p mx Hp Hm) as (l0 & l1 & Hl & Hh).
  rewrite (Hh c i _ eq_refl) in *.
  destruct (bad_candidate_first mp mx f c i l0 l1 p k0 k1 rest cs Hm Hf Hc Hl Hp Hk) as (more & t & E).
  - rewrite Es. reflexivity.
  - rewrite E. cbn [le_num]. replace (b2n k0 + 256 * (b2n k1 + 256 * 0)) with (b2n k0 + 256 * b2n k1) by lia. eauto.
Qed.
Example change_detected_ex :
  [x05; x01] ++ [x06; x08] = [x05; x01; x06] ++ [x08] ++ [] /\ [x05; x01] ++ [x06; x09] = [x05; x01; x06] ++ [x09] ++ [] /\
  feed_all vec_ops raw_mp 8176 [] [[xb5; x62; x05; x01; x02; x00; x06; x09; x16; x3f]] =
    Ret ([Err (InvalidChecksum 16150 16407)], []).
Proof. repeat split. Qed.

(** Not all changes of two bytes are detected: adding 128 to two bytes
    at a distance of 2 goes through. *)
Theorem two_byte_change_detected_refuted :
  exists p q, p <> q /\ lenN p = lenN q /\
    fletcher (header x01 x02 p ++ p) = fletcher (header x01 x02 q ++ q).
Proof. exists [x00; x00; x00], [x80; x00; x80]. split; [discriminate|]. split; vm_compute; reflexivity. Qed.

Print Assumptions checksum_value.
Print Assumptions checksum_weights.
Print Assumptions checksum_in_pieces.
Print Assumptions checksum_pieces_agree_with_ubx_checksum.
Print Assumptions single_byte_change_detected.
Print Assumptions payload_swap_detected.
Print Assumptions class_id_swap_detected.
Print Assumptions checksum_change_detected.
Print Assumptions two_byte_change_detected_refuted.
