(** * One call of [next] over the reference queue (proof support) *)
From Coq Require Import List NArith ZArith Bool Lia ZifyBool ZifyNat ZifyN.
From Verif Require Import Base BaseFacts Checksum Buffers DualBuffer Parser SpecBuffer SpecFrame
  ProofScan ProofDual ProofChecksum.
Import ListNotations.
Open Scope N_scope.

(** several [Skip] verdicts in a row *)
Inductive skips (m : N) : list byte -> list byte -> Prop :=
| skips_refl s : skips m s s
| skips_step s k t : decide m s = Skip k -> skips m (dropN k s) t -> skips m s t.

Lemma skips_trans m a b c : skips m a b -> skips m b c -> skips m a c.
Proof. induction 1; eauto using skips. Qed.

Lemma skips_scan m s t : skips m s t -> scan m s = scan m t.
Proof.
  induction 1; [reflexivity|]. rewrite scan_step by congruence. rewrite H. cbn [vevents vskip app].
  rewrite IHskips. now destruct (scan m t).
Qed.

Lemma skips_suffix m s t : skips m s t -> exists k, k <= lenN s /\ t = dropN k s.
Proof.
  induction 1.
  - exists 0. split; [lia|reflexivity].
  - destruct IHskips as (j & Hj & ->). exists (k + j). rewrite dropN_dropN.
    pose proof (decide_skip_le m s) as Hle. rewrite H in Hle. cbn in Hle. rewrite lenN_dropN in Hj.
    split; [lia|reflexivity].
Qed.

Lemma skips_len m s t : skips m s t -> lenN t <= lenN s.
Proof. intros H. destruct (skips_suffix _ _ _ H) as (k & _ & ->). rewrite lenN_dropN. lia. Qed.

Lemma skips_nosync m s : forall k, k <= lenN s -> (forall i, i < k -> nthN s i <> xb5) ->
  skips m s (dropN k s).
Proof.
  induction s as [|b s IH]; intros k Hk H.
  - rewrite dropN_all by (rewrite lenN_nil; lia). constructor.
  - destruct (N.eq_dec k 0) as [->|Hk0]; [constructor|].
    assert (b <> xb5) as Hb by apply (H 0 ltac:(lia)).
    apply skips_step with (k := 1).
    + apply byte_eqb_neq in Hb. destruct s as [|? [|? [|? [|? [|? ?]]]]]; cbn [decide]; now rewrite Hb.
    + rewrite dropN_cons by lia. change (dropN (1 - 1) s) with s. rewrite dropN_cons by lia.
      rewrite lenN_cons in Hk. apply IH; [lia|]. intros i Hi.
      specialize (H (i + 1) ltac:(lia)). rewrite nthN_cons in H.
      replace (i + 1 =? 0) with false in H by lia. now replace (i + 1 - 1) with i in H by lia.
Qed.

(** length field of a candidate whose header is complete *)
Definition hdr_len (s : list byte) : N := b2n (nthN s 4) + 256 * b2n (nthN s 5).

(** The result of one [next] on the view [s] (with [u] of its bytes in the underlying buffer):
    [nspec s r t] = result [r], remaining view [t]. *)
Inductive nspec {P} (mp : byte -> byte -> list byte -> res (result P)) (cap mx u : N)
  : list byte -> option (result P) -> list byte -> Prop :=
| ns_wait s t :
    skips mx s t -> decide mx t = Wait -> (lenN t <= cap \/ lenN t < 6) ->
    nspec mp cap mx u s None t
| ns_bad s t x y :
    skips mx s t -> decide mx t = Bad x y ->
    nspec mp cap mx u s (Some (Err (InvalidChecksum x y))) (dropN 2 t)
| ns_good s t c i p r :
    skips mx s t -> decide mx t = Good c i p -> mp c i p = Ret r ->
    nspec mp cap mx u s (Some r) (dropN (lenN p + 8) t)
| ns_oom s t :
    skips mx s t -> takeN 2 t = [xb5; x62] -> 6 <= lenN t -> hdr_len t <= mx ->
    cap < lenN t -> cap < hdr_len t + 7 ->
    (lenN t < hdr_len t + 8 \/ (6 < u /\ cap < hdr_len t + 2)) ->
    nspec mp cap mx u s (Some (Err (OutOfMemory (hdr_len t + 2)))) (dropN 2 t).

Lemma le_num2_inj a b c d : le_num [a; b] = le_num [c; d] -> a = c /\ b = d.
Proof.
  cbn [le_num]. pose proof (b2n_lt a). pose proof (b2n_lt b). pose proof (b2n_lt c). pose proof (b2n_lt d).
  intros H'. assert (b2n a = b2n c /\ b2n b = b2n d) as [? ?] by lia.
  split; now apply b2n_inj.
Qed.

Lemma takeN_2_nth l : 2 <= lenN l -> takeN 2 l = [nthN l 0; nthN l 1].
Proof.
  destruct l as [|a [|b l]]; rewrite ?lenN_cons, ?lenN_nil; [lia|lia|]. reflexivity.
Qed.

Lemma decide_full m c i l0 l1 rest :
  decide m (xb5 :: x62 :: c :: i :: l0 :: l1 :: rest) =
    let n := b2n l0 + 256 * b2n l1 in
        if m <? n then Skip 2
        else if lenN rest <? n + 2 then Wait
        else
          let payload := takeN n rest in
          let stored := takeN 2 (dropN n rest) in
          let computed := fletcher (c :: i :: l0 :: l1 :: payload) in
          if le_num stored =? le_num computed then Good c i payload
          else Bad (le_num stored) (le_num computed).
Proof. reflexivity. Qed.

Section S.
  Variable cap : N.
  Context {P : Type} (mp : byte -> byte -> list byte -> res (result P)) (mx : N).
  Hypothesis mx_u16 : mx <= 65535.
  Hypothesis mp_total : forall c i p, lenN p <= mx -> exists r, mp c i p = Ret r.
  Notation q := (queue_ops cap).

  Lemma q_find_sync d : dinv cap d ->
    (exists k, find_sync q d = Ret (Some k) /\ k < lenN (dview d) /\ nthN (dview d) k = xb5 /\
        forall i, i < k -> nthN (dview d) i <> xb5) \/
    (find_sync q d = Ret None /\ forall i, i < lenN (dview d) -> nthN (dview d) i <> xb5).
  Proof. clear mx_u16 mp_total.
    intros H. unfold find_sync. rewrite q_d_len by assumption. cbn [bind].
    destruct (find_range_spec (fun i => let! x := d_index q d i in Ret (byte_eqb x SYNC_CHAR_1))
       (fun i => byte_eqb (nthN (dview d) i) SYNC_CHAR_1) (N.to_nat (lenN (dview d))) 0)
      as [(k & E & Hk & Hq & Hlt)|[E Hall]].
    - intros i Hi. rewrite q_d_index by (auto; lia). reflexivity.
    - left. exists k. split; [assumption|]. split; [lia|]. split; [now apply byte_eqb_eq|].
      intros i Hi. apply byte_eqb_neq. apply Hlt. lia.
    - right. split; [assumption|]. intros i Hi. apply byte_eqb_neq. apply Hall. lia.
  Qed.

  Lemma q_consume buf c : lenN buf <= cap -> cap <= usize_max -> lenN buf + lenN c <= isize_max ->
    exists d, consume q buf c = Ret d /\ dinv cap d /\ skips mx (buf ++ c) (dview d) /\ d_new d = c /\ d_buf d = buf.
  Proof. clear mx_u16 mp_total.
    intros H1 H2 H3. destruct (q_d_create cap buf c H1 H2 H3) as (Hi & Hv & Hu).
    unfold consume. destruct (q_find_sync _ Hi) as [(k & E & Hk & Hq & Hlt)|[E Hall]]; rewrite E; cbn [bind].
    - destruct (q_d_drain cap (d_create buf c) k Hi ltac:(lia)) as (d' & E' & Hi' & Hv' & _ & Hb & Hn).
      exists d'. split; [assumption|]. split; [assumption|].
      split; [|split; [now rewrite Hn|now rewrite Hb]].
      rewrite Hv', <- Hv. apply skips_nosync; [lia|assumption].
    - exists (d_create buf c). rewrite Hv. repeat (split; [reflexivity || assumption|]).
      split; [constructor|]. split; reflexivity.
  Qed.

  Lemma q_extract d c i l0 l1 rest : dinv cap d ->
    dview d = xb5 :: x62 :: c :: i :: l0 :: l1 :: rest ->
    u16_from_le l0 l1 <= mx ->
    exists r d', extract_packet q mp d (u16_from_le l0 l1) = Ret (r, d') /\ dinv cap d' /\
      nspec mp cap mx (dunder d) (dview d) r (dview d') /\ d_new d' = d_new d.
  Proof.
    intros Hi Hv Hn. set (s := dview d) in *.
    assert (u16_from_le l0 l1 = b2n l0 + 256 * b2n l1) as En.
    { unfold u16_from_le. cbn [le_num]. lia. }
    set (n := u16_from_le l0 l1) in *.
    assert (hdr_len s = n) as Eh by (rewrite Hv, En; reflexivity).
    assert (lenN s = 6 + lenN rest) as Els by (rewrite Hv, !lenN_cons; lia).
    assert (n <= 65535) as Hn16 by lia.
    unfold extract_packet. rewrite uadd_ok by numbers. cbn [bind].
    rewrite q_d_can by (auto; fold s; lia). cbn [bind]. fold s.
    set (u := dunder d) in *.
    destruct ((6 + (n + 2) <=? lenN s) && ((u <=? 6) || (6 + (n + 2) <=? u) || (n + 2 <=? cap))) eqn:Ec; cbn [negb].
    2:{ (* cannot take *)
      rewrite q_d_potential_lost by assumption. cbn [bind]. fold s.
      destruct (N.ltb_spec 0 (lenN s - cap)).
      - destruct (q_d_drain cap d 2 Hi ltac:(fold s; lia)) as (d' & E' & Hi' & Hv' & _ & _ & Hnew).
        rewrite E'. cbn [bind]. rewrite ?uadd_ok by numbers. cbn [bind].
        eexists _, d'. split; [reflexivity|]. split; [assumption|]. split; [|assumption].
        rewrite Hv'. fold s. rewrite <- Eh. apply ns_oom.
        + constructor.
        + rewrite Hv. reflexivity.
        + lia.
        + lia.
        + lia.
        + rewrite Eh. destruct (N.ltb_spec (lenN s) (n + 8)); lia.
        + rewrite Eh. lia.
      - exists None, d. split; [reflexivity|]. split; [assumption|]. split; [|reflexivity].
        fold s. apply ns_wait; [constructor| |lia].
        rewrite Hv, decide_full. cbv zeta. rewrite <- En.
        replace (mx <? n) with false by lia.
        assert (lenN s < n + 8) by (destruct (N.ltb_spec (lenN s) (n + 8)); lia).
        replace (lenN rest <? n + 2) with true by lia. reflexivity. }
    assert (n + 8 <= lenN s) as Hlen by lia.
    assert (n + 2 <= lenN rest) as Hrest by lia.
    rewrite ?uadd_ok by numbers. cbn [bind]. rewrite ?uadd_ok by numbers. cbn [bind].
    destruct (q_d_peek cap d 2 (4 + n + 2) Hi ltac:(lia) ltac:(fold s; lia)) as (a & b & Ep & Eab).
    rewrite Ep. cbn [bind]. unfold cksum_result. rewrite cksum_update_app, Eab. fold s.
    assert (takeN (4 + n + 2 - 2) (dropN 2 s) = c :: i :: l0 :: l1 :: takeN n rest) as Ebody.
    { rewrite Hv. change (dropN 2 (xb5 :: x62 :: c :: i :: l0 :: l1 :: rest)) with (c :: i :: l0 :: l1 :: rest).
      rewrite !takeN_cons by lia. replace (4 + n + 2 - 2 - 1 - 1 - 1 - 1) with n by lia. reflexivity. }
    rewrite Ebody, cksum_correct. set (body := c :: i :: l0 :: l1 :: takeN n rest) in *.
    rewrite ?uadd_ok by numbers. cbn [bind]. rewrite !q_d_index by (auto; fold s; lia). cbn [bind].
    rewrite ?uadd_ok by numbers. cbn [bind]. rewrite ?q_d_index by (auto; fold s; lia). cbn [bind]. fold s.
    assert (takeN 2 (dropN n rest) = [nthN s (6 + n); nthN s (6 + n + 1)]) as Est.
    { rewrite takeN_2_nth by (rewrite lenN_dropN; lia). rewrite !nthN_dropN.
      replace rest with (dropN 6 s) by (rewrite Hv; reflexivity). rewrite !nthN_dropN.
      replace (6 + (n + 0)) with (6 + n) by lia. replace (6 + (n + 1)) with (6 + n + 1) by lia. reflexivity. }
    set (ea := nthN s (6 + n)) in *. set (eb := nthN s (6 + n + 1)) in *.
    assert (decide mx s = if le_num [ea; eb] =? le_num (fletcher body) then Good c i (takeN n rest)
                          else Bad (le_num [ea; eb]) (le_num (fletcher body))) as Ed.
    { rewrite Hv, decide_full. cbv zeta. rewrite <- En.
      replace (mx <? n) with false by lia. replace (lenN rest <? n + 2) with false by lia.
      rewrite Est. reflexivity. }
    unfold fletcher in Ed.
    destruct (byte_eqb (n2b (sum1 body)) ea && byte_eqb (n2b (sum2 body)) eb) eqn:Eck; cbn [negb].
    - (* good *)
      apply andb_true_iff in Eck. destruct Eck as [Ea Eb]. apply byte_eqb_eq in Ea, Eb.
      rewrite Ea, Eb, N.eqb_refl in Ed.
      destruct (q_d_drain cap d 6 Hi ltac:(fold s; lia)) as (d1 & E1 & Hi1 & Hv1 & Hu1 & _ & Hnew1).
      rewrite E1. cbn [bind]. rewrite ?uadd_ok by numbers. cbn [bind].
      fold s in Hv1. fold u in Hu1.
      assert (dview d1 = rest) as Hv1' by (rewrite Hv1, Hv; reflexivity).
      destruct (q_d_take cap d1 (n + 2) Hi1) as (d2 & E2 & Hi2 & Hv2 & Hnew2); [lia|rewrite Hv1'; lia|lia|].
      rewrite E2. cbn [bind]. rewrite Hv1'. rewrite lenN_takeN.
      replace (N.min (n + 2) (lenN rest)) with (n + 2) by lia.
      rewrite usub_ok by lia. cbn [bind]. rewrite slice_ok by (rewrite ?lenN_takeN; lia). cbn [bind].
      rewrite dropN_0, takeN_takeN. replace (N.min (n + 2 - 2 - 0) (n + 2)) with n by lia.
      assert (nthN s 2 = c /\ nthN s 3 = i) as [-> ->] by (rewrite Hv; split; reflexivity).
      assert (lenN (takeN n rest) = n) as Elp by (rewrite lenN_takeN; lia).
      destruct (mp_total c i (takeN n rest)) as (r & Er); [lia|].
      rewrite Er. cbn [bind]. eexists _, d2. split; [reflexivity|]. split; [assumption|].
      split; [|congruence].
      rewrite Hv2, Hv1'. replace (dropN (n + 2) rest) with (dropN (lenN (takeN n rest) + 8) s).
      + eapply ns_good; [constructor|eassumption|assumption].
      + rewrite Elp, Hv. replace (n + 8) with (6 + (n + 2)) by lia. rewrite <- dropN_dropN. reflexivity.
    - (* bad *)
      replace (le_num [ea; eb] =? le_num [n2b (sum1 body); n2b (sum2 body)]) with false in Ed.
      2:{ symmetry. apply N.eqb_neq. intros E. apply le_num2_inj in E. destruct E as [Ea Eb].
          rewrite <- Ea, <- Eb, !byte_eqb_refl in Eck. discriminate. }
      destruct (q_d_drain cap d 2 Hi ltac:(fold s; lia)) as (d' & E' & Hi' & Hv' & _ & _ & Hnew).
      rewrite E'. cbn [bind]. eexists _, d'. split; [reflexivity|]. split; [assumption|].
      split; [|assumption]. rewrite Hv'. fold s. apply ns_bad; [constructor|assumption].
  Qed.

  Lemma nspec_skips u u' s s' r t : u' <= u -> skips mx s s' -> nspec mp cap mx u' s' r t -> nspec mp cap mx u s r t.
  Proof.
    clear mx_u16 mp_total. intros Hu Hs H. inversion H; subst.
    - eapply ns_wait; eauto using skips_trans.
    - eapply ns_bad; eauto using skips_trans.
    - eapply ns_good; eauto using skips_trans.
    - eapply ns_oom; eauto using skips_trans. lia.
  Qed.

  Lemma q_next_loop fuel : forall d, dinv cap d -> (N.to_nat (lenN (dview d)) < fuel)%nat ->
    exists r d', next_loop q mp mx fuel d = Ret (r, d') /\ dinv cap d' /\
      nspec mp cap mx (dunder d) (dview d) r (dview d') /\ d_new d' = d_new d.
  Proof.
    induction fuel as [|f IH]; intros d Hi Hf; [lia|].
    cbn [next_loop]. rewrite q_d_len by assumption. cbn [bind].
    destruct (N.ltb_spec 0 (lenN (dview d))) as [Hpos|Hpos]; cbn [negb].
    2:{ exists None, d. split; [reflexivity|]. split; [assumption|]. split; [|reflexivity].
        assert (dview d = []) as -> by (apply lenN_0; lia).
        apply ns_wait; [constructor|reflexivity|right; rewrite lenN_nil; lia]. }
    destruct (q_find_sync d Hi) as [(k & E & Hk & Hq & Hlt)|[E Hall]]; rewrite E; cbn [bind].
    2:{ destruct (q_d_clear cap d Hi) as (d' & E' & Hi' & Hv' & Hu').
        assert (d_new d' = d_new d) as Hnew.
        { unfold d_clear in E'. rewrite q_d_len in E' by assumption. cbn [bind] in E'.
          destruct (q_d_drain cap d _ Hi (N.le_refl _)) as (d2 & E2 & _ & _ & _ & _ & Hn2).
          rewrite E2 in E'. injection E' as <-. assumption. }
        rewrite E'. cbn [bind]. exists None, d'. split; [reflexivity|]. split; [assumption|].
        split; [|assumption]. rewrite Hv'. apply ns_wait; [|reflexivity|right; rewrite lenN_nil; lia].
        rewrite <- (dropN_all (lenN (dview d)) (dview d)) by lia. apply skips_nosync; [lia|assumption]. }
    destruct (q_d_drain cap d k Hi ltac:(lia)) as (d1 & E1 & Hi1 & Hv1 & Hu1 & _ & Hnew1).
    rewrite E1. cbn [bind].
    assert (skips mx (dview d) (dview d1)) as Hsk by (rewrite Hv1; apply skips_nosync; [lia|assumption]).
    assert (nthN (dview d1) 0 = xb5) as H0 by (rewrite Hv1, nthN_dropN, N.add_0_r; assumption).
    assert (0 < lenN (dview d1)) as Hp1 by (rewrite Hv1, lenN_dropN; lia).
    assert (lenN (dview d1) <= lenN (dview d)) as Hle1 by (rewrite Hv1, lenN_dropN; lia).
    clear Hq Hlt E1 E.
    assert (dunder d1 <= dunder d) as Hud by lia.
    rewrite q_d_len by assumption. cbn [bind].
    destruct (dview d1) as [|b0 s1] eqn:Es1; [exfalso; clear - Hp1; cbn in Hp1; lia|].
    change (nthN (b0 :: s1) 0) with b0 in H0. subst b0.
    destruct (N.ltb_spec (lenN (xb5 :: s1)) 2) as [Hl2|Hl2].
    { exists None, d1. split; [reflexivity|]. split; [assumption|]. split; [|assumption].
      rewrite Es1. destruct s1; [|rewrite !lenN_cons in Hl2; lia].
      eapply ns_wait; [eassumption|reflexivity|right; rewrite lenN_cons, lenN_nil; lia]. }
    rewrite q_d_index by (auto; rewrite Es1; lia). cbn [bind]. rewrite Es1.
    destruct s1 as [|b1 s2]; [rewrite lenN_cons, lenN_nil in Hl2; lia|].
    change (nthN (xb5 :: b1 :: s2) 1) with b1.
    destruct (byte_eqb b1 SYNC_CHAR_2) eqn:Eb1; cbn [negb].
    2:{ destruct (q_d_drain cap d1 1 Hi1 ltac:(rewrite Es1; lia)) as (d2 & E2 & Hi2 & Hv2 & Hu2 & _ & Hnew2).
        rewrite E2. cbn [bind].
        destruct (IH d2 Hi2) as (r & d' & E3 & Hi3 & Hn3 & Hnew3).
        { rewrite Hv2, lenN_dropN, Es1. lia. }
        exists r, d'. split; [assumption|]. split; [assumption|]. split; [|congruence].
        eapply nspec_skips; [|eassumption|]; [exact Hud|].
        eapply nspec_skips; [|eapply skips_step with (k := 1); [|constructor]|].
        - instantiate (1 := dunder d2). lia.
        - destruct s2 as [|? [|? [|? [|? ?]]]]; cbn [decide]; unfold SYNC_CHAR_2 in Eb1; now rewrite Eb1.
        - rewrite <- Es1, <- Hv2. assumption. }
    apply byte_eqb_eq in Eb1. unfold SYNC_CHAR_2 in Eb1. subst b1.
    destruct (N.ltb_spec (lenN (xb5 :: x62 :: s2)) 6) as [Hl6|Hl6].
    { exists None, d1. split; [reflexivity|]. split; [assumption|]. split; [|assumption].
      rewrite Es1. eapply ns_wait; [eassumption| |right; assumption].
      destruct s2 as [|? [|? [|? [|? ?]]]]; [reflexivity..|rewrite !lenN_cons in Hl6; lia]. }
    rewrite !q_d_index by (auto; rewrite Es1; lia). cbn [bind]. rewrite Es1.
    destruct s2 as [|c [|i [|l0 [|l1 rest]]]]; try (rewrite !lenN_cons, lenN_nil in Hl6; lia).
    change (nthN (xb5 :: x62 :: c :: i :: l0 :: l1 :: rest) 4) with l0.
    change (nthN (xb5 :: x62 :: c :: i :: l0 :: l1 :: rest) 5) with l1.
    destruct (N.ltb_spec mx (u16_from_le l0 l1)) as [Hm|Hm].
    { destruct (q_d_drain cap d1 2 Hi1 ltac:(rewrite Es1; lia)) as (d2 & E2 & Hi2 & Hv2 & Hu2 & _ & Hnew2).
      rewrite E2. cbn [bind].
      destruct (IH d2 Hi2) as (r & d' & E3 & Hi3 & Hn3 & Hnew3).
      { rewrite Hv2, lenN_dropN, Es1. lia. }
      exists r, d'. split; [assumption|]. split; [assumption|]. split; [|congruence].
      eapply nspec_skips; [|eassumption|]; [exact Hud|].
      eapply nspec_skips; [|eapply skips_step with (k := 2); [|constructor]|].
      - instantiate (1 := dunder d2). lia.
      - rewrite decide_full. cbv zeta. unfold u16_from_le in Hm. cbn [le_num] in Hm.
        replace (mx <? b2n l0 + 256 * b2n l1) with true by lia. reflexivity.
      - rewrite <- Es1, <- Hv2. assumption. }
    destruct (q_extract d1 c i l0 l1 rest Hi1 Es1 Hm) as (r & d' & E3 & Hi3 & Hn3 & Hnew3).
    rewrite E3. exists r, d'. split; [reflexivity|]. split; [assumption|]. split; [|congruence].
    eapply nspec_skips; [exact Hud|eassumption|]. rewrite <- Es1. assumption.
  Qed.

  Lemma q_next d : dinv cap d ->
    exists r d', next q mp mx d = Ret (r, d') /\ dinv cap d' /\
      nspec mp cap mx (dunder d) (dview d) r (dview d') /\ d_new d' = d_new d.
  Proof.
    intros Hi. unfold next. apply q_next_loop; [assumption|].
    rewrite dview_len. unfold dunder. cbn [b_len queue_ops]. dinv_destruct Hi. lia.
  Qed.
End S.
