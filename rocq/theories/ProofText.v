(** * UTF-8 and iterators (proof support) *)
From Coq Require Import String List NArith ZArith Bool Lia ZifyBool ZifyNat ZifyN.
From Verif Require Import Base BaseFacts Utf8 Iterators SpecTypes.
Import ListNotations.
Open Scope N_scope.
Open Scope list_scope.

(** ** UTF-8 *)

Lemma b2n_n2b_small n : n < 256 -> b2n (n2b n) = n.
Proof. intros H. rewrite b2n_n2b. now apply N.mod_small. Qed.

Lemma in_range_n2b lo hi n : n < 256 -> in_range lo hi (n2b n) = (lo <=? n) && (n <=? hi).
Proof. intros H. unfold in_range. now rewrite b2n_n2b_small. Qed.

Lemma n2b_eq b n : b2n b = n -> n2b n = b.
Proof. intros <-. apply n2b_b2n. Qed.

Ltac rng := repeat (rewrite in_range_n2b by lia); repeat (rewrite b2n_n2b_small by lia).
Ltac decide_if :=
  match goal with
  | |- context [if ?c then _ else _] =>
      first [ replace c with true by (symmetry; lia) | replace c with false by (symmetry; lia) ]
  end.

Lemma utf8_encode_valid c l : scalar_value c -> utf8_valid (utf8_encode c ++ l) = utf8_valid l.
Proof.
  unfold scalar_value, utf8_encode. intros Hc.
  pose proof (N.div_mod c 64 ltac:(lia)) as D1. pose proof (N.mod_lt c 64 ltac:(lia)) as M1.
  pose proof (N.div_mod (c / 64) 64 ltac:(lia)) as D2. pose proof (N.mod_lt (c / 64) 64 ltac:(lia)) as M2.
  pose proof (N.div_mod (c / 4096) 64 ltac:(lia)) as D3. pose proof (N.mod_lt (c / 4096) 64 ltac:(lia)) as M3.
  assert (E2 : c / 64 / 64 = c / 4096) by (rewrite N.div_div by lia; reflexivity).
  assert (E3 : c / 4096 / 64 = c / 262144) by (rewrite N.div_div by lia; reflexivity).
  destruct (N.leb_spec c 127); [|destruct (N.leb_spec c 2047); [|destruct (N.leb_spec c 65535)]]; cbn [app utf8_valid].
  - rng. decide_if. reflexivity.
  - unfold cont. rng. repeat decide_if.
    match goal with |- ?a && ?r = _ => replace a with true by (symmetry; lia); reflexivity end.
  - unfold cont. rng. repeat decide_if.
    match goal with |- ?a && ?b && ?r = _ => replace a with true; [replace b with true by (symmetry; lia); reflexivity|] end.
    symmetry. destruct (0xE0 + c / 4096 =? 224) eqn:X1; [lia|]. destruct (0xE0 + c / 4096 =? 237) eqn:X2; lia.
  - unfold cont. rng. repeat decide_if.
    match goal with |- ?a && ?b && ?d && ?r = _ => replace a with true; [replace b with true by (symmetry; lia); replace d with true by (symmetry; lia); reflexivity|] end.
    symmetry. destruct (0xF0 + c / 262144 =? 240) eqn:X1; [lia|]. destruct (0xF0 + c / 262144 =? 244) eqn:X2; lia.
Qed.

Lemma utf8_valid_text : forall n l, (length l <= n)%nat -> utf8_valid l = true -> is_text l.
Proof.
  induction n as [|n IH]; intros l Hn V.
  - destruct l; [|cbn in Hn; lia]. exists []. split; [constructor|reflexivity].
  - destruct l as [|b0 l0]; [exists []; split; [constructor|reflexivity]|].
    assert (Step : forall c bs l', scalar_value c -> b0 :: l0 = bs ++ l' -> utf8_encode c = bs -> (length l' <= n)%nat ->
              utf8_valid l' = true -> is_text (b0 :: l0)).
    { intros c bs l' Sc E1 E2 Hl V'. destruct (IH l' Hl V') as (cs & Hcs & ->). exists (c :: cs). split; [now constructor|].
      cbn [map concat]. rewrite E2, E1. reflexivity. }
    cbn [utf8_valid] in V. unfold in_range, cont in V. cbn [length] in Hn.
    destruct ((0 <=? b2n b0) && (b2n b0 <=? 127)) eqn:R0.
    { apply (Step (b2n b0) [b0] l0); auto; [unfold scalar_value; lia| |lia].
      unfold utf8_encode. replace (b2n b0 <=? 127) with true by (symmetry; lia). now rewrite n2b_b2n. }
    destruct ((194 <=? b2n b0) && (b2n b0 <=? 223)) eqn:R1.
    { destruct l0 as [|b1 l1]; [discriminate|]. apply andb_true_iff in V. destruct V as [V1 V]. unfold cont, in_range in V1. cbn [length] in Hn.
      set (c := (b2n b0 - 192) * 64 + (b2n b1 - 128)).
      assert (Q : c / 64 = b2n b0 - 192) by (symmetry; apply (N.div_unique c 64 _ (b2n b1 - 128)); unfold c; lia).
      assert (M : c mod 64 = b2n b1 - 128) by (symmetry; apply (N.mod_unique c 64 (b2n b0 - 192)); unfold c; lia).
      apply (Step c [b0; b1] l1); auto; [unfold scalar_value, c; lia| |lia].
      unfold utf8_encode. replace (c <=? 127) with false by (symmetry; unfold c; lia). replace (c <=? 2047) with true by (symmetry; unfold c; lia).
      rewrite Q, M. repeat (f_equal; try (apply n2b_eq; lia)). }
    destruct ((224 <=? b2n b0) && (b2n b0 <=? 239)) eqn:R2.
    { destruct l0 as [|b1 [|b2 l2]]; try discriminate. apply andb_true_iff in V. destruct V as [V V3]. apply andb_true_iff in V. destruct V as [V1 V2].
      unfold cont, in_range in V1, V2. cbn [length] in Hn.
      assert (B1 : 128 <= b2n b1 <= 191 /\ (b2n b0 = 224 -> 160 <= b2n b1) /\ (b2n b0 = 237 -> b2n b1 <= 159)).
      { destruct (b2n b0 =? 224) eqn:X1; [lia|]. destruct (b2n b0 =? 237) eqn:X2; lia. }
      clear V1. set (c := (b2n b0 - 224) * 4096 + (b2n b1 - 128) * 64 + (b2n b2 - 128)).
      assert (Q : c / 64 = (b2n b0 - 224) * 64 + (b2n b1 - 128)) by (symmetry; apply (N.div_unique c 64 _ (b2n b2 - 128)); unfold c; lia).
      assert (M : c mod 64 = b2n b2 - 128) by (symmetry; apply (N.mod_unique c 64 ((b2n b0 - 224) * 64 + (b2n b1 - 128))); unfold c; lia).
      assert (Q2 : c / 4096 = b2n b0 - 224) by (symmetry; apply (N.div_unique c 4096 _ ((b2n b1 - 128) * 64 + (b2n b2 - 128))); unfold c; lia).
      assert (M2 : (c / 64) mod 64 = b2n b1 - 128) by (rewrite Q; symmetry; apply (N.mod_unique _ 64 (b2n b0 - 224)); lia).
      assert (C : c = (b2n b0 - 224) * 4096 + (b2n b1 - 128) * 64 + (b2n b2 - 128)) by reflexivity. clearbody c.
      apply (Step c [b0; b1; b2] l2); auto; [unfold scalar_value; lia| |lia].
      unfold utf8_encode. replace (c <=? 127) with false by (symmetry; lia). replace (c <=? 2047) with false by (symmetry; lia).
      replace (c <=? 65535) with true by (symmetry; lia).
      rewrite Q2, M, M2. repeat (f_equal; try (apply n2b_eq; lia)). }
    destruct ((240 <=? b2n b0) && (b2n b0 <=? 244)) eqn:R3; [|discriminate].
    destruct l0 as [|b1 [|b2 [|b3 l3]]]; try discriminate.
    apply andb_true_iff in V. destruct V as [V V4]. apply andb_true_iff in V. destruct V as [V V3]. apply andb_true_iff in V. destruct V as [V1 V2].
    unfold cont, in_range in V1, V2, V3. cbn [length] in Hn.
    assert (B1 : 128 <= b2n b1 <= 191 /\ (b2n b0 = 240 -> 144 <= b2n b1) /\ (b2n b0 = 244 -> b2n b1 <= 143)).
    { destruct (b2n b0 =? 240) eqn:X1; [lia|]. destruct (b2n b0 =? 244) eqn:X2; lia. }
    clear V1. set (c := (b2n b0 - 240) * 262144 + (b2n b1 - 128) * 4096 + (b2n b2 - 128) * 64 + (b2n b3 - 128)).
    assert (Q : c / 64 = (b2n b0 - 240) * 4096 + (b2n b1 - 128) * 64 + (b2n b2 - 128)) by (symmetry; apply (N.div_unique c 64 _ (b2n b3 - 128)); unfold c; lia).
    assert (M : c mod 64 = b2n b3 - 128) by (symmetry; apply (N.mod_unique c 64 ((b2n b0 - 240) * 4096 + (b2n b1 - 128) * 64 + (b2n b2 - 128))); unfold c; lia).
    assert (Q2 : c / 4096 = (b2n b0 - 240) * 64 + (b2n b1 - 128)) by (symmetry; apply (N.div_unique c 4096 _ ((b2n b2 - 128) * 64 + (b2n b3 - 128))); unfold c; lia).
    assert (Q3 : c / 262144 = b2n b0 - 240) by (symmetry; apply (N.div_unique c 262144 _ ((b2n b1 - 128) * 4096 + (b2n b2 - 128) * 64 + (b2n b3 - 128))); unfold c; lia).
    assert (M2 : (c / 64) mod 64 = b2n b2 - 128) by (rewrite Q; symmetry; apply (N.mod_unique _ 64 ((b2n b0 - 240) * 64 + (b2n b1 - 128))); lia).
    assert (M3 : (c / 4096) mod 64 = b2n b1 - 128) by (rewrite Q2; symmetry; apply (N.mod_unique _ 64 (b2n b0 - 240)); lia).
    assert (C : c = (b2n b0 - 240) * 262144 + (b2n b1 - 128) * 4096 + (b2n b2 - 128) * 64 + (b2n b3 - 128)) by reflexivity. clearbody c.
    apply (Step c [b0; b1; b2; b3] l3); auto; [unfold scalar_value; lia| |lia].
    unfold utf8_encode. replace (c <=? 127) with false by (symmetry; lia). replace (c <=? 2047) with false by (symmetry; lia).
    replace (c <=? 65535) with false by (symmetry; lia).
    rewrite Q3, M, M2, M3. repeat (f_equal; try (apply n2b_eq; lia)).
Qed.

Lemma utf8_valid_iff l : utf8_valid l = true <-> is_text l.
Proof.
  split; [apply (utf8_valid_text (length l)); lia|]. intros (cs & Hcs & ->).
  induction Hcs as [|c cs Hc Hcs IH]; [reflexivity|]. cbn [map concat]. now rewrite utf8_encode_valid.
Qed.

(** ** C strings *)

Lemma null_position_some l pos : null_position l = Some pos ->
  pos < lenN l /\ c_string l (takeN pos l).
Proof.
  revert pos. induction l as [|b l IH]; intros pos H; cbn [null_position] in H; [discriminate|].
  destruct (byte_eqb b x00) eqn:E.
  - injection H as <-. apply byte_eqb_eq in E. subst b. rewrite lenN_cons. split; [lia|].
    split; [intros []|]. exists l. reflexivity.
  - destruct (null_position l) as [q|]; [|discriminate]. injection H as <-. destruct (IH q eq_refl) as (Hq & Hn & rest & Hr).
    rewrite lenN_cons. split; [lia|]. rewrite takeN_cons by lia. replace (q + 1 - 1) with q by lia. split.
    + cbn. intros [Hb|Hb]; [|tauto]. apply byte_eqb_neq in E. congruence.
    + exists rest. cbn. now rewrite <- Hr.
Qed.
Lemma null_position_none l : null_position l = None -> ~ In x00 l.
Proof.
  induction l as [|b l IH]; intros H; cbn [null_position] in H; [intros []|].
  destruct (byte_eqb b x00) eqn:E; [discriminate|]. destruct (null_position l); [discriminate|].
  cbn. intros [Hb|Hb]; [apply byte_eqb_neq in E; congruence|]. now apply IH.
Qed.

Lemma c_string_unique l s1 s2 : c_string l s1 -> c_string l s2 -> s1 = s2.
Proof.
  intros (N1 & r1 & ->) (N2 & r2 & E). revert s2 N2 E. induction s1 as [|b s1 IH]; intros s2 N2 E.
  - destruct s2 as [|c s2]; [reflexivity|]. cbn in E. injection E as E1 E2. subst c. exfalso. apply N2. now left.
  - destruct s2 as [|c s2]; cbn in E; injection E as E1 E2.
    + subst b. exfalso. apply N1. now left.
    + subst c. f_equal. apply IH; [| |exact E2]; intros H; [apply N1|apply N2]; now right.
Qed.

Lemma cstr_valid_iff l : is_cstr_valid l = Ret true <-> exists s, c_string l s /\ is_text s.
Proof.
  unfold is_cstr_valid. destruct (null_position l) as [pos|] eqn:E.
  - destruct (null_position_some l pos E) as (Hp & C). rewrite slice_ok by lia. cbn [bind]. rewrite N.sub_0_r, dropN_0.
    split.
    + intros H. exists (takeN pos l). split; [exact C|]. apply utf8_valid_iff. congruence.
    + intros (s & Cs & T). rewrite (c_string_unique _ _ _ C Cs). f_equal. now apply utf8_valid_iff.
  - split; [discriminate|]. intros (s & (_ & r & ->) & _). exfalso. apply (null_position_none _ E). apply in_app_iff. right. now left.
Qed.

Lemma cstr_convert l s : c_string l s -> is_text s -> convert_to_str_unchecked l = Ret s.
Proof.
  intros C T. unfold convert_to_str_unchecked. destruct (null_position l) as [pos|] eqn:E.
  - destruct (null_position_some l pos E) as (Hp & C'). rewrite slice_ok by lia. cbn [bind]. rewrite N.sub_0_r, dropN_0.
    rewrite (c_string_unique _ _ _ C' C). apply utf8_valid_iff in T. rewrite T. reflexivity.
  - destruct C as (_ & r & ->). exfalso. apply (null_position_none _ E). apply in_app_iff. right. now left.
Qed.

(** ** Blocks *)

Lemma blocks_exist n l : 0 < n -> lenN l mod n = 0 -> exists bs, blocks n l bs.
Proof.
  intros Hn. remember (length l) as k eqn:Hk. assert (Hk' : (length l <= k)%nat) by lia. clear Hk. revert l Hk'.
  induction k as [|k IH]; intros l Hk M.
  - destruct l; [|cbn in Hk; lia]. exists []. split; [reflexivity|constructor].
  - destruct l as [|b l]; [exists []; split; [reflexivity|constructor]|]. set (L := b :: l) in *.
    assert (HL : lenN L <> 0) by (unfold L; rewrite lenN_cons; lia).
    assert (n <= lenN L). { destruct (N.lt_ge_cases (lenN L) n) as [H|H]; [rewrite N.mod_small in M by exact H; lia|exact H]. }
    destruct (IH (dropN n L)) as (bs & E & F).
    + pose proof (lenN_dropN n L) as D. unfold lenN in *. lia.
    + rewrite lenN_dropN. rewrite <- (N.mod_add (lenN L - n) 1 n) by lia. replace (lenN L - n + 1 * n) with (lenN L) by lia. exact M.
    + exists (takeN n L :: bs). split.
      * cbn [concat]. rewrite E. apply takeN_dropN.
      * constructor; [rewrite lenN_takeN; lia|exact F].
Qed.

Lemma blocks_len n l bs : blocks n l bs -> lenN l = n * lenN bs.
Proof.
  intros [<- F]. induction F as [|b bs Hb F IH]; [rewrite !lenN_nil; lia|]. cbn [concat]. rewrite lenN_app, lenN_cons, IH, Hb. lia.
Qed.

Lemma blocks_unique n l bs1 bs2 : 0 < n -> blocks n l bs1 -> blocks n l bs2 -> bs1 = bs2.
Proof.
  intros Hn [<- F1] [E F2]. revert bs2 E F2. induction F1 as [|b bs Hb F1 IH]; intros bs2 E F2.
  - destruct F2 as [|c cs Hc F2]; [reflexivity|]. cbn in E. destruct c; [rewrite lenN_nil in Hc; lia|discriminate].
  - destruct F2 as [|c cs Hc F2]; cbn [concat] in E.
    + destruct b; [rewrite lenN_nil in Hb; lia|discriminate].
    + assert (c = b) as ->.
      { rewrite <- (takeN_app_exact c (concat cs) n) by auto. rewrite E. apply takeN_app_exact. auto. }
      f_equal. apply IH; [|exact F2]. now apply app_inv_head in E.
Qed.

Lemma blocks_cons n l b bs : blocks n l (b :: bs) -> takeN n l = b /\ blocks n (dropN n l) bs.
Proof.
  intros [<- F]. apply Forall_cons_iff in F. destruct F as [Hb F]. cbn [concat]. split; [apply takeN_app_exact; auto|].
  rewrite dropN_app_exact by auto. split; [reflexivity|exact F].
Qed.

(** ** Iterators *)

Lemma offset_iter_yields {A} (next : offset_iter -> res (option (A * offset_iter))) n (g : list byte -> res A) (bs : list (list byte)) :
  0 < n ->
  (forall data off, off + n <= lenN data -> lenN data <= usize_max ->
     next (mk_offset_iter data off) =
     let! x := g (takeN n (dropN off data)) in Ret (Some (x, mk_offset_iter data (off + n)))) ->
  (forall data off, lenN data <= off -> next (mk_offset_iter data off) = Ret None) ->
  forall data off xs, lenN data <= usize_max -> off <= lenN data -> blocks n (dropN off data) bs ->
    Forall2 (fun b x => g b = Ret x) bs xs -> yields next (mk_offset_iter data off) xs.
Proof.
  intros Hn Hnext Hend. induction bs as [|b bs IH]; intros data off xs Hd Ho B F; inversion F; subst.
  - apply yields_end. apply Hend. apply blocks_len in B. rewrite lenN_dropN, lenN_nil in B. lia.
  - pose proof (blocks_len _ _ _ B) as L. rewrite lenN_cons, lenN_dropN in L. apply blocks_cons in B. destruct B as [E B].
    apply (yields_item _ _ y (mk_offset_iter data (off + n))).
    + rewrite Hnext by lia. rewrite E, H1. reflexivity.
    + rewrite dropN_dropN in B. apply IH; auto. lia.
Qed.

Lemma chunks_iter_yields {A} (next : list byte -> res (option (A * list byte))) n (g : list byte -> res A) (bs : list (list byte)) :
  0 < n ->
  (forall it, n <= lenN it -> next it = let! x := g (takeN n it) in Ret (Some (x, dropN n it))) ->
  (forall it, lenN it < n -> next it = Ret None) ->
  forall it xs, blocks n it bs -> Forall2 (fun b x => g b = Ret x) bs xs -> yields next it xs.
Proof.
  intros Hn Hnext Hend. induction bs as [|b bs IH]; intros it xs B F; inversion F; subst.
  - apply yields_end. apply Hend. apply blocks_len in B. rewrite lenN_nil in B. lia.
  - pose proof (blocks_len _ _ _ B) as L. rewrite lenN_cons in L. apply blocks_cons in B. destruct B as [E B].
    apply (yields_item _ _ y (dropN n it)).
    + rewrite Hnext by lia. rewrite E, H1. reflexivity.
    + apply IH; auto.
Qed.

Lemma chunks_blocks n l : 0 < n -> lenN l mod n = 0 -> blocks n l (chunks n l).
Proof.
  intros Hn. unfold chunks. assert (H : (length l <= length l)%nat) by lia. revert H. generalize (length l) at 2 3 as k.
  intros k. revert l. induction k as [|k IH]; intros l Hk M.
  - destruct l; [|cbn in Hk; lia]. split; [reflexivity|constructor].
  - cbn [chunks_fuel]. destruct l as [|b l]; [split; [reflexivity|constructor]|]. set (L := b :: l) in *.
    assert (HL : lenN L <> 0) by (unfold L; rewrite lenN_cons; lia).
    assert (n <= lenN L). { destruct (N.lt_ge_cases (lenN L) n) as [H|H]; [rewrite N.mod_small in M by exact H; lia|exact H]. }
    destruct (IH (dropN n L)) as (E & F).
    + pose proof (lenN_dropN n L) as D. unfold lenN in *. lia.
    + rewrite lenN_dropN. rewrite <- (N.mod_add (lenN L - n) 1 n) by lia. replace (lenN L - n + 1 * n) with (lenN L) by lia. exact M.
    + split.
      * cbn [concat]. rewrite E. apply takeN_dropN.
      * constructor; [rewrite lenN_takeN; lia|exact F].
Qed.

Lemma chunks_exact_all n l : 0 < n -> lenN l mod n = 0 -> chunks_exact n l = l.
Proof. intros Hn M. unfold chunks_exact. rewrite M, N.sub_0_r. apply takeN_all. lia. Qed.

Lemma le_num_value l : le_num l = le_value l.
Proof. induction l as [|b l IH]; [reflexivity|]. cbn [le_num le_value]. rewrite IH. lia. Qed.

Lemma le_value_bound l : le_value l < 256 ^ lenN l.
Proof. rewrite <- le_num_value. apply le_num_bound. Qed.
