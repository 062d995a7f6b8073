(** * Lemmas on the macros' front end *)
From Coq Require Import String Ascii List NArith Bool Lia Permutation.
From Verif Require Import Base Tokens Syntax PackDesc Enums Macro SpecMacro.
Import ListNotations.
Open Scope N_scope.
Open Scope list_scope.

(** ** Results *)

Lemma mbind_good {A B} (x : mres A) (f : A -> mres B) b : mbind x f = Good b <-> exists a, x = Good a /\ f a = Good b.
Proof.
  destruct x; cbn; split; intros H; try discriminate.
  - exists a. split; [reflexivity|exact H].
  - destruct H as (a' & E & H). injection E as ->. exact H.
  - destruct H as (a' & E & H). discriminate.
  - destruct H as (a' & E & H). discriminate.
Qed.

Lemma mbind_crash {A B} (x : mres A) (f : A -> mres B) :
  x <> Crash -> (forall a, x = Good a -> f a <> Crash) -> mbind x f <> Crash.
Proof. intros H1 H2. destruct x; cbn; [apply H2; reflexivity|discriminate|congruence]. Qed.

Lemma mmap_good {A B} (f : A -> mres B) l bs : mmap f l = Good bs <-> Forall2 (fun a b => f a = Good b) l bs.
Proof.
  revert bs. induction l as [|a l IH]; intros bs; cbn.
  - split; intros H; [injection H as <-; constructor | inversion H; reflexivity].
  - rewrite mbind_good. split.
    + intros (b & E & H). apply mbind_good in H. destruct H as (bs' & E' & H). injection H as <-. constructor; [exact E|now apply IH].
    + intros H. inversion H as [|? b ? bs' E R]; subst. exists b. split; [exact E|]. apply mbind_good. exists bs'. split; [now apply IH|reflexivity].
Qed.

Lemma mmap_crash {A B} (f : A -> mres B) l : (forall a, In a l -> f a <> Crash) -> mmap f l <> Crash.
Proof.
  induction l as [|a l IH]; cbn; intros H; [discriminate|].
  apply mbind_crash; [apply H; now left|]. intros b _. apply mbind_crash; [apply IH; intros; apply H; now right|]. discriminate.
Qed.

(** ** Tokens *)

Lemma is_p_iff c t : is_p c t = true <-> t = TPunct c.
Proof.
  destruct t; cbn; split; intros H; try discriminate.
  - apply Ascii.eqb_eq in H. now subst.
  - injection H as ->. apply Ascii.eqb_refl.
Qed.
Lemma is_p_same c : is_p c (TPunct c) = true. Proof. apply is_p_iff. reflexivity. Qed.
Lemma is_kw_iff n t : is_kw n t = true <-> t = TIdent n.
Proof.
  destruct t; cbn; split; intros H; try discriminate.
  - apply String.eqb_eq in H. now subst.
  - injection H as ->. apply String.eqb_refl.
Qed.
Lemma is_ident_iff p n : is_ident p n = true <-> p = [n].
Proof.
  destruct p as [|i [|]]; cbn; split; intros H; try discriminate.
  - apply String.eqb_eq in H. now subst.
  - injection H as ->. apply String.eqb_refl.
Qed.

Lemma delim_eqb_iff a b : delim_eqb a b = true <-> a = b.
Proof. destruct a, b; cbn; split; congruence. Qed.

Fixpoint token_size (t : token) : nat :=
  match t with TGroup _ ts => S (fold_right (fun t a => token_size t + a)%nat O ts) | _ => 1%nat end.

Lemma token_eqb_eq a b : token_eqb a b = true <-> a = b.
Proof.
  assert (G : forall n a b, (token_size a <= n)%nat -> (token_eqb a b = true <-> a = b)).
  { clear. induction n as [|n IH]; intros a b L; [destruct a; cbn in L; lia|].
    destruct a, b; cbn [token_eqb]; try (split; intros H; [discriminate|discriminate]).
    - rewrite String.eqb_eq. split; congruence.
    - rewrite Ascii.eqb_eq. split; congruence.
    - rewrite String.eqb_eq. split; congruence.
    - rewrite andb_true_iff, N.eqb_eq, String.eqb_eq. split; [intros [-> ->]; reflexivity|intros H; injection H; auto].
    - rewrite String.eqb_eq. split; congruence.
    - rewrite String.eqb_eq. split; congruence.
    - rewrite andb_true_iff, delim_eqb_iff. cbn [token_size] in L. apply le_S_n in L.
      match goal with |- _ /\ ?g ts ts0 = true <-> _ => set (go := g) end.
      assert (E : forall ts0, go ts ts0 = true <-> ts = ts0).
      { clear ts0. induction ts as [|x ts IHts]; intros [|y ts0]; cbn [go]; try (split; [discriminate|discriminate]); [tauto|].
        cbn [fold_right] in L. rewrite andb_true_iff, IH by lia. fold go. rewrite IHts by lia.
        split; [intros [-> ->]; reflexivity|intros H; injection H; auto]. }
      rewrite E. split; [intros [-> ->]; reflexivity|intros H; injection H; auto]. }
  apply (G (token_size a)). lia.
Qed.

Lemma tokens_eqb_eq x y : tokens_eqb x y = true <-> x = y.
Proof.
  revert y. induction x as [|a x IH]; intros [|b y]; cbn; try (split; discriminate); [tauto|].
  rewrite andb_true_iff, token_eqb_eq, IH. split; [intros [-> ->]; reflexivity|intros H; injection H; auto].
Qed.

(** ** Finding an attribute *)

Lemma find_attr_first n attrs a : find_attr n attrs = Some a <-> first_attr n attrs a.
Proof.
  unfold find_attr, first_attr. induction attrs as [|b attrs IH]; cbn.
  - split; [discriminate|]. intros (x & y & E & _). destruct x; discriminate.
  - destruct (is_ident (a_path b) n) eqn:E.
    + apply is_ident_iff in E. split.
      * intros H. injection H as ->. exists [], attrs. repeat split; auto.
      * intros (x & y & Ex & P & B). destruct x as [|c x]; cbn in Ex; injection Ex as -> ->; [reflexivity|].
        exfalso. apply (B c); [now left|exact E].
    + assert (N : a_path b <> [n]) by (intros H; apply is_ident_iff in H; congruence).
      rewrite IH. split.
      * intros (x & y & -> & P & B). exists (b :: x), y. split; [reflexivity|]. split; [exact P|]. intros c [<-|Hc]; auto.
      * intros (x & y & Ex & P & B). destruct x as [|c x]; cbn in Ex; injection Ex as -> ->; [congruence|].
        exists x, y. repeat split; auto. intros c' Hc. apply B. now right.
Qed.

(** ** The header *)

Lemma base10_good max n x : base10_parse max n = Good x <-> x = n /\ n <= max.
Proof.
  unfold base10_parse. destruct (N.leb_spec n max); split; intros H'.
  - injection H' as <-. auto.
  - destruct H' as [-> _]. reflexivity.
  - discriminate.
  - lia.
Qed.
Lemma base10_total max n : base10_parse max n <> Crash.
Proof. unfold base10_parse. destruct (n <=? max); discriminate. Qed.

Lemma int_lit_good max l x : int_lit max l = Good x <-> l = LInt x /\ x <= max.
Proof.
  destruct l; cbn; try (split; [discriminate|intros [E _]; discriminate]).
  rewrite base10_good. split; [intros [-> H]; auto | intros [E H]; injection E as ->; auto].
Qed.
Lemma int_lit_total max l : int_lit max l <> Crash.
Proof. destruct l; cbn; try discriminate. apply base10_total. Qed.

Lemma flag_tokens_split n c : split_commas (flag_tokens n c) = repeat [TIdent "default_for_builder"] n.
Proof.
  unfold split_commas. induction n as [|n IH]; [reflexivity|]. destruct n as [|n].
  - destruct c; reflexivity.
  - change (flag_tokens (S (S n)) c) with (TIdent "default_for_builder" :: TPunct "," :: flag_tokens (S n) c).
    cbn [split_at is_p rev app]. rewrite IH. reflexivity.
Qed.

Lemma split_at_cur c cur ts seg : (forall t, In t cur -> t <> TPunct c) ->
  In seg (split_at c cur ts) -> forall t, In t seg -> t <> TPunct c.
Proof.
  revert cur. induction ts as [|a ts IH]; intros cur Hc H t Ht; cbn in H.
  - destruct cur; [destruct H|]. destruct H as [<-|[]]. apply Hc. now apply in_rev.
  - destruct (is_p c a) eqn:E.
    + destruct H as [<-|H]; [apply Hc; now apply in_rev|]. eapply IH; [|exact H|exact Ht]. intros ? [].
    + eapply IH; [|exact H|exact Ht]. intros x [<-|Hx]; [|auto]. intros E2. apply is_p_iff in E2. congruence.
Qed.

(** Splitting forgets only the last comma *)
Fixpoint join (segs : list (list token)) (last : bool) : list token :=
  match segs with
  | [] => []
  | [s] => s ++ (if last then [TPunct ","] else [])
  | s :: segs' => s ++ TPunct "," :: join segs' last
  end.

Lemma split_join_gen ts cur : exists last, rev cur ++ ts = join (split_at "," cur ts) last.
Proof.
  revert cur. induction ts as [|t ts IH]; intros cur; cbn.
  - rewrite app_nil_r. destruct cur; [exists false; reflexivity|]. exists false. cbn. now rewrite app_nil_r.
  - destruct (is_p "," t) eqn:E.
    + apply is_p_iff in E. subst t. destruct (IH []) as [last H]. cbn in H.
      destruct (split_at "," [] ts) as [|s segs] eqn:S.
      * exists true. cbn in H |- *. now rewrite H.
      * exists last. rewrite H. reflexivity.
    + destruct (IH (t :: cur)) as [last H]. exists last. rewrite <- H. cbn. now rewrite <- app_assoc.
Qed.

Lemma parse_flags_good s fl : parse_flags s = Good fl <-> flag_list (LStr s) fl.
Proof.
  unfold parse_flags, flag_list. destruct (lex s) as [ts|] eqn:L.
  2:{ split; [discriminate|]. intros (s' & n & c & E & H & _). injection E as <-. congruence. }
  rewrite mmap_good. split.
  - intros H. assert (R : split_commas ts = repeat [TIdent "default_for_builder"] (length fl) /\ fl = repeat DefaultForBuilder (length fl)).
    { induction H as [|seg f segs fl' E _ [IH1 IH2]]; [split; reflexivity|].
      unfold parse_flag in E. destruct seg as [|t [|]]; try discriminate. destruct (is_kw "default_for_builder" t) eqn:K; [|discriminate].
      apply is_kw_iff in K. injection E as <-. subst t. cbn. rewrite <- IH1, <- IH2. split; reflexivity. }
    destruct R as [R1 R2]. destruct (split_join_gen ts []) as [last J]. cbn in J. fold (split_commas ts) in J. rewrite R1 in J.
    exists s, (length fl), last. split; [reflexivity|]. split; [|exact R2]. rewrite L. f_equal. rewrite J. clear.
    induction (length fl) as [|n IH]; [reflexivity|]. destruct n as [|n]; [destruct last; reflexivity|].
    change (flag_tokens (S (S n)) last) with (TIdent "default_for_builder" :: TPunct "," :: flag_tokens (S n) last). rewrite <- IH. reflexivity.
  - intros (s' & n & c & E & H & ->). injection E as <-. rewrite L in H. injection H as ->. rewrite flag_tokens_split.
    clear. induction n as [|n IH]; cbn; [constructor|constructor; [reflexivity|exact IH]].
Qed.
Lemma parse_flags_total s : parse_flags s <> Crash.
Proof.
  unfold parse_flags. destruct (lex s); [|discriminate]. apply mmap_crash. intros a _. unfold parse_flag.
  destruct a as [|t [|]]; try discriminate. destruct (is_kw _ t); discriminate.
Qed.

(** What the items [l] add to the state of the loop *)
Definition opt_adds (max : N) (o : option N) (ls : list lit) (o' : option N) : Prop :=
  (ls = [] /\ o' = o) \/ (exists x, o = None /\ ls = [LInt x] /\ x <= max /\ o' = Some x).
Definition fl_adds (f : list packet_flag) (ls : list lit) (f' : list packet_flag) : Prop :=
  (ls = [] /\ f' = f) \/ (ls <> [] /\ f = [] /\ flags_say ls f').
Definition known_keys (l : list nested) : Prop :=
  forall e, In e l -> exists k x, e = NValue [k] x /\ In k header_keys.
Definition adds (v : header_vars) (l : list nested) (v' : header_vars) : Prop :=
  opt_adds 255 (hv_class v) (written "class" l) (hv_class v') /\
  opt_adds 255 (hv_id v) (written "id" l) (hv_id v') /\
  opt_adds 65535 (hv_fixed v) (written "fixed_payload_len" l) (hv_fixed v') /\
  opt_adds 65535 (hv_max v) (written "max_payload_len" l) (hv_max v') /\
  fl_adds (hv_flags v) (written "flags" l) (hv_flags v').

Lemma opt_adds_cons max o l ls o' :
  opt_adds max o (l ++ ls) o' /\ (length l <= 1)%nat <-> exists o1, opt_adds max o l o1 /\ (length l <= 1)%nat /\ opt_adds max o1 ls o'.
Proof.
  unfold opt_adds. split.
  - intros [H L]. destruct l as [|a [|]]; [|clear L|cbn in L; lia].
    + exists o. cbn in H. split; [left; auto|]. split; [cbn; lia|exact H].
    + destruct H as [[E _]|(x & -> & E & Hx & ->)]; [discriminate|]. cbn in E. injection E as -> ->.
      exists (Some x). split; [right; exists x; auto|]. split; [cbn; lia|left; auto].
  - intros (o1 & H1 & L & H2). split; [|exact L]. destruct H1 as [[-> ->]|(x & -> & -> & Hx & ->)]; [exact H2|].
    destruct H2 as [[-> ->]|(y & E & _)]; [|discriminate]. right. exists x. auto.
Qed.

Lemma flags_say_one l f : flags_say [l] f <-> flag_list l f.
Proof.
  split; intros H; [|now constructor]. inversion H as [|? ? H1|? ? ? H1 H2]; subst; [exact H1|]. inversion H2; subst. exact H1.
Qed.

Lemma fl_adds_cons f l ls f' :
  fl_adds f (l ++ ls) f' /\ (length l <= 1)%nat <-> exists f1, fl_adds f l f1 /\ (length l <= 1)%nat /\ fl_adds f1 ls f'.
Proof.
  unfold fl_adds. split.
  - intros [H L]. destruct l as [|a [|]]; [|clear L|cbn in L; lia].
    + exists f. cbn in H. split; [left; auto|]. split; [cbn; lia|exact H].
    + destruct H as [[E _]|(_ & -> & H)]; [discriminate|]. cbn in H. inversion H as [|? ? H1|? ? ? H1 H2]; subst.
      * exists f'. split; [right; split; [discriminate|]; split; [reflexivity|now constructor]|]. split; [cbn; lia|left; auto].
      * exists []. split; [right; split; [discriminate|]; split; [reflexivity|now constructor]|]. split; [cbn; lia|].
        destruct ls as [|b ls]; [inversion H2; left; auto|right; split; [discriminate|auto]].
  - intros (f1 & H1 & L & H2). split; [|exact L]. destruct H1 as [[-> ->]|(N1 & -> & H1)]; [exact H2|].
    destruct l as [|a [|]]; [congruence| |cbn in L; lia]. apply flags_say_one in H1. cbn. right. split; [discriminate|]. split; [reflexivity|].
    destruct H2 as [[-> ->]|(N2 & -> & H2)]; [now apply flags_say_one|now apply fs_empty].
Qed.

Lemma written_one k e : (length (written k [e]) <= 1)%nat.
Proof. unfold written. cbn. rewrite app_nil_r. destruct e as [|[|i [|]]| |]; cbn; try lia. destruct (String.eqb i k); cbn; lia. Qed.
Lemma written_cons k e l : written k (e :: l) = written k [e] ++ written k l.
Proof. unfold written. cbn. now rewrite app_nil_r. Qed.
Lemma written_value k x key : written key [NValue [k] x] = if String.eqb k key then [x] else [].
Proof. unfold written. cbn. now rewrite app_nil_r. Qed.

Lemma adds_cons v e l v' : adds v (e :: l) v' <-> exists v1, adds v [e] v1 /\ adds v1 l v'.
Proof.
  unfold adds. split.
  - intros (H1 & H2 & H3 & H4 & H5). rewrite written_cons in H1, H2, H3, H4, H5.
    destruct (proj1 (opt_adds_cons _ _ _ _ _) (conj H1 (written_one _ _))) as (c & C1 & _ & C2).
    destruct (proj1 (opt_adds_cons _ _ _ _ _) (conj H2 (written_one _ _))) as (i & I1 & _ & I2).
    destruct (proj1 (opt_adds_cons _ _ _ _ _) (conj H3 (written_one _ _))) as (f & F1 & _ & F2).
    destruct (proj1 (opt_adds_cons _ _ _ _ _) (conj H4 (written_one _ _))) as (m & M1 & _ & M2).
    destruct (proj1 (fl_adds_cons _ _ _ _) (conj H5 (written_one _ _))) as (g & G1 & _ & G2).
    exists (mk_hv c i f g m). cbn. auto 20.
  - intros (v1 & (C1 & I1 & F1 & M1 & G1) & (C2 & I2 & F2 & M2 & G2)). rewrite !(written_cons _ e l).
    repeat split.
    + apply (proj1 (proj2 (opt_adds_cons _ _ _ _ _) (ex_intro _ _ (conj C1 (conj (written_one _ _) C2))))).
    + apply (proj1 (proj2 (opt_adds_cons _ _ _ _ _) (ex_intro _ _ (conj I1 (conj (written_one _ _) I2))))).
    + apply (proj1 (proj2 (opt_adds_cons _ _ _ _ _) (ex_intro _ _ (conj F1 (conj (written_one _ _) F2))))).
    + apply (proj1 (proj2 (opt_adds_cons _ _ _ _ _) (ex_intro _ _ (conj M1 (conj (written_one _ _) M2))))).
    + apply (proj1 (proj2 (fl_adds_cons _ _ _ _) (ex_intro _ _ (conj G1 (conj (written_one _ _) G2))))).
Qed.

Lemma opt_adds_nil max o o' : opt_adds max o [] o' <-> o' = o.
Proof. unfold opt_adds. split; [intros [[_ H]|(x & _ & E & _)]; [exact H|discriminate]|auto]. Qed.
Lemma fl_adds_nil f f' : fl_adds f [] f' <-> f' = f.
Proof. unfold fl_adds. split; [intros [[_ H]|(H & _)]; [exact H|congruence]|auto]. Qed.
Lemma opt_adds_one max o l o' : opt_adds max o [l] o' <-> o = None /\ exists x, int_lit max l = Good x /\ o' = Some x.
Proof.
  unfold opt_adds. split.
  - intros [[E _]|(x & -> & E & Hx & ->)]; [discriminate|]. injection E as ->. split; [reflexivity|]. exists x. split; [apply int_lit_good; auto|reflexivity].
  - intros [-> (x & H & ->)]. apply int_lit_good in H. destruct H as [-> Hx]. right. exists x. auto.
Qed.
Lemma fl_adds_one f l f' : fl_adds f [l] f' <-> f = [] /\ match l with LStr x => parse_flags x | _ => Bad "Should be string literal" end = Good f'.
Proof.
  unfold fl_adds. split.
  - intros [[E _]|(_ & -> & H)]; [discriminate|]. apply flags_say_one in H. split; [reflexivity|].
    assert (H' := H). destruct H as (s & n & c & -> & _). apply parse_flags_good. exact H'.
  - intros [-> H]. right. split; [discriminate|]. split; [reflexivity|]. apply flags_say_one.
    destruct l; try discriminate. now apply parse_flags_good.
Qed.

Lemma header_item_good v e v' : header_item v e = Good v' <-> known_keys [e] /\ adds v [e] v'.
Proof.
  assert (K : known_keys [e] <-> exists k x, e = NValue [k] x /\ In k header_keys).
  { unfold known_keys. split; [intros H; apply H; now left|]. intros H e' [<-|[]]. exact H. }
  rewrite K. clear K. destruct e as [p|p x|p ts|x]; cbn [header_item];
    try (split; [discriminate|intros [(k & y & E & _) _]; discriminate]).
  assert (Case : forall k, p = [k] -> header_item v (NValue p x) = Good v' <-> In k header_keys /\ adds v [NValue [k] x] v').
  { intros k ->. unfold header_item, is_ident, adds. rewrite !written_value.
    destruct (String.eqb k "class") eqn:E1.
    { apply String.eqb_eq in E1. subst k. cbn [String.eqb Ascii.eqb Bool.eqb]. rewrite !opt_adds_nil, fl_adds_nil, opt_adds_one.
      destruct (hv_class v) as [c|] eqn:Ec; [split; [discriminate|intros [_ [[E _] _]]; discriminate]|].
      rewrite mbind_good. split.
      - intros (y & Hy & E). injection E as <-. cbn. split; [tauto|]. split; [split; [reflexivity|exists y; auto]|auto].
      - intros [_ ((_ & y & Hy & C) & I & F & M & G)]. exists y. split; [exact Hy|]. destruct v'; cbn in *; congruence. }
    destruct (String.eqb k "id") eqn:E2.
    { apply String.eqb_eq in E2. subst k. cbn [String.eqb Ascii.eqb Bool.eqb]. rewrite !opt_adds_nil, fl_adds_nil, opt_adds_one.
      destruct (hv_id v) as [c|] eqn:Ec; [split; [discriminate|intros [_ [_ [[E _] _]]]; discriminate]|].
      rewrite mbind_good. split.
      - intros (y & Hy & E). injection E as <-. cbn. split; [tauto|]. split; [reflexivity|]. split; [split; [reflexivity|exists y; auto]|auto].
      - intros [_ (C & (_ & y & Hy & I) & F & M & G)]. exists y. split; [exact Hy|]. destruct v'; cbn in *; congruence. }
    destruct (String.eqb k "fixed_payload_len") eqn:E3.
    { apply String.eqb_eq in E3. subst k. cbn [String.eqb Ascii.eqb Bool.eqb]. rewrite !opt_adds_nil, fl_adds_nil, opt_adds_one.
      destruct (hv_fixed v) as [c|] eqn:Ec; [split; [discriminate|intros [_ [_ [_ [[E _] _]]]]; discriminate]|].
      rewrite mbind_good. split.
      - intros (y & Hy & E). injection E as <-. cbn. split; [tauto|]. split; [reflexivity|]. split; [reflexivity|]. split; [split; [reflexivity|exists y; auto]|auto].
      - intros [_ (C & I & (_ & y & Hy & F) & M & G)]. exists y. split; [exact Hy|]. destruct v'; cbn in *; congruence. }
    destruct (String.eqb k "max_payload_len") eqn:E4.
    { apply String.eqb_eq in E4. subst k. cbn [String.eqb Ascii.eqb Bool.eqb]. rewrite !opt_adds_nil, fl_adds_nil, opt_adds_one.
      destruct (hv_max v) as [c|] eqn:Ec; [split; [discriminate|intros [_ [_ [_ [_ [[E _] _]]]]]; discriminate]|].
      rewrite mbind_good. split.
      - intros (y & Hy & E). injection E as <-. cbn. split; [tauto|]. split; [reflexivity|]. split; [reflexivity|]. split; [reflexivity|]. split; [split; [reflexivity|exists y; auto]|auto].
      - intros [_ (C & I & F & (_ & y & Hy & M) & G)]. exists y. split; [exact Hy|]. destruct v'; cbn in *; congruence. }
    destruct (String.eqb k "flags") eqn:E5.
    { apply String.eqb_eq in E5. subst k. rewrite !opt_adds_nil, fl_adds_one.
      destruct (hv_flags v) as [|c fl] eqn:Ec; [|split; [discriminate|intros [_ [_ [_ [_ [_ [E _]]]]]]; discriminate]].
      rewrite mbind_good. split.
      - intros (y & Hy & E). injection E as <-. cbn -[parse_flags]. split; [tauto|]. auto 10.
      - intros [_ (C & I & F & M & _ & G)]. exists (hv_flags v'). split; [exact G|]. destruct v'; cbn in *; congruence. }
    split; [discriminate|]. intros [H _]. exfalso. cbn in H.
    destruct H as [<-|[<-|[<-|[<-|[<-|[]]]]]]; discriminate. }
  destruct p as [|k [|k2 p]].
  - split; [discriminate|]. intros [(k & y & E & _) _]. discriminate.
  - rewrite (Case k eq_refl). split.
    + intros [H1 H2]. split; [exists k, x; auto|exact H2].
    + intros [(k' & y & E & H1) H2]. injection E as <- <-. auto.
  - split; [discriminate|]. intros [(k' & y & E & _) _]. discriminate.
Qed.

Lemma known_keys_cons e l : known_keys (e :: l) <-> known_keys [e] /\ known_keys l.
Proof.
  unfold known_keys. split.
  - intros H. split; intros x Hx; apply H; [destruct Hx as [<-|[]]; now left|now right].
  - intros [H1 H2] x [<-|Hx]; [apply H1; now left|now apply H2].
Qed.

Lemma header_items_good l : forall v v', header_items v l = Good v' <-> known_keys l /\ adds v l v'.
Proof.
  induction l as [|e l IH]; intros v v'; cbn [header_items].
  - unfold adds. cbn. rewrite !opt_adds_nil, fl_adds_nil. split.
    + intros E. injection E as <-. split; [intros ? []|auto].
    + intros [_ (A & B & C & D & E)]. destruct v, v'; cbn in *; congruence.
  - rewrite mbind_good, adds_cons, known_keys_cons. split.
    + intros (v1 & H1 & H2). apply header_item_good in H1. apply IH in H2. destruct H1, H2. split; [auto|]. exists v1. auto.
    + intros ((K1 & K2) & v1 & A1 & A2). exists v1. split; [apply header_item_good; auto|apply IH; auto].
Qed.

Lemma opt_adds_start max ls o : opt_adds max None ls o <-> match o with Some x => ls = [LInt x] /\ x <= max | None => ls = [] end.
Proof.
  unfold opt_adds. destruct o as [x|]; split.
  - intros [[_ E]|(y & _ & -> & Hy & E)]; [discriminate|]. injection E as ->. auto.
  - intros [-> H]. right. exists x. auto.
  - intros [[-> _]|(y & _ & _ & _ & E)]; [reflexivity|discriminate].
  - intros ->. auto.
Qed.
Lemma fl_adds_start ls f : fl_adds [] ls f <-> flags_say ls f.
Proof.
  unfold fl_adds. split.
  - intros [[-> ->]|(_ & _ & H)]; [constructor|exact H].
  - intros H. destruct ls; [inversion H; auto|right; split; [discriminate|auto]].
Qed.

Lemma header_item_total v e : header_item v e <> Crash.
Proof.
  destruct e as [p|p x|p ts|x]; cbn [header_item]; try discriminate.
  repeat (match goal with |- context [is_ident ?a ?b] => destruct (is_ident a b) end);
    try discriminate;
    match goal with
    | |- context [match ?h with _ => _ end] => destruct h; try discriminate
    end; try (apply mbind_crash; [apply int_lit_total|discriminate]).
  apply mbind_crash; [|discriminate]. destruct x; try discriminate. apply parse_flags_total.
Qed.

Lemma header_items_total l : forall v, header_items v l <> Crash.
Proof.
  induction l as [|e l IH]; intros v; cbn; [discriminate|]. apply mbind_crash; [apply header_item_total|auto].
Qed.

Lemma nested_of_total seg : nested_of seg <> Crash.
Proof.
  unfold nested_of, meta_rest. destruct seg as [|t [|u seg]]; [discriminate| |].
  - destruct (lit_of t); [discriminate|]. destruct t; discriminate.
  - destruct (path_prefix (t :: u :: seg)) as [[p [|x [|y [|]]]]|]; try discriminate.
    + destruct x as [| | | | | |[]]; discriminate.
    + destruct x as [| | | | | |[]]; cbn; try discriminate; try destruct (Ascii.eqb c "="); try discriminate; destruct (lit_of y); discriminate.
    + destruct x as [| | | | | |[]]; discriminate.
Qed.

Lemma parse_meta_total a : parse_meta a <> Crash.
Proof.
  unfold parse_meta, meta_rest. destruct (a_tokens a) as [|x [|y [|]]]; try discriminate.
  - destruct x as [| | | | | |[]]; try discriminate. apply mbind_crash; [|discriminate]. apply mmap_crash. intros; apply nested_of_total.
  - destruct x as [| | | | | |[]]; cbn; try discriminate; try destruct (Ascii.eqb c "="); try discriminate; destruct (lit_of y); discriminate.
  - destruct x as [| | | | | |[]]; discriminate.
Qed.

Lemma parse_ubx_attr_total attrs : parse_ubx_attr attrs <> Crash.
Proof.
  unfold parse_ubx_attr. destruct (find_attr "ubx" attrs); [|discriminate]. apply mbind_crash; [apply parse_meta_total|].
  intros [|l|l] _; try discriminate. apply mbind_crash; [apply header_items_total|]. intros v _.
  destruct (hv_class v), (hv_id v), (hv_max v), (hv_fixed v); discriminate.
Qed.

Lemma parse_ubx_attr_good attrs h :
  parse_ubx_attr attrs = Good h <-> exists a l, first_attr "ubx" attrs a /\ parse_meta a = Good (MList l) /\ header_says l h.
Proof.
  unfold parse_ubx_attr. destruct (find_attr "ubx" attrs) as [a|] eqn:F.
  2:{ split; [discriminate|]. intros (a & l & H & _). apply find_attr_first in H. congruence. }
  assert (Key : forall l,
    (do v <- header_items (mk_hv None None None [] None) l;
     match hv_class v with
     | None => Bad "No ""class"" attribute"
     | Some class =>
         match hv_id v with
         | None => Bad "No ""id"" attribute"
         | Some id =>
             match hv_max v, hv_fixed v with
             | Some x, None => Good (mk_header class id (Max x) (hv_flags v))
             | None, Some x => Good (mk_header class id (Fixed x) (hv_flags v))
             | Some _, Some _ => Bad "You should not note max_payload_len AND fixed_payload_len"
             | None, None => Bad "You should note max_payload_len or fixed_payload_len"
             end
         end
     end) = Good h <-> header_says l h).
  { intros l. rewrite mbind_good. unfold header_says. split.
    - intros (v & H & R). apply header_items_good in H. destruct H as [K (C & I & Fx & M & G)].
      cbn in C, I, Fx, M, G. rewrite opt_adds_start in C, I, Fx, M. rewrite fl_adds_start in G.
      destruct (hv_class v) as [c|]; [|discriminate]. destruct (hv_id v) as [i|]; [|discriminate].
      destruct (hv_max v) as [m|], (hv_fixed v) as [x|]; try discriminate; injection R as <-; cbn; split; [exact K| |exact K|];
        destruct C, I; repeat split; try assumption; try lia; try tauto; destruct M, Fx; lia || idtac.
    - intros (K & C & Cl & I & Il & Ln & G). destruct h as [c i [n|n] fl]; cbn in *.
      + exists (mk_hv (Some c) (Some i) (Some n) fl None). split; [|reflexivity]. apply header_items_good. split; [exact K|].
        destruct Ln as (L1 & L2 & L3). unfold adds; cbn. rewrite !opt_adds_start, fl_adds_start. repeat split; try assumption; lia.
      + exists (mk_hv (Some c) (Some i) None fl (Some n)). split; [|reflexivity]. apply header_items_good. split; [exact K|].
        destruct Ln as (L1 & L2 & L3). unfold adds; cbn. rewrite !opt_adds_start, fl_adds_start. repeat split; try assumption; lia. }
  rewrite mbind_good. split.
  - intros (m & Hm & R). destruct m as [|l|l]; try discriminate. exists a, l. split; [now apply find_attr_first|]. split; [exact Hm|]. now apply Key.
  - intros (a' & l & H1 & H2 & H3). apply find_attr_first in H1. rewrite F in H1. injection H1 as <-. exists (MList l). split; [exact H2|]. now apply Key.
Qed.

(** ** Types and paths in front of other tokens *)

Definition stops (rest : list token) : Prop :=
  match rest with [] => True | t :: _ => t = TPunct "," \/ exists i, t = TIdent i end.

Lemma ty_prefix_app rest : stops rest -> forall ts st a, ty_prefix st ts = Some (a, []) -> ty_prefix st (ts ++ rest) = Some (a, rest).
Proof.
  intros Hs. induction ts as [|t ts IH]; intros st a H.
  - destruct st; try discriminate. injection H as <-. cbn [app]. destruct rest as [|t rest]; [reflexivity|].
    cbn in Hs |- *. destruct Hs as [->|[i ->]]; reflexivity.
  - assert (M : forall st', match ty_prefix st' ts with Some (a, r) => Some (t :: a, r) | None => None end = Some (a, []) ->
              match ty_prefix st' (ts ++ rest) with Some (a, r) => Some (t :: a, r) | None => None end = Some (a, rest)).
    { intros st' E. destruct (ty_prefix st' ts) as [[a' r']|] eqn:E'; [|discriminate]. injection E as <- ->. now rewrite (IH _ _ E'). }
    cbn [app ty_prefix] in H |- *. destruct st as [| | |n].
    + destruct (is_p "&" t || is_kw "mut" t); [auto|]. destruct t; auto; try discriminate. injection H as <- ->. reflexivity.
    + destruct (is_p "<" t); [auto|]. destruct (is_p ":" t); [auto|]. discriminate.
    + destruct (is_p ":" t); [auto|discriminate].
    + destruct (is_p "<" t); [auto|]. destruct (is_p ">" t); [|auto]. destruct n; [|auto]. injection H as <- ->. reflexivity.
Qed.

Lemma ty_prefix_split ts : forall st a r, ty_prefix st ts = Some (a, r) -> ts = a ++ r /\ ty_prefix st a = Some (a, []).
Proof.
  induction ts as [|t ts IH]; intros st a r H.
  - destruct st; try discriminate. injection H as <- <-. split; reflexivity.
  - assert (M : forall st', match ty_prefix st' ts with Some (a, r) => Some (t :: a, r) | None => None end = Some (a, r) ->
              exists a', a = t :: a' /\ t :: ts = a ++ r /\ ty_prefix st' a' = Some (a', [])).
    { intros st' E. destruct (ty_prefix st' ts) as [[a' r']|] eqn:E'; [|discriminate]. injection E as <- ->.
      destruct (IH _ _ _ E') as [-> H2]. exists a'. auto. }
    cbn [ty_prefix] in H. destruct st as [| | |n].
    + destruct (is_p "&" t || is_kw "mut" t) eqn:E.
      { apply M in H. destruct H as (a' & -> & H1 & H2). split; [exact H1|]. cbn [ty_prefix]. rewrite E, H2. reflexivity. }
      destruct t; try discriminate; try (apply M in H; destruct H as (a' & -> & H1 & H2); split; [exact H1|]; cbn [ty_prefix]; rewrite E, H2; reflexivity).
      injection H as <- <-. split; reflexivity.
    + destruct (is_p "<" t) eqn:E1; [apply M in H; destruct H as (a' & -> & H1 & H2); split; [exact H1|]; cbn [ty_prefix]; rewrite E1, H2; reflexivity|].
      destruct (is_p ":" t) eqn:E2; [apply M in H; destruct H as (a' & -> & H1 & H2); split; [exact H1|]; cbn [ty_prefix]; rewrite E1, E2, H2; reflexivity|].
      injection H as <- <-. split; reflexivity.
    + destruct (is_p ":" t) eqn:E2; [apply M in H; destruct H as (a' & -> & H1 & H2); split; [exact H1|]; cbn [ty_prefix]; rewrite E2, H2; reflexivity|discriminate].
    + destruct (is_p "<" t) eqn:E1; [apply M in H; destruct H as (a' & -> & H1 & H2); split; [exact H1|]; cbn [ty_prefix]; rewrite E1, H2; reflexivity|].
      destruct (is_p ">" t) eqn:E2.
      * destruct n as [|n].
        { injection H as <- <-. split; [reflexivity|]. cbn [ty_prefix]. now rewrite E1, E2. }
        apply M in H; destruct H as (a' & -> & H1 & H2); split; [exact H1|]; cbn [ty_prefix]; rewrite E1, E2, H2; reflexivity.
      * apply M in H; destruct H as (a' & -> & H1 & H2); split; [exact H1|]; cbn [ty_prefix]; rewrite E1, E2, H2; reflexivity.
Qed.

Lemma path_prefix_app rest : stops rest -> forall p, p <> [] -> path_prefix (path_tokens p ++ rest) = Some (p, rest).
Proof.
  intros Hs. induction p as [|i p IH]; intros N; [congruence|]. destruct p as [|j p].
  - cbn. destruct rest as [|a [|b rest]]; [reflexivity|reflexivity|]. cbn in Hs. destruct Hs as [->|[k ->]]; reflexivity.
  - change (path_tokens (i :: j :: p) ++ rest) with (TIdent i :: TPunct ":" :: TPunct ":" :: (path_tokens (j :: p) ++ rest)).
    cbn [path_prefix is_p Ascii.eqb Bool.eqb andb]. rewrite IH by discriminate. reflexivity.
Qed.

Lemma path_prefix_split n : forall ts p r, (length ts <= n)%nat -> path_prefix ts = Some (p, r) -> p <> [] /\ ts = path_tokens p ++ r.
Proof.
  induction n as [|n IH]; intros ts p r L H; [destruct ts; [discriminate|cbn in L; lia]|].
  destruct ts as [|[i| | | | | |] ts]; try discriminate. cbn [path_prefix] in H.
  destruct ts as [|a [|b ts]]; try (injection H as <- <-; split; [discriminate|reflexivity]).
  destruct (is_p ":" a && is_p ":" b) eqn:E.
  - apply andb_prop in E. destruct E as [E1 E2]. apply is_p_iff in E1, E2. subst.
    destruct (path_prefix ts) as [[p' r']|] eqn:E'; [|discriminate]. injection H as <- ->.
    apply IH in E'; [|cbn in L; lia]. destruct E' as [N ->]. split; [discriminate|]. destruct p'; [congruence|reflexivity].
  - injection H as <- <-. split; [discriminate|reflexivity].
Qed.

Lemma to_comma_app e rest : (forall t, In t e -> t <> TPunct ",") -> match rest with [] => True | t :: _ => t = TPunct "," end ->
  to_comma (e ++ rest) = (e, rest).
Proof.
  intros He Hr. induction e as [|t e IH]; cbn.
  - destruct rest as [|t rest]; [reflexivity|]. subst t. reflexivity.
  - destruct (is_p "," t) eqn:E; [apply is_p_iff in E; exfalso; apply (He t); [now left|exact E]|].
    rewrite IH; [reflexivity|]. intros x Hx. apply He. now right.
Qed.

Lemma to_comma_split ts e r : to_comma ts = (e, r) ->
  ts = e ++ r /\ (forall t, In t e -> t <> TPunct ",") /\ match r with [] => True | t :: _ => t = TPunct "," end.
Proof.
  revert e r. induction ts as [|t ts IH]; intros e r H; cbn in H.
  - injection H as <- <-. split; [reflexivity|]. split; [intros ? []|exact I].
  - destruct (is_p "," t) eqn:E.
    + injection H as <- <-. apply is_p_iff in E. split; [reflexivity|]. split; [intros ? []|exact E].
    + destruct (to_comma ts) as [e' r'] eqn:T. injection H as <- <-. destruct (IH _ _ eq_refl) as (-> & H1 & H2).
      split; [reflexivity|]. split; [|exact H2]. intros x [<-|Hx]; [|auto]. intros E2. apply is_p_iff in E2. congruence.
Qed.

(** ** Options *)

Definition apply_opt (v : option_vars) (o : opt) : option_vars :=
  let m := ov_map v in
  match o with
  | OMapType ty => mk_ov m (Some ty) (ov_from v) (ov_into v) (ov_is_valid v) (ov_size v)
  | OScale s => mk_ov (mk_fm (fm_map_type m) (Some s) (fm_alias m) (fm_may_fail m) (fm_get_as_ref m))
                      (ov_ty v) (ov_from v) (ov_into v) (ov_is_valid v) (ov_size v)
  | OAlias i => mk_ov (mk_fm (fm_map_type m) (fm_scale m) (Some i) (fm_may_fail m) (fm_get_as_ref m))
                      (ov_ty v) (ov_from v) (ov_into v) (ov_is_valid v) (ov_size v)
  | OMayFail => mk_ov (mk_fm (fm_map_type m) (fm_scale m) (fm_alias m) true (fm_get_as_ref m))
                      (ov_ty v) (ov_from v) (ov_into v) (ov_is_valid v) (ov_size v)
  | OGetAsRef => mk_ov (mk_fm (fm_map_type m) (fm_scale m) (fm_alias m) (fm_may_fail m) true)
                       (ov_ty v) (ov_from v) (ov_into v) (ov_is_valid v) (ov_size v)
  | OFrom p => mk_ov m (ov_ty v) (Some (path_tokens p)) (ov_into v) (ov_is_valid v) (ov_size v)
  | OIsValid p => mk_ov m (ov_ty v) (ov_from v) (ov_into v) (Some (path_tokens p)) (ov_size v)
  | OSizeFn p => mk_ov m (ov_ty v) (ov_from v) (ov_into v) (ov_is_valid v) (Some (path_tokens p))
  | OInto e => mk_ov m (ov_ty v) (ov_from v) (Some e) (ov_is_valid v) (ov_size v)
  end.

Definition follows (o : opt) (rest : list token) : Prop :=
  match o with
  | OInto _ => match rest with [] => True | t :: _ => t = TPunct "," end
  | _ => True
  end.

Lemma parse_option_app v o w rest : opt_written o w -> stops rest -> follows o rest ->
  parse_option v (w ++ rest) = Good (apply_opt v o, rest).
Proof.
  intros H Hs Hf. destruct H; cbn -[ty_prefix path_prefix path_tokens to_comma]; try reflexivity.
  - rewrite (ty_prefix_app _ Hs _ _ _ H). reflexivity.
  - unfold parse_path. rewrite (path_prefix_app _ Hs _ H). reflexivity.
  - unfold parse_path. rewrite (path_prefix_app _ Hs _ H). reflexivity.
  - unfold parse_path. rewrite (path_prefix_app _ Hs _ H). reflexivity.
  - rewrite (to_comma_app _ _ H0 Hf). destruct e; [congruence|reflexivity].
Qed.

Lemma parse_eq_good ts r : parse_eq ts = Good r <-> ts = TPunct "=" :: r.
Proof.
  destruct ts as [|t ts]; cbn; [split; discriminate|]. destruct (is_p "=" t) eqn:E.
  - apply is_p_iff in E. subst. split; intros H; injection H as <-; reflexivity.
  - split; [discriminate|]. intros H. injection H as -> ->. discriminate.
Qed.

Lemma parse_path_good ts q r : parse_path ts = Good (q, r) -> exists p, p <> [] /\ q = path_tokens p /\ ts = q ++ r.
Proof.
  unfold parse_path. destruct (path_prefix ts) as [[p r']|] eqn:E; [|discriminate]. intros H. injection H as <- <-.
  apply (path_prefix_split (length ts)) in E; [|lia]. destruct E as [N E]. exists p. auto.
Qed.

Lemma parse_option_good v ts v' r : parse_option v ts = Good (v', r) ->
  exists o w, opt_written o w /\ ts = w ++ r /\ follows o r /\ v' = apply_opt v o.
Proof.
  destruct ts as [|t ts]; [discriminate|]. cbn -[ty_prefix path_prefix path_tokens to_comma].
  destruct (is_kw "map_type" t) eqn:K.
  { apply is_kw_iff in K. subst t. intros H. apply mbind_good in H. destruct H as (x & E & H). apply parse_eq_good in E. subst ts.
    destruct (ty_prefix Start x) as [[ty r']|] eqn:T; [|discriminate]. injection H as <- <-.
    apply ty_prefix_split in T. destruct T as [-> T]. exists (OMapType ty), (kv "map_type" ty). split; [now constructor|].
    split; [reflexivity|]. split; [exact I|reflexivity]. }
  clear K. destruct (is_kw "scale" t) eqn:K.
  { apply is_kw_iff in K. subst t. intros H. apply mbind_good in H. destruct H as (x & E & H). apply parse_eq_good in E. subst ts.
    destruct x as [|[s|c|s|n sfx|s|s|dl g] x]; try discriminate. injection H as <- <-.
    exists (OScale s), (kv "scale" [TFloat s]). split; [constructor|]. split; [reflexivity|]. split; [exact I|reflexivity]. }
  clear K. destruct (is_kw "alias" t) eqn:K.
  { apply is_kw_iff in K. subst t. intros H. apply mbind_good in H. destruct H as (x & E & H). apply parse_eq_good in E. subst ts.
    destruct x as [|[s|c|s|n sfx|s|s|dl g] x]; try discriminate. injection H as <- <-.
    exists (OAlias s), (kv "alias" [TIdent s]). split; [constructor|]. split; [reflexivity|]. split; [exact I|reflexivity]. }
  clear K. destruct (is_kw "may_fail" t) eqn:K.
  { apply is_kw_iff in K. subst t. intros H. injection H as <- <-.
    exists OMayFail, [TIdent "may_fail"]. split; [constructor|]. split; [reflexivity|]. split; [exact I|reflexivity]. }
  clear K. destruct (is_kw "from" t) eqn:K.
  { apply is_kw_iff in K. subst t. intros H. apply mbind_good in H. destruct H as (x & E & H). apply parse_eq_good in E. subst ts.
    apply mbind_good in H. destruct H as ([q r'] & E & H). apply parse_path_good in E. destruct E as (p & N & -> & ->). injection H as <- <-.
    exists (OFrom p), (kv "from" (path_tokens p)). split; [now constructor|]. split; [reflexivity|]. split; [exact I|reflexivity]. }
  clear K. destruct (is_kw "is_valid" t) eqn:K.
  { apply is_kw_iff in K. subst t. intros H. apply mbind_good in H. destruct H as (x & E & H). apply parse_eq_good in E. subst ts.
    apply mbind_good in H. destruct H as ([q r'] & E & H). apply parse_path_good in E. destruct E as (p & N & -> & ->). injection H as <- <-.
    exists (OIsValid p), (kv "is_valid" (path_tokens p)). split; [now constructor|]. split; [reflexivity|]. split; [exact I|reflexivity]. }
  clear K. destruct (is_kw "size_fn" t) eqn:K.
  { apply is_kw_iff in K. subst t. intros H. apply mbind_good in H. destruct H as (x & E & H). apply parse_eq_good in E. subst ts.
    apply mbind_good in H. destruct H as ([q r'] & E & H). apply parse_path_good in E. destruct E as (p & N & -> & ->). injection H as <- <-.
    exists (OSizeFn p), (kv "size_fn" (path_tokens p)). split; [now constructor|]. split; [reflexivity|]. split; [exact I|reflexivity]. }
  clear K. destruct (is_kw "get_as_ref" t) eqn:K.
  { apply is_kw_iff in K. subst t. intros H. injection H as <- <-.
    exists OGetAsRef, [TIdent "get_as_ref"]. split; [constructor|]. split; [reflexivity|]. split; [exact I|reflexivity]. }
  clear K. destruct (is_kw "into" t) eqn:K; [|discriminate].
  apply is_kw_iff in K. subst t. intros H. apply mbind_good in H. destruct H as (x & E & H). apply parse_eq_good in E. subst ts.
  destruct (to_comma x) as [[|a e] r'] eqn:T; [discriminate|]. injection H as <- <-. apply to_comma_split in T. destruct T as (-> & T1 & T2).
  exists (OInto (a :: e)), (kv "into" (a :: e)). split; [constructor; [discriminate|exact T1]|]. split; [reflexivity|]. split; [exact T2|reflexivity].
Qed.

Lemma parse_eq_total ts : parse_eq ts <> Crash.
Proof. destruct ts as [|t ts]; cbn; [discriminate|]. destruct (is_p "=" t); discriminate. Qed.
Lemma parse_path_total ts : parse_path ts <> Crash.
Proof. unfold parse_path. destruct (path_prefix ts) as [[]|]; discriminate. Qed.

Lemma parse_option_total v ts : parse_option v ts <> Crash.
Proof.
  destruct ts as [|t ts]; [discriminate|]. cbn -[ty_prefix path_prefix path_tokens to_comma].
  repeat match goal with |- context [is_kw ?k t] => destruct (is_kw k t) end; try discriminate;
    (apply mbind_crash; [apply parse_eq_total|]; intros x _).
  - destruct (ty_prefix Start x) as [[]|]; discriminate.
  - destruct x as [|[]]; discriminate.
  - destruct x as [|[]]; discriminate.
  - apply mbind_crash; [apply parse_path_total|]. intros [] _. discriminate.
  - apply mbind_crash; [apply parse_path_total|]. intros [] _. discriminate.
  - apply mbind_crash; [apply parse_path_total|]. intros [] _. discriminate.
  - destruct (to_comma x) as [[|]]; discriminate.
Qed.

Lemma opt_written_head o w : opt_written o w -> exists k r, w = TIdent k :: r.
Proof. intros H; destruct H; unfold kv; eauto. Qed.
Lemma opts_written_head o os w : opts_written (o :: os) w -> exists k r, w = TIdent k :: r.
Proof.
  intros H. inversion H; subst; match goal with H : opt_written _ _ |- _ => apply opt_written_head in H; destruct H as (k & r & ->) end; cbn; eauto.
Qed.

Lemma parse_options_written os ts : opts_written os ts -> forall n v, (length ts <= n)%nat ->
  parse_options n v ts = Good (fold_left apply_opt os v).
Proof.
  induction 1 as [|o ts H|o ts os rest H H' IH|o ts o' os rest H N H' IH]; intros n v L.
  - destruct n; reflexivity.
  - destruct (opt_written_head _ _ H) as (k & r & E). rewrite E in L. destruct n as [|n]; [cbn in L; lia|].
    assert (P := parse_option_app v o ts [] H I). rewrite app_nil_r in P. rewrite E in P |- *. cbn [parse_options].
    rewrite P; [|destruct o; exact I]. cbn. destruct n; reflexivity.
  - destruct (opt_written_head _ _ H) as (k & r & E). rewrite app_length in L. cbn in L.
    assert (P := parse_option_app v o ts (TPunct "," :: rest) H (or_introl eq_refl)). rewrite E in P, L |- *. cbn [app] in P |- *.
    destruct n as [|n]; [cbn in L; lia|]. cbn [parse_options]. rewrite P; [|destruct o; try exact I; reflexivity].
    cbn [mbind skip_comma is_p Ascii.eqb Bool.eqb]. rewrite IH; [reflexivity|]. cbn in L. lia.
  - destruct (opt_written_head _ _ H) as (k & r & E). rewrite app_length in L.
    destruct (opts_written_head _ _ _ H') as (k' & r' & E').
    assert (S : stops rest) by (rewrite E'; right; eauto).
    assert (P := parse_option_app v o ts rest H S). rewrite E in P, L |- *. cbn [app] in P |- *.
    destruct n as [|n]; [cbn in L; lia|]. cbn [parse_options]. rewrite P; [|destruct o; try exact I; exfalso; eapply N; reflexivity].
    cbn [mbind]. assert (SK : skip_comma rest = rest) by (rewrite E'; reflexivity). rewrite SK, IH; [reflexivity|]. cbn in L. lia.
Qed.

Lemma parse_options_good n : forall ts v v', parse_options n v ts = Good v' -> exists os, opts_written os ts /\ v' = fold_left apply_opt os v.
Proof.
  induction n as [|n IH]; intros ts v v' H.
  - destruct ts; [|discriminate]. injection H as <-. exists []. split; [constructor|reflexivity].
  - destruct ts as [|t ts]; [injection H as <-; exists []; split; [constructor|reflexivity]|]. cbn [parse_options] in H.
    apply mbind_good in H. destruct H as ([v1 r] & E & H). apply parse_option_good in E. destruct E as (o & w & W & -> & F & ->).
    apply IH in H. destruct H as (os & O & ->). exists (o :: os). split; [|reflexivity].
    destruct r as [|c r].
    + cbn in O. destruct os as [|o' os]; [|apply opts_written_head in O; destruct O as (? & ? & ?); discriminate].
      rewrite app_nil_r. now constructor.
    + cbn [skip_comma] in O. destruct (is_p "," c) eqn:C.
      * apply is_p_iff in C. subst c. now constructor.
      * destruct os as [|o' os].
        { inversion O. }
        constructor; [exact W| |exact O]. intros e ->. cbn in F. subst c. discriminate.
Qed.

Lemma parse_options_total n : forall ts v, (length ts <= n)%nat -> parse_options n v ts <> Crash.
Proof.
  induction n as [|n IH]; intros ts v L.
  - destruct ts; [discriminate|cbn in L; lia].
  - destruct ts as [|t ts]; [discriminate|]. cbn [parse_options]. apply mbind_crash; [apply parse_option_total|].
    intros [v1 r] E. apply parse_option_good in E. destruct E as (o & w & W & E & _). apply IH.
    apply opt_written_head in W. destruct W as (k & x & ->). assert (length (t :: ts) = length ((TIdent k :: x) ++ r)) by now rewrite E.
    rewrite app_length in H. cbn in H, L. destruct r as [|c r]; cbn; [lia|]. destruct (is_p "," c); cbn in *; lia.
Qed.

(** The variables at the end of the loop *)
Definition else_ {A} (a b : option A) : option A := match a with Some x => Some x | None => b end.
Lemma else_assoc {A} (a b c : option A) : else_ a (else_ b c) = else_ (else_ a b) c.
Proof. destruct a; reflexivity. Qed.

Lemma fold_apply os : forall v, let v' := fold_left apply_opt os v in
  ov_ty v' = else_ (the_type os) (ov_ty v) /\
  ov_from v' = else_ (the_from os) (ov_from v) /\
  ov_into v' = else_ (the_into os) (ov_into v) /\
  ov_is_valid v' = else_ (the_is_valid os) (ov_is_valid v) /\
  ov_size v' = else_ (the_size_fn os) (ov_size v) /\
  fm_map_type (ov_map v') = fm_map_type (ov_map v) /\
  fm_scale (ov_map v') = else_ (the_scale os) (fm_scale (ov_map v)) /\
  fm_alias (ov_map v') = else_ (the_alias os) (fm_alias (ov_map v)) /\
  fm_may_fail (ov_map v') = fm_may_fail (ov_map v) || has (fun o => match o with OMayFail => true | _ => false end) os /\
  fm_get_as_ref (ov_map v') = fm_get_as_ref (ov_map v) || has (fun o => match o with OGetAsRef => true | _ => false end) os.
Proof.
  induction os as [|o os IH]; intros v; cbn [fold_left]; cbv zeta.
  - cbn. rewrite !orb_false_r. repeat split; reflexivity.
  - destruct (IH (apply_opt v o)) as (H1 & H2 & H3 & H4 & H5 & H6 & H7 & H8 & H9 & H10).
    assert (C : forall A (pick : opt -> option A) b, else_ (last_of pick (o :: os)) b = else_ (last_of pick os) (else_ (pick o) b)).
    { intros A pick b. cbn. unfold else_. destruct (last_of pick os); reflexivity. }
    unfold the_type, the_from, the_into, the_is_valid, the_size_fn, the_scale, the_alias in *. rewrite !C.
    rewrite H1, H2, H3, H4, H5, H6, H7, H8, H9, H10. destruct o; cbn; rewrite ?orb_true_r, ?orb_false_l, ?orb_assoc; repeat split; try reflexivity;
      destruct (fm_may_fail (ov_map v)), (fm_get_as_ref (ov_map v)); reflexivity.
Qed.

Lemma parse_field_map_good ts m : parse_field_map ts = Good m <-> exists os, opts_written os ts /\ m = options_mean os.
Proof.
  assert (E : forall os, let v := fold_left apply_opt os no_options in
    match ov_ty v with
    | Some ty => Good (mk_fm (Some (mk_mt ty (ov_from v) (ov_is_valid v) (ov_into v) (ov_size v)))
                             (fm_scale (ov_map v)) (fm_alias (ov_map v)) (fm_may_fail (ov_map v)) (fm_get_as_ref (ov_map v)))
    | None => Good (ov_map v)
    end = Good (options_mean os)).
  { intros os. destruct (fold_apply os no_options) as (H1 & H2 & H3 & H4 & H5 & H6 & H7 & H8 & H9 & H10). cbv zeta.
    set (v := fold_left apply_opt os no_options) in *. unfold options_mean.
    assert (N : forall A (x : option A), else_ x None = x) by (intros A []; reflexivity).
    cbn in H1, H2, H3, H4, H5, H6, H7, H8, H9, H10. rewrite N in H1, H2, H3, H4, H5, H7, H8. rewrite H1.
    destruct (the_type os); [now rewrite H2, H3, H4, H5, H7, H8, H9, H10|].
    destruct (ov_map v); cbn in *. now rewrite H6, H7, H8, H9, H10. }
  unfold parse_field_map. rewrite mbind_good. split.
  - intros (v & H & R). apply parse_options_good in H. destruct H as (os & O & ->). exists os. split; [exact O|].
    specialize (E os). cbv zeta in E. rewrite E in R. now injection R as <-.
  - intros (os & O & ->). exists (fold_left apply_opt os no_options). split; [apply parse_options_written; [exact O|lia]|apply E].
Qed.
Lemma parse_field_map_total ts : parse_field_map ts <> Crash.
Proof.
  unfold parse_field_map. apply mbind_crash; [apply parse_options_total; lia|]. intros v _. destruct (ov_ty v); discriminate.
Qed.

(** ** Fields *)

Lemma scalar_of_iff ty s : scalar_of ty = Some s <-> type_says ty (Scalar s).
Proof.
  unfold scalar_of.
  repeat match goal with |- context [tokens_eqb ty ?x] =>
    let E := fresh "E" in destruct (tokens_eqb ty x) eqn:E;
      [apply tokens_eqb_eq in E; subst ty; split; [intros H; injection H as <-; constructor|intros H; inversion H; subst; reflexivity]|] end.
  split; [discriminate|]. intros H'. inversion H'; subst; cbn in *; discriminate.
Qed.

Lemma array_parts_iff ts e n : array_parts ts = Some (e, n) <-> ts = e ++ TPunct ";" :: n /\ forall t, In t e -> t <> TPunct ";".
Proof.
  revert e. induction ts as [|t ts IH]; intros e; cbn.
  - split; [discriminate|]. intros [E _]. destruct e; discriminate.
  - destruct (is_p ";" t) eqn:P.
    + apply is_p_iff in P. subst t. split.
      * intros H. injection H as <- <-. split; [reflexivity|intros ? []].
      * intros [E H]. destruct e as [|x e]; [injection E as ->; reflexivity|]. injection E as <- ->. exfalso. apply (H (TPunct ";")); [now left|reflexivity].
    + destruct (array_parts ts) as [[e' n']|] eqn:A.
      * split.
        { intros H. injection H as <- <-. destruct (proj1 (IH e') eq_refl) as [-> H]. split; [reflexivity|]. intros x [<-|Hx]; [|auto].
          intros E. apply is_p_iff in E. congruence. }
        { intros [E H]. destruct e as [|x e]; [injection E as -> ->; discriminate|]. injection E as <- ->.
          assert (Some (e', n') = Some (e, n)) by (apply IH; split; [reflexivity|intros y Hy; apply H; now right]). congruence. }
      * split; [discriminate|]. intros [E H]. destruct e as [|x e]; [injection E as -> ->; discriminate|]. injection E as <- ->.
        assert (None = Some (e, n)) by (apply IH; split; [reflexivity|intros y Hy; apply H; now right]). discriminate.
Qed.

Lemma usize_lt n : n <= usize_max <-> n < 2 ^ 64.
Proof. unfold usize_max. change (2 ^ 64) with 18446744073709551616. lia. Qed.

Lemma field_raw_ty_good ty r : field_raw_ty ty = Good r <-> type_says ty r.
Proof.
  unfold field_raw_ty. destruct (scalar_of ty) as [s|] eqn:S.
  { assert (S' := S). apply scalar_of_iff in S'. split.
    - intros H. injection H as <-. exact S'.
    - intros H. inversion H; subst; try (cbn in S; injection S as <-; reflexivity); discriminate. }
  split.
  - intros H. destruct ty as [|t ty]; [discriminate|]. destruct t as [| | | | | |[] inner];
      try (destruct (is_p "&" _) eqn:P; [|discriminate]; apply is_p_iff in P; try discriminate; injection P as ->; injection H as <-; constructor).
    destruct ty as [|u ty]; [|discriminate].
    destruct (array_parts inner) as [[e n]|] eqn:A; [|discriminate]. apply array_parts_iff in A. destruct A as [-> _].
    destruct (tokens_eqb e [TIdent "u8"]) eqn:E; [|discriminate]. apply tokens_eqb_eq in E. subst e. cbn [negb] in H.
    destruct n as [|[] [|]]; try discriminate. apply mbind_good in H. destruct H as (x & H & R). apply base10_good in H. destruct H as [-> H].
    injection R as <-. constructor. now apply usize_lt.
  - intros H. inversion H; subst; try discriminate; [|reflexivity].
    cbn. destruct (N.leb_spec n usize_max) as [|C]; unfold base10_parse.
    + destruct (N.leb_spec n usize_max); [reflexivity|lia].
    + apply usize_lt in H0. lia.
Qed.

Lemma field_raw_ty_total ty : field_raw_ty ty <> Crash.
Proof.
  unfold field_raw_ty. destruct (scalar_of ty); [discriminate|]. destruct ty as [|t ty]; [discriminate|].
  destruct t as [| | | | | |[] inner]; try (destruct (is_p "&" _); discriminate). destruct ty; [|discriminate].
  destruct (array_parts inner) as [[e n]|]; [|discriminate]. destruct (negb _); [discriminate|]. destruct n as [|[] [|]]; try discriminate.
  apply mbind_crash; [apply base10_total|discriminate].
Qed.

Lemma meta_str a s : parse_meta a = Good (MValue (LStr s)) <-> a_tokens a = [TPunct "="; TStr s].
Proof.
  unfold parse_meta, meta_rest. split.
  - intros H. destruct (a_tokens a) as [|x [|y [|]]]; try discriminate.
    + destruct x as [| | | | | |[]]; try discriminate. apply mbind_good in H. destruct H as (? & _ & H). discriminate.
    + destruct x as [| | | | | |[]]; cbn in H; try discriminate. destruct (Ascii.eqb c "=") eqn:E; [|discriminate]. apply Ascii.eqb_eq in E. subst c.
      destruct y; cbn in H; try discriminate; [|injection H as <-; reflexivity].
      destruct (String.eqb s0 "true"); [discriminate|]. destruct (String.eqb s0 "false"); discriminate.
    + destruct x as [| | | | | |[]]; discriminate.
  - intros ->. reflexivity.
Qed.

Lemma comments_good attrs c : extract_item_comment attrs = Good c <-> comments_say attrs c.
Proof.
  revert c. induction attrs as [|a attrs IH]; intros c; cbn [extract_item_comment].
  - split; [intros H; injection H as <-; constructor|intros H; inversion H; reflexivity].
  - destruct (is_ident (a_path a) "doc") eqn:D.
    + apply is_ident_iff in D. rewrite mbind_good. split.
      * intros (m & M & H). destruct m as [|l|[| |s|]]; try discriminate. apply mbind_good in H. destruct H as (r & R & H). injection H as <-.
        apply meta_str in M. destruct a as [p ts]; cbn in *; subst. constructor. now apply IH.
      * intros H. inversion H as [|s ? r R|? ? ? N R]; subst; [|congruence]. exists (MValue (LStr s)). split; [now apply meta_str|].
        apply mbind_good. exists r. split; [now apply IH|reflexivity].
    + assert (N : a_path a <> ["doc"%string]) by (intros E; apply is_ident_iff in E; congruence). rewrite IH. split.
      * intros H. now constructor.
      * intros H. inversion H; subst; [cbn in N; congruence|assumption].
Qed.
Lemma comments_total attrs : extract_item_comment attrs <> Crash.
Proof.
  induction attrs as [|a attrs IH]; cbn; [discriminate|]. destruct (is_ident _ _); [|exact IH].
  apply mbind_crash; [apply parse_meta_total|]. intros [|l|[| |s|]] _; try discriminate. apply mbind_crash; [exact IH|discriminate].
Qed.

Lemma map_is_none_iff os : map_is_none (options_mean os) = true <-> the_type os = None /\ the_scale os = None /\ the_alias os = None.
Proof.
  unfold map_is_none, options_mean. cbn. destruct (the_type os), (the_scale os), (the_alias os); split; try discriminate; try tauto;
    intros (? & ? & ?); congruence.
Qed.

Lemma parse_args_good a ts : parse_args a = Good ts <-> a_tokens a = [TGroup Paren ts].
Proof.
  unfold parse_args. split.
  - destruct (a_tokens a) as [|[| | | | | |[]] [|]]; try discriminate. intros H. now injection H as <-.
  - intros ->. reflexivity.
Qed.
Lemma parse_args_total a : parse_args a <> Crash.
Proof. unfold parse_args. destruct (a_tokens a) as [|[| | | | | |[]] [|]]; discriminate. Qed.

Definition is_doc (a : attribute) : Prop := a_path a = ["doc"%string].
Definition replaced (a : attribute) : Prop :=
  a_path a = ["doc"%string] \/
  exists ts' os', a_tokens a = [TGroup Paren ts'] /\ opts_written os' ts' /\
                  the_type os' = None /\ the_scale os' = None /\ the_alias os' = None.

Lemma field_attrs_good attrs : forall m m', field_attrs m attrs = Good m' <->
  ((forall a, In a attrs -> is_doc a) /\ m' = m) \/
  (map_is_none m = true /\ exists before p ts os after, attrs = before ++ mk_attr p [TGroup Paren ts] :: after /\
     (forall a, In a after -> is_doc a) /\ p <> ["doc"%string] /\ opts_written os ts /\ (forall a, In a before -> replaced a) /\ m' = options_mean os).
Proof.
  induction attrs as [|a attrs IH]; intros m m'; cbn [field_attrs].
  - split.
    + intros H. injection H as <-. left. split; [intros ? []|reflexivity].
    + intros [[_ ->]|(_ & before & p & ts & os & after & E & _)]; [reflexivity|]. destruct before; discriminate.
  - destruct (is_ident (a_path a) "doc") eqn:D.
    + apply is_ident_iff in D. rewrite IH. split.
      * intros [[H ->]|(N & before & p & ts & os & after & -> & H1 & H2 & H3 & H4 & ->)].
        { left. split; [|reflexivity]. intros x [<-|Hx]; [exact D|auto]. }
        { right. split; [exact N|]. exists (a :: before), p, ts, os, after. split; [reflexivity|]. repeat split; auto.
          intros x [<-|Hx]; [left; exact D|auto]. }
      * intros [[H ->]|(N & before & p & ts & os & after & E & H1 & H2 & H3 & H4 & ->)].
        { left. split; [|reflexivity]. intros x Hx. apply H. now right. }
        { destruct before as [|b before].
          - injection E as -> ->. cbn in D. congruence.
          - injection E as -> ->. right. split; [exact N|]. exists before, p, ts, os, after. repeat split; auto. intros x Hx. apply H4. now right. }
    + assert (ND : a_path a <> ["doc"%string]) by (intros E; apply is_ident_iff in E; congruence).
      destruct (map_is_none m) eqn:N; cbn [negb].
      2:{ split; [discriminate|]. intros [[H _]|[E _]]; [|discriminate]. exfalso. apply ND. apply H. now left. }
      rewrite mbind_good. split.
      * intros (ts & A & H). apply mbind_good in H. destruct H as (m1 & P & H). apply parse_args_good in A.
        apply parse_field_map_good in P. destruct P as (os & O & ->). apply IH in H. right. split; [reflexivity|].
        destruct H as [[H ->]|(N' & before & p & ts' & os' & after & -> & H1 & H2 & H3 & H4 & ->)].
        { exists [], (a_path a), ts, os, attrs. split; [destruct a; cbn in *; subst; reflexivity|]. repeat split; auto. intros ? []. }
        { exists (a :: before), p, ts', os', after. split; [reflexivity|]. repeat split; auto. intros x [<-|Hx]; [|auto].
          right. apply map_is_none_iff in N'. exists ts, os. tauto. }
      * intros [[H _]|(_ & before & p & ts & os & after & E & H1 & H2 & H3 & H4 & ->)]; [exfalso; apply ND; apply H; now left|].
        destruct before as [|b before].
        { injection E as -> ->. exists ts. split; [reflexivity|]. apply mbind_good. exists (options_mean os).
          split; [apply parse_field_map_good; eauto|]. apply IH. left. auto. }
        { injection E as -> ->. destruct (H4 b (or_introl eq_refl)) as [|(ts' & os' & A & O & Hn)]; [congruence|].
          exists ts'. split; [now apply parse_args_good|]. apply mbind_good. exists (options_mean os').
          split; [apply parse_field_map_good; eauto|]. apply IH. right. split; [now apply map_is_none_iff|].
          exists before, p, ts, os, after. repeat split; auto. intros x Hx. apply H4. now right. }
Qed.
Lemma field_attrs_total attrs : forall m, field_attrs m attrs <> Crash.
Proof.
  induction attrs as [|a attrs IH]; intros m; cbn; [discriminate|]. destruct (is_ident _ _); [auto|]. destruct (negb _); [discriminate|].
  apply mbind_crash; [apply parse_args_total|]. intros ts _. apply mbind_crash; [apply parse_field_map_total|]. auto.
Qed.

Lemma attrs_say_iff attrs m : field_attrs no_map attrs = Good m <-> attrs_say attrs m.
Proof.
  rewrite field_attrs_good. split.
  - intros [[H ->]|(_ & before & p & ts & os & after & -> & H1 & H2 & H3 & H4 & ->)]; [now constructor|]. now constructor.
  - intros H. destruct H as [attrs H|before p ts os after H1 H2 H3 H4]; [left; auto|]. right. split; [reflexivity|].
    exists before, p, ts, os, after. auto 10.
Qed.

Lemma parse_one_field_good f d : parse_one_field f = Good d <-> field_says f d.
Proof.
  unfold parse_one_field, field_says. rewrite mbind_good. split.
  - intros (raw & R & H). apply mbind_good in H. destruct H as (c & C & H). apply mbind_good in H. destruct H as (m & M & H).
    apply field_raw_ty_good in R. apply comments_good in C. apply attrs_say_iff in M.
    match type of H with (if ?b then _ else _) = _ => destruct b eqn:B; [discriminate|] end. injection H as <-. exists m. cbn.
    repeat split; auto. intros mt E. rewrite E in B. intros E'. apply tokens_eqb_eq in E'. congruence.
  - intros (m & H1 & H2 & H3 & H4 & H5 & H6 & H7 & H8 & H9 & H10 & H11).
    exists (fd_raw d). split; [now apply field_raw_ty_good|]. apply mbind_good. exists (fd_comment d). split; [now apply comments_good|].
    apply mbind_good. exists m. split; [now apply attrs_say_iff|].
    replace (match fm_map_type m with Some mt => tokens_eqb (mt_ty mt) (sf_ty f) | None => false end) with false.
    + destruct d; cbn in *. subst. reflexivity.
    + destruct (fm_map_type m) as [mt|]; [|reflexivity]. destruct (tokens_eqb (mt_ty mt) (sf_ty f)) eqn:E; [|reflexivity].
      apply tokens_eqb_eq in E. exfalso. now apply (H6 mt).
Qed.
Lemma parse_one_field_total f : parse_one_field f <> Crash.
Proof.
  unfold parse_one_field. apply mbind_crash; [apply field_raw_ty_total|]. intros raw _. apply mbind_crash; [apply comments_total|]. intros c _.
  apply mbind_crash; [apply field_attrs_total|]. intros m _.
  match goal with |- (if ?b then _ else _) <> _ => destruct b; discriminate end.
Qed.

(** ** Packets *)

Lemma width_size d : width d = size_bytes (fd_raw d).
Proof. reflexivity. Qed.

Lemma widths_app a b : widths (a ++ b) = widths a + widths b.
Proof. unfold widths. induction a as [|d a IH]; cbn; [reflexivity|]. destruct (width d); rewrite IH; lia. Qed.

Lemma has_size_fn_iff d : has_size_fn d <-> fd_size_fn d <> None.
Proof.
  unfold has_size_fn, fd_size_fn. destruct (fd_map d) as [m|]; split.
  - intros (m' & E & H). injection E as <-. exact H.
  - intros H. exists m. auto.
  - intros (m' & E & _). discriminate.
  - congruence.
Qed.

Lemma sized_but_last_iff ds :
  existsb (fun f => match size_bytes (fd_raw f), fd_size_fn f with None, None => true | _, _ => false end) (tl (rev ds)) = false <-> sized_but_last ds.
Proof.
  set (bad := fun f => match size_bytes (fd_raw f), fd_size_fn f with None, None => true | _, _ => false end).
  assert (B : forall d, bad d = false <-> (width d = None -> has_size_fn d)).
  { intros d. unfold bad. rewrite width_size, has_size_fn_iff. destruct (size_bytes (fd_raw d)), (fd_size_fn d); split; try discriminate; try tauto; try (intros; congruence).
    }
  assert (E : existsb bad (tl (rev ds)) = false <-> forall d, In d (tl (rev ds)) -> bad d = false).
  { split.
    - intros H d Hd. destruct (bad d) eqn:X; [|reflexivity]. assert (existsb bad (tl (rev ds)) = true) by (apply existsb_exists; eauto). congruence.
    - intros H. destruct (existsb bad (tl (rev ds))) eqn:X; [|reflexivity]. apply existsb_exists in X. destruct X as (d & Hd & Y). rewrite H in Y; [discriminate|exact Hd]. }
  rewrite E. unfold sized_but_last. split.
  - intros H d e rest after -> W. apply (proj1 (B d)); [|exact W]. apply H.
    rewrite rev_app_distr. cbn [rev]. rewrite <- !app_assoc.
    assert (N : exists x l, rev after ++ [e] = x :: l) by (destruct (rev after); cbn; eauto). destruct N as (x & l & N).
    rewrite app_assoc, N. cbn. apply in_or_app. right. now left.
  - intros H d Hd. apply B. destruct (rev ds) as [|z l] eqn:R; [destruct Hd|]. cbn in Hd.
    apply (f_equal (@rev _)) in R. rewrite rev_involutive in R. cbn in R.
    apply in_rev in Hd. apply in_split in Hd. destruct Hd as (x & y & Hd). rewrite Hd in R.
    destruct y as [|e y].
    + apply (H d z x []). rewrite R, <- app_assoc. reflexivity.
    + apply (H d e x (y ++ [z])). rewrite R, <- app_assoc. reflexivity.
Qed.

Definition fits_from (acc : N) (ds : list field_decl) : Prop :=
  forall before after, ds = before ++ after -> (forall d, In d before -> width d <> None) -> acc + widths before < 2 ^ 64.

Lemma fits_cons acc d ds n : width d = Some n -> (fits_from acc (d :: ds) <-> acc < 2 ^ 64 /\ fits_from (acc + n) ds).
Proof.
  intros W. unfold fits_from. split.
  - intros H. split.
    + specialize (H [] (d :: ds) eq_refl). cbn in H. rewrite N.add_0_r in H. apply H. intros ? [].
    + intros b a -> Hb. specialize (H (d :: b) a eq_refl). unfold widths in H. cbn in H. rewrite W in H. fold (widths b) in H.
      rewrite <- N.add_assoc. apply H. intros x [<-|Hx]; [congruence|auto].
  - intros [H0 H] b a E Hb. destruct b as [|x b]; [cbn; lia|]. injection E as <- ->.
    unfold widths. cbn. rewrite W. fold (widths b). rewrite N.add_assoc. apply (H b a eq_refl). intros y Hy. apply Hb. now right.
Qed.

Lemma decl_size_good ds : forall acc o, acc < 2 ^ 64 -> decl_size acc ds = Good o <->
  fits_from acc ds /\ match o with
                      | Some n => (forall d, In d ds -> width d <> None) /\ n = acc + widths ds
                      | None => exists d, In d ds /\ width d = None
                      end.
Proof.
  induction ds as [|d ds IH]; intros acc o A; cbn [decl_size].
  - split.
    + intros H. injection H as <-. split.
      * intros b a E _. destruct b; [|discriminate]. cbn. lia.
      * split; [intros ? []|]. cbn. lia.
    + intros [_ H]. destruct o as [n|]; [|destruct H as (d & [] & _)]. destruct H as [_ ->]. cbn. now rewrite N.add_0_r.
  - destruct (size_bytes (fd_raw d)) as [n|] eqn:S.
    + assert (W : width d = Some n) by exact S. rewrite (fits_cons _ _ _ _ W).
      destruct (N.leb_spec (acc + n) usize_max) as [L|L].
      * assert (L' : acc + n < 2 ^ 64) by now apply usize_lt. rewrite (IH _ _ L'). split.
        { intros [F H]. split; [auto|]. destruct o as [k|].
          - destruct H as [H ->]. split; [intros x [<-|Hx]; [congruence|auto]|]. unfold widths. cbn. rewrite W. fold (widths ds). lia.
          - destruct H as (x & Hx & E). exists x. split; [now right|exact E]. }
        { intros [[_ F] H]. split; [exact F|]. destruct o as [k|].
          - destruct H as [H ->]. split; [intros x Hx; apply H; now right|]. unfold widths. cbn. rewrite W. fold (widths ds). lia.
          - destruct H as (x & [<-|Hx] & E); [congruence|]. exists x. auto. }
      * split; [discriminate|]. intros [[_ F] _]. specialize (F [] ds eq_refl). cbn in F. rewrite N.add_0_r in F.
        assert (acc + n < 2 ^ 64) by (apply F; intros ? []). apply usize_lt in H. lia.
    + assert (W : width d = None) by exact S. split.
      * intros H. injection H as <-. split.
        { intros b a E Hb. destruct b as [|x b]; [cbn; lia|]. injection E as <- ->. exfalso. apply (Hb d); [now left|exact W]. }
        { exists d. split; [now left|exact W]. }
      * intros [_ H]. destruct o as [k|]; [|reflexivity]. destruct H as [H _]. exfalso. apply (H d); [now left|exact W].
Qed.

Lemma decl_size_bad ds : forall acc, match decl_size acc ds with Bad _ => False | _ => True end.
Proof.
  induction ds as [|d ds IH]; intros acc; cbn; [exact I|]. destruct (size_bytes (fd_raw d)); [|exact I]. destruct (_ <=? _); [apply IH|exact I].
Qed.
Lemma decl_size_crash ds acc : acc < 2 ^ 64 -> decl_size acc ds = Crash <-> ~ fits_from acc ds.
Proof.
  intros A. assert (B := decl_size_bad ds acc). destruct (decl_size acc ds) as [o|m|] eqn:E; [|destruct B|].
  - apply decl_size_good in E; [|exact A]. split; [discriminate|]. intros H. exfalso. apply H. apply E.
  - split; [|reflexivity]. intros _ F.
    assert (exists o, decl_size acc ds = Good o).
    { destruct (existsb (fun d => match width d with None => true | Some _ => false end) ds) eqn:X.
      - apply existsb_exists in X. destruct X as (d & Hd & Y). exists None. apply decl_size_good; [exact A|]. split; [exact F|].
        exists d. destruct (width d); [discriminate|auto].
      - exists (Some (acc + widths ds)). apply decl_size_good; [exact A|]. split; [exact F|]. split; [|reflexivity].
        intros d Hd W. assert (existsb (fun d => match width d with None => true | Some _ => false end) ds = true)
          by (apply existsb_exists; exists d; rewrite W; auto). congruence. }
    destruct H as (o & H). congruence.
Qed.

Lemma parse_fields_good fs ds : parse_fields fs = Good ds <-> exists l, fs = Named l /\ Forall2 field_says l ds.
Proof.
  assert (F : forall l, Forall2 (fun a b => parse_one_field a = Good b) l ds <-> Forall2 field_says l ds).
  { intros l. revert ds. induction l as [|f l IH]; intros ds; split; intros H; inversion H; subst; constructor;
      try (now apply parse_one_field_good); now apply IH. }
  destruct fs as [l| |]; cbn.
  - rewrite mmap_good, F. split; [eauto|]. intros (l' & E & H). now injection E as <-.
  - split; [discriminate|]. intros (l' & E & H). discriminate.
  - split; [discriminate|]. intros (l' & E & H). discriminate.
Qed.
Lemma parse_fields_total fs : parse_fields fs <> Crash.
Proof. destruct fs; try discriminate. apply mmap_crash. intros; apply parse_one_field_total. Qed.

Lemma opt_eqb_iff a b : opt_eqb a b = true <-> a = b.
Proof. destruct a, b; cbn; try (split; congruence). rewrite N.eqb_eq. split; congruence. Qed.

Lemma packet_good name attrs fs p : parse_packet_description name attrs fs = Good p <-> packet_says name attrs fs p.
Proof.
  unfold parse_packet_description, packet_says. rewrite mbind_good. split.
  - intros (h & Hh & H). apply mbind_good in H. destruct H as (c & Hc & H). apply mbind_good in H. destruct H as (ds & Hd & H).
    match type of H with (if ?b then _ else _) = _ => destruct b eqn:B; [discriminate|] end.
    apply mbind_good in H. destruct H as (o & Ho & H). destruct (opt_eqb (fixed (h_len h)) o) eqn:E; [|discriminate].
    injection H as <-. cbn. apply opt_eqb_iff in E. apply decl_size_good in Ho; [|reflexivity]. destruct Ho as [F Ho].
    split; [reflexivity|]. split; [now apply parse_ubx_attr_good|]. split; [now apply comments_good|]. split; [now apply parse_fields_good|].
    split; [now apply sized_but_last_iff|]. split; [exact F|].
    unfold length_says. destruct (h_len h) as [n|n]; cbn in E; subst o; cbn in Ho.
    + destruct Ho as [H1 H2]. auto.
    + exact Ho.
  - intros (H1 & H2 & H3 & H4 & H5 & H6 & H7). exists (pd_header p). split; [now apply parse_ubx_attr_good|].
    apply mbind_good. exists (pd_comment p). split; [now apply comments_good|].
    apply mbind_good. exists (pd_fields p). split; [now apply parse_fields_good|].
    rewrite (proj2 (sized_but_last_iff _) H5). apply mbind_good. exists (fixed (h_len (pd_header p))). split.
    + apply decl_size_good; [reflexivity|]. split; [exact H6|]. unfold length_says in H7. destruct (h_len (pd_header p)) as [n|n]; cbn.
      * destruct H7 as [H7 H8]. split; [exact H7|]. symmetry. exact H8.
      * exact H7.
    + rewrite (proj2 (opt_eqb_iff _ _) eq_refl). destruct p; cbn in *; subst. reflexivity.
Qed.

Lemma packet_crash name attrs fs : parse_packet_description name attrs fs = Crash ->
  exists l ds, fs = Named l /\ Forall2 field_says l ds /\ ~ sum_fits ds.
Proof.
  unfold parse_packet_description. intros H.
  destruct (parse_ubx_attr attrs) as [h|m|] eqn:Hh; cbn in H; [|discriminate|exfalso; now apply (parse_ubx_attr_total attrs)].
  destruct (extract_item_comment attrs) as [c|m|] eqn:Hc; cbn in H; [|discriminate|exfalso; now apply (comments_total attrs)].
  destruct (parse_fields fs) as [ds|m|] eqn:Hd; cbn in H; [|discriminate|exfalso; now apply (parse_fields_total fs)].
  match type of H with (if ?b then _ else _) = _ => destruct b eqn:B; [discriminate|] end.
  destruct (decl_size 0 ds) as [o|m|] eqn:Ho; cbn in H; [destruct (opt_eqb _ _); discriminate|discriminate|].
  apply decl_size_crash in Ho; [|reflexivity]. apply parse_fields_good in Hd. destruct Hd as (l & -> & Hd). exists l, ds. auto.
Qed.

(** ** Enums and bit flags *)

Definition from_of (w : string) : from_fn := if String.eqb w "from" then From else FromUnchecked.
Definition rest_of (w : string) : rest_handling := if String.eqb w "rest_reserved" then RestReserved else RestError.

Definition extend_adds (v : extend_attrs) (ws : list string) (v' : extend_attrs) : Prop :=
  incl ws extend_words /\
  ((rest_words ws = [] /\ ea_rest v' = ea_rest v) \/ (exists w, rest_words ws = [w] /\ ea_rest v = None /\ ea_rest v' = Some (rest_of w))) /\
  ea_into_raw v' = ea_into_raw v || existsb (fun w => String.eqb w "into_raw") ws /\
  ea_from v' = match rev (from_words ws) with [] => ea_from v | w :: _ => Some (from_of w) end.

Lemma incl_cons_iff {A} (a : A) l m : incl (a :: l) m <-> In a m /\ incl l m.
Proof. split; [intros H; split; [apply H; now left|intros x Hx; apply H; now right]|intros [H1 H2] x [<-|Hx]; auto]. Qed.

Lemma extend_items_good l : forall v v', extend_items v l = Good v' <-> exists ws, l = map (fun w => NPath [w]) ws /\ extend_adds v ws v'.
Proof.
  induction l as [|e l IH]; intros v v'; cbn [extend_items].
  - split.
    + intros H. injection H as <-. exists []. split; [reflexivity|]. split; [intros ? []|]. split; [left; auto|]. cbn. rewrite orb_false_r. auto.
    + intros (ws & E & _ & R & I & F). destruct ws; [|discriminate]. cbn in R, I, F. rewrite orb_false_r in I.
      destruct R as [[_ R]|(w & R & _)]; [|discriminate]. destruct v, v'; cbn in *; congruence.
  - assert (Step : forall w,
        (do v1 <- extend_item v (NPath [w]); extend_items v1 l) = Good v' <-> exists ws, l = map (fun w => NPath [w]) ws /\ extend_adds v (w :: ws) v').
    { intros w. rewrite mbind_good. cbn [extend_item is_ident].
      assert (FR : forall (ws : list string) x y, match rev (ws ++ []) with [] => x | w :: _ => y w end = match rev ws with [] => x | w :: _ => (y w : option from_fn) end)
        by (intros; now rewrite app_nil_r).
      assert (FW : forall w ws, from_words (w :: ws) = (if String.eqb w "from" || String.eqb w "from_unchecked" then [w] else []) ++ from_words ws)
        by (intros w0 ws; unfold from_words; cbn; destruct (_ || _); reflexivity).
      assert (RW : forall w ws, rest_words (w :: ws) = (if String.eqb w "rest_reserved" || String.eqb w "rest_error" then [w] else []) ++ rest_words ws)
        by (intros w0 ws; unfold rest_words; cbn; destruct (_ || _); reflexivity).
      assert (LF : forall w ws v0, match rev ([w] ++ from_words ws) with [] => v0 | w :: _ => Some (from_of w) end =
                                   match rev (from_words ws) with [] => Some (from_of w) | w :: _ => Some (from_of w) end).
      { intros w0 ws v0. cbn. destruct (rev (from_words ws)); reflexivity. }
      unfold extend_adds.
      destruct (String.eqb w "from") eqn:E1.
      { apply String.eqb_eq in E1. subst w. split.
        - intros (v1 & E & H). injection E as <-. apply IH in H. destruct H as (ws & -> & Hi & R & I & F). exists ws. split; [reflexivity|].
          rewrite incl_cons_iff. split; [split; [cbn; auto|exact Hi]|]. rewrite RW, FW. cbn [String.eqb Ascii.eqb Bool.eqb orb]. rewrite LF. cbn in *. auto.
        - intros (ws & -> & Hi & R & I & F). rewrite incl_cons_iff in Hi. rewrite RW in R. rewrite FW in F. cbn [String.eqb Ascii.eqb Bool.eqb orb] in R, F. rewrite LF in F.
          eexists. split; [reflexivity|]. apply IH. exists ws. split; [reflexivity|]. cbn in *. unfold extend_adds; cbn. tauto. }
      destruct (String.eqb w "into_raw") eqn:E2.
      { apply String.eqb_eq in E2. subst w. split.
        - intros (v1 & E & H). injection E as <-. apply IH in H. destruct H as (ws & -> & Hi & R & I & F). exists ws. split; [reflexivity|].
          rewrite incl_cons_iff. split; [split; [cbn; auto|exact Hi]|]. rewrite RW, FW. cbn [String.eqb Ascii.eqb Bool.eqb orb app]. cbn in *.
          split; [exact R|]. split; [rewrite I; now rewrite orb_true_r|exact F].
        - intros (ws & -> & Hi & R & I & F). rewrite incl_cons_iff in Hi. rewrite RW in R. rewrite FW in F. cbn [String.eqb Ascii.eqb Bool.eqb orb app] in R, F.
          eexists. split; [reflexivity|]. apply IH. exists ws. split; [reflexivity|]. cbn in *. unfold extend_adds; cbn.
          split; [tauto|]. split; [exact R|]. split; [now rewrite orb_true_r in I|exact F]. }
      destruct (String.eqb w "from_unchecked") eqn:E3.
      { apply String.eqb_eq in E3. subst w. split.
        - intros (v1 & E & H). injection E as <-. apply IH in H. destruct H as (ws & -> & Hi & R & I & F). exists ws. split; [reflexivity|].
          rewrite incl_cons_iff. split; [split; [cbn; auto|exact Hi]|]. rewrite RW, FW. cbn [String.eqb Ascii.eqb Bool.eqb orb]. rewrite LF. cbn in *. auto.
        - intros (ws & -> & Hi & R & I & F). rewrite incl_cons_iff in Hi. rewrite RW in R. rewrite FW in F. cbn [String.eqb Ascii.eqb Bool.eqb orb] in R, F. rewrite LF in F.
          eexists. split; [reflexivity|]. apply IH. exists ws. split; [reflexivity|]. cbn in *. unfold extend_adds; cbn. tauto. }
      destruct (String.eqb w "rest_reserved" || String.eqb w "rest_error") eqn:E4.
      { assert (Hw : In w extend_words).
        { apply orb_prop in E4. destruct E4 as [E|E]; apply String.eqb_eq in E; subst w; cbn; auto 10. }
        destruct (ea_rest v) as [r|] eqn:Er.
        - split; [intros (v1 & E & _); discriminate|]. intros (ws & -> & Hi & R & I & F). rewrite RW, E4 in R.
          destruct R as [[R _]|(x & _ & R & _)]; discriminate.
        - split.
          + intros (v1 & E & H). injection E as <-. apply IH in H. destruct H as (ws & -> & Hi & R & I & F). exists ws. split; [reflexivity|].
            rewrite incl_cons_iff. split; [auto|]. rewrite RW, FW, E1, E3, E4. cbn [orb app]. cbn in R, I, F.
            split; [|split; [cbn [existsb]; rewrite E2; exact I|exact F]].
            destruct R as [[R1 R2]|(x & _ & R & _)]; [|discriminate]. right. exists w. rewrite R1. auto.
          + intros (ws & -> & Hi & R & I & F). rewrite incl_cons_iff in Hi. rewrite RW, E4 in R. rewrite FW, E1, E3 in F. cbn [orb app] in R, F.
            cbn [existsb] in I. rewrite E2 in I. eexists. split; [reflexivity|]. apply IH. exists ws. split; [reflexivity|]. unfold extend_adds; cbn.
            destruct R as [[R _]|(x & R & _ & R')]; [discriminate|]. injection R as -> R. split; [tauto|]. split; [left; auto|]. auto. }
      split; [intros (v1 & E & _); discriminate|]. intros (ws & -> & Hi & _). exfalso. rewrite incl_cons_iff in Hi. destruct Hi as [Hi _].
      apply orb_false_elim in E4. destruct E4 as [E4 E5]. cbn in Hi.
      destruct Hi as [<-|[<-|[<-|[<-|[<-|[]]]]]]; discriminate. }
    destruct e as [[|w [|x p]]|p x|p ts|x].
    + split; [discriminate|]. intros (ws & E & _). destruct ws; discriminate.
    + rewrite Step. split.
      * intros (ws & -> & H). exists (w :: ws). auto.
      * intros (ws & E & H). destruct ws as [|w' ws]; [discriminate|]. injection E as <- ->. exists ws. auto.
    + split; [discriminate|]. intros (ws & E & _). destruct ws; discriminate.
    + split; [discriminate|]. intros (ws & E & _). destruct ws; discriminate.
    + split; [discriminate|]. intros (ws & E & _). destruct ws; discriminate.
    + split; [discriminate|]. intros (ws & E & _). destruct ws; discriminate.
Qed.

Lemma extend_attrs_good attrs v : parse_ubx_extend_attrs attrs = Good v <->
  exists a l, first_attr "ubx" attrs a /\ parse_meta a = Good (MList l) /\ extend_says l v.
Proof.
  unfold parse_ubx_extend_attrs. destruct (find_attr "ubx" attrs) as [a|] eqn:F.
  2:{ split; [discriminate|]. intros (a & l & H & _). apply find_attr_first in H. congruence. }
  assert (Key : forall l,
    (do w <- extend_items (mk_ea None false None) l;
     match ea_from w, ea_rest w with Some From, Some RestError => Bad "you should use rest_error with from_unchecked" | _, _ => Good w end) = Good v
    <-> extend_says l v).
  { intros l. rewrite mbind_good. unfold extend_says. split.
    - intros (w & H & R). apply extend_items_good in H. destruct H as (ws & -> & Hi & Rs & I & Fr). cbn in Rs, I, Fr.
      assert (E : w = v /\ ~ (ea_from v = Some From /\ ea_rest v = Some RestError)).
      { destruct (ea_from w) as [[]|] eqn:E1, (ea_rest w) as [[]|] eqn:E2; try discriminate; injection R as <-; split; try reflexivity; intros [? ?]; congruence. }
      destruct E as [-> N]. exists ws. split; [reflexivity|]. split; [exact Hi|].
      assert (RR : ea_rest v = match rest_words ws with [] => None | w :: _ => Some (rest_of w) end /\ (length (rest_words ws) <= 1)%nat).
      { destruct Rs as [[-> ->]|(x & -> & _ & ->)]; cbn; auto. }
      destruct RR as [R1 R2]. split; [exact R1|]. split; [exact R2|]. split; [|split; [exact Fr|exact N]].
      rewrite I. rewrite existsb_exists. split; [intros (x & Hx & E); apply String.eqb_eq in E; now subst|intros H; exists "into_raw"%string; split; [exact H|reflexivity]].
    - intros (ws & -> & Hi & R1 & R2 & I & Fr & N). exists v. split.
      + apply extend_items_good. exists ws. split; [reflexivity|]. split; [exact Hi|]. cbn. split; [|split].
        * rewrite R1. destruct (rest_words ws) as [|x [|]]; [left; auto| |cbn in R2; lia]. right. exists x. auto.
        * destruct (existsb (fun w => String.eqb w "into_raw") ws) eqn:E.
          { apply existsb_exists in E. destruct E as (x & Hx & E). apply String.eqb_eq in E. subst x. now apply I. }
          { destruct (ea_into_raw v) eqn:E'; [|reflexivity]. assert (X := proj1 I eq_refl).
            assert (existsb (fun w => String.eqb w "into_raw") ws = true) by (apply existsb_exists; eauto). congruence. }
        * rewrite Fr. destruct (rev (from_words ws)); reflexivity.
      + destruct (ea_from v) as [[]|] eqn:E1, (ea_rest v) as [[]|] eqn:E2; try reflexivity. exfalso. apply N. auto. }
  rewrite mbind_good. split.
  - intros (m & Hm & R). destruct m as [|l|l]; try discriminate. exists a, l. split; [now apply find_attr_first|]. split; [exact Hm|]. now apply Key.
  - intros (a' & l & H1 & H2 & H3). apply find_attr_first in H1. rewrite F in H1. injection H1 as <-. exists (MList l). split; [exact H2|]. now apply Key.
Qed.

Lemma extend_items_total l : forall v, extend_items v l <> Crash.
Proof.
  induction l as [|e l IH]; intros v; cbn [extend_items]; [discriminate|]. apply mbind_crash; [|auto]. destruct e as [p| | |]; cbn; try discriminate.
  repeat match goal with |- context [is_ident p ?b] => destruct (is_ident p b) end; cbn; try discriminate; destruct (ea_rest v); discriminate.
Qed.
Lemma extend_attrs_total attrs : parse_ubx_extend_attrs attrs <> Crash.
Proof.
  unfold parse_ubx_extend_attrs. destruct (find_attr "ubx" attrs); [|discriminate]. apply mbind_crash; [apply parse_meta_total|].
  intros [|l|l] _; try discriminate. apply mbind_crash; [apply extend_items_total|]. intros v _.
  destruct (ea_from v) as [[]|], (ea_rest v) as [[]|]; discriminate.
Qed.

Lemma enum_repr_good attrs u : enum_repr attrs = Good u <-> exists b, first_attr "repr" attrs b /\ parse_meta b = Good (MList [NPath ["u8"%string]]).
Proof.
  unfold enum_repr. destruct (find_attr "repr" attrs) as [a|] eqn:F.
  2:{ split; [discriminate|]. intros (b & H & _). apply find_attr_first in H. congruence. }
  rewrite mbind_good. split.
  - intros (m & M & H). destruct m as [|[|[p| | |] [|]]|]; try discriminate. destruct (is_ident p "u8") eqn:E; [|discriminate].
    apply is_ident_iff in E. subst p. exists a. split; [now apply find_attr_first|exact M].
  - intros (b & H1 & H2). apply find_attr_first in H1. rewrite F in H1. injection H1 as <-. eexists. split; [exact H2|]. destruct u. reflexivity.
Qed.
Lemma enum_repr_crash attrs : enum_repr attrs = Crash <->
  exists b p, first_attr "repr" attrs b /\ parse_meta b = Good (MList [NPath p]) /\ p <> ["u8"%string].
Proof.
  unfold enum_repr. destruct (find_attr "repr" attrs) as [a|] eqn:F.
  2:{ split; [discriminate|]. intros (b & p & H & _). apply find_attr_first in H. congruence. }
  destruct (parse_meta a) as [m|m|] eqn:M; cbn.
  - split.
    + intros H. destruct m as [|[|[p| | |] [|]]|]; try discriminate. destruct (is_ident p "u8") eqn:E; [discriminate|].
      exists a, p. split; [now apply find_attr_first|]. split; [exact M|]. intros ->. discriminate.
    + intros (b & p & H1 & H2 & H3). apply find_attr_first in H1. rewrite F in H1. injection H1 as <-. rewrite M in H2. injection H2 as ->.
      destruct (is_ident p "u8") eqn:E; [|reflexivity]. apply is_ident_iff in E. congruence.
  - split; [discriminate|]. intros (b & p & H1 & H2 & H3). apply find_attr_first in H1. rewrite F in H1. injection H1 as <-. congruence.
  - exfalso. now apply (parse_meta_total a).
Qed.

Lemma enum_variant_good v x : enum_variant v = Good x <-> variant_says v x.
Proof.
  unfold enum_variant, variant_says. destruct (v_unit v); cbn; [|split; [discriminate|intros [E _]; discriminate]].
  destruct (v_disc v) as [[|[] [|]]|]; try (split; [discriminate|intros (_ & _ & (? & ?) & _); discriminate]).
  rewrite mbind_good. split.
  - intros (y & H & E). apply base10_good in H. destruct H as [-> H]. injection E as <-. cbn. repeat split; eauto. lia.
  - intros (_ & N & (s & E) & L). injection E as -> ->. exists (snd x). split; [apply base10_good; split; [reflexivity|lia]|].
    rewrite N. now destruct x.
Qed.
Lemma enum_variant_total v : enum_variant v <> Crash.
Proof.
  unfold enum_variant. destruct (v_unit v); [|discriminate]. cbn. destruct (v_disc v) as [[|[] [|]]|]; try discriminate.
  apply mbind_crash; [apply base10_total|discriminate].
Qed.

Lemma Forall2_iff {A B} (P Q : A -> B -> Prop) l m : (forall a b, P a b <-> Q a b) -> Forall2 P l m <-> Forall2 Q l m.
Proof. intros E. split; intros H; induction H; constructor; auto; now apply E. Qed.

Lemma enum_good name attrs vs e : parse_ubx_enum_type name attrs vs = Good e <-> enum_says name attrs vs e.
Proof.
  unfold parse_ubx_enum_type, enum_says. rewrite mbind_good. split.
  - intros (v & Hv & H). apply mbind_good in H. destruct H as (u & Hu & H). apply mbind_good in H. destruct H as (l & Hl & H). injection H as <-. cbn.
    apply extend_attrs_good in Hv. destruct Hv as (a & l' & H1 & H2 & H3). split; [exists a, l', v; auto 10|].
    split; [now apply enum_repr_good with u|]. split; [reflexivity|]. apply mmap_good in Hl. eapply Forall2_iff; [|exact Hl]. intros; symmetry; apply enum_variant_good.
  - intros ((a & l & v & H1 & H2 & H3 & H4 & H5 & H6) & H7 & H8 & H9). exists v. split; [apply extend_attrs_good; eauto|].
    apply mbind_good. exists tt. split; [now apply enum_repr_good|]. apply mbind_good. exists (e_variants (ed_desc e)). split.
    + apply mmap_good. eapply Forall2_iff; [|exact H9]. intros; apply enum_variant_good.
    + destruct e as [[n vl r] f i]; cbn in *. congruence.
Qed.
Lemma enum_crash name attrs vs : parse_ubx_enum_type name attrs vs = Crash ->
  exists b p, first_attr "repr" attrs b /\ parse_meta b = Good (MList [NPath p]) /\ p <> ["u8"%string].
Proof.
  unfold parse_ubx_enum_type. intros H. destruct (parse_ubx_extend_attrs attrs) eqn:E; [|discriminate|exfalso; now apply (extend_attrs_total attrs)].
  cbn in H. destruct (enum_repr attrs) eqn:E2; [|discriminate|now apply enum_repr_crash]. cbn in H.
  destruct (mmap enum_variant vs) eqn:E3; [discriminate|discriminate|]. exfalso. revert E3. apply mmap_crash. intros; apply enum_variant_total.
Qed.

Lemma parse_const_good seg x : parse_const seg = Good x <-> const_says seg x.
Proof.
  unfold parse_const, const_says. destruct (snd (outer_attrs seg)) as [|c [|[n| | | | | |] [|e [|[| | |k s| | |] [|]]]]];
    try (split; [discriminate|intros (_ & s' & E); discriminate]).
  destruct (is_kw "const" c && is_p "=" e) eqn:B.
  - apply andb_prop in B. destruct B as [B1 B2]. apply is_kw_iff in B1. apply is_p_iff in B2. subst. rewrite mbind_good. split.
    + intros (y & H & E). apply base10_good in H. destruct H as [-> H]. injection E as <-. cbn. split; [now apply usize_lt|eauto].
    + intros (L & s' & E). injection E as -> -> ->. exists (snd x). split; [apply base10_good; split; [reflexivity|now apply usize_lt]|now destruct x].
  - split; [discriminate|]. intros (_ & s' & E). injection E as -> _ -> _ _. discriminate.
Qed.
Lemma parse_const_total seg : parse_const seg <> Crash.
Proof.
  unfold parse_const. destruct (snd (outer_attrs seg)) as [|c [|[n| | | | | |] [|e [|[| | |k s| | |] [|]]]]]; try discriminate.
  destruct (_ && _); [|discriminate]. apply mbind_crash; [apply base10_total|discriminate].
Qed.

Lemma shiftl1 k : N.shiftl 1 k = 2 ^ k. Proof. apply N.shiftl_1_l. Qed.

Lemma NoDup_filter' {A} (f : A -> bool) l : NoDup l -> NoDup (filter f l).
Proof. apply NoDup_filter. Qed.
Lemma NoDup_map_inj {A B} (f : A -> B) l : (forall a b, f a = f b -> a = b) -> NoDup l -> NoDup (map f l).
Proof.
  intros I H. induction H as [|a l N H IH]; cbn; constructor; [|exact IH]. rewrite in_map_iff. intros (b & E & Hb). apply I in E. now subst.
Qed.

Lemma flags_accepted_iff d : flags_accepted d = true <->
  NoDup (map snd (b_consts d)) /\ forall n x, In (n, x) (b_consts d) -> exists k, k < b_nbits d /\ x = 2 ^ k.
Proof.
  unfold flags_accepted. rewrite N.eqb_eq. unfold lenN. rewrite Nnat.Nat2N.inj_iff.
  set (bits := map N.of_nat (seq 0 (N.to_nat (b_nbits d)))).
  set (P := filter (fun bit => existsb (fun c => snd c =? N.shiftl 1 bit) (b_consts d)) bits).
  assert (Bits : forall k, In k bits <-> k < b_nbits d).
  { intros k. unfold bits. rewrite in_map_iff. split.
    - intros (n & <- & H). apply in_seq in H. lia.
    - intros H. exists (N.to_nat k). split; [lia|]. apply in_seq. lia. }
  assert (NP : NoDup (map (N.pow 2) P)).
  { apply NoDup_map_inj; [intros a b; apply N.pow_inj_r; lia|]. apply NoDup_filter. unfold bits. apply NoDup_map_inj; [lia|apply seq_NoDup]. }
  assert (IP : forall x, In x (map (N.pow 2) P) <-> In x (map snd (b_consts d)) /\ exists k, k < b_nbits d /\ x = 2 ^ k).
  { intros x. rewrite in_map_iff. unfold P. split.
    - intros (k & <- & H). apply filter_In in H. destruct H as [H1 H2]. apply existsb_exists in H2. destruct H2 as (c & Hc & E).
      apply N.eqb_eq in E. rewrite shiftl1 in E. split; [rewrite in_map_iff; eauto|]. exists k. split; [now apply Bits|reflexivity].
    - intros [H (k & Hk & ->)]. exists k. split; [reflexivity|]. apply filter_In. split; [now apply Bits|]. apply existsb_exists.
      apply in_map_iff in H. destruct H as (c & E & Hc). exists c. split; [exact Hc|]. rewrite shiftl1. now apply N.eqb_eq. }
  rewrite <- (map_length (N.pow 2) P), <- (map_length snd (b_consts d)). split.
  - intros L.
    assert (In1 : incl (map (N.pow 2) P) (map snd (b_consts d))) by (intros x Hx; now apply IP).
    assert (In2 : incl (map snd (b_consts d)) (map (N.pow 2) P)) by (apply NoDup_length_incl; [exact NP|lia|exact In1]).
    split; [eapply NoDup_incl_NoDup; [exact NP|lia|exact In1]|].
    intros n x H. assert (Hx : In x (map snd (b_consts d))) by (apply in_map_iff; exists (n, x); auto). apply In2, IP in Hx. apply Hx.
  - intros [ND H]. apply PeanoNat.Nat.le_antisymm.
    + apply NoDup_incl_length; [exact NP|]. intros x Hx. now apply IP.
    + apply NoDup_incl_length; [exact ND|]. intros x Hx. apply IP. split; [exact Hx|]. apply in_map_iff in Hx. destruct Hx as ([n y] & <- & Hc). cbn. eauto.
Qed.

Lemma bits_good ty n :
  (if String.eqb ty "u8" then Good 8 else if String.eqb ty "u16" then Good 16 else if String.eqb ty "u32" then Good 32
   else Bad "Not supported type, expect one of ""u8, u16, u32""") = Good n <-> bits_of ty n.
Proof.
  unfold bits_of. destruct (String.eqb_spec ty "u8") as [->|N1].
  { split; [intros H; injection H as <-; auto|]. intros [[_ ->]|[[E _]|[E _]]]; [reflexivity|discriminate|discriminate]. }
  destruct (String.eqb_spec ty "u16") as [->|N2].
  { split; [intros H; injection H as <-; auto|]. intros [[E _]|[[_ ->]|[E _]]]; [discriminate|reflexivity|discriminate]. }
  destruct (String.eqb_spec ty "u32") as [->|N3].
  { split; [intros H; injection H as <-; auto|]. intros [[E _]|[[E _]|[_ ->]]]; [discriminate|discriminate|reflexivity]. }
  split; [discriminate|]. intros [[E _]|[[E _]|[E _]]]; congruence.
Qed.

Lemma bitflags_good attrs body f : parse_bitflags attrs body = Good f <-> bitflags_written attrs body f.
Proof.
  unfold parse_bitflags, bitflags_written. rewrite mbind_good.
  destruct (skip_vis (snd (outer_attrs body))) as [|st [|[name| | | | | |] [|co [|[ty| | | | | |] [|[| | | | | |[] its] [|]]]]]] eqn:B;
    try (split; [intros (e & _ & H); discriminate|intros (_ & ty' & items & E & _); discriminate]).
  destruct (is_kw "struct" st && is_p ":" co) eqn:K; cbn [negb].
  2:{ split; [intros (e & _ & H); discriminate|]. intros (_ & ty' & items & E & _). injection E as -> _ -> _ _. discriminate. }
  apply andb_prop in K. destruct K as [K1 K2]. apply is_kw_iff in K1. apply is_p_iff in K2. subst.
  split.
  - intros (e & He & H). apply mbind_good in H. destruct H as (n & Hn & H). apply mbind_good in H. destruct H as (cs & Hc & H).
    injection H as <-. cbn.
    apply extend_attrs_good in He. destruct He as (a & l & H1 & H2 & H3). split; [exists a, l, e; auto 10|].
    exists ty, its. split; [reflexivity|]. split; [now apply bits_good|]. apply mmap_good in Hc. eapply Forall2_iff; [|exact Hc]. intros; symmetry; apply parse_const_good.
  - intros ((a & l & v & H1 & H2 & H3 & H4 & H5 & H6) & ty' & items & E & Hn & Hc). injection E as E1 E2 E3.
    exists v. split; [apply extend_attrs_good; eauto|]. apply mbind_good. exists (b_nbits (fl_desc f)). split; [apply bits_good; now subst|].
    apply mbind_good. exists (b_consts (fl_desc f)). split; [apply mmap_good; subst; eapply Forall2_iff; [|exact Hc]; intros; apply parse_const_good|].
    destruct f as [[n b c] fr ir rs]; cbn in *. congruence.
Qed.
Lemma bitflags_total attrs body : parse_bitflags attrs body <> Crash.
Proof.
  unfold parse_bitflags. apply mbind_crash; [apply extend_attrs_total|]. intros e _.
  destruct (skip_vis (snd (outer_attrs body))) as [|st [|[name| | | | | |] [|co [|[ty| | | | | |] [|[| | | | | |[] its] [|]]]]]]; try discriminate.
  destruct (negb _); [discriminate|]. apply mbind_crash.
  - destruct (String.eqb ty "u8"), (String.eqb ty "u16"), (String.eqb ty "u32"); discriminate.
  - intros n _. apply mbind_crash; [apply mmap_crash; intros; apply parse_const_total|]. discriminate.
Qed.

(** ** The list of received packets *)

Lemma name_tokens_split l c : split_commas (name_tokens l c) = map (fun n => [TIdent n]) l.
Proof.
  unfold split_commas. induction l as [|n l IH]; [reflexivity|]. destruct l as [|m l].
  - destruct c; reflexivity.
  - change (name_tokens (n :: m :: l) c) with (TIdent n :: TPunct "," :: name_tokens (m :: l) c).
    cbn [split_at is_p rev app]. rewrite IH. reflexivity.
Qed.

Lemma names_good ts ps :
  mmap (fun seg => match seg with [TIdent p] => Good p | _ => Bad "expected identifier" end) (split_commas ts) = Good ps <->
  exists c, ts = name_tokens ps c.
Proof.
  rewrite mmap_good. split.
  - intros H. assert (S : split_commas ts = map (fun n => [TIdent n]) ps).
    { induction H as [|seg p segs ps' E _ IH]; [reflexivity|]. destruct seg as [|[] [|]]; try discriminate. injection E as <-. cbn. now rewrite IH. }
    destruct (split_join_gen ts []) as [c J]. cbn in J. fold (split_commas ts) in J. rewrite S in J. exists c. rewrite J. clear.
    induction ps as [|n l IH]; [reflexivity|]. destruct l as [|m l]; [destruct c; reflexivity|].
    change (name_tokens (n :: m :: l) c) with (TIdent n :: TPunct "," :: name_tokens (m :: l) c). rewrite <- IH. reflexivity.
  - intros [c ->]. rewrite name_tokens_split. clear. induction ps as [|n l IH]; cbn; constructor; auto.
Qed.

Lemma recv_good ts r : parse_idents_list ts = Good r <->
  exists c, ts = [TIdent "enum"; TIdent (rd_name r);
                  TGroup Brace (TIdent "_" :: TPunct "=" :: TIdent (rd_unknown r) :: TPunct "," :: name_tokens (rd_packets r) c)].
Proof.
  split.
  - intros H. unfold parse_idents_list in H.
    destruct ts as [|e ts]; [discriminate|]. destruct ts as [|[n| | | | | |] ts]; try discriminate.
    destruct ts as [|[| | | | | |[] g] ts]; try discriminate. destruct g as [|w g]; [destruct ts; discriminate|].
    destruct g as [|q g]; [destruct ts; discriminate|]. destruct g as [|[u| | | | | |] g]; try (destruct ts; discriminate).
    destruct g as [|c l]; [destruct ts; discriminate|]. destruct ts; [|discriminate].
    destruct (is_kw "enum" e && is_kw "_" w && is_p "=" q && is_p "," c) eqn:K; [|discriminate].
    apply andb_prop in K. destruct K as [K K4]. apply andb_prop in K. destruct K as [K K3]. apply andb_prop in K. destruct K as [K1 K2].
    apply is_kw_iff in K1, K2. apply is_p_iff in K3, K4. subst.
    apply mbind_good in H. destruct H as (ps & H & E). injection E as <-. apply names_good in H. destruct H as [b ->]. exists b. reflexivity.
  - intros [c ->]. cbn -[split_commas]. apply mbind_good. exists (rd_packets r). split; [apply names_good; eauto|now destruct r].
Qed.

(** ** The generators *)

Lemma in_removelast_iff {A} (l : list A) x : In x (removelast l) <-> exists a y b, l = a ++ x :: y :: b.
Proof.
  induction l as [|z l IH]; cbn.
  - split; [intros []|]. intros (a & y & b & E). destruct a; discriminate.
  - destruct l as [|w l].
    + split; [intros []|]. intros (a & y & b & E). destruct a as [|? [|]]; discriminate.
    + split.
      * intros [<-|H]; [exists [], w, l; reflexivity|]. apply IH in H. destruct H as (a & y & b & ->). exists (z :: a), y, b. reflexivity.
      * intros (a & y & b & E). destruct a as [|v a]; [injection E as -> -> ->; now left|]. injection E as -> E. right. apply IH. exists a, y, b. exact E.
Qed.

Definition sized (fs : list field_decl) : Prop := forall d e rest after, fs = rest ++ d :: e :: after -> width d <> None.

Lemma existsb_false {A} (f : A -> bool) l : existsb f l = false <-> forall x, In x l -> f x = false.
Proof.
  split.
  - intros H x Hx. destruct (f x) eqn:E; [|reflexivity]. assert (existsb f l = true) by (apply existsb_exists; eauto). congruence.
  - intros H. destruct (existsb f l) eqn:E; [|reflexivity]. apply existsb_exists in E. destruct E as (x & Hx & E). rewrite H in E; [discriminate|exact Hx].
Qed.

Lemma unsized_iff d : unsized d = true <-> width d = None.
Proof. unfold unsized. rewrite width_size. destruct (size_bytes (fd_raw d)); split; congruence. Qed.
Lemma unsized_false d : unsized d = false <-> width d <> None.
Proof. rewrite <- unsized_iff. destruct (unsized d); split; congruence. Qed.

Lemma sized_iff fs : existsb unsized (but_last fs) = false <-> sized fs.
Proof.
  rewrite existsb_false. unfold but_last, sized. split.
  - intros H d e rest after -> . apply unsized_false, H. apply in_removelast_iff. eauto.
  - intros H d Hd. apply in_removelast_iff in Hd. destruct Hd as (a & y & b & E). apply unsized_false. eapply H. exact E.
Qed.

Lemma gen_recv_good d : sized_but_last (pd_fields d) -> gen_recv d = Good tt.
Proof.
  intros H. unfold gen_recv.
  assert (E1 : existsb (fun f => unsized f && no_size_fn f) (but_last (pd_fields d)) = false).
  { apply existsb_false. intros f Hf. apply in_removelast_iff in Hf. destruct Hf as (a & y & b & E). destruct (unsized f) eqn:U; [|reflexivity].
    apply unsized_iff in U. specialize (H _ _ _ _ E U). apply has_size_fn_iff in H. unfold no_size_fn. cbn. destruct (fd_size_fn f); [reflexivity|congruence]. }
  rewrite E1. destruct (existsb unsized (pd_fields d) && forallb no_size_fn (pd_fields d)) eqn:E2; [|reflexivity]. cbn.
  destruct (existsb unsized (but_last (pd_fields d))) eqn:E3; [|reflexivity]. exfalso.
  apply andb_prop in E2. destruct E2 as [_ E2]. rewrite forallb_forall in E2. apply existsb_exists in E3. destruct E3 as (f & Hf & U).
  assert (Hx := proj1 (existsb_false _ _) E1 f Hf). cbn in Hx. rewrite U in Hx. rewrite E2 in Hx; [discriminate|].
  apply in_removelast_iff in Hf. destruct Hf as (a & y & b & ->). apply in_or_app. right. now left.
Qed.

Lemma gen_send_good d : sum_fits (pd_fields d) -> length_says (h_len (pd_header d)) (pd_fields d) ->
  match h_len (pd_header d) with Fixed n => n < 65536 | Max _ => True end ->
  gen_send d = if existsb unsized (but_last (pd_fields d)) then Crash else Good tt.
Proof.
  intros F L H. unfold gen_send. destruct (existsb _ _); [reflexivity|].
  unfold length_says in L. destruct (h_len (pd_header d)) as [n|n].
  - destruct L as [L <-].
    rewrite (proj2 (decl_size_good (pd_fields d) 0 (Some (widths (pd_fields d))) eq_refl)) by (split; [exact F|auto]). cbn.
    destruct (N.leb_spec (widths (pd_fields d)) 65535); [reflexivity|lia].
  - rewrite (proj2 (decl_size_good (pd_fields d) 0 None eq_refl)) by (split; [exact F|exact L]). reflexivity.
Qed.

Lemma header_fixed_u16 l h : header_says l h -> match h_len h with Fixed n => n < 65536 | Max _ => True end.
Proof. intros (_ & _ & _ & _ & _ & L & _). destruct (h_len h); tauto. Qed.

Lemma gen_packet_says k name attrs fs d : packet_says name attrs fs d ->
  gen_packet k d = match k with Recv => Good tt | _ => if existsb unsized (but_last (pd_fields d)) then Crash else Good tt end.
Proof.
  intros (_ & (a & l & _ & _ & Hh) & _ & _ & Hs & Hf & Hl). apply header_fixed_u16 in Hh.
  destruct k; cbn; rewrite ?gen_recv_good, ?gen_send_good by assumption; [reflexivity|reflexivity|]. destruct (existsb _ _); reflexivity.
Qed.

Lemma packet_macro_good k name attrs fs o : packet_macro k name attrs fs = Good o <->
  exists d, o = OPacket k d /\ packet_says name attrs fs d /\ (k <> Recv -> sized (pd_fields d)).
Proof.
  unfold packet_macro. rewrite mbind_good. split.
  - intros (d & Hd & H). apply packet_good in Hd. exists d. rewrite (gen_packet_says _ _ _ _ _ Hd) in H. destruct k; cbn in H.
    + injection H as <-. split; [reflexivity|]. split; [exact Hd|congruence].
    + destruct (existsb _ _) eqn:E; [discriminate|]. injection H as <-. split; [reflexivity|]. split; [exact Hd|]. intros _. now apply sized_iff.
    + destruct (existsb _ _) eqn:E; [discriminate|]. injection H as <-. split; [reflexivity|]. split; [exact Hd|]. intros _. now apply sized_iff.
  - intros (d & -> & Hd & H). exists d. split; [now apply packet_good|]. rewrite (gen_packet_says _ _ _ _ _ Hd).
    destruct k; cbn; [reflexivity| |]; rewrite (proj2 (sized_iff _) (H ltac:(discriminate))); reflexivity.
Qed.

Lemma not_sized_iff fs : existsb unsized (but_last fs) = true <-> exists d e rest after, fs = rest ++ d :: e :: after /\ width d = None.
Proof.
  rewrite existsb_exists. unfold but_last. split.
  - intros (d & Hd & U). apply in_removelast_iff in Hd. destruct Hd as (a & y & b & E). exists d, y, a, b. split; [exact E|now apply unsized_iff].
  - intros (d & e & a & b & E & W). exists d. split; [apply in_removelast_iff; eauto|now apply unsized_iff].
Qed.

Lemma packet_macro_crash k name attrs fs : packet_macro k name attrs fs = Crash <->
  (exists h c l ds, (exists a items, first_attr "ubx" attrs a /\ parse_meta a = Good (MList items) /\ header_says items h) /\
     comments_say attrs c /\ fs = Named l /\ Forall2 field_says l ds /\ sized_but_last ds /\ ~ sum_fits ds) \/
  (k <> Recv /\ exists d, packet_says name attrs fs d /\
     exists f e rest after, pd_fields d = rest ++ f :: e :: after /\ width f = None).
Proof.
  unfold packet_macro. split.
  - intros H. destruct (parse_packet_description name attrs fs) as [d|m|] eqn:P; cbn in H; [|discriminate|].
    + apply packet_good in P. right. rewrite (gen_packet_says _ _ _ _ _ P) in H. destruct k; cbn in H; [discriminate| |];
        (destruct (existsb _ _) eqn:E; [|discriminate]; split; [discriminate|]; exists d; split; [exact P|now apply not_sized_iff]).
    + left. unfold parse_packet_description in P.
      destruct (parse_ubx_attr attrs) as [h|m|] eqn:Hh; cbn in P; [|discriminate|exfalso; now apply (parse_ubx_attr_total attrs)].
      destruct (extract_item_comment attrs) as [c|m|] eqn:Hc; cbn in P; [|discriminate|exfalso; now apply (comments_total attrs)].
      destruct (parse_fields fs) as [ds|m|] eqn:Hd; cbn in P; [|discriminate|exfalso; now apply (parse_fields_total fs)].
      match type of P with (if ?b then _ else _) = _ => destruct b eqn:B; [discriminate|] end.
      destruct (decl_size 0 ds) as [o|m|] eqn:Ho; cbn in P; [destruct (opt_eqb _ _); discriminate|discriminate|].
      apply decl_size_crash in Ho; [|reflexivity]. apply parse_fields_good in Hd. destruct Hd as (l & -> & Hd). exists h, c, l, ds.
      split; [now apply parse_ubx_attr_good|]. split; [now apply comments_good|]. split; [reflexivity|]. split; [exact Hd|]. split; [now apply sized_but_last_iff|exact Ho].
  - intros [(h & c & l & ds & Hh & Hc & -> & Hd & Hs & Ho)|(K & d & Hd & E)].
    + unfold parse_packet_description. apply parse_ubx_attr_good in Hh. apply comments_good in Hc. rewrite Hh, Hc. cbn [mbind].
      rewrite (proj2 (parse_fields_good (Named l) ds)) by eauto. cbn [mbind].
      rewrite (proj2 (sized_but_last_iff ds) Hs). rewrite (proj2 (decl_size_crash ds 0 eq_refl) Ho). reflexivity.
    + rewrite (proj2 (packet_good _ _ _ _) Hd). cbn [mbind]. rewrite (gen_packet_says _ _ _ _ _ Hd). rewrite (proj2 (not_sized_iff _) E).
      destruct k; [congruence|reflexivity|reflexivity].
Qed.

Lemma enum_says_from name attrs vs e : enum_says name attrs vs e -> ~ (ed_from e = Some From /\ e_rest (ed_desc e) = Some RestError).
Proof. intros ((a & l & v & _ & _ & (ws & _ & _ & _ & _ & _ & _ & N) & -> & -> & _) & _). exact N. Qed.

Lemma enum_macro_good name attrs vs o : enum_macro name attrs vs = Good o <->
  exists e, o = OEnum e /\ enum_says name attrs vs e /\ ~ (ed_from e = Some FromUnchecked /\ e_rest (ed_desc e) = Some RestReserved).
Proof.
  unfold enum_macro. rewrite mbind_good. split.
  - intros (e & He & H). apply enum_good in He. exists e. unfold gen_enum in H.
    destruct (ed_from e) as [[]|] eqn:E1, (e_rest (ed_desc e)) as [[]|] eqn:E2; cbn in H; try discriminate; injection H as <-;
      (split; [reflexivity|]; split; [exact He|intros [? ?]; congruence]).
  - intros (e & -> & He & N). exists e. split; [now apply enum_good|]. apply enum_says_from in He. unfold gen_enum.
    destruct (ed_from e) as [[]|] eqn:E1, (e_rest (ed_desc e)) as [[]|] eqn:E2; try reflexivity; exfalso; auto.
Qed.

Lemma enum_macro_crash name attrs vs : enum_macro name attrs vs = Crash <->
  ((exists a l v, first_attr "ubx" attrs a /\ parse_meta a = Good (MList l) /\ extend_says l v) /\
   exists b p, first_attr "repr" attrs b /\ parse_meta b = Good (MList [NPath p]) /\ p <> ["u8"%string]) \/
  (exists e, enum_says name attrs vs e /\ ed_from e = Some FromUnchecked /\ e_rest (ed_desc e) = Some RestReserved).
Proof.
  unfold enum_macro. split.
  - intros H. destruct (parse_ubx_enum_type name attrs vs) as [e|m|] eqn:P; cbn in H; [|discriminate|].
    + apply enum_good in P. right. exists e. assert (N := enum_says_from _ _ _ _ P). unfold gen_enum in H.
      destruct (ed_from e) as [[]|] eqn:E1, (e_rest (ed_desc e)) as [[]|] eqn:E2; cbn in H; try discriminate; auto. exfalso; auto.
    + left. split; [|eapply enum_crash; exact P]. unfold parse_ubx_enum_type in P.
      destruct (parse_ubx_extend_attrs attrs) as [v|m|] eqn:E; [|discriminate|exfalso; now apply (extend_attrs_total attrs)].
      apply extend_attrs_good in E. destruct E as (a & l & E). exists a, l, v. exact E.
  - intros [[(a & l & v & H1 & H2 & H3) R]|(e & He & F & R)].
    + unfold parse_ubx_enum_type. rewrite (proj2 (extend_attrs_good attrs v)) by eauto. cbn [mbind].
      apply enum_repr_crash in R. rewrite R. reflexivity.
    + rewrite (proj2 (enum_good _ _ _ _) He). cbn. unfold gen_enum. rewrite F, R. reflexivity.
Qed.

Lemma flags_macro_good attrs path body o : flags_macro attrs path body = Good o <->
  path = ["bitflags"%string] /\ exists f, o = OFlags f /\ bitflags_say attrs body f /\ fl_from f <> Some FromUnchecked.
Proof.
  unfold flags_macro. destruct (is_ident path "bitflags") eqn:E.
  - apply is_ident_iff in E. rewrite mbind_good. split.
    + intros (f & Hf & H). apply bitflags_good in Hf. split; [exact E|]. exists f. unfold gen_flags in H.
      destruct (fl_rest f) as [[]|] eqn:R; try discriminate. destruct (flags_accepted (fl_desc f)) eqn:A; [|discriminate].
      apply flags_accepted_iff in A.
      destruct (fl_from f) as [[]|] eqn:F; cbn in H; try discriminate; injection H as <-;
        (split; [reflexivity|]; split; [split; [exact Hf|]; split; [exact R|exact A]|congruence]).
    + intros (_ & f & -> & (Hf & R & A) & N). exists f. split; [now apply bitflags_good|]. unfold gen_flags. rewrite R.
      rewrite (proj2 (flags_accepted_iff (fl_desc f)) A). destruct (fl_from f) as [[]|]; try reflexivity. congruence.
  - split; [discriminate|]. intros [-> _]. discriminate.
Qed.

Lemma flags_macro_crash attrs path body : flags_macro attrs path body = Crash <->
  path = ["bitflags"%string] /\ exists f, bitflags_say attrs body f /\ fl_from f = Some FromUnchecked.
Proof.
  unfold flags_macro. destruct (is_ident path "bitflags") eqn:E.
  - apply is_ident_iff in E. split.
    + intros H. split; [exact E|]. destruct (parse_bitflags attrs body) as [f|m|] eqn:P; cbn in H; [|discriminate|exfalso; now apply (bitflags_total attrs body)].
      apply bitflags_good in P. unfold gen_flags in H.
      destruct (fl_rest f) as [[]|] eqn:R; try discriminate. destruct (flags_accepted (fl_desc f)) eqn:A; [|discriminate].
      apply flags_accepted_iff in A. exists f. split; [split; [exact P|]; split; [exact R|exact A]|].
      destruct (fl_from f) as [[]|]; try discriminate. reflexivity.
    + intros (_ & f & (Hf & R & A) & F). rewrite (proj2 (bitflags_good _ _ _) Hf). cbn. unfold gen_flags. rewrite R.
      rewrite (proj2 (flags_accepted_iff (fl_desc f)) A). now rewrite F.
  - split; [discriminate|]. intros [-> _]. discriminate.
Qed.

(** ** The items of a file *)

Lemma macro_of_iff a m : macro_of a = Some m <-> a_path a = [macro_name m].
Proof.
  unfold macro_of. split.
  - destruct (is_ident (a_path a) "ubx_packet_recv") eqn:E1; [intros H; injection H as <-; now apply is_ident_iff in E1|].
    destruct (is_ident (a_path a) "ubx_packet_send") eqn:E2; [intros H; injection H as <-; now apply is_ident_iff in E2|].
    destruct (is_ident (a_path a) "ubx_packet_recv_send") eqn:E3; [intros H; injection H as <-; now apply is_ident_iff in E3|].
    destruct (is_ident (a_path a) "ubx_extend") eqn:E4; [intros H; injection H as <-; now apply is_ident_iff in E4|].
    destruct (is_ident (a_path a) "ubx_extend_bitflags") eqn:E5; [intros H; injection H as <-; now apply is_ident_iff in E5|]. discriminate.
  - intros ->. destruct m as [[]| |]; reflexivity.
Qed.
Lemma macro_of_none a : macro_of a = None <-> forall m, a_path a <> [macro_name m].
Proof.
  destruct (macro_of a) as [m|] eqn:E.
  - split; [discriminate|]. intros H. apply macro_of_iff in E. now destruct (H m).
  - split; [|reflexivity]. intros _ m Hm. apply macro_of_iff in Hm. congruence.
Qed.
Lemma first_macro_iff attrs m : first_macro attrs = Some m <-> asks attrs m.
Proof.
  induction attrs as [|a attrs IH]; cbn [first_macro].
  - split; [discriminate|]. intros ([|] & ? & ? & E & _); discriminate.
  - destruct (macro_of a) as [m'|] eqn:E.
    + split.
      * intros H. injection H as ->. apply macro_of_iff in E. exists [], a, attrs. split; [reflexivity|]. split; [exact E|]. intros b m0 [].
      * intros ([|b before] & c & after & Eq & Hc & Hb).
        -- injection Eq as -> ->. apply macro_of_iff in Hc. congruence.
        -- injection Eq as -> ->. apply macro_of_iff in E. now destruct (Hb b m' (or_introl eq_refl)).
    + rewrite IH. pose proof (proj1 (macro_of_none a) E) as N. split.
      * intros (before & c & after & -> & Hc & Hb). exists (a :: before), c, after. split; [reflexivity|]. split; [exact Hc|].
        intros b m' [<-|Hin]; [apply N|now apply Hb].
      * intros ([|b before] & c & after & Eq & Hc & Hb).
        -- injection Eq as -> ->. now destruct (N m).
        -- injection Eq as -> ->. exists before, c, after. split; [reflexivity|]. split; [exact Hc|]. intros b' m' Hin. apply Hb. now right.
Qed.
Lemma first_macro_none attrs : first_macro attrs = None <-> asks_nothing attrs.
Proof.
  unfold asks_nothing. induction attrs as [|a attrs IH]; cbn [first_macro]; [split; [intros _ a m []|reflexivity]|].
  destruct (macro_of a) as [m'|] eqn:E.
  - split; [discriminate|]. intros H. apply macro_of_iff in E. now destruct (H a m' (or_introl eq_refl)).
  - rewrite IH. pose proof (proj1 (macro_of_none a) E) as N. split.
    + intros H b m [<-|Hb]; [apply N|now apply H].
    + intros H b m Hb. apply H. now right.
Qed.

Lemma expand_good i outs : expand i = Good outs <-> item_says i outs.
Proof.
  split.
  - destruct i as [attrs name fs|attrs name vs|attrs path body|]; cbn [expand].
    + destruct (first_macro attrs) as [[k| |]|] eqn:M; try discriminate.
      * destruct fs as [fs|?|]; cbn [mbind]; try discriminate. rewrite mbind_good. intros (o & Ho & H). injection H as <-.
        apply packet_macro_good in Ho. destruct Ho as (d & -> & Hd & K). apply is_packet; [now apply first_macro_iff|exact Hd|exact K].
      * intros H. injection H as <-. apply is_struct. now apply first_macro_none.
    + destruct (first_macro attrs) as [[k| |]|] eqn:M; try discriminate.
      * destruct vs as [vs|?|]; cbn [mbind]; try discriminate. rewrite mbind_good. intros (o & Ho & H). injection H as <-.
        apply enum_macro_good in Ho. destruct Ho as (e & -> & He & K). apply is_enum; [now apply first_macro_iff|exact He|exact K].
      * intros H. injection H as <-. apply is_plain_enum. now apply first_macro_none.
    + destruct (first_macro attrs) as [[k| |]|] eqn:M; try discriminate.
      * rewrite mbind_good. intros (o & Ho & H). injection H as <-. apply flags_macro_good in Ho.
        destruct Ho as (-> & f & -> & Hf & K). apply is_flags; [now apply first_macro_iff|exact Hf|exact K].
      * destruct (is_ident path "define_recv_packets") eqn:P.
        -- rewrite mbind_good. intros (r & Hr & H). injection H as <-. apply recv_good in Hr. destruct Hr as (c & Hc).
           apply is_ident_iff in P. subst path. eapply is_union; [now apply first_macro_none|exact Hc].
        -- intros H. injection H as <-. apply is_macro; [now apply first_macro_none|]. intros ->. discriminate.
    + intros H. injection H as <-. apply is_other.
  - intros H. destruct H as [attrs name fs k d A D K|attrs name vs e A E K|attrs body f A F K|attrs body r c A B|attrs name fs A|attrs name vs A|attrs path body A P|];
      cbn [expand];
      try (apply first_macro_iff in A; rewrite A); try (apply first_macro_none in A; rewrite A); cbn [mbind]; try reflexivity.
    + apply mbind_good. exists (OPacket k d). split; [|reflexivity]. apply packet_macro_good. eauto.
    + apply mbind_good. exists (OEnum e). split; [|reflexivity]. apply enum_macro_good. eauto.
    + apply mbind_good. exists (OFlags f). split; [|reflexivity]. apply flags_macro_good. eauto.
    + cbn. apply mbind_good. exists r. split; [|reflexivity]. apply recv_good. eauto.
    + destruct (is_ident path "define_recv_packets") eqn:Q; [|reflexivity]. apply is_ident_iff in Q. contradiction.
Qed.

Lemma expand_all_good l outs : expand_all l = Good outs <-> exists each, Forall2 item_says l each /\ outs = concat each.
Proof.
  revert outs. induction l as [|i l IH]; intros outs; cbn [expand_all].
  - split; [intros H; injection H as <-; exists []; split; [constructor|reflexivity]|]. intros (each & F & ->). inversion F. reflexivity.
  - rewrite mbind_good. split.
    + intros (a & Ha & H). apply mbind_good in H. destruct H as (b & Hb & H). injection H as <-. apply expand_good in Ha. apply IH in Hb.
      destruct Hb as (each & F & ->). exists (a :: each). split; [now constructor|reflexivity].
    + intros (each & F & ->). inversion F as [|? a ? each' Ha F']; subst. exists a. split; [now apply expand_good|].
      apply mbind_good. exists (concat each'). split; [apply IH; eauto|reflexivity].
Qed.

(** ** The order of the items *)

Lemma written_perm k l l' : Permutation l l' -> Permutation (written k l) (written k l').
Proof.
  intros H. unfold written. induction H as [|x l l' H IH|x y l|l m n H1 IH1 H2 IH2]; cbn; [constructor|now apply Permutation_app_head| |].
  - rewrite !app_assoc. apply Permutation_app_tail, Permutation_app_comm.
  - now transitivity (flat_map (fun e => match e with NValue [k0] v => if String.eqb k0 k then [v] else [] | _ => [] end) m).
Qed.
Lemma perm_short {A} (a b : list A) : Permutation a b -> (length a <= 1)%nat -> a = b.
Proof.
  intros P L. destruct a as [|x [|]]; [now apply Permutation_nil in P|now apply Permutation_length_1_inv in P|cbn in L; lia].
Qed.

Lemma header_says_perm l l' h : Permutation l l' -> (length (written "flags" l) <= 1)%nat -> header_says l h -> header_says l' h.
Proof.
  intros P L (K & C & Cl & I & Il & Ln & G).
  assert (W : forall k, (length (written k l) <= 1)%nat -> written k l' = written k l).
  { intros k Hk. symmetry. apply perm_short; [now apply written_perm|exact Hk]. }
  unfold header_says. split; [intros e He; apply K; eapply Permutation_in; [apply Permutation_sym; exact P|exact He]|].
  rewrite (W "class"%string), (W "id"%string), (W "flags"%string) by (rewrite ?C, ?I; cbn; lia || exact L).
  repeat split; auto. destruct (h_len h); destruct Ln as (L1 & L2 & L3); rewrite !W by (rewrite ?L1, ?L2; cbn; lia); auto.
Qed.

(** ** The order of the options *)

Definition opt_key (o : opt) : nat :=
  match o with
  | OMapType _ => 0 | OScale _ => 1 | OAlias _ => 2 | OMayFail => 3 | OGetAsRef => 4
  | OFrom _ => 5 | OIsValid _ => 6 | OSizeFn _ => 7 | OInto _ => 8
  end%nat.

Lemma last_of_in {A} (pick : opt -> option A) os a : last_of pick os = Some a -> exists o, In o os /\ pick o = Some a.
Proof.
  induction os as [|o os IH]; cbn; [discriminate|]. destruct (last_of pick os) as [b|] eqn:E.
  - intros H. injection H as ->. destruct (IH eq_refl) as (o' & H1 & H2). exists o'. auto.
  - intros H. exists o. auto.
Qed.
Lemma last_of_none {A} (pick : opt -> option A) os : last_of pick os = None <-> forall o, In o os -> pick o = None.
Proof.
  induction os as [|o os IH]; cbn; [split; [intros _ ? []|reflexivity]|]. destruct (last_of pick os) as [b|] eqn:E.
  - split; [discriminate|]. intros H. assert (Some b = None) by (apply IH; intros; apply H; now right). discriminate.
  - split.
    + intros H o' [<-|Ho]; [exact H|now apply IH].
    + intros H. apply H. now left.
Qed.

Lemma last_of_perm {A} (pick : opt -> option A) k os os' :
  (forall o a, pick o = Some a -> opt_key o = k) -> Permutation os os' -> NoDup (map opt_key os) -> last_of pick os = last_of pick os'.
Proof.
  intros K P ND.
  assert (U : forall o o' a a', In o os -> In o' os -> pick o = Some a -> pick o' = Some a' -> a = a').
  { intros o o' a a' H1 H2 E1 E2. assert (Ek : opt_key o = opt_key o') by (rewrite (K _ _ E1), (K _ _ E2); reflexivity).
    assert (o = o'); [|congruence]. clear - ND H1 H2 Ek. induction os as [|x os IH]; [destruct H1|]. cbn in ND. inversion ND as [|? ? N ND']; subst.
    destruct H1 as [<-|H1], H2 as [<-|H2]; [reflexivity| | |auto].
    - exfalso. apply N. rewrite Ek. now apply in_map.
    - exfalso. apply N. rewrite <- Ek. now apply in_map. }
  destruct (last_of pick os) as [a|] eqn:E1.
  - apply last_of_in in E1. destruct E1 as (o & Ho & Eo). destruct (last_of pick os') as [b|] eqn:E2.
    + apply last_of_in in E2. destruct E2 as (o' & Ho' & Eo'). f_equal. eapply U; [exact Ho| |exact Eo|exact Eo'].
      eapply Permutation_in; [apply Permutation_sym; exact P|exact Ho'].
    + exfalso. assert (pick o = None); [|congruence]. apply (proj1 (last_of_none pick os') E2). eapply Permutation_in; [exact P|exact Ho].
  - symmetry. apply last_of_none. intros o Ho. apply (proj1 (last_of_none pick os) E1). eapply Permutation_in; [apply Permutation_sym; exact P|exact Ho].
Qed.

Lemma options_mean_perm os os' : Permutation os os' -> NoDup (map opt_key os) -> options_mean os = options_mean os'.
Proof.
  intros P ND. unfold options_mean.
  assert (H : forall f, has f os = has f os').
  { intros f. unfold has. apply eq_true_iff_eq. rewrite !existsb_exists. split; intros (o & Ho & E); exists o; (split; [|exact E]);
      eapply Permutation_in; [exact P|exact Ho|apply Permutation_sym; exact P|exact Ho]. }
  rewrite !H.
  assert (L : forall A (pick : opt -> option A) k, (forall o a, pick o = Some a -> opt_key o = k) -> last_of pick os = last_of pick os')
    by (intros; eapply last_of_perm; eassumption).
  unfold the_type, the_scale, the_alias, the_from, the_is_valid, the_size_fn, the_into.
  rewrite (L _ (fun o => match o with OMapType t => Some t | _ => None end) 0%nat) by (intros [] ? E; congruence || reflexivity).
  rewrite (L _ (fun o => match o with OScale t => Some t | _ => None end) 1%nat) by (intros [] ? E; congruence || reflexivity).
  rewrite (L _ (fun o => match o with OAlias t => Some t | _ => None end) 2%nat) by (intros [] ? E; congruence || reflexivity).
  rewrite (L _ (fun o => match o with OFrom p => Some (path_tokens p) | _ => None end) 5%nat) by (intros [] ? E; congruence || reflexivity).
  rewrite (L _ (fun o => match o with OIsValid p => Some (path_tokens p) | _ => None end) 6%nat) by (intros [] ? E; congruence || reflexivity).
  rewrite (L _ (fun o => match o with OSizeFn p => Some (path_tokens p) | _ => None end) 7%nat) by (intros [] ? E; congruence || reflexivity).
  rewrite (L _ (fun o => match o with OInto p => Some p | _ => None end) 8%nat) by (intros [] ? E; congruence || reflexivity).
  reflexivity.
Qed.
