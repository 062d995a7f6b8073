(** * The parser over a lawful buffer follows the parser over the reference queue (proof support) *)
From Coq Require Import List NArith ZArith Bool Lia ZifyBool ZifyNat ZifyN.
From Verif Require Import Base BaseFacts Checksum Buffers DualBuffer Parser SpecBuffer.
Import ListNotations.
Open Scope N_scope.

Definition refines {A B} (R : A -> B -> Prop) (x : res A) (y : res B) : Prop :=
  forall b, y = Ret b -> exists a, x = Ret a /\ R a b.

Lemma refines_bind {A B A' B'} (R : A -> B -> Prop) (R' : A' -> B' -> Prop) x y f g :
  refines R x y -> (forall a b, R a b -> refines R' (f a) (g b)) ->
  refines R' (bind x f) (bind y g).
Proof.
  intros H1 H2 b' E. destruct y as [b| |]; cbn in E; try discriminate.
  destruct (H1 b eq_refl) as (a & -> & Hab). cbn. eapply H2; eauto.
Qed.

Lemma refines_ret {A B} (R : A -> B -> Prop) a b : R a b -> refines R (Ret a) (Ret b).
Proof. intros H c E. injection E as <-. eauto. Qed.
Lemma refines_refl {A} (x : res A) : refines eq x x.
Proof. intros a E. eauto. Qed.
Lemma refines_panic {A B} (R : A -> B -> Prop) x : refines R x Panic.
Proof. intros b E. discriminate. Qed.
Lemma refines_diverge {A B} (R : A -> B -> Prop) x : refines R x Diverge.
Proof. intros b E. discriminate. Qed.

(** same value paired with related states *)
Definition pairR {A X Y} (R : X -> Y -> Prop) (p : A * X) (q : A * Y) : Prop :=
  fst p = fst q /\ R (snd p) (snd q).

Section Sim.
  Context {T : Type} (ops : buf_ops T) (cap : N) (inv : T -> Prop) (contents : T -> list byte).
  Hypothesis L : Lawful ops cap inv contents.
  Notation q := (queue_ops cap).

  Definition RB (t : T) (v : list byte) : Prop := inv t /\ contents t = v.
  Definition RD (d : dual (T:=T)) (e : dual (T:=list byte)) : Prop :=
    RB (d_buf d) (d_buf e) /\ d_off d = d_off e /\ d_new d = d_new e /\ d_noff d = d_noff e.

  Lemma RB_len t v : RB t v -> b_len ops t = lenN v.
  Proof. intros [Hi <-]. now apply (law_len _ _ _ _ L). Qed.
  Lemma RB_cap t v : RB t v -> b_max_cap ops t = cap.
  Proof. intros [Hi <-]. now apply (law_cap _ _ _ _ L). Qed.

  Lemma sim_index t v i : RB t v -> refines eq (b_index ops t i) (b_index q v i).
  Proof.
    intros [Hi <-] x E. cbn [b_index queue_ops] in E. exists x. split; [|reflexivity].
    rewrite (law_index _ _ _ _ L) by (auto; eapply get_Ret; eauto). assumption.
  Qed.
  Lemma sim_range t v s e : RB t v -> refines eq (b_range ops t s e) (b_range q v s e).
  Proof.
    intros [Hi <-] x E. cbn [b_range queue_ops] in E. exists x. split; [|reflexivity].
    unfold slice in E. destruct (N.leb_spec s e), (N.leb_spec e (lenN (contents t))); cbn in E; try discriminate.
    rewrite (law_range _ _ _ _ L) by auto. rewrite slice_ok by auto. assumption.
  Qed.
  Lemma sim_drain t v n : RB t v -> refines RB (b_drain ops t n) (b_drain q v n).
  Proof.
    intros [Hi <-] x E. cbn [b_drain queue_ops] in E.
    destruct (N.leb_spec n (lenN (contents t))); [|discriminate]. injection E as <-.
    destruct (law_drain _ _ _ _ L t n Hi) as (t' & E & Hi' & Hc); [assumption|].
    exists t'. split; [assumption|]. split; assumption.
  Qed.
  Lemma sim_extend t v l : RB t v ->
    refines (fun p q => RB (fst p) (fst q) /\ snd p = snd q) (b_extend ops t l) (b_extend q v l).
  Proof.
    intros [Hi <-] x E. cbn [b_extend queue_ops] in E.
    destruct (N.leb_spec (lenN (contents t) + lenN l) isize_max); [|discriminate]. injection E as <-.
    destruct (law_extend _ _ _ _ L t l Hi) as (t' & E & Hi' & Hc); [assumption|].
    eexists. split; [eassumption|]. cbn [fst snd]. split; [|reflexivity]. split; [assumption|].
    rewrite Hc. f_equal. destruct (N.leb_spec (lenN l) (cap - lenN (contents t))).
    - rewrite !takeN_all by lia. reflexivity.
    - f_equal. lia.
  Qed.

  Ltac sim_rew :=
    repeat match goal with
    | H : RD ?d ?e |- _ =>
        let B := fresh "B" in let E1 := fresh "E" in let E2 := fresh "E" in let E3 := fresh "E" in
        destruct H as (B & E1 & E2 & E3);
        rewrite ?E1, ?E2, ?E3, ?(RB_len _ _ B), ?(RB_cap _ _ B)
    end.
  Ltac sim_step :=
    match goal with
    | |- refines _ _ Panic => apply refines_panic
    | |- refines _ _ Diverge => apply refines_diverge
    | |- refines eq ?x ?x => apply refines_refl
    | |- refines _ (bind ?x _) (bind ?x _) => eapply (refines_bind eq); [apply refines_refl | intros ? ? <-]
    | |- refines _ (if ?b then _ else _) (if ?b then _ else _) => destruct b eqn:?
    | |- refines _ (let (_, _) := ?x in _) (let (_, _) := ?x in _) => destruct x eqn:?
    end.

  Lemma sim_d_index d e i : RD d e -> refines eq (d_index ops d i) (d_index q e i).
  Proof.
    intros H. unfold d_index. sim_rew. cbn [b_len queue_ops]. repeat sim_step.
    now apply sim_index.
  Qed.
  Lemma sim_d_len d e : RD d e -> refines eq (d_len ops d) (d_len q e).
  Proof. intros H. unfold d_len. sim_rew. cbn [b_len queue_ops]. repeat sim_step. Qed.
  Lemma sim_d_drain d e k : RD d e -> refines RD (d_drain ops d k) (d_drain q e k).
  Proof.
    intros H. unfold d_drain. sim_rew. cbn [b_len queue_ops]. repeat sim_step.
    apply refines_ret. repeat split; try apply B.
  Qed.
  Lemma sim_d_clear d e : RD d e -> refines RD (d_clear ops d) (d_clear q e).
  Proof.
    intros H. unfold d_clear. eapply refines_bind; [apply sim_d_len; assumption|].
    intros ? ? <-. now apply sim_d_drain.
  Qed.
  Lemma sim_d_lost d e : RD d e -> refines eq (d_potential_lost ops d) (d_potential_lost q e).
  Proof.
    intros H. unfold d_potential_lost. eapply refines_bind; [apply sim_d_len; assumption|].
    intros ? ? <-. sim_rew. cbn [b_max_cap queue_ops]. repeat sim_step.
  Qed.
  Lemma sim_d_can d e x y : RD d e ->
    refines eq (d_can_drain_and_take ops d x y) (d_can_drain_and_take q e x y).
  Proof.
    intros H. unfold d_can_drain_and_take. sim_rew. cbn [b_max_cap b_len queue_ops]. repeat sim_step.
  Qed.
  Lemma sim_d_peek d e x y : RD d e -> refines eq (d_peek_raw ops d x y) (d_peek_raw q e x y).
  Proof.
    intros H. unfold d_peek_raw. sim_rew. cbn [b_max_cap b_len queue_ops]. sim_step.
    eapply (refines_bind eq).
    { repeat sim_step. apply sim_range; assumption. }
    intros ? ? <-. repeat sim_step.
  Qed.
  Lemma sim_d_take d e k : RD d e ->
    refines (pairR RD) (d_take ops d k) (d_take q e k).
  Proof.
    intros H. unfold d_take. sim_rew. cbn [b_max_cap b_len queue_ops].
    sim_step. sim_step. sim_step; [sim_step|]. sim_step.
    { repeat sim_step. apply refines_ret. repeat split; try apply B; assumption. }
    sim_step.
    { do 2 sim_step. eapply refines_bind; [apply sim_range; eassumption|].
      intros ? ? <-. apply refines_ret. repeat split; try apply B; assumption. }
    sim_step.
    { apply refines_ret. repeat split; try apply B; assumption. }
    sim_step. sim_step.
    { sim_step. eapply refines_bind; [apply sim_extend; eassumption|].
      intros [t1 n1] [v1 n1'] [HB En]. cbn [fst snd] in *. subst n1'.
      do 5 sim_step. eapply refines_bind; [apply sim_range; eassumption|].
      intros ? ? <-. apply refines_ret. repeat split; try apply HB; assumption. }
    eapply refines_bind; [apply sim_drain; eassumption|].
    intros t1 v1 HB1. do 2 sim_step. eapply refines_bind; [apply sim_extend; eassumption|].
    intros [t2 n2] [v2 n2'] [HB En]. cbn [fst snd] in *.
    do 2 sim_step. eapply refines_bind; [apply sim_range; eassumption|].
    intros ? ? <-. apply refines_ret. repeat split; try apply HB; assumption.
  Qed.
  Lemma sim_d_drop d e : RD d e -> refines RB (d_drop ops d) (d_drop q e).
  Proof.
    intros H. unfold d_drop. sim_rew.
    eapply refines_bind; [apply sim_drain; eassumption|].
    intros t1 v1 HB1. sim_step. eapply refines_bind; [apply sim_extend; eassumption|].
    intros [t2 n2] [v2 n2'] [HB En]. cbn [fst snd] in *. now apply refines_ret.
  Qed.

  Lemma sim_find_range (p p' : N -> res bool) fuel : (forall i, refines eq (p i) (p' i)) ->
    forall lo, refines eq (find_range p lo fuel) (find_range p' lo fuel).
  Proof.
    intros H. induction fuel as [|f IH]; intros lo; cbn [find_range]; [apply refines_refl|].
    eapply refines_bind; [apply H|]. intros ? ? <-. sim_step; [apply refines_refl|apply IH].
  Qed.
  Lemma sim_find_sync d e : RD d e -> refines eq (find_sync ops d) (find_sync q e).
  Proof.
    intros H. unfold find_sync. eapply refines_bind; [apply sim_d_len; assumption|].
    intros ? ? <-. apply sim_find_range. intros i.
    eapply refines_bind; [apply sim_d_index; assumption|]. intros ? ? <-. apply refines_refl.
  Qed.

  Context {P : Type} (mp : byte -> byte -> list byte -> res (result P)) (mx : N).

  Lemma sim_consume t v c : RB t v -> refines RD (consume ops t c) (consume q v c).
  Proof.
    intros H. unfold consume.
    assert (RD (d_create t c) (d_create v c)) as HD by (repeat split; apply H).
    eapply refines_bind; [apply sim_find_sync; eassumption|].
    intros ? [k|] ->; [now apply sim_d_drain|now apply refines_ret].
  Qed.

  Lemma sim_extract d e n : RD d e ->
    refines (pairR RD) (extract_packet ops mp d n) (extract_packet q mp e n).
  Proof.
    intros H. unfold extract_packet. sim_step.
    eapply refines_bind; [apply sim_d_can; eassumption|]. intros ? can ->.
    sim_step.
    { eapply refines_bind; [apply sim_d_lost; eassumption|]. intros ? lost ->.
      sim_step.
      - eapply refines_bind; [apply sim_d_drain; eassumption|]. intros d' e' H'.
        sim_step. apply refines_ret. split; [reflexivity|assumption].
      - apply refines_ret. split; [reflexivity|assumption]. }
    do 2 sim_step. eapply refines_bind; [apply sim_d_peek; eassumption|]. intros ? [x y] ->.
    do 2 sim_step.
    eapply refines_bind; [apply sim_d_index; eassumption|]. intros ? ea ->.
    sim_step. eapply refines_bind; [apply sim_d_index; eassumption|]. intros ? eb ->.
    sim_step.
    { eapply refines_bind; [apply sim_d_drain; eassumption|]. intros d' e' H'.
      apply refines_ret. split; [reflexivity|assumption]. }
    eapply refines_bind; [apply sim_d_index; eassumption|]. intros ? cl ->.
    eapply refines_bind; [apply sim_d_index; eassumption|]. intros ? mi ->.
    eapply refines_bind; [apply sim_d_drain; eassumption|]. intros d' e' H'.
    sim_step. eapply refines_bind; [apply sim_d_take; eassumption|].
    intros [r d2] [r' e2] [Er H2]. cbn [fst snd] in *. subst r'.
    destruct r.
    - do 3 sim_step. apply refines_ret. split; [reflexivity|assumption].
    - apply refines_ret. split; [reflexivity|assumption].
  Qed.

  Lemma sim_next_loop fuel : forall d e, RD d e ->
    refines (pairR RD) (next_loop ops mp mx fuel d) (next_loop q mp mx fuel e).
  Proof.
    induction fuel as [|f IH]; intros d e H; cbn [next_loop]; [apply refines_diverge|].
    eapply refines_bind; [apply sim_d_len; eassumption|]. intros ? n ->.
    sim_step; [apply refines_ret; split; [reflexivity|assumption]|].
    eapply refines_bind; [apply sim_find_sync; eassumption|]. intros ? [pos|] ->.
    2:{ eapply refines_bind; [apply sim_d_clear; eassumption|]. intros d' e' H'.
        apply refines_ret. split; [reflexivity|assumption]. }
    eapply refines_bind; [apply sim_d_drain; eassumption|]. intros d1 e1 H1.
    eapply refines_bind; [apply sim_d_len; eassumption|]. intros ? n1 ->.
    sim_step; [apply refines_ret; split; [reflexivity|assumption]|].
    eapply refines_bind; [apply sim_d_index; eassumption|]. intros ? b1 ->.
    sim_step.
    { eapply refines_bind; [apply sim_d_drain; eassumption|]. intros d' e' H'. now apply IH. }
    sim_step; [apply refines_ret; split; [reflexivity|assumption]|].
    eapply refines_bind; [apply sim_d_index; eassumption|]. intros ? b4 ->.
    eapply refines_bind; [apply sim_d_index; eassumption|]. intros ? b5 ->.
    cbv zeta. sim_step.
    { eapply refines_bind; [apply sim_d_drain; eassumption|]. intros d' e' H'. now apply IH. }
    now apply sim_extract.
  Qed.

  Lemma sim_next d e : RD d e -> refines (pairR RD) (next ops mp mx d) (next q mp mx e).
  Proof.
    intros H. unfold next. pose proof (sim_next_loop (S (S (N.to_nat (b_len q (d_buf e) + lenN (d_new e))))) d e H).
    destruct H as (B & _ & E & _). rewrite (RB_len _ _ B), E. assumption.
  Qed.

  Lemma sim_next_times k : forall d e, RD d e ->
    refines (pairR RD) (next_times ops mp mx k d) (next_times q mp mx k e).
  Proof.
    induction k as [|k IH]; intros d e H; cbn [next_times].
    - apply refines_ret. split; [reflexivity|assumption].
    - eapply refines_bind; [apply sim_next; eassumption|]. intros [r d1] [r' e1] [Er H1].
      cbn [fst snd] in *. subst r'. eapply refines_bind; [apply IH; eassumption|].
      intros [rs d2] [rs' e2] [Ers H2]. cbn [fst snd] in *. subst rs'.
      apply refines_ret. split; [reflexivity|assumption].
  Qed.

  Lemma sim_drain_loop k : forall d e, RD d e ->
    refines (pairR RD) (drain_loop ops mp mx k d) (drain_loop q mp mx k e).
  Proof.
    induction k as [|k IH]; intros d e H; cbn [drain_loop]; [apply refines_diverge|].
    eapply refines_bind; [apply sim_next; eassumption|]. intros [r d1] [r' e1] [Er H1].
    cbn [fst snd] in *. subst r'. destruct r.
    - eapply refines_bind; [apply IH; eassumption|].
      intros [rs d2] [rs' e2] [Ers H2]. cbn [fst snd] in *. subst rs'.
      apply refines_ret. split; [reflexivity|assumption].
    - apply refines_ret. split; [reflexivity|assumption].
  Qed.

  Lemma sim_drain_iter d e : RD d e -> refines (pairR RD) (drain_iter ops mp mx d) (drain_iter q mp mx e).
  Proof.
    intros H. unfold drain_iter. pose proof (sim_drain_loop (S (N.to_nat (b_len q (d_buf e) + lenN (d_new e)))) d e H).
    destruct H as (B & _ & E & _). rewrite (RB_len _ _ B), E. assumption.
  Qed.

  Lemma sim_feed t v c : RB t v -> refines (pairR RB) (feed ops mp mx t c) (feed q mp mx v c).
  Proof.
    intros H. unfold feed. eapply refines_bind; [apply sim_consume; eassumption|].
    intros d e HD. eapply refines_bind; [apply sim_drain_iter; eassumption|].
    intros [rs d2] [rs' e2] [Ers H2]. cbn [fst snd] in *. subst rs'.
    eapply refines_bind; [apply sim_d_drop; eassumption|]. intros t' v' H'.
    apply refines_ret. split; [reflexivity|assumption].
  Qed.

  Lemma sim_feed_times t v c k : RB t v ->
    refines (pairR RB) (feed_times ops mp mx t c k) (feed_times q mp mx v c k).
  Proof.
    intros H. unfold feed_times. eapply refines_bind; [apply sim_consume; eassumption|].
    intros d e HD. eapply refines_bind; [apply sim_next_times; eassumption|].
    intros [rs d2] [rs' e2] [Ers H2]. cbn [fst snd] in *. subst rs'.
    eapply refines_bind; [apply sim_d_drop; eassumption|]. intros t' v' H'.
    apply refines_ret. split; [reflexivity|assumption].
  Qed.

  Lemma sim_feed_all cs : forall t v, RB t v ->
    refines (pairR RB) (feed_all ops mp mx t cs) (feed_all q mp mx v cs).
  Proof.
    induction cs as [|c cs IH]; intros t v H; cbn [feed_all].
    - apply refines_ret. split; [reflexivity|assumption].
    - eapply refines_bind; [apply sim_feed; eassumption|].
      intros [rs t1] [rs' v1] [Ers H1]. cbn [fst snd] in *. subst rs'.
      eapply refines_bind; [apply IH; eassumption|].
      intros [rs2 t2] [rs' v2] [Ers H2]. cbn [fst snd] in *. subst rs'.
      apply refines_ret. split; [reflexivity|assumption].
  Qed.

  Lemma sim_run_history h : forall t v, RB t v ->
    refines (pairR RB) (run_history ops mp mx t h) (run_history q mp mx v h).
  Proof.
    induction h as [|[c k] h IH]; intros t v H; cbn [run_history].
    - apply refines_ret. split; [reflexivity|assumption].
    - eapply refines_bind; [apply sim_feed_times; eassumption|].
      intros [rs t1] [rs' v1] [Ers H1]. cbn [fst snd] in *. subst rs'.
      eapply refines_bind; [apply IH; eassumption|].
      intros [rs2 t2] [rs' v2] [Ers H2]. cbn [fst snd] in *. subst rs'.
      apply refines_ret. split; [reflexivity|assumption].
  Qed.
End Sim.
