(** * Properties of the buffers and of the two-buffer view (C16, C18) *)
From Coq Require Import List NArith ZArith Bool Lia ZifyBool ZifyNat ZifyN.
From Verif Require Import Base BaseFacts Checksum Buffers DualBuffer Parser SpecBuffer SpecFrame SpecParser
  ProofDual ProofSim ProofBuffers PropFixed.
Import ListNotations.
Open Scope N_scope.

(** ** C16 *)

(** Whatever the sequence of operations on a fresh buffer, the outputs are those of the bounded queue [fifo_run], and it
    panics exactly where the queue has no answer (an invalid range). *)
Theorem fixed_linear_buffer_is_fifo :
  forall back os, lenN back <= isize_max ->
    fst (impl_run flb_ops (flb_new back) os) = fst (fifo_run (lenN back) [] os) /\
    match snd (impl_run flb_ops (flb_new back) os), snd (fifo_run (lenN back) [] os) with
    | Ret b, Some v => takeN (flb_len b) (flb_buffer b) = v /\ flb_len b = lenN v /\ lenN v <= lenN back
    | Panic, None => True
    | _, _ => False
    end.
Proof.
  intros b os Hb. pose proof (flb_run (lenN b) os (flb_new b) (flb_new_inv b Hb)) as [H1 H2].
  change (flb_contents (flb_new b)) with (@nil byte) in *. split; [assumption|].
  destruct (snd (impl_run flb_ops (flb_new b) os)), (snd (fifo_run (lenN b) [] os)); try assumption.
  destruct H2 as [Hi <-]. split; [reflexivity|]. rewrite (flb_contents_len (lenN b)) by assumption.
  split; [reflexivity|apply Hi].
Qed.

(** The queue's own laws: it is first in first out, never exceeds the capacity, and drops what does not fit. *)
Theorem fifo_capacity : forall cap v o x v', fifo_step cap v o = Some (x, v') -> lenN v <= cap -> lenN v' <= cap.
Proof.
  intros cap v o x v' E H; destruct o; cbn [fifo_step] in E; try (injection E as <- <-); rewrite ?lenN_takeN, ?lenN_dropN, ?lenN_nil; try lia.
  destruct (_ && _); [|discriminate]. injection E as <- <-. assumption.
Qed.

(** Reading one byte below [len] is right. *)
Theorem fixed_linear_buffer_index :
  forall cap b i, flb_inv cap b -> i < flb_len b -> flb_index b i = get (flb_contents b) i.
Proof. exact flb_index_ok. Qed.
(** Above [len] it does not panic but returns a stale byte. *)
Theorem fixed_linear_buffer_index_refuted :
  exists back os b, snd (impl_run flb_ops (flb_new back) os) = Ret b /\ flb_len b = 0 /\ flb_index b 0 = Ret xaa.
Proof. exists (backing 2), [BExtend [xaa; xbb]; BDrain 2]. eexists. vm_compute. repeat split. Qed.
Example fifo_ex :
  impl_run flb_ops (flb_new (backing 4)) [BExtend [x01; x02; x03]; BDrain 1; BExtend [x04; x05; x06]; BFind x05; BRange 1 3; BDrain 9; BLen; BRange 0 1] =
    ([ONum 0; OUnit; ONum 1; OFound (Some 3); OBytes [x03; x04]; OUnit; ONum 0], Panic).
Proof. vm_compute. reflexivity. Qed.

(** ** C18 *)

(** The operations of an iterator on its data *)
Inductive view_op : Type := VLen | VIndex (i : N) | VSkip (n : N) | VPeek (s e : N) | VTake (n : N) | VClear.
Inductive view_out : Type := WUnit | WNum (n : N) | WByte (b : byte) | WBytes (l : list byte) | WOutOfMemory (n : N).

(** On one plain list: [view_step cap v o out v'].  The only freedom: [VTake n] may answer [OutOfMemory n] when [n] exceeds
    the capacity, and then nothing changes. *)
Inductive view_step (cap : N) (v : list byte) : view_op -> view_out -> list byte -> Prop :=
| vs_len : view_step cap v VLen (WNum (lenN v)) v
| vs_index i x : nth_error v (N.to_nat i) = Some x -> view_step cap v (VIndex i) (WByte x) v
| vs_skip n : n <= lenN v -> view_step cap v (VSkip n) WUnit (dropN n v)
| vs_peek s e : s <= e -> e <= lenN v -> view_step cap v (VPeek s e) (WBytes (takeN (e - s) (dropN s v))) v
| vs_take n : n <= lenN v -> view_step cap v (VTake n) (WBytes (takeN n v)) (dropN n v)
| vs_take_oom n : n <= lenN v -> cap < n -> view_step cap v (VTake n) (WOutOfMemory n) v
| vs_clear : view_step cap v VClear WUnit [].

Definition in_range (v : list byte) (o : view_op) : Prop :=
  match o with
  | VLen | VClear => True
  | VIndex i => i < lenN v
  | VSkip n | VTake n => n <= lenN v
  | VPeek s e => s <= e /\ e <= lenN v
  end.

(** The same operations on the model of the two-buffer structure *)
Definition dual_step {T} (ops : buf_ops T) (d : dual (T:=T)) (o : view_op) : res (view_out * dual (T:=T)) :=
  match o with
  | VLen => let! n := d_len ops d in Ret (WNum n, d)
  | VIndex i => let! x := d_index ops d i in Ret (WByte x, d)
  | VSkip n => let! d' := d_drain ops d n in Ret (WUnit, d')
  | VPeek s e => let! (a, b) := d_peek_raw ops d s e in Ret (WBytes (a ++ b), d)
  | VTake n =>
      let! (r, d') := d_take ops d n in
      Ret (match r with Ok l => WBytes l | Err (OutOfMemory k) => WOutOfMemory k | Err _ => WUnit end, d')
  | VClear => let! d' := d_clear ops d in Ret (WUnit, d')
  end.

(** [dual_run]: operations with their outputs *)
Inductive dual_run {T} (ops : buf_ops T) : dual (T:=T) -> list (view_op * view_out) -> dual (T:=T) -> Prop :=
| dr_nil d : dual_run ops d [] d
| dr_cons d o x d1 l d2 : dual_step ops d o = Ret (x, d1) -> dual_run ops d1 l d2 -> dual_run ops d ((o, x) :: l) d2.
Inductive view_run (cap : N) : list byte -> list (view_op * view_out) -> list byte -> Prop :=
| vr_nil v : view_run cap v [] v
| vr_cons v o x v1 l v2 : view_step cap v o x v1 -> in_range v o -> view_run cap v1 l v2 -> view_run cap v ((o, x) :: l) v2.

Section Q.
  Variable cap : N.
  Notation q := (queue_ops cap).

  Lemma q_d_take0 d : dinv cap d -> d_take q d 0 = Ret (Ok [], d).
  Proof.
    intros H. destruct d as [b o n no]. destruct H. cbn [d_buf d_off d_new d_noff] in *. unfold d_take. cbn [b_len queue_ops d_buf d_off d_new d_noff].
    rewrite usub_ok by lia. cbn [bind]. rewrite N.min_0_r. change (sat_sub 0 0) with 0.
    rewrite usub_ok by lia. cbn [bind]. destruct (N.ltb_spec (lenN n - no) 0); [lia|]. rewrite N.eqb_refl.
    rewrite uadd_ok by (unfold usize_max, isize_max in *; lia). cbn [bind]. rewrite N.add_0_r, slice_ok by lia. cbn [bind].
    rewrite N.sub_diag. reflexivity.
  Qed.

  Lemma q_dual_step d o : dinv cap d -> in_range (dview d) o ->
    exists x d', dual_step q d o = Ret (x, d') /\ dinv cap d' /\ view_step cap (dview d) o x (dview d').
  Proof.
    intros Hi Hr. destruct o as [|i|n|s e|n|]; cbn [dual_step in_range] in *.
    - rewrite q_d_len by assumption. cbn [bind]. eexists _, _. split; [reflexivity|]. split; [assumption|constructor].
    - rewrite q_d_index by assumption. cbn [bind]. eexists _, _. split; [reflexivity|]. split; [assumption|]. constructor.
      assert (get (dview d) i = Ret (nthN (dview d) i)) as E by now apply get_nthN. unfold get in E.
      destruct (nth_error (dview d) (N.to_nat i)); congruence.
    - destruct (q_d_drain cap d n Hi Hr) as (d' & E & Hi' & Hv & _). rewrite E. cbn [bind]. eexists _, _.
      split; [reflexivity|]. split; [assumption|]. rewrite Hv. now constructor.
    - destruct Hr as [Hr1 Hr2]. destruct (q_d_peek cap d s e Hi Hr1 Hr2) as (a & b & E & Eab). rewrite E. cbn [bind].
      eexists _, _. split; [reflexivity|]. split; [assumption|]. rewrite Eab. now constructor.
    - destruct (N.eq_dec n 0) as [->|Hn].
      { rewrite q_d_take0 by assumption. cbn [bind]. eexists _, _. split; [reflexivity|]. split; [assumption|].
        exact (vs_take cap (dview d) 0 Hr). }
      destruct (N.eq_dec (dunder d) 0) as [Hu|Hu]; [|destruct (N.le_gt_cases n (dunder d)) as [Hu2|Hu2]; [|destruct (N.le_gt_cases n cap) as [Hc|Hc]]].
      4:{ rewrite q_d_take_oom by (assumption || lia). cbn [bind]. eexists _, _. split; [reflexivity|]. split; [assumption|]. now apply vs_take_oom. }
      all: destruct (q_d_take cap d n Hi ltac:(lia) Hr ltac:(lia)) as (d' & E & Hi' & Hv & _); rewrite E; cbn [bind];
        eexists _, _; (split; [reflexivity|]); (split; [assumption|]); rewrite Hv; now apply vs_take.
    - destruct (q_d_clear cap d Hi) as (d' & E & Hi' & Hv & _). rewrite E. cbn [bind]. eexists _, _.
      split; [reflexivity|]. split; [assumption|]. rewrite Hv. constructor.
  Qed.
End Q.

Section L.
  Context {T : Type} (ops : buf_ops T) (cap : N) (inv : T -> Prop) (contents : T -> list byte).
  Hypothesis L : Lawful ops cap inv contents.
  Notation q := (queue_ops cap).

  Lemma sim_dual_step d e o : RD inv contents d e -> refines (pairR (RD inv contents)) (dual_step ops d o) (dual_step q e o).
  Proof.
    intros H. destruct o; cbn [dual_step].
    - eapply refines_bind; [now apply (sim_d_len ops cap inv contents L)|]. intros ? ? <-. apply refines_ret. split; [reflexivity|assumption].
    - eapply refines_bind; [now apply (sim_d_index ops cap inv contents L)|]. intros ? ? <-. apply refines_ret. split; [reflexivity|assumption].
    - eapply refines_bind; [now apply (sim_d_drain ops cap inv contents L)|]. intros ? ? ?. apply refines_ret. split; [reflexivity|assumption].
    - eapply refines_bind; [now apply (sim_d_peek ops cap inv contents L)|]. intros [? ?] ? <-. apply refines_ret. split; [reflexivity|assumption].
    - eapply refines_bind; [now apply (sim_d_take ops cap inv contents L)|]. intros [? ?] [? ?] [E ?]. cbn [fst snd] in *. subst.
      apply refines_ret. split; [reflexivity|assumption].
    - eapply refines_bind; [now apply (sim_d_clear ops cap inv contents L)|]. intros ? ? ?. apply refines_ret. split; [reflexivity|assumption].
  Qed.

  (** progress and preservation *)
  Lemma view_step_sim d e o : RD inv contents d e -> dinv cap e -> in_range (dview e) o ->
    exists x d' e', dual_step ops d o = Ret (x, d') /\ RD inv contents d' e' /\ dinv cap e' /\ view_step cap (dview e) o x (dview e').
  Proof.
    intros HR Hi Hr. destruct (q_dual_step cap e o Hi Hr) as (x & e' & E & Hi' & Hs).
    destruct (sim_dual_step d e o HR _ E) as ([x' d'] & E' & Ex & HR'). cbn [fst snd] in *. subst x'.
    exists x, d', e'. auto.
  Qed.

  Lemma view_run_sim l : forall d e d' , RD inv contents d e -> dinv cap e ->
    dual_run ops d l d' -> forall (ok : forall l1 o x l2 v, l = l1 ++ (o, x) :: l2 -> view_run cap (dview e) l1 v -> in_range v o),
    exists e', RD inv contents d' e' /\ dinv cap e' /\ view_run cap (dview e) l (dview e').
  Proof.
    induction l as [|[o x] l IH]; intros d e d' HR Hi Hrun ok; inversion Hrun; subst.
    - exists e. split; [assumption|]. split; [assumption|]. constructor.
    - assert (in_range (dview e) o) as Hr.
      { eapply (ok [] o x l); [reflexivity|constructor]. }
      destruct (view_step_sim d e o HR Hi Hr) as (x0 & d0 & e0 & E & HR0 & Hi0 & Hs).
      match goal with H : dual_step ops d o = _ |- _ => rewrite E in H; injection H as -> -> end.
      match goal with H : dual_run ops _ l d' |- _ => destruct (IH _ _ _ HR0 Hi0 H) as (e' & HR' & Hi' & Hv) end.
      { intros l1 o1 x1 l2 v -> Hrun1. eapply (ok ((o, x) :: l1)); [reflexivity|]. econstructor; eassumption. }
      exists e'. split; [assumption|]. split; [assumption|]. econstructor; eassumption.
  Qed.
End L.

(** One iterator over [contents parser ++ chunk]: each in-range operation succeeds and answers as on the plain list;
    giving the buffer back stores the first [cap] bytes of what is left. *)
Theorem two_buffer_view :
  forall (T : Type) (ops : buf_ops T) cap inv contents, Lawful ops cap inv contents -> cap <= usize_max ->
  forall parser chunk, inv parser -> lenN (contents parser) + lenN chunk <= isize_max ->
  exists view : dual (T:=T) -> list byte -> Prop,
    view (d_create parser chunk) (contents parser ++ chunk) /\
    (forall d v o, view d v -> in_range v o ->
       exists x d' v', dual_step ops d o = Ret (x, d') /\ view_step cap v o x v' /\ view d' v') /\
    (forall d v, view d v ->
       exists parser', d_drop ops d = Ret parser' /\ inv parser' /\ contents parser' = takeN cap v).
Proof.
  intros T ops cap inv contents L Hcap t c Hi Hl.
  exists (fun d v => exists e, RD inv contents d e /\ dinv cap e /\ v = dview e). split; [|split].
  - destruct (q_d_create cap (contents t) c (law_fits _ _ _ _ L t Hi) Hcap Hl) as (H1 & H2 & _).
    exists (d_create (contents t) c). split; [|auto]. repeat split. assumption.
  - intros d v o (e & HR & He & ->) Hr. destruct (view_step_sim ops cap inv contents L d e o HR He Hr) as (x & d' & e' & E & HR' & Hi' & Hs).
    exists x, d', (dview e'). split; [assumption|]. split; [assumption|]. eauto.
  - intros d v (e & HR & He & ->). pose proof (q_d_drop cap e He) as E.
    destruct (sim_d_drop ops cap inv contents L d e HR _ E) as (t' & E' & Hi' & Hc'). eauto.
Qed.

(** In terms of whole operation sequences: whatever the in-range operations, the outputs are those of the plain list. *)
Theorem two_buffer_view_runs :
  forall (T : Type) (ops : buf_ops T) cap inv contents, Lawful ops cap inv contents -> cap <= usize_max ->
  forall parser chunk l d', inv parser -> lenN (contents parser) + lenN chunk <= isize_max ->
    dual_run ops (d_create parser chunk) l d' ->
    (forall l1 o x l2 v, l = l1 ++ (o, x) :: l2 -> view_run cap (contents parser ++ chunk) l1 v -> in_range v o) ->
    exists v parser', view_run cap (contents parser ++ chunk) l v /\
      d_drop ops d' = Ret parser' /\ inv parser' /\ contents parser' = takeN cap v.
Proof.
  intros T ops cap inv contents L Hcap t c l d' Hi Hl Hrun ok.
  destruct (q_d_create cap (contents t) c (law_fits _ _ _ _ L t Hi) Hcap Hl) as (H1 & H2 & _).
  assert (RD inv contents (d_create t c) (d_create (contents t) c)) as HR by (repeat split; assumption).
  rewrite <- H2 in ok.
  destruct (view_run_sim ops cap inv contents L l _ _ _ HR H1 Hrun ok) as (e' & HR' & Hi' & Hv).
  pose proof (q_d_drop cap e' Hi') as E.
  destruct (sim_d_drop ops cap inv contents L d' e' HR' _ E) as (t' & E' & Hi2 & Hc').
  exists (dview e'), t'. rewrite <- H2. auto.
Qed.
Example two_buffer_view_ex :
  let d0 := d_create (mk_flb [x01; x02; x00; x00] 2) [x03; x04; x05; x06] in
  match dual_step flb_ops d0 (VSkip 1) with
  | Ret (_, d1) =>
      ret_map fst (dual_step flb_ops d1 (VPeek 0 3)) = Ret (WBytes [x02; x03; x04]) /\
      ret_map fst (dual_step flb_ops d1 (VIndex 1)) = Ret (WByte x03) /\
      ret_map fst (dual_step flb_ops d1 (VTake 5)) = Ret (WOutOfMemory 5) /\
      match dual_step flb_ops d1 (VTake 3) with
      | Ret (x, d2) => x = WBytes [x02; x03; x04] /\ ret_map flb_contents (d_drop flb_ops d2) = Ret [x05; x06]
      | _ => False
      end
  | _ => False
  end.
Proof. vm_compute. repeat split. Qed.

Print Assumptions fixed_linear_buffer_is_fifo.
Print Assumptions fifo_capacity.
Print Assumptions fixed_linear_buffer_index.
Print Assumptions fixed_linear_buffer_index_refuted.
Print Assumptions two_buffer_view.
Print Assumptions two_buffer_view_runs.
