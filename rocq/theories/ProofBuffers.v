(** * [Vec<u8>] and [FixedLinearBuffer] meet the contract (proof support) *)
From Coq Require Import List NArith ZArith Bool Lia ZifyBool ZifyNat ZifyN.
From Verif Require Import Base BaseFacts Buffers SpecBuffer.
Import ListNotations.
Open Scope N_scope.

Ltac numbers := unfold usize_max, isize_max in *; lia.

Definition vec_inv (v : list byte) : Prop := lenN v <= isize_max.

Lemma vec_lawful : Lawful vec_ops usize_max vec_inv (fun v => v).
Proof.
  constructor; unfold vec_inv; cbn [vec_ops b_len b_max_cap b_clear b_extend b_drain b_find b_index b_range].
  - reflexivity.
  - reflexivity.
  - intros. numbers.
  - intros. exists []. rewrite lenN_nil. repeat split. numbers.
  - intros t l Hi Hs. unfold vec_extend. destruct (N.leb_spec (lenN t + lenN l) isize_max); [|lia].
    exists (t ++ l). split; [do 2 f_equal; numbers|]. split; [rewrite lenN_app; lia|].
    rewrite takeN_all by numbers. reflexivity.
  - intros t n Hi Hn. unfold vec_drain. destruct (N.leb_spec n (lenN t)); [|lia].
    eexists. split; [reflexivity|]. rewrite lenN_dropN. split; [lia|reflexivity].
  - reflexivity.
  - reflexivity.
  - reflexivity.
Qed.

(** capacity = length of the backing slice *)
Definition flb_inv (cap : N) (f : flb) : Prop :=
  lenN (flb_buffer f) = cap /\ flb_len f <= cap /\ cap <= isize_max.
Definition flb_contents (f : flb) : list byte := takeN (flb_len f) (flb_buffer f).

Lemma flb_contents_len cap f : flb_inv cap f -> lenN (flb_contents f) = flb_len f.
Proof. intros (H1 & H2 & H3). unfold flb_contents. rewrite lenN_takeN. lia. Qed.

Lemma first_index_shift l x : forall k, first_index l x (k + 1) =
  match first_index l x k with Some j => Some (j + 1) | None => None end.
Proof.
  induction l as [|y l IH]; intros k; cbn [first_index]; [reflexivity|].
  destruct (byte_eqb y x); [reflexivity|]. apply IH.
Qed.

Lemma position_first_index l x : position l x = first_index l x 0.
Proof.
  induction l as [|y l IH]; cbn [position first_index]; [reflexivity|].
  destruct (byte_eqb y x); [reflexivity|]. rewrite first_index_shift, IH. reflexivity.
Qed.

Lemma find_default_position (idx : N -> res byte) (v : list byte) :
  (forall i, i < lenN v -> idx i = get v i) ->
  find_range (fun i => let! y := idx i in Ret (byte_eqb y xb5)) 0 0 = Ret None ->
  forall x, find_range (fun i => let! y := idx i in Ret (byte_eqb y x)) 0 (length v) = Ret (position v x).
Proof.
  intros H _ x.
  assert (forall w pre, v = pre ++ w ->
     find_range (fun i => let! y := idx i in Ret (byte_eqb y x)) (lenN pre) (length w) =
     Ret (first_index w x (lenN pre))) as G.
  { induction w as [|y w IH]; intros pre E; [reflexivity|]. cbn [length find_range first_index].
    rewrite H by (rewrite E, lenN_app, lenN_cons; lia). subst v.
    rewrite get_nthN by (rewrite lenN_app, lenN_cons; lia). cbn [bind].
    rewrite nthN_app_r by lia. rewrite N.sub_diag. change (nthN (y :: w) 0) with y.
    destruct (byte_eqb y x); [reflexivity|].
    replace (lenN pre + 1) with (lenN (pre ++ [y])) by (rewrite lenN_app, lenN_cons, lenN_nil; lia).
    rewrite IH; [reflexivity|]. now rewrite <- app_assoc. }
  rewrite position_first_index. apply (G v []). reflexivity.
Qed.

Lemma flb_index_ok cap f i : flb_inv cap f -> i < flb_len f -> flb_index f i = get (flb_contents f) i.
Proof.
  intros Hi Hlt. pose proof (flb_contents_len _ _ Hi) as Hl. destruct Hi as (H1 & H2 & H3). unfold flb_index.
  rewrite !get_nthN by (rewrite ?Hl; lia). unfold flb_contents. rewrite nthN_takeN by lia. reflexivity.
Qed.

Lemma flb_find_ok cap f x : flb_inv cap f -> b_find flb_ops f x = Ret (position (flb_contents f) x).
Proof.
  intros Hi. pose proof (flb_contents_len _ _ Hi) as Hl. cbn [flb_ops b_find]. unfold b_find_default.
  replace (N.to_nat (flb_len f)) with (length (flb_contents f)) by (unfold lenN in Hl; lia).
  apply find_default_position; [|reflexivity]. intros i Hlt. eapply flb_index_ok; eauto. lia.
Qed.

Lemma flb_extend_ok cap f l : flb_inv cap f ->
  exists f', flb_extend f l = Ret (f', lenN l - (cap - flb_len f)) /\ flb_inv cap f' /\
    flb_contents f' = takeN cap (flb_contents f ++ l).
Proof.
  intros Hi. pose proof (flb_contents_len _ _ Hi) as Hl. destruct Hi as (H1 & H2 & H3).
  unfold flb_extend. rewrite H1.
  rewrite usub_ok by lia. cbn [bind]. rewrite usub_ok by lia. cbn [bind].
  rewrite uadd_ok by numbers. cbn [bind]. rewrite slice_ok by lia. cbn [bind].
  rewrite slice_ok by lia. cbn [bind]. rewrite dropN_0, N.sub_0_r.
  rewrite !lenN_takeN, lenN_dropN, H1.
  match goal with |- context [if ?x =? ?y then _ else _] => destruct (N.eqb_spec x y); [|lia] end.
  eexists. split; [f_equal; f_equal; lia|].
  assert (lenN (takeN (flb_len f) (flb_buffer f) ++ takeN (N.min (lenN l) (cap - flb_len f)) l) =
          flb_len f + N.min (lenN l) (cap - flb_len f)) as Hlen.
  { rewrite lenN_app, !lenN_takeN. lia. }
  split.
  - unfold flb_inv. cbn [flb_buffer flb_len]. rewrite app_assoc, lenN_app, Hlen, lenN_dropN. lia.
  - unfold flb_contents at 1. cbn [flb_buffer flb_len]. rewrite app_assoc.
    rewrite takeN_app_exact by now rewrite Hlen.
    rewrite takeN_app_ge by lia. unfold flb_contents. f_equal.
    destruct (N.leb_spec (lenN l) (cap - flb_len f)).
    + rewrite !takeN_all; rewrite ?lenN_takeN; lia || reflexivity.
    + f_equal. rewrite lenN_takeN. lia.
Qed.

Lemma flb_drain_ok cap f n : flb_inv cap f ->
  exists f', flb_drain f n = Ret f' /\ flb_inv cap f' /\ flb_contents f' = dropN n (flb_contents f).
Proof.
  intros Hi. pose proof (flb_contents_len _ _ Hi) as Hl. destruct Hi as (H1 & H2 & H3). unfold flb_drain.
  destruct (N.leb_spec (flb_len f) n).
  - eexists. split; [reflexivity|]. split.
    + unfold flb_inv. cbn [flb_buffer flb_len]. lia.
    + rewrite dropN_all by lia. reflexivity.
  - rewrite usub_ok by lia. cbn [bind].
    match goal with |- context [if ?x <=? ?y then _ else _] => destruct (N.leb_spec x y); [|lia] end.
    eexists. split; [reflexivity|]. split.
    + unfold flb_inv. cbn [flb_buffer flb_len]. rewrite lenN_app, lenN_takeN, !lenN_dropN. lia.
    + unfold flb_contents at 1. cbn [flb_buffer flb_len].
      rewrite takeN_app_exact by (rewrite lenN_takeN, lenN_dropN; lia).
      unfold flb_contents. rewrite dropN_takeN. reflexivity.
Qed.

Lemma flb_range_ok cap f s e : flb_inv cap f -> flb_range f s e = slice (flb_contents f) s e.
Proof.
  intros Hi. pose proof (flb_contents_len _ _ Hi) as Hl. destruct Hi as (H1 & H2 & H3). unfold flb_range.
  destruct (N.ltb_spec (flb_len f) e).
  - unfold slice. rewrite Hl. destruct (N.leb_spec s e), (N.leb_spec e (flb_len f)); cbn; lia || reflexivity.
  - unfold slice. rewrite Hl, H1. destruct (N.leb_spec s e); cbn [andb]; [|reflexivity].
    destruct (N.leb_spec e cap), (N.leb_spec e (flb_len f)); try lia.
    unfold flb_contents. rewrite dropN_takeN, takeN_takeN. do 2 f_equal. lia.
Qed.

Lemma flb_lawful cap : Lawful flb_ops cap (flb_inv cap) flb_contents.
Proof.
  constructor.
  - intros t Hi. cbn. now rewrite (flb_contents_len cap).
  - intros t Hi. cbn. apply Hi.
  - intros t Hi. rewrite (flb_contents_len cap) by assumption. apply Hi.
  - intros t (H1 & H2 & H3). eexists. split; [reflexivity|]. split; [|reflexivity].
    unfold flb_inv. cbn. lia.
  - intros t l Hi Hs. destruct (flb_extend_ok cap t l Hi) as (f' & E & Hi' & Hc).
    rewrite (flb_contents_len cap) by assumption.
    exists f'. split; [cbn [flb_ops b_extend]; rewrite E; do 2 f_equal; lia|].
    split; [assumption|]. rewrite Hc, takeN_app_ge.
    + now rewrite (flb_contents_len cap) by assumption.
    + rewrite (flb_contents_len cap) by assumption. apply Hi.
  - intros t n Hi Hn. apply flb_drain_ok. assumption.
  - intros. now apply flb_find_ok with (cap := cap).
  - intros t i Hi Hlt. cbn [flb_ops b_index]. eapply flb_index_ok; eauto.
    now rewrite (flb_contents_len cap) in Hlt by assumption.
  - intros t s e Hi Hs He. cbn [flb_ops b_range]. now apply flb_range_ok with (cap := cap).
Qed.

(** ** operation sequences *)
Lemma flb_run cap os : forall f, flb_inv cap f ->
  fst (impl_run flb_ops f os) = fst (fifo_run cap (flb_contents f) os) /\
  match snd (impl_run flb_ops f os), snd (fifo_run cap (flb_contents f) os) with
  | Ret f', Some v => flb_inv cap f' /\ flb_contents f' = v
  | Panic, None => True
  | _, _ => False
  end.
Proof.
  induction os as [|o os IH]; intros f Hi; cbn [impl_run fifo_run]; [cbn; auto|].
  pose proof (flb_contents_len _ _ Hi) as Hl.
  assert (match impl_step flb_ops f o, fifo_step cap (flb_contents f) o with
          | Ret (x, f'), Some (y, v) => x = y /\ flb_inv cap f' /\ flb_contents f' = v
          | Panic, None => True
          | _, _ => False end) as Hstep.
  { destruct o; cbn [impl_step fifo_step].
    - destruct (flb_extend_ok cap f l Hi) as (f' & E & Hi' & Hc).
      change (b_extend flb_ops f l) with (flb_extend f l). rewrite E. cbn [bind]. rewrite Hl. auto.
    - destruct (flb_drain_ok cap f n Hi) as (f' & E & Hi' & Hc).
      change (b_drain flb_ops f n) with (flb_drain f n). rewrite E. cbn [bind]. auto.
    - cbn. split; [reflexivity|]. split; [|reflexivity]. destruct Hi as (H1 & H2 & H3). unfold flb_inv. cbn. lia.
    - rewrite (flb_find_ok cap) by assumption. cbn [bind]. rewrite position_first_index. auto.
    - cbn. rewrite Hl. auto.
    - change (b_range flb_ops f s e) with (flb_range f s e). rewrite (flb_range_ok cap) by assumption.
      unfold slice. destruct ((s <=? e) && (e <=? lenN (flb_contents f))); cbn; auto. }
  destruct (impl_step flb_ops f o) as [[x f']| |], (fifo_step cap (flb_contents f) o) as [[y v]|]; try tauto.
  destruct Hstep as (-> & Hi' & <-). specialize (IH f' Hi').
  destruct (impl_run flb_ops f' os), (fifo_run cap (flb_contents f') os). cbn [fst snd] in *.
  destruct IH as [-> IH]. auto.
Qed.
