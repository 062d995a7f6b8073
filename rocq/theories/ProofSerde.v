(** * Proofs about Serde.v *)
From Coq Require Import String List NArith ZArith Bool Lia.
From Verif Require Import Base PackDesc Floats Data Serde SpecSerde.
Import ListNotations.
Open Scope N_scope.
Open Scope list_scope.

Section Induction.
  Context (P : ty -> Prop).
  Context (Hb : P TBool) (Hi : forall s, P (TInt s)) (Hr : forall f, P (TReal f))
    (Hs : forall fs, Forall (fun f => P (snd f)) fs -> P (TStruct fs)) (Hn : forall t, P t -> P (TNew t))
    (He : forall vs, Forall (fun v => match snd v with Some t => P t | None => True end) vs -> P (TEnum vs))
    (Hc : forall vs, P (TCoded vs)).
  Fixpoint ty_rect' (t : ty) : P t.
  Proof.
    destruct t as [ |s|f|fs|t|vs|vs].
    - exact Hb.
    - apply Hi.
    - apply Hr.
    - apply Hs. induction fs as [|[n t] fs IH]; constructor; [apply ty_rect'|exact IH].
    - apply Hn, ty_rect'.
    - apply He. induction vs as [|[n [t|]] vs IH]; constructor; [apply ty_rect'|exact IH|exact Logic.I|exact IH].
    - apply Hc.
  Qed.
End Induction.

(** ** Association lists *)

Lemma assoc_in {A} (l : list (string * A)) n a : NoDup (map fst l) -> In (n, a) l -> assoc n l = Some a.
Proof.
  induction l as [|[m b] l IH]; intros D H; [destruct H|]. cbn [map fst] in D. apply NoDup_cons_iff in D as [D1 D2]. cbn [assoc].
  destruct H as [H|H].
  - injection H as -> ->. rewrite String.eqb_refl. reflexivity.
  - destruct (String.eqb_spec m n) as [->|_]; [exfalso; apply D1, in_map_iff; exists (n, a); split; [reflexivity|exact H]|]. apply IH; assumption.
Qed.
Lemma assoc_some {A} (l : list (string * A)) n a : assoc n l = Some a -> In (n, a) l.
Proof.
  induction l as [|[m b] l IH]; cbn [assoc]; [discriminate|]. destruct (String.eqb_spec m n) as [->|_].
  - intros H. injection H as ->. left. reflexivity.
  - intros H. right. apply IH, H.
Qed.
Lemma assoc_map {A B} (f : string -> A -> B) (l : list (string * A)) n :
  assoc n (map (fun '(m, a) => (m, f m a)) l) = option_map (f n) (assoc n l).
Proof.
  induction l as [|[m b] l IH]; [reflexivity|]. cbn [assoc map]. destruct (String.eqb_spec m n) as [->|_]; [reflexivity|exact IH].
Qed.
Lemma assoc_ser vs n :
  assoc n (map (fun '(n, o) => (n, match o with Some t => Some (ser t) | None => None end)) vs) =
  option_map (fun o => match o with Some t => Some (ser t) | None => None end) (assoc n vs).
Proof. apply (assoc_map (fun _ o => match o with Some t => Some (ser t) | None => None end)). Qed.
Lemma assoc_de vs n :
  assoc n (map (fun '(n, o) => (n, match o with Some t => Some (de t) | None => None end)) vs) =
  option_map (fun o => match o with Some t => Some (de t) | None => None end) (assoc n vs).
Proof. apply (assoc_map (fun _ o => match o with Some t => Some (de t) | None => None end)). Qed.

(** ** Fields from a map *)

Definition reader (rs : list (string * (data -> option value))) (n : string) : option (data -> option value) := assoc n rs.

(** The state of the fields after the entries [l] *)
Definition slot_ok (l : list (string * data)) (r : string * (data -> option value)) (s : option value) : Prop :=
  match s with
  | None => under (fst r) l = []
  | Some v => exists d, under (fst r) l = [d] /\ snd r d = Some v
  end.

Lemma under_app n l l' : under n (l ++ l') = under n l ++ under n l'.
Proof. unfold under. rewrite filter_app, map_app. reflexivity. Qed.
Lemma under_one n k d : under n [(k, d)] = if String.eqb k n then [d] else [].
Proof. unfold under. cbn. destruct (String.eqb k n); reflexivity. Qed.

Lemma slot_other l k d rs slots :
  ~ In k (map fst rs) -> Forall2 (slot_ok l) rs slots -> Forall2 (slot_ok (l ++ [(k, d)])) rs slots.
Proof.
  intros N F. induction F as [|r s rs slots H F IH]; [constructor|]. cbn [map fst] in N.
  constructor.
  - unfold slot_ok in *. rewrite under_app, under_one. destruct (String.eqb_spec k (fst r)) as [->|_].
    + exfalso. apply N. left. reflexivity.
    + rewrite app_nil_r. exact H.
  - apply IH. intros I. apply N. right. exact I.
Qed.

Lemma place_ok rs l k d : NoDup (map fst rs) ->
  forall slots slots', Forall2 (slot_ok l) rs slots -> place rs slots k d = Some slots' -> Forall2 (slot_ok (l ++ [(k, d)])) rs slots'.
Proof.
  intros ND slots slots' F. revert slots'. induction F as [|[n r] s rs slots H F IH]; intros slots' E; cbn [place] in E.
  - injection E as <-. constructor.
  - cbn [map fst] in ND. apply NoDup_cons_iff in ND as [N ND]. destruct (String.eqb_spec n k) as [->|NE].
    + destruct s as [v|]; [discriminate|]. destruct (r d) as [v|] eqn:Er; [|discriminate]. injection E as <-.
      constructor; [|apply slot_other; assumption]. unfold slot_ok in *. cbn [fst snd] in *. exists d. rewrite under_app, under_one, H, String.eqb_refl.
      split; [reflexivity|exact Er].
    + destruct (place rs slots k d) as [sl|] eqn:Ep; [|discriminate]. injection E as <-. constructor; [|apply IH; [exact ND|reflexivity]].
      unfold slot_ok in *. cbn [fst snd] in *. rewrite under_app, under_one. destruct (String.eqb_spec k n) as [->|_]; [congruence|].
      rewrite app_nil_r. exact H.
Qed.

Lemma place_all_ok rs : NoDup (map fst rs) ->
  forall l l0 slots slots', Forall2 (slot_ok l0) rs slots -> place_all rs slots l = Some slots' -> Forall2 (slot_ok (l0 ++ l)) rs slots'.
Proof.
  intros ND. induction l as [|[k d] l IH]; intros l0 slots slots' F E; cbn [place_all] in E.
  - injection E as <-. rewrite app_nil_r. exact F.
  - destruct (place rs slots k d) as [s1|] eqn:Ep; [|discriminate]. replace (l0 ++ (k, d) :: l) with ((l0 ++ [(k, d)]) ++ l) by (rewrite <- app_assoc; reflexivity).
    apply (IH _ s1); [apply (place_ok _ _ _ _ ND slots); assumption|exact E].
Qed.

Lemma filled_some slots vs : filled slots = Some vs <-> slots = map Some vs.
Proof.
  split.
  - revert vs. induction slots as [|[v|] slots IH]; intros vs H; cbn in H; try discriminate.
    + injection H as <-. reflexivity.
    + destruct (filled slots) as [l|]; [|discriminate]. injection H as <-. cbn. f_equal. apply IH. reflexivity.
  - intros ->. induction vs as [|v vs IH]; [reflexivity|]. cbn. rewrite IH. reflexivity.
Qed.

Lemma Forall2_map_r {A B C} (R : A -> C -> Prop) (f : B -> C) l m : Forall2 R l (map f m) <-> Forall2 (fun a b => R a (f b)) l m.
Proof.
  split.
  - revert l. induction m as [|b m IH]; intros l H; inversion H; subst; constructor; auto.
  - induction 1; constructor; auto.
Qed.
Lemma Forall2_map_l {A B C} (R : C -> B -> Prop) (f : A -> C) l m : Forall2 R (map f l) m <-> Forall2 (fun a b => R (f a) b) l m.
Proof.
  split.
  - revert m. induction l as [|b l IH]; intros m H; inversion H; subst; constructor; auto.
  - induction 1; constructor; auto.
Qed.
Lemma Forall2_imp {A B} (R S : A -> B -> Prop) l m : (forall a b, In a l -> R a b -> S a b) -> Forall2 R l m -> Forall2 S l m.
Proof. intros H F. induction F; constructor; [apply H; [left; reflexivity|assumption]|apply IHF; intros; apply H; [right|]; assumption]. Qed.

(** ** A struct: each field exactly once *)

(** What remains to come for each field *)
Definition wants (l : list (string * data)) (slots : list (option value)) (rs : list (string * (data -> option value))) (vs : list value) : Prop :=
  Forall2 (fun rs v => match snd rs with
                       | Some w => w = v /\ under (fst (fst rs)) l = []
                       | None => exists d, under (fst (fst rs)) l = [d] /\ snd (fst rs) d = Some v
                       end) (combine rs slots) vs.

Lemma place_wants rs : NoDup (map fst rs) ->
  forall slots vs k d l, length slots = length rs -> wants ((k, d) :: l) slots rs vs ->
  exists slots', place rs slots k d = Some slots' /\ length slots' = length rs /\ wants l slots' rs vs.
Proof.
  assert (Hu : forall n k d l, under n ((k, d) :: l) = if String.eqb k n then d :: under n l else under n l).
  { intros n k d l. unfold under. cbn. destruct (String.eqb k n); reflexivity. }
  intros ND. induction rs as [|[n r] rs IH]; intros [|s slots] vs k d l L W; try discriminate L.
  - exists []. split; [reflexivity|]. split; [reflexivity|]. inversion W. constructor.
  - unfold wants in W. cbn [combine] in W. inversion W as [|? v ? vs' H F]; subst. cbn [fst snd] in H.
    cbn [map fst] in ND. apply NoDup_cons_iff in ND as [N ND]. cbn [place].
    destruct (String.eqb_spec n k) as [->|NE].
    + rewrite Hu, String.eqb_refl in H. destruct s as [w|]; [destruct H as [_ H]; discriminate|].
      destruct H as (d' & E & R). injection E as <- E. rewrite R. exists (Some v :: slots). split; [reflexivity|]. split; [exact L|].
      unfold wants. cbn [combine]. constructor; [cbn [fst snd]; split; [reflexivity|exact E]|].
      apply (Forall2_imp _ _ _ _) with (2 := F). intros [[m q] o] v0 I0 H0. cbn [fst snd] in *. rewrite Hu in H0.
      destruct (String.eqb_spec k m) as [->|_]; [|exact H0]. exfalso. apply N. apply in_combine_l in I0. apply in_map_iff. exists (m, q). split; [reflexivity|exact I0].
    + destruct (IH ND slots vs' k d l (eq_add_S _ _ L) F) as (sl & E & L' & W'). rewrite E. exists (s :: sl). split; [reflexivity|]. split; [cbn; f_equal; exact L'|].
      unfold wants. cbn [combine]. constructor; [|exact W']. cbn [fst snd]. rewrite Hu in H.
      destruct (String.eqb_spec k n) as [->|_]; [congruence|]. exact H.
Qed.

Lemma place_all_wants rs : NoDup (map fst rs) ->
  forall l slots vs, length slots = length rs -> wants l slots rs vs -> place_all rs slots l = Some (map Some vs).
Proof.
  intros ND. induction l as [|[k d] l IH]; intros slots vs L W; cbn [place_all].
  - f_equal. clear ND. revert slots vs L W. induction rs as [|r rs IH]; intros [|s slots] vs L W; try discriminate L; inversion W as [|? v ? vs' H F]; subst; [reflexivity|].
    cbn [combine fst snd] in H. cbn [map]. f_equal; [|apply IH; [injection L as L; exact L|exact F]].
    destruct s as [w|]; [destruct H as [-> _]; reflexivity|]. destruct H as (d & E & _). discriminate E.
  - destruct (place_wants rs ND slots vs k d l L W) as (s1 & E & L1 & W1). rewrite E. apply IH; assumption.
Qed.

Lemma wants_start rs vs l :
  Forall2 (fun r v => exists d, under (fst r) l = [d] /\ snd r d = Some v) rs vs -> wants l (map (fun _ => @None value) rs) rs vs.
Proof.
  intros F. induction F as [|r v rs vs H F IH]; [constructor|]. constructor; [exact H|exact IH].
Qed.

Lemma names_de (fs : list (string * ty)) : map fst (map (fun '(n, t) => (n, de t)) fs) = map fst fs.
Proof. rewrite map_map. apply map_ext. intros [n t]. reflexivity. Qed.

Lemma de_struct_map fs l vs : NoDup (map fst fs) ->
  de (TStruct fs) (DMap l) = Some (VStruct vs) <->
  Forall2 (fun f v => exists d, under (fst f) l = [d] /\ de (snd f) d = Some v) fs vs.
Proof.
  intros ND. cbn [de]. set (rs := map (fun '(n, t) => (n, de t)) fs).
  assert (NR : NoDup (map fst rs)) by (unfold rs; rewrite names_de; exact ND).
  assert (Q : Forall2 (fun f v => exists d, under (fst f) l = [d] /\ de (snd f) d = Some v) fs vs <->
              Forall2 (fun r v => exists d, under (fst r) l = [d] /\ snd r d = Some v) rs vs).
  { unfold rs. rewrite Forall2_map_l. split; apply Forall2_imp; intros [n t] v _ H; exact H. }
  rewrite Q. split.
  - destruct (place_all rs (map (fun _ => None) rs) l) as [slots|] eqn:E; [|discriminate].
    intros H. destruct (filled slots) as [vs'|] eqn:Ef; [|discriminate]. injection H as ->. apply filled_some in Ef as ->.
    apply (place_all_ok rs NR l []) in E.
    + rewrite app_nil_l in E. apply (Forall2_map_r _ Some) in E. apply Forall2_imp with (2 := E). intros r v _ H. exact H.
    + clear. induction rs; constructor; [reflexivity|assumption].
  - intros F. rewrite (place_all_wants rs NR l _ vs); [|rewrite map_length; reflexivity|apply wants_start, F].
    replace (filled (map Some vs)) with (Some vs) by (symmetry; apply filled_some; reflexivity). reflexivity.
Qed.
Lemma de_struct_shape fs d v : de (TStruct fs) d = Some v -> exists vs, v = VStruct vs.
Proof.
  cbn [de]. destruct d; try discriminate.
  - destruct (in_order _ l) as [vs|]; [|discriminate]. intros H. injection H as <-. eexists. reflexivity.
  - destruct (place_all _ _ l) as [sl|]; [|discriminate]. destruct (filled sl) as [vs|]; [|discriminate]. intros H. injection H as <-. eexists. reflexivity.
Qed.
Lemma de_struct_seq fs l vs :
  de (TStruct fs) (DSeq l) = Some (VStruct vs) <->
  length l = length fs /\ Forall2 (fun p v => de (fst p) (snd p) = Some v) (combine (map snd fs) l) vs.
Proof.
  cbn [de]. revert l vs. induction fs as [|[n t] fs IH]; intros [|d l] vs; cbn [map in_order snd combine length].
  - split; [intros H; injection H as <-; split; [reflexivity|constructor]|]. intros [_ F]. inversion F. reflexivity.
  - split; [discriminate|]. intros [L _]. discriminate L.
  - split; [discriminate|]. intros [L _]. discriminate L.
  - specialize (IH l). destruct (de t d) as [v|] eqn:Ev.
    + destruct (in_order _ l) as [vs'|] eqn:Ei.
      * split.
        -- intros H. injection H as <-. destruct (proj1 (IH vs') eq_refl) as [L F]. split; [f_equal; exact L|]. constructor; assumption.
        -- intros [L F]. inversion F as [|? v2 ? vs2 E2 F2]; subst. cbn [fst snd] in E2. rewrite Ev in E2. injection E2 as <-.
           injection L as L. pose proof (proj2 (IH vs2) (conj L F2)) as Q. injection Q as ->. reflexivity.
      * split; [discriminate|]. intros [L F]. inversion F as [|? v2 ? vs2 E2 F2]; subst. injection L as L.
        destruct (IH vs2) as [_ Q]. discriminate (Q (conj L F2)).
    + split; [discriminate|]. intros [L F]. inversion F as [|? v2 ? vs2 E2 F2]; subst. cbn [fst snd] in E2. congruence.
Qed.

(** ** Serialized and read back *)

Lemma under_ser fs vs ds : NoDup (map fst fs) ->
  write_fields (map (fun '(n, t) => (n, ser t)) fs) vs = Some ds ->
  map fst ds = map fst fs.
Proof.
  intros _. revert vs ds. induction fs as [|[n t] fs IH]; intros [|v vs] ds E; cbn in E; try discriminate; [injection E as <-; reflexivity|].
  destruct (ser t v); [|discriminate]. destruct (write_fields _ vs) as [l|] eqn:El; [|discriminate]. injection E as <-. cbn. f_equal. apply (IH vs). exact El.
Qed.
Lemma under_nodup l n d : NoDup (map fst l) -> In (n, d) l -> under n l = [d].
Proof.
  induction l as [|[m e] l IH]; intros ND H; [destruct H|]. cbn [map fst] in ND. apply NoDup_cons_iff in ND as [N ND].
  unfold under. cbn [filter fst]. destruct H as [H|H].
  - injection H as -> ->. rewrite String.eqb_refl. cbn [map snd]. f_equal. fold (under n l).
    clear IH ND. induction l as [|[m e] l IH]; [reflexivity|]. unfold under. cbn [filter fst]. destruct (String.eqb_spec m n) as [->|_]; [exfalso; apply N; left; reflexivity|].
    apply IH. intros I. apply N. right. exact I.
  - destruct (String.eqb_spec m n) as [->|_]; [exfalso; apply N, in_map_iff; exists (n, d); split; [reflexivity|exact H]|]. apply IH; assumption.
Qed.

Lemma ser_typed t : distinct t -> forall v, typed t v -> exists d, ser t v = Some d.
Proof.
  induction t using ty_rect'; intros D v T; inversion T; subst; try (eexists; reflexivity).
  - inversion D as [| | |? ND Dt| | |]; subst. cbn [ser].
    assert (Hw : exists l, write_fields (map (fun '(n, t) => (n, ser t)) fs) vs = Some l).
    { clear ND T D. revert H Dt. induction H1 as [|[n t] w fs vs Hv F IH]; intros HI Dt; [exists []; reflexivity|].
      inversion HI as [|? ? P1 P2]; subst. inversion Dt as [|? ? Q1 Q2]; subst. cbn [snd] in *.
      destruct (P1 Q1 w Hv) as [d Ed]. destruct (IH P2 Q2) as [l El]. exists ((n, d) :: l). cbn [map write_fields]. rewrite Ed, El. reflexivity. }
    destruct Hw as [l ->]. eexists. reflexivity.
  - inversion D; subst. cbn [ser]. apply IHt; assumption.
  - inversion D as [| | | | |? ND Dv|]; subst. cbn [ser]. rewrite assoc_ser, (assoc_in _ _ _ ND H1). eexists. reflexivity.
  - inversion D as [| | | | |? ND Dv|]; subst. cbn [ser]. rewrite assoc_ser, (assoc_in _ _ _ ND H1). cbn [option_map].
    rewrite Forall_forall in H. specialize (H _ H1). specialize (Dv _ _ H1). cbn [snd] in H. match goal with K : typed t v0 |- _ => destruct (H Dv v0 K) as [d ->] end. eexists. reflexivity.
  - inversion D as [| | | | | |? ND]; subst. cbn [ser]. rewrite (assoc_in _ _ _ ND H0). eexists. reflexivity.
Qed.

Lemma de_ser t : distinct t -> both_derived t -> forall v d, typed t v -> ser t v = Some d -> de t d = Some v.
Proof.
  induction t using ty_rect'; intros D B v d T E; inversion T; subst; cbn [ser] in E.
  - injection E as <-. reflexivity.
  - injection E as <-. cbn. destruct H0. rewrite (proj2 (Z.leb_le _ _) H), (proj2 (Z.leb_le _ _) H0). reflexivity.
  - injection E as <-. destruct f; reflexivity.
  - destruct (write_fields _ vs) as [l|] eqn:El; [|discriminate]. injection E as <-.
    inversion D as [| | |? ND Dt| | |]; subst. inversion B as [| | |? Bt| |]; subst. apply de_struct_map; [exact ND|].
    pose proof (under_ser fs vs l ND El) as Nl.
    assert (NL : NoDup (map fst l)) by (rewrite Nl; exact ND).
    assert (G : forall l', (forall e, In e l -> In e l') -> NoDup (map fst l') ->
                Forall2 (fun f v => exists d, under (fst f) l' = [d] /\ de (snd f) d = Some v) fs vs).
    { clear ND T D B NL Nl. revert l El H Dt Bt. induction H1 as [|[n t] w fs vs Hv F IH]; intros l El HI Dt Bt l' Sub N'; [constructor|].
      inversion HI as [|? ? P1 P2]; subst. inversion Dt as [|? ? Q1 Q2]; subst. inversion Bt as [|? ? R1 R2]; subst. cbn [snd fst] in *.
      cbn [map write_fields] in El. destruct (ser t w) as [d|] eqn:Ed; [|discriminate]. destruct (write_fields _ vs) as [l1|] eqn:E1; [|discriminate]. injection El as <-.
      constructor.
      - exists d. split; [|apply (P1 Q1 R1 w); assumption]. apply under_nodup; [exact N'|]. apply Sub. left. reflexivity.
      - apply (IH l1 eq_refl P2 Q2 R2); [|exact N']. intros e I. apply Sub. right. exact I. }
    apply (G l); [intros e I; exact I|exact NL].
  - inversion D; subst. inversion B; subst. cbn [de]. rewrite (IHt ltac:(assumption) ltac:(assumption) v0 d ltac:(assumption) E). reflexivity.
  - inversion D as [| | | | |? ND Dv|]; subst. rewrite assoc_ser, (assoc_in _ _ _ ND H1) in E. cbn in E. injection E as <-.
    cbn [de]. rewrite assoc_de, (assoc_in _ _ _ ND H1). reflexivity.
  - inversion D as [| | | | |? ND Dv|]; subst. inversion B as [| | | | |? Bv]; subst. rewrite assoc_ser, (assoc_in _ _ _ ND H1) in E. cbn [option_map] in E.
    destruct (ser t v0) as [d0|] eqn:E0; [|discriminate]. injection E as <-. cbn [de]. rewrite assoc_de, (assoc_in _ _ _ ND H1). cbn [option_map].
    rewrite Forall_forall in H. specialize (H _ H1). specialize (Dv _ _ H1). specialize (Bv _ _ H1). cbn [snd] in H. match goal with K : typed t v0 |- _ => rewrite (H Dv Bv v0 d0 K E0) end. reflexivity.
  - inversion B.
Qed.

(** ** Only values of the type are read *)

Lemma de_typed t : distinct t -> forall d v, de t d = Some v -> typed t v.
Proof.
  induction t using ty_rect'; intros D d v E.
  - cbn in E. destruct d; try discriminate. injection E as <-. constructor.
  - cbn in E. unfold de_int in E. destruct d; try discriminate. destruct ((_ <=? z)%Z) eqn:E1; [|discriminate]. destruct ((z <=? _)%Z) eqn:E2; [|discriminate].
    injection E as <-. constructor. apply Z.leb_le in E1. apply Z.leb_le in E2. split; assumption.
  - cbn in E. unfold de_real in E. destruct f, d as [ |[]| | | | | | | | ]; try discriminate; injection E as <-; constructor.
  - inversion D as [| | |? ND Dt| | |]; subst. pose proof (de_struct_shape fs d v E) as [vs ->]. constructor.
    destruct d; try discriminate E.
    + apply de_struct_seq in E as [L F]. clear ND D. revert l L F. revert vs. induction H as [|[n t] fs P1 P2 IH]; intros vs l L F.
      * cbn in F. inversion F. constructor.
      * destruct l as [|d l]; [discriminate L|]. inversion Dt as [|? ? Q1 Q2]; subst. cbn [map combine snd] in F. inversion F as [|? v ? vs' E1 F1]; subst. cbn [fst snd] in *.
        constructor; [apply (P1 Q1 d), E1|]. injection L as L. apply (IH Q2 vs' l L F1).
    + apply de_struct_map in E; [|exact ND]. apply (Forall2_imp _ _ _ _) with (2 := E). intros f w I (d & _ & Ed).
      rewrite Forall_forall in H, Dt. apply (H f I (Dt f I) d), Ed.
  - cbn in E. destruct (de t d) as [w|] eqn:Ew; [|discriminate]. injection E as <-. inversion D; subst. constructor. apply (IHt ltac:(assumption) d), Ew.
  - inversion D as [| | | | |? ND Dv|]; subst. cbn [de] in E. destruct d; try discriminate.
    + rewrite assoc_de in E. destruct (assoc name vs) as [[t|]|] eqn:Ea; try discriminate. injection E as <-. constructor. apply assoc_some, Ea.
    + rewrite assoc_de in E. destruct (assoc name vs) as [[t|]|] eqn:Ea; try discriminate. cbn in E. destruct (de t d) as [w|] eqn:Ew; [|discriminate]. injection E as <-.
      apply assoc_some in Ea. apply (typed_content _ _ t); [exact Ea|]. rewrite Forall_forall in H. apply (H _ Ea (Dv _ _ Ea) d), Ew.
  - cbn [de] in E. destruct d; try discriminate. destruct (assoc name vs) as [c|] eqn:Ea; [|discriminate]. injection E as <-. apply (typed_coded _ _ c). apply assoc_some, Ea.
Qed.

(** ** Deciding [distinct] and [both_derived] *)

Fixpoint nodupb (l : list string) : bool := match l with [] => true | x :: l' => negb (existsb (String.eqb x) l') && nodupb l' end.
Lemma nodupb_ok l : nodupb l = true -> NoDup l.
Proof.
  induction l as [|x l IH]; intros H; [constructor|]. cbn in H. apply andb_true_iff in H as [H1 H2]. constructor; [|apply IH, H2].
  intros I. apply negb_true_iff in H1. enough (existsb (String.eqb x) l = true) by congruence. apply existsb_exists. exists x. split; [exact I|apply String.eqb_refl].
Qed.
Fixpoint distinctb (t : ty) : bool :=
  match t with
  | TStruct fs => nodupb (map fst fs) && forallb (fun '(_, t) => distinctb t) fs
  | TNew t => distinctb t
  | TEnum vs => nodupb (map fst vs) && forallb (fun '(_, o) => match o with Some t => distinctb t | None => true end) vs
  | TCoded vs => nodupb (map fst vs)
  | _ => true
  end.
Lemma distinctb_ok t : distinctb t = true -> distinct t.
Proof.
  induction t using ty_rect'; intros E; cbn in E; try constructor.
  - apply andb_true_iff in E as [E _]. apply nodupb_ok, E.
  - apply andb_true_iff in E as [_ E]. rewrite Forall_forall in *. rewrite forallb_forall in E. intros [n t] I. apply (H _ I). apply (E _ I).
  - apply IHt, E.
  - apply andb_true_iff in E as [E _]. apply nodupb_ok, E.
  - apply andb_true_iff in E as [_ E]. rewrite Forall_forall in *. rewrite forallb_forall in E. intros n t I. apply (H _ I). apply (E _ I).
  - apply nodupb_ok, E.
Qed.
Fixpoint derivedb (t : ty) : bool :=
  match t with
  | TStruct fs => forallb (fun '(_, t) => derivedb t) fs
  | TNew t => derivedb t
  | TEnum vs => forallb (fun '(_, o) => match o with Some t => derivedb t | None => true end) vs
  | TCoded _ => false
  | _ => true
  end.
Lemma derivedb_ok t : derivedb t = true -> both_derived t.
Proof.
  induction t using ty_rect'; intros E; cbn in E; try constructor; try discriminate.
  - rewrite Forall_forall in *. rewrite forallb_forall in E. intros [n t] I. apply (H _ I). apply (E _ I).
  - apply IHt, E.
  - rewrite Forall_forall in *. rewrite forallb_forall in E. intros n t I. apply (H _ I). apply (E _ I).
Qed.

(** ** An enum of [ubx_extend] is not read back, nor is a struct with one *)

Lemma ser_coded cs v d : ser (TCoded cs) v = Some d -> exists c, d = DNum U8 c.
Proof. cbn. destruct v; try discriminate. destruct content; [discriminate|]. destruct (assoc name cs); [|discriminate]. intros H. injection H as <-. eexists. reflexivity. Qed.
Lemma written_field fs n t : In (n, t) fs -> forall vs l, write_fields (map (fun '(n, t) => (n, ser t)) fs) vs = Some l ->
  exists v d, In (n, d) l /\ ser t v = Some d.
Proof.
  induction fs as [|[m u] fs IH]; intros H; [destruct H|]. intros [|v vs] l E; cbn [map write_fields] in E; [discriminate|].
  destruct (ser u v) as [d|] eqn:Ed; [|discriminate]. destruct (write_fields _ vs) as [l'|] eqn:El; [|discriminate]. injection E as <-.
  destruct H as [H|H].
  - injection H as -> ->. exists v, d. split; [left; reflexivity|exact Ed].
  - destruct (IH H vs l' El) as (v' & d' & I & E'). exists v', d'. split; [right; exact I|exact E'].
Qed.
Lemma Forall2_in {A B} (R : A -> B -> Prop) l m a : Forall2 R l m -> In a l -> exists b, R a b.
Proof. intros F. induction F as [|x y l m H F IH]; intros I; [destruct I|]. destruct I as [->|I]; [exists y; exact H|apply IH, I]. Qed.
Lemma coded_struct fs n cs : NoDup (map fst fs) -> In (n, TCoded cs) fs ->
  forall v d, ser (TStruct fs) v = Some d -> de (TStruct fs) d = None.
Proof.
  intros ND H v d E. cbn [ser] in E. destruct v; try discriminate. destruct (write_fields _ l) as [ds|] eqn:Ew; [|discriminate]. injection E as <-.
  destruct (de (TStruct fs) (DMap ds)) as [w|] eqn:Ed; [|reflexivity]. exfalso.
  destruct (de_struct_shape _ _ _ Ed) as [vs ->]. apply de_struct_map in Ed; [|exact ND].
  destruct (Forall2_in _ _ _ _ Ed H) as (w & d & U & R). cbn [fst snd] in U, R. destruct (written_field fs n _ H l ds Ew) as (v' & d' & I & S).
  rewrite (under_nodup ds n d') in U; [|rewrite (under_ser fs l ds ND Ew); exact ND|exact I]. injection U as <-.
  destruct (ser_coded _ _ _ S) as [c ->]. discriminate R.
Qed.
