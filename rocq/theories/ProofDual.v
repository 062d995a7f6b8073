(** * The dual buffer over the reference queue is one list (proof support) *)
From Coq Require Import List NArith ZArith Bool Lia ZifyBool ZifyNat ZifyN.
From Verif Require Import Base BaseFacts Buffers DualBuffer SpecBuffer.
Import ListNotations.
Open Scope N_scope.

Notation qdual := (dual (T:=list byte)).

Record dinv (cap : N) (d : qdual) : Prop := {
  di_off : d_off d <= lenN (d_buf d);
  di_cap : lenN (d_buf d) <= cap;
  di_noff : d_noff d <= lenN (d_new d);
  di_new : lenN (d_new d) <= isize_max;
  di_sum : lenN (d_buf d) + (lenN (d_new d) - d_noff d) <= isize_max;
  di_max : cap <= usize_max;
}.

Definition dview (d : qdual) : list byte := dropN (d_off d) (d_buf d) ++ dropN (d_noff d) (d_new d).
Definition dunder (d : qdual) : N := lenN (d_buf d) - d_off d.

Ltac dinv_destruct H := destruct H as [Hoff Hcap Hnoff Hnew Hsum Hmax].
Ltac numbers := unfold usize_max, isize_max in *; lia.

Ltac teq :=
  repeat match goal with
  | |- takeN ?a ?x = takeN ?b ?x => replace a with b by lia; reflexivity
  | |- dropN ?a ?x = dropN ?b ?x => replace a with b by lia; reflexivity
  | |- takeN ?a ?x = takeN ?b ?y => replace a with b by lia; f_equal
  | |- dropN ?a ?x = dropN ?b ?y => replace a with b by lia; f_equal
  end.

Lemma dview_len d : lenN (dview d) = dunder d + (lenN (d_new d) - d_noff d).
Proof. unfold dview, dunder. rewrite lenN_app, !lenN_dropN. reflexivity. Qed.

Section S.
  Variable cap : N.
  Notation q := (queue_ops cap).

  Lemma q_d_len d : dinv cap d -> d_len q d = Ret (lenN (dview d)).
  Proof.
    intros H. dinv_destruct H. unfold d_len. cbn [b_len queue_ops].
    rewrite usub_ok by lia. cbn [bind]. rewrite uadd_ok by numbers. cbn [bind].
    rewrite usub_ok by lia. rewrite dview_len. unfold dunder. f_equal. lia.
  Qed.

  Lemma q_d_index d i : dinv cap d -> i < lenN (dview d) -> d_index q d i = Ret (nthN (dview d) i).
  Proof.
    intros H Hi. dinv_destruct H. rewrite dview_len in Hi. unfold dunder in Hi.
    unfold d_index. cbn [b_len b_index queue_ops].
    rewrite uadd_ok by numbers. cbn [bind]. unfold dview.
    destruct (N.ltb_spec (d_off d + i) (lenN (d_buf d))).
    - rewrite uadd_ok by numbers. cbn [bind]. rewrite get_nthN by lia.
      rewrite nthN_app_l by (rewrite lenN_dropN; lia). rewrite nthN_dropN. do 2 f_equal; lia.
    - rewrite uadd_ok by numbers. cbn [bind]. rewrite usub_ok by lia. cbn [bind].
      rewrite usub_ok by lia. cbn [bind]. rewrite get_nthN by lia.
      rewrite nthN_app_r by (rewrite lenN_dropN; lia). rewrite nthN_dropN, lenN_dropN. do 2 f_equal; lia.
  Qed.

  Lemma q_d_drain d k : dinv cap d -> k <= lenN (dview d) ->
    exists d', d_drain q d k = Ret d' /\ dinv cap d' /\ dview d' = dropN k (dview d) /\
      dunder d' = dunder d - k /\ d_buf d' = d_buf d /\ d_new d' = d_new d.
  Proof.
    intros H Hk. dinv_destruct H. rewrite dview_len in Hk. unfold dunder in *.
    unfold d_drain. cbn [b_len queue_ops].
    rewrite usub_ok by lia. cbn [bind]. unfold sat_sub.
    rewrite uadd_ok by numbers. cbn [bind].
    rewrite uadd_ok by numbers. cbn [bind].
    eexists. split; [reflexivity|]. cbn [d_buf d_off d_new d_noff].
    split; [constructor; cbn [d_buf d_off d_new d_noff]; try lia|].
    split; [|split; [lia|split; reflexivity]].
    unfold dview. cbn [d_buf d_off d_new d_noff].
    destruct (N.leb_spec k (lenN (d_buf d) - d_off d)).
    - rewrite dropN_app_le by (rewrite lenN_dropN; lia). rewrite dropN_dropN.
      f_equal; f_equal; lia.
    - rewrite dropN_app_ge by (rewrite lenN_dropN; lia).
      rewrite dropN_all by lia. cbn [app]. rewrite dropN_dropN, lenN_dropN. f_equal. lia.
  Qed.

  Lemma q_d_clear d : dinv cap d ->
    exists d', d_clear q d = Ret d' /\ dinv cap d' /\ dview d' = [] /\ dunder d' = 0.
  Proof.
    intros H. unfold d_clear. rewrite q_d_len by assumption. cbn [bind].
    destruct (q_d_drain d (lenN (dview d)) H ltac:(lia)) as (d' & E & Hi & Hv & Hu & _).
    exists d'. rewrite E. split; [reflexivity|]. split; [assumption|]. split.
    - rewrite Hv. apply dropN_all. lia.
    - rewrite Hu, dview_len. lia.
  Qed.

  Lemma q_d_potential_lost d : dinv cap d -> d_potential_lost q d = Ret (lenN (dview d) - cap).
  Proof.
    intros H. unfold d_potential_lost. rewrite q_d_len by assumption. cbn [bind b_max_cap queue_ops].
    destruct (N.leb_spec (lenN (dview d)) cap).
    - f_equal. lia.
    - rewrite usub_ok by lia. reflexivity.
  Qed.

  Lemma q_d_can d dr tk : dinv cap d -> dr <= lenN (dview d) ->
    d_can_drain_and_take q d dr tk =
      Ret ((dr + tk <=? lenN (dview d)) &&
           ((dunder d <=? dr) || (dr + tk <=? dunder d) || (tk <=? cap))).
  Proof.
    intros H Hdr. dinv_destruct H. rewrite dview_len in *. unfold dunder in *.
    unfold d_can_drain_and_take. cbn [b_len b_max_cap queue_ops].
    rewrite usub_ok by lia. cbn [bind]. unfold sat_sub.
    rewrite uadd_ok by numbers. cbn [bind].
    rewrite uadd_ok by numbers. cbn [bind].
    rewrite usub_ok by lia. cbn [bind].
    rewrite uadd_ok by numbers. cbn [bind].
    rewrite usub_ok by lia. cbn [bind].
    set (L := lenN (d_buf d)) in *. set (M := lenN (d_new d)) in *.
    destruct (N.ltb_spec (L - (d_off d + N.min (L - d_off d) dr) + M
                          - (d_noff d + (dr - N.min (L - d_off d) dr))) tk);
      [f_equal; lia|].
    destruct (N.eqb_spec (N.min (L - (d_off d + N.min (L - d_off d) dr)) tk) 0); [f_equal; lia|].
    destruct (N.eqb_spec (tk - N.min (L - (d_off d + N.min (L - d_off d) dr)) tk) 0); [f_equal; lia|].
    rewrite usub_ok by lia. cbn [bind].
    match goal with |- context [if ?x <? ?y then _ else _] => destruct (N.ltb_spec x y) end; f_equal; lia.
  Qed.

  Lemma q_d_peek d s e : dinv cap d -> s <= e -> e <= lenN (dview d) ->
    exists a b, d_peek_raw q d s e = Ret (a, b) /\ a ++ b = takeN (e - s) (dropN s (dview d)).
  Proof.
    intros H Hse He. dinv_destruct H. rewrite dview_len in He. unfold dunder in He.
    unfold d_peek_raw. cbn [b_len b_range queue_ops].
    rewrite usub_ok by lia. cbn [bind]. unfold sat_sub, dview.
    set (L := lenN (d_buf d)) in *. set (M := lenN (d_new d)) in *.
    destruct (N.leb_spec (L - d_off d) s); cbn [bind].
    - destruct (N.leb_spec e (L - d_off d)); cbn [bind].
      + exists [], []. split; [reflexivity|]. replace (e - s) with 0 by lia. reflexivity.
      + rewrite uadd_ok by numbers. cbn [bind]. rewrite usub_ok by lia. cbn [bind].
        rewrite uadd_ok by numbers. cbn [bind]. rewrite slice_ok by lia. cbn [bind].
        eexists [], _. split; [reflexivity|]. cbn [app].
        rewrite (dropN_app_ge s) by (rewrite lenN_dropN; lia).
        rewrite dropN_dropN, lenN_dropN. fold L. teq.
    - rewrite uadd_ok by numbers. cbn [bind]. rewrite uadd_ok by numbers. cbn [bind].
      rewrite slice_ok by lia. cbn [bind].
      rewrite (dropN_app_le s) by (rewrite lenN_dropN; lia). rewrite dropN_dropN.
      destruct (N.leb_spec e (L - d_off d)); cbn [bind].
      + eexists _, []. split; [reflexivity|]. rewrite app_nil_r.
        rewrite takeN_app_le by (rewrite lenN_dropN; lia).
        teq.
      + rewrite uadd_ok by numbers. cbn [bind]. rewrite usub_ok by lia. cbn [bind].
        rewrite uadd_ok by numbers. cbn [bind]. rewrite slice_ok by lia. cbn [bind].
        eexists _, _. split; [reflexivity|].
        rewrite (takeN_app_ge (e - s)) by (rewrite lenN_dropN; lia). f_equal.
        * rewrite takeN_all by (rewrite lenN_dropN; lia). f_equal. lia.
        * rewrite lenN_dropN. replace (s - (L - d_off d)) with 0 by lia. rewrite N.add_0_r.
          fold L. teq.
  Qed.

  (** [take]: the bytes asked for are returned and only they are removed *)
  Lemma q_d_take d k : dinv cap d -> 0 < k -> k <= lenN (dview d) ->
    (dunder d = 0 \/ k <= dunder d \/ k <= cap) ->
    exists d', d_take q d k = Ret (Ok (takeN k (dview d)), d') /\ dinv cap d' /\
      dview d' = dropN k (dview d) /\ d_new d' = d_new d.
  Proof.
    intros H Hk0 Hk Hc. dinv_destruct H. rewrite dview_len in Hk. unfold dunder in *.
    unfold d_take. cbn [b_len b_max_cap b_range b_extend b_drain queue_ops].
    rewrite usub_ok by lia. cbn [bind]. unfold sat_sub. rewrite usub_ok by lia. cbn [bind].
    set (L := lenN (d_buf d)) in *. set (M := lenN (d_new d)) in *.
    destruct (N.ltb_spec (M - d_noff d) (k - N.min (L - d_off d) k)); [lia|].
    destruct (N.eqb_spec (N.min (L - d_off d) k) 0) as [E0|E0].
    { (* all from new *)
      rewrite !uadd_ok by numbers. cbn [bind]. rewrite slice_ok by lia. cbn [bind].
      eexists. split; [f_equal; f_equal; f_equal|].
      - unfold dview. rewrite (dropN_all (d_off d)) by lia. cbn [app]. f_equal. lia.
      - cbn [d_buf d_off d_new d_noff].
        split; [constructor; cbn [d_buf d_off d_new d_noff]; fold L M; lia|].
        split; [|reflexivity].
        unfold dview. cbn [d_buf d_off d_new d_noff]. rewrite (dropN_all (d_off d)) by lia.
        cbn [app]. rewrite dropN_dropN. reflexivity. }
    destruct (N.eqb_spec (k - N.min (L - d_off d) k) 0) as [E1|E1].
    { (* all from underlying *)
      rewrite !uadd_ok by numbers. cbn [bind]. rewrite slice_ok by lia. cbn [bind].
      eexists. split; [f_equal; f_equal; f_equal|].
      - unfold dview. rewrite takeN_app_le by (rewrite lenN_dropN; lia). f_equal. lia.
      - cbn [d_buf d_off d_new d_noff].
        split; [constructor; cbn [d_buf d_off d_new d_noff]; fold L M; lia|].
        split; [|reflexivity].
        unfold dview. cbn [d_buf d_off d_new d_noff]. rewrite dropN_app_le by (rewrite lenN_dropN; lia).
        rewrite dropN_dropN. reflexivity. }
    destruct (N.ltb_spec cap k); [lia|].
    rewrite usub_ok by lia. cbn [bind].
    destruct (N.ltb_spec (k - N.min (L - d_off d) k) (cap - L)).
    { (* extend in place *)
      rewrite slice_from_ok by lia. cbn [bind].
      rewrite lenN_dropN. fold M.
      destruct (N.leb_spec (L + (M - d_noff d)) isize_max); [|lia]. cbn [bind].
      rewrite usub_ok by lia. cbn [bind].
      rewrite uadd_ok by numbers. cbn [bind]. rewrite uadd_ok by numbers. cbn [bind].
      rewrite slice_ok by (rewrite ?lenN_app, ?lenN_takeN, ?lenN_dropN; fold L M; lia).
      cbn [bind]. eexists. split; [f_equal; f_equal; f_equal|].
      - unfold dview. replace (d_off d + k - d_off d) with k by lia.
        rewrite dropN_app_le by lia.
        rewrite !takeN_app_ge by (rewrite lenN_dropN; lia).
        rewrite takeN_takeN. f_equal. f_equal. rewrite lenN_dropN. fold L. lia.
      - cbn [d_buf d_off d_new d_noff].
        split; [constructor; cbn [d_buf d_off d_new d_noff];
                rewrite ?lenN_app, ?lenN_takeN, ?lenN_dropN; fold L M; numbers|].
        split; [|reflexivity].
        unfold dview. cbn [d_buf d_off d_new d_noff].
        rewrite (dropN_app_ge (d_off d + k)) by (fold L; lia).
        rewrite (dropN_app_ge k) by (rewrite lenN_dropN; fold L; lia).
        rewrite lenN_dropN. fold L M.
        rewrite dropN_takeN, !dropN_dropN.
        replace (d_noff d + (d_off d + k - L)) with (d_noff d + (k - (L - d_off d))) by lia.
        set (z := d_noff d + (k - (L - d_off d))).
        rewrite <- (takeN_dropN (N.min (M - d_noff d) (cap - L) - (d_off d + k - L)) (dropN z (d_new d))) at 2.
        f_equal. rewrite dropN_dropN. f_equal. subst z. lia. }
    (* move, then extend *)
    destruct (N.leb_spec (d_off d) L); [|lia]. cbn [bind].
    rewrite uadd_ok by numbers. cbn [bind]. rewrite slice_ok by (fold M; lia). cbn [bind].
    replace (d_noff d + (k - N.min (L - d_off d) k) - d_noff d) with (k - (L - d_off d)) by lia.
    rewrite lenN_takeN, !lenN_dropN. fold L M.
    match goal with |- context [if ?x <=? ?y then _ else _] => destruct (N.leb_spec x y); [|numbers] end.
    cbn [bind]. rewrite ?uadd_ok by numbers. cbn [bind]. rewrite ?uadd_ok by numbers. cbn [bind].
    rewrite (takeN_all (N.min _ _)) by (rewrite lenN_takeN, lenN_dropN; fold L M; lia).
    rewrite slice_ok by (rewrite ?lenN_app, ?lenN_takeN, ?lenN_dropN; fold L M; lia).
    cbn [bind]. eexists. split; [f_equal; f_equal; f_equal|].
    - rewrite N.sub_0_r, dropN_0. unfold dview.
      rewrite !takeN_app_ge by (rewrite lenN_dropN; lia). f_equal.
      rewrite takeN_takeN, lenN_dropN. fold L. f_equal. lia.
    - cbn [d_buf d_off d_new d_noff].
      split; [constructor; cbn [d_buf d_off d_new d_noff];
              rewrite ?lenN_app, ?lenN_takeN, ?lenN_dropN; fold L M; numbers|].
      split; [|reflexivity].
      unfold dview. cbn [d_buf d_off d_new d_noff].
      rewrite (dropN_app_ge k (dropN (d_off d) (d_buf d)) (dropN (d_noff d) (d_new d)))
        by (rewrite lenN_dropN; fold L; lia).
      rewrite dropN_dropN, lenN_dropN. fold L.
      rewrite dropN_all by (rewrite ?lenN_app, ?lenN_takeN, ?lenN_dropN; fold L M; lia).
      cbn [app]. f_equal. lia.
  Qed.

  Lemma q_d_take_oom d k : dinv cap d -> k <= lenN (dview d) ->
    0 < dunder d < k -> cap < k ->
    d_take q d k = Ret (Err (OutOfMemory k), d).
  Proof.
    intros H Hk Hu Hc. dinv_destruct H. rewrite dview_len in Hk. unfold dunder in *.
    unfold d_take. cbn [b_len b_max_cap b_range b_extend b_drain queue_ops].
    rewrite usub_ok by lia. cbn [bind]. unfold sat_sub. rewrite usub_ok by lia. cbn [bind].
    repeat match goal with |- context [if ?x <? ?y then _ else _] => destruct (N.ltb_spec x y); try lia
    | |- context [if ?x =? ?y then _ else _] => destruct (N.eqb_spec x y); try lia end.
    reflexivity.
  Qed.

  Lemma q_d_drop d : dinv cap d -> d_drop q d = Ret (takeN cap (dview d)).
  Proof.
    intros H. dinv_destruct H. unfold d_drop. cbn [b_len b_max_cap b_range b_extend b_drain queue_ops].
    destruct (N.leb_spec (d_off d) (lenN (d_buf d))); [|lia]. cbn [bind].
    rewrite slice_from_ok by lia. cbn [bind]. rewrite !lenN_dropN.
    match goal with |- context [if ?x <=? ?y then _ else _] => destruct (N.leb_spec x y); [|lia] end.
    cbn [bind]. unfold dview. rewrite takeN_app_ge by (rewrite lenN_dropN; lia).
    f_equal. f_equal. rewrite lenN_dropN.
    destruct (N.leb_spec (lenN (d_new d) - d_noff d) (cap - (lenN (d_buf d) - d_off d))).
    - rewrite !takeN_all; rewrite ?lenN_dropN; lia || reflexivity.
    - f_equal. lia.
  Qed.

  Lemma q_d_create buf c : lenN buf <= cap -> cap <= usize_max -> lenN buf + lenN c <= isize_max ->
    dinv cap (d_create buf c) /\ dview (d_create buf c) = buf ++ c /\ dunder (d_create buf c) = lenN buf.
  Proof.
    intros. unfold d_create, dview, dunder. cbn [d_buf d_off d_new d_noff].
    split; [constructor; cbn [d_buf d_off d_new d_noff]; lia|].
    split; [reflexivity|lia].
  Qed.
End S.
