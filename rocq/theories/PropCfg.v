(** * Properties of the configuration items (C39 - C43) *)
From Coq Require Import String List NArith ZArith Bool Lia ZifyBool ZifyNat ZifyN.
From Verif Require Import Base BaseFacts PackDesc GenSend Bits CfgVal TableCfg SpecPacket SpecTypes SpecCfg ProofSend ProofText.
Import ListNotations.
Open Scope N_scope.
Open Scope list_scope.

(** ** C41 *)
Definition storage (t : cfg_ty) : N :=
  match t with TU16 | TI16 => 2 | TU32 => 4 | TU64 => 8 | _ => 1 end.

Fixpoint nodupb (l : list N) : bool :=
  match l with [] => true | x :: l' => negb (existsb (N.eqb x) l') && nodupb l' end.
Lemma nodupb_ok l : nodupb l = true -> NoDup l.
Proof.
  induction l as [|x l IH]; cbn [nodupb]; intros E; constructor.
  - intros HI. apply andb_true_iff in E. destruct E as [E _]. apply negb_true_iff in E.
    assert (existsb (N.eqb x) l = true); [|congruence]. apply existsb_exists. exists x. split; [exact HI|apply N.eqb_refl].
  - apply IH. apply andb_true_iff in E. tauto.
Qed.

(** The keys of the 434 items are pairwise distinct, and each announces the storage size of the item's type. *)
Theorem cfg_keys_distinct : NoDup (map ci_key cfg_table) /\ length cfg_table = 434%nat.
Proof. split; [apply nodupb_ok; vm_compute; reflexivity|reflexivity]. Qed.
Theorem cfg_keys_announce_sizes :
  forall i, In i cfg_table -> announced (ci_key i) = storage (ci_ty i) /\ ci_key i < 2 ^ 32 /\ 1 <= announced (ci_key i).
Proof.
  intros i Hi.
  assert (A : forallb (fun i => (announced (ci_key i) =? storage (ci_ty i)) && (ci_key i <? 2 ^ 32) && (1 <=? announced (ci_key i))) cfg_table = true)
    by (vm_compute; reflexivity).
  rewrite forallb_forall in A. specialize (A i Hi). lia.
Qed.
Example cfg_keys_ex : In (mk_cfg_item "Uart1Baudrate" 0x40520001 TU32) cfg_table /\ announced 0x40520001 = 4.
Proof. split; [left; reflexivity|reflexivity]. Qed.

(** A key consists of its size, its group and its item number. *)
Definition key_item (key : N) : N := bits key 0 12.
Theorem cfg_key_parts :
  forall i, In i cfg_table -> ci_key i = bits (ci_key i) 28 3 * 2 ^ 28 + group_id (ci_key i) * 2 ^ 16 + key_item (ci_key i).
Proof.
  intros i Hi.
  assert (A : forallb (fun i => ci_key i =? bits (ci_key i) 28 3 * 2 ^ 28 + group_id (ci_key i) * 2 ^ 16 + key_item (ci_key i)) cfg_table = true)
    by (vm_compute; reflexivity).
  rewrite forallb_forall in A. specialize (A i Hi). lia.
Qed.
(** Violation: the item number has 12 bits, of which [item_id()] returns 8, so that two items of one group can share it. *)
Theorem cfg_item_id_refuted :
  exists i j, In i cfg_table /\ In j cfg_table /\ ci_name i <> ci_name j /\
    value_size (ci_key i) = value_size (ci_key j) /\ group_id (ci_key i) = group_id (ci_key j) /\ item_id (ci_key i) = item_id (ci_key j).
Proof.
  assert (E : existsb (fun i => existsb (fun j => negb (String.eqb (ci_name i) (ci_name j)) && (group_id (ci_key i) =? group_id (ci_key j)) &&
     (item_id (ci_key i) =? item_id (ci_key j)) && (to_usize (value_size (ci_key i)) =? to_usize (value_size (ci_key j))) &&
     match value_size (ci_key i), value_size (ci_key j) with OneByte, OneByte => true | _, _ => false end) cfg_table) cfg_table = true)
    by (vm_compute; reflexivity).
  apply existsb_exists in E. destruct E as (i & Hi & E). apply existsb_exists in E. destruct E as (j & Hj & E). exists i, j.
  rewrite !andb_true_iff in E. destruct E as ((((E1 & E2) & E3) & E4) & E5). split; [exact Hi|]. split; [exact Hj|].
  split; [apply negb_true_iff in E1; now apply String.eqb_neq|]. split; [|split; lia].
  destruct (value_size (ci_key i)), (value_size (ci_key j)); congruence.
Qed.

(** ** Values *)

Lemma first_bytes_ok buf n : N.of_nat n <= lenN buf -> first_bytes buf n = Ret (takeN (N.of_nat n) buf).
Proof.
  induction n as [|n IH]; intros H; [reflexivity|]. cbn [first_bytes]. rewrite IH by lia. cbn [bind]. rewrite get_nthN by lia. cbn [bind]. f_equal.
  rewrite <- (takeN_dropN (N.of_nat n) buf) at 3. rewrite takeN_app_ge by (rewrite lenN_takeN; lia). f_equal. rewrite lenN_takeN.
  rewrite (dropN_nthN buf (N.of_nat n)) by lia. rewrite takeN_cons by lia. f_equal.
  replace (N.of_nat (S n) - N.min (N.of_nat n) (lenN buf) - 1) with 0 by lia. reflexivity.
Qed.
Lemma get_panic (buf : list byte) n : lenN buf <= n -> get buf n = Panic.
Proof.
  intros H. unfold get, lenN in *. destruct (nth_error buf (N.to_nat n)) eqn:E; [|reflexivity].
  assert (nth_error buf (N.to_nat n) <> None) by congruence. apply nth_error_Some in H0. lia.
Qed.
Lemma first_bytes_panic buf n : lenN buf < N.of_nat n -> first_bytes buf n = Panic.
Proof.
  induction n as [|n IH]; intros H; [lia|]. cbn [first_bytes]. destruct (N.lt_ge_cases (lenN buf) (N.of_nat n)) as [L|L]; [now rewrite IH|].
  rewrite first_bytes_ok by exact L. cbn [bind]. rewrite get_panic by lia. reflexivity.
Qed.

Lemma starts_take (l : list byte) n : n <= lenN l -> starts_with l (takeN n l).
Proof. intros H. exists (dropN n l). symmetry. apply takeN_dropN. Qed.
Lemma starts_len l p : starts_with l p -> lenN p <= lenN l /\ takeN (lenN p) l = p.
Proof. intros (r & ->). rewrite lenN_app. split; [lia|]. now apply takeN_app_exact. Qed.

Lemma number_exact n l (v : N) :
  (let! x := first_bytes l n in Ret (le_num x)) = Ret v <-> v < 256 ^ N.of_nat n /\ starts_with l (le_bytes n v).
Proof.
  destruct (N.lt_ge_cases (lenN l) (N.of_nat n)) as [L|L].
  - rewrite first_bytes_panic by exact L. split; [discriminate|]. intros (_ & S). apply starts_len in S. rewrite lenN_le_bytes in S. lia.
  - rewrite first_bytes_ok by exact L. cbn [bind]. assert (Lt : lenN (takeN (N.of_nat n) l) = N.of_nat n) by (rewrite lenN_takeN; lia).
    assert (Ln : length (takeN (N.of_nat n) l) = n) by (unfold lenN in Lt; lia). split.
    + intros E. assert (v = le_num (takeN (N.of_nat n) l)) as -> by congruence. split; [rewrite <- Lt at 2; apply le_num_bound|].
      rewrite <- Ln at 1. rewrite le_bytes_le_num. now apply starts_take.
    + intros (Hv & S). apply starts_len in S. rewrite lenN_le_bytes in S. destruct S as [_ ->]. rewrite le_num_le_bytes. now rewrite N.mod_small.
Qed.

Lemma byte_exact l (v : N) : (let! b := get l 0 in Ret (b2n b)) = Ret v <-> v < 256 /\ starts_with l [n2b v].
Proof.
  destruct l as [|b l]; cbn; [split; [discriminate|intros (_ & r & H); discriminate]|]. split.
  - intros E. assert (v = b2n b) as -> by congruence. split; [apply b2n_lt|]. exists l. now rewrite n2b_b2n.
  - intros (Hv & r & E). injection E as -> ->. f_equal. rewrite b2n_n2b. now apply N.mod_small.
Qed.

Lemma i16_range l : length l = 2%nat -> (- 2 ^ 15 <= from_le_bytes I16 l < 2 ^ 15)%Z.
Proof.
  intros L. pose proof (le_num_bound l) as B. unfold lenN in B. rewrite L in B. change (256 ^ N.of_nat 2) with 65536 in B.
  unfold from_le_bytes. cbn [scalar_signed andb scalar_size]. change (scalar_max I16) with 32767%Z. change (2 ^ 15)%Z with 32768%Z.
  change (2 ^ (8 * Z.of_N 2))%Z with 65536%Z. destruct (32767 <? Z.of_N (le_num l))%Z eqn:E; lia.
Qed.
Lemma i16_bytes l : length l = 2%nat -> to_le_bytes I16 (from_le_bytes I16 l) = l.
Proof.
  intros L. pose proof (le_num_bound l) as B. unfold lenN in B. rewrite L in B. change (256 ^ N.of_nat 2) with 65536 in B.
  unfold to_le_bytes. cbn [scalar_size]. change (2 ^ (8 * Z.of_N 2))%Z with 65536%Z. change (N.to_nat 2) with 2%nat.
  assert (E : (from_le_bytes I16 l mod 65536 = Z.of_N (le_num l))%Z).
  { unfold from_le_bytes. cbn [scalar_signed andb scalar_size]. change (scalar_max I16) with 32767%Z.
    change (2 ^ (8 * Z.of_N 2))%Z with 65536%Z. destruct (32767 <? Z.of_N (le_num l))%Z.
    - rewrite <- (Z.mod_add _ 1) by lia. rewrite Z.mod_small; lia.
    - apply Z.mod_small. lia. }
  rewrite E, N2Z.id. rewrite <- L at 1. apply le_bytes_le_num.
Qed.
Lemma i16_value z : (- 2 ^ 15 <= z < 2 ^ 15)%Z -> from_le_bytes I16 (to_le_bytes I16 z) = z.
Proof.
  intros H. change (2 ^ 15)%Z with 32768%Z in H. unfold to_le_bytes, from_le_bytes. cbn [scalar_size scalar_signed andb].
  change (scalar_max I16) with 32767%Z. change (2 ^ (8 * Z.of_N 2))%Z with 65536%Z. change (N.to_nat 2) with 2%nat. rewrite le_num_le_bytes.
  change (256 ^ N.of_nat 2) with 65536. pose proof (Z.mod_pos_bound z 65536 ltac:(lia)) as B. rewrite N.mod_small by lia. rewrite Z2N.id by lia.
  destruct (Z.lt_ge_cases z 0).
  - assert (E : (z mod 65536 = z + 65536)%Z) by (rewrite <- (Z.mod_add _ 1) by lia; apply Z.mod_small; lia).
    rewrite E. replace (32767 <? z + 65536)%Z with true by (symmetry; lia). lia.
  - rewrite Z.mod_small by lia. replace (32767 <? z)%Z with false by (symmetry; lia). reflexivity.
Qed.
Lemma i16_exact l v :
  (let! x := first_bytes l 2 in Ret (from_le_bytes I16 x)) = Ret v <-> (- 2 ^ 15 <= v < 2 ^ 15)%Z /\ starts_with l (to_le_bytes I16 v).
Proof.
  destruct (N.lt_ge_cases (lenN l) 2) as [L|L].
  - rewrite first_bytes_panic by exact L. split; [discriminate|]. intros (_ & S). apply starts_len in S.
    unfold to_le_bytes in S. rewrite lenN_le_bytes in S. cbn in S. lia.
  - rewrite first_bytes_ok by exact L. cbn [bind]. change (N.of_nat 2) with 2.
    assert (Ln : length (takeN 2 l) = 2%nat) by (pose proof (lenN_takeN 2 l); unfold lenN in *; lia). split.
    + intros E. assert (v = from_le_bytes I16 (takeN 2 l)) as -> by congruence. split; [now apply i16_range|].
      rewrite i16_bytes by exact Ln. now apply starts_take.
    + intros (Hv & S). apply starts_len in S. unfold to_le_bytes in S at 1 2. rewrite lenN_le_bytes in S. change (N.of_nat (N.to_nat (scalar_size I16))) with 2 in S.
      destruct S as [_ ->]. now rewrite i16_value.
Qed.

Lemma value_exact t l v : from_cfg_v_bytes t l = Ret v <-> cfg_value_ok t v /\ starts_with l (cfg_v_bytes t v).
Proof.
  destruct t; cbn [from_cfg_v_bytes cfg_value_ok cfg_v_bytes cfg_value] in *.
  2: { change (2 ^ 8) with 256. apply byte_exact. }
  2: { change (2 ^ 16) with (256 ^ N.of_nat 2). apply number_exact. }
  2: { apply i16_exact. }
  2: { change (2 ^ 32) with (256 ^ N.of_nat 4). apply number_exact. }
  2: { change (2 ^ 64) with (256 ^ N.of_nat 8). apply number_exact. }
  2: { change (2 ^ 8) with 256. apply byte_exact. }
  all: split;
    [ intros H; split; [exact I|]; destruct l as [|b l]; [discriminate|]; exists l; destruct b; try discriminate H; injection H as <-; reflexivity
    | intros (_ & r & ->); destruct v; reflexivity ].
Qed.
Lemma value_total t l : from_cfg_v_bytes t l = Panic \/ exists v, from_cfg_v_bytes t l = Ret v.
Proof.
  assert (G : forall n, first_bytes l n = Panic \/ exists x, first_bytes l n = Ret x).
  { intros n. destruct (N.lt_ge_cases (lenN l) (N.of_nat n)); [left; now apply first_bytes_panic|right; eexists; now apply first_bytes_ok]. }
  assert (G0 : get l 0 = Panic \/ exists x, get l 0 = Ret x) by (destruct l; cbn; eauto).
  destruct t; cbn [from_cfg_v_bytes]; try (destruct (G 2%nat) as [->|(x & ->)]; cbn [bind]; eauto; fail);
    try (destruct (G 4%nat) as [->|(x & ->)]; cbn [bind]; eauto; fail); try (destruct (G 8%nat) as [->|(x & ->)]; cbn [bind]; eauto; fail);
    unfold match_byte; destruct G0 as [->|(x & ->)]; cbn [bind]; eauto; destruct (find _ _); eauto.
Qed.

Lemma cfg_v_len t v : lenN (cfg_v_bytes t v) = storage t.
Proof. destruct t; cbn [cfg_v_bytes storage]; unfold to_le_bytes; rewrite ?lenN_le_bytes; try reflexivity; destruct v; reflexivity. Qed.

(** ** C40 *)

Lemma value_size_announced key : 1 <= announced key -> to_usize (value_size key) = announced key.
Proof.
  unfold announced, value_size. change 7 with (N.ones 3). 
  assert (E : N.land (N.shiftr key 28) (N.ones 3) = bits key 28 3) by (unfold bits; now rewrite N.land_ones, N.shiftr_div_pow2).
  rewrite E. destruct (bits key 28 3) as [|[[[]|[]|]|[[]|[]|]|]]; cbn; try reflexivity; lia.
Qed.
Lemma le_bytes_int n v : le_bytes n v = int_bytes (N.of_nat n) (Z.of_N v).
Proof. unfold int_bytes. rewrite Nat2N.id, int_bytes_le_bytes by lia. now rewrite N2Z.id. Qed.
Lemma cfg_v_bytes_wire t v : cfg_v_bytes t v = int_bytes (storage t) (cfg_number t v).
Proof.
  destruct t; cbn [cfg_v_bytes storage cfg_number cfg_value] in *; try (destruct v; reflexivity); try apply le_bytes_int.
  - change ([n2b v]) with (le_bytes 1 v). apply le_bytes_int.
  - exact (to_le_bytes_int I16 v).
  - change ([n2b v]) with (le_bytes 1 v). apply le_bytes_int.
Qed.

(** The bytes of an item, [len()], and what [extend_to] and [write_to] do with them *)
Theorem cfg_encoding :
  forall v, cfg_item_of cfg_table v ->
    cfg_kv_bytes v = cfg_wire v /\
    cfg_len v = lenN (cfg_wire v) /\ cfg_len v = 4 + announced (ci_key (cv_item v)) /\ cfg_is_empty v = false /\
    (forall buf, cfg_extend_to v buf = (buf ++ cfg_wire v, cfg_len v)) /\
    (forall buf, lenN (cfg_wire v) <= lenN buf ->
       cfg_write_to v buf = Ret (cfg_wire v ++ dropN (lenN (cfg_wire v)) buf, cfg_len v)) /\
    (forall buf, lenN buf < lenN (cfg_wire v) -> cfg_write_to v buf = Panic).
Proof.
  intros v (Hi & Hv). destruct (cfg_keys_announce_sizes _ Hi) as (A & K & A1).
  assert (E : cfg_kv_bytes v = cfg_wire v).
  { unfold cfg_kv_bytes, cfg_wire. rewrite A, <- cfg_v_bytes_wire, le_bytes_int. reflexivity. }
  assert (L : lenN (cfg_kv_bytes v) = 4 + announced (ci_key (cv_item v))).
  { unfold cfg_kv_bytes. rewrite lenN_app, lenN_le_bytes, cfg_v_len, A. reflexivity. }
  assert (L2 : cfg_len v = 4 + announced (ci_key (cv_item v))).
  { unfold cfg_len, ci_size, key_size. now rewrite value_size_announced. }
  rewrite <- E. split; [reflexivity|]. split; [congruence|]. split; [exact L2|]. split; [unfold cfg_is_empty; lia|].
  split; [|split].
  - intros buf. unfold cfg_extend_to. f_equal; [|congruence]. clear. generalize (cfg_kv_bytes v) as l. intros l. revert buf.
    induction l as [|b l IH]; intros buf; cbn [fold_left]; [now rewrite app_nil_r|]. rewrite IH. now rewrite <- app_assoc.
  - intros buf H. unfold cfg_write_to. replace (lenN (cfg_kv_bytes v) <=? lenN buf) with true by (symmetry; lia). do 2 f_equal. congruence.
  - intros buf H. unfold cfg_write_to. replace (lenN (cfg_kv_bytes v) <=? lenN buf) with false by (symmetry; lia). reflexivity.
Qed.
Example cfg_encoding_ex :
  let v := mk_cfg_val (mk_cfg_item "Uart1Baudrate" 0x40520001 TU32) 115200 in
  cfg_item_of cfg_table v /\ cfg_wire v = [x01; x00; x52; x40; x00; xc2; x01; x00].
Proof. split; [split; [left; reflexivity|reflexivity]|reflexivity]. Qed.

(** ** C39, C43 *)

(** [parse] returns exactly the item whose bytes the buffer starts with, and panics when there is none. *)
Theorem cfg_parse_exact :
  forall buf,
    (forall v, cfg_parse cfg_table buf = Ret v <-> cfg_item_of cfg_table v /\ starts_with buf (cfg_wire v)) /\
    (cfg_parse cfg_table buf = Panic <-> forall v, cfg_item_of cfg_table v -> ~ starts_with buf (cfg_wire v)).
Proof.
  intros buf.
  assert (R : forall v, cfg_parse cfg_table buf = Ret v <-> cfg_item_of cfg_table v /\ starts_with buf (cfg_kv_bytes v)).
  { intros v. unfold cfg_parse. destruct (N.lt_ge_cases (lenN buf) 4) as [L|L].
    - rewrite first_bytes_panic by exact L. split; [discriminate|]. intros (_ & S). apply starts_len in S.
      unfold cfg_kv_bytes in S. rewrite lenN_app, lenN_le_bytes in S. lia.
    - rewrite first_bytes_ok by exact L. cbn [bind]. change (N.of_nat 4) with 4. rewrite slice_from_ok by exact L. cbn [bind].
      assert (Lt : lenN (takeN 4 buf) = 4) by (rewrite lenN_takeN; lia).
      assert (Ln : length (takeN 4 buf) = 4%nat) by (unfold lenN in Lt; lia). split.
      + destruct (find (fun i => ci_key i =? le_num (takeN 4 buf)) cfg_table) as [i|] eqn:F; [|discriminate].
        apply find_some in F. destruct F as [Hi Hk]. apply N.eqb_eq in Hk.
        destruct (from_cfg_v_bytes (ci_ty i) (dropN 4 buf)) as [x| |] eqn:Ev; cbn [bind]; try discriminate.
        intros E. assert (v = mk_cfg_val i x) as -> by congruence. apply value_exact in Ev. destruct Ev as (Ok & r & Er).
        split; [split; [exact Hi|exact Ok]|]. exists r. unfold cfg_kv_bytes. cbn [cv_item cv_value]. rewrite Hk.
        rewrite <- Ln at 1. rewrite le_bytes_le_num. rewrite <- app_assoc, <- Er. symmetry. apply takeN_dropN.
      + intros ((Hi & Ok) & r & Er). destruct v as [i x]. cbn [cv_item cv_value] in *. unfold cfg_kv_bytes in Er. cbn [cv_item cv_value] in Er.
        destruct (cfg_keys_announce_sizes _ Hi) as (_ & K & _).
        assert (T : takeN 4 buf = le_bytes 4 (ci_key i)).
        { rewrite Er, <- app_assoc. apply takeN_app_exact. rewrite lenN_le_bytes. reflexivity. }
        assert (D : dropN 4 buf = cfg_v_bytes (ci_ty i) x ++ r).
        { rewrite Er, <- app_assoc. apply dropN_app_exact. rewrite lenN_le_bytes. reflexivity. }
        rewrite T, D, le_num_le_bytes. change (256 ^ N.of_nat 4) with (2 ^ 32). rewrite N.mod_small by exact K.
        assert (F : find (fun j => ci_key j =? ci_key i) cfg_table = Some i).
        { destruct cfg_keys_distinct as [ND _]. clear - ND Hi. induction cfg_table as [|j l IH]; [destruct Hi|]. cbn [find map] in *.
          inversion ND as [|z zs NI ND']; subst. destruct (N.eqb_spec (ci_key j) (ci_key i)) as [E|E].
          - destruct Hi as [->|Hi]; [reflexivity|]. exfalso. apply NI. rewrite E. now apply in_map.
          - destruct Hi as [->|Hi]; [congruence|auto]. }
        rewrite F. assert (V : from_cfg_v_bytes (ci_ty i) (cfg_v_bytes (ci_ty i) x ++ r) = Ret x) by (apply value_exact; split; [exact Ok|exists r; reflexivity]).
        rewrite V. reflexivity. }
  assert (R' : forall v, cfg_parse cfg_table buf = Ret v <-> cfg_item_of cfg_table v /\ starts_with buf (cfg_wire v)).
  { intros v. rewrite R. split; intros (H1 & H2); (split; [exact H1|]); destruct (cfg_encoding v H1) as (E & _); congruence. }
  split; [exact R'|]. split.
  - intros P v Hv S. assert (cfg_parse cfg_table buf = Ret v) by (apply R'; auto). congruence.
  - intros H.
    assert (T : cfg_parse cfg_table buf = Panic \/ exists v, cfg_parse cfg_table buf = Ret v).
    { unfold cfg_parse. destruct (N.lt_ge_cases (lenN buf) 4) as [L|L].
      - rewrite first_bytes_panic by exact L. auto.
      - rewrite first_bytes_ok by exact L. cbn [bind]. rewrite slice_from_ok by exact L. cbn [bind].
        destruct (find _ _) as [i|]; [|auto]. destruct (value_total (ci_ty i) (dropN 4 buf)) as [->|(x & ->)]; cbn [bind]; eauto. }
    destruct T as [T|(v & T)]; [exact T|]. apply R' in T. destruct T as [T1 T2]. destruct (H v T1 T2).
Qed.

(** Round trip, with anything after the item *)
Theorem cfg_round_trip :
  forall v rest, cfg_item_of cfg_table v -> cfg_parse cfg_table (cfg_wire v ++ rest) = Ret v.
Proof. intros v rest Hv. apply (proj1 (cfg_parse_exact _)). split; [exact Hv|]. exists rest. reflexivity. Qed.
(** Two items with the same bytes are the same *)
Theorem cfg_wire_injective :
  forall v1 v2, cfg_item_of cfg_table v1 -> cfg_item_of cfg_table v2 -> cfg_wire v1 = cfg_wire v2 -> v1 = v2.
Proof.
  intros v1 v2 H1 H2 E. pose proof (cfg_round_trip v1 [] H1) as R1. pose proof (cfg_round_trip v2 [] H2) as R2. rewrite E in R1. congruence.
Qed.

Definition enum_limit (t : cfg_ty) : N :=
  match t with TBool | TDataBits | TTpPulse | TTpPulseLength => 2 | TParity => 3 | TStopBits => 4 | TAlignment => 5 | _ => 256 end.
Lemma enum_panics t c r : enum_limit t < 256 -> from_cfg_v_bytes t (c :: r) = Panic <-> enum_limit t <= b2n c.
Proof.
  intros H. destruct t; try (vm_compute in H; discriminate H); clear H; destruct c;
    (split; [intros H; first [discriminate H|vm_compute; discriminate]|intros H; first [reflexivity|exfalso; vm_compute in H; now apply H]]).
Qed.

(** When [parse] panics, in terms of the buffer *)
Theorem cfg_parse_panics :
  forall buf,
    cfg_parse cfg_table buf = Panic <->
    lenN buf < 4 \/
    (4 <= lenN buf /\ forall i, In i cfg_table -> ci_key i <> le_value (takeN 4 buf)) \/
    (exists i, In i cfg_table /\ 4 <= lenN buf /\ ci_key i = le_value (takeN 4 buf) /\
       (lenN buf < 4 + announced (ci_key i) \/
        match ci_ty i with
        | TBool | TDataBits | TTpPulse | TTpPulseLength => 2 <= b2n (nthN buf 4)
        | TParity => 3 <= b2n (nthN buf 4)
        | TStopBits => 4 <= b2n (nthN buf 4)
        | TAlignment => 5 <= b2n (nthN buf 4)
        | _ => False
        end)).
Proof.
  intros buf. unfold cfg_parse. destruct (N.lt_ge_cases (lenN buf) 4) as [L|L].
  { rewrite first_bytes_panic by exact L. cbn [bind]. split; auto. }
  rewrite first_bytes_ok by exact L. cbn [bind]. change (N.of_nat 4) with 4. rewrite slice_from_ok by exact L. cbn [bind].
  assert (L4 : lenN (dropN 4 buf) = lenN buf - 4) by apply lenN_dropN.
  assert (B4 : 4 < lenN buf -> exists r, dropN 4 buf = nthN buf 4 :: r) by (intros H; rewrite dropN_nthN by exact H; eauto).
  destruct (find (fun i => ci_key i =? le_num (takeN 4 buf)) cfg_table) as [i|] eqn:F.
  - apply find_some in F. destruct F as [Hi Hk]. apply N.eqb_eq in Hk. destruct (cfg_keys_announce_sizes _ Hi) as (A & _).
    transitivity (from_cfg_v_bytes (ci_ty i) (dropN 4 buf) = Panic).
    { destruct (value_total (ci_ty i) (dropN 4 buf)) as [->|(x & ->)]; cbn [bind]; split; congruence. }
    assert (V : from_cfg_v_bytes (ci_ty i) (dropN 4 buf) = Panic <->
       (lenN buf < 4 + announced (ci_key i) \/
        match ci_ty i with
        | TBool | TDataBits | TTpPulse | TTpPulseLength => 2 <= b2n (nthN buf 4)
        | TParity => 3 <= b2n (nthN buf 4)
        | TStopBits => 4 <= b2n (nthN buf 4)
        | TAlignment => 5 <= b2n (nthN buf 4)
        | _ => False
        end)).
    { rewrite A. clear - L L4 B4. set (d := dropN 4 buf) in *. clearbody d.
      assert (FB : forall X (f : list byte -> X) n, (let! l := first_bytes d n in Ret (f l)) = Panic <-> lenN buf < 4 + N.of_nat n).
      { intros X f n. destruct (N.lt_ge_cases (lenN d) (N.of_nat n)).
        - rewrite first_bytes_panic by assumption. cbn [bind]. split; intros; [lia|reflexivity].
        - rewrite first_bytes_ok by assumption. cbn [bind]. split; [discriminate|lia]. }
      assert (CB : forall t k, (forall c r, from_cfg_v_bytes t (c :: r) = Panic <-> k <= b2n c) -> from_cfg_v_bytes t [] = Panic ->
                from_cfg_v_bytes t d = Panic <-> lenN buf < 4 + 1 \/ k <= b2n (nthN buf 4)).
      { intros t k Hc Hn. destruct (N.lt_ge_cases 4 (lenN buf)) as [G|G].
        - destruct (B4 G) as (r & ->). rewrite Hc. split; [auto|]. intros [H|H]; [lia|exact H].
        - assert (d = []) as -> by (destruct d; [reflexivity|rewrite lenN_cons in L4; lia]). split; [intros _; left; lia|intros _; exact Hn]. }
      destruct (ci_ty i); cbn [storage];
        lazymatch goal with
        | |- context [from_cfg_v_bytes TU16 _] => cbn [from_cfg_v_bytes]; rewrite FB; change (N.of_nat 2) with 2; tauto
        | |- context [from_cfg_v_bytes TI16 _] => cbn [from_cfg_v_bytes]; rewrite FB; change (N.of_nat 2) with 2; tauto
        | |- context [from_cfg_v_bytes TU32 _] => cbn [from_cfg_v_bytes]; rewrite FB; change (N.of_nat 4) with 4; tauto
        | |- context [from_cfg_v_bytes TU64 _] => cbn [from_cfg_v_bytes]; rewrite FB; change (N.of_nat 8) with 8; tauto
        | |- context [from_cfg_v_bytes TU8 _] =>
            transitivity (lenN buf < 4 + 1); [|tauto]; destruct d as [|c d]; rewrite ?lenN_cons in L4; cbn; (split; [intros H; try discriminate H; cbn in L4; lia|intros H; first [reflexivity|lia]])
        | |- context [from_cfg_v_bytes TCfgInfMask _] =>
            transitivity (lenN buf < 4 + 1); [|tauto]; destruct d as [|c d]; rewrite ?lenN_cons in L4; cbn; (split; [intros H; try discriminate H; cbn in L4; lia|intros H; first [reflexivity|lia]])
        | _ => apply CB; [intros; apply enum_panics; reflexivity|reflexivity]
        end. }
    rewrite V. split.
    + intros H. right. right. exists i. rewrite <- le_num_value. auto.
    + intros [H|[(_ & H)|(j & Hj & _ & Kj & H)]]; [lia|exfalso; apply (H i Hi); now rewrite <- le_num_value|].
      assert (j = i) as ->; [|exact H]. destruct cfg_keys_distinct as [ND _].
      rewrite <- le_num_value in Kj. assert (Ek : ci_key j = ci_key i) by congruence. clear - ND Hi Hj Ek.
      induction cfg_table as [|k l IH]; [destruct Hi|]. cbn [map In] in *. inversion ND as [|z zs NI ND']; subst.
      destruct Hi as [->|Hi], Hj as [->|Hj]; auto.
      * exfalso. apply NI. rewrite <- Ek. now apply in_map.
      * exfalso. apply NI. rewrite Ek. now apply in_map.
  - split; [|reflexivity]. intros _. right. left. split; [exact L|]. intros i Hi. pose proof (find_none _ _ F i Hi) as E. cbn beta in E.
    rewrite <- le_num_value. apply N.eqb_neq. exact E.
Qed.
Example cfg_parse_panics_ex :
  cfg_parse cfg_table [x01; x00; x52; x40; x00; xc2; x01] = Panic /\ cfg_parse cfg_table [xff; xff; xff; x7f; x00] = Panic /\
  cfg_parse cfg_table [x05; x00; x52; x10; x02] = Panic /\
  cfg_parse cfg_table [x05; x00; x52; x10; x01] = Ret (mk_cfg_val (mk_cfg_item "Uart1Enabled" 0x10520005 TBool) true).
Proof. repeat split; vm_compute; reflexivity. Qed.

(** ** C42 *)

Definition wires (vs : list cfg_val) : list byte := concat (map cfg_wire vs).

Lemma cfg_iter_from data k vs :
  lenN data <= usize_max -> k <= lenN data ->
  yields (cfg_iter_next cfg_table) (mk_cfg_iter data k) vs <-> Forall (cfg_item_of cfg_table) vs /\ dropN k data = wires vs.
Proof.
  intros HU. revert k. induction vs as [|v vs IH]; intros k Hk.
  - split.
    + intros Y. inversion Y as [it E|]; subst. split; [constructor|]. unfold cfg_iter_next in E. cbn [cit_data cit_offset] in E.
      destruct (N.ltb_spec k (lenN data)); [|apply lenN_0; rewrite lenN_dropN; lia].
      rewrite slice_from_ok in E by lia. cbn [bind] in E. destruct (cfg_parse cfg_table (dropN k data)) as [x| |]; try discriminate E. cbn [bind] in E.
      destruct (uadd k (cfg_len x)); discriminate E.
    + intros (_ & E). constructor. unfold cfg_iter_next. cbn [cit_data cit_offset].
      assert (lenN (dropN k data) = 0) by (rewrite E; reflexivity). rewrite lenN_dropN in H.
      replace (k <? lenN data) with false by (symmetry; lia). reflexivity.
  - split.
    + intros Y. inversion Y as [|it x it' items E Y']; subst. unfold cfg_iter_next in E. cbn [cit_data cit_offset] in E.
      destruct (N.ltb_spec k (lenN data)); [|discriminate E]. rewrite slice_from_ok in E by lia. cbn [bind] in E.
      destruct (cfg_parse cfg_table (dropN k data)) as [w| |] eqn:P; try discriminate E. cbn [bind] in E.
      apply (proj1 (cfg_parse_exact _)) in P. destruct P as (Hw & r & Er). destruct (cfg_encoding w Hw) as (_ & Lw & _).
      assert (Ln : lenN (dropN k data) = cfg_len w + lenN r) by (rewrite Er, lenN_app; lia). rewrite lenN_dropN in Ln.
      rewrite uadd_ok in E by lia. cbn [bind] in E. injection E as -> <-.
      apply IH in Y'; [|lia]. destruct Y' as (F & D). split; [now constructor|]. unfold wires. cbn [map concat]. rewrite Er. f_equal. fold (wires vs).
      rewrite <- D, <- dropN_dropN, Er. symmetry. apply dropN_app_exact. lia.
    + intros (F & D). inversion F as [|z zs Hv F']; subst. destruct (cfg_encoding v Hv) as (_ & Lw & Lv & _). unfold wires in D. cbn [map concat] in D. fold (wires vs) in D.
      assert (Ln : lenN (dropN k data) = cfg_len v + lenN (wires vs)) by (rewrite D, lenN_app; lia). rewrite lenN_dropN in Ln.
      apply yields_item with (it' := mk_cfg_iter data (k + cfg_len v)).
      * unfold cfg_iter_next. cbn [cit_data cit_offset]. replace (k <? lenN data) with true by (symmetry; lia).
        rewrite slice_from_ok by lia. cbn [bind]. rewrite D, (cfg_round_trip v _ Hv). cbn [bind]. rewrite uadd_ok by lia. reflexivity.
      * apply IH; [lia|]. split; [exact F'|]. rewrite <- dropN_dropN, D. apply dropN_app_exact. lia.
Qed.
(** Iterating over a buffer yields a list of items exactly when the buffer is the concatenation of their encodings. *)
Theorem cfg_iteration :
  forall data vs, lenN data <= usize_max ->
    yields (cfg_iter_next cfg_table) (mk_cfg_iter data 0) vs <-> Forall (cfg_item_of cfg_table) vs /\ data = wires vs.
Proof. intros data vs H. now apply (cfg_iter_from data 0 vs H); lia. Qed.

Lemma cfg_iter_fill_ok data off vs :
  lenN data <= usize_max -> Forall (cfg_item_of cfg_table) vs -> off + lenN (wires vs) <= lenN data ->
  cfg_iter_fill data off vs = Ret (takeN off data ++ wires vs ++ dropN (off + lenN (wires vs)) data, off + lenN (wires vs)).
Proof.
  intros HU F. revert data off HU. induction F as [|v vs Hv F IH]; intros data off HU H.
  - cbn [cfg_iter_fill wires map concat app lenN_nil]. change (lenN []) with 0. rewrite N.add_0_r, takeN_dropN. reflexivity.
  - destruct (cfg_encoding v Hv) as (_ & Lw & Lv & _ & _ & W & _). unfold wires in *. cbn [map concat] in *. fold (wires vs) in *. rewrite lenN_app in *.
    cbn [cfg_iter_fill]. rewrite slice_from_ok by lia. cbn [bind]. rewrite W by (rewrite lenN_dropN; lia). cbn [bind].
    rewrite uadd_ok by lia. cbn [bind]. set (w := cfg_wire v) in *. rewrite Lw.
    rewrite dropN_dropN.
    assert (Lt : lenN (takeN off data) = off) by (rewrite lenN_takeN; lia).
    rewrite IH.
    + f_equal. f_equal; [|lia].
      rewrite (app_assoc (takeN off data) w). rewrite takeN_app_exact by (rewrite lenN_app; lia). rewrite <- !app_assoc. do 3 f_equal.
      rewrite (app_assoc (takeN off data) w), dropN_app_ge by (rewrite lenN_app; lia). rewrite dropN_dropN. f_equal. rewrite lenN_app. lia.
    + rewrite !lenN_app, lenN_dropN. lia.
    + rewrite !lenN_app, lenN_dropN. lia.
Qed.
(** An iterator made from a list of items and a sufficient buffer yields the list. *)
Theorem cfg_iter_of_list :
  forall data vs, lenN data <= usize_max -> Forall (cfg_item_of cfg_table) vs -> lenN (wires vs) <= lenN data ->
    exists it, cfg_iter_new data vs = Ret it /\ cit_data it = wires vs /\ yields (cfg_iter_next cfg_table) it vs.
Proof.
  intros data vs HU F H. unfold cfg_iter_new. rewrite cfg_iter_fill_ok by (auto; lia). cbn [bind N.add]. rewrite takeN_0. cbn [app].
  rewrite slice_ok by (rewrite ?lenN_app; lia). cbn [bind]. rewrite dropN_0, N.sub_0_r, takeN_app_exact by reflexivity.
  eexists. split; [reflexivity|]. split; [reflexivity|]. apply cfg_iteration; [lia|]. auto.
Qed.
Example cfg_iteration_ex :
  let v1 := mk_cfg_val (mk_cfg_item "Uart1Baudrate" 0x40520001 TU32) 115200 in
  let v2 := mk_cfg_val (mk_cfg_item "Uart1Enabled" 0x10520005 TBool) true in
  Forall (cfg_item_of cfg_table) [v1; v2] /\ lenN (wires [v1; v2]) = 13.
Proof.
  split; [|reflexivity]. constructor; [split; [left; reflexivity|reflexivity]|constructor; [|constructor]]. split; [|exact I].
  unfold cfg_table. cbn [In cv_item]. tauto.
Qed.

Print Assumptions cfg_keys_distinct.
Print Assumptions cfg_keys_announce_sizes.
Print Assumptions cfg_key_parts.
Print Assumptions cfg_item_id_refuted.
Print Assumptions cfg_encoding.
Print Assumptions cfg_parse_exact.
Print Assumptions cfg_round_trip.
Print Assumptions cfg_wire_injective.
Print Assumptions cfg_parse_panics.
Print Assumptions cfg_iteration.
Print Assumptions cfg_iter_of_list.
