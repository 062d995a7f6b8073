(** * Properties of the errors and their texts (C74) *)
From Coq Require Import String Ascii List NArith ZArith Bool Lia DecimalString HexadecimalString DecimalN HexadecimalN Decimal Hexadecimal.
From Verif Require Import Base BaseFacts DualBuffer PackDesc GenRecv GenSend Dispatch DateTime Enums Messages TablePackets
  SpecPacket SpecMessages ProofRecv ProofTable ProofDispatch.
Import ListNotations.
Open Scope N_scope.
Open Scope list_scope.

(** ** Numerals *)

Lemma dec_horner d : forall acc, exists v,
  numeral 10 (DecimalString.NilEmpty.string_of_uint d) v /\
  N.pos (Pos.of_uint_acc d acc) = N.pos acc * 10 ^ N.of_nat (String.length (DecimalString.NilEmpty.string_of_uint d)) + v.
Proof.
  induction d as [|d IH|d IH|d IH|d IH|d IH|d IH|d IH|d IH|d IH|d IH]; intros acc;
    cbn [DecimalString.NilEmpty.string_of_uint Pos.of_uint_acc String.length].
  1: exists 0; split; [constructor|cbn; lia].
  all: rewrite Nat2N.inj_succ, N.pow_succ_r';
    match goal with IH : forall _, exists _, _ |- context [Pos.of_uint_acc ?e ?a] => destruct (IH a) as (v & Hv & E); rewrite E end;
    match goal with |- context [String ?c ?s] =>
      let x := eval vm_compute in (match digit c with Some x => x | None => 10 end) in
      exists (x * 10 ^ N.of_nat (String.length s) + v)
    end;
    (split; [constructor; [reflexivity|reflexivity|exact Hv]|]);
    match goal with |- context [10 ^ ?k] => generalize (10 ^ k) end; intros; nia.
Qed.

Lemma dec_value d : numeral 10 (DecimalString.NilEmpty.string_of_uint d) (N.of_uint d).
Proof.
  induction d as [|d IH|d IH|d IH|d IH|d IH|d IH|d IH|d IH|d IH|d IH]; [constructor| | | | | | | | | |].
  1: { replace (N.of_uint (Decimal.D0 d)) with (0 * 10 ^ N.of_nat (String.length (DecimalString.NilEmpty.string_of_uint d)) + N.of_uint d)
         by (rewrite N.mul_0_l; reflexivity). constructor; [reflexivity|reflexivity|exact IH]. }
  all: match goal with |- numeral 10 (DecimalString.NilEmpty.string_of_uint ?e) _ =>
      let a := eval cbv in (match e with Decimal.D1 _ => 1 | Decimal.D2 _ => 2 | Decimal.D3 _ => 3 | Decimal.D4 _ => 4 | Decimal.D5 _ => 5
                            | Decimal.D6 _ => 6 | Decimal.D7 _ => 7 | Decimal.D8 _ => 8 | _ => 9 end)%positive in
      destruct (dec_horner d a) as (v & Hv & E); change (N.of_uint e) with (N.pos (Pos.of_uint_acc d a)); rewrite E end;
    cbn [DecimalString.NilEmpty.string_of_uint]; constructor; [reflexivity|reflexivity|exact Hv].
Qed.

Lemma hex_horner d : forall acc, exists v,
  numeral 16 (HexadecimalString.NilEmpty.string_of_uint d) v /\
  N.pos (Pos.of_hex_uint_acc d acc) = N.pos acc * 16 ^ N.of_nat (String.length (HexadecimalString.NilEmpty.string_of_uint d)) + v.
Proof.
  induction d as [|d IH|d IH|d IH|d IH|d IH|d IH|d IH|d IH|d IH|d IH|d IH|d IH|d IH|d IH|d IH|d IH]; intros acc;
    cbn [HexadecimalString.NilEmpty.string_of_uint Pos.of_hex_uint_acc String.length].
  1: exists 0; split; [constructor|cbn; lia].
  all: rewrite Nat2N.inj_succ, N.pow_succ_r';
    match goal with IH : forall _, exists _, _ |- context [Pos.of_hex_uint_acc ?e ?a] => destruct (IH a) as (v & Hv & E); rewrite E end;
    match goal with |- context [String ?c ?s] =>
      let x := eval vm_compute in (match digit c with Some x => x | None => 16 end) in
      exists (x * 16 ^ N.of_nat (String.length s) + v)
    end;
    (split; [constructor; [reflexivity|reflexivity|exact Hv]|]);
    match goal with |- context [16 ^ ?k] => generalize (16 ^ k) end; intros; nia.
Qed.

Lemma hex_value d : numeral 16 (HexadecimalString.NilEmpty.string_of_uint d) (N.of_hex_uint d).
Proof.
  induction d as [|d IH|d IH|d IH|d IH|d IH|d IH|d IH|d IH|d IH|d IH|d IH|d IH|d IH|d IH|d IH|d IH]; [constructor| | | | | | | | | | | | | | | |].
  1: { replace (N.of_hex_uint (Hexadecimal.D0 d)) with (0 * 16 ^ N.of_nat (String.length (HexadecimalString.NilEmpty.string_of_uint d)) + N.of_hex_uint d)
         by (rewrite N.mul_0_l; reflexivity). constructor; [reflexivity|reflexivity|exact IH]. }
  all: match goal with |- numeral 16 (HexadecimalString.NilEmpty.string_of_uint ?e) _ =>
      let a := eval cbv in (match e with Hexadecimal.D1 _ => 1 | Hexadecimal.D2 _ => 2 | Hexadecimal.D3 _ => 3 | Hexadecimal.D4 _ => 4
                            | Hexadecimal.D5 _ => 5 | Hexadecimal.D6 _ => 6 | Hexadecimal.D7 _ => 7 | Hexadecimal.D8 _ => 8 | Hexadecimal.D9 _ => 9
                            | Hexadecimal.Da _ => 10 | Hexadecimal.Db _ => 11 | Hexadecimal.Dc _ => 12 | Hexadecimal.Dd _ => 13
                            | Hexadecimal.De _ => 14 | _ => 15 end)%positive in
      destruct (hex_horner d a) as (v & Hv & E); change (N.of_hex_uint e) with (N.pos (Pos.of_hex_uint_acc d a)); rewrite E end;
    cbn [HexadecimalString.NilEmpty.string_of_uint]; constructor; [reflexivity|reflexivity|exact Hv].
Qed.

(** ** Numbers in messages *)

Lemma unorm_lead d d' : Decimal.unorm d = Decimal.D0 d' -> d' = Decimal.Nil.
Proof.
  unfold Decimal.unorm. assert (H : forall u, Decimal.nzhead d <> Decimal.D0 u) by (induction d; cbn; congruence).
  destruct (Decimal.nzhead d) eqn:E; try discriminate; [|now destruct (H u)]. intros Hz. now inversion Hz.
Qed.
Lemma unorm_hex_lead d d' : Hexadecimal.unorm d = Hexadecimal.D0 d' -> d' = Hexadecimal.Nil.
Proof.
  unfold Hexadecimal.unorm. assert (H : forall u, Hexadecimal.nzhead d <> Hexadecimal.D0 u) by (induction d; cbn; congruence).
  destruct (Hexadecimal.nzhead d) eqn:E; try discriminate; [|now destruct (H u)]. intros Hz. now inversion Hz.
Qed.

Theorem decimal_text n : written 10 (dec n) n.
Proof.
  unfold dec. pose proof (dec_value (N.to_uint n)) as V. rewrite DecimalN.Unsigned.of_to in V.
  assert (L : forall d', N.to_uint n = Decimal.D0 d' -> d' = Decimal.Nil).
  { intros d' H. apply (unorm_lead (N.to_uint n)). rewrite <- DecimalN.Unsigned.to_of, DecimalN.Unsigned.of_to. exact H. }
  assert (Z : N.to_uint n <> Decimal.Nil).
  { rewrite <- (DecimalN.Unsigned.of_to n), DecimalN.Unsigned.to_of. unfold Decimal.unorm.
    now destruct (Decimal.nzhead _). }
  destruct (N.to_uint n); [congruence|..]; (split; [exact V|split; [discriminate|]]); intros s' H; cbn in H; try discriminate.
  rewrite (L u eq_refl) in H. now inversion H.
Qed.

Theorem hexadecimal_text n : written 16 (hex n) n.
Proof.
  unfold hex. pose proof (hex_value (N.to_hex_uint n)) as V. rewrite HexadecimalN.Unsigned.of_to in V.
  assert (L : forall d', N.to_hex_uint n = Hexadecimal.D0 d' -> d' = Hexadecimal.Nil).
  { intros d' H. apply (unorm_hex_lead (N.to_hex_uint n)). rewrite <- HexadecimalN.Unsigned.to_of, HexadecimalN.Unsigned.of_to. exact H. }
  assert (Z : N.to_hex_uint n <> Hexadecimal.Nil).
  { rewrite <- (HexadecimalN.Unsigned.of_to n), HexadecimalN.Unsigned.to_of. unfold Hexadecimal.unorm.
    now destruct (Hexadecimal.nzhead _). }
  destruct (N.to_hex_uint n); [congruence|..]; (split; [exact V|split; [discriminate|]]); intros s' H; cbn in H; try discriminate.
  rewrite (L u eq_refl) in H. now inversion H.
Qed.

(** 4660 and 48879 *)
Example numerals_ex : written 10 "4660" 4660 /\ written 16 "beef" 48879 /\ written 10 "0" 0.
Proof. exact (conj (decimal_text 4660) (conj (hexadecimal_text 48879) (decimal_text 0))). Qed.

(** ** The texts tell the errors apart *)

Lemma numeral_fun base s : forall n m, numeral base s n -> numeral base s m -> n = m.
Proof.
  induction s as [|c s IH]; intros n m H1 H2; inversion H1; inversion H2; subst; [reflexivity|].
  f_equal; [|eauto]. f_equal. congruence.
Qed.
Lemma dec_inj n m : dec n = dec m -> n = m.
Proof. intros E. apply (numeral_fun 10 (dec n)); [apply decimal_text|rewrite E; apply decimal_text]. Qed.
Lemma hex_inj n m : hex n = hex m -> n = m.
Proof. intros E. apply (numeral_fun 16 (hex n)); [apply hexadecimal_text|rewrite E; apply hexadecimal_text]. Qed.

Definition free (c : ascii) : string -> bool := all_chars (fun d => negb (Ascii.eqb d c)).
Lemma numeral_free base s n c : digit c = None -> numeral base s n -> free c s = true.
Proof.
  intros Hc. induction 1 as [|c' s d n Hd Hb Hs IH]; [reflexivity|]. unfold free in *. cbn [all_chars]. rewrite IH, andb_true_r.
  destruct (Ascii.eqb_spec c' c); [congruence|reflexivity].
Qed.
Lemma name_free s c : name_char c = false -> is_name s = true -> free c s = true.
Proof.
  intros Hc. unfold is_name, free. induction s as [|d s IH]; cbn [all_chars]; [reflexivity|]. intros H. apply andb_true_iff in H.
  destruct H as [H1 H2]. rewrite (IH H2), andb_true_r. destruct (Ascii.eqb_spec d c); [congruence|reflexivity].
Qed.
Lemma split_at c a : forall b x y, free c a = true -> free c b = true ->
  (a ++ String c x)%string = (b ++ String c y)%string -> a = b /\ x = y.
Proof.
  unfold free. induction a as [|d a IH]; intros [|d' b] x y Ha Hb H; cbn in *.
  - inversion H. auto.
  - inversion H; subst. rewrite Ascii.eqb_refl in Hb. discriminate.
  - inversion H; subst. rewrite Ascii.eqb_refl in Ha. discriminate.
  - inversion H; subst. apply andb_true_iff in Ha, Hb. destruct (IH b x y (proj2 Ha) (proj2 Hb)) as [-> ->]; auto.
Qed.
Lemma append_inj a : forall x y, (a ++ x)%string = (a ++ y)%string -> x = y.
Proof. induction a as [|c a IH]; cbn; intros x y H; [exact H|]. inversion H. auto. Qed.

Theorem parser_errors_distinct e e' : named e -> named e' -> display_parser_error e = display_parser_error e' -> e = e'.
Proof.
  assert (FD : forall c n, digit c = None -> free c (dec n) = true).
  { intros c n Hc. eapply numeral_free; [exact Hc|apply decimal_text]. }
  assert (FH : forall c n, digit c = None -> free c (hex n) = true).
  { intros c n Hc. eapply numeral_free; [exact Hc|apply hexadecimal_text]. }
  destruct e as [x1 g1|p1 f1|p1 x1 g1|n1], e' as [x2 g2|p2 f2|p2 x2 g2|n2]; cbn [named display_parser_error]; intros N1 N2 H;
    try (cbn in H; discriminate H).
  - apply append_inj in H. apply split_at in H; [|apply FH; reflexivity|apply FH; reflexivity]. destruct H as [E1 H].
    apply (append_inj " got ") in H. now rewrite (hex_inj _ _ E1), (hex_inj _ _ H).
  - apply append_inj in H. apply split_at in H; [|apply name_free; [reflexivity|tauto]|apply name_free; [reflexivity|tauto]].
    destruct H as [-> H]. apply (append_inj "of packet ") in H. now rewrite H.
  - apply append_inj in H. apply split_at in H; [|apply name_free; [reflexivity|tauto]|apply name_free; [reflexivity|tauto]].
    destruct H as [-> H]. apply (append_inj " length, expect ") in H.
    apply split_at in H; [|apply FD; reflexivity|apply FD; reflexivity]. destruct H as [E1 H].
    apply (append_inj " got ") in H. now rewrite (dec_inj _ _ E1), (dec_inj _ _ H).
  - apply append_inj in H. apply split_at in H; [|apply FD; reflexivity|apply FD; reflexivity]. destruct H as [E1 _].
    now rewrite (dec_inj _ _ E1).
Qed.

Example parser_error_texts :
  named (InvalidField "NavPvt" "fix_type") /\
  display_parser_error (InvalidField "NavPvt" "fix_type") = "Invalid field fix_type of packet NavPvt"%string /\
  display_parser_error (InvalidPacketLen "NavPvt" 92 91) = "Invalid packet(NavPvt) length, expect 92, got 91"%string /\
  display_parser_error (InvalidChecksum 48879 10) = "Not valid packet's checksum, expect beef, got a"%string /\
  display_parser_error (OutOfMemory 65543) = "Insufficient parser buffer size, required 65543 bytes"%string.
Proof. repeat split. Qed.

(** Without that the names are names, two errors can read the same *)
Theorem parser_errors_distinct_refuted :
  ~ (forall e e', display_parser_error e = display_parser_error e' -> e = e').
Proof.
  intros H. specialize (H (InvalidField "c" "a of packet b") (InvalidField "b of packet c" "a") eq_refl). discriminate H.
Qed.

Theorem writer_errors_distinct {E} (display : E -> string) :
  (forall x y, display x = display y -> x = y) ->
  forall e e', display_writer_error display e = display_writer_error display e' -> e = e'.
Proof.
  intros Hd [|x] [|y]; cbn [display_writer_error]; intros H; try (cbn in H; discriminate H); [reflexivity|].
  apply append_inj in H. now rewrite (Hd _ _ H).
Qed.

Theorem datetime_errors_distinct e e' : display_datetime_error e = display_datetime_error e' -> e = e'.
Proof. destruct e, e'; cbn; intros H; try reflexivity; discriminate H. Qed.

(** ** The error of a validator *)

Lemma run_validators_err pname fs : forall off payload e,
  Forall field_layout fs -> off + fixed_size fs <= lenN payload ->
  run_validators pname off fs payload = Ret (Err e) ->
  exists k f m v, nth_error fs k = Some f /\ f_map f = Some m /\ m_valid m = Some v /\
    e = InvalidField pname (accessor f) /\
    v (decode (f_ty f) (match f_size f with
                        | Some n => takeN n (dropN (off + offset_of fs k) payload)
                        | None => dropN (off + offset_of fs k) payload end)) = Ret false /\
    Acc off (firstn k fs) payload.
Proof.
  induction fs as [|f fs IH]; intros off payload e L H R; cbn [run_validators] in R; [discriminate|].
  apply Forall_cons_iff in L. destruct L as [Lf L]. cbn in H. fold (fixed_size fs) in H.
  replace (match f_size f with Some n => off + n | None => off end) with (off + field_size f) in R
      by (unfold field_size; destruct (f_size f); lia).
  assert (K : (forall m v, f_map f = Some m -> m_valid m = Some v ->
     v (decode (f_ty f) (match f_size f with
                         | Some n => takeN n (dropN off payload)
                         | None => dropN off payload end)) = Ret true) ->
     run_validators pname (off + field_size f) fs payload = Ret (Err e) ->
     exists k f' m v, nth_error (f :: fs) k = Some f' /\ f_map f' = Some m /\ m_valid m = Some v /\
    e = InvalidField pname (accessor f') /\
    v (decode (f_ty f') (match f_size f' with
                        | Some n => takeN n (dropN (off + offset_of (f :: fs) k) payload)
                        | None => dropN (off + offset_of (f :: fs) k) payload end)) = Ret false /\
    Acc off (firstn k (f :: fs)) payload).
  { intros Hf HR. destruct (IH (off + field_size f) payload e L ltac:(lia) HR) as (k & f' & m & v & H1 & H2 & H3 & H4 & H5 & H6).
    exists (S k), f', m, v. cbn [nth_error offset_of firstn]. rewrite N.add_assoc, Acc_cons. repeat split; auto. }
  unfold field_validator in R. destruct (f_map f) as [m|] eqn:Em; cbn [bind] in R; [|apply K; [discriminate|exact R]].
  destruct (m_valid m) as [v|] eqn:Ev; cbn [bind] in R; [|apply K; [congruence|exact R]].
  rewrite (field_value_read f off payload Lf) in R by lia. cbn [bind] in R.
  destruct (v _) as [ok| |] eqn:Eok; cbn [bind] in R; try discriminate.
  destruct ok; cbn [negb bind] in R.
  - apply K; [|exact R]. intros m' v' H1 H2. congruence.
  - inversion R; subst e. exists 0%nat, f, m, v. cbn [nth_error offset_of firstn]. rewrite N.add_0_r.
    repeat split; auto. intros [|k]; discriminate.
Qed.

Lemma offset_of_firstn fs : forall k j, (j <= k)%nat -> offset_of (firstn k fs) j = offset_of fs j.
Proof.
  induction fs as [|f fs IH]; intros [|k] [|j] H; cbn; try reflexivity; try lia. f_equal. apply IH. lia.
Qed.
Lemma nth_error_firstn {A} (l : list A) : forall k j, (j < k)%nat -> nth_error (firstn k l) j = nth_error l j.
Proof. induction l as [|x l IH]; intros [|k] [|j] H; cbn; try reflexivity; try lia. apply IH. lia. Qed.

(** A wrong length is reported with the name of the packet, the length (or least length) and the actual length; a bad
    field with the name of the packet and of the first bad field *)
Theorem validate_error p payload e : layout_ok (p_fields p) = true -> validate p payload = Ret (Err e) ->
  (exists expect, e = InvalidPacketLen (p_name p) expect (lenN payload) /\ ~ length_accepts p payload /\
     (expect = fixed_size (p_fields p) \/
      exists ns, counted_sizes (p_fields p) payload = Ret ns /\ expect = fixed_size (p_fields p) + sumN ns) /\
     (forallb is_sized (p_fields p) = false -> lenN payload < expect)) \/
  (length_accepts p payload /\
   exists k f, nth_error (p_fields p) k = Some f /\ e = InvalidField (p_name p) (accessor f) /\
     ~ field_accepts (p_fields p) k payload /\ forall j, (j < k)%nat -> field_accepts (p_fields p) j payload).
Proof.
  intros L V. pose proof (layout_fields _ L) as Fl. unfold length_accepts.
  assert (Bad : fixed_size (p_fields p) <= lenN payload -> run_validators (p_name p) 0 (p_fields p) payload = Ret (Err e) ->
    exists k f, nth_error (p_fields p) k = Some f /\ e = InvalidField (p_name p) (accessor f) /\
     ~ field_accepts (p_fields p) k payload /\ forall j, (j < k)%nat -> field_accepts (p_fields p) j payload).
  { intros Hl R. destruct (run_validators_err _ _ 0 payload e Fl ltac:(lia) R) as (k & f & m & v & H1 & H2 & H3 & H4 & H5 & H6).
    exists k, f. split; [exact H1|]. split; [exact H4|]. split.
    - intros HA. specialize (HA f m v H1 H2 H3). unfold field_bytes_at in HA. rewrite N.add_0_l in H5.
      rewrite HA in H5. discriminate.
    - intros j Hj g m' v' G1 G2 G3. rewrite <- (nth_error_firstn _ k j Hj) in G1.
      specialize (H6 j g m' v' G1 G2 G3). rewrite offset_of_firstn, N.add_0_l in H6 by lia. exact H6. }
  destruct (validate_shape p payload L) as [[Hs E]|[(Hs & Hz & E)|(Hs & Hz & E)]]; rewrite Hs; rewrite E in V; clear E.
  - destruct (lenN payload =? fixed_size (p_fields p)) eqn:E.
    + apply N.eqb_eq in E. right. split; [exact E|]. apply Bad; [lia|exact V].
    + apply N.eqb_neq in E. left. inversion V; subst e. eexists. split; [reflexivity|]. split; [congruence|].
      split; [now left|discriminate].
  - destruct (fixed_size (p_fields p) <=? lenN payload) eqn:E.
    + apply N.leb_le in E. right. split; [|apply Bad; [exact E|exact V]]. split; [exact E|].
      exists []. split; [now apply counted_sizes_none|]. cbn. lia.
    + apply N.leb_gt in E. left. inversion V; subst e. eexists. split; [reflexivity|]. split; [lia|].
      split; [now left|intros; lia].
  - destruct (lenN payload <? fixed_size (p_fields p)) eqn:E.
    + apply N.ltb_lt in E. left. inversion V; subst e. eexists. split; [reflexivity|]. split; [lia|].
      split; [now left|intros; lia].
    + apply N.ltb_ge in E. destruct (add_size_fns_counted (p_fields p) payload (fixed_size (p_fields p))) as [_ A2].
      apply bind_Ret in V. destruct V as (t & Ht & V). destruct (A2 t Ht) as (ns & Ec & ->).
      destruct (fixed_size (p_fields p) + sumN ns <=? lenN payload) eqn:E2.
      * apply N.leb_le in E2. right. split; [|apply Bad; [exact E|exact V]]. split; [exact E|]. eauto.
      * apply N.leb_gt in E2. left. inversion V; subst e. eexists. split; [reflexivity|]. split.
        { intros (_ & ns' & Ec' & E3). rewrite Ec' in Ec. inversion Ec; subst. lia. }
        split; [right; eauto|intros; lia].
Qed.

Lemma recv_error_names : forallb (fun p => is_name (p_name p) && forallb (fun f => is_name (accessor f)) (p_fields p)) recv_packets = true.
Proof. vm_compute. reflexivity. Qed.

(** For a packet of the library [validate] returns the error exactly when the payload is not one of the packet, and
    the names in it are names *)
Theorem library_validate_error p payload : In p recv_packets -> lenN payload <= 65535 ->
  (~ accepts p payload <-> exists e, validate p payload = Ret (Err e)) /\
  (forall e, validate p payload = Ret (Err e) -> named e).
Proof.
  intros Hp Hl. pose proof (proj1 (Forall_forall _ _) recv_packets_ok p Hp) as (L & C & Hf).
  destruct (validate_total p payload L C Hl Hf) as (r & V).
  assert (A : validate p payload = Ret (Ok tt) <-> accepts p payload) by (apply validate_accepts; [exact L|unfold usize_max; lia]).
  split.
  - rewrite <- A, V. destruct r as [[]|e]; split.
    + intros H. now destruct H.
    + intros (e & H). discriminate.
    + intros _. eauto.
    + intros _ H. discriminate.
  - intros e He. pose proof (proj1 (forallb_forall _ _) recv_error_names p Hp) as N. apply andb_true_iff in N. destruct N as [N1 N2].
    destruct (validate_error p payload e L He) as [(x & -> & _)|(_ & k & f & Hk & -> & _)]; cbn [named].
    + exact N1.
    + split; [exact N1|]. apply nth_error_In in Hk. exact (proj1 (forallb_forall _ _) N2 f Hk).
Qed.

(** NAV-SAT without its last byte of header and with one byte too many, ESF-MEAS (two measurements announced, none there),
    NAV-PVT without its last byte *)
Example validate_errors_ex :
  validate p_nav_sat (repeat x00 7) = Ret (Err (InvalidPacketLen "NavSat" 8 7)) /\
  validate p_nav_sat (repeat x00 9) = Ret (Err (InvalidField "NavSat" "svs")) /\
  validate p_esf_meas [x00; x00; x00; x00; x00; x10; x00; x00] = Ret (Err (InvalidPacketLen "EsfMeas" 16 8)) /\
  validate p_nav_pvt (repeat x00 91) = Ret (Err (InvalidPacketLen "NavPvt" 92 91)) /\
  validate p_nav_pvt (repeat x00 92) = Ret (Ok tt).
Proof. vm_compute. repeat split. Qed.

Print Assumptions decimal_text.
Print Assumptions hexadecimal_text.
Print Assumptions parser_errors_distinct.
Print Assumptions parser_errors_distinct_refuted.
Print Assumptions writer_errors_distinct.
Print Assumptions datetime_errors_distinct.
Print Assumptions validate_error.
Print Assumptions library_validate_error.
