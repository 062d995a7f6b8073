(** * C52: serialization and debug formatting *)
From Coq Require Import String List NArith ZArith Bool Lia.
From Verif Require Import Base BaseFacts DualBuffer PackDesc GenRecv Dispatch TablePackets SpecPacket SpecDispatch ProofRecv ProofDispatch
  PropDispatch PropIter PropFields PropBits Bits SpecTypes Serialize SpecSerialize.
Import ListNotations.
Open Scope N_scope.
Open Scope list_scope.

(** ** Lemmas *)

Lemma is_optional_single p f : is_optional p f = true <-> In (p_name p, f_name f) single_values.
Proof.
  unfold is_optional. rewrite existsb_exists. split.
  - intros ((a & b) & Hi & E). cbn [fst snd] in E. apply andb_true_iff in E. destruct E as [E1 E2].
    apply String.eqb_eq in E1, E2. subst. unfold optional_fields in Hi. unfold single_values. cbn [In] in *. tauto.
  - intros Hi. exists (p_name p, f_name f). cbn [fst snd]. rewrite !String.eqb_refl. split; [|reflexivity].
    unfold single_values in Hi. unfold optional_fields. cbn [In] in *. tauto.
Qed.

Lemma entries_of p payload gs : Forall (fun g => exists v, g_val g payload = Ret v) gs ->
  exists es, Forall2 (fun g e => carries p g payload e) gs es /\
    forall S state, serialize_getters S p gs payload state =
      Ret (fold_left (fun r e => match r with inl x => inl x | inr s => se_entry S s (fst e) (snd e) end) es (inr state)).
Proof.
  induction gs as [|g gs IH]; intros F.
  - exists []. split; [constructor|]. reflexivity.
  - apply Forall_cons_iff in F. destruct F as [(v & Ev) F]. destruct (IH F) as (es & F2 & H).
    eexists ((f_name (g_field g), match f_size (g_field g) with Some _ => SerField (g_field g) v
       | None => if is_optional p (g_field g) then SerField (g_field g) v else SerSeq (g_field g) v end) :: es). split.
    + constructor; [|exact F2]. split; [reflexivity|]. exists v. split; [exact Ev|]. cbn [snd].
      destruct (f_size (g_field g)); [split; [reflexivity|discriminate]|].
      destruct (is_optional p (g_field g)) eqn:Eo.
      * split; [reflexivity|]. intros _ N. exfalso. apply N. now apply is_optional_single.
      * split; [|reflexivity]. intros [N|N]; [congruence|]. apply is_optional_single in N. congruence.
    + intros S state. cbn [serialize_getters]. unfold entry_value. rewrite Ev. cbn [bind fold_left fst snd].
      destruct (se_entry S state _ _) as [e|state'].
      * f_equal. symmetry. clear. induction es; [reflexivity|]. cbn [fold_left]. assumption.
      * apply H.
Qed.
Lemma give_fold S es : forall state,
  give S state es = match fold_left (fun r e => match r with inl x => inl x | inr s => se_entry S s (fst e) (snd e) end) es (inr state)
                    with inl e => inl e | inr s => se_end S s end.
Proof.
  induction es as [|[k v] es IH]; intros state; [reflexivity|]. cbn [give fold_left fst snd].
  destruct (se_entry S state k v) as [e|s]; [|apply IH].
  replace (fold_left _ es (inl e)) with (@inl (se_error S) (se_state S) e); [reflexivity|].
  clear. induction es; [reflexivity|]. cbn [fold_left]. assumption.
Qed.

Lemma mode_value payload k f g : accepts p_cfg_prt_uart payload -> nth_error (p_fields p_cfg_prt_uart) k = Some f ->
  f_name f = "mode"%string -> nth_error (getters p_cfg_prt_uart) k = Some g ->
  (exists v, g_val g payload = Ret v) <-> (exists m, uart_mode_from (le_value (takeN 4 (dropN 4 payload))) = Ret m).
Proof.
  intros A Ef Em Eg. apply accepts_uart in A. destruct A as [L _].
  assert (k = 3%nat) as ->.
  { do 9 (destruct k as [|k]; [cbn in Ef; injection Ef as <-; first [reflexivity|discriminate Em]|]). destruct k; discriminate Ef. }
  assert (E : existT (fun f => list byte -> res (fvalue f)) (g_field g) (g_val g) =
              existT (fun f => list byte -> res (fvalue f)) (g_field (the_getter p_cfg_prt_uart "mode")) (g_val (the_getter p_cfg_prt_uart "mode"))).
  { assert (g = the_getter p_cfg_prt_uart "mode") as -> by (injection Eg as <-; reflexivity). reflexivity. }
  assert (V : g_val (the_getter p_cfg_prt_uart "mode") payload = uart_mode_from (le_value (takeN 4 (dropN 4 payload)))).
  { change (g_val (the_getter p_cfg_prt_uart "mode") payload) with
    (let! v := (let! l := read_bytes payload 4 4 in Ret (from_le_bytes U32 l)) in let! x := uart_mode_from (Z.to_N v) in Ret x).
    rewrite read_bytes_takeN by lia. cbn [bind]. change (N.of_nat 4) with 4.
    change (Z.to_N (from_le_bytes U32 (takeN 4 (dropN 4 payload)))) with (Z.to_N (Z.of_N (le_value (takeN 4 (dropN 4 payload))))).
    rewrite N2Z.id. destruct (uart_mode_from _); reflexivity. }
  rewrite <- V. assert (g = the_getter p_cfg_prt_uart "mode") as -> by (injection Eg as <-; reflexivity). reflexivity.
Qed.

Lemma readable_mode payload : readable p_cfg_prt_uart payload <-> exists m, uart_mode_from (le_value (takeN 4 (dropN 4 payload))) = Ret m.
Proof.
  destruct (uart_mode_decodes (le_value (takeN 4 (dropN 4 payload)))) as [H1 H2]. split.
  - intros R. destruct (R eq_refl) as [R1 R2]. destruct (H2 R1 R2) as (m & E & _). eauto.
  - intros (m & E) _. cbv zeta. destruct (N.lt_ge_cases (bits (le_value (takeN 4 (dropN 4 payload))) 6 2) 2) as [L|L].
    + rewrite H1 in E by auto. discriminate.
    + split; [exact L|]. intros I. rewrite H1 in E by auto. discriminate.
Qed.

Lemma all_values p payload : In p recv_packets -> lenN payload <= 65535 -> accepts p payload -> readable p payload ->
  Forall (fun g => exists v, g_val g payload = Ret v) (getters p).
Proof.
  intros Hp Hl A Np. apply Forall_forall. intros g Hg. apply In_nth_error in Hg. destruct Hg as (k & Hk).
  destruct (nth_error (p_fields p) k) as [f|] eqn:Ef.
  - destruct (getters_safe p payload k f Hp Hl A Ef) as (g' & a & b & E & _ & _ & _ & _ & [[N N2]|V]).
    + assert (p = p_cfg_prt_uart) as ->.
      { eapply (nodup_map_inj p_name recv_packets); [|exact Hp|unfold recv_packets; in_list|exact N]. exact recv_packets_nodup. }
      apply (mode_value payload k f g A Ef N2 Hk). now apply readable_mode.
    + assert (g' = g) by congruence. subst g'. exact V.
  - exfalso. apply nth_error_None in Ef. assert (k < length (getters p))%nat by (apply nth_error_Some; congruence).
    pose proof (gen_getters_fields (p_fields p) 0 []) as E. apply (f_equal (@length field)) in E. rewrite map_length in E. unfold getters in *. lia.
Qed.

(** ** C52 *)

(** Whatever serializer is used, a delivered packet is written as a map: class, message id, then each field under its
    name, in the order of the declaration, with the value its getter returns.  The serializer's errors are returned. *)
Theorem serialize_entries :
  forall p payload, In p recv_table -> lenN payload <= 65535 -> received p payload -> readable p payload ->
    exists es, Forall2 (fun g e => carries p g payload e)
                 (getters p) es /\
      forall S, serialize_ref S (Known p payload) =
        Ret (write_map S (("class", SerU8 (p_class p)) :: ("msg_id", SerU8 (p_id p)) :: es)%string).
Proof.
  intros p payload Hp Hl R Np. pose proof (recv_table_incl p Hp) as Hp'.
  assert (A : accepts p payload).
  { destruct (dispatch_total (p_class p) (p_id p) payload Hl) as (r & E & D & _). unfold received in R.
    assert (r = Known p payload) by congruence. subst r. inversion D as [b q a E1 F E2 E3|]. apply F. }
  destruct (entries_of p payload (getters p) (all_values p payload Hp' Hl A Np)) as (es & F & H).
  exists es. split; [exact F|]. intros S. unfold serialize_ref, write_map, serialize_fields. destruct (se_map S) as [e|s0]; [reflexivity|].
  cbn [give]. destruct (se_entry S s0 _ _) as [e|s1]; [reflexivity|]. destruct (se_entry S s1 _ _) as [e|s2]; [reflexivity|].
  rewrite H. cbn [bind]. rewrite give_fold. destruct (fold_left _ es (inr s2)); reflexivity.
Qed.

Example serialize_entries_ex :
  In p_nav_vel_ned recv_table /\ received p_nav_vel_ned (repeat x02 36) /\ readable p_nav_vel_ned (repeat x02 36).
Proof.
  split; [unfold recv_table; in_list|]. split; [|intros; discriminate].
  apply received_iff; [unfold recv_table; in_list|discriminate|vm_compute; discriminate|].
  apply validate_accepts; [reflexivity|vm_compute; discriminate|vm_compute; reflexivity].
Qed.
(** A packet of 9 fields in a serializer with room for 5 entries: the error comes after the third field. *)
Example serialize_bounded_ex :
  exists es, serialize_ref (bounded_recorder 5) (Known p_nav_vel_ned (repeat x02 36)) = Ret (inl es) /\
    map fst es = ["class"; "msg_id"; "itow"; "vel_north"; "vel_east"]%string.
Proof. eexists. split; reflexivity. Qed.

(** The same for the groups of NAV-SAT and RXM-RAWX (which the iterators of those packets return): a map of the fields
    alone. *)
Theorem serialize_group_entries :
  forall p payload, In p recv_packets -> lenN payload <= 65535 -> accepts p payload -> readable p payload ->
    exists es, Forall2 (fun g e => carries p g payload e)
                 (getters p) es /\
      forall S, serialize_packet S p payload = Ret (write_map S es).
Proof.
  intros p payload Hp Hl A Np.
  destruct (entries_of p payload (getters p) (all_values p payload Hp Hl A Np)) as (es & F & H).
  exists es. split; [exact F|]. intros S. unfold serialize_packet, write_map, serialize_fields. destruct (se_map S) as [e|s0]; [reflexivity|].
  rewrite H. cbn [bind]. rewrite give_fold. destruct (fold_left _ es (inr s0)); reflexivity.
Qed.
Example serialize_group_entries_ex :
  In p_nav_sat_sv_info recv_packets /\ accepts p_nav_sat_sv_info (repeat x00 12) /\
  exists es, serialize_packet recorder p_nav_sat_sv_info (repeat x00 12) = Ret (inr es) /\
    map fst es = ["gnss_id"; "sv_id"; "cno"; "elev"; "azim"; "pr_res"; "flags"]%string.
Proof.
  split; [unfold recv_packets; in_list|]. split; [|eexists; split; reflexivity].
  apply validate_accepts; [reflexivity|vm_compute; discriminate|vm_compute; reflexivity].
Qed.

(** An unknown packet is written with its payload, class and id. *)
Theorem serialize_unknown :
  forall S payload class id,
    serialize_ref S (Unknown payload class id) =
      Ret (write_map S [("payload", SerBytes payload); ("class", SerU8 class); ("msg_id", SerU8 id)]%string).
Proof.
  intros S payload c i. unfold serialize_ref, write_map. destruct (se_map S) as [e|s0]; [reflexivity|]. cbn [give].
  destruct (se_entry S s0 _ _) as [e|s1]; [reflexivity|]. destruct (se_entry S s1 _ _) as [e|s2]; [reflexivity|].
  destruct (se_entry S s2 _ _); reflexivity.
Qed.

(** The keys of the map written for a packet are pairwise different, but for three types. *)
Definition keys (p : pack_desc) : list string := ("class" :: "msg_id" :: map f_name (p_fields p))%string.
Definition repeats_keys : list string := ["AckAck"; "AckNak"; "MgaAck"]%string.

Fixpoint no_dup (l : list string) : bool :=
  match l with [] => true | x :: l' => negb (existsb (String.eqb x) l') && no_dup l' end.
Lemma no_dup_iff l : no_dup l = true <-> NoDup l.
Proof.
  induction l as [|x l IH]; [split; [constructor|reflexivity]|]. cbn [no_dup]. rewrite andb_true_iff, negb_true_iff, IH, NoDup_cons_iff.
  assert (existsb (String.eqb x) l = false <-> ~ In x l); [|tauto].
  rewrite <- not_true_iff_false, existsb_exists. split.
  - intros H Hi. apply H. exists x. split; [exact Hi|apply String.eqb_refl].
  - intros H (y & Hy & E). apply String.eqb_eq in E. subst. auto.
Qed.
Lemma keys_of p payload es : In p recv_table -> Forall2 (fun g e => carries p g payload e) (getters p) es ->
  map fst es = map f_name (p_fields p).
Proof.
  intros _ F. rewrite <- (gen_getters_fields (p_fields p) 0 []). fold (getters p). rewrite map_map.
  induction F as [|g e gs es (H & _) F IH]; [reflexivity|]. cbn [map]. f_equal; assumption.
Qed.

Theorem serialize_keys :
  forall p payload es, In p recv_table -> lenN payload <= 65535 -> received p payload -> readable p payload ->
    serialize_ref recorder (Known p payload) = Ret (inr es) ->
    map fst es = keys p /\ (NoDup (map fst es) <-> ~ In (p_name p) repeats_keys).
Proof.
  intros p payload es Hp Hl R Np E. destruct (serialize_entries p payload Hp Hl R Np) as (l & F & H). rewrite (H recorder) in E.
  assert (W : forall l s, give recorder s l = inr (s ++ l)).
  { clear. induction l as [|[k v] l IH]; intros s; cbn [give recorder se_end se_entry]; [now rewrite app_nil_r|].
    change (give recorder (s ++ [(k, v)]) l = inr (s ++ (k, v) :: l)). rewrite IH, <- app_assoc. reflexivity. }
  assert (Ees : es = ("class"%string, SerU8 (p_class p)) :: ("msg_id"%string, SerU8 (p_id p)) :: l).
  { unfold write_map in E. change (se_map recorder) with (@inr unit (list (string * ser_value)) []) in E. cbn iota in E. rewrite W in E.
    cbn [app] in E. congruence. }
  assert (K : map fst es = keys p).
  { rewrite Ees. unfold keys. cbn [map fst]. do 2 f_equal. exact (keys_of p payload l Hp F). }
  split; [exact K|]. rewrite K, <- no_dup_iff.
  assert (T : forallb (fun p => Bool.eqb (no_dup (keys p)) (negb (existsb (String.eqb (p_name p)) repeats_keys))) recv_table = true)
    by (vm_compute; reflexivity).
  rewrite forallb_forall in T. specialize (T p Hp). apply Bool.eqb_prop in T. rewrite T, negb_true_iff, <- not_true_iff_false, existsb_exists.
  split; intros N H1; apply N.
  - exists (p_name p). split; [exact H1|apply String.eqb_refl].
  - destruct H1 as (y & Hy & Ey). apply String.eqb_eq in Ey. congruence.
Qed.
Example serialize_keys_ex :
  exists es, serialize_ref recorder (Known p_nav_vel_ned (repeat x02 36)) = Ret (inr es) /\ lenN es = 11.
Proof. eexists. split; reflexivity. Qed.

(** Violation: the acknowledgement of CFG-PRT (06 00) is written with two different values under "class", and two under
    "msg_id": a reader of the map that keeps one value of each cannot tell which. *)
Theorem serialize_keys_refuted :
  ~ (forall p payload es, In p recv_table -> received p payload -> serialize_ref recorder (Known p payload) = Ret (inr es) ->
       NoDup (map fst es)).
Proof.
  intros H. specialize (H p_ack_ack [x06; x00]).
  assert (R : received p_ack_ack [x06; x00]).
  { apply received_iff; [unfold recv_table; in_list|discriminate|vm_compute; discriminate|].
    apply validate_accepts; [reflexivity|vm_compute; discriminate|vm_compute; reflexivity]. }
  specialize (H _ ltac:(unfold recv_table; in_list) R eq_refl). apply no_dup_iff in H. vm_compute in H. discriminate.
Qed.

(** ** Formatting for debugging *)

(** Every delivered packet, and every group, can be formatted: the names of all fields with the values of their
    getters. *)
Theorem debug_total :
  forall p payload, In p recv_packets -> lenN payload <= 65535 -> accepts p payload -> readable p payload ->
    exists l, debug_packet p payload = Ret (p_name p, l) /\ map fst l = map f_name (p_fields p) /\
      Forall2 (fun g x => exists v, g_val g payload = Ret v /\ snd x = existT _ (g_field g) v) (getters p) l.
Proof.
  intros p payload Hp Hl A Np. pose proof (all_values p payload Hp Hl A Np) as F.
  assert (G : forall gs, Forall (fun g => exists v, g_val g payload = Ret v) gs ->
     exists l, debug_getters gs payload = Ret l /\ map fst l = map (fun g => f_name (g_field g)) gs /\
      Forall2 (fun g x => exists v, g_val g payload = Ret v /\ snd x = existT _ (g_field g) v) gs l).
  { clear. induction gs as [|g gs IH]; intros F; [exists []; repeat split; constructor|].
    apply Forall_cons_iff in F. destruct F as [(v & Ev) F]. destruct (IH F) as (l & E & M & F2). eexists. cbn [debug_getters]. rewrite Ev, E.
    cbn [bind]. split; [reflexivity|]. split; [cbn [map fst]; now f_equal|]. constructor; [|exact F2]. eauto. }
  destruct (G _ F) as (l & E & M & F2). exists l. unfold debug_packet. rewrite E. split; [reflexivity|]. split; [|exact F2].
  rewrite M, <- (gen_getters_fields (p_fields p) 0 []), map_map. reflexivity.
Qed.
Example debug_total_ex : In p_nav_sat recv_packets /\ accepts p_nav_sat (repeat x00 20).
Proof.
  split; [unfold recv_packets; in_list|]. apply validate_accepts; [reflexivity|vm_compute; discriminate|vm_compute; reflexivity].
Qed.

(** Violation: every UART configuration with another mode is delivered, but can be neither serialized nor formatted. *)
Theorem serialize_uart_refuted :
  forall payload, lenN payload <= 65535 -> received p_cfg_prt_uart payload -> ~ readable p_cfg_prt_uart payload ->
    serialize_ref recorder (Known p_cfg_prt_uart payload) = Panic /\ debug_packet p_cfg_prt_uart payload = Panic.
Proof.
  intros payload Hl R Nr. apply received_iff in R; [|unfold recv_table; in_list|discriminate|exact Hl].
  pose proof R as A. apply accepts_uart in A. destruct A as [L _].
  assert (M : uart_mode_from (le_value (takeN 4 (dropN 4 payload))) = Panic).
  { destruct (uart_mode_decodes (le_value (takeN 4 (dropN 4 payload)))) as [H1 H2].
    destruct (N.lt_ge_cases (bits (le_value (takeN 4 (dropN 4 payload))) 6 2) 2) as [Lt|Ge]; [apply H1; auto|].
    destruct (in_dec N.eq_dec (bits (le_value (takeN 4 (dropN 4 payload))) 9 3) [2; 3; 6; 7]) as [I|I]; [apply H1; auto|].
    destruct Nr. intros _. auto. }
  assert (V : g_val (the_getter p_cfg_prt_uart "mode") payload = Panic).
  { change (g_val (the_getter p_cfg_prt_uart "mode") payload) with
    (let! v := (let! l := read_bytes payload 4 4 in Ret (from_le_bytes U32 l)) in let! x := uart_mode_from (Z.to_N v) in Ret x).
    rewrite read_bytes_takeN by lia. cbn [bind]. change (N.of_nat 4) with 4.
    change (Z.to_N (from_le_bytes U32 (takeN 4 (dropN 4 payload)))) with (Z.to_N (Z.of_N (le_value (takeN 4 (dropN 4 payload))))).
    rewrite N2Z.id, M. reflexivity. }
  assert (F : forall k g, nth_error (getters p_cfg_prt_uart) k = Some g -> k <> 3%nat -> exists v, g_val g payload = Ret v).
  { intros k g Hk Nk. destruct (nth_error (p_fields p_cfg_prt_uart) k) as [f|] eqn:Ef.
    - destruct (getters_safe p_cfg_prt_uart payload k f ltac:(unfold recv_packets; in_list) Hl R Ef) as (g' & a & b & E & _ & _ & _ & _ & [[_ N2]|W]).
      + exfalso. apply Nk. do 9 (destruct k as [|k]; [cbn in Ef; injection Ef as <-; first [reflexivity|discriminate N2]|]). destruct k; discriminate Ef.
      + assert (g' = g) by congruence. subst g'. exact W.
    - exfalso. do 9 (destruct k as [|k]; [discriminate Ef|]). destruct k; discriminate Hk. }
  assert (G : exists g0 g1 g2 g3 rest, getters p_cfg_prt_uart = g0 :: g1 :: g2 :: g3 :: rest /\ g3 = the_getter p_cfg_prt_uart "mode")
    by (repeat eexists).
  destruct G as (g0 & g1 & g2 & g3 & rest & G & E3).
  destruct (F 0%nat g0) as (v0 & V0); [rewrite G; reflexivity|discriminate|].
  destruct (F 1%nat g1) as (v1 & V1); [rewrite G; reflexivity|discriminate|].
  destruct (F 2%nat g2) as (v2 & V2); [rewrite G; reflexivity|discriminate|].
  assert (V3 : g_val g3 payload = Panic) by (subst g3; exact V).
  split.
  - unfold serialize_ref, serialize_fields. rewrite G. cbn [recorder se_map se_entry serialize_getters]. unfold entry_value.
    rewrite V0. cbn [bind]. rewrite V1. cbn [bind]. rewrite V2. cbn [bind]. rewrite V3. reflexivity.
  - unfold debug_packet. rewrite G. cbn [debug_getters]. rewrite V0. cbn [bind]. rewrite V1. cbn [bind]. rewrite V2. cbn [bind]. rewrite V3. reflexivity.
Qed.
Example serialize_uart_ex :
  let payload := x01 :: repeat x00 19 in received p_cfg_prt_uart payload /\ ~ readable p_cfg_prt_uart payload.
Proof.
  split.
  - apply received_iff; [unfold recv_table; in_list|discriminate|vm_compute; discriminate|].
    apply validate_accepts; [reflexivity|vm_compute; discriminate|vm_compute; reflexivity].
  - intros R. destruct (R eq_refl) as [R1 _]. vm_compute in R1. apply R1. reflexivity.
Qed.

Print Assumptions serialize_entries.
Print Assumptions serialize_group_entries.
Print Assumptions serialize_unknown.
Print Assumptions serialize_keys.
Print Assumptions serialize_keys_refuted.
Print Assumptions debug_total.
Print Assumptions serialize_uart_refuted.
