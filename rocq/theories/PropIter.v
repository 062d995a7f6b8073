(** * Properties of the repeated groups and the text fields (C33 - C36) *)
From Coq Require Import String List NArith ZArith Bool Lia ZifyBool ZifyNat ZifyN.
From Verif Require Import Base BaseFacts DualBuffer PackDesc GenRecv Dispatch Utf8 Iterators TablePackets SpecPacket SpecDispatch
  SpecTypes ProofRecv ProofTable ProofDispatch ProofText PropDispatch.
Import ListNotations.
Open Scope N_scope.
Open Scope list_scope.

(** The parser delivers this payload, under the class and id of [p], as a packet of type [p] *)
Definition received (p : pack_desc) (payload : list byte) : Prop :=
  match_packet recv_table (p_class p) (p_id p) payload = Ret (Ok (Known p payload)).

Definition NavSat_svs : list byte -> res offset_iter := g_val (the_getter p_nav_sat "svs").
Definition NavSat_num_svs : list byte -> res Z := g_val (the_getter p_nav_sat "num_svs").
Definition RxmRawx_measurements : list byte -> res (list byte) := g_val (the_getter p_rxm_rawx "measurements").
Definition RxmRawx_num_meas : list byte -> res Z := g_val (the_getter p_rxm_rawx "num_meas").
Definition RxmSfrbx_dwrd : list byte -> res (list byte) := g_val (the_getter p_rxm_sfrbx "dwrd").
Definition RxmSfrbx_num_words : list byte -> res Z := g_val (the_getter p_rxm_sfrbx "num_words").
Definition EsfRaw_data : list byte -> res (list byte) := g_val (the_getter p_esf_raw "data").
Definition EsfMeas_data : list byte -> res (list byte) := g_val (the_getter p_esf_meas "data").
Definition EsfMeas_calib_tag : list byte -> res (option N) := g_val (the_getter p_esf_meas "calib_tag").
Definition MonVer_software_version : list byte -> res (list byte) := g_val (the_getter p_mon_ver "software_version").
Definition MonVer_hardware_version : list byte -> res (list byte) := g_val (the_getter p_mon_ver "hardware_version").
Definition MonVer_extension : list byte -> res offset_iter := g_val (the_getter p_mon_ver "extension").

Lemma received_iff p payload : In p recv_table -> p_name p <> "MgaGpsEPH"%string -> lenN payload <= 65535 ->
  received p payload <-> accepts p payload.
Proof.
  intros Hp Np Hl. destruct (dispatch_total (p_class p) (p_id p) payload Hl) as (r & E & _).
  pose proof (dispatch_exact _ _ payload p r Hl Hp Np E) as D. unfold received. rewrite E. split.
  - intros H. apply D. congruence.
  - intros A. do 2 f_equal. apply D. auto.
Qed.

(** Every check of the fields of a description, spelled out *)
Fixpoint checks_at (off : N) (fs : list field) (payload : list byte) : Prop :=
  match fs with
  | [] => True
  | f :: fs' =>
      (forall m v, f_map f = Some m -> m_valid m = Some v ->
         v (decode (f_ty f) (match f_size f with Some n => takeN n (dropN off payload) | None => dropN off payload end)) = Ret true)
      /\ checks_at (off + field_size f) fs' payload
  end.
Lemma checks_at_iff fs payload : forall off,
  checks_at off fs payload <->
  forall k f m v, nth_error fs k = Some f -> f_map f = Some m -> m_valid m = Some v ->
    v (decode (f_ty f) (match f_size f with Some n => takeN n (dropN (off + offset_of fs k) payload)
                        | None => dropN (off + offset_of fs k) payload end)) = Ret true.
Proof.
  induction fs as [|f fs IH]; intros off; cbn [checks_at].
  - split; [|auto]. intros _ k f m v H. destruct k; discriminate.
  - rewrite IH. split.
    + intros (H0 & H) k f' m v Hk Em Ev. destruct k as [|k]; cbn [nth_error] in Hk.
      * injection Hk as <-. cbn [offset_of]. rewrite N.add_0_r. apply (H0 m v Em Ev).
      * cbn [offset_of]. rewrite N.add_assoc. apply (H k f' m v Hk Em Ev).
    + intros H. split.
      * intros m v Em Ev. specialize (H O f m v eq_refl Em Ev). cbn [offset_of] in H. rewrite N.add_0_r in H. exact H.
      * intros k f' m v Hk Em Ev. specialize (H (S k) f' m v Hk Em Ev). cbn [offset_of] in H. rewrite N.add_assoc in H. exact H.
Qed.
Lemma accepts_checks p payload : accepts p payload <-> length_accepts p payload /\ checks_at 0 (p_fields p) payload.
Proof.
  unfold accepts. rewrite checks_at_iff. unfold field_accepts, field_bytes_at. split; intros [H1 H2]; (split; [exact H1|]); exact H2.
Qed.

Definition unchecked (f : field) : bool :=
  match f_map f with Some m => match m_valid m with Some _ => false | None => true end | None => true end.
Lemma checks_none fs payload : forallb unchecked fs = true -> forall off, checks_at off fs payload.
Proof.
  intros H. induction fs as [|f fs IH]; intros off; [exact I|]. cbn [forallb checks_at] in *. apply andb_true_iff in H. destruct H as [H1 H2].
  split; [|now apply IH]. intros m v Em Ev. unfold unchecked in H1. rewrite Em, Ev in H1. discriminate.
Qed.

(** A description with unchecked fixed fields and a checked rest *)
Lemma accepts_rest p payload off is_valid A new ok sc into init last :
  p_fields p = init ++ [last] ->
  forallb unchecked init = true ->
  forallb is_sized (p_fields p) = false ->
  forallb (fun f => match f_size_fn f with None => true | Some _ => false end) (p_fields p) = true ->
  fixed_size (p_fields p) = off -> fixed_size init = off ->
  (exists n al g, last = mk_field n al (Bytes 0)
     (Some (mk_mapping (t := Bytes 0) A ok new (Some (fun l => Ret (is_valid l))) sc into)) g None) ->
  accepts p payload <-> off <= lenN payload /\ is_valid (dropN off payload) = true.
Proof.
  intros Ef Nc Ns Nf Hs Hi (n & al & g & El). rewrite accepts_checks. unfold length_accepts. rewrite Ns, Hs.
  assert (Cs : counted_sizes (p_fields p) payload = Ret []).
  { clear - Nf. induction (p_fields p) as [|f fs IH]; [reflexivity|]. cbn [forallb counted_sizes] in *.
    destruct (f_size_fn f); [discriminate|]. exact (IH Nf). }
  rewrite Cs.
  assert (L : off <= lenN payload /\ (exists ns, Ret (@nil N) = Ret ns /\ off + sumN ns <= lenN payload) <-> off <= lenN payload).
  { split; [tauto|]. intros H. split; [exact H|]. exists []. split; [reflexivity|]. cbn. lia. }
  rewrite L. apply and_iff_compat_l. rewrite Ef. clear - Nc Hi El.
  assert (G : forall o, checks_at o (init ++ [last]) payload <-> is_valid (dropN (o + fixed_size init) payload) = true).
  { clear Hi. induction init as [|f fs IH]; intros o.
    - cbn [app checks_at fixed_size fold_right]. subst last. cbn. rewrite N.add_0_r. split.
      + intros (H & _). specialize (H _ _ eq_refl eq_refl). cbn in H. congruence.
      + intros H. split; [|exact I]. intros m v Em Ev. injection Em as <-. cbn in Ev. injection Ev as <-. now rewrite H.
    - cbn [forallb] in Nc. apply andb_true_iff in Nc. destruct Nc as [N1 N2]. specialize (IH N2). cbn [app checks_at]. rewrite IH.
      cbn [fixed_size fold_right]. fold (fixed_size fs). rewrite N.add_assoc. split; [tauto|]. intros H. split; [|exact H].
      intros m v Em Ev. unfold unchecked in N1. rewrite Em, Ev in N1. discriminate. }
  rewrite G, N.add_0_l, Hi. reflexivity.
Qed.

(** ** C33 *)

(** NAV-SAT: delivered when there is a header and whole groups of 12 bytes; [svs()] yields each group once, in order,
    and every group can be read. *)
Lemma nav_sat_item data off : off + 12 <= lenN data -> lenN data <= usize_max ->
  nav_sat_next (mk_offset_iter data off) = let! x := Ret (takeN 12 (dropN off data)) in Ret (Some (x, mk_offset_iter data (off + 12))).
Proof.
  intros H1 H2. unfold nav_sat_next. cbn [oi_data oi_offset]. replace (off <? lenN data) with true by (symmetry; lia).
  rewrite uadd_ok by lia. cbn [bind]. rewrite slice_ok by lia. cbn [bind]. do 4 f_equal. lia.
Qed.

Theorem nav_sat_accepts :
  forall payload, lenN payload <= 65535 ->
    (received p_nav_sat payload <-> 8 <= lenN payload /\ (lenN payload - 8) mod 12 = 0).
Proof.
  intros payload Hl. rewrite received_iff; [|unfold recv_table; in_list|discriminate|exact Hl].
  erewrite accepts_rest with (off := 8) (is_valid := nav_sat_is_valid) (init := firstn 4 (p_fields p_nav_sat));
    try reflexivity; [|do 3 eexists; reflexivity].
  unfold nav_sat_is_valid. rewrite lenN_dropN. split; intros [H1 H2]; (split; [exact H1|lia]).
Qed.

Theorem nav_sat_groups :
  forall payload, lenN payload <= 65535 -> received p_nav_sat payload ->
    exists it groups, NavSat_svs payload = Ret it /\
      blocks 12 (dropN 8 payload) groups /\ yields nav_sat_next it groups /\ Forall (accepts p_nav_sat_sv_info) groups.
Proof.
  intros payload Hl R. apply nav_sat_accepts in R; [|exact Hl]. destruct R as [H1 H2].
  destruct (blocks_exist 12 (dropN 8 payload)) as (bs & B); [lia|rewrite lenN_dropN; exact H2|].
  exists (mk_offset_iter (dropN 8 payload) 0), bs. split.
  - unfold NavSat_svs. change (g_val (the_getter p_nav_sat "svs") payload) with
      (let! v := (let! l := slice_from payload 8 in Ret l) in Ret (offset_iter_new v)).
    rewrite slice_from_ok by lia. reflexivity.
  - split; [exact B|]. split.
    + apply (offset_iter_yields _ 12 (fun b => Ret b) bs); [lia|exact nav_sat_item| | | | |].
      * intros data off H. unfold nav_sat_next. cbn [oi_data oi_offset]. replace (off <? lenN data) with false by (symmetry; lia). reflexivity.
      * rewrite lenN_dropN. unfold usize_max. lia.
      * lia.
      * rewrite dropN_0. exact B.
      * clear. induction bs; constructor; auto.
    + destruct B as [_ F]. eapply Forall_impl; [|exact F]. intros b Hb. apply accepts_checks. split; [exact Hb|].
      apply checks_none. reflexivity.
Qed.
Example nav_sat_ex :
  received p_nav_sat (repeat x02 32) /\
  NavSat_svs (repeat x02 32) = Ret (mk_offset_iter (repeat x02 24) 0) /\
  yields nav_sat_next (mk_offset_iter (repeat x02 24) 0) [repeat x02 12; repeat x02 12].
Proof.
  split; [apply nav_sat_accepts; [vm_compute; discriminate|split; [vm_compute; discriminate|reflexivity]]|].
  split; [vm_compute; reflexivity|].
  eapply yields_item; [vm_compute; reflexivity|]. eapply yields_item; [vm_compute; reflexivity|]. apply yields_end. vm_compute. reflexivity.
Qed.

(** Violation of what the name promises: the number of groups is that of the payload, not [num_svs()]. *)
Theorem nav_sat_num_svs_refuted :
  exists payload it groups, received p_nav_sat payload /\ NavSat_num_svs payload = Ret 2%Z /\
    NavSat_svs payload = Ret it /\ yields nav_sat_next it groups /\ lenN groups = 0.
Proof.
  exists [x00; x00; x00; x00; x01; x02; x00; x00], (mk_offset_iter [] 0), []. split; [apply nav_sat_accepts; [vm_compute; discriminate|split; [vm_compute; discriminate|reflexivity]]|].
  split; [reflexivity|]. split; [reflexivity|]. split; [apply yields_end; reflexivity|reflexivity].
Qed.

(** RXM-RAWX *)
Lemma chunks_next_none n it : lenN it < n -> chunks_exact_next n it = None.
Proof. intros H. unfold chunks_exact_next. destruct (N.ltb_spec (lenN it) n); [reflexivity|lia]. Qed.
Lemma chunks_next_some n it : n <= lenN it -> chunks_exact_next n it = Some (takeN n it, dropN n it).
Proof. intros H. unfold chunks_exact_next. destruct (N.ltb_spec (lenN it) n); [lia|reflexivity]. Qed.
Lemma forall2_map {A B} (P : A -> B -> Prop) (f : A -> B) l : Forall (fun x => P x (f x)) l -> Forall2 P l (map f l).
Proof. induction 1; cbn; constructor; auto. Qed.

Theorem rxm_rawx_accepts :
  forall payload, lenN payload <= 65535 ->
    (received p_rxm_rawx payload <-> 16 <= lenN payload /\ (lenN payload - 16) mod 32 = 0).
Proof.
  intros payload Hl. rewrite received_iff; [|unfold recv_table; in_list|discriminate|exact Hl].
  erewrite accepts_rest with (off := 16) (is_valid := rawx_is_valid) (init := firstn 7 (p_fields p_rxm_rawx));
    try reflexivity; [|do 3 eexists; reflexivity].
  unfold rawx_is_valid. rewrite lenN_dropN. split; intros [H1 H2]; (split; [exact H1|lia]).
Qed.

Theorem rxm_rawx_groups :
  forall payload, lenN payload <= 65535 -> received p_rxm_rawx payload ->
    exists it groups, RxmRawx_measurements payload = Ret it /\
      blocks 32 (dropN 16 payload) groups /\ yields rawx_next it groups /\ Forall (accepts p_rxm_rawx_info) groups.
Proof.
  intros payload Hl R. apply rxm_rawx_accepts in R; [|exact Hl]. destruct R as [H1 H2].
  destruct (blocks_exist 32 (dropN 16 payload)) as (bs & B); [lia|rewrite lenN_dropN; exact H2|].
  exists (dropN 16 payload), bs. split.
  - unfold RxmRawx_measurements. change (g_val (the_getter p_rxm_rawx "measurements") payload) with
      (let! v := (let! l := slice_from payload 16 in Ret l) in Ret (rawx_new v)).
    rewrite slice_from_ok by lia. cbn [bind]. f_equal. apply chunks_exact_all; [lia|]. rewrite lenN_dropN. exact H2.
  - split; [exact B|]. split.
    + apply (chunks_iter_yields _ 32 (fun b => Ret b) bs); [lia| | |exact B|].
      * intros it H. unfold rawx_next. now rewrite chunks_next_some.
      * intros it H. unfold rawx_next. now rewrite chunks_next_none.
      * clear. induction bs; constructor; auto.
    + destruct B as [_ F]. eapply Forall_impl; [|exact F]. intros b Hb. apply accepts_checks. split; [exact Hb|].
      apply checks_none. reflexivity.
Qed.
Example rxm_rawx_ex : received p_rxm_rawx (repeat x01 80).
Proof. apply rxm_rawx_accepts; [vm_compute; discriminate|split; [vm_compute; discriminate|reflexivity]]. Qed.

Theorem rxm_rawx_num_meas_refuted :
  exists payload it groups, received p_rxm_rawx payload /\ RxmRawx_num_meas payload = Ret 1%Z /\
    RxmRawx_measurements payload = Ret it /\ yields rawx_next it groups /\ lenN groups = 0.
Proof.
  exists (repeat x01 16), [], []. split; [apply rxm_rawx_accepts; [vm_compute; discriminate|split; [vm_compute; discriminate|reflexivity]]|].
  split; [reflexivity|]. split; [reflexivity|]. split; [apply yields_end; reflexivity|reflexivity].
Qed.

(** RXM-SFRBX: 32-bit words *)
Theorem rxm_sfrbx_accepts :
  forall payload, lenN payload <= 65535 ->
    (received p_rxm_sfrbx payload <-> 8 <= lenN payload /\ (lenN payload - 8) mod 4 = 0).
Proof.
  intros payload Hl. rewrite received_iff; [|unfold recv_table; in_list|discriminate|exact Hl].
  erewrite accepts_rest with (off := 8) (is_valid := dwrd_is_valid) (init := firstn 8 (p_fields p_rxm_sfrbx));
    try reflexivity; [|do 3 eexists; reflexivity].
  unfold dwrd_is_valid. rewrite lenN_dropN. split; intros [H1 H2]; (split; [exact H1|lia]).
Qed.

Theorem rxm_sfrbx_words :
  forall payload, lenN payload <= 65535 -> received p_rxm_sfrbx payload ->
    exists it groups, RxmSfrbx_dwrd payload = Ret it /\
      blocks 4 (dropN 8 payload) groups /\ yields dwrd_next it (map le_value groups).
Proof.
  intros payload Hl R. apply rxm_sfrbx_accepts in R; [|exact Hl]. destruct R as [H1 H2].
  destruct (blocks_exist 4 (dropN 8 payload)) as (bs & B); [lia|rewrite lenN_dropN; exact H2|].
  exists (dropN 8 payload), bs. split.
  - unfold RxmSfrbx_dwrd. change (g_val (the_getter p_rxm_sfrbx "dwrd") payload) with
      (let! v := (let! l := slice_from payload 8 in Ret l) in Ret (dwrd_new v)).
    rewrite slice_from_ok by lia. cbn [bind]. f_equal. apply chunks_exact_all; [lia|]. rewrite lenN_dropN. exact H2.
  - split; [exact B|].
    apply (chunks_iter_yields _ 4 u32_of_slice bs); [lia| | |exact B|].
    + intros it H. unfold dwrd_next. now rewrite chunks_next_some.
    + intros it H. unfold dwrd_next. now rewrite chunks_next_none.
    + apply forall2_map. destruct B as [_ F]. eapply Forall_impl; [|exact F]. intros b Hb. cbn beta in Hb. unfold u32_of_slice. rewrite Hb, le_num_value. reflexivity.
Qed.
Example rxm_sfrbx_ex :
  received p_rxm_sfrbx [x00; x01; x00; x00; x01; x00; x02; x00; x78; x56; x34; x12] /\
  yields dwrd_next [x78; x56; x34; x12] [0x12345678].
Proof.
  split; [apply rxm_sfrbx_accepts; [vm_compute; discriminate|split; [vm_compute; discriminate|reflexivity]]|].
  eapply yields_item; [vm_compute; reflexivity|]. apply yields_end. reflexivity.
Qed.

Theorem rxm_sfrbx_num_words_refuted :
  exists payload it groups, received p_rxm_sfrbx payload /\ RxmSfrbx_num_words payload = Ret 1%Z /\
    RxmSfrbx_dwrd payload = Ret it /\ yields dwrd_next it groups /\ lenN groups = 0.
Proof.
  exists (repeat x01 8), [], []. split; [apply rxm_sfrbx_accepts; [vm_compute; discriminate|split; [vm_compute; discriminate|reflexivity]]|].
  split; [reflexivity|]. split; [reflexivity|]. split; [apply yields_end; reflexivity|reflexivity].
Qed.

(** ESF-RAW: the type in the top 8 bits of the first word, the value in its low 24 bits, and the time tag *)
Definition raw_item (b : list byte) : esf_raw_data :=
  mk_esf_raw_data (bits (le_value (takeN 4 b)) 24 8) (bits (le_value (takeN 4 b)) 0 24) (le_value (dropN 4 b)).

Theorem esf_raw_accepts :
  forall payload, lenN payload <= 65535 ->
    (received p_esf_raw payload <-> 4 <= lenN payload /\ (lenN payload - 4) mod 8 = 0).
Proof.
  intros payload Hl. rewrite received_iff; [|unfold recv_table; in_list|discriminate|exact Hl].
  erewrite accepts_rest with (off := 4) (is_valid := esf_raw_is_valid) (init := firstn 1 (p_fields p_esf_raw));
    try reflexivity; [|do 3 eexists; reflexivity].
  unfold esf_raw_is_valid. rewrite lenN_dropN. split; intros [H1 H2]; (split; [exact H1|lia]).
Qed.

Lemma land_ones_bits w n : N.land w (N.ones n) = bits w 0 n.
Proof. unfold bits. now rewrite N.land_ones, N.div_1_r. Qed.
Lemma shift_land_bits w p n : N.land (N.shiftr w p) (N.ones n) = bits w p n.
Proof. unfold bits. now rewrite N.land_ones, N.shiftr_div_pow2. Qed.
Lemma bits_bound w p n : bits w p n < 2 ^ n.
Proof. unfold bits. apply N.mod_lt. apply N.pow_nonzero. lia. Qed.

Theorem esf_raw_items :
  forall payload, lenN payload <= 65535 -> received p_esf_raw payload ->
    exists it groups, EsfRaw_data payload = Ret it /\
      blocks 8 (dropN 4 payload) groups /\ yields esf_raw_next it (map raw_item groups).
Proof.
  intros payload Hl R. apply esf_raw_accepts in R; [|exact Hl]. destruct R as [H1 H2].
  destruct (blocks_exist 8 (dropN 4 payload)) as (bs & B); [lia|rewrite lenN_dropN; exact H2|].
  exists (dropN 4 payload), bs. split.
  - unfold EsfRaw_data. change (g_val (the_getter p_esf_raw "data") payload) with
      (let! v := (let! l := slice_from payload 4 in Ret l) in Ret (esf_raw_new v)).
    rewrite slice_from_ok by lia. cbn [bind]. f_equal. apply chunks_exact_all; [lia|]. rewrite lenN_dropN. exact H2.
  - split; [exact B|].
    apply (chunks_iter_yields _ 8 (fun b => Ret (raw_item b)) bs); [lia| | |exact B|].
    + intros it H. unfold esf_raw_next. rewrite chunks_next_some by exact H.
      assert (L8 : lenN (takeN 8 it) = 8) by (rewrite lenN_takeN; lia). set (b := takeN 8 it) in *. clearbody b.
      rewrite slice_ok by lia. cbn [bind]. change (4 - 0) with 4. rewrite dropN_0.
      assert (L4 : lenN (takeN 4 b) = 4) by (rewrite lenN_takeN; lia).
      unfold u32_of_slice at 1. rewrite L4. cbn [bind N.eqb Pos.eqb].
      rewrite slice_ok by lia. cbn [bind]. change (8 - 4) with 4. rewrite (takeN_all 4 (dropN 4 b)) by (rewrite lenN_dropN; lia).
      unfold u32_of_slice. rewrite lenN_dropN, L8. cbn [bind N.eqb Pos.eqb N.sub Pos.sub_mask Pos.succ_double_mask Pos.double_mask Pos.pred_double Pos.double_pred_mask].
      change (8 - 4 =? 4) with true. cbn iota. cbn [bind].
      change 255 with (N.ones 8). rewrite shift_land_bits. change 16777215 with (N.ones 24). rewrite land_ones_bits.
      unfold u8_try_into. rewrite le_num_value. pose proof (bits_bound (le_value (takeN 4 b)) 24 8) as Bd. change (2 ^ 8) with 256 in Bd.
      replace (bits (le_value (takeN 4 b)) 24 8 <=? 255) with true by (symmetry; lia). cbn [bind]. unfold raw_item. rewrite (le_num_value (dropN 4 b)). reflexivity.
    + intros it H. unfold esf_raw_next. now rewrite chunks_next_none.
    + apply forall2_map. apply Forall_forall. reflexivity.
Qed.
Example esf_raw_ex :
  received p_esf_raw [x00; x00; x00; x00; x03; x02; x01; x0e; x04; x00; x00; x01] /\
  yields esf_raw_next [x03; x02; x01; x0e; x04; x00; x00; x01] [mk_esf_raw_data 14 0x010203 0x01000004].
Proof.
  split; [apply esf_raw_accepts; [vm_compute; discriminate|split; [vm_compute; discriminate|reflexivity]]|].
  eapply yields_item; [vm_compute; reflexivity|]. apply yields_end. reflexivity.
Qed.

(** ** C34 *)

Lemma all_res_true {A} (f : A -> res bool) l : all_res f l = Ret true <-> Forall (fun x => f x = Ret true) l.
Proof.
  induction l as [|x l IH]; cbn [all_res]; [split; auto|]. split.
  - intros H. destruct (f x) as [b| |] eqn:E; cbn [bind] in H; try discriminate. destruct b; [|discriminate]. constructor; [exact E|now apply IH].
  - intros H. inversion H as [|y ys Hy Hys]; subst. rewrite Hy. cbn [bind]. now apply IH.
Qed.

Lemma length_accepts_mon_ver payload : length_accepts p_mon_ver payload <-> 40 <= lenN payload.
Proof.
  unfold length_accepts. change (forallb is_sized (p_fields p_mon_ver)) with false. cbn iota.
  change (fixed_size (p_fields p_mon_ver)) with 40. split; [tauto|]. intros H. split; [exact H|]. exists []. split; [reflexivity|]. cbn. lia.
Qed.

(** A MON-VER payload is delivered exactly when it has two text fields of 30 and 10 bytes and whole extension fields of
    30 bytes, all of them with text that ends in a NUL. *)
Theorem mon_ver_accepts :
  forall payload, lenN payload <= 65535 ->
    (received p_mon_ver payload <->
     40 <= lenN payload /\
     (exists s, has_text (takeN 30 payload) s) /\
     (exists s, has_text (takeN 10 (dropN 30 payload)) s) /\
     exists groups, blocks 30 (dropN 40 payload) groups /\ Forall (fun b => exists s, has_text b s) groups).
Proof.
  intros payload Hl. rewrite received_iff; [|unfold recv_table; in_list|discriminate|exact Hl].
  rewrite accepts_checks, length_accepts_mon_ver. cbn [p_mon_ver p_fields checks_at field_size f_size size_bytes f_ty f_map m_valid].
  assert (C : forall n l, (forall m v, Some (cstr_map n) = Some m -> m_valid m = Some v -> v l = Ret true) <-> exists s, has_text l s).
  { intros n l. unfold has_text. rewrite <- cstr_valid_iff. split.
    - intros H. exact (H _ _ eq_refl eq_refl).
    - intros H m v Em Ev. injection Em as <-. cbn in Ev. injection Ev as <-. exact H. }
  apply and_iff_compat_l. change (f_size (mk_field "software_version" None (Bytes 30) (Some (cstr_map 30)) true None)) with (Some 30).
  change (f_size (mk_field "hardware_version" None (Bytes 10) (Some (cstr_map 10)) true None)) with (Some 10).
  change (f_size (mk_field "extension" None (Bytes 0) (Some (offset_iter_map mon_ver_ext_is_valid)) false None)) with (@None N).
  cbn iota. change (0 + 30) with 30. change (30 + 10) with 40. rewrite dropN_0.
  assert (X : (forall m v, Some (offset_iter_map mon_ver_ext_is_valid) = Some m -> m_valid m = Some v -> v (dropN 40 payload) = Ret true) <->
              exists groups, blocks 30 (dropN 40 payload) groups /\ Forall (fun b => exists s, has_text b s) groups).
  { set (d := dropN 40 payload). transitivity (mon_ver_ext_is_valid d = Ret true).
    - split; [intros H; exact (H _ _ eq_refl eq_refl)|]. intros H m v Em Ev. injection Em as <-. cbn in Ev. injection Ev as <-. exact H.
    - unfold mon_ver_ext_is_valid. split.
      + intros H. destruct (N.eqb_spec (lenN d mod 30) 0) as [E|E]; [|discriminate]. exists (chunks 30 d).
        split; [apply chunks_blocks; [lia|exact E]|]. apply all_res_true in H. eapply Forall_impl; [|exact H]. intros b Hb. now apply cstr_valid_iff.
      + intros (gs & B & F). pose proof (blocks_len _ _ _ B) as L.
        assert (E : lenN d mod 30 = 0) by (rewrite L, N.mul_comm; apply N.mod_mul; lia). rewrite E. cbn iota.
        rewrite (blocks_unique 30 d _ gs ltac:(lia) (chunks_blocks 30 d ltac:(lia) E) B). change (0 =? 0) with true. cbn iota.
        apply all_res_true. eapply Forall_impl; [|exact F]. intros b Hb. now apply cstr_valid_iff. }
  pose proof (C 30 (takeN 30 payload)) as C1. pose proof (C 10 (takeN 10 (dropN 30 payload))) as C2.
  cbn [p_mon_ver p_fields decode] in *. split.
  - intros (H1 & H2 & H3 & _). split; [exact (proj1 C1 H1)|]. split; [exact (proj1 C2 H2)|exact (proj1 X H3)].
  - intros (H1 & H2 & H3). split; [exact (proj2 C1 H1)|]. split; [exact (proj2 C2 H2)|]. split; [exact (proj2 X H3)|exact I].
Qed.

Lemma read_bytes_takeN data off n : off + N.of_nat n <= lenN data -> read_bytes data off n = Ret (takeN (N.of_nat n) (dropN off data)).
Proof.
  revert off. induction n as [|n IH]; intros off H; [reflexivity|]. cbn [read_bytes]. rewrite get_nthN by lia. cbn [bind].
  rewrite IH by lia. cbn [bind]. f_equal. rewrite (dropN_nthN data off) by lia.
  replace (N.of_nat (S n)) with (N.of_nat n + 1) by lia. rewrite takeN_cons by lia. do 2 f_equal. lia.
Qed.

Lemma mon_ver_ext_item data off : off + 30 <= lenN data -> lenN data <= usize_max ->
  mon_ver_ext_next (mk_offset_iter data off) =
  let! x := convert_to_str_unchecked (takeN 30 (dropN off data)) in Ret (Some (x, mk_offset_iter data (off + 30))).
Proof.
  intros H1 H2. unfold mon_ver_ext_next. cbn [oi_data oi_offset]. replace (off <? lenN data) with true by (symmetry; lia).
  rewrite uadd_ok by lia. cbn [bind]. rewrite slice_ok by lia. cbn [bind]. replace (off + 30 - off) with 30 by lia. reflexivity.
Qed.

(** Each getter returns the text of its field, and [extension()] yields the text of each extension field once, in order. *)
Theorem mon_ver_strings :
  forall payload, lenN payload <= 65535 -> received p_mon_ver payload ->
    exists software hardware it extensions groups,
      MonVer_software_version payload = Ret software /\ has_text (takeN 30 payload) software /\
      MonVer_hardware_version payload = Ret hardware /\ has_text (takeN 10 (dropN 30 payload)) hardware /\
      MonVer_extension payload = Ret it /\ yields mon_ver_ext_next it extensions /\
      blocks 30 (dropN 40 payload) groups /\ Forall2 has_text groups extensions.
Proof.
  intros payload Hl R. apply mon_ver_accepts in R; [|exact Hl]. destruct R as (H40 & (sw & Hsw) & (hw & Hhw) & gs & B & F).
  assert (exists exts, Forall2 has_text gs exts) as (exts & Fe).
  { clear B. induction F as [|b bs (s & Hs) F (es & IH)]; [exists []; constructor|]. exists (s :: es). now constructor. }
  exists sw, hw, (mk_offset_iter (dropN 40 payload) 0), exts, gs. split.
  { unfold MonVer_software_version. change (g_val (the_getter p_mon_ver "software_version") payload) with
      (let! v := slice payload 0 30 in let! x := convert_to_str_unchecked v in Ret x).
    rewrite slice_ok by lia. cbn [bind]. change (30 - 0) with 30. rewrite dropN_0. destruct Hsw. now rewrite (cstr_convert _ sw). }
  split; [exact Hsw|]. split.
  { unfold MonVer_hardware_version. change (g_val (the_getter p_mon_ver "hardware_version") payload) with
      (let! v := slice payload 30 40 in let! x := convert_to_str_unchecked v in Ret x).
    rewrite slice_ok by lia. cbn [bind]. change (40 - 30) with 10. destruct Hhw. now rewrite (cstr_convert _ hw). }
  split; [exact Hhw|]. split.
  { unfold MonVer_extension. change (g_val (the_getter p_mon_ver "extension") payload) with
      (let! v := (let! l := slice_from payload 40 in Ret l) in Ret (offset_iter_new v)).
    rewrite slice_from_ok by lia. reflexivity. }
  split; [|split; [exact B|exact Fe]].
  apply (offset_iter_yields _ 30 convert_to_str_unchecked gs); [lia|exact mon_ver_ext_item| | | | |].
  - intros data off H. unfold mon_ver_ext_next. cbn [oi_data oi_offset]. replace (off <? lenN data) with false by (symmetry; lia). reflexivity.
  - rewrite lenN_dropN. unfold usize_max. lia.
  - lia.
  - rewrite dropN_0. exact B.
  - clear - Fe. induction Fe as [|b s bs ss [C T] F IH]; constructor; [now apply cstr_convert|exact IH].
Qed.

(** The text of a field is determined by its bytes. *)
Theorem has_text_unique : forall field s1 s2, has_text field s1 -> has_text field s2 -> s1 = s2.
Proof. intros l s1 s2 [H1 _] [H2 _]. exact (c_string_unique l s1 s2 H1 H2). Qed.

Example mon_ver_ex :
  received p_mon_ver (x45 :: x58 :: repeat x00 28 ++ x30 :: repeat x00 9 ++ xc3 :: xa9 :: repeat x00 28) /\
  ~ received p_mon_ver (repeat x41 40) /\
  MonVer_software_version (x45 :: x58 :: repeat x00 28 ++ x30 :: repeat x00 9 ++ xc3 :: xa9 :: repeat x00 28) = Ret [x45; x58].
Proof.
  split; [|split; [|vm_compute; reflexivity]].
  - apply received_iff; [unfold recv_table; in_list|discriminate|vm_compute; discriminate|].
    apply validate_accepts; [reflexivity|vm_compute; discriminate|vm_compute; reflexivity].
  - intros H. apply received_iff in H; [|unfold recv_table; in_list|discriminate|vm_compute; discriminate].
    apply validate_accepts in H; [|reflexivity|vm_compute; discriminate]. vm_compute in H. discriminate.
Qed.

(** ** C35 *)

(** The INF packet types with their getters [message()] *)
Definition inf_packets : list (pack_desc * (list byte -> res (option (list byte)))) :=
  [(p_inf_error, g_val (the_getter p_inf_error "message")); (p_inf_notice, g_val (the_getter p_inf_notice "message"));
   (p_inf_test, g_val (the_getter p_inf_test "message")); (p_inf_warning, g_val (the_getter p_inf_warning "message"));
   (p_inf_debug, g_val (the_getter p_inf_debug "message"))].

(** Every payload of an INF message is delivered, and its message is the whole payload if this is UTF-8 text *)
Theorem inf_message :
  forall p message payload, In (p, message) inf_packets -> lenN payload <= 65535 ->
    received p payload /\
    (is_text payload -> message payload = Ret (Some payload)) /\ (~ is_text payload -> message payload = Ret None).
Proof.
  intros p message payload Hp Hl.
  assert (G : In p recv_table /\ p_name p <> "MgaGpsEPH"%string /\ (exists g, p_fields p = [mk_field "message" None (Bytes 0) (Some inf_map) g None]) /\
              message payload = (let! v := (let! l := slice_from payload 0 in Ret l) in Ret (inf_convert_to_str v))).
  { unfold inf_packets in Hp. repeat (destruct Hp as [Hp|Hp]; [injection Hp as <- <-; split; [unfold recv_table; in_list|]; split; [discriminate|]; split; [eexists; reflexivity|reflexivity]|]).
    destruct Hp. }
  destruct G as (G1 & G2 & (g & G3) & ->). split.
  - apply received_iff; [assumption|assumption|exact Hl|].
    erewrite accepts_rest with (off := 0) (is_valid := inf_is_valid) (init := []); rewrite ?G3; try reflexivity; [|do 3 eexists; reflexivity].
    split; [lia|reflexivity].
  - rewrite slice_from_ok by lia. rewrite dropN_0. cbn [bind]. unfold inf_convert_to_str.
    pose proof (utf8_valid_iff payload) as U. destruct (utf8_valid payload); split; intros H; try reflexivity.
    + exfalso. apply H. now apply U.
    + apply U in H. discriminate.
Qed.
Example inf_message_ex :
  is_text [x68; xc3; xa9] /\ ~ is_text [xc3; x28] /\
  g_val (the_getter p_inf_notice "message") [x68; xc3; xa9] = Ret (Some [x68; xc3; xa9]) /\
  g_val (the_getter p_inf_notice "message") [xc3; x28] = Ret None.
Proof.
  split; [apply utf8_valid_iff; reflexivity|]. split; [intros H; apply utf8_valid_iff in H; discriminate|]. split; reflexivity.
Qed.

(** ** C36 *)

(** The flags word of ESF-MEAS, its number of measurements (bits 11-15), whether there is a calibration tag (bit 3) *)
Definition esf_flags (payload : list byte) : N := le_value (takeN 2 (dropN 4 payload)).
Definition esf_num_meas (payload : list byte) : N := bits (esf_flags payload) 11 5.
Definition esf_has_tag (payload : list byte) : bool := bit (esf_flags payload) 3.
Definition esf_tag_len (payload : list byte) : N := if esf_has_tag payload then 4 else 0.

(** A measurement: the type in bits 24-29, the value in bits 0-23 *)
Definition meas_item (b : list byte) : esf_meas_data := mk_esf_meas_data (bits (le_value b) 24 6) (bits (le_value b) 0 24).

Lemma esf_flags_ok payload : 8 <= lenN payload -> esf_meas_flags payload = Ret (esf_flags payload).
Proof.
  intros H. unfold esf_meas_flags, esf_flags. rewrite !get_nthN by lia. cbn [bind].
  rewrite (dropN_nthN payload 4), (dropN_nthN payload (4 + 1)) by lia. rewrite !takeN_cons by lia. change (2 - 1 - 1) with 0.
  rewrite takeN_0. cbn [le_value]. f_equal. change (4 + 1) with 5. lia.
Qed.
Lemma bit_land w p : negb (N.land w (2 ^ p) =? 0) = bit w p.
Proof.
  unfold bit. rewrite <- N.shiftr_div_pow2, <- N.bit0_mod, N.shiftr_spec', N.add_0_l.
  destruct (N.testbit w p) eqn:E.
  - change (N.b2n true =? 1) with true. apply negb_true_iff, N.eqb_neq. intros H.
    assert (T : N.testbit (N.land w (2 ^ p)) p = true) by (rewrite N.land_spec, E, N.pow2_bits_true; reflexivity).
    rewrite H, N.bits_0 in T. discriminate.
  - change (N.b2n false =? 1) with false. apply negb_false_iff, N.eqb_eq. apply N.bits_inj. intros i. rewrite N.land_spec, N.bits_0.
    destruct (N.eq_dec i p) as [->|Hn]; [now rewrite E|]. rewrite N.pow2_bits_false by auto. apply andb_false_r.
Qed.
Lemma esf_data_len_ok payload : 8 <= lenN payload -> esf_meas_data_len payload = Ret (4 * esf_num_meas payload).
Proof.
  intros H. unfold esf_meas_data_len. rewrite esf_flags_ok by exact H. cbn [bind]. change 31 with (N.ones 5). rewrite shift_land_bits.
  unfold esf_num_meas. f_equal. lia.
Qed.
Lemma esf_tag_len_ok payload : 8 <= lenN payload -> esf_meas_calib_tag_len payload = Ret (esf_tag_len payload).
Proof.
  intros H. unfold esf_meas_calib_tag_len. rewrite esf_flags_ok by exact H. cbn [bind]. change 8 with (2 ^ 3). rewrite bit_land. reflexivity.
Qed.

(** ESF-MEAS is delivered exactly when the counted measurements and the tag fit, and what follows the header is whole
    32-bit words. *)
Theorem esf_meas_accepts :
  forall payload, lenN payload <= 65535 ->
    (received p_esf_meas payload <->
     8 <= lenN payload /\ 8 + 4 * esf_num_meas payload + esf_tag_len payload <= lenN payload /\ (lenN payload - 8) mod 4 = 0).
Proof.
  intros payload Hl. rewrite received_iff; [|unfold recv_table; in_list|discriminate|exact Hl].
  rewrite accepts_checks. unfold length_accepts. change (forallb is_sized (p_fields p_esf_meas)) with false. cbn iota.
  change (fixed_size (p_fields p_esf_meas)) with 8.
  assert (C : checks_at 0 (p_fields p_esf_meas) payload <-> (lenN payload - 8) mod 4 = 0).
  { transitivity (esf_meas_is_valid (dropN 8 payload) = true).
    - cbn [p_esf_meas p_fields checks_at]. split.
      + intros (_ & _ & _ & H & _). specialize (H _ _ eq_refl eq_refl). cbn [f_size size_bytes f_ty] in H.
        change (Ret (esf_meas_is_valid (dropN 8 payload)) = Ret true) in H. congruence.
      + intros H. repeat (split; [discriminate|]). split.
        * intros m v Em Ev. injection Em as <-. cbn in Ev. injection Ev as <-. change (Ret (esf_meas_is_valid (dropN 8 payload)) = Ret true). now rewrite H.
        * split; [|exact I]. intros m v Em Ev. injection Em as <-. discriminate.
    - unfold esf_meas_is_valid. rewrite lenN_dropN. split; intros; lia. }
  rewrite C. split.
  - intros ((H1 & ns & H2 & H3) & H4). split; [exact H1|]. split; [|exact H4].
    change (counted_sizes (p_fields p_esf_meas) payload) with
      (let! n := esf_meas_data_len payload in let! l := (let! n := esf_meas_calib_tag_len payload in let! l := Ret [] in Ret (n :: l)) in Ret (n :: l)) in H2.
    rewrite esf_data_len_ok, esf_tag_len_ok in H2 by exact H1. cbn [bind] in H2.
    assert (ns = [4 * esf_num_meas payload; esf_tag_len payload]) as -> by congruence. cbn [sumN fold_right] in H3. lia.
  - intros (H1 & H2 & H3). split; [|exact H3]. split; [exact H1|]. exists [4 * esf_num_meas payload; esf_tag_len payload].
    change (counted_sizes (p_fields p_esf_meas) payload) with
      (let! n := esf_meas_data_len payload in let! l := (let! n := esf_meas_calib_tag_len payload in let! l := Ret [] in Ret (n :: l)) in Ret (n :: l)).
    rewrite esf_data_len_ok, esf_tag_len_ok by exact H1. split; [reflexivity|]. cbn [sumN fold_right]. lia.
Qed.

(** [data()] yields the counted measurements, and [calib_tag()] the word after them exactly when the flag is set. *)
Theorem esf_meas_items :
  forall payload, lenN payload <= 65535 -> received p_esf_meas payload ->
    exists it words,
      EsfMeas_data payload = Ret it /\
      blocks 4 (takeN (4 * esf_num_meas payload) (dropN 8 payload)) words /\ lenN words = esf_num_meas payload /\
      yields esf_meas_next it (map meas_item words) /\
      EsfMeas_calib_tag payload =
        Ret (if esf_has_tag payload then Some (le_value (takeN 4 (dropN (8 + 4 * esf_num_meas payload) payload))) else None).
Proof.
  intros payload Hl R. apply esf_meas_accepts in R; [|exact Hl]. destruct R as (H1 & H2 & H3).
  set (n := esf_num_meas payload) in *. set (d := takeN (4 * n) (dropN 8 payload)).
  assert (Ld : lenN d = 4 * n) by (unfold d; rewrite lenN_takeN, lenN_dropN; lia).
  destruct (blocks_exist 4 d) as (ws & B); [lia|rewrite Ld, N.mul_comm; apply N.mod_mul; lia|].
  exists d, ws. split; [|split; [exact B|split; [apply blocks_len in B; lia|split]]].
  - unfold EsfMeas_data. change (g_val (the_getter p_esf_meas "data") payload) with
      (let! v := (let! l := (let! offset := Ret 8 in let! n := esf_meas_data_len payload in let! stop := uadd offset n in slice payload offset stop) in Ret l)
       in Ret (esf_meas_new v)).
    rewrite esf_data_len_ok by exact H1. fold n. cbn [bind]. rewrite uadd_ok by (unfold usize_max; lia). cbn [bind].
    rewrite slice_ok by lia. cbn [bind]. replace (8 + 4 * n - 8) with (4 * n) by lia. fold d. f_equal.
    apply chunks_exact_all; [lia|]. rewrite Ld, N.mul_comm. apply N.mod_mul. lia.
  - apply (chunks_iter_yields _ 4 (fun b => Ret (meas_item b)) ws); [lia| | |exact B|].
    + intros it H. unfold esf_meas_next. rewrite chunks_next_some by exact H.
      assert (L4 : lenN (takeN 4 it) = 4) by (rewrite lenN_takeN; lia). set (b := takeN 4 it) in *. clearbody b.
      unfold u32_of_slice. rewrite L4. change (4 =? 4) with true. cbn iota. cbn [bind]. rewrite le_num_value.
      change 1056964608 with (N.shiftl (N.ones 6) 24). rewrite N.shiftr_land, N.shiftr_shiftl_l by lia.
      change (24 - 24) with 0. rewrite N.shiftl_0_r, shift_land_bits. change 16777215 with (N.ones 24). rewrite land_ones_bits.
      pose proof (bits_bound (le_value b) 24 6) as Bd. change (2 ^ 6) with 64 in Bd. unfold u8_try_into.
      replace (bits (le_value b) 24 6 <=? 255) with true by (symmetry; lia). reflexivity.
    + intros it H. unfold esf_meas_next. now rewrite chunks_next_none.
    + apply forall2_map. apply Forall_forall. reflexivity.
  - unfold EsfMeas_calib_tag. change (g_val (the_getter p_esf_meas "calib_tag") payload) with
      (let! v := (let! l := (let! offset := (let! n := esf_meas_data_len payload in let! off' := uadd 8 n in Ret off') in
                             let! n := esf_meas_calib_tag_len payload in let! stop := uadd offset n in slice payload offset stop) in Ret l)
       in Ret (calib_tag v)).
    rewrite esf_data_len_ok, esf_tag_len_ok by exact H1. fold n. cbn [bind]. rewrite uadd_ok by (unfold usize_max; lia). cbn [bind].
    rewrite uadd_ok by (unfold usize_max; lia). cbn [bind]. rewrite slice_ok by lia. cbn [bind].
    replace (8 + 4 * n + esf_tag_len payload - (8 + 4 * n)) with (esf_tag_len payload) by lia. f_equal. unfold calib_tag.
    rewrite lenN_takeN, lenN_dropN. unfold esf_tag_len in *. destruct (esf_has_tag payload).
    + replace (N.min 4 (lenN payload - (8 + 4 * n)) =? 4) with true by (symmetry; lia). now rewrite le_num_value.
    + replace (N.min 0 (lenN payload - (8 + 4 * n)) =? 4) with false by (symmetry; lia). reflexivity.
Qed.
Example esf_meas_ex :
  let payload := [x00; x00; x00; x00; x08; x08; x00; x00; x03; x02; x01; x0e; x04; x00; x00; x01] in
  received p_esf_meas payload /\ esf_num_meas payload = 1 /\ esf_has_tag payload = true /\
  EsfMeas_data payload = Ret [x03; x02; x01; x0e] /\
  yields esf_meas_next [x03; x02; x01; x0e] [mk_esf_meas_data 14 0x010203] /\
  EsfMeas_calib_tag payload = Ret (Some 0x01000004).
Proof.
  split; [apply esf_meas_accepts; [vm_compute; discriminate|split; [vm_compute; discriminate|split; [vm_compute; discriminate|reflexivity]]]|].
  split; [reflexivity|]. split; [reflexivity|]. split; [reflexivity|]. split; [|reflexivity].
  eapply yields_item; [vm_compute; reflexivity|]. apply yields_end. reflexivity.
Qed.

(** Violation of "the last word": words after the counted ones are accepted and ignored. *)
Theorem esf_meas_trailing_words_refuted :
  exists payload, received p_esf_meas payload /\ 8 + 4 * esf_num_meas payload + esf_tag_len payload < lenN payload /\
    EsfMeas_calib_tag payload = Ret None.
Proof.
  exists (repeat x00 12). split; [|split; reflexivity].
  apply esf_meas_accepts; [vm_compute; discriminate|split; [vm_compute; discriminate|split; [vm_compute; discriminate|reflexivity]]].
Qed.

Print Assumptions nav_sat_accepts.
Print Assumptions nav_sat_groups.
Print Assumptions nav_sat_num_svs_refuted.
Print Assumptions rxm_rawx_accepts.
Print Assumptions rxm_rawx_groups.
Print Assumptions rxm_rawx_num_meas_refuted.
Print Assumptions rxm_sfrbx_accepts.
Print Assumptions rxm_sfrbx_words.
Print Assumptions rxm_sfrbx_num_words_refuted.
Print Assumptions esf_raw_accepts.
Print Assumptions esf_raw_items.
Print Assumptions mon_ver_accepts.
Print Assumptions mon_ver_strings.
Print Assumptions has_text_unique.
Print Assumptions inf_message.
Print Assumptions esf_meas_accepts.
Print Assumptions esf_meas_items.
Print Assumptions esf_meas_trailing_words_refuted.
