(** * Dispatch (proof support) *)
From Coq Require Import String List NArith ZArith Bool Lia ZifyBool ZifyNat ZifyN.
From Verif Require Import Base BaseFacts DualBuffer Parser PackDesc GenRecv GenSend Dispatch Enums Floats Bits Utf8 Iterators
  TableTypes TablePackets SpecPacket SpecDispatch SpecParser ProofSend ProofRecv ProofTable.
Import ListNotations.
Open Scope N_scope.

Definition table_ok (table : list pack_desc) : Prop :=
  Forall (fun p => layout_ok (p_fields p) = true /\ checks_total p /\ lenN (p_fields p) <= 65535) table.

Lemma match_packet_spec table c i payload : table_ok table -> lenN payload <= 65535 ->
  exists r, match_packet table c i payload = Ret (Ok r) /\ delivers table c i payload r.
Proof.
  intros T Hl. induction table as [|p table IH]; cbn [match_packet].
  - eexists. split; [reflexivity|]. apply delivers_unknown. constructor.
  - apply Forall_cons_iff in T. destruct T as [(L & C & Hf) T]. destruct (IH T) as (r & Er & Dr). clear IH.
    assert (Step : ~ fits p c i payload -> exists r, match_packet table c i payload = Ret (Ok r) /\ delivers (p :: table) c i payload r).
    { intros NF. exists r. split; [exact Er|]. inversion Dr as [b q a E F Fb|F]; subst.
      - apply (delivers_known _ _ _ _ (p :: b) q a); auto.
      - apply delivers_unknown. constructor; auto. }
    destruct (byte_eqb c (p_class p) && byte_eqb i (p_id p)) eqn:Eq.
    + apply andb_true_iff in Eq. destruct Eq as [Ec Ei]. apply byte_eqb_eq in Ec, Ei. subst c i.
      destruct (validate_total p payload L C Hl Hf) as ([[]|e] & V); rewrite V; cbn [bind].
      * eexists. split; [reflexivity|]. apply (delivers_known _ _ _ _ [] p table); auto.
        split; [reflexivity|]. split; [reflexivity|]. apply validate_accepts; auto. unfold usize_max. lia.
      * apply Step. intros (_ & _ & A). apply validate_accepts in A; auto; [congruence|]. unfold usize_max. lia.
    + apply Step. intros (<- & <- & _). rewrite !byte_eqb_refl in Eq. discriminate.
Qed.

(** ** The table of the library *)

Lemma esf_flags_total payload : 8 <= lenN payload -> exists n, esf_meas_flags payload = Ret n.
Proof. intros H. unfold esf_meas_flags. rewrite !get_nthN by lia. cbn [bind]. eauto. Qed.

Lemma land_31_le x : N.land x 31 <= 31.
Proof. change 31 with (N.ones 5). rewrite N.land_ones. assert (x mod 2 ^ 5 < 2 ^ 5) by (apply N.mod_lt; discriminate). cbn in *. lia. Qed.

Definition fns_ok (p : pack_desc) : Prop :=
  forall f g payload, In f (p_fields p) -> f_size_fn f = Some g ->
     fixed_size (p_fields p) <= lenN payload -> exists n, g payload = Ret n /\ n <= 65535.

Lemma fns_ok_none p : forallb (fun f => match f_size_fn f with None => true | Some _ => false end) (p_fields p) = true -> fns_ok p.
Proof. intros H f g payload HI E. rewrite forallb_forall in H. specialize (H f HI). rewrite E in H. discriminate. Qed.

Lemma fns_ok_esf_meas : fns_ok p_esf_meas.
Proof.
  intros f g payload HI E Hl. change (fixed_size (p_fields p_esf_meas)) with 8 in Hl.
  destruct (esf_flags_total payload Hl) as (n & En).
  cbn in HI. repeat (destruct HI as [<-|HI]; [cbn in E; first [discriminate|injection E as <-]|]); [| |destruct HI].
  - unfold esf_meas_data_len. rewrite En. cbn [bind]. eexists. split; [reflexivity|].
    pose proof (land_31_le (N.shiftr n 11)). lia.
  - unfold esf_meas_calib_tag_len. rewrite En. cbn [bind]. eexists. split; [reflexivity|]. destruct (negb _); lia.
Qed.

Lemma recv_fns_ok : Forall fns_ok recv_packets.
Proof. unfold recv_packets. each; first [apply fns_ok_none; reflexivity | apply fns_ok_esf_meas]. Qed.

Lemma recv_packets_ok : table_ok recv_packets.
Proof.
  apply Forall_forall. intros p Hp.
  pose proof recv_layout as L. rewrite forallb_forall in L. specialize (L p Hp).
  pose proof recv_checks_ok as C. rewrite Forall_forall in C. specialize (C p Hp).
  pose proof recv_fns_ok as F. rewrite Forall_forall in F. specialize (F p Hp).
  assert (N : forallb (fun p => lenN (p_fields p) <=? 65535) recv_packets = true) by (vm_compute; reflexivity).
  rewrite forallb_forall in N. specialize (N p Hp).
  split; [exact L|]. split; [|lia]. split.
  - intros f m v r HI. rewrite Forall_forall in C. apply (C f HI).
  - exact F.
Qed.

Ltac in_list := repeat first [left; reflexivity | right].
Lemma recv_table_incl p : In p recv_table -> In p recv_packets.
Proof.
  revert p. apply Forall_forall. unfold recv_table, recv_packets. each; in_list.
Qed.

Lemma recv_table_ok : table_ok recv_table.
Proof. eapply incl_Forall; [|exact recv_packets_ok]. exact recv_table_incl. Qed.

Lemma recv_max : parser_max_payload_len recv_table = 8176.
Proof. vm_compute. reflexivity. Qed.

(** The packet delivered for a frame *)
Definition packet_of (c i : byte) (p : list byte) : packet_ref :=
  match match_packet recv_table c i p with Ret (Ok r) => r | _ => Unknown p c i end.

Lemma packet_of_delivers c i p : lenN p <= 65535 -> delivers recv_table c i p (packet_of c i p).
Proof.
  intros H. unfold packet_of. destruct (match_packet_spec recv_table c i p recv_table_ok H) as (r & -> & D). exact D.
Qed.
Lemma recv_dispatches : dispatches (match_packet recv_table) 8176 packet_of.
Proof.
  intros c i p H. unfold packet_of. destruct (match_packet_spec recv_table c i p recv_table_ok) as (r & -> & D); [lia|]. reflexivity.
Qed.

(** ** At most one type fits *)

(** Two types with the same class and id that cannot be told apart *)
Lemma length_of_fits p c i payload : fits p c i payload -> forallb is_sized (p_fields p) = true ->
  lenN payload = fixed_size (p_fields p).
Proof. intros (_ & _ & (L & _)) S. unfold length_accepts in L. rewrite S in L. exact L. Qed.

Definition clash (p q : pack_desc) : bool :=
  byte_eqb (p_class p) (p_class q) && byte_eqb (p_id p) (p_id q) &&
  negb (forallb is_sized (p_fields p) && forallb is_sized (p_fields q) &&
        negb (fixed_size (p_fields p) =? fixed_size (p_fields q))).

Lemma no_clash p q c i payload : clash p q = false -> fits p c i payload -> fits q c i payload -> False.
Proof.
  intros H Fp Fq. unfold clash in H. pose proof Fp as (<- & <- & _). pose proof Fq as (Ec & Ei & _).
  rewrite Ec, Ei, !byte_eqb_refl in H. cbn [andb] in H. apply negb_false_iff in H.
  apply andb_true_iff in H. destruct H as [H Hne]. apply andb_true_iff in H. destruct H as [Sp Sq].
  pose proof (length_of_fits _ _ _ _ Fp Sp) as L1.
  pose proof (length_of_fits _ _ _ _ Fq Sq) as L2. rewrite <- L1, L2, N.eqb_refl in Hne. discriminate.
Qed.

Lemma port_accepts p d rest0 :
  p_fields p = mk_field "portid" None (Scalar U8) (Some (enum_map d true)) false None :: rest0 ->
  Forall (fun f => forall m, f_map f = Some m -> m_valid m = None) rest0 ->
  forallb is_sized rest0 = true ->
  forall payload, accepts p payload <->
    (lenN payload = 1 + fixed_size rest0 /\ enum_is_valid d (b2n (nthN payload 0)) = true).
Proof.
  intros E R S payload. unfold accepts, length_accepts. rewrite E.
  change (forallb is_sized (mk_field "portid" None (Scalar U8) (Some (enum_map d true)) false None :: rest0)) with (forallb is_sized rest0).
  rewrite S.
  change (fixed_size (mk_field "portid" None (Scalar U8) (Some (enum_map d true)) false None :: rest0)) with (1 + fixed_size rest0).
  set (f0 := mk_field "portid" None (Scalar U8) (Some (enum_map d true)) false None).
  assert (B : lenN payload = 1 + fixed_size rest0 -> field_bytes_at (f0 :: rest0) 0 f0 payload = [nthN payload 0]).
  { intros L. unfold field_bytes_at. change (f_size f0) with (Some 1). cbn [offset_of]. rewrite dropN_0.
    rewrite <- (dropN_0 payload) at 1. rewrite (dropN_nthN payload 0) by lia. rewrite takeN_cons by lia. reflexivity. }
  assert (V : forall b, decode (Scalar U8) [b] = Z.of_N (b2n b)).
  { intros b. unfold decode. cbn [scalar_signed unsigned_of]. lia. }
  split.
  - intros [L A]. split; [exact L|]. specialize (A 0%nat f0 _ _ eq_refl eq_refl eq_refl).
    rewrite (B L) in A. change (f_ty f0) with (Scalar U8) in A. rewrite V in A. injection A as A'. rewrite N2Z.id in A'. exact A'.
  - intros [L A]. split; [exact L|]. intros [|k] f m v H1 H2 H3.
    + inversion H1; subst f. inversion H2; subst m. inversion H3; subst v.
      rewrite (B L). change (f_ty f0) with (Scalar U8). rewrite V, N2Z.id, A. reflexivity.
    + exfalso. cbn [nth_error] in H1. apply nth_error_In in H1. rewrite Forall_forall in R. specialize (R f H1 m H2). congruence.
Qed.

Lemma recv_names_nodup : NoDup (map p_name recv_table).
Proof.
  assert (H : forall l : list string, (fix nd l := match l with [] => true | x :: l' => negb (existsb (String.eqb x) l') && nd l' end) l = true -> NoDup l).
  { induction l as [|x l IH]; intros H; [constructor|]. apply andb_true_iff in H. destruct H as [H1 H2].
    constructor; [|auto]. intros HI. apply negb_true_iff in H1. assert (existsb (String.eqb x) l = true); [|congruence].
    apply existsb_exists. exists x. split; [exact HI|apply String.eqb_refl]. }
  apply H. vm_compute. reflexivity.
Qed.

Lemma nodup_map_inj {A B} (g : A -> B) l x y : NoDup (map g l) -> In x l -> In y l -> g x = g y -> x = y.
Proof.
  induction l as [|a l IH]; intros ND Hx Hy E; [destruct Hx|]. cbn in ND. inversion ND as [|? ? Hn Hd]; subst.
  destruct Hx as [->|Hx]; destruct Hy as [->|Hy]; auto.
  - exfalso. apply Hn. rewrite E. now apply in_map.
  - exfalso. apply Hn. rewrite <- E. now apply in_map.
Qed.

Lemma nodup_split {A B} (g : A -> B) (x : A) (l1 : list A) : forall l2 l1' l2' : list A, NoDup (map g (l1 ++ x :: l2)%list) ->
  (l1 ++ x :: l2 = l1' ++ x :: l2')%list -> l1 = l1'.
Proof.
  induction l1 as [|a l1 IH]; intros l2 [|a' l1'] l2' ND E; cbn in *.
  - reflexivity.
  - inversion E; subst a' l2. exfalso. inversion ND as [|? ? Hn Hd]; subst. apply Hn. apply in_map. apply in_app_iff. right. left. reflexivity.
  - inversion E; subst a. exfalso. inversion ND as [|? ? Hn Hd]; subst. apply Hn. apply in_map. apply in_app_iff. right. left. reflexivity.
  - inversion E; subst a'. inversion ND; subst. f_equal. eapply IH; eauto.
Qed.

Lemma eph_split : exists l1 l2, (recv_table = l1 ++ p_mga_gps_EPH :: l2)%list /\ In p_mga_gps_eph l1.
Proof.
  exists (firstn 50 recv_table), (skipn 51 recv_table). split; [reflexivity|].
  unfold recv_table. cbn [firstn]. in_list.
Qed.

Lemma no_checks_accept p payload :
  Forall (fun f => forall m, f_map f = Some m -> m_valid m = None) (p_fields p) ->
  length_accepts p payload -> accepts p payload.
Proof.
  intros F L. split; [exact L|]. intros k f m v H1 H2 H3. exfalso. apply nth_error_In in H1.
  rewrite Forall_forall in F. specialize (F f H1 m H2). congruence.
Qed.

Ltac no_checks := each; let m := fresh in let H := fresh in intros m H; cbn in m, H; first [discriminate H | injection H as <-; reflexivity].

Lemma eph_fits c i payload : fits p_mga_gps_EPH c i payload -> fits p_mga_gps_eph c i payload.
Proof.
  intros (Hc & Hi & (L & _)). split; [exact Hc|]. split; [exact Hi|]. apply no_checks_accept; [|exact L].
  unfold p_mga_gps_eph. cbn [p_fields]. no_checks.
Qed.

Lemma eph_not_delivered c i payload q : delivers recv_table c i payload (Known p_mga_gps_EPH q) -> False.
Proof.
  intros D. inversion D as [b p a E F Fb|]; subst. destruct eph_split as (l1 & l2 & E1 & Hin).
  assert (l1 = b).
  { apply (nodup_split p_name p_mga_gps_EPH l1 l2 b a); [|congruence]. rewrite <- E1. exact recv_names_nodup. }
  subst b. rewrite Forall_forall in Fb. apply (Fb _ Hin). apply eph_fits. exact F.
Qed.

Definition is_port (p : pack_desc) : Prop := p = p_cfg_prt_i2c \/ p = p_cfg_prt_spi \/ p = p_cfg_prt_uart.

Lemma port_types p : In p recv_table -> p_class p = x06 -> p_id p = x00 -> is_port p.
Proof.
  assert (F : Forall (fun p => p_class p = x06 -> p_id p = x00 -> is_port p) recv_table).
  2: { rewrite Forall_forall in F. apply F. }
  unfold recv_table, is_port.
  each; intros Hc Hi; first [discriminate Hc | discriminate Hi | left; reflexivity | right; left; reflexivity | right; right; reflexivity ].
Qed.

Lemma accepts_i2c payload : accepts p_cfg_prt_i2c payload <-> lenN payload = 20 /\ b2n (nthN payload 0) = 0.
Proof.
  rewrite (port_accepts p_cfg_prt_i2c e_i2c_port_id _ eq_refl); [|no_checks|reflexivity].
  change (1 + fixed_size _) with 20. split; intros [L H]; split; try exact L.
  - assert (V : forall x, enum_is_valid e_i2c_port_id x = ((0 =? x) || false)) by reflexivity.
    rewrite V in H. lia.
  - rewrite H. reflexivity.
Qed.
Lemma accepts_spi payload : accepts p_cfg_prt_spi payload <-> lenN payload = 20 /\ b2n (nthN payload 0) = 4.
Proof.
  rewrite (port_accepts p_cfg_prt_spi e_spi_port_id _ eq_refl); [|no_checks|reflexivity].
  change (1 + fixed_size _) with 20. split; intros [L H]; split; try exact L.
  - assert (V : forall x, enum_is_valid e_spi_port_id x = ((4 =? x) || false)) by reflexivity.
    rewrite V in H. lia.
  - rewrite H. reflexivity.
Qed.
Lemma accepts_uart payload : accepts p_cfg_prt_uart payload <->
  lenN payload = 20 /\ (b2n (nthN payload 0) = 1 \/ b2n (nthN payload 0) = 2 \/ b2n (nthN payload 0) = 3).
Proof.
  rewrite (port_accepts p_cfg_prt_uart e_uart_port_id _ eq_refl); [|no_checks|reflexivity].
  change (1 + fixed_size _) with 20. split; intros [L H]; split; try exact L.
  - assert (V : forall x, enum_is_valid e_uart_port_id x = ((1 =? x) || ((2 =? x) || ((3 =? x) || false)))) by reflexivity.
    rewrite V in H. lia.
  - destruct H as [H|[H|H]]; rewrite H; reflexivity.
Qed.

Lemma fits_unique p q c i payload : In p recv_table -> In q recv_table ->
  p_name p <> "MgaGpsEPH"%string -> p_name q <> "MgaGpsEPH"%string ->
  fits p c i payload -> fits q c i payload -> p = q.
Proof.
  intros Hp Hq Np Nq Fp Fq.
  assert (T : forallb (fun p => forallb (fun q => negb (clash p q) || String.eqb (p_name p) (p_name q)
              || String.eqb (p_name p) "MgaGpsEPH" || String.eqb (p_name q) "MgaGpsEPH"
              || (byte_eqb (p_class p) x06 && byte_eqb (p_id p) x00)) recv_table) recv_table = true) by (vm_compute; reflexivity).
  rewrite forallb_forall in T. specialize (T p Hp). rewrite forallb_forall in T. specialize (T q Hq).
  apply String.eqb_neq in Np, Nq. rewrite Np, Nq, !orb_false_r in T.
  apply orb_true_iff in T. destruct T as [T|T]; [apply orb_true_iff in T; destruct T as [T|T]|].
  - apply negb_true_iff in T. destruct (no_clash _ _ _ _ _ T Fp Fq).
  - apply String.eqb_eq in T. eapply nodup_map_inj; eauto. exact recv_names_nodup.
  - apply andb_true_iff in T. destruct T as [T1 T2]. apply byte_eqb_eq in T1, T2.
    pose proof Fp as (Hc & Hi & Ap). pose proof Fq as (Hc' & Hi' & Aq).
    pose proof (port_types p Hp T1 T2) as Pp.
    pose proof (port_types q Hq ltac:(congruence) ltac:(congruence)) as Pq.
    destruct Pp as [->|[->| ->]], Pq as [->|[->| ->]]; try reflexivity; exfalso;
      repeat match goal with
      | H : accepts p_cfg_prt_i2c _ |- _ => apply accepts_i2c in H
      | H : accepts p_cfg_prt_spi _ |- _ => apply accepts_spi in H
      | H : accepts p_cfg_prt_uart _ |- _ => apply accepts_uart in H
      end; lia.
Qed.

Lemma delivers_exact c i payload p r : In p recv_table -> p_name p <> "MgaGpsEPH"%string ->
  delivers recv_table c i payload r -> (r = Known p payload <-> fits p c i payload).
Proof.
  intros Hp Np D. split.
  - intros ->. inversion D; subst. assumption.
  - intros F. inversion D as [b q a E Fq Fb|Fn]; subst.
    + f_equal. destruct (String.eqb (p_name q) "MgaGpsEPH") eqn:En.
      * apply String.eqb_eq in En. exfalso.
        assert (q = p_mga_gps_EPH).
        { eapply (nodup_map_inj p_name recv_table); [exact recv_names_nodup| | |exact En].
          - rewrite E. apply in_app_iff. right. left. reflexivity.
          - destruct eph_split as (l1 & l2 & -> & _). apply in_app_iff. right. left. reflexivity. }
        subst q. eapply eph_not_delivered; eauto.
      * apply String.eqb_neq in En. symmetry. eapply fits_unique; eauto.
        rewrite E. apply in_app_iff. right. left. reflexivity.
    + exfalso. rewrite Forall_forall in Fn. exact (Fn p Hp F).
Qed.

(** ** Built packets are accepted *)
Definition out_valid (f : field) : Prop :=
  forall m v x r, f_map f = Some m -> m_valid m = Some v -> fvalue_ok f x -> to_raw f x = Ret r -> v r = Ret true.

Lemma out_valid_none n a t gar sz : out_valid (mk_field n a t None gar sz).
Proof. intros m v x r H. discriminate. Qed.
Lemma out_valid_free n a t m gar sz : m_valid m = None -> out_valid (mk_field n a t (Some m) gar sz).
Proof. intros E m' v x r H. cbn in m', r, H. injection H as <-. intros Hv. cbn [f_ty] in Hv. rewrite E in Hv. discriminate. Qed.
Lemma out_valid_enum n a d b gar sz : out_valid (mk_field n a (Scalar U8) (Some (enum_map d b)) gar sz).
Proof.
  intros m v x r H. cbn in m, r, H. injection H as <-. cbn [enum_map m_valid]. destruct b; [|discriminate].
  intros E. injection E as <-. unfold fvalue_ok, to_raw. cbn. intros Hin E. injection E as <-.
  rewrite N2Z.id. unfold enum_is_valid, enum_into_raw. f_equal. apply existsb_exists. exists x. split; [exact Hin|apply N.eqb_refl].
Qed.

Lemma send_out_valid : Forall (fun p => Forall out_valid (p_fields p)) send_packets.
Proof.
  unfold send_packets. each; match goal with |- Forall _ (p_fields ?x) => unfold x end; cbn [p_fields]; each;
    first [apply out_valid_none | apply out_valid_enum | apply out_valid_free; reflexivity].
Qed.

Lemma wire_fields_at fs : forall b n ws k f w,
  Forall field_typed fs -> builder_ok fs b -> fields_size fs = Some n -> wire_fields fs b = Ret ws ->
  nth_error fs k = Some f -> nth_error ws k = Some w ->
  (exists x r, fvalue_ok f x /\ to_raw f x = Ret r /\ w = wire (f_ty f) r) /\
  field_bytes_at fs k f (concat ws) = w.
Proof.
  induction fs as [|g fs IH]; intros b n ws k f w T B S Ew Hk Hw; [destruct k; discriminate|].
  cbn in S. destruct (f_size g) as [a|] eqn:Sf; [|discriminate].
  destruct (fields_size fs) as [c|] eqn:Sfs; [|discriminate]. injection S as Sn.
  apply Forall_cons_iff in T. destruct T as [Tf Tfs]. destruct B as [Bf Bfs]. destruct b as [v b]; cbn [fst snd] in *.
  cbn [wire_fields fst snd] in Ew. destruct (to_raw g v) as [r| |] eqn:Er; cbn [bind] in *; try discriminate.
  destruct (wire_fields fs b) as [ws'| |] eqn:Ew'; cbn [bind] in *; try discriminate.
  inversion Ew; subst ws. pose proof (typed_len g v r a Tf Bf Er Sf) as L.
  destruct k as [|k]; cbn [nth_error] in *.
  - inversion Hk; subst f. inversion Hw; subst w. split; [eauto|].
    unfold field_bytes_at. rewrite Sf. cbn [offset_of concat]. rewrite dropN_0. apply takeN_app_exact. auto.
  - destruct (IH b c ws' k f w Tfs Bfs eq_refl Ew' Hk Hw) as (H1 & H2). split; [exact H1|].
    unfold field_bytes_at in *. cbn [offset_of concat]. unfold field_size. rewrite Sf.
    replace (dropN (a + offset_of fs k) (wire (f_ty g) r ++ concat ws')%list) with (dropN (offset_of fs k) (concat ws')); [exact H2|].
    rewrite dropN_app_ge by lia. f_equal. lia.
Qed.

Lemma built_accepted p b n ws :
  layout_ok (p_fields p) = true -> desc_typed p -> Forall out_valid (p_fields p) -> builder_ok (p_fields p) b ->
  packet_payload_size p = Some n -> wire_fields (p_fields p) b = Ret ws -> accepts p (concat ws).
Proof.
  intros L T V B S Ew. destruct (wire_fields_len _ _ _ _ T B S Ew) as [Ll Lc].
  split.
  - unfold length_accepts. destruct (forallb is_sized (p_fields p)) eqn:Hs.
    + rewrite Lc. symmetry. apply fields_size_fixed. exact S.
    + exfalso. assert (forallb is_sized (p_fields p) = true); [|congruence].
      apply forallb_forall. intros f Hf. pose proof (layout_no_sized_fn _ L) as Nf. rewrite Forall_forall in Nf. specialize (Nf f Hf).
      assert (Hsz : forall fs n, fields_size fs = Some n -> In f fs -> f_size f <> None).
      { induction fs as [|g fs IH]; intros m E HI; [destruct HI|]. cbn in E. destruct (f_size g) eqn:Eg; [|discriminate].
        destruct (fields_size fs) eqn:Efs; [|discriminate]. destruct HI as [->|HI]; [congruence|]. eapply IH; eauto. }
      specialize (Hsz _ _ S Hf). unfold is_sized. rewrite (Nf Hsz). destruct (f_size f); congruence.
  - intros k f m v Hk Hm Hv.
    assert (exists w, nth_error ws k = Some w) as (w & Hw).
    { assert (k < length ws)%nat.
      { assert (length ws = length (p_fields p)) as ->.
        { rewrite <- (map_length lenN ws), <- (map_length field_size). congruence. }
        apply nth_error_Some. congruence. }
      destruct (nth_error ws k) eqn:E; [eauto|]. apply nth_error_None in E. lia. }
    destruct (wire_fields_at _ _ _ _ _ _ _ T B S Ew Hk Hw) as ((x & r & Ox & Er & ->) & ->).
    assert (Hr : raw_ok (f_ty f) r).
    { unfold desc_typed in T. rewrite Forall_forall in T. apply nth_error_In in Hk. exact (T f Hk x r Ox Er). }
    assert (exists a, f_size f = Some a) as (a & Sz).
    { pose proof (layout_fields _ L) as Fl. rewrite Forall_forall in Fl. destruct (f_size f) eqn:E; [eauto|]. exfalso.
      assert (Hsz : forall fs n, fields_size fs = Some n -> In f fs -> f_size f <> None).
      { induction fs as [|g fs IH]; intros m' E' HI; [destruct HI|]. cbn in E'. destruct (f_size g) eqn:Eg; [|discriminate].
        destruct (fields_size fs) eqn:Efs; [|discriminate]. destruct HI as [->|HI]; [congruence|]. eapply IH; eauto. }
      apply nth_error_In in Hk. exact (Hsz _ _ S Hk E). }
    rewrite (decode_wire _ a r Sz Hr). rewrite Forall_forall in V. apply nth_error_In in Hk. exact (V f Hk m v x r Hm Hv Ox Er).
Qed.
