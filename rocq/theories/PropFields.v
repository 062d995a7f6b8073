(** * Properties of the values of builders (C22, C59) *)
From Coq Require Import String List NArith ZArith Bool Lia ZifyBool ZifyNat ZifyN SpecFloat.
From Verif Require Import Base BaseFacts DualBuffer PackDesc GenRecv GenSend Enums Floats Bits TableTypes TablePackets
  SpecFrame SpecPacket SpecFields ProofSend ProofRecv ProofTable ProofDispatch ProofFields PropPackets PropDispatch PropIter.
Import ListNotations.
Open Scope N_scope.
Open Scope list_scope.

(** ** Builders return a packet *)

(** Every builder of the library with a fixed length returns a packet, unless one of the values given to it is a
    NaN. *)
Theorem builder_total :
  forall p (b : builder (p_fields p)) n,
    In p send_packets -> p_len p = Fixed n -> builder_ok (p_fields p) b -> ~ has_nan (p_fields p) b ->
    exists payload, into_packet_bytes p b = Ret (frame (p_class p) (p_id p) payload) /\ lenN payload = n.
Proof.
  intros p b n Hp Hl B Nn. pose proof send_total as T. rewrite Forall_forall in T.
  destruct (wire_fields_total _ (T p Hp) b B Nn) as (ws & Ew). exists (concat ws).
  apply builder_emits_frame; assumption.
Qed.

(** CFG-TMODE2 with a NaN as its first coordinate *)
Definition tmode2 (x : spec_float) : builder (p_fields p_cfg_tmode2) :=
  (("Disabled"%string, 0), (0%Z, (0, (x, (S754_zero false, (S754_zero false, (S754_zero false, (0%Z, (S754_zero false, tt))))))))).
Lemma tmode2_ok x : float_ok FTy64 x -> builder_ok (p_fields p_cfg_tmode2) (tmode2 x).
Proof.
  intros H. unfold p_cfg_tmode2. cbn [p_fields builder_ok tmode2 fst snd].
  split; [vm_compute; tauto|]. split; [vm_compute; split; discriminate|]. split; [vm_compute; reflexivity|]. split; [exact H|].
  split; [vm_compute; reflexivity|]. split; [vm_compute; reflexivity|]. split; [vm_compute; reflexivity|].
  split; [vm_compute; split; discriminate|]. split; [vm_compute; reflexivity|]. exact I.
Qed.
Example builder_total_ex :
  In p_cfg_tmode2 send_packets /\ p_len p_cfg_tmode2 = Fixed 28 /\ builder_ok (p_fields p_cfg_tmode2) (tmode2 (S754_infinity true)) /\
  ~ has_nan (p_fields p_cfg_tmode2) (tmode2 (S754_infinity true)).
Proof.
  split; [unfold send_packets; in_list|]. split; [reflexivity|]. split.
  - apply tmode2_ok. vm_compute. reflexivity.
  - unfold p_cfg_tmode2. cbn [p_fields has_nan tmode2 fst snd].
    intros H. repeat destruct H as [H|H]; try exact H; apply nan_panics in H; vm_compute in H; discriminate.
Qed.

(** Violation: a NaN in a scaled field with a signed raw type makes the builder panic. *)
Theorem builder_nan_panics_refuted :
  forall p (b : builder (p_fields p)) n,
    In p send_packets -> p_len p = Fixed n -> builder_ok (p_fields p) b -> has_nan (p_fields p) b ->
    into_packet_bytes p b = Panic.
Proof.
  intros p b n Hp Hl B H. pose proof send_total as T. rewrite Forall_forall in T.
  pose proof (wire_fields_nan _ b (T p Hp) B H) as Ew.
  assert (Ac : forallb accepted send_packets = true) by (vm_compute; reflexivity).
  rewrite forallb_forall in Ac. specialize (Ac p Hp). unfold accepted in Ac.
  apply andb_true_iff in Ac. destruct Ac as [Ac A3]. apply andb_true_iff in Ac. destruct Ac as [_ A2].
  unfold length_matches, length_is_u16 in *. rewrite Hl in *.
  destruct (packet_payload_size p) as [m|] eqn:S; [|discriminate]. apply N.eqb_eq in A2. subst m.
  pose proof send_typed as Ty. rewrite Forall_forall in Ty.
  rewrite (into_packet_bytes_spec p b n (Ty p Hp) B S) by lia. rewrite Ew. reflexivity.
Qed.
Example builder_nan_panics_ex :
  builder_ok (p_fields p_cfg_tmode2) (tmode2 S754_nan) /\ has_nan (p_fields p_cfg_tmode2) (tmode2 S754_nan).
Proof.
  split; [apply tmode2_ok; vm_compute; reflexivity|]. unfold p_cfg_tmode2. cbn [p_fields has_nan tmode2 fst snd].
  do 3 right. left. constructor. reflexivity.
Qed.

(** ** Received packets can be sent again *)

(** For every packet of the library which can be received and sent, except CFG-ITFM and CFG-PRT for UARTs: copying
    the value of each getter of a received packet into the builder is possible and gives the bytes of the received packet. *)
Theorem recode :
  forall p payload n,
    In p recv_packets -> In p send_packets -> p_len p = Fixed n ->
    p_name p <> "CfgItfm"%string -> p_name p <> "CfgPrtUart"%string -> accepts p payload ->
    (exists b, copied p payload b) /\
    forall b, copied p payload b ->
      builder_ok (p_fields p) b /\ into_packet_bytes p b = Ret (frame (p_class p) (p_id p) payload).
Proof.
  intros p payload n Hr Hp Hl N1 N2 A.
  assert (Ac : forallb accepted send_packets = true) by (vm_compute; reflexivity).
  rewrite forallb_forall in Ac. specialize (Ac p Hp). unfold accepted in Ac.
  apply andb_true_iff in Ac. destruct Ac as [Ac A3]. apply andb_true_iff in Ac. destruct Ac as [_ A2].
  unfold length_matches, length_is_u16 in *. rewrite Hl in *.
  destruct (packet_payload_size p) as [m|] eqn:S; [|discriminate]. apply N.eqb_eq in A2. subst m.
  assert (L : lenN payload = n).
  { destruct A as [A _]. unfold length_accepts in A. pose proof (fields_size_fixed _ _ S) as Fx.
    destruct (forallb is_sized (p_fields p)) eqn:Fs; [congruence|].
    exfalso. pose proof recv_layout as Ly. rewrite forallb_forall in Ly. specialize (Ly p Hr). pose proof (layout_no_sized_fn _ Ly) as Nf.
    assert (forallb is_sized (p_fields p) = true); [|congruence]. clear - S Nf. unfold packet_payload_size in S. revert n S.
    induction (p_fields p) as [|f fs IH]; intros n S; [reflexivity|]. cbn in *. apply Forall_cons_iff in Nf. destruct Nf as [Nf Nfs].
    destruct (f_size f) as [a|] eqn:Sf; [|discriminate]. destruct (fields_size fs) as [c|] eqn:Sfs; [|discriminate].
    rewrite (IH Nfs c eq_refl), andb_true_r. unfold is_sized, no_sized_fn in *. rewrite Sf in *. rewrite Nf by discriminate. reflexivity. }
  split.
  - destruct (getter_values_total payload (getters p)) as (b & Eb).
    { intros g Hg. destruct (In_nth_error _ _ Hg) as (k & Hk).
      assert (Hf : nth_error (p_fields p) k = Some (g_field g)).
      { rewrite <- (gen_getters_fields (p_fields p) 0 []). fold (getters p). rewrite nth_error_map, Hk. reflexivity. }
      destruct (getters_safe p payload k _ Hr ltac:(lia) A Hf) as (g' & s & e & Hg' & _ & _ & _ & _ & [[E _]|H]); [congruence|].
      assert (g' = g) as -> by congruence. exact H. }
    pose proof (gen_getters_fields (p_fields p) 0 []) as E. change (map g_field (getters p) = p_fields p) in E.
    unfold copied. rewrite Eb. clear Eb. revert b. rewrite E. intros b. exists b, b. split; reflexivity.
  - intros b (b' & G & E). pose proof send_stable as St. rewrite Forall_forall in St.
    destruct (St p Hp) as [[H|[H|[]]]|Sf]; [congruence|congruence|].
    destruct (copied_wire 0 (getters p) (gen_getters_chain _ 0 [] n S) (p_fields p) payload n b' b E S Sf ltac:(lia) G) as (B & ws & Ew & Ec).
    split; [exact B|]. destruct (builder_emits_frame p b n ws Hp Hl B Ew) as (-> & _). rewrite Ec, dropN_0, takeN_all by lia. reflexivity.
Qed.

(** CFG-ANT *)
Example recode_ex :
  In p_cfg_ant recv_packets /\ In p_cfg_ant send_packets /\ p_len p_cfg_ant = Fixed 4 /\
  accepts p_cfg_ant [x1f; x00; x8b; xa9] /\ copied p_cfg_ant [x1f; x00; x8b; xa9] (31, (43403%Z, tt)).
Proof.
  split; [unfold recv_packets; in_list|]. split; [unfold send_packets; in_list|]. split; [reflexivity|]. split.
  - apply validate_accepts; [reflexivity|vm_compute; discriminate|vm_compute; reflexivity].
  - exists (31, (43403%Z, tt)). split; vm_compute; reflexivity.
Qed.

(** The exceptions.  CFG-ITFM loses bit 13 of [config2] and the other bits its types do not hold; CFG-PRT for UARTs loses the
    bits of the mode which are not data bits, parity or stop bits. *)
Theorem recode_refuted :
  exists payload b, accepts p_cfg_prt_uart payload /\ copied p_cfg_prt_uart payload b /\
    into_packet_bytes p_cfg_prt_uart b <> Ret (frame (p_class p_cfg_prt_uart) (p_id p_cfg_prt_uart) payload).
Proof.
  exists [x01; x00; x00; x00; xd0; x08; x00; x00; x80; x25; x00; x00; x07; x00; x03; x00; x00; x00; x00; x00].
  eexists. split; [|split].
  - apply validate_accepts; [reflexivity|vm_compute; discriminate|vm_compute; reflexivity].
  - eexists. split; vm_compute; reflexivity.
  - vm_compute. discriminate.
Qed.

Print Assumptions builder_total.
Print Assumptions builder_nan_panics_refuted.
Print Assumptions recode.
Print Assumptions recode_refuted.
