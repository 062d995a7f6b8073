(** * Properties of acknowledgements, message rates and reset masks (C54, C60) *)
From Coq Require Import String List NArith ZArith Bool Lia ZifyBool ZifyNat ZifyN.
From Verif Require Import Base BaseFacts DualBuffer PackDesc GenRecv GenSend Enums Floats TableTypes TablePackets Setters
  SpecFrame SpecPacket SpecDispatch ProofSend ProofRecv ProofTable ProofDispatch PropPackets PropDispatch PropIter.
Import ListNotations.
Open Scope N_scope.
Open Scope list_scope.

(** ** Acknowledgements *)
Lemma class_byte (c : byte) : unsigned_of [c] = Z.of_N (b2n c).
Proof. cbn. lia. Qed.
Lemma byte_class c T : (Z.of_N (b2n c) =? CLASS T)%Z = byte_eqb c (p_class T).
Proof.
  unfold CLASS. destruct (byte_eqb c (p_class T)) eqn:E.
  - apply byte_eqb_eq in E. subst. apply Z.eqb_refl.
  - apply byte_eqb_neq in E. apply Z.eqb_neq. intros H. apply E. apply b2n_inj. lia.
Qed.
Lemma byte_id c T : (Z.of_N (b2n c) =? ID T)%Z = byte_eqb c (p_id T).
Proof.
  unfold ID. destruct (byte_eqb c (p_id T)) eqn:E.
  - apply byte_eqb_eq in E. subst. apply Z.eqb_refl.
  - apply byte_eqb_neq in E. apply Z.eqb_neq. intros H. apply E. apply b2n_inj. lia.
Qed.
Lemma two_bytes (l : list byte) : lenN l = 2 -> exists c i, l = [c; i].
Proof.
  intros H. destruct l as [|c [|i [|x l]]]; try discriminate H; [eauto|].
  exfalso. unfold lenN in H. cbn [length] in H. lia.
Qed.

Lemma byte_getter c i off : off <= 1 ->
  (let! v := get_raw_field (Scalar U8) false off [c; i] in Ret v) = Ret (Z.of_N (b2n (if off =? 0 then c else i))).
Proof.
  intros H. rewrite (get_raw_field_ok (Scalar U8) false off [c; i] 1 eq_refl) by (change (lenN [c; i]) with 2; lia).
  assert (off = 0 \/ off = 1) as [-> | ->] by lia; cbn [bind]; apply f_equal; apply class_byte.
Qed.

Theorem ack_matches_exactly :
  forall payload, received p_ack_ack payload -> lenN payload <= 65535 ->
    exists class id, payload = [class; id] /\
      forall T, is_ack_for T payload = Ret (byte_eqb class (p_class T) && byte_eqb id (p_id T)).
Proof.
  intros payload R Hl. apply received_iff in R; [|unfold recv_table; in_list|discriminate|exact Hl].
  apply proj1 in R. change (lenN payload = 2) in R. destruct (two_bytes payload R) as (c & i & ->). exists c, i. split; [reflexivity|].
  intros T. unfold is_ack_for.
  change (AckAck_class [c; i]) with (let! v := get_raw_field (Scalar U8) false 0 [c; i] in Ret v).
  change (AckAck_msg_id [c; i]) with (let! v := get_raw_field (Scalar U8) false 1 [c; i] in Ret v).
  rewrite !byte_getter by lia. cbn [bind N.eqb]. rewrite byte_class, byte_id. destruct (byte_eqb c (p_class T)); reflexivity.
Qed.
Theorem nak_matches_exactly :
  forall payload, received p_ack_nak payload -> lenN payload <= 65535 ->
    exists class id, payload = [class; id] /\
      forall T, is_nak_for T payload = Ret (byte_eqb class (p_class T) && byte_eqb id (p_id T)).
Proof.
  intros payload R Hl. apply received_iff in R; [|unfold recv_table; in_list|discriminate|exact Hl].
  apply proj1 in R. change (lenN payload = 2) in R. destruct (two_bytes payload R) as (c & i & ->). exists c, i. split; [reflexivity|].
  intros T. unfold is_nak_for.
  change (AckNak_class [c; i]) with (let! v := get_raw_field (Scalar U8) false 0 [c; i] in Ret v).
  change (AckNak_msg_id [c; i]) with (let! v := get_raw_field (Scalar U8) false 1 [c; i] in Ret v).
  rewrite !byte_getter by lia. cbn [bind N.eqb]. rewrite byte_class, byte_id. destruct (byte_eqb c (p_class T)); reflexivity.
Qed.
Example ack_matches_ex : received p_ack_ack [x06; x00] /\ received p_ack_nak [x06; x00] /\
  is_ack_for p_cfg_prt_uart [x06; x00] = Ret true /\ is_ack_for p_cfg_rst [x06; x00] = Ret false.
Proof.
  split; [|split; [|split; vm_compute; reflexivity]];
    (apply received_iff; [unfold recv_table; in_list|discriminate|vm_compute; discriminate|];
     apply validate_accepts; [reflexivity|vm_compute; discriminate|vm_compute; reflexivity]).
Qed.

(** Packets a program can send and which share class and id, so that an acknowledgement does not tell them apart *)
Definition same_message (a b : string) : bool :=
  String.eqb a b ||
  existsb (fun group => existsb (String.eqb a) group && existsb (String.eqb b) group)
    [["CfgPrtI2c"; "CfgPrtUart"; "CfgPrtSpi"]; ["CfgMsgSinglePort"; "CfgMsgAllPorts"]]%string.

(** The acknowledgement of a packet sent with one builder is taken for one of another only if they are two forms
    of the same message. *)
Theorem ack_of_other_message :
  forall p q, In p send_packets -> In q send_packets ->
    (is_ack_for q [p_class p; p_id p] = Ret true <-> same_message (p_name p) (p_name q) = true).
Proof.
  intros p q Hp Hq.
  assert (F : forallb (fun p => forallb (fun q =>
            Bool.eqb (byte_eqb (p_class p) (p_class q) && byte_eqb (p_id p) (p_id q)) (same_message (p_name p) (p_name q))) send_packets) send_packets = true)
    by (vm_compute; reflexivity).
  rewrite forallb_forall in F. specialize (F p Hp). rewrite forallb_forall in F. specialize (F q Hq). apply Bool.eqb_prop in F. rewrite <- F.
  destruct (ack_matches_exactly [p_class p; p_id p]) as (c & i & E & M).
  - apply received_iff; [unfold recv_table; in_list|discriminate|vm_compute; discriminate|].
    apply validate_accepts; [reflexivity|vm_compute; discriminate|]. vm_compute. reflexivity.
  - vm_compute. discriminate.
  - injection E as <- <-. rewrite M. split; [intros H; injection H as H; exact H|intros ->; reflexivity].
Qed.
Example ack_of_other_message_ex :
  In p_cfg_rst send_packets /\ In p_cfg_ant send_packets /\ is_ack_for p_cfg_rst [p_class p_cfg_ant; p_id p_cfg_ant] = Ret false.
Proof. split; [unfold send_packets; in_list|]. split; [unfold send_packets; in_list|vm_compute; reflexivity]. Qed.

(** ** Message rates *)
Lemma int_bytes_1 c : int_bytes 1 (Z.of_N (b2n c)) = [c].
Proof. destruct c; vm_compute; reflexivity. Qed.

(** CFG-MSG names the message by its class and id, followed by the rate(s) *)
Theorem set_rate_single_port :
  forall T (rate : byte), In T (recv_packets ++ send_packets) ->
    into_packet_bytes p_cfg_msg_single_port (single_port_set_rate_for T (Z.of_N (b2n rate))) =
      Ret (frame x06 x01 [p_class T; p_id T; rate]).
Proof.
  intros T rate _.
  destruct (builder_emits_frame p_cfg_msg_single_port (single_port_set_rate_for T (Z.of_N (b2n rate))) 3 [[p_class T]; [p_id T]; [rate]])
    as (E & _); [unfold send_packets; in_list|reflexivity| | |exact E].
  - unfold single_port_set_rate_for. cbn [p_cfg_msg_single_port p_fields builder_ok fst snd].
    assert (H : forall c, fvalue_ok (mk_field "msg_class" None (Scalar U8) None false None) (Z.of_N (b2n c))).
    { intros c. pose proof (b2n_lt c). change (0 <= Z.of_N (b2n c) <= 255)%Z. lia. }
    split; [apply (H (p_class T))|]. split; [apply (H (p_id T))|]. split; [apply (H rate)|exact I].
  - change (Ret [int_bytes 1 (CLASS T); int_bytes 1 (ID T); int_bytes 1 (Z.of_N (b2n rate))] = Ret [[p_class T]; [p_id T]; [rate]]).
    unfold CLASS, ID. rewrite !int_bytes_1. reflexivity.
Qed.
Theorem set_rate_all_ports :
  forall T (rates : list byte), In T (recv_packets ++ send_packets) -> lenN rates = 6 ->
    into_packet_bytes p_cfg_msg_all_ports (all_ports_set_rate_for T rates) =
      Ret (frame x06 x01 ([p_class T; p_id T] ++ rates)).
Proof.
  intros T rates _ L.
  destruct (builder_emits_frame p_cfg_msg_all_ports (all_ports_set_rate_for T rates) 8 [[p_class T]; [p_id T]; rates])
    as (E & _); [unfold send_packets; in_list|reflexivity| | |].
  - unfold all_ports_set_rate_for. cbn [p_cfg_msg_all_ports p_fields builder_ok fst snd].
    assert (H : forall c, fvalue_ok (mk_field "msg_class" None (Scalar U8) None false None) (Z.of_N (b2n c))).
    { intros c. pose proof (b2n_lt c). change (0 <= Z.of_N (b2n c) <= 255)%Z. lia. }
    split; [apply (H (p_class T))|]. split; [apply (H (p_id T))|]. split; [right; exact L|exact I].
  - change (Ret [int_bytes 1 (CLASS T); int_bytes 1 (ID T); rates] = Ret [[p_class T]; [p_id T]; rates]).
    unfold CLASS, ID. rewrite !int_bytes_1. reflexivity.
  - cbn [concat app] in E. rewrite app_nil_r in E. exact E.
Qed.
Example set_rate_ex : In p_nav_pvt (recv_packets ++ send_packets) /\
  into_packet_bytes p_cfg_msg_all_ports (all_ports_set_rate_for p_nav_pvt [x00; x01; x01; x01; x00; x00]) =
    Ret [xb5; x62; x06; x01; x08; x00; x01; x07; x00; x01; x01; x01; x00; x00; x1a; xe8].
Proof. split; [apply in_or_app; left; unfold recv_packets; in_list|vm_compute; reflexivity]. Qed.

(** ** Reset masks *)

(** A hot start clears nothing, a warm start the ephemeris, a cold start every section *)
Theorem reset_masks :
  forall section flag, In (section, flag) (b_consts bf_nav_bbr_mask) ->
    flags_contains (nav_bbr_from_predefined HOT_START) flag = false /\
    (flags_contains (nav_bbr_from_predefined WARM_START) flag = true <-> section = "EPHEMERIS"%string) /\
    flags_contains (nav_bbr_from_predefined COLD_START) flag = true.
Proof.
  intros s flag H.
  assert (F : forallb (fun c => negb (flags_contains (nav_bbr_from_predefined HOT_START) (snd c)) &&
                Bool.eqb (flags_contains (nav_bbr_from_predefined WARM_START) (snd c)) (String.eqb (fst c) "EPHEMERIS") &&
                flags_contains (nav_bbr_from_predefined COLD_START) (snd c)) (b_consts bf_nav_bbr_mask) = true) by (vm_compute; reflexivity).
  rewrite forallb_forall in F. specialize (F _ H). cbn [fst snd] in F. apply andb_true_iff in F. destruct F as [F F3].
  apply andb_true_iff in F. destruct F as [F1 F2]. apply Bool.eqb_prop in F2. split; [now apply negb_true_iff|].
  split; [|exact F3]. rewrite F2. apply String.eqb_eq.
Qed.
Example reset_masks_ex : In ("RTC"%string, 256) (b_consts bf_nav_bbr_mask) /\
  into_packet_bytes p_cfg_rst (nav_bbr_from_predefined COLD_START, (("ControlledSoftwareReset"%string, 1), (0%Z, tt))) =
    Ret (frame x06 x04 [xff; xff; x01; x00]).
Proof. split; [unfold bf_nav_bbr_mask, b_consts; in_list|vm_compute; reflexivity]. Qed.

Print Assumptions ack_matches_exactly.
Print Assumptions nak_matches_exactly.
Print Assumptions ack_of_other_message.
Print Assumptions set_rate_single_port.
Print Assumptions set_rate_all_ports.
Print Assumptions reset_masks.
