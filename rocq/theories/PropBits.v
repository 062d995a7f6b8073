(** * Properties of the hand-written bit-field types (C49 - C51, end of C29) *)
From Coq Require Import String List NArith ZArith Bool Lia ZifyBool ZifyNat ZifyN.
From Verif Require Import Base BaseFacts DualBuffer PackDesc GenRecv GenSend Dispatch Enums Bits TablePackets SpecFrame SpecPacket SpecDispatch
  SpecTypes ProofRecv ProofTable ProofDispatch ProofText PropDispatch PropIter.
Import ListNotations.
Open Scope N_scope.
Open Scope list_scope.

Lemma bits_mid P L a b c p l w : 2 ^ p = P -> 2 ^ l = L -> w = a + P * (b + L * c) -> a < P -> b < L -> bits w p l = b.
Proof.
  intros <- <- -> Ha Hb. unfold bits.
  assert (E : (a + 2 ^ p * (b + 2 ^ l * c)) / 2 ^ p = b + 2 ^ l * c) by (symmetry; apply (N.div_unique _ _ _ a); [exact Ha|lia]).
  rewrite E. symmetry. apply (N.mod_unique _ _ c); [exact Hb|lia].
Qed.
Lemma bit_bits w p : bit w p = (bits w p 1 =? 1).
Proof. reflexivity. Qed.
Lemma lor_add n P a b : 2 ^ n = P -> a < P -> N.lor a (P * b) = a + P * b.
Proof.
  intros <- Ha.
  assert (L : N.land a (2 ^ n * b) = 0).
  { apply N.bits_inj. intros i. rewrite N.land_spec, N.bits_0, (N.mul_comm (2 ^ n)), <- N.shiftl_mul_pow2.
    destruct (N.lt_ge_cases i n) as [H|H]; [rewrite N.shiftl_spec_low by exact H; apply andb_false_r|].
    rewrite <- (N.mod_small a (2 ^ n)) by exact Ha. rewrite N.mod_pow2_bits_high by exact H. reflexivity. }
  rewrite <- N.lxor_lor by exact L. symmetry. apply N.add_nocarry_lxor. exact L.
Qed.
Lemma itfm_raw p l P L x : 2 ^ p = P -> 2 ^ l = L -> P * L <= 2 ^ 32 -> itfm_into_raw p l x = P * (x mod L).
Proof.
  intros <- <- H. unfold itfm_into_raw, itfm_mask, shl32. replace (N.shiftl 1 l - 1) with (N.ones l) by (unfold N.ones; lia).
  rewrite N.land_ones, N.shiftl_mul_pow2. rewrite N.mul_comm. apply N.mod_small.
  pose proof (N.mod_lt x (2 ^ l) ltac:(apply N.pow_nonzero; lia)). apply N.lt_le_trans with (2 ^ p * 2 ^ l); [|exact H].
  apply N.mul_lt_mono_pos_l; [|exact H0]. apply N.neq_0_lt_0. apply N.pow_nonzero. lia.
Qed.

(** ** C49 *)

Lemma itfm_config_sum c : itfm_config_into_raw c =
  ic_bb_threshold c mod 16 + 16 * (ic_cw_threshold c mod 32) + 512 * (ic_algorithm_bits c mod 4194304) + 2147483648 * (if ic_enable c then 1 else 0).
Proof.
  unfold itfm_config_into_raw, cw_threshold_into_raw, bb_threshold_into_raw, algo_bits_into_raw.
  rewrite (itfm_raw 4 5 16 32), (itfm_raw 0 4 1 16), (itfm_raw 9 22 512 4194304) by (reflexivity || (vm_compute; discriminate)).
  assert (E : shl32 (b2w (ic_enable c)) 31 = 2147483648 * (if ic_enable c then 1 else 0)) by (destruct (ic_enable c); reflexivity). rewrite E.
  set (x := ic_bb_threshold c mod 16). set (y := ic_cw_threshold c mod 32). set (z := ic_algorithm_bits c mod 4194304).
  assert (B1 : x < 16) by (apply N.mod_lt; discriminate). assert (B2 : y < 32) by (apply N.mod_lt; discriminate).
  assert (B3 : z < 4194304) by (apply N.mod_lt; discriminate).
  set (e := if ic_enable c then 1 else 0). clearbody x y z e. rewrite N.mul_1_l.
  rewrite <- !N.lor_assoc, (N.lor_comm (2147483648 * e)). rewrite (N.lor_assoc (16 * y)), (N.lor_comm (16 * y) x).
  rewrite (lor_add 4 16 x y), (lor_add 9 512 _ z), (lor_add 31 2147483648 _ e) by (reflexivity || lia). reflexivity.
Qed.

(** The word that is sent has the enable flag in bit 31, the broadband threshold in bits 0-3, the continuous wave threshold
    in bits 4-8 and the algorithm bits in bits 9-30 (of each as many bits as fit). *)
Theorem itfm_config_encodes :
  forall c, let w := itfm_config_into_raw c in
    w < 2 ^ 32 /\ bit w 31 = ic_enable c /\
    bits w 0 4 = ic_bb_threshold c mod 16 /\ bits w 4 5 = ic_cw_threshold c mod 32 /\
    bits w 9 22 = ic_algorithm_bits c mod 4194304.
Proof.
  intros c w. pose proof (itfm_config_sum c) as E. fold w in E. clearbody w. rewrite bit_bits.
  assert (B1 : ic_bb_threshold c mod 16 < 16) by (apply N.mod_lt; discriminate).
  assert (B2 : ic_cw_threshold c mod 32 < 32) by (apply N.mod_lt; discriminate).
  assert (B3 : ic_algorithm_bits c mod 4194304 < 4194304) by (apply N.mod_lt; discriminate).
  set (x := ic_bb_threshold c mod 16) in *. set (y := ic_cw_threshold c mod 32) in *. set (z := ic_algorithm_bits c mod 4194304) in *.
  set (e := if ic_enable c then 1 else 0) in *.
  assert (Be : e < 2) by (unfold e; destruct (ic_enable c); reflexivity).
  assert (Ee : (e =? 1) = ic_enable c) by (unfold e; destruct (ic_enable c); reflexivity).
  clearbody x y z e. split; [change (2 ^ 32) with 4294967296; lia|]. split; [|split; [|split]].
  - rewrite (bits_mid 2147483648 2 (x + 16 * y + 512 * z) e 0) by (reflexivity || lia). exact Ee.
  - apply (bits_mid 1 16 0 x (y + 32 * (z + 4194304 * e))); (reflexivity || lia).
  - apply (bits_mid 16 32 x y (z + 4194304 * e)); (reflexivity || lia).
  - apply (bits_mid 512 4194304 (x + 16 * y) z e); (reflexivity || lia).
Qed.
Example itfm_config_ex : itfm_config_into_raw (itfm_config_new true 3 15) = 0xAD62ACF3.
Proof. reflexivity. Qed.

(** The defaults: detection off, thresholds 3 and 15; the reserved algorithm bits are 0x16B156 in every configuration which
    a user can make. *)
Theorem itfm_config_defaults :
  (let w := itfm_config_into_raw itfm_config_default in
    bit w 31 = false /\ bits w 0 4 = 3 /\ bits w 4 5 = 15 /\ bits w 9 22 = 0x16B156) /\
  (forall enable bb cw, bb < 16 -> cw < 32 ->
    let w := itfm_config_into_raw (itfm_config_new enable bb cw) in
    bit w 31 = enable /\ bits w 0 4 = bb /\ bits w 4 5 = cw /\ bits w 9 22 = 0x16B156).
Proof.
  split; [vm_compute; auto|]. intros enable bb cw Hb Hc w.
  destruct (itfm_config_encodes (itfm_config_new enable bb cw)) as (_ & H1 & H2 & H3 & H4). fold w in H1, H2, H3, H4.
  rewrite H1, H2, H3, H4. cbn [itfm_config_new ic_enable ic_bb_threshold ic_cw_threshold ic_algorithm_bits].
  unfold bb_threshold_from, cw_threshold_from. rewrite !N.mod_small by assumption. repeat split; reflexivity.
Qed.

(** Decoding keeps the whole word for each part. *)
Theorem itfm_config_decodes :
  forall w, itfm_config_from w = mk_itfm_config (bit w 31) w w w.
Proof.
  intros w. unfold itfm_config_from, bb_threshold_from, cw_threshold_from, algo_bits_from. f_equal.
  rewrite <- bit_land. change (2 ^ 31) with 2147483648. destruct (N.eqb_spec (N.land w 2147483648) 0) as [->|H]; [reflexivity|]. cbn [negb]. lia.
Qed.

(** What of a word survives decoding and encoding: the enable flag and the broadband threshold; the other two parts are
    replaced by the low bits of the word. *)
Theorem itfm_config_recode :
  forall w, let w' := itfm_config_into_raw (itfm_config_from w) in
    bit w' 31 = bit w 31 /\ bits w' 0 4 = bits w 0 4 /\ bits w' 4 5 = bits w 0 5 /\ bits w' 9 22 = bits w 0 22.
Proof.
  intros w w'. destruct (itfm_config_encodes (itfm_config_from w)) as (_ & H1 & H2 & H3 & H4). fold w' in H1, H2, H3, H4.
  rewrite itfm_config_decodes in H1, H2, H3, H4. cbn [ic_enable ic_bb_threshold ic_cw_threshold ic_algorithm_bits] in *.
  unfold bits in *. change (2 ^ 0) with 1 in *. rewrite !N.div_1_r in *. auto.
Qed.

Definition CfgItfm_config : list byte -> res itfm_config := g_val (the_getter p_cfg_itfm "config").
Definition CfgItfm_config2 : list byte -> res itfm_config2 := g_val (the_getter p_cfg_itfm "config2").

(** Violation: the configuration read back from a packet is not the one it was built from, and sending what was read back
    sends another word (here for the constructor with the library's defaults). *)
Theorem itfm_config_round_trip_refuted :
  exists b bytes payload c,
    fst b = itfm_config_new true bb_threshold_default cw_threshold_default /\
    into_packet_bytes p_cfg_itfm b = Ret bytes /\ bytes = frame x06 x39 payload /\
    received p_cfg_itfm payload /\ CfgItfm_config payload = Ret c /\ c <> fst b /\
    itfm_config_into_raw c <> itfm_config_into_raw (fst b).
Proof.
  exists ((itfm_config_new true 3 15, (itfm_config2_new AntActive true, tt)) : builder (p_fields p_cfg_itfm)).
  exists (frame x06 x39 [xf3; xac; x62; xad; x1f; x43; x00; x00]), [xf3; xac; x62; xad; x1f; x43; x00; x00], (itfm_config_from 0xAD62ACF3).
  split; [reflexivity|]. split; [vm_compute; reflexivity|]. split; [reflexivity|]. split.
  - apply received_iff; [unfold recv_table; in_list|discriminate|vm_compute; discriminate|].
    apply validate_accepts; [reflexivity|vm_compute; discriminate|vm_compute; reflexivity].
  - split; [vm_compute; reflexivity|]. split; vm_compute; discriminate.
Qed.

Lemma itfm_config2_sum c : itfm_config2_into_raw c =
  N.lor (ic2_general c mod 4096 + 16384 * (if ic2_scan_aux_bands c then 1 else 0)) (itfm_antenna_into_raw (ic2_antenna c)).
Proof.
  unfold itfm_config2_into_raw, general_bits_into_raw. rewrite (itfm_raw 0 12 1 4096) by (reflexivity || (vm_compute; discriminate)).
  assert (E : shl32 (b2w (ic2_scan_aux_bands c)) 14 = 16384 * (if ic2_scan_aux_bands c then 1 else 0)) by (destruct (ic2_scan_aux_bands c); reflexivity).
  rewrite E, N.mul_1_l, (N.lor_comm (16384 * _)), (lor_add 14 16384) ; [reflexivity|reflexivity|].
  apply N.lt_trans with 4096; [apply N.mod_lt; discriminate|reflexivity].
Qed.
Lemma bits_lor a b p l : bits (N.lor a b) p l = N.lor (bits a p l) (bits b p l).
Proof. rewrite <- !shift_land_bits. now rewrite N.shiftr_lor, N.land_lor_distr_l. Qed.

(** The second word: general bits in bits 0-11, the flag in bit 14 - and the antenna setting, which belongs in bits 12-13
    (where decoding looks for it), is mixed into the general bits. *)
Theorem itfm_config2_encodes :
  forall c, let w := itfm_config2_into_raw c in
    bit w 14 = ic2_scan_aux_bands c /\ bits w 12 2 = 0 /\
    bits w 0 12 = N.lor (ic2_general c mod 4096) (itfm_antenna_into_raw (ic2_antenna c)).
Proof.
  intros c w. unfold w. rewrite itfm_config2_sum, bit_bits, !bits_lor.
  assert (B1 : ic2_general c mod 4096 < 4096) by (apply N.mod_lt; discriminate).
  set (x := ic2_general c mod 4096) in *. set (e := if ic2_scan_aux_bands c then 1 else 0).
  assert (Be : e < 2) by (unfold e; destruct (ic2_scan_aux_bands c); reflexivity).
  assert (Ee : (e =? 1) = ic2_scan_aux_bands c) by (unfold e; destruct (ic2_scan_aux_bands c); reflexivity). clearbody x e.
  split; [|split].
  - rewrite (bits_mid 16384 2 x e 0) by (reflexivity || lia). rewrite <- Ee. destruct (ic2_antenna c); cbn; now rewrite N.lor_0_r.
  - rewrite (bits_mid 4096 4 x 0 e) by (reflexivity || lia). destruct (ic2_antenna c); reflexivity.
  - rewrite (bits_mid 1 4096 0 x (4 * e)) by (reflexivity || lia). destruct (ic2_antenna c); reflexivity.
Qed.

Theorem itfm_config2_decodes :
  forall w, itfm_config2_from w =
    mk_itfm_config2 w (match bits w 12 2 with 1 => AntActive | 2 => AntPassive | _ => AntUnknown end) (bit w 14).
Proof.
  intros w. unfold itfm_config2_from, general_bits_from, itfm_antenna_from. f_equal.
  - change 12288 with (N.shiftl (N.ones 2) 12). rewrite N.shiftr_land, N.shiftr_shiftl_l by lia. change (12 - 12) with 0.
    rewrite N.shiftl_0_r, shift_land_bits. reflexivity.
  - rewrite <- bit_land. change (2 ^ 14) with 16384. destruct (N.eqb_spec (N.land w 16384) 0) as [->|H]; [reflexivity|]. cbn [negb]. lia.
Qed.

(** Violation: whatever antenna setting is sent, "unknown" is read back. *)
Theorem itfm_antenna_lost_refuted :
  forall c, ic2_antenna (itfm_config2_from (itfm_config2_into_raw c)) = AntUnknown.
Proof. intros c. rewrite itfm_config2_decodes. cbn [ic2_antenna]. destruct (itfm_config2_encodes c) as (_ & -> & _). reflexivity. Qed.
Example itfm_antenna_ex :
  itfm_config2_into_raw (itfm_config2_new AntActive false) = 0x31F /\ itfm_config2_into_raw (itfm_config2_new AntUnknown false) = 0x31E /\
  ic2_antenna (itfm_config2_new AntActive false) = AntActive.
Proof. repeat split. Qed.

(** ** C50 *)

(** The codes of the interface description *)
Definition data_bits_code (d : data_bits) : N := match d with Seven => 2 | Eight => 3 end.
Definition parity_code (p : parity) : N := match p with ParityEven => 0 | ParityOdd => 1 | ParityNone => 4 end.
Definition stop_bits_code (s : stop_bits) : N := match s with StopOne => 0 | StopOneHalf => 1 | StopTwo => 2 | StopHalf => 3 end.

(** The mode word has the data bits in bits 6-7, the parity in bits 9-11, the stop bits in bits 12-13 and nothing else. *)
Theorem uart_mode_encodes :
  forall m, let w := uart_mode_into_raw m in
    w = 2 ^ 6 * data_bits_code (um_data_bits m) + 2 ^ 9 * parity_code (um_parity m) + 2 ^ 12 * stop_bits_code (um_stop_bits m) /\
    bits w 6 2 = data_bits_code (um_data_bits m) /\ bits w 9 3 = parity_code (um_parity m) /\
    bits w 12 2 = stop_bits_code (um_stop_bits m).
Proof. intros [d p s]. destruct d, p, s; vm_compute; repeat split. Qed.

Theorem uart_mode_round_trip : forall m, uart_mode_from (uart_mode_into_raw m) = Ret m.
Proof. intros [d p s]. destruct d, p, s; reflexivity. Qed.

(** Decoding looks at these bits only, and panics exactly for 5 and 6 data bits and the reserved parities. *)
Theorem uart_mode_decodes :
  forall w,
    (bits w 6 2 < 2 \/ In (bits w 9 3) [2; 3; 6; 7] -> uart_mode_from w = Panic) /\
    (2 <= bits w 6 2 -> ~ In (bits w 9 3) [2; 3; 6; 7] ->
     exists m, uart_mode_from w = Ret m /\
       data_bits_code (um_data_bits m) = bits w 6 2 /\ stop_bits_code (um_stop_bits m) = bits w 12 2 /\
       (parity_code (um_parity m) = bits w 9 3 \/ um_parity m = ParityNone /\ bits w 9 3 = 5)).
Proof.
  intros w. unfold uart_mode_from, data_bits_from, parity_from, stop_bits_from.
  change (N.land (N.shiftr w 6) 3) with (N.land (N.shiftr w 6) (N.ones 2)). change (N.land (N.shiftr w 12) 3) with (N.land (N.shiftr w 12) (N.ones 2)).
  change (N.land (N.shiftr w 9) 7) with (N.land (N.shiftr w 9) (N.ones 3)). rewrite !shift_land_bits.
  pose proof (bits_bound w 6 2) as B1. pose proof (bits_bound w 9 3) as B2. pose proof (bits_bound w 12 2) as B3.
  change (2 ^ 2) with 4 in *. change (2 ^ 3) with 8 in *.
  set (d := bits w 6 2) in *. set (p := bits w 9 3) in *. set (s := bits w 12 2) in *. clearbody d p s.
  assert (Hd : In d [0;1;2;3]) by (cbn; lia). assert (Hp : In p [0;1;2;3;4;5;6;7]) by (cbn; lia). assert (Hs : In s [0;1;2;3]) by (cbn; lia).
  clear B1 B2 B3. cbn [In] in Hd, Hp, Hs. split.
  - intros H. destruct Hd as [<-|[<-|[<-|[<-|[]]]]];
      destruct Hp as [<-|[<-|[<-|[<-|[<-|[<-|[<-|[<-|[]]]]]]]]]; first [reflexivity | cbn [In] in H; exfalso; lia].
  - intros H1 H2. destruct Hd as [<-|[<-|[<-|[<-|[]]]]]; try lia;
      destruct Hp as [<-|[<-|[<-|[<-|[<-|[<-|[<-|[<-|[]]]]]]]]]; first [exfalso; apply H2; cbn [In]; lia |
        destruct Hs as [<-|[<-|[<-|[<-|[]]]]]; eexists; (split; [reflexivity|cbn [um_data_bits um_parity um_stop_bits data_bits_code stop_bits_code parity_code]; repeat split; auto])].
Qed.

Definition CfgPrtUart_mode : list byte -> res uart_mode := g_val (the_getter p_cfg_prt_uart "mode").

(** So the getter of a received UART configuration panics exactly for such words. *)
Theorem uart_mode_getter :
  forall payload, lenN payload <= 65535 -> received p_cfg_prt_uart payload ->
    CfgPrtUart_mode payload = uart_mode_from (le_value (takeN 4 (dropN 4 payload))).
Proof.
  intros payload Hl R. apply received_iff in R; [|unfold recv_table; in_list|discriminate|exact Hl]. apply accepts_uart in R. destruct R as [L _].
  unfold CfgPrtUart_mode. change (g_val (the_getter p_cfg_prt_uart "mode") payload) with
    (let! v := (let! l := read_bytes payload 4 4 in Ret (from_le_bytes U32 l)) in let! x := uart_mode_from (Z.to_N v) in Ret x).
  rewrite read_bytes_takeN by lia. cbn [bind]. change (N.of_nat 4) with 4.
  assert (E : Z.to_N (from_le_bytes U32 (takeN 4 (dropN 4 payload))) = le_value (takeN 4 (dropN 4 payload))).
  { apply N2Z.id. }
  rewrite E. destruct (uart_mode_from _); reflexivity.
Qed.
Example uart_mode_ex :
  received p_cfg_prt_uart (x01 :: x00 :: x00 :: x00 :: xd0 :: x08 :: repeat x00 14) /\
  CfgPrtUart_mode (x01 :: x00 :: x00 :: x00 :: xd0 :: x08 :: repeat x00 14) = Ret (mk_uart_mode Eight ParityNone StopOne) /\
  bits 0x8d0 6 2 = 3 /\ bits 0x8d0 9 3 = 4 /\ uart_mode_from 0x400 = Panic.
Proof.
  split; [|repeat split; vm_compute; reflexivity].
  apply received_iff; [unfold recv_table; in_list|discriminate|vm_compute; discriminate|]. apply accepts_uart. split; [reflexivity|]. left. reflexivity.
Qed.

(** ** C51 *)

Lemma bit_set_bit w p : bit_set w p = bit w p.
Proof.
  unfold bit_set, bit. change 1 with (N.ones 1) at 1. rewrite shift_land_bits. unfold bits. change (2 ^ 1) with 2.
  pose proof (N.mod_lt (w / 2 ^ p) 2 ltac:(discriminate)) as H. set (x := (w / 2 ^ p) mod 2) in *. clearbody x.
  destruct (N.eqb_spec x 0), (N.eqb_spec x 1); try reflexivity; lia.
Qed.
Lemma land_bit w p P : 2 ^ p = P -> (N.land w P =? 0) = negb (bit w p).
Proof. intros <-. rewrite <- bit_land. now rewrite negb_involutive. Qed.

(** The flags of a satellite in NAV-SAT, for every word: single bits, the documented codes of the wider fields *)
Theorem nav_sat_sv_flags_bits :
  forall w,
    sv_used w = bit w 3 /\ differential_correction_available w = bit w 6 /\ smoothed w = bit w 7 /\
    ephemeris_available w = bit w 11 /\ almanac_available w = bit w 12 /\ an_offline_available w = bit w 13 /\
    an_auto_available w = bit w 14 /\ sbas_corr w = bit w 16 /\ rtcm_corr w = bit w 17 /\ slas_corr w = bit w 18 /\
    spartn_corr w = bit w 19 /\ pr_corr w = bit w 20 /\ cr_corr w = bit w 21 /\ do_corr w = bit w 22.
Proof. intros w. rewrite <- !bit_set_bit. repeat split. Qed.
Definition quality_codes : list (N * quality_indicator) :=
  [(0, NoSignal); (1, Searching); (2, SignalAcquired); (3, SignalDetected); (4, CodeLock); (5, CarrierLock); (6, CarrierLock); (7, CarrierLock)].
Definition health_codes : list (N * sv_health) := [(0, UnknownHealth 0); (1, Healthy); (2, Unhealthy); (3, UnknownHealth 3)].
Definition orbit_codes : list (N * orbit_source_t) :=
  [(0, NoInfoAvailable); (1, Ephemeris); (2, Almanac); (3, AssistNowOffline); (4, AssistNowAutonomous);
   (5, OtherSource 5); (6, OtherSource 6); (7, OtherSource 7)].
Theorem nav_sat_sv_flags_codes :
  forall w,
    (exists q, quality_ind w = Ret q /\ In (bits w 0 3, q) quality_codes) /\
    In (bits w 4 2, health w) health_codes /\ In (bits w 8 3, orbit_source w) orbit_codes.
Proof.
  intros w. unfold quality_ind, health, orbit_source.
  change (N.land w 7) with (N.land w (N.ones 3)). change (N.land (N.shiftr w 8) 7) with (N.land (N.shiftr w 8) (N.ones 3)).
  change (N.land (N.shiftr w 4) 3) with (N.land (N.shiftr w 4) (N.ones 2)). rewrite land_ones_bits, !shift_land_bits.
  pose proof (bits_bound w 0 3) as B1. pose proof (bits_bound w 4 2) as B2. pose proof (bits_bound w 8 3) as B3.
  change (2 ^ 2) with 4 in *. change (2 ^ 3) with 8 in *.
  set (q := bits w 0 3) in *. set (h := bits w 4 2) in *. set (o := bits w 8 3) in *. clearbody q h o.
  assert (Hq : In q [0;1;2;3;4;5;6;7]) by (cbn; lia). assert (Hh : In h [0;1;2;3]) by (cbn; lia). assert (Ho : In o [0;1;2;3;4;5;6;7]) by (cbn; lia).
  clear B1 B2 B3. cbn [In] in *. split; [|split].
  - repeat (destruct Hq as [<-|Hq]; [eexists; split; [reflexivity|cbn; tauto]|]); destruct Hq.
  - repeat (destruct Hh as [<-|Hh]; [cbn; tauto|]); destruct Hh.
  - repeat (destruct Ho as [<-|Ho]; [cbn; tauto|]); destruct Ho.
Qed.
Example nav_sat_sv_flags_ex :
  quality_ind 0x0001191F = Ret CarrierLock /\ health 0x0001191F = Healthy /\ sv_used 0x0001191F = true /\
  orbit_source 0x0001191F = Ephemeris /\ sbas_corr 0x0001191F = true /\ smoothed 0x0001191F = false.
Proof. repeat split. Qed.

(** The fix status of NAV-STATUS *)
Theorem fix_status_bits :
  forall w, has_pr_prr_correction w = bit w 0 /\
    exists m, map_matching w = Ret m /\ In (bits w 6 2, m) [(0, MapNone); (1, MapValid); (2, MapUsed); (3, MapDr)].
Proof.
  intros w. split.
  - unfold has_pr_prr_correction, bit. change 1 with (N.ones 1) at 1. rewrite land_ones_bits. reflexivity.
  - unfold map_matching. change (N.land (N.shiftr w 6) 3) with (N.land (N.shiftr w 6) (N.ones 2)). rewrite shift_land_bits. pose proof (bits_bound w 6 2) as B. change (2 ^ 2) with 4 in B.
    set (m := bits w 6 2) in *. clearbody m. assert (H : In m [0;1;2;3]) by (cbn; lia). clear B. cbn [In] in H.
    repeat (destruct H as [<-|H]; [eexists; split; [reflexivity|cbn; tauto]|]); destruct H.
Qed.
Example fix_status_ex : has_pr_prr_correction 0x41 = true /\ map_matching 0x41 = Ret MapValid.
Proof. split; reflexivity. Qed.

(** TIM-TP *)
Theorem tim_tp_flags_bits :
  forall w, tp_time_base w = (if bit w 0 then TpUtc else TpGnss) /\ tp_utc_available w = bit w 1 /\
    In (bits w 2 2, raim_active w) [(0, None); (1, Some false); (2, Some true); (3, None)] /\
    q_err_valid w = negb (bit w 4).
Proof.
  intros w. unfold tp_time_base, tp_utc_available, raim_active, q_err_valid.
  rewrite (land_bit w 0 1), (land_bit w 1 2), (land_bit w 4 16) by reflexivity. rewrite negb_involutive.
  split; [destruct (bit w 0); reflexivity|]. split; [reflexivity|]. split; [|reflexivity].
  change (N.land (N.shiftr w 2) 3) with (N.land (N.shiftr w 2) (N.ones 2)). rewrite shift_land_bits. pose proof (bits_bound w 2 2) as B. change (2 ^ 2) with 4 in B.
  set (m := bits w 2 2) in *. clearbody m. assert (H : In m [0;1;2;3]) by (cbn; lia). clear B. cbn [In] in H.
  repeat (destruct H as [<-|H]; [cbn; tauto|]); destruct H.
Qed.
Theorem tim_tp_ref_info_codes :
  forall w, w < 256 ->
    time_ref_gnss w = nth (N.to_nat (bits w 0 4)) [Some RefGps; Some RefGlo; Some RefBds; Some RefGal; Some RefNavIc] None /\
    utc_standard w = nth (N.to_nat (bits w 4 4))
      [None; Some UtcCrl; Some UtcNist; Some UtcUsno; Some UtcBipm; Some UtcEu; Some UtcSu; Some UtcNtsc; Some UtcNpli] None.
Proof.
  intros w Hw. unfold time_ref_gnss, utc_standard. change 15 with (N.ones 4). rewrite land_ones_bits.
  assert (E : N.shiftr w 4 = bits w 4 4).
  { unfold bits. rewrite N.shiftr_div_pow2. symmetry. apply N.mod_small. apply N.div_lt_upper_bound; [discriminate|exact Hw]. }
  rewrite E. pose proof (bits_bound w 0 4) as B1. pose proof (bits_bound w 4 4) as B2. change (2 ^ 4) with 16 in *.
  set (a := bits w 0 4) in *. set (b := bits w 4 4) in *. clearbody a b. clear E.
  assert (Ha : In a [0;1;2;3;4;5;6;7;8;9;10;11;12;13;14;15]) by (cbn; lia).
  assert (Hb : In b [0;1;2;3;4;5;6;7;8;9;10;11;12;13;14;15]) by (cbn; lia). clear B1 B2. cbn [In] in *. split.
  - repeat (destruct Ha as [<-|Ha]; [reflexivity|]); destruct Ha.
  - repeat (destruct Hb as [<-|Hb]; [reflexivity|]); destruct Hb.
Qed.
Example tim_tp_ex : tp_time_base 0x0b = TpUtc /\ raim_active 0x0b = Some true /\ q_err_valid 0x0b = true /\
  time_ref_gnss 0x34 = Some RefNavIc /\ utc_standard 0x34 = Some UtcUsno.
Proof. repeat split. Qed.

(** TIM-TM2 *)
Theorem tim_tm2_flags_bits :
  forall w, tm2_mode w = (if bit w 0 then Tm2Running else Tm2Single) /\ tm2_run w = (if bit w 1 then Tm2Stopped else Tm2Armed) /\
    new_falling_edge w = bit w 2 /\ tm2_utc_available w = bit w 5 /\ tm2_time_valid w = bit w 6 /\ new_rising_edge w = bit w 7.
Proof.
  intros w. unfold tm2_mode, tm2_run, new_falling_edge, new_rising_edge, tm2_utc_available, tm2_time_valid.
  rewrite (land_bit w 0 1), (land_bit w 1 2), (land_bit w 2 4), (land_bit w 5 32), (land_bit w 6 64), (land_bit w 7 128) by reflexivity.
  rewrite !negb_involutive. split; [destruct (bit w 0); reflexivity|]. split; [destruct (bit w 1); reflexivity|]. repeat split.
Qed.

(** Violation: the time base (bits 3-4) can only be read when it is the receiver time; otherwise the accessor panics. *)
Theorem tim_tm2_time_base_refuted :
  forall w, tm2_time_base w = if bits w 3 2 =? 0 then Ret Tm2Receiver else Panic.
Proof.
  intros w. unfold tm2_time_base. change 24 with (N.shiftl (N.ones 2) 3).
  assert (E : N.land w (N.shiftl (N.ones 2) 3) = 8 * bits w 3 2).
  { rewrite <- shift_land_bits. change 8 with (2 ^ 3). rewrite N.mul_comm, <- N.shiftl_mul_pow2, N.shiftl_land.
    apply N.bits_inj. intros i. rewrite !N.land_spec. destruct (N.lt_ge_cases i 3) as [H|H].
    - rewrite (N.shiftl_spec_low (N.ones 2)) by exact H. now rewrite !andb_false_r.
    - f_equal. rewrite N.shiftl_spec_high' by exact H. rewrite N.shiftr_spec'. f_equal. lia. }
  rewrite E. pose proof (bits_bound w 3 2) as B. change (2 ^ 2) with 4 in B. set (m := bits w 3 2) in *. clearbody m.
  assert (H : In m [0;1;2;3]) by (cbn; lia). cbn [In] in H. repeat (destruct H as [<-|H]; [reflexivity|]); destruct H.
Qed.

Definition TimTm2_flags : list byte -> res N := g_val (the_getter p_tim_tm2 "flags").
Theorem tim_tm2_time_base_panics_refuted :
  exists payload flags, received p_tim_tm2 payload /\ TimTm2_flags payload = Ret flags /\ bits flags 3 2 = 2 /\ tm2_time_base flags = Panic.
Proof.
  exists (x00 :: x10 :: repeat x00 26), 16. split; [|repeat split].
  apply received_iff; [unfold recv_table; in_list|discriminate|vm_compute; discriminate|].
  apply validate_accepts; [reflexivity|vm_compute; discriminate|vm_compute; reflexivity].
Qed.

Print Assumptions itfm_config_encodes.
Print Assumptions itfm_config_defaults.
Print Assumptions itfm_config_decodes.
Print Assumptions itfm_config_recode.
Print Assumptions itfm_config_round_trip_refuted.
Print Assumptions itfm_config2_encodes.
Print Assumptions itfm_config2_decodes.
Print Assumptions itfm_antenna_lost_refuted.
Print Assumptions uart_mode_encodes.
Print Assumptions uart_mode_round_trip.
Print Assumptions uart_mode_decodes.
Print Assumptions uart_mode_getter.
Print Assumptions nav_sat_sv_flags_bits.
Print Assumptions nav_sat_sv_flags_codes.
Print Assumptions fix_status_bits.
Print Assumptions tim_tp_flags_bits.
Print Assumptions tim_tp_ref_info_codes.
Print Assumptions tim_tm2_flags_bits.
Print Assumptions tim_tm2_time_base_refuted.
Print Assumptions tim_tm2_time_base_panics_refuted.
