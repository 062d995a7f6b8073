(** * C78: the hand-written functions of packets.rs

    Their text (SourcePackets.v), executed (Exec.v), does what the model says. *)
From Coq Require Import String List NArith ZArith Bool Lia.
From Verif Require Import Base Buffers PackDesc Enums TableTypes Bits Utf8 Iterators GenRecv TablePackets CfgVal Setters
  Tokens Lang Exec SourcePackets SpecExec SpecExecPackets BaseFacts ProofLex ProofExecPackets.
Import ListNotations.
Open Scope N_scope.
Open Scope list_scope.
Arguments packets_text _ _ _ _ (_ _)%string _.

(** All the functions of the file are read *)
Theorem text_packets_read : fns_of packets_tokens = Some packets_fns /\ List.length packets_fns = 128%nat.
Proof. rewrite pk_tokens_eq, pk_fns_eq. split; [exact pk_fns_ok | reflexivity]. Qed.

Section Text.
  (** The functions call each other at most three deep *)
  Context (table : list cfg_item) (class id : byte).
  Notation text n := (packets_text table class id (S (S (S n)))) (only parsing).

  Notation fsi x := (wrap_v "FixStatusInfo" (u8_v x)).
  Theorem text_fix_status : forall n x,
    text n "FixStatusInfo" "from" [u8_v x] = returns (Ret (fsi (fsi_from x))) /\
    text n "FixStatusInfo" "has_pr_prr_correction" [fsi x] = gives (fsi x) (Ret (VBool (has_pr_prr_correction x))) /\
    text n "FixStatusInfo" "map_matching" [fsi x] = gives (fsi x) (ret_map map_matching_v (map_matching x)).
  Proof.
    intros. conjs; [run; reflexivity|run; reflexivity|].
    run. pose proof (cases4 _ (land_lt (N.shiftr x 6) 3 eq_refl)) as H. each_case H.
  Qed.

  Notation nssf x := (wrap_v "NavSatSvFlags" (u32_v x)).
  Theorem text_nav_sat_flags : forall n x,
    text n "NavSatSvFlags" "from" [u32_v x] = returns (Ret (nssf (nssf_from x))) /\
    text n "NavSatSvFlags" "quality_ind" [nssf x] = gives (nssf x) (ret_map quality_v (quality_ind x)) /\
    text n "NavSatSvFlags" "sv_used" [nssf x] = gives (nssf x) (Ret (VBool (sv_used x))) /\
    text n "NavSatSvFlags" "health" [nssf x] = gives (nssf x) (Ret (health_v (health x))) /\
    text n "NavSatSvFlags" "differential_correction_available" [nssf x] =
      gives (nssf x) (Ret (VBool (differential_correction_available x))) /\
    text n "NavSatSvFlags" "smoothed" [nssf x] = gives (nssf x) (Ret (VBool (smoothed x))) /\
    text n "NavSatSvFlags" "orbit_source" [nssf x] = gives (nssf x) (Ret (orbit_v (orbit_source x))) /\
    text n "NavSatSvFlags" "ephemeris_available" [nssf x] = gives (nssf x) (Ret (VBool (ephemeris_available x))) /\
    text n "NavSatSvFlags" "almanac_available" [nssf x] = gives (nssf x) (Ret (VBool (almanac_available x))) /\
    text n "NavSatSvFlags" "an_offline_available" [nssf x] = gives (nssf x) (Ret (VBool (an_offline_available x))) /\
    text n "NavSatSvFlags" "an_auto_available" [nssf x] = gives (nssf x) (Ret (VBool (an_auto_available x))) /\
    text n "NavSatSvFlags" "sbas_corr" [nssf x] = gives (nssf x) (Ret (VBool (sbas_corr x))) /\
    text n "NavSatSvFlags" "rtcm_corr" [nssf x] = gives (nssf x) (Ret (VBool (rtcm_corr x))) /\
    text n "NavSatSvFlags" "slas_corr" [nssf x] = gives (nssf x) (Ret (VBool (slas_corr x))) /\
    text n "NavSatSvFlags" "spartn_corr" [nssf x] = gives (nssf x) (Ret (VBool (spartn_corr x))) /\
    text n "NavSatSvFlags" "pr_corr" [nssf x] = gives (nssf x) (Ret (VBool (pr_corr x))) /\
    text n "NavSatSvFlags" "cr_corr" [nssf x] = gives (nssf x) (Ret (VBool (cr_corr x))) /\
    text n "NavSatSvFlags" "do_corr" [nssf x] = gives (nssf x) (Ret (VBool (do_corr x))).
  Proof.
    intros. conjs; try (run; reflexivity).
    - run. pose proof (cases8 _ (land_lt x 7 eq_refl)) as H. each_case H.
    - run. pose proof (cases4 _ (land_lt (N.shiftr x 4) 3 eq_refl)) as H. each_case H.
    - run. pose proof (cases8 _ (land_lt (N.shiftr x 8) 7 eq_refl)) as H. each_case H.
  Qed.

  (** The two hand-written [Debug] implementations show the name of the type, and what the accessors give *)
  Notation formatter := (VAdt ["Formatter"%string] []).
  Notation shows name fs := (VAdt ["DebugStruct"%string] ((""%string, VText name) :: fs)).
  Theorem text_debug : forall n x,
    text (S n) "FixStatusInfo" "fmt" [fsi x; formatter] =
      gives (fsi x) (let! m := map_matching x in
        Ret (shows "FixStatusInfo"%string
               [("has_pr_prr_correction"%string, VBool (has_pr_prr_correction x)); ("map_matching"%string, map_matching_v m)])) /\
    text (S n) "NavSatSvFlags" "fmt" [nssf x; formatter] =
      gives (nssf x) (let! q := quality_ind x in
        Ret (shows "NavSatSvFlags"
               [("quality_ind", quality_v q); ("sv_used", VBool (sv_used x)); ("health", health_v (health x));
                ("differential_correction_available", VBool (differential_correction_available x));
                ("smoothed", VBool (smoothed x)); ("orbit_source", orbit_v (orbit_source x));
                ("ephemeris_available", VBool (ephemeris_available x)); ("almanac_available", VBool (almanac_available x));
                ("an_offline_available", VBool (an_offline_available x)); ("an_auto_available", VBool (an_auto_available x));
                ("sbas_corr", VBool (sbas_corr x)); ("rtcm_corr", VBool (rtcm_corr x)); ("slas_corr", VBool (slas_corr x));
                ("spartn_corr", VBool (spartn_corr x)); ("pr_corr", VBool (pr_corr x)); ("cr_corr", VBool (cr_corr x));
                ("do_corr", VBool (do_corr x))]))%string.
  Proof.
    intros. split.
    - run. pose proof (cases4 _ (land_lt (N.shiftr x 6) 3 eq_refl)) as H. each_case H.
    - destruct (text_nav_sat_flags n x)
        as (_ & H1 & H2 & H3 & H4 & H5 & H6 & H7 & H8 & H9 & H10 & H11 & H12 & H13 & H14 & H15 & H16 & H17).
      assert (Hq : exists q, quality_ind x = Ret q).
      { unfold quality_ind. pose proof (cases8 _ (land_lt x 7 eq_refl)) as H.
        repeat (destruct H as [H | H]; [rewrite H; eexists; reflexivity|]); rewrite H; eexists; reflexivity. }
      destruct Hq as [q Hq]. rewrite Hq in *.
      rewrite pk_text in *. rewrite pk_step.
      change (find_fn pk_fns "NavSatSvFlags" "fmt") with (Some sat_fmt). cbv beta iota.
      Opaque pk_call.
      Ltac field H :=
        eapply ev_field; [reflexivity | reflexivity | reflexivity | reflexivity | reflexivity | reflexivity | exact H | apply pk_field |].
      eapply run_fmt; [reflexivity | reflexivity | intros h |].
      + field H17. field H16. field H15. field H14. field H13. field H12. field H11. field H10. field H9. field H8. field H7.
        field H6. field H5. field H4. field H3. field H2. field H1.
        intros k. cbn -[pk_call]. rewrite pk_debug. reflexivity.
      + reflexivity.
      Transparent pk_call.
  Qed.

  (** *** CFG-ITFM *)
  Notation bb x := (wrap_v "CfgItfmBbThreshold" (u32_v x)).
  Notation cw x := (wrap_v "CfgItfmCwThreshold" (u32_v x)).
  Notation algo x := (wrap_v "CfgItfmAlgoBits" (u32_v x)).
  Notation general x := (wrap_v "CfgItfmGeneralBits" (u32_v x)).
  Theorem text_itfm_words : forall n x,
    text n "CfgItfmBbThreshold" "from" [u32_v x] = returns (Ret (bb (bb_threshold_from x))) /\
    text n "CfgItfmBbThreshold" "default" [] = returns (Ret (bb bb_threshold_default)) /\
    text n "CfgItfmBbThreshold" "into_raw" [bb x] = gives (bb x) (Ret (u32_v (bb_threshold_into_raw x))) /\
    text n "CfgItfmCwThreshold" "from" [u32_v x] = returns (Ret (cw (cw_threshold_from x))) /\
    text n "CfgItfmCwThreshold" "default" [] = returns (Ret (cw cw_threshold_default)) /\
    text n "CfgItfmCwThreshold" "into_raw" [cw x] = gives (cw x) (Ret (u32_v (cw_threshold_into_raw x))) /\
    text n "CfgItfmAlgoBits" "from" [u32_v x] = returns (Ret (algo (algo_bits_from x))) /\
    text n "CfgItfmAlgoBits" "default" [] = returns (Ret (algo algo_bits_default)) /\
    text n "CfgItfmAlgoBits" "into_raw" [algo x] = gives (algo x) (Ret (u32_v (algo_bits_into_raw x))) /\
    text n "CfgItfmGeneralBits" "from" [u32_v x] = returns (Ret (general (general_bits_from x))) /\
    text n "CfgItfmGeneralBits" "default" [] = returns (Ret (general general_bits_default)) /\
    text n "CfgItfmGeneralBits" "into_raw" [general x] = gives (general x) (Ret (u32_v (general_bits_into_raw x))).
  Proof. intros. conjs; run; reflexivity. Qed.

  Theorem text_itfm_config : forall n,
    (forall enable b c, text n "CfgItfmConfig" "new" [VBool enable; u32_v b; u32_v c] =
       returns (Ret (itfm_config_v (itfm_config_new enable b c)))) /\
    (forall c, text n "CfgItfmConfig" "into_raw" [itfm_config_v c] =
       gives (itfm_config_v c) (Ret (u32_v (itfm_config_into_raw c)))) /\
    (forall x, text n "CfgItfmConfig" "from" [u32_v x] = returns (Ret (itfm_config_v (itfm_config_from x)))) /\
    (forall a scan, text n "CfgItfmConfig2" "new" [antenna_v a; VBool scan] =
       returns (Ret (itfm_config2_v (itfm_config2_new a scan)))) /\
    (forall c, text n "CfgItfmConfig2" "into_raw" [itfm_config2_v c] =
       gives (itfm_config2_v c) (Ret (u32_v (itfm_config2_into_raw c)))) /\
    (forall x, text n "CfgItfmConfig2" "from" [u32_v x] = returns (Ret (itfm_config2_v (itfm_config2_from x)))) /\
    (forall x, text n "CfgItfmAntennaSettings" "from" [u32_v x] = returns (Ret (antenna_v (itfm_antenna_from x)))).
  Proof.
    intros. conjs; intros.
    - run. reflexivity.
    - destruct c as [[] ? ? ?]; run; reflexivity.
    - run. reflexivity.
    - destruct a; run; reflexivity.
    - destruct c as [? [] []]; run; reflexivity.
    - run. pose proof (cases4 _ (land_shift_lt x 12288 12 4 eq_refl)) as H. each_case H.
    - run. pose proof (cases4 _ (land_shift_lt x 12288 12 4 eq_refl)) as H. each_case H.
  Qed.

  (** *** Port modes *)
  Theorem text_uart_mode : forall n,
    (forall d, text n "DataBits" "into_raw" [data_bits_v d] = gives (data_bits_v d) (Ret (u32_v (data_bits_into_raw d)))) /\
    (forall p, text n "Parity" "into_raw" [parity_v p] = gives (parity_v p) (Ret (u32_v (parity_into_raw p)))) /\
    (forall s, text n "StopBits" "into_raw" [stop_bits_v s] = gives (stop_bits_v s) (Ret (u32_v (stop_bits_into_raw s)))) /\
    (forall x, text n "DataBits" "from" [u32_v x] = returns (ret_map data_bits_v (data_bits_from x))) /\
    (forall x, text n "Parity" "from" [u32_v x] = returns (ret_map parity_v (parity_from x))) /\
    (forall x, text n "StopBits" "from" [u32_v x] = returns (ret_map stop_bits_v (stop_bits_from x))) /\
    (forall m, text n "UartMode" "new" [data_bits_v (um_data_bits m); parity_v (um_parity m); stop_bits_v (um_stop_bits m)] =
       returns (Ret (uart_mode_v m))) /\
    (forall m, text n "UartMode" "into_raw" [uart_mode_v m] = gives (uart_mode_v m) (Ret (u32_v (uart_mode_into_raw m)))) /\
    (forall x, text n "UartMode" "from" [u32_v x] = returns (ret_map uart_mode_v (uart_mode_from x))).
  Proof.
    intros. conjs; intros.
    - destruct d; run; reflexivity.
    - destruct p; run; reflexivity.
    - destruct s; run; reflexivity.
    - run. pose proof (cases4 _ (land_lt (N.shiftr x 6) 3 eq_refl)) as H. each_case H.
    - run. pose proof (cases8 _ (land_lt (N.shiftr x 9) 7 eq_refl)) as H. each_case H.
    - run. pose proof (cases4 _ (land_lt (N.shiftr x 12) 3 eq_refl)) as H. each_case H.
    - destruct m as [d p s]; run; reflexivity.
    - destruct m as [[] [] []]; run; reflexivity.
    - run. pose proof (cases4 _ (land_lt (N.shiftr x 6) 3 eq_refl)) as H0.
      pose proof (cases8 _ (land_lt (N.shiftr x 9) 7 eq_refl)) as H1.
      pose proof (cases4 _ (land_lt (N.shiftr x 12) 3 eq_refl)) as H2.
      repeat (destruct H0 as [H0 | H0]; [rewrite H0; clear H0; try reflexivity|]); [..|rewrite H0; clear H0; try reflexivity];
      (repeat (destruct H1 as [H1 | H1]; [rewrite H1; clear H1; try reflexivity|]); [..|rewrite H1; clear H1; try reflexivity]);
      each_case H2.
  Qed.

  (** *** TIM-TP, TIM-TM2 *)
  Notation tp x := (wrap_v "TimTpFlags" (u8_v x)).
  Notation ri x := (wrap_v "TimTpRefInfo" (u8_v x)).
  Notation tm x := (wrap_v "TimTm2Flags" (u8_v x)).
  Theorem text_tim_flags : forall n x,
    text n "TimTpFlags" "time_base" [tp x] = gives (tp x) (Ret (tp_time_base_v (tp_time_base x))) /\
    text n "TimTpFlags" "utc_available" [tp x] = gives (tp x) (Ret (VBool (tp_utc_available x))) /\
    text n "TimTpFlags" "raim_active" [tp x] = gives (tp x) (Ret (option_v VBool (raim_active x))) /\
    text n "TimTpFlags" "q_err_valid" [tp x] = gives (tp x) (Ret (VBool (q_err_valid x))) /\
    text n "TimTpRefInfo" "time_ref_gnss" [ri x] = gives (ri x) (Ret (option_v ref_gnss_v (time_ref_gnss x))) /\
    (x < 256 -> text n "TimTpRefInfo" "utc_standard" [ri x] = gives (ri x) (Ret (option_v utc_standard_v (utc_standard x)))) /\
    text n "TimTm2Flags" "mode" [tm x] = gives (tm x) (Ret (tm2_mode_v (tm2_mode x))) /\
    text n "TimTm2Flags" "run" [tm x] = gives (tm x) (Ret (tm2_run_v (tm2_run x))) /\
    text n "TimTm2Flags" "new_falling_edge" [tm x] = gives (tm x) (Ret (VBool (new_falling_edge x))) /\
    text n "TimTm2Flags" "new_rising_edge" [tm x] = gives (tm x) (Ret (VBool (new_rising_edge x))) /\
    text n "TimTm2Flags" "time_base" [tm x] = gives (tm x) (ret_map tm2_time_base_v (tm2_time_base x)) /\
    text n "TimTm2Flags" "utc_available" [tm x] = gives (tm x) (Ret (VBool (tm2_utc_available x))) /\
    text n "TimTm2Flags" "time_valid" [tm x] = gives (tm x) (Ret (VBool (tm2_time_valid x))).
  Proof.
    intros. conjs; try (run; reflexivity).
    - run. destruct (N.land x 1) as [|p]; reflexivity.
    - run. pose proof (cases4 _ (land_lt (N.shiftr x 2) 3 eq_refl)) as H. each_case H.
    - run. pose proof (cases16 _ (land_lt x 15 eq_refl)) as H. each_case H.
    - intros Hx. assert (H : N.shiftr x 4 < 16).
      { rewrite N.shiftr_div_pow2. apply N.div_lt_upper_bound; [discriminate | exact Hx]. }
      apply cases16 in H. run. each_case H.
    - run. destruct (N.land x 1) as [|p]; reflexivity.
    - run. destruct (N.land x 2) as [|p]; reflexivity.
    - run. destruct (N.land x 24) as [|[[]|[]|]]; reflexivity.
  Qed.

  (** *** Strings *)
  Theorem text_strings : forall n l,
    packets_text table class id (S (S n)) "mon_ver" "is_cstr_valid" [VBytes l] = returns (ret_map VBool (is_cstr_valid l)) /\
    packets_text table class id (S (S n)) "mon_ver" "convert_to_str_unchecked" [VBytes l] =
      returns (ret_map VBytes (convert_to_str_unchecked l)) /\
    text n "inf" "convert_to_str" [VBytes l] = returns (Ret (option_v VBytes (inf_convert_to_str l))) /\
    text n "inf" "is_valid" [VBytes l] = returns (Ret (VBool (inf_is_valid l))).
  Proof.
    intros. conjs.
    - unfold is_cstr_valid. run1. rewrite find_null.
      2:{ intros b kb. change (byte_eqb b x00) with (b2n b =? 0). reflexivity. }
      destruct (null_position l) as [p|]; [|reflexivity]. rewrite N.add_0_l. more.
      destruct (slice l 0 p) as [u | |]; [|reflexivity ..]. more. destruct (utf8_valid u); reflexivity.
    - unfold convert_to_str_unchecked. run1. rewrite find_null.
      2:{ intros b kb. change (byte_eqb b x00) with (b2n b =? 0). reflexivity. }
      destruct (null_position l) as [p|]; more. 2:{ rewrite pk_step. reflexivity. }
      rewrite pk_step. more. rewrite N.add_0_l. 
      destruct (slice l 0 p) as [u | |]; [|reflexivity ..]. more. destruct (utf8_valid u); rewrite pk_step; reflexivity.
    - run. destruct (utf8_valid l); reflexivity.
    - run. reflexivity.
  Qed.

  (** *** Iterators *)
  Notation sat_iter := (offset_iter_v "NavSatIter").
  Notation ext_iter := (offset_iter_v "MonVerExtensionIter").
  Notation ref_v name := (fun data : list byte => wrap_v name (VBytes data)).
  Theorem text_offset_iterators : forall n,
    (forall data, text n "NavSatIter" "new" [VBytes data] = returns (Ret (sat_iter (offset_iter_new data)))) /\
    (forall data, text n "NavSatIter" "is_valid" [VBytes data] = returns (Ret (VBool (nav_sat_is_valid data)))) /\
    (forall it, text n "NavSatIter" "next" [sat_iter it] = steps sat_iter (ref_v "NavSatSvInfoRef") it (nav_sat_next it)) /\
    (forall data, text n "MonVerExtensionIter" "new" [VBytes data] = returns (Ret (ext_iter (offset_iter_new data)))) /\
    (forall data, text n "MonVerExtensionIter" "is_valid" [VBytes data] =
       returns (ret_map VBool (mon_ver_ext_is_valid data))) /\
    (forall it, text n "MonVerExtensionIter" "next" [ext_iter it] = steps ext_iter VBytes it (mon_ver_ext_next it)).
  Proof.
    intros. conjs; intros.
    - run. reflexivity.
    - run. reflexivity.
    - destruct it as [d o]. run1. destruct (o <? lenN d); more; [|reflexivity].
      destruct (uadd o 12) as [s | |]; more; [|reflexivity ..].
      destruct (slice d o s); more; [|reflexivity ..]. calls. reflexivity.
    - run. reflexivity.
    - run1. destruct (lenN data mod 30 =? 0); more; [|reflexivity].
      rewrite (all_of_res (pk_call table class id (S (S n))) "mon_ver" "is_cstr_valid" is_cstr_valid).
      2:{ intros l. rewrite <- pk_text. exact (proj1 (text_strings n l)). }
      destruct (all_res is_cstr_valid (chunks 30 data)); reflexivity.
    - destruct it as [d o]. run1. destruct (o <? lenN d); more; [|reflexivity].
      destruct (uadd o 30) as [s | |]; more; [|reflexivity ..].
      destruct (slice d o s) as [l | |]; more; [|reflexivity ..].
      rewrite <- pk_text. rewrite (proj1 (proj2 (text_strings n l))). 
      destruct (convert_to_str_unchecked l); reflexivity.
  Qed.

  Theorem text_chunk_iterators : forall n,
    (forall data, text n "EsfMeasDataIter" "new" [VBytes data] =
       returns (Ret (chunks_iter_v "EsfMeasDataIter" 4 (esf_meas_new data)))) /\
    (forall data, text n "EsfMeasDataIter" "is_valid" [VBytes data] = returns (Ret (VBool (esf_meas_is_valid data)))) /\
    (forall it, text n "EsfMeasDataIter" "next" [chunks_iter_v "EsfMeasDataIter" 4 it] =
       steps (chunks_iter_v "EsfMeasDataIter" 4) esf_meas_data_v it (esf_meas_next it)) /\
    (forall data, text n "EsfRawDataIter" "new" [VBytes data] =
       returns (Ret (chunks_iter_v "EsfRawDataIter" 8 (esf_raw_new data)))) /\
    (forall data, text n "EsfRawDataIter" "is_valid" [VBytes data] = returns (Ret (VBool (esf_raw_is_valid data)))) /\
    (forall it, text n "EsfRawDataIter" "next" [chunks_iter_v "EsfRawDataIter" 8 it] =
       steps (chunks_iter_v "EsfRawDataIter" 8) esf_raw_data_v it (esf_raw_next it)) /\
    (forall data, text n "DwrdIter" "new" [VBytes data] = returns (Ret (chunks_iter_v "DwrdIter" 4 (dwrd_new data)))) /\
    (forall data, text n "DwrdIter" "is_valid" [VBytes data] = returns (Ret (VBool (dwrd_is_valid data)))) /\
    (forall it, text n "DwrdIter" "next" [chunks_iter_v "DwrdIter" 4 it] =
       steps (chunks_iter_v "DwrdIter" 4) u32_v it (dwrd_next it)) /\
    (forall data, text n "RxmRawxInfoIter" "new" [VBytes data] =
       returns (Ret (chunks_iter_v "RxmRawxInfoIter" 32 (rawx_new data)))) /\
    (forall data, text n "RxmRawxInfoIter" "is_valid" [VBytes data] = returns (Ret (VBool (rawx_is_valid data)))) /\
    (forall it, text n "RxmRawxInfoIter" "next" [chunks_iter_v "RxmRawxInfoIter" 32 it] =
       steps (chunks_iter_v "RxmRawxInfoIter" 32) (ref_v "RxmRawxInfoRef") it (rawx_next it)).
  Proof.
    intros. conjs; intros.
    - run. reflexivity.
    - run. reflexivity.
    - run1. calls. destruct (chunks_exact_next 4 it) as [[chunk rest]|]; more; [|reflexivity].
      calls. destruct (lenN chunk =? 4); more; calls; [|reflexivity].
      split_ifs.
    - run. reflexivity.
    - run. reflexivity.
    - run1. calls. destruct (chunks_exact_next 8 it) as [[chunk rest]|]; more; [|reflexivity].
      destruct (slice chunk 0 4) as [c0 | |]; more; [|reflexivity ..].
      calls. destruct (lenN c0 =? 4); more; [|reflexivity]. calls.
      destruct (slice chunk 4 8) as [c1 | |]; more; [|reflexivity ..].
      calls. destruct (lenN c1 =? 4); more; [|reflexivity]. calls.
      split_ifs.
    - run. reflexivity.
    - run. reflexivity.
    - run1. calls. destruct (chunks_exact_next 4 it) as [[chunk rest]|]; more; [|reflexivity].
      calls. destruct (lenN chunk =? 4); more; calls; reflexivity.
    - run. reflexivity.
    - run. reflexivity.
    - run1. calls. destruct (chunks_exact_next 32 it) as [[chunk rest]|]; more; calls; reflexivity.
  Qed.

  Theorem text_cfg_val_iter : forall n it,
    text n "CfgValIter" "next" [cfg_iter_v it] = steps cfg_iter_v cfg_val_v it (cfg_iter_next table it).
  Proof.
    intros n [d o]. run1. destruct (o <? lenN d); more; [|reflexivity].
    destruct (slice_from d o) as [r | |]; more; [|reflexivity ..]. calls.
    destruct (cfg_parse table r) as [v | |]; more; [|reflexivity ..]. calls.
    destruct (uadd o (cfg_len v)); more; reflexivity.
  Qed.

  (** *** ESF-MEAS *)
  Theorem text_esf_meas : forall n l,
    text n "EsfMeas" "calib_tag" [VBytes l] = returns (Ret (option_v u32_v (calib_tag l))) /\
    text n "EsfMeasRef" "data_len" [ref_v "EsfMeasRef" l] = gives (ref_v "EsfMeasRef" l) (ret_map vusize (esf_meas_data_len l)) /\
    text n "EsfMeasRef" "calib_tag_len" [ref_v "EsfMeasRef" l] =
      gives (ref_v "EsfMeasRef" l) (ret_map vusize (esf_meas_calib_tag_len l)).
  Proof.
    intros. conjs; run1; calls.
    - destruct (lenN l =? 4); reflexivity.
    - destruct (esf_meas_flags l) as [f | |]; more; [|reflexivity ..].
      pose proof (cases32 _ (land_lt (N.shiftr f 11) 31 eq_refl)) as H. each_case H.
    - destruct (esf_meas_flags l) as [f | |]; more; [|reflexivity ..]. destruct (N.land f 8 =? 0); reflexivity.
  Qed.

  (** *** Resets, messages, layers *)
  Theorem text_modes : forall n,
    (forall v, In v reset_mode_variants ->
       text n "ResetMode" "into_raw" [unit_v "ResetMode" (fst v)] =
       gives (unit_v "ResetMode" (fst v)) (Ret (u8_v (c_like_into_raw v)))) /\
    (forall v, In v alignment_variants ->
       text n "AlignmentToReferenceTime" "into_raw" [unit_v "AlignmentToReferenceTime" (fst v)] =
       gives (unit_v "AlignmentToReferenceTime" (fst v)) (Ret (u16_v (c_like_into_raw v)))) /\
    (forall x, text n "NavBbrMask" "from" [wrap_v "NavBbrPredefinedMask" (u16_v x)] =
       returns (Ret (u16_v (nav_bbr_from_predefined x)))) /\
    text n "CfgLayer" "default" [] = returns (Ret (u8_v 7)).
  Proof.
    intros. conjs.
    - intros v H. repeat destruct H as [<- | H]; try (run; reflexivity). destruct H.
    - intros v H. repeat destruct H as [<- | H]; try (run; reflexivity). destruct H.
    - intros x. run. reflexivity.
    - run. reflexivity.
  Qed.

  Theorem text_rates : forall n (T : pack_desc) (rate : N) (rates : list byte),
    p_class T = class -> p_id T = id ->
    text n "CfgMsgSinglePortBuilder" "set_rate_for" [u8_v rate] =
      (let '(c, (i, (r, _))) := single_port_set_rate_for T (Z.of_N rate) in
       returns (Ret (VAdt ["CfgMsgSinglePortBuilder"%string]
                       [("msg_class"%string, u8_v (Z.to_N c)); ("msg_id"%string, u8_v (Z.to_N i)); ("rate"%string, u8_v (Z.to_N r))]))) /\
    text n "CfgMsgAllPortsBuilder" "set_rate_for" [VBytes rates] =
      (let '(c, (i, (r, _))) := all_ports_set_rate_for T rates in
       returns (Ret (VAdt ["CfgMsgAllPortsBuilder"%string]
                       [("msg_class"%string, u8_v (Z.to_N c)); ("msg_id"%string, u8_v (Z.to_N i)); ("rates"%string, VBytes r)]))).
  Proof.
    intros n T rate rates <- <-. unfold single_port_set_rate_for, all_ports_set_rate_for, CLASS, ID. rewrite !N2Z.id.
    split; run; reflexivity.
  Qed.

  Notation ack l := (wrap_v "AckAckRef" (VBytes l)).
  Notation nak l := (wrap_v "AckNakRef" (VBytes l)).
  Theorem text_acks : forall n (T : pack_desc) (l : list byte),
    p_class T = class -> p_id T = id ->
    text n "AckAckRef" "is_ack_for" [ack l] = gives (ack l) (ret_map VBool (is_ack_for T l)) /\
    text n "AckNakRef" "is_nak_for" [nak l] = gives (nak l) (ret_map VBool (is_nak_for T l)).
  Proof.
    intros n T l <- <-. rewrite (ack_eq T l), (nak_eq T l).
    split; run1; calls; rewrite ?ack_class_eq, ?ack_id_eq, ?nak_class_eq, ?nak_id_eq.
    - destruct (get l 0) as [b | |]; [|more; reflexivity ..]. cbn [bind]. rewrite N2Z.id. more.
      destruct (N.eqb (b2n b) _); more; [|reflexivity]. calls. rewrite ack_id_eq.
      destruct (get l 1) as [c | |]; [|more; reflexivity ..]. cbn [bind]. rewrite N2Z.id. more. reflexivity.
    - destruct (get l 0) as [b | |]; [|more; reflexivity ..]. cbn [bind]. rewrite N2Z.id. more.
      destruct (N.eqb (b2n b) _); more; [|reflexivity]. calls. rewrite nak_id_eq.
      destruct (get l 1) as [c | |]; [|more; reflexivity ..]. cbn [bind]. rewrite N2Z.id. more. reflexivity.
  Qed.
End Text.

(** The predefined masks *)
Theorem text_predefined_masks : forall class id,
  let const x := packets_consts (read_enums packets_tokens) packets_const_table class id x in
  const "NavBbrPredefinedMask::HOT_START"%string = Some (wrap_v "NavBbrPredefinedMask" (u16_v HOT_START)) /\
  const "NavBbrPredefinedMask::WARM_START"%string = Some (wrap_v "NavBbrPredefinedMask" (u16_v WARM_START)) /\
  const "NavBbrPredefinedMask::COLD_START"%string = Some (wrap_v "NavBbrPredefinedMask" (u16_v COLD_START)).
Proof. intros. subst const. cbv beta. rewrite pk_enums_eq, pk_consts_eq. conjs; lazy; reflexivity. Qed.

(** ** The hypotheses can be met, and the functions do run *)
Example text_examples :
  packets_text [] x05 x01 4%nat "UartMode" "from" [u32_v 2240] =
    Some (Ret (vunit, uart_mode_v (mk_uart_mode Eight ParityNone StopOne))) /\
  packets_text [] x05 x01 4%nat "UartMode" "from" [u32_v 0] = Some Panic /\
  packets_text [] x05 x01 4%nat "DwrdIter" "next" [chunks_iter_v "DwrdIter" 4 [x41; x42; x00; x00; x08]] =
    Some (Ret (chunks_iter_v "DwrdIter" 4 [x08], vctor "Some" (u32_v 16961))) /\
  packets_text [] x05 x01 4%nat "mon_ver" "convert_to_str_unchecked" [VBytes [x41; x42; x00; x43]] =
    Some (Ret (vunit, VBytes [x41; x42])) /\
  packets_text [] x06 x08 4%nat "AckAckRef" "is_ack_for" [wrap_v "AckAckRef" (VBytes [x06; x08])] =
    Some (Ret (wrap_v "AckAckRef" (VBytes [x06; x08]), VBool true)) /\
  p_class p_cfg_rate = x06 /\ p_id p_cfg_rate = x08.
Proof. rewrite !packets_text_eq. conjs; vm_compute; reflexivity. Qed.

Print Assumptions text_packets_read.
Print Assumptions text_fix_status.
Print Assumptions text_nav_sat_flags.
Print Assumptions text_debug.
Print Assumptions text_itfm_words.
Print Assumptions text_itfm_config.
Print Assumptions text_uart_mode.
Print Assumptions text_tim_flags.
Print Assumptions text_strings.
Print Assumptions text_offset_iterators.
Print Assumptions text_chunk_iterators.
Print Assumptions text_cfg_val_iter.
Print Assumptions text_esf_meas.
Print Assumptions text_modes.
Print Assumptions text_rates.
Print Assumptions text_acks.
Print Assumptions text_predefined_masks.
