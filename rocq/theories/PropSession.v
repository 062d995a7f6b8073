(** * C68: a session of the command line tool *)
From Coq Require Import String List NArith ZArith Bool Reals Lia ZifyBool ZifyNat ZifyN.
From Verif Require Import Base BaseFacts Buffers DualBuffer Parser PackDesc GenRecv GenSend Enums Bits Dispatch TableTypes TablePackets Iterators
  DateTime Convert Serialize Setters Cli Session
  SpecFrame SpecParser SpecPacket SpecDispatch SpecTypes SpecReal SpecConvert SpecDate SpecSerialize SpecCli SpecSession
  ProofScan ProofStream ProofTrace ProofTop ProofMore ProofSend ProofRecv ProofTable ProofDispatch
  PropPackets PropDispatch PropIter PropDate PropConvert PropSerialize PropSetters PropCli.
Import ListNotations.
Open Scope N_scope.
Open Scope list_scope.

(** ** The callback *)

Lemma collect_yields it xs : yields mon_ver_ext_next it xs -> forall fuel, (length xs < fuel)%nat -> collect_extensions fuel it = Ret xs.
Proof.
  induction 1 as [it E|it x it' xs E Y IH]; intros fuel L; (destruct fuel as [|fuel]; [cbn in L; lia|]); cbn [collect_extensions]; rewrite E; cbn [bind].
  - reflexivity.
  - cbn [length] in L. rewrite IH by lia. reflexivity.
Qed.

Lemma debug_listing p payload : In p recv_packets -> lenN payload <= 65535 -> accepts p payload -> readable p payload ->
  exists d, debug_packet p payload = Ret d /\ listing p payload d.
Proof.
  intros Hp Hl A R. destruct (debug_total p payload Hp Hl A R) as (l & E & M & F). exists (p_name p, l). split; [exact E|]. split; [reflexivity|]. cbn [snd].
  clear - F M.
  assert (N : map fst l = map (fun g => f_name (g_field g)) (getters p)).
  { rewrite M, <- (gen_getters_fields (p_fields p) 0 []), map_map. reflexivity. }
  clear M. induction F as [|g x gs l (v & E & X) F IH]; [constructor|]. cbn [map] in N. injection N as N1 N2. constructor; eauto.
Qed.

Lemma show_mon_ver_spec payload : lenN payload <= 65535 -> received p_mon_ver payload ->
  exists ls, shows (Known p_mon_ver payload) ls /\ show (Known p_mon_ver payload) = (ls, true).
Proof.
  intros Hl R. destruct (mon_ver_strings payload Hl R) as (sw & hw & it & ext & gs & E1 & T1 & E2 & T2 & E3 & Y & B & F).
  apply received_iff in R; [|unfold recv_table; in_list|discriminate|exact Hl].
  destruct (debug_listing p_mon_ver payload) as (d & Ed & D); [unfold recv_packets; in_list|exact Hl|exact R|intros H; discriminate H|].
  exists [LVersions sw hw ext; LDebug d]. split; [now apply (shows_versions payload sw hw gs ext d)|].
  unfold show. change (String.eqb (p_name p_mon_ver) "MonVer") with true. cbn iota. unfold show_mon_ver.
  fold (MonVer_software_version payload). fold (MonVer_hardware_version payload). fold (MonVer_extension payload).
  rewrite E1, E2, E3. cbn [with_value].
  assert (Lx : (length ext <= length payload)%nat).
  { assert (LF : length gs = length ext) by (clear - F; induction F; cbn; congruence). rewrite <- LF. destruct B as [C Bl]. assert (G : (length gs <= length (concat gs))%nat).
    { clear - Bl. induction Bl as [|b bs Hb Bl IH]; [cbn; lia|]. cbn [concat length]. rewrite app_length. unfold lenN in Hb. lia. }
    rewrite C in G. unfold dropN in G. rewrite skipn_length in G. lia. }
  rewrite (collect_yields it ext Y) by lia. cbn [with_value]. rewrite Ed. reflexivity.
Qed.

Lemma fix_type_spec payload : lenN payload = 92 ->
  exists v, NavPvt_fix_type payload = Ret v /\
    (fix_is v "Fix3D" || fix_is v "GPSPlusDeadReckoning" || fix_is v "TimeOnlyFix") = has_time payload /\
    (fix_is v "Fix3D" || fix_is v "GPSPlusDeadReckoning") = has_position payload.
Proof.
  intros L. assert (S : exists b, takeN 1 (dropN 20 payload) = [b]).
  { assert (H : lenN (takeN 1 (dropN 20 payload)) = 1) by (rewrite lenN_takeN, lenN_dropN; lia).
    destruct (takeN 1 (dropN 20 payload)) as [|b [|c l]]; [discriminate H|eauto|unfold lenN in H; cbn [length] in H; lia]. }
  destruct S as (b & S).
  assert (G : NavPvt_fix_type payload = enum_from e_gps_fix (b2n b)).
  { unfold NavPvt_fix_type. change (g_val (the_getter p_nav_pvt "fix_type") payload) with
     (let! v := get_raw_field (Scalar U8) false 20 payload in let! x := enum_from e_gps_fix (Z.to_N v) in Ret x).
    rewrite (get_raw_field_ok (Scalar U8) false 20 payload 1 eq_refl) by lia. cbn [bind]. rewrite S.
    change (decode (Scalar U8) [b]) with (unsigned_of [b]). rewrite class_byte, N2Z.id.
    destruct (enum_from e_gps_fix (b2n b)); reflexivity. }
  rewrite G. unfold has_time, has_position, fix_code. rewrite S. clear - b. destruct b; eexists; (split; [vm_compute; reflexivity|vm_compute; auto]).
Qed.

Lemma show_nav_pvt_spec payload : lenN payload <= 65535 -> received p_nav_pvt payload ->
  (exists ls, shows (Known p_nav_pvt payload) ls /\ show (Known p_nav_pvt payload) = (ls, true)) \/
  (exists ls, fatal (Known p_nav_pvt payload) ls /\ show (Known p_nav_pvt payload) = (ls, false)).
Proof.
  intros Hl R. destruct (datetime_exact payload R Hl) as (r & Er & Hr). cbv zeta in Hr.
  fold (year_of payload) (month_of payload) (day_of payload) (hour_of payload) (minute_of payload) (second_of payload) (nano_of payload) in Hr.
  destruct (position_pvt payload R Hl) as (pos & Ep & P1 & P2 & P3). destruct (velocity_pvt payload R Hl) as (vel & Ev & V1 & V2).
  apply received_iff in R; [|unfold recv_table; in_list|discriminate|exact Hl].
  destruct (debug_listing p_nav_pvt payload) as (d & Ed & D); [unfold recv_packets; in_list|exact Hl|exact R|intros H; discriminate H|].
  destruct (fix_type_spec payload (proj1 R)) as (v & Ef & Ht & Hp).
  unfold show. change (String.eqb (p_name p_nav_pvt) "MonVer") with false. change (String.eqb (p_name p_nav_pvt) "NavPvt") with true. cbn iota.
  unfold show_nav_pvt. rewrite Ef. cbn [with_value]. rewrite Ht, Hp.
  assert (X : exists ls, position_lines payload ls /\
    forall k, (if has_position payload then
                 with_value (position_from_pvt payload) (fun pos => with_value (velocity_from_pvt payload) (fun vel =>
                   says (LPosition pos) (says (LVelocity vel) (with_value (debug_packet p_nav_pvt payload) (fun d => says (LSolution d) k)))))
               else k) = (ls ++ fst k, snd k)).
  { unfold position_lines. destruct (has_position payload).
    - exists [LPosition pos; LVelocity vel; LSolution d]. split.
      + exists pos, vel, d. auto 10.
      + intros [k1 k2]. rewrite Ep, Ev, Ed. reflexivity.
    - exists []. split; [reflexivity|]. intros [k1 k2]. reflexivity. }
  destruct X as (ls & PL & X). rewrite X. clear X. rewrite Er. destruct (has_time payload) eqn:T; cbn [with_value].
  - destruct r as [t|e]; cbn [fst snd].
    + left. exists (ls ++ [LTime t]). split; [|reflexivity]. destruct Hr as (H1 & H2 & H3 & H4 & H5). apply shows_solution_time; auto. split; auto.
    + right. exists ls. rewrite app_nil_r. split; [|reflexivity]. apply fatal_time; auto. unfold time_exists. destruct e; tauto.
  - left. exists ls. cbn [fst snd]. rewrite app_nil_r. split; [|reflexivity]. now apply shows_solution.
Qed.

Lemma show_spec c i p pk : lenN p <= 65535 -> delivers recv_table c i p pk ->
  (exists ls, shows pk ls /\ show pk = (ls, true)) \/ (exists ls, fatal pk ls /\ show pk = (ls, false)).
Proof.
  intros Hl D. inversion D as [before q after E Fi NF Epk|NF Epk]; subst pk.
  2:{ left. eexists. split; [constructor|reflexivity]. }
  assert (Hq : In q recv_table) by (rewrite E; apply in_elt).
  pose proof (recv_table_incl q Hq) as Hq'.
  assert (NM : forall r, In r recv_packets -> p_name q = p_name r -> q = r).
  { intros r Hr N. eapply (nodup_map_inj p_name recv_packets); [exact recv_packets_nodup|exact Hq'|exact Hr|exact N]. }
  destruct Fi as (_ & _ & A).
  destruct (String.eqb (p_name q) "MonVer") eqn:E1.
  { apply String.eqb_eq in E1. apply (NM p_mon_ver) in E1; [|unfold recv_packets; in_list]. subst q. left. apply show_mon_ver_spec; [exact Hl|].
    apply received_iff; [exact Hq|discriminate|exact Hl|exact A]. }
  destruct (String.eqb (p_name q) "NavPvt") eqn:E2.
  { apply String.eqb_eq in E2. apply (NM p_nav_pvt) in E2; [|unfold recv_packets; in_list]. subst q. apply show_nav_pvt_spec; [exact Hl|].
    apply received_iff; [exact Hq|discriminate|exact Hl|exact A]. }
  assert (S : show (Known q p) = with_value (debug_packet q p) (fun x => ([LDebug x], true))).
  { unfold show. now rewrite E1, E2. }
  rewrite S. apply String.eqb_neq in E1, E2.
  assert (RD : readable q p \/ q = p_cfg_prt_uart /\ ~ readable p_cfg_prt_uart p).
  { destruct (String.eqb (p_name q) "CfgPrtUart") eqn:E3.
    - apply String.eqb_eq in E3. apply (NM p_cfg_prt_uart) in E3; [|unfold recv_packets; in_list]. subst q. rewrite readable_mode.
      destruct (uart_mode_from (le_value (takeN 4 (dropN 4 p)))) as [m| |]; [left; eauto| |]; right; (split; [reflexivity|]); intros (m & H); discriminate H.
    - apply String.eqb_neq in E3. left. intros H. congruence. }
  destruct RD as [RD|[-> RD]].
  - left. destruct (debug_listing q p Hq' Hl A RD) as (d & Ed & L). rewrite Ed. exists [LDebug d]. split; [|reflexivity].
    apply shows_other; [intros ->; now apply E1|intros ->; now apply E2|exact RD|exact L].
  - right. exists []. split; [now constructor|].
    destruct (serialize_uart_refuted p Hl) as [_ ->]; [apply received_iff; [exact Hq|discriminate|exact Hl|exact A]|exact RD|]. reflexivity.
Qed.

(** ** The loop *)

Definition deliverable (pk : packet_ref) : Prop := exists c i p, lenN p <= 65535 /\ delivers recv_table c i p pk.

Lemma show_all_spec ps : Forall deliverable ps ->
  (exists lss, Forall2 shows ps lss /\ show_all ps = (concat lss, true)) \/
  (exists ps1 pk ps2 lss l, ps = ps1 ++ pk :: ps2 /\ Forall2 shows ps1 lss /\ fatal pk l /\ show_all ps = (concat lss ++ l, false)).
Proof.
  induction 1 as [|pk ps (c & i & p & Hl & D) F IH]; [left; exists []; split; [constructor|reflexivity]|].
  cbn [show_all]. destruct (show_spec c i p pk Hl D) as [(ls & S & ->)|(ls & S & ->)].
  - destruct IH as [(lss & H1 & ->)|(ps1 & pk' & ps2 & lss & l & -> & H1 & H2 & ->)].
    + left. exists (ls :: lss). split; [now constructor|reflexivity].
    + right. exists (pk :: ps1), pk', ps2, (ls :: lss), l. split; [reflexivity|]. split; [now constructor|]. split; [exact H2|].
      cbn [concat]. now rewrite app_assoc.
  - right. exists [], pk, ps, [], ls. split; [reflexivity|]. split; [constructor|]. split; [exact S|reflexivity].
Qed.

Lemma new_deliverable past s es : new_events past s es -> Forall deliverable (packets_of es).
Proof.
  intros N. apply new_frames_bound in N. unfold packets_of. rewrite oks_outcome. apply Forall_map.
  eapply Forall_impl; [|exact N]. intros [[c i] p] H. cbn [snd] in H. exists c, i, p. split; [lia|]. apply packet_of_delivers. lia.
Qed.

(** All reads of the loop in turn *)
Fixpoint flat (reads : list read_outcome) (past : list byte) : list act * status :=
  match reads with
  | [] => ([], Waiting)
  | Failed k :: _ => ([ReadAs (Failed k)], Panicked)
  | TimedOut :: rest => let (a, s) := flat rest past in (ReadAs TimedOut :: a, s)
  | Got [] :: rest => let (a, s) := flat rest past in (ReadAs (Got []) :: a, s)
  | Got b :: rest =>
      match show_all (packets_of (fst (scan 8176 (snd (scan 8176 past) ++ b)))) with
      | (ls, true) => let (a, s) := flat rest (past ++ b) in (ReadAs (Got b) :: map Printed ls ++ a, s)
      | (ls, false) => (ReadAs (Got b) :: map Printed ls, Panicked)
      end
  end.

Lemma update_flat reads : Forall read_fits reads -> forall past,
  match update_show reads (snd (scan 8176 past)) with
  | (acts, Some (Done, rest, buf)) =>
      exists past', buf = snd (scan 8176 past') /\ (length rest < length reads)%nat /\ Forall read_fits rest /\
        flat reads past = let (a, s) := flat rest past' in (acts ++ a, s)
  | (acts, Some (Reading, _, _)) => flat reads past = (acts, Waiting)
  | (acts, _) => flat reads past = (acts, Panicked)
  end.
Proof.
  induction 1 as [|r reads Hr F IH]; intros past; [reflexivity|]. cbn [update_show].
  destruct r as [[|b bs]| |k]; cbn [read_port].
  - exists past. split; [reflexivity|]. split; [cbn; lia|]. split; [exact F|]. cbn [flat]. destruct (flat reads past). reflexivity.
  - replace (lenN (b :: bs) =? 0) with false by (unfold lenN; cbn [length]; lia).
    rewrite (device_feed_eq past (b :: bs) Hr). cbn [flat].
    destruct (show_all (packets_of (fst (scan 8176 (snd (scan 8176 past) ++ b :: bs))))) as [ls ok]. destruct ok; [|reflexivity].
    specialize (IH (past ++ b :: bs)). destruct (update_show reads (snd (scan 8176 (past ++ b :: bs)))) as [acts e].
    destruct e as [[[[|k|] rest] buf]|].
    + destruct IH as (past' & -> & L & Fr & ->). exists past'. split; [reflexivity|]. split; [cbn; lia|]. split; [exact Fr|].
      destruct (flat rest past'). cbn [app]. now rewrite <- app_assoc.
    + rewrite IH. reflexivity.
    + rewrite IH. reflexivity.
    + rewrite IH. reflexivity.
  - exists past. split; [reflexivity|]. split; [cbn; lia|]. split; [exact F|]. cbn [flat]. destruct (flat reads past). reflexivity.
  - reflexivity.
Qed.

Lemma loop_flat fuel : forall reads past, (length reads < fuel)%nat -> Forall read_fits reads ->
  show_loop fuel reads (snd (scan 8176 past)) = flat reads past.
Proof.
  induction fuel as [|fuel IH]; intros reads past L F; [lia|]. cbn [show_loop]. pose proof (update_flat reads F past) as U.
  destruct (update_show reads (snd (scan 8176 past))) as [acts [[[[|k|] rest] buf]|]]; try (now rewrite U).
  destruct U as (past' & -> & Lr & Fr & ->). rewrite IH by (lia || exact Fr). reflexivity.
Qed.

(** ** Taking traces apart *)

Lemma writes_app a b : writes_of (a ++ b) = writes_of a ++ writes_of b.
Proof. unfold writes_of. now rewrite map_app, concat_app. Qed.
Lemma reads_app a b : reads_of (a ++ b) = reads_of a ++ reads_of b.
Proof. unfold reads_of. now rewrite map_app, concat_app. Qed.
Lemma lines_app a b : lines_of (a ++ b) = lines_of a ++ lines_of b.
Proof. unfold lines_of. now rewrite map_app, concat_app. Qed.
Lemma writes_printed ls : writes_of (map Printed ls) = [].
Proof. induction ls; [reflexivity|exact IHls]. Qed.
Lemma reads_printed ls : reads_of (map Printed ls) = [].
Proof. induction ls; [reflexivity|exact IHls]. Qed.
Lemma lines_printed ls : lines_of (map Printed ls) = ls.
Proof. induction ls as [|l ls IH]; [reflexivity|]. change (l :: lines_of (map Printed ls) = l :: ls). now rewrite IH. Qed.
Lemma writes_read rs : writes_of (map ReadAs rs) = [].
Proof. induction rs; [reflexivity|exact IHrs]. Qed.
Lemma reads_read rs : reads_of (map ReadAs rs) = rs.
Proof. induction rs as [|l ls IH]; [reflexivity|]. change (l :: reads_of (map ReadAs ls) = l :: ls). now rewrite IH. Qed.
Lemma lines_read rs : lines_of (map ReadAs rs) = [].
Proof. induction rs; [reflexivity|exact IHrs]. Qed.

Lemma new_events_app past s1 s2 es1 es2 : new_events past s1 es1 -> new_events (past ++ s1) s2 es2 -> new_events past (s1 ++ s2) (es1 ++ es2).
Proof. unfold new_events. intros H1 H2. rewrite app_assoc, H2, H1. now rewrite app_assoc. Qed.
Lemma new_events_nil past : new_events past [] [].
Proof. unfold new_events. now rewrite !app_nil_r. Qed.
Lemma new_events_got past b : new_events past b (fst (scan 8176 (snd (scan 8176 past) ++ b))).
Proof. unfold new_events. rewrite (scan_app 8176 past b). reflexivity. Qed.

(** Printed lines before a read, or before the end *)
Lemma split_printed ls acts p q : map Printed ls ++ acts = p ++ q -> q = [] \/ (exists r q', q = ReadAs r :: q') ->
  exists p', p = map Printed ls ++ p' /\ acts = p' ++ q.
Proof.
  revert p. induction ls as [|l ls IH]; intros p E Q; [exists p; auto|]. cbn [map app] in E. destruct p as [|x p].
  - cbn [app] in E. destruct Q as [->|(r & q' & ->)]; discriminate E.
  - injection E as <- E. destruct (IH p E Q) as (p' & -> & ->). exists p'. auto.
Qed.

(** What is known of the loop *)
Record watched (past : list byte) (reads : list read_outcome) (acts : list act) (st : status) : Prop := {
  w_writes : writes_of acts = [];
  w_reads : exists rest, reads = reads_of acts ++ rest /\ (st = Waiting -> rest = []);
  w_failed : forall p k q, acts = p ++ ReadAs (Failed k) :: q -> q = [] /\ st = Panicked;
  w_shown : forall p q, acts = p ++ q -> (q = [] /\ st = Waiting) \/ (exists r q', q = ReadAs r :: q') ->
    exists es lss, new_events past (stream (reads_of p)) es /\ Forall2 shows (packets_of es) lss /\ lines_of p = concat lss;
  w_panic : st <> Exited /\
    (st = Panicked ->
     (exists p k, acts = p ++ [ReadAs (Failed k)]) \/
     (exists es ps1 pk ps2 lss l, new_events past (stream (reads_of acts)) es /\ packets_of es = ps1 ++ pk :: ps2 /\
        Forall2 shows ps1 lss /\ fatal pk l /\ lines_of acts = concat lss ++ l))
}.

Lemma flat_watched reads : Forall read_fits reads -> forall past, watched past reads (fst (flat reads past)) (snd (flat reads past)).
Proof.
  induction 1 as [|r reads Hr F IH]; intros past.
  { cbn [flat fst snd]. constructor.
    - reflexivity.
    - exists []. auto.
    - intros p k q E. destruct p; discriminate E.
    - intros p q E _. destruct p; [|discriminate E]. exists [], []. split; [apply new_events_nil|]. split; [constructor|reflexivity].
    - split; [discriminate|]. intros H. discriminate H. }
  assert (QU : forall q0, quiet q0 -> watched past (q0 :: reads) (ReadAs q0 :: fst (flat reads past)) (snd (flat reads past))).
  { intros q0 Q. destruct (IH past) as [W1 W2 W3 W4 W5].
    assert (SS : forall rs, stream (q0 :: rs) = stream rs) by (intros rs; destruct Q as [-> | ->]; reflexivity).
    constructor.
    - exact W1.
    - destruct W2 as (rest & E & H). exists rest. split; [|exact H].
      change (reads_of (ReadAs q0 :: fst (flat reads past))) with (q0 :: reads_of (fst (flat reads past))). cbn [app]. now rewrite <- E.
    - intros p k q E. destruct p as [|x p]; injection E as E0 E.
      + subst q0. destruct Q as [Q|Q]; discriminate Q.
      + exact (W3 p k q E).
    - intros p q E Hq. destruct p as [|x p].
      + exists [], []. split; [apply new_events_nil|]. split; [constructor|reflexivity].
      + injection E as <- E. destruct (W4 p q E Hq) as (es & lss & H1 & H2 & H3). exists es, lss.
        change (reads_of (ReadAs q0 :: p)) with (q0 :: reads_of p). rewrite SS. auto.
    - destruct W5 as [W5 W6]. split; [exact W5|]. intros P. destruct (W6 P) as [(p & k & E)|(es & ps1 & pk & ps2 & lss & l & H)].
      + left. exists (ReadAs q0 :: p), k. now rewrite E.
      + right. exists es, ps1, pk, ps2, lss, l. change (reads_of (ReadAs q0 :: fst (flat reads past))) with (q0 :: reads_of (fst (flat reads past))).
        rewrite SS. exact H. }
  destruct r as [[|b bs]| |k].
  - specialize (QU (Got []) (or_intror eq_refl)). cbn [flat]. destruct (flat reads past). exact QU.
  - cbn [flat]. set (B := b :: bs) in *. pose proof (new_events_got past B) as NE.
    destruct (show_all_spec _ (new_deliverable _ _ _ NE)) as [(lss & S & ->)|(ps1 & pk & ps2 & lss & l & E & S & Fa & ->)].
    + set (es0 := fst (scan 8176 (snd (scan 8176 past) ++ B))) in *.
      pose proof (IH (past ++ B)) as W. destruct (flat reads (past ++ B)) as [acts st]. cbn [fst snd] in *. destruct W as [W1 W2 W3 W4 W5].
      assert (RR : forall p', reads_of (ReadAs (Got B) :: map Printed (concat lss) ++ p') = Got B :: reads_of p').
      { intros p'. change (Got B :: reads_of (map Printed (concat lss) ++ p') = Got B :: reads_of p'). now rewrite reads_app, reads_printed. }
      assert (LL : forall p', lines_of (ReadAs (Got B) :: map Printed (concat lss) ++ p') = concat lss ++ lines_of p').
      { intros p'. change (lines_of (map Printed (concat lss) ++ p') = concat lss ++ lines_of p'). now rewrite lines_app, lines_printed. }
      assert (SS : forall rs, stream (Got B :: rs) = B ++ stream rs) by reflexivity.
      constructor.
      * change (writes_of (map Printed (concat lss) ++ acts) = []). rewrite writes_app, writes_printed. exact W1.
      * destruct W2 as (rest & -> & H). exists rest. rewrite RR. auto.
      * intros p k q E. destruct p as [|x p]; [discriminate E|]. injection E as _ E.
        destruct (split_printed _ _ _ _ E) as (p' & -> & E'); [right; eauto|]. exact (W3 p' k q E').
      * intros p q E Hq. destruct p as [|x p].
        -- exists [], []. split; [apply new_events_nil|]. split; [constructor|reflexivity].
        -- injection E as <- E. destruct (split_printed _ _ _ _ E) as (p' & -> & E'); [tauto|].
           destruct (W4 p' q E' Hq) as (es & lss' & H1 & H2 & H3). exists (es0 ++ es), (lss ++ lss').
           rewrite RR, LL, SS, H3, concat_app, packets_app. split; [now apply new_events_app|]. split; [now apply Forall2_app|reflexivity].
      * destruct W5 as [W5 W6]. split; [exact W5|]. intros P. destruct (W6 P) as [(p & k & ->)|(es & ps1 & pk & ps2 & lss' & l & H1 & H2 & H3 & H4 & H5)].
        -- left. exists (ReadAs (Got B) :: map Printed (concat lss) ++ p), k. cbn [app]. now rewrite <- app_assoc.
        -- right. exists (es0 ++ es), (packets_of es0 ++ ps1), pk, ps2, (lss ++ lss'), l.
           rewrite RR, LL, SS, H5, concat_app, packets_app, H2, <- !app_assoc.
           split; [now apply new_events_app|]. split; [reflexivity|]. split; [now apply Forall2_app|]. auto.
    + cbn [fst snd]. constructor.
      * change (writes_of (map Printed (concat lss ++ l)) = []). apply writes_printed.
      * exists reads. split; [|discriminate].
        change (Got B :: reads = Got B :: reads_of (map Printed (concat lss ++ l)) ++ reads). now rewrite reads_printed.
      * intros p k q Eq. exfalso. destruct p as [|x p]; [discriminate Eq|]. injection Eq as _ Eq.
        assert (In (ReadAs (Failed k)) (map Printed (concat lss ++ l))) as H by (rewrite Eq; apply in_elt). apply in_map_iff in H. destruct H as (y & H & _). discriminate H.
      * intros p q Eq [[_ H]|(r & q' & ->)]; [discriminate H|]. destruct p as [|x p].
        -- exists [], []. split; [apply new_events_nil|]. split; [constructor|reflexivity].
        -- exfalso. injection Eq as _ Eq.
           assert (In (ReadAs r) (map Printed (concat lss ++ l))) as H by (rewrite Eq; apply in_elt). apply in_map_iff in H. destruct H as (y & H & _). discriminate H.
      * split; [discriminate|]. intros _. right. exists (fst (scan 8176 (snd (scan 8176 past) ++ B))), ps1, pk, ps2, lss, l.
        change (reads_of (ReadAs (Got B) :: map Printed (concat lss ++ l))) with (Got B :: reads_of (map Printed (concat lss ++ l))).
        change (lines_of (ReadAs (Got B) :: map Printed (concat lss ++ l))) with (lines_of (map Printed (concat lss ++ l))).
        rewrite reads_printed, lines_printed. change (stream [Got B]) with (B ++ []). rewrite app_nil_r. auto.
  - specialize (QU TimedOut (or_introl eq_refl)). cbn [flat]. destruct (flat reads past). exact QU.
  - cbn [flat fst snd]. constructor.
    + reflexivity.
    + exists reads. split; [reflexivity|discriminate].
    + intros p k' q E. destruct p as [|x p]; [injection E as <- <-; auto|]. injection E as _ E. destruct p; discriminate E.
    + intros p q E [[_ H]|(r & q' & ->)]; [discriminate H|]. destruct p as [|x p].
      * exists [], []. split; [apply new_events_nil|]. split; [constructor|reflexivity].
      * injection E as _ E. destruct p; discriminate E.
    + split; [discriminate|]. intros _. left. exists [], k. reflexivity.
Qed.

(** ** The requests *)

Fixpoint run_plan (pl : list (line * (pack_desc * list byte))) (poll : list byte) : port -> list act * status :=
  match pl with
  | [] => andthen (device_write (Ret poll)) (andthen (print LWaiting) watch)
  | (l, (T, f)) :: pl' => andthen (print l) (andthen (device_write (Ret f)) (andthen (wait T) (run_plan pl' poll)))
  end.

Record obeys (plan : list (pack_desc * list byte)) (anns : list line) (past : list byte) (reads : list read_outcome)
    (writes : list write_outcome) (acts : list act) (st : status) : Prop := {
  o_order : forall before f after, acts = before ++ Wrote f :: after ->
    exists k T frame, nth_error plan k = Some (T, frame) /\ writes_of before = map snd (firstn k plan) /\
      match nth_error writes k with
      | Some Written => f = frame
      | Some (Refused n) => f = takeN n frame /\ after = [] /\ st = Panicked
      | None => False
      end /\
      (forall k', k = S k' -> exists b1 T' f' b2, nth_error plan k' = Some (T', f') /\ before = b1 ++ Wrote f' :: b2 /\ writes_of b2 = [] /\
         acknowledged T' (past ++ stream (reads_of b1)) (stream (reads_of b2)));
  o_prompt : forall before T f T' f' c q d, acts = before ++ Wrote f :: c ++ ReadAs q :: d ->
    nth_error plan (length (writes_of before)) = Some (T, f) -> nth_error plan (S (length (writes_of before))) = Some (T', f') ->
    writes_of c = [] -> quiet q -> acknowledged T (past ++ stream (reads_of before)) (stream (reads_of c)) ->
    exists ls, match nth_error writes (S (length (writes_of before))) with
               | None => d = map Printed ls
               | Some Written => exists more, d = map Printed ls ++ Wrote f' :: more
               | Some (Refused n) => d = map Printed ls ++ [Wrote (takeN n f')]
               end;
  o_reads : exists rest, reads = reads_of acts ++ rest /\
    (st = Waiting -> rest = [] \/ length (writes_of acts) = length writes /\ (length writes < length plan)%nat);
  o_failed : forall p k q, acts = p ++ ReadAs (Failed k) :: q -> q = [] /\ st = Panicked;
  o_lines : forall p q, acts = p ++ q -> (length (writes_of p) < length plan)%nat -> exists more, anns = lines_of p ++ more;
  o_watch : forall before f after, acts = before ++ Wrote f :: after -> S (length (writes_of before)) = length plan ->
    nth_error writes (length (writes_of before)) = Some Written ->
    lines_of before = anns /\
    exists acts' rest, after = Printed LWaiting :: acts' /\ watched (past ++ stream (reads_of before)) rest acts' st;
  o_panic : st <> Exited /\
    (st = Panicked ->
     (exists p f n, acts = p ++ [Wrote f] /\ nth_error writes (length (writes_of p)) = Some (Refused n)) \/
     (exists p k, acts = p ++ [ReadAs (Failed k)]) \/
     length (writes_of acts) = length plan)
}.

Lemma watch_watched past reads writes : Forall read_fits reads ->
  watched past reads (fst (watch (mk_port reads writes (snd (scan 8176 past))))) (snd (watch (mk_port reads writes (snd (scan 8176 past))))).
Proof. intros F. unfold watch. cbn [pt_reads pt_buf]. rewrite loop_flat by (lia || exact F). now apply flat_watched. Qed.

Lemma no_write_in acts p f q : writes_of acts = [] -> acts <> p ++ Wrote f :: q.
Proof. intros H ->. rewrite writes_app in H. apply app_eq_nil in H. destruct H as [_ H]. discriminate H. Qed.

Lemma last_phase past reads writes poll T : Forall read_fits reads ->
  obeys [(T, poll)] [] past reads writes (fst (run_plan [] poll (mk_port reads writes (snd (scan 8176 past)))))
        (snd (run_plan [] poll (mk_port reads writes (snd (scan 8176 past))))).
Proof.
  intros F. cbn [run_plan]. unfold andthen, device_write, print. cbn [pt_writes pt_reads pt_buf]. destruct writes as [|[|n] ws]; cbn [fst snd].
  - constructor; try (intros; destruct before; discriminate).
    + exists reads. split; [reflexivity|]. intros _. right. cbn. lia.
    + intros p k q E. destruct p; discriminate E.
    + intros p q E _. destruct p; [|discriminate E]. exists []. reflexivity.
    + split; [discriminate|]. intros H. discriminate H.
  - pose proof (watch_watched past reads ws F) as W. destruct (watch (mk_port reads ws (snd (scan 8176 past)))) as [acts st]. cbn [app fst snd] in *.
    constructor.
    + intros before f after E. destruct before as [|x before].
      * injection E as <- <-. exists 0%nat, T, poll. cbn. split; [reflexivity|]. split; [reflexivity|]. split; [reflexivity|]. discriminate.
      * exfalso. injection E as <- E. apply (no_write_in (Printed LWaiting :: acts) before f after); [exact (w_writes _ _ _ _ W)|exact E].
    + intros before T1 f T2 f' c q d E _ N2. exfalso. destruct (length (writes_of before)); cbn in N2; discriminate N2.
    + destruct (w_reads _ _ _ _ W) as (rest & E & H). exists rest. split; [exact E|]. auto.
    + intros p k q E. do 2 (destruct p as [|? p]; [discriminate E|]; injection E as _ E). exact (w_failed _ _ _ _ W p k q E).
    + intros p q E L. destruct p as [|x p]; [exists []; reflexivity|]. injection E as <- E. cbn in L. lia.
    + intros before f after E L N. destruct before as [|x before].
      * injection E as <- <-. split; [reflexivity|]. exists acts, reads. split; [reflexivity|]. cbn. rewrite app_nil_r. exact W.
      * exfalso. injection E as <- E. apply (no_write_in (Printed LWaiting :: acts) before f after); [exact (w_writes _ _ _ _ W)|exact E].
    + destruct (w_panic _ _ _ _ W) as [H1 H2]. split; [exact H1|]. intros _. right. right. cbn [length].
      change (S (length (writes_of acts)) = 1%nat). rewrite (w_writes _ _ _ _ W). reflexivity.
  - constructor.
    + intros before f after E. destruct before as [|x before]; [|destruct before; discriminate E]. injection E as <- <-.
      exists 0%nat, T, poll. cbn. split; [reflexivity|]. split; [reflexivity|]. split; [auto|]. discriminate.
    + intros before T1 f T2 f' c q d E. destruct before as [|x before]; [|destruct before; discriminate E]. destruct c; discriminate E.
    + exists reads. split; [reflexivity|discriminate].
    + intros p k q E. destruct p as [|x p]; [discriminate E|destruct p; discriminate E].
    + intros p q E L. destruct p as [|x p]; [exists []; reflexivity|]. injection E as <- E. destruct p; [|discriminate E]. cbn in L. lia.
    + intros before f after E L N. destruct before as [|x before]; [|destruct before; discriminate E]. discriminate N.
    + split; [discriminate|]. intros _. left. exists [], (takeN n poll), n. auto.
Qed.

(** Reads before something else *)
Lemma split_read rs acts p x q : map ReadAs rs ++ acts = p ++ x :: q -> (forall r, x <> ReadAs r) ->
  exists p', p = map ReadAs rs ++ p' /\ acts = p' ++ x :: q.
Proof.
  revert p. induction rs as [|r rs IH]; intros p E X; [exists p; auto|]. cbn [map app] in E. destruct p as [|y p].
  - injection E as <- E. now destruct (X r).
  - injection E as <- E. destruct (IH p E X) as (p' & -> & ->). exists p'. auto.
Qed.
Lemma split_read_read rs acts p x q : map ReadAs rs ++ acts = p ++ ReadAs x :: q ->
  (exists rs1 rs2, rs = rs1 ++ x :: rs2 /\ p = map ReadAs rs1 /\ q = map ReadAs rs2 ++ acts) \/
  (exists p', p = map ReadAs rs ++ p' /\ acts = p' ++ ReadAs x :: q).
Proof.
  revert p. induction rs as [|r rs IH]; intros p E; [right; exists p; auto|]. cbn [map app] in E. destruct p as [|y p].
  - injection E as <- <-. left. exists [], rs. auto.
  - injection E as <- E. destruct (IH p E) as [(rs1 & rs2 & -> & -> & ->)|(p' & -> & ->)]; [left; exists (r :: rs1), rs2|right; exists p']; auto.
Qed.

Lemma acknowledged_more T past s s' : acknowledged T past s -> acknowledged T past (s ++ s').
Proof.
  intros (es & N & Hi). exists (es ++ fst (scan 8176 (snd (scan 8176 (past ++ s)) ++ s'))). split; [|apply in_or_app; auto].
  eapply new_events_app; [exact N|]. apply new_events_got.
Qed.

Lemma run_plan_eq l T f pl poll reads writes buf :
  run_plan ((l, (T, f)) :: pl) poll (mk_port reads writes buf) =
  match writes with
  | [] => ([Printed l], Waiting)
  | Refused n :: _ => ([Printed l; Wrote (takeN n f)], Panicked)
  | Written :: ws =>
      match wait_for_ack T reads buf with
      | Ret (e, rest, buf') =>
          let rs := map ReadAs (firstn (length reads - length rest) reads) in
          match e with
          | Done => let (a, s) := run_plan pl poll (mk_port rest ws buf') in (Printed l :: Wrote f :: rs ++ a, s)
          | IoError _ => (Printed l :: Wrote f :: rs, Panicked)
          | Reading => (Printed l :: Wrote f :: rs, Waiting)
          end
      | _ => ([Printed l; Wrote f], Panicked)
      end
  end.
Proof.
  cbn [run_plan]. unfold andthen, print, device_write, wait. cbn [pt_writes pt_reads pt_buf]. destruct writes as [|[|n] ws]; try reflexivity.
  cbn [pt_writes pt_reads pt_buf]. destruct (wait_for_ack T reads buf) as [[[[|k|] rest] buf']| |]; try reflexivity.
  destruct (run_plan pl poll (mk_port rest ws buf')). reflexivity.
Qed.

Lemma phases poll T0 pl : forall past reads writes, Forall read_fits reads ->
  obeys (map snd pl ++ [(T0, poll)]) (map fst pl) past reads writes
    (fst (run_plan pl poll (mk_port reads writes (snd (scan 8176 past)))))
    (snd (run_plan pl poll (mk_port reads writes (snd (scan 8176 past))))).
Proof.
  induction pl as [|[l [T f]] pl IH]; intros past reads writes F; [now apply last_phase|].
  rewrite run_plan_eq. cbn [map fst snd app].
  set (plan := map snd pl ++ [(T0, poll)]) in *.
  destruct writes as [|[|n] ws].
  - cbn [fst snd app]. constructor.
    + intros before f0 after E. destruct before as [|x before]; [discriminate E|]. destruct before; discriminate E.
    + intros before T1 f1 T2 f2 c q d E. destruct before as [|x before]; [discriminate E|]. destruct before; discriminate E.
    + exists reads. split; [reflexivity|]. intros _. right. cbn. lia.
    + intros p k q E. destruct p as [|x p]; [discriminate E|]. destruct p; discriminate E.
    + intros p q E _. destruct p as [|x p]; [exists (l :: map fst pl); reflexivity|]. injection E as <- E. destruct p; [|discriminate E]. exists (map fst pl). reflexivity.
    + intros before f0 after E. destruct before as [|x before]; [discriminate E|]. destruct before; discriminate E.
    + split; [discriminate|]. intros H. discriminate H.
  - destruct (wait_for_ack_exact T past reads F) as (e & pre & rest & -> & -> & M & Hq & Hf).
    assert (TK : firstn (length (pre ++ rest) - length rest) (pre ++ rest) = pre).
    { rewrite app_length. replace (length pre + length rest - length rest)%nat with (length pre + 0)%nat by lia. rewrite firstn_app_2. cbn. now rewrite app_nil_r. }
    rewrite TK. clear TK. cbv zeta.
    assert (STOP : forall st, (st = Waiting /\ rest = []) \/ (st = Panicked /\ exists b k, pre = b ++ [Failed k] /\ e = IoError k) -> 
      (forall k, e = IoError k -> st = Panicked) -> e <> Done ->
      obeys ((T, f) :: plan) (l :: map fst pl) past (pre ++ rest) (Written :: ws) (Printed l :: Wrote f :: map ReadAs pre) st).
    { intros st S SP ND. constructor.
      - intros before f0 after E. destruct before as [|x before]; [discriminate E|]. injection E as <- E. destruct before as [|x before].
        + injection E as <- <-. exists 0%nat, T, f. cbn. split; [reflexivity|]. split; [reflexivity|]. split; [reflexivity|]. discriminate.
        + exfalso. injection E as <- E. eapply no_write_in; [|exact E]. apply writes_read.
      - intros before T1 f1 T2 f2 c q d E N1 _ Wc Q A. exfalso. destruct before as [|x before]; [discriminate E|]. injection E as <- E. destruct before as [|x before].
        + injection E as <- E. cbn in N1. injection N1 as <-. rewrite <- (app_nil_r (map ReadAs pre)) in E. apply split_read_read in E.
          destruct E as [(rs1 & rs2 & -> & -> & Ed)|(p' & _ & E')]; [|destruct p'; discriminate E'].
          rewrite reads_read in A. cbn in A. rewrite app_nil_r in A. destruct (Hq rs1 q rs2 eq_refl Q A) as [_ H]. now apply ND.
        + injection E as <- E. eapply no_write_in; [|exact E]. apply writes_read.
      - exists rest. change (reads_of (Printed l :: Wrote f :: map ReadAs pre)) with (reads_of (map ReadAs pre)). rewrite reads_read.
        split; [reflexivity|]. intros ->. destruct S as [[_ S]|[S _]]; [auto|discriminate S].
      - intros p k q E. do 2 (destruct p as [|? p]; [discriminate E|]; injection E as _ E).
        rewrite <- (app_nil_r (map ReadAs pre)) in E. apply split_read_read in E.
        destruct E as [(rs1 & rs2 & -> & -> & Ed)|(p' & _ & E')]; [|destruct p'; discriminate E'].
        destruct (Hf rs1 k rs2 eq_refl) as [-> H]. split; [exact Ed|]. eauto.
      - intros p q E L. destruct p as [|x p]; [exists (l :: map fst pl); reflexivity|]. injection E as <- E. exists (map fst pl).
        assert (lines_of p = []) as H.
        { destruct p as [|y p]; [reflexivity|]. injection E as <- E. assert (H : lines_of (map ReadAs pre) = []) by apply lines_read.
          rewrite E, lines_app in H. apply app_eq_nil in H. exact (proj1 H). }
        change (lines_of (Printed l :: p)) with (l :: lines_of p). now rewrite H.
      - intros before f0 after E L _. exfalso. cbn [length] in L. unfold plan in L. rewrite app_length in L. cbn [length] in L.
        destruct before as [|x before]; [discriminate E|]. injection E as <- E. destruct before as [|x before].
        + cbn in L. lia.
        + injection E as <- E. eapply no_write_in; [|exact E]. apply writes_read.
      - split; [destruct S as [[-> _]|[-> _]]; discriminate|]. intros P. right. left. destruct S as [[S _]|[_ (b & k & -> & _)]]; [congruence|].
        exists (Printed l :: Wrote f :: map ReadAs b), k. rewrite map_app. reflexivity. }
    destruct e as [|k|].
    + clear STOP. rewrite Forall_app in F. destruct F as [_ F].
      pose proof (IH (past ++ stream pre) rest ws F) as O. set (S := mk_port rest ws (snd (scan 8176 (past ++ stream pre)))) in *.
      assert (HEAD : exists ls, match nth_error ws 0 with
                       | None => fst (run_plan pl poll S) = map Printed ls
                       | Some Written => exists more, fst (run_plan pl poll S) = map Printed ls ++ Wrote (snd (nth 0 plan (T, f))) :: more
                       | Some (Refused n) => fst (run_plan pl poll S) = map Printed ls ++ [Wrote (takeN n (snd (nth 0 plan (T, f))))]
                       end).
      { clear. unfold plan. destruct pl as [|[l1 [T1 f1]] pl]; cbn [run_plan map app nth snd]; unfold andthen at 1.
        - exists []. unfold device_write, S. cbn [pt_writes]. destruct ws as [|[|n] ws]; cbn [nth_error fst map app]; try reflexivity.
          destruct (andthen _ _ _). cbn [fst]. eauto.
        - exists [l1]. unfold print. unfold andthen at 1, device_write, S. cbn [pt_writes]. destruct ws as [|[|n] ws]; cbn [nth_error fst map app]; try reflexivity.
          destruct (andthen _ _ _). cbn [fst]. eauto. }
      destruct (run_plan pl poll S) as [acts st]. cbn [fst snd app] in *. clear S.
      destruct M as (b0 & q0 & Epre & Q0 & A0).
      assert (Ack : acknowledged T past (stream pre)) by (subst pre; rewrite stream_app; now apply acknowledged_more).
      assert (RD : forall p', reads_of (Printed l :: Wrote f :: map ReadAs pre ++ p') = pre ++ reads_of p').
      { intros p'. change (reads_of (map ReadAs pre ++ p') = pre ++ reads_of p'). now rewrite reads_app, reads_read. }
      assert (WR : forall p', writes_of (Printed l :: Wrote f :: map ReadAs pre ++ p') = f :: writes_of p').
      { intros p'. change (f :: writes_of (map ReadAs pre ++ p') = f :: writes_of p'). now rewrite writes_app, writes_read. }
      assert (LN : forall p', lines_of (Printed l :: Wrote f :: map ReadAs pre ++ p') = l :: lines_of p').
      { intros p'. change (l :: lines_of (map ReadAs pre ++ p') = l :: lines_of p'). now rewrite lines_app, lines_read. }
      (* where a frame is written *)
      assert (SW : forall before f0 after, Printed l :: Wrote f :: map ReadAs pre ++ acts = before ++ Wrote f0 :: after ->
        (before = [Printed l] /\ f0 = f /\ after = map ReadAs pre ++ acts) \/
        (exists before', before = Printed l :: Wrote f :: map ReadAs pre ++ before' /\ acts = before' ++ Wrote f0 :: after)).
      { intros before f0 after E. destruct before as [|x before]; [discriminate E|]. injection E as <- E. destruct before as [|x before].
        - injection E as <- <-. auto.
        - right. injection E as <- E. apply split_read in E; [|discriminate]. destruct E as (p' & -> & ->). exists p'. auto. }
      constructor.
      * intros before f0 after E. destruct (SW _ _ _ E) as [(-> & -> & ->)|(before' & -> & E')].
        { exists 0%nat, T, f. cbn. split; [reflexivity|]. split; [reflexivity|]. split; [reflexivity|]. discriminate. }
        destruct (o_order _ _ _ _ _ _ _ O _ _ _ E') as (k & T1 & fr & N1 & N2 & N3 & N4). exists (Datatypes.S k), T1, fr.
        split; [exact N1|]. split; [rewrite WR, N2; reflexivity|]. split; [exact N3|]. intros k' Ek. injection Ek as <-.
        destruct k as [|k].
        -- exists [Printed l], T, f, (map ReadAs pre ++ before'). split; [reflexivity|]. split; [reflexivity|].
           cbn [firstn map] in N2. split; [now rewrite writes_app, writes_read, N2|].
           cbn. rewrite app_nil_r, reads_app, reads_read, stream_app. now apply acknowledged_more.
        -- destruct (N4 k eq_refl) as (b1 & T' & f' & b2 & K1 & -> & K3 & K4). exists (Printed l :: Wrote f :: map ReadAs pre ++ b1), T', f', b2.
           split; [exact K1|]. split; [cbn [app]; now rewrite <- app_assoc|]. split; [exact K3|]. rewrite RD, stream_app, app_assoc. exact K4.
      * intros before T1 f1 T2 f2 c q d E N1 N2 Wc Q A. destruct (SW _ _ _ E) as [(-> & -> & Ec)|(before' & -> & E')].
        -- cbn in N1. injection N1 as <-. cbn in A. rewrite app_nil_r in A. symmetry in Ec.
           destruct (split_read_read _ _ _ _ _ Ec) as [(rs1 & rs2 & Er & -> & ->)|(p' & -> & Ea)].
           ++ rewrite reads_read in A. destruct (Hq rs1 q rs2 Er Q A) as [-> _]. cbn [map app]. cbn in N2.
              destruct HEAD as (ls & H). exists ls. cbn [writes_of map concat app length nth_error] in *.
              assert (HN : nth_error ws 0 = match ws with [] => None | x :: _ => Some x end) by (destruct ws; reflexivity).
              assert (E2 : snd (nth 0 plan (T, f)) = f2) by (destruct plan; [discriminate N2|injection N2 as ->; reflexivity]).
              rewrite E2 in H. destruct ws as [|[|n] ws]; exact H.
           ++ exfalso. destruct HEAD as (ls & H). rewrite writes_app, writes_read in Wc. cbn [app] in Wc.
              assert (X : exists a2, acts = map Printed ls ++ a2 /\ (a2 = [] \/ exists g a3, a2 = Wrote g :: a3)).
              { destruct (nth_error ws 0) as [[|n]|].
                - destruct H as (more & ->). eauto 6.
                - subst acts. eauto 6.
                - exists []. rewrite app_nil_r. auto. }
              destruct X as (a2 & Ea2 & X). rewrite Ea in Ea2. symmetry in Ea2. destruct (split_printed _ _ _ _ Ea2) as (p2 & -> & E2); [right; eauto|].
              rewrite writes_app, writes_printed in Wc. cbn [app] in Wc. destruct X as [->|(g & a3 & ->)]; [destruct p2; discriminate E2|].
              destruct p2 as [|y p2]; [discriminate E2|]. injection E2 as <- E2. discriminate Wc.
        -- rewrite WR in N1, N2 |- *. cbn [length nth_error] in N1, N2 |- *. rewrite RD, stream_app, app_assoc in A.
           exact (o_prompt _ _ _ _ _ _ _ O before' T1 f1 T2 f2 c q d E' N1 N2 Wc Q A).
      * destruct (o_reads _ _ _ _ _ _ _ O) as (rest' & -> & H). exists rest'. rewrite RD, WR, <- app_assoc. split; [reflexivity|].
        intros W. destruct (H W) as [H'|H']; [auto|]. right. cbn [length]. lia.
      * intros p k q E. do 2 (destruct p as [|? p]; [discriminate E|]; injection E as _ E). apply split_read_read in E.
        destruct E as [(rs1 & rs2 & Er & -> & Ed)|(p' & _ & E')]; [|exact (o_failed _ _ _ _ _ _ _ O p' k q E')].
        destruct (Hf rs1 k rs2 Er) as [_ H]. discriminate H.
      * intros p q E L. destruct p as [|x p]; [exists (l :: map fst pl); reflexivity|]. injection E as <- E.
        destruct p as [|x p]; [exists (map fst pl); reflexivity|]. injection E as <- E.
        assert (X : (exists p', p = map ReadAs pre ++ p' /\ acts = p' ++ q) \/ (exists rs, p = map ReadAs rs)).
        { clear - E. revert p E. induction pre as [|r pre IHp]; intros p E; [left; exists p; auto|]. destruct p as [|y p]; [right; exists []; reflexivity|].
          injection E as <- E. destruct (IHp p E) as [(p' & -> & ->)|(rs & ->)]; [left; exists p'; auto|right; exists (r :: rs); reflexivity]. }
        destruct X as [(p' & -> & E')|(rs & ->)].
        -- rewrite WR in L. cbn [length] in L. destruct (o_lines _ _ _ _ _ _ _ O p' q E' ltac:(lia)) as (more & Em). exists more. rewrite LN. cbn [app]. now rewrite Em.
        -- exists (map fst pl). change (l :: map fst pl = l :: lines_of (map ReadAs rs) ++ map fst pl). now rewrite lines_read.
      * intros before f0 after E L N. destruct (SW _ _ _ E) as [(-> & -> & ->)|(before' & -> & E')].
        { exfalso. cbn in L. unfold plan in L. rewrite app_length in L. cbn in L. lia. }
        rewrite WR in L, N. cbn [length nth_error] in L, N. injection L as L.
        destruct (o_watch _ _ _ _ _ _ _ O before' f0 after E' L N) as (H1 & H2). rewrite LN, H1, RD, stream_app, app_assoc. auto.
      * destruct (o_panic _ _ _ _ _ _ _ O) as [H1 H2]. split; [exact H1|]. intros P. destruct (H2 P) as [(p & f0 & n & -> & H)|[(p & k & ->)|H]].
        -- left. exists (Printed l :: Wrote f :: map ReadAs pre ++ p), f0, n. rewrite WR. split; [cbn [app]; now rewrite <- app_assoc|exact H].
        -- right. left. exists (Printed l :: Wrote f :: map ReadAs pre ++ p), k. cbn [app]. now rewrite <- app_assoc.
        -- right. right. rewrite WR. cbn [length]. now rewrite H.
    + cbn [fst snd app]. apply STOP; [|intros; reflexivity|discriminate]. right. split; [reflexivity|]. destruct M as (b & ->). eauto.
    + cbn [fst snd app]. apply STOP; [|discriminate|discriminate]. left. auto.
  - cbn [fst snd app]. constructor.
    + intros before f0 after E. destruct before as [|x before]; [discriminate E|]. injection E as <- E.
      destruct before as [|x before]; [|destruct before; discriminate E]. injection E as <- <-.
      exists 0%nat, T, f. cbn. split; [reflexivity|]. split; [reflexivity|]. split; [auto|]. discriminate.
    + intros before T1 f1 T2 f2 c q d E. destruct before as [|x before]; [discriminate E|]. injection E as <- E.
      destruct before as [|x before]; [|destruct before; discriminate E]. destruct c; discriminate E.
    + exists reads. split; [reflexivity|discriminate].
    + intros p k q E. do 2 (destruct p as [|? p]; [discriminate E|]; injection E as _ E). destruct p; discriminate E.
    + intros p q E L. destruct p as [|x p]; [exists (l :: map fst pl); reflexivity|]. injection E as <- E.
      destruct p as [|x p]; [exists (map fst pl); reflexivity|]. injection E as <- E. destruct p; [|discriminate E]. exists (map fst pl). reflexivity.
    + intros before f0 after E L N. destruct before as [|x before]; [discriminate E|]. injection E as <- E.
      destruct before as [|x before]; [|destruct before; discriminate E]. discriminate N.
    + split; [discriminate|]. intros _. left. exists [Printed l], (takeN n f), n. auto.
Qed.

(** ** C68 *)

(** The options clap admits *)
Definition admitted_command (command : option cfg_args) : Prop := match command with Some a => admitted a | None => True end.

Definition phases_of (command : option cfg_args) : list (line * (pack_desc * list byte)) :=
  match command with
  | Some a => match port_code (a_select a) with Some port => [(LConfiguring (a_select a), (p_cfg_prt_uart, configuration a port))] | None => [] end
  | None => []
  end ++ [(LEnabling, (p_cfg_msg_all_ports, frame x06 x01 [x01; x07; x00; x01; x01; x01; x00; x00]))].
Definition the_poll : list byte := frame x0a x04 [].

Lemma rates_frame :
  into_packet_bytes p_cfg_msg_all_ports (all_ports_set_rate_for p_nav_pvt [x00; x01; x01; x01; x00; x00]) =
  Ret (frame x06 x01 [x01; x07; x00; x01; x01; x01; x00; x00]).
Proof. vm_compute. reflexivity. Qed.
Lemma poll_frame : request_bytes (request_for p_mon_ver) = Ret the_poll.
Proof. vm_compute. reflexivity. Qed.

Lemma enable_eq s : enable_and_watch s =
  run_plan [(LEnabling, (p_cfg_msg_all_ports, frame x06 x01 [x01; x07; x00; x01; x01; x01; x00; x00]))] the_poll s.
Proof. unfold enable_and_watch. rewrite rates_frame, poll_frame. reflexivity. Qed.

Lemma session_eq command s : admitted_command command ->
  session command s = if conflicting command then ([], Exited) else run_plan (phases_of command) the_poll s.
Proof.
  intros Ad. destruct command as [a|]; [|exact (enable_eq s)]. unfold phases_of. cbn [session conflicting admitted_command] in *. rewrite (configure_writes a Ad).
  destruct (a_in_rtcm a && a_in_rtcm3 a); [reflexivity|]. destruct (port_code (a_select a)) as [port|]; [|exact (enable_eq s)].
  cbv zeta. cbn [app run_plan]. unfold andthen at 1 4. cbn [print].
  assert (X : forall k1 k2 b s', (forall x, k1 x = k2 x) -> andthen (device_write b) (andthen (wait p_cfg_prt_uart) k1) s' = andthen (device_write b) (andthen (wait p_cfg_prt_uart) k2) s').
  { intros k1 k2 b s' H. unfold andthen. destruct (device_write b s') as [a0 [e|s1]]; [reflexivity|]. destruct (wait p_cfg_prt_uart s1) as [a1 [e|s2]]; [reflexivity|]. now rewrite H. }
  fold (configuration a port). rewrite (X _ _ _ _ enable_eq). reflexivity.
Qed.

Lemma plan_phases command : map snd (phases_of command) ++ [(p_mon_ver, the_poll)] = plan command.
Proof. destruct command as [a|]; [|reflexivity]. unfold phases_of, plan. destruct (port_code (a_select a)); reflexivity. Qed.
Lemma announcements_phases command : map fst (phases_of command) = announcements command.
Proof. destruct command as [a|]; [|reflexivity]. unfold phases_of, announcements. destruct (port_code (a_select a)); reflexivity. Qed.

Lemma session_obeys command reads writes acts st : admitted_command command -> Forall read_fits reads ->
  run_tool command reads writes = (acts, st) ->
  conflicting command = true /\ acts = [] /\ st = Exited \/
  conflicting command = false /\ obeys (plan command) (announcements command) [] reads writes acts st.
Proof.
  intros Ad F R. unfold run_tool in R. rewrite (session_eq command _ Ad) in R. destruct (conflicting command).
  - left. injection R as <- <-. auto.
  - right. split; [reflexivity|]. rewrite <- plan_phases, <- announcements_phases.
    pose proof (phases the_poll p_mon_ver (phases_of command) [] reads writes F) as O.
    change (snd (scan 8176 [])) with (@nil byte) in O. rewrite R in O. exact O.
Qed.

(** The requests are sent in their order, each once, and each after the first only when the one before it has been acknowledged:
    the acknowledgement of its type came in with the bytes read after it was sent.  A request is sent whole, unless the port
    fails; then the tool stops there. *)
Theorem session_order :
  forall command reads writes acts st, admitted_command command -> Forall read_fits reads ->
    run_tool command reads writes = (acts, st) ->
    forall before f after, acts = before ++ Wrote f :: after ->
      exists k T frame, nth_error (plan command) k = Some (T, frame) /\ writes_of before = map snd (firstn k (plan command)) /\
        match nth_error writes k with
        | Some Written => f = frame
        | Some (Refused n) => f = takeN n frame /\ after = [] /\ st = Panicked
        | None => False
        end /\
        (forall k', k = S k' ->
           exists b1 T' f' b2, nth_error (plan command) k' = Some (T', f') /\ before = b1 ++ Wrote f' :: b2 /\ writes_of b2 = [] /\
             acknowledged T' (stream (reads_of b1)) (stream (reads_of b2))).
Proof.
  intros command reads writes acts st Ad F R before f after E.
  destruct (session_obeys command reads writes acts st Ad F R) as [(_ & -> & _)|(_ & O)]; [destruct before; discriminate E|].
  exact (o_order _ _ _ _ _ _ _ O before f after E).
Qed.

(** As soon as the port is quiet after the acknowledgement of a request, the next one is sent: nothing is read in between. *)
Theorem session_prompt :
  forall command reads writes acts st, admitted_command command -> Forall read_fits reads ->
    run_tool command reads writes = (acts, st) ->
    forall before T f T' f' c q d, acts = before ++ Wrote f :: c ++ ReadAs q :: d ->
      nth_error (plan command) (length (writes_of before)) = Some (T, f) ->
      nth_error (plan command) (S (length (writes_of before))) = Some (T', f') ->
      writes_of c = [] -> quiet q -> acknowledged T (stream (reads_of before)) (stream (reads_of c)) ->
      exists ls, match nth_error writes (S (length (writes_of before))) with
                 | None => d = map Printed ls
                 | Some Written => exists more, d = map Printed ls ++ Wrote f' :: more
                 | Some (Refused n) => d = map Printed ls ++ [Wrote (takeN n f')]
                 end.
Proof.
  intros command reads writes acts st Ad F R before T f T' f' c q d E.
  destruct (session_obeys command reads writes acts st Ad F R) as [(_ & -> & _)|(_ & O)]; [destruct before; discriminate E|].
  exact (o_prompt _ _ _ _ _ _ _ O before T f T' f' c q d E).
Qed.

(** Until the poll is sent only the announcements are printed.  From then on, whenever the tool goes back to reading, it has shown exactly the
    packets that the bytes read since then have completed, each once and in order. *)
Theorem session_shows :
  forall command reads writes acts st, admitted_command command -> Forall read_fits reads ->
    run_tool command reads writes = (acts, st) ->
    (forall p q, acts = p ++ q -> (length (writes_of p) < length (plan command))%nat -> exists more, announcements command = lines_of p ++ more) /\
    (forall before f after, acts = before ++ Wrote f :: after -> S (length (writes_of before)) = length (plan command) ->
       nth_error writes (length (writes_of before)) = Some Written ->
       lines_of before = announcements command /\
       exists acts', after = Printed LWaiting :: acts' /\
         forall p q, acts' = p ++ q -> (q = [] /\ st = Waiting) \/ (exists r q', q = ReadAs r :: q') ->
           exists ps lss, new_packets (stream (reads_of before)) (stream (reads_of p)) ps /\ Forall2 shows ps lss /\ lines_of p = concat lss).
Proof.
  intros command reads writes acts st Ad F R.
  destruct (session_obeys command reads writes acts st Ad F R) as [(_ & -> & _)|(_ & O)].
  { split; [|intros [|x before] f after E; discriminate E]. intros p q E _. destruct p; [|discriminate E]. eexists. reflexivity. }
  split; [exact (o_lines _ _ _ _ _ _ _ O)|]. intros before f after E L N.
  destruct (o_watch _ _ _ _ _ _ _ O before f after E L N) as (H1 & acts' & rest & -> & W). split; [exact H1|]. exists acts'. split; [reflexivity|].
  intros p q E' Q. destruct (w_shown _ _ _ _ W p q E' Q) as (es & lss & N1 & S1 & L1). exists (packets_of es), lss. split; [|auto].
  exists packet_of, es. split; [intros; now apply packet_of_delivers|]. auto.
Qed.

(** A packet that is shown is not fatal *)
Lemma shows_not_fatal pk ls ls' : shows pk ls -> ~ fatal pk ls'.
Proof.
  intros S Fa. inversion Fa as [payload l PL HT NT|payload NR]; subst; inversion S; subst; try congruence; try tauto.
Qed.

(** How a session ends.  Reads are used in order; the tool exits at once for the options it does not admit together; it goes on
    reading until the port has nothing more to give (or a write does not come back); and it panics only when a write fails, a read fails, or
    one of the fatal packets arrives: after showing all packets before it. *)
Theorem session_ends :
  forall command reads writes acts st, admitted_command command -> Forall read_fits reads ->
    run_tool command reads writes = (acts, st) ->
    (conflicting command = true <-> st = Exited) /\ (st = Exited -> acts = []) /\
    (exists rest, reads = reads_of acts ++ rest /\
       (st = Waiting -> rest = [] \/ length (writes_of acts) = length writes /\ (length writes < length (plan command))%nat)) /\
    (forall p k q, acts = p ++ ReadAs (Failed k) :: q -> q = [] /\ st = Panicked) /\
    (st = Panicked ->
     (exists p f n, acts = p ++ [Wrote f] /\ nth_error writes (length (writes_of p)) = Some (Refused n)) \/
     (exists p k, acts = p ++ [ReadAs (Failed k)]) \/
     (exists before after ps1 pk ps2 lss ls, acts = before ++ Wrote the_poll :: Printed LWaiting :: after /\
        new_packets (stream (reads_of before)) (stream (reads_of after)) (ps1 ++ pk :: ps2) /\
        Forall2 shows ps1 lss /\ fatal pk ls /\ lines_of after = concat lss ++ ls)).
Proof.
  intros command reads writes acts st Ad F R.
  destruct (session_obeys command reads writes acts st Ad F R) as [(C & -> & ->)|(C & O)].
  { split; [tauto|]. split; [reflexivity|]. split; [exists reads; split; [reflexivity|discriminate]|]. split; [intros [|x p] k q E; discriminate E|discriminate]. }
  destruct (o_panic _ _ _ _ _ _ _ O) as [P1 P2]. rewrite C.
  split; [split; [discriminate|tauto]|]. split; [tauto|]. split; [exact (o_reads _ _ _ _ _ _ _ O)|]. split; [exact (o_failed _ _ _ _ _ _ _ O)|].
  intros P. destruct (P2 P) as [H|[H|H]]; [auto|auto|].
  assert (PL : exists pl0, plan command = pl0 ++ [(p_mon_ver, the_poll)]) by (eexists; symmetry; apply plan_phases).
  destruct PL as (pl0 & PL).
  (* the last write *)
  assert (X : exists before f after, acts = before ++ Wrote f :: after /\ writes_of after = []).
  { rewrite PL, app_length in H. cbn [length] in H. clear - H. induction acts as [|x acts IH] using rev_ind; [cbn in H; lia|].
    destruct x as [b|r|l].
    - exists acts, b, []. auto.
    - rewrite writes_app, app_nil_r in H. destruct (IH H) as (b & f & a & -> & W). exists b, f, (a ++ [ReadAs r]). rewrite writes_app, W, <- app_assoc. auto.
    - rewrite writes_app, app_nil_r in H. destruct (IH H) as (b & f & a & -> & W). exists b, f, (a ++ [Printed l]). rewrite writes_app, W, <- app_assoc. auto. }
  destruct X as (before & f & after & E & Wa).
  assert (L : S (length (writes_of before)) = length (plan command)).
  { rewrite <- H, E, writes_app, app_length. change (writes_of (Wrote f :: after)) with (f :: writes_of after). rewrite Wa. cbn. lia. }
  destruct (o_order _ _ _ _ _ _ _ O before f after E) as (k & T & fr & N1 & N2 & N3 & _).
  assert (Lk : length (writes_of before) = k).
  { rewrite N2, map_length, firstn_length. assert (k < length (plan command))%nat by (apply nth_error_Some; congruence). lia. }
  destruct (nth_error writes k) as [[|n]|] eqn:Nw; [|left; exists before, f, n; destruct N3 as (_ & -> & _); rewrite Lk; auto|destruct N3].
  rewrite <- Lk in Nw. destruct (o_watch _ _ _ _ _ _ _ O before f after E L Nw) as (_ & acts' & rest & -> & W).
  destruct (w_panic _ _ _ _ W) as [_ W2]. destruct (W2 P) as [(p & k' & ->)|(es & ps1 & pk & ps2 & lss & ls & H1 & H2 & H3 & H4 & H5)].
  { right. left. exists (before ++ Wrote f :: Printed LWaiting :: p), k'. rewrite E, <- app_assoc. reflexivity. }
  right. right. exists before, acts', ps1, pk, ps2, lss, ls.
  assert (Ef : f = the_poll).
  { subst fr. rewrite PL in N1, L. rewrite app_length in L. cbn [length] in L.
    rewrite nth_error_app2 in N1 by lia. replace (k - length pl0)%nat with 0%nat in N1 by lia. injection N1 as _ <-. reflexivity. }
  rewrite <- Ef. split; [exact E|]. split; [|auto]. exists packet_of, es. split; [intros; now apply packet_of_delivers|]. split; [exact H1|]. symmetry. exact H2.
Qed.

(** A receiver that acknowledges, and then sends one solution with 3D-fix: at 12:30:15 on 15 June 2023, or at a time of zeros *)
Definition ex_pvt (time : list byte) : list byte := repeat x00 4 ++ time ++ repeat x00 9 ++ [x03] ++ repeat x00 71.
Definition ex_reads (time : list byte) : list read_outcome :=
  [Got [x24]; Got (frame x05 x01 [x06; x01]); TimedOut; Got (takeN 50 (frame x01 x07 (ex_pvt time))); TimedOut; Got (dropN 50 (frame x01 x07 (ex_pvt time))); Got []].
Definition good_time : list byte := [xe7; x07; x06; x0f; x0c; x1e; x0f].
Definition no_time : list byte := repeat x00 7.
(** What is seen of a run without the values shown *)
Definition outline (r : list act * status) : list (N * list byte) * status :=
  (map (fun a => match a with
                 | Wrote b => (0, b)
                 | ReadAs (Got b) => (1, b) | ReadAs TimedOut => (2, []) | ReadAs (Failed k) => (3, [])
                 | Printed l => (match l with LConfiguring _ => 10 | LEnabling => 11 | LWaiting => 12 | LVersions _ _ _ => 13 | LDebug _ => 14
                                            | LUnknown _ _ _ => 15 | LPosition _ => 16 | LVelocity _ => 17 | LSolution _ => 18 | LTime _ => 19 end, [])
                 end) (fst r), snd r).

Definition ex_start : list (N * list byte) :=
  [(11, []); (0, frame x06 x01 [x01; x07; x00; x01; x01; x01; x00; x00]); (1, [x24]); (1, frame x05 x01 [x06; x01]); (2, []);
   (0, frame x0a x04 []); (12, [])].
Lemma ex_fits time : lenN time = 7 -> Forall read_fits (ex_reads time).
Proof.
  intros L. unfold ex_reads.
  assert (Lf : lenN (frame x01 x07 (ex_pvt time)) <= 1240).
  { rewrite frame_len. unfold ex_pvt, lenN in *. rewrite !app_length, !repeat_length. cbn [length]. lia. }
  repeat (apply Forall_cons; [|]); try apply Forall_nil; unfold read_fits; try exact I; try (vm_compute; discriminate).
  - rewrite lenN_takeN. lia.
  - rewrite lenN_dropN. lia.
Qed.
Example session_ex :
  admitted_command None /\ Forall read_fits (ex_reads good_time) /\
  outline (run_tool None (ex_reads good_time) [Written; Written]) =
    (ex_start ++ [(1, takeN 50 (frame x01 x07 (ex_pvt good_time))); (2, []); (1, dropN 50 (frame x01 x07 (ex_pvt good_time)));
                  (16, []); (17, []); (18, []); (19, []); (1, [])], Waiting).
Proof. split; [exact I|]. split; [apply ex_fits; reflexivity|]. vm_compute. reflexivity. Qed.
(** Configuring a port; no acknowledgement of the second request; a write that fails *)
Example session_configure_ex :
  let a := the_args "1" "8" None 9600 in
  let reads := [Got (frame x05 x01 [x06; x00]); Got (frame x05 x01 [x06; x01]); TimedOut; Got (frame x05 x00 [x06; x01]); TimedOut] in
  admitted_command (Some a) /\ Forall read_fits reads /\ conflicting (Some a) = false /\
  outline (run_tool (Some a) reads [Written; Written; Written]) =
    ([(10, []); (0, configuration a 1); (1, frame x05 x01 [x06; x00]); (1, frame x05 x01 [x06; x01]); (2, []);
      (11, []); (0, frame x06 x01 [x01; x07; x00; x01; x01; x01; x00; x00]); (1, frame x05 x00 [x06; x01]); (2, [])], Waiting) /\
  outline (run_tool (Some a) reads [Written; Refused 3; Written]) =
    ([(10, []); (0, configuration a 1); (1, frame x05 x01 [x06; x00]); (1, frame x05 x01 [x06; x01]); (2, []);
      (11, []); (0, [xb5; x62; x06])], Panicked).
Proof.
  split; [unfold admitted_command, admitted; cbn [the_args a_stop_bits a_data_bits a_parity a_baud In]; split; [auto|]; split; [auto|]; split; [auto|]; lia|].
  split; [repeat constructor; vm_compute; discriminate|]. split; [reflexivity|]. split; vm_compute; reflexivity.
Qed.

(** The tool goes on as long as the port works and no fatal packet arrives after the poll. *)
Theorem session_survives :
  forall command reads writes, admitted_command command -> Forall read_fits reads -> Forall healthy reads ->
    Forall (eq Written) writes -> conflicting command = false ->
    (forall past s rest ps pk ls, reads = past ++ s ++ rest -> new_packets (stream past) (stream s) ps -> In pk ps -> ~ fatal pk ls) ->
    snd (run_tool command reads writes) = Waiting.
Proof.
  intros command reads writes Ad F H W C NF. destruct (run_tool command reads writes) as [acts st] eqn:R.
  destruct (session_ends command reads writes acts st Ad F R) as (E1 & _ & (rest & Er & _) & _ & E5). cbn [snd].
  destruct st; [reflexivity| |destruct E1 as [_ E1]; rewrite E1 in C by reflexivity; discriminate C]. exfalso.
  destruct (E5 eq_refl) as [(p & f & n & _ & N)|[(p & k & ->)|(before & after & ps1 & pk & ps2 & lss & ls & Ea & NP & _ & Fa & _)]].
  - apply nth_error_In in N. rewrite Forall_forall in W. specialize (W _ N). discriminate W.
  - rewrite Er, reads_app in H. rewrite !Forall_app in H. destruct H as [[_ H] _]. cbn in H. apply Forall_inv in H. exact H.
  - rewrite Ea, reads_app in Er. change (reads_of (Wrote the_poll :: Printed LWaiting :: after)) with (reads_of after) in Er.
    rewrite <- app_assoc in Er. exact (NF _ _ _ _ pk ls Er NP (in_elt pk ps1 ps2) Fa).
Qed.

Lemma delivers_functional table c i p r1 r2 : delivers table c i p r1 -> delivers table c i p r2 -> r1 = r2.
Proof.
  induction table as [|q table IH]; intros D1 D2.
  - destruct D1 as [[|x b] ? ? E|]; try discriminate E. destruct D2 as [[|x b] ? ? E|]; try discriminate E. reflexivity.
  - assert (X : forall r, delivers (q :: table) c i p r -> SpecDispatch.fits q c i p /\ r = Known q p \/ ~ SpecDispatch.fits q c i p /\ delivers table c i p r).
    { intros r [before q' after E Fi NF|NF].
      - destruct before as [|x before]; injection E as -> ->; [auto|]. apply Forall_cons_iff in NF. destruct NF as [N1 NF]. right. split; [exact N1|]. econstructor; eauto.
      - apply Forall_cons_iff in NF. right. split; [tauto|]. apply delivers_unknown. tauto. }
    destruct (X _ D1) as [[Y1 ->]|[Y1 Z1]], (X _ D2) as [[Y2 ->]|[Y2 Z2]]; tauto || auto.
Qed.
(** The packets of a part of the stream are among those of the whole *)
Lemma new_packets_whole past s rest ps : new_packets past s ps -> forall pk, In pk ps -> In pk (packets_of (fst (scan 8176 (past ++ s ++ rest)))).
Proof.
  intros (packet & es & D & N & ->) pk Hi.
  assert (E : oks (map (outcome packet) es) = packets_of es).
  { unfold packets_of. rewrite !oks_outcome. pose proof (new_frames_bound _ _ _ N) as B. clear N Hi.
    induction B as [|[[c i] p] frames Hp B IH]; [reflexivity|]. cbn [map]. f_equal; [|exact IH].
    cbn [snd] in Hp. eapply delivers_functional; [apply D; lia|apply packet_of_delivers; lia]. }
  rewrite E in Hi. rewrite app_assoc, (scan_app 8176 (past ++ s) rest). cbn [fst]. unfold new_events in N. rewrite N, !packets_app.
  apply in_or_app. left. apply in_or_app. auto.
Qed.
Lemma frame_packet c i p q : lenN p <= 65535 -> In q recv_table -> p_name q <> "MgaGpsEPH"%string -> SpecDispatch.fits q c i p -> packet_of c i p = Known q p.
Proof. intros L H N Fi. eapply delivers_exact; [exact H|exact N|now apply packet_of_delivers|exact Fi]. Qed.
Example session_survives_ex :
  let reads := ex_reads good_time in
  Forall read_fits reads /\ Forall healthy reads /\
  (forall past s rest ps pk ls, reads = past ++ s ++ rest -> new_packets (stream past) (stream s) ps -> In pk ps -> ~ fatal pk ls).
Proof.
  cbv zeta. split; [apply ex_fits; reflexivity|]. split; [repeat constructor|].
  intros past s rest ps pk ls E NP Hi. apply (new_packets_whole _ _ (stream rest) _ NP) in Hi. rewrite <- !stream_app, <- E in Hi. clear E NP.
  assert (Ev : fst (scan 8176 (stream (ex_reads good_time))) = [EFrame x05 x01 [x06; x01]; EFrame x01 x07 (ex_pvt good_time)]) by (vm_compute; reflexivity).
  rewrite Ev in Hi. clear Ev. unfold packets_of in Hi. rewrite oks_outcome in Hi. cbn [frames_of map concat app] in Hi.
  rewrite (frame_packet x05 x01 [x06; x01] p_ack_ack), (frame_packet x01 x07 (ex_pvt good_time) p_nav_pvt) in Hi.
  - intros Fa. destruct Hi as [<-|[<-|[]]].
    + inversion Fa.
    + inversion Fa as [payload l PL HT NT|payload NR]. apply NT. unfold time_exists, is_date, is_time. vm_compute. intuition discriminate.
  - vm_compute; discriminate.
  - unfold recv_table; in_list.
  - discriminate.
  - split; [reflexivity|]. split; [reflexivity|]. apply validate_accepts; [reflexivity|vm_compute; discriminate|vm_compute; reflexivity].
  - vm_compute; discriminate.
  - unfold recv_table; in_list.
  - discriminate.
  - split; [reflexivity|]. split; [reflexivity|]. apply validate_accepts; [reflexivity|vm_compute; discriminate|vm_compute; reflexivity].
Qed.

(** Violation: a port that works is not enough.  One valid frame from the receiver, a solution with 3D-fix before the date is known, ends
    the tool. *)
Theorem session_survives_refuted :
  ~ (forall command reads writes, admitted_command command -> Forall read_fits reads -> Forall healthy reads ->
       Forall (eq Written) writes -> conflicting command = false -> snd (run_tool command reads writes) = Waiting).
Proof.
  intros H. specialize (H None (ex_reads no_time) [Written; Written] I (ex_fits no_time eq_refl)).
  assert (X : snd (run_tool None (ex_reads no_time) [Written; Written]) = Panicked) by (vm_compute; reflexivity).
  rewrite X in H. specialize (H ltac:(repeat constructor) ltac:(repeat constructor) eq_refl). discriminate H.
Qed.

Print Assumptions session_order.
Print Assumptions session_prompt.
Print Assumptions session_shows.
Print Assumptions session_ends.
Print Assumptions session_survives.
Print Assumptions session_survives_refuted.
