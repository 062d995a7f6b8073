(** * Properties of the command line tool (C53, C61) *)
From Coq Require Import String List NArith ZArith Bool Lia ZifyBool ZifyNat ZifyN.
From Verif Require Import Base BaseFacts Buffers DualBuffer Parser PackDesc GenRecv GenSend Enums Bits Dispatch TableTypes TablePackets Setters Cli
  SpecFrame SpecParser SpecPacket SpecDispatch SpecCli ProofScan ProofTrace ProofTop ProofMore ProofSend ProofRecv ProofTable ProofDispatch
  PropPackets PropDispatch PropIter PropSetters.
Import ListNotations.
Open Scope N_scope.
Open Scope list_scope.

(** ** C61: the device *)

Definition packets_of (es : list event) : list packet_ref := oks (map (outcome packet_of) es).

Lemma packets_app a b : packets_of (a ++ b) = packets_of a ++ packets_of b.
Proof. unfold packets_of, oks. rewrite !map_app, concat_app. reflexivity. Qed.

Lemma device_feed_eq past bytes : lenN bytes <= 1240 ->
  device_feed (snd (scan 8176 past)) bytes =
    Ret (packets_of (fst (scan 8176 (snd (scan 8176 past) ++ bytes))), snd (scan 8176 (past ++ bytes))).
Proof.
  intros H. unfold device_feed. rewrite recv_max.
  rewrite (vec_feed (match_packet recv_table) 8176 packet_of ltac:(lia) recv_dispatches).
  2:{ pose proof (decide_wait_bound 8176 _ (scan_rest_wait 8176 past)). unfold isize_max. lia. }
  cbn [bind]. rewrite (scan_app 8176 past bytes). reflexivity.
Qed.

(** How far [update] reads *)
Fixpoint until_quiet (reads : list read_outcome) : list byte * ended * list read_outcome :=
  match reads with
  | [] => ([], Reading, [])
  | Failed k :: rest => ([], IoError k, rest)
  | TimedOut :: rest => ([], Done, rest)
  | Got [] :: rest => ([], Done, rest)
  | Got b :: rest => match until_quiet rest with (s, e, rest') => (b ++ s, e, rest') end
  end.

Lemma update_eq reads : Forall read_fits reads -> forall past, exists es,
  match until_quiet reads with (s, e, rest) =>
    update reads (snd (scan 8176 past)) = Ret (packets_of es, e, rest, snd (scan 8176 (past ++ s))) /\ new_events past s es
  end.
Proof.
  induction 1 as [|r reads Hr F IH]; intros past.
  - exists []. cbn. rewrite app_nil_r. split; [reflexivity|]. unfold new_events. now rewrite !app_nil_r.
  - assert (Z : forall e : ended, exists es, @Ret (list packet_ref * ended * list read_outcome * list byte) ([], e, reads, snd (scan 8176 past)) = Ret (packets_of es, e, reads, snd (scan 8176 (past ++ []))) /\ new_events past [] es).
    { intros e. exists []. rewrite !app_nil_r. split; [reflexivity|]. unfold new_events. now rewrite !app_nil_r. }
    destruct r as [[|b bs]| |k]; [apply Z| |apply Z|apply Z].
    cbn [until_quiet update read_port]. replace (lenN (b :: bs) =? 0) with false by (unfold lenN; cbn [length]; lia).
    rewrite (device_feed_eq past (b :: bs) Hr). cbn [bind].
    destruct (IH (past ++ b :: bs)) as (es & H). destruct (until_quiet reads) as [[s e] rest]. destruct H as [-> N].
    exists (fst (scan 8176 (snd (scan 8176 past) ++ b :: bs)) ++ es). cbn [bind].
    rewrite packets_app. rewrite <- app_assoc in *. split; [reflexivity|]. unfold new_events in *. rewrite <- app_assoc in N. rewrite N.
    rewrite (scan_app 8176 past (b :: bs)). cbn [fst]. now rewrite app_assoc.
Qed.

Lemma until_quiet_spec reads s e rest : until_quiet reads = (s, e, rest) ->
  exists busy, Forall (fun r => ~ quiet r /\ healthy r) busy /\ s = stream busy /\
    match e with
    | Done => exists q, quiet q /\ reads = busy ++ q :: rest
    | IoError k => reads = busy ++ Failed k :: rest
    | Reading => rest = [] /\ reads = busy
    end.
Proof.
  revert s e rest. induction reads as [|r reads IH]; intros s e rest E; cbn [until_quiet] in E.
  - injection E as <- <- <-. exists []. split; [constructor|]. split; reflexivity || auto.
  - destruct r as [[|b bs]| |k].
    + injection E as <- <- <-. exists []. split; [constructor|]. split; [reflexivity|]. exists (Got []). split; [right|]; reflexivity.
    + destruct (until_quiet reads) as [[s' e'] rest'] eqn:U. injection E as <- <- <-. destruct (IH _ _ _ eq_refl) as (busy & F & -> & M).
      exists (Got (b :: bs) :: busy). split.
      { constructor; [|exact F]. split; [|exact I]. intros [H|H]; discriminate H. }
      split; [reflexivity|]. destruct e'.
      * destruct M as (q & Q & ->). exists q. auto.
      * rewrite M. reflexivity.
      * destruct M as [-> ->]. auto.
    + injection E as <- <- <-. exists []. split; [constructor|]. split; [reflexivity|]. exists TimedOut. split; [left|]; reflexivity.
    + injection E as <- <- <-. exists []. split; [constructor|]. split; reflexivity.
Qed.
Lemma stream_app a b : stream (a ++ b) = stream a ++ stream b.
Proof. unfold stream. now rewrite map_app, concat_app. Qed.

(** [update] gives the callback the packets of the frames which the bytes read complete, in order, and returns at the first
    quiet read or with the first error; the bytes of the frame begun are kept for the next call. *)
Theorem update_delivers :
  forall past busy last rest, Forall read_fits (busy ++ last :: rest) ->
    Forall (fun r => ~ quiet r /\ healthy r) busy -> (quiet last \/ exists k, last = Failed k) ->
    exists packet es,
      (forall c i p, lenN p <= 65535 -> delivers recv_table c i p (packet c i p)) /\
      new_events past (stream busy) es /\
      update (busy ++ last :: rest) (snd (scan 8176 past)) =
        Ret (oks (map (outcome packet) es), match last with Failed k => IoError k | _ => Done end, rest,
             snd (scan 8176 (past ++ stream busy))).
Proof.
  intros past busy last rest F B L. exists packet_of. destruct (update_eq _ F past) as (es & H).
  assert (U : until_quiet (busy ++ last :: rest) = (stream busy, match last with Failed k => IoError k | _ => Done end, rest)).
  { clear F H. induction B as [|r busy [Q Hh] B IH].
    - destruct L as [[->| ->]|(k & ->)]; reflexivity.
    - cbn [app until_quiet]. rewrite IH. destruct r as [[|b bs]| |k]; [destruct Q; right; reflexivity|reflexivity|destruct Q; left; reflexivity|destruct Hh]. }
  rewrite U in H. destruct H as [H N]. exists es. split; [intros; now apply packet_of_delivers|]. split; [exact N|exact H].
Qed.
Definition ex_ack : list byte := frame x05 x01 [x06; x00].
Example update_delivers_ex :
  let busy := [Got [x00; xb5]; Got (dropN 1 ex_ack ++ [xb5])] in
  Forall read_fits (busy ++ [TimedOut; Got [x62]]) /\ Forall (fun r => ~ quiet r /\ healthy r) busy /\ quiet TimedOut /\
  update (busy ++ [TimedOut; Got [x62]]) [] = Ret ([Known p_ack_ack [x06; x00]], Done, [Got [x62]], [xb5]).
Proof.
  split; [|split; [|split; [left; reflexivity|vm_compute; reflexivity]]].
  - repeat constructor; vm_compute; discriminate.
  - repeat constructor; intros [H|H]; discriminate H.
Qed.

(** The packets the program sees are those of the stream of bytes, however the reads cut it and whenever they time
    out. *)
Theorem device_reads_stream :
  forall reads, Forall read_fits reads -> Forall healthy reads ->
    exists packet,
      (forall c i p, lenN p <= 65535 -> delivers recv_table c i p (packet c i p)) /\
      read_device reads [] = Ret (oks (map (outcome packet) (fst (scan 8176 (stream reads)))), snd (scan 8176 (stream reads))).
Proof.
  intros reads F H. exists packet_of. split; [intros; now apply packet_of_delivers|].
  assert (G : forall fuel reads past, (length reads < fuel)%nat -> Forall read_fits reads -> Forall healthy reads ->
    exists es, read_loop fuel reads (snd (scan 8176 past)) = Ret (packets_of es, snd (scan 8176 (past ++ stream reads))) /\
      new_events past (stream reads) es).
  { clear. induction fuel as [|fuel IH]; intros reads past L F H; [lia|]. cbn [read_loop].
    destruct (update_eq reads F past) as (es & E). destruct (until_quiet reads) as [[s e] rest] eqn:U. destruct E as [-> N].
    destruct (until_quiet_spec _ _ _ _ U) as (busy & B & -> & M). cbn [bind]. destruct e as [|k|].
    - destruct M as (q & Q & ->). rewrite Forall_app, Forall_cons_iff in F, H. rewrite app_length in L. cbn [length] in L.
      destruct (IH rest (past ++ stream busy)) as (es' & -> & N'); [lia|tauto|tauto|]. cbn [bind].
      assert (Es : stream (busy ++ q :: rest) = stream busy ++ stream rest).
      { rewrite stream_app. f_equal. destruct Q as [-> | ->]; reflexivity. }
      exists (es ++ es'). rewrite packets_app, Es. unfold new_events in *. rewrite !app_assoc. split; [reflexivity|].
      rewrite N', N. now rewrite <- app_assoc.
    - subst reads. rewrite Forall_app, Forall_cons_iff in H. destruct H as (_ & [] & _).
    - destruct M as [-> ->]. exists es. auto. }
  destruct (G (S (length reads)) reads [] ltac:(lia) F H) as (es & E & N). unfold read_device. cbn [app] in E.
  change (snd (scan 8176 [])) with (@nil byte) in E. rewrite E. unfold new_events in N. cbn [app] in N.
  change (fst (scan 8176 [])) with (@nil event) in N. cbn [app] in N. rewrite N. reflexivity.
Qed.
Example device_reads_stream_ex :
  let reads := [TimedOut; Got [x00; xb5]; Got []; Got (dropN 1 ex_ack ++ [xb5]); TimedOut; Got [x62]] in
  Forall read_fits reads /\ Forall healthy reads /\
  read_device reads [] = Ret ([Known p_ack_ack [x06; x00]], [xb5; x62]).
Proof. split; [|split; [|vm_compute; reflexivity]]; repeat constructor; vm_compute; discriminate. Qed.

(** The first error of a read, at any time, ends the program with a panic. *)
Theorem device_error_panics :
  forall reads k, Forall read_fits reads -> In (Failed k) reads -> read_device reads [] = Panic.
Proof.
  intros reads k F I. unfold read_device.
  assert (G : forall fuel reads past, (length reads < fuel)%nat -> Forall read_fits reads -> In (Failed k) reads ->
    read_loop fuel reads (snd (scan 8176 past)) = Panic).
  { clear. induction fuel as [|fuel IH]; intros reads past L F H; [lia|]. cbn [read_loop].
    destruct (update_eq reads F past) as (es & E). destruct (until_quiet reads) as [[s e] rest] eqn:U. destruct E as [-> N].
    destruct (until_quiet_spec _ _ _ _ U) as (busy & B & -> & M). cbn [bind].
    assert (NB : ~ In (Failed k) busy).
    { intros J. rewrite Forall_forall in B. destruct (B _ J) as [_ []]. }
    destruct e as [|k'|].
    - destruct M as (q & Q & ->). rewrite Forall_app, Forall_cons_iff in F. rewrite app_length in L. cbn [length] in L.
      apply in_app_iff in H. destruct H as [H|[->|H]]; [contradiction|destruct Q; discriminate|].
      rewrite (IH rest (past ++ stream busy)); [reflexivity|lia|tauto|exact H].
    - reflexivity.
    - destruct M as [-> ->]. contradiction. }
  exact (G (S (length reads)) reads [] ltac:(lia) F I).
Qed.
Example device_error_panics_ex :
  let reads := [Got ex_ack; TimedOut; Failed 7; Got ex_ack] in
  Forall read_fits reads /\ In (Failed 7) reads /\ read_device reads [] = Panic /\
  read_device [Got ex_ack; TimedOut] [] = Ret ([Known p_ack_ack [x06; x00]], []).
Proof.
  split; [repeat constructor; vm_compute; discriminate|]. split; [do 2 right; left; reflexivity|].
  split; vm_compute; reflexivity.
Qed.

(** The callback of [wait_for_ack] *)
Lemma callback_spec T frames : Forall (fun x => lenN (snd x) <= 8176) frames ->
  forall found, exists b,
    ack_callback T (map (fun x => match x with (c, i, p) => packet_of c i p end) frames) found = Ret b /\
    (b = true <-> found = true \/ In (x05, x01, [p_class T; p_id T]) frames).
Proof.
  induction 1 as [|[[c i] p] frames Hp F IH]; intros found.
  - exists found. split; [reflexivity|]. cbn. tauto.
  - cbn [map ack_callback]. cbn [snd] in Hp.
    pose proof (packet_of_delivers c i p ltac:(lia)) as D.
    assert (K : forall q pl, packet_of c i p = Known q pl -> p_name q = "AckAck"%string -> c = x05 /\ i = x01 /\ lenN p = 2 /\ pl = p).
    { intros q pl E Nm. rewrite E in D. inversion D as [bf q' af E1 Fi NF E2|]. subst q' pl.
      assert (Hq : In q recv_table) by (rewrite E1; apply in_elt).
      assert (q = p_ack_ack) as ->.
      { eapply (nodup_map_inj p_name recv_packets); [exact recv_packets_nodup|apply recv_table_incl; exact Hq|unfold recv_packets; in_list|exact Nm]. }
      destruct Fi as (<- & <- & A). split; [reflexivity|]. split; [reflexivity|]. split; [|reflexivity]. exact (proj1 A). }
    assert (K2 : forall a b, c = x05 -> i = x01 -> p = [a; b] -> packet_of c i p = Known p_ack_ack p).
    { intros a b -> -> ->. apply (delivers_exact x05 x01 [a; b] p_ack_ack); [unfold recv_table; in_list|discriminate|exact D|].
      split; [reflexivity|]. split; [reflexivity|]. apply validate_accepts; [reflexivity|vm_compute; discriminate|vm_compute; reflexivity]. }
    assert (NO : (forall q pl, packet_of c i p = Known q pl -> p_name q <> "AckAck"%string) ->
       exists b, ack_callback T (map (fun x => match x with (c, i, p) => packet_of c i p end) frames) found = Ret b /\
         (b = true <-> found = true \/ In (x05, x01, [p_class T; p_id T]) ((c, i, p) :: frames))).
    { intros NQ. destruct (IH found) as (b & E & Hb). exists b. split; [exact E|]. rewrite Hb. cbn [In]. split; [tauto|].
      intros [H|[H|H]]; auto. injection H as -> -> ->. exfalso. exact (NQ _ _ (K2 _ _ eq_refl eq_refl eq_refl) eq_refl). }
    destruct (packet_of c i p) as [q pl|pl c' i'] eqn:E.
    + destruct (String.eqb (p_name q) "AckAck") eqn:Nm.
      * apply String.eqb_eq in Nm. destruct (K q pl eq_refl Nm) as (-> & -> & L & ->). destruct (two_bytes p L) as (a & b & ->).
        change (AckAck_class [a; b]) with (let! v := get_raw_field (Scalar U8) false 0 [a; b] in Ret v).
        change (AckAck_msg_id [a; b]) with (let! v := get_raw_field (Scalar U8) false 1 [a; b] in Ret v).
        rewrite !byte_getter by lia. cbn [bind N.eqb]. rewrite byte_class, byte_id.
        destruct (IH (if byte_eqb a (p_class T) && byte_eqb b (p_id T) then true else found)) as (r & Er & Hr). exists r. split; [exact Er|].
        rewrite Hr. destruct (byte_eqb a (p_class T)) eqn:Ea; [destruct (byte_eqb b (p_id T)) eqn:Eb|]; cbn [andb In].
        -- apply byte_eqb_eq in Ea, Eb. subst. tauto.
        -- apply byte_eqb_neq in Eb. split; [tauto|]. intros [H|[H|H]]; auto. congruence.
        -- apply byte_eqb_neq in Ea. split; [tauto|]. intros [H|[H|H]]; auto. congruence.
      * apply NO. intros q' pl' E'. injection E' as <- <-. now apply String.eqb_neq in Nm.
    + apply NO. intros q' pl' E'. discriminate E'.
Qed.

Lemma new_frames_bound past s es : new_events past s es -> Forall (fun x => lenN (snd x) <= 8176) (frames_of es).
Proof.
  unfold new_events. intros N. pose proof (scan_trace usize_max 8176 (past ++ s) ltac:(lia)) as Tr. apply trace_woven in Tr. destruct Tr as [_ B].
  rewrite N in B. assert (A : frames_of (fst (scan 8176 past) ++ es) = frames_of (fst (scan 8176 past)) ++ frames_of es).
  { unfold frames_of. now rewrite ?map_app, ?concat_app, ?flat_map_app. }
  rewrite A, Forall_app in B. apply B.
Qed.
Lemma in_frames c i p es : In (c, i, p) (frames_of es) <-> In (EFrame c i p) es.
Proof.
  unfold frames_of. rewrite in_concat. split.
  - intros (x & Hx & H). apply in_map_iff in Hx. destruct Hx as (e & <- & He). destruct e; try (destruct H; fail).
    destruct H as [H|[]]. injection H as -> -> ->. exact He.
  - intros H. exists [(c, i, p)]. split; [|left; reflexivity]. apply in_map_iff. exists (EFrame c i p). auto.
Qed.

(** [wait_for_ack::<T>()] returns at the first quiet read after which an acknowledgement of a [T] has arrived since the
    call, and not before; errors of the port are returned at once; it never panics. *)
Theorem wait_for_ack_exact :
  forall T past reads, Forall read_fits reads ->
    exists e pre rest,
      wait_for_ack T reads (snd (scan 8176 past)) = Ret (e, rest, snd (scan 8176 (past ++ stream pre))) /\
      reads = pre ++ rest /\
      match e with
      | Done => exists before q, pre = before ++ [q] /\ quiet q /\ acknowledged T past (stream before)
      | IoError k => exists before, pre = before ++ [Failed k]
      | Reading => rest = []
      end /\
      (forall before q after, pre = before ++ q :: after -> quiet q -> acknowledged T past (stream before) -> after = [] /\ e = Done) /\
      (forall before k after, pre = before ++ Failed k :: after -> after = [] /\ e = IoError k).
Proof.
  intros T. unfold wait_for_ack.
  assert (G : forall fuel reads past, (length reads < fuel)%nat -> Forall read_fits reads ->
    exists e pre rest,
      wait_loop fuel T reads (snd (scan 8176 past)) = Ret (e, rest, snd (scan 8176 (past ++ stream pre))) /\
      reads = pre ++ rest /\
      match e with
      | Done => exists before q, pre = before ++ [q] /\ quiet q /\ acknowledged T past (stream before)
      | IoError k => exists before, pre = before ++ [Failed k]
      | Reading => rest = []
      end /\
      (forall before q after, pre = before ++ q :: after -> quiet q -> acknowledged T past (stream before) -> after = [] /\ e = Done) /\
      (forall before k after, pre = before ++ Failed k :: after -> after = [] /\ e = IoError k)).
  2:{ intros past reads F. exact (G _ reads past (Nat.lt_succ_diag_r _) F). }
  induction fuel as [|fuel IH]; intros reads past L F; [lia|]. cbn [wait_loop].
  destruct (update_eq reads F past) as (es & E). destruct (until_quiet reads) as [[s e] rest] eqn:U. destruct E as [-> N].
  destruct (until_quiet_spec _ _ _ _ U) as (busy & B & -> & M). cbn [bind].
  assert (BQ : forall before q after, busy = before ++ q :: after -> ~ quiet q /\ healthy q).
  { intros before q after ->. rewrite Forall_app, Forall_cons_iff in B. tauto. }
  (* an element of [busy ++ [x]] that is quiet or failed is [x] *)
  assert (SP : forall x before q after, busy ++ [x] = before ++ q :: after -> quiet q \/ ~ healthy q -> after = [] /\ before = busy /\ q = x).
  { intros x before q after Eq Hq. destruct after as [|a after _] using rev_ind.
    - apply app_inj_tail in Eq. destruct Eq. auto.
    - exfalso. rewrite app_comm_cons, app_assoc in Eq. apply app_inj_tail in Eq. destruct Eq as [Eq _]. destruct (BQ _ _ _ Eq). tauto. }
  destruct e as [|k|].
  - destruct M as (q & Q & ->).
    destruct (callback_spec T (frames_of es) (new_frames_bound _ _ _ N) false) as (found & Ef & Hf).
    rewrite <- (oks_outcome packet_of es) in Ef. fold (packets_of es) in Ef. rewrite Ef. cbn [bind].
    assert (A : acknowledged T past (stream busy) <-> found = true).
    { rewrite Hf, in_frames. unfold acknowledged. split.
      - intros (es' & N' & Hi). right. unfold new_events in *. rewrite N in N'. apply app_inv_head in N'. now subst es'.
      - intros [H|H]; [discriminate|]. eauto. }
    assert (Sq : forall past, past ++ stream (busy ++ [q]) = past ++ stream busy).
    { intros w. rewrite stream_app. destruct Q as [-> | ->]; cbn; now rewrite app_nil_r. }
    destruct found.
    + exists Done, (busy ++ [q]), rest. rewrite Sq. split; [reflexivity|]. split; [now rewrite <- app_assoc|]. split; [|split].
      * exists busy, q. split; [reflexivity|]. split; [exact Q|]. now apply A.
      * intros before q' after Eq Hq _. destruct (SP _ _ _ _ Eq (or_introl Hq)) as [-> _]. auto.
      * intros before k after Eq. exfalso. destruct (SP _ _ _ _ Eq) as (_ & _ & <-); [right; intros []|]. destruct Q as [Q|Q]; discriminate Q.
    + rewrite Forall_app, Forall_cons_iff in F. rewrite app_length in L. cbn [length] in L.
      destruct (IH rest (past ++ stream busy)) as (e & pre & rest' & -> & -> & M & H1 & H2); [lia|tauto|].
      assert (NA : ~ acknowledged T past (stream busy)) by (rewrite A; discriminate).
      assert (AC : forall s, acknowledged T (past ++ stream busy) s <-> acknowledged T past (stream busy ++ s)).
      { intros s. unfold acknowledged, new_events in *. rewrite app_assoc. split.
        - intros (es' & N' & Hi). exists (es ++ es'). rewrite N', N, <- app_assoc. split; [reflexivity|]. apply in_or_app. auto.
        - intros (es' & N' & Hi). rewrite (scan_app 8176 (past ++ stream busy) s) in N'. cbn [fst] in N'. rewrite N, <- app_assoc in N'.
          apply app_inv_head in N'. subst es'. eexists. split; [rewrite (scan_app 8176 (past ++ stream busy) s); reflexivity|].
          apply in_app_or in Hi. destruct Hi as [Hi|Hi]; [|exact Hi]. exfalso. apply NA. eauto. }
      assert (SS : forall w, stream (busy ++ q :: w) = stream busy ++ stream w).
      { intros w. rewrite stream_app. f_equal. destruct Q as [-> | ->]; reflexivity. }
      exists e, (busy ++ q :: pre), rest'. rewrite SS, app_assoc. split; [reflexivity|]. split; [now rewrite <- app_assoc|].
      (* where an element of [busy ++ q :: pre] that is quiet or failed can be *)
      assert (SP2 : forall before x after, busy ++ q :: pre = before ++ x :: after -> quiet x \/ ~ healthy x ->
                before = busy /\ x = q /\ after = pre \/ exists b2, before = busy ++ q :: b2 /\ pre = b2 ++ x :: after).
      { clear - BQ. revert BQ. induction busy as [|y busy IHb]; intros BQ before x after Eq Hx.
        - destruct before as [|b before]; cbn [app] in Eq; injection Eq as <- Eq; [left; auto|]. right. exists before. split; [reflexivity|exact Eq].
        - destruct before as [|b before]; cbn [app] in Eq; injection Eq as -> Eq.
          + exfalso. destruct (BQ [] x busy eq_refl). tauto.
          + destruct (IHb (fun b2 x2 a2 E2 => BQ (b :: b2) x2 a2 (f_equal (cons b) E2)) before x after Eq Hx) as [(-> & -> & ->)|(b2 & -> & ->)].
            * left. auto.
            * right. exists b2. auto. }
      split; [|split].
      * destruct e as [|k|]; [|destruct M as (before & ->); exists (busy ++ q :: before); now rewrite <- app_assoc|exact M].
        destruct M as (before & q' & -> & Q' & A'). exists (busy ++ q :: before), q'. split; [now rewrite <- app_assoc|]. split; [exact Q'|].
        rewrite SS. now apply AC.
      * intros before q' after Eq Hq Ha. destruct (SP2 _ _ _ Eq (or_introl Hq)) as [(-> & -> & ->)|(b2 & -> & Ep)]; [tauto|].
        apply (H1 b2 q' after Ep Hq). apply AC. now rewrite <- SS.
      * intros before k after Eq. destruct (SP2 _ _ _ Eq) as [(-> & <- & ->)|(b2 & -> & Ep)]; [right; intros []|destruct Q as [Q|Q]; discriminate Q|].
        exact (H2 b2 k after Ep).
  - subst reads. assert (Sq : forall past, past ++ stream (busy ++ [Failed k]) = past ++ stream busy).
    { intros w. rewrite stream_app. cbn. now rewrite app_nil_r. }
    exists (IoError k), (busy ++ [Failed k]), rest. rewrite Sq. split; [reflexivity|]. split; [now rewrite <- app_assoc|]. split; [eauto|split].
    + intros before q' after Eq Hq _. exfalso. destruct (SP _ _ _ _ Eq (or_introl Hq)) as (_ & _ & ->). destruct Hq as [Hq|Hq]; discriminate Hq.
    + intros before k' after Eq. destruct (SP _ _ _ _ Eq) as (-> & _ & H); [right; intros []|]. injection H as ->. auto.
  - destruct M as [-> ->]. exists Reading, busy, []. split; [reflexivity|]. split; [now rewrite app_nil_r|]. split; [reflexivity|split].
    + intros before q after Eq Hq _. destruct (BQ _ _ _ Eq). tauto.
    + intros before k after Eq. destruct (BQ _ _ _ Eq) as [_ []].
Qed.
Example wait_for_ack_ex :
  let nak := frame x05 x00 [x06; x00] in
  let reads := [TimedOut; Got (nak ++ [xb5]); Got []; Got (dropN 1 ex_ack ++ [x24]); TimedOut; Got [x62]] in
  Forall read_fits reads /\
  wait_for_ack p_cfg_prt_uart reads [] = Ret (Done, [Got [x62]], []) /\
  wait_for_ack p_cfg_rst reads [] = Ret (Reading, [], []) /\
  wait_for_ack p_cfg_rst (reads ++ [Failed 7]) [] = Ret (IoError 7, [], []).
Proof. split; [repeat constructor; vm_compute; discriminate|]. vm_compute. repeat split. Qed.

(** ** C53: the options *)

Definition the_args (stop data : string) (par : option string) (baud : Z) : cfg_args :=
  mk_cfg_args "uart1" baud stop data par true false false false true false false.

Lemma prt_frame (portid : string * N) mode baud i o :
  In portid [("Usb", 3); ("Uart1", 1); ("Uart2", 2)]%string -> (0 <= baud <= 4294967295)%Z -> i < 65536 -> o < 65536 ->
  into_packet_bytes p_cfg_prt_uart (portid, (0%Z, (0%Z, (mode, (baud, (i, (o, (0%Z, (0%Z, tt))))))))) =
    Ret (frame x06 x00 (prt_payload (snd portid) (uart_mode_into_raw mode) i o baud)).
Proof.
  intros Hp Hb Hi Ho.
  destruct (builder_emits_frame p_cfg_prt_uart (portid, (0%Z, (0%Z, (mode, (baud, (i, (o, (0%Z, (0%Z, tt))))))))) 20
    [int_bytes 1 (Z.of_N (snd portid)); int_bytes 1 0; int_bytes 2 0; int_bytes 4 (Z.of_N (uart_mode_into_raw mode)); int_bytes 4 baud;
     int_bytes 2 (Z.of_N i); int_bytes 2 (Z.of_N o); int_bytes 2 0; int_bytes 2 0]) as [E _].
  - unfold send_packets; in_list.
  - reflexivity.
  - cbn [p_cfg_prt_uart p_fields builder_ok fst snd]. 
    split. { destruct Hp as [<-|[<-|[<-|[]]]]; (unfold fvalue_ok; cbn; tauto). }
    split; [change (0 <= 0 <= 255)%Z; lia|]. split; [change (0 <= 0 <= 65535)%Z; lia|]. split; [exact I|].
    split; [exact Hb|]. split; [exact Hi|]. split; [exact Ho|]. split; [change (0 <= 0 <= 65535)%Z; lia|]. split; [change (0 <= 0 <= 65535)%Z; lia|exact I].
  - reflexivity.
  - rewrite E. cbn [p_class p_id p_cfg_prt_uart]. do 2 f_equal. unfold prt_payload. cbn [concat].
    assert (Ep : int_bytes 1 (Z.of_N (snd portid)) = [n2b (snd portid)]) by (destruct Hp as [<-|[<-|[<-|[]]]]; reflexivity).
    rewrite Ep, app_nil_r. reflexivity.
Qed.
Lemma mode_word st da pa : In st ["1"; "2"]%string -> In da ["7"; "8"]%string -> pa = None \/ pa = Some "even"%string \/ pa = Some "odd"%string ->
  exists d, cli_data_bits da = Go d /\
  uart_mode_into_raw (mk_uart_mode (ublox_databits d) (ublox_parity (cli_parity pa)) (ublox_stopbits (cli_stop_bits st))) =
  2 ^ 6 * data_code da +
  2 ^ 9 * parity_code_of (match pa with Some x => Some (if String.eqb x "odd" then "even" else "odd")%string | None => None end) +
  2 ^ 12 * stop_code st.
Proof. intros [<-|[<-|[]]] [<-|[<-|[]]] [->|[->| ->]]; eexists; (split; [reflexivity|vm_compute; reflexivity]). Qed.

(** For all admitted options, the frame written carries the port, data bits, stop bits and protocols asked for - with odd and even
    parity exchanged, and always 9600 baud.  Nothing is written for an unknown port; the program ends without writing
    when RTCM and RTCM3 are both asked for. *)
Theorem configure_writes :
  forall a, admitted a ->
    configure a =
      if a_in_rtcm a && a_in_rtcm3 a then Exit else
      Go (match port_code (a_select a) with
          | None => None
          | Some port =>
              let swapped := match a_parity a with Some x => Some (if String.eqb x "odd" then "even" else "odd")%string | None => None end in
              Some (Ret (frame x06 x00 (prt_payload port
                (2 ^ 6 * data_code (a_data_bits a) + 2 ^ 9 * parity_code_of swapped + 2 ^ 12 * stop_code (a_stop_bits a))
                (in_mask a) (out_mask a) 9600)))
          end).
Proof.
  intros a (H1 & H2 & H3 & H4). unfold configure. destruct (mode_word _ _ _ H1 H2 H3) as (d & -> & W).
  assert (I : cli_inproto a = if a_in_rtcm a && a_in_rtcm3 a then Exit else Go (in_mask a)).
  { unfold cli_inproto, in_mask. destruct (a_in_ublox a), (a_in_nmea a), (a_in_rtcm a), (a_in_rtcm3 a); reflexivity. }
  assert (O : cli_outproto a = out_mask a).
  { unfold cli_outproto, out_mask. destruct (a_out_ublox a), (a_out_nmea a), (a_out_rtcm3 a); reflexivity. }
  assert (Bi : in_mask a < 65536).
  { unfold in_mask. destruct (a_in_ublox a), (a_in_nmea a), (a_in_rtcm a), (a_in_rtcm3 a); reflexivity. }
  assert (Bo : out_mask a < 65536).
  { unfold out_mask. destruct (a_out_ublox a), (a_out_nmea a), (a_out_rtcm3 a); reflexivity. }
  rewrite I, O. destruct (a_in_rtcm a && a_in_rtcm3 a); [reflexivity|]. f_equal. cbn zeta. rewrite <- W. clear W.
  assert (F : forall portid, In portid [("Usb", 3); ("Uart1", 1); ("Uart2", 2)]%string ->
    into_packet_bytes p_cfg_prt_uart (portid, (0%Z, (0%Z, (mk_uart_mode (ublox_databits d) (ublox_parity (cli_parity (a_parity a)))
      (ublox_stopbits (cli_stop_bits (a_stop_bits a))), (cli_baud a, (in_mask a, (out_mask a, (0%Z, (0%Z, tt))))))))) =
    Ret (frame x06 x00 (prt_payload (snd portid) (uart_mode_into_raw (mk_uart_mode (ublox_databits d) (ublox_parity (cli_parity (a_parity a)))
      (ublox_stopbits (cli_stop_bits (a_stop_bits a))))) (in_mask a) (out_mask a) 9600))).
  { intros portid Hp. unfold cli_baud. apply prt_frame; [exact Hp|lia|exact Bi|exact Bo]. }
  unfold cli_port, port_code. destruct (String.eqb (a_select a) "usb") eqn:E1.
  { apply String.eqb_eq in E1. rewrite E1, F by (cbn; auto). reflexivity. }
  destruct (String.eqb (a_select a) "uart1") eqn:E2; [rewrite F by (cbn; auto); reflexivity|].
  destruct (String.eqb (a_select a) "uart2") eqn:E3; [rewrite F by (cbn; auto)|]; reflexivity.
Qed.
Example configure_writes_ex :
  admitted (the_args "2" "7" (Some "odd"%string) 115200) /\
  configure (the_args "2" "7" (Some "odd"%string) 115200) =
    Go (Some (Ret (frame x06 x00 (prt_payload 1 (2 ^ 6 * 2 + 2 ^ 9 * 0 + 2 ^ 12 * 2) 1 1 9600)))).
Proof.
  split; [|vm_compute; reflexivity]. unfold admitted. cbn [the_args a_stop_bits a_data_bits a_parity a_baud In].
  split; [auto|]. split; [auto|]. split; [auto|]. lia.
Qed.

(** What the user should get: the frame with the parity and the baud rate of the options. *)
Definition asked_for (a : cfg_args) (port : N) : list byte :=
  frame x06 x00 (prt_payload port
    (2 ^ 6 * data_code (a_data_bits a) + 2 ^ 9 * parity_code_of (a_parity a) + 2 ^ 12 * stop_code (a_stop_bits a))
    (in_mask a) (out_mask a) (a_baud a)).

(** This is what happens exactly if no parity is asked for and the baud rate asked for is 9600. *)
Theorem configure_asked_for :
  forall a port, admitted a -> a_in_rtcm a && a_in_rtcm3 a = false -> port_code (a_select a) = Some port ->
    (configure a = Go (Some (Ret (asked_for a port))) <-> a_parity a = None /\ a_baud a = 9600%Z).
Proof.
  intros a port Ad R P. rewrite (configure_writes a Ad), R, P. unfold asked_for. split.
  2:{ intros [-> ->]. reflexivity. }
  intros H. apply (f_equal (fun r => match r with Go (Some (Ret x)) => x | _ => [] end)) in H. cbn iota beta in H.
  assert (L1 : forall m i o b, takeN 4 (dropN 10 (frame x06 x00 (prt_payload port m i o b))) = int_bytes 4 (Z.of_N m)) by (intros; reflexivity).
  assert (L2 : forall m i o b, takeN 4 (dropN 14 (frame x06 x00 (prt_payload port m i o b))) = int_bytes 4 b) by (intros; reflexivity).
  pose proof (f_equal (fun w => takeN 4 (dropN 10 w)) H) as Hm. pose proof (f_equal (fun w => takeN 4 (dropN 14 w)) H) as Hb. cbv beta in Hm, Hb.
  rewrite !L1 in Hm. rewrite !L2 in Hb. clear L1 L2 H. destruct Ad as (A1 & A2 & A3 & A4). split.
  - destruct A3 as [E|[E|E]]; [exact E| |]; exfalso; rewrite E in Hm; clear - Hm A1 A2; destruct A1 as [H1|[H1|[]]], A2 as [H2|[H2|[]]]; rewrite <- H1, <- H2 in Hm; vm_compute in Hm; discriminate Hm.
  - apply (f_equal unsigned_of) in Hb. rewrite !unsigned_of_int_bytes in Hb by (change (2 ^ (8 * Z.of_N 4))%Z with 4294967296%Z; lia). lia.
Qed.

(** Violations: odd parity is asked for and even parity is configured; 115200 baud are asked for and 9600 are configured. *)
Theorem configure_parity_refuted :
  ~ (forall a port, admitted a -> a_baud a = 9600%Z -> a_in_rtcm a && a_in_rtcm3 a = false -> port_code (a_select a) = Some port ->
       configure a = Go (Some (Ret (asked_for a port)))).
Proof.
  intros H. set (a := the_args "1" "8" (Some "odd"%string) 9600).
  assert (Ad : admitted a). { unfold admitted. cbn [a the_args a_stop_bits a_data_bits a_parity a_baud In]. split; [auto|]. split; [auto|]. split; [auto|]. lia. }
  specialize (H a 1 Ad eq_refl eq_refl eq_refl). apply (configure_asked_for a 1 Ad eq_refl eq_refl) in H. destruct H as [H _]. discriminate H.
Qed.
Theorem configure_baud_refuted :
  ~ (forall a port, admitted a -> a_parity a = None -> a_in_rtcm a && a_in_rtcm3 a = false -> port_code (a_select a) = Some port ->
       configure a = Go (Some (Ret (asked_for a port)))).
Proof.
  intros H. set (a := the_args "1" "8" None 115200).
  assert (Ad : admitted a). { unfold admitted. cbn [a the_args a_stop_bits a_data_bits a_parity a_baud In]. split; [auto|]. split; [auto|]. split; [auto|]. lia. }
  specialize (H a 1 Ad eq_refl eq_refl eq_refl). apply (configure_asked_for a 1 Ad eq_refl eq_refl) in H. destruct H as [_ H]. discriminate H.
Qed.

(** The serial port itself is opened with the data and stop bits asked for, and with odd and even parity exchanged. *)
Theorem open_settings_exchange_parity :
  forall stop data par, In stop ["1"; "2"]%string -> In data ["7"; "8"]%string ->
    In par [None; Some "even"; Some "odd"]%string ->
    open_settings stop data par =
      Go (if String.eqb stop "1" then SerialOne else SerialTwo,
          if String.eqb data "7" then SerialSeven else SerialEight,
          match par with None => SerialNone | Some x => if String.eqb x "odd" then SerialEven else SerialOdd end).
Proof.
  intros stop data par [<-|[<-|[]]] [<-|[<-|[]]] [<-|[<-|[<-|[]]]]; reflexivity.
Qed.
Example open_settings_ex : open_settings "1" "8" (Some "even"%string) = Go (SerialOne, SerialEight, SerialOdd).
Proof. reflexivity. Qed.

Print Assumptions update_delivers.
Print Assumptions device_reads_stream.
Print Assumptions device_error_panics.
Print Assumptions wait_for_ack_exact.
Print Assumptions configure_writes.
Print Assumptions configure_asked_for.
Print Assumptions configure_parity_refuted.
Print Assumptions configure_baud_refuted.
Print Assumptions open_settings_exchange_parity.
