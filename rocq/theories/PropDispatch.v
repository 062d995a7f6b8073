(** * Properties of dispatch, validators and getters of the library's packets (C08, C24, C25, C27-C30, C37, C38) *)
From Coq Require Import String List NArith ZArith Bool Lia ZifyBool ZifyNat ZifyN.
From Verif Require Import Base BaseFacts Buffers Checksum DualBuffer Parser PackDesc GenRecv GenSend Dispatch Enums Floats Bits Utf8
  Iterators CfgVal TableTypes TablePackets SpecBuffer SpecFrame SpecParser SpecPacket SpecDispatch ProofSend ProofRecv ProofTable
  ProofDispatch PropParser PropPackets.
Import ListNotations.
Open Scope N_scope.
Open Scope list_scope.

(** The library's parser over [Vec<u8>]: [consume] with each chunk in turn, each time until the iterator is
    exhausted *)
Definition parse_chunks (cs : list (list byte)) : res (list (result packet_ref) * list byte) :=
  feed_all vec_ops (match_packet recv_table) (parser_max_payload_len recv_table) [] cs.
(** Chunks of possible size *)
Definition fit (cs : list (list byte)) : Prop := Forall (fun c => lenN c <= 2 ^ 62) cs.

Lemma fit_chunks cs : fit cs -> chunks_fit 8176 cs.
Proof.
  unfold fit. rewrite Forall_forall. intros H c Hc. specialize (H c Hc). unfold isize_max.
  change (2 ^ 62) with 4611686018427387904 in H. lia.
Qed.

Lemma delivers_class table c i payload r : delivers table c i payload r ->
  class_and_msg_id r = (c, i) /\ ref_payload r = payload.
Proof. intros D. destruct D as [b p a E (Hc & Hi & A) Fb|Fn]; cbn; [rewrite Hc, Hi|]; auto. Qed.

(** ** C28 *)

(** For every class, id and payload (of a length that can be announced in a frame) dispatch returns, the answer is the
    first type of the table which fits or [Unknown], and class, id and payload are those on the wire. *)
Theorem dispatch_total :
  forall class id payload, lenN payload <= 65535 ->
    exists r, match_packet recv_table class id payload = Ret (Ok r) /\
      delivers recv_table class id payload r /\
      class_and_msg_id r = (class, id) /\ ref_payload r = payload.
Proof.
  intros c i payload Hl. destruct (match_packet_spec recv_table c i payload recv_table_ok Hl) as (r & E & D).
  exists r. split; [exact E|]. split; [exact D|]. exact (delivers_class _ _ _ _ _ D).
Qed.

(** The order of the table does not matter: each type except [MgaGpsEPH] is delivered exactly for the payloads that
    fit it.  ([MgaGpsEPH] has the class, id and length of [MgaGpsEph] before it.) *)
Theorem dispatch_exact :
  forall class id payload p r, lenN payload <= 65535 -> In p recv_table -> p_name p <> "MgaGpsEPH"%string ->
    match_packet recv_table class id payload = Ret (Ok r) ->
    (r = Known p payload <-> p_class p = class /\ p_id p = id /\ accepts p payload).
Proof.
  intros c i payload p r Hl Hp Np E. destruct (match_packet_spec recv_table c i payload recv_table_ok Hl) as (r' & E' & D).
  assert (r' = r) by congruence. subst r'. exact (delivers_exact _ _ _ _ _ Hp Np D).
Qed.
Example dispatch_exact_ex :
  In p_ack_ack recv_table /\ p_name p_ack_ack <> "MgaGpsEPH"%string /\
  match_packet recv_table x05 x01 [x06; x08] = Ret (Ok (Known p_ack_ack [x06; x08])) /\
  match_packet recv_table x05 x01 [x06; x08; x00] = Ret (Ok (Unknown [x06; x08; x00] x05 x01)) /\
  match_packet recv_table x05 x02 [x06; x08] = Ret (Ok (Unknown [x06; x08] x05 x02)).
Proof.
  split; [unfold recv_table; in_list|]. split; [discriminate|]. repeat split; reflexivity.
Qed.

(** [Unknown] is exactly for what fits no type. *)
Theorem dispatch_unknown :
  forall class id payload r, lenN payload <= 65535 ->
    match_packet recv_table class id payload = Ret (Ok r) ->
    (r = Unknown payload class id <-> forall p, In p recv_table -> ~ (p_class p = class /\ p_id p = id /\ accepts p payload)).
Proof.
  intros c i payload r Hl E. destruct (match_packet_spec recv_table c i payload recv_table_ok Hl) as (r' & E' & D).
  assert (r' = r) by congruence. subst r'. clear E E'. destruct D as [b p a Et F Fb|Fn]; split; intros H.
  - discriminate.
  - exfalso. apply (H p); [|exact F]. rewrite Et. apply in_app_iff. right. left. reflexivity.
  - rewrite Forall_forall in Fn. exact Fn.
  - reflexivity.
Qed.

(** ** C08, the part about payloads *)

(** A frame with a valid checksum is always delivered as a packet: a payload that no validator accepts as [Unknown]. *)
Theorem every_frame_is_delivered :
  forall frames cs,
    Forall (fun x => lenN (snd x) <= 8176) frames -> fit cs ->
    concat cs = concat (map (fun x => match x with (c, i, p) => frame c i p end) frames) ->
    exists packets, parse_chunks cs = Ret (map Ok packets, []) /\
      Forall2 (fun x r => match x with (c, i, p) => delivers recv_table c i p r end) frames packets.
Proof.
  intros frames cs Hf Hc E. unfold parse_chunks. rewrite recv_max.
  assert (Hm : 8176 <= 65535) by lia.
  pose proof (clean_stream_complete _ _ _ _ frames cs Hm recv_dispatches (fit_chunks _ Hc) Hf E) as R.
  exists (map (fun x => match x with (c, i, p) => packet_of c i p end) frames). split.
  - rewrite R. f_equal. f_equal. rewrite map_map. apply map_ext. intros ((c & i) & p). reflexivity.
  - clear E R. induction Hf as [|((c & i) & p) frames Hp Hf IH]; cbn [map]; constructor; [|exact IH].
    apply packet_of_delivers. cbn in Hp. lia.
Qed.
Example every_frame_is_delivered_ex :
  fit [frame x05 x01 [x06; x08]; frame x05 x01 [x06]] /\
  parse_chunks [frame x05 x01 [x06; x08]; frame x05 x01 [x06]] =
    Ret ([Ok (Known p_ack_ack [x06; x08]); Ok (Unknown [x06] x05 x01)], []).
Proof. split; [|vm_compute; reflexivity]. unfold fit. repeat (apply Forall_cons; [vm_compute; discriminate|]). constructor. Qed.

(** The errors of the library's parser, for any buffer that keeps the buffer contract and any history of
    calls. *)
Theorem library_error_surface :
  forall (T : Type) (ops : buf_ops T) cap inv contents,
    Lawful ops cap inv contents -> cap <= usize_max ->
    forall parser h, inv parser -> history_fits cap (contents parser) h ->
    exists answers parser',
      run_history ops (match_packet recv_table) (parser_max_payload_len recv_table) parser h = Ret (answers, parser') /\
      forall e, In (Err e) (somes (concat answers)) ->
        (exists expect got, e = InvalidChecksum expect got) \/ (exists n, e = OutOfMemory n).
Proof.
  intros T ops cap inv contents L Hc parser h I Hh. rewrite recv_max.
  assert (Hm : 8176 <= 65535) by lia.
  exact (error_surface T ops cap inv contents _ _ 8176 _ L Hc Hm recv_dispatches parser h I Hh).
Qed.

(** The library's parser is the reference scanner followed by dispatch. *)
Theorem library_parser_is_scanner :
  forall cs, fit cs ->
    exists packet,
      (forall c i p, lenN p <= 65535 -> delivers recv_table c i p (packet c i p)) /\
      parse_chunks cs =
        Ret (map (outcome packet) (fst (scan 8176 (concat cs))), snd (scan 8176 (concat cs))).
Proof.
  intros cs Hc. exists packet_of. split; [intros; now apply packet_of_delivers|].
  unfold parse_chunks. rewrite recv_max. apply parser_is_scanner; [lia|exact recv_dispatches|apply fit_chunks; exact Hc].
Qed.

(** ** C24, C38 *)

(** A packet type with values for its builder *)
Definition built : Type := {p : pack_desc & builder (p_fields p)}.

Lemma send_fixed p n : In p send_packets -> p_len p = Fixed n ->
  packet_payload_size p = Some n /\ n <= 65535 /\ p_name p <> "MgaGpsEPH"%string /\ n <= 8176.
Proof.
  intros Hp Hl.
  assert (A : forallb (fun p => accepted p && negb (String.eqb (p_name p) "MgaGpsEPH") && (max_payload_len p <=? 8176)) send_packets = true)
    by (vm_compute; reflexivity).
  rewrite forallb_forall in A. specialize (A p Hp).
  apply andb_true_iff in A. destruct A as [A A5]. apply andb_true_iff in A. destruct A as [A A4].
  unfold accepted in A.
  apply andb_true_iff in A. destruct A as [A A3]. apply andb_true_iff in A. destruct A as [_ A2].
  unfold length_matches, length_is_u16, max_payload_len in *. rewrite Hl in *.
  destruct (packet_payload_size p) as [m|]; [|discriminate]. apply N.eqb_eq in A2. subst m.
  split; [reflexivity|]. split; [lia|]. split; [|lia].
  apply negb_true_iff in A4. now apply String.eqb_neq in A4.
Qed.

Lemma built_frame p b bytes n : In p send_packets -> p_len p = Fixed n -> builder_ok (p_fields p) b ->
  into_packet_bytes p b = Ret bytes ->
  exists ws, wire_fields (p_fields p) b = Ret ws /\ bytes = frame (p_class p) (p_id p) (concat ws) /\ lenN (concat ws) = n /\
             reads_back (concat ws) (getters p) (p_fields p) b.
Proof.
  intros Hp Hl B Eb. destruct (send_fixed p n Hp Hl) as (S & Hn & _).
  pose proof send_typed as T. rewrite Forall_forall in T. specialize (T p Hp).
  rewrite (into_packet_bytes_spec p b n T B S Hn) in Eb.
  destruct (wire_fields (p_fields p) b) as [ws| |] eqn:Ew; cbn [ret_map bind] in Eb; try discriminate. injection Eb as <-.
  exists ws. split; [reflexivity|]. split; [reflexivity|]. split; [exact (proj2 (wire_fields_len _ _ _ _ T B S Ew))|].
  apply (reads_back_gen (p_fields p) b n ws 0 []); auto.
Qed.

(** Any sequence of packets made by the builders of types that are also in the receive table, sent one after the
    other and received in any chunks, is delivered as that sequence of types, and each getter returns the value given to
    the builder (after the conversion to the raw type and back). *)
Theorem build_parse_read :
  forall (sent : list built) wires cs,
    Forall (fun x => In (projT1 x) recv_table /\ In (projT1 x) send_packets /\
                     builder_ok (p_fields (projT1 x)) (projT2 x)) sent ->
    Forall2 (fun x bytes => into_packet_bytes (projT1 x) (projT2 x) = Ret bytes) sent wires ->
    fit cs -> concat cs = concat wires ->
    exists packets, parse_chunks cs = Ret (map Ok packets, []) /\
      Forall2 (fun x r => exists payload, r = Known (projT1 x) payload /\
                 reads_back payload (getters (projT1 x)) (p_fields (projT1 x)) (projT2 x)) sent packets.
Proof.
  intros sent wires cs Hs Hw Hc E.
  assert (exists frames,
            concat wires = concat (map (fun x => match x with (c, i, p) => frame c i p end) frames) /\
            Forall (fun x => lenN (snd x) <= 8176) frames /\
            Forall2 (fun (x : built) fr => match fr with (c, i, p) =>
                       fits (projT1 x) c i p /\ reads_back p (getters (projT1 x)) (p_fields (projT1 x)) (projT2 x) end) sent frames)
    as (frames & Ef & Hf & HF).
  { clear E Hc cs. induction Hw as [|[p b] bytes sent wires Hx Hw IH].
    - exists []. repeat split; constructor.
    - apply Forall_cons_iff in Hs. destruct Hs as [(H1 & H2 & H3) Hs]. cbn [projT1 projT2] in *.
      destruct (IH Hs) as (frames & Ef & Hf & HF). clear IH.
      assert (exists n, p_len p = Fixed n) as (n & Hl).
      { assert (A : forallb (fun p => match p_len p with Fixed _ => true | Max _ =>
                      negb (existsb (fun q => String.eqb (p_name p) (p_name q)) recv_table) end) send_packets = true) by (vm_compute; reflexivity).
        rewrite forallb_forall in A. specialize (A p H2). destruct (p_len p) as [n|]; [eauto|].
        apply negb_true_iff in A. assert (existsb (fun q => String.eqb (p_name p) (p_name q)) recv_table = true); [|congruence].
        apply existsb_exists. exists p. split; [assumption|apply String.eqb_refl]. }
      destruct (send_fixed p n H2 Hl) as (S & Hn & _ & Hmx).
      destruct (built_frame p b bytes n H2 Hl H3 Hx) as (ws & Ew & -> & Ll & RB).
      exists ((p_class p, p_id p, concat ws) :: frames). cbn [map concat]. rewrite Ef. split; [reflexivity|].
      split; [constructor; [cbn [snd]; lia|exact Hf]|]. constructor; [|exact HF].
      split; [|exact RB]. split; [reflexivity|]. split; [reflexivity|].
      pose proof send_typed as T. rewrite Forall_forall in T.
      pose proof send_out_valid as V. rewrite Forall_forall in V.
      pose proof recv_layout as L. rewrite forallb_forall in L.
      apply (built_accepted p b n ws); auto. apply L. apply recv_table_incl. exact H1. }
  rewrite Ef in E. destruct (every_frame_is_delivered frames cs Hf Hc E) as (packets & Ep & HD).
  exists packets. split; [exact Ep|]. clear - Hs HF HD.
  revert packets HD. induction HF as [|x fr sent frames Hx HF IH]; intros packets HD; inversion HD; subst; constructor.
  - apply Forall_cons_iff in Hs. destruct Hs as [(R1 & R2 & _) _]. destruct fr as ((c & i) & p). destruct Hx as [F RB].
    exists p. split; [|exact RB]. apply (delivers_exact c i p (projT1 x) y R1); auto.
    assert (A : forallb (fun p => negb (String.eqb (p_name p) "MgaGpsEPH")) send_packets = true) by (vm_compute; reflexivity).
    rewrite forallb_forall in A. specialize (A _ R2). apply negb_true_iff in A. now apply String.eqb_neq in A.
  - apply Forall_cons_iff in Hs. apply IH; tauto.
Qed.

Definition ex_spi : builder (p_fields p_cfg_prt_spi) :=
  (("Spi"%string, 4), (0%Z, (0%Z, (0x132%Z, (0%Z, (1, (3, (0%Z, (0%Z, tt))))))))).
Example build_parse_read_ex :
  let sent : list built := [existT _ p_cfg_prt_uart ex_uart; existT _ p_cfg_prt_spi ex_spi] in
  Forall (fun x => In (projT1 x) recv_table /\ In (projT1 x) send_packets /\ builder_ok (p_fields (projT1 x)) (projT2 x)) sent /\
  exists w1 w2, into_packet_bytes p_cfg_prt_uart ex_uart = Ret w1 /\ into_packet_bytes p_cfg_prt_spi ex_spi = Ret w2 /\
    concat [w1 ++ takeN 7 w2; dropN 7 w2] = concat [w1; w2] /\
    match parse_chunks [w1 ++ takeN 7 w2; dropN 7 w2] with
    | Ret ([Ok (Known p q); Ok (Known p' q')], []) =>
        p_name p = "CfgPrtUart"%string /\ q = takeN 20 (dropN 6 w1) /\ p_name p' = "CfgPrtSpi"%string /\ q' = takeN 20 (dropN 6 w2)
    | _ => False
    end.
Proof.
  split.
  - apply Forall_cons; [|apply Forall_cons; [|apply Forall_nil]]; cbn [projT1 projT2].
    + split; [unfold recv_table; in_list|]. split; [unfold send_packets; in_list|exact ex_uart_ok].
    + split; [unfold recv_table; in_list|]. split; [unfold send_packets; in_list|].
      vm_compute. repeat split; try discriminate. left. reflexivity.
  - eexists _, _. split; [vm_compute; reflexivity|]. split; [vm_compute; reflexivity|].
    split; [vm_compute; reflexivity|]. vm_compute. repeat split.
Qed.

(** Violation of "declared receive-and-send": two such types are missing from the receive table, what their builders make
    comes back as [Unknown]. *)
Theorem receive_and_send_missing_refuted :
  forall p (b : builder (p_fields p)) bytes cs,
    p = p_cfg_inf \/ p = p_cfg_nav_x5 ->
    builder_ok (p_fields p) b -> into_packet_bytes p b = Ret bytes -> fit cs -> concat cs = bytes ->
    In p recv_packets /\ In p send_packets /\
    exists payload, parse_chunks cs = Ret ([Ok (Unknown payload (p_class p) (p_id p))], []).
Proof.
  intros p b bytes cs Hp B Eb Hc E.
  assert (Hs : In p send_packets) by (destruct Hp as [->| ->]; unfold send_packets; in_list).
  split; [destruct Hp as [->| ->]; unfold recv_packets; in_list|]. split; [exact Hs|].
  assert (exists n, p_len p = Fixed n) as (n & Hl) by (destruct Hp as [->| ->]; eexists; reflexivity).
  destruct (send_fixed p n Hs Hl) as (S & Hn & _ & Hmx).
  destruct (built_frame p b bytes n Hs Hl B Eb) as (ws & Ew & -> & Ll & _).
  destruct (every_frame_is_delivered [(p_class p, p_id p, concat ws)] cs) as (packets & Ep & HD).
  - constructor; [cbn [snd]; lia|constructor].
  - exact Hc.
  - cbn [map concat]. rewrite app_nil_r. exact E.
  - inversion HD as [|x y l l' D DD]; subst. inversion DD; subst. exists (concat ws). rewrite Ep. cbn [map]. do 4 f_equal.
    destruct D as [bf q a Et (F1 & F2 & _) _|_]; [|reflexivity]. exfalso.
    assert (HI : In q recv_table) by (rewrite Et; apply in_app_iff; right; left; reflexivity).
    assert (N : Forall (fun q => ~ (p_class q = p_class p /\ p_id q = p_id p)) recv_table).
    { clear - Hp. destruct Hp as [->| ->]; unfold recv_table; each; intros [H1 H2]; first [discriminate H1 | discriminate H2]. }
    rewrite Forall_forall in N. exact (N q HI (conj F1 F2)).
Qed.
Example receive_and_send_missing_ex :
  exists b bytes, builder_ok (p_fields p_cfg_inf) b /\ into_packet_bytes p_cfg_inf b = Ret bytes /\ lenN bytes = 18.
Proof.
  eexists (0%Z, ([x00; x00; x00], (1, (2, (3, (4, (5, (6, tt)))))))), _. split; [|split; [vm_compute; reflexivity|reflexivity]].
  vm_compute. repeat split; try discriminate. now right.
Qed.

(** Violation: the variant [MgaGpsEPH] is never delivered, whatever is received. *)
Theorem mga_gps_EPH_unreachable_refuted :
  In p_mga_gps_EPH recv_table /\
  forall class id payload r q, lenN payload <= 65535 -> match_packet recv_table class id payload = Ret (Ok r) -> r <> Known p_mga_gps_EPH q.
Proof.
  split; [unfold recv_table; in_list|]. intros c i payload r q Hl E ->.
  destruct (match_packet_spec recv_table c i payload recv_table_ok Hl) as (r' & E' & D).
  assert (r' = Known p_mga_gps_EPH q) by congruence. subst r'. exact (eph_not_delivered _ _ _ _ D).
Qed.

(** ** C25 *)

(** The frame of a poll request parses back to one packet with that class and id and no payload. *)
Theorem poll_request_round_trip :
  forall class id bytes cs,
    request_bytes (request_for_unknown class id) = Ret bytes -> fit cs -> concat cs = bytes ->
    bytes = frame class id [] /\ lenN bytes = 8 /\
    exists r, parse_chunks cs = Ret ([Ok r], []) /\ class_and_msg_id r = (class, id) /\ ref_payload r = [].
Proof.
  intros c i bytes cs Eb Hc E. rewrite request_bytes_spec in Eb. cbn [request_for_unknown req_class req_id] in Eb. injection Eb as Eb.
  symmetry in Eb. split; [exact Eb|]. split; [rewrite Eb; reflexivity|].
  destruct (every_frame_is_delivered [(c, i, [])] cs) as (packets & Ep & HD).
  - repeat constructor. vm_compute. discriminate.
  - exact Hc.
  - cbn [map concat]. rewrite app_nil_r. congruence.
  - inversion HD as [|x y l l' D DD]; subst. inversion DD; subst. exists y. split; [exact Ep|]. exact (delivers_class _ _ _ _ _ D).
Qed.

(** For a type [T], [request_for::<T>()] is the request for the class and id of [T]. *)
Theorem poll_request_for_type :
  forall p, request_bytes (request_for p) = request_bytes (request_for_unknown (p_class p) (p_id p)) /\
            request_bytes (request_for p) = Ret (frame (p_class p) (p_id p) []).
Proof. intros p. rewrite !request_bytes_spec. split; reflexivity. Qed.
Example poll_request_ex :
  request_bytes (request_for p_mon_ver) = Ret [xb5; x62; x0a; x04; x00; x00; x0e; x34] /\
  parse_chunks [[xb5; x62; x0a; x04]; [x00; x00; x0e; x34]] = Ret ([Ok (Unknown [] x0a x04)], []).
Proof. split; vm_compute; reflexivity. Qed.

(** ** C27 *)

(** The limit of the parser is the greatest declared length, and every payload of at most the declared maximal
    length which the type accepts is delivered as that type, whatever the chunks. *)
Theorem max_payload_len_admits_all :
  parser_max_payload_len recv_table = 8176 /\
  (exists p, In p recv_table /\ max_payload_len p = 8176) /\
  forall p payload cs,
    In p recv_table -> p_name p <> "MgaGpsEPH"%string ->
    accepts p payload -> lenN payload <= max_payload_len p -> fit cs -> concat cs = frame (p_class p) (p_id p) payload ->
    max_payload_len p <= 8176 /\ parse_chunks cs = Ret ([Ok (Known p payload)], []).
Proof.
  split; [exact recv_max|]. split.
  - exists p_rxm_rawx. split; [unfold recv_table; in_list|reflexivity].
  - intros p payload cs Hp Np A Hl Hc E.
    assert (M : forallb (fun p => max_payload_len p <=? 8176) recv_table = true) by (vm_compute; reflexivity).
    rewrite forallb_forall in M. specialize (M p Hp). split; [lia|].
    destruct (every_frame_is_delivered [(p_class p, p_id p, payload)] cs) as (packets & Ep & HD).
    + constructor; [cbn [snd]; lia|constructor].
    + exact Hc.
    + cbn [map concat]. rewrite app_nil_r. exact E.
    + inversion HD as [|x y l l' D DD]; subst. inversion DD; subst. rewrite Ep. cbn [map]. do 4 f_equal.
      apply (delivers_exact _ _ _ p y Hp Np D). split; [reflexivity|]. split; [reflexivity|exact A].
Qed.
Example max_payload_len_admits_all_ex :
  accepts p_rxm_rawx (repeat x00 (N.to_nat 8176)) /\ lenN (repeat x00 (N.to_nat 8176)) = 8176.
Proof.
  assert (Hl : lenN (repeat x00 (N.to_nat 8176)) = 8176) by (vm_compute; reflexivity). split; [|exact Hl].
  apply validate_accepts; [reflexivity|rewrite Hl; vm_compute; discriminate|vm_compute; reflexivity].
Qed.

(** ** C30 *)

(** The validators of all packet types return for every payload, and accept exactly what the specification of
    the layout says. *)
Theorem validators_exact :
  forall p payload, In p recv_packets -> lenN payload <= 65535 ->
    (exists r, validate p payload = Ret r) /\ (validate p payload = Ret (Ok tt) <-> accepts p payload).
Proof.
  intros p payload Hp Hl. pose proof recv_packets_ok as T. unfold table_ok in T. rewrite Forall_forall in T.
  destruct (T p Hp) as (L & C & Hf). split.
  - exact (validate_total p payload L C Hl Hf).
  - apply validate_accepts; [exact L|]. unfold usize_max. lia.
Qed.

(** A type with a fixed length accepts only payloads of this length; any other only those that have all of its
    fixed part and of its counted groups. *)
Theorem length_validation :
  forall p payload, In p recv_packets -> lenN payload <= 65535 ->
    validate p payload = Ret (Ok tt) ->
    match p_len p with
    | Fixed n => lenN payload = n
    | Max _ => exists ns, counted_sizes (p_fields p) payload = Ret ns /\ fixed_size (p_fields p) + sumN ns <= lenN payload
    end.
Proof.
  intros p payload Hp Hl V. apply (validators_exact p payload Hp Hl) in V. destruct V as [LA _]. unfold length_accepts in LA.
  assert (A : forallb (fun p => match p_len p with Fixed n => forallb is_sized (p_fields p) && (fixed_size (p_fields p) =? n)
              | Max _ => negb (forallb is_sized (p_fields p)) end) recv_packets = true) by (vm_compute; reflexivity).
  rewrite forallb_forall in A. specialize (A p Hp). destruct (p_len p) as [n|n].
  - apply andb_true_iff in A. destruct A as [A1 A2]. rewrite A1 in LA. lia.
  - apply negb_true_iff in A. rewrite A in LA. tauto.
Qed.
Example length_validation_ex :
  validate p_ack_ack [x06; x08] = Ret (Ok tt) /\ validate p_ack_ack [x06] = Ret (Err (InvalidPacketLen "AckAck" 2 1)) /\
  validate p_esf_meas (repeat x00 (N.to_nat 8)) = Ret (Ok tt) /\
  validate p_esf_meas [x00; x00; x00; x00; x00; x08; x00; x00] = Ret (Err (InvalidPacketLen "EsfMeas" 12 8)).
Proof. repeat split; vm_compute; reflexivity. Qed.

(** ** C29 *)

Lemma recv_packets_nodup : NoDup (map p_name recv_packets).
Proof.
  assert (E : (fix nodupb (l : list string) := match l with [] => true | x :: l' => negb (existsb (String.eqb x) l') && nodupb l' end)
              (map p_name recv_packets) = true) by (vm_compute; reflexivity).
  revert E. generalize (map p_name recv_packets). induction l as [|x l IH]; intros E; constructor.
  - intros HI. apply andb_true_iff in E. destruct E as [E _]. apply negb_true_iff in E.
    assert (existsb (String.eqb x) l = true); [|congruence]. apply existsb_exists. exists x. split; [exact HI|apply String.eqb_refl].
  - apply IH. apply andb_true_iff in E. tauto.
Qed.

Lemma convert_safe p payload k f start stop :
  layout_ok (p_fields p) = true -> accepts p payload -> nth_error (p_fields p) k = Some f ->
  located (p_fields p) k f payload start stop -> start <= stop -> stop <= lenN payload -> field_safe f ->
  exists x, convert f (decode (f_ty f) (takeN (stop - start) (dropN start payload))) = Ret x.
Proof.
  intros L A Hk Loc H1 H2 Sf. pose proof (layout_fields _ L) as FL. rewrite Forall_forall in FL.
  specialize (FL f (nth_error_In _ _ Hk)).
  assert (Raw : raw_ok (f_ty f) (decode (f_ty f) (takeN (stop - start) (dropN start payload)))).
  { unfold located in Loc. destruct (is_sized f) eqn:Es.
    - destruct (is_sized_size f Es) as (n & Sz & Fs & _). destruct Loc as [-> ->]. apply (decode_ok _ n); [exact Sz|].
      rewrite lenN_takeN, lenN_dropN. lia.
    - destruct FL as [FL|Ety]; [congruence|]. rewrite Ety. left. reflexivity. }
  assert (V : is_counted f = false -> forall m v, f_map f = Some m -> m_valid m = Some v ->
                v (decode (f_ty f) (takeN (stop - start) (dropN start payload))) = Ret true).
  { intros Nc m v Em Ev. pose proof (proj2 A k f m v Hk Em Ev) as FA. rewrite <- FA. do 2 f_equal.
    unfold field_bytes_at, located in *. destruct (is_sized f) eqn:Es.
    - destruct (is_sized_size f Es) as (n & Sz & Fs & _). destruct Loc as [-> ->]. rewrite Sz. f_equal. lia.
    - destruct (is_rest f) eqn:Er.
      + destruct (is_rest_facts f Er) as (_ & Sz & _). rewrite Sz. destruct Loc as [-> ->]. apply takeN_all. rewrite lenN_dropN. lia.
      + exfalso. destruct FL as [FL|Ety]; [congruence|]. unfold is_rest, is_counted in *. rewrite Ety in *.
        destruct (f_size_fn f); congruence. }
  set (r := decode _ _) in *. clearbody r. clear - Sf V Raw. destruct f as [nm al ty mp gar sz].
  unfold convert, from_raw, from_raw_unsized, fvalue, field_safe, f_size in *. cbn [f_ty f_map f_size_fn] in *.
  destruct mp as [m|]; [|destruct (size_bytes ty); eauto].
  destruct (Sf m r eq_refl Raw (fun Nc v Ev => V Nc m v eq_refl Ev)) as (x & Ex).
  destruct (size_bytes ty); [exists (match m_scale m with Some g => g x | None => x end)|exists x]; [|exact Ex].
  match goal with |- ?a = _ => change (bind (m_from m r) (fun x => Ret (match m_scale m with Some g => g x | None => x end)) =
     Ret (match m_scale m with Some g => g x | None => x end)) end. rewrite Ex. reflexivity.
Qed.

(** Every getter of an accepted packet reads the bytes of its field, which lie inside the payload, and returns a value -
    but for the mode of CFG-PRT for UARTs, which at least has a raw value. *)
Theorem getters_safe :
  forall p payload k f,
    In p recv_packets -> lenN payload <= 65535 -> accepts p payload -> nth_error (p_fields p) k = Some f ->
    exists g start stop,
      nth_error (getters p) k = Some g /\ g_field g = f /\
      located (p_fields p) k f payload start stop /\ start <= stop <= lenN payload /\
      existT (fun t => res (raw_val t)) (f_ty (g_field g)) (g_raw g payload) =
      existT (fun t => res (raw_val t)) (f_ty f) (Ret (decode (f_ty f) (takeN (stop - start) (dropN start payload)))) /\
      (p_name p = "CfgPrtUart"%string /\ f_name f = "mode"%string \/ exists v, g_val g payload = Ret v).
Proof.
  intros p payload k f Hp Hl A Hk.
  pose proof recv_layout as L. rewrite forallb_forall in L. specialize (L p Hp).
  destruct (getter_located p payload k f L ltac:(unfold usize_max; lia) (proj1 A) Hk) as (off & fns & start & stop & H1 & H2 & H3 & H3b & H4).
  exists (getter_at f off fns), start, stop. split; [exact H1|]. split; [reflexivity|]. split; [exact H2|].
  split; [split; assumption|]. cbn [getter_at g_field g_raw g_val]. rewrite H4. split; [reflexivity|].
  cbn [bind]. pose proof recv_safe as RS. rewrite Forall_forall in RS. destruct (RS p Hp) as [Np|RSf].
  - destruct (String.eqb (f_name f) "mode") eqn:Em; [left; apply String.eqb_eq in Em; auto|]. right.
    apply String.eqb_neq in Em.
    assert (p = p_cfg_prt_uart) as ->.
    { eapply (nodup_map_inj p_name recv_packets); [|exact Hp|unfold recv_packets; in_list|exact Np]. exact recv_packets_nodup. }
    pose proof uart_safe as U. rewrite Forall_forall in U. destruct (U f (nth_error_In _ _ Hk)) as [U1|U1]; [congruence|].
    exact (convert_safe _ _ _ _ _ _ L A Hk H2 H3 H3b U1).
  - right. rewrite Forall_forall in RSf. exact (convert_safe _ _ _ _ _ _ L A Hk H2 H3 H3b (RSf f (nth_error_In _ _ Hk))).
Qed.
Example getters_safe_ex :
  In p_nav_pos_llh recv_packets /\ accepts p_nav_pos_llh (repeat x01 28) /\
  nth_error (p_fields p_nav_pos_llh) 0 = Some (mk_field "itow" None (Scalar U32) None false None).
Proof.
  split; [unfold recv_packets; in_list|]. split; [|reflexivity].
  apply validate_accepts; [reflexivity|vm_compute; discriminate|vm_compute; reflexivity].
Qed.

(** Violation: the mode of a UART with 5 data bits (or 6, or a reserved parity) makes the getter panic, although the
    parser delivers the packet. *)
Theorem uart_mode_getter_refuted :
  exists payload g,
    match_packet recv_table x06 x00 payload = Ret (Ok (Known p_cfg_prt_uart payload)) /\
    nth_error (getters p_cfg_prt_uart) 3 = Some g /\ f_name (g_field g) = "mode"%string /\ g_val g payload = Panic.
Proof.
  exists (x01 :: repeat x00 19). eexists. split; [|split; [reflexivity|split; reflexivity]].
  destruct (dispatch_total x06 x00 (x01 :: repeat x00 19)) as (r & E & D & _); [vm_compute; discriminate|].
  rewrite E. do 2 f_equal. apply (delivers_exact x06 x00 _ p_cfg_prt_uart r); [unfold recv_table; in_list|discriminate|exact D|].
  split; [reflexivity|]. split; [reflexivity|]. apply accepts_uart. split; [reflexivity|]. left. reflexivity.
Qed.

(** ** C37 *)

(** A CFG-PRT payload is delivered according to its first byte; of any other length, or with any other first byte,
    it is delivered as [Unknown]. *)
Theorem cfg_prt_by_port :
  forall payload r, lenN payload <= 65535 ->
    match_packet recv_table x06 x00 payload = Ret (Ok r) ->
    r = if lenN payload =? 20 then
          match b2n (nthN payload 0) with
          | 0 => Known p_cfg_prt_i2c payload
          | 1 | 2 | 3 => Known p_cfg_prt_uart payload
          | 4 => Known p_cfg_prt_spi payload
          | _ => Unknown payload x06 x00
          end
        else Unknown payload x06 x00.
Proof.
  intros payload r Hl E. destruct (match_packet_spec recv_table x06 x00 payload recv_table_ok Hl) as (r' & E' & D).
  assert (r' = r) by congruence. subst r'.
  assert (K : forall p, In p recv_table -> p_name p <> "MgaGpsEPH"%string -> p_class p = x06 -> p_id p = x00 -> accepts p payload -> r = Known p payload).
  { intros p Hp Np Hc Hi A. apply (delivers_exact x06 x00 payload p r Hp Np D). repeat split; auto; apply A. }
  assert (U : ~ accepts p_cfg_prt_i2c payload -> ~ accepts p_cfg_prt_uart payload -> ~ accepts p_cfg_prt_spi payload ->
              r = Unknown payload x06 x00).
  { intros N1 N2 N3. apply (dispatch_unknown x06 x00 payload r Hl E). intros p Hp (Hc & Hi & A).
    destruct (port_types p Hp Hc Hi) as [->|[->| ->]]; auto. }
  rewrite accepts_i2c, accepts_uart, accepts_spi in U.
  destruct (lenN payload =? 20) eqn:El; [|apply U; intros [? _]; lia].
  destruct (b2n (nthN payload 0)) as [|q] eqn:Eb.
  - apply (K p_cfg_prt_i2c); [unfold recv_table; in_list|discriminate|reflexivity|reflexivity|]. apply accepts_i2c. lia.
  - destruct q as [[q|q|]|[q|[q|q|]|]|];
      try (apply U; intros [_ B]; repeat (destruct B as [B|B]); lia);
      (apply (K p_cfg_prt_uart); [unfold recv_table; in_list|discriminate|reflexivity|reflexivity|apply accepts_uart; lia]) ||
      (apply (K p_cfg_prt_spi); [unfold recv_table; in_list|discriminate|reflexivity|reflexivity|apply accepts_spi; lia]) || idtac.
Qed.
Example cfg_prt_by_port_ex :
  exists r1 r2 r3,
  match_packet recv_table x06 x00 (x00 :: repeat x00 19) = Ret (Ok r1) /\
  match_packet recv_table x06 x00 (x04 :: repeat x00 19) = Ret (Ok r2) /\
  match_packet recv_table x06 x00 (x05 :: repeat x00 19) = Ret (Ok r3) /\
  r1 = Known p_cfg_prt_i2c (x00 :: repeat x00 19) /\ r2 = Known p_cfg_prt_spi (x04 :: repeat x00 19) /\
  r3 = Unknown (x05 :: repeat x00 19) x06 x00.
Proof. eexists _, _, _. repeat (split; [reflexivity|]). reflexivity. Qed.

Print Assumptions dispatch_total.
Print Assumptions dispatch_exact.
Print Assumptions dispatch_unknown.
Print Assumptions every_frame_is_delivered.
Print Assumptions library_error_surface.
Print Assumptions library_parser_is_scanner.
Print Assumptions build_parse_read.
Print Assumptions receive_and_send_missing_refuted.
Print Assumptions mga_gps_EPH_unreachable_refuted.
Print Assumptions poll_request_round_trip.
Print Assumptions poll_request_for_type.
Print Assumptions max_payload_len_admits_all.
Print Assumptions validators_exact.
Print Assumptions length_validation.
Print Assumptions getters_safe.
Print Assumptions uart_mode_getter_refuted.
Print Assumptions cfg_prt_by_port.
