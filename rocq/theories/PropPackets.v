(** * Properties of the generated builders and of the macro (C21, C22, C23, C26, C55, C56) *)
From Coq Require Import String List NArith ZArith Bool Lia ZifyBool ZifyNat ZifyN.
From Verif Require Import Base BaseFacts Checksum DualBuffer Parser PackDesc GenRecv GenSend Enums Floats Bits Utf8 Iterators
  CfgVal TableTypes TablePackets TableCfg SpecFrame SpecPacket ProofSend ProofRecv ProofTable ProofDispatch.
Import ListNotations.
Open Scope N_scope.
Open Scope list_scope.

(** A non-trivial builder: CFG-PRT for UART 1, 9600 baud, 8 data bits, odd parity, one stop bit *)
Definition ex_uart : builder (p_fields p_cfg_prt_uart) :=
  (("Uart1"%string, 1), (0%Z, (0%Z, (mk_uart_mode Eight ParityOdd StopOne, (9600%Z, (7, (3, (0%Z, (0%Z, tt))))))))).
Lemma ex_uart_ok : builder_ok (p_fields p_cfg_prt_uart) ex_uart.
Proof. vm_compute. repeat split; try discriminate. left. reflexivity. Qed.

(** ** C21 *)

(** For every packet of the library with a fixed-size builder: the bytes are the frame with the declared
    class and id around the fields, and the payload has the declared length.  (The conversion
    functions of the fields do not return when they panic, see [scale_back_...] in PropFloat.v:
    that is the only way not to get a packet.) *)
Theorem builder_emits_frame :
  forall p (b : builder (p_fields p)) n ws,
    In p send_packets -> p_len p = Fixed n -> builder_ok (p_fields p) b -> wire_fields (p_fields p) b = Ret ws ->
    into_packet_bytes p b = Ret (frame (p_class p) (p_id p) (concat ws)) /\ lenN (concat ws) = n.
Proof.
  intros p b n ws Hp Hl B Ew.
  assert (A : forallb accepted send_packets = true) by (vm_compute; reflexivity).
  rewrite forallb_forall in A. specialize (A p Hp). unfold accepted in A.
  apply andb_true_iff in A. destruct A as [A A3]. apply andb_true_iff in A. destruct A as [_ A2].
  unfold length_matches, length_is_u16 in *. rewrite Hl in *.
  destruct (packet_payload_size p) as [m|] eqn:S; [|discriminate]. apply N.eqb_eq in A2. subst m.
  pose proof send_typed as T. rewrite Forall_forall in T. specialize (T p Hp).
  rewrite (into_packet_bytes_spec p b n T B S) by lia. rewrite Ew. split; [reflexivity|].
  exact (proj2 (wire_fields_len _ _ _ _ T B S Ew)).
Qed.
Example builder_emits_frame_ex :
  In p_cfg_prt_uart send_packets /\ p_len p_cfg_prt_uart = Fixed 20 /\ builder_ok (p_fields p_cfg_prt_uart) ex_uart /\
  into_packet_bytes p_cfg_prt_uart ex_uart =
    Ret [xb5; x62; x06; x00; x14; x00; x01; x00; x00; x00; xc0; x02; x00; x00; x80; x25; x00; x00;
         x07; x00; x03; x00; x00; x00; x00; x00; x8c; x5b].
Proof.
  split; [unfold send_packets; in_list|]. split; [reflexivity|]. split; [exact ex_uart_ok|vm_compute; reflexivity].
Qed.

(** When the builder does not return a packet, a conversion function of a field did not return. *)
Theorem builder_fails_only_in_conversions :
  forall p (b : builder (p_fields p)) n,
    In p send_packets -> p_len p = Fixed n -> builder_ok (p_fields p) b ->
    (forall ws, wire_fields (p_fields p) b <> Ret ws) ->
    forall bytes, into_packet_bytes p b <> Ret bytes.
Proof.
  intros p b n Hp Hl B Ew bytes.
  assert (A : forallb accepted send_packets = true) by (vm_compute; reflexivity).
  rewrite forallb_forall in A. specialize (A p Hp). unfold accepted in A.
  apply andb_true_iff in A. destruct A as [A A3]. apply andb_true_iff in A. destruct A as [_ A2].
  unfold length_matches, length_is_u16 in *. rewrite Hl in *.
  destruct (packet_payload_size p) as [m|] eqn:S; [|discriminate]. apply N.eqb_eq in A2. subst m.
  pose proof send_typed as T. rewrite Forall_forall in T. specialize (T p Hp).
  rewrite (into_packet_bytes_spec p b n T B S) by lia.
  destruct (wire_fields (p_fields p) b) as [ws| |]; [exfalso; eapply Ew; reflexivity|discriminate|discriminate].
Qed.

(** ** C22 *)

Lemma vec_write_fields_stuck E fs : forall b n (out : list byte) ck r,
  fields_size fs = Some n -> wire_fields fs b = r -> (forall ws, r <> Ret ws) ->
  write_fields (vec_writer E) fs b out ck = ret_map (fun _ => (out, ck, None)) r.
Proof.
  induction fs as [|f fs IH]; intros b n out ck r S Ew Hr; cbn [write_fields wire_fields] in *.
  - destruct (Hr _ (eq_sym Ew)).
  - cbn in S. destruct (f_size f) as [a|]; [|discriminate].
    destruct (fields_size fs) as [c|] eqn:Sfs; [|discriminate].
    destruct b as [v b]; cbn [fst snd] in *. unfold field_bytes.
    destruct (to_raw f v) as [x| |]; cbn [bind] in *; try (subst r; reflexivity).
    cbn [vec_writer w_write vec_write_all]. rewrite N.eqb_refl.
    destruct (wire_fields fs b) as [ws| |] eqn:E1; cbn [bind] in Ew; [destruct (Hr _ (eq_sym Ew))| |]; subst r;
      rewrite (IH b c _ _ _ eq_refl E1) by discriminate; reflexivity.
Qed.

(** Writing through [create_packet] into a vector appends the bytes of [into_packet_bytes] to it (and panics
    when [into_packet_bytes] does). *)
Theorem emission_ways_agree :
  forall E p (b : builder (p_fields p)) n out,
    In p send_packets -> p_len p = Fixed n -> builder_ok (p_fields p) b ->
    create_packet (vec_writer E) p b out = ret_map (fun bytes => (out ++ bytes, None)) (into_packet_bytes p b).
Proof.
  intros E p b n out Hp Hl B.
  assert (A : forallb accepted send_packets = true) by (vm_compute; reflexivity).
  rewrite forallb_forall in A. specialize (A p Hp). unfold accepted in A.
  apply andb_true_iff in A. destruct A as [A A3]. apply andb_true_iff in A. destruct A as [_ A2].
  unfold length_matches, length_is_u16 in *. rewrite Hl in *.
  destruct (packet_payload_size p) as [m|] eqn:S; [|discriminate]. apply N.eqb_eq in A2. subst m.
  pose proof send_typed as T. rewrite Forall_forall in T. specialize (T p Hp).
  rewrite (into_packet_bytes_spec p b n T B S) by lia.
  destruct (wire_fields (p_fields p) b) as [ws| |] eqn:Ew; cbn [ret_map bind].
  { rewrite (create_packet_spec (vec_writer E) p b n ws out T B S) by (auto; lia). cbn [vec_writer w_reserve].
    f_equal. rewrite vec_write_all_ok. rewrite packet_pieces_frame. reflexivity. }
  all: unfold create_packet; rewrite S; unfold packet_len; rewrite S; cbn [vec_writer w_reserve w_write vec_write_all];
    rewrite u16_bytes_header; change (get [n2b n; n2b (n / 256)] 1) with (Ret (n2b (n / 256)));
    change (get [n2b n; n2b (n / 256)] 0) with (Ret (n2b n)); cbn [bind]; rewrite N.eqb_refl;
    match goal with |- context [slice_from ?l 2] => change (slice_from l 2) with (Ret [p_class p; p_id p; n2b n; n2b (n / 256)]) end;
    cbn [bind]; rewrite (vec_write_fields_stuck E (p_fields p) b n _ _ _ S Ew) by discriminate; reflexivity.
Qed.
Example emission_ways_agree_ex :
  create_packet (vec_writer unit) p_cfg_prt_uart ex_uart [x01; x02] =
  Ret ([x01; x02] ++ [xb5; x62; x06; x00; x14; x00; x01; x00; x00; x00; xc0; x02; x00; x00; x80; x25; x00; x00;
         x07; x00; x03; x00; x00; x00; x00; x00; x8c; x5b], None).
Proof. vm_compute. reflexivity. Qed.

(** For packets with a variable part, [into_packet_vec] is [extend_to] into an empty vector, and both are
    the frame around the fields (as long as the payload is shorter than 65536 bytes). *)
Theorem variable_builder_emits_frame :
  forall p (b : builder (p_fields p)) ws,
    packet_payload_size p = None -> send_layout (p_fields p) ->
    builder_honest (p_fields p) b -> wire_fields (p_fields p) b = Ret ws -> lenN (concat ws) <= 65535 ->
    into_packet_vec p b = Ret (frame (p_class p) (p_id p) (concat ws)) /\
    extend_to p b [] = Ret (frame (p_class p) (p_id p) (concat ws)).
Proof.
  intros p b ws S L H Ew Hl. unfold into_packet_vec.
  rewrite (extend_to_spec p b ws [] S L H Ew) by (unfold usize_max; lia). rewrite extended_empty. split; reflexivity.
Qed.

(** ** C26: CFG-VALSET *)

(** The builder of CFG-VALSET for a list of configuration values *)
Definition val_set (version : Z) (layers : N) (reserved : Z) (vals : list cfg_val) : builder (p_fields p_cfg_val_set) :=
  (version, (layers, (reserved, (map cfg_val_item vals, tt)))).

(** Its payload: version, layers, reserved word (little endian) and the encodings of the values *)
Definition val_set_payload (version : Z) (layers : N) (reserved : Z) (vals : list cfg_val) : list byte :=
  int_bytes 1 version ++ int_bytes 1 (Z.of_N layers) ++ int_bytes 2 reserved ++ concat (map cfg_kv_bytes vals).

Lemma fold_push l : forall buf, fold_left (fun (buf : list byte) b => buf ++ [b]) l buf = buf ++ l.
Proof. induction l as [|x l IH]; intros buf; cbn; [now rewrite app_nil_r|]. rewrite IH. now rewrite <- app_assoc. Qed.

Lemma val_set_facts version layers reserved vals :
  builder_honest (p_fields p_cfg_val_set) (val_set version layers reserved vals) /\
  exists ws, wire_fields (p_fields p_cfg_val_set) (val_set version layers reserved vals) = Ret ws /\
             concat ws = val_set_payload version layers reserved vals.
Proof.
  split.
  - unfold val_set, p_cfg_val_set. cbn [p_fields builder_honest fst snd]. repeat split.
    intros r E. cbn in E. injection E as <-. cbn [f_ty items_honest]. apply Forall_forall. intros x Hx.
    apply in_map_iff in Hx. destruct Hx as (v & <- & _). unfold cfg_val_item, cfg_extend_to. cbn. now rewrite fold_push.
  - eexists. split; [unfold val_set, p_cfg_val_set; cbn [p_fields wire_fields fst snd to_raw f_map bind]; reflexivity|].
    cbn [concat f_ty wire scalar_size]. unfold val_set_payload. rewrite app_nil_r. do 3 f_equal.
    rewrite map_map. f_equal. apply map_ext. intros v. unfold cfg_val_item, cfg_extend_to. cbn. now rewrite fold_push.
Qed.

Lemma val_set_layout : packet_payload_size p_cfg_val_set = None /\ send_layout (p_fields p_cfg_val_set).
Proof.
  split; [reflexivity|]. unfold send_layout, p_cfg_val_set. cbn [p_fields].
  eexists [_; _; _], _. split; [reflexivity|]. split; [|reflexivity].
  repeat (apply Forall_cons; [discriminate|]). apply Forall_nil.
Qed.

Theorem cfg_val_set_frame :
  forall version layers reserved vals,
    lenN (val_set_payload version layers reserved vals) <= 65535 ->
    into_packet_vec p_cfg_val_set (val_set version layers reserved vals) =
      Ret (frame x06 x8a (val_set_payload version layers reserved vals)).
Proof.
  intros version layers reserved vals Hl. destruct (val_set_facts version layers reserved vals) as (H & ws & Ew & Ec).
  destruct val_set_layout as [S L].
  destruct (variable_builder_emits_frame p_cfg_val_set _ ws S L H Ew) as [E _]; rewrite ?Ec in *; auto.
Qed.

Definition ex_vals : list cfg_val :=
  [mk_cfg_val (mk_cfg_item "Uart1Baudrate" 0x40520001 TU32) 9600;
   mk_cfg_val (mk_cfg_item "Uart1Enabled" 0x10520005 TBool) true].
Example cfg_val_set_frame_ex :
  lenN (val_set_payload 0 1 0 ex_vals) = 17 /\ In (mk_cfg_item "Uart1Baudrate" 0x40520001 TU32) cfg_table /\
  extend_to p_cfg_val_set (val_set 0 1 0 ex_vals) [] =
    Ret [xb5; x62; x06; x8a; x11; x00; x00; x01; x00; x00; x01; x00; x52; x40; x80; x25; x00; x00;
         x05; x00; x52; x10; x01; x42; x84].
Proof. split; [vm_compute; reflexivity|]. split; [|vm_compute; reflexivity]. unfold cfg_table. in_list. Qed.

(** Violation: into a vector that is not empty, the length bytes overwrite bytes 4 and 5 of what is there, and the
    checksum covers it, too.  The frame has length 0 and a wrong checksum whatever precedes it. *)
Theorem cfg_val_set_nonempty_refuted :
  exists version layers reserved vals out bytes,
    extend_to p_cfg_val_set (val_set version layers reserved vals) out = Ret bytes /\
    lenN out = 6 /\
    takeN 6 bytes <> out /\
    dropN 6 bytes <> frame x06 x8a (val_set_payload version layers reserved vals).
Proof.
  exists 0%Z, 1, 0%Z, ex_vals, [x01; x02; x03; x04; x05; x06]. eexists. split; [vm_compute; reflexivity|].
  split; [reflexivity|]. split; vm_compute; discriminate.
Qed.

(** What [extend_to] does to any vector: the prior contents are damaged as soon as they have more than
    four bytes, unless bytes 4 and 5 happen to be the length. *)
Theorem cfg_val_set_extend_to :
  forall version layers reserved vals out,
    lenN (val_set_payload version layers reserved vals) <= usize_max ->
    let payload := val_set_payload version layers reserved vals in
    let v := out ++ [xb5; x62; x06; x8a; x00; x00] ++ payload in
    let v' := takeN 4 v ++ [n2b (lenN payload); n2b (lenN payload / 256)] ++ dropN 6 v in
    extend_to p_cfg_val_set (val_set version layers reserved vals) out = Ret (v' ++ fletcher (dropN 2 v')).
Proof.
  intros version layers reserved vals out Hl. cbv zeta.
  destruct (val_set_facts version layers reserved vals) as (H & ws & Ew & Ec).
  destruct val_set_layout as [S L].
  rewrite (extend_to_spec p_cfg_val_set _ ws out S L H Ew) by (rewrite Ec; exact Hl). rewrite Ec. reflexivity.
Qed.

(** Violation: a payload of 65536 bytes or more gets the length modulo 65536. *)
Theorem cfg_val_set_length_truncated_refuted :
  exists version layers reserved vals bytes,
    into_packet_vec p_cfg_val_set (val_set version layers reserved vals) = Ret bytes /\
    lenN (val_set_payload version layers reserved vals) = 65540 /\
    lenN bytes = 65548 /\ takeN 6 bytes = [xb5; x62; x06; x8a; x04; x00].
Proof.
  exists 0%Z, 1, 0%Z, (repeat (mk_cfg_val (mk_cfg_item "Uart1Baudrate" 0x40520001 TU32) 9600) (N.to_nat 8192)).
  eexists. unfold into_packet_vec.
  set (vals := repeat _ _).
  assert (Hl : lenN (val_set_payload 0 1 0 vals) = 65540) by (vm_compute; reflexivity).
  rewrite cfg_val_set_extend_to by (rewrite Hl; vm_compute; discriminate). cbv zeta. rewrite Hl.
  split; [reflexivity|]. split; [reflexivity|].
  set (w := val_set_payload 0 1 0 vals) in *. clearbody w. clear vals.
  split.
  - rewrite !lenN_app, lenN_takeN, lenN_dropN. repeat (rewrite ?lenN_app, ?lenN_cons, ?lenN_nil, ?Hl). reflexivity.
  - cbn [app]. reflexivity.
Qed.

(** ** C23 *)

Lemma nth_value_wire fs : forall b ws k s,
  wire_fields fs b = Ret ws -> nth_value fs b k = Some s ->
  exists r, nth_error fs k = Some (projT1 s) /\ to_raw (projT1 s) (projT2 s) = Ret r /\
            nth_error ws k = Some (wire (f_ty (projT1 s)) r).
Proof.
  induction fs as [|g fs IH]; intros b ws k s Ew Hk; cbn [nth_value wire_fields] in *; [discriminate|].
  apply bind_Ret in Ew. destruct Ew as (r & Er & Ew). apply bind_Ret in Ew. destruct Ew as (ws' & Ew' & Ew). inversion Ew; subst ws.
  destruct k as [|k].
  - assert (E : s = existT _ g (fst b)) by congruence. subst s. exists r. auto.
  - destruct (IH _ _ _ _ Ew' Hk) as (r' & H1 & H2 & H3). exists r'. auto.
Qed.

Lemma offset_of_succ fs : forall k f, nth_error fs k = Some f -> offset_of fs (S k) = offset_of fs k + field_size f.
Proof.
  induction fs as [|g fs IH]; intros [|k] f H; try discriminate; cbn [nth_error] in H.
  - inversion H; subst. cbn [offset_of]. destruct fs; cbn [offset_of]; lia.
  - change (offset_of (g :: fs) (S (S k))) with (field_size g + offset_of fs (S k)).
    change (offset_of (g :: fs) (S k)) with (field_size g + offset_of fs k). rewrite (IH _ _ H). lia.
Qed.

(** For any declaration (not only those of the library) whose fields all have a size, and any values: field [k] stands
    in the bytes [6 + offset_k .. 6 + offset_k + size_k] of the packet, little endian; each field starts where
    the one before ends, the first at 6, and the last ends where the two checksum bytes begin. *)
Theorem builder_places_fields :
  forall p (b : builder (p_fields p)) n bytes,
    desc_typed p -> builder_ok (p_fields p) b -> packet_payload_size p = Some n -> n <= 65535 ->
    into_packet_bytes p b = Ret bytes ->
    (forall k f v, nth_value (p_fields p) b k = Some (existT _ f v) ->
       exists r, to_raw f v = Ret r /\
         takeN (field_size f) (dropN (6 + offset_of (p_fields p) k) bytes) = wire (f_ty f) r /\
         offset_of (p_fields p) (S k) = offset_of (p_fields p) k + field_size f) /\
    offset_of (p_fields p) (length (p_fields p)) = n /\ lenN bytes = n + 8.
Proof.
  intros p b n bytes T B S Hn Eb. rewrite (into_packet_bytes_spec p b n T B S Hn) in Eb.
  destruct (wire_fields (p_fields p) b) as [ws| |] eqn:Ew; cbn [ret_map bind] in Eb; try discriminate.
  injection Eb as <-. destruct (wire_fields_len _ _ _ _ T B S Ew) as [_ Lc].
  split; [|split].
  - intros k f v Hk. destruct (nth_value_wire _ _ _ _ _ Ew Hk) as (r & H1 & H2 & H3). cbn [projT1 projT2] in *.
    exists r. split; [exact H2|]. split; [|apply offset_of_succ; exact H1].
    destruct (wire_fields_at _ _ _ _ _ _ _ T B S Ew H1 H3) as (_ & H4). unfold field_bytes_at in H4.
    assert (exists a, f_size f = Some a) as (a & Sz).
    { assert (Hsz : forall fs n, fields_size fs = Some n -> In f fs -> f_size f <> None).
      { induction fs as [|g fs IH]; intros m' E' HI; [destruct HI|]. cbn in E'. destruct (f_size g) eqn:Eg; [|discriminate].
        destruct (fields_size fs) eqn:Efs; [|discriminate]. destruct HI as [->|HI]; [congruence|]. eapply IH; eauto. }
      destruct (f_size f) eqn:E; [eauto|]. exfalso. apply nth_error_In in H1. exact (Hsz _ _ S H1 eq_refl). }
    rewrite Sz in H4. unfold field_size. rewrite Sz. rewrite <- H4.
    pose proof (offset_of_le _ _ _ H1) as Ho. unfold field_size in Ho. rewrite Sz in Ho. rewrite (fields_size_fixed _ _ S) in Ho.
    rewrite frame_shape. unfold header. cbn [app].
    match goal with |- context [dropN _ (?a :: ?b :: ?c :: ?d :: ?e :: ?f :: ?r)] =>
      change (a :: b :: c :: d :: e :: f :: r) with ([a; b; c; d; e; f] ++ r) end.
    rewrite dropN_app_ge by (change (lenN [_; _; _; _; _; _]) with 6; lia).
    change (lenN [_; _; _; _; _; _]) with 6. replace (6 + offset_of (p_fields p) k - 6) with (offset_of (p_fields p) k) by lia.
    rewrite dropN_app_le by lia. rewrite takeN_app_le by (rewrite lenN_dropN; lia). reflexivity.
  - rewrite offset_of_all. apply fields_size_fixed. exact S.
  - unfold frame, header, fletcher. rewrite !lenN_app, Lc. change (lenN [_; _]) with 2. change (lenN [_; _; _; _]) with 4. lia.
Qed.
Example builder_places_fields_ex :
  desc_typed p_cfg_prt_uart /\ packet_payload_size p_cfg_prt_uart = Some 20 /\
  nth_value (p_fields p_cfg_prt_uart) ex_uart 4 =
    Some (existT fvalue (mk_field "baud_rate" None (Scalar U32) None false None) 9600%Z) /\
  offset_of (p_fields p_cfg_prt_uart) 4 = 8.
Proof.
  split; [|split; [reflexivity|split; [reflexivity|reflexivity]]].
  pose proof send_typed as T. rewrite Forall_forall in T. apply T. unfold send_packets. in_list.
Qed.

(** ** C55 *)

(** What the macro accepts: every field but the last has a size or a size function; either a fixed length is declared,
    every field has a size and the sizes add up to that length, or a maximal length is declared and some field has no size. *)
Theorem macro_accepts :
  forall p, accepted p = true <->
    (forall k f, nth_error (p_fields p) k = Some f -> (S k < length (p_fields p))%nat -> f_size f <> None \/ f_size_fn f <> None) /\
    match p_len p with
    | Fixed n => (exists ns, map f_size (p_fields p) = map Some ns /\ n = fold_right N.add 0 ns) /\ n <= 65535
    | Max n => (exists f, In f (p_fields p) /\ f_size f = None) /\ n <= 65535
    end.
Proof.
  intros p.
  assert (U : unsized_only_last (p_fields p) = true <->
    (forall k f, nth_error (p_fields p) k = Some f -> (S k < length (p_fields p))%nat -> f_size f <> None \/ f_size_fn f <> None)).
  { unfold unsized_only_last. rewrite forallb_forall. generalize (p_fields p) as fs. intros fs.
    assert (C : forall f : field, (match f_size f, f_size_fn f with None, None => false | _, _ => true end) = true <-> (f_size f <> None \/ f_size_fn f <> None)).
    { intros f. destruct (f_size f), (f_size_fn f); split; intros H; try reflexivity; try discriminate; try (left; discriminate);
        try (right; discriminate). destruct H as [H|H]; now destruct H. }
    destruct fs as [|f0 fs]. { split; [intros _ [|k] f E; discriminate|intros _ f []]. }
    destruct (@exists_last _ (f0 :: fs)) as (a & z & E); [discriminate|]. rewrite E. clear f0 fs E. rewrite removelast_last. split.
    - intros H k f N L. rewrite app_length in L. cbn [length] in L. rewrite nth_error_app1 in N by lia.
      apply C, H. now apply nth_error_In in N.
    - intros H f I. apply In_nth_error in I. destruct I as [k K]. apply C, (H k).
      + rewrite nth_error_app1; [exact K|]. apply nth_error_Some. congruence.
      + rewrite app_length. cbn [length]. assert (k < length a)%nat by (apply nth_error_Some; congruence). lia. }
  assert (S1 : forall fs m, fields_size fs = Some m <-> exists ns, map f_size fs = map Some ns /\ m = fold_right N.add 0 ns).
  { induction fs as [|f fs IH]; intros m; cbn [fields_size map].
    - split; [intros [= <-]; exists []; auto|]. intros ([|n ns] & E & ->); [reflexivity|discriminate].
    - destruct (f_size f) as [a|].
      + destruct (fields_size fs) as [b|] eqn:F.
        * destruct (proj1 (IH b) eq_refl) as (ns & E & Eb). split.
          -- intros [= <-]. exists (a :: ns). cbn. rewrite E, <- Eb. auto.
          -- intros ([|n ns'] & E' & ->); [discriminate|]. cbn in E'. injection E' as -> E'. cbn. do 2 f_equal.
             assert (X : fields_size fs = Some (fold_right N.add 0 ns')) by (rewrite F; apply (proj2 (IH _)); eauto). congruence.
        * split; [discriminate|]. intros ([|n ns'] & E' & ->); [discriminate|]. cbn in E'. injection E' as -> E'.
          assert (X : None = Some (fold_right N.add 0 ns')) by (apply (proj2 (IH _)); eauto). discriminate.
      + split; [discriminate|]. intros ([|n ns'] & E' & ->); discriminate. }
  assert (S2 : forall fs, fields_size fs = None <-> exists f, In f fs /\ f_size f = None).
  { induction fs as [|f fs IH]; cbn [fields_size In].
    - split; [discriminate|]. intros (f & [] & _).
    - destruct (f_size f) eqn:F.
      + destruct (fields_size fs) eqn:G.
        * split; [discriminate|]. intros (g & [->|I] & E); [congruence|]. assert (X : Some n0 = None) by (apply IH; eauto). discriminate.
        * split; [|reflexivity]. intros _. destruct (proj1 IH eq_refl) as (g & I & E). eauto.
      + split; [|reflexivity]. intros _. eauto. }
  unfold accepted, length_matches, length_is_u16, packet_payload_size. rewrite !andb_true_iff, U. rewrite and_assoc. apply and_iff_compat_l.
  destruct (p_len p) as [n|n].
  - rewrite <- S1. destruct (fields_size (p_fields p)); [|split; intros [? ?]; discriminate]. rewrite N.eqb_eq, N.leb_le.
    split; intros [H1 H2]; split; congruence.
  - rewrite <- S2. destruct (fields_size (p_fields p)); rewrite N.leb_le; split; intros [H1 H2]; split; congruence.
Qed.
Example macro_accepts_ex :
  accepted p_cfg_prt_uart = true /\
  accepted (mk_desc "Short" x06 x00 (Fixed 19) (p_fields p_cfg_prt_uart)) = false /\
  accepted (mk_desc "Loose" x06 x00 (Max 100) (p_fields p_cfg_prt_uart)) = false.
Proof. split; [|split]; vm_compute; reflexivity. Qed.

(** The integer types: sizes and ranges, and the number that the bytes of such a field stand for: the one in the range of
    the type that is congruent to the little-endian number (the floats are read as their bits). *)
Theorem scalar_types :
  (forall s, (Z.of_N (scalar_size s), scalar_min s, scalar_max s) =
     match s with
     | U8 => (1, 0, 255) | U16 => (2, 0, 65535) | U32 | F32 => (4, 0, 4294967295) | F64 => (8, 0, 18446744073709551615)
     | I8 => (1, -128, 127) | I16 => (2, -32768, 32767) | I32 => (4, -2147483648, 2147483647)
     end%Z) /\
  (forall s l, lenN l = scalar_size s ->
     (scalar_min s <= decode (Scalar s) l <= scalar_max s)%Z /\
     exists k, (decode (Scalar s) l = Z.of_N (le_num l) + k * 256 ^ Z.of_N (scalar_size s))%Z).
Proof.
  split; [intros []; reflexivity|]. intros s l L.
  assert (E : forall l, unsigned_of l = Z.of_N (le_num l)).
  { clear. induction l as [|b l IH]; [reflexivity|]. cbn [unsigned_of le_num]. rewrite IH. lia. }
  assert (B : (0 <= unsigned_of l < 256 ^ Z.of_N (lenN l))%Z).
  { clear. induction l as [|b l IH]; [cbn; lia|]. rewrite lenN_cons. cbn [unsigned_of]. pose proof (b2n_lt b).
    replace (Z.of_N (1 + lenN l)) with (Z.succ (Z.of_N (lenN l))) by lia. rewrite Z.pow_succ_r by lia. lia. }
  rewrite L in B. cbn [decode]. rewrite <- E. generalize dependent (unsigned_of l). intros u B. clear E L.
  assert (P : forall M h, (M = 2 * h)%Z -> (0 < h)%Z -> (0 <= u < M)%Z ->
    (- h <= (u + h) mod M - h <= h - 1)%Z /\ exists k, ((u + h) mod M - h = u + k * M)%Z).
  { intros M h E H1 H2. pose proof (Z.mod_pos_bound (u + h) M ltac:(lia)). split; [lia|].
    exists (- ((u + h) / M))%Z. pose proof (Z.div_mod (u + h) M ltac:(lia)). lia. }
  destruct s; cbn [scalar_size] in B;
    [|exact (P (2 ^ 8) (2 ^ 7) eq_refl eq_refl B)%Z| |exact (P (2 ^ 16) (2 ^ 15) eq_refl eq_refl B)%Z| |exact (P (2 ^ 32) (2 ^ 31) eq_refl eq_refl B)%Z| |];
    (split; [unfold scalar_min, scalar_max; cbn [scalar_signed scalar_size]; lia|exists 0%Z; cbn [scalar_signed]; lia]).
Qed.
Example scalar_types_ex :
  decode (Scalar I16) [xfe; xff] = (-2)%Z /\ decode (Scalar U16) [xfe; xff] = 65534%Z /\
  decode (Scalar I32) [x00; x00; x00; x80] = (-2147483648)%Z.
Proof. vm_compute. auto. Qed.

(** The declared fixed length is the sum of the field sizes, for every declaration the macro accepts. *)
Theorem macro_length :
  forall p n, accepted p = true -> p_len p = Fixed n ->
    Forall (fun f => f_size f <> None) (p_fields p) /\ fixed_size (p_fields p) = n /\ n <= 65535.
Proof.
  intros p n A Hl. unfold accepted in A.
  apply andb_true_iff in A. destruct A as [A A3]. apply andb_true_iff in A. destruct A as [_ A2].
  unfold length_matches, length_is_u16 in *. rewrite Hl in *.
  destruct (packet_payload_size p) as [m|] eqn:S; [|discriminate]. apply N.eqb_eq in A2. subst m.
  split; [|split; [apply fields_size_fixed; exact S|lia]].
  unfold packet_payload_size in S. clear Hl A3. revert n S. induction (p_fields p) as [|f fs IH]; intros n S; [constructor|].
  cbn in S. destruct (f_size f) eqn:E; [|discriminate]. destruct (fields_size fs) eqn:E2; [|discriminate].
  constructor; [congruence|]. eapply IH. reflexivity.
Qed.

(** For every declaration of fixed length the macro accepts, every getter of the payload made by the builder returns
    the value given to the builder. *)
Theorem macro_round_trip :
  forall p (b : builder (p_fields p)) n bytes,
    accepted p = true -> p_len p = Fixed n -> desc_typed p -> builder_ok (p_fields p) b ->
    into_packet_bytes p b = Ret bytes ->
    exists payload, bytes = frame (p_class p) (p_id p) payload /\ lenN payload = n /\ reads_back payload (getters p) (p_fields p) b.
Proof.
  intros p b n bytes A Hl T B Eb. pose proof A as A'. unfold accepted in A'.
  apply andb_true_iff in A'. destruct A' as [A' A3]. apply andb_true_iff in A'. destruct A' as [_ A2].
  unfold length_matches, length_is_u16 in *. rewrite Hl in *.
  destruct (packet_payload_size p) as [m|] eqn:S; [|discriminate]. apply N.eqb_eq in A2. subst m.
  rewrite (into_packet_bytes_spec p b n T B S) in Eb by lia.
  destruct (wire_fields (p_fields p) b) as [ws| |] eqn:Ew; cbn [ret_map bind] in Eb; try discriminate. injection Eb as <-.
  exists (concat ws). split; [reflexivity|]. split; [exact (proj2 (wire_fields_len _ _ _ _ T B S Ew))|].
  apply (reads_back_gen (p_fields p) b n ws 0 []); auto.
Qed.

(** A declaration which is not one of the library *)
Definition ex_desc : pack_desc :=
  mk_desc "Example" x77 x01 (Fixed 11)
    [mk_field "a" None (Scalar I16) None false None;
     mk_field "b" None (Bytes 3) None true None;
     mk_field "c" (Some "flags") (Scalar U32) (Some (flags_map U32 bf_cfg_tp5_flags)) false None;
     mk_field "d" None (Scalar U16) None false None].
Example macro_round_trip_ex :
  accepted ex_desc = true /\ desc_typed ex_desc /\
  builder_ok (p_fields ex_desc) ((-2)%Z, ([x01; x02; x03], (5, (513%Z, tt)))) /\
  into_packet_bytes ex_desc ((-2)%Z, ([x01; x02; x03], (5, (513%Z, tt)))) =
    Ret [xb5; x62; x77; x01; x0b; x00; xfe; xff; x01; x02; x03; x05; x00; x00; x00; x01; x02; x8e; xc6].
Proof.
  split; [reflexivity|]. split; [|split; [|vm_compute; reflexivity]].
  - unfold desc_typed, ex_desc. cbn [p_fields]. each; typed_tac.
  - vm_compute. repeat split; try discriminate. now right.
Qed.

(** What the generated validator accepts, for every declaration whose variable part is one trailing field, or
    trailing fields with size functions. *)
Theorem macro_validator :
  forall p payload, layout_ok (p_fields p) = true -> lenN payload <= usize_max ->
    validate p payload = Ret (Ok tt) <-> accepts p payload.
Proof. intros p payload L Hl. apply validate_accepts; assumption. Qed.
Example macro_validator_ex :
  layout_ok (p_fields ex_desc) = true /\
  validate ex_desc (repeat x00 11) = Ret (Ok tt) /\
  validate ex_desc (repeat x00 10) <> Ret (Ok tt) /\ validate ex_desc (repeat x00 12) <> Ret (Ok tt).
Proof. split; [reflexivity|]. split; [reflexivity|]. split; vm_compute; discriminate. Qed.

(** Where the generated getters read, for the same declarations: at the offset given by the sizes of the fields before. *)
Theorem macro_getters :
  forall p payload k f,
    layout_ok (p_fields p) = true -> lenN payload <= usize_max -> length_accepts p payload ->
    nth_error (p_fields p) k = Some f ->
    exists g start stop,
      nth_error (getters p) k = Some g /\ g_field g = f /\
      located (p_fields p) k f payload start stop /\ start <= stop <= lenN payload /\
      existT (fun t => res (raw_val t)) (f_ty (g_field g)) (g_raw g payload) =
      existT (fun t => res (raw_val t)) (f_ty f) (Ret (decode (f_ty f) (takeN (stop - start) (dropN start payload)))).
Proof.
  intros p payload k f L Hl A Hk.
  destruct (getter_located p payload k f L Hl A Hk) as (off & fns & start & stop & H1 & H2 & H3 & H3b & H4).
  exists (getter_at f off fns), start, stop. split; [exact H1|]. split; [reflexivity|]. split; [exact H2|].
  split; [split; assumption|]. cbn [getter_at g_field g_raw]. rewrite H4. reflexivity.
Qed.

(** Violations: the macro accepts declarations for which it generates wrong code.  (No packet of
    the library is of these kinds, see [recv_layouts].) *)

(** The size function of these examples: the first byte of the payload *)
Definition first_byte (payload : list byte) : res N := let! b := get payload 0 in Ret (b2n b).

(** A field of fixed size after a counted field is read where the counted field starts. *)
Theorem macro_sized_after_counted_refuted :
  exists p payload g v,
    accepted p = true /\
    map f_name (p_fields p) = ["n"; "data"; "tail"]%string /\
    map f_ty (p_fields p) = [Scalar U8; Bytes 0; Scalar U8] /\
    validate p payload = Ret (Ok tt) /\
    payload = [x02; xaa; xbb; xcc] /\ nth_error (getters p) 2 = Some g /\
    v = 0xaa%Z /\
    existT (fun t => res (raw_val t)) (f_ty (g_field g)) (g_raw g payload) =
    existT (fun t => res (raw_val t)) (Scalar U8) (Ret v).
Proof.
  exists (mk_desc "X" x01 x01 (Max 100)
           [mk_field "n" None (Scalar U8) None false None;
            mk_field "data" None (Bytes 0) None false (Some first_byte);
            mk_field "tail" None (Scalar U8) None false None]).
  exists [x02; xaa; xbb; xcc]. eexists _, _. repeat (split; [reflexivity|]). reflexivity.
Qed.

(** A trailing field of the rest after a counted field starts where the counted field starts. *)
Theorem macro_rest_after_counted_refuted :
  exists p payload g,
    accepted p = true /\
    map f_name (p_fields p) = ["n"; "data"; "rest"]%string /\
    map f_ty (p_fields p) = [Scalar U8; Bytes 0; Bytes 0] /\
    validate p payload = Ret (Ok tt) /\
    payload = [x02; xaa; xbb; xcc] /\ nth_error (getters p) 2 = Some g /\
    existT (fun t => res (raw_val t)) (f_ty (g_field g)) (g_raw g payload) =
    existT (fun t => res (raw_val t)) (Bytes 0) (Ret [xaa; xbb; xcc]).
Proof.
  exists (mk_desc "X" x01 x01 (Max 100)
           [mk_field "n" None (Scalar U8) None false None;
            mk_field "data" None (Bytes 0) None false (Some first_byte);
            mk_field "rest" None (Bytes 0) None false None]).
  exists [x02; xaa; xbb; xcc]. eexists. repeat (split; [reflexivity|]). reflexivity.
Qed.

(** In such a declaration the validator computes the minimal length as 0, and panics on an empty payload. *)
Theorem macro_validator_total_refuted :
  exists p, accepted p = true /\ validate p [] = Panic.
Proof.
  exists (mk_desc "X" x01 x01 (Max 100)
           [mk_field "n" None (Scalar U8) None false None;
            mk_field "data" None (Bytes 0) None false (Some first_byte);
            mk_field "rest" None (Bytes 0) None false None]).
  split; reflexivity.
Qed.

(** ** C56 *)

(** With any writer that only appends, [create_packet] appends a prefix of the frame; when it returns no error,
    the whole frame; and an error is the writer's. *)
Theorem create_packet_appends :
  forall W E (w : mem_writer W E) contents p (b : builder (p_fields p)) n ws out,
    appends w contents ->
    desc_typed p -> builder_ok (p_fields p) b -> packet_payload_size p = Some n -> n <= 65535 ->
    wire_fields (p_fields p) b = Ret ws ->
    exists out' r written rest,
      create_packet w p b out = Ret (out', r) /\
      frame (p_class p) (p_id p) (concat ws) = written ++ rest /\
      contents out' = contents out ++ written /\
      (r = None -> rest = []).
Proof.
  intros W E w contents p b n ws out A T B S Hn Ew. rewrite (create_packet_spec w p b n ws out T B S Hn Ew).
  destruct (w_reserve w (n + 8) out) as [o [e|]] eqn:E1.
  - exists o, (Some e), [], (frame (p_class p) (p_id p) (concat ws)). rewrite app_nil_r.
    split; [reflexivity|]. split; [reflexivity|]. split; [exact (proj1 A _ _ _ _ E1)|discriminate].
  - destruct (write_all w (packet_pieces p ws) o) as [o' r] eqn:E2.
    destruct (write_all_appends w contents _ A _ _ _ E2) as (wr & rest & H1 & H2 & H3).
    exists o', r, wr, rest. split; [reflexivity|]. rewrite packet_pieces_frame in H1. split; [exact H1|].
    rewrite (proj1 A _ _ _ _ E1) in H2. auto.
Qed.

(** The error of the writer is returned as it is: it is the answer of [reserve_allocate], or of the first [write]
    that failed. *)
Theorem create_packet_error :
  forall W E (w : mem_writer W E) p (b : builder (p_fields p)) n ws out out' e,
    desc_typed p -> builder_ok (p_fields p) b -> packet_payload_size p = Some n -> n <= 65535 ->
    wire_fields (p_fields p) b = Ret ws ->
    create_packet w p b out = Ret (out', Some e) ->
    w_reserve w (n + 8) out = (out', Some e) \/
    exists before piece after o1 o2,
      packet_pieces p ws = before ++ piece :: after /\
      w_reserve w (n + 8) out = (o1, None) /\
      write_all w before o1 = (o2, None) /\ w_write w piece o2 = (out', Some e).
Proof.
  intros W E w p b n ws out out' e T B S Hn Ew. rewrite (create_packet_spec w p b n ws out T B S Hn Ew). intros H.
  destruct (w_reserve w (n + 8) out) as [o1 [e1|]] eqn:E1; [left; congruence|]. right.
  assert (forall pieces o, write_all w pieces o = (out', Some e) ->
            exists before piece after o2, pieces = before ++ piece :: after /\
              write_all w before o = (o2, None) /\ w_write w piece o2 = (out', Some e)) as Gen.
  { clear. induction pieces as [|s pieces IH]; intros o H; cbn [write_all] in H; [discriminate|].
    destruct (w_write w s o) as [o' [e'|]] eqn:E1.
    - exists [], s, pieces, o. cbn. rewrite E1. inversion H; subst. auto.
    - destruct (IH _ H) as (bf & pc & af & o2 & -> & H2 & H3).
      exists (s :: bf), pc, af, o2. cbn [app write_all]. rewrite E1. auto. }
  assert (H' : write_all w (packet_pieces p ws) o1 = (out', Some e)) by congruence. destruct (Gen _ _ H') as (bf & pc & af & o2 & H1 & H2 & H3).
  exists bf, pc, af, o1, o2. auto.
Qed.

(** A writer with room for a few bytes only: it writes as much as fits and then reports an error *)
Definition ex_writer (cap : N) : mem_writer (list byte) unit :=
  mk_writer
    (fun _ out => (out, None))
    (fun buf out => let room := cap - lenN out in
       if lenN buf <=? room then (out ++ buf, None) else (out ++ takeN room buf, Some NotEnoughMem)).
Example create_packet_appends_ex :
  appends (ex_writer 10) (fun out => out) /\
  create_packet (ex_writer 10) p_cfg_prt_uart ex_uart [xff] =
    Ret ([xff; xb5; x62; x06; x00; x14; x00; x01; x00; x00], Some NotEnoughMem).
Proof.
  split; [|vm_compute; reflexivity]. split.
  - intros n out out' r H. cbn in H. inversion H. reflexivity.
  - intros buf out out' r H. cbn [ex_writer w_write] in H. destruct (lenN buf <=? 10 - lenN out); inversion H; subst.
    + exists buf, []. rewrite app_nil_r. repeat split; reflexivity.
    + exists (takeN (10 - lenN out) buf), (dropN (10 - lenN out) buf). rewrite takeN_dropN. split; [reflexivity|].
      split; [reflexivity|discriminate].
Qed.

Print Assumptions builder_emits_frame.
Print Assumptions builder_fails_only_in_conversions.
Print Assumptions emission_ways_agree.
Print Assumptions variable_builder_emits_frame.
Print Assumptions cfg_val_set_frame.
Print Assumptions cfg_val_set_nonempty_refuted.
Print Assumptions cfg_val_set_extend_to.
Print Assumptions cfg_val_set_length_truncated_refuted.
Print Assumptions builder_places_fields.
Print Assumptions macro_accepts.
Print Assumptions scalar_types.
Print Assumptions macro_length.
Print Assumptions macro_round_trip.
Print Assumptions macro_validator.
Print Assumptions macro_getters.
Print Assumptions macro_sized_after_counted_refuted.
Print Assumptions macro_rest_after_counted_refuted.
Print Assumptions macro_validator_total_refuted.
Print Assumptions create_packet_appends.
Print Assumptions create_packet_error.
