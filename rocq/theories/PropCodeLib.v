(** * The generated code of the library computes the functions of the model

    PropCode.v is about the code generated for any declaration, in any program which offers the functions it names.  Here: the
    code generated for src/ubx_packets/packets.rs, in the program [ublox] of the library (SpecLib.v). *)
From Coq Require Import String Ascii List NArith ZArith Bool Lia.
From Verif Require Import Base BaseFacts Tokens Syntax DualBuffer Parser Checksum PackDesc GenRecv GenSend Dispatch Enums Macro Meaning
  Output Rust Code SpecCode SpecLib SourcePackets TableTypes TablePackets ProofMacro ProofMeaning ProofOutput ProofDispatch ProofRecv
  ProofEval ProofEvalSend ProofEvalRest ProofLib PropSource PropTypes PropOutput PropCode.
Import ListNotations.
Open Scope N_scope.
Open Scope list_scope.

(** ** C71 *)

(** The packets declared in the file *)
Definition packets_in (l : list output) : list pack_decl := flat_map (fun o => match o with OPacket _ d => [d] | _ => [] end) l.
(** The program in which the code for the packet [cur] runs, with any writer *)
Definition ublox {W E} (w : mem_writer W E) (cur : pack_decl) : program (lib_val W E) :=
  lib w (env_of packets_rs) (packets_in (outputs packets_rs)) (combine (recv_of (outputs packets_rs)) recv_packets) cur.

(** *** What is checked of the file *)

Definition strings_nodup (l : list string) : bool :=
  (fix go l := match l with [] => true | v :: l' => negb (existsb (String.eqb v) l') && go l' end) l.
Lemma strings_nodup_ok l : strings_nodup l = true -> NoDup l.
Proof.
  induction l as [|v l IH]; intros H; [constructor|]. cbn [strings_nodup] in H. apply andb_prop in H. destruct H as [H1 H2].
  constructor; [|exact (IH H2)]. apply negb_true_iff in H1. intros Hin.
  assert (existsb (String.eqb v) l = true); [|congruence]. apply existsb_exists. exists v. split; [exact Hin|apply String.eqb_refl].
Qed.

Definition receivable_b (d : pack_decl) : bool :=
  match gen_recv d with Good _ => true | _ => false end && (sized_total (pd_fields d) <=? usize_max) &&
  forallb (fun f => match fd_raw f with Items => false | _ => true end) (pd_fields d).
Lemma receivable_b_ok d : receivable_b d = true -> receivable d.
Proof.
  unfold receivable_b. intros H. apply andb_prop in H. destruct H as [H H3]. apply andb_prop in H. destruct H as [H1 H2].
  constructor.
  - destruct (gen_recv d) as [[]| |]; [reflexivity|discriminate..].
  - now apply N.leb_le.
  - apply Forall_forall. intros f Hf. apply (proj1 (forallb_forall _ _) H3) in Hf. destruct (fd_raw f); [discriminate..|discriminate Hf].
Qed.

Lemma env_enums_ok : Forall (fun x => NoDup (map fst (enum_variants (ed_desc x)))) (en_enums (env_of packets_rs)).
Proof.
  rewrite packets_env_eq. assert (H : forallb (fun x => no_dup_names (enum_variants (ed_desc x))) (en_enums packets_env) = true)
    by (vm_cast_no_check (eq_refl true)).
  apply Forall_forall. intros x Hx. apply no_dup_names_ok. exact (proj1 (forallb_forall _ _) H x Hx).
Qed.
Lemma recv_reads : exists cs, recv_codes packets_rs = Some cs /\
  forall2b (packet_reads (env_of packets_rs)) (recv_of (outputs packets_rs)) cs = true.
Proof.
  rewrite recv_data_eq, packets_env_eq, outputs_eq. unfold recv_data. eexists. split; [reflexivity|].
  vm_cast_no_check (eq_refl true).
Qed.
Lemma send_writes : exists cs, send_codes packets_rs = Some cs /\
  forall2b (packet_writes (env_of packets_rs)) (send_of (outputs packets_rs)) cs = true.
Proof.
  rewrite send_data_eq, packets_env_eq, outputs_eq. unfold send_data. eexists. split; [reflexivity|].
  vm_cast_no_check (eq_refl true).
Qed.
Lemma recv_receivable : Forall receivable (recv_of (outputs packets_rs)).
Proof.
  rewrite outputs_eq. assert (H : forallb receivable_b (recv_of packets_outputs) = true) by (vm_cast_no_check (eq_refl true)).
  apply Forall_forall. intros x Hx. apply receivable_b_ok. exact (proj1 (forallb_forall _ _) H x Hx).
Qed.
Lemma recv_fn_names : Forall (fun d => NoDup (map fn_name (ref_fns d))) (recv_of (outputs packets_rs)).
Proof.
  rewrite outputs_eq.
  assert (H : forallb (fun d => strings_nodup (map fn_name (as_bytes_fn :: getter_fns 0 [] (pd_fields d) ++ [validate_fn d]))) (recv_of packets_outputs) = true)
    by (vm_cast_no_check (eq_refl true)).
  apply Forall_forall. intros x Hx. rewrite ref_fns_eq. apply strings_nodup_ok. exact (proj1 (forallb_forall _ _) H x Hx).
Qed.
Lemma packet_names : NoDup (map pd_name (packets_in (outputs packets_rs))) /\
  Forall (fun d => pd_name d <> "Self"%string) (packets_in (outputs packets_rs)).
Proof.
  rewrite outputs_eq. split.
  - apply strings_nodup_ok. vm_cast_no_check (eq_refl true).
  - assert (H : forallb (fun d => negb (String.eqb (pd_name d) "Self")) (packets_in packets_outputs) = true) by (vm_cast_no_check (eq_refl true)).
    apply Forall_forall. intros x Hx E. apply (proj1 (forallb_forall _ _) H) in Hx. rewrite E in Hx. discriminate Hx.
Qed.
Lemma recv_names : NoDup (map pd_name (recv_of (outputs packets_rs))).
Proof. rewrite outputs_eq. apply strings_nodup_ok. vm_cast_no_check (eq_refl true). Qed.
Lemma recv_declared l d : In d (recv_of l) -> In d (packets_in l).
Proof.
  unfold recv_of, packets_in. rewrite !in_flat_map. intros (o & Ho & H). exists o. split; [exact Ho|].
  destruct o as [[] d'| | |]; exact H || destruct H.
Qed.
Lemma send_declared l d : In d (send_of l) -> In d (packets_in l).
Proof.
  unfold send_of, packets_in. rewrite !in_flat_map. intros (o & Ho & H). exists o. split; [exact Ho|].
  destruct o as [[] d'| | |]; exact H || destruct H.
Qed.

Definition sizes_same (d : pack_decl) (p : pack_desc) : bool :=
  strings_nodup (map accessor (p_fields p)) &&
  match decl_size 0 (pd_fields d), packet_payload_size p with
  | Good (Some a), Some b => (a =? b) && (a <=? 65535)
  | Good (Some _), None => false
  | _, None => true
  | _, _ => false
  end.
Lemma send_sizes : Forall2 (fun d p => sizes_same d p = true) (send_of (outputs packets_rs)) send_packets.
Proof. rewrite outputs_eq. apply forall2b_ok. vm_cast_no_check (eq_refl true). Qed.
Lemma recv_codes_all : recv_codes packets_rs = all_some (Meaning.packet_of (env_of packets_rs)) (recv_of (outputs packets_rs)).
Proof. reflexivity. Qed.
Lemma send_codes_all : send_codes packets_rs = all_some (Meaning.packet_of (env_of packets_rs)) (send_of (outputs packets_rs)).
Proof. reflexivity. Qed.
Definition flags_item_ok (i : syn_item) : bool :=
  match expand i with
  | Good [OFlags d] =>
      let x := flags_text_of (item_body i) in
      match scalar_of [TIdent (ft_repr x)] with
      | Some s => negb (scalar_signed s) && (b_nbits (fl_desc d) =? 8 * scalar_size s) &&
                  Nat.eqb (length (ft_const_attrs x)) (length (b_consts (fl_desc d)))
      | None => false
      end
  | _ => true
  end.
Lemma flags_items_ok : forallb flags_item_ok (file_items packets_rs) = true.
Proof. rewrite packets_file_items. vm_cast_no_check (eq_refl true). Qed.
Local Opaque outputs file_items env_of packets_rs recv_codes send_codes.

Lemma forall2_nth {A B} (R : A -> B -> Prop) l m :
  Forall2 R l m <-> length l = length m /\ forall i a b, nth_error l i = Some a -> nth_error m i = Some b -> R a b.
Proof.
  split.
  - induction 1 as [|a b l m H _ [IH1 IH2]]; [split; [reflexivity|intros [] ? ? ?; discriminate]|].
    split; [cbn; now f_equal|]. intros [|i] x y Hx Hy; cbn in Hx, Hy; [injection Hx as <-; injection Hy as <-; exact H|exact (IH2 i x y Hx Hy)].
  - revert m. induction l as [|a l IH]; intros [|b m] [Hl H]; try discriminate Hl; constructor.
    + exact (H O a b eq_refl eq_refl).
    + apply IH. split; [now injection Hl|]. intros i x y Hx Hy. exact (H (S i) x y Hx Hy).
Qed.
Lemma nth_combine {A B} (l : list A) (m : list B) i a b : nth_error l i = Some a -> nth_error m i = Some b -> In (a, b) (combine l m).
Proof.
  revert l m. induction i as [|i IH]; intros [|x l] [|y m] Ha Hb; try discriminate; cbn in *; [left; congruence|right; now apply IH].
Qed.
Lemma nth_forall {A} (R : A -> Prop) l i a : Forall R l -> nth_error l i = Some a -> R a.
Proof. intros H Hi. exact (proj1 (Forall_forall _ _) H a (nth_error_In _ _ Hi)). Qed.
Lemma combine_names {A B C} (f : A -> C) (l : list A) (m : list B) : length l = length m -> map (fun x => f (fst x)) (combine l m) = map f l.
Proof. revert m. induction l as [|a l IH]; intros [|b m] H; try discriminate; [reflexivity|]. cbn. f_equal. apply IH. now injection H. Qed.
(** The declarations with their codes and descriptions *)
Lemma triple e ds cs ps : all_some (Meaning.packet_of e) ds = Some cs -> meanings (Some cs) = Some ps ->
  length ds = length ps /\
  forall i d p, nth_error ds i = Some d -> nth_error ps i = Some p ->
    exists c, nth_error cs i = Some c /\ Meaning.packet_of e d = Some c /\ packet_meaning c = Some p.
Proof.
  intros H1 H2. cbn in H2. apply all_some_forall in H1, H2. apply forall2_nth in H1, H2. destruct H1 as [L1 H1], H2 as [L2 H2].
  split; [congruence|]. intros i d p Hd Hp. destruct (nth_error cs i) as [c|] eqn:Ec.
  - exists c. split; [reflexivity|]. split; [exact (H1 _ _ _ Hd Ec)|exact (H2 _ _ _ Ec Hp)].
  - apply nth_error_None in Ec. assert (nth_error ds i <> None) by congruence. apply nth_error_Some in H. lia.
Qed.

Record recv_facts_of {A} (P : program A) (item_v : item -> Rust.value A) (decls : list pack_decl) (descs : list pack_desc) (d : pack_decl) (p : pack_desc) : Prop := {
  rf_decl : In d decls;
  rf_pair : In (d, p) (combine decls descs);
  rf_header : header_means d p;
  rf_fields : Forall2 (fun df f => exists emb, field_means P item_v (pd_name d) df f emb /\ faithful f emb) (pd_fields d) (p_fields p);
  rf_receivable : receivable d;
  rf_names : NoDup (map fn_name (ref_fns d));
}.

Section Library.
  Context {W E : Type} (w : mem_writer W E) (cur : pack_decl).
  Notation P := (ublox w cur).
  Notation value := (value (lib_val W E)).
  Notation item_v := (lib_item_v (W := W) (E := E)).

  Notation recv_facts := (recv_facts_of P item_v (recv_of (outputs packets_rs)) recv_packets).
  Lemma all_recv_facts : Forall2 recv_facts (recv_of (outputs packets_rs)) recv_packets.
  Proof.
    destruct recv_reads as (cs & Hc & Hr). pose proof source_recv_packets as Hs. rewrite Hc in Hs. rewrite recv_codes_all in Hc.
    destruct (triple _ _ _ _ Hc Hs) as [Hl H]. apply forall2_nth. split; [exact Hl|]. intros i d p Hd Hp.
    destruct (H i d p Hd Hp) as (c & Hi & H1 & H2). apply forall2b_ok in Hr. apply forall2_nth in Hr. destruct Hr as [_ Hr].
    destruct (packet_lib w (env_of packets_rs) (packets_in (outputs packets_rs)) (combine (recv_of (outputs packets_rs)) recv_packets) cur
                env_enums_ok d c p H1 H2 (Hr _ _ _ Hd Hi)) as [Hh Hf].
    constructor.
    - exact (nth_error_In _ _ Hd).
    - exact (nth_combine _ _ _ _ _ Hd Hp).
    - exact Hh.
    - exact Hf.
    - exact (nth_forall _ _ _ _ recv_receivable Hd).
    - exact (nth_forall _ _ _ _ recv_fn_names Hd).
  Qed.
  Lemma recv_means d p : recv_facts d p -> packet_means P item_v d p.
  Proof.
    intros [H1 H2 H3 H4 H5 H6]. constructor; [exact H3|]. clear - H4. induction H4 as [|df f ds fs (emb & H & _) _ IH]; constructor; [now exists emb|exact IH].
  Qed.
  Lemma received_names : NoDup (map (fun x => pd_name (fst x)) (combine (recv_of (outputs packets_rs)) recv_packets)).
  Proof.
    rewrite (combine_names pd_name); [exact recv_names|]. exact (proj1 (proj1 (forall2_nth _ _ _) all_recv_facts)).
  Qed.
  Lemma knows_recv d p : recv_facts d p -> knows_packet P d.
  Proof.
    intros H. constructor.
    - apply lib_consts; [exact (proj1 packet_names)|exact (recv_declared _ _ (rf_decl _ _ _ _ _ _ H))|].
      exact (proj1 (Forall_forall _ _) (proj2 packet_names) d (recv_declared _ _ (rf_decl _ _ _ _ _ _ H))).
    - intros payload. exact (lib_validate w (env_of packets_rs) (packets_in (outputs packets_rs))
        (combine (recv_of (outputs packets_rs)) recv_packets) cur d p payload received_names (rf_pair _ _ _ _ _ _ H) (recv_means _ _ H)
        (rf_receivable _ _ _ _ _ _ H)).
  Qed.

  (** Every getter of every packet: the generated function returns what the getter of the model returns, and different values
      of the field are different values of the program. *)
  Theorem library_getter_code :
    Forall2 (fun d p => forall g, In g (getters p) ->
      exists emb : fvalue (g_field g) -> value, faithful (g_field g) emb /\
        (exists fn, fn_named (ref_fns d) (accessor (g_field g)) = Some fn /\
           forall payload, result P fn [ref_v (pd_name d) payload] = Some (ret_map emb (g_val g payload))) /\
        (f_map (g_field g) <> None -> f_size (g_field g) <> None ->
         exists fn, fn_named (ref_fns d) (accessor (g_field g) ++ "_raw") = Some fn /\
           forall payload, result P fn [ref_v (pd_name d) payload] = Some (ret_map (raw_v item_v (f_ty (g_field g))) (g_raw g payload))))
      (recv_of (outputs packets_rs)) recv_packets.
  Proof.
    pose proof all_recv_facts as Ha. apply forall2_nth in Ha. destruct Ha as [Hl Ha]. apply forall2_nth. split; [exact Hl|].
    intros i d p Hd Hp g Hg. pose proof (Ha i d p Hd Hp) as H. clear Ha. apply In_nth_error in Hg. destruct Hg as (k & Hg).
    assert (Hf : nth_error (p_fields p) k = Some (g_field g)).
    { unfold getters in Hg. rewrite <- (gen_getters_fields (p_fields p) 0 []), nth_error_map. rewrite Hg. reflexivity. }
    pose proof (rf_fields _ _ _ _ _ _ H) as HF. apply forall2_nth in HF. destruct HF as [HL HF].
    destruct (nth_error (pd_fields d) k) as [df|] eqn:Ed.
    2: { apply nth_error_None in Ed. assert (nth_error (p_fields p) k <> None) by congruence. apply nth_error_Some in H0. lia. }
    destruct (HF _ _ _ Ed Hf) as (emb & Hm & Hfa). exists emb. split; [exact Hfa|].
    exact (code_getters P item_v d p k df g emb (recv_means _ _ H) (rf_receivable _ _ _ _ _ _ H) (rf_names _ _ _ _ _ _ H) Ed Hg Hm).
  Qed.

  (** [validate] of every packet *)
  Theorem library_validate_code :
    Forall2 (fun d p => p_name p = pd_name d /\
      (exists fn, fn_named (ref_fns d) "validate" = Some fn /\
         forall payload, result P fn [VBytes payload] = Some (ret_map unit_result_v (validate p payload))) /\
      (exists fn, fn_named (ref_fns d) "as_bytes" = Some fn /\
         forall payload, result P fn [ref_v (pd_name d) payload] = Some (Ret (VBytes payload))))
      (recv_of (outputs packets_rs)) recv_packets.
  Proof.
    pose proof all_recv_facts as Ha. apply forall2_nth in Ha. destruct Ha as [Hl Ha]. apply forall2_nth. split; [exact Hl|].
    intros i d p Hd Hp. pose proof (Ha i d p Hd Hp) as H. split; [exact (pm_name _ _ (rf_header _ _ _ _ _ _ H))|]. split.
    - exact (code_validate P item_v d p (recv_means _ _ H) (rf_receivable _ _ _ _ _ _ H) (rf_names _ _ _ _ _ _ H)).
    - destruct (code_as_bytes P d []) as (fn & H1 & _). exists fn. split; [exact H1|]. intros payload.
      destruct (code_as_bytes P d payload) as (fn' & H1' & H2). rewrite H1 in H1'. injection H1' as <-. exact H2.
  Qed.

  (** The dispatch over the packets of the parser *)
  Lemma table_entries : Forall2 (table_entry P item_v) (map p_name recv_table) recv_table.
  Proof.
    assert (H : forall p, In p recv_table -> table_entry P item_v (p_name p) p).
    { intros p Hp. apply (proj2 source_recv_table) in Hp. apply In_nth_error in Hp. destruct Hp as (i & Hp).
      pose proof all_recv_facts as Ha. apply forall2_nth in Ha. destruct Ha as [Hl Ha].
      destruct (nth_error (recv_of (outputs packets_rs)) i) as [d|] eqn:Ed.
      2: { apply nth_error_None in Ed. assert (Hn : nth_error recv_packets i <> None) by congruence. apply nth_error_Some in Hn. lia. }
      pose proof (Ha i d p Ed Hp) as H. exists d. split; [symmetry; exact (pm_name _ _ (rf_header _ _ _ _ _ _ H))|].
      split; [exact (recv_means _ _ H)|]. split; [exact (rf_receivable _ _ _ _ _ _ H)|exact (knows_recv _ _ H)]. }
    generalize recv_table H. clear H. intros l. induction l as [|p l IH]; intros H; [constructor|]. cbn [map].
    constructor; [apply H; left; reflexivity|apply IH; intros q Hq; apply H; right; exact Hq].
  Qed.

  Theorem library_dispatch_code :
    exists r, unions_of (outputs packets_rs) = [r] /\ rd_packets r = map p_name recv_table /\
      (forall class msg_id payload,
         result P (match_packet_fn r) [u8_v class; u8_v msg_id; VBytes payload] =
         Some (ret_map (packet_result_v (rd_name r) (rd_unknown r)) (match_packet recv_table class msg_id payload))) /\
      (forall x, match x with Known p _ => In p recv_table | Unknown _ _ _ => True end ->
         result P (class_and_msg_id_fn r) [packet_v (rd_name r) (rd_unknown r) x] = Some (Ret (two_v (class_and_msg_id x)))) /\
      const P (k_val (max_payload_len_const r)) = Some (u16_v (parser_max_payload_len recv_table)).
  Proof.
    exists (mk_rd "PacketRef" "UbxUnknownPacketRef" (map p_name recv_table)). split; [exact (proj1 source_recv_table)|].
    split; [reflexivity|]. split; [|split].
    - intros class msg_id payload. exact (code_match_packet P item_v (mk_rd _ _ _) _ class msg_id payload table_entries).
    - intros x Hx. apply (code_class_and_msg_id P item_v (mk_rd _ _ _) _ x table_entries); [|exact Hx].
      intros Hin. assert (Hb : existsb (String.eqb "Unknown") (map p_name recv_table) = true).
      { apply existsb_exists. exists "Unknown"%string. split; [exact Hin|reflexivity]. }
      revert Hb. vm_compute. discriminate.
    - apply (code_max_payload_len P item_v (mk_rd _ _ _) _ table_entries). intros a b.
      rewrite (max_u16_eval P). apply lib_max_u16.
  Qed.
End Library.

(** The builders: [bv b] are the fields of the builder [b] in the program, each with its own value ([builder_means]), and
    different builders are different.  The code runs as code of its packet ([Self]), with any writer. *)
Theorem library_builder_code {W E} (w : mem_writer W E) :
  Forall2 (fun d p => p_name p = pd_name d /\
    let P := ublox w d in
    exists bv : builder (p_fields p) -> list (string * value (lib_val W E)),
      (forall b, builder_ok (p_fields p) b -> builder_means P lib_item_v (pd_fields d) (p_fields p) b (bv b)) /\
      (forall b c, builder_ok (p_fields p) b -> builder_ok (p_fields p) c -> bv b = bv c -> b = c) /\
      match packet_payload_size p with
      | Some _ => exists bytes create,
          fn_named (builder_fns d) "into_packet_bytes" = Some bytes /\ fn_named (creator_fns d) "create_packet" = Some create /\
          forall b, builder_ok (p_fields p) b ->
            result P bytes [builder_v (pd_name d) (bv b)] = Some (ret_map VBytes (into_packet_bytes p b)) /\
            result (linked P "into_packet_bytes" bytes) (from_builder_fn (pd_name d ++ "Builder")) [builder_v (pd_name d) (bv b)] =
              Some (ret_map VBytes (into_packet_bytes p b)) /\
            (forall out, call P create [builder_v (pd_name d) (bv b); VAny (LWriter out)] =
               Some (ret_map (fun x => (write_result_v error_value (snd x), [builder_v (pd_name d) (bv b); VAny (LWriter (fst x))]))
                       (create_packet w p b out)))
      | None => exists extend vec,
          fn_named (builder_fns d) "extend_to" = Some extend /\ fn_named (builder_fns d) "into_packet_vec" = Some vec /\
          forall b, builder_ok (p_fields p) b ->
            (forall o, call P extend [builder_v (pd_name d) (bv b); VBytes o] =
               Some (ret_map (fun o' => (unit_v, [builder_v (pd_name d) (bv b); VBytes o'])) (extend_to p b o))) /\
            result (linked P "extend_to" extend) vec [builder_v (pd_name d) (bv b)] = Some (ret_map VBytes (into_packet_vec p b))
      end) (send_of (outputs packets_rs)) send_packets.
Proof.
  destruct send_writes as (cs & Hc & Hr). pose proof source_send_packets as Hs. rewrite Hc in Hs. rewrite send_codes_all in Hc.
  destruct (triple _ _ _ _ Hc Hs) as [Hl H]. apply forall2_nth. split; [exact Hl|]. intros i d p Hd Hp.
  destruct (H i d p Hd Hp) as (c & Hi & H1 & H2). apply forall2b_ok in Hr. apply forall2_nth in Hr. destruct Hr as [_ Hr].
  destruct (packet_lib_sends w (env_of packets_rs) (packets_in (outputs packets_rs)) (combine (recv_of (outputs packets_rs)) recv_packets) d
              env_enums_ok d c p H1 H2 (Hr _ _ _ Hd Hi)) as [Hh Hf].
  split; [exact (pm_name _ _ Hh)|]. intros P.
  pose proof (send_declared _ _ (nth_error_In _ _ Hd)) as Hin.
  assert (Hk : knows_consts P d)
    by (apply lib_consts; [exact (proj1 packet_names)|exact Hin|exact (proj1 (Forall_forall _ _) (proj2 packet_names) d Hin)]).
  assert (HL : library P lib_item_v) by apply lib_library.
  assert (HW : writer_means P w (fun x => VAny (LWriter x)) error_value) by apply lib_writer.
  pose proof send_sizes as Hz. apply forall2_nth in Hz. pose proof (proj2 Hz i d p Hd Hp) as Hsz. clear Hz.
  unfold sizes_same in Hsz. apply andb_prop in Hsz. destruct Hsz as [Hacc Hsz]. apply strings_nodup_ok in Hacc.
  destruct (builder_lib _ _ _ _ _ _ _ Hf) as (bv & Hb & Hinj). fold P in Hb.
  exists bv. split; [exact Hb|]. split; [exact Hinj|].
  destruct (packet_payload_size p) as [size|] eqn:Es.
  - destruct (decl_size 0 (pd_fields d)) as [[n|]| |] eqn:Ed; try discriminate Hsz. apply andb_prop in Hsz. destruct Hsz as [Hn Hm].
    apply N.eqb_eq in Hn. subst n. apply N.leb_le in Hm.
    assert (Hself : c_const P ["Self"; "PACKET_LEN"]%string = Some (usize_v (size + 8))).
    { unfold P, ublox. cbn [c_const lib lib_const String.eqb Ascii.eqb Bool.eqb]. rewrite Ed. reflexivity. }
    destruct (code_into_packet_bytes P lib_item_v d p size Hh Hk HL Hacc Es Hm Ed Hself) as (bytes & Hn1 & Hb1).
    destruct (code_create_packet P lib_item_v w _ _ d p size Hh Hk HL HW Hacc Es Hm Ed) as (create & Hn2 & Hb2).
    exists bytes, create. split; [exact Hn1|]. split; [exact Hn2|]. intros b Hok. specialize (Hb b Hok).
    destruct (Hb1 _ _ Hb) as [G1 G2]. split; [exact G1|]. split; [exact G2|]. intros out. exact (Hb2 _ _ out Hb).
  - assert (Hd' : forall n, decl_size 0 (pd_fields d) <> Good (Some n))
      by (intros n E'; rewrite E' in Hsz; discriminate Hsz).
    destruct (code_extend_to P lib_item_v d p Hh Hk HL Hacc Es Hd') as (extend & vec & Hn1 & Hn2 & Hb1).
    exists extend, vec. split; [exact Hn1|]. split; [exact Hn2|]. intros b Hok. exact (Hb1 _ _ (Hb b Hok)).
Qed.

(** The functions of the enums: what the program has under their names *)
Lemma enum_names :
  Forall (fun x => enum_named (env_of packets_rs) (e_name (ed_desc x)) = Some x /\ e_name (ed_desc x) <> "Self"%string /\
                   decl_named (packets_in (outputs packets_rs)) (e_name (ed_desc x)) = None /\ float_of (e_name (ed_desc x)) = None)
    (enums_of (outputs packets_rs)).
Proof.
  assert (Hn : NoDup (map (fun x => e_name (ed_desc x)) (enums_of (outputs packets_rs))))
    by (rewrite outputs_eq; apply strings_nodup_ok; vm_cast_no_check (eq_refl true)).
  assert (H : forallb (fun x => negb (String.eqb (e_name (ed_desc x)) "Self") &&
              match decl_named (packets_in (outputs packets_rs)) (e_name (ed_desc x)) with None => true | Some _ => false end &&
              match float_of (e_name (ed_desc x)) with None => true | Some _ => false end) (enums_of (outputs packets_rs)) = true)
    by (rewrite outputs_eq; vm_cast_no_check (eq_refl true)).
  rewrite forallb_forall in H. apply Forall_forall. intros x Hx. specialize (H x Hx). apply andb_prop in H. destruct H as [H H3].
  apply andb_prop in H. destruct H as [H1 H2]. split; [|split; [|split]].
  - exact (find_named (fun x => e_name (ed_desc x)) _ x Hn Hx).
  - intros E. rewrite E in H1. discriminate H1.
  - destruct (decl_named _ _); [discriminate H2|reflexivity].
  - destruct (float_of _); [discriminate H3|reflexivity].
Qed.
Lemma enums_from_valid : Forall (fun x => ed_from x = Some From -> forall n, n < 256 -> enum_is_valid (ed_desc x) n = true)
  (enums_of (outputs packets_rs)).
Proof.
  apply Forall_forall. intros x Hx Hf n Hn.
  assert (Hin : In (ed_desc x) enums_from).
  { rewrite <- (proj1 (proj2 source_enums)). apply in_map. apply filter_In. split; [exact Hx|]. now rewrite Hf. }
  destruct (proj1 (proj2 PropTypes.library_enums) _ Hin n Hn) as (v & Hv & _). unfold enum_from in Hv. unfold enum_is_valid.
  destruct (find (fun v => snd v =? n) (enum_variants (ed_desc x))) as [v'|] eqn:Ef; [|discriminate Hv].
  apply find_some in Ef. apply existsb_exists. exists v'. exact Ef.
Qed.
Theorem library_enum_code {W E} (w : mem_writer W E) cur :
  let P := ublox w cur in
  Forall (fun x => forall attrs,
    let name := e_name (ed_desc x) in
    let fns := impl_fns [TIdent "impl"; TIdent name] (enum_items attrs x) in
    (ed_from x = Some From ->
     exists fn, fn_named fns "from" = Some fn /\ forall n, n < 256 ->
       result P fn [VInt (I U8) (Z.of_N n)] = Some (ret_map (variant_v name) (enum_from (ed_desc x) n)) /\
       fn_v P (method [TIdent name] "from") [VInt (I U8) (Z.of_N n)] = result P fn [VInt (I U8) (Z.of_N n)]) /\
    (ed_from x = Some FromUnchecked ->
     exists fn valid, fn_named fns "from_unchecked" = Some fn /\ fn_named fns "is_valid" = Some valid /\ forall n, n < 256 ->
       result P fn [VInt (I U8) (Z.of_N n)] = Some (ret_map (variant_v name) (enum_from (ed_desc x) n)) /\
       fn_v P (method [TIdent name] "from_unchecked") [VInt (I U8) (Z.of_N n)] = result P fn [VInt (I U8) (Z.of_N n)] /\
       result P valid [VInt (I U8) (Z.of_N n)] = Some (Ret (VBool (enum_is_valid (ed_desc x) n))) /\
       fn_v P (method [TIdent name] "is_valid") [VInt (I U8) (Z.of_N n)] = result P valid [VInt (I U8) (Z.of_N n)]) /\
    (ed_into_raw x = true ->
     exists fn, fn_named fns "into_raw" = Some fn /\ forall v, In v (enum_variants (ed_desc x)) ->
       result P fn [variant_v name v] = Some (Ret (VInt (I U8) (Z.of_N (enum_into_raw v)))) /\
       fn_v P (method [TIdent name] "into_raw") [variant_v name v] = result P fn [variant_v name v]))
    (enums_of (outputs packets_rs)).
Proof.
  intros P. apply Forall_forall. intros x Hx attrs name fns.
  destruct (proj1 (Forall_forall _ _) enum_names x Hx) as (H1 & H2 & H3 & H4).
  pose proof (proj1 (Forall_forall _ _) enums_from_valid x Hx) as Hval. fold name in H1, H2, H3, H4.
  assert (Hk : knows_variants P name (enum_variants (ed_desc x))) by (apply lib_variants; [exact env_enums_ok|assumption..]).
  assert (Hno : NoDup (map fst (enum_variants (ed_desc x)))) by (exact (named_ok _ env_enums_ok _ _ H1)).
  assert (Hfns : fns = match ed_from x with
                       | Some From => [enum_from_fn name (enum_variants (ed_desc x))]
                       | Some FromUnchecked => [enum_from_unchecked_fn name (enum_variants (ed_desc x)); enum_is_valid_fn (enum_variants (ed_desc x))]
                       | None => []
                       end ++ (if ed_into_raw x then [enum_into_raw_fn] else [])).
  { unfold fns, enum_items, impl_fns. fold name. cbn [flat_map]. rewrite !flat_map_app.
    assert (Eh : tokens_eqb [TIdent "impl"; TIdent name] [TIdent "impl"; TIdent name] = true) by apply tokens_eqb_refl.
    destruct (ed_from x) as [[]|], (ed_into_raw x); cbn [flat_map app]; rewrite ?Eh; reflexivity. }
  assert (Hfn : forall fn v, String.eqb fn "validate" = false -> fn_v P (method [TIdent name] fn) [v] = enum_fn name fn x v).
  { intros fn v Hv. unfold P, ublox. rewrite fn_method by exact Hv. unfold type_fn. rewrite H4, H1. reflexivity. }
  rewrite Hfns. split; [|split]; intros Ef.
  - rewrite Ef. eexists. split; [reflexivity|]. intros n Hn.
    pose proof (proj1 (code_enum P (ed_desc x) n Hk) (Hval Ef n Hn)) as G. fold name in G. split; [exact G|]. rewrite G.
    rewrite Hfn by reflexivity. unfold enum_fn. rewrite Ef. cbn [from_fn_ok String.eqb Ascii.eqb Bool.eqb andb orb]. now rewrite N2Z.id.
  - rewrite Ef. eexists. eexists. split; [reflexivity|]. split; [reflexivity|]. intros n Hn.
    destruct (code_enum P (ed_desc x) n Hk) as (_ & G1 & G2 & _). fold name in G1. rewrite G1, G2. rewrite !Hfn by reflexivity.
    unfold enum_fn. rewrite Ef. cbn [from_fn_ok String.eqb Ascii.eqb Bool.eqb andb orb]. rewrite N2Z.id. auto.
  - rewrite Ef. exists enum_into_raw_fn. split; [destruct (ed_from x) as [[]|]; reflexivity|]. intros v Hv.
    destruct (code_enum P (ed_desc x) 0 Hk) as (_ & _ & _ & G). fold name in G. rewrite (G v Hv). split; [reflexivity|].
    rewrite Hfn by reflexivity. unfold enum_fn, variant_v. rewrite Ef, (String.eqb_refl name), (variant_named_in _ _ Hno Hv). reflexivity.
Qed.

(** The constants of the bit flags: for each declaration, those of the model, in order *)
Theorem library_flag_code {W E} (w : mem_writer W E) cur i d :
  In i (file_items packets_rs) -> expand i = Good [OFlags d] ->
  let x := flags_text_of (item_body i) in
  exists s, scalar_of [TIdent (ft_repr x)] = Some s /\ b_nbits (fl_desc d) = 8 * scalar_size s /\
    Forall2 (fun bit c =>
      (exists a, flag_text (ft_repr x) s (combine (b_consts (fl_desc d)) (ft_const_attrs x)) bit =
                 a ++ TIdent "const" :: TIdent (fst c) :: p1 "=" ++ print (flag_value (ft_repr x) s bit)) /\
      const (ublox w cur) (flag_value (ft_repr x) s bit) = Some (VInt (I s) (Z.of_N (snd c))))
      (map N.of_nat (seq 0 (N.to_nat (b_nbits (fl_desc d))))) (flags_items (fl_desc d)).
Proof.
  intros Hi He x. pose proof (proj1 (forallb_forall _ _) flags_items_ok i Hi) as H. unfold flags_item_ok in H. rewrite He in H. fold x in H.
  cbv zeta in H. destruct (scalar_of [TIdent (ft_repr x)]) as [s|] eqn:Es; [|discriminate H]. exists s. split; [reflexivity|].
  apply andb_prop in H. destruct H as [H Hl]. apply andb_prop in H. destruct H as [Hs Hn]. apply negb_true_iff in Hs. apply N.eqb_eq in Hn.
  apply PeanoNat.Nat.eqb_eq in Hl. split; [exact Hn|]. apply code_flags; [exact Es|exact Hs|lia|exact Hl].
Qed.

(** Such a declaration, with named constants *)
Example library_flag_case : exists i d, In i (file_items packets_rs) /\ expand i = Good [OFlags d] /\ b_consts (fl_desc d) <> [].
Proof.
  assert (H : existsb (fun i => match expand i with Good [OFlags d] => match b_consts (fl_desc d) with [] => false | _ => true end | _ => false end)
                (file_items packets_rs) = true) by (rewrite packets_file_items; vm_cast_no_check (eq_refl true)).
  apply existsb_exists in H. destruct H as (i & Hi & H). destruct (expand i) as [[|[|d0|d|] []]| |] eqn:Ee; try discriminate H.
  exists i, d. split; [exact Hi|]. split; [exact Ee|]. intros E. rewrite E in H. discriminate H.
Qed.

(** The lists of the theorems are not empty: the numbers of packets with getters, of builders and of enums *)
Example library_code_case :
  length (recv_of (outputs packets_rs)) = length recv_packets /\ (length recv_packets >= 50)%nat /\
  length (send_of (outputs packets_rs)) = 19%nat /\ (length (enums_of (outputs packets_rs)) >= 10)%nat.
Proof. rewrite outputs_eq. repeat split; vm_compute; repeat constructor. Qed.

Print Assumptions library_getter_code.
Print Assumptions library_validate_code.
Print Assumptions library_dispatch_code.
Print Assumptions library_builder_code.
Print Assumptions library_enum_code.
Print Assumptions library_flag_code.
