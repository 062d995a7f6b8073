(** * What the generated code of [Debug] and [Serialize] computes

    As PropCode.v and PropCodeLib.v, for the rest of the generated functions: [fmt], [serialize_fields] and [serialize].  They hand
    the values of the getters to a formatter or to a serializer, which are any ([map_writer], [formatter] in SpecShow.v). *)
From Coq Require Import String Ascii List NArith ZArith Bool Lia.
From Verif Require Import Base BaseFacts Tokens Syntax DualBuffer Parser Checksum PackDesc GenRecv GenSend Dispatch Enums Serialize Macro
  Meaning Output Rust Code SpecCode SpecLib SpecShow SourcePackets TableTypes TablePackets ProofMacro ProofMeaning ProofOutput
  ProofDispatch ProofRecv ProofEval ProofEvalSend ProofEvalRest ProofLib ProofShow PropSource PropTypes PropOutput PropCode PropCodeLib.
Import ListNotations.
Open Scope N_scope.
Open Scope list_scope.

(** ** C72: in any program *)

(** The model of Serialize.v is [write_map] and [show_fields] at its own values: what they do for other values is what the model
    says, with these in place of its values. *)
Theorem model_serialize S p payload :
  serialize_packet S p payload = write_map (of_serializer S) [] (map (model_entry p) (getters p)) payload /\
  (forall state, serialize_fields S p payload state = write_fields (of_serializer S) (map (model_entry p) (getters p)) payload state) /\
  serialize_ref S (Known p payload) =
    write_map (of_serializer S) [("class", SerU8 (p_class p)); ("msg_id", SerU8 (p_id p))]%string (map (model_entry p) (getters p)) payload /\
  (forall class msg_id, serialize_ref S (Unknown payload class msg_id) =
    write_map (of_serializer S) [("payload", SerBytes payload); ("class", SerU8 class); ("msg_id", SerU8 msg_id)]%string [] []).
Proof.
  assert (H : forall gs state, serialize_getters S p gs payload state = write_fields (of_serializer S) (map (model_entry p) gs) payload state).
  { induction gs as [|g gs IH]; intros state; [reflexivity|]. cbn [serialize_getters map write_fields model_entry show].
    unfold entry_value. destruct (g_val g payload) as [v| |]; [|reflexivity..]. cbn [bind of_serializer mw_entry].
    destruct (se_entry S state _ _); [reflexivity|apply IH]. }
  split; [|split; [|split]].
  - unfold serialize_packet, write_map. cbn [of_serializer mw_map write_entries]. destruct (se_map S) as [e|s]; [reflexivity|].
    unfold serialize_fields. rewrite H. destruct (write_fields _ _ payload s) as [[]| |]; reflexivity.
  - intros state. apply H.
  - unfold serialize_ref, write_map. cbn [of_serializer mw_map mw_entry write_entries]. destruct (se_map S) as [e|s]; [reflexivity|].
    destruct (se_entry S s _ _) as [e|s1]; [reflexivity|]. destruct (se_entry S s1 _ _) as [e|s2]; [reflexivity|].
    unfold serialize_fields. rewrite H. destruct (write_fields _ _ payload s2) as [[]| |]; reflexivity.
  - intros class msg_id. unfold serialize_ref, write_map. cbn [of_serializer mw_map mw_entry write_entries write_fields bind].
    destruct (se_map S) as [e|s]; [reflexivity|]. destruct (se_entry S s _ _) as [e|s1]; [reflexivity|].
    destruct (se_entry S s1 _ _) as [e|s2]; [reflexivity|]. destruct (se_entry S s2 _ _); reflexivity.
Qed.
(** The formatter which collects the fields *)
Definition collect : formatter {f : field & fvalue f} (string * list (string * {f : field & fvalue f})) (string * list (string * {f : field & fvalue f})) :=
  mk_formatter _ _ _ (fun name => (name, [])) (fun b k v => (fst b, snd b ++ [(k, v)])) (fun b => b).
Theorem model_debug p payload :
  debug_packet p payload =
  ret_map (fo_finish collect) (show_fields (fo_field collect) (map model_field (getters p)) payload (fo_start collect (p_name p))).
Proof.
  unfold debug_packet.
  assert (H : forall gs b, show_fields (fo_field collect) (map model_field gs) payload b =
                           ret_map (fun l => (fst b, snd b ++ l)) (debug_getters gs payload)).
  { induction gs as [|g gs IH]; intros [n l]; [cbn; now rewrite app_nil_r|]. cbn [debug_getters map show_fields model_field show].
    destruct (g_val g payload) as [v| |]; [|reflexivity..]. cbn [bind]. rewrite IH. cbn [collect fo_field fst snd].
    destruct (debug_getters gs payload); [|reflexivity..]. cbn [ret_map bind]. rewrite <- app_assoc. reflexivity. }
  rewrite H. destruct (debug_getters (getters p) payload); reflexivity.
Qed.

Definition debug_fns (d : pack_decl) : list func :=
  impl_fns (toks "impl core::fmt::Debug for" ++ TIdent (pd_name d ++ "Ref") :: toks "<'_>") (recv_items d).
Definition fields_fns (d : pack_decl) : list func :=
  impl_fns (toks "#[cfg(feature = ""serde"")] impl SerializeUbxPacketFields for" ++ TIdent (pd_name d ++ "Ref") :: toks "<'_>") (recv_items d).
Definition serialize_fns (d : pack_decl) : list func :=
  impl_fns (toks "#[cfg(feature = ""serde"")] impl serde::Serialize for" ++ TIdent (pd_name d ++ "Ref") :: toks "<'_>") (recv_items d).
Lemma show_fns d : debug_fns d = [fmt_fn d] /\ fields_fns d = [serialize_fields_fn d] /\ serialize_fns d = [serialize_fn].
Proof.
  unfold debug_fns, fields_fns, serialize_fns, recv_items, impl_fns. cbn [flat_map].
  split; [|split]; match goal with |- context [tokens_eqb (?a ++ ?b) (?a ++ ?c)] =>
    replace (tokens_eqb (a ++ b) (a ++ c)) with true by (symmetry; apply tokens_eqb_refl) end;
  cbn [app tokens_eqb token_eqb Ascii.eqb Bool.eqb andb String.eqb]; reflexivity.
Qed.

Section Programs.
  Context {A : Type} (P : program A).
  Notation value := (value A).

  (** [fmt]: the name of the packet, then the name and value of each field to the formatter, in order *)
  Theorem code_debug d l : Forall2 (getter_means P (pd_name d)) (pd_fields d) l ->
    exists fn, fn_named (debug_fns d) "fmt" = Some fn /\
      forall B R (F : formatter value B R) f_v b_v r_v, formatter_means P F f_v b_v r_v -> forall payload,
        result P fn [ref_v (pd_name d) payload; f_v] =
        Some (ret_map (fun b => r_v (fo_finish F b)) (show_fields (fo_field F) l payload (fo_start F (pd_name d)))).
  Proof.
    intros Hl. exists (fmt_fn d). rewrite (proj1 (show_fns d)). split; [reflexivity|].
    intros B R F f_v b_v r_v HF payload. exact (fmt_eval P F f_v b_v r_v HF d l payload Hl).
  Qed.

  Section Serializer.
    Context {St Er Ok : Type} (T : map_writer value St Er Ok) (ser_v : value) (st_v : St -> value) (er_v : Er -> value) (ok_v' : Ok -> value).
    Context (HT : serializer_means P T ser_v st_v er_v ok_v').

    (** [serialize_fields]: an entry for each field, in order, up to the first error *)
    Theorem code_serialize_fields d l : Forall2 (getter_means P (pd_name d)) (pd_fields d) l ->
      exists fn, fn_named (fields_fns d) "serialize_fields" = Some fn /\ forall payload s,
        fields_written st_v er_v (write_fields T (decl_entries (pd_fields d) l) payload s) (ref_v (pd_name d) payload)
          (call P fn [ref_v (pd_name d) payload; st_v s]).
    Proof.
      intros Hl. exists (serialize_fields_fn d). rewrite (proj1 (proj2 (show_fns d))). split; [reflexivity|]. intros.
      now apply (serialize_fields_eval P T ser_v st_v er_v ok_v' HT).
    Qed.
    (** [serialize] of a packet: a map of these entries *)
    Theorem code_serialize d l payload :
      offers_fields P st_v er_v (ref_v (pd_name d) payload) (fun s => write_fields T l payload s) ->
      exists fn, fn_named (serialize_fns d) "serialize" = Some fn /\
        result P fn [ref_v (pd_name d) payload; ser_v] = Some (ret_map (written_v er_v ok_v') (write_map T [] l payload)).
    Proof.
      intros Ho. exists serialize_fn. rewrite (proj2 (proj2 (show_fns d))). split; [reflexivity|].
      now apply (serialize_eval P T ser_v st_v er_v ok_v' HT).
    Qed.
    (** [serialize] of [PacketSerializer]: class and id first *)
    Theorem code_packet_serializer l payload class msg_id msg :
      offers_fields P st_v er_v msg (fun s => write_fields T l payload s) ->
      result P packet_serializer_fn [packet_serializer_v class msg_id msg; ser_v] =
      Some (ret_map (written_v er_v ok_v') (write_map T [("class", u8_v class); ("msg_id", u8_v msg_id)]%string l payload)).
    Proof. now apply (packet_serializer_eval P T ser_v st_v er_v ok_v' HT). Qed.
  End Serializer.

  (** [serialize] of [PacketRef]: a known packet with the class and id of its type, an unknown one as it is *)
  Theorem code_union_serialize item_v r table ser_v x v o l :
    Forall2 (table_entry P item_v) (rd_packets r) table -> ~ In "Unknown"%string (rd_packets r) ->
    match x with
    | Known p payload => In p table /\
        method_v P [TIdent "serialize"] (packet_serializer_v (p_class p) (p_id p) (ref_v (p_name p) payload)) [ser_v] =
        Some (ret_map (fun v => (o, l, v)) v)
    | Unknown payload class msg_id =>
        method_v P [TIdent "serialize"] (VAdt [rd_unknown r] (unknown_fields payload class msg_id)) [ser_v] = Some (ret_map (fun v => (o, l, v)) v)
    end ->
    result P (union_serialize_fn r) [packet_v (rd_name r) (rd_unknown r) x; ser_v] = Some v.
  Proof.
    intros Ht Hu Hx. destruct x as [p payload|payload class msg_id].
    - destruct Hx as [Hp Hm]. destruct (table_entry_in P item_v _ _ _ Ht Hp) as (H1 & H2 & H3).
      exact (union_known_eval P r ser_v p payload v o l H1 H2 H3 Hm).
    - apply (union_unknown_eval P r ser_v payload class msg_id v o l Hu). intros u Hv. injection Hv as <-. exact Hx.
  Qed.

  (** [serialize] of an enum: its byte; of bit flags: their bits *)
  Theorem code_enum_serialize name vs v ser_v x l w : knows_variants P name vs -> In v vs ->
    method_v P [TIdent "serialize_u8"] ser_v [VInt (I U8) (Z.of_N (snd v))] = Some (Ret (x, l, w)) ->
    result P enum_serialize_fn [variant_v name v; ser_v] = Some (Ret w).
  Proof. apply enum_serialize_eval. Qed.
  Theorem code_flags_serialize repr self ser_v bits x l w :
    method_v P [TIdent "bits"] self [] = Some (Ret (self, [], bits)) ->
    method_v P [TIdent ("serialize_" ++ repr)] ser_v [bits] = Some (Ret (x, l, w)) ->
    result P (flags_serialize_fn repr) [self; ser_v] = Some (Ret w).
  Proof. apply flags_serialize_eval. Qed.
End Programs.

(** ** In the library *)

(** What is checked of the file: the options of the fields, and no getter has the name of a method of the standard library or of
    this program *)
Definition show_ok (d : pack_decl) (p : pack_desc) : bool :=
  forall2b (fun df f => Bool.eqb (fd_is_optional df) (is_optional p f) &&
                        negb (String.eqb (accessor f) "is_ok") && negb (String.eqb (accessor f) "serialize_fields")) (pd_fields d) (p_fields p).
Lemma recv_show : Forall2 (fun d p => show_ok d p = true) (recv_of (outputs packets_rs)) recv_packets.
Proof. rewrite outputs_eq. apply forall2b_ok. vm_cast_no_check (eq_refl true). Qed.
Local Opaque outputs file_items env_of packets_rs recv_codes send_codes.

Lemma call_one {A} (P : program A) f a :
  option_map (ret_map (fun x => (a, tl (snd x), fst x))) (call P f [a]) = option_map (ret_map (fun v => (a, [], v))) (result P f [a]).
Proof.
  unfold result, call. destruct (Nat.eqb (length [a]) (length (fn_params f))) eqn:Ep; [|reflexivity].
  set (e0 := combine (map fst (fn_params f)) [a]).
  assert (Hl : forall e, tl (map snd (leave (A := A) e0 e)) = []).
  { intros e. unfold leave. assert (L : (length e0 <= 1)%nat) by (unfold e0; rewrite combine_length; cbn [length]; lia).
    pose proof (skipn_length (length e - length e0) e) as K. destruct (skipn (length e - length e0) e) as [|x [|y l]]; [reflexivity..|].
    cbn [length] in K. lia. }
  destruct (Rust.eval P (EBlock (fn_body f)) e0); cbn [option_map ret_map bind fst snd]; rewrite ?Hl; reflexivity.
Qed.
Lemma build_shown {V} (Q : field_decl -> shown V -> Prop) ds gs :
  length ds = length gs ->
  (forall i df g, nth_error ds i = Some df -> nth_error gs i = Some g -> exists emb, Q df (show g emb)) ->
  exists l, map (@projT1 _ _) l = gs /\ Forall2 Q ds l.
Proof.
  revert gs. induction ds as [|df ds IH]; intros [|g gs] Hl H; try discriminate Hl; [exists []; split; [reflexivity|constructor]|].
  destruct (H O df g eq_refl eq_refl) as (emb & Hq). destruct (IH gs) as (l & H1 & H2); [now injection Hl|intros i; apply (H (S i))|].
  exists (show g emb :: l). split; [cbn [map show projT1]; now f_equal|now constructor].
Qed.

(** The union, with any base program *)
Section Union.
  Context {St Er Ok : Type}.
  Notation value := (value (lib_val (outer St Ok) Er)).
  Context (T : map_writer value St Er Ok) (F : formatter value St Ok).
  Context (P : program (lib_val (outer St Ok) Er)) (ds : list pack_decl) (fns : pack_decl -> list func).

  Lemma union_known_here r p payload l :
    serializer_means (with_fields T F P ds fns) T start_v state_v error_value end_v ->
    offers_fields (with_fields T F P ds fns) state_v error_value (ref_v (p_name p) payload) (fun s => write_fields T l payload s) ->
    In (p_name p) (rd_packets r) ->
    c_const P [p_name p; "CLASS"%string] = Some (u8_v (p_class p)) -> c_const P [p_name p; "ID"%string] = Some (u8_v (p_id p)) ->
    result (with_serialize T F P ds fns (rd_unknown r)) (union_serialize_fn r) [packet_v (rd_name r) (rd_unknown r) (Known p payload); start_v] =
    Some (ret_map (written_v error_value end_v) (write_map T [("class", u8_v (p_class p)); ("msg_id", u8_v (p_id p))]%string l payload)).
  Proof.
    intros HT Ho H1 H2 H3.
    pose proof (packet_serializer_eval _ T start_v state_v error_value end_v HT l payload (p_class p) (p_id p) _ Ho) as He.
    apply (union_known_eval (with_serialize T F P ds fns (rd_unknown r)) r start_v p payload _ (packet_serializer_v (p_class p) (p_id p) (ref_v (p_name p) payload)) [start_v] H1 H2 H3).
    unfold method_v. cbn [std_method packet_serializer_v]. unfold with_serialize. cbn [with_methods c_method].
    cbn [String.eqb Ascii.eqb Bool.eqb path_eqb andb start_v]. rewrite He. cbn [packet_serializer_v String.eqb Ascii.eqb Bool.eqb andb].
    destruct (write_map T _ l payload); reflexivity.
  Qed.
  Lemma union_unknown_here r payload class msg_id : ~ In "Unknown"%string (rd_packets r) ->
    result (with_serialize T F P ds fns (rd_unknown r)) (union_serialize_fn r) [packet_v (rd_name r) (rd_unknown r) (Unknown payload class msg_id); start_v] =
    Some (ret_map (written_v error_value end_v)
            (write_map T [("payload", VBytes payload); ("class", u8_v class); ("msg_id", u8_v msg_id)]%string [] [])).
  Proof.
    intros Hin. apply (union_unknown_eval _ r start_v payload class msg_id _
             (VAdt [rd_unknown r] (unknown_fields payload class msg_id)) [start_v] Hin).
    intros u Hv. injection Hv as <-. unfold method_v. cbn [std_method]. unfold with_serialize. cbn [with_methods c_method].
    cbn [String.eqb Ascii.eqb Bool.eqb start_v]. rewrite String.eqb_refl. unfold unknown_fields. destruct (write_map T _ [] []) ; reflexivity.
  Qed.
End Union.

Section Library.
  Context {St Er Ok : Type} (w : mem_writer (outer St Ok) Er) (cur : pack_decl).
  Notation value := (value (lib_val (outer St Ok) Er)).
  Notation item_v := (lib_item_v (W := outer St Ok) (E := Er)).
  Context (T : map_writer value St Er Ok) (F : formatter value St Ok).

  (** The library with this serializer and formatter, and with the generated methods *)
  Notation P0 := (with_methods (ublox w cur) (outer_method T F)).
  Definition getters_program := with_getters T F (ublox w cur) (recv_of (outputs packets_rs)) ref_fns.
  Definition fields_program := with_fields T F (ublox w cur) (recv_of (outputs packets_rs)) ref_fns.
  Definition serialize_program := with_serialize T F (ublox w cur) (recv_of (outputs packets_rs)) ref_fns.

  Lemma ref_method_base s name payload l : method_v P0 s (ref_v name payload) l = method_v (ublox w cur) s (ref_v name payload) l.
  Proof. unfold method_v. destruct (std_method s (ref_v name payload) l); [reflexivity|]. destruct s as [|[] []]; reflexivity. Qed.
  Lemma field_means_base pack df f emb : field_means (ublox w cur) item_v pack df f emb -> field_means P0 item_v pack df f emb.
  Proof.
    intros [| name ty t md scale alias may_fail as_ref comment m size emb' H1 H2 H3 H4 H5 H6]; constructor; auto.
    destruct (md_size md) as [s|], size as [g|]; auto. intros payload. rewrite ref_method_base. apply H6.
  Qed.

  Lemma means_name Q pack df f emb : field_means Q item_v pack df f emb -> fd_name df = f_name f.
  Proof. intros []; reflexivity. Qed.
  Lemma find_ref d : In d (recv_of (outputs packets_rs)) ->
    find (fun d0 => String.eqb (ref_name (pd_name d0)) (pd_name d ++ "Ref")) (recv_of (outputs packets_rs)) = Some d.
  Proof.
    intros Hd. rewrite <- (find_named pd_name _ d recv_names Hd). apply find_same. intros x. unfold ref_name.
    destruct (String.eqb (pd_name x) (pd_name d)) eqn:Ex.
    - apply String.eqb_eq in Ex. rewrite Ex. apply String.eqb_refl.
    - destruct (String.eqb (pd_name x ++ "Ref") (pd_name d ++ "Ref")) eqn:Ey; [|reflexivity]. exfalso.
      apply String.eqb_eq, append_inj in Ey. rewrite Ey, String.eqb_refl in Ex. discriminate Ex.
  Qed.

  Record show_facts (d : pack_decl) (p : pack_desc) (l : list (shown value)) : Prop := {
    sf_getters : map (@projT1 _ _) l = getters p;
    sf_faithful : Forall (fun s => faithful (g_field (projT1 s)) (projT2 s)) l;
    sf_means : Forall2 (getter_means getters_program (pd_name d)) (pd_fields d) l;
    sf_entries : decl_entries (pd_fields d) l = entries_of p l;
  }.
  Lemma all_show_facts : Forall2 (fun d p => exists l, show_facts d p l) (recv_of (outputs packets_rs)) recv_packets.
  Proof.
    pose proof (all_recv_facts w cur) as Ha. apply forall2_nth in Ha. destruct Ha as [Hl Ha]. apply forall2_nth. split; [exact Hl|].
    intros i d p Hd Hp. pose proof (Ha i d p Hd Hp) as H. clear Ha.
    pose proof recv_show as Hs. apply forall2_nth in Hs. destruct Hs as [_ Hs]. specialize (Hs i d p Hd Hp). unfold show_ok in Hs.
    apply forall2b_ok in Hs. apply forall2_nth in Hs. destruct Hs as [_ Hs].
    pose proof (rf_fields _ _ _ _ _ _ H) as HF. apply forall2_nth in HF. destruct HF as [HL HF].
    assert (Hm0 : packet_means P0 item_v d p).
    { constructor; [exact (rf_header _ _ _ _ _ _ H)|]. apply forall2_nth. split; [exact HL|]. intros k df f Hk1 Hk2.
      destruct (HF k df f Hk1 Hk2) as (emb & Hm & _). exists emb. now apply field_means_base. }
    assert (HLg : length (pd_fields d) = length (getters p)).
    { rewrite HL. unfold getters. rewrite <- (gen_getters_fields (p_fields p) 0 []) at 1. now rewrite map_length. }
    destruct (build_shown (fun df s => faithful (g_field (projT1 s)) (projT2 s) /\ getter_means getters_program (pd_name d) df s /\
       match size_bytes (fd_raw df) with Some _ => true | None => false end || fd_is_optional df =
       match f_size (g_field (projT1 s)) with Some _ => true | None => is_optional p (g_field (projT1 s)) end) _ _ HLg) as (l & H1 & H2).
    { intros k df g Hk Hg.
      assert (Hf : nth_error (p_fields p) k = Some (g_field g)).
      { unfold getters in Hg. rewrite <- (gen_getters_fields (p_fields p) 0 []), nth_error_map. rewrite Hg. reflexivity. }
      destruct (HF k df (g_field g) Hk Hf) as (emb & Hm & Hfa). exists emb. cbn [show projT1 projT2].
      pose proof (Hs k df (g_field g) Hk Hf) as Hb. apply andb_prop in Hb. destruct Hb as [Hb Hb3]. apply andb_prop in Hb. destruct Hb as [Hb1 Hb2].
      apply eqb_prop in Hb1. apply negb_true_iff in Hb2.
      destruct (means_names _ _ _ _ _ _ Hm) as (Hn & Hr & _).
      split; [exact Hfa|]. split.
      - split; [exact (means_name _ _ _ _ _ Hm)|]. intros payload. cbn [show projT1 projT2]. rewrite Hn. unfold method_v.
        assert (Hstd : std_method [TIdent (accessor (g_field g))] (ref_v (A := lib_val (outer St Ok) Er) (pd_name d) payload) [] = None).
        { unfold ref_v. cbn [std_method]. rewrite Hb2. reflexivity. }
        rewrite Hstd. unfold getters_program, with_getters. cbn [with_refs c_method].
        unfold ref_v at 1. rewrite (find_ref d (nth_error_In _ _ Hd)).
        destruct (code_getters P0 item_v d p k df g emb Hm0 (rf_receivable _ _ _ _ _ _ H) (rf_names _ _ _ _ _ _ H) Hk Hg
                    (field_means_base _ _ _ _ Hm)) as [(fn & Hfn & Hres) _].
        rewrite Hfn. change (VAdt [(pd_name d ++ "Ref")%string] [("0"%string, VBytes payload)]) with (ref_v (A := lib_val (outer St Ok) Er) (pd_name d) payload).
        rewrite call_one, Hres. destruct (g_val g payload); reflexivity.
      - rewrite Hb1, Hr. unfold f_size. destruct (size_bytes (f_ty (g_field g))); reflexivity. }
    exists l. constructor; [exact H1| | |].
    - clear - H2. induction H2 as [|df s ds l (H & _) _ IH]; constructor; assumption.
    - clear - H2. induction H2 as [|df s ds l (_ & H & _) _ IH]; constructor; assumption.
    - clear - H2. unfold entries_of. induction H2 as [|df s ds l (_ & _ & H) _ IH]; [reflexivity|]. cbn [decl_entries map]. rewrite IH.
      unfold decl_entry. rewrite H. reflexivity.
  Qed.

  (** The serializer and the formatter in these programs *)
  Lemma outer_getters x o l : let r := VAny (LWriter o) in
    c_method getters_program [TIdent x] r l = match outer_method T F x r l with Some o => Some o | None => c_method (ublox w cur) [TIdent x] r l end /\
    c_method fields_program [TIdent x] r l = c_method getters_program [TIdent x] r l /\
    std_method [TIdent x] r l = None.
  Proof. split; [reflexivity|]. split; reflexivity. Qed.
  Lemma formatter_here : formatter_means getters_program F start_v state_v end_v.
  Proof.
    constructor; intros; eexists; unfold method_v, start_v, state_v.
    - rewrite (proj2 (proj2 (outer_getters _ _ _))), (proj1 (outer_getters _ _ _)). reflexivity.
    - rewrite (proj2 (proj2 (outer_getters _ _ _))), (proj1 (outer_getters _ _ _)). reflexivity.
    - rewrite (proj2 (proj2 (outer_getters _ _ _))), (proj1 (outer_getters _ _ _)). reflexivity.
  Qed.
  Lemma serializer_here Q : (forall x o l, c_method Q [TIdent x] (VAny (LWriter o)) l = c_method getters_program [TIdent x] (VAny (LWriter o)) l) -> c_const Q = c_const (ublox w cur) ->
    serializer_means Q T start_v state_v error_value end_v.
  Proof.
    intros HQ Hc. constructor.
    - exists none_v, start_v, [none_v]. split; [rewrite Hc; reflexivity|]. unfold method_v, start_v.
      rewrite (proj2 (proj2 (outer_getters _ _ _))), HQ, (proj1 (outer_getters _ _ _)). reflexivity.
    - intros s k v.
      assert (H : method_v Q [TIdent "serialize_entry"] (state_v s) [VStr k; v] =
                  Some (Ret (match mw_entry T s k v with
                             | inl e => (state_v s, [VStr k; v], err_v (error_value e))
                             | inr s' => (state_v s', [VStr k; v], ok_v unit_v)
                             end))).
      { unfold method_v, state_v. rewrite (proj2 (proj2 (outer_getters _ _ _))), HQ, (proj1 (outer_getters _ _ _)). reflexivity. }
      rewrite H. destruct (mw_entry T s k v); eauto.
    - intros s. eexists. unfold method_v, state_v.
      rewrite (proj2 (proj2 (outer_getters _ _ _))), HQ, (proj1 (outer_getters _ _ _)). reflexivity.
  Qed.

  Lemma fields_offered d p l payload : In d (recv_of (outputs packets_rs)) -> show_facts d p l ->
    offers_fields fields_program state_v error_value (ref_v (pd_name d) payload) (fun s => write_fields T (entries_of p l) payload s).
  Proof.
    intros Hd H s. unfold method_v.
    assert (Hm : c_method fields_program [TIdent "serialize_fields"] (ref_v (pd_name d) payload) [state_v s] =
      option_map (ret_map (fun x => (ref_v (pd_name d) payload, tl (snd x), fst x)))
        (call getters_program (serialize_fields_fn d) [ref_v (pd_name d) payload; state_v s])).
    { unfold fields_program, with_fields. cbn [with_refs c_method]. unfold ref_v at 1. rewrite (find_ref d Hd). reflexivity. }
    change (std_method [TIdent "serialize_fields"] (ref_v (pd_name d) payload) [state_v s]) with (@None (value * list value * value)). cbv iota. rewrite Hm.
    pose proof (serialize_fields_eval getters_program T start_v state_v error_value end_v
                  (serializer_here _ (fun _ _ _ => eq_refl) eq_refl) d l payload s (sf_means _ _ _ H)) as He.
    rewrite (sf_entries _ _ _ H) in He.
    destruct (write_fields T (entries_of p l) payload s) as [[er|s']| |]; cbn [fields_written] in *.
    - destruct He as (x & ->). exists x. reflexivity.
    - rewrite He. reflexivity.
    - rewrite He. reflexivity.
    - rewrite He. reflexivity.
  Qed.

  (** For every packet: [l] are its getters, each with its values in the program.  [fmt] hands them to the formatter, [serialize]
      to the serializer, as the model does ([model_serialize], [model_debug]). *)
  Theorem library_show_code :
    Forall2 (fun d p => exists l : list (shown value),
      map (@projT1 _ _) l = getters p /\ Forall (fun s => faithful (g_field (projT1 s)) (projT2 s)) l /\
      exists fmt serialize,
        fn_named (debug_fns d) "fmt" = Some fmt /\ fn_named (serialize_fns d) "serialize" = Some serialize /\
        fn_named (fields_fns d) "serialize_fields" = Some (serialize_fields_fn d) /\
        forall payload,
          result getters_program fmt [ref_v (pd_name d) payload; start_v] =
            Some (ret_map (fun b => end_v (fo_finish F b)) (show_fields (fo_field F) l payload (fo_start F (p_name p)))) /\
          result fields_program serialize [ref_v (pd_name d) payload; start_v] =
            Some (ret_map (written_v error_value end_v) (write_map T [] (entries_of p l) payload)) /\
          forall r, unions_of (outputs packets_rs) = [r] -> In p recv_table ->
            result (serialize_program (rd_unknown r)) (union_serialize_fn r) [packet_v (rd_name r) (rd_unknown r) (Known p payload); start_v] =
            Some (ret_map (written_v error_value end_v)
                    (write_map T [("class", u8_v (p_class p)); ("msg_id", u8_v (p_id p))]%string (entries_of p l) payload)))
      (recv_of (outputs packets_rs)) recv_packets.
  Proof.
    pose proof all_show_facts as Ha. apply forall2_nth in Ha. destruct Ha as [Hl Ha]. apply forall2_nth. split; [exact Hl|].
    intros i d p Hd Hp. destruct (Ha i d p Hd Hp) as (l & H). clear Ha. exists l. split; [exact (sf_getters _ _ _ H)|].
    split; [exact (sf_faithful _ _ _ H)|]. exists (fmt_fn d), serialize_fn. destruct (show_fns d) as (-> & -> & ->).
    split; [reflexivity|]. split; [reflexivity|]. split; [reflexivity|]. intros payload.
    pose proof (all_recv_facts w cur) as Hr. apply forall2_nth in Hr. destruct Hr as [_ Hr]. specialize (Hr i d p Hd Hp).
    pose proof (pm_name _ _ (rf_header _ _ _ _ _ _ Hr)) as Hn.
    pose proof (fields_offered d p l payload (nth_error_In _ _ Hd) H) as Ho.
    assert (HT2 : serializer_means fields_program T start_v state_v error_value end_v).
    { apply serializer_here; [|reflexivity]. intros x o l0. exact (proj1 (proj2 (outer_getters x o l0))). }
    split; [|split].
    - rewrite Hn. exact (fmt_eval getters_program F start_v state_v end_v formatter_here d l payload (sf_means _ _ _ H)).
    - exact (serialize_eval fields_program T start_v state_v error_value end_v HT2 (entries_of p l) payload _ Ho).
    - intros r Hu Ht. pose proof (proj1 source_recv_table) as Hs. rewrite Hu in Hs. injection Hs as ->. cbn [rd_name rd_unknown].
      destruct (table_entry_in (ublox w cur) item_v _ _ p (table_entries w cur) Ht) as (H1 & H2 & H3).
      rewrite <- Hn in Ho.
      exact (union_known_here T F (ublox w cur) _ _ (mk_rd _ _ (map p_name recv_table)) p payload (entries_of p l) HT2 Ho H1 H2 H3).
  Qed.
  (** An unknown packet *)
  Theorem library_show_unknown payload class msg_id r : unions_of (outputs packets_rs) = [r] ->
    result (serialize_program (rd_unknown r)) (union_serialize_fn r) [packet_v (rd_name r) (rd_unknown r) (Unknown payload class msg_id); start_v] =
    Some (ret_map (written_v error_value end_v)
            (write_map T [("payload", VBytes payload); ("class", u8_v class); ("msg_id", u8_v msg_id)]%string [] [])).
  Proof.
    intros Hu. pose proof (proj1 source_recv_table) as Hs. rewrite Hu in Hs. injection Hs as ->.
    apply (union_unknown_here T F (ublox w cur) _ _ (mk_rd "PacketRef" "UbxUnknownPacketRef" (map p_name recv_table)) payload class msg_id).
    cbn [rd_packets]. intros Hin. assert (Hb : existsb (String.eqb "Unknown") (map p_name recv_table) = true).
    { apply existsb_exists. exists "Unknown"%string. split; [exact Hin|reflexivity]. }
    revert Hb. vm_compute. discriminate.
  Qed.
End Library.

(** A case: a serializer which collects the keys, for an acknowledgement.  (The hypotheses of the theorems for any program are met in
    the library: [sf_means], [formatter_here], [serializer_here], [fields_offered].) *)
Definition keys_of {V} : map_writer V (list string) unit (list string) :=
  mk_map_writer _ _ _ _ (inr []) (fun s k _ => inr (s ++ [k])) (fun s => inr s).
Definition keys_fmt {V} : formatter V (list string) (list string) := mk_formatter _ _ _ (fun n => [n]) (fun s k _ => s ++ [k]) (fun s => s).
Example library_show_case (w : mem_writer (outer (list string) (list string)) unit) cur :
  exists d, pd_name d = "AckAck"%string /\
    result (fields_program w cur keys_of keys_fmt) serialize_fn [ref_v "AckAck" [x06; x01]; start_v] =
      Some (Ret (ok_v (end_v ["class"; "msg_id"]%string))) /\
    result (getters_program w cur keys_of keys_fmt) (fmt_fn d) [ref_v "AckAck" [x06; x01]; start_v] =
      Some (Ret (end_v ["AckAck"; "class"; "msg_id"]%string)).
Proof.
  assert (Hp : In p_ack_ack recv_packets) by (unfold recv_packets; cbn [In]; tauto).
  apply In_nth_error in Hp. destruct Hp as (i & Hp).
  pose proof (library_show_code w cur keys_of keys_fmt) as H. apply forall2_nth in H. destruct H as [Hl H].
  destruct (nth_error (recv_of (outputs packets_rs)) i) as [d|] eqn:Hd.
  2: { apply nth_error_None in Hd. assert (Hn : nth_error recv_packets i <> None) by congruence. apply nth_error_Some in Hn. lia. }
  destruct (H i d p_ack_ack Hd Hp) as (l & Hg & _ & fmt & ser & H1 & H2 & _ & H3). destruct (H3 [x06; x01]) as (G1 & G2 & _). clear H H3.
  pose proof (all_recv_facts w cur) as Hr. apply forall2_nth in Hr. destruct Hr as [_ Hr]. specialize (Hr i d p_ack_ack Hd Hp).
  pose proof (pm_name _ _ (rf_header _ _ _ _ _ _ Hr)) as Hn. change (p_name p_ack_ack) with "AckAck"%string in Hn.
  destruct (show_fns d) as (E1 & _ & E2). rewrite E1 in H1. rewrite E2 in H2. injection H1 as <-. injection H2 as <-. rewrite <- Hn in G1, G2.
  exists d. split; [now rewrite Hn|]. rewrite G1, G2. clear - Hg.
  destruct l as [|[g1 e1] [|[g2 e2] [|]]]; try discriminate Hg. cbn [map projT1] in Hg. unfold getters in Hg. cbn in Hg.
  injection Hg as -> ->. split; reflexivity.
Qed.

Print Assumptions model_serialize.
Print Assumptions model_debug.
Print Assumptions code_debug.
Print Assumptions code_serialize_fields.
Print Assumptions code_serialize.
Print Assumptions code_packet_serializer.
Print Assumptions code_union_serialize.
Print Assumptions code_enum_serialize.
Print Assumptions code_flags_serialize.
Print Assumptions library_show_code.
Print Assumptions library_show_unknown.
