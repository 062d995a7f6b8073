(** * The generated code computes the functions of the model

    Code.v has the generated code as syntax trees; PropOutput.v proves that these, printed, are what the macros write.  Here:
    what the trees compute by the rules of Rust (Rust.v).  That the hypotheses of these theorems are met: by the library, for
    every packet, builder and enum of packets.rs (PropCodeLib.v). *)
From Coq Require Import String Ascii List NArith ZArith Bool Lia.
From Verif Require Import Base BaseFacts Tokens Syntax DualBuffer Parser Checksum PackDesc GenRecv GenSend Dispatch Enums Macro Meaning
  Output Rust Code SpecCode SpecLib SourcePackets TablePackets ProofMacro ProofMeaning ProofOutput ProofDispatch ProofRecv
  ProofEval ProofEvalSend ProofEvalRest ProofLib PropSource.
Import ListNotations.
Open Scope N_scope.
Open Scope list_scope.

(** ** C70: in any program *)

(** The functions generated for a packet: those of [impl<'a> NameRef<'a>] and of [impl NameBuilder] *)
Definition ref_fns (d : pack_decl) : list func :=
  impl_fns (toks "impl<'a>" ++ TIdent (pd_name d ++ "Ref") :: toks "<'a>") (recv_items d).
Definition builder_fns (d : pack_decl) : list func :=
  impl_fns (TIdent "impl" :: needs_lifetime d ++ TIdent (pd_name d ++ "Builder") :: needs_lifetime d) (send_items d).
Definition creator_fns (d : pack_decl) : list func :=
  impl_fns (toks "impl UbxPacketCreator for" ++ [TIdent (pd_name d ++ "Builder")]) (send_items d).

Lemma ref_fns_eq d : ref_fns d = as_bytes_fn :: getter_fns 0 [] (pd_fields d) ++ [validate_fn d].
Proof.
  unfold ref_fns, recv_items, impl_fns. cbn [flat_map].
  match goal with |- context [tokens_eqb ?a ?b] => replace (tokens_eqb a b) with true by (symmetry; apply tokens_eqb_refl) end.
  cbn [app tokens_eqb token_eqb Ascii.eqb Bool.eqb andb String.eqb]. rewrite app_nil_r. reflexivity.
Qed.

Section Programs.
  Context {A : Type} (P : program A) (item_v : item -> value A).

  (** A getter returns the value of the getter of the model. *)
  Theorem code_getters d p i df g emb :
    packet_means P item_v d p -> receivable d -> NoDup (map fn_name (ref_fns d)) ->
    nth_error (pd_fields d) i = Some df -> nth_error (getters p) i = Some g ->
    field_means P item_v (pd_name d) df (g_field g) emb ->
    (exists fn, fn_named (ref_fns d) (accessor (g_field g)) = Some fn /\
       forall payload, result P fn [ref_v (pd_name d) payload] = Some (ret_map emb (g_val g payload))) /\
    (f_map (g_field g) <> None -> f_size (g_field g) <> None ->
     exists fn, fn_named (ref_fns d) (accessor (g_field g) ++ "_raw") = Some fn /\
       forall payload, result P fn [ref_v (pd_name d) payload] = Some (ret_map (raw_v item_v (f_ty (g_field g))) (g_raw g payload))).
  Proof.
    intros Hm Hr Hn Hd Hg He.
    pose proof (getters_eval P item_v (pd_name d) _ _ (pm_fields _ _ _ _ Hm) (receivable_items _ _ _ _ Hm Hr) 0 [] []
                  ltac:(pose proof (rv_size _ Hr); lia) (Forall2_nil _) i df g Hd Hg emb He) as H.
    assert (Hin : forall fn, In fn (getter_fns 0 [] (pd_fields d)) -> In fn (ref_fns d))
      by (intros fn Hfn; rewrite ref_fns_eq; right; apply in_or_app; left; exact Hfn).
    split.
    - destruct (H []) as [(fn & H1 & H2 & _) _]. exists fn. rewrite (find_unique _ _ fn Hn (Hin _ H1) H2). split; [reflexivity|].
      intros payload. destruct (H payload) as [(fn' & H1' & H2' & H3) _].
      pose proof (find_unique _ _ fn Hn (Hin _ H1) H2) as E1. rewrite (find_unique _ _ fn' Hn (Hin _ H1') H2') in E1.
      injection E1 as <-. exact H3.
    - intros Hmap Hsize. destruct (H []) as [_ H0]. destruct (H0 Hmap Hsize) as (fn & H1 & H2 & _). exists fn.
      rewrite (find_unique _ _ fn Hn (Hin _ H1) H2). split; [reflexivity|].
      intros payload. destruct (H payload) as [_ H0']. destruct (H0' Hmap Hsize) as (fn' & H1' & H2' & H3).
      pose proof (find_unique _ _ fn Hn (Hin _ H1) H2) as E1. rewrite (find_unique _ _ fn' Hn (Hin _ H1') H2') in E1.
      injection E1 as <-. exact H3.
  Qed.

  (** [validate] is that of the model, [as_bytes] returns the payload. *)
  Theorem code_validate d p :
    packet_means P item_v d p -> receivable d -> NoDup (map fn_name (ref_fns d)) ->
    exists fn, fn_named (ref_fns d) "validate" = Some fn /\
      forall payload, result P fn [VBytes payload] = Some (ret_map unit_result_v (validate p payload)).
  Proof.
    intros Hm Hr Hn. exists (validate_fn d). split; [|intros payload; now apply (packet_validate P item_v d p)].
    apply find_unique; [exact Hn| |reflexivity]. rewrite ref_fns_eq. right. apply in_or_app. right. left. reflexivity.
  Qed.
  Theorem code_as_bytes d payload :
    exists fn, fn_named (ref_fns d) "as_bytes" = Some fn /\ result P fn [ref_v (pd_name d) payload] = Some (Ret (VBytes payload)).
  Proof. exists as_bytes_fn. rewrite ref_fns_eq. split; reflexivity. Qed.

  (** The dispatch: [match_packet], [class_and_msg_id] and the constant [MAX_PAYLOAD_LEN] *)
  Theorem code_match_packet r table class msg_id payload :
    Forall2 (table_entry P item_v) (rd_packets r) table ->
    result P (match_packet_fn r) [u8_v class; u8_v msg_id; VBytes payload] =
    Some (ret_map (packet_result_v (rd_name r) (rd_unknown r)) (match_packet table class msg_id payload)).
  Proof. apply match_packet_eval. Qed.
  Theorem code_class_and_msg_id r table x :
    Forall2 (table_entry P item_v) (rd_packets r) table -> ~ In "Unknown"%string (rd_packets r) ->
    match x with Known p _ => In p table | Unknown _ _ _ => True end ->
    result P (class_and_msg_id_fn r) [packet_v (rd_name r) (rd_unknown r) x] = Some (Ret (two_v (class_and_msg_id x))).
  Proof. apply class_and_msg_id_eval. Qed.
  Theorem code_max_payload_len r table :
    Forall2 (table_entry P item_v) (rd_packets r) table ->
    (forall a b, fn_v P [TIdent "max_u16"] [u16_v a; u16_v b] = result P max_u16_fn [u16_v a; u16_v b]) ->
    const P (k_val (max_payload_len_const r)) = Some (u16_v (parser_max_payload_len table)).
  Proof. apply max_payload_len_eval. Qed.

  (** The functions of a builder of a packet of fixed size *)
  Theorem code_into_packet_bytes d p size :
    header_means d p -> knows_consts P d -> library P item_v -> NoDup (map accessor (p_fields p)) ->
    packet_payload_size p = Some size -> size <= 65535 -> decl_size 0 (pd_fields d) = Good (Some size) ->
    c_const P ["Self"; "PACKET_LEN"]%string = Some (usize_v (size + 8)) ->
    exists fn, fn_named (builder_fns d) "into_packet_bytes" = Some fn /\
      forall b l, builder_means P item_v (pd_fields d) (p_fields p) b l ->
      result P fn [builder_v (pd_name d) l] = Some (ret_map VBytes (into_packet_bytes p b)) /\
      (* [From<NameBuilder> for [u8; N]] *)
      result (linked P "into_packet_bytes" fn) (from_builder_fn (pd_name d ++ "Builder")) [builder_v (pd_name d) l] =
        Some (ret_map VBytes (into_packet_bytes p b)).
  Proof.
    intros Hh Hk Hl Hn Hs Hmax Hd Hself. exists (into_packet_bytes_fn d size). split; [|].
    { unfold builder_fns, send_items, impl_fns. rewrite Hd. cbn [flat_map].
      match goal with |- context [tokens_eqb ?a ?b] => replace (tokens_eqb a b) with true by (symmetry; apply tokens_eqb_refl) end. reflexivity. }
    intros b l Hb. pose proof (into_packet_bytes_eval P item_v Hl d p b l size Hh Hk Hb Hn Hs Hmax Hself) as H. split; [exact H|].
    rewrite from_builder_eval. cbn [c_method linked].
    change (tokens_eqb [TIdent "into_packet_bytes"] [TIdent "into_packet_bytes"]) with true. cbv iota.
    rewrite <- H. unfold result. destruct (call P (into_packet_bytes_fn d size) [builder_v (pd_name d) l]) as [[x| |]|]; reflexivity.
  Qed.
  Theorem code_create_packet {W E} (w : mem_writer W E) w_v error d p size :
    header_means d p -> knows_consts P d -> library P item_v -> writer_means P w w_v error -> NoDup (map accessor (p_fields p)) ->
    packet_payload_size p = Some size -> size <= 65535 -> decl_size 0 (pd_fields d) = Good (Some size) ->
    exists fn, fn_named (creator_fns d) "create_packet" = Some fn /\
      forall b l out, builder_means P item_v (pd_fields d) (p_fields p) b l ->
      call P fn [builder_v (pd_name d) l; w_v out] =
        Some (ret_map (fun x => (write_result_v error (snd x), [builder_v (pd_name d) l; w_v (fst x)])) (create_packet w p b out)).
  Proof.
    intros Hh Hk Hl Hw Hn Hs Hmax Hd. exists (create_packet_fn d size). split.
    { unfold creator_fns, send_items, impl_fns. rewrite Hd. cbn [flat_map].
      match goal with |- context [tokens_eqb (toks "impl UbxPacketCreator for" ++ ?a) ?b] =>
        replace (tokens_eqb (toks "impl UbxPacketCreator for" ++ a) b) with true by (symmetry; apply tokens_eqb_refl) end.
      unfold needs_lifetime. destruct (existsb unsized (pd_fields d)); cbn; rewrite ?andb_false_r; reflexivity. }
    intros b l out Hb. now apply (create_packet_eval P item_v Hl w w_v error Hw).
  Qed.

  (** The functions of the other builders *)
  Theorem code_extend_to d p :
    header_means d p -> knows_consts P d -> library P item_v -> NoDup (map accessor (p_fields p)) ->
    packet_payload_size p = None -> (forall n, decl_size 0 (pd_fields d) <> Good (Some n)) ->
    exists fn vec, fn_named (builder_fns d) "extend_to" = Some fn /\ fn_named (builder_fns d) "into_packet_vec" = Some vec /\
      forall b l, builder_means P item_v (pd_fields d) (p_fields p) b l ->
      (forall o, call P fn [builder_v (pd_name d) l; VBytes o] =
         Some (ret_map (fun o' => (unit_v, [builder_v (pd_name d) l; VBytes o'])) (extend_to p b o))) /\
      result (linked P "extend_to" fn) vec [builder_v (pd_name d) l] = Some (ret_map VBytes (into_packet_vec p b)).
  Proof.
    intros Hh Hk Hl Hn Hs Hd. exists (extend_to_fn d), into_packet_vec_fn.
    assert (Hf : builder_fns d = [into_packet_vec_fn; extend_to_fn d]).
    { unfold builder_fns, send_items, impl_fns. destruct (decl_size 0 (pd_fields d)) as [[n|]| |] eqn:E; [destruct (Hd n eq_refl)|..];
        cbn [flat_map]; match goal with |- context [tokens_eqb ?a ?b] => replace (tokens_eqb a b) with true by (symmetry; apply tokens_eqb_refl) end;
        reflexivity. }
    rewrite Hf. split; [reflexivity|]. split; [reflexivity|].
    intros b l Hb. assert (H : forall o, call P (extend_to_fn d) [builder_v (pd_name d) l; VBytes o] =
         Some (ret_map (fun o' => (unit_v, [builder_v (pd_name d) l; VBytes o'])) (extend_to p b o)))
      by (intros o; now apply (extend_to_eval P item_v Hl)).
    split; [exact H|]. unfold into_packet_vec.
    apply (into_packet_vec_eval (linked P "extend_to" (extend_to_fn d))); [exact (lib_vec _ _ Hl)|].
    cbn [c_method linked]. change (tokens_eqb [TIdent "extend_to"] [TIdent "extend_to"]) with true. cbv iota.
    rewrite H. destruct (extend_to p b []); reflexivity.
  Qed.

  (** The functions of an enum *)
  Theorem code_enum (d : enum_desc) x : knows_variants P (e_name d) (enum_variants d) ->
    (enum_is_valid d x = true ->
     result P (enum_from_fn (e_name d) (enum_variants d)) [VInt (I U8) (Z.of_N x)] = Some (ret_map (variant_v (e_name d)) (enum_from d x))) /\
    result P (enum_from_unchecked_fn (e_name d) (enum_variants d)) [VInt (I U8) (Z.of_N x)] =
      Some (ret_map (variant_v (e_name d)) (enum_from d x)) /\
    result P (enum_is_valid_fn (enum_variants d)) [VInt (I U8) (Z.of_N x)] = Some (Ret (VBool (enum_is_valid d x))) /\
    (forall v, In v (enum_variants d) ->
     result P enum_into_raw_fn [variant_v (e_name d) v] = Some (Ret (VInt (I U8) (Z.of_N (enum_into_raw v))))).
  Proof.
    intros Hk. split; [|split; [|split]].
    - unfold enum_is_valid, enum_from. intros Hv. apply existsb_exists in Hv. destruct Hv as (v & Hv & Ex).
      destruct (find (fun v => snd v =? x) (enum_variants d)) as [v'|] eqn:Ef.
      + rewrite (enum_from_eval P _ _ _ _ Hk Ef). reflexivity.
      + apply (find_none _ _ Ef) in Hv. cbn beta in Hv. congruence.
    - rewrite (enum_from_unchecked_eval P _ _ _ Hk). reflexivity.
    - apply enum_is_valid_eval.
    - intros v Hv. exact (enum_into_raw_eval P _ _ _ Hk Hv).
  Qed.

  (** The constants of bit flags: the flag of each bit has its value *)
  Theorem code_flag repr s bit : scalar_of [TIdent repr] = Some s -> scalar_signed s = false -> bit < 8 * scalar_size s ->
    const P (flag_value repr s bit) = Some (VInt (I s) (Z.of_N (2 ^ bit))).
  Proof. intros H1 H2 H3. rewrite (flag_value_eval P _ _ _ H1 H2 H3), N.shiftl_1_l. reflexivity. Qed.

  (** The constants written for the bits of a [bitflags!] type, in order, are those of the model: their names and values. *)
  Theorem code_flags (d : flags_desc) repr s attrs : scalar_of [TIdent repr] = Some s -> scalar_signed s = false -> b_nbits d <= 8 * scalar_size s ->
    length attrs = length (b_consts d) ->
    Forall2 (fun bit c =>
      (exists a, flag_text repr s (combine (b_consts d) attrs) bit = a ++ TIdent "const" :: TIdent (fst c) :: p1 "=" ++ print (flag_value repr s bit)) /\
      const P (flag_value repr s bit) = Some (VInt (I s) (Z.of_N (snd c))))
      (map N.of_nat (seq 0 (N.to_nat (b_nbits d)))) (flags_items d).
  Proof.
    intros H1 H2 H3 Hl. unfold flags_items.
    assert (Hb : forall bit, In bit (map N.of_nat (seq 0 (N.to_nat (b_nbits d)))) -> bit < 8 * scalar_size s).
    { intros bit Hb. apply in_map_iff in Hb. destruct Hb as (k & <- & Hk). apply in_seq in Hk. lia. }
    revert Hb. generalize (map N.of_nat (seq 0 (N.to_nat (b_nbits d)))) as bits.
    induction bits as [|bit bits IH]; intros Hb; cbn [map]; constructor.
    - rewrite (flag_value_eval P _ _ _ H1 H2 (Hb bit (or_introl eq_refl))). unfold flag_text.
      assert (Hf : forall (cs : list (string * N)) (al : list (list attribute)), length al = length cs ->
        match find (fun c => snd (fst c) =? N.shiftl 1 bit) (combine cs al) with
        | Some (c, _) => find (fun c => snd c =? N.shiftl 1 bit) cs = Some c
        | None => find (fun c => snd c =? N.shiftl 1 bit) cs = None
        end).
      { induction cs as [|c cs IHc]; intros [|a al] Ha; try discriminate Ha; [reflexivity|]. cbn [combine find fst].
        destruct (snd c =? N.shiftl 1 bit); [reflexivity|]. apply IHc. now injection Ha. }
      specialize (Hf _ _ Hl). destruct (find (fun c => snd (fst c) =? N.shiftl 1 bit) (combine (b_consts d) attrs)) as [[[n v] a]|];
        rewrite Hf; cbn [fst snd].
      + split; [exists (concat (map attr_tokens a)); reflexivity|reflexivity].
      + split; [exists []; reflexivity|reflexivity].
    - apply IH. intros b Hin. apply Hb. right. exact Hin.
  Qed.

  (** Their functions: [from] is [from_bits_truncate] and [into_raw] is [bits] of the bitflags crate. *)
  Theorem code_flags_fns repr x v y z :
    c_fn P (path_tokens ["Self"; "from_bits_truncate"]%string) [x] = Some (Ret v) ->
    method_v P [TIdent "bits"] y [] = Some (Ret (y, [], z)) ->
    result P (flags_from_fn repr) [x] = Some (Ret v) /\ result P (flags_into_raw_fn repr) [y] = Some (Ret z).
  Proof.
    intros H1 H2. split; [exact (flags_from_eval P repr x v H1)|]. rewrite result_ends by reflexivity.
    cbn [flags_into_raw_fn fn_params fn_body own_self_param map fst combine eval_seq Rust.eval eval_list lookup self_e].
    cbn [String.eqb Ascii.eqb Bool.eqb obind m_name]. unfold m_name. rewrite H2. reflexivity.
  Qed.

  (** The constants of a packet type *)
  Theorem code_consts d p : header_means d p -> 
    Forall (fun k => match k_name k with
                     | "CLASS" => const P (k_val k) = Some (u8_v (p_class p))
                     | "ID" => const P (k_val k) = Some (u8_v (p_id p))
                     | "MAX_PAYLOAD_LEN" => const P (k_val k) = Some (u16_v (max_payload_len p))
                     | "FIXED_PAYLOAD_LEN" =>
                         match p_len p with
                         | Fixed n => const P (k_val k) = Some (VAdt ["Some"%string] [("0"%string, u16_v n)])
                         | Max _ => const P (k_val k) = c_const P ["None"%string]
                         end
                     | _ => False
                     end%string) (packet_consts d) /\ map k_name (packet_consts d) = ["CLASS"; "ID"; "FIXED_PAYLOAD_LEN"; "MAX_PAYLOAD_LEN"]%string.
  Proof.
    intros [Hn Hc Hi Hl]. split; [|reflexivity]. unfold packet_consts. rewrite !Forall_cons_iff. cbn [k_name k_val].
    unfold u8_v, max_payload_len. rewrite Hc, Hi, Hl. split; [reflexivity|]. split; [reflexivity|].
    destruct (h_len (pd_header d)); (split; [|split; [reflexivity|constructor]]); [reflexivity|]. unfold const. cbn [Rust.eval].
    destruct (c_const P ["None"%string]); reflexivity.
  Qed.
End Programs.

Print Assumptions code_getters.
Print Assumptions code_validate.
Print Assumptions code_as_bytes.
Print Assumptions code_match_packet.
Print Assumptions code_class_and_msg_id.
Print Assumptions code_max_payload_len.
Print Assumptions code_into_packet_bytes.
Print Assumptions code_create_packet.
Print Assumptions code_extend_to.
Print Assumptions code_enum.
Print Assumptions code_flag.
Print Assumptions code_flags.
Print Assumptions code_flags_fns.
Print Assumptions code_consts.
