(** * The tables of the model are what the macros read in the source text *)
From Coq Require Import String Ascii List NArith ZArith Bool Permutation.
From Verif Require Import Base Tokens Syntax PackDesc Enums Floats Bits Utf8 Iterators CfgVal Macro Meaning SourcePackets SourceCfg
  TableTypes TablePackets TableCfg ProofDispatch Serialize ProofLex.
Import ListNotations.
Open Scope N_scope.
Open Scope list_scope.

(** ** C67 *)

(** The computations are cut in stages. *)
Definition packets_tokens : list token := Eval vm_compute in match lex packets_rs with Some ts => ts | None => [] end.
Lemma packets_lex : lex packets_rs = Some packets_tokens.
Proof. rewrite <- lex_flat_eq. vm_cast_no_check (eq_refl (Some packets_tokens)). Qed.
Definition packets_items : list syn_item := Eval vm_compute in items packets_tokens.
Lemma packets_items_eq : items packets_tokens = packets_items.
Proof. vm_cast_no_check (eq_refl packets_items). Qed.
Lemma packets_file_items : file_items packets_rs = packets_items.
Proof. unfold file_items. rewrite packets_lex. exact packets_items_eq. Qed.
Definition packets_outputs : list output := Eval vm_compute in match expand_all packets_items with Good l => l | _ => [] end.
Lemma packets_expand_all : expand_all packets_items = Good packets_outputs.
Proof. vm_cast_no_check (eq_refl (Good packets_outputs)). Qed.

(** The macros accept every declaration of packets.rs. *)
Lemma packets_expand : expand_file packets_rs = Good packets_outputs.
Proof. unfold expand_file. rewrite packets_lex, packets_items_eq. exact packets_expand_all. Qed.

Lemma outputs_eq : outputs packets_rs = packets_outputs.
Proof. unfold outputs. rewrite packets_expand. reflexivity. Qed.

Theorem source_accepted : exists outs, expand_file packets_rs = Good outs /\ length outs = 110%nat.
Proof. exists packets_outputs. split; [exact packets_expand | reflexivity]. Qed.

(** Its enums and bit flags, with the functions asked for, are those of TableTypes.v. *)
Theorem source_enums :
  map ed_desc (enums_of (outputs packets_rs)) = all_enums /\
  map ed_desc (filter (fun d => match ed_from d with Some From => true | _ => false end) (enums_of (outputs packets_rs)))
    = enums_from /\
  map ed_desc (filter (fun d => match ed_from d with Some FromUnchecked => true | _ => false end)
                      (enums_of (outputs packets_rs))) = enums_from_unchecked /\
  map ed_desc (filter ed_into_raw (enums_of (outputs packets_rs))) = enums_into_raw.
Proof. rewrite outputs_eq. repeat split; reflexivity. Qed.

Theorem source_flags :
  map fl_desc (flags_of (outputs packets_rs)) = all_flags.
Proof. rewrite outputs_eq. reflexivity. Qed.

(** Its packets, as descriptions, are those of TablePackets.v. *)
Definition packets_env : env :=
  Eval vm_compute in mk_env (enums_of packets_outputs) (flags_of packets_outputs) (c_likes packets_items).
Lemma packets_env_eq : env_of packets_rs = packets_env.
Proof.
  unfold env_of. rewrite outputs_eq, packets_file_items.
  vm_cast_no_check (eq_refl packets_env).
Qed.
Definition recv_data : option (list pack_code) := Eval vm_compute in all_some (Meaning.packet_of packets_env) (recv_of packets_outputs).
Lemma recv_data_eq : recv_codes packets_rs = recv_data.
Proof. unfold recv_codes. rewrite packets_env_eq, outputs_eq. vm_cast_no_check (eq_refl recv_data). Qed.
Definition send_data : option (list pack_code) := Eval vm_compute in all_some (Meaning.packet_of packets_env) (send_of packets_outputs).
Lemma send_data_eq : send_codes packets_rs = send_data.
Proof. unfold send_codes. rewrite packets_env_eq, outputs_eq. vm_cast_no_check (eq_refl send_data). Qed.

(* the mappings of both sides are compared by name *)
Strategy opaque [float_map enum_map flags_map word_map itfm_config_map itfm_config2_map uart_mode_map c_like_map
  cstr_map inf_map calib_tag_map offset_iter_map chunks_iter_map esf_meas_data_len esf_meas_calib_tag_len].
Ltac by_name :=
  cbv [meanings packet_meaning all_some field_meaning map_meaning fc_map fc_name fc_alias fc_ty fc_as_ref fc_size pc_name
       pc_class pc_id pc_len pc_fields option_map size_meaning recv_data send_data]; reflexivity.

Theorem source_recv_packets : meanings (recv_codes packets_rs) = Some recv_packets.
Proof. rewrite recv_data_eq. by_name. Qed.

Theorem source_send_packets : meanings (send_codes packets_rs) = Some send_packets.
Proof. rewrite send_data_eq. by_name. Qed.

(** The packets the parser knows are those listed in [define_recv_packets!], in this order. *)
Theorem source_recv_table :
  unions_of (outputs packets_rs) = [mk_rd "PacketRef" "UbxUnknownPacketRef" (map p_name recv_table)] /\
  (forall p, In p recv_table -> In p recv_packets).
Proof. split; [rewrite outputs_eq; reflexivity|]. apply recv_table_incl. Qed.

(** The fields read as an [Option] are those which Serialize.v lists. *)
Theorem source_optional :
  Permutation
    (flat_map (fun d => map (fun f => (pd_name d, fd_name f)) (filter fd_is_optional (pd_fields d))) (recv_of (outputs packets_rs)))
    optional_fields.
Proof.
  rewrite outputs_eq.
  set (l := flat_map _ _). vm_compute in l. subst l. unfold optional_fields.
  repeat first [apply perm_skip | apply Permutation_refl | (eapply Permutation_trans; [|apply Permutation_middle with (l1 := [_])]; cbn [app])].
Qed.

(** The configuration keys are those of TableCfg.v. *)
Definition cfg_tokens : list token := Eval vm_compute in match lex cfg_val_rs with Some ts => ts | None => [] end.
Lemma cfg_lex : lex cfg_val_rs = Some cfg_tokens.
Proof. rewrite <- lex_flat_eq. vm_cast_no_check (eq_refl (Some cfg_tokens)). Qed.
Definition cfg_items : list syn_item := Eval vm_compute in items cfg_tokens.
Lemma cfg_items_eq : items cfg_tokens = cfg_items.
Proof. vm_cast_no_check (eq_refl cfg_items). Qed.
Theorem source_cfg_keys : cfg_tables cfg_val_rs = [Some cfg_table].
Proof.
  unfold cfg_tables, file_items. rewrite cfg_lex, cfg_items_eq. vm_cast_no_check (eq_refl [Some cfg_table]).
Qed.

Print Assumptions source_accepted.
Print Assumptions source_enums.
Print Assumptions source_flags.
Print Assumptions source_recv_packets.
Print Assumptions source_send_packets.
Print Assumptions source_recv_table.
Print Assumptions source_optional.
Print Assumptions source_cfg_keys.
