(** * C79: the functions of the configuration items, run from the text of their macros

    [CfgVal], its items and their functions are written by three macros of cfg_val.rs.  The macros are expanded as rustc
    does (MacroRules.v), and the functions of the expansion are run (SpecExecCfg.v) and compared with the functions of
    CfgVal.v which the other properties are about. *)
From Coq Require Import String Ascii List NArith ZArith Bool Lia.
From Verif Require Import Base Buffers PackDesc Enums Bits CfgVal TableCfg Tokens Lang Exec MacroRules SourceCfg SpecExec SpecExecPackets
  SpecExecCfg ProofExecPackets ProofExecCfgText ProofExecCfg.
Import ListNotations.
Open Scope N_scope.
Open Scope list_scope.

(** ** What is read *)

(** The macros of the file; its expansion reads; the functions and constants of the expansion: those outside the macros,
    those of [CfgVal], and three per line of the table *)
Theorem text_cfg_functions :
  map fst (read_macros (tokens_of cfg_val_rs)) = ["from_cfg_v_bytes"; "into_cfg_kv_bytes"; "cfg_val"]%string /\
  expand_file (tokens_of cfg_val_rs) = Some cfg_tokens /\
  read_file 4000 cfg_tokens = Some cfg_fns /\
  map (fun f => (lf_type f, lf_name f)) cfg_fns =
    [("StorageSize", "to_usize"); ("KeyId", "SIZE"); ("KeyId", "value_size"); ("KeyId", "group_id"); ("KeyId", "item_id");
     ("CfgVal", "len"); ("CfgVal", "is_empty"); ("CfgVal", "parse"); ("CfgVal", "extend_to"); ("CfgVal", "write_to")]%string ++
    flat_map (fun i => [(ci_name i, "KEY"); (ci_name i, "SIZE"); (ci_name i, "into_cfg_kv_bytes")]%string) cfg_table.
Proof.
  conjs.
  - rewrite cf_source_eq. vm_compute. reflexivity.
  - rewrite cf_tokens_eq, cf_source_eq. exact cf_expand.
  - rewrite cf_tokens_eq, cf_fns_eq. exact cf_fns_ok.
  - rewrite cf_fns_eq. vm_compute. reflexivity.
Qed.
Example text_cfg_functions_ex : N.of_nat (List.length cfg_fns) = 1312 /\ N.of_nat (List.length cfg_table) = 434.
Proof. rewrite cf_fns_eq. vm_compute. auto. Qed.
Print Assumptions text_cfg_functions.

(** ** Keys *)

Theorem text_key_id key :
  cfg_text 1 "KeyId" "value_size" [key_v key] = gives (key_v key) (Ret (size_v (value_size key))) /\
  cfg_text 1 "KeyId" "group_id" [key_v key] = gives (key_v key) (Ret (u8_v (group_id key))) /\
  cfg_text 1 "KeyId" "item_id" [key_v key] = gives (key_v key) (Ret (u8_v (item_id key))).
Proof.
  rewrite cf_text. conjs.
  - rewrite cf_step. unfold value_size.
    assert (H : N.land (N.shiftr key 28) 7 < 2 ^ N.size 7) by (apply land_lt; reflexivity).
    destruct (cases8 _ H) as [E|[E|[E|[E|[E|[E|[E|E]]]]]]];
      lazy -[cf_const N.land N.shiftr]; rewrite E; lazy -[cf_const]; consts_known; reflexivity.
  - reflexivity.
  - reflexivity.
Qed.
Theorem text_storage_size s :
  cfg_text 1 "StorageSize" "to_usize" [size_v s] = gives (size_v s) (Ret (vusize (to_usize s))).
Proof. rewrite cf_text. destruct s; reflexivity. Qed.
Example text_key_id_ex :
  cfg_text 1 "KeyId" "value_size" [key_v 0x40520001] = Some (Ret (key_v 0x40520001, size_v FourBytes)) /\
  cfg_text 1 "KeyId" "group_id" [key_v 0x40520001] = Some (Ret (key_v 0x40520001, u8_v 0x52)) /\
  cfg_text 1 "KeyId" "item_id" [key_v 0x40520001] = Some (Ret (key_v 0x40520001, u8_v 1)).
Proof. exact (text_key_id 0x40520001). Qed.
Print Assumptions text_key_id.
Print Assumptions text_storage_size.

(** The constants [KEY] and [SIZE] of every item *)
Theorem text_cfg_constants i : In i cfg_table ->
  consts_with cfg_variants cfg_consts (ci_name i ++ "::" ++ "KEY") = Some (key_v (ci_key i)) /\
  consts_with cfg_variants cfg_consts (ci_name i ++ "::" ++ "SIZE") = Some (vusize (ci_size i)).
Proof. intros I. rewrite cf_variants_eq, cf_consts_eq. split; [now apply key_at|now apply size_at]. Qed.
Definition baudrate : cfg_item := mk_cfg_item "Uart1Baudrate" 0x40520001 TU32.
Lemma baudrate_in : In baudrate cfg_table.
Proof.
  assert (E : find (fun i => ci_key i =? 0x40520001) cfg_table = Some baudrate) by (vm_compute; reflexivity).
  now apply find_some in E.
Qed.
Example text_cfg_constants_ex :
  consts_with cfg_variants cfg_consts "Uart1Baudrate::KEY" = Some (key_v 0x40520001) /\
  consts_with cfg_variants cfg_consts "Uart1Baudrate::SIZE" = Some (vusize 8).
Proof. exact (text_cfg_constants baudrate baudrate_in). Qed.
Print Assumptions text_cfg_constants.

(** ** Values: [v] is any value of the enum *)

Theorem text_cfg_len v : In (cv_item v) cfg_table ->
  cfg_text 2 "CfgVal" "len" [cfg_enum_v v] = gives (cfg_enum_v v) (Ret (vusize (cfg_len v))) /\
  cfg_text 2 "CfgVal" "is_empty" [cfg_enum_v v] = gives (cfg_enum_v v) (Ret (VBool (cfg_is_empty v))).
Proof. intros I. rewrite cf_text. split; [now apply run_len|now apply run_empty]. Qed.

(** [into_cfg_kv_bytes] of the struct of the item *)
Theorem text_cfg_bytes v (self := wrap_v (ci_name (cv_item v)) (cfg_value_v (ci_ty (cv_item v)) (cv_value v))) :
  In (cv_item v) cfg_table ->
  cfg_text 2 (ci_name (cv_item v)) "into_cfg_kv_bytes" [self] = gives self (Ret (VBytes (cfg_kv_bytes v))).
Proof. intros I. rewrite cf_text. subst self. destruct v as [i x]. now apply kv_run. Qed.

(** [extend_to] a vector, [write_to] a slice: the buffer afterwards and the result *)
Theorem text_cfg_extend v buf : In (cv_item v) cfg_table ->
  cfg_text_buf 2 "CfgVal" "extend_to" [cfg_enum_v v; VBytes buf] =
  Some (Ret (VBytes (fst (cfg_extend_to v buf)), vusize (snd (cfg_extend_to v buf)))).
Proof. intros I. rewrite cf_text_buf, extend_text. now apply run_extend. Qed.
Theorem text_cfg_write v buf : In (cv_item v) cfg_table ->
  cfg_text_buf 2 "CfgVal" "write_to" [cfg_enum_v v; VBytes buf] =
  Some (ret_map (fun p => (VBytes (fst p), vusize (snd p))) (cfg_write_to v buf)).
Proof. intros I. rewrite cf_text_buf, write_text. now apply run_write. Qed.

Definition baudrate_9600 : cfg_val := mk_cfg_val baudrate 9600.
Example text_cfg_len_ex :
  cfg_text 2 "CfgVal" "len" [cfg_enum_v baudrate_9600] = Some (Ret (cfg_enum_v baudrate_9600, vusize 8)).
Proof. exact (proj1 (text_cfg_len baudrate_9600 baudrate_in)). Qed.
Example text_cfg_bytes_ex :
  cfg_text 2 "Uart1Baudrate" "into_cfg_kv_bytes" [wrap_v "Uart1Baudrate" (u32_v 9600)] =
  Some (Ret (wrap_v "Uart1Baudrate" (u32_v 9600), VBytes [x01; x00; x52; x40; x80; x25; x00; x00])).
Proof. exact (text_cfg_bytes baudrate_9600 baudrate_in). Qed.
Example text_cfg_extend_ex :
  cfg_text_buf 2 "CfgVal" "extend_to" [cfg_enum_v baudrate_9600; VBytes [xff]] =
  Some (Ret (VBytes [xff; x01; x00; x52; x40; x80; x25; x00; x00], vusize 8)).
Proof. exact (text_cfg_extend baudrate_9600 [xff] baudrate_in). Qed.
Example text_cfg_write_ex :
  cfg_text_buf 2 "CfgVal" "write_to" [cfg_enum_v baudrate_9600; VBytes [xff; xff; xff; xff; xff; xff; xff; xff; xff]] =
    Some (Ret (VBytes [x01; x00; x52; x40; x80; x25; x00; x00; xff], vusize 8)) /\
  cfg_text_buf 2 "CfgVal" "write_to" [cfg_enum_v baudrate_9600; VBytes [xff]] = Some Panic.
Proof.
  exact (conj (text_cfg_write baudrate_9600 [xff; xff; xff; xff; xff; xff; xff; xff; xff] baudrate_in)
              (text_cfg_write baudrate_9600 [xff] baudrate_in)).
Qed.
Print Assumptions text_cfg_len.
Print Assumptions text_cfg_bytes.
Print Assumptions text_cfg_extend.
Print Assumptions text_cfg_write.

(** ** Parsing: every buffer, also one which makes it panic *)

Theorem text_cfg_parse buf :
  cfg_text 2 "CfgVal" "parse" [VBytes buf] = returns (ret_map cfg_enum_v (cfg_parse cfg_table buf)).
Proof. rewrite cf_text. apply run_parse. Qed.
Example text_cfg_parse_ex :
  cfg_text 2 "CfgVal" "parse" [VBytes [x01; x00; x52; x40; x80; x25; x00; x00]] =
    Some (Ret (vunit, cfg_enum_v baudrate_9600)) /\
  cfg_text 2 "CfgVal" "parse" [VBytes [x01; x00; x52; x40; x80; x25]] = Some Panic /\
  cfg_text 2 "CfgVal" "parse" [VBytes [x00; x00; x00; x00; x80; x25; x00; x00]] = Some Panic.
Proof. rewrite !text_cfg_parse. vm_compute. auto. Qed.

Print Assumptions text_cfg_functions.
Print Assumptions text_key_id.
Print Assumptions text_storage_size.
Print Assumptions text_cfg_constants.
Print Assumptions text_cfg_len.
Print Assumptions text_cfg_bytes.
Print Assumptions text_cfg_extend.
Print Assumptions text_cfg_write.
Print Assumptions text_cfg_parse.
