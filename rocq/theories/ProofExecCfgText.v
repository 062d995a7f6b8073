(** * Running the expanded macros of cfg_val.rs: the expansion and what is read from it, computed once *)
From Coq Require Import String List NArith ZArith Bool Lia.
From Verif Require Import Base Buffers PackDesc Enums TableTypes Bits CfgVal TableCfg Tokens Lang Exec MacroRules SourceCfg SpecExec
  SpecExecPackets SpecExecCfg BaseFacts ProofLex ProofExecPackets.
Import ListNotations.
Open Scope N_scope.
Open Scope list_scope.

Definition cf_source : list token := Eval vm_compute in tokens_of cfg_val_rs.
Lemma cf_source_eq : tokens_of cfg_val_rs = cf_source.
Proof. unfold tokens_of. rewrite <- lex_flat_eq. vm_cast_no_check (eq_refl cf_source). Qed.
Definition cf_tokens : list token := Eval lazy in match expand_file cf_source with Some ts => ts | None => [] end.
Lemma cf_expand : expand_file cf_source = Some cf_tokens.
Proof. exact_no_check (eq_refl (Some cf_tokens)). Qed.
Lemma cf_tokens_eq : cfg_tokens = cf_tokens.
Proof. unfold cfg_tokens. rewrite cf_source_eq, cf_expand. reflexivity. Qed.
Definition cf_fns : list lfn := Eval vm_compute in match read_file 4000 cf_tokens with Some l => l | None => [] end.
Lemma cf_fns_ok : read_file 4000 cf_tokens = Some cf_fns.
Proof. vm_cast_no_check (eq_refl (Some cf_fns)). Qed.
Lemma cf_fns_eq : cfg_fns = cf_fns.
Proof. unfold cfg_fns. rewrite cf_tokens_eq, cf_fns_ok. reflexivity. Qed.
Definition cf_tuples := Eval vm_compute in read_tuples cf_tokens.
Lemma cf_tuples_eq : read_tuples cfg_tokens = cf_tuples.
Proof. rewrite cf_tokens_eq. vm_cast_no_check (eq_refl cf_tuples). Qed.
Definition cf_variants : list (string * N) := Eval vm_compute in app (read_enums cf_tokens) pk_enums.
Lemma cf_variants_eq : cfg_variants = cf_variants.
Proof. unfold cfg_variants. rewrite cf_tokens_eq, pk_enums_eq. vm_cast_no_check (eq_refl cf_variants). Qed.
Definition cf_consts : list (string * val) := Eval vm_compute in cfg_eval_consts cf_tuples cf_variants cf_fns (filter is_const cf_fns) [].
Lemma cf_consts_eq : cfg_consts = cf_consts.
Proof.
  unfold cfg_consts. rewrite cf_tuples_eq, cf_variants_eq, cf_fns_eq.
  vm_cast_no_check (eq_refl cf_consts).
Qed.

Definition cf_const (x : string) : option val := consts_with cf_variants cf_consts x.
Definition cf_call (depth : nat) : prog := link vec_ops cf_const [] cf_fns (cfg_ext cf_tuples) 0 depth.
Definition cf_find (ty name : string) : option lfn := find_fn cf_fns ty name.

Lemma cf_text depth : cfg_text depth = cf_call depth.
Proof. unfold cfg_text. rewrite cf_tuples_eq, cf_variants_eq, cf_fns_eq, cf_consts_eq. reflexivity. Qed.
Lemma cf_text_buf depth ty name args :
  cfg_text_buf depth ty name args =
  match cf_find ty name with
  | Some f => run_out vec_ops cf_const [] (cf_call depth) 0 ty "buf"%string f args
  | None => None
  end.
Proof. unfold cfg_text_buf. rewrite cf_tuples_eq, cf_variants_eq, cf_fns_eq, cf_consts_eq. reflexivity. Qed.
Lemma cf_step d ty name args :
  cf_call (S d) ty name args =
  match cf_find ty name with
  | Some f => run_fn vec_ops cf_const [] (cf_call d) 0 ty f args
  | None => cfg_ext cf_tuples ty name args
  end.
Proof. reflexivity. Qed.

