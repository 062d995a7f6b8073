(** * The lexer with every definition unfolded *)
From Verif Require Import Base Tokens.

(** [lex_flat] is [lex] with every definition unfolded: reduced without unfolding anything it keeps its intermediate
    results shared, also in coqchk, which has no virtual machine. *)
Definition lex_flat := Eval cbv delta in lex.
Lemma lex_flat_eq : lex_flat = lex.
Proof. reflexivity. Qed.
