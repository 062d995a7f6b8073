(** * What the macros write: the templates, the expected outputs of the tests, the syntax trees *)
From Coq Require Import String Ascii List NArith ZArith Bool Lia.
From Verif Require Import Base Tokens Syntax PackDesc Enums Macro Quote Output SourceOutput SourceTests SourcePackets
  Rust Code ProofLex ProofOutput ProofCode.
Import ListNotations.
Open Scope N_scope.
Open Scope list_scope.

(** ** C69 *)

(** The bodies of all [quote!] invocations in a text, in order *)
Fixpoint quotes (fuel : nat) (ts : list token) : list (list token) :=
  match fuel with
  | O => []
  | S n =>
      match ts with
      | [] => []
      | t :: r =>
          match t, r with
          | TIdent x, TPunct p :: TGroup _ b :: r' =>
              if (String.eqb x "quote" && Ascii.eqb p "!")%bool then b :: quotes n r' else quotes n r
          | TGroup _ b, _ => quotes n b ++ quotes n r
          | _, _ => quotes n r
          end
      end
  end.

(** The templates of the model, in the order of the source text; some occur twice, and four are empty. *)
Definition all_templates : list (list tmpl) :=
  [t_debug_field; t_debug; t_ser_field; t_ser_iter; t_ser;
   template "self.0"; t_let; t_raw_getter; template "payload"; t_validator; t_from; t_scale; t_getter;
   t_range; t_rest; t_slice; t_let; t_from_tail; t_validator_rest; t_getter_rest; t_validate_fixed; t_min_size;
   t_min_size_fns; t_validate_min; t_recv;
   t_some; t_none; t_types;
   t_builder_field; t_extend_items; t_pack_into; t_pack_le; t_pack_array; t_write; t_extend; t_copy; t_default; [];
   t_lifetime; []; t_builder; t_send_fixed; t_send_dyn;
   t_branch; t_enum_from; t_branch; t_or; t_val; t_enum_from_unchecked; []; []; t_enum_into; t_enum_variant; t_enum;
   t_const; t_const0; t_reserved; t_reserved0; []; t_flags_from; []; t_flags_into; t_flags_serde; t_flags;
   t_union_variant; t_match; t_class_id; t_serializer; t_zero; t_max; t_parse;
   t_byte; t_as_ref; t_array; t_from_le; t_one].

Definition output_tokens : list token := Eval vm_compute in match lex output_rs with Some ts => ts | None => [] end.
Lemma output_lex : lex output_rs = Some output_tokens.
Proof. rewrite <- lex_flat_eq. vm_cast_no_check (eq_refl (Some output_tokens)). Qed.
Definition output_quotes : list (list token) := Eval vm_compute in quotes (N.to_nat 20000) output_tokens.
Lemma output_quotes_eq : quotes (N.to_nat 20000) output_tokens = output_quotes.
Proof. vm_cast_no_check (eq_refl output_quotes). Qed.

Theorem templates_verbatim :
  exists ts, lex output_rs = Some ts /\ map (read_tmpl (N.to_nat 5000)) (quotes (N.to_nat 20000) ts) = all_templates.
Proof.
  exists output_tokens. split; [exact output_lex|]. rewrite output_quotes_eq. vm_cast_no_check (eq_refl all_templates).
Qed.

(** The tests of the macros (tests.rs) compare texts which rustfmt has formatted: it drops a comma before a closing
    bracket and a doubled semicolon. *)
Fixpoint tidy (fuel : nat) (ts : list token) : list token :=
  match fuel with
  | O => []
  | S n =>
      match ts with
      | [] => []
      | [TPunct p] => if Ascii.eqb p "," then [] else [TPunct p]
      | TPunct p :: ((TPunct q :: _) as r) => if (Ascii.eqb p ";" && Ascii.eqb q ";")%bool then tidy n r else TPunct p :: tidy n r
      | TGroup d b :: r => TGroup d (tidy n b) :: tidy n r
      | t :: r => t :: tidy n r
      end
  end.
Definition tests_tokens : list token := Eval vm_compute in match lex tests_rs with Some ts => ts | None => [] end.
Lemma tests_lex : lex tests_rs = Some tests_tokens.
Proof. rewrite <- lex_flat_eq. vm_cast_no_check (eq_refl (Some tests_tokens)). Qed.

(** The inputs and expected outputs of the tests: [quote!] number [n] of tests.rs *)
Definition quote_of (text : string) (n : nat) : list token :=
  match lex text with Some ts => nth n (quotes (N.to_nat 5000) ts) [] | None => [] end.
Definition test_quote (n : nat) : list token := quote_of tests_rs n.
Definition test_quotes : list (list token) := Eval vm_compute in quotes (N.to_nat 5000) tests_tokens.
Lemma test_quote_eq n : test_quote n = nth n test_quotes [].
Proof.
  unfold test_quote, quote_of. rewrite tests_lex. apply (f_equal (fun l => nth n l [])). vm_cast_no_check (eq_refl test_quotes).
Qed.

(** [n]: the input, [m]: the expected output *)
Definition as_expected (n m : nat) (env : qenv) : Prop :=
  exists ts, expansion (fst (next_item (test_quote n))) = Good ts /\
    tidy (N.to_nat 5000) ts = tidy (N.to_nat 5000) (fill env (read_tmpl (N.to_nat 5000) (test_quote m))).

(** tests.rs 464-474: the reserved variants of the expected enum *)
Definition reserved_env : qenv :=
  let vals := map (fun i => N.of_nat (i + 6)) (seq 0 250) in
  let variant n v := fill [("ident", qident ("Reserved" ++ dec v)); ("val", qnum "u8" v)]%string (read_tmpl (N.to_nat 100) (test_quote n)) in
  [("reserved_fields"%string, Many (map (variant 7%nat) vals)); ("rev_reserved_fields"%string, Many (map (variant 8%nat) vals))].

Definition run_test (n : nat) : list token :=
  match expansion (fst (next_item (nth n test_quotes []))) with Good ts => ts | _ => [] end.
Definition out0 := Eval vm_compute in run_test 0.
Definition out2 := Eval vm_compute in run_test 2.
Definition out4 := Eval vm_compute in run_test 4.
Definition out6 := Eval vm_compute in run_test 6.
Definition out12 := Eval vm_compute in run_test 12.
Ltac expected out :=
  unfold as_expected; exists out; rewrite !test_quote_eq; split; [vm_cast_no_check (eq_refl (Good out))|vm_compute; reflexivity].

Theorem test_recv_simple : as_expected 0 1 [].
Proof. expected out0. Qed.
Theorem test_recv_dyn_len : as_expected 2 3 [].
Proof. expected out2. Qed.
Theorem test_send_simple : as_expected 4 5 [].
Proof. expected out4. Qed.
Theorem test_upgrade_enum : as_expected 6 9 reserved_env.
Proof. unfold reserved_env. expected out6. Qed.
Theorem test_extend_bitflags : as_expected 12 13 [].
Proof. expected out12. Qed.
Theorem test_define_recv_packets :
  exists d, parse_idents_list (test_quote 10) = Good d /\
    tidy (N.to_nat 5000) (generate_code_for_parse d) = tidy (N.to_nat 5000) (test_quote 11).
Proof.
  rewrite !test_quote_eq. eexists. split; [vm_compute; reflexivity|]. vm_compute. reflexivity.
Qed.

(** The generators refuse or panic exactly when Macro.v says so, as far as the sizes of the fields add up in an [usize]. *)
Theorem expansion_accepts i :
  (forall ts, expansion i = Good ts -> exists os, expand i = Good os) /\
  (forall m, expansion i = Bad m <-> expand i = Bad m) /\
  (forall os, expand i = Good os -> sizes_fit os -> exists ts, expansion i = Good ts).
Proof. split; [exact (expansion_good i)|]. split; [exact (expansion_bad i) | exact (expansion_finishes i)]. Qed.

(** The items written for a declaration, as syntax trees (Code.v) *)
Definition item_attrs (i : syn_item) : list attribute :=
  match i with IStruct a _ _ | IEnum a _ _ | IMacro a _ _ => a | IOther => [] end.
Definition item_body (i : syn_item) : list token := match i with IMacro _ _ b => b | _ => [] end.
Definition output_items (i : syn_item) (o : output) : list ritem :=
  match o with
  | OPacket Recv d => types_items d ++ recv_items d
  | OPacket Send d => types_items d ++ send_items d
  | OPacket RecvSend d => types_items d ++ send_items d ++ recv_items d
  | OEnum d => enum_items (item_attrs i) d
  | OFlags d => let x := flags_text_of (item_body i) in
                flags_items_code x (match scalar_of [TIdent (ft_repr x)] with Some s => s | None => U8 end) d
  | ORecv d => parse_items d
  end.
(** An enum has a variant and the list of packets is not empty: without, Rust refuses the text. *)
Definition not_empty (o : output) : Prop :=
  match o with
  | OEnum d => enum_variants (ed_desc d) <> []
  | ORecv d => rd_packets d <> []
  | _ => True
  end.

Theorem expansion_is_code i os ts :
  expand i = Good os -> Forall not_empty os -> expansion i = Good ts ->
  ts = flat_map print_item (flat_map (output_items i) os).
Proof.
  destruct i as [attrs name fs|attrs name vs|attrs path body|]; cbn [expansion expand].
  - destruct (first_macro attrs) as [[k| |]|]; try discriminate; [|intros H _ H'; injection H as <-; injection H' as <-; reflexivity].
    destruct fs as [fs|m|]; try discriminate. cbn [mbind]. unfold packet_macro.
    destruct (parse_packet_description name attrs fs) as [d|m|]; try discriminate. cbn [mbind].
    destruct (gen_packet k d); try discriminate. intros H _ H'. cbn [mbind] in H. injection H as <-.
    cbn [flat_map]. rewrite app_nil_r. destruct k; cbn [code_for_packet output_items] in *.
    + unfold code_for_recv_packet in H'. destruct (generate_recv_code_for_packet d) eqn:Hr; try discriminate H'.
      cbn [mbind] in H'. apply good_inj in H'. subst ts. rewrite flat_map_app, (recv_print _ _ Hr), types_print. reflexivity.
    + unfold code_for_send_packet in H'. destruct (generate_send_code_for_packet d) eqn:Hr; try discriminate H'.
      cbn [mbind] in H'. apply good_inj in H'. subst ts. rewrite flat_map_app, (send_print _ _ Hr), types_print. reflexivity.
    + unfold code_for_recv_send_packet in H'. destruct (generate_send_code_for_packet d) eqn:Hs; try discriminate H'.
      cbn [mbind] in H'. destruct (generate_recv_code_for_packet d) eqn:Hr; try discriminate H'.
      cbn [mbind] in H'. apply good_inj in H'. subst ts.
      rewrite !flat_map_app, (recv_print _ _ Hr), (send_print _ _ Hs), types_print. reflexivity.
  - destruct (first_macro attrs) as [[k| |]|]; try discriminate; [|intros H _ H'; injection H as <-; injection H' as <-; reflexivity].
    destruct vs as [vs|m|]; try discriminate. cbn [mbind]. unfold enum_macro.
    destruct (parse_ubx_enum_type name attrs vs) as [d|m|]; try discriminate. cbn [mbind].
    destruct (gen_enum d); try discriminate. intros H Hn H'. cbn [mbind] in H. injection H as <-.
    inversion Hn as [|? ? Hv _]; subst. cbn [flat_map]. rewrite app_nil_r. exact (enum_print _ _ _ Hv H').
  - destruct (first_macro attrs) as [[k| |]|]; try discriminate.
    + unfold flags_macro. destruct (is_ident path "bitflags"); try discriminate.
      destruct (parse_bitflags attrs body) as [d|m|]; try discriminate. cbn [mbind].
      destruct (gen_flags d); try discriminate. intros H _ H'. cbn [mbind] in H. injection H as <-.
      cbn [flat_map]. rewrite app_nil_r. exact (flags_print _ _ _ _ H').
    + destruct (is_ident path "define_recv_packets"); [|intros H _ H'; injection H as <-; injection H' as <-; reflexivity].
      destruct (parse_idents_list body) as [d|m|]; try discriminate. cbn [mbind]. intros H Hn H'.
      injection H as <-. apply good_inj in H'. subst ts. inversion Hn as [|? ? Hv _]; subst. cbn [flat_map]. rewrite app_nil_r.
      exact (parse_print d Hv).
  - intros H _ H'. injection H as <-. injection H' as <-. reflexivity.
Qed.

(** Such items: the one of the first test, a packet with six fields. *)
Example expansion_case :
  exists d ts, expand (fst (next_item (nth 0 test_quotes []))) = Good [OPacket Recv d] /\
    Forall not_empty [OPacket Recv d] /\ sizes_fit [OPacket Recv d] /\ length (pd_fields d) = 6%nat /\
    expansion (fst (next_item (nth 0 test_quotes []))) = Good ts.
Proof.
  eexists. eexists. split; [vm_compute; reflexivity|]. split; [repeat constructor|]. split.
  - intros k d H. destruct H as [H|[]]. injection H as <- <-. vm_compute. discriminate.
  - split; [reflexivity|]. vm_compute. reflexivity.
Qed.

Print Assumptions templates_verbatim.
Print Assumptions test_recv_simple.
Print Assumptions test_recv_dyn_len.
Print Assumptions test_send_simple.
Print Assumptions test_upgrade_enum.
Print Assumptions test_extend_bitflags.
Print Assumptions test_define_recv_packets.
Print Assumptions expansion_accepts.
Print Assumptions expansion_is_code.
