(** * The functions of parser.rs and ubx_packets.rs, run from their text

    Symbolic execution of the interpreter of Exec.v: one lemma per function, which assumes what the functions it calls do;
    then the functions are linked. *)
From Coq Require Import String List NArith Bool Lia.
From Verif Require Import Base Buffers DualBuffer Parser Checksum Tokens Lang Exec SourceParser SourceUbx SpecExec BaseFacts GenSend ProofLex.
Import ListNotations.
Open Scope N_scope.
Open Scope list_scope.

Definition parser_tokens : list token := Eval vm_compute in tokens_of parser_rs.
Lemma parser_tokens_eq : tokens_of parser_rs = parser_tokens.
Proof. unfold tokens_of. rewrite <- lex_flat_eq. vm_cast_no_check (eq_refl parser_tokens). Qed.
Definition parser_fns : list lfn := Eval vm_compute in match fns_of parser_tokens with Some l => l | None => [] end.
Lemma parser_fns_eq : fns_of parser_tokens = Some parser_fns.
Proof. vm_cast_no_check (eq_refl (Some parser_fns)). Qed.
Definition parser_structs := Eval vm_compute in read_structs parser_tokens.

Definition the_fn (o : option lfn) : lfn := match o with Some f => f | None => mk_lfn "" [] "" [] [] EBreak end.
Definition fn_find : lfn := Eval vm_compute in the_fn (find_fn parser_fns "trait UnderlyingBuffer" "find").
Definition fn_is_empty : lfn := Eval vm_compute in the_fn (find_fn parser_fns "trait UnderlyingBuffer" "is_empty").
Definition fn_v_clear : lfn := Eval vm_compute in the_fn (find_fn parser_fns "Vec" "clear").
Definition fn_v_len : lfn := Eval vm_compute in the_fn (find_fn parser_fns "Vec" "len").
Definition fn_v_max : lfn := Eval vm_compute in the_fn (find_fn parser_fns "Vec" "max_capacity").
Definition fn_v_extend : lfn := Eval vm_compute in the_fn (find_fn parser_fns "Vec" "extend_from_slice").
Definition fn_v_drain : lfn := Eval vm_compute in the_fn (find_fn parser_fns "Vec" "drain").
Definition fn_v_find : lfn := Eval vm_compute in the_fn (find_fn parser_fns "Vec" "find").
Definition fn_f_new : lfn := Eval vm_compute in the_fn (find_fn parser_fns "FixedLinearBuffer" "new").
Definition fn_f_range : lfn := Eval vm_compute in the_fn (find_fn parser_fns "FixedLinearBuffer" "index_range").
Definition fn_f_index : lfn := Eval vm_compute in the_fn (find_fn parser_fns "FixedLinearBuffer" "index").
Definition fn_f_clear : lfn := Eval vm_compute in the_fn (find_fn parser_fns "FixedLinearBuffer" "clear").
Definition fn_f_len : lfn := Eval vm_compute in the_fn (find_fn parser_fns "FixedLinearBuffer" "len").
Definition fn_f_max : lfn := Eval vm_compute in the_fn (find_fn parser_fns "FixedLinearBuffer" "max_capacity").
Definition fn_f_extend : lfn := Eval vm_compute in the_fn (find_fn parser_fns "FixedLinearBuffer" "extend_from_slice").
Definition fn_f_drain : lfn := Eval vm_compute in the_fn (find_fn parser_fns "FixedLinearBuffer" "drain").
Definition fn_f_find : lfn := Eval vm_compute in the_fn (find_fn parser_fns "FixedLinearBuffer" "find").
Definition fn_p_default : lfn := Eval vm_compute in the_fn (find_fn parser_fns "Parser" "default").
Definition fn_p_new : lfn := Eval vm_compute in the_fn (find_fn parser_fns "Parser" "new").
Definition fn_p_empty : lfn := Eval vm_compute in the_fn (find_fn parser_fns "Parser" "is_buffer_empty").
Definition fn_p_len : lfn := Eval vm_compute in the_fn (find_fn parser_fns "Parser" "buffer_len").
Definition fn_p_consume : lfn := Eval vm_compute in the_fn (find_fn parser_fns "Parser" "consume").
Definition fn_d_index : lfn := Eval vm_compute in the_fn (find_fn parser_fns "DualBuffer" "index").
Definition fn_d_new : lfn := Eval vm_compute in the_fn (find_fn parser_fns "DualBuffer" "new").
Definition fn_d_clear : lfn := Eval vm_compute in the_fn (find_fn parser_fns "DualBuffer" "clear").
Definition fn_d_drain : lfn := Eval vm_compute in the_fn (find_fn parser_fns "DualBuffer" "drain").
Definition fn_d_len : lfn := Eval vm_compute in the_fn (find_fn parser_fns "DualBuffer" "len").
Definition fn_d_lost : lfn := Eval vm_compute in the_fn (find_fn parser_fns "DualBuffer" "potential_lost_bytes").
Definition fn_d_can : lfn := Eval vm_compute in the_fn (find_fn parser_fns "DualBuffer" "can_drain_and_take").
Definition fn_d_peek : lfn := Eval vm_compute in the_fn (find_fn parser_fns "DualBuffer" "peek_raw").
Definition fn_d_take : lfn := Eval vm_compute in the_fn (find_fn parser_fns "DualBuffer" "take").
Definition fn_d_drop : lfn := Eval vm_compute in the_fn (find_fn parser_fns "DualBuffer" "drop").
Definition fn_c_new : lfn := Eval vm_compute in the_fn (find_fn parser_fns "UbxChecksumCalc" "new").
Definition fn_c_update : lfn := Eval vm_compute in the_fn (find_fn parser_fns "UbxChecksumCalc" "update").
Definition fn_c_result : lfn := Eval vm_compute in the_fn (find_fn parser_fns "UbxChecksumCalc" "result").
Definition fn_i_find : lfn := Eval vm_compute in the_fn (find_fn parser_fns "ParserIter" "find_sync").
Definition fn_i_extract : lfn := Eval vm_compute in the_fn (find_fn parser_fns "ParserIter" "extract_packet").
Definition fn_i_next : lfn := Eval vm_compute in the_fn (find_fn parser_fns "ParserIter" "next").

Definition ubx_tokens : list token := Eval vm_compute in tokens_of ubx_packets_rs.
Lemma ubx_tokens_eq : tokens_of ubx_packets_rs = ubx_tokens.
Proof. unfold tokens_of. rewrite <- lex_flat_eq. vm_cast_no_check (eq_refl ubx_tokens). Qed.
Definition ubx_fns : list lfn := Eval vm_compute in match fns_of ubx_tokens with Some l => l | None => [] end.
Lemma ubx_fns_eq : fns_of ubx_tokens = Some ubx_fns.
Proof. vm_cast_no_check (eq_refl (Some ubx_fns)). Qed.
Definition ubx_structs := Eval vm_compute in read_structs ubx_tokens.
Definition fn_u_checksum : lfn := Eval vm_compute in the_fn (find_fn ubx_fns "" "ubx_checksum").
Definition fn_u_update : lfn := Eval vm_compute in the_fn (find_fn ubx_fns "UbxChecksumCalc" "update").
Definition fn_u_result : lfn := Eval vm_compute in the_fn (find_fn ubx_fns "UbxChecksumCalc" "result").
Definition fn_u_reserve : lfn := Eval vm_compute in the_fn (find_fn ubx_fns "Vec" "reserve_allocate").
Definition fn_u_write : lfn := Eval vm_compute in the_fn (find_fn ubx_fns "Vec" "write").
Definition fn_u_for : lfn := Eval vm_compute in the_fn (find_fn ubx_fns "UbxPacketRequest" "request_for").
Definition fn_u_unknown : lfn := Eval vm_compute in the_fn (find_fn ubx_fns "UbxPacketRequest" "request_for_unknown").
Definition fn_u_bytes : lfn := Eval vm_compute in the_fn (find_fn ubx_fns "UbxPacketRequest" "into_packet_bytes").

Ltac scrut t := lazymatch t with match ?x with _ => _ end => scrut x | _ => t end.
Ltac small x := eval cbv beta iota zeta delta [bounds as_bytes copy_args memmove copy_into set_index call_path bind self_path call_on index_on fit_fields path_val as_range
   write_args try_of map_err same_path String.eqb Ascii.eqb Bool.eqb find_var set_var leave get_field get_path set_path place_of get_place set_place bind_pat
   like fit ity_of bin un arith unify ity_eqb ity_bits num_eq nums_eq meth opt_usize slice_val std_call byte_array vunit vusize vu8 vctor vnone
   find map combine app String.append fst snd List.length skipn Nat.sub Nat.eqb lf_type lf_ret lf_params lf_body lf_name finish params option_map
   negb andb orb h_return h_break h_continue dual_v iter_v parser_v flb_v cksum_v pair_v option_v flb_buffer flb_len d_buf d_off d_new d_noff ret_map
   result_v error_v sat_sub parser_structs ubx_structs] in x.
Ltac hd L := lazymatch L with
 | ev ?o ?cs ?st ?ca ?w ?s ?c ?h ?e ?k => 
   match goal with
   | _ => let _ := match goal with _ => is_var c end in L
   | _ =>
     let e' := small e in
     let L' := eval cbv beta iota zeta delta [ev_step place_of String.eqb Ascii.eqb Bool.eqb app] in (ev_step o cs st ca w s (ev o cs st ca w s) c h e' k) in
     hd L'
   end
 | on_some ?o ?k => let o' := small o in
     lazymatch o' with
     | Some ?x => let L' := eval cbv beta iota in (k x) in hd L'
     | _ => let L' := constr:(match o' with Some a => k a | None => None end) in let L' := eval cbv beta iota in L' in L'
     end
 | on_opt ?o ?k ?n => let o' := small o in
     lazymatch o' with
     | Some ?x => let L' := eval cbv beta iota in (k x) in hd L'
     | None => hd n
     | _ => constr:(match o' with Some a => k a | None => n end)
     end
 | on_bool ?v ?t ?f => let v' := small v in
     lazymatch v' with
     | VBool true => hd t
     | VBool false => hd f
     | VBool ?b => constr:(if b then t else f)
     | _ => constr:(on_bool v' t f)
     end
 | on_ret ?o ?k => let o' := small o in
     lazymatch o' with
     | Some (Ret ?x) => let L' := eval cbv beta iota in (k x) in hd L'
     | _ => let L' := constr:(match o' with Some (Ret a) => k a | Some Panic => Some Panic | Some Diverge => Some Diverge | None => None end) in
          let L' := eval cbv beta iota in L' in L'
     end
 | ev_list _ _ _ _ => let L' := eval cbv beta iota delta [ev_list] in L in hd L'
 | ev_opt _ _ _ _ => let L' := eval cbv beta iota delta [ev_opt] in L in hd L'
 | ev_fields _ _ _ _ => let L' := eval cbv beta iota delta [ev_fields] in L in hd L'
 | ev_stmts ?f (?c :: nil) ?e ?k => let L' := eval cbv beta in (f c e k) in hd L'
 | ev_stmts ?f nil ?e ?k => let L' := eval cbv beta in (k vunit e) in hd L'
 | ev_arms _ _ _ _ _ => let L' := eval cbv beta iota delta [ev_arms] in L in hd L'
 | h_return ?h ?v ?e => let L' := eval cbv beta iota delta [h_return] in L in hd L'
 | h_break ?h ?e => let L' := eval cbv beta iota delta [h_break] in L in hd L'
 | h_continue ?h ?e => let L' := eval cbv beta iota delta [h_continue] in L in hd L'
 | finish _ _ _ => let L' := small L in L'
 | _ => L
 end.
Ltac hdl := lazymatch goal with |- ?L = ?R => let L' := hd L in change_no_check (L' = R) end.
Ltac parts := repeat match goal with d : dual |- _ => destruct d | p : (_ * _)%type |- _ => destruct p end.
Ltac norm E := cbv beta iota delta [d_create dual_v iter_v cksum_v flb_v parser_v vusize vu8 vunit d_buf d_off d_new d_noff flb_buffer flb_len fst snd ret_map] in E.
Ltac use H args :=
  let E := fresh "E" in
  lazymatch args with
  | VAdt _ [(_, VBuf ?b); (_, VNum _ ?off); (_, VBytes ?nw); (_, VNum _ ?noff)] :: _ => pose proof (H (mk_dual b off nw noff)) as E
  | VAdt _ [(_, VAdt _ [(_, VBuf ?b); (_, VNum _ ?off); (_, VBytes ?nw); (_, VNum _ ?noff)])] :: _ => pose proof (H (mk_dual b off nw noff)) as E
  | VAdt _ [(_, VNum _ (b2n (match ?a with pair x _ => x end))); _] :: _ => pose proof (H a) as E
  | VAdt _ [(_, VNum _ (b2n ?a)); (_, VNum _ (b2n ?b))] :: _ => pose proof (H (a, b)) as E
  | VAdt _ [(_, VBytes ?l); (_, VNum _ ?n)] :: _ => pose proof (H (mk_flb l n)) as E
  | _ => pose proof H as E
  end; norm E; rewrite E; clear E.
Ltac step := hdl; try (match goal with |- ?f _ = _ => is_var f | |- ?f _ _ = _ => is_var f end; reflexivity); lazymatch goal with
  | |- ev_stmts ?f (?c :: ?l) ?e ?k = ?R => let c' := fresh "c" in let r := fresh "rest" in pose (c' := c); pose (r := l); 
     let L' := eval cbv beta in (f c' e (fun _ e' => ev_stmts f r e' k)) in change_no_check (L' = R)
  | |- ev_stmts ?f ?l ?e ?k = ?R => is_var l; let l' := eval unfold l in l in change_no_check (ev_stmts f l' e k = R); try clear l
  | |- ev _ _ _ _ _ _ ?c ?h ?e ?k = ?R => is_var c; unfold c; clear c
  | |- Some _ = _ => try rewrite !n2b_b2n; first [reflexivity | repeat match goal with o : option _ |- _ => destruct o end; reflexivity]
  | |- match _ with _ => _ end = _ =>
     lazymatch goal with |- ?L = _ =>
     let x := scrut L in
     tryif (lazymatch x with ?f ?ty _ _ => is_var f; lazymatch type of ty with string => idtac end end)
     then (lazymatch x with ?call ?ty ?m ?args => match goal with H : context [call ty m _] |- _ => use H args; cbv beta iota end end)
     else (match goal with
         | _ => lazymatch x with context [n2b (b2n _)] => rewrite !n2b_b2n end
         | _ => lazymatch x with capital ?s => let b := eval vm_compute in x in change x with b; cbv beta iota end
         | H : x = _ |- _ => rewrite H; cbv beta iota delta [negb andb]
         | _ => destruct x eqn:?; cbv beta iota delta [negb andb]; parts
         end)
    end
  end.
Ltac start f := 
  unfold run_fn; cbn [Nat.eqb List.length lf_params lf_body lf_ret f params combine map fst snd].

Lemma mod_byte n : n mod 2 ^ 8 = b2n (n2b n).
Proof. symmetry. apply b2n_n2b. Qed.

Section Loops.
  Context {T P : Type}.
  Notation ans := (ans (T:=T) (P:=P)).
  Definition after {A} (r : res A) (k : A -> ans) : ans := match r with Ret a => k a | Panic => Some Panic | Diverge => Some Diverge end.
  Lemma find_num_eq (test : N -> (bool -> ans) -> ans) p n : forall i k, (forall i kb, test i kb = after (p i) kb) ->
    find_num test n i k = after (find_range p i n) k.
  Proof. induction n as [|n IH]; intros i k H; cbn; [reflexivity|]. rewrite H. unfold after, bind. destruct (p i) as [[]| |]; try reflexivity. rewrite IH by exact H. reflexivity. Qed.
  Lemma find_byte_eq (test : byte -> (bool -> ans) -> ans) x l : forall i k, (forall b kb, test b kb = kb (byte_eqb b x)) ->
    find_byte test l i k = k (option_map (N.add i) (position l x)).
  Proof. induction l as [|b l IH]; intros i k H; cbn; [reflexivity|]. rewrite H. destruct (byte_eqb b x); cbn.
    - f_equal. f_equal. lia.
    - rewrite IH by exact H. destruct (position l x); cbn; [|reflexivity]. do 2 f_equal. lia. Qed.
  Lemma for_nums_eq (one : N -> env (T:=T) (P:=P) -> (env -> ans) -> ans) p hit e n : forall i k, (forall i kn, one i e kn = after (p i) (fun b : bool => if b then hit i else kn e)) ->
    for_nums one n i e k = after (find_range p i n) (fun o => match o with Some j => hit j | None => k e end).
  Proof. induction n as [|n IH]; intros i k H; cbn; [reflexivity|]. rewrite H. unfold after, bind. destruct (p i) as [[]| |]; try reflexivity. rewrite IH by exact H. reflexivity. Qed.
  Lemma for_bytes_eq {S} (one : byte -> env (T:=T) (P:=P) -> (env -> ans) -> ans) (f : S -> env) stp l : forall s k, (forall s b kn, one b (f s) kn = kn (f (stp s b))) ->
    for_bytes one l (f s) k = k (f (fold_left stp l s)).
  Proof. induction l as [|b l IH]; intros s k H; cbn; [reflexivity|]. rewrite H. now apply IH. Qed.
End Loops.


Section ParserText.
Context {T P : Type} (ops : buf_ops T) (consts : string -> option (val T P)) (w : nat) (call : prog (T:=T) (P:=P)).
Notation run := (run_fn ops consts parser_structs call w).

(** ** The trait's provided methods *)
Lemma find_text t v : run "trait UnderlyingBuffer" fn_find [VBuf t; vu8 v] =
  Some (ret_map (fun o => (VBuf t, option_v vusize o)) (b_find_default (b_len ops) (b_index ops) t v)).
Proof. cbv beta iota zeta delta [bind b_find_default]. start fn_find. repeat step. hdl. rewrite N.sub_0_r.
 match goal with |- find_num _ _ _ _ = Some (ret_map _ (find_range ?p _ _)) => rewrite (find_num_eq _ p) end.
 - destruct find_range as [[]| |]; reflexivity.
 - intros i kb. cbv beta iota delta [byte_eqb after]. repeat step.
Qed.
Lemma is_empty_text t : run "trait UnderlyingBuffer" fn_is_empty [VBuf t] = Some (Ret (VBuf t, VBool (b_is_empty ops t))).
Proof. unfold b_is_empty. start fn_is_empty. repeat step. Qed.
(** ** [Vec] *)
Lemma v_clear_text l : run "Vec" fn_v_clear [VBytes l] = Some (ret_map (fun l' => (VBytes l', vunit)) (b_clear vec_ops l)).
Proof. start fn_v_clear. repeat step. Qed.
Lemma v_len_text l : run "Vec" fn_v_len [VBytes l] = Some (Ret (VBytes l, vusize (b_len vec_ops l))).
Proof. start fn_v_len. repeat step. Qed.
Lemma v_max_text l : run "Vec" fn_v_max [VBytes l] = Some (Ret (VBytes l, vusize (b_max_cap vec_ops l))).
Proof. start fn_v_max. repeat step. Qed.
Lemma v_extend_text l o : run "Vec" fn_v_extend [VBytes l; VBytes o] = Some (ret_map (fun p => (VBytes (fst p), vusize (snd p))) (b_extend vec_ops l o)).
Proof. cbn [b_extend vec_ops]. unfold vec_extend. start fn_v_extend. repeat step. Qed.
Lemma v_drain_text l n : run "Vec" fn_v_drain [VBytes l; vusize n] = Some (ret_map (fun l' => (VBytes l', vunit)) (b_drain vec_ops l n)).
Proof. cbn [b_drain vec_ops]. unfold vec_drain. start fn_v_drain. assert (H0 : (0 <=? n) = true) by (apply N.leb_le, N.le_0_l). repeat step. Qed.
Lemma v_find_text l v : run "Vec" fn_v_find [VBytes l; vu8 v] = Some (ret_map (fun o => (VBytes l, option_v vusize o)) (b_find vec_ops l v)).
Proof. cbn [b_find vec_ops ret_map]. start fn_v_find. repeat step. hdl. rewrite (find_byte_eq _ v).
 - destruct (position l v) as [n|]; reflexivity.
 - intros b kb. unfold byte_eqb. repeat step.
Qed.
(** ** [FixedLinearBuffer] *)
Lemma f_new_text l : run "FixedLinearBuffer" fn_f_new [VBytes l] = Some (Ret (vunit, flb_v (flb_new l))).
Proof. start fn_f_new. repeat step. Qed.
Lemma f_range_text f a b : run "FixedLinearBuffer" fn_f_range [flb_v f; VRng (Some a) (Some b)] = Some (ret_map (fun l => (flb_v f, VBytes l)) (b_range flb_ops f a b)).
Proof. destruct f as [l n]. cbv beta iota zeta delta [bind b_range flb_ops flb_range flb_buffer flb_len]. start fn_f_range. repeat step. Qed.
Lemma f_index_text f i : run "FixedLinearBuffer" fn_f_index [flb_v f; vusize i] = Some (ret_map (fun b => (flb_v f, vu8 b)) (b_index flb_ops f i)).
Proof. destruct f as [l n]. cbv beta iota zeta delta [bind b_index flb_ops flb_index flb_buffer flb_len]. start fn_f_index. repeat step. Qed.
Lemma f_clear_text f : run "FixedLinearBuffer" fn_f_clear [flb_v f] = Some (ret_map (fun f' => (flb_v f', vunit)) (b_clear flb_ops f)).
Proof. destruct f as [l n]. start fn_f_clear. repeat step. Qed.
Lemma f_len_text f : run "FixedLinearBuffer" fn_f_len [flb_v f] = Some (Ret (flb_v f, vusize (b_len flb_ops f))).
Proof. destruct f as [l n]. start fn_f_len. repeat step. Qed.
Lemma f_max_text f : run "FixedLinearBuffer" fn_f_max [flb_v f] = Some (Ret (flb_v f, vusize (b_max_cap flb_ops f))).
Proof. destruct f as [l n]. start fn_f_max. repeat step. Qed.

Lemma slice_no_diverge {A} (l : list A) a b : slice l a b <> Diverge.
Proof. unfold slice. destruct (_ && _); discriminate. Qed.
Lemma f_extend_text f o : run "FixedLinearBuffer" fn_f_extend [flb_v f; VBytes o] = Some (ret_map (fun p => (flb_v (fst p), vusize (snd p))) (b_extend flb_ops f o)).
Proof. destruct f as [l n]. cbv beta iota zeta delta [bind b_extend flb_ops flb_extend flb_buffer flb_len]. start fn_f_extend. 
  repeat step. 
  all: hdl; try match goal with H : slice _ _ _ = Diverge |- _ => now apply slice_no_diverge in H end. 
  match goal with |- _ = Some (ret_map _ (match slice ?l ?a ?b with _ => _ end)) => destruct (slice l a b) eqn:H; [reflexivity|reflexivity|now apply slice_no_diverge in H] end.
Qed.
Lemma f_drain_text f n : run "FixedLinearBuffer" fn_f_drain [flb_v f; vusize n] = Some (ret_map (fun f' => (flb_v f', vunit)) (b_drain flb_ops f n)).
Proof. destruct f as [l k]. cbv beta iota zeta delta [bind b_drain flb_ops flb_drain flb_buffer flb_len]. start fn_f_drain. 
  repeat step; change (0 + n) with n in *; change (0 + a) with a in *.
  - hdl. replace (n + a <=? lenN l) with true by (symmetry; assumption). reflexivity.
  - rewrite N.leb_le, N.leb_gt in *. lia.
  - replace (n + a <=? lenN l) with false by (symmetry; assumption). reflexivity.
Qed.
Context (Hf_len : forall f, call "FixedLinearBuffer" "len" [flb_v f] = Some (Ret (flb_v f, vusize (b_len flb_ops f)))).
Context (Hf_index : forall f i, call "FixedLinearBuffer" "index" [flb_v f; vusize i] = Some (ret_map (fun b => (flb_v f, vu8 b)) (b_index flb_ops f i))).
Lemma f_find_text f v : run "FixedLinearBuffer" fn_f_find [flb_v f; vu8 v] = Some (ret_map (fun o => (flb_v f, option_v vusize o)) (b_find flb_ops f v)).
Proof. destruct f as [l k]. cbn [b_find flb_ops]. cbv beta iota zeta delta [bind b_find_default]. start fn_f_find. repeat step. hdl. rewrite N.sub_0_r.
 match goal with |- find_num _ _ _ _ = Some (ret_map _ (find_range ?p _ _)) => rewrite (find_num_eq _ p) end.
 - cbn [flb_ops b_len flb_len]. destruct find_range as [[]| |]; reflexivity.
 - intros i kb. cbv beta iota delta [byte_eqb after]. cbn [flb_ops b_index] in *. repeat step.
Qed.
(** ** [Parser] *)
Lemma p_default_text : run "Parser" fn_p_default [] = Some (Ret (vunit, VAdt ["Parser"%string] [("buf"%string, VBytes [])])).
Proof. start fn_p_default. repeat step. Qed.
Lemma p_new_text t : run "Parser" fn_p_new [VBuf t] = Some (Ret (vunit, parser_v t)).
Proof. start fn_p_new. repeat step. Qed.
Lemma p_empty_text t : run "Parser" fn_p_empty [parser_v t] = Some (Ret (parser_v t, VBool (is_buffer_empty ops t))).
Proof. start fn_p_empty. repeat step. Qed.
Lemma p_len_text t : run "Parser" fn_p_len [parser_v t] = Some (Ret (parser_v t, vusize (buffer_len ops t))).
Proof. start fn_p_len. repeat step. Qed.

(** ** [DualBuffer] *)
Lemma d_len_text d : run "DualBuffer" fn_d_len [dual_v d] = Some (ret_map (fun n => (dual_v d, vusize n)) (d_len ops d)).
Proof. destruct d as [b off nw noff]. cbv beta iota zeta delta [bind d_len d_buf d_off d_new d_noff]. start fn_d_len. repeat step. Qed.
Lemma d_take_text d c : run "DualBuffer" fn_d_take [dual_v d; vusize c]
   = Some (ret_map (fun r => (dual_v (snd r), result_v VBytes (fst r))) (d_take ops d c)).
Proof. destruct d as [b off nw noff]. cbv beta iota zeta delta [bind d_take d_buf d_off d_new d_noff sat_sub]. start fn_d_take. repeat step. Qed.
Lemma d_index_text d i : run "DualBuffer" fn_d_index [dual_v d; vusize i] = Some (ret_map (fun b => (dual_v d, vu8 b)) (d_index ops d i)).
Proof. destruct d as [b off nw noff]. cbv beta iota zeta delta [bind d_index d_buf d_off d_new d_noff sat_sub]. start fn_d_index. repeat step. Qed.
Lemma d_new_text t l : run "DualBuffer" fn_d_new [VBuf t; VBytes l] = Some (Ret (vunit, dual_v (d_create t l))).
Proof. start fn_d_new. repeat step. Qed.
Lemma d_drain_text d c : run "DualBuffer" fn_d_drain [dual_v d; vusize c] = Some (ret_map (fun d' => (dual_v d', vunit)) (d_drain ops d c)).
Proof. destruct d as [b off nw noff]. cbv beta iota zeta delta [bind d_drain d_buf d_off d_new d_noff sat_sub]. start fn_d_drain. repeat step. Qed.
Lemma d_can_text d c n : run "DualBuffer" fn_d_can [dual_v d; vusize c; vusize n] = Some (ret_map (fun r => (dual_v d, VBool r)) (d_can_drain_and_take ops d c n)).
Proof. destruct d as [b off nw noff]. cbv beta iota zeta delta [bind d_can_drain_and_take d_buf d_off d_new d_noff sat_sub]. start fn_d_can. repeat step. Qed.
Lemma d_peek_text d c n : run "DualBuffer" fn_d_peek [dual_v d; VRng (Some c) (Some n)] = Some (ret_map (fun r => (dual_v d, pair_v VBytes VBytes r)) (d_peek_raw ops d c n)).
Proof. destruct d as [b off nw noff]. cbv beta iota zeta delta [bind d_peek_raw d_buf d_off d_new d_noff sat_sub]. start fn_d_peek. repeat step. Qed.
Lemma d_drop_text d : run "DualBuffer" fn_d_drop [dual_v d] = Some (ret_map (fun t => (dual_v (mk_dual t (d_off d) (d_new d) (d_noff d)), vunit)) (d_drop ops d)).
Proof. destruct d as [b off nw noff]. cbv beta iota zeta delta [bind d_drop d_buf d_off d_new d_noff sat_sub]. start fn_d_drop. repeat step. Qed.


(** ** With callees *)
Context (Hd_len : forall d, call "DualBuffer" "len" [dual_v d] = Some (ret_map (fun n => (dual_v d, vusize n)) (d_len ops d))).
Context (Hd_index : forall d i, call "DualBuffer" "index" [dual_v d; vusize i] = Some (ret_map (fun b => (dual_v d, vu8 b)) (d_index ops d i))).
Context (Hd_new : forall t l, call "DualBuffer" "new" [VBuf t; VBytes l] = Some (Ret (vunit, dual_v (d_create t l)))).
Context (Hd_drain : forall d c, call "DualBuffer" "drain" [dual_v d; vusize c] = Some (ret_map (fun d' => (dual_v d', vunit)) (d_drain ops d c))).
Context (Hc1 : consts "SYNC_CHAR_1"%string = Some (VNum IU8 181)).
Context (Hc0 : consts "None"%string = None).
Context (Hc2 : consts "SYNC_CHAR_2"%string = Some (VNum IU8 98)).
Lemma d_clear_text d : run "DualBuffer" fn_d_clear [dual_v d] = Some (ret_map (fun d' => (dual_v d', vunit)) (d_clear ops d)).
Proof. destruct d as [b off nw noff]. cbv beta iota zeta delta [bind d_clear sat_sub]. start fn_d_clear. repeat step. Qed.
Lemma d_lost_text d : run "DualBuffer" fn_d_lost [dual_v d] = Some (ret_map (fun n => (dual_v d, vusize n)) (d_potential_lost ops d)).
Proof. destruct d as [b off nw noff]. cbv beta iota zeta delta [bind d_potential_lost d_buf sat_sub]. start fn_d_lost. repeat step. Qed.
Ltac eqb_consts := change (b2n SYNC_CHAR_1) with 181; change (b2n SYNC_CHAR_2) with 98.

Lemma i_find_text d : run "ParserIter" fn_i_find [iter_v d] = Some (ret_map (fun o => (iter_v d, option_v vusize o)) (find_sync ops d)).
Proof. destruct d as [b off nw noff]. cbv beta iota zeta delta [bind find_sync]. start fn_i_find. repeat step.
 hdl. rewrite N.sub_0_r. match goal with |- find_num _ _ _ _ = Some (ret_map _ (find_range ?p _ _)) => rewrite (find_num_eq _ p) end.
 - destruct find_range as [[]| |]; reflexivity.
 - intros i kb. cbv beta iota delta [byte_eqb after]. eqb_consts. repeat step.
Qed.
Context (Hi_find : forall d, call "ParserIter" "find_sync" [iter_v d] = Some (ret_map (fun o => (iter_v d, option_v vusize o)) (find_sync ops d))).
Context (Hd_clear : forall d, call "DualBuffer" "clear" [dual_v d] = Some (ret_map (fun d' => (dual_v d', vunit)) (d_clear ops d))).
Context (Hd_lost : forall d, call "DualBuffer" "potential_lost_bytes" [dual_v d] = Some (ret_map (fun n => (dual_v d, vusize n)) (d_potential_lost ops d))).
Context (Hd_drain_l : forall d c, call "DualBuffer" "drain" [dual_v d; VNum ILit c] = Some (ret_map (fun d' => (dual_v d', vunit)) (d_drain ops d c))).
Context (Hd_can_l : forall d c n, call "DualBuffer" "can_drain_and_take" [dual_v d; VNum ILit c; vusize n] = Some (ret_map (fun r => (dual_v d, VBool r)) (d_can_drain_and_take ops d c n))).
Context (Hd_can : forall d c n, call "DualBuffer" "can_drain_and_take" [dual_v d; vusize c; vusize n] = Some (ret_map (fun r => (dual_v d, VBool r)) (d_can_drain_and_take ops d c n))).
Context (Hd_peek : forall d c n, call "DualBuffer" "peek_raw" [dual_v d; VRng (Some c) (Some n)] = Some (ret_map (fun r => (dual_v d, pair_v VBytes VBytes r)) (d_peek_raw ops d c n))).
Context (Hd_take : forall d c, call "DualBuffer" "take" [dual_v d; vusize c] = Some (ret_map (fun r => (dual_v (snd r), result_v VBytes (fst r))) (d_take ops d c))).
Context (Hc_new : call "UbxChecksumCalc" "new" [] = Some (Ret (vunit, cksum_v cksum_new))).
Context (Hc_update : forall s l, call "UbxChecksumCalc" "update" [cksum_v s; VBytes l] = Some (Ret (cksum_v (cksum_update s l), vunit))).
Context (Hc_result : forall s, call "UbxChecksumCalc" "result" [cksum_v s] = Some (Ret (cksum_v s, pair_v vu8 vu8 (cksum_result s)))).
Lemma c_new_text : run "UbxChecksumCalc" fn_c_new [] = Some (Ret (vunit, cksum_v cksum_new)).
Proof. start fn_c_new. repeat step. Qed.
Lemma c_result_text s : run "UbxChecksumCalc" fn_c_result [cksum_v s] = Some (Ret (cksum_v s, pair_v vu8 vu8 (cksum_result s))).
Proof. destruct s. start fn_c_result. repeat step. Qed.
Lemma c_update_text s l : run "UbxChecksumCalc" fn_c_update [cksum_v s; VBytes l] = Some (Ret (cksum_v (cksum_update s l), vunit)).
Proof. destruct s as [a b]. start fn_c_update. repeat step. hdl.

  pose (f := fun s : cksum_state => [("b", vu8 (snd s)); ("a", vu8 (fst s)); ("self", cksum_v (a, b)); ("bytes", VBytes l)]%string : env (T:=T) (P:=P)).
  match goal with |- for_bytes ?o ?l ?e ?k = ?R => change (for_bytes o l (f (a, b)) k = R) end.
  rewrite (for_bytes_eq _ f cksum_step).
  - unfold f. unfold cksum_update. destruct (fold_left cksum_step l (a, b)). repeat step.
  - intros [x y] c kn. unfold f. unfold cksum_step, u8_wrapping_add. cbv beta iota delta [fst snd vu8]. repeat step. hdl. rewrite !mod_byte. reflexivity.
  Qed.

Context (match_packet : byte -> byte -> list byte -> res (result P)) (max_payload_len : N).
Context (Hc3 : consts "MAX_PAYLOAD_LEN"%string = Some (VNum IU16 max_payload_len)).
Context (Hmatch : forall c i l, call "" "match_packet" [vu8 c; vu8 i; VBytes l] = Some (ret_map (fun r => (vunit, result_v VPack r)) (match_packet c i l))).
Context (Hi_extract : forall d n, call "ParserIter" "extract_packet" [iter_v d; vusize n] = Some (ret_map (fun r => (iter_v (snd r), option_v (result_v VPack) (fst r))) (extract_packet ops match_packet d n))).
Ltac fixck := lazymatch goal with |- _ = Some (ret_map _ (match cksum_result ?S with pair _ _ => _ end)) => rewrite (surjective_pairing (cksum_result S)); cbv beta iota delta [fst snd] end.
Lemma i_extract_text d n : run "ParserIter" fn_i_extract [iter_v d; vusize n] = Some (ret_map (fun r => (iter_v (snd r), option_v (result_v VPack) (fst r))) (extract_packet ops match_packet d n)).
Proof. destruct d as [b off nw noff]. cbv beta iota zeta delta [bind extract_packet byte_eqb]. start fn_i_extract. repeat (first [fixck | step]).
Qed.


(** One iteration of [next] after the test of the length; [nl]: the following ones *)
Definition iteration (nl : dual -> res (option (result P) * dual)) (d : dual (T:=T)) : res (option (result P) * dual) :=
  let! s := find_sync ops d in
  match s with
  | None => let! d' := d_clear ops d in Ret (None, d')
  | Some pos =>
      let! d1 := d_drain ops d pos in
      let! n1 := d_len ops d1 in
      if n1 <? 2 then Ret (None, d1)
      else
        let! b1 := d_index ops d1 1 in
        if negb (byte_eqb b1 SYNC_CHAR_2) then let! d2 := d_drain ops d1 1 in nl d2
        else if n1 <? 6 then Ret (None, d1)
        else
          let! b4 := d_index ops d1 4 in
          let! b5 := d_index ops d1 5 in
          if max_payload_len <? u16_from_le b4 b5 then let! d2 := d_drain ops d1 2 in nl d2
          else extract_packet ops match_packet d1 (u16_from_le b4 b5)
  end.
Notation next_v := (fun r => (iter_v (snd r), option_v (result_v VPack) (fst r))).
Lemma i_next_text d : run "ParserIter" fn_i_next [iter_v d] = Some (ret_map next_v (next_loop ops match_packet max_payload_len w d)).
Proof. start fn_i_next. repeat step. hdl.
  pose (E := fun d => [("self", iter_v d)]%string : env (T:=T) (P:=P)).
  match goal with |- while_loop ?C ?B ?n _ ?K = ?R => 
    assert (HC : forall d k, C (E d) k = after (d_len ops d) (fun n => k (VBool (0 <? n)) (E d)));
    [|assert (HB : forall d next nl, (forall d, next (E d) = Some (ret_map next_v (nl d))) -> B (E d) next (E d) = Some (ret_map next_v (iteration nl d)));
      [|assert (HK : forall d, K (E d) = Some (Ret (iter_v d, vnone)));
        [|change (while_loop C B n (E d) K = R); set (CC := C) in *; set (BB := B) in *; set (KK := K) in *; clearbody CC BB KK]]]
  end.
  - intros [b off nw noff] k. unfold E, after. repeat step.
  - intros [b off nw noff] next nl Hn. unfold E, iteration. cbv beta iota zeta delta [bind byte_eqb u16_from_le]. eqb_consts.
    repeat step. 
    all: hdl.
    all: lazymatch goal with |- ?nx ?e = ?R => let e' := small e in change_no_check (nx e' = R);
      lazymatch e' with [(_, VAdt _ [(_, VAdt _ [(_, VBuf ?b); (_, VNum _ ?off); (_, VBytes ?nw); (_, VNum _ ?noff)])])] => match goal with Hn : forall d, nx _ = _ |- _ => exact (Hn (mk_dual b off nw noff)) end end end.
  - intros [b off nw noff]. unfold E. repeat step.
  - generalize w d. intros n. induction n as [|n IH]; intros d0; cbn [while_loop next_loop]; [reflexivity|].
    rewrite HC. destruct (d_len ops d0) as [m| |]; cbn [after bind ret_map on_bool]; try reflexivity.
    destruct (0 <? m); cbn [negb]; [|apply HK]. rewrite (HB d0 _ (next_loop ops match_packet max_payload_len n)) by exact IH. reflexivity.
Qed.

Lemma p_consume_text t l : run "Parser" fn_p_consume [parser_v t; VBytes l] = Some (ret_map (fun d => (parser_v t, iter_v d)) (consume ops t l)).
Proof. cbv beta iota zeta delta [bind consume find_sync d_create]. start fn_p_consume. repeat step. hdl. rewrite N.sub_0_r.
 match goal with |- for_nums _ _ _ ?e _ = ?R => match R with context [find_range ?p _ _] =>
   rewrite (for_nums_eq _ p (fun i => Some (ret_map (fun d => (parser_v t, iter_v d)) (d_drain ops (mk_dual t 0 l 0) i)))) end end.
 - unfold after. destruct find_range as [[]| |]; cbv beta iota; try reflexivity.
 - intros i kb. cbv beta iota delta [byte_eqb after]. eqb_consts. repeat step.
Qed.
End ParserText.

Section UbxText.
Context {T P : Type} (ops : buf_ops T) (consts : string -> option (val T P)) (w : nat) (call : prog (T:=T) (P:=P)).
Notation run := (run_fn ops consts ubx_structs call w).
Lemma u_checksum_text l : run "" fn_u_checksum [VBytes l] = Some (Ret (vunit, pair_v vu8 vu8 (ubx_checksum l))).
Proof. start fn_u_checksum. repeat step. hdl.
  pose (f := fun s : cksum_state => [("ck_b", vu8 (snd s)); ("ck_a", vu8 (fst s)); ("data", VBytes l)]%string : env (T:=T) (P:=P)).
  match goal with |- for_bytes ?o ?l ?e ?k = ?R => change (for_bytes o l (f (x00, x00)) k = R) end.
  rewrite (for_bytes_eq _ f cksum_step).
  - unfold f, ubx_checksum. destruct (fold_left cksum_step l (x00, x00)). repeat step.
  - intros [x y] c kn. unfold f. unfold cksum_step, u8_wrapping_add. cbv beta iota delta [fst snd vu8]. repeat step. hdl. rewrite !mod_byte. reflexivity.
Qed.
Lemma u_update_text s l : run "UbxChecksumCalc" fn_u_update [cksum_v s; VBytes l] = Some (Ret (cksum_v (cksum_update s l), vunit)).
Proof. destruct s as [a b]. start fn_u_update. repeat step. hdl.
  pose (f := fun s : cksum_state => [("self", cksum_v s); ("chunk", VBytes l)]%string : env (T:=T) (P:=P)).
  match goal with |- for_bytes ?o ?l ?e ?k = ?R => change (for_bytes o l (f (a, b)) k = R) end.
  rewrite (for_bytes_eq _ f cksum_step).
  - unfold f. unfold cksum_update. destruct (fold_left cksum_step l (a, b)). repeat step.
  - intros [x y] c kn. unfold f. unfold cksum_step, u8_wrapping_add. cbv beta iota delta [fst snd vu8]. repeat step. hdl. rewrite !mod_byte. reflexivity.
Qed.
Lemma u_result_text s : run "UbxChecksumCalc" fn_u_result [cksum_v s] = Some (Ret (cksum_v s, pair_v vu8 vu8 (cksum_result s))).
Proof. destruct s. start fn_u_result. repeat step. Qed.
Lemma u_reserve_text l n : run "Vec" fn_u_reserve [VBytes l; vusize n] = Some (Ret (VBytes l, vctor "Ok" vunit)).
Proof. start fn_u_reserve. repeat step. Qed.
Context (Hc4 : consts "MemWriterError::Custom"%string = None).
Lemma u_write_text l o : lenN l + lenN o <= isize_max -> run "Vec" fn_u_write [VBytes l; VBytes o] = Some (Ret (VBytes (l ++ o), vctor "Ok" vunit)).
Proof. intros H. assert (H1 : (lenN l + lenN o <=? isize_max) = true) by now apply N.leb_le.
  assert (H2 : (lenN o =? lenN o) = true) by apply N.eqb_refl. start fn_u_write. 
  repeat step. Qed.
Lemma u_unknown_text c i : run "UbxPacketRequest" fn_u_unknown [vu8 c; vu8 i] = Some (Ret (vunit, request_v (request_for_unknown c i))).
Proof. start fn_u_unknown. repeat step. Qed.
Lemma u_for_text c i : consts "T::CLASS"%string = Some (vu8 c) -> consts "T::ID"%string = Some (vu8 i) ->
  run "UbxPacketRequest" fn_u_for [] = Some (Ret (vunit, request_v (mk_request c i))).
Proof. intros H1 H2. start fn_u_for. repeat step. Qed.
Context (Hc1 : consts "SYNC_CHAR_1"%string = Some (VNum IU8 181)).
Context (Hc2 : consts "SYNC_CHAR_2"%string = Some (VNum IU8 98)).
Context (Hck : forall l, call "" "ubx_checksum" [VBytes l] = Some (Ret (vunit, pair_v vu8 vu8 (ubx_checksum l)))).
Lemma u_bytes_text r : run "UbxPacketRequest" fn_u_bytes [request_v r] = Some (ret_map (fun l => (request_v r, VBytes l)) (request_bytes r)).
Proof. destruct r as [c i]. unfold request_bytes. unfold request_v. cbv beta iota zeta delta [bind set_at req_class req_id].
  change SYNC_CHAR_1 with (n2b 181). change SYNC_CHAR_2 with (n2b 98). change x00 with (n2b 0). start fn_u_bytes.
  repeat (first [lazymatch goal with |- _ = Some (ret_map _ (match ubx_checksum ?S with pair _ _ => _ end)) =>
                   rewrite (surjective_pairing (ubx_checksum S)); cbv beta iota delta [fst snd] end | step]).
  match goal with H : (7 <? _) = false |- _ => discriminate H end.
Qed.
End UbxText.

(** ** The programs *)
Lemma parser_structs_eq : read_structs parser_tokens = parser_structs.
Proof. vm_cast_no_check (eq_refl parser_structs). Qed.
Lemma ubx_structs_eq : read_structs ubx_tokens = ubx_structs.
Proof. vm_cast_no_check (eq_refl ubx_structs). Qed.
Definition ubx_consts := Eval vm_compute in read_consts ubx_tokens.
Lemma ubx_consts_eq : read_consts ubx_tokens = ubx_consts.
Proof. vm_cast_no_check (eq_refl ubx_consts). Qed.

Section Link.
  Context {T P : Type} (ops : buf_ops T) (match_packet : byte -> byte -> list byte -> res (result P)) (max_payload_len : N) (w : nat).
  Notation consts := (text_consts (T:=T) (P:=P) max_payload_len).
  Notation ext := (text_ext (T:=T) match_packet).

  Lemma link_fn (cs : string -> option (val T P)) structs fns ex n ty name f args :
    find_fn fns ty name = Some f ->
    link ops cs structs fns ex w (S n) ty name args = run_fn ops cs structs (link ops cs structs fns ex w n) w ty f args.
  Proof. intros H. cbn [link]. rewrite H. reflexivity. Qed.

  Definition parser_call : nat -> prog := link ops consts parser_structs parser_fns ext w.
  Lemma parser_call_eq n : text_call ops match_packet max_payload_len parser_rs w n = parser_call n.
  Proof. unfold text_call. rewrite parser_tokens_eq, parser_fns_eq, parser_structs_eq. reflexivity. Qed.
  Definition ubx_call : nat -> prog := link ops consts ubx_structs ubx_fns ext w.
  Lemma ubx_call_eq n : text_call ops match_packet max_payload_len ubx_packets_rs w n = ubx_call n.
  Proof. unfold text_call. rewrite ubx_tokens_eq, ubx_fns_eq, ubx_structs_eq. reflexivity. Qed.

  Lemma const_sync1 : consts "SYNC_CHAR_1" = Some (VNum IU8 181).
  Proof. unfold text_consts. rewrite ubx_tokens_eq, ubx_consts_eq. reflexivity. Qed.
  Lemma const_sync2 : consts "SYNC_CHAR_2" = Some (VNum IU8 98).
  Proof. unfold text_consts. rewrite ubx_tokens_eq, ubx_consts_eq. reflexivity. Qed.
  Lemma const_none : consts "None" = None.
  Proof. unfold text_consts. rewrite ubx_tokens_eq, ubx_consts_eq. reflexivity. Qed.
  Lemma const_custom : consts "MemWriterError::Custom" = None.
  Proof. unfold text_consts. rewrite ubx_tokens_eq, ubx_consts_eq. reflexivity. Qed.
  Lemma const_max : consts "MAX_PAYLOAD_LEN" = Some (VNum IU16 max_payload_len).
  Proof. reflexivity. Qed.

  Ltac via L := unfold parser_call, ubx_call; erewrite link_fn by reflexivity; apply L;
    auto using const_sync1, const_sync2, const_none, const_custom, const_max.
  Ltac via_l L := unfold parser_call, ubx_call; erewrite link_fn by reflexivity; exact (L _ _ _ _ _ _).

  Lemma match_call n c i l : parser_call (S n) "" "match_packet" [vu8 c; vu8 i; VBytes l] =
    Some (ret_map (fun r => (vunit, result_v VPack r)) (match_packet c i l)).
  Proof.
    unfold parser_call. cbn [link]. replace (find_fn parser_fns "" "match_packet") with (@None lfn) by reflexivity.
    cbn. now rewrite !n2b_b2n.
  Qed.

  Lemma d_len_call n d : parser_call (S n) "DualBuffer" "len" [dual_v d] = Some (ret_map (fun n => (dual_v d, vusize n)) (d_len ops d)).
  Proof. via @d_len_text. Qed.
  Lemma d_index_call n d i : parser_call (S n) "DualBuffer" "index" [dual_v d; vusize i] = Some (ret_map (fun b => (dual_v d, vu8 b)) (d_index ops d i)).
  Proof. via @d_index_text. Qed.
  Lemma d_new_call n t l : parser_call (S n) "DualBuffer" "new" [VBuf t; VBytes l] = Some (Ret (vunit, dual_v (d_create t l))).
  Proof. via @d_new_text. Qed.
  Lemma d_drain_call n d c : parser_call (S n) "DualBuffer" "drain" [dual_v d; vusize c] = Some (ret_map (fun d' => (dual_v d', vunit)) (d_drain ops d c)).
  Proof. via @d_drain_text. Qed.
  Lemma d_drain_lit_call n d c : parser_call (S n) "DualBuffer" "drain" [dual_v d; VNum ILit c] = Some (ret_map (fun d' => (dual_v d', vunit)) (d_drain ops d c)).
  Proof. exact (d_drain_call n d c). Qed.
  Lemma d_can_call n d c k : parser_call (S n) "DualBuffer" "can_drain_and_take" [dual_v d; vusize c; vusize k] = Some (ret_map (fun r => (dual_v d, VBool r)) (d_can_drain_and_take ops d c k)).
  Proof. via @d_can_text. Qed.
  Lemma d_can_lit_call n d c k : parser_call (S n) "DualBuffer" "can_drain_and_take" [dual_v d; VNum ILit c; vusize k] = Some (ret_map (fun r => (dual_v d, VBool r)) (d_can_drain_and_take ops d c k)).
  Proof. exact (d_can_call n d c k). Qed.
  Lemma d_peek_call n d a b : parser_call (S n) "DualBuffer" "peek_raw" [dual_v d; VRng (Some a) (Some b)] = Some (ret_map (fun r => (dual_v d, pair_v VBytes VBytes r)) (d_peek_raw ops d a b)).
  Proof. via @d_peek_text. Qed.
  Lemma d_take_call n d c : parser_call (S n) "DualBuffer" "take" [dual_v d; vusize c] = Some (ret_map (fun r => (dual_v (snd r), result_v VBytes (fst r))) (d_take ops d c)).
  Proof. via @d_take_text. Qed.
  Lemma d_drop_call n d : parser_call (S n) "DualBuffer" "drop" [dual_v d] = Some (ret_map (fun t => (dual_v (mk_dual t (d_off d) (d_new d) (d_noff d)), vunit)) (d_drop ops d)).
  Proof. via @d_drop_text. Qed.
  Lemma c_new_call n : parser_call (S n) "UbxChecksumCalc" "new" [] = Some (Ret (vunit, cksum_v cksum_new)).
  Proof. via @c_new_text. Qed.
  Lemma c_update_call n s l : parser_call (S n) "UbxChecksumCalc" "update" [cksum_v s; VBytes l] = Some (Ret (cksum_v (cksum_update s l), vunit)).
  Proof. via @c_update_text. Qed.
  Lemma c_result_call n s : parser_call (S n) "UbxChecksumCalc" "result" [cksum_v s] = Some (Ret (cksum_v s, pair_v vu8 vu8 (cksum_result s))).
  Proof. via @c_result_text. Qed.
  Hint Resolve match_call d_len_call d_index_call d_new_call d_drain_call d_drain_lit_call d_can_call d_can_lit_call d_peek_call d_take_call d_drop_call c_new_call c_update_call c_result_call : core.
  Lemma d_clear_call n d : parser_call (S (S n)) "DualBuffer" "clear" [dual_v d] = Some (ret_map (fun d' => (dual_v d', vunit)) (d_clear ops d)).
  Proof. via @d_clear_text. Qed.
  Lemma d_lost_call n d : parser_call (S (S n)) "DualBuffer" "potential_lost_bytes" [dual_v d] = Some (ret_map (fun n => (dual_v d, vusize n)) (d_potential_lost ops d)).
  Proof. via @d_lost_text. Qed.
  Lemma i_find_call n d : parser_call (S (S n)) "ParserIter" "find_sync" [iter_v d] = Some (ret_map (fun o => (iter_v d, option_v vusize o)) (find_sync ops d)).
  Proof. via @i_find_text. Qed.
  Hint Resolve d_clear_call d_lost_call i_find_call : core.
  Lemma p_consume_call n t l : parser_call (S (S n)) "Parser" "consume" [parser_v t; VBytes l] = Some (ret_map (fun d => (parser_v t, iter_v d)) (consume ops t l)).
  Proof. via @p_consume_text. Qed.
  Notation next_v := (fun r => (iter_v (snd r), option_v (result_v VPack) (fst r))).
  Lemma i_extract_call n d k : parser_call (S (S (S n))) "ParserIter" "extract_packet" [iter_v d; vusize k] = Some (ret_map next_v (extract_packet ops match_packet d k)).
  Proof. via @i_extract_text. Qed.
  Hint Resolve i_extract_call : core.
  Lemma i_next_call n d : parser_call (S (S (S (S n)))) "ParserIter" "next" [iter_v d] = Some (ret_map next_v (next_loop ops match_packet max_payload_len w d)).
  Proof. via @i_next_text. Qed.
End Link.

(** ** The remaining functions *)
Section LinkMore.
  Context {T P : Type} (ops : buf_ops T) (match_packet : byte -> byte -> list byte -> res (result P)) (max_payload_len : N) (w : nat).
  Notation pcall := (parser_call ops match_packet max_payload_len w).
  Notation ucall := (ubx_call ops match_packet max_payload_len w).
  Ltac via L := unfold parser_call, ubx_call; erewrite link_fn by reflexivity; apply L;
    auto using const_sync1, const_sync2, const_none, const_custom, const_max.

  Lemma find_call n t v : pcall (S n) "trait UnderlyingBuffer" "find" [VBuf t; vu8 v] = Some (ret_map (fun o => (VBuf t, option_v vusize o)) (b_find_default (b_len ops) (b_index ops) t v)).
  Proof. via @find_text. Qed.
  Lemma is_empty_call n t : pcall (S n) "trait UnderlyingBuffer" "is_empty" [VBuf t] = Some (Ret (VBuf t, VBool (b_is_empty ops t))).
  Proof. via @is_empty_text. Qed.
  Lemma v_clear_call n l : pcall (S n) "Vec" "clear" [VBytes l] = Some (ret_map (fun l' => (VBytes l', vunit)) (b_clear vec_ops l)).
  Proof. via @v_clear_text. Qed.
  Lemma v_len_call n l : pcall (S n) "Vec" "len" [VBytes l] = Some (Ret (VBytes l, vusize (b_len vec_ops l))).
  Proof. via @v_len_text. Qed.
  Lemma v_max_call n l : pcall (S n) "Vec" "max_capacity" [VBytes l] = Some (Ret (VBytes l, vusize (b_max_cap vec_ops l))).
  Proof. via @v_max_text. Qed.
  Lemma v_extend_call n l o : pcall (S n) "Vec" "extend_from_slice" [VBytes l; VBytes o] = Some (ret_map (fun p => (VBytes (fst p), vusize (snd p))) (b_extend vec_ops l o)).
  Proof. via @v_extend_text. Qed.
  Lemma v_drain_call n l c : pcall (S n) "Vec" "drain" [VBytes l; vusize c] = Some (ret_map (fun l' => (VBytes l', vunit)) (b_drain vec_ops l c)).
  Proof. via @v_drain_text. Qed.
  Lemma v_find_call n l v : pcall (S n) "Vec" "find" [VBytes l; vu8 v] = Some (ret_map (fun o => (VBytes l, option_v vusize o)) (b_find vec_ops l v)).
  Proof. via @v_find_text. Qed.
  Lemma f_new_call n l : pcall (S n) "FixedLinearBuffer" "new" [VBytes l] = Some (Ret (vunit, flb_v (flb_new l))).
  Proof. via @f_new_text. Qed.
  Lemma f_range_call n f a b : pcall (S n) "FixedLinearBuffer" "index_range" [flb_v f; VRng (Some a) (Some b)] = Some (ret_map (fun l => (flb_v f, VBytes l)) (b_range flb_ops f a b)).
  Proof. via @f_range_text. Qed.
  Lemma f_index_call n f i : pcall (S n) "FixedLinearBuffer" "index" [flb_v f; vusize i] = Some (ret_map (fun b => (flb_v f, vu8 b)) (b_index flb_ops f i)).
  Proof. via @f_index_text. Qed.
  Lemma f_clear_call n f : pcall (S n) "FixedLinearBuffer" "clear" [flb_v f] = Some (ret_map (fun f' => (flb_v f', vunit)) (b_clear flb_ops f)).
  Proof. via @f_clear_text. Qed.
  Lemma f_len_call n f : pcall (S n) "FixedLinearBuffer" "len" [flb_v f] = Some (Ret (flb_v f, vusize (b_len flb_ops f))).
  Proof. via @f_len_text. Qed.
  Lemma f_max_call n f : pcall (S n) "FixedLinearBuffer" "max_capacity" [flb_v f] = Some (Ret (flb_v f, vusize (b_max_cap flb_ops f))).
  Proof. via @f_max_text. Qed.
  Lemma f_extend_call n f o : pcall (S n) "FixedLinearBuffer" "extend_from_slice" [flb_v f; VBytes o] = Some (ret_map (fun p => (flb_v (fst p), vusize (snd p))) (b_extend flb_ops f o)).
  Proof. via @f_extend_text. Qed.
  Lemma f_drain_call n f c : pcall (S n) "FixedLinearBuffer" "drain" [flb_v f; vusize c] = Some (ret_map (fun f' => (flb_v f', vunit)) (b_drain flb_ops f c)).
  Proof. via @f_drain_text. Qed.
  Lemma f_find_call n f v : pcall (S (S n)) "FixedLinearBuffer" "find" [flb_v f; vu8 v] = Some (ret_map (fun o => (flb_v f, option_v vusize o)) (b_find flb_ops f v)).
  Proof. via @f_find_text; intros; fold (parser_call ops match_packet max_payload_len w); apply f_index_call. Qed.
  Lemma p_default_call n : pcall (S n) "Parser" "default" [] = Some (Ret (vunit, VAdt ["Parser"%string] [("buf"%string, VBytes [])])).
  Proof. via @p_default_text. Qed.
  Lemma p_new_call n t : pcall (S n) "Parser" "new" [VBuf t] = Some (Ret (vunit, parser_v t)).
  Proof. via @p_new_text. Qed.
  Lemma p_empty_call n t : pcall (S n) "Parser" "is_buffer_empty" [parser_v t] = Some (Ret (parser_v t, VBool (is_buffer_empty ops t))).
  Proof. via @p_empty_text. Qed.
  Lemma p_len_call n t : pcall (S n) "Parser" "buffer_len" [parser_v t] = Some (Ret (parser_v t, vusize (buffer_len ops t))).
  Proof. via @p_len_text. Qed.

  Lemma u_checksum_call n l : ucall (S n) "" "ubx_checksum" [VBytes l] = Some (Ret (vunit, pair_v vu8 vu8 (ubx_checksum l))).
  Proof. via @u_checksum_text. Qed.
  Lemma u_update_call n s l : ucall (S n) "UbxChecksumCalc" "update" [cksum_v s; VBytes l] = Some (Ret (cksum_v (cksum_update s l), vunit)).
  Proof. via @u_update_text. Qed.
  Lemma u_result_call n s : ucall (S n) "UbxChecksumCalc" "result" [cksum_v s] = Some (Ret (cksum_v s, pair_v vu8 vu8 (cksum_result s))).
  Proof. via @u_result_text. Qed.
  Lemma u_reserve_call n l c : ucall (S n) "Vec" "reserve_allocate" [VBytes l; vusize c] = Some (Ret (VBytes l, vctor "Ok" vunit)).
  Proof. via @u_reserve_text. Qed.
  Lemma u_write_call n l o : lenN l + lenN o <= isize_max -> ucall (S n) "Vec" "write" [VBytes l; VBytes o] = Some (Ret (VBytes (l ++ o), vctor "Ok" vunit)).
  Proof. intros H. via @u_write_text. Qed.
  Lemma u_unknown_call n c i : ucall (S n) "UbxPacketRequest" "request_for_unknown" [vu8 c; vu8 i] = Some (Ret (vunit, request_v (request_for_unknown c i))).
  Proof. via @u_unknown_text. Qed.
  Lemma u_bytes_call n r : ucall (S (S n)) "UbxPacketRequest" "into_packet_bytes" [request_v r] = Some (ret_map (fun l => (request_v r, VBytes l)) (request_bytes r)).
  Proof. via @u_bytes_text; intros; fold (ubx_call ops match_packet max_payload_len w); apply u_checksum_call. Qed.
End LinkMore.

(** ** Programs which use the parser *)
Section Users.
  Context {T P : Type} (ops : buf_ops T) (match_packet : byte -> byte -> list byte -> res (result P)) (max_payload_len : N).
  Notation mnext := (next ops match_packet max_payload_len).
  Notation mloop := (next_loop ops match_packet max_payload_len).
  Notation pcall w n := (parser_call ops match_packet max_payload_len w (S (S (S (S n))))).

  Lemma next_loop_more k : forall d, mloop k d <> Diverge -> forall n, (k <= n)%nat -> mloop n d = mloop k d.
  Proof.
    induction k as [|k IH]; intros d H n Hn; [now contradiction H|].
    destruct n as [|n]; [lia|]. cbn [next_loop] in *. unfold bind in *.
    repeat match goal with
    | |- context [match ?x with _ => _ end] =>
        lazymatch x with mloop _ _ => fail | _ => destruct x end; try reflexivity; try (now contradiction H)
    end; apply IH; auto; lia.
  Qed.

  Lemma next_text d : mnext d <> Diverge -> exists n0, forall w n, (n0 <= w)%nat ->
    pcall w n "ParserIter" "next" [iter_v d] = Some (ret_map (fun r => (iter_v (snd r), option_v (result_v VPack) (fst r))) (mnext d)).
  Proof.
    intros H. unfold next in *. eexists. intros w n Hw. rewrite i_next_call. do 2 f_equal. apply next_loop_more; [exact H|exact Hw].
  Qed.

  Definition answers_v : list (result P) * dual -> list (val T P) * val T P := fun r => (map (result_v VPack) (fst r), iter_v (snd r)).
  Definition buffers_v : list (result P) * T -> list (val T P) * val T P := fun r => (map (result_v VPack) (fst r), parser_v (snd r)).

  Lemma drain_text k : forall d, drain_loop ops match_packet max_payload_len k d <> Diverge ->
    exists n0, forall w n fuel, (n0 <= w)%nat -> (k <= fuel)%nat ->
      user_drain (pcall w n) fuel (iter_v d) = Some (ret_map answers_v (drain_loop ops match_packet max_payload_len k d)).
  Proof.
    induction k as [|k IH]; intros d H; [now contradiction H|].
    cbn [drain_loop] in *.
    destruct (next_text d) as [n0 H0]. { intros E. rewrite E in H. now apply H. }
    destruct (mnext d) as [[[r|] d1]| |]; cbn [bind] in *; [| | |now contradiction H].
    - destruct (IH d1) as [n1 H1]. { intros E. rewrite E in H. now apply H. }
      exists (max n0 n1). intros w n fuel Hw Hf. destruct fuel as [|fuel]; [lia|].
      cbn [user_drain]. rewrite H0 by lia. cbn [ret_map fst snd option_v vctor String.eqb Ascii.eqb Bool.eqb].
      rewrite H1 by lia. destruct drain_loop as [[es d2]| |]; reflexivity.
    - exists n0. intros w n fuel Hw Hf. destruct fuel as [|fuel]; [lia|]. cbn [user_drain]. now rewrite H0 by lia.
    - exists n0. intros w n fuel Hw Hf. destruct fuel as [|fuel]; [lia|]. cbn [user_drain]. now rewrite H0 by lia.
  Qed.

  Lemma drop_text w n d : user_drop (pcall w n) (iter_v d) = Some (ret_map parser_v (d_drop ops d)).
  Proof. unfold user_drop, iter_v. rewrite d_drop_call. destruct (d_drop ops d); reflexivity. Qed.

  Lemma feed_text t c : feed ops match_packet max_payload_len t c <> Diverge ->
    exists n0, forall k n, (n0 <= k)%nat ->
      user_feed (pcall k n) k (parser_v t) c = Some (ret_map buffers_v (feed ops match_packet max_payload_len t c)).
  Proof.
    unfold feed, user_feed. intros H.
    destruct (consume ops t c) as [d| |] eqn:Ec; cbn [bind] in *; [| |now contradiction H].
    - unfold drain_iter in *. match goal with |- context [drain_loop _ _ _ ?k d] => destruct (drain_text k d) as [n0 H0]; set (k0 := k) in * end.
      { intros E. rewrite E in H. now apply H. }
      exists (max n0 k0). intros k n Hk. rewrite p_consume_call, Ec. cbn [ret_map].
      rewrite H0 by lia. destruct drain_loop as [[es d']| |]; cbn [ret_map bind answers_v fst snd] in *; [|reflexivity|reflexivity].
      rewrite drop_text. destruct (d_drop ops d'); reflexivity.
    - exists O. intros k n _. rewrite p_consume_call, Ec. reflexivity.
  Qed.

  Lemma feed_all_text cs : forall t, feed_all ops match_packet max_payload_len t cs <> Diverge ->
    exists n0, forall k n, (n0 <= k)%nat ->
      user_feed_all (pcall k n) k (parser_v t) cs = Some (ret_map buffers_v (feed_all ops match_packet max_payload_len t cs)).
  Proof.
    induction cs as [|c cs IH]; intros t H; [exists O; reflexivity|].
    cbn [feed_all user_feed_all] in *.
    destruct (feed_text t c) as [n0 H0]. { intros E. rewrite E in H. now apply H. }
    destruct (feed ops match_packet max_payload_len t c) as [[es t1]| |]; cbn [bind] in *; [| |now contradiction H].
    - destruct (IH t1) as [n1 H1]. { intros E. rewrite E in H. now apply H. }
      exists (max n0 n1). intros k n Hk. rewrite H0 by lia. cbn [ret_map buffers_v fst snd]. rewrite H1 by lia.
      destruct feed_all as [[es' t2]| |]; cbn; [|reflexivity|reflexivity]. unfold buffers_v. cbn. now rewrite map_app.
    - exists n0. intros k n Hk. now rewrite H0 by lia.
  Qed.

  Lemma times_text k : forall d, next_times ops match_packet max_payload_len k d <> Diverge ->
    exists n0, forall w n, (n0 <= w)%nat ->
      user_times (pcall w n) k (iter_v d) =
        Some (ret_map (fun r => (map (option_v (result_v VPack)) (fst r), iter_v (snd r))) (next_times ops match_packet max_payload_len k d)).
  Proof.
    induction k as [|k IH]; intros d H; [exists O; reflexivity|].
    cbn [next_times user_times] in *.
    destruct (next_text d) as [n0 H0]. { intros E. rewrite E in H. now apply H. }
    destruct (mnext d) as [[r d1]| |]; cbn [bind] in *; [| |now contradiction H].
    - destruct (IH d1) as [n1 H1]. { intros E. rewrite E in H. now apply H. }
      exists (max n0 n1). intros w n Hw. rewrite H0 by lia. cbn [ret_map fst snd]. rewrite H1 by lia.
      destruct next_times as [[es d2]| |]; reflexivity.
    - exists n0. intros w n Hw. now rewrite H0 by lia.
  Qed.

  Lemma history_text h : forall t, run_history ops match_packet max_payload_len t h <> Diverge ->
    exists n0, forall w n, (n0 <= w)%nat ->
      user_history (pcall w n) (parser_v t) h =
        Some (ret_map (fun r => (map (map (option_v (result_v VPack))) (fst r), parser_v (snd r))) (run_history ops match_packet max_payload_len t h)).
  Proof.
    induction h as [|[c k] h IH]; intros t H; [exists O; reflexivity|].
    cbn [run_history user_history] in *. unfold feed_times in *.
    destruct (consume ops t c) as [d| |] eqn:Ec; cbn [bind] in *; [| |now contradiction H].
    - destruct (times_text k d) as [n0 H0]. { intros E. rewrite E in H. now apply H. }
      destruct (next_times ops match_packet max_payload_len k d) as [[es d']| |]; cbn [bind] in *; [| |now contradiction H].
      + destruct (d_drop ops d') as [t1| |] eqn:Ed; cbn [bind] in *; [| |now contradiction H].
        * destruct (IH t1) as [n1 H1]. { intros E. rewrite E in H. now apply H. }
          exists (max n0 n1). intros w n Hw. rewrite p_consume_call, Ec. cbn [ret_map]. rewrite H0 by lia. cbn [ret_map fst snd].
          rewrite drop_text, Ed. cbn [ret_map]. rewrite H1 by lia. destruct run_history as [[rs t2]| |]; reflexivity.
        * exists n0. intros w n Hw. rewrite p_consume_call, Ec. cbn [ret_map]. rewrite H0 by lia. cbn [ret_map fst snd].
          now rewrite drop_text, Ed.
      + exists n0. intros w n Hw. rewrite p_consume_call, Ec. cbn [ret_map]. now rewrite H0 by lia.
    - exists O. intros w n _. now rewrite p_consume_call, Ec.
  Qed.
End Users.
