(** * Running the hand-written functions of packets.rs: staging and tactics *)
From Coq Require Import String List NArith ZArith Bool Lia.
From Verif Require Import Base Buffers PackDesc Enums TableTypes Bits Utf8 Iterators GenRecv CfgVal Setters
  Tokens Lang Exec SourcePackets SpecExec SpecExecPackets BaseFacts ProofLex.
Import ListNotations.
Open Scope N_scope.
Open Scope list_scope.

Definition pk_tokens : list token := Eval vm_compute in tokens_of packets_rs.
Lemma pk_tokens_eq : packets_tokens = pk_tokens.
Proof. unfold packets_tokens, tokens_of. rewrite <- lex_flat_eq. vm_cast_no_check (eq_refl pk_tokens). Qed.
Definition pk_fns : list lfn := Eval vm_compute in match fns_of pk_tokens with Some l => l | None => [] end.
Lemma pk_fns_ok : fns_of pk_tokens = Some pk_fns.
Proof. vm_cast_no_check (eq_refl (Some pk_fns)). Qed.
Lemma pk_fns_eq : packets_fns = pk_fns.
Proof. unfold packets_fns. rewrite pk_tokens_eq, pk_fns_ok. reflexivity. Qed.
Definition pk_tuples := Eval vm_compute in read_tuples pk_tokens.
Lemma pk_tuples_eq : read_tuples packets_tokens = pk_tuples.
Proof. rewrite pk_tokens_eq. vm_cast_no_check (eq_refl pk_tuples). Qed.
Definition pk_enums := Eval vm_compute in read_enums pk_tokens.
Lemma pk_enums_eq : read_enums packets_tokens = pk_enums.
Proof. rewrite pk_tokens_eq. vm_cast_no_check (eq_refl pk_enums). Qed.
Definition pk_structs := Eval vm_compute in read_structs pk_tokens.
Lemma pk_structs_eq : read_structs packets_tokens = pk_structs.
Proof. rewrite pk_tokens_eq. vm_cast_no_check (eq_refl pk_structs). Qed.
Definition pk_consts := Eval vm_compute in eval_consts pk_tuples pk_enums pk_structs [] (filter is_const pk_fns) flag_consts.
Lemma pk_consts_eq : packets_const_table = pk_consts.
Proof.
  unfold packets_const_table. rewrite pk_tuples_eq, pk_enums_eq, pk_structs_eq, pk_fns_eq.
  vm_cast_no_check (eq_refl pk_consts).
Qed.

Lemma packets_text_eq table class id depth :
  packets_text table class id depth =
  packets_call pk_tuples pk_enums pk_structs pk_fns pk_consts table class id depth.
Proof. unfold packets_text. rewrite pk_tuples_eq, pk_enums_eq, pk_structs_eq, pk_fns_eq, pk_consts_eq. reflexivity. Qed.

(** ** Masked values *)

Lemma land_lt x m : m < 2 ^ N.size m -> N.land x m < 2 ^ N.size m.
Proof.
  intros _. destruct (N.eq_dec (N.land x m) 0) as [E | E].
  - rewrite E. apply N.neq_0_lt_0. apply N.pow_nonzero. lia.
  - apply N.log2_lt_pow2; [lia|].
    eapply N.le_lt_trans; [apply N.log2_land|].
    destruct (N.eq_dec m 0) as [-> | Hm]; [rewrite N.land_0_r in E; lia|].
    rewrite N.size_log2 by lia. lia.
Qed.

Lemma land_shift_lt x m k b : N.shiftr m k <? b = true -> N.shiftr (N.land x m) k < b.
Proof.
  intros H. apply N.ltb_lt in H. rewrite N.shiftr_land.
  assert (N.land (N.shiftr x k) (N.shiftr m k) <= N.shiftr m k); [|lia].
  apply N.ldiff_le. apply N.bits_inj. intros i. rewrite N.ldiff_spec, N.land_spec, N.bits_0. 
  destruct (N.testbit (N.shiftr m k) i); rewrite ?andb_false_r; reflexivity.
Qed.
Lemma cases4 v : v < 4 -> v = 0 \/ v = 1 \/ v = 2 \/ v = 3.
Proof. lia. Qed.
Lemma cases8 v : v < 8 -> v = 0 \/ v = 1 \/ v = 2 \/ v = 3 \/ v = 4 \/ v = 5 \/ v = 6 \/ v = 7.
Proof. lia. Qed.
Lemma cases16 v : v < 16 ->
  v = 0 \/ v = 1 \/ v = 2 \/ v = 3 \/ v = 4 \/ v = 5 \/ v = 6 \/ v = 7 \/
  v = 8 \/ v = 9 \/ v = 10 \/ v = 11 \/ v = 12 \/ v = 13 \/ v = 14 \/ v = 15.
Proof. lia. Qed.

Lemma cases32 v : v < 32 ->
  v = 0 \/ v = 1 \/ v = 2 \/ v = 3 \/ v = 4 \/ v = 5 \/ v = 6 \/ v = 7 \/
  v = 8 \/ v = 9 \/ v = 10 \/ v = 11 \/ v = 12 \/ v = 13 \/ v = 14 \/ v = 15 \/
  v = 16 \/ v = 17 \/ v = 18 \/ v = 19 \/ v = 20 \/ v = 21 \/ v = 22 \/ v = 23 \/
  v = 24 \/ v = 25 \/ v = 26 \/ v = 27 \/ v = 28 \/ v = 29 \/ v = 30 \/ v = 31.
Proof. lia. Qed.

Ltac each_case H := repeat (destruct H as [H | H]; [rewrite H; reflexivity|]); rewrite H; reflexivity.

(** Symbolic execution; numbers of unknown value and the library stay *)
Ltac run :=
  rewrite packets_text_eq;
  lazy -[N.land N.lor N.shiftr N.shiftl N.modulo N.add N.mul N.sub N.div b2n n2b slice slice_from get uadd usub lenN takeN dropN
         le_num utf8_valid null_position AckAck_class AckAck_msg_id AckNak_class AckNak_msg_id esf_meas_flags Z.to_N
         chunks_exact chunks_exact_next chunks cfg_parse cfg_len find_byte all_of flags_from].
Ltac conjs := repeat lazymatch goal with |- _ /\ _ => split end.

(** ** One function at a time: the functions it calls stay *)

Definition pk_call (table : list cfg_item) (class id : byte) (depth : nat) : prog :=
  packets_call pk_tuples pk_enums pk_structs pk_fns pk_consts table class id depth.

Lemma pk_step table class id d ty name args :
  pk_call table class id (S d) ty name args =
  match find_fn pk_fns ty name with
  | Some f => run_fn vec_ops (packets_consts pk_enums pk_consts class id) pk_structs (pk_call table class id d) 0 ty f args
  | None => packets_ext pk_tuples pk_enums table ty name args
  end.
Proof. reflexivity. Qed.

Lemma pk_text table class id d : packets_text table class id d = pk_call table class id d.
Proof. apply packets_text_eq. Qed.

Lemma pk_field table class id d (shown : list (string * val)) f v :
  pk_call table class id (S d) "DebugStruct"%string "field"%string [VAdt ["DebugStruct"%string] shown; VText f; v] =
  Some (Ret (vunit, VAdt ["DebugStruct"%string] (shown ++ [(f, v)]))).
Proof. rewrite pk_step. lazy -[app]. reflexivity. Qed.

Lemma pk_finish table class id d (shown : list (string * val)) :
  pk_call table class id (S d) "DebugStruct"%string "finish"%string [VAdt ["DebugStruct"%string] shown] =
  Some (Ret (vunit, VAdt ["DebugStruct"%string] shown)).
Proof. rewrite pk_step. lazy -[app]. reflexivity. Qed.

Lemma pk_debug table class id d name :
  pk_call table class id (S d) "Formatter"%string "debug_struct"%string [VAdt ["Formatter"%string] []; VText name] =
  Some (Ret (vunit, VAdt ["DebugStruct"%string] [(""%string, VText name)])).
Proof. rewrite pk_step. lazy. reflexivity. Qed.

(** [.field(name, &self.accessor())] *)
Lemma ev_field consts structs (call : prog) w sty r name acc h e0 e ty fs shown v :
  String.eqb acc "copy_from_slice" = false -> String.eqb acc "as_mut_ptr" = false -> String.eqb acc "map_err" = false ->
  place_of r = None ->
  find_var "self"%string e = Some (VAdt [ty] fs) -> set_var "self"%string (VAdt [ty] fs) e = Some e ->
  call ty acc [VAdt [ty] fs] = Some (Ret (VAdt [ty] fs, v)) ->
  call "DebugStruct"%string "field"%string [VAdt ["DebugStruct"%string] shown; VText name; v] =
    Some (Ret (vunit, VAdt ["DebugStruct"%string] (shown ++ [(name, v)]))) ->
  (forall k, ev vec_ops consts structs call w sty r h e0 k = k (VAdt ["DebugStruct"%string] shown) e) ->
  forall k, ev vec_ops consts structs call w sty
              (EMethod r "field" [EText name; EUn URef (EMethod (EPath ["self"%string]) acc [])]) h e0 k =
            k (VAdt ["DebugStruct"%string] (shown ++ [(name, v)])) e.
Proof.
  intros H1 H2 H3 Hp Hf Hs Hc Hd Hr k. cbn -[String.eqb place_of]. rewrite Hp. cbn -[place_of]. rewrite Hr. cbn -[String.eqb].
  rewrite H1, H2. unfold get_place, set_place. cbn -[String.eqb]. rewrite Hf. cbn -[String.eqb]. rewrite H3, Hc.
  cbn -[String.eqb]. rewrite Hs. cbn -[String.eqb].
  change (String.eqb "field" "map_err") with false. cbn iota. rewrite Hd. reflexivity.
Qed.

Definition sat_fmt : lfn := Eval vm_compute in match find_fn pk_fns "NavSatSvFlags" "fmt" with Some f => f | None => mk_lfn "" [] "" [] [] EBreak end.

(** [fmt] whose body is [chain.finish()] *)
Lemma run_fmt table class id d fs shown0 shown (self := VAdt ["NavSatSvFlags"%string] fs) :
  forall chain, lf_body sat_fmt = EBlock [EMethod chain "finish" []] -> place_of chain = None ->
  (forall h k, ev vec_ops (packets_consts pk_enums pk_consts class id) pk_structs (pk_call table class id (S d)) 0
               "NavSatSvFlags" chain h [("self"%string, self); ("f"%string, VAdt ["Formatter"%string] [])] k =
             k (VAdt ["DebugStruct"%string] shown0) [("self"%string, self); ("f"%string, vunit)]) ->
  shown0 = shown ->
  run_fn vec_ops (packets_consts pk_enums pk_consts class id) pk_structs (pk_call table class id (S d)) 0 "NavSatSvFlags"
    sat_fmt [self; VAdt ["Formatter"%string] []] =
  gives self (Ret (VAdt ["DebugStruct"%string] shown)).
Proof.
  intros chain Hb Hp H E. unfold run_fn. rewrite Hb. cbn -[pk_call place_of]. rewrite Hp.
  unfold self in *. rewrite H. unfold call_on. change (String.eqb "finish" "map_err") with false. cbv beta iota.
  rewrite pk_finish, E. reflexivity.
Qed.


(** ** Iterators and strings *)

(** The same with [<] (and, in [run1], the functions of the file which are called) left as it is *)
Ltac more0 :=
  lazy -[N.land N.lor N.shiftr N.shiftl N.modulo N.add N.mul N.sub N.div b2n n2b slice slice_from get uadd usub lenN takeN dropN
         le_num utf8_valid null_position AckAck_class AckAck_msg_id AckNak_class AckNak_msg_id esf_meas_flags Z.to_N
         chunks_exact chunks_exact_next chunks cfg_parse cfg_len find_byte all_of all_res flags_from N.ltb N.eqb N.leb pk_call
         is_cstr_valid convert_to_str_unchecked slices].
(** Tests of numbers which are known *)
Ltac lit_pos p := lazymatch p with xH => idtac | xO ?q => lit_pos q | xI ?q => lit_pos q end.
Ltac lit n := lazymatch n with N0 => idtac | Npos ?p => lit_pos p end.
Ltac known :=
  repeat match goal with
         | |- context [N.ltb ?a ?b] =>
             lit a; lit b;
             let v := eval vm_compute in (N.ltb a b) in
             first [constr_eq v true; change (N.ltb a b) with true | constr_eq v false; change (N.ltb a b) with false]
         | |- context [N.eqb ?a ?b] =>
             lit a; lit b;
             let v := eval vm_compute in (N.eqb a b) in
             first [constr_eq v true; change (N.eqb a b) with true | constr_eq v false; change (N.eqb a b) with false]
         end.
Ltac more := more0; repeat (progress known; more0).
Ltac run_lt := rewrite packets_text_eq;
  lazy -[N.land N.lor N.shiftr N.shiftl N.modulo N.add N.mul N.sub N.div b2n n2b slice slice_from get uadd usub lenN takeN dropN
         le_num utf8_valid null_position AckAck_class AckAck_msg_id AckNak_class AckNak_msg_id esf_meas_flags Z.to_N
         chunks_exact chunks_exact_next chunks cfg_parse cfg_len find_byte all_of all_res flags_from N.ltb N.eqb N.leb].
Ltac run1 := rewrite pk_text, pk_step; more.

(** The calls of the library which are next *)
Ltac calls :=
  repeat lazymatch goal with
         | |- match pk_call _ _ _ _ _ _ _ with _ => _ end = _ => rewrite pk_step; more
         end.

Lemma find_null (test : byte -> (bool -> ans) -> ans) l i (k : option N -> ans (T:=list byte) (P:=cfg_val)) :
  (forall b kb, test b kb = if byte_eqb b x00 then kb true else kb false) ->
  find_byte test l i k = k (match null_position l with Some p => Some (i + p) | None => None end).
Proof.
  intros H. revert i. induction l as [|b l IH]; intros i; [reflexivity|].
  cbn [find_byte null_position]. rewrite H. destruct (byte_eqb b x00).
  - rewrite N.add_0_r. reflexivity.
  - rewrite IH. destruct (null_position l); [|reflexivity].
    replace (i + 1 + n) with (i + (n + 1)) by lia. reflexivity.
Qed.

Lemma all_of_res (call : prog) ty f (g : list byte -> res bool) ls :
  (forall l, call ty f [VBytes l] = returns (ret_map VBool (g l))) ->
  all_of call ty f (slices ls) = returns (ret_map VBool (all_res g ls)).
Proof.
  intros H. induction ls as [|l ls IH]; [reflexivity|].
  cbn [slices map all_of all_res]. rewrite H. unfold returns, gives. destruct (g l) as [[]| |]; cbn; [|reflexivity ..].
  exact IH.
Qed.

Ltac split_ifs :=
  repeat (first [reflexivity | match goal with |- context [if ?c then _ else _] => destruct c end]).

(** ** ACK-ACK and ACK-NAK *)

Lemma ack_class_eq l : AckAck_class l = let! b := get l 0 in Ret (Z.of_N (b2n b)).
Proof. change (AckAck_class l) with (let! v := get_raw_field (Scalar U8) false 0 l in Ret v). cbn. destruct (get l 0); reflexivity. Qed.
Lemma ack_id_eq l : AckAck_msg_id l = let! b := get l 1 in Ret (Z.of_N (b2n b)).
Proof. change (AckAck_msg_id l) with (let! v := get_raw_field (Scalar U8) false 1 l in Ret v). cbn. destruct (get l 1); reflexivity. Qed.
Lemma nak_class_eq l : AckNak_class l = let! b := get l 0 in Ret (Z.of_N (b2n b)).
Proof. change (AckNak_class l) with (let! v := get_raw_field (Scalar U8) false 0 l in Ret v). cbn. destruct (get l 0); reflexivity. Qed.
Lemma nak_id_eq l : AckNak_msg_id l = let! b := get l 1 in Ret (Z.of_N (b2n b)).
Proof. change (AckNak_msg_id l) with (let! v := get_raw_field (Scalar U8) false 1 l in Ret v). cbn. destruct (get l 1); reflexivity. Qed.

Lemma of_N_eqb a b : (Z.of_N a =? Z.of_N b)%Z = (a =? b).
Proof. destruct (N.eqb_spec a b) as [-> | H]; [apply Z.eqb_refl | apply Z.eqb_neq; lia]. Qed.

Lemma ack_eq T l : is_ack_for T l =
  let! b := get l 0 in if b2n b =? b2n (p_class T) then let! c := get l 1 in Ret (b2n c =? b2n (p_id T)) else Ret false.
Proof.
  unfold is_ack_for, CLASS, ID. rewrite ack_class_eq, ack_id_eq. destruct (get l 0); cbn [bind]; [|reflexivity ..].
  rewrite of_N_eqb. destruct (b2n a =? b2n (p_class T)); [|reflexivity]. destruct (get l 1); cbn [bind]; [|reflexivity ..].
  rewrite of_N_eqb. reflexivity.
Qed.
Lemma nak_eq T l : is_nak_for T l =
  let! b := get l 0 in if b2n b =? b2n (p_class T) then let! c := get l 1 in Ret (b2n c =? b2n (p_id T)) else Ret false.
Proof.
  unfold is_nak_for, CLASS, ID. rewrite nak_class_eq, nak_id_eq. destruct (get l 0); cbn [bind]; [|reflexivity ..].
  rewrite of_N_eqb. destruct (b2n a =? b2n (p_class T)); [|reflexivity]. destruct (get l 1); cbn [bind]; [|reflexivity ..].
  rewrite of_N_eqb. reflexivity.
Qed.
