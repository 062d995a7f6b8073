(** * C75: what a serialized packet says

    C52 gives the entries a packet hands to a serializer; here are the values inside them, down to numbers, strings and
    sequences.  The values are those of the packets of packets.rs, read from its text (Meaning.v, [recv_codes]). *)
From Coq Require Import String List NArith ZArith Bool Lia ZifyBool ZifyNat ZifyN Eqdep_dec SpecFloat.
From Verif Require Import Base DualBuffer PackDesc Enums Floats Bits Utf8 Iterators GenRecv Dispatch TablePackets Serialize Macro Meaning Data
  SourcePackets SpecPacket SpecTypes SpecDispatch SpecSerialize SpecData BaseFacts ProofText ProofRecv ProofTable ProofDispatch ProofData
  PropTypes PropBits PropIter PropDispatch PropSerialize PropSource.
From Verif Require SpecReal PropFloat PropCodeLib.
Import ListNotations.
Open Scope N_scope.
Open Scope list_scope.

(** The packets that can be received, as packets.rs writes them *)
Definition codes_or_none (o : option (list pack_code)) : list pack_code := match o with Some l => l | None => [] end.
Definition library_codes : list pack_code := codes_or_none (recv_codes packets_rs).
(** What a serializer makes of a packet of the library *)
Definition packet_says : string -> list byte -> res data := packet_data library_codes.
Definition ref_says : packet_ref -> res data := ref_data library_codes.

(** ** What is checked of the file *)

Definition codes_data : list pack_code := Eval vm_compute in codes_or_none recv_data.
Lemma library_codes_eq : library_codes = codes_data.
Proof. unfold library_codes. rewrite recv_data_eq. reflexivity. Qed.
Opaque library_codes.

Definition fty_eqb (a b : fty) : bool := match a, b with FTy32, FTy32 | FTy64, FTy64 => true | _, _ => false end.
Definition scale_eqb (a b : fty * (positive * Z)) : bool :=
  fty_eqb (fst a) (fst b) && (Pos.eqb (fst (snd a)) (fst (snd b)) && Z.eqb (snd (snd a)) (snd (snd b))).
Lemma scale_eqb_ok a b : scale_eqb a b = true -> a = b.
Proof.
  destruct a as (f & m & e), b as (f' & m' & e'). unfold scale_eqb. cbn [fst snd]. intros H. apply andb_true_iff in H. destruct H as [H1 H2].
  apply andb_true_iff in H2. destruct H2 as [H2 H3]. apply Pos.eqb_eq in H2. apply Z.eqb_eq in H3. destruct f, f'; try discriminate; congruence.
Qed.
Definition all_scales (codes : list pack_code) : list (fty * (positive * Z)) :=
  flat_map (fun c => flat_map (fun fc => match fc_map fc with Some (CFloat f (Some s)) => [(f, s)] | _ => [] end) (pc_fields c)) codes.
Definition scales : list (fty * (positive * Z)) :=
  Eval vm_compute in fold_right (fun s l => if existsb (scale_eqb s) l then l else s :: l) [] (all_scales codes_data).
Lemma scales_ok : forallb (fun s => PropFloat.scale_okb (fst s) (fst (snd s)) (snd (snd s))) scales = true.
Proof. vm_compute. reflexivity. Qed.

Definition fine_by (t : raw_ty) (c : option map_code) : bool :=
  match t, c with
  | Scalar s, Some (CFloat f (Some sc)) => (8 * Z.of_N (scalar_size s) + 8 <=? fprec f)%Z && existsb (scale_eqb (f, sc)) scales
  | Scalar s, Some (CEnum d mf) => mf || match e_rest d with Some RestReserved => true | _ => enum_total d end
  | _, _ => code_fine t c
  end.
Lemma reserved_total d : e_rest d = Some RestReserved -> enum_total d = true.
Proof.
  intros H. unfold enum_total, enum_variants. rewrite H. apply forallb_forall. intros i Hi. rewrite existsb_app.
  destruct (existsb (fun v => snd v =? i) (e_variants d)) eqn:E; [reflexivity|]. cbn [orb]. apply existsb_exists.
  exists (("Reserved" ++ dec i)%string, i). split; [|apply N.eqb_refl]. apply in_map_iff. exists i. split; [reflexivity|].
  apply filter_In. split; [exact Hi|]. now rewrite E.
Qed.
Lemma fine_by_ok t c : fine_by t c = true -> code_fine t c = true.
Proof.
  destruct t as [s|n|]; try exact (fun H => H). destruct c as [c|]; try exact (fun H => H). destruct c; try exact (fun H => H).
  2: { cbn [fine_by code_fine]. intros H. apply orb_true_iff in H. apply orb_true_iff. destruct H as [H|H]; [now left|right].
       destruct (e_rest d) as [[]|] eqn:E; [now apply reserved_total|exact H|exact H]. }
  destruct scale as [(m & e)|]; try exact (fun H => H).
  cbn [fine_by code_fine]. intros H. apply andb_true_iff in H. destruct H as [-> H]. cbn [andb]. apply existsb_exists in H. destruct H as (x & Hx & E).
  apply scale_eqb_ok in E. subst x. pose proof scales_ok as S. rewrite forallb_forall in S. exact (S _ Hx).
Qed.

Definition is_uart (fc : field_code) : bool := match fc_map fc with Some CUart => true | _ => false end.
Definition check_code (c : pack_code) : bool :=
  forallb (fun fc => fine_by (fc_ty fc) (fc_map fc)) (pc_fields c) &&
  (existsb (String.eqb (pc_name c)) not_whole || forallb (fun fc => shows_all (fc_ty fc) (fc_map fc)) (pc_fields c)) &&
  (* packets inside packets are flat *)
  (negb (existsb (String.eqb (pc_name c)) ["NavSatSvInfo"; "RxmRawxInfo"]%string) || negb (existsb (fun fc => nests (fc_map fc)) (pc_fields c))) &&
  (* the one mode of a UART *)
  (if String.eqb (pc_name c) "CfgPrtUart" then forallb (fun x => Bool.eqb (is_uart (snd x)) (Nat.eqb (fst x) 3)) (combine (seq 0 (length (pc_fields c))) (pc_fields c))
   else forallb (fun fc => negb (is_uart fc)) (pc_fields c)).
Lemma codes_checked : forallb check_code codes_data = true.
Proof. vm_compute. reflexivity. Qed.
Lemma codes_nodup : NoDup (map pc_name codes_data).
Proof. apply PropCodeLib.strings_nodup_ok. vm_compute. reflexivity. Qed.
Definition has_data (inner : string -> list byte -> res data) (c : pack_code) : bool := match fields_data inner c with Some _ => true | None => false end.
Lemma codes_have_data inner : forallb (has_data inner) codes_data = true.
Proof. vm_compute. reflexivity. Qed.
Lemma codes_meaning : all_some packet_meaning codes_data = Some recv_packets.
Proof. pose proof source_recv_packets as H. rewrite recv_data_eq in H. exact H. Qed.
Lemma only_esf_counts : forallb (fun p => String.eqb (p_name p) "EsfMeas" || forallb (fun f => negb (is_counted f)) (p_fields p)) recv_packets = true.
Proof. vm_compute. reflexivity. Qed.
(** The class, the id and the names of the fields tell the packets apart *)
Fixpoint strings_eqb (a b : list string) : bool :=
  match a, b with [], [] => true | x :: a', y :: b' => String.eqb x y && strings_eqb a' b' | _, _ => false end.
Lemma strings_eqb_refl l : strings_eqb l l = true.
Proof. induction l as [|x l IH]; [reflexivity|]. cbn. now rewrite String.eqb_refl, IH. Qed.
Definition looks_like (a b : pack_desc) : bool :=
  Byte.eqb (p_class a) (p_class b) && Byte.eqb (p_id a) (p_id b) && strings_eqb (map f_name (p_fields a)) (map f_name (p_fields b)).
Lemma looks_distinct : forallb (fun a => forallb (fun b => implb (looks_like a b) (String.eqb (p_name a) (p_name b))) recv_table) recv_table = true.
Proof. vm_compute. reflexivity. Qed.

(** ** Lemmas *)

Lemma all_some_in {A B} (g : A -> option B) l l' : all_some g l = Some l' ->
  (forall x, In x l -> exists y, g x = Some y /\ In y l') /\ (forall y, In y l' -> exists x, g x = Some y /\ In x l).
Proof.
  intros H. destruct (all_some_nth _ _ _ H) as [L N]. split.
  - intros x Hx. apply In_nth_error in Hx. destruct Hx as (k & Hk). destruct (N k x Hk) as (y & H1 & H2). exists y. split; [exact H2|exact (nth_error_In _ _ H1)].
  - intros y Hy. apply In_nth_error in Hy. destruct Hy as (k & Hk).
    destruct (nth_error l k) as [x|] eqn:E.
    + destruct (N k x E) as (y' & H1 & H2). assert (y' = y) by congruence. subst. exists x. split; [exact H2|exact (nth_error_In _ _ E)].
    + exfalso. apply nth_error_None in E. assert (k < length l')%nat by (apply nth_error_Some; congruence). lia.
Qed.

Lemma find_code_nodup codes c : NoDup (map pc_name codes) -> In c codes -> find_code codes (pc_name c) = Some c.
Proof.
  intros N H. unfold find_code. destruct (find (fun x => String.eqb (pc_name x) (pc_name c)) codes) as [c'|] eqn:E.
  - apply find_some in E. destruct E as [H' E]. apply String.eqb_eq in E. f_equal. eapply (nodup_map_inj pc_name codes); eassumption.
  - exfalso. apply (List.find_none _ _ E) in H. cbn in H. rewrite String.eqb_refl in H. discriminate.
Qed.

Record code_of (codes : list pack_code) (p : pack_desc) (c : pack_code) : Prop := mk_code_of {
  co_in : In c codes;
  co_name : pc_name c = p_name p;
  co_meaning : packet_meaning c = Some p;
  co_find : find_code codes (p_name p) = Some c;
  co_layout : layout_ok (p_fields p) = true;
  co_fine : forallb (fun fc => code_fine (fc_ty fc) (fc_map fc)) (pc_fields c) = true;
  co_whole : ~ In (p_name p) not_whole -> forallb (fun fc => whole (fc_ty fc) (fc_map fc)) (pc_fields c) = true;
  co_flat : In (p_name p) ["NavSatSvInfo"; "RxmRawxInfo"]%string -> existsb (fun fc => nests (fc_map fc)) (pc_fields c) = false;
  co_uart : forall k fc, nth_error (pc_fields c) k = Some fc -> (fc_map fc = Some CUart <-> p_name p = "CfgPrtUart"%string /\ k = 3%nat);
  co_data : forall inner, exists l, fields_data inner c = Some l
}.

Lemma nth_combine_seq {A} (l : list A) k x a : nth_error l k = Some x -> In ((a + k)%nat, x) (combine (seq a (length l)) l).
Proof.
  revert k a. induction l as [|y l IH]; intros [|k] a H; try discriminate; cbn [nth_error length seq combine] in *.
  - injection H as <-. left. now rewrite Nat.add_0_r.
  - right. rewrite <- plus_n_Sm. exact (IH k (S a) H).
Qed.

Lemma the_code p : In p recv_packets -> exists c, code_of library_codes p c.
Proof.
  intros Hp. destruct (proj2 (all_some_in _ _ _ codes_meaning) p Hp) as (c & M & Hc). exists c.
  destruct (meaning_field c p M) as (_ & Nm & _).
  pose proof codes_checked as K. rewrite forallb_forall in K. specialize (K c Hc). unfold check_code in K.
  apply andb_true_iff in K. destruct K as [K K4]. apply andb_true_iff in K. destruct K as [K K3]. apply andb_true_iff in K. destruct K as [K1 K2].
  assert (Fine : forallb (fun fc => code_fine (fc_ty fc) (fc_map fc)) (pc_fields c) = true).
  { rewrite forallb_forall in *. intros fc Hfc. apply fine_by_ok. exact (K1 fc Hfc). }
  constructor.
  - rewrite library_codes_eq. exact Hc.
  - congruence.
  - exact M.
  - rewrite library_codes_eq, Nm. exact (find_code_nodup _ c codes_nodup Hc).
  - pose proof recv_layout as L. rewrite forallb_forall in L. exact (L p Hp).
  - exact Fine.
  - intros N. apply orb_true_iff in K2. destruct K2 as [K2|K2].
    + exfalso. apply N. apply existsb_exists in K2. destruct K2 as (x & Hx & E). apply String.eqb_eq in E. congruence.
    + rewrite forallb_forall in *. intros fc Hfc. unfold whole. now rewrite (Fine fc Hfc), (K2 fc Hfc).
  - intros I. apply orb_true_iff in K3. destruct K3 as [K3|K3]; [|now apply negb_true_iff in K3]. exfalso. apply negb_true_iff in K3.
    rewrite <- Bool.not_true_iff_false in K3. apply K3. apply existsb_exists. exists (p_name p). split; [exact I|]. rewrite Nm. apply String.eqb_refl.
  - intros k fc Hk. rewrite Nm. destruct (String.eqb (pc_name c) "CfgPrtUart") eqn:E.
    + rewrite forallb_forall in K4. specialize (K4 _ (nth_combine_seq _ _ _ 0%nat Hk)). cbn [fst snd Nat.add] in K4. apply eqb_prop in K4.
      apply String.eqb_eq in E. unfold is_uart in K4. split.
      * intros Eu. rewrite Eu in K4. split; [exact E|]. symmetry in K4. now apply Nat.eqb_eq in K4.
      * intros [_ ->]. rewrite Nat.eqb_refl in K4. destruct (fc_map fc) as [[]|]; try discriminate. reflexivity.
    + apply String.eqb_neq in E. rewrite forallb_forall in K4. specialize (K4 fc (nth_error_In _ _ Hk)). unfold is_uart in K4. split.
      * intros Eu. rewrite Eu in K4. discriminate.
      * intros [X _]. contradiction.
  - intros inner. pose proof (codes_have_data inner) as D. rewrite forallb_forall in D. specialize (D c Hc). unfold has_data in D.
    destruct (fields_data inner c) as [l|]; [eauto|discriminate].
Qed.

Lemma the_packet p q : In p recv_packets -> In q recv_packets -> p_name p = p_name q -> p = q.
Proof. intros Hp Hq E. eapply (nodup_map_inj p_name recv_packets); [exact recv_packets_nodup|assumption|assumption|exact E]. Qed.
Lemma in_uart : In p_cfg_prt_uart recv_packets.
Proof. unfold recv_packets. in_list. Qed.
Lemma in_esf : In p_esf_meas recv_packets.
Proof. unfold recv_packets. in_list. Qed.

Lemma uart_located payload f start stop : nth_error (p_fields p_cfg_prt_uart) 3 = Some f -> located (p_fields p_cfg_prt_uart) 3 f payload start stop ->
  start = 4 /\ stop = 8.
Proof.
  intros H. cbn in H. injection H as <-. unfold located. change (is_sized _) with true. cbv iota. change (offset_of (p_fields p_cfg_prt_uart) 3) with 4.
  intros [-> ->]. split; reflexivity.
Qed.

Lemma readable_named payload : readable p_cfg_prt_uart payload <-> named_mode (le_value (takeN 4 (dropN 4 payload))).
Proof.
  rewrite readable_mode. split.
  - intros (m & E). destruct (mode_data_bits (le_value (takeN 4 (dropN 4 payload)))) eqn:E1, (mode_parity (le_value (takeN 4 (dropN 4 payload)))) eqn:E2;
      [split; congruence| | |]; rewrite uart_unnamed in E; try discriminate; unfold named_mode; rewrite E1, E2; tauto.
  - intros N. destruct (uart_named _ N) as (m & E & _). eauto.
Qed.

Lemma esf_checked payload k f start stop : lenN payload <= 65535 -> accepts p_esf_meas payload -> nth_error (p_fields p_esf_meas) k = Some f ->
  is_counted f = true -> located (p_fields p_esf_meas) k f payload start stop -> checked f (takeN (stop - start) (dropN start payload)).
Proof.
  intros Hl [La _] Hk Hc Lo. unfold length_accepts in La. change (forallb is_sized (p_fields p_esf_meas)) with false in La. cbv iota in La.
  change (fixed_size (p_fields p_esf_meas)) with 8 in La. destruct La as [L8 (ns & En & Hs)].
  assert (E : counted_sizes (p_fields p_esf_meas) payload = Ret [4 * esf_num_meas payload; esf_tag_len payload]).
  { unfold p_esf_meas. cbn [p_fields counted_sizes f_size_fn]. rewrite esf_data_len_ok by exact L8. cbn [bind]. rewrite esf_tag_len_ok by exact L8. reflexivity. }
  assert (Ens : ns = [4 * esf_num_meas payload; esf_tag_len payload]) by congruence. subst ns. cbn [sumN fold_right] in Hs. clear En.
  unfold located in Lo. rewrite E in Lo.
  do 3 (destruct k as [|k]; [cbn in Hk; injection Hk as <-; discriminate Hc|]). destruct k as [|[|k]]; [| |destruct k; discriminate Hk].
  - assert (f = mk_field "data" None (Bytes 0) (Some (chunks_iter_map esf_meas_new esf_meas_is_valid)) false (Some esf_meas_data_len)) as -> by (injection Hk as <-; reflexivity).
    change (is_sized _) with false in Lo. change (is_rest _) with false in Lo. cbv iota in Lo. destruct Lo as (ns & En & Ls). injection En as <-.
    cbv zeta in Ls. change (length _) with 0%nat in Ls. cbn [firstn sumN fold_right] in Ls. change (fixed_size _) with 8 in Ls. destruct Ls as [-> ->].
    intros m v Em Ev. cbn [f_map] in Em. injection Em as <-. cbn in Ev. injection Ev as <-.
    change (Ret (esf_meas_is_valid (takeN (8 + (4 * esf_num_meas payload + 0) - (8 + 0)) (dropN (8 + 0) payload))) = Ret true). f_equal.
    unfold esf_meas_is_valid. rewrite lenN_takeN, lenN_dropN. lia.
  - assert (f = mk_field "calib_tag" None (Bytes 0) (Some calib_tag_map) false (Some esf_meas_calib_tag_len)) as -> by (injection Hk as <-; reflexivity).
    intros m v Em Ev. cbn [f_map] in Em. injection Em as <-. discriminate Ev.
Qed.

Lemma packet_entries_S n codes name payload c l : find_code codes name = Some c ->
  fields_data (fun name' bytes => ret_map DMap (packet_entries n codes name' bytes)) c = Some l ->
  packet_entries (S n) codes name payload = entries_at 0 [] l payload.
Proof. intros H1 H2. cbn [packet_entries]. now rewrite H1, H2. Qed.

Lemma delivered_known class id payload p : delivers recv_table class id payload (Known p payload) -> In p recv_table /\ accepts p payload.
Proof.
  remember (Known p payload) as r eqn:Er. intros D. destruct D as [b q a Et F Fb|F]; [|discriminate]. assert (q = p) by congruence. subst q.
  split; [|apply F]. rewrite Et. apply in_app_iff. right. now left.
Qed.

Section Packets.
  Variable codes : list pack_code.
  Hypothesis known : forall p, In p recv_packets -> exists c, code_of codes p c.
  Hypothesis distinct : NoDup (map pc_name codes).

  Lemma uart_field p c payload k fc f start stop : In p recv_packets -> code_of codes p c -> nth_error (pc_fields c) k = Some fc ->
    nth_error (p_fields p) k = Some f -> fc_map fc = Some CUart -> located (p_fields p) k f payload start stop ->
    p = p_cfg_prt_uart /\ takeN (stop - start) (dropN start payload) = takeN 4 (dropN 4 payload).
  Proof.
    intros Hp Hc Hk Hf Hu Lo. destruct (proj1 (co_uart _ _ _ Hc k fc Hk) Hu) as [Nm ->].
    assert (p = p_cfg_prt_uart) as -> by (apply the_packet; [exact Hp|exact in_uart|exact Nm]).
    destruct (uart_located payload f start stop Hf Lo) as [-> ->]. split; reflexivity.
  Qed.

  Lemma told_packet n spec p c payload : In p recv_packets -> code_of codes p c -> lenN payload <= 65535 -> accepts p payload -> readable p payload ->
    (existsb (fun fc => nests (fc_map fc)) (pc_fields c) = true -> inner_ok (fun name bytes => ret_map DMap (packet_entries n codes name bytes)) spec) ->
    exists ds, packet_entries (S n) codes (p_name p) payload = Ret ds /\ tells_with spec codes (p_name p) payload ds.
  Proof.
    intros Hp Hc Hl A R Inn. destruct (co_data _ _ _ Hc (fun name bytes => ret_map DMap (packet_entries n codes name bytes))) as (l & El).
    rewrite (packet_entries_S n codes _ payload c l (co_find _ _ _ Hc) El).
    destruct (packet_told _ spec c p l payload El (co_meaning _ _ _ Hc) (co_layout _ _ _ Hc) Hl A (co_fine _ _ _ Hc) Inn) as (ds & E & L & T).
    - intros k fc f start stop Hk Hf Hu Lo. destruct (uart_field p c payload k fc f start stop Hp Hc Hk Hf Hu Lo) as [-> ->]. now apply readable_named.
    - intros k f start stop Hf Cn Lo. pose proof only_esf_counts as O. rewrite forallb_forall in O. specialize (O p Hp). apply orb_true_iff in O.
      destruct O as [O|O].
      + apply String.eqb_eq in O. assert (p = p_esf_meas) as -> by (apply the_packet; [exact Hp|exact in_esf|exact O]).
        exact (esf_checked payload k f start stop Hl A Hf Cn Lo).
      + rewrite forallb_forall in O. specialize (O f (nth_error_In _ _ Hf)). rewrite Cn in O. discriminate.
    - exists ds. split; [exact E|]. exists c, p. split; [exact (co_in _ _ _ Hc)|]. split; [exact (co_name _ _ _ Hc)|].
      split; [exact (co_meaning _ _ _ Hc)|]. split; [exact L|exact T].
  Qed.

  Lemma inner_accepts p payload : In p [p_nav_sat_sv_info; p_rxm_rawx_info] -> lenN payload = fixed_size (p_fields p) -> accepts p payload /\ readable p payload /\ lenN payload <= 65535.
  Proof.
    intros Hp Hl. assert (K : forallb is_sized (p_fields p) = true /\ forallb unchecked (p_fields p) = true /\ fixed_size (p_fields p) <= 65535 /\ p_name p <> "CfgPrtUart"%string).
    { destruct Hp as [<-|[<-|[]]]; vm_compute; repeat split; discriminate. }
    destruct K as (K1 & K2 & K3 & K4). split; [|split].
    - split; [unfold length_accepts; rewrite K1; exact Hl|]. intros k f m v Hk Em Ev. rewrite forallb_forall in K2. specialize (K2 f (nth_error_In _ _ Hk)).
      unfold unchecked in K2. rewrite Em, Ev in K2. discriminate.
    - intros E. contradiction.
    - lia.
  Qed.

  Definition inner_spec (name : string) (bytes : list byte) (d : data) : Prop := exists entries, tells_flat codes name bytes entries /\ d = DMap entries.

  Lemma inner_told p b : In p [p_nav_sat_sv_info; p_rxm_rawx_info] -> lenN b = fixed_size (p_fields p) ->
    exists d, ret_map DMap (packet_entries 1 codes (p_name p) b) = Ret d /\ inner_spec (p_name p) b d.
  Proof.
    intros Hi Hb. assert (Hp : In p recv_packets) by (destruct Hi as [<-|[<-|[]]]; unfold recv_packets; in_list).
    assert (Hn : In (p_name p) ["NavSatSvInfo"; "RxmRawxInfo"]%string) by (destruct Hi as [<-|[<-|[]]]; [left|right; left]; reflexivity).
    destruct (known p Hp) as (c & Hc). destruct (inner_accepts p b Hi Hb) as (A & R & L).
    destruct (told_packet 0 (fun _ _ _ => False) p c b Hp Hc L A R) as (ds & E & T).
    - intros X. rewrite (co_flat _ _ _ Hc Hn) in X. discriminate.
    - exists (DMap ds). split; [rewrite E; reflexivity|]. exists ds. split; [exact T|reflexivity].
  Qed.
  Lemma inner_known : inner_ok (fun name bytes => ret_map DMap (packet_entries 1 codes name bytes)) inner_spec.
  Proof.
    split; intros b Hb.
    - exact (inner_told p_nav_sat_sv_info b (or_introl eq_refl) Hb).
    - exact (inner_told p_rxm_rawx_info b (or_intror (or_introl eq_refl)) Hb).
  Qed.

  Lemma all_told p payload : In p recv_packets -> lenN payload <= 65535 -> accepts p payload -> readable p payload ->
    exists ds, packet_entries 2 codes (p_name p) payload = Ret ds /\ tells codes (p_name p) payload ds.
  Proof.
    intros Hp Hl A R. destruct (known p Hp) as (c & Hc).
    exact (told_packet 1 inner_spec p c payload Hp Hc Hl A R (fun _ => inner_known)).
  Qed.

  Lemma uart_panic payload : lenN payload <= 65535 -> accepts p_cfg_prt_uart payload -> ~ readable p_cfg_prt_uart payload ->
    packet_entries 2 codes (p_name p_cfg_prt_uart) payload = Panic.
  Proof.
    intros Hl A R. destruct (known p_cfg_prt_uart in_uart) as (c & Hc).
    destruct (co_data _ _ _ Hc (fun name bytes => ret_map DMap (packet_entries 1 codes name bytes))) as (l & El).
    rewrite (packet_entries_S 1 codes _ payload c l (co_find _ _ _ Hc) El).
    destruct (meaning_field c _ (co_meaning _ _ _ Hc)) as (Ln & _ & _).
    destruct (nth_error (pc_fields c) 3) as [fc0|] eqn:E0.
    2: { apply nth_error_None in E0. rewrite Ln in E0. exfalso. revert E0. vm_compute. lia. }
    assert (Hu : fc_map fc0 = Some CUart) by (apply (co_uart _ _ _ Hc 3%nat fc0 E0); split; reflexivity).
    apply (packet_panic _ inner_spec c _ l payload 3%nat fc0 El (co_meaning _ _ _ Hc) (co_layout _ _ _ Hc) Hl A (co_fine _ _ _ Hc)); try assumption.
    - intros _. exact inner_known.
    - vm_compute. reflexivity.
    - intros k fc Hk Hkc E. destruct (proj1 (co_uart _ _ _ Hc k fc Hkc) E) as [_ ->]. lia.
    - intros f start stop Hf Lo. destruct (uart_located payload f start stop Hf Lo) as [-> ->]. intros N. apply R. now apply readable_named.
  Qed.

  Lemma names_of p payload ds : In p recv_packets -> packet_entries 2 codes (p_name p) payload = Ret ds -> map fst ds = map f_name (p_fields p).
  Proof.
    intros Hp E. destruct (known p Hp) as (c & Hc). destruct (co_data _ _ _ Hc (fun name bytes => ret_map DMap (packet_entries 1 codes name bytes))) as (l & El).
    rewrite (packet_entries_S 1 codes _ payload c l (co_find _ _ _ Hc) El) in E. apply entries_names in E. rewrite E.
    pose proof (co_meaning _ _ _ Hc) as M. unfold packet_meaning in M. unfold fields_data in El. unfold field_ty in *.
    rewrite (all_some_map _ field_meaning (@projT1 _ _) _ _ (field_data_fst _ (pc_name c)) El) in M. injection M as <-.
    cbn [p_fields]. rewrite map_map. reflexivity.
  Qed.

  Lemma flat_inj p x1 x2 d : In p [p_nav_sat_sv_info; p_rxm_rawx_info] -> lenN x1 = fixed_size (p_fields p) -> lenN x2 = fixed_size (p_fields p) ->
    inner_spec (p_name p) x1 d -> inner_spec (p_name p) x2 d -> x1 = x2.
  Proof.
    intros Hi L1 L2 (e1 & T1 & ->) (e2 & T2 & E). injection E as <-.
    assert (Hp : In p recv_packets) by (destruct Hi as [<-|[<-|[]]]; unfold recv_packets; in_list).
    assert (Hn : In (p_name p) ["NavSatSvInfo"; "RxmRawxInfo"]%string) by (destruct Hi as [<-|[<-|[]]]; [left|right; left]; reflexivity).
    assert (Hw : ~ In (p_name p) not_whole) by (destruct Hi as [<-|[<-|[]]]; vm_compute; intuition discriminate).
    assert (Hcn : forallb (fun f => negb (is_counted f)) (p_fields p) = true) by (destruct Hi as [<-|[<-|[]]]; vm_compute; reflexivity).
    destruct (known p Hp) as (c & Hc). destruct (inner_accepts p x1 Hi L1) as (A1 & _ & M1). destruct (inner_accepts p x2 Hi L2) as (A2 & _ & M2).
    rewrite <- (co_name _ _ _ Hc) in T1, T2.
    refine (tells_inj _ codes c p x1 x2 e1 distinct (co_in _ _ _ Hc) (co_meaning _ _ _ Hc) (co_layout _ _ _ Hc) Hcn (co_whole _ _ _ Hc Hw) M1 M2 (proj1 A1) (proj1 A2) _ T1 T2).
    intros X. rewrite (co_flat _ _ _ Hc Hn) in X. discriminate.
  Qed.

  Lemma whole_inj p p1 p2 e : In p recv_packets -> ~ In (p_name p) not_whole -> lenN p1 <= 65535 -> lenN p2 <= 65535 -> accepts p p1 -> accepts p p2 ->
    tells codes (p_name p) p1 e -> tells codes (p_name p) p2 e -> p1 = p2.
  Proof.
    intros Hp Hw L1 L2 A1 A2 T1 T2. destruct (known p Hp) as (c & Hc).
    assert (Hcn : forallb (fun f => negb (is_counted f)) (p_fields p) = true).
    { pose proof only_esf_counts as O. rewrite forallb_forall in O. specialize (O p Hp). apply orb_true_iff in O. destruct O as [O|O]; [|exact O].
      exfalso. apply Hw. apply String.eqb_eq in O. rewrite O. vm_compute. tauto. }
    rewrite <- (co_name _ _ _ Hc) in T1, T2.
    refine (tells_inj _ codes c p p1 p2 e distinct (co_in _ _ _ Hc) (co_meaning _ _ _ Hc) (co_layout _ _ _ Hc) Hcn (co_whole _ _ _ Hc Hw) L1 L2 (proj1 A1) (proj1 A2) _ T1 T2).
    intros _ name x1 x2 y [(-> & X1 & X2)|(-> & X1 & X2)].
    - exact (flat_inj p_nav_sat_sv_info x1 x2 y (or_introl eq_refl) X1 X2).
    - exact (flat_inj p_rxm_rawx_info x1 x2 y (or_intror (or_introl eq_refl)) X1 X2).
  Qed.

  Lemma ref_told :
    forall class id payload r, lenN payload <= 65535 -> match_packet recv_table class id payload = Ret (Ok r) ->
      match r with
      | Known p _ =>
          (readable p payload ->
             exists entries, ref_data codes r = Ret (DMap (("class", u8 (b2n class)) :: ("msg_id", u8 (b2n id)) :: entries)%string) /\
               tells codes (p_name p) payload entries) /\
          (~ readable p payload -> ref_data codes r = Panic)
      | Unknown _ _ _ =>
          ref_data codes r = Ret (DMap [("payload", DSeq (map (fun b => u8 (b2n b)) payload)); ("class", u8 (b2n class)); ("msg_id", u8 (b2n id))]%string)
      end.
  Proof.
    intros class id payload r Hl E. destruct (dispatch_total class id payload Hl) as (r' & E' & D & C & P).
    assert (r' = r) by congruence. subst r'. clear E E'. destruct r as [p q|q c i]; cbn [class_and_msg_id ref_payload] in C, P; subst q.
    - assert (p_class p = class /\ p_id p = id) as [E1 E2] by (split; congruence).
      assert (Hp : In p recv_packets /\ accepts p payload).
      { destruct (delivered_known _ _ _ _ D) as [H A]. split; [exact (recv_table_incl _ H)|exact A]. }
      destruct Hp as [Hp A]. unfold ref_data. rewrite E1, E2. split.
      + intros R. destruct (all_told p payload Hp Hl A R) as (ds & Ed & T). exists ds. rewrite Ed. split; [reflexivity|exact T].
      + intros R. assert (p = p_cfg_prt_uart) as ->.
        { apply the_packet; [exact Hp|exact in_uart|]. change (p_name p_cfg_prt_uart) with "CfgPrtUart"%string. destruct (String.eqb (p_name p) "CfgPrtUart") eqn:En; [now apply String.eqb_eq in En|].
          exfalso. apply R. intros Hn. apply String.eqb_neq in En. contradiction. }
        rewrite (uart_panic payload Hl A R). reflexivity.
    - unfold ref_data. cbn [raw_data]. injection C as -> ->. reflexivity.
  Qed.

  Lemma ref_inj :
    forall class1 id1 payload1 r1 class2 id2 payload2 r2 d,
      lenN payload1 <= 65535 -> match_packet recv_table class1 id1 payload1 = Ret (Ok r1) ->
      lenN payload2 <= 65535 -> match_packet recv_table class2 id2 payload2 = Ret (Ok r2) ->
      ref_data codes r1 = Ret d -> ref_data codes r2 = Ret d ->
      class1 = class2 /\ id1 = id2 /\
      (match r1 with Known p _ => ~ In (p_name p) not_whole | Unknown _ _ _ => True end -> payload1 = payload2).
  Proof.
    intros class1 id1 payload1 r1 class2 id2 payload2 r2 d L1 E1 L2 E2 S1 S2.
    assert (B : forall a b, u8 (b2n a) = u8 (b2n b) -> a = b).
    { intros a b H. apply u8_inj in H. rewrite <- (n2b_b2n a), <- (n2b_b2n b). now rewrite H. }
    pose proof (ref_told class1 id1 payload1 r1 L1 E1) as T1. pose proof (ref_told class2 id2 payload2 r2 L2 E2) as T2.
    destruct (dispatch_total class1 id1 payload1 L1) as (r1' & E1' & D1 & C1 & P1). assert (r1' = r1) by congruence. subst r1'.
    destruct (dispatch_total class2 id2 payload2 L2) as (r2' & E2' & D2 & C2 & P2). assert (r2' = r2) by congruence. subst r2'.
    clear E1 E2 E1' E2'. destruct r1 as [p1 q1|q1 c1 i1], r2 as [p2 q2|q2 c2 i2]; cbn [class_and_msg_id ref_payload] in *; subst q1 q2.
    - destruct (delivered_known _ _ _ _ D1) as [Hp1 A1]. destruct (delivered_known _ _ _ _ D2) as [Hp2 A2].
      assert (Dec : forall p payload, ref_data codes (Known p payload) = Ret d -> (~ readable p payload -> ref_data codes (Known p payload) = Panic) -> readable p payload).
      { intros p payload Sd Pn. destruct (String.eqb (p_name p) "CfgPrtUart") eqn:En.
        - intros _. cbv zeta. destruct (N.le_gt_cases 2 (bits (le_value (takeN 4 (dropN 4 payload))) 6 2)) as [G|G].
          + split; [exact G|]. intros X. rewrite Pn in Sd; [discriminate|]. intros R. apply String.eqb_eq in En. destruct (R En) as [_ R']. contradiction.
          + exfalso. rewrite Pn in Sd; [discriminate|]. intros R. apply String.eqb_eq in En. destruct (R En) as [R' _]. lia.
        - intros Hn. apply String.eqb_neq in En. contradiction. }
      destruct (proj1 T1 (Dec _ _ S1 (proj2 T1))) as (e1 & F1 & W1). destruct (proj1 T2 (Dec _ _ S2 (proj2 T2))) as (e2 & F2 & W2). clear Dec T1 T2.
      pose proof S1 as N1. pose proof S2 as N2. rewrite F1 in S1. rewrite F2 in S2. rewrite <- S1 in S2. injection S2 as Q1 Q2 Q3.
      assert (Ec : class1 = class2) by (apply B; unfold u8; congruence). assert (Ei : id1 = id2) by (apply B; unfold u8; congruence).
      split; [exact Ec|]. split; [exact Ei|]. intros Hw. subst e2.
      assert (p1 = p2) as ->.
      { unfold ref_data in F1, F2. destruct (packet_entries 2 codes (p_name p1) payload1) as [x1| |] eqn:G1; try discriminate F1.
        destruct (packet_entries 2 codes (p_name p2) payload2) as [x2| |] eqn:G2; try discriminate F2. cbn [bind app] in F1, F2.
        assert (x1 = e1) by (clear - F1; congruence). assert (x2 = e1) by (clear - F2; congruence). subst x1 x2.
        pose proof (names_of p1 payload1 e1 (recv_table_incl _ Hp1) G1) as M1.
        pose proof (names_of p2 payload2 e1 (recv_table_incl _ Hp2) G2) as M2.
        pose proof looks_distinct as X. rewrite forallb_forall in X. specialize (X p1 Hp1). rewrite forallb_forall in X. specialize (X p2 Hp2).
        assert (Lk : looks_like p1 p2 = true).
        { unfold looks_like. rewrite <- M1, <- M2, strings_eqb_refl.
          assert (p_class p1 = p_class p2) as -> by congruence. assert (p_id p1 = p_id p2) as -> by congruence.
          rewrite !Byte.byte_dec_lb by reflexivity. reflexivity. }
        rewrite Lk in X. apply String.eqb_eq in X. apply the_packet; [exact (recv_table_incl _ Hp1)|exact (recv_table_incl _ Hp2)|exact X]. }
      exact (whole_inj p2 payload1 payload2 e1 (recv_table_incl _ Hp2) Hw L1 L2 A1 A2 W1 W2).
    - exfalso. rewrite T2 in S2. unfold ref_data in S1. destruct (packet_entries 2 codes (p_name p1) payload1); try discriminate S1. cbn [bind app] in S1.
      rewrite <- S2 in S1. injection S1 as S1. discriminate.
    - exfalso. rewrite T1 in S1. unfold ref_data in S2. destruct (packet_entries 2 codes (p_name p2) payload2); try discriminate S2. cbn [bind app] in S2.
      rewrite <- S1 in S2. injection S2 as S2. discriminate.
    - rewrite T1 in S1. rewrite T2 in S2. rewrite <- S2 in S1. injection S1 as Q1 Q2 Q3.
      split; [apply B; unfold u8; congruence|]. split; [apply B; unfold u8; congruence|]. intros _. clear - Q1. revert payload2 Q1.
      induction payload1 as [|x l IH]; intros [|y l2] E; try discriminate; [reflexivity|]. cbn [map] in E. injection E as E1 E2. f_equal; [|now apply IH].
      rewrite <- (n2b_b2n x), <- (n2b_b2n y). f_equal. lia.
  Qed.
End Packets.

Lemma library_nodup : NoDup (map pc_name library_codes).
Proof. rewrite library_codes_eq. exact codes_nodup. Qed.

(** ** C75 *)

(** What is delivered for a frame is written as a map: the class and the message id of the frame, then one entry for each
    field of the packet, in the order of the declaration, whose value says what the bytes of the field mean.  A frame of no
    known type is written with its payload, class and id.  Only for a UART configuration with a mode outside the
    documented values there is nothing: the program panics. *)
Theorem serialized_ref :
  forall class id payload r, lenN payload <= 65535 -> match_packet recv_table class id payload = Ret (Ok r) ->
    match r with
    | Known p _ =>
        (readable p payload ->
           exists entries, ref_says r = Ret (DMap (("class", u8 (b2n class)) :: ("msg_id", u8 (b2n id)) :: entries)%string) /\
             tells library_codes (p_name p) payload entries) /\
        (~ readable p payload -> ref_says r = Panic)
    | Unknown _ _ _ =>
        ref_says r = Ret (DMap [("payload", DSeq (map (fun b => u8 (b2n b)) payload)); ("class", u8 (b2n class)); ("msg_id", u8 (b2n id))]%string)
    end.
Proof. exact (ref_told library_codes the_code). Qed.

(** The same for a packet by itself, which is also what the groups of NAV-SAT and RXM-RAWX are written as. *)
Theorem serialized_packet :
  forall p payload, In p recv_packets -> lenN payload <= 65535 -> accepts p payload -> readable p payload ->
    exists entries, packet_says (p_name p) payload = Ret (DMap entries) /\ tells library_codes (p_name p) payload entries.
Proof.
  intros p payload Hp Hl A R. destruct (all_told library_codes the_code p payload Hp Hl A R) as (ds & E & T). exists ds. split; [|exact T].
  unfold packet_says, packet_data. rewrite E. reflexivity.
Qed.

(** Nothing is lost: two frames which are written the same way have the same class, id and payload, unless the packet is
    one of [not_whole]. *)
Theorem serialized_lossless :
  forall class1 id1 payload1 r1 class2 id2 payload2 r2 d,
    lenN payload1 <= 65535 -> match_packet recv_table class1 id1 payload1 = Ret (Ok r1) ->
    lenN payload2 <= 65535 -> match_packet recv_table class2 id2 payload2 = Ret (Ok r2) ->
    ref_says r1 = Ret d -> ref_says r2 = Ret d ->
    class1 = class2 /\ id1 = id2 /\
    (match r1 with Known p _ => ~ In (p_name p) not_whole | Unknown _ _ _ => True end -> payload1 = payload2).
Proof. exact (ref_inj library_codes the_code library_nodup). Qed.
(** The test of the repository (parser_tests.rs 198-257, [test_esf_meas_serialize]). *)
Definition esf_meas_frame : list byte := map n2b [243; 121; 129; 1; 24; 8; 0; 0; 77; 100; 0; 11; 211; 148; 129; 1].
Example serialized_ref_ex :
  match_packet recv_table x10 x02 esf_meas_frame = Ret (Ok (Known p_esf_meas esf_meas_frame)) /\ readable p_esf_meas esf_meas_frame /\
  ref_says (Known p_esf_meas esf_meas_frame) =
    Ret (DMap [("class", u8 16); ("msg_id", u8 2); ("time_tag", u32 25262579); ("flags", DNum U16 2072); ("id", DNum U16 0);
               ("data", DSeq [DMap [("data_type", u8 11); ("data_field", u32 25677)]]); ("calib_tag", DSome (u32 25269459))]%string).
Proof.
  split; [reflexivity|]. split; [intros; discriminate|]. unfold ref_says. rewrite library_codes_eq. vm_compute. reflexivity.
Qed.
Example serialized_unknown_ex :
  match_packet recv_table x05 x01 [x06] = Ret (Ok (Unknown [x06] x05 x01)) /\
  ref_says (Unknown [x06] x05 x01) = Ret (DMap [("payload", DSeq [u8 6]); ("class", u8 5); ("msg_id", u8 1)]%string).
Proof. split; reflexivity. Qed.
Example serialized_panic_ex :
  match_packet recv_table x06 x00 (x01 :: repeat x00 19) = Ret (Ok (Known p_cfg_prt_uart (x01 :: repeat x00 19))) /\
  ~ readable p_cfg_prt_uart (x01 :: repeat x00 19).
Proof. split; [reflexivity|]. intros R. destruct (R eq_refl) as [H _]. vm_compute in H. apply H. reflexivity. Qed.
(** A packet with packets inside *)
Example serialized_packet_ex :
  In p_nav_sat recv_packets /\ accepts p_nav_sat (repeat x01 20) /\ readable p_nav_sat (repeat x01 20) /\
  packet_says "NavSat" (repeat x01 20) =
    Ret (DMap [("itow", u32 16843009); ("version", u8 1); ("num_svs", u8 1); ("reserved", DSeq [u8 1; u8 1]);
               ("svs", DSeq [DMap [("gnss_id", u8 1); ("sv_id", u8 1); ("cno", u8 1); ("elev", DNum I8 1); ("azim", DNum I16 257);
                                   ("pr_res", DNum I16 257); ("flags", u32 16843009)]])]%string).
Proof.
  split; [unfold recv_packets; in_list|]. split; [apply validate_accepts; [reflexivity|vm_compute; discriminate|vm_compute; reflexivity]|].
  split; [intros; discriminate|]. unfold packet_says. rewrite library_codes_eq. vm_compute. reflexivity.
Qed.

Example serialized_lossless_ex :
  match_packet recv_table x01 x35 (repeat x01 20) = Ret (Ok (Known p_nav_sat (repeat x01 20))) /\ ~ In (p_name p_nav_sat) not_whole /\
  exists d, ref_says (Known p_nav_sat (repeat x01 20)) = Ret d.
Proof.
  split; [reflexivity|]. split; [vm_compute; intuition discriminate|]. unfold ref_says. rewrite library_codes_eq. eexists. vm_compute. reflexivity.
Qed.

(** These packets do lose something: for each there are two payloads which are written the same way. *)
Theorem serialized_lossless_refuted :
  forall name, In name not_whole -> exists p payload1 payload2 d,
    p_name p = name /\ payload1 <> payload2 /\
    match_packet recv_table (p_class p) (p_id p) payload1 = Ret (Ok (Known p payload1)) /\
    match_packet recv_table (p_class p) (p_id p) payload2 = Ret (Ok (Known p payload2)) /\
    ref_says (Known p payload1) = Ret d /\ ref_says (Known p payload2) = Ret d.
Proof.
  assert (H : forall p payload1 payload2, payload1 <> payload2 ->
    match_packet recv_table (p_class p) (p_id p) payload1 = Ret (Ok (Known p payload1)) ->
    match_packet recv_table (p_class p) (p_id p) payload2 = Ret (Ok (Known p payload2)) ->
    ref_data codes_data (Known p payload1) = ref_data codes_data (Known p payload2) ->
    (match ref_data codes_data (Known p payload1) with Ret _ => true | _ => false end) = true ->
    exists q payload1 payload2 d, p_name q = p_name p /\ payload1 <> payload2 /\
      match_packet recv_table (p_class q) (p_id q) payload1 = Ret (Ok (Known q payload1)) /\
      match_packet recv_table (p_class q) (p_id q) payload2 = Ret (Ok (Known q payload2)) /\
      ref_says (Known q payload1) = Ret d /\ ref_says (Known q payload2) = Ret d).
  { intros p payload1 payload2 N M1 M2 E R. unfold ref_says. rewrite library_codes_eq. destruct (ref_data codes_data (Known p payload1)) as [d| |] eqn:E1; try discriminate.
    exists p, payload1, payload2, d. repeat split; try assumption. now symmetry. }
  intros name Hn. cbn [not_whole In] in Hn. destruct Hn as [<-|[<-|[<-|[<-|[<-|[<-|[<-|[<-|[]]]]]]]]].
  - apply (H p_mon_ver (repeat x00 40) (repeat x00 39 ++ [x01])); [discriminate|reflexivity|reflexivity|vm_compute; reflexivity|vm_compute; reflexivity].
  - apply (H p_inf_error [xff] [xfe]); [discriminate|reflexivity|reflexivity|vm_compute; reflexivity|vm_compute; reflexivity].
  - apply (H p_inf_notice [xff] [xfe]); [discriminate|reflexivity|reflexivity|vm_compute; reflexivity|vm_compute; reflexivity].
  - apply (H p_inf_test [xff] [xfe]); [discriminate|reflexivity|reflexivity|vm_compute; reflexivity|vm_compute; reflexivity].
  - apply (H p_inf_warning [xff] [xfe]); [discriminate|reflexivity|reflexivity|vm_compute; reflexivity|vm_compute; reflexivity].
  - apply (H p_inf_debug [xff] [xfe]); [discriminate|reflexivity|reflexivity|vm_compute; reflexivity|vm_compute; reflexivity].
  - apply (H p_esf_meas (repeat x00 12) (repeat x00 16)); [discriminate|reflexivity|reflexivity|vm_compute; reflexivity|vm_compute; reflexivity].
  - apply (H p_cfg_prt_uart (x01 :: repeat x00 3 ++ xc0 :: repeat x00 15) (x01 :: repeat x00 3 ++ xc1 :: repeat x00 15)); [discriminate|reflexivity|reflexivity|vm_compute; reflexivity|vm_compute; reflexivity].
Qed.

Print Assumptions serialized_ref.
Print Assumptions serialized_packet.
Print Assumptions serialized_lossless.
Print Assumptions serialized_lossless_refuted.
