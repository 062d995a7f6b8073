(** * The code generators finish exactly when the model of the macros says so *)
From Coq Require Import String Ascii List NArith ZArith Bool Lia.
From Verif Require Import Base Tokens Syntax PackDesc Enums Macro Quote Output.
Import ListNotations.
Open Scope N_scope.
Open Scope list_scope.

(** The bytes of the fields which have a size *)
Definition sized_total (fs : list field_decl) : N :=
  fold_right (fun f n => match size_bytes (fd_raw f) with Some k => k + n | None => n end) 0 fs.

Lemma decl_size_fits : forall fs acc, acc + sized_total fs <= usize_max -> exists o, decl_size acc fs = Good o.
Proof.
  induction fs as [|f fs IH]; intros acc H; [eexists; reflexivity|]. cbn [decl_size sized_total fold_right] in *.
  destruct (size_bytes (fd_raw f)) as [n|]; [|eexists; reflexivity].
  fold (sized_total fs) in H. rewrite (proj2 (N.leb_le _ _)) by lia. apply IH. lia.
Qed.
Lemma decl_size_not_bad : forall fs acc m, decl_size acc fs <> Bad m.
Proof.
  induction fs as [|f fs IH]; intros acc m; [discriminate|]. cbn [decl_size].
  destruct (size_bytes (fd_raw f)) as [n|]; [|discriminate]. destruct (_ <=? _); [apply IH | discriminate].
Qed.
Lemma decl_size_none : forall fs acc, decl_size acc fs = Good None -> existsb unsized fs = true.
Proof.
  induction fs as [|f fs IH]; intros acc H; [discriminate H|]. cbn [decl_size existsb] in *. unfold unsized at 1.
  destruct (size_bytes (fd_raw f)) as [n|]; [|reflexivity]. destruct (_ <=? _); [|discriminate H]. cbn. eapply IH, H.
Qed.
Lemma decl_size_some : forall fs acc n, decl_size acc fs = Good (Some n) -> existsb unsized fs = false.
Proof.
  induction fs as [|f fs IH]; intros acc n H; [reflexivity|]. cbn [decl_size existsb] in *. unfold unsized at 1.
  destruct (size_bytes (fd_raw f)) as [k|]; [|discriminate H]. destruct (_ <=? _); [|discriminate H]. cbn. eapply IH, H.
Qed.
Lemma sized_total_removelast fs : sized_total (removelast fs) <= sized_total fs.
Proof.
  induction fs as [|f [|g fs] IH]; [cbn; lia|cbn; destruct (size_bytes (fd_raw f)); lia|].
  change (removelast (f :: g :: fs)) with (f :: removelast (g :: fs)). cbn [sized_total fold_right] in *.
  fold (sized_total (removelast (g :: fs))) (sized_total fs) in *. destruct (size_bytes (fd_raw f)); lia.
Qed.
Lemma sized_total_filter p fs : sized_total (filter p fs) <= sized_total fs.
Proof.
  induction fs as [|f fs IH]; [cbn; lia|]. cbn [filter]. destruct (p f); cbn [sized_total fold_right];
    fold (sized_total (filter p fs)) (sized_total fs); destruct (size_bytes (fd_raw f)); lia.
Qed.

(** ** [generate_recv_code_for_packet] *)

Definition ends {A} (r : mres A) (b : bool) : Prop := if b then r = Crash else exists a, r = Good a.

Lemma raw_field_good f off data size : size_bytes (fd_raw f) = Some size -> exists t, get_raw_field_code f off data = Good t.
Proof. intros H. unfold get_raw_field_code. rewrite H. eexists. reflexivity. Qed.

Lemma sized_code_good pn off f size : size_bytes (fd_raw f) = Some size -> exists p, sized_code pn off f = Good p.
Proof.
  intros H. unfold sized_code.
  destruct (raw_field_good f off self_0 size H) as [t ->]. destruct (raw_field_good f off payload_toks size H) as [u ->].
  cbn [mbind]. destruct (fd_map f); eexists; reflexivity.
Qed.

Lemma recv_fields_ends pn : forall fs off fns,
  ends (recv_fields pn off fns fs) (existsb (fun f => unsized f && no_size_fn f) (but_last fs)).
Proof.
  induction fs as [|f fs IH]; intros off fns; [cbn; eexists; reflexivity|].
  assert (Hb : existsb (fun f => unsized f && no_size_fn f) (but_last (f :: fs)) =
               match fs with [] => false | _ => unsized f && no_size_fn f || existsb (fun f => unsized f && no_size_fn f) (but_last fs) end)
    by (destruct fs; reflexivity).
  rewrite Hb. clear Hb. cbn [recv_fields]. unfold unsized at 1, no_size_fn at 1.
  destruct (size_bytes (fd_raw f)) as [size|] eqn:Hs.
  - destruct (sized_code_good pn off f size Hs) as [[g v] ->]. cbn [mbind andb orb].
    specialize (IH (off + size) fns).
    destruct fs as [|f2 fs]; [cbn; eexists; reflexivity|].
    destruct (existsb _ (but_last (f2 :: fs))); cbn [ends] in *.
    + rewrite IH. reflexivity.
    + destruct IH as [[gs vs] ->]. eexists. reflexivity.
  - destruct (fd_size_fn f) as [s|]; cbn [andb orb].
    + rewrite orb_true_r. destruct (unsized_code pn off fns f) as [g v]. cbn [mbind].
      specialize (IH off (fns ++ [s])). destruct fs as [|f2 fs]; [cbn; eexists; reflexivity|].
      destruct (existsb _ (but_last (f2 :: fs))); cbn [ends] in *.
      * rewrite IH. reflexivity.
      * destruct IH as [[gs vs] ->]. eexists. reflexivity.
    + destruct fs as [|f2 fs]; [|reflexivity]. cbn [orb recv_fields mbind].
      destruct (unsized_code pn off fns f) as [g v]. eexists. reflexivity.
Qed.

Lemma no_fns d : match size_fn_codes d with [] => true | _ => false end = forallb no_size_fn (pd_fields d).
Proof.
  unfold size_fn_codes. induction (pd_fields d) as [|f fs IH]; [reflexivity|]. cbn [flat_map forallb].
  unfold no_size_fn at 1. destruct (fd_size_fn f); [reflexivity|]. exact IH.
Qed.

Lemma recv_good d ts : generate_recv_code_for_packet d = Good ts -> gen_recv d = Good tt.
Proof.
  unfold generate_recv_code_for_packet, gen_recv. intros H.
  pose proof (recv_fields_ends (pd_name d) (pd_fields d) 0 []) as He.
  destruct (existsb (fun f => unsized f && no_size_fn f) (but_last (pd_fields d))); cbn [ends] in He; [rewrite He in H; discriminate H|].
  destruct He as [[g v] He]. rewrite He in H. cbn [mbind] in H. clear He.
  unfold validator_code in H. rewrite <- no_fns. destruct (decl_size 0 (pd_fields d)) as [[n|]|m|] eqn:Hd; try discriminate H.
  - rewrite (decl_size_some _ _ _ Hd). reflexivity.
  - rewrite (decl_size_none _ _ Hd). cbn [andb]. destruct (size_fn_codes d) as [|s fns] eqn:Hf; [|reflexivity].
    cbn [mbind] in H. destruct (decl_size 0 (removelast (pd_fields d))) as [[k|]|m|] eqn:Hr; try discriminate H.
    unfold but_last. rewrite (decl_size_some _ _ _ Hr). reflexivity.
Qed.

Lemma recv_not_bad d m : generate_recv_code_for_packet d <> Bad m.
Proof.
  unfold generate_recv_code_for_packet. pose proof (recv_fields_ends (pd_name d) (pd_fields d) 0 []) as He.
  destruct (existsb _ _); cbn [ends] in He; [rewrite He; discriminate|]. destruct He as [[g v] He]. rewrite He. cbn [mbind].
  unfold validator_code. destruct (decl_size 0 (pd_fields d)) as [[n|]|m'|] eqn:Hd; try discriminate; [|destruct (decl_size_not_bad _ _ _ Hd)].
  destruct (size_fn_codes d) as [|s fns]; cbn [mbind].
  - destruct (decl_size 0 (removelast (pd_fields d))) as [[k|]|m'|] eqn:Hr; try discriminate. destruct (decl_size_not_bad _ _ _ Hr).
  - destruct (decl_size 0 (filter _ (pd_fields d))) as [o|m'|] eqn:Hr; try discriminate. destruct (decl_size_not_bad _ _ _ Hr).
Qed.

Lemma recv_finishes d : gen_recv d = Good tt -> sized_total (pd_fields d) <= usize_max -> exists ts, generate_recv_code_for_packet d = Good ts.
Proof.
  unfold generate_recv_code_for_packet, gen_recv. intros H Ht.
  pose proof (recv_fields_ends (pd_name d) (pd_fields d) 0 []) as He.
  destruct (existsb (fun f => unsized f && no_size_fn f) (but_last (pd_fields d))); cbn [ends] in He; [discriminate H|].
  destruct He as [[g v] He]. rewrite He. cbn [mbind]. clear He.
  unfold validator_code. destruct (decl_size_fits (pd_fields d) 0 Ht) as [[n|] Hd]; rewrite Hd; cbn [mbind]; [eexists; reflexivity|].
  rewrite (decl_size_none _ _ Hd), <- no_fns in H. cbn [andb] in H. destruct (size_fn_codes d) as [|s fns]; cbn [mbind].
  - destruct (decl_size_fits (removelast (pd_fields d)) 0) as [[n|] Hr]; [pose proof (sized_total_removelast (pd_fields d)); lia| |];
      rewrite Hr; cbn [mbind]; [eexists; reflexivity|].
    unfold but_last in H. rewrite (decl_size_none _ _ Hr) in H. discriminate H.
  - destruct (decl_size_fits (filter (fun f => match fd_size_fn f with None => true | Some _ => false end) (pd_fields d)) 0) as [o Hr];
      [pose proof (sized_total_filter (fun f => match fd_size_fn f with None => true | Some _ => false end) (pd_fields d)); lia|].
    rewrite Hr. eexists. reflexivity.
Qed.

(** ** [generate_send_code_for_packet] *)

Lemma send_fields_ends : forall fs off, ends (send_fields off fs) (existsb unsized (but_last fs)).
Proof.
  induction fs as [|f fs IH]; intros off; [cbn; eexists; reflexivity|].
  assert (Hb : existsb unsized (but_last (f :: fs)) = match fs with [] => false | _ => unsized f || existsb unsized (but_last fs) end)
    by (destruct fs; reflexivity).
  rewrite Hb. clear Hb. cbn [send_fields]. unfold unsized at 1. destruct (size_bytes (fd_raw f)) as [size|]; cbn [orb].
  - specialize (IH (off + size)). destruct fs as [|f2 fs]; [cbn; eexists; reflexivity|].
    destruct (existsb unsized (but_last (f2 :: fs))); cbn [ends] in *; [rewrite IH; reflexivity|].
    destruct IH as [r ->]. eexists. reflexivity.
  - destruct fs; [eexists; reflexivity | reflexivity].
Qed.

Lemma send_ends d :
  match generate_send_code_for_packet d, gen_send d with
  | Good _, Good _ => True
  | Crash, Crash => True
  | _, _ => False
  end.
Proof.
  unfold generate_send_code_for_packet, gen_send. pose proof (send_fields_ends (pd_fields d) 6) as He.
  destruct (existsb unsized (but_last (pd_fields d))); cbn [ends] in He; [rewrite He; exact I|].
  destruct He as [r ->]. cbn [mbind]. destruct (decl_size 0 (pd_fields d)) as [[n|]|m|] eqn:Hd; cbn [mbind]; try exact I.
  - destruct (n <=? 65535); exact I.
  - destruct (decl_size_not_bad _ _ _ Hd).
Qed.

(** ** Enums and flags *)

Lemma enum_ends attrs d :
  match generate_code_to_extend_enum attrs d, gen_enum d with Good _, Good _ => True | Crash, Crash => True | _, _ => False end.
Proof.
  unfold generate_code_to_extend_enum, gen_enum. destruct (ed_from d) as [[|]|]; destruct (e_rest (ed_desc d)) as [[|]|]; exact I.
Qed.

Lemma flags_ends x d :
  match generate_code_to_extend_bitflags x d, gen_flags d with
  | Good _, Good _ => True | Bad m, Bad m' => m = m' | Crash, Crash => True | _, _ => False end.
Proof.
  unfold generate_code_to_extend_bitflags, gen_flags. destruct (fl_rest d) as [[|]|]; try reflexivity.
  cbv zeta. destruct (flags_accepted (fl_desc d)); cbn [negb]; [|reflexivity]. destruct (fl_from d) as [[|]|]; exact I.
Qed.

(** ** The macros *)

Lemma packet_good k d ts : code_for_packet k d = Good ts -> gen_packet k d = Good tt.
Proof.
  destruct k; cbn [code_for_packet gen_packet]; intros H.
  - unfold code_for_recv_packet in H. destruct (generate_recv_code_for_packet d) eqn:Hr; try discriminate H. eapply recv_good, Hr.
  - unfold code_for_send_packet in H. pose proof (send_ends d) as He.
    destruct (generate_send_code_for_packet d); try discriminate H. destruct (gen_send d) as [[]| |]; easy.
  - unfold code_for_recv_send_packet in H. pose proof (send_ends d) as He.
    destruct (generate_send_code_for_packet d); try discriminate H. cbn [mbind] in H.
    destruct (generate_recv_code_for_packet d) eqn:Hr; try discriminate H.
    destruct (gen_send d) as [[]| |]; try easy. cbn [mbind]. eapply recv_good, Hr.
Qed.
Lemma packet_not_bad k d m : code_for_packet k d <> Bad m /\ gen_packet k d <> Bad m.
Proof.
  pose proof (recv_not_bad d) as Hr. pose proof (send_ends d) as He.
  assert (Hg : forall m, gen_recv d <> Bad m) by (intros m'; unfold gen_recv; destruct (existsb _ _); [discriminate|]; destruct (_ && _); discriminate).
  destruct k; cbn [code_for_packet gen_packet]; unfold code_for_recv_packet, code_for_send_packet, code_for_recv_send_packet.
  - split; [|apply Hg]. destruct (generate_recv_code_for_packet d) as [t|m'|]; try discriminate. destruct (Hr m'). reflexivity.
  - destruct (generate_send_code_for_packet d); destruct (gen_send d); try easy; split; discriminate.
  - destruct (generate_send_code_for_packet d); destruct (gen_send d); try easy; cbn [mbind].
    split; [|apply Hg]. destruct (generate_recv_code_for_packet d) as [t|m'|]; try discriminate. destruct (Hr m'). reflexivity.
Qed.
Lemma packet_finishes k d : gen_packet k d = Good tt -> sized_total (pd_fields d) <= usize_max -> exists ts, code_for_packet k d = Good ts.
Proof.
  intros H Ht. pose proof (send_ends d) as He. destruct k; cbn [code_for_packet gen_packet] in *.
  - unfold code_for_recv_packet. destruct (recv_finishes d H Ht) as [ts ->]. eexists. reflexivity.
  - unfold code_for_send_packet. rewrite H in He. destruct (generate_send_code_for_packet d); try easy. eexists. reflexivity.
  - unfold code_for_recv_send_packet. destruct (gen_send d); try discriminate H. cbn [mbind] in H.
    destruct (generate_send_code_for_packet d); try easy. destruct (recv_finishes d H Ht) as [ts ->]. eexists. reflexivity.
Qed.

(** The declarations are of packets whose sizes fit in an [usize] *)
Definition sizes_fit (os : list output) : Prop :=
  forall k d, In (OPacket k d) os -> sized_total (pd_fields d) <= usize_max.

Lemma expansion_good i ts : expansion i = Good ts -> exists os, expand i = Good os.
Proof.
  destruct i as [attrs name fs|attrs name vs|attrs path body|]; cbn [expansion expand].
  - destruct (first_macro attrs) as [[k| |]|]; try discriminate; [|eexists; reflexivity].
    destruct fs as [fs|m|]; try discriminate. cbn [mbind]. unfold packet_macro.
    destruct (parse_packet_description name attrs fs) as [d|m|]; try discriminate. cbn [mbind]. intros H.
    rewrite (packet_good _ _ _ H). eexists. reflexivity.
  - destruct (first_macro attrs) as [[k| |]|]; try discriminate; [|eexists; reflexivity].
    destruct vs as [vs|m|]; try discriminate. cbn [mbind]. unfold enum_macro.
    destruct (parse_ubx_enum_type name attrs vs) as [d|m|]; try discriminate. cbn [mbind]. intros H.
    pose proof (enum_ends attrs d) as He. rewrite H in He. destruct (gen_enum d); try easy. eexists. reflexivity.
  - destruct (first_macro attrs) as [[k| |]|]; try discriminate.
    + unfold flags_macro. destruct (is_ident path "bitflags"); try discriminate.
      destruct (parse_bitflags attrs body) as [d|m|]; try discriminate. cbn [mbind]. intros H.
      pose proof (flags_ends (flags_text_of body) d) as He. rewrite H in He. destruct (gen_flags d); try easy. eexists. reflexivity.
    + destruct (is_ident path "define_recv_packets"); [|eexists; reflexivity].
      destruct (parse_idents_list body) as [d|m|]; try discriminate. eexists. reflexivity.
  - eexists. reflexivity.
Qed.

Ltac same_bad := split; let H := fresh in intros H; inversion H; reflexivity.

Lemma expansion_bad i m : expansion i = Bad m <-> expand i = Bad m.
Proof.
  destruct i as [attrs name fs|attrs name vs|attrs path body|]; cbn [expansion expand]; [| | |split; discriminate].
  - destruct (first_macro attrs) as [[k| |]|]; [|same_bad|same_bad|split; discriminate].
    destruct fs as [fs|m'|]; cbn [mbind]; [|same_bad|split; discriminate].
    unfold packet_macro. destruct (parse_packet_description name attrs fs) as [d|m'|]; cbn [mbind];
      [|same_bad|split; discriminate].
    destruct (packet_not_bad k d m) as [H1 H2]. split; intros H; [contradiction|].
    destruct (gen_packet k d); try discriminate H. cbn [mbind] in H. injection H as ->. now destruct H2.
  - destruct (first_macro attrs) as [[k| |]|]; [same_bad| |same_bad|split; discriminate].
    destruct vs as [vs|m'|]; cbn [mbind]; [|same_bad|split; discriminate].
    unfold enum_macro. destruct (parse_ubx_enum_type name attrs vs) as [d|m'|]; cbn [mbind];
      [|same_bad|split; discriminate].
    pose proof (enum_ends attrs d) as He. destruct (generate_code_to_extend_enum attrs d); destruct (gen_enum d); easy.
  - destruct (first_macro attrs) as [[k| |]|]; [same_bad|same_bad| |].
    + unfold flags_macro. destruct (is_ident path "bitflags"); [|same_bad].
      destruct (parse_bitflags attrs body) as [d|m'|]; cbn [mbind]; [|same_bad|split; discriminate].
      pose proof (flags_ends (flags_text_of body) d) as He.
      destruct (generate_code_to_extend_bitflags (flags_text_of body) d); destruct (gen_flags d); try easy.
      subst. cbn [mbind]. same_bad.
    + destruct (is_ident path "define_recv_packets"); [|split; discriminate].
      destruct (parse_idents_list body) as [d|m'|]; cbn [mbind]; [split; discriminate|same_bad|split; discriminate].
Qed.

Lemma expansion_finishes i os : expand i = Good os -> sizes_fit os -> exists ts, expansion i = Good ts.
Proof.
  destruct i as [attrs name fs|attrs name vs|attrs path body|]; cbn [expansion expand].
  - destruct (first_macro attrs) as [[k| |]|]; try discriminate; [|eexists; reflexivity].
    destruct fs as [fs|m|]; try discriminate. cbn [mbind]. unfold packet_macro.
    destruct (parse_packet_description name attrs fs) as [d|m|]; try discriminate. cbn [mbind].
    destruct (gen_packet k d) as [[]|m|] eqn:Hg; try discriminate. cbn [mbind]. intros H Hf. injection H as <-.
    apply (packet_finishes k d Hg). apply (Hf k d). left. reflexivity.
  - destruct (first_macro attrs) as [[k| |]|]; try discriminate; [|eexists; reflexivity].
    destruct vs as [vs|m|]; try discriminate. cbn [mbind]. unfold enum_macro.
    destruct (parse_ubx_enum_type name attrs vs) as [d|m|]; try discriminate. cbn [mbind]. intros H _.
    pose proof (enum_ends attrs d) as He. destruct (gen_enum d); try discriminate H.
    destruct (generate_code_to_extend_enum attrs d); try easy. eexists. reflexivity.
  - destruct (first_macro attrs) as [[k| |]|]; try discriminate.
    + unfold flags_macro. destruct (is_ident path "bitflags"); try discriminate.
      destruct (parse_bitflags attrs body) as [d|m|]; try discriminate. cbn [mbind]. intros H _.
      pose proof (flags_ends (flags_text_of body) d) as He. destruct (gen_flags d); try discriminate H.
      destruct (generate_code_to_extend_bitflags (flags_text_of body) d); try easy. eexists. reflexivity.
    + destruct (is_ident path "define_recv_packets"); [|eexists; reflexivity].
      destruct (parse_idents_list body) as [d|m|]; try discriminate. eexists. reflexivity.
  - eexists. reflexivity.
Qed.
