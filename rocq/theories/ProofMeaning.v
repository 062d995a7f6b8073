(** * The descriptions of accepted declarations *)
From Coq Require Import String Ascii List NArith ZArith Bool Lia.
From Verif Require Import Base Tokens Syntax PackDesc Enums Macro Meaning SpecMacro ProofMacro.
Import ListNotations.
Open Scope N_scope.
Open Scope list_scope.

Lemma all_some_forall {A B} (f : A -> option B) l m : all_some f l = Some m <-> Forall2 (fun a b => f a = Some b) l m.
Proof.
  revert m. induction l as [|a l IH]; intros m; cbn.
  - split; intros H; [injection H as <-; constructor|inversion H; reflexivity].
  - split.
    + intros H. destruct (f a) eqn:E; [|discriminate]. destruct (all_some f l) eqn:E2; [|discriminate]. injection H as <-. constructor; [exact E|now apply IH].
    + intros H. inversion H as [|? b ? m' E R]; subst. rewrite E. apply IH in R. now rewrite R.
Qed.

(** A declaration and the field it describes *)
Definition same_field (d : field_decl) (f : field) : Prop :=
  f_name f = fd_name d /\ f_alias f = fd_alias d /\ f_ty f = fd_raw d /\ f_get_as_ref f = fd_get_as_ref d /\
  (f_size_fn f = None <-> fd_size_fn d = None) /\ (f_map f = None <-> fd_map d = None).

Lemma field_same e d c f : field_of e d = Some c -> field_meaning c = Some f -> same_field d f.
Proof.
  unfold field_of, field_meaning. intros H1 H2.
  destruct (fd_size_fn d) as [ts|] eqn:Sz.
  - destruct (size_of ts) as [sc|]; [|discriminate]. destruct (fd_map d) as [md|] eqn:Mp.
    + destruct (map_of e d md) as [mc|]; [|discriminate]. injection H1 as <-. cbn in H2. destruct (map_meaning (fd_raw d) mc) as [mm|]; [|discriminate].
      injection H2 as <-. unfold same_field. cbn. rewrite Sz, Mp. repeat split; congruence.
    + unfold fd_size_fn in Sz. rewrite Mp in Sz. discriminate.
  - destruct (fd_map d) as [md|] eqn:Mp.
    + destruct (map_of e d md) as [mc|]; [|discriminate]. injection H1 as <-. cbn in H2. destruct (map_meaning (fd_raw d) mc) as [mm|]; [|discriminate].
      injection H2 as <-. unfold same_field. cbn. rewrite Sz, Mp. repeat split; congruence.
    + destruct (fd_scale d); [discriminate|]. injection H1 as <-. cbn in H2. injection H2 as <-. unfold same_field. cbn. rewrite Sz, Mp. repeat split; congruence.
Qed.

Lemma packet_fields_same e d c p : packet_of e d = Some c -> packet_meaning c = Some p ->
  Forall2 same_field (pd_fields d) (p_fields p) /\ p_name p = pd_name d /\
  p_class p = n2b (h_class (pd_header d)) /\ p_id p = n2b (h_id (pd_header d)) /\ p_len p = h_len (pd_header d).
Proof.
  unfold packet_of, packet_meaning. intros H1 H2. destruct (all_some (field_of e) (pd_fields d)) as [cs|] eqn:E1; [|discriminate].
  injection H1 as <-. cbn in H2. destruct (all_some field_meaning cs) as [fs|] eqn:E2; [|discriminate]. injection H2 as <-. cbn.
  repeat split; try reflexivity. apply all_some_forall in E1, E2. clear - E1 E2. revert fs E2.
  induction E1 as [|a b l m E _ IH]; intros fs E2; inversion E2; subst; constructor; [eapply field_same; eassumption|auto].
Qed.

Lemma same_width d f : same_field d f -> f_size f = width d.
Proof. intros (_ & _ & E & _). unfold f_size, width. rewrite E. reflexivity. Qed.

Lemma fields_size_widths ds fs : Forall2 same_field ds fs ->
  fields_size fs = if existsb unsized ds then None else Some (widths ds).
Proof.
  induction 1 as [|d f ds fs S _ IH]; [reflexivity|]. cbn [fields_size existsb]. rewrite (same_width _ _ S), IH. unfold unsized at 2. rewrite <- width_size.
  unfold widths. cbn. destruct (width d); cbn; [|reflexivity]. destruct (existsb unsized ds); reflexivity.
Qed.

Lemma unsized_only_last_same ds fs : Forall2 same_field ds fs -> sized_but_last ds -> unsized_only_last fs = true.
Proof.
  unfold unsized_only_last. intros F. induction F as [|d f ds fs S F IH]; intros H; [reflexivity|].
  destruct F as [|d' f' ds fs S' F]; [reflexivity|]. change (removelast (f :: f' :: fs)) with (f :: removelast (f' :: fs)). cbn [forallb].
  rewrite (same_width _ _ S). rewrite IH.
  - destruct (width d) eqn:W; [reflexivity|]. specialize (H d d' [] ds eq_refl W). apply has_size_fn_iff in H.
    destruct S as (_ & _ & _ & _ & Sz & _). destruct (f_size_fn f); [reflexivity|]. exfalso. apply H. now apply Sz.
  - intros x y rest after E W. apply (H x y (d :: rest) after); [now rewrite E|exact W].
Qed.

Lemma says_accepted name attrs fs e d c p :
  packet_says name attrs fs d -> packet_of e d = Some c -> packet_meaning c = Some p -> accepted p = true.
Proof.
  intros (_ & (a & l & _ & _ & Hh) & _ & _ & Hs & _ & Hl) H1 H2. destruct (packet_fields_same _ _ _ _ H1 H2) as (F & _ & _ & _ & EL).
  unfold accepted. rewrite (unsized_only_last_same _ _ F Hs). unfold length_matches, length_is_u16, packet_payload_size. rewrite EL, (fields_size_widths _ _ F).
  destruct Hh as (_ & _ & _ & _ & _ & Hn & _). unfold length_says in Hl. destruct (h_len (pd_header d)) as [n|n].
  - destruct Hl as [H3 H4]. rewrite (proj2 (existsb_false unsized (pd_fields d))).
    + rewrite H4, N.eqb_refl. cbn. apply N.leb_le. lia.
    + intros x Hx. apply unsized_false, H3, Hx.
  - destruct Hl as (x & Hx & W). rewrite (proj2 (existsb_exists unsized (pd_fields d))); [cbn; apply N.leb_le; lia|].
    exists x. split; [exact Hx|now apply unsized_iff].
Qed.
