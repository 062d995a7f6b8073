(** * Properties of the defaults of builders (C73) *)
From Coq Require Import String List NArith ZArith Bool Lia SpecFloat.
From Verif Require Import Base BaseFacts DualBuffer Parser Tokens Syntax PackDesc GenRecv GenSend Enums Floats Bits Macro Meaning Dispatch
  TableTypes TablePackets SourcePackets Setters Default SpecFrame SpecPacket SpecFields SpecDefault ProofSend ProofRecv ProofTable ProofDispatch ProofFields
  PropPackets PropDispatch PropSource PropFields.
Import ListNotations.
Open Scope N_scope.
Open Scope list_scope.

(** ** The defaults of the library *)

Definition flagged : list pack_decl := Eval vm_compute in filter has_default (send_of packets_outputs).
Lemma flagged_eq : filter has_default (send_of (outputs packets_rs)) = flagged.
Proof. rewrite outputs_eq. vm_cast_no_check (eq_refl flagged). Qed.
Definition library_defaults : defaults :=
  Eval vm_compute in mk_defaults (enum_defaults packets_items) (flags_defaults packets_items).
Lemma library_defaults_eq : defaults_of packets_rs = library_defaults.
Proof. unfold defaults_of. rewrite packets_file_items. vm_cast_no_check (eq_refl library_defaults). Qed.
Definition flagged_codes : list (option Meaning.pack_code) := Eval vm_compute in map (Meaning.packet_of packets_env) flagged.
Lemma flagged_codes_eq : map (Meaning.packet_of packets_env) flagged = flagged_codes.
Proof. vm_cast_no_check (eq_refl flagged_codes). Qed.

Definition of_code (e : defaults) (o : option Meaning.pack_code) : option {p : pack_desc & builder (p_fields p)} :=
  match o with
  | Some c =>
      match fields_default e (pc_fields c) with
      | Some (existT _ fs b) =>
          Some (existT (fun p => builder (p_fields p)) (mk_desc (pc_name c) (n2b (pc_class c)) (n2b (pc_id c)) (pc_len c) fs) b)
      | None => None
      end
  | None => None
  end.
Local Opaque packets_rs.
Lemma builder_default_split text d : has_default d = true ->
  builder_default text d = of_code (defaults_of text) (Meaning.packet_of (env_of text) d).
Proof. intros H. unfold builder_default. rewrite H. reflexivity. Qed.
Lemma split_all text l : Forall (fun d => has_default d = true) l ->
  map (builder_default text) l = map (of_code (defaults_of text)) (map (Meaning.packet_of (env_of text)) l).
Proof.
  intros H. rewrite map_map. apply map_ext_in. intros d Hd. rewrite Forall_forall in H.
  apply builder_default_split. exact (H d Hd).
Qed.
Lemma filter_all {A} (g : A -> bool) l : Forall (fun d => g d = true) (filter g l).
Proof. apply Forall_forall. intros d Hd. apply filter_In in Hd. exact (proj2 Hd). Qed.
Lemma flagged_all : Forall (fun d => has_default d = true) flagged.
Proof. exact (eq_ind _ (fun l => Forall (fun d => has_default d = true) l) (filter_all has_default (send_of (outputs packets_rs))) _ flagged_eq). Qed.
Lemma of_flagged : map (builder_default packets_rs) flagged = map (of_code library_defaults) flagged_codes.
Proof.
  rewrite (split_all packets_rs flagged flagged_all). rewrite library_defaults_eq, packets_env_eq, flagged_codes_eq. reflexivity.
Qed.

Local Notation mk x b := (existT (fun p => builder (p_fields p)) x b) (only parsing).
Local Notation z := 0%Z (only parsing).
Local Notation f := (S754_zero false) (only parsing).
Definition odo_default : builder (p_fields p_cfg_odo) :=
  (z, (zeros 3, (0, (("Running"%string, 0), (zeros 6, (z, (z, (zeros 2, (z, (z, (zeros 2, tt))))))))))).
Definition inf_default : builder (p_fields p_cfg_inf) := (z, (zeros 3, (0, (0, (0, (0, (0, (0, tt)))))))).
Definition tp5_default : builder (p_fields p_cfg_tp5) :=
  (("TimePulse"%string, 0), (z, (zeros 2, (f, (f, (f, (f, (f, (f, (f, (0, tt))))))))))).
Definition tmode2_default : builder (p_fields p_cfg_tmode2) :=
  (("Disabled"%string, 0), (z, (0, (f, (f, (f, (f, (z, (f, tt))))))))).
Definition tmode3_default : builder (p_fields p_cfg_tmode3) :=
  (z, (z, (0, (0, (f, (f, (f, (f, (f, (f, (z, (f, (z, (f, (zeros 8, tt))))))))))))))).
Definition i2c_default : builder (p_fields p_cfg_prt_i2c) := (("I2c"%string, 0), (z, (z, (z, (z, (0, (0, (z, (z, tt))))))))).
Definition spi_default : builder (p_fields p_cfg_prt_spi) := (("Spi"%string, 4), (z, (z, (z, (z, (0, (0, (z, (z, tt))))))))).
Definition nav5_default : builder (p_fields p_cfg_nav5) :=
  (0, (("AirborneWith4gAcceleration"%string, 8), (("Auto2D3D"%string, 3), (f, (f, (z, (z, (f, (f, (z, (z, (f, (z, (z, (z,
   (zeros 2, (z, (("Automatic"%string, 0), (zeros 5, tt))))))))))))))))))).
Definition nav_x5_default : builder (p_fields p_cfg_nav_x5) :=
  (z, (0, (0, (zeros 2, (z, (z, (z, (z, (z, (zeros 2, (z, (z, (z, (z, (zeros 2, (zeros 2, (z, (z, (zeros 2, (z, (zeros 4, (zeros 3,
   (z, tt))))))))))))))))))))))).

Definition default_table : list {p : pack_desc & builder (p_fields p)} :=
  [mk p_cfg_odo odo_default; mk p_cfg_inf inf_default; mk p_aid_ini aid_ini_default; mk p_cfg_tp5 tp5_default;
   mk p_cfg_tmode2 tmode2_default; mk p_cfg_tmode3 tmode3_default; mk p_cfg_prt_i2c i2c_default; mk p_cfg_prt_spi spi_default;
   mk p_cfg_nav5 nav5_default; mk p_cfg_nav_x5 nav_x5_default].

Strategy opaque [float_map enum_map flags_map].
Lemma default_table_eq : map (builder_default packets_rs) flagged = map Some default_table.
Proof.
  rewrite of_flagged.
  cbv [map of_code flagged_codes fields_default field_default map_default pc_fields fc_map fc_ty fc_name fc_alias fc_as_ref fc_size
       raw_default option_map pc_name pc_class pc_id pc_len default_table].
  reflexivity.
Qed.

Lemma in_flagged d p b : In d (send_of (outputs packets_rs)) -> builder_default packets_rs d = Some (existT _ p b) ->
  In (existT (fun p => builder (p_fields p)) p b) default_table.
Proof.
  intros Hd E.
  assert (Hf : In d flagged).
  { rewrite <- flagged_eq. apply (proj2 (filter_In has_default d _)). split; [exact Hd|].
    destruct (has_default d) eqn:F; [reflexivity|]. exfalso. revert E. unfold builder_default. rewrite F. discriminate. }
  pose proof (in_map (builder_default packets_rs) _ _ Hf) as H. rewrite default_table_eq, E in H.
  apply in_map_iff in H. destruct H as (x & Ex & Hx). congruence.
Qed.

Lemma table_frames :
  Forall (fun x => exists payload, In (projT1 x, payload) default_payloads /\ In (projT1 x) send_packets /\
            p_len (projT1 x) = Fixed (lenN payload) /\
            builder_ok (p_fields (projT1 x)) (projT2 x) /\
            into_packet_bytes (projT1 x) (projT2 x) = Ret (frame (p_class (projT1 x)) (p_id (projT1 x)) payload) /\
            accepts (projT1 x) payload /\ copied (projT1 x) payload (projT2 x)) default_table.
Proof.
  unfold default_table.
  Ltac one := eexists; split; [unfold default_payloads; in_list|];
    split; [unfold send_packets; in_list|]; split; [reflexivity|];
    split; [vm_compute; repeat split; try discriminate; try reflexivity; tauto|];
    split; [vm_compute; reflexivity|];
    split; [apply validate_accepts; [reflexivity|vm_compute; discriminate|vm_compute; reflexivity]|].
  Ltac all_default b := exists b; split; [vm_compute; reflexivity | reflexivity].
  constructor; [one; all_default odo_default|].
  constructor; [one; all_default inf_default|].
  constructor; [one; all_default aid_ini_default|].
  constructor; [one; all_default tp5_default|].
  constructor; [one; all_default tmode2_default|].
  constructor; [one; all_default tmode3_default|].
  constructor; [one; all_default i2c_default|].
  constructor; [one; all_default spi_default|].
  constructor; [one; all_default nav5_default|].
  constructor; [one; all_default nav_x5_default|].
  constructor.
Qed.

(** ** C73 *)

(** The builders with a default are those of the ten packets of the list, and each of them has one (its code compiles). *)
Theorem default_builders :
  map pd_name (filter has_default (send_of (outputs packets_rs))) = map (fun x => p_name (fst x)) default_payloads /\
  forall d, In d (send_of (outputs packets_rs)) -> In DefaultForBuilder (h_flags (pd_header d)) ->
    exists p b, builder_default packets_rs d = Some (existT _ p b) /\ p_name p = pd_name d.
Proof.
  split; [rewrite flagged_eq; reflexivity|]. intros d Hd Hf.
  assert (F : has_default d = true) by (apply existsb_exists; exists DefaultForBuilder; auto).
  assert (Hi : In d flagged) by (rewrite <- flagged_eq; apply (proj2 (filter_In has_default d _)); auto).
  assert (A : Forall2 (fun d x => builder_default packets_rs d = Some x /\ p_name (projT1 x) = pd_name d) flagged default_table).
  { pose proof default_table_eq as E.
    assert (En : map pd_name flagged = map (fun x => p_name (projT1 x)) default_table) by reflexivity.
    revert E En. generalize flagged, default_table. clear. intros l.
    induction l as [|d l IH]; intros [|x t] E En; try discriminate; constructor.
    - cbn in E, En. split; congruence.
    - cbn in E, En. apply IH; congruence. }
  clear - A Hi. induction A as [|d' x l t [H1 H2] A IH]; [destruct Hi|]. destruct Hi as [->|Hi]; [|exact (IH Hi)].
  destruct x as [p b]. exists p, b. auto.
Qed.

(** The types with a default of their own: these enums, each with the variant marked [#[default]], and these bit flags. *)
Theorem default_types :
  df_enums (defaults_of packets_rs) =
    [("OdoProfile", ("Running", 0)); ("CfgItfmAntennaSettings", ("Unknown", 0)); ("CfgTp5TimePulseMode", ("TimePulse", 0));
     ("CfgTmode2TimeXferModes", ("Disabled", 0)); ("I2cPortId", ("I2c", 0)); ("SpiPortId", ("Spi", 4));
     ("CfgNav5DynModel", ("AirborneWith4gAcceleration", 8)); ("CfgNav5FixMode", ("Auto2D3D", 3)); ("CfgNav5UtcStandard", ("Automatic", 0))]%string /\
  df_flags (defaults_of packets_rs) =
    ["NavHpPosEcefFlags"; "OdoCogFilterFlags"; "CfgInfMask"; "AntFlags"; "CfgTmode2Flags"; "CfgTmode3RcvrMode"; "CfgTp5Flags"; "CfgTmode3Flags";
     "InProtoMask"; "OutProtoMask"; "NavTimeUtcFlags"; "CfgNav5Params"; "CfgNavX5Params1"; "CfgNavX5Params2"; "RecStatFlags"; "MonGnssConstellMask"]%string.
Proof. rewrite library_defaults_eq. split; reflexivity. Qed.

(** The default builder sends the payload of the list. *)
Theorem default_frame :
  forall d p (b0 : builder (p_fields p)),
    In d (send_of (outputs packets_rs)) -> builder_default packets_rs d = Some (existT _ p b0) ->
    In p send_packets /\ builder_ok (p_fields p) b0 /\
    exists payload0, In (p, payload0) default_payloads /\
      into_packet_bytes p b0 = Ret (frame (p_class p) (p_id p) payload0).
Proof.
  intros d p b Hd E. pose proof (in_flagged _ _ _ Hd E) as H. pose proof table_frames as T. rewrite Forall_forall in T.
  destruct (T _ H) as (payload & H1 & H2 & _ & H3 & H4 & _). cbn [projT1 projT2] in *. eauto 10.
Qed.

(** Whatever is put into the other fields, a field which was not set carries the bytes it has in that payload. *)
Lemma nth_value_some fs : forall (b : builder fs) k g, nth_error fs k = Some g -> exists v, nth_value fs b k = Some (existT _ g v).
Proof.
  induction fs as [|h fs IH]; intros b [|k] g H; try discriminate; cbn [nth_error nth_value] in *.
  - injection H as <-. eauto.
  - exact (IH _ _ _ H).
Qed.

Theorem same_value_same_bytes :
  forall p (b0 b : builder (p_fields p)) n bytes0 bytes k g,
    desc_typed p -> packet_payload_size p = Some n -> n <= 65535 -> builder_ok (p_fields p) b0 -> builder_ok (p_fields p) b ->
    into_packet_bytes p b0 = Ret bytes0 -> into_packet_bytes p b = Ret bytes ->
    nth_error (p_fields p) k = Some g -> not_set (p_fields p) b0 b k ->
    takeN (field_size g) (dropN (6 + offset_of (p_fields p) k) bytes) =
    takeN (field_size g) (dropN (6 + offset_of (p_fields p) k) bytes0).
Proof.
  intros p b0 b n bytes0 bytes k g T S Hn B0 B E0 E Hk Hs. unfold not_set in Hs.
  destruct (nth_value_some (p_fields p) b k g Hk) as (v & Hv).
  destruct (builder_places_fields p b0 n bytes0 T B0 S Hn E0) as (P0 & _).
  destruct (builder_places_fields p b n bytes T B S Hn E) as (P1 & _).
  destruct (P1 k g v Hv) as (r & H1 & H2 & _). rewrite Hs in Hv. destruct (P0 k g v Hv) as (r' & H3 & H4 & _).
  rewrite H2, H4. congruence.
Qed.

Lemma payload_at class id payload n m : n + m <= lenN payload ->
  takeN m (dropN (6 + n) (frame class id payload)) = takeN m (dropN n payload).
Proof.
  intros H. rewrite frame_shape. unfold header. cbn [app].
  match goal with |- context [dropN _ (?a :: ?b :: ?c :: ?d :: ?e :: ?f :: ?r)] =>
    change (a :: b :: c :: d :: e :: f :: r) with ([a; b; c; d; e; f] ++ r) end.
  rewrite dropN_app_ge by (change (lenN [_; _; _; _; _; _]) with 6; lia).
  change (lenN [_; _; _; _; _; _]) with 6. replace (6 + n - 6) with n by lia.
  rewrite dropN_app_le by lia. rewrite takeN_app_le by (rewrite lenN_dropN; lia). reflexivity.
Qed.

Lemma frame_payload class id payload1 payload0 : frame class id payload1 = frame class id payload0 -> payload1 = payload0.
Proof.
  intros Ef.
  assert (L : lenN payload1 = lenN payload0).
  { apply (f_equal lenN) in Ef. unfold frame, header, fletcher in Ef. rewrite !lenN_app in Ef.
    change (lenN [_; _]) with 2 in Ef. change (lenN [_; _; _; _]) with 4 in Ef. lia. }
  pose proof (payload_at class id payload1 0 (lenN payload1) ltac:(lia)) as P1.
  pose proof (payload_at class id payload0 0 (lenN payload1) ltac:(lia)) as P0.
  rewrite Ef, P0 in P1. rewrite dropN_0, takeN_all in P1 by lia. rewrite dropN_0, takeN_all in P1 by lia. congruence.
Qed.

Theorem unset_fields :
  forall d p (b0 b : builder (p_fields p)) payload0 payload k g,
    In d (send_of (outputs packets_rs)) -> builder_default packets_rs d = Some (existT _ p b0) ->
    In (p, payload0) default_payloads ->
    builder_ok (p_fields p) b -> into_packet_bytes p b = Ret (frame (p_class p) (p_id p) payload) ->
    nth_error (p_fields p) k = Some g -> not_set (p_fields p) b0 b k ->
    takeN (field_size g) (dropN (offset_of (p_fields p) k) payload) =
    takeN (field_size g) (dropN (offset_of (p_fields p) k) payload0).
Proof.
  intros d p b0 b payload0 payload k g Hd Ed Hp B E Hk Hs.
  pose proof (in_flagged _ _ _ Hd Ed) as H. pose proof table_frames as T. rewrite Forall_forall in T.
  destruct (T _ H) as (payload1 & H1 & H2 & Hl & B0 & E0 & _). cbn [projT1 projT2] in *.
  assert (payload1 = payload0) as ->.
  { assert (U : forallb (fun x => forallb (fun y => implb (String.eqb (p_name (fst x)) (p_name (fst y)))
                                       (if list_eq_dec byte_eq_dec (snd x) (snd y) then true else false)) default_payloads) default_payloads = true)
      by (vm_compute; reflexivity).
    rewrite forallb_forall in U. specialize (U _ H1). rewrite forallb_forall in U. specialize (U _ Hp). cbn [fst snd] in U.
    rewrite String.eqb_refl in U. cbn [implb] in U. destruct (list_eq_dec byte_eq_dec payload1 payload0); [assumption|discriminate]. }
  destruct (send_fixed p _ H2 Hl) as (Sz & Hn & _). 
  pose proof send_typed as Ty. rewrite Forall_forall in Ty. specialize (Ty p H2).
  pose proof (same_value_same_bytes p b0 b _ _ _ k g Ty Sz Hn B0 B E0 E Hk Hs) as R.
  destruct (built_frame p b _ _ H2 Hl B E) as (ws & _ & Ef & Lw & _).
  assert (Lp : lenN payload = lenN payload0).
  { rewrite (frame_payload _ _ _ _ Ef). exact Lw. }
  pose proof (offset_of_le _ _ _ Hk) as Ho. rewrite (fields_size_fixed _ _ Sz) in Ho.
  rewrite (payload_at _ _ payload) in R by (rewrite Lp; exact Ho). rewrite (payload_at _ _ payload0) in R by exact Ho. exact R.
Qed.

(** The default packet passes the checks of the receiving code, and every getter returns the default value. *)
Theorem default_read_back :
  forall d p (b0 : builder (p_fields p)) payload0,
    In d (send_of (outputs packets_rs)) -> builder_default packets_rs d = Some (existT _ p b0) ->
    into_packet_bytes p b0 = Ret (frame (p_class p) (p_id p) payload0) ->
    accepts p payload0 /\ copied p payload0 b0 /\
    (In p recv_table -> forall cs, fit cs -> concat cs = frame (p_class p) (p_id p) payload0 ->
       parse_chunks cs = Ret ([Ok (Known p payload0)], [])).
Proof.
  intros d p b0 payload0 Hd Ed E.
  pose proof (in_flagged _ _ _ Hd Ed) as H. pose proof table_frames as T. rewrite Forall_forall in T.
  destruct (T _ H) as (payload1 & _ & H2 & Hl & B0 & E0 & A & C). cbn [projT1 projT2] in *.
  assert (payload1 = payload0) as ->.
  { apply (frame_payload (p_class p) (p_id p)).
    exact (f_equal (fun r => match r with Ret l => l | _ => [] end) (eq_trans (eq_sym E0) E)). }
  split; [exact A|]. split; [exact C|]. intros Hr cs Hc Ec.
  destruct (send_fixed p _ H2 Hl) as (_ & _ & Nm & Hm).
  destruct (every_frame_is_delivered [(p_class p, p_id p, payload0)] cs) as (packets & Ep & HD).
  - constructor; [exact Hm|constructor].
  - exact Hc.
  - cbn [map concat]. rewrite app_nil_r. exact Ec.
  - inversion HD as [|x y l l' D DD]; subst. inversion DD; subst. rewrite Ep.
    rewrite (proj2 (delivers_exact _ _ _ _ _ Hr Nm D) (conj eq_refl (conj eq_refl A))). reflexivity.
Qed.

(** CFG-NAV5 with only the mask and the dynamic model set: the other 33 bytes are those of the default. *)
Definition nav5_automotive : builder (p_fields p_cfg_nav5) := (1, (("Automotive"%string, 4), snd (snd nav5_default))).
Lemma nav5_automotive_facts :
  builder_ok (p_fields p_cfg_nav5) nav5_automotive /\
  into_packet_bytes p_cfg_nav5 nav5_automotive = Ret (frame x06 x24 ([x01; x00; x04; x03] ++ zeros 32)) /\
  not_set (p_fields p_cfg_nav5) nav5_default nav5_automotive 2 /\ In p_cfg_nav5 recv_table.
Proof.
  split; [vm_compute; repeat split; try discriminate; try reflexivity; tauto|].
  split; [vm_compute; reflexivity|]. split; [reflexivity|]. unfold recv_table. in_list.
Qed.
Example unset_fields_ex :
  exists d, In d (send_of (outputs packets_rs)) /\ builder_default packets_rs d = Some (existT _ p_cfg_nav5 nav5_default) /\
    builder_ok (p_fields p_cfg_nav5) nav5_automotive /\
    into_packet_bytes p_cfg_nav5 nav5_automotive = Ret (frame x06 x24 ([x01; x00; x04; x03] ++ zeros 32)) /\
    not_set (p_fields p_cfg_nav5) nav5_default nav5_automotive 2 /\ In p_cfg_nav5 recv_table.
Proof.
  assert (H : In (Some (existT (fun p => builder (p_fields p)) p_cfg_nav5 nav5_default)) (map (builder_default packets_rs) flagged)).
  { rewrite default_table_eq. apply in_map. unfold default_table. do 8 right. left. reflexivity. }
  apply in_map_iff in H. destruct H as (d & E & Hd). rewrite <- flagged_eq in Hd. apply (proj1 (filter_In has_default d _)) in Hd.
  exists d. split; [exact (proj1 Hd)|]. split; [exact E|].
  exact nav5_automotive_facts.
Qed.

(** Violation of the comment on the field ("Only version 2 supported", packets.rs 2478-2479): the default of CFG-NAVX5 sends
    version 0. *)
Theorem default_nav_x5_version_refuted :
  exists d, In d (send_of (outputs packets_rs)) /\ builder_default packets_rs d = Some (existT _ p_cfg_nav_x5 nav_x5_default) /\
    exists v rest, nav_x5_default = (v, rest) /\ v = 0%Z /\ v <> 2%Z.
Proof.
  assert (H : In (Some (existT (fun p => builder (p_fields p)) p_cfg_nav_x5 nav_x5_default)) (map (builder_default packets_rs) flagged)).
  { rewrite default_table_eq. apply in_map. unfold default_table. do 9 right. left. reflexivity. }
  apply in_map_iff in H. destruct H as (d & E & Hd). rewrite <- flagged_eq in Hd. apply (proj1 (filter_In has_default d _)) in Hd.
  exists d. split; [exact (proj1 Hd)|]. split; [exact E|]. eexists _, _. split; [reflexivity|]. split; [reflexivity|discriminate].
Qed.

Print Assumptions default_builders.
Print Assumptions default_types.
Print Assumptions default_frame.
Print Assumptions same_value_same_bytes.
Print Assumptions unset_fields.
Print Assumptions default_read_back.
Print Assumptions default_nav_x5_version_refuted.
