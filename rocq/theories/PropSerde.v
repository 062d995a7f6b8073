(** * C76: serialized values can be read back

    The values are those of the types of packets.rs and types.rs which derive [Deserialize]. *)
From Coq Require Import String List NArith ZArith Bool Lia SpecFloat Permutation.
From Verif Require Import Base Tokens Syntax PackDesc Floats Bits Convert Data Serde SourcePackets SourceTypes SpecSerde ProofLex ProofSerde
  PropSource.
Import ListNotations.
Open Scope N_scope.
Open Scope list_scope.

(** ** The types *)

Definition packets_readable : list decl :=
  Eval vm_compute in filter (fun d => serde_derives "Deserialize" (dc_attrs d)) (decls packets_tokens).
Lemma packets_readable_eq : readable packets_rs = packets_readable.
Proof. unfold readable. rewrite packets_lex. vm_cast_no_check (eq_refl packets_readable). Qed.
Definition types_readable : list decl := Eval vm_compute in readable types_rs.
Lemma types_readable_eq : readable types_rs = types_readable.
Proof. unfold readable. rewrite <- lex_flat_eq. vm_cast_no_check (eq_refl types_readable). Qed.

(** The types which the two files let a user deserialize *)
Theorem readable_declared : readable_types [packets_rs; types_rs] = Some library_types.
Proof.
  unfold readable_types. cbn [flat_map]. rewrite packets_readable_eq, types_readable_eq. vm_cast_no_check (eq_refl (Some library_types)).
Qed.
(** Two types of the same file, read alone *)
Example readable_ex :
  readable_types ["#[derive(Debug)] #[cfg_attr(feature = ""serde"", derive(serde::Serialize, serde::Deserialize))]
                   pub struct Pair { pub left: u8, right: Inner }
                   struct Other { a: u8 }
                   #[cfg_attr(feature = ""serde"", derive(serde::Serialize, serde::Deserialize))]
                   pub enum Inner { A = 3, B(f32) }"]%string =
  Some [("Pair", TStruct [("left", TInt U8); ("right", TEnum [("A", None); ("B", Some (TReal FTy32))])]);
        ("Inner", TEnum [("A", None); ("B", Some (TReal FTy32))])]%string.
Proof. vm_compute. reflexivity. Qed.

(** ** A value serialized and read back *)

(** Of every type built by the two derived implementations *)
Theorem derived_round_trip : forall t, distinct t -> both_derived t ->
  forall v, typed t v -> exists d, ser t v = Some d /\ de t d = Some v.
Proof.
  intros t D B v T. destruct (ser_typed t D v T) as [d E]. exists d. split; [exact E|]. apply de_ser with (3 := T); assumption.
Qed.

Lemma library_distinct : Forall (fun x => distinct (snd x)) library_types.
Proof.
  apply Forall_forall. intros [n t] H. apply distinctb_ok. revert n t H.
  enough (E : forallb (fun x => distinctb (snd x)) library_types = true) by (rewrite forallb_forall in E; intros n t H; apply (E _ H)).
  vm_compute. reflexivity.
Qed.

(** Of the types of the library, all but two *)
Theorem readable_round_trip : forall name t, In (name, t) library_types -> name <> "CfgItfmAntennaSettings"%string -> name <> "CfgItfmConfig2"%string ->
  forall v, typed t v -> exists d, ser t v = Some d /\ de t d = Some v.
Proof.
  intros name t H N1 N2. apply derived_round_trip.
  - pose proof library_distinct as L. rewrite Forall_forall in L. apply (L _ H).
  - apply derivedb_ok. revert name t H N1 N2.
    enough (E : forallb (fun x => String.eqb (fst x) "CfgItfmAntennaSettings" || String.eqb (fst x) "CfgItfmConfig2" || derivedb (snd x)) library_types = true).
    { rewrite forallb_forall in E. intros n t H N1 N2. specialize (E _ H). cbn [fst snd] in E.
      apply orb_true_iff in E as [E|E]; [|exact E]. apply orb_true_iff in E as [E|E]; apply String.eqb_eq in E; contradiction. }
    vm_compute. reflexivity.
Qed.
Definition uart_8n1 : value := VStruct [v_name "Eight"; v_name "None"; v_name "One"].
Example round_trip_ex :
  (exists t, In ("UartMode"%string, t) library_types /\ typed t uart_8n1 /\
     ser t uart_8n1 = Some (DMap [("data_bits", DVariant "Eight"); ("parity", DVariant "None"); ("stop_bits", DVariant "One")]%string)) /\
  (exists t, In ("NavSatSvHealth"%string, t) library_types /\ typed t (VVariant "Unknown" (Some (VInt 3))) /\
     ser t (VVariant "Unknown" (Some (VInt 3))) = Some (DVariantOf "Unknown" (DNum U8 3))).
Proof.
  split; eexists; (split; [cbn; tauto|]); (split; [|reflexivity]).
  - constructor. repeat apply Forall2_cons; try apply Forall2_nil; cbn [snd]; unfold v_name; apply typed_unit; cbn; tauto.
  - apply (typed_content _ _ (TInt U8)); [cbn; tauto|]. constructor. cbn. lia.
Qed.

(** Different values have different serialized forms *)
Theorem readable_distinct : forall name t, In (name, t) library_types -> name <> "CfgItfmAntennaSettings"%string -> name <> "CfgItfmConfig2"%string ->
  forall v v' d, typed t v -> typed t v' -> ser t v = Some d -> ser t v' = Some d -> v = v'.
Proof.
  intros name t H N1 N2 v v' d T T' E E'.
  destruct (readable_round_trip name t H N1 N2 v T) as (d1 & E1 & R1). destruct (readable_round_trip name t H N1 N2 v' T') as (d2 & E2 & R2).
  congruence.
Qed.

(** An enum of [ubx_extend] with a derived [Deserialize] is serialized as a number and wants to be read by name: neither it nor a struct
    with it as a field can be read back, whatever the value *)
Theorem coded_refused :
  (forall cs v d, ser (TCoded cs) v = Some d -> de (TCoded cs) d = None) /\
  (forall fs n cs, NoDup (map fst fs) -> In (n, TCoded cs) fs -> forall v d, ser (TStruct fs) v = Some d -> de (TStruct fs) d = None).
Proof.
  split; [|exact coded_struct]. intros cs v d E. destruct (ser_coded _ _ _ E) as [c ->]. reflexivity.
Qed.
(** The two types of the library: what is serialized is refused when it is read *)
Theorem readable_round_trip_refuted : forall name t, In (name, t) library_types ->
  name = "CfgItfmAntennaSettings"%string \/ name = "CfgItfmConfig2"%string ->
  forall v, typed t v -> exists d, ser t v = Some d /\ de t d = None.
Proof.
  intros name t H N v T. assert (D : distinct t) by (pose proof library_distinct as L; rewrite Forall_forall in L; apply (L _ H)).
  destruct (ser_typed t D v T) as [d E]. exists d. split; [exact E|].
  assert (Ht : t = t_antenna \/ t = TStruct [("general", word); ("antenna", t_antenna); ("scan_aux_bands", TBool)]%string).
  { destruct N as [-> | ->]; cbn in H; repeat (destruct H as [H|H]; [try discriminate H; injection H as <-; auto|]); destruct H. }
  destruct Ht as [-> | ->]; [apply (proj1 coded_refused _ v _ E)|].
  apply (proj2 coded_refused _ "antenna"%string [("Unknown", 0); ("Active", 1); ("Passive", 2)]%string) with (v := v); [|cbn; tauto|exact E].
  inversion D; assumption.
Qed.
Example refuted_ex :
  exists t, In ("CfgItfmConfig2"%string, t) library_types /\ typed t (v_itfm2 (itfm_config2_new AntPassive true)) /\
    ser t (v_itfm2 (itfm_config2_new AntPassive true)) =
      Some (DMap [("general", DNum U32 798); ("antenna", DNum U8 2); ("scan_aux_bands", DBool true)]%string) /\
    (* written by name, it can be read *)
    de t (DMap [("general", DNum U32 798); ("antenna", DVariant "Passive"); ("scan_aux_bands", DBool true)]%string) =
      Some (v_itfm2 (itfm_config2_new AntPassive true)).
Proof.
  eexists. split; [cbn; tauto|]. split; [|split; reflexivity].
  constructor. repeat apply Forall2_cons; try apply Forall2_nil; cbn [snd].
  - constructor. constructor. cbn. lia.
  - apply (typed_coded _ _ 2). cbn. tauto.
  - constructor.
Qed.

(** ** What else is read *)

(** A struct is read from a map if and only if each of its fields is there exactly once, and can be read: the order and the other entries
    do not matter *)
Theorem struct_read : forall fs l vs, NoDup (map fst fs) ->
  de (TStruct fs) (DMap l) = Some (VStruct vs) <->
  Forall2 (fun f v => exists d, under (fst f) l = [d] /\ de (snd f) d = Some v) fs vs.
Proof. intros fs l vs ND. apply de_struct_map, ND. Qed.

Theorem struct_order : forall fs vs l extra l', distinct (TStruct fs) -> both_derived (TStruct fs) -> typed (TStruct fs) (VStruct vs) ->
  ser (TStruct fs) (VStruct vs) = Some (DMap l) -> (forall e, In e extra -> ~ In (fst e) (map fst fs)) -> Permutation (l ++ extra) l' ->
  de (TStruct fs) (DMap l') = Some (VStruct vs).
Proof.
  intros fs vs l extra l' D B T E X P. assert (ND : NoDup (map fst fs)) by (inversion D; assumption).
  pose proof (de_ser _ D B _ _ T E) as R. apply struct_read in R; [|exact ND]. apply struct_read; [exact ND|].
  apply (Forall2_imp _ _ _ _) with (2 := R). intros [n t] v I (d & U & Ed). exists d. split; [|exact Ed]. cbn [fst] in *.
  assert (U2 : under n (l ++ extra) = [d]).
  { rewrite under_app, U. replace (under n extra) with (@nil data); [reflexivity|]. symmetry.
    clear - X I. induction extra as [|[m e] extra IH]; [reflexivity|]. unfold under. cbn [filter fst]. destruct (String.eqb_spec m n) as [->|_].
    - exfalso. apply (X (n, e)); [left; reflexivity|]. apply in_map_iff. exists (n, t). split; [reflexivity|exact I].
    - apply IH. intros x Hx. apply X. right. exact Hx. }
  assert (P2 : Permutation (under n (l ++ extra)) (under n l')).
  { unfold under. apply Permutation_map. clear - P. induction P as [|x l1 l2 P IH|x y l1|l1 l2 l3 P1 IH1 P2 IH2]; cbn [filter].
    - constructor.
    - destruct (String.eqb (fst x) n); [constructor|]; assumption.
    - destruct (String.eqb (fst x) n), (String.eqb (fst y) n); try apply Permutation_refl. apply perm_swap.
    - apply (Permutation_trans IH1 IH2). }
  rewrite U2 in P2. apply Permutation_length_1_inv in P2. exact P2.
Qed.
Example struct_ex :
  let t := TStruct [("speed", f64); ("heading", f64)]%string in
  let x := S754_finite false 1 0 in let y := S754_zero true in
  de t (DMap [("heading", DFloat FTy64 y); ("unit", DStr []); ("speed", DFloat FTy64 x)]%string) = Some (VStruct [VReal x; VReal y]) /\
  de t (DMap [("heading", DFloat FTy64 y)]%string) = None /\
  de t (DMap [("speed", DFloat FTy64 x); ("heading", DFloat FTy64 y); ("speed", DFloat FTy64 x)]%string) = None /\
  de t (DSeq [DFloat FTy64 x; DFloat FTy64 y]) = Some (VStruct [VReal x; VReal y]).
Proof. vm_compute. repeat split; reflexivity. Qed.

(** Whatever is read is a value of the type: a number too large, an unknown variant, a missing or repeated field are errors *)
Theorem readable_typed : forall name t, In (name, t) library_types -> forall d v, de t d = Some v -> typed t v.
Proof. intros name t H d v E. pose proof library_distinct as L. rewrite Forall_forall in L. apply (de_typed t (L _ H) d v E). Qed.
Example readable_typed_ex :
  exists t, In ("NavSatSvHealth"%string, t) library_types /\ de t (DVariantOf "Unknown" (DNum U32 255)) = Some (VVariant "Unknown" (Some (VInt 255))) /\
    de t (DVariantOf "Unknown" (DNum U32 256)) = None /\ de t (DVariant "Sick") = None /\ de t (DNum U8 1) = None.
Proof. eexists. split; [cbn; tauto|]. repeat split; reflexivity. Qed.

(** ** The values of the model *)

(** [A] stands for the type [name] of the library: its values serialized as [form] are read back *)
Definition reads_back {A} (name : string) (val : A -> value) (ok : A -> Prop) (form : A -> data) : Prop :=
  (forall a a', val a = val a' -> a = a') /\
  exists t, In (name, t) library_types /\ forall a, ok a -> ser t (val a) = Some (form a) /\ de t (form a) = Some (val a).

Definition any {A} (a : A) : Prop := True.
Definition u32_words (c : itfm_config) : Prop := ic_bb_threshold c < 2 ^ 32 /\ ic_cw_threshold c < 2 ^ 32 /\ ic_algorithm_bits c < 2 ^ 32.
Definition quality_form (q : quality_indicator) : data :=
  DVariant match q with
           | NoSignal => "NoSignal" | Searching => "Searching" | SignalAcquired => "SignalAcquired" | SignalDetected => "SignalDetected"
           | CodeLock => "CodeLock" | CarrierLock => "CarrierLock"
           end.
Definition health_form (h : sv_health) : data :=
  match h with
  | Healthy => DVariant "Healthy" | Unhealthy => DVariant "Unhealthy" | UnknownHealth x => DVariantOf "Unknown" (DNum U8 (Z.of_N x))
  end.
Definition orbit_form (o : orbit_source_t) : data :=
  match o with
  | NoInfoAvailable => DVariant "NoInfoAvailable" | Ephemeris => DVariant "Ephemeris" | Almanac => DVariant "Almanac"
  | AssistNowOffline => DVariant "AssistNowOffline" | AssistNowAutonomous => DVariant "AssistNowAutonomous"
  | OtherSource x => DVariantOf "Other" (DNum U8 (Z.of_N x))
  end.
Definition position_form (p : position) : data :=
  DMap [("lon", DFloat FTy64 (pos_lon p)); ("lat", DFloat FTy64 (pos_lat p)); ("alt", DFloat FTy64 (pos_alt p))]%string.
Definition ecef_form (p : position_ecef) : data :=
  DMap [("x", DFloat FTy64 (ecef_x p)); ("y", DFloat FTy64 (ecef_y p)); ("z", DFloat FTy64 (ecef_z p))]%string.
Definition velocity_form (v : velocity) : data :=
  DMap [("speed", DFloat FTy64 (vel_speed v)); ("heading", DFloat FTy64 (vel_heading v))]%string.

(** The data of Data.v, which serialized packets contain (C75), are those of the derived [Serialize]: the mode of a UART and the first
    settings of CFG-ITFM can be read back as they are, so can the positions and velocities of types.rs and the answers about a satellite *)
Theorem values_read_back :
  reads_back "UartMode" v_mode any uart_mode_data /\
  reads_back "CfgItfmConfig" v_itfm u32_words itfm_config_data /\
  reads_back "Position" v_position any position_form /\
  reads_back "PositionECEF" v_ecef any ecef_form /\
  reads_back "Velocity" v_velocity any velocity_form /\
  reads_back "NavSatQualityIndicator" v_quality any quality_form /\
  reads_back "NavSatSvHealth" v_health (fun h => match h with UnknownHealth x => x < 256 | _ => True end) health_form /\
  reads_back "NavSatOrbitSource" v_orbit (fun o => match o with OtherSource x => x < 256 | _ => True end) orbit_form.
Proof.
  assert (W : forall n, n < 2 ^ 32 -> de word (DNum U32 (Z.of_N n)) = Some (v_word n)).
  { intros n H. cbn. rewrite (proj2 (Z.leb_le 0 (Z.of_N n))) by lia. rewrite (proj2 (Z.leb_le (Z.of_N n) 4294967295)) by lia. reflexivity. }
  assert (U : forall n, n < 256 -> de (TInt U8) (DNum U8 (Z.of_N n)) = Some (VInt (Z.of_N n))).
  { intros n H. cbn. rewrite (proj2 (Z.leb_le 0 (Z.of_N n))) by lia. rewrite (proj2 (Z.leb_le (Z.of_N n) 255)) by lia. reflexivity. }
  repeat apply conj.
  - intros [[] [] []] [[] [] []] H; first [reflexivity | discriminate H].
  - eexists. split; [cbn; tauto|]. intros [[] [] []] _; split; reflexivity.
  - intros [e b c a] [e' b' c' a'] H. unfold v_itfm, v_word in H. cbn in H. injection H as -> Hb Hc Ha.
    apply N2Z.inj in Hb as ->. apply N2Z.inj in Hc as ->. apply N2Z.inj in Ha as ->. reflexivity.
  - eexists. split; [cbn; tauto|]. intros [e b c a] (Hb & Hc & Ha). cbn [ic_bb_threshold ic_cw_threshold ic_algorithm_bits] in *. split; [reflexivity|].
    apply struct_read; [apply nodupb_ok; reflexivity|]. repeat apply Forall2_cons; try apply Forall2_nil; cbn [fst snd]; eexists; (split; [reflexivity|]).
    + reflexivity.
    + apply W, Hb.
    + apply W, Hc.
    + apply W, Ha.
  - intros [x y z] [x' y' z'] H. injection H as -> -> ->. reflexivity.
  - eexists. split; [cbn; tauto|]. intros [x y z] _; split; reflexivity.
  - intros [x y z] [x' y' z'] H. injection H as -> -> ->. reflexivity.
  - eexists. split; [cbn; tauto|]. intros [x y z] _; split; reflexivity.
  - intros [x y] [x' y'] H. injection H as -> ->. reflexivity.
  - eexists. split; [cbn; tauto|]. intros [x y] _; split; reflexivity.
  - intros [] [] H; first [reflexivity | discriminate H].
  - eexists. split; [cbn; tauto|]. intros [] _; split; reflexivity.
  - intros [ | |x] [ | |y] H; try first [reflexivity | discriminate H]. injection H as H. apply N2Z.inj in H as ->. reflexivity.
  - eexists. split; [cbn; tauto|]. intros [ | |x] H; [split; reflexivity|split; reflexivity|]. split; [reflexivity|].
    cbn [health_form v_health de map assoc String.eqb Ascii.eqb Bool.eqb]. cbv iota beta. 
    change (match de (TInt U8) (DNum U8 (Z.of_N x)) with Some v => Some (VVariant "Unknown" (Some v)) | None => None end = Some (VVariant "Unknown" (Some (VInt (Z.of_N x))))).
    rewrite (U x H). reflexivity.
  - intros [ | | | | |x] [ | | | | |y] H; try first [reflexivity | discriminate H]. injection H as H. apply N2Z.inj in H as ->. reflexivity.
  - eexists. split; [cbn; tauto|]. intros [ | | | | |x] H; try (split; reflexivity). split; [reflexivity|].
    change (match de (TInt U8) (DNum U8 (Z.of_N x)) with Some v => Some (VVariant "Other" (Some v)) | None => None end = Some (VVariant "Other" (Some (VInt (Z.of_N x))))).
    rewrite (U x H). reflexivity.
Qed.

(** The answers about a satellite, for every word of flags, are read back *)
Definition read_as (name : string) (form : data) (v : value) : Prop :=
  exists t, In (name, t) library_types /\ ser t v = Some form /\ de t form = Some v.
Theorem flags_read_back : forall w,
  (forall q, quality_ind w = Ret q -> read_as "NavSatQualityIndicator" (quality_form q) (v_quality q)) /\
  read_as "NavSatSvHealth" (health_form (health w)) (v_health (health w)) /\
  read_as "NavSatOrbitSource" (orbit_form (orbit_source w)) (v_orbit (orbit_source w)).
Proof.
  intros w. destruct values_read_back as (_ & _ & _ & _ & _ & (_ & tq & Iq & Q) & (_ & th & Ih & H) & (_ & to & Io & O)).
  assert (M : forall x, x mod 256 < 256) by (intros; apply N.mod_lt; discriminate).
  split; [|split].
  - intros q _. exists tq. split; [exact Iq|]. apply Q. exact Logic.I.
  - exists th. split; [exact Ih|]. apply H. unfold health.
    destruct (N.land (N.shiftr w 4) 3) as [|[p|p|]]; try exact Logic.I; try apply M. destruct p; try apply M. exact Logic.I.
  - exists to. split; [exact Io|]. apply O. unfold orbit_source.
    destruct (N.land (N.shiftr w 8) 7) as [|[[p|p|]|[p|p|]|]]; try exact Logic.I; try apply M; destruct p; try exact Logic.I; apply M.
Qed.

(** The second settings of CFG-ITFM, as a serialized packet contains them, cannot be read *)
Theorem itfm2_not_read_refuted :
  exists t, In ("CfgItfmConfig2"%string, t) library_types /\
  forall c, ser t (v_itfm2 c) = Some (itfm_config2_data c) /\ de t (itfm_config2_data c) = None.
Proof.
  eexists. split; [cbn; tauto|]. intros [g a s]. split; [destruct a; reflexivity|].
  assert (E : forall d, itfm_config2_data (mk_itfm_config2 g a s) = d -> de (TStruct [("general", word); ("antenna", t_antenna); ("scan_aux_bands", TBool)]%string) d = None); [|apply E; reflexivity].
  intros d <-. apply (proj2 coded_refused _ "antenna"%string [("Unknown", 0); ("Active", 1); ("Passive", 2)]%string) with (v := v_itfm2 (mk_itfm_config2 g a s)).
  - apply nodupb_ok. reflexivity.
  - cbn. tauto.
  - destruct a; reflexivity.
Qed.

Print Assumptions readable_declared.
Print Assumptions derived_round_trip.
Print Assumptions readable_round_trip.
Print Assumptions readable_distinct.
Print Assumptions coded_refused.
Print Assumptions readable_round_trip_refuted.
Print Assumptions struct_read.
Print Assumptions struct_order.
Print Assumptions readable_typed.
Print Assumptions values_read_back.
Print Assumptions flags_read_back.
Print Assumptions itfm2_not_read_refuted.
