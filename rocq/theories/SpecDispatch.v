(** * Specification: which packet a frame is delivered as *)
From Coq Require Import String List NArith ZArith Bool.
From Verif Require Import Base PackDesc Dispatch SpecPacket.
Import ListNotations.
Open Scope N_scope.

(** The packet type [p] is declared for this class and id, and accepts this payload *)
Definition fits (p : pack_desc) (class id : byte) (payload : list byte) : Prop :=
  p_class p = class /\ p_id p = id /\ accepts p payload.

(** What a frame is delivered as: the first type of the table that fits, otherwise [Unknown] with everything as
    it was on the wire *)
Inductive delivers (table : list pack_desc) (class id : byte) (payload : list byte) : packet_ref -> Prop :=
| delivers_known before p after :
    table = before ++ p :: after ->
    fits p class id payload ->
    Forall (fun q => ~ fits q class id payload) before ->
    delivers table class id payload (Known p payload)
| delivers_unknown :
    Forall (fun q => ~ fits q class id payload) table ->
    delivers table class id payload (Unknown payload class id).

(** The payload a delivered packet holds *)
Definition ref_payload (r : packet_ref) : list byte :=
  match r with Known _ payload => payload | Unknown payload _ _ => payload end.
