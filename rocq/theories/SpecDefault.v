(** * Specification: what a builder sends in the fields which are not set *)
From Coq Require Import String List NArith ZArith Bool.
From Verif Require Import Base PackDesc GenSend SpecPacket TablePackets.
Import ListNotations.
Open Scope N_scope.
Open Scope list_scope.

Definition zeros (n : N) : list byte := repeat x00 (N.to_nat n).

(** The packets whose builder has a default, each with the payload of the default: zeros, except for the port number 4 in
    CFG-PRT for SPI and, in CFG-NAV5, the dynamic model 8 (airborne, up to 4 g) and the fix mode 3 (automatic) behind the empty
    mask. *)
Definition default_payloads : list (pack_desc * list byte) :=
  [(p_cfg_odo, zeros 20);
   (p_cfg_inf, zeros 10);
   (p_aid_ini, zeros 48);
   (p_cfg_tp5, zeros 32);
   (p_cfg_tmode2, zeros 28);
   (p_cfg_tmode3, zeros 40);
   (p_cfg_prt_i2c, zeros 20);
   (p_cfg_prt_spi, [x04] ++ zeros 19);
   (p_cfg_nav5, [x00; x00; x08; x03] ++ zeros 32);
   (p_cfg_nav_x5, zeros 40)].

(** [b] was made as [XBuilder { ..., ..b0 }] with field [k] not named: it has the value of [b0] *)
Definition not_set (fs : list field) (b0 b : builder fs) (k : nat) : Prop := nth_value fs b k = nth_value fs b0 k.
