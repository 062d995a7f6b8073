(** * The code generated by [define_recv_packets!]: [PacketRef] and [match_packet] *)
From Coq Require Import String List NArith ZArith Bool.
From Verif Require Import Base DualBuffer PackDesc GenRecv.
Import ListNotations.
Open Scope N_scope.

(** output.rs 758-763: the enum [PacketRef].  A variant [Name(NameRef(payload))] is the description of the
    packet with the payload; [Unknown(UbxUnknownPacketRef {payload, class, msg_id})]
    (ubx_packets.rs 88-92). *)
Inductive packet_ref : Type :=
| Known (p : pack_desc) (payload : list byte)
| Unknown (payload : list byte) (class msg_id : byte).

(** output.rs 765-773: [class_and_msg_id] *)
Definition class_and_msg_id (r : packet_ref) : byte * byte :=
  match r with
  | Known p _ => (p_class p, p_id p)
  | Unknown _ class msg_id => (class, msg_id)
  end.

(** output.rs 729-733, 775-784: [match_packet].  The arms [(CLASS, ID) if validate(payload).is_ok()] are tried
    in the order of the table. *)
Fixpoint match_packet (table : list pack_desc) (class msg_id : byte) (payload : list byte)
  : res (result packet_ref) :=
  match table with
  | [] => Ret (Ok (Unknown payload class msg_id))
  | p :: table' =>
      if byte_eqb class (p_class p) && byte_eqb msg_id (p_id p) then
        let! r := validate p payload in
        match r with
        | Ok _ => Ret (Ok (Known p payload))
        | Err _ => match_packet table' class msg_id payload
        end
      else match_packet table' class msg_id payload
  end.

(** output.rs 283-286: the constant [MAX_PAYLOAD_LEN] of a packet *)
Definition max_payload_len (p : pack_desc) : N :=
  match p_len p with Fixed x => x | Max x => x end.

(** output.rs 786-788 *)
Definition max_u16 (a b : N) : N := if a <? b then b else a.

(** output.rs 751-756, 789: the constant [MAX_PAYLOAD_LEN] of the parser *)
Definition parser_max_payload_len (table : list pack_desc) : N :=
  fold_left (fun prev p => max_u16 (max_payload_len p) prev) table 0.
