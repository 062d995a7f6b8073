(** * The sending code generated for a packet: builders *)
From Coq Require Import String List NArith ZArith Bool.
From Verif Require Import Base Checksum DualBuffer Parser PackDesc.
Import ListNotations.
Open Scope N_scope.

(** output.rs 313-321, 400-407: the struct [<Name>Builder], one public field per packet field *)
Fixpoint builder (fs : list field) : Type :=
  match fs with
  | [] => unit
  | f :: fs' => (fvalue f * builder fs')%type
  end.

(** The values of the builder type: each component is a value of the Rust type of the field *)
Fixpoint builder_ok (fs : list field) : builder fs -> Prop :=
  match fs with
  | [] => fun _ => True
  | f :: fs' => fun b => fvalue_ok f (fst b) /\ builder_ok fs' (snd b)
  end.

(** [arr[i] = v] *)
Definition set_at (l : list byte) (i : N) (v : byte) : res (list byte) :=
  if i <? lenN l then Ret (takeN i l ++ v :: dropN (i + 1) l) else Panic.

(** The raw value of a builder field: output.rs 342-345 [into_fn(self.name)], otherwise the field itself *)
Definition to_raw (f : field) : fvalue f -> res (raw_val (f_ty f)) :=
  match f_map f as o
    return match o with Some m => m_ty m | None => raw_val (f_ty f) end -> res (raw_val (f_ty f))
  with
  | Some m => m_into m
  | None => fun v => Ret v
  end.

(** [let bytes = ...], output.rs 342-354: [to_le_bytes()] of a scalar, the array itself otherwise.
    (A mapped byte array would not compile: the model returns its bytes.) *)
Definition raw_bytes (t : raw_ty) : raw_val t -> list byte :=
  match t with
  | Scalar s => to_le_bytes s
  | Bytes _ => fun l => l
  | Items => fun _ => []
  end.
Definition field_bytes (f : field) (v : fvalue f) : res (list byte) :=
  let! r := to_raw f v in Ret (raw_bytes (f_ty f) r).

(** [ret[off + i] = bytes[i]] for [i] in [i0 .. i0 + n], output.rs 372-377 *)
Fixpoint copy_bytes (ret : list byte) (off i0 : N) (bytes : list byte) (n : nat) : res (list byte) :=
  match n with
  | O => Ret ret
  | S n' =>
      let! b := get bytes i0 in
      let! ret' := set_at ret (off + i0) b in
      copy_bytes ret' off (i0 + 1) bytes n'
  end.

(** output.rs 312-380: [pack_fields]; [off] starts at 6 *)
Fixpoint pack_fields (fs : list field) (off : N) : builder fs -> list byte -> res (list byte) :=
  match fs with
  | [] => fun _ ret => Ret ret
  | f :: fs' => fun b ret =>
      match f_size f with
      | None => Ret ret                                    (* 324-340: break *)
      | Some size =>
          let! bytes := field_bytes f (fst b) in
          let! ret' := copy_bytes ret off 0 bytes (N.to_nat size) in
          pack_fields fs' (off + size) (snd b) ret'
      end
  end.

(** output.rs 410-411: [packet_size] and, as constant of the generated code, [PACKET_LEN] *)
Definition packet_len (p : pack_desc) : N :=
  match packet_payload_size p with Some n => n + 8 | None => 0 end.

(** [n.to_le_bytes()] of an [u16] constant *)
Definition u16_bytes (n : N) : list byte := le_bytes 2 n.

(** output.rs 416-431: [into_packet_bytes]; also the body of [From<Builder>] (433-437) *)
Definition into_packet_bytes (p : pack_desc) (b : builder (p_fields p)) : res (list byte) :=
  match packet_payload_size p with
  | None => Panic                                           (* not generated *)
  | Some size =>
      let n := packet_len p in
      let ret := repeat x00 (N.to_nat n) in
      let! ret := set_at ret 0 SYNC_CHAR_1 in
      let! ret := set_at ret 1 SYNC_CHAR_2 in
      let! ret := set_at ret 2 (p_class p) in
      let! ret := set_at ret 3 (p_id p) in
      let pack_len_bytes := u16_bytes size in
      let! l0 := get pack_len_bytes 0 in
      let! ret := set_at ret 4 l0 in
      let! l1 := get pack_len_bytes 1 in
      let! ret := set_at ret 5 l1 in
      let! ret := pack_fields (p_fields p) 6 b ret in
      let! stop := usub n 2 in
      let! body := slice ret 2 stop in
      let (ck_a, ck_b) := ubx_checksum body in
      let! i := usub n 2 in
      let! ret := set_at ret i ck_a in
      let! j := usub n 1 in
      set_at ret j ck_b
  end.

(** ** [create_packet] *)

(** error.rs 4-7 *)
Inductive writer_error (E : Type) := NotEnoughMem | Custom (e : E).
Arguments NotEnoughMem {E}. Arguments Custom {E} e.

(** ubx_packets.rs 55-60: the trait [MemWriter].  [None] is [Ok(())]; the [&mut self] is returned. *)
Record mem_writer (W E : Type) := mk_writer {
  w_reserve : N -> W -> W * option (writer_error E);
  w_write : list byte -> W -> W * option (writer_error E);
}.
Arguments w_reserve {W E}. Arguments w_write {W E}. Arguments mk_writer {W E}.

(** ubx_packets.rs 62-78: [impl MemWriter for Vec<u8>].  [Write::write] of a [Vec] appends all bytes and
    returns their number. *)
Definition vec_write_all (buf : list byte) (v : list byte) : list byte * N := (v ++ buf, lenN buf).
Definition vec_writer (E : Type) : mem_writer (list byte) E :=
  mk_writer
    (fun _ v => (v, None))
    (fun buf v => let (v', ret) := vec_write_all buf v in
                  (v', if ret =? lenN buf then None else Some NotEnoughMem)).

Section Create.
  Context {W E : Type} (w : mem_writer W E).

  (** output.rs 356-360 [write_fields]: [out.write(&bytes)?; checksum_calc.update(&bytes)] for each field *)
  Fixpoint write_fields (fs : list field) : builder fs -> W -> cksum_state
      -> res (W * cksum_state * option (writer_error E)) :=
    match fs with
    | [] => fun _ out ck => Ret (out, ck, None)
    | f :: fs' => fun b out ck =>
        match f_size f with
        | None => Ret (out, ck, None)
        | Some _ =>
            let! bytes := field_bytes f (fst b) in
            match w_write w bytes out with
            | (out', Some e) => Ret (out', ck, Some e)
            | (out', None) => write_fields fs' (snd b) out' (cksum_update ck bytes)
            end
        end
    end.

  (** output.rs 439-453: [create_packet] *)
  Definition create_packet (p : pack_desc) (b : builder (p_fields p)) (out : W)
    : res (W * option (writer_error E)) :=
    match packet_payload_size p with
    | None => Panic                                         (* not generated *)
    | Some size =>
        match w_reserve w (packet_len p) out with
        | (out, Some e) => Ret (out, Some e)
        | (out, None) =>
            let len_bytes := u16_bytes size in
            let! l0 := get len_bytes 0 in
            let! l1 := get len_bytes 1 in
            let header := [SYNC_CHAR_1; SYNC_CHAR_2; p_class p; p_id p; l0; l1] in
            match w_write w header out with
            | (out, Some e) => Ret (out, Some e)
            | (out, None) =>
                let! h := slice_from header 2 in
                let! (out, ck, r) := write_fields (p_fields p) b out (cksum_update cksum_new h) in
                match r with
                | Some e => Ret (out, Some e)
                | None =>
                    let (ck_a, ck_b) := cksum_result ck in
                    match w_write w [ck_a; ck_b] out with
                    | (out, Some e) => Ret (out, Some e)
                    | (out, None) => Ret (out, None)
                    end
                end
            end
        end
    end.
End Create.

(** ** Packets with a variable part *)

(** [for f in self.name { len_bytes += f.extend_to(out); }], output.rs 327-330 *)
Fixpoint extend_items (l : list item) (len_bytes : N) (out : list byte) : res (N * list byte) :=
  match l with
  | [] => Ret (len_bytes, out)
  | x :: l' =>
      let! n := uadd len_bytes (it_ret x) in
      extend_items l' n (out ++ it_bytes x)
  end.

Definition items_of (t : raw_ty) : raw_val t -> list item :=
  match t with Items => fun l => l | _ => fun _ => [] end.

(** output.rs 324-340, 362-370 [extend_fields] *)
Fixpoint extend_fields (fs : list field) : builder fs -> N -> list byte -> res (N * list byte) :=
  match fs with
  | [] => fun _ len_bytes out => Ret (len_bytes, out)
  | f :: fs' => fun b len_bytes out =>
      match f_size f with
      | None => let! v := to_raw f (fst b) in extend_items (items_of (f_ty f) v) len_bytes out
      | Some _ =>
          let! bytes := field_bytes f (fst b) in
          let! n := uadd len_bytes (lenN bytes) in
          extend_fields fs' (snd b) n (out ++ bytes)
      end
  end.

(** output.rs 466-490: [extend_to].  [out] is a growable byte vector; pushing byte by byte is [++]. *)
Definition extend_to (p : pack_desc) (b : builder (p_fields p)) (out : list byte) : res (list byte) :=
  match packet_payload_size p with
  | Some _ => Panic                                         (* not generated *)
  | None =>
      let header := [SYNC_CHAR_1; SYNC_CHAR_2; p_class p; p_id p; x00; x00] in
      let! (len_bytes, out) := extend_fields (p_fields p) b 0 (out ++ header) in
      let len_bytes := le_bytes 8 len_bytes in
      let! l0 := get len_bytes 0 in
      let! out := set_at out 4 l0 in
      let! l1 := get len_bytes 1 in
      let! out := set_at out 5 l1 in
      let! body := slice_from out 2 in
      let (ck_a, ck_b) := ubx_checksum body in
      Ret ((out ++ [ck_a]) ++ [ck_b])
  end.

(** output.rs 458-464: [into_packet_vec] *)
Definition into_packet_vec (p : pack_desc) (b : builder (p_fields p)) : res (list byte) :=
  extend_to p b [].

(** ** Poll requests *)

(** ubx_packets.rs 95-98: [struct UbxPacketRequest] *)
Record packet_request := mk_request { req_class : byte; req_id : byte }.

(** ubx_packets.rs 103-109: [request_for::<T>()], with [T] given by its description *)
Definition request_for (p : pack_desc) : packet_request := mk_request (p_class p) (p_id p).
(** ubx_packets.rs 110-113 *)
Definition request_for_unknown (class id : byte) : packet_request := mk_request class id.

(** ubx_packets.rs 115-131: [into_packet_bytes] *)
Definition request_bytes (r : packet_request) : res (list byte) :=
  let ret := [SYNC_CHAR_1; SYNC_CHAR_2; req_class r; req_id r; x00; x00; x00; x00] in
  let! body := slice ret 2 6 in
  let (ck_a, ck_b) := ubx_checksum body in
  let! ret := set_at ret 6 ck_a in
  set_at ret 7 ck_b.
