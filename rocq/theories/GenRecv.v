(** * The receiving code generated for a packet: getters and [validate] *)
From Coq Require Import String List NArith ZArith Bool.
From Verif Require Import Base DualBuffer PackDesc.
Import ListNotations.
Open Scope N_scope.

(** [[data[off], data[off+1], ..., data[off+n-1]]], output.rs 832-836 *)
Fixpoint read_bytes (data : list byte) (off : N) (n : nat) : res (list byte) :=
  match n with
  | O => Ret []
  | S n' => let! b := get data off in let! l := read_bytes data (off + 1) n' in Ret (b :: l)
  end.

(** output.rs 826-851: [get_raw_field_code].  (The attribute [get_as_ref] is modelled for byte arrays
    only; for a scalar the field type would no longer be the type of the value.) *)
Definition get_raw_field (t : raw_ty) (get_as_ref : bool) (cur_off : N) (data : list byte)
  : res (raw_val t) :=
  match t as t0 return res (raw_val t0) with
  | Items => Panic                                                   (* 829: unimplemented!() *)
  | Bytes n =>
      if get_as_ref then slice data cur_off (cur_off + n)            (* 841-843 *)
      else read_bytes data cur_off (N.to_nat n)                      (* 844-845 *)
  | Scalar s =>
      match s with
      | U8 => let! b := get data cur_off in Ret (Z.of_N (b2n b))     (* 849 *)
      | _ => let! l := read_bytes data cur_off (N.to_nat (scalar_size s)) in
             Ret (from_le_bytes s l)                                 (* 846-847 *)
      end
  end.

(** The part of a getter after the raw value has been read: output.rs 126-129 [let val = from_fn(val)],
    132-134 [let val = val * scale]; without a [map_type] the raw value is the result. *)
Definition from_raw (f : field) : raw_val (f_ty f) -> res (fvalue f) :=
  match f_map f as o
    return raw_val (f_ty f) -> res (match o with Some m => m_ty m | None => raw_val (f_ty f) end)
  with
  | Some m => fun v =>
      let! x := m_from m v in
      Ret (match m_scale m with Some g => g x | None => x end)
  | None => fun v => Ret v
  end.

(** The same for a field without a size: output.rs 161-168 (no scale) *)
Definition from_raw_unsized (f : field) : raw_val (f_ty f) -> res (fvalue f) :=
  match f_map f as o
    return raw_val (f_ty f) -> res (match o with Some m => m_ty m | None => raw_val (f_ty f) end)
  with
  | Some m => m_from m
  | None => fun v => Ret v
  end.

(** The slice of an unsized field as a value of the field's type ([[u8; 0]]) *)
Definition slice_val (t : raw_ty) (l : list byte) : res (raw_val t) :=
  match t as t0 return res (raw_val t0) with
  | Bytes _ => Ret l
  | _ => Panic
  end.

(** [off + self.f1() + self.f2() + ...], output.rs 151-152 *)
Fixpoint add_size_fns (off : N) (fns : list (list byte -> res N)) (data : list byte) : res N :=
  match fns with
  | [] => Ret off
  | g :: fns' => let! n := g data in let! off' := uadd off n in add_size_fns off' fns' data
  end.

(** output.rs 147-159: the range of an unsized field; [fns] are the size functions of earlier unsized
    fields *)
Definition unsized_slice (f : field) (off : N) (fns : list (list byte -> res N)) (data : list byte)
  : res (list byte) :=
  match f_size_fn f with
  | Some size_fn =>
      let! offset := add_size_fns off fns data in
      let! n := size_fn data in
      let! stop := uadd offset n in
      slice data offset stop
  | None => slice_from data off
  end.

(** A generated pair of getters: [name_raw()] (generated when there is a [map_type]) and [name()] *)
Record getter := mk_getter {
  g_field : field;
  g_raw : list byte -> res (raw_val (f_ty g_field));
  g_val : list byte -> res (fvalue g_field);
}.

(** output.rs 85-196: the loop which generates the getters; [off] is the running offset, [fns] the
    vector [size_fns] *)
Fixpoint gen_getters (off : N) (fns : list (list byte -> res N)) (fs : list field) : list getter :=
  match fs with
  | [] => []
  | f :: fs' =>
      match f_size f with
      | Some size =>
          let raw := get_raw_field (f_ty f) (f_get_as_ref f) off in
          mk_getter f raw (fun data => let! v := raw data in from_raw f v)
          :: gen_getters (off + size) fns fs'
      | None =>
          let raw data := let! l := unsized_slice f off fns data in slice_val (f_ty f) l in
          mk_getter f raw (fun data => let! v := raw data in from_raw_unsized f v)
          :: gen_getters off (match f_size_fn f with Some g => fns ++ [g] | None => fns end) fs'
      end
  end.

Definition getters (p : pack_desc) : list getter := gen_getters 0 [] (p_fields p).

(** Rust's method lookup: the getter with this name *)
Definition no_getter : getter :=
  mk_getter (mk_field "" None (Bytes 0) None false None) (fun _ => Panic) (fun _ => Panic).
Definition the_getter (p : pack_desc) (name : string) : getter :=
  match find (fun g => String.eqb (accessor (g_field g)) name) (getters p) with Some g => g | None => no_getter end.

(** ** [validate] *)

(** The validator of one field, output.rs 114-125 (sized) and 170-180 (unsized: note the range
    [off..]) *)
Definition field_validator (pname : string) (f : field) (off : N) (payload : list byte)
  : res (result unit) :=
  match f_map f with
  | None => Ret (Ok tt)
  | Some m =>
      match m_valid m with
      | None => Ret (Ok tt)
      | Some is_valid =>
          let! v := match f_size f with
                    | Some _ => get_raw_field (f_ty f) (f_get_as_ref f) off payload
                    | None => let! l := slice_from payload off in slice_val (f_ty f) l
                    end in
          let! ok := is_valid v in
          if negb ok then Ret (Err (InvalidField pname (accessor f))) else Ret (Ok tt)
      end
  end.

(** [#(#field_validators)*] followed by [Ok(())] *)
Fixpoint run_validators (pname : string) (off : N) (fs : list field) (payload : list byte)
  : res (result unit) :=
  match fs with
  | [] => Ret (Ok tt)
  | f :: fs' =>
      let! r := field_validator pname f off payload in
      match r with
      | Err e => Ret (Err e)
      | Ok _ =>
          run_validators pname (match f_size f with Some n => off + n | None => off end) fs' payload
      end
  end.

(** output.rs 212-216 *)
Definition all_size_fns (p : pack_desc) : list (list byte -> res N) :=
  concat (map (fun f => match f_size_fn f with Some g => [g] | None => [] end) (p_fields p)).

(** output.rs 198-251: [validate].  [got] is [payload.len()]. *)
Definition validate (p : pack_desc) (payload : list byte) : res (result unit) :=
  let got := lenN payload in
  match packet_payload_size p with
  | Some expect =>                                                    (* 199-210 *)
      if got =? expect then run_validators (p_name p) 0 (p_fields p) payload
      else Ret (Err (InvalidPacketLen (p_name p) expect got))
  | None =>                                                           (* 211-250 *)
      let finish min :=
        if min <=? got then run_validators (p_name p) 0 (p_fields p) payload
        else Ret (Err (InvalidPacketLen (p_name p) min got)) in
      match all_size_fns p with
      | [] =>                                                         (* 218-224 *)
          match packet_payload_size_except_last_field p with
          | Some size => finish size
          | None => Panic                                             (* the macro itself fails *)
          end
      | fns =>                                                        (* 225-237 *)
          let size := match packet_payload_size_except_size_fn p with Some n => n | None => 0 end in
          if got <? size then Ret (Err (InvalidPacketLen (p_name p) size got))
          else let! min := add_size_fns size fns payload in finish min
      end
  end.
