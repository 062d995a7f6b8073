(** * Specification: the layout of packet payloads

    Integers are little endian, in two's complement when signed; the fields follow each other without gaps. *)
From Coq Require Import String List NArith ZArith Bool.
From Verif Require Import Base DualBuffer PackDesc GenRecv GenSend SpecFrame.
Import ListNotations.
Open Scope N_scope.

(** Byte [i] of an integer [z] is [floor (z / 256^i) mod 256] *)
Definition int_bytes (size : N) (z : Z) : list byte :=
  map (fun i => n2b (Z.to_N ((z / 256 ^ Z.of_nat i) mod 256))) (seq 0 (N.to_nat size)).

(** The bytes of a raw value on the wire *)
Definition wire (t : raw_ty) : raw_val t -> list byte :=
  match t with
  | Scalar s => int_bytes (scalar_size s)
  | Bytes _ => fun l => l
  | Items => fun l => concat (map it_bytes l)
  end.

(** The number of bytes of a field; 0 for one without a fixed size *)
Definition field_size (f : field) : N := match f_size f with Some n => n | None => 0 end.

(** Where field number [k] starts: the sum of the sizes of the fields before it *)
Fixpoint offset_of (fs : list field) (k : nat) : N :=
  match k, fs with
  | S k', f :: fs' => field_size f + offset_of fs' k'
  | _, _ => 0
  end.

(** The bytes given to a builder, field by field: the wire image of what the conversion function of the
    field ([into_fn], if there is one) returns *)
Fixpoint wire_fields (fs : list field) : builder fs -> res (list (list byte)) :=
  match fs with
  | [] => fun _ => Ret []
  | f :: fs' => fun b =>
      let! r := to_raw f (fst b) in
      let! ws := wire_fields fs' (snd b) in
      Ret (wire (f_ty f) r :: ws)
  end.

(** The conversion functions return values of the raw type, as Rust's type checker guarantees *)
Definition field_typed (f : field) : Prop :=
  forall v r, fvalue_ok f v -> to_raw f v = Ret r -> raw_ok (f_ty f) r.
Definition desc_typed (p : pack_desc) : Prop := Forall field_typed (p_fields p).

(** [reads_back gs fs b payload]: the getters [gs] belong to the fields [fs], and on [payload] each returns
    the raw value (and from it the mapped value) that the builder [b] has for that field *)
Inductive reads_back (payload : list byte) : list getter -> forall fs, builder fs -> Prop :=
| rb_nil : reads_back payload [] [] tt
| rb_cons g gs fs v b r :
    to_raw (g_field g) v = Ret r ->
    g_raw g payload = Ret r ->
    g_val g payload = from_raw (g_field g) r ->
    reads_back payload gs fs b ->
    reads_back payload (g :: gs) (g_field g :: fs) (v, b).

(** The raw value of type [t] in the bytes [l] *)
Definition signed_of (bits : Z) (u : Z) : Z := ((u + 2 ^ (bits - 1)) mod 2 ^ bits - 2 ^ (bits - 1))%Z.
Fixpoint unsigned_of (l : list byte) : Z :=
  match l with [] => 0%Z | b :: l' => (Z.of_N (b2n b) + 256 * unsigned_of l')%Z end.
Definition decode (t : raw_ty) (l : list byte) : raw_val t :=
  match t as t0 return raw_val t0 with
  | Scalar s => if scalar_signed s then signed_of (8 * Z.of_N (scalar_size s)) (unsigned_of l) else unsigned_of l
  | Bytes _ => l
  | Items => []
  end.

(** The bytes of field [k] of a payload *)
Definition field_bytes_at (fs : list field) (k : nat) (f : field) (payload : list byte) : list byte :=
  match f_size f with
  | Some n => takeN n (dropN (offset_of fs k) payload)
  | None => dropN (offset_of fs k) payload
  end.

(** Layouts: fields with a fixed size; then nothing, or one last field which takes the rest, or fields whose
    sizes are computed from the payload *)
Definition is_sized (f : field) : bool :=
  match f_size f, f_size_fn f with Some _, None => true | _, _ => false end.
Definition is_rest (f : field) : bool :=
  match f_ty f, f_size_fn f with Bytes 0, None => true | _, _ => false end.
Definition is_counted (f : field) : bool :=
  match f_ty f, f_size_fn f with Bytes 0, Some _ => true | _, _ => false end.
Fixpoint layout_ok (fs : list field) : bool :=
  match fs with
  | [] => true
  | f :: fs' =>
      if is_sized f then layout_ok fs'
      else (is_rest f && match fs' with [] => true | _ => false end) || forallb is_counted fs
  end.

(** The length of the fixed part *)
Definition fixed_size (fs : list field) : N := fold_right (fun f n => field_size f + n) 0 fs.

(** The validity check of field [k] accepts (a field without a check is always accepted) *)
Definition field_accepts (fs : list field) (k : nat) (payload : list byte) : Prop :=
  forall f m v, nth_error fs k = Some f -> f_map f = Some m -> m_valid m = Some v ->
    v (decode (f_ty f) (field_bytes_at fs k f payload)) = Ret true.

(** ** Writers *)

(** Writing pieces one after the other until the writer fails *)
Fixpoint write_all {W E} (w : mem_writer W E) (pieces : list (list byte)) (out : W) : W * option (writer_error E) :=
  match pieces with
  | [] => (out, None)
  | s :: rest =>
      match w_write w s out with
      | (out', None) => write_all w rest out'
      | (out', Some e) => (out', Some e)
      end
  end.

(** A frame in the pieces it is written in: the six bytes of sync characters and header, the fields, the checksum *)
Definition packet_pieces (p : pack_desc) (ws : list (list byte)) : list (list byte) :=
  ([xb5; x62] ++ header (p_class p) (p_id p) (concat ws)) :: ws ++
  [fletcher (header (p_class p) (p_id p) (concat ws) ++ concat ws)].

(** A writer which only ever appends: what it has written ([contents]) is left alone by [reserve_allocate] and grows
    by a prefix of the data on [write], by all of the data when it reports success *)
Definition appends {W E} (w : mem_writer W E) (contents : W -> list byte) : Prop :=
  (forall n out out' r, w_reserve w n out = (out', r) -> contents out' = contents out) /\
  (forall buf out out' r, w_write w buf out = (out', r) ->
     exists written rest, buf = written ++ rest /\ contents out' = contents out ++ written /\
                          (r = None -> rest = [])).

(** Items say how many bytes they wrote *)
Definition items_honest (t : raw_ty) : raw_val t -> Prop :=
  match t with Items => fun l => Forall (fun x => it_ret x = lenN (it_bytes x)) l | _ => fun _ => True end.
Fixpoint builder_honest (fs : list field) : builder fs -> Prop :=
  match fs with
  | [] => fun _ => True
  | f :: fs' => fun b =>
      (forall r, to_raw f (fst b) = Ret r -> items_honest (f_ty f) r) /\ builder_honest fs' (snd b)
  end.

(** Fields with a size, and a last one which is a sequence of items *)
Definition send_layout (fs : list field) : Prop :=
  exists init last, fs = init ++ [last] /\ Forall (fun f => f_size f <> None) init /\ f_ty last = Items.

(** ** What a validator has to check *)

(** The sizes of the counted fields *)
Fixpoint counted_sizes (fs : list field) (payload : list byte) : res (list N) :=
  match fs with
  | [] => Ret []
  | f :: fs' =>
      match f_size_fn f with
      | Some g => let! n := g payload in let! ns := counted_sizes fs' payload in Ret (n :: ns)
      | None => counted_sizes fs' payload
      end
  end.
Definition sumN (l : list N) : N := fold_right N.add 0 l.

(** Without a variable part the length is exact; otherwise the fixed part and the counted fields must fit *)
Definition length_accepts (p : pack_desc) (payload : list byte) : Prop :=
  if forallb is_sized (p_fields p) then lenN payload = fixed_size (p_fields p)
  else fixed_size (p_fields p) <= lenN payload /\
       exists ns, counted_sizes (p_fields p) payload = Ret ns /\
                  fixed_size (p_fields p) + sumN ns <= lenN payload.

(** The packet accepts the payload *)
Definition accepts (p : pack_desc) (payload : list byte) : Prop :=
  length_accepts p payload /\ forall k, field_accepts (p_fields p) k payload.

(** The validity checks and size functions of a packet always return *)
Definition checks_total (p : pack_desc) : Prop :=
  (forall f m v r, In f (p_fields p) -> f_map f = Some m -> m_valid m = Some v -> raw_ok (f_ty f) r ->
     exists b, v r = Ret b) /\
  (forall f g payload, In f (p_fields p) -> f_size_fn f = Some g ->
     fixed_size (p_fields p) <= lenN payload -> exists n, g payload = Ret n /\ n <= 65535).

(** The conversion of a field returns for every value that passed its check.  (The check of a counted field
    sees all bytes up to the end of the payload, its conversion only its own, so nothing is assumed.) *)
Definition field_safe (f : field) : Prop :=
  forall m r, f_map f = Some m -> raw_ok (f_ty f) r ->
    (is_counted f = false -> forall v, m_valid m = Some v -> v r = Ret true) ->
    exists x, m_from m r = Ret x.

(** ** Where a getter reads *)

(** Field [k] of a payload lies in the bytes [start..stop] *)
Definition located (fs : list field) (k : nat) (f : field) (payload : list byte) (start stop : N) : Prop :=
  if is_sized f then start = offset_of fs k /\ stop = start + field_size f
  else if is_rest f then start = offset_of fs k /\ stop = lenN payload
  else exists ns, counted_sizes fs payload = Ret ns /\
         let i := length (filter is_counted (firstn k fs)) in
         start = fixed_size fs + sumN (firstn i ns) /\ stop = fixed_size fs + sumN (firstn (S i) ns).

(** The value of a getter: the conversion function, and the scale for a field of fixed size *)
Definition convert (f : field) : raw_val (f_ty f) -> res (fvalue f) :=
  match f_size f with Some _ => from_raw f | None => from_raw_unsized f end.

(** The value a builder has for field [k] *)
Fixpoint nth_value (fs : list field) : builder fs -> nat -> option {f : field & fvalue f} :=
  match fs with
  | [] => fun _ _ => None
  | f :: fs' => fun b k =>
      match k with
      | O => Some (existT _ f (fst b))
      | S k' => nth_value fs' (snd b) k'
      end
  end.
