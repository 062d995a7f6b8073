(** * The two-buffer view used by the parser's iterator *)
From Coq Require Import String List NArith Bool.
From Verif Require Import Base Buffers.
Import ListNotations.
Open Scope N_scope.

(** error.rs 23-41: [enum ParserError] *)
Inductive parser_error : Type :=
| InvalidChecksum (expect got : N)
| InvalidField (packet field : string)
| InvalidPacketLen (packet : string) (expect got : N)
| OutOfMemory (required_size : N).

(** Rust's [Result<A, ParserError>] *)
Inductive result (A : Type) : Type :=
| Ok (a : A)
| Err (e : parser_error).
Arguments Ok {A} a.
Arguments Err {A} e.

Section Dual.
  Context {T : Type} (ops : buf_ops T).

  (** parser.rs 208-214: [struct DualBuffer] *)
  Record dual := mk_dual { d_buf : T; d_off : N; d_new : list byte; d_noff : N }.

  (** parser.rs 219-225: [Index<usize>] *)
  Definition d_index (d : dual) (index : N) : res byte :=
    let! p := uadd (d_off d) index in
    if p <? b_len ops (d_buf d) then
      let! q := uadd index (d_off d) in
      b_index ops (d_buf d) q
    else
      let! a := uadd (d_noff d) index in
      let! b := usub (b_len ops (d_buf d)) (d_off d) in
      let! c := usub a b in
      get (d_new d) c.

  (** parser.rs 229-236: [DualBuffer::new] *)
  Definition d_create (buf : T) (new_buf : list byte) : dual := mk_dual buf 0 new_buf 0.

  (** parser.rs 244-250: [drain] *)
  Definition d_drain (d : dual) (count : N) : res dual :=
    let! avail := usub (b_len ops (d_buf d)) (d_off d) in
    let underlying_bytes := N.min avail count in
    let new_bytes := sat_sub count underlying_bytes in
    let! off := uadd (d_off d) underlying_bytes in
    let! noff := uadd (d_noff d) new_bytes in
    Ret (mk_dual (d_buf d) off (d_new d) noff).

  (** parser.rs 255-257: [len] (the operators associate to the left) *)
  Definition d_len (d : dual) : res N :=
    let! a := usub (b_len ops (d_buf d)) (d_off d) in
    let! b := uadd a (lenN (d_new d)) in
    usub b (d_noff d).

  (** parser.rs 239-241: [clear] *)
  Definition d_clear (d : dual) : res dual :=
    let! n := d_len d in
    d_drain d n.

  (** parser.rs 261-267: [potential_lost_bytes] *)
  Definition d_potential_lost (d : dual) : res N :=
    let! n := d_len d in
    if n <=? b_max_cap ops (d_buf d) then Ret 0
    else usub n (b_max_cap ops (d_buf d)).

  (** parser.rs 269-300: [can_drain_and_take] *)
  Definition d_can_drain_and_take (d : dual) (drain take : N) : res bool :=
    let! avail := usub (b_len ops (d_buf d)) (d_off d) in
    let underlying_bytes := N.min avail drain in
    let new_bytes := sat_sub drain underlying_bytes in
    let! drained_off := uadd (d_off d) underlying_bytes in
    let! drained_new_off := uadd (d_noff d) new_bytes in
    let! a := usub (b_len ops (d_buf d)) drained_off in
    let! b := uadd a (lenN (d_new d)) in
    let! remaining := usub b drained_new_off in
    if remaining <? take then Ret false
    else
      let underlying_bytes := N.min a take in
      let new_bytes := sat_sub take underlying_bytes in
      if underlying_bytes =? 0 then Ret true
      else if new_bytes =? 0 then Ret true
      else
        let! room := usub (b_max_cap ops (d_buf d)) a in
        if room <? new_bytes then Ret false else Ret true.

  (** parser.rs 302-316: [peek_raw(start..stop)] *)
  Definition d_peek_raw (d : dual) (start stop : N) : res (list byte * list byte) :=
    let! split := usub (b_len ops (d_buf d)) (d_off d) in
    let! a :=
      (if split <=? start then Ret []
       else
         let! s := uadd start (d_off d) in
         let! e := uadd stop (d_off d) in
         b_range ops (d_buf d) s (N.min (b_len ops (d_buf d)) e)) in
    let! b :=
      (if stop <=? split then Ret []
       else
         let! s := uadd (d_noff d) (sat_sub start split) in
         let! e0 := usub stop split in
         let! e := uadd e0 (d_noff d) in
         slice (d_new d) s e) in
    Ret (a, b).

  (** parser.rs 321-375: [take].  The returned slice is returned as a list together with
      the new state. *)
  Definition d_take (d : dual) (count : N) : res (result (list byte) * dual) :=
    let! avail := usub (b_len ops (d_buf d)) (d_off d) in
    let underlying_bytes := N.min avail count in
    let new_bytes := sat_sub count underlying_bytes in
    let! new_avail := usub (lenN (d_new d)) (d_noff d) in
    if new_avail <? new_bytes then Panic                              (* 325-333 *)
    else if underlying_bytes =? 0 then                                 (* 335-340 *)
      let offset := d_noff d in
      let! noff := uadd (d_noff d) count in
      let! stop := uadd offset count in
      let! s := slice (d_new d) offset stop in
      Ret (Ok s, mk_dual (d_buf d) (d_off d) (d_new d) noff)
    else if new_bytes =? 0 then                                        (* 342-347 *)
      let offset := d_off d in
      let! off := uadd (d_off d) count in
      let! stop := uadd offset count in
      let! s := b_range ops (d_buf d) offset stop in
      Ret (Ok s, mk_dual (d_buf d) off (d_new d) (d_noff d))
    else if b_max_cap ops (d_buf d) <? count then                        (* 349-354 *)
      Ret (Err (OutOfMemory count), d)
    else
      let! room := usub (b_max_cap ops (d_buf d)) (b_len ops (d_buf d)) in
      if new_bytes <? room then                                        (* 356-365 *)
        let! tail := slice_from (d_new d) (d_noff d) in
        let! (buf', bytes_not_moved) := b_extend ops (d_buf d) tail in
        let! x := usub (lenN (d_new d)) (d_noff d) in
        let! moved := usub x bytes_not_moved in
        let! noff := uadd (d_noff d) moved in
        let off0 := d_off d in
        let! off := uadd (d_off d) count in
        let! stop := uadd off0 count in
        let! s := b_range ops buf' off0 stop in
        Ret (Ok s, mk_dual buf' off (d_new d) noff)
      else                                                             (* 367-374 *)
        let! buf1 := b_drain ops (d_buf d) (d_off d) in
        let! stop := uadd (d_noff d) new_bytes in
        let! part := slice (d_new d) (d_noff d) stop in
        let! (buf2, _) := b_extend ops buf1 part in
        let! noff := uadd (d_noff d) new_bytes in
        let! off := uadd 0 count in
        let! s := b_range ops buf2 0 count in
        Ret (Ok s, mk_dual buf2 off (d_new d) noff).

  (** parser.rs 378-384: [Drop].  Returns the underlying buffer given back to the parser. *)
  Definition d_drop (d : dual) : res T :=
    let! buf1 := b_drain ops (d_buf d) (d_off d) in
    let! tail := slice_from (d_new d) (d_noff d) in
    let! (buf2, _) := b_extend ops buf1 tail in
    Ret buf2.
End Dual.
Arguments mk_dual {T}.
Arguments d_buf {T}.
Arguments d_off {T}.
Arguments d_new {T}.
Arguments d_noff {T}.
