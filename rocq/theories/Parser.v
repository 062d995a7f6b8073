(** * The streaming parser *)
From Coq Require Import List NArith Bool.
From Verif Require Import Base Checksum Buffers DualBuffer.
Import ListNotations.
Open Scope N_scope.

(** ubx_packets.rs 17-18 *)
Definition SYNC_CHAR_1 : byte := xb5.
Definition SYNC_CHAR_2 : byte := x62.

(** [u16::from_le_bytes([lo, hi])] *)
Definition u16_from_le (lo hi : byte) : N := le_num [lo; hi].

Section Parser.
  Context {T : Type} (ops : buf_ops T).
  (** The packet type and the generated functions/constants the parser uses (parser.rs 6):
      [match_packet(class, id, payload)] and [MAX_PAYLOAD_LEN].  Both are modelled in Dispatch.v. *)
  Context {P : Type} (match_packet : byte -> byte -> list byte -> res (result P)) (max_payload_len : N).

  (** parser.rs 183-185 *)
  Definition is_buffer_empty (buf : T) : bool := b_is_empty ops buf.
  (** parser.rs 187-189 *)
  Definition buffer_len (buf : T) : N := b_len ops buf.

  (** parser.rs 420-422: [find_sync]; the same search is written as a loop in 194-199 *)
  Definition find_sync (d : dual (T:=T)) : res (option N) :=
    let! n := d_len ops d in
    find_range (fun i => let! x := d_index ops d i in Ret (byte_eqb x SYNC_CHAR_1)) 0 (N.to_nat n).

  (** parser.rs 191-202: [consume].  A parser is its buffer, an iterator is its [dual]. *)
  Definition consume (buf : T) (new_data : list byte) : res (dual (T:=T)) :=
    let d := d_create buf new_data in
    let! p := find_sync d in
    match p with
    | Some i => d_drain ops d i
    | None => Ret d
    end.

  (** parser.rs 424-463: [extract_packet] *)
  Definition extract_packet (d : dual (T:=T)) (pack_len : N)
    : res (option (result P) * dual (T:=T)) :=
    let! need := uadd pack_len 2 in
    let! can := d_can_drain_and_take ops d 6 need in
    if negb can then
      let! lost := d_potential_lost ops d in
      if 0 <? lost then
        let! d' := d_drain ops d 2 in
        let! req := uadd pack_len 2 in
        Ret (Some (Err (OutOfMemory req)), d')
      else Ret (None, d)
    else
      let! e0 := uadd 4 pack_len in
      let! e := uadd e0 2 in
      let! (a, b) := d_peek_raw ops d 2 e in
      let (ck_a, ck_b) := cksum_result (cksum_update (cksum_update cksum_new a) b) in
      let! i0 := uadd 6 pack_len in
      let! expect_ck_a := d_index ops d i0 in
      let! i1 := uadd i0 1 in
      let! expect_ck_b := d_index ops d i1 in
      if negb (byte_eqb ck_a expect_ck_a && byte_eqb ck_b expect_ck_b) then
        let! d' := d_drain ops d 2 in
        Ret (Some (Err (InvalidChecksum (u16_from_le expect_ck_a expect_ck_b)
                                        (u16_from_le ck_a ck_b))), d')
      else
        let! class_id := d_index ops d 2 in
        let! msg_id := d_index ops d 3 in
        let! d1 := d_drain ops d 6 in
        let! need' := uadd pack_len 2 in
        let! (r, d2) := d_take ops d1 need' in
        match r with
        | Err e => Ret (Some (Err e), d2)
        | Ok msg_data =>
            let! stop := usub (lenN msg_data) 2 in
            let! payload := slice msg_data 0 stop in
            let! p := match_packet class_id msg_id payload in
            Ret (Some p, d2)
        end.

  (** parser.rs 468-499: [next], a [while] loop; [fuel] bounds the number of iterations *)
  Fixpoint next_loop (fuel : nat) (d : dual (T:=T)) : res (option (result P) * dual (T:=T)) :=
    match fuel with
    | O => Diverge
    | S fuel' =>
        let! n := d_len ops d in
        if negb (0 <? n) then Ret (None, d)
        else
          let! s := find_sync d in
          match s with
          | None => let! d' := d_clear ops d in Ret (None, d')
          | Some pos =>
              let! d1 := d_drain ops d pos in
              let! n1 := d_len ops d1 in
              if n1 <? 2 then Ret (None, d1)
              else
                let! b1 := d_index ops d1 1 in
                if negb (byte_eqb b1 SYNC_CHAR_2) then
                  let! d2 := d_drain ops d1 1 in next_loop fuel' d2
                else if n1 <? 6 then Ret (None, d1)
                else
                  let! b4 := d_index ops d1 4 in
                  let! b5 := d_index ops d1 5 in
                  let pack_len := u16_from_le b4 b5 in
                  if max_payload_len <? pack_len then
                    let! d2 := d_drain ops d1 2 in next_loop fuel' d2
                  else extract_packet d1 pack_len
          end
    end.

  (** [next] with enough fuel: every iteration but the last removes at least one byte of the
      [lenN] bytes that can be pending *)
  Definition next (d : dual (T:=T)) : res (option (result P) * dual (T:=T)) :=
    next_loop (S (S (N.to_nat (b_len ops (d_buf d) + lenN (d_new d))))) d.

  (** ** Histories of calls (the user's program) *)

  (** Calling [next] [k] times, whatever it returns *)
  Fixpoint next_times (k : nat) (d : dual (T:=T))
    : res (list (option (result P)) * dual (T:=T)) :=
    match k with
    | O => Ret ([], d)
    | S k' =>
        let! (r, d1) := next d in
        let! (rs, d2) := next_times k' d1 in
        Ret (r :: rs, d2)
    end.

  (** [while let Some(r) = it.next() { out.push(r) }] *)
  Fixpoint drain_loop (fuel : nat) (d : dual (T:=T)) : res (list (result P) * dual (T:=T)) :=
    match fuel with
    | O => Diverge
    | S fuel' =>
        let! (r, d1) := next d in
        match r with
        | None => Ret ([], d1)
        | Some e => let! (es, d2) := drain_loop fuel' d1 in Ret (e :: es, d2)
        end
    end.

  Definition drain_iter (d : dual (T:=T)) : res (list (result P) * dual (T:=T)) :=
    drain_loop (S (N.to_nat (b_len ops (d_buf d) + lenN (d_new d)))) d.

  (** One [consume] whose iterator is drained and then dropped *)
  Definition feed (buf : T) (chunk : list byte) : res (list (result P) * T) :=
    let! d := consume buf chunk in
    let! (es, d') := drain_iter d in
    let! buf' := d_drop ops d' in
    Ret (es, buf').

  (** One [consume] whose iterator is asked [k] times and then dropped *)
  Definition feed_times (buf : T) (chunk : list byte) (k : nat)
    : res (list (option (result P)) * T) :=
    let! d := consume buf chunk in
    let! (rs, d') := next_times k d in
    let! buf' := d_drop ops d' in
    Ret (rs, buf').

  (** Drained [consume] calls for a list of chunks; all results in order *)
  Fixpoint feed_all (buf : T) (chunks : list (list byte)) : res (list (result P) * T) :=
    match chunks with
    | [] => Ret ([], buf)
    | c :: cs =>
        let! (es, buf1) := feed buf c in
        let! (es', buf2) := feed_all buf1 cs in
        Ret (es ++ es', buf2)
    end.

  (** An arbitrary history: chunks with a number of [next] calls each *)
  Fixpoint run_history (buf : T) (h : list (list byte * nat))
    : res (list (list (option (result P))) * T) :=
    match h with
    | [] => Ret ([], buf)
    | (c, k) :: h' =>
        let! (rs, buf1) := feed_times buf c k in
        let! (rss, buf2) := run_history buf1 h' in
        Ret (rs :: rss, buf2)
    end.
End Parser.
