(** * The text of parser.rs and ubx_packets.rs as a program

    Used in the statements of PropExec.v.  The functions are read from the text of the files (SourceParser.v, SourceUbx.v);
    the values of the model are written as values of the interpreter. *)
From Coq Require Import String List NArith Bool.
From Verif Require Import Base Buffers DualBuffer Parser Checksum GenSend Tokens Lang Exec SourceParser SourceUbx.
Import ListNotations.
Open Scope N_scope.
Open Scope list_scope.

(** ** The files *)

Definition tokens_of (text : string) : list token := match lex text with Some ts => ts | None => [] end.

(** The functions of a file; [None]: not all of them could be read *)
Definition fns_of (ts : list token) : option (list lfn) := read_file 2000 ts.

(** ** Values *)

Section Values.
  Context {T P : Type}.
  Notation val := (val T P).
  Open Scope string_scope.

  (** parser.rs 164-169 *)
  Definition parser_v (t : T) : val := VAdt ["Parser"] [("buf", VBuf t)].
  (** parser.rs 208-214 *)
  Definition dual_v (d : dual (T:=T)) : val :=
    VAdt ["DualBuffer"] [("buf", VBuf (d_buf d)); ("off", vusize (d_off d)); ("new_buf", VBytes (d_new d));
                         ("new_buf_offset", vusize (d_noff d))].
  (** parser.rs 415-417 *)
  Definition iter_v (d : dual (T:=T)) : val := VAdt ["ParserIter"] [("buf", dual_v d)].
  (** parser.rs 388-391, ubx_packets.rs 36-39 *)
  Definition cksum_v (s : cksum_state) : val :=
    VAdt ["UbxChecksumCalc"] [("ck_a", vu8 (fst s)); ("ck_b", vu8 (snd s))].
  (** parser.rs 82-85 *)
  Definition flb_v (f : flb) : val :=
    VAdt ["FixedLinearBuffer"] [("buffer", VBytes (flb_buffer f)); ("len", vusize (flb_len f))].

  (** ubx_packets.rs 95-98 *)
  Definition request_v (r : packet_request) : val :=
    VAdt ["UbxPacketRequest"] [("req_class", vu8 (req_class r)); ("req_id", vu8 (req_id r))].

  (** error.rs 23-41 *)
  Definition error_v (e : parser_error) : val :=
    match e with
    | InvalidChecksum x g => VAdt ["ParserError"; "InvalidChecksum"] [("expect", VNum IU16 x); ("got", VNum IU16 g)]
    | InvalidField p f => VAdt ["ParserError"; "InvalidField"] [("packet", VText p); ("field", VText f)]
    | InvalidPacketLen p x g =>
        VAdt ["ParserError"; "InvalidPacketLen"] [("packet", VText p); ("expect", vusize x); ("got", vusize g)]
    | OutOfMemory n => VAdt ["ParserError"; "OutOfMemory"] [("required_size", vusize n)]
    end.

  Definition result_v {A} (f : A -> val) (r : result A) : val :=
    match r with Ok a => vctor "Ok" (f a) | Err e => vctor "Err" (error_v e) end.
  Definition option_v {A} (f : A -> val) (o : option A) : val :=
    match o with Some a => vctor "Some" (f a) | None => vnone end.
  Definition pair_v {A B} (f : A -> val) (g : B -> val) (p : A * B) : val := VTuple [f (fst p); g (snd p)].
End Values.

(** ** The program *)

Section Program.
  Context {T P : Type} (ops : buf_ops T).
  Context (match_packet : byte -> byte -> list byte -> res (result P)) (max_payload_len : N).
  Notation val := (val T P).

  (** The constants of ubx_packets.rs, read from its text, and the generated one *)
  Definition text_consts (x : string) : option val :=
    if String.eqb x "MAX_PAYLOAD_LEN" then Some (VNum IU16 max_payload_len)
    else match find (fun c => String.eqb x (fst c)) (read_consts (tokens_of ubx_packets_rs)) with
         | Some (_, (ty, n)) => Some (fit ty (VNum ILit n))
         | None => None
         end.

  (** The generated function which the parser calls *)
  Definition text_ext : prog (T:=T) (P:=P) := fun ty name args =>
    match args with
    | [VNum IU8 class; VNum IU8 id; VBytes payload] =>
        if String.eqb ty "" && String.eqb name "match_packet" then
          Some (ret_map (fun r => (vunit, result_v VPack r)) (match_packet (n2b class) (n2b id) payload))
        else None
    | _ => None
    end.

  (** Calling a function of a file: [wfuel] bounds the iterations of a [while], [depth] the nesting of calls *)
  Definition text_call (text : string) (wfuel depth : nat) : prog (T:=T) (P:=P) :=
    link ops text_consts (read_structs (tokens_of text)) (match fns_of (tokens_of text) with Some l => l | None => [] end)
         text_ext wfuel depth.

  (** Calling a function of ubx_packets.rs for a packet type [T] with the given class and identifier *)
  Definition text_call_for (class id : byte) (text : string) (wfuel depth : nat) : prog (T:=T) (P:=P) :=
    link ops
         (fun x => if String.eqb x "T::CLASS" then Some (vu8 class) else if String.eqb x "T::ID" then Some (vu8 id) else text_consts x)
         (read_structs (tokens_of text)) (match fns_of (tokens_of text) with Some l => l | None => [] end)
         text_ext wfuel depth.
End Program.

(** ** A user's program, which calls the functions of the file

    [call]: the functions; [fuel] bounds the calls of [next]. *)
Section User.
  Context {T P : Type} (call : prog (T:=T) (P:=P)).
  Notation val := (val T P).

  (** [while let Some(r) = it.next() { out.push(r) }]: [out] and the iterator *)
  Fixpoint user_drain (fuel : nat) (it : val) : option (res (list val * val)) :=
    match fuel with
    | O => Some Diverge
    | S fuel' =>
        match call "ParserIter"%string "next"%string [it] with
        | Some (Ret (it', VAdt [c] fs)) =>
            if String.eqb c "None" then Some (Ret ([], it'))
            else match fs with
                 | [(_, r)] =>
                     match user_drain fuel' it' with
                     | Some (Ret (rs, it'')) => Some (Ret (r :: rs, it''))
                     | o => o
                     end
                 | _ => None
                 end
        | Some (Ret _) | None => None
        | Some Panic => Some Panic
        | Some Diverge => Some Diverge
        end
    end.

  (** The iterator goes out of scope: its [DualBuffer] is dropped and the parser has its buffer back *)
  Definition user_drop (it : val) : option (res val) :=
    match it with
    | VAdt _ [(_, d)] =>
        match call "DualBuffer"%string "drop"%string [d] with
        | Some (Ret (VAdt _ ((_, b) :: _), _)) => Some (Ret (VAdt ["Parser"%string] [("buf"%string, b)]))
        | Some (Ret _) | None => None
        | Some Panic => Some Panic
        | Some Diverge => Some Diverge
        end
    | _ => None
    end.

  (** [let mut it = parser.consume(chunk)], drained and dropped *)
  Definition user_feed (fuel : nat) (parser : val) (chunk : list byte) : option (res (list val * val)) :=
    match call "Parser"%string "consume"%string [parser; VBytes chunk] with
    | Some (Ret (_, it)) =>
        match user_drain fuel it with
        | Some (Ret (rs, it')) =>
            match user_drop it' with
            | Some (Ret p) => Some (Ret (rs, p))
            | Some Panic => Some Panic
            | Some Diverge => Some Diverge
            | None => None
            end
        | o => o
        end
    | Some Panic => Some Panic
    | Some Diverge => Some Diverge
    | None => None
    end.

  (** One chunk after the other *)
  Fixpoint user_feed_all (fuel : nat) (parser : val) (chunks : list (list byte)) : option (res (list val * val)) :=
    match chunks with
    | [] => Some (Ret ([], parser))
    | c :: cs =>
        match user_feed fuel parser c with
        | Some (Ret (rs, p)) =>
            match user_feed_all fuel p cs with
            | Some (Ret (rs', p')) => Some (Ret (rs ++ rs', p'))
            | o => o
            end
        | o => o
        end
    end.

  (** [it.next()] called [k] times: the answers and the iterator *)
  Fixpoint user_times (k : nat) (it : val) : option (res (list val * val)) :=
    match k with
    | O => Some (Ret ([], it))
    | S k' =>
        match call "ParserIter"%string "next"%string [it] with
        | Some (Ret (it', r)) =>
            match user_times k' it' with
            | Some (Ret (rs, it'')) => Some (Ret (r :: rs, it''))
            | o => o
            end
        | Some Panic => Some Panic
        | Some Diverge => Some Diverge
        | None => None
        end
    end.

  (** Chunks, each with the number of calls of [next] after which the iterator is dropped *)
  Fixpoint user_history (parser : val) (h : list (list byte * nat)) : option (res (list (list val) * val)) :=
    match h with
    | [] => Some (Ret ([], parser))
    | (c, k) :: h' =>
        match call "Parser"%string "consume"%string [parser; VBytes c] with
        | Some (Ret (_, it)) =>
            match user_times k it with
            | Some (Ret (rs, it')) =>
                match user_drop it' with
                | Some (Ret p) =>
                    match user_history p h' with
                    | Some (Ret (rss, p')) => Some (Ret (rs :: rss, p'))
                    | o => o
                    end
                | Some Panic => Some Panic
                | Some Diverge => Some Diverge
                | None => None
                end
            | Some Panic => Some Panic
            | Some Diverge => Some Diverge
            | None => None
            end
        | Some Panic => Some Panic
        | Some Diverge => Some Diverge
        | None => None
        end
    end.

  (** A new parser with the buffer [t], fed with the chunks *)
  Definition user_program (fuel : nat) (t : T) (chunks : list (list byte)) : option (res (list val * val)) :=
    match call "Parser"%string "new"%string [VBuf t] with
    | Some (Ret (_, p)) => user_feed_all fuel p chunks
    | _ => None
    end.
End User.
