(** * Specification: the observable outcome of parser calls *)
From Coq Require Import List NArith Bool.
From Verif Require Import Base Buffers DualBuffer SpecFrame.
Import ListNotations.
Open Scope N_scope.

(** The packet made from a frame is a function [f] of class, id and payload (for all payloads
    not longer than the limit), it is never an error, and making it does not panic.
    (Shown of the real dispatch function in PropDispatch.v.) *)
Definition dispatches {P} (mp : byte -> byte -> list byte -> res (result P)) (max_len : N)
  (f : byte -> byte -> list byte -> P) : Prop :=
  forall c i p, lenN p <= max_len -> mp c i p = Ret (Ok (f c i p)).

(** What [next] yields for an event *)
Definition outcome {P} (f : byte -> byte -> list byte -> P) (e : event) : result P :=
  match e with
  | EFrame c i p => Ok (f c i p)
  | EBad x y => Err (InvalidChecksum x y)
  | EOom n => Err (OutOfMemory n)
  end.

(** The results among the answers of several [next] calls *)
Definition somes {A} (l : list (option A)) : list A :=
  concat (map (fun o => match o with Some x => [x] | None => [] end) l).

(** The packets among results, and the number of results of each kind *)
Definition oks {P} (l : list (result P)) : list P :=
  concat (map (fun r => match r with Ok x => [x] | Err _ => [] end) l).
Definition errs {P} (l : list (result P)) : list parser_error :=
  concat (map (fun r => match r with Ok _ => [] | Err e => [e] end) l).

(** No chunk is so long that, together with the at most [max 5 (max_len + 7)] bytes a drained parser
    retains, it would exceed the maximum size of an allocation *)
Definition chunks_fit (max_len : N) (cs : list (list byte)) : Prop :=
  forall c, In c cs -> lenN c + N.max 5 (max_len + 7) <= isize_max.

(** A history of calls whose data fit in the address space: either all of it together, or each chunk
    together with a full buffer *)
Definition history_fits (cap : N) (already : list byte) (h : list (list byte * nat)) : Prop :=
  lenN already + lenN (concat (map fst h)) <= isize_max \/
  forall c k, In (c, k) h -> cap + lenN c <= isize_max.
