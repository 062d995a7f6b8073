(** * Running hand-written functions

    An interpreter for the syntax of Lang.v: what rustc's compiled code does with values, as far as the functions of
    parser.rs, ubx_packets.rs and packets.rs need it (debug build: [+] and [-] panic on overflow).

    - References are transparent: [&e], [&mut e] and [*e] are [e]; a struct which holds a [&mut] reference holds the value,
      and whoever owns the place takes it back when the borrow ends.
    - A method with [&mut self] gives back the new value of its receiver, which is stored where the receiver was.
    - A value of a type parameter ([T: UnderlyingBuffer], [PacketRef]) is opaque ([VBuf], [VPack]).  The methods of a
      [VBuf] are given by a [buf_ops].
    - An integer literal has the type of its context ([ILit] until it meets one).
    - [None] as answer: the text is outside the language or does not type-check.
    - The interpreter passes a continuation, the rest of the function ([k]), and what [return], [break] and [continue]
      lead to ([handlers]). *)
From Coq Require Import String List NArith Bool.
From Verif Require Import Base Buffers Utf8 Iterators Tokens Lang.
Import ListNotations.
Open Scope N_scope.
Open Scope list_scope.

(** Integer types *)
Inductive ity := IU8 | IU16 | IU32 | IUsize | ILit.

Definition ity_eqb (a b : ity) : bool :=
  match a, b with IU8, IU8 | IU16, IU16 | IU32, IU32 | IUsize, IUsize | ILit, ILit => true | _, _ => false end.

Definition unify (a b : ity) : option ity :=
  match a with
  | ILit => Some b
  | _ => match b with ILit => Some a | _ => if ity_eqb a b then Some a else None end
  end.

Definition ity_bits (t : ity) : N := match t with IU8 => 8 | IU16 => 16 | IU32 => 32 | IUsize | ILit => 64 end.

Definition ity_of (s : string) : option ity :=
  if String.eqb s "u8" then Some IU8 else if String.eqb s "u16" then Some IU16
  else if String.eqb s "u32" then Some IU32 else if String.eqb s "usize" then Some IUsize else None.

Fixpoint same_path (a b : list string) : bool :=
  match a, b with
  | [], [] => true
  | x :: a', y :: b' => String.eqb x y && same_path a' b'
  | _, _ => false
  end.

Section Exec.
  Context {T P : Type} (ops : buf_ops T).

  Inductive val :=
  | VNum (t : ity) (n : N)
  | VBool (b : bool)
  | VBytes (l : list byte)
  | VTuple (vs : list val)
  | VAdt (path : list string) (fs : list (string * val))
  | VRng (a b : option N)
  | VText (s : string)
  | VPtr (x : string) (fs : list string) (off : N)
  | VBuf (t : T)
  | VPack (p : P).

  Definition vunit : val := VTuple [].
  Definition vusize (n : N) : val := VNum IUsize n.
  Definition vu8 (b : byte) : val := VNum IU8 (b2n b).
  Definition vctor (c : string) (v : val) : val := VAdt [c] [("0"%string, v)].
  Definition vnone : val := VAdt ["None"%string] [].

  (** ** Types of literals *)

  (** A literal, or a number after [.into()], where the type [ty] is declared.  ([.into()] from [u32] to a struct is its
      constructor: packets.rs 939-943, 964-968.) *)
  Definition fit (ty : list token) (v : val) : val :=
    match v, ty with
    | VNum ILit n, [TIdent s] =>
        match ity_of s with
        | Some t => VNum t n
        | None => if capital s then VAdt [s] [("0"%string, VNum IU32 n)] else v
        end
    | _, _ => v
    end.

  (** A literal stored where [old] was *)
  Definition like (old v : val) : val :=
    match old, v with VNum t _, VNum ILit n => VNum t n | _, _ => v end.

  (** ** Operators *)

  Definition arith (o : binop) (t : ity) (n m : N) : option (res val) :=
    match o with
    | OAdd => match t with
              | IUsize | ILit => Some (ret_map (VNum t) (uadd n m))
              | _ => Some (if n + m <? 2 ^ ity_bits t then Ret (VNum t (n + m)) else Panic)
              end
    | OSub => Some (ret_map (VNum t) (usub n m))
    | OMul => Some (if n * m <? 2 ^ ity_bits t then Ret (VNum t (n * m)) else Panic)
    | ODiv => Some (if m =? 0 then Panic else Ret (VNum t (n / m)))
    | ORem => Some (if m =? 0 then Panic else Ret (VNum t (n mod m)))
    | OShl => Some (if m <? ity_bits t then Ret (VNum t (N.shiftl n m mod 2 ^ ity_bits t)) else Panic)
    | OShr => Some (if m <? ity_bits t then Ret (VNum t (N.shiftr n m)) else Panic)
    | OAnd => Some (Ret (VNum t (N.land n m)))
    | OOr => Some (Ret (VNum t (N.lor n m)))
    | OXor => Some (Ret (VNum t (N.lxor n m)))
    | OEq => Some (Ret (VBool (n =? m)))
    | ONe => Some (Ret (VBool (negb (n =? m))))
    | OLt => Some (Ret (VBool (n <? m)))
    | OLe => Some (Ret (VBool (n <=? m)))
    | OGt => Some (Ret (VBool (m <? n)))
    | OGe => Some (Ret (VBool (m <=? n)))
    | OLand | OLor => None
    end.

  (** [==] of numbers and of tuples of numbers *)
  Definition num_eq (a b : val) : option bool :=
    match a, b with
    | VNum t n, VNum u m => match unify t u with Some _ => Some (n =? m) | None => None end
    | _, _ => None
    end.

  Fixpoint nums_eq (a b : list val) : option bool :=
    match a, b with
    | [], [] => Some true
    | x :: a', y :: b' =>
        match num_eq x y, nums_eq a' b' with Some p, Some q => Some (p && q) | _, _ => None end
    | _, _ => None
    end.

  Definition bin (o : binop) (a b : val) : option (res val) :=
    match a, b with
    | VNum t n, VNum u m => match unify t u with Some w => arith o w n m | None => None end
    | VTuple x, VTuple y =>
        match o, nums_eq x y with
        | OEq, Some q => Some (Ret (VBool q))
        | ONe, Some q => Some (Ret (VBool (negb q)))
        | _, _ => None
        end
    | _, _ => None
    end.

  Definition un (o : unop) (v : val) : option val :=
    match o, v with
    | UNot, VBool b => Some (VBool (negb b))
    | (UDeref | URef | URefMut), _ => Some v
    | _, _ => None
    end.

  (** ** Methods of the standard library's types and of the type parameter *)

  Definition opt_usize (o : option N) : val :=
    match o with Some n => vctor "Some" (vusize n) | None => vnone end.

  Definition slices (ls : list (list byte)) : list val := map VBytes ls.

  Definition slice_val (l : list byte) (a b : option N) : res (list byte) :=
    match a, b with
    | Some a, Some b => slice l a b
    | Some a, None => slice_from l a
    | None, Some b => slice l 0 b
    | None, None => Ret l
    end.

  (** The new receiver and the result *)
  Definition meth (v : val) (m : string) (args : list val) : option (res (val * val)) :=
    let is := String.eqb m in
    match v, args with
    | VBuf t, [] =>
        if is "clear"%string then Some (ret_map (fun t' => (VBuf t', vunit)) (b_clear ops t))
        else if is "len"%string then Some (Ret (v, vusize (b_len ops t)))
        else if is "max_capacity"%string then Some (Ret (v, vusize (b_max_cap ops t)))
        else if is "is_empty"%string then Some (Ret (v, VBool (b_is_empty ops t)))
        else None
    | VBuf t, [VBytes l] =>
        if is "extend_from_slice"%string
        then Some (ret_map (fun p => (VBuf (fst p), vusize (snd p))) (b_extend ops t l)) else None
    | VBuf t, [VNum _ n] =>
        if is "drain"%string then Some (ret_map (fun t' => (VBuf t', vunit)) (b_drain ops t n))
        else if is "find"%string then Some (ret_map (fun o => (v, opt_usize o)) (b_find ops t (n2b n)))
        else if is "index"%string then Some (ret_map (fun b => (v, vu8 b)) (b_index ops t n))
        else None
    | VBuf t, [VRng (Some a) (Some b)] =>
        if is "index"%string then Some (ret_map (fun l => (v, VBytes l)) (b_range ops t a b)) else None
    | VBytes l, [] =>
        if is "len"%string then Some (Ret (v, vusize (lenN l)))
        else if is "clear"%string then Some (Ret (VBytes [], vunit))
        else if is "iter"%string then Some (Ret (v, v))
        else if is "try_into"%string then Some (Ret (v, VAdt ["TryInto"%string] [("0"%string, v)]))
        else None
    | VBytes l, [VBytes o] =>
        if is "extend_from_slice"%string
        then Some (if lenN l + lenN o <=? isize_max then Ret (VBytes (l ++ o), vunit) else Panic) else None
    | VBytes l, [VRng (Some a) (Some b)] =>
        if is "drain"%string
        then Some (if (a <=? b) && (b <=? lenN l) then Ret (VBytes (takeN a l ++ dropN b l), vunit) else Panic)
        else if is "index"%string then Some (ret_map (fun r => (v, VBytes r)) (slice l a b))
        else None
    | VBytes l, [VRng a b] =>
        if is "index"%string then Some (ret_map (fun r => (v, VBytes r)) (slice_val l a b)) else None
    | VBytes l, [VNum _ n] =>
        if is "index"%string then Some (ret_map (fun b => (v, vu8 b)) (get l n))
        else if is "reserve"%string then Some (Ret (v, vunit))
        else if is "chunks_exact"%string
        then Some (if n =? 0 then Panic
                   else Ret (v, VAdt ["ChunksExact"%string] [("0"%string, VBytes (chunks_exact n l)); ("1"%string, vusize n)]))
        else if is "chunks"%string
        then Some (if n =? 0 then Panic else Ret (v, VTuple (slices (chunks n l))))
        else None
    | VBytes l, [VTuple [VNum _ n]] => if is "extend"%string then Some (Ret (VBytes (l ++ [n2b n]), vunit)) else None
    | VNum t n, [] =>
        if is "into"%string then Some (Ret (v, VNum ILit n))
        else if is "to_le_bytes"%string
        then match t with
             | IU16 => Some (Ret (v, VBytes (le_bytes 2 n)))
             | IU32 => Some (Ret (v, VBytes (le_bytes 4 n)))
             | _ => None
             end
        else if is "bits"%string then Some (Ret (v, v))
        else if is "try_into"%string then Some (Ret (v, VAdt ["TryInto"%string] [("0"%string, v)]))
        else None
    | VNum t n, [VNum u m] =>
        match unify t u with
        | Some w =>
            if is "saturating_sub"%string then Some (Ret (v, VNum w (n - m)))
            else if is "overflowing_add"%string
            then Some (Ret (v, VTuple [VNum w ((n + m) mod 2 ^ ity_bits w); VBool (2 ^ ity_bits w <=? n + m)]))
            else None
        | None => None
        end
    | VPtr x fs off, [VNum _ n] => if is "add"%string then Some (Ret (v, VPtr x fs (off + n))) else None
    | _, _ => None
    end.

  (** Functions of the standard library, by path *)
  Definition std_call (path : list string) (args : list val) : option val :=
    let is := same_path path in
    match args with
    | [] => if is ["Vec"; "new"]%string then Some (VBytes []) else None
    | [v] =>
        if is ["Some"]%string then Some (vctor "Some" v)
        else if is ["Ok"]%string then Some (vctor "Ok" v)
        else if is ["Err"]%string then Some (vctor "Err" v)
        else match v with
             | VBytes l =>
                 if is ["u16"; "from_le_bytes"]%string then Some (VNum IU16 (le_num l))
                 else if is ["core"; "str"; "from_utf8"]%string
                 then Some (if utf8_valid l then vctor "Ok" v else vctor "Err" (VAdt ["Utf8Error"%string] []))
                 else None
             | VNum _ n =>
                 if is ["usize"; "from"]%string then Some (vusize n)
                 else if is ["core"; "iter"; "once"]%string then Some (VTuple [v])
                 else None
             | _ => None
             end
    | [VNum t n; VNum u m] =>
        if is ["core"; "cmp"; "min"]%string
        then match unify t u with Some w => Some (VNum w (N.min n m)) | None => None end else None
    | _ => None
    end.

  (** [[a, b, c]] *)
  Fixpoint byte_array (vs : list val) : option (list byte) :=
    match vs with
    | [] => Some []
    | VNum IU8 n :: vs' | VNum ILit n :: vs' =>
        match byte_array vs' with Some l => Some (n2b n :: l) | None => None end
    | _ => None
    end.

  (** ** Variables and places *)

  Definition env := list (string * val).

  Fixpoint find_var (x : string) (e : env) : option val :=
    match e with
    | [] => None
    | (y, v) :: e' => if String.eqb x y then Some v else find_var x e'
    end.

  Fixpoint set_var (x : string) (v : val) (e : env) : option env :=
    match e with
    | [] => None
    | (y, w) :: e' =>
        if String.eqb x y then Some ((y, v) :: e')
        else match set_var x v e' with Some e'' => Some ((y, w) :: e'') | None => None end
    end.

  (** The variables of the enclosing block *)
  Definition leave (outer inner : env) : env := skipn (List.length inner - List.length outer) inner.

  Definition get_field (v : val) (f : string) : option val :=
    match v with
    | VAdt _ fs => find_var f fs
    | VTuple (a :: r) =>
        if String.eqb f "0" then Some a
        else if String.eqb f "1" then match r with b :: _ => Some b | [] => None end
        else None
    | VRng a b =>
        if String.eqb f "start" then option_map vusize a
        else if String.eqb f "end" then option_map vusize b
        else None
    | _ => None
    end.

  Fixpoint get_path (v : val) (fs : list string) : option val :=
    match fs with
    | [] => Some v
    | f :: fs' => match get_field v f with Some w => get_path w fs' | None => None end
    end.

  Fixpoint set_path (v : val) (fs : list string) (new : val) : option val :=
    match fs with
    | [] => Some (like v new)
    | f :: fs' =>
        match v with
        | VAdt p l =>
            match find_var f l with
            | Some w =>
                match set_path w fs' new with
                | Some w' => match set_var f w' l with Some l' => Some (VAdt p l') | None => None end
                | None => None
                end
            | None => None
            end
        | VRng a b =>
            match fs', new with
            | [], VNum _ n =>
                if String.eqb f "start" then Some (VRng (Some n) b)
                else if String.eqb f "end" then Some (VRng a (Some n)) else None
            | _, _ => None
            end
        | _ => None
        end
    end.

  (** [x], [x.f], [x.f.g], ... *)
  Fixpoint place_of (c : expr) : option (string * list string) :=
    match c with
    | EPath [x] => Some (x, [])
    | EField c' f => match place_of c' with Some (x, fs) => Some (x, fs ++ [f]) | None => None end
    | EUn (UDeref | URef | URefMut) c' => place_of c'
    | _ => None
    end.

  Definition get_place (e : env) (p : string * list string) : option val :=
    match find_var (fst p) e with Some v => get_path v (snd p) | None => None end.

  Definition set_place (e : env) (p : string * list string) (new : val) : option env :=
    match find_var (fst p) e with
    | Some v => match set_path v (snd p) new with Some v' => set_var (fst p) v' e | None => None end
    | None => None
    end.

  (** ** Patterns *)

  (** [Some (Some e)]: matches and binds [e]; [Some None]: does not match *)
  Fixpoint bind_pat (p : lpat) (v : val) {struct p} : option (option env) :=
    let fix go (ps : list lpat) (vs : list val) {struct ps} : option (option env) :=
      match ps, vs with
      | [], [] => Some (Some [])
      | p :: ps', v :: vs' =>
          match bind_pat p v, go ps' vs' with
          | Some (Some e), Some (Some e') => Some (Some (e' ++ e))
          | Some None, Some _ | Some _, Some None => Some None
          | _, _ => None
          end
      | _, _ => None
      end in
    match p, v with
    | LVar x, _ => Some (Some [(x, v)])
    | LWild, _ => Some (Some [])
    | LNum n, VNum _ m => Some (if n =? m then Some [] else None)
    | LRange a b, VNum _ m => Some (if (a <=? m) && (m <=? b) then Some [] else None)
    | LBool a, VBool b => Some (if Bool.eqb a b then Some [] else None)
    | LOr ps, _ =>
        let fix alts (ps : list lpat) {struct ps} : option (option env) :=
          match ps with
          | [] => Some None
          | p :: ps' => match bind_pat p v with Some None => alts ps' | r => r end
          end in
        alts ps
    | LTuple ps, VTuple vs => go ps vs
    | LCtor path ps, VAdt path' fs => if same_path path path' then go ps (map snd fs) else Some None
    | _, _ => None
    end.

  (** ** Bytes in place *)

  (** [l[i] = x] *)
  Definition set_index (old i x : val) : option (res val) :=
    match old, i, x with
    | VBytes l, VNum _ n, VNum _ m =>
        Some (if n <? lenN l then Ret (VBytes (takeN n l ++ n2b m :: dropN (n + 1) l)) else Panic)
    | _, _, _ => None
    end.

  (** [l[a..b].copy_from_slice(src)] *)
  Definition copy_into (old i src : val) : option (res val) :=
    match old, i, src with
    | VBytes l, VRng (Some a) (Some b), VBytes s =>
        Some (let! dst := slice l a b in
              if lenN dst =? lenN s then Ret (VBytes (takeN a l ++ s ++ dropN b l)) else Panic)
    | VBytes l, VRng None (Some b), VBytes s =>
        Some (let! dst := slice l 0 b in
              if lenN dst =? lenN s then Ret (VBytes (s ++ dropN b l)) else Panic)
    | _, _, _ => None
    end.

  (** [core::ptr::copy(p + s, p + d, n)]: a memmove; outside the slice it is undefined behaviour, here a panic *)
  Definition memmove (old : val) (s d n : N) : option (res val) :=
    match old with
    | VBytes l =>
        Some (if (s + n <=? lenN l) && (d + n <=? lenN l)
              then Ret (VBytes (takeN d l ++ takeN n (dropN s l) ++ dropN (d + n) l)) else Panic)
    | _ => None
    end.

  (** The arguments of [core::ptr::copy]: the place and the offsets *)
  Definition copy_args (path : list string) (vs : list val) : option (string * list string * (N * N * N)) :=
    match vs with
    | [VPtr x fs s; VPtr y gs d; VNum _ n] =>
        if same_path path ["core"; "ptr"; "copy"]%string && same_path (x :: fs) (y :: gs)
        then Some (x, fs, (s, d, n)) else None
    | _ => None
    end.

  (** [<dyn std::io::Write>::write(v, buf)] with a [Vec<u8>]: the place of [v], its new value, the bytes written *)
  Definition write_args (path : list string) (args : list expr) (vs : list val)
    : option (string * list string * option (res val) * N) :=
    match args, vs with
    | a :: _, [VBytes l; VBytes o] =>
        if same_path path ["std"; "io"; "Write"; "write"]%string then
          match place_of a with
          | Some pl => Some (pl, Some (if lenN l + lenN o <=? isize_max then Ret (VBytes (l ++ o)) else Panic), lenN o)
          | None => None
          end
        else None
    | _, _ => None
    end.

  (** [e?]: the value of [Ok] or [Some], or the [Err] or [None] to return *)
  Definition try_of (v : val) : option (bool * val) :=
    match v with
    | VAdt [c] [] => if String.eqb c "None" then Some (false, v) else None
    | VAdt [c] [(_, x)] =>
        if String.eqb c "Ok" then Some (true, x) else if String.eqb c "Some" then Some (true, x) else if String.eqb c "Err" then Some (false, v) else None
    | _ => None
    end.

  Definition bounds (v : val) : option (N * N) :=
    match v with VRng (Some lo) (Some hi) => Some (lo, hi) | _ => None end.
  Definition as_option (v : val) : option (option val) :=
    match v with
    | VAdt [c] [] => if String.eqb c "None" then Some None else None
    | VAdt [c] [(_, x)] => if String.eqb c "Some" then Some (Some x) else None
    | _ => None
    end.
  Definition as_bytes (v : val) : option (list byte) := match v with VBytes l => Some l | _ => None end.

  (** ** Answers *)

  (** The receiver after the call, and the result *)
  Definition ans := option (res (val * val)).

  (** The functions of the program: type, name, arguments (the receiver first) *)
  Definition prog := string -> string -> list val -> ans.

  Definition cont := val -> env -> ans.
  Record handlers := mk_handlers { h_return : cont; h_break : env -> ans; h_continue : env -> ans }.

  Definition on_ret {A} (r : option (res A)) (k : A -> ans) : ans :=
    match r with
    | Some (Ret a) => k a
    | Some Panic => Some Panic
    | Some Diverge => Some Diverge
    | None => None
    end.
  Definition on_some {A} (r : option A) (k : A -> ans) : ans :=
    match r with Some a => k a | None => None end.
  Definition on_opt {A} (r : option A) (k : A -> ans) (other : ans) : ans :=
    match r with Some a => k a | None => other end.
  Definition on_bool (v : val) (t f : ans) : ans :=
    match v with VBool b => if b then t else f | _ => None end.

  (** Loops.  [one]: the body with the next element, and what to do after it. *)
  Fixpoint for_nums (one : N -> env -> (env -> ans) -> ans) (n : nat) (i : N) (e : env) (k : env -> ans) : ans :=
    match n with
    | O => k e
    | S n' => one i e (fun e' => for_nums one n' (i + 1) e' k)
    end.

  Fixpoint for_bytes (one : byte -> env -> (env -> ans) -> ans) (l : list byte) (e : env) (k : env -> ans) : ans :=
    match l with
    | [] => k e
    | b :: l' => one b e (fun e' => for_bytes one l' e' k)
    end.

  (** [cond]: the condition; [body]: the body from the variables after the condition, with those before it and what to do
      after it *)
  Fixpoint while_loop (cond : env -> cont -> ans) (body : env -> (env -> ans) -> env -> ans) (n : nat) (e : env)
      (k : env -> ans) : ans :=
    match n with
    | O => Some Diverge
    | S n' =>
        cond e (fun v e1 => on_bool v (body e (fun e2 => while_loop cond body n' e2 k) e1) (k e1))
    end.

  (** [range.find(test)], [bytes.iter().position(test)] *)
  Fixpoint find_num (test : N -> (bool -> ans) -> ans) (n : nat) (i : N) (k : option N -> ans) : ans :=
    match n with
    | O => k None
    | S n' => test i (fun b => if b then k (Some i) else find_num test n' (i + 1) k)
    end.

  Fixpoint find_byte (test : byte -> (bool -> ans) -> ans) (l : list byte) (i : N) (k : option N -> ans) : ans :=
    match l with
    | [] => k None
    | b :: l' => test b (fun r => if r then k (Some i) else find_byte test l' (i + 1) k)
    end.

  Section Lists.
    Context (evl : expr -> env -> cont -> ans).
    Fixpoint ev_list (l : list expr) (e : env) (k : list val -> env -> ans) {struct l} : ans :=
      match l with
      | [] => k [] e
      | c :: l' => evl c e (fun v e' => ev_list l' e' (fun vs e'' => k (v :: vs) e''))
      end.
    Fixpoint ev_fields (l : list (string * expr)) (e : env) (k : list (string * val) -> env -> ans) {struct l} : ans :=
      match l with
      | [] => k [] e
      | (f, c) :: l' => evl c e (fun v e' => ev_fields l' e' (fun vs e'' => k ((f, v) :: vs) e''))
      end.
    Fixpoint ev_stmts (l : list expr) (e : env) (k : cont) {struct l} : ans :=
      match l with
      | [] => k vunit e
      | [c] => evl c e k
      | c :: l' => evl c e (fun _ e' => ev_stmts l' e' k)
      end.
    Fixpoint ev_arms (l : list (lpat * expr)) (v : val) (e : env) (k : cont) {struct l} : ans :=
      match l with
      | [] => None
      | (p, c) :: l' =>
          on_some (bind_pat p v) (fun o =>
            on_opt o (fun b => evl c (b ++ e) (fun w e' => k w (leave e e'))) (ev_arms l' v e k))
      end.
    Definition ev_opt (c : option expr) (e : env) (k : option val -> env -> ans) : ans :=
      match c with Some c' => evl c' e (fun v e' => k (Some v) e') | None => k None e end.
  End Lists.

  Section Run.
    (** Constants, the structs of the file, the functions called, the iterations a [while] may take, the type of [Self] *)
    Context (consts : string -> option val) (structs : list (string * list (string * list token)))
            (call : prog) (wfuel : nat) (self_ty : string).

    Definition self_path (path : list string) : list string :=
      match path with
      | x :: r => if String.eqb x "Self" then self_ty :: r else path
      | [] => []
      end.

    (** [result.map_err(f)] where [f] is the name of a variant *)
    Definition map_err (v : val) (args : list val) : ans :=
      match v, args with
      | VAdt [c] [(_, x)], [VAdt f []] =>
          if String.eqb c "Ok" then Some (Ret (v, v))
          else if String.eqb c "Err" then Some (Ret (v, vctor "Err" (VAdt f [("0"%string, x)])))
          else None
      | _, _ => None
      end.

    (** [values.all(f)] where [f] is the name of a function *)
    Fixpoint all_of (ty f : string) (vs : list val) : ans :=
      match vs with
      | [] => Some (Ret (vunit, VBool true))
      | v :: vs' => on_ret (call ty f [v]) (fun r => on_bool (snd r) (all_of ty f vs') (Some (Ret (vunit, VBool false))))
      end.

    (** A method call on a value *)
    Definition call_on (v : val) (m : string) (args : list val) : ans :=
      match v with
      | VTuple vs =>
          match args with
          | [VAdt [ty; f] []] => if String.eqb m "all" then all_of ty f vs else None
          | _ => None
          end
      | VAdt [ty] _ => if String.eqb m "map_err" then map_err v args else call ty m (v :: args)
      | VAdt [ty; _] _ => call ty m (v :: args)
      | _ => meth v m args
      end.

    (** [v as ty]: a number, a truth value, or a variant of an enum without fields, whose number is the constant
        ["Enum::Variant as"] *)
    Definition cast (v : val) (ty : list token) : option val :=
      match ty with
      | [TIdent s] =>
          match ity_of s with
          | Some t =>
              match v with
              | VNum _ n => Some (VNum t (n mod 2 ^ ity_bits t))
              | VBool b => Some (VNum t (if b then 1 else 0))
              | VAdt [x; y] [] =>
                  match consts (x ++ "::" ++ y ++ " as")%string with
                  | Some (VNum _ n) => Some (VNum t (n mod 2 ^ ity_bits t))
                  | _ => None
                  end
              | _ => None
              end
          | None => None
          end
      | _ => None
      end.

    (** [v[i]]: a range is looked up with [Index<Range<usize>>] *)
    Definition index_on (v i : val) : ans :=
      match v, i with
      | VAdt [ty] _, VRng _ _ => call ty "index_range"%string [v; i]
      | VAdt [ty] _, VNum ILit n => call ty "index"%string [v; vusize n]
      | VAdt [ty] _, _ => call ty "index"%string [v; i]
      | _, _ => meth v "index"%string [i]
      end.

    (** The fields of a struct literal in the order of the declaration; literals have the types of the fields *)
    Definition fit_fields (path : list string) (fs : list (string * val)) : list (string * val) :=
      match path with
      | [s] =>
          match find (fun d => String.eqb s (fst d)) structs with
          | Some (_, tys) =>
              flat_map (fun d => match find_var (fst d) fs with Some v => [(fst d, fit (snd d) v)] | None => [] end) tys
          | None => fs
          end
      | _ => fs
      end.

    Definition path_val (path : list string) (e : env) : option val :=
      match path with
      | [x] => match find_var x e with
               | Some v => Some v
               | None => match consts x with
                         | Some v => Some v
                         | None => if capital x then Some (VAdt [x] []) else None
                         end
               end
      | [x; y] => match consts (x ++ "::" ++ y)%string with
                  | Some v => Some v
                  | None => if capital x then Some (VAdt path []) else None
                  end
      | _ :: _ => if same_path path ["core"; "usize"; "MAX"]%string then Some (vusize usize_max) else None
      | [] => None
      end.

    (** A call by path *)
    Definition call_path (path : list string) (vs : list val) : ans :=
      match path with
      | [f] => call ""%string f vs
      | [ty; f] => call ty f vs
      | _ => None
      end.

    Definition as_range (a b : option val) : option val :=
      match a, b with
      | Some (VNum _ n), Some (VNum _ m) => Some (VRng (Some n) (Some m))
      | Some (VNum _ n), None => Some (VRng (Some n) None)
      | None, Some (VNum _ m) => Some (VRng None (Some m))
      | None, None => Some (VRng None None)
      | _, _ => None
      end.

    (** One construct; [ev] runs the parts *)
    Definition ev_step (ev : expr -> handlers -> env -> cont -> ans) (c : expr) (h : handlers) (e : env) (k : cont) : ans :=
      match c with
      | ENum n s => k (VNum (match ity_of s with Some t => t | None => ILit end) n) e
      | EBool b => k (VBool b) e
      | EFloat _ => None
      | EText s => k (VText s) e
      | EPath p => on_some (path_val p e) (fun v => k v e)
      | EField c f => ev c h e (fun v e' => on_some (get_field v f) (fun w => k w e'))
      | EIndex a i => ev a h e (fun v e1 => ev i h e1 (fun w e2 => on_ret (index_on v w) (fun r => k (snd r) e2)))
      | EUn o c => ev c h e (fun v e' => on_some (un o v) (fun w => k w e'))
      | EBin OLand a b =>
          ev a h e (fun v e1 => on_bool v (ev b h e1 k) (k (VBool false) e1))
      | EBin OLor a b =>
          ev a h e (fun v e1 => on_bool v (k (VBool true) e1) (ev b h e1 k))
      | EBin o a b => ev a h e (fun v e1 => ev b h e1 (fun w e2 => on_ret (bin o v w) (fun r => k r e2)))
      (** [l[i] = c] *)
      | EAssign None (EIndex p i) c =>
          ev c h e (fun v e1 => ev i h e1 (fun iv e2 =>
            on_some (place_of p) (fun pl => on_some (get_place e2 pl) (fun old =>
              on_ret (set_index old iv v) (fun w => on_some (set_place e2 pl w) (fun e3 => k vunit e3))))))
      | EAssign o p c =>
          ev c h e (fun v e1 =>
            on_some (place_of p) (fun pl => on_some (get_place e1 pl) (fun old =>
              on_ret (match o with Some b => bin b old v | None => Some (Ret v) end) (fun w =>
                on_some (set_place e1 pl w) (fun e2 => k vunit e2)))))
      | ERange a b =>
          ev_opt (fun c => ev c h) a e (fun va e1 => ev_opt (fun c => ev c h) b e1 (fun vb e2 =>
            on_some (as_range va vb) (fun r => k r e2)))
      | ECall p args =>
          ev_list (fun c => ev c h) args e (fun vs e1 =>
            on_opt (write_args p args vs)
              (fun '(pl, l, n) =>
                 on_ret l (fun w => on_some (set_place e1 pl w) (fun e2 => k (vctor "Ok" (vusize n)) e2)))
            (on_opt (copy_args p vs)
              (fun '(x, fs, (s, d, n)) =>
                 on_some (get_place e1 (x, fs)) (fun old => on_ret (memmove old s d n) (fun w =>
                   on_some (set_place e1 (x, fs) w) (fun e2 => k vunit e2))))
              (on_opt (std_call p vs) (fun v => k v e1)
                 (on_ret (call_path (self_path p) vs) (fun r => k (snd r) e1)))))
      | EMethod r m args =>
          match args with
          (** [range.find(|p| b)], [bytes.iter().position(|p| b)], [option.map(|p| b)] *)
          | [EClosure p b] =>
              let test (w : val) (e1 : env) (kb : bool -> ans) : ans :=
                on_some (bind_pat p w) (fun o => on_some o (fun bs =>
                  let done v := on_bool v (kb true) (kb false) in
                  ev b (mk_handlers (fun v _ => done v) (fun _ => None) (fun _ => None)) (bs ++ e1) (fun v _ => done v))) in
              ev r h e (fun v e1 =>
                if String.eqb m "find" then
                  on_some (bounds v) (fun '(lo, hi) =>
                    find_num (fun i => test (vusize i) e1) (N.to_nat (hi - lo)) lo (fun o => k (opt_usize o) e1))
                else if String.eqb m "position" then
                  on_some (as_bytes v) (fun l => find_byte (fun x => test (vu8 x) e1) l 0 (fun o => k (opt_usize o) e1))
                else if String.eqb m "map" then
                  on_some (as_option v) (fun o =>
                    on_opt o (fun w => on_some (bind_pat p w) (fun o => on_some o (fun bs =>
                      let done v := k (vctor "Some" v) e1 in
                      ev b (mk_handlers (fun v _ => done v) (fun _ => None) (fun _ => None)) (bs ++ e1) (fun v _ => done v))))
                    (k vnone e1))
                else None)
          | _ =>
              if String.eqb m "copy_from_slice" then
                (** [p[a..b].copy_from_slice(src)] *)
                match r, args with
                | EIndex p i, [src] =>
                    ev i h e (fun iv e1 => ev src h e1 (fun sv e2 =>
                      on_some (place_of p) (fun pl => on_some (get_place e2 pl) (fun old =>
                        on_ret (copy_into old iv sv) (fun w => on_some (set_place e2 pl w) (fun e3 => k vunit e3))))))
                | _, _ => None
                end
              else if String.eqb m "as_mut_ptr" then
                match args with
                | [] => on_some (place_of r) (fun pl => k (VPtr (fst pl) (snd pl) 0) e)
                | _ => None
                end
              else
                (** a method: of a place, or of a temporary value *)
                match place_of r with
                | Some pl =>
                    ev_list (fun c => ev c h) args e (fun vs e1 =>
                      on_some (get_place e1 pl) (fun v => on_ret (call_on v m vs) (fun sr =>
                        on_some (set_place e1 pl (fst sr)) (fun e2 => k (snd sr) e2))))
                | None =>
                    ev r h e (fun v e1 => ev_list (fun c => ev c h) args e1 (fun vs e2 =>
                      on_ret (call_on v m vs) (fun sr => k (snd sr) e2)))
                end
          end
      | EMacro m _ =>
          if String.eqb m "panic" then Some Panic
          else if String.eqb m "unreachable" then Some Panic
          else if String.eqb m "unimplemented" then Some Panic
          else None
      | ETuple l => ev_list (fun c => ev c h) l e (fun vs e' => k (VTuple vs) e')
      | EArray l =>
          ev_list (fun c => ev c h) l e (fun vs e' => on_some (byte_array vs) (fun bs => k (VBytes bs) e'))
      | EStruct p fs =>
          ev_fields (fun c => ev c h) fs e (fun vs e' =>
            k (VAdt (self_path p) (fit_fields (self_path p) vs)) e')
      | EClosure _ _ => None
      | EIf c t f =>
          ev c h e (fun v e1 =>
            on_bool v (ev t h e1 k) (match f with Some f => ev f h e1 k | None => k vunit e1 end))
      | EMatch c arms => ev c h e (fun v e1 => ev_arms (fun c => ev c h) arms v e1 k)
      | EWhile c b =>
          while_loop (fun e k => ev c h e k)
                     (fun e next e1 =>
                        ev b (mk_handlers (h_return h) (fun e2 => k vunit (leave e e2)) (fun e2 => next (leave e e2))) e1
                           (fun _ e2 => next e2))
                     wfuel e (fun e1 => k vunit e1)
      | EFor x c b =>
          ev c h e (fun v e1 =>
            let one w e kn :=
              ev b (mk_handlers (h_return h) (fun e2 => k vunit (leave e1 e2)) (fun e2 => kn (leave e1 e2)))
                 ((x, w) :: e) (fun _ e2 => kn (leave e1 e2)) in
            on_opt (bounds v)
              (fun '(lo, hi) => for_nums (fun i => one (vusize i)) (N.to_nat (hi - lo)) lo e1 (fun e2 => k vunit e2))
              (on_some (as_bytes v) (fun l => for_bytes (fun y => one (vu8 y)) l e1 (fun e2 => k vunit e2))))
      | EReturn c => ev_opt (fun c => ev c h) c e (fun v e' => h_return h (match v with Some v => v | None => vunit end) e')
      | EBreak => h_break h e
      | EContinue => h_continue h e
      | ETry c =>
          ev c h e (fun v e' => on_some (try_of v) (fun '(ok, w) => if (ok : bool) then k w e' else h_return h w e'))
      | ECast c ty => ev c h e (fun v e' => on_some (cast v ty) (fun w => k w e'))
      | EBlock ss => ev_stmts (fun c => ev c h) ss e (fun v e' => k v (leave e e'))
      | ELet p ty c =>
          ev c h e (fun v e' =>
            on_some (bind_pat p (fit ty v)) (fun o => on_some o (fun bs => k vunit (bs ++ e'))))
      | ESemi c => ev c h e (fun _ e' => k vunit e')
      end.

    Fixpoint ev (c : expr) (h : handlers) (e : env) (k : cont) {struct c} : ans := ev_step ev c h e k.

    (** The result of a function whose last value is [v] *)
    Definition finish (ret : list token) (v : val) (e : env) : ans :=
      Some (Ret (match find_var "self"%string e with Some s => s | None => vunit end, fit ret v)).

    Definition params (f : lfn) (args : list val) : env :=
      map (fun p => (fst (fst p), fit (snd (fst p)) (snd p))) (combine (lf_params f) args).

    Definition run_fn (f : lfn) (args : list val) : ans :=
      if Nat.eqb (List.length args) (List.length (lf_params f)) then
        ev (lf_body f) (mk_handlers (finish (lf_ret f)) (fun _ => None) (fun _ => None)) (params f args)
           (finish (lf_ret f))
      else None.

    (** The same for a function which changes the value its parameter [out] refers to: this value instead of [self] *)
    Definition finish_out (out : string) (ret : list token) (v : val) (e : env) : ans :=
      on_some (find_var out e) (fun o => Some (Ret (o, fit ret v))).
    Definition run_out (out : string) (f : lfn) (args : list val) : ans :=
      if Nat.eqb (List.length args) (List.length (lf_params f)) then
        ev (lf_body f) (mk_handlers (finish_out out (lf_ret f)) (fun _ => None) (fun _ => None)) (params f args)
           (finish_out out (lf_ret f))
      else None.
  End Run.

  (** ** Programs *)

  (** The name by which a function is called: [index] of [Index<Range<usize>>] is [index_range] *)
  Definition fn_key (f : lfn) : string :=
    if String.eqb (lf_name f) "index" && existsb (is_kw "Range") (lf_trait f) then "index_range"%string else lf_name f.

  Definition find_fn (fns : list lfn) (ty name : string) : option lfn :=
    find (fun f => String.eqb ty (lf_type f) && String.eqb name (fn_key f)) fns.

  (** The functions [fns] may call each other, [depth] levels deep, and those of [ext] *)
  Fixpoint link (consts : string -> option val) structs (fns : list lfn) (ext : prog) (wfuel : nat) (depth : nat) : prog :=
    match depth with
    | O => fun _ _ _ => None
    | S d => fun ty name args =>
        match find_fn fns ty name with
        | Some f => run_fn consts structs (link consts structs fns ext wfuel d) wfuel ty f args
        | None => ext ty name args
        end
    end.
End Exec.
Arguments val : clear implicits.
