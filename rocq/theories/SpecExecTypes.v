(** * An interpreter for the conversions through floats, dates and times

    types.rs and three groups of functions of packets.rs (the setters of AID-INI, [ScaleBack]) compute with floats and with the dates
    and times of chrono.  Their text is read with the reader of Lang.v; the meaning of the constructs they use is given here.  The
    interpreter returns [None] for anything else.  The floats are those of Floats.v, dates and times those of DateTime.v. *)
From Coq Require Import String Ascii List NArith ZArith Bool SpecFloat.
From Verif Require Import Base PackDesc GenRecv Floats TablePackets DateTime Convert Setters Tokens Lang Meaning SourceTypes SpecExec
  SpecExecPackets.
Import ListNotations.
Open Scope string_scope.
Open Scope list_scope.
Open Scope Z_scope.

(** ** The text *)

(** A constant declared in a body is read as a [let] *)
Fixpoint const_let (t : token) : token :=
  match t with
  | TIdent x => if String.eqb x "const" then TIdent "let" else t
  | TGroup d l => TGroup d (map const_let l)
  | _ => t
  end.
(** types.rs *)
Definition types_fns : list lfn := match fns_of (map const_let (tokens_of types_rs)) with Some l => l | None => [] end.

(** ** Values *)

(** An integer has the name of its type, or none if it is a literal whose type is not yet known; a received packet is what its
    getters return; [XAdt] is a struct, or a constructor of an enum with its arguments ["0"], ["1"] *)
Inductive xval :=
| XInt (ty : string) (z : Z)
| XFloat (t : fty) (x : spec_float)
| XBool (b : bool)
| XTuple (l : list xval)
| XAdt (c : string) (fields : list (string * xval))
| XPacket (getters : list (string * res xval))
| XDate (d : date)
| XTime (t : time)
| XDuration (ns : Z)
| XNaive (d : datetime)
| XUtc (d : datetime).

Definition xenv := list (string * xval).
(** A value with the variables after it, or an early return *)
Inductive outcome := Val (v : xval) (e : xenv) | Early (v : xval).
Definition run := option (res outcome).

Definition bind (m : run) (k : xval -> xenv -> run) : run :=
  match m with
  | Some (Ret (Val v e)) => k v e
  | Some (Ret (Early v)) => Some (Ret (Early v))
  | Some Panic => Some Panic
  | Some Diverge => Some Diverge
  | None => None
  end.
Definition val (v : option xval) (e : xenv) : run := match v with Some v => Some (Ret (Val v e)) | None => None end.
(** The result of a library function *)
Definition lift (m : option (res xval)) (e : xenv) : run :=
  match m with
  | Some (Ret v) => Some (Ret (Val v e))
  | Some Panic => Some Panic
  | Some Diverge => Some Diverge
  | None => None
  end.

Fixpoint get {A} (x : string) (l : list (string * A)) : option A :=
  match l with [] => None | (y, v) :: r => if String.eqb x y then Some v else get x r end.
Fixpoint put (x : string) (v : xval) (l : list (string * xval)) : option (list (string * xval)) :=
  match l with
  | [] => None
  | (y, w) :: r => if String.eqb x y then Some ((y, v) :: r) else match put x v r with Some r' => Some ((y, w) :: r') | None => None end
  end.

(** ** Numbers *)

Notation "a =s? b" := (String.eqb a b) (at level 70).
Definition scalar_named (ty : string) : option scalar :=
  if ty =s? "u8" then Some U8 else if ty =s? "i8" then Some I8 else if ty =s? "u16" then Some U16
  else if ty =s? "i16" then Some I16 else if ty =s? "u32" then Some U32 else if ty =s? "i32" then Some I32 else None.
Definition range (ty : string) : option (Z * Z) :=
  if ty =s? "u8" then Some (0, 255)
  else if ty =s? "i8" then Some (-128, 127)
  else if ty =s? "u16" then Some (0, 65535)
  else if ty =s? "i16" then Some (-32768, 32767)
  else if ty =s? "u32" then Some (0, 4294967295)
  else if ty =s? "i32" then Some (-2147483648, 2147483647)
  else if ty =s? "i64" then Some (-9223372036854775808, 9223372036854775807)
  else None.
(** Whether every value of the second range is in the first *)
Definition wider (a b : Z * Z) : bool :=
  match fst a ?= fst b, snd b ?= snd a with Gt, _ | _, Gt => false | _, _ => true end.

(** [z as ty] *)
Definition int_as (ty : string) (z : Z) : option Z :=
  match range ty with
  | Some (lo, hi) => Some ((z - lo) mod (hi - lo + 1) + lo)
  | None => None
  end.
(** The result of an operation on [ty], which panics if it does not fit *)
Definition checked (ty : string) (z : Z) : option (res xval) :=
  match range ty with
  | Some (lo, hi) => Some (if (lo <=? z) && (z <=? hi) then Ret (XInt ty z) else Panic)
  | None => None
  end.
(** The type of two operands *)
Definition join (a b : string) : option string :=
  if String.eqb a "" then Some b else if String.eqb b "" then Some a else if String.eqb a b then Some a else None.

Fixpoint no_underscore (s : string) : string :=
  match s with
  | EmptyString => EmptyString
  | String c r => if Ascii.eqb c "_"%char then no_underscore r else String c (no_underscore r)
  end.
Definition fty_eqb (a b : fty) : bool := match a, b with FTy32, FTy32 | FTy64, FTy64 => true | _, _ => false end.

(** ** The library *)

Definition xsome (v : xval) : xval := XAdt "Some" [("0", v)].
Definition xnone : xval := XAdt "None" [].
Definition xoption {A} (f : A -> xval) (o : option A) : xval := match o with Some a => xsome (f a) | None => xnone end.

Definition int_op (o : binop) (ty : string) (a b : Z) : option (res xval) :=
  match o with
  | OAdd => checked ty (a + b)
  | OSub => checked ty (a - b)
  | OMul => checked ty (a * b)
  | OOr => Some (Ret (XInt ty (Z.lor a b)))
  | OGe => Some (Ret (XBool (b <=? a)))
  | _ => None
  end.
Definition float_op (o : binop) (t : fty) (a b : spec_float) : option (res xval) :=
  match o with
  | OAdd => Some (Ret (XFloat t (fadd t a b)))
  | OMul => Some (Ret (XFloat t (fmul t a b)))
  | OLt => Some (Ret (XBool (SFltb a b)))
  | OGt => Some (Ret (XBool (SFltb b a)))
  | OLe => Some (Ret (XBool (SFleb a b)))
  | _ => None
  end.
Definition bin_op (o : binop) (a b : xval) : option (res xval) :=
  match a, b with
  | XInt s x, XInt t y =>
      match join s t with
      | Some ty =>
          if ty =s? "" then
            match o with
            | OShl => Some (Ret (XInt "" (Z.shiftl x y)))
            | OOr => Some (Ret (XInt "" (Z.lor x y)))
            | _ => None
            end
          else int_op o ty x y
      | None => None
      end
  | XFloat s x, XFloat t y => if fty_eqb s t then float_op o s x y else None
  | XNaive d, XDuration n => match o with OAdd => Some (ret_map XNaive (add_nanoseconds d n)) | _ => None end
  | _, _ => None
  end.

Section Library.
  (** The float type [T] of [ScaleBack<T>]; the sign of a NaN that an operation produced, which is not specified *)
  Context (fl : fty) (nan_neg : bool).

  Definition call_fn (path : list string) (args : list xval) : option (res xval) :=
    let name := String.concat "::" path in
    if name =s? "Ok" then match args with [v] => Some (Ret (XAdt "Ok" [("0", v)])) | _ => None end
    else if name =s? "Err" then match args with [v] => Some (Ret (XAdt "Err" [("0", v)])) | _ => None end
    else if name =s? "NaiveDate::from_ymd_opt" then
      match args with
      | [XInt t1 y; XInt t2 m; XInt t3 d] =>
          if (t1 =s? "i32") && (t2 =s? "u32") && (t3 =s? "u32") then Some (Ret (xoption XDate (from_ymd_opt y m d))) else None
      | _ => None
      end
    else if name =s? "NaiveTime::from_hms_opt" then
      match args with
      | [XInt t1 h; XInt t2 m; XInt t3 s] =>
          if (t1 =s? "u32") && (t2 =s? "u32") && (t3 =s? "u32") then Some (Ret (xoption XTime (from_hms_opt h m s))) else None
      | _ => None
      end
    else if name =s? "NaiveDateTime::new" then match args with [XDate d; XTime t] => Some (Ret (XNaive (mk_dt d t))) | _ => None end
    else if name =s? "chrono::Duration::nanoseconds" then
      match args with [XInt t n] => if t =s? "i64" then Some (Ret (XDuration n)) else None | _ => None end
    else if name =s? "DateTime::from_naive_utc_and_offset" then
      match args with [XNaive d; XAdt u []] => if u =s? "Utc" then Some (Ret (XUtc d)) else None | _ => None end
    else
      match path, args with
      | [ty; f], [XInt s z] =>
          (** [T::from_i8] and the like; [i32::from(u16)] and the like, only if every value fits *)
          if (ty =s? "T") && (f =s? ("from_" ++ s)%string) then Some (Ret (xsome (XFloat fl (of_int fl z))))
          else if f =s? "from" then
            match range ty, range s with
            | Some r, Some r' => if wider r r' then Some (Ret (XInt ty z)) else None
            | _, _ => None
            end
          else None
      | [ty; f], [] =>
          match range ty with
          | Some (lo, hi) =>
              if f =s? "min_value" then Some (Ret (XInt ty lo)) else if f =s? "max_value" then Some (Ret (XInt ty hi)) else None
          | None => None
          end
      | _, _ => None
      end.

  Definition call_method (m : string) (self : xval) (args : list xval) : option (res xval) :=
    match self, args with
    | XPacket getters, [] => get m getters
    | XAdt c fs, [] =>
        if m =s? "unwrap" then
          match fs with
          | [(_, v)] => if c =s? "Some" then Some (Ret v) else None
          | _ => if c =s? "None" then Some Panic else None
          end
        else None
    | XAdt c fs, [e] =>
        if m =s? "ok_or" then
          match fs with
          | [(_, v)] => if c =s? "Some" then Some (Ret (XAdt "Ok" [("0", v)])) else None
          | _ => if c =s? "None" then Some (Ret (XAdt "Err" [("0", e)])) else None
          end
        else None
    | XInt ty z, [] =>
        if m =s? "wrapping_abs" then
          match range ty with Some (lo, _) => Some (Ret (XInt ty (if z =? lo then z else Z.abs z))) | None => None end
        else None
    | XFloat t x, [] =>
        let ty := String.substring 3 3 m in
        if m =s? "round" then Some (Ret (XFloat t (fround t x)))
        else if m =s? "is_sign_negative" then Some (Ret (XBool (is_sign_negative nan_neg x)))
        else match scalar_named ty with
             | Some s => if m =s? ("to_" ++ ty)%string then Some (Ret (xoption (XInt ty) (to_scalar s x))) else None
             | None => None
             end
    | XUtc d, [] =>
        if m =s? "year_ce" then Some (Ret (XTuple [XBool (fst (year_ce (dt_date d))); XInt "u32" (snd (year_ce (dt_date d)))]))
        else if m =s? "month0" then Some (Ret (XInt "u32" (d_month (dt_date d) - 1)))
        else if m =s? "hour" then Some (Ret (XInt "u32" (t_hour (dt_time d))))
        else if m =s? "minute" then Some (Ret (XInt "u32" (t_min (dt_time d))))
        else if m =s? "second" then Some (Ret (XInt "u32" (t_sec (dt_time d))))
        else if m =s? "nanosecond" then Some (Ret (XInt "u32" (t_nano (dt_time d))))
        else None
    | _, _ => None
    end.

  Definition path_value (path : list string) (e : xenv) : option xval :=
    match path with
    | [x] => match get x e with Some v => Some v | None => if x =s? "Utc" then Some (XAdt "Utc" []) else None end
    | [ty; c] =>
        if ty =s? "DateTimeError" then Some (XAdt c [])
        else match range ty with
             | Some (lo, hi) => if c =s? "MIN" then Some (XInt ty lo) else if c =s? "MAX" then Some (XInt ty hi) else None
             | None => None
             end
    | _ => None
    end.

  Definition cast (v : xval) (ty : string) : option (res xval) :=
    match v with
    | XInt _ z => match int_as ty z with Some z' => Some (Ret (XInt ty z')) | None => None end
    | XFloat _ x => match scalar_named ty with Some s => Some (Ret (XInt ty (float_as s x))) | None => None end
    | _ => None
    end.

  (** A literal gets the type of its place *)
  Definition typed (ty : string) (v : xval) : xval := match v with XInt t z => if t =s? "" then XInt ty z else v | _ => v end.

  Fixpoint bind_pats (ps : list lpat) (vs : list xval) (e : xenv) : option xenv :=
    match ps, vs with
    | [], [] => Some e
    | LVar x :: ps', v :: vs' => bind_pats ps' vs' ((x, v) :: e)
    | LWild :: ps', _ :: vs' => bind_pats ps' vs' e
    | LBool b :: ps', XBool c :: vs' => if Bool.eqb b c then bind_pats ps' vs' e else None
    | _, _ => None
    end.

  (** The variables at the end of a block: those from before it *)
  Definition leave (e : xenv) (r : run) : run :=
    bind r (fun v e' => Some (Ret (Val v (skipn (length e' - length e) e')))).

  (** ** Expressions *)

  Section Lists.
    Context (ev : xenv -> expr -> run).
    Fixpoint list_of (e : xenv) (l : list expr) (k : list xval -> xenv -> run) : run :=
      match l with
      | [] => k [] e
      | x :: r => bind (ev e x) (fun v e1 => list_of e1 r (fun vs e2 => k (v :: vs) e2))
      end.
    Fixpoint fields_of (e : xenv) (l : list (string * expr)) (k : list (string * xval) -> xenv -> run) : run :=
      match l with
      | [] => k [] e
      | (f, x) :: r => bind (ev e x) (fun v e1 => fields_of e1 r (fun vs e2 => k ((f, v) :: vs) e2))
      end.
    Fixpoint stmts (e : xenv) (l : list expr) : run :=
      match l with
      | [] => Some (Ret (Val (XTuple []) e))
      | [ESemi x] => bind (ev e x) (fun _ e1 => Some (Ret (Val (XTuple []) e1)))
      | [x] => ev e x
      | ELet (LVar v) [] x :: r => bind (ev e x) (fun w e1 => stmts ((v, w) :: e1) r)
      | ELet (LCtor [v] []) [TIdent ty] x :: r => bind (ev e x) (fun w e1 => stmts ((v, typed ty w) :: e1) r)
      | ESemi x :: r => bind (ev e x) (fun _ e1 => stmts e1 r)
      | _ => None
      end.
    Fixpoint pick (e : xenv) (vs : list xval) (arms : list (lpat * expr)) : run :=
      match arms with
      | (LTuple ps, y) :: r => match bind_pats ps vs e with Some e1 => leave e (ev e1 y) | None => pick e vs r end
      | _ => None
      end.
  End Lists.

  Fixpoint eval (n : nat) (e : xenv) (x : expr) {struct n} : run :=
    match n with
    | O => None
    | S n =>
        let ev := eval n in
        match x with
        | ENum z _ => Some (Ret (Val (XInt "" (Z.of_N z)) e))
        | EFloat s => match decimal (no_underscore s) with Some (m, ex) => Some (Ret (Val (XFloat FTy64 (lit FTy64 m ex)) e)) | None => None end
        | EPath p => val (path_value p e) e
        | EField a f => bind (ev e a) (fun v e1 => match v with XAdt _ fs => val (get f fs) e1 | _ => None end)
        | EBin o a b => bind (ev e a) (fun v e1 => bind (ev e1 b) (fun w e2 => lift (bin_op o v w) e2))
        | EUn UNot a => bind (ev e a) (fun v e1 => match v with XBool b => Some (Ret (Val (XBool (negb b)) e1)) | _ => None end)
        | ECall p args => list_of ev e args (fun vs e1 => lift (call_fn p vs) e1)
        | EMethod a m args => bind (ev e a) (fun v e1 => list_of ev e1 args (fun vs e2 => lift (call_method m v vs) e2))
        | EStruct [c] fs => fields_of ev e fs (fun vs e1 => Some (Ret (Val (XAdt c vs) e1)))
        | EIf c t f =>
            bind (ev e c) (fun v e1 =>
              match v with
              | XBool true => ev e1 t
              | XBool false => match f with Some y => ev e1 y | None => Some (Ret (Val (XTuple []) e1)) end
              | _ => None
              end)
        | EMatch a arms =>
            bind (ev e a) (fun v e1 =>
              match v with
              | XTuple vs => pick ev e1 vs arms
              | _ => None
              end)
        | EMacro m _ => if m =s? "panic" then Some Panic else None
        | EReturn (Some a) => bind (ev e a) (fun v _ => Some (Ret (Early v)))
        | ETry a =>
            bind (ev e a) (fun v e1 =>
              match v with
              | XAdt c [(_, w)] =>
                  if c =s? "Ok" then Some (Ret (Val w e1)) else if c =s? "Err" then Some (Ret (Early v)) else None
              | _ => None
              end)
        | ECast a [TIdent ty] => bind (ev e a) (fun v e1 => lift (cast v ty) e1)
        | EBlock l => leave e (stmts ev e l)
        | EAssign o (EField (EPath [s]) f) a =>
            (** [self.f = a] and [self.f |= a] *)
            bind (ev e a) (fun w e1 =>
              match get s e1 with
              | Some (XAdt c fs) =>
                  match get f fs with
                  | Some old =>
                      bind (match o with None => Some (Ret (Val w e1)) | Some o => lift (bin_op o old w) e1 end) (fun w' e2 =>
                        match put f w' fs with
                        | Some fs' => match put s (XAdt c fs') e2 with Some e3 => Some (Ret (Val (XTuple []) e3)) | None => None end
                        | None => None
                        end)
                  | None => None
                  end
              | _ => None
              end)
        | _ => None
        end
    end.

  (** A call of a function with arguments: the names of its parameters are bound, a literal gets its result type *)
  Definition run_fn (n : nat) (f : lfn) (args : list xval) : option (res xval) :=
    if Nat.eqb (length args) (length (lf_params f)) then
      match eval n (combine (map fst (lf_params f)) args) (lf_body f) with
      | Some (Ret (Val v _)) | Some (Ret (Early v)) =>
          Some (Ret (match lf_ret f with [TIdent ty] => typed ty v | _ => v end))
      | Some Panic => Some Panic
      | Some Diverge => Some Diverge
      | None => None
      end
    else None.

  (** The function [name] of the [impl] of [trait ... from ...] (any, if [from] is empty) for the type [ty] *)
  Definition find_fn (fns : list lfn) (ty from name : string) : option lfn :=
    find (fun f => String.eqb (lf_type f) ty && String.eqb (lf_name f) name &&
                   (String.eqb from "" || existsb (token_eqb (TIdent from)) (lf_trait f))) fns.
  Definition text_convert (fns : list lfn) (n : nat) (ty from name : string) (args : list xval) : option (res xval) :=
    match find_fn fns ty from name with Some f => run_fn n f args | None => None end.
End Library.

(** ** The values of the model *)

(** The getters which types.rs uses of a packet with the given payload (their text is treated by C70 and C71) *)
Definition f64 (x : res spec_float) : res xval := ret_map (XFloat FTy64) x.
Definition int (ty : string) (x : res Z) : res xval := ret_map (XInt ty) x.
Definition nav_pos_llh_v (payload : list byte) : xval :=
  XPacket [("lon_degrees", f64 (NavPosLlh_lon_degrees payload));
           ("lat_degrees", f64 (NavPosLlh_lat_degrees payload));
           ("height_msl", f64 (NavPosLlh_height_msl payload))].
Definition nav_hp_pos_llh_v (payload : list byte) : xval :=
  XPacket [("lon_degrees", f64 (NavHpPosLlh_lon_degrees payload));
           ("lat_degrees", f64 (NavHpPosLlh_lat_degrees payload));
           ("height_msl", f64 (NavHpPosLlh_height_msl payload));
           ("lon_hp_degrees", f64 (NavHpPosLlh_lon_hp_degrees payload));
           ("lat_hp_degrees", f64 (NavHpPosLlh_lat_hp_degrees payload));
           ("height_hp_msl", f64 (NavHpPosLlh_height_hp_msl payload))].
Definition nav_hp_pos_ecef_v (payload : list byte) : xval :=
  XPacket [("ecef_x_cm", f64 (NavHpPosEcef_ecef_x_cm payload));
           ("ecef_y_cm", f64 (NavHpPosEcef_ecef_y_cm payload));
           ("ecef_z_cm", f64 (NavHpPosEcef_ecef_z_cm payload));
           ("ecef_x_hp_mm", f64 (NavHpPosEcef_ecef_x_hp_mm payload));
           ("ecef_y_hp_mm", f64 (NavHpPosEcef_ecef_y_hp_mm payload));
           ("ecef_z_hp_mm", f64 (NavHpPosEcef_ecef_z_hp_mm payload))].
Definition nav_vel_ned_v (payload : list byte) : xval :=
  XPacket [("ground_speed", f64 (NavVelNed_ground_speed payload));
           ("heading_degrees", f64 (NavVelNed_heading_degrees payload))].
Definition nav_pvt_v (payload : list byte) : xval :=
  XPacket [("lon_degrees", f64 (NavPvt_lon_degrees payload));
           ("lat_degrees", f64 (NavPvt_lat_degrees payload));
           ("height_msl", f64 (NavPvt_height_msl payload));
           ("ground_speed", f64 (NavPvt_ground_speed payload));
           ("heading_degrees", f64 (NavPvt_heading_degrees payload));
           ("year", int "u16" (NavPvt_year payload));
           ("month", int "u8" (NavPvt_month payload));
           ("day", int "u8" (NavPvt_day payload));
           ("hour", int "u8" (NavPvt_hour payload));
           ("min", int "u8" (NavPvt_min payload));
           ("sec", int "u8" (NavPvt_sec payload));
           ("nanosecond", int "i32" (NavPvt_nanosecond payload))].

Definition position_v (p : position) : xval :=
  XAdt "Position" [("lon", XFloat FTy64 (pos_lon p)); ("lat", XFloat FTy64 (pos_lat p)); ("alt", XFloat FTy64 (pos_alt p))].
Definition ecef_v (p : position_ecef) : xval :=
  XAdt "PositionECEF" [("x", XFloat FTy64 (ecef_x p)); ("y", XFloat FTy64 (ecef_y p)); ("z", XFloat FTy64 (ecef_z p))].
Definition velocity_v (v : velocity) : xval :=
  XAdt "Velocity" [("speed", XFloat FTy64 (vel_speed v)); ("heading", XFloat FTy64 (vel_heading v))].
Definition datetime_error_v (e : datetime_error) : xval :=
  XAdt (match e with InvalidDate => "InvalidDate" | InvalidTime => "InvalidTime" | InvalidNanoseconds => "InvalidNanoseconds" end) [].
Definition datetime_result_v (r : datetime + datetime_error) : xval :=
  match r with inl d => XAdt "Ok" [("0", XUtc d)] | inr e => XAdt "Err" [("0", datetime_error_v e)] end.
(** packets.rs 1224-1245: the fields of [AidIniBuilder] *)
Definition aid_ini_v (b : aid_ini) : xval :=
  let '(ecef_x_or_lat, (ecef_y_or_lon, (ecef_z_or_alt, (pos_accuracy, (time_cfg, (week_or_ym, (tow_or_hms,
        (tow_ns, (tm_accuracy_ms, (tm_accuracy_ns, (clk_drift_or_freq, (clk_drift_or_freq_accuracy,
        (flags, tt))))))))))))) := b in
  XAdt "AidIniBuilder"
    [("ecef_x_or_lat", XInt "i32" ecef_x_or_lat); ("ecef_y_or_lon", XInt "i32" ecef_y_or_lon);
     ("ecef_z_or_alt", XInt "i32" ecef_z_or_alt); ("pos_accuracy", XInt "u32" pos_accuracy); ("time_cfg", XInt "u16" time_cfg);
     ("week_or_ym", XInt "u16" week_or_ym); ("tow_or_hms", XInt "u32" tow_or_hms); ("tow_ns", XInt "i32" tow_ns);
     ("tm_accuracy_ms", XInt "u32" tm_accuracy_ms); ("tm_accuracy_ns", XInt "u32" tm_accuracy_ns);
     ("clk_drift_or_freq", XInt "i32" clk_drift_or_freq); ("clk_drift_or_freq_accuracy", XInt "u32" clk_drift_or_freq_accuracy);
     ("flags", XInt "u32" flags)].
(** [ScaleBack(x)] *)
Definition scale_back_v (t : fty) (x : spec_float) : xval := XAdt "ScaleBack" [("0", XFloat t x)].
