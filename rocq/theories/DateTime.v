(** * NAV-PVT as a date and time: [TryFrom<&NavPvtRef> for DateTime<Utc>]

    The crate chrono is modelled by its documented behaviour (proleptic Gregorian calendar, no leap seconds
    from [from_hms_opt]); its source is not part of the repository. *)
From Coq Require Import String List NArith ZArith Bool.
From Verif Require Import Base PackDesc GenRecv TablePackets.
Import ListNotations.
Open Scope Z_scope.

(** [NaiveDate]; [NaiveTime] with nanoseconds below 10^9; [NaiveDateTime] *)
Record date := mk_date { d_year : Z; d_month : Z; d_day : Z }.
Record time := mk_time { t_hour : Z; t_min : Z; t_sec : Z; t_nano : Z }.
Record datetime := mk_dt { dt_date : date; dt_time : time }.

Definition is_leap (y : Z) : bool := (y mod 4 =? 0) && (negb (y mod 100 =? 0) || (y mod 400 =? 0)).
Definition days_in_month (y m : Z) : Z :=
  if m =? 2 then (if is_leap y then 29 else 28)
  else if (m =? 4) || (m =? 6) || (m =? 9) || (m =? 11) then 30 else 31.

(** The years chrono can represent: [NaiveDate::MIN] is in -262144 or later (the exact end depends on the version
    of chrono), [NaiveDate::MAX] in 262142 or later *)
Definition year_ok (y : Z) : bool := (-262143 <=? y) && (y <=? 262142).

(** [NaiveDate::from_ymd_opt] *)
Definition from_ymd_opt (y m d : Z) : option date :=
  if year_ok y && (1 <=? m) && (m <=? 12) && (1 <=? d) && (d <=? days_in_month y m) then Some (mk_date y m d) else None.

(** [NaiveTime::from_hms_opt] *)
Definition from_hms_opt (h m s : Z) : option time :=
  if (h <? 24) && (m <? 60) && (s <? 60) then Some (mk_time h m s 0) else None.

(** The day after and the day before *)
Definition succ_date (x : date) : date :=
  let 'mk_date y m d := x in
  if d <? days_in_month y m then mk_date y m (d + 1)
  else if m <? 12 then mk_date y (m + 1) 1 else mk_date (y + 1) 1 1.
Definition pred_date (x : date) : date :=
  let 'mk_date y m d := x in
  if 1 <? d then mk_date y m (d - 1)
  else if 1 <? m then mk_date y (m - 1) (days_in_month y (m - 1)) else mk_date (y - 1) 12 31.
Definition add_days (x : date) (n : Z) : date :=
  if 0 <=? n then Nat.iter (Z.to_nat n) succ_date x else Nat.iter (Z.to_nat (- n)) pred_date x.

(** [NaiveDateTime + Duration::nanoseconds(n)]: the time of day wraps around and carries into the date;
    panics outside of the representable years *)
Definition ns_per_day : Z := 86400 * 1000000000.
Definition add_nanoseconds (x : datetime) (n : Z) : res datetime :=
  let t := dt_time x in
  let total := ((t_hour t * 60 + t_min t) * 60 + t_sec t) * 1000000000 + t_nano t + n in
  let day := add_days (dt_date x) (total / ns_per_day) in
  let r := total mod ns_per_day in
  let s := r / 1000000000 in
  if year_ok (d_year day) then
    Ret (mk_dt day (mk_time (s / 3600) (s / 60 mod 60) (s mod 60) (r mod 1000000000)))
  else Panic.

(** error.rs 76-80: [DateTimeError] *)
Inductive datetime_error := InvalidDate | InvalidTime | InvalidNanoseconds.

(** [i32::wrapping_abs(x) as u32] *)
Definition wrapping_abs_as_u32 (x : Z) : Z := Z.abs x mod 2 ^ 32.

(** types.rs 104-126 on the values of the getters *)
Definition datetime_of_fields (year month day hour min sec nanosecond : Z) : res (datetime + datetime_error) :=
  match from_ymd_opt year month day with                              (* 105-110 *)
  | None => Ret (inr InvalidDate)
  | Some date =>
      match from_hms_opt hour min sec with                            (* 111-116 *)
      | None => Ret (inr InvalidTime)
      | Some time =>
          if 1000000000 <=? wrapping_abs_as_u32 nanosecond            (* 117-120 *)
          then Ret (inr InvalidNanoseconds)
          else
            let! dt := add_nanoseconds (mk_dt date time) nanosecond in (* 122-123 *)
            Ret (inl dt)
      end
  end.

(** The getters of NAV-PVT, packets.rs 236-244 *)
Definition NavPvt_year : list byte -> res Z := g_val (the_getter p_nav_pvt "year").
Definition NavPvt_month : list byte -> res Z := g_val (the_getter p_nav_pvt "month").
Definition NavPvt_day : list byte -> res Z := g_val (the_getter p_nav_pvt "day").
Definition NavPvt_hour : list byte -> res Z := g_val (the_getter p_nav_pvt "hour").
Definition NavPvt_min : list byte -> res Z := g_val (the_getter p_nav_pvt "min").
Definition NavPvt_sec : list byte -> res Z := g_val (the_getter p_nav_pvt "sec").
Definition NavPvt_nanosecond : list byte -> res Z := g_val (the_getter p_nav_pvt "nanosecond").

(** types.rs 102-127: [DateTime::<Utc>::try_from(&NavPvtRef)] *)
Definition datetime_try_from (payload : list byte) : res (datetime + datetime_error) :=
  let! year := NavPvt_year payload in
  let! month := NavPvt_month payload in
  let! day := NavPvt_day payload in
  let! hour := NavPvt_hour payload in
  let! min := NavPvt_min payload in
  let! sec := NavPvt_sec payload in
  let! nanosecond := NavPvt_nanosecond payload in
  datetime_of_fields year month day hour min sec nanosecond.
