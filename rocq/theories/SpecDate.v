(** * Specification: calendar dates and instants *)
From Coq Require Import List ZArith Bool.
From Verif Require Import DateTime.
Import ListNotations.
Open Scope Z_scope.

(** Every fourth year has a leap day, but of the centuries only every fourth *)
Definition leap_year (y : Z) : bool :=
  if y mod 400 =? 0 then true else if y mod 100 =? 0 then false else y mod 4 =? 0.

Definition month_length (y m : Z) : Z :=
  nth (Z.to_nat (m - 1)) [31; if leap_year y then 29 else 28; 31; 30; 31; 30; 31; 31; 30; 31; 30; 31] 0.

(** [y]-[m]-[d] is a date of the Gregorian calendar; [h]:[m]:[s] is a time of day *)
Definition is_date (y m d : Z) : Prop := 1 <= m <= 12 /\ 1 <= d <= month_length y m.
Definition is_time (h m s : Z) : Prop := 0 <= h < 24 /\ 0 <= m < 60 /\ 0 <= s < 60.

(** Days since the last day of the year -1 (so 0000-01-01 is day 1): 365 for each year, one more for each leap
    year before, and the days of the months before *)
Definition day_number (y m d : Z) : Z :=
  365 * y + ((y + 3) / 4 - (y + 99) / 100 + (y + 399) / 400) +
  nth (Z.to_nat (m - 1)) [0; 31; 59; 90; 120; 151; 181; 212; 243; 273; 304; 334] 0 +
  (if leap_year y && (2 <? m) then 1 else 0) + d.

(** Nanoseconds since the start of day 0 *)
Definition instant_of (y m d h mi s : Z) (nano : Z) : Z :=
  (day_number y m d * 86400 + h * 3600 + mi * 60 + s) * 1000000000 + nano.

(** A date and time that exists *)
Definition proper (x : datetime) : Prop :=
  is_date (d_year (dt_date x)) (d_month (dt_date x)) (d_day (dt_date x)) /\
  is_time (t_hour (dt_time x)) (t_min (dt_time x)) (t_sec (dt_time x)) /\
  0 <= t_nano (dt_time x) < 1000000000.

(** The instant it denotes (UTC without leap seconds) *)
Definition instant (x : datetime) : Z :=
  instant_of (d_year (dt_date x)) (d_month (dt_date x)) (d_day (dt_date x))
             (t_hour (dt_time x)) (t_min (dt_time x)) (t_sec (dt_time x)) (t_nano (dt_time x)).
