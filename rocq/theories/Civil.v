(** Civil: the proleptic Gregorian calendar used by pandas periods.
    Days are counted from 1970-01-01, months from January 1970 (pandas' ordinals
    of frequencies 'D' and 'M').  This file models pandas, not timeboard. *)
From Verif Require Import Base.

(** Leap year, [y] counted from year 2000 (2000 is divisible by 400). *)
Definition leap (y : Z) : bool :=
  ((y mod 4 =? 0) && negb (y mod 100 =? 0)) || (y mod 400 =? 0).

(** Days from 2000-01-01 to January 1 of year 2000+[y]. *)
Definition days_before_year (y : Z) : Z :=
  365 * y + (y + 3) / 4 - (y + 99) / 100 + (y + 399) / 400.

(** Days before month [m] (0..11) in a non-leap year. *)
Definition cum_days (m : Z) : Z :=
  if m <=? 0 then 0 else if m =? 1 then 31 else if m =? 2 then 59
  else if m =? 3 then 90 else if m =? 4 then 120 else if m =? 5 then 151
  else if m =? 6 then 181 else if m =? 7 then 212 else if m =? 8 then 243
  else if m =? 9 then 273 else if m =? 10 then 304 else 334.

(** Day on which month [k] (months since January 2000) starts, since 2000-01-01. *)
Definition month_start2000 (k : Z) : Z :=
  let y := k / 12 in let m := k mod 12 in
  days_before_year y + cum_days m + (if (2 <=? m) && leap y then 1 else 0).

(** Month containing day [doe] of a 400-year era, 0 <= doe < 146097. *)
Definition month_of_doe (doe : Z) : Z :=
  let g := doe * 4800 / 146097 in
  if doe <? month_start2000 g then g - 1
  else if month_start2000 (g + 1) <=? doe then g + 1 else g.

Definition month_of_day2000 (d : Z) : Z :=
  (d / 146097) * 4800 + month_of_doe (d mod 146097).

(** Day number (since 1970-01-01) of the first day of month [k] (since 1970-01). *)
Definition month_start (k : Z) : Z := month_start2000 (k - 360) + 10957.

(** Month (since 1970-01) containing day [d] (since 1970-01-01). *)
Definition month_of_day (d : Z) : Z := month_of_day2000 (d - 10957) + 360.

(** Day number of the date year-month-day (no range check on the day). *)
Definition date (y m d : Z) : Z := month_start ((y - 1970) * 12 + (m - 1)) + (d - 1).

(** Calendar year and month (1..12) and day of month of a day number. *)
Definition year_of (d : Z) : Z := 1970 + month_of_day d / 12.
Definition month_num (d : Z) : Z := month_of_day d mod 12 + 1.
Definition mday_of (d : Z) : Z := d - month_start (month_of_day d) + 1.
Definition month_len (k : Z) : Z := month_start (k + 1) - month_start k.

(** Weekday of a day number: Monday = 0 .. Sunday = 6 (1970-01-01 is a Thursday). *)
Definition weekday (d : Z) : Z := (d + 3) mod 7.

Example civil_ex1 : date 1970 1 1 = 0. Proof. reflexivity. Qed.
Example civil_ex2 : weekday (date 2017 1 2) = 0. Proof. vm_compute; reflexivity. Qed.
Example civil_ex3 : (year_of (date 2016 2 29), month_num (date 2016 2 29),
                     mday_of (date 2016 2 29)) = (2016, 2, 29).
Proof. vm_compute; reflexivity. Qed.
