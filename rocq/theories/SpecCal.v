(** Specification of the preconfigured calendars (C38 for calendarbase.py, C39, C40, C43). *)
From Verif Require Import Base Civil Freq Frame Timeline Board Spec Calendars SpecWhen.
From Coq Require Import String QArith.
Open Scope Z_scope.

(** ** n-th weekday of a month in a year: (month, weekday, n, shift) *)
Definition seek_valid (s : seek) : Prop :=
  let '(m, w, n, _) := s in 1 <= m <= 12 /\ 1 <= w <= 7 /\ 1 <= Z.abs n <= 5.
Definition seek_finds (year : Z) (s : seek) (d : Z) : Prop :=
  let '(m, w, n, shift) := s in
  exists e, nth_weekday (12 * (year - 1970) + (m - 1)) (w - 1) n e /\ d = e + shift.

(** ** Extending weekends *)
(** The value of the timestamp [t] in the mapping made of the items of [am]: that of the last item
    whose key means [t]. *)
Definition last_value {L : Type} (am : list (akey * L)) (t : Z) (x : L) : Prop :=
  exists l1 k l2, am = l1 ++ (k, x) :: l2 /\ key_ts k = t /\ forall q, In q l2 -> key_ts (fst q) <> t.
(** [n] is the first day, in the direction asked for, that is not [taken], starting with the day
    next to the weekend; the holiday [h] is day number [loc] of the weekend. *)
Definition first_free (how : extend_how) (weekend : list Z) (taken : Z -> Prop) (h n : Z) : Prop :=
  exists loc k, nth_error weekend loc = Some (weekday (h / NS_DAY))
    /\ (forall j, (j < loc)%nat -> nth_error weekend j <> Some (weekday (h / NS_DAY)))
    /\ let before := match how with
                     | HPrevious => true | HNext => false
                     | HNearest => Z.of_nat loc <? Z.of_nat (List.length weekend) / 2 end in
       let day_no i := if before then h - (Z.of_nat loc + 1 + i) * NS_DAY
                       else h + (Z.of_nat (List.length weekend) - Z.of_nat loc + i) * NS_DAY in
       0 <= k /\ n = day_no k /\ ~ taken n /\ forall i, 0 <= i < k -> taken (day_no i).

(** ** The calendars *)
(** On the timeboard the instant [t] is in a workshift that is one calendar day (referred to by its
    start), has the label [x], a worktime of [x] hours and, under the default schedule, the duty [b]. *)
Definition shows (tb : timeboard Z) (t x : Z) (b : bool) : Prop :=
  exists w, get_workshift tb t None = Ok w /\ ws_label w = x
    /\ starts_at tb (ws_loc w) (t / NS_DAY * NS_DAY) /\ ends_at tb (ws_loc w) ((t / NS_DAY + 1) * NS_DAY - 1)
    /\ ref_at tb (ws_loc w) (t / NS_DAY * NS_DAY)
    /\ ws_worktime tb w DAny None = Ok (inject_Z x) /\ is_on_duty tb w (tb_default tb) = Ok b.

(** A supported range: from the start of 1 Jan of year [y0] to 23:59:59 of 31 Dec of year [y1]. *)
Definition supported (y0 y1 t : Z) : Prop :=
  date y0 1 1 * NS_DAY <= t <= date y1 12 31 * NS_DAY + 86399 * NS_SEC.
Definition bounds_supported (y0 y1 : Z) (o : cal_opts) : Prop :=
  (forall t, cu_start o = Some t -> supported y0 y1 t) /\ (forall t, cu_end o = Some t -> supported y0 y1 t).
(** First and last day of the calendar. *)
Definition from_day (y0 : Z) (o : cal_opts) : Z := match cu_start o with Some t => t / NS_DAY | None => date y0 1 1 end.
Definition to_day (y1 : Z) (o : cal_opts) : Z := match cu_end o with Some t => t / NS_DAY | None => date y1 12 31 end.
(** The same calendar without custom bounds. *)
Definition unbounded (o : cal_opts) : cal_opts := mkOpts None None (cu_no_amend o) (cu_only o) (cu_custom o).

(** Two different items of the user's dictionary for one day of the calendar. *)
Definition same_day_twice (d0 d1 : Z) (l : list (Z * Z)) : Prop :=
  exists j k t1 x1 t2 x2, j <> k /\ nth_error l j = Some (t1, x1) /\ nth_error l k = Some (t2, x2)
    /\ t1 / NS_DAY = t2 / NS_DAY /\ d0 <= t1 / NS_DAY <= d1.
(** The user's dictionary has an item for a fixed-date holiday of the calendar. *)
Definition custom_on_fixed (d0 d1 : Z) (fixed : list (string * (Z * Z))) (skip : list string) (l : list (Z * Z)) : Prop :=
  exists t x name m dd y, In (t, x) l /\ In (name, (m, dd)) fixed /\ ~ In name skip
    /\ t / NS_DAY = date y m dd /\ d0 <= t / NS_DAY <= d1.

(** When the amendments given to the timeboard have two items for one day: the user's own
    dictionary alone has; or the dates of fixed holidays are left as strings (long_weekends is
    false) and the user's dictionary names such a day too. *)
Definition duplicates (d0 d1 : Z) (fixed : list (string * (Z * Z))) (skip : list string) (long : bool) (o : cal_opts) : Prop :=
  cu_no_amend o = false
  /\ exists l, cu_custom o = Some l
       /\ (if cu_only o then same_day_twice d0 d1 l else long = false /\ custom_on_fixed d0 d1 fixed skip l).

Local Open Scope string_scope.
Local Open Scope Z_scope.
Definition us_dates : list (string * (Z * Z)) :=
  [("new_year", (1, 1)); ("independence", (7, 4)); ("veterans", (11, 11)); ("christmas", (12, 25))].
(** Which fixed-date holidays there are besides the ones ignored depends on the country. *)
Definition uk_dates (country : string) : list (string * (Z * Z)) :=
  [("new_year", (1, 1)); ("christmas", (12, 25)); ("boxing", (12, 26))]
  ++ (if String.eqb country "england" then []
      else (if String.eqb country "northern_ireland" then [] else [("new_year2", (1, 2)); ("st_andrews", (11, 30))])
           ++ (if String.eqb country "scotland" then [] else [("st_patricks", (3, 17)); ("orangemens", (7, 12))])).

(** The hours of a day by its weekday: 8 from Monday to Friday, 0 on Saturday and Sunday. *)
Definition weekly_hours (d : Z) : Z := if weekday d <? 5 then 8 else 0.
(** The value of day [d] in the user's dictionary: that of the last item for that day. *)
Definition custom_value (l : list (Z * Z)) (d x : Z) : Prop :=
  exists l1 t l2, l = (l1 ++ (t, x) :: l2)%list /\ t / NS_DAY = d /\ forall q, In q l2 -> fst q / NS_DAY <> d.
(** The hours [x] of day [d]; [std]: the hours when nothing is said by the user. *)
Definition day_hours (o : cal_opts) (std : Z -> Z -> Prop) (d x : Z) : Prop :=
  if cu_no_amend o then x = weekly_hours d
  else let l := opt_or (cu_custom o) [] in
       custom_value l d x
       \/ ((forall q, In q l -> fst q / NS_DAY <> d) /\ (if cu_only o then x = weekly_hours d else std d x)).

(** The result of a calendar's constructor. *)
Definition outcome (y0 y1 : Z) (o : cal_opts) (dup : Prop) (std : Z -> Z -> Prop) (r : res (timeboard Z)) : Prop :=
  (~ bounds_supported y0 y1 o -> r = Err EOutOfBounds)
  /\ (bounds_supported y0 y1 o -> to_day y1 o < from_day y0 o -> r = Err EVoidInterval)
  /\ (bounds_supported y0 y1 o -> from_day y0 o <= to_day y1 o -> dup -> r = Err EKey)
  /\ (bounds_supported y0 y1 o -> from_day y0 o <= to_day y1 o -> ~ dup ->
      exists tb, r = Ok tb /\ tb_start_time tb = from_day y0 o * NS_DAY /\ tb_end_time tb = (to_day y1 o + 1) * NS_DAY - 1
        /\ forall t, from_day y0 o <= t / NS_DAY <= to_day y1 o -> forall x b,
             shows tb t x b <-> day_hours o std (t / NS_DAY) x /\ b = negb (x =? 0)).

(** ** Days off *)
Definition off_hours (off : Z -> Prop) (d x : Z) : Prop := (off d /\ x = 0) \/ (~ off d /\ x = weekly_hours d).
(** [d] is one of the fixed dates (month, day) in [tbl], its name not being ignored. *)
Definition fixed_on (tbl : list (string * (Z * Z))) (skip : list string) (d : Z) : bool :=
  existsb (fun q => if existsb (String.eqb (fst q)) skip then false else d =? date (year_of d) (fst (snd q)) (snd (snd q))) tbl.
(** [d] is one of the n-th weekdays in [tbl]. *)
Definition weekday_on (tbl : list (string * seek)) (skip : list string) (d : Z) : Prop :=
  exists name s, In (name, s) tbl /\ ~ In name skip /\ seek_finds (year_of d) s d.
(** [d] is at one of the distances from the western Easter Sunday. *)
Definition easter_on (tbl : list (string * Z)) (skip : list string) (d : Z) : Prop :=
  exists name k, In (name, k) tbl /\ ~ In name skip /\ d = easter_gregorian (year_of d) + k.

(** US: (month, weekday, n, shift) *)
Definition us_weekdays : list (string * seek) :=
  [("mlk", (1, 1, 3, 0)); ("presidents", (2, 1, 3, 0)); ("memorial", (5, 1, -1, 0)); ("labor", (9, 1, 1, 0));
   ("columbus", (10, 1, 2, 0)); ("thanksgiving", (11, 4, 4, 0)); ("black_friday", (11, 4, 4, 1))].
(** [y0], [y1]: years of the first and the last day of the calendar.  A holiday on Saturday makes
    the Friday before it a day off, a holiday on Sunday the Monday after it. *)
Definition us_off (y0 y1 : Z) (skip : list string) (long : bool) (d : Z) : Prop :=
  fixed_on us_dates skip d = true
  \/ (long = true /\ (weekday d = 0 /\ fixed_on us_dates skip (d - 1) = true
                      \/ weekday d = 4 /\ fixed_on us_dates skip (d + 1) = true /\ year_of (d + 1) <= y1))
  \/ weekday_on us_weekdays skip d
  \/ (~ In "one_off" skip /\ d = date 2018 12 5)
  \/ (~ In "xmas_additional_day" skip /\ (d = date 2018 12 24 \/ (d = date 2018 12 26 /\ y0 <= 2014))).

(** UK *)
Definition uk_weekdays (country : string) : list (string * seek) :=
  [("early_may", (5, 1, 1, 0)); ("spring", (5, 1, -1, 0));
   ("summer", if String.eqb country "scotland" then (8, 1, 1, 0) else (8, 1, -1, 0))].
Definition uk_easters (country : string) : list (string * Z) :=
  ("good_friday", -2) :: (if String.eqb country "scotland" then [] else [("easter_monday", 1)]).
(** As many holidays as there are on a weekend, so many of the following days that are not
    holidays themselves become days off, beginning with Monday. *)
Definition instead (holiday : Z -> bool) (d : Z) : Prop :=
  let monday := d - weekday d in
  holiday d = false /\ weekday d <= 4
  /\ zlen (filter (fun e => negb (holiday e)) (zrange monday (Z.to_nat (weekday d))))
     < zlen (filter holiday [monday - 2; monday - 1]).
Definition uk_off (country : string) (skip : list string) (long : bool) (d : Z) : Prop :=
  fixed_on (uk_dates country) skip d = true
  \/ (long = true /\ instead (fixed_on (uk_dates country) skip) d)
  \/ (weekday_on (uk_weekdays country) skip d /\ d <> date 2002 5 27 /\ d <> date 2012 5 28)
  \/ easter_on (uk_easters country) skip d
  \/ (~ In "royal" skip /\ In d [date 2002 6 3; date 2002 6 4; date 2011 4 29; date 2012 6 4; date 2012 6 5]).

(** RU: the holidays are days off.  Besides, for each year: weekdays made days off, weekdays and
    weekend days which are shortened working days, weekend days made working days. *)
Definition ru_days_off : list (Z * list (Z * Z)) :=
  [(2005, [(1, 10); (3, 7); (5, 2); (5, 10); (6, 13)]);
   (2006, [(1, 9); (2, 24); (5, 8); (11, 6)]);
   (2007, [(1, 8); (4, 30); (6, 11); (11, 5); (12, 31)]);
   (2008, [(1, 8); (2, 25); (3, 10); (5, 2); (6, 13); (11, 3)]);
   (2009, [(1, 8); (1, 9); (3, 9); (5, 11)]);
   (2010, [(1, 8); (2, 22); (5, 3); (5, 10); (6, 14); (11, 5)]);
   (2011, [(1, 10); (3, 7); (5, 2); (6, 13)]);
   (2012, [(1, 9); (3, 9); (4, 30); (5, 7); (5, 8); (6, 11); (11, 5); (12, 31)]);
   (2013, [(1, 8); (5, 2); (5, 3); (5, 10)]);
   (2014, [(1, 8); (3, 10); (5, 2); (6, 13); (11, 3)]);
   (2015, [(1, 8); (1, 9); (3, 9); (5, 4); (5, 11)]);
   (2016, [(1, 8); (2, 22); (3, 7); (5, 2); (5, 3); (6, 13)]);
   (2017, [(2, 24); (5, 8); (11, 6)]);
   (2018, [(1, 8); (3, 9); (4, 30); (5, 2); (6, 11); (11, 5); (12, 31)]);
   (2019, [(1, 8); (5, 2); (5, 3); (5, 10)]);
   (2020, [(1, 8); (2, 24); (3, 9); (5, 4); (5, 5); (5, 11)]);
   (2021, [(1, 8); (2, 22); (5, 3); (5, 10); (6, 14); (11, 5); (12, 31)])].
Definition ru_short_days : list (Z * list (Z * Z)) :=
  [(2005, [(2, 22); (3, 5); (11, 3)]);
   (2006, [(2, 22); (3, 7); (5, 6); (11, 3)]);
   (2007, [(2, 22); (3, 7); (4, 28); (5, 8); (6, 9); (12, 29)]);
   (2008, [(2, 22); (3, 7); (4, 30); (5, 8); (6, 11); (11, 1); (12, 31)]);
   (2009, [(4, 30); (5, 8); (6, 11); (11, 3); (12, 31)]);
   (2010, [(2, 27); (4, 30); (6, 11); (11, 3); (12, 31)]);
   (2011, [(2, 22); (3, 5); (11, 3)]);
   (2012, [(2, 22); (3, 7); (4, 28); (5, 12); (6, 9); (12, 29)]);
   (2013, [(2, 22); (3, 7); (4, 30); (5, 8); (6, 11); (12, 31)]);
   (2014, [(2, 24); (3, 7); (4, 30); (5, 8); (6, 11); (12, 31)]);
   (2015, [(4, 30); (5, 8); (6, 11); (11, 3); (12, 31)]);
   (2016, [(2, 20); (11, 3)]);
   (2017, [(2, 22); (3, 7); (11, 3)]);
   (2018, [(2, 22); (3, 7); (4, 28); (5, 8); (6, 9); (12, 29)]);
   (2019, [(2, 22); (3, 7); (4, 30); (5, 8); (6, 11); (12, 31)]);
   (2020, [(4, 30); (5, 8); (6, 11); (11, 3); (12, 31)]);
   (2021, [(2, 20); (4, 30); (6, 11); (11, 3)])].
Definition ru_working_weekends : list (Z * list (Z * Z)) :=
  [(2005, [(5, 14)]);
   (2006, [(2, 26)]);
   (2008, [(5, 4); (6, 7)]);
   (2009, [(1, 11)]);
   (2010, [(11, 13)]);
   (2012, [(3, 11); (5, 5)])].
Definition in_table (tbl : list (Z * list (Z * Z))) (d : Z) : Prop :=
  exists y l m dd, In (y, l) tbl /\ In (m, dd) l /\ d = date y m dd.
Definition ru_moved (short_eves : bool) (d x : Z) : Prop :=
  (in_table ru_days_off d /\ x = 0) \/ (in_table ru_short_days d /\ x = if short_eves then 7 else 8)
  \/ (in_table ru_working_weekends d /\ x = 8).
Definition ru_dates (work_on_dec31 : bool) : list (Z * Z) :=
  (map (fun dd => (1, dd)) (zrange 1 7)
  ++ [(2, 23); (3, 8); (5, 1); (5, 9); (6, 12); (11, 4)] ++ (if work_on_dec31 then [] else [(12, 31)]))%list.
Definition ru_hours (work_on_dec31 short_eves : bool) (d x : Z) : Prop :=
  let holiday := exists m dd, In (m, dd) (ru_dates work_on_dec31) /\ d = date (year_of d) m dd in
  (holiday /\ x = 0) \/ (~ holiday /\ (ru_moved short_eves d x \/ ((forall y, ~ ru_moved short_eves d y) /\ x = weekly_hours d))).

(** Days on which a US calendar for a shorter range may differ from the full one: 31 Dec before a
    Saturday 1 Jan (the holiday next year is beyond the calendar), and 26 Dec 2018 which is made a
    day off by the year 2014. *)
Definition us_edge (o : cal_opts) (d : Z) : Prop :=
  (d = date (year_of d) 12 31 /\ year_of d = year_of (to_day 2020 o) /\ weekday (d + 1) = 5)
  \/ (d = date 2018 12 26 /\ 2014 < year_of (from_day 2000 o)).
