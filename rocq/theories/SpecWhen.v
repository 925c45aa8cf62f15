(** Specification of offsets (C46) and of the marks that a Marker with `at` computes (C37, C38, C41,
    C42). *)
From Verif Require Import Base Civil Freq Frame When Spec SpecLookup SpecLayout SpecCivil.

(** What the absolute keywords put in place of a part of a date or of a time of day.  A zero year,
    month or day is the same as none. *)
Definition date_part (x : option Z) (old new : Z) : Prop := new = match x with None | Some 0 => old | Some v => v end.
Definition time_part (x : option Z) (old new : Z) : Prop := new = match x with None => old | Some v => v end.
(** Time [t] is the date [y]-[m]-[d] and the time [h]:[mi]:[s] of that day, and a fraction. *)
Definition clock (t y m d h mi s fraction : Z) : Prop :=
  valid_date y m d /\ 0 <= h < 24 /\ 0 <= mi < 60 /\ 0 <= s < 60 /\ 0 <= fraction < 1000000000
  /\ t = date y m d * 86400000000000 + ((h * 60 + mi) * 60 + s) * 1000000000 + fraction.
(** Day [d'] is the [n]-th weekday [w] counted from day [d], forwards or backwards, that day
    included; an [n] of zero means the first. *)
Definition to_weekday (w n d d' : Z) : Prop :=
  weekday d' = w mod 7
  /\ (0 <= n -> 7 * (Z.max 1 n - 1) <= d' - d < 7 * Z.max 1 n)
  /\ (n < 0 -> 7 * (- n - 1) <= d - d' < 7 * - n).

(** Adding an offset to a time: first the years and months, then the rest; no keywords at all mean
    one day.  With absolute keywords: first these (except the weekday), then the others, the day
    of the month being the last one if there is no such day; at last the weekday. *)
Definition offset_means (o : dateoffset) (t t' : Z) : Prop :=
  match o with
  | DNone => t' = t + 86400 * 1000000000
  | DKw y m w d h mi s =>
      exists t1, months_later (12 * y + m) t t1
        /\ t' = t1 + (((7 * w + d) * 24 + h) * 3600 + mi * 60 + s) * 1000000000
  | DSet a y m w d h mi s =>
      exists Y M D hh mm ss fr Y1 M1 D1 h1 m1 s1 Y2 M2 n t2,
        clock t Y M D hh mm ss fr
        /\ date_part (ab_year a) Y Y1 /\ date_part (ab_month a) M M1 /\ date_part (ab_day a) D D1
        /\ time_part (ab_hour a) hh h1 /\ time_part (ab_minute a) mm m1 /\ time_part (ab_second a) ss s1
        /\ 12 * Y2 + M2 = 12 * (Y1 + y) + M1 + m /\ days_in Y2 M2 n
        /\ t2 = date Y2 M2 (Z.min D1 n) * 86400000000000 + ((h1 * 60 + m1) * 60 + s1) * 1000000000 + fr
                + (((7 * w + d) * 24 + h) * 3600 + mi * 60 + s) * 1000000000
        /\ match ab_weekday a with
           | None => t' = t2
           | Some (wd, nth) => exists x x' r, t2 = x * 86400000000000 + r /\ 0 <= r < 86400000000000
               /\ to_weekday wd nth x x' /\ t' = x' * 86400000000000 + r
           end
  end.

(** Offsets whose absolute keywords have proper values, and the error for improper ones.  A month
    out of range is left aside when months are added to it. *)
Definition within (x : option Z) (lo hi : Z) : Prop := forall v, x = Some v -> lo <= v <= hi.
Definition usable (o : dateoffset) : Prop :=
  match o with
  | DSet a _ _ _ _ _ _ _ =>
      within (ab_month a) 0 12 /\ (forall v, ab_day a = Some v -> 0 <= v)
      /\ within (ab_hour a) 0 23 /\ within (ab_minute a) 0 59 /\ within (ab_second a) 0 59
      /\ (forall w n, ab_weekday a = Some (w, n) -> -7 <= w <= 6)
  | _ => True
  end.
Definition unusable (o : dateoffset) (e : err) : Prop :=
  match o with
  | DSet a _ m _ _ _ _ _ =>
      (e = EIndex /\ exists w n, ab_weekday a = Some (w, n) /\ ~ -7 <= w <= 6)
      \/ (e = EValue /\ (forall w n, ab_weekday a = Some (w, n) -> -7 <= w <= 6)
          /\ ((~ within (ab_month a) 0 12 /\ m mod 12 = 0) \/ ~ (forall v, ab_day a = Some v -> 0 <= v)
              \/ ~ within (ab_hour a) 0 23 \/ ~ within (ab_minute a) 0 59 \/ ~ within (ab_second a) 0 59))
  | _ => False
  end.

(** An offset of relative keywords only with no negative component, and one with no positive
    component (and not all zero). *)
Definition forward (o : dateoffset) : Prop :=
  match o with
  | DNone => True
  | DKw y m w d h mi s => 0 <= y /\ 0 <= m /\ 0 <= w /\ 0 <= d /\ 0 <= h /\ 0 <= mi /\ 0 <= s
  | DSet _ _ _ _ _ _ _ _ => False
  end.
Definition backward (o : dateoffset) : Prop :=
  match o with
  | DNone => False
  | DKw y m w d h mi s =>
      (y <= 0 /\ m <= 0 /\ w <= 0 /\ d <= 0 /\ h <= 0 /\ mi <= 0 /\ s <= 0)
      /\ (y < 0 \/ m < 0 \/ w < 0 \/ d < 0 \/ h < 0 \/ mi < 0 \/ s < 0)
  | DSet _ _ _ _ _ _ _ _ => False
  end.

(** Absolute keywords that leave year and month as they are, and others that go forward. *)
Definition onward (o : dateoffset) : Prop :=
  match o with
  | DSet a y m w d h mi s =>
      ab_year a = None /\ ab_month a = None /\ (forall wd n, ab_weekday a = Some (wd, n) -> 0 <= n)
      /\ 0 <= y /\ 0 <= m /\ 0 <= w /\ 0 <= d /\ 0 <= h /\ 0 <= mi /\ 0 <= s
  | _ => forward o
  end.
Definition keeps_day (o : dateoffset) : Prop := match o with DSet a _ _ _ _ _ _ _ => ab_day a = None | _ => True end.
(** Frequencies made of whole months and of whole days. *)
Definition of_months (g : fstr) : Prop :=
  match fbase (to_freq g) with BM | BQ _ | BA _ => True | _ => False end.
Definition of_days (g : fstr) : Prop :=
  match fbase (to_freq g) with BD | BW _ | BM | BQ _ | BA _ => True | _ => False end.

(** The mark of group number [k] of the periods of [g] (counted from the one that contains
    [t0]): the offset from the group's start, if it is still in the group, moved back to the
    start of the calendar unit of [norm] it falls in. *)
Definition mark_of (g norm : fstr) (t0 : Z) (o : dateoffset) (k t : Z) : Prop :=
  exists p v, group_start g t0 k p /\ in_group g t0 k (add_offset o p)
    /\ in_cal_unit (fbase (to_freq norm)) v (add_offset o p)
    /\ t = pstart (fbase (to_freq norm)) v.

(** The same for an offset of any signs, as the code computes it: the instant need only not be
    after the end of the group. *)
Definition mark_upto (g norm : fstr) (t0 : Z) (o : dateoffset) (k t : Z) : Prop :=
  exists p p' v, group_start g t0 k p /\ group_start g t0 (k + 1) p' /\ add_offset o p < p'
    /\ in_cal_unit (fbase (to_freq norm)) v (add_offset o p)
    /\ t = pstart (fbase (to_freq norm)) v.
(** The test of the direction of an offset. *)
Definition goes_back (o : dateoffset) : Prop := add_offset o (date 2004 1 1 * NS_DAY) < date 2004 1 1 * NS_DAY.

(** Where the calendar periods that the marker inspects begin and end: one period length
    outside the span on both sides. *)
Definition reach_before (f : frame) (g : fstr) (s : span) : Z := unit_start f (s_first s) - get_freq_delta (to_freq g).
Definition reach_after (f : frame) (g : fstr) (s : span) : Z := unit_end f (s_last s) + get_freq_delta (to_freq g).

(** A mark of one of the offsets in the periods inspected. *)
Definition near_mark (f : frame) (g : fstr) (s : span) (offs : list dateoffset) (t : Z) : Prop :=
  exists o k, In o offs /\ mark_of g (fr_str f) (reach_before f g s) o k t
    /\ 0 <= k /\ exists p, group_start g (reach_before f g s) k p /\ p <= reach_after f g s.

(** [t] is the last of the instants [P] that is not after [x]; the first that is after. *)
Definition last_upto (P : Z -> Prop) (x t : Z) : Prop := P t /\ t <= x /\ forall t', P t' -> t' <= x -> t' <= t.
Definition first_after (P : Z -> Prop) (x t : Z) : Prop := P t /\ x < t /\ forall t', P t' -> x < t' -> t <= t'.

(** ** The n-th weekday of a month *)
(** How many of the days [a] to [b] fall on weekday [w]. *)
Definition weekdays_in (w a b : Z) : Z := zlen (filter (fun d => weekday d =? w) (zrange a (Z.to_nat (b + 1 - a)))).
(** Day [d] is the [n]-th weekday [w] (Monday = 0) of month [m] (since January 1970), counted
    from the end of the month if [n] is negative. *)
Definition nth_weekday (m w n d : Z) : Prop :=
  month_start m <= d < month_start (m + 1) /\ weekday d = w
  /\ ((0 < n /\ weekdays_in w (month_start m) d = n)
      \/ (n < 0 /\ weekdays_in w d (month_start (m + 1) - 1) = - n)).

(** The mark for group [k] of the periods of [g]: month number [month] of the group, if it is
    in the group, its [n]-th weekday [w], moved by [shift] days. *)
Definition nth_mark (g : fstr) (t0 month w n shift k t : Z) : Prop :=
  exists m d, group_start g t0 k (month_start m * NS_DAY)
    /\ in_group g t0 k (month_start (m + (month - 1)) * NS_DAY)
    /\ nth_weekday (m + (month - 1)) w n d /\ t = (d + shift) * NS_DAY.

(** ** Easter *)
(** Easter Sunday by the algorithms of Meeus, Astronomical Algorithms, ch. 8 (not the formulas
    that dateutil uses).  The Julian one yields a date of the Julian calendar. *)
Definition easter_gregorian (y : Z) : Z :=
  let a := y mod 19 in let b := y / 100 in let c := y mod 100 in
  let d := b / 4 in let e := b mod 4 in let f := (b + 8) / 25 in let g := (b - f + 1) / 3 in
  let h := (19 * a + b - d - g + 15) mod 30 in
  let i := c / 4 in let k := c mod 4 in
  let l := (32 + 2 * e + 2 * i - h - k) mod 7 in
  let m := (a + 11 * h + 22 * l) / 451 in
  date y ((h + l - 7 * m + 114) / 31) ((h + l - 7 * m + 114) mod 31 + 1).
Definition easter_julian (y : Z) : Z :=
  let d := (19 * (y mod 19) + 15) mod 30 in
  let e := (2 * (y mod 4) + 4 * (y mod 7) - d + 34) mod 7 in
  date y ((d + e + 114) / 31) ((d + e + 114) mod 31 + 1) + (y / 100 - y / 400 - 2).
Definition easter_day (orthodox : bool) (y : Z) : Z := if orthodox then easter_julian y else easter_gregorian y.

(** The years for which dateutil computes Easter in both ways. *)
Definition easter_year (y : Z) : Prop := 1583 <= y <= 4099.

(** Easter of year [y] plus the offset, if still in year [y], moved back to the start of its
    unit of [norm]. *)
Definition easter_mark (orthodox : bool) (norm : fstr) (o : dateoffset) (y t : Z) : Prop :=
  let e := add_offset o (easter_day orthodox y * NS_DAY) in
  date y 1 1 * NS_DAY <= e < date (y + 1) 1 1 * NS_DAY
  /\ exists v, in_cal_unit (fbase (to_freq norm)) v e /\ t = pstart (fbase (to_freq norm)) v.

(** The same for an offset of any signs, as the code computes it: the year is left only in the
    direction of the offset. *)
Definition easter_upto (orthodox : bool) (norm : fstr) (o : dateoffset) (y t : Z) : Prop :=
  let e := add_offset o (easter_day orthodox y * NS_DAY) in
  (~ goes_back o -> e < date (y + 1) 1 1 * NS_DAY) /\ (goes_back o -> date y 1 1 * NS_DAY <= e)
  /\ exists v, in_cal_unit (fbase (to_freq norm)) v e /\ t = pstart (fbase (to_freq norm)) v.

(** Periods other than years: Easter of the year in which the group ends, and its mark. *)
Definition group_easter (orthodox : bool) (g : fstr) (t0 k e : Z) : Prop :=
  exists p', group_start g t0 (k + 1) p' /\ e = easter_day orthodox (year_of ((p' - 1) / NS_DAY)) * NS_DAY.
Definition group_mark (orthodox : bool) (g norm : fstr) (t0 : Z) (o : dateoffset) (k t : Z) : Prop :=
  exists p p' e v, group_start g t0 k p /\ group_start g t0 (k + 1) p' /\ group_easter orthodox g t0 k e
    /\ (~ goes_back o -> add_offset o e < p') /\ (goes_back o -> p <= add_offset o e)
    /\ in_cal_unit (fbase (to_freq norm)) v (add_offset o e) /\ t = pstart (fbase (to_freq norm)) v.

(** ** Markers as a whole (C51) *)
(** Group number [k], counted from the one that contains the beginning of the reach, is among
    the calendar periods that the marker inspects. *)
Definition inspected (f : frame) (g : fstr) (s : span) (k : Z) : Prop :=
  0 <= k /\ exists p, group_start g (reach_before f g s) k p /\ p <= reach_after f g s.
(** The calendar periods that the marker hands to its function, and what the function makes of
    each element of `at`. *)
Definition handed (f : frame) (g : fstr) (s : span) (pi : frame) : Prop :=
  mk_frame g (reach_before f g s) (reach_after f g s) = Ok pi.
Definition points_of (pi : frame) (norm : fstr) (hows : list (frame -> fstr -> res (list Z))) (pts : list (list Z)) : Prop :=
  Forall2 (fun how ts => how pi norm = Ok ts) hows pts.
(** What the spans of a marker record about the marks [P] around the span: the distance from the
    last mark up to its start, or -1, in the first of them, and likewise at the end. *)
Definition skips_recorded (f : frame) (s : span) (P : Z -> Prop) (spans : list span) : Prop :=
  exists before after,
    (exists rest, map s_left spans = before :: rest /\ forall x, In x rest -> x = 0)
    /\ (exists rest, map s_right spans = rest ++ [after] /\ forall x, In x rest -> x = 0)
    /\ ((before = -1 /\ forall t, P t -> unit_start f (s_first s) < t)
        \/ (0 <= before /\ last_upto P (unit_start f (s_first s)) (unit_start f (s_first s - before))))
    /\ ((after = -1 /\ forall t, P t -> t <= unit_end f (s_last s))
        \/ (0 <= after /\ first_after P (unit_end f (s_last s)) (unit_start f (s_last s + 1 + after)))).
(** The same for any marks, wherever in a unit they fall, and units of any length: the first span
    records the distance to the unit with the last mark up to its start.  The last one records that
    to the unit one second before the next mark, or 0 if that is in the span; a mark at the last
    instant of the span counts as the next. *)
Definition skips_found (f : frame) (s : span) (P : Z -> Prop) (spans : list span) : Prop :=
  let t0 := unit_start f (s_first s) in
  let t1 := unit_end f (s_last s) in
  exists before after,
    (exists rest, map s_left spans = before :: rest /\ forall x, In x rest -> x = 0)
    /\ (exists rest, map s_right spans = rest ++ [after] /\ forall x, In x rest -> x = 0)
    /\ ((before = -1 /\ forall t, P t -> t0 < t)
        \/ (0 <= before /\ exists t, last_upto P t0 t /\ in_unit f (s_first s - before) t))
    /\ ((after = -1 /\ forall t, P t -> t < t1)
        \/ (0 <= after /\ exists t, P t /\ t1 <= t /\ (forall t', P t' -> t1 <= t' -> t <= t')
                          /\ in_unit f (s_last s + after) (Z.max t1 (t - NS_SEC)))).
