(** When: /repo/timeboard/when.py.  The functions take a stencil (a frame whose units are
    the calendar periods) and return timestamps. *)
From Verif Require Import Base Civil Freq Frame.

(** The singular (absolute) keywords of pandas.DateOffset: year, month, day, hour, minute, second
    and weekday.  A weekday [(w, n)] is the [n]-th weekday [w] as in dateutil's MO(n); [n] is 0
    when it is not given, as for the plain number [w] (Monday is 0). *)
Record absolute : Type := mkAbs {
  ab_year : option Z; ab_month : option Z; ab_day : option Z;
  ab_hour : option Z; ab_minute : option Z; ab_second : option Z;
  ab_weekday : option (Z * Z) }.

(** pandas.DateOffset( **kwargs ) with the plural (relative) keywords.  [DNone]: no
    keywords at all, which pandas reads as one day.  [DSet]: absolute keywords and, besides,
    relative ones (0 stands for an absent one).  The keywords microsecond, microseconds,
    nanosecond(s), n and normalize, and numbers that are not integers, are not modelled. *)
Inductive dateoffset : Type :=
| DNone
| DKw (years months weeks days hours minutes seconds : Z)
| DSet (a : absolute) (years months weeks days hours minutes seconds : Z).

(** Add [k] months to a timestamp; the day of month is clipped to the month's length
    (dateutil.relativedelta). *)
Definition add_months (t k : Z) : Z :=
  let d := t / NS_DAY in
  let m := month_of_day d in
  let day := Z.min (d - month_start m) (month_len (m + k) - 1) in
  (month_start (m + k) + day) * NS_DAY + t mod NS_DAY.

(** dateutil.relativedelta.__radd__, in parts.  `self.year or dt.year`: zero counts as absent. *)
Definition or_zero (x : option Z) (d : Z) : Z := match x with Some v => if v =? 0 then d else v | None => d end.
Definition or_none (x : option Z) (d : Z) : Z := match x with Some v => v | None => d end.
(** The month, with what is carried into the year: `months` has been reduced to less than a year
    in size (relativedelta._fix); the sum is corrected once. *)
Definition set_month (a : absolute) (month months : Z) : Z * Z :=
  let m := Z.rem months 12 in let c := Z.quot months 12 in
  let x := or_zero (ab_month a) month + m in
  if m =? 0 then (c, x) else if 12 <? x then (c + 1, x - 12) else if x <? 1 then (c - 1, x + 12) else (c, x).
(** Days to the weekday wanted. *)
Definition jump (w n d : Z) : Z :=
  let nth := if n =? 0 then 1 else n in
  if 0 <? nth then (Z.abs nth - 1) * 7 + (7 - weekday d + w) mod 7
  else - ((Z.abs nth - 1) * 7 + (weekday d - w) mod 7).
Definition add_absolute (a : absolute) (y m w d h mi s t : Z) : Z :=
  let D := t / NS_DAY in let r := t mod NS_DAY in
  let '(c, x) := set_month a (month_num D) m in
  let k := 12 * (or_zero (ab_year a) (year_of D) + y + c - 1970) + (x - 1) in
  let day := Z.min (month_len k) (or_zero (ab_day a) (mday_of D)) in
  let t1 := (month_start k + (day - 1)) * NS_DAY
            + or_none (ab_hour a) (r / NS_HOUR) * NS_HOUR
            + or_none (ab_minute a) (r mod NS_HOUR / NS_MIN) * NS_MIN
            + or_none (ab_second a) (r mod NS_MIN / NS_SEC) * NS_SEC + r mod NS_SEC in
  let t2 := t1 + (7 * w + d) * NS_DAY + h * NS_HOUR + mi * NS_MIN + s * NS_SEC in
  match ab_weekday a with
  | None => t2
  | Some (w, n) => t2 + jump (w mod 7) n (t2 / NS_DAY) * NS_DAY
  end.
(** The errors of DateOffset( **kwargs ) (a weekday out of range: relativedelta indexes a tuple of
    seven) and of adding it to a timestamp (ValueError of datetime.replace).  Years out of range
    are not modelled. *)
Definition out_of (x : option Z) (lo hi : Z) : bool :=
  match x with Some v => negb ((lo <=? v) && (v <=? hi)) | None => false end.
Definition offset_error (o : dateoffset) : option err :=
  match o with
  | DSet a _ m _ _ _ _ _ =>
      if match ab_weekday a with Some (w, _) => negb ((-7 <=? w) && (w <=? 6)) | None => false end then Some EIndex
      else if negb ((1 <=? snd (set_month a 1 m)) && (snd (set_month a 1 m) <=? 12))
           || match ab_day a with Some v => v <? 0 | None => false end
           || out_of (ab_hour a) 0 23 || out_of (ab_minute a) 0 59 || out_of (ab_second a) 0 59 then Some EValue
      else None
  | _ => None
  end.

(** timestamp + DateOffset *)
Definition add_offset (o : dateoffset) (t : Z) : Z :=
  match o with
  | DNone => t + NS_DAY
  | DKw y m w d h mi s =>
      (if (y =? 0) && (m =? 0) then t else add_months t (12 * y + m))
      + (7 * w + d) * NS_DAY + h * NS_HOUR + mi * NS_MIN + s * NS_SEC
  | DSet a y m w d h mi s => add_absolute a y m w d h mi s t
  end.

(** pandas.PeriodIndex(ts, freq=normalize_by).to_timestamp(how='start') for one element *)
Definition snap (s : fstr) (t : Z) : Z :=
  let b := fbase (to_freq s) in pstart b (pord b t).

(** Timestamp of '01 Jan 2004'. *)
Definition jan2004 : Z := date 2004 1 1 * NS_DAY.

(** /repo/timeboard/when.py:10-60 from_start_of_each (normalize_by is always given) *)
Definition from_start_of_each (o : dateoffset) (pi : frame) (norm : fstr) : res (list Z) :=
  match offset_error o with Some e => Err e | None =>
  if add_offset o jan2004 <? jan2004 then Ok []
  else Ok (map fst (filter (fun p => fst p <=? snd p)
             (map (fun i => (snap norm (add_offset o (unit_start pi i)), unit_end pi i))
                  (zrange 0 (Z.to_nat (fr_len pi))))))
  end.

(** pandas.tseries.offsets.Week(weekday)*k added to day [d] *)
Definition add_week (wd k d : Z) : Z :=
  if weekday d =? wd then d + 7 * k
  else d + (wd - weekday d) mod 7 + 7 * (if 0 <? k then k - 1 else k).

(** Elementwise filter of one index by a comparison with another;
    pandas raises ValueError when the lengths differ. *)
Definition filter2 (cmp : Z -> Z -> bool) (a b : list Z) : res (list Z) :=
  if negb (Nat.eqb (length a) (length b)) then Err EValue
  else Ok (map fst (filter (fun p => cmp (fst p) (snd p)) (combine a b))).

(** Drop consecutive duplicates of a monotonic list (Index.drop_duplicates). *)
Definition drop_duplicates (l : list Z) : list Z := zdedup l.

(** /repo/timeboard/when.py:63-163 nth_weekday_of_month.  [shift] is in days
    (0 stands for None). *)
Definition nth_weekday_of_month (month week wday shift : Z) (pi : frame) (_ : fstr)
  : res (list Z) :=
  if negb ((1 <=? month) && (month <=? 12)) then Err EAssertion
  else if negb ((1 <=? wday) && (wday <=? 7)) then Err EAssertion
  else if negb (((1 <=? week) && (week <=? 5)) || ((-5 <=? week) && (week <=? -1)))
       then Err EAssertion
  else
  let units := zrange 0 (Z.to_nat (fr_len pi)) in
  let months := drop_duplicates (map (fun i => month_of_day (unit_start pi i / NS_DAY)) units) in
  let m_starts := map (fun k => month_start (k + (month - 1)) * NS_DAY) months in
  let m_ends := map (fun k => (month_start (k + month) - 1) * NS_DAY) months in
  let pi_ends := map (unit_end pi) units in
  do m_starts <- filter2 Z.leb m_starts pi_ends;
  do m_ends <- filter2 Z.leb m_ends pi_ends;
  do dtw <-
    (if 0 <? week then
       let dtw := map (fun t => let d := t / NS_DAY in
                    let k := week - (if weekday d =? wday - 1 then 1 else 0) in
                    add_week (wday - 1) k d * NS_DAY) m_starts in
       filter2 Z.leb dtw m_ends
     else
       let dtw := map (fun t => let d := t / NS_DAY in
                    let k := week + (if weekday d =? wday - 1 then 1 else 0) in
                    add_week (wday - 1) k d * NS_DAY) m_ends in
       filter2 Z.geb dtw m_starts);
  Ok (map (fun t => t + shift * NS_DAY) dtw).

(** dateutil.easter.easter(year, method) for method 2 (orthodox) and 3 (western):
    the day number of Easter. *)
Definition easter (orthodox : bool) (y : Z) : Z :=
  let g := y mod 19 in
  let '(i, j) :=
    if orthodox then
      let i := (19 * g + 15) mod 30 in
      (i, (y + y / 4 + i) mod 7)
    else
      let c := y / 100 in
      let h := (c - c / 4 - (8 * c + 13) / 25 + 19 * g + 15) mod 30 in
      let i := h - (h / 28) * (1 - (h / 28) * (29 / (h + 1)) * ((21 - g) / 11)) in
      (i, (y + y / 4 + i + 2 - c + c / 4) mod 7) in
  let e := if orthodox
           then 10 + (if 1600 <? y then y / 100 - 16 - (y / 100 - 16) / 4 else 0)
           else 0 in
  let p := i - j + e in
  let d := 1 + (p + 27 + (p + 6) / 40) mod 31 in
  let m := 3 + (p + 26) / 30 in
  date y m d.

(** /repo/timeboard/when.py:166-218 from_easter.  [o] is the DateOffset built from
    `shift` (days) or the other keywords; [DNone] when none is given.
    PeriodIndex.year is the year of the period's last day. *)
Definition from_easter (orthodox : bool) (o : dateoffset) (pi : frame) (norm : fstr)
  : res (list Z) :=
  match offset_error o with Some e => Err e | None =>
  let units := zrange 0 (Z.to_nat (fr_len pi)) in
  let starts := map (unit_start pi) units in
  let ends := map (unit_end pi) units in
  let easters := map (fun i => easter orthodox (year_of (unit_end pi i / NS_DAY)) * NS_DAY) units in
  let dates := map fst (filter (fun p => (fst (snd p) <=? fst p) && (fst p <=? snd (snd p)))
                          (combine easters (combine starts ends))) in
  let result := map (fun t => snap norm (add_offset o t)) dates in
  if jan2004 <=? add_offset o jan2004
  then filter2 Z.leb result ends
  else filter2 Z.geb result starts
  end.

Example easter_ex : easter false 2017 = date 2017 4 16 /\ easter true 2017 = date 2017 4 16
                 /\ easter false 2018 = date 2018 4 1 /\ easter true 2018 = date 2018 4 8.
Proof. vm_compute. repeat split; reflexivity. Qed.
