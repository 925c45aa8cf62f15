(** Calendars: /repo/timeboard/calendars/calendarbase.py, US.py, UK.py, RU.py.
    Labels are integers (hours).  A date is a day number (days since 1970-01-01). *)
From Verif Require Import Base Civil Freq Frame When Timeline Board.
From Coq Require Import QArith String.
Open Scope Z_scope.

(** ** Python dictionaries with decidable keys, as lists of items in insertion order. *)
Section Dict.
  Context {K V : Type} (eqb : K -> K -> bool).
  Definition dict_has (d : list (K * V)) (k : K) : bool := existsb (fun q => eqb (fst q) k) d.
  Fixpoint dict_get (d : list (K * V)) (k : K) : option V :=
    match d with
    | [] => None
    | (k', v) :: d' => if eqb k' k then Some v else dict_get d' k
    end.
  (** d[k] = v *)
  Fixpoint dict_put (d : list (K * V)) (k : K) (v : V) : list (K * V) :=
    match d with
    | [] => [(k, v)]
    | (k', v') :: d' => if eqb k' k then (k', v) :: d' else (k', v') :: dict_put d' k v
    end.
  (** d.update(e); also the dictionary display {k: v for ...} starting from [] *)
  Definition dict_update (d e : list (K * V)) : list (K * V) :=
    fold_left (fun d q => dict_put d (fst q) (snd q)) e d.
  (** del d[k], an absent key being ignored *)
  Definition dict_del (d : list (K * V)) (k : K) : list (K * V) := filter (fun q => negb (eqb (fst q) k)) d.
End Dict.

(** A key of an amendments dictionary: a string like '25 Dec 2017' (different dates are
    different strings) or a Timestamp.  A string and a Timestamp are never equal keys. *)
Inductive akey : Type := KStr (d : Z) | KTs (t : Z).
Definition akey_eqb (a b : akey) : bool :=
  match a, b with
  | KStr x, KStr y => x =? y
  | KTs x, KTs y => x =? y
  | _, _ => false
  end.
(** get_timestamp(key) *)
Definition key_ts (k : akey) : Z := match k with KStr d => d * NS_DAY | KTs t => t end.

(** ** calendarbase.py *)
(** `dates_to_seek`: (month, weekday, n, shift); shift 0 when not given. *)
Definition seek : Type := (Z * Z * Z * Z)%type.
Definition week_ending (weekday : Z) : fstr := mkFstr None (AlW (Some ((weekday - 2) mod 7))).

(** /repo/timeboard/calendars/calendarbase.py:55-80: one turn of the loop; [Ok None]: ignored *)
Definition seek_date (year : Z) (raise : bool) (s : seek) : res (option Z) :=
  let '(month, wday, n, shift) := s in
  if negb ((1 <=? month) && (month <=? 12)) then Err EAssertion
  else if negb ((1 <=? wday) && (wday <=? 7)) then Err EAssertion
  else if negb (((1 <=? n) && (n <=? 5)) || ((-5 <=? n) && (n <=? -1))) then Err EAssertion
  else
  let n := if 0 <? n then n - 1 else n in
  let m := 12 * (year - 1970) + (month - 1) in
  let m_start := pstart BM m in
  do weeks <- mk_frame (week_ending wday) m_start (pstart BM (m + 1) - 1);
  let starts := fr_start_times weeks in
  let starts := match starts with
                | s0 :: rest => if s0 <? m_start then rest else starts
                | [] => []
                end in
  match py_get starts n with
  | Some t => Ok (Some (t + shift * NS_DAY))
  | None => if raise then Err EOutOfBounds else Ok None
  end.

(** calendarbase.py:10-82 nth_weekday_of_month(year, dates_to_seek, label, errors) *)
Definition cb_nth_weekday {L : Type} (year : Z) (l : list seek) (label : L) (raise : bool)
  : res (list (Z * L)) :=
  do ds <- mapM (seek_date year raise) l;
  Ok (dict_update Z.eqb [] (map (fun t => (t, label)) (flat_map (fun o => match o with Some t => [t] | None => [] end) ds))).

Inductive extend_how : Type := HPrevious | HNext | HNearest.

(** list.index *)
Fixpoint index_of (x : Z) (l : list Z) : option Z :=
  match l with
  | [] => None
  | y :: l' => if y =? x then Some 0 else option_map Z.succ (index_of x l')
  end.

(** calendarbase.py:147-148: `while new_day in amendments`; [fuel] bounds the iterations and is
    proved sufficient ([EFuel] is never returned). *)
Fixpoint walk_free {L : Type} (fuel : nat) (d : list (Z * L)) (step t : Z) : res Z :=
  match fuel with
  | O => Err EFuel
  | S fuel' => if dict_has Z.eqb d t then walk_free fuel' d step (t + step * NS_DAY) else Ok t
  end.

(** calendarbase.py:133-145: first_step and step for a holiday at position [loc] of a weekend
    of [len] days *)
Definition extend_steps (how : extend_how) (loc len : Z) : Z * Z :=
  match how with
  | HPrevious => (- (loc + 1), -1)
  | HNext => (len - loc, 1)
  | HNearest => if loc <? len / 2 then (- (loc + 1), -1) else (len - loc, 1)
  end.

(** calendarbase.py:123-149: one turn of the loop *)
Definition extend_one {L : Type} (how : extend_how) (label : option L) (weekend : list Z)
           (d : list (Z * L)) (holiday : Z) : res (list (Z * L)) :=
  match index_of (weekday (holiday / NS_DAY)) weekend with
  | None => Ok d
  | Some loc =>
      match dict_get Z.eqb d holiday with
      | None => Err EKey
      | Some x =>
          let '(first_step, step) := extend_steps how loc (zlen weekend) in
          do t <- walk_free (S (List.length d)) d step (holiday + first_step * NS_DAY);
          Ok (dict_put Z.eqb d t (opt_or label x))
      end
  end.

Fixpoint foldM {A S : Type} (f : S -> A -> res S) (l : list A) (s : S) : res S :=
  match l with
  | [] => Ok s
  | x :: l' => do s' <- f s x; foldM f l' s'
  end.

(** calendarbase.py:85-151 extend_weekends(amendments, how, label, weekend) *)
Definition extend_weekends {L : Type} (am : list (akey * L)) (how : extend_how)
           (label : option L) (weekend : list Z) : res (list (Z * L)) :=
  let d := dict_update Z.eqb [] (map (fun q => (key_ts (fst q), snd q)) am) in
  foldM (extend_one how label weekend) (zsort (map fst d)) d.
Definition sat_sun : list Z := [5; 6].

(** calendarbase.py:154-193 from_easter(year, shifts, easter_type, label) *)
Definition cb_from_easter {L : Type} (year : Z) (shifts : list Z) (orthodox : bool) (label : L)
  : list (Z * L) :=
  dict_update Z.eqb [] (map (fun s => ((easter orthodox year + s) * NS_DAY, label)) shifts).

(** The parameters() of a calendar class: `start`, `end`; the other parameters are those of
    [cal_args]. *)
Record cal_class : Type := mkCal { c_start : Z; c_end : Z }.

(** calendarbase.py:304-308 _check_time *)
Definition check_time (c : cal_class) (t : Z) : res unit :=
  if (c_start c <=? t) && (t <=? c_end c) then Ok tt else Err EOutOfBounds.

(** calendarbase.py:310-322 _get_bounds *)
Definition get_bounds (c : cal_class) (s e : option Z) : res (Z * Z) :=
  do s' <- (match s with None => Ok (c_start c) | Some t => do _ <- check_time c t; Ok t end);
  do e' <- (match e with None => Ok (c_end c) | Some t => do _ <- check_time c t; Ok t end);
  Ok (s', e').

(** US.py:141-149, UK.py:177-185, RU.py:158-166: the layout shared by the three calendars *)
Definition weekly8x5 : layout Z :=
  LOrg (DMarker (mkMarker (mkFstr None (AlW None)) [])) [LPat (PList [8; 8; 8; 8; 8; 0; 0])].

(** The Timeboard arguments: default selector bool(label), default name and reference. *)
Definition cal_args (s e : Z) (am : list (Z * Z)) : tb_args Z :=
  mkArgs (mkFstr None AlD) s e weekly8x5 am (fun x => negb (x =? 0)) 0 false 0 WLabels (fun x => Some (inject_Z x)).

(** The arguments common to the calendar constructors. [cu_custom]: custom_amendments, the
    items with their keys as timestamps. *)
Record cal_opts : Type := mkOpts {
  cu_start : option Z; cu_end : option Z; cu_no_amend : bool; cu_only : bool; cu_custom : option (list (Z * Z))
}.

(** calendarbase.py:324-340 CalendarBase.__new__; [am]: the class method `amendments` *)
Definition new_calendar (c : cal_class)
           (am : option Z -> option Z -> option (list (Z * Z)) -> res (list (akey * Z)))
           (o : cal_opts) : res (timeboard Z) :=
  do b <- get_bounds c (cu_start o) (cu_end o);
  do a <- (if cu_no_amend o then Ok []
           else if cu_only o then Ok (opt_or (cu_custom o) [])
           else do d <- am (Some (fst b)) (Some (snd b)) (cu_custom o);
                Ok (map (fun q => (key_ts (fst q), snd q)) d));
  rmap fst (build (cal_args (fst b) (snd b) a) []).

(** US.py:160-165, UK.py:195-200, RU.py:181-186: custom amendments by the start of their day *)
Definition add_custom (d : list (akey * Z)) (custom : option (list (Z * Z))) : list (akey * Z) :=
  match custom with
  | None => d
  | Some l => dict_update akey_eqb d (map (fun q => (KTs (pstart BD (pord BD (fst q))), snd q)) l)
  end.

Definition year_at (t : Z) : Z := year_of (t / NS_DAY).
Definition years_of (y0 y1 : Z) : list Z := zrange y0 (Z.to_nat (y1 + 1 - y0)).
Definition in_years (y y0 y1 : Z) : bool := (y0 <=? y) && (y <=? y1).
Definition named {A : Type} (skip : list string) (l : list (string * A)) : list A :=
  map snd (filter (fun q => negb (existsb (String.eqb (fst q)) skip)) l).
Definition skips (skip : list string) (s : string) : bool := existsb (String.eqb s) skip.
Definition tskey {V : Type} (q : Z * V) : akey * V := (KTs (fst q), snd q).

(** The fixed-date holidays: {"dd Mon yyyy": label}, days (month, day) times years *)
Definition fixed_dates (days : list (Z * Z)) (ys : list Z) (label : Z) : list (akey * Z) :=
  dict_update akey_eqb []
    (flat_map (fun md => map (fun y => (KStr (date y (fst md) (snd md)), label)) ys) days).

Local Open Scope string_scope.
Local Open Scope Z_scope.

(** ** US.py *)
(** US.py:10-13, 15-23 *)
Definition us_fixed : list (string * (Z * Z)) :=
  [("new_year", (1, 1)); ("independence", (7, 4)); ("veterans", (11, 11)); ("christmas", (12, 25))].
Definition us_floating : list (string * seek) :=
  [("mlk", (1, 1, 3, 0)); ("presidents", (2, 1, 3, 0)); ("memorial", (5, 1, -1, 0));
   ("labor", (9, 1, 1, 0)); ("columbus", (10, 1, 2, 0)); ("thanksgiving", (11, 4, 4, 0));
   ("black_friday", (11, 4, 4, 1))].

(** US.py:35-36, UK.py:49-50 *)
Definition lengthen (long : bool) (how : extend_how) (d : list (akey * Z)) : res (list (akey * Z)) :=
  if long then rmap (map tskey) (extend_weekends d how None sat_sun) else Ok d.

(** /repo/timeboard/calendars/US.py:7-52 fed_holidays *)
Definition fed_holidays (y0 y1 : Z) (skip : list string) (long : bool) (label : Z)
  : res (list (akey * Z)) :=
  let ys := years_of y0 y1 in
  do d <- lengthen long HNearest (fixed_dates (named skip us_fixed) ys label);
  do d <- foldM (fun d y => do f <- cb_nth_weekday y (named skip us_floating) label false;
                            Ok (dict_update akey_eqb d (map tskey f))) ys d;
  let put (c : bool) (t : Z) d := if c then dict_put akey_eqb d (KTs (t * NS_DAY)) label else d in
  let d := put (in_years 2014 y0 y1 && negb (skips skip "xmas_additional_day")) (date 2018 12 26) d in
  let d := put (in_years 2018 y0 y1 && negb (skips skip "one_off")) (date 2018 12 5) d in
  let d := put (in_years 2018 y0 y1 && negb (skips skip "xmas_additional_day")) (date 2018 12 24) d in
  Ok d.

(** Last second of a day. *)
Definition last_second (d : Z) : Z := d * NS_DAY + 86399 * NS_SEC.
(** US.py:141-149 *)
Definition us_class : cal_class := mkCal (date 2000 1 1 * NS_DAY) (last_second (date 2020 12 31)).
(** US.py:151-167 amendments *)
Definition us_amendments (skip : list string) (long : bool) (s e : option Z) (custom : option (list (Z * Z)))
  : res (list (akey * Z)) :=
  do b <- get_bounds us_class s e;
  do d <- fed_holidays (year_at (fst b)) (year_at (snd b)) skip long 0;
  Ok (add_custom d custom).
(** US.Weekly8x5(...); do_not_observe=None is the empty list *)
Definition us_calendar (skip : list string) (long : bool) (o : cal_opts) : res (timeboard Z) :=
  new_calendar us_class (us_amendments skip long) o.

(** ** UK.py *)
(** UK.py:11-17, 19-23 (38 for Scotland), 25-28 *)
Definition uk_fixed : list (string * (Z * Z)) :=
  [("new_year", (1, 1)); ("new_year2", (1, 2)); ("st_patricks", (3, 17)); ("orangemens", (7, 12));
   ("st_andrews", (11, 30)); ("christmas", (12, 25)); ("boxing", (12, 26))].
Definition uk_floating (country : string) : list (string * seek) :=
  [("early_may", (5, 1, 1, 0)); ("spring", (5, 1, -1, 0));
   ("summer", if String.eqb country "scotland" then (8, 1, 1, 0) else (8, 1, -1, 0))].
Definition uk_easter : list (string * Z) := [("good_friday", -2); ("easter_monday", 1)].

(** UK.py:30-41 *)
Definition uk_skip (country : string) (skip : list string) : list string :=
  skip
  ++ (if String.eqb country "england" then ["new_year2"; "st_patricks"; "orangemens"; "st_andrews"] else [])
  ++ (if String.eqb country "scotland" then ["st_patricks"; "orangemens"; "easter_monday"] else [])
  ++ (if String.eqb country "northern_ireland" then ["new_year2"; "st_andrews"] else []).

(** /repo/timeboard/calendars/UK.py:8-83 bank_holidays *)
Definition bank_holidays (y0 y1 : Z) (country : string) (skip0 : list string) (long : bool) (label : Z)
  : res (list (akey * Z)) :=
  let skip := uk_skip country skip0 in
  let ys := years_of y0 y1 in
  do d <- lengthen long HNext (fixed_dates (named skip uk_fixed) ys label);
  do d <- foldM (fun d y => do f <- cb_nth_weekday y (named skip (uk_floating country)) label false;
                            let d := dict_update akey_eqb d (map tskey f) in
                            Ok (dict_update akey_eqb d (map tskey (cb_from_easter y (named skip uk_easter) false label))))
                ys d;
  let put (c : bool) (t : Z) d := if c then dict_put akey_eqb d (KTs (t * NS_DAY)) label else d in
  let del (c : bool) (t : Z) d := if c then dict_del akey_eqb d (KTs (t * NS_DAY)) else d in
  let royal := negb (skips skip "royal") in
  let d := del (in_years 2002 y0 y1) (date 2002 5 27) d in
  let d := put (in_years 2002 y0 y1 && royal) (date 2002 6 3) d in
  let d := put (in_years 2002 y0 y1 && royal) (date 2002 6 4) d in
  let d := put (in_years 2011 y0 y1 && royal) (date 2011 4 29) d in
  let d := del (in_years 2012 y0 y1) (date 2012 5 28) d in
  let d := put (in_years 2012 y0 y1 && royal) (date 2012 6 4) d in
  let d := put (in_years 2012 y0 y1 && royal) (date 2012 6 5) d in
  Ok d.

(** UK.py:177-185 *)
Definition uk_class : cal_class := mkCal (date 2000 1 1 * NS_DAY) (last_second (date 2020 12 31)).
(** UK.py:187-202 amendments *)
Definition uk_amendments (country : string) (skip : list string) (long : bool) (s e : option Z)
           (custom : option (list (Z * Z))) : res (list (akey * Z)) :=
  do b <- get_bounds uk_class s e;
  do d <- bank_holidays (year_at (fst b)) (year_at (snd b)) country skip long 0;
  Ok (add_custom d custom).
Definition uk_calendar (country : string) (skip : list string) (long : bool) (o : cal_opts) : res (timeboard Z) :=
  new_calendar uk_class (uk_amendments country skip long) o.

(** ** RU.py *)
(** RU.py:7-15 holidays *)
Definition ru_days : list (Z * Z) :=
  [(1, 1); (1, 2); (1, 3); (1, 4); (1, 5); (1, 6); (1, 7); (2, 23); (3, 8); (5, 1); (5, 9); (6, 12); (11, 4)].
Definition ru_holidays (y0 y1 : Z) (work_on_dec31 : bool) : list (akey * Z) :=
  dict_update akey_eqb []
    (flat_map (fun md => map (fun y => (KTs (date y (fst md) (snd md) * NS_DAY), 0)) (years_of y0 y1))
              (ru_days ++ (if work_on_dec31 then [] else [(12, 31)]))).

(** RU.py:18-74 changes(eve_hours) *)
Definition ru_changes (x : Z) : list (Z * Z) :=
  [(date 2005 1 10, 0); (date 2005 2 22, x); (date 2005 3 5, x); (date 2005 3 7, 0);
    (date 2005 5 2, 0); (date 2005 5 10, 0); (date 2005 5 14, 8); (date 2005 6 13, 0);
    (date 2005 11 3, x); (date 2006 1 9, 0); (date 2006 2 22, x); (date 2006 2 24, 0);
    (date 2006 2 26, 8); (date 2006 3 7, x); (date 2006 5 6, x); (date 2006 5 8, 0);
    (date 2006 11 3, x); (date 2006 11 6, 0); (date 2007 1 8, 0); (date 2007 2 22, x);
    (date 2007 3 7, x); (date 2007 4 28, x); (date 2007 4 30, 0); (date 2007 5 8, x);
    (date 2007 6 9, x); (date 2007 6 11, 0); (date 2007 11 5, 0); (date 2007 12 29, x);
    (date 2007 12 31, 0); (date 2008 1 8, 0); (date 2008 2 22, x); (date 2008 2 25, 0);
    (date 2008 3 7, x); (date 2008 3 10, 0); (date 2008 4 30, x); (date 2008 5 2, 0);
    (date 2008 5 4, 8); (date 2008 5 8, x); (date 2008 6 7, 8); (date 2008 6 11, x);
    (date 2008 6 13, 0); (date 2008 11 1, x); (date 2008 11 3, 0); (date 2008 12 31, x);
    (date 2009 1 8, 0); (date 2009 1 9, 0); (date 2009 1 11, 8); (date 2009 3 9, 0);
    (date 2009 4 30, x); (date 2009 5 8, x); (date 2009 5 11, 0); (date 2009 6 11, x);
    (date 2009 11 3, x); (date 2009 12 31, x); (date 2010 1 8, 0); (date 2010 2 22, 0);
    (date 2010 2 27, x); (date 2010 4 30, x); (date 2010 5 3, 0); (date 2010 5 10, 0);
    (date 2010 6 11, x); (date 2010 6 14, 0); (date 2010 11 3, x); (date 2010 11 5, 0);
    (date 2010 11 13, 8); (date 2010 12 31, x); (date 2011 1 10, 0); (date 2011 2 22, x);
    (date 2011 3 5, x); (date 2011 3 7, 0); (date 2011 5 2, 0); (date 2011 6 13, 0);
    (date 2011 11 3, x); (date 2012 1 9, 0); (date 2012 2 22, x); (date 2012 3 7, x);
    (date 2012 3 9, 0); (date 2012 3 11, 8); (date 2012 4 28, x); (date 2012 4 30, 0);
    (date 2012 5 5, 8); (date 2012 5 7, 0); (date 2012 5 8, 0); (date 2012 5 12, x);
    (date 2012 6 9, x); (date 2012 6 11, 0); (date 2012 11 5, 0); (date 2012 12 29, x);
    (date 2012 12 31, 0); (date 2013 1 8, 0); (date 2013 2 22, x); (date 2013 3 7, x);
    (date 2013 4 30, x); (date 2013 5 2, 0); (date 2013 5 3, 0); (date 2013 5 8, x);
    (date 2013 5 10, 0); (date 2013 6 11, x); (date 2013 12 31, x); (date 2014 1 8, 0);
    (date 2014 2 24, x); (date 2014 3 7, x); (date 2014 3 10, 0); (date 2014 4 30, x);
    (date 2014 5 2, 0); (date 2014 5 8, x); (date 2014 6 11, x); (date 2014 6 13, 0);
    (date 2014 11 3, 0); (date 2014 12 31, x); (date 2015 1 8, 0); (date 2015 1 9, 0);
    (date 2015 3 9, 0); (date 2015 4 30, x); (date 2015 5 4, 0); (date 2015 5 8, x);
    (date 2015 5 11, 0); (date 2015 6 11, x); (date 2015 11 3, x); (date 2015 12 31, x);
    (date 2016 1 8, 0); (date 2016 2 20, x); (date 2016 2 22, 0); (date 2016 3 7, 0);
    (date 2016 5 2, 0); (date 2016 5 3, 0); (date 2016 6 13, 0); (date 2016 11 3, x);
    (date 2017 2 22, x); (date 2017 2 24, 0); (date 2017 3 7, x); (date 2017 5 8, 0);
    (date 2017 11 3, x); (date 2017 11 6, 0); (date 2018 1 8, 0); (date 2018 2 22, x);
    (date 2018 3 7, x); (date 2018 3 9, 0); (date 2018 4 28, x); (date 2018 4 30, 0);
    (date 2018 5 2, 0); (date 2018 5 8, x); (date 2018 6 9, x); (date 2018 6 11, 0);
    (date 2018 11 5, 0); (date 2018 12 29, x); (date 2018 12 31, 0); (date 2019 1 8, 0);
    (date 2019 2 22, x); (date 2019 3 7, x); (date 2019 4 30, x); (date 2019 5 2, 0);
    (date 2019 5 3, 0); (date 2019 5 8, x); (date 2019 5 10, 0); (date 2019 6 11, x);
    (date 2019 12 31, x); (date 2020 1 8, 0); (date 2020 2 24, 0); (date 2020 3 9, 0);
    (date 2020 4 30, x); (date 2020 5 4, 0); (date 2020 5 5, 0); (date 2020 5 8, x);
    (date 2020 5 11, 0); (date 2020 6 11, x); (date 2020 11 3, x); (date 2020 12 31, x);
    (date 2021 1 8, 0); (date 2021 2 20, x); (date 2021 2 22, 0); (date 2021 4 30, x);
    (date 2021 5 3, 0); (date 2021 5 10, 0); (date 2021 6 11, x); (date 2021 6 14, 0);
    (date 2021 11 3, x); (date 2021 11 5, 0); (date 2021 12 31, 0)].

(** RU.py:158-166 *)
Definition ru_class : cal_class := mkCal (date 2005 1 1 * NS_DAY) (last_second (date 2021 12 31)).
(** RU.py:168-188 amendments *)
Definition ru_amendments (work_on_dec31 short_eves : bool) (s e : option Z) (custom : option (list (Z * Z)))
  : res (list (akey * Z)) :=
  do b <- get_bounds ru_class s e;
  let d := dict_update akey_eqb [] (map (fun q => (KTs (fst q * NS_DAY), snd q)) (ru_changes (if short_eves then 7 else 8))) in
  let d := dict_update akey_eqb d (ru_holidays (year_at (fst b)) (year_at (snd b)) work_on_dec31) in
  Ok (add_custom d custom).
Definition ru_calendar (work_on_dec31 short_eves : bool) (o : cal_opts) : res (timeboard Z) :=
  new_calendar ru_class (ru_amendments work_on_dec31 short_eves) o.
