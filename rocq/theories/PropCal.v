(** The preconfigured calendars: C38 (calendarbase.py), C39, C40, C43, C44. *)
From Verif Require Import Base Civil Freq Frame When Timeline Board Spec Calendars SpecWhen SpecCal Samples SeekProofs ExtendProofs UsProofs UkProofs YearProofs RangeProofs.
From Coq Require Import Sorted String.
Open Scope string_scope.
Open Scope Z_scope.

(** ** C38: calendarbase.nth_weekday_of_month *)
Theorem C38_calendar : forall (L : Type) year l (label : L) raise, Forall seek_valid l ->
  (raise = false \/ (forall s, In s l -> exists d, seek_finds year s d) ->
   exists am, cb_nth_weekday year l label raise = Ok am /\ NoDup (map fst am)
     /\ forall t x, In (t, x) am <-> x = label /\ exists s d, In s l /\ seek_finds year s d /\ t = d * NS_DAY)
  /\ (raise = true -> ~ (forall s, In s l -> exists d, seek_finds year s d) -> cb_nth_weekday year l label raise = Err EOutOfBounds).
Proof. exact C38_calendar_pf. Qed.
Print Assumptions C38_calendar.
(** The last Monday of May, the day after the fourth Thursday of November; February 2017 has no
    fifth Wednesday. *)
Example C38_calendar_ex :
  Forall seek_valid [(5, 1, -1, 0); (11, 4, 4, 1); (2, 3, 5, 0)]
  /\ cb_nth_weekday 2017 [(5, 1, -1, 0); (11, 4, 4, 1); (2, 3, 5, 0)] 0 false = Ok [(day 2017 5 29, 0); (day 2017 11 24, 0)]
  /\ cb_nth_weekday 2017 [(5, 1, -1, 0); (11, 4, 4, 1); (2, 3, 5, 0)] 0 true = Err EOutOfBounds.
Proof. split; [repeat constructor; vm_compute; congruence|]. vm_compute. repeat split. Qed.

Theorem C38_invalid : forall (L : Type) year l1 s l2 (label : L) raise, Forall seek_valid l1 -> ~ seek_valid s ->
  raise = false \/ (forall s', In s' l1 -> exists d, seek_finds year s' d) ->
  cb_nth_weekday year (l1 ++ s :: l2) label raise = Err EAssertion.
Proof. exact C38_invalid_pf. Qed.
Print Assumptions C38_invalid.
Example C38_invalid_ex : ~ seek_valid (5, 1, 0, 0)
  /\ cb_nth_weekday 2017 [(5, 1, -1, 0); (5, 1, 0, 0); (2, 3, 5, 0)] 0 true = Err EAssertion
  /\ cb_nth_weekday 2017 [(5, 1, -1, 0); (2, 3, 5, 0); (5, 1, 0, 0)] 0 true = Err EOutOfBounds.
Proof. split; [|vm_compute; split; reflexivity]. intros (_ & _ & H). vm_compute in H. destruct H as [H _]. exact (H eq_refl). Qed.

(** ** C43, C44: extend_weekends *)
Theorem C43_extend : forall (L : Type) (am : list (akey * L)) how label weekend,
  exists d added, extend_weekends am how label weekend = Ok d
    /\ NoDup (map fst d)
    /\ StronglySorted Z.lt (map fst added)
    /\ (forall h, In h (map fst added) <-> In (weekday (h / NS_DAY)) weekend /\ exists x, last_value am h x)
    /\ (forall j h n, nth_error added j = Some (h, n) ->
          first_free how weekend (fun t => (exists x, last_value am t x) \/ In t (map snd (firstn j added))) h n)
    /\ (forall t x, In (t, x) d <->
          last_value am t x \/ exists h y, In (h, t) added /\ last_value am h y /\ x = opt_or label y).
Proof. exact C43_extend_pf. Qed.
Print Assumptions C43_extend.
Definition christmas16 : list (akey * Z) := [(KStr (date 2016 12 25), 0); (KStr (date 2016 12 26), 1)].
Example C43_ex :
  extend_weekends christmas16 HNearest None sat_sun = Ok [(day 2016 12 25, 0); (day 2016 12 26, 1); (day 2016 12 27, 0)]
  /\ extend_weekends christmas16 HPrevious (Some 5) sat_sun = Ok [(day 2016 12 25, 0); (day 2016 12 26, 1); (day 2016 12 23, 5)]
  /\ last_value christmas16 (day 2016 12 26) 1
  /\ first_free HNext sat_sun (fun t => t = day 2016 12 26) (day 2016 12 25) (day 2016 12 27).
Proof.
  split; [vm_compute; reflexivity|]. split; [vm_compute; reflexivity|]. split; [exists [(KStr (date 2016 12 25), 0)], (KStr (date 2016 12 26)), []; split; [reflexivity|]; split; [reflexivity|intros q []]|].
  exists 1%nat, 1. split; [vm_compute; reflexivity|]. split; [intros [|j] Hj; [vm_compute; discriminate|exfalso; apply le_S_n in Hj; inversion Hj]|].
  split; [discriminate|]. split; [vm_compute; reflexivity|]. split; [vm_compute; discriminate|].
  intros i [Hi1 Hi2]. assert (i = 0) as ->; [|vm_compute; reflexivity]. apply Z.le_antisymm; [apply Z.lt_succ_r; exact Hi2|exact Hi1].
Qed.

(** The docstring of extend_weekends says that the day added is a weekday.  What is missing: if
    all the five weekdays next to a weekend are amended, the day added may be on the following
    weekend (see [C44_refuted]). *)
Theorem C44_weekday_partial : forall (L : Type) (am : list (akey * L)) how label d t x,
  extend_weekends am how label sat_sun = Ok d -> In (t, x) d -> (forall y, ~ last_value am t y) -> 5 <= weekday (t / NS_DAY) ->
  exists s, weekday (s / NS_DAY) = 0 /\ Z.abs (s - t) <= 6 * NS_DAY /\ forall i, 0 <= i < 5 -> In (s + i * NS_DAY) (map fst d).
Proof. exact C44_weekday_partial_pf. Qed.
Print Assumptions C44_weekday_partial.
Definition long_break : list (akey * Z) :=
  map (fun d => (KTs (d * NS_DAY), 0)) [date 2017 12 30; date 2018 1 1; date 2018 1 2; date 2018 1 3; date 2018 1 4; date 2018 1 5].
Theorem C44_refuted : exists (am : list (akey * Z)) d t x, extend_weekends am HNext None sat_sun = Ok d /\ In (t, x) d
  /\ (forall q, In q am -> key_ts (fst q) <> t) /\ weekday (t / NS_DAY) = 5.
Proof.
  exists long_break, (map (fun d => (d * NS_DAY, 0)) (map (fun k => date 2017 12 30 + k) [0; 2; 3; 4; 5; 6; 7])), (day 2018 1 6), 0.
  split; [vm_compute; reflexivity|]. split; [vm_compute; tauto|]. split; [|vm_compute; reflexivity].
  intros q Hq. repeat (destruct Hq as [<-|Hq]; [vm_compute; discriminate|]). destruct Hq.
Qed.
Print Assumptions C44_refuted.

(** ** C39 *)
(** The exact outcome, for all arguments.  The property as stated is false in one case, hence
    [duplicates]; see [C39_custom_refuted]. *)
Theorem C39_us : forall skip long o,
  outcome 2000 2020 o (duplicates (from_day 2000 o) (to_day 2020 o) us_dates skip long o)
    (off_hours (us_off (year_of (from_day 2000 o)) (year_of (to_day 2020 o)) skip long))
    (us_calendar skip long o).
Proof. exact C39_us_pf. Qed.
Print Assumptions C39_us.

Theorem C39_uk : forall country skip long o,
  outcome 2000 2020 o (duplicates (from_day 2000 o) (to_day 2020 o) (uk_dates country) skip long o)
    (off_hours (uk_off country skip long))
    (uk_calendar country skip long o).
Proof. exact C39_uk_pf. Qed.
Print Assumptions C39_uk.

Theorem C39_ru : forall work_on_dec31 short_eves o,
  outcome 2005 2021 o
    (cu_no_amend o = false /\ cu_only o = true /\ exists l, cu_custom o = Some l /\ same_day_twice (from_day 2005 o) (to_day 2021 o) l)
    (ru_hours work_on_dec31 short_eves)
    (ru_calendar work_on_dec31 short_eves o).
Proof. exact C39_ru_pf. Qed.
Print Assumptions C39_ru.

(** One custom amendment for a fixed-date holiday and long_weekends=False: duplicate key. *)
Theorem C39_custom_refuted : exists skip o, bounds_supported 2000 2020 o /\ from_day 2000 o <= to_day 2020 o
  /\ cu_only o = false /\ (exists q, cu_custom o = Some [q])
  /\ us_calendar skip false o = Err EKey.
Proof. exact C39_custom_refuted_pf. Qed.
Print Assumptions C39_custom_refuted.

(** The hours of the days of a calendar. *)
Definition hours (r : res (timeboard Z)) (d0 : Z) (n : nat) : list Z :=
  match r with
  | Ok tb => map (fun d => match get_workshift tb (d * NS_DAY) None with Ok w => ws_label w | Err _ => -1 end) (zrange d0 n)
  | Err _ => []
  end.
Definition opts (a b : Z) : cal_opts := mkOpts (Some (a * NS_DAY)) (Some (b * NS_DAY)) false false None.
(** 22 Dec 2011 is a Thursday; Christmas 2011 and New Year 2012 are Sundays. *)
Example C39_us_ex :
  bounds_supported 2000 2020 (opts (date 2011 12 22) (date 2012 1 4))
  /\ from_day 2000 (opts (date 2011 12 22) (date 2012 1 4)) = date 2011 12 22
  /\ hours (us_calendar [] true (opts (date 2011 12 22) (date 2012 1 4))) (date 2011 12 22) 14 = [8; 8; 0; 0; 0; 8; 8; 8; 8; 0; 0; 0; 8; 8]
  /\ hours (us_calendar ["new_year"] false (opts (date 2011 12 22) (date 2012 1 4))) (date 2011 12 22) 14 = [8; 8; 0; 0; 8; 8; 8; 8; 8; 0; 0; 8; 8; 8]
  /\ us_calendar [] true (opts (date 1999 12 31) (date 2012 1 4)) = Err EOutOfBounds
  /\ us_calendar [] true (opts (date 2012 1 4) (date 2012 1 3)) = Err EVoidInterval.
Proof. split; [split; intros t [= <-]; vm_compute; split; discriminate|]. vm_compute. repeat split. Qed.
(** 25 Dec 2010 and 1 Jan 2011 are Saturdays. The spring bank holiday of 2012 was moved from
    28 May to 4 June, 5 June was the royal holiday. *)
Example C39_uk_ex :
  hours (uk_calendar "england" [] true (opts (date 2010 12 22) (date 2011 1 5))) (date 2010 12 22) 15 = [8; 8; 8; 0; 0; 0; 0; 8; 8; 8; 0; 0; 0; 8; 8]
  /\ hours (uk_calendar "scotland" [] true (opts (date 2010 12 22) (date 2011 1 5))) (date 2010 12 22) 15 = [8; 8; 8; 0; 0; 0; 0; 8; 8; 8; 0; 0; 0; 0; 8]
  /\ hours (uk_calendar "england" [] true (opts (date 2012 5 25) (date 2012 6 8))) (date 2012 5 25) 15 = [8; 0; 0; 8; 8; 8; 8; 8; 0; 0; 0; 0; 8; 8; 8]
  /\ hours (uk_calendar "scotland" [] true (opts (date 2017 4 13) (date 2017 4 18))) (date 2017 4 13) 6 = [8; 0; 0; 0; 8; 8].
Proof. vm_compute. repeat split. Qed.
Example C39_ru_ex :
  hours (ru_calendar true true (opts (date 2015 12 28) (date 2016 1 12))) (date 2015 12 28) 16 = [8; 8; 8; 7; 0; 0; 0; 0; 0; 0; 0; 0; 0; 0; 8; 8]
  /\ ru_calendar true true (mkOpts (Some (day 2015 12 28)) (Some (day 2016 1 12)) false true (Some [(day 2016 1 5, 1); (day 2016 1 5 + 1, 2)])) = Err EKey.
Proof. vm_compute. repeat split. Qed.

(** ** C40 *)
Theorem C40_uk : forall country skip long o tb tb',
  uk_calendar country skip long o = Ok tb -> uk_calendar country skip long (unbounded o) = Ok tb' ->
  forall t, from_day 2000 o <= t / NS_DAY <= to_day 2020 o -> forall x b, shows tb t x b <-> shows tb' t x b.
Proof. exact C40_uk_pf. Qed.
Print Assumptions C40_uk.

Theorem C40_ru : forall work_on_dec31 short_eves o tb tb',
  ru_calendar work_on_dec31 short_eves o = Ok tb -> ru_calendar work_on_dec31 short_eves (unbounded o) = Ok tb' ->
  forall t, from_day 2005 o <= t / NS_DAY <= to_day 2021 o -> forall x b, shows tb t x b <-> shows tb' t x b.
Proof. exact C40_ru_pf. Qed.
Print Assumptions C40_ru.

(** What is missing for the US: the days [us_edge]; see [C40_us_refuted]. *)
Theorem C40_us_partial : forall skip long o tb tb',
  us_calendar skip long o = Ok tb -> us_calendar skip long (unbounded o) = Ok tb' ->
  forall t, from_day 2000 o <= t / NS_DAY <= to_day 2020 o -> ~ us_edge o (t / NS_DAY) -> forall x b, shows tb t x b <-> shows tb' t x b.
Proof. exact C40_us_partial_pf. Qed.
Print Assumptions C40_us_partial.

(** 31 Dec 2010, a Friday, is a working day in the calendar ending on that day, but a day off in
    the calendar for all years (New Year 2011 is a Saturday). *)
Theorem C40_us_refuted : exists o tb tb' t,
  us_calendar [] true o = Ok tb /\ us_calendar [] true (unbounded o) = Ok tb'
  /\ from_day 2000 o <= t / NS_DAY <= to_day 2020 o /\ shows tb t 8 true /\ shows tb' t 0 false.
Proof. exact C40_us_refuted_pf. Qed.
Print Assumptions C40_us_refuted.

(** A calendar from 22 to 31 Dec 2010: only its last day is one of the exceptions. *)
Example C40_ex :
  us_edge (opts (date 2010 12 22) (date 2010 12 31)) (date 2010 12 31)
  /\ ~ us_edge (opts (date 2010 12 22) (date 2010 12 31)) (date 2010 12 24)
  /\ hours (us_calendar [] true (opts (date 2010 12 22) (date 2010 12 31))) (date 2010 12 22) 10 = [8; 8; 0; 0; 0; 8; 8; 8; 8; 8]
  /\ hours (us_calendar [] true (opts (date 2010 12 22) (date 2011 1 2))) (date 2010 12 22) 10 = [8; 8; 0; 0; 0; 8; 8; 8; 8; 0]
  /\ hours (uk_calendar "england" [] true (opts (date 2010 12 22) (date 2010 12 31))) (date 2010 12 22) 10
     = hours (uk_calendar "england" [] true (opts (date 2010 6 1) (date 2011 3 2))) (date 2010 12 22) 10
  /\ hours (ru_calendar false true (opts (date 2010 12 22) (date 2010 12 31))) (date 2010 12 22) 10
     = hours (ru_calendar false true (opts (date 2010 6 1) (date 2011 3 2))) (date 2010 12 22) 10.
Proof.
  split; [left; vm_compute; repeat split|]. split; [intros [(C & _)|(C & _)]; vm_compute in C; discriminate|].
  split; [vm_compute; reflexivity|]. split; [vm_compute; reflexivity|]. split; vm_compute; reflexivity.
Qed.
