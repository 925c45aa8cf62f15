(** ConfCalendarsGeneric: /repo/timeboard/tests/calendars/test_calendars_generic.py as examples about the model.
    Written by tools/tests2coq.py. *)
From Verif Require Api.
From Verif Require Import Base Civil Freq Frame Timeline Board When Calendars UserCal ConfBase.
From Coq Require Import QArith String.
Open Scope Z_scope.

(** test_calendars_generic.py:11 TestCalendarUtils.test_nth_weekday_positive *)
Example test_nth_weekday_positive : passes (
  let heap0 : heap Z := [] in
  do d1 <- cb_nth_weekday 2017 [(12, 5, 1, 0); (12, 7, 1, 0); (12, 3, 1, 0); (12, 3, 4, 0); (12, 3, 5, 0); (12, 5, 5, 0); (12, 7, 5, 0); (5, 1, 1, 0); (5, 1, 5, 0)] 5 false;
  Ok [((zlist_eqb (zsort (map fst d1)) [(ts 2017 5 1 0 0 0); (ts 2017 5 29 0 0 0); (ts 2017 12 1 0 0 0); (ts 2017 12 3 0 0 0); (ts 2017 12 6 0 0 0); (ts 2017 12 27 0 0 0); (ts 2017 12 29 0 0 0); (ts 2017 12 31 0 0 0)]));
       (((zlen (filter (Z.eqb 5) (map snd d1))) =? (zlen d1)))]) = true.
Proof. vm_compute. reflexivity. Qed.

(** test_calendars_generic.py:28 TestCalendarUtils.test_nth_weekday_negative *)
Example test_nth_weekday_negative : passes (
  let heap0 : heap Z := [] in
  do d1 <- cb_nth_weekday 2017 [(12, 3, (-1), 0); (12, 3, (-4), 0); (12, 3, (-5), 0); (12, 5, (-1), 0); (12, 7, (-1), 0); (5, 1, (-1), 0); (5, 1, (-5), 0)] 5 false;
  Ok [((zlist_eqb (zsort (map fst d1)) [(ts 2017 5 1 0 0 0); (ts 2017 5 29 0 0 0); (ts 2017 12 6 0 0 0); (ts 2017 12 27 0 0 0); (ts 2017 12 29 0 0 0); (ts 2017 12 31 0 0 0)]));
       (((zlen (filter (Z.eqb 5) (map snd d1))) =? (zlen d1)))]) = true.
Proof. vm_compute. reflexivity. Qed.

(** test_calendars_generic.py:44 TestCalendarUtils.test_nth_weekday_shift *)
Example test_nth_weekday_shift : passes (
  let heap0 : heap Z := [] in
  do d1 <- cb_nth_weekday 2017 [(12, 5, 1, 0); (12, 5, 1, 2); (12, 5, 1, (-2))] 0 false;
  Ok [((zlist_eqb (zsort (map fst d1)) [(ts 2017 11 29 0 0 0); (ts 2017 12 1 0 0 0); (ts 2017 12 3 0 0 0)]));
       (((zlen (filter (Z.eqb 0) (map snd d1))) =? (zlen d1)))]) = true.
Proof. vm_compute. reflexivity. Qed.

(** test_calendars_generic.py:55 TestCalendarUtils.test_nth_weekday_bad_n *)
Example test_nth_weekday_bad_n : passes (
  let heap0 : heap Z := [] in

  Ok [raises [EOutOfBounds] (do d1 <- cb_nth_weekday 2017 [(12, 3, 5, 0)] 0 true; Ok tt);
       raises [EOutOfBounds] (do d2 <- cb_nth_weekday 2017 [(12, 3, (-5), 0)] 0 true; Ok tt);
       raises [EAssertion] (do d3 <- cb_nth_weekday 2017 [(5, 1, (-6), 0)] 0 false; Ok tt);
       raises [EAssertion] (do d4 <- cb_nth_weekday 2017 [(5, 1, 6, 0)] 0 false; Ok tt);
       raises [EAssertion] (do d5 <- cb_nth_weekday 2017 [(5, 1, 0, 0)] 0 false; Ok tt)]) = true.
Proof. vm_compute. reflexivity. Qed.

(** test_calendars_generic.py:67 TestCalendarUtils.test_extend_weekend_saturday *)
Example test_extend_weekend_saturday : passes (
  let heap0 : heap Z := [] in
  do d1 <- extend_weekends [(KStr (date 2017 12 16), 5)] HNearest None sat_sun;
  do d2 <- extend_weekends [(KStr (date 2017 12 16), 5)] HPrevious None sat_sun;
  do d3 <- extend_weekends [(KStr (date 2017 12 16), 5)] HNext None sat_sun;
  Ok [((dict_eqb d1 [((ts 2017 12 16 0 0 0), 5); ((ts 2017 12 15 0 0 0), 5)]));
       ((dict_eqb d2 [((ts 2017 12 16 0 0 0), 5); ((ts 2017 12 15 0 0 0), 5)]));
       ((dict_eqb d3 [((ts 2017 12 16 0 0 0), 5); ((ts 2017 12 18 0 0 0), 5)]))]) = true.
Proof. vm_compute. reflexivity. Qed.

(** test_calendars_generic.py:79 TestCalendarUtils.test_extend_weekend_sunday *)
Example test_extend_weekend_sunday : passes (
  let heap0 : heap Z := [] in
  do d1 <- extend_weekends [(KStr (date 2017 12 17), 5)] HNearest None sat_sun;
  do d2 <- extend_weekends [(KStr (date 2017 12 17), 5)] HPrevious None sat_sun;
  do d3 <- extend_weekends [(KStr (date 2017 12 17), 5)] HNext None sat_sun;
  Ok [((dict_eqb d1 [((ts 2017 12 17 0 0 0), 5); ((ts 2017 12 18 0 0 0), 5)]));
       ((dict_eqb d2 [((ts 2017 12 17 0 0 0), 5); ((ts 2017 12 15 0 0 0), 5)]));
       ((dict_eqb d3 [((ts 2017 12 17 0 0 0), 5); ((ts 2017 12 18 0 0 0), 5)]))]) = true.
Proof. vm_compute. reflexivity. Qed.

(** test_calendars_generic.py:91 TestCalendarUtils.test_extend_weekend_new_label *)
Example test_extend_weekend_new_label : passes (
  let heap0 : heap Z := [] in
  do d1 <- extend_weekends [(KStr (date 2017 12 17), 5)] HNearest (Some 1000001) sat_sun;
  Ok [((dict_eqb d1 [((ts 2017 12 17 0 0 0), 5); ((ts 2017 12 18 0 0 0), 1000001)]))]) = true.
Proof. vm_compute. reflexivity. Qed.

(** test_calendars_generic.py:97 TestCalendarUtils.test_extend_weekend_weekday *)
Example test_extend_weekend_weekday : passes (
  let heap0 : heap Z := [] in
  do d1 <- extend_weekends [(KStr (date 2017 12 15), 5)] HNearest None sat_sun;
  Ok [((dict_eqb d1 [((ts 2017 12 15 0 0 0), 5)]))]) = true.
Proof. vm_compute. reflexivity. Qed.

(** test_calendars_generic.py:102 TestCalendarUtils.test_extend_weekend_weekday_already_off1 *)
Example test_extend_weekend_weekday_already_off1 : passes (
  let heap0 : heap Z := [] in
  do d1 <- extend_weekends [(KStr (date 2017 12 17), 5); (KStr (date 2017 12 18), 5)] HNearest None sat_sun;
  Ok [((dict_eqb d1 [((ts 2017 12 17 0 0 0), 5); ((ts 2017 12 18 0 0 0), 5); ((ts 2017 12 19 0 0 0), 5)]))]) = true.
Proof. vm_compute. reflexivity. Qed.

(** test_calendars_generic.py:110 TestCalendarUtils.test_extend_weekend_weekday_already_off2 *)
Example test_extend_weekend_weekday_already_off2 : passes (
  let heap0 : heap Z := [] in
  do d1 <- extend_weekends [(KStr (date 2017 12 17), 5); (KStr (date 2017 12 15), 5)] HPrevious None sat_sun;
  Ok [((dict_eqb d1 [((ts 2017 12 14 0 0 0), 5); ((ts 2017 12 15 0 0 0), 5); ((ts 2017 12 17 0 0 0), 5)]))]) = true.
Proof. vm_compute. reflexivity. Qed.

(** test_calendars_generic.py:118 TestCalendarUtils.test_extend_weekend_two_holidays_same_labels *)
Example test_extend_weekend_two_holidays_same_labels : passes (
  let heap0 : heap Z := [] in
  do d1 <- extend_weekends [(KStr (date 2017 12 16), 5); (KStr (date 2017 12 17), 5)] HNearest None sat_sun;
  do d2 <- extend_weekends [(KStr (date 2017 12 16), 5); (KStr (date 2017 12 17), 5)] HPrevious None sat_sun;
  do d3 <- extend_weekends [(KStr (date 2017 12 16), 5); (KStr (date 2017 12 17), 5)] HNext None sat_sun;
  Ok [((dict_eqb d1 [((ts 2017 12 15 0 0 0), 5); ((ts 2017 12 16 0 0 0), 5); ((ts 2017 12 17 0 0 0), 5); ((ts 2017 12 18 0 0 0), 5)]));
       ((dict_eqb d2 [((ts 2017 12 14 0 0 0), 5); ((ts 2017 12 15 0 0 0), 5); ((ts 2017 12 16 0 0 0), 5); ((ts 2017 12 17 0 0 0), 5)]));
       ((dict_eqb d3 [((ts 2017 12 16 0 0 0), 5); ((ts 2017 12 17 0 0 0), 5); ((ts 2017 12 18 0 0 0), 5); ((ts 2017 12 19 0 0 0), 5)]))]) = true.
Proof. vm_compute. reflexivity. Qed.

(** test_calendars_generic.py:139 TestCalendarUtils.test_extend_weekend_two_holidays_new_label *)
Example test_extend_weekend_two_holidays_new_label : passes (
  let heap0 : heap Z := [] in
  do d1 <- extend_weekends [(KStr (date 2017 12 16), 5); (KStr (date 2017 12 17), 5)] HNearest (Some 0) sat_sun;
  do d2 <- extend_weekends [(KStr (date 2017 12 16), 5); (KStr (date 2017 12 17), 5)] HPrevious (Some 0) sat_sun;
  do d3 <- extend_weekends [(KStr (date 2017 12 16), 5); (KStr (date 2017 12 17), 5)] HNext (Some 0) sat_sun;
  Ok [((dict_eqb d1 [((ts 2017 12 15 0 0 0), 0); ((ts 2017 12 16 0 0 0), 5); ((ts 2017 12 17 0 0 0), 5); ((ts 2017 12 18 0 0 0), 0)]));
       ((dict_eqb d2 [((ts 2017 12 14 0 0 0), 0); ((ts 2017 12 15 0 0 0), 0); ((ts 2017 12 16 0 0 0), 5); ((ts 2017 12 17 0 0 0), 5)]));
       ((dict_eqb d3 [((ts 2017 12 16 0 0 0), 5); ((ts 2017 12 17 0 0 0), 5); ((ts 2017 12 18 0 0 0), 0); ((ts 2017 12 19 0 0 0), 0)]))]) = true.
Proof. vm_compute. reflexivity. Qed.

(** test_calendars_generic.py:158 TestCalendarUtils.test_extend_weekend_two_holidays_diff_labels *)
Example test_extend_weekend_two_holidays_diff_labels : passes (
  let heap0 : heap Z := [] in
  do d1 <- extend_weekends [(KStr (date 2017 12 16), 3); (KStr (date 2017 12 17), 5)] HNearest None sat_sun;
  do d2 <- extend_weekends [(KStr (date 2017 12 16), 3); (KStr (date 2017 12 17), 5)] HPrevious None sat_sun;
  do d3 <- extend_weekends [(KStr (date 2017 12 16), 3); (KStr (date 2017 12 17), 5)] HNext None sat_sun;
  Ok [((dict_eqb d1 [((ts 2017 12 15 0 0 0), 3); ((ts 2017 12 16 0 0 0), 3); ((ts 2017 12 17 0 0 0), 5); ((ts 2017 12 18 0 0 0), 5)]));
       ((dict_eqb d2 [((ts 2017 12 14 0 0 0), 5); ((ts 2017 12 15 0 0 0), 3); ((ts 2017 12 16 0 0 0), 3); ((ts 2017 12 17 0 0 0), 5)]));
       ((dict_eqb d3 [((ts 2017 12 16 0 0 0), 3); ((ts 2017 12 17 0 0 0), 5); ((ts 2017 12 18 0 0 0), 3); ((ts 2017 12 19 0 0 0), 5)]))]) = true.
Proof. vm_compute. reflexivity. Qed.

(** test_calendars_generic.py:177 TestCalendarUtils.test_extend_weekend_strange_weekend *)
Example test_extend_weekend_strange_weekend : passes (
  let heap0 : heap Z := [] in
  do d1 <- extend_weekends [(KStr (date 2017 12 16), 5)] HNearest None [5];
  do d2 <- extend_weekends [(KStr (date 2017 12 16), 5)] HNext None [5; 6; 0];
  do d3 <- extend_weekends [(KStr (date 2017 12 16), 5)] HPrevious None [3; 4; 5];
  do d4 <- extend_weekends [(KStr (date 2017 12 16), 5)] HNearest None [];
  Ok [((dict_eqb d1 [((ts 2017 12 16 0 0 0), 5); ((ts 2017 12 17 0 0 0), 5)]));
       ((dict_eqb d2 [((ts 2017 12 16 0 0 0), 5); ((ts 2017 12 19 0 0 0), 5)]));
       ((dict_eqb d3 [((ts 2017 12 13 0 0 0), 5); ((ts 2017 12 16 0 0 0), 5)]));
       ((dict_eqb d4 [((ts 2017 12 16 0 0 0), 5)]))]) = true.
Proof. vm_compute. reflexivity. Qed.

(** test_calendars_generic.py:192 TestCalendarUtils.test_from_easter *)
Example test_from_easter : passes (
  let heap0 : heap Z := [] in

  Ok [((dict_eqb (cb_from_easter 2017 [0; 1; (-2)] false 0) [((ts 2017 4 16 0 0 0), 0); ((ts 2017 4 17 0 0 0), 0); ((ts 2017 4 14 0 0 0), 0)]));
       ((dict_eqb (cb_from_easter 2017 [1] true 5) [((ts 2017 4 17 0 0 0), 5)]));
       ((dict_eqb (cb_from_easter 2000 [0] false 0) [((ts 2000 4 23 0 0 0), 0)]));
       ((dict_eqb (cb_from_easter 2000 [0] true 0) [((ts 2000 4 30 0 0 0), 0)]));
       ((dict_eqb (cb_from_easter 2000 [] false 0) []))]) = true.
Proof. vm_compute. reflexivity. Qed.

(** test_calendars_generic.py:218 TestCalendarBase.test_calendar_base_custom_limits *)
Example test_calendar_base_custom_limits : passes (
  let heap0 : heap Z := [] in
  do tb1 <- user_calendar base_class (mkUser (Some (ts 2017 1 1 0 0 0)) (Some (ts 2018 12 31 0 0 0)) false false None) [];
  do iv2 <- get_interval (fst tb1) RNone None None true C11 None;
  do n3 <- iv_count iv2 DOn None;
  Ok [((n3 =? 730))]) = true.
Proof. vm_compute. reflexivity. Qed.

(** test_calendars_generic.py:223 TestCalendarBase.test_calendar_base_custom_amds *)
Example test_calendar_base_custom_amds : passes (
  let heap0 : heap Z := [] in
  do tb1 <- user_calendar base_class (mkUser (Some (ts 2017 1 1 0 0 0)) (Some (ts 2018 12 31 0 0 0)) false false (Some [((ts 2017 3 1 0 0 0), 0); ((ts 2019 3 1 0 0 0), 0)])) [];
  do iv2 <- get_interval (fst tb1) RNone None None true C11 None;
  do n3 <- iv_count iv2 DOn None;
  Ok [((n3 =? 729))]) = true.
Proof. vm_compute. reflexivity. Qed.

(** test_calendars_generic.py:232 TestCalendarBase.test_calendat_base_OOB *)
Example test_calendat_base_OOB : passes (
  let heap0 : heap Z := [] in

  Ok [raises [EOutOfBounds] (do tb1 <- user_calendar base_class (mkUser (Some ((class_time (k_start base_class)) - (1 * NS_DAY))) None false false None) []; Ok tt);
       raises [EOutOfBounds] (do tb2 <- user_calendar base_class (mkUser None (Some ((class_time (k_end base_class)) + (1 * NS_DAY))) false false None) []; Ok tt)]) = true.
Proof. vm_compute. reflexivity. Qed.
