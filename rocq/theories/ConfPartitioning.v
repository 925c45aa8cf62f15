(** ConfPartitioning: /repo/timeboard/tests/test_partitioning.py as examples about the model.
    Written by tools/tests2coq.py. *)
From Verif Require Api.
From Verif Require Import Base Civil Freq Frame Timeline Board When ConfBase.
From Coq Require Import QArith String.
Open Scope Z_scope.

(** test_partitioning.py:42 TestDaysSplitByWeekly.test_days_splitby_weekly_aligned *)
Example test_days_splitby_weekly_aligned : passes (
  let heap0 : heap Z := [] in
  do f1 <- mk_frame (mkFstr None AlD) (ts 2017 1 2 0 0 0) (ts 2017 1 15 0 0 0);
  do ss2 <- partition_with_marker f1 (mkSpan 0 ((fr_len f1) - 1) 0 0) (mkMarker (mkFstr None (AlW None)) []);
  do x3 <- py_get_res ss2 0;
  do x4 <- py_get_res ss2 1;
  Ok [(((zlen ss2) =? 2));
       ((((s_first x3) =? 0)) && (((s_last x3) =? 6)) && (((s_left x3) =? 0)) && (((s_right x3) =? 0)));
       ((((s_first x4) =? 7)) && (((s_last x4) =? 13)) && (((s_left x4) =? 0)) && (((s_right x4) =? 0)))]) = true.
Proof. vm_compute. reflexivity. Qed.

(** test_partitioning.py:49 TestDaysSplitByWeekly.test_days_splitby_weekly_dangling *)
Example test_days_splitby_weekly_dangling : passes (
  let heap0 : heap Z := [] in
  do f1 <- mk_frame (mkFstr None AlD) (ts 2017 1 1 0 0 0) (ts 2017 1 18 0 0 0);
  do ss2 <- partition_with_marker f1 (mkSpan 0 ((fr_len f1) - 1) 0 0) (mkMarker (mkFstr None (AlW None)) []);
  do x3 <- py_get_res ss2 0;
  do x4 <- py_get_res ss2 1;
  do x5 <- py_get_res ss2 2;
  do x6 <- py_get_res ss2 3;
  Ok [(((zlen ss2) =? 4));
       ((((s_first x3) =? 0)) && (((s_last x3) =? 0)) && (((s_left x3) =? 6)) && (((s_right x3) =? 0)));
       ((((s_first x4) =? 1)) && (((s_last x4) =? 7)) && (((s_left x4) =? 0)) && (((s_right x4) =? 0)));
       ((((s_first x5) =? 8)) && (((s_last x5) =? 14)) && (((s_left x5) =? 0)) && (((s_right x5) =? 0)));
       ((((s_first x6) =? 15)) && (((s_last x6) =? 17)) && (((s_left x6) =? 0)) && (((s_right x6) =? 4)))]) = true.
Proof. vm_compute. reflexivity. Qed.

(** test_partitioning.py:58 TestDaysSplitByWeekly.test_days_splitby_weekly_short *)
Example test_days_splitby_weekly_short : passes (
  let heap0 : heap Z := [] in
  do f1 <- mk_frame (mkFstr None AlD) (ts 2017 1 3 0 0 0) (ts 2017 1 6 0 0 0);
  do ss2 <- partition_with_marker f1 (mkSpan 0 ((fr_len f1) - 1) 0 0) (mkMarker (mkFstr None (AlW None)) []);
  do x3 <- py_get_res ss2 0;
  Ok [(((zlen ss2) =? 1));
       ((((s_first x3) =? 0)) && (((s_last x3) =? 3)) && (((s_left x3) =? 1)) && (((s_right x3) =? 2)))]) = true.
Proof. vm_compute. reflexivity. Qed.

(** test_partitioning.py:64 TestDaysSplitByWeekly.test_days_splitby_weekly_dangling_span *)
Example test_days_splitby_weekly_dangling_span : passes (
  let heap0 : heap Z := [] in
  do f1 <- mk_frame (mkFstr None AlD) (ts 2017 1 1 0 0 0) (ts 2017 1 18 0 0 0);
  do ss2 <- partition_with_marker f1 (mkSpan 4 15 0 0) (mkMarker (mkFstr None (AlW None)) []);
  do x3 <- py_get_res ss2 0;
  do x4 <- py_get_res ss2 1;
  do x5 <- py_get_res ss2 2;
  Ok [(((zlen ss2) =? 3));
       ((((s_first x3) =? 4)) && (((s_last x3) =? 7)) && (((s_left x3) =? 3)) && (((s_right x3) =? 0)));
       ((((s_first x4) =? 8)) && (((s_last x4) =? 14)) && (((s_left x4) =? 0)) && (((s_right x4) =? 0)));
       ((((s_first x5) =? 15)) && (((s_last x5) =? 15)) && (((s_left x5) =? 0)) && (((s_right x5) =? 6)))]) = true.
Proof. vm_compute. reflexivity. Qed.

(** test_partitioning.py:72 TestDaysSplitByWeekly.test_days_splitby_weekly_dangling_span_aligned *)
Example test_days_splitby_weekly_dangling_span_aligned : passes (
  let heap0 : heap Z := [] in
  do f1 <- mk_frame (mkFstr None AlD) (ts 2017 1 1 0 0 0) (ts 2017 1 18 0 0 0);
  do ss2 <- partition_with_marker f1 (mkSpan 1 14 0 0) (mkMarker (mkFstr None (AlW None)) []);
  do x3 <- py_get_res ss2 0;
  do x4 <- py_get_res ss2 1;
  Ok [(((zlen ss2) =? 2));
       ((((s_first x3) =? 1)) && (((s_last x3) =? 7)) && (((s_left x3) =? 0)) && (((s_right x3) =? 0)));
       ((((s_first x4) =? 8)) && (((s_last x4) =? 14)) && (((s_left x4) =? 0)) && (((s_right x4) =? 0)))]) = true.
Proof. vm_compute. reflexivity. Qed.

(** test_partitioning.py:79 TestDaysSplitByWeekly.test_days_splitby_weekly_shifted *)
Example test_days_splitby_weekly_shifted : passes (
  let heap0 : heap Z := [] in
  do f1 <- mk_frame (mkFstr None AlD) (ts 2017 1 1 0 0 0) (ts 2017 1 15 0 0 0);
  do ss2 <- partition_with_marker f1 (mkSpan 1 12 0 0) (mkMarker (mkFstr None (AlW (Some 0))) []);
  do x3 <- py_get_res ss2 0;
  do x4 <- py_get_res ss2 1;
  do x5 <- py_get_res ss2 2;
  Ok [(((zlen ss2) =? 3));
       ((((s_first x3) =? 1)) && (((s_last x3) =? 1)) && (((s_left x3) =? 6)) && (((s_right x3) =? 0)));
       ((((s_first x4) =? 2)) && (((s_last x4) =? 8)) && (((s_left x4) =? 0)) && (((s_right x4) =? 0)));
       ((((s_first x5) =? 9)) && (((s_last x5) =? 12)) && (((s_left x5) =? 0)) && (((s_right x5) =? 3)))]) = true.
Proof. vm_compute. reflexivity. Qed.

(** test_partitioning.py:90 TestDaysSplitByWeeklyAtPoints.test_days_splitby_weekly_atpoints_empty *)
Example test_days_splitby_weekly_atpoints_empty : passes (
  let heap0 : heap Z := [] in
  do f1 <- mk_frame (mkFstr None AlD) (ts 2017 1 2 0 0 0) (ts 2017 1 15 0 0 0);
  do ss2 <- partition_with_marker f1 (mkSpan 0 ((fr_len f1) - 1) 0 0) (mkMarker (mkFstr None (AlW None)) []);
  do x3 <- py_get_res ss2 0;
  do x4 <- py_get_res ss2 1;
  Ok [(((zlen ss2) =? 2));
       ((((s_first x3) =? 0)) && (((s_last x3) =? 6)) && (((s_left x3) =? 0)) && (((s_right x3) =? 0)));
       ((((s_first x4) =? 7)) && (((s_last x4) =? 13)) && (((s_left x4) =? 0)) && (((s_right x4) =? 0)))]) = true.
Proof. vm_compute. reflexivity. Qed.

(** test_partitioning.py:97 TestDaysSplitByWeeklyAtPoints.test_days_splitby_weekly_atpoints_withzerobound *)
Example test_days_splitby_weekly_atpoints_withzerobound : passes (
  let heap0 : heap Z := [] in
  do f1 <- mk_frame (mkFstr None AlD) (ts 2017 1 2 0 0 0) (ts 2017 1 15 0 0 0);
  do ss2 <- partition_with_marker f1 (mkSpan 0 ((fr_len f1) - 1) 0 0) (mkMarker (mkFstr None (AlW None)) [from_start_of_each (DKw 0 0 0 0 0 0 0); from_start_of_each (DKw 0 0 0 2 0 0 0); from_start_of_each (DKw 0 0 0 5 0 0 0)]);
  do x3 <- py_get_res ss2 0;
  do x4 <- py_get_res ss2 1;
  do x5 <- py_get_res ss2 2;
  do x6 <- py_get_res ss2 3;
  do x7 <- py_get_res ss2 4;
  do x8 <- py_get_res ss2 5;
  Ok [(((zlen ss2) =? 6));
       ((((s_first x3) =? 0)) && (((s_last x3) =? 1)) && (((s_left x3) =? 0)) && (((s_right x3) =? 0)));
       ((((s_first x4) =? 2)) && (((s_last x4) =? 4)) && (((s_left x4) =? 0)) && (((s_right x4) =? 0)));
       ((((s_first x5) =? 5)) && (((s_last x5) =? 6)) && (((s_left x5) =? 0)) && (((s_right x5) =? 0)));
       ((((s_first x6) =? 7)) && (((s_last x6) =? 8)) && (((s_left x6) =? 0)) && (((s_right x6) =? 0)));
       ((((s_first x7) =? 9)) && (((s_last x7) =? 11)) && (((s_left x7) =? 0)) && (((s_right x7) =? 0)));
       ((((s_first x8) =? 12)) && (((s_last x8) =? 13)) && (((s_left x8) =? 0)) && (((s_right x8) =? 0)))]) = true.
Proof. vm_compute. reflexivity. Qed.

(** test_partitioning.py:111 TestDaysSplitByWeeklyAtPoints.test_days_splitby_weekly_atpoints_1 *)
Example test_days_splitby_weekly_atpoints_1 : passes (
  let heap0 : heap Z := [] in
  do f1 <- mk_frame (mkFstr None AlD) (ts 2017 1 2 0 0 0) (ts 2017 1 15 0 0 0);
  do ss2 <- partition_with_marker f1 (mkSpan 0 ((fr_len f1) - 1) 0 0) (mkMarker (mkFstr None (AlW None)) [from_start_of_each (DKw 0 0 0 2 0 0 0); from_start_of_each (DKw 0 0 0 5 0 0 0)]);
  do x3 <- py_get_res ss2 0;
  do x4 <- py_get_res ss2 1;
  do x5 <- py_get_res ss2 2;
  do x6 <- py_get_res ss2 3;
  do x7 <- py_get_res ss2 4;
  Ok [(((zlen ss2) =? 5));
       ((((s_first x3) =? 0)) && (((s_last x3) =? 1)) && (((s_left x3) =? 2)) && (((s_right x3) =? 0)));
       ((((s_first x4) =? 2)) && (((s_last x4) =? 4)) && (((s_left x4) =? 0)) && (((s_right x4) =? 0)));
       ((((s_first x5) =? 5)) && (((s_last x5) =? 8)) && (((s_left x5) =? 0)) && (((s_right x5) =? 0)));
       ((((s_first x6) =? 9)) && (((s_last x6) =? 11)) && (((s_left x6) =? 0)) && (((s_right x6) =? 0)));
       ((((s_first x7) =? 12)) && (((s_last x7) =? 13)) && (((s_left x7) =? 0)) && (((s_right x7) =? 2)))]) = true.
Proof. vm_compute. reflexivity. Qed.

(** test_partitioning.py:128 TestDaysSplitByWeeklyAtPoints.test_days_splitby_weekly_atpoints_2 *)
Example test_days_splitby_weekly_atpoints_2 : passes (
  let heap0 : heap Z := [] in
  do f1 <- mk_frame (mkFstr None AlD) (ts 2016 12 31 0 0 0) (ts 2017 1 17 0 0 0);
  do ss2 <- partition_with_marker f1 (mkSpan 0 ((fr_len f1) - 1) 0 0) (mkMarker (mkFstr None (AlW None)) [from_start_of_each (DKw 0 0 0 2 0 0 0); from_start_of_each (DKw 0 0 0 5 0 0 0)]);
  do x3 <- py_get_res ss2 0;
  do x4 <- py_get_res ss2 1;
  do x5 <- py_get_res ss2 2;
  do x6 <- py_get_res ss2 3;
  do x7 <- py_get_res ss2 4;
  Ok [(((zlen ss2) =? 5));
       ((((s_first x3) =? 0)) && (((s_last x3) =? 3)) && (((s_left x3) =? 0)) && (((s_right x3) =? 0)));
       ((((s_first x4) =? 4)) && (((s_last x4) =? 6)) && (((s_left x4) =? 0)) && (((s_right x4) =? 0)));
       ((((s_first x5) =? 7)) && (((s_last x5) =? 10)) && (((s_left x5) =? 0)) && (((s_right x5) =? 0)));
       ((((s_first x6) =? 11)) && (((s_last x6) =? 13)) && (((s_left x6) =? 0)) && (((s_right x6) =? 0)));
       ((((s_first x7) =? 14)) && (((s_last x7) =? 17)) && (((s_left x7) =? 0)) && (((s_right x7) =? 0)))]) = true.
Proof. vm_compute. reflexivity. Qed.

(** test_partitioning.py:142 TestDaysSplitByWeeklyAtPoints.test_days_splitby_weekly_atpoints_3 *)
Example test_days_splitby_weekly_atpoints_3 : passes (
  let heap0 : heap Z := [] in
  do f1 <- mk_frame (mkFstr None AlD) (ts 2017 1 1 0 0 0) (ts 2017 1 16 0 0 0);
  do ss2 <- partition_with_marker f1 (mkSpan 0 ((fr_len f1) - 1) 0 0) (mkMarker (mkFstr None (AlW None)) [from_start_of_each (DKw 0 0 0 2 0 0 0); from_start_of_each (DKw 0 0 0 5 0 0 0)]);
  do x3 <- py_get_res ss2 0;
  do x4 <- py_get_res ss2 1;
  do x5 <- py_get_res ss2 2;
  do x6 <- py_get_res ss2 3;
  do x7 <- py_get_res ss2 4;
  Ok [(((zlen ss2) =? 5));
       ((((s_first x3) =? 0)) && (((s_last x3) =? 2)) && (((s_left x3) =? 1)) && (((s_right x3) =? 0)));
       ((((s_first x4) =? 3)) && (((s_last x4) =? 5)) && (((s_left x4) =? 0)) && (((s_right x4) =? 0)));
       ((((s_first x5) =? 6)) && (((s_last x5) =? 9)) && (((s_left x5) =? 0)) && (((s_right x5) =? 0)));
       ((((s_first x6) =? 10)) && (((s_last x6) =? 12)) && (((s_left x6) =? 0)) && (((s_right x6) =? 0)));
       ((((s_first x7) =? 13)) && (((s_last x7) =? 15)) && (((s_left x7) =? 0)) && (((s_right x7) =? 1)))]) = true.
Proof. vm_compute. reflexivity. Qed.

(** test_partitioning.py:158 TestDaysSplitByWeeklyAtPoints.test_days_splitby_weekly_atpoints_partframe *)
Example test_days_splitby_weekly_atpoints_partframe : passes (
  let heap0 : heap Z := [] in
  do f1 <- mk_frame (mkFstr None AlD) (ts 2016 12 23 0 0 0) (ts 2017 1 25 0 0 0);
  do ss2 <- partition_with_marker f1 (mkSpan 10 23 0 0) (mkMarker (mkFstr None (AlW None)) [from_start_of_each (DKw 0 0 0 2 0 0 0); from_start_of_each (DKw 0 0 0 5 0 0 0)]);
  do x3 <- py_get_res ss2 0;
  do x4 <- py_get_res ss2 1;
  do x5 <- py_get_res ss2 2;
  do x6 <- py_get_res ss2 3;
  do x7 <- py_get_res ss2 4;
  Ok [(((zlen ss2) =? 5));
       ((((s_first x3) =? 10)) && (((s_last x3) =? 11)) && (((s_left x3) =? 2)) && (((s_right x3) =? 0)));
       ((((s_first x4) =? 12)) && (((s_last x4) =? 14)) && (((s_left x4) =? 0)) && (((s_right x4) =? 0)));
       ((((s_first x5) =? 15)) && (((s_last x5) =? 18)) && (((s_left x5) =? 0)) && (((s_right x5) =? 0)));
       ((((s_first x6) =? 19)) && (((s_last x6) =? 21)) && (((s_left x6) =? 0)) && (((s_right x6) =? 0)));
       ((((s_first x7) =? 22)) && (((s_last x7) =? 23)) && (((s_left x7) =? 0)) && (((s_right x7) =? 2)))]) = true.
Proof. vm_compute. reflexivity. Qed.

(** test_partitioning.py:174 TestDaysSplitByAtPointsCornerCases.test_days_splitby_weekly_atpoints_excessive1 *)
Example test_days_splitby_weekly_atpoints_excessive1 : passes (
  let heap0 : heap Z := [] in
  do f1 <- mk_frame (mkFstr None AlD) (ts 2017 1 2 0 0 0) (ts 2017 1 15 0 0 0);
  do ss2 <- partition_with_marker f1 (mkSpan 0 ((fr_len f1) - 1) 0 0) (mkMarker (mkFstr None (AlW None)) [from_start_of_each (DKw 0 0 0 2 10 0 0); from_start_of_each (DKw 0 0 0 5 15 0 0)]);
  do x3 <- py_get_res ss2 0;
  do x4 <- py_get_res ss2 1;
  do x5 <- py_get_res ss2 2;
  do x6 <- py_get_res ss2 3;
  do x7 <- py_get_res ss2 4;
  Ok [(((zlen ss2) =? 5));
       ((((s_first x3) =? 0)) && (((s_last x3) =? 1)) && (((s_left x3) =? 2)) && (((s_right x3) =? 0)));
       ((((s_first x4) =? 2)) && (((s_last x4) =? 4)) && (((s_left x4) =? 0)) && (((s_right x4) =? 0)));
       ((((s_first x5) =? 5)) && (((s_last x5) =? 8)) && (((s_left x5) =? 0)) && (((s_right x5) =? 0)));
       ((((s_first x6) =? 9)) && (((s_last x6) =? 11)) && (((s_left x6) =? 0)) && (((s_right x6) =? 0)));
       ((((s_first x7) =? 12)) && (((s_last x7) =? 13)) && (((s_left x7) =? 0)) && (((s_right x7) =? 2)))]) = true.
Proof. vm_compute. reflexivity. Qed.

(** test_partitioning.py:189 TestDaysSplitByAtPointsCornerCases.test_days_splitby_weekly_atpoints_excessive2 *)
Example test_days_splitby_weekly_atpoints_excessive2 : passes (
  let heap0 : heap Z := [] in
  do f1 <- mk_frame (mkFstr None AlD) (ts 2017 1 2 0 0 0) (ts 2017 1 15 0 0 0);
  do ss2 <- partition_with_marker f1 (mkSpan 0 ((fr_len f1) - 1) 0 0) (mkMarker (mkFstr None (AlW None)) [from_start_of_each (DKw 0 0 0 2 24 0 0); from_start_of_each (DKw 0 0 0 5 25 0 0)]);
  do x3 <- py_get_res ss2 0;
  do x4 <- py_get_res ss2 1;
  do x5 <- py_get_res ss2 2;
  do x6 <- py_get_res ss2 3;
  do x7 <- py_get_res ss2 4;
  Ok [(((zlen ss2) =? 5));
       ((((s_first x3) =? 0)) && (((s_last x3) =? 2)) && (((s_left x3) =? 1)) && (((s_right x3) =? 0)));
       ((((s_first x4) =? 3)) && (((s_last x4) =? 5)) && (((s_left x4) =? 0)) && (((s_right x4) =? 0)));
       ((((s_first x5) =? 6)) && (((s_last x5) =? 9)) && (((s_left x5) =? 0)) && (((s_right x5) =? 0)));
       ((((s_first x6) =? 10)) && (((s_last x6) =? 12)) && (((s_left x6) =? 0)) && (((s_right x6) =? 0)));
       ((((s_first x7) =? 13)) && (((s_last x7) =? 13)) && (((s_left x7) =? 0)) && (((s_right x7) =? 3)))]) = true.
Proof. vm_compute. reflexivity. Qed.

(** test_partitioning.py:206 TestDaysSplitByAtPointsCornerCases.test_days_splitby_weekly_atpoints_excessive3 *)
Example test_days_splitby_weekly_atpoints_excessive3 : passes (
  let heap0 : heap Z := [] in
  do f1 <- mk_frame (mkFstr None AlD) (ts 2017 1 2 0 0 0) (ts 2017 1 15 0 0 0);
  do ss2 <- partition_with_marker f1 (mkSpan 0 ((fr_len f1) - 1) 0 0) (mkMarker (mkFstr None (AlW None)) [from_start_of_each (DKw 0 0 0 7 0 0 0)]);
  do x3 <- py_get_res ss2 0;
  Ok [(((zlen ss2) =? 1));
       ((((s_first x3) =? 0)) && (((s_last x3) =? 13)) && (((s_left x3) =? (-1))) && (((s_right x3) =? (-1))))]) = true.
Proof. vm_compute. reflexivity. Qed.

(** test_partitioning.py:216 TestDaysSplitByAtPointsCornerCases.test_days_splitby_weekly_atpoints_excessive4 *)
Example test_days_splitby_weekly_atpoints_excessive4 : passes (
  let heap0 : heap Z := [] in
  do f1 <- mk_frame (mkFstr None AlD) (ts 2017 1 2 0 0 0) (ts 2017 1 15 0 0 0);
  do ss2 <- partition_with_marker f1 (mkSpan 0 ((fr_len f1) - 1) 0 0) (mkMarker (mkFstr None (AlW None)) [from_start_of_each (DKw 0 0 0 5 0 0 0); from_start_of_each (DKw 0 0 0 16 0 0 0)]);
  do x3 <- py_get_res ss2 0;
  do x4 <- py_get_res ss2 1;
  do x5 <- py_get_res ss2 2;
  Ok [(((zlen ss2) =? 3));
       ((((s_first x3) =? 0)) && (((s_last x3) =? 4)) && (((s_left x3) =? 2)) && (((s_right x3) =? 0)));
       ((((s_first x4) =? 5)) && (((s_last x4) =? 11)) && (((s_left x4) =? 0)) && (((s_right x4) =? 0)));
       ((((s_first x5) =? 12)) && (((s_last x5) =? 13)) && (((s_left x5) =? 0)) && (((s_right x5) =? 5)))]) = true.
Proof. vm_compute. reflexivity. Qed.

(** test_partitioning.py:228 TestDaysSplitByAtPointsCornerCases.test_days_splitby_weekly_atpoints_duplicates *)
Example test_days_splitby_weekly_atpoints_duplicates : passes (
  let heap0 : heap Z := [] in
  do f1 <- mk_frame (mkFstr None AlD) (ts 2017 1 2 0 0 0) (ts 2017 1 15 0 0 0);
  do ss2 <- partition_with_marker f1 (mkSpan 0 ((fr_len f1) - 1) 0 0) (mkMarker (mkFstr None (AlW None)) [from_start_of_each (DKw 0 0 0 2 0 0 0); from_start_of_each (DKw 0 0 0 2 4 0 0); from_start_of_each (DKw 0 0 0 5 0 0 0); from_start_of_each (DKw 0 0 0 4 25 0 0)]);
  do x3 <- py_get_res ss2 0;
  do x4 <- py_get_res ss2 1;
  do x5 <- py_get_res ss2 2;
  do x6 <- py_get_res ss2 3;
  do x7 <- py_get_res ss2 4;
  Ok [(((zlen ss2) =? 5));
       ((((s_first x3) =? 0)) && (((s_last x3) =? 1)) && (((s_left x3) =? 2)) && (((s_right x3) =? 0)));
       ((((s_first x4) =? 2)) && (((s_last x4) =? 4)) && (((s_left x4) =? 0)) && (((s_right x4) =? 0)));
       ((((s_first x5) =? 5)) && (((s_last x5) =? 8)) && (((s_left x5) =? 0)) && (((s_right x5) =? 0)));
       ((((s_first x6) =? 9)) && (((s_last x6) =? 11)) && (((s_left x6) =? 0)) && (((s_right x6) =? 0)));
       ((((s_first x7) =? 12)) && (((s_last x7) =? 13)) && (((s_left x7) =? 0)) && (((s_right x7) =? 2)))]) = true.
Proof. vm_compute. reflexivity. Qed.

(** test_partitioning.py:247 TestDaysSplitByAtPointsCornerCases.test_days_splitby_weekly_atpoints_onlyzero *)
Example test_days_splitby_weekly_atpoints_onlyzero : passes (
  let heap0 : heap Z := [] in
  do f1 <- mk_frame (mkFstr None AlD) (ts 2017 1 2 0 0 0) (ts 2017 1 15 0 0 0);
  do ss2 <- partition_with_marker f1 (mkSpan 0 ((fr_len f1) - 1) 0 0) (mkMarker (mkFstr None (AlW None)) [from_start_of_each (DKw 0 0 0 0 0 0 0)]);
  do x3 <- py_get_res ss2 0;
  do x4 <- py_get_res ss2 1;
  Ok [(((zlen ss2) =? 2));
       ((((s_first x3) =? 0)) && (((s_last x3) =? 6)) && (((s_left x3) =? 0)) && (((s_right x3) =? 0)));
       ((((s_first x4) =? 7)) && (((s_last x4) =? 13)) && (((s_left x4) =? 0)) && (((s_right x4) =? 0)))]) = true.
Proof. vm_compute. reflexivity. Qed.

(** test_partitioning.py:255 TestDaysSplitByAtPointsCornerCases.test_days_splitby_weekly_atpoints_negative *)
Example test_days_splitby_weekly_atpoints_negative : passes (
  let heap0 : heap Z := [] in
  do f1 <- mk_frame (mkFstr None AlD) (ts 2017 1 2 0 0 0) (ts 2017 1 15 0 0 0);
  do ss2 <- partition_with_marker f1 (mkSpan 0 ((fr_len f1) - 1) 0 0) (mkMarker (mkFstr None (AlW None)) [from_start_of_each (DKw 0 0 0 (-1) 0 0 0)]);
  do x3 <- py_get_res ss2 0;
  Ok [(((zlen ss2) =? 1));
       ((((s_first x3) =? 0)) && (((s_last x3) =? 13)) && (((s_left x3) =? (-1))) && (((s_right x3) =? (-1))))]) = true.
Proof. vm_compute. reflexivity. Qed.

(** test_partitioning.py:264 TestDaysSplitByAtPointsCornerCases.test_days_splitby_weekly_atpoints_negative_compensated *)
Example test_days_splitby_weekly_atpoints_negative_compensated : passes (
  let heap0 : heap Z := [] in
  do f1 <- mk_frame (mkFstr None AlD) (ts 2017 1 2 0 0 0) (ts 2017 1 15 0 0 0);
  do ss2 <- partition_with_marker f1 (mkSpan 0 ((fr_len f1) - 1) 0 0) (mkMarker (mkFstr None (AlW None)) [from_start_of_each (DKw 0 0 0 (-1) 72 0 0)]);
  do x3 <- py_get_res ss2 0;
  do x4 <- py_get_res ss2 1;
  do x5 <- py_get_res ss2 2;
  Ok [(((zlen ss2) =? 3));
       ((((s_first x3) =? 0)) && (((s_last x3) =? 1)) && (((s_left x3) =? 5)) && (((s_right x3) =? 0)));
       ((((s_first x4) =? 2)) && (((s_last x4) =? 8)) && (((s_left x4) =? 0)) && (((s_right x4) =? 0)));
       ((((s_first x5) =? 9)) && (((s_last x5) =? 13)) && (((s_left x5) =? 0)) && (((s_right x5) =? 2)))]) = true.
Proof. vm_compute. reflexivity. Qed.

(** test_partitioning.py:304 TestDaysSplitByMonthly.test_days_splitby_monthly_dangling *)
Example test_days_splitby_monthly_dangling : passes (
  let heap0 : heap Z := [] in
  do f1 <- mk_frame (mkFstr None AlD) (ts 2016 12 31 0 0 0) (ts 2017 2 1 0 0 0);
  do ss2 <- partition_with_marker f1 (mkSpan 0 ((fr_len f1) - 1) 0 0) (mkMarker (mkFstr None AlM) []);
  do x3 <- py_get_res ss2 0;
  do x4 <- py_get_res ss2 1;
  do x5 <- py_get_res ss2 2;
  Ok [(((zlen ss2) =? 3));
       ((((s_first x3) =? 0)) && (((s_last x3) =? 0)) && (((s_left x3) =? 30)) && (((s_right x3) =? 0)));
       ((((s_first x4) =? 1)) && (((s_last x4) =? 31)) && (((s_left x4) =? 0)) && (((s_right x4) =? 0)));
       ((((s_first x5) =? 32)) && (((s_last x5) =? 32)) && (((s_left x5) =? 0)) && (((s_right x5) =? 27)))]) = true.
Proof. vm_compute. reflexivity. Qed.

(** test_partitioning.py:312 TestDaysSplitByMonthly.test_days_splitby_monthly_atpoints *)
Example test_days_splitby_monthly_atpoints : passes (
  let heap0 : heap Z := [] in
  do f1 <- mk_frame (mkFstr None AlD) (ts 2016 12 31 0 0 0) (ts 2017 3 1 0 0 0);
  do ss2 <- partition_with_marker f1 (mkSpan 0 ((fr_len f1) - 1) 0 0) (mkMarker (mkFstr None AlM) [from_start_of_each (DKw 0 0 0 9 0 0 0); from_start_of_each (DKw 0 0 0 19 0 0 0)]);
  do x3 <- py_get_res ss2 0;
  do x4 <- py_get_res ss2 1;
  do x5 <- py_get_res ss2 2;
  do x6 <- py_get_res ss2 3;
  do x7 <- py_get_res ss2 4;
  Ok [(((zlen ss2) =? 5));
       ((((s_first x3) =? 0)) && (((s_last x3) =? 9)) && (((s_left x3) =? 11)) && (((s_right x3) =? 0)));
       ((((s_first x4) =? 10)) && (((s_last x4) =? 19)) && (((s_left x4) =? 0)) && (((s_right x4) =? 0)));
       ((((s_first x5) =? 20)) && (((s_last x5) =? 40)) && (((s_left x5) =? 0)) && (((s_right x5) =? 0)));
       ((((s_first x6) =? 41)) && (((s_last x6) =? 50)) && (((s_left x6) =? 0)) && (((s_right x6) =? 0)));
       ((((s_first x7) =? 51)) && (((s_last x7) =? 60)) && (((s_left x7) =? 0)) && (((s_right x7) =? 8)))]) = true.
Proof. vm_compute. reflexivity. Qed.

(** test_partitioning.py:324 TestDaysSplitByMonthly.test_days_splitby_monthly_at_day30 *)
Example test_days_splitby_monthly_at_day30 : passes (
  let heap0 : heap Z := [] in
  do f1 <- mk_frame (mkFstr None AlD) (ts 2016 12 31 0 0 0) (ts 2017 3 1 0 0 0);
  do ss2 <- partition_with_marker f1 (mkSpan 0 ((fr_len f1) - 1) 0 0) (mkMarker (mkFstr None AlM) [from_start_of_each (DKw 0 0 0 29 0 0 0)]);
  do x3 <- py_get_res ss2 0;
  do x4 <- py_get_res ss2 1;
  Ok [(((zlen ss2) =? 2));
       ((((s_first x3) =? 0)) && (((s_last x3) =? 29)) && (((s_left x3) =? 1)) && (((s_right x3) =? 0)));
       ((((s_first x4) =? 30)) && (((s_last x4) =? 60)) && (((s_left x4) =? 0)) && (((s_right x4) =? 28)))]) = true.
Proof. vm_compute. reflexivity. Qed.

(** test_partitioning.py:333 TestDaysSplitByMonthly.test_days_splitby_monthly_at_weekdays *)
Example test_days_splitby_monthly_at_weekdays : passes (
  let heap0 : heap Z := [] in
  do f1 <- mk_frame (mkFstr None AlD) (ts 2016 12 31 0 0 0) (ts 2017 3 1 0 0 0);
  do ss2 <- partition_with_marker f1 (mkSpan 0 ((fr_len f1) - 1) 0 0) (mkMarker (mkFstr None AlM) [nth_weekday_of_month 1 2 1 0; nth_weekday_of_month 1 (-1) 4 0]);
  do x3 <- py_get_res ss2 0;
  do x4 <- py_get_res ss2 1;
  do x5 <- py_get_res ss2 2;
  do x6 <- py_get_res ss2 3;
  do x7 <- py_get_res ss2 4;
  Ok [(((zlen ss2) =? 5));
       ((((s_first x3) =? 0)) && (((s_last x3) =? 8)) && (((s_left x3) =? 2)) && (((s_right x3) =? 0)));
       ((((s_first x4) =? 9)) && (((s_last x4) =? 25)) && (((s_left x4) =? 0)) && (((s_right x4) =? 0)));
       ((((s_first x5) =? 26)) && (((s_last x5) =? 43)) && (((s_left x5) =? 0)) && (((s_right x5) =? 0)));
       ((((s_first x6) =? 44)) && (((s_last x6) =? 53)) && (((s_left x6) =? 0)) && (((s_right x6) =? 0)));
       ((((s_first x7) =? 54)) && (((s_last x7) =? 60)) && (((s_left x7) =? 0)) && (((s_right x7) =? 11)))]) = true.
Proof. vm_compute. reflexivity. Qed.

(** test_partitioning.py:355 TestDaysSplitByAnnually.test_days_splitby_annually_dangling *)
Example test_days_splitby_annually_dangling : passes (
  let heap0 : heap Z := [] in
  do f1 <- mk_frame (mkFstr None AlD) (ts 2016 12 31 0 0 0) (ts 2017 1 1 0 0 0);
  do ss2 <- partition_with_marker f1 (mkSpan 0 ((fr_len f1) - 1) 0 0) (mkMarker (mkFstr None (AlA None)) []);
  do x3 <- py_get_res ss2 0;
  do x4 <- py_get_res ss2 1;
  Ok [(((zlen ss2) =? 2));
       ((((s_first x3) =? 0)) && (((s_last x3) =? 0)) && (((s_left x3) =? 365)) && (((s_right x3) =? 0)));
       ((((s_first x4) =? 1)) && (((s_last x4) =? 1)) && (((s_left x4) =? 0)) && (((s_right x4) =? 364)))]) = true.
Proof. vm_compute. reflexivity. Qed.

(** test_partitioning.py:362 TestDaysSplitByAnnually.test_days_splitby_annually_at_specific_date *)
Example test_days_splitby_annually_at_specific_date : passes (
  let heap0 : heap Z := [] in
  do f1 <- mk_frame (mkFstr None AlD) (ts 2015 1 1 0 0 0) (ts 2017 12 31 0 0 0);
  do ss2 <- partition_with_marker f1 (mkSpan 0 ((fr_len f1) - 1) 0 0) (mkMarker (mkFstr None (AlA None)) [from_start_of_each (DKw 0 3 0 10 0 0 0)]);
  do x3 <- py_get_res ss2 0;
  do x4 <- py_get_res ss2 1;
  do x5 <- py_get_res ss2 2;
  do x6 <- py_get_res ss2 3;
  do x7 <- py_get_res ss2 0;
  do i8 <- fr_get f1 (s_last x7);
  do x9 <- py_get_res ss2 1;
  do i10 <- fr_get f1 (s_last x9);
  do x11 <- py_get_res ss2 2;
  do i12 <- fr_get f1 (s_last x11);
  Ok [(((zlen ss2) =? 4));
       ((((s_first x3) =? 0)) && (((s_last x3) =? 99)) && (((s_left x3) =? 265)) && (((s_right x3) =? 0)));
       ((((s_first x4) =? 100)) && (((s_last x4) =? 465)) && (((s_left x4) =? 0)) && (((s_right x4) =? 0)));
       ((((s_first x5) =? 466)) && (((s_last x5) =? 830)) && (((s_left x5) =? 0)) && (((s_right x5) =? 0)));
       ((((s_first x6) =? 831)) && (((s_last x6) =? 1095)) && (((s_left x6) =? 0)) && (((s_right x6) =? 100)));
       (((unit_start f1 i8) =? (ts 2015 4 10 0 0 0)));
       (((unit_start f1 i10) =? (ts 2016 4 10 0 0 0)));
       (((unit_start f1 i12) =? (ts 2017 4 10 0 0 0)))]) = true.
Proof. vm_compute. reflexivity. Qed.

(** test_partitioning.py:380 TestDaysSplitByAnnually.test_days_splitby_annually_at_month_weekdays *)
Example test_days_splitby_annually_at_month_weekdays : passes (
  let heap0 : heap Z := [] in
  do f1 <- mk_frame (mkFstr None AlD) (ts 2015 1 1 0 0 0) (ts 2017 12 31 0 0 0);
  do ss2 <- partition_with_marker f1 (mkSpan 0 ((fr_len f1) - 1) 0 0) (mkMarker (mkFstr None (AlA None)) [nth_weekday_of_month 5 (-1) 1 0; nth_weekday_of_month 9 1 1 0]);
  do x3 <- py_get_res ss2 0;
  do x4 <- py_get_res ss2 1;
  do x5 <- py_get_res ss2 2;
  do x6 <- py_get_res ss2 3;
  do x7 <- py_get_res ss2 4;
  do x8 <- py_get_res ss2 5;
  do x9 <- py_get_res ss2 6;
  Ok [(((zlen ss2) =? 7));
       ((((s_first x3) =? 0)) && (((s_last x3) =? 143)) && (((s_left x3) =? 122)) && (((s_right x3) =? 0)));
       ((((s_first x4) =? 144)) && (((s_last x4) =? 248)) && (((s_left x4) =? 0)) && (((s_right x4) =? 0)));
       ((((s_first x5) =? 249)) && (((s_last x5) =? 514)) && (((s_left x5) =? 0)) && (((s_right x5) =? 0)));
       ((((s_first x6) =? 515)) && (((s_last x6) =? 612)) && (((s_left x6) =? 0)) && (((s_right x6) =? 0)));
       ((((s_first x7) =? 613)) && (((s_last x7) =? 878)) && (((s_left x7) =? 0)) && (((s_right x7) =? 0)));
       ((((s_first x8) =? 879)) && (((s_last x8) =? 976)) && (((s_left x8) =? 0)) && (((s_right x8) =? 0)));
       ((((s_first x9) =? 977)) && (((s_last x9) =? 1095)) && (((s_left x9) =? 0)) && (((s_right x9) =? 147)))]) = true.
Proof. vm_compute. reflexivity. Qed.

(** test_partitioning.py:400 TestDaysSplitByAnnually.test_days_splitby_annually_at_month_weekdays_shift *)
Example test_days_splitby_annually_at_month_weekdays_shift : passes (
  let heap0 : heap Z := [] in
  do f1 <- mk_frame (mkFstr None AlD) (ts 2015 1 1 0 0 0) (ts 2017 12 31 0 0 0);
  do ss2 <- partition_with_marker f1 (mkSpan 0 ((fr_len f1) - 1) 0 0) (mkMarker (mkFstr None (AlA None)) [nth_weekday_of_month 5 (-1) 1 2; nth_weekday_of_month 9 1 1 (-4)]);
  do x3 <- py_get_res ss2 0;
  do x4 <- py_get_res ss2 1;
  do x5 <- py_get_res ss2 2;
  do x6 <- py_get_res ss2 3;
  do x7 <- py_get_res ss2 4;
  do x8 <- py_get_res ss2 5;
  do x9 <- py_get_res ss2 6;
  Ok [(((zlen ss2) =? 7));
       ((((s_first x3) =? 0)) && (((s_last x3) =? 145)) && (((s_left x3) =? 126)) && (((s_right x3) =? 0)));
       ((((s_first x4) =? 146)) && (((s_last x4) =? 244)) && (((s_left x4) =? 0)) && (((s_right x4) =? 0)));
       ((((s_first x5) =? 245)) && (((s_last x5) =? 516)) && (((s_left x5) =? 0)) && (((s_right x5) =? 0)));
       ((((s_first x6) =? 517)) && (((s_last x6) =? 608)) && (((s_left x6) =? 0)) && (((s_right x6) =? 0)));
       ((((s_first x7) =? 609)) && (((s_last x7) =? 880)) && (((s_left x7) =? 0)) && (((s_right x7) =? 0)));
       ((((s_first x8) =? 881)) && (((s_last x8) =? 972)) && (((s_left x8) =? 0)) && (((s_right x8) =? 0)));
       ((((s_first x9) =? 973)) && (((s_last x9) =? 1095)) && (((s_left x9) =? 0)) && (((s_right x9) =? 149)))]) = true.
Proof. vm_compute. reflexivity. Qed.

(** test_partitioning.py:423 TestDaysSplitByAnnually.test_days_splitby_annually_at_easter_western *)
Example test_days_splitby_annually_at_easter_western : passes (
  let heap0 : heap Z := [] in
  do f1 <- mk_frame (mkFstr None AlD) (ts 2013 12 31 0 0 0) (ts 2017 1 1 0 0 0);
  do ss2 <- partition_with_marker f1 (mkSpan 0 ((fr_len f1) - 1) 0 0) (mkMarker (mkFstr None (AlA None)) [from_easter false (DKw 0 0 0 (-2) 0 0 0); from_easter false (DKw 0 0 0 0 0 0 0); from_easter false (DKw 0 0 0 1 0 0 0)]);
  do l6 <- mapM (fun x3 => (do i4 <- fr_get f1 (s_first x3); do i5 <- fr_get f1 (s_last x3); Ok (i4, i5))) ss2;
  do x7 <- py_get_res l6 1;
  do x8 <- py_get_res l6 2;
  do x9 <- py_get_res l6 3;
  do x10 <- py_get_res l6 4;
  do x11 <- py_get_res l6 5;
  do x12 <- py_get_res l6 6;
  do x13 <- py_get_res l6 7;
  do x14 <- py_get_res l6 8;
  do x15 <- py_get_res l6 9;
  Ok [(((zlen ss2) =? 10));
       (((unit_start f1 (fst x7) =? p_start (period_at (ts 2014 4 18 0 0 0) (mkFstr None AlD))) && (unit_end f1 (fst x7) =? p_end (period_at (ts 2014 4 18 0 0 0) (mkFstr None AlD)))));
       (((unit_start f1 (fst x8) =? p_start (period_at (ts 2014 4 20 0 0 0) (mkFstr None AlD))) && (unit_end f1 (fst x8) =? p_end (period_at (ts 2014 4 20 0 0 0) (mkFstr None AlD)))));
       (((unit_start f1 (fst x9) =? p_start (period_at (ts 2014 4 21 0 0 0) (mkFstr None AlD))) && (unit_end f1 (fst x9) =? p_end (period_at (ts 2014 4 21 0 0 0) (mkFstr None AlD)))));
       (((unit_start f1 (fst x10) =? p_start (period_at (ts 2015 4 3 0 0 0) (mkFstr None AlD))) && (unit_end f1 (fst x10) =? p_end (period_at (ts 2015 4 3 0 0 0) (mkFstr None AlD)))));
       (((unit_start f1 (fst x11) =? p_start (period_at (ts 2015 4 5 0 0 0) (mkFstr None AlD))) && (unit_end f1 (fst x11) =? p_end (period_at (ts 2015 4 5 0 0 0) (mkFstr None AlD)))));
       (((unit_start f1 (fst x12) =? p_start (period_at (ts 2015 4 6 0 0 0) (mkFstr None AlD))) && (unit_end f1 (fst x12) =? p_end (period_at (ts 2015 4 6 0 0 0) (mkFstr None AlD)))));
       (((unit_start f1 (fst x13) =? p_start (period_at (ts 2016 3 25 0 0 0) (mkFstr None AlD))) && (unit_end f1 (fst x13) =? p_end (period_at (ts 2016 3 25 0 0 0) (mkFstr None AlD)))));
       (((unit_start f1 (fst x14) =? p_start (period_at (ts 2016 3 27 0 0 0) (mkFstr None AlD))) && (unit_end f1 (fst x14) =? p_end (period_at (ts 2016 3 27 0 0 0) (mkFstr None AlD)))));
       (((unit_start f1 (fst x15) =? p_start (period_at (ts 2016 3 28 0 0 0) (mkFstr None AlD))) && (unit_end f1 (fst x15) =? p_end (period_at (ts 2016 3 28 0 0 0) (mkFstr None AlD)))))]) = true.
Proof. vm_compute. reflexivity. Qed.

(** test_partitioning.py:444 TestDaysSplitByAnnually.test_days_splitby_annually_at_easter_orthodox *)
Example test_days_splitby_annually_at_easter_orthodox : passes (
  let heap0 : heap Z := [] in
  do f1 <- mk_frame (mkFstr None AlD) (ts 2013 12 31 0 0 0) (ts 2017 1 1 0 0 0);
  do ss2 <- partition_with_marker f1 (mkSpan 0 ((fr_len f1) - 1) 0 0) (mkMarker (mkFstr None (AlA None)) [from_easter true (DKw 0 0 0 (-2) 0 0 0); from_easter true (DKw 0 0 0 0 0 0 0); from_easter true (DKw 0 0 0 1 0 0 0)]);
  do l6 <- mapM (fun x3 => (do i4 <- fr_get f1 (s_first x3); do i5 <- fr_get f1 (s_last x3); Ok (i4, i5))) ss2;
  do x7 <- py_get_res l6 1;
  do x8 <- py_get_res l6 2;
  do x9 <- py_get_res l6 3;
  do x10 <- py_get_res l6 4;
  do x11 <- py_get_res l6 5;
  do x12 <- py_get_res l6 6;
  do x13 <- py_get_res l6 7;
  do x14 <- py_get_res l6 8;
  do x15 <- py_get_res l6 9;
  Ok [(((zlen ss2) =? 10));
       (((unit_start f1 (fst x7) =? p_start (period_at (ts 2014 4 18 0 0 0) (mkFstr None AlD))) && (unit_end f1 (fst x7) =? p_end (period_at (ts 2014 4 18 0 0 0) (mkFstr None AlD)))));
       (((unit_start f1 (fst x8) =? p_start (period_at (ts 2014 4 20 0 0 0) (mkFstr None AlD))) && (unit_end f1 (fst x8) =? p_end (period_at (ts 2014 4 20 0 0 0) (mkFstr None AlD)))));
       (((unit_start f1 (fst x9) =? p_start (period_at (ts 2014 4 21 0 0 0) (mkFstr None AlD))) && (unit_end f1 (fst x9) =? p_end (period_at (ts 2014 4 21 0 0 0) (mkFstr None AlD)))));
       (((unit_start f1 (fst x10) =? p_start (period_at (ts 2015 4 10 0 0 0) (mkFstr None AlD))) && (unit_end f1 (fst x10) =? p_end (period_at (ts 2015 4 10 0 0 0) (mkFstr None AlD)))));
       (((unit_start f1 (fst x11) =? p_start (period_at (ts 2015 4 12 0 0 0) (mkFstr None AlD))) && (unit_end f1 (fst x11) =? p_end (period_at (ts 2015 4 12 0 0 0) (mkFstr None AlD)))));
       (((unit_start f1 (fst x12) =? p_start (period_at (ts 2015 4 13 0 0 0) (mkFstr None AlD))) && (unit_end f1 (fst x12) =? p_end (period_at (ts 2015 4 13 0 0 0) (mkFstr None AlD)))));
       (((unit_start f1 (fst x13) =? p_start (period_at (ts 2016 4 29 0 0 0) (mkFstr None AlD))) && (unit_end f1 (fst x13) =? p_end (period_at (ts 2016 4 29 0 0 0) (mkFstr None AlD)))));
       (((unit_start f1 (fst x14) =? p_start (period_at (ts 2016 5 1 0 0 0) (mkFstr None AlD))) && (unit_end f1 (fst x14) =? p_end (period_at (ts 2016 5 1 0 0 0) (mkFstr None AlD)))));
       (((unit_start f1 (fst x15) =? p_start (period_at (ts 2016 5 2 0 0 0) (mkFstr None AlD))) && (unit_end f1 (fst x15) =? p_end (period_at (ts 2016 5 2 0 0 0) (mkFstr None AlD)))))]) = true.
Proof. vm_compute. reflexivity. Qed.

(** test_partitioning.py:467 TestDaysSplitByAtWeekdaysCornerCases.test_days_splitby_monthly_at_weekdays_outside *)
Example test_days_splitby_monthly_at_weekdays_outside : passes (
  let heap0 : heap Z := [] in
  do f1 <- mk_frame (mkFstr None AlD) (ts 2016 12 31 0 0 0) (ts 2017 3 1 0 0 0);
  do ss2 <- partition_with_marker f1 (mkSpan 0 ((fr_len f1) - 1) 0 0) (mkMarker (mkFstr None AlM) [nth_weekday_of_month 2 2 1 0]);
  do x3 <- py_get_res ss2 0;
  Ok [(((zlen ss2) =? 1));
       ((((s_first x3) =? 0)) && (((s_last x3) =? 60)) && (((s_left x3) =? (-1))) && (((s_right x3) =? (-1))))]) = true.
Proof. vm_compute. reflexivity. Qed.

(** test_partitioning.py:479 TestDaysSplitByAtWeekdaysCornerCases.test_days_splitby_monthly_at_weekdays_gaps *)
Example test_days_splitby_monthly_at_weekdays_gaps : passes (
  let heap0 : heap Z := [] in
  do f1 <- mk_frame (mkFstr None AlD) (ts 2017 1 1 0 0 0) (ts 2017 3 1 0 0 0);
  do ss2 <- partition_with_marker f1 (mkSpan 0 ((fr_len f1) - 1) 0 0) (mkMarker (mkFstr None AlM) [nth_weekday_of_month 1 5 2 0]);
  do x3 <- py_get_res ss2 0;
  do x4 <- py_get_res ss2 1;
  Ok [(((zlen ss2) =? 2));
       ((((s_first x3) =? 0)) && (((s_last x3) =? 29)) && (((s_left x3) =? (-1))) && (((s_right x3) =? 0)));
       ((((s_first x4) =? 30)) && (((s_last x4) =? 59)) && (((s_left x4) =? 0)) && (((s_right x4) =? (-1))))]) = true.
Proof. vm_compute. reflexivity. Qed.

(** test_partitioning.py:493 TestDaysSplitByAtWeekdaysCornerCases.test_days_splitby_monthly_at_weekdays_gaps2 *)
Example test_days_splitby_monthly_at_weekdays_gaps2 : passes (
  let heap0 : heap Z := [] in
  do f1 <- mk_frame (mkFstr None AlD) (ts 2016 12 31 0 0 0) (ts 2017 3 1 0 0 0);
  do ss2 <- partition_with_marker f1 (mkSpan 0 ((fr_len f1) - 1) 0 0) (mkMarker (mkFstr None AlM) [nth_weekday_of_month 1 5 2 0]);
  do x3 <- py_get_res ss2 0;
  do x4 <- py_get_res ss2 1;
  Ok [(((zlen ss2) =? 2));
       ((((s_first x3) =? 0)) && (((s_last x3) =? 30)) && (((s_left x3) =? 32)) && (((s_right x3) =? 0)));
       ((((s_first x4) =? 31)) && (((s_last x4) =? 60)) && (((s_left x4) =? 0)) && (((s_right x4) =? (-1))))]) = true.
Proof. vm_compute. reflexivity. Qed.

(** test_partitioning.py:506 TestDaysSplitByAtWeekdaysCornerCases.test_days_splitby_monthly_at_weekdays_gaps3 *)
Example test_days_splitby_monthly_at_weekdays_gaps3 : passes (
  let heap0 : heap Z := [] in
  do f1 <- mk_frame (mkFstr None AlD) (ts 2016 12 31 0 0 0) (ts 2017 3 1 0 0 0);
  do ss2 <- partition_with_marker f1 (mkSpan 0 ((fr_len f1) - 1) 0 0) (mkMarker (mkFstr None (AlA None)) [nth_weekday_of_month 1 5 2 0]);
  do x3 <- py_get_res ss2 0;
  do x4 <- py_get_res ss2 1;
  Ok [(((zlen ss2) =? 2));
       ((((s_first x3) =? 0)) && (((s_last x3) =? 30)) && (((s_left x3) =? (-1))) && (((s_right x3) =? 0)));
       ((((s_first x4) =? 31)) && (((s_last x4) =? 60)) && (((s_left x4) =? 0)) && (((s_right x4) =? 334)))]) = true.
Proof. vm_compute. reflexivity. Qed.

(** test_partitioning.py:522 TestDaysSplitByAtWeekdaysCornerCases.test_days_splitby_monthly_at_weekdays_gaps3n *)
Example test_days_splitby_monthly_at_weekdays_gaps3n : passes (
  let heap0 : heap Z := [] in
  do f1 <- mk_frame (mkFstr None AlD) (ts 2016 12 31 0 0 0) (ts 2017 3 1 0 0 0);
  do ss2 <- partition_with_marker f1 (mkSpan 0 ((fr_len f1) - 1) 0 0) (mkMarker (mkFstr None (AlA None)) [nth_weekday_of_month 1 (-5) 2 0]);
  do x3 <- py_get_res ss2 0;
  do x4 <- py_get_res ss2 1;
  Ok [(((zlen ss2) =? 2));
       ((((s_first x3) =? 0)) && (((s_last x3) =? 2)) && (((s_left x3) =? (-1))) && (((s_right x3) =? 0)));
       ((((s_first x4) =? 3)) && (((s_last x4) =? 60)) && (((s_left x4) =? 0)) && (((s_right x4) =? 306)))]) = true.
Proof. vm_compute. reflexivity. Qed.

(** test_partitioning.py:540 TestDaysSplitByAtWeekdaysCornerCases.test_days_splitby_monthly_at_weekdays_gaps4 *)
Example test_days_splitby_monthly_at_weekdays_gaps4 : passes (
  let heap0 : heap Z := [] in
  do f1 <- mk_frame (mkFstr None AlD) (ts 2016 12 31 0 0 0) (ts 2017 3 1 0 0 0);
  do ss2 <- partition_with_marker f1 (mkSpan 0 ((fr_len f1) - 1) 0 0) (mkMarker (mkFstr None (AlA None)) [nth_weekday_of_month 1 5 7 0]);
  do x3 <- py_get_res ss2 0;
  do x4 <- py_get_res ss2 1;
  Ok [(((zlen ss2) =? 2));
       ((((s_first x3) =? 0)) && (((s_last x3) =? 28)) && (((s_left x3) =? 335)) && (((s_right x3) =? 0)));
       ((((s_first x4) =? 29)) && (((s_last x4) =? 60)) && (((s_left x4) =? 0)) && (((s_right x4) =? (-1))))]) = true.
Proof. vm_compute. reflexivity. Qed.

(** test_partitioning.py:556 TestDaysSplitByAtWeekdaysCornerCases.test_days_splitby_monthly_at_weekdays_gaps4n *)
Example test_days_splitby_monthly_at_weekdays_gaps4n : passes (
  let heap0 : heap Z := [] in
  do f1 <- mk_frame (mkFstr None AlD) (ts 2016 12 31 0 0 0) (ts 2017 3 1 0 0 0);
  do ss2 <- partition_with_marker f1 (mkSpan 0 ((fr_len f1) - 1) 0 0) (mkMarker (mkFstr None (AlA None)) [nth_weekday_of_month 1 (-5) 7 0]);
  do x3 <- py_get_res ss2 0;
  do x4 <- py_get_res ss2 1;
  Ok [(((zlen ss2) =? 2));
       ((((s_first x3) =? 0)) && (((s_last x3) =? 0)) && (((s_left x3) =? 363)) && (((s_right x3) =? 0)));
       ((((s_first x4) =? 1)) && (((s_last x4) =? 60)) && (((s_left x4) =? 0)) && (((s_right x4) =? (-1))))]) = true.
Proof. vm_compute. reflexivity. Qed.

(** test_partitioning.py:599 TestHoursSplitBy.test_hours_splitby_weekly_aligned *)
Example test_hours_splitby_weekly_aligned : passes (
  let heap0 : heap Z := [] in
  do f1 <- mk_frame (mkFstr None AlH) (ts 2017 1 2 0 0 0) (ts 2017 1 15 23 30 0);
  do ss2 <- partition_with_marker f1 (mkSpan 0 ((fr_len f1) - 1) 0 0) (mkMarker (mkFstr None (AlW None)) []);
  do x3 <- py_get_res ss2 0;
  do x4 <- py_get_res ss2 1;
  Ok [(((zlen ss2) =? 2));
       ((((s_first x3) =? 0)) && (((s_last x3) =? 167)) && (((s_left x3) =? 0)) && (((s_right x3) =? 0)));
       ((((s_first x4) =? 168)) && (((s_last x4) =? 335)) && (((s_left x4) =? 0)) && (((s_right x4) =? 0)))]) = true.
Proof. vm_compute. reflexivity. Qed.

(** test_partitioning.py:607 TestHoursSplitBy.test_hours_splitby_weekly_dangling *)
Example test_hours_splitby_weekly_dangling : passes (
  let heap0 : heap Z := [] in
  do f1 <- mk_frame (mkFstr None AlH) (ts 2017 1 3 1 0 0) (ts 2017 1 15 22 30 0);
  do ss2 <- partition_with_marker f1 (mkSpan 0 ((fr_len f1) - 1) 0 0) (mkMarker (mkFstr None (AlW None)) []);
  do x3 <- py_get_res ss2 0;
  do x4 <- py_get_res ss2 1;
  Ok [(((zlen ss2) =? 2));
       ((((s_first x3) =? 0)) && (((s_last x3) =? 142)) && (((s_left x3) =? 25)) && (((s_right x3) =? 0)));
       ((((s_first x4) =? 143)) && (((s_last x4) =? 309)) && (((s_left x4) =? 0)) && (((s_right x4) =? 1)))]) = true.
Proof. vm_compute. reflexivity. Qed.

(** test_partitioning.py:615 TestHoursSplitBy.test_hours_splitby_weekly_dangling_span_short *)
Example test_hours_splitby_weekly_dangling_span_short : passes (
  let heap0 : heap Z := [] in
  do f1 <- mk_frame (mkFstr None AlH) (ts 2017 1 3 1 0 0) (ts 2017 1 15 22 30 0);
  do ss2 <- partition_with_marker f1 (mkSpan 145 ((fr_len f1) - 3) 0 0) (mkMarker (mkFstr None (AlW None)) []);
  do x3 <- py_get_res ss2 0;
  Ok [(((zlen ss2) =? 1));
       ((((s_first x3) =? 145)) && (((s_last x3) =? ((fr_len f1) - 3))) && (((s_left x3) =? 2)) && (((s_right x3) =? 3)))]) = true.
Proof. vm_compute. reflexivity. Qed.

(** test_partitioning.py:623 TestHoursSplitBy.test_hours_splitby_daily_at_specific_hours *)
Example test_hours_splitby_daily_at_specific_hours : passes (
  let heap0 : heap Z := [] in
  do f1 <- mk_frame (mkFstr None AlH) (ts 2017 1 1 0 0 0) (ts 2017 1 2 23 59 0);
  do ss2 <- partition_with_marker f1 (mkSpan 0 ((fr_len f1) - 1) 0 0) (mkMarker (mkFstr None AlD) [from_start_of_each (DKw 0 0 0 0 8 0 0); from_start_of_each (DKw 0 0 0 0 18 0 0)]);
  do x3 <- py_get_res ss2 0;
  do x4 <- py_get_res ss2 1;
  do x5 <- py_get_res ss2 2;
  do x6 <- py_get_res ss2 3;
  do x7 <- py_get_res ss2 4;
  Ok [(((zlen ss2) =? 5));
       ((((s_first x3) =? 0)) && (((s_last x3) =? 7)) && (((s_left x3) =? 6)) && (((s_right x3) =? 0)));
       ((((s_first x4) =? 8)) && (((s_last x4) =? 17)) && (((s_left x4) =? 0)) && (((s_right x4) =? 0)));
       ((((s_first x5) =? 18)) && (((s_last x5) =? 31)) && (((s_left x5) =? 0)) && (((s_right x5) =? 0)));
       ((((s_first x6) =? 32)) && (((s_last x6) =? 41)) && (((s_left x6) =? 0)) && (((s_right x6) =? 0)));
       ((((s_first x7) =? 42)) && (((s_last x7) =? 47)) && (((s_left x7) =? 0)) && (((s_right x7) =? 8)))]) = true.
Proof. vm_compute. reflexivity. Qed.

(** test_partitioning.py:638 TestWeeksSplitBy.test_weeks_splitby_months *)
Example test_weeks_splitby_months : passes (
  let heap0 : heap Z := [] in
  do f1 <- mk_frame (mkFstr None (AlW None)) (ts 2017 1 1 0 0 0) (ts 2017 3 1 0 0 0);
  Ok [raises [EUnacceptablePeriod] (do ss2 <- partition_with_marker f1 (mkSpan 0 ((fr_len f1) - 1) 0 0) (mkMarker (mkFstr None AlM) []); Ok tt)]) = true.
Proof. vm_compute. reflexivity. Qed.

(** test_partitioning.py:643 TestWeeksSplitBy.test_weeks_splitby_years *)
Example test_weeks_splitby_years : passes (
  let heap0 : heap Z := [] in
  do f1 <- mk_frame (mkFstr None (AlW None)) (ts 2016 12 31 0 0 0) (ts 2017 3 1 0 0 0);
  Ok [raises [EUnacceptablePeriod] (do ss2 <- partition_with_marker f1 (mkSpan 0 ((fr_len f1) - 1) 0 0) (mkMarker (mkFstr None (AlA None)) []); Ok tt)]) = true.
Proof. vm_compute. reflexivity. Qed.

(** test_partitioning.py:651 TestMonthSplitBy.test_months_splitby_years *)
Example test_months_splitby_years : passes (
  let heap0 : heap Z := [] in
  do f1 <- mk_frame (mkFstr None AlM) (ts 2016 12 31 0 0 0) (ts 2017 3 1 0 0 0);
  do ss2 <- partition_with_marker f1 (mkSpan 0 ((fr_len f1) - 1) 0 0) (mkMarker (mkFstr None (AlA None)) []);
  do x3 <- py_get_res ss2 0;
  do x4 <- py_get_res ss2 1;
  Ok [(((zlen ss2) =? 2));
       ((((s_first x3) =? 0)) && (((s_last x3) =? 0)) && (((s_left x3) =? 11)) && (((s_right x3) =? 0)));
       ((((s_first x4) =? 1)) && (((s_last x4) =? 3)) && (((s_left x4) =? 0)) && (((s_right x4) =? 9)))]) = true.
Proof. vm_compute. reflexivity. Qed.

(** test_partitioning.py:658 TestMonthSplitBy.test_months_splitby_years_short *)
Example test_months_splitby_years_short : passes (
  let heap0 : heap Z := [] in
  do f1 <- mk_frame (mkFstr None AlM) (ts 2017 2 1 0 0 0) (ts 2017 3 1 0 0 0);
  do ss2 <- partition_with_marker f1 (mkSpan 0 ((fr_len f1) - 1) 0 0) (mkMarker (mkFstr None (AlA None)) []);
  do x3 <- py_get_res ss2 0;
  Ok [(((zlen ss2) =? 1));
       ((((s_first x3) =? 0)) && (((s_last x3) =? 1)) && (((s_left x3) =? 1)) && (((s_right x3) =? 9)))]) = true.
Proof. vm_compute. reflexivity. Qed.

(** test_partitioning.py:664 TestMonthSplitBy.test_months_splitby_years_shifted *)
Example test_months_splitby_years_shifted : passes (
  let heap0 : heap Z := [] in
  do f1 <- mk_frame (mkFstr None AlM) (ts 2016 12 31 0 0 0) (ts 2017 3 1 0 0 0);
  do ss2 <- partition_with_marker f1 (mkSpan 0 ((fr_len f1) - 1) 0 0) (mkMarker (mkFstr None (AlA (Some 1))) []);
  do x3 <- py_get_res ss2 0;
  do x4 <- py_get_res ss2 1;
  Ok [(((zlen ss2) =? 2));
       ((((s_first x3) =? 0)) && (((s_last x3) =? 1)) && (((s_left x3) =? 10)) && (((s_right x3) =? 0)));
       ((((s_first x4) =? 2)) && (((s_last x4) =? 3)) && (((s_left x4) =? 0)) && (((s_right x4) =? 10)))]) = true.
Proof. vm_compute. reflexivity. Qed.

(** test_partitioning.py:685 TestMultipliedFreqSplitBy.test_4D_splitby_weeks *)
Example test_4D_splitby_weeks : passes (
  let heap0 : heap Z := [] in
  do f1 <- mk_frame (mkFstr (Some 4%positive) AlD) (ts 2017 1 1 0 0 0) (ts 2017 1 19 0 0 0);
  Ok [raises [EUnacceptablePeriod] (do ss2 <- partition_with_marker f1 (mkSpan 0 ((fr_len f1) - 1) 0 0) (mkMarker (mkFstr None (AlW None)) []); Ok tt)]) = true.
Proof. vm_compute. reflexivity. Qed.

(** test_partitioning.py:690 TestMultipliedFreqSplitBy.test_4D_splitby_months *)
Example test_4D_splitby_months : passes (
  let heap0 : heap Z := [] in
  do f1 <- mk_frame (mkFstr (Some 4%positive) AlD) (ts 2017 1 1 0 0 0) (ts 2017 1 19 0 0 0);
  Ok [raises [EUnacceptablePeriod] (do ss2 <- partition_with_marker f1 (mkSpan 0 ((fr_len f1) - 1) 0 0) (mkMarker (mkFstr None AlM) []); Ok tt)]) = true.
Proof. vm_compute. reflexivity. Qed.

(** test_partitioning.py:695 TestMultipliedFreqSplitBy.test_4D_splitby_8D *)
Example test_4D_splitby_8D : passes (
  let heap0 : heap Z := [] in
  do f1 <- mk_frame (mkFstr (Some 4%positive) AlD) (ts 2017 1 1 0 0 0) (ts 2017 1 19 0 0 0);
  do ss2 <- partition_with_marker f1 (mkSpan 0 ((fr_len f1) - 1) 0 0) (mkMarker (mkFstr (Some 8%positive) AlD) []);
  do x3 <- py_get_res ss2 0;
  do x4 <- py_get_res ss2 1;
  do x5 <- py_get_res ss2 2;
  Ok [(((zlen ss2) =? 3));
       ((((s_first x3) =? 0)) && (((s_last x3) =? 1)) && (((s_left x3) =? 0)) && (((s_right x3) =? 0)));
       ((((s_first x4) =? 2)) && (((s_last x4) =? 3)) && (((s_left x4) =? 0)) && (((s_right x4) =? 0)));
       ((((s_first x5) =? 4)) && (((s_last x5) =? 4)) && (((s_left x5) =? 0)) && (((s_right x5) =? 1)))]) = true.
Proof. vm_compute. reflexivity. Qed.

(** test_partitioning.py:703 TestMultipliedFreqSplitBy.test_4D_splitby_8D_span_aligned *)
Example test_4D_splitby_8D_span_aligned : passes (
  let heap0 : heap Z := [] in
  do f1 <- mk_frame (mkFstr (Some 4%positive) AlD) (ts 2017 1 1 0 0 0) (ts 2017 1 19 0 0 0);
  do ss2 <- partition_with_marker f1 (mkSpan 1 4 0 0) (mkMarker (mkFstr (Some 8%positive) AlD) []);
  do x3 <- py_get_res ss2 0;
  do x4 <- py_get_res ss2 1;
  Ok [(((zlen ss2) =? 2));
       ((((s_first x3) =? 1)) && (((s_last x3) =? 2)) && (((s_left x3) =? 0)) && (((s_right x3) =? 0)));
       ((((s_first x4) =? 3)) && (((s_last x4) =? 4)) && (((s_left x4) =? 0)) && (((s_right x4) =? 0)))]) = true.
Proof. vm_compute. reflexivity. Qed.

(** test_partitioning.py:710 TestMultipliedFreqSplitBy.test_4D_splitby_8D_span_dangling *)
Example test_4D_splitby_8D_span_dangling : passes (
  let heap0 : heap Z := [] in
  do f1 <- mk_frame (mkFstr (Some 4%positive) AlD) (ts 2017 1 1 0 0 0) (ts 2017 1 19 0 0 0);
  do ss2 <- partition_with_marker f1 (mkSpan 1 3 0 0) (mkMarker (mkFstr (Some 8%positive) AlD) []);
  do x3 <- py_get_res ss2 0;
  do x4 <- py_get_res ss2 1;
  Ok [(((zlen ss2) =? 2));
       ((((s_first x3) =? 1)) && (((s_last x3) =? 2)) && (((s_left x3) =? 0)) && (((s_right x3) =? 0)));
       ((((s_first x4) =? 3)) && (((s_last x4) =? 3)) && (((s_left x4) =? 0)) && (((s_right x4) =? 1)))]) = true.
Proof. vm_compute. reflexivity. Qed.

(** test_partitioning.py:717 TestMultipliedFreqSplitBy.test_weeks_splitby_multiple_weeks *)
Example test_weeks_splitby_multiple_weeks : passes (
  let heap0 : heap Z := [] in
  do f1 <- mk_frame (mkFstr None (AlW None)) (ts 2017 1 2 0 0 0) (ts 2017 1 29 0 0 0);
  do ss2 <- partition_with_marker f1 (mkSpan 0 ((fr_len f1) - 1) 0 0) (mkMarker (mkFstr (Some 2%positive) (AlW None)) []);
  do x3 <- py_get_res ss2 0;
  do x4 <- py_get_res ss2 1;
  Ok [(((zlen ss2) =? 2));
       ((((s_first x3) =? 0)) && (((s_last x3) =? 1)) && (((s_left x3) =? 0)) && (((s_right x3) =? 0)));
       ((((s_first x4) =? 2)) && (((s_last x4) =? 3)) && (((s_left x4) =? 0)) && (((s_right x4) =? 0)))]) = true.
Proof. vm_compute. reflexivity. Qed.

(** test_partitioning.py:724 TestMultipliedFreqSplitBy.test_weeks_splitby_multiple_weeks_dangling *)
Example test_weeks_splitby_multiple_weeks_dangling : passes (
  let heap0 : heap Z := [] in
  do f1 <- mk_frame (mkFstr None (AlW None)) (ts 2017 1 2 0 0 0) (ts 2017 1 30 0 0 0);
  do ss2 <- partition_with_marker f1 (mkSpan 0 ((fr_len f1) - 1) 0 0) (mkMarker (mkFstr (Some 2%positive) (AlW None)) []);
  do x3 <- py_get_res ss2 0;
  do x4 <- py_get_res ss2 1;
  do x5 <- py_get_res ss2 2;
  Ok [(((zlen ss2) =? 3));
       ((((s_first x3) =? 0)) && (((s_last x3) =? 1)) && (((s_left x3) =? 0)) && (((s_right x3) =? 0)));
       ((((s_first x4) =? 2)) && (((s_last x4) =? 3)) && (((s_left x4) =? 0)) && (((s_right x4) =? 0)));
       ((((s_first x5) =? 4)) && (((s_last x5) =? 4)) && (((s_left x5) =? 0)) && (((s_right x5) =? 1)))]) = true.
Proof. vm_compute. reflexivity. Qed.

(** test_partitioning.py:732 TestMultipliedFreqSplitBy.test_splitby_different_multiple_freqs1 *)
Example test_splitby_different_multiple_freqs1 : passes (
  let heap0 : heap Z := [] in
  do f1 <- mk_frame (mkFstr None AlD) (ts 2016 12 31 0 0 0) (ts 2017 1 30 0 0 0);
  do ss2 <- partition_with_marker f1 (mkSpan 0 ((fr_len f1) - 1) 0 0) (mkMarker (mkFstr (Some 2%positive) (AlW None)) []);
  do x3 <- py_get_res ss2 0;
  do x4 <- py_get_res ss2 1;
  do x5 <- py_get_res ss2 2;
  Ok [(((zlen ss2) =? 3));
       ((((s_first x3) =? 0)) && (((s_last x3) =? 8)) && (((s_left x3) =? 5)) && (((s_right x3) =? 0)));
       ((((s_first x4) =? 9)) && (((s_last x4) =? 22)) && (((s_left x4) =? 0)) && (((s_right x4) =? 0)));
       ((((s_first x5) =? 23)) && (((s_last x5) =? 30)) && (((s_left x5) =? 0)) && (((s_right x5) =? 6)))]) = true.
Proof. vm_compute. reflexivity. Qed.

(** test_partitioning.py:750 TestMultipliedFreqSplitBy.test_splitby_different_multiple_freqs2b *)
Example test_splitby_different_multiple_freqs2b : passes (
  let heap0 : heap Z := [] in
  do f1 <- mk_frame (mkFstr (Some 12%positive) AlH) (ts 2017 1 2 13 5 0) (ts 2017 1 4 10 0 0);
  Ok [raises [EUnacceptablePeriod] (do ss2 <- partition_with_marker f1 (mkSpan 0 ((fr_len f1) - 1) 0 0) (mkMarker (mkFstr None AlD) []); Ok tt)]) = true.
Proof. vm_compute. reflexivity. Qed.

(** test_partitioning.py:767 TestMultipliedFreqSplitBy.test_splitby_different_multiple_freqs3b *)
Example test_splitby_different_multiple_freqs3b : passes (
  let heap0 : heap Z := [] in
  do f1 <- mk_frame (mkFstr (Some 12%positive) AlH) (ts 2017 1 2 1 0 0) (ts 2017 1 30 0 0 0);
  Ok [raises [EUnacceptablePeriod] (do ss2 <- partition_with_marker f1 (mkSpan 0 ((fr_len f1) - 1) 0 0) (mkMarker (mkFstr (Some 2%positive) (AlW None)) []); Ok tt)]) = true.
Proof. vm_compute. reflexivity. Qed.

(** test_partitioning.py:775 TestMultipliedFreqSplitBy.test_splitby_different_multiple_freqs4 *)
Example test_splitby_different_multiple_freqs4 : passes (
  let heap0 : heap Z := [] in
  do f1 <- mk_frame (mkFstr (Some 9%positive) AlH) (ts 2017 1 2 0 0 0) (ts 2017 1 30 0 0 0);
  Ok [raises [EUnacceptablePeriod] (do ss2 <- partition_with_marker f1 (mkSpan 0 ((fr_len f1) - 1) 0 0) (mkMarker (mkFstr None AlD) []); Ok tt);
       raises [EUnacceptablePeriod] (do ss3 <- partition_with_marker f1 (mkSpan 0 ((fr_len f1) - 1) 0 0) (mkMarker (mkFstr (Some 2%positive) (AlW None)) []); Ok tt)]) = true.
Proof. vm_compute. reflexivity. Qed.

(** test_partitioning.py:783 TestMultipliedFreqSplitBy.test_splitby_different_multiple_freqs5 *)
Example test_splitby_different_multiple_freqs5 : passes (
  let heap0 : heap Z := [] in
  do f1 <- mk_frame (mkFstr (Some 48%positive) AlH) (ts 2017 1 2 0 0 0) (ts 2017 1 30 0 0 0);
  Ok [raises [EUnacceptablePeriod] (do ss2 <- partition_with_marker f1 (mkSpan 0 ((fr_len f1) - 1) 0 0) (mkMarker (mkFstr None AlD) []); Ok tt)]) = true.
Proof. vm_compute. reflexivity. Qed.

(** test_partitioning.py:795 TestMultipliedFreqSplitBy.test_splitby_different_multiple_freqs6b *)
Example test_splitby_different_multiple_freqs6b : passes (
  let heap0 : heap Z := [] in
  do f1 <- mk_frame (mkFstr (Some 48%positive) AlH) (ts 2017 1 2 1 0 0) (ts 2017 1 30 0 0 0);
  Ok [raises [EUnacceptablePeriod] (do ss2 <- partition_with_marker f1 (mkSpan 0 ((fr_len f1) - 1) 0 0) (mkMarker (mkFstr (Some 4%positive) AlD) []); Ok tt)]) = true.
Proof. vm_compute. reflexivity. Qed.

(** test_partitioning.py:809 TestMultipliedFreqSplitBy.test_splitby_different_multiple_freqs7b *)
Example test_splitby_different_multiple_freqs7b : passes (
  let heap0 : heap Z := [] in
  do f1 <- mk_frame (mkFstr (Some 7%positive) AlH) (ts 2017 1 3 0 0 0) (ts 2017 1 30 0 0 0);
  Ok [raises [EUnacceptablePeriod] (do ss2 <- partition_with_marker f1 (mkSpan 0 ((fr_len f1) - 1) 0 0) (mkMarker (mkFstr None (AlW None)) []); Ok tt)]) = true.
Proof. vm_compute. reflexivity. Qed.

(** test_partitioning.py:821 TestSplitByWeird.test_splitby_same_freq *)
Example test_splitby_same_freq : passes (
  let heap0 : heap Z := [] in
  do f1 <- mk_frame (mkFstr None AlD) (ts 2017 1 1 0 0 0) (ts 2017 1 3 0 0 0);
  do ss2 <- partition_with_marker f1 (mkSpan 0 ((fr_len f1) - 1) 0 0) (mkMarker (mkFstr None AlD) []);
  do x3 <- py_get_res ss2 0;
  do x4 <- py_get_res ss2 1;
  do x5 <- py_get_res ss2 2;
  Ok [(((zlen ss2) =? 3));
       ((((s_first x3) =? 0)) && (((s_last x3) =? 0)) && (((s_left x3) =? 0)) && (((s_right x3) =? 0)));
       ((((s_first x4) =? 1)) && (((s_last x4) =? 1)) && (((s_left x4) =? 0)) && (((s_right x4) =? 0)));
       ((((s_first x5) =? 2)) && (((s_last x5) =? 2)) && (((s_left x5) =? 0)) && (((s_right x5) =? 0)))]) = true.
Proof. vm_compute. reflexivity. Qed.

(** test_partitioning.py:829 TestSplitByWeird.test_splitby_higher_freq_aligned *)
Example test_splitby_higher_freq_aligned : passes (
  let heap0 : heap Z := [] in
  do f1 <- mk_frame (mkFstr None AlD) (ts 2017 1 1 0 0 0) (ts 2017 1 3 0 0 0);
  Ok [raises [EUnacceptablePeriod] (do ss2 <- partition_with_marker f1 (mkSpan 0 ((fr_len f1) - 1) 0 0) (mkMarker (mkFstr None AlH) []); Ok tt)]) = true.
Proof. vm_compute. reflexivity. Qed.

(** test_partitioning.py:834 TestSplitByWeird.test_splitby_higher_freq_not_aligned *)
Example test_splitby_higher_freq_not_aligned : passes (
  let heap0 : heap Z := [] in
  do f1 <- mk_frame (mkFstr None AlM) (ts 2017 1 1 0 0 0) (ts 2017 2 1 0 0 0);
  Ok [raises [EUnacceptablePeriod] (do ss2 <- partition_with_marker f1 (mkSpan 0 ((fr_len f1) - 1) 0 0) (mkMarker (mkFstr None (AlW None)) []); Ok tt)]) = true.
Proof. vm_compute. reflexivity. Qed.
