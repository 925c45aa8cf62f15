(** ConfFrames: /repo/timeboard/tests/test_frames.py as examples about the model.
    Written by tools/tests2coq.py. *)
From Verif Require Api.
From Verif Require Import Base Civil Freq Frame Timeline Board When ConfBase.
From Coq Require Import QArith String.
Open Scope Z_scope.

(** test_frames.py:13 TestFrameConstructor.test_frame_constructor_days *)
Example test_frame_constructor_days : passes (
  let heap0 : heap Z := [] in
  do f1 <- mk_frame (mkFstr None AlD) (ts 2017 1 1 0 0 0) (ts 2017 3 1 0 0 0);
  do i2 <- fr_get f1 0;
  do i3 <- fr_get f1 59;
  Ok [(((fr_len f1) =? 60));
       (((unit_start f1 i2 =? p_start (period_at (ts 2017 1 1 0 0 0) (mkFstr None AlD))) && (unit_end f1 i2 =? p_end (period_at (ts 2017 1 1 0 0 0) (mkFstr None AlD)))));
       (((unit_start f1 i3 =? p_start (period_at (ts 2017 3 1 0 0 0) (mkFstr None AlD))) && (unit_end f1 i3 =? p_end (period_at (ts 2017 3 1 0 0 0) (mkFstr None AlD)))));
       (((fr_start_time f1) =? (ts 2017 1 1 0 0 0)));
       (((fr_end_time f1) >=? (ts 2017 3 1 23 59 59 + 999999999)));
       (((fr_end_time f1) <=? (ts 2017 3 2 0 0 0)));
       (increasing (fr_start_times f1))]) = true.
Proof. vm_compute. reflexivity. Qed.

(** test_frames.py:23 TestFrameConstructor.test_frame_constructor_end_same_as_start *)
Example test_frame_constructor_end_same_as_start : passes (
  let heap0 : heap Z := [] in
  do f1 <- mk_frame (mkFstr None AlD) (ts 2017 1 1 0 0 0) (ts 2017 1 1 0 0 0);
  do i2 <- fr_get f1 0;
  Ok [(((fr_len f1) =? 1));
       (((unit_start f1 i2 =? p_start (period_at (ts 2017 1 1 0 0 0) (mkFstr None AlD))) && (unit_end f1 i2 =? p_end (period_at (ts 2017 1 1 0 0 0) (mkFstr None AlD)))));
       (((fr_start_time f1) =? (ts 2017 1 1 0 0 0)));
       (((fr_end_time f1) >=? (ts 2017 1 1 23 59 59 + 999999999)));
       (((fr_end_time f1) <=? (ts 2017 1 2 0 0 0)));
       (increasing (fr_start_times f1))]) = true.
Proof. vm_compute. reflexivity. Qed.

(** test_frames.py:32 TestFrameConstructor.test_frame_constructor_same_base_unit *)
Example test_frame_constructor_same_base_unit : passes (
  let heap0 : heap Z := [] in
  do f1 <- mk_frame (mkFstr None AlD) (ts 2017 1 1 8 0 0) (ts 2017 1 1 9 0 0);
  do i2 <- fr_get f1 0;
  Ok [(((fr_len f1) =? 1));
       (((unit_start f1 i2 =? p_start (period_at (ts 2017 1 1 0 0 0) (mkFstr None AlD))) && (unit_end f1 i2 =? p_end (period_at (ts 2017 1 1 0 0 0) (mkFstr None AlD)))));
       (((fr_start_time f1) =? (ts 2017 1 1 0 0 0)));
       (((fr_end_time f1) >=? (ts 2017 1 1 23 59 59 + 999999999)));
       (((fr_end_time f1) <=? (ts 2017 1 2 0 0 0)));
       (increasing (fr_start_times f1))]) = true.
Proof. vm_compute. reflexivity. Qed.

(** test_frames.py:41 TestFrameConstructor.test_frame_constructor_multiple_days *)
Example test_frame_constructor_multiple_days : passes (
  let heap0 : heap Z := [] in
  do f1 <- mk_frame (mkFstr (Some 4%positive) AlD) (ts 2017 1 1 0 0 0) (ts 2017 1 8 0 0 0);
  do i2 <- fr_get f1 0;
  do i3 <- fr_get f1 1;
  Ok [(((fr_len f1) =? 2));
       (((unit_start f1 i2 =? p_start (period_at (ts 2017 1 1 0 0 0) (mkFstr (Some 4%positive) AlD))) && (unit_end f1 i2 =? p_end (period_at (ts 2017 1 1 0 0 0) (mkFstr (Some 4%positive) AlD)))));
       (((unit_start f1 i3 =? p_start (period_at (ts 2017 1 5 0 0 0) (mkFstr (Some 4%positive) AlD))) && (unit_end f1 i3 =? p_end (period_at (ts 2017 1 5 0 0 0) (mkFstr (Some 4%positive) AlD)))));
       (((fr_start_time f1) =? (ts 2017 1 1 0 0 0)));
       (((fr_end_time f1) >=? (ts 2017 1 8 23 59 59 + 999999999)));
       (((fr_end_time f1) <=? (ts 2017 1 9 0 0 0)));
       (increasing (fr_start_times f1))]) = true.
Proof. vm_compute. reflexivity. Qed.

(** test_frames.py:51 TestFrameConstructor.test_frame_constructor_multiple_days_partial *)
Example test_frame_constructor_multiple_days_partial : passes (
  let heap0 : heap Z := [] in
  do f1 <- mk_frame (mkFstr (Some 4%positive) AlD) (ts 2017 1 1 0 0 0) (ts 2017 1 10 0 0 0);
  do i2 <- fr_get f1 0;
  do i3 <- fr_get f1 2;
  Ok [(((fr_len f1) =? 3));
       (((unit_start f1 i2 =? p_start (period_at (ts 2017 1 1 0 0 0) (mkFstr (Some 4%positive) AlD))) && (unit_end f1 i2 =? p_end (period_at (ts 2017 1 1 0 0 0) (mkFstr (Some 4%positive) AlD)))));
       (((unit_start f1 i3 =? p_start (period_at (ts 2017 1 9 0 0 0) (mkFstr (Some 4%positive) AlD))) && (unit_end f1 i3 =? p_end (period_at (ts 2017 1 9 0 0 0) (mkFstr (Some 4%positive) AlD)))));
       (((fr_start_time f1) =? (ts 2017 1 1 0 0 0)));
       (((fr_end_time f1) >=? (ts 2017 1 12 23 59 59 + 999999999)));
       (((fr_end_time f1) <=? (ts 2017 1 13 0 0 0)));
       (increasing (fr_start_times f1))]) = true.
Proof. vm_compute. reflexivity. Qed.

(** test_frames.py:61 TestFrameConstructor.test_frame_constructor_weeks *)
Example test_frame_constructor_weeks : passes (
  let heap0 : heap Z := [] in
  do f1 <- mk_frame (mkFstr None (AlW None)) (ts 2017 1 1 0 0 0) (ts 2017 3 1 0 0 0);
  do i2 <- fr_get f1 0;
  do i3 <- fr_get f1 9;
  Ok [(((fr_len f1) =? 10));
       (((unit_start f1 i2 =? p_start (period_at (ts 2016 12 26 0 0 0) (mkFstr None (AlW (Some 6))))) && (unit_end f1 i2 =? p_end (period_at (ts 2016 12 26 0 0 0) (mkFstr None (AlW (Some 6)))))));
       (((unit_start f1 i3 =? p_start (period_at (ts 2017 2 27 0 0 0) (mkFstr None (AlW (Some 6))))) && (unit_end f1 i3 =? p_end (period_at (ts 2017 2 27 0 0 0) (mkFstr None (AlW (Some 6)))))));
       (((fr_start_time f1) =? (ts 2016 12 26 0 0 0)));
       (((fr_end_time f1) >=? (ts 2017 3 5 23 59 59 + 999999999)));
       (((fr_end_time f1) <=? (ts 2017 3 6 0 0 0)));
       (increasing (fr_start_times f1))]) = true.
Proof. vm_compute. reflexivity. Qed.

(** test_frames.py:71 TestFrameConstructor.test_frame_constructor_weeks_shifted *)
Example test_frame_constructor_weeks_shifted : passes (
  let heap0 : heap Z := [] in
  do f1 <- mk_frame (mkFstr None (AlW (Some 2))) (ts 2017 1 1 0 0 0) (ts 2017 3 1 0 0 0);
  do i2 <- fr_get f1 0;
  do i3 <- fr_get f1 8;
  Ok [(((fr_len f1) =? 9));
       (((unit_start f1 i2 =? p_start (period_at (ts 2016 12 29 0 0 0) (mkFstr None (AlW (Some 2))))) && (unit_end f1 i2 =? p_end (period_at (ts 2016 12 29 0 0 0) (mkFstr None (AlW (Some 2)))))));
       (((unit_start f1 i3 =? p_start (period_at (ts 2017 2 23 0 0 0) (mkFstr None (AlW (Some 2))))) && (unit_end f1 i3 =? p_end (period_at (ts 2017 2 23 0 0 0) (mkFstr None (AlW (Some 2)))))));
       (((fr_start_time f1) =? (ts 2016 12 29 0 0 0)));
       (((fr_end_time f1) >=? (ts 2017 3 1 23 59 59 + 999999999)));
       (((fr_end_time f1) <=? (ts 2017 3 2 0 0 0)));
       (increasing (fr_start_times f1))]) = true.
Proof. vm_compute. reflexivity. Qed.

(** test_frames.py:81 TestFrameConstructor.test_frame_constructor_months *)
Example test_frame_constructor_months : passes (
  let heap0 : heap Z := [] in
  do f1 <- mk_frame (mkFstr None AlM) (ts 2017 1 1 0 0 0) (ts 2017 3 1 0 0 0);
  do i2 <- fr_get f1 0;
  do i3 <- fr_get f1 2;
  Ok [(((fr_len f1) =? 3));
       (((unit_start f1 i2 =? p_start (period_at (ts 2017 1 1 0 0 0) (mkFstr None AlM))) && (unit_end f1 i2 =? p_end (period_at (ts 2017 1 1 0 0 0) (mkFstr None AlM)))));
       (((unit_start f1 i3 =? p_start (period_at (ts 2017 3 1 0 0 0) (mkFstr None AlM))) && (unit_end f1 i3 =? p_end (period_at (ts 2017 3 1 0 0 0) (mkFstr None AlM)))));
       (((fr_start_time f1) =? (ts 2017 1 1 0 0 0)));
       (((fr_end_time f1) >=? (ts 2017 3 31 23 59 59 + 999999999)));
       (((fr_end_time f1) <=? (ts 2017 4 1 0 0 0)));
       (increasing (fr_start_times f1))]) = true.
Proof. vm_compute. reflexivity. Qed.

(** test_frames.py:91 TestFrameConstructor.test_frame_constructor_with_timestamps *)
Example test_frame_constructor_with_timestamps : passes (
  let heap0 : heap Z := [] in
  do f1 <- mk_frame (mkFstr None AlM) (ts 2017 1 1 8 0 1) (ts 2017 3 1 12 15 3);
  do i2 <- fr_get f1 0;
  do i3 <- fr_get f1 2;
  Ok [(((fr_len f1) =? 3));
       (((unit_start f1 i2 =? p_start (period_at (ts 2017 1 1 0 0 0) (mkFstr None AlM))) && (unit_end f1 i2 =? p_end (period_at (ts 2017 1 1 0 0 0) (mkFstr None AlM)))));
       (((unit_start f1 i3 =? p_start (period_at (ts 2017 3 1 0 0 0) (mkFstr None AlM))) && (unit_end f1 i3 =? p_end (period_at (ts 2017 3 1 0 0 0) (mkFstr None AlM)))));
       (((fr_start_time f1) =? (ts 2017 1 1 0 0 0)));
       (((fr_end_time f1) >=? (ts 2017 3 31 23 59 59 + 999999999)));
       (((fr_end_time f1) <=? (ts 2017 4 1 0 0 0)));
       (increasing (fr_start_times f1))]) = true.
Proof. vm_compute. reflexivity. Qed.

(** test_frames.py:103 TestFrameConstructor.test_frame_constructor_with_datetime_redundant *)
Example test_frame_constructor_with_datetime_redundant : passes (
  let heap0 : heap Z := [] in
  do f1 <- mk_frame (mkFstr None AlM) (ts 2017 1 1 8 0 1) (ts 2017 3 1 12 15 3);
  do i2 <- fr_get f1 0;
  do i3 <- fr_get f1 2;
  Ok [(((fr_len f1) =? 3));
       (((unit_start f1 i2 =? p_start (period_at (ts 2017 1 1 0 0 0) (mkFstr None AlM))) && (unit_end f1 i2 =? p_end (period_at (ts 2017 1 1 0 0 0) (mkFstr None AlM)))));
       (((unit_start f1 i3 =? p_start (period_at (ts 2017 3 1 0 0 0) (mkFstr None AlM))) && (unit_end f1 i3 =? p_end (period_at (ts 2017 3 1 0 0 0) (mkFstr None AlM)))));
       (((fr_start_time f1) =? (ts 2017 1 1 0 0 0)));
       (((fr_end_time f1) >=? (ts 2017 3 31 23 59 59 + 999999999)));
       (((fr_end_time f1) <=? (ts 2017 4 1 0 0 0)));
       (increasing (fr_start_times f1))]) = true.
Proof. vm_compute. reflexivity. Qed.

(** test_frames.py:117 TestFrameConstructor.test_frame_constructor_with_datetime_deficient *)
Example test_frame_constructor_with_datetime_deficient : passes (
  let heap0 : heap Z := [] in
  do f1 <- mk_frame (mkFstr None AlH) (ts 2017 1 1 0 0 0) (ts 2017 1 2 0 0 0);
  do i2 <- fr_get f1 0;
  do i3 <- fr_get f1 24;
  Ok [(((fr_len f1) =? 25));
       (((unit_start f1 i2 =? p_start (period_at (ts 2017 1 1 0 0 0) (mkFstr None AlH))) && (unit_end f1 i2 =? p_end (period_at (ts 2017 1 1 0 0 0) (mkFstr None AlH)))));
       (((unit_start f1 i3 =? p_start (period_at (ts 2017 1 2 0 0 0) (mkFstr None AlH))) && (unit_end f1 i3 =? p_end (period_at (ts 2017 1 2 0 0 0) (mkFstr None AlH)))));
       (((fr_start_time f1) =? (ts 2017 1 1 0 0 0)));
       (((fr_end_time f1) >=? (ts 2017 1 2 0 59 59 + 999999999)));
       (((fr_end_time f1) <=? (ts 2017 1 2 1 0 0)));
       (increasing (fr_start_times f1))]) = true.
Proof. vm_compute. reflexivity. Qed.

(** test_frames.py:129 TestFrameConstructor.test_frame_constructor_days_from_periods *)
Example test_frame_constructor_days_from_periods : passes (
  let heap0 : heap Z := [] in
  do f1 <- mk_frame (mkFstr None AlD) (p_end (period_at (ts 2017 1 1 0 0 0) (mkFstr None AlD))) (p_end (period_at (ts 2017 3 1 0 0 0) (mkFstr None AlD)));
  do i2 <- fr_get f1 0;
  do i3 <- fr_get f1 59;
  Ok [(((fr_len f1) =? 60));
       (((unit_start f1 i2 =? p_start (period_at (ts 2017 1 1 0 0 0) (mkFstr None AlD))) && (unit_end f1 i2 =? p_end (period_at (ts 2017 1 1 0 0 0) (mkFstr None AlD)))));
       (((unit_start f1 i3 =? p_start (period_at (ts 2017 3 1 0 0 0) (mkFstr None AlD))) && (unit_end f1 i3 =? p_end (period_at (ts 2017 3 1 0 0 0) (mkFstr None AlD)))));
       (((fr_start_time f1) =? (ts 2017 1 1 0 0 0)));
       (((fr_end_time f1) >=? (ts 2017 3 1 23 59 59 + 999999999)));
       (((fr_end_time f1) <=? (ts 2017 3 2 0 0 0)));
       (increasing (fr_start_times f1))]) = true.
Proof. vm_compute. reflexivity. Qed.

(** test_frames.py:141 TestFrameConstructor.test_frame_constructor_days_from_subperiods *)
Example test_frame_constructor_days_from_subperiods : passes (
  let heap0 : heap Z := [] in
  do f1 <- mk_frame (mkFstr None AlD) (p_end (period_at (ts 2017 1 1 12 0 0) (mkFstr None AlH))) (p_end (period_at (ts 2017 3 1 15 0 0) (mkFstr None AlH)));
  do i2 <- fr_get f1 0;
  do i3 <- fr_get f1 59;
  Ok [(((fr_len f1) =? 60));
       (((unit_start f1 i2 =? p_start (period_at (ts 2017 1 1 0 0 0) (mkFstr None AlD))) && (unit_end f1 i2 =? p_end (period_at (ts 2017 1 1 0 0 0) (mkFstr None AlD)))));
       (((unit_start f1 i3 =? p_start (period_at (ts 2017 3 1 0 0 0) (mkFstr None AlD))) && (unit_end f1 i3 =? p_end (period_at (ts 2017 3 1 0 0 0) (mkFstr None AlD)))));
       (((fr_start_time f1) =? (ts 2017 1 1 0 0 0)));
       (((fr_end_time f1) >=? (ts 2017 3 1 23 59 59 + 999999999)));
       (((fr_end_time f1) <=? (ts 2017 3 2 0 0 0)));
       (increasing (fr_start_times f1))]) = true.
Proof. vm_compute. reflexivity. Qed.

(** test_frames.py:153 TestFrameConstructor.test_frame_constructor_days_from_superperiods *)
Example test_frame_constructor_days_from_superperiods : passes (
  let heap0 : heap Z := [] in
  do f1 <- mk_frame (mkFstr None AlD) (p_end (period_at (ts 2017 1 1 0 0 0) (mkFstr None AlM))) (p_end (period_at (ts 2017 3 1 0 0 0) (mkFstr None AlM)));
  do i2 <- fr_get f1 0;
  do i3 <- fr_get f1 59;
  Ok [(((fr_len f1) =? 60));
       (((unit_start f1 i2 =? p_start (period_at (ts 2017 1 31 0 0 0) (mkFstr None AlD))) && (unit_end f1 i2 =? p_end (period_at (ts 2017 1 31 0 0 0) (mkFstr None AlD)))));
       (((unit_start f1 i3 =? p_start (period_at (ts 2017 3 31 0 0 0) (mkFstr None AlD))) && (unit_end f1 i3 =? p_end (period_at (ts 2017 3 31 0 0 0) (mkFstr None AlD)))));
       (((fr_start_time f1) =? (ts 2017 1 31 0 0 0)));
       (((fr_end_time f1) >=? (ts 2017 3 31 23 59 59 + 999999999)));
       (((fr_end_time f1) <=? (ts 2017 4 1 0 0 0)));
       (increasing (fr_start_times f1))]) = true.
Proof. vm_compute. reflexivity. Qed.

(** test_frames.py:168 TestFrameConstructor.test_frame_constructor_days_from_nonsubperiods *)
Example test_frame_constructor_days_from_nonsubperiods : passes (
  let heap0 : heap Z := [] in
  do f1 <- mk_frame (mkFstr None AlM) (p_end (period_at (ts 2016 12 31 0 0 0) (mkFstr None (AlW None)))) (p_end (period_at (ts 2017 3 1 0 0 0) (mkFstr None (AlW None))));
  do i2 <- fr_get f1 0;
  do i3 <- fr_get f1 2;
  Ok [(((fr_len f1) =? 3));
       (((unit_start f1 i2 =? p_start (period_at (ts 2017 1 1 0 0 0) (mkFstr None AlM))) && (unit_end f1 i2 =? p_end (period_at (ts 2017 1 1 0 0 0) (mkFstr None AlM)))));
       (((unit_start f1 i3 =? p_start (period_at (ts 2017 3 1 0 0 0) (mkFstr None AlM))) && (unit_end f1 i3 =? p_end (period_at (ts 2017 3 1 0 0 0) (mkFstr None AlM)))));
       (((fr_start_time f1) =? (ts 2017 1 1 0 0 0)));
       (((fr_end_time f1) >=? (ts 2017 3 31 23 59 59 + 999999999)));
       (((fr_end_time f1) <=? (ts 2017 4 1 0 0 0)));
       (increasing (fr_start_times f1))]) = true.
Proof. vm_compute. reflexivity. Qed.

(** test_frames.py:184 TestFrameConstructor.test_frame_constructor_end_before_start *)
Example test_frame_constructor_end_before_start : passes (
  let heap0 : heap Z := [] in

  Ok [raises [EVoidInterval] (do f1 <- mk_frame (mkFstr None AlD) (ts 2017 3 1 0 0 0) (ts 2017 1 1 0 0 0); Ok tt)]) = true.
Proof. vm_compute. reflexivity. Qed.

(** test_frames.py:218 TestFrameLocSubframesWhole.test_frame_locsubf_basic *)
Example test_frame_locsubf_basic : passes (
  let heap0 : heap Z := [] in
  do f1 <- mk_frame (mkFstr None AlD) (ts 2017 1 1 0 0 0) (ts 2017 3 1 0 0 0);
  do ps2 <- locate_subspans f1 (mkSpan 0 ((fr_len f1) - 1) 0 0) [(ts 2017 1 10 0 0 0); (ts 2017 2 10 12 12 12); (ts 2017 2 20 11 5 0)];
  do x3 <- py_get_res ps2 0;
  do x4 <- py_get_res ps2 1;
  do x5 <- py_get_res ps2 2;
  do x6 <- py_get_res ps2 3;
  Ok [(((zlen ps2) =? 4));
       ((pair_eqb x3 (0, 8)));
       ((pair_eqb x4 (9, 39)));
       ((pair_eqb x5 (40, 49)));
       ((pair_eqb x6 (50, 59)))]) = true.
Proof. vm_compute. reflexivity. Qed.

(** test_frames.py:228 TestFrameLocSubframesWhole.test_frame_locsubf_multiplied_freq *)
Example test_frame_locsubf_multiplied_freq : passes (
  let heap0 : heap Z := [] in
  do f1 <- mk_frame (mkFstr (Some 2%positive) AlD) (ts 2016 12 31 0 0 0) (ts 2017 1 9 0 0 0);
  do ps2 <- locate_subspans f1 (mkSpan 0 ((fr_len f1) - 1) 0 0) [(ts 2017 1 2 0 0 0); (ts 2017 1 2 12 12 12); (ts 2017 1 7 0 0 0); (ts 2017 1 7 11 5 0)];
  do x3 <- py_get_res ps2 0;
  do x4 <- py_get_res ps2 1;
  do x5 <- py_get_res ps2 2;
  Ok [(((zlen ps2) =? 3));
       ((pair_eqb x3 (0, 0)));
       ((pair_eqb x4 (1, 2)));
       ((pair_eqb x5 (3, 4)))]) = true.
Proof. vm_compute. reflexivity. Qed.

(** test_frames.py:240 TestFrameLocSubframesWhole.test_frame_locsubf_basic_from_dti *)
Example test_frame_locsubf_basic_from_dti : passes (
  let heap0 : heap Z := [] in
  do f1 <- mk_frame (mkFstr None AlD) (ts 2017 1 1 0 0 0) (ts 2017 3 1 0 0 0);
  do ps2 <- locate_subspans f1 (mkSpan 0 ((fr_len f1) - 1) 0 0) [(ts 2017 1 10 0 0 0); (ts 2017 2 10 12 12 12); (ts 2017 2 20 11 5 0)];
  do x3 <- py_get_res ps2 0;
  do x4 <- py_get_res ps2 1;
  do x5 <- py_get_res ps2 2;
  do x6 <- py_get_res ps2 3;
  Ok [(((zlen ps2) =? 4));
       ((pair_eqb x3 (0, 8)));
       ((pair_eqb x4 (9, 39)));
       ((pair_eqb x5 (40, 49)));
       ((pair_eqb x6 (50, 59)))]) = true.
Proof. vm_compute. reflexivity. Qed.

(** test_frames.py:251 TestFrameLocSubframesWhole.test_frame_locsubf_unordered *)
Example test_frame_locsubf_unordered : passes (
  let heap0 : heap Z := [] in
  do f1 <- mk_frame (mkFstr None AlD) (ts 2017 1 1 0 0 0) (ts 2017 3 1 0 0 0);
  do ps2 <- locate_subspans f1 (mkSpan 0 ((fr_len f1) - 1) 0 0) [(ts 2017 2 20 11 5 0); (ts 2017 2 10 12 12 12); (ts 2017 1 10 0 0 0)];
  do x3 <- py_get_res ps2 0;
  do x4 <- py_get_res ps2 1;
  do x5 <- py_get_res ps2 2;
  do x6 <- py_get_res ps2 3;
  Ok [(((zlen ps2) =? 4));
       ((pair_eqb x3 (0, 8)));
       ((pair_eqb x4 (9, 39)));
       ((pair_eqb x5 (40, 49)));
       ((pair_eqb x6 (50, 59)))]) = true.
Proof. vm_compute. reflexivity. Qed.

(** test_frames.py:261 TestFrameLocSubframesWhole.test_frame_locsubf_multiple_points_per_bu *)
Example test_frame_locsubf_multiple_points_per_bu : passes (
  let heap0 : heap Z := [] in
  do f1 <- mk_frame (mkFstr None AlD) (ts 2017 1 1 0 0 0) (ts 2017 3 1 0 0 0);
  do ps2 <- locate_subspans f1 (mkSpan 0 ((fr_len f1) - 1) 0 0) [(ts 2017 1 10 0 0 0); (ts 2017 2 10 12 12 12); (ts 2017 2 10 20 20 20); (ts 2017 2 20 11 5 0)];
  do x3 <- py_get_res ps2 0;
  do x4 <- py_get_res ps2 1;
  do x5 <- py_get_res ps2 2;
  do x6 <- py_get_res ps2 3;
  Ok [(((zlen ps2) =? 4));
       ((pair_eqb x3 (0, 8)));
       ((pair_eqb x4 (9, 39)));
       ((pair_eqb x5 (40, 49)));
       ((pair_eqb x6 (50, 59)))]) = true.
Proof. vm_compute. reflexivity. Qed.

(** test_frames.py:272 TestFrameLocSubframesWhole.test_frame_locsubf_with_points_outside *)
Example test_frame_locsubf_with_points_outside : passes (
  let heap0 : heap Z := [] in
  do f1 <- mk_frame (mkFstr None AlD) (ts 2017 1 1 0 0 0) (ts 2017 3 1 0 0 0);
  do ps2 <- locate_subspans f1 (mkSpan 0 ((fr_len f1) - 1) 0 0) [(ts 2016 12 30 0 0 0); (ts 2017 1 10 0 0 0); (ts 2017 2 10 12 12 12); (ts 2017 2 20 11 5 0); (ts 2018 2 20 0 0 0)];
  do x3 <- py_get_res ps2 0;
  do x4 <- py_get_res ps2 1;
  do x5 <- py_get_res ps2 2;
  do x6 <- py_get_res ps2 3;
  Ok [(((zlen ps2) =? 4));
       ((pair_eqb x3 (0, 8)));
       ((pair_eqb x4 (9, 39)));
       ((pair_eqb x5 (40, 49)));
       ((pair_eqb x6 (50, 59)))]) = true.
Proof. vm_compute. reflexivity. Qed.

(** test_frames.py:284 TestFrameLocSubframesWhole.test_frame_locsubf_with_point_outside_only *)
Example test_frame_locsubf_with_point_outside_only : passes (
  let heap0 : heap Z := [] in
  do f1 <- mk_frame (mkFstr None AlD) (ts 2017 1 1 0 0 0) (ts 2017 3 1 0 0 0);
  do ps2 <- locate_subspans f1 (mkSpan 0 ((fr_len f1) - 1) 0 0) [(ts 2016 12 30 0 0 0); (ts 2018 2 20 0 0 0)];
  do x3 <- py_get_res ps2 0;
  Ok [(((zlen ps2) =? 1));
       ((pair_eqb x3 (0, 59)))]) = true.
Proof. vm_compute. reflexivity. Qed.

(** test_frames.py:292 TestFrameLocSubframesWhole.test_frame_locsubf_with_first_bu *)
Example test_frame_locsubf_with_first_bu : passes (
  let heap0 : heap Z := [] in
  do f1 <- mk_frame (mkFstr None AlD) (ts 2017 1 1 0 0 0) (ts 2017 3 1 0 0 0);
  do ps2 <- locate_subspans f1 (mkSpan 0 ((fr_len f1) - 1) 0 0) [(ts 2017 1 1 0 0 0); (ts 2017 1 10 0 0 0); (ts 2017 2 10 12 12 12); (ts 2017 2 20 11 5 0)];
  do x3 <- py_get_res ps2 0;
  do x4 <- py_get_res ps2 1;
  do x5 <- py_get_res ps2 2;
  do x6 <- py_get_res ps2 3;
  Ok [(((zlen ps2) =? 4));
       ((pair_eqb x3 (0, 8)));
       ((pair_eqb x4 (9, 39)));
       ((pair_eqb x5 (40, 49)));
       ((pair_eqb x6 (50, 59)))]) = true.
Proof. vm_compute. reflexivity. Qed.

(** test_frames.py:303 TestFrameLocSubframesWhole.test_frame_locsubf_at_first_bu_only *)
Example test_frame_locsubf_at_first_bu_only : passes (
  let heap0 : heap Z := [] in
  do f1 <- mk_frame (mkFstr None AlD) (ts 2017 1 1 0 0 0) (ts 2017 3 1 0 0 0);
  do ps2 <- locate_subspans f1 (mkSpan 0 ((fr_len f1) - 1) 0 0) [(ts 2017 1 1 0 0 0)];
  do x3 <- py_get_res ps2 0;
  Ok [(((zlen ps2) =? 1));
       ((pair_eqb x3 (0, 59)))]) = true.
Proof. vm_compute. reflexivity. Qed.

(** test_frames.py:310 TestFrameLocSubframesWhole.test_frame_locsubf_at_last_bu *)
Example test_frame_locsubf_at_last_bu : passes (
  let heap0 : heap Z := [] in
  do f1 <- mk_frame (mkFstr None AlD) (ts 2017 1 1 0 0 0) (ts 2017 3 1 0 0 0);
  do ps2 <- locate_subspans f1 (mkSpan 0 ((fr_len f1) - 1) 0 0) [(ts 2017 3 1 0 0 0)];
  do x3 <- py_get_res ps2 0;
  do x4 <- py_get_res ps2 1;
  Ok [(((zlen ps2) =? 2));
       ((pair_eqb x3 (0, 58)));
       ((pair_eqb x4 (59, 59)))]) = true.
Proof. vm_compute. reflexivity. Qed.

(** test_frames.py:318 TestFrameLocSubframesWhole.test_frame_split_empty *)
Example test_frame_split_empty : passes (
  let heap0 : heap Z := [] in
  do f1 <- mk_frame (mkFstr None AlD) (ts 2017 1 1 0 0 0) (ts 2017 3 1 0 0 0);
  do ps2 <- locate_subspans f1 (mkSpan 0 ((fr_len f1) - 1) 0 0) [];
  do x3 <- py_get_res ps2 0;
  Ok [(((zlen ps2) =? 1));
       ((pair_eqb x3 (0, 59)))]) = true.
Proof. vm_compute. reflexivity. Qed.

(** test_frames.py:328 TestFrameLocSubframesSpan.test_frame_locsubf_int_basic *)
Example test_frame_locsubf_int_basic : passes (
  let heap0 : heap Z := [] in
  do f1 <- mk_frame (mkFstr None AlD) (ts 2017 1 1 0 0 0) (ts 2017 3 1 0 0 0);
  do ps2 <- locate_subspans f1 (mkSpan 5 55 0 0) [(ts 2017 1 10 0 0 0); (ts 2017 2 10 12 12 12); (ts 2017 2 20 11 5 0)];
  do x3 <- py_get_res ps2 0;
  do x4 <- py_get_res ps2 1;
  do x5 <- py_get_res ps2 2;
  do x6 <- py_get_res ps2 3;
  Ok [(((zlen ps2) =? 4));
       ((pair_eqb x3 (5, 8)));
       ((pair_eqb x4 (9, 39)));
       ((pair_eqb x5 (40, 49)));
       ((pair_eqb x6 (50, 55)))]) = true.
Proof. vm_compute. reflexivity. Qed.

(** test_frames.py:338 TestFrameLocSubframesSpan.test_frame_locsubf_with_points_outside *)
Example test_frame_locsubf_with_points_outside_2 : passes (
  let heap0 : heap Z := [] in
  do f1 <- mk_frame (mkFstr None AlD) (ts 2017 1 1 0 0 0) (ts 2017 3 1 0 0 0);
  do ps2 <- locate_subspans f1 (mkSpan 5 55 0 0) [(ts 2016 12 30 0 0 0); (ts 2017 1 10 0 0 0); (ts 2017 2 10 12 12 12); (ts 2017 2 20 11 5 0); (ts 2018 2 20 0 0 0)];
  do x3 <- py_get_res ps2 0;
  do x4 <- py_get_res ps2 1;
  do x5 <- py_get_res ps2 2;
  do x6 <- py_get_res ps2 3;
  Ok [(((zlen ps2) =? 4));
       ((pair_eqb x3 (5, 8)));
       ((pair_eqb x4 (9, 39)));
       ((pair_eqb x5 (40, 49)));
       ((pair_eqb x6 (50, 55)))]) = true.
Proof. vm_compute. reflexivity. Qed.

(** test_frames.py:350 TestFrameLocSubframesSpan.test_frame_locsubf_with_point_outside_only *)
Example test_frame_locsubf_with_point_outside_only_2 : passes (
  let heap0 : heap Z := [] in
  do f1 <- mk_frame (mkFstr None AlD) (ts 2017 1 1 0 0 0) (ts 2017 3 1 0 0 0);
  do ps2 <- locate_subspans f1 (mkSpan 5 55 0 0) [(ts 2016 12 30 0 0 0); (ts 2018 2 20 0 0 0)];
  do x3 <- py_get_res ps2 0;
  Ok [(((zlen ps2) =? 1));
       ((pair_eqb x3 (5, 55)))]) = true.
Proof. vm_compute. reflexivity. Qed.

(** test_frames.py:358 TestFrameLocSubframesSpan.test_frame_locsubf_with_first_bu *)
Example test_frame_locsubf_with_first_bu_2 : passes (
  let heap0 : heap Z := [] in
  do f1 <- mk_frame (mkFstr None AlD) (ts 2017 1 1 0 0 0) (ts 2017 3 1 0 0 0);
  do ps2 <- locate_subspans f1 (mkSpan 5 55 0 0) [(ts 2017 1 6 0 0 0); (ts 2017 1 10 0 0 0); (ts 2017 2 10 12 12 12); (ts 2017 2 20 11 5 0)];
  do x3 <- py_get_res ps2 0;
  do x4 <- py_get_res ps2 1;
  do x5 <- py_get_res ps2 2;
  do x6 <- py_get_res ps2 3;
  Ok [(((zlen ps2) =? 4));
       ((pair_eqb x3 (5, 8)));
       ((pair_eqb x4 (9, 39)));
       ((pair_eqb x5 (40, 49)));
       ((pair_eqb x6 (50, 55)))]) = true.
Proof. vm_compute. reflexivity. Qed.

(** test_frames.py:369 TestFrameLocSubframesSpan.test_frame_locsubf_at_first_bu_only *)
Example test_frame_locsubf_at_first_bu_only_2 : passes (
  let heap0 : heap Z := [] in
  do f1 <- mk_frame (mkFstr None AlD) (ts 2017 1 1 0 0 0) (ts 2017 3 1 0 0 0);
  do ps2 <- locate_subspans f1 (mkSpan 5 55 0 0) [(ts 2017 1 6 0 0 0)];
  do x3 <- py_get_res ps2 0;
  Ok [(((zlen ps2) =? 1));
       ((pair_eqb x3 (5, 55)))]) = true.
Proof. vm_compute. reflexivity. Qed.

(** test_frames.py:376 TestFrameLocSubframesSpan.test_frame_locsubf_span_single *)
Example test_frame_locsubf_span_single : passes (
  let heap0 : heap Z := [] in
  do f1 <- mk_frame (mkFstr None AlD) (ts 2017 1 1 0 0 0) (ts 2017 3 1 0 0 0);
  do ps2 <- locate_subspans f1 (mkSpan 5 5 0 0) [(ts 2017 1 6 0 0 0)];
  do x3 <- py_get_res ps2 0;
  Ok [(((zlen ps2) =? 1));
       ((pair_eqb x3 (5, 5)))]) = true.
Proof. vm_compute. reflexivity. Qed.

(** test_frames.py:383 TestFrameLocSubframesSpan.test_frame_locsubf_span_single_points_outside *)
Example test_frame_locsubf_span_single_points_outside : passes (
  let heap0 : heap Z := [] in
  do f1 <- mk_frame (mkFstr None AlD) (ts 2017 1 1 0 0 0) (ts 2017 3 1 0 0 0);
  do ps2 <- locate_subspans f1 (mkSpan 5 5 0 0) [(ts 2017 1 7 0 0 0)];
  do x3 <- py_get_res ps2 0;
  Ok [(((zlen ps2) =? 1));
       ((pair_eqb x3 (5, 5)))]) = true.
Proof. vm_compute. reflexivity. Qed.

(** test_frames.py:390 TestFrameLocSubframesSpan.test_frame_locsubf_span_single_no_points *)
Example test_frame_locsubf_span_single_no_points : passes (
  let heap0 : heap Z := [] in
  do f1 <- mk_frame (mkFstr None AlD) (ts 2017 1 1 0 0 0) (ts 2017 3 1 0 0 0);
  do ps2 <- locate_subspans f1 (mkSpan 5 5 0 0) [];
  do x3 <- py_get_res ps2 0;
  Ok [(((zlen ps2) =? 1));
       ((pair_eqb x3 (5, 5)))]) = true.
Proof. vm_compute. reflexivity. Qed.

(** test_frames.py:397 TestFrameLocSubframesSpan.test_frame_locsubf_span_single_at_zero *)
Example test_frame_locsubf_span_single_at_zero : passes (
  let heap0 : heap Z := [] in
  do f1 <- mk_frame (mkFstr None AlD) (ts 2017 1 1 0 0 0) (ts 2017 3 1 0 0 0);
  do ps2 <- locate_subspans f1 (mkSpan 0 0 0 0) [];
  do x3 <- py_get_res ps2 0;
  Ok [(((zlen ps2) =? 1));
       ((pair_eqb x3 (0, 0)))]) = true.
Proof. vm_compute. reflexivity. Qed.

(** test_frames.py:404 TestFrameLocSubframesSpan.test_frame_locsubf_span_negative1 *)
Example test_frame_locsubf_span_negative1 : passes (
  let heap0 : heap Z := [] in
  do f1 <- mk_frame (mkFstr None AlD) (ts 2017 1 1 0 0 0) (ts 2017 3 1 0 0 0);
  Ok [raises [EOutOfBounds] (do ps2 <- locate_subspans f1 (mkSpan (-55) 55 0 0) [(ts 2017 2 10 12 12 12)]; Ok tt)]) = true.
Proof. vm_compute. reflexivity. Qed.

(** test_frames.py:410 TestFrameLocSubframesSpan.test_frame_locsubf_span_negative2 *)
Example test_frame_locsubf_span_negative2 : passes (
  let heap0 : heap Z := [] in
  do f1 <- mk_frame (mkFstr None AlD) (ts 2017 1 1 0 0 0) (ts 2017 3 1 0 0 0);
  Ok [raises [EOutOfBounds] (do ps2 <- locate_subspans f1 (mkSpan 5 (-5) 0 0) [(ts 2017 2 10 12 12 12)]; Ok tt)]) = true.
Proof. vm_compute. reflexivity. Qed.

(** test_frames.py:416 TestFrameLocSubframesSpan.test_frame_locsubf_span_outside *)
Example test_frame_locsubf_span_outside : passes (
  let heap0 : heap Z := [] in
  do f1 <- mk_frame (mkFstr None AlD) (ts 2017 1 1 0 0 0) (ts 2017 3 1 0 0 0);
  Ok [raises [EOutOfBounds] (do ps2 <- locate_subspans f1 (mkSpan 5 70 0 0) [(ts 2017 2 10 12 12 12)]; Ok tt)]) = true.
Proof. vm_compute. reflexivity. Qed.

(** test_frames.py:422 TestFrameLocSubframesSpan.test_frame_locsubf_span_reverse_ *)
Example test_frame_locsubf_span_reverse_ : passes (
  let heap0 : heap Z := [] in
  do f1 <- mk_frame (mkFstr None AlD) (ts 2017 1 1 0 0 0) (ts 2017 3 1 0 0 0);
  Ok [raises [EVoidInterval] (do ps2 <- locate_subspans f1 (mkSpan 55 5 0 0) [(ts 2017 2 10 12 12 12)]; Ok tt)]) = true.
Proof. vm_compute. reflexivity. Qed.
