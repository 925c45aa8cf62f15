(** ConfPatterns: /repo/timeboard/tests/test_patterns.py as examples about the model.
    Written by tools/tests2coq.py. *)
From Verif Require Api.
From Verif Require Import Base Civil Freq Frame Timeline Board When ConfBase.
From Coq Require Import QArith String.
Open Scope Z_scope.

(** test_patterns.py:10 TestSkiperator.test_skiperator_basic *)
Example test_skiperator_basic : passes (
  let heap0 : heap Z := [] in
  do x1 <- py_get_res (fst (skip_take [1; 2; 3] [1; 2; 3] 0 1)) 0;
  do x2 <- py_get_res (fst (skip_take [1; 2; 3] [1; 2; 3] 0 2)) 1;
  do x3 <- py_get_res (fst (skip_take [1; 2; 3] [1; 2; 3] 0 3)) 2;
  do x4 <- py_get_res (fst (skip_take [1; 2; 3] [1; 2; 3] 0 4)) 3;
  do x5 <- py_get_res (fst (skip_take [1; 2; 3] [1; 2; 3] 0 5)) 4;
  do x6 <- py_get_res (fst (skip_take [1; 2; 3] [1; 2; 3] 0 6)) 5;
  do x7 <- py_get_res (fst (skip_take [1; 2; 3] [1; 2; 3] 0 7)) 6;
  do x8 <- py_get_res (fst (skip_take [1; 2; 3] [1; 2; 3] 0 8)) 7;
  do x9 <- py_get_res (fst (skip_take [1; 2; 3] [1; 2; 3] 0 9)) 8;
  do x10 <- py_get_res (fst (skip_take [1; 2; 3] [1; 2; 3] 0 10)) 9;
  Ok [(((x1 =? 1) && (x2 =? 2) && (x3 =? 3) && (x4 =? 1) && (x5 =? 2) && (x6 =? 3) && (x7 =? 1) && (x8 =? 2) && (x9 =? 3) && (x10 =? 1)))]) = true.
Proof. vm_compute. reflexivity. Qed.

(** test_patterns.py:17 TestSkiperator.test_skiperator_skip *)
Example test_skiperator_skip : passes (
  let heap0 : heap Z := [] in
  do x1 <- py_get_res (fst (skip_take [1; 2; 3] [1; 2; 3] 2 1)) 0;
  do x2 <- py_get_res (fst (skip_take [1; 2; 3] [1; 2; 3] 2 2)) 1;
  do x3 <- py_get_res (fst (skip_take [1; 2; 3] [1; 2; 3] 2 3)) 2;
  do x4 <- py_get_res (fst (skip_take [1; 2; 3] [1; 2; 3] 2 4)) 3;
  do x5 <- py_get_res (fst (skip_take [1; 2; 3] [1; 2; 3] 2 5)) 4;
  do x6 <- py_get_res (fst (skip_take [1; 2; 3] [1; 2; 3] 2 6)) 5;
  do x7 <- py_get_res (fst (skip_take [1; 2; 3] [1; 2; 3] 2 7)) 6;
  do x8 <- py_get_res (fst (skip_take [1; 2; 3] [1; 2; 3] 2 8)) 7;
  do x9 <- py_get_res (fst (skip_take [1; 2; 3] [1; 2; 3] 2 9)) 8;
  do x10 <- py_get_res (fst (skip_take [1; 2; 3] [1; 2; 3] 2 10)) 9;
  Ok [(((x1 =? 3) && (x2 =? 1) && (x3 =? 2) && (x4 =? 3) && (x5 =? 1) && (x6 =? 2) && (x7 =? 3) && (x8 =? 1) && (x9 =? 2) && (x10 =? 3)))]) = true.
Proof. vm_compute. reflexivity. Qed.

(** test_patterns.py:24 TestSkiperator.test_skiperator_skip_more *)
Example test_skiperator_skip_more : passes (
  let heap0 : heap Z := [] in
  do x1 <- py_get_res (fst (skip_take [1; 2; 3] [1; 2; 3] 4 1)) 0;
  do x2 <- py_get_res (fst (skip_take [1; 2; 3] [1; 2; 3] 4 2)) 1;
  do x3 <- py_get_res (fst (skip_take [1; 2; 3] [1; 2; 3] 4 3)) 2;
  do x4 <- py_get_res (fst (skip_take [1; 2; 3] [1; 2; 3] 4 4)) 3;
  do x5 <- py_get_res (fst (skip_take [1; 2; 3] [1; 2; 3] 4 5)) 4;
  do x6 <- py_get_res (fst (skip_take [1; 2; 3] [1; 2; 3] 4 6)) 5;
  do x7 <- py_get_res (fst (skip_take [1; 2; 3] [1; 2; 3] 4 7)) 6;
  do x8 <- py_get_res (fst (skip_take [1; 2; 3] [1; 2; 3] 4 8)) 7;
  do x9 <- py_get_res (fst (skip_take [1; 2; 3] [1; 2; 3] 4 9)) 8;
  do x10 <- py_get_res (fst (skip_take [1; 2; 3] [1; 2; 3] 4 10)) 9;
  Ok [(((x1 =? 2) && (x2 =? 3) && (x3 =? 1) && (x4 =? 2) && (x5 =? 3) && (x6 =? 1) && (x7 =? 2) && (x8 =? 3) && (x9 =? 1) && (x10 =? 2)))]) = true.
Proof. vm_compute. reflexivity. Qed.

(** test_patterns.py:31 TestSkiperator.test_skiperator_one_value *)
Example test_skiperator_one_value : passes (
  let heap0 : heap Z := [] in
  do x1 <- py_get_res (fst (skip_take [1] [1] 0 1)) 0;
  do x2 <- py_get_res (fst (skip_take [1] [1] 0 2)) 1;
  do x3 <- py_get_res (fst (skip_take [1] [1] 0 3)) 2;
  do x4 <- py_get_res (fst (skip_take [1] [1] 0 4)) 3;
  do x5 <- py_get_res (fst (skip_take [1] [1] 0 5)) 4;
  do x6 <- py_get_res (fst (skip_take [1] [1] 0 6)) 5;
  do x7 <- py_get_res (fst (skip_take [1] [1] 0 7)) 6;
  do x8 <- py_get_res (fst (skip_take [1] [1] 0 8)) 7;
  do x9 <- py_get_res (fst (skip_take [1] [1] 0 9)) 8;
  do x10 <- py_get_res (fst (skip_take [1] [1] 0 10)) 9;
  Ok [(((x1 =? 1) && (x2 =? 1) && (x3 =? 1) && (x4 =? 1) && (x5 =? 1) && (x6 =? 1) && (x7 =? 1) && (x8 =? 1) && (x9 =? 1) && (x10 =? 1)))]) = true.
Proof. vm_compute. reflexivity. Qed.

(** test_patterns.py:38 TestSkiperator.test_skiperator_short *)
Example test_skiperator_short : passes (
  let heap0 : heap Z := [] in
  do x1 <- py_get_res (fst (skip_take [1; 2; 3] [1; 2; 3] 0 1)) 0;
  do x2 <- py_get_res (fst (skip_take [1; 2; 3] [1; 2; 3] 0 2)) 1;
  Ok [(((x1 =? 1) && (x2 =? 2)))]) = true.
Proof. vm_compute. reflexivity. Qed.

(** test_patterns.py:45 TestSkiperator.test_skiperator_short_skip *)
Example test_skiperator_short_skip : passes (
  let heap0 : heap Z := [] in
  do x1 <- py_get_res (fst (skip_take [1; 2; 3] [1; 2; 3] 2 1)) 0;
  do x2 <- py_get_res (fst (skip_take [1; 2; 3] [1; 2; 3] 2 2)) 1;
  Ok [(((x1 =? 3) && (x2 =? 1)))]) = true.
Proof. vm_compute. reflexivity. Qed.

(** test_patterns.py:52 TestSkiperator.test_skiperator_skip_negative *)
Example test_skiperator_skip_negative : passes (
  let heap0 : heap Z := [] in
  do x1 <- py_get_res (fst (skip_take [1; 2; 3] [1; 2; 3] 0 1)) 0;
  do x2 <- py_get_res (fst (skip_take [1; 2; 3] [1; 2; 3] 0 2)) 1;
  do x3 <- py_get_res (fst (skip_take [1; 2; 3] [1; 2; 3] 0 3)) 2;
  do x4 <- py_get_res (fst (skip_take [1; 2; 3] [1; 2; 3] 0 4)) 3;
  do x5 <- py_get_res (fst (skip_take [1; 2; 3] [1; 2; 3] 0 5)) 4;
  do x6 <- py_get_res (fst (skip_take [1; 2; 3] [1; 2; 3] 0 6)) 5;
  do x7 <- py_get_res (fst (skip_take [1; 2; 3] [1; 2; 3] 0 7)) 6;
  do x8 <- py_get_res (fst (skip_take [1; 2; 3] [1; 2; 3] 0 8)) 7;
  do x9 <- py_get_res (fst (skip_take [1; 2; 3] [1; 2; 3] 0 9)) 8;
  do x10 <- py_get_res (fst (skip_take [1; 2; 3] [1; 2; 3] 0 10)) 9;
  Ok [(((x1 =? 1) && (x2 =? 2) && (x3 =? 3) && (x4 =? 1) && (x5 =? 2) && (x6 =? 3) && (x7 =? 1) && (x8 =? 2) && (x9 =? 3) && (x10 =? 1)))]) = true.
Proof. vm_compute. reflexivity. Qed.

(** test_patterns.py:73 TestTimelineConstructor.test_time_line_constructor *)
Example test_time_line_constructor : passes (
  let heap0 : heap Z := [] in
  do f1 <- mk_frame (mkFstr None AlD) (ts 2017 1 1 0 0 0) (ts 2017 1 10 0 0 0);
  Ok [(((zlen (st_labels (mkSt (repeat (-999999) (Z.to_nat (fr_len f1))) (repeat true (Z.to_nat (fr_len f1))) heap0))) =? 10));
       (((fr_start_time f1) =? (fr_start_time f1)));
       (((fr_end_time f1) =? (fr_end_time f1)));
       (forallb (Z.eqb (-999999)) (st_labels (mkSt (repeat (-999999) (Z.to_nat (fr_len f1))) (repeat true (Z.to_nat (fr_len f1))) heap0)))]) = true.
Proof. vm_compute. reflexivity. Qed.

(** test_patterns.py:93 TestApplyPattern.test_apply_pattern_basic *)
Example test_apply_pattern_basic : passes (
  let heap0 : heap Z := [] in
  do f1 <- mk_frame (mkFstr None AlD) (ts 2017 1 1 0 0 0) (ts 2017 1 10 0 0 0);
  do st2 <- apply_pattern (PList [1; 2; 3]) (mkSpan 0 ((fr_len f1) - 1) 0 0) (mkSt (repeat (-999999) (Z.to_nat (fr_len f1))) (repeat true (Z.to_nat (fr_len f1))) heap0);
  Ok [((zlist_eqb (st_labels st2) [1; 2; 3; 1; 2; 3; 1; 2; 3; 1]))]) = true.
Proof. vm_compute. reflexivity. Qed.

(** test_patterns.py:99 TestApplyPattern.test_apply_pattern_skip *)
Example test_apply_pattern_skip : passes (
  let heap0 : heap Z := [] in
  do f1 <- mk_frame (mkFstr None AlD) (ts 2017 1 1 0 0 0) (ts 2017 1 10 0 0 0);
  do st2 <- apply_pattern (PList [1; 2; 3]) (mkSpan 0 ((fr_len f1) - 1) 2 0) (mkSt (repeat (-999999) (Z.to_nat (fr_len f1))) (repeat true (Z.to_nat (fr_len f1))) heap0);
  Ok [((zlist_eqb (st_labels st2) [3; 1; 2; 3; 1; 2; 3; 1; 2; 3]))]) = true.
Proof. vm_compute. reflexivity. Qed.

(** test_patterns.py:105 TestApplyPattern.test_apply_pattern_as_string_skip *)
Example test_apply_pattern_as_string_skip : passes (
  let heap0 : heap Z := [] in
  do f1 <- mk_frame (mkFstr None AlD) (ts 2017 1 1 0 0 0) (ts 2017 1 10 0 0 0);
  do st2 <- apply_pattern (PList [1000001; 1000002; 1000003]) (mkSpan 0 ((fr_len f1) - 1) 2 0) (mkSt (repeat (-999999) (Z.to_nat (fr_len f1))) (repeat true (Z.to_nat (fr_len f1))) heap0);
  Ok [((zlist_eqb (st_labels st2) [1000003; 1000001; 1000002; 1000003; 1000001; 1000002; 1000003; 1000001; 1000002; 1000003]))]) = true.
Proof. vm_compute. reflexivity. Qed.

(** test_patterns.py:113 TestApplyPattern.test_apply_pattern_span_skip *)
Example test_apply_pattern_span_skip : passes (
  let heap0 : heap Z := [] in
  do f1 <- mk_frame (mkFstr None AlD) (ts 2017 1 1 0 0 0) (ts 2017 1 10 0 0 0);
  do st2 <- apply_pattern (PList [1; 2; 3]) (mkSpan 1 6 2 0) (mkSt (repeat (-999999) (Z.to_nat (fr_len f1))) (repeat true (Z.to_nat (fr_len f1))) heap0);
  Ok [((zlist_eqb (py_slice (st_labels st2) 1 7) [3; 1; 2; 3; 1; 2]))]) = true.
Proof. vm_compute. reflexivity. Qed.

(** test_patterns.py:119 TestApplyPattern.test_apply_pattern_double *)
Example test_apply_pattern_double : passes (
  let heap0 : heap Z := [] in
  do f1 <- mk_frame (mkFstr None AlD) (ts 2017 1 1 0 0 0) (ts 2017 1 10 0 0 0);
  do st2 <- apply_pattern (PList [11; 12]) (mkSpan 0 ((fr_len f1) - 1) 0 0) (mkSt (repeat (-999999) (Z.to_nat (fr_len f1))) (repeat true (Z.to_nat (fr_len f1))) heap0);
  do st3 <- apply_pattern (PList [1; 2; 3]) (mkSpan 1 6 2 0) st2;
  Ok [((zlist_eqb (st_labels st3) [11; 3; 1; 2; 3; 1; 2; 12; 11; 12]))]) = true.
Proof. vm_compute. reflexivity. Qed.

(** test_patterns.py:127 TestApplyPattern.test_apply_pattern_short *)
Example test_apply_pattern_short : passes (
  let heap0 : heap Z := [] in
  do f1 <- mk_frame (mkFstr None AlD) (ts 2017 1 1 0 0 0) (ts 2017 1 10 0 0 0);
  do st2 <- apply_pattern (PList [1]) (mkSpan 0 ((fr_len f1) - 1) 0 0) (mkSt (repeat (-999999) (Z.to_nat (fr_len f1))) (repeat true (Z.to_nat (fr_len f1))) heap0);
  Ok [((zlist_eqb (st_labels st2) [1; 1; 1; 1; 1; 1; 1; 1; 1; 1]))]) = true.
Proof. vm_compute. reflexivity. Qed.

(** test_patterns.py:133 TestApplyPattern.test_apply_pattern_toolong *)
Example test_apply_pattern_toolong : passes (
  let heap0 : heap Z := [] in
  do f1 <- mk_frame (mkFstr None AlD) (ts 2017 1 1 0 0 0) (ts 2017 1 10 0 0 0);
  do st2 <- apply_pattern (PList [0; 1; 2; 3; 4; 5; 6; 7; 8; 9; 10; 11; 12; 13; 14]) (mkSpan 0 ((fr_len f1) - 1) 0 0) (mkSt (repeat (-999999) (Z.to_nat (fr_len f1))) (repeat true (Z.to_nat (fr_len f1))) heap0);
  Ok [((zlist_eqb (st_labels st2) [0; 1; 2; 3; 4; 5; 6; 7; 8; 9]))]) = true.
Proof. vm_compute. reflexivity. Qed.

(** test_patterns.py:139 TestApplyPattern.test_apply_pattern_toolong_skip *)
Example test_apply_pattern_toolong_skip : passes (
  let heap0 : heap Z := [] in
  do f1 <- mk_frame (mkFstr None AlD) (ts 2017 1 1 0 0 0) (ts 2017 1 10 0 0 0);
  do st2 <- apply_pattern (PList [0; 1; 2; 3; 4; 5; 6; 7; 8; 9; 10; 11; 12; 13; 14]) (mkSpan 0 ((fr_len f1) - 1) 3 0) (mkSt (repeat (-999999) (Z.to_nat (fr_len f1))) (repeat true (Z.to_nat (fr_len f1))) heap0);
  Ok [((zlist_eqb (st_labels st2) [3; 4; 5; 6; 7; 8; 9; 10; 11; 12]))]) = true.
Proof. vm_compute. reflexivity. Qed.

(** test_patterns.py:145 TestApplyPattern.test_apply_pattern_toolong_skip_more *)
Example test_apply_pattern_toolong_skip_more : passes (
  let heap0 : heap Z := [] in
  do f1 <- mk_frame (mkFstr None AlD) (ts 2017 1 1 0 0 0) (ts 2017 1 10 0 0 0);
  do st2 <- apply_pattern (PList [0; 1; 2; 3; 4; 5; 6; 7; 8; 9; 10; 11; 12; 13; 14]) (mkSpan 0 ((fr_len f1) - 1) 10 0) (mkSt (repeat (-999999) (Z.to_nat (fr_len f1))) (repeat true (Z.to_nat (fr_len f1))) heap0);
  Ok [((zlist_eqb (st_labels st2) [10; 11; 12; 13; 14; 0; 1; 2; 3; 4]))]) = true.
Proof. vm_compute. reflexivity. Qed.

(** test_patterns.py:151 TestApplyPattern.test_apply_pattern_empty *)
Example test_apply_pattern_empty : passes (
  let heap0 : heap Z := [] in
  do f1 <- mk_frame (mkFstr None AlD) (ts 2017 1 1 0 0 0) (ts 2017 1 10 0 0 0);
  do st2 <- apply_pattern (PList []) (mkSpan 0 ((fr_len f1) - 1) 0 0) (mkSt (repeat 100 (Z.to_nat (fr_len f1))) (repeat true (Z.to_nat (fr_len f1))) heap0);
  Ok [((zlist_eqb (st_labels st2) [100; 100; 100; 100; 100; 100; 100; 100; 100; 100]))]) = true.
Proof. vm_compute. reflexivity. Qed.

(** test_patterns.py:163 TestApplyRememberingPattern.test_apply_pattern_basic *)
Example test_apply_pattern_basic_2 : passes (
  let heap0 : heap Z := [new_rpat [1; 2; 3]] in
  do f1 <- mk_frame (mkFstr None AlD) (ts 2017 1 1 0 0 0) (ts 2017 1 10 0 0 0);
  do st2 <- apply_pattern (PRem 0) (mkSpan 0 ((fr_len f1) - 1) 0 0) (mkSt (repeat (-999999) (Z.to_nat (fr_len f1))) (repeat true (Z.to_nat (fr_len f1))) heap0);
  Ok [((zlist_eqb (st_labels st2) [1; 2; 3; 1; 2; 3; 1; 2; 3; 1]))]) = true.
Proof. vm_compute. reflexivity. Qed.

(** test_patterns.py:169 TestApplyRememberingPattern.test_apply_pattern_skip *)
Example test_apply_pattern_skip_2 : passes (
  let heap0 : heap Z := [new_rpat [1; 2; 3]] in
  do f1 <- mk_frame (mkFstr None AlD) (ts 2017 1 1 0 0 0) (ts 2017 1 10 0 0 0);
  do st2 <- apply_pattern (PRem 0) (mkSpan 0 ((fr_len f1) - 1) 2 0) (mkSt (repeat (-999999) (Z.to_nat (fr_len f1))) (repeat true (Z.to_nat (fr_len f1))) heap0);
  Ok [((zlist_eqb (st_labels st2) [3; 1; 2; 3; 1; 2; 3; 1; 2; 3]))]) = true.
Proof. vm_compute. reflexivity. Qed.

(** test_patterns.py:175 TestApplyRememberingPattern.test_apply_pattern_span_skip *)
Example test_apply_pattern_span_skip_2 : passes (
  let heap0 : heap Z := [new_rpat [1; 2; 3]] in
  do f1 <- mk_frame (mkFstr None AlD) (ts 2017 1 1 0 0 0) (ts 2017 1 10 0 0 0);
  do st2 <- apply_pattern (PRem 0) (mkSpan 1 6 2 0) (mkSt (repeat (-999999) (Z.to_nat (fr_len f1))) (repeat true (Z.to_nat (fr_len f1))) heap0);
  Ok [((zlist_eqb (py_slice (st_labels st2) 1 7) [3; 1; 2; 3; 1; 2]))]) = true.
Proof. vm_compute. reflexivity. Qed.

(** test_patterns.py:181 TestApplyRememberingPattern.test_apply_pattern_short *)
Example test_apply_pattern_short_2 : passes (
  let heap0 : heap Z := [new_rpat [1]] in
  do f1 <- mk_frame (mkFstr None AlD) (ts 2017 1 1 0 0 0) (ts 2017 1 10 0 0 0);
  do st2 <- apply_pattern (PRem 0) (mkSpan 0 ((fr_len f1) - 1) 0 0) (mkSt (repeat (-999999) (Z.to_nat (fr_len f1))) (repeat true (Z.to_nat (fr_len f1))) heap0);
  Ok [((zlist_eqb (st_labels st2) [1; 1; 1; 1; 1; 1; 1; 1; 1; 1]))]) = true.
Proof. vm_compute. reflexivity. Qed.

(** test_patterns.py:187 TestApplyRememberingPattern.test_apply_pattern_toolong *)
Example test_apply_pattern_toolong_2 : passes (
  let heap0 : heap Z := [new_rpat [0; 1; 2; 3; 4; 5; 6; 7; 8; 9; 10; 11; 12; 13; 14]] in
  do f1 <- mk_frame (mkFstr None AlD) (ts 2017 1 1 0 0 0) (ts 2017 1 10 0 0 0);
  do st2 <- apply_pattern (PRem 0) (mkSpan 0 ((fr_len f1) - 1) 0 0) (mkSt (repeat (-999999) (Z.to_nat (fr_len f1))) (repeat true (Z.to_nat (fr_len f1))) heap0);
  Ok [((zlist_eqb (st_labels st2) [0; 1; 2; 3; 4; 5; 6; 7; 8; 9]))]) = true.
Proof. vm_compute. reflexivity. Qed.

(** test_patterns.py:193 TestApplyRememberingPattern.test_apply_pattern_toolong_skip *)
Example test_apply_pattern_toolong_skip_2 : passes (
  let heap0 : heap Z := [new_rpat [0; 1; 2; 3; 4; 5; 6; 7; 8; 9; 10; 11; 12; 13; 14]] in
  do f1 <- mk_frame (mkFstr None AlD) (ts 2017 1 1 0 0 0) (ts 2017 1 10 0 0 0);
  do st2 <- apply_pattern (PRem 0) (mkSpan 0 ((fr_len f1) - 1) 3 0) (mkSt (repeat (-999999) (Z.to_nat (fr_len f1))) (repeat true (Z.to_nat (fr_len f1))) heap0);
  Ok [((zlist_eqb (st_labels st2) [3; 4; 5; 6; 7; 8; 9; 10; 11; 12]))]) = true.
Proof. vm_compute. reflexivity. Qed.

(** test_patterns.py:199 TestApplyRememberingPattern.test_apply_pattern_toolong_skip_more *)
Example test_apply_pattern_toolong_skip_more_2 : passes (
  let heap0 : heap Z := [new_rpat [0; 1; 2; 3; 4; 5; 6; 7; 8; 9; 10; 11; 12; 13; 14]] in
  do f1 <- mk_frame (mkFstr None AlD) (ts 2017 1 1 0 0 0) (ts 2017 1 10 0 0 0);
  do st2 <- apply_pattern (PRem 0) (mkSpan 0 ((fr_len f1) - 1) 10 0) (mkSt (repeat (-999999) (Z.to_nat (fr_len f1))) (repeat true (Z.to_nat (fr_len f1))) heap0);
  Ok [((zlist_eqb (st_labels st2) [10; 11; 12; 13; 14; 0; 1; 2; 3; 4]))]) = true.
Proof. vm_compute. reflexivity. Qed.

(** test_patterns.py:205 TestApplyRememberingPattern.test_apply_pattern_empty *)
Example test_apply_pattern_empty_2 : passes (
  let heap0 : heap Z := [new_rpat []] in
  do f1 <- mk_frame (mkFstr None AlD) (ts 2017 1 1 0 0 0) (ts 2017 1 10 0 0 0);
  do st2 <- apply_pattern (PRem 0) (mkSpan 0 ((fr_len f1) - 1) 0 0) (mkSt (repeat 100 (Z.to_nat (fr_len f1))) (repeat true (Z.to_nat (fr_len f1))) heap0);
  Ok [((zlist_eqb (st_labels st2) [100; 100; 100; 100; 100; 100; 100; 100; 100; 100]))]) = true.
Proof. vm_compute. reflexivity. Qed.

(** test_patterns.py:211 TestApplyRememberingPattern.test_apply_pattern_with_memory *)
Example test_apply_pattern_with_memory : passes (
  let heap0 : heap Z := [new_rpat [0; 1]] in
  do f1 <- mk_frame (mkFstr None AlD) (ts 2017 1 1 0 0 0) (ts 2017 1 10 0 0 0);
  do st2 <- apply_pattern (PRem 0) (mkSpan 0 4 0 0) (mkSt (repeat (-999999) (Z.to_nat (fr_len f1))) (repeat true (Z.to_nat (fr_len f1))) heap0);
  do st3 <- apply_pattern (PList [9]) (mkSpan 5 6 0 0) st2;
  do st4 <- apply_pattern (PRem 0) (mkSpan 7 9 0 0) st3;
  Ok [((zlist_eqb (st_labels st4) [0; 1; 0; 1; 0; 9; 9; 1; 0; 1]))]) = true.
Proof. vm_compute. reflexivity. Qed.

(** test_patterns.py:219 TestApplyRememberingPattern.test_apply_pattern_with_memory_long *)
Example test_apply_pattern_with_memory_long : passes (
  let heap0 : heap Z := [new_rpat [0; 1; 2; 3; 4; 5]] in
  do f1 <- mk_frame (mkFstr None AlD) (ts 2017 1 1 0 0 0) (ts 2017 1 10 0 0 0);
  do st2 <- apply_pattern (PRem 0) (mkSpan 0 4 0 0) (mkSt (repeat (-999999) (Z.to_nat (fr_len f1))) (repeat true (Z.to_nat (fr_len f1))) heap0);
  do st3 <- apply_pattern (PList [9]) (mkSpan 5 6 0 0) st2;
  do st4 <- apply_pattern (PRem 0) (mkSpan 7 9 0 0) st3;
  Ok [((zlist_eqb (st_labels st4) [0; 1; 2; 3; 4; 9; 9; 5; 0; 1]))]) = true.
Proof. vm_compute. reflexivity. Qed.

(** test_patterns.py:227 TestApplyRememberingPattern.test_apply_pattern_with_memory_skip *)
Example test_apply_pattern_with_memory_skip : passes (
  let heap0 : heap Z := [new_rpat [0; 1]] in
  do f1 <- mk_frame (mkFstr None AlD) (ts 2017 1 1 0 0 0) (ts 2017 1 10 0 0 0);
  do st2 <- apply_pattern (PRem 0) (mkSpan 0 4 3 0) (mkSt (repeat (-999999) (Z.to_nat (fr_len f1))) (repeat true (Z.to_nat (fr_len f1))) heap0);
  do st3 <- apply_pattern (PList [9]) (mkSpan 5 6 0 0) st2;
  do st4 <- apply_pattern (PRem 0) (mkSpan 7 9 0 0) st3;
  Ok [((zlist_eqb (st_labels st4) [1; 0; 1; 0; 1; 9; 9; 0; 1; 0]))]) = true.
Proof. vm_compute. reflexivity. Qed.

(** test_patterns.py:235 TestApplyRememberingPattern.test_apply_pattern_with_memory_skip_long *)
Example test_apply_pattern_with_memory_skip_long : passes (
  let heap0 : heap Z := [new_rpat [0; 1; 2; 3; 4; 5]] in
  do f1 <- mk_frame (mkFstr None AlD) (ts 2017 1 1 0 0 0) (ts 2017 1 10 0 0 0);
  do st2 <- apply_pattern (PRem 0) (mkSpan 0 4 3 0) (mkSt (repeat (-999999) (Z.to_nat (fr_len f1))) (repeat true (Z.to_nat (fr_len f1))) heap0);
  do st3 <- apply_pattern (PList [9]) (mkSpan 5 6 0 0) st2;
  do st4 <- apply_pattern (PList [9]) (mkSpan 5 6 0 0) st3;
  do st5 <- apply_pattern (PRem 0) (mkSpan 7 9 0 0) st4;
  Ok [((zlist_eqb (st_labels st5) [3; 4; 5; 0; 1; 9; 9; 2; 3; 4]))]) = true.
Proof. vm_compute. reflexivity. Qed.

(** test_patterns.py:244 TestApplyRememberingPattern.test_apply_pattern_with_memory_skip_2 *)
Example test_apply_pattern_with_memory_skip_2 : passes (
  let heap0 : heap Z := [new_rpat [0; 1; 2; 3; 4; 5]] in
  do f1 <- mk_frame (mkFstr None AlD) (ts 2017 1 1 0 0 0) (ts 2017 1 10 0 0 0);
  do st2 <- apply_pattern (PRem 0) (mkSpan 0 4 3 0) (mkSt (repeat (-999999) (Z.to_nat (fr_len f1))) (repeat true (Z.to_nat (fr_len f1))) heap0);
  do st3 <- apply_pattern (PList [9]) (mkSpan 5 6 0 0) st2;
  do st4 <- apply_pattern (PRem 0) (mkSpan 7 9 2 0) st3;
  Ok [((zlist_eqb (st_labels st4) [3; 4; 5; 0; 1; 9; 9; 4; 5; 0]))]) = true.
Proof. vm_compute. reflexivity. Qed.
