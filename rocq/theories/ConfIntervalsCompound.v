(** ConfIntervalsCompound: /repo/timeboard/tests/test_intervals_compound.py as examples about the model.
    Written by tools/tests2coq.py. *)
From Verif Require Api.
From Verif Require Import Base Civil Freq Frame Timeline Board When ConfBase.
From Coq Require Import QArith String.
Open Scope Z_scope.

(** test_intervals_compound.py:40 TestIntervalCompoundConstructor.test_interval_constructor_compound_with_two_ts *)
Example test_interval_constructor_compound_with_two_ts : passes (
  let heap0 : heap Z := [] in
  do tb1 <- build (mkArgs (mkFstr None AlH) (ts 2017 10 1 0 0 0) (ts 2017 10 6 0 0 0) (LOrg (DMarker (mkMarker (mkFstr None AlD) [from_start_of_each (DKw 0 0 0 0 2 0 0); from_start_of_each (DKw 0 0 0 0 8 0 0); from_start_of_each (DKw 0 0 0 0 18 0 0)])) [(LLab 1); (LLab 0)]) [] (fun x => negb (x =? 0)) 0 false (-999999) WDuration conf_num) heap0;
  do iv2 <- get_interval (fst tb1) (RPair (Some (ts 2017 10 1 10 0 0)) (Some (ts 2017 10 2 23 0 0))) None None true C11 None;
  do t3 <- iv_start_time (fst tb1) iv2;
  do t4 <- iv_end_time (fst tb1) iv2;
  do t5 <- iv_end_time (fst tb1) iv2;
  do iv6 <- get_interval (fst tb1) (RPair (Some (ts 2017 10 1 10 0 0)) (Some (ts 2017 10 2 23 0 0))) None None true C11 None;
  Ok [((t3 =? (ts 2017 10 1 8 0 0)));
       ((t4 >? (ts 2017 10 3 1 59 59)));
       ((t5 <? (ts 2017 10 3 2 0 0)));
       ((pair_eqb (iv_a iv2, iv_b iv2) (2, 6)));
       (((iv_length iv2) =? 5));
       ((pair_eqb (iv_a iv6, iv_b iv6) (iv_a iv2, iv_b iv2)))]) = true.
Proof. vm_compute. reflexivity. Qed.

(** test_intervals_compound.py:52 TestIntervalCompoundConstructor.test_interval_constructor_compound_with_two_ts_open_ended *)
Example test_interval_constructor_compound_with_two_ts_open_ended : passes (
  let heap0 : heap Z := [] in
  do tb1 <- build (mkArgs (mkFstr None AlH) (ts 2017 10 1 0 0 0) (ts 2017 10 6 0 0 0) (LOrg (DMarker (mkMarker (mkFstr None AlD) [from_start_of_each (DKw 0 0 0 0 2 0 0); from_start_of_each (DKw 0 0 0 0 8 0 0); from_start_of_each (DKw 0 0 0 0 18 0 0)])) [(LLab 1); (LLab 0)]) [] (fun x => negb (x =? 0)) 0 false (-999999) WDuration conf_num) heap0;
  do iv2 <- get_interval (fst tb1) (RPair (Some (ts 2017 10 1 10 0 0)) (Some (ts 2017 10 2 23 0 0))) None None true C00 None;
  do t3 <- iv_start_time (fst tb1) iv2;
  do t4 <- iv_end_time (fst tb1) iv2;
  do t5 <- iv_end_time (fst tb1) iv2;
  Ok [((t3 =? (ts 2017 10 1 18 0 0)));
       ((t4 >? (ts 2017 10 2 17 59 59)));
       ((t5 <? (ts 2017 10 2 18 0 0)));
       ((pair_eqb (iv_a iv2, iv_b iv2) (3, 5)));
       (((iv_length iv2) =? 3))]) = true.
Proof. vm_compute. reflexivity. Qed.

(** test_intervals_compound.py:62 TestIntervalCompoundConstructor.test_interval_constructor_compound_with_two_ts_same_ws *)
Example test_interval_constructor_compound_with_two_ts_same_ws : passes (
  let heap0 : heap Z := [] in
  do tb1 <- build (mkArgs (mkFstr None AlH) (ts 2017 10 1 0 0 0) (ts 2017 10 6 0 0 0) (LOrg (DMarker (mkMarker (mkFstr None AlD) [from_start_of_each (DKw 0 0 0 0 2 0 0); from_start_of_each (DKw 0 0 0 0 8 0 0); from_start_of_each (DKw 0 0 0 0 18 0 0)])) [(LLab 1); (LLab 0)]) [] (fun x => negb (x =? 0)) 0 false (-999999) WDuration conf_num) heap0;
  do iv2 <- get_interval (fst tb1) (RPair (Some (ts 2017 10 2 19 15 0)) (Some (ts 2017 10 3 1 10 0))) None None true C11 None;
  do t3 <- iv_start_time (fst tb1) iv2;
  do t4 <- iv_end_time (fst tb1) iv2;
  do t5 <- iv_end_time (fst tb1) iv2;
  do iv6 <- get_interval (fst tb1) (RPair (Some (ts 2017 10 2 19 15 0)) (Some (ts 2017 10 3 1 10 0))) None None true C11 None;
  Ok [((t3 =? (ts 2017 10 2 18 0 0)));
       ((t4 >? (ts 2017 10 3 1 59 59)));
       ((t5 <? (ts 2017 10 3 2 0 0)));
       ((pair_eqb (iv_a iv2, iv_b iv2) (6, 6)));
       (((iv_length iv2) =? 1));
       ((pair_eqb (iv_a iv6, iv_b iv6) (iv_a iv2, iv_b iv2)))]) = true.
Proof. vm_compute. reflexivity. Qed.

(** test_intervals_compound.py:74 TestIntervalCompoundConstructor.test_interval_constructor_compound_with_length *)
Example test_interval_constructor_compound_with_length : passes (
  let heap0 : heap Z := [] in
  do tb1 <- build (mkArgs (mkFstr None AlH) (ts 2017 10 1 0 0 0) (ts 2017 10 6 0 0 0) (LOrg (DMarker (mkMarker (mkFstr None AlD) [from_start_of_each (DKw 0 0 0 0 2 0 0); from_start_of_each (DKw 0 0 0 0 8 0 0); from_start_of_each (DKw 0 0 0 0 18 0 0)])) [(LLab 1); (LLab 0)]) [] (fun x => negb (x =? 0)) 0 false (-999999) WDuration conf_num) heap0;
  do iv2 <- get_interval (fst tb1) (RPoint (ts 2017 10 2 15 0 0)) (Some 7) None true C11 None;
  do t3 <- iv_start_time (fst tb1) iv2;
  do t4 <- iv_end_time (fst tb1) iv2;
  do t5 <- iv_end_time (fst tb1) iv2;
  do iv6 <- get_interval (fst tb1) (RPoint (ts 2017 10 2 15 0 0)) (Some 7) None true C11 None;
  Ok [((t3 =? (ts 2017 10 2 8 0 0)));
       ((t4 >? (ts 2017 10 4 17 59 59)));
       ((t5 <? (ts 2017 10 4 18 0 0)));
       ((pair_eqb (iv_a iv2, iv_b iv2) (5, 11)));
       (((iv_length iv2) =? 7));
       ((pair_eqb (iv_a iv6, iv_b iv6) (iv_a iv2, iv_b iv2)))]) = true.
Proof. vm_compute. reflexivity. Qed.

(** test_intervals_compound.py:86 TestIntervalCompoundConstructor.test_interval_constructor_compound_with_period *)
Example test_interval_constructor_compound_with_period : passes (
  let heap0 : heap Z := [] in
  do tb1 <- build (mkArgs (mkFstr None AlH) (ts 2017 10 1 0 0 0) (ts 2017 10 6 0 0 0) (LOrg (DMarker (mkMarker (mkFstr None AlD) [from_start_of_each (DKw 0 0 0 0 2 0 0); from_start_of_each (DKw 0 0 0 0 8 0 0); from_start_of_each (DKw 0 0 0 0 18 0 0)])) [(LLab 1); (LLab 0)]) [] (fun x => negb (x =? 0)) 0 false (-999999) WDuration conf_num) heap0;
  do iv2 <- get_interval (fst tb1) (RPoint (ts 2017 10 1 19 0 0)) None (Some (mkFstr None AlD)) true C11 None;
  do t3 <- iv_start_time (fst tb1) iv2;
  do t4 <- iv_end_time (fst tb1) iv2;
  do t5 <- iv_end_time (fst tb1) iv2;
  do iv6 <- get_interval (fst tb1) (RPoint (ts 2017 10 1 3 0 0)) None (Some (mkFstr None AlD)) true C11 None;
  do iv7 <- get_interval (fst tb1) (RPeriod (period_at (ts 2017 10 1 19 0 0) (mkFstr None AlD))) None None true C11 None;
  Ok [((t3 =? (ts 2017 10 1 0 0 0)));
       ((t4 >? (ts 2017 10 2 1 59 59)));
       ((t5 <? (ts 2017 10 2 2 0 0)));
       ((pair_eqb (iv_a iv2, iv_b iv2) (0, 3)));
       (((iv_length iv2) =? 4));
       ((pair_eqb (iv_a iv6, iv_b iv6) (iv_a iv2, iv_b iv2)));
       ((pair_eqb (iv_a iv7, iv_b iv7) (0, 3)))]) = true.
Proof. vm_compute. reflexivity. Qed.

(** test_intervals_compound.py:102 TestIntervalCompoundConstructor.test_interval_constructor_compound_with_period2 *)
Example test_interval_constructor_compound_with_period2 : passes (
  let heap0 : heap Z := [] in
  do tb1 <- build (mkArgs (mkFstr None AlH) (ts 2017 10 1 0 0 0) (ts 2017 10 6 0 0 0) (LOrg (DMarker (mkMarker (mkFstr None AlD) [from_start_of_each (DKw 0 0 0 0 2 0 0); from_start_of_each (DKw 0 0 0 0 8 0 0); from_start_of_each (DKw 0 0 0 0 18 0 0)])) [(LLab 1); (LLab 0)]) [] (fun x => negb (x =? 0)) 0 false (-999999) WDuration conf_num) heap0;
  do iv2 <- get_interval (fst tb1) (RPoint (ts 2017 10 2 1 0 0)) None (Some (mkFstr None AlD)) true C11 None;
  do t3 <- iv_start_time (fst tb1) iv2;
  do t4 <- iv_end_time (fst tb1) iv2;
  do t5 <- iv_end_time (fst tb1) iv2;
  do iv6 <- get_interval (fst tb1) (RPoint (ts 2017 10 2 1 0 0)) None (Some (mkFstr None AlD)) true C11 None;
  Ok [((t3 =? (ts 2017 10 2 2 0 0)));
       ((t4 >? (ts 2017 10 3 1 59 59)));
       ((t5 <? (ts 2017 10 3 2 0 0)));
       ((pair_eqb (iv_a iv2, iv_b iv2) (4, 6)));
       (((iv_length iv2) =? 3));
       ((pair_eqb (iv_a iv6, iv_b iv6) (iv_a iv2, iv_b iv2)))]) = true.
Proof. vm_compute. reflexivity. Qed.

(** test_intervals_compound.py:118 TestIntervalCompoundConstructor.test_interval_constructor_compound_with_period3 *)
Example test_interval_constructor_compound_with_period3 : passes (
  let heap0 : heap Z := [] in
  do tb1 <- build (mkArgs (mkFstr None AlH) (ts 2017 10 1 0 0 0) (ts 2017 10 6 0 0 0) (LOrg (DMarker (mkMarker (mkFstr None AlD) [from_start_of_each (DKw 0 0 0 0 2 0 0); from_start_of_each (DKw 0 0 0 0 8 0 0); from_start_of_each (DKw 0 0 0 0 18 0 0)])) [(LLab 1); (LLab 0)]) [] (fun x => negb (x =? 0)) 0 true (-999999) WDuration conf_num) heap0;
  do iv2 <- get_interval (fst tb1) (RPoint (ts 2017 10 1 19 0 0)) None (Some (mkFstr None AlD)) true C11 None;
  do t3 <- iv_start_time (fst tb1) iv2;
  do t4 <- iv_end_time (fst tb1) iv2;
  do t5 <- iv_end_time (fst tb1) iv2;
  do iv6 <- get_interval (fst tb1) (RPoint (ts 2017 10 1 19 0 0)) None (Some (mkFstr None AlD)) true C11 None;
  Ok [((t3 =? (ts 2017 10 1 0 0 0)));
       ((t4 >? (ts 2017 10 1 17 59 59)));
       ((t5 <? (ts 2017 10 1 18 0 0)));
       ((pair_eqb (iv_a iv2, iv_b iv2) (0, 2)));
       (((iv_length iv2) =? 3));
       ((pair_eqb (iv_a iv6, iv_b iv6) (iv_a iv2, iv_b iv2)))]) = true.
Proof. vm_compute. reflexivity. Qed.

(** test_intervals_compound.py:134 TestIntervalCompoundConstructor.test_interval_constructor_compound_with_period4 *)
Example test_interval_constructor_compound_with_period4 : passes (
  let heap0 : heap Z := [] in
  do tb1 <- build (mkArgs (mkFstr None AlH) (ts 2017 10 1 0 0 0) (ts 2017 10 6 0 0 0) (LOrg (DMarker (mkMarker (mkFstr None AlD) [from_start_of_each (DKw 0 0 0 0 2 0 0); from_start_of_each (DKw 0 0 0 0 8 0 0); from_start_of_each (DKw 0 0 0 0 18 0 0)])) [(LLab 1); (LLab 0)]) [] (fun x => negb (x =? 0)) 0 true (-999999) WDuration conf_num) heap0;
  do iv2 <- get_interval (fst tb1) (RPoint (ts 2017 10 2 1 0 0)) None (Some (mkFstr None AlD)) true C11 None;
  do t3 <- iv_start_time (fst tb1) iv2;
  do t4 <- iv_end_time (fst tb1) iv2;
  do t5 <- iv_end_time (fst tb1) iv2;
  do iv6 <- get_interval (fst tb1) (RPoint (ts 2017 10 2 1 0 0)) None (Some (mkFstr None AlD)) true C11 None;
  Ok [((t3 =? (ts 2017 10 1 18 0 0)));
       ((t4 >? (ts 2017 10 2 17 59 59)));
       ((t5 <? (ts 2017 10 2 18 0 0)));
       ((pair_eqb (iv_a iv2, iv_b iv2) (3, 5)));
       (((iv_length iv2) =? 3));
       ((pair_eqb (iv_a iv6, iv_b iv6) (iv_a iv2, iv_b iv2)))]) = true.
Proof. vm_compute. reflexivity. Qed.

(** test_intervals_compound.py:149 TestIntervalCompoundConstructor.test_interval_constructor_compound_with_period_partial *)
Example test_interval_constructor_compound_with_period_partial : passes (
  let heap0 : heap Z := [] in
  do tb1 <- build (mkArgs (mkFstr None AlH) (ts 2017 10 1 0 0 0) (ts 2017 10 6 0 0 0) (LOrg (DMarker (mkMarker (mkFstr None AlD) [from_start_of_each (DKw 0 0 0 0 2 0 0); from_start_of_each (DKw 0 0 0 0 8 0 0); from_start_of_each (DKw 0 0 0 0 18 0 0)])) [(LLab 1); (LLab 0)]) [] (fun x => negb (x =? 0)) 0 false (-999999) WDuration conf_num) heap0;
  Ok [raises [EOutOfBounds] (do iv2 <- get_interval (fst tb1) (RPoint (ts 2017 10 6 0 15 0)) None (Some (mkFstr None AlD)) true C11 None; Ok tt)]) = true.
Proof. vm_compute. reflexivity. Qed.

(** test_intervals_compound.py:157 TestIntervalCompoundConstructor.test_interval_constructor_compound_with_period_partial2 *)
Example test_interval_constructor_compound_with_period_partial2 : passes (
  let heap0 : heap Z := [] in
  do tb1 <- build (mkArgs (mkFstr None AlH) (ts 2017 10 1 0 0 0) (ts 2017 10 6 0 0 0) (LOrg (DMarker (mkMarker (mkFstr None AlD) [from_start_of_each (DKw 0 0 0 0 2 0 0); from_start_of_each (DKw 0 0 0 0 8 0 0); from_start_of_each (DKw 0 0 0 0 18 0 0)])) [(LLab 1); (LLab 0)]) [] (fun x => negb (x =? 0)) 0 true (-999999) WDuration conf_num) heap0;
  do iv2 <- get_interval (fst tb1) (RPoint (ts 2017 10 6 0 15 0)) None (Some (mkFstr None AlD)) true C11 None;
  do t3 <- iv_start_time (fst tb1) iv2;
  do t4 <- iv_end_time (fst tb1) iv2;
  do t5 <- iv_end_time (fst tb1) iv2;
  do iv6 <- get_interval (fst tb1) (RPoint (ts 2017 10 6 20 15 0)) None (Some (mkFstr None AlD)) true C11 None;
  Ok [((t3 =? (ts 2017 10 5 18 0 0)));
       ((t4 >? (ts 2017 10 6 0 59 59)));
       ((t5 <? (ts 2017 10 6 1 0 0)));
       ((pair_eqb (iv_a iv2, iv_b iv2) (15, 15)));
       (((iv_length iv2) =? 1));
       ((pair_eqb (iv_a iv6, iv_b iv6) (15, 15)));
       raises [EPartialOutOfBounds] (do iv7 <- get_interval (fst tb1) (RPoint (ts 2017 10 6 0 15 0)) None (Some (mkFstr None AlD)) false C11 None; Ok tt)]) = true.
Proof. vm_compute. reflexivity. Qed.

(** test_intervals_compound.py:172 TestIntervalCompoundConstructor.test_interval_constructor_compound_with_period_partial3 *)
Example test_interval_constructor_compound_with_period_partial3 : passes (
  let heap0 : heap Z := [] in
  do tb1 <- build (mkArgs (mkFstr None AlH) (ts 2017 10 1 0 0 0) (ts 2017 10 6 0 0 0) (LOrg (DMarker (mkMarker (mkFstr None AlD) [from_start_of_each (DKw 0 0 0 0 2 0 0); from_start_of_each (DKw 0 0 0 0 8 0 0); from_start_of_each (DKw 0 0 0 0 18 0 0)])) [(LLab 1); (LLab 0)]) [] (fun x => negb (x =? 0)) 0 false (-999999) WDuration conf_num) heap0;
  do iv2 <- get_interval (fst tb1) (RPoint (ts 2017 10 1 0 15 0)) None (Some (mkFstr None (AlW None))) true C11 None;
  do t3 <- iv_start_time (fst tb1) iv2;
  do t4 <- iv_end_time (fst tb1) iv2;
  do t5 <- iv_end_time (fst tb1) iv2;
  do iv6 <- get_interval (fst tb1) (RPoint (ts 2017 9 30 12 0 0)) None (Some (mkFstr None (AlW None))) true C11 None;
  Ok [((t3 =? (ts 2017 10 1 0 0 0)));
       ((t4 >? (ts 2017 10 2 1 59 59)));
       ((t5 <? (ts 2017 10 2 2 0 0)));
       ((pair_eqb (iv_a iv2, iv_b iv2) (0, 3)));
       (((iv_length iv2) =? 4));
       ((pair_eqb (iv_a iv6, iv_b iv6) (0, 3)));
       raises [EPartialOutOfBounds] (do iv7 <- get_interval (fst tb1) (RPoint (ts 2017 10 1 0 15 0)) None (Some (mkFstr None (AlW None))) false C11 None; Ok tt)]) = true.
Proof. vm_compute. reflexivity. Qed.

(** test_intervals_compound.py:188 TestIntervalCompoundConstructor.test_interval_constructor_compound_with_period_partial4 *)
Example test_interval_constructor_compound_with_period_partial4 : passes (
  let heap0 : heap Z := [] in
  do tb1 <- build (mkArgs (mkFstr None AlH) (ts 2017 10 1 0 0 0) (ts 2017 10 6 0 0 0) (LOrg (DMarker (mkMarker (mkFstr None AlD) [from_start_of_each (DKw 0 0 0 0 2 0 0); from_start_of_each (DKw 0 0 0 0 8 0 0); from_start_of_each (DKw 0 0 0 0 18 0 0)])) [(LLab 1); (LLab 0)]) [] (fun x => negb (x =? 0)) 0 true (-999999) WDuration conf_num) heap0;
  do iv2 <- get_interval (fst tb1) (RPoint (ts 2017 10 1 0 15 0)) None (Some (mkFstr None (AlW None))) true C11 None;
  do t3 <- iv_start_time (fst tb1) iv2;
  do t4 <- iv_end_time (fst tb1) iv2;
  do t5 <- iv_end_time (fst tb1) iv2;
  do iv6 <- get_interval (fst tb1) (RPoint (ts 2017 9 30 12 0 0)) None (Some (mkFstr None (AlW None))) true C11 None;
  Ok [((t3 =? (ts 2017 10 1 0 0 0)));
       ((t4 >? (ts 2017 10 1 17 59 59)));
       ((t5 <? (ts 2017 10 1 18 0 0)));
       ((pair_eqb (iv_a iv2, iv_b iv2) (0, 2)));
       (((iv_length iv2) =? 3));
       ((pair_eqb (iv_a iv6, iv_b iv6) (0, 2)));
       raises [EPartialOutOfBounds] (do iv7 <- get_interval (fst tb1) (RPoint (ts 2017 10 1 0 15 0)) None (Some (mkFstr None (AlW None))) false C11 None; Ok tt)]) = true.
Proof. vm_compute. reflexivity. Qed.

(** test_intervals_compound.py:207 TestIntervalCompoundCountPeriodsWithLocsNotStraddling.test_ivl_compound_count_periods_one_float_right_duty_on *)
Example test_ivl_compound_count_periods_one_float_right_duty_on : passes (
  let heap0 : heap Z := [] in
  do tb1 <- build (mkArgs (mkFstr None AlH) (ts 2017 10 1 0 0 0) (ts 2017 10 6 0 0 0) (LOrg (DMarker (mkMarker (mkFstr None AlD) [from_start_of_each (DKw 0 0 0 0 2 0 0); from_start_of_each (DKw 0 0 0 0 8 0 0); from_start_of_each (DKw 0 0 0 0 18 0 0)])) [(LLab 1); (LLab 0)]) [] (fun x => negb (x =? 0)) 0 false (-999999) WDuration conf_num) heap0;
  do iv2 <- new_interval (fst tb1) 4 5 (tb_default (fst tb1));
  do q3 <- count_periods (fst tb1) iv2 (mkFstr None AlD) DOn None;
  do tb4 <- build (mkArgs (mkFstr None AlH) (ts 2017 10 1 0 0 0) (ts 2017 10 6 0 0 0) (LOrg (DMarker (mkMarker (mkFstr None AlD) [from_start_of_each (DKw 0 0 0 0 2 0 0); from_start_of_each (DKw 0 0 0 0 8 0 0); from_start_of_each (DKw 0 0 0 0 18 0 0)])) [(LLab 1); (LLab 0)]) [] (fun x => negb (x =? 0)) 0 true (-999999) WDuration conf_num) heap0;
  do iv5 <- new_interval (fst tb4) 4 5 (tb_default (fst tb4));
  do q6 <- count_periods (fst tb4) iv5 (mkFstr None AlD) DOn None;
  Ok [((Qeq_bool q3 (1 # 2)));
       ((Bool.eqb (tl_ref_end (tb_tl (fst tb4))) true));
       ((Qeq_bool q6 (1 # 1)))]) = true.
Proof. vm_compute. reflexivity. Qed.

(** test_intervals_compound.py:216 TestIntervalCompoundCountPeriodsWithLocsNotStraddling.test_ivl_compound_count_periods_one_float_right_duty_off *)
Example test_ivl_compound_count_periods_one_float_right_duty_off : passes (
  let heap0 : heap Z := [] in
  do tb1 <- build (mkArgs (mkFstr None AlH) (ts 2017 10 1 0 0 0) (ts 2017 10 6 0 0 0) (LOrg (DMarker (mkMarker (mkFstr None AlD) [from_start_of_each (DKw 0 0 0 0 2 0 0); from_start_of_each (DKw 0 0 0 0 8 0 0); from_start_of_each (DKw 0 0 0 0 18 0 0)])) [(LLab 1); (LLab 0)]) [] (fun x => negb (x =? 0)) 0 false (-999999) WDuration conf_num) heap0;
  do iv2 <- new_interval (fst tb1) 7 8 (tb_default (fst tb1));
  do q3 <- count_periods (fst tb1) iv2 (mkFstr None AlD) DOff None;
  do tb4 <- build (mkArgs (mkFstr None AlH) (ts 2017 10 1 0 0 0) (ts 2017 10 6 0 0 0) (LOrg (DMarker (mkMarker (mkFstr None AlD) [from_start_of_each (DKw 0 0 0 0 2 0 0); from_start_of_each (DKw 0 0 0 0 8 0 0); from_start_of_each (DKw 0 0 0 0 18 0 0)])) [(LLab 1); (LLab 0)]) [] (fun x => negb (x =? 0)) 0 true (-999999) WDuration conf_num) heap0;
  do iv5 <- new_interval (fst tb4) 7 8 (tb_default (fst tb4));
  do q6 <- count_periods (fst tb4) iv5 (mkFstr None AlD) DOff None;
  Ok [((Qeq_bool q3 (1 # 2)));
       ((Qeq_bool q6 (1 # 1)))]) = true.
Proof. vm_compute. reflexivity. Qed.

(** test_intervals_compound.py:224 TestIntervalCompoundCountPeriodsWithLocsNotStraddling.test_ivl_compound_count_periods_one_float_right_duty_any *)
Example test_ivl_compound_count_periods_one_float_right_duty_any : passes (
  let heap0 : heap Z := [] in
  do tb1 <- build (mkArgs (mkFstr None AlH) (ts 2017 10 1 0 0 0) (ts 2017 10 6 0 0 0) (LOrg (DMarker (mkMarker (mkFstr None AlD) [from_start_of_each (DKw 0 0 0 0 2 0 0); from_start_of_each (DKw 0 0 0 0 8 0 0); from_start_of_each (DKw 0 0 0 0 18 0 0)])) [(LLab 1); (LLab 0)]) [] (fun x => negb (x =? 0)) 0 false (-999999) WDuration conf_num) heap0;
  do iv2 <- new_interval (fst tb1) 1 2 (tb_default (fst tb1));
  do q3 <- count_periods (fst tb1) iv2 (mkFstr None AlD) DAny None;
  do tb4 <- build (mkArgs (mkFstr None AlH) (ts 2017 10 1 0 0 0) (ts 2017 10 6 0 0 0) (LOrg (DMarker (mkMarker (mkFstr None AlD) [from_start_of_each (DKw 0 0 0 0 2 0 0); from_start_of_each (DKw 0 0 0 0 8 0 0); from_start_of_each (DKw 0 0 0 0 18 0 0)])) [(LLab 1); (LLab 0)]) [] (fun x => negb (x =? 0)) 0 true (-999999) WDuration conf_num) heap0;
  do iv5 <- new_interval (fst tb4) 1 2 (tb_default (fst tb4));
  do q6 <- count_periods (fst tb4) iv5 (mkFstr None AlD) DAny None;
  Ok [((Qeq_bool q3 (1 # 2)));
       ((Qeq_bool q6 (2 # 3)))]) = true.
Proof. vm_compute. reflexivity. Qed.

(** test_intervals_compound.py:232 TestIntervalCompoundCountPeriodsWithLocsNotStraddling.test_ivl_compound_count_periods_one_float_left_duty_on *)
Example test_ivl_compound_count_periods_one_float_left_duty_on : passes (
  let heap0 : heap Z := [] in
  do tb1 <- build (mkArgs (mkFstr None AlH) (ts 2017 10 1 0 0 0) (ts 2017 10 6 0 0 0) (LOrg (DMarker (mkMarker (mkFstr None AlD) [from_start_of_each (DKw 0 0 0 0 2 0 0); from_start_of_each (DKw 0 0 0 0 8 0 0); from_start_of_each (DKw 0 0 0 0 18 0 0)])) [(LLab 1); (LLab 0)]) [] (fun x => negb (x =? 0)) 0 false (-999999) WDuration conf_num) heap0;
  do iv2 <- new_interval (fst tb1) 7 8 (tb_default (fst tb1));
  do q3 <- count_periods (fst tb1) iv2 (mkFstr None AlD) DOn None;
  do tb4 <- build (mkArgs (mkFstr None AlH) (ts 2017 10 1 0 0 0) (ts 2017 10 6 0 0 0) (LOrg (DMarker (mkMarker (mkFstr None AlD) [from_start_of_each (DKw 0 0 0 0 2 0 0); from_start_of_each (DKw 0 0 0 0 8 0 0); from_start_of_each (DKw 0 0 0 0 18 0 0)])) [(LLab 1); (LLab 0)]) [] (fun x => negb (x =? 0)) 0 true (-999999) WDuration conf_num) heap0;
  do iv5 <- new_interval (fst tb4) 7 8 (tb_default (fst tb4));
  do q6 <- count_periods (fst tb4) iv5 (mkFstr None AlD) DOn None;
  Ok [((Qeq_bool q3 (1 # 1)));
       ((Qeq_bool q6 (1 # 2)))]) = true.
Proof. vm_compute. reflexivity. Qed.

(** test_intervals_compound.py:240 TestIntervalCompoundCountPeriodsWithLocsNotStraddling.test_ivl_compound_count_periods_one_float_left_duty_off *)
Example test_ivl_compound_count_periods_one_float_left_duty_off : passes (
  let heap0 : heap Z := [] in
  do tb1 <- build (mkArgs (mkFstr None AlH) (ts 2017 10 1 0 0 0) (ts 2017 10 6 0 0 0) (LOrg (DMarker (mkMarker (mkFstr None AlD) [from_start_of_each (DKw 0 0 0 0 2 0 0); from_start_of_each (DKw 0 0 0 0 8 0 0); from_start_of_each (DKw 0 0 0 0 18 0 0)])) [(LLab 1); (LLab 0)]) [] (fun x => negb (x =? 0)) 0 false (-999999) WDuration conf_num) heap0;
  do iv2 <- new_interval (fst tb1) 4 5 (tb_default (fst tb1));
  do q3 <- count_periods (fst tb1) iv2 (mkFstr None AlD) DOff None;
  do tb4 <- build (mkArgs (mkFstr None AlH) (ts 2017 10 1 0 0 0) (ts 2017 10 6 0 0 0) (LOrg (DMarker (mkMarker (mkFstr None AlD) [from_start_of_each (DKw 0 0 0 0 2 0 0); from_start_of_each (DKw 0 0 0 0 8 0 0); from_start_of_each (DKw 0 0 0 0 18 0 0)])) [(LLab 1); (LLab 0)]) [] (fun x => negb (x =? 0)) 0 true (-999999) WDuration conf_num) heap0;
  do iv5 <- new_interval (fst tb4) 4 5 (tb_default (fst tb4));
  do q6 <- count_periods (fst tb4) iv5 (mkFstr None AlD) DOff None;
  Ok [((Qeq_bool q3 (1 # 1)));
       ((Qeq_bool q6 (1 # 2)))]) = true.
Proof. vm_compute. reflexivity. Qed.

(** test_intervals_compound.py:248 TestIntervalCompoundCountPeriodsWithLocsNotStraddling.test_ivl_compound_count_periods_many_float_right_duty_on *)
Example test_ivl_compound_count_periods_many_float_right_duty_on : passes (
  let heap0 : heap Z := [] in
  do tb1 <- build (mkArgs (mkFstr None AlH) (ts 2017 10 1 0 0 0) (ts 2017 10 6 0 0 0) (LOrg (DMarker (mkMarker (mkFstr None AlD) [from_start_of_each (DKw 0 0 0 0 2 0 0); from_start_of_each (DKw 0 0 0 0 8 0 0); from_start_of_each (DKw 0 0 0 0 18 0 0)])) [(LLab 1); (LLab 0)]) [] (fun x => negb (x =? 0)) 0 false (-999999) WDuration conf_num) heap0;
  do iv2 <- new_interval (fst tb1) 4 11 (tb_default (fst tb1));
  do q3 <- count_periods (fst tb1) iv2 (mkFstr None AlD) DOn None;
  do tb4 <- build (mkArgs (mkFstr None AlH) (ts 2017 10 1 0 0 0) (ts 2017 10 6 0 0 0) (LOrg (DMarker (mkMarker (mkFstr None AlD) [from_start_of_each (DKw 0 0 0 0 2 0 0); from_start_of_each (DKw 0 0 0 0 8 0 0); from_start_of_each (DKw 0 0 0 0 18 0 0)])) [(LLab 1); (LLab 0)]) [] (fun x => negb (x =? 0)) 0 true (-999999) WDuration conf_num) heap0;
  do iv5 <- new_interval (fst tb4) 4 11 (tb_default (fst tb4));
  do q6 <- count_periods (fst tb4) iv5 (mkFstr None AlD) DOn None;
  Ok [((Qeq_bool q3 (5 # 2)));
       ((Qeq_bool q6 (3 # 1)))]) = true.
Proof. vm_compute. reflexivity. Qed.

(** test_intervals_compound.py:256 TestIntervalCompoundCountPeriodsWithLocsNotStraddling.test_ivl_compound_count_periods_many_float_left_duty_off *)
Example test_ivl_compound_count_periods_many_float_left_duty_off : passes (
  let heap0 : heap Z := [] in
  do tb1 <- build (mkArgs (mkFstr None AlH) (ts 2017 10 1 0 0 0) (ts 2017 10 6 0 0 0) (LOrg (DMarker (mkMarker (mkFstr None AlD) [from_start_of_each (DKw 0 0 0 0 2 0 0); from_start_of_each (DKw 0 0 0 0 8 0 0); from_start_of_each (DKw 0 0 0 0 18 0 0)])) [(LLab 1); (LLab 0)]) [] (fun x => negb (x =? 0)) 0 false (-999999) WDuration conf_num) heap0;
  do iv2 <- new_interval (fst tb1) 4 11 (tb_default (fst tb1));
  do q3 <- count_periods (fst tb1) iv2 (mkFstr None AlD) DOff None;
  do tb4 <- build (mkArgs (mkFstr None AlH) (ts 2017 10 1 0 0 0) (ts 2017 10 6 0 0 0) (LOrg (DMarker (mkMarker (mkFstr None AlD) [from_start_of_each (DKw 0 0 0 0 2 0 0); from_start_of_each (DKw 0 0 0 0 8 0 0); from_start_of_each (DKw 0 0 0 0 18 0 0)])) [(LLab 1); (LLab 0)]) [] (fun x => negb (x =? 0)) 0 true (-999999) WDuration conf_num) heap0;
  do iv5 <- new_interval (fst tb4) 4 11 (tb_default (fst tb4));
  do q6 <- count_periods (fst tb4) iv5 (mkFstr None AlD) DOff None;
  Ok [((Qeq_bool q3 (3 # 1)));
       ((Qeq_bool q6 (5 # 2)))]) = true.
Proof. vm_compute. reflexivity. Qed.

(** test_intervals_compound.py:264 TestIntervalCompoundCountPeriodsWithLocsNotStraddling.test_ivl_compound_count_periods_many_float_left_duty_on *)
Example test_ivl_compound_count_periods_many_float_left_duty_on : passes (
  let heap0 : heap Z := [] in
  do tb1 <- build (mkArgs (mkFstr None AlH) (ts 2017 10 1 0 0 0) (ts 2017 10 6 0 0 0) (LOrg (DMarker (mkMarker (mkFstr None AlD) [from_start_of_each (DKw 0 0 0 0 2 0 0); from_start_of_each (DKw 0 0 0 0 8 0 0); from_start_of_each (DKw 0 0 0 0 18 0 0)])) [(LLab 1); (LLab 0)]) [] (fun x => negb (x =? 0)) 0 false (-999999) WDuration conf_num) heap0;
  do iv2 <- new_interval (fst tb1) 7 14 (tb_default (fst tb1));
  do q3 <- count_periods (fst tb1) iv2 (mkFstr None AlD) DOn None;
  do tb4 <- build (mkArgs (mkFstr None AlH) (ts 2017 10 1 0 0 0) (ts 2017 10 6 0 0 0) (LOrg (DMarker (mkMarker (mkFstr None AlD) [from_start_of_each (DKw 0 0 0 0 2 0 0); from_start_of_each (DKw 0 0 0 0 8 0 0); from_start_of_each (DKw 0 0 0 0 18 0 0)])) [(LLab 1); (LLab 0)]) [] (fun x => negb (x =? 0)) 0 true (-999999) WDuration conf_num) heap0;
  do iv5 <- new_interval (fst tb4) 7 14 (tb_default (fst tb4));
  do q6 <- count_periods (fst tb4) iv5 (mkFstr None AlD) DOn None;
  Ok [((Qeq_bool q3 (3 # 1)));
       ((Qeq_bool q6 (5 # 2)))]) = true.
Proof. vm_compute. reflexivity. Qed.

(** test_intervals_compound.py:272 TestIntervalCompoundCountPeriodsWithLocsNotStraddling.test_ivl_compound_count_periods_many_float_right_duty_off *)
Example test_ivl_compound_count_periods_many_float_right_duty_off : passes (
  let heap0 : heap Z := [] in
  do tb1 <- build (mkArgs (mkFstr None AlH) (ts 2017 10 1 0 0 0) (ts 2017 10 6 0 0 0) (LOrg (DMarker (mkMarker (mkFstr None AlD) [from_start_of_each (DKw 0 0 0 0 2 0 0); from_start_of_each (DKw 0 0 0 0 8 0 0); from_start_of_each (DKw 0 0 0 0 18 0 0)])) [(LLab 1); (LLab 0)]) [] (fun x => negb (x =? 0)) 0 false (-999999) WDuration conf_num) heap0;
  do iv2 <- new_interval (fst tb1) 7 14 (tb_default (fst tb1));
  do q3 <- count_periods (fst tb1) iv2 (mkFstr None AlD) DOff None;
  do tb4 <- build (mkArgs (mkFstr None AlH) (ts 2017 10 1 0 0 0) (ts 2017 10 6 0 0 0) (LOrg (DMarker (mkMarker (mkFstr None AlD) [from_start_of_each (DKw 0 0 0 0 2 0 0); from_start_of_each (DKw 0 0 0 0 8 0 0); from_start_of_each (DKw 0 0 0 0 18 0 0)])) [(LLab 1); (LLab 0)]) [] (fun x => negb (x =? 0)) 0 true (-999999) WDuration conf_num) heap0;
  do iv5 <- new_interval (fst tb4) 7 14 (tb_default (fst tb4));
  do q6 <- count_periods (fst tb4) iv5 (mkFstr None AlD) DOff None;
  Ok [((Qeq_bool q3 (5 # 2)));
       ((Qeq_bool q6 (3 # 1)))]) = true.
Proof. vm_compute. reflexivity. Qed.

(** test_intervals_compound.py:280 TestIntervalCompoundCountPeriodsWithLocsNotStraddling.test_ivl_compound_count_periods_many_float_both_duty_any *)
Example test_ivl_compound_count_periods_many_float_both_duty_any : passes (
  let heap0 : heap Z := [] in
  do tb1 <- build (mkArgs (mkFstr None AlH) (ts 2017 10 1 0 0 0) (ts 2017 10 6 0 0 0) (LOrg (DMarker (mkMarker (mkFstr None AlD) [from_start_of_each (DKw 0 0 0 0 2 0 0); from_start_of_each (DKw 0 0 0 0 8 0 0); from_start_of_each (DKw 0 0 0 0 18 0 0)])) [(LLab 1); (LLab 0)]) [] (fun x => negb (x =? 0)) 0 false (-999999) WDuration conf_num) heap0;
  do iv2 <- new_interval (fst tb1) 7 14 (tb_default (fst tb1));
  do q3 <- count_periods (fst tb1) iv2 (mkFstr None AlD) DAny None;
  do tb4 <- build (mkArgs (mkFstr None AlH) (ts 2017 10 1 0 0 0) (ts 2017 10 6 0 0 0) (LOrg (DMarker (mkMarker (mkFstr None AlD) [from_start_of_each (DKw 0 0 0 0 2 0 0); from_start_of_each (DKw 0 0 0 0 8 0 0); from_start_of_each (DKw 0 0 0 0 18 0 0)])) [(LLab 1); (LLab 0)]) [] (fun x => negb (x =? 0)) 0 true (-999999) WDuration conf_num) heap0;
  do iv5 <- new_interval (fst tb4) 7 14 (tb_default (fst tb4));
  do q6 <- count_periods (fst tb4) iv5 (mkFstr None AlD) DAny None;
  Ok [((Qeq_bool q3 (8 # 3)));
       ((Qeq_bool q6 (8 # 3)))]) = true.
Proof. vm_compute. reflexivity. Qed.

(** test_intervals_compound.py:291 TestIntervalCompoundCountPeriodsWithLocsStraddling.test_ivl_compound_count_periods_straddle_float_left_duty_on *)
Example test_ivl_compound_count_periods_straddle_float_left_duty_on : passes (
  let heap0 : heap Z := [] in
  do tb1 <- build (mkArgs (mkFstr None AlH) (ts 2017 10 1 0 0 0) (ts 2017 10 6 0 0 0) (LOrg (DMarker (mkMarker (mkFstr None AlD) [from_start_of_each (DKw 0 0 0 0 2 0 0); from_start_of_each (DKw 0 0 0 0 8 0 0); from_start_of_each (DKw 0 0 0 0 18 0 0)])) [(LLab 1); (LLab 0)]) [] (fun x => negb (x =? 0)) 0 false (-999999) WDuration conf_num) heap0;
  do iv2 <- new_interval (fst tb1) 6 8 (tb_default (fst tb1));
  do q3 <- count_periods (fst tb1) iv2 (mkFstr None AlD) DOn None;
  do tb4 <- build (mkArgs (mkFstr None AlH) (ts 2017 10 1 0 0 0) (ts 2017 10 6 0 0 0) (LOrg (DMarker (mkMarker (mkFstr None AlD) [from_start_of_each (DKw 0 0 0 0 2 0 0); from_start_of_each (DKw 0 0 0 0 8 0 0); from_start_of_each (DKw 0 0 0 0 18 0 0)])) [(LLab 1); (LLab 0)]) [] (fun x => negb (x =? 0)) 0 true (-999999) WDuration conf_num) heap0;
  do iv5 <- new_interval (fst tb4) 6 8 (tb_default (fst tb4));
  do q6 <- count_periods (fst tb4) iv5 (mkFstr None AlD) DOn None;
  Ok [((Qeq_bool q3 (3 # 2)));
       ((Qeq_bool q6 (1 # 1)))]) = true.
Proof. vm_compute. reflexivity. Qed.

(** test_intervals_compound.py:299 TestIntervalCompoundCountPeriodsWithLocsStraddling.test_ivl_compound_count_periods_straddle_float_left_duty_off *)
Example test_ivl_compound_count_periods_straddle_float_left_duty_off : passes (
  let heap0 : heap Z := [] in
  do tb1 <- build (mkArgs (mkFstr None AlH) (ts 2017 10 1 0 0 0) (ts 2017 10 6 0 0 0) (LOrg (DMarker (mkMarker (mkFstr None AlD) [from_start_of_each (DKw 0 0 0 0 2 0 0); from_start_of_each (DKw 0 0 0 0 8 0 0); from_start_of_each (DKw 0 0 0 0 18 0 0)])) [(LLab 1); (LLab 0)]) [] (fun x => negb (x =? 0)) 0 false (-999999) WDuration conf_num) heap0;
  do iv2 <- new_interval (fst tb1) 9 11 (tb_default (fst tb1));
  do q3 <- count_periods (fst tb1) iv2 (mkFstr None AlD) DOff None;
  do tb4 <- build (mkArgs (mkFstr None AlH) (ts 2017 10 1 0 0 0) (ts 2017 10 6 0 0 0) (LOrg (DMarker (mkMarker (mkFstr None AlD) [from_start_of_each (DKw 0 0 0 0 2 0 0); from_start_of_each (DKw 0 0 0 0 8 0 0); from_start_of_each (DKw 0 0 0 0 18 0 0)])) [(LLab 1); (LLab 0)]) [] (fun x => negb (x =? 0)) 0 true (-999999) WDuration conf_num) heap0;
  do iv5 <- new_interval (fst tb4) 9 11 (tb_default (fst tb4));
  do q6 <- count_periods (fst tb4) iv5 (mkFstr None AlD) DOff None;
  Ok [((Qeq_bool q3 (3 # 2)));
       ((Qeq_bool q6 (1 # 1)))]) = true.
Proof. vm_compute. reflexivity. Qed.

(** test_intervals_compound.py:307 TestIntervalCompoundCountPeriodsWithLocsStraddling.test_ivl_compound_count_periods_straddle_float_right_duty_on *)
Example test_ivl_compound_count_periods_straddle_float_right_duty_on : passes (
  let heap0 : heap Z := [] in
  do tb1 <- build (mkArgs (mkFstr None AlH) (ts 2017 10 1 0 0 0) (ts 2017 10 6 0 0 0) (LOrg (DMarker (mkMarker (mkFstr None AlD) [from_start_of_each (DKw 0 0 0 0 2 0 0); from_start_of_each (DKw 0 0 0 0 8 0 0); from_start_of_each (DKw 0 0 0 0 18 0 0)])) [(LLab 1); (LLab 0)]) [] (fun x => negb (x =? 0)) 0 false (-999999) WDuration conf_num) heap0;
  do iv2 <- new_interval (fst tb1) 4 6 (tb_default (fst tb1));
  do q3 <- count_periods (fst tb1) iv2 (mkFstr None AlD) DOn None;
  do tb4 <- build (mkArgs (mkFstr None AlH) (ts 2017 10 1 0 0 0) (ts 2017 10 6 0 0 0) (LOrg (DMarker (mkMarker (mkFstr None AlD) [from_start_of_each (DKw 0 0 0 0 2 0 0); from_start_of_each (DKw 0 0 0 0 8 0 0); from_start_of_each (DKw 0 0 0 0 18 0 0)])) [(LLab 1); (LLab 0)]) [] (fun x => negb (x =? 0)) 0 true (-999999) WDuration conf_num) heap0;
  do iv5 <- new_interval (fst tb4) 4 6 (tb_default (fst tb4));
  do q6 <- count_periods (fst tb4) iv5 (mkFstr None AlD) DOn None;
  Ok [((Qeq_bool q3 (1 # 1)));
       ((Qeq_bool q6 (3 # 2)))]) = true.
Proof. vm_compute. reflexivity. Qed.

(** test_intervals_compound.py:315 TestIntervalCompoundCountPeriodsWithLocsStraddling.test_ivl_compound_count_periods_straddle_float_right_duty_off *)
Example test_ivl_compound_count_periods_straddle_float_right_duty_off : passes (
  let heap0 : heap Z := [] in
  do tb1 <- build (mkArgs (mkFstr None AlH) (ts 2017 10 1 0 0 0) (ts 2017 10 6 0 0 0) (LOrg (DMarker (mkMarker (mkFstr None AlD) [from_start_of_each (DKw 0 0 0 0 2 0 0); from_start_of_each (DKw 0 0 0 0 8 0 0); from_start_of_each (DKw 0 0 0 0 18 0 0)])) [(LLab 1); (LLab 0)]) [] (fun x => negb (x =? 0)) 0 false (-999999) WDuration conf_num) heap0;
  do iv2 <- new_interval (fst tb1) 7 9 (tb_default (fst tb1));
  do q3 <- count_periods (fst tb1) iv2 (mkFstr None AlD) DOff None;
  do tb4 <- build (mkArgs (mkFstr None AlH) (ts 2017 10 1 0 0 0) (ts 2017 10 6 0 0 0) (LOrg (DMarker (mkMarker (mkFstr None AlD) [from_start_of_each (DKw 0 0 0 0 2 0 0); from_start_of_each (DKw 0 0 0 0 8 0 0); from_start_of_each (DKw 0 0 0 0 18 0 0)])) [(LLab 1); (LLab 0)]) [] (fun x => negb (x =? 0)) 0 true (-999999) WDuration conf_num) heap0;
  do iv5 <- new_interval (fst tb4) 7 9 (tb_default (fst tb4));
  do q6 <- count_periods (fst tb4) iv5 (mkFstr None AlD) DOff None;
  Ok [((Qeq_bool q3 (1 # 1)));
       ((Qeq_bool q6 (3 # 2)))]) = true.
Proof. vm_compute. reflexivity. Qed.

(** test_intervals_compound.py:323 TestIntervalCompoundCountPeriodsWithLocsStraddling.test_ivl_compound_count_periods_many_straddle_both_ends_duty_on *)
Example test_ivl_compound_count_periods_many_straddle_both_ends_duty_on : passes (
  let heap0 : heap Z := [] in
  do tb1 <- build (mkArgs (mkFstr None AlH) (ts 2017 10 1 0 0 0) (ts 2017 10 6 0 0 0) (LOrg (DMarker (mkMarker (mkFstr None AlD) [from_start_of_each (DKw 0 0 0 0 2 0 0); from_start_of_each (DKw 0 0 0 0 8 0 0); from_start_of_each (DKw 0 0 0 0 18 0 0)])) [(LLab 1); (LLab 0)]) [] (fun x => negb (x =? 0)) 0 false (-999999) WDuration conf_num) heap0;
  do iv2 <- new_interval (fst tb1) 3 12 (tb_default (fst tb1));
  do q3 <- count_periods (fst tb1) iv2 (mkFstr None AlD) DOn None;
  do tb4 <- build (mkArgs (mkFstr None AlH) (ts 2017 10 1 0 0 0) (ts 2017 10 6 0 0 0) (LOrg (DMarker (mkMarker (mkFstr None AlD) [from_start_of_each (DKw 0 0 0 0 2 0 0); from_start_of_each (DKw 0 0 0 0 8 0 0); from_start_of_each (DKw 0 0 0 0 18 0 0)])) [(LLab 1); (LLab 0)]) [] (fun x => negb (x =? 0)) 0 true (-999999) WDuration conf_num) heap0;
  do iv5 <- new_interval (fst tb4) 3 12 (tb_default (fst tb4));
  do q6 <- count_periods (fst tb4) iv5 (mkFstr None AlD) DOn None;
  Ok [((Qeq_bool q3 (3 # 1)));
       ((Qeq_bool q6 (7 # 2)))]) = true.
Proof. vm_compute. reflexivity. Qed.

(** test_intervals_compound.py:331 TestIntervalCompoundCountPeriodsWithLocsStraddling.test_ivl_compound_count_periods_many_straddle_both_ends_duty_off *)
Example test_ivl_compound_count_periods_many_straddle_both_ends_duty_off : passes (
  let heap0 : heap Z := [] in
  do tb1 <- build (mkArgs (mkFstr None AlH) (ts 2017 10 1 0 0 0) (ts 2017 10 6 0 0 0) (LOrg (DMarker (mkMarker (mkFstr None AlD) [from_start_of_each (DKw 0 0 0 0 2 0 0); from_start_of_each (DKw 0 0 0 0 8 0 0); from_start_of_each (DKw 0 0 0 0 18 0 0)])) [(LLab 1); (LLab 0)]) [] (fun x => negb (x =? 0)) 0 false (-999999) WDuration conf_num) heap0;
  do iv2 <- new_interval (fst tb1) 3 12 (tb_default (fst tb1));
  do q3 <- count_periods (fst tb1) iv2 (mkFstr None AlD) DOff None;
  do tb4 <- build (mkArgs (mkFstr None AlH) (ts 2017 10 1 0 0 0) (ts 2017 10 6 0 0 0) (LOrg (DMarker (mkMarker (mkFstr None AlD) [from_start_of_each (DKw 0 0 0 0 2 0 0); from_start_of_each (DKw 0 0 0 0 8 0 0); from_start_of_each (DKw 0 0 0 0 18 0 0)])) [(LLab 1); (LLab 0)]) [] (fun x => negb (x =? 0)) 0 true (-999999) WDuration conf_num) heap0;
  do iv5 <- new_interval (fst tb4) 3 12 (tb_default (fst tb4));
  do q6 <- count_periods (fst tb4) iv5 (mkFstr None AlD) DOff None;
  Ok [((Qeq_bool q3 (7 # 2)));
       ((Qeq_bool q6 (3 # 1)))]) = true.
Proof. vm_compute. reflexivity. Qed.

(** test_intervals_compound.py:339 TestIntervalCompoundCountPeriodsWithLocsStraddling.test_ivl_compound_count_periods_many_straddle_both_ends_duty_any *)
Example test_ivl_compound_count_periods_many_straddle_both_ends_duty_any : passes (
  let heap0 : heap Z := [] in
  do tb1 <- build (mkArgs (mkFstr None AlH) (ts 2017 10 1 0 0 0) (ts 2017 10 6 0 0 0) (LOrg (DMarker (mkMarker (mkFstr None AlD) [from_start_of_each (DKw 0 0 0 0 2 0 0); from_start_of_each (DKw 0 0 0 0 8 0 0); from_start_of_each (DKw 0 0 0 0 18 0 0)])) [(LLab 1); (LLab 0)]) [] (fun x => negb (x =? 0)) 0 false (-999999) WDuration conf_num) heap0;
  do iv2 <- new_interval (fst tb1) 3 12 (tb_default (fst tb1));
  do q3 <- count_periods (fst tb1) iv2 (mkFstr None AlD) DAny None;
  do tb4 <- build (mkArgs (mkFstr None AlH) (ts 2017 10 1 0 0 0) (ts 2017 10 6 0 0 0) (LOrg (DMarker (mkMarker (mkFstr None AlD) [from_start_of_each (DKw 0 0 0 0 2 0 0); from_start_of_each (DKw 0 0 0 0 8 0 0); from_start_of_each (DKw 0 0 0 0 18 0 0)])) [(LLab 1); (LLab 0)]) [] (fun x => negb (x =? 0)) 0 true (-999999) WDuration conf_num) heap0;
  do iv5 <- new_interval (fst tb4) 3 12 (tb_default (fst tb4));
  do q6 <- count_periods (fst tb4) iv5 (mkFstr None AlD) DAny None;
  do q7 <- count_periods (fst tb4) iv5 (mkFstr None AlD) DAny None;
  Ok [((Qeq_bool q3 (13 # 4)));
       ((negb (Qle_bool q6 (8333 # 2500))));
       ((negb (Qle_bool (16667 # 5000) q7)))]) = true.
Proof. vm_compute. reflexivity. Qed.

(** test_intervals_compound.py:351 TestIntervalCompoundCountPeriodsOOB.test_ivl_compound_count_periods_OOB *)
Example test_ivl_compound_count_periods_OOB : passes (
  let heap0 : heap Z := [] in
  do tb1 <- build (mkArgs (mkFstr None AlH) (ts 2017 10 1 0 0 0) (ts 2017 10 6 0 0 0) (LOrg (DMarker (mkMarker (mkFstr None AlD) [from_start_of_each (DKw 0 0 0 0 2 0 0); from_start_of_each (DKw 0 0 0 0 8 0 0); from_start_of_each (DKw 0 0 0 0 18 0 0)])) [(LLab 1); (LLab 0)]) [] (fun x => negb (x =? 0)) 0 false (-999999) WDuration conf_num) heap0;
  do iv2 <- new_interval (fst tb1) 0 2 (tb_default (fst tb1));
  Ok [raises [EPartialOutOfBounds] (do q3 <- count_periods (fst tb1) iv2 (mkFstr None (AlW None)) DOn None; Ok tt)]) = true.
Proof. vm_compute. reflexivity. Qed.

(** test_intervals_compound.py:357 TestIntervalCompoundCountPeriodsOOB.test_ivl_compound_count_periods_OOB_floating *)
Example test_ivl_compound_count_periods_OOB_floating : passes (
  let heap0 : heap Z := [] in
  do tb1 <- build (mkArgs (mkFstr None AlH) (ts 2017 10 1 0 0 0) (ts 2017 10 6 0 0 0) (LOrg (DMarker (mkMarker (mkFstr None AlD) [from_start_of_each (DKw 0 0 0 0 2 0 0); from_start_of_each (DKw 0 0 0 0 8 0 0); from_start_of_each (DKw 0 0 0 0 18 0 0)])) [(LLab 1); (LLab 0)]) [] (fun x => negb (x =? 0)) 0 false (-999999) WDuration conf_num) heap0;
  do iv2 <- new_interval (fst tb1) 14 15 (tb_default (fst tb1));
  do q3 <- count_periods (fst tb1) iv2 (mkFstr None AlD) DOff None;
  do tb4 <- build (mkArgs (mkFstr None AlH) (ts 2017 10 1 0 0 0) (ts 2017 10 6 0 0 0) (LOrg (DMarker (mkMarker (mkFstr None AlD) [from_start_of_each (DKw 0 0 0 0 2 0 0); from_start_of_each (DKw 0 0 0 0 8 0 0); from_start_of_each (DKw 0 0 0 0 18 0 0)])) [(LLab 1); (LLab 0)]) [] (fun x => negb (x =? 0)) 0 true (-999999) WDuration conf_num) heap0;
  do iv5 <- new_interval (fst tb4) 14 15 (tb_default (fst tb4));
  Ok [((Qeq_bool q3 (1 # 2)));
       raises [EPartialOutOfBounds] (do q6 <- count_periods (fst tb4) iv5 (mkFstr None AlD) DOff None; Ok tt)]) = true.
Proof. vm_compute. reflexivity. Qed.

(** test_intervals_compound.py:369 TestIntervalCompoundTotalDuration.test_ivl_compound_total_dur *)
Example test_ivl_compound_total_dur : passes (
  let heap0 : heap Z := [] in
  do tb1 <- build (mkArgs (mkFstr None AlH) (ts 2017 10 1 0 0 0) (ts 2017 10 6 0 0 0) (LOrg (DMarker (mkMarker (mkFstr None AlD) [from_start_of_each (DKw 0 0 0 0 2 0 0); from_start_of_each (DKw 0 0 0 0 8 0 0); from_start_of_each (DKw 0 0 0 0 18 0 0)])) [(LLab 1); (LLab 0)]) [] (fun x => negb (x =? 0)) 0 false (-999999) WDuration conf_num) heap0;
  do iv2 <- new_interval (fst tb1) 2 8 (tb_default (fst tb1));
  do n3 <- total_duration (fst tb1) iv2 DOn None;
  do n4 <- total_duration (fst tb1) iv2 DOff None;
  do n5 <- total_duration (fst tb1) iv2 DAny None;
  Ok [((n3 =? 34));
       ((n4 =? 24));
       ((n5 =? 58))]) = true.
Proof. vm_compute. reflexivity. Qed.

(** test_intervals_compound.py:376 TestIntervalCompoundTotalDuration.test_ivl_compound_total_dur_other_schedule *)
Example test_ivl_compound_total_dur_other_schedule : passes (
  let heap0 : heap Z := [] in
  do tb1 <- build (mkArgs (mkFstr None AlH) (ts 2017 10 1 0 0 0) (ts 2017 10 6 0 0 0) (LOrg (DMarker (mkMarker (mkFstr None AlD) [from_start_of_each (DKw 0 0 0 0 2 0 0); from_start_of_each (DKw 0 0 0 0 8 0 0); from_start_of_each (DKw 0 0 0 0 18 0 0)])) [(LLab 1); (LLab 0)]) [] (fun x => negb (x =? 0)) 0 false (-999999) WDuration conf_num) heap0;
  do r2 <- add_schedule (fst tb1) 1 (fun x => ((x >? 1)));
  do iv3 <- new_interval (fst r2) 2 8 (tb_default (fst r2));
  do n4 <- total_duration (fst r2) iv3 DOn (Some (snd r2));
  do n5 <- total_duration (fst r2) iv3 DOff (Some (snd r2));
  do n6 <- total_duration (fst r2) iv3 DAny (Some (snd r2));
  Ok [((n4 =? 0));
       ((n5 =? 58));
       ((n6 =? 58))]) = true.
Proof. vm_compute. reflexivity. Qed.

(** test_intervals_compound.py:384 TestIntervalCompoundTotalDuration.test_ivl_compound_total_dur_other_schedule2 *)
Example test_ivl_compound_total_dur_other_schedule2 : passes (
  let heap0 : heap Z := [] in
  do tb1 <- build (mkArgs (mkFstr None AlH) (ts 2017 10 1 0 0 0) (ts 2017 10 6 0 0 0) (LOrg (DMarker (mkMarker (mkFstr None AlD) [from_start_of_each (DKw 0 0 0 0 2 0 0); from_start_of_each (DKw 0 0 0 0 8 0 0); from_start_of_each (DKw 0 0 0 0 18 0 0)])) [(LLab 1); (LLab 0)]) [] (fun x => negb (x =? 0)) 0 false (-999999) WDuration conf_num) heap0;
  do r2 <- add_schedule (fst tb1) 1 (fun x => ((x >? (-1))));
  do iv3 <- new_interval (fst r2) 2 8 (snd r2);
  do n4 <- total_duration (fst r2) iv3 DOn None;
  do n5 <- total_duration (fst r2) iv3 DOff None;
  do n6 <- total_duration (fst r2) iv3 DAny None;
  Ok [((n4 =? 58));
       ((n5 =? 0));
       ((n6 =? 58))]) = true.
Proof. vm_compute. reflexivity. Qed.

(** test_intervals_compound.py:395 TestIntervalCompoundWorkTime.test_ivl_compound_worktime_default *)
Example test_ivl_compound_worktime_default : passes (
  let heap0 : heap Z := [] in
  do tb1 <- build (mkArgs (mkFstr None AlH) (ts 2017 10 1 0 0 0) (ts 2017 10 6 0 0 0) (LOrg (DMarker (mkMarker (mkFstr None AlD) [from_start_of_each (DKw 0 0 0 0 2 0 0); from_start_of_each (DKw 0 0 0 0 8 0 0); from_start_of_each (DKw 0 0 0 0 18 0 0)])) [(LLab 1); (LLab 0)]) [] (fun x => negb (x =? 0)) 0 false (-999999) WDuration conf_num) heap0;
  do iv2 <- new_interval (fst tb1) 2 8 (tb_default (fst tb1));
  do q3 <- iv_worktime (fst tb1) iv2 DOn None;
  do q4 <- iv_worktime (fst tb1) iv2 DOff None;
  do q5 <- iv_worktime (fst tb1) iv2 DAny None;
  Ok [((Qeq_bool q3 (34 # 1)));
       ((Qeq_bool q4 (24 # 1)));
       ((Qeq_bool q5 (58 # 1)))]) = true.
Proof. vm_compute. reflexivity. Qed.

(** test_intervals_compound.py:402 TestIntervalCompoundWorkTime.test_ivl_compound_worktime_in_labels *)
Example test_ivl_compound_worktime_in_labels : passes (
  let heap0 : heap Z := [] in
  do tb1 <- build (mkArgs (mkFstr None AlH) (ts 2017 10 1 0 0 0) (ts 2017 10 6 0 0 0) (LOrg (DMarker (mkMarker (mkFstr None AlD) [from_start_of_each (DKw 0 0 0 0 2 0 0); from_start_of_each (DKw 0 0 0 0 8 0 0); from_start_of_each (DKw 0 0 0 0 18 0 0)])) [(LLab 1); (LLab 0)]) [] (fun x => negb (x =? 0)) 0 false (-999999) WLabels conf_num) heap0;
  do iv2 <- new_interval (fst tb1) 2 8 (tb_default (fst tb1));
  do q3 <- iv_worktime (fst tb1) iv2 DOn None;
  do q4 <- iv_worktime (fst tb1) iv2 DOff None;
  do q5 <- iv_worktime (fst tb1) iv2 DAny None;
  Ok [((Qeq_bool q3 (4 # 1)));
       ((Qeq_bool q4 (0 # 1)));
       ((Qeq_bool q5 (4 # 1)))]) = true.
Proof. vm_compute. reflexivity. Qed.

(** test_intervals_compound.py:410 TestIntervalCompoundWorkTime.test_ivl_compound_worktime_in_labels_other_schedule *)
Example test_ivl_compound_worktime_in_labels_other_schedule : passes (
  let heap0 : heap Z := [] in
  do tb1 <- build (mkArgs (mkFstr None AlH) (ts 2017 10 1 0 0 0) (ts 2017 10 6 0 0 0) (LOrg (DMarker (mkMarker (mkFstr None AlD) [from_start_of_each (DKw 0 0 0 0 2 0 0); from_start_of_each (DKw 0 0 0 0 8 0 0); from_start_of_each (DKw 0 0 0 0 18 0 0)])) [(LLab 1); (LLab 0)]) [] (fun x => negb (x =? 0)) 0 false (-999999) WLabels conf_num) heap0;
  do r2 <- add_schedule (fst tb1) 1 (fun x => ((x >? 1)));
  do iv3 <- new_interval (fst r2) 2 8 (tb_default (fst r2));
  do q4 <- iv_worktime (fst r2) iv3 DOn (Some (snd r2));
  do q5 <- iv_worktime (fst r2) iv3 DOff (Some (snd r2));
  do q6 <- iv_worktime (fst r2) iv3 DAny (Some (snd r2));
  Ok [((Qeq_bool q4 (0 # 1)));
       ((Qeq_bool q5 (4 # 1)));
       ((Qeq_bool q6 (4 # 1)))]) = true.
Proof. vm_compute. reflexivity. Qed.
