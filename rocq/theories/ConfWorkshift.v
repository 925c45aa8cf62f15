(** ConfWorkshift: /repo/timeboard/tests/test_workshift.py as examples about the model.
    Written by tools/tests2coq.py. *)
From Verif Require Api.
From Verif Require Import Base Civil Freq Frame Timeline Board When ConfBase.
From Coq Require Import QArith String.
Open Scope Z_scope.

(** test_workshift.py:20 TestWorkshiftConstructor.test_locate *)
Example test_locate : passes (
  let heap0 : heap Z := [] in
  do tb1 <- build (mkArgs (mkFstr None AlD) (ts 2016 12 31 0 0 0) (ts 2017 1 12 0 0 0) (LPat (PList [0; 1; 0; 0; 2; 0])) [] (fun x => negb (x =? 0)) 0 false (-999999) WDuration conf_num) heap0;
  do loc2 <- locate (fst tb1) (ts 2017 1 4 0 0 0) ByNone;
  Ok [((loc_eqb loc2 (mkLoc (Some 4) LOC_WITHIN)))]) = true.
Proof. vm_compute. reflexivity. Qed.

(** test_workshift.py:25 TestWorkshiftConstructor.test_locate_outside *)
Example test_locate_outside : passes (
  let heap0 : heap Z := [] in
  do tb1 <- build (mkArgs (mkFstr None AlD) (ts 2016 12 31 0 0 0) (ts 2017 1 12 0 0 0) (LPat (PList [0; 1; 0; 0; 2; 0])) [] (fun x => negb (x =? 0)) 0 false (-999999) WDuration conf_num) heap0;
  do loc2 <- locate (fst tb1) (ts 2017 1 13 0 0 0) ByNone;
  do loc3 <- locate (fst tb1) (ts 2016 12 30 0 0 0) ByNone;
  Ok [((loc_eqb loc2 (mkLoc None OOB_RIGHT)));
       ((loc_eqb loc3 (mkLoc None OOB_LEFT)))]) = true.
Proof. vm_compute. reflexivity. Qed.

(** test_workshift.py:32 TestWorkshiftConstructor.test_locate_bad_ts *)
Example test_locate_bad_ts : passes (
  let heap0 : heap Z := [] in
  do tb1 <- build (mkArgs (mkFstr None AlD) (ts 2016 12 31 0 0 0) (ts 2017 1 12 0 0 0) (LPat (PList [0; 1; 0; 0; 2; 0])) [] (fun x => negb (x =? 0)) 0 false (-999999) WDuration conf_num) heap0;
  Ok [raises [EValue] (do loc2 <- Api.locate_any conf_nat (fst tb1) (Api.PVal Api.VText); Ok tt);
       raises [EValue] (do loc3 <- Api.locate_any conf_nat (fst tb1) (Api.PVal Api.VText); Ok tt)]) = true.
Proof. vm_compute. reflexivity. Qed.

(** test_workshift.py:40 TestWorkshiftConstructor.test_workshift_constructor *)
Example test_workshift_constructor : passes (
  let heap0 : heap Z := [] in
  do tb1 <- build (mkArgs (mkFstr None AlD) (ts 2016 12 31 0 0 0) (ts 2017 1 12 0 0 0) (LPat (PList [0; 1; 0; 0; 2; 0])) [] (fun x => negb (x =? 0)) 0 false (-999999) WDuration conf_num) heap0;
  do w2 <- get_workshift (fst tb1) (ts 2017 1 4 0 0 0) None;
  do t3 <- ws_start_time (tb_tl (fst tb1)) (ws_loc w2);
  do t4 <- ws_end_time (tb_tl (fst tb1)) (ws_loc w2);
  do t5 <- ws_end_time (tb_tl (fst tb1)) (ws_loc w2);
  do b6 <- is_on_duty (fst tb1) w2 (ws_sched w2);
  do b7 <- is_off_duty (fst tb1) w2 (ws_sched w2);
  do n8 <- ws_duration (tb_tl (fst tb1)) (ws_loc w2);
  do w9 <- get_workshift (fst tb1) (ts 2017 1 4 0 0 0) None;
  Ok [(((ws_loc w2) =? 4));
       ((t3 =? (ts 2017 1 4 0 0 0)));
       ((t4 >? (ts 2017 1 4 23 59 59)));
       ((t5 <? (ts 2017 1 5 0 0 0)));
       (((ws_label w2) =? 2));
       ((sched_eqb (ws_sched w2) (tb_default (fst tb1))));
       b6;
       (negb b7);
       ((n8 =? 1));
       (((ws_loc w9) =? (ws_loc w2)))]) = true.
Proof. vm_compute. reflexivity. Qed.

(** test_workshift.py:56 TestWorkshiftConstructor.test_workshift_constructor_from_ts *)
Example test_workshift_constructor_from_ts : passes (
  let heap0 : heap Z := [] in
  do tb1 <- build (mkArgs (mkFstr None AlD) (ts 2016 12 31 0 0 0) (ts 2017 1 12 0 0 0) (LPat (PList [0; 1; 0; 0; 2; 0])) [] (fun x => negb (x =? 0)) 0 false (-999999) WDuration conf_num) heap0;
  do w2 <- get_workshift (fst tb1) (ts 2017 1 4 15 0 0) None;
  do t3 <- ws_start_time (tb_tl (fst tb1)) (ws_loc w2);
  do t4 <- ws_end_time (tb_tl (fst tb1)) (ws_loc w2);
  do t5 <- ws_end_time (tb_tl (fst tb1)) (ws_loc w2);
  do b6 <- is_on_duty (fst tb1) w2 (ws_sched w2);
  do b7 <- is_off_duty (fst tb1) w2 (ws_sched w2);
  do n8 <- ws_duration (tb_tl (fst tb1)) (ws_loc w2);
  do w9 <- get_workshift (fst tb1) (ts 2017 1 4 15 0 0) None;
  Ok [(((ws_loc w2) =? 4));
       ((t3 =? (ts 2017 1 4 0 0 0)));
       ((t4 >? (ts 2017 1 4 23 59 59)));
       ((t5 <? (ts 2017 1 5 0 0 0)));
       (((ws_label w2) =? 2));
       ((sched_eqb (ws_sched w2) (tb_default (fst tb1))));
       b6;
       (negb b7);
       ((n8 =? 1));
       (((ws_loc w9) =? (ws_loc w2)))]) = true.
Proof. vm_compute. reflexivity. Qed.

(** test_workshift.py:72 TestWorkshiftConstructor.test_workshift_constructor_from_datetime *)
Example test_workshift_constructor_from_datetime : passes (
  let heap0 : heap Z := [] in
  do tb1 <- build (mkArgs (mkFstr None AlD) (ts 2016 12 31 0 0 0) (ts 2017 1 12 0 0 0) (LPat (PList [0; 1; 0; 0; 2; 0])) [] (fun x => negb (x =? 0)) 0 false (-999999) WDuration conf_num) heap0;
  do w2 <- get_workshift (fst tb1) (ts 2017 1 4 15 0 0) None;
  do t3 <- ws_start_time (tb_tl (fst tb1)) (ws_loc w2);
  do t4 <- ws_end_time (tb_tl (fst tb1)) (ws_loc w2);
  do t5 <- ws_end_time (tb_tl (fst tb1)) (ws_loc w2);
  do b6 <- is_on_duty (fst tb1) w2 (ws_sched w2);
  do b7 <- is_off_duty (fst tb1) w2 (ws_sched w2);
  do n8 <- ws_duration (tb_tl (fst tb1)) (ws_loc w2);
  do w9 <- get_workshift (fst tb1) (ts 2017 1 4 15 0 0) None;
  Ok [(((ws_loc w2) =? 4));
       ((t3 =? (ts 2017 1 4 0 0 0)));
       ((t4 >? (ts 2017 1 4 23 59 59)));
       ((t5 <? (ts 2017 1 5 0 0 0)));
       (((ws_label w2) =? 2));
       ((sched_eqb (ws_sched w2) (tb_default (fst tb1))));
       b6;
       (negb b7);
       ((n8 =? 1));
       (((ws_loc w9) =? (ws_loc w2)))]) = true.
Proof. vm_compute. reflexivity. Qed.

(** test_workshift.py:88 TestWorkshiftConstructor.test_workshift_constructor_from_pd_period *)
Example test_workshift_constructor_from_pd_period : passes (
  let heap0 : heap Z := [] in
  do tb1 <- build (mkArgs (mkFstr None AlD) (ts 2016 12 31 0 0 0) (ts 2017 1 12 0 0 0) (LPat (PList [0; 1; 0; 0; 2; 0])) [] (fun x => negb (x =? 0)) 0 false (-999999) WDuration conf_num) heap0;
  do w2 <- get_workshift (fst tb1) (p_start (period_at (ts 2017 1 5 0 0 0) (mkFstr None (AlW None)))) None;
  do t3 <- ws_start_time (tb_tl (fst tb1)) (ws_loc w2);
  do t4 <- ws_end_time (tb_tl (fst tb1)) (ws_loc w2);
  do t5 <- ws_end_time (tb_tl (fst tb1)) (ws_loc w2);
  do b6 <- is_on_duty (fst tb1) w2 (ws_sched w2);
  do b7 <- is_off_duty (fst tb1) w2 (ws_sched w2);
  do n8 <- ws_duration (tb_tl (fst tb1)) (ws_loc w2);
  do w9 <- get_workshift (fst tb1) (p_start (period_at (ts 2017 1 5 0 0 0) (mkFstr None (AlW None)))) None;
  Ok [(((ws_loc w2) =? 2));
       ((t3 =? (ts 2017 1 2 0 0 0)));
       ((t4 >? (ts 2017 1 2 23 59 59)));
       ((t5 <? (ts 2017 1 3 0 0 0)));
       (((ws_label w2) =? 0));
       ((sched_eqb (ws_sched w2) (tb_default (fst tb1))));
       (negb b6);
       b7;
       ((n8 =? 1));
       (((ws_loc w9) =? (ws_loc w2)))]) = true.
Proof. vm_compute. reflexivity. Qed.

(** test_workshift.py:105 TestWorkshiftConstructor.test_workshift_constructor_date_outside *)
Example test_workshift_constructor_date_outside : passes (
  let heap0 : heap Z := [] in
  do tb1 <- build (mkArgs (mkFstr None AlD) (ts 2016 12 31 0 0 0) (ts 2017 1 12 0 0 0) (LPat (PList [0; 1; 0; 0; 2; 0])) [] (fun x => negb (x =? 0)) 0 false (-999999) WDuration conf_num) heap0;
  Ok [raises [EOutOfBounds] (do w2 <- get_workshift (fst tb1) (ts 2017 1 14 0 0 0) None; Ok tt)]) = true.
Proof. vm_compute. reflexivity. Qed.

(** test_workshift.py:110 TestWorkshiftConstructor.test_direct_workshift_constructor *)
Example test_direct_workshift_constructor : passes (
  let heap0 : heap Z := [] in
  do tb1 <- build (mkArgs (mkFstr None AlD) (ts 2016 12 31 0 0 0) (ts 2017 1 12 0 0 0) (LPat (PList [0; 1; 0; 0; 2; 0])) [] (fun x => negb (x =? 0)) 0 false (-999999) WDuration conf_num) heap0;
  do w2 <- new_workshift (fst tb1) 4 (tb_default (fst tb1));
  do t3 <- ws_start_time (tb_tl (fst tb1)) (ws_loc w2);
  do t4 <- ws_end_time (tb_tl (fst tb1)) (ws_loc w2);
  do t5 <- ws_end_time (tb_tl (fst tb1)) (ws_loc w2);
  do b6 <- is_on_duty (fst tb1) w2 (ws_sched w2);
  do b7 <- is_off_duty (fst tb1) w2 (ws_sched w2);
  do n8 <- ws_duration (tb_tl (fst tb1)) (ws_loc w2);
  Ok [(((ws_loc w2) =? 4));
       ((t3 =? (ts 2017 1 4 0 0 0)));
       ((t4 >? (ts 2017 1 4 23 59 59)));
       ((t5 <? (ts 2017 1 5 0 0 0)));
       (((ws_label w2) =? 2));
       ((sched_eqb (ws_sched w2) (tb_default (fst tb1))));
       b6;
       (negb b7);
       ((n8 =? 1))]) = true.
Proof. vm_compute. reflexivity. Qed.

(** test_workshift.py:138 TestRollForward.test_rollforward_trivial_0_to_self *)
Example test_rollforward_trivial_0_to_self : passes (
  let heap0 : heap Z := [] in
  do tb1 <- build (mkArgs (mkFstr None AlD) (ts 2016 12 31 0 0 0) (ts 2017 1 12 0 0 0) (LPat (PList [0; 1; 0; 0; 2; 0])) [] (fun x => negb (x =? 0)) 0 false (-999999) WDuration conf_num) heap0;
  do w2 <- get_workshift (fst tb1) (ts 2017 1 4 0 0 0) None;
  do w3 <- rollforward (fst tb1) w2 0 DOn None;
  Ok [(((ws_loc w3) =? 4))]) = true.
Proof. vm_compute. reflexivity. Qed.

(** test_workshift.py:145 TestRollForward.test_rollforward_trivial_0_to_next *)
Example test_rollforward_trivial_0_to_next : passes (
  let heap0 : heap Z := [] in
  do tb1 <- build (mkArgs (mkFstr None AlD) (ts 2016 12 31 0 0 0) (ts 2017 1 12 0 0 0) (LPat (PList [0; 1; 0; 0; 2; 0])) [] (fun x => negb (x =? 0)) 0 false (-999999) WDuration conf_num) heap0;
  do w2 <- get_workshift (fst tb1) (ts 2016 12 31 0 0 0) None;
  do w3 <- rollforward (fst tb1) w2 0 DOn None;
  Ok [(((ws_loc w3) =? 1))]) = true.
Proof. vm_compute. reflexivity. Qed.

(** test_workshift.py:151 TestRollForward.test_rollforward_on_0 *)
Example test_rollforward_on_0 : passes (
  let heap0 : heap Z := [] in
  do tb1 <- build (mkArgs (mkFstr None AlD) (ts 2016 12 31 0 0 0) (ts 2017 1 12 0 0 0) (LPat (PList [0; 1; 0; 0; 2; 0])) [] (fun x => negb (x =? 0)) 0 false (-999999) WDuration conf_num) heap0;
  do w2 <- get_workshift (fst tb1) (ts 2017 1 1 0 0 0) None;
  do w3 <- rollforward (fst tb1) w2 0 DOn None;
  do w4 <- rollforward (fst tb1) w2 0 DOff None;
  do w5 <- rollforward (fst tb1) w2 0 DSame None;
  do w6 <- rollforward (fst tb1) w2 0 DAlt None;
  do w7 <- rollforward (fst tb1) w2 0 DAny None;
  Ok [((((ws_loc w3) =? 1) && ((ws_loc w4) =? 2) && ((ws_loc w5) =? 1) && ((ws_loc w6) =? 2) && ((ws_loc w7) =? 1)))]) = true.
Proof. vm_compute. reflexivity. Qed.

(** test_workshift.py:159 TestRollForward.test_rollforward_off_0 *)
Example test_rollforward_off_0 : passes (
  let heap0 : heap Z := [] in
  do tb1 <- build (mkArgs (mkFstr None AlD) (ts 2016 12 31 0 0 0) (ts 2017 1 12 0 0 0) (LPat (PList [0; 1; 0; 0; 2; 0])) [] (fun x => negb (x =? 0)) 0 false (-999999) WDuration conf_num) heap0;
  do w2 <- get_workshift (fst tb1) (ts 2017 1 2 0 0 0) None;
  do w3 <- rollforward (fst tb1) w2 0 DOn None;
  do w4 <- rollforward (fst tb1) w2 0 DOff None;
  do w5 <- rollforward (fst tb1) w2 0 DSame None;
  do w6 <- rollforward (fst tb1) w2 0 DAlt None;
  do w7 <- rollforward (fst tb1) w2 0 DAny None;
  Ok [((((ws_loc w3) =? 4) && ((ws_loc w4) =? 2) && ((ws_loc w5) =? 2) && ((ws_loc w6) =? 4) && ((ws_loc w7) =? 2)))]) = true.
Proof. vm_compute. reflexivity. Qed.

(** test_workshift.py:167 TestRollForward.test_rollforward_off_0_after_last_on_element *)
Example test_rollforward_off_0_after_last_on_element : passes (
  let heap0 : heap Z := [] in
  do tb1 <- build (mkArgs (mkFstr None AlD) (ts 2016 12 31 0 0 0) (ts 2017 1 12 0 0 0) (LPat (PList [0; 1; 0; 0; 2; 0])) [] (fun x => negb (x =? 0)) 0 false (-999999) WDuration conf_num) heap0;
  do w2 <- get_workshift (fst tb1) (ts 2017 1 11 0 0 0) None;
  do w3 <- rollforward (fst tb1) w2 0 DOff None;
  do w4 <- rollforward (fst tb1) w2 0 DAny None;
  Ok [(((ws_loc w3) =? 11));
       (((ws_loc w4) =? 11));
       raises [EOutOfBounds] (do w5 <- rollforward (fst tb1) w2 0 DOn None; Ok tt)]) = true.
Proof. vm_compute. reflexivity. Qed.

(** test_workshift.py:175 TestRollForward.test_rollforward_on_n *)
Example test_rollforward_on_n : passes (
  let heap0 : heap Z := [] in
  do tb1 <- build (mkArgs (mkFstr None AlD) (ts 2016 12 31 0 0 0) (ts 2017 1 12 0 0 0) (LPat (PList [0; 1; 0; 0; 2; 0])) [] (fun x => negb (x =? 0)) 0 false (-999999) WDuration conf_num) heap0;
  do w2 <- get_workshift (fst tb1) (ts 2017 1 4 0 0 0) None;
  do w3 <- rollforward (fst tb1) w2 2 DOn None;
  do w4 <- rollforward (fst tb1) w2 2 DOff None;
  do w5 <- rollforward (fst tb1) w2 2 DSame None;
  do w6 <- rollforward (fst tb1) w2 2 DAlt None;
  do w7 <- rollforward (fst tb1) w2 2 DAny None;
  Ok [((((ws_loc w3) =? 10) && ((ws_loc w4) =? 8) && ((ws_loc w5) =? 10) && ((ws_loc w6) =? 8) && ((ws_loc w7) =? 6)))]) = true.
Proof. vm_compute. reflexivity. Qed.

(** test_workshift.py:183 TestRollForward.test_rollforward_off_n *)
Example test_rollforward_off_n : passes (
  let heap0 : heap Z := [] in
  do tb1 <- build (mkArgs (mkFstr None AlD) (ts 2016 12 31 0 0 0) (ts 2017 1 12 0 0 0) (LPat (PList [0; 1; 0; 0; 2; 0])) [] (fun x => negb (x =? 0)) 0 false (-999999) WDuration conf_num) heap0;
  do w2 <- get_workshift (fst tb1) (ts 2017 1 3 0 0 0) None;
  do w3 <- rollforward (fst tb1) w2 2 DOn None;
  do w4 <- rollforward (fst tb1) w2 2 DOff None;
  do w5 <- rollforward (fst tb1) w2 2 DSame None;
  do w6 <- rollforward (fst tb1) w2 2 DAlt None;
  do w7 <- rollforward (fst tb1) w2 2 DAny None;
  Ok [((((ws_loc w3) =? 10) && ((ws_loc w4) =? 6) && ((ws_loc w5) =? 6) && ((ws_loc w6) =? 10) && ((ws_loc w7) =? 5)))]) = true.
Proof. vm_compute. reflexivity. Qed.

(** test_workshift.py:191 TestRollForward.test_rollforward_on_n_negative *)
Example test_rollforward_on_n_negative : passes (
  let heap0 : heap Z := [] in
  do tb1 <- build (mkArgs (mkFstr None AlD) (ts 2016 12 31 0 0 0) (ts 2017 1 12 0 0 0) (LPat (PList [0; 1; 0; 0; 2; 0])) [] (fun x => negb (x =? 0)) 0 false (-999999) WDuration conf_num) heap0;
  do w2 <- get_workshift (fst tb1) (ts 2017 1 10 0 0 0) None;
  do w3 <- rollforward (fst tb1) w2 (-2) DOn None;
  do w4 <- rollforward (fst tb1) w2 (-2) DOff None;
  do w5 <- rollforward (fst tb1) w2 (-2) DSame None;
  do w6 <- rollforward (fst tb1) w2 (-2) DAlt None;
  do w7 <- rollforward (fst tb1) w2 (-2) DAny None;
  Ok [((((ws_loc w3) =? 4) && ((ws_loc w4) =? 8) && ((ws_loc w5) =? 4) && ((ws_loc w6) =? 8) && ((ws_loc w7) =? 8)))]) = true.
Proof. vm_compute. reflexivity. Qed.

(** test_workshift.py:199 TestRollForward.test_rollforward_off_n_negative *)
Example test_rollforward_off_n_negative : passes (
  let heap0 : heap Z := [] in
  do tb1 <- build (mkArgs (mkFstr None AlD) (ts 2016 12 31 0 0 0) (ts 2017 1 12 0 0 0) (LPat (PList [0; 1; 0; 0; 2; 0])) [] (fun x => negb (x =? 0)) 0 false (-999999) WDuration conf_num) heap0;
  do w2 <- get_workshift (fst tb1) (ts 2017 1 8 0 0 0) None;
  do w3 <- rollforward (fst tb1) w2 (-2) DOn None;
  do w4 <- rollforward (fst tb1) w2 (-2) DOff None;
  do w5 <- rollforward (fst tb1) w2 (-2) DSame None;
  do w6 <- rollforward (fst tb1) w2 (-2) DAlt None;
  do w7 <- rollforward (fst tb1) w2 (-2) DAny None;
  Ok [((((ws_loc w3) =? 4) && ((ws_loc w4) =? 5) && ((ws_loc w5) =? 5) && ((ws_loc w6) =? 4) && ((ws_loc w7) =? 6)))]) = true.
Proof. vm_compute. reflexivity. Qed.

(** test_workshift.py:207 TestRollForward.test_rollforward_off_n_negative_after_last_on_element *)
Example test_rollforward_off_n_negative_after_last_on_element : passes (
  let heap0 : heap Z := [] in
  do tb1 <- build (mkArgs (mkFstr None AlD) (ts 2016 12 31 0 0 0) (ts 2017 1 12 0 0 0) (LPat (PList [0; 1; 0; 0; 2; 0])) [] (fun x => negb (x =? 0)) 0 false (-999999) WDuration conf_num) heap0;
  do w2 <- get_workshift (fst tb1) (ts 2017 1 12 0 0 0) None;
  do w3 <- rollforward (fst tb1) w2 (-2) DOff None;
  do w4 <- rollforward (fst tb1) w2 (-2) DAny None;
  Ok [(((ws_loc w3) =? 9));
       (((ws_loc w4) =? 10));
       raises [EOutOfBounds] (do w5 <- rollforward (fst tb1) w2 (-2) DOn None; Ok tt)]) = true.
Proof. vm_compute. reflexivity. Qed.

(** test_workshift.py:215 TestRollForward.test_rollforward_n_off_limits *)
Example test_rollforward_n_off_limits : passes (
  let heap0 : heap Z := [] in
  do tb1 <- build (mkArgs (mkFstr None AlD) (ts 2016 12 31 0 0 0) (ts 2017 1 12 0 0 0) (LPat (PList [0; 1; 0; 0; 2; 0])) [] (fun x => negb (x =? 0)) 0 false (-999999) WDuration conf_num) heap0;
  Ok [raises [EOutOfBounds] (do w2 <- get_workshift (fst tb1) (ts 2017 1 10 0 0 0) None; do w3 <- rollforward (fst tb1) w2 1 DOn None; Ok tt)]) = true.
Proof. vm_compute. reflexivity. Qed.

(** test_workshift.py:220 TestRollForward.test_rollforward_alt_off_limits *)
Example test_rollforward_alt_off_limits : passes (
  let heap0 : heap Z := [] in
  do tb1 <- build (mkArgs (mkFstr None AlD) (ts 2016 12 31 0 0 0) (ts 2017 1 12 0 0 0) (LPat (PList [0; 1; 0; 0; 2; 0])) [] (fun x => negb (x =? 0)) 0 false (-999999) WDuration conf_num) heap0;
  Ok [raises [EOutOfBounds] (do w2 <- get_workshift (fst tb1) (ts 2017 1 11 0 0 0) None; do w3 <- rollforward (fst tb1) w2 0 DAlt None; Ok tt)]) = true.
Proof. vm_compute. reflexivity. Qed.

(** test_workshift.py:225 TestRollForward.test_rollforward_n_negative_off_limits *)
Example test_rollforward_n_negative_off_limits : passes (
  let heap0 : heap Z := [] in
  do tb1 <- build (mkArgs (mkFstr None AlD) (ts 2016 12 31 0 0 0) (ts 2017 1 12 0 0 0) (LPat (PList [0; 1; 0; 0; 2; 0])) [] (fun x => negb (x =? 0)) 0 false (-999999) WDuration conf_num) heap0;
  Ok [raises [EOutOfBounds] (do w2 <- get_workshift (fst tb1) (ts 2017 1 1 0 0 0) None; do w3 <- rollforward (fst tb1) w2 (-1) DOn None; Ok tt)]) = true.
Proof. vm_compute. reflexivity. Qed.

(** test_workshift.py:230 TestRollForward.test_rollforward_no_such_duty *)
Example test_rollforward_no_such_duty : passes (
  let heap0 : heap Z := [] in
  do tb1 <- build (mkArgs (mkFstr None AlD) (ts 2016 12 31 0 0 0) (ts 2017 1 12 0 0 0) (LPat (PList [0])) [] (fun x => negb (x =? 0)) 0 false (-999999) WDuration conf_num) heap0;
  Ok [raises [EOutOfBounds] (do w2 <- get_workshift (fst tb1) (ts 2016 12 31 0 0 0) None; do w3 <- rollforward (fst tb1) w2 0 DOn None; Ok tt)]) = true.
Proof. vm_compute. reflexivity. Qed.

(** test_workshift.py:237 TestRollForward.test_rollforward_bad_duty *)
Example test_rollforward_bad_duty : passes (
  let heap0 : heap Z := [] in
  do tb1 <- build (mkArgs (mkFstr None AlD) (ts 2016 12 31 0 0 0) (ts 2017 1 12 0 0 0) (LPat (PList [0; 1; 0; 0; 2; 0])) [] (fun x => negb (x =? 0)) 0 false (-999999) WDuration conf_num) heap0;
  Ok [raises [EValue] (do w2 <- get_workshift (fst tb1) (ts 2017 1 1 0 0 0) None; do w3 <- rollforward (fst tb1) w2 0 DBad None; Ok tt)]) = true.
Proof. vm_compute. reflexivity. Qed.

(** test_workshift.py:245 TestRollBack.test_rollback_trivial_0_to_self *)
Example test_rollback_trivial_0_to_self : passes (
  let heap0 : heap Z := [] in
  do tb1 <- build (mkArgs (mkFstr None AlD) (ts 2016 12 31 0 0 0) (ts 2017 1 12 0 0 0) (LPat (PList [0; 1; 0; 0; 2; 0])) [] (fun x => negb (x =? 0)) 0 false (-999999) WDuration conf_num) heap0;
  do w2 <- get_workshift (fst tb1) (ts 2017 1 4 0 0 0) None;
  do w3 <- rollback (fst tb1) w2 0 DOn None;
  Ok [(((ws_loc w3) =? 4))]) = true.
Proof. vm_compute. reflexivity. Qed.

(** test_workshift.py:252 TestRollBack.test_rollback_trivial_0_to_next *)
Example test_rollback_trivial_0_to_next : passes (
  let heap0 : heap Z := [] in
  do tb1 <- build (mkArgs (mkFstr None AlD) (ts 2016 12 31 0 0 0) (ts 2017 1 12 0 0 0) (LPat (PList [0; 1; 0; 0; 2; 0])) [] (fun x => negb (x =? 0)) 0 false (-999999) WDuration conf_num) heap0;
  do w2 <- get_workshift (fst tb1) (ts 2017 1 2 0 0 0) None;
  do w3 <- rollback (fst tb1) w2 0 DOn None;
  Ok [(((ws_loc w3) =? 1))]) = true.
Proof. vm_compute. reflexivity. Qed.

(** test_workshift.py:258 TestRollBack.test_rollback_on_0 *)
Example test_rollback_on_0 : passes (
  let heap0 : heap Z := [] in
  do tb1 <- build (mkArgs (mkFstr None AlD) (ts 2016 12 31 0 0 0) (ts 2017 1 12 0 0 0) (LPat (PList [0; 1; 0; 0; 2; 0])) [] (fun x => negb (x =? 0)) 0 false (-999999) WDuration conf_num) heap0;
  do w2 <- get_workshift (fst tb1) (ts 2017 1 1 0 0 0) None;
  do w3 <- rollback (fst tb1) w2 0 DOn None;
  do w4 <- rollback (fst tb1) w2 0 DOff None;
  do w5 <- rollback (fst tb1) w2 0 DSame None;
  do w6 <- rollback (fst tb1) w2 0 DAlt None;
  do w7 <- rollback (fst tb1) w2 0 DAny None;
  Ok [((((ws_loc w3) =? 1) && ((ws_loc w4) =? 0) && ((ws_loc w5) =? 1) && ((ws_loc w6) =? 0) && ((ws_loc w7) =? 1)))]) = true.
Proof. vm_compute. reflexivity. Qed.

(** test_workshift.py:266 TestRollBack.test_rollback_off_0 *)
Example test_rollback_off_0 : passes (
  let heap0 : heap Z := [] in
  do tb1 <- build (mkArgs (mkFstr None AlD) (ts 2016 12 31 0 0 0) (ts 2017 1 12 0 0 0) (LPat (PList [0; 1; 0; 0; 2; 0])) [] (fun x => negb (x =? 0)) 0 false (-999999) WDuration conf_num) heap0;
  do w2 <- get_workshift (fst tb1) (ts 2017 1 12 0 0 0) None;
  do w3 <- rollback (fst tb1) w2 0 DOn None;
  do w4 <- rollback (fst tb1) w2 0 DOff None;
  do w5 <- rollback (fst tb1) w2 0 DSame None;
  do w6 <- rollback (fst tb1) w2 0 DAlt None;
  do w7 <- rollback (fst tb1) w2 0 DAny None;
  Ok [((((ws_loc w3) =? 10) && ((ws_loc w4) =? 12) && ((ws_loc w5) =? 12) && ((ws_loc w6) =? 10) && ((ws_loc w7) =? 12)))]) = true.
Proof. vm_compute. reflexivity. Qed.

(** test_workshift.py:274 TestRollBack.test_rollback_off_0_at_first_element *)
Example test_rollback_off_0_at_first_element : passes (
  let heap0 : heap Z := [] in
  do tb1 <- build (mkArgs (mkFstr None AlD) (ts 2016 12 31 0 0 0) (ts 2017 1 12 0 0 0) (LPat (PList [0; 1; 0; 0; 2; 0])) [] (fun x => negb (x =? 0)) 0 false (-999999) WDuration conf_num) heap0;
  do w2 <- get_workshift (fst tb1) (ts 2016 12 31 0 0 0) None;
  do w3 <- rollback (fst tb1) w2 0 DOff None;
  do w4 <- rollback (fst tb1) w2 0 DAny None;
  Ok [(((ws_loc w3) =? 0));
       (((ws_loc w4) =? 0));
       raises [EOutOfBounds] (do w5 <- rollback (fst tb1) w2 0 DOn None; Ok tt)]) = true.
Proof. vm_compute. reflexivity. Qed.

(** test_workshift.py:282 TestRollBack.test_rollback_on_n *)
Example test_rollback_on_n : passes (
  let heap0 : heap Z := [] in
  do tb1 <- build (mkArgs (mkFstr None AlD) (ts 2016 12 31 0 0 0) (ts 2017 1 12 0 0 0) (LPat (PList [0; 1; 0; 0; 2; 0])) [] (fun x => negb (x =? 0)) 0 false (-999999) WDuration conf_num) heap0;
  do w2 <- get_workshift (fst tb1) (ts 2017 1 10 0 0 0) None;
  do w3 <- rollback (fst tb1) w2 2 DOn None;
  do w4 <- rollback (fst tb1) w2 2 DOff None;
  do w5 <- rollback (fst tb1) w2 2 DSame None;
  do w6 <- rollback (fst tb1) w2 2 DAlt None;
  do w7 <- rollback (fst tb1) w2 2 DAny None;
  Ok [((((ws_loc w3) =? 4) && ((ws_loc w4) =? 6) && ((ws_loc w5) =? 4) && ((ws_loc w6) =? 6) && ((ws_loc w7) =? 8)))]) = true.
Proof. vm_compute. reflexivity. Qed.

(** test_workshift.py:290 TestRollBack.test_rollback_off_n *)
Example test_rollback_off_n : passes (
  let heap0 : heap Z := [] in
  do tb1 <- build (mkArgs (mkFstr None AlD) (ts 2016 12 31 0 0 0) (ts 2017 1 12 0 0 0) (LPat (PList [0; 1; 0; 0; 2; 0])) [] (fun x => negb (x =? 0)) 0 false (-999999) WDuration conf_num) heap0;
  do w2 <- get_workshift (fst tb1) (ts 2017 1 11 0 0 0) None;
  do w3 <- rollback (fst tb1) w2 2 DOn None;
  do w4 <- rollback (fst tb1) w2 2 DOff None;
  do w5 <- rollback (fst tb1) w2 2 DSame None;
  do w6 <- rollback (fst tb1) w2 2 DAlt None;
  do w7 <- rollback (fst tb1) w2 2 DAny None;
  Ok [((((ws_loc w3) =? 4) && ((ws_loc w4) =? 8) && ((ws_loc w5) =? 8) && ((ws_loc w6) =? 4) && ((ws_loc w7) =? 9)))]) = true.
Proof. vm_compute. reflexivity. Qed.

(** test_workshift.py:298 TestRollBack.test_rollback_on_n_negative *)
Example test_rollback_on_n_negative : passes (
  let heap0 : heap Z := [] in
  do tb1 <- build (mkArgs (mkFstr None AlD) (ts 2016 12 31 0 0 0) (ts 2017 1 12 0 0 0) (LPat (PList [0; 1; 0; 0; 2; 0])) [] (fun x => negb (x =? 0)) 0 false (-999999) WDuration conf_num) heap0;
  do w2 <- get_workshift (fst tb1) (ts 2017 1 4 0 0 0) None;
  do w3 <- rollback (fst tb1) w2 (-2) DOn None;
  do w4 <- rollback (fst tb1) w2 (-2) DOff None;
  do w5 <- rollback (fst tb1) w2 (-2) DSame None;
  do w6 <- rollback (fst tb1) w2 (-2) DAlt None;
  do w7 <- rollback (fst tb1) w2 (-2) DAny None;
  Ok [((((ws_loc w3) =? 10) && ((ws_loc w4) =? 6) && ((ws_loc w5) =? 10) && ((ws_loc w6) =? 6) && ((ws_loc w7) =? 6)))]) = true.
Proof. vm_compute. reflexivity. Qed.

(** test_workshift.py:306 TestRollBack.test_rollback_off_n_negative *)
Example test_rollback_off_n_negative : passes (
  let heap0 : heap Z := [] in
  do tb1 <- build (mkArgs (mkFstr None AlD) (ts 2016 12 31 0 0 0) (ts 2017 1 12 0 0 0) (LPat (PList [0; 1; 0; 0; 2; 0])) [] (fun x => negb (x =? 0)) 0 false (-999999) WDuration conf_num) heap0;
  do w2 <- get_workshift (fst tb1) (ts 2017 1 5 0 0 0) None;
  do w3 <- rollback (fst tb1) w2 (-2) DOn None;
  do w4 <- rollback (fst tb1) w2 (-2) DOff None;
  do w5 <- rollback (fst tb1) w2 (-2) DSame None;
  do w6 <- rollback (fst tb1) w2 (-2) DAlt None;
  do w7 <- rollback (fst tb1) w2 (-2) DAny None;
  Ok [((((ws_loc w3) =? 10) && ((ws_loc w4) =? 8) && ((ws_loc w5) =? 8) && ((ws_loc w6) =? 10) && ((ws_loc w7) =? 7)))]) = true.
Proof. vm_compute. reflexivity. Qed.

(** test_workshift.py:314 TestRollBack.test_rollback_off_n_negative_at_first_element *)
Example test_rollback_off_n_negative_at_first_element : passes (
  let heap0 : heap Z := [] in
  do tb1 <- build (mkArgs (mkFstr None AlD) (ts 2016 12 31 0 0 0) (ts 2017 1 12 0 0 0) (LPat (PList [0; 1; 0; 0; 2; 0])) [] (fun x => negb (x =? 0)) 0 false (-999999) WDuration conf_num) heap0;
  do w2 <- get_workshift (fst tb1) (ts 2016 12 31 0 0 0) None;
  do w3 <- rollback (fst tb1) w2 (-2) DOff None;
  do w4 <- rollback (fst tb1) w2 (-2) DAny None;
  Ok [(((ws_loc w3) =? 3));
       (((ws_loc w4) =? 2));
       raises [EOutOfBounds] (do w5 <- rollback (fst tb1) w2 (-2) DOn None; Ok tt)]) = true.
Proof. vm_compute. reflexivity. Qed.

(** test_workshift.py:322 TestRollBack.test_rollback_alt_off_limits *)
Example test_rollback_alt_off_limits : passes (
  let heap0 : heap Z := [] in
  do tb1 <- build (mkArgs (mkFstr None AlD) (ts 2016 12 31 0 0 0) (ts 2017 1 12 0 0 0) (LPat (PList [0; 1; 0; 0; 2; 0])) [] (fun x => negb (x =? 0)) 0 false (-999999) WDuration conf_num) heap0;
  Ok [raises [EOutOfBounds] (do w2 <- get_workshift (fst tb1) (ts 2016 12 31 0 0 0) None; do w3 <- rollback (fst tb1) w2 0 DAlt None; Ok tt)]) = true.
Proof. vm_compute. reflexivity. Qed.

(** test_workshift.py:327 TestRollBack.test_rollback_n_off_limits *)
Example test_rollback_n_off_limits : passes (
  let heap0 : heap Z := [] in
  do tb1 <- build (mkArgs (mkFstr None AlD) (ts 2016 12 31 0 0 0) (ts 2017 1 12 0 0 0) (LPat (PList [0; 1; 0; 0; 2; 0])) [] (fun x => negb (x =? 0)) 0 false (-999999) WDuration conf_num) heap0;
  Ok [raises [EOutOfBounds] (do w2 <- get_workshift (fst tb1) (ts 2017 1 1 0 0 0) None; do w3 <- rollback (fst tb1) w2 1 DOn None; Ok tt)]) = true.
Proof. vm_compute. reflexivity. Qed.

(** test_workshift.py:332 TestRollBack.test_rollback_n_negative_off_limits *)
Example test_rollback_n_negative_off_limits : passes (
  let heap0 : heap Z := [] in
  do tb1 <- build (mkArgs (mkFstr None AlD) (ts 2016 12 31 0 0 0) (ts 2017 1 12 0 0 0) (LPat (PList [0; 1; 0; 0; 2; 0])) [] (fun x => negb (x =? 0)) 0 false (-999999) WDuration conf_num) heap0;
  Ok [raises [EOutOfBounds] (do w2 <- get_workshift (fst tb1) (ts 2017 1 10 0 0 0) None; do w3 <- rollback (fst tb1) w2 (-1) DOn None; Ok tt)]) = true.
Proof. vm_compute. reflexivity. Qed.

(** test_workshift.py:337 TestRollBack.test_rollback_only_alt *)
Example test_rollback_only_alt : passes (
  let heap0 : heap Z := [] in
  do tb1 <- build (mkArgs (mkFstr None AlD) (ts 2016 12 31 0 0 0) (ts 2017 1 12 0 0 0) (LPat (PList [0])) [] (fun x => negb (x =? 0)) 0 false (-999999) WDuration conf_num) heap0;
  Ok [raises [EOutOfBounds] (do w2 <- get_workshift (fst tb1) (ts 2017 1 10 0 0 0) None; do w3 <- rollback (fst tb1) w2 0 DOn None; Ok tt)]) = true.
Proof. vm_compute. reflexivity. Qed.

(** test_workshift.py:344 TestRollBack.test_rollback_bad_duty *)
Example test_rollback_bad_duty : passes (
  let heap0 : heap Z := [] in
  do tb1 <- build (mkArgs (mkFstr None AlD) (ts 2016 12 31 0 0 0) (ts 2017 1 12 0 0 0) (LPat (PList [0; 1; 0; 0; 2; 0])) [] (fun x => negb (x =? 0)) 0 false (-999999) WDuration conf_num) heap0;
  Ok [raises [EValue] (do w2 <- get_workshift (fst tb1) (ts 2017 1 1 0 0 0) None; do w3 <- rollback (fst tb1) w2 0 DBad None; Ok tt)]) = true.
Proof. vm_compute. reflexivity. Qed.

(** test_workshift.py:352 TestWorkshiftAddSubNumber.test_workshift_add_positive_n *)
Example test_workshift_add_positive_n : passes (
  let heap0 : heap Z := [] in
  do tb1 <- build (mkArgs (mkFstr None AlD) (ts 2016 12 31 0 0 0) (ts 2017 1 12 0 0 0) (LPat (PList [0; 1; 0; 0; 2; 0])) [] (fun x => negb (x =? 0)) 0 false (-999999) WDuration conf_num) heap0;
  do w2 <- get_workshift (fst tb1) (ts 2017 1 2 0 0 0) None;
  do w3 <- ws_add (fst tb1) w2 2;
  Ok [(((ws_loc w3) =? 10))]) = true.
Proof. vm_compute. reflexivity. Qed.

(** test_workshift.py:357 TestWorkshiftAddSubNumber.test_workshift_add_zero *)
Example test_workshift_add_zero : passes (
  let heap0 : heap Z := [] in
  do tb1 <- build (mkArgs (mkFstr None AlD) (ts 2016 12 31 0 0 0) (ts 2017 1 12 0 0 0) (LPat (PList [0; 1; 0; 0; 2; 0])) [] (fun x => negb (x =? 0)) 0 false (-999999) WDuration conf_num) heap0;
  do w2 <- get_workshift (fst tb1) (ts 2017 1 2 0 0 0) None;
  do w3 <- ws_add (fst tb1) w2 0;
  Ok [(((ws_loc w3) =? 4))]) = true.
Proof. vm_compute. reflexivity. Qed.

(** test_workshift.py:364 TestWorkshiftAddSubNumber.test_workshift_add_negative_n *)
Example test_workshift_add_negative_n : passes (
  let heap0 : heap Z := [] in
  do tb1 <- build (mkArgs (mkFstr None AlD) (ts 2016 12 31 0 0 0) (ts 2017 1 12 0 0 0) (LPat (PList [0; 1; 0; 0; 2; 0])) [] (fun x => negb (x =? 0)) 0 false (-999999) WDuration conf_num) heap0;
  do w2 <- get_workshift (fst tb1) (ts 2017 1 9 0 0 0) None;
  do w3 <- ws_add (fst tb1) w2 (-2);
  Ok [(((ws_loc w3) =? 4))]) = true.
Proof. vm_compute. reflexivity. Qed.

(** test_workshift.py:371 TestWorkshiftAddSubNumber.test_workshift_sub_positive_n *)
Example test_workshift_sub_positive_n : passes (
  let heap0 : heap Z := [] in
  do tb1 <- build (mkArgs (mkFstr None AlD) (ts 2016 12 31 0 0 0) (ts 2017 1 12 0 0 0) (LPat (PList [0; 1; 0; 0; 2; 0])) [] (fun x => negb (x =? 0)) 0 false (-999999) WDuration conf_num) heap0;
  do w2 <- get_workshift (fst tb1) (ts 2017 1 9 0 0 0) None;
  do w3 <- ws_sub (fst tb1) w2 2;
  Ok [(((ws_loc w3) =? 1))]) = true.
Proof. vm_compute. reflexivity. Qed.

(** test_workshift.py:376 TestWorkshiftAddSubNumber.test_workshift_sub_zero *)
Example test_workshift_sub_zero : passes (
  let heap0 : heap Z := [] in
  do tb1 <- build (mkArgs (mkFstr None AlD) (ts 2016 12 31 0 0 0) (ts 2017 1 12 0 0 0) (LPat (PList [0; 1; 0; 0; 2; 0])) [] (fun x => negb (x =? 0)) 0 false (-999999) WDuration conf_num) heap0;
  do w2 <- get_workshift (fst tb1) (ts 2017 1 2 0 0 0) None;
  do w3 <- ws_sub (fst tb1) w2 0;
  Ok [(((ws_loc w3) =? 1))]) = true.
Proof. vm_compute. reflexivity. Qed.

(** test_workshift.py:383 TestWorkshiftAddSubNumber.test_workshift_sub_negative_n *)
Example test_workshift_sub_negative_n : passes (
  let heap0 : heap Z := [] in
  do tb1 <- build (mkArgs (mkFstr None AlD) (ts 2016 12 31 0 0 0) (ts 2017 1 12 0 0 0) (LPat (PList [0; 1; 0; 0; 2; 0])) [] (fun x => negb (x =? 0)) 0 false (-999999) WDuration conf_num) heap0;
  do w2 <- get_workshift (fst tb1) (ts 2017 1 2 0 0 0) None;
  do w3 <- ws_sub (fst tb1) w2 (-2);
  Ok [(((ws_loc w3) =? 7))]) = true.
Proof. vm_compute. reflexivity. Qed.

(** test_workshift.py:460 TestWorkshiftSchedules.test_ws_on_duty_schedules *)
Example test_ws_on_duty_schedules : passes (
  let heap0 : heap Z := [] in
  do tb1 <- build (mkArgs (mkFstr None AlD) (ts 2016 12 31 0 0 0) (ts 2017 1 12 0 0 0) (LPat (PList [0; 1; 0; 0; 2; 0])) [] (fun x => negb (x =? 0)) 0 false (-999999) WDuration conf_num) heap0;
  do r2 <- add_schedule (fst tb1) 1 (fun x => ((x >? 1)));
  do w3 <- get_workshift (fst r2) (ts 2017 1 1 0 0 0) None;
  do w4 <- get_workshift (fst r2) (ts 2017 1 1 0 0 0) (Some (snd r2));
  do b5 <- is_on_duty (fst r2) w3 (ws_sched w3);
  do b6 <- is_on_duty (fst r2) w4 (ws_sched w4);
  do b7 <- is_on_duty (fst r2) w3 (snd r2);
  do b8 <- is_on_duty (fst r2) w4 (tb_default (fst r2));
  Ok [((Bool.eqb b5 true));
       ((Bool.eqb b6 false));
       ((Bool.eqb b7 false));
       ((Bool.eqb b8 true));
       (((sc_name (ws_sched w3)) =? 0));
       (((sc_name (ws_sched w4)) =? 1))]) = true.
Proof. vm_compute. reflexivity. Qed.

(** test_workshift.py:473 TestWorkshiftSchedules.test_ws_rollforward_0_schedules *)
Example test_ws_rollforward_0_schedules : passes (
  let heap0 : heap Z := [] in
  do tb1 <- build (mkArgs (mkFstr None AlD) (ts 2016 12 31 0 0 0) (ts 2017 1 12 0 0 0) (LPat (PList [0; 1; 0; 0; 2; 0])) [] (fun x => negb (x =? 0)) 0 false (-999999) WDuration conf_num) heap0;
  do r2 <- add_schedule (fst tb1) 1 (fun x => ((x >? 1)));
  do w3 <- get_workshift (fst r2) (ts 2017 1 1 0 0 0) None;
  do w4 <- get_workshift (fst r2) (ts 2017 1 1 0 0 0) (Some (snd r2));
  do w5 <- rollforward (fst r2) w3 0 DOn None;
  do w6 <- rollforward (fst r2) w4 0 DOn None;
  do w7 <- rollforward (fst r2) w3 0 DOn (Some (snd r2));
  do w8 <- rollforward (fst r2) w4 0 DOn (Some (tb_default (fst r2)));
  Ok [(((ws_loc w5) =? 1));
       (((sc_name (ws_sched w5)) =? 0));
       (((ws_loc w6) =? 4));
       (((sc_name (ws_sched w6)) =? 1));
       (((ws_loc w7) =? 4));
       (((sc_name (ws_sched w7)) =? 1));
       (((ws_loc w8) =? 1));
       (((sc_name (ws_sched w8)) =? 0))]) = true.
Proof. vm_compute. reflexivity. Qed.

(** test_workshift.py:491 TestWorkshiftSchedules.test_ws_rollback_0_schedules *)
Example test_ws_rollback_0_schedules : passes (
  let heap0 : heap Z := [] in
  do tb1 <- build (mkArgs (mkFstr None AlD) (ts 2016 12 31 0 0 0) (ts 2017 1 12 0 0 0) (LPat (PList [0; 1; 0; 0; 2; 0])) [] (fun x => negb (x =? 0)) 0 false (-999999) WDuration conf_num) heap0;
  do r2 <- add_schedule (fst tb1) 1 (fun x => ((x >? 1)));
  do w3 <- get_workshift (fst r2) (ts 2017 1 8 0 0 0) None;
  do w4 <- get_workshift (fst r2) (ts 2017 1 8 0 0 0) (Some (snd r2));
  do w5 <- rollback (fst r2) w3 0 DOn None;
  do w6 <- rollback (fst r2) w4 0 DOn None;
  do w7 <- rollback (fst r2) w3 0 DOn (Some (snd r2));
  do w8 <- rollback (fst r2) w4 0 DOn (Some (tb_default (fst r2)));
  Ok [(((ws_loc w5) =? 7));
       (((sc_name (ws_sched w5)) =? 0));
       (((ws_loc w6) =? 4));
       (((sc_name (ws_sched w6)) =? 1));
       (((ws_loc w7) =? 4));
       (((sc_name (ws_sched w7)) =? 1));
       (((ws_loc w8) =? 7));
       (((sc_name (ws_sched w8)) =? 0))]) = true.
Proof. vm_compute. reflexivity. Qed.

(** test_workshift.py:509 TestWorkshiftSchedules.test_ws_rollforward_n_schedules *)
Example test_ws_rollforward_n_schedules : passes (
  let heap0 : heap Z := [] in
  do tb1 <- build (mkArgs (mkFstr None AlD) (ts 2016 12 31 0 0 0) (ts 2017 1 12 0 0 0) (LPat (PList [0; 1; 0; 0; 2; 0])) [] (fun x => negb (x =? 0)) 0 false (-999999) WDuration conf_num) heap0;
  do r2 <- add_schedule (fst tb1) 1 (fun x => ((x >? 1)));
  do w3 <- get_workshift (fst r2) (ts 2017 1 1 0 0 0) None;
  do w4 <- get_workshift (fst r2) (ts 2017 1 1 0 0 0) (Some (snd r2));
  do w5 <- rollforward (fst r2) w3 1 DOn None;
  do w6 <- rollforward (fst r2) w4 1 DOn None;
  do w7 <- rollforward (fst r2) w3 1 DOn (Some (snd r2));
  do w8 <- rollforward (fst r2) w4 1 DOn (Some (tb_default (fst r2)));
  Ok [(((ws_loc w5) =? 4));
       (((sc_name (ws_sched w5)) =? 0));
       (((ws_loc w6) =? 10));
       (((sc_name (ws_sched w6)) =? 1));
       (((ws_loc w7) =? 10));
       (((sc_name (ws_sched w7)) =? 1));
       (((ws_loc w8) =? 4));
       (((sc_name (ws_sched w8)) =? 0))]) = true.
Proof. vm_compute. reflexivity. Qed.

(** test_workshift.py:527 TestWorkshiftSchedules.test_ws_rollback_n_schedules *)
Example test_ws_rollback_n_schedules : passes (
  let heap0 : heap Z := [] in
  do tb1 <- build (mkArgs (mkFstr None AlD) (ts 2016 12 31 0 0 0) (ts 2017 1 12 0 0 0) (LPat (PList [0; 1; 0; 0; 2; 0])) [] (fun x => negb (x =? 0)) 0 false (-999999) WDuration conf_num) heap0;
  do r2 <- add_schedule (fst tb1) 1 (fun x => ((x >? 1)));
  do w3 <- get_workshift (fst r2) (ts 2017 1 11 0 0 0) None;
  do w4 <- get_workshift (fst r2) (ts 2017 1 11 0 0 0) (Some (snd r2));
  do w5 <- rollback (fst r2) w3 1 DOn None;
  do w6 <- rollback (fst r2) w4 1 DOn None;
  do w7 <- rollback (fst r2) w3 1 DOn (Some (snd r2));
  do w8 <- rollback (fst r2) w4 1 DOn (Some (tb_default (fst r2)));
  Ok [(((ws_loc w5) =? 7));
       (((sc_name (ws_sched w5)) =? 0));
       (((ws_loc w6) =? 4));
       (((sc_name (ws_sched w6)) =? 1));
       (((ws_loc w7) =? 4));
       (((sc_name (ws_sched w7)) =? 1));
       (((ws_loc w8) =? 7));
       (((sc_name (ws_sched w8)) =? 0))]) = true.
Proof. vm_compute. reflexivity. Qed.

(** test_workshift.py:545 TestWorkshiftSchedules.test_ws_rollforward_any_schedules *)
Example test_ws_rollforward_any_schedules : passes (
  let heap0 : heap Z := [] in
  do tb1 <- build (mkArgs (mkFstr None AlD) (ts 2016 12 31 0 0 0) (ts 2017 1 12 0 0 0) (LPat (PList [0; 1; 0; 0; 2; 0])) [] (fun x => negb (x =? 0)) 0 false (-999999) WDuration conf_num) heap0;
  do r2 <- add_schedule (fst tb1) 1 (fun x => ((x >? 1)));
  do w3 <- get_workshift (fst r2) (ts 2016 12 31 0 0 0) None;
  do w4 <- get_workshift (fst r2) (ts 2016 12 31 0 0 0) (Some (snd r2));
  do w5 <- rollforward (fst r2) w3 2 DAny None;
  do w6 <- rollforward (fst r2) w4 2 DAny None;
  do w7 <- rollforward (fst r2) w3 2 DAny (Some (snd r2));
  do w8 <- rollforward (fst r2) w4 2 DAny (Some (tb_default (fst r2)));
  Ok [(((ws_loc w5) =? 2));
       (((sc_name (ws_sched w5)) =? 0));
       (((ws_loc w6) =? 2));
       (((sc_name (ws_sched w6)) =? 1));
       (((ws_loc w7) =? 2));
       (((sc_name (ws_sched w7)) =? 1));
       (((ws_loc w8) =? 2));
       (((sc_name (ws_sched w8)) =? 0))]) = true.
Proof. vm_compute. reflexivity. Qed.

(** test_workshift.py:563 TestWorkshiftSchedules.test_ws_rollforward_schedules_OOB *)
Example test_ws_rollforward_schedules_OOB : passes (
  let heap0 : heap Z := [] in
  do tb1 <- build (mkArgs (mkFstr None AlD) (ts 2016 12 31 0 0 0) (ts 2017 1 12 0 0 0) (LPat (PList [0; 1; 0; 0; 2; 0])) [] (fun x => negb (x =? 0)) 0 false (-999999) WDuration conf_num) heap0;
  do r2 <- add_schedule (fst tb1) 1 (fun x => ((x >? 1)));
  do w3 <- get_workshift (fst r2) (ts 2017 1 3 0 0 0) None;
  do w4 <- get_workshift (fst r2) (ts 2017 1 3 0 0 0) (Some (snd r2));
  do w5 <- rollforward (fst r2) w3 2 DOn None;
  Ok [(((ws_loc w5) =? 10));
       raises [EOutOfBounds] (do w6 <- rollforward (fst r2) w4 2 DOn None; Ok tt)]) = true.
Proof. vm_compute. reflexivity. Qed.

(** test_workshift.py:572 TestWorkshiftSchedules.test_ws_bad_schedule *)
Example test_ws_bad_schedule : passes (
  let heap0 : heap Z := [] in
  do tb1 <- build (mkArgs (mkFstr None AlD) (ts 2016 12 31 0 0 0) (ts 2017 1 12 0 0 0) (LPat (PList [0; 1; 0; 0; 2; 0])) [] (fun x => negb (x =? 0)) 0 false (-999999) WDuration conf_num) heap0;
  do r2 <- add_schedule (fst tb1) 1 (fun x => ((x >? 1)));
  Ok [raises [EType] (do w3 <- Api.get_workshift_any conf_nat (fst r2) (Api.PVal (Api.VTime (ts 2017 1 3 0 0 0))) Api.SOther; Ok tt)]) = true.
Proof. vm_compute. reflexivity. Qed.

(** test_workshift.py:581 TestWorkshiftWorktime.test_ws_worktime_default *)
Example test_ws_worktime_default : passes (
  let heap0 : heap Z := [] in
  do tb1 <- build (mkArgs (mkFstr None AlD) (ts 2016 12 31 0 0 0) (ts 2017 1 12 0 0 0) (LPat (PList [0; 1; 0; 0; 2; 0])) [] (fun x => negb (x =? 0)) 0 false (-999999) WDuration conf_num) heap0;
  do w2 <- new_workshift (fst tb1) 4 (tb_default (fst tb1));
  do q3 <- ws_worktime (fst tb1) w2 DOn None;
  do q4 <- ws_worktime (fst tb1) w2 DOff None;
  do q5 <- ws_worktime (fst tb1) w2 DAny None;
  do w6 <- new_workshift (fst tb1) 5 (tb_default (fst tb1));
  do q7 <- ws_worktime (fst tb1) w6 DOn None;
  do q8 <- ws_worktime (fst tb1) w6 DOff None;
  do q9 <- ws_worktime (fst tb1) w6 DAny None;
  Ok [((Qeq_bool q3 (1 # 1)));
       ((Qeq_bool q4 (0 # 1)));
       ((Qeq_bool q5 (1 # 1)));
       ((Qeq_bool q7 (0 # 1)));
       ((Qeq_bool q8 (1 # 1)));
       ((Qeq_bool q9 (1 # 1)))]) = true.
Proof. vm_compute. reflexivity. Qed.

(** test_workshift.py:593 TestWorkshiftWorktime.test_ws_worktime_in_label *)
Example test_ws_worktime_in_label : passes (
  let heap0 : heap Z := [] in
  do tb1 <- build (mkArgs (mkFstr None AlD) (ts 2016 12 31 0 0 0) (ts 2017 1 12 0 0 0) (LPat (PList [0; 1; 0; 0; 2; 0])) [] (fun x => negb (x =? 0)) 0 false (-999999) WLabels conf_num) heap0;
  do w2 <- new_workshift (fst tb1) 4 (tb_default (fst tb1));
  do q3 <- ws_worktime (fst tb1) w2 DOn None;
  do q4 <- ws_worktime (fst tb1) w2 DOff None;
  do q5 <- ws_worktime (fst tb1) w2 DAny None;
  Ok [((Qeq_bool q3 (2 # 1)));
       ((Qeq_bool q4 (0 # 1)));
       ((Qeq_bool q5 (2 # 1)))]) = true.
Proof. vm_compute. reflexivity. Qed.

(** test_workshift.py:603 TestWorkshiftWorktime.test_ws_worktime_other_schedule *)
Example test_ws_worktime_other_schedule : passes (
  let heap0 : heap Z := [] in
  do tb1 <- build (mkArgs (mkFstr None AlD) (ts 2016 12 31 0 0 0) (ts 2017 1 12 0 0 0) (LPat (PList [0; 1; 0; 0; 2; 0])) [] (fun x => negb (x =? 0)) 0 false (-999999) WDuration conf_num) heap0;
  do r2 <- add_schedule (fst tb1) 1 (fun x => ((x <? 2)));
  do w3 <- new_workshift (fst r2) 4 (tb_default (fst r2));
  do q4 <- ws_worktime (fst r2) w3 DOn (Some (snd r2));
  do q5 <- ws_worktime (fst r2) w3 DOff (Some (snd r2));
  do q6 <- ws_worktime (fst r2) w3 DAny (Some (snd r2));
  do tb7 <- build (mkArgs (mkFstr None AlD) (ts 2016 12 31 0 0 0) (ts 2017 1 12 0 0 0) (LPat (PList [0; 1; 0; 0; 2; 0])) [] (fun x => negb (x =? 0)) 0 false (-999999) WLabels conf_num) heap0;
  do w8 <- new_workshift (fst tb7) 4 (tb_default (fst tb7));
  do q9 <- ws_worktime (fst tb7) w8 DOn (Some (snd r2));
  do q10 <- ws_worktime (fst tb7) w8 DOff (Some (snd r2));
  do q11 <- ws_worktime (fst tb7) w8 DAny (Some (snd r2));
  Ok [((Qeq_bool q4 (0 # 1)));
       ((Qeq_bool q5 (1 # 1)));
       ((Qeq_bool q6 (1 # 1)));
       ((Qeq_bool q9 (0 # 1)));
       ((Qeq_bool q10 (2 # 1)));
       ((Qeq_bool q11 (2 # 1)))]) = true.
Proof. vm_compute. reflexivity. Qed.

(** test_workshift.py:620 TestWorkshiftWorktime.test_ws_worktime_in_labels_strings *)
Example test_ws_worktime_in_labels_strings : passes (
  let heap0 : heap Z := [] in
  do tb1 <- build (mkArgs (mkFstr None AlD) (ts 2016 12 31 0 0 0) (ts 2017 1 12 0 0 0) (LPat (PList [0; 1; 0; 0; 1000001; 0])) [] (fun x => negb (x =? 0)) 0 false (-999999) WLabels conf_num) heap0;
  do w2 <- new_workshift (fst tb1) 4 (tb_default (fst tb1));
  do q5 <- ws_worktime (fst tb1) w2 DOff None;
  Ok [raises [EType] (do q3 <- ws_worktime (fst tb1) w2 DOn None; Ok tt);
       raises [EType] (do q4 <- ws_worktime (fst tb1) w2 DAny None; Ok tt);
       ((Qeq_bool q5 (0 # 1)))]) = true.
Proof. vm_compute. reflexivity. Qed.

(** test_workshift.py:632 TestWorkshiftWorktime.test_ws_worktime_bad_duty *)
Example test_ws_worktime_bad_duty : passes (
  let heap0 : heap Z := [] in
  do tb1 <- build (mkArgs (mkFstr None AlD) (ts 2016 12 31 0 0 0) (ts 2017 1 12 0 0 0) (LPat (PList [0; 1; 0; 0; 2; 0])) [] (fun x => negb (x =? 0)) 0 false (-999999) WDuration conf_num) heap0;
  do w2 <- new_workshift (fst tb1) 4 (tb_default (fst tb1));
  Ok [raises [EValue] (do q3 <- ws_worktime (fst tb1) w2 DBad None; Ok tt)]) = true.
Proof. vm_compute. reflexivity. Qed.
