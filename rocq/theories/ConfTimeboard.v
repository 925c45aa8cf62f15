(** ConfTimeboard: /repo/timeboard/tests/test_timeboard.py as examples about the model.
    Written by tools/tests2coq.py. *)
From Verif Require Api.
From Verif Require Import Base Civil Freq Frame Timeline Board When ConfBase.
From Coq Require Import QArith String.
Open Scope Z_scope.

(** test_timeboard.py:14 TestTBConstructor.test_tb_constructor_trivial *)
Example test_tb_constructor_trivial : passes (
  let heap0 : heap Z := [] in
  do tb1 <- build (mkArgs (mkFstr None AlD) (ts 2017 1 1 0 0 0) (ts 2017 1 12 0 0 0) (LPat (PList [1])) [] (fun x => negb (x =? 0)) 0 false (-999999) WDuration conf_num) heap0;
  Ok [(zlist_eqb (tl_labels (tb_tl (fst tb1))) [1; 1; 1; 1; 1; 1; 1; 1; 1; 1; 1; 1]);
       (((tb_start_time (fst tb1)) =? (ts 2017 1 1 0 0 0)));
       (((tb_end_time (fst tb1)) >? (ts 2017 1 12 23 59 59)));
       (((tb_end_time (fst tb1)) <? (ts 2017 1 13 0 0 0)));
       true]) = true.
Proof. vm_compute. reflexivity. Qed.

(** test_timeboard.py:24 TestTBConstructor.test_tb_constructor_empty_layout *)
Example test_tb_constructor_empty_layout : passes (
  let heap0 : heap Z := [] in
  do tb1 <- build (mkArgs (mkFstr None AlD) (ts 2017 1 1 0 0 0) (ts 2017 1 12 0 0 0) (LPat (PList [])) [] (fun x => negb (x =? 0)) 0 false (-999999) WDuration conf_num) heap0;
  Ok [(forallb (Z.eqb (-999999)) (tl_labels (tb_tl (fst tb1))));
       (((tb_start_time (fst tb1)) =? (ts 2017 1 1 0 0 0)));
       (((tb_end_time (fst tb1)) >? (ts 2017 1 12 23 59 59)));
       (((tb_end_time (fst tb1)) <? (ts 2017 1 13 0 0 0)));
       true]) = true.
Proof. vm_compute. reflexivity. Qed.

(** test_timeboard.py:35 TestTBConstructor.test_tb_constructor_empty_layout_with_default_label *)
Example test_tb_constructor_empty_layout_with_default_label : passes (
  let heap0 : heap Z := [] in
  do tb1 <- build (mkArgs (mkFstr None AlD) (ts 2017 1 1 0 0 0) (ts 2017 1 12 0 0 0) (LPat (PList [])) [] (fun x => negb (x =? 0)) 0 false 100 WDuration conf_num) heap0;
  Ok [(zlist_eqb (tl_labels (tb_tl (fst tb1))) [100; 100; 100; 100; 100; 100; 100; 100; 100; 100; 100; 100]);
       (((tb_start_time (fst tb1)) =? (ts 2017 1 1 0 0 0)));
       (((tb_end_time (fst tb1)) >? (ts 2017 1 12 23 59 59)));
       (((tb_end_time (fst tb1)) <? (ts 2017 1 13 0 0 0)));
       true]) = true.
Proof. vm_compute. reflexivity. Qed.

(** test_timeboard.py:46 TestTBConstructor.test_tb_constructor_trivial_with_amendments *)
Example test_tb_constructor_trivial_with_amendments : passes (
  let heap0 : heap Z := [] in
  do tb1 <- build (mkArgs (mkFstr None AlD) (ts 2017 1 1 0 0 0) (ts 2017 1 12 0 0 0) (LPat (PList [1])) [((ts 2017 1 11 0 0 0), 2); ((ts 2017 1 12 0 0 0), 3)] (fun x => negb (x =? 0)) 0 false (-999999) WDuration conf_num) heap0;
  Ok [(zlist_eqb (tl_labels (tb_tl (fst tb1))) [1; 1; 1; 1; 1; 1; 1; 1; 1; 1; 2; 3]);
       (((tb_start_time (fst tb1)) =? (ts 2017 1 1 0 0 0)));
       (((tb_end_time (fst tb1)) >? (ts 2017 1 12 23 59 59)));
       (((tb_end_time (fst tb1)) <? (ts 2017 1 13 0 0 0)));
       true]) = true.
Proof. vm_compute. reflexivity. Qed.

(** test_timeboard.py:58 TestTBConstructor.test_tb_constructor_amendments_outside *)
Example test_tb_constructor_amendments_outside : passes (
  let heap0 : heap Z := [] in
  do tb1 <- build (mkArgs (mkFstr None AlD) (ts 2017 1 1 0 0 0) (ts 2017 1 12 0 0 0) (LPat (PList [1])) [((ts 2016 12 31 0 0 0), 2); ((ts 2017 1 12 0 0 0), 3)] (fun x => negb (x =? 0)) 0 false (-999999) WDuration conf_num) heap0;
  Ok [(zlist_eqb (tl_labels (tb_tl (fst tb1))) [1; 1; 1; 1; 1; 1; 1; 1; 1; 1; 1; 3]);
       (((tb_start_time (fst tb1)) =? (ts 2017 1 1 0 0 0)));
       (((tb_end_time (fst tb1)) >? (ts 2017 1 12 23 59 59)));
       (((tb_end_time (fst tb1)) <? (ts 2017 1 13 0 0 0)));
       true]) = true.
Proof. vm_compute. reflexivity. Qed.

(** test_timeboard.py:70 TestTBConstructor.test_tb_constructor_bad_layout *)
Example test_tb_constructor_bad_layout : passes (
  let heap0 : heap Z := [] in

  Ok [raises [EType] (do tb1 <- build (mkArgs (mkFstr None AlD) (ts 2017 1 1 0 0 0) (ts 2017 1 12 0 0 0) (LLab 1) [] (fun x => negb (x =? 0)) 0 false (-999999) WDuration conf_num) heap0; Ok tt)]) = true.
Proof. vm_compute. reflexivity. Qed.

(** test_timeboard.py:76 TestTBConstructor.test_tb_constructor_duplicate_amendments *)
Example test_tb_constructor_duplicate_amendments : passes (
  let heap0 : heap Z := [] in

  Ok [raises [EKey] (do tb1 <- build (mkArgs (mkFstr None AlD) (ts 2017 1 1 0 0 0) (ts 2017 1 12 0 0 0) (LPat (PList [1])) [((ts 2017 1 2 12 0 0), 2); ((ts 2017 1 2 15 15 0), 3)] (fun x => negb (x =? 0)) 0 false (-999999) WDuration conf_num) heap0; Ok tt)]) = true.
Proof. vm_compute. reflexivity. Qed.

(** test_timeboard.py:91 TestTBConstructor.test_tb_constructor_trivial_selector *)
Example test_tb_constructor_trivial_selector : passes (
  let heap0 : heap Z := [] in
  do tb1 <- build (mkArgs (mkFstr None AlD) (ts 2017 1 1 0 0 0) (ts 2017 1 12 0 0 0) (LPat (PList [0; 1; 0; 2])) [] (fun x => negb (x =? 0)) 0 false (-999999) WDuration conf_num) heap0;
  do x2 <- tl_get (tb_tl (fst tb1)) 1;
  do l4 <- mapM (fun x3 => ( Ok ((sc_sel (tb_default (fst tb1))) x3))) (tl_labels (tb_tl (fst tb1)));
  Ok [((sc_sel (tb_default (fst tb1))) x2);
       ((blist_eqb l4 [false; true; false; true; false; true; false; true; false; true; false; true]));
       ((zlist_eqb (sc_on (tb_default (fst tb1))) [1; 3; 5; 7; 9; 11]));
       ((zlist_eqb (sc_off (tb_default (fst tb1))) [0; 2; 4; 6; 8; 10]))]) = true.
Proof. vm_compute. reflexivity. Qed.

(** test_timeboard.py:102 TestTBConstructor.test_tb_constructor_trivial_custom_selector *)
Example test_tb_constructor_trivial_custom_selector : passes (
  let heap0 : heap Z := [] in
  do tb1 <- build (mkArgs (mkFstr None AlD) (ts 2017 1 1 0 0 0) (ts 2017 1 12 0 0 0) (LPat (PList [0; 1; 0; 2])) [] (fun x => ((x >? 1))) 0 false (-999999) WDuration conf_num) heap0;
  do x2 <- tl_get (tb_tl (fst tb1)) 1;
  do l4 <- mapM (fun x3 => ( Ok ((sc_sel (tb_default (fst tb1))) x3))) (tl_labels (tb_tl (fst tb1)));
  Ok [(negb ((sc_sel (tb_default (fst tb1))) x2));
       ((blist_eqb l4 [false; false; false; true; false; false; false; true; false; false; false; true]));
       ((zlist_eqb (sc_on (tb_default (fst tb1))) [3; 7; 11]));
       ((zlist_eqb (sc_off (tb_default (fst tb1))) [0; 1; 2; 4; 5; 6; 8; 9; 10]))]) = true.
Proof. vm_compute. reflexivity. Qed.

(** test_timeboard.py:122 TestTBConstructorWithOrgs.test_tb_constructor_week5x8 *)
Example test_tb_constructor_week5x8 : passes (
  let heap0 : heap Z := [] in
  do tb1 <- build (mkArgs (mkFstr None AlD) (ts 2016 12 28 0 0 0) (ts 2017 4 2 0 0 0) (LOrg (DMarker (mkMarker (mkFstr None (AlW None)) [])) [(LPat (PList [1; 1; 1; 1; 1; 0; 0]))]) [((ts 2017 1 1 0 0 0), 0); ((ts 2017 1 2 0 0 0), 0); ((ts 2017 1 3 0 0 0), 0); ((ts 2017 1 4 0 0 0), 0); ((ts 2017 1 5 0 0 0), 0); ((ts 2017 1 6 0 0 0), 0); ((ts 2017 1 7 0 0 0), 0); ((ts 2017 1 8 0 0 0), 0); ((ts 2017 1 9 0 0 0), 0); ((ts 2017 1 10 0 0 0), 0)] (fun x => negb (x =? 0)) 0 false (-999999) WDuration conf_num) heap0;
  do w2 <- get_workshift (fst tb1) (ts 2016 12 28 0 0 0) None;
  do b3 <- is_on_duty (fst tb1) w2 (ws_sched w2);
  do w4 <- get_workshift (fst tb1) (ts 2016 12 30 0 0 0) None;
  do b5 <- is_on_duty (fst tb1) w4 (ws_sched w4);
  do w6 <- get_workshift (fst tb1) (ts 2016 12 31 0 0 0) None;
  do b7 <- is_off_duty (fst tb1) w6 (ws_sched w6);
  do w8 <- get_workshift (fst tb1) (ts 2017 1 1 0 0 0) None;
  do b9 <- is_off_duty (fst tb1) w8 (ws_sched w8);
  do w10 <- get_workshift (fst tb1) (ts 2017 1 10 0 0 0) None;
  do b11 <- is_off_duty (fst tb1) w10 (ws_sched w10);
  do w12 <- get_workshift (fst tb1) (ts 2017 1 11 0 0 0) None;
  do b13 <- is_on_duty (fst tb1) w12 (ws_sched w12);
  do w14 <- get_workshift (fst tb1) (ts 2017 3 27 0 0 0) None;
  do b15 <- is_on_duty (fst tb1) w14 (ws_sched w14);
  do w16 <- get_workshift (fst tb1) (ts 2017 3 31 0 0 0) None;
  do b17 <- is_on_duty (fst tb1) w16 (ws_sched w16);
  do w18 <- get_workshift (fst tb1) (ts 2017 4 1 0 0 0) None;
  do b19 <- is_off_duty (fst tb1) w18 (ws_sched w18);
  do w20 <- get_workshift (fst tb1) (ts 2017 4 2 0 0 0) None;
  do b21 <- is_off_duty (fst tb1) w20 (ws_sched w20);
  Ok [(((tb_start_time (fst tb1)) =? (ts 2016 12 28 0 0 0)));
       (((tb_end_time (fst tb1)) >? (ts 2017 4 2 23 59 59)));
       (((tb_end_time (fst tb1)) <? (ts 2017 4 3 0 0 0)));
       true;
       b3;
       b5;
       b7;
       b9;
       b11;
       b13;
       b15;
       b17;
       b19;
       b21]) = true.
Proof. vm_compute. reflexivity. Qed.

(** test_timeboard.py:151 TestTimeboardSchedules.test_tb_add_schedule *)
Example test_tb_add_schedule : passes (
  let heap0 : heap Z := [] in
  do tb1 <- build (mkArgs (mkFstr None AlD) (ts 2016 12 31 0 0 0) (ts 2017 1 12 0 0 0) (LPat (PList [1000001; 1000002; 1000001; 1000001; 1000003; 1000001])) [] (fun x => negb (x =? 0)) 0 false (-999999) WDuration conf_num) heap0;
  do r2 <- add_schedule (fst tb1) 1 (fun x => ((x =? 1000003)));
  do r3 <- add_schedule (fst r2) 2 (fun x => ((x =? 1000004)));
  do sc4 <- opt_key (find_schedule (fst r3) 1);
  do x5 <- tl_get (tb_tl (fst r3)) 1;
  do x6 <- tl_get (tb_tl (fst r3)) 4;
  do sc7 <- opt_key (find_schedule (fst r3) 2);
  do x8 <- tl_get (tb_tl (fst r3)) 1;
  do x9 <- tl_get (tb_tl (fst r3)) 4;
  do x10 <- tl_get (tb_tl (fst r3)) 1;
  do x11 <- tl_get (tb_tl (fst r3)) 4;
  Ok [(((zlen (tb_schedules (fst tb1))) =? 1));
       ((is_some (find_schedule (fst tb1) 0)));
       (((zlen (tb_schedules (fst r3))) =? 3));
       ((is_some (find_schedule (fst r3) 1)));
       (((sc_name sc4) =? 1));
       (negb (sc_sel sc4 x5));
       (sc_sel sc4 x6);
       ((is_some (find_schedule (fst r3) 2)));
       (((sc_name sc7) =? 2));
       (negb (sc_sel sc7 x8));
       (negb (sc_sel sc7 x9));
       (((sc_name (tb_default (fst r3))) =? 0));
       (sc_sel (tb_default (fst r3)) x10);
       (sc_sel (tb_default (fst r3)) x11)]) = true.
Proof. vm_compute. reflexivity. Qed.

(** test_timeboard.py:178 TestTimeboardSchedules.test_tb_drop_schedule *)
Example test_tb_drop_schedule : passes (
  let heap0 : heap Z := [] in
  do tb1 <- build (mkArgs (mkFstr None AlD) (ts 2016 12 31 0 0 0) (ts 2017 1 12 0 0 0) (LPat (PList [0; 1; 0; 0; 2; 0])) [] (fun x => negb (x =? 0)) 0 false (-999999) WDuration conf_num) heap0;
  do r2 <- add_schedule (fst tb1) 1 (fun x => ((x >? 1)));
  do sc3 <- opt_key (find_schedule (fst r2) 1);
  do tb4 <- drop_schedule (fst r2) sc3;
  do x6 <- tl_get (tb_tl tb4) 1;
  Ok [(((zlen (tb_schedules (fst r2))) =? 2));
       (((zlen (tb_schedules tb4)) =? 1));
       raises [EKey] (do sc5 <- opt_key (find_schedule tb4 1); Ok tt);
       (negb (sc_sel sc3 x6))]) = true.
Proof. vm_compute. reflexivity. Qed.

(** test_timeboard.py:192 TestTimeboardSchedules.test_tb_schedule_names *)
Example test_tb_schedule_names : passes (
  let heap0 : heap Z := [] in
  do tb1 <- build (mkArgs (mkFstr None AlD) (ts 2016 12 31 0 0 0) (ts 2017 1 12 0 0 0) (LPat (PList [0; 1; 0; 0; 2; 0])) [] (fun x => negb (x =? 0)) 0 false (-999999) WDuration conf_num) heap0;
  do r2 <- add_schedule (fst tb1) 1 (fun x => ((x >? 1)));
  do sc3 <- opt_key (find_schedule (fst r2) 1);
  Ok [(((zlen (tb_schedules (fst r2))) =? 2));
       (((sc_name sc3) =? 1));
       raises [EKey] (do r4 <- add_schedule (fst r2) 1 (fun x => ((x >? 2))); Ok tt)]) = true.
Proof. vm_compute. reflexivity. Qed.

(** test_timeboard.py:214 TestTimeboardWorktime.test_tb_default_worktime_source *)
Example test_tb_default_worktime_source : passes (
  let heap0 : heap Z := [] in
  do tb1 <- build (mkArgs (mkFstr None AlD) (ts 2016 12 31 0 0 0) (ts 2017 1 12 0 0 0) (LPat (PList [0; 1; 0; 0; 2; 0])) [] (fun x => negb (x =? 0)) 0 false (-999999) WDuration conf_num) heap0;
  Ok [((wt_eqb (tb_wt (fst tb1)) WDuration))]) = true.
Proof. vm_compute. reflexivity. Qed.

(** test_timeboard.py:220 TestTimeboardWorktime.test_tb_set_worktime_source *)
Example test_tb_set_worktime_source : passes (
  let heap0 : heap Z := [] in
  do tb1 <- build (mkArgs (mkFstr None AlD) (ts 2016 12 31 0 0 0) (ts 2017 1 12 0 0 0) (LPat (PList [0; 1; 0; 0; 2; 0])) [] (fun x => negb (x =? 0)) 0 false (-999999) WLabels conf_num) heap0;
  Ok [((wt_eqb (tb_wt (fst tb1)) WLabels))]) = true.
Proof. vm_compute. reflexivity. Qed.

(** test_timeboard.py:227 TestTimeboardWorktime.test_tb_bad_worktime_source *)
Example test_tb_bad_worktime_source : passes (
  let heap0 : heap Z := [] in

  Ok [raises [EValue] (do tb1 <- build (mkArgs (mkFstr None AlD) (ts 2016 12 31 0 0 0) (ts 2017 1 12 0 0 0) (LPat (PList [0; 1; 0; 0; 2; 0])) [] (fun x => negb (x =? 0)) 0 false (-999999) WBad conf_num) heap0; Ok tt)]) = true.
Proof. vm_compute. reflexivity. Qed.

(** test_timeboard.py:268 TestTimeboardToDataFrame.test_timeboard_to_dataframe_selected_ws *)
Example test_timeboard_to_dataframe_selected_ws : passes (
  let heap0 : heap Z := [] in
  do tb1 <- build (mkArgs (mkFstr None AlD) (ts 2017 1 1 0 0 0) (ts 2017 1 12 0 0 0) (LPat (PList [0; 1; 0; 2])) [] (fun x => negb (x =? 0)) 0 false (-999999) WDuration conf_num) heap0;
  do df2 <- tb_dataframe (fst tb1) 1 5;
  Ok [(((zlen df2) =? 5))]) = true.
Proof. vm_compute. reflexivity. Qed.

(** test_timeboard.py:275 TestTimeboardToDataFrame.test_timeboard_to_dataframe_reversed_ws *)
Example test_timeboard_to_dataframe_reversed_ws : passes (
  let heap0 : heap Z := [] in
  do tb1 <- build (mkArgs (mkFstr None AlD) (ts 2017 1 1 0 0 0) (ts 2017 1 12 0 0 0) (LPat (PList [0; 1; 0; 2])) [] (fun x => negb (x =? 0)) 0 false (-999999) WDuration conf_num) heap0;
  do df2 <- tb_dataframe (fst tb1) 5 1;
  Ok [(zlen df2 =? 0)]) = true.
Proof. vm_compute. reflexivity. Qed.

(** test_timeboard.py:283 TestTimeboardToDataFrame.test_timeboard_to_dataframe_bad_locations *)
Example test_timeboard_to_dataframe_bad_locations : passes (
  let heap0 : heap Z := [] in
  do tb1 <- build (mkArgs (mkFstr None AlD) (ts 2017 1 1 0 0 0) (ts 2017 1 12 0 0 0) (LPat (PList [0; 1; 0; 2])) [] (fun x => negb (x =? 0)) 0 false (-999999) WDuration conf_num) heap0;
  Ok [raises [EAssertion] (do df2 <- tb_dataframe (fst tb1) 1 12; Ok tt);
       raises [EAssertion] (do df3 <- tb_dataframe (fst tb1) 12 1; Ok tt);
       raises [EAssertion] (do df4 <- tb_dataframe (fst tb1) (-1) 5; Ok tt);
       raises [EAssertion] (do df5 <- tb_dataframe (fst tb1) 5 (-1); Ok tt)]) = true.
Proof. vm_compute. reflexivity. Qed.
