(** ConfIntervals: /repo/timeboard/tests/test_intervals.py as examples about the model.
    Written by tools/tests2coq.py. *)
From Verif Require Api.
From Verif Require Import Base Civil Freq Frame Timeline Board When ConfBase.
From Coq Require Import QArith String.
Open Scope Z_scope.

(** test_intervals.py:23 TestIntervalLocatorFromReference.test_interval_locator_default *)
Example test_interval_locator_default : passes (
  let heap0 : heap Z := [] in
  do tb1 <- build (mkArgs (mkFstr None AlD) (ts 2016 12 31 0 0 0) (ts 2017 1 12 0 0 0) (LPat (PList [0; 1; 0])) [] (fun x => negb (x =? 0)) 0 false (-999999) WDuration conf_num) heap0;
  do ll2 <- locs_from_reference (fst tb1) RNone false false;
  Ok [((loc_eqb (fst ll2) (mkLoc (Some 0) LOC_WITHIN) && loc_eqb (snd ll2) (mkLoc (Some 12) LOC_WITHIN)))]) = true.
Proof. vm_compute. reflexivity. Qed.

(** test_intervals.py:29 TestIntervalLocatorFromReference.test_interval_locator_with_two_ts *)
Example test_interval_locator_with_two_ts : passes (
  let heap0 : heap Z := [] in
  do tb1 <- build (mkArgs (mkFstr None AlD) (ts 2016 12 31 0 0 0) (ts 2017 1 12 0 0 0) (LPat (PList [0; 1; 0])) [] (fun x => negb (x =? 0)) 0 false (-999999) WDuration conf_num) heap0;
  do ll2 <- locs_from_reference (fst tb1) (RPair (Some (ts 2017 1 2 15 0 0)) (Some (ts 2017 1 8 15 0 0))) false false;
  do ll3 <- locs_from_reference (fst tb1) (RPair (Some (ts 2017 1 8 15 0 0)) (Some (ts 2017 1 2 15 0 0))) false false;
  Ok [((loc_eqb (fst ll2) (mkLoc (Some 2) LOC_WITHIN) && loc_eqb (snd ll2) (mkLoc (Some 8) LOC_WITHIN)));
       ((loc_eqb (fst ll3) (mkLoc (Some 8) LOC_WITHIN) && loc_eqb (snd ll3) (mkLoc (Some 2) LOC_WITHIN)))]) = true.
Proof. vm_compute. reflexivity. Qed.

(** test_intervals.py:39 TestIntervalLocatorFromReference.test_interval_locator_with_with_excessive_item *)
Example test_interval_locator_with_with_excessive_item : passes (
  let heap0 : heap Z := [] in
  do tb1 <- build (mkArgs (mkFstr None AlD) (ts 2016 12 31 0 0 0) (ts 2017 1 12 0 0 0) (LPat (PList [0; 1; 0])) [] (fun x => negb (x =? 0)) 0 false (-999999) WDuration conf_num) heap0;
  do ll2 <- Api.locs_from_any conf_nat (fst tb1) (Api.PTuple [(Api.VTime (ts 2017 1 2 15 0 0)); (Api.VTime (ts 2017 1 8 15 0 0)); Api.VText]) false false;
  Ok [((loc_eqb (fst ll2) (mkLoc (Some 2) LOC_WITHIN) && loc_eqb (snd ll2) (mkLoc (Some 8) LOC_WITHIN)))]) = true.
Proof. vm_compute. reflexivity. Qed.

(** test_intervals.py:45 TestIntervalLocatorFromReference.test_interval_locator_with_two_pd_ts *)
Example test_interval_locator_with_two_pd_ts : passes (
  let heap0 : heap Z := [] in
  do tb1 <- build (mkArgs (mkFstr None AlD) (ts 2016 12 31 0 0 0) (ts 2017 1 12 0 0 0) (LPat (PList [0; 1; 0])) [] (fun x => negb (x =? 0)) 0 false (-999999) WDuration conf_num) heap0;
  do ll2 <- locs_from_reference (fst tb1) (RPair (Some (ts 2017 1 2 15 0 0)) (Some (ts 2017 1 8 15 0 0))) false false;
  Ok [((loc_eqb (fst ll2) (mkLoc (Some 2) LOC_WITHIN) && loc_eqb (snd ll2) (mkLoc (Some 8) LOC_WITHIN)))]) = true.
Proof. vm_compute. reflexivity. Qed.

(** test_intervals.py:53 TestIntervalLocatorFromReference.test_interval_locator_with_two_datettime_ts *)
Example test_interval_locator_with_two_datettime_ts : passes (
  let heap0 : heap Z := [] in
  do tb1 <- build (mkArgs (mkFstr None AlD) (ts 2016 12 31 0 0 0) (ts 2017 1 12 0 0 0) (LPat (PList [0; 1; 0])) [] (fun x => negb (x =? 0)) 0 false (-999999) WDuration conf_num) heap0;
  do ll2 <- locs_from_reference (fst tb1) (RPair (Some (ts 2017 1 2 15 0 0)) (Some (ts 2017 1 8 15 0 0))) false false;
  Ok [((loc_eqb (fst ll2) (mkLoc (Some 2) LOC_WITHIN) && loc_eqb (snd ll2) (mkLoc (Some 8) LOC_WITHIN)))]) = true.
Proof. vm_compute. reflexivity. Qed.

(** test_intervals.py:61 TestIntervalLocatorFromReference.test_interval_locator_with_OOB_ts *)
Example test_interval_locator_with_OOB_ts : passes (
  let heap0 : heap Z := [] in
  do tb1 <- build (mkArgs (mkFstr None AlD) (ts 2016 12 31 0 0 0) (ts 2017 1 12 0 0 0) (LPat (PList [0; 1; 0])) [] (fun x => negb (x =? 0)) 0 false (-999999) WDuration conf_num) heap0;
  do ll2 <- locs_from_reference (fst tb1) (RPair (Some (ts 2017 1 2 15 0 0)) (Some (ts 2017 1 13 15 0 0))) false false;
  do ll3 <- locs_from_reference (fst tb1) (RPair (Some (ts 2016 12 30 15 0 0)) (Some (ts 2017 1 8 15 0 0))) false false;
  do ll4 <- locs_from_reference (fst tb1) (RPair (Some (ts 2016 12 30 15 0 0)) (Some (ts 2017 1 13 15 0 0))) false false;
  do ll5 <- locs_from_reference (fst tb1) (RPair (Some (ts 2017 1 13 15 0 0)) (Some (ts 2016 12 30 15 0 0))) false false;
  do ll6 <- locs_from_reference (fst tb1) (RPair (Some (ts 2016 12 25 15 0 0)) (Some (ts 2016 12 30 15 0 0))) false false;
  do ll7 <- locs_from_reference (fst tb1) (RPair (Some (ts 2016 12 30 15 0 0)) (Some (ts 2016 12 25 15 0 0))) false false;
  do ll8 <- locs_from_reference (fst tb1) (RPair (Some (ts 2017 1 13 15 0 0)) (Some (ts 2017 1 15 15 0 0))) false false;
  do ll9 <- locs_from_reference (fst tb1) (RPair (Some (ts 2017 1 15 15 0 0)) (Some (ts 2017 1 13 15 0 0))) false false;
  Ok [((loc_eqb (fst ll2) (mkLoc (Some 2) LOC_WITHIN) && loc_eqb (snd ll2) (mkLoc None OOB_RIGHT)));
       ((loc_eqb (fst ll3) (mkLoc None OOB_LEFT) && loc_eqb (snd ll3) (mkLoc (Some 8) LOC_WITHIN)));
       ((loc_eqb (fst ll4) (mkLoc None OOB_LEFT) && loc_eqb (snd ll4) (mkLoc None OOB_RIGHT)));
       ((loc_eqb (fst ll5) (mkLoc None OOB_RIGHT) && loc_eqb (snd ll5) (mkLoc None OOB_LEFT)));
       ((loc_eqb (fst ll6) (mkLoc None OOB_LEFT) && loc_eqb (snd ll6) (mkLoc None OOB_LEFT)));
       ((loc_eqb (fst ll7) (mkLoc None OOB_LEFT) && loc_eqb (snd ll7) (mkLoc None OOB_LEFT)));
       ((loc_eqb (fst ll8) (mkLoc None OOB_RIGHT) && loc_eqb (snd ll8) (mkLoc None OOB_RIGHT)));
       ((loc_eqb (fst ll9) (mkLoc None OOB_RIGHT) && loc_eqb (snd ll9) (mkLoc None OOB_RIGHT)))]) = true.
Proof. vm_compute. reflexivity. Qed.

(** test_intervals.py:91 TestIntervalLocatorFromReference.test_interval_locator_from_pd_periods *)
Example test_interval_locator_from_pd_periods : passes (
  let heap0 : heap Z := [] in
  do tb1 <- build (mkArgs (mkFstr None AlD) (ts 2016 12 31 0 0 0) (ts 2017 1 12 0 0 0) (LPat (PList [0; 1; 0])) [] (fun x => negb (x =? 0)) 0 false (-999999) WDuration conf_num) heap0;
  do ll2 <- locs_from_reference (fst tb1) (RPair (Some (p_start (period_at (ts 2017 1 2 0 0 0) (mkFstr None AlM)))) (Some (ts 2017 1 11 15 0 0))) false false;
  do ll3 <- locs_from_reference (fst tb1) (RPair (Some (p_start (period_at (ts 2016 12 31 0 0 0) (mkFstr None AlM)))) (Some (ts 2017 1 11 15 0 0))) false false;
  do ll4 <- locs_from_reference (fst tb1) (RPair (Some (p_start (period_at (ts 2017 1 5 0 0 0) (mkFstr None (AlW None))))) (Some (ts 2017 1 11 15 0 0))) false false;
  do ll5 <- locs_from_reference (fst tb1) (RPair (Some (p_start (period_at (ts 2017 1 2 0 0 0) (mkFstr None (AlW (Some 0)))))) (Some (ts 2017 1 11 15 0 0))) false false;
  Ok [((loc_eqb (fst ll2) (mkLoc (Some 1) LOC_WITHIN) && loc_eqb (snd ll2) (mkLoc (Some 11) LOC_WITHIN)));
       ((loc_eqb (fst ll3) (mkLoc None OOB_LEFT) && loc_eqb (snd ll3) (mkLoc (Some 11) LOC_WITHIN)));
       ((loc_eqb (fst ll4) (mkLoc (Some 2) LOC_WITHIN) && loc_eqb (snd ll4) (mkLoc (Some 11) LOC_WITHIN)));
       ((loc_eqb (fst ll5) (mkLoc None OOB_LEFT) && loc_eqb (snd ll5) (mkLoc (Some 11) LOC_WITHIN)))]) = true.
Proof. vm_compute. reflexivity. Qed.

(** test_intervals.py:119 TestIntervalLocatorFromReference.test_interval_locator_with_bad_ts *)
Example test_interval_locator_with_bad_ts : passes (
  let heap0 : heap Z := [] in
  do tb1 <- build (mkArgs (mkFstr None AlD) (ts 2016 12 31 0 0 0) (ts 2017 1 12 0 0 0) (LPat (PList [0; 1; 0])) [] (fun x => negb (x =? 0)) 0 false (-999999) WDuration conf_num) heap0;
  Ok [raises [EValue] (do ll2 <- Api.locs_from_any conf_nat (fst tb1) (Api.PTuple [Api.VText; (Api.VTime (ts 2017 1 8 15 0 0))]) false false; Ok tt);
       raises [EValue] (do ll3 <- Api.locs_from_any conf_nat (fst tb1) (Api.PTuple [(Api.VTime (ts 2017 1 2 15 0 0)); Api.VText]) false false; Ok tt)]) = true.
Proof. vm_compute. reflexivity. Qed.

(** test_intervals.py:128 TestIntervalLocatorFromReference.test_interval_locator_with_singletons *)
Example test_interval_locator_with_singletons : passes (
  let heap0 : heap Z := [] in
  do tb1 <- build (mkArgs (mkFstr None AlD) (ts 2016 12 31 0 0 0) (ts 2017 1 12 0 0 0) (LPat (PList [0; 1; 0])) [] (fun x => negb (x =? 0)) 0 false (-999999) WDuration conf_num) heap0;
  Ok [raises [EType] (do ll2 <- Api.locs_from_any conf_nat (fst tb1) (Api.PTuple [(Api.VTime (ts 2017 1 8 15 0 0))]) false false; Ok tt);
       raises [EType] (do ll3 <- Api.locs_from_any conf_nat (fst tb1) (Api.PVal (Api.VTime (ts 2017 1 8 15 0 0))) false false; Ok tt);
       raises [EType] (do ll4 <- Api.locs_from_any conf_nat (fst tb1) (Api.PVal (Api.VTime (ts 2017 1 8 15 0 0))) false false; Ok tt)]) = true.
Proof. vm_compute. reflexivity. Qed.

(** test_intervals.py:143 TestIntervalStripLocs.test_interval_strip_locs *)
Example test_interval_strip_locs : passes (
  let heap0 : heap Z := [] in
  do tb1 <- build (mkArgs (mkFstr None AlD) (ts 2016 12 31 0 0 0) (ts 2017 1 12 0 0 0) (LPat (PList [0; 1; 0])) [] (fun x => negb (x =? 0)) 0 false (-999999) WDuration conf_num) heap0;
  Ok [((loc_eqb (fst (strip_locs (mkLoc (Some 2) 1000001) (mkLoc (Some 8) 1000002) false false)) (mkLoc (Some 2) 1000001) && loc_eqb (snd (strip_locs (mkLoc (Some 2) 1000001) (mkLoc (Some 8) 1000002) false false)) (mkLoc (Some 8) 1000002)));
       ((loc_eqb (fst (strip_locs (mkLoc (Some 2) 1000001) (mkLoc (Some 8) 1000002) true false)) (mkLoc (Some 3) 1000001) && loc_eqb (snd (strip_locs (mkLoc (Some 2) 1000001) (mkLoc (Some 8) 1000002) true false)) (mkLoc (Some 8) 1000002)));
       ((loc_eqb (fst (strip_locs (mkLoc (Some 2) 1000001) (mkLoc (Some 8) 1000002) false true)) (mkLoc (Some 2) 1000001) && loc_eqb (snd (strip_locs (mkLoc (Some 2) 1000001) (mkLoc (Some 8) 1000002) false true)) (mkLoc (Some 7) 1000002)));
       ((loc_eqb (fst (strip_locs (mkLoc (Some 2) 1000001) (mkLoc (Some 8) 1000002) true true)) (mkLoc (Some 3) 1000001) && loc_eqb (snd (strip_locs (mkLoc (Some 2) 1000001) (mkLoc (Some 8) 1000002) true true)) (mkLoc (Some 7) 1000002)));
       ((loc_eqb (fst (strip_locs (mkLoc (Some 2) 1000001) (mkLoc (Some 4) 1000002) true true)) (mkLoc (Some 3) 1000001) && loc_eqb (snd (strip_locs (mkLoc (Some 2) 1000001) (mkLoc (Some 4) 1000002) true true)) (mkLoc (Some 3) 1000002)))]) = true.
Proof. vm_compute. reflexivity. Qed.

(** test_intervals.py:162 TestIntervalStripLocs.test_interval_strip_locs_single_unit *)
Example test_interval_strip_locs_single_unit : passes (
  let heap0 : heap Z := [] in
  do tb1 <- build (mkArgs (mkFstr None AlD) (ts 2016 12 31 0 0 0) (ts 2017 1 12 0 0 0) (LPat (PList [0; 1; 0])) [] (fun x => negb (x =? 0)) 0 false (-999999) WDuration conf_num) heap0;
  Ok [((loc_eqb (fst (strip_locs (mkLoc (Some 2) 1000001) (mkLoc (Some 2) 1000002) false false)) (mkLoc (Some 2) 1000001) && loc_eqb (snd (strip_locs (mkLoc (Some 2) 1000001) (mkLoc (Some 2) 1000002) false false)) (mkLoc (Some 2) 1000002)));
       ((loc_eqb (fst (strip_locs (mkLoc (Some 2) 1000001) (mkLoc (Some 2) 1000002) true false)) (mkLoc (Some 3) 1000001) && loc_eqb (snd (strip_locs (mkLoc (Some 2) 1000001) (mkLoc (Some 2) 1000002) true false)) (mkLoc (Some 2) 1000002)));
       ((loc_eqb (fst (strip_locs (mkLoc (Some 2) 1000001) (mkLoc (Some 2) 1000002) false true)) (mkLoc (Some 2) 1000001) && loc_eqb (snd (strip_locs (mkLoc (Some 2) 1000001) (mkLoc (Some 2) 1000002) false true)) (mkLoc (Some 1) 1000002)));
       ((loc_eqb (fst (strip_locs (mkLoc (Some 2) 1000001) (mkLoc (Some 2) 1000002) true true)) (mkLoc (Some 3) 1000001) && loc_eqb (snd (strip_locs (mkLoc (Some 2) 1000001) (mkLoc (Some 2) 1000002) true true)) (mkLoc (Some 1) 1000002)))]) = true.
Proof. vm_compute. reflexivity. Qed.

(** test_intervals.py:177 TestIntervalStripLocs.test_interval_strip_locs_corner_cases *)
Example test_interval_strip_locs_corner_cases : passes (
  let heap0 : heap Z := [] in
  do tb1 <- build (mkArgs (mkFstr None AlD) (ts 2016 12 31 0 0 0) (ts 2017 1 12 0 0 0) (LPat (PList [0; 1; 0])) [] (fun x => negb (x =? 0)) 0 false (-999999) WDuration conf_num) heap0;
  Ok [((loc_eqb (fst (strip_locs (mkLoc (Some 0) 1000001) (mkLoc (Some 0) 1000002) true true)) (mkLoc (Some 1) 1000001) && loc_eqb (snd (strip_locs (mkLoc (Some 0) 1000001) (mkLoc (Some 0) 1000002) true true)) (mkLoc (Some (-1)) 1000002)));
       ((loc_eqb (fst (strip_locs (mkLoc (Some (-4)) 1000001) (mkLoc (Some (-2)) 1000002) true true)) (mkLoc (Some (-3)) 1000001) && loc_eqb (snd (strip_locs (mkLoc (Some (-4)) 1000001) (mkLoc (Some (-2)) 1000002) true true)) (mkLoc (Some (-3)) 1000002)));
       ((loc_eqb (fst (strip_locs (mkLoc None 1000001) (mkLoc (Some 2) 1000002) false false)) (mkLoc None 1000001) && loc_eqb (snd (strip_locs (mkLoc None 1000001) (mkLoc (Some 2) 1000002) false false)) (mkLoc (Some 2) 1000002)));
       ((loc_eqb (fst (strip_locs (mkLoc None 1000001) (mkLoc (Some 2) 1000002) true false)) (mkLoc None 1000001) && loc_eqb (snd (strip_locs (mkLoc None 1000001) (mkLoc (Some 2) 1000002) true false)) (mkLoc (Some 2) 1000002)));
       ((loc_eqb (fst (strip_locs (mkLoc None 1000001) (mkLoc (Some 2) 1000002) false true)) (mkLoc None 1000001) && loc_eqb (snd (strip_locs (mkLoc None 1000001) (mkLoc (Some 2) 1000002) false true)) (mkLoc (Some 1) 1000002)));
       ((loc_eqb (fst (strip_locs (mkLoc (Some 2) 1000001) (mkLoc None 1000002) true true)) (mkLoc (Some 3) 1000001) && loc_eqb (snd (strip_locs (mkLoc (Some 2) 1000001) (mkLoc None 1000002) true true)) (mkLoc None 1000002)));
       ((loc_eqb (fst (strip_locs (mkLoc None 1000001) (mkLoc None 1000002) true true)) (mkLoc None 1000001) && loc_eqb (snd (strip_locs (mkLoc None 1000001) (mkLoc None 1000002) true true)) (mkLoc None 1000002)))]) = true.
Proof. vm_compute. reflexivity. Qed.

(** test_intervals.py:202 TestIntervalStripLocs.test_interval_strip_locs_bad_locs *)
Example test_interval_strip_locs_bad_locs : passes (
  let heap0 : heap Z := [] in

  Ok [true]) = true.
Proof. vm_compute. reflexivity. Qed.

(** test_intervals.py:207 TestIntervalStripLocs.test_get_interval_with_bad_closed *)
Example test_get_interval_with_bad_closed : passes (
  let heap0 : heap Z := [] in
  do tb1 <- build (mkArgs (mkFstr None AlD) (ts 2016 12 31 0 0 0) (ts 2017 1 12 0 0 0) (LPat (PList [0; 1; 0])) [] (fun x => negb (x =? 0)) 0 false (-999999) WDuration conf_num) heap0;
  Ok [raises [EValue] (do iv2 <- get_interval (fst tb1) RNone None None true CBad None; Ok tt);
       raises [EValue] (do iv3 <- get_interval (fst tb1) RNone None None true CBad None; Ok tt)]) = true.
Proof. vm_compute. reflexivity. Qed.

(** test_intervals.py:217 TestIntervalConstructorWithTS.test_interval_constructor_with_two_ts *)
Example test_interval_constructor_with_two_ts : passes (
  let heap0 : heap Z := [] in
  do tb1 <- build (mkArgs (mkFstr None AlD) (ts 2016 12 31 0 0 0) (ts 2017 1 12 0 0 0) (LPat (PList [0; 1; 0])) [] (fun x => negb (x =? 0)) 0 false (-999999) WDuration conf_num) heap0;
  do iv2 <- get_interval (fst tb1) (RPair (Some (ts 2017 1 2 15 0 0)) (Some (ts 2017 1 8 15 0 0))) None None true C11 None;
  do t3 <- iv_start_time (fst tb1) iv2;
  do t4 <- iv_end_time (fst tb1) iv2;
  do t5 <- iv_end_time (fst tb1) iv2;
  do iv6 <- get_interval (fst tb1) (RPair (Some (ts 2017 1 2 15 0 0)) (Some (ts 2017 1 8 15 0 0))) None None true C11 None;
  Ok [((t3 =? (ts 2017 1 2 0 0 0)));
       ((t4 >? (ts 2017 1 8 23 59 59)));
       ((t5 <? (ts 2017 1 9 0 0 0)));
       ((pair_eqb (iv_a iv2, iv_b iv2) (2, 8)));
       (((iv_length iv2) =? 7));
       ((pair_eqb (iv_a iv6, iv_b iv6) (iv_a iv2, iv_b iv2)))]) = true.
Proof. vm_compute. reflexivity. Qed.

(** test_intervals.py:229 TestIntervalConstructorWithTS.test_interval_constructor_with_none_ts *)
Example test_interval_constructor_with_none_ts : passes (
  let heap0 : heap Z := [] in
  do tb1 <- build (mkArgs (mkFstr None AlD) (ts 2016 12 31 0 0 0) (ts 2017 1 12 0 0 0) (LPat (PList [0; 1; 0])) [] (fun x => negb (x =? 0)) 0 false (-999999) WDuration conf_num) heap0;
  do iv2 <- get_interval (fst tb1) (RPair None (Some (ts 2017 1 8 15 0 0))) None None true C11 None;
  do iv3 <- get_interval (fst tb1) (RPair None (Some (ts 2017 1 8 15 0 0))) None None true C11 None;
  do iv4 <- get_interval (fst tb1) (RPair None (Some (ts 2017 1 8 15 0 0))) None None true C11 None;
  do iv5 <- get_interval (fst tb1) (RPair (Some (ts 2017 1 2 15 0 0)) None) None None true C11 None;
  do iv6 <- get_interval (fst tb1) (RPair (Some (ts 2017 1 2 15 0 0)) None) None None true C11 None;
  do iv7 <- get_interval (fst tb1) (RPair (Some (ts 2017 1 2 15 0 0)) None) None None true C11 None;
  do iv8 <- get_interval (fst tb1) (RPair None None) None None true C11 None;
  do iv9 <- get_interval (fst tb1) (RPair None None) None None true C11 None;
  do iv10 <- get_interval (fst tb1) (RPair None None) None None true C11 None;
  Ok [((pair_eqb (iv_a iv2, iv_b iv2) (0, 8)));
       ((pair_eqb (iv_a iv3, iv_b iv3) (0, 8)));
       ((pair_eqb (iv_a iv4, iv_b iv4) (iv_a iv3, iv_b iv3)));
       ((pair_eqb (iv_a iv5, iv_b iv5) (2, 12)));
       ((pair_eqb (iv_a iv6, iv_b iv6) (2, 12)));
       ((pair_eqb (iv_a iv7, iv_b iv7) (2, 12)));
       ((pair_eqb (iv_a iv8, iv_b iv8) (0, 12)));
       ((pair_eqb (iv_a iv9, iv_b iv9) (0, 12)));
       ((pair_eqb (iv_a iv10, iv_b iv10) (0, 12)))]) = true.
Proof. vm_compute. reflexivity. Qed.

(** test_intervals.py:254 TestIntervalConstructorWithTS.test_interval_iterator *)
Example test_interval_iterator : passes (
  let heap0 : heap Z := [] in
  do tb1 <- build (mkArgs (mkFstr None AlD) (ts 2016 12 31 0 0 0) (ts 2017 1 12 0 0 0) (LPat (PList [0; 1; 0])) [] (fun x => negb (x =? 0)) 0 false (-999999) WDuration conf_num) heap0;
  do iv2 <- get_interval (fst tb1) (RPair (Some (ts 2017 1 2 15 0 0)) (Some (ts 2017 1 8 15 0 0))) None None true C11 None;
  do wl3 <- iv_workshifts (fst tb1) iv2 DAny None;
  do l5 <- mapM (fun x4 => ( Ok x4)) wl3;
  do wl6 <- iv_workshifts (fst tb1) iv2 DAny None;
  do x7 <- py_get_res l5 0;
  do x8 <- py_get_res wl6 0;
  do x9 <- py_get_res l5 0;
  do x10 <- py_get_res l5 0;
  do x11 <- py_get_res l5 1;
  do x12 <- py_get_res wl6 1;
  do x13 <- py_get_res l5 1;
  do x14 <- py_get_res l5 1;
  do x15 <- py_get_res l5 2;
  do x16 <- py_get_res wl6 2;
  do x17 <- py_get_res l5 2;
  do x18 <- py_get_res l5 2;
  do x19 <- py_get_res l5 3;
  do x20 <- py_get_res wl6 3;
  do x21 <- py_get_res l5 3;
  do x22 <- py_get_res l5 3;
  do x23 <- py_get_res l5 4;
  do x24 <- py_get_res wl6 4;
  do x25 <- py_get_res l5 4;
  do x26 <- py_get_res l5 4;
  do x27 <- py_get_res l5 5;
  do x28 <- py_get_res wl6 5;
  do x29 <- py_get_res l5 5;
  do x30 <- py_get_res l5 5;
  do x31 <- py_get_res l5 6;
  do x32 <- py_get_res wl6 6;
  do x33 <- py_get_res l5 6;
  do x34 <- py_get_res l5 6;
  Ok [(((zlen l5) =? 7));
       (((zlen wl6) =? 7));
       true;
       true;
       (((ws_loc x9) =? 2));
       (((ws_loc x10) =? 2));
       true;
       true;
       (((ws_loc x13) =? 3));
       (((ws_loc x14) =? 3));
       true;
       true;
       (((ws_loc x17) =? 4));
       (((ws_loc x18) =? 4));
       true;
       true;
       (((ws_loc x21) =? 5));
       (((ws_loc x22) =? 5));
       true;
       true;
       (((ws_loc x25) =? 6));
       (((ws_loc x26) =? 6));
       true;
       true;
       (((ws_loc x29) =? 7));
       (((ws_loc x30) =? 7));
       true;
       true;
       (((ws_loc x33) =? 8));
       (((ws_loc x34) =? 8))]) = true.
Proof. vm_compute. reflexivity. Qed.

(** test_intervals.py:269 TestIntervalConstructorWithTS.test_interval_constructor_with_two_ts_open_ended *)
Example test_interval_constructor_with_two_ts_open_ended : passes (
  let heap0 : heap Z := [] in
  do tb1 <- build (mkArgs (mkFstr None AlD) (ts 2016 12 31 0 0 0) (ts 2017 1 12 0 0 0) (LPat (PList [0; 1; 0])) [] (fun x => negb (x =? 0)) 0 false (-999999) WDuration conf_num) heap0;
  do iv2 <- get_interval (fst tb1) (RPair (Some (ts 2017 1 2 15 0 0)) (Some (ts 2017 1 8 15 0 0))) None None true C11 None;
  do iv3 <- get_interval (fst tb1) (RPair (Some (ts 2017 1 2 15 0 0)) (Some (ts 2017 1 8 15 0 0))) None None true C11 None;
  do iv4 <- get_interval (fst tb1) (RPair (Some (ts 2017 1 2 15 0 0)) (Some (ts 2017 1 8 15 0 0))) None None true C01 None;
  do iv5 <- get_interval (fst tb1) (RPair (Some (ts 2017 1 2 15 0 0)) (Some (ts 2017 1 8 15 0 0))) None None true C10 None;
  do iv6 <- get_interval (fst tb1) (RPair (Some (ts 2017 1 2 15 0 0)) (Some (ts 2017 1 8 15 0 0))) None None true C00 None;
  do iv7 <- get_interval (fst tb1) (RPair (Some (ts 2017 1 2 15 0 0)) (Some (ts 2017 1 3 15 0 0))) None None true C01 None;
  do iv8 <- get_interval (fst tb1) (RPair (Some (ts 2017 1 2 15 0 0)) (Some (ts 2017 1 3 15 0 0))) None None true C10 None;
  Ok [((pair_eqb (iv_a iv2, iv_b iv2) (2, 8)));
       (((iv_length iv2) =? 7));
       ((pair_eqb (iv_a iv3, iv_b iv3) (iv_a iv2, iv_b iv2)));
       ((pair_eqb (iv_a iv4, iv_b iv4) (3, 8)));
       (((iv_length iv4) =? 6));
       ((pair_eqb (iv_a iv5, iv_b iv5) (2, 7)));
       (((iv_length iv5) =? 6));
       ((pair_eqb (iv_a iv6, iv_b iv6) (3, 7)));
       (((iv_length iv6) =? 5));
       ((pair_eqb (iv_a iv7, iv_b iv7) (3, 3)));
       (((iv_length iv7) =? 1));
       ((pair_eqb (iv_a iv8, iv_b iv8) (2, 2)));
       (((iv_length iv8) =? 1))]) = true.
Proof. vm_compute. reflexivity. Qed.

(** test_intervals.py:300 TestIntervalConstructorWithTS.test_interval_constructor_with_closed_leads_to_void *)
Example test_interval_constructor_with_closed_leads_to_void : passes (
  let heap0 : heap Z := [] in
  do tb1 <- build (mkArgs (mkFstr None AlD) (ts 2016 12 31 0 0 0) (ts 2017 1 12 0 0 0) (LPat (PList [0; 1; 0])) [] (fun x => negb (x =? 0)) 0 false (-999999) WDuration conf_num) heap0;
  do iv2 <- get_interval (fst tb1) (RPair (Some (ts 2017 1 2 15 0 0)) (Some (ts 2017 1 2 15 0 0))) None None true C11 None;
  Ok [((pair_eqb (iv_a iv2, iv_b iv2) (2, 2)));
       (((iv_length iv2) =? 1));
       raises [EVoidInterval] (do iv3 <- get_interval (fst tb1) (RPair (Some (ts 2017 1 2 15 0 0)) (Some (ts 2017 1 2 15 0 0))) None None true C01 None; Ok tt);
       raises [EVoidInterval] (do iv4 <- get_interval (fst tb1) (RPair (Some (ts 2017 1 2 15 0 0)) (Some (ts 2017 1 2 15 0 0))) None None true C01 None; Ok tt);
       raises [EVoidInterval] (do iv5 <- get_interval (fst tb1) (RPair (Some (ts 2017 1 2 15 0 0)) (Some (ts 2017 1 2 15 0 0))) None None true C10 None; Ok tt);
       raises [EVoidInterval] (do iv6 <- get_interval (fst tb1) (RPair (Some (ts 2017 1 2 15 0 0)) (Some (ts 2017 1 2 15 0 0))) None None true C00 None; Ok tt);
       raises [EVoidInterval] (do iv7 <- get_interval (fst tb1) (RPair (Some (ts 2017 1 2 15 0 0)) (Some (ts 2017 1 3 15 0 0))) None None true C00 None; Ok tt)]) = true.
Proof. vm_compute. reflexivity. Qed.

(** test_intervals.py:320 TestIntervalConstructorWithTS.test_interval_constructor_with_OOB_ts *)
Example test_interval_constructor_with_OOB_ts : passes (
  let heap0 : heap Z := [] in
  do tb1 <- build (mkArgs (mkFstr None AlD) (ts 2016 12 31 0 0 0) (ts 2017 1 12 0 0 0) (LPat (PList [0; 1; 0])) [] (fun x => negb (x =? 0)) 0 false (-999999) WDuration conf_num) heap0;
  Ok [raises [EPartialOutOfBounds] (do iv2 <- get_interval (fst tb1) (RPair (Some (ts 2017 1 2 15 0 0)) (Some (ts 2017 1 13 15 0 0))) None None true C11 None; Ok tt);
       raises [EPartialOutOfBounds] (do iv3 <- get_interval (fst tb1) (RPair (Some (ts 2017 1 2 15 0 0)) (Some (ts 2017 1 13 15 0 0))) None None false C11 None; Ok tt);
       raises [EPartialOutOfBounds] (do iv4 <- get_interval (fst tb1) (RPair (Some (ts 2017 1 2 15 0 0)) (Some (ts 2017 1 13 15 0 0))) None None false C11 None; Ok tt);
       raises [EPartialOutOfBounds] (do iv5 <- get_interval (fst tb1) (RPair (Some (ts 2016 12 30 15 0 0)) (Some (ts 2017 1 8 15 0 0))) None None true C11 None; Ok tt);
       raises [EPartialOutOfBounds] (do iv6 <- get_interval (fst tb1) (RPair (Some (ts 2016 12 30 15 0 0)) (Some (ts 2017 1 8 15 0 0))) None None false C11 None; Ok tt);
       raises [EPartialOutOfBounds] (do iv7 <- get_interval (fst tb1) (RPair (Some (ts 2016 12 30 15 0 0)) (Some (ts 2017 1 13 15 0 0))) None None true C11 None; Ok tt);
       raises [EPartialOutOfBounds] (do iv8 <- get_interval (fst tb1) (RPair (Some (ts 2016 12 30 15 0 0)) (Some (ts 2017 1 13 15 0 0))) None None false C11 None; Ok tt);
       raises [EVoidInterval] (do iv9 <- get_interval (fst tb1) (RPair (Some (ts 2017 1 13 15 0 0)) (Some (ts 2016 12 30 15 0 0))) None None true C11 None; Ok tt);
       raises [EOutOfBounds] (do iv10 <- get_interval (fst tb1) (RPair (Some (ts 2016 12 25 15 0 0)) (Some (ts 2016 12 30 15 0 0))) None None true C11 None; Ok tt);
       raises [EOutOfBounds] (do iv11 <- get_interval (fst tb1) (RPair (Some (ts 2016 12 30 15 0 0)) (Some (ts 2016 12 25 15 0 0))) None None true C11 None; Ok tt);
       raises [EOutOfBounds] (do iv12 <- get_interval (fst tb1) (RPair (Some (ts 2017 1 13 15 0 0)) (Some (ts 2017 1 15 15 0 0))) None None true C11 None; Ok tt);
       raises [EOutOfBounds] (do iv13 <- get_interval (fst tb1) (RPair (Some (ts 2017 1 15 15 0 0)) (Some (ts 2017 1 13 15 0 0))) None None true C11 None; Ok tt)]) = true.
Proof. vm_compute. reflexivity. Qed.

(** test_intervals.py:356 TestIntervalConstructorWithTS.test_interval_constructor_with_same_ts *)
Example test_interval_constructor_with_same_ts : passes (
  let heap0 : heap Z := [] in
  do tb1 <- build (mkArgs (mkFstr None AlD) (ts 2016 12 31 0 0 0) (ts 2017 1 12 0 0 0) (LPat (PList [0; 1; 0])) [] (fun x => negb (x =? 0)) 0 false (-999999) WDuration conf_num) heap0;
  do iv2 <- get_interval (fst tb1) (RPair (Some (ts 2017 1 2 15 0 0)) (Some (ts 2017 1 2 15 0 0))) None None true C11 None;
  do t3 <- iv_start_time (fst tb1) iv2;
  do t4 <- iv_end_time (fst tb1) iv2;
  do t5 <- iv_end_time (fst tb1) iv2;
  Ok [((t3 =? (ts 2017 1 2 0 0 0)));
       ((t4 >? (ts 2017 1 2 23 59 59)));
       ((t5 <? (ts 2017 1 3 0 0 0)));
       ((pair_eqb (iv_a iv2, iv_b iv2) (2, 2)));
       (((iv_length iv2) =? 1))]) = true.
Proof. vm_compute. reflexivity. Qed.

(** test_intervals.py:365 TestIntervalConstructorWithTS.test_interval_constructor_reverse_ts_to_same_BU *)
Example test_interval_constructor_reverse_ts_to_same_BU : passes (
  let heap0 : heap Z := [] in
  do tb1 <- build (mkArgs (mkFstr None AlD) (ts 2016 12 31 0 0 0) (ts 2017 1 12 0 0 0) (LPat (PList [0; 1; 0])) [] (fun x => negb (x =? 0)) 0 false (-999999) WDuration conf_num) heap0;
  do iv2 <- get_interval (fst tb1) (RPair (Some (ts 2017 1 2 15 0 0)) (Some (ts 2017 1 2 10 0 0))) None None true C11 None;
  do t3 <- iv_start_time (fst tb1) iv2;
  do t4 <- iv_end_time (fst tb1) iv2;
  do t5 <- iv_end_time (fst tb1) iv2;
  Ok [((t3 =? (ts 2017 1 2 0 0 0)));
       ((t4 >? (ts 2017 1 2 23 59 59)));
       ((t5 <? (ts 2017 1 3 0 0 0)));
       ((pair_eqb (iv_a iv2, iv_b iv2) (2, 2)));
       (((iv_length iv2) =? 1))]) = true.
Proof. vm_compute. reflexivity. Qed.

(** test_intervals.py:374 TestIntervalConstructorWithTS.test_interval_constructor_reverse_ts *)
Example test_interval_constructor_reverse_ts : passes (
  let heap0 : heap Z := [] in
  do tb1 <- build (mkArgs (mkFstr None AlD) (ts 2016 12 31 0 0 0) (ts 2017 1 12 0 0 0) (LPat (PList [0; 1; 0])) [] (fun x => negb (x =? 0)) 0 false (-999999) WDuration conf_num) heap0;
  Ok [raises [EVoidInterval] (do iv2 <- get_interval (fst tb1) (RPair (Some (ts 2017 1 8 15 0 0)) (Some (ts 2017 1 2 15 0 0))) None None true C11 None; Ok tt);
       raises [EVoidInterval] (do iv3 <- get_interval (fst tb1) (RPair (Some (ts 2017 1 8 15 0 0)) (Some (ts 2017 1 2 15 0 0))) None None true C11 None; Ok tt)]) = true.
Proof. vm_compute. reflexivity. Qed.

(** test_intervals.py:381 TestIntervalConstructorWithTS.test_interval_constructor_two_pd_periods_as_ts *)
Example test_interval_constructor_two_pd_periods_as_ts : passes (
  let heap0 : heap Z := [] in
  do tb1 <- build (mkArgs (mkFstr None AlD) (ts 2016 12 31 0 0 0) (ts 2017 3 31 0 0 0) (LPat (PList [0; 1; 0])) [] (fun x => negb (x =? 0)) 0 false (-999999) WDuration conf_num) heap0;
  do iv2 <- get_interval (fst tb1) (RPair (Some (p_start (period_at (ts 2017 1 5 15 0 0) (mkFstr None AlM)))) (Some (p_start (period_at (ts 2017 2 19 15 0 0) (mkFstr None AlM))))) None None true C11 None;
  do t3 <- iv_start_time (fst tb1) iv2;
  do t4 <- iv_end_time (fst tb1) iv2;
  do t5 <- iv_end_time (fst tb1) iv2;
  do iv6 <- get_interval (fst tb1) (RPair (Some (p_start (period_at (ts 2017 1 5 15 0 0) (mkFstr None AlM)))) (Some (p_start (period_at (ts 2017 2 19 15 0 0) (mkFstr None AlM))))) None None true C11 None;
  Ok [((t3 =? (ts 2017 1 1 0 0 0)));
       ((t4 >? (ts 2017 2 1 23 59 59)));
       ((t5 <? (ts 2017 2 2 0 0 0)));
       ((pair_eqb (iv_a iv2, iv_b iv2) (1, 32)));
       (((iv_length iv2) =? 32));
       ((pair_eqb (iv_a iv6, iv_b iv6) (iv_a iv2, iv_b iv2)))]) = true.
Proof. vm_compute. reflexivity. Qed.

(** test_intervals.py:400 TestIntervalConstructorDefault.test_interval_constructor_default *)
Example test_interval_constructor_default : passes (
  let heap0 : heap Z := [] in
  do tb1 <- build (mkArgs (mkFstr None AlD) (ts 2016 12 31 0 0 0) (ts 2017 1 12 0 0 0) (LPat (PList [0; 1; 0])) [] (fun x => negb (x =? 0)) 0 false (-999999) WDuration conf_num) heap0;
  do iv2 <- get_interval (fst tb1) RNone None None true C11 None;
  do t3 <- iv_start_time (fst tb1) iv2;
  do t4 <- iv_end_time (fst tb1) iv2;
  do t5 <- iv_end_time (fst tb1) iv2;
  Ok [((t3 =? (ts 2016 12 31 0 0 0)));
       ((t4 >? (ts 2017 1 12 23 59 59)));
       ((t5 <? (ts 2017 1 13 0 0 0)));
       ((pair_eqb (iv_a iv2, iv_b iv2) (0, 12)));
       (((iv_length iv2) =? 13))]) = true.
Proof. vm_compute. reflexivity. Qed.

(** test_intervals.py:409 TestIntervalConstructorDefault.test_interval_constructor_default_open_ended *)
Example test_interval_constructor_default_open_ended : passes (
  let heap0 : heap Z := [] in
  do tb1 <- build (mkArgs (mkFstr None AlD) (ts 2016 12 31 0 0 0) (ts 2017 1 12 0 0 0) (LPat (PList [0; 1; 0])) [] (fun x => negb (x =? 0)) 0 false (-999999) WDuration conf_num) heap0;
  do iv2 <- get_interval (fst tb1) RNone None None true C00 None;
  do t3 <- iv_start_time (fst tb1) iv2;
  do t4 <- iv_end_time (fst tb1) iv2;
  do t5 <- iv_end_time (fst tb1) iv2;
  Ok [((t3 =? (ts 2017 1 1 0 0 0)));
       ((t4 >? (ts 2017 1 11 23 59 59)));
       ((t5 <? (ts 2017 1 12 0 0 0)));
       ((pair_eqb (iv_a iv2, iv_b iv2) (1, 11)));
       (((iv_length iv2) =? 11))]) = true.
Proof. vm_compute. reflexivity. Qed.

(** test_intervals.py:418 TestIntervalConstructorDefault.test_interval_constructor_default_closed_leads_to_void *)
Example test_interval_constructor_default_closed_leads_to_void : passes (
  let heap0 : heap Z := [] in
  do tb1 <- build (mkArgs (mkFstr None AlD) (ts 2017 1 1 0 0 0) (ts 2017 1 1 0 0 0) (LPat (PList [1])) [] (fun x => negb (x =? 0)) 0 false (-999999) WDuration conf_num) heap0;
  Ok [raises [EVoidInterval] (do iv2 <- get_interval (fst tb1) RNone None None true C01 None; Ok tt);
       raises [EVoidInterval] (do iv3 <- get_interval (fst tb1) RNone None None true C10 None; Ok tt);
       raises [EVoidInterval] (do iv4 <- get_interval (fst tb1) RNone None None true C00 None; Ok tt)]) = true.
Proof. vm_compute. reflexivity. Qed.

(** test_intervals.py:432 TestIntervalConstructorFromPeriod.test_interval_constructor_with_period *)
Example test_interval_constructor_with_period : passes (
  let heap0 : heap Z := [] in
  do tb1 <- build (mkArgs (mkFstr None AlD) (ts 2016 12 31 0 0 0) (ts 2017 1 12 0 0 0) (LPat (PList [0; 1; 0])) [] (fun x => negb (x =? 0)) 0 false (-999999) WDuration conf_num) heap0;
  do iv2 <- get_interval (fst tb1) (RPoint (ts 2017 1 2 15 0 0)) None (Some (mkFstr None (AlW None))) true C11 None;
  do t3 <- iv_start_time (fst tb1) iv2;
  do t4 <- iv_end_time (fst tb1) iv2;
  do t5 <- iv_end_time (fst tb1) iv2;
  do iv6 <- get_interval (fst tb1) (RPoint (ts 2017 1 2 15 0 0)) None (Some (mkFstr None (AlW None))) true C11 None;
  Ok [((t3 =? (ts 2017 1 2 0 0 0)));
       ((t4 >? (ts 2017 1 8 23 59 59)));
       ((t5 <? (ts 2017 1 9 0 0 0)));
       ((pair_eqb (iv_a iv2, iv_b iv2) (2, 8)));
       (((iv_length iv2) =? 7));
       ((pair_eqb (iv_a iv6, iv_b iv6) (iv_a iv2, iv_b iv2)))]) = true.
Proof. vm_compute. reflexivity. Qed.

(** test_intervals.py:444 TestIntervalConstructorFromPeriod.test_interval_constructor_with_OOB_period *)
Example test_interval_constructor_with_OOB_period : passes (
  let heap0 : heap Z := [] in
  do tb1 <- build (mkArgs (mkFstr None AlD) (ts 2016 12 31 0 0 0) (ts 2017 1 12 0 0 0) (LPat (PList [0; 1; 0])) [] (fun x => negb (x =? 0)) 0 false (-999999) WDuration conf_num) heap0;
  do iv2 <- get_interval (fst tb1) (RPoint (ts 2017 1 1 15 0 0)) None (Some (mkFstr None (AlW None))) true C11 None;
  do iv5 <- get_interval (fst tb1) (RPoint (ts 2016 12 26 15 0 0)) None (Some (mkFstr None (AlW None))) true C11 None;
  do iv6 <- get_interval (fst tb1) (RPoint (ts 2017 1 10 15 0 0)) None (Some (mkFstr None (AlW None))) true C11 None;
  do iv8 <- get_interval (fst tb1) (RPoint (ts 2017 1 14 15 0 0)) None (Some (mkFstr None (AlW None))) true C11 None;
  do iv9 <- get_interval (fst tb1) (RPoint (ts 2017 3 10 15 0 0)) None (Some (mkFstr None (AlA (Some 3)))) true C11 None;
  Ok [((pair_eqb (iv_a iv2, iv_b iv2) (0, 1)));
       raises [EPartialOutOfBounds] (do iv3 <- get_interval (fst tb1) (RPoint (ts 2017 1 1 15 0 0)) None (Some (mkFstr None (AlW None))) false C11 None; Ok tt);
       raises [EPartialOutOfBounds] (do iv4 <- get_interval (fst tb1) (RPoint (ts 2017 1 1 15 0 0)) None (Some (mkFstr None (AlW None))) false C11 None; Ok tt);
       ((pair_eqb (iv_a iv5, iv_b iv5) (0, 1)));
       ((pair_eqb (iv_a iv6, iv_b iv6) (9, 12)));
       raises [EPartialOutOfBounds] (do iv7 <- get_interval (fst tb1) (RPoint (ts 2017 1 10 15 0 0)) None (Some (mkFstr None (AlW None))) false C11 None; Ok tt);
       ((pair_eqb (iv_a iv8, iv_b iv8) (9, 12)));
       ((pair_eqb (iv_a iv9, iv_b iv9) (0, 12)));
       raises [EPartialOutOfBounds] (do iv10 <- get_interval (fst tb1) (RPoint (ts 2017 3 10 15 0 0)) None (Some (mkFstr None (AlA (Some 3)))) false C11 None; Ok tt);
       raises [EOutOfBounds] (do iv11 <- get_interval (fst tb1) (RPoint (ts 2017 1 18 15 0 0)) None (Some (mkFstr None (AlW None))) true C11 None; Ok tt)]) = true.
Proof. vm_compute. reflexivity. Qed.

(** test_intervals.py:477 TestIntervalConstructorFromPeriod.test_interval_constructor_with_bad_period *)
Example test_interval_constructor_with_bad_period : passes (
  let heap0 : heap Z := [] in
  do tb1 <- build (mkArgs (mkFstr None AlD) (ts 2016 12 31 0 0 0) (ts 2017 1 12 0 0 0) (LPat (PList [0; 1; 0])) [] (fun x => negb (x =? 0)) 0 false (-999999) WDuration conf_num) heap0;
  Ok [raises [EValue] (do iv2 <- Api.get_interval_any conf_nat (fst tb1) (Api.mkIa (Api.PVal (Api.VTime (ts 2017 1 2 15 0 0))) None Api.FBad true C11 Api.SNone); Ok tt);
       raises [EValue] (do iv3 <- Api.get_interval_any conf_nat (fst tb1) (Api.mkIa (Api.PVal (Api.VTime (ts 2017 1 2 15 0 0))) None Api.FBad true C11 Api.SNone); Ok tt);
       raises [EValue] (do iv4 <- Api.get_interval_any conf_nat (fst tb1) (Api.mkIa (Api.PVal Api.VText) None (Api.FStr (mkFstr None (AlW None))) true C11 Api.SNone); Ok tt)]) = true.
Proof. vm_compute. reflexivity. Qed.

(** test_intervals.py:486 TestIntervalConstructorFromPeriod.test_interval_constructor_from_pd_period *)
Example test_interval_constructor_from_pd_period : passes (
  let heap0 : heap Z := [] in
  do tb1 <- build (mkArgs (mkFstr None AlD) (ts 2016 12 31 0 0 0) (ts 2017 1 12 0 0 0) (LPat (PList [0; 1; 0])) [] (fun x => negb (x =? 0)) 0 false (-999999) WDuration conf_num) heap0;
  do iv2 <- get_interval (fst tb1) (RPeriod (period_at (ts 2017 1 5 15 0 0) (mkFstr None (AlW None)))) None None true C11 None;
  do t3 <- iv_start_time (fst tb1) iv2;
  do t4 <- iv_end_time (fst tb1) iv2;
  do t5 <- iv_end_time (fst tb1) iv2;
  do w6 <- get_workshift (fst tb1) (p_start (period_at (ts 2017 1 5 15 0 0) (mkFstr None (AlW None)))) None;
  Ok [((t3 =? (ts 2017 1 2 0 0 0)));
       ((t4 >? (ts 2017 1 8 23 59 59)));
       ((t5 <? (ts 2017 1 9 0 0 0)));
       ((pair_eqb (iv_a iv2, iv_b iv2) (2, 8)));
       (((iv_length iv2) =? 7));
       (((ws_loc w6) =? 2))]) = true.
Proof. vm_compute. reflexivity. Qed.

(** test_intervals.py:501 TestIntervalConstructorFromPeriod.test_interval_constructor_from_pd_period_OOB *)
Example test_interval_constructor_from_pd_period_OOB : passes (
  let heap0 : heap Z := [] in
  do tb1 <- build (mkArgs (mkFstr None AlD) (ts 2016 12 31 0 0 0) (ts 2017 1 12 0 0 0) (LPat (PList [0; 1; 0])) [] (fun x => negb (x =? 0)) 0 false (-999999) WDuration conf_num) heap0;
  do iv2 <- get_interval (fst tb1) (RPeriod (period_at (ts 2017 1 10 15 0 0) (mkFstr None (AlW None)))) None None true C11 None;
  do iv4 <- get_interval (fst tb1) (RPeriod (period_at (ts 2017 1 1 15 0 0) (mkFstr None (AlW None)))) None None true C11 None;
  do iv6 <- get_interval (fst tb1) (RPeriod (period_at (ts 2017 3 8 15 0 0) (mkFstr None (AlA (Some 3))))) None None true C11 None;
  Ok [((pair_eqb (iv_a iv2, iv_b iv2) (9, 12)));
       raises [EPartialOutOfBounds] (do iv3 <- get_interval (fst tb1) (RPeriod (period_at (ts 2017 1 10 15 0 0) (mkFstr None (AlW None)))) None None false C11 None; Ok tt);
       ((pair_eqb (iv_a iv4, iv_b iv4) (0, 1)));
       raises [EPartialOutOfBounds] (do iv5 <- get_interval (fst tb1) (RPeriod (period_at (ts 2017 1 1 15 0 0) (mkFstr None (AlW None)))) None None false C11 None; Ok tt);
       ((pair_eqb (iv_a iv6, iv_b iv6) (0, 12)));
       raises [EPartialOutOfBounds] (do iv7 <- get_interval (fst tb1) (RPeriod (period_at (ts 2017 3 8 15 0 0) (mkFstr None (AlA (Some 3))))) None None false C11 None; Ok tt);
       raises [EOutOfBounds] (do iv8 <- get_interval (fst tb1) (RPeriod (period_at (ts 2017 1 25 15 0 0) (mkFstr None (AlW None)))) None None true C11 None; Ok tt)]) = true.
Proof. vm_compute. reflexivity. Qed.

(** test_intervals.py:525 TestIntervalConstructorFromPeriod.test_interval_constructor_period_smaller_than_bu *)
Example test_interval_constructor_period_smaller_than_bu : passes (
  let heap0 : heap Z := [] in
  do tb1 <- build (mkArgs (mkFstr None AlH) (ts 2017 10 4 0 0 0) (ts 2017 10 4 23 59 0) (LPat (PList [0; 1])) [] (fun x => negb (x =? 0)) 0 false (-999999) WDuration conf_num) heap0;
  do tb2 <- build (mkArgs (mkFstr None AlH) (ts 2017 10 4 0 0 0) (ts 2017 10 4 23 59 0) (LPat (PList [0; 1])) [] (fun x => negb (x =? 0)) 0 true (-999999) WDuration conf_num) heap0;
  do iv5 <- get_interval (fst tb1) (RPoint (ts 2017 10 4 1 0 0)) None (Some (mkFstr None AlT)) true C11 None;
  do iv8 <- get_interval (fst tb2) (RPoint (ts 2017 10 4 1 59 0)) None (Some (mkFstr None AlT)) true C11 None;
  Ok [raises [EVoidInterval] (do iv3 <- get_interval (fst tb1) (RPoint (ts 2017 10 4 1 15 0)) None (Some (mkFstr None AlT)) true C11 None; Ok tt);
       raises [EVoidInterval] (do iv4 <- get_interval (fst tb2) (RPoint (ts 2017 10 4 1 15 0)) None (Some (mkFstr None AlT)) true C11 None; Ok tt);
       ((pair_eqb (iv_a iv5, iv_b iv5) (1, 1)));
       raises [EVoidInterval] (do iv6 <- get_interval (fst tb1) (RPoint (ts 2017 10 4 1 59 0)) None (Some (mkFstr None AlT)) true C11 None; Ok tt);
       raises [EVoidInterval] (do iv7 <- get_interval (fst tb2) (RPoint (ts 2017 10 4 1 0 0)) None (Some (mkFstr None AlT)) true C11 None; Ok tt);
       ((pair_eqb (iv_a iv8, iv_b iv8) (1, 1)))]) = true.
Proof. vm_compute. reflexivity. Qed.

(** test_intervals.py:555 TestIntervalConstructorFromPeriod.test_interval_constructor_period_straddles_2_ws *)
Example test_interval_constructor_period_straddles_2_ws : passes (
  let heap0 : heap Z := [] in
  do tb1 <- build (mkArgs (mkFstr None AlT) (ts 2017 10 4 0 0 0) (ts 2017 10 4 23 59 0) (LOrg (DMarker (mkMarker (mkFstr (Some 90%positive) AlT) [])) [(LLab 0); (LLab 1); (LLab 0); (LLab 2)]) [] (fun x => negb (x =? 0)) 0 false (-999999) WDuration conf_num) heap0;
  do iv2 <- get_interval (fst tb1) (RPoint (ts 2017 10 4 1 0 0)) None (Some (mkFstr None AlH)) true C11 None;
  Ok [((pair_eqb (iv_a iv2, iv_b iv2) (1, 1)))]) = true.
Proof. vm_compute. reflexivity. Qed.

(** test_intervals.py:566 TestIntervalConstructorFromPeriod.test_interval_constructor_period_start_aligned_end_inside_ws *)
Example test_interval_constructor_period_start_aligned_end_inside_ws : passes (
  let heap0 : heap Z := [] in
  do tb1 <- build (mkArgs (mkFstr None AlT) (ts 2017 10 4 0 0 0) (ts 2017 10 4 23 59 0) (LOrg (DMarker (mkMarker (mkFstr (Some 90%positive) AlT) [])) [(LLab 0); (LLab 1); (LLab 0); (LLab 2)]) [] (fun x => negb (x =? 0)) 0 false (-999999) WDuration conf_num) heap0;
  do iv2 <- get_interval (fst tb1) (RPoint (ts 2017 10 4 0 0 0)) None (Some (mkFstr None AlH)) true C11 None;
  do tb3 <- build (mkArgs (mkFstr None AlT) (ts 2017 10 4 0 0 0) (ts 2017 10 4 23 59 0) (LOrg (DMarker (mkMarker (mkFstr (Some 90%positive) AlT) [])) [(LLab 0); (LLab 1); (LLab 0); (LLab 2)]) [] (fun x => negb (x =? 0)) 0 true (-999999) WDuration conf_num) heap0;
  Ok [((pair_eqb (iv_a iv2, iv_b iv2) (0, 0)));
       raises [EVoidInterval] (do iv4 <- get_interval (fst tb3) (RPoint (ts 2017 10 4 0 0 0)) None (Some (mkFstr None AlH)) true C11 None; Ok tt)]) = true.
Proof. vm_compute. reflexivity. Qed.

(** test_intervals.py:587 TestIntervalConstructorFromPeriod.test_interval_constructor_period_begin_inside_ws_end_aligned *)
Example test_interval_constructor_period_begin_inside_ws_end_aligned : passes (
  let heap0 : heap Z := [] in
  do tb1 <- build (mkArgs (mkFstr None AlT) (ts 2017 10 4 0 0 0) (ts 2017 10 4 23 59 0) (LOrg (DMarker (mkMarker (mkFstr (Some 90%positive) AlT) [])) [(LLab 0); (LLab 1); (LLab 0); (LLab 2)]) [] (fun x => negb (x =? 0)) 0 false (-999999) WDuration conf_num) heap0;
  do tb3 <- build (mkArgs (mkFstr None AlT) (ts 2017 10 4 0 0 0) (ts 2017 10 4 23 59 0) (LOrg (DMarker (mkMarker (mkFstr (Some 90%positive) AlT) [])) [(LLab 0); (LLab 1); (LLab 0); (LLab 2)]) [] (fun x => negb (x =? 0)) 0 true (-999999) WDuration conf_num) heap0;
  do iv4 <- get_interval (fst tb3) (RPoint (ts 2017 10 4 2 0 0)) None (Some (mkFstr None AlH)) true C11 None;
  Ok [raises [EVoidInterval] (do iv2 <- get_interval (fst tb1) (RPoint (ts 2017 10 4 2 0 0)) None (Some (mkFstr None AlH)) true C11 None; Ok tt);
       ((pair_eqb (iv_a iv4, iv_b iv4) (1, 1)))]) = true.
Proof. vm_compute. reflexivity. Qed.

(** test_intervals.py:608 TestIntervalConstructorFromPeriod.test_interval_constructor_period_entirely_inside_ws *)
Example test_interval_constructor_period_entirely_inside_ws : passes (
  let heap0 : heap Z := [] in
  do tb1 <- build (mkArgs (mkFstr None AlT) (ts 2017 10 4 0 0 0) (ts 2017 10 4 23 59 0) (LOrg (DMarker (mkMarker (mkFstr (Some 3%positive) AlH) [])) [(LLab 0); (LLab 1); (LLab 0); (LLab 2)]) [] (fun x => negb (x =? 0)) 0 false (-999999) WDuration conf_num) heap0;
  do tb3 <- build (mkArgs (mkFstr None AlT) (ts 2017 10 4 0 0 0) (ts 2017 10 4 23 59 0) (LOrg (DMarker (mkMarker (mkFstr (Some 3%positive) AlH) [])) [(LLab 0); (LLab 1); (LLab 0); (LLab 2)]) [] (fun x => negb (x =? 0)) 0 true (-999999) WDuration conf_num) heap0;
  Ok [raises [EVoidInterval] (do iv2 <- get_interval (fst tb1) (RPoint (ts 2017 10 4 4 0 0)) None (Some (mkFstr None AlH)) true C11 None; Ok tt);
       raises [EVoidInterval] (do iv4 <- get_interval (fst tb3) (RPoint (ts 2017 10 4 4 0 0)) None (Some (mkFstr None AlH)) true C11 None; Ok tt)]) = true.
Proof. vm_compute. reflexivity. Qed.

(** test_intervals.py:635 TestIntervalConstructorWithLength.test_interval_constructor_with_length *)
Example test_interval_constructor_with_length : passes (
  let heap0 : heap Z := [] in
  do tb1 <- build (mkArgs (mkFstr None AlD) (ts 2016 12 31 0 0 0) (ts 2017 1 12 0 0 0) (LPat (PList [0; 1; 0])) [] (fun x => negb (x =? 0)) 0 false (-999999) WDuration conf_num) heap0;
  do iv2 <- get_interval (fst tb1) (RPoint (ts 2017 1 2 15 0 0)) (Some 7) None true C11 None;
  do t3 <- iv_start_time (fst tb1) iv2;
  do t4 <- iv_end_time (fst tb1) iv2;
  do t5 <- iv_end_time (fst tb1) iv2;
  do iv6 <- get_interval (fst tb1) (RPoint (ts 2017 1 2 15 0 0)) (Some 7) None true C11 None;
  Ok [((t3 =? (ts 2017 1 2 0 0 0)));
       ((t4 >? (ts 2017 1 8 23 59 59)));
       ((t5 <? (ts 2017 1 9 0 0 0)));
       ((pair_eqb (iv_a iv2, iv_b iv2) (2, 8)));
       (((iv_length iv2) =? 7));
       ((pair_eqb (iv_a iv6, iv_b iv6) (iv_a iv2, iv_b iv2)))]) = true.
Proof. vm_compute. reflexivity. Qed.

(** test_intervals.py:647 TestIntervalConstructorWithLength.test_interval_constructor_with_negative_length *)
Example test_interval_constructor_with_negative_length : passes (
  let heap0 : heap Z := [] in
  do tb1 <- build (mkArgs (mkFstr None AlD) (ts 2016 12 31 0 0 0) (ts 2017 1 12 0 0 0) (LPat (PList [0; 1; 0])) [] (fun x => negb (x =? 0)) 0 false (-999999) WDuration conf_num) heap0;
  do iv2 <- get_interval (fst tb1) (RPoint (ts 2017 1 8 15 0 0)) (Some (-7)) None true C11 None;
  do t3 <- iv_start_time (fst tb1) iv2;
  do t4 <- iv_end_time (fst tb1) iv2;
  do t5 <- iv_end_time (fst tb1) iv2;
  Ok [((t3 =? (ts 2017 1 2 0 0 0)));
       ((t4 >? (ts 2017 1 8 23 59 59)));
       ((t5 <? (ts 2017 1 9 0 0 0)));
       ((pair_eqb (iv_a iv2, iv_b iv2) (2, 8)));
       (((iv_length iv2) =? 7))]) = true.
Proof. vm_compute. reflexivity. Qed.

(** test_intervals.py:656 TestIntervalConstructorWithLength.test_interval_constructor_with_length_one *)
Example test_interval_constructor_with_length_one : passes (
  let heap0 : heap Z := [] in
  do tb1 <- build (mkArgs (mkFstr None AlD) (ts 2016 12 31 0 0 0) (ts 2017 1 12 0 0 0) (LPat (PList [0; 1; 0])) [] (fun x => negb (x =? 0)) 0 false (-999999) WDuration conf_num) heap0;
  do iv2 <- get_interval (fst tb1) (RPoint (ts 2017 1 2 15 0 0)) (Some 1) None true C11 None;
  do iv3 <- get_interval (fst tb1) (RPoint (ts 2017 1 2 15 0 0)) (Some (-1)) None true C11 None;
  Ok [((pair_eqb (iv_a iv2, iv_b iv2) (2, 2)));
       (((iv_length iv2) =? 1));
       ((pair_eqb (iv_a iv3, iv_b iv3) (2, 2)));
       (((iv_length iv3) =? 1))]) = true.
Proof. vm_compute. reflexivity. Qed.

(** test_intervals.py:665 TestIntervalConstructorWithLength.test_interval_constructor_with_zero_length *)
Example test_interval_constructor_with_zero_length : passes (
  let heap0 : heap Z := [] in
  do tb1 <- build (mkArgs (mkFstr None AlD) (ts 2016 12 31 0 0 0) (ts 2017 1 12 0 0 0) (LPat (PList [0; 1; 0])) [] (fun x => negb (x =? 0)) 0 false (-999999) WDuration conf_num) heap0;
  Ok [raises [EVoidInterval] (do iv2 <- get_interval (fst tb1) (RPoint (ts 2017 1 8 15 0 0)) (Some 0) None true C11 None; Ok tt);
       raises [EVoidInterval] (do iv3 <- get_interval (fst tb1) (RPoint (ts 2017 1 8 15 0 0)) (Some 0) None true C11 None; Ok tt)]) = true.
Proof. vm_compute. reflexivity. Qed.

(** test_intervals.py:673 TestIntervalConstructorWithLength.test_interval_constructor_with_length_OOB *)
Example test_interval_constructor_with_length_OOB : passes (
  let heap0 : heap Z := [] in
  do tb1 <- build (mkArgs (mkFstr None AlD) (ts 2016 12 31 0 0 0) (ts 2017 1 12 0 0 0) (LPat (PList [0; 1; 0])) [] (fun x => negb (x =? 0)) 0 false (-999999) WDuration conf_num) heap0;
  Ok [raises [EPartialOutOfBounds] (do iv2 <- get_interval (fst tb1) (RPoint (ts 2017 1 2 15 0 0)) (Some 20) None true C11 None; Ok tt);
       raises [EPartialOutOfBounds] (do iv3 <- get_interval (fst tb1) (RPoint (ts 2017 1 2 15 0 0)) (Some 20) None true C11 None; Ok tt);
       raises [EOutOfBounds] (do iv4 <- get_interval (fst tb1) (RPoint (ts 2016 12 30 15 0 0)) (Some 10) None true C11 None; Ok tt);
       raises [EOutOfBounds] (do iv5 <- get_interval (fst tb1) (RPoint (ts 2016 12 30 15 0 0)) (Some 20) None true C11 None; Ok tt);
       raises [EOutOfBounds] (do iv6 <- get_interval (fst tb1) (RPoint (ts 2017 1 20 15 0 0)) (Some 10) None true C11 None; Ok tt)]) = true.
Proof. vm_compute. reflexivity. Qed.

(** test_intervals.py:698 TestIntervalConstructorWithLength.test_interval_constructor_with_bad_length *)
Example test_interval_constructor_with_bad_length : passes (
  let heap0 : heap Z := [] in
  do tb1 <- build (mkArgs (mkFstr None AlD) (ts 2016 12 31 0 0 0) (ts 2017 1 12 0 0 0) (LPat (PList [0; 1; 0])) [] (fun x => negb (x =? 0)) 0 false (-999999) WDuration conf_num) heap0;
  Ok [raises [EType] (do iv2 <- Api.get_interval_any conf_nat (fst tb1) (Api.mkIa (Api.PVal (Api.VTime (ts 2017 1 2 15 0 0))) (Some Api.VObj) Api.FNone true C11 Api.SNone); Ok tt);
       raises [EType] (do iv3 <- Api.get_interval_any conf_nat (fst tb1) (Api.mkIa (Api.PVal (Api.VTime (ts 2017 1 2 15 0 0))) (Some Api.VObj) Api.FNone true C11 Api.SNone); Ok tt);
       raises [EType] (do iv4 <- Api.get_interval_any conf_nat (fst tb1) (Api.mkIa (Api.PVal (Api.VTime (ts 2017 1 2 15 0 0))) (Some Api.VText) Api.FNone true C11 Api.SNone); Ok tt);
       raises [EValue] (do iv5 <- Api.get_interval_any conf_nat (fst tb1) (Api.mkIa (Api.PVal Api.VText) (Some (Api.VInt 5)) Api.FNone true C11 Api.SNone); Ok tt)]) = true.
Proof. vm_compute. reflexivity. Qed.

(** test_intervals.py:712 TestIntervalConstructorBadArgs.test_interval_constructor_bad_arg_combinations *)
Example test_interval_constructor_bad_arg_combinations : passes (
  let heap0 : heap Z := [] in
  do tb1 <- build (mkArgs (mkFstr None AlD) (ts 2016 12 31 0 0 0) (ts 2017 1 12 0 0 0) (LPat (PList [0; 1; 0])) [] (fun x => negb (x =? 0)) 0 false (-999999) WDuration conf_num) heap0;
  Ok [raises [EType] (do iv2 <- get_interval (fst tb1) (RPoint (ts 2017 1 1 0 0 0)) None None true C11 None; Ok tt);
       raises [EType] (do iv3 <- Api.get_interval_any conf_nat (fst tb1) (Api.mkIa (Api.PTuple [(Api.VTime (ts 2017 1 1 0 0 0))]) None Api.FNone true C11 Api.SNone); Ok tt);
       raises [EType] (do iv4 <- Api.get_interval_any conf_nat (fst tb1) (Api.mkIa (Api.PVal (Api.VTime (ts 2017 1 1 0 0 0))) (Some (Api.VTime (ts 2017 1 5 0 0 0))) Api.FNone true C11 Api.SNone); Ok tt);
       raises [EType] (do iv5 <- Api.get_interval_any conf_nat (fst tb1) (Api.mkIa (Api.PTuple [(Api.VTime (ts 2017 1 1 0 0 0))]) (Some (Api.VInt 1)) Api.FNone true C11 Api.SNone); Ok tt);
       raises [EType] (do iv6 <- Api.get_interval_any conf_nat (fst tb1) (Api.mkIa (Api.PTuple [Api.VText; Api.VText]) (Some (Api.VInt 1)) Api.FNone true C11 Api.SNone); Ok tt);
       raises [EType] (do iv7 <- Api.get_interval_any conf_nat (fst tb1) (Api.mkIa (Api.PTuple [(Api.VTime (ts 2017 1 2 0 0 0))]) None (Api.FStr (mkFstr None (AlW None))) true C11 Api.SNone); Ok tt);
       raises [EType] (do iv8 <- Api.get_interval_any conf_nat (fst tb1) (Api.mkIa (Api.PTuple [Api.VText; Api.VText]) None (Api.FStr (mkFstr None (AlW None))) true C11 Api.SNone); Ok tt);
       raises [EType] (do iv9 <- Api.get_interval_any conf_nat (fst tb1) (Api.mkIa (Api.PVal Api.VText) (Some (Api.VInt 1)) (Api.FStr (mkFstr None (AlW None))) true C11 Api.SNone); Ok tt);
       raises [EType] (do iv10 <- Api.get_interval_any conf_nat (fst tb1) (Api.mkIa (Api.PTuple [Api.VText; Api.VText]) (Some (Api.VInt 1)) (Api.FStr (mkFstr None (AlW None))) true C11 Api.SNone); Ok tt);
       raises [EType] (do iv11 <- get_interval (fst tb1) RNone (Some 1) (Some (mkFstr None (AlW None))) true C11 None; Ok tt)]) = true.
Proof. vm_compute. reflexivity. Qed.

(** test_intervals.py:735 TestIntervalConstructorBadArgs.test_interval_constructor_bad_arg_combinations_2 *)
Example test_interval_constructor_bad_arg_combinations_2 : passes (
  let heap0 : heap Z := [] in
  do tb1 <- build (mkArgs (mkFstr None AlD) (ts 2016 12 31 0 0 0) (ts 2017 1 12 0 0 0) (LPat (PList [0; 1; 0])) [] (fun x => negb (x =? 0)) 0 false (-999999) WDuration conf_num) heap0;
  Ok [raises [EType] (do c2 <- Api.call conf_nat (fst tb1) (Api.COne (Api.PTuple [(Api.VTime (ts 2017 1 1 0 0 0))])); Ok tt);
       raises [EType] (do iv3 <- Api.get_interval_any conf_nat (fst tb1) (Api.mkIa (Api.PVal (Api.VTime (ts 2017 1 1 0 0 0))) (Some (Api.VTime (ts 2017 1 5 0 0 0))) Api.FNone true C11 Api.SNone); Ok tt);
       raises [EType] (do iv4 <- Api.get_interval_any conf_nat (fst tb1) (Api.mkIa (Api.PTuple [(Api.VTime (ts 2017 1 1 0 0 0))]) (Some (Api.VInt 1)) Api.FNone true C11 Api.SNone); Ok tt);
       raises [EType] (do iv5 <- Api.get_interval_any conf_nat (fst tb1) (Api.mkIa (Api.PTuple [Api.VText; Api.VText]) (Some (Api.VInt 1)) Api.FNone true C11 Api.SNone); Ok tt);
       raises [EType] (do iv6 <- Api.get_interval_any conf_nat (fst tb1) (Api.mkIa (Api.PTuple [(Api.VTime (ts 2017 1 2 0 0 0))]) None (Api.FStr (mkFstr None (AlW None))) true C11 Api.SNone); Ok tt);
       raises [EType] (do iv7 <- Api.get_interval_any conf_nat (fst tb1) (Api.mkIa (Api.PTuple [Api.VText; Api.VText]) None (Api.FStr (mkFstr None (AlW None))) true C11 Api.SNone); Ok tt);
       raises [EType] (do iv8 <- Api.get_interval_any conf_nat (fst tb1) (Api.mkIa (Api.PVal Api.VText) (Some (Api.VInt 1)) (Api.FStr (mkFstr None (AlW None))) true C11 Api.SNone); Ok tt);
       raises [EType] (do iv9 <- Api.get_interval_any conf_nat (fst tb1) (Api.mkIa (Api.PTuple [Api.VText; Api.VText]) (Some (Api.VInt 1)) (Api.FStr (mkFstr None (AlW None))) true C11 Api.SNone); Ok tt);
       raises [EType] (do iv10 <- get_interval (fst tb1) RNone (Some 1) (Some (mkFstr None (AlW None))) true C11 None; Ok tt)]) = true.
Proof. vm_compute. reflexivity. Qed.

(** test_intervals.py:759 TestIntervalConstructorDirect.test_interval_direct_with_locs *)
Example test_interval_direct_with_locs : passes (
  let heap0 : heap Z := [] in
  do tb1 <- build (mkArgs (mkFstr None AlD) (ts 2016 12 31 0 0 0) (ts 2017 1 12 0 0 0) (LPat (PList [0; 1; 0])) [] (fun x => negb (x =? 0)) 0 false (-999999) WDuration conf_num) heap0;
  do iv2 <- new_interval (fst tb1) 2 8 (tb_default (fst tb1));
  do t3 <- iv_start_time (fst tb1) iv2;
  do t4 <- iv_end_time (fst tb1) iv2;
  do t5 <- iv_end_time (fst tb1) iv2;
  Ok [((t3 =? (ts 2017 1 2 0 0 0)));
       ((t4 >? (ts 2017 1 8 23 59 59)));
       ((t5 <? (ts 2017 1 9 0 0 0)));
       ((pair_eqb (iv_a iv2, iv_b iv2) (2, 8)));
       (((iv_length iv2) =? 7))]) = true.
Proof. vm_compute. reflexivity. Qed.

(** test_intervals.py:768 TestIntervalConstructorDirect.test_interval_direct_with_ws *)
Example test_interval_direct_with_ws : passes (
  let heap0 : heap Z := [] in
  do tb1 <- build (mkArgs (mkFstr None AlD) (ts 2016 12 31 0 0 0) (ts 2017 1 12 0 0 0) (LPat (PList [0; 1; 0])) [] (fun x => negb (x =? 0)) 0 false (-999999) WDuration conf_num) heap0;
  do w2 <- new_workshift (fst tb1) 2 (tb_default (fst tb1));
  do w3 <- new_workshift (fst tb1) 8 (tb_default (fst tb1));
  do iv4 <- new_interval (fst tb1) (ws_loc w2) (ws_loc w3) (tb_default (fst tb1));
  do t5 <- iv_start_time (fst tb1) iv4;
  do t6 <- iv_end_time (fst tb1) iv4;
  do t7 <- iv_end_time (fst tb1) iv4;
  Ok [((t5 =? (ts 2017 1 2 0 0 0)));
       ((t6 >? (ts 2017 1 8 23 59 59)));
       ((t7 <? (ts 2017 1 9 0 0 0)));
       ((pair_eqb (iv_a iv4, iv_b iv4) (2, 8)));
       (((iv_length iv4) =? 7))]) = true.
Proof. vm_compute. reflexivity. Qed.

(** test_intervals.py:779 TestIntervalConstructorDirect.test_interval_direct_schedules *)
Example test_interval_direct_schedules : passes (
  let heap0 : heap Z := [] in
  do tb1 <- build (mkArgs (mkFstr None AlD) (ts 2016 12 31 0 0 0) (ts 2017 1 12 0 0 0) (LPat (PList [0; 1; 0])) [] (fun x => negb (x =? 0)) 0 false (-999999) WDuration conf_num) heap0;
  do r2 <- add_schedule (fst tb1) 1 (fun x => true);
  do iv3 <- new_interval (fst r2) 2 8 (tb_default (fst r2));
  do iv4 <- new_interval (fst r2) 2 8 (snd r2);
  Ok [(((sc_name (iv_sched iv3)) =? (sc_name (tb_default (fst r2)))));
       (((sc_name (iv_sched iv4)) =? 1))]) = true.
Proof. vm_compute. reflexivity. Qed.

(** test_intervals.py:788 TestIntervalConstructorDirect.test_interval_direct_mixed_args *)
Example test_interval_direct_mixed_args : passes (
  let heap0 : heap Z := [] in
  do tb1 <- build (mkArgs (mkFstr None AlD) (ts 2016 12 31 0 0 0) (ts 2017 1 12 0 0 0) (LPat (PList [0; 1; 0])) [] (fun x => negb (x =? 0)) 0 false (-999999) WDuration conf_num) heap0;
  do w2 <- get_workshift (fst tb1) (ts 2017 1 8 0 0 0) None;
  do iv3 <- new_interval (fst tb1) 2 (ws_loc w2) (tb_default (fst tb1));
  do t4 <- iv_start_time (fst tb1) iv3;
  do t5 <- iv_end_time (fst tb1) iv3;
  do t6 <- iv_end_time (fst tb1) iv3;
  Ok [((t4 =? (ts 2017 1 2 0 0 0)));
       ((t5 >? (ts 2017 1 8 23 59 59)));
       ((t6 <? (ts 2017 1 9 0 0 0)));
       ((pair_eqb (iv_a iv3, iv_b iv3) (2, 8)));
       (((iv_length iv3) =? 7))]) = true.
Proof. vm_compute. reflexivity. Qed.

(** test_intervals.py:798 TestIntervalConstructorDirect.test_interval_direct_same_locs *)
Example test_interval_direct_same_locs : passes (
  let heap0 : heap Z := [] in
  do tb1 <- build (mkArgs (mkFstr None AlD) (ts 2016 12 31 0 0 0) (ts 2017 1 12 0 0 0) (LPat (PList [0; 1; 0])) [] (fun x => negb (x =? 0)) 0 false (-999999) WDuration conf_num) heap0;
  do iv2 <- new_interval (fst tb1) 2 2 (tb_default (fst tb1));
  do t3 <- iv_start_time (fst tb1) iv2;
  do t4 <- iv_end_time (fst tb1) iv2;
  do t5 <- iv_end_time (fst tb1) iv2;
  Ok [((t3 =? (ts 2017 1 2 0 0 0)));
       ((t4 >? (ts 2017 1 2 23 59 59)));
       ((t5 <? (ts 2017 1 3 0 0 0)));
       ((pair_eqb (iv_a iv2, iv_b iv2) (2, 2)));
       (((iv_length iv2) =? 1))]) = true.
Proof. vm_compute. reflexivity. Qed.

(** test_intervals.py:807 TestIntervalConstructorDirect.test_interval_direct_reverse_locs *)
Example test_interval_direct_reverse_locs : passes (
  let heap0 : heap Z := [] in
  do tb1 <- build (mkArgs (mkFstr None AlD) (ts 2016 12 31 0 0 0) (ts 2017 1 12 0 0 0) (LPat (PList [0; 1; 0])) [] (fun x => negb (x =? 0)) 0 false (-999999) WDuration conf_num) heap0;
  Ok [raises [EVoidInterval] (do iv2 <- new_interval (fst tb1) 8 2 (tb_default (fst tb1)); Ok tt)]) = true.
Proof. vm_compute. reflexivity. Qed.

(** test_intervals.py:812 TestIntervalConstructorDirect.test_interval_direct_OOB_locs *)
Example test_interval_direct_OOB_locs : passes (
  let heap0 : heap Z := [] in
  do tb1 <- build (mkArgs (mkFstr None AlD) (ts 2016 12 31 0 0 0) (ts 2017 1 12 0 0 0) (LPat (PList [0; 1; 0])) [] (fun x => negb (x =? 0)) 0 false (-999999) WDuration conf_num) heap0;
  Ok [raises [EOutOfBounds] (do iv2 <- new_interval (fst tb1) (-1) 2 (tb_default (fst tb1)); Ok tt);
       raises [EOutOfBounds] (do iv3 <- new_interval (fst tb1) 8 13 (tb_default (fst tb1)); Ok tt);
       raises [EOutOfBounds] (do iv4 <- new_interval (fst tb1) (-1) 13 (tb_default (fst tb1)); Ok tt);
       raises [EOutOfBounds] (do iv5 <- new_interval (fst tb1) 13 25 (tb_default (fst tb1)); Ok tt)]) = true.
Proof. vm_compute. reflexivity. Qed.

(** test_intervals.py:823 TestIntervalConstructorDirect.test_interval_direct_bad_args *)
Example test_interval_direct_bad_args : passes (
  let heap0 : heap Z := [] in
  do tb1 <- build (mkArgs (mkFstr None AlD) (ts 2016 12 31 0 0 0) (ts 2017 1 12 0 0 0) (LPat (PList [0; 1; 0])) [] (fun x => negb (x =? 0)) 0 false (-999999) WDuration conf_num) heap0;
  Ok [raises [EAttribute] (do iv2 <- Api.interval_any false None (Api.PTuple [(Api.VInt 2); (Api.VInt 8)]) (Api.SSched (tb_default (fst tb1))); Ok tt);
       raises [EType] (do iv3 <- Api.interval_any false (Some (fst tb1)) (Api.PTuple [(Api.VInt 2); Api.VObj]) (Api.SSched (tb_default (fst tb1))); Ok tt);
       raises [EType] (do iv4 <- Api.interval_any false (Some (fst tb1)) (Api.PTuple [(Api.VInt 2); (Api.VTime (ts 2017 1 8 0 0 0))]) (Api.SSched (tb_default (fst tb1))); Ok tt);
       raises [EIndex] (do iv5 <- Api.interval_any false (Some (fst tb1)) (Api.PTuple [(Api.VInt 2)]) (Api.SSched (tb_default (fst tb1))); Ok tt);
       raises [EType] (do iv6 <- Api.interval_any false (Some (fst tb1)) (Api.PVal Api.VText) (Api.SSched (tb_default (fst tb1))); Ok tt);
       raises [EType] (do iv7 <- Api.interval_any true (Some (fst tb1)) (Api.PTuple [(Api.VInt 8); (Api.VInt 2)]) Api.SOther; Ok tt)]) = true.
Proof. vm_compute. reflexivity. Qed.

(** test_intervals.py:842 TestIntervalIteration.test_ivl_as_generator *)
Example test_ivl_as_generator : passes (
  let heap0 : heap Z := [] in
  do tb1 <- build (mkArgs (mkFstr None AlD) (ts 2016 12 31 0 0 0) (ts 2017 1 12 0 0 0) (LPat (PList [0; 1; 0])) [] (fun x => negb (x =? 0)) 0 false (-999999) WDuration conf_num) heap0;
  do iv2 <- new_interval (fst tb1) 1 4 (tb_default (fst tb1));
  do wl3 <- iv_workshifts (fst tb1) iv2 DAny None;
  do l5 <- mapM (fun x4 => ( Ok (ws_loc x4))) wl3;
  do l7 <- mapM (fun x6 => ( Ok (((sc_name (ws_sched x6)) =? (sc_name (tb_default (fst tb1))))))) wl3;
  Ok [((zlist_eqb l5 [1; 2; 3; 4]));
       (forallb (fun b => b) l7)]) = true.
Proof. vm_compute. reflexivity. Qed.

(** test_intervals.py:853 TestIntervalIteration.test_ivl_as_generator_change_schedule *)
Example test_ivl_as_generator_change_schedule : passes (
  let heap0 : heap Z := [] in
  do tb1 <- build (mkArgs (mkFstr None AlD) (ts 2016 12 31 0 0 0) (ts 2017 1 12 0 0 0) (LPat (PList [0; 1; 0])) [] (fun x => negb (x =? 0)) 0 false (-999999) WDuration conf_num) heap0;
  do r2 <- add_schedule (fst tb1) 1 (fun x => ((x >? 1)));
  do iv3 <- new_interval (fst r2) 1 4 (snd r2);
  do wl4 <- iv_workshifts (fst r2) iv3 DAny None;
  do l6 <- mapM (fun x5 => ( Ok (ws_loc x5))) wl4;
  do l8 <- mapM (fun x7 => ( Ok (((sc_name (ws_sched x7)) =? (sc_name (snd r2)))))) wl4;
  Ok [((zlist_eqb l6 [1; 2; 3; 4]));
       (forallb (fun b => b) l8)]) = true.
Proof. vm_compute. reflexivity. Qed.

(** test_intervals.py:865 TestIntervalIteration.test_ivl_workshift_generator *)
Example test_ivl_workshift_generator : passes (
  let heap0 : heap Z := [] in
  do tb1 <- build (mkArgs (mkFstr None AlD) (ts 2016 12 31 0 0 0) (ts 2017 1 12 0 0 0) (LPat (PList [0; 1; 0])) [] (fun x => negb (x =? 0)) 0 false (-999999) WDuration conf_num) heap0;
  do iv2 <- new_interval (fst tb1) 1 4 (tb_default (fst tb1));
  do wl3 <- iv_workshifts (fst tb1) iv2 DOn None;
  do l5 <- mapM (fun x4 => ( Ok (ws_loc x4))) wl3;
  do wl6 <- iv_workshifts (fst tb1) iv2 DOff None;
  do l8 <- mapM (fun x7 => ( Ok (ws_loc x7))) wl6;
  do wl9 <- iv_workshifts (fst tb1) iv2 DAny None;
  do l11 <- mapM (fun x10 => ( Ok (ws_loc x10))) wl9;
  Ok [((zlist_eqb l5 [1; 4]));
       ((zlist_eqb l8 [2; 3]));
       ((zlist_eqb l11 [1; 2; 3; 4]))]) = true.
Proof. vm_compute. reflexivity. Qed.

(** test_intervals.py:884 TestIntervalIteration.test_ivl_workshift_generator_no_such_duty *)
Example test_ivl_workshift_generator_no_such_duty : passes (
  let heap0 : heap Z := [] in
  do tb1 <- build (mkArgs (mkFstr None AlD) (ts 2016 12 31 0 0 0) (ts 2017 1 12 0 0 0) (LPat (PList [0; 1; 0])) [] (fun x => negb (x =? 0)) 0 false (-999999) WDuration conf_num) heap0;
  do iv2 <- new_interval (fst tb1) 2 3 (tb_default (fst tb1));
  do wl3 <- iv_workshifts (fst tb1) iv2 DOn None;
  do r4 <- add_schedule (fst tb1) 1 (fun x => true);
  do iv5 <- new_interval (fst r4) 2 3 (snd r4);
  do wl6 <- iv_workshifts (fst r4) iv5 DOff None;
  Ok [((zlen wl3 =? 0));
       ((zlen wl6 =? 0))]) = true.
Proof. vm_compute. reflexivity. Qed.

(** test_intervals.py:892 TestIntervalIteration.test_workshift_generator_change_schedule *)
Example test_workshift_generator_change_schedule : passes (
  let heap0 : heap Z := [] in
  do tb1 <- build (mkArgs (mkFstr None AlD) (ts 2016 12 31 0 0 0) (ts 2017 1 12 0 0 0) (LPat (PList [0; 1; 0])) [] (fun x => negb (x =? 0)) 0 false (-999999) WDuration conf_num) heap0;
  do r2 <- add_schedule (fst tb1) 1 (fun x => true);
  do iv3 <- new_interval (fst r2) 1 4 (tb_default (fst r2));
  do wl4 <- iv_workshifts (fst r2) iv3 DOn None;
  do l6 <- mapM (fun x5 => ( Ok (ws_loc x5))) wl4;
  do l8 <- mapM (fun x7 => ( Ok (((sc_name (ws_sched x7)) =? (sc_name (tb_default (fst r2))))))) wl4;
  do wl9 <- iv_workshifts (fst r2) iv3 DOn (Some (snd r2));
  do l11 <- mapM (fun x10 => ( Ok (ws_loc x10))) wl9;
  do l13 <- mapM (fun x12 => ( Ok (((sc_name (ws_sched x12)) =? (sc_name (snd r2)))))) wl9;
  Ok [((zlist_eqb l6 [1; 4]));
       (forallb (fun b => b) l8);
       ((zlist_eqb l11 [1; 2; 3; 4]));
       (forallb (fun b => b) l13)]) = true.
Proof. vm_compute. reflexivity. Qed.

(** test_intervals.py:928 TestVoidInterval.test_void_interval_with_locs *)
Example test_void_interval_with_locs : passes (
  let heap0 : heap Z := [] in
  do tb1 <- build (mkArgs (mkFstr None AlD) (ts 2016 12 31 0 0 0) (ts 2017 1 12 0 0 0) (LPat (PList [0; 1; 0])) [] (fun x => negb (x =? 0)) 0 false (-999999) WDuration conf_num) heap0;
  do iv2 <- new_void_interval (fst tb1) 8 2 (tb_default (fst tb1));
  do t3 <- iv_start (fst tb1) iv2;
  do t4 <- iv_end (fst tb1) iv2;
  Ok [(match t3 with None => true | Some _ => false end);
       (match t4 with None => true | Some _ => false end);
       ((pair_eqb (iv_a iv2, iv_b iv2) (8, 2)));
       (((iv_length iv2) =? 0))]) = true.
Proof. vm_compute. reflexivity. Qed.

(** test_intervals.py:936 TestVoidInterval.test_void_interval_with_ws *)
Example test_void_interval_with_ws : passes (
  let heap0 : heap Z := [] in
  do tb1 <- build (mkArgs (mkFstr None AlD) (ts 2016 12 31 0 0 0) (ts 2017 1 12 0 0 0) (LPat (PList [0; 1; 0])) [] (fun x => negb (x =? 0)) 0 false (-999999) WDuration conf_num) heap0;
  do w2 <- new_workshift (fst tb1) 8 (tb_default (fst tb1));
  do w3 <- new_workshift (fst tb1) 2 (tb_default (fst tb1));
  do iv4 <- new_void_interval (fst tb1) (ws_loc w2) (ws_loc w3) (tb_default (fst tb1));
  do t5 <- iv_start (fst tb1) iv4;
  do t6 <- iv_end (fst tb1) iv4;
  Ok [(match t5 with None => true | Some _ => false end);
       (match t6 with None => true | Some _ => false end);
       ((pair_eqb (iv_a iv4, iv_b iv4) (8, 2)));
       (((iv_length iv4) =? 0))]) = true.
Proof. vm_compute. reflexivity. Qed.

(** test_intervals.py:946 TestVoidInterval.test_void_interval_mixed_args *)
Example test_void_interval_mixed_args : passes (
  let heap0 : heap Z := [] in
  do tb1 <- build (mkArgs (mkFstr None AlD) (ts 2016 12 31 0 0 0) (ts 2017 1 12 0 0 0) (LPat (PList [0; 1; 0])) [] (fun x => negb (x =? 0)) 0 false (-999999) WDuration conf_num) heap0;
  do w2 <- new_workshift (fst tb1) 8 (tb_default (fst tb1));
  do iv3 <- new_void_interval (fst tb1) (ws_loc w2) 2 (tb_default (fst tb1));
  do t4 <- iv_start (fst tb1) iv3;
  do t5 <- iv_end (fst tb1) iv3;
  Ok [(match t4 with None => true | Some _ => false end);
       (match t5 with None => true | Some _ => false end);
       ((pair_eqb (iv_a iv3, iv_b iv3) (8, 2)));
       (((iv_length iv3) =? 0))]) = true.
Proof. vm_compute. reflexivity. Qed.

(** test_intervals.py:955 TestVoidInterval.test_void_interval_schedules *)
Example test_void_interval_schedules : passes (
  let heap0 : heap Z := [] in
  do tb1 <- build (mkArgs (mkFstr None AlD) (ts 2016 12 31 0 0 0) (ts 2017 1 12 0 0 0) (LPat (PList [0; 1; 0])) [] (fun x => negb (x =? 0)) 0 false (-999999) WDuration conf_num) heap0;
  do r2 <- add_schedule (fst tb1) 1 (fun x => true);
  do iv3 <- new_void_interval (fst r2) 8 2 (tb_default (fst r2));
  do iv4 <- new_void_interval (fst r2) 8 2 (snd r2);
  Ok [(((sc_name (iv_sched iv3)) =? (sc_name (tb_default (fst r2)))));
       (((sc_name (iv_sched iv4)) =? 1))]) = true.
Proof. vm_compute. reflexivity. Qed.

(** test_intervals.py:963 TestVoidInterval.test_void_interval_fails_with_normal_locs *)
Example test_void_interval_fails_with_normal_locs : passes (
  let heap0 : heap Z := [] in
  do tb1 <- build (mkArgs (mkFstr None AlD) (ts 2016 12 31 0 0 0) (ts 2017 1 12 0 0 0) (LPat (PList [0; 1; 0])) [] (fun x => negb (x =? 0)) 0 false (-999999) WDuration conf_num) heap0;
  Ok [raises [EVoidInterval] (do iv2 <- new_void_interval (fst tb1) 2 8 (tb_default (fst tb1)); Ok tt)]) = true.
Proof. vm_compute. reflexivity. Qed.

(** test_intervals.py:968 TestVoidInterval.test_voic_interval_OB_locs *)
Example test_voic_interval_OB_locs : passes (
  let heap0 : heap Z := [] in
  do tb1 <- build (mkArgs (mkFstr None AlD) (ts 2016 12 31 0 0 0) (ts 2017 1 12 0 0 0) (LPat (PList [0; 1; 0])) [] (fun x => negb (x =? 0)) 0 false (-999999) WDuration conf_num) heap0;
  Ok [raises [EOutOfBounds] (do iv2 <- new_void_interval (fst tb1) 2 (-1) (tb_default (fst tb1)); Ok tt);
       raises [EOutOfBounds] (do iv3 <- new_void_interval (fst tb1) 13 8 (tb_default (fst tb1)); Ok tt);
       raises [EOutOfBounds] (do iv4 <- new_void_interval (fst tb1) 13 (-1) (tb_default (fst tb1)); Ok tt);
       raises [EOutOfBounds] (do iv5 <- new_void_interval (fst tb1) 25 13 (tb_default (fst tb1)); Ok tt)]) = true.
Proof. vm_compute. reflexivity. Qed.

(** test_intervals.py:998 TestVoidInterval.test_void_interval__bad_args *)
Example test_void_interval__bad_args : passes (
  let heap0 : heap Z := [] in
  do tb1 <- build (mkArgs (mkFstr None AlD) (ts 2016 12 31 0 0 0) (ts 2017 1 12 0 0 0) (LPat (PList [0; 1; 0])) [] (fun x => negb (x =? 0)) 0 false (-999999) WDuration conf_num) heap0;
  Ok [raises [EAttribute] (do iv2 <- Api.interval_any true None (Api.PTuple [(Api.VInt 8); (Api.VInt 2)]) (Api.SSched (tb_default (fst tb1))); Ok tt);
       raises [EType] (do iv3 <- Api.interval_any true (Some (fst tb1)) (Api.PTuple [Api.VObj; (Api.VInt 2)]) (Api.SSched (tb_default (fst tb1))); Ok tt);
       raises [EType] (do iv4 <- Api.interval_any true (Some (fst tb1)) (Api.PTuple [(Api.VTime (ts 2017 1 8 0 0 0)); (Api.VInt 2)]) (Api.SSched (tb_default (fst tb1))); Ok tt);
       raises [EIndex] (do iv5 <- Api.interval_any true (Some (fst tb1)) (Api.PTuple [(Api.VInt 8)]) (Api.SSched (tb_default (fst tb1))); Ok tt);
       raises [EType] (do iv6 <- Api.interval_any true (Some (fst tb1)) (Api.PVal Api.VText) (Api.SSched (tb_default (fst tb1))); Ok tt);
       raises [EType] (do iv7 <- Api.interval_any true (Some (fst tb1)) (Api.PTuple [(Api.VInt 8); (Api.VInt 2)]) Api.SOther; Ok tt)]) = true.
Proof. vm_compute. reflexivity. Qed.
