(** ConfWorkshiftCompound: /repo/timeboard/tests/test_workshift_compound.py as examples about the model.
    Written by tools/tests2coq.py. *)
From Verif Require Api.
From Verif Require Import Base Civil Freq Frame Timeline Board When ConfBase.
From Coq Require Import QArith String.
Open Scope Z_scope.

(** test_workshift_compound.py:22 TestWorkshiftCompoundConstructor.test_locate *)
Example test_locate : passes (
  let heap0 : heap Z := [] in
  do tb1 <- build (mkArgs (mkFstr None AlD) (ts 2016 12 31 0 0 0) (ts 2017 1 12 0 0 0) (LOrg (DMarker (mkMarker (mkFstr None (AlW None)) [])) [(LLab 100); (LPat (PList [0; 0; 1; 1]))]) [] (fun x => negb (x =? 0)) 0 false (-999999) WDuration conf_num) heap0;
  do loc2 <- locate (fst tb1) (ts 2016 12 31 0 0 0) ByNone;
  do loc3 <- locate (fst tb1) (ts 2017 1 1 0 0 0) ByNone;
  do loc4 <- locate (fst tb1) (ts 2017 1 4 0 0 0) ByNone;
  do loc5 <- locate (fst tb1) (ts 2017 1 11 0 0 0) ByNone;
  do loc6 <- locate (fst tb1) (ts 2017 1 12 0 0 0) ByNone;
  Ok [((loc_eqb loc2 (mkLoc (Some 0) LOC_WITHIN)));
       ((loc_eqb loc3 (mkLoc (Some 0) LOC_WITHIN)));
       ((loc_eqb loc4 (mkLoc (Some 3) LOC_WITHIN)));
       ((loc_eqb loc5 (mkLoc (Some 8) LOC_WITHIN)));
       ((loc_eqb loc6 (mkLoc (Some 8) LOC_WITHIN)))]) = true.
Proof. vm_compute. reflexivity. Qed.

(** test_workshift_compound.py:35 TestWorkshiftCompoundConstructor.test_locate_outside *)
Example test_locate_outside : passes (
  let heap0 : heap Z := [] in
  do tb1 <- build (mkArgs (mkFstr None AlD) (ts 2016 12 31 0 0 0) (ts 2017 1 12 0 0 0) (LOrg (DMarker (mkMarker (mkFstr None (AlW None)) [])) [(LLab 100); (LPat (PList [0; 0; 1; 1]))]) [] (fun x => negb (x =? 0)) 0 false (-999999) WDuration conf_num) heap0;
  do loc2 <- locate (fst tb1) (ts 2017 1 13 0 0 0) ByNone;
  do loc3 <- locate (fst tb1) (ts 2016 12 30 0 0 0) ByNone;
  Ok [((loc_eqb loc2 (mkLoc None OOB_RIGHT)));
       ((loc_eqb loc3 (mkLoc None OOB_LEFT)))]) = true.
Proof. vm_compute. reflexivity. Qed.

(** test_workshift_compound.py:42 TestWorkshiftCompoundConstructor.test_workshift_ordinary_constructor *)
Example test_workshift_ordinary_constructor : passes (
  let heap0 : heap Z := [] in
  do tb1 <- build (mkArgs (mkFstr None AlD) (ts 2016 12 31 0 0 0) (ts 2017 1 12 0 0 0) (LOrg (DMarker (mkMarker (mkFstr None (AlW None)) [])) [(LLab 100); (LPat (PList [0; 0; 1; 1]))]) [] (fun x => negb (x =? 0)) 0 false (-999999) WDuration conf_num) heap0;
  do w2 <- get_workshift (fst tb1) (ts 2017 1 4 0 0 0) None;
  do t3 <- ws_start_time (tb_tl (fst tb1)) (ws_loc w2);
  do t4 <- ws_end_time (tb_tl (fst tb1)) (ws_loc w2);
  do t5 <- ws_end_time (tb_tl (fst tb1)) (ws_loc w2);
  do n6 <- ws_duration (tb_tl (fst tb1)) (ws_loc w2);
  do w7 <- get_workshift (fst tb1) (ts 2017 1 4 0 0 0) None;
  Ok [(((ws_loc w2) =? 3));
       ((t3 =? (ts 2017 1 4 0 0 0)));
       ((t4 >? (ts 2017 1 4 23 59 59)));
       ((t5 <? (ts 2017 1 5 0 0 0)));
       (((ws_label w2) =? 1));
       true;
       ((n6 =? 1));
       (((ws_loc w7) =? (ws_loc w2)))]) = true.
Proof. vm_compute. reflexivity. Qed.

(** test_workshift_compound.py:56 TestWorkshiftCompoundConstructor.test_workshift_compound_constructor *)
Example test_workshift_compound_constructor : passes (
  let heap0 : heap Z := [] in
  do tb1 <- build (mkArgs (mkFstr None AlD) (ts 2016 12 31 0 0 0) (ts 2017 1 12 0 0 0) (LOrg (DMarker (mkMarker (mkFstr None (AlW None)) [])) [(LLab 100); (LPat (PList [0; 0; 1; 1]))]) [] (fun x => negb (x =? 0)) 0 false (-999999) WDuration conf_num) heap0;
  do w2 <- get_workshift (fst tb1) (ts 2017 1 11 0 0 0) None;
  do t3 <- ws_start_time (tb_tl (fst tb1)) (ws_loc w2);
  do t4 <- ws_end_time (tb_tl (fst tb1)) (ws_loc w2);
  do t5 <- ws_end_time (tb_tl (fst tb1)) (ws_loc w2);
  do n6 <- ws_duration (tb_tl (fst tb1)) (ws_loc w2);
  do w7 <- get_workshift (fst tb1) (ts 2017 1 11 0 0 0) None;
  Ok [(((ws_loc w2) =? 8));
       ((t3 =? (ts 2017 1 9 0 0 0)));
       ((t4 >? (ts 2017 1 12 23 59 59)));
       ((t5 <? (ts 2017 1 13 0 0 0)));
       (((ws_label w2) =? 100));
       true;
       ((n6 =? 4));
       (((ws_loc w7) =? (ws_loc w2)));
       (((ws_label w7) =? (ws_label w2)))]) = true.
Proof. vm_compute. reflexivity. Qed.

(** test_workshift_compound.py:71 TestWorkshiftCompoundConstructor.test_workshift_constructor_compound_at_start *)
Example test_workshift_constructor_compound_at_start : passes (
  let heap0 : heap Z := [] in
  do tb1 <- build (mkArgs (mkFstr None AlD) (ts 2016 12 31 0 0 0) (ts 2017 1 12 0 0 0) (LOrg (DMarker (mkMarker (mkFstr None (AlW None)) [])) [(LLab 100); (LPat (PList [0; 0; 1; 1]))]) [] (fun x => negb (x =? 0)) 0 false (-999999) WDuration conf_num) heap0;
  do w2 <- get_workshift (fst tb1) (ts 2016 12 31 0 0 0) None;
  do t3 <- ws_start_time (tb_tl (fst tb1)) (ws_loc w2);
  do t4 <- ws_end_time (tb_tl (fst tb1)) (ws_loc w2);
  do t5 <- ws_end_time (tb_tl (fst tb1)) (ws_loc w2);
  do n6 <- ws_duration (tb_tl (fst tb1)) (ws_loc w2);
  do w7 <- get_workshift (fst tb1) (ts 2016 12 31 0 0 0) None;
  Ok [(((ws_loc w2) =? 0));
       ((t3 =? (ts 2016 12 31 0 0 0)));
       ((t4 >? (ts 2017 1 1 23 59 59)));
       ((t5 <? (ts 2017 1 2 0 0 0)));
       (((ws_label w2) =? 100));
       true;
       ((n6 =? 2));
       (((ws_loc w7) =? (ws_loc w2)));
       (((ws_label w7) =? (ws_label w2)))]) = true.
Proof. vm_compute. reflexivity. Qed.

(** test_workshift_compound.py:86 TestWorkshiftCompoundConstructor.test_workshift_constructor_compound_at_end *)
Example test_workshift_constructor_compound_at_end : passes (
  let heap0 : heap Z := [] in
  do tb1 <- build (mkArgs (mkFstr None AlD) (ts 2016 12 31 0 0 0) (ts 2017 1 12 0 0 0) (LOrg (DMarker (mkMarker (mkFstr None (AlW None)) [])) [(LLab 100); (LPat (PList [0; 0; 1; 1]))]) [] (fun x => negb (x =? 0)) 0 false (-999999) WDuration conf_num) heap0;
  do w2 <- get_workshift (fst tb1) (ts 2017 1 12 0 0 0) None;
  do t3 <- ws_start_time (tb_tl (fst tb1)) (ws_loc w2);
  do t4 <- ws_end_time (tb_tl (fst tb1)) (ws_loc w2);
  do t5 <- ws_end_time (tb_tl (fst tb1)) (ws_loc w2);
  do n6 <- ws_duration (tb_tl (fst tb1)) (ws_loc w2);
  do w7 <- get_workshift (fst tb1) (ts 2017 1 12 0 0 0) None;
  Ok [(((ws_loc w2) =? 8));
       ((t3 =? (ts 2017 1 9 0 0 0)));
       ((t4 >? (ts 2017 1 12 23 59 59)));
       ((t5 <? (ts 2017 1 13 0 0 0)));
       (((ws_label w2) =? 100));
       true;
       ((n6 =? 4));
       (((ws_loc w7) =? (ws_loc w2)));
       (((ws_label w7) =? (ws_label w2)))]) = true.
Proof. vm_compute. reflexivity. Qed.

(** test_workshift_compound.py:104 TestRollForwardCompound.test_rollforward_trivial_0_to_self *)
Example test_rollforward_trivial_0_to_self : passes (
  let heap0 : heap Z := [] in
  do tb1 <- build (mkArgs (mkFstr None AlD) (ts 2016 12 31 0 0 0) (ts 2017 1 12 0 0 0) (LOrg (DMarker (mkMarker (mkFstr None (AlW None)) [])) [(LLab 100); (LPat (PList [0; 0; 1; 1]))]) [] (fun x => negb (x =? 0)) 0 false (-999999) WDuration conf_num) heap0;
  do w2 <- get_workshift (fst tb1) (ts 2016 12 31 0 0 0) None;
  do w3 <- rollforward (fst tb1) w2 0 DOn None;
  do w4 <- get_workshift (fst tb1) (ts 2017 1 4 0 0 0) None;
  do w5 <- rollforward (fst tb1) w4 0 DOn None;
  do w6 <- get_workshift (fst tb1) (ts 2017 1 11 0 0 0) None;
  do w7 <- rollforward (fst tb1) w6 0 DOn None;
  do w8 <- get_workshift (fst tb1) (ts 2017 1 12 0 0 0) None;
  do w9 <- rollforward (fst tb1) w8 0 DOn None;
  Ok [(((ws_loc w3) =? 0));
       (((ws_loc w5) =? 3));
       (((ws_loc w7) =? 8));
       (((ws_loc w9) =? 8))]) = true.
Proof. vm_compute. reflexivity. Qed.

(** test_workshift_compound.py:119 TestRollForwardCompound.test_rollforward_trivial_0_to_next *)
Example test_rollforward_trivial_0_to_next : passes (
  let heap0 : heap Z := [] in
  do tb1 <- build (mkArgs (mkFstr None AlD) (ts 2016 12 31 0 0 0) (ts 2017 1 12 0 0 0) (LOrg (DMarker (mkMarker (mkFstr None (AlW None)) [])) [(LLab 0); (LPat (PList [0; 0; 1; 1]))]) [] (fun x => negb (x =? 0)) 0 false (-999999) WDuration conf_num) heap0;
  do w2 <- get_workshift (fst tb1) (ts 2016 12 31 0 0 0) None;
  do w3 <- rollforward (fst tb1) w2 0 DOn None;
  do w4 <- get_workshift (fst tb1) (ts 2017 1 3 0 0 0) None;
  do w5 <- rollforward (fst tb1) w4 0 DOn None;
  Ok [(((ws_loc w3) =? 3));
       (((ws_loc w5) =? 3))]) = true.
Proof. vm_compute. reflexivity. Qed.

(** test_workshift_compound.py:131 TestRollForwardCompound.test_rollforward_on_0 *)
Example test_rollforward_on_0 : passes (
  let heap0 : heap Z := [] in
  do tb1 <- build (mkArgs (mkFstr None AlD) (ts 2016 12 31 0 0 0) (ts 2017 1 12 0 0 0) (LOrg (DMarker (mkMarker (mkFstr None (AlW None)) [])) [(LLab 100); (LPat (PList [0; 0; 1; 1]))]) [] (fun x => negb (x =? 0)) 0 false (-999999) WDuration conf_num) heap0;
  do w2 <- get_workshift (fst tb1) (ts 2016 12 31 0 0 0) None;
  do w3 <- rollforward (fst tb1) w2 0 DOn None;
  do w4 <- rollforward (fst tb1) w2 0 DOff None;
  do w5 <- rollforward (fst tb1) w2 0 DSame None;
  do w6 <- rollforward (fst tb1) w2 0 DAlt None;
  do w7 <- rollforward (fst tb1) w2 0 DAny None;
  do w8 <- rollforward (fst tb1) w2 0 DOff None;
  do t9 <- ws_start_time (tb_tl (fst tb1)) (ws_loc w8);
  do w10 <- get_workshift (fst tb1) (ts 2017 1 1 0 0 0) None;
  do w11 <- rollforward (fst tb1) w10 0 DOff None;
  do t12 <- ws_start_time (tb_tl (fst tb1)) (ws_loc w11);
  Ok [((((ws_loc w3) =? 0) && ((ws_loc w4) =? 1) && ((ws_loc w5) =? 0) && ((ws_loc w6) =? 1) && ((ws_loc w7) =? 0)));
       ((t9 =? (ts 2017 1 2 0 0 0)));
       ((t12 =? (ts 2017 1 2 0 0 0)))]) = true.
Proof. vm_compute. reflexivity. Qed.

(** test_workshift_compound.py:144 TestRollForwardCompound.test_rollforward_off_0 *)
Example test_rollforward_off_0 : passes (
  let heap0 : heap Z := [] in
  do tb1 <- build (mkArgs (mkFstr None AlD) (ts 2016 12 31 0 0 0) (ts 2017 1 12 0 0 0) (LOrg (DMarker (mkMarker (mkFstr None (AlW None)) [])) [(LLab 0); (LPat (PList [0; 0; 1; 1]))]) [] (fun x => negb (x =? 0)) 0 false (-999999) WDuration conf_num) heap0;
  do w2 <- get_workshift (fst tb1) (ts 2016 12 31 0 0 0) None;
  do w3 <- rollforward (fst tb1) w2 0 DOn None;
  do w4 <- rollforward (fst tb1) w2 0 DOff None;
  do w5 <- rollforward (fst tb1) w2 0 DSame None;
  do w6 <- rollforward (fst tb1) w2 0 DAlt None;
  do w7 <- rollforward (fst tb1) w2 0 DAny None;
  Ok [((((ws_loc w3) =? 3) && ((ws_loc w4) =? 0) && ((ws_loc w5) =? 0) && ((ws_loc w6) =? 3) && ((ws_loc w7) =? 0)))]) = true.
Proof. vm_compute. reflexivity. Qed.

(** test_workshift_compound.py:155 TestRollForwardCompound.test_rollforward_on_n *)
Example test_rollforward_on_n : passes (
  let heap0 : heap Z := [] in
  do tb1 <- build (mkArgs (mkFstr None AlD) (ts 2016 12 31 0 0 0) (ts 2017 1 12 0 0 0) (LOrg (DMarker (mkMarker (mkFstr None (AlW None)) [])) [(LLab 100); (LPat (PList [0; 0; 1; 1]))]) [] (fun x => negb (x =? 0)) 0 false (-999999) WDuration conf_num) heap0;
  do w2 <- get_workshift (fst tb1) (ts 2016 12 31 0 0 0) None;
  do w3 <- rollforward (fst tb1) w2 2 DOn None;
  do w4 <- rollforward (fst tb1) w2 2 DOff None;
  do w5 <- rollforward (fst tb1) w2 2 DSame None;
  do w6 <- rollforward (fst tb1) w2 2 DAlt None;
  do w7 <- rollforward (fst tb1) w2 2 DAny None;
  Ok [((((ws_loc w3) =? 4) && ((ws_loc w4) =? 5) && ((ws_loc w5) =? 4) && ((ws_loc w6) =? 5) && ((ws_loc w7) =? 2)))]) = true.
Proof. vm_compute. reflexivity. Qed.

(** test_workshift_compound.py:163 TestRollForwardCompound.test_rollforward_off_n *)
Example test_rollforward_off_n : passes (
  let heap0 : heap Z := [] in
  do tb1 <- build (mkArgs (mkFstr None AlD) (ts 2016 12 31 0 0 0) (ts 2017 1 12 0 0 0) (LOrg (DMarker (mkMarker (mkFstr None (AlW None)) [])) [(LLab 0); (LPat (PList [0; 0; 1; 1]))]) [] (fun x => negb (x =? 0)) 0 false (-999999) WDuration conf_num) heap0;
  do w2 <- get_workshift (fst tb1) (ts 2016 12 31 0 0 0) None;
  do w3 <- rollforward (fst tb1) w2 2 DOn None;
  do w4 <- rollforward (fst tb1) w2 2 DOff None;
  do w5 <- rollforward (fst tb1) w2 2 DSame None;
  do w6 <- rollforward (fst tb1) w2 2 DAlt None;
  do w7 <- rollforward (fst tb1) w2 2 DAny None;
  Ok [((((ws_loc w3) =? 7) && ((ws_loc w4) =? 2) && ((ws_loc w5) =? 2) && ((ws_loc w6) =? 7) && ((ws_loc w7) =? 2)))]) = true.
Proof. vm_compute. reflexivity. Qed.

(** test_workshift_compound.py:174 TestRollForwardCompound.test_rollforward_on_n_negative_from_last_element *)
Example test_rollforward_on_n_negative_from_last_element : passes (
  let heap0 : heap Z := [] in
  do tb1 <- build (mkArgs (mkFstr None AlD) (ts 2016 12 31 0 0 0) (ts 2017 1 12 0 0 0) (LOrg (DMarker (mkMarker (mkFstr None (AlW None)) [])) [(LLab 100); (LPat (PList [0; 0; 1; 1]))]) [] (fun x => negb (x =? 0)) 0 false (-999999) WDuration conf_num) heap0;
  do w2 <- get_workshift (fst tb1) (ts 2017 1 11 0 0 0) None;
  do w3 <- rollforward (fst tb1) w2 (-2) DOn None;
  do w4 <- rollforward (fst tb1) w2 (-2) DAny None;
  Ok [(((ws_loc w3) =? 4));
       (((ws_loc w4) =? 6));
       raises [EOutOfBounds] (do w5 <- rollforward (fst tb1) w2 (-2) DOff None; Ok tt)]) = true.
Proof. vm_compute. reflexivity. Qed.

(** test_workshift_compound.py:185 TestRollBackCompound.test_rollback_trivial_0_to_self *)
Example test_rollback_trivial_0_to_self : passes (
  let heap0 : heap Z := [] in
  do tb1 <- build (mkArgs (mkFstr None AlD) (ts 2016 12 31 0 0 0) (ts 2017 1 12 0 0 0) (LOrg (DMarker (mkMarker (mkFstr None (AlW None)) [])) [(LLab 100); (LPat (PList [0; 0; 1; 1]))]) [] (fun x => negb (x =? 0)) 0 false (-999999) WDuration conf_num) heap0;
  do w2 <- get_workshift (fst tb1) (ts 2017 1 11 0 0 0) None;
  do w3 <- rollback (fst tb1) w2 0 DOn None;
  do w4 <- get_workshift (fst tb1) (ts 2017 1 12 0 0 0) None;
  do w5 <- rollback (fst tb1) w4 0 DOn None;
  Ok [(((ws_loc w3) =? 8));
       (((ws_loc w5) =? 8))]) = true.
Proof. vm_compute. reflexivity. Qed.

(** test_workshift_compound.py:195 TestRollBackCompound.test_rollback_trivial_0_to_next *)
Example test_rollback_trivial_0_to_next : passes (
  let heap0 : heap Z := [] in
  do tb1 <- build (mkArgs (mkFstr None AlD) (ts 2016 12 31 0 0 0) (ts 2017 1 12 0 0 0) (LOrg (DMarker (mkMarker (mkFstr None (AlW None)) [])) [(LLab 100); (LPat (PList [0; 0; 1; 1]))]) [] (fun x => negb (x =? 0)) 0 false (-999999) WDuration conf_num) heap0;
  do w2 <- get_workshift (fst tb1) (ts 2017 1 2 0 0 0) None;
  do w3 <- rollback (fst tb1) w2 0 DOn None;
  do t4 <- ws_start_time (tb_tl (fst tb1)) (ws_loc w3);
  Ok [(((ws_loc w3) =? 0));
       ((t4 =? (ts 2016 12 31 0 0 0)))]) = true.
Proof. vm_compute. reflexivity. Qed.

(** test_workshift_compound.py:202 TestRollBackCompound.test_rollback_on_0 *)
Example test_rollback_on_0 : passes (
  let heap0 : heap Z := [] in
  do tb1 <- build (mkArgs (mkFstr None AlD) (ts 2016 12 31 0 0 0) (ts 2017 1 12 0 0 0) (LOrg (DMarker (mkMarker (mkFstr None (AlW None)) [])) [(LLab 100); (LPat (PList [0; 0; 1; 1]))]) [] (fun x => negb (x =? 0)) 0 false (-999999) WDuration conf_num) heap0;
  do w2 <- get_workshift (fst tb1) (ts 2017 1 10 0 0 0) None;
  do w3 <- rollback (fst tb1) w2 0 DOn None;
  do w4 <- rollback (fst tb1) w2 0 DOff None;
  do w5 <- rollback (fst tb1) w2 0 DSame None;
  do w6 <- rollback (fst tb1) w2 0 DAlt None;
  do w7 <- rollback (fst tb1) w2 0 DAny None;
  Ok [((((ws_loc w3) =? 8) && ((ws_loc w4) =? 6) && ((ws_loc w5) =? 8) && ((ws_loc w6) =? 6) && ((ws_loc w7) =? 8)))]) = true.
Proof. vm_compute. reflexivity. Qed.

(** test_workshift_compound.py:210 TestRollBackCompound.test_rollback_off_0 *)
Example test_rollback_off_0 : passes (
  let heap0 : heap Z := [] in
  do tb1 <- build (mkArgs (mkFstr None AlD) (ts 2016 12 31 0 0 0) (ts 2017 1 12 0 0 0) (LOrg (DMarker (mkMarker (mkFstr None (AlW None)) [])) [(LLab 0); (LPat (PList [0; 0; 1; 1]))]) [] (fun x => negb (x =? 0)) 0 false (-999999) WDuration conf_num) heap0;
  do w2 <- get_workshift (fst tb1) (ts 2017 1 12 0 0 0) None;
  do w3 <- rollback (fst tb1) w2 0 DOn None;
  do w4 <- rollback (fst tb1) w2 0 DOff None;
  do w5 <- rollback (fst tb1) w2 0 DSame None;
  do w6 <- rollback (fst tb1) w2 0 DAlt None;
  do w7 <- rollback (fst tb1) w2 0 DAny None;
  Ok [((((ws_loc w3) =? 7) && ((ws_loc w4) =? 8) && ((ws_loc w5) =? 8) && ((ws_loc w6) =? 7) && ((ws_loc w7) =? 8)))]) = true.
Proof. vm_compute. reflexivity. Qed.

(** test_workshift_compound.py:221 TestRollBackCompound.test_rollback_on_n *)
Example test_rollback_on_n : passes (
  let heap0 : heap Z := [] in
  do tb1 <- build (mkArgs (mkFstr None AlD) (ts 2016 12 31 0 0 0) (ts 2017 1 12 0 0 0) (LOrg (DMarker (mkMarker (mkFstr None (AlW None)) [])) [(LLab 100); (LPat (PList [0; 0; 1; 1]))]) [] (fun x => negb (x =? 0)) 0 false (-999999) WDuration conf_num) heap0;
  do w2 <- get_workshift (fst tb1) (ts 2017 1 11 0 0 0) None;
  do w3 <- rollback (fst tb1) w2 2 DOn None;
  do w4 <- rollback (fst tb1) w2 2 DOff None;
  do w5 <- rollback (fst tb1) w2 2 DSame None;
  do w6 <- rollback (fst tb1) w2 2 DAlt None;
  do w7 <- rollback (fst tb1) w2 2 DAny None;
  Ok [((((ws_loc w3) =? 4) && ((ws_loc w4) =? 2) && ((ws_loc w5) =? 4) && ((ws_loc w6) =? 2) && ((ws_loc w7) =? 6)))]) = true.
Proof. vm_compute. reflexivity. Qed.

(** test_workshift_compound.py:229 TestRollBackCompound.test_rollback_off_n *)
Example test_rollback_off_n : passes (
  let heap0 : heap Z := [] in
  do tb1 <- build (mkArgs (mkFstr None AlD) (ts 2016 12 31 0 0 0) (ts 2017 1 12 0 0 0) (LOrg (DMarker (mkMarker (mkFstr None (AlW None)) [])) [(LLab 100); (LPat (PList [0; 0; 1; 1]))]) [] (fun x => negb (x =? 0)) 0 false (-999999) WDuration conf_num) heap0;
  do w2 <- get_workshift (fst tb1) (ts 2017 1 7 0 0 0) None;
  do w3 <- rollback (fst tb1) w2 2 DOn None;
  do w4 <- rollback (fst tb1) w2 2 DOff None;
  do w5 <- rollback (fst tb1) w2 2 DSame None;
  do w6 <- rollback (fst tb1) w2 2 DAlt None;
  do w7 <- rollback (fst tb1) w2 2 DAny None;
  Ok [((((ws_loc w3) =? 0) && ((ws_loc w4) =? 2) && ((ws_loc w5) =? 2) && ((ws_loc w6) =? 0) && ((ws_loc w7) =? 4)))]) = true.
Proof. vm_compute. reflexivity. Qed.

(** test_workshift_compound.py:237 TestRollBackCompound.test_rollback_on_n_negative *)
Example test_rollback_on_n_negative : passes (
  let heap0 : heap Z := [] in
  do tb1 <- build (mkArgs (mkFstr None AlD) (ts 2016 12 31 0 0 0) (ts 2017 1 12 0 0 0) (LOrg (DMarker (mkMarker (mkFstr None (AlW None)) [])) [(LLab 100); (LPat (PList [0; 0; 1; 1]))]) [] (fun x => negb (x =? 0)) 0 false (-999999) WDuration conf_num) heap0;
  do w2 <- get_workshift (fst tb1) (ts 2017 1 5 0 0 0) None;
  do w3 <- rollback (fst tb1) w2 (-2) DOn None;
  do w4 <- rollback (fst tb1) w2 (-2) DOff None;
  do w5 <- rollback (fst tb1) w2 (-2) DSame None;
  do w6 <- rollback (fst tb1) w2 (-2) DAlt None;
  do w7 <- rollback (fst tb1) w2 (-2) DAny None;
  Ok [((((ws_loc w3) =? 8) && ((ws_loc w4) =? 6) && ((ws_loc w5) =? 8) && ((ws_loc w6) =? 6) && ((ws_loc w7) =? 6)))]) = true.
Proof. vm_compute. reflexivity. Qed.

(** test_workshift_compound.py:245 TestRollBackCompound.test_rollback_off_n_negative *)
Example test_rollback_off_n_negative : passes (
  let heap0 : heap Z := [] in
  do tb1 <- build (mkArgs (mkFstr None AlD) (ts 2016 12 31 0 0 0) (ts 2017 1 12 0 0 0) (LOrg (DMarker (mkMarker (mkFstr None (AlW None)) [])) [(LLab 100); (LPat (PList [0; 0; 1; 1]))]) [] (fun x => negb (x =? 0)) 0 false (-999999) WDuration conf_num) heap0;
  do w2 <- get_workshift (fst tb1) (ts 2017 1 3 0 0 0) None;
  do w3 <- rollback (fst tb1) w2 (-2) DOn None;
  do w4 <- rollback (fst tb1) w2 (-2) DOff None;
  do w5 <- rollback (fst tb1) w2 (-2) DSame None;
  do w6 <- rollback (fst tb1) w2 (-2) DAlt None;
  do w7 <- rollback (fst tb1) w2 (-2) DAny None;
  Ok [((((ws_loc w3) =? 4) && ((ws_loc w4) =? 6) && ((ws_loc w5) =? 6) && ((ws_loc w6) =? 4) && ((ws_loc w7) =? 4)))]) = true.
Proof. vm_compute. reflexivity. Qed.
