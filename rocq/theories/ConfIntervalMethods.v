(** ConfIntervalMethods: /repo/timeboard/tests/test_interval_methods.py as examples about the model.
    Written by tools/tests2coq.py. *)
From Verif Require Api.
From Verif Require Import Base Civil Freq Frame Timeline Board When ConfBase.
From Coq Require Import QArith String.
Open Scope Z_scope.

(** test_interval_methods.py:25 TestIntervalFindMyBounds.test_interval_find_my_bounds_on *)
Example test_interval_find_my_bounds_on : passes (
  let heap0 : heap Z := [] in
  do tb1 <- build (mkArgs (mkFstr None AlD) (ts 2016 12 31 0 0 0) (ts 2017 1 12 0 0 0) (LPat (PList [0; 1; 0; 0; 2; 0])) [] (fun x => negb (x =? 0)) 0 false (-999999) WDuration conf_num) heap0;
  do iv2 <- new_interval (fst tb1) 2 11 (tb_default (fst tb1));
  do di3 <- get_duty_idx iv2 DOn (iv_sched iv2);
  do iv4 <- new_interval (fst tb1) 4 11 (tb_default (fst tb1));
  do di5 <- get_duty_idx iv4 DOn (iv_sched iv4);
  do iv6 <- new_interval (fst tb1) 2 10 (tb_default (fst tb1));
  do di7 <- get_duty_idx iv6 DOn (iv_sched iv6);
  do iv8 <- new_interval (fst tb1) 4 10 (tb_default (fst tb1));
  do di9 <- get_duty_idx iv8 DOn (iv_sched iv8);
  Ok [((opt_pair_eqb (snd di3) (Some (1, 3))));
       ((opt_pair_eqb (snd di5) (Some (1, 3))));
       ((opt_pair_eqb (snd di7) (Some (1, 3))));
       ((opt_pair_eqb (snd di9) (Some (1, 3))))]) = true.
Proof. vm_compute. reflexivity. Qed.

(** test_interval_methods.py:32 TestIntervalFindMyBounds.test_interval_find_my_bounds_off *)
Example test_interval_find_my_bounds_off : passes (
  let heap0 : heap Z := [] in
  do tb1 <- build (mkArgs (mkFstr None AlD) (ts 2016 12 31 0 0 0) (ts 2017 1 12 0 0 0) (LPat (PList [0; 1; 0; 0; 2; 0])) [] (fun x => negb (x =? 0)) 0 false (-999999) WDuration conf_num) heap0;
  do iv2 <- new_interval (fst tb1) 1 10 (tb_default (fst tb1));
  do di3 <- get_duty_idx iv2 DOff (iv_sched iv2);
  do iv4 <- new_interval (fst tb1) 2 10 (tb_default (fst tb1));
  do di5 <- get_duty_idx iv4 DOff (iv_sched iv4);
  do iv6 <- new_interval (fst tb1) 1 9 (tb_default (fst tb1));
  do di7 <- get_duty_idx iv6 DOff (iv_sched iv6);
  do iv8 <- new_interval (fst tb1) 2 9 (tb_default (fst tb1));
  do di9 <- get_duty_idx iv8 DOff (iv_sched iv8);
  Ok [((opt_pair_eqb (snd di3) (Some (1, 6))));
       ((opt_pair_eqb (snd di5) (Some (1, 6))));
       ((opt_pair_eqb (snd di7) (Some (1, 6))));
       ((opt_pair_eqb (snd di9) (Some (1, 6))))]) = true.
Proof. vm_compute. reflexivity. Qed.

(** test_interval_methods.py:39 TestIntervalFindMyBounds.test_interval_find_my_bounds_no_such_duty_in_interval *)
Example test_interval_find_my_bounds_no_such_duty_in_interval : passes (
  let heap0 : heap Z := [] in
  do tb1 <- build (mkArgs (mkFstr None AlD) (ts 2016 12 31 0 0 0) (ts 2017 1 12 0 0 0) (LPat (PList [0; 1; 0; 0; 2; 0])) [] (fun x => negb (x =? 0)) 0 false (-999999) WDuration conf_num) heap0;
  do iv2 <- new_interval (fst tb1) 11 12 (tb_default (fst tb1));
  do di3 <- get_duty_idx iv2 DOn (iv_sched iv2);
  do di4 <- get_duty_idx iv2 DOff (iv_sched iv2);
  do iv5 <- new_interval (fst tb1) 0 0 (tb_default (fst tb1));
  do di6 <- get_duty_idx iv5 DOn (iv_sched iv5);
  do di7 <- get_duty_idx iv5 DOff (iv_sched iv5);
  do iv8 <- new_interval (fst tb1) 10 10 (tb_default (fst tb1));
  do di9 <- get_duty_idx iv8 DOn (iv_sched iv8);
  do di10 <- get_duty_idx iv8 DOff (iv_sched iv8);
  Ok [((opt_pair_eqb (snd di3) None));
       ((opt_pair_eqb (snd di4) (Some (7, 8))));
       ((opt_pair_eqb (snd di6) None));
       ((opt_pair_eqb (snd di7) (Some (0, 0))));
       ((opt_pair_eqb (snd di9) (Some (3, 3))));
       ((opt_pair_eqb (snd di10) None))]) = true.
Proof. vm_compute. reflexivity. Qed.

(** test_interval_methods.py:60 TestIntervalFindMyBounds.test_interval_find_my_bounds_no_on_duty_in_tb *)
Example test_interval_find_my_bounds_no_on_duty_in_tb : passes (
  let heap0 : heap Z := [] in
  do tb1 <- build (mkArgs (mkFstr None AlD) (ts 2016 12 31 0 0 0) (ts 2017 1 12 0 0 0) (LPat (PList [0])) [] (fun x => negb (x =? 0)) 0 false (-999999) WDuration conf_num) heap0;
  do iv2 <- new_interval (fst tb1) 1 2 (tb_default (fst tb1));
  do di3 <- get_duty_idx iv2 DOn (iv_sched iv2);
  do di4 <- get_duty_idx iv2 DOff (iv_sched iv2);
  Ok [((opt_pair_eqb (snd di3) None));
       ((opt_pair_eqb (snd di4) (Some (1, 2))))]) = true.
Proof. vm_compute. reflexivity. Qed.

(** test_interval_methods.py:70 TestIntervalFindMyBounds.test_interval_find_my_bounds_no_off_duty_in_tb *)
Example test_interval_find_my_bounds_no_off_duty_in_tb : passes (
  let heap0 : heap Z := [] in
  do tb1 <- build (mkArgs (mkFstr None AlD) (ts 2016 12 31 0 0 0) (ts 2017 1 12 0 0 0) (LPat (PList [1])) [] (fun x => negb (x =? 0)) 0 false (-999999) WDuration conf_num) heap0;
  do iv2 <- new_interval (fst tb1) 1 2 (tb_default (fst tb1));
  do di3 <- get_duty_idx iv2 DOn (iv_sched iv2);
  do di4 <- get_duty_idx iv2 DOff (iv_sched iv2);
  Ok [((opt_pair_eqb (snd di3) (Some (1, 2))));
       ((opt_pair_eqb (snd di4) None))]) = true.
Proof. vm_compute. reflexivity. Qed.

(** test_interval_methods.py:83 TestIntervalFirstLastNth.test_interval_nth_on *)
Example test_interval_nth_on : passes (
  let heap0 : heap Z := [] in
  do tb1 <- build (mkArgs (mkFstr None AlD) (ts 2016 12 31 0 0 0) (ts 2017 1 12 0 0 0) (LPat (PList [0; 1; 0; 0; 2; 0])) [] (fun x => negb (x =? 0)) 0 false (-999999) WDuration conf_num) heap0;
  do iv2 <- new_interval (fst tb1) 2 11 (tb_default (fst tb1));
  do w3 <- iv_first (fst tb1) iv2 DOn None;
  do w4 <- iv_last (fst tb1) iv2 DOn None;
  do w5 <- iv_nth (fst tb1) iv2 1 DOn None;
  do w6 <- iv_nth (fst tb1) iv2 (-2) DOn None;
  do iv7 <- new_interval (fst tb1) 4 11 (tb_default (fst tb1));
  do w8 <- iv_first (fst tb1) iv7 DOn None;
  do w9 <- iv_last (fst tb1) iv7 DOn None;
  do w10 <- iv_nth (fst tb1) iv7 1 DOn None;
  do w11 <- iv_nth (fst tb1) iv7 (-2) DOn None;
  do iv12 <- new_interval (fst tb1) 2 10 (tb_default (fst tb1));
  do w13 <- iv_first (fst tb1) iv12 DOn None;
  do w14 <- iv_last (fst tb1) iv12 DOn None;
  do w15 <- iv_nth (fst tb1) iv12 1 DOn None;
  do w16 <- iv_nth (fst tb1) iv12 (-2) DOn None;
  do iv17 <- new_interval (fst tb1) 4 10 (tb_default (fst tb1));
  do w18 <- iv_first (fst tb1) iv17 DOn None;
  do w19 <- iv_last (fst tb1) iv17 DOn None;
  do w20 <- iv_nth (fst tb1) iv17 1 DOn None;
  do w21 <- iv_nth (fst tb1) iv17 (-2) DOn None;
  Ok [true;
       true;
       true;
       true;
       (((ws_loc w3) =? 4));
       (((ws_loc w4) =? 10));
       (((ws_loc w5) =? 7));
       (((ws_loc w6) =? 7));
       true;
       true;
       true;
       true;
       (((ws_loc w8) =? 4));
       (((ws_loc w9) =? 10));
       (((ws_loc w10) =? 7));
       (((ws_loc w11) =? 7));
       true;
       true;
       true;
       true;
       (((ws_loc w13) =? 4));
       (((ws_loc w14) =? 10));
       (((ws_loc w15) =? 7));
       (((ws_loc w16) =? 7));
       true;
       true;
       true;
       true;
       (((ws_loc w18) =? 4));
       (((ws_loc w19) =? 10));
       (((ws_loc w20) =? 7));
       (((ws_loc w21) =? 7))]) = true.
Proof. vm_compute. reflexivity. Qed.

(** test_interval_methods.py:100 TestIntervalFirstLastNth.test_interval_nth_off *)
Example test_interval_nth_off : passes (
  let heap0 : heap Z := [] in
  do tb1 <- build (mkArgs (mkFstr None AlD) (ts 2016 12 31 0 0 0) (ts 2017 1 12 0 0 0) (LPat (PList [0; 1; 0; 0; 2; 0])) [] (fun x => negb (x =? 0)) 0 false (-999999) WDuration conf_num) heap0;
  do iv2 <- new_interval (fst tb1) 1 10 (tb_default (fst tb1));
  do w3 <- iv_first (fst tb1) iv2 DOff None;
  do w4 <- iv_last (fst tb1) iv2 DOff None;
  do w5 <- iv_nth (fst tb1) iv2 1 DOff None;
  do w6 <- iv_nth (fst tb1) iv2 (-2) DOff None;
  do iv7 <- new_interval (fst tb1) 2 10 (tb_default (fst tb1));
  do w8 <- iv_first (fst tb1) iv7 DOff None;
  do w9 <- iv_last (fst tb1) iv7 DOff None;
  do w10 <- iv_nth (fst tb1) iv7 1 DOff None;
  do w11 <- iv_nth (fst tb1) iv7 (-2) DOff None;
  do iv12 <- new_interval (fst tb1) 1 9 (tb_default (fst tb1));
  do w13 <- iv_first (fst tb1) iv12 DOff None;
  do w14 <- iv_last (fst tb1) iv12 DOff None;
  do w15 <- iv_nth (fst tb1) iv12 1 DOff None;
  do w16 <- iv_nth (fst tb1) iv12 (-2) DOff None;
  do iv17 <- new_interval (fst tb1) 2 9 (tb_default (fst tb1));
  do w18 <- iv_first (fst tb1) iv17 DOff None;
  do w19 <- iv_last (fst tb1) iv17 DOff None;
  do w20 <- iv_nth (fst tb1) iv17 1 DOff None;
  do w21 <- iv_nth (fst tb1) iv17 (-2) DOff None;
  Ok [true;
       true;
       true;
       true;
       (((ws_loc w3) =? 2));
       (((ws_loc w4) =? 9));
       (((ws_loc w5) =? 3));
       (((ws_loc w6) =? 8));
       true;
       true;
       true;
       true;
       (((ws_loc w8) =? 2));
       (((ws_loc w9) =? 9));
       (((ws_loc w10) =? 3));
       (((ws_loc w11) =? 8));
       true;
       true;
       true;
       true;
       (((ws_loc w13) =? 2));
       (((ws_loc w14) =? 9));
       (((ws_loc w15) =? 3));
       (((ws_loc w16) =? 8));
       true;
       true;
       true;
       true;
       (((ws_loc w18) =? 2));
       (((ws_loc w19) =? 9));
       (((ws_loc w20) =? 3));
       (((ws_loc w21) =? 8))]) = true.
Proof. vm_compute. reflexivity. Qed.

(** test_interval_methods.py:117 TestIntervalFirstLastNth.test_interval_nth_any *)
Example test_interval_nth_any : passes (
  let heap0 : heap Z := [] in
  do tb1 <- build (mkArgs (mkFstr None AlD) (ts 2016 12 31 0 0 0) (ts 2017 1 12 0 0 0) (LPat (PList [0; 1; 0; 0; 2; 0])) [] (fun x => negb (x =? 0)) 0 false (-999999) WDuration conf_num) heap0;
  do iv2 <- new_interval (fst tb1) 2 10 (tb_default (fst tb1));
  do w3 <- iv_first (fst tb1) iv2 DAny None;
  do w4 <- iv_last (fst tb1) iv2 DAny None;
  do w5 <- iv_nth (fst tb1) iv2 1 DAny None;
  do w6 <- iv_nth (fst tb1) iv2 (-2) DAny None;
  Ok [true;
       true;
       true;
       true;
       (((ws_loc w3) =? 2));
       (((ws_loc w4) =? 10));
       (((ws_loc w5) =? 3));
       (((ws_loc w6) =? 9))]) = true.
Proof. vm_compute. reflexivity. Qed.

(** test_interval_methods.py:133 TestIntervalFirstLastNth.test_interval_nth_single *)
Example test_interval_nth_single : passes (
  let heap0 : heap Z := [] in
  do tb1 <- build (mkArgs (mkFstr None AlD) (ts 2016 12 31 0 0 0) (ts 2017 1 12 0 0 0) (LPat (PList [0; 1; 0; 0; 2; 0])) [] (fun x => negb (x =? 0)) 0 false (-999999) WDuration conf_num) heap0;
  do iv2 <- new_interval (fst tb1) 0 0 (tb_default (fst tb1));
  do w3 <- iv_first (fst tb1) iv2 DOff None;
  do w4 <- iv_last (fst tb1) iv2 DOff None;
  do w5 <- iv_nth (fst tb1) iv2 0 DOff None;
  do iv6 <- new_interval (fst tb1) 3 3 (tb_default (fst tb1));
  do w7 <- iv_first (fst tb1) iv6 DAny None;
  do w8 <- iv_last (fst tb1) iv6 DAny None;
  do w9 <- iv_nth (fst tb1) iv6 0 DAny None;
  do iv10 <- new_interval (fst tb1) 4 4 (tb_default (fst tb1));
  do w11 <- iv_first (fst tb1) iv10 DOn None;
  do w12 <- iv_last (fst tb1) iv10 DOn None;
  do w13 <- iv_nth (fst tb1) iv10 0 DOn None;
  do iv14 <- new_interval (fst tb1) 7 7 (tb_default (fst tb1));
  do w15 <- iv_first (fst tb1) iv14 DAny None;
  do w16 <- iv_last (fst tb1) iv14 DAny None;
  do w17 <- iv_nth (fst tb1) iv14 0 DAny None;
  do iv18 <- new_interval (fst tb1) 12 12 (tb_default (fst tb1));
  do w19 <- iv_first (fst tb1) iv18 DOff None;
  do w20 <- iv_last (fst tb1) iv18 DOff None;
  do w21 <- iv_nth (fst tb1) iv18 0 DOff None;
  Ok [true;
       true;
       true;
       (((ws_loc w3) =? 0));
       (((ws_loc w4) =? 0));
       (((ws_loc w5) =? 0));
       true;
       true;
       true;
       (((ws_loc w7) =? 3));
       (((ws_loc w8) =? 3));
       (((ws_loc w9) =? 3));
       true;
       true;
       true;
       (((ws_loc w11) =? 4));
       (((ws_loc w12) =? 4));
       (((ws_loc w13) =? 4));
       true;
       true;
       true;
       (((ws_loc w15) =? 7));
       (((ws_loc w16) =? 7));
       (((ws_loc w17) =? 7));
       true;
       true;
       true;
       (((ws_loc w19) =? 12));
       (((ws_loc w20) =? 12));
       (((ws_loc w21) =? 12))]) = true.
Proof. vm_compute. reflexivity. Qed.

(** test_interval_methods.py:148 TestIntervalFirstLastNth.test_interval_nth_no_on_duty *)
Example test_interval_nth_no_on_duty : passes (
  let heap0 : heap Z := [] in
  do tb1 <- build (mkArgs (mkFstr None AlD) (ts 2016 12 31 0 0 0) (ts 2017 1 12 0 0 0) (LPat (PList [0; 1; 0; 0; 2; 0])) [] (fun x => negb (x =? 0)) 0 false (-999999) WDuration conf_num) heap0;
  do iv2 <- new_interval (fst tb1) 2 3 (tb_default (fst tb1));
  Ok [raises [EOutOfBounds] (do w3 <- iv_first (fst tb1) iv2 DOn None; Ok tt);
       raises [EOutOfBounds] (do w4 <- iv_last (fst tb1) iv2 DOn None; Ok tt);
       raises [EOutOfBounds] (do w5 <- iv_nth (fst tb1) iv2 0 DOn None; Ok tt)]) = true.
Proof. vm_compute. reflexivity. Qed.

(** test_interval_methods.py:158 TestIntervalFirstLastNth.test_interval_nth_no_off_duty *)
Example test_interval_nth_no_off_duty : passes (
  let heap0 : heap Z := [] in
  do tb1 <- build (mkArgs (mkFstr None AlD) (ts 2016 12 31 0 0 0) (ts 2017 1 12 0 0 0) (LPat (PList [0; 1; 0; 0; 2; 0])) [] (fun x => negb (x =? 0)) 0 false (-999999) WDuration conf_num) heap0;
  do iv2 <- new_interval (fst tb1) 4 4 (tb_default (fst tb1));
  Ok [raises [EOutOfBounds] (do w3 <- iv_first (fst tb1) iv2 DOff None; Ok tt);
       raises [EOutOfBounds] (do w4 <- iv_last (fst tb1) iv2 DOff None; Ok tt);
       raises [EOutOfBounds] (do w5 <- iv_nth (fst tb1) iv2 0 DOff None; Ok tt)]) = true.
Proof. vm_compute. reflexivity. Qed.

(** test_interval_methods.py:168 TestIntervalFirstLastNth.test_interval_nth_OOB *)
Example test_interval_nth_OOB : passes (
  let heap0 : heap Z := [] in
  do tb1 <- build (mkArgs (mkFstr None AlD) (ts 2016 12 31 0 0 0) (ts 2017 1 12 0 0 0) (LPat (PList [0; 1; 0; 0; 2; 0])) [] (fun x => negb (x =? 0)) 0 false (-999999) WDuration conf_num) heap0;
  do iv2 <- new_interval (fst tb1) 2 8 (tb_default (fst tb1));
  Ok [raises [EOutOfBounds] (do w3 <- iv_nth (fst tb1) iv2 2 DOn None; Ok tt);
       raises [EOutOfBounds] (do w4 <- iv_nth (fst tb1) iv2 5 DOff None; Ok tt);
       raises [EOutOfBounds] (do w5 <- iv_nth (fst tb1) iv2 7 DAny None; Ok tt)]) = true.
Proof. vm_compute. reflexivity. Qed.

(** test_interval_methods.py:178 TestIntervalFirstLastNth.test_interval_default_nth *)
Example test_interval_default_nth : passes (
  let heap0 : heap Z := [] in
  do tb1 <- build (mkArgs (mkFstr None AlD) (ts 2016 12 31 0 0 0) (ts 2017 1 12 0 0 0) (LPat (PList [0; 1; 0; 0; 2; 0])) [] (fun x => negb (x =? 0)) 0 false (-999999) WDuration conf_num) heap0;
  do iv2 <- get_interval (fst tb1) RNone None None true C11 None;
  do w3 <- iv_first (fst tb1) iv2 DOn None;
  do w4 <- iv_nth (fst tb1) iv2 2 DOn None;
  do w5 <- iv_last (fst tb1) iv2 DOn None;
  do w6 <- iv_first (fst tb1) iv2 DOff None;
  do w7 <- iv_nth (fst tb1) iv2 2 DOff None;
  do w8 <- iv_last (fst tb1) iv2 DOff None;
  do w9 <- iv_first (fst tb1) iv2 DAny None;
  do w10 <- iv_nth (fst tb1) iv2 2 DAny None;
  do w11 <- iv_last (fst tb1) iv2 DAny None;
  Ok [(((ws_loc w3) =? 1));
       (((ws_loc w4) =? 7));
       (((ws_loc w5) =? 10));
       (((ws_loc w6) =? 0));
       (((ws_loc w7) =? 3));
       (((ws_loc w8) =? 12));
       (((ws_loc w9) =? 0));
       (((ws_loc w10) =? 2));
       (((ws_loc w11) =? 12))]) = true.
Proof. vm_compute. reflexivity. Qed.

(** test_interval_methods.py:188 TestIntervalFirstLastNth.test_interval_default_nth_OOB *)
Example test_interval_default_nth_OOB : passes (
  let heap0 : heap Z := [] in
  do tb1 <- build (mkArgs (mkFstr None AlD) (ts 2016 12 31 0 0 0) (ts 2017 1 12 0 0 0) (LPat (PList [0; 1; 0; 0; 2; 0])) [] (fun x => negb (x =? 0)) 0 false (-999999) WDuration conf_num) heap0;
  do iv2 <- get_interval (fst tb1) RNone None None true C11 None;
  Ok [raises [EOutOfBounds] (do w3 <- iv_nth (fst tb1) iv2 4 DOn None; Ok tt);
       raises [EOutOfBounds] (do w4 <- iv_nth (fst tb1) iv2 9 DOff None; Ok tt);
       raises [EOutOfBounds] (do w5 <- iv_nth (fst tb1) iv2 13 DAny None; Ok tt)]) = true.
Proof. vm_compute. reflexivity. Qed.

(** test_interval_methods.py:201 TestIntervalCount.test_interval_count_on *)
Example test_interval_count_on : passes (
  let heap0 : heap Z := [] in
  do tb1 <- build (mkArgs (mkFstr None AlD) (ts 2016 12 31 0 0 0) (ts 2017 1 12 0 0 0) (LPat (PList [0; 1; 0; 0; 2; 0])) [] (fun x => negb (x =? 0)) 0 false (-999999) WDuration conf_num) heap0;
  do iv2 <- new_interval (fst tb1) 2 11 (tb_default (fst tb1));
  do n3 <- iv_count iv2 DOn None;
  do iv4 <- new_interval (fst tb1) 4 11 (tb_default (fst tb1));
  do n5 <- iv_count iv4 DOn None;
  do iv6 <- new_interval (fst tb1) 2 10 (tb_default (fst tb1));
  do n7 <- iv_count iv6 DOn None;
  do iv8 <- new_interval (fst tb1) 4 10 (tb_default (fst tb1));
  do n9 <- iv_count iv8 DOn None;
  Ok [((n3 =? 3));
       ((n5 =? 3));
       ((n7 =? 3));
       ((n9 =? 3))]) = true.
Proof. vm_compute. reflexivity. Qed.

(** test_interval_methods.py:206 TestIntervalCount.test_interval_count_off *)
Example test_interval_count_off : passes (
  let heap0 : heap Z := [] in
  do tb1 <- build (mkArgs (mkFstr None AlD) (ts 2016 12 31 0 0 0) (ts 2017 1 12 0 0 0) (LPat (PList [0; 1; 0; 0; 2; 0])) [] (fun x => negb (x =? 0)) 0 false (-999999) WDuration conf_num) heap0;
  do iv2 <- new_interval (fst tb1) 1 10 (tb_default (fst tb1));
  do n3 <- iv_count iv2 DOff None;
  do iv4 <- new_interval (fst tb1) 2 10 (tb_default (fst tb1));
  do n5 <- iv_count iv4 DOff None;
  do iv6 <- new_interval (fst tb1) 1 9 (tb_default (fst tb1));
  do n7 <- iv_count iv6 DOff None;
  do iv8 <- new_interval (fst tb1) 2 9 (tb_default (fst tb1));
  do n9 <- iv_count iv8 DOff None;
  Ok [((n3 =? 6));
       ((n5 =? 6));
       ((n7 =? 6));
       ((n9 =? 6))]) = true.
Proof. vm_compute. reflexivity. Qed.

(** test_interval_methods.py:212 TestIntervalCount.test_interval_count_any *)
Example test_interval_count_any : passes (
  let heap0 : heap Z := [] in
  do tb1 <- build (mkArgs (mkFstr None AlD) (ts 2016 12 31 0 0 0) (ts 2017 1 12 0 0 0) (LPat (PList [0; 1; 0; 0; 2; 0])) [] (fun x => negb (x =? 0)) 0 false (-999999) WDuration conf_num) heap0;
  do iv2 <- new_interval (fst tb1) 1 9 (tb_default (fst tb1));
  do n3 <- iv_count iv2 DAny None;
  Ok [((n3 =? 9))]) = true.
Proof. vm_compute. reflexivity. Qed.

(** test_interval_methods.py:217 TestIntervalCount.test_interval_count_single *)
Example test_interval_count_single : passes (
  let heap0 : heap Z := [] in
  do tb1 <- build (mkArgs (mkFstr None AlD) (ts 2016 12 31 0 0 0) (ts 2017 1 12 0 0 0) (LPat (PList [0; 1; 0; 0; 2; 0])) [] (fun x => negb (x =? 0)) 0 false (-999999) WDuration conf_num) heap0;
  do iv2 <- new_interval (fst tb1) 2 2 (tb_default (fst tb1));
  do n3 <- iv_count iv2 DOff None;
  do iv4 <- new_interval (fst tb1) 3 3 (tb_default (fst tb1));
  do n5 <- iv_count iv4 DAny None;
  do iv6 <- new_interval (fst tb1) 4 4 (tb_default (fst tb1));
  do n7 <- iv_count iv6 DOn None;
  do iv8 <- new_interval (fst tb1) 7 7 (tb_default (fst tb1));
  do n9 <- iv_count iv8 DAny None;
  Ok [((n3 =? 1));
       ((n5 =? 1));
       ((n7 =? 1));
       ((n9 =? 1))]) = true.
Proof. vm_compute. reflexivity. Qed.

(** test_interval_methods.py:223 TestIntervalCount.test_interval_count_no_such_duty *)
Example test_interval_count_no_such_duty : passes (
  let heap0 : heap Z := [] in
  do tb1 <- build (mkArgs (mkFstr None AlD) (ts 2016 12 31 0 0 0) (ts 2017 1 12 0 0 0) (LPat (PList [0; 1; 0; 0; 2; 0])) [] (fun x => negb (x =? 0)) 0 false (-999999) WDuration conf_num) heap0;
  do iv2 <- new_interval (fst tb1) 2 3 (tb_default (fst tb1));
  do n3 <- iv_count iv2 DOn None;
  do iv4 <- new_interval (fst tb1) 4 4 (tb_default (fst tb1));
  do n5 <- iv_count iv4 DOff None;
  Ok [((n3 =? 0));
       ((n5 =? 0))]) = true.
Proof. vm_compute. reflexivity. Qed.

(** test_interval_methods.py:230 TestIntervalCount.test_interval_count_default *)
Example test_interval_count_default : passes (
  let heap0 : heap Z := [] in
  do tb1 <- build (mkArgs (mkFstr None AlD) (ts 2016 12 31 0 0 0) (ts 2017 1 12 0 0 0) (LPat (PList [0; 1; 0; 0; 2; 0])) [] (fun x => negb (x =? 0)) 0 false (-999999) WDuration conf_num) heap0;
  do iv2 <- get_interval (fst tb1) RNone None None true C11 None;
  do n3 <- iv_count iv2 DOn None;
  do n4 <- iv_count iv2 DOff None;
  do n5 <- iv_count iv2 DAny None;
  Ok [((n3 =? 4));
       ((n4 =? 9));
       ((n5 =? 13))]) = true.
Proof. vm_compute. reflexivity. Qed.

(** test_interval_methods.py:252 TestIntervalDaysCountPeriodsM.test_interval_d_count_periods_m_part_full_part *)
Example test_interval_d_count_periods_m_part_full_part : passes (
  let heap0 : heap Z := [] in
  do tb1 <- build (mkArgs (mkFstr None AlD) (ts 2016 11 28 0 0 0) (ts 2017 5 2 0 0 0) (LOrg (DMarker (mkMarker (mkFstr None (AlW None)) [])) [(LPat (PList [1; 1; 1; 1; 1; 0; 0]))]) [((ts 2017 1 1 0 0 0), 0); ((ts 2017 1 2 0 0 0), 0); ((ts 2017 1 3 0 0 0), 0); ((ts 2017 1 4 0 0 0), 0); ((ts 2017 1 5 0 0 0), 0); ((ts 2017 1 6 0 0 0), 0); ((ts 2017 1 7 0 0 0), 0); ((ts 2017 1 8 0 0 0), 0); ((ts 2017 1 9 0 0 0), 0); ((ts 2017 1 10 0 0 0), 0)] (fun x => negb (x =? 0)) 0 false (-999999) WDuration conf_num) heap0;
  do iv2 <- get_interval (fst tb1) (RPair (Some (ts 2016 12 29 0 0 0)) (Some (ts 2017 4 1 0 0 0))) None None true C11 None;
  do q3 <- count_periods (fst tb1) iv2 (mkFstr None AlM) DOn None;
  do q4 <- count_periods (fst tb1) iv2 (mkFstr None AlM) DOff None;
  do q5 <- count_periods (fst tb1) iv2 (mkFstr None AlM) DAny None;
  Ok [((Qeq_bool q3 (34 # 11)));
       ((Qeq_bool q4 (289 # 90)));
       ((Qeq_bool q5 (2911 # 930)))]) = true.
Proof. vm_compute. reflexivity. Qed.

(** test_interval_methods.py:259 TestIntervalDaysCountPeriodsM.test_interval_d_count_periods_m_with_gap *)
Example test_interval_d_count_periods_m_with_gap : passes (
  let heap0 : heap Z := [] in
  do tb1 <- build (mkArgs (mkFstr None AlD) (ts 2016 11 28 0 0 0) (ts 2017 5 2 0 0 0) (LOrg (DMarker (mkMarker (mkFstr None (AlW None)) [])) [(LPat (PList [1; 1; 1; 1; 1; 0; 0]))]) [((ts 2017 2 1 0 0 0), 0); ((ts 2017 2 2 0 0 0), 0); ((ts 2017 2 3 0 0 0), 0); ((ts 2017 2 4 0 0 0), 0); ((ts 2017 2 5 0 0 0), 0); ((ts 2017 2 6 0 0 0), 0); ((ts 2017 2 7 0 0 0), 0); ((ts 2017 2 8 0 0 0), 0); ((ts 2017 2 9 0 0 0), 0); ((ts 2017 2 10 0 0 0), 0); ((ts 2017 2 11 0 0 0), 0); ((ts 2017 2 12 0 0 0), 0); ((ts 2017 2 13 0 0 0), 0); ((ts 2017 2 14 0 0 0), 0); ((ts 2017 2 15 0 0 0), 0); ((ts 2017 2 16 0 0 0), 0); ((ts 2017 2 17 0 0 0), 0); ((ts 2017 2 18 0 0 0), 0); ((ts 2017 2 19 0 0 0), 0); ((ts 2017 2 20 0 0 0), 0); ((ts 2017 2 21 0 0 0), 0); ((ts 2017 2 22 0 0 0), 0); ((ts 2017 2 23 0 0 0), 0); ((ts 2017 2 24 0 0 0), 0); ((ts 2017 2 25 0 0 0), 0); ((ts 2017 2 26 0 0 0), 0); ((ts 2017 2 27 0 0 0), 0); ((ts 2017 2 28 0 0 0), 0)] (fun x => negb (x =? 0)) 0 false (-999999) WDuration conf_num) heap0;
  do iv2 <- get_interval (fst tb1) (RPair (Some (ts 2016 12 29 0 0 0)) (Some (ts 2017 4 1 0 0 0))) None None true C11 None;
  do q3 <- count_periods (fst tb1) iv2 (mkFstr None AlM) DOn None;
  do q4 <- count_periods (fst tb1) iv2 (mkFstr None AlM) DOff None;
  do q5 <- count_periods (fst tb1) iv2 (mkFstr None AlM) DAny None;
  Ok [((Qeq_bool q3 (23 # 11)));
       ((Qeq_bool q4 (289 # 90)));
       ((Qeq_bool q5 (2911 # 930)))]) = true.
Proof. vm_compute. reflexivity. Qed.

(** test_interval_methods.py:276 TestIntervalDaysCountPeriodsM.test_interval_d_count_periods_m_part_part *)
Example test_interval_d_count_periods_m_part_part : passes (
  let heap0 : heap Z := [] in
  do tb1 <- build (mkArgs (mkFstr None AlD) (ts 2016 11 28 0 0 0) (ts 2017 5 2 0 0 0) (LOrg (DMarker (mkMarker (mkFstr None (AlW None)) [])) [(LPat (PList [1; 1; 1; 1; 1; 0; 0]))]) [((ts 2017 1 1 0 0 0), 0); ((ts 2017 1 2 0 0 0), 0); ((ts 2017 1 3 0 0 0), 0); ((ts 2017 1 4 0 0 0), 0); ((ts 2017 1 5 0 0 0), 0); ((ts 2017 1 6 0 0 0), 0); ((ts 2017 1 7 0 0 0), 0); ((ts 2017 1 8 0 0 0), 0); ((ts 2017 1 9 0 0 0), 0); ((ts 2017 1 10 0 0 0), 0)] (fun x => negb (x =? 0)) 0 false (-999999) WDuration conf_num) heap0;
  do iv2 <- get_interval (fst tb1) (RPair (Some (ts 2016 12 29 0 0 0)) (Some (ts 2017 1 13 0 0 0))) None None true C11 None;
  do q3 <- count_periods (fst tb1) iv2 (mkFstr None AlM) DOn None;
  do q4 <- count_periods (fst tb1) iv2 (mkFstr None AlM) DOff None;
  do q5 <- count_periods (fst tb1) iv2 (mkFstr None AlM) DAny None;
  Ok [((Qeq_bool q3 (16 # 55)));
       ((Qeq_bool q4 (53 # 72)));
       ((Qeq_bool q5 (16 # 31)))]) = true.
Proof. vm_compute. reflexivity. Qed.

(** test_interval_methods.py:283 TestIntervalDaysCountPeriodsM.test_interval_d_count_periods_m_part_within *)
Example test_interval_d_count_periods_m_part_within : passes (
  let heap0 : heap Z := [] in
  do tb1 <- build (mkArgs (mkFstr None AlD) (ts 2016 11 28 0 0 0) (ts 2017 5 2 0 0 0) (LOrg (DMarker (mkMarker (mkFstr None (AlW None)) [])) [(LPat (PList [1; 1; 1; 1; 1; 0; 0]))]) [((ts 2017 1 1 0 0 0), 0); ((ts 2017 1 2 0 0 0), 0); ((ts 2017 1 3 0 0 0), 0); ((ts 2017 1 4 0 0 0), 0); ((ts 2017 1 5 0 0 0), 0); ((ts 2017 1 6 0 0 0), 0); ((ts 2017 1 7 0 0 0), 0); ((ts 2017 1 8 0 0 0), 0); ((ts 2017 1 9 0 0 0), 0); ((ts 2017 1 10 0 0 0), 0)] (fun x => negb (x =? 0)) 0 false (-999999) WDuration conf_num) heap0;
  do iv2 <- get_interval (fst tb1) (RPair (Some (ts 2017 2 6 0 0 0)) (Some (ts 2017 2 12 0 0 0))) None None true C11 None;
  do q3 <- count_periods (fst tb1) iv2 (mkFstr None AlM) DOn None;
  do q4 <- count_periods (fst tb1) iv2 (mkFstr None AlM) DOff None;
  do q5 <- count_periods (fst tb1) iv2 (mkFstr None AlM) DAny None;
  Ok [((Qeq_bool q3 (1 # 4)));
       ((Qeq_bool q4 (1 # 4)));
       ((Qeq_bool q5 (1 # 4)))]) = true.
Proof. vm_compute. reflexivity. Qed.

(** test_interval_methods.py:290 TestIntervalDaysCountPeriodsM.test_interval_d_count_periods_m_exact *)
Example test_interval_d_count_periods_m_exact : passes (
  let heap0 : heap Z := [] in
  do tb1 <- build (mkArgs (mkFstr None AlD) (ts 2016 11 28 0 0 0) (ts 2017 5 2 0 0 0) (LOrg (DMarker (mkMarker (mkFstr None (AlW None)) [])) [(LPat (PList [1; 1; 1; 1; 1; 0; 0]))]) [((ts 2017 1 1 0 0 0), 0); ((ts 2017 1 2 0 0 0), 0); ((ts 2017 1 3 0 0 0), 0); ((ts 2017 1 4 0 0 0), 0); ((ts 2017 1 5 0 0 0), 0); ((ts 2017 1 6 0 0 0), 0); ((ts 2017 1 7 0 0 0), 0); ((ts 2017 1 8 0 0 0), 0); ((ts 2017 1 9 0 0 0), 0); ((ts 2017 1 10 0 0 0), 0)] (fun x => negb (x =? 0)) 0 false (-999999) WDuration conf_num) heap0;
  do iv2 <- get_interval (fst tb1) (RPair (Some (ts 2017 1 1 0 0 0)) (Some (ts 2017 1 31 0 0 0))) None None true C11 None;
  do q3 <- count_periods (fst tb1) iv2 (mkFstr None AlM) DOn None;
  do q4 <- count_periods (fst tb1) iv2 (mkFstr None AlM) DOff None;
  do q5 <- count_periods (fst tb1) iv2 (mkFstr None AlM) DAny None;
  do iv6 <- get_interval (fst tb1) (RPair (Some (ts 2017 1 9 0 0 0)) (Some (ts 2017 1 31 0 0 0))) None None true C11 None;
  do q7 <- count_periods (fst tb1) iv6 (mkFstr None AlM) DOn None;
  do q8 <- count_periods (fst tb1) iv6 (mkFstr None AlM) DOff None;
  do q9 <- count_periods (fst tb1) iv6 (mkFstr None AlM) DAny None;
  do iv10 <- get_interval (fst tb1) (RPair (Some (ts 2017 1 1 0 0 0)) (Some (ts 2017 1 29 0 0 0))) None None true C11 None;
  do q11 <- count_periods (fst tb1) iv10 (mkFstr None AlM) DOn None;
  do q12 <- count_periods (fst tb1) iv10 (mkFstr None AlM) DOff None;
  do q13 <- count_periods (fst tb1) iv10 (mkFstr None AlM) DAny None;
  Ok [((Qeq_bool q3 (1 # 1)));
       ((Qeq_bool q4 (1 # 1)));
       ((Qeq_bool q5 (1 # 1)));
       ((Qeq_bool q7 (1 # 1)));
       ((Qeq_bool q8 (1 # 2)));
       ((Qeq_bool q9 (23 # 31)));
       ((Qeq_bool q11 (13 # 15)));
       ((Qeq_bool q12 (1 # 1)));
       ((Qeq_bool q13 (29 # 31)))]) = true.
Proof. vm_compute. reflexivity. Qed.

(** test_interval_methods.py:308 TestIntervalDaysCountPeriodsCornerCases.test_interval_d_count_periods_extending_outside_tb *)
Example test_interval_d_count_periods_extending_outside_tb : passes (
  let heap0 : heap Z := [] in
  do tb1 <- build (mkArgs (mkFstr None AlD) (ts 2016 11 28 0 0 0) (ts 2017 5 2 0 0 0) (LOrg (DMarker (mkMarker (mkFstr None (AlW None)) [])) [(LPat (PList [1; 1; 1; 1; 1; 0; 0]))]) [((ts 2017 1 1 0 0 0), 0); ((ts 2017 1 2 0 0 0), 0); ((ts 2017 1 3 0 0 0), 0); ((ts 2017 1 4 0 0 0), 0); ((ts 2017 1 5 0 0 0), 0); ((ts 2017 1 6 0 0 0), 0); ((ts 2017 1 7 0 0 0), 0); ((ts 2017 1 8 0 0 0), 0); ((ts 2017 1 9 0 0 0), 0); ((ts 2017 1 10 0 0 0), 0)] (fun x => negb (x =? 0)) 0 false (-999999) WDuration conf_num) heap0;
  do iv2 <- get_interval (fst tb1) (RPair (Some (ts 2016 11 29 0 0 0)) (Some (ts 2016 12 1 0 0 0))) None None true C11 None;
  do q4 <- count_periods (fst tb1) iv2 (mkFstr None AlM) DOff None;
  do iv5 <- get_interval (fst tb1) (RPair (Some (ts 2017 4 24 0 0 0)) (Some (ts 2017 5 1 0 0 0))) None None true C11 None;
  Ok [raises [EPartialOutOfBounds] (do q3 <- count_periods (fst tb1) iv2 (mkFstr None AlM) DOn None; Ok tt);
       ((Qeq_bool q4 (0 # 1)));
       raises [EPartialOutOfBounds] (do q6 <- count_periods (fst tb1) iv5 (mkFstr None AlM) DOn None; Ok tt)]) = true.
Proof. vm_compute. reflexivity. Qed.

(** test_interval_methods.py:324 TestIntervalDaysCountPeriodsCornerCases.test_interval_d_count_periods_m_no_such_duty_in_ivl *)
Example test_interval_d_count_periods_m_no_such_duty_in_ivl : passes (
  let heap0 : heap Z := [] in
  do tb1 <- build (mkArgs (mkFstr None AlD) (ts 2016 11 28 0 0 0) (ts 2017 5 2 0 0 0) (LOrg (DMarker (mkMarker (mkFstr None (AlW None)) [])) [(LPat (PList [1; 1; 1; 1; 1; 0; 0]))]) [((ts 2017 1 1 0 0 0), 0); ((ts 2017 1 2 0 0 0), 0); ((ts 2017 1 3 0 0 0), 0); ((ts 2017 1 4 0 0 0), 0); ((ts 2017 1 5 0 0 0), 0); ((ts 2017 1 6 0 0 0), 0); ((ts 2017 1 7 0 0 0), 0); ((ts 2017 1 8 0 0 0), 0); ((ts 2017 1 9 0 0 0), 0); ((ts 2017 1 10 0 0 0), 0)] (fun x => negb (x =? 0)) 0 false (-999999) WDuration conf_num) heap0;
  do iv2 <- get_interval (fst tb1) (RPair (Some (ts 2017 1 1 0 0 0)) (Some (ts 2017 1 10 0 0 0))) None None true C11 None;
  do q3 <- count_periods (fst tb1) iv2 (mkFstr None AlM) DOn None;
  do iv4 <- get_interval (fst tb1) (RPair (Some (ts 2016 12 31 0 0 0)) (Some (ts 2017 1 10 0 0 0))) None None true C11 None;
  do q5 <- count_periods (fst tb1) iv4 (mkFstr None AlM) DOn None;
  do iv6 <- get_interval (fst tb1) (RPair (Some (ts 2017 1 30 0 0 0)) (Some (ts 2017 1 31 0 0 0))) None None true C11 None;
  do q7 <- count_periods (fst tb1) iv6 (mkFstr None AlM) DOff None;
  do iv8 <- get_interval (fst tb1) (RPair (Some (ts 2017 1 30 0 0 0)) (Some (ts 2017 2 3 0 0 0))) None None true C11 None;
  do q9 <- count_periods (fst tb1) iv8 (mkFstr None AlM) DOff None;
  Ok [((Qeq_bool q3 (0 # 1)));
       ((Qeq_bool q5 (0 # 1)));
       ((Qeq_bool q7 (0 # 1)));
       ((Qeq_bool q9 (0 # 1)))]) = true.
Proof. vm_compute. reflexivity. Qed.

(** test_interval_methods.py:339 TestIntervalDaysCountPeriodsCornerCases.test_interval_d_count_periods_w_no_such_duty_in_period *)
Example test_interval_d_count_periods_w_no_such_duty_in_period : passes (
  let heap0 : heap Z := [] in
  do tb1 <- build (mkArgs (mkFstr None AlD) (ts 2016 11 28 0 0 0) (ts 2017 5 2 0 0 0) (LOrg (DMarker (mkMarker (mkFstr None (AlW None)) [])) [(LPat (PList [1; 1; 1; 1; 1; 0; 0]))]) [((ts 2017 1 1 0 0 0), 0); ((ts 2017 1 2 0 0 0), 0); ((ts 2017 1 3 0 0 0), 0); ((ts 2017 1 4 0 0 0), 0); ((ts 2017 1 5 0 0 0), 0); ((ts 2017 1 6 0 0 0), 0); ((ts 2017 1 7 0 0 0), 0); ((ts 2017 1 8 0 0 0), 0); ((ts 2017 1 9 0 0 0), 0); ((ts 2017 1 10 0 0 0), 0)] (fun x => negb (x =? 0)) 0 false (-999999) WDuration conf_num) heap0;
  do iv2 <- get_interval (fst tb1) (RPair (Some (ts 2017 1 2 0 0 0)) (Some (ts 2017 1 8 0 0 0))) None None true C11 None;
  do q3 <- count_periods (fst tb1) iv2 (mkFstr None (AlW None)) DOn None;
  do iv4 <- get_interval (fst tb1) (RPair (Some (ts 2017 1 2 0 0 0)) (Some (ts 2017 1 10 0 0 0))) None None true C11 None;
  do q5 <- count_periods (fst tb1) iv4 (mkFstr None (AlW None)) DOn None;
  do iv6 <- get_interval (fst tb1) (RPair (Some (ts 2017 1 2 0 0 0)) (Some (ts 2017 1 11 0 0 0))) None None true C11 None;
  do q7 <- count_periods (fst tb1) iv6 (mkFstr None (AlW None)) DOn None;
  do iv8 <- get_interval (fst tb1) (RPair (Some (ts 2017 1 2 0 0 0)) (Some (ts 2017 1 13 0 0 0))) None None true C11 None;
  do q9 <- count_periods (fst tb1) iv8 (mkFstr None (AlW None)) DOn None;
  Ok [((Qeq_bool q3 (0 # 1)));
       ((Qeq_bool q5 (0 # 1)));
       ((Qeq_bool q7 (1 # 3)));
       ((Qeq_bool q9 (1 # 1)))]) = true.
Proof. vm_compute. reflexivity. Qed.

(** test_interval_methods.py:350 TestIntervalDaysCountPeriodsCornerCases.test_interval_d_count_periods_same_freq *)
Example test_interval_d_count_periods_same_freq : passes (
  let heap0 : heap Z := [] in
  do tb1 <- build (mkArgs (mkFstr None AlD) (ts 2016 11 28 0 0 0) (ts 2017 5 2 0 0 0) (LOrg (DMarker (mkMarker (mkFstr None (AlW None)) [])) [(LPat (PList [1; 1; 1; 1; 1; 0; 0]))]) [((ts 2017 1 1 0 0 0), 0); ((ts 2017 1 2 0 0 0), 0); ((ts 2017 1 3 0 0 0), 0); ((ts 2017 1 4 0 0 0), 0); ((ts 2017 1 5 0 0 0), 0); ((ts 2017 1 6 0 0 0), 0); ((ts 2017 1 7 0 0 0), 0); ((ts 2017 1 8 0 0 0), 0); ((ts 2017 1 9 0 0 0), 0); ((ts 2017 1 10 0 0 0), 0)] (fun x => negb (x =? 0)) 0 false (-999999) WDuration conf_num) heap0;
  do iv2 <- get_interval (fst tb1) (RPair (Some (ts 2017 3 30 0 0 0)) (Some (ts 2017 4 1 0 0 0))) None None true C11 None;
  do q3 <- count_periods (fst tb1) iv2 (mkFstr None AlD) DOn None;
  do q4 <- count_periods (fst tb1) iv2 (mkFstr None AlD) DOff None;
  do q5 <- count_periods (fst tb1) iv2 (mkFstr None AlD) DAny None;
  Ok [((Qeq_bool q3 (2 # 1)));
       ((Qeq_bool q4 (1 # 1)));
       ((Qeq_bool q5 (3 # 1)))]) = true.
Proof. vm_compute. reflexivity. Qed.

(** test_interval_methods.py:357 TestIntervalDaysCountPeriodsCornerCases.test_interval_d_count_periods_higher_freq *)
Example test_interval_d_count_periods_higher_freq : passes (
  let heap0 : heap Z := [] in
  do tb1 <- build (mkArgs (mkFstr None AlD) (ts 2016 11 28 0 0 0) (ts 2017 5 2 0 0 0) (LOrg (DMarker (mkMarker (mkFstr None (AlW None)) [])) [(LPat (PList [1; 1; 1; 1; 1; 0; 0]))]) [((ts 2017 1 1 0 0 0), 0); ((ts 2017 1 2 0 0 0), 0); ((ts 2017 1 3 0 0 0), 0); ((ts 2017 1 4 0 0 0), 0); ((ts 2017 1 5 0 0 0), 0); ((ts 2017 1 6 0 0 0), 0); ((ts 2017 1 7 0 0 0), 0); ((ts 2017 1 8 0 0 0), 0); ((ts 2017 1 9 0 0 0), 0); ((ts 2017 1 10 0 0 0), 0)] (fun x => negb (x =? 0)) 0 false (-999999) WDuration conf_num) heap0;
  do iv2 <- get_interval (fst tb1) (RPair (Some (ts 2017 3 30 0 0 0)) (Some (ts 2017 4 1 0 0 0))) None None true C11 None;
  Ok [raises [EUnacceptablePeriod] (do q3 <- count_periods (fst tb1) iv2 (mkFstr None AlH) DOn None; Ok tt);
       raises [EUnacceptablePeriod] (do q4 <- count_periods (fst tb1) iv2 (mkFstr None AlT) DOn None; Ok tt)]) = true.
Proof. vm_compute. reflexivity. Qed.

(** test_interval_methods.py:424 TestIntervalCountPeriodsCornerCases.test_ivl_count_periods_shorter_than_ws_at_start *)
Example test_ivl_count_periods_shorter_than_ws_at_start : passes (
  let heap0 : heap Z := [] in
  do tb1 <- build (mkArgs (mkFstr None AlT) (ts 2017 10 1 0 0 0) (ts 2017 10 1 14 59 0) (LOrg (DMarks [(ts 2017 10 1 3 5 0); (ts 2017 10 1 6 5 0); (ts 2017 10 1 9 5 0); (ts 2017 10 1 12 5 0)]) [(LLab 0); (LOrg (DMarker (mkMarker (mkFstr (Some 30%positive) AlT) [])) [(LLab 0); (LLab 1)]); (LLab 0); (LOrg (DMarker (mkMarker (mkFstr (Some 30%positive) AlT) [])) [(LLab 0); (LLab 1)]); (LLab 0)]) [] (fun x => negb (x =? 0)) 0 false (-999999) WDuration conf_num) heap0;
  do iv2 <- new_interval (fst tb1) 0 3 (tb_default (fst tb1));
  Ok [raises [EUnacceptablePeriod] (do q3 <- count_periods (fst tb1) iv2 (mkFstr None AlH) DOn None; Ok tt);
       raises [EUnacceptablePeriod] (do q4 <- count_periods (fst tb1) iv2 (mkFstr None AlH) DOff None; Ok tt);
       raises [EUnacceptablePeriod] (do q5 <- count_periods (fst tb1) iv2 (mkFstr None AlH) DAny None; Ok tt)]) = true.
Proof. vm_compute. reflexivity. Qed.

(** test_interval_methods.py:435 TestIntervalCountPeriodsCornerCases.test_ivl_count_periods_shorter_than_ws_at_mid *)
Example test_ivl_count_periods_shorter_than_ws_at_mid : passes (
  let heap0 : heap Z := [] in
  do tb1 <- build (mkArgs (mkFstr None AlT) (ts 2017 10 1 0 0 0) (ts 2017 10 1 14 59 0) (LOrg (DMarks [(ts 2017 10 1 3 5 0); (ts 2017 10 1 6 5 0); (ts 2017 10 1 9 5 0); (ts 2017 10 1 12 5 0)]) [(LLab 0); (LOrg (DMarker (mkMarker (mkFstr (Some 30%positive) AlT) [])) [(LLab 0); (LLab 1)]); (LLab 0); (LOrg (DMarker (mkMarker (mkFstr (Some 30%positive) AlT) [])) [(LLab 0); (LLab 1)]); (LLab 0)]) [] (fun x => negb (x =? 0)) 0 false (-999999) WDuration conf_num) heap0;
  do iv2 <- new_interval (fst tb1) 5 9 (tb_default (fst tb1));
  Ok [raises [EUnacceptablePeriod] (do q3 <- count_periods (fst tb1) iv2 (mkFstr None AlH) DOn None; Ok tt);
       raises [EUnacceptablePeriod] (do q4 <- count_periods (fst tb1) iv2 (mkFstr None AlH) DOff None; Ok tt);
       raises [EUnacceptablePeriod] (do q5 <- count_periods (fst tb1) iv2 (mkFstr None AlH) DAny None; Ok tt)]) = true.
Proof. vm_compute. reflexivity. Qed.

(** test_interval_methods.py:446 TestIntervalCountPeriodsCornerCases.test_ivl_count_periods_shorter_than_ws_at_end *)
Example test_ivl_count_periods_shorter_than_ws_at_end : passes (
  let heap0 : heap Z := [] in
  do tb1 <- build (mkArgs (mkFstr None AlT) (ts 2017 10 1 0 0 0) (ts 2017 10 1 14 59 0) (LOrg (DMarks [(ts 2017 10 1 3 5 0); (ts 2017 10 1 6 5 0); (ts 2017 10 1 9 5 0); (ts 2017 10 1 12 5 0)]) [(LLab 0); (LOrg (DMarker (mkMarker (mkFstr (Some 30%positive) AlT) [])) [(LLab 0); (LLab 1)]); (LLab 0); (LOrg (DMarker (mkMarker (mkFstr (Some 30%positive) AlT) [])) [(LLab 0); (LLab 1)]); (LLab 0)]) [] (fun x => negb (x =? 0)) 0 false (-999999) WDuration conf_num) heap0;
  do iv2 <- new_interval (fst tb1) 12 14 (tb_default (fst tb1));
  Ok [raises [EUnacceptablePeriod] (do q3 <- count_periods (fst tb1) iv2 (mkFstr None AlH) DOn None; Ok tt);
       raises [EUnacceptablePeriod] (do q4 <- count_periods (fst tb1) iv2 (mkFstr None AlH) DOff None; Ok tt);
       raises [EUnacceptablePeriod] (do q5 <- count_periods (fst tb1) iv2 (mkFstr None AlH) DAny None; Ok tt)]) = true.
Proof. vm_compute. reflexivity. Qed.

(** test_interval_methods.py:457 TestIntervalCountPeriodsCornerCases.test_ivl_count_periods_avoiding_long_ws *)
Example test_ivl_count_periods_avoiding_long_ws : passes (
  let heap0 : heap Z := [] in
  do tb1 <- build (mkArgs (mkFstr None AlT) (ts 2017 10 1 0 0 0) (ts 2017 10 1 14 59 0) (LOrg (DMarks [(ts 2017 10 1 3 5 0); (ts 2017 10 1 6 5 0); (ts 2017 10 1 9 5 0); (ts 2017 10 1 12 5 0)]) [(LLab 0); (LOrg (DMarker (mkMarker (mkFstr (Some 30%positive) AlT) [])) [(LLab 0); (LLab 1)]); (LLab 0); (LOrg (DMarker (mkMarker (mkFstr (Some 30%positive) AlT) [])) [(LLab 0); (LLab 1)]); (LLab 0)]) [] (fun x => negb (x =? 0)) 0 false (-999999) WDuration conf_num) heap0;
  do iv2 <- new_interval (fst tb1) 1 3 (tb_default (fst tb1));
  do q3 <- count_periods (fst tb1) iv2 (mkFstr None AlH) DOn None;
  do q4 <- count_periods (fst tb1) iv2 (mkFstr None AlH) DOff None;
  do q5 <- count_periods (fst tb1) iv2 (mkFstr None AlH) DAny None;
  Ok [((Qeq_bool q3 (1 # 1)));
       ((Qeq_bool q4 (2 # 1)));
       ((Qeq_bool q5 (3 # 2)))]) = true.
Proof. vm_compute. reflexivity. Qed.

(** test_interval_methods.py:466 TestIntervalCountPeriodsCornerCases.test_ivl_count_periods_long_ws_caught_by_period *)
Example test_ivl_count_periods_long_ws_caught_by_period : passes (
  let heap0 : heap Z := [] in
  do tb1 <- build (mkArgs (mkFstr None AlT) (ts 2017 10 1 0 0 0) (ts 2017 10 1 14 59 0) (LOrg (DMarks [(ts 2017 10 1 3 5 0); (ts 2017 10 1 6 5 0); (ts 2017 10 1 9 5 0); (ts 2017 10 1 12 5 0)]) [(LLab 0); (LOrg (DMarker (mkMarker (mkFstr (Some 30%positive) AlT) [])) [(LLab 0); (LLab 1)]); (LLab 0); (LOrg (DMarker (mkMarker (mkFstr (Some 30%positive) AlT) [])) [(LLab 0); (LLab 1)]); (LLab 0)]) [] (fun x => negb (x =? 0)) 0 true (-999999) WDuration conf_num) heap0;
  do iv2 <- new_interval (fst tb1) 1 3 (tb_default (fst tb1));
  do q3 <- count_periods (fst tb1) iv2 (mkFstr None AlH) DOn None;
  do q4 <- count_periods (fst tb1) iv2 (mkFstr None AlH) DOff None;
  do q5 <- count_periods (fst tb1) iv2 (mkFstr None AlH) DAny None;
  Ok [((Qeq_bool q3 (1 # 1)));
       ((Qeq_bool q4 (3 # 2)));
       ((Qeq_bool q5 (3 # 2)))]) = true.
Proof. vm_compute. reflexivity. Qed.

(** test_interval_methods.py:480 TestIntervalWhatPortionOf.test_ivl_whatportion_other_is_longer *)
Example test_ivl_whatportion_other_is_longer : passes (
  let heap0 : heap Z := [] in
  do tb1 <- build (mkArgs (mkFstr None AlD) (ts 2016 12 31 0 0 0) (ts 2017 1 12 0 0 0) (LPat (PList [0; 1; 0; 0; 2; 0])) [] (fun x => negb (x =? 0)) 0 false (-999999) WDuration conf_num) heap0;
  do iv2 <- new_interval (fst tb1) 2 6 (tb_default (fst tb1));
  do iv3 <- new_interval (fst tb1) 2 8 (tb_default (fst tb1));
  do q4 <- what_portion_of (fst tb1) iv2 iv3 DOn None;
  do q5 <- what_portion_of (fst tb1) iv2 iv3 DOff None;
  do q6 <- what_portion_of (fst tb1) iv2 iv3 DAny None;
  do iv7 <- new_interval (fst tb1) 5 8 (tb_default (fst tb1));
  do q8 <- what_portion_of (fst tb1) iv7 iv3 DOn None;
  do q9 <- what_portion_of (fst tb1) iv7 iv3 DOff None;
  do q10 <- what_portion_of (fst tb1) iv7 iv3 DAny None;
  do iv11 <- new_interval (fst tb1) 3 6 (tb_default (fst tb1));
  do q12 <- what_portion_of (fst tb1) iv11 iv3 DOn None;
  do q13 <- what_portion_of (fst tb1) iv11 iv3 DOff None;
  do q14 <- what_portion_of (fst tb1) iv11 iv3 DAny None;
  Ok [((Qeq_bool q4 (1 # 2)));
       ((Qeq_bool q5 (4 # 5)));
       ((Qeq_bool q6 (5 # 7)));
       ((Qeq_bool q8 (1 # 2)));
       ((Qeq_bool q9 (3 # 5)));
       ((Qeq_bool q10 (4 # 7)));
       ((Qeq_bool q12 (1 # 2)));
       ((Qeq_bool q13 (3 # 5)));
       ((Qeq_bool q14 (4 # 7)))]) = true.
Proof. vm_compute. reflexivity. Qed.

(** test_interval_methods.py:498 TestIntervalWhatPortionOf.test_ivl_whatportion_operator_div *)
Example test_ivl_whatportion_operator_div : passes (
  let heap0 : heap Z := [] in
  do tb1 <- build (mkArgs (mkFstr None AlD) (ts 2016 12 31 0 0 0) (ts 2017 1 12 0 0 0) (LPat (PList [0; 1; 0; 0; 2; 0])) [] (fun x => negb (x =? 0)) 0 false (-999999) WDuration conf_num) heap0;
  do iv2 <- new_interval (fst tb1) 2 6 (tb_default (fst tb1));
  do iv3 <- new_interval (fst tb1) 2 8 (tb_default (fst tb1));
  do q4 <- what_portion_of (fst tb1) iv2 iv3 DOn None;
  Ok [((Qeq_bool q4 (1 # 2)))]) = true.
Proof. vm_compute. reflexivity. Qed.

(** test_interval_methods.py:504 TestIntervalWhatPortionOf.test_ivl_whatportion_other_is_the_same *)
Example test_ivl_whatportion_other_is_the_same : passes (
  let heap0 : heap Z := [] in
  do tb1 <- build (mkArgs (mkFstr None AlD) (ts 2016 12 31 0 0 0) (ts 2017 1 12 0 0 0) (LPat (PList [0; 1; 0; 0; 2; 0])) [] (fun x => negb (x =? 0)) 0 false (-999999) WDuration conf_num) heap0;
  do iv2 <- new_interval (fst tb1) 2 8 (tb_default (fst tb1));
  do iv3 <- new_interval (fst tb1) 2 8 (tb_default (fst tb1));
  do q4 <- what_portion_of (fst tb1) iv3 iv2 DOn None;
  do q5 <- what_portion_of (fst tb1) iv3 iv2 DOff None;
  do q6 <- what_portion_of (fst tb1) iv3 iv2 DAny None;
  Ok [((Qeq_bool q4 (1 # 1)));
       ((Qeq_bool q5 (1 # 1)));
       ((Qeq_bool q6 (1 # 1)))]) = true.
Proof. vm_compute. reflexivity. Qed.

(** test_interval_methods.py:512 TestIntervalWhatPortionOf.test_ivl_whatportion_other_is_shorter *)
Example test_ivl_whatportion_other_is_shorter : passes (
  let heap0 : heap Z := [] in
  do tb1 <- build (mkArgs (mkFstr None AlD) (ts 2016 12 31 0 0 0) (ts 2017 1 12 0 0 0) (LPat (PList [0; 1; 0; 0; 2; 0])) [] (fun x => negb (x =? 0)) 0 false (-999999) WDuration conf_num) heap0;
  do iv2 <- new_interval (fst tb1) 2 8 (tb_default (fst tb1));
  do iv3 <- new_interval (fst tb1) 2 10 (tb_default (fst tb1));
  do q4 <- what_portion_of (fst tb1) iv3 iv2 DOn None;
  do q5 <- what_portion_of (fst tb1) iv3 iv2 DOff None;
  do q6 <- what_portion_of (fst tb1) iv3 iv2 DAny None;
  do iv7 <- new_interval (fst tb1) 0 8 (tb_default (fst tb1));
  do q8 <- what_portion_of (fst tb1) iv7 iv2 DOn None;
  do q9 <- what_portion_of (fst tb1) iv7 iv2 DOff None;
  do q10 <- what_portion_of (fst tb1) iv7 iv2 DAny None;
  do iv11 <- new_interval (fst tb1) 2 12 (tb_default (fst tb1));
  do q12 <- what_portion_of (fst tb1) iv11 iv2 DOn None;
  do q13 <- what_portion_of (fst tb1) iv11 iv2 DOff None;
  do q14 <- what_portion_of (fst tb1) iv11 iv2 DAny None;
  Ok [((Qeq_bool q4 (1 # 1)));
       ((Qeq_bool q5 (1 # 1)));
       ((Qeq_bool q6 (1 # 1)));
       ((Qeq_bool q8 (1 # 1)));
       ((Qeq_bool q9 (1 # 1)));
       ((Qeq_bool q10 (1 # 1)));
       ((Qeq_bool q12 (1 # 1)));
       ((Qeq_bool q13 (1 # 1)));
       ((Qeq_bool q14 (1 # 1)))]) = true.
Proof. vm_compute. reflexivity. Qed.

(** test_interval_methods.py:531 TestIntervalWhatPortionOf.test_ivl_whatportion_other_is_outside_ivl *)
Example test_ivl_whatportion_other_is_outside_ivl : passes (
  let heap0 : heap Z := [] in
  do tb1 <- build (mkArgs (mkFstr None AlD) (ts 2016 12 31 0 0 0) (ts 2017 1 12 0 0 0) (LPat (PList [0; 1; 0; 0; 2; 0])) [] (fun x => negb (x =? 0)) 0 false (-999999) WDuration conf_num) heap0;
  do iv2 <- new_interval (fst tb1) 2 8 (tb_default (fst tb1));
  do iv3 <- new_interval (fst tb1) 9 10 (tb_default (fst tb1));
  do q4 <- what_portion_of (fst tb1) iv3 iv2 DOn None;
  do q5 <- what_portion_of (fst tb1) iv3 iv2 DOff None;
  do q6 <- what_portion_of (fst tb1) iv3 iv2 DAny None;
  Ok [((Qeq_bool q4 (0 # 1)));
       ((Qeq_bool q5 (0 # 1)));
       ((Qeq_bool q6 (0 # 1)))]) = true.
Proof. vm_compute. reflexivity. Qed.

(** test_interval_methods.py:539 TestIntervalWhatPortionOf.test_ivl_whatportion_intersection_lacks_duty *)
Example test_ivl_whatportion_intersection_lacks_duty : passes (
  let heap0 : heap Z := [] in
  do tb1 <- build (mkArgs (mkFstr None AlD) (ts 2016 12 31 0 0 0) (ts 2017 1 12 0 0 0) (LPat (PList [0; 1; 0; 0; 2; 0])) [] (fun x => negb (x =? 0)) 0 false (-999999) WDuration conf_num) heap0;
  do iv2 <- new_interval (fst tb1) 5 9 (tb_default (fst tb1));
  do iv3 <- new_interval (fst tb1) 2 6 (tb_default (fst tb1));
  do q4 <- what_portion_of (fst tb1) iv3 iv2 DOn None;
  do q5 <- what_portion_of (fst tb1) iv3 iv2 DOff None;
  do q6 <- what_portion_of (fst tb1) iv3 iv2 DAny None;
  do iv7 <- new_interval (fst tb1) 7 7 (tb_default (fst tb1));
  do q8 <- what_portion_of (fst tb1) iv7 iv2 DOn None;
  do q9 <- what_portion_of (fst tb1) iv7 iv2 DOff None;
  do q10 <- what_portion_of (fst tb1) iv7 iv2 DAny None;
  do iv11 <- new_interval (fst tb1) 7 7 (tb_default (fst tb1));
  do iv12 <- new_interval (fst tb1) 5 9 (tb_default (fst tb1));
  do q13 <- what_portion_of (fst tb1) iv12 iv11 DOn None;
  do q14 <- what_portion_of (fst tb1) iv12 iv11 DOff None;
  do q15 <- what_portion_of (fst tb1) iv12 iv11 DAny None;
  do iv16 <- new_interval (fst tb1) 8 8 (tb_default (fst tb1));
  do iv17 <- new_interval (fst tb1) 5 9 (tb_default (fst tb1));
  do q18 <- what_portion_of (fst tb1) iv17 iv16 DOn None;
  do q19 <- what_portion_of (fst tb1) iv17 iv16 DOff None;
  do q20 <- what_portion_of (fst tb1) iv17 iv16 DAny None;
  Ok [((Qeq_bool q4 (0 # 1)));
       ((Qeq_bool q5 (1 # 2)));
       ((Qeq_bool q6 (2 # 5)));
       ((Qeq_bool q8 (1 # 1)));
       ((Qeq_bool q9 (0 # 1)));
       ((Qeq_bool q10 (1 # 5)));
       ((Qeq_bool q13 (1 # 1)));
       ((Qeq_bool q14 (0 # 1)));
       ((Qeq_bool q15 (1 # 1)));
       ((Qeq_bool q18 (0 # 1)));
       ((Qeq_bool q19 (1 # 1)));
       ((Qeq_bool q20 (1 # 1)))]) = true.
Proof. vm_compute. reflexivity. Qed.

(** test_interval_methods.py:564 TestIntervalWhatPortionOf.test_ivl_whatportion_of_void_ivl *)
Example test_ivl_whatportion_of_void_ivl : passes (
  let heap0 : heap Z := [] in
  do tb1 <- build (mkArgs (mkFstr None AlD) (ts 2016 12 31 0 0 0) (ts 2017 1 12 0 0 0) (LPat (PList [0; 1; 0; 0; 2; 0])) [] (fun x => negb (x =? 0)) 0 false (-999999) WDuration conf_num) heap0;
  do iv2 <- new_interval (fst tb1) 2 8 (tb_default (fst tb1));
  do iv3 <- new_void_interval (fst tb1) 8 2 (tb_default (fst tb1));
  do q4 <- what_portion_of (fst tb1) iv2 iv3 DOn None;
  Ok [((Qeq_bool q4 (0 # 1)))]) = true.
Proof. vm_compute. reflexivity. Qed.

(** test_interval_methods.py:570 TestIntervalWhatPortionOf.test_ivl_whatportion_change_schedule *)
Example test_ivl_whatportion_change_schedule : passes (
  let heap0 : heap Z := [] in
  do tb1 <- build (mkArgs (mkFstr None AlD) (ts 2016 12 31 0 0 0) (ts 2017 1 12 0 0 0) (LPat (PList [0; 1; 0; 0; 2; 0])) [] (fun x => negb (x =? 0)) 0 false (-999999) WDuration conf_num) heap0;
  do r2 <- add_schedule (fst tb1) 1 (fun x => ((x >? 1)));
  do r3 <- add_schedule (fst r2) 2 (fun x => ((x >? 2)));
  do iv4 <- new_interval (fst r3) 7 10 (snd r3);
  do iv5 <- new_interval (fst r3) 10 10 (tb_default (fst r3));
  do q6 <- what_portion_of (fst r3) iv5 iv4 DOn None;
  do q7 <- what_portion_of (fst r3) iv5 iv4 DOn (Some (snd r2));
  do iv8 <- new_interval (fst r3) 10 10 (snd r2);
  do q9 <- what_portion_of (fst r3) iv8 iv4 DOn None;
  do q10 <- what_portion_of (fst r3) iv8 iv4 DOn (Some (tb_default (fst r3)));
  Ok [((Qeq_bool q6 (1 # 2)));
       ((Qeq_bool q7 (1 # 1)));
       ((Qeq_bool q9 (1 # 1)));
       ((Qeq_bool q10 (1 # 2)))]) = true.
Proof. vm_compute. reflexivity. Qed.

(** test_interval_methods.py:587 TestIntervalSchedules.test_ivl_count_with_schedules *)
Example test_ivl_count_with_schedules : passes (
  let heap0 : heap Z := [] in
  do tb1 <- build (mkArgs (mkFstr None AlD) (ts 2016 12 31 0 0 0) (ts 2017 1 12 0 0 0) (LPat (PList [0; 1; 0; 0; 2; 0])) [] (fun x => negb (x =? 0)) 0 false (-999999) WDuration conf_num) heap0;
  do r2 <- add_schedule (fst tb1) 1 (fun x => ((x >? 1)));
  do iv3 <- get_interval (fst r2) RNone None None true C11 None;
  do iv4 <- get_interval (fst r2) RNone None None true C11 (Some (snd r2));
  do n5 <- iv_count iv3 DOn None;
  do n6 <- iv_count iv4 DOn None;
  do n7 <- iv_count iv3 DOn (Some (snd r2));
  do n8 <- iv_count iv4 DOn (Some (tb_default (fst r2)));
  Ok [((n5 =? 4));
       ((n6 =? 2));
       ((n7 =? 2));
       ((n8 =? 4))]) = true.
Proof. vm_compute. reflexivity. Qed.

(** test_interval_methods.py:597 TestIntervalSchedules.test_ivl_nth_with_schedules *)
Example test_ivl_nth_with_schedules : passes (
  let heap0 : heap Z := [] in
  do tb1 <- build (mkArgs (mkFstr None AlD) (ts 2016 12 31 0 0 0) (ts 2017 1 12 0 0 0) (LPat (PList [0; 1; 0; 0; 2; 0])) [] (fun x => negb (x =? 0)) 0 false (-999999) WDuration conf_num) heap0;
  do r2 <- add_schedule (fst tb1) 1 (fun x => ((x >? 1)));
  do iv3 <- get_interval (fst r2) RNone None None true C11 None;
  do iv4 <- get_interval (fst r2) RNone None None true C11 (Some (snd r2));
  do w5 <- iv_nth (fst r2) iv3 1 DOn None;
  do w6 <- iv_nth (fst r2) iv4 1 DOn None;
  do w7 <- iv_nth (fst r2) iv3 1 DOn (Some (snd r2));
  do w8 <- iv_nth (fst r2) iv4 1 DOn (Some (tb_default (fst r2)));
  Ok [(((ws_loc w5) =? 4));
       (((sc_name (ws_sched w5)) =? 0));
       (((ws_loc w6) =? 10));
       (((sc_name (ws_sched w6)) =? 1));
       (((ws_loc w7) =? 10));
       (((sc_name (ws_sched w7)) =? 1));
       (((ws_loc w8) =? 4));
       (((sc_name (ws_sched w8)) =? 0))]) = true.
Proof. vm_compute. reflexivity. Qed.

(** test_interval_methods.py:615 TestIntervalSchedules.test_ivl_nth_with_schedules_OOB *)
Example test_ivl_nth_with_schedules_OOB : passes (
  let heap0 : heap Z := [] in
  do tb1 <- build (mkArgs (mkFstr None AlD) (ts 2016 12 31 0 0 0) (ts 2017 1 12 0 0 0) (LPat (PList [0; 1; 0; 0; 2; 0])) [] (fun x => negb (x =? 0)) 0 false (-999999) WDuration conf_num) heap0;
  do r2 <- add_schedule (fst tb1) 1 (fun x => ((x >? 1)));
  do iv3 <- get_interval (fst r2) RNone None None true C11 None;
  do iv4 <- get_interval (fst r2) RNone None None true C11 (Some (snd r2));
  do w5 <- iv_nth (fst r2) iv3 2 DOn None;
  Ok [(((ws_loc w5) =? 7));
       raises [EOutOfBounds] (do w6 <- iv_nth (fst r2) iv4 2 DOn None; Ok tt)]) = true.
Proof. vm_compute. reflexivity. Qed.

(** test_interval_methods.py:624 TestIntervalSchedules.test_ivl_count_periods_with_schedules *)
Example test_ivl_count_periods_with_schedules : passes (
  let heap0 : heap Z := [] in
  do tb1 <- build (mkArgs (mkFstr None AlH) (ts 2017 10 1 0 0 0) (ts 2017 10 2 23 59 0) (LPat (PList [0; 1; 0; 2])) [] (fun x => negb (x =? 0)) 0 false (-999999) WDuration conf_num) heap0;
  do r2 <- add_schedule (fst tb1) 1 (fun x => ((x >? 1)));
  do iv3 <- get_interval (fst r2) (RPair (Some (ts 2017 10 1 14 0 0)) (Some (ts 2017 10 2 23 59 0))) None None true C11 None;
  do iv4 <- get_interval (fst r2) (RPair (Some (ts 2017 10 1 14 0 0)) (Some (ts 2017 10 2 23 59 0))) None None true C11 (Some (snd r2));
  do q5 <- count_periods (fst r2) iv3 (mkFstr None AlD) DOn None;
  do q6 <- count_periods (fst r2) iv4 (mkFstr None AlD) DOn None;
  do q7 <- count_periods (fst r2) iv3 (mkFstr None AlD) DOn (Some (snd r2));
  do q8 <- count_periods (fst r2) iv4 (mkFstr None AlD) DOn (Some (tb_default (fst r2)));
  Ok [((Qeq_bool q5 (17 # 12)));
       ((Qeq_bool q6 (3 # 2)));
       ((Qeq_bool q7 (3 # 2)));
       ((Qeq_bool q8 (17 # 12)))]) = true.
Proof. vm_compute. reflexivity. Qed.

(** test_interval_methods.py:636 TestIntervalSchedules.test_ivl_bad_schedule *)
Example test_ivl_bad_schedule : passes (
  let heap0 : heap Z := [] in
  do tb1 <- build (mkArgs (mkFstr None AlD) (ts 2016 12 31 0 0 0) (ts 2017 1 12 0 0 0) (LPat (PList [0; 1; 0; 0; 2; 0])) [] (fun x => negb (x =? 0)) 0 false (-999999) WDuration conf_num) heap0;
  do r2 <- add_schedule (fst tb1) 1 (fun x => ((x >? 1)));
  Ok [raises [EType] (do iv3 <- Api.get_interval_any conf_nat (fst r2) (Api.mkIa (Api.PVal Api.VNull) None Api.FNone true C11 Api.SOther); Ok tt)]) = true.
Proof. vm_compute. reflexivity. Qed.

(** test_interval_methods.py:670 TestIntervalSum.test_ivl_sum_no_such_duty *)
Example test_ivl_sum_no_such_duty : passes (
  let heap0 : heap Z := [] in
  do tb1 <- build (mkArgs (mkFstr None AlD) (ts 2017 10 1 0 0 0) (ts 2017 10 10 0 0 0) (LPat (PList [1; 2])) [] (fun x => negb (x =? 0)) 0 false (-999999) WDuration conf_num) heap0;
  do iv2 <- new_interval (fst tb1) 2 9 (tb_default (fst tb1));
  do q3 <- sum_labels (fst tb1) iv2 DOn None;
  do q4 <- sum_labels (fst tb1) iv2 DOff None;
  do q5 <- sum_labels (fst tb1) iv2 DAny None;
  Ok [((Qeq_bool q3 (12 # 1)));
       ((Qeq_bool q4 (0 # 1)));
       ((Qeq_bool q5 (12 # 1)))]) = true.
Proof. vm_compute. reflexivity. Qed.

(** test_interval_methods.py:679 TestIntervalSum.test_ivl_sum_other_schedule *)
Example test_ivl_sum_other_schedule : passes (
  let heap0 : heap Z := [] in
  do tb1 <- build (mkArgs (mkFstr None AlD) (ts 2017 10 1 0 0 0) (ts 2017 10 10 0 0 0) (LPat (PList [1; 2])) [] (fun x => negb (x =? 0)) 0 false (-999999) WDuration conf_num) heap0;
  do r2 <- add_schedule (fst tb1) 1 (fun x => ((x >? 2)));
  do iv3 <- new_interval (fst r2) 2 9 (tb_default (fst r2));
  do q4 <- sum_labels (fst r2) iv3 DOn (Some (snd r2));
  do q5 <- sum_labels (fst r2) iv3 DOff (Some (snd r2));
  do q6 <- sum_labels (fst r2) iv3 DAny (Some (snd r2));
  Ok [((Qeq_bool q4 (0 # 1)));
       ((Qeq_bool q5 (12 # 1)));
       ((Qeq_bool q6 (12 # 1)))]) = true.
Proof. vm_compute. reflexivity. Qed.

(** test_interval_methods.py:720 TestIntervalTotalDuration.test_ivl_total_dur_no_such_duty *)
Example test_ivl_total_dur_no_such_duty : passes (
  let heap0 : heap Z := [] in
  do tb1 <- build (mkArgs (mkFstr None AlD) (ts 2017 10 1 0 0 0) (ts 2017 10 10 0 0 0) (LPat (PList [1; 2])) [] (fun x => negb (x =? 0)) 0 false (-999999) WDuration conf_num) heap0;
  do iv2 <- new_interval (fst tb1) 2 9 (tb_default (fst tb1));
  do n3 <- total_duration (fst tb1) iv2 DOn None;
  do n4 <- total_duration (fst tb1) iv2 DOff None;
  do n5 <- total_duration (fst tb1) iv2 DAny None;
  Ok [((n3 =? 8));
       ((n4 =? 0));
       ((n5 =? 8))]) = true.
Proof. vm_compute. reflexivity. Qed.

(** test_interval_methods.py:729 TestIntervalTotalDuration.test_ivl_total_dur_other_schedule *)
Example test_ivl_total_dur_other_schedule : passes (
  let heap0 : heap Z := [] in
  do tb1 <- build (mkArgs (mkFstr None AlD) (ts 2017 10 1 0 0 0) (ts 2017 10 10 0 0 0) (LPat (PList [1; 2])) [] (fun x => negb (x =? 0)) 0 false (-999999) WDuration conf_num) heap0;
  do r2 <- add_schedule (fst tb1) 1 (fun x => ((x >? 2)));
  do iv3 <- new_interval (fst r2) 2 9 (tb_default (fst r2));
  do n4 <- total_duration (fst r2) iv3 DOn (Some (snd r2));
  do n5 <- total_duration (fst r2) iv3 DOff (Some (snd r2));
  do n6 <- total_duration (fst r2) iv3 DAny (Some (snd r2));
  Ok [((n4 =? 0));
       ((n5 =? 8));
       ((n6 =? 8))]) = true.
Proof. vm_compute. reflexivity. Qed.

(** test_interval_methods.py:742 TestIntervalWorktime.test_ivl_worktime_default *)
Example test_ivl_worktime_default : passes (
  let heap0 : heap Z := [] in
  do tb1 <- build (mkArgs (mkFstr None AlD) (ts 2017 10 1 0 0 0) (ts 2017 10 10 0 0 0) (LPat (PList [1; 2])) [] (fun x => ((x >? 1))) 0 false (-999999) WDuration conf_num) heap0;
  do iv2 <- new_interval (fst tb1) 2 9 (tb_default (fst tb1));
  do q3 <- iv_worktime (fst tb1) iv2 DOn None;
  do q4 <- iv_worktime (fst tb1) iv2 DOff None;
  do q5 <- iv_worktime (fst tb1) iv2 DAny None;
  do iv6 <- get_interval (fst tb1) RNone None None true C11 None;
  do q7 <- iv_worktime (fst tb1) iv6 DOn None;
  do iv8 <- get_interval (fst tb1) RNone None None true C11 None;
  do q9 <- iv_worktime (fst tb1) iv8 DOff None;
  do iv10 <- get_interval (fst tb1) RNone None None true C11 None;
  do q11 <- iv_worktime (fst tb1) iv10 DAny None;
  Ok [((Qeq_bool q3 (4 # 1)));
       ((Qeq_bool q4 (4 # 1)));
       ((Qeq_bool q5 (8 # 1)));
       ((Qeq_bool q7 (5 # 1)));
       ((Qeq_bool q9 (5 # 1)));
       ((Qeq_bool q11 (10 # 1)))]) = true.
Proof. vm_compute. reflexivity. Qed.

(** test_interval_methods.py:756 TestIntervalWorktime.test_ivl_worktime_in_labels *)
Example test_ivl_worktime_in_labels : passes (
  let heap0 : heap Z := [] in
  do tb1 <- build (mkArgs (mkFstr None AlD) (ts 2017 10 1 0 0 0) (ts 2017 10 10 0 0 0) (LPat (PList [1; 2])) [] (fun x => ((x >? 1))) 0 false (-999999) WLabels conf_num) heap0;
  do iv2 <- new_interval (fst tb1) 2 9 (tb_default (fst tb1));
  do q3 <- iv_worktime (fst tb1) iv2 DOn None;
  do q4 <- iv_worktime (fst tb1) iv2 DOff None;
  do q5 <- iv_worktime (fst tb1) iv2 DAny None;
  Ok [((Qeq_bool q3 (8 # 1)));
       ((Qeq_bool q4 (4 # 1)));
       ((Qeq_bool q5 (12 # 1)))]) = true.
Proof. vm_compute. reflexivity. Qed.

(** test_interval_methods.py:766 TestIntervalWorktime.test_ivl_worktime_in_labels_other_schedule *)
Example test_ivl_worktime_in_labels_other_schedule : passes (
  let heap0 : heap Z := [] in
  do tb1 <- build (mkArgs (mkFstr None AlD) (ts 2017 10 1 0 0 0) (ts 2017 10 10 0 0 0) (LPat (PList [1; 2])) [] (fun x => negb (x =? 0)) 0 false (-999999) WLabels conf_num) heap0;
  do r2 <- add_schedule (fst tb1) 1 (fun x => ((x >? 2)));
  do iv3 <- new_interval (fst r2) 2 9 (tb_default (fst r2));
  do q4 <- iv_worktime (fst r2) iv3 DOn (Some (snd r2));
  do q5 <- iv_worktime (fst r2) iv3 DOff (Some (snd r2));
  do q6 <- iv_worktime (fst r2) iv3 DAny (Some (snd r2));
  Ok [((Qeq_bool q4 (0 # 1)));
       ((Qeq_bool q5 (12 # 1)));
       ((Qeq_bool q6 (12 # 1)))]) = true.
Proof. vm_compute. reflexivity. Qed.

(** test_interval_methods.py:777 TestIntervalWorktime.test_ivl_worktime_in_labels_strings *)
Example test_ivl_worktime_in_labels_strings : passes (
  let heap0 : heap Z := [] in
  do tb1 <- build (mkArgs (mkFstr None AlD) (ts 2017 10 1 0 0 0) (ts 2017 10 10 0 0 0) (LPat (PList [1000001; 1000002])) [] (fun x => ((x =? 1000002))) 0 false (-999999) WLabels conf_num) heap0;
  do iv2 <- new_interval (fst tb1) 2 9 (tb_default (fst tb1));
  Ok [raises [EType] (do q3 <- iv_worktime (fst tb1) iv2 DOn None; Ok tt);
       raises [EType] (do q4 <- iv_worktime (fst tb1) iv2 DOff None; Ok tt);
       raises [EType] (do q5 <- iv_worktime (fst tb1) iv2 DAny None; Ok tt)]) = true.
Proof. vm_compute. reflexivity. Qed.

(** test_interval_methods.py:806 TestIntervalOverlap.test_ivl_overlap_partial *)
Example test_ivl_overlap_partial : passes (
  let heap0 : heap Z := [] in
  do tb1 <- build (mkArgs (mkFstr None AlD) (ts 2016 12 31 0 0 0) (ts 2017 1 12 0 0 0) (LPat (PList [0; 1; 0; 0; 2; 0])) [] (fun x => negb (x =? 0)) 0 false (-999999) WDuration conf_num) heap0;
  do iv2 <- new_interval (fst tb1) 2 8 (tb_default (fst tb1));
  do iv3 <- new_interval (fst tb1) 6 12 (tb_default (fst tb1));
  do iv4 <- iv_overlap (fst tb1) iv2 iv3 None;
  do iv5 <- new_interval (fst tb1) 1 3 (tb_default (fst tb1));
  do iv6 <- iv_overlap (fst tb1) iv2 iv5 None;
  Ok [((pair_eqb (iv_a iv4, iv_b iv4) (6, 8)));
       (((iv_length iv4) =? 3));
       ((pair_eqb (iv_a iv6, iv_b iv6) (2, 3)));
       (((iv_length iv6) =? 2))]) = true.
Proof. vm_compute. reflexivity. Qed.

(** test_interval_methods.py:819 TestIntervalOverlap.test_ivl_overlap_total *)
Example test_ivl_overlap_total : passes (
  let heap0 : heap Z := [] in
  do tb1 <- build (mkArgs (mkFstr None AlD) (ts 2016 12 31 0 0 0) (ts 2017 1 12 0 0 0) (LPat (PList [0; 1; 0; 0; 2; 0])) [] (fun x => negb (x =? 0)) 0 false (-999999) WDuration conf_num) heap0;
  do iv2 <- new_interval (fst tb1) 2 8 (tb_default (fst tb1));
  do iv3 <- new_interval (fst tb1) 0 12 (tb_default (fst tb1));
  do iv4 <- iv_overlap (fst tb1) iv2 iv3 None;
  Ok [((pair_eqb (iv_a iv4, iv_b iv4) (2, 8)));
       (((iv_length iv4) =? 7))]) = true.
Proof. vm_compute. reflexivity. Qed.

(** test_interval_methods.py:827 TestIntervalOverlap.test_ivl_overlap_within *)
Example test_ivl_overlap_within : passes (
  let heap0 : heap Z := [] in
  do tb1 <- build (mkArgs (mkFstr None AlD) (ts 2016 12 31 0 0 0) (ts 2017 1 12 0 0 0) (LPat (PList [0; 1; 0; 0; 2; 0])) [] (fun x => negb (x =? 0)) 0 false (-999999) WDuration conf_num) heap0;
  do iv2 <- new_interval (fst tb1) 2 8 (tb_default (fst tb1));
  do iv3 <- new_interval (fst tb1) 3 7 (tb_default (fst tb1));
  do iv4 <- iv_overlap (fst tb1) iv2 iv3 None;
  Ok [((pair_eqb (iv_a iv4, iv_b iv4) (3, 7)));
       (((iv_length iv4) =? 5))]) = true.
Proof. vm_compute. reflexivity. Qed.

(** test_interval_methods.py:835 TestIntervalOverlap.test_ivl_overlap_with_self *)
Example test_ivl_overlap_with_self : passes (
  let heap0 : heap Z := [] in
  do tb1 <- build (mkArgs (mkFstr None AlD) (ts 2016 12 31 0 0 0) (ts 2017 1 12 0 0 0) (LPat (PList [0; 1; 0; 0; 2; 0])) [] (fun x => negb (x =? 0)) 0 false (-999999) WDuration conf_num) heap0;
  do iv2 <- new_interval (fst tb1) 2 8 (tb_default (fst tb1));
  do iv3 <- iv_overlap (fst tb1) iv2 iv2 None;
  Ok [((pair_eqb (iv_a iv3, iv_b iv3) (2, 8)));
       (((iv_length iv3) =? 7))]) = true.
Proof. vm_compute. reflexivity. Qed.

(** test_interval_methods.py:842 TestIntervalOverlap.test_ivl_overlap_one *)
Example test_ivl_overlap_one : passes (
  let heap0 : heap Z := [] in
  do tb1 <- build (mkArgs (mkFstr None AlD) (ts 2016 12 31 0 0 0) (ts 2017 1 12 0 0 0) (LPat (PList [0; 1; 0; 0; 2; 0])) [] (fun x => negb (x =? 0)) 0 false (-999999) WDuration conf_num) heap0;
  do iv2 <- new_interval (fst tb1) 2 8 (tb_default (fst tb1));
  do iv3 <- new_interval (fst tb1) 1 2 (tb_default (fst tb1));
  do iv4 <- iv_overlap (fst tb1) iv2 iv3 None;
  do iv5 <- new_interval (fst tb1) 2 2 (tb_default (fst tb1));
  do iv6 <- iv_overlap (fst tb1) iv2 iv5 None;
  Ok [((pair_eqb (iv_a iv4, iv_b iv4) (2, 2)));
       (((iv_length iv4) =? 1));
       ((pair_eqb (iv_a iv6, iv_b iv6) (2, 2)));
       (((iv_length iv6) =? 1))]) = true.
Proof. vm_compute. reflexivity. Qed.

(** test_interval_methods.py:855 TestIntervalOverlap.test_ivl_overlap_void *)
Example test_ivl_overlap_void : passes (
  let heap0 : heap Z := [] in
  do tb1 <- build (mkArgs (mkFstr None AlD) (ts 2016 12 31 0 0 0) (ts 2017 1 12 0 0 0) (LPat (PList [0; 1; 0; 0; 2; 0])) [] (fun x => negb (x =? 0)) 0 false (-999999) WDuration conf_num) heap0;
  do iv2 <- new_interval (fst tb1) 2 8 (tb_default (fst tb1));
  do iv3 <- new_interval (fst tb1) 9 10 (tb_default (fst tb1));
  do iv4 <- iv_overlap (fst tb1) iv2 iv3 None;
  do iv5 <- new_interval (fst tb1) 1 1 (tb_default (fst tb1));
  do iv6 <- iv_overlap (fst tb1) iv2 iv5 None;
  do iv7 <- iv_overlap (fst tb1) iv2 iv6 None;
  Ok [((pair_eqb (iv_a iv4, iv_b iv4) (9, 8)));
       (((iv_length iv4) =? 0));
       (iv_void iv4);
       ((pair_eqb (iv_a iv6, iv_b iv6) (2, 1)));
       (((iv_length iv6) =? 0));
       (iv_void iv6);
       ((pair_eqb (iv_a iv7, iv_b iv7) (2, 1)));
       (((iv_length iv7) =? 0));
       (iv_void iv7)]) = true.
Proof. vm_compute. reflexivity. Qed.

(** test_interval_methods.py:875 TestIntervalOverlap.test_ivl_overlap_change_schedule *)
Example test_ivl_overlap_change_schedule : passes (
  let heap0 : heap Z := [] in
  do tb1 <- build (mkArgs (mkFstr None AlD) (ts 2016 12 31 0 0 0) (ts 2017 1 12 0 0 0) (LPat (PList [0; 1; 0; 0; 2; 0])) [] (fun x => negb (x =? 0)) 0 false (-999999) WDuration conf_num) heap0;
  do r2 <- add_schedule (fst tb1) 1 (fun x => true);
  do r3 <- add_schedule (fst r2) 2 (fun x => true);
  do iv4 <- new_interval (fst r3) 2 8 (snd r2);
  do iv5 <- new_interval (fst r3) 6 12 (tb_default (fst r3));
  do iv6 <- iv_overlap (fst r3) iv4 iv5 None;
  do iv7 <- new_interval (fst r3) 2 8 (tb_default (fst r3));
  do iv8 <- new_interval (fst r3) 6 12 (snd r2);
  do iv9 <- iv_overlap (fst r3) iv7 iv8 None;
  do iv10 <- new_interval (fst r3) 2 8 (snd r2);
  do iv11 <- new_interval (fst r3) 6 12 (tb_default (fst r3));
  do iv12 <- iv_overlap (fst r3) iv10 iv11 (Some (snd r3));
  do iv13 <- new_interval (fst r3) 2 8 (snd r2);
  do iv14 <- new_interval (fst r3) 10 12 (tb_default (fst r3));
  do iv15 <- iv_overlap (fst r3) iv13 iv14 None;
  Ok [((pair_eqb (iv_a iv6, iv_b iv6) (6, 8)));
       (((sc_name (iv_sched iv6)) =? 1));
       ((pair_eqb (iv_a iv9, iv_b iv9) (6, 8)));
       (((sc_name (iv_sched iv9)) =? (sc_name (tb_default (fst r3)))));
       ((pair_eqb (iv_a iv12, iv_b iv12) (6, 8)));
       (((sc_name (iv_sched iv12)) =? 2));
       (iv_void iv15);
       (((sc_name (iv_sched iv15)) =? 1))]) = true.
Proof. vm_compute. reflexivity. Qed.

(** test_interval_methods.py:904 TestIntervalOverlap.test_ivl_overlap_mul *)
Example test_ivl_overlap_mul : passes (
  let heap0 : heap Z := [] in
  do tb1 <- build (mkArgs (mkFstr None AlD) (ts 2016 12 31 0 0 0) (ts 2017 1 12 0 0 0) (LPat (PList [0; 1; 0; 0; 2; 0])) [] (fun x => negb (x =? 0)) 0 false (-999999) WDuration conf_num) heap0;
  do iv2 <- new_interval (fst tb1) 2 8 (tb_default (fst tb1));
  do iv3 <- new_interval (fst tb1) 6 12 (tb_default (fst tb1));
  do iv4 <- iv_overlap (fst tb1) iv2 iv3 None;
  Ok [((pair_eqb (iv_a iv4, iv_b iv4) (6, 8)));
       (((iv_length iv4) =? 3))]) = true.
Proof. vm_compute. reflexivity. Qed.

(** test_interval_methods.py:930 TestVoidIntervalMethods.test_void_ivl_overlap *)
Example test_void_ivl_overlap : passes (
  let heap0 : heap Z := [] in
  do tb1 <- build (mkArgs (mkFstr None AlD) (ts 2016 12 31 0 0 0) (ts 2017 1 12 0 0 0) (LPat (PList [0; 1; 0; 0; 2; 0])) [] (fun x => negb (x =? 0)) 0 false (-999999) WDuration conf_num) heap0;
  do r2 <- add_schedule (fst tb1) 1 (fun x => true);
  do iv3 <- new_void_interval (fst r2) 8 2 (tb_default (fst r2));
  do iv4 <- new_interval (fst r2) 2 8 (tb_default (fst r2));
  do iv5 <- iv_overlap (fst r2) iv3 iv4 (Some (snd r2));
  do iv6 <- iv_overlap (fst r2) iv3 iv4 None;
  do iv7 <- iv_overlap (fst r2) iv3 iv3 None;
  do iv8 <- new_void_interval (fst r2) 1 0 (snd r2);
  do iv9 <- iv_overlap (fst r2) iv8 iv3 None;
  Ok [(iv_void iv5);
       ((pair_eqb (iv_a iv5, iv_b iv5) (8, 2)));
       (((iv_length iv5) =? 0));
       (((sc_name (iv_sched iv5)) =? 1));
       ((pair_eqb (iv_a iv6, iv_b iv6) (8, 2)));
       (((iv_length iv6) =? 0));
       (((sc_name (iv_sched iv6)) =? (sc_name (tb_default (fst r2)))));
       ((pair_eqb (iv_a iv7, iv_b iv7) (8, 2)));
       (((iv_length iv7) =? 0));
       (((sc_name (iv_sched iv7)) =? (sc_name (tb_default (fst r2)))));
       (iv_void iv9);
       ((pair_eqb (iv_a iv9, iv_b iv9) (1, 0)));
       (((iv_length iv9) =? 0));
       (((sc_name (iv_sched iv9)) =? 1))]) = true.
Proof. vm_compute. reflexivity. Qed.

(** test_interval_methods.py:958 TestVoidIntervalMethods.test_void_ivl_whatportion *)
Example test_void_ivl_whatportion : passes (
  let heap0 : heap Z := [] in
  do tb1 <- build (mkArgs (mkFstr None AlD) (ts 2016 12 31 0 0 0) (ts 2017 1 12 0 0 0) (LPat (PList [0; 1; 0; 0; 2; 0])) [] (fun x => negb (x =? 0)) 0 false (-999999) WDuration conf_num) heap0;
  do iv2 <- new_void_interval (fst tb1) 8 2 (tb_default (fst tb1));
  do iv3 <- new_interval (fst tb1) 2 8 (tb_default (fst tb1));
  do q4 <- what_portion_of (fst tb1) iv2 iv3 DOn None;
  do q5 <- what_portion_of (fst tb1) iv2 iv3 DOn None;
  do q6 <- what_portion_of (fst tb1) iv2 iv2 DOn None;
  Ok [((Qeq_bool q4 (0 # 1)));
       ((Qeq_bool q5 (0 # 1)));
       ((Qeq_bool q6 (0 # 1)))]) = true.
Proof. vm_compute. reflexivity. Qed.
