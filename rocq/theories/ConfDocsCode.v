(** ConfDocsCode: examples of the documentation about the model.
    Written by tools/docs2coq.py. *)
From Verif Require Api.
From Verif Require Import Base Civil Freq Frame Timeline Board When Calendars Text ConfBase ConfDocBase.
From Coq Require Import QArith String.
Open Scope string_scope.
Open Scope list_scope.
Open Scope Z_scope.

(** timeboard/interval.py:116, 119, 121, 135, 145 *)
Example interval_116 : passes (
  let heap0 : heap Z := [] in
  do tb1 <- build (mkArgs (mkFstr None AlD) (ts 2017 9 30 0 0 0) (ts 2017 10 15 0 0 0) (LPat (PList [0;
          1])) [] (fun x => negb (x =? 0)) 0 false (-999999) WDuration conf_num) heap0;
  do iv2 <- new_interval (fst tb1) 2 9 (tb_default (fst tb1));
  do tx3 <- iv_repr (fst tb1) iv2;
  do wl4 <- iv_workshifts (fst tb1) iv2 DAny None;
  do l5 <- mapM (fun w => ws_start_time (tb_tl (fst tb1)) (ws_loc w)) wl4;
  do wl6 <- iv_workshifts (fst tb1) iv2 DAny None;
  do l7 <- mapM (ws_repr (fst tb1)) wl6;
  do tx8 <- iv_repr (fst tb1) iv2;
  do df9 <- iv_dataframe (fst tb1) iv2;
  Ok [(tokens_eqb tx3 [TText "Interval("; TText "("; TNum 2; TText ", "; TNum 9; TText ")"; TText "): "; TText "'";
        TFreq (mkFstr None AlD); TText "' at ";
        TPeriod (fbase (to_freq (mkFstr None AlD))) (pord (fbase (to_freq (mkFstr None AlD))) (ts 2017 10 2 0 0 0));
        TText " -> "; TText "'"; TFreq (mkFstr None AlD); TText "' at ";
        TPeriod (fbase (to_freq (mkFstr None AlD))) (pord (fbase (to_freq (mkFstr None AlD))) (ts 2017 10 9 0 0 0));
        TText " ["; TNum 8; TText "]"]);
       ((iv_length iv2) =? 8);
       (list_eqb Z.eqb l5 [(ts 2017 10 2 0 0 0); (ts 2017 10 3 0 0 0); (ts 2017 10 4 0 0 0); (ts 2017 10 5 0 0 0);
        (ts 2017 10 6 0 0 0); (ts 2017 10 7 0 0 0); (ts 2017 10 8 0 0 0); (ts 2017 10 9 0 0 0)] &&
        list_eqb Z.eqb (map ws_label wl4) [0; 1; 0; 1; 0; 1; 0; 1]);
       (tokenss_eqb l7 [[TText "Workshift("; TNum 2; TText ") of "; TText "'"; TFreq (mkFstr None AlD); TText "' at ";
        TPeriod (fbase (to_freq (mkFstr None AlD))) (pord (fbase (to_freq (mkFstr None AlD))) (ts 2017 10 2 0 0 0))];
        [TText "Workshift("; TNum 3; TText ") of "; TText "'"; TFreq (mkFstr None AlD); TText "' at ";
        TPeriod (fbase (to_freq (mkFstr None AlD))) (pord (fbase (to_freq (mkFstr None AlD))) (ts 2017 10 3 0 0 0))];
        [TText "Workshift("; TNum 4; TText ") of "; TText "'"; TFreq (mkFstr None AlD); TText "' at ";
        TPeriod (fbase (to_freq (mkFstr None AlD))) (pord (fbase (to_freq (mkFstr None AlD))) (ts 2017 10 4 0 0 0))];
        [TText "Workshift("; TNum 5; TText ") of "; TText "'"; TFreq (mkFstr None AlD); TText "' at ";
        TPeriod (fbase (to_freq (mkFstr None AlD))) (pord (fbase (to_freq (mkFstr None AlD))) (ts 2017 10 5 0 0 0))];
        [TText "Workshift("; TNum 6; TText ") of "; TText "'"; TFreq (mkFstr None AlD); TText "' at ";
        TPeriod (fbase (to_freq (mkFstr None AlD))) (pord (fbase (to_freq (mkFstr None AlD))) (ts 2017 10 6 0 0 0))];
        [TText "Workshift("; TNum 7; TText ") of "; TText "'"; TFreq (mkFstr None AlD); TText "' at ";
        TPeriod (fbase (to_freq (mkFstr None AlD))) (pord (fbase (to_freq (mkFstr None AlD))) (ts 2017 10 7 0 0 0))];
        [TText "Workshift("; TNum 8; TText ") of "; TText "'"; TFreq (mkFstr None AlD); TText "' at ";
        TPeriod (fbase (to_freq (mkFstr None AlD))) (pord (fbase (to_freq (mkFstr None AlD))) (ts 2017 10 8 0 0 0))];
        [TText "Workshift("; TNum 9; TText ") of "; TText "'"; TFreq (mkFstr None AlD); TText "' at ";
        TPeriod (fbase (to_freq (mkFstr None AlD))) (pord (fbase (to_freq (mkFstr None AlD))) (ts 2017 10 9 0 0 0))]]);
       forallb (fun x => x) [(tokens_eqb tx8 [TText "Interval("; TText "("; TNum 2; TText ", "; TNum 9; TText ")";
        TText "): "; TText "'"; TFreq (mkFstr None AlD); TText "' at ";
        TPeriod (fbase (to_freq (mkFstr None AlD))) (pord (fbase (to_freq (mkFstr None AlD))) (ts 2017 10 2 0 0 0));
        TText " -> "; TText "'"; TFreq (mkFstr None AlD); TText "' at ";
        TPeriod (fbase (to_freq (mkFstr None AlD))) (pord (fbase (to_freq (mkFstr None AlD))) (ts 2017 10 9 0 0 0));
        TText " ["; TNum 8; TText "]"]); row_at df9 2 (fun r b => shown NS_DAY (ts 2017 10 2 0 0 0) (row_ref r) &&
        ((ts 2017 10 2 0 0 0) =? row_start r) && (1 =? row_duration r) &&
        shown NS_DAY (ts 2017 10 2 0 0 0) (row_end r) && (0 =? row_label r) && has_flag b 0 false);
        row_at df9 3 (fun r b => shown NS_DAY (ts 2017 10 3 0 0 0) (row_ref r) &&
        ((ts 2017 10 3 0 0 0) =? row_start r) && (1 =? row_duration r) &&
        shown NS_DAY (ts 2017 10 3 0 0 0) (row_end r) && (1 =? row_label r) && has_flag b 0 true);
        row_at df9 4 (fun r b => shown NS_DAY (ts 2017 10 4 0 0 0) (row_ref r) &&
        ((ts 2017 10 4 0 0 0) =? row_start r) && (1 =? row_duration r) &&
        shown NS_DAY (ts 2017 10 4 0 0 0) (row_end r) && (0 =? row_label r) && has_flag b 0 false);
        row_at df9 5 (fun r b => shown NS_DAY (ts 2017 10 5 0 0 0) (row_ref r) &&
        ((ts 2017 10 5 0 0 0) =? row_start r) && (1 =? row_duration r) &&
        shown NS_DAY (ts 2017 10 5 0 0 0) (row_end r) && (1 =? row_label r) && has_flag b 0 true);
        row_at df9 6 (fun r b => shown NS_DAY (ts 2017 10 6 0 0 0) (row_ref r) &&
        ((ts 2017 10 6 0 0 0) =? row_start r) && (1 =? row_duration r) &&
        shown NS_DAY (ts 2017 10 6 0 0 0) (row_end r) && (0 =? row_label r) && has_flag b 0 false);
        row_at df9 7 (fun r b => shown NS_DAY (ts 2017 10 7 0 0 0) (row_ref r) &&
        ((ts 2017 10 7 0 0 0) =? row_start r) && (1 =? row_duration r) &&
        shown NS_DAY (ts 2017 10 7 0 0 0) (row_end r) && (1 =? row_label r) && has_flag b 0 true);
        row_at df9 8 (fun r b => shown NS_DAY (ts 2017 10 8 0 0 0) (row_ref r) &&
        ((ts 2017 10 8 0 0 0) =? row_start r) && (1 =? row_duration r) &&
        shown NS_DAY (ts 2017 10 8 0 0 0) (row_end r) && (0 =? row_label r) && has_flag b 0 false);
        row_at df9 9 (fun r b => shown NS_DAY (ts 2017 10 9 0 0 0) (row_ref r) &&
        ((ts 2017 10 9 0 0 0) =? row_start r) && (1 =? row_duration r) &&
        shown NS_DAY (ts 2017 10 9 0 0 0) (row_end r) && (1 =? row_label r) && has_flag b 0 true); (zlen df9 =? 8)]]) = true.
Proof. vm_compute. reflexivity. Qed.

(** timeboard/interval.py:291, 294, 301 *)
Example interval_291 : passes (
  let heap0 : heap Z := [] in
  do tb1 <- build (mkArgs (mkFstr None AlD) (ts 2017 9 30 0 0 0) (ts 2017 10 15 0 0 0) (LPat (PList [0;
          1])) [] (fun x => negb (x =? 0)) 0 false (-999999) WDuration conf_num) heap0;
  do iv2 <- new_interval (fst tb1) 2 9 (tb_default (fst tb1));
  do tx3 <- iv_repr (fst tb1) iv2;
  do wl4 <- iv_workshifts (fst tb1) iv2 DOn None;
  do l5 <- mapM (fun w => ws_start_time (tb_tl (fst tb1)) (ws_loc w)) wl4;
  do wl6 <- iv_workshifts (fst tb1) iv2 DOff None;
  do l7 <- mapM (ws_repr (fst tb1)) wl6;
  Ok [(tokens_eqb tx3 [TText "Interval("; TText "("; TNum 2; TText ", "; TNum 9; TText ")"; TText "): "; TText "'";
        TFreq (mkFstr None AlD); TText "' at ";
        TPeriod (fbase (to_freq (mkFstr None AlD))) (pord (fbase (to_freq (mkFstr None AlD))) (ts 2017 10 2 0 0 0));
        TText " -> "; TText "'"; TFreq (mkFstr None AlD); TText "' at ";
        TPeriod (fbase (to_freq (mkFstr None AlD))) (pord (fbase (to_freq (mkFstr None AlD))) (ts 2017 10 9 0 0 0));
        TText " ["; TNum 8; TText "]"]);
       (list_eqb Z.eqb l5 [(ts 2017 10 3 0 0 0); (ts 2017 10 5 0 0 0); (ts 2017 10 7 0 0 0); (ts 2017 10 9 0 0 0)] &&
        list_eqb Z.eqb (map ws_label wl4) [1; 1; 1; 1]);
       (tokenss_eqb l7 [[TText "Workshift("; TNum 2; TText ") of "; TText "'"; TFreq (mkFstr None AlD); TText "' at ";
        TPeriod (fbase (to_freq (mkFstr None AlD))) (pord (fbase (to_freq (mkFstr None AlD))) (ts 2017 10 2 0 0 0))];
        [TText "Workshift("; TNum 4; TText ") of "; TText "'"; TFreq (mkFstr None AlD); TText "' at ";
        TPeriod (fbase (to_freq (mkFstr None AlD))) (pord (fbase (to_freq (mkFstr None AlD))) (ts 2017 10 4 0 0 0))];
        [TText "Workshift("; TNum 6; TText ") of "; TText "'"; TFreq (mkFstr None AlD); TText "' at ";
        TPeriod (fbase (to_freq (mkFstr None AlD))) (pord (fbase (to_freq (mkFstr None AlD))) (ts 2017 10 6 0 0 0))];
        [TText "Workshift("; TNum 8; TText ") of "; TText "'"; TFreq (mkFstr None AlD); TText "' at ";
        TPeriod (fbase (to_freq (mkFstr None AlD))) (pord (fbase (to_freq (mkFstr None AlD))) (ts 2017 10 8 0 0 0))]])]) = true.
Proof. vm_compute. reflexivity. Qed.

(** timeboard/interval.py:360, 362, 364, 366 *)
Example interval_360 : passes (
  let heap0 : heap Z := [] in
  do tb1 <- build (mkArgs (mkFstr None AlD) (ts 2017 9 30 0 0 0) (ts 2017 10 15 0 0 0) (LPat (PList [0;
          1])) [] (fun x => negb (x =? 0)) 0 false (-999999) WDuration conf_num) heap0;
  do iv2 <- get_interval (fst tb1) (RPair (Some (ts 2017 10 2 0 0 0)) (Some (ts 2017 10 8 0 0 0))) None None true C11
          None;
  do w3 <- iv_nth (fst tb1) iv2 1 DOn None;
  do tx4 <- ws_repr (fst tb1) w3;
  do w5 <- iv_nth (fst tb1) iv2 1 DOff None;
  do tx6 <- ws_repr (fst tb1) w5;
  do w7 <- iv_nth (fst tb1) iv2 1 DAny None;
  do tx8 <- ws_repr (fst tb1) w7;
  Ok [(tokens_eqb tx4 [TText "Workshift("; TNum 5; TText ") of "; TText "'"; TFreq (mkFstr None AlD); TText "' at ";
        TPeriod (fbase (to_freq (mkFstr None AlD))) (pord (fbase (to_freq (mkFstr None AlD))) (ts 2017 10 5 0 0 0))]);
       (tokens_eqb tx6 [TText "Workshift("; TNum 4; TText ") of "; TText "'"; TFreq (mkFstr None AlD); TText "' at ";
        TPeriod (fbase (to_freq (mkFstr None AlD))) (pord (fbase (to_freq (mkFstr None AlD))) (ts 2017 10 4 0 0 0))]);
       (tokens_eqb tx8 [TText "Workshift("; TNum 3; TText ") of "; TText "'"; TFreq (mkFstr None AlD); TText "' at ";
        TPeriod (fbase (to_freq (mkFstr None AlD))) (pord (fbase (to_freq (mkFstr None AlD))) (ts 2017 10 3 0 0 0))]);
       raises [EOutOfBounds] (do w9 <- iv_nth (fst tb1) iv2 10 DOn None; Ok tt)]) = true.
Proof. vm_compute. reflexivity. Qed.

(** timeboard/interval.py:403, 405, 407 *)
Example interval_403 : passes (
  let heap0 : heap Z := [] in
  do tb1 <- build (mkArgs (mkFstr None AlD) (ts 2017 9 30 0 0 0) (ts 2017 10 15 0 0 0) (LPat (PList [0;
          1])) [] (fun x => negb (x =? 0)) 0 false (-999999) WDuration conf_num) heap0;
  do iv2 <- get_interval (fst tb1) (RPair (Some (ts 2017 10 2 0 0 0)) (Some (ts 2017 10 8 0 0 0))) None None true C11
          None;
  do w3 <- iv_first (fst tb1) iv2 DOn None;
  do tx4 <- ws_repr (fst tb1) w3;
  do w5 <- iv_first (fst tb1) iv2 DOff None;
  do tx6 <- ws_repr (fst tb1) w5;
  do w7 <- iv_first (fst tb1) iv2 DAny None;
  do tx8 <- ws_repr (fst tb1) w7;
  Ok [(tokens_eqb tx4 [TText "Workshift("; TNum 3; TText ") of "; TText "'"; TFreq (mkFstr None AlD); TText "' at ";
        TPeriod (fbase (to_freq (mkFstr None AlD))) (pord (fbase (to_freq (mkFstr None AlD))) (ts 2017 10 3 0 0 0))]);
       (tokens_eqb tx6 [TText "Workshift("; TNum 2; TText ") of "; TText "'"; TFreq (mkFstr None AlD); TText "' at ";
        TPeriod (fbase (to_freq (mkFstr None AlD))) (pord (fbase (to_freq (mkFstr None AlD))) (ts 2017 10 2 0 0 0))]);
       (tokens_eqb tx8 [TText "Workshift("; TNum 2; TText ") of "; TText "'"; TFreq (mkFstr None AlD); TText "' at ";
        TPeriod (fbase (to_freq (mkFstr None AlD))) (pord (fbase (to_freq (mkFstr None AlD))) (ts 2017 10 2 0 0 0))])]) = true.
Proof. vm_compute. reflexivity. Qed.

(** timeboard/interval.py:426, 428, 430 *)
Example interval_426 : passes (
  let heap0 : heap Z := [] in
  do tb1 <- build (mkArgs (mkFstr None AlD) (ts 2017 9 30 0 0 0) (ts 2017 10 15 0 0 0) (LPat (PList [0;
          1])) [] (fun x => negb (x =? 0)) 0 false (-999999) WDuration conf_num) heap0;
  do iv2 <- get_interval (fst tb1) (RPair (Some (ts 2017 10 2 0 0 0)) (Some (ts 2017 10 8 0 0 0))) None None true C11
          None;
  do w3 <- iv_last (fst tb1) iv2 DOn None;
  do tx4 <- ws_repr (fst tb1) w3;
  do w5 <- iv_last (fst tb1) iv2 DOff None;
  do tx6 <- ws_repr (fst tb1) w5;
  do w7 <- iv_last (fst tb1) iv2 DAny None;
  do tx8 <- ws_repr (fst tb1) w7;
  Ok [(tokens_eqb tx4 [TText "Workshift("; TNum 7; TText ") of "; TText "'"; TFreq (mkFstr None AlD); TText "' at ";
        TPeriod (fbase (to_freq (mkFstr None AlD))) (pord (fbase (to_freq (mkFstr None AlD))) (ts 2017 10 7 0 0 0))]);
       (tokens_eqb tx6 [TText "Workshift("; TNum 8; TText ") of "; TText "'"; TFreq (mkFstr None AlD); TText "' at ";
        TPeriod (fbase (to_freq (mkFstr None AlD))) (pord (fbase (to_freq (mkFstr None AlD))) (ts 2017 10 8 0 0 0))]);
       (tokens_eqb tx8 [TText "Workshift("; TNum 8; TText ") of "; TText "'"; TFreq (mkFstr None AlD); TText "' at ";
        TPeriod (fbase (to_freq (mkFstr None AlD))) (pord (fbase (to_freq (mkFstr None AlD))) (ts 2017 10 8 0 0 0))])]) = true.
Proof. vm_compute. reflexivity. Qed.

(** timeboard/interval.py:460, 462, 464 *)
Example interval_460 : passes (
  let heap0 : heap Z := [] in
  do tb1 <- build (mkArgs (mkFstr None AlD) (ts 2017 9 30 0 0 0) (ts 2017 10 15 0 0 0) (LPat (PList [0;
          1])) [] (fun x => negb (x =? 0)) 0 false (-999999) WDuration conf_num) heap0;
  do iv2 <- get_interval (fst tb1) (RPair (Some (ts 2017 10 2 0 0 0)) (Some (ts 2017 10 8 0 0 0))) None None true C11
          None;
  do n3 <- iv_count iv2 DOn None;
  do n4 <- iv_count iv2 DOff None;
  do n5 <- iv_count iv2 DAny None;
  Ok [(n3 =? 3);
       (n4 =? 4);
       (n5 =? 7)]) = true.
Proof. vm_compute. reflexivity. Qed.

(** timeboard/interval.py:509, 514, 521, 523, 525, 527, 529, 531 *)
Example interval_509 : passes (
  let heap0 : heap Z := [] in
  do tb1 <- build (mkArgs (mkFstr None AlD) (ts 2017 9 30 0 0 0) (ts 2017 10 15 0 0 0) (LPat (PList [0;
          1])) [] (fun x => negb (x =? 0)) 0 false (-999999) WDuration conf_num) heap0;
  do iv2 <- new_interval (fst tb1) 2 9 (tb_default (fst tb1));
  do iv3 <- new_interval (fst tb1) 8 11 (tb_default (fst tb1));
  do iv4 <- iv_overlap (fst tb1) iv2 iv3 None;
  do tx5 <- iv_repr (fst tb1) iv4;
  do iv6 <- iv_overlap (fst tb1) iv2 iv3 None;
  do tx7 <- iv_repr (fst tb1) iv6;
  do iv8 <- new_interval (fst tb1) 10 11 (tb_default (fst tb1));
  do iv9 <- iv_overlap (fst tb1) iv2 iv8 None;
  do tx10 <- iv_repr (fst tb1) iv9;
  do n11 <- iv_count iv9 DOn None;
  do wl12 <- iv_workshifts (fst tb1) iv9 DAny None;
  do l13 <- mapM (ws_repr (fst tb1)) wl12;
  do t14 <- iv_start (fst tb1) iv9;
  Ok [(tokens_eqb tx5 [TText "Interval("; TText "("; TNum 8; TText ", "; TNum 9; TText ")"; TText "): "; TText "'";
        TFreq (mkFstr None AlD); TText "' at ";
        TPeriod (fbase (to_freq (mkFstr None AlD))) (pord (fbase (to_freq (mkFstr None AlD))) (ts 2017 10 8 0 0 0));
        TText " -> "; TText "'"; TFreq (mkFstr None AlD); TText "' at ";
        TPeriod (fbase (to_freq (mkFstr None AlD))) (pord (fbase (to_freq (mkFstr None AlD))) (ts 2017 10 9 0 0 0));
        TText " ["; TNum 2; TText "]"]);
       (tokens_eqb tx7 [TText "Interval("; TText "("; TNum 8; TText ", "; TNum 9; TText ")"; TText "): "; TText "'";
        TFreq (mkFstr None AlD); TText "' at ";
        TPeriod (fbase (to_freq (mkFstr None AlD))) (pord (fbase (to_freq (mkFstr None AlD))) (ts 2017 10 8 0 0 0));
        TText " -> "; TText "'"; TFreq (mkFstr None AlD); TText "' at ";
        TPeriod (fbase (to_freq (mkFstr None AlD))) (pord (fbase (to_freq (mkFstr None AlD))) (ts 2017 10 9 0 0 0));
        TText " ["; TNum 2; TText "]"]);
       (tokens_eqb tx10 [TText "Interval ("; TText "("; TNum 10; TText ", "; TNum 9; TText ")"; TText "): void [0]"]);
       ((iv_length iv9) =? 0);
       (n11 =? 0);
       (tokenss_eqb l13 []);
       (match t14 with None => true | Some _ => false end);
       raises [EOutOfBounds] (do w15 <- iv_first (fst tb1) iv9 DAny None; Ok tt)]) = true.
Proof. vm_compute. reflexivity. Qed.

(** timeboard/interval.py:608, 619, 627, 641 *)
Example interval_608 : passes (
  let heap0 : heap Z := [] in
  do tb1 <- build (mkArgs (mkFstr None AlH) (ts 2017 10 1 0 0 0) (ts 2017 10 8 23 59 0) (LPat (PList [0;
          1])) [] (fun x => negb (x =? 0)) 0 false (-999999) WDuration conf_num) heap0;
  do iv2 <- get_interval (fst tb1) (RPair (Some (ts 2017 10 1 11 0 0)) (Some (ts 2017 10 2 23 59 0))) None None true
          C11 None;
  do q3 <- count_periods (fst tb1) iv2 (mkFstr None AlD) DAny None;
  do q4 <- count_periods (fst tb1) iv2 (mkFstr None AlD) DOn None;
  do q5 <- count_periods (fst tb1) iv2 (mkFstr None AlD) DOff None;
  Ok [(qclose q3 (3083333333333333 # 2000000000000000));
       (qclose q4 (3166666666666667 # 2000000000000000));
       (qclose q5 (3 # 2));
       negb (raises [EOutOfBounds] (do q6 <- count_periods (fst tb1) iv2 (mkFstr None (AlW None)) DOn None; Ok tt))]) = true.
Proof. vm_compute. reflexivity. Qed.

(** timeboard/interval.py:610, 621, 629 *)
Example interval_610 : passes (
  let heap0 : heap Z := [] in

  Ok [(qclose (37 # 24) (3083333333333333 # 2000000000000000));
       (qclose (19 # 12) (3166666666666667 # 2000000000000000));
       (qclose (3 # 2) (3 # 2))]) = true.
Proof. vm_compute. reflexivity. Qed.

(** timeboard/interval.py:764, 769, 774, 782, 788, 794, 802, 807 *)
Example interval_764 : passes (
  let heap0 : heap Z := [] in
  do tb1 <- build (mkArgs (mkFstr None AlD) (ts 2017 10 2 0 0 0) (ts 2017 10 15 0 0 0) (LPat (PList [1; 1; 1; 1; 1;
          0; 0])) [] (fun x => negb (x =? 0)) 0 false (-999999) WDuration conf_num) heap0;
  do iv2 <- get_interval (fst tb1) (RPoint (ts 2017 10 2 0 0 0)) None (Some (mkFstr None (AlW None))) true C11 None;
  do iv3 <- get_interval (fst tb1) (RPair (Some (ts 2017 10 5 0 0 0)) (Some (ts 2017 10 7 0 0 0))) None None true C11
          None;
  do q4 <- what_portion_of (fst tb1) iv3 iv2 DOn None;
  do q5 <- what_portion_of (fst tb1) iv3 iv2 DOff None;
  do q6 <- what_portion_of (fst tb1) iv3 iv2 DAny None;
  do q7 <- what_portion_of (fst tb1) iv3 iv2 DOn None;
  do iv8 <- get_interval (fst tb1) (RPoint (ts 2017 10 9 0 0 0)) None (Some (mkFstr None (AlW None))) true C11 None;
  do q9 <- what_portion_of (fst tb1) iv3 iv8 DAny None;
  do iv10 <- get_interval (fst tb1) (RPair (Some (ts 2017 10 2 0 0 0)) (Some (ts 2017 10 11 0 0 0))) None None true
          C11 None;
  do q11 <- what_portion_of (fst tb1) iv10 iv2 DOn None;
  do iv12 <- get_interval (fst tb1) (RPair (Some (ts 2017 10 7 0 0 0)) (Some (ts 2017 10 8 0 0 0))) None None true
          C11 None;
  do q13 <- what_portion_of (fst tb1) iv12 iv2 DOn None;
  do q14 <- what_portion_of (fst tb1) iv12 iv2 DOff None;
  Ok [(qclose q4 (2 # 5));
       (qclose q5 (1 # 2));
       (qclose q6 (8571428571428571 # 20000000000000000));
       (qclose q7 (2 # 5));
       (qclose q9 (0 # 1));
       (qclose q11 (1 # 1));
       (qclose q13 (0 # 1));
       (qclose q14 (1 # 1))]) = true.
Proof. vm_compute. reflexivity. Qed.

(** timeboard/interval.py:766, 771, 776 *)
Example interval_766 : passes (
  let heap0 : heap Z := [] in

  Ok [(qclose (2 # 5) (2 # 5));
       (qclose (1 # 2) (1 # 2));
       (qclose (3 # 7) (8571428571428571 # 20000000000000000))]) = true.
Proof. vm_compute. reflexivity. Qed.

(** timeboard/interval.py:864, 866, 868 *)
Example interval_864 : passes (
  let heap0 : heap Z := [] in
  do tb1 <- build (mkArgs (mkFstr None AlD) (ts 2017 10 1 0 0 0) (ts 2017 10 10 0 0 0) (LPat (PList [1;
          2])) [] (fun x => ((x >? 1))) 0 false (-999999) WDuration conf_num) heap0;
  do iv2 <- get_interval (fst tb1) RNone None None true C11 None;
  do q3 <- sum_labels (fst tb1) iv2 DOn None;
  do q4 <- sum_labels (fst tb1) iv2 DOff None;
  do q5 <- sum_labels (fst tb1) iv2 DAny None;
  Ok [(qclose q3 (10 # 1));
       (qclose q4 (5 # 1));
       (qclose q5 (15 # 1))]) = true.
Proof. vm_compute. reflexivity. Qed.

(** timeboard/interval.py:909, 918, 920, 922 *)
Example interval_909 : passes (
  let heap0 : heap Z := [] in
  do tb1 <- build (mkArgs (mkFstr None AlD) (ts 2017 9 30 0 0 0) (ts 2017 10 11 0 0 0) (LOrg (DMarks [(ts 2017 10 3 0
          0 0); (ts 2017 10 7 0 0 0); (ts 2017 10 9 0 0 0)]) [(LLab 0);
          (LLab 1)]) [] (fun x => negb (x =? 0)) 0 false (-999999) WDuration conf_num) heap0;
  do iv2 <- get_interval (fst tb1) RNone None None true C11 None;
  do tx3 <- iv_repr (fst tb1) iv2;
  do df4 <- iv_dataframe (fst tb1) iv2;
  do n5 <- total_duration (fst tb1) iv2 DOn None;
  do n6 <- total_duration (fst tb1) iv2 DOff None;
  do n7 <- total_duration (fst tb1) iv2 DAny None;
  Ok [forallb (fun x => x) [(tokens_eqb tx3 [TText "Interval("; TText "("; TNum 0; TText ", "; TNum 3; TText ")";
        TText "): "; TNum 3; TText "x"; TText "'"; TFreq (mkFstr None AlD); TText "' at ";
        TPeriod (fbase (to_freq (mkFstr None AlD))) (pord (fbase (to_freq (mkFstr None AlD))) (ts 2017 9 30 0 0 0));
        TText " -> "; TNum 3; TText "x"; TText "'"; TFreq (mkFstr None AlD); TText "' at ";
        TPeriod (fbase (to_freq (mkFstr None AlD))) (pord (fbase (to_freq (mkFstr None AlD))) (ts 2017 10 9 0 0 0));
        TText " ["; TNum 4; TText "]"]); row_at df4 0 (fun r b => shown NS_DAY (ts 2017 9 30 0 0 0) (row_ref r) &&
        ((ts 2017 9 30 0 0 0) =? row_start r) && (3 =? row_duration r) &&
        shown NS_DAY (ts 2017 10 2 0 0 0) (row_end r) && (0 =? row_label r) && has_flag b 0 false);
        row_at df4 1 (fun r b => shown NS_DAY (ts 2017 10 3 0 0 0) (row_ref r) &&
        ((ts 2017 10 3 0 0 0) =? row_start r) && (4 =? row_duration r) &&
        shown NS_DAY (ts 2017 10 6 0 0 0) (row_end r) && (1 =? row_label r) && has_flag b 0 true);
        row_at df4 2 (fun r b => shown NS_DAY (ts 2017 10 7 0 0 0) (row_ref r) &&
        ((ts 2017 10 7 0 0 0) =? row_start r) && (2 =? row_duration r) &&
        shown NS_DAY (ts 2017 10 8 0 0 0) (row_end r) && (0 =? row_label r) && has_flag b 0 false);
        row_at df4 3 (fun r b => shown NS_DAY (ts 2017 10 9 0 0 0) (row_ref r) &&
        ((ts 2017 10 9 0 0 0) =? row_start r) && (3 =? row_duration r) &&
        shown NS_DAY (ts 2017 10 11 0 0 0) (row_end r) && (1 =? row_label r) && has_flag b 0 true); (zlen df4 =? 4)];
       (n5 =? 7);
       (n6 =? 5);
       (n7 =? 12)]) = true.
Proof. vm_compute. reflexivity. Qed.

(** timeboard/interval.py:971, 979, 981, 983 *)
Example interval_971 : passes (
  let heap0 : heap Z := [] in
  do tb1 <- build (mkArgs (mkFstr None AlD) (ts 2017 9 30 0 0 0) (ts 2017 10 11 0 0 0) (LPat (PList [4; 8; 4;
          8])) [] (fun x => ((x >? 4))) 0 false (-999999) WDuration conf_num) heap0;
  do iv2 <- new_interval (fst tb1) 1 3 (tb_default (fst tb1));
  do tx3 <- iv_repr (fst tb1) iv2;
  do df4 <- iv_dataframe (fst tb1) iv2;
  do q5 <- iv_worktime (fst tb1) iv2 DOn None;
  do q6 <- iv_worktime (fst tb1) iv2 DOff None;
  do q7 <- iv_worktime (fst tb1) iv2 DAny None;
  Ok [forallb (fun x => x) [(tokens_eqb tx3 [TText "Interval("; TText "("; TNum 1; TText ", "; TNum 3; TText ")";
        TText "): "; TText "'"; TFreq (mkFstr None AlD); TText "' at ";
        TPeriod (fbase (to_freq (mkFstr None AlD))) (pord (fbase (to_freq (mkFstr None AlD))) (ts 2017 10 1 0 0 0));
        TText " -> "; TText "'"; TFreq (mkFstr None AlD); TText "' at ";
        TPeriod (fbase (to_freq (mkFstr None AlD))) (pord (fbase (to_freq (mkFstr None AlD))) (ts 2017 10 3 0 0 0));
        TText " ["; TNum 3; TText "]"]); row_at df4 1 (fun r b => shown NS_DAY (ts 2017 10 1 0 0 0) (row_ref r) &&
        ((ts 2017 10 1 0 0 0) =? row_start r) && (1 =? row_duration r) &&
        shown NS_DAY (ts 2017 10 1 0 0 0) (row_end r) && (8 =? row_label r) && has_flag b 0 true);
        row_at df4 2 (fun r b => shown NS_DAY (ts 2017 10 2 0 0 0) (row_ref r) &&
        ((ts 2017 10 2 0 0 0) =? row_start r) && (1 =? row_duration r) &&
        shown NS_DAY (ts 2017 10 2 0 0 0) (row_end r) && (4 =? row_label r) && has_flag b 0 false);
        row_at df4 3 (fun r b => shown NS_DAY (ts 2017 10 3 0 0 0) (row_ref r) &&
        ((ts 2017 10 3 0 0 0) =? row_start r) && (1 =? row_duration r) &&
        shown NS_DAY (ts 2017 10 3 0 0 0) (row_end r) && (8 =? row_label r) && has_flag b 0 true); (zlen df4 =? 3)];
       (qclose q5 (2 # 1));
       (qclose q6 (1 # 1));
       (qclose q7 (3 # 1))]) = true.
Proof. vm_compute. reflexivity. Qed.

(** timeboard/interval.py:993, 995, 997 *)
Example interval_993 : passes (
  let heap0 : heap Z := [] in
  do tb8 <- build (mkArgs (mkFstr None AlD) (ts 2017 9 30 0 0 0) (ts 2017 10 11 0 0 0) (LPat (PList [4; 8; 4;
          8])) [] (fun x => ((x >? 4))) 0 false (-999999) WLabels conf_num) heap0;
  do iv9 <- new_interval (fst tb8) 1 3 (tb_default (fst tb8));
  do q10 <- iv_worktime (fst tb8) iv9 DOn None;
  do q11 <- iv_worktime (fst tb8) iv9 DOff None;
  do q12 <- iv_worktime (fst tb8) iv9 DAny None;
  Ok [(qclose q10 (16 # 1));
       (qclose q11 (4 # 1));
       (qclose q12 (20 # 1))]) = true.
Proof. vm_compute. reflexivity. Qed.

(** timeboard/timeboard.py:127 *)
Example timeboard_127 : passes (
  let heap0 : heap Z := [] in
  do tb1 <- build (mkArgs (mkFstr None AlD) (ts 2017 9 30 0 0 0) (ts 2017 10 9 0 0 0) (LPat (PList [0;
          1])) [] (fun x => negb (x =? 0)) 0 false (-999999) WDuration conf_num) heap0;
  do tx2 <- tb_compact (fst tb1);
  do df3 <- tb_dataframe (fst tb1) 0 (tb_len (fst tb1) - 1);
  Ok [forallb (fun x => x) [(tokens_eqb tx2 [TText "Timeboard of '"; TFreq (mkFstr None AlD); TText "': ";
        TPeriod (fbase (to_freq (mkFstr None AlD))) (pord (fbase (to_freq (mkFstr None AlD))) (ts 2017 9 30 0 0 0));
        TText " -> ";
        TPeriod (fbase (to_freq (mkFstr None AlD))) (pord (fbase (to_freq (mkFstr None AlD))) (ts 2017 10 9 0 0
        0))]); row_at df3 0 (fun r b => shown NS_DAY (ts 2017 9 30 0 0 0) (row_ref r) &&
        ((ts 2017 9 30 0 0 0) =? row_start r) && (1 =? row_duration r) &&
        shown NS_DAY (ts 2017 9 30 0 0 0) (row_end r) && (0 =? row_label r) && has_flag b 0 false);
        row_at df3 1 (fun r b => shown NS_DAY (ts 2017 10 1 0 0 0) (row_ref r) &&
        ((ts 2017 10 1 0 0 0) =? row_start r) && (1 =? row_duration r) &&
        shown NS_DAY (ts 2017 10 1 0 0 0) (row_end r) && (1 =? row_label r) && has_flag b 0 true);
        row_at df3 2 (fun r b => shown NS_DAY (ts 2017 10 2 0 0 0) (row_ref r) &&
        ((ts 2017 10 2 0 0 0) =? row_start r) && (1 =? row_duration r) &&
        shown NS_DAY (ts 2017 10 2 0 0 0) (row_end r) && (0 =? row_label r) && has_flag b 0 false);
        row_at df3 3 (fun r b => shown NS_DAY (ts 2017 10 3 0 0 0) (row_ref r) &&
        ((ts 2017 10 3 0 0 0) =? row_start r) && (1 =? row_duration r) &&
        shown NS_DAY (ts 2017 10 3 0 0 0) (row_end r) && (1 =? row_label r) && has_flag b 0 true);
        row_at df3 4 (fun r b => shown NS_DAY (ts 2017 10 4 0 0 0) (row_ref r) &&
        ((ts 2017 10 4 0 0 0) =? row_start r) && (1 =? row_duration r) &&
        shown NS_DAY (ts 2017 10 4 0 0 0) (row_end r) && (0 =? row_label r) && has_flag b 0 false);
        row_at df3 5 (fun r b => shown NS_DAY (ts 2017 10 5 0 0 0) (row_ref r) &&
        ((ts 2017 10 5 0 0 0) =? row_start r) && (1 =? row_duration r) &&
        shown NS_DAY (ts 2017 10 5 0 0 0) (row_end r) && (1 =? row_label r) && has_flag b 0 true);
        row_at df3 6 (fun r b => shown NS_DAY (ts 2017 10 6 0 0 0) (row_ref r) &&
        ((ts 2017 10 6 0 0 0) =? row_start r) && (1 =? row_duration r) &&
        shown NS_DAY (ts 2017 10 6 0 0 0) (row_end r) && (0 =? row_label r) && has_flag b 0 false);
        row_at df3 7 (fun r b => shown NS_DAY (ts 2017 10 7 0 0 0) (row_ref r) &&
        ((ts 2017 10 7 0 0 0) =? row_start r) && (1 =? row_duration r) &&
        shown NS_DAY (ts 2017 10 7 0 0 0) (row_end r) && (1 =? row_label r) && has_flag b 0 true);
        row_at df3 8 (fun r b => shown NS_DAY (ts 2017 10 8 0 0 0) (row_ref r) &&
        ((ts 2017 10 8 0 0 0) =? row_start r) && (1 =? row_duration r) &&
        shown NS_DAY (ts 2017 10 8 0 0 0) (row_end r) && (0 =? row_label r) && has_flag b 0 false);
        row_at df3 9 (fun r b => shown NS_DAY (ts 2017 10 9 0 0 0) (row_ref r) &&
        ((ts 2017 10 9 0 0 0) =? row_start r) && (1 =? row_duration r) &&
        shown NS_DAY (ts 2017 10 9 0 0 0) (row_end r) && (1 =? row_label r) && has_flag b 0 true); (zlen df3 =? 10)]]) = true.
Proof. vm_compute. reflexivity. Qed.

(** timeboard/timeboard.py:145 *)
Example timeboard_145 : passes (
  let heap0 : heap Z := [] in
  do tb4 <- build (mkArgs (mkFstr None AlD) (ts 2017 9 30 0 0 0) (ts 2017 10 9 0 0 0) (LOrg (DMarker (mkMarker
          (mkFstr None (AlW None)) [])) [(LPat (PList [1; 1; 1; 1; 1; 0;
          0]))]) [] (fun x => negb (x =? 0)) 0 false (-999999) WDuration conf_num) heap0;
  do tx5 <- tb_compact (fst tb4);
  do df6 <- tb_dataframe (fst tb4) 0 (tb_len (fst tb4) - 1);
  Ok [forallb (fun x => x) [(tokens_eqb tx5 [TText "Timeboard of '"; TFreq (mkFstr None AlD); TText "': ";
        TPeriod (fbase (to_freq (mkFstr None AlD))) (pord (fbase (to_freq (mkFstr None AlD))) (ts 2017 9 30 0 0 0));
        TText " -> ";
        TPeriod (fbase (to_freq (mkFstr None AlD))) (pord (fbase (to_freq (mkFstr None AlD))) (ts 2017 10 9 0 0
        0))]); row_at df6 0 (fun r b => shown NS_DAY (ts 2017 9 30 0 0 0) (row_ref r) &&
        ((ts 2017 9 30 0 0 0) =? row_start r) && (1 =? row_duration r) &&
        shown NS_DAY (ts 2017 9 30 0 0 0) (row_end r) && (0 =? row_label r) && has_flag b 0 false);
        row_at df6 1 (fun r b => shown NS_DAY (ts 2017 10 1 0 0 0) (row_ref r) &&
        ((ts 2017 10 1 0 0 0) =? row_start r) && (1 =? row_duration r) &&
        shown NS_DAY (ts 2017 10 1 0 0 0) (row_end r) && (0 =? row_label r) && has_flag b 0 false);
        row_at df6 2 (fun r b => shown NS_DAY (ts 2017 10 2 0 0 0) (row_ref r) &&
        ((ts 2017 10 2 0 0 0) =? row_start r) && (1 =? row_duration r) &&
        shown NS_DAY (ts 2017 10 2 0 0 0) (row_end r) && (1 =? row_label r) && has_flag b 0 true);
        row_at df6 3 (fun r b => shown NS_DAY (ts 2017 10 3 0 0 0) (row_ref r) &&
        ((ts 2017 10 3 0 0 0) =? row_start r) && (1 =? row_duration r) &&
        shown NS_DAY (ts 2017 10 3 0 0 0) (row_end r) && (1 =? row_label r) && has_flag b 0 true);
        row_at df6 4 (fun r b => shown NS_DAY (ts 2017 10 4 0 0 0) (row_ref r) &&
        ((ts 2017 10 4 0 0 0) =? row_start r) && (1 =? row_duration r) &&
        shown NS_DAY (ts 2017 10 4 0 0 0) (row_end r) && (1 =? row_label r) && has_flag b 0 true);
        row_at df6 5 (fun r b => shown NS_DAY (ts 2017 10 5 0 0 0) (row_ref r) &&
        ((ts 2017 10 5 0 0 0) =? row_start r) && (1 =? row_duration r) &&
        shown NS_DAY (ts 2017 10 5 0 0 0) (row_end r) && (1 =? row_label r) && has_flag b 0 true);
        row_at df6 6 (fun r b => shown NS_DAY (ts 2017 10 6 0 0 0) (row_ref r) &&
        ((ts 2017 10 6 0 0 0) =? row_start r) && (1 =? row_duration r) &&
        shown NS_DAY (ts 2017 10 6 0 0 0) (row_end r) && (1 =? row_label r) && has_flag b 0 true);
        row_at df6 7 (fun r b => shown NS_DAY (ts 2017 10 7 0 0 0) (row_ref r) &&
        ((ts 2017 10 7 0 0 0) =? row_start r) && (1 =? row_duration r) &&
        shown NS_DAY (ts 2017 10 7 0 0 0) (row_end r) && (0 =? row_label r) && has_flag b 0 false);
        row_at df6 8 (fun r b => shown NS_DAY (ts 2017 10 8 0 0 0) (row_ref r) &&
        ((ts 2017 10 8 0 0 0) =? row_start r) && (1 =? row_duration r) &&
        shown NS_DAY (ts 2017 10 8 0 0 0) (row_end r) && (0 =? row_label r) && has_flag b 0 false);
        row_at df6 9 (fun r b => shown NS_DAY (ts 2017 10 9 0 0 0) (row_ref r) &&
        ((ts 2017 10 9 0 0 0) =? row_start r) && (1 =? row_duration r) &&
        shown NS_DAY (ts 2017 10 9 0 0 0) (row_end r) && (1 =? row_label r) && has_flag b 0 true); (zlen df6 =? 10)]]) = true.
Proof. vm_compute. reflexivity. Qed.

(** timeboard/timeboard.py:287, 290, 292, 294, 296, 305 *)
Example timeboard_287 : passes (
  let heap0 : heap Z := [] in
  do tb1 <- build (mkArgs (mkFstr None AlD) (ts 2017 9 30 0 0 0) (ts 2017 10 15 0 0 0) (LPat (PList [0;
          1])) [] (fun x => negb (x =? 0)) 0 false (-999999) WDuration conf_num) heap0;
  do w2 <- get_workshift (fst tb1) (ts 2017 10 1 0 0 0) None;
  do tx3 <- ws_repr (fst tb1) w2;
  do iv4 <- get_interval (fst tb1) (RPair (Some (ts 2017 10 2 0 0 0)) (Some (ts 2017 10 8 0 0 0))) None None true C11
          None;
  do tx5 <- iv_repr (fst tb1) iv4;
  do iv6 <- get_interval (fst tb1) (RPoint (ts 2017 10 2 0 0 0)) (Some 7) None true C11 None;
  do tx7 <- iv_repr (fst tb1) iv6;
  do iv8 <- get_interval (fst tb1) (RPoint (ts 2017 10 5 0 0 0)) None (Some (mkFstr None (AlW None))) true C11 None;
  do tx9 <- iv_repr (fst tb1) iv8;
  do iv10 <- get_interval (fst tb1) RNone None None true C11 None;
  do tx11 <- iv_repr (fst tb1) iv10;
  do w12 <- get_workshift (fst tb1) (p_start (period_at (ts 2017 10 5 0 0 0) (mkFstr None (AlW None)))) None;
  do tx13 <- ws_repr (fst tb1) w12;
  Ok [(tokens_eqb tx3 [TText "Workshift("; TNum 1; TText ") of "; TText "'"; TFreq (mkFstr None AlD); TText "' at ";
        TPeriod (fbase (to_freq (mkFstr None AlD))) (pord (fbase (to_freq (mkFstr None AlD))) (ts 2017 10 1 0 0 0))]);
       (tokens_eqb tx5 [TText "Interval("; TText "("; TNum 2; TText ", "; TNum 8; TText ")"; TText "): "; TText "'";
        TFreq (mkFstr None AlD); TText "' at ";
        TPeriod (fbase (to_freq (mkFstr None AlD))) (pord (fbase (to_freq (mkFstr None AlD))) (ts 2017 10 2 0 0 0));
        TText " -> "; TText "'"; TFreq (mkFstr None AlD); TText "' at ";
        TPeriod (fbase (to_freq (mkFstr None AlD))) (pord (fbase (to_freq (mkFstr None AlD))) (ts 2017 10 8 0 0 0));
        TText " ["; TNum 7; TText "]"]);
       (tokens_eqb tx7 [TText "Interval("; TText "("; TNum 2; TText ", "; TNum 8; TText ")"; TText "): "; TText "'";
        TFreq (mkFstr None AlD); TText "' at ";
        TPeriod (fbase (to_freq (mkFstr None AlD))) (pord (fbase (to_freq (mkFstr None AlD))) (ts 2017 10 2 0 0 0));
        TText " -> "; TText "'"; TFreq (mkFstr None AlD); TText "' at ";
        TPeriod (fbase (to_freq (mkFstr None AlD))) (pord (fbase (to_freq (mkFstr None AlD))) (ts 2017 10 8 0 0 0));
        TText " ["; TNum 7; TText "]"]);
       (tokens_eqb tx9 [TText "Interval("; TText "("; TNum 2; TText ", "; TNum 8; TText ")"; TText "): "; TText "'";
        TFreq (mkFstr None AlD); TText "' at ";
        TPeriod (fbase (to_freq (mkFstr None AlD))) (pord (fbase (to_freq (mkFstr None AlD))) (ts 2017 10 2 0 0 0));
        TText " -> "; TText "'"; TFreq (mkFstr None AlD); TText "' at ";
        TPeriod (fbase (to_freq (mkFstr None AlD))) (pord (fbase (to_freq (mkFstr None AlD))) (ts 2017 10 8 0 0 0));
        TText " ["; TNum 7; TText "]"]);
       (tokens_eqb tx11 [TText "Interval("; TText "("; TNum 0; TText ", "; TNum 15; TText ")"; TText "): "; TText "'";
        TFreq (mkFstr None AlD); TText "' at ";
        TPeriod (fbase (to_freq (mkFstr None AlD))) (pord (fbase (to_freq (mkFstr None AlD))) (ts 2017 9 30 0 0 0));
        TText " -> "; TText "'"; TFreq (mkFstr None AlD); TText "' at ";
        TPeriod (fbase (to_freq (mkFstr None AlD))) (pord (fbase (to_freq (mkFstr None AlD))) (ts 2017 10 15 0 0 0));
        TText " ["; TNum 16; TText "]"]);
       (tokens_eqb tx13 [TText "Workshift("; TNum 2; TText ") of "; TText "'"; TFreq (mkFstr None AlD); TText "' at ";
        TPeriod (fbase (to_freq (mkFstr None AlD))) (pord (fbase (to_freq (mkFstr None AlD))) (ts 2017 10 2 0 0 0))])]) = true.
Proof. vm_compute. reflexivity. Qed.

(** timeboard/timeboard.py:482, 487 *)
Example timeboard_482 : passes (
  let heap0 : heap Z := [] in
  do tb1 <- build (mkArgs (mkFstr None AlD) (ts 2017 9 30 0 0 0) (ts 2017 10 15 0 0 0) (LPat (PList [0;
          1])) [] (fun x => negb (x =? 0)) 0 false (-999999) WDuration conf_num) heap0;
  do w2 <- get_workshift (fst tb1) (ts 2017 10 1 0 0 0) None;
  do tx3 <- ws_repr (fst tb1) w2;
  do w4 <- get_workshift (fst tb1) (ts 2017 10 1 0 0 0) None;
  do tx5 <- ws_repr (fst tb1) w4;
  Ok [(tokens_eqb tx3 [TText "Workshift("; TNum 1; TText ") of "; TText "'"; TFreq (mkFstr None AlD); TText "' at ";
        TPeriod (fbase (to_freq (mkFstr None AlD))) (pord (fbase (to_freq (mkFstr None AlD))) (ts 2017 10 1 0 0 0))]);
       (tokens_eqb tx5 [TText "Workshift("; TNum 1; TText ") of "; TText "'"; TFreq (mkFstr None AlD); TText "' at ";
        TPeriod (fbase (to_freq (mkFstr None AlD))) (pord (fbase (to_freq (mkFstr None AlD))) (ts 2017 10 1 0 0 0))])]) = true.
Proof. vm_compute. reflexivity. Qed.

(** timeboard/timeboard.py:679, 684, 689, 694, 699, 704, 711, 716, 721, 726 *)
Example timeboard_679 : passes (
  let heap0 : heap Z := [] in
  do tb1 <- build (mkArgs (mkFstr None AlD) (ts 2017 9 30 0 0 0) (ts 2017 10 15 0 0 0) (LPat (PList [0;
          1])) [] (fun x => negb (x =? 0)) 0 false (-999999) WDuration conf_num) heap0;
  do iv2 <- get_interval (fst tb1) (RPair (Some (ts 2017 10 2 0 0 0)) (Some (ts 2017 10 8 0 0 0))) None None true C11
          None;
  do tx3 <- iv_repr (fst tb1) iv2;
  do iv4 <- get_interval (fst tb1) (RPair (Some (ts 2017 10 2 0 0 0)) (Some (ts 2017 10 8 0 0 0))) None None true C11
          None;
  do tx5 <- iv_repr (fst tb1) iv4;
  do iv6 <- get_interval (fst tb1) (RPoint (ts 2017 10 2 0 0 0)) (Some 7) None true C11 None;
  do tx7 <- iv_repr (fst tb1) iv6;
  do iv8 <- get_interval (fst tb1) (RPoint (ts 2017 10 2 0 0 0)) (Some 7) None true C11 None;
  do tx9 <- iv_repr (fst tb1) iv8;
  do iv10 <- get_interval (fst tb1) (RPoint (ts 2017 10 5 0 0 0)) None (Some (mkFstr None (AlW None))) true C11 None;
  do tx11 <- iv_repr (fst tb1) iv10;
  do iv12 <- get_interval (fst tb1) (RPoint (ts 2017 10 5 0 0 0)) None (Some (mkFstr None (AlW None))) true C11 None;
  do tx13 <- iv_repr (fst tb1) iv12;
  do iv14 <- get_interval (fst tb1) (RPeriod (period_at (ts 2017 10 5 0 0 0) (mkFstr None (AlW None)))) None None
          true C11 None;
  do tx15 <- iv_repr (fst tb1) iv14;
  do w16 <- get_workshift (fst tb1) (p_start (period_at (ts 2017 10 5 0 0 0) (mkFstr None (AlW None)))) None;
  do tx17 <- ws_repr (fst tb1) w16;
  do iv18 <- get_interval (fst tb1) RNone None None true C11 None;
  do tx19 <- iv_repr (fst tb1) iv18;
  do iv20 <- get_interval (fst tb1) RNone None None true C11 None;
  do tx21 <- iv_repr (fst tb1) iv20;
  Ok [(tokens_eqb tx3 [TText "Interval("; TText "("; TNum 2; TText ", "; TNum 8; TText ")"; TText "): "; TText "'";
        TFreq (mkFstr None AlD); TText "' at ";
        TPeriod (fbase (to_freq (mkFstr None AlD))) (pord (fbase (to_freq (mkFstr None AlD))) (ts 2017 10 2 0 0 0));
        TText " -> "; TText "'"; TFreq (mkFstr None AlD); TText "' at ";
        TPeriod (fbase (to_freq (mkFstr None AlD))) (pord (fbase (to_freq (mkFstr None AlD))) (ts 2017 10 8 0 0 0));
        TText " ["; TNum 7; TText "]"]);
       (tokens_eqb tx5 [TText "Interval("; TText "("; TNum 2; TText ", "; TNum 8; TText ")"; TText "): "; TText "'";
        TFreq (mkFstr None AlD); TText "' at ";
        TPeriod (fbase (to_freq (mkFstr None AlD))) (pord (fbase (to_freq (mkFstr None AlD))) (ts 2017 10 2 0 0 0));
        TText " -> "; TText "'"; TFreq (mkFstr None AlD); TText "' at ";
        TPeriod (fbase (to_freq (mkFstr None AlD))) (pord (fbase (to_freq (mkFstr None AlD))) (ts 2017 10 8 0 0 0));
        TText " ["; TNum 7; TText "]"]);
       (tokens_eqb tx7 [TText "Interval("; TText "("; TNum 2; TText ", "; TNum 8; TText ")"; TText "): "; TText "'";
        TFreq (mkFstr None AlD); TText "' at ";
        TPeriod (fbase (to_freq (mkFstr None AlD))) (pord (fbase (to_freq (mkFstr None AlD))) (ts 2017 10 2 0 0 0));
        TText " -> "; TText "'"; TFreq (mkFstr None AlD); TText "' at ";
        TPeriod (fbase (to_freq (mkFstr None AlD))) (pord (fbase (to_freq (mkFstr None AlD))) (ts 2017 10 8 0 0 0));
        TText " ["; TNum 7; TText "]"]);
       (tokens_eqb tx9 [TText "Interval("; TText "("; TNum 2; TText ", "; TNum 8; TText ")"; TText "): "; TText "'";
        TFreq (mkFstr None AlD); TText "' at ";
        TPeriod (fbase (to_freq (mkFstr None AlD))) (pord (fbase (to_freq (mkFstr None AlD))) (ts 2017 10 2 0 0 0));
        TText " -> "; TText "'"; TFreq (mkFstr None AlD); TText "' at ";
        TPeriod (fbase (to_freq (mkFstr None AlD))) (pord (fbase (to_freq (mkFstr None AlD))) (ts 2017 10 8 0 0 0));
        TText " ["; TNum 7; TText "]"]);
       (tokens_eqb tx11 [TText "Interval("; TText "("; TNum 2; TText ", "; TNum 8; TText ")"; TText "): "; TText "'";
        TFreq (mkFstr None AlD); TText "' at ";
        TPeriod (fbase (to_freq (mkFstr None AlD))) (pord (fbase (to_freq (mkFstr None AlD))) (ts 2017 10 2 0 0 0));
        TText " -> "; TText "'"; TFreq (mkFstr None AlD); TText "' at ";
        TPeriod (fbase (to_freq (mkFstr None AlD))) (pord (fbase (to_freq (mkFstr None AlD))) (ts 2017 10 8 0 0 0));
        TText " ["; TNum 7; TText "]"]);
       (tokens_eqb tx13 [TText "Interval("; TText "("; TNum 2; TText ", "; TNum 8; TText ")"; TText "): "; TText "'";
        TFreq (mkFstr None AlD); TText "' at ";
        TPeriod (fbase (to_freq (mkFstr None AlD))) (pord (fbase (to_freq (mkFstr None AlD))) (ts 2017 10 2 0 0 0));
        TText " -> "; TText "'"; TFreq (mkFstr None AlD); TText "' at ";
        TPeriod (fbase (to_freq (mkFstr None AlD))) (pord (fbase (to_freq (mkFstr None AlD))) (ts 2017 10 8 0 0 0));
        TText " ["; TNum 7; TText "]"]);
       (tokens_eqb tx15 [TText "Interval("; TText "("; TNum 2; TText ", "; TNum 8; TText ")"; TText "): "; TText "'";
        TFreq (mkFstr None AlD); TText "' at ";
        TPeriod (fbase (to_freq (mkFstr None AlD))) (pord (fbase (to_freq (mkFstr None AlD))) (ts 2017 10 2 0 0 0));
        TText " -> "; TText "'"; TFreq (mkFstr None AlD); TText "' at ";
        TPeriod (fbase (to_freq (mkFstr None AlD))) (pord (fbase (to_freq (mkFstr None AlD))) (ts 2017 10 8 0 0 0));
        TText " ["; TNum 7; TText "]"]);
       (tokens_eqb tx17 [TText "Workshift("; TNum 2; TText ") of "; TText "'"; TFreq (mkFstr None AlD); TText "' at ";
        TPeriod (fbase (to_freq (mkFstr None AlD))) (pord (fbase (to_freq (mkFstr None AlD))) (ts 2017 10 2 0 0 0))]);
       (tokens_eqb tx19 [TText "Interval("; TText "("; TNum 0; TText ", "; TNum 15; TText ")"; TText "): "; TText "'";
        TFreq (mkFstr None AlD); TText "' at ";
        TPeriod (fbase (to_freq (mkFstr None AlD))) (pord (fbase (to_freq (mkFstr None AlD))) (ts 2017 9 30 0 0 0));
        TText " -> "; TText "'"; TFreq (mkFstr None AlD); TText "' at ";
        TPeriod (fbase (to_freq (mkFstr None AlD))) (pord (fbase (to_freq (mkFstr None AlD))) (ts 2017 10 15 0 0 0));
        TText " ["; TNum 16; TText "]"]);
       (tokens_eqb tx21 [TText "Interval("; TText "("; TNum 0; TText ", "; TNum 15; TText ")"; TText "): "; TText "'";
        TFreq (mkFstr None AlD); TText "' at ";
        TPeriod (fbase (to_freq (mkFstr None AlD))) (pord (fbase (to_freq (mkFstr None AlD))) (ts 2017 9 30 0 0 0));
        TText " -> "; TText "'"; TFreq (mkFstr None AlD); TText "' at ";
        TPeriod (fbase (to_freq (mkFstr None AlD))) (pord (fbase (to_freq (mkFstr None AlD))) (ts 2017 10 15 0 0 0));
        TText " ["; TNum 16; TText "]"])]) = true.
Proof. vm_compute. reflexivity. Qed.

(** timeboard/workshift.py:61, 64 *)
Example workshift_61 : passes (
  let heap0 : heap Z := [] in
  do tb1 <- build (mkArgs (mkFstr None AlD) (ts 2017 9 30 0 0 0) (ts 2017 10 15 0 0 0) (LPat (PList [0;
          1])) [] (fun x => negb (x =? 0)) 0 false (-999999) WDuration conf_num) heap0;
  do w2 <- new_workshift (fst tb1) 1 (tb_default (fst tb1));
  do tx3 <- ws_repr (fst tb1) w2;
  do tx4 <- ws_repr (fst tb1) w2;
  do df5 <- tb_dataframe (fst tb1) (ws_loc w2) (ws_loc w2);
  Ok [(tokens_eqb tx3 [TText "Workshift("; TNum 1; TText ") of "; TText "'"; TFreq (mkFstr None AlD); TText "' at ";
        TPeriod (fbase (to_freq (mkFstr None AlD))) (pord (fbase (to_freq (mkFstr None AlD))) (ts 2017 10 1 0 0 0))]);
       forallb (fun x => x) [(tokens_eqb tx4 [TText "Workshift("; TNum 1; TText ") of "; TText "'"; TFreq (mkFstr None AlD);
        TText "' at ";
        TPeriod (fbase (to_freq (mkFstr None AlD))) (pord (fbase (to_freq (mkFstr None AlD))) (ts 2017 10 1 0 0
        0))]); row_at df5 1 (fun r b => shown NS_DAY (ts 2017 10 1 0 0 0) (row_ref r) &&
        ((ts 2017 10 1 0 0 0) =? row_start r) && (1 =? row_duration r) &&
        shown NS_DAY (ts 2017 10 1 0 0 0) (row_end r) && (1 =? row_label r) && has_flag b 0 true); (zlen df5 =? 1)]]) = true.
Proof. vm_compute. reflexivity. Qed.

(** timeboard/workshift.py:278, 280, 282, 284, 286, 288, 290, 292, 296, 298, 300, 302, 304, 306, 308, 310, 316, 318 *)
Example workshift_278 : passes (
  let heap0 : heap Z := [] in
  do tb1 <- build (mkArgs (mkFstr None AlD) (ts 2017 9 30 0 0 0) (ts 2017 10 15 0 0 0) (LPat (PList [0;
          1])) [] (fun x => negb (x =? 0)) 0 false (-999999) WDuration conf_num) heap0;
  do w2 <- get_workshift (fst tb1) (ts 2017 10 5 0 0 0) None;
  do b3 <- is_on_duty (fst tb1) w2 (ws_sched w2);
  do w4 <- rollforward (fst tb1) w2 0 DOn None;
  do tx5 <- ws_repr (fst tb1) w4;
  do w6 <- rollforward (fst tb1) w2 1 DOn None;
  do tx7 <- ws_repr (fst tb1) w6;
  do w8 <- ws_add (fst tb1) w2 1;
  do tx9 <- ws_repr (fst tb1) w8;
  do w10 <- rollforward (fst tb1) w2 (-1) DOn None;
  do tx11 <- ws_repr (fst tb1) w10;
  do w12 <- rollforward (fst tb1) w2 0 DOff None;
  do tx13 <- ws_repr (fst tb1) w12;
  do w14 <- rollforward (fst tb1) w2 1 DOff None;
  do tx15 <- ws_repr (fst tb1) w14;
  do w16 <- rollforward (fst tb1) w2 (-1) DOff None;
  do tx17 <- ws_repr (fst tb1) w16;
  do w18 <- get_workshift (fst tb1) (ts 2017 10 6 0 0 0) None;
  do b19 <- is_off_duty (fst tb1) w18 (ws_sched w18);
  do w20 <- rollforward (fst tb1) w18 0 DOn None;
  do tx21 <- ws_repr (fst tb1) w20;
  do w22 <- rollforward (fst tb1) w18 1 DOn None;
  do tx23 <- ws_repr (fst tb1) w22;
  do w24 <- ws_add (fst tb1) w18 1;
  do tx25 <- ws_repr (fst tb1) w24;
  do w26 <- rollforward (fst tb1) w18 (-1) DOn None;
  do tx27 <- ws_repr (fst tb1) w26;
  do w28 <- rollforward (fst tb1) w18 0 DOff None;
  do tx29 <- ws_repr (fst tb1) w28;
  do w30 <- rollforward (fst tb1) w18 1 DOff None;
  do tx31 <- ws_repr (fst tb1) w30;
  do w32 <- rollforward (fst tb1) w18 (-1) DOff None;
  do tx33 <- ws_repr (fst tb1) w32;
  do w34 <- rollforward (fst tb1) w18 (-1) DOn None;
  do tx35 <- ws_repr (fst tb1) w34;
  do w36 <- ws_sub (fst tb1) w18 1;
  do tx37 <- ws_repr (fst tb1) w36;
  Ok [(Bool.eqb b3 true);
       (tokens_eqb tx5 [TText "Workshift("; TNum 5; TText ") of "; TText "'"; TFreq (mkFstr None AlD); TText "' at ";
        TPeriod (fbase (to_freq (mkFstr None AlD))) (pord (fbase (to_freq (mkFstr None AlD))) (ts 2017 10 5 0 0 0))]);
       (tokens_eqb tx7 [TText "Workshift("; TNum 7; TText ") of "; TText "'"; TFreq (mkFstr None AlD); TText "' at ";
        TPeriod (fbase (to_freq (mkFstr None AlD))) (pord (fbase (to_freq (mkFstr None AlD))) (ts 2017 10 7 0 0 0))]);
       (tokens_eqb tx9 [TText "Workshift("; TNum 7; TText ") of "; TText "'"; TFreq (mkFstr None AlD); TText "' at ";
        TPeriod (fbase (to_freq (mkFstr None AlD))) (pord (fbase (to_freq (mkFstr None AlD))) (ts 2017 10 7 0 0 0))]);
       (tokens_eqb tx11 [TText "Workshift("; TNum 3; TText ") of "; TText "'"; TFreq (mkFstr None AlD); TText "' at ";
        TPeriod (fbase (to_freq (mkFstr None AlD))) (pord (fbase (to_freq (mkFstr None AlD))) (ts 2017 10 3 0 0 0))]);
       (tokens_eqb tx13 [TText "Workshift("; TNum 6; TText ") of "; TText "'"; TFreq (mkFstr None AlD); TText "' at ";
        TPeriod (fbase (to_freq (mkFstr None AlD))) (pord (fbase (to_freq (mkFstr None AlD))) (ts 2017 10 6 0 0 0))]);
       (tokens_eqb tx15 [TText "Workshift("; TNum 8; TText ") of "; TText "'"; TFreq (mkFstr None AlD); TText "' at ";
        TPeriod (fbase (to_freq (mkFstr None AlD))) (pord (fbase (to_freq (mkFstr None AlD))) (ts 2017 10 8 0 0 0))]);
       (tokens_eqb tx17 [TText "Workshift("; TNum 4; TText ") of "; TText "'"; TFreq (mkFstr None AlD); TText "' at ";
        TPeriod (fbase (to_freq (mkFstr None AlD))) (pord (fbase (to_freq (mkFstr None AlD))) (ts 2017 10 4 0 0 0))]);
       (Bool.eqb b19 true);
       (tokens_eqb tx21 [TText "Workshift("; TNum 7; TText ") of "; TText "'"; TFreq (mkFstr None AlD); TText "' at ";
        TPeriod (fbase (to_freq (mkFstr None AlD))) (pord (fbase (to_freq (mkFstr None AlD))) (ts 2017 10 7 0 0 0))]);
       (tokens_eqb tx23 [TText "Workshift("; TNum 9; TText ") of "; TText "'"; TFreq (mkFstr None AlD); TText "' at ";
        TPeriod (fbase (to_freq (mkFstr None AlD))) (pord (fbase (to_freq (mkFstr None AlD))) (ts 2017 10 9 0 0 0))]);
       (tokens_eqb tx25 [TText "Workshift("; TNum 9; TText ") of "; TText "'"; TFreq (mkFstr None AlD); TText "' at ";
        TPeriod (fbase (to_freq (mkFstr None AlD))) (pord (fbase (to_freq (mkFstr None AlD))) (ts 2017 10 9 0 0 0))]);
       (tokens_eqb tx27 [TText "Workshift("; TNum 5; TText ") of "; TText "'"; TFreq (mkFstr None AlD); TText "' at ";
        TPeriod (fbase (to_freq (mkFstr None AlD))) (pord (fbase (to_freq (mkFstr None AlD))) (ts 2017 10 5 0 0 0))]);
       (tokens_eqb tx29 [TText "Workshift("; TNum 6; TText ") of "; TText "'"; TFreq (mkFstr None AlD); TText "' at ";
        TPeriod (fbase (to_freq (mkFstr None AlD))) (pord (fbase (to_freq (mkFstr None AlD))) (ts 2017 10 6 0 0 0))]);
       (tokens_eqb tx31 [TText "Workshift("; TNum 8; TText ") of "; TText "'"; TFreq (mkFstr None AlD); TText "' at ";
        TPeriod (fbase (to_freq (mkFstr None AlD))) (pord (fbase (to_freq (mkFstr None AlD))) (ts 2017 10 8 0 0 0))]);
       (tokens_eqb tx33 [TText "Workshift("; TNum 4; TText ") of "; TText "'"; TFreq (mkFstr None AlD); TText "' at ";
        TPeriod (fbase (to_freq (mkFstr None AlD))) (pord (fbase (to_freq (mkFstr None AlD))) (ts 2017 10 4 0 0 0))]);
       (tokens_eqb tx35 [TText "Workshift("; TNum 5; TText ") of "; TText "'"; TFreq (mkFstr None AlD); TText "' at ";
        TPeriod (fbase (to_freq (mkFstr None AlD))) (pord (fbase (to_freq (mkFstr None AlD))) (ts 2017 10 5 0 0 0))]);
       (tokens_eqb tx37 [TText "Workshift("; TNum 3; TText ") of "; TText "'"; TFreq (mkFstr None AlD); TText "' at ";
        TPeriod (fbase (to_freq (mkFstr None AlD))) (pord (fbase (to_freq (mkFstr None AlD))) (ts 2017 10 3 0 0 0))])]) = true.
Proof. vm_compute. reflexivity. Qed.

(** timeboard/workshift.py:416, 418, 420, 422, 424, 426, 428, 430, 434, 436, 438, 440, 442, 444, 446, 448, 454, 456 *)
Example workshift_416 : passes (
  let heap0 : heap Z := [] in
  do tb1 <- build (mkArgs (mkFstr None AlD) (ts 2017 9 30 0 0 0) (ts 2017 10 15 0 0 0) (LPat (PList [0;
          1])) [] (fun x => negb (x =? 0)) 0 false (-999999) WDuration conf_num) heap0;
  do w2 <- get_workshift (fst tb1) (ts 2017 10 5 0 0 0) None;
  do b3 <- is_on_duty (fst tb1) w2 (ws_sched w2);
  do w4 <- rollback (fst tb1) w2 0 DOn None;
  do tx5 <- ws_repr (fst tb1) w4;
  do w6 <- rollback (fst tb1) w2 1 DOn None;
  do tx7 <- ws_repr (fst tb1) w6;
  do w8 <- ws_sub (fst tb1) w2 1;
  do tx9 <- ws_repr (fst tb1) w8;
  do w10 <- rollback (fst tb1) w2 (-1) DOn None;
  do tx11 <- ws_repr (fst tb1) w10;
  do w12 <- rollback (fst tb1) w2 0 DOff None;
  do tx13 <- ws_repr (fst tb1) w12;
  do w14 <- rollback (fst tb1) w2 1 DOff None;
  do tx15 <- ws_repr (fst tb1) w14;
  do w16 <- rollback (fst tb1) w2 (-1) DOff None;
  do tx17 <- ws_repr (fst tb1) w16;
  do w18 <- get_workshift (fst tb1) (ts 2017 10 6 0 0 0) None;
  do b19 <- is_off_duty (fst tb1) w18 (ws_sched w18);
  do w20 <- rollback (fst tb1) w18 0 DOn None;
  do tx21 <- ws_repr (fst tb1) w20;
  do w22 <- rollback (fst tb1) w18 1 DOn None;
  do tx23 <- ws_repr (fst tb1) w22;
  do w24 <- ws_sub (fst tb1) w18 1;
  do tx25 <- ws_repr (fst tb1) w24;
  do w26 <- rollback (fst tb1) w18 (-1) DOn None;
  do tx27 <- ws_repr (fst tb1) w26;
  do w28 <- rollback (fst tb1) w18 0 DOff None;
  do tx29 <- ws_repr (fst tb1) w28;
  do w30 <- rollback (fst tb1) w18 1 DOff None;
  do tx31 <- ws_repr (fst tb1) w30;
  do w32 <- rollback (fst tb1) w18 (-1) DOff None;
  do tx33 <- ws_repr (fst tb1) w32;
  do w34 <- rollback (fst tb1) w18 (-1) DOn None;
  do tx35 <- ws_repr (fst tb1) w34;
  do w36 <- ws_add (fst tb1) w18 1;
  do tx37 <- ws_repr (fst tb1) w36;
  Ok [(Bool.eqb b3 true);
       (tokens_eqb tx5 [TText "Workshift("; TNum 5; TText ") of "; TText "'"; TFreq (mkFstr None AlD); TText "' at ";
        TPeriod (fbase (to_freq (mkFstr None AlD))) (pord (fbase (to_freq (mkFstr None AlD))) (ts 2017 10 5 0 0 0))]);
       (tokens_eqb tx7 [TText "Workshift("; TNum 3; TText ") of "; TText "'"; TFreq (mkFstr None AlD); TText "' at ";
        TPeriod (fbase (to_freq (mkFstr None AlD))) (pord (fbase (to_freq (mkFstr None AlD))) (ts 2017 10 3 0 0 0))]);
       (tokens_eqb tx9 [TText "Workshift("; TNum 3; TText ") of "; TText "'"; TFreq (mkFstr None AlD); TText "' at ";
        TPeriod (fbase (to_freq (mkFstr None AlD))) (pord (fbase (to_freq (mkFstr None AlD))) (ts 2017 10 3 0 0 0))]);
       (tokens_eqb tx11 [TText "Workshift("; TNum 7; TText ") of "; TText "'"; TFreq (mkFstr None AlD); TText "' at ";
        TPeriod (fbase (to_freq (mkFstr None AlD))) (pord (fbase (to_freq (mkFstr None AlD))) (ts 2017 10 7 0 0 0))]);
       (tokens_eqb tx13 [TText "Workshift("; TNum 4; TText ") of "; TText "'"; TFreq (mkFstr None AlD); TText "' at ";
        TPeriod (fbase (to_freq (mkFstr None AlD))) (pord (fbase (to_freq (mkFstr None AlD))) (ts 2017 10 4 0 0 0))]);
       (tokens_eqb tx15 [TText "Workshift("; TNum 2; TText ") of "; TText "'"; TFreq (mkFstr None AlD); TText "' at ";
        TPeriod (fbase (to_freq (mkFstr None AlD))) (pord (fbase (to_freq (mkFstr None AlD))) (ts 2017 10 2 0 0 0))]);
       (tokens_eqb tx17 [TText "Workshift("; TNum 6; TText ") of "; TText "'"; TFreq (mkFstr None AlD); TText "' at ";
        TPeriod (fbase (to_freq (mkFstr None AlD))) (pord (fbase (to_freq (mkFstr None AlD))) (ts 2017 10 6 0 0 0))]);
       (Bool.eqb b19 true);
       (tokens_eqb tx21 [TText "Workshift("; TNum 5; TText ") of "; TText "'"; TFreq (mkFstr None AlD); TText "' at ";
        TPeriod (fbase (to_freq (mkFstr None AlD))) (pord (fbase (to_freq (mkFstr None AlD))) (ts 2017 10 5 0 0 0))]);
       (tokens_eqb tx23 [TText "Workshift("; TNum 3; TText ") of "; TText "'"; TFreq (mkFstr None AlD); TText "' at ";
        TPeriod (fbase (to_freq (mkFstr None AlD))) (pord (fbase (to_freq (mkFstr None AlD))) (ts 2017 10 3 0 0 0))]);
       (tokens_eqb tx25 [TText "Workshift("; TNum 3; TText ") of "; TText "'"; TFreq (mkFstr None AlD); TText "' at ";
        TPeriod (fbase (to_freq (mkFstr None AlD))) (pord (fbase (to_freq (mkFstr None AlD))) (ts 2017 10 3 0 0 0))]);
       (tokens_eqb tx27 [TText "Workshift("; TNum 7; TText ") of "; TText "'"; TFreq (mkFstr None AlD); TText "' at ";
        TPeriod (fbase (to_freq (mkFstr None AlD))) (pord (fbase (to_freq (mkFstr None AlD))) (ts 2017 10 7 0 0 0))]);
       (tokens_eqb tx29 [TText "Workshift("; TNum 6; TText ") of "; TText "'"; TFreq (mkFstr None AlD); TText "' at ";
        TPeriod (fbase (to_freq (mkFstr None AlD))) (pord (fbase (to_freq (mkFstr None AlD))) (ts 2017 10 6 0 0 0))]);
       (tokens_eqb tx31 [TText "Workshift("; TNum 4; TText ") of "; TText "'"; TFreq (mkFstr None AlD); TText "' at ";
        TPeriod (fbase (to_freq (mkFstr None AlD))) (pord (fbase (to_freq (mkFstr None AlD))) (ts 2017 10 4 0 0 0))]);
       (tokens_eqb tx33 [TText "Workshift("; TNum 8; TText ") of "; TText "'"; TFreq (mkFstr None AlD); TText "' at ";
        TPeriod (fbase (to_freq (mkFstr None AlD))) (pord (fbase (to_freq (mkFstr None AlD))) (ts 2017 10 8 0 0 0))]);
       (tokens_eqb tx35 [TText "Workshift("; TNum 7; TText ") of "; TText "'"; TFreq (mkFstr None AlD); TText "' at ";
        TPeriod (fbase (to_freq (mkFstr None AlD))) (pord (fbase (to_freq (mkFstr None AlD))) (ts 2017 10 7 0 0 0))]);
       (tokens_eqb tx37 [TText "Workshift("; TNum 9; TText ") of "; TText "'"; TFreq (mkFstr None AlD); TText "' at ";
        TPeriod (fbase (to_freq (mkFstr None AlD))) (pord (fbase (to_freq (mkFstr None AlD))) (ts 2017 10 9 0 0 0))])]) = true.
Proof. vm_compute. reflexivity. Qed.

(** timeboard/workshift.py:524, 526, 528, 530, 532, 534 *)
Example workshift_524 : passes (
  let heap0 : heap Z := [] in
  do tb1 <- build (mkArgs (mkFstr None AlD) (ts 2017 9 30 0 0 0) (ts 2017 10 11 0 0 0) (LPat (PList [4; 8; 4;
          8])) [] (fun x => ((x >? 4))) 0 false (-999999) WDuration conf_num) heap0;
  do w2 <- new_workshift (fst tb1) 3 (tb_default (fst tb1));
  do n3 <- ws_duration (tb_tl (fst tb1)) (ws_loc w2);
  do b4 <- is_on_duty (fst tb1) w2 (ws_sched w2);
  do q5 <- ws_worktime (fst tb1) w2 DOn None;
  do q6 <- ws_worktime (fst tb1) w2 DOff None;
  do q7 <- ws_worktime (fst tb1) w2 DAny None;
  Ok [((ws_label w2) =? 8);
       (n3 =? 1);
       (Bool.eqb b4 true);
       (qclose q5 (1 # 1));
       (qclose q6 (0 # 1));
       (qclose q7 (1 # 1))]) = true.
Proof. vm_compute. reflexivity. Qed.

(** timeboard/workshift.py:544, 546, 548, 551, 553, 555, 557, 559 *)
Example workshift_544 : passes (
  let heap0 : heap Z := [] in
  do tb8 <- build (mkArgs (mkFstr None AlD) (ts 2017 9 30 0 0 0) (ts 2017 10 11 0 0 0) (LPat (PList [4; 8; 4;
          8])) [] (fun x => ((x >? 4))) 0 false (-999999) WLabels conf_num) heap0;
  do w9 <- new_workshift (fst tb8) 3 (tb_default (fst tb8));
  do q10 <- ws_worktime (fst tb8) w9 DOn None;
  do q11 <- ws_worktime (fst tb8) w9 DOff None;
  do q12 <- ws_worktime (fst tb8) w9 DAny None;
  do w13 <- new_workshift (fst tb8) 2 (tb_default (fst tb8));
  do b14 <- is_off_duty (fst tb8) w13 (ws_sched w13);
  do q15 <- ws_worktime (fst tb8) w13 DOn None;
  do q16 <- ws_worktime (fst tb8) w13 DOff None;
  do q17 <- ws_worktime (fst tb8) w13 DAny None;
  Ok [(qclose q10 (8 # 1));
       (qclose q11 (0 # 1));
       (qclose q12 (8 # 1));
       ((ws_label w13) =? 4);
       (Bool.eqb b14 true);
       (qclose q15 (0 # 1));
       (qclose q16 (4 # 1));
       (qclose q17 (4 # 1))]) = true.
Proof. vm_compute. reflexivity. Qed.

(** timeboard/calendars/RU.py:151, 153 *)
Example ru_151 : passes (
  let heap0 : heap Z := [] in

  Ok [((c_start ru_class) =? (ts 2005 1 1 0 0 0));
       negb (((c_end ru_class) =? (ts 2018 12 31 23 59 59)))]) = true.
Proof. vm_compute. reflexivity. Qed.

(** timeboard/calendars/UK.py:170, 172 *)
Example uk_170 : passes (
  let heap0 : heap Z := [] in

  Ok [((c_start uk_class) =? (ts 2000 1 1 0 0 0));
       negb (((c_end uk_class) =? (ts 2019 12 31 23 59 59)))]) = true.
Proof. vm_compute. reflexivity. Qed.

(** timeboard/calendars/US.py:134, 136 *)
Example us_134 : passes (
  let heap0 : heap Z := [] in

  Ok [((c_start us_class) =? (ts 2000 1 1 0 0 0));
       negb (((c_end us_class) =? (ts 2020 12 31 0 0 0)))]) = true.
Proof. vm_compute. reflexivity. Qed.

(** timeboard/calendars/calendarbase.py:47 *)
Example calendarbase_47 : passes (
  let heap0 : heap Z := [] in
  do d1 <- cb_nth_weekday 2017 [(5, 1, (-1), 0); (9, 1, 1, 0)] 0 false;
  Ok [(dict_eqb d1 [((ts 2017 5 29 0 0 0), 0); ((ts 2017 9 4 0 0 0), 0)])]) = true.
Proof. vm_compute. reflexivity. Qed.

(** timeboard/calendars/calendarbase.py:181 *)
Example calendarbase_181 : passes (
  let heap0 : heap Z := [] in

  Ok [(dict_eqb (cb_from_easter 2017 [(-2); 1] false 0) [((ts 2017 4 14 0 0 0), 0); ((ts 2017 4 17 0 0 0), 0)])]) = true.
Proof. vm_compute. reflexivity. Qed.

(** doc/source/using_preconfigured.rst:18, 20 *)
Example using_preconfigured_18 : passes (
  let heap0 : heap Z := [] in

  Ok [((c_start us_class) =? (ts 2000 1 1 0 0 0));
       ((c_end us_class) =? (ts 2020 12 31 23 59 59))]) = true.
Proof. vm_compute. reflexivity. Qed.
