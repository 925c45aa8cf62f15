(** ConfDocsMaking: examples of the documentation about the model.
    Written by tools/docs2coq.py. *)
From Verif Require Api.
From Verif Require Import Base Civil Freq Frame Timeline Board When Calendars Text ConfBase ConfDocBase.
From Coq Require Import QArith String.
Open Scope string_scope.
Open Scope list_scope.
Open Scope Z_scope.

(** doc/source/making_a_timeboard.rst:47 *)
Example making_a_timeboard_47 : passes (
  let heap0 : heap Z := [new_rpat [1; 1; 1; 0; 0]; new_rpat [1000001; 1000002; 1000003; 1000004]; new_rpat [1000001; 1000002; 1000003; 1000004]] in
  do tb1 <- build (mkArgs (mkFstr None AlD) (ts 2017 10 1 0 0 0) (ts 2017 10 10 0 0 0) (LPat (PList [1; 0;
          0])) [] (fun x => negb (x =? 0)) 0 false (-999999) WDuration conf_num) heap0;
  do tx2 <- tb_compact (fst tb1);
  do df3 <- tb_dataframe (fst tb1) 0 (tb_len (fst tb1) - 1);
  Ok [forallb (fun x => x) [(tokens_eqb tx2 [TText "Timeboard of '"; TFreq (mkFstr None AlD); TText "': ";
        TPeriod (fbase (to_freq (mkFstr None AlD))) (pord (fbase (to_freq (mkFstr None AlD))) (ts 2017 10 1 0 0 0));
        TText " -> ";
        TPeriod (fbase (to_freq (mkFstr None AlD))) (pord (fbase (to_freq (mkFstr None AlD))) (ts 2017 10 10 0 0
        0))]); row_at df3 0 (fun r b => shown NS_DAY (ts 2017 10 1 0 0 0) (row_ref r) &&
        ((ts 2017 10 1 0 0 0) =? row_start r) && (1 =? row_duration r) &&
        shown NS_DAY (ts 2017 10 1 0 0 0) (row_end r) && (1 =? row_label r) && has_flag b 0 true);
        row_at df3 1 (fun r b => shown NS_DAY (ts 2017 10 2 0 0 0) (row_ref r) &&
        ((ts 2017 10 2 0 0 0) =? row_start r) && (1 =? row_duration r) &&
        shown NS_DAY (ts 2017 10 2 0 0 0) (row_end r) && (0 =? row_label r) && has_flag b 0 false);
        row_at df3 2 (fun r b => shown NS_DAY (ts 2017 10 3 0 0 0) (row_ref r) &&
        ((ts 2017 10 3 0 0 0) =? row_start r) && (1 =? row_duration r) &&
        shown NS_DAY (ts 2017 10 3 0 0 0) (row_end r) && (0 =? row_label r) && has_flag b 0 false);
        row_at df3 3 (fun r b => shown NS_DAY (ts 2017 10 4 0 0 0) (row_ref r) &&
        ((ts 2017 10 4 0 0 0) =? row_start r) && (1 =? row_duration r) &&
        shown NS_DAY (ts 2017 10 4 0 0 0) (row_end r) && (1 =? row_label r) && has_flag b 0 true);
        row_at df3 4 (fun r b => shown NS_DAY (ts 2017 10 5 0 0 0) (row_ref r) &&
        ((ts 2017 10 5 0 0 0) =? row_start r) && (1 =? row_duration r) &&
        shown NS_DAY (ts 2017 10 5 0 0 0) (row_end r) && (0 =? row_label r) && has_flag b 0 false);
        row_at df3 5 (fun r b => shown NS_DAY (ts 2017 10 6 0 0 0) (row_ref r) &&
        ((ts 2017 10 6 0 0 0) =? row_start r) && (1 =? row_duration r) &&
        shown NS_DAY (ts 2017 10 6 0 0 0) (row_end r) && (0 =? row_label r) && has_flag b 0 false);
        row_at df3 6 (fun r b => shown NS_DAY (ts 2017 10 7 0 0 0) (row_ref r) &&
        ((ts 2017 10 7 0 0 0) =? row_start r) && (1 =? row_duration r) &&
        shown NS_DAY (ts 2017 10 7 0 0 0) (row_end r) && (1 =? row_label r) && has_flag b 0 true);
        row_at df3 7 (fun r b => shown NS_DAY (ts 2017 10 8 0 0 0) (row_ref r) &&
        ((ts 2017 10 8 0 0 0) =? row_start r) && (1 =? row_duration r) &&
        shown NS_DAY (ts 2017 10 8 0 0 0) (row_end r) && (0 =? row_label r) && has_flag b 0 false);
        row_at df3 8 (fun r b => shown NS_DAY (ts 2017 10 9 0 0 0) (row_ref r) &&
        ((ts 2017 10 9 0 0 0) =? row_start r) && (1 =? row_duration r) &&
        shown NS_DAY (ts 2017 10 9 0 0 0) (row_end r) && (0 =? row_label r) && has_flag b 0 false);
        row_at df3 9 (fun r b => shown NS_DAY (ts 2017 10 10 0 0 0) (row_ref r) &&
        ((ts 2017 10 10 0 0 0) =? row_start r) && (1 =? row_duration r) &&
        shown NS_DAY (ts 2017 10 10 0 0 0) (row_end r) && (1 =? row_label r) && has_flag b 0 true); (zlen df3 =? 10)]]) = true.
Proof. vm_compute. reflexivity. Qed.

(** doc/source/making_a_timeboard.rst:75 *)
Example making_a_timeboard_75 : passes (
  let heap0 : heap Z := [new_rpat [1; 1; 1; 0; 0]; new_rpat [1000001; 1000002; 1000003; 1000004]; new_rpat [1000001; 1000002; 1000003; 1000004]] in
  do tb4 <- build (mkArgs (mkFstr None AlD) (ts 2017 10 1 0 0 0) (ts 2017 10 10 0 0 0) (LPat (PList [1; 0;
          0])) [((ts 2017 10 7 12 0 0), 0)] (fun x => negb (x =? 0)) 0 false (-999999) WDuration conf_num) heap0;
  do tx5 <- tb_compact (fst tb4);
  do df6 <- tb_dataframe (fst tb4) 0 (tb_len (fst tb4) - 1);
  Ok [forallb (fun x => x) [(tokens_eqb tx5 [TText "Timeboard of '"; TFreq (mkFstr None AlD); TText "': ";
        TPeriod (fbase (to_freq (mkFstr None AlD))) (pord (fbase (to_freq (mkFstr None AlD))) (ts 2017 10 1 0 0 0));
        TText " -> ";
        TPeriod (fbase (to_freq (mkFstr None AlD))) (pord (fbase (to_freq (mkFstr None AlD))) (ts 2017 10 10 0 0
        0))]); row_at df6 0 (fun r b => shown NS_DAY (ts 2017 10 1 0 0 0) (row_ref r) &&
        ((ts 2017 10 1 0 0 0) =? row_start r) && (1 =? row_duration r) &&
        shown NS_DAY (ts 2017 10 1 0 0 0) (row_end r) && (1 =? row_label r) && has_flag b 0 true);
        row_at df6 1 (fun r b => shown NS_DAY (ts 2017 10 2 0 0 0) (row_ref r) &&
        ((ts 2017 10 2 0 0 0) =? row_start r) && (1 =? row_duration r) &&
        shown NS_DAY (ts 2017 10 2 0 0 0) (row_end r) && (0 =? row_label r) && has_flag b 0 false);
        row_at df6 2 (fun r b => shown NS_DAY (ts 2017 10 3 0 0 0) (row_ref r) &&
        ((ts 2017 10 3 0 0 0) =? row_start r) && (1 =? row_duration r) &&
        shown NS_DAY (ts 2017 10 3 0 0 0) (row_end r) && (0 =? row_label r) && has_flag b 0 false);
        row_at df6 3 (fun r b => shown NS_DAY (ts 2017 10 4 0 0 0) (row_ref r) &&
        ((ts 2017 10 4 0 0 0) =? row_start r) && (1 =? row_duration r) &&
        shown NS_DAY (ts 2017 10 4 0 0 0) (row_end r) && (1 =? row_label r) && has_flag b 0 true);
        row_at df6 4 (fun r b => shown NS_DAY (ts 2017 10 5 0 0 0) (row_ref r) &&
        ((ts 2017 10 5 0 0 0) =? row_start r) && (1 =? row_duration r) &&
        shown NS_DAY (ts 2017 10 5 0 0 0) (row_end r) && (0 =? row_label r) && has_flag b 0 false);
        row_at df6 5 (fun r b => shown NS_DAY (ts 2017 10 6 0 0 0) (row_ref r) &&
        ((ts 2017 10 6 0 0 0) =? row_start r) && (1 =? row_duration r) &&
        shown NS_DAY (ts 2017 10 6 0 0 0) (row_end r) && (0 =? row_label r) && has_flag b 0 false);
        row_at df6 6 (fun r b => shown NS_DAY (ts 2017 10 7 0 0 0) (row_ref r) &&
        ((ts 2017 10 7 0 0 0) =? row_start r) && (1 =? row_duration r) &&
        shown NS_DAY (ts 2017 10 7 0 0 0) (row_end r) && (0 =? row_label r) && has_flag b 0 false);
        row_at df6 7 (fun r b => shown NS_DAY (ts 2017 10 8 0 0 0) (row_ref r) &&
        ((ts 2017 10 8 0 0 0) =? row_start r) && (1 =? row_duration r) &&
        shown NS_DAY (ts 2017 10 8 0 0 0) (row_end r) && (0 =? row_label r) && has_flag b 0 false);
        row_at df6 8 (fun r b => shown NS_DAY (ts 2017 10 9 0 0 0) (row_ref r) &&
        ((ts 2017 10 9 0 0 0) =? row_start r) && (1 =? row_duration r) &&
        shown NS_DAY (ts 2017 10 9 0 0 0) (row_end r) && (0 =? row_label r) && has_flag b 0 false);
        row_at df6 9 (fun r b => shown NS_DAY (ts 2017 10 10 0 0 0) (row_ref r) &&
        ((ts 2017 10 10 0 0 0) =? row_start r) && (1 =? row_duration r) &&
        shown NS_DAY (ts 2017 10 10 0 0 0) (row_end r) && (1 =? row_label r) && has_flag b 0 true); (zlen df6 =? 10)]]) = true.
Proof. vm_compute. reflexivity. Qed.

(** doc/source/making_a_timeboard.rst:95, 927, 959 *)
Example making_a_timeboard_95 : passes (
  let heap0 : heap Z := [new_rpat [1; 1; 1; 0; 0]; new_rpat [1000001; 1000002; 1000003; 1000004]; new_rpat [1000001; 1000002; 1000003; 1000004]] in

  Ok [raises [EKey] (do tb7 <- build (mkArgs (mkFstr None AlD) (ts 2017 10 1 0 0 0) (ts 2017 10 10 0 0 0) (LPat (PList [1;
        0; 0])) [((ts 2017 10 7 12 0 0), 0);
        ((ts 2017 10 7 15 0 0), 1)] (fun x => negb (x =? 0)) 0 false (-999999) WDuration conf_num) heap0; Ok tt);
       raises [EUnacceptablePeriod] (do tb64 <- build (mkArgs (mkFstr None (AlW None)) (ts 2017 10 1 0 0 0) (ts 2017 12 31 0
        0 0) (LOrg (DMarker (mkMarker (mkFstr None AlM) [])) [(LPat (PList [1]))]) [] (fun x => negb (x =? 0)) 0
        false (-999999) WDuration conf_num) heap0; Ok tt);
       raises [EUnacceptablePeriod] (do tb67 <- build (mkArgs (mkFstr (Some 24%positive) AlH) (ts 2017 10 2 0 0 0) (ts 2017
        10 15 0 0 0) (LOrg (DMarker (mkMarker (mkFstr None (AlW None)) [])) [(LPat (PList [1]))]) [] (fun x => negb
        (x =? 0)) 0 false (-999999) WDuration conf_num) heap0; Ok tt)]) = true.
Proof. vm_compute. reflexivity. Qed.

(** doc/source/making_a_timeboard.rst:143, 175 *)
Example making_a_timeboard_143 : passes (
  let heap0 : heap Z := [new_rpat [1; 1; 1; 0; 0]; new_rpat [1000001; 1000002; 1000003; 1000004]; new_rpat [1000001; 1000002; 1000003; 1000004]] in
  do tb8 <- build (mkArgs (mkFstr (Some 8%positive) AlH) (ts 2017 10 1 2 0 0) (ts 2017 10 5 1 59 0) (LPat (PList
          [1000001; 1000002; 1000003;
          1000004])) [] (fun x => negb (x =? 0)) 0 false (-999999) WDuration conf_num) heap0;
  do tx9 <- tb_compact (fst tb8);
  do df10 <- tb_dataframe (fst tb8) 0 (tb_len (fst tb8) - 1);
  do r11 <- add_schedule (fst tb8) 1 (fun x => ((x =? 1000001)));
  do tx12 <- tb_compact (fst r11);
  do df13 <- tb_dataframe (fst r11) 0 (tb_len (fst r11) - 1);
  Ok [forallb (fun x => x) [(tokens_eqb tx9 [TText "Timeboard of '"; TFreq (mkFstr (Some 8%positive) AlH); TText "': ";
        TPeriod (fbase (to_freq (mkFstr (Some 8%positive) AlH))) (pord (fbase (to_freq (mkFstr (Some 8%positive)
        AlH))) (ts 2017 10 1 2 0 0)); TText " -> ";
        TPeriod (fbase (to_freq (mkFstr (Some 8%positive) AlH))) (pord (fbase (to_freq (mkFstr (Some 8%positive)
        AlH))) (ts 2017 10 4 18 0 0))]); row_at df10 0 (fun r b => shown NS_SEC (ts 2017 10 1 2 0 0) (row_ref r) &&
        shown NS_SEC (ts 2017 10 1 9 59 59) (row_end r) && (1000001 =? row_label r) && has_flag b 0 true);
        row_at df10 1 (fun r b => shown NS_SEC (ts 2017 10 1 10 0 0) (row_ref r) &&
        shown NS_SEC (ts 2017 10 1 17 59 59) (row_end r) && (1000002 =? row_label r) && has_flag b 0 true);
        row_at df10 2 (fun r b => shown NS_SEC (ts 2017 10 1 18 0 0) (row_ref r) &&
        shown NS_SEC (ts 2017 10 2 1 59 59) (row_end r) && (1000003 =? row_label r) && has_flag b 0 true);
        row_at df10 3 (fun r b => shown NS_SEC (ts 2017 10 2 2 0 0) (row_ref r) &&
        shown NS_SEC (ts 2017 10 2 9 59 59) (row_end r) && (1000004 =? row_label r) && has_flag b 0 true);
        row_at df10 4 (fun r b => shown NS_SEC (ts 2017 10 2 10 0 0) (row_ref r) &&
        shown NS_SEC (ts 2017 10 2 17 59 59) (row_end r) && (1000001 =? row_label r) && has_flag b 0 true);
        row_at df10 5 (fun r b => shown NS_SEC (ts 2017 10 2 18 0 0) (row_ref r) &&
        shown NS_SEC (ts 2017 10 3 1 59 59) (row_end r) && (1000002 =? row_label r) && has_flag b 0 true);
        row_at df10 6 (fun r b => shown NS_SEC (ts 2017 10 3 2 0 0) (row_ref r) &&
        shown NS_SEC (ts 2017 10 3 9 59 59) (row_end r) && (1000003 =? row_label r) && has_flag b 0 true);
        row_at df10 7 (fun r b => shown NS_SEC (ts 2017 10 3 10 0 0) (row_ref r) &&
        shown NS_SEC (ts 2017 10 3 17 59 59) (row_end r) && (1000004 =? row_label r) && has_flag b 0 true);
        row_at df10 8 (fun r b => shown NS_SEC (ts 2017 10 3 18 0 0) (row_ref r) &&
        shown NS_SEC (ts 2017 10 4 1 59 59) (row_end r) && (1000001 =? row_label r) && has_flag b 0 true);
        row_at df10 9 (fun r b => shown NS_SEC (ts 2017 10 4 2 0 0) (row_ref r) &&
        shown NS_SEC (ts 2017 10 4 9 59 59) (row_end r) && (1000002 =? row_label r) && has_flag b 0 true);
        row_at df10 10 (fun r b => shown NS_SEC (ts 2017 10 4 10 0 0) (row_ref r) &&
        shown NS_SEC (ts 2017 10 4 17 59 59) (row_end r) && (1000003 =? row_label r) && has_flag b 0 true);
        row_at df10 11 (fun r b => shown NS_SEC (ts 2017 10 4 18 0 0) (row_ref r) &&
        shown NS_SEC (ts 2017 10 5 1 59 59) (row_end r) && (1000004 =? row_label r) && has_flag b 0 true);
        (zlen df10 =? 12)];
       forallb (fun x => x) [(tokens_eqb tx12 [TText "Timeboard of '"; TFreq (mkFstr (Some 8%positive) AlH); TText "': ";
        TPeriod (fbase (to_freq (mkFstr (Some 8%positive) AlH))) (pord (fbase (to_freq (mkFstr (Some 8%positive)
        AlH))) (ts 2017 10 1 2 0 0)); TText " -> ";
        TPeriod (fbase (to_freq (mkFstr (Some 8%positive) AlH))) (pord (fbase (to_freq (mkFstr (Some 8%positive)
        AlH))) (ts 2017 10 4 18 0 0))]); row_at df13 0 (fun r b => shown NS_SEC (ts 2017 10 1 2 0 0) (row_ref r) &&
        shown NS_SEC (ts 2017 10 1 9 59 59) (row_end r) && (1000001 =? row_label r) && has_flag b 0 true &&
        has_flag b 1 true); row_at df13 1 (fun r b => shown NS_SEC (ts 2017 10 1 10 0 0) (row_ref r) &&
        shown NS_SEC (ts 2017 10 1 17 59 59) (row_end r) && (1000002 =? row_label r) && has_flag b 0 true &&
        has_flag b 1 false); row_at df13 2 (fun r b => shown NS_SEC (ts 2017 10 1 18 0 0) (row_ref r) &&
        shown NS_SEC (ts 2017 10 2 1 59 59) (row_end r) && (1000003 =? row_label r) && has_flag b 0 true &&
        has_flag b 1 false); row_at df13 3 (fun r b => shown NS_SEC (ts 2017 10 2 2 0 0) (row_ref r) &&
        shown NS_SEC (ts 2017 10 2 9 59 59) (row_end r) && (1000004 =? row_label r) && has_flag b 0 true &&
        has_flag b 1 false); row_at df13 4 (fun r b => shown NS_SEC (ts 2017 10 2 10 0 0) (row_ref r) &&
        shown NS_SEC (ts 2017 10 2 17 59 59) (row_end r) && (1000001 =? row_label r) && has_flag b 0 true &&
        has_flag b 1 true); row_at df13 5 (fun r b => shown NS_SEC (ts 2017 10 2 18 0 0) (row_ref r) &&
        shown NS_SEC (ts 2017 10 3 1 59 59) (row_end r) && (1000002 =? row_label r) && has_flag b 0 true &&
        has_flag b 1 false); row_at df13 6 (fun r b => shown NS_SEC (ts 2017 10 3 2 0 0) (row_ref r) &&
        shown NS_SEC (ts 2017 10 3 9 59 59) (row_end r) && (1000003 =? row_label r) && has_flag b 0 true &&
        has_flag b 1 false); row_at df13 7 (fun r b => shown NS_SEC (ts 2017 10 3 10 0 0) (row_ref r) &&
        shown NS_SEC (ts 2017 10 3 17 59 59) (row_end r) && (1000004 =? row_label r) && has_flag b 0 true &&
        has_flag b 1 false); row_at df13 8 (fun r b => shown NS_SEC (ts 2017 10 3 18 0 0) (row_ref r) &&
        shown NS_SEC (ts 2017 10 4 1 59 59) (row_end r) && (1000001 =? row_label r) && has_flag b 0 true &&
        has_flag b 1 true); row_at df13 9 (fun r b => shown NS_SEC (ts 2017 10 4 2 0 0) (row_ref r) &&
        shown NS_SEC (ts 2017 10 4 9 59 59) (row_end r) && (1000002 =? row_label r) && has_flag b 0 true &&
        has_flag b 1 false); row_at df13 10 (fun r b => shown NS_SEC (ts 2017 10 4 10 0 0) (row_ref r) &&
        shown NS_SEC (ts 2017 10 4 17 59 59) (row_end r) && (1000003 =? row_label r) && has_flag b 0 true &&
        has_flag b 1 false); row_at df13 11 (fun r b => shown NS_SEC (ts 2017 10 4 18 0 0) (row_ref r) &&
        shown NS_SEC (ts 2017 10 5 1 59 59) (row_end r) && (1000004 =? row_label r) && has_flag b 0 true &&
        has_flag b 1 false); (zlen df13 =? 12)]]) = true.
Proof. vm_compute. reflexivity. Qed.

(** doc/source/making_a_timeboard.rst:292 *)
Example making_a_timeboard_292 : passes (
  let heap0 : heap Z := [new_rpat [1; 1; 1; 0; 0]; new_rpat [1000001; 1000002; 1000003; 1000004]; new_rpat [1000001; 1000002; 1000003; 1000004]] in
  do tb15 <- build (mkArgs (mkFstr None AlD) (ts 2017 10 1 0 0 0) (ts 2017 10 12 0 0 0) (LOrg (DMarker (mkMarker
          (mkFstr None (AlW None)) [])) [(LPat (PList [1; 1; 1; 1; 1; 0;
          0]))]) [] (fun x => negb (x =? 0)) 0 false (-999999) WDuration conf_num) heap0;
  do tx16 <- tb_compact (fst tb15);
  do df17 <- tb_dataframe (fst tb15) 0 (tb_len (fst tb15) - 1);
  Ok [forallb (fun x => x) [(tokens_eqb tx16 [TText "Timeboard of '"; TFreq (mkFstr None AlD); TText "': ";
        TPeriod (fbase (to_freq (mkFstr None AlD))) (pord (fbase (to_freq (mkFstr None AlD))) (ts 2017 10 1 0 0 0));
        TText " -> ";
        TPeriod (fbase (to_freq (mkFstr None AlD))) (pord (fbase (to_freq (mkFstr None AlD))) (ts 2017 10 12 0 0
        0))]); row_at df17 0 (fun r b => shown NS_DAY (ts 2017 10 1 0 0 0) (row_ref r) &&
        ((ts 2017 10 1 0 0 0) =? row_start r) && (1 =? row_duration r) &&
        shown NS_DAY (ts 2017 10 1 0 0 0) (row_end r) && (0 =? row_label r) && has_flag b 0 false);
        row_at df17 1 (fun r b => shown NS_DAY (ts 2017 10 2 0 0 0) (row_ref r) &&
        ((ts 2017 10 2 0 0 0) =? row_start r) && (1 =? row_duration r) &&
        shown NS_DAY (ts 2017 10 2 0 0 0) (row_end r) && (1 =? row_label r) && has_flag b 0 true);
        row_at df17 2 (fun r b => shown NS_DAY (ts 2017 10 3 0 0 0) (row_ref r) &&
        ((ts 2017 10 3 0 0 0) =? row_start r) && (1 =? row_duration r) &&
        shown NS_DAY (ts 2017 10 3 0 0 0) (row_end r) && (1 =? row_label r) && has_flag b 0 true);
        row_at df17 3 (fun r b => shown NS_DAY (ts 2017 10 4 0 0 0) (row_ref r) &&
        ((ts 2017 10 4 0 0 0) =? row_start r) && (1 =? row_duration r) &&
        shown NS_DAY (ts 2017 10 4 0 0 0) (row_end r) && (1 =? row_label r) && has_flag b 0 true);
        row_at df17 4 (fun r b => shown NS_DAY (ts 2017 10 5 0 0 0) (row_ref r) &&
        ((ts 2017 10 5 0 0 0) =? row_start r) && (1 =? row_duration r) &&
        shown NS_DAY (ts 2017 10 5 0 0 0) (row_end r) && (1 =? row_label r) && has_flag b 0 true);
        row_at df17 5 (fun r b => shown NS_DAY (ts 2017 10 6 0 0 0) (row_ref r) &&
        ((ts 2017 10 6 0 0 0) =? row_start r) && (1 =? row_duration r) &&
        shown NS_DAY (ts 2017 10 6 0 0 0) (row_end r) && (1 =? row_label r) && has_flag b 0 true);
        row_at df17 6 (fun r b => shown NS_DAY (ts 2017 10 7 0 0 0) (row_ref r) &&
        ((ts 2017 10 7 0 0 0) =? row_start r) && (1 =? row_duration r) &&
        shown NS_DAY (ts 2017 10 7 0 0 0) (row_end r) && (0 =? row_label r) && has_flag b 0 false);
        row_at df17 7 (fun r b => shown NS_DAY (ts 2017 10 8 0 0 0) (row_ref r) &&
        ((ts 2017 10 8 0 0 0) =? row_start r) && (1 =? row_duration r) &&
        shown NS_DAY (ts 2017 10 8 0 0 0) (row_end r) && (0 =? row_label r) && has_flag b 0 false);
        row_at df17 8 (fun r b => shown NS_DAY (ts 2017 10 9 0 0 0) (row_ref r) &&
        ((ts 2017 10 9 0 0 0) =? row_start r) && (1 =? row_duration r) &&
        shown NS_DAY (ts 2017 10 9 0 0 0) (row_end r) && (1 =? row_label r) && has_flag b 0 true);
        row_at df17 9 (fun r b => shown NS_DAY (ts 2017 10 10 0 0 0) (row_ref r) &&
        ((ts 2017 10 10 0 0 0) =? row_start r) && (1 =? row_duration r) &&
        shown NS_DAY (ts 2017 10 10 0 0 0) (row_end r) && (1 =? row_label r) && has_flag b 0 true);
        row_at df17 10 (fun r b => shown NS_DAY (ts 2017 10 11 0 0 0) (row_ref r) &&
        ((ts 2017 10 11 0 0 0) =? row_start r) && (1 =? row_duration r) &&
        shown NS_DAY (ts 2017 10 11 0 0 0) (row_end r) && (1 =? row_label r) && has_flag b 0 true);
        row_at df17 11 (fun r b => shown NS_DAY (ts 2017 10 12 0 0 0) (row_ref r) &&
        ((ts 2017 10 12 0 0 0) =? row_start r) && (1 =? row_duration r) &&
        shown NS_DAY (ts 2017 10 12 0 0 0) (row_end r) && (1 =? row_label r) && has_flag b 0 true); (zlen df17 =? 12)]]) = true.
Proof. vm_compute. reflexivity. Qed.

(** doc/source/making_a_timeboard.rst:321 *)
Example making_a_timeboard_321 : passes (
  let heap0 : heap Z := [new_rpat [1; 1; 1; 0; 0]; new_rpat [1000001; 1000002; 1000003; 1000004]; new_rpat [1000001; 1000002; 1000003; 1000004]] in
  do tb18 <- build (mkArgs (mkFstr None AlD) (ts 2017 10 1 0 0 0) (ts 2017 10 22 0 0 0) (LOrg (DMarker (mkMarker
          (mkFstr None (AlW None)) [])) [(LPat (PList [1; 1; 0; 0; 0; 1; 1])); (LPat (PList [0; 0; 1; 1; 1; 0;
          0]))]) [] (fun x => negb (x =? 0)) 0 false (-999999) WDuration conf_num) heap0;
  do tx19 <- tb_compact (fst tb18);
  do df20 <- tb_dataframe (fst tb18) 0 (tb_len (fst tb18) - 1);
  Ok [forallb (fun x => x) [(tokens_eqb tx19 [TText "Timeboard of '"; TFreq (mkFstr None AlD); TText "': ";
        TPeriod (fbase (to_freq (mkFstr None AlD))) (pord (fbase (to_freq (mkFstr None AlD))) (ts 2017 10 1 0 0 0));
        TText " -> ";
        TPeriod (fbase (to_freq (mkFstr None AlD))) (pord (fbase (to_freq (mkFstr None AlD))) (ts 2017 10 22 0 0
        0))]); row_at df20 0 (fun r b => shown NS_DAY (ts 2017 10 1 0 0 0) (row_ref r) &&
        ((ts 2017 10 1 0 0 0) =? row_start r) && (1 =? row_duration r) &&
        shown NS_DAY (ts 2017 10 1 0 0 0) (row_end r) && (1 =? row_label r) && has_flag b 0 true);
        row_at df20 1 (fun r b => shown NS_DAY (ts 2017 10 2 0 0 0) (row_ref r) &&
        ((ts 2017 10 2 0 0 0) =? row_start r) && (1 =? row_duration r) &&
        shown NS_DAY (ts 2017 10 2 0 0 0) (row_end r) && (0 =? row_label r) && has_flag b 0 false);
        row_at df20 2 (fun r b => shown NS_DAY (ts 2017 10 3 0 0 0) (row_ref r) &&
        ((ts 2017 10 3 0 0 0) =? row_start r) && (1 =? row_duration r) &&
        shown NS_DAY (ts 2017 10 3 0 0 0) (row_end r) && (0 =? row_label r) && has_flag b 0 false);
        row_at df20 3 (fun r b => shown NS_DAY (ts 2017 10 4 0 0 0) (row_ref r) &&
        ((ts 2017 10 4 0 0 0) =? row_start r) && (1 =? row_duration r) &&
        shown NS_DAY (ts 2017 10 4 0 0 0) (row_end r) && (1 =? row_label r) && has_flag b 0 true);
        row_at df20 4 (fun r b => shown NS_DAY (ts 2017 10 5 0 0 0) (row_ref r) &&
        ((ts 2017 10 5 0 0 0) =? row_start r) && (1 =? row_duration r) &&
        shown NS_DAY (ts 2017 10 5 0 0 0) (row_end r) && (1 =? row_label r) && has_flag b 0 true);
        row_at df20 5 (fun r b => shown NS_DAY (ts 2017 10 6 0 0 0) (row_ref r) &&
        ((ts 2017 10 6 0 0 0) =? row_start r) && (1 =? row_duration r) &&
        shown NS_DAY (ts 2017 10 6 0 0 0) (row_end r) && (1 =? row_label r) && has_flag b 0 true);
        row_at df20 6 (fun r b => shown NS_DAY (ts 2017 10 7 0 0 0) (row_ref r) &&
        ((ts 2017 10 7 0 0 0) =? row_start r) && (1 =? row_duration r) &&
        shown NS_DAY (ts 2017 10 7 0 0 0) (row_end r) && (0 =? row_label r) && has_flag b 0 false);
        row_at df20 7 (fun r b => shown NS_DAY (ts 2017 10 8 0 0 0) (row_ref r) &&
        ((ts 2017 10 8 0 0 0) =? row_start r) && (1 =? row_duration r) &&
        shown NS_DAY (ts 2017 10 8 0 0 0) (row_end r) && (0 =? row_label r) && has_flag b 0 false);
        row_at df20 8 (fun r b => shown NS_DAY (ts 2017 10 9 0 0 0) (row_ref r) &&
        ((ts 2017 10 9 0 0 0) =? row_start r) && (1 =? row_duration r) &&
        shown NS_DAY (ts 2017 10 9 0 0 0) (row_end r) && (1 =? row_label r) && has_flag b 0 true);
        row_at df20 9 (fun r b => shown NS_DAY (ts 2017 10 10 0 0 0) (row_ref r) &&
        ((ts 2017 10 10 0 0 0) =? row_start r) && (1 =? row_duration r) &&
        shown NS_DAY (ts 2017 10 10 0 0 0) (row_end r) && (1 =? row_label r) && has_flag b 0 true);
        row_at df20 10 (fun r b => shown NS_DAY (ts 2017 10 11 0 0 0) (row_ref r) &&
        ((ts 2017 10 11 0 0 0) =? row_start r) && (1 =? row_duration r) &&
        shown NS_DAY (ts 2017 10 11 0 0 0) (row_end r) && (0 =? row_label r) && has_flag b 0 false);
        row_at df20 11 (fun r b => shown NS_DAY (ts 2017 10 12 0 0 0) (row_ref r) &&
        ((ts 2017 10 12 0 0 0) =? row_start r) && (1 =? row_duration r) &&
        shown NS_DAY (ts 2017 10 12 0 0 0) (row_end r) && (0 =? row_label r) && has_flag b 0 false);
        row_at df20 12 (fun r b => shown NS_DAY (ts 2017 10 13 0 0 0) (row_ref r) &&
        ((ts 2017 10 13 0 0 0) =? row_start r) && (1 =? row_duration r) &&
        shown NS_DAY (ts 2017 10 13 0 0 0) (row_end r) && (0 =? row_label r) && has_flag b 0 false);
        row_at df20 13 (fun r b => shown NS_DAY (ts 2017 10 14 0 0 0) (row_ref r) &&
        ((ts 2017 10 14 0 0 0) =? row_start r) && (1 =? row_duration r) &&
        shown NS_DAY (ts 2017 10 14 0 0 0) (row_end r) && (1 =? row_label r) && has_flag b 0 true);
        row_at df20 14 (fun r b => shown NS_DAY (ts 2017 10 15 0 0 0) (row_ref r) &&
        ((ts 2017 10 15 0 0 0) =? row_start r) && (1 =? row_duration r) &&
        shown NS_DAY (ts 2017 10 15 0 0 0) (row_end r) && (1 =? row_label r) && has_flag b 0 true);
        row_at df20 15 (fun r b => shown NS_DAY (ts 2017 10 16 0 0 0) (row_ref r) &&
        ((ts 2017 10 16 0 0 0) =? row_start r) && (1 =? row_duration r) &&
        shown NS_DAY (ts 2017 10 16 0 0 0) (row_end r) && (0 =? row_label r) && has_flag b 0 false);
        row_at df20 16 (fun r b => shown NS_DAY (ts 2017 10 17 0 0 0) (row_ref r) &&
        ((ts 2017 10 17 0 0 0) =? row_start r) && (1 =? row_duration r) &&
        shown NS_DAY (ts 2017 10 17 0 0 0) (row_end r) && (0 =? row_label r) && has_flag b 0 false);
        row_at df20 17 (fun r b => shown NS_DAY (ts 2017 10 18 0 0 0) (row_ref r) &&
        ((ts 2017 10 18 0 0 0) =? row_start r) && (1 =? row_duration r) &&
        shown NS_DAY (ts 2017 10 18 0 0 0) (row_end r) && (1 =? row_label r) && has_flag b 0 true);
        row_at df20 18 (fun r b => shown NS_DAY (ts 2017 10 19 0 0 0) (row_ref r) &&
        ((ts 2017 10 19 0 0 0) =? row_start r) && (1 =? row_duration r) &&
        shown NS_DAY (ts 2017 10 19 0 0 0) (row_end r) && (1 =? row_label r) && has_flag b 0 true);
        row_at df20 19 (fun r b => shown NS_DAY (ts 2017 10 20 0 0 0) (row_ref r) &&
        ((ts 2017 10 20 0 0 0) =? row_start r) && (1 =? row_duration r) &&
        shown NS_DAY (ts 2017 10 20 0 0 0) (row_end r) && (1 =? row_label r) && has_flag b 0 true);
        row_at df20 20 (fun r b => shown NS_DAY (ts 2017 10 21 0 0 0) (row_ref r) &&
        ((ts 2017 10 21 0 0 0) =? row_start r) && (1 =? row_duration r) &&
        shown NS_DAY (ts 2017 10 21 0 0 0) (row_end r) && (0 =? row_label r) && has_flag b 0 false);
        row_at df20 21 (fun r b => shown NS_DAY (ts 2017 10 22 0 0 0) (row_ref r) &&
        ((ts 2017 10 22 0 0 0) =? row_start r) && (1 =? row_duration r) &&
        shown NS_DAY (ts 2017 10 22 0 0 0) (row_end r) && (0 =? row_label r) && has_flag b 0 false); (zlen df20 =? 22)]]) = true.
Proof. vm_compute. reflexivity. Qed.

(** doc/source/making_a_timeboard.rst:363 *)
Example making_a_timeboard_363 : passes (
  let heap0 : heap Z := [new_rpat [1; 1; 1; 0; 0]; new_rpat [1000001; 1000002; 1000003; 1000004]; new_rpat [1000001; 1000002; 1000003; 1000004]] in
  do tb21 <- build (mkArgs (mkFstr None AlD) (ts 2017 10 1 0 0 0) (ts 2017 10 12 0 0 0) (LOrg (DMarker (mkMarker
          (mkFstr None (AlW None)) [])) [(LPat (PList [1;
          0]))]) [] (fun x => negb (x =? 0)) 0 false (-999999) WDuration conf_num) heap0;
  do tx22 <- tb_compact (fst tb21);
  do df23 <- tb_dataframe (fst tb21) 0 (tb_len (fst tb21) - 1);
  Ok [forallb (fun x => x) [(tokens_eqb tx22 [TText "Timeboard of '"; TFreq (mkFstr None AlD); TText "': ";
        TPeriod (fbase (to_freq (mkFstr None AlD))) (pord (fbase (to_freq (mkFstr None AlD))) (ts 2017 10 1 0 0 0));
        TText " -> ";
        TPeriod (fbase (to_freq (mkFstr None AlD))) (pord (fbase (to_freq (mkFstr None AlD))) (ts 2017 10 12 0 0
        0))]); row_at df23 0 (fun r b => shown NS_DAY (ts 2017 10 1 0 0 0) (row_ref r) &&
        ((ts 2017 10 1 0 0 0) =? row_start r) && (1 =? row_duration r) &&
        shown NS_DAY (ts 2017 10 1 0 0 0) (row_end r) && (1 =? row_label r) && has_flag b 0 true);
        row_at df23 1 (fun r b => shown NS_DAY (ts 2017 10 2 0 0 0) (row_ref r) &&
        ((ts 2017 10 2 0 0 0) =? row_start r) && (1 =? row_duration r) &&
        shown NS_DAY (ts 2017 10 2 0 0 0) (row_end r) && (1 =? row_label r) && has_flag b 0 true);
        row_at df23 2 (fun r b => shown NS_DAY (ts 2017 10 3 0 0 0) (row_ref r) &&
        ((ts 2017 10 3 0 0 0) =? row_start r) && (1 =? row_duration r) &&
        shown NS_DAY (ts 2017 10 3 0 0 0) (row_end r) && (0 =? row_label r) && has_flag b 0 false);
        row_at df23 3 (fun r b => shown NS_DAY (ts 2017 10 4 0 0 0) (row_ref r) &&
        ((ts 2017 10 4 0 0 0) =? row_start r) && (1 =? row_duration r) &&
        shown NS_DAY (ts 2017 10 4 0 0 0) (row_end r) && (1 =? row_label r) && has_flag b 0 true);
        row_at df23 4 (fun r b => shown NS_DAY (ts 2017 10 5 0 0 0) (row_ref r) &&
        ((ts 2017 10 5 0 0 0) =? row_start r) && (1 =? row_duration r) &&
        shown NS_DAY (ts 2017 10 5 0 0 0) (row_end r) && (0 =? row_label r) && has_flag b 0 false);
        row_at df23 5 (fun r b => shown NS_DAY (ts 2017 10 6 0 0 0) (row_ref r) &&
        ((ts 2017 10 6 0 0 0) =? row_start r) && (1 =? row_duration r) &&
        shown NS_DAY (ts 2017 10 6 0 0 0) (row_end r) && (1 =? row_label r) && has_flag b 0 true);
        row_at df23 6 (fun r b => shown NS_DAY (ts 2017 10 7 0 0 0) (row_ref r) &&
        ((ts 2017 10 7 0 0 0) =? row_start r) && (1 =? row_duration r) &&
        shown NS_DAY (ts 2017 10 7 0 0 0) (row_end r) && (0 =? row_label r) && has_flag b 0 false);
        row_at df23 7 (fun r b => shown NS_DAY (ts 2017 10 8 0 0 0) (row_ref r) &&
        ((ts 2017 10 8 0 0 0) =? row_start r) && (1 =? row_duration r) &&
        shown NS_DAY (ts 2017 10 8 0 0 0) (row_end r) && (1 =? row_label r) && has_flag b 0 true);
        row_at df23 8 (fun r b => shown NS_DAY (ts 2017 10 9 0 0 0) (row_ref r) &&
        ((ts 2017 10 9 0 0 0) =? row_start r) && (1 =? row_duration r) &&
        shown NS_DAY (ts 2017 10 9 0 0 0) (row_end r) && (1 =? row_label r) && has_flag b 0 true);
        row_at df23 9 (fun r b => shown NS_DAY (ts 2017 10 10 0 0 0) (row_ref r) &&
        ((ts 2017 10 10 0 0 0) =? row_start r) && (1 =? row_duration r) &&
        shown NS_DAY (ts 2017 10 10 0 0 0) (row_end r) && (0 =? row_label r) && has_flag b 0 false);
        row_at df23 10 (fun r b => shown NS_DAY (ts 2017 10 11 0 0 0) (row_ref r) &&
        ((ts 2017 10 11 0 0 0) =? row_start r) && (1 =? row_duration r) &&
        shown NS_DAY (ts 2017 10 11 0 0 0) (row_end r) && (1 =? row_label r) && has_flag b 0 true);
        row_at df23 11 (fun r b => shown NS_DAY (ts 2017 10 12 0 0 0) (row_ref r) &&
        ((ts 2017 10 12 0 0 0) =? row_start r) && (1 =? row_duration r) &&
        shown NS_DAY (ts 2017 10 12 0 0 0) (row_end r) && (0 =? row_label r) && has_flag b 0 false); (zlen df23 =? 12)]]) = true.
Proof. vm_compute. reflexivity. Qed.

(** doc/source/making_a_timeboard.rst:403 *)
Example making_a_timeboard_403 : passes (
  let heap0 : heap Z := [new_rpat [1; 1; 1; 0; 0]; new_rpat [1000001; 1000002; 1000003; 1000004]; new_rpat [1000001; 1000002; 1000003; 1000004]] in
  do tb24 <- build (mkArgs (mkFstr None AlD) (ts 2015 11 1 0 0 0) (ts 2017 10 31 0 0 0) (LOrg (DMarker (mkMarker
          (mkFstr (Some 6%positive) AlM) [])) [(LOrg (DMarker (mkMarker (mkFstr None (AlW None)) [])) [(LPat (PList
          [0; 0; 1; 1; 0; 0; 0]))]); (LOrg (DMarker (mkMarker (mkFstr None (AlW None)) [])) [(LPat (PList [0; 1; 1;
          1; 1; 1; 1]))])]) [] (fun x => negb (x =? 0)) 0 false (-999999) WDuration conf_num) heap0;
  do tx25 <- tb_compact (fst tb24);
  do df26 <- tb_dataframe (fst tb24) 0 (tb_len (fst tb24) - 1);
  Ok [forallb (fun x => x) [(tokens_eqb tx25 [TText "Timeboard of '"; TFreq (mkFstr None AlD); TText "': ";
        TPeriod (fbase (to_freq (mkFstr None AlD))) (pord (fbase (to_freq (mkFstr None AlD))) (ts 2015 11 1 0 0 0));
        TText " -> ";
        TPeriod (fbase (to_freq (mkFstr None AlD))) (pord (fbase (to_freq (mkFstr None AlD))) (ts 2017 10 31 0 0
        0))]); row_at df26 0 (fun r b => shown NS_DAY (ts 2015 11 1 0 0 0) (row_ref r) &&
        ((ts 2015 11 1 0 0 0) =? row_start r) && (1 =? row_duration r) &&
        shown NS_DAY (ts 2015 11 1 0 0 0) (row_end r) && (0 =? row_label r) && has_flag b 0 false);
        row_at df26 1 (fun r b => shown NS_DAY (ts 2015 11 2 0 0 0) (row_ref r) &&
        ((ts 2015 11 2 0 0 0) =? row_start r) && (1 =? row_duration r) &&
        shown NS_DAY (ts 2015 11 2 0 0 0) (row_end r) && (0 =? row_label r) && has_flag b 0 false);
        row_at df26 2 (fun r b => shown NS_DAY (ts 2015 11 3 0 0 0) (row_ref r) &&
        ((ts 2015 11 3 0 0 0) =? row_start r) && (1 =? row_duration r) &&
        shown NS_DAY (ts 2015 11 3 0 0 0) (row_end r) && (0 =? row_label r) && has_flag b 0 false);
        row_at df26 3 (fun r b => shown NS_DAY (ts 2015 11 4 0 0 0) (row_ref r) &&
        ((ts 2015 11 4 0 0 0) =? row_start r) && (1 =? row_duration r) &&
        shown NS_DAY (ts 2015 11 4 0 0 0) (row_end r) && (1 =? row_label r) && has_flag b 0 true);
        row_at df26 4 (fun r b => shown NS_DAY (ts 2015 11 5 0 0 0) (row_ref r) &&
        ((ts 2015 11 5 0 0 0) =? row_start r) && (1 =? row_duration r) &&
        shown NS_DAY (ts 2015 11 5 0 0 0) (row_end r) && (1 =? row_label r) && has_flag b 0 true);
        row_at df26 5 (fun r b => shown NS_DAY (ts 2015 11 6 0 0 0) (row_ref r) &&
        ((ts 2015 11 6 0 0 0) =? row_start r) && (1 =? row_duration r) &&
        shown NS_DAY (ts 2015 11 6 0 0 0) (row_end r) && (0 =? row_label r) && has_flag b 0 false);
        row_at df26 6 (fun r b => shown NS_DAY (ts 2015 11 7 0 0 0) (row_ref r) &&
        ((ts 2015 11 7 0 0 0) =? row_start r) && (1 =? row_duration r) &&
        shown NS_DAY (ts 2015 11 7 0 0 0) (row_end r) && (0 =? row_label r) && has_flag b 0 false);
        row_at df26 7 (fun r b => shown NS_DAY (ts 2015 11 8 0 0 0) (row_ref r) &&
        ((ts 2015 11 8 0 0 0) =? row_start r) && (1 =? row_duration r) &&
        shown NS_DAY (ts 2015 11 8 0 0 0) (row_end r) && (0 =? row_label r) && has_flag b 0 false);
        row_at df26 8 (fun r b => shown NS_DAY (ts 2015 11 9 0 0 0) (row_ref r) &&
        ((ts 2015 11 9 0 0 0) =? row_start r) && (1 =? row_duration r) &&
        shown NS_DAY (ts 2015 11 9 0 0 0) (row_end r) && (0 =? row_label r) && has_flag b 0 false);
        row_at df26 9 (fun r b => shown NS_DAY (ts 2015 11 10 0 0 0) (row_ref r) &&
        ((ts 2015 11 10 0 0 0) =? row_start r) && (1 =? row_duration r) &&
        shown NS_DAY (ts 2015 11 10 0 0 0) (row_end r) && (0 =? row_label r) && has_flag b 0 false);
        row_at df26 10 (fun r b => shown NS_DAY (ts 2015 11 11 0 0 0) (row_ref r) &&
        ((ts 2015 11 11 0 0 0) =? row_start r) && (1 =? row_duration r) &&
        shown NS_DAY (ts 2015 11 11 0 0 0) (row_end r) && (1 =? row_label r) && has_flag b 0 true);
        row_at df26 11 (fun r b => shown NS_DAY (ts 2015 11 12 0 0 0) (row_ref r) &&
        ((ts 2015 11 12 0 0 0) =? row_start r) && (1 =? row_duration r) &&
        shown NS_DAY (ts 2015 11 12 0 0 0) (row_end r) && (1 =? row_label r) && has_flag b 0 true);
        row_at df26 12 (fun r b => shown NS_DAY (ts 2015 11 13 0 0 0) (row_ref r) &&
        ((ts 2015 11 13 0 0 0) =? row_start r) && (1 =? row_duration r) &&
        shown NS_DAY (ts 2015 11 13 0 0 0) (row_end r) && (0 =? row_label r) && has_flag b 0 false);
        row_at df26 13 (fun r b => shown NS_DAY (ts 2015 11 14 0 0 0) (row_ref r) &&
        ((ts 2015 11 14 0 0 0) =? row_start r) && (1 =? row_duration r) &&
        shown NS_DAY (ts 2015 11 14 0 0 0) (row_end r) && (0 =? row_label r) && has_flag b 0 false);
        row_at df26 14 (fun r b => shown NS_DAY (ts 2015 11 15 0 0 0) (row_ref r) &&
        ((ts 2015 11 15 0 0 0) =? row_start r) && (1 =? row_duration r) &&
        shown NS_DAY (ts 2015 11 15 0 0 0) (row_end r) && (0 =? row_label r) && has_flag b 0 false);
        row_at df26 715 (fun r b => shown NS_DAY (ts 2017 10 16 0 0 0) (row_ref r) &&
        ((ts 2017 10 16 0 0 0) =? row_start r) && (1 =? row_duration r) &&
        shown NS_DAY (ts 2017 10 16 0 0 0) (row_end r) && (0 =? row_label r) && has_flag b 0 false);
        row_at df26 716 (fun r b => shown NS_DAY (ts 2017 10 17 0 0 0) (row_ref r) &&
        ((ts 2017 10 17 0 0 0) =? row_start r) && (1 =? row_duration r) &&
        shown NS_DAY (ts 2017 10 17 0 0 0) (row_end r) && (1 =? row_label r) && has_flag b 0 true);
        row_at df26 717 (fun r b => shown NS_DAY (ts 2017 10 18 0 0 0) (row_ref r) &&
        ((ts 2017 10 18 0 0 0) =? row_start r) && (1 =? row_duration r) &&
        shown NS_DAY (ts 2017 10 18 0 0 0) (row_end r) && (1 =? row_label r) && has_flag b 0 true);
        row_at df26 718 (fun r b => shown NS_DAY (ts 2017 10 19 0 0 0) (row_ref r) &&
        ((ts 2017 10 19 0 0 0) =? row_start r) && (1 =? row_duration r) &&
        shown NS_DAY (ts 2017 10 19 0 0 0) (row_end r) && (1 =? row_label r) && has_flag b 0 true);
        row_at df26 719 (fun r b => shown NS_DAY (ts 2017 10 20 0 0 0) (row_ref r) &&
        ((ts 2017 10 20 0 0 0) =? row_start r) && (1 =? row_duration r) &&
        shown NS_DAY (ts 2017 10 20 0 0 0) (row_end r) && (1 =? row_label r) && has_flag b 0 true);
        row_at df26 720 (fun r b => shown NS_DAY (ts 2017 10 21 0 0 0) (row_ref r) &&
        ((ts 2017 10 21 0 0 0) =? row_start r) && (1 =? row_duration r) &&
        shown NS_DAY (ts 2017 10 21 0 0 0) (row_end r) && (1 =? row_label r) && has_flag b 0 true);
        row_at df26 721 (fun r b => shown NS_DAY (ts 2017 10 22 0 0 0) (row_ref r) &&
        ((ts 2017 10 22 0 0 0) =? row_start r) && (1 =? row_duration r) &&
        shown NS_DAY (ts 2017 10 22 0 0 0) (row_end r) && (1 =? row_label r) && has_flag b 0 true);
        row_at df26 722 (fun r b => shown NS_DAY (ts 2017 10 23 0 0 0) (row_ref r) &&
        ((ts 2017 10 23 0 0 0) =? row_start r) && (1 =? row_duration r) &&
        shown NS_DAY (ts 2017 10 23 0 0 0) (row_end r) && (0 =? row_label r) && has_flag b 0 false);
        row_at df26 723 (fun r b => shown NS_DAY (ts 2017 10 24 0 0 0) (row_ref r) &&
        ((ts 2017 10 24 0 0 0) =? row_start r) && (1 =? row_duration r) &&
        shown NS_DAY (ts 2017 10 24 0 0 0) (row_end r) && (1 =? row_label r) && has_flag b 0 true);
        row_at df26 724 (fun r b => shown NS_DAY (ts 2017 10 25 0 0 0) (row_ref r) &&
        ((ts 2017 10 25 0 0 0) =? row_start r) && (1 =? row_duration r) &&
        shown NS_DAY (ts 2017 10 25 0 0 0) (row_end r) && (1 =? row_label r) && has_flag b 0 true);
        row_at df26 725 (fun r b => shown NS_DAY (ts 2017 10 26 0 0 0) (row_ref r) &&
        ((ts 2017 10 26 0 0 0) =? row_start r) && (1 =? row_duration r) &&
        shown NS_DAY (ts 2017 10 26 0 0 0) (row_end r) && (1 =? row_label r) && has_flag b 0 true);
        row_at df26 726 (fun r b => shown NS_DAY (ts 2017 10 27 0 0 0) (row_ref r) &&
        ((ts 2017 10 27 0 0 0) =? row_start r) && (1 =? row_duration r) &&
        shown NS_DAY (ts 2017 10 27 0 0 0) (row_end r) && (1 =? row_label r) && has_flag b 0 true);
        row_at df26 727 (fun r b => shown NS_DAY (ts 2017 10 28 0 0 0) (row_ref r) &&
        ((ts 2017 10 28 0 0 0) =? row_start r) && (1 =? row_duration r) &&
        shown NS_DAY (ts 2017 10 28 0 0 0) (row_end r) && (1 =? row_label r) && has_flag b 0 true);
        row_at df26 728 (fun r b => shown NS_DAY (ts 2017 10 29 0 0 0) (row_ref r) &&
        ((ts 2017 10 29 0 0 0) =? row_start r) && (1 =? row_duration r) &&
        shown NS_DAY (ts 2017 10 29 0 0 0) (row_end r) && (1 =? row_label r) && has_flag b 0 true);
        row_at df26 729 (fun r b => shown NS_DAY (ts 2017 10 30 0 0 0) (row_ref r) &&
        ((ts 2017 10 30 0 0 0) =? row_start r) && (1 =? row_duration r) &&
        shown NS_DAY (ts 2017 10 30 0 0 0) (row_end r) && (0 =? row_label r) && has_flag b 0 false);
        row_at df26 730 (fun r b => shown NS_DAY (ts 2017 10 31 0 0 0) (row_ref r) &&
        ((ts 2017 10 31 0 0 0) =? row_start r) && (1 =? row_duration r) &&
        shown NS_DAY (ts 2017 10 31 0 0 0) (row_end r) && (1 =? row_label r) && has_flag b 0 true); (zlen df26 =? 731)]]) = true.
Proof. vm_compute. reflexivity. Qed.

(** doc/source/making_a_timeboard.rst:495, 522 *)
Example making_a_timeboard_495 : passes (
  let heap0 : heap Z := [new_rpat [1; 1; 1; 0; 0]; new_rpat [1000001; 1000002; 1000003; 1000004]; new_rpat [1000001; 1000002; 1000003; 1000004]] in
  do tb27 <- build (mkArgs (mkFstr None AlD) (ts 2015 1 1 0 0 0) (ts 2017 12 31 0 0 0) (LOrg (DMarker (mkMarker
          (mkFstr None (AlA None)) [from_start_of_each (DKw 0 4 0 0 0 0 0);
          from_start_of_each (DKw 0 8 0 15 0 0 0)])) [(LOrg (DMarker (mkMarker (mkFstr None (AlW None)) [])) [(LPat
          (PList [0; 0; 1; 1; 0; 0; 0]))]); (LOrg (DMarker (mkMarker (mkFstr None (AlW None)) [])) [(LPat (PList [0;
          1; 1; 1; 1; 1; 1]))])]) [] (fun x => negb (x =? 0)) 0 false (-999999) WDuration conf_num) heap0;
  do iv28 <- get_interval (fst tb27) (RPair (Some (ts 2017 4 20 0 0 0)) (Some (ts 2017 5 10 0 0 0))) None None true
          C11 None;
  do tx29 <- iv_repr (fst tb27) iv28;
  do df30 <- iv_dataframe (fst tb27) iv28;
  do iv31 <- get_interval (fst tb27) (RPair (Some (ts 2017 9 4 0 0 0)) (Some (ts 2017 9 24 0 0 0))) None None true
          C11 None;
  do tx32 <- iv_repr (fst tb27) iv31;
  do df33 <- iv_dataframe (fst tb27) iv31;
  Ok [forallb (fun x => x) [(tokens_eqb tx29 [TText "Interval("; TText "("; TNum 840; TText ", "; TNum 860; TText ")";
        TText "): "; TText "'"; TFreq (mkFstr None AlD); TText "' at ";
        TPeriod (fbase (to_freq (mkFstr None AlD))) (pord (fbase (to_freq (mkFstr None AlD))) (ts 2017 4 20 0 0 0));
        TText " -> "; TText "'"; TFreq (mkFstr None AlD); TText "' at ";
        TPeriod (fbase (to_freq (mkFstr None AlD))) (pord (fbase (to_freq (mkFstr None AlD))) (ts 2017 5 10 0 0 0));
        TText " ["; TNum 21; TText "]"]);
        row_at df30 840 (fun r b => shown NS_DAY (ts 2017 4 20 0 0 0) (row_ref r) &&
        ((ts 2017 4 20 0 0 0) =? row_start r) && (1 =? row_duration r) &&
        shown NS_DAY (ts 2017 4 20 0 0 0) (row_end r) && (1 =? row_label r) && has_flag b 0 true);
        row_at df30 841 (fun r b => shown NS_DAY (ts 2017 4 21 0 0 0) (row_ref r) &&
        ((ts 2017 4 21 0 0 0) =? row_start r) && (1 =? row_duration r) &&
        shown NS_DAY (ts 2017 4 21 0 0 0) (row_end r) && (0 =? row_label r) && has_flag b 0 false);
        row_at df30 842 (fun r b => shown NS_DAY (ts 2017 4 22 0 0 0) (row_ref r) &&
        ((ts 2017 4 22 0 0 0) =? row_start r) && (1 =? row_duration r) &&
        shown NS_DAY (ts 2017 4 22 0 0 0) (row_end r) && (0 =? row_label r) && has_flag b 0 false);
        row_at df30 843 (fun r b => shown NS_DAY (ts 2017 4 23 0 0 0) (row_ref r) &&
        ((ts 2017 4 23 0 0 0) =? row_start r) && (1 =? row_duration r) &&
        shown NS_DAY (ts 2017 4 23 0 0 0) (row_end r) && (0 =? row_label r) && has_flag b 0 false);
        row_at df30 844 (fun r b => shown NS_DAY (ts 2017 4 24 0 0 0) (row_ref r) &&
        ((ts 2017 4 24 0 0 0) =? row_start r) && (1 =? row_duration r) &&
        shown NS_DAY (ts 2017 4 24 0 0 0) (row_end r) && (0 =? row_label r) && has_flag b 0 false);
        row_at df30 845 (fun r b => shown NS_DAY (ts 2017 4 25 0 0 0) (row_ref r) &&
        ((ts 2017 4 25 0 0 0) =? row_start r) && (1 =? row_duration r) &&
        shown NS_DAY (ts 2017 4 25 0 0 0) (row_end r) && (0 =? row_label r) && has_flag b 0 false);
        row_at df30 846 (fun r b => shown NS_DAY (ts 2017 4 26 0 0 0) (row_ref r) &&
        ((ts 2017 4 26 0 0 0) =? row_start r) && (1 =? row_duration r) &&
        shown NS_DAY (ts 2017 4 26 0 0 0) (row_end r) && (1 =? row_label r) && has_flag b 0 true);
        row_at df30 847 (fun r b => shown NS_DAY (ts 2017 4 27 0 0 0) (row_ref r) &&
        ((ts 2017 4 27 0 0 0) =? row_start r) && (1 =? row_duration r) &&
        shown NS_DAY (ts 2017 4 27 0 0 0) (row_end r) && (1 =? row_label r) && has_flag b 0 true);
        row_at df30 848 (fun r b => shown NS_DAY (ts 2017 4 28 0 0 0) (row_ref r) &&
        ((ts 2017 4 28 0 0 0) =? row_start r) && (1 =? row_duration r) &&
        shown NS_DAY (ts 2017 4 28 0 0 0) (row_end r) && (0 =? row_label r) && has_flag b 0 false);
        row_at df30 849 (fun r b => shown NS_DAY (ts 2017 4 29 0 0 0) (row_ref r) &&
        ((ts 2017 4 29 0 0 0) =? row_start r) && (1 =? row_duration r) &&
        shown NS_DAY (ts 2017 4 29 0 0 0) (row_end r) && (0 =? row_label r) && has_flag b 0 false);
        row_at df30 850 (fun r b => shown NS_DAY (ts 2017 4 30 0 0 0) (row_ref r) &&
        ((ts 2017 4 30 0 0 0) =? row_start r) && (1 =? row_duration r) &&
        shown NS_DAY (ts 2017 4 30 0 0 0) (row_end r) && (0 =? row_label r) && has_flag b 0 false);
        row_at df30 851 (fun r b => shown NS_DAY (ts 2017 5 1 0 0 0) (row_ref r) &&
        ((ts 2017 5 1 0 0 0) =? row_start r) && (1 =? row_duration r) &&
        shown NS_DAY (ts 2017 5 1 0 0 0) (row_end r) && (0 =? row_label r) && has_flag b 0 false);
        row_at df30 852 (fun r b => shown NS_DAY (ts 2017 5 2 0 0 0) (row_ref r) &&
        ((ts 2017 5 2 0 0 0) =? row_start r) && (1 =? row_duration r) &&
        shown NS_DAY (ts 2017 5 2 0 0 0) (row_end r) && (1 =? row_label r) && has_flag b 0 true);
        row_at df30 853 (fun r b => shown NS_DAY (ts 2017 5 3 0 0 0) (row_ref r) &&
        ((ts 2017 5 3 0 0 0) =? row_start r) && (1 =? row_duration r) &&
        shown NS_DAY (ts 2017 5 3 0 0 0) (row_end r) && (1 =? row_label r) && has_flag b 0 true);
        row_at df30 854 (fun r b => shown NS_DAY (ts 2017 5 4 0 0 0) (row_ref r) &&
        ((ts 2017 5 4 0 0 0) =? row_start r) && (1 =? row_duration r) &&
        shown NS_DAY (ts 2017 5 4 0 0 0) (row_end r) && (1 =? row_label r) && has_flag b 0 true);
        row_at df30 855 (fun r b => shown NS_DAY (ts 2017 5 5 0 0 0) (row_ref r) &&
        ((ts 2017 5 5 0 0 0) =? row_start r) && (1 =? row_duration r) &&
        shown NS_DAY (ts 2017 5 5 0 0 0) (row_end r) && (1 =? row_label r) && has_flag b 0 true);
        row_at df30 856 (fun r b => shown NS_DAY (ts 2017 5 6 0 0 0) (row_ref r) &&
        ((ts 2017 5 6 0 0 0) =? row_start r) && (1 =? row_duration r) &&
        shown NS_DAY (ts 2017 5 6 0 0 0) (row_end r) && (1 =? row_label r) && has_flag b 0 true);
        row_at df30 857 (fun r b => shown NS_DAY (ts 2017 5 7 0 0 0) (row_ref r) &&
        ((ts 2017 5 7 0 0 0) =? row_start r) && (1 =? row_duration r) &&
        shown NS_DAY (ts 2017 5 7 0 0 0) (row_end r) && (1 =? row_label r) && has_flag b 0 true);
        row_at df30 858 (fun r b => shown NS_DAY (ts 2017 5 8 0 0 0) (row_ref r) &&
        ((ts 2017 5 8 0 0 0) =? row_start r) && (1 =? row_duration r) &&
        shown NS_DAY (ts 2017 5 8 0 0 0) (row_end r) && (0 =? row_label r) && has_flag b 0 false);
        row_at df30 859 (fun r b => shown NS_DAY (ts 2017 5 9 0 0 0) (row_ref r) &&
        ((ts 2017 5 9 0 0 0) =? row_start r) && (1 =? row_duration r) &&
        shown NS_DAY (ts 2017 5 9 0 0 0) (row_end r) && (1 =? row_label r) && has_flag b 0 true);
        row_at df30 860 (fun r b => shown NS_DAY (ts 2017 5 10 0 0 0) (row_ref r) &&
        ((ts 2017 5 10 0 0 0) =? row_start r) && (1 =? row_duration r) &&
        shown NS_DAY (ts 2017 5 10 0 0 0) (row_end r) && (1 =? row_label r) && has_flag b 0 true); (zlen df30 =? 21)];
       forallb (fun x => x) [(tokens_eqb tx32 [TText "Interval("; TText "("; TNum 977; TText ", "; TNum 997; TText ")";
        TText "): "; TText "'"; TFreq (mkFstr None AlD); TText "' at ";
        TPeriod (fbase (to_freq (mkFstr None AlD))) (pord (fbase (to_freq (mkFstr None AlD))) (ts 2017 9 4 0 0 0));
        TText " -> "; TText "'"; TFreq (mkFstr None AlD); TText "' at ";
        TPeriod (fbase (to_freq (mkFstr None AlD))) (pord (fbase (to_freq (mkFstr None AlD))) (ts 2017 9 24 0 0 0));
        TText " ["; TNum 21; TText "]"]); row_at df33 977 (fun r b => shown NS_DAY (ts 2017 9 4 0 0 0) (row_ref r) &&
        ((ts 2017 9 4 0 0 0) =? row_start r) && (1 =? row_duration r) &&
        shown NS_DAY (ts 2017 9 4 0 0 0) (row_end r) && (0 =? row_label r) && has_flag b 0 false);
        row_at df33 978 (fun r b => shown NS_DAY (ts 2017 9 5 0 0 0) (row_ref r) &&
        ((ts 2017 9 5 0 0 0) =? row_start r) && (1 =? row_duration r) &&
        shown NS_DAY (ts 2017 9 5 0 0 0) (row_end r) && (1 =? row_label r) && has_flag b 0 true);
        row_at df33 979 (fun r b => shown NS_DAY (ts 2017 9 6 0 0 0) (row_ref r) &&
        ((ts 2017 9 6 0 0 0) =? row_start r) && (1 =? row_duration r) &&
        shown NS_DAY (ts 2017 9 6 0 0 0) (row_end r) && (1 =? row_label r) && has_flag b 0 true);
        row_at df33 980 (fun r b => shown NS_DAY (ts 2017 9 7 0 0 0) (row_ref r) &&
        ((ts 2017 9 7 0 0 0) =? row_start r) && (1 =? row_duration r) &&
        shown NS_DAY (ts 2017 9 7 0 0 0) (row_end r) && (1 =? row_label r) && has_flag b 0 true);
        row_at df33 981 (fun r b => shown NS_DAY (ts 2017 9 8 0 0 0) (row_ref r) &&
        ((ts 2017 9 8 0 0 0) =? row_start r) && (1 =? row_duration r) &&
        shown NS_DAY (ts 2017 9 8 0 0 0) (row_end r) && (1 =? row_label r) && has_flag b 0 true);
        row_at df33 982 (fun r b => shown NS_DAY (ts 2017 9 9 0 0 0) (row_ref r) &&
        ((ts 2017 9 9 0 0 0) =? row_start r) && (1 =? row_duration r) &&
        shown NS_DAY (ts 2017 9 9 0 0 0) (row_end r) && (1 =? row_label r) && has_flag b 0 true);
        row_at df33 983 (fun r b => shown NS_DAY (ts 2017 9 10 0 0 0) (row_ref r) &&
        ((ts 2017 9 10 0 0 0) =? row_start r) && (1 =? row_duration r) &&
        shown NS_DAY (ts 2017 9 10 0 0 0) (row_end r) && (1 =? row_label r) && has_flag b 0 true);
        row_at df33 984 (fun r b => shown NS_DAY (ts 2017 9 11 0 0 0) (row_ref r) &&
        ((ts 2017 9 11 0 0 0) =? row_start r) && (1 =? row_duration r) &&
        shown NS_DAY (ts 2017 9 11 0 0 0) (row_end r) && (0 =? row_label r) && has_flag b 0 false);
        row_at df33 985 (fun r b => shown NS_DAY (ts 2017 9 12 0 0 0) (row_ref r) &&
        ((ts 2017 9 12 0 0 0) =? row_start r) && (1 =? row_duration r) &&
        shown NS_DAY (ts 2017 9 12 0 0 0) (row_end r) && (1 =? row_label r) && has_flag b 0 true);
        row_at df33 986 (fun r b => shown NS_DAY (ts 2017 9 13 0 0 0) (row_ref r) &&
        ((ts 2017 9 13 0 0 0) =? row_start r) && (1 =? row_duration r) &&
        shown NS_DAY (ts 2017 9 13 0 0 0) (row_end r) && (1 =? row_label r) && has_flag b 0 true);
        row_at df33 987 (fun r b => shown NS_DAY (ts 2017 9 14 0 0 0) (row_ref r) &&
        ((ts 2017 9 14 0 0 0) =? row_start r) && (1 =? row_duration r) &&
        shown NS_DAY (ts 2017 9 14 0 0 0) (row_end r) && (1 =? row_label r) && has_flag b 0 true);
        row_at df33 988 (fun r b => shown NS_DAY (ts 2017 9 15 0 0 0) (row_ref r) &&
        ((ts 2017 9 15 0 0 0) =? row_start r) && (1 =? row_duration r) &&
        shown NS_DAY (ts 2017 9 15 0 0 0) (row_end r) && (1 =? row_label r) && has_flag b 0 true);
        row_at df33 989 (fun r b => shown NS_DAY (ts 2017 9 16 0 0 0) (row_ref r) &&
        ((ts 2017 9 16 0 0 0) =? row_start r) && (1 =? row_duration r) &&
        shown NS_DAY (ts 2017 9 16 0 0 0) (row_end r) && (0 =? row_label r) && has_flag b 0 false);
        row_at df33 990 (fun r b => shown NS_DAY (ts 2017 9 17 0 0 0) (row_ref r) &&
        ((ts 2017 9 17 0 0 0) =? row_start r) && (1 =? row_duration r) &&
        shown NS_DAY (ts 2017 9 17 0 0 0) (row_end r) && (0 =? row_label r) && has_flag b 0 false);
        row_at df33 991 (fun r b => shown NS_DAY (ts 2017 9 18 0 0 0) (row_ref r) &&
        ((ts 2017 9 18 0 0 0) =? row_start r) && (1 =? row_duration r) &&
        shown NS_DAY (ts 2017 9 18 0 0 0) (row_end r) && (0 =? row_label r) && has_flag b 0 false);
        row_at df33 992 (fun r b => shown NS_DAY (ts 2017 9 19 0 0 0) (row_ref r) &&
        ((ts 2017 9 19 0 0 0) =? row_start r) && (1 =? row_duration r) &&
        shown NS_DAY (ts 2017 9 19 0 0 0) (row_end r) && (0 =? row_label r) && has_flag b 0 false);
        row_at df33 993 (fun r b => shown NS_DAY (ts 2017 9 20 0 0 0) (row_ref r) &&
        ((ts 2017 9 20 0 0 0) =? row_start r) && (1 =? row_duration r) &&
        shown NS_DAY (ts 2017 9 20 0 0 0) (row_end r) && (1 =? row_label r) && has_flag b 0 true);
        row_at df33 994 (fun r b => shown NS_DAY (ts 2017 9 21 0 0 0) (row_ref r) &&
        ((ts 2017 9 21 0 0 0) =? row_start r) && (1 =? row_duration r) &&
        shown NS_DAY (ts 2017 9 21 0 0 0) (row_end r) && (1 =? row_label r) && has_flag b 0 true);
        row_at df33 995 (fun r b => shown NS_DAY (ts 2017 9 22 0 0 0) (row_ref r) &&
        ((ts 2017 9 22 0 0 0) =? row_start r) && (1 =? row_duration r) &&
        shown NS_DAY (ts 2017 9 22 0 0 0) (row_end r) && (0 =? row_label r) && has_flag b 0 false);
        row_at df33 996 (fun r b => shown NS_DAY (ts 2017 9 23 0 0 0) (row_ref r) &&
        ((ts 2017 9 23 0 0 0) =? row_start r) && (1 =? row_duration r) &&
        shown NS_DAY (ts 2017 9 23 0 0 0) (row_end r) && (0 =? row_label r) && has_flag b 0 false);
        row_at df33 997 (fun r b => shown NS_DAY (ts 2017 9 24 0 0 0) (row_ref r) &&
        ((ts 2017 9 24 0 0 0) =? row_start r) && (1 =? row_duration r) &&
        shown NS_DAY (ts 2017 9 24 0 0 0) (row_end r) && (0 =? row_label r) && has_flag b 0 false); (zlen df33 =? 21)]]) = true.
Proof. vm_compute. reflexivity. Qed.

(** doc/source/making_a_timeboard.rst:634, 659 *)
Example making_a_timeboard_634 : passes (
  let heap0 : heap Z := [new_rpat [1; 1; 1; 0; 0]; new_rpat [1000001; 1000002; 1000003; 1000004]; new_rpat [1000001; 1000002; 1000003; 1000004]] in
  do tb34 <- build (mkArgs (mkFstr None AlD) (ts 2012 1 1 0 0 0) (ts 2015 12 31 0 0 0) (LOrg (DMarker (mkMarker
          (mkFstr None (AlA None)) [nth_weekday_of_month 5 1 1 1;
          nth_weekday_of_month 9 (-1) 7 0])) [(LOrg (DMarker (mkMarker (mkFstr None (AlW None)) [])) [(LPat (PList
          [0; 0; 1; 1; 0; 0; 0]))]); (LOrg (DMarker (mkMarker (mkFstr None (AlW None)) [])) [(LPat (PList [0; 1; 1;
          1; 1; 1; 1]))])]) [] (fun x => negb (x =? 0)) 0 false (-999999) WDuration conf_num) heap0;
  do iv35 <- get_interval (fst tb34) (RPair (Some (ts 2012 4 30 0 0 0)) (Some (ts 2012 5 15 0 0 0))) None None true
          C11 None;
  do tx36 <- iv_repr (fst tb34) iv35;
  do df37 <- iv_dataframe (fst tb34) iv35;
  do iv38 <- get_interval (fst tb34) (RPair (Some (ts 2012 9 23 0 0 0)) (Some (ts 2012 10 7 0 0 0))) None None true
          C11 None;
  do tx39 <- iv_repr (fst tb34) iv38;
  do df40 <- iv_dataframe (fst tb34) iv38;
  Ok [forallb (fun x => x) [(tokens_eqb tx36 [TText "Interval("; TText "("; TNum 120; TText ", "; TNum 135; TText ")";
        TText "): "; TText "'"; TFreq (mkFstr None AlD); TText "' at ";
        TPeriod (fbase (to_freq (mkFstr None AlD))) (pord (fbase (to_freq (mkFstr None AlD))) (ts 2012 4 30 0 0 0));
        TText " -> "; TText "'"; TFreq (mkFstr None AlD); TText "' at ";
        TPeriod (fbase (to_freq (mkFstr None AlD))) (pord (fbase (to_freq (mkFstr None AlD))) (ts 2012 5 15 0 0 0));
        TText " ["; TNum 16; TText "]"]);
        row_at df37 120 (fun r b => shown NS_DAY (ts 2012 4 30 0 0 0) (row_ref r) &&
        ((ts 2012 4 30 0 0 0) =? row_start r) && (1 =? row_duration r) &&
        shown NS_DAY (ts 2012 4 30 0 0 0) (row_end r) && (0 =? row_label r) && has_flag b 0 false);
        row_at df37 121 (fun r b => shown NS_DAY (ts 2012 5 1 0 0 0) (row_ref r) &&
        ((ts 2012 5 1 0 0 0) =? row_start r) && (1 =? row_duration r) &&
        shown NS_DAY (ts 2012 5 1 0 0 0) (row_end r) && (0 =? row_label r) && has_flag b 0 false);
        row_at df37 122 (fun r b => shown NS_DAY (ts 2012 5 2 0 0 0) (row_ref r) &&
        ((ts 2012 5 2 0 0 0) =? row_start r) && (1 =? row_duration r) &&
        shown NS_DAY (ts 2012 5 2 0 0 0) (row_end r) && (1 =? row_label r) && has_flag b 0 true);
        row_at df37 123 (fun r b => shown NS_DAY (ts 2012 5 3 0 0 0) (row_ref r) &&
        ((ts 2012 5 3 0 0 0) =? row_start r) && (1 =? row_duration r) &&
        shown NS_DAY (ts 2012 5 3 0 0 0) (row_end r) && (1 =? row_label r) && has_flag b 0 true);
        row_at df37 124 (fun r b => shown NS_DAY (ts 2012 5 4 0 0 0) (row_ref r) &&
        ((ts 2012 5 4 0 0 0) =? row_start r) && (1 =? row_duration r) &&
        shown NS_DAY (ts 2012 5 4 0 0 0) (row_end r) && (0 =? row_label r) && has_flag b 0 false);
        row_at df37 125 (fun r b => shown NS_DAY (ts 2012 5 5 0 0 0) (row_ref r) &&
        ((ts 2012 5 5 0 0 0) =? row_start r) && (1 =? row_duration r) &&
        shown NS_DAY (ts 2012 5 5 0 0 0) (row_end r) && (0 =? row_label r) && has_flag b 0 false);
        row_at df37 126 (fun r b => shown NS_DAY (ts 2012 5 6 0 0 0) (row_ref r) &&
        ((ts 2012 5 6 0 0 0) =? row_start r) && (1 =? row_duration r) &&
        shown NS_DAY (ts 2012 5 6 0 0 0) (row_end r) && (0 =? row_label r) && has_flag b 0 false);
        row_at df37 127 (fun r b => shown NS_DAY (ts 2012 5 7 0 0 0) (row_ref r) &&
        ((ts 2012 5 7 0 0 0) =? row_start r) && (1 =? row_duration r) &&
        shown NS_DAY (ts 2012 5 7 0 0 0) (row_end r) && (0 =? row_label r) && has_flag b 0 false);
        row_at df37 128 (fun r b => shown NS_DAY (ts 2012 5 8 0 0 0) (row_ref r) &&
        ((ts 2012 5 8 0 0 0) =? row_start r) && (1 =? row_duration r) &&
        shown NS_DAY (ts 2012 5 8 0 0 0) (row_end r) && (1 =? row_label r) && has_flag b 0 true);
        row_at df37 129 (fun r b => shown NS_DAY (ts 2012 5 9 0 0 0) (row_ref r) &&
        ((ts 2012 5 9 0 0 0) =? row_start r) && (1 =? row_duration r) &&
        shown NS_DAY (ts 2012 5 9 0 0 0) (row_end r) && (1 =? row_label r) && has_flag b 0 true);
        row_at df37 130 (fun r b => shown NS_DAY (ts 2012 5 10 0 0 0) (row_ref r) &&
        ((ts 2012 5 10 0 0 0) =? row_start r) && (1 =? row_duration r) &&
        shown NS_DAY (ts 2012 5 10 0 0 0) (row_end r) && (1 =? row_label r) && has_flag b 0 true);
        row_at df37 131 (fun r b => shown NS_DAY (ts 2012 5 11 0 0 0) (row_ref r) &&
        ((ts 2012 5 11 0 0 0) =? row_start r) && (1 =? row_duration r) &&
        shown NS_DAY (ts 2012 5 11 0 0 0) (row_end r) && (1 =? row_label r) && has_flag b 0 true);
        row_at df37 132 (fun r b => shown NS_DAY (ts 2012 5 12 0 0 0) (row_ref r) &&
        ((ts 2012 5 12 0 0 0) =? row_start r) && (1 =? row_duration r) &&
        shown NS_DAY (ts 2012 5 12 0 0 0) (row_end r) && (1 =? row_label r) && has_flag b 0 true);
        row_at df37 133 (fun r b => shown NS_DAY (ts 2012 5 13 0 0 0) (row_ref r) &&
        ((ts 2012 5 13 0 0 0) =? row_start r) && (1 =? row_duration r) &&
        shown NS_DAY (ts 2012 5 13 0 0 0) (row_end r) && (1 =? row_label r) && has_flag b 0 true);
        row_at df37 134 (fun r b => shown NS_DAY (ts 2012 5 14 0 0 0) (row_ref r) &&
        ((ts 2012 5 14 0 0 0) =? row_start r) && (1 =? row_duration r) &&
        shown NS_DAY (ts 2012 5 14 0 0 0) (row_end r) && (0 =? row_label r) && has_flag b 0 false);
        row_at df37 135 (fun r b => shown NS_DAY (ts 2012 5 15 0 0 0) (row_ref r) &&
        ((ts 2012 5 15 0 0 0) =? row_start r) && (1 =? row_duration r) &&
        shown NS_DAY (ts 2012 5 15 0 0 0) (row_end r) && (1 =? row_label r) && has_flag b 0 true); (zlen df37 =? 16)];
       forallb (fun x => x) [(tokens_eqb tx39 [TText "Interval("; TText "("; TNum 266; TText ", "; TNum 280; TText ")";
        TText "): "; TText "'"; TFreq (mkFstr None AlD); TText "' at ";
        TPeriod (fbase (to_freq (mkFstr None AlD))) (pord (fbase (to_freq (mkFstr None AlD))) (ts 2012 9 23 0 0 0));
        TText " -> "; TText "'"; TFreq (mkFstr None AlD); TText "' at ";
        TPeriod (fbase (to_freq (mkFstr None AlD))) (pord (fbase (to_freq (mkFstr None AlD))) (ts 2012 10 7 0 0 0));
        TText " ["; TNum 15; TText "]"]);
        row_at df40 266 (fun r b => shown NS_DAY (ts 2012 9 23 0 0 0) (row_ref r) &&
        ((ts 2012 9 23 0 0 0) =? row_start r) && (1 =? row_duration r) &&
        shown NS_DAY (ts 2012 9 23 0 0 0) (row_end r) && (1 =? row_label r) && has_flag b 0 true);
        row_at df40 267 (fun r b => shown NS_DAY (ts 2012 9 24 0 0 0) (row_ref r) &&
        ((ts 2012 9 24 0 0 0) =? row_start r) && (1 =? row_duration r) &&
        shown NS_DAY (ts 2012 9 24 0 0 0) (row_end r) && (0 =? row_label r) && has_flag b 0 false);
        row_at df40 268 (fun r b => shown NS_DAY (ts 2012 9 25 0 0 0) (row_ref r) &&
        ((ts 2012 9 25 0 0 0) =? row_start r) && (1 =? row_duration r) &&
        shown NS_DAY (ts 2012 9 25 0 0 0) (row_end r) && (1 =? row_label r) && has_flag b 0 true);
        row_at df40 269 (fun r b => shown NS_DAY (ts 2012 9 26 0 0 0) (row_ref r) &&
        ((ts 2012 9 26 0 0 0) =? row_start r) && (1 =? row_duration r) &&
        shown NS_DAY (ts 2012 9 26 0 0 0) (row_end r) && (1 =? row_label r) && has_flag b 0 true);
        row_at df40 270 (fun r b => shown NS_DAY (ts 2012 9 27 0 0 0) (row_ref r) &&
        ((ts 2012 9 27 0 0 0) =? row_start r) && (1 =? row_duration r) &&
        shown NS_DAY (ts 2012 9 27 0 0 0) (row_end r) && (1 =? row_label r) && has_flag b 0 true);
        row_at df40 271 (fun r b => shown NS_DAY (ts 2012 9 28 0 0 0) (row_ref r) &&
        ((ts 2012 9 28 0 0 0) =? row_start r) && (1 =? row_duration r) &&
        shown NS_DAY (ts 2012 9 28 0 0 0) (row_end r) && (1 =? row_label r) && has_flag b 0 true);
        row_at df40 272 (fun r b => shown NS_DAY (ts 2012 9 29 0 0 0) (row_ref r) &&
        ((ts 2012 9 29 0 0 0) =? row_start r) && (1 =? row_duration r) &&
        shown NS_DAY (ts 2012 9 29 0 0 0) (row_end r) && (1 =? row_label r) && has_flag b 0 true);
        row_at df40 273 (fun r b => shown NS_DAY (ts 2012 9 30 0 0 0) (row_ref r) &&
        ((ts 2012 9 30 0 0 0) =? row_start r) && (1 =? row_duration r) &&
        shown NS_DAY (ts 2012 9 30 0 0 0) (row_end r) && (0 =? row_label r) && has_flag b 0 false);
        row_at df40 274 (fun r b => shown NS_DAY (ts 2012 10 1 0 0 0) (row_ref r) &&
        ((ts 2012 10 1 0 0 0) =? row_start r) && (1 =? row_duration r) &&
        shown NS_DAY (ts 2012 10 1 0 0 0) (row_end r) && (0 =? row_label r) && has_flag b 0 false);
        row_at df40 275 (fun r b => shown NS_DAY (ts 2012 10 2 0 0 0) (row_ref r) &&
        ((ts 2012 10 2 0 0 0) =? row_start r) && (1 =? row_duration r) &&
        shown NS_DAY (ts 2012 10 2 0 0 0) (row_end r) && (0 =? row_label r) && has_flag b 0 false);
        row_at df40 276 (fun r b => shown NS_DAY (ts 2012 10 3 0 0 0) (row_ref r) &&
        ((ts 2012 10 3 0 0 0) =? row_start r) && (1 =? row_duration r) &&
        shown NS_DAY (ts 2012 10 3 0 0 0) (row_end r) && (1 =? row_label r) && has_flag b 0 true);
        row_at df40 277 (fun r b => shown NS_DAY (ts 2012 10 4 0 0 0) (row_ref r) &&
        ((ts 2012 10 4 0 0 0) =? row_start r) && (1 =? row_duration r) &&
        shown NS_DAY (ts 2012 10 4 0 0 0) (row_end r) && (1 =? row_label r) && has_flag b 0 true);
        row_at df40 278 (fun r b => shown NS_DAY (ts 2012 10 5 0 0 0) (row_ref r) &&
        ((ts 2012 10 5 0 0 0) =? row_start r) && (1 =? row_duration r) &&
        shown NS_DAY (ts 2012 10 5 0 0 0) (row_end r) && (0 =? row_label r) && has_flag b 0 false);
        row_at df40 279 (fun r b => shown NS_DAY (ts 2012 10 6 0 0 0) (row_ref r) &&
        ((ts 2012 10 6 0 0 0) =? row_start r) && (1 =? row_duration r) &&
        shown NS_DAY (ts 2012 10 6 0 0 0) (row_end r) && (0 =? row_label r) && has_flag b 0 false);
        row_at df40 280 (fun r b => shown NS_DAY (ts 2012 10 7 0 0 0) (row_ref r) &&
        ((ts 2012 10 7 0 0 0) =? row_start r) && (1 =? row_duration r) &&
        shown NS_DAY (ts 2012 10 7 0 0 0) (row_end r) && (0 =? row_label r) && has_flag b 0 false); (zlen df40 =? 15)]]) = true.
Proof. vm_compute. reflexivity. Qed.

(** doc/source/making_a_timeboard.rst:698, 715 *)
Example making_a_timeboard_698 : passes (
  let heap0 : heap Z := [new_rpat [1; 1; 1; 0; 0]; new_rpat [1000001; 1000002; 1000003; 1000004]; new_rpat [1000001; 1000002; 1000003; 1000004]] in
  do tb41 <- build (mkArgs (mkFstr None AlD) (ts 2016 1 1 0 0 0) (ts 2017 12 31 0 0 0) (LOrg (DMarker (mkMarker
          (mkFstr None (AlA None)) [from_start_of_each (DKw 0 6 0 13 0 0 0);
          from_start_of_each (DKw 0 8 0 0 0 0 0)])) [(LPat (PList [1; 1; 1; 0; 0]));
          (LPat (PList [(-1)]))]) [] (fun x => ((x >? 0))) 0 false (-999999) WDuration conf_num) heap0;
  do iv42 <- get_interval (fst tb41) (RPair (Some (ts 2016 7 7 0 0 0)) (Some (ts 2016 7 17 0 0 0))) None None true
          C11 None;
  do tx43 <- iv_repr (fst tb41) iv42;
  do df44 <- iv_dataframe (fst tb41) iv42;
  do iv45 <- get_interval (fst tb41) (RPair (Some (ts 2016 8 27 0 0 0)) (Some (ts 2016 9 6 0 0 0))) None None true
          C11 None;
  do tx46 <- iv_repr (fst tb41) iv45;
  do df47 <- iv_dataframe (fst tb41) iv45;
  Ok [forallb (fun x => x) [(tokens_eqb tx43 [TText "Interval("; TText "("; TNum 188; TText ", "; TNum 198; TText ")";
        TText "): "; TText "'"; TFreq (mkFstr None AlD); TText "' at ";
        TPeriod (fbase (to_freq (mkFstr None AlD))) (pord (fbase (to_freq (mkFstr None AlD))) (ts 2016 7 7 0 0 0));
        TText " -> "; TText "'"; TFreq (mkFstr None AlD); TText "' at ";
        TPeriod (fbase (to_freq (mkFstr None AlD))) (pord (fbase (to_freq (mkFstr None AlD))) (ts 2016 7 17 0 0 0));
        TText " ["; TNum 11; TText "]"]); row_at df44 188 (fun r b => shown NS_DAY (ts 2016 7 7 0 0 0) (row_ref r) &&
        ((ts 2016 7 7 0 0 0) =? row_start r) && (1 =? row_duration r) &&
        shown NS_DAY (ts 2016 7 7 0 0 0) (row_end r) && (1 =? row_label r) && has_flag b 0 true);
        row_at df44 189 (fun r b => shown NS_DAY (ts 2016 7 8 0 0 0) (row_ref r) &&
        ((ts 2016 7 8 0 0 0) =? row_start r) && (1 =? row_duration r) &&
        shown NS_DAY (ts 2016 7 8 0 0 0) (row_end r) && (1 =? row_label r) && has_flag b 0 true);
        row_at df44 190 (fun r b => shown NS_DAY (ts 2016 7 9 0 0 0) (row_ref r) &&
        ((ts 2016 7 9 0 0 0) =? row_start r) && (1 =? row_duration r) &&
        shown NS_DAY (ts 2016 7 9 0 0 0) (row_end r) && (1 =? row_label r) && has_flag b 0 true);
        row_at df44 191 (fun r b => shown NS_DAY (ts 2016 7 10 0 0 0) (row_ref r) &&
        ((ts 2016 7 10 0 0 0) =? row_start r) && (1 =? row_duration r) &&
        shown NS_DAY (ts 2016 7 10 0 0 0) (row_end r) && (0 =? row_label r) && has_flag b 0 false);
        row_at df44 192 (fun r b => shown NS_DAY (ts 2016 7 11 0 0 0) (row_ref r) &&
        ((ts 2016 7 11 0 0 0) =? row_start r) && (1 =? row_duration r) &&
        shown NS_DAY (ts 2016 7 11 0 0 0) (row_end r) && (0 =? row_label r) && has_flag b 0 false);
        row_at df44 193 (fun r b => shown NS_DAY (ts 2016 7 12 0 0 0) (row_ref r) &&
        ((ts 2016 7 12 0 0 0) =? row_start r) && (1 =? row_duration r) &&
        shown NS_DAY (ts 2016 7 12 0 0 0) (row_end r) && (1 =? row_label r) && has_flag b 0 true);
        row_at df44 194 (fun r b => shown NS_DAY (ts 2016 7 13 0 0 0) (row_ref r) &&
        ((ts 2016 7 13 0 0 0) =? row_start r) && (1 =? row_duration r) &&
        shown NS_DAY (ts 2016 7 13 0 0 0) (row_end r) && (1 =? row_label r) && has_flag b 0 true);
        row_at df44 195 (fun r b => shown NS_DAY (ts 2016 7 14 0 0 0) (row_ref r) &&
        ((ts 2016 7 14 0 0 0) =? row_start r) && (1 =? row_duration r) &&
        shown NS_DAY (ts 2016 7 14 0 0 0) (row_end r) && ((-1) =? row_label r) && has_flag b 0 false);
        row_at df44 196 (fun r b => shown NS_DAY (ts 2016 7 15 0 0 0) (row_ref r) &&
        ((ts 2016 7 15 0 0 0) =? row_start r) && (1 =? row_duration r) &&
        shown NS_DAY (ts 2016 7 15 0 0 0) (row_end r) && ((-1) =? row_label r) && has_flag b 0 false);
        row_at df44 197 (fun r b => shown NS_DAY (ts 2016 7 16 0 0 0) (row_ref r) &&
        ((ts 2016 7 16 0 0 0) =? row_start r) && (1 =? row_duration r) &&
        shown NS_DAY (ts 2016 7 16 0 0 0) (row_end r) && ((-1) =? row_label r) && has_flag b 0 false);
        row_at df44 198 (fun r b => shown NS_DAY (ts 2016 7 17 0 0 0) (row_ref r) &&
        ((ts 2016 7 17 0 0 0) =? row_start r) && (1 =? row_duration r) &&
        shown NS_DAY (ts 2016 7 17 0 0 0) (row_end r) && ((-1) =? row_label r) && has_flag b 0 false);
        (zlen df44 =? 11)];
       forallb (fun x => x) [(tokens_eqb tx46 [TText "Interval("; TText "("; TNum 239; TText ", "; TNum 249; TText ")";
        TText "): "; TText "'"; TFreq (mkFstr None AlD); TText "' at ";
        TPeriod (fbase (to_freq (mkFstr None AlD))) (pord (fbase (to_freq (mkFstr None AlD))) (ts 2016 8 27 0 0 0));
        TText " -> "; TText "'"; TFreq (mkFstr None AlD); TText "' at ";
        TPeriod (fbase (to_freq (mkFstr None AlD))) (pord (fbase (to_freq (mkFstr None AlD))) (ts 2016 9 6 0 0 0));
        TText " ["; TNum 11; TText "]"]);
        row_at df47 239 (fun r b => shown NS_DAY (ts 2016 8 27 0 0 0) (row_ref r) &&
        ((ts 2016 8 27 0 0 0) =? row_start r) && (1 =? row_duration r) &&
        shown NS_DAY (ts 2016 8 27 0 0 0) (row_end r) && ((-1) =? row_label r) && has_flag b 0 false);
        row_at df47 240 (fun r b => shown NS_DAY (ts 2016 8 28 0 0 0) (row_ref r) &&
        ((ts 2016 8 28 0 0 0) =? row_start r) && (1 =? row_duration r) &&
        shown NS_DAY (ts 2016 8 28 0 0 0) (row_end r) && ((-1) =? row_label r) && has_flag b 0 false);
        row_at df47 241 (fun r b => shown NS_DAY (ts 2016 8 29 0 0 0) (row_ref r) &&
        ((ts 2016 8 29 0 0 0) =? row_start r) && (1 =? row_duration r) &&
        shown NS_DAY (ts 2016 8 29 0 0 0) (row_end r) && ((-1) =? row_label r) && has_flag b 0 false);
        row_at df47 242 (fun r b => shown NS_DAY (ts 2016 8 30 0 0 0) (row_ref r) &&
        ((ts 2016 8 30 0 0 0) =? row_start r) && (1 =? row_duration r) &&
        shown NS_DAY (ts 2016 8 30 0 0 0) (row_end r) && ((-1) =? row_label r) && has_flag b 0 false);
        row_at df47 243 (fun r b => shown NS_DAY (ts 2016 8 31 0 0 0) (row_ref r) &&
        ((ts 2016 8 31 0 0 0) =? row_start r) && (1 =? row_duration r) &&
        shown NS_DAY (ts 2016 8 31 0 0 0) (row_end r) && ((-1) =? row_label r) && has_flag b 0 false);
        row_at df47 244 (fun r b => shown NS_DAY (ts 2016 9 1 0 0 0) (row_ref r) &&
        ((ts 2016 9 1 0 0 0) =? row_start r) && (1 =? row_duration r) &&
        shown NS_DAY (ts 2016 9 1 0 0 0) (row_end r) && (1 =? row_label r) && has_flag b 0 true);
        row_at df47 245 (fun r b => shown NS_DAY (ts 2016 9 2 0 0 0) (row_ref r) &&
        ((ts 2016 9 2 0 0 0) =? row_start r) && (1 =? row_duration r) &&
        shown NS_DAY (ts 2016 9 2 0 0 0) (row_end r) && (1 =? row_label r) && has_flag b 0 true);
        row_at df47 246 (fun r b => shown NS_DAY (ts 2016 9 3 0 0 0) (row_ref r) &&
        ((ts 2016 9 3 0 0 0) =? row_start r) && (1 =? row_duration r) &&
        shown NS_DAY (ts 2016 9 3 0 0 0) (row_end r) && (1 =? row_label r) && has_flag b 0 true);
        row_at df47 247 (fun r b => shown NS_DAY (ts 2016 9 4 0 0 0) (row_ref r) &&
        ((ts 2016 9 4 0 0 0) =? row_start r) && (1 =? row_duration r) &&
        shown NS_DAY (ts 2016 9 4 0 0 0) (row_end r) && (0 =? row_label r) && has_flag b 0 false);
        row_at df47 248 (fun r b => shown NS_DAY (ts 2016 9 5 0 0 0) (row_ref r) &&
        ((ts 2016 9 5 0 0 0) =? row_start r) && (1 =? row_duration r) &&
        shown NS_DAY (ts 2016 9 5 0 0 0) (row_end r) && (0 =? row_label r) && has_flag b 0 false);
        row_at df47 249 (fun r b => shown NS_DAY (ts 2016 9 6 0 0 0) (row_ref r) &&
        ((ts 2016 9 6 0 0 0) =? row_start r) && (1 =? row_duration r) &&
        shown NS_DAY (ts 2016 9 6 0 0 0) (row_end r) && (1 =? row_label r) && has_flag b 0 true); (zlen df47 =? 11)]]) = true.
Proof. vm_compute. reflexivity. Qed.

(** doc/source/making_a_timeboard.rst:747, 764 *)
Example making_a_timeboard_747 : passes (
  let heap0 : heap Z := [new_rpat [1; 1; 1; 0; 0]; new_rpat [1000001; 1000002; 1000003; 1000004]; new_rpat [1000001; 1000002; 1000003; 1000004]] in
  do tb48 <- build (mkArgs (mkFstr None AlD) (ts 2016 1 1 0 0 0) (ts 2017 12 31 0 0 0) (LOrg (DMarker (mkMarker
          (mkFstr None (AlA None)) [from_start_of_each (DKw 0 6 0 13 0 0 0);
          from_start_of_each (DKw 0 8 0 0 0 0 0)])) [(LPat (PRem 0));
          (LPat (PList [(-1)]))]) [] (fun x => ((x >? 0))) 0 false (-999999) WDuration conf_num) heap0;
  do iv49 <- get_interval (fst tb48) (RPair (Some (ts 2016 7 7 0 0 0)) (Some (ts 2016 7 17 0 0 0))) None None true
          C11 None;
  do tx50 <- iv_repr (fst tb48) iv49;
  do df51 <- iv_dataframe (fst tb48) iv49;
  do iv52 <- get_interval (fst tb48) (RPair (Some (ts 2016 8 27 0 0 0)) (Some (ts 2016 9 8 0 0 0))) None None true
          C11 None;
  do tx53 <- iv_repr (fst tb48) iv52;
  do df54 <- iv_dataframe (fst tb48) iv52;
  Ok [forallb (fun x => x) [(tokens_eqb tx50 [TText "Interval("; TText "("; TNum 188; TText ", "; TNum 198; TText ")";
        TText "): "; TText "'"; TFreq (mkFstr None AlD); TText "' at ";
        TPeriod (fbase (to_freq (mkFstr None AlD))) (pord (fbase (to_freq (mkFstr None AlD))) (ts 2016 7 7 0 0 0));
        TText " -> "; TText "'"; TFreq (mkFstr None AlD); TText "' at ";
        TPeriod (fbase (to_freq (mkFstr None AlD))) (pord (fbase (to_freq (mkFstr None AlD))) (ts 2016 7 17 0 0 0));
        TText " ["; TNum 11; TText "]"]); row_at df51 188 (fun r b => shown NS_DAY (ts 2016 7 7 0 0 0) (row_ref r) &&
        ((ts 2016 7 7 0 0 0) =? row_start r) && (1 =? row_duration r) &&
        shown NS_DAY (ts 2016 7 7 0 0 0) (row_end r) && (1 =? row_label r) && has_flag b 0 true);
        row_at df51 189 (fun r b => shown NS_DAY (ts 2016 7 8 0 0 0) (row_ref r) &&
        ((ts 2016 7 8 0 0 0) =? row_start r) && (1 =? row_duration r) &&
        shown NS_DAY (ts 2016 7 8 0 0 0) (row_end r) && (1 =? row_label r) && has_flag b 0 true);
        row_at df51 190 (fun r b => shown NS_DAY (ts 2016 7 9 0 0 0) (row_ref r) &&
        ((ts 2016 7 9 0 0 0) =? row_start r) && (1 =? row_duration r) &&
        shown NS_DAY (ts 2016 7 9 0 0 0) (row_end r) && (1 =? row_label r) && has_flag b 0 true);
        row_at df51 191 (fun r b => shown NS_DAY (ts 2016 7 10 0 0 0) (row_ref r) &&
        ((ts 2016 7 10 0 0 0) =? row_start r) && (1 =? row_duration r) &&
        shown NS_DAY (ts 2016 7 10 0 0 0) (row_end r) && (0 =? row_label r) && has_flag b 0 false);
        row_at df51 192 (fun r b => shown NS_DAY (ts 2016 7 11 0 0 0) (row_ref r) &&
        ((ts 2016 7 11 0 0 0) =? row_start r) && (1 =? row_duration r) &&
        shown NS_DAY (ts 2016 7 11 0 0 0) (row_end r) && (0 =? row_label r) && has_flag b 0 false);
        row_at df51 193 (fun r b => shown NS_DAY (ts 2016 7 12 0 0 0) (row_ref r) &&
        ((ts 2016 7 12 0 0 0) =? row_start r) && (1 =? row_duration r) &&
        shown NS_DAY (ts 2016 7 12 0 0 0) (row_end r) && (1 =? row_label r) && has_flag b 0 true);
        row_at df51 194 (fun r b => shown NS_DAY (ts 2016 7 13 0 0 0) (row_ref r) &&
        ((ts 2016 7 13 0 0 0) =? row_start r) && (1 =? row_duration r) &&
        shown NS_DAY (ts 2016 7 13 0 0 0) (row_end r) && (1 =? row_label r) && has_flag b 0 true);
        row_at df51 195 (fun r b => shown NS_DAY (ts 2016 7 14 0 0 0) (row_ref r) &&
        ((ts 2016 7 14 0 0 0) =? row_start r) && (1 =? row_duration r) &&
        shown NS_DAY (ts 2016 7 14 0 0 0) (row_end r) && ((-1) =? row_label r) && has_flag b 0 false);
        row_at df51 196 (fun r b => shown NS_DAY (ts 2016 7 15 0 0 0) (row_ref r) &&
        ((ts 2016 7 15 0 0 0) =? row_start r) && (1 =? row_duration r) &&
        shown NS_DAY (ts 2016 7 15 0 0 0) (row_end r) && ((-1) =? row_label r) && has_flag b 0 false);
        row_at df51 197 (fun r b => shown NS_DAY (ts 2016 7 16 0 0 0) (row_ref r) &&
        ((ts 2016 7 16 0 0 0) =? row_start r) && (1 =? row_duration r) &&
        shown NS_DAY (ts 2016 7 16 0 0 0) (row_end r) && ((-1) =? row_label r) && has_flag b 0 false);
        row_at df51 198 (fun r b => shown NS_DAY (ts 2016 7 17 0 0 0) (row_ref r) &&
        ((ts 2016 7 17 0 0 0) =? row_start r) && (1 =? row_duration r) &&
        shown NS_DAY (ts 2016 7 17 0 0 0) (row_end r) && ((-1) =? row_label r) && has_flag b 0 false);
        (zlen df51 =? 11)];
       forallb (fun x => x) [(tokens_eqb tx53 [TText "Interval("; TText "("; TNum 239; TText ", "; TNum 251; TText ")";
        TText "): "; TText "'"; TFreq (mkFstr None AlD); TText "' at ";
        TPeriod (fbase (to_freq (mkFstr None AlD))) (pord (fbase (to_freq (mkFstr None AlD))) (ts 2016 8 27 0 0 0));
        TText " -> "; TText "'"; TFreq (mkFstr None AlD); TText "' at ";
        TPeriod (fbase (to_freq (mkFstr None AlD))) (pord (fbase (to_freq (mkFstr None AlD))) (ts 2016 9 8 0 0 0));
        TText " ["; TNum 13; TText "]"]);
        row_at df54 239 (fun r b => shown NS_DAY (ts 2016 8 27 0 0 0) (row_ref r) &&
        ((ts 2016 8 27 0 0 0) =? row_start r) && (1 =? row_duration r) &&
        shown NS_DAY (ts 2016 8 27 0 0 0) (row_end r) && ((-1) =? row_label r) && has_flag b 0 false);
        row_at df54 240 (fun r b => shown NS_DAY (ts 2016 8 28 0 0 0) (row_ref r) &&
        ((ts 2016 8 28 0 0 0) =? row_start r) && (1 =? row_duration r) &&
        shown NS_DAY (ts 2016 8 28 0 0 0) (row_end r) && ((-1) =? row_label r) && has_flag b 0 false);
        row_at df54 241 (fun r b => shown NS_DAY (ts 2016 8 29 0 0 0) (row_ref r) &&
        ((ts 2016 8 29 0 0 0) =? row_start r) && (1 =? row_duration r) &&
        shown NS_DAY (ts 2016 8 29 0 0 0) (row_end r) && ((-1) =? row_label r) && has_flag b 0 false);
        row_at df54 242 (fun r b => shown NS_DAY (ts 2016 8 30 0 0 0) (row_ref r) &&
        ((ts 2016 8 30 0 0 0) =? row_start r) && (1 =? row_duration r) &&
        shown NS_DAY (ts 2016 8 30 0 0 0) (row_end r) && ((-1) =? row_label r) && has_flag b 0 false);
        row_at df54 243 (fun r b => shown NS_DAY (ts 2016 8 31 0 0 0) (row_ref r) &&
        ((ts 2016 8 31 0 0 0) =? row_start r) && (1 =? row_duration r) &&
        shown NS_DAY (ts 2016 8 31 0 0 0) (row_end r) && ((-1) =? row_label r) && has_flag b 0 false);
        row_at df54 244 (fun r b => shown NS_DAY (ts 2016 9 1 0 0 0) (row_ref r) &&
        ((ts 2016 9 1 0 0 0) =? row_start r) && (1 =? row_duration r) &&
        shown NS_DAY (ts 2016 9 1 0 0 0) (row_end r) && (1 =? row_label r) && has_flag b 0 true);
        row_at df54 245 (fun r b => shown NS_DAY (ts 2016 9 2 0 0 0) (row_ref r) &&
        ((ts 2016 9 2 0 0 0) =? row_start r) && (1 =? row_duration r) &&
        shown NS_DAY (ts 2016 9 2 0 0 0) (row_end r) && (0 =? row_label r) && has_flag b 0 false);
        row_at df54 246 (fun r b => shown NS_DAY (ts 2016 9 3 0 0 0) (row_ref r) &&
        ((ts 2016 9 3 0 0 0) =? row_start r) && (1 =? row_duration r) &&
        shown NS_DAY (ts 2016 9 3 0 0 0) (row_end r) && (0 =? row_label r) && has_flag b 0 false);
        row_at df54 247 (fun r b => shown NS_DAY (ts 2016 9 4 0 0 0) (row_ref r) &&
        ((ts 2016 9 4 0 0 0) =? row_start r) && (1 =? row_duration r) &&
        shown NS_DAY (ts 2016 9 4 0 0 0) (row_end r) && (1 =? row_label r) && has_flag b 0 true);
        row_at df54 248 (fun r b => shown NS_DAY (ts 2016 9 5 0 0 0) (row_ref r) &&
        ((ts 2016 9 5 0 0 0) =? row_start r) && (1 =? row_duration r) &&
        shown NS_DAY (ts 2016 9 5 0 0 0) (row_end r) && (1 =? row_label r) && has_flag b 0 true);
        row_at df54 249 (fun r b => shown NS_DAY (ts 2016 9 6 0 0 0) (row_ref r) &&
        ((ts 2016 9 6 0 0 0) =? row_start r) && (1 =? row_duration r) &&
        shown NS_DAY (ts 2016 9 6 0 0 0) (row_end r) && (1 =? row_label r) && has_flag b 0 true);
        row_at df54 250 (fun r b => shown NS_DAY (ts 2016 9 7 0 0 0) (row_ref r) &&
        ((ts 2016 9 7 0 0 0) =? row_start r) && (1 =? row_duration r) &&
        shown NS_DAY (ts 2016 9 7 0 0 0) (row_end r) && (0 =? row_label r) && has_flag b 0 false);
        row_at df54 251 (fun r b => shown NS_DAY (ts 2016 9 8 0 0 0) (row_ref r) &&
        ((ts 2016 9 8 0 0 0) =? row_start r) && (1 =? row_duration r) &&
        shown NS_DAY (ts 2016 9 8 0 0 0) (row_end r) && (0 =? row_label r) && has_flag b 0 false); (zlen df54 =? 13)]]) = true.
Proof. vm_compute. reflexivity. Qed.

(** doc/source/making_a_timeboard.rst:827 *)
Example making_a_timeboard_827 : passes (
  let heap0 : heap Z := [new_rpat [1; 1; 1; 0; 0]; new_rpat [1000001; 1000002; 1000003; 1000004]; new_rpat [1000001; 1000002; 1000003; 1000004]] in
  do tb56 <- build (mkArgs (mkFstr None AlH) (ts 2017 10 2 8 0 0) (ts 2017 10 7 1 59 0) (LOrg (DMarker (mkMarker
          (mkFstr None AlD) [from_start_of_each (DKw 0 0 0 0 2 0 0); from_start_of_each (DKw 0 0 0 0 8 0 0);
          from_start_of_each (DKw 0 0 0 0 18 0 0)])) [(LLab 1000001); (LLab 1000002); (LLab 1000003);
          (LLab 1000004)]) [] (fun x => negb (x =? 0)) 0 false (-999999) WDuration conf_num) heap0;
  do r57 <- add_schedule (fst tb56) 1 (fun x => ((x =? 1000001)));
  do tx58 <- tb_compact (fst r57);
  do df59 <- tb_dataframe (fst r57) 0 (tb_len (fst r57) - 1);
  Ok [forallb (fun x => x) [(tokens_eqb tx58 [TText "Timeboard of '"; TFreq (mkFstr None AlH); TText "': ";
        TPeriod (fbase (to_freq (mkFstr None AlH))) (pord (fbase (to_freq (mkFstr None AlH))) (ts 2017 10 2 8 0 0));
        TText " -> ";
        TPeriod (fbase (to_freq (mkFstr None AlH))) (pord (fbase (to_freq (mkFstr None AlH))) (ts 2017 10 7 1 0
        0))]); row_at df59 0 (fun r b => shown NS_SEC (ts 2017 10 2 8 0 0) (row_ref r) && (10 =? row_duration r) &&
        shown NS_SEC (ts 2017 10 2 17 59 59) (row_end r) && (1000001 =? row_label r) && has_flag b 0 true &&
        has_flag b 1 true); row_at df59 1 (fun r b => shown NS_SEC (ts 2017 10 2 18 0 0) (row_ref r) &&
        (8 =? row_duration r) && shown NS_SEC (ts 2017 10 3 1 59 59) (row_end r) && (1000002 =? row_label r) &&
        has_flag b 0 true && has_flag b 1 false);
        row_at df59 2 (fun r b => shown NS_SEC (ts 2017 10 3 2 0 0) (row_ref r) && (6 =? row_duration r) &&
        shown NS_SEC (ts 2017 10 3 7 59 59) (row_end r) && (1000003 =? row_label r) && has_flag b 0 true &&
        has_flag b 1 false); row_at df59 3 (fun r b => shown NS_SEC (ts 2017 10 3 8 0 0) (row_ref r) &&
        (10 =? row_duration r) && shown NS_SEC (ts 2017 10 3 17 59 59) (row_end r) && (1000004 =? row_label r) &&
        has_flag b 0 true && has_flag b 1 false);
        row_at df59 4 (fun r b => shown NS_SEC (ts 2017 10 3 18 0 0) (row_ref r) && (8 =? row_duration r) &&
        shown NS_SEC (ts 2017 10 4 1 59 59) (row_end r) && (1000001 =? row_label r) && has_flag b 0 true &&
        has_flag b 1 true); row_at df59 5 (fun r b => shown NS_SEC (ts 2017 10 4 2 0 0) (row_ref r) &&
        (6 =? row_duration r) && shown NS_SEC (ts 2017 10 4 7 59 59) (row_end r) && (1000002 =? row_label r) &&
        has_flag b 0 true && has_flag b 1 false);
        row_at df59 6 (fun r b => shown NS_SEC (ts 2017 10 4 8 0 0) (row_ref r) && (10 =? row_duration r) &&
        shown NS_SEC (ts 2017 10 4 17 59 59) (row_end r) && (1000003 =? row_label r) && has_flag b 0 true &&
        has_flag b 1 false); row_at df59 7 (fun r b => shown NS_SEC (ts 2017 10 4 18 0 0) (row_ref r) &&
        (8 =? row_duration r) && shown NS_SEC (ts 2017 10 5 1 59 59) (row_end r) && (1000004 =? row_label r) &&
        has_flag b 0 true && has_flag b 1 false);
        row_at df59 8 (fun r b => shown NS_SEC (ts 2017 10 5 2 0 0) (row_ref r) && (6 =? row_duration r) &&
        shown NS_SEC (ts 2017 10 5 7 59 59) (row_end r) && (1000001 =? row_label r) && has_flag b 0 true &&
        has_flag b 1 true); row_at df59 9 (fun r b => shown NS_SEC (ts 2017 10 5 8 0 0) (row_ref r) &&
        (10 =? row_duration r) && shown NS_SEC (ts 2017 10 5 17 59 59) (row_end r) && (1000002 =? row_label r) &&
        has_flag b 0 true && has_flag b 1 false);
        row_at df59 10 (fun r b => shown NS_SEC (ts 2017 10 5 18 0 0) (row_ref r) && (8 =? row_duration r) &&
        shown NS_SEC (ts 2017 10 6 1 59 59) (row_end r) && (1000003 =? row_label r) && has_flag b 0 true &&
        has_flag b 1 false); row_at df59 11 (fun r b => shown NS_SEC (ts 2017 10 6 2 0 0) (row_ref r) &&
        (6 =? row_duration r) && shown NS_SEC (ts 2017 10 6 7 59 59) (row_end r) && (1000004 =? row_label r) &&
        has_flag b 0 true && has_flag b 1 false);
        row_at df59 12 (fun r b => shown NS_SEC (ts 2017 10 6 8 0 0) (row_ref r) && (10 =? row_duration r) &&
        shown NS_SEC (ts 2017 10 6 17 59 59) (row_end r) && (1000001 =? row_label r) && has_flag b 0 true &&
        has_flag b 1 true); row_at df59 13 (fun r b => shown NS_SEC (ts 2017 10 6 18 0 0) (row_ref r) &&
        (8 =? row_duration r) && shown NS_SEC (ts 2017 10 7 1 59 59) (row_end r) && (1000002 =? row_label r) &&
        has_flag b 0 true && has_flag b 1 false); (zlen df59 =? 14)]]) = true.
Proof. vm_compute. reflexivity. Qed.

(** doc/source/making_a_timeboard.rst:875 *)
Example making_a_timeboard_875 : passes (
  let heap0 : heap Z := [new_rpat [1; 1; 1; 0; 0]; new_rpat [1000001; 1000002; 1000003; 1000004]; new_rpat [1000001; 1000002; 1000003; 1000004]] in
  do tb48 <- build (mkArgs (mkFstr None AlD) (ts 2016 1 1 0 0 0) (ts 2017 12 31 0 0 0) (LOrg (DMarker (mkMarker
          (mkFstr None (AlA None)) [from_start_of_each (DKw 0 6 0 13 0 0 0);
          from_start_of_each (DKw 0 8 0 0 0 0 0)])) [(LPat (PRem 0));
          (LPat (PList [(-1)]))]) [] (fun x => ((x >? 0))) 0 false (-999999) WDuration conf_num) heap0;
  do tb60 <- build (mkArgs (mkFstr None AlH) (ts 2017 10 2 0 0 0) (ts 2017 10 10 1 59 0) (LOrg (DMarker (mkMarker
          (mkFstr None (AlW None)) [from_start_of_each (DKw 0 0 0 0 2 0 0);
          from_start_of_each (DKw 0 0 0 5 2 0 0)])) [(LLab 0);
          (LOrgRem (DMarker (mkMarker (mkFstr None AlD) [from_start_of_each (DKw 0 0 0 0 2 0 0);
          from_start_of_each (DKw 0 0 0 0 8 0 0);
          from_start_of_each (DKw 0 0 0 0 18 0 0)])) 1)]) [] (fun x => negb (x =? 0)) 0 false (-999999) WDuration
          conf_num) (snd tb48);
  do r61 <- add_schedule (fst tb60) 1 (fun x => ((x =? 1000001)));
  do tx62 <- tb_compact (fst r61);
  do df63 <- tb_dataframe (fst r61) 0 (tb_len (fst r61) - 1);
  Ok [forallb (fun x => x) [(tokens_eqb tx62 [TText "Timeboard of '"; TFreq (mkFstr None AlH); TText "': ";
        TPeriod (fbase (to_freq (mkFstr None AlH))) (pord (fbase (to_freq (mkFstr None AlH))) (ts 2017 10 2 0 0 0));
        TText " -> ";
        TPeriod (fbase (to_freq (mkFstr None AlH))) (pord (fbase (to_freq (mkFstr None AlH))) (ts 2017 10 10 1 0
        0))]); row_at df63 0 (fun r b => shown NS_SEC (ts 2017 10 2 0 0 0) (row_ref r) && (2 =? row_duration r) &&
        shown NS_SEC (ts 2017 10 2 1 59 59) (row_end r) && (0 =? row_label r) && has_flag b 0 false &&
        has_flag b 1 false); row_at df63 1 (fun r b => shown NS_SEC (ts 2017 10 2 2 0 0) (row_ref r) &&
        (6 =? row_duration r) && shown NS_SEC (ts 2017 10 2 7 59 59) (row_end r) && (1000001 =? row_label r) &&
        has_flag b 0 true && has_flag b 1 true);
        row_at df63 2 (fun r b => shown NS_SEC (ts 2017 10 2 8 0 0) (row_ref r) && (10 =? row_duration r) &&
        shown NS_SEC (ts 2017 10 2 17 59 59) (row_end r) && (1000002 =? row_label r) && has_flag b 0 true &&
        has_flag b 1 false); row_at df63 3 (fun r b => shown NS_SEC (ts 2017 10 2 18 0 0) (row_ref r) &&
        (8 =? row_duration r) && shown NS_SEC (ts 2017 10 3 1 59 59) (row_end r) && (1000003 =? row_label r) &&
        has_flag b 0 true && has_flag b 1 false);
        row_at df63 4 (fun r b => shown NS_SEC (ts 2017 10 3 2 0 0) (row_ref r) && (6 =? row_duration r) &&
        shown NS_SEC (ts 2017 10 3 7 59 59) (row_end r) && (1000004 =? row_label r) && has_flag b 0 true &&
        has_flag b 1 false); row_at df63 5 (fun r b => shown NS_SEC (ts 2017 10 3 8 0 0) (row_ref r) &&
        (10 =? row_duration r) && shown NS_SEC (ts 2017 10 3 17 59 59) (row_end r) && (1000001 =? row_label r) &&
        has_flag b 0 true && has_flag b 1 true);
        row_at df63 6 (fun r b => shown NS_SEC (ts 2017 10 3 18 0 0) (row_ref r) && (8 =? row_duration r) &&
        shown NS_SEC (ts 2017 10 4 1 59 59) (row_end r) && (1000002 =? row_label r) && has_flag b 0 true &&
        has_flag b 1 false); row_at df63 7 (fun r b => shown NS_SEC (ts 2017 10 4 2 0 0) (row_ref r) &&
        (6 =? row_duration r) && shown NS_SEC (ts 2017 10 4 7 59 59) (row_end r) && (1000003 =? row_label r) &&
        has_flag b 0 true && has_flag b 1 false);
        row_at df63 8 (fun r b => shown NS_SEC (ts 2017 10 4 8 0 0) (row_ref r) && (10 =? row_duration r) &&
        shown NS_SEC (ts 2017 10 4 17 59 59) (row_end r) && (1000004 =? row_label r) && has_flag b 0 true &&
        has_flag b 1 false); row_at df63 9 (fun r b => shown NS_SEC (ts 2017 10 4 18 0 0) (row_ref r) &&
        (8 =? row_duration r) && shown NS_SEC (ts 2017 10 5 1 59 59) (row_end r) && (1000001 =? row_label r) &&
        has_flag b 0 true && has_flag b 1 true);
        row_at df63 10 (fun r b => shown NS_SEC (ts 2017 10 5 2 0 0) (row_ref r) && (6 =? row_duration r) &&
        shown NS_SEC (ts 2017 10 5 7 59 59) (row_end r) && (1000002 =? row_label r) && has_flag b 0 true &&
        has_flag b 1 false); row_at df63 11 (fun r b => shown NS_SEC (ts 2017 10 5 8 0 0) (row_ref r) &&
        (10 =? row_duration r) && shown NS_SEC (ts 2017 10 5 17 59 59) (row_end r) && (1000003 =? row_label r) &&
        has_flag b 0 true && has_flag b 1 false);
        row_at df63 12 (fun r b => shown NS_SEC (ts 2017 10 5 18 0 0) (row_ref r) && (8 =? row_duration r) &&
        shown NS_SEC (ts 2017 10 6 1 59 59) (row_end r) && (1000004 =? row_label r) && has_flag b 0 true &&
        has_flag b 1 false); row_at df63 13 (fun r b => shown NS_SEC (ts 2017 10 6 2 0 0) (row_ref r) &&
        (6 =? row_duration r) && shown NS_SEC (ts 2017 10 6 7 59 59) (row_end r) && (1000001 =? row_label r) &&
        has_flag b 0 true && has_flag b 1 true);
        row_at df63 14 (fun r b => shown NS_SEC (ts 2017 10 6 8 0 0) (row_ref r) && (10 =? row_duration r) &&
        shown NS_SEC (ts 2017 10 6 17 59 59) (row_end r) && (1000002 =? row_label r) && has_flag b 0 true &&
        has_flag b 1 false); row_at df63 15 (fun r b => shown NS_SEC (ts 2017 10 6 18 0 0) (row_ref r) &&
        (8 =? row_duration r) && shown NS_SEC (ts 2017 10 7 1 59 59) (row_end r) && (1000003 =? row_label r) &&
        has_flag b 0 true && has_flag b 1 false);
        row_at df63 16 (fun r b => shown NS_SEC (ts 2017 10 7 2 0 0) (row_ref r) && (48 =? row_duration r) &&
        shown NS_SEC (ts 2017 10 9 1 59 59) (row_end r) && (0 =? row_label r) && has_flag b 0 false &&
        has_flag b 1 false); row_at df63 17 (fun r b => shown NS_SEC (ts 2017 10 9 2 0 0) (row_ref r) &&
        (6 =? row_duration r) && shown NS_SEC (ts 2017 10 9 7 59 59) (row_end r) && (1000004 =? row_label r) &&
        has_flag b 0 true && has_flag b 1 false);
        row_at df63 18 (fun r b => shown NS_SEC (ts 2017 10 9 8 0 0) (row_ref r) && (10 =? row_duration r) &&
        shown NS_SEC (ts 2017 10 9 17 59 59) (row_end r) && (1000001 =? row_label r) && has_flag b 0 true &&
        has_flag b 1 true); row_at df63 19 (fun r b => shown NS_SEC (ts 2017 10 9 18 0 0) (row_ref r) &&
        (8 =? row_duration r) && shown NS_SEC (ts 2017 10 10 1 59 59) (row_end r) && (1000002 =? row_label r) &&
        has_flag b 0 true && has_flag b 1 false); (zlen df63 =? 20)]]) = true.
Proof. vm_compute. reflexivity. Qed.

(** doc/source/making_a_timeboard.rst:952 *)
Example making_a_timeboard_952 : passes (
  let heap0 : heap Z := [new_rpat [1; 1; 1; 0; 0]; new_rpat [1000001; 1000002; 1000003; 1000004]; new_rpat [1000001; 1000002; 1000003; 1000004]] in
  do tb65 <- build (mkArgs (mkFstr None AlD) (ts 2017 10 2 0 0 0) (ts 2017 10 15 0 0 0) (LOrg (DMarker (mkMarker
          (mkFstr None (AlW None)) [])) [(LPat (PList [1]))]) [] (fun x => negb (x =? 0)) 0 false (-999999) WDuration
          conf_num) heap0;
  do tx66 <- tb_compact (fst tb65);
  Ok [(tokens_eqb tx66 [TText "Timeboard of '"; TFreq (mkFstr None AlD); TText "': ";
        TPeriod (fbase (to_freq (mkFstr None AlD))) (pord (fbase (to_freq (mkFstr None AlD))) (ts 2017 10 2 0 0 0));
        TText " -> ";
        TPeriod (fbase (to_freq (mkFstr None AlD))) (pord (fbase (to_freq (mkFstr None AlD))) (ts 2017 10 15 0 0 0))])]) = true.
Proof. vm_compute. reflexivity. Qed.

(** doc/source/making_a_timeboard.rst:991 *)
Example making_a_timeboard_991 : passes (
  let heap0 : heap Z := [new_rpat [1; 1; 1; 0; 0]; new_rpat [1000001; 1000002; 1000003; 1000004]; new_rpat [1000001; 1000002; 1000003; 1000004]] in
  do tb48 <- build (mkArgs (mkFstr None AlD) (ts 2016 1 1 0 0 0) (ts 2017 12 31 0 0 0) (LOrg (DMarker (mkMarker
          (mkFstr None (AlA None)) [from_start_of_each (DKw 0 6 0 13 0 0 0);
          from_start_of_each (DKw 0 8 0 0 0 0 0)])) [(LPat (PRem 0));
          (LPat (PList [(-1)]))]) [] (fun x => ((x >? 0))) 0 false (-999999) WDuration conf_num) heap0;
  do tb60 <- build (mkArgs (mkFstr None AlH) (ts 2017 10 2 0 0 0) (ts 2017 10 10 1 59 0) (LOrg (DMarker (mkMarker
          (mkFstr None (AlW None)) [from_start_of_each (DKw 0 0 0 0 2 0 0);
          from_start_of_each (DKw 0 0 0 5 2 0 0)])) [(LLab 0);
          (LOrgRem (DMarker (mkMarker (mkFstr None AlD) [from_start_of_each (DKw 0 0 0 0 2 0 0);
          from_start_of_each (DKw 0 0 0 0 8 0 0);
          from_start_of_each (DKw 0 0 0 0 18 0 0)])) 1)]) [] (fun x => negb (x =? 0)) 0 false (-999999) WDuration
          conf_num) (snd tb48);
  do tb68 <- build (mkArgs (mkFstr None AlH) (ts 2017 10 2 0 0 0) (ts 2017 10 10 1 59 0) (LOrg (DMarker (mkMarker
          (mkFstr None (AlW None)) [from_start_of_each (DKw 0 0 0 0 2 0 0);
          from_start_of_each (DKw 0 0 0 5 2 0 0)])) [(LLab 0);
          (LOrgRem (DMarker (mkMarker (mkFstr None AlD) [from_start_of_each (DKw 0 0 0 0 2 0 0);
          from_start_of_each (DKw 0 0 0 0 8 0 0);
          from_start_of_each (DKw 0 0 0 0 18 0 0)])) 2)]) [] (fun x => negb (x =? 0)) 0 false (-999999) WDuration
          conf_num) (snd tb60);
  do r69 <- add_schedule (fst tb68) 1 (fun x => ((x =? 1000001)));
  do tx70 <- tb_compact (fst r69);
  do df71 <- tb_dataframe (fst r69) 0 (tb_len (fst r69) - 1);
  Ok [forallb (fun x => x) [(tokens_eqb tx70 [TText "Timeboard of '"; TFreq (mkFstr None AlH); TText "': ";
        TPeriod (fbase (to_freq (mkFstr None AlH))) (pord (fbase (to_freq (mkFstr None AlH))) (ts 2017 10 2 0 0 0));
        TText " -> ";
        TPeriod (fbase (to_freq (mkFstr None AlH))) (pord (fbase (to_freq (mkFstr None AlH))) (ts 2017 10 10 1 0
        0))]); row_at df71 0 (fun r b => shown NS_SEC (ts 2017 10 2 0 0 0) (row_ref r) && (2 =? row_duration r) &&
        shown NS_SEC (ts 2017 10 2 1 59 59) (row_end r) && (0 =? row_label r) && has_flag b 0 false &&
        has_flag b 1 false); row_at df71 1 (fun r b => shown NS_SEC (ts 2017 10 2 2 0 0) (row_ref r) &&
        (6 =? row_duration r) && shown NS_SEC (ts 2017 10 2 7 59 59) (row_end r) && (1000001 =? row_label r) &&
        has_flag b 0 true && has_flag b 1 true);
        row_at df71 2 (fun r b => shown NS_SEC (ts 2017 10 2 8 0 0) (row_ref r) && (10 =? row_duration r) &&
        shown NS_SEC (ts 2017 10 2 17 59 59) (row_end r) && (1000002 =? row_label r) && has_flag b 0 true &&
        has_flag b 1 false); row_at df71 3 (fun r b => shown NS_SEC (ts 2017 10 2 18 0 0) (row_ref r) &&
        (8 =? row_duration r) && shown NS_SEC (ts 2017 10 3 1 59 59) (row_end r) && (1000003 =? row_label r) &&
        has_flag b 0 true && has_flag b 1 false);
        row_at df71 4 (fun r b => shown NS_SEC (ts 2017 10 3 2 0 0) (row_ref r) && (6 =? row_duration r) &&
        shown NS_SEC (ts 2017 10 3 7 59 59) (row_end r) && (1000004 =? row_label r) && has_flag b 0 true &&
        has_flag b 1 false); row_at df71 5 (fun r b => shown NS_SEC (ts 2017 10 3 8 0 0) (row_ref r) &&
        (10 =? row_duration r) && shown NS_SEC (ts 2017 10 3 17 59 59) (row_end r) && (1000001 =? row_label r) &&
        has_flag b 0 true && has_flag b 1 true);
        row_at df71 6 (fun r b => shown NS_SEC (ts 2017 10 3 18 0 0) (row_ref r) && (8 =? row_duration r) &&
        shown NS_SEC (ts 2017 10 4 1 59 59) (row_end r) && (1000002 =? row_label r) && has_flag b 0 true &&
        has_flag b 1 false); row_at df71 7 (fun r b => shown NS_SEC (ts 2017 10 4 2 0 0) (row_ref r) &&
        (6 =? row_duration r) && shown NS_SEC (ts 2017 10 4 7 59 59) (row_end r) && (1000003 =? row_label r) &&
        has_flag b 0 true && has_flag b 1 false);
        row_at df71 8 (fun r b => shown NS_SEC (ts 2017 10 4 8 0 0) (row_ref r) && (10 =? row_duration r) &&
        shown NS_SEC (ts 2017 10 4 17 59 59) (row_end r) && (1000004 =? row_label r) && has_flag b 0 true &&
        has_flag b 1 false); row_at df71 9 (fun r b => shown NS_SEC (ts 2017 10 4 18 0 0) (row_ref r) &&
        (8 =? row_duration r) && shown NS_SEC (ts 2017 10 5 1 59 59) (row_end r) && (1000001 =? row_label r) &&
        has_flag b 0 true && has_flag b 1 true);
        row_at df71 10 (fun r b => shown NS_SEC (ts 2017 10 5 2 0 0) (row_ref r) && (6 =? row_duration r) &&
        shown NS_SEC (ts 2017 10 5 7 59 59) (row_end r) && (1000002 =? row_label r) && has_flag b 0 true &&
        has_flag b 1 false); row_at df71 11 (fun r b => shown NS_SEC (ts 2017 10 5 8 0 0) (row_ref r) &&
        (10 =? row_duration r) && shown NS_SEC (ts 2017 10 5 17 59 59) (row_end r) && (1000003 =? row_label r) &&
        has_flag b 0 true && has_flag b 1 false);
        row_at df71 12 (fun r b => shown NS_SEC (ts 2017 10 5 18 0 0) (row_ref r) && (8 =? row_duration r) &&
        shown NS_SEC (ts 2017 10 6 1 59 59) (row_end r) && (1000004 =? row_label r) && has_flag b 0 true &&
        has_flag b 1 false); row_at df71 13 (fun r b => shown NS_SEC (ts 2017 10 6 2 0 0) (row_ref r) &&
        (6 =? row_duration r) && shown NS_SEC (ts 2017 10 6 7 59 59) (row_end r) && (1000001 =? row_label r) &&
        has_flag b 0 true && has_flag b 1 true);
        row_at df71 14 (fun r b => shown NS_SEC (ts 2017 10 6 8 0 0) (row_ref r) && (10 =? row_duration r) &&
        shown NS_SEC (ts 2017 10 6 17 59 59) (row_end r) && (1000002 =? row_label r) && has_flag b 0 true &&
        has_flag b 1 false); row_at df71 15 (fun r b => shown NS_SEC (ts 2017 10 6 18 0 0) (row_ref r) &&
        (8 =? row_duration r) && shown NS_SEC (ts 2017 10 7 1 59 59) (row_end r) && (1000003 =? row_label r) &&
        has_flag b 0 true && has_flag b 1 false);
        row_at df71 16 (fun r b => shown NS_SEC (ts 2017 10 7 2 0 0) (row_ref r) && (48 =? row_duration r) &&
        shown NS_SEC (ts 2017 10 9 1 59 59) (row_end r) && (0 =? row_label r) && has_flag b 0 false &&
        has_flag b 1 false); row_at df71 17 (fun r b => shown NS_SEC (ts 2017 10 9 2 0 0) (row_ref r) &&
        (6 =? row_duration r) && shown NS_SEC (ts 2017 10 9 7 59 59) (row_end r) && (1000004 =? row_label r) &&
        has_flag b 0 true && has_flag b 1 false);
        row_at df71 18 (fun r b => shown NS_SEC (ts 2017 10 9 8 0 0) (row_ref r) && (10 =? row_duration r) &&
        shown NS_SEC (ts 2017 10 9 17 59 59) (row_end r) && (1000001 =? row_label r) && has_flag b 0 true &&
        has_flag b 1 true); row_at df71 19 (fun r b => shown NS_SEC (ts 2017 10 9 18 0 0) (row_ref r) &&
        (8 =? row_duration r) && shown NS_SEC (ts 2017 10 10 1 59 59) (row_end r) && (1000002 =? row_label r) &&
        has_flag b 0 true && has_flag b 1 false); (zlen df71 =? 20)]]) = true.
Proof. vm_compute. reflexivity. Qed.

(** doc/source/making_a_timeboard.rst:1025 *)
Example making_a_timeboard_1025 : passes (
  let heap0 : heap Z := [new_rpat [1; 1; 1; 0; 0]; new_rpat [1000001; 1000002; 1000003; 1000004]; new_rpat [1000001; 1000002; 1000003; 1000004]] in
  do tb48 <- build (mkArgs (mkFstr None AlD) (ts 2016 1 1 0 0 0) (ts 2017 12 31 0 0 0) (LOrg (DMarker (mkMarker
          (mkFstr None (AlA None)) [from_start_of_each (DKw 0 6 0 13 0 0 0);
          from_start_of_each (DKw 0 8 0 0 0 0 0)])) [(LPat (PRem 0));
          (LPat (PList [(-1)]))]) [] (fun x => ((x >? 0))) 0 false (-999999) WDuration conf_num) heap0;
  do tb60 <- build (mkArgs (mkFstr None AlH) (ts 2017 10 2 0 0 0) (ts 2017 10 10 1 59 0) (LOrg (DMarker (mkMarker
          (mkFstr None (AlW None)) [from_start_of_each (DKw 0 0 0 0 2 0 0);
          from_start_of_each (DKw 0 0 0 5 2 0 0)])) [(LLab 0);
          (LOrgRem (DMarker (mkMarker (mkFstr None AlD) [from_start_of_each (DKw 0 0 0 0 2 0 0);
          from_start_of_each (DKw 0 0 0 0 8 0 0);
          from_start_of_each (DKw 0 0 0 0 18 0 0)])) 1)]) [] (fun x => negb (x =? 0)) 0 false (-999999) WDuration
          conf_num) (snd tb48);
  do tb68 <- build (mkArgs (mkFstr None AlH) (ts 2017 10 2 0 0 0) (ts 2017 10 10 1 59 0) (LOrg (DMarker (mkMarker
          (mkFstr None (AlW None)) [from_start_of_each (DKw 0 0 0 0 2 0 0);
          from_start_of_each (DKw 0 0 0 5 2 0 0)])) [(LLab 0);
          (LOrgRem (DMarker (mkMarker (mkFstr None AlD) [from_start_of_each (DKw 0 0 0 0 2 0 0);
          from_start_of_each (DKw 0 0 0 0 8 0 0);
          from_start_of_each (DKw 0 0 0 0 18 0 0)])) 2)]) [] (fun x => negb (x =? 0)) 0 false (-999999) WDuration
          conf_num) (snd tb60);
  do tb72 <- build (mkArgs (mkFstr None AlH) (ts 2017 10 2 2 0 0) (ts 2017 10 10 1 59 0) (LOrg (DMarker (mkMarker
          (mkFstr None (AlW None)) [from_start_of_each (DKw 0 0 0 0 2 0 0);
          from_start_of_each (DKw 0 0 0 5 2 0 0)])) [(LLab 0);
          (LOrgRem (DMarker (mkMarker (mkFstr None AlD) [from_start_of_each (DKw 0 0 0 0 2 0 0);
          from_start_of_each (DKw 0 0 0 0 8 0 0);
          from_start_of_each (DKw 0 0 0 0 18 0 0)])) 2)]) [] (fun x => negb (x =? 0)) 0 false (-999999) WDuration
          conf_num) (snd tb68);
  do tx73 <- tb_compact (fst tb72);
  do df74 <- tb_dataframe (fst tb72) 0 (tb_len (fst tb72) - 1);
  Ok [forallb (fun x => x) [(tokens_eqb tx73 [TText "Timeboard of '"; TFreq (mkFstr None AlH); TText "': ";
        TPeriod (fbase (to_freq (mkFstr None AlH))) (pord (fbase (to_freq (mkFstr None AlH))) (ts 2017 10 2 2 0 0));
        TText " -> ";
        TPeriod (fbase (to_freq (mkFstr None AlH))) (pord (fbase (to_freq (mkFstr None AlH))) (ts 2017 10 10 1 0
        0))]); row_at df74 0 (fun r b => shown NS_SEC (ts 2017 10 2 2 0 0) (row_ref r) && (120 =? row_duration r) &&
        shown NS_SEC (ts 2017 10 7 1 59 59) (row_end r) && (0 =? row_label r) && has_flag b 0 false);
        row_at df74 1 (fun r b => shown NS_SEC (ts 2017 10 7 2 0 0) (row_ref r) && (6 =? row_duration r) &&
        shown NS_SEC (ts 2017 10 7 7 59 59) (row_end r) && (1000003 =? row_label r) && has_flag b 0 true);
        row_at df74 2 (fun r b => shown NS_SEC (ts 2017 10 7 8 0 0) (row_ref r) && (10 =? row_duration r) &&
        shown NS_SEC (ts 2017 10 7 17 59 59) (row_end r) && (1000004 =? row_label r) && has_flag b 0 true);
        row_at df74 3 (fun r b => shown NS_SEC (ts 2017 10 7 18 0 0) (row_ref r) && (8 =? row_duration r) &&
        shown NS_SEC (ts 2017 10 8 1 59 59) (row_end r) && (1000001 =? row_label r) && has_flag b 0 true);
        row_at df74 4 (fun r b => shown NS_SEC (ts 2017 10 8 2 0 0) (row_ref r) && (6 =? row_duration r) &&
        shown NS_SEC (ts 2017 10 8 7 59 59) (row_end r) && (1000002 =? row_label r) && has_flag b 0 true);
        row_at df74 5 (fun r b => shown NS_SEC (ts 2017 10 8 8 0 0) (row_ref r) && (10 =? row_duration r) &&
        shown NS_SEC (ts 2017 10 8 17 59 59) (row_end r) && (1000003 =? row_label r) && has_flag b 0 true);
        row_at df74 6 (fun r b => shown NS_SEC (ts 2017 10 8 18 0 0) (row_ref r) && (8 =? row_duration r) &&
        shown NS_SEC (ts 2017 10 9 1 59 59) (row_end r) && (1000004 =? row_label r) && has_flag b 0 true);
        row_at df74 7 (fun r b => shown NS_SEC (ts 2017 10 9 2 0 0) (row_ref r) && (24 =? row_duration r) &&
        shown NS_SEC (ts 2017 10 10 1 59 59) (row_end r) && (0 =? row_label r) && has_flag b 0 false); (zlen df74 =? 8)]]) = true.
Proof. vm_compute. reflexivity. Qed.
