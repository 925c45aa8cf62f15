(** ConfDocsDoing: examples of the documentation about the model.
    Written by tools/docs2coq.py. *)
From Verif Require Api.
From Verif Require Import Base Civil Freq Frame Timeline Board When Calendars Text ConfBase ConfDocBase.
From Coq Require Import QArith String.
Open Scope string_scope.
Open Scope list_scope.
Open Scope Z_scope.

(** doc/source/doing_calculations.rst:28, 33, 40, 52, 54 *)
Example doing_calculations_28 : passes (
  let heap0 : heap Z := [] in
  do tb1 <- build (mkArgs (mkFstr None AlD) (ts 2017 9 30 0 0 0) (ts 2017 10 11 0 0 0) (LPat (PList [0; 1; 0;
          2])) [] (fun x => negb (x =? 0)) 0 false (-999999) WDuration conf_num) heap0;
  do w2 <- get_workshift (fst tb1) (ts 2017 10 1 0 0 0) None;
  do tx3 <- ws_repr (fst tb1) w2;
  do w4 <- get_workshift (fst tb1) (ts 2017 10 1 0 0 0) None;
  do tx5 <- ws_repr (fst tb1) w4;
  do w6 <- new_workshift (fst tb1) 1 (tb_default (fst tb1));
  do tx7 <- ws_repr (fst tb1) w6;
  do r8 <- add_schedule (fst tb1) 1 (fun x => ((x >? 1)));
  do w9 <- get_workshift (fst r8) (ts 2017 10 1 0 0 0) (Some (snd r8));
  do tx10 <- ws_repr (fst r8) w9;
  do w11 <- new_workshift (fst r8) 1 (snd r8);
  do tx12 <- ws_repr (fst r8) w11;
  Ok [(tokens_eqb tx3 [TText "Workshift("; TNum 1; TText ") of "; TText "'"; TFreq (mkFstr None AlD); TText "' at ";
        TPeriod (fbase (to_freq (mkFstr None AlD))) (pord (fbase (to_freq (mkFstr None AlD))) (ts 2017 10 1 0 0 0))]);
       (tokens_eqb tx5 [TText "Workshift("; TNum 1; TText ") of "; TText "'"; TFreq (mkFstr None AlD); TText "' at ";
        TPeriod (fbase (to_freq (mkFstr None AlD))) (pord (fbase (to_freq (mkFstr None AlD))) (ts 2017 10 1 0 0 0))]);
       (tokens_eqb tx7 [TText "Workshift("; TNum 1; TText ") of "; TText "'"; TFreq (mkFstr None AlD); TText "' at ";
        TPeriod (fbase (to_freq (mkFstr None AlD))) (pord (fbase (to_freq (mkFstr None AlD))) (ts 2017 10 1 0 0 0))]);
       (tokens_eqb tx10 [TText "Workshift("; TNum 1; TText ", "; TSched 1; TText ") of "; TText "'";
        TFreq (mkFstr None AlD); TText "' at ";
        TPeriod (fbase (to_freq (mkFstr None AlD))) (pord (fbase (to_freq (mkFstr None AlD))) (ts 2017 10 1 0 0 0))]);
       (tokens_eqb tx12 [TText "Workshift("; TNum 1; TText ", "; TSched 1; TText ") of "; TText "'";
        TFreq (mkFstr None AlD); TText "' at ";
        TPeriod (fbase (to_freq (mkFstr None AlD))) (pord (fbase (to_freq (mkFstr None AlD))) (ts 2017 10 1 0 0 0))])]) = true.
Proof. vm_compute. reflexivity. Qed.

(** doc/source/doing_calculations.rst:129, 131, 136, 138 *)
Example doing_calculations_129 : passes (
  let heap0 : heap Z := [] in
  do tb13 <- build (mkArgs (mkFstr None AlD) (ts 2017 9 30 0 0 0) (ts 2017 10 11 0 0 0) (LPat (PList [0; 1; 0;
          2])) [] (fun x => negb (x =? 0)) 0 false (-999999) WDuration conf_num) heap0;
  do r14 <- add_schedule (fst tb13) 1 (fun x => ((x >? 1)));
  do w15 <- get_workshift (fst r14) (ts 2017 10 1 0 0 0) None;
  do w16 <- get_workshift (fst r14) (ts 2017 10 1 0 0 0) (Some (snd r14));
  do b17 <- is_on_duty (fst r14) w15 (ws_sched w15);
  do b18 <- is_on_duty (fst r14) w16 (tb_default (fst r14));
  do b19 <- is_on_duty (fst r14) w15 (snd r14);
  do b20 <- is_on_duty (fst r14) w16 (ws_sched w16);
  Ok [(Bool.eqb b17 true);
       (Bool.eqb b18 true);
       (Bool.eqb b19 false);
       (Bool.eqb b20 false)]) = true.
Proof. vm_compute. reflexivity. Qed.

(** doc/source/doing_calculations.rst:156, 158, 160, 162, 164, 166 *)
Example doing_calculations_156 : passes (
  let heap0 : heap Z := [] in
  do tb21 <- build (mkArgs (mkFstr None AlD) (ts 2017 9 30 0 0 0) (ts 2017 10 11 0 0 0) (LPat (PList [4; 8; 4;
          8])) [] (fun x => ((x >? 4))) 0 false (-999999) WDuration conf_num) heap0;
  do w22 <- new_workshift (fst tb21) 3 (tb_default (fst tb21));
  do n23 <- ws_duration (tb_tl (fst tb21)) (ws_loc w22);
  do b24 <- is_on_duty (fst tb21) w22 (ws_sched w22);
  do q25 <- ws_worktime (fst tb21) w22 DOn None;
  do q26 <- ws_worktime (fst tb21) w22 DOff None;
  do q27 <- ws_worktime (fst tb21) w22 DAny None;
  Ok [((ws_label w22) =? 8);
       (n23 =? 1);
       (Bool.eqb b24 true);
       (qclose q25 (1 # 1));
       (qclose q26 (0 # 1));
       (qclose q27 (1 # 1))]) = true.
Proof. vm_compute. reflexivity. Qed.

(** doc/source/doing_calculations.rst:179, 181, 183, 189, 191, 193, 195, 197 *)
Example doing_calculations_179 : passes (
  let heap0 : heap Z := [] in
  do tb28 <- build (mkArgs (mkFstr None AlD) (ts 2017 9 30 0 0 0) (ts 2017 10 11 0 0 0) (LPat (PList [4; 8; 4;
          8])) [] (fun x => ((x >? 4))) 0 false (-999999) WLabels conf_num) heap0;
  do w29 <- new_workshift (fst tb28) 3 (tb_default (fst tb28));
  do q30 <- ws_worktime (fst tb28) w29 DOn None;
  do q31 <- ws_worktime (fst tb28) w29 DOff None;
  do q32 <- ws_worktime (fst tb28) w29 DAny None;
  do w33 <- new_workshift (fst tb28) 2 (tb_default (fst tb28));
  do b34 <- is_off_duty (fst tb28) w33 (ws_sched w33);
  do q35 <- ws_worktime (fst tb28) w33 DOn None;
  do q36 <- ws_worktime (fst tb28) w33 DOff None;
  do q37 <- ws_worktime (fst tb28) w33 DAny None;
  Ok [(qclose q30 (8 # 1));
       (qclose q31 (0 # 1));
       (qclose q32 (8 # 1));
       ((ws_label w33) =? 4);
       (Bool.eqb b34 true);
       (qclose q35 (0 # 1));
       (qclose q36 (4 # 1));
       (qclose q37 (4 # 1))]) = true.
Proof. vm_compute. reflexivity. Qed.

(** doc/source/doing_calculations.rst:218, 238, 240, 245, 247, 252, 254, 259, 261, 268, 270, 275, 277, 282, 284, 289, 291, 301, 303, 315, 317, 324, 333, 335, 342, 344 *)
Example doing_calculations_218 : passes (
  let heap0 : heap Z := [] in
  do tb38 <- build (mkArgs (mkFstr None AlD) (ts 2017 9 30 0 0 0) (ts 2017 10 11 0 0 0) (LPat (PList [0; 1; 0;
          2])) [] (fun x => negb (x =? 0)) 0 false (-999999) WDuration conf_num) heap0;
  do tx39 <- tb_compact (fst tb38);
  do df40 <- tb_dataframe (fst tb38) 0 (tb_len (fst tb38) - 1);
  do w41 <- get_workshift (fst tb38) (ts 2017 10 5 0 0 0) None;
  do w42 <- rollforward (fst tb38) w41 0 DOn None;
  do tx43 <- ws_repr (fst tb38) w42;
  do w44 <- get_workshift (fst tb38) (ts 2017 10 6 0 0 0) None;
  do w45 <- rollforward (fst tb38) w44 0 DOn None;
  do tx46 <- ws_repr (fst tb38) w45;
  do w47 <- get_workshift (fst tb38) (ts 2017 10 5 0 0 0) None;
  do w48 <- rollback (fst tb38) w47 0 DOn None;
  do tx49 <- ws_repr (fst tb38) w48;
  do w50 <- get_workshift (fst tb38) (ts 2017 10 6 0 0 0) None;
  do w51 <- rollback (fst tb38) w50 0 DOn None;
  do tx52 <- ws_repr (fst tb38) w51;
  do w53 <- get_workshift (fst tb38) (ts 2017 10 5 0 0 0) None;
  do w54 <- rollforward (fst tb38) w53 0 DOff None;
  do tx55 <- ws_repr (fst tb38) w54;
  do w56 <- get_workshift (fst tb38) (ts 2017 10 6 0 0 0) None;
  do w57 <- rollforward (fst tb38) w56 0 DOff None;
  do tx58 <- ws_repr (fst tb38) w57;
  do w59 <- get_workshift (fst tb38) (ts 2017 10 5 0 0 0) None;
  do w60 <- rollback (fst tb38) w59 0 DOff None;
  do tx61 <- ws_repr (fst tb38) w60;
  do w62 <- get_workshift (fst tb38) (ts 2017 10 6 0 0 0) None;
  do w63 <- rollback (fst tb38) w62 0 DOff None;
  do tx64 <- ws_repr (fst tb38) w63;
  do w65 <- get_workshift (fst tb38) (ts 2017 10 5 0 0 0) None;
  do w66 <- rollforward (fst tb38) w65 2 DOn None;
  do tx67 <- ws_repr (fst tb38) w66;
  do w68 <- get_workshift (fst tb38) (ts 2017 10 6 0 0 0) None;
  do w69 <- rollforward (fst tb38) w68 2 DOn None;
  do tx70 <- ws_repr (fst tb38) w69;
  do w71 <- get_workshift (fst tb38) (ts 2017 10 5 0 0 0) None;
  do w72 <- rollback (fst tb38) w71 2 DOn None;
  do tx73 <- ws_repr (fst tb38) w72;
  do w74 <- get_workshift (fst tb38) (ts 2017 10 6 0 0 0) None;
  do w75 <- rollback (fst tb38) w74 2 DOn None;
  do tx76 <- ws_repr (fst tb38) w75;
  do w77 <- get_workshift (fst tb38) (ts 2017 10 5 0 0 0) None;
  do w78 <- rollforward (fst tb38) w77 2 DOff None;
  do tx79 <- ws_repr (fst tb38) w78;
  do w80 <- get_workshift (fst tb38) (ts 2017 10 6 0 0 0) None;
  do w81 <- rollforward (fst tb38) w80 2 DOff None;
  do tx82 <- ws_repr (fst tb38) w81;
  do w83 <- get_workshift (fst tb38) (ts 2017 10 5 0 0 0) None;
  do w84 <- rollback (fst tb38) w83 2 DOff None;
  do tx85 <- ws_repr (fst tb38) w84;
  do w86 <- get_workshift (fst tb38) (ts 2017 10 6 0 0 0) None;
  do w87 <- rollback (fst tb38) w86 2 DOff None;
  do tx88 <- ws_repr (fst tb38) w87;
  do r89 <- add_schedule (fst tb38) 1 (fun x => ((x >? 1)));
  do w90 <- get_workshift (fst r89) (ts 2017 10 5 0 0 0) None;
  do w91 <- rollforward (fst r89) w90 0 DOn (Some (snd r89));
  do tx92 <- ws_repr (fst r89) w91;
  do w93 <- rollforward (fst r89) w91 1 DOn None;
  do tx94 <- ws_repr (fst r89) w93;
  do w95 <- get_workshift (fst r89) (ts 2017 10 5 0 0 0) None;
  do w96 <- ws_add (fst r89) w95 1;
  do tx97 <- ws_repr (fst r89) w96;
  do w98 <- get_workshift (fst r89) (ts 2017 10 6 0 0 0) None;
  do w99 <- ws_sub (fst r89) w98 1;
  do tx100 <- ws_repr (fst r89) w99;
  do w101 <- get_workshift (fst r89) (ts 2017 10 5 0 0 0) (Some (snd r89));
  do w102 <- ws_add (fst r89) w101 1;
  do tx103 <- ws_repr (fst r89) w102;
  do w104 <- get_workshift (fst r89) (ts 2017 10 6 0 0 0) None;
  do w105 <- rollforward (fst r89) w104 (-1) DOn None;
  do tx106 <- ws_repr (fst r89) w105;
  do w107 <- get_workshift (fst r89) (ts 2017 10 6 0 0 0) None;
  do w108 <- rollback (fst r89) w107 1 DOn None;
  do tx109 <- ws_repr (fst r89) w108;
  do w110 <- get_workshift (fst r89) (ts 2017 10 5 0 0 0) None;
  do w111 <- rollback (fst r89) w110 (-1) DOff None;
  do tx112 <- ws_repr (fst r89) w111;
  do w113 <- get_workshift (fst r89) (ts 2017 10 5 0 0 0) None;
  do w114 <- rollforward (fst r89) w113 1 DOff None;
  do tx115 <- ws_repr (fst r89) w114;
  Ok [forallb (fun x => x) [(tokens_eqb tx39 [TText "Timeboard of '"; TFreq (mkFstr None AlD); TText "': ";
        TPeriod (fbase (to_freq (mkFstr None AlD))) (pord (fbase (to_freq (mkFstr None AlD))) (ts 2017 9 30 0 0 0));
        TText " -> ";
        TPeriod (fbase (to_freq (mkFstr None AlD))) (pord (fbase (to_freq (mkFstr None AlD))) (ts 2017 10 11 0 0
        0))]); row_at df40 0 (fun r b => shown NS_DAY (ts 2017 9 30 0 0 0) (row_ref r) &&
        ((ts 2017 9 30 0 0 0) =? row_start r) && (1 =? row_duration r) &&
        shown NS_DAY (ts 2017 9 30 0 0 0) (row_end r) && (0 =? row_label r) && has_flag b 0 false);
        row_at df40 1 (fun r b => shown NS_DAY (ts 2017 10 1 0 0 0) (row_ref r) &&
        ((ts 2017 10 1 0 0 0) =? row_start r) && (1 =? row_duration r) &&
        shown NS_DAY (ts 2017 10 1 0 0 0) (row_end r) && (1 =? row_label r) && has_flag b 0 true);
        row_at df40 2 (fun r b => shown NS_DAY (ts 2017 10 2 0 0 0) (row_ref r) &&
        ((ts 2017 10 2 0 0 0) =? row_start r) && (1 =? row_duration r) &&
        shown NS_DAY (ts 2017 10 2 0 0 0) (row_end r) && (0 =? row_label r) && has_flag b 0 false);
        row_at df40 3 (fun r b => shown NS_DAY (ts 2017 10 3 0 0 0) (row_ref r) &&
        ((ts 2017 10 3 0 0 0) =? row_start r) && (1 =? row_duration r) &&
        shown NS_DAY (ts 2017 10 3 0 0 0) (row_end r) && (2 =? row_label r) && has_flag b 0 true);
        row_at df40 4 (fun r b => shown NS_DAY (ts 2017 10 4 0 0 0) (row_ref r) &&
        ((ts 2017 10 4 0 0 0) =? row_start r) && (1 =? row_duration r) &&
        shown NS_DAY (ts 2017 10 4 0 0 0) (row_end r) && (0 =? row_label r) && has_flag b 0 false);
        row_at df40 5 (fun r b => shown NS_DAY (ts 2017 10 5 0 0 0) (row_ref r) &&
        ((ts 2017 10 5 0 0 0) =? row_start r) && (1 =? row_duration r) &&
        shown NS_DAY (ts 2017 10 5 0 0 0) (row_end r) && (1 =? row_label r) && has_flag b 0 true);
        row_at df40 6 (fun r b => shown NS_DAY (ts 2017 10 6 0 0 0) (row_ref r) &&
        ((ts 2017 10 6 0 0 0) =? row_start r) && (1 =? row_duration r) &&
        shown NS_DAY (ts 2017 10 6 0 0 0) (row_end r) && (0 =? row_label r) && has_flag b 0 false);
        row_at df40 7 (fun r b => shown NS_DAY (ts 2017 10 7 0 0 0) (row_ref r) &&
        ((ts 2017 10 7 0 0 0) =? row_start r) && (1 =? row_duration r) &&
        shown NS_DAY (ts 2017 10 7 0 0 0) (row_end r) && (2 =? row_label r) && has_flag b 0 true);
        row_at df40 8 (fun r b => shown NS_DAY (ts 2017 10 8 0 0 0) (row_ref r) &&
        ((ts 2017 10 8 0 0 0) =? row_start r) && (1 =? row_duration r) &&
        shown NS_DAY (ts 2017 10 8 0 0 0) (row_end r) && (0 =? row_label r) && has_flag b 0 false);
        row_at df40 9 (fun r b => shown NS_DAY (ts 2017 10 9 0 0 0) (row_ref r) &&
        ((ts 2017 10 9 0 0 0) =? row_start r) && (1 =? row_duration r) &&
        shown NS_DAY (ts 2017 10 9 0 0 0) (row_end r) && (1 =? row_label r) && has_flag b 0 true);
        row_at df40 10 (fun r b => shown NS_DAY (ts 2017 10 10 0 0 0) (row_ref r) &&
        ((ts 2017 10 10 0 0 0) =? row_start r) && (1 =? row_duration r) &&
        shown NS_DAY (ts 2017 10 10 0 0 0) (row_end r) && (0 =? row_label r) && has_flag b 0 false);
        row_at df40 11 (fun r b => shown NS_DAY (ts 2017 10 11 0 0 0) (row_ref r) &&
        ((ts 2017 10 11 0 0 0) =? row_start r) && (1 =? row_duration r) &&
        shown NS_DAY (ts 2017 10 11 0 0 0) (row_end r) && (2 =? row_label r) && has_flag b 0 true); (zlen df40 =? 12)];
       (tokens_eqb tx43 [TText "Workshift("; TNum 5; TText ") of "; TText "'"; TFreq (mkFstr None AlD); TText "' at ";
        TPeriod (fbase (to_freq (mkFstr None AlD))) (pord (fbase (to_freq (mkFstr None AlD))) (ts 2017 10 5 0 0 0))]);
       (tokens_eqb tx46 [TText "Workshift("; TNum 7; TText ") of "; TText "'"; TFreq (mkFstr None AlD); TText "' at ";
        TPeriod (fbase (to_freq (mkFstr None AlD))) (pord (fbase (to_freq (mkFstr None AlD))) (ts 2017 10 7 0 0 0))]);
       (tokens_eqb tx49 [TText "Workshift("; TNum 5; TText ") of "; TText "'"; TFreq (mkFstr None AlD); TText "' at ";
        TPeriod (fbase (to_freq (mkFstr None AlD))) (pord (fbase (to_freq (mkFstr None AlD))) (ts 2017 10 5 0 0 0))]);
       (tokens_eqb tx52 [TText "Workshift("; TNum 5; TText ") of "; TText "'"; TFreq (mkFstr None AlD); TText "' at ";
        TPeriod (fbase (to_freq (mkFstr None AlD))) (pord (fbase (to_freq (mkFstr None AlD))) (ts 2017 10 5 0 0 0))]);
       (tokens_eqb tx55 [TText "Workshift("; TNum 6; TText ") of "; TText "'"; TFreq (mkFstr None AlD); TText "' at ";
        TPeriod (fbase (to_freq (mkFstr None AlD))) (pord (fbase (to_freq (mkFstr None AlD))) (ts 2017 10 6 0 0 0))]);
       (tokens_eqb tx58 [TText "Workshift("; TNum 6; TText ") of "; TText "'"; TFreq (mkFstr None AlD); TText "' at ";
        TPeriod (fbase (to_freq (mkFstr None AlD))) (pord (fbase (to_freq (mkFstr None AlD))) (ts 2017 10 6 0 0 0))]);
       (tokens_eqb tx61 [TText "Workshift("; TNum 4; TText ") of "; TText "'"; TFreq (mkFstr None AlD); TText "' at ";
        TPeriod (fbase (to_freq (mkFstr None AlD))) (pord (fbase (to_freq (mkFstr None AlD))) (ts 2017 10 4 0 0 0))]);
       (tokens_eqb tx64 [TText "Workshift("; TNum 6; TText ") of "; TText "'"; TFreq (mkFstr None AlD); TText "' at ";
        TPeriod (fbase (to_freq (mkFstr None AlD))) (pord (fbase (to_freq (mkFstr None AlD))) (ts 2017 10 6 0 0 0))]);
       (tokens_eqb tx67 [TText "Workshift("; TNum 9; TText ") of "; TText "'"; TFreq (mkFstr None AlD); TText "' at ";
        TPeriod (fbase (to_freq (mkFstr None AlD))) (pord (fbase (to_freq (mkFstr None AlD))) (ts 2017 10 9 0 0 0))]);
       (tokens_eqb tx70 [TText "Workshift("; TNum 11; TText ") of "; TText "'"; TFreq (mkFstr None AlD); TText "' at ";
        TPeriod (fbase (to_freq (mkFstr None AlD))) (pord (fbase (to_freq (mkFstr None AlD))) (ts 2017 10 11 0 0 0))]);
       (tokens_eqb tx73 [TText "Workshift("; TNum 1; TText ") of "; TText "'"; TFreq (mkFstr None AlD); TText "' at ";
        TPeriod (fbase (to_freq (mkFstr None AlD))) (pord (fbase (to_freq (mkFstr None AlD))) (ts 2017 10 1 0 0 0))]);
       (tokens_eqb tx76 [TText "Workshift("; TNum 1; TText ") of "; TText "'"; TFreq (mkFstr None AlD); TText "' at ";
        TPeriod (fbase (to_freq (mkFstr None AlD))) (pord (fbase (to_freq (mkFstr None AlD))) (ts 2017 10 1 0 0 0))]);
       (tokens_eqb tx79 [TText "Workshift("; TNum 10; TText ") of "; TText "'"; TFreq (mkFstr None AlD); TText "' at ";
        TPeriod (fbase (to_freq (mkFstr None AlD))) (pord (fbase (to_freq (mkFstr None AlD))) (ts 2017 10 10 0 0 0))]);
       (tokens_eqb tx82 [TText "Workshift("; TNum 10; TText ") of "; TText "'"; TFreq (mkFstr None AlD); TText "' at ";
        TPeriod (fbase (to_freq (mkFstr None AlD))) (pord (fbase (to_freq (mkFstr None AlD))) (ts 2017 10 10 0 0 0))]);
       (tokens_eqb tx85 [TText "Workshift("; TNum 0; TText ") of "; TText "'"; TFreq (mkFstr None AlD); TText "' at ";
        TPeriod (fbase (to_freq (mkFstr None AlD))) (pord (fbase (to_freq (mkFstr None AlD))) (ts 2017 9 30 0 0 0))]);
       (tokens_eqb tx88 [TText "Workshift("; TNum 2; TText ") of "; TText "'"; TFreq (mkFstr None AlD); TText "' at ";
        TPeriod (fbase (to_freq (mkFstr None AlD))) (pord (fbase (to_freq (mkFstr None AlD))) (ts 2017 10 2 0 0 0))]);
       (tokens_eqb tx92 [TText "Workshift("; TNum 7; TText ", "; TSched 1; TText ") of "; TText "'";
        TFreq (mkFstr None AlD); TText "' at ";
        TPeriod (fbase (to_freq (mkFstr None AlD))) (pord (fbase (to_freq (mkFstr None AlD))) (ts 2017 10 7 0 0 0))]);
       (tokens_eqb tx94 [TText "Workshift("; TNum 11; TText ", "; TSched 1; TText ") of "; TText "'";
        TFreq (mkFstr None AlD); TText "' at ";
        TPeriod (fbase (to_freq (mkFstr None AlD))) (pord (fbase (to_freq (mkFstr None AlD))) (ts 2017 10 11 0 0 0))]);
       (tokens_eqb tx97 [TText "Workshift("; TNum 7; TText ") of "; TText "'"; TFreq (mkFstr None AlD); TText "' at ";
        TPeriod (fbase (to_freq (mkFstr None AlD))) (pord (fbase (to_freq (mkFstr None AlD))) (ts 2017 10 7 0 0 0))]);
       (tokens_eqb tx100 [TText "Workshift("; TNum 3; TText ") of "; TText "'"; TFreq (mkFstr None AlD); TText "' at ";
        TPeriod (fbase (to_freq (mkFstr None AlD))) (pord (fbase (to_freq (mkFstr None AlD))) (ts 2017 10 3 0 0 0))]);
       (tokens_eqb tx103 [TText "Workshift("; TNum 11; TText ", "; TSched 1; TText ") of "; TText "'";
        TFreq (mkFstr None AlD); TText "' at ";
        TPeriod (fbase (to_freq (mkFstr None AlD))) (pord (fbase (to_freq (mkFstr None AlD))) (ts 2017 10 11 0 0 0))]);
       (tokens_eqb tx106 [TText "Workshift("; TNum 5; TText ") of "; TText "'"; TFreq (mkFstr None AlD); TText "' at ";
        TPeriod (fbase (to_freq (mkFstr None AlD))) (pord (fbase (to_freq (mkFstr None AlD))) (ts 2017 10 5 0 0 0))]);
       (tokens_eqb tx109 [TText "Workshift("; TNum 3; TText ") of "; TText "'"; TFreq (mkFstr None AlD); TText "' at ";
        TPeriod (fbase (to_freq (mkFstr None AlD))) (pord (fbase (to_freq (mkFstr None AlD))) (ts 2017 10 3 0 0 0))]);
       (tokens_eqb tx112 [TText "Workshift("; TNum 6; TText ") of "; TText "'"; TFreq (mkFstr None AlD); TText "' at ";
        TPeriod (fbase (to_freq (mkFstr None AlD))) (pord (fbase (to_freq (mkFstr None AlD))) (ts 2017 10 6 0 0 0))]);
       (tokens_eqb tx115 [TText "Workshift("; TNum 8; TText ") of "; TText "'"; TFreq (mkFstr None AlD); TText "' at ";
        TPeriod (fbase (to_freq (mkFstr None AlD))) (pord (fbase (to_freq (mkFstr None AlD))) (ts 2017 10 8 0 0 0))])]) = true.
Proof. vm_compute. reflexivity. Qed.

(** doc/source/doing_calculations.rst:387, 392, 399, 404, 406, 411, 416, 422, 427, 434, 439, 445, 450, 457, 460, 465, 470, 480, 485, 500, 502, 504 *)
Example doing_calculations_387 : passes (
  let heap0 : heap Z := [] in
  do tb116 <- build (mkArgs (mkFstr None AlD) (ts 2017 9 30 0 0 0) (ts 2017 10 15 0 0 0) (LPat (PList [0; 1; 0;
          2])) [] (fun x => negb (x =? 0)) 0 false (-999999) WDuration conf_num) heap0;
  do iv117 <- get_interval (fst tb116) (RPair (Some (ts 2017 10 2 0 0 0)) (Some (ts 2017 10 8 0 0 0))) None None true
          C11 None;
  do tx118 <- iv_repr (fst tb116) iv117;
  do iv119 <- get_interval (fst tb116) (RPair (Some (ts 2017 10 2 0 0 0)) (Some (ts 2017 10 8 0 0 0))) None None true
          C11 None;
  do tx120 <- iv_repr (fst tb116) iv119;
  do iv121 <- get_interval (fst tb116) (RPair (Some (ts 2017 10 2 15 15 0)) (Some (ts 2017 10 8 23 59 0))) None None
          true C11 None;
  do tx122 <- iv_repr (fst tb116) iv121;
  do iv123 <- get_interval (fst tb116) (RPair None (Some (ts 2017 10 8 23 59 0))) None None true C11 None;
  do tx124 <- iv_repr (fst tb116) iv123;
  do iv125 <- get_interval (fst tb116) (RPair (Some (ts 2017 10 2 15 15 0)) None) None None true C11 None;
  do tx126 <- iv_repr (fst tb116) iv125;
  do iv127 <- get_interval (fst tb116) (RPoint (ts 2017 10 2 0 0 0)) (Some 7) None true C11 None;
  do tx128 <- iv_repr (fst tb116) iv127;
  do iv129 <- get_interval (fst tb116) (RPoint (ts 2017 10 2 0 0 0)) (Some 7) None true C11 None;
  do tx130 <- iv_repr (fst tb116) iv129;
  do iv131 <- get_interval (fst tb116) (RPoint (ts 2017 10 5 0 0 0)) None (Some (mkFstr None (AlW None))) true C11 None;
  do tx132 <- iv_repr (fst tb116) iv131;
  do iv133 <- get_interval (fst tb116) (RPoint (ts 2017 10 5 0 0 0)) None (Some (mkFstr None (AlW None))) true C11 None;
  do tx134 <- iv_repr (fst tb116) iv133;
  do iv135 <- get_interval (fst tb116) (RPeriod (period_at (ts 2017 10 5 0 0 0) (mkFstr None (AlW None)))) None None
          true C11 None;
  do tx136 <- iv_repr (fst tb116) iv135;
  do w137 <- get_workshift (fst tb116) (p_start (period_at (ts 2017 10 5 0 0 0) (mkFstr None (AlW None)))) None;
  do tx138 <- ws_repr (fst tb116) w137;
  do iv139 <- get_interval (fst tb116) RNone None None true C11 None;
  do tx140 <- iv_repr (fst tb116) iv139;
  do iv141 <- get_interval (fst tb116) RNone None None true C11 None;
  do tx142 <- iv_repr (fst tb116) iv141;
  do w143 <- get_workshift (fst tb116) (ts 2017 10 2 0 0 0) None;
  do tx144 <- ws_repr (fst tb116) w143;
  do w145 <- get_workshift (fst tb116) (ts 2017 10 8 0 0 0) None;
  do tx146 <- ws_repr (fst tb116) w145;
  do iv147 <- new_interval (fst tb116) (ws_loc w143) (ws_loc w145) (tb_default (fst tb116));
  do tx148 <- iv_repr (fst tb116) iv147;
  do iv149 <- new_interval (fst tb116) 2 8 (tb_default (fst tb116));
  do tx150 <- iv_repr (fst tb116) iv149;
  do iv151 <- new_interval (fst tb116) 2 8 (tb_default (fst tb116));
  do iv152 <- new_interval (fst tb116) 6 10 (tb_default (fst tb116));
  do iv153 <- iv_overlap (fst tb116) iv151 iv152 None;
  do tx154 <- iv_repr (fst tb116) iv153;
  do iv155 <- iv_overlap (fst tb116) iv151 iv152 None;
  do tx156 <- iv_repr (fst tb116) iv155;
  do r157 <- add_schedule (fst tb116) 1 (fun x => ((x >? 1)));
  do iv158 <- get_interval (fst r157) (RPair (Some (ts 2017 10 2 0 0 0)) (Some (ts 2017 10 8 0 0 0))) None None true
          C11 (Some (snd r157));
  do tx159 <- iv_repr (fst r157) iv158;
  do iv160 <- new_interval (fst r157) 2 8 (snd r157);
  do tx161 <- iv_repr (fst r157) iv160;
  do iv162 <- iv_overlap (fst r157) iv151 iv152 (Some (snd r157));
  do tx163 <- iv_repr (fst r157) iv162;
  Ok [(tokens_eqb tx118 [TText "Interval("; TText "("; TNum 2; TText ", "; TNum 8; TText ")"; TText "): "; TText "'";
        TFreq (mkFstr None AlD); TText "' at ";
        TPeriod (fbase (to_freq (mkFstr None AlD))) (pord (fbase (to_freq (mkFstr None AlD))) (ts 2017 10 2 0 0 0));
        TText " -> "; TText "'"; TFreq (mkFstr None AlD); TText "' at ";
        TPeriod (fbase (to_freq (mkFstr None AlD))) (pord (fbase (to_freq (mkFstr None AlD))) (ts 2017 10 8 0 0 0));
        TText " ["; TNum 7; TText "]"]);
       (tokens_eqb tx120 [TText "Interval("; TText "("; TNum 2; TText ", "; TNum 8; TText ")"; TText "): "; TText "'";
        TFreq (mkFstr None AlD); TText "' at ";
        TPeriod (fbase (to_freq (mkFstr None AlD))) (pord (fbase (to_freq (mkFstr None AlD))) (ts 2017 10 2 0 0 0));
        TText " -> "; TText "'"; TFreq (mkFstr None AlD); TText "' at ";
        TPeriod (fbase (to_freq (mkFstr None AlD))) (pord (fbase (to_freq (mkFstr None AlD))) (ts 2017 10 8 0 0 0));
        TText " ["; TNum 7; TText "]"]);
       (tokens_eqb tx122 [TText "Interval("; TText "("; TNum 2; TText ", "; TNum 8; TText ")"; TText "): "; TText "'";
        TFreq (mkFstr None AlD); TText "' at ";
        TPeriod (fbase (to_freq (mkFstr None AlD))) (pord (fbase (to_freq (mkFstr None AlD))) (ts 2017 10 2 0 0 0));
        TText " -> "; TText "'"; TFreq (mkFstr None AlD); TText "' at ";
        TPeriod (fbase (to_freq (mkFstr None AlD))) (pord (fbase (to_freq (mkFstr None AlD))) (ts 2017 10 8 0 0 0));
        TText " ["; TNum 7; TText "]"]);
       (tokens_eqb tx124 [TText "Interval("; TText "("; TNum 0; TText ", "; TNum 8; TText ")"; TText "): "; TText "'";
        TFreq (mkFstr None AlD); TText "' at ";
        TPeriod (fbase (to_freq (mkFstr None AlD))) (pord (fbase (to_freq (mkFstr None AlD))) (ts 2017 9 30 0 0 0));
        TText " -> "; TText "'"; TFreq (mkFstr None AlD); TText "' at ";
        TPeriod (fbase (to_freq (mkFstr None AlD))) (pord (fbase (to_freq (mkFstr None AlD))) (ts 2017 10 8 0 0 0));
        TText " ["; TNum 9; TText "]"]);
       (tokens_eqb tx126 [TText "Interval("; TText "("; TNum 2; TText ", "; TNum 15; TText ")"; TText "): "; TText "'";
        TFreq (mkFstr None AlD); TText "' at ";
        TPeriod (fbase (to_freq (mkFstr None AlD))) (pord (fbase (to_freq (mkFstr None AlD))) (ts 2017 10 2 0 0 0));
        TText " -> "; TText "'"; TFreq (mkFstr None AlD); TText "' at ";
        TPeriod (fbase (to_freq (mkFstr None AlD))) (pord (fbase (to_freq (mkFstr None AlD))) (ts 2017 10 15 0 0 0));
        TText " ["; TNum 14; TText "]"]);
       (tokens_eqb tx128 [TText "Interval("; TText "("; TNum 2; TText ", "; TNum 8; TText ")"; TText "): "; TText "'";
        TFreq (mkFstr None AlD); TText "' at ";
        TPeriod (fbase (to_freq (mkFstr None AlD))) (pord (fbase (to_freq (mkFstr None AlD))) (ts 2017 10 2 0 0 0));
        TText " -> "; TText "'"; TFreq (mkFstr None AlD); TText "' at ";
        TPeriod (fbase (to_freq (mkFstr None AlD))) (pord (fbase (to_freq (mkFstr None AlD))) (ts 2017 10 8 0 0 0));
        TText " ["; TNum 7; TText "]"]);
       (tokens_eqb tx130 [TText "Interval("; TText "("; TNum 2; TText ", "; TNum 8; TText ")"; TText "): "; TText "'";
        TFreq (mkFstr None AlD); TText "' at ";
        TPeriod (fbase (to_freq (mkFstr None AlD))) (pord (fbase (to_freq (mkFstr None AlD))) (ts 2017 10 2 0 0 0));
        TText " -> "; TText "'"; TFreq (mkFstr None AlD); TText "' at ";
        TPeriod (fbase (to_freq (mkFstr None AlD))) (pord (fbase (to_freq (mkFstr None AlD))) (ts 2017 10 8 0 0 0));
        TText " ["; TNum 7; TText "]"]);
       (tokens_eqb tx132 [TText "Interval("; TText "("; TNum 2; TText ", "; TNum 8; TText ")"; TText "): "; TText "'";
        TFreq (mkFstr None AlD); TText "' at ";
        TPeriod (fbase (to_freq (mkFstr None AlD))) (pord (fbase (to_freq (mkFstr None AlD))) (ts 2017 10 2 0 0 0));
        TText " -> "; TText "'"; TFreq (mkFstr None AlD); TText "' at ";
        TPeriod (fbase (to_freq (mkFstr None AlD))) (pord (fbase (to_freq (mkFstr None AlD))) (ts 2017 10 8 0 0 0));
        TText " ["; TNum 7; TText "]"]);
       (tokens_eqb tx134 [TText "Interval("; TText "("; TNum 2; TText ", "; TNum 8; TText ")"; TText "): "; TText "'";
        TFreq (mkFstr None AlD); TText "' at ";
        TPeriod (fbase (to_freq (mkFstr None AlD))) (pord (fbase (to_freq (mkFstr None AlD))) (ts 2017 10 2 0 0 0));
        TText " -> "; TText "'"; TFreq (mkFstr None AlD); TText "' at ";
        TPeriod (fbase (to_freq (mkFstr None AlD))) (pord (fbase (to_freq (mkFstr None AlD))) (ts 2017 10 8 0 0 0));
        TText " ["; TNum 7; TText "]"]);
       (tokens_eqb tx136 [TText "Interval("; TText "("; TNum 2; TText ", "; TNum 8; TText ")"; TText "): "; TText "'";
        TFreq (mkFstr None AlD); TText "' at ";
        TPeriod (fbase (to_freq (mkFstr None AlD))) (pord (fbase (to_freq (mkFstr None AlD))) (ts 2017 10 2 0 0 0));
        TText " -> "; TText "'"; TFreq (mkFstr None AlD); TText "' at ";
        TPeriod (fbase (to_freq (mkFstr None AlD))) (pord (fbase (to_freq (mkFstr None AlD))) (ts 2017 10 8 0 0 0));
        TText " ["; TNum 7; TText "]"]);
       (tokens_eqb tx138 [TText "Workshift("; TNum 2; TText ") of "; TText "'"; TFreq (mkFstr None AlD); TText "' at ";
        TPeriod (fbase (to_freq (mkFstr None AlD))) (pord (fbase (to_freq (mkFstr None AlD))) (ts 2017 10 2 0 0 0))]);
       (tokens_eqb tx140 [TText "Interval("; TText "("; TNum 0; TText ", "; TNum 15; TText ")"; TText "): "; TText "'";
        TFreq (mkFstr None AlD); TText "' at ";
        TPeriod (fbase (to_freq (mkFstr None AlD))) (pord (fbase (to_freq (mkFstr None AlD))) (ts 2017 9 30 0 0 0));
        TText " -> "; TText "'"; TFreq (mkFstr None AlD); TText "' at ";
        TPeriod (fbase (to_freq (mkFstr None AlD))) (pord (fbase (to_freq (mkFstr None AlD))) (ts 2017 10 15 0 0 0));
        TText " ["; TNum 16; TText "]"]);
       (tokens_eqb tx142 [TText "Interval("; TText "("; TNum 0; TText ", "; TNum 15; TText ")"; TText "): "; TText "'";
        TFreq (mkFstr None AlD); TText "' at ";
        TPeriod (fbase (to_freq (mkFstr None AlD))) (pord (fbase (to_freq (mkFstr None AlD))) (ts 2017 9 30 0 0 0));
        TText " -> "; TText "'"; TFreq (mkFstr None AlD); TText "' at ";
        TPeriod (fbase (to_freq (mkFstr None AlD))) (pord (fbase (to_freq (mkFstr None AlD))) (ts 2017 10 15 0 0 0));
        TText " ["; TNum 16; TText "]"]);
       (tokens_eqb tx144 [TText "Workshift("; TNum 2; TText ") of "; TText "'"; TFreq (mkFstr None AlD); TText "' at ";
        TPeriod (fbase (to_freq (mkFstr None AlD))) (pord (fbase (to_freq (mkFstr None AlD))) (ts 2017 10 2 0 0 0))]);
       (tokens_eqb tx146 [TText "Workshift("; TNum 8; TText ") of "; TText "'"; TFreq (mkFstr None AlD); TText "' at ";
        TPeriod (fbase (to_freq (mkFstr None AlD))) (pord (fbase (to_freq (mkFstr None AlD))) (ts 2017 10 8 0 0 0))]);
       (tokens_eqb tx148 [TText "Interval("; TText "("; TNum 2; TText ", "; TNum 8; TText ")"; TText "): "; TText "'";
        TFreq (mkFstr None AlD); TText "' at ";
        TPeriod (fbase (to_freq (mkFstr None AlD))) (pord (fbase (to_freq (mkFstr None AlD))) (ts 2017 10 2 0 0 0));
        TText " -> "; TText "'"; TFreq (mkFstr None AlD); TText "' at ";
        TPeriod (fbase (to_freq (mkFstr None AlD))) (pord (fbase (to_freq (mkFstr None AlD))) (ts 2017 10 8 0 0 0));
        TText " ["; TNum 7; TText "]"]);
       (tokens_eqb tx150 [TText "Interval("; TText "("; TNum 2; TText ", "; TNum 8; TText ")"; TText "): "; TText "'";
        TFreq (mkFstr None AlD); TText "' at ";
        TPeriod (fbase (to_freq (mkFstr None AlD))) (pord (fbase (to_freq (mkFstr None AlD))) (ts 2017 10 2 0 0 0));
        TText " -> "; TText "'"; TFreq (mkFstr None AlD); TText "' at ";
        TPeriod (fbase (to_freq (mkFstr None AlD))) (pord (fbase (to_freq (mkFstr None AlD))) (ts 2017 10 8 0 0 0));
        TText " ["; TNum 7; TText "]"]);
       (tokens_eqb tx154 [TText "Interval("; TText "("; TNum 6; TText ", "; TNum 8; TText ")"; TText "): "; TText "'";
        TFreq (mkFstr None AlD); TText "' at ";
        TPeriod (fbase (to_freq (mkFstr None AlD))) (pord (fbase (to_freq (mkFstr None AlD))) (ts 2017 10 6 0 0 0));
        TText " -> "; TText "'"; TFreq (mkFstr None AlD); TText "' at ";
        TPeriod (fbase (to_freq (mkFstr None AlD))) (pord (fbase (to_freq (mkFstr None AlD))) (ts 2017 10 8 0 0 0));
        TText " ["; TNum 3; TText "]"]);
       (tokens_eqb tx156 [TText "Interval("; TText "("; TNum 6; TText ", "; TNum 8; TText ")"; TText "): "; TText "'";
        TFreq (mkFstr None AlD); TText "' at ";
        TPeriod (fbase (to_freq (mkFstr None AlD))) (pord (fbase (to_freq (mkFstr None AlD))) (ts 2017 10 6 0 0 0));
        TText " -> "; TText "'"; TFreq (mkFstr None AlD); TText "' at ";
        TPeriod (fbase (to_freq (mkFstr None AlD))) (pord (fbase (to_freq (mkFstr None AlD))) (ts 2017 10 8 0 0 0));
        TText " ["; TNum 3; TText "]"]);
       (tokens_eqb tx159 [TText "Interval("; TText "("; TNum 2; TText ", "; TNum 8; TText ")"; TText ", "; TSched 1;
        TText "): "; TText "'"; TFreq (mkFstr None AlD); TText "' at ";
        TPeriod (fbase (to_freq (mkFstr None AlD))) (pord (fbase (to_freq (mkFstr None AlD))) (ts 2017 10 2 0 0 0));
        TText " -> "; TText "'"; TFreq (mkFstr None AlD); TText "' at ";
        TPeriod (fbase (to_freq (mkFstr None AlD))) (pord (fbase (to_freq (mkFstr None AlD))) (ts 2017 10 8 0 0 0));
        TText " ["; TNum 7; TText "]"]);
       (tokens_eqb tx161 [TText "Interval("; TText "("; TNum 2; TText ", "; TNum 8; TText ")"; TText ", "; TSched 1;
        TText "): "; TText "'"; TFreq (mkFstr None AlD); TText "' at ";
        TPeriod (fbase (to_freq (mkFstr None AlD))) (pord (fbase (to_freq (mkFstr None AlD))) (ts 2017 10 2 0 0 0));
        TText " -> "; TText "'"; TFreq (mkFstr None AlD); TText "' at ";
        TPeriod (fbase (to_freq (mkFstr None AlD))) (pord (fbase (to_freq (mkFstr None AlD))) (ts 2017 10 8 0 0 0));
        TText " ["; TNum 7; TText "]"]);
       (tokens_eqb tx163 [TText "Interval("; TText "("; TNum 6; TText ", "; TNum 8; TText ")"; TText ", "; TSched 1;
        TText "): "; TText "'"; TFreq (mkFstr None AlD); TText "' at ";
        TPeriod (fbase (to_freq (mkFstr None AlD))) (pord (fbase (to_freq (mkFstr None AlD))) (ts 2017 10 6 0 0 0));
        TText " -> "; TText "'"; TFreq (mkFstr None AlD); TText "' at ";
        TPeriod (fbase (to_freq (mkFstr None AlD))) (pord (fbase (to_freq (mkFstr None AlD))) (ts 2017 10 8 0 0 0));
        TText " ["; TNum 3; TText "]"])]) = true.
Proof. vm_compute. reflexivity. Qed.

(** doc/source/doing_calculations.rst:520, 525 *)
Example doing_calculations_520 : passes (
  let heap0 : heap Z := [] in
  do tb164 <- build (mkArgs (mkFstr None AlD) (ts 2017 9 30 0 0 0) (ts 2017 10 15 0 0 0) (LPat (PList [0; 1; 0;
          2])) [] (fun x => negb (x =? 0)) 0 false (-999999) WDuration conf_num) heap0;
  do iv165 <- get_interval (fst tb164) (RPoint (ts 2017 10 1 0 0 0)) None (Some (mkFstr None AlM)) true C11 None;
  do tx166 <- iv_repr (fst tb164) iv165;
  Ok [(tokens_eqb tx166 [TText "Interval("; TText "("; TNum 1; TText ", "; TNum 15; TText ")"; TText "): "; TText "'";
        TFreq (mkFstr None AlD); TText "' at ";
        TPeriod (fbase (to_freq (mkFstr None AlD))) (pord (fbase (to_freq (mkFstr None AlD))) (ts 2017 10 1 0 0 0));
        TText " -> "; TText "'"; TFreq (mkFstr None AlD); TText "' at ";
        TPeriod (fbase (to_freq (mkFstr None AlD))) (pord (fbase (to_freq (mkFstr None AlD))) (ts 2017 10 15 0 0 0));
        TText " ["; TNum 15; TText "]"]);
       raises [EPartialOutOfBounds] (do iv167 <- get_interval (fst tb164) (RPoint (ts 2017 10 1 0 0 0)) None (Some (mkFstr
        None AlM)) false C11 None; Ok tt)]) = true.
Proof. vm_compute. reflexivity. Qed.

(** doc/source/doing_calculations.rst:556 *)
Example doing_calculations_556 : passes (
  let heap0 : heap Z := [] in
  do tb168 <- build (mkArgs (mkFstr (Some 12%positive) AlH) (ts 2017 10 1 21 0 0) (ts 2017 10 3 0 0 0) (LPat (PList
          [1])) [] (fun x => negb (x =? 0)) 0 false (-999999) WDuration conf_num) heap0;
  do iv169 <- get_interval (fst tb168) (RPoint (ts 2017 10 2 0 0 0)) None (Some (mkFstr None AlD)) true C11 None;
  do tx170 <- iv_repr (fst tb168) iv169;
  Ok [(tokens_eqb tx170 [TText "Interval("; TText "("; TNum 1; TText ", "; TNum 2; TText ")"; TText "): "; TText "'";
        TFreq (mkFstr (Some 12%positive) AlH); TText "' at ";
        TPeriod (fbase (to_freq (mkFstr (Some 12%positive) AlH))) (pord (fbase (to_freq (mkFstr (Some 12%positive)
        AlH))) (ts 2017 10 2 9 0 0)); TText " -> "; TText "'"; TFreq (mkFstr (Some 12%positive) AlH); TText "' at ";
        TPeriod (fbase (to_freq (mkFstr (Some 12%positive) AlH))) (pord (fbase (to_freq (mkFstr (Some 12%positive)
        AlH))) (ts 2017 10 2 21 0 0)); TText " ["; TNum 2; TText "]"])]) = true.
Proof. vm_compute. reflexivity. Qed.

(** doc/source/doing_calculations.rst:564, 578 *)
Example doing_calculations_564 : passes (
  let heap0 : heap Z := [] in
  do tb171 <- build (mkArgs (mkFstr (Some 12%positive) AlH) (ts 2017 10 1 21 0 0) (ts 2017 10 3 0 0 0) (LPat (PList
          [1])) [] (fun x => negb (x =? 0)) 0 true (-999999) WDuration conf_num) heap0;
  do tx172 <- tb_compact (fst tb171);
  do df173 <- tb_dataframe (fst tb171) 0 (tb_len (fst tb171) - 1);
  do iv174 <- get_interval (fst tb171) (RPoint (ts 2017 10 2 0 0 0)) None (Some (mkFstr None AlD)) true C11 None;
  do tx175 <- iv_repr (fst tb171) iv174;
  Ok [forallb (fun x => x) [(tokens_eqb tx172 [TText "Timeboard of '"; TFreq (mkFstr (Some 12%positive) AlH); TText "': ";
        TPeriod (fbase (to_freq (mkFstr (Some 12%positive) AlH))) (pord (fbase (to_freq (mkFstr (Some 12%positive)
        AlH))) (ts 2017 10 1 21 0 0)); TText " -> ";
        TPeriod (fbase (to_freq (mkFstr (Some 12%positive) AlH))) (pord (fbase (to_freq (mkFstr (Some 12%positive)
        AlH))) (ts 2017 10 2 21 0 0))]);
        row_at df173 0 (fun r b => shown NS_SEC (ts 2017 10 2 8 59 59) (row_ref r) &&
        ((ts 2017 10 1 21 0 0) =? row_start r) && (1 =? row_duration r) &&
        shown NS_SEC (ts 2017 10 2 8 59 59) (row_end r));
        row_at df173 1 (fun r b => shown NS_SEC (ts 2017 10 2 20 59 59) (row_ref r) &&
        ((ts 2017 10 2 9 0 0) =? row_start r) && (1 =? row_duration r) &&
        shown NS_SEC (ts 2017 10 2 20 59 59) (row_end r));
        row_at df173 2 (fun r b => shown NS_SEC (ts 2017 10 3 8 59 59) (row_ref r) &&
        ((ts 2017 10 2 21 0 0) =? row_start r) && (1 =? row_duration r) &&
        shown NS_SEC (ts 2017 10 3 8 59 59) (row_end r)); (zlen df173 =? 3)];
       (tokens_eqb tx175 [TText "Interval("; TText "("; TNum 0; TText ", "; TNum 1; TText ")"; TText "): "; TText "'";
        TFreq (mkFstr (Some 12%positive) AlH); TText "' at ";
        TPeriod (fbase (to_freq (mkFstr (Some 12%positive) AlH))) (pord (fbase (to_freq (mkFstr (Some 12%positive)
        AlH))) (ts 2017 10 1 21 0 0)); TText " -> "; TText "'"; TFreq (mkFstr (Some 12%positive) AlH); TText "' at ";
        TPeriod (fbase (to_freq (mkFstr (Some 12%positive) AlH))) (pord (fbase (to_freq (mkFstr (Some 12%positive)
        AlH))) (ts 2017 10 2 9 0 0)); TText " ["; TNum 2; TText "]"])]) = true.
Proof. vm_compute. reflexivity. Qed.

(** doc/source/doing_calculations.rst:593, 602 *)
Example doing_calculations_593 : passes (
  let heap0 : heap Z := [] in
  do tb176 <- build (mkArgs (mkFstr None AlD) (ts 2017 9 30 0 0 0) (ts 2017 10 5 0 0 0) (LPat (PList [1])) [] (fun x
          => negb (x =? 0)) 0 false (-999999) WDuration conf_num) heap0;
  do iv177 <- get_interval (fst tb176) (RPoint (ts 2017 10 2 0 0 0)) None (Some (mkFstr None AlH)) true C11 None;
  do tx178 <- iv_repr (fst tb176) iv177;
  do df179 <- iv_dataframe (fst tb176) iv177;
  Ok [forallb (fun x => x) [(tokens_eqb tx178 [TText "Interval("; TText "("; TNum 2; TText ", "; TNum 2; TText ")";
        TText "): "; TText "'"; TFreq (mkFstr None AlD); TText "' at ";
        TPeriod (fbase (to_freq (mkFstr None AlD))) (pord (fbase (to_freq (mkFstr None AlD))) (ts 2017 10 2 0 0 0));
        TText " -> "; TText "'"; TFreq (mkFstr None AlD); TText "' at ";
        TPeriod (fbase (to_freq (mkFstr None AlD))) (pord (fbase (to_freq (mkFstr None AlD))) (ts 2017 10 2 0 0 0));
        TText " ["; TNum 1; TText "]"]); row_at df179 2 (fun r b => shown NS_DAY (ts 2017 10 2 0 0 0) (row_ref r) &&
        ((ts 2017 10 2 0 0 0) =? row_start r) && (1 =? row_duration r) &&
        shown NS_DAY (ts 2017 10 2 0 0 0) (row_end r) && (1 =? row_label r) && has_flag b 0 true); (zlen df179 =? 1)];
       raises [EVoidInterval] (do iv180 <- get_interval (fst tb176) (RPoint (ts 2017 10 2 1 0 0)) None (Some (mkFstr None
        AlH)) true C11 None; Ok tt)]) = true.
Proof. vm_compute. reflexivity. Qed.

(** doc/source/doing_calculations.rst:691, 706, 708, 710, 712, 717, 719, 721, 723, 730, 732, 737, 739, 741, 743 *)
Example doing_calculations_691 : passes (
  let heap0 : heap Z := [] in
  do tb181 <- build (mkArgs (mkFstr None AlD) (ts 2017 9 30 0 0 0) (ts 2017 10 15 0 0 0) (LPat (PList [0; 1; 0;
          2])) [] (fun x => negb (x =? 0)) 0 false (-999999) WDuration conf_num) heap0;
  do iv182 <- get_interval (fst tb181) (RPair (Some (ts 2017 10 2 0 0 0)) (Some (ts 2017 10 8 0 0 0))) None None true
          C11 None;
  do tx183 <- iv_repr (fst tb181) iv182;
  do df184 <- iv_dataframe (fst tb181) iv182;
  do w185 <- iv_first (fst tb181) iv182 DOn None;
  do tx186 <- ws_repr (fst tb181) w185;
  do w187 <- iv_nth (fst tb181) iv182 1 DOn None;
  do tx188 <- ws_repr (fst tb181) w187;
  do w189 <- iv_last (fst tb181) iv182 DOn None;
  do tx190 <- ws_repr (fst tb181) w189;
  do n191 <- iv_count iv182 DOn None;
  do w192 <- iv_first (fst tb181) iv182 DOff None;
  do tx193 <- ws_repr (fst tb181) w192;
  do w194 <- iv_nth (fst tb181) iv182 1 DOff None;
  do tx195 <- ws_repr (fst tb181) w194;
  do w196 <- iv_last (fst tb181) iv182 DOff None;
  do tx197 <- ws_repr (fst tb181) w196;
  do n198 <- iv_count iv182 DOff None;
  do r199 <- add_schedule (fst tb181) 1 (fun x => ((x >? 1)));
  do w200 <- iv_nth (fst r199) iv182 1 DOn (Some (snd r199));
  do tx201 <- ws_repr (fst r199) w200;
  do n202 <- iv_count iv182 DOn (Some (snd r199));
  do w203 <- iv_first (fst r199) iv182 DAny None;
  do tx204 <- ws_repr (fst r199) w203;
  do w205 <- iv_nth (fst r199) iv182 1 DAny None;
  do tx206 <- ws_repr (fst r199) w205;
  do w207 <- iv_last (fst r199) iv182 DAny None;
  do tx208 <- ws_repr (fst r199) w207;
  do n209 <- iv_count iv182 DAny None;
  Ok [forallb (fun x => x) [(tokens_eqb tx183 [TText "Interval("; TText "("; TNum 2; TText ", "; TNum 8; TText ")";
        TText "): "; TText "'"; TFreq (mkFstr None AlD); TText "' at ";
        TPeriod (fbase (to_freq (mkFstr None AlD))) (pord (fbase (to_freq (mkFstr None AlD))) (ts 2017 10 2 0 0 0));
        TText " -> "; TText "'"; TFreq (mkFstr None AlD); TText "' at ";
        TPeriod (fbase (to_freq (mkFstr None AlD))) (pord (fbase (to_freq (mkFstr None AlD))) (ts 2017 10 8 0 0 0));
        TText " ["; TNum 7; TText "]"]); row_at df184 2 (fun r b => shown NS_DAY (ts 2017 10 2 0 0 0) (row_ref r) &&
        ((ts 2017 10 2 0 0 0) =? row_start r) && (1 =? row_duration r) &&
        shown NS_DAY (ts 2017 10 2 0 0 0) (row_end r) && (0 =? row_label r) && has_flag b 0 false);
        row_at df184 3 (fun r b => shown NS_DAY (ts 2017 10 3 0 0 0) (row_ref r) &&
        ((ts 2017 10 3 0 0 0) =? row_start r) && (1 =? row_duration r) &&
        shown NS_DAY (ts 2017 10 3 0 0 0) (row_end r) && (2 =? row_label r) && has_flag b 0 true);
        row_at df184 4 (fun r b => shown NS_DAY (ts 2017 10 4 0 0 0) (row_ref r) &&
        ((ts 2017 10 4 0 0 0) =? row_start r) && (1 =? row_duration r) &&
        shown NS_DAY (ts 2017 10 4 0 0 0) (row_end r) && (0 =? row_label r) && has_flag b 0 false);
        row_at df184 5 (fun r b => shown NS_DAY (ts 2017 10 5 0 0 0) (row_ref r) &&
        ((ts 2017 10 5 0 0 0) =? row_start r) && (1 =? row_duration r) &&
        shown NS_DAY (ts 2017 10 5 0 0 0) (row_end r) && (1 =? row_label r) && has_flag b 0 true);
        row_at df184 6 (fun r b => shown NS_DAY (ts 2017 10 6 0 0 0) (row_ref r) &&
        ((ts 2017 10 6 0 0 0) =? row_start r) && (1 =? row_duration r) &&
        shown NS_DAY (ts 2017 10 6 0 0 0) (row_end r) && (0 =? row_label r) && has_flag b 0 false);
        row_at df184 7 (fun r b => shown NS_DAY (ts 2017 10 7 0 0 0) (row_ref r) &&
        ((ts 2017 10 7 0 0 0) =? row_start r) && (1 =? row_duration r) &&
        shown NS_DAY (ts 2017 10 7 0 0 0) (row_end r) && (2 =? row_label r) && has_flag b 0 true);
        row_at df184 8 (fun r b => shown NS_DAY (ts 2017 10 8 0 0 0) (row_ref r) &&
        ((ts 2017 10 8 0 0 0) =? row_start r) && (1 =? row_duration r) &&
        shown NS_DAY (ts 2017 10 8 0 0 0) (row_end r) && (0 =? row_label r) && has_flag b 0 false); (zlen df184 =? 7)];
       (tokens_eqb tx186 [TText "Workshift("; TNum 3; TText ") of "; TText "'"; TFreq (mkFstr None AlD); TText "' at ";
        TPeriod (fbase (to_freq (mkFstr None AlD))) (pord (fbase (to_freq (mkFstr None AlD))) (ts 2017 10 3 0 0 0))]);
       (tokens_eqb tx188 [TText "Workshift("; TNum 5; TText ") of "; TText "'"; TFreq (mkFstr None AlD); TText "' at ";
        TPeriod (fbase (to_freq (mkFstr None AlD))) (pord (fbase (to_freq (mkFstr None AlD))) (ts 2017 10 5 0 0 0))]);
       (tokens_eqb tx190 [TText "Workshift("; TNum 7; TText ") of "; TText "'"; TFreq (mkFstr None AlD); TText "' at ";
        TPeriod (fbase (to_freq (mkFstr None AlD))) (pord (fbase (to_freq (mkFstr None AlD))) (ts 2017 10 7 0 0 0))]);
       (n191 =? 3);
       (tokens_eqb tx193 [TText "Workshift("; TNum 2; TText ") of "; TText "'"; TFreq (mkFstr None AlD); TText "' at ";
        TPeriod (fbase (to_freq (mkFstr None AlD))) (pord (fbase (to_freq (mkFstr None AlD))) (ts 2017 10 2 0 0 0))]);
       (tokens_eqb tx195 [TText "Workshift("; TNum 4; TText ") of "; TText "'"; TFreq (mkFstr None AlD); TText "' at ";
        TPeriod (fbase (to_freq (mkFstr None AlD))) (pord (fbase (to_freq (mkFstr None AlD))) (ts 2017 10 4 0 0 0))]);
       (tokens_eqb tx197 [TText "Workshift("; TNum 8; TText ") of "; TText "'"; TFreq (mkFstr None AlD); TText "' at ";
        TPeriod (fbase (to_freq (mkFstr None AlD))) (pord (fbase (to_freq (mkFstr None AlD))) (ts 2017 10 8 0 0 0))]);
       (n198 =? 4);
       (tokens_eqb tx201 [TText "Workshift("; TNum 7; TText ", "; TSched 1; TText ") of "; TText "'";
        TFreq (mkFstr None AlD); TText "' at ";
        TPeriod (fbase (to_freq (mkFstr None AlD))) (pord (fbase (to_freq (mkFstr None AlD))) (ts 2017 10 7 0 0 0))]);
       (n202 =? 2);
       (tokens_eqb tx204 [TText "Workshift("; TNum 2; TText ") of "; TText "'"; TFreq (mkFstr None AlD); TText "' at ";
        TPeriod (fbase (to_freq (mkFstr None AlD))) (pord (fbase (to_freq (mkFstr None AlD))) (ts 2017 10 2 0 0 0))]);
       (tokens_eqb tx206 [TText "Workshift("; TNum 3; TText ") of "; TText "'"; TFreq (mkFstr None AlD); TText "' at ";
        TPeriod (fbase (to_freq (mkFstr None AlD))) (pord (fbase (to_freq (mkFstr None AlD))) (ts 2017 10 3 0 0 0))]);
       (tokens_eqb tx208 [TText "Workshift("; TNum 8; TText ") of "; TText "'"; TFreq (mkFstr None AlD); TText "' at ";
        TPeriod (fbase (to_freq (mkFstr None AlD))) (pord (fbase (to_freq (mkFstr None AlD))) (ts 2017 10 8 0 0 0))]);
       (n209 =? 7)]) = true.
Proof. vm_compute. reflexivity. Qed.

(** doc/source/doing_calculations.rst:757, 772, 780, 788, 800 *)
Example doing_calculations_757 : passes (
  let heap0 : heap Z := [] in
  do tb210 <- build (mkArgs (mkFstr None AlD) (ts 2017 9 30 0 0 0) (ts 2017 10 15 0 0 0) (LPat (PList [0; 1; 0;
          2])) [] (fun x => negb (x =? 0)) 0 false (-999999) WDuration conf_num) heap0;
  do iv211 <- get_interval (fst tb210) (RPair (Some (ts 2017 10 2 0 0 0)) (Some (ts 2017 10 8 0 0 0))) None None true
          C11 None;
  do tx212 <- iv_repr (fst tb210) iv211;
  do df213 <- iv_dataframe (fst tb210) iv211;
  do wl214 <- iv_workshifts (fst tb210) iv211 DOn None;
  do l215 <- mapM (fun w => ws_start_time (tb_tl (fst tb210)) (ws_loc w)) wl214;
  do wl216 <- iv_workshifts (fst tb210) iv211 DOff None;
  do l217 <- mapM (ws_repr (fst tb210)) wl216;
  do wl218 <- iv_workshifts (fst tb210) iv211 DAny None;
  do l219 <- mapM (fun w => ws_start_time (tb_tl (fst tb210)) (ws_loc w)) wl218;
  do wl220 <- iv_workshifts (fst tb210) iv211 DAny None;
  do l221 <- mapM (ws_repr (fst tb210)) wl220;
  Ok [forallb (fun x => x) [(tokens_eqb tx212 [TText "Interval("; TText "("; TNum 2; TText ", "; TNum 8; TText ")";
        TText "): "; TText "'"; TFreq (mkFstr None AlD); TText "' at ";
        TPeriod (fbase (to_freq (mkFstr None AlD))) (pord (fbase (to_freq (mkFstr None AlD))) (ts 2017 10 2 0 0 0));
        TText " -> "; TText "'"; TFreq (mkFstr None AlD); TText "' at ";
        TPeriod (fbase (to_freq (mkFstr None AlD))) (pord (fbase (to_freq (mkFstr None AlD))) (ts 2017 10 8 0 0 0));
        TText " ["; TNum 7; TText "]"]); row_at df213 2 (fun r b => shown NS_DAY (ts 2017 10 2 0 0 0) (row_ref r) &&
        ((ts 2017 10 2 0 0 0) =? row_start r) && (1 =? row_duration r) &&
        shown NS_DAY (ts 2017 10 2 0 0 0) (row_end r) && (0 =? row_label r) && has_flag b 0 false);
        row_at df213 3 (fun r b => shown NS_DAY (ts 2017 10 3 0 0 0) (row_ref r) &&
        ((ts 2017 10 3 0 0 0) =? row_start r) && (1 =? row_duration r) &&
        shown NS_DAY (ts 2017 10 3 0 0 0) (row_end r) && (2 =? row_label r) && has_flag b 0 true);
        row_at df213 4 (fun r b => shown NS_DAY (ts 2017 10 4 0 0 0) (row_ref r) &&
        ((ts 2017 10 4 0 0 0) =? row_start r) && (1 =? row_duration r) &&
        shown NS_DAY (ts 2017 10 4 0 0 0) (row_end r) && (0 =? row_label r) && has_flag b 0 false);
        row_at df213 5 (fun r b => shown NS_DAY (ts 2017 10 5 0 0 0) (row_ref r) &&
        ((ts 2017 10 5 0 0 0) =? row_start r) && (1 =? row_duration r) &&
        shown NS_DAY (ts 2017 10 5 0 0 0) (row_end r) && (1 =? row_label r) && has_flag b 0 true);
        row_at df213 6 (fun r b => shown NS_DAY (ts 2017 10 6 0 0 0) (row_ref r) &&
        ((ts 2017 10 6 0 0 0) =? row_start r) && (1 =? row_duration r) &&
        shown NS_DAY (ts 2017 10 6 0 0 0) (row_end r) && (0 =? row_label r) && has_flag b 0 false);
        row_at df213 7 (fun r b => shown NS_DAY (ts 2017 10 7 0 0 0) (row_ref r) &&
        ((ts 2017 10 7 0 0 0) =? row_start r) && (1 =? row_duration r) &&
        shown NS_DAY (ts 2017 10 7 0 0 0) (row_end r) && (2 =? row_label r) && has_flag b 0 true);
        row_at df213 8 (fun r b => shown NS_DAY (ts 2017 10 8 0 0 0) (row_ref r) &&
        ((ts 2017 10 8 0 0 0) =? row_start r) && (1 =? row_duration r) &&
        shown NS_DAY (ts 2017 10 8 0 0 0) (row_end r) && (0 =? row_label r) && has_flag b 0 false); (zlen df213 =? 7)];
       (list_eqb Z.eqb l215 [(ts 2017 10 3 0 0 0); (ts 2017 10 5 0 0 0); (ts 2017 10 7 0 0 0)] &&
        list_eqb Z.eqb (map ws_label wl214) [2; 1; 2]);
       (tokenss_eqb l217 [[TText "Workshift("; TNum 2; TText ") of "; TText "'"; TFreq (mkFstr None AlD); TText "' at ";
        TPeriod (fbase (to_freq (mkFstr None AlD))) (pord (fbase (to_freq (mkFstr None AlD))) (ts 2017 10 2 0 0 0))];
        [TText "Workshift("; TNum 4; TText ") of "; TText "'"; TFreq (mkFstr None AlD); TText "' at ";
        TPeriod (fbase (to_freq (mkFstr None AlD))) (pord (fbase (to_freq (mkFstr None AlD))) (ts 2017 10 4 0 0 0))];
        [TText "Workshift("; TNum 6; TText ") of "; TText "'"; TFreq (mkFstr None AlD); TText "' at ";
        TPeriod (fbase (to_freq (mkFstr None AlD))) (pord (fbase (to_freq (mkFstr None AlD))) (ts 2017 10 6 0 0 0))];
        [TText "Workshift("; TNum 8; TText ") of "; TText "'"; TFreq (mkFstr None AlD); TText "' at ";
        TPeriod (fbase (to_freq (mkFstr None AlD))) (pord (fbase (to_freq (mkFstr None AlD))) (ts 2017 10 8 0 0 0))]]);
       (list_eqb Z.eqb l219 [(ts 2017 10 2 0 0 0); (ts 2017 10 3 0 0 0); (ts 2017 10 4 0 0 0); (ts 2017 10 5 0 0 0);
        (ts 2017 10 6 0 0 0); (ts 2017 10 7 0 0 0); (ts 2017 10 8 0 0 0)] && list_eqb Z.eqb (map ws_label wl218) [0;
        2; 0; 1; 0; 2; 0]);
       (tokenss_eqb l221 [[TText "Workshift("; TNum 2; TText ") of "; TText "'"; TFreq (mkFstr None AlD); TText "' at ";
        TPeriod (fbase (to_freq (mkFstr None AlD))) (pord (fbase (to_freq (mkFstr None AlD))) (ts 2017 10 2 0 0 0))];
        [TText "Workshift("; TNum 3; TText ") of "; TText "'"; TFreq (mkFstr None AlD); TText "' at ";
        TPeriod (fbase (to_freq (mkFstr None AlD))) (pord (fbase (to_freq (mkFstr None AlD))) (ts 2017 10 3 0 0 0))];
        [TText "Workshift("; TNum 4; TText ") of "; TText "'"; TFreq (mkFstr None AlD); TText "' at ";
        TPeriod (fbase (to_freq (mkFstr None AlD))) (pord (fbase (to_freq (mkFstr None AlD))) (ts 2017 10 4 0 0 0))];
        [TText "Workshift("; TNum 5; TText ") of "; TText "'"; TFreq (mkFstr None AlD); TText "' at ";
        TPeriod (fbase (to_freq (mkFstr None AlD))) (pord (fbase (to_freq (mkFstr None AlD))) (ts 2017 10 5 0 0 0))];
        [TText "Workshift("; TNum 6; TText ") of "; TText "'"; TFreq (mkFstr None AlD); TText "' at ";
        TPeriod (fbase (to_freq (mkFstr None AlD))) (pord (fbase (to_freq (mkFstr None AlD))) (ts 2017 10 6 0 0 0))];
        [TText "Workshift("; TNum 7; TText ") of "; TText "'"; TFreq (mkFstr None AlD); TText "' at ";
        TPeriod (fbase (to_freq (mkFstr None AlD))) (pord (fbase (to_freq (mkFstr None AlD))) (ts 2017 10 7 0 0 0))];
        [TText "Workshift("; TNum 8; TText ") of "; TText "'"; TFreq (mkFstr None AlD); TText "' at ";
        TPeriod (fbase (to_freq (mkFstr None AlD))) (pord (fbase (to_freq (mkFstr None AlD))) (ts 2017 10 8 0 0 0))]])]) = true.
Proof. vm_compute. reflexivity. Qed.

(** doc/source/doing_calculations.rst:825, 836, 838, 840 *)
Example doing_calculations_825 : passes (
  let heap0 : heap Z := [] in
  do tb222 <- build (mkArgs (mkFstr None AlD) (ts 2017 9 30 0 0 0) (ts 2017 10 11 0 0 0) (LPat (PList [4; 8; 4;
          8])) [] (fun x => ((x >? 4))) 0 false (-999999) WDuration conf_num) heap0;
  do iv223 <- new_interval (fst tb222) 1 3 (tb_default (fst tb222));
  do tx224 <- iv_repr (fst tb222) iv223;
  do df225 <- iv_dataframe (fst tb222) iv223;
  do q226 <- iv_worktime (fst tb222) iv223 DOn None;
  do q227 <- iv_worktime (fst tb222) iv223 DOff None;
  do q228 <- iv_worktime (fst tb222) iv223 DAny None;
  Ok [forallb (fun x => x) [(tokens_eqb tx224 [TText "Interval("; TText "("; TNum 1; TText ", "; TNum 3; TText ")";
        TText "): "; TText "'"; TFreq (mkFstr None AlD); TText "' at ";
        TPeriod (fbase (to_freq (mkFstr None AlD))) (pord (fbase (to_freq (mkFstr None AlD))) (ts 2017 10 1 0 0 0));
        TText " -> "; TText "'"; TFreq (mkFstr None AlD); TText "' at ";
        TPeriod (fbase (to_freq (mkFstr None AlD))) (pord (fbase (to_freq (mkFstr None AlD))) (ts 2017 10 3 0 0 0));
        TText " ["; TNum 3; TText "]"]); row_at df225 1 (fun r b => shown NS_DAY (ts 2017 10 1 0 0 0) (row_ref r) &&
        ((ts 2017 10 1 0 0 0) =? row_start r) && (1 =? row_duration r) &&
        shown NS_DAY (ts 2017 10 1 0 0 0) (row_end r) && (8 =? row_label r) && has_flag b 0 true);
        row_at df225 2 (fun r b => shown NS_DAY (ts 2017 10 2 0 0 0) (row_ref r) &&
        ((ts 2017 10 2 0 0 0) =? row_start r) && (1 =? row_duration r) &&
        shown NS_DAY (ts 2017 10 2 0 0 0) (row_end r) && (4 =? row_label r) && has_flag b 0 false);
        row_at df225 3 (fun r b => shown NS_DAY (ts 2017 10 3 0 0 0) (row_ref r) &&
        ((ts 2017 10 3 0 0 0) =? row_start r) && (1 =? row_duration r) &&
        shown NS_DAY (ts 2017 10 3 0 0 0) (row_end r) && (8 =? row_label r) && has_flag b 0 true); (zlen df225 =? 3)];
       (qclose q226 (2 # 1));
       (qclose q227 (1 # 1));
       (qclose q228 (3 # 1))]) = true.
Proof. vm_compute. reflexivity. Qed.

(** doc/source/doing_calculations.rst:853, 855, 857 *)
Example doing_calculations_853 : passes (
  let heap0 : heap Z := [] in
  do tb229 <- build (mkArgs (mkFstr None AlD) (ts 2017 9 30 0 0 0) (ts 2017 10 11 0 0 0) (LPat (PList [4; 8; 4;
          8])) [] (fun x => ((x >? 4))) 0 false (-999999) WLabels conf_num) heap0;
  do iv230 <- new_interval (fst tb229) 1 3 (tb_default (fst tb229));
  do q231 <- iv_worktime (fst tb229) iv230 DOn None;
  do q232 <- iv_worktime (fst tb229) iv230 DOff None;
  do q233 <- iv_worktime (fst tb229) iv230 DAny None;
  Ok [(qclose q231 (16 # 1));
       (qclose q232 (4 # 1));
       (qclose q233 (20 # 1))]) = true.
Proof. vm_compute. reflexivity. Qed.

(** doc/source/doing_calculations.rst:884, 891, 898, 905, 911, 917, 927, 932 *)
Example doing_calculations_884 : passes (
  let heap0 : heap Z := [] in
  do tb234 <- build (mkArgs (mkFstr None AlD) (ts 2017 10 2 0 0 0) (ts 2017 10 15 0 0 0) (LPat (PList [1; 1; 1; 1; 1;
          0; 0])) [] (fun x => negb (x =? 0)) 0 false (-999999) WDuration conf_num) heap0;
  do iv235 <- get_interval (fst tb234) (RPoint (ts 2017 10 2 0 0 0)) None (Some (mkFstr None (AlW None))) true C11 None;
  do iv236 <- get_interval (fst tb234) (RPair (Some (ts 2017 10 5 0 0 0)) (Some (ts 2017 10 7 0 0 0))) None None true
          C11 None;
  do q237 <- what_portion_of (fst tb234) iv236 iv235 DOn None;
  do q238 <- what_portion_of (fst tb234) iv236 iv235 DOff None;
  do q239 <- what_portion_of (fst tb234) iv236 iv235 DAny None;
  do q240 <- what_portion_of (fst tb234) iv236 iv235 DOn None;
  do iv241 <- get_interval (fst tb234) (RPoint (ts 2017 10 9 0 0 0)) None (Some (mkFstr None (AlW None))) true C11 None;
  do q242 <- what_portion_of (fst tb234) iv236 iv241 DAny None;
  do iv243 <- get_interval (fst tb234) (RPair (Some (ts 2017 10 2 0 0 0)) (Some (ts 2017 10 11 0 0 0))) None None
          true C11 None;
  do q244 <- what_portion_of (fst tb234) iv243 iv235 DOn None;
  do iv245 <- get_interval (fst tb234) (RPair (Some (ts 2017 10 7 0 0 0)) (Some (ts 2017 10 8 0 0 0))) None None true
          C11 None;
  do q246 <- what_portion_of (fst tb234) iv245 iv235 DOn None;
  do q247 <- what_portion_of (fst tb234) iv245 iv235 DOff None;
  Ok [(qclose q237 (2 # 5));
       (qclose q238 (1 # 2));
       (qclose q239 (8571428571428571 # 20000000000000000));
       (qclose q240 (2 # 5));
       (qclose q242 (0 # 1));
       (qclose q244 (1 # 1));
       (qclose q246 (0 # 1));
       (qclose q247 (1 # 1))]) = true.
Proof. vm_compute. reflexivity. Qed.

(** doc/source/doing_calculations.rst:886, 893, 900, 962, 969, 976, 988, 992 *)
Example doing_calculations_886 : passes (
  let heap0 : heap Z := [] in

  Ok [(qclose (2 # 5) (2 # 5));
       (qclose (1 # 2) (1 # 2));
       (qclose (3 # 7) (8571428571428571 # 20000000000000000));
       (qclose (35 # 24) (14583333333333333 # 10000000000000000));
       (qclose (3 # 2) (3 # 2));
       (qclose (17 # 12) (14166666666666667 # 10000000000000000));
       (qclose (3 # 2) (3 # 2));
       (qclose (13 # 9) (3611111111111111 # 2500000000000000))]) = true.
Proof. vm_compute. reflexivity. Qed.

(** doc/source/doing_calculations.rst:960, 967, 974, 986, 990, 999, 1001, 1008, 1010 *)
Example doing_calculations_960 : passes (
  let heap0 : heap Z := [] in
  do tb248 <- build (mkArgs (mkFstr None AlH) (ts 2017 10 1 0 0 0) (ts 2017 10 8 23 59 0) (LPat (PList [0; 1; 0;
          2])) [] (fun x => negb (x =? 0)) 0 false (-999999) WDuration conf_num) heap0;
  do iv249 <- get_interval (fst tb248) (RPair (Some (ts 2017 10 1 13 0 0)) (Some (ts 2017 10 2 23 59 0))) None None
          true C11 None;
  do q250 <- count_periods (fst tb248) iv249 (mkFstr None AlD) DAny None;
  do q251 <- count_periods (fst tb248) iv249 (mkFstr None AlD) DOn None;
  do q252 <- count_periods (fst tb248) iv249 (mkFstr None AlD) DOff None;
  do r253 <- add_schedule (fst tb248) 1 (fun x => ((x >? 1)));
  do q254 <- count_periods (fst r253) iv249 (mkFstr None AlD) DOn (Some (snd r253));
  do q255 <- count_periods (fst r253) iv249 (mkFstr None AlD) DOff (Some (snd r253));
  do iv256 <- get_interval (fst r253) (RPair (Some (ts 2017 10 1 0 0 0)) (Some (ts 2017 10 2 0 59 0))) None None true
          C11 None;
  do tx257 <- iv_repr (fst r253) iv256;
  do q258 <- count_periods (fst r253) iv256 (mkFstr None AlD) DOn None;
  do iv259 <- get_interval (fst r253) (RPair (Some (ts 2017 10 1 1 0 0)) (Some (ts 2017 10 1 23 59 0))) None None
          true C11 None;
  do tx260 <- iv_repr (fst r253) iv259;
  do q261 <- count_periods (fst r253) iv259 (mkFstr None AlD) DOn None;
  Ok [(qclose q250 (14583333333333333 # 10000000000000000));
       (qclose q251 (3 # 2));
       (qclose q252 (14166666666666667 # 10000000000000000));
       (qclose q254 (3 # 2));
       (qclose q255 (3611111111111111 # 2500000000000000));
       (tokens_eqb tx257 [TText "Interval("; TText "("; TNum 0; TText ", "; TNum 24; TText ")"; TText "): "; TText "'";
        TFreq (mkFstr None AlH); TText "' at ";
        TPeriod (fbase (to_freq (mkFstr None AlH))) (pord (fbase (to_freq (mkFstr None AlH))) (ts 2017 10 1 0 0 0));
        TText " -> "; TText "'"; TFreq (mkFstr None AlH); TText "' at ";
        TPeriod (fbase (to_freq (mkFstr None AlH))) (pord (fbase (to_freq (mkFstr None AlH))) (ts 2017 10 2 0 0 0));
        TText " ["; TNum 25; TText "]"]);
       (qclose q258 (1 # 1));
       (tokens_eqb tx260 [TText "Interval("; TText "("; TNum 1; TText ", "; TNum 23; TText ")"; TText "): "; TText "'";
        TFreq (mkFstr None AlH); TText "' at ";
        TPeriod (fbase (to_freq (mkFstr None AlH))) (pord (fbase (to_freq (mkFstr None AlH))) (ts 2017 10 1 1 0 0));
        TText " -> "; TText "'"; TFreq (mkFstr None AlH); TText "' at ";
        TPeriod (fbase (to_freq (mkFstr None AlH))) (pord (fbase (to_freq (mkFstr None AlH))) (ts 2017 10 1 23 0 0));
        TText " ["; TNum 23; TText "]"]);
       (qclose q261 (1 # 1))]) = true.
Proof. vm_compute. reflexivity. Qed.

(** doc/source/doing_calculations.rst:1031, 1033 *)
Example doing_calculations_1031 : passes (
  let heap0 : heap Z := [] in
  do tb262 <- build (mkArgs (mkFstr None AlH) (ts 2017 10 1 0 0 0) (ts 2017 10 8 23 59 0) (LPat (PList [0; 1; 0;
          2])) [] (fun x => negb (x =? 0)) 0 false (-999999) WDuration conf_num) heap0;
  do iv263 <- get_interval (fst tb262) (RPair (Some (ts 2017 10 2 0 0 0)) (Some (ts 2017 10 2 23 59 0))) None None
          true C11 None;
  do iv264 <- get_interval (fst tb262) (RPair (Some (ts 2017 10 1 13 0 0)) (Some (ts 2017 10 2 23 59 0))) None None
          true C11 None;
  do q265 <- count_periods (fst tb262) iv263 (mkFstr None (AlW None)) DOn None;
  Ok [(qclose q265 (2857142857142857 # 20000000000000000));
       raises [EPartialOutOfBounds] (do q266 <- count_periods (fst tb262) iv264 (mkFstr None (AlW None)) DOn None; Ok tt)]) = true.
Proof. vm_compute. reflexivity. Qed.
