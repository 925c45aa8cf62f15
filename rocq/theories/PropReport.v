(** Reports by calendar periods add up: C82. *)
From Verif Require Import Base Civil Freq Frame Timeline Board Spec SpecRoll SpecLookup SpecLayout SpecQuery SpecInterval SpecReport Samples ReportProofs.
From Coq Require Import QArith Lia.
Open Scope Z_scope.

(** C82.  If an interval holds the workshifts of successive calendar periods, then what is counted for it is
    the sum of what is counted for the intervals of the periods, where periods for which there is no interval
    count as nothing. *)
Theorem C82_sums : forall L (tb : timeboard L) iv f o n d s, reachable tb -> iv_of tb iv -> made_of tb iv (successive f o n) ->
  d = DOn \/ d = DOff \/ d = DAny -> sched_for tb s ->
  (exists xs, Forall2 (reported tb 0 (fun v => iv_count v d (Some s))) (successive f o n) xs /\ iv_count iv d (Some s) = Ok (z_total xs))
  /\ (exists xs, Forall2 (reported tb 0 (fun v => total_duration tb v d (Some s))) (successive f o n) xs /\ total_duration tb iv d (Some s) = Ok (z_total xs))
  /\ (numeric tb -> exists xs q, Forall2 (reported tb 0%Q (fun v => iv_worktime tb v d (Some s))) (successive f o n) xs
        /\ iv_worktime tb iv d (Some s) = Ok q /\ (q == q_total xs)%Q).
Proof. exact C82_sums_pf. Qed.
Print Assumptions C82_sums.
(** The interval of a longer period holds the workshifts of the shorter ones of which it consists. *)
Theorem C82_longer : forall L (tb : timeboard L) iv f o n p s, reachable tb ->
  p_start p = pstart (fbase f) o -> p_end p + 1 = pstart (fbase f) (o + Zpos (fmult f) * Z.of_nat n) ->
  get_interval tb (RPeriod p) None None true C11 s = Ok iv -> made_of tb iv (successive f o n).
Proof. exact C82_longer_pf. Qed.
Print Assumptions C82_longer.
(** It consists of them if longer periods begin with shorter ones, as years do with months and days. *)
Theorem C82_nested : forall f p, fmult f = 1%positive -> begins_with (fbase f) (fbase (p_freq p)) ->
  exists o n, p_start p = pstart (fbase f) o /\ p_end p + 1 = pstart (fbase f) (o + Zpos (fmult f) * Z.of_nat n).
Proof. exact C82_nested_pf. Qed.
Print Assumptions C82_nested.
(** And the interval of the whole timeboard holds those of any periods that cover it. *)
Theorem C82_whole : forall L (tb : timeboard L) f o n s, reachable tb ->
  pstart (fbase f) o <= tb_start_time tb -> tb_end_time tb < pstart (fbase f) (o + Zpos (fmult f) * Z.of_nat n) ->
  exists iv, get_interval tb RNone None None true C11 s = Ok iv /\ made_of tb iv (successive f o n).
Proof. exact C82_whole_pf. Qed.
Print Assumptions C82_whole.

(** The first day in parts of four hours: three workshifts, by their end times, and three parts without any. *)
Definition quarter_days : list period := successive (mkFreq BH 4) 412008 6.
Definition first_day : interval Z := mkIvl 0 2 false (tb_default shift_tb).
Definition as_reported (q : interval Z -> res Z) (tb : timeboard Z) (ps : list period) : list (res Z) :=
  map (fun p => do v <- get_interval tb (RPeriod p) None None true C11 None; q v) ps.
Example C82_sums_ex :
  get_interval shift_tb (RPeriod (mkPeriod (mkFreq BD 1) 17167)) None None true C11 None = Ok first_day
  /\ iv_of shift_tb first_day /\ made_of shift_tb first_day quarter_days
  /\ as_reported (fun v => iv_count v DAny None) shift_tb quarter_days = [Err EVoidInterval; Ok 1; Err EVoidInterval; Err EVoidInterval; Ok 1; Ok 1]
  /\ as_reported (fun v => total_duration shift_tb v DAny None) shift_tb quarter_days = [Err EVoidInterval; Ok 8; Err EVoidInterval; Err EVoidInterval; Ok 10; Ok 6]
  /\ iv_count first_day DAny None = Ok 3 /\ total_duration shift_tb first_day DAny None = Ok 24.
Proof.
  assert (G : get_interval shift_tb (RPeriod (mkPeriod (mkFreq BD 1) 17167)) None None true C11 None = Ok first_day) by (vm_compute; reflexivity).
  split; [exact G|]. split; [split; [exact shift_default_for|]; vm_compute; repeat split; congruence|].
  split; [eapply C82_longer; [exact shift_reachable| | |exact G]; vm_compute; reflexivity|]. vm_compute. repeat split.
Qed.
Example C82_nested_ex : begins_with BM (BA 12).
Proof. intros o. exists (12 * o + (12 - 12)). reflexivity. Qed.
(** The whole timeboard by weeks: on duty on one, four and five days, with 7, 31 and 39 hours. *)
Example C82_whole_ex :
  let weeks := successive (to_freq (fq (AlW None))) 2451 3 in
  (exists iv, get_interval week_tb RNone None None true C11 None = Ok iv /\ made_of week_tb iv weeks)
  /\ as_reported (fun v => iv_count v DOn None) week_tb weeks = [Ok 1; Ok 4; Ok 5]
  /\ map (fun p => do v <- get_interval week_tb (RPeriod p) None None true C11 None; iv_worktime week_tb v DOn None) weeks = map (fun n => Ok (inject_Z n)) [7; 31; 39]
  /\ (do v <- get_interval week_tb RNone None None true C11 None; iv_count v DOn None) = Ok 10
  /\ (do v <- get_interval week_tb RNone None None true C11 None; iv_worktime week_tb v DOn None) = Ok (inject_Z 77).
Proof.
  cbv zeta. split; [|vm_compute; repeat split]. apply C82_whole; [exact week_reachable|vm_compute; discriminate|vm_compute; reflexivity].
Qed.
