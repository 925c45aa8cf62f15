(** The same timeboard at another time: C74. *)
From Verif Require Import Base Civil Freq Frame When Timeline Board Spec SpecMove Samples MoveProofs.
From Coq Require Import QArith Lia.
Open Scope Z_scope.

(** C74.  When the calendar periods that are used come again after the time [T], the timeboard of the
    arguments moved by [T] fails as the first one does, or else gives the same answers [T] later. *)
Theorem C74_moved : forall (L : Type) (T : Z) (a : tb_args L) (h : heap L), repeats T (a_freq a) -> steady T (a_layout a) ->
  match build a h with
  | Ok (tb, h1) => exists tb', build (later_args T a) h = Ok (tb', h1) /\ same_later T tb tb'
  | Err e => build (later_args T a) h = Err e
  end.
Proof. exact C74_moved_pf. Qed.
Print Assumptions C74_moved.

(** The calendar periods come again exactly after these times. *)
Theorem C74_periods : forall (T : Z) (fs : fstr), repeats T fs <-> exists n, T = n * cycle_of (fbase (to_freq fs)).
Proof. exact C74_periods_pf. Qed.
Print Assumptions C74_periods.
(** Points so much time from the start of each period; also so many months and years, after 400 years. *)
Theorem C74_from_start : forall (T : Z) (o : dateoffset), of_time o \/ any_year o /\ (exists n, T = n * era) -> steady_how T (from_start_of_each o).
Proof. exact C74_from_start_pf. Qed.
Print Assumptions C74_from_start.
(** N-th weekdays of a month, after 400 years. *)
Theorem C74_weekday : forall (n month week wday shift : Z), steady_how (n * era) (nth_weekday_of_month month week wday shift).
Proof. exact C74_weekday_pf. Qed.
Print Assumptions C74_weekday.
(** Western Easter, after 5 700 000 years, *)
Theorem C74_easter : forall (n : Z) (o : dateoffset), any_year o -> steady_how (n * 14250 * era) (from_easter false o).
Proof. exact C74_easter_pf. Qed.
Print Assumptions C74_easter.
(** but not after 400. *)
Theorem C74_easter_refuted : exists (a : tb_args Z) (tb tb' : timeboard Z), repeats era (a_freq a) /\ build a [] = Ok (tb, []) /\ build (later_args era a) [] = Ok (tb', [])
  /\ ~ same_later era tb tb'.
Proof. exact C74_easter_refuted_pf. Qed.
Print Assumptions C74_easter_refuted.

(** Weeks from Tuesdays up to Wed 18 Jan 2017, a pattern of days from there; an amendment. *)
Definition move_layout : layout Z :=
  LOrg (DMarks [day 2017 1 18]) [LOrg (DMarker (mkMarker (fq (AlW None)) [from_start_of_each (DKw 0 0 0 1 0 0 0)])) [LLab 1; LLab 0]; LPat (PList [5; 6])].
Definition move_args : tb_args Z :=
  mkArgs (fq AlD) (day 2017 1 4) (day 2017 1 21) move_layout [(at_hour 2017 1 12 15, 9)] pos_sel 1 true (-1) WDuration Samples.num.
Definition weeks (n : Z) : Z := n * (7 * NS_DAY).
Lemma move_weeks_day n : repeats (weeks n) (fq AlD).
Proof. apply C74_periods. exists (n * 7). unfold weeks. change (cycle_of (fbase (to_freq (fq AlD)))) with NS_DAY. lia. Qed.
Lemma move_weeks_week n : repeats (weeks n) (fq (AlW None)).
Proof. apply C74_periods. exists n. reflexivity. Qed.
Lemma move_steady n : steady (weeks n) move_layout.
Proof.
  constructor. intros it [<-|[<-|[]]]; [|constructor]. constructor.
  - split; [apply move_weeks_week|]. intros how [<-|[]]. apply C74_from_start. left. split; reflexivity.
  - intros it [<-|[<-|[]]]; constructor.
Qed.
Lemma move_built : build move_args [] = Ok (the_tb move_args, []). Proof. vm_compute. reflexivity. Qed.
(** Any number of weeks later. *)
Example C74_moved_ex n : exists tb', build (later_args (weeks n) move_args) [] = Ok (tb', []) /\ same_later (weeks n) (the_tb move_args) tb'.
Proof. pose proof (C74_moved Z (weeks n) move_args [] (move_weeks_day n) (move_steady n)) as H. rewrite move_built in H. exact H. Qed.
(** Seven workshifts: from Wed 4 Jan, Tue 10 Jan (labelled 9), Tue 17 Jan, and four days. *)
Example C74_moved_ex2 : tb_len (the_tb move_args) = 7 /\ tl_labels (tb_tl (the_tb move_args)) = [1; 9; 1; 5; 6; 5; 6]
  /\ ws_start_time (tb_tl (the_tb move_args)) 1 = Ok (day 2017 1 10) /\ rmap (later (weeks 3)) (ws_start_time (tb_tl (the_tb move_args)) 1) = Ok (day 2017 1 31).
Proof. vm_compute. repeat split; reflexivity. Qed.
(** Days come again after three days, weeks do not; months do not come again after 52 weeks. *)
Example C74_periods_ex : repeats (3 * NS_DAY) (fq AlD) /\ ~ repeats (3 * NS_DAY) (fq (AlW None)) /\ ~ repeats (weeks 52) (fq AlM) /\ repeats era (fq AlM).
Proof.
  split; [apply C74_periods; exists 3; reflexivity|]. split.
  - intros H. apply C74_periods in H. destruct H as [n H]. change (cycle_of _) with (7 * NS_DAY) in H. unfold NS_DAY in H. lia.
  - split; [|apply C74_periods; exists 1; reflexivity]. intros H. apply C74_periods in H. destruct H as [n H]. change (cycle_of _) with era in H. unfold weeks, era, NS_DAY in H. lia.
Qed.
(** A layout with the last Thursday of November and 1 April of each year. *)
Example C74_weekday_ex : steady era (LOrg (DMarker (mkMarker (fq (AlA None)) [nth_weekday_of_month 11 (-1) 4 0; from_start_of_each (DKw 0 3 0 0 0 0 0)])) [LLab 1; LLab 2]).
Proof.
  constructor; [split; [apply C74_periods; exists 1; reflexivity|]|intros it [<-|[<-|[]]]; constructor].
  intros how [<-|[<-|[]]]; [exact (C74_weekday 1 _ _ _ _)|apply C74_from_start; right; split; [exact I|exists 1; reflexivity]].
Qed.
(** Easter of 2017 and of 5702017. *)
Example C74_easter_ex : easter false 5702017 = easter false 2017 + 14250 * 146097 /\ easter false 2417 <> easter false 2017 + 146097.
Proof. vm_compute. split; [reflexivity|discriminate]. Qed.
