(** Samples: concrete timeboards on which the hypotheses of the theorems are shown to be
    satisfiable.  Labels are integers. *)
From Verif Require Import Base Civil Freq Frame Timeline Board Spec.
From Coq Require Import QArith.
Open Scope Z_scope.

Definition fq (a : alias) : fstr := mkFstr None a.
Definition fqn (n : positive) (a : alias) : fstr := mkFstr (Some n) a.
(** Midnight of a date, and a time of day. *)
Definition day (y m d : Z) : Z := date y m d * NS_DAY.
Definition at_hour (y m d h : Z) : Z := day y m d + h * NS_HOUR.

Definition no_tb : timeboard Z :=
  let tl := mkTl (mkFrame (fq AlD) 0 0) [] [] [] false in
  mkTb tl (mk_schedule tl 0 (fun _ => false)) [] WDuration (fun _ => None).
Definition the_tb (a : tb_args Z) : timeboard Z :=
  match build a [] with Ok (tb, _) => tb | Err _ => no_tb end.

Definition pos_sel (x : Z) : bool := 0 <? x.
Definition num (x : Z) : option Q := Some (inject_Z x).

(** A five-day working week, from Fri 30 Dec 2016 to Sun 15 Jan 2017, with Mon 2 Jan off
    (given by an instant in the middle of the day) and an amendment outside. *)
Definition week_layout : layout Z :=
  LOrg (DMarker (mkMarker (fq (AlW None)) [])) [LPat (PList [8; 8; 8; 8; 7; 0; 0])].
Definition week_args : tb_args Z :=
  mkArgs (fq AlD) (at_hour 2016 12 30 12) (day 2017 1 15) week_layout
         [(at_hour 2017 1 2 15, 0); (day 2016 1 1, 3)] pos_sel 1 false (-1) WLabels num.
Definition week_tb : timeboard Z := the_tb week_args.

Example week_builds : build week_args [] = Ok (week_tb, []).
Proof. vm_compute. reflexivity. Qed.
Lemma week_reachable : reachable week_tb.
Proof. exact (reach_build _ _ _ _ week_builds). Qed.
Example week_labels : tl_labels (tb_tl week_tb) = [7; 0; 0; 0; 8; 8; 8; 7; 0; 0; 8; 8; 8; 8; 7; 0; 0].
Proof. vm_compute. reflexivity. Qed.

(** Compound shifts: hours of three days of Jan 2017 cut at marks; the middle part is cut
    into days by a marker and one of them is left in hours. Reference time: end. *)
Definition shift_layout : layout Z :=
  LOrg (DMarks [at_hour 2017 1 1 8; at_hour 2017 1 1 18 + 1; at_hour 2017 1 3 0])
       [LLab 1; LLab 2; LOrg (DMarker (mkMarker (fq AlD) [])) [LLab 0; LPat (PList [3; 4])]; LLab 5].
Definition shift_args : tb_args Z :=
  mkArgs (fq AlH) (day 2017 1 1) (at_hour 2017 1 3 23) shift_layout [] pos_sel 1 true (-1) WDuration num.
Definition shift_tb : timeboard Z := the_tb shift_args.
Example shift_builds : build shift_args [] = Ok (shift_tb, []).
Proof. vm_compute. reflexivity. Qed.
Lemma shift_reachable : reachable shift_tb.
Proof. exact (reach_build _ _ _ _ shift_builds). Qed.
Example shift_index : tl_index (tb_tl shift_tb) = [0; 8; 18] ++ zrange 24 25.
Proof. vm_compute. reflexivity. Qed.

(** A second schedule on the weekly board. *)
Definition full_day (x : Z) : bool := 8 <=? x.
Definition week_full : schedule Z := mk_schedule (tb_tl week_tb) 2 full_day.
Lemma week_full_for : sched_for week_tb week_full.
Proof. exists 2, full_day. reflexivity. Qed.
Lemma week_default_for : sched_for week_tb (tb_default week_tb).
Proof. exists 1, pos_sel. vm_compute. reflexivity. Qed.
Lemma shift_default_for : sched_for shift_tb (tb_default shift_tb).
Proof. exists 1, pos_sel. vm_compute. reflexivity. Qed.
