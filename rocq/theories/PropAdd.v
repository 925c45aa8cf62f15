(** Numbers of periods and worktime over parts of an interval: C71. *)
From Verif Require Import Base Civil Freq Frame Timeline Board Spec SpecLookup SpecRoll SpecQuery SpecInterval Samples AddProofs.
From Coq Require Import QArith Lia.
Open Scope Z_scope.

(** Mon 28 Nov 2016 to Tue 31 Jan 2017, five working days a week. *)
Definition span_args : tb_args Z :=
  mkArgs (fq AlD) (day 2016 11 28) (day 2017 1 31) week_layout [] pos_sel 1 false (-1) WLabels Samples.num.
Definition span_tb : timeboard Z := the_tb span_args.
Lemma span_reachable : reachable span_tb.
Proof. apply (reach_build span_args [] span_tb []). vm_compute. reflexivity. Qed.
Definition span (a b : Z) : interval Z := mkIvl a b false (tb_default span_tb).
Lemma span_sched : sched_for span_tb (tb_default span_tb).
Proof. exists 1, pos_sel. vm_compute. reflexivity. Qed.
Lemma span_of a b : 0 <= a -> a <= b -> b < 65 -> iv_of span_tb (span a b).
Proof.
  intros Ha Hab Hb. split; [exact span_sched|]. unfold is_shift.
  replace (tb_len span_tb) with 65 by (vm_compute; reflexivity). cbn [span iv_void iv_a iv_b]. lia.
Qed.
Definition red (r : res Q) : res Q := match r with Ok q => Ok (Qred q) | Err e => Err e end.

(** C71.  Of adjacent intervals: where the number is returned for the whole, it is for the parts too, and is
    their sum. *)
Theorem C71_pieces : forall (L : Type) (tb : timeboard L) (x y z : interval L) fs d s q,
  reachable tb -> iv_of tb x -> iv_of tb y -> iv_of tb z -> pieces x y z -> sched_for tb s ->
  count_periods tb z fs d (Some s) = Ok q ->
  exists qx qy, count_periods tb x fs d (Some s) = Ok qx /\ count_periods tb y fs d (Some s) = Ok qy /\ (q == qx + qy)%Q.
Proof. exact C71_pieces_pf. Qed.
Print Assumptions C71_pieces.
(** Thu 1 Dec to Thu 8 Dec, and Fri 9 Dec to Tue 10 Jan: 6 of the 22 working days of December, and the
    other 16 with 7 of the 22 of January. *)
Example C71_pieces_ex :
  pieces (span 3 10) (span 11 43) (span 3 43) /\ iv_of span_tb (span 3 43)
  /\ red (count_periods span_tb (span 3 43) (fq AlM) DOn (Some (tb_default span_tb))) = Ok (29 # 22)%Q
  /\ red (count_periods span_tb (span 3 10) (fq AlM) DOn (Some (tb_default span_tb))) = Ok (3 # 11)%Q
  /\ red (count_periods span_tb (span 11 43) (fq AlM) DOn (Some (tb_default span_tb))) = Ok (23 # 22)%Q.
Proof. split; [repeat split|]. split; [apply span_of; lia|]. vm_compute. repeat split. Qed.

(** And back, if both parts have workshifts to count. *)
Theorem C71_whole : forall (L : Type) (tb : timeboard L) (x y z : interval L) fs d s qx qy,
  reachable tb -> iv_of tb x -> iv_of tb y -> iv_of tb z -> pieces x y z -> sched_for tb s ->
  iv_list tb x d s <> [] -> iv_list tb y d s <> [] ->
  count_periods tb x fs d (Some s) = Ok qx -> count_periods tb y fs d (Some s) = Ok qy ->
  exists q, count_periods tb z fs d (Some s) = Ok q /\ (q == qx + qy)%Q.
Proof. exact C71_whole_pf. Qed.
Print Assumptions C71_whole.
Example C71_whole_ex :
  pieces (span 3 10) (span 11 43) (span 3 43)
  /\ iv_list span_tb (span 3 10) DOff (tb_default span_tb) = [5; 6] /\ iv_list span_tb (span 11 43) DOff (tb_default span_tb) = [12; 13; 19; 20; 26; 27; 33; 34; 40; 41]
  /\ red (count_periods span_tb (span 3 10) (fq AlM) DOff (Some (tb_default span_tb))) = Ok (2 # 9)%Q
  /\ red (count_periods span_tb (span 11 43) (fq AlM) DOff (Some (tb_default span_tb))) = Ok (10 # 9)%Q
  /\ red (count_periods span_tb (span 3 43) (fq AlM) DOff (Some (tb_default span_tb))) = Ok (4 # 3)%Q.
Proof. split; [repeat split|]. vm_compute. repeat split. Qed.

(** Not otherwise: Wed 30 Nov has no days off, the days from Thu 1 Dec to Sat 3 Dec have one, but for all
    the four days the number cannot be told, as the timeboard does not have all of November. *)
Theorem C71_whole_refuted : exists (tb : timeboard Z) (x y z : interval Z) fs d s qx qy e,
  reachable tb /\ iv_of tb x /\ iv_of tb y /\ iv_of tb z /\ pieces x y z /\ sched_for tb s
  /\ count_periods tb x fs d (Some s) = Ok qx /\ count_periods tb y fs d (Some s) = Ok qy
  /\ count_periods tb z fs d (Some s) = Err e.
Proof.
  exists span_tb, (span 2 2), (span 3 5), (span 2 5), (fq AlM), DOff, (tb_default span_tb).
  exists (match count_periods span_tb (span 2 2) (fq AlM) DOff (Some (tb_default span_tb)) with Ok q => q | _ => 0%Q end).
  exists (match count_periods span_tb (span 3 5) (fq AlM) DOff (Some (tb_default span_tb)) with Ok q => q | _ => 0%Q end), EPartialOutOfBounds.
  split; [exact span_reachable|]. split; [apply span_of; lia|]. split; [apply span_of; lia|]. split; [apply span_of; lia|].
  split; [repeat split|]. split; [exact span_sched|]. vm_compute. repeat split.
Qed.
Print Assumptions C71_whole_refuted.

(** A part of an interval has no more periods than all of it. *)
Theorem C71_inside : forall (L : Type) (tb : timeboard L) (x z : interval L) fs d s q,
  reachable tb -> iv_of tb x -> iv_of tb z -> iv_includes z x -> sched_for tb s ->
  count_periods tb z fs d (Some s) = Ok q ->
  exists qx, count_periods tb x fs d (Some s) = Ok qx /\ (0 <= qx <= q)%Q.
Proof. exact C71_inside_pf. Qed.
Print Assumptions C71_inside.
Example C71_inside_ex :
  iv_includes (span 3 43) (span 8 20) /\ iv_of span_tb (span 8 20)
  /\ red (count_periods span_tb (span 8 20) (fq AlM) DOn (Some (tb_default span_tb))) = Ok (9 # 22)%Q.
Proof.
  split; [intros i [_ H]; split; [reflexivity|cbn [span iv_a iv_b] in *; lia]|]. split; [apply span_of; lia|]. vm_compute. reflexivity.
Qed.

(** The number is at most that of the touched periods, and is 0 only if there is nothing to count. *)
Theorem C71_bounds : forall (L : Type) (tb : timeboard L) (iv : interval L) fs d s q o0 o1,
  reachable tb -> iv_of tb iv -> sched_for tb s -> count_periods tb iv fs d (Some s) = Ok q ->
  iv_void iv = false -> touches tb iv (fbase (to_freq fs)) o0 o1 ->
  (0 <= q <= inject_Z (o1 - o0 + 1))%Q /\ ((q == 0)%Q <-> iv_list tb iv d s = []).
Proof. exact C71_bounds_pf. Qed.
Print Assumptions C71_bounds.
Example C71_bounds_ex :
  touches span_tb (span 3 43) (fbase (to_freq (fq AlM))) 563 564
  /\ red (count_periods span_tb (span 3 43) (fq AlM) DAny (Some (tb_default span_tb))) = Ok (41 # 31)%Q
  /\ red (count_periods span_tb (span 5 6) (fq AlM) DOn (Some (tb_default span_tb))) = Ok 0%Q.
Proof.
  split; [exists (day 2016 12 1), (day 2017 1 11 - 1); vm_compute; repeat split; congruence|]. vm_compute. repeat split.
Qed.

(** The interval of a calendar period is one period, or none if there is nothing to count in it. *)
Theorem C71_one : forall (L : Type) (tb : timeboard L) (iv : interval L) r per clip s0 fs o d s q,
  reachable tb -> sched_for tb s -> (forall s', s0 = Some s' -> sched_for tb s') ->
  means_period r per (mkPeriod (to_freq fs) o) -> get_interval tb r None per clip C11 s0 = Ok iv ->
  count_periods tb iv fs d (Some s) = Ok q ->
  (iv_list tb iv d s = [] -> (q == 0)%Q) /\ (iv_list tb iv d s <> [] -> (q == 1)%Q).
Proof. exact C71_one_pf. Qed.
Print Assumptions C71_one.
Example C71_one_ex :
  means_period (RPoint (day 2016 12 20)) (Some (fq AlM)) (mkPeriod (to_freq (fq AlM)) 563)
  /\ get_interval span_tb (RPoint (day 2016 12 20)) None (Some (fq AlM)) true C11 None = Ok (span 3 33)
  /\ red (count_periods span_tb (span 3 33) (fq AlM) DOn (Some (tb_default span_tb))) = Ok 1%Q
  /\ get_interval span_tb (RPoint (day 2016 12 24)) None (Some (fq AlD)) true C11 None = Ok (span 26 26)
  /\ red (count_periods span_tb (span 26 26) (fq AlD) DOn (Some (tb_default span_tb))) = Ok 0%Q.
Proof. split; [constructor; [reflexivity|vm_compute; split; congruence]|]. vm_compute. repeat split. Qed.

(** Worktime of adjacent intervals adds up; it fails for the whole exactly if it fails for a part. *)
Theorem C71_worktime : forall (L : Type) (tb : timeboard L) (x y z : interval L) d s q,
  reachable tb -> iv_of tb x -> iv_of tb y -> iv_of tb z -> pieces x y z -> sched_for tb s ->
  d = DOn \/ d = DOff \/ d = DAny ->
  (iv_worktime tb z d (Some s) = Ok q ->
   exists qx qy, iv_worktime tb x d (Some s) = Ok qx /\ iv_worktime tb y d (Some s) = Ok qy /\ (q == qx + qy)%Q)
  /\ (iv_worktime tb z d (Some s) = Err EType <-> iv_worktime tb x d (Some s) = Err EType \/ iv_worktime tb y d (Some s) = Err EType).
Proof. exact C71_worktime_pf. Qed.
Print Assumptions C71_worktime.
Example C71_worktime_ex :
  red (iv_worktime span_tb (span 3 43) DOn (Some (tb_default span_tb))) = Ok 226%Q
  /\ red (iv_worktime span_tb (span 3 10) DOn (Some (tb_default span_tb))) = Ok 47%Q
  /\ red (iv_worktime span_tb (span 11 43) DOn (Some (tb_default span_tb))) = Ok 179%Q.
Proof. vm_compute. repeat split. Qed.
