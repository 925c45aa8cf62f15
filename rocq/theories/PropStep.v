(** Steps from a workshift and workshifts of an interval: C73. *)
From Verif Require Import Base Civil Freq Frame Timeline Board Spec SpecRoll SpecQuery Samples StepProofs.
From Coq Require Import Lia.
Open Scope Z_scope.

(** C73.  Workshift [n] of an interval is [n] steps from its first workshift, or back from its last one. *)
Theorem C73_nth : forall (L : Type) (tb : timeboard L) (iv : interval L) (w : workshift L) n d s,
  reachable tb -> iv_of tb iv -> iv_void iv = false -> ws_of tb w -> ws_loc w = iv_a iv -> ws_sched w = iv_sched iv ->
  ivl_duty d -> (forall s', s = Some s' -> sched_for tb s') -> 0 <= n ->
  iv_nth tb iv n d s = (do r <- rollforward tb w n d s; if ws_loc r <=? iv_b iv then Ok r else Err EOutOfBounds).
Proof. exact C73_nth_pf. Qed.
Print Assumptions C73_nth.
Theorem C73_nth_last : forall (L : Type) (tb : timeboard L) (iv : interval L) (w : workshift L) n d s,
  reachable tb -> iv_of tb iv -> iv_void iv = false -> ws_of tb w -> ws_loc w = iv_b iv -> ws_sched w = iv_sched iv ->
  ivl_duty d -> (forall s', s = Some s' -> sched_for tb s') -> 0 <= n ->
  iv_nth tb iv (- n - 1) d s = (do r <- rollback tb w n d s; if iv_a iv <=? ws_loc r then Ok r else Err EOutOfBounds).
Proof. exact C73_nth_last_pf. Qed.
Print Assumptions C73_nth_last.
(** After [n] steps there are [n + 1] workshifts with the duty from one end to the other, and back. *)
Theorem C73_count : forall (L : Type) (tb : timeboard L) (w r : workshift L) n d s,
  reachable tb -> ws_of tb w -> ivl_duty d -> (forall s', s = Some s' -> sched_for tb s') -> 0 <= n ->
  (rollforward tb w n d s = Ok r -> iv_of tb (mkIvl (ws_loc w) (ws_loc r) false (ws_sched w)) /\ iv_count (mkIvl (ws_loc w) (ws_loc r) false (ws_sched w)) d s = Ok (n + 1))
  /\ (rollback tb w n d s = Ok r -> iv_of tb (mkIvl (ws_loc r) (ws_loc w) false (ws_sched w)) /\ iv_count (mkIvl (ws_loc r) (ws_loc w) false (ws_sched w)) d s = Ok (n + 1)).
Proof. exact C73_count_pf. Qed.
Print Assumptions C73_count.
Theorem C73_reach : forall (L : Type) (tb : timeboard L) (w r : workshift L) k d s,
  reachable tb -> ws_of tb w -> ws_of tb r -> ws_loc w <= ws_loc r -> ws_sched r = ws_sched w ->
  ivl_duty d -> (forall s', s = Some s' -> sched_for tb s') ->
  iv_count (mkIvl (ws_loc w) (ws_loc r) false (ws_sched w)) d s = Ok k ->
  let s' := sched_arg s (ws_sched w) in
  (has_duty tb s' d (ws_loc r) = true -> rollforward tb w (k - 1) d s = Ok (mkWs (ws_loc r) (ws_label r) s'))
  /\ (has_duty tb s' d (ws_loc w) = true -> rollback tb r (k - 1) d s = Ok (mkWs (ws_loc w) (ws_label w) s')).
Proof. exact C73_reach_pf. Qed.
Print Assumptions C73_reach.

(** Sun 1 Jan .. Sun 8 Jan 2017: the first workshift on duty is Tue 3 Jan; the interval has four of them;
    the fifth is on Mon 9 Jan, outside. *)
Definition step_iv : interval Z := mkIvl 2 9 false (tb_default week_tb).
Definition step_ws (i x : Z) : workshift Z := mkWs i x (tb_default week_tb).
Lemma step_ws_of : ws_of week_tb (step_ws 2 0) /\ ws_of week_tb (step_ws 9 0).
Proof. split; (split; [vm_compute; split; congruence|]; split; [exact week_default_for|reflexivity]). Qed.
Lemma step_iv_of : iv_of week_tb step_iv.
Proof. split; [exact week_default_for|]. vm_compute. repeat split; congruence. Qed.
Example C73_nth_ex :
  map (fun n => rmap (@ws_loc Z) (iv_nth week_tb step_iv n DOn None)) [0; 3; 4; -1; -4; -5] = [Ok 4; Ok 7; Err EOutOfBounds; Ok 7; Ok 4; Err EOutOfBounds]
  /\ map (fun n => rmap (@ws_loc Z) (rollforward week_tb (step_ws 2 0) n DOn None)) [0; 3; 4] = [Ok 4; Ok 7; Ok 10]
  /\ map (fun n => rmap (@ws_loc Z) (rollback week_tb (step_ws 9 0) n DOn None)) [0; 3; 4] = [Ok 7; Ok 4; Ok 0].
Proof. vm_compute. repeat split. Qed.
Example C73_count_ex : rollforward week_tb (step_ws 2 0) 4 DOn None = Ok (step_ws 10 8)
  /\ iv_count (mkIvl 2 10 false (tb_default week_tb)) DOn None = Ok 5 /\ has_duty week_tb (tb_default week_tb) DOn 10 = true.
Proof. vm_compute. repeat split. Qed.
