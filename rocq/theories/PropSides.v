(** Intervals found again, and intervals side by side: C78. *)
From Verif Require Import Base Civil Freq Frame Timeline Board Spec SpecRoll SpecLookup SpecInterval SpecSides Samples SidesProofs.
From Coq Require Import QArith Lia.
Open Scope Z_scope.

(** C78.  An interval is found again from its own start, end and length. *)
Theorem C78_again : forall L (tb : timeboard L) iv, reachable tb -> iv_of tb iv -> iv_void iv = false ->
  exists t0 t1, iv_start_time tb iv = Ok t0 /\ iv_end_time tb iv = Ok t1 /\ forall clip,
    get_interval tb (RPair (Some t0) (Some t1)) None None clip C11 (Some (iv_sched iv)) = Ok iv
    /\ get_interval tb (RPoint t0) (Some (iv_length iv)) None clip C11 (Some (iv_sched iv)) = Ok iv
    /\ get_interval tb (RPoint t1) (Some (- iv_length iv)) None clip C11 (Some (iv_sched iv)) = Ok iv.
Proof. exact C78_again_pf. Qed.
Print Assumptions C78_again.
(** What `closed` leaves of an interval between two points. *)
Theorem C78_open : forall L (tb : timeboard L) t0 t1 i j clip c s, reachable tb -> closed_ok c ->
  bound_pos tb 0 t0 i -> bound_pos tb (tb_len tb - 1) t1 j ->
  get_interval tb (RPair t0 t1) None None clip c s =
    if i + skip_left c <=? j - skip_right c then Ok (mkIvl (i + skip_left c) (j - skip_right c) false (sched_arg s (tb_default tb))) else Err EVoidInterval.
Proof. exact C78_open_pf. Qed.
Print Assumptions C78_open.
(** Intervals between points closed on one side fit together without gaps and overlaps. *)
Theorem C78_halves : forall L (tb : timeboard L) t0 t1 t2 clip s, reachable tb ->
  tb_start_time tb <= t0 -> t0 <= t1 -> t1 <= t2 -> t2 <= tb_end_time tb -> forall i,
  let get c a b := get_interval tb (RPair (Some a) (Some b)) None None clip c s in
  shared_out (got (get C10 t0 t2) i) (got (get C10 t0 t1) i) (got (get C10 t1 t2) i)
  /\ shared_out (got (get C01 t0 t2) i) (got (get C01 t0 t1) i) (got (get C01 t1 t2) i)
  /\ shared_out (got (get C11 t0 t2) i) (got (get C10 t0 t1) i) (got (get C11 t1 t2) i)
  /\ shared_out (got (get C11 t0 t2) i) (got (get C11 t0 t1) i) (got (get C01 t1 t2) i).
Proof. exact C78_halves_pf. Qed.
Print Assumptions C78_halves.
(** A workshift is in the interval of exactly one calendar period, or of [k] periods of [k] units each. *)
Theorem C78_periods : forall L (tb : timeboard L) i r f o s, reachable tb -> is_shift tb i -> ref_at tb i r -> in_cal_unit (fbase f) o r ->
  forall o', got (get_interval tb (RPeriod (mkPeriod f o')) None None true C11 s) i <-> o' <= o < o' + Zpos (fmult f).
Proof. exact C78_periods_pf. Qed.
Print Assumptions C78_periods.

(** Two workshifts of several hours, 8:00-23:59 on 1 Jan. *)
Example C78_again_ex :
  let iv := mkIvl 1 2 false (tb_default shift_tb) in
  reachable shift_tb /\ iv_of shift_tb iv /\ iv_void iv = false
  /\ iv_start_time shift_tb iv = Ok (at_hour 2017 1 1 8) /\ iv_end_time shift_tb iv = Ok (day 2017 1 2 - 1) /\ iv_length iv = 2.
Proof.
  split; [exact shift_reachable|]. split; [split; [exact shift_default_for|]; vm_compute; repeat split; congruence|].
  vm_compute. repeat split; reflexivity.
Qed.
(** Half-open intervals that end within a workshift: it goes to the latter. *)
Example C78_halves_ex :
  let get c a b := rmap (fun iv => (iv_a iv, iv_b iv)) (get_interval shift_tb (RPair (Some a) (Some b)) None None true c None) in
  let t0 := day 2017 1 1 in let t1 := at_hour 2017 1 1 12 in let t2 := at_hour 2017 1 2 3 in
  (tb_start_time shift_tb <= t0 /\ t0 <= t1 /\ t1 <= t2 /\ t2 <= tb_end_time shift_tb)
  /\ get C10 t0 t1 = Ok (0, 0) /\ get C10 t1 t2 = Ok (1, 5) /\ get C10 t0 t2 = Ok (0, 5)
  /\ get C00 t0 t2 = Ok (1, 5) /\ get C10 t1 (t1 + 1) = Err EVoidInterval.
Proof. vm_compute. repeat split; (reflexivity || discriminate). Qed.
Example C78_open_ex : bound_pos week_tb 0 None 0 /\ bound_pos week_tb (tb_len week_tb - 1) (Some (at_hour 2017 1 2 23)) 3
  /\ rmap (fun iv => (iv_a iv, iv_b iv)) (get_interval week_tb (RPair None (Some (at_hour 2017 1 2 23))) None None true C00 None) = Ok (1, 2).
Proof. split; [reflexivity|]. split; [split; [vm_compute; split; congruence|]; exists (day 2017 1 2), (day 2017 1 3 - 1); vm_compute; repeat split; discriminate|vm_compute; reflexivity]. Qed.
(** The day of 5 Jan 2017 is in one week, and in two periods of two weeks. *)
Example C78_periods_ex :
  let get k o := rmap (fun iv => (iv_a iv, iv_b iv)) (get_interval week_tb (RPeriod (mkPeriod (mkFreq (fbase (to_freq (fq (AlW None)))) k) o)) None None true C11 None) in
  is_shift week_tb 6 /\ ref_at week_tb 6 (day 2017 1 5) /\ in_cal_unit (fbase (to_freq (fq (AlW None)))) 2452 (day 2017 1 5)
  /\ get 1%positive 2451 = Ok (0, 2) /\ get 1%positive 2452 = Ok (3, 9) /\ get 1%positive 2453 = Ok (10, 16)
  /\ get 2%positive 2451 = Ok (0, 9) /\ get 2%positive 2452 = Ok (3, 16) /\ get 2%positive 2453 = Ok (10, 16).
Proof. vm_compute. repeat split; (reflexivity || discriminate). Qed.
