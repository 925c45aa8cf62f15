(** Theorems C20-C24: what get_interval returns. *)
From Verif Require Import Base Civil Freq Frame Timeline Board Spec SpecLookup SpecRoll SpecQuery SpecInterval Samples LookupProofs IntervalProofs.
From Coq Require Import QArith.
Open Scope Z_scope.

Definition ends {L : Type} (r : res (interval L)) : res (Z * Z) := rmap (fun iv => (iv_a iv, iv_b iv)) r.

(** C20. *)
Theorem C20_pair : forall (L : Type) (tb : timeboard L), reachable tb -> forall t1 t2 clip s,
  let get := get_interval tb (RPair t1 t2) None None clip C11 s in
  let sch := sched_arg s (tb_default tb) in
  (forall i j, bound_pos tb 0 t1 i -> bound_pos tb (tb_len tb - 1) t2 j ->
     (i <= j -> get = Ok (mkIvl i j false sch)) /\ (j < i -> get = Err EVoidInterval))
  /\ (forall x y, bound_side tb t1 x -> bound_side tb t2 y -> ~ (x = Inside /\ y = Inside) ->
        get = Err (match x, y with
                   | Before, Before | After, After => EOutOfBounds
                   | Inside, Before | After, Inside | After, Before => EVoidInterval
                   | _, _ => EPartialOutOfBounds
                   end)).
Proof. exact C20_pair_pf. Qed.
Print Assumptions C20_pair.

Theorem C20_whole : forall (L : Type) (tb : timeboard L), reachable tb -> forall clip s,
  get_interval tb RNone None None clip C11 s = Ok (mkIvl 0 (tb_len tb - 1) false (sched_arg s (tb_default tb))).
Proof. exact C20_whole_pf. Qed.
Print Assumptions C20_whole.

Example C20_ex :
  bound_pos week_tb 0 (Some (at_hour 2017 1 2 23)) 3 /\ bound_pos week_tb 16 None 16
  /\ ends (get_interval week_tb (RPair (Some (at_hour 2017 1 2 23)) None) None None true C11 None) = Ok (3, 16)
  /\ ends (get_interval week_tb (RPair (Some (day 2017 1 2)) (Some (day 2017 1 1))) None None true C11 None) = Err EVoidInterval
  /\ bound_side week_tb (Some (day 2016 1 1)) Before
  /\ get_interval week_tb (RPair (Some (day 2016 1 1)) None) None None true C11 None = Err EPartialOutOfBounds.
Proof.
  split; [split; [vm_compute; split; congruence|]; exists (day 2017 1 2), (day 2017 1 3 - 1); vm_compute; repeat split; discriminate|].
  split; [reflexivity|]. vm_compute. repeat split.
Qed.

(** C21. *)
Theorem C21_length : forall (L : Type) (tb : timeboard L), reachable tb -> forall r t n clip s, refers_to r t ->
  let get := get_interval tb r (Some n) None clip C11 s in
  let sch := sched_arg s (tb_default tb) in
  (n = 0 -> get = Err EVoidInterval)
  /\ (n <> 0 -> t_outside tb t -> get = Err EOutOfBounds)
  /\ (forall i, holds_time tb i t ->
       (0 < n -> i + n <= tb_len tb -> get = Ok (mkIvl i (i + n - 1) false sch))
       /\ (n < 0 -> 0 <= i + n + 1 -> get = Ok (mkIvl (i + n + 1) i false sch))
       /\ (0 < n -> tb_len tb < i + n -> get = Err EPartialOutOfBounds)
       /\ (n < 0 -> i + n + 1 < 0 -> get = Err EPartialOutOfBounds)).
Proof. exact C21_length_pf. Qed.
Print Assumptions C21_length.

Example C21_ex :
  holds_time shift_tb 1 (at_hour 2017 1 1 9)
  /\ ends (get_interval shift_tb (RPoint (at_hour 2017 1 1 9)) (Some 4) None true C11 None) = Ok (1, 4)
  /\ ends (get_interval shift_tb (RPoint (at_hour 2017 1 1 9)) (Some (-2)) None true C11 None) = Ok (0, 1)
  /\ get_interval shift_tb (RPoint (at_hour 2017 1 1 9)) (Some (-3)) None true C11 None = Err EPartialOutOfBounds
  /\ t_outside shift_tb (day 2018 1 1)
  /\ refers_to (RPeriod (mkPeriod (to_freq (mkFstr None AlH)) (at_hour 2017 1 1 9 / NS_HOUR))) (at_hour 2017 1 1 9)
  /\ ends (get_interval shift_tb (RPeriod (mkPeriod (to_freq (mkFstr None AlH)) (at_hour 2017 1 1 9 / NS_HOUR))) (Some 4) None true C11 None) = Ok (1, 4).
Proof.
  split; [split; [vm_compute; split; congruence|]; exists (at_hour 2017 1 1 8), (at_hour 2017 1 1 18 - 1); vm_compute; repeat split; discriminate|].
  split; [vm_compute; reflexivity|]. split; [vm_compute; reflexivity|]. split; [vm_compute; reflexivity|].
  split; [right; vm_compute; reflexivity|]. split; [|vm_compute; reflexivity].
  right. eexists. split; [reflexivity|]. vm_compute. reflexivity.
Qed.

(** C22. *)
Theorem C22_period : forall (L : Type) (tb : timeboard L), reachable tb -> forall r per p s,
  means_period r per p ->
  let get := get_interval tb r None per true C11 s in
  ((exists i, in_period tb p i) ->
     exists iv, get = Ok iv /\ iv_void iv = false /\ iv_sched iv = sched_arg s (tb_default tb)
       /\ forall i, iv_mem iv i <-> in_period tb p i)
  /\ ((forall i, ~ in_period tb p i) ->
      (inside tb p -> get = Err EVoidInterval) /\ (~ inside tb p -> get = Err EOutOfBounds)).
Proof. exact C22_period_pf. Qed.
Print Assumptions C22_period.

(** Jan 2017 clipped at 15 Jan; the first day of the compound board, by end times; an hour
    in the middle of a workshift holds no reference time. *)
Example C22_ex :
  means_period (RPoint (at_hour 2017 1 9 5)) (Some (fq AlM)) (mkPeriod (to_freq (fq AlM)) 564)
  /\ in_period week_tb (mkPeriod (to_freq (fq AlM)) 564) 2
  /\ ends (get_interval week_tb (RPoint (at_hour 2017 1 9 5)) None (Some (fq AlM)) true C11 None) = Ok (2, 16)
  /\ ends (get_interval shift_tb (RPoint (day 2017 1 1)) None (Some (fq AlD)) true C11 None) = Ok (0, 2)
  /\ inside shift_tb (mkPeriod (to_freq (fq AlH)) (pord BH (at_hour 2017 1 1 3)))
  /\ get_interval shift_tb (RPoint (at_hour 2017 1 1 3)) None (Some (fq AlH)) true C11 None = Err EVoidInterval
  /\ get_interval shift_tb (RPoint (day 2018 1 1)) None (Some (fq AlH)) true C11 None = Err EOutOfBounds.
Proof.
  split; [constructor; [reflexivity|]; vm_compute; split; congruence|].
  split; [split; [vm_compute; split; congruence|]; exists (day 2017 1 1); vm_compute; repeat split; discriminate|].
  vm_compute. repeat split; discriminate.
Qed.

(** C23. *)
Theorem C23_unclipped : forall (L : Type) (tb : timeboard L), reachable tb -> forall r per p s,
  means_period r per p ->
  let getc := get_interval tb r None per true C11 s in
  let getn := get_interval tb r None per false C11 s in
  (inside tb p -> getn = getc)
  /\ (~ inside tb p ->
       ((exists i, in_period tb p i) -> getn = Err EPartialOutOfBounds)
       /\ ((forall i, ~ in_period tb p i) -> getn = Err EOutOfBounds)).
Proof. exact C23_unclipped_pf. Qed.
Print Assumptions C23_unclipped.

Example C23_ex :
  let jan := mkPeriod (to_freq (fq AlM)) 564 in let wk2 := mkPeriod (to_freq (fq (AlW None))) 2452 in
  let feb := mkPeriod (to_freq (fq AlM)) 565 in
  (~ inside week_tb jan /\ get_interval week_tb (RPeriod jan) None None false C11 None = Err EPartialOutOfBounds)
  /\ (~ inside week_tb feb /\ get_interval week_tb (RPeriod feb) None None false C11 None = Err EOutOfBounds)
  /\ inside week_tb wk2
  /\ ends (get_interval week_tb (RPeriod wk2) None None false C11 None) = Ok (3, 9).
Proof. vm_compute. repeat split; try discriminate; intros [A B]; [apply B|apply B]; reflexivity. Qed.

(** C24.  The full statement also asks for VoidIntervalError whenever nothing is left; for
    a clipped period it is OutOfBoundsError instead (last clause, and [C24_refuted]). *)
Theorem C24_closed : forall (L : Type) (tb : timeboard L), reachable tb -> forall r len per clip s c,
  let get c := get_interval tb r len per clip c s in
  (c = CBad -> get c = Err EValue)
  /\ (closed_ok c ->
      (forall e, get C11 = Err e -> get c = Err e)
      /\ forall iv a' b', get C11 = Ok iv ->
           strip_left tb r len per clip c (iv_a iv) a' -> strip_right tb r len per clip c (iv_b iv) b' ->
           (a' <= b' -> get c = Ok (mkIvl a' b' false (iv_sched iv)))
           /\ (b' < a' -> ~ clipped_left tb r len per clip -> ~ clipped_right tb r len per clip -> get c = Err EVoidInterval)
           /\ (b' < a' -> clipped_left tb r len per clip \/ clipped_right tb r len per clip -> get c = Err EOutOfBounds)).
Proof. exact C24_closed_pf. Qed.
Print Assumptions C24_closed.

Example C24_ex :
  let get c := ends (get_interval week_tb (RPoint (day 2017 1 9)) None (Some (fq AlM)) true c None) in
  get C11 = Ok (2, 16) /\ get C01 = Ok (3, 16) /\ get C10 = Ok (2, 16) /\ get C00 = Ok (3, 16)
  /\ clipped_right week_tb (RPoint (day 2017 1 9)) None (Some (fq AlM)) true
  /\ strip_right week_tb (RPoint (day 2017 1 9)) None (Some (fq AlM)) true C00 16 16
  /\ get_interval week_tb (RPoint (day 2017 1 9)) (Some 1) None true C10 None = Err EVoidInterval.
Proof.
  assert (K : clipped_right week_tb (RPoint (day 2017 1 9)) None (Some (fq AlM)) true).
  { split; [reflexivity|]. split; [reflexivity|]. exists (mkPeriod (to_freq (fq AlM)) 564). split; [|vm_compute; reflexivity].
    constructor; [reflexivity|]. vm_compute. split; congruence. }
  do 4 (split; [vm_compute; reflexivity|]). split; [exact K|]. split; [|vm_compute; reflexivity].
  right. split; [|reflexivity]. intros [_ H]. exact (H K).
Qed.

(** The week Sat 24 .. Fri 30 Dec 2016 has only its last day on the board; leaving out that
    day leaves nothing, and the error is OutOfBoundsError, not VoidIntervalError. *)
Theorem C24_refuted : exists (tb : timeboard Z) r per a b a' b',
  reachable tb
  /\ ends (get_interval tb r None per true C11 None) = Ok (a, b)
  /\ strip_left tb r None per true C10 a a' /\ strip_right tb r None per true C10 b b' /\ b' < a'
  /\ get_interval tb r None per true C10 None = Err EOutOfBounds.
Proof.
  exists week_tb, (RPoint (day 2016 12 30)), (Some (fq (AlW (Some 4)))), 0, 0, 0, (-1).
  split; [exact week_reachable|]. split; [vm_compute; reflexivity|].
  split; [right; split; [intros [[H|H] _]; discriminate|reflexivity]|].
  split; [|split; vm_compute; reflexivity].
  left. split; [right; reflexivity|]. split; [|reflexivity]. intros (_ & _ & p & Hp & H). inversion Hp; subst.
  destruct p as [pf po]. cbn [p_freq p_ord] in *. subst pf.
  match goal with H : in_cal_unit _ _ _ |- _ => apply in_cal_unit_pord in H; cbn in H; subst po end.
  vm_compute in H. discriminate.
Qed.
Print Assumptions C24_refuted.
