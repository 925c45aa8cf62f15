(** Theorems C47-C49: calling a timeboard, and the type checks of get_interval and of the
    constructors of intervals and workshifts. *)
From Verif Require Import Base Civil Freq Frame Timeline Board Api Spec SpecLookup SpecRoll SpecQuery SpecInterval SpecApi Samples ApiProofs.
From Coq Require Import QArith.
Open Scope Z_scope.

(** Some outcome for NaT. *)
Definition some_nat : nat_behaviour := mkNat (Err EValue) (Err EValue).
Definition found_at {L : Type} (r : res (found L)) : res (Z * Z) :=
  rmap (fun x => match x with FoundWs w => (ws_loc w, ws_loc w) | FoundIvl iv => (iv_a iv, iv_b iv) end) r.

(** C47. *)
Theorem C47_point : forall (L : Type) (nat : nat_behaviour) (tb : timeboard L), reachable tb -> forall v t,
  names_time v t ->
  (tb_start_time tb <= t <= tb_end_time tb ->
     exists w, call nat tb (COne (PVal v)) = Ok (FoundWs w)
       /\ holds_time tb (ws_loc w) t /\ tl_get (tb_tl tb) (ws_loc w) = Ok (ws_label w)
       /\ ws_sched w = tb_default tb)
  /\ (t_outside tb t -> call nat tb (COne (PVal v)) = Err EOutOfBounds).
Proof. exact C47_point_pf. Qed.
Print Assumptions C47_point.

Example C47_point_ex :
  names_time (@VPer Z (mkPeriod (mkFreq BM 1%positive) 564)) (day 2017 1 1)
  /\ week_tb <> shift_tb
  /\ names_time (VWs shift_tb (mkWs 1 0 (tb_default shift_tb))) (at_hour 2017 1 1 18 - 1)
  /\ found_at (call some_nat week_tb (COne (PVal (VPer (mkPeriod (mkFreq BM 1%positive) 564))))) = Ok (2, 2)
  /\ found_at (call some_nat week_tb (COne (PVal (VWs shift_tb (mkWs 1 0 (tb_default shift_tb)))))) = Ok (2, 2)
  /\ t_outside week_tb 0 /\ call some_nat week_tb (COne (PVal (VInt 0))) = Err EOutOfBounds.
Proof.
  split; [exact (nt_period _)|]. split; [intros H; apply (f_equal tb_len) in H; vm_compute in H; discriminate|].
  split; [constructor; vm_compute; reflexivity|]. split; [vm_compute; reflexivity|]. split; [vm_compute; reflexivity|].
  split; [left; vm_compute; reflexivity|vm_compute; reflexivity].
Qed.

Theorem C47_workshift : forall (L : Type) (nat : nat_behaviour) (tb : timeboard L), reachable tb -> forall v t s,
  names_time v t ->
  (tb_start_time tb <= t <= tb_end_time tb ->
     (forall sch, sched_given tb s sch -> exists w, get_workshift_any nat tb (PVal v) s = Ok w
        /\ holds_time tb (ws_loc w) t /\ tl_get (tb_tl tb) (ws_loc w) = Ok (ws_label w) /\ ws_sched w = sch)
     /\ (s = SOther -> get_workshift_any nat tb (PVal v) s = Err EType))
  /\ (t_outside tb t -> get_workshift_any nat tb (PVal v) s = Err EOutOfBounds).
Proof. exact C47_workshift_pf. Qed.
Print Assumptions C47_workshift.

Example C47_workshift_ex :
  sched_given week_tb (SSched week_full) week_full
  /\ rmap (fun w => (ws_loc w, sc_name (ws_sched w))) (get_workshift_any some_nat week_tb (PVal (VTime (at_hour 2017 1 2 23))) (SSched week_full)) = Ok (3, 2)
  /\ get_workshift_any some_nat week_tb (PVal (VTime (at_hour 2017 1 2 23))) SOther = Err EType
  /\ get_workshift_any some_nat week_tb (PVal (VTime (day 2018 1 1))) SOther = Err EOutOfBounds.
Proof. split; [left; reflexivity|]. vm_compute. repeat split. Qed.

Theorem C47_pair : forall (L : Type) (nat : nat_behaviour) (tb : timeboard L), reachable tb -> forall r t1 t2,
  names_pair r t1 t2 ->
  let found := call nat tb (COne r) in
  (forall i j, bound_pos tb 0 t1 i -> bound_pos tb (tb_len tb - 1) t2 j ->
     (i <= j -> found = Ok (FoundIvl (mkIvl i j false (tb_default tb)))) /\ (j < i -> found = Err EVoidInterval))
  /\ (forall x y, bound_side tb t1 x -> bound_side tb t2 y -> ~ (x = Inside /\ y = Inside) ->
        found = Err (match x, y with
                     | Before, Before | After, After => EOutOfBounds
                     | Inside, Before | After, Inside | After, Before => EVoidInterval
                     | _, _ => EPartialOutOfBounds
                     end)).
Proof. exact C47_pair_pf. Qed.
Print Assumptions C47_pair.

Example C47_pair_ex :
  names_pair (@PTuple Z [VTime (at_hour 2017 1 2 23); VNull; VObj]) (Some (at_hour 2017 1 2 23)) None
  /\ bound_pos week_tb 0 (Some (at_hour 2017 1 2 23)) 3
  /\ found_at (call some_nat week_tb (COne (PTuple [VTime (at_hour 2017 1 2 23); VNull; VObj]))) = Ok (3, 16)
  /\ bound_side week_tb (Some (day 2018 1 1)) After
  /\ call some_nat week_tb (COne (PTuple [VTime (day 2018 1 1); VNull])) = Err EVoidInterval.
Proof.
  split; [constructor; [constructor|reflexivity]|].
  split; [split; [vm_compute; split; congruence|]; exists (day 2017 1 2), (day 2017 1 3 - 1); vm_compute; repeat split; discriminate|].
  vm_compute. repeat split.
Qed.

Theorem C47_whole : forall (L : Type) (nat : nat_behaviour) (tb : timeboard L), reachable tb ->
  (forall r clip s sch, r = PVal VNull \/ r = PList [VNull] -> sched_given tb s sch ->
     call nat tb (CMany (mkIa r None FNone clip C11 s)) = Ok (FoundIvl (mkIvl 0 (tb_len tb - 1) false sch)))
  /\ call nat tb (COne (PList [VNull])) = Ok (FoundIvl (mkIvl 0 (tb_len tb - 1) false (tb_default tb))).
Proof. exact C47_whole_pf. Qed.
Print Assumptions C47_whole.

Theorem C47_length : forall (L : Type) (nat : nat_behaviour) (tb : timeboard L), reachable tb -> forall v t n clip s sch,
  names_time v t -> sched_given tb s sch ->
  let found := call nat tb (CMany (mkIa (PVal v) (Some (VInt n)) FNone clip C11 s)) in
  (n = 0 -> found = Err EVoidInterval)
  /\ (n <> 0 -> t_outside tb t -> found = Err EOutOfBounds)
  /\ (forall i, holds_time tb i t ->
       (0 < n -> i + n <= tb_len tb -> found = Ok (FoundIvl (mkIvl i (i + n - 1) false sch)))
       /\ (n < 0 -> 0 <= i + n + 1 -> found = Ok (FoundIvl (mkIvl (i + n + 1) i false sch)))
       /\ (0 < n -> tb_len tb < i + n -> found = Err EPartialOutOfBounds)
       /\ (n < 0 -> i + n + 1 < 0 -> found = Err EPartialOutOfBounds)).
Proof. exact C47_length_pf. Qed.
Print Assumptions C47_length.

Theorem C47_period : forall (L : Type) (nat : nat_behaviour) (tb : timeboard L), reachable tb -> forall v t f p s sch,
  names_time v t -> not_period v -> p_freq p = to_freq f -> in_cal_unit (fbase (to_freq f)) (p_ord p) t ->
  sched_given tb s sch ->
  let found := call nat tb (CMany (mkIa (PVal v) None (FStr f) true C11 s)) in
  ((exists i, in_period tb p i) ->
     exists iv, found = Ok (FoundIvl iv) /\ iv_void iv = false /\ iv_sched iv = sch
       /\ forall i, iv_mem iv i <-> in_period tb p i)
  /\ ((forall i, ~ in_period tb p i) ->
      (inside tb p -> found = Err EVoidInterval) /\ (~ inside tb p -> found = Err EOutOfBounds)).
Proof. exact C47_period_pf. Qed.
Print Assumptions C47_period.

Example C47_many_ex :
  sched_given week_tb SNone (tb_default week_tb) /\ sched_given week_tb (SSched week_full) week_full
  /\ found_at (call some_nat week_tb (CMany (mkIa (PVal VNull) None FNone true C11 (SSched week_full)))) = Ok (0, 16)
  /\ holds_time week_tb 3 (day 2017 1 2)
  /\ found_at (call some_nat week_tb (CMany (mkIa (PVal (VTime (day 2017 1 2))) (Some (VInt (-2))) FNone true C11 SNone))) = Ok (2, 3)
  /\ in_cal_unit (BW 6) (p_ord (mkPeriod (to_freq (fq (AlW None))) (pord (BW 6) (day 2017 1 4)))) (day 2017 1 4)
  /\ found_at (call some_nat week_tb (CMany (mkIa (PVal (VTime (day 2017 1 4))) None (FStr (fq (AlW None))) true C11 SNone))) = Ok (3, 9)
  /\ in_period week_tb (mkPeriod (to_freq (fq (AlW None))) (pord (BW 6) (day 2017 1 4))) 9.
Proof.
  split; [right; split; reflexivity|]. split; [left; reflexivity|]. split; [vm_compute; reflexivity|].
  split; [split; [vm_compute; split; congruence|]; exists (day 2017 1 2), (day 2017 1 3 - 1); vm_compute; repeat split; discriminate|].
  split; [vm_compute; reflexivity|]. split; [vm_compute; split; congruence|]. split; [vm_compute; reflexivity|].
  split; [vm_compute; split; congruence|]. exists (day 2017 1 8). vm_compute. repeat split; congruence.
Qed.

(** A single argument that is neither a point in time nor a pair of bounds: TypeError, also for a
    string that is no date; ValueError for a list of several items and for a pair with a string that
    is no date. *)
Theorem C47_other : forall (L : Type) (nat : nat_behaviour) (tb : timeboard L), reachable tb -> forall r e,
  (bad_point r e -> forall s, get_workshift_any nat tb r s = Err e)
  /\ (refused (only_ref r) e -> ref_ok r -> (forall v t, r = PVal v -> ~ names_time v t) -> call nat tb (COne r) = Err e).
Proof. exact C47_other_pf. Qed.
Print Assumptions C47_other.

Example C47_other_ex :
  refused (only_ref (@PVal Z VText)) EType /\ get_workshift_any some_nat week_tb (PVal VText) SNone = Err EValue
  /\ call some_nat week_tb (COne (PVal VText)) = Err EType
  /\ refused (only_ref (PTuple [VInt 2; @VText Z])) EValue /\ call some_nat week_tb (COne (PTuple [VInt 2; VText])) = Err EValue
  /\ refused (only_ref (PList [VInt 2; @VInt Z 5])) EValue /\ call some_nat week_tb (COne (PList [VInt 2; VInt 5])) = Err EValue
  /\ call some_nat week_tb (COne (PTuple [VInt 2])) = Err EType /\ call some_nat week_tb (COne (PList [])) = Err EType.
Proof.
  assert (C : closed_ok C11) by (unfold closed_ok; tauto).
  split; [apply rf_point; [exact C|discriminate|intros p; discriminate]|]. do 2 (split; [reflexivity|]).
  split; [apply (rf_second _ (Some 2)); [exact C|constructor|constructor]|]. split; [reflexivity|].
  split; [apply rf_list; exact C|]. repeat split.
Qed.

(** C48. *)
Theorem C48_refused : forall (L : Type) (nat : nat_behaviour) (tb : timeboard L), reachable tb -> forall a e,
  refused a e -> get_interval_any nat tb a = Err e.
Proof. exact C48_refused_pf. Qed.
Print Assumptions C48_refused.

Theorem C48_errors : forall (L : Type) (nat : nat_behaviour) (tb : timeboard L), reachable tb -> forall a e,
  ref_ok (ia_ref a) -> no_null_point a -> ia_sched a <> SOther ->
  get_interval_any nat tb a = Err e ->
  e = EOutOfBounds \/ e = EPartialOutOfBounds \/ e = EVoidInterval \/ refused a e.
Proof. exact C48_errors_pf. Qed.
Print Assumptions C48_errors.

(** NaT as a point in time: the result depends on what numpy and pandas make of it. *)
Theorem C48_nat : forall (L : Type) (nat : nat_behaviour) (tb : timeboard L), reachable tb ->
  (forall e s, nat_loc nat = Err e -> get_workshift_any nat tb (PVal VNull) s = Err e)
  /\ (forall e n clip cl s, nat_loc nat = Err e -> n <> 0 -> closed_ok cl ->
        get_interval_any nat tb (mkIa (PVal VNull) (Some (VInt n)) FNone clip cl s) = Err e)
  /\ (forall e f clip cl s, nat_period nat = Err e -> closed_ok cl ->
        get_interval_any nat tb (mkIa (PVal VNull) None (FStr f) clip cl s) = Err e)
  /\ (forall e, nat_loc nat = Err e -> e <> EOutOfBounds ->
        call nat tb (COne (PVal VNull)) = Ok (FoundIvl (mkIvl 0 (tb_len tb - 1) false (tb_default tb))))
  /\ (forall l, nat_loc nat = Err EOutOfBounds \/ (nat_loc nat = Ok l /\ l_pos l = None) -> call nat tb (COne (PVal VNull)) = Err EOutOfBounds).
Proof. exact C48_nat_pf. Qed.
Print Assumptions C48_nat.

Example C48_nat_ex : get_workshift_any some_nat week_tb (PVal VNull) SNone = Err EValue
  /\ found_at (call some_nat week_tb (COne (PVal VNull))) = Ok (0, 16)
  /\ call (mkNat (Ok (mkLoc None OOB_LEFT)) (Err EValue)) week_tb (COne (PVal VNull)) = Err EOutOfBounds
  /\ get_interval_any some_nat week_tb (mkIa (PVal VNull) (Some (VInt 3)) FNone true C11 SNone) = Err EValue.
Proof. vm_compute. repeat split. Qed.

Theorem C48_schedule : forall (L : Type) (nat : nat_behaviour) (tb : timeboard L) r n f clip c,
  get_interval_any nat tb (mkIa r n f clip c SOther)
  = match get_interval_any nat tb (mkIa r n f clip c SNone) with Ok _ => Err EType | Err e => Err e end.
Proof. exact C48_schedule_pf. Qed.
Print Assumptions C48_schedule.

Example C48_ex :
  refused (mkIa (@PVal Z (VTime (day 2017 1 4))) None FNone true C11 SNone) EType
  /\ refused (mkIa (@PTuple Z [VNull; VText]) None FNone true C11 SNone) EValue
  /\ refused (mkIa (@PList Z [VTime 0; VTime 1]) None FNone true C11 SNone) EValue
  /\ refused (mkIa (@PVal Z (VTime 0)) (Some VObj) FNone true C11 SNone) EType
  /\ get_interval_any some_nat week_tb (mkIa (PVal (VTime (day 2018 1 1))) (Some (VInt 2)) FNone true C11 SNone) = Err EOutOfBounds
  /\ get_interval_any some_nat week_tb (mkIa (PVal (VTime (day 2018 1 1))) (Some (VInt 2)) FNone true C11 SOther) = Err EOutOfBounds
  /\ get_interval_any some_nat week_tb (mkIa (PVal (VTime (day 2017 1 4))) (Some (VInt 2)) FNone true C11 SOther) = Err EType.
Proof.
  assert (C : closed_ok C11) by (do 3 right; reflexivity).
  split; [apply rf_point; [exact C|discriminate|intros p H; discriminate]|].
  split; [apply (rf_second _ None); [exact C|reflexivity|constructor]|].
  split; [apply rf_list, C|]. split; [apply rf_length; [exact C|intros n H; discriminate]|].
  vm_compute. repeat split.
Qed.

(** C48, the rest of the claim is false: with a pandas.Period, `period` is ignored, even a
    frequency that does not exist; the documented result is the month that contains it. *)
Theorem C48_period_refuted :
  exists (tb : timeboard Z) (p m : period) f a b a' b', reachable tb
    /\ p_start m <= p_start p <= p_end m /\ p_freq m = to_freq f
    /\ (forall nat, found_at (call nat tb (CMany (mkIa (PVal (VPer p)) None (FStr f) true C11 SNone))) = Ok (a, b))
    /\ (forall nat, found_at (call nat tb (CMany (mkIa (PVal (VPer p)) None FBad true C11 SNone))) = Ok (a, b))
    /\ in_period tb m a' /\ in_period tb m b' /\ a' < a /\ b < b'.
Proof.
  exists week_tb, (mkPeriod (mkFreq BD 1%positive) (date 2017 1 5)), (mkPeriod (mkFreq BM 1%positive) 564), (fq AlM), 6, 6, 2, 16.
  split; [exact week_reachable|]. split; [vm_compute; split; congruence|]. split; [reflexivity|].
  split; [intros; vm_compute; reflexivity|]. split; [intros; vm_compute; reflexivity|].
  split; [split; [vm_compute; split; congruence|]; exists (day 2017 1 1); vm_compute; repeat split; congruence|].
  split; [split; [vm_compute; split; congruence|]; exists (day 2017 1 15); vm_compute; repeat split; congruence|].
  split; reflexivity.
Qed.
Print Assumptions C48_period_refuted.

(** C49. *)
Theorem C49_interval : forall (L : Type) (tb : timeboard L) r x y i j s sch,
  sequence_of r x y -> names_loc x i -> names_loc y j -> sched_given tb s sch ->
  let ivl := interval_any false (Some tb) r s in
  let void := interval_any true (Some tb) r s in
  (is_shift tb i -> is_shift tb j -> i <= j -> ivl = Ok (mkIvl i j false sch) /\ void = Err EVoidInterval)
  /\ (is_shift tb i -> is_shift tb j -> j < i -> ivl = Err EVoidInterval /\ void = Ok (mkIvl i j true sch))
  /\ (~ (is_shift tb i /\ is_shift tb j) -> ivl = Err EOutOfBounds /\ void = Err EOutOfBounds).
Proof. exact C49_interval_pf. Qed.
Print Assumptions C49_interval.

Theorem C49_bad_bounds : forall (L : Type) (void : bool) (tb : timeboard L) r s,
  ((exists v, r = PVal v) -> interval_any void (Some tb) r s = Err EType)
  /\ ((exists l, (r = PTuple l \/ r = PList l) /\ zlen l < 2) -> interval_any void (Some tb) r s = Err EIndex)
  /\ (forall x y, sequence_of r x y -> no_loc x -> interval_any void (Some tb) r s = Err EType)
  /\ (forall x y i, sequence_of r x y -> names_loc x i -> is_shift tb i -> no_loc y -> interval_any void (Some tb) r s = Err EType)
  /\ (forall x y i j, sequence_of r x y -> names_loc x i -> names_loc y j -> is_shift tb i -> is_shift tb j ->
        (if void then j < i else i <= j) -> s = SOther -> interval_any void (Some tb) r s = Err EType).
Proof. exact C49_bad_bounds_pf. Qed.
Print Assumptions C49_bad_bounds.

Theorem C49_no_board : forall (L : Type) (void : bool) (r : pyref L) x y i s,
  sequence_of r x y -> names_loc x i -> interval_any void None r s = Err EAttribute.
Proof. exact C49_no_board_pf. Qed.
Print Assumptions C49_no_board.

Theorem C49_workshift : forall (L : Type) (tb : timeboard L), reachable tb -> forall v s,
  (forall i sch, v = VInt i -> sched_given tb s sch -> is_shift tb i ->
     exists x, tl_get (tb_tl tb) i = Ok x /\ workshift_any tb v s = Ok (mkWs i x sch))
  /\ (forall i sch, v = VInt i -> sched_given tb s sch -> - tb_len tb <= i < 0 ->
        exists x, tl_get (tb_tl tb) (i + tb_len tb) = Ok x /\ workshift_any tb v s = Ok (mkWs i x sch))
  /\ (forall i, v = VInt i -> s <> SOther -> i < - tb_len tb \/ tb_len tb <= i -> workshift_any tb v s = Err EOutOfBounds)
  /\ (s = SOther \/ not_int v -> workshift_any tb v s = Err EType).
Proof. exact C49_workshift_pf. Qed.
Print Assumptions C49_workshift.

Example C49_ex :
  sequence_of (@PTuple Z [VInt 2; VInt 5]) (VInt 2) (VInt 5) /\ names_loc (@VInt Z 2) 2 /\ is_shift week_tb 5
  /\ rmap (fun iv => (iv_a iv, iv_b iv)) (interval_any false (Some week_tb) (PTuple [VInt 2; VInt 5]) SNone) = Ok (2, 5)
  /\ interval_any true (Some week_tb) (PTuple [VInt 2; VInt 5]) SNone = Err EVoidInterval
  /\ interval_any false (Some week_tb) (PTuple [VInt 2; VInt (-1)]) SNone = Err EOutOfBounds
  /\ no_loc (@VTime Z 0) /\ interval_any false (Some week_tb) (PList [VTime 0; VInt 2]) SNone = Err EType
  /\ not_int (@VTime Z 0) /\ workshift_any week_tb (VTime 0) SNone = Err EType
  /\ rmap (fun w => ws_label w) (workshift_any week_tb (VInt 4) SNone) = Ok 8
  /\ rmap (fun w => (ws_loc w, ws_label w)) (workshift_any week_tb (VInt (-13)) SNone) = Ok (-13, 8).
Proof.
  split; [exists []; left; reflexivity|]. split; [constructor|]. do 4 (split; [vm_compute; try reflexivity; try (split; congruence)|]).
  split; [intros n H; inversion H|]. split; [vm_compute; reflexivity|]. split; [intros n H; discriminate|].
  vm_compute. repeat split.
Qed.
