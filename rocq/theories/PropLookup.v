(** Properties C01-C04, C35, C36: the timeboard covers its range, workshifts tile it and
    every lookup finds the right one. *)
From Verif Require Import Base Civil Freq Frame Timeline Board Spec SpecLookup Samples LookupProofs.

(** C01. The base units are consecutive calendar periods (of [m] calendar units each); the
    first one starts the calendar unit that contains `start`, the last one contains `end`. *)
Theorem C01_units : forall (L : Type) (a : tb_args L) (h : heap L) tb h',
  build a h = Ok (tb, h') ->
  let f := tl_frame (tb_tl tb) in
  let b := fbase (to_freq (a_freq a)) in
  let m := Zpos (fmult (to_freq (a_freq a))) in
  exists o n,
    fr_len f = n /\ 0 < n /\ in_cal_unit b o (a_start a)
    /\ (forall k, 0 <= k < n -> unit_start f k = pstart b (o + k * m)
                             /\ unit_end f k = pstart b (o + (k + 1) * m) - 1)
    /\ (forall k, unit_start f (k + 1) = unit_end f k + 1)
    /\ tb_start_time tb = unit_start f 0 /\ tb_end_time tb = unit_end f (n - 1)
    /\ tb_start_time tb <= a_start a
    /\ unit_start f (n - 1) <= a_end a <= tb_end_time tb.
Proof. exact C01_units_pf. Qed.
Print Assumptions C01_units.

Example C01_units_ex :
  build week_args [] = Ok (week_tb, [])
  /\ fr_len (tl_frame (tb_tl week_tb)) = 17 /\ tb_start_time week_tb = day 2016 12 30
  /\ tb_end_time week_tb = day 2017 1 16 - 1.
Proof. split; [exact week_builds|]. vm_compute. repeat split. Qed.
(** A multiplied frequency: three-month units from February 2016 to January 2017. *)
Definition quarters_args : tb_args Z :=
  mkArgs (fqn 3 AlM) (day 2016 2 29) (day 2017 1 1) (LPat (PList [1; 2])) [] pos_sel 1 false 0 WDuration num.
Example C01_units_ex2 :
  is_ok (build quarters_args []) = true
  /\ fr_len (tl_frame (tb_tl (the_tb quarters_args))) = 4
  /\ tb_start_time (the_tb quarters_args) = day 2016 2 1
  /\ tb_end_time (the_tb quarters_args) = day 2017 2 1 - 1.
Proof. vm_compute. repeat split. Qed.

(** C01. A range whose end unit precedes its start unit is refused, and nothing else is
    (a user's own mark function apart, which may raise whatever it likes). *)
Theorem C01_void : forall (L : Type) (a : tb_args L) (h : heap L) o0 o1,
  (forall how st fs, how_in_layout how (a_layout a) -> how st fs <> Err EVoidInterval) ->
  is_ok (top_organizer (a_layout a)) = true -> a_wt a <> WBad ->
  let b := fbase (to_freq (a_freq a)) in
  in_cal_unit b o0 (a_start a) -> in_cal_unit b o1 (a_end a) ->
  (build a h = Err EVoidInterval <-> o1 < o0).
Proof. exact C01_void_pf. Qed.
Print Assumptions C01_void.

Example C01_void_ex :
  build (mkArgs (fq AlM) (day 2017 3 1) (day 2017 2 28) week_layout [] pos_sel 1 false 0 WDuration num) []
  = Err EVoidInterval
  /\ in_cal_unit BM 566 (day 2017 3 1) /\ in_cal_unit BM 565 (day 2017 2 28)
  /\ (* within one unit `end` may precede `start` *)
     is_ok (build (mkArgs (fq AlM) (day 2017 3 31) (day 2017 3 1) (LPat (PList [1])) [] pos_sel 1 false 0
                          WDuration num) []) = true.
Proof. vm_compute. repeat split; congruence. Qed.

(** C02. *)
Theorem C02_lookup : forall (L : Type) (tb : timeboard L), reachable tb -> forall t s,
  (tb_start_time tb <= t <= tb_end_time tb -> exists w, get_workshift tb t s = Ok w)
  /\ (forall w, get_workshift tb t s = Ok w ->
        holds_time tb (ws_loc w) t /\ (forall j, holds_time tb j t -> j = ws_loc w)
        /\ tl_get (tb_tl tb) (ws_loc w) = Ok (ws_label w)
        /\ ws_sched w = match s with Some s' => s' | None => tb_default tb end)
  /\ (t < tb_start_time tb \/ tb_end_time tb < t -> get_workshift tb t s = Err EOutOfBounds)
  /\ (forall j, holds_time tb j t -> tb_start_time tb <= t <= tb_end_time tb).
Proof. exact C02_lookup_pf. Qed.
Print Assumptions C02_lookup.

Example C02_lookup_ex :
  rmap (@ws_loc Z) (get_workshift shift_tb (at_hour 2017 1 1 12) None) = Ok 1
  /\ rmap (@ws_loc Z) (get_workshift shift_tb (at_hour 2017 1 1 18 - 1) None) = Ok 1
  /\ rmap (@ws_loc Z) (get_workshift shift_tb (at_hour 2017 1 1 18) None) = Ok 2
  /\ rmap (@ws_loc Z) (get_workshift shift_tb (day 2017 1 1 - 1) None) = Err EOutOfBounds
  /\ rmap (@ws_loc Z) (get_workshift shift_tb (day 2017 1 4) None) = Err EOutOfBounds.
Proof. vm_compute. repeat split. Qed.

(** C03. *)
Theorem C03_tile : forall (L : Type) (tb : timeboard L), reachable tb ->
  is_shift tb 0 /\ starts_at tb 0 (tb_start_time tb) /\ ends_at tb (tb_len tb - 1) (tb_end_time tb)
  /\ (forall i, is_shift tb i -> exists s e d,
        starts_at tb i s /\ ends_at tb i e /\ s <= e /\ ws_duration (tb_tl tb) i = Ok d /\ 1 <= d
        /\ (is_shift tb (i + 1) -> starts_at tb (i + 1) (e + 1)))
  /\ exists ds, mapM (ws_duration (tb_tl tb)) (positions 0 (tb_len tb - 1)) = Ok ds
       /\ zsum ds = fr_len (tl_frame (tb_tl tb)).
Proof. exact C03_tile_pf. Qed.
Print Assumptions C03_tile.

Example C03_tile_ex :
  reachable shift_tb /\ tb_len shift_tb = 28
  /\ mapM (ws_duration (tb_tl shift_tb)) (positions 0 (tb_len shift_tb - 1))
     = Ok ([8; 10; 6] ++ repeat 1 24 ++ [24]).
Proof. split; [exact shift_reachable|]. vm_compute. split; reflexivity. Qed.

(** C04. *)
Theorem C04_own_times : forall (L : Type) (tb : timeboard L), reachable tb -> forall i, is_shift tb i ->
  (exists s e r, starts_at tb i s /\ ends_at tb i e /\ ref_at tb i r)
  /\ forall t sch, starts_at tb i t \/ ends_at tb i t \/ ref_at tb i t ->
       exists x, tl_get (tb_tl tb) i = Ok x
         /\ get_workshift tb t sch = Ok (mkWs i x (match sch with Some s => s | None => tb_default tb end)).
Proof. exact C04_own_times_pf. Qed.
Print Assumptions C04_own_times.

Example C04_own_times_ex :
  is_shift shift_tb 1 /\ starts_at shift_tb 1 (at_hour 2017 1 1 8)
  /\ ends_at shift_tb 1 (at_hour 2017 1 1 18 - 1) /\ ref_at shift_tb 1 (at_hour 2017 1 1 18 - 1)
  /\ ref_at week_tb 3 (day 2017 1 2).
Proof. vm_compute. repeat split; congruence. Qed.

(** C35. The constructor refuses locations beyond the ends, and what it returns for a
    proper location is well-formed.  The documented refusal of negative locations is not
    implemented: see [C35_negative_refuted]. *)
Theorem C35_constructor : forall (L : Type) (tb : timeboard L), reachable tb -> forall loc s,
  (loc < - tb_len tb \/ tb_len tb <= loc -> new_workshift tb loc s = Err EOutOfBounds)
  /\ (is_shift tb loc -> exists w d st e,
        new_workshift tb loc s = Ok w /\ ws_loc w = loc /\ ws_sched w = s
        /\ ws_duration (tb_tl tb) loc = Ok d /\ 1 <= d
        /\ starts_at tb loc st /\ ends_at tb loc e /\ st <= e).
Proof. exact C35_constructor_pf. Qed.
Print Assumptions C35_constructor.

Example C35_constructor_ex :
  new_workshift week_tb 17 (tb_default week_tb) = Err EOutOfBounds
  /\ new_workshift week_tb (-18) (tb_default week_tb) = Err EOutOfBounds
  /\ rmap (@ws_label Z) (new_workshift week_tb 16 (tb_default week_tb)) = Ok 0.
Proof. vm_compute. repeat split. Qed.

(** C35, the rest of the claim is false: Workshift(tb, -1) is accepted and yields a
    workshift of negative duration.  [C35_negative] tells what every negative location gives:
    the workshift counted from the end, except that the last one, taken as -1, has minus the
    number of base units before it for its duration. *)
Theorem C35_negative : forall (L : Type) (tb : timeboard L), reachable tb -> forall loc s,
  - tb_len tb <= loc < 0 ->
  let k := loc + tb_len tb in
  exists w, new_workshift tb loc s = Ok w /\ ws_loc w = loc /\ ws_sched w = s
    /\ tl_get (tb_tl tb) k = Ok (ws_label w)
    /\ (forall t, starts_at tb loc t <-> starts_at tb k t)
    /\ (forall t, ends_at tb loc t <-> ends_at tb k t)
    /\ (loc <> -1 -> ws_duration (tb_tl tb) loc = ws_duration (tb_tl tb) k)
    /\ (loc = -1 -> exists d, ws_duration (tb_tl tb) loc = Ok d /\ d <= 0
         /\ forall t, starts_at tb k t -> t = unit_start (tl_frame (tb_tl tb)) (- d)).
Proof. exact C35_negative_pf. Qed.
Print Assumptions C35_negative.

Example C35_negative_ex :
  - tb_len week_tb <= -1 < 0 /\ -1 + tb_len week_tb = 16
  /\ ws_duration (tb_tl week_tb) (-1) = Ok (-16) /\ ws_duration (tb_tl week_tb) (-2) = Ok 1
  /\ ws_start_time (tb_tl week_tb) (-2) = Ok (day 2017 1 14)
  /\ rmap (@ws_label Z) (new_workshift week_tb (-2) (tb_default week_tb)) = rmap (@ws_label Z) (new_workshift week_tb 15 (tb_default week_tb)).
Proof. vm_compute. repeat split; congruence. Qed.

Theorem C35_negative_refuted :
  exists (tb : timeboard Z) w d s e, reachable tb
    /\ new_workshift tb (-1) (tb_default tb) = Ok w /\ ws_duration (tb_tl tb) (ws_loc w) = Ok d /\ d < 0
    /\ starts_at tb (ws_loc w) s /\ ends_at tb (ws_loc w) e /\ s = day 2017 1 15
    /\ e = day 2017 1 16 - 1.
Proof.
  exists week_tb. eexists _, _, _, _. split; [exact week_reachable|]. vm_compute. repeat split; reflexivity.
Qed.
Print Assumptions C35_negative_refuted.

(** C36. *)
Theorem C36_after : forall (L : Type) (tb : timeboard L), reachable tb -> forall t,
  (forall k, pos_by_ref_after (tb_tl tb) t = Ok k ->
     is_shift tb k /\ (exists r, ref_at tb k r /\ t <= r)
     /\ forall j r, is_shift tb j -> ref_at tb j r -> t <= r -> k <= j)
  /\ (forall e, pos_by_ref_after (tb_tl tb) t = Err e -> e = EOutOfBounds)
  /\ (pos_by_ref_after (tb_tl tb) t = Err EOutOfBounds <->
      (t < tb_start_time tb \/ tb_end_time tb < t)
      \/ forall j r, is_shift tb j -> ref_at tb j r -> r < t).
Proof. exact C36_after_pf. Qed.
Print Assumptions C36_after.

Theorem C36_before : forall (L : Type) (tb : timeboard L), reachable tb -> forall t,
  (forall k, pos_by_ref_before (tb_tl tb) t = Ok k ->
     is_shift tb k /\ (exists r, ref_at tb k r /\ r <= t)
     /\ forall j r, is_shift tb j -> ref_at tb j r -> r <= t -> j <= k)
  /\ (forall e, pos_by_ref_before (tb_tl tb) t = Err e -> e = EOutOfBounds)
  /\ (pos_by_ref_before (tb_tl tb) t = Err EOutOfBounds <->
      (t < tb_start_time tb \/ tb_end_time tb < t)
      \/ forall j r, is_shift tb j -> ref_at tb j r -> t < r).
Proof. exact C36_before_pf. Qed.
Print Assumptions C36_before.

(** The fourth hour of the third workshift: with reference at the end, "after" is this
    workshift and "before" is the previous one. *)
Example C36_ex :
  pos_by_ref_after (tb_tl shift_tb) (at_hour 2017 1 1 22) = Ok 2
  /\ pos_by_ref_before (tb_tl shift_tb) (at_hour 2017 1 1 22) = Ok 1
  /\ pos_by_ref_before (tb_tl shift_tb) (at_hour 2017 1 1 7) = Err EOutOfBounds
  /\ pos_by_ref_after (tb_tl shift_tb) (at_hour 2017 1 3 7) = Ok 27
  /\ pos_by_ref_after (tb_tl shift_tb) (day 2017 1 4) = Err EOutOfBounds.
Proof. vm_compute. repeat split. Qed.
