(** Timeboards that have workshifts in common agree about them: C69. *)
From Verif Require Import Base Civil Freq Frame When Timeline Board Spec SpecRoll SpecLookup SpecQuery SpecInterval SpecMisc SpecLayout SpecCivil SpecWhen SpecSame SpecShare Samples ShareProofs.
From Coq Require Import QArith Lia.
Open Scope Z_scope.

(** C69.  Times, pairs of times and calendar periods. *)
Theorem C69_workshift : forall (L : Type) (tb1 tb2 : timeboard L) a b c i t s1 s2,
  reachable tb1 -> reachable tb2 -> share tb1 tb2 a b c -> a <= i <= b -> holds_time tb1 i t ->
  exists w1 w2, get_workshift tb1 t s1 = Ok w1 /\ get_workshift tb2 t s2 = Ok w2 /\ moved c w1 w2 /\ ws_loc w1 = i.
Proof. exact C69_workshift_pf. Qed.
Print Assumptions C69_workshift.
Theorem C69_pair : forall (L : Type) (tb1 tb2 : timeboard L) a b c i j t1 t2 clip s1 s2,
  reachable tb1 -> reachable tb2 -> share tb1 tb2 a b c -> a <= i <= b -> a <= j <= b -> holds_time tb1 i t1 -> holds_time tb1 j t2 ->
  alike (fun x1 x2 => moved_ivl c x1 x2 /\ iv_among a b x1 /\ iv_a x1 = i /\ iv_b x1 = j)
    (get_interval tb1 (RPair (Some t1) (Some t2)) None None clip C11 s1) (get_interval tb2 (RPair (Some t1) (Some t2)) None None clip C11 s2).
Proof. exact C69_pair_pf. Qed.
Print Assumptions C69_pair.
Theorem C69_period : forall (L : Type) (tb1 tb2 : timeboard L) a b c r per p clip s1 s2,
  reachable tb1 -> reachable tb2 -> share tb1 tb2 a b c -> a <= b -> means_period r per p -> covers tb1 a b (p_start p) (p_end p) ->
  alike (fun x1 x2 => moved_ivl c x1 x2 /\ iv_among a b x1)
    (get_interval tb1 r None per clip C11 s1) (get_interval tb2 r None per clip C11 s2).
Proof. exact C69_period_pf. Qed.
Print Assumptions C69_period.
(** Counting, listing, picking and adding up. *)
Theorem C69_queries : forall (L : Type) (tb1 tb2 : timeboard L) a b c x1 x2 d s1 s2,
  reachable tb1 -> reachable tb2 -> share tb1 tb2 a b c -> iv_of tb1 x1 -> sched_for tb2 (iv_sched x2) -> iv_among a b x1 -> moved_ivl c x1 x2 ->
  d = DOn \/ d = DOff \/ d = DAny -> (forall s, s1 = Some s -> sched_for tb1 s) -> (forall s, s2 = Some s -> sched_for tb2 s) ->
  same_rule (sched_arg s1 (iv_sched x1)) (sched_arg s2 (iv_sched x2)) ->
  iv_count x1 d s1 = iv_count x2 d s2
  /\ alike (Forall2 (moved c)) (iv_workshifts tb1 x1 d s1) (iv_workshifts tb2 x2 d s2)
  /\ (forall n, alike (moved c) (iv_nth tb1 x1 n d s1) (iv_nth tb2 x2 n d s2))
  /\ (same_lengths tb1 tb2 a b c -> total_duration tb1 x1 d s1 = total_duration tb2 x2 d s2).
Proof. exact C69_queries_pf. Qed.
Print Assumptions C69_queries.
Theorem C69_worktime : forall (L : Type) (tb1 tb2 : timeboard L) a b c x1 x2 d s1 s2,
  reachable tb1 -> reachable tb2 -> share tb1 tb2 a b c -> iv_of tb1 x1 -> sched_for tb2 (iv_sched x2) -> iv_among a b x1 -> moved_ivl c x1 x2 ->
  d = DOn \/ d = DOff \/ d = DAny -> (forall s, s1 = Some s -> sched_for tb1 s) -> (forall s, s2 = Some s -> sched_for tb2 s) ->
  same_rule (sched_arg s1 (iv_sched x1)) (sched_arg s2 (iv_sched x2)) ->
  tb_wt tb1 = tb_wt tb2 -> (forall x, tb_num tb1 x = tb_num tb2 x) -> (tb_wt tb1 = WDuration -> same_lengths tb1 tb2 a b c) ->
  alike Qeq (iv_worktime tb1 x1 d s1) (iv_worktime tb2 x2 d s2).
Proof. exact C69_worktime_pf. Qed.
Print Assumptions C69_worktime.
Theorem C69_portion : forall (L : Type) (tb1 tb2 : timeboard L) a b c x1 y1 x2 y2 d s1 s2,
  reachable tb1 -> reachable tb2 -> share tb1 tb2 a b c -> iv_of tb1 x1 -> iv_of tb1 y1 -> sched_for tb2 (iv_sched x2) -> sched_for tb2 (iv_sched y2) ->
  iv_among a b x1 -> iv_among a b y1 -> moved_ivl c x1 x2 -> moved_ivl c y1 y2 ->
  d = DOn \/ d = DOff \/ d = DAny -> (forall s, s1 = Some s -> sched_for tb1 s) -> (forall s, s2 = Some s -> sched_for tb2 s) ->
  same_rule (sched_arg s1 (iv_sched x1)) (sched_arg s2 (iv_sched x2)) ->
  exists q1 q2, what_portion_of tb1 x1 y1 d s1 = Ok q1 /\ what_portion_of tb2 x2 y2 d s2 = Ok q2 /\ (q1 == q2)%Q.
Proof. exact C69_portion_pf. Qed.
Print Assumptions C69_portion.
Theorem C69_count_periods : forall (L : Type) (tb1 tb2 : timeboard L) a b c x1 x2 fs d s1 s2,
  reachable tb1 -> reachable tb2 -> share tb1 tb2 a b c -> a <= b -> iv_of tb1 x1 -> sched_for tb2 (iv_sched x2) -> iv_among a b x1 -> moved_ivl c x1 x2 ->
  d = DOn \/ d = DOff \/ d = DAny -> (forall s, s1 = Some s -> sched_for tb1 s) -> (forall s, s2 = Some s -> sched_for tb2 s) ->
  same_rule (sched_arg s1 (iv_sched x1)) (sched_arg s2 (iv_sched x2)) ->
  (forall o0 o1 o, touches tb1 x1 (fbase (to_freq fs)) o0 o1 -> o0 <= o <= o1 ->
     covers tb1 a b (pstart (fbase (to_freq fs)) o) (pstart (fbase (to_freq fs)) (o + 1) - 1)) ->
  alike Qeq (count_periods tb1 x1 fs d s1) (count_periods tb2 x2 fs d s2).
Proof. exact C69_count_periods_pf. Qed.
Print Assumptions C69_count_periods.
(** Stepping. *)
Theorem C69_forward : forall (L : Type) (tb1 tb2 : timeboard L) a b c w1 w2 n d s1 s2 r1,
  reachable tb1 -> reachable tb2 -> share tb1 tb2 a b c -> ws_of tb1 w1 -> ws_of tb2 w2 -> moved c w1 w2 -> a <= ws_loc w1 <= b ->
  d <> DBad -> (forall s, s1 = Some s -> sched_for tb1 s) -> (forall s, s2 = Some s -> sched_for tb2 s) ->
  same_rule (sched_arg s1 (ws_sched w1)) (sched_arg s2 (ws_sched w2)) ->
  rollforward tb1 w1 n d s1 = Ok r1 -> a <= ws_loc r1 <= b ->
  0 <= n \/ (exists z, rollforward tb1 w1 0 d s1 = Ok z /\ ws_loc z <= b) ->
  exists r2, rollforward tb2 w2 n d s2 = Ok r2 /\ moved c r1 r2.
Proof. exact C69_forward_pf. Qed.
Print Assumptions C69_forward.
Theorem C69_back : forall (L : Type) (tb1 tb2 : timeboard L) a b c w1 w2 n d s1 s2 r1,
  reachable tb1 -> reachable tb2 -> share tb1 tb2 a b c -> ws_of tb1 w1 -> ws_of tb2 w2 -> moved c w1 w2 -> a <= ws_loc w1 <= b ->
  d <> DBad -> (forall s, s1 = Some s -> sched_for tb1 s) -> (forall s, s2 = Some s -> sched_for tb2 s) ->
  same_rule (sched_arg s1 (ws_sched w1)) (sched_arg s2 (ws_sched w2)) ->
  rollback tb1 w1 n d s1 = Ok r1 -> a <= ws_loc r1 <= b ->
  0 <= n \/ (exists z, rollback tb1 w1 0 d s1 = Ok z /\ a <= ws_loc z) ->
  exists r2, rollback tb2 w2 n d s2 = Ok r2 /\ moved c r1 r2.
Proof. exact C69_back_pf. Qed.
Print Assumptions C69_back.

(** Where each base unit is a workshift, and gets the same label in both timeboards, the workshifts are
    in common; for calendar periods (C68) that is always so. *)
Theorem C69_units : forall (L : Type) (a1 a2 : tb_args L) (h1 h2 : heap L) tb1 tb2 h1' h2' u v n,
  build a1 h1 = Ok (tb1, h1') -> build a2 h2 = Ok (tb2, h2') -> a_ref_end a1 = a_ref_end a2 ->
  same_unit (tl_frame (tb_tl tb1)) (tl_frame (tb_tl tb2)) u v -> 0 <= n ->
  (forall k, 0 <= k <= n -> exists x, shift_of (tb_tl tb1) (u + k) (u + k) (u + k) x /\ shift_of (tb_tl tb2) (v + k) (v + k) (v + k) x) ->
  exists i j, ws_first_baseunit (tb_tl tb1) i = Ok u /\ ws_first_baseunit (tb_tl tb2) j = Ok v /\ share tb1 tb2 i (i + n) (j - i) /\ same_lengths tb1 tb2 i (i + n) (j - i).
Proof. exact C69_units_pf. Qed.
Print Assumptions C69_units.
Theorem C69_calendar : forall (L : Type) (a1 a2 : tb_args L) (h1 h2 : heap L) tb1 tb2 h1' h2' org g pat u v n,
  build a1 h1 = Ok (tb1, h1') -> build a2 h2 = Ok (tb2, h2') -> a_amendments a1 = a_amendments a2 -> a_ref_end a1 = a_ref_end a2 ->
  top_organizer (a_layout a1) = Ok org -> top_organizer (a_layout a2) = Ok org ->
  straight org (DMarker (mkMarker g [])) (LPat (PList pat)) -> one_part g -> times g = 1 -> pat <> [] ->
  one_part (fr_str (tl_frame (tb_tl tb1))) -> same_unit (tl_frame (tb_tl tb1)) (tl_frame (tb_tl tb2)) u v ->
  0 <= n -> u + n < fr_len (tl_frame (tb_tl tb1)) -> v + n < fr_len (tl_frame (tb_tl tb2)) ->
  exists i j, ws_first_baseunit (tb_tl tb1) i = Ok u /\ ws_first_baseunit (tb_tl tb2) j = Ok v /\ share tb1 tb2 i (i + n) (j - i) /\ same_lengths tb1 tb2 i (i + n) (j - i).
Proof. exact C69_calendar_pf. Qed.
Print Assumptions C69_calendar.

(** Weeks in months, Mon 2 Jan to Sun 5 Mar, and Fri 30 Dec to Fri 10 Feb, with 25 Jan as a day off.
    In common are the 40 days from 2 Jan to 10 Feb. *)
Definition share_layout : layout Z :=
  LOrg (DMarker (mkMarker (fq AlM) [])) [LOrg (DMarker (mkMarker (fq (AlW None)) [])) [LPat (PList [8; 8; 8; 8; 6; 0; 0])]].
Definition share_args (from till : Z) : tb_args Z :=
  mkArgs (fq AlD) from till share_layout [(day 2017 1 25, 0)] pos_sel 1 false 0 WLabels Samples.num.
Definition share1 := share_args (day 2017 1 2) (day 2017 3 5).
Definition share2 := share_args (day 2016 12 30) (day 2017 2 10).
Lemma share1_built : build share1 [] = Ok (the_tb share1, []). Proof. vm_compute. reflexivity. Qed.
Lemma share2_built : build share2 [] = Ok (the_tb share2, []). Proof. vm_compute. reflexivity. Qed.
Lemma share1_reach : reachable (the_tb share1). Proof. exact (reach_build _ _ _ _ share1_built). Qed.
Lemma share2_reach : reachable (the_tb share2). Proof. exact (reach_build _ _ _ _ share2_built). Qed.
Example C69_calendar_ex : share (the_tb share1) (the_tb share2) 0 39 3.
Proof.
  assert (Hst : straight share_layout (DMarker (mkMarker (fq (AlW None)) [])) (LPat (PList [8; 8; 8; 8; 6; 0; 0]))) by (constructor; constructor; exact I).
  assert (Hf : one_part (fr_str (tl_frame (tb_tl (the_tb share1))))) by (vm_compute; exact I).
  assert (Hs : same_unit (tl_frame (tb_tl (the_tb share1))) (tl_frame (tb_tl (the_tb share2))) 0 3) by (vm_compute; repeat split; congruence).
  assert (Hl1 : 0 + 39 < fr_len (tl_frame (tb_tl (the_tb share1)))) by (vm_compute; reflexivity).
  assert (Hl2 : 3 + 39 < fr_len (tl_frame (tb_tl (the_tb share2)))) by (vm_compute; reflexivity).
  destruct (C69_calendar Z share1 share2 [] [] (the_tb share1) (the_tb share2) [] [] share_layout (fq (AlW None)) [8; 8; 8; 8; 6; 0; 0] 0 3 39 share1_built share2_built
    eq_refl eq_refl eq_refl eq_refl Hst I eq_refl ltac:(discriminate) Hf Hs ltac:(lia) Hl1 Hl2) as (i & j & Hi & Hj & H & _).
  - assert (Ei : forall i, 0 <= i < 63 -> ws_first_baseunit (tb_tl (the_tb share1)) i = Ok i).
    { intros k Hk. apply (Forall_forall (fun k => ws_first_baseunit (tb_tl (the_tb share1)) k = Ok k) (positions 0 62)); [|apply BoardProofs.positions_In; lia].
      vm_compute. repeat (constructor; [reflexivity|]). constructor. }
    assert (Ej : forall i, 0 <= i < 43 -> ws_first_baseunit (tb_tl (the_tb share2)) i = Ok i).
    { intros k Hk. apply (Forall_forall (fun k => ws_first_baseunit (tb_tl (the_tb share2)) k = Ok k) (positions 0 42)); [|apply BoardProofs.positions_In; lia].
      vm_compute. repeat (constructor; [reflexivity|]). constructor. }
    destruct (H i ltac:(lia)) as (Si & Sj & _). replace (i + (j - i)) with j in Sj by lia.
    assert (L1 : tb_len (the_tb share1) = 63) by (vm_compute; reflexivity). assert (L2 : tb_len (the_tb share2) = 43) by (vm_compute; reflexivity).
    unfold is_shift in Si, Sj. rewrite Ei in Hi by lia. rewrite Ej in Hj by lia. injection Hi as ->. injection Hj as ->. exact H.
Qed.
(** The week of 25 Jan in both: four workshifts on duty, 30 hours of them; the first is the fourth step
    forward from Thu 19 Jan. *)
Definition share_iv (a : tb_args Z) (lo hi : Z) : interval Z := mkIvl lo hi false (tb_default (the_tb a)).
Example C69_queries_ex :
  get_interval (the_tb share1) (RPoint (day 2017 1 25)) None (Some (fq (AlW None))) true C11 None = Ok (share_iv share1 21 27)
  /\ get_interval (the_tb share2) (RPoint (day 2017 1 25)) None (Some (fq (AlW None))) true C11 None = Ok (share_iv share2 24 30)
  /\ covers (the_tb share1) 0 39 (day 2017 1 23) (day 2017 1 30 - 1)
  /\ moved_ivl 3 (share_iv share1 21 27) (share_iv share2 24 30) /\ iv_among 0 39 (share_iv share1 21 27)
  /\ iv_of (the_tb share1) (share_iv share1 21 27) /\ same_rule (tb_default (the_tb share1)) (tb_default (the_tb share2))
  /\ iv_count (share_iv share1 21 27) DOn None = Ok 4 /\ iv_count (share_iv share2 24 30) DOn None = Ok 4
  /\ match iv_worktime (the_tb share2) (share_iv share2 24 30) DOn None with Ok q => Qred q | _ => 0%Q end = 30%Q.
Proof.
  split; [vm_compute; reflexivity|]. split; [vm_compute; reflexivity|].
  split; [exists (day 2017 1 2), (day 2017 2 11 - 1); split; [vm_compute; reflexivity|]; split; [vm_compute; reflexivity|]; split; vm_compute; congruence|].
  split; [repeat split|]. split; [vm_compute; repeat split; congruence|].
  split; [|split; [intros x; reflexivity|]; repeat split; vm_compute; reflexivity].
  destruct (BoardProofs.reachable_wf _ share1_reach) as (_ & Hs & _).
  split; [exact Hs|]. split; [vm_compute; repeat split; congruence|]. split; [vm_compute; repeat split; congruence|]. vm_compute. congruence.
Qed.
Example C69_count_periods_ex :
  touches (the_tb share1) (share_iv share1 16 22) (fbase (to_freq (fq (AlW None)))) 2454 2455
  /\ (forall o, 2454 <= o <= 2455 -> covers (the_tb share1) 0 39 (pstart (fbase (to_freq (fq (AlW None)))) o) (pstart (fbase (to_freq (fq (AlW None)))) (o + 1) - 1))
  /\ map (fun r => match r with Ok q => Some (Qred q) | Err _ => None end)
       [count_periods (the_tb share1) (share_iv share1 16 22) (fq (AlW None)) DOn None; count_periods (the_tb share2) (share_iv share2 19 25) (fq (AlW None)) DOn None]
     = [Some (11 # 10); Some (11 # 10)]%Q.
Proof.
  split; [exists (day 2017 1 18), (day 2017 1 25 - 1); vm_compute; repeat split; congruence|]. split.
  - intros o Ho. assert (E : o = 2454 \/ o = 2455) by lia.
    destruct E as [-> | ->]; exists (day 2017 1 2), (day 2017 2 11 - 1); (split; [vm_compute; reflexivity|]); (split; [vm_compute; reflexivity|]); split; vm_compute; congruence.
  - vm_compute. reflexivity.
Qed.
Example C69_forward_ex :
  let w1 := mkWs 17 8 (tb_default (the_tb share1)) in let w2 := mkWs 20 8 (tb_default (the_tb share2)) in
  ws_of (the_tb share1) w1 /\ ws_of (the_tb share2) w2 /\ moved 3 w1 w2
  /\ rollforward (the_tb share1) w1 4 DOn None = Ok (mkWs 24 8 (tb_default (the_tb share1)))
  /\ rollforward (the_tb share2) w2 4 DOn None = Ok (mkWs 27 8 (tb_default (the_tb share2)))
  /\ rollback (the_tb share2) w2 4 DOn None = Ok (mkWs 14 6 (tb_default (the_tb share2))).
Proof.
  cbv zeta. destruct (BoardProofs.reachable_wf _ share1_reach) as (_ & H1 & _). destruct (BoardProofs.reachable_wf _ share2_reach) as (_ & H2 & _).
  split; [split; [vm_compute; repeat split; congruence|]; split; [exact H1|vm_compute; reflexivity]|].
  split; [split; [vm_compute; repeat split; congruence|]; split; [exact H2|vm_compute; reflexivity]|].
  split; [split; reflexivity|]. repeat split; vm_compute; reflexivity.
Qed.

(** Beyond the workshifts in common they may differ: [share2] does not know how many days of duty there
    are in February. *)
Example C69_beyond_ex : exists (tb1 tb2 : timeboard Z) x1 x2 fs q,
  reachable tb1 /\ reachable tb2 /\ share tb1 tb2 0 39 3 /\ iv_among 0 39 x1 /\ moved_ivl 3 x1 x2
  /\ same_rule (iv_sched x1) (iv_sched x2)
  /\ count_periods tb1 x1 fs DOn None = Ok q /\ count_periods tb2 x2 fs DOn None = Err EPartialOutOfBounds.
Proof.
  exists (the_tb share1), (the_tb share2), (share_iv share1 30 32), (share_iv share2 33 35), (fq AlM),
    (match count_periods (the_tb share1) (share_iv share1 30 32) (fq AlM) DOn None with Ok q => q | _ => 0%Q end).
  split; [exact share1_reach|]. split; [exact share2_reach|]. split; [exact C69_calendar_ex|]. split; [vm_compute; repeat split; congruence|].
  split; [repeat split|]. split; [intros x; reflexivity|]. split; vm_compute; reflexivity.
Qed.
