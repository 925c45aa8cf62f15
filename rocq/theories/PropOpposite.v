(** Schedules compared by the duty they give: C77. *)
From Verif Require Import Base Civil Freq Frame Timeline Board Spec SpecOpposite Samples BaseProofs OppositeProofs.
From Coq Require Import QArith Lia.
Open Scope Z_scope.

(** C77.  With the opposite schedule and the opposite duty every method gives the same result. *)
Theorem C77_opposite : forall L (tb : timeboard L) s s', reachable tb -> sched_for tb s -> sched_for tb s' -> opposite tb s s' ->
  (forall w n d, ws_of tb w ->
     rmap place (rollforward tb w n (other_duty d) (Some s')) = rmap place (rollforward tb w n d (Some s))
     /\ rmap place (rollback tb w n (other_duty d) (Some s')) = rmap place (rollback tb w n d (Some s))
     /\ ws_worktime tb w (other_duty d) (Some s') = ws_worktime tb w d (Some s))
  /\ (forall iv n d,
     rmap (map place) (iv_workshifts tb iv (other_duty d) (Some s')) = rmap (map place) (iv_workshifts tb iv d (Some s))
     /\ rmap place (iv_nth tb iv n (other_duty d) (Some s')) = rmap place (iv_nth tb iv n d (Some s))
     /\ iv_count iv (other_duty d) (Some s') = iv_count iv d (Some s)
     /\ total_duration tb iv (other_duty d) (Some s') = total_duration tb iv d (Some s)
     /\ iv_worktime tb iv (other_duty d) (Some s') = iv_worktime tb iv d (Some s))
  /\ (forall x y d, what_portion_of tb x y (other_duty d) (Some s') = what_portion_of tb x y d (Some s))
  /\ (forall iv fs d, count_periods tb iv fs (other_duty d) (Some s') = count_periods tb iv fs d (Some s)).
Proof. exact C77_opposite_pf. Qed.
Print Assumptions C77_opposite.
(** The more workshifts have the duty, the more there are in an interval, and the nearer a roll ends. *)
Theorem C77_covered : forall L (tb : timeboard L) s d s' d', reachable tb -> sched_for tb s -> sched_for tb s' -> plain_duty d -> plain_duty d' ->
  covered tb s d s' d' ->
  (forall iv, iv_of tb iv -> exists ws ws' m m',
     iv_workshifts tb iv d (Some s) = Ok ws /\ iv_workshifts tb iv d' (Some s') = Ok ws'
     /\ incl (map place ws) (map place ws')
     /\ iv_count iv d (Some s) = Ok (Z.of_nat (length ws)) /\ iv_count iv d' (Some s') = Ok (Z.of_nat (length ws'))
     /\ (length ws <= length ws')%nat
     /\ total_duration tb iv d (Some s) = Ok m /\ total_duration tb iv d' (Some s') = Ok m' /\ m <= m')
  /\ (forall w n r, ws_of tb w -> 0 <= n -> rollforward tb w n d (Some s) = Ok r ->
        exists r', rollforward tb w n d' (Some s') = Ok r' /\ ws_loc w <= ws_loc r' <= ws_loc r)
  /\ (forall w n r, ws_of tb w -> 0 <= n -> rollback tb w n d (Some s) = Ok r ->
        exists r', rollback tb w n d' (Some s') = Ok r' /\ ws_loc r <= ws_loc r' <= ws_loc w).
Proof. exact C77_covered_pf. Qed.
Print Assumptions C77_covered.

(** On duty with no hours of work. *)
Definition week_idle : schedule Z := mk_schedule (tb_tl week_tb) 3 (fun x => negb (pos_sel x)).
Lemma week_idle_for : sched_for week_tb week_idle.
Proof. eexists _, _. reflexivity. Qed.
Lemma shifts_17 (P : Z -> bool) : forallb P (zrange 0 17) = true -> forall i, is_shift week_tb i -> P i = true.
Proof.
  intros H i Hi. rewrite forallb_forall in H. apply H, zrange_In. unfold is_shift in Hi.
  assert (E : tb_len week_tb = 17) by (vm_compute; reflexivity). lia.
Qed.
Example C77_ex :
  reachable week_tb /\ sched_for week_tb (tb_default week_tb) /\ sched_for week_tb week_idle /\ opposite week_tb (tb_default week_tb) week_idle
  /\ let iv := mkIvl 3 12 false (tb_default week_tb) in
     iv_count iv DOff (Some week_idle) = Ok 7 /\ iv_count iv DOn (Some (tb_default week_tb)) = Ok 7 /\ iv_count iv DOn (Some week_idle) = Ok 3
     /\ rmap place (rollforward week_tb (mkWs 1 0 (tb_default week_tb)) 2 DOff (Some week_idle)) = Ok (6, 8)
     /\ rmap place (rollforward week_tb (mkWs 1 0 (tb_default week_tb)) 2 DSame (Some week_idle)) = Ok (3, 0)
     /\ rmap place (rollforward week_tb (mkWs 1 0 (tb_default week_tb)) 2 DSame (Some (tb_default week_tb))) = Ok (3, 0).
Proof.
  split; [exact week_reachable|]. split; [exact week_default_for|]. split; [exact week_idle_for|]. split.
  - intros i Hi. apply Bool.eqb_prop.
    exact (shifts_17 (fun i => Bool.eqb (on_duty week_tb week_idle i) (negb (on_duty week_tb (tb_default week_tb) i))) ltac:(vm_compute; reflexivity) i Hi).
  - vm_compute. repeat split; reflexivity.
Qed.
(** Full days are among the days of work; rolling over these ends sooner. *)
Example C77_covered_ex :
  sched_for week_tb week_full /\ covered week_tb week_full DOn (tb_default week_tb) DOn
  /\ let iv := mkIvl 0 16 false (tb_default week_tb) in
     iv_count iv DOn (Some week_full) = Ok 7 /\ iv_count iv DOn (Some (tb_default week_tb)) = Ok 10
     /\ rmap place (rollforward week_tb (mkWs 4 8 (tb_default week_tb)) 5 DOn (Some week_full)) = Ok (12, 8)
     /\ rmap place (rollforward week_tb (mkWs 4 8 (tb_default week_tb)) 5 DOn (Some (tb_default week_tb))) = Ok (11, 8)
     /\ rmap place (rollforward week_tb (mkWs 4 8 (tb_default week_tb)) 7 DOn (Some week_full)) = Err EOutOfBounds
     /\ rmap place (rollforward week_tb (mkWs 4 8 (tb_default week_tb)) 7 DOn (Some (tb_default week_tb))) = Ok (13, 8).
Proof.
  split; [exact week_full_for|]. split.
  - intros i Hi H. pose proof (shifts_17 (fun i => implb (has_duty week_tb week_full DOn i) (has_duty week_tb (tb_default week_tb) DOn i)) ltac:(vm_compute; reflexivity) i Hi) as X.
    cbv beta in X. rewrite H in X. exact X.
  - vm_compute. repeat split; reflexivity.
Qed.
