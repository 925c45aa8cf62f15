(** Theorems C25-C28, C31: queries of intervals, overlap, portions, durations. *)
From Verif Require Import Base Civil Freq Frame Timeline Board Spec SpecRoll SpecQuery Samples QueryProofs.
From Coq Require Import QArith.
Open Scope Z_scope.

Definition wk (a b : Z) : interval Z := mkIvl a b false (tb_default week_tb).
Lemma wk_of a b : 0 <= a -> a <= b -> b < 17 -> iv_of week_tb (wk a b).
Proof.
  intros H1 H2 H3. split; [exact week_default_for|]. unfold is_shift. cbn [iv_a iv_b iv_void wk].
  assert (E : tb_len week_tb = 17) by (vm_compute; reflexivity). rewrite E. repeat split; try assumption; eauto using Z.le_trans, Z.le_lt_trans.
Qed.

(** C25. *)
Theorem C25_queries : forall (L : Type) (tb : timeboard L) (iv : interval L) d s,
  reachable tb -> iv_of tb iv -> d = DOn \/ d = DOff \/ d = DAny -> (forall s', s = Some s' -> sched_for tb s') ->
  let s' := sched_arg s (iv_sched iv) in
  let l := iv_list tb iv d s' in
  (exists ws, iv_workshifts tb iv d s = Ok ws /\ Forall2 (the_shift tb s') l ws)
  /\ iv_count iv d s = Ok (Z.of_nat (length l))
  /\ (forall n i, at_index l n i -> exists w, iv_nth tb iv n d s = Ok w /\ the_shift tb s' i w)
  /\ (forall n, (forall i, ~ at_index l n i) -> iv_nth tb iv n d s = Err EOutOfBounds)
  /\ (forall i, hd_error l = Some i -> exists w, iv_first tb iv d s = Ok w /\ the_shift tb s' i w)
  /\ (forall i, hd_error (rev l) = Some i -> exists w, iv_last tb iv d s = Ok w /\ the_shift tb s' i w)
  /\ (l = [] -> iv_first tb iv d s = Err EOutOfBounds /\ iv_last tb iv d s = Err EOutOfBounds).
Proof. exact C25_queries_pf. Qed.
Print Assumptions C25_queries.

Theorem C25_bad_duty : forall (L : Type) (tb : timeboard L) (iv : interval L) d s n,
  iv_void iv = false -> ~ (d = DOn \/ d = DOff \/ d = DAny) ->
  iv_workshifts tb iv d s = Err EValue /\ iv_count iv d s = Err EValue /\ iv_nth tb iv n d s = Err EValue
  /\ total_duration tb iv d s = Err EValue.
Proof. exact C25_bad_duty_pf. Qed.
Print Assumptions C25_bad_duty.

(** Sun 1 Jan .. Sun 8 Jan *)
Example C25_ex :
  iv_of week_tb (wk 2 9) /\ iv_list week_tb (wk 2 9) DOn (tb_default week_tb) = [4; 5; 6; 7]
  /\ at_index [4; 5; 6; 7] (-3) 5
  /\ rmap (@ws_loc Z) (iv_nth week_tb (wk 2 9) (-3) DOn None) = Ok 5
  /\ iv_nth week_tb (wk 2 9) (-5) DOn None = Err EOutOfBounds
  /\ iv_list week_tb (wk 1 3) DOn (tb_default week_tb) = []
  /\ iv_first week_tb (wk 1 3) DOn None = Err EOutOfBounds
  /\ rmap (map (@ws_loc Z)) (iv_workshifts week_tb (wk 2 9) DOff None) = Ok [2; 3; 8; 9].
Proof.
  split; [apply wk_of; discriminate || reflexivity|]. split; [vm_compute; reflexivity|].
  split; [right; repeat split; discriminate|]. vm_compute. repeat split.
Qed.

(** C26. *)
Theorem C26_on_off : forall (L : Type) (tb : timeboard L) (iv : interval L) s,
  reachable tb -> iv_of tb iv -> (forall s', s = Some s' -> sched_for tb s') ->
  exists on off, iv_count iv DOn s = Ok on /\ iv_count iv DOff s = Ok off
    /\ iv_count iv DAny s = Ok (on + off) /\ iv_length iv = on + off
    /\ (iv_length iv = 0 <-> iv_void iv = true).
Proof. exact C26_on_off_pf. Qed.
Print Assumptions C26_on_off.

Theorem C26_pieces : forall (L : Type) (tb : timeboard L) (x y z : interval L) d s,
  reachable tb -> iv_of tb x -> iv_of tb y -> iv_of tb z -> pieces x y z ->
  d = DOn \/ d = DOff \/ d = DAny -> sched_for tb s ->
  exists cx cy dx dy, iv_count x d (Some s) = Ok cx /\ iv_count y d (Some s) = Ok cy
    /\ iv_count z d (Some s) = Ok (cx + cy)
    /\ total_duration tb x d (Some s) = Ok dx /\ total_duration tb y d (Some s) = Ok dy
    /\ total_duration tb z d (Some s) = Ok (dx + dy).
Proof. exact C26_pieces_pf. Qed.
Print Assumptions C26_pieces.

Example C26_ex :
  pieces (wk 2 5) (wk 6 9) (wk 2 9)
  /\ iv_count (wk 2 5) DOn (Some week_full) = Ok 2 /\ iv_count (wk 6 9) DOn (Some week_full) = Ok 1
  /\ iv_count (wk 2 9) DOn (Some week_full) = Ok 3
  /\ total_duration week_tb (wk 2 9) DOff None = Ok 4.
Proof. split; [repeat split|]. vm_compute. repeat split. Qed.

(** C27. *)
Theorem C27_overlap : forall (L : Type) (tb : timeboard L) (x y : interval L) s,
  reachable tb -> iv_of tb x -> iv_of tb y -> (forall s', s = Some s' -> sched_for tb s') ->
  exists z, iv_overlap tb x y s = Ok z /\ iv_of tb z /\ iv_sched z = sched_arg s (iv_sched x)
    /\ (forall i, iv_mem z i <-> iv_mem x i /\ iv_mem y i)
    /\ (iv_void z = true <-> forall i, ~ (iv_mem x i /\ iv_mem y i))
    /\ (iv_void z = true -> iv_length z = 0
        /\ forall d s2, iv_count z d s2 = Ok 0 /\ iv_workshifts tb z d s2 = Ok []).
Proof. exact C27_overlap_pf. Qed.
Print Assumptions C27_overlap.

Theorem C27_algebra : forall (L : Type) (tb : timeboard L) (x y w : interval L) s,
  reachable tb -> iv_of tb x -> iv_of tb y -> iv_of tb w -> (forall s', s = Some s' -> sched_for tb s') ->
  (exists z z', iv_overlap tb x y s = Ok z /\ iv_overlap tb y x s = Ok z' /\ forall i, iv_mem z i <-> iv_mem z' i)
  /\ (exists z, iv_overlap tb x x s = Ok z /\ forall i, iv_mem z i <-> iv_mem x i)
  /\ (exists z z', (do v <- iv_overlap tb x y s; iv_overlap tb v w s) = Ok z
        /\ (do v <- iv_overlap tb y w s; iv_overlap tb x v s) = Ok z' /\ forall i, iv_mem z i <-> iv_mem z' i).
Proof. exact C27_algebra_pf. Qed.
Print Assumptions C27_algebra.

Example C27_ex :
  rmap (fun z => (iv_a z, iv_b z, iv_void z)) (iv_overlap week_tb (wk 2 9) (wk 7 12) None) = Ok (7, 9, false)
  /\ rmap (fun z => (iv_a z, iv_b z, iv_void z)) (iv_overlap week_tb (wk 2 5) (wk 7 12) None) = Ok (7, 5, true)
  /\ iv_of week_tb (mkIvl 7 5 true week_full).
Proof.
  split; [vm_compute; reflexivity|]. split; [vm_compute; reflexivity|].
  split; [exact week_full_for|]. vm_compute. repeat split; congruence.
Qed.

(** C28. *)
Theorem C28_portion : forall (L : Type) (tb : timeboard L) (x y : interval L) d s,
  reachable tb -> iv_of tb x -> iv_of tb y -> d = DOn \/ d = DOff \/ d = DAny ->
  (forall s', s = Some s' -> sched_for tb s') ->
  let s' := sched_arg s (iv_sched x) in
  exists q z cz cy, what_portion_of tb x y d s = Ok q
    /\ iv_overlap tb x y s = Ok z /\ iv_count z d (Some s') = Ok cz /\ iv_count y d (Some s') = Ok cy
    /\ (q * inject_Z cy == inject_Z cz)%Q /\ (0 <= q <= 1)%Q /\ ((q == 0)%Q <-> cz = 0)
    /\ (iv_includes x y -> cy <> 0 -> (q == 1)%Q).
Proof. exact C28_portion_pf. Qed.
Print Assumptions C28_portion.

Theorem C28_pieces : forall (L : Type) (tb : timeboard L) (x1 x2 x y : interval L) d s,
  reachable tb -> iv_of tb x1 -> iv_of tb x2 -> iv_of tb x -> iv_of tb y -> pieces x1 x2 x ->
  d = DOn \/ d = DOff \/ d = DAny -> sched_for tb s ->
  exists q1 q2 q, what_portion_of tb x1 y d (Some s) = Ok q1 /\ what_portion_of tb x2 y d (Some s) = Ok q2
    /\ what_portion_of tb x y d (Some s) = Ok q /\ (q == q1 + q2)%Q.
Proof. exact C28_pieces_pf. Qed.
Print Assumptions C28_pieces.

Example C28_ex :
  what_portion_of week_tb (wk 2 5) (wk 2 9) DOn None = Ok (2 # 4)%Q
  /\ what_portion_of week_tb (wk 1 3) (wk 1 9) DOn None = Ok 0%Q
  /\ what_portion_of week_tb (wk 1 3) (wk 8 9) DOn None = Ok 0%Q
  /\ iv_includes (wk 2 9) (wk 3 4)
  /\ what_portion_of week_tb (wk 2 9) (wk 3 4) DOn None = Ok 1%Q.
Proof.
  split; [vm_compute; reflexivity|]. split; [vm_compute; reflexivity|]. split; [vm_compute; reflexivity|].
  split; [|vm_compute; reflexivity].
  intros i (_ & H & H'). split; [reflexivity|]. cbn in *. split; eapply Z.le_trans; try eassumption; discriminate.
Qed.

(** C31. *)
Theorem C31_duration : forall (L : Type) (tb : timeboard L) (iv : interval L) d s,
  reachable tb -> iv_of tb iv -> d = DOn \/ d = DOff \/ d = DAny -> (forall s', s = Some s' -> sched_for tb s') ->
  exists ws ds, iv_workshifts tb iv d s = Ok ws
    /\ Forall2 (fun w n => ws_duration (tb_tl tb) (ws_loc w) = Ok n) ws ds
    /\ total_duration tb iv d s = Ok (z_total ds).
Proof. exact C31_duration_pf. Qed.
Print Assumptions C31_duration.

Theorem C31_worktime : forall (L : Type) (tb : timeboard L) (iv : interval L) d s,
  reachable tb -> iv_of tb iv -> d = DOn \/ d = DOff \/ d = DAny -> (forall s', s = Some s' -> sched_for tb s') ->
  numeric tb ->
  exists ws qs q, iv_workshifts tb iv DAny s = Ok ws
    /\ Forall2 (fun w x => ws_worktime tb w d s = Ok x) ws qs
    /\ iv_worktime tb iv d s = Ok q /\ (q == q_total qs)%Q.
Proof. exact C31_worktime_pf. Qed.
Print Assumptions C31_worktime.

(** What worktime() is of workshifts and intervals when it is taken from the labels, and the
    refusal of labels that are not numbers. *)
Theorem C31_labels : forall (L : Type) (tb : timeboard L) (iv : interval L) d s,
  reachable tb -> iv_of tb iv -> d = DOn \/ d = DOff \/ d = DAny -> (forall s', s = Some s' -> sched_for tb s') ->
  tb_wt tb = WLabels ->
  exists ws, iv_workshifts tb iv d s = Ok ws
    /\ (forall qs, Forall2 (fun w q => tb_num tb (ws_label w) = Some q) ws qs ->
        exists q, iv_worktime tb iv d s = Ok q /\ (q == q_total qs)%Q)
    /\ ((exists w, In w ws /\ tb_num tb (ws_label w) = None) -> iv_worktime tb iv d s = Err EType).
Proof. exact C31_labels_pf. Qed.
Print Assumptions C31_labels.

Theorem C31_workshift : forall (L : Type) (tb : timeboard L) (w : workshift L) d s,
  reachable tb -> ws_of tb w -> d = DOn \/ d = DOff \/ d = DAny ->
  let s' := sched_arg s (ws_sched w) in
  (has_duty tb s' d (ws_loc w) = false -> ws_worktime tb w d s = Ok 0%Q)
  /\ (has_duty tb s' d (ws_loc w) = true -> tb_wt tb = WDuration ->
      exists n, ws_duration (tb_tl tb) (ws_loc w) = Ok n /\ ws_worktime tb w d s = Ok (inject_Z n))
  /\ (forall q, has_duty tb s' d (ws_loc w) = true -> tb_wt tb = WLabels -> tb_num tb (ws_label w) = Some q ->
      ws_worktime tb w d s = Ok q)
  /\ (has_duty tb s' d (ws_loc w) = true -> tb_wt tb = WLabels -> tb_num tb (ws_label w) = None ->
      ws_worktime tb w d s = Err EType).
Proof. exact C31_workshift_pf. Qed.
Print Assumptions C31_workshift.

Example C31_ex :
  numeric week_tb /\ iv_worktime week_tb (wk 2 9) DOn None = Ok 31%Q
  /\ rmap (map (@ws_loc Z)) (iv_workshifts week_tb (wk 2 9) DAny None) = Ok [2; 3; 4; 5; 6; 7; 8; 9]
  /\ ws_worktime week_tb (mkWs 7 7 (tb_default week_tb)) DOn None = Ok 7%Q
  /\ ws_worktime week_tb (mkWs 7 7 (tb_default week_tb)) DOff None = Ok 0%Q
  /\ total_duration shift_tb (mkIvl 0 27 false (tb_default shift_tb)) DOn None = Ok 66.
Proof. split; [intros i x _ _; exists (inject_Z x); reflexivity|]. vm_compute. repeat split. Qed.

(** The same week when only the labels 0 and 7 are numbers. *)
Definition odd_labels_args : tb_args Z :=
  mkArgs (fq AlD) (at_hour 2016 12 30 12) (day 2017 1 15) week_layout [(at_hour 2017 1 2 15, 0)] pos_sel 1 false (-1) WLabels
         (fun x => if (x =? 0) || (x =? 7) then Some (inject_Z x) else None).
Definition odd_labels_tb : timeboard Z := the_tb odd_labels_args.
Example C31_labels_ex :
  build odd_labels_args [] = Ok (odd_labels_tb, []) /\ tb_wt odd_labels_tb = WLabels
  /\ iv_worktime odd_labels_tb (mkIvl 2 9 false (tb_default odd_labels_tb)) DOn None = Err EType
  /\ iv_worktime odd_labels_tb (mkIvl 2 9 false (tb_default odd_labels_tb)) DOff None = Ok 0%Q
  /\ ws_worktime odd_labels_tb (mkWs 6 8 (tb_default odd_labels_tb)) DOn None = Err EType.
Proof. vm_compute. repeat split. Qed.
