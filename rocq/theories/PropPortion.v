(** Parts of intervals in calendar periods: C83. *)
From Verif Require Import Base Civil Freq Frame Timeline Board Spec SpecRoll SpecLookup SpecQuery SpecInterval SpecReport Samples IntervalProofs ReportProofs PortionProofs.
From Coq Require Import QArith Lia.
Open Scope Z_scope.

(** C83.  The workshifts of an interval counted by periods: the counts of its overlaps with the intervals of
    periods that cover it add up to its own count. *)
Theorem C83_parts : forall L (tb : timeboard L) iv f o n d s, reachable tb -> iv_of tb iv ->
  (forall i, iv_mem iv i -> exists p, In p (successive f o n) /\ in_period tb p i) ->
  d = DOn \/ d = DOff \/ d = DAny -> sched_for tb s ->
  exists xs, Forall2 (reported tb 0 (fun v => do z <- iv_overlap tb iv v None; iv_count z d (Some s))) (successive f o n) xs
    /\ iv_count iv d (Some s) = Ok (z_total xs).
Proof. exact C83_parts_pf. Qed.
Print Assumptions C83_parts.
(** count_periods is the sum of the portions that the interval has of the intervals of the periods. *)
Theorem C83_count : forall L (tb : timeboard L) iv fs d s q, reachable tb -> iv_of tb iv -> d = DOn \/ d = DOff \/ d = DAny -> sched_for tb s -> countable fs ->
  count_periods tb iv fs d (Some s) = Ok q ->
  exists o0 o1 xs, touches tb iv (fbase (to_freq fs)) o0 o1
    /\ Forall2 (reported tb 0%Q (fun v => what_portion_of tb iv v d (Some s))) (successive (to_freq fs) o0 (Z.to_nat (o1 + 1 - o0))) xs
    /\ (q == q_total xs)%Q.
Proof. exact C83_count_pf. Qed.
Print Assumptions C83_count.
(** And the portions that the periods have of an interval which holds their workshifts add up to one. *)
Theorem C83_shares : forall L (tb : timeboard L) iv f o n d s c, reachable tb -> iv_of tb iv -> made_of tb iv (successive f o n) ->
  d = DOn \/ d = DOff \/ d = DAny -> sched_for tb s -> iv_count iv d (Some s) = Ok c -> c <> 0 ->
  exists xs, Forall2 (reported tb 0%Q (fun v => what_portion_of tb v iv d (Some s))) (successive f o n) xs /\ (q_total xs == 1)%Q.
Proof. exact C83_shares_pf. Qed.
Print Assumptions C83_shares.

Definition po_weeks : list period := successive (to_freq (fq (AlW None))) 2451 3.
Definition po_iv (a b : Z) : interval Z := mkIvl a b false (tb_default week_tb).
Definition by_weeks {A : Type} (q : interval Z -> res A) : list (res A) :=
  map (fun p => do v <- get_interval week_tb (RPeriod p) None None true C11 None; q v) po_weeks.
Lemma po_len : tb_len week_tb = 17.
Proof. vm_compute. reflexivity. Qed.
Lemma po_of a b : 0 <= a -> a <= b -> b <= 16 -> iv_of week_tb (po_iv a b).
Proof. intros H0 H1 H2. split; [exact week_default_for|]. unfold is_shift. rewrite po_len. cbn [po_iv iv_a iv_b iv_void]. lia. Qed.
Lemma po_made : made_of week_tb (po_iv 0 16) po_weeks.
Proof.
  destruct (C82_whole_pf Z week_tb (to_freq (fq (AlW None))) 2451 3 None week_reachable) as (iv & E & H); [vm_compute; discriminate|vm_compute; reflexivity|].
  rewrite (C20_whole_pf Z week_tb week_reachable true None) in E. apply (f_equal (fun r => match r with Ok v => v | Err _ => iv end)) in E. cbv beta iota in E. rewrite <- E, po_len in H. exact H.
Qed.
(** From Sat 31 Dec to Mon 9 Jan: none, four and one working days of three weeks. *)
Example C83_parts_ex :
  iv_of week_tb (po_iv 1 10) /\ (forall i, iv_mem (po_iv 1 10) i -> exists p, In p po_weeks /\ in_period week_tb p i)
  /\ by_weeks (fun v => do z <- iv_overlap week_tb (po_iv 1 10) v None; iv_count z DOn None) = [Ok 0; Ok 4; Ok 1]
  /\ iv_count (po_iv 1 10) DOn None = Ok 5.
Proof.
  split; [apply po_of; lia|]. split; [|vm_compute; repeat split].
  intros i (_ & H). apply po_made. split; [reflexivity|]. cbn [po_iv iv_a iv_b] in *. lia.
Qed.
(** All four working days of a week and two of the five of the next. *)
Example C83_count_ex :
  countable (fq (AlW None)) /\ count_periods week_tb (po_iv 4 11) (fq (AlW None)) DOn None = Ok (28 # 20)%Q
  /\ by_weeks (fun v => what_portion_of week_tb (po_iv 4 11) v DOn None) = [Ok 0; Ok (4 # 4); Ok (2 # 5)]%Q.
Proof. split; [split; [reflexivity|cbn; auto 10]|]. vm_compute. repeat split. Qed.
Example C83_shares_ex :
  made_of week_tb (po_iv 0 16) po_weeks /\ iv_count (po_iv 0 16) DOn None = Ok 10
  /\ by_weeks (fun v => what_portion_of week_tb v (po_iv 0 16) DOn None) = [Ok (1 # 10); Ok (4 # 10); Ok (5 # 10)]%Q.
Proof. split; [exact po_made|]. vm_compute. repeat split. Qed.
