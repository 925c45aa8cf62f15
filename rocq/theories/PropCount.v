(** Counting calendar periods: C29, C30. *)
From Verif Require Import Base Civil Freq Frame Timeline Board Spec SpecLookup SpecRoll SpecQuery SpecInterval Samples LookupProofs CountProofs.
From Coq Require Import QArith.
Open Scope Z_scope.

(** A longer board on the same weekly layout: Mon 28 Nov 2016 to Tue 31 Jan 2017. *)
Definition win_args : tb_args Z :=
  mkArgs (fq AlD) (day 2016 11 28) (day 2017 1 31) week_layout [] pos_sel 1 false (-1) WLabels Samples.num.
Definition win_tb : timeboard Z := the_tb win_args.
Lemma win_reachable : reachable win_tb.
Proof. apply (reach_build win_args [] win_tb []). vm_compute. reflexivity. Qed.
Definition win (a b : Z) : interval Z := mkIvl a b false (tb_default win_tb).
Lemma win_of a b : 0 <= a -> a <= b -> b < 65 -> iv_of win_tb (win a b).
Proof.
  intros Ha Hab Hb. split; [exists 1, pos_sel; vm_compute; reflexivity|]. unfold is_shift.
  replace (tb_len win_tb) with 65 by (vm_compute; reflexivity). cbn [win iv_void iv_a iv_b]. lia.
Qed.
Definition q_of (r : res Q) : option Q := match r with Ok q => Some (Qred q) | Err _ => None end.

(** C29 *)
Theorem C29_count : forall (L : Type) (tb : timeboard L) (iv : interval L) fs d s q,
  reachable tb -> iv_of tb iv -> (forall s', s = Some s' -> sched_for tb s') ->
  count_periods tb iv fs d s = Ok q ->
  exists o0 o1, touches tb iv (fbase (to_freq fs)) o0 o1
    /\ (q == q_total (map (quotient tb iv (fbase (to_freq fs)) d (sched_arg s (iv_sched iv))) (positions o0 o1)))%Q.
Proof. exact C29_count_pf. Qed.
Print Assumptions C29_count.

(** From Thu 1 Dec to Wed 14 Dec: 2 of 5, all 5, and 3 of 5 working days of three weeks. *)
Example C29_count_ex :
  iv_of win_tb (win 3 16)
  /\ q_of (count_periods win_tb (win 3 16) (fq (AlW None)) DOn None) = Some 2%Q
  /\ map Qred (map (quotient win_tb (win 3 16) (fbase (to_freq (fq (AlW None)))) DOn (tb_default win_tb)) (positions 2447 2449)) = [2 # 5; 1; 3 # 5]%Q
  /\ touches win_tb (win 3 16) (fbase (to_freq (fq (AlW None)))) 2447 2449.
Proof.
  split; [apply win_of; lia|]. split; [vm_compute; reflexivity|]. split; [vm_compute; reflexivity|].
  exists (day 2016 12 1), (day 2016 12 15 - 1). vm_compute. repeat split; congruence.
Qed.

Theorem C29_zero : forall (L : Type) (tb : timeboard L) (iv : interval L) fs d s,
  reachable tb -> iv_of tb iv -> (forall s', s = Some s' -> sched_for tb s') ->
  ivl_duty d -> countable fs ->
  iv_list tb iv d (sched_arg s (iv_sched iv)) = [] -> count_periods tb iv fs d s = Ok 0%Q.
Proof. exact C29_zero_pf. Qed.
Print Assumptions C29_zero.

Example C29_zero_ex :
  iv_list win_tb (win 5 6) DOn (tb_default win_tb) = [] /\ countable (fq AlM)
  /\ iv_of win_tb (win 5 6) /\ ivl_duty DOn.
Proof. split; [vm_compute; reflexivity|]. split; [split; [reflexivity|cbn; auto 10]|]. split; [apply win_of; lia|left; reflexivity]. Qed.

(** C30.  The full statement: an out-of-bounds error only if the period of the first or of
    the last workshift counted leaves the timeboard.  It is false ([C30_refuted]): the
    bounds of every touched calendar period matter.  [C30_errors] tells
    exactly when there is an error, and which: that of the first touched period with something
    [wrong]; [C30_partial] is the statement for an interval whose ends lie in the periods of the
    first and last workshifts counted (this includes the duty 'any' when the reference time of
    each end workshift is in the same period as the end). *)
Theorem C30_errors : forall (L : Type) (tb : timeboard L) (iv : interval L) fs d s o0 o1,
  reachable tb -> iv_of tb iv -> (forall s', s = Some s' -> sched_for tb s') ->
  ivl_duty d -> countable fs ->
  iv_list tb iv d (sched_arg s (iv_sched iv)) <> [] ->
  touches tb iv (fbase (to_freq fs)) o0 o1 ->
  forall e, count_periods tb iv fs d s = Err e
    <-> exists o, o0 <= o <= o1 /\ wrong tb fs o e /\ forall o' e', o0 <= o' < o -> ~ wrong tb fs o' e'.
Proof. exact C30_errors_pf. Qed.
Print Assumptions C30_errors.

Example C30_errors_ex :
  touches win_tb (win 2 5) (fbase (to_freq (fq AlM))) 562 563
  /\ wrong win_tb (fq AlM) 562 EPartialOutOfBounds
  /\ count_periods win_tb (win 2 5) (fq AlM) DOn None = Err EPartialOutOfBounds
  /\ count_periods win_tb (win 3 5) (fq AlH) DOn None = Err EUnacceptablePeriod
  /\ q_of (count_periods win_tb (win 3 5) (fq AlM) DOn None) = Some (1 # 11)%Q.
Proof.
  split; [exists (day 2016 11 30), (day 2016 12 4 - 1); vm_compute; repeat split; congruence|].
  split; [apply (wrong_part _ _ _ 2); [left; vm_compute; reflexivity|]; split; [vm_compute; split; congruence|];
    exists (day 2016 11 30); vm_compute; repeat split; congruence|].
  split; [vm_compute; reflexivity|]. split; vm_compute; reflexivity.
Qed.

Theorem C30_partial : forall (L : Type) (tb : timeboard L) (iv : interval L) fs d s f l e,
  reachable tb -> iv_of tb iv -> (forall s', s = Some s' -> sched_for tb s') ->
  ivl_duty d -> countable fs ->
  let b := fbase (to_freq fs) in
  let lst := iv_list tb iv d (sched_arg s (iv_sched iv)) in
  hd_error lst = Some f -> hd_error (rev lst) = Some l ->
  (exists o0 o1, touches tb iv b o0 o1 /\ ref_in tb b o0 f = true /\ ref_in tb b o1 l = true) ->
  count_periods tb iv fs d s = Err e -> oob e ->
  exists o, leaves tb b o /\ (ref_in tb b o f = true \/ ref_in tb b o l = true).
Proof. exact C30_partial_pf. Qed.
Print Assumptions C30_partial.

Example C30_partial_ex :
  let b := fbase (to_freq (fq AlM)) in
  iv_list win_tb (win 2 5) DAny (tb_default win_tb) = [2; 3; 4; 5]
  /\ ref_in win_tb b 562 2 = true /\ ref_in win_tb b 563 5 = true
  /\ count_periods win_tb (win 2 5) (fq AlM) DAny None = Err EPartialOutOfBounds.
Proof. vm_compute. repeat split. Qed.

(** Other frequencies cannot be counted at all. *)
Theorem C30_unsupported : forall (L : Type) (tb : timeboard L) (iv : interval L) fs d s,
  ~ countable fs -> count_periods tb iv fs d s = if iv_void iv then Ok 0%Q else Err EUnacceptablePeriod.
Proof. exact C30_unsupported_pf. Qed.
Print Assumptions C30_unsupported.

Example C30_unsupported_ex :
  ~ countable (fq (AlW (Some 3))) /\ ~ countable (fqn 2 AlD) /\ countable (fq AlMin)
  /\ count_periods win_tb (win 3 16) (fq (AlW (Some 3))) DOn None = Err EUnacceptablePeriod.
Proof.
  split; [intros [_ H]; cbn in H; repeat (destruct H as [H|H]; [discriminate|]); exact H|].
  split; [intros [H _]; discriminate|]. split; [split; [reflexivity|cbn; auto]|]. vm_compute. reflexivity.
Qed.

(** The days off of Wed 30 Nov .. Sat 3 Dec are just Sat 3 Dec, and December is inside the
    timeboard; but the count fails as November is not. *)
Theorem C30_refuted : exists (tb : timeboard Z) iv fs d f o,
  reachable tb /\ iv_of tb iv /\ countable fs
  /\ iv_list tb iv d (iv_sched iv) = [f]
  /\ ref_in tb (fbase (to_freq fs)) o f = true /\ ~ leaves tb (fbase (to_freq fs)) o
  /\ exists e, count_periods tb iv fs d None = Err e /\ oob e.
Proof.
  exists win_tb, (win 2 5), (fq AlM), DOff, 5, 563. split; [exact win_reachable|]. split; [apply win_of; lia|].
  split; [split; [reflexivity|cbn; auto 10]|]. split; [vm_compute; reflexivity|]. split; [vm_compute; reflexivity|].
  split; [intros [H|H]; vm_compute in H; discriminate|].
  exists EPartialOutOfBounds. split; [vm_compute; reflexivity|right; reflexivity].
Qed.
Print Assumptions C30_refuted.

(** C25: 'same', 'alt' and values that are no duty are not for intervals (see also [C25_bad_duty] in
    PropQuery).  The overlap of what_portion_of comes first. *)
Theorem C25_other_duties : forall (L : Type) (tb : timeboard L) (iv y : interval L) fs d s,
  reachable tb -> iv_of tb iv -> iv_of tb y -> iv_void iv = false -> (forall s', s = Some s' -> sched_for tb s') ->
  ~ (d = DOn \/ d = DOff \/ d = DAny) ->
  iv_first tb iv d s = Err EValue /\ iv_last tb iv d s = Err EValue /\ iv_worktime tb iv d s = Err EValue
  /\ (countable fs -> count_periods tb iv fs d s = Err EValue)
  /\ (forall i, iv_mem iv i -> iv_mem y i -> what_portion_of tb iv y d s = Err EValue)
  /\ ((forall i, ~ (iv_mem iv i /\ iv_mem y i)) -> what_portion_of tb iv y d s = Ok 0%Q).
Proof. exact C25_other_duties_pf. Qed.
Print Assumptions C25_other_duties.

Example C25_other_duties_ex :
  iv_of win_tb (win 3 16) /\ iv_of win_tb (win 10 20) /\ iv_of win_tb (win 20 25)
  /\ iv_worktime win_tb (win 3 16) DSame None = Err EValue /\ count_periods win_tb (win 3 16) (fq (AlW None)) DAlt None = Err EValue
  /\ what_portion_of win_tb (win 3 16) (win 10 20) DBad None = Err EValue
  /\ what_portion_of win_tb (win 3 16) (win 20 25) DBad None = Ok 0%Q.
Proof. split; [apply win_of; lia|]. split; [apply win_of; lia|]. split; [apply win_of; lia|]. vm_compute. repeat split. Qed.
