(** Floats: C64. *)
From Verif Require Import Base Civil Freq Frame Timeline Board Spec SpecLookup SpecRoll SpecQuery SpecInterval Samples LookupProofs Rounding SpecRounding PropCount RoundingProofs.
From Coq Require Import QArith Qpower Qabs.
Open Scope Z_scope.

(** [rnd] gives the nearest double, and there is only one. *)
Theorem C64_nearest : forall q,
  (q == 0 \/ (2 # 1) ^ (-1022) <= Qabs q <= (2 # 1) ^ 1022)%Q -> nearest_double q (rnd q).
Proof. exact C64_nearest_pf. Qed.
Print Assumptions C64_nearest.

Theorem C64_unique : forall q x y, nearest_double q x -> nearest_double q y -> (x == y)%Q.
Proof. exact C64_unique_pf. Qed.
Print Assumptions C64_unique.

Example C64_nearest_ex :
  rnd (3 # 7) = (7720456504063707 # 18014398509481984)%Q
  /\ (rnd (-1 # 10) == -3602879701896397 # 36028797018963968)%Q
  /\ (rnd (9007199254740993 # 1) == 9007199254740992 # 1)%Q /\ (rnd (9007199254740995 # 1) == 9007199254740996 # 1)%Q
  /\ ((2 # 1) ^ (-1022) <= Qabs (3 # 7) <= (2 # 1) ^ 1022)%Q.
Proof. vm_compute. repeat split; discriminate. Qed.

Theorem C64_portion : forall (L : Type) (tb : timeboard L) (x y : interval L) d s,
  reachable tb -> iv_of tb x -> iv_of tb y -> d = DOn \/ d = DOff \/ d = DAny ->
  (forall s', s = Some s' -> sched_for tb s') -> tb_len tb < 2 ^ 53 ->
  exists r q, what_portion_fl tb x y d s = Ok r /\ what_portion_of tb x y d s = Ok q
    /\ nearest_double q r /\ (0 <= r <= 1)%Q /\ ((r == 0)%Q <-> (q == 0)%Q) /\ ((r == 1)%Q <-> (q == 1)%Q).
Proof. exact C64_portion_pf. Qed.
Print Assumptions C64_portion.

(** Three of seven days: 0.42857142857142855. *)
Example C64_portion_ex :
  iv_of win_tb (win 0 2) /\ iv_of win_tb (win 0 6) /\ tb_len win_tb < 2 ^ 53
  /\ what_portion_fl win_tb (win 0 2) (win 0 6) DAny None = Ok (7720456504063707 # 18014398509481984)%Q
  /\ q_of (what_portion_of win_tb (win 0 2) (win 0 6) DAny None) = Some (3 # 7)%Q
  /\ q_of (what_portion_fl win_tb (win 0 9) (win 0 6) DAny None) = Some 1%Q.
Proof. split; [apply win_of; lia|]. split; [apply win_of; lia|]. vm_compute. repeat split. Qed.

Theorem C64_halves : forall (L : Type) (tb : timeboard L) (x1 x2 y : interval L) d s c,
  reachable tb -> iv_of tb x1 -> iv_of tb x2 -> iv_of tb y -> pieces x1 x2 y ->
  d = DOn \/ d = DOff \/ d = DAny -> sched_for tb s -> iv_count y d (Some s) = Ok c -> c <> 0 ->
  exists r1 r2, what_portion_fl tb x1 y d (Some s) = Ok r1 /\ what_portion_fl tb x2 y d (Some s) = Ok r2
    /\ nearest_double (r1 + r2) 1.
Proof. exact C64_halves_pf. Qed.
Print Assumptions C64_halves.

Example C64_halves_ex :
  pieces (win 0 2) (win 3 6) (win 0 6) /\ iv_count (win 0 6) DAny (Some (tb_default win_tb)) = Ok 7
  /\ q_of (what_portion_fl win_tb (win 0 2) (win 0 6) DAny None) = Some (7720456504063707 # 18014398509481984)%Q
  /\ q_of (what_portion_fl win_tb (win 3 6) (win 0 6) DAny None) = Some (2573485501354569 # 4503599627370496)%Q.
Proof. vm_compute. repeat split. Qed.

(** Portions of two pieces of a smaller part do not add up: 1/7 + 4/7 is 0.7142857142857142,
    5/7 is 0.7142857142857143. *)
Theorem C64_pieces_refuted : exists (tb : timeboard Z) x1 x2 x y d r1 r2 r, reachable tb
  /\ iv_of tb x1 /\ iv_of tb x2 /\ iv_of tb x /\ iv_of tb y /\ pieces x1 x2 x
  /\ what_portion_fl tb x1 y d None = Ok r1 /\ what_portion_fl tb x2 y d None = Ok r2 /\ what_portion_fl tb x y d None = Ok r
  /\ ~ nearest_double (r1 + r2) r.
Proof.
  exists win_tb, (win 0 0), (win 1 4), (win 0 4), (win 0 6), DAny. eexists _, _, _. split; [exact win_reachable|].
  do 4 (split; [apply win_of; lia|]). split; [vm_compute; repeat split|].
  split; [vm_compute; reflexivity|]. split; [vm_compute; reflexivity|]. split; [vm_compute; reflexivity|].
  intros H. match type of H with nearest_double ?q _ => pose proof (C64_nearest q) as N end.
  specialize (N ltac:(right; vm_compute; split; discriminate)). pose proof (C64_unique _ _ _ N H) as E. vm_compute in E. discriminate.
Qed.
Print Assumptions C64_pieces_refuted.

Theorem C64_count : forall (L : Type) (tb : timeboard L) (iv : interval L) fs d s o0 o1,
  reachable tb -> iv_of tb iv -> (forall s', s = Some s' -> sched_for tb s') -> d = DOn \/ d = DOff \/ d = DAny ->
  tb_len tb < 2 ^ 53 -> touches tb iv (fbase (to_freq fs)) o0 o1 -> o1 - o0 < 2 ^ 53 - 2 ->
  let lst := iv_list tb iv d (sched_arg s (iv_sched iv)) in
  let quot := quotient tb iv (fbase (to_freq fs)) d (sched_arg s (iv_sched iv)) in
  match count_periods tb iv fs d s with
  | Err e => count_periods_fl tb iv fs d s = Err e
  | Ok q => exists x, count_periods_fl tb iv fs d s = Ok x
      /\ is_double x /\ within_part (2 ^ 51) q x /\ ((x == 0)%Q <-> (q == 0)%Q)
      /\ ((forall o, o0 <= o <= o1 -> (quot o == 0)%Q \/ (quot o == 1)%Q) -> (x == q)%Q)
      /\ (forall o, (forall i, In i lst -> ref_in tb (fbase (to_freq fs)) o i = true) -> nearest_double q x)
  end.
Proof. exact C64_count_pf. Qed.
Print Assumptions C64_count.

(** From Thu 1 Dec to Wed 14 Dec: 2/5 + 3/5 + 1 is 2.0.  Whole weeks: 3.0. *)
Example C64_count_ex :
  iv_of win_tb (win 3 16) /\ touches win_tb (win 3 16) (fbase (to_freq (fq (AlW None)))) 2447 2449
  /\ q_of (count_periods_fl win_tb (win 3 16) (fq (AlW None)) DOn None) = Some 2%Q
  /\ q_of (count_periods_fl win_tb (win 0 20) (fq (AlW None)) DOn None) = Some 3%Q
  /\ map Qred (map (quotient win_tb (win 0 20) (fbase (to_freq (fq (AlW None)))) DOn (tb_default win_tb)) (positions 2447 2449)) = [1; 1; 1]%Q
  /\ q_of (count_periods_fl win_tb (win 1 3) (fq (AlW None)) DAny None) = Some (7720456504063707 # 18014398509481984)%Q
  /\ count_periods_fl win_tb (win 0 20) (fq AlM) DOn None = Err EPartialOutOfBounds.
Proof.
  split; [apply win_of; lia|]. split; [|vm_compute; repeat split].
  exists (day 2016 12 1), (day 2016 12 15 - 1). vm_compute. repeat split; congruence.
Qed.

(** The sum of several quotients need not be the double nearest to the exact one: 2/7 + 3/7. *)
Theorem C64_sum_refuted : exists (tb : timeboard Z) iv fs d x q, reachable tb /\ iv_of tb iv
  /\ count_periods_fl tb iv fs d None = Ok x /\ count_periods tb iv fs d None = Ok q /\ ~ nearest_double q x.
Proof.
  exists win_tb, (win 5 9), (fq (AlW None)), DAny. eexists _, _. split; [exact win_reachable|].
  split; [apply win_of; lia|]. split; [vm_compute; reflexivity|]. split; [vm_compute; reflexivity|].
  intros (_ & H & _). specialize (H (6433713753386423 # 9007199254740992)%Q).
  assert (D : is_double (6433713753386423 # 9007199254740992)).
  { exists 6433713753386423, (-53). split; [reflexivity|]. split; [lia|reflexivity]. }
  specialize (H D). vm_compute in H. apply H. reflexivity.
Qed.
Print Assumptions C64_sum_refuted.
