From Verif Require Import Base Civil.
From Coq Require Import ZifyBool.
Ltac Zify.zify_post_hook ::= Z.div_mod_to_equations.

Lemma dby_step y : days_before_year (y + 1) = days_before_year y + 365 + (if leap y then 1 else 0).
Proof.
  unfold days_before_year, leap.
  destruct ((y mod 4 =? 0) && negb (y mod 100 =? 0) || (y mod 400 =? 0)) eqn:E; lia.
Qed.

Lemma dby_period y : days_before_year (y + 400) = days_before_year y + 146097.
Proof. unfold days_before_year. lia. Qed.

Lemma leap_period y : leap (y + 400) = leap y.
Proof.
  unfold leap.
  replace ((y + 400) mod 4) with (y mod 4) by lia.
  replace ((y + 400) mod 100) with (y mod 100) by lia.
  replace ((y + 400) mod 400) with (y mod 400) by lia. reflexivity.
Qed.

Lemma month_start2000_period k : month_start2000 (k + 4800) = month_start2000 k + 146097.
Proof.
  unfold month_start2000.
  replace ((k + 4800) / 12) with (k / 12 + 400) by lia.
  replace ((k + 4800) mod 12) with (k mod 12) by lia.
  rewrite dby_period, leap_period. lia.
Qed.

Lemma month_start2000_periods k n : month_start2000 (k + 4800 * n) = month_start2000 k + 146097 * n.
Proof.
  assert (H : forall m, 0 <= m -> forall k, month_start2000 (k + 4800 * m) = month_start2000 k + 146097 * m).
  { intros m Hm. pattern m. apply natlike_ind; [| |exact Hm].
    - intros k0. replace (k0 + 4800 * 0) with k0 by lia. lia.
    - intros x Hx IH k0. replace (k0 + 4800 * Z.succ x) with ((k0 + 4800 * x) + 4800) by lia.
      rewrite month_start2000_period, IH. lia. }
  destruct (Z.le_gt_cases 0 n) as [Hn|Hn]; [apply H; exact Hn|].
  specialize (H (- n) ltac:(lia) (k + 4800 * n)).
  replace (k + 4800 * n + 4800 * - n) with k in H by lia. lia.
Qed.

(** Length of month number [m] (0..11) of year [y] (from 2000). *)
Lemma month_start2000_step k :
  let m := k mod 12 in
  month_start2000 (k + 1) - month_start2000 k =
  (if m =? 1 then (if leap (k / 12) then 29 else 28)
   else if (m =? 3) || (m =? 5) || (m =? 8) || (m =? 10) then 30 else 31).
Proof.
  intros m. unfold m, month_start2000.
  assert (Hm : 0 <= k mod 12 < 12) by lia.
  destruct (Z.eq_dec (k mod 12) 11) as [E|E].
  - replace ((k + 1) / 12) with (k / 12 + 1) by lia.
    replace ((k + 1) mod 12) with 0 by lia. rewrite E, dby_step.
    cbv [cum_days Z.leb Z.eqb Z.compare Pos.compare Pos.compare_cont Pos.eqb orb andb].
    destruct (leap (k / 12)); lia.
  - replace ((k + 1) / 12) with (k / 12) by lia.
    replace ((k + 1) mod 12) with (k mod 12 + 1) by lia.
    assert (Hc : k mod 12 = 0 \/ k mod 12 = 1 \/ k mod 12 = 2 \/ k mod 12 = 3 \/ k mod 12 = 4 \/
                 k mod 12 = 5 \/ k mod 12 = 6 \/ k mod 12 = 7 \/ k mod 12 = 8 \/ k mod 12 = 9 \/ k mod 12 = 10) by lia.
    generalize (days_before_year (k / 12)). intros D.
    destruct Hc as [H|[H|[H|[H|[H|[H|[H|[H|[H|[H|H]]]]]]]]]]; rewrite H;
    destruct (leap (k / 12)); cbn; lia.
Qed.

Lemma month_start2000_lt k : month_start2000 k < month_start2000 (k + 1).
Proof.
  pose proof (month_start2000_step k) as H. cbv zeta in H.
  destruct (k mod 12 =? 1); destruct (leap (k / 12));
  destruct ((k mod 12 =? 3) || (k mod 12 =? 5) || (k mod 12 =? 8) || (k mod 12 =? 10)); lia.
Qed.

(** Finite sweep over one 400-year era. *)
Fixpoint sweep (f : Z -> bool) (a : Z) (n : positive) : bool :=
  match n with
  | xH => f a
  | xO p => sweep f a p && sweep f (a + Zpos p) p
  | xI p => f a && sweep f (a + 1) p && sweep f (a + 1 + Zpos p) p
  end.

Lemma sweep_ok f : forall n a, sweep f a n = true -> forall x, a <= x < a + Zpos n -> f x = true.
Proof.
  induction n as [p IH|p IH|]; cbn [sweep]; intros a H x Hx.
  - apply andb_prop in H. destruct H as [H H3]. apply andb_prop in H. destruct H as [H1 H2].
    destruct (Z.eq_dec x a) as [->|Hn]; [exact H1|].
    destruct (Z.lt_ge_cases x (a + 1 + Zpos p)).
    + apply (IH _ H2). lia.
    + apply (IH _ H3). lia.
  - apply andb_prop in H. destruct H as [H1 H2].
    destruct (Z.lt_ge_cases x (a + Zpos p)).
    + apply (IH _ H1). lia.
    + apply (IH _ H2). lia.
  - replace x with a by lia. exact H.
Qed.

(** Months are never far from their average position. *)
Definition drift_ok (k : Z) : bool :=
  let x := 4800 * month_start2000 k in
  (146097 * k - 100000 <=? x) && (x <=? 146097 * k + 100000).

Lemma drift_sweep : sweep drift_ok (-1) 4803 = true.
Proof. vm_compute. reflexivity. Qed.

Lemma month_of_doe_spec d : 0 <= d < 146097 ->
  month_start2000 (month_of_doe d) <= d < month_start2000 (month_of_doe d + 1).
Proof.
  intros Hd. unfold month_of_doe. set (g := d * 4800 / 146097).
  assert (Hg : 146097 * g <= 4800 * d < 146097 * (g + 1)) by (unfold g; lia).
  assert (Hr : 0 <= g < 4800) by lia.
  pose proof (sweep_ok _ _ _ drift_sweep (g - 1) ltac:(lia)) as A1.
  pose proof (sweep_ok _ _ _ drift_sweep (g + 2) ltac:(lia)) as A2.
  unfold drift_ok in A1, A2. clearbody g.
  destruct (d <? month_start2000 g) eqn:E1.
  - replace (g - 1 + 1) with g by lia. lia.
  - destruct (month_start2000 (g + 1) <=? d) eqn:E2; [|lia].
    replace (g + 1 + 1) with (g + 2) by lia. lia.
Qed.

Lemma month_of_day2000_spec d :
  month_start2000 (month_of_day2000 d) <= d < month_start2000 (month_of_day2000 d + 1).
Proof.
  unfold month_of_day2000.
  pose proof (month_of_doe_spec (d mod 146097) ltac:(lia)) as H.
  set (m := month_of_doe (d mod 146097)) in *.
  replace (d / 146097 * 4800 + m) with (m + 4800 * (d / 146097)) by lia.
  replace (m + 4800 * (d / 146097) + 1) with ((m + 1) + 4800 * (d / 146097)) by lia.
  rewrite !month_start2000_periods.
  assert (d = 146097 * (d / 146097) + d mod 146097) by lia. lia.
Qed.

Lemma month_of_day_spec d : month_start (month_of_day d) <= d < month_start (month_of_day d + 1).
Proof.
  unfold month_start, month_of_day. pose proof (month_of_day2000_spec (d - 10957)) as H.
  set (k := month_of_day2000 (d - 10957)) in *.
  replace (k + 360 - 360) with k by lia. replace (k + 360 + 1 - 360) with (k + 1) by lia. lia.
Qed.

Lemma month_start_lt k : month_start k < month_start (k + 1).
Proof.
  unfold month_start. pose proof (month_start2000_lt (k - 360)).
  replace (k + 1 - 360) with (k - 360 + 1) by lia. lia.
Qed.
