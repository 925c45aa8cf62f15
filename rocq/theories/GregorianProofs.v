(** Proofs about the calendar itself (C45). *)
From Verif Require Import Base BaseProofs Civil CivilProofs Freq FreqProofs SpecLookup SpecCivil.
From Coq Require Import ZifyBool ZifyNat.
Open Scope Z_scope.
Ltac Zify.zify_post_hook ::= Z.div_mod_to_equations.

Lemma leap_ok y : leap_year y <-> leap (y - 2000) = true.
Proof. unfold leap_year, leap. rewrite orb_true_iff, andb_true_iff, negb_true_iff. lia. Qed.
Lemma month_len_ok y m n : 1 <= m <= 12 -> (days_in y m n <-> n = month_start (12 * (y - 1970) + (m - 1) + 1) - month_start (12 * (y - 1970) + (m - 1))).
Proof.
  intros Hm. unfold month_start. set (k := 12 * (y - 1970) + (m - 1)). pose proof (month_start2000_step (k - 360)) as H. cbv zeta in H.
  replace ((k - 360) mod 12) with (m - 1) in H by (unfold k; lia). replace ((k - 360) / 12) with (y - 2000) in H by (unfold k; lia).
  replace (month_start2000 (k + 1 - 360) + 10957 - (month_start2000 (k - 360) + 10957)) with (month_start2000 (k - 360 + 1) - month_start2000 (k - 360)) by (replace (k + 1 - 360) with (k - 360 + 1) by lia; lia).
  rewrite H. clear H. unfold days_in. rewrite leap_ok. cbn [In].
  assert (Hc : m = 1 \/ m = 2 \/ m = 3 \/ m = 4 \/ m = 5 \/ m = 6 \/ m = 7 \/ m = 8 \/ m = 9 \/ m = 10 \/ m = 11 \/ m = 12) by lia.
  destruct (leap (y - 2000)); repeat (destruct Hc as [->|Hc]; [cbn; lia|]); subst m; cbn; lia.
Qed.
Lemma date_k y m d : date y m d = month_start (12 * (y - 1970) + (m - 1)) + (d - 1).
Proof. unfold date. f_equal. f_equal. lia. Qed.
Lemma valid_m y m d : valid_date y m d -> 1 <= m <= 12.
Proof. intros (n & H & _). unfold days_in in H. cbn [In] in H. lia. Qed.
Lemma valid_iff y m d : 1 <= m <= 12 -> (valid_date y m d <-> month_start (12 * (y - 1970) + (m - 1)) <= date y m d < month_start (12 * (y - 1970) + (m - 1) + 1)).
Proof.
  intros Hm. rewrite date_k. set (k := 12 * (y - 1970) + (m - 1)). split.
  - intros (n & H & Hd). apply (month_len_ok y m n Hm) in H. fold k in H. lia.
  - intros H. exists (month_start (k + 1) - month_start k). split; [apply (month_len_ok y m _ Hm); reflexivity|lia].
Qed.
Lemma month_of_unique k d : month_start k <= d < month_start (k + 1) -> month_of_day d = k.
Proof.
  intros H. pose proof (month_of_day_spec d) as H1. destruct (Z_lt_le_dec (month_of_day d) k) as [C|C].
  - assert (month_start (month_of_day d + 1) <= month_start k) by (apply (proj1 (month_start_le_iff _ _)); lia). lia.
  - destruct (Z_lt_le_dec k (month_of_day d)) as [D|D]; [|lia]. assert (month_start (k + 1) <= month_start (month_of_day d)) by (apply (proj1 (month_start_le_iff _ _)); lia). lia.
Qed.

Lemma C45_dates_pf :
  date 1970 1 1 = 0
  /\ (forall y m d y' m' d', valid_date y m d -> next_date y m d y' m' d' -> valid_date y' m' d' /\ date y' m' d' = date y m d + 1)
  /\ (forall n, valid_date (year_of n) (month_num n) (mday_of n) /\ date (year_of n) (month_num n) (mday_of n) = n)
  /\ (forall y m d, valid_date y m d -> year_of (date y m d) = y /\ month_num (date y m d) = m /\ mday_of (date y m d) = d)
  /\ weekday (date 1970 1 1) = 3 /\ (forall n, 0 <= weekday n <= 6 /\ weekday (n + 1) = if weekday n =? 6 then 0 else weekday n + 1).
Proof.
  split; [reflexivity|]. split; [|split; [|split; [|split; [reflexivity|]]]].
  - intros y m d y' m' d' Hv Hn. pose proof (valid_m y m d Hv) as Hm. destruct Hn as [(H & -> & -> & ->)|[(H & Hm' & -> & -> & ->)|(H & -> & -> & -> & ->)]].
    + split; [exact H|]. rewrite !date_k. lia.
    + rewrite (valid_iff y m) in H, Hv by lia. rewrite !date_k in *. replace (m + 1 - 1) with (m - 1 + 1) by lia. rewrite Z.add_assoc.
      split; [|lia]. rewrite (valid_iff y (m + 1)) by lia. rewrite date_k. replace (12 * (y - 1970) + (m + 1 - 1)) with (12 * (y - 1970) + (m - 1) + 1) by lia.
      pose proof (month_start_lt (12 * (y - 1970) + (m - 1) + 1)). lia.
    + rewrite (valid_iff y 12) in H, Hv by lia. rewrite !date_k in *. replace (12 * (y + 1 - 1970) + (1 - 1)) with (12 * (y - 1970) + (12 - 1) + 1) by lia.
      split; [|lia]. rewrite (valid_iff (y + 1) 1) by lia. rewrite date_k. replace (12 * (y + 1 - 1970) + (1 - 1)) with (12 * (y - 1970) + (12 - 1) + 1) by lia.
      pose proof (month_start_lt (12 * (y - 1970) + (12 - 1) + 1)). lia.
  - intros n. pose proof (month_of_day_spec n) as H. unfold year_of, month_num, mday_of. set (k := month_of_day n) in *.
    assert (Hk : 12 * (1970 + k / 12 - 1970) + (k mod 12 + 1 - 1) = k) by lia.
    assert (E : date (1970 + k / 12) (k mod 12 + 1) (n - month_start k + 1) = n) by (rewrite date_k, Hk; lia).
    split; [|exact E]. rewrite valid_iff by lia. rewrite E, Hk. exact H.
  - intros y m d Hv. pose proof (valid_m y m d Hv) as Hm. rewrite (valid_iff y m d Hm) in Hv. pose proof (month_of_unique _ _ Hv) as E.
    unfold year_of, month_num, mday_of. rewrite E. rewrite date_k. lia.
  - intros n. unfold weekday. destruct ((n + 3) mod 7 =? 6) eqn:E; lia.
Qed.

Lemma first_month k : first_of_month 1970 k (month_start k * NS_DAY).
Proof. unfold first_of_month. rewrite date_k. replace (12 * (1970 + k / 12 - 1970) + (k mod 12 + 1 - 1)) with k by lia. unfold NS_DAY. lia. Qed.
Lemma C45_units_pf : forall b, proper b ->
  (forall o, unit_means b o (pstart b o) (pstart b (o + 1)))
  /\ (forall t, exists o, in_cal_unit b o t /\ forall o', in_cal_unit b o' t -> o' = o).
Proof.
  intros b Hb. split.
  - intros o. destruct b as [| | | |w| |m|m| | |]; cbn [unit_means pstart]; unfold NS_MICRO, NS_MILLI, NS_SEC, NS_MIN, NS_HOUR in *; try (split; unfold NS_DAY; lia).
    + exists (7 * o + (w - 2)). cbn [proper] in Hb. unfold NS_DAY. split; [lia|]. split; [unfold weekday|]; lia.
    + split; apply first_month.
    + exists (3 * o + (m - 12)). split; [apply first_month|]. replace (3 * (o + 1) + (m - 12)) with (3 * o + (m - 12) + 3) by lia. split; [apply first_month|]. lia.
    + exists (12 * o + (m - 12)). split; [apply first_month|]. replace (12 * (o + 1) + (m - 12)) with (12 * o + (m - 12) + 12) by lia. split; [apply first_month|]. lia.
  - intros t. exists (pord b t). unfold in_cal_unit. split; [apply pord_spec|]. intros o' H. apply pord_iff in H. congruence.
Qed.
