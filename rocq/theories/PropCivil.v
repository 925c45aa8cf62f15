(** The calendar that the other theorems refer to: C45; offsets: C46. *)
From Verif Require Import Base Civil Freq Frame When Timeline Board SpecLookup SpecCivil SpecWhen Samples GregorianProofs PeriodProofs WhenProofs.
Open Scope Z_scope.

(** Day numbers, dates and weekdays follow the Gregorian rules, without limit. *)
Theorem C45_dates :
  date 1970 1 1 = 0
  /\ (forall y m d y' m' d', valid_date y m d -> next_date y m d y' m' d' -> valid_date y' m' d' /\ date y' m' d' = date y m d + 1)
  /\ (forall n, valid_date (year_of n) (month_num n) (mday_of n) /\ date (year_of n) (month_num n) (mday_of n) = n)
  /\ (forall y m d, valid_date y m d -> year_of (date y m d) = y /\ month_num (date y m d) = m /\ mday_of (date y m d) = d)
  /\ weekday (date 1970 1 1) = 3 /\ (forall n, 0 <= weekday n <= 6 /\ weekday (n + 1) = if weekday n =? 6 then 0 else weekday n + 1).
Proof. exact C45_dates_pf. Qed.
Print Assumptions C45_dates.
Example C45_dates_ex :
  valid_date 2000 2 29 /\ ~ valid_date 1900 2 29 /\ next_date 1900 2 28 1900 3 1 /\ next_date 1999 12 31 2000 1 1
  /\ date 1900 3 1 = date 1900 2 28 + 1 /\ (year_of (-25508), month_num (-25508), mday_of (-25508)) = (1900, 3, 1)
  /\ weekday (date 2026 11 16) = 0.
Proof.
  assert (H : ~ valid_date 1900 2 29).
  { intros (n & [[H _]|[[H _]|[(_ & [[_ H]|H] & _)|(_ & _ & ->)]]] & A & B); [cbn [In] in H; repeat (destruct H as [H|H]; [discriminate|]); exact H..| | |].
    - apply H. reflexivity.
    - discriminate H.
    - apply B. reflexivity. }
  split; [exists 29; split; [right; right; left; split; [reflexivity|]; split; [right; reflexivity|reflexivity]|vm_compute; split; discriminate]|].
  split; [exact H|]. split; [right; left; split; [exact H|]; repeat split|]. split; [|vm_compute; repeat split].
  right. right. split; [|repeat split]. intros (n & [[_ ->]|[[C _]|[[C _]|[C _]]]] & A & B); [apply B; reflexivity|cbn [In] in C; repeat (destruct C as [C|C]; [discriminate|]); exact C|discriminate C|discriminate C].
Qed.

(** Every instant is in exactly one unit of each frequency, and the units are what their names
    say. *)
Theorem C45_units : forall b, proper b ->
  (forall o, unit_means b o (pstart b o) (pstart b (o + 1)))
  /\ (forall t, exists o, in_cal_unit b o t /\ forall o', in_cal_unit b o' t -> o' = o).
Proof. exact C45_units_pf. Qed.
Print Assumptions C45_units.
Example C45_units_ex :
  proper (alias_base (AlW None)) /\ alias_base (AlW None) = BW 6 /\ pstart (BW 6) 2451 = day 2016 12 26
  /\ alias_base (AlQ (Some 1)) = BQ 1 /\ pstart (BQ 1) (pord (BQ 1) (day 2017 1 15)) = day 2016 11 1
  /\ pstart (BA 3) (pord (BA 3) (day 2017 1 15)) = day 2016 4 1
  /\ pstart BM (pord BM (day 2016 2 29)) = day 2016 2 1.
Proof. vm_compute. repeat split; discriminate. Qed.

(** The periods of a frequency string, with its number and default anchors. *)
Theorem C45_periods : forall s, proper_name s ->
  (forall o, period_named s (p_start (mkPeriod (to_freq s) o)) (p_end (mkPeriod (to_freq s) o) + 1))
  /\ (forall t t', period_named s t t' -> exists o, t = p_start (mkPeriod (to_freq s) o) /\ t' = p_end (mkPeriod (to_freq s) o) + 1).
Proof. exact C45_periods_pf. Qed.
Print Assumptions C45_periods.
Example C45_periods_ex :
  proper_name (fq (AlW None)) /\ proper_name (fqn 3 (AlQ (Some 1)))
  /\ period_named (fqn 2 (AlA None)) (day 2016 1 1) (day 2018 1 1)
  /\ p_start (mkPeriod (to_freq (fq AlY)) 47) = day 2017 1 1 /\ p_end (mkPeriod (to_freq (fq AlY)) 47) + 1 = day 2018 1 1.
Proof.
  split; [exact I|]. split; [exact I|]. split; [|vm_compute; split; reflexivity].
  exists 552. vm_compute. repeat split.
Qed.

(** Milliseconds, and strings of several parts: '1H30T' names periods of 90 minutes that begin with
    any minute, '23H60T' days. *)
Theorem C45_sum : forall s k rest t t', falias s = AlMore k rest -> period_named s t t' ->
  t' - t = times s * tick_len k + parts_len rest.
Proof. exact C45_sum_pf. Qed.
Print Assumptions C45_sum.
Example C45_parts_ex :
  to_freq (fqn 1 (AlMore KH [(30%positive, KT)])) = mkFreq BT 90
  /\ to_freq (fqn 23 (AlMore KH [(60%positive, KMin)])) = mkFreq BD 1
  /\ to_freq (fqn 1 (AlMore KS [(1%positive, KMs); (5%positive, KL)])) = mkFreq BL 1006
  /\ p_start (mkPeriod (to_freq (fq AlMs)) 3) = 3000000
  /\ adds_up [(1, 3600000000000); (30, 60000000000)] 90 60000000000
  /\ period_named (fqn 1 (AlMore KH [(30%positive, KT)])) (at_hour 2017 1 1 1 + 60000000000) (at_hour 2017 1 1 2 + 31 * 60000000000).
Proof.
  assert (Ha : adds_up [(1, 3600000000000); (30, 60000000000)] 90 60000000000).
  { apply (add_other [(1, 3600000000000)] 1 3600000000000 30 60000000000 90 60000000000); [apply add_first|discriminate| |reflexivity].
    split; [right; right; left; reflexivity|]. split; [exists 90; reflexivity|].
    intros v [<-|[<-|[<-|[<-|[<-|[<-|[<-|[]]]]]]]] Hd; try (vm_compute; congruence); apply Z.mod_divide in Hd; try discriminate; vm_compute in Hd; discriminate. }
  do 4 (split; [vm_compute; reflexivity|]). split; [exact Ha|].
  exists 90, 60000000000, (17167 * 1440 + 61). split; [exact Ha|]. vm_compute. split; reflexivity.
Qed.

(** The length of a period, which limits the look-back for marks, is taken in July 2016. *)
Theorem C45_length : forall s n, proper_name s -> (length_in_2016 s n <-> get_freq_delta (to_freq s) = n).
Proof. exact C45_length_pf. Qed.
Print Assumptions C45_length.
Example C45_length_ex :
  length_in_2016 (fq AlM) (31 * NS_DAY) /\ length_in_2016 (fqn 2 AlM) (62 * NS_DAY) /\ length_in_2016 (fq AlY) (366 * NS_DAY).
Proof. repeat split; apply C45_length_pf; try exact I; vm_compute; reflexivity. Qed.

(** C46. *)
Theorem C46_offset : forall o t t', usable o -> (offset_means o t t' <-> add_offset o t = t').
Proof. exact C46_offset_pf. Qed.
Print Assumptions C46_offset.
Example C46_offset_ex :
  add_offset (DKw 0 1 0 0 0 30 0) (at_hour 2017 1 31 10) = at_hour 2017 2 28 10 + 30 * NS_MIN
  /\ offset_means (DKw 1 0 0 1 0 0 0) (day 2016 2 29) (day 2017 3 1)
  /\ offset_means DNone (day 2016 2 29) (day 2016 3 1).
Proof. split; [vm_compute; reflexivity|]. split; apply C46_offset_pf; try exact I; vm_compute; reflexivity. Qed.
(** Day 31 and hour 9 of the month after; the last Friday of the month; Wednesday of the week after
    next, or the same day if it is a Wednesday. *)
Example C46_absolute_ex :
  let o1 := DSet (mkAbs None None (Some 31) (Some 9) None None None) 0 1 0 0 0 0 0 in
  let o2 := DSet (mkAbs None None (Some 31) None None None (Some (4, -1))) 0 0 0 0 0 0 0 in
  let o3 := DSet (mkAbs None None None None None None (Some (2, 0))) 0 0 1 0 0 0 0 in
  usable o1 /\ usable o2 /\ usable o3
  /\ offset_means o1 (at_hour 2017 1 20 10) (at_hour 2017 2 28 9)
  /\ offset_means o2 (at_hour 2017 2 1 10) (at_hour 2017 2 24 10)
  /\ offset_means o3 (day 2017 2 2) (day 2017 2 15) /\ offset_means o3 (day 2017 2 1) (day 2017 2 8).
Proof.
  intros o1 o2 o3.
  assert (U : usable o1 /\ usable o2 /\ usable o3) by (unfold usable, within; cbn; repeat split; intros; try discriminate; congruence || lia || (match goal with H : Some _ = Some _ |- _ => injection H as ?; lia end)).
  destruct U as (U1 & U2 & U3). split; [exact U1|]. split; [exact U2|]. split; [exact U3|].
  split; [apply C46_offset_pf; [exact U1|vm_compute; reflexivity]|]. split; [apply C46_offset_pf; [exact U2|vm_compute; reflexivity]|].
  split; apply C46_offset_pf; try exact U3; vm_compute; reflexivity.
Qed.

Theorem C46_refused : forall o e pi norm, unusable o e ->
  from_start_of_each o pi norm = Err e /\ forall orthodox, from_easter orthodox o pi norm = Err e.
Proof. exact C46_refused_pf. Qed.
Print Assumptions C46_refused.
Example C46_refused_ex :
  unusable (DSet (mkAbs None None None (Some 24) None None None) 0 0 0 0 0 0 0) EValue
  /\ unusable (DSet (mkAbs None (Some 13) None None None None None) 0 24 0 0 0 0 0) EValue
  /\ unusable (DSet (mkAbs None None None (Some 24) None None (Some (7, 0))) 0 0 0 0 0 0 0) EIndex.
Proof.
  split; [right|split; [right|left]].
  - split; [reflexivity|]. split; [discriminate|]. right. right. left. intros H. specialize (H 24 eq_refl). lia.
  - split; [reflexivity|]. split; [discriminate|]. left. split; [intros H; specialize (H 13 eq_refl); lia|reflexivity].
  - split; [reflexivity|]. exists 7, 0. split; [reflexivity|lia].
Qed.
