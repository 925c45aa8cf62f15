(** Proofs about the preconfigured calendars, part 7: calendars for a shorter range (C40). *)
From Verif Require Import Base BaseProofs Civil CivilProofs Freq FreqProofs Frame FrameProofs Timeline Board Spec SpecLookup SpecLayout When SpecWhen Calendars SpecCal CalProofs SeekProofs HolidayProofs YearProofs LongProofs UsProofs UkProofs.
From Coq Require Import ZifyBool ZifyNat String.
Open Scope string_scope.
Open Scope Z_scope.
Ltac Zify.zify_post_hook ::= Z.div_mod_to_equations.

Lemma bounds_dec y0 y1 o : bounds_supported y0 y1 o \/ ~ bounds_supported y0 y1 o.
Proof.
  unfold bounds_supported, supported. destruct (cu_start o) as [s|], (cu_end o) as [e|].
  - assert (D : (date y0 1 1 * NS_DAY <= s <= date y1 12 31 * NS_DAY + 86399 * NS_SEC /\ date y0 1 1 * NS_DAY <= e <= date y1 12 31 * NS_DAY + 86399 * NS_SEC)
              \/ ~ (date y0 1 1 * NS_DAY <= s <= date y1 12 31 * NS_DAY + 86399 * NS_SEC /\ date y0 1 1 * NS_DAY <= e <= date y1 12 31 * NS_DAY + 86399 * NS_SEC)) by lia.
    destruct D as [[A B]|N]; [left; split; intros t [= <-]; assumption|right; intros [A B]; apply N; split; [apply A|apply B]; reflexivity].
  - assert (D : (date y0 1 1 * NS_DAY <= s <= date y1 12 31 * NS_DAY + 86399 * NS_SEC) \/ ~ (date y0 1 1 * NS_DAY <= s <= date y1 12 31 * NS_DAY + 86399 * NS_SEC)) by lia.
    destruct D as [A|N]; [left; split; [intros t [= <-]; assumption|discriminate]|right; intros [A B]; apply N, A; reflexivity].
  - assert (D : (date y0 1 1 * NS_DAY <= e <= date y1 12 31 * NS_DAY + 86399 * NS_SEC) \/ ~ (date y0 1 1 * NS_DAY <= e <= date y1 12 31 * NS_DAY + 86399 * NS_SEC)) by lia.
    destruct D as [A|N]; [left; split; [discriminate|intros t [= <-]; assumption]|right; intros [A B]; apply N, B; reflexivity].
  - left. split; discriminate.
Qed.

Lemma outcome_built y0 y1 o dup std r tb : outcome y0 y1 o dup std r -> r = Ok tb ->
  bounds_supported y0 y1 o /\ from_day y0 o <= to_day y1 o
  /\ forall t, from_day y0 o <= t / NS_DAY <= to_day y1 o -> forall x b, shows tb t x b <-> day_hours o std (t / NS_DAY) x /\ b = negb (x =? 0).
Proof.
  intros (H1 & H2 & H3 & H4) Hr. destruct (bounds_dec y0 y1 o) as [Hb|Hb]; [|rewrite (H1 Hb) in Hr; discriminate].
  destruct (Z_lt_le_dec (to_day y1 o) (from_day y0 o)) as [Hlt|Hle]; [rewrite (H2 Hb Hlt) in Hr; discriminate|].
  assert (Hd : ~ dup) by (intros D; rewrite (H3 Hb Hle D) in Hr; discriminate).
  destruct (H4 Hb Hle Hd) as (tb' & E & _ & _ & Hs). rewrite Hr in E. injection E as <-. split; [exact Hb|]. split; [exact Hle|exact Hs].
Qed.

Lemma day_hours_eq o std std' d x : (forall x, std d x <-> std' d x) -> (day_hours o std d x <-> day_hours (unbounded o) std' d x).
Proof.
  intros H. unfold day_hours. cbn [unbounded cu_no_amend cu_only cu_custom]. destruct (cu_no_amend o); [reflexivity|]. cbv zeta. destruct (cu_only o); [reflexivity|]. rewrite (H x). reflexivity.
Qed.

Lemma same_range y0 y1 o dup dup' std std' r r' tb tb' : date y0 1 1 <= date y1 12 31 ->
  outcome y0 y1 o dup std r -> outcome y0 y1 (unbounded o) dup' std' r' -> r = Ok tb -> r' = Ok tb' ->
  forall t, from_day y0 o <= t / NS_DAY <= to_day y1 o -> (forall x, std (t / NS_DAY) x <-> std' (t / NS_DAY) x) ->
  forall x b, shows tb t x b <-> shows tb' t x b.
Proof.
  intros Hy Ho Ho' Hr Hr' t Ht Hst x b. destruct (outcome_built _ _ _ _ _ _ _ Ho Hr) as (Hb & _ & Hs). destruct (outcome_built _ _ _ _ _ _ _ Ho' Hr') as (_ & _ & Hs').
  destruct (bounds_ok y0 y1 Hy o Hb) as (_ & _ & _ & _ & Hf & Hto).
  rewrite Hs by exact Ht. rewrite Hs' by (change (date y0 1 1 <= t / NS_DAY <= date y1 12 31); clear -Ht Hf Hto; revert Ht Hf Hto; generalize (t / NS_DAY) (from_day y0 o) (to_day y1 o) (date y0 1 1) (date y1 12 31); lia). rewrite (day_hours_eq o std std' _ x Hst). reflexivity.
Qed.

Lemma C40_uk_pf : forall country skip long o tb tb',
  uk_calendar country skip long o = Ok tb -> uk_calendar country skip long (unbounded o) = Ok tb' ->
  forall t, from_day 2000 o <= t / NS_DAY <= to_day 2020 o -> forall x b, shows tb t x b <-> shows tb' t x b.
Proof.
  intros c skip long o tb tb' Hr Hr' t Ht. apply (same_range 2000 2020 o _ _ _ _ _ _ tb tb' ltac:(vm_compute; discriminate) (C39_uk_pf c skip long o) (C39_uk_pf c skip long (unbounded o)) Hr Hr' t Ht).
  reflexivity.
Qed.
Lemma C40_ru_pf : forall work_on_dec31 short_eves o tb tb',
  ru_calendar work_on_dec31 short_eves o = Ok tb -> ru_calendar work_on_dec31 short_eves (unbounded o) = Ok tb' ->
  forall t, from_day 2005 o <= t / NS_DAY <= to_day 2021 o -> forall x b, shows tb t x b <-> shows tb' t x b.
Proof.
  intros w s o tb tb' Hr Hr' t Ht. apply (same_range 2005 2021 o _ _ _ _ _ _ tb tb' ltac:(vm_compute; discriminate) (C39_ru_pf w s o) (C39_ru_pf w s (unbounded o)) Hr Hr' t Ht).
  reflexivity.
Qed.

Lemma dec31_sweep : sweep (fun y => (date y 12 31 + 1 =? date (y + 1) 1 1)) 2000 21 = true.
Proof. vm_cast_no_check (eq_refl true). Qed.
Lemma year_step d : 2000 <= year_of d <= 2020 -> year_of d < year_of (d + 1) -> d = date (year_of d) 12 31.
Proof.
  intros Hy H. pose proof (year_sweep _ _ _ dec31_sweep (year_of d) ltac:(lia)) as E. cbv beta in E. apply Z.eqb_eq in E.
  pose proof (year_date (year_of d) 12 31 ltac:(lia) ltac:(lia)) as A. pose proof (year_date (year_of d + 1) 1 1 ltac:(lia) ltac:(lia)) as B.
  destruct (Z_lt_le_dec d (date (year_of d) 12 31)) as [C|C].
  - pose proof (year_mono (d + 1) (date (year_of d) 12 31) ltac:(lia)). lia.
  - destruct (Z_lt_le_dec (date (year_of d) 12 31) d) as [D|D]; [|lia].
    pose proof (year_mono (date (year_of d + 1) 1 1) d ltac:(lia)). lia.
Qed.

Lemma us_off_range Y0 Y1 skip long d : 2000 <= Y0 -> Y1 <= 2020 -> Y0 <= year_of d <= Y1 ->
  ~ (d = date (year_of d) 12 31 /\ year_of d = Y1 /\ weekday (d + 1) = 5) -> ~ (d = date 2018 12 26 /\ 2014 < Y0) ->
  (us_off Y0 Y1 skip long d <-> us_off 2000 2020 skip long d).
Proof.
  intros H0 H1 Hy Hn1 Hn2. unfold us_off.
  assert (A : weekday d = 4 -> year_of (d + 1) <= Y1).
  { intros Hw. pose proof (year_next d) as [Hn _]. destruct (Z_lt_le_dec (year_of d) (year_of (d + 1))) as [C|C]; [|lia].
    pose proof (year_step d ltac:(lia) C) as E. destruct (Z.eq_dec (year_of d) Y1) as [D|D]; [|lia]. exfalso. apply Hn1. split; [exact E|]. split; [exact D|]. unfold weekday in *. lia. }
  assert (B : d = date 2018 12 26 -> Y0 <= 2014) by (intros E; destruct (Z_lt_le_dec 2014 Y0); [exfalso; apply Hn2; split; assumption|assumption]).
  generalize dependent (date 2018 12 26). intros z _ B.
  split; (intros [X|[[L [X|(X1 & X2 & X3)]]|[X|[X|[X [Y|[Y1' Y2]]]]]]]; [left; exact X| | |right; right; left; exact X|right; right; right; left; exact X| |]).
  - right. left. split; [exact L|]. left. exact X.
  - right. left. split; [exact L|]. right. split; [exact X1|]. split; [exact X2|lia].
  - right. right. right. right. split; [exact X|]. left. exact Y.
  - right. right. right. right. split; [exact X|]. right. split; [exact Y1'|lia].
  - right. left. split; [exact L|]. left. exact X.
  - right. left. split; [exact L|]. right. split; [exact X1|]. split; [exact X2|]. apply A, X1.
  - right. right. right. right. split; [exact X|]. left. exact Y.
  - right. right. right. right. split; [exact X|]. right. split; [exact Y1'|]. apply B, Y1'.
Qed.

Lemma C40_us_partial_pf : forall skip long o tb tb',
  us_calendar skip long o = Ok tb -> us_calendar skip long (unbounded o) = Ok tb' ->
  forall t, from_day 2000 o <= t / NS_DAY <= to_day 2020 o -> ~ us_edge o (t / NS_DAY) -> forall x b, shows tb t x b <-> shows tb' t x b.
Proof.
  intros skip long o tb tb' Hr Hr' t Ht He. assert (Hy : date 2000 1 1 <= date 2020 12 31) by (vm_compute; discriminate).
  apply (same_range 2000 2020 o _ _ _ _ _ _ tb tb' Hy (C39_us_pf skip long o) (C39_us_pf skip long (unbounded o)) Hr Hr' t Ht).
  intros x. destruct (outcome_built _ _ _ _ _ _ _ (C39_us_pf skip long o) Hr) as (Hb & _). destruct (bounds_ok 2000 2020 Hy o Hb) as (_ & _ & _ & _ & Hf & Hto).
  unfold off_hours. change (from_day 2000 (unbounded o)) with (date 2000 1 1). change (to_day 2020 (unbounded o)) with (date 2020 12 31).
  change (year_of (date 2000 1 1)) with 2000. change (year_of (date 2020 12 31)) with 2020.
  unfold us_edge in He.
  assert (A : 2000 <= year_of (from_day 2000 o)) by (apply (year_window 2000 2020); [reflexivity|reflexivity|exact Hf]).
  assert (B : year_of (to_day 2020 o) <= 2020) by (apply (year_window 2000 2020); [reflexivity|reflexivity|exact Hto]).
  rewrite (us_off_range (year_of (from_day 2000 o)) (year_of (to_day 2020 o)) skip long (t / NS_DAY)); [reflexivity|exact A|exact B| | |].
  - split; apply year_mono; lia.
  - intros C. apply He. left. exact C.
  - intros C. apply He. right. exact C.
Qed.

(** Deciding [us_off] for the counterexample. *)
Definition us_offb (y0 y1 : Z) (skip : list string) (long : bool) (d : Z) : bool :=
  fixed_on us_dates skip d
  || (long && (((weekday d =? 0) && fixed_on us_dates skip (d - 1)) || ((weekday d =? 4) && fixed_on us_dates skip (d + 1) && (year_of (d + 1) <=? y1))))
  || existsb (fun s => match seek_day (year_of d) s with Some e => e =? d | None => false end) (named skip us_floating)
  || (negb (skips skip "one_off") && (d =? date 2018 12 5))
  || (negb (skips skip "xmas_additional_day") && ((d =? date 2018 12 24) || ((d =? date 2018 12 26) && (y0 <=? 2014)))).
Lemma us_offb_ok y0 y1 skip long d : us_off y0 y1 skip long d <-> us_offb y0 y1 skip long d = true.
Proof.
  unfold us_off, us_offb. rewrite !orb_true_iff, !andb_true_iff, !orb_true_iff, !andb_true_iff, !negb_true_iff, !Z.eqb_eq, !Z.leb_le.
  assert (Hsk : forall s, skips skip s = false <-> ~ In s skip) by (intros s; rewrite <- skips_iff; destruct (skips skip s); split; [discriminate|congruence|discriminate|reflexivity]).
  rewrite !Hsk.
  assert (Hw : weekday_on us_weekdays skip d <-> existsb (fun s => match seek_day (year_of d) s with Some e => e =? d | None => false end) (named skip us_floating) = true).
  { change us_weekdays with us_floating. unfold weekday_on. rewrite existsb_exists. pose proof us_valid as Hv. rewrite Forall_forall in Hv. split.
    - intros (name & s & Hin & Hno & Hs). exists s. split; [apply named_In; exists name; split; assumption|].
      apply (seek_day_ok (year_of d) s) in Hs; [rewrite Hs; apply Z.eqb_refl|]. apply Hv, in_map_iff. exists (name, s). split; [reflexivity|exact Hin].
    - intros (s & Hin & E). pose proof (named_incl _ _ _ Hin) as Hin2. apply named_In in Hin. destruct Hin as (name & Hin & Hno). exists name, s. split; [exact Hin|]. split; [exact Hno|].
      apply (seek_day_ok (year_of d) s (Hv s Hin2)). destruct (seek_day (year_of d) s); [f_equal; lia|discriminate]. }
  rewrite Hw. clear. generalize (date 2018 12 5) (date 2018 12 24) (date 2018 12 26). intros a b c. split.
  - intros [X|[[L [X|(X1 & X2 & X3)]]|[X|[X|X]]]].
    + left. left. left. left. exact X.
    + left. left. left. right. split; [exact L|]. left. exact X.
    + left. left. left. right. split; [exact L|]. right. split; [split; assumption|exact X3].
    + left. left. right. exact X.
    + left. right. exact X.
    + right. exact X.
  - intros [[[[X|[L [X|[[X1 X2] X3]]]]|X]|X]|X].
    + left. exact X.
    + right. left. split; [exact L|]. left. exact X.
    + right. left. split; [exact L|]. right. split; [exact X1|]. split; [exact X2|exact X3].
    + right. right. left. exact X.
    + right. right. right. left. exact X.
    + right. right. right. right. exact X.
Qed.

Lemma C40_us_refuted_pf : exists o tb tb' t,
  us_calendar [] true o = Ok tb /\ us_calendar [] true (unbounded o) = Ok tb'
  /\ from_day 2000 o <= t / NS_DAY <= to_day 2020 o /\ shows tb t 8 true /\ shows tb' t 0 false.
Proof.
  set (o := mkOpts None (Some (date 2010 12 31 * NS_DAY)) false false None). set (t := date 2010 12 31 * NS_DAY).
  assert (Hb : bounds_supported 2000 2020 o). { split; [discriminate|]. intros t' [= <-]. vm_compute. split; discriminate. }
  assert (Hb' : bounds_supported 2000 2020 (unbounded o)) by (split; discriminate).
  destruct (C39_us_pf [] true o) as (_ & _ & _ & H). destruct (C39_us_pf [] true (unbounded o)) as (_ & _ & _ & H').
  destruct (H Hb ltac:(vm_compute; discriminate)) as (tb & E & _ & _ & S). { intros (_ & l & C & _). discriminate. }
  destruct (H' Hb' ltac:(vm_compute; discriminate)) as (tb' & E' & _ & _ & S'). { intros (_ & l & C & _). discriminate. }
  exists o, tb, tb', t. split; [exact E|]. split; [exact E'|]. split; [split; vm_compute; discriminate|]. split.
  - apply S; [split; vm_compute; discriminate|]. split; [|reflexivity]. right. split; [intros q []|]. right. split; [|vm_compute; reflexivity].
    intros C. apply us_offb_ok in C. vm_compute in C. discriminate.
  - apply S'; [split; vm_compute; discriminate|]. split; [|reflexivity]. right. split; [intros q []|]. left. split; [|reflexivity].
    apply us_offb_ok. vm_compute. reflexivity.
Qed.

Lemma C39_custom_refuted_pf : exists skip o, bounds_supported 2000 2020 o /\ from_day 2000 o <= to_day 2020 o
  /\ cu_only o = false /\ (exists q, cu_custom o = Some [q])
  /\ us_calendar skip false o = Err EKey.
Proof.
  set (o := mkOpts None None false false (Some [(date 2015 12 25 * NS_DAY, 8)])). exists [], o.
  assert (Hb : bounds_supported 2000 2020 o) by (split; discriminate). assert (Hle : from_day 2000 o <= to_day 2020 o) by (vm_compute; discriminate).
  split; [exact Hb|]. split; [exact Hle|]. split; [reflexivity|]. split; [eexists; reflexivity|].
  destruct (C39_us_pf [] false o) as (_ & _ & H & _). apply (H Hb Hle). split; [reflexivity|]. eexists. split; [reflexivity|]. split; [reflexivity|].
  exists (date 2015 12 25 * NS_DAY), 8, "christmas", 12, 25, 2015. split; [left; reflexivity|]. split; [right; right; right; left; reflexivity|]. split; [intros []|].
  split; [vm_compute; reflexivity|]. split; vm_compute; discriminate.
Qed.
