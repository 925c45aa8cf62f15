(** Proofs about the preconfigured calendars, part 5: US. *)
From Verif Require Import Base BaseProofs Civil CivilProofs Freq FreqProofs Frame FrameProofs Timeline Board Spec SpecLookup SpecLayout When SpecWhen Calendars SpecCal CalProofs SeekProofs ExtendProofs HolidayProofs YearProofs LongProofs.
From Coq Require Import ZifyBool ZifyNat String.
Open Scope string_scope.
Open Scope Z_scope.
Ltac Zify.zify_post_hook ::= Z.div_mod_to_equations.

Definition us_need (hol : Z -> bool) (d : Z) : option Z :=
  if hol d then Some (year_of d)
  else if weekday d =? 0 then (if hol (d - 1) then Some (year_of d) else None)
  else if weekday d =? 4 then (if hol (d + 1) then Some (year_of (d + 1)) else None)
  else None.
Lemma us_long_sweep : forallb (long_check HNearest us_need 2000 2020) (sublists (map snd us_fixed)) = true.
Proof. vm_cast_no_check (eq_refl true). Qed.


Lemma us_years_ok : years_ok (map snd us_fixed).
Proof. apply years_ok_sweep. vm_compute. reflexivity. Qed.
Lemma us_float_sweep : sweep (float_ok (map snd us_fixed) (map snd us_floating)) 2000 21 = true.
Proof. vm_cast_no_check (eq_refl true). Qed.
Lemma us_valid : Forall seek_valid (map snd us_floating).
Proof. cbn [us_floating map snd]. repeat constructor; try lia. Qed.
Lemma us_need_local : need_local us_need.
Proof.
  intros hol d y. unfold us_need. destruct (hol d) eqn:E0; [intros _; exists d; split; [exact E0|lia]|].
  destruct (weekday d =? 0); [destruct (hol (d - 1)) eqn:E; [|discriminate]; intros _; exists (d - 1); split; [exact E|lia]|].
  destruct (weekday d =? 4); [|discriminate]. destruct (hol (d + 1)) eqn:E; [|discriminate]. intros _. exists (d + 1). split; [exact E|lia].
Qed.

Definition us_key (y0 y1 : Z) (skip : list string) (long : bool) (k : akey) : Prop :=
  (((base_key us_need (named skip us_fixed) long y0 y1 k
     \/ exists y, In y (years_of y0 y1) /\ exists s d, In s (named skip us_floating) /\ seek_finds y s d /\ k = KTs (d * NS_DAY))
    \/ (in_years 2014 y0 y1 && negb (skips skip "xmas_additional_day") = true /\ k = KTs (date 2018 12 26 * NS_DAY)))
   \/ (in_years 2018 y0 y1 && negb (skips skip "one_off") = true /\ k = KTs (date 2018 12 5 * NS_DAY)))
  \/ (in_years 2018 y0 y1 && negb (skips skip "xmas_additional_day") = true /\ k = KTs (date 2018 12 24 * NS_DAY)).

Lemma fed_ok y0 y1 skip long : 2000 <= y0 -> y1 <= 2020 ->
  exists H, fed_holidays y0 y1 skip long 0 = Ok H /\ zdict H (us_key y0 y1 skip long).
Proof.
  intros Hy0 Hy1. unfold fed_holidays, us_key.
  destruct (lengthen_zdict HNearest us_need us_fixed skip long y0 y1 us_long_sweep us_need_local Hy0 Hy1) as (H0 & E0 & Z0). rewrite E0. cbn [bind].
  assert (Hv : Forall seek_valid (named skip us_floating)).
  { apply Forall_forall. intros s Hs. apply named_incl in Hs. pose proof us_valid as Hv. rewrite Forall_forall in Hv. apply Hv, Hs. }
  destruct (zdict_fold (fun d y => do f <- cb_nth_weekday y (named skip us_floating) 0 false; Ok (dict_update akey_eqb d (map tskey f)))
              (fun y k => exists s d, In s (named skip us_floating) /\ seek_finds y s d /\ k = KTs (d * NS_DAY)) (years_of y0 y1)) with (H := H0) (P := base_key us_need (named skip us_fixed) long y0 y1) as (H1 & E1 & Z1).
  { intros H P y _ HP. destruct (zdict_float (named skip us_floating) H P y Hv HP) as (f & Ef & Zf). exists (dict_update akey_eqb H (map tskey f)). rewrite Ef. split; [reflexivity|exact Zf]. }
  { exact Z0. }
  rewrite E1. cbn [bind]. eexists. split; [reflexivity|]. apply zdict_put_if, zdict_put_if, zdict_put_if. exact Z1.
Qed.

Lemma us_need_spec skip d y : year_of d = y -> 2000 <= y <= 2020 ->
  forall y1, y <= y1 -> y1 <= 2020 -> forall y0, y0 <= y ->
  ((exists y', y0 <= y' <= y1 /\ us_need (memz (flat_map (year_days (named skip us_fixed)) (years_of (2000 - 1) (2020 + 1)))) d = Some y')
   <-> fixed_on us_dates skip d = true
       \/ (weekday d = 0 /\ fixed_on us_dates skip (d - 1) = true \/ weekday d = 4 /\ fixed_on us_dates skip (d + 1) = true /\ year_of (d + 1) <= y1)).
Proof.
  intros Ey Hy y1 Hy1 Hy2 y0 Hy0. change us_dates with us_fixed. rewrite !fixed_fixb.
  pose proof (year_next d) as [Hn Hp]. assert (Hp1 : year_of (d - 6) <= year_of (d - 1) <= year_of d) by (split; apply year_mono; lia).
  pose proof (fun e => memz_fixb (map snd us_fixed) (named skip us_fixed) e us_years_ok (fun md => named_incl skip us_fixed md)) as Hm.
  unfold us_need. rewrite !Hm by lia. clear Hm. set (h0 := fixb (named skip us_fixed) d). set (hm := fixb (named skip us_fixed) (d - 1)). set (hp := fixb (named skip us_fixed) (d + 1)).
  clearbody h0 hm hp. remember (weekday d) as w. remember (year_of (d + 1)) as yp. split.
  - intros (y' & Hr & E). destruct h0; [left; reflexivity|]. right. destruct (w =? 0) eqn:E0; [destruct hm; [left; split; [lia|reflexivity]|discriminate]|].
    destruct (w =? 4) eqn:E4; [|discriminate]. destruct hp; [|discriminate]. right. injection E as <-. split; [lia|]. split; [reflexivity|lia].
  - intros [->|[[Hw ->]|[Hw [-> Hle]]]].
    + exists y. split; [lia|]. f_equal. exact Ey.
    + exists y. split; [lia|]. destruct h0; [f_equal; exact Ey|]. replace (w =? 0) with true by lia. f_equal. exact Ey.
    + destruct h0; [exists y; split; [lia|f_equal; exact Ey]|]. exists yp. split; [lia|]. replace (w =? 0) with false by lia. replace (w =? 4) with true by lia. reflexivity.
Qed.

Lemma us_key_day y0 y1 skip long d : 2000 <= y0 -> y1 <= 2020 -> y0 <= year_of d <= y1 ->
  (us_key y0 y1 skip long (KTs (d * NS_DAY)) \/ us_key y0 y1 skip long (KStr d) <-> us_off y0 y1 skip long d)
  /\ ~ (us_key y0 y1 skip long (KTs (d * NS_DAY)) /\ us_key y0 y1 skip long (KStr d))
  /\ (us_key y0 y1 skip long (KStr d) <-> long = false /\ fixed_on us_dates skip d = true).
Proof.
  intros Hy0 Hy1 Hy.
  assert (Hfl : (exists y, In y (years_of y0 y1) /\ exists s e, In s (named skip us_floating) /\ seek_finds y s e /\ KTs (d * NS_DAY) = KTs (e * NS_DAY))
                <-> weekday_on us_weekdays skip d).
  { unfold weekday_on. change us_weekdays with us_floating. split.
    - intros (y & Hyy & s & e & Hs & He & E). apply years_In in Hyy. apply KTs_inj in E. subst e. pose proof Hs as Hs2. apply named_In in Hs. destruct Hs as (name & Hin & Hno).
      exists name, s. split; [exact Hin|]. split; [exact Hno|]. destruct (float_year _ _ y s d us_float_sweep us_valid ltac:(lia) (named_incl skip us_floating s Hs2) He) as [Ey _]. rewrite Ey. exact He.
    - intros (name & s & Hin & Hno & He). exists (year_of d). split; [apply years_In, Hy|]. exists s, d. split; [apply named_In; exists name; split; assumption|]. split; [exact He|reflexivity]. }
  assert (Hstr : us_key y0 y1 skip long (KStr d) <-> long = false /\ fixed_on us_dates skip d = true).
  { unfold us_key, base_key. split.
    - intros [[[[A|(y & _ & s & e & _ & _ & E)]|[_ E]]|[_ E]]|[_ E]]; try discriminate. destruct long; [destruct A as (e & y & E & _); discriminate|]. split; [reflexivity|].
      destruct A as (m & dd & y & Hin & Hyy & E). assert (Ed : d = date y m dd) by congruence. change us_dates with us_fixed. rewrite fixed_fixb. apply fixb_In. exists m, dd. split; [exact Hin|].
      replace (year_of d) with y; [exact Ed|]. rewrite Ed. symmetry. apply us_years_ok; [lia|]. apply (named_incl skip us_fixed), Hin.
    - intros [-> Hf]. left. left. left. left. change us_dates with us_fixed in Hf. rewrite fixed_fixb in Hf. apply fixb_In in Hf. destruct Hf as (m & dd & Hin & E).
      exists m, dd, (year_of d). split; [exact Hin|]. split; [exact Hy|]. f_equal. exact E. }
  assert (Hspec : forall e, fixb (map snd us_fixed) e = false -> forall skip', fixed_on us_dates skip' e = false).
  { intros e He skip'. change us_dates with us_fixed. rewrite fixed_fixb. destruct (fixb (named skip' us_fixed) e) eqn:E; [|reflexivity].
    apply (fixb_sub _ (map snd us_fixed)) in E; [congruence|]. intros md. apply named_incl. }
  assert (Hts : us_key y0 y1 skip long (KTs (d * NS_DAY)) <->
     (long = true /\ (fixed_on us_dates skip d = true \/ (weekday d = 0 /\ fixed_on us_dates skip (d - 1) = true
         \/ weekday d = 4 /\ fixed_on us_dates skip (d + 1) = true /\ year_of (d + 1) <= y1)))
     \/ weekday_on us_weekdays skip d
     \/ (~ In "one_off" skip /\ d = date 2018 12 5)
     \/ (~ In "xmas_additional_day" skip /\ (d = date 2018 12 24 \/ (d = date 2018 12 26 /\ y0 <= 2014)))).
  { unfold us_key. rewrite Hfl. rewrite !KTs_inj. rewrite !andb_true_iff, !negb_true_iff.
    assert (Hsk : forall s, skips skip s = false <-> ~ In s skip) by (intros s; rewrite <- skips_iff; destruct (skips skip s); split; [discriminate|congruence|discriminate|reflexivity]).
    rewrite !Hsk. rewrite <- (us_need_spec skip d (year_of d) eq_refl ltac:(lia) y1 ltac:(lia) Hy1 y0 ltac:(lia)).
    assert (Hb : base_key us_need (named skip us_fixed) long y0 y1 (KTs (d * NS_DAY)) <-> long = true /\ exists y', y0 <= y' <= y1 /\ us_need (memz (flat_map (year_days (named skip us_fixed)) (years_of (2000 - 1) (2020 + 1)))) d = Some y').
    { unfold base_key. destruct long; split.
      - intros (e & y & E & Hr & Hn). apply KTs_inj in E. subst e. split; [reflexivity|]. exists y. split; assumption.
      - intros [_ (y & Hr & Hn)]. exists d, y. split; [reflexivity|]. split; assumption.
      - intros (m & dd & y & _ & _ & E). discriminate.
      - intros [C _]. discriminate. }
    rewrite Hb. clear Hb.
    assert (Y : forall z, d = z -> year_of z = 2018 -> y0 <= 2018 <= y1) by (intros z -> E; lia).
    pose proof (fun E => Y _ E (eq_refl : year_of (date 2018 12 26) = 2018)) as Y26. pose proof (fun E => Y _ E (eq_refl : year_of (date 2018 12 5) = 2018)) as Y5.
    pose proof (fun E => Y _ E (eq_refl : year_of (date 2018 12 24) = 2018)) as Y24. unfold in_years. rewrite !andb_true_iff, !Z.leb_le.
    generalize (date 2018 12 26) (date 2018 12 5) (date 2018 12 24) Y26 Y5 Y24. intros a b c Ha Hb Hc.
    split.
    - intros [[[[A|A]|[[A1 A2] A]]|[[A1 A2] A]]|[[A1 A2] A]]; [left; exact A|right; left; exact A|right; right; right|right; right; left|right; right; right].
      + split; [exact A2|]. right. split; [exact A|lia].
      + split; assumption.
      + split; [exact A2|]. left. exact A.
    - intros [A|[A|[[A1 A]|[A1 [A|[A A2]]]]]].
      + left. left. left. left. exact A.
      + left. left. left. right. exact A.
      + left. right. split; [split; [exact (Hb A)|exact A1]|exact A].
      + right. split; [split; [exact (Hc A)|exact A1]|exact A].
      + left. left. right. split; [split; [specialize (Ha A); lia|exact A1]|exact A]. }
  split; [|split; [|exact Hstr]].
  - rewrite Hts, Hstr. unfold us_off. apply reshuffle.
  - rewrite Hts, Hstr. intros [A [-> B]]. destruct A as [[C _]|[A|[[_ A]|[_ [A|[A _]]]]]]; [discriminate| | | |].
    + destruct A as (name & s & Hin & Hno & He). destruct (float_year _ _ (year_of d) s d us_float_sweep us_valid ltac:(lia)) as [_ Hf]; [|exact He|].
      * apply in_map_iff. exists (name, s). split; [reflexivity|exact Hin].
      * rewrite (Hspec d Hf skip) in B. discriminate.
    + subst d. rewrite Hspec in B; [discriminate|vm_compute; reflexivity].
    + subst d. rewrite Hspec in B; [discriminate|vm_compute; reflexivity].
    + subst d. rewrite Hspec in B; [discriminate|vm_compute; reflexivity].
Qed.

Lemma us_date_year y d m dd : In (m, dd) (map snd us_fixed) -> d = date y m dd -> y = year_of d.
Proof.
  intros Hin ->. symmetry. apply year_date; cbn [us_fixed map snd In] in Hin;
    repeat (destruct Hin as [Hin|Hin]; [assert (m = fst (m, dd) /\ dd = snd (m, dd)) as [Em Ed] by (split; reflexivity); rewrite <- Hin in Em, Ed; cbn [fst snd] in Em, Ed; lia|]); contradiction.
Qed.

Lemma C39_us_pf : forall skip long o,
  outcome 2000 2020 o (duplicates (from_day 2000 o) (to_day 2020 o) us_dates skip long o)
    (off_hours (us_off (year_of (from_day 2000 o)) (year_of (to_day 2020 o)) skip long))
    (us_calendar skip long o).
Proof.
  intros skip long o. unfold us_calendar.
  assert (Hy : date 2000 1 1 <= date 2020 12 31) by (vm_compute; discriminate).
  set (Y0 := year_of (from_day 2000 o)). set (Y1 := year_of (to_day 2020 o)).
  assert (Hb0 : bounds_supported 2000 2020 o -> 2000 <= Y0 /\ Y1 <= 2020).
  { intros Hb. destruct (bounds_ok 2000 2020 Hy o Hb) as (_ & _ & _ & _ & Hf & Ht). split; apply (year_window 2000 2020); first [reflexivity|assumption]. }
  set (H := match fed_holidays Y0 Y1 skip long 0 with Ok d => d | Err _ => [] end).
  assert (HH : bounds_supported 2000 2020 o -> fed_holidays Y0 Y1 skip long 0 = Ok H /\ zdict H (us_key Y0 Y1 skip long)).
  { intros Hb. destruct (Hb0 Hb) as [A B]. destruct (fed_ok Y0 Y1 skip long A B) as (H' & E & Z'). unfold H. rewrite E. split; [reflexivity|exact Z']. }
  apply (outcome_ok 2000 2020 Hy (us_amendments skip long) o H).
  - intros Hb _ _. destruct (bounds_ok 2000 2020 Hy o Hb) as (_ & E2 & E3 & E4 & _). unfold us_amendments. change us_class with (mkCal (date 2000 1 1 * NS_DAY) (last_second (date 2020 12 31))).
    rewrite E2. cbn [bind fst snd]. unfold year_at. rewrite E3, E4. fold Y0 Y1. destruct (HH Hb) as [E _]. rewrite E. reflexivity.
  - intros Hb. destruct (HH Hb) as [_ HZ]. destruct (Hb0 Hb) as [A B]. pose proof HZ as [N V].
    assert (Hyd : forall d, from_day 2000 o <= d <= to_day 2020 o -> Y0 <= year_of d <= Y1) by (intros d Hd; split; apply year_mono; lia).
    split; [exact N|]. split; [|split].
    + intros t x Hin. apply V in Hin. destruct Hin as [Hin _]. unfold us_key, base_key in Hin.
      assert (Hm : exists e, KTs t = KTs (e * NS_DAY)).
      { destruct Hin as [[[[Hin|(y & _ & s & e & _ & _ & E)]|[_ E]]|[_ E]]|[_ E]]; [|eexists; exact E..].
        destruct long; [destruct Hin as (e & y & E & _); exists e; exact E|destruct Hin as (m & dd & y & _ & _ & E); discriminate]. }
      destruct Hm as (e & E). assert (E' : t = e * NS_DAY) by congruence. rewrite E', day_mul. reflexivity.
    + intros d x y Hd Hx Hy'. apply V in Hx, Hy'. apply (proj1 (proj2 (us_key_day Y0 Y1 skip long d A B (Hyd d Hd)))). tauto.
    + intros d x Hd. apply (zdict_day H _ _ d x HZ). apply (us_key_day Y0 Y1 skip long d A B (Hyd d Hd)).
  - intros Hb. destruct (HH Hb) as [_ [N V]]. destruct (Hb0 Hb) as [A B]. unfold duplicates. split; intros [Hn (l & El & Hl)]; (split; [exact Hn|]); exists l; (split; [exact El|]);
      (destruct (cu_only o); [exact Hl|]).
    + destruct Hl as [Hlong (t & x & name & m & dd & y & Hin & Hname & Hno & Ed & Hr)]. exists t, x, 0. split; [exact Hin|]. split; [exact Hr|].
      assert (Hyd : Y0 <= year_of (t / NS_DAY) <= Y1) by (split; apply year_mono; lia).
      apply V. split; [|reflexivity]. apply (us_key_day Y0 Y1 skip long _ A B Hyd). split; [exact Hlong|]. change us_dates with us_fixed in *. rewrite fixed_fixb. apply fixb_In.
      exists m, dd. split; [apply named_In; exists name; split; assumption|].
      assert (Ey : y = year_of (t / NS_DAY)); [|rewrite <- Ey; exact Ed].
      apply (us_date_year y (t / NS_DAY) m dd); [apply in_map_iff; exists (name, (m, dd)); split; [reflexivity|exact Hname]|exact Ed].
    + destruct Hl as (t & x & z & Hin & Hr & Hz). apply V in Hz. destruct Hz as [Hz _].
      assert (Hyd : Y0 <= year_of (t / NS_DAY) <= Y1) by (split; apply year_mono; lia).
      apply (us_key_day Y0 Y1 skip long _ A B Hyd) in Hz. destruct Hz as [Hlong Hf]. split; [exact Hlong|]. change us_dates with us_fixed in *. rewrite fixed_fixb in Hf. apply fixb_In in Hf.
      destruct Hf as (m & dd & Hmd & E). apply named_In in Hmd. destruct Hmd as (name & Hname & Hno). exists t, x, name, m, dd, (year_of (t / NS_DAY)).
      split; [exact Hin|]. split; [exact Hname|]. split; [exact Hno|]. split; [exact E|exact Hr].
Qed.
