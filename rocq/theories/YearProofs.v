(** Proofs about the preconfigured calendars, part 3: years, dictionaries of zeros, RU. *)
From Verif Require Import Base BaseProofs Civil CivilProofs Freq FreqProofs Frame FrameProofs Timeline Board Spec SpecLookup SpecLayout When SpecWhen WhenProofs Calendars SpecCal CalProofs SeekProofs ExtendProofs HolidayProofs.
From Coq Require Import ZifyBool ZifyNat String.
Open Scope Z_scope.
Ltac Zify.zify_post_hook ::= Z.div_mod_to_equations.

Lemma month_le j k : j <= k -> month_start j <= month_start k.
Proof.
  intros H. replace k with (j + Z.of_nat (Z.to_nat (k - j))) by lia. generalize (Z.to_nat (k - j)). intros n. clear H.
  induction n as [|n IH]; [replace (j + Z.of_nat 0) with j by lia; lia|]. pose proof (month_start_lt (j + Z.of_nat n)).
  replace (j + Z.of_nat (S n)) with (j + Z.of_nat n + 1) by lia. lia.
Qed.
Lemma month_of_mono d e : d <= e -> month_of_day d <= month_of_day e.
Proof.
  intros H. destruct (Z_le_gt_dec (month_of_day d) (month_of_day e)) as [Hl|Hg]; [exact Hl|exfalso].
  pose proof (month_of_day_spec d). pose proof (month_of_day_spec e). pose proof (month_le (month_of_day e + 1) (month_of_day d) ltac:(lia)). lia.
Qed.
Lemma year_mono d e : d <= e -> year_of d <= year_of e.
Proof. intros H. apply month_of_mono in H. unfold year_of. lia. Qed.
Lemma year_window y0 y1 d : year_of (date y0 1 1) = y0 -> year_of (date y1 12 31) = y1 -> date y0 1 1 <= d <= date y1 12 31 -> y0 <= year_of d <= y1.
Proof. intros E0 E1 [A B]. apply year_mono in A, B. lia. Qed.

(** The year of a date. *)
Lemma year_date y m dd : 1 <= m <= 12 -> 1 <= dd <= 28 \/ (m = 11 /\ 1 <= dd <= 30) \/ (m = 12 /\ 1 <= dd <= 31) -> year_of (date y m dd) = y.
Proof.
  intros Hm Hd. set (k := (y - 1970) * 12 + (m - 1)). pose proof (month_start2000_step (k - 360)) as Hs. cbv zeta in Hs.
  assert (Ek : (k - 360) mod 12 = m - 1) by (unfold k; lia). rewrite Ek in Hs.
  assert (Hlen : month_start k + dd - 1 < month_start (k + 1)).
  { unfold month_start. replace (k + 1 - 360) with (k - 360 + 1) by lia. remember (month_start2000 (k - 360)) as a. remember (month_start2000 (k - 360 + 1)) as b.
    clear -Hs Hd Hm. destruct (leap ((k - 360) / 12)), (m - 1 =? 1) eqn:E1, ((m - 1 =? 3) || (m - 1 =? 5) || (m - 1 =? 8) || (m - 1 =? 10)) eqn:E2; lia. }
  assert (Em : month_of_day (date y m dd) = k) by (apply month_of_day_iff; unfold date; fold k; lia).
  unfold year_of. rewrite Em. unfold k. lia.
Qed.

Lemma years_In y0 y1 y : In y (years_of y0 y1) <-> y0 <= y <= y1.
Proof. unfold years_of. rewrite zrange_In. lia. Qed.

(** Whatever holds of all years of a range by computation. *)
Lemma year_sweep (f : Z -> bool) (n : positive) y0 : sweep f y0 n = true -> forall y, y0 <= y < y0 + Zpos n -> f y = true.
Proof. intros H y Hy. apply (sweep_ok f n y0 H y Hy). Qed.

(** ** RU *)
Lemma ru_year_sweep : sweep (fun y => forallb (fun md => year_of (date y (fst md) (snd md)) =? y) ((12, 31) :: ru_days)) 2005 17 = true.
Proof. vm_compute. reflexivity. Qed.
Lemma ru_dates_eq (w : bool) : app ru_days (if w then [] else [(12, 31)]) = ru_dates w.
Proof. destruct w; vm_compute; reflexivity. Qed.
Fixpoint zdistinct (l : list Z) : bool := match l with [] => true | x :: l' => negb (existsb (Z.eqb x) l') && zdistinct l' end.
Lemma zdistinct_ok l : zdistinct l = true -> NoDup l.
Proof.
  induction l as [|x l IH]; cbn [zdistinct]; intros H; [constructor|]. apply andb_prop in H. destruct H as [A B]. constructor; [|apply IH, B].
  intros Hin. assert (existsb (Z.eqb x) l = true) by (apply existsb_exists; exists x; split; [exact Hin|apply Z.eqb_refl]). rewrite H in A. discriminate.
Qed.
Lemma ru_table_distinct x : NoDup (map fst (ru_changes x)).
Proof. change (map fst (ru_changes x)) with (map fst (ru_changes 0)). apply zdistinct_ok. vm_compute. reflexivity. Qed.

(** get of a dictionary made of distinct keys in order *)
Lemma In_update_distinct (e : list (akey * Z)) k v : NoDup (map fst e) -> (In (k, v) (dict_update akey_eqb [] e) <-> In (k, v) e).
Proof.
  intros Hn. rewrite (In_get _ akey_eqb_ok) by (apply (NoDup_update _ akey_eqb_ok); constructor). rewrite (get_update _ akey_eqb_ok). cbn [dict_get].
  assert (Hr : NoDup (map fst (rev e))) by (rewrite map_rev; apply NoDup_rev, Hn).
  rewrite (in_rev e). rewrite (In_get _ akey_eqb_ok (rev e) k v Hr). destruct (dict_get akey_eqb (rev e) k); split; congruence.
Qed.

Definition ru_dict (w s : bool) (y0 y1 : Z) : list (akey * Z) :=
  dict_update akey_eqb (dict_update akey_eqb [] (map (fun q => (KTs (fst q * NS_DAY), snd q)) (ru_changes (if s then 7 else 8)))) (ru_holidays y0 y1 w).

Lemma ru_holidays_In y0 y1 w k v : In (k, v) (ru_holidays y0 y1 w) <->
  v = 0 /\ exists m dd y, In (m, dd) (ru_dates w) /\ y0 <= y <= y1 /\ k = KTs (date y m dd * NS_DAY).
Proof.
  unfold ru_holidays. rewrite ru_dates_eq.
  assert (E : flat_map (fun md => map (fun y => (KTs (date y (fst md) (snd md) * NS_DAY), 0)) (years_of y0 y1)) (ru_dates w)
            = map (fun k => (k, 0)) (flat_map (fun md => map (fun y => KTs (date y (fst md) (snd md) * NS_DAY)) (years_of y0 y1)) (ru_dates w))).
  { induction (ru_dates w) as [|md l IH]; cbn [flat_map map]; [reflexivity|]. rewrite map_app, IH, map_map. reflexivity. }
  rewrite E, (const_update _ akey_eqb_ok), in_flat_map. split.
  - intros [([m dd] & Hin & Hk) ->]. split; [reflexivity|]. apply in_map_iff in Hk. destruct Hk as (y & <- & Hy). apply years_In in Hy. exists m, dd, y. split; [exact Hin|]. split; [exact Hy|reflexivity].
  - intros (-> & m & dd & y & Hin & Hy & ->). split; [|reflexivity]. exists (m, dd). split; [exact Hin|]. apply in_map_iff. exists y. split; [reflexivity|apply years_In, Hy].
Qed.

Lemma ru_dict_In w s y0 y1 k v : In (k, v) (ru_dict w s y0 y1) <->
  In (k, v) (ru_holidays y0 y1 w)
  \/ ((forall x, ~ In (k, x) (ru_holidays y0 y1 w)) /\ exists d, In (d, v) (ru_changes (if s then 7 else 8)) /\ k = KTs (d * NS_DAY)).
Proof.
  assert (Hn1 : NoDup (map fst (ru_holidays y0 y1 w))) by (apply (NoDup_update _ akey_eqb_ok); constructor).
  set (tb := map (fun q => (KTs (fst q * NS_DAY), snd q)) (ru_changes (if s then 7 else 8))).
  assert (Hn2 : NoDup (map fst tb)).
  { unfold tb. rewrite map_map. cbn [fst]. rewrite <- (map_map fst (fun d => KTs (d * NS_DAY))).
    apply FinFun.Injective_map_NoDup; [|apply ru_table_distinct]. intros a b E. assert (E' : a * NS_DAY = b * NS_DAY) by congruence. unfold NS_DAY in E'. lia. }
  assert (Hn3 : NoDup (map fst (dict_update akey_eqb [] tb))) by (apply (NoDup_update _ akey_eqb_ok); constructor).
  unfold ru_dict. fold tb. rewrite (In_get _ akey_eqb_ok) by (apply (NoDup_update _ akey_eqb_ok), Hn3). rewrite (get_update _ akey_eqb_ok).
  assert (Hr : NoDup (map fst (rev (ru_holidays y0 y1 w)))) by (rewrite map_rev; apply NoDup_rev, Hn1).
  assert (Ht : In (k, v) tb <-> exists d, In (d, v) (ru_changes (if s then 7 else 8)) /\ k = KTs (d * NS_DAY)).
  { unfold tb. rewrite in_map_iff. split.
    - intros ([d x] & E & Hin). cbn [fst snd] in E. exists d. assert (x = v) by congruence. subst x. split; [exact Hin|congruence].
    - intros (d & Hin & ->). exists (d, v). split; [reflexivity|exact Hin]. }
  rewrite <- Ht, <- (In_update_distinct tb k v Hn2), (In_get _ akey_eqb_ok _ k v Hn3).
  pose proof (fun x => in_rev (ru_holidays y0 y1 w) (k, x)) as Hrev. pose proof (fun x => In_get _ akey_eqb_ok (rev (ru_holidays y0 y1 w)) k x Hr) as Hg.
  destruct (dict_get akey_eqb (rev (ru_holidays y0 y1 w)) k) as [z|] eqn:E; split.
  - intros H. injection H as <-. left. apply Hrev, Hg. reflexivity.
  - intros [H|[H _]]; [apply Hrev, Hg in H; exact H|]. exfalso. apply (H z), Hrev, Hg. reflexivity.
  - intros H. right. split; [|exact H]. intros x Hx. apply Hrev, Hg in Hx. discriminate.
  - intros [H|[_ H]]; [apply Hrev, Hg in H; discriminate|exact H].
Qed.

(** The table of the code and the tables of the specification. *)
Definition flat_table (tbl : list (Z * list (Z * Z))) : list Z := flat_map (fun q => map (fun md => date (fst q) (fst md) (snd md)) (snd q)) tbl.
Lemma in_flat_table tbl d : in_table tbl d <-> In d (flat_table tbl).
Proof.
  unfold in_table, flat_table. rewrite in_flat_map. split.
  - intros (y & l & m & dd & A & B & ->). exists (y, l). split; [exact A|]. apply in_map_iff. exists (m, dd). split; [reflexivity|exact B].
  - intros ([y l] & A & B). apply in_map_iff in B. destruct B as ([m dd] & <- & B). exists y, l, m, dd. split; [exact A|]. split; [exact B|reflexivity].
Qed.
Definition zpair_in (q : Z * Z) (l : list (Z * Z)) : bool := existsb (fun r => (fst r =? fst q) && (snd r =? snd q)) l.
Lemma zpair_in_ok q l : zpair_in q l = true <-> In q l.
Proof.
  unfold zpair_in. rewrite existsb_exists. split; [intros ([a b] & H & E); destruct q as [a' b']; cbn [fst snd] in E; assert (a = a' /\ b = b') as [<- <-] by lia; exact H|].
  intros H. exists q. split; [exact H|]. rewrite !Z.eqb_refl. reflexivity.
Qed.
Definition ru_said (s : bool) : list (Z * Z) :=
  map (fun d => (d, 0)) (flat_table ru_days_off) ++ map (fun d => (d, if s then 7 else 8)) (flat_table ru_short_days) ++ map (fun d => (d, 8)) (flat_table ru_working_weekends).
Lemma ru_said_sweep : forall s, forallb (fun q => zpair_in q (ru_said s)) (ru_changes (if s then 7 else 8)) && forallb (fun q => zpair_in q (ru_changes (if s then 7 else 8))) (ru_said s) = true.
Proof. intros [|]; vm_compute; reflexivity. Qed.
Lemma ru_moved_ok (s : bool) d x : In (d, x) (ru_changes (if s then 7 else 8)) <-> ru_moved s d x.
Proof.
  assert (A : ru_moved s d x <-> In (d, x) (ru_said s)).
  { assert (Hm : forall (v : Z) (l : list Z), In (d, x) (map (fun e => (e, v)) l) <-> In d l /\ x = v).
    { intros v l. rewrite in_map_iff. split; [intros (e & [= -> ->] & H); split; [exact H|reflexivity]|]. intros [H ->]. exists d. split; [reflexivity|exact H]. }
    unfold ru_moved, ru_said. rewrite !in_flat_table, !in_app_iff, !Hm. reflexivity. }
  rewrite A. pose proof (ru_said_sweep s) as H. apply andb_prop in H. destruct H as [H1 H2]. rewrite forallb_forall in H1, H2.
  split; intros H; [apply H1 in H|apply H2 in H]; apply zpair_in_ok, H.
Qed.

Lemma C39_ru_pf : forall work_on_dec31 short_eves o,
  outcome 2005 2021 o
    (cu_no_amend o = false /\ cu_only o = true /\ exists l, cu_custom o = Some l /\ same_day_twice (from_day 2005 o) (to_day 2021 o) l)
    (ru_hours work_on_dec31 short_eves)
    (ru_calendar work_on_dec31 short_eves o).
Proof.
  intros w s o. unfold ru_calendar. set (H := ru_dict w s (year_of (from_day 2005 o)) (year_of (to_day 2021 o))).
  assert (Hy : date 2005 1 1 <= date 2021 12 31) by (vm_compute; discriminate).
  assert (HnoStr : forall d x, ~ In (KStr d, x) H).
  { intros d x Hin. apply ru_dict_In in Hin. destruct Hin as [Hin|[_ (e & _ & E)]]; [|discriminate]. apply ru_holidays_In in Hin. destruct Hin as (_ & m & dd & y & _ & _ & E). discriminate. }
  apply (outcome_ok 2005 2021 Hy (ru_amendments w s) o H).
  - intros Hb _ _. destruct (bounds_ok 2005 2021 Hy o Hb) as (_ & E2 & E3 & E4 & _). unfold ru_amendments. change ru_class with (mkCal (date 2005 1 1 * NS_DAY) (last_second (date 2021 12 31))).
    rewrite E2. cbn [bind fst snd]. unfold year_at. rewrite E3, E4. reflexivity.
  - intros Hb. destruct (bounds_ok 2005 2021 Hy o Hb) as (_ & _ & _ & _ & Hf & Ht). split; [|split; [|split]].
    + apply (NoDup_update _ akey_eqb_ok), (NoDup_update _ akey_eqb_ok). constructor.
    + intros t x Hin. apply ru_dict_In in Hin. destruct Hin as [Hin|[_ (e & _ & E)]].
      * apply ru_holidays_In in Hin. destruct Hin as (_ & m & dd & y & _ & _ & E). assert (E' : t = date y m dd * NS_DAY) by congruence. rewrite E', day_mul. reflexivity.
      * assert (E' : t = e * NS_DAY) by congruence. rewrite E', day_mul. reflexivity.
    + intros d x y _ Hin. exfalso. apply (HnoStr d x Hin).
    + intros d x Hd.
      assert (Yd : year_of (from_day 2005 o) <= year_of d <= year_of (to_day 2021 o)) by (split; apply year_mono; lia).
      assert (Yw : 2005 <= year_of (from_day 2005 o) /\ year_of (to_day 2021 o) <= 2021).
      { split; [apply (year_window 2005 2021)|apply (year_window 2005 2021)]; first [reflexivity|assumption]. }
      assert (Hh : forall x, In (KTs (d * NS_DAY), x) (ru_holidays (year_of (from_day 2005 o)) (year_of (to_day 2021 o)) w)
                   <-> x = 0 /\ exists m dd, In (m, dd) (ru_dates w) /\ d = date (year_of d) m dd).
      { intros x0. rewrite ru_holidays_In. split; intros [-> Hex]; (split; [reflexivity|]).
        - destruct Hex as (m & dd & y & Hin & Hyr & E). assert (E' : d = date y m dd) by (assert (d * NS_DAY = date y m dd * NS_DAY) by congruence; unfold NS_DAY in *; lia).
          exists m, dd. split; [exact Hin|]. replace (year_of d) with y; [exact E'|]. rewrite E'.
          pose proof (year_sweep _ _ _ ru_year_sweep y ltac:(lia)) as Hs. rewrite forallb_forall in Hs. symmetry. apply Z.eqb_eq, (Hs (m, dd)).
          rewrite <- ru_dates_eq in Hin. apply in_app_iff in Hin. destruct Hin as [Hin|Hin]; [right; exact Hin|]. destruct w; [contradiction|]. destruct Hin as [<-|[]]. left. reflexivity.
        - destruct Hex as (m & dd & Hin & E). exists m, dd, (year_of d). split; [exact Hin|]. split; [exact Yd|]. f_equal. f_equal. exact E. }
      assert (Htb : forall x, (exists e, In (e, x) (ru_changes (if s then 7 else 8)) /\ KTs (d * NS_DAY) = KTs (e * NS_DAY)) <-> ru_moved s d x).
      { intros x0. rewrite <- ru_moved_ok. split; [|intros Hin; exists d; split; [exact Hin|reflexivity]]. intros (e & Hin & E).
        assert (E' : e = d) by (assert (d * NS_DAY = e * NS_DAY) by congruence; unfold NS_DAY in *; lia). subst e. exact Hin. }
      unfold ru_hours. cbv zeta. set (hol := exists m dd, In (m, dd) (ru_dates w) /\ d = date (year_of d) m dd) in *. unfold dict_day, H.
      assert (Hdec : hol \/ ~ hol).
      { destruct (existsb (fun md => d =? date (year_of d) (fst md) (snd md)) (ru_dates w)) eqn:E.
        - left. apply existsb_exists in E. destruct E as ([m dd] & Hin & E). exists m, dd. split; [exact Hin|]. cbn [fst snd] in E. lia.
        - right. intros (m & dd & Hin & E'). assert (existsb (fun md => d =? date (year_of d) (fst md) (snd md)) (ru_dates w) = true); [|congruence].
          apply existsb_exists. exists (m, dd). split; [exact Hin|]. cbn [fst snd]. lia. }
      split.
      * intros [Hin|[Hin|[Hin ->]]].
        -- apply ru_dict_In in Hin. destruct Hin as [Hin|[Hno Hin]].
           ++ apply Hh in Hin. destruct Hin as [-> Hin]. left. split; [exact Hin|reflexivity].
           ++ right. split; [intros Hc; apply (Hno 0), Hh; split; [reflexivity|exact Hc]|]. left. apply Htb, Hin.
        -- exfalso. apply (HnoStr _ _ Hin).
        -- right. assert (Hnh : ~ hol) by (intros Hc; apply (proj1 (Hin 0)), ru_dict_In; left; apply Hh; split; [reflexivity|exact Hc]).
           split; [exact Hnh|]. right. split; [|reflexivity]. intros y Hy'. apply (proj1 (Hin y)), ru_dict_In. right.
           split; [intros z Hz; apply Hh in Hz; tauto|]. apply Htb, Hy'.
      * intros [[Hc ->]|[Hc [Hin|[Hin ->]]]].
        -- left. apply ru_dict_In. left. apply Hh. split; [reflexivity|exact Hc].
        -- left. apply ru_dict_In. right. split; [intros z Hz; apply Hh in Hz; tauto|]. apply Htb, Hin.
        -- right. right. split; [|reflexivity]. intros y. split; [|intros Hc2; apply (HnoStr _ _ Hc2)]. intros Hc2. apply ru_dict_In in Hc2.
           destruct Hc2 as [Hc2|[_ Hc2]]; [apply Hh in Hc2; tauto|]. apply (Hin y), Htb, Hc2.
  - intros Hb. split.
    + intros (A & B & l & C & D). split; [exact A|]. exists l. split; [exact C|]. rewrite B. exact D.
    + intros (A & l & C & D). split; [exact A|]. destruct (cu_only o); [split; [reflexivity|]; exists l; split; assumption|].
      destruct D as (t & x & y & _ & _ & Hin). exfalso. apply (HnoStr _ _ Hin).
Qed.
