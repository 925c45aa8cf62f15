(** Proofs about nth_weekday_of_month. *)
From Verif Require Import Base BaseProofs Civil CivilProofs Freq FreqProofs Frame FrameProofs When Timeline Board Spec SpecLookup SpecLayout SpecWhen BoardProofs TimelineProofs LookupProofs PartProofs WhenProofs.
From Coq Require Import Sorted ZifyBool ZifyNat.
Ltac Zify.zify_post_hook ::= Z.div_mod_to_equations.

(** ** Counting weekdays *)
Lemma weekdays_from w a n : 0 <= w < 7 ->
  zlen (filter (fun d => weekday d =? w) (zrange a n)) = (Z.of_nat n + 6 - (w - weekday a) mod 7) / 7.
Proof.
  intros Hw. revert a. induction n as [|n IH]; intros a; cbn [zrange filter].
  - change (zlen []) with 0. unfold weekday. lia.
  - destruct (weekday a =? w) eqn:E; [rewrite zlen_cons|]; rewrite IH; unfold weekday in *; lia.
Qed.
Lemma weekdays_up w a d : a <= d -> weekday d = w -> weekdays_in w a d = (d - a) / 7 + 1.
Proof. intros Ha Hd. unfold weekdays_in. rewrite weekdays_from; unfold weekday in *; lia. Qed.
Lemma weekdays_down w d b : d <= b -> weekday d = w -> weekdays_in w d b = (b - d) / 7 + 1.
Proof. intros Ha Hd. unfold weekdays_in. rewrite weekdays_from; unfold weekday in *; lia. Qed.

(** The day of month [m] that the arithmetic with week offsets arrives at. *)
Definition up_day (m wday week : Z) : Z :=
  let d := month_start m in add_week (wday - 1) (week - (if weekday d =? wday - 1 then 1 else 0)) d.
Definition down_day (m wday week : Z) : Z :=
  let d := month_start (m + 1) - 1 in add_week (wday - 1) (week + (if weekday d =? wday - 1 then 1 else 0)) d.

Lemma up_day_spec m wday week d : 1 <= wday <= 7 -> 0 < week ->
  (nth_weekday m (wday - 1) week d <-> d = up_day m wday week /\ up_day m wday week < month_start (m + 1)).
Proof.
  intros Hw Hk. unfold nth_weekday, up_day. cbv zeta. set (s := month_start m). set (e := month_start (m + 1)). unfold add_week.
  split.
  - intros (H1 & H2 & [[_ H3]|[H3 _]]); [|lia]. rewrite weekdays_up in H3 by lia.
    assert (E : d = (if weekday s =? wday - 1 then s + 7 * (week - (if weekday s =? wday - 1 then 1 else 0)) else s + (wday - 1 - weekday s) mod 7 + 7 * (if 0 <? week - (if weekday s =? wday - 1 then 1 else 0) then week - (if weekday s =? wday - 1 then 1 else 0) - 1 else week - (if weekday s =? wday - 1 then 1 else 0)))).
    { destruct (weekday s =? wday - 1) eqn:E1; [|destruct (0 <? week - 0) eqn:E2; [|lia]]; unfold weekday in *; lia. }
    rewrite <- E. split; [reflexivity|lia].
  - intros [-> Hlt]. 
    destruct (weekday s =? wday - 1) eqn:E1; [|destruct (0 <? week - 0) eqn:E2; [|lia]];
    (split; [unfold weekday in *; lia|]); (split; [unfold weekday in *; lia|]); left; (split; [lia|]); rewrite weekdays_up; unfold weekday in *; lia.
Qed.
Lemma down_day_spec m wday week d : 1 <= wday <= 7 -> week < 0 ->
  (nth_weekday m (wday - 1) week d <-> d = down_day m wday week /\ month_start m <= down_day m wday week).
Proof.
  intros Hw Hk. unfold nth_weekday, down_day. cbv zeta. set (s := month_start m). set (e := month_start (m + 1)). unfold add_week.
  split.
  - intros (H1 & H2 & [[H3 _]|[_ H3]]); [lia|]. rewrite weekdays_down in H3 by lia.
    assert (E : d = (if weekday (e - 1) =? wday - 1 then e - 1 + 7 * (week + (if weekday (e - 1) =? wday - 1 then 1 else 0)) else e - 1 + (wday - 1 - weekday (e - 1)) mod 7 + 7 * (if 0 <? week + (if weekday (e - 1) =? wday - 1 then 1 else 0) then week + (if weekday (e - 1) =? wday - 1 then 1 else 0) - 1 else week + (if weekday (e - 1) =? wday - 1 then 1 else 0)))).
    { destruct (weekday (e - 1) =? wday - 1) eqn:E1; [|destruct (0 <? week + 0) eqn:E2; [lia|]]; unfold weekday in *; lia. }
    rewrite <- E. split; [reflexivity|lia].
  - intros [-> Hlt].
    destruct (weekday (e - 1) =? wday - 1) eqn:E1; [|destruct (0 <? week + 0) eqn:E2; [lia|]];
    (split; [unfold weekday in *; lia|]); (split; [unfold weekday in *; lia|]); right; (split; [lia|]); rewrite weekdays_down; unfold weekday in *; lia.
Qed.

(** ** Lists *)
Lemma zdedup_id l : asc l -> zdedup l = l.
Proof.
  intros H. apply asc_ext; [apply zdedup_asc|exact H|intros x; apply zdedup_In].
  clear -H. induction H as [|a l Hs IH Hf]; constructor; [exact IH|]. rewrite Forall_forall in *. intros x Hx. specialize (Hf x Hx). lia.
Qed.
Lemma filter2_map cmp (A B : Z -> Z) l : filter2 cmp (map A l) (map B l) = Ok (map A (filter (fun i => cmp (A i) (B i)) l)).
Proof.
  unfold filter2. rewrite !map_length, Nat.eqb_refl. cbn [negb]. f_equal.
  induction l as [|i l IH]; [reflexivity|]. cbn [map combine filter fst snd]. destruct (cmp (A i) (B i)); cbn [map fst]; rewrite IH; reflexivity.
Qed.

(** ** C38 *)
Lemma months_base g : of_months g -> forall o, exists m, pstart (fbase (to_freq g)) o = month_start m * NS_DAY.
Proof.
  unfold of_months. intros H o. destruct (fbase (to_freq g)); try contradiction; cbn [pstart]; eexists; reflexivity.
Qed.
Lemma month_at m : month_of_day (month_start m * NS_DAY / NS_DAY) = m.
Proof. rewrite Z.div_mul by (unfold NS_DAY; lia). apply month_of_day_iff. pose proof (month_start_lt m). lia. Qed.
Lemma month_ns_lt a b : month_start a * NS_DAY < month_start b * NS_DAY <-> a < b.
Proof. pose proof (month_start_le_iff b a). unfold NS_DAY. lia. Qed.

Lemma C38_marks_pf : forall g norm t0 t1 pi month week wday shift, of_months g -> mk_frame g t0 t1 = Ok pi ->
  1 <= month <= 12 -> 1 <= wday <= 7 -> 1 <= Z.abs week <= 5 ->
  exists ks marks, nth_weekday_of_month month week wday shift pi norm = Ok marks
    /\ StronglySorted Z.lt ks
    /\ (forall k, In k ks <-> 0 <= k < fr_len pi /\ exists t, nth_mark g t0 month (wday - 1) week shift k t)
    /\ Forall2 (nth_mark g t0 month (wday - 1) week shift) ks marks.
Proof.
  intros g norm t0 t1 pi month week wday shift Hg Hpi Hmo Hwd Hwk.
  destruct (stencil_gframe g t0 t1 pi Hpi) as (Hst & Hw & _ & _). unfold fr_wf in Hw. set (G := gframe g t0) in *.
  unfold nth_weekday_of_month.
  destruct (negb ((1 <=? month) && (month <=? 12))) eqn:E1; [lia|]. destruct (negb ((1 <=? wday) && (wday <=? 7))) eqn:E2; [lia|].
  destruct (negb ((1 <=? week) && (week <=? 5) || (-5 <=? week) && (week <=? -1))) eqn:E3; [lia|]. clear E1 E2 E3. cbv zeta.
  set (units := zrange 0 (Z.to_nat (fr_len pi))).
  (* the first month of unit i *)
  set (M := fun i => month_of_day (unit_start pi i / NS_DAY)).
  assert (HM : forall i, unit_start G i = month_start (M i) * NS_DAY).
  { intros i. unfold M. rewrite Hst. destruct (months_base g Hg (unit_ord G i)) as [m Hm].
    change (pstart (fbase (to_freq g)) (unit_ord G i)) with (unit_start G i) in Hm. rewrite Hm, month_at. reflexivity. }
  assert (HMlt : forall i j, i < j -> M i < M j).
  { intros i j Hij. apply month_ns_lt. rewrite <- !HM. apply unit_start_lt, Hij. }
  change (map (fun i => month_of_day (unit_start pi i / NS_DAY)) units) with (map M units). unfold drop_duplicates.
  rewrite zdedup_id by (apply asc_map_range; exact HMlt). rewrite !map_map.
  set (S := fun i => month_start (M i + (month - 1)) * NS_DAY). set (E := fun i => (month_start (M i + month) - 1) * NS_DAY).
  change (map (fun x => month_start (M x + (month - 1)) * NS_DAY) units) with (map S units).
  change (map (fun x => (month_start (M x + month) - 1) * NS_DAY) units) with (map E units).
  rewrite !filter2_map. cbn [bind].
  assert (Hend : forall i, unit_end pi i = month_start (M (i + 1)) * NS_DAY - 1) by (intros i; rewrite unit_end_next, Hst, HM; reflexivity).
  assert (HSM : forall i, (S i <=? unit_end pi i) = (M i + (month - 1) <? M (i + 1))).
  { intros i. rewrite Hend. unfold S. pose proof (month_ns_lt (M i + (month - 1)) (M (i + 1))). lia. }
  assert (HEM : forall i, (E i <=? unit_end pi i) = (M i + (month - 1) <? M (i + 1))).
  { intros i. rewrite Hend. unfold E. pose proof (month_start_le_iff (M i + month) (M (i + 1))). unfold NS_DAY. lia. }
  rewrite (filter_ext _ _ HSM), (filter_ext _ _ HEM).
  set (l := filter (fun i => M i + (month - 1) <? M (i + 1)) units).
  assert (Hgrp : forall k, in_group g t0 k (month_start (M k + (month - 1)) * NS_DAY) <-> (M k + (month - 1) <? M (k + 1)) = true).
  { intros k. rewrite in_group_iff, unit_of_iff, unit_end_next. fold G. rewrite !HM.
    pose proof (month_ns_lt (M k + (month - 1)) (M (k + 1))) as H1. pose proof (month_ns_lt (M k + (month - 1)) (M k)) as H2. clear - H1 H2 Hmo. lia. }
  (* both branches *)
  assert (Hfin : forall (D : Z -> Z) (c : Z -> bool),
     (forall k d, nth_weekday (M k + (month - 1)) (wday - 1) week d <-> d = D k /\ c k = true) ->
     exists ks marks, (Ok (map (fun t => t + shift * NS_DAY) (map (fun i => D i * NS_DAY) (filter c l))) : res (list Z)) = Ok marks
      /\ StronglySorted Z.lt ks
      /\ (forall k, In k ks <-> 0 <= k < fr_len pi /\ exists t, nth_mark g t0 month (wday - 1) week shift k t)
      /\ Forall2 (nth_mark g t0 month (wday - 1) week shift) ks marks).
  { intros D c HD. exists (filter c l). eexists. split; [reflexivity|]. split; [apply asc_filter, asc_filter, asc_zrange|].
    assert (Hmk : forall k t, nth_mark g t0 month (wday - 1) week shift k t <-> (M k + (month - 1) <? M (k + 1)) = true /\ c k = true /\ t = D k * NS_DAY + shift * NS_DAY).
    { intros k t. unfold nth_mark. split.
      - intros (m & d & H1 & H2 & H3 & ->). apply group_start_iff in H1. fold G in H1. rewrite HM in H1.
        assert (m = M k). { pose proof (month_ns_lt m (M k)). pose proof (month_ns_lt (M k) m). lia. } subst m.
        apply Hgrp in H2. apply HD in H3. destruct H3 as [-> H3]. split; [exact H2|]. split; [exact H3|]. unfold NS_DAY. lia.
      - intros (H1 & H2 & ->). exists (M k), (D k). split; [apply group_start_iff; fold G; rewrite HM; reflexivity|].
        split; [apply Hgrp; exact H1|]. split; [apply HD; split; [reflexivity|exact H2]|]. unfold NS_DAY. lia. }
    split.
    - intros k. unfold l, units. rewrite !filter_In, zrange_In. split.
      + intros [[H1 H2] H3]. split; [lia|]. exists (D k * NS_DAY + shift * NS_DAY). apply Hmk. split; [exact H2|]. split; [exact H3|reflexivity].
      + intros [H1 (t & Ht)]. apply Hmk in Ht. destruct Ht as (H2 & H3 & _). split; [split; [lia|exact H2]|exact H3].
    - rewrite map_map. assert (HF : forall ks, (forall k, In k ks -> (M k + (month - 1) <? M (k + 1)) = true /\ c k = true) ->
        Forall2 (nth_mark g t0 month (wday - 1) week shift) ks (map (fun x => D x * NS_DAY + shift * NS_DAY) ks)).
      { induction ks as [|k ks IH]; intros Hks; [constructor|]. cbn [map]. constructor; [|apply IH; intros j Hj; apply Hks; right; exact Hj].
        apply Hmk. destruct (Hks k (or_introl eq_refl)) as [H1 H2]. split; [exact H1|]. split; [exact H2|reflexivity]. }
      apply HF. intros k Hk. apply filter_In in Hk. destruct Hk as [Hk1 Hk2]. unfold l in Hk1. apply filter_In in Hk1. split; [apply Hk1|exact Hk2]. }
  destruct (0 <? week) eqn:Ew.
  - rewrite map_map.
    assert (HD : forall i, add_week (wday - 1) (week - (if weekday (S i / NS_DAY) =? wday - 1 then 1 else 0)) (S i / NS_DAY) * NS_DAY = up_day (M i + (month - 1)) wday week * NS_DAY).
    { intros i. unfold up_day, S. rewrite Z.div_mul by (unfold NS_DAY; lia). reflexivity. }
    rewrite (map_ext _ _ HD). rewrite filter2_map. cbn [bind]. apply Hfin. intros k d. rewrite up_day_spec by lia. unfold E.
    replace (M k + (month - 1) + 1) with (M k + month) by lia. rewrite Z.leb_le. unfold NS_DAY. clear. lia.
  - rewrite map_map.
    assert (HD : forall i, add_week (wday - 1) (week + (if weekday (E i / NS_DAY) =? wday - 1 then 1 else 0)) (E i / NS_DAY) * NS_DAY = down_day (M i + (month - 1)) wday week * NS_DAY).
    { intros i. unfold down_day, E. rewrite Z.div_mul by (unfold NS_DAY; lia). replace (M i + (month - 1) + 1) with (M i + month) by lia. reflexivity. }
    rewrite (map_ext _ _ HD). rewrite filter2_map. cbn [bind]. apply Hfin. intros k d. rewrite down_day_spec by lia. unfold S.
    rewrite Z.geb_le. unfold NS_DAY. clear. lia.
Qed.

(** A month has the n-th weekday at most once, and the first to the fourth always. *)
Lemma C38_unique_pf : forall m w n d d', nth_weekday m w n d -> nth_weekday m w n d' -> d = d'.
Proof.
  intros m w n d d' (H1 & H2 & H3) (H1' & H2' & H3'). destruct H3 as [[H3 H4]|[H3 H4]], H3' as [[H3' H4']|[H3' H4']]; try lia.
  - rewrite weekdays_up in H4, H4' by lia. unfold weekday in *. lia.
  - rewrite weekdays_down in H4, H4' by lia. unfold weekday in *. lia.
Qed.

Lemma C38_exists_pf : forall m w n, 0 <= w < 7 -> 1 <= Z.abs n <= 4 -> exists d, nth_weekday m w n d.
Proof.
  intros m w n Hw Hn.
  assert (H28 : 28 <= month_start (m + 1) - month_start m).
  { unfold month_start. replace (m + 1 - 360) with (m - 360 + 1) by lia. pose proof (month_start2000_step (m - 360)) as Hs. cbv zeta in Hs.
    repeat match type of Hs with context [if ?c then _ else _] => destruct c end; lia. }
  destruct (Z.lt_ge_cases 0 n) as [C|C].
  - exists (up_day m (w + 1) n). pose proof (up_day_spec m (w + 1) n (up_day m (w + 1) n) ltac:(lia) C) as H.
    replace (w + 1 - 1) with w in H by lia. apply H. split; [reflexivity|]. unfold up_day. cbv zeta. unfold add_week.
    replace (w + 1 - 1) with w by lia. set (s := month_start m) in *.
    destruct (weekday s =? w) eqn:E1; [lia|]. destruct (0 <? n - 0) eqn:E2; lia.
  - exists (down_day m (w + 1) n). pose proof (down_day_spec m (w + 1) n (down_day m (w + 1) n) ltac:(lia) ltac:(lia)) as H.
    replace (w + 1 - 1) with w in H by lia. apply H. split; [reflexivity|]. unfold down_day. cbv zeta. unfold add_week.
    replace (w + 1 - 1) with w by lia. remember (month_start (m + 1) - 1) as s eqn:Es.
    destruct (weekday s =? w) eqn:E1; [lia|]. destruct (0 <? n + 0) eqn:E2; [lia|]. unfold weekday in *. lia.
Qed.

Lemma C38_refused_pf : forall month week wday shift pi norm, ~ (1 <= month <= 12 /\ 1 <= wday <= 7 /\ 1 <= Z.abs week <= 5) ->
  nth_weekday_of_month month week wday shift pi norm = Err EAssertion.
Proof.
  intros month week wday shift pi norm H. unfold nth_weekday_of_month.
  destruct ((1 <=? month) && (month <=? 12)) eqn:E1; [|reflexivity]. destruct ((1 <=? wday) && (wday <=? 7)) eqn:E2; [|reflexivity].
  destruct (((1 <=? week) && (week <=? 5)) || ((-5 <=? week) && (week <=? -1))) eqn:E3; [|reflexivity]. exfalso. apply H. lia.
Qed.
