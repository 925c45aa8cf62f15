(** Proofs about from_easter. *)
From Verif Require Import Base BaseProofs Civil CivilProofs Freq FreqProofs Frame FrameProofs When Timeline Board Spec SpecLookup SpecCivil SpecLayout SpecWhen BoardProofs TimelineProofs LookupProofs PartProofs WhenProofs NthProofs.
From Coq Require Import Sorted ZifyBool ZifyNat.
Ltac Zify.zify_post_hook ::= Z.div_mod_to_equations.

Definition easter_ok (y : Z) : bool :=
  (easter false y =? easter_gregorian y) && (easter true y =? easter_julian y)
  && (weekday (easter false y) =? 6) && (weekday (easter true y) =? 6)
  && (date y 3 22 <=? easter false y) && (easter false y <=? date y 4 25)
  && (date y 3 22 <=? easter true y) && (easter true y <? date (y + 1) 1 1).
Lemma easter_sweep : sweep easter_ok 1583 2517 = true.
Proof. vm_compute. reflexivity. Qed.

Lemma C42_easter_pf : forall orthodox y, easter_year y ->
  easter orthodox y = easter_day orthodox y /\ weekday (easter orthodox y) = 6
  /\ date y 3 22 <= easter orthodox y < date (y + 1) 1 1.
Proof.
  intros b y Hy. unfold easter_year in Hy. pose proof (sweep_ok _ _ _ easter_sweep y ltac:(lia)) as H. unfold easter_ok in H.
  assert (H0 : date y 4 25 < date (y + 1) 1 1).
  { unfold date. replace ((y + 1 - 1970) * 12 + (1 - 1)) with ((y - 1970) * 12 + 12) by lia. replace (4 - 1) with 3 by lia.
    pose proof (month_start_mono ((y - 1970) * 12 + 3) ((y - 1970) * 12 + 4) ltac:(lia)).
    pose proof (month_start_lt ((y - 1970) * 12 + 4)). pose proof (month_start_le_iff ((y - 1970) * 12 + 4 + 1) ((y - 1970) * 12 + 12)).
    assert (28 <= month_start ((y - 1970) * 12 + 4 + 1) - month_start ((y - 1970) * 12 + 4)).
    { unfold month_start. replace ((y - 1970) * 12 + 4 + 1 - 360) with ((y - 1970) * 12 + 4 - 360 + 1) by lia.
      pose proof (month_start2000_step ((y - 1970) * 12 + 4 - 360)) as Hs. cbv zeta in Hs.
      repeat match type of Hs with context [if ?c then _ else _] => destruct c end; lia. }
    lia. }
  unfold easter_day. destruct b; lia.
Qed.

Lemma filter_combine3 (A S E : Z -> Z) l :
  map fst (filter (fun p => (fst (snd p) <=? fst p) && (fst p <=? snd (snd p))) (combine (map A l) (combine (map S l) (map E l))))
  = map A (filter (fun i => (S i <=? A i) && (A i <=? E i)) l).
Proof.
  induction l as [|i l IH]; [reflexivity|]. cbn [map combine filter fst snd]. destruct ((S i <=? A i) && (A i <=? E i)); cbn [map fst]; rewrite IH; reflexivity.
Qed.

Lemma yearly_accepts norm g : check_groupby_freq norm g = true -> fbase (to_freq g) = BA 12 -> fmult (to_freq g) = 1%positive -> accepts norm g.
Proof.
  intros Hc Hb Hm. apply single_accepts; [exact Hc| |exact Hm]. unfold one_part. destruct (falias g) eqn:E; try exact I.
  apply more_tick in E. rewrite Hb in E. exact E.
Qed.

(** Offsets of any signs. *)
Lemma C42_every_pf : forall orthodox o g norm t0 t1 pi, usable o ->
  fbase (to_freq g) = BA 12 -> fmult (to_freq g) = 1%positive -> check_groupby_freq norm g = true -> mk_frame g t0 t1 = Ok pi ->
  easter_year (year_of (t0 / NS_DAY)) -> easter_year (year_of (t1 / NS_DAY)) ->
  exists ys marks, from_easter orthodox o pi norm = Ok marks
    /\ StronglySorted Z.lt ys
    /\ (forall y, In y ys <-> year_of (t0 / NS_DAY) <= y <= year_of (t1 / NS_DAY) /\ exists t, easter_upto orthodox norm o y t)
    /\ Forall2 (easter_upto orthodox norm o) ys marks.
Proof.
  intros orth o g norm t0 t1 pi Hus Hb Hmul Hc' Hpi Hy0 Hy1. pose proof (yearly_accepts norm g Hc' Hb Hmul) as Hc.
  destruct (stencil_gframe g t0 t1 pi Hpi) as (Hst & Hw & Hlen & _). set (G := gframe g t0) in *.
  set (Y0 := year_of (t0 / NS_DAY)) in *.
  assert (HG : forall k, unit_start G k = date (Y0 + k) 1 1 * NS_DAY).
  { intros k. unfold unit_start, unit_ord, G, gframe, fr_base, fr_mult. cbn [fr_o0 fr_str]. rewrite Hb, Hmul. cbn [pstart pord]. unfold date, Y0, year_of.
    change (12 - 12) with 0. change (1 - 1) with 0. rewrite Z.sub_0_r, !Z.add_0_r. do 2 f_equal. lia. }
  assert (Hlen' : fr_len pi = year_of (t1 / NS_DAY) - Y0 + 1).
  { rewrite Hlen. unfold unit_of, G, gframe, fr_base, fr_mult. cbn [fr_o0 fr_str]. rewrite Hb, Hmul. cbn [pord]. rewrite Z.div_1_r. unfold Y0, year_of.
    replace (12 - 12) with 0 by lia. rewrite !Z.sub_0_r. lia. }
  assert (Hend : forall k, unit_end pi k = date (Y0 + k + 1) 1 1 * NS_DAY - 1).
  { intros k. rewrite unit_end_next, Hst, HG. do 3 f_equal. lia. }
  assert (Hyear : forall k, year_of (unit_end pi k / NS_DAY) = Y0 + k).
  { intros k. rewrite Hend. replace ((date (Y0 + k + 1) 1 1 * NS_DAY - 1) / NS_DAY) with (date (Y0 + k + 1) 1 1 - 1) by (unfold NS_DAY; lia).
    unfold year_of, date. set (m := (Y0 + k + 1 - 1970) * 12 + (1 - 1)).
    assert (Em : month_of_day (month_start m + (1 - 1) - 1) = m - 1). { apply month_of_day_iff. replace (m - 1 + 1) with m by lia. pose proof (month_start_mono (m - 1) m). lia. }
    rewrite Em. unfold m. lia. }
  unfold from_easter. rewrite (usable_none o Hus). cbv zeta. set (units := zrange 0 (Z.to_nat (fr_len pi))).
  set (A := fun i => easter orth (year_of (unit_end pi i / NS_DAY)) * NS_DAY).
  change (map (fun i => easter orth (year_of (unit_end pi i / NS_DAY)) * NS_DAY) units) with (map A units).
  rewrite filter_combine3.
  assert (HE : forall i, In i units -> easter_year (Y0 + i)).
  { intros i Hi. unfold units in Hi. apply zrange_In in Hi. unfold easter_year in *. unfold fr_wf in Hw. lia. }
  assert (HA : forall i, In i units -> A i = easter_day orth (Y0 + i) * NS_DAY /\ unit_start pi i <= A i <= unit_end pi i).
  { intros i Hi. destruct (C42_easter_pf orth (Y0 + i) (HE i Hi)) as (H1 & _ & H3). unfold A. rewrite Hyear. rewrite Hend, Hst, HG.
    split; [rewrite H1; reflexivity|].
    assert (date (Y0 + i) 1 1 <= date (Y0 + i) 3 22). { unfold date. pose proof (month_start_mono ((Y0 + i - 1970) * 12 + (1 - 1)) ((Y0 + i - 1970) * 12 + (3 - 1)) ltac:(lia)). lia. }
    unfold NS_DAY. lia. }
  rewrite (filter_all _ units) by (intros i Hi; destruct (HA i Hi) as [_ H]; lia).
  rewrite map_map. set (R := fun x => snap norm (add_offset o (A x))).
  change (map (fun x => snap norm (add_offset o (A x))) units) with (map R units).
  (* both filters keep the units whose mark stays in the year *)
  assert (Hal : forall k v, exists w, date (Y0 + k + v) 1 1 * NS_DAY = pstart (fbase (to_freq norm)) w).
  { intros k v. destruct (accepted_base norm g Hc (unit_ord G (k + v))) as [w Hw']. exists w. rewrite Hw'.
    change (pstart (fbase (to_freq g)) (unit_ord G (k + v))) with (unit_start G (k + v)). rewrite HG. do 2 f_equal. lia. }
  set (inyear := fun i => if jan2004 <=? add_offset o jan2004 then add_offset o (A i) <? date (Y0 + i + 1) 1 1 * NS_DAY
                          else date (Y0 + i) 1 1 * NS_DAY <=? add_offset o (A i)).
  assert (Hres : (if jan2004 <=? add_offset o jan2004 then filter2 Z.leb (map R units) (map (unit_end pi) units)
                  else filter2 Z.geb (map R units) (map (unit_start pi) units)) = Ok (map R (filter inyear units))).
  { unfold inyear. destruct (jan2004 <=? add_offset o jan2004) eqn:E; rewrite filter2_map; do 2 f_equal; apply filter_ext_in; intros i Hi.
    - rewrite Hend. unfold R. destruct (Hal i 1) as [w Hw']. pose proof (snap_lt norm (add_offset o (A i)) w) as Hsn. rewrite <- Hw' in Hsn. lia.
    - rewrite Hst, HG. unfold R. destruct (Hal i 0) as [w Hw']. replace (Y0 + i + 0) with (Y0 + i) in Hw' by lia.
      pose proof (snap_lt norm (add_offset o (A i)) w) as Hsn. rewrite <- Hw' in Hsn. lia. }
  rewrite Hres. clear Hres.
  assert (Hmk : forall i t, In i units -> (easter_upto orth norm o (Y0 + i) t <-> inyear i = true /\ t = R i)).
  { intros i t Hi. destruct (HA i Hi) as [H1 _]. unfold easter_upto, inyear, R, snap, goes_back. fold jan2004. cbv zeta. rewrite <- H1.
    destruct (jan2004 <=? add_offset o jan2004) eqn:E; split.
    - intros (H2 & _ & v & H3 & ->). split; [lia|]. apply in_cal_unit_pord in H3. rewrite H3. reflexivity.
    - intros (H2 & ->). split; [intros _; lia|]. split; [intros H; lia|]. eexists. split; [apply in_cal_unit_pord; reflexivity|reflexivity].
    - intros (_ & H2 & v & H3 & ->). split; [lia|]. apply in_cal_unit_pord in H3. rewrite H3. reflexivity.
    - intros (H2 & ->). split; [intros H; lia|]. split; [intros _; lia|]. eexists. split; [apply in_cal_unit_pord; reflexivity|reflexivity]. }
  exists (map (fun i => Y0 + i) (filter inyear units)). eexists. split; [reflexivity|]. split.
  { unfold units. assert (HS : forall l, asc l -> asc (map (fun i => Y0 + i) l)).
    { intros l Hl. induction Hl as [|x l Hs IH Hf]; [constructor|]. cbn [map]. constructor; [exact IH|]. rewrite Forall_forall in *. intros z Hz. apply in_map_iff in Hz. destruct Hz as (q & <- & Hq). specialize (Hf q Hq). lia. }
    apply HS, asc_filter, asc_zrange. }
  split.
  - intros y. rewrite in_map_iff. split.
    + intros (i & <- & Hi). apply filter_In in Hi. destruct Hi as [Hi Hin]. split; [unfold units in Hi; apply zrange_In in Hi; lia|].
      exists (R i). apply Hmk; [exact Hi|]. split; [exact Hin|reflexivity].
    + intros (Hy & t & Ht). exists (y - Y0). split; [lia|]. assert (Hi : In (y - Y0) units) by (unfold units; apply zrange_In; lia).
      apply filter_In. split; [exact Hi|]. replace y with (Y0 + (y - Y0)) in Ht by lia. apply (proj1 (Hmk (y - Y0) t Hi)) in Ht. apply Ht.
  - assert (HF : forall l, (forall i, In i l -> In i units /\ inyear i = true) -> Forall2 (easter_upto orth norm o) (map (fun i => Y0 + i) l) (map R l)).
    { induction l as [|i l IH]; intros Hl; [constructor|]. cbn [map]. constructor; [|apply IH; intros j Hj; apply Hl; right; exact Hj].
      destruct (Hl i (or_introl eq_refl)) as [Hl1 Hl2]. apply Hmk; [exact Hl1|]. split; [exact Hl2|reflexivity]. }
    apply HF. intros i Hi. apply filter_In in Hi. exact Hi.
Qed.

Lemma easter_upto_mark orth norm o y t : forward o \/ backward o -> easter_year y -> (easter_upto orth norm o y t <-> easter_mark orth norm o y t).
Proof.
  intros Ho Hy. destruct (C42_easter_pf orth y Hy) as (H1 & _ & H3). rewrite H1 in H3. unfold easter_upto, easter_mark. cbv zeta.
  set (E := easter_day orth y * NS_DAY).
  assert (HE : date y 1 1 * NS_DAY <= E < date (y + 1) 1 1 * NS_DAY).
  { assert (date y 1 1 <= date y 3 22). { unfold date. pose proof (month_start_mono ((y - 1970) * 12 + (1 - 1)) ((y - 1970) * 12 + (3 - 1)) ltac:(lia)). lia. }
    unfold E, NS_DAY. lia. }
  clearbody E. destruct Ho as [Ho|Ho].
  - assert (Hg : ~ goes_back o) by (unfold goes_back; pose proof (forward_le o (date 2004 1 1 * NS_DAY) Ho); lia).
    pose proof (forward_le o E Ho). split.
    + intros (H4 & _ & H5). specialize (H4 Hg). split; [lia|exact H5].
    + intros (H4 & H5). split; [intros _; lia|]. split; [contradiction|exact H5].
  - assert (Hg : goes_back o) by (apply (backward_lt o (date 2004 1 1 * NS_DAY) Ho)).
    pose proof (backward_lt o E Ho). split.
    + intros (_ & H4 & H5). specialize (H4 Hg). split; [lia|exact H5].
    + intros (H4 & H5). split; [contradiction|]. split; [intros _; lia|exact H5].
Qed.

Lemma C42_marks_pf : forall orthodox o g norm t0 t1 pi,
  fbase (to_freq g) = BA 12 -> fmult (to_freq g) = 1%positive -> check_groupby_freq norm g = true -> mk_frame g t0 t1 = Ok pi ->
  easter_year (year_of (t0 / NS_DAY)) -> easter_year (year_of (t1 / NS_DAY)) -> forward o \/ backward o ->
  exists ys marks, from_easter orthodox o pi norm = Ok marks
    /\ StronglySorted Z.lt ys
    /\ (forall y, In y ys <-> year_of (t0 / NS_DAY) <= y <= year_of (t1 / NS_DAY) /\ exists t, easter_mark orthodox norm o y t)
    /\ Forall2 (easter_mark orthodox norm o) ys marks.
Proof.
  intros orth o g norm t0 t1 pi Hb Hmul Hc Hpi Hy0 Hy1 Ho.
  destruct (C42_every_pf orth o g norm t0 t1 pi (forward_usable o Ho) Hb Hmul Hc Hpi Hy0 Hy1) as (ys & marks & E & Hs & Hin & HF).
  assert (HY : forall y, year_of (t0 / NS_DAY) <= y <= year_of (t1 / NS_DAY) -> easter_year y) by (unfold easter_year in *; intros y; lia).
  exists ys, marks. split; [exact E|]. split; [exact Hs|]. split.
  - intros y. rewrite Hin. split; intros [H (t & Ht)]; (split; [exact H|]); exists t; apply (easter_upto_mark orth norm o y t Ho (HY y H)); exact Ht.
  - assert (HI : forall y, In y ys -> easter_year y) by (intros y Hy; apply HY, Hin, Hy).
    clear - HF HI Ho. induction HF as [|y t ys ts Ht HF IH]; [constructor|].
    constructor; [apply easter_upto_mark; [exact Ho|apply HI; left; reflexivity|exact Ht]|]. apply IH. intros z Hz. apply HI. right. exact Hz.
Qed.

Lemma filter_length_le {A} (f : A -> bool) l : (length (filter f l) <= length l)%nat.
Proof. induction l as [|y l IH]; [reflexivity|]. cbn [filter length]. destruct (f y); cbn [length]; lia. Qed.
(** Any periods: each must hold the Easter of the year it ends in. *)
Lemma filter_shorter {A} (f : A -> bool) l x : In x l -> f x = false -> (length (filter f l) < length l)%nat.
Proof.
  induction l as [|y l IH]; intros Hx Hf; [contradiction|]. cbn [filter length]. pose proof (filter_length_le f l) as Hle.
  destruct Hx as [->|Hx]; [rewrite Hf; lia|]. specialize (IH Hx Hf). destruct (f y); cbn [length]; lia.
Qed.

Lemma C42_periods_pf : forall orthodox o g norm t0 t1 pi, usable o -> accepts norm g -> mk_frame g t0 t1 = Ok pi ->
  (forall k p', 0 <= k < fr_len pi -> group_start g t0 (k + 1) p' -> easter_year (year_of ((p' - 1) / NS_DAY))) ->
  ((exists k e, 0 <= k < fr_len pi /\ group_easter orthodox g t0 k e /\ ~ in_group g t0 k e) -> from_easter orthodox o pi norm = Err EValue)
  /\ ((forall k e, 0 <= k < fr_len pi -> group_easter orthodox g t0 k e -> in_group g t0 k e) ->
      exists ks marks, from_easter orthodox o pi norm = Ok marks
        /\ StronglySorted Z.lt ks
        /\ (forall k, In k ks <-> 0 <= k < fr_len pi /\ exists t, group_mark orthodox g norm t0 o k t)
        /\ Forall2 (group_mark orthodox g norm t0 o) ks marks).
Proof.
  intros orth o g norm t0 t1 pi Hus Hc Hpi Hy.
  destruct (stencil_gframe g t0 t1 pi Hpi) as (Hst & Hw & _ & _). set (G := gframe g t0) in *. unfold fr_wf in Hw.
  assert (Hend : forall k, unit_end pi k = unit_start G (k + 1) - 1) by (intros k; rewrite unit_end_next, Hst; reflexivity).
  unfold from_easter. rewrite (usable_none o Hus). cbv zeta. set (units := zrange 0 (Z.to_nat (fr_len pi))).
  set (A := fun i => easter orth (year_of (unit_end pi i / NS_DAY)) * NS_DAY).
  change (map (fun i => easter orth (year_of (unit_end pi i / NS_DAY)) * NS_DAY) units) with (map A units).
  assert (Hun : forall i, In i units <-> 0 <= i < fr_len pi) by (intros i; unfold units; rewrite zrange_In; lia).
  assert (HE : forall i e, 0 <= i < fr_len pi -> (group_easter orth g t0 i e <-> e = A i)).
  { intros i e Hi. assert (Hgs : group_start g t0 (i + 1) (unit_start G (i + 1))) by (apply group_start_iff; reflexivity).
    pose proof (Hy i _ Hi Hgs) as Hey. destruct (C42_easter_pf orth _ Hey) as (H1 & _). unfold A. rewrite Hend. split.
    - intros (p' & Hp' & ->). apply group_start_iff in Hp'. subst p'. fold G. rewrite H1. reflexivity.
    - intros ->. exists (unit_start G (i + 1)). split; [exact Hgs|]. rewrite H1. reflexivity. }
  assert (HI : forall i, in_group g t0 i (A i) <-> (unit_start pi i <=? A i) && (A i <=? unit_end pi i) = true).
  { intros i. rewrite in_group_iff. fold G. rewrite unit_of_iff, unit_end_next, Hend, Hst. lia. }
  rewrite filter_combine3. split.
  - intros (k & e & Hk & He & Hn). apply (HE k e Hk) in He. subst e.
    assert (Hlt : Nat.lt (length (filter (fun i => (unit_start pi i <=? A i) && (A i <=? unit_end pi i)) units)) (length units)).
    { apply (filter_shorter _ _ k); [apply Hun, Hk|]. destruct ((unit_start pi k <=? A k) && (A k <=? unit_end pi k)) eqn:E; [|reflexivity].
      exfalso. apply Hn, HI, E. }
    unfold filter2. rewrite !map_length.
    destruct (Nat.eqb (length (filter (fun i => (unit_start pi i <=? A i) && (A i <=? unit_end pi i)) units)) (length units)) eqn:E; [lia|].
    cbn [negb]. destruct (jan2004 <=? add_offset o jan2004); reflexivity.
  - intros Hall. rewrite (filter_all _ units) by (intros i Hi; apply HI, Hall; [apply Hun, Hi|apply HE; [apply Hun, Hi|reflexivity]]).
    rewrite map_map. set (R := fun x => snap norm (add_offset o (A x))).
    change (map (fun x => snap norm (add_offset o (A x))) units) with (map R units).
    assert (Hal : forall k, exists w, unit_start G k = pstart (fbase (to_freq norm)) w).
    { intros k. destruct (accepted_base norm g Hc (unit_ord G k)) as [w Hw']. exists w. rewrite Hw'. reflexivity. }
    set (keep := fun i => if jan2004 <=? add_offset o jan2004 then add_offset o (A i) <? unit_start G (i + 1)
                          else unit_start G i <=? add_offset o (A i)).
    assert (Hres : (if jan2004 <=? add_offset o jan2004 then filter2 Z.leb (map R units) (map (unit_end pi) units)
                    else filter2 Z.geb (map R units) (map (unit_start pi) units)) = Ok (map R (filter keep units))).
    { unfold keep. destruct (jan2004 <=? add_offset o jan2004) eqn:E; rewrite filter2_map; do 2 f_equal; apply filter_ext_in; intros i Hi.
      - rewrite Hend. unfold R. destruct (Hal (i + 1)) as [w Hw']. pose proof (snap_lt norm (add_offset o (A i)) w) as Hsn. rewrite <- Hw' in Hsn. lia.
      - rewrite Hst. unfold R. destruct (Hal i) as [w Hw'].
        pose proof (snap_lt norm (add_offset o (A i)) w) as Hsn. rewrite <- Hw' in Hsn. lia. }
    rewrite Hres. clear Hres.
    assert (Hmk : forall i t, In i units -> (group_mark orth g norm t0 o i t <-> keep i = true /\ t = R i)).
    { intros i t Hi. apply Hun in Hi. assert (Hb : goes_back o <-> (jan2004 <=? add_offset o jan2004) = false) by (unfold goes_back; fold jan2004; lia).
      unfold keep. split.
      - intros (p & p' & e & v & Hp & Hp' & He & Hf & Hbk & Hv & ->). apply (HE i e Hi) in He. subst e.
        apply group_start_iff in Hp, Hp'. fold G in Hp, Hp'. subst p p'. apply in_cal_unit_pord in Hv. unfold R, snap. rewrite Hv.
        split; [|reflexivity]. destruct (jan2004 <=? add_offset o jan2004) eqn:E.
        + assert (Hng : ~ goes_back o) by (rewrite Hb; discriminate). specialize (Hf Hng). lia.
        + specialize (Hbk (proj2 Hb eq_refl)). lia.
      - intros (Hk & ->). exists (unit_start G i), (unit_start G (i + 1)), (A i), (pord (fbase (to_freq norm)) (add_offset o (A i))).
        split; [apply group_start_iff; reflexivity|]. split; [apply group_start_iff; reflexivity|]. split; [apply HE; [exact Hi|reflexivity]|].
        destruct (jan2004 <=? add_offset o jan2004) eqn:E.
        + split; [intros _; lia|]. split; [intros H; apply Hb in H; discriminate|]. split; [apply in_cal_unit_pord; reflexivity|reflexivity].
        + split; [intros H; exfalso; apply H, Hb; reflexivity|]. split; [intros _; lia|]. split; [apply in_cal_unit_pord; reflexivity|reflexivity]. }
    exists (filter keep units). eexists. split; [reflexivity|]. split; [apply asc_filter, asc_zrange|]. split.
    + intros k. rewrite filter_In, Hun. split.
      * intros [Hk Hkk]. split; [exact Hk|]. exists (R k). apply Hmk; [apply Hun, Hk|]. split; [exact Hkk|reflexivity].
      * intros [Hk (t & Ht)]. split; [exact Hk|]. apply Hmk in Ht; [apply Ht|apply Hun, Hk].
    + assert (HF : forall l, (forall i, In i l -> In i units /\ keep i = true) -> Forall2 (group_mark orth g norm t0 o) l (map R l)).
      { induction l as [|i l IH]; intros Hl; [constructor|]. cbn [map]. constructor; [|apply IH; intros j Hj; apply Hl; right; exact Hj].
        destruct (Hl i (or_introl eq_refl)) as [Hl1 Hl2]. apply Hmk; [exact Hl1|]. split; [exact Hl2|reflexivity]. }
      apply HF. intros i Hi. apply filter_In in Hi. exact Hi.
Qed.
