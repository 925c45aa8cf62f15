(** Proofs about the marks of a Marker with `at`. *)
From Verif Require Import Base BaseProofs Civil CivilProofs Freq FreqProofs Frame FrameProofs When Timeline Board Spec SpecLookup SpecCivil SpecLayout SpecWhen BoardProofs TimelineProofs LookupProofs PartProofs.
From Coq Require Import Sorted ZifyBool ZifyNat.
Ltac Zify.zify_post_hook ::= Z.div_mod_to_equations.

(** ** Months *)
Lemma month_of_day_iff d m : month_of_day d = m <-> month_start m <= d < month_start (m + 1).
Proof.
  pose proof (month_of_day_spec d) as H. split; [intros <-; exact H|]. intros H'.
  destruct (Z.lt_trichotomy (month_of_day d) m) as [C|[C|C]]; [|exact C|].
  - pose proof (proj1 (month_start_le_iff (month_of_day d + 1) m)). lia.
  - pose proof (proj1 (month_start_le_iff (m + 1) (month_of_day d))). lia.
Qed.

Lemma add_months_spec t k :
  let d := t / NS_DAY in let m := month_of_day d in
  add_months t k / NS_DAY = month_start (m + k) + Z.min (d - month_start m) (month_len (m + k) - 1)
  /\ add_months t k mod NS_DAY = t mod NS_DAY
  /\ month_of_day (add_months t k / NS_DAY) = m + k.
Proof.
  cbv zeta. unfold add_months. set (d := t / NS_DAY). set (m := month_of_day d).
  set (x := month_start (m + k) + Z.min (d - month_start m) (month_len (m + k) - 1)).
  assert (H1 : (x * NS_DAY + t mod NS_DAY) / NS_DAY = x) by (unfold NS_DAY; lia).
  assert (H2 : (x * NS_DAY + t mod NS_DAY) mod NS_DAY = t mod NS_DAY) by (unfold NS_DAY; lia).
  split; [exact H1|]. split; [exact H2|]. rewrite H1. apply month_of_day_iff. unfold x.
  pose proof (month_of_day_spec d) as Hd. fold m in Hd. pose proof (month_start_lt (m + k)) as Hl.
  unfold month_len in *. lia.
Qed.
Lemma add_months_0 t : add_months t 0 = t.
Proof.
  destruct (add_months_spec t 0) as (H1 & H2 & _). cbv zeta in *. rewrite Z.add_0_r in H1. unfold month_len in H1.
  pose proof (month_of_day_spec (t / NS_DAY)) as Hd. unfold NS_DAY in *. lia.
Qed.
Lemma add_months_pos t k : 0 < k -> t < add_months t k.
Proof.
  intros Hk. destruct (add_months_spec t k) as (H1 & H2 & H3). cbv zeta in *.
  pose proof (month_of_day_spec (t / NS_DAY)) as Hd. pose proof (month_of_day_spec (add_months t k / NS_DAY)) as Hd'. rewrite H3 in Hd'.
  pose proof (proj1 (month_start_le_iff (month_of_day (t / NS_DAY) + 1) (month_of_day (t / NS_DAY) + k)) ltac:(lia)). unfold NS_DAY in *. lia.
Qed.
Lemma add_months_neg t k : k < 0 -> add_months t k < t.
Proof.
  intros Hk. destruct (add_months_spec t k) as (H1 & H2 & H3). cbv zeta in *.
  pose proof (month_of_day_spec (t / NS_DAY)) as Hd. pose proof (month_of_day_spec (add_months t k / NS_DAY)) as Hd'. rewrite H3 in Hd'.
  pose proof (proj1 (month_start_le_iff (month_of_day (t / NS_DAY) + k + 1) (month_of_day (t / NS_DAY))) ltac:(lia)). unfold NS_DAY in *. lia.
Qed.

Lemma forward_le o t : forward o -> t <= add_offset o t.
Proof.
  destruct o as [|y m w d h mi s|]; cbn [forward add_offset]; [unfold NS_DAY; lia| |contradiction]. intros H.
  assert (Hm : t <= if (y =? 0) && (m =? 0) then t else add_months t (12 * y + m)).
  { destruct ((y =? 0) && (m =? 0)) eqn:E; [lia|]. pose proof (add_months_pos t (12 * y + m) ltac:(lia)). lia. }
  unfold NS_DAY, NS_HOUR, NS_MIN, NS_SEC in *. lia.
Qed.
Lemma backward_lt o t : backward o -> add_offset o t < t.
Proof.
  destruct o as [|y m w d h mi s|]; cbn [backward add_offset]; [contradiction| |contradiction]. intros [H H'].
  assert (Hm : (if (y =? 0) && (m =? 0) then t else add_months t (12 * y + m)) <= t /\ ((y < 0 \/ m < 0) -> (if (y =? 0) && (m =? 0) then t else add_months t (12 * y + m)) < t)).
  { destruct ((y =? 0) && (m =? 0)) eqn:E; [lia|]. pose proof (add_months_neg t (12 * y + m) ltac:(lia)). lia. }
  unfold NS_DAY, NS_HOUR, NS_MIN, NS_SEC in *. lia.
Qed.

(** ** Absolute keywords *)
Lemma set_month_ok a M m : within (ab_month a) 0 12 -> 1 <= M <= 12 ->
  1 <= snd (set_month a M m) <= 12 /\ 12 * fst (set_month a M m) + snd (set_month a M m) = or_zero (ab_month a) M + m.
Proof.
  intros Ha HM. assert (Hx : 1 <= or_zero (ab_month a) M <= 12).
  { unfold or_zero, within in *. destruct (ab_month a) as [v|]; [|exact HM]. specialize (Ha v eq_refl). destruct (v =? 0) eqn:E; lia. }
  unfold set_month. cbv zeta. set (x := or_zero (ab_month a) M) in *. clearbody x.
  pose proof (Z.quot_rem' m 12) as H1. pose proof (Z.rem_bound_abs m 12 ltac:(lia)) as H2.
  destruct (Z.rem m 12 =? 0) eqn:E0; [cbn [fst snd]; lia|]. destruct (12 <? x + Z.rem m 12) eqn:E1; [cbn [fst snd]; lia|].
  destruct (x + Z.rem m 12 <? 1) eqn:E2; cbn [fst snd]; lia.
Qed.
Lemma out_of_within x lo hi : out_of x lo hi = false <-> within x lo hi.
Proof.
  unfold out_of, within. destruct x as [v|]; [|split; [intros _ v H; discriminate H|reflexivity]].
  split; [intros H v' E; injection E as <-; lia|intros H; specialize (H v eq_refl); lia].
Qed.
Lemma usable_none o : usable o -> offset_error o = None.
Proof.
  destruct o as [| |a y m w d h mi s]; [reflexivity|reflexivity|]. cbn [usable offset_error]. intros (H1 & H2 & H3 & H4 & H5 & H6).
  apply out_of_within in H3, H4, H5. rewrite H3, H4, H5. destruct (set_month_ok a 1 m H1 ltac:(lia)) as [H7 _].
  replace ((1 <=? snd (set_month a 1 m)) && (snd (set_month a 1 m) <=? 12)) with true by lia.
  destruct (ab_weekday a) as [[x n]|]; [specialize (H6 x n eq_refl); replace ((-7 <=? x) && (x <=? 6)) with true by lia|];
    (destruct (ab_day a) as [v|]; [specialize (H2 v eq_refl); replace (v <? 0) with false by lia|]; reflexivity).
Qed.
Lemma forward_usable o : forward o \/ backward o -> usable o.
Proof. destruct o; cbn; tauto. Qed.
Lemma out_of_not x lo hi : ~ within x lo hi -> out_of x lo hi = true.
Proof. intros H. destruct (out_of x lo hi) eqn:E; [reflexivity|]. apply out_of_within in E. contradiction. Qed.
Lemma unusable_error o e : unusable o e -> offset_error o = Some e.
Proof.
  destruct o as [| |a y m w d h mi s]; cbn [unusable offset_error]; [contradiction|contradiction|].
  intros [(-> & x & n & E & H)|(-> & Hw & H)].
  - rewrite E. replace ((-7 <=? x) && (x <=? 6)) with false by lia. reflexivity.
  - replace (match ab_weekday a with Some (w0, _) => negb ((-7 <=? w0) && (w0 <=? 6)) | None => false end) with false.
    2:{ destruct (ab_weekday a) as [[x n]|]; [specialize (Hw x n eq_refl); lia|reflexivity]. }
    destruct H as [[H Hm]|[H|[H|[H|H]]]].
    + assert (E : negb ((1 <=? snd (set_month a 1 m)) && (snd (set_month a 1 m) <=? 12)) = true).
      { unfold set_month. cbv zeta. assert (Er : Z.rem m 12 = 0) by (apply Z.rem_divide; [lia|]; apply Z.mod_divide; [lia|exact Hm]). rewrite Er. cbn [Z.eqb snd].
        unfold within, or_zero in *. destruct (ab_month a) as [v|]; [|destruct H; intros v Hv; discriminate Hv].
        destruct (v =? 0) eqn:E; [destruct H; intros v' Hv; injection Hv as <-; lia|].
        destruct (Z.le_gt_cases 0 v) as [C|C]; [|lia]. destruct (Z.le_gt_cases v 12) as [C'|C']; [|lia].
        destruct H. intros v' Hv. injection Hv as <-. lia. }
      rewrite E. reflexivity.
    + replace (match ab_day a with Some v => v <? 0 | None => false end) with true; [rewrite orb_true_r; reflexivity|].
      destruct (ab_day a) as [v|]; [|destruct H; intros v Hv; discriminate Hv].
      destruct (v <? 0) eqn:E; [reflexivity|]. destruct H. intros v' Hv. injection Hv as <-. lia.
    + rewrite (out_of_not _ _ _ H), orb_true_r. reflexivity.
    + rewrite (out_of_not _ _ _ H), orb_true_r. reflexivity.
    + rewrite (out_of_not _ _ _ H), orb_true_r. reflexivity.
Qed.
Lemma C46_refused_pf : forall o e pi norm, unusable o e ->
  from_start_of_each o pi norm = Err e /\ forall orthodox, from_easter orthodox o pi norm = Err e.
Proof.
  intros o e pi norm H. apply unusable_error in H. unfold from_start_of_each, from_easter. rewrite H. split; reflexivity.
Qed.

(** ** C37: the function *)
Lemma accepted_base norm g : accepts norm g ->
  forall o, exists v, pstart (fbase (to_freq norm)) v = pstart (fbase (to_freq g)) o.
Proof.
  intros (On & Og & H) o. unfold check_groupby_freq in H. rewrite (one_part_freq norm On), (one_part_freq g Og). cbn [fbase].
  assert (Hal : is_subperiod_alias (falias norm) (falias g) = true -> exists v, pstart (alias_base (falias norm)) v = pstart (alias_base (falias g)) o).
  { intros Hs. apply is_subperiod_alias_aligned in Hs. destruct (Hs o) as [v Hv]. exists v. exact Hv. }
  destruct (is_subperiod norm g) eqn:E.
  - unfold is_subperiod in E. destruct (fdigits norm) eqn:E1; [discriminate|]. destruct (fdigits g); [discriminate|]. apply Hal, E.
  - unfold re_match in H.
    assert (H' : (if Pos.eqb (opt_or (fdigits norm) 1%positive) 1 && Pos.eqb (opt_or (fdigits g) 1%positive) 1 then false
        else if alias_eqb (falias norm) (falias g) then Zpos (opt_or (fdigits g) 1%positive) mod Zpos (opt_or (fdigits norm) 1%positive) =? 0
        else if Pos.eqb (opt_or (fdigits norm) 1%positive) 1 then is_subperiod_alias (falias norm) (falias g) else false) = true).
    { unfold one_part in On, Og. revert H On Og. clear. intros H On Og. destruct (falias norm); try contradiction; destruct (falias g); try contradiction; try exact H; exfalso; exact (Bool.diff_false_true H). }
    clear H. destruct (Pos.eqb (opt_or (fdigits norm) 1%positive) 1 && Pos.eqb (opt_or (fdigits g) 1%positive) 1); [discriminate|].
    destruct (alias_eqb (falias norm) (falias g)) eqn:Ea.
    + apply alias_eqb_base in Ea. rewrite Ea. exists o. reflexivity.
    + destruct (Pos.eqb (opt_or (fdigits norm) 1%positive) 1); [|discriminate]. apply Hal, H'.
Qed.

(** Moving back to the start of a unit stays on the same side of a boundary. *)
Lemma snap_lt norm t v : snap norm t < pstart (fbase (to_freq norm)) v <-> t < pstart (fbase (to_freq norm)) v.
Proof.
  unfold snap. set (b := fbase (to_freq norm)). pose proof (pord_spec b t) as H.
  pose proof (pord_le_iff b v t). pose proof (pstart_le_iff b v (pord b t)). lia.
Qed.

Lemma mark_of_iff g norm t0 o k t : mark_of g norm t0 o k t <->
  in_group g t0 k (add_offset o (unit_start (gframe g t0) k)) /\ t = snap norm (add_offset o (unit_start (gframe g t0) k)).
Proof.
  unfold mark_of. split.
  - intros (p & v & Hp & Hg & Hv & ->). apply group_start_iff in Hp. subst p. split; [exact Hg|].
    apply in_cal_unit_pord in Hv. unfold snap. rewrite Hv. reflexivity.
  - intros [Hg ->]. exists (unit_start (gframe g t0) k), (pord (fbase (to_freq norm)) (add_offset o (unit_start (gframe g t0) k))).
    split; [apply group_start_iff; reflexivity|]. split; [exact Hg|]. split; [apply in_cal_unit_pord; reflexivity|reflexivity].
Qed.

Lemma filter_map_fst (A : Z -> Z) (B : Z -> Z) l :
  map fst (filter (fun p => fst p <=? snd p) (map (fun i => (A i, B i)) l)) = map A (filter (fun i => A i <=? B i) l).
Proof. induction l as [|i l IH]; [reflexivity|]. cbn [map filter fst snd]. destruct (A i <=? B i); cbn [map fst]; rewrite IH; reflexivity. Qed.

Lemma mark_upto_iff g norm t0 o k t : mark_upto g norm t0 o k t <->
  add_offset o (unit_start (gframe g t0) k) < unit_start (gframe g t0) (k + 1)
  /\ t = snap norm (add_offset o (unit_start (gframe g t0) k)).
Proof.
  unfold mark_upto. split.
  - intros (p & p' & v & Hp & Hp' & Hg & Hv & ->). apply group_start_iff in Hp, Hp'. subst p p'. split; [exact Hg|].
    apply in_cal_unit_pord in Hv. unfold snap. rewrite Hv. reflexivity.
  - intros [Hg ->]. exists (unit_start (gframe g t0) k), (unit_start (gframe g t0) (k + 1)), (pord (fbase (to_freq norm)) (add_offset o (unit_start (gframe g t0) k))).
    split; [apply group_start_iff; reflexivity|]. split; [apply group_start_iff; reflexivity|]. split; [exact Hg|].
    split; [apply in_cal_unit_pord; reflexivity|reflexivity].
Qed.

(** Offsets of any signs, and with absolute keywords. *)
Lemma C37_every_pf : forall o g norm t0 t1 pi, usable o -> accepts norm g -> mk_frame g t0 t1 = Ok pi ->
  (goes_back o -> from_start_of_each o pi norm = Ok [])
  /\ (~ goes_back o -> exists ks marks, from_start_of_each o pi norm = Ok marks
       /\ StronglySorted Z.lt ks
       /\ (forall k, In k ks <-> 0 <= k < fr_len pi /\ exists t, mark_upto g norm t0 o k t)
       /\ Forall2 (mark_upto g norm t0 o) ks marks).
Proof.
  intros o g norm t0 t1 pi Hus Hc Hpi. destruct (stencil_gframe g t0 t1 pi Hpi) as (Hst & Hw & _ & _). unfold fr_wf in Hw.
  set (G := gframe g t0) in *. unfold goes_back. fold jan2004.
  unfold from_start_of_each. rewrite (usable_none o Hus). destruct (add_offset o jan2004 <? jan2004) eqn:E; (split; intros Hj; [try lia; reflexivity|]); [lia|]. clear Hj E.
  rewrite filter_map_fst.
  set (A := fun i => snap norm (add_offset o (unit_start pi i))). fold A.
  assert (HA : forall k, (A k <=? unit_end pi k) = true <-> add_offset o (unit_start G k) < unit_start G (k + 1)).
  { intros k. unfold A. rewrite unit_end_next, Hst, Hst.
    destruct (accepted_base norm g Hc (unit_ord G (k + 1))) as [v Hv]. change (pstart (fbase (to_freq g)) (unit_ord G (k + 1))) with (unit_start G (k + 1)) in Hv.
    rewrite <- Hv. pose proof (snap_lt norm (add_offset o (unit_start G k)) v) as H1. clear - H1. rewrite Z.leb_le. lia. }
  exists (filter (fun i => A i <=? unit_end pi i) (zrange 0 (Z.to_nat (fr_len pi)))). eexists. split; [reflexivity|]. split; [apply asc_filter, asc_zrange|]. split.
  - intros k. rewrite filter_In, zrange_In, HA. split.
    + intros [H1 H2]. split; [lia|]. eexists. apply mark_upto_iff. split; [exact H2|reflexivity].
    + intros [H1 (t & Ht)]. apply mark_upto_iff in Ht. split; [lia|apply Ht].
  - clear Hw. assert (HF : forall l, (forall k, In k l -> (A k <=? unit_end pi k) = true) -> Forall2 (mark_upto g norm t0 o) l (map A l)).
    { induction l as [|k l IH]; intros Hl; [constructor|]. cbn [map]. constructor; [|apply IH; intros j Hj; apply Hl; right; exact Hj].
      apply mark_upto_iff. fold G. split; [apply HA, Hl; left; reflexivity|]. unfold A. rewrite Hst. reflexivity. }
    apply HF. intros k Hk. apply filter_In in Hk. apply Hk.
Qed.

Lemma mark_upto_forward g norm t0 o k t : forward o -> (mark_upto g norm t0 o k t <-> mark_of g norm t0 o k t).
Proof.
  intros Ho. rewrite mark_upto_iff, mark_of_iff, in_group_iff, unit_of_iff, unit_end_next.
  pose proof (forward_le o (unit_start (gframe g t0) k) Ho) as H. split; intros [H1 H2]; (split; [lia|exact H2]).
Qed.

Lemma C37_marks_partial_pf : forall o g norm t0 t1 pi, forward o -> accepts norm g -> mk_frame g t0 t1 = Ok pi ->
  exists ks marks, from_start_of_each o pi norm = Ok marks
    /\ StronglySorted Z.lt ks
    /\ (forall k, In k ks <-> 0 <= k < fr_len pi /\ exists t, mark_of g norm t0 o k t)
    /\ Forall2 (mark_of g norm t0 o) ks marks.
Proof.
  intros o g norm t0 t1 pi Ho Hc Hpi. destruct (C37_every_pf o g norm t0 t1 pi (forward_usable o (or_introl Ho)) Hc Hpi) as [_ H].
  destruct H as (ks & marks & E & Hs & Hk & HF).
  { unfold goes_back. pose proof (forward_le o (date 2004 1 1 * NS_DAY) Ho). lia. }
  exists ks, marks. split; [exact E|]. split; [exact Hs|]. split.
  - intros k. rewrite Hk. split; intros [H1 (t & Ht)]; (split; [exact H1|]); exists t; apply (mark_upto_forward g norm t0 o k t Ho); exact Ht.
  - clear - HF Ho. induction HF as [|k t ks ts Ht HF IH]; [constructor|]. constructor; [apply mark_upto_forward; assumption|exact IH].
Qed.

(** ** C63: absolute keywords *)
Lemma jump_nonneg w n d : 0 <= n -> 0 <= jump w n d.
Proof.
  intros Hn. unfold jump. cbv zeta. destruct (n =? 0) eqn:E; [change (0 <? 1) with true|replace (0 <? n) with true by lia];
    pose proof (Z.mod_pos_bound (7 - weekday d + w) 7 ltac:(lia)); cbv iota; lia.
Qed.
Lemma onward_le o p : usable o -> onward o -> p mod NS_DAY = 0 -> (keeps_day o \/ exists m, p = month_start m * NS_DAY) -> p <= add_offset o p.
Proof.
  destruct o as [|y m w d h mi s|a y m w d h mi s]; intros Hus Ho Hp Hk; [apply forward_le, Ho|apply forward_le, Ho|].
  cbn [usable onward keeps_day add_offset] in *. destruct Hus as (Umo & Ud & Uh & Umi & Us & _). destruct Ho as (Ey & Em & Ew & Hy & Hm & Hw & Hd & Hh & Hmi & Hs).
  unfold add_absolute. cbv zeta. set (D := p / NS_DAY) in *. assert (HD : p = D * NS_DAY) by (unfold D, NS_DAY in *; lia).
  rewrite Hp.
  assert (HM : 1 <= month_num D <= 12) by (unfold month_num; lia).
  destruct (set_month_ok a _ m Umo HM) as [Hx Hcx]. destruct (set_month a (month_num D) m) as [c x]. cbn [fst snd] in *.
  rewrite Em in Hcx. rewrite Ey. cbn [or_zero] in *.
  set (k := 12 * (year_of D + y + c - 1970) + (x - 1)).
  assert (Ek : k = month_of_day D + 12 * y + m) by (unfold k, year_of, month_num in *; clear - Hcx; lia). clearbody k.
  set (dd := Z.min (month_len k) (or_zero (ab_day a) (mday_of D))).
  pose proof (month_of_day_spec D) as HmD.
  assert (Hdd : 1 <= dd /\ (k = month_of_day D -> D <= month_start k + (dd - 1))).
  { unfold dd. pose proof (month_start_lt k) as Hlt. unfold month_len.
    assert (Hor : 1 <= or_zero (ab_day a) (mday_of D)).
    { unfold or_zero, mday_of. destruct (ab_day a) as [v|] eqn:E; [specialize (Ud v eq_refl); destruct (v =? 0) eqn:E0|]; lia. }
    split; [lia|]. intros ->. destruct Hk as [Hk|[m0 Hk]].
    - rewrite Hk. cbn [or_zero]. unfold mday_of. lia.
    - assert (ED : D = month_start m0) by (unfold NS_DAY in *; lia).
      assert (Emo : month_of_day D = m0) by (apply month_of_day_iff; pose proof (month_start_lt m0); lia). rewrite Emo in *. lia. }
  clearbody dd. assert (HT : D <= month_start k + (dd - 1)).
  { destruct (Z.eq_dec k (month_of_day D)) as [->|N]; [apply Hdd; reflexivity|].
    pose proof (proj1 (month_start_le_iff (month_of_day D + 1) k) ltac:(lia)). lia. }
  set (h1 := or_none (ab_hour a) (0 / NS_HOUR)). set (m1 := or_none (ab_minute a) _). set (s1 := or_none (ab_second a) _).
  assert (H1 : 0 <= h1 /\ 0 <= m1 /\ 0 <= s1).
  { unfold h1, m1, s1, within, or_none in *. 
    split; [destruct (ab_hour a) as [v|]; [specialize (Uh v eq_refl); lia|vm_compute; discriminate]|].
    split; [destruct (ab_minute a) as [v|]; [specialize (Umi v eq_refl); lia|vm_compute; discriminate]|].
    destruct (ab_second a) as [v|]; [specialize (Us v eq_refl); lia|vm_compute; discriminate]. }
  clearbody h1 m1 s1. change (0 mod NS_SEC) with 0.
  set (T := (month_start k + (dd - 1)) * NS_DAY + h1 * NS_HOUR + m1 * NS_MIN + s1 * NS_SEC + 0 + (7 * w + d) * NS_DAY + h * NS_HOUR + mi * NS_MIN + s * NS_SEC).
  assert (HpT : p <= T).
  { unfold T. rewrite HD. revert HT H1 Hw Hd Hh Hmi Hs. generalize (month_start k + (dd - 1)). clear. unfold NS_DAY, NS_HOUR, NS_MIN, NS_SEC. intros. lia. }
  clearbody T. destruct (ab_weekday a) as [[wd n]|]; [|exact HpT]. pose proof (jump_nonneg (wd mod 7) n (T / NS_DAY) (Ew wd n eq_refl)) as Hj.
  revert Hj HpT. generalize (jump (wd mod 7) n (T / NS_DAY)). clear. unfold NS_DAY. intros. lia.
Qed.
Lemma days_start g o : of_days g -> pstart (fbase (to_freq g)) o mod NS_DAY = 0.
Proof.
  unfold of_days. destruct (fbase (to_freq g)); cbn [pstart]; try contradiction; intros _; try (apply Z_mod_mult).
Qed.
Lemma months_start g o : of_months g -> exists m, pstart (fbase (to_freq g)) o = month_start m * NS_DAY.
Proof.
  unfold of_months. destruct (fbase (to_freq g)); cbn [pstart]; try contradiction; intros _; eexists; reflexivity.
Qed.

Lemma C63_marks_partial_pf : forall o g norm t0 t1 pi, usable o -> onward o -> of_months g \/ (of_days g /\ keeps_day o) ->
  accepts norm g -> mk_frame g t0 t1 = Ok pi -> ~ goes_back o
  /\ exists ks marks, from_start_of_each o pi norm = Ok marks
    /\ StronglySorted Z.lt ks
    /\ (forall k, In k ks <-> 0 <= k < fr_len pi /\ exists t, mark_of g norm t0 o k t)
    /\ Forall2 (mark_of g norm t0 o) ks marks.
Proof.
  intros o g norm t0 t1 pi Hus Ho Hg Hc Hpi.
  assert (Hj : ~ goes_back o).
  { unfold goes_back. enough (date 2004 1 1 * NS_DAY <= add_offset o (date 2004 1 1 * NS_DAY)) by lia.
    apply (onward_le o _ Hus Ho); [apply Z_mod_mult|]. right. exists 408. reflexivity. }
  split; [exact Hj|].
  assert (Hle : forall k, unit_start (gframe g t0) k <= add_offset o (unit_start (gframe g t0) k)).
  { intros k. unfold unit_start. change (fr_base (gframe g t0)) with (fbase (to_freq g)). apply (onward_le o _ Hus Ho).
    - apply days_start. destruct Hg as [Hg|[Hg _]]; [|exact Hg]. unfold of_months in Hg. unfold of_days. destruct (fbase (to_freq g)); try contradiction; exact I.
    - destruct Hg as [Hg|[_ Hg]]; [right; apply months_start, Hg|left; exact Hg]. }
  assert (Hiff : forall k t, mark_upto g norm t0 o k t <-> mark_of g norm t0 o k t).
  { intros k t. rewrite mark_upto_iff, mark_of_iff, in_group_iff, unit_of_iff, unit_end_next.
    specialize (Hle k). split; intros [H1 H2]; (split; [lia|exact H2]). }
  destruct (C37_every_pf o g norm t0 t1 pi Hus Hc Hpi) as [_ H]. destruct (H Hj) as (ks & marks & E & Hs & Hk & HF).
  exists ks, marks. split; [exact E|]. split; [exact Hs|]. split.
  - intros k. rewrite Hk. split; intros [H1 (t & Ht)]; (split; [exact H1|]); exists t; apply Hiff; exact Ht.
  - clear - HF Hiff. induction HF as [|k t ks ts Ht HF IH]; [constructor|]. constructor; [apply Hiff, Ht|exact IH].
Qed.

Lemma C37_negative_pf : forall o pi norm, backward o -> from_start_of_each o pi norm = Ok [].
Proof.
  intros o pi norm Ho. unfold from_start_of_each. rewrite (usable_none o (forward_usable o (or_intror Ho))). pose proof (backward_lt o jan2004 Ho). destruct (add_offset o jan2004 <? jan2004) eqn:E; [reflexivity|lia].
Qed.

(** The marks of one offset, as a set. *)
Lemma from_start_In o g norm t0 t1 pi : forward o \/ backward o -> accepts norm g -> mk_frame g t0 t1 = Ok pi ->
  exists marks, from_start_of_each o pi norm = Ok marks
    /\ forall t, In t marks <-> exists k, mark_of g norm t0 o k t /\ 0 <= k < fr_len pi.
Proof.
  intros [Ho|Ho] Hc Hpi.
  - destruct (C37_marks_partial_pf o g norm t0 t1 pi Ho Hc Hpi) as (ks & marks & E & _ & Hk & HF). exists marks. split; [exact E|].
    intros t. split.
    + intros Ht. assert (HX : exists k, In k ks /\ mark_of g norm t0 o k t).
      { clear - HF Ht. induction HF as [|k x ks l Hkx HF IH]; [contradiction|]. destruct Ht as [<-|Ht]; [exists k; split; [left; reflexivity|exact Hkx]|].
        destruct (IH Ht) as (j & Hj & Hm). exists j. split; [right; exact Hj|exact Hm]. }
      destruct HX as (k & Hin & Hm). exists k. split; [exact Hm|]. apply Hk in Hin. apply Hin.
    + intros (k & Hm & Hr). assert (Hin : In k ks) by (apply Hk; split; [exact Hr|exists t; exact Hm]).
      clear - HF Hin Hm. induction HF as [|j x ks l Hjx HF IH]; [contradiction|]. destruct Hin as [->|Hin]; [|right; apply IH, Hin].
      left. apply mark_of_iff in Hm, Hjx. destruct Hm as [_ ->], Hjx as [_ ->]. reflexivity.
  - exists []. split; [apply C37_negative_pf, Ho|]. intros t. split; [contradiction|]. intros (k & Hm & _). apply mark_of_iff in Hm. destruct Hm as [Hm _].
    apply in_group_iff in Hm. apply unit_of_iff in Hm. pose proof (backward_lt o (unit_start (gframe g t0) k) Ho). lia.
Qed.

(** ** searchsorted on a list with repetitions *)
Lemma ss_left_iff l x k y : StronglySorted Z.le l -> znth l k = Some y -> (k < ss_left l x <-> y < x).
Proof.
  unfold ss_left. intros Hl. revert k. induction Hl as [|a l Hs IH Hf]; intros k Hk.
  - apply znth_range in Hk. znil. lia.
  - pose proof (znth_range _ _ _ Hk) as Rk. rewrite Forall_forall in Hf. cbn [filter].
    destruct (Z.eq_dec k 0) as [->|Nk].
    + rewrite znth_cons0 in Hk. injection Hk as <-. destruct (a <? x) eqn:E.
      * rewrite zlen_cons. pose proof (zlen_nonneg (filter (fun a => a <? x) l)). lia.
      * rewrite filter_none; [znil; lia|]. intros z Hz. specialize (Hf _ Hz). lia.
    + rewrite znth_cons in Hk by lia. pose proof (Hf _ (znth_In _ _ _ Hk)) as Hlt.
      specialize (IH _ Hk). destruct (a <? x) eqn:E; [rewrite zlen_cons; lia|].
      rewrite filter_none; [znil; lia|]. intros z Hz. specialize (Hf _ Hz). lia.
Qed.
Lemma ss_right_iff l x k y : StronglySorted Z.le l -> znth l k = Some y -> (k < ss_right l x <-> y <= x).
Proof.
  unfold ss_right. intros Hl. revert k. induction Hl as [|a l Hs IH Hf]; intros k Hk.
  - apply znth_range in Hk. znil. lia.
  - pose proof (znth_range _ _ _ Hk) as Rk. rewrite Forall_forall in Hf. cbn [filter].
    destruct (Z.eq_dec k 0) as [->|Nk].
    + rewrite znth_cons0 in Hk. injection Hk as <-. destruct (a <=? x) eqn:E.
      * rewrite zlen_cons. pose proof (zlen_nonneg (filter (fun a => a <=? x) l)). lia.
      * rewrite filter_none; [znil; lia|]. intros z Hz. specialize (Hf _ Hz). lia.
    + rewrite znth_cons in Hk by lia. pose proof (Hf _ (znth_In _ _ _ Hk)) as Hlt.
      specialize (IH _ Hk). destruct (a <=? x) eqn:E; [rewrite zlen_cons; lia|].
      rewrite filter_none; [znil; lia|]. intros z Hz. specialize (Hf _ Hz). lia.
Qed.
Lemma sorted_znth l i j x y : StronglySorted Z.le l -> znth l i = Some x -> znth l j = Some y -> i <= j -> x <= y.
Proof.
  intros Hl Hi Hj Hij. pose proof (ss_right_iff l y i x Hl Hi). pose proof (ss_right_iff l y j y Hl Hj). lia.
Qed.

(** The slice of the sorted marks that partition_with_marker keeps. *)
Lemma slice_marks (A : list Z) t0 t1 : StronglySorted Z.le A -> t0 < t1 ->
  let S := py_slice A (Z.max 0 (ss_right A t0 - 1)) (Z.min (zlen A) (ss_left A t1 + 1)) in
  (forall t, In t S -> In t A)
  /\ (forall t, In t A -> t0 < t <= t1 -> In t S)
  /\ (S = [] -> forall t, In t A -> False)
  /\ (forall p ps, S = p :: ps ->
       (last_upto (fun t => In t A) t0 p \/ (t0 < p /\ forall t, In t A -> t0 < t))
       /\ ((In (last (p :: ps) p) A /\ t1 <= last (p :: ps) p /\ forall t, In t A -> t1 <= t -> last (p :: ps) p <= t)
           \/ (last (p :: ps) p < t1 /\ forall t, In t A -> t < t1))).
Proof.
  intros HA Ht S. set (lo := Z.max 0 (ss_right A t0 - 1)). set (hi := Z.min (zlen A) (ss_left A t1 + 1)).
  pose proof (ss_right_le A t0) as B1. pose proof (ss_left_le A t1) as B2.
  assert (Hlr : ss_right A t0 <= ss_left A t1).
  { destruct (Z.eq_dec (ss_right A t0) 0) as [->|N]; [lia|].
    destruct (znth_ex A (ss_right A t0 - 1) ltac:(lia)) as [y Hy].
    pose proof (ss_right_iff A t0 _ _ HA Hy). pose proof (ss_left_iff A t1 _ _ HA Hy). lia. }
  assert (Hlo : 0 <= lo) by (unfold lo; lia). assert (Hlh : lo <= hi) by (unfold lo, hi; lia). assert (Hhi : hi <= zlen A) by (unfold hi; lia).
  assert (HS : zlen S = hi - lo) by (apply py_slice_len; lia).
  assert (Hz : forall i, 0 <= i < hi - lo -> znth S i = znth A (lo + i)) by (intros i Hi; apply py_slice_znth; lia).
  split.
  { intros t Hin. apply In_znth in Hin. destruct Hin as [i Hi]. pose proof (znth_range _ _ _ Hi). rewrite Hz in Hi by lia. exact (znth_In _ _ _ Hi). }
  assert (Hin : forall t, In t A -> t0 < t <= t1 -> In t S).
  { intros t Hin Htt. apply In_znth in Hin. destruct Hin as [i Hi]. pose proof (znth_range _ _ _ Hi).
    pose proof (ss_right_iff A t0 _ _ HA Hi) as C1. pose proof (ss_left_iff A t1 _ _ HA Hi) as C2.
    destruct (Z.lt_ge_cases i hi) as [C|C].
    - apply (znth_In _ (i - lo)). rewrite Hz by (unfold lo; lia). replace (lo + (i - lo)) with i by lia. exact Hi.
    - assert (Ei : ss_left A t1 <= i) by (unfold hi in C; lia). assert (t = t1) by lia. subst t.
      destruct (znth_ex A (ss_left A t1) ltac:(lia)) as [y Hy]. pose proof (ss_left_iff A t1 _ _ HA Hy) as C3.
      pose proof (sorted_znth A _ _ _ _ HA Hy Hi Ei). assert (y = t1) by lia. subst y.
      apply (znth_In _ (ss_left A t1 - lo)). rewrite Hz by (unfold lo, hi; lia). replace (lo + (ss_left A t1 - lo)) with (ss_left A t1) by lia. exact Hy. }
  split; [exact Hin|]. split.
  { intros E t HtA. rewrite E in HS. change (zlen []) with 0 in HS. apply In_znth in HtA. destruct HtA as [i Hi]. pose proof (znth_range _ _ _ Hi).
    unfold lo, hi in HS. lia. }
  intros p ps E. assert (HS1 : 1 <= hi - lo) by (rewrite <- HS, E, zlen_cons; pose proof (zlen_nonneg ps); lia).
  assert (Hp : znth A lo = Some p). { rewrite <- (Z.add_0_r lo), <- Hz by lia. rewrite E. apply znth_cons0. }
  assert (Hq : znth A (hi - 1) = Some (last (p :: ps) p)).
  { replace (hi - 1) with (lo + (hi - lo - 1)) by lia. rewrite <- Hz by lia. rewrite <- HS, E.
    clear. revert p. assert (X : forall (l : list Z) (a q : Z), znth (a :: l) (zlen (a :: l) - 1) = Some (last (a :: l) q)).
    { induction l as [|x l IH]; intros a q; [reflexivity|].
      change (last (a :: x :: l) q) with (last (x :: l) q). rewrite <- (IH x q). pose proof (zlen_nonneg l). rewrite !zlen_cons. rewrite znth_cons by lia. f_equal. lia. }
    intros p. apply X. }
  set (q := last (p :: ps) p) in *. split.
  - pose proof (ss_right_iff A t0 _ _ HA Hp) as C1. destruct (Z.eq_dec (ss_right A t0) 0) as [Ez|Nz].
    + right. assert (HA0 : forall t, In t A -> t0 < t). { intros t Hti. apply In_znth in Hti. destruct Hti as [i Hi]. pose proof (znth_range _ _ _ Hi). pose proof (ss_right_iff A t0 _ _ HA Hi). lia. }
      split; [|exact HA0]. apply HA0. exact (znth_In _ _ _ Hp).
    + left. split; [exact (znth_In _ _ _ Hp)|]. split; [unfold lo in *; lia|]. intros t Hti Hle. apply In_znth in Hti. destruct Hti as [i Hi].
      pose proof (ss_right_iff A t0 _ _ HA Hi) as C2. apply (sorted_znth A i lo t p HA Hi Hp). unfold lo. lia.
  - pose proof (ss_left_iff A t1 _ _ HA Hq) as C1. destruct (Z.eq_dec (ss_left A t1) (zlen A)) as [Ez|Nz].
    + right. assert (HA0 : forall t, In t A -> t < t1). { intros t Hti. apply In_znth in Hti. destruct Hti as [i Hi]. pose proof (znth_range _ _ _ Hi). pose proof (ss_left_iff A t1 _ _ HA Hi). lia. }
      split; [|exact HA0]. apply HA0. exact (znth_In _ _ _ Hq).
    + left. split; [exact (znth_In _ _ _ Hq)|]. split; [unfold hi in *; lia|]. intros t Hti Hle. apply In_znth in Hti. destruct Hti as [i Hi].
      pose proof (ss_left_iff A t1 _ _ HA Hi) as C2. apply (sorted_znth A (hi - 1) i q t HA Hq Hi). unfold hi. lia.
Qed.

(** ** Partition by a marker with `at` *)
Lemma last_member (l : list Z) : forall p d, In (last (p :: l) d) (p :: l).
Proof. induction l as [|a l IH]; intros p d; [left; reflexivity|]. right. apply (IH a d). Qed.
Lemma span_le f s : span_wf f s -> unit_start f (s_first s) <= unit_end f (s_last s).
Proof.
  intros [H1 H2]. rewrite unit_end_next. pose proof (unit_start_lt f (s_first s) (s_last s + 1) ltac:(lia)). lia.
Qed.
Lemma span_times f s : long_units f -> span_wf f s -> unit_start f (s_first s) < unit_end f (s_last s).
Proof.
  intros HL [H1 H2]. rewrite unit_end_next. pose proof (unit_start_le f (s_first s + 1) (s_last s + 1) ltac:(lia)) as H.
  specialize (HL (s_first s)). unfold NS_SEC in *. lia.
Qed.
Lemma delta_pos g : 0 < get_freq_delta g.
Proof. unfold get_freq_delta. cbv zeta. pose proof (pstart_lt (fbase g) (pord (fbase g) jul2016) (pord (fbase g) jul2016 + Zpos (fmult g)) ltac:(lia)). lia. Qed.

Lemma at_stencil f s g : span_wf f s -> exists st, mk_frame g (reach_before f g s) (reach_after f g s) = Ok st.
Proof.
  intros Hs. apply mk_frame_ok, pord_mono. unfold reach_before, reach_after. pose proof (span_le f s Hs). pose proof (delta_pos (to_freq g)). lia.
Qed.

Lemma at_partition f s g hows st pts : fr_wf f -> span_wf f s -> unit_start f (s_first s) < unit_end f (s_last s) -> check_groupby_freq (fr_str f) g = true -> hows <> [] ->
  mk_frame g (reach_before f g s) (reach_after f g s) = Ok st -> mapM (fun how => how st (fr_str f)) hows = Ok pts ->
  let t0 := unit_start f (s_first s) in let t1 := unit_end f (s_last s) in
  exists spans a b, partition f (DMarker (mkMarker g hows)) s = Ok spans
    /\ tiles (s_first s) (s_last s) spans
    /\ (forall u, s_first s < u <= s_last s -> (starts_span spans u <-> exists t, In t (concat pts) /\ cut_unit f t = u))
    /\ (exists rest, map s_left spans = a :: rest /\ forall x, In x rest -> x = 0)
    /\ (exists rest, map s_right spans = rest ++ [b] /\ forall x, In x rest -> x = 0)
    /\ ((exists t, last_upto (fun t => In t (concat pts)) t0 t /\ a = skipped_before f s false t)
        \/ (a = -1 /\ forall t, In t (concat pts) -> t0 < t))
    /\ ((exists t, In t (concat pts) /\ t1 <= t /\ (forall t', In t' (concat pts) -> t1 <= t' -> t <= t') /\ b = skipped_after f s false (Z.max t1 (t - SMALLEST_TIMEDELTA)))
        \/ (b = -1 /\ forall t, In t (concat pts) -> t < t1)).
Proof.
  intros Hw Hs Ht Hc Hh Hst Hpts t0 t1. cbn [partition]. unfold partition_with_marker. cbn [m_each m_at]. rewrite Hc. cbn [negb].
  rewrite (check_span_ok f s Hs). cbn [bind]. unfold reach_before, reach_after in Hst. fold t0 in Hst |- *. fold t1 in Hst |- *.
  fold t0 in Ht. fold t1 in Ht.
  destruct hows as [|h hs]; [contradiction|]. cbv zeta. rewrite Hst. cbn [bind]. rewrite Hpts. cbn [bind].
  destruct (slice_marks (zsort (concat pts)) t0 t1 (zsort_sorted _) Ht) as (S1 & S2 & S3 & S4). cbv zeta in *.
  set (A := zsort (concat pts)) in *.
  set (S := py_slice A (Z.max 0 (ss_right A t0 - 1)) (Z.min (zlen A) (ss_left A t1 + 1))) in *.
  assert (HinA : forall t, In t A <-> In t (concat pts)) by (intros t; apply zsort_In).
  assert (Hcut : forall t u, s_first s < u <= s_last s -> cut_unit f t = u -> t0 < t /\ (t <= t1 \/ forall t', t1 <= t' <= t -> cut_unit f t' = u)).
  { intros t u Hu E. unfold span_wf in Hs. apply cut_unit_by in E; [|exact Hw|lia]. unfold cut_by in E. destruct E as (E1 & E2 & E3).
    pose proof (unit_start_lt f (s_first s) u ltac:(lia)). pose proof (unit_start_le f (u + 1) (s_last s + 1) ltac:(lia)).
    pose proof (unit_start_lt f u (s_last s + 1) ltac:(lia)). unfold t0, t1. rewrite unit_end_next in *. split; [lia|].
    destruct (Z.eq_dec u (fr_len f - 1)) as [Eu|Nu]; [|left; specialize (E2 ltac:(lia)); lia].
    right. intros t' Ht'. specialize (E3 Eu). apply cut_unit_by; [exact Hw|lia|]. unfold cut_by. split; [lia|]. split; [lia|]. intros _. lia. }
  destruct S as [|p ps].
  - exists [mkSpan (s_first s) (s_last s) (-1) (-1)], (-1), (-1). specialize (S3 eq_refl).
    assert (Hno : forall t, ~ In t (concat pts)) by (intros t Hi; apply HinA in Hi; exact (S3 t Hi)).
    split; [reflexivity|]. split; [constructor; unfold span_wf in Hs; lia|]. split.
    { intros u Hu. rewrite starts_span_In. cbn [map s_first In]. split; [lia|]. intros (t & Hi & _). destruct (Hno t Hi). }
    split; [exists []; split; [reflexivity|contradiction]|]. split; [exists []; split; [reflexivity|contradiction]|].
    split; right; (split; [reflexivity|]); intros t Hi; destruct (Hno t Hi).
  - destruct (S4 p ps eq_refl) as [HL HR]. clear S3 S4.
    set (q := last (p :: ps) p) in *.
    destruct (create_subspans_ok f s (p :: ps) Hw Hs) as (spans & E & Htl & Hfst & Hz).
    unfold finish_partition. rewrite E. cbn [bind].
    set (a := skipped_before f s (t0 <? p) (Z.min p t0)). set (b := skipped_after f s (q <? t1) (Z.max t1 (q - SMALLEST_TIMEDELTA))).
    exists (set_right b (set_left a spans)), a, b. split; [reflexivity|].
    split; [apply set_right_tiles, set_left_tiles, Htl|]. split.
    { intros u Hu. rewrite starts_span_In, set_right_firsts, set_left_firsts, Hfst. split.
      - intros [->|(_ & t & Hi & Hcu)]; [lia|]. exists t. split; [apply HinA, S1, Hi|exact Hcu].
      - intros (t & Hi & Hcu). right. split; [exact Hu|]. destruct (Hcut t u Hu Hcu) as [C1 [C2|C2]].
        + exists t. split; [|exact Hcu]. apply S2; [apply HinA, Hi|]. lia.
        + destruct (Z.le_gt_cases t t1) as [C3|C3]; [exists t; split; [|exact Hcu]; apply S2; [apply HinA, Hi|]; lia|].
          exists q. destruct HR as [(Q1 & Q2 & Q3)|(Q1 & Q2)]; [|apply HinA, Q2 in Hi; lia].
          split; [apply last_member|]. apply C2. split; [exact Q2|]. apply Q3; [apply HinA, Hi|lia]. }
    destruct (set_left_right spans a b) as [HX HY]; [|exact Hz|].
    { destruct (tiles_hd _ _ _ Htl) as (x & rest & -> & _). discriminate. }
    split; [exact HX|]. split; [exact HY|]. split.
    + destruct HL as [[HL1 [HL2 HL3]]|[HL1 HL2]].
      * left. exists p. split; [split; [apply HinA, HL1|split; [exact HL2|]]; intros t Hi; apply HL3, HinA, Hi|].
        unfold a. destruct (t0 <? p) eqn:E1; [lia|]. f_equal. lia.
      * right. split; [|intros t Hi; apply HL2, HinA, Hi]. unfold a, skipped_before. destruct (t0 <? p) eqn:E1; [reflexivity|lia].
    + destruct HR as [[HR1 [HR2 HR3]]|[HR1 HR2]].
      * left. exists q. split; [apply HinA, HR1|]. split; [exact HR2|]. split; [intros t Hi; apply HR3, HinA, Hi|].
        unfold b. destruct (q <? t1) eqn:E1; [lia|]. reflexivity.
      * right. split; [|intros t Hi; apply HR2, HinA, Hi]. unfold b, skipped_after. destruct (q <? t1) eqn:E1; [reflexivity|lia].
Qed.

(** The spans alone, also if the span is a single instant. *)
Lemma at_spans f s g hows st pts : fr_wf f -> span_wf f s -> check_groupby_freq (fr_str f) g = true -> hows <> [] ->
  mk_frame g (reach_before f g s) (reach_after f g s) = Ok st -> mapM (fun how => how st (fr_str f)) hows = Ok pts ->
  exists spans, partition f (DMarker (mkMarker g hows)) s = Ok spans
    /\ tiles (s_first s) (s_last s) spans
    /\ (forall u, s_first s < u <= s_last s -> (starts_span spans u <-> exists t, In t (concat pts) /\ cut_by f u t)).
Proof.
  intros Hw Hs Hc Hh Hst Hpts.
  assert (Hby : forall t u, s_first s < u <= s_last s -> (cut_unit f t = u <-> cut_by f u t)) by (intros t u Hu; apply cut_unit_by; [exact Hw|unfold span_wf in Hs; lia]).
  destruct (Z.lt_ge_cases (unit_start f (s_first s)) (unit_end f (s_last s))) as [Ht|Ht].
  - destruct (at_partition f s g hows st pts Hw Hs Ht Hc Hh Hst Hpts) as (spans & a & b & E & Htl & Hcut & _).
    exists spans. split; [exact E|]. split; [exact Htl|]. intros u Hu. rewrite Hcut by exact Hu. split; intros (t & Hi & Hcu); exists t; (split; [exact Hi|]); apply Hby; assumption.
  - assert (Heq : s_first s = s_last s).
    { unfold span_wf in Hs. destruct (Z.eq_dec (s_first s) (s_last s)) as [|N]; [assumption|exfalso].
      rewrite unit_end_next in Ht. pose proof (unit_start_lt f (s_first s) (s_last s) ltac:(lia)). pose proof (unit_start_lt f (s_last s) (s_last s + 1) ltac:(lia)). lia. }
    cbn [partition]. unfold partition_with_marker. cbn [m_each m_at]. rewrite Hc. cbn [negb].
    rewrite (check_span_ok f s Hs). cbn [bind]. unfold reach_before, reach_after in Hst.
    destruct hows as [|h hs]; [contradiction|]. cbv zeta. rewrite Hst. cbn [bind]. rewrite Hpts. cbn [bind].
    destruct (py_slice _ _ _) as [|p ps].
    + eexists. split; [reflexivity|]. split; [constructor; lia|]. intros u Hu. lia.
    + destruct (create_subspans_ok f s (p :: ps) Hw Hs) as (spans & E & Htl & _). unfold finish_partition. rewrite E. cbn [bind].
      eexists. split; [reflexivity|]. split; [apply set_right_tiles, set_left_tiles, Htl|]. intros u Hu. lia.
Qed.

(** The marks of all offsets. *)
Lemma offs_marks f s g offs st : span_wf f s -> accepts (fr_str f) g ->
  (forall o, In o offs -> forward o \/ backward o) -> mk_frame g (reach_before f g s) (reach_after f g s) = Ok st ->
  exists pts, mapM (fun how => how st (fr_str f)) (map from_start_of_each offs) = Ok pts
    /\ forall t, In t (concat pts) <-> near_mark f g s offs t.
Proof.
  intros Hs Hc Ho Hst. destruct (stencil_gframe g _ _ st Hst) as (Hu & Hw & Hlen & _).
  assert (Hk : forall k, k < fr_len st <-> exists p, group_start g (reach_before f g s) k p /\ p <= reach_after f g s).
  { intros k. rewrite Hlen. pose proof (unit_of_le_iff (gframe g (reach_before f g s)) k (reach_after f g s)) as Hle. split.
    - intros Hlt. exists (unit_start (gframe g (reach_before f g s)) k). split; [apply group_start_iff; reflexivity|]. apply Hle. lia.
    - intros (p & Hp & Hpl). apply group_start_iff in Hp. subst p. apply Hle in Hpl. lia. }
  induction offs as [|o offs IH].
  - exists []. split; [reflexivity|]. intros t. split; [contradiction|]. intros (o & k & [] & _).
  - destruct IH as (pts & E & Hin); [intros o' Ho'; apply Ho; right; exact Ho'|].
    destruct (from_start_In o g (fr_str f) _ _ st (Ho o (or_introl eq_refl)) Hc Hst) as (ms & Em & Him).
    exists (ms :: pts). cbn [map mapM]. rewrite Em. cbn [bind]. rewrite E. cbn [bind]. split; [reflexivity|].
    intros t. cbn [concat]. rewrite in_app_iff, Him, Hin. split.
    + intros [(k & Hm & Hr)|(o' & k & Hi & Hm)].
      * exists o, k. split; [left; reflexivity|]. split; [exact Hm|]. split; [lia|]. apply Hk. lia.
      * exists o', k. split; [right; exact Hi|exact Hm].
    + intros (o' & k & [<-|Hi] & Hm & Hk0 & Hp).
      * left. exists k. split; [exact Hm|]. apply Hk in Hp. lia.
      * right. exists o', k. split; [exact Hi|]. split; [exact Hm|]. split; [exact Hk0|exact Hp].
Qed.

Lemma C37_cuts_partial_pf : forall f s g offs, is_frame f -> long_units f -> is_span f s -> accepts (fr_str f) g ->
  offs <> [] -> (forall o, In o offs -> forward o \/ backward o) ->
  exists spans, partition f (DMarker (mkMarker g (map from_start_of_each offs))) s = Ok spans
    /\ tiling (s_first s) (s_last s) spans
    /\ forall u, s_first s < u <= s_last s ->
         (starts_span spans u <->
          exists o k t, In o offs /\ mark_of g (fr_str f) (reach_before f g s) o k t
            /\ cut_by f u t).
Proof.
  intros f s g offs Hf Hlu Hs Hc Hne Ho. apply is_frame_wf in Hf. apply is_span_wf in Hs.
  destruct (at_stencil f s g Hs) as [st Est]. destruct (offs_marks f s g offs st Hs Hc Ho Est) as (pts & Ep & Hin).
  destruct (at_partition f s g (map from_start_of_each offs) st pts Hf Hs (span_times f s Hlu Hs) (proj2 (proj2 Hc)) ltac:(destruct offs; [contradiction|discriminate]) Est Ep) as (spans & a & b & E & Ht & Hcut & _).
  exists spans. split; [exact E|]. split; [apply tiles_tiling, Ht|]. intros u Hu. rewrite Hcut by exact Hu. split.
  - intros (t & Hi & Hcu). apply Hin in Hi. destruct Hi as (o & k & Hio & Hm & _). exists o, k, t.
    split; [exact Hio|]. split; [exact Hm|]. apply cut_unit_by; [exact Hf|unfold span_wf in Hs; lia|exact Hcu].
  - intros (o & k & t & Hio & Hm & Hcu). exists t. apply cut_unit_by in Hcu; [|exact Hf|unfold span_wf in Hs; lia]. split; [|exact Hcu].
    apply cut_unit_in in Hcu; [|exact Hf|exact Hlu|unfold span_wf in Hs; lia].
    apply Hin. exists o, k. split; [exact Hio|]. split; [exact Hm|].
    destruct Hcu as [Hcu _]. unfold in_unit in Hcu. rewrite unit_end_next in Hcu.
    pose proof (unit_start_lt f (s_first s) u ltac:(lia)) as H1. pose proof (unit_start_le f (u + 1) (s_last s + 1) ltac:(lia)) as H2.
    pose proof (delta_pos (to_freq g)) as Hd.
    (* the offset instant is at or after the mark, the group's start is at or before it *)
    destruct Hm as (p & v & Hp & (q & q' & Hq & Hq' & Hr) & Hv & Et).
    apply group_start_iff in Hp, Hq, Hq'. subst p. subst q q'.
    unfold in_cal_unit in Hv. set (G := gframe g (reach_before f g s)) in *.
    assert (Hgs : unit_start G k <= t /\ t < unit_start G (k + 1)).
    { split; [|lia]. destruct (accepted_base (fr_str f) g Hc (unit_ord G k)) as [w Hw].
      change (pstart (fbase (to_freq g)) (unit_ord G k)) with (unit_start G k) in Hw. rewrite <- Hw, Et. apply pstart_le_iff.
      pose proof (proj2 (pord_iff (fbase (to_freq (fr_str f))) (add_offset o (unit_start G k)) v) Hv) as Hpv.
      pose proof (pord_le_iff (fbase (to_freq (fr_str f))) w (add_offset o (unit_start G k))). lia. }
    split.
    + assert (Hg0 : unit_of G t = k) by (apply unit_of_iff; rewrite unit_end_next; lia). pose proof (gframe_origin g (reach_before f g s)) as H0. fold G in H0.
      pose proof (unit_of_mono G (reach_before f g s) t) as Hmono. unfold reach_before in Hmono at 1. lia.
    + exists (unit_start G k). split; [apply group_start_iff; reflexivity|]. unfold reach_after. rewrite unit_end_next. lia.
Qed.

(** ** C41 *)
Lemma mark_unit_start f g t0 o k t : fmult (to_freq (fr_str f)) = 1%positive -> mark_of g (fr_str f) t0 o k t -> t = unit_start f (unit_of f t).
Proof.
  intros Hm (p & v & _ & _ & _ & ->). change (fbase (to_freq (fr_str f))) with (fr_base f).
  assert (E : pstart (fr_base f) v = unit_start f (v - fr_o0 f)) by (unfold unit_start, unit_ord, fr_mult; rewrite Hm; f_equal; lia).
  rewrite E, unit_of_start. reflexivity.
Qed.

Lemma C41_skips_partial_pf : forall f s g offs, is_frame f -> long_units f -> is_span f s -> accepts (fr_str f) g ->
  fmult (to_freq (fr_str f)) = 1%positive -> offs <> [] -> (forall o, In o offs -> forward o \/ backward o) ->
  exists spans before after, partition f (DMarker (mkMarker g (map from_start_of_each offs))) s = Ok spans
    /\ (exists rest, map s_left spans = before :: rest /\ forall x, In x rest -> x = 0)
    /\ (exists rest, map s_right spans = rest ++ [after] /\ forall x, In x rest -> x = 0)
    /\ ((before = -1 /\ forall t, near_mark f g s offs t -> unit_start f (s_first s) < t)
        \/ (0 <= before /\ last_upto (near_mark f g s offs) (unit_start f (s_first s)) (unit_start f (s_first s - before))))
    /\ ((after = -1 /\ forall t, near_mark f g s offs t -> t <= unit_end f (s_last s))
        \/ (0 <= after /\ first_after (near_mark f g s offs) (unit_end f (s_last s)) (unit_start f (s_last s + 1 + after)))).
Proof.
  intros f s g offs Hf Hlu Hs Hc Hm Hne Ho. apply is_frame_wf in Hf. apply is_span_wf in Hs.
  destruct (at_stencil f s g Hs) as [st Est]. destruct (offs_marks f s g offs st Hs Hc Ho Est) as (pts & Ep & Hin).
  destruct (at_partition f s g (map from_start_of_each offs) st pts Hf Hs (span_times f s Hlu Hs) (proj2 (proj2 Hc)) ltac:(destruct offs; [contradiction|discriminate]) Est Ep) as (spans & a & b & E & Ht & _ & HX & HY & HL & HR).
  exists spans, a, b. split; [exact E|]. split; [exact HX|]. split; [exact HY|].
  assert (Hus : forall t, In t (concat pts) -> t = unit_start f (unit_of f t)).
  { intros t Hi. apply Hin in Hi. destruct Hi as (o & k & _ & Hmk & _). exact (mark_unit_start f g _ o k t Hm Hmk). }
  split.
  - destruct HL as [(t & (H1 & H2 & H3) & Ea)|(Ea & H1)].
    + right. pose proof (Hus t H1) as Et. rewrite Et in H2, Ea.
      pose proof (unit_start_lt_iff f (s_first s) (unit_of f t)) as Hlt. rewrite skipped_before_ok in Ea by (try assumption; lia).
      split; [lia|]. replace (s_first s - a) with (unit_of f t) by lia. rewrite <- Et. split; [apply Hin, H1|]. split; [lia|].
      intros t' Ht'. apply H3, Hin, Ht'.
    + left. split; [exact Ea|]. intros t Hn. apply H1, Hin, Hn.
  - destruct HR as [(t & H1 & H2 & H3 & Eb)|(Eb & H1)].
    + right. pose proof (Hus t H1) as Et. set (w := unit_of f t) in *. rewrite unit_end_next in *.
      assert (Hw : s_last s < w). { destruct (Z.le_gt_cases w (s_last s)) as [C|C]; [|exact C]. pose proof (unit_start_lt f w (s_last s + 1) ltac:(lia)).
        pose proof (Hlu w). pose proof (unit_start_le f (w + 1) (s_last s + 1) ltac:(lia)). unfold NS_SEC in *. lia. }
      assert (Eb' : b = w - 1 - s_last s).
      { rewrite Eb. unfold skipped_after, SMALLEST_TIMEDELTA. rewrite unit_end_next. pose proof (Hlu (w - 1)) as Hsec. replace (w - 1 + 1) with w in Hsec by lia.
        destruct (Z.eq_dec w (s_last s + 1)) as [Ew|Nw].
        - rewrite Z.max_l by (rewrite Et, Ew; unfold NS_SEC; lia). destruct (_ <? _) eqn:E1; lia.
        - pose proof (unit_start_le f (s_last s + 1) (w - 1) ltac:(lia)) as Hle.
          rewrite Z.max_r by (rewrite Et; unfold NS_SEC in *; lia). destruct (_ <? _) eqn:E1; [|unfold NS_SEC in *; lia].
          assert (Eu : unit_of f (t - NS_SEC) = w - 1). { apply unit_of_iff. rewrite unit_end_next. replace (w - 1 + 1) with w by lia. unfold NS_SEC in *. lia. }
          rewrite dangle_units by (try (unfold span_wf in Hs; lia); rewrite Eu; lia). rewrite Eu. unfold span_wf in Hs.
          replace (Z.to_nat (w - 1 + 1 - s_last s)) with (1 + Z.to_nat (w - 1 - s_last s))%nat by lia. rewrite zrange_app, filter_app, zlen_app.
          rewrite filter_none by (intros u Hu; apply zrange_In in Hu; lia). rewrite filter_all by (intros u Hu; apply zrange_In in Hu; lia).
          rewrite zlen_zrange. change (zlen []) with 0. lia. }
      split; [lia|]. replace (s_last s + 1 + b) with w by lia. rewrite <- Et. split; [apply Hin, H1|]. split.
      * rewrite Et. pose proof (unit_start_le f (s_last s + 1) w ltac:(lia)). lia.
      * intros t' Ht' Hgt. apply H3; [apply Hin, Ht'|lia].
    + left. split; [exact Eb|]. intros t Hn. apply Hin, H1 in Hn. lia.
Qed.
