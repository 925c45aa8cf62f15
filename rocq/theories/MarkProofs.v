(** Proofs about markers with any function (C51), and the cuts made by nth_weekday_of_month and from_easter. *)
From Verif Require Import Base BaseProofs Civil CivilProofs Freq FreqProofs Frame FrameProofs When Timeline Board Spec SpecLookup SpecLayout SpecWhen BoardProofs TimelineProofs LookupProofs PartProofs WhenProofs NthProofs EasterProofs.
From Coq Require Import Sorted ZifyBool ZifyNat.
Ltac Zify.zify_post_hook ::= Z.div_mod_to_equations.

Lemma points_mapM pi norm hows pts : points_of pi norm hows pts -> mapM (fun how => how pi norm) hows = Ok pts.
Proof. intros H. induction H as [|h ts hows pts Hh H IH]; [reflexivity|]. cbn [mapM]. rewrite Hh. cbn [bind]. rewrite IH. reflexivity. Qed.

Lemma C51_cuts_pf : forall f s g hows pi pts, is_frame f -> is_span f s -> check_groupby_freq (fr_str f) g = true -> hows <> [] ->
  handed f g s pi -> points_of pi (fr_str f) hows pts ->
  exists spans, partition f (DMarker (mkMarker g hows)) s = Ok spans
    /\ tiling (s_first s) (s_last s) spans
    /\ forall u, s_first s < u <= s_last s ->
         (starts_span spans u <-> exists ts t, In ts pts /\ In t ts /\ cut_by f u t).
Proof.
  intros f s g hows pi pts Hf Hs Hc Hh Hst Hp. apply is_frame_wf in Hf. apply is_span_wf in Hs.
  destruct (at_spans f s g hows pi pts Hf Hs Hc Hh Hst (points_mapM _ _ _ _ Hp)) as (spans & E & Ht & Hcut).
  exists spans. split; [exact E|]. split; [apply tiles_tiling, Ht|]. intros u Hu. rewrite Hcut by exact Hu. split.
  - intros (t & Hi & Hcu). apply in_concat in Hi. destruct Hi as (ts & Hts & Hi). exists ts, t. split; [exact Hts|]. split; [exact Hi|exact Hcu].
  - intros (ts & t & Hts & Hi & Hcu). exists t. split; [apply in_concat; exists ts; split; assumption|exact Hcu].
Qed.

Lemma C51_skips_partial_pf : forall f s g hows pi pts, is_frame f -> long_units f -> is_span f s -> check_groupby_freq (fr_str f) g = true -> hows <> [] ->
  handed f g s pi -> points_of pi (fr_str f) hows pts -> (forall ts t, In ts pts -> In t ts -> exists u, t = unit_start f u) ->
  let mark t := exists ts, In ts pts /\ In t ts in
  exists spans before after, partition f (DMarker (mkMarker g hows)) s = Ok spans
    /\ (exists rest, map s_left spans = before :: rest /\ forall x, In x rest -> x = 0)
    /\ (exists rest, map s_right spans = rest ++ [after] /\ forall x, In x rest -> x = 0)
    /\ ((before = -1 /\ forall t, mark t -> unit_start f (s_first s) < t)
        \/ (0 <= before /\ last_upto mark (unit_start f (s_first s)) (unit_start f (s_first s - before))))
    /\ ((after = -1 /\ forall t, mark t -> t <= unit_end f (s_last s))
        \/ (0 <= after /\ first_after mark (unit_end f (s_last s)) (unit_start f (s_last s + 1 + after)))).
Proof.
  intros f s g hows pi pts Hf Hlu Hs Hc Hh Hst Hp Hu mark. apply is_frame_wf in Hf. apply is_span_wf in Hs.
  destruct (at_partition f s g hows pi pts Hf Hs (span_times f s Hlu Hs) Hc Hh Hst (points_mapM _ _ _ _ Hp)) as (spans & a & b & E & Ht & _ & HX & HY & HL & HR).
  exists spans, a, b. split; [exact E|]. split; [exact HX|]. split; [exact HY|].
  assert (Hin : forall t, In t (concat pts) <-> mark t) by (intros t; apply in_concat).
  assert (Hus : forall t, In t (concat pts) -> t = unit_start f (unit_of f t)).
  { intros t Hi. apply Hin in Hi. destruct Hi as (ts & Hts & Hi). destruct (Hu ts t Hts Hi) as [u ->]. rewrite unit_of_start. reflexivity. }
  split.
  - destruct HL as [(t & (H1 & H2 & H3) & Ea)|(Ea & H1)].
    + right. pose proof (Hus t H1) as Et. rewrite Et in H2, Ea.
      pose proof (unit_start_lt_iff f (s_first s) (unit_of f t)) as Hlt. rewrite skipped_before_ok in Ea by (try assumption; lia).
      split; [lia|]. replace (s_first s - a) with (unit_of f t) by lia. rewrite <- Et. split; [apply Hin, H1|]. split; [lia|].
      intros t' Ht'. apply H3, Hin, Ht'.
    + left. split; [exact Ea|]. intros t Hn. apply H1, Hin, Hn.
  - destruct HR as [(t & H1 & H2 & H3 & Eb)|(Eb & H1)].
    + right. pose proof (Hus t H1) as Et. set (w := unit_of f t) in *. rewrite unit_end_next in *.
      assert (Hw : s_last s < w). { destruct (Z.le_gt_cases w (s_last s)) as [C|C]; [|exact C]. pose proof (unit_start_lt f w (s_last s + 1) ltac:(lia)).
        pose proof (Hlu w). pose proof (unit_start_le f (w + 1) (s_last s + 1) ltac:(lia)). unfold NS_SEC in *. lia. }
      assert (Eb' : b = w - 1 - s_last s).
      { rewrite Eb. unfold skipped_after, SMALLEST_TIMEDELTA. rewrite unit_end_next. pose proof (Hlu (w - 1)) as Hsec. replace (w - 1 + 1) with w in Hsec by lia.
        destruct (Z.eq_dec w (s_last s + 1)) as [Ew|Nw].
        - rewrite Z.max_l by (rewrite Et, Ew; unfold NS_SEC; lia). destruct (_ <? _) eqn:E1; lia.
        - pose proof (unit_start_le f (s_last s + 1) (w - 1) ltac:(lia)) as Hle.
          rewrite Z.max_r by (rewrite Et; unfold NS_SEC in *; lia). destruct (_ <? _) eqn:E1; [|unfold NS_SEC in *; lia].
          assert (Eu : unit_of f (t - NS_SEC) = w - 1). { apply unit_of_iff. rewrite unit_end_next. replace (w - 1 + 1) with w by lia. unfold NS_SEC in *. lia. }
          rewrite dangle_units by (try (unfold span_wf in Hs; lia); rewrite Eu; lia). rewrite Eu. unfold span_wf in Hs.
          replace (Z.to_nat (w - 1 + 1 - s_last s)) with (1 + Z.to_nat (w - 1 - s_last s))%nat by lia. rewrite zrange_app, filter_app, zlen_app.
          rewrite filter_none by (intros u Hu'; apply zrange_In in Hu'; lia). rewrite filter_all by (intros u Hu'; apply zrange_In in Hu'; lia).
          rewrite zlen_zrange. change (zlen []) with 0. lia. }
      split; [lia|]. replace (s_last s + 1 + b) with w by lia. rewrite <- Et. split; [apply Hin, H1|]. split.
      * rewrite Et. pose proof (unit_start_le f (s_last s + 1) w ltac:(lia)). lia.
      * intros t' Ht' Hgt. apply H3; [apply Hin, Ht'|lia].
    + left. split; [exact Eb|]. intros t Hn. apply Hin, H1 in Hn. lia.
Qed.

(** ** What is skipped, for any marks *)
Lemma skipped_before_any f s t : span_wf f s -> t <= unit_start f (s_first s) ->
  skipped_before f s false t = s_first s - unit_of f t.
Proof.
  intros [Hs1 Hs2] Ht. unfold skipped_before. pose proof (fr_mult_pos f) as Hm.
  destruct (t <? unit_start f (s_first s)) eqn:E.
  2: { replace t with (unit_start f (s_first s)) by lia. rewrite unit_of_start. lia. }
  unfold dangle_len. cbn zeta. unfold unit_start at 1. rewrite pord_pstart.
  assert (Hle : pord (fr_base f) t <= unit_ord f (s_first s)).
  { rewrite <- (pord_pstart (fr_base f) (unit_ord f (s_first s))). apply pord_mono. exact Ht. }
  unfold period_count, unit_of. destruct (unit_ord f (s_first s) <? pord (fr_base f) t) eqn:E1; [lia|].
  set (D := unit_ord f (s_first s) - pord (fr_base f) t) in *. set (m := fr_mult f) in *.
  assert (HD : 0 <= D) by (unfold D; lia).
  replace ((pord (fr_base f) t - fr_o0 f) / m) with (s_first s + (- D) / m).
  2: { replace (pord (fr_base f) t - fr_o0 f) with (- D + s_first s * m) by (unfold D, unit_ord, m; lia). rewrite Z.div_add by lia. lia. }
  set (c := - ((- D) / m)).
  assert (Hc : (c - 1) * m < D <= c * m) by (unfold c; nia || (pose proof (Z.div_mod (- D) m ltac:(lia)); pose proof (Z.mod_pos_bound (- D) m ltac:(lia)); unfold c; nia)).
  set (q := D / m). assert (Hq : q * m <= D < (q + 1) * m) by (unfold q; pose proof (Z.div_mod D m ltac:(lia)); pose proof (Z.mod_pos_bound D m ltac:(lia)); nia).
  assert (Hcq : q <= c <= q + 1) by nia. assert (Hc0 : 0 <= c) by nia. assert (Hq0 : 0 <= q) by nia.
  replace (Z.to_nat (q + 1)) with (Z.to_nat c + Z.to_nat (q + 1 - c))%nat by lia.
  rewrite zrange_app, map_app, filter_app, zlen_app. rewrite filter_all, filter_none.
  - rewrite zlen_map, zlen_zrange. change (zlen []) with 0. unfold c. lia.
  - intros o Ho. apply in_map_iff in Ho. destruct Ho as (i & <- & Hi). apply zrange_In in Hi. apply negb_false_iff. apply existsb_ord; [lia|].
    exists (s_first s). split; [lia|]. assert (i = q) by lia. subst i. unfold D in *. nia.
  - intros o Ho. apply in_map_iff in Ho. destruct Ho as (i & <- & Hi). apply zrange_In in Hi. apply negb_true_iff.
    destruct (existsb _ _) eqn:Ex; [exfalso|reflexivity]. apply existsb_ord in Ex; [|lia]. destruct Ex as (u & Hu & Eu).
    unfold D, unit_ord in *. fold m in Eu, Hc. nia.
Qed.
Lemma skipped_after_any f s t : span_wf f s -> unit_end f (s_last s) <= t ->
  skipped_after f s false t = unit_of f t - s_last s.
Proof.
  intros [Hs1 Hs2] Ht. unfold skipped_after.
  assert (Hle : s_last s <= unit_of f t) by (apply unit_of_le_iff; rewrite unit_end_next in Ht; pose proof (unit_start_lt f (s_last s) (s_last s + 1) ltac:(lia)); lia).
  destruct (unit_end f (s_last s) <? t) eqn:E.
  - rewrite dangle_units by lia.
    replace (Z.to_nat (unit_of f t + 1 - s_last s)) with (1 + Z.to_nat (unit_of f t - s_last s))%nat by lia. rewrite zrange_app, filter_app, zlen_app.
    rewrite filter_none by (intros u Hu; apply zrange_In in Hu; lia). rewrite filter_all by (intros u Hu; apply zrange_In in Hu; lia).
    rewrite zlen_zrange. change (zlen []) with 0. lia.
  - replace t with (unit_end f (s_last s)) by lia. replace (unit_of f (unit_end f (s_last s))) with (s_last s); [lia|].
    symmetry. apply unit_of_iff. pose proof (unit_start_end f (s_last s)). lia.
Qed.

Lemma C51_skips_pf : forall f s g hows pi pts, is_frame f -> is_span f s -> unit_start f (s_first s) < unit_end f (s_last s) ->
  check_groupby_freq (fr_str f) g = true -> hows <> [] -> handed f g s pi -> points_of pi (fr_str f) hows pts ->
  exists spans, partition f (DMarker (mkMarker g hows)) s = Ok spans
    /\ skips_found f s (fun t => exists ts, In ts pts /\ In t ts) spans.
Proof.
  intros f s g hows pi pts Hf Hs Hlt Hc Hh Hst Hp. apply is_frame_wf in Hf. apply is_span_wf in Hs.
  destruct (at_partition f s g hows pi pts Hf Hs Hlt Hc Hh Hst (points_mapM _ _ _ _ Hp)) as (spans & a & b & E & Ht & _ & HX & HY & HL & HR).
  exists spans. split; [exact E|]. exists a, b. split; [exact HX|]. split; [exact HY|].
  assert (Hin : forall t, In t (concat pts) <-> exists ts, In ts pts /\ In t ts) by (intros t; apply in_concat).
  split.
  - destruct HL as [(t & (H1 & H2 & H3) & Ea)|(Ea & H1)].
    + right. rewrite skipped_before_any in Ea by assumption.
      assert (Hu : unit_of f t <= s_first s) by (rewrite <- (unit_of_start f (s_first s)); apply unit_of_mono, H2).
      split; [lia|]. exists t. split; [split; [apply Hin, H1|split; [exact H2|]]; intros t' Ht'; apply H3, Hin, Ht'|].
      apply unit_of_iff. lia.
    + left. split; [exact Ea|]. intros t Hn. apply H1, Hin, Hn.
  - destruct HR as [(t & H1 & H2 & H3 & Eb)|(Eb & H1)].
    + right. rewrite skipped_after_any in Eb by (try assumption; lia).
      assert (Hu : s_last s <= unit_of f (Z.max (unit_end f (s_last s)) (t - SMALLEST_TIMEDELTA))).
      { apply unit_of_le_iff. pose proof (unit_start_end f (s_last s)). lia. }
      split; [lia|]. exists t. split; [apply Hin, H1|]. split; [exact H2|]. split; [intros t' Ht'; apply H3, Hin, Ht'|].
      apply unit_of_iff. unfold SMALLEST_TIMEDELTA in *. lia.
    + left. split; [exact Eb|]. intros t Hn. apply H1, Hin, Hn.
Qed.

(** A failing function: the error of the first one that fails. *)
Lemma C51_fails_pf : forall f s g pre how post pi pts e, is_frame f -> is_span f s -> check_groupby_freq (fr_str f) g = true ->
  handed f g s pi -> points_of pi (fr_str f) pre pts -> how pi (fr_str f) = Err e ->
  partition f (DMarker (mkMarker g (pre ++ how :: post))) s = Err e.
Proof.
  intros f s g pre how post pi pts e Hf Hs Hc Hst Hp He. apply is_frame_wf in Hf. apply is_span_wf in Hs.
  cbn [partition]. unfold partition_with_marker. cbn [m_each m_at]. rewrite Hc. cbn [negb]. rewrite (check_span_ok f s Hs). cbn [bind].
  destruct (pre ++ how :: post) as [|h hs] eqn:E; [destruct pre; discriminate|]. rewrite <- E. clear E h hs. cbv zeta.
  unfold handed, reach_before, reach_after in Hst. rewrite Hst. cbn [bind].
  assert (Em : mapM (fun how => how pi (fr_str f)) (pre ++ how :: post) = Err e).
  { induction Hp as [|h ts pre pts Hh Hp IH]; cbn [app mapM]; [rewrite He; reflexivity|]. rewrite Hh. cbn [bind]. rewrite IH. reflexivity. }
  rewrite Em. reflexivity.
Qed.

(** ** Sets of marks *)
Lemma Forall2_members {A : Type} (R : A -> Z -> Prop) ks ms t : (forall k x y, R k x -> R k y -> x = y) -> Forall2 R ks ms ->
  (In t ms <-> exists k, In k ks /\ R k t).
Proof.
  intros Hfun HF. split.
  - intros Ht. induction HF as [|k x ks l Hkx HF IH]; [contradiction|]. destruct Ht as [<-|Ht]; [exists k; split; [left; reflexivity|exact Hkx]|].
    destruct (IH Ht) as (j & Hj & Hm). exists j. split; [right; exact Hj|exact Hm].
  - intros (k & Hin & Hm). induction HF as [|j x ks l Hjx HF IH]; [contradiction|]. destruct Hin as [->|Hin]; [|right; apply IH, Hin].
    left. exact (Hfun _ _ _ Hjx Hm).
Qed.

Lemma all_points {A : Type} (fn : A -> frame -> fstr -> res (list Z)) (M : A -> Z -> Prop) pi norm ats :
  (forall a, In a ats -> exists ms, fn a pi norm = Ok ms /\ forall t, In t ms <-> M a t) ->
  exists pts, points_of pi norm (map fn ats) pts /\ forall t, (exists ts, In ts pts /\ In t ts) <-> exists a, In a ats /\ M a t.
Proof.
  induction ats as [|a ats IH]; intros H.
  - exists []. split; [constructor|]. intros t. split; [intros (ts & [] & _)|intros (a & [] & _)].
  - destruct IH as (pts & Hp & Hin); [intros b Hb; apply H; right; exact Hb|].
    destruct (H a (or_introl eq_refl)) as (ms & E & Hms). exists (ms :: pts). split; [constructor; assumption|].
    intros t. split.
    + intros (ts & [<-|Hts] & Ht); [exists a; split; [left; reflexivity|apply Hms, Ht]|].
      destruct (proj1 (Hin t)) as (b & Hb & Hm); [exists ts; split; assumption|]. exists b. split; [right; exact Hb|exact Hm].
    + intros (b & [<-|Hb] & Hm); [exists ms; split; [left; reflexivity|apply Hms, Hm]|].
      destruct (proj2 (Hin t)) as (ts & Hts & Ht); [exists b; split; assumption|]. exists ts. split; [right; exact Hts|exact Ht].
Qed.

Lemma inspected_iff f g s pi k : handed f g s pi -> (inspected f g s k <-> 0 <= k < fr_len pi).
Proof.
  intros Hst. destruct (stencil_gframe g _ _ pi Hst) as (_ & _ & Hlen & _). unfold inspected. rewrite Hlen.
  pose proof (unit_of_le_iff (gframe g (reach_before f g s)) k (reach_after f g s)) as Hle. split.
  - intros (H0 & p & Hp & Hpl). apply group_start_iff in Hp. subst p. apply Hle in Hpl. lia.
  - intros Hk. split; [lia|]. exists (unit_start (gframe g (reach_before f g s)) k). split; [apply group_start_iff; reflexivity|]. apply Hle. lia.
Qed.

Lemma nth_mark_fun g t0 month w n shift k x y : nth_mark g t0 month w n shift k x -> nth_mark g t0 month w n shift k y -> x = y.
Proof.
  intros (m & d & H1 & _ & H3 & ->) (m' & d' & H1' & _ & H3' & ->). apply group_start_iff in H1, H1'.
  assert (m = m') by (pose proof (month_ns_lt m m'); pose proof (month_ns_lt m' m); lia). subst m'.
  rewrite (C38_unique_pf _ _ _ _ _ H3 H3'). reflexivity.
Qed.

Lemma mark_upto_fun g norm t0 o k x y : mark_upto g norm t0 o k x -> mark_upto g norm t0 o k y -> x = y.
Proof. intros Hx Hy. apply mark_upto_iff in Hx, Hy. destruct Hx as [_ ->]. destruct Hy as [_ ->]. reflexivity. Qed.

Lemma C37_every_cuts_pf : forall f s g offs, is_frame f -> is_span f s -> accepts (fr_str f) g -> offs <> [] ->
  (forall o, In o offs -> usable o) ->
  exists spans, partition f (DMarker (mkMarker g (map from_start_of_each offs))) s = Ok spans
    /\ tiling (s_first s) (s_last s) spans
    /\ forall u, s_first s < u <= s_last s ->
         (starts_span spans u <->
          exists o k t, In o offs /\ ~ goes_back o /\ inspected f g s k
            /\ mark_upto g (fr_str f) (reach_before f g s) o k t /\ cut_by f u t).
Proof.
  intros f s g offs Hf Hs Hc Hne Hus. destruct (at_stencil f s g (is_span_wf f s Hs)) as [pi Hpi].
  destruct (all_points from_start_of_each
    (fun o t => exists k, ~ goes_back o /\ inspected f g s k /\ mark_upto g (fr_str f) (reach_before f g s) o k t)
    pi (fr_str f) offs) as (pts & Hp & Hin).
  { intros o Hi. destruct (C37_every_pf o g (fr_str f) _ _ pi (Hus o Hi) Hc Hpi) as [Hb Hn].
    assert (Hd : goes_back o \/ ~ goes_back o) by (unfold goes_back; lia). destruct Hd as [Hd|Hd].
    - exists []. split; [exact (Hb Hd)|]. intros t. split; [contradiction|]. intros (k & Hk & _). contradiction.
    - destruct (Hn Hd) as (ks & ms & E & _ & Hks & HF).
      exists ms. split; [exact E|]. intros t. rewrite (Forall2_members _ ks ms t (fun k x y => mark_upto_fun _ _ _ _ k x y) HF). split.
      + intros (k & Hk & Hm). exists k. split; [exact Hd|]. apply Hks in Hk. split; [apply (inspected_iff f g s pi k Hpi), Hk|exact Hm].
      + intros (k & _ & Hk & Hm). exists k. split; [|exact Hm]. apply Hks. split; [apply (inspected_iff f g s pi k Hpi), Hk|exists t; exact Hm]. }
  assert (Hne' : map from_start_of_each offs <> []) by (destruct offs; [contradiction|discriminate]).
  destruct (C51_cuts_pf f s g _ pi pts Hf Hs (proj2 (proj2 Hc)) Hne' Hpi Hp) as (spans & E & Ht & Hcut).
  exists spans. split; [exact E|]. split; [exact Ht|]. intros u Hu. rewrite (Hcut u Hu). split.
  - intros (ts & t & Hts & Hi & Hcu). destruct (proj1 (Hin t)) as (o & Hat & k & Hd & Hk & Hm); [exists ts; split; assumption|].
    exists o, k, t. repeat (split; [assumption|]). exact Hcu.
  - intros (o & k & t & Hat & Hd & Hk & Hm & Hcu). destruct (proj2 (Hin t)) as (ts & Hts & Hi).
    { exists o. split; [exact Hat|]. exists k. split; [exact Hd|]. split; assumption. }
    exists ts, t. split; [exact Hts|]. split; [exact Hi|exact Hcu].
Qed.

(** An element of `at` for nth_weekday_of_month: month, week, weekday, shift. *)
Lemma C38_cuts_pf : forall f s g ats, is_frame f -> is_span f s -> check_groupby_freq (fr_str f) g = true -> of_months g -> ats <> [] ->
  (forall month week wday shift, In (month, week, wday, shift) ats -> 1 <= month <= 12 /\ 1 <= wday <= 7 /\ 1 <= Z.abs week <= 5) ->
  exists spans, partition f (DMarker (mkMarker g (map (fun '(month, week, wday, shift) => nth_weekday_of_month month week wday shift) ats))) s = Ok spans
    /\ tiling (s_first s) (s_last s) spans
    /\ forall u, s_first s < u <= s_last s ->
         (starts_span spans u <->
          exists month week wday shift k t, In (month, week, wday, shift) ats /\ inspected f g s k
            /\ nth_mark g (reach_before f g s) month (wday - 1) week shift k t /\ cut_by f u t).
Proof.
  intros f s g ats Hf Hs Hc Hg Hne Ha. destruct (at_stencil f s g (is_span_wf f s Hs)) as [pi Hpi].
  destruct (all_points (fun '(month, week, wday, shift) => nth_weekday_of_month month week wday shift)
    (fun '(month, week, wday, shift) t => exists k, inspected f g s k /\ nth_mark g (reach_before f g s) month (wday - 1) week shift k t)
    pi (fr_str f) ats) as (pts & Hp & Hin).
  { intros [[[month week] wday] shift] Hi. destruct (Ha _ _ _ _ Hi) as (H1 & H2 & H3).
    destruct (C38_marks_pf g (fr_str f) _ _ pi month week wday shift Hg Hpi H1 H2 H3) as (ks & ms & E & _ & Hks & HF).
    exists ms. split; [exact E|]. intros t. rewrite (Forall2_members _ ks ms t (fun k x y => nth_mark_fun _ _ _ _ _ _ k x y) HF). split.
    - intros (k & Hk & Hm). exists k. apply Hks in Hk. split; [apply (inspected_iff f g s pi k Hpi), Hk|exact Hm].
    - intros (k & Hk & Hm). exists k. split; [|exact Hm]. apply Hks. split; [apply (inspected_iff f g s pi k Hpi), Hk|exists t; exact Hm]. }
  assert (Hne' : map (fun '(month, week, wday, shift) => nth_weekday_of_month month week wday shift) ats <> []) by (destruct ats; [contradiction|discriminate]).
  destruct (C51_cuts_pf f s g _ pi pts Hf Hs Hc Hne' Hpi Hp) as (spans & E & Ht & Hcut).
  exists spans. split; [exact E|]. split; [exact Ht|]. intros u Hu. rewrite (Hcut u Hu). split.
  - intros (ts & t & Hts & Hi & Hcu). destruct (proj1 (Hin t)) as ([[[month week] wday] shift] & Hat & k & Hk & Hm); [exists ts; split; assumption|].
    exists month, week, wday, shift, k, t. repeat (split; [assumption|]). exact Hcu.
  - intros (month & week & wday & shift & k & t & Hat & Hk & Hm & Hcu). destruct (proj2 (Hin t)) as (ts & Hts & Hi).
    { exists (month, week, wday, shift). split; [exact Hat|]. exists k. split; assumption. }
    exists ts, t. split; [exact Hts|]. split; [exact Hi|exact Hcu].
Qed.

(** Without a shift the mark is in its own group, hence the group was inspected. *)
Lemma C38_inspected_pf : forall f s g month w n k t u, is_frame f -> is_span f s -> of_months g -> 1 <= month ->
  nth_mark g (reach_before f g s) month w n 0 k t -> s_first s <= u <= s_last s -> in_unit f u t -> inspected f g s k.
Proof.
  intros f s g month w n k t u Hf Hs Hg Hmo (m & d & Hp & Hgr & ((Hd1 & Hd2) & _) & ->) Hu Hcu. apply is_span_wf in Hs.
  apply in_group_iff, unit_of_iff in Hgr. rewrite unit_end_next in Hgr. pose proof Hp as Hp'. apply group_start_iff in Hp'.
  set (G := gframe g (reach_before f g s)) in *. destruct (months_base g Hg (unit_ord G (k + 1))) as [m1 Hm1].
  change (pstart (fbase (to_freq g)) (unit_ord G (k + 1))) with (unit_start G (k + 1)) in Hm1. rewrite Hm1 in Hgr.
  pose proof (month_ns_lt (m + (month - 1)) m1) as Hlt. pose proof (month_start_le_iff (m + (month - 1) + 1) m1) as Hmon.
  pose proof (month_start_le_iff m (m + (month - 1))) as Hmon2.
  unfold in_unit in Hcu. rewrite unit_end_next in Hcu. pose proof (unit_start_le f (s_first s) u ltac:(lia)) as H1.
  pose proof (unit_start_le f (u + 1) (s_last s + 1) ltac:(lia)) as H2. pose proof (delta_pos (to_freq g)) as Hdel.
  set (t := (d + 0) * NS_DAY) in *. assert (Ht : unit_start G k <= t < unit_start G (k + 1)) by (rewrite <- Hp', Hm1; unfold t, NS_DAY; lia).
  assert (Hk : unit_of G t = k) by (apply unit_of_iff; rewrite unit_end_next; lia).
  pose proof (gframe_origin g (reach_before f g s)) as H0. fold G in H0. pose proof (unit_of_mono G (reach_before f g s) t) as Hmono.
  split; [unfold reach_before in Hmono at 1; lia|]. exists (unit_start G k). split; [apply group_start_iff; reflexivity|]. unfold reach_after. rewrite unit_end_next. lia.
Qed.

Lemma easter_mark_fun orth norm o y a b : easter_mark orth norm o y a -> easter_mark orth norm o y b -> a = b.
Proof.
  unfold easter_mark. cbv zeta. intros (_ & v & Hv & ->) (_ & v' & Hv' & ->). apply in_cal_unit_pord in Hv, Hv'. rewrite <- Hv, <- Hv'. reflexivity.
Qed.

Lemma year_of_iff d y : year_of d = y <-> date y 1 1 <= d < date (y + 1) 1 1.
Proof.
  unfold year_of, date. change (1 - 1) with 0. rewrite !Z.add_0_r.
  pose proof (proj1 (month_of_day_iff d (month_of_day d)) eq_refl) as H.
  pose proof (month_start_le_iff ((y - 1970) * 12) (month_of_day d)) as H1.
  pose proof (month_start_le_iff ((y + 1 - 1970) * 12) (month_of_day d)) as H2.
  pose proof (month_start_le_iff (month_of_day d + 1) ((y - 1970) * 12)) as H3.
  pose proof (month_start_le_iff (month_of_day d + 1) ((y + 1 - 1970) * 12)) as H4. lia.
Qed.
Lemma year_of_mono d d' : d <= d' -> year_of d <= year_of d'.
Proof.
  intros H. unfold year_of. assert (month_of_day d <= month_of_day d').
  { pose proof (proj1 (month_of_day_iff d (month_of_day d)) eq_refl). pose proof (proj1 (month_of_day_iff d' (month_of_day d')) eq_refl).
    pose proof (month_start_le_iff (month_of_day d' + 1) (month_of_day d)). lia. }
  lia.
Qed.

(** An element of `at` for from_easter_western and from_easter_orthodox: the offset. *)
Lemma C42_cuts_pf : forall orthodox f s g offs, is_frame f -> is_span f s -> check_groupby_freq (fr_str f) g = true ->
  fbase (to_freq g) = BA 12 -> fmult (to_freq g) = 1%positive -> offs <> [] -> (forall o, In o offs -> forward o \/ backward o) ->
  easter_year (year_of (reach_before f g s / NS_DAY)) -> easter_year (year_of (reach_after f g s / NS_DAY)) ->
  exists spans, partition f (DMarker (mkMarker g (map (from_easter orthodox) offs))) s = Ok spans
    /\ tiling (s_first s) (s_last s) spans
    /\ forall u, s_first s < u <= s_last s ->
         (starts_span spans u <-> exists o y t, In o offs /\ easter_mark orthodox (fr_str f) o y t /\ cut_by f u t).
Proof.
  intros orth f s g offs Hf Hs Hc' Hb Hmul Hne Ho Hy0 Hy1. pose proof (yearly_accepts _ g Hc' Hb Hmul) as Hc. destruct (at_stencil f s g (is_span_wf f s Hs)) as [pi Hpi].
  set (Y0 := year_of (reach_before f g s / NS_DAY)) in *. set (Y1 := year_of (reach_after f g s / NS_DAY)) in *.
  destruct (all_points (from_easter orth) (fun o t => exists y, Y0 <= y <= Y1 /\ easter_mark orth (fr_str f) o y t) pi (fr_str f) offs) as (pts & Hp & Hin).
  { intros o Hi. destruct (C42_marks_pf orth o g (fr_str f) _ _ pi Hb Hmul (proj2 (proj2 Hc)) Hpi Hy0 Hy1 (Ho o Hi)) as (ys & ms & E & _ & Hys & HF).
    exists ms. split; [exact E|]. intros t. rewrite (Forall2_members _ ys ms t (fun y => easter_mark_fun orth (fr_str f) o y) HF). split.
    - intros (y & Hy & Hm). exists y. apply Hys in Hy. split; [apply Hy|exact Hm].
    - intros (y & Hy & Hm). exists y. split; [|exact Hm]. apply Hys. split; [exact Hy|exists t; exact Hm]. }
  assert (Hne' : map (from_easter orth) offs <> []) by (destruct offs; [contradiction|discriminate]).
  destruct (C51_cuts_pf f s g _ pi pts Hf Hs (proj2 (proj2 Hc)) Hne' Hpi Hp) as (spans & E & Ht & Hcut).
  exists spans. split; [exact E|]. split; [exact Ht|]. intros u Hu. rewrite (Hcut u Hu). split.
  - intros (ts & t & Hts & Hi & Hcu). destruct (proj1 (Hin t)) as (o & Hio & y & _ & Hm); [exists ts; split; assumption|].
    exists o, y, t. repeat (split; [assumption|]). exact Hcu.
  - intros (o & y & t & Hio & Hm & Hcu). destruct (proj2 (Hin t)) as (ts & Hts & Hi).
    { exists o. split; [exact Hio|]. exists y. split; [|exact Hm].
      unfold cut_by in Hcu. rewrite unit_end_next in Hcu. destruct Hm as (He & v & Hv & Et). cbv zeta in *.
      set (e := add_offset o (easter_day orth y * NS_DAY)) in *.
      assert (Hyr : year_of (t / NS_DAY) = y).
      { apply year_of_iff. destruct (accepted_base (fr_str f) g Hc (y - 1970)) as [w Hw]. rewrite Hb in Hw.
        assert (Ew : pstart (BA 12) (y - 1970) = date y 1 1 * NS_DAY).
        { cbn [pstart]. unfold date. change (1 - 1) with 0. rewrite !Z.add_0_r. do 2 f_equal. lia. }
        rewrite Ew in Hw. pose proof Hv as Hv2. apply in_cal_unit_pord in Hv. pose proof (snap_lt (fr_str f) e w) as Hsn. unfold snap in Hsn. rewrite Hv, <- Et, Hw in Hsn.
        unfold in_cal_unit in Hv2. unfold NS_DAY in *. lia. }
      apply is_span_wf in Hs. pose proof (unit_start_le f (s_first s) u ltac:(lia)) as H1.
      pose proof (unit_start_le f (u + 1) (s_last s + 1) ltac:(lia)) as H2. assert (Hd : NS_SEC < get_freq_delta (to_freq g)) by (unfold get_freq_delta; rewrite Hb, Hmul; reflexivity).
      assert (Hcu' : unit_start f u <= t < unit_start f (s_last s + 1) + NS_SEC).
      { clear - Hcu H2 Hs Hu. pose proof (unit_start_lt f u (u + 1) ltac:(lia)). unfold span_wf in Hs. unfold NS_SEC in *. destruct (Z.eq_dec u (fr_len f - 1)); lia. }
      split; rewrite <- Hyr; apply year_of_mono; unfold reach_before, reach_after; rewrite ?unit_end_next; unfold NS_DAY; apply Z.div_le_mono; unfold NS_SEC in *; clear - H1 Hd Hcu'; lia. }
    exists ts, t. split; [exact Hts|]. split; [exact Hi|exact Hcu].
Qed.

Lemma group_mark_fun orth g norm t0 o k x y : group_mark orth g norm t0 o k x -> group_mark orth g norm t0 o k y -> x = y.
Proof.
  intros (p & p' & e & v & _ & _ & (q & Hq & He) & _ & _ & Hv & ->) (p1 & p1' & e1 & v1 & _ & _ & (q1 & Hq1 & He1) & _ & _ & Hv1 & ->).
  apply group_start_iff in Hq. apply group_start_iff in Hq1. subst q q1. subst e e1.
  apply in_cal_unit_pord in Hv. apply in_cal_unit_pord in Hv1. congruence.
Qed.

(** Easter counted from periods of any length, with offsets of any signs. *)
Lemma C42_periods_cuts_pf : forall orthodox f s g offs, is_frame f -> is_span f s -> accepts (fr_str f) g -> offs <> [] ->
  (forall o, In o offs -> usable o) ->
  (forall k p', inspected f g s k -> group_start g (reach_before f g s) (k + 1) p' -> easter_year (year_of ((p' - 1) / NS_DAY))) ->
  let m := mkMarker g (map (from_easter orthodox) offs) in
  let holds k := forall e, group_easter orthodox g (reach_before f g s) k e -> in_group g (reach_before f g s) k e in
  ((exists k, inspected f g s k /\ ~ holds k) -> partition f (DMarker m) s = Err EValue)
  /\ ((forall k, inspected f g s k -> holds k) ->
      exists spans, partition f (DMarker m) s = Ok spans
        /\ tiling (s_first s) (s_last s) spans
        /\ forall u, s_first s < u <= s_last s ->
             (starts_span spans u <->
              exists o k t, In o offs /\ inspected f g s k
                /\ group_mark orthodox g (fr_str f) (reach_before f g s) o k t /\ cut_by f u t)).
Proof.
  intros orth f s g offs Hf Hs Hc Hne Hus Hy m holds. destruct (at_stencil f s g (is_span_wf f s Hs)) as [pi Hpi].
  pose proof (fun k => inspected_iff f g s pi k Hpi) as Hin.
  assert (Hy' : forall k p', 0 <= k < fr_len pi -> group_start g (reach_before f g s) (k + 1) p' -> easter_year (year_of ((p' - 1) / NS_DAY))).
  { intros k p' Hk. apply Hy. apply Hin, Hk. }
  assert (He : forall k, exists e, group_easter orth g (reach_before f g s) k e).
  { intros k. eexists. eexists. split; [apply group_start_iff; reflexivity|reflexivity]. }
  split.
  - intros (k & Hk & Hno). destruct offs as [|o offs]; [contradiction|].
    apply (C51_fails_pf f s g [] (from_easter orth o) (map (from_easter orth) offs) pi [] EValue Hf Hs (proj2 (proj2 Hc)) Hpi); [constructor|].
    destruct (C42_periods_pf orth o g (fr_str f) _ _ pi (Hus o (or_introl eq_refl)) Hc Hpi Hy') as [Hbad _]. apply Hbad.
    destruct (He k) as [e Hke]. exists k, e. split; [apply Hin, Hk|]. split; [exact Hke|]. intros Hg. apply Hno.
    intros e1 (q & Hq & E1). destruct Hke as (q2 & Hq2 & E2). apply group_start_iff in Hq. apply group_start_iff in Hq2. subst. exact Hg.
  - intros Hall.
    destruct (all_points (from_easter orth) (fun o t => exists k, inspected f g s k /\ group_mark orth g (fr_str f) (reach_before f g s) o k t) pi (fr_str f) offs) as (pts & Hp & Hpin).
    { intros o Hi. destruct (C42_periods_pf orth o g (fr_str f) _ _ pi (Hus o Hi) Hc Hpi Hy') as [_ Hgood].
      destruct Hgood as (ks & ms & E & _ & Hks & HF); [intros k e Hk Hke; apply (Hall k); [apply Hin, Hk|exact Hke]|].
      exists ms. split; [exact E|]. intros t. rewrite (Forall2_members _ ks ms t (fun k x y => group_mark_fun orth g _ _ o k x y) HF). split.
      - intros (k & Hk & Hm). exists k. apply Hks in Hk. split; [apply Hin, Hk|exact Hm].
      - intros (k & Hk & Hm). exists k. split; [|exact Hm]. apply Hks. split; [apply Hin, Hk|exists t; exact Hm]. }
    assert (Hne' : map (from_easter orth) offs <> []) by (destruct offs; [contradiction|discriminate]).
    destruct (C51_cuts_pf f s g _ pi pts Hf Hs (proj2 (proj2 Hc)) Hne' Hpi Hp) as (spans & E & Ht & Hcut).
    exists spans. split; [exact E|]. split; [exact Ht|]. intros u Hu. rewrite (Hcut u Hu). split.
    + intros (ts & t & Hts & Hi & Hcu). destruct (proj1 (Hpin t)) as (o & Hio & k & Hk & Hm); [exists ts; split; assumption|].
      exists o, k, t. split; [exact Hio|]. split; [exact Hk|]. split; [exact Hm|exact Hcu].
    + intros (o & k & t & Hio & Hk & Hm & Hcu). destruct (proj2 (Hpin t)) as (ts & Hts & Hi).
      { exists o. split; [exact Hio|]. exists k. split; [exact Hk|exact Hm]. }
      exists ts, t. split; [exact Hts|]. split; [exact Hi|exact Hcu].
Qed.

(** ** C41 for all functions *)
(** What the function makes of all elements of `at`. *)
Definition marked (f : frame) (g : fstr) (s : span) (hows : list (frame -> fstr -> res (list Z))) (P : Z -> Prop) : Prop :=
  exists pi pts, handed f g s pi /\ points_of pi (fr_str f) hows pts /\ hows <> [] /\ forall t, (exists ts, In ts pts /\ In t ts) <-> P t.
Lemma skips_of f s g hows P : is_frame f -> long_units f -> is_span f s -> check_groupby_freq (fr_str f) g = true -> marked f g s hows P ->
  (forall t, P t -> exists u, t = unit_start f u) ->
  exists spans, partition f (DMarker (mkMarker g hows)) s = Ok spans /\ skips_recorded f s P spans.
Proof.
  intros Hf Hlu Hs Hc (pi & pts & Hpi & Hp & Hh & HP) Hu.
  destruct (C51_skips_partial_pf f s g hows pi pts Hf Hlu Hs Hc Hh Hpi Hp) as (spans & a & b & E & HX & HY & HL & HR).
  { intros ts t Hts Ht. apply Hu, HP. exists ts. split; assumption. }
  exists spans. split; [exact E|]. exists a, b. split; [exact HX|]. split; [exact HY|]. unfold last_upto, first_after in *. split.
  - destruct HL as [[H1 H2]|(H1 & H2 & H3 & H4)]; [left|right]; split; try assumption.
    + intros t Ht. apply H2, HP, Ht.
    + split; [apply HP, H2|]. split; [exact H3|]. intros t' Ht'. apply H4, HP, Ht'.
  - destruct HR as [[H1 H2]|(H1 & H2 & H3 & H4)]; [left|right]; split; try assumption.
    + intros t Ht. apply H2, HP, Ht.
    + split; [apply HP, H2|]. split; [exact H3|]. intros t' Ht'. apply H4, HP, Ht'.
Qed.
Lemma base_unit_start f v : fmult (to_freq (fr_str f)) = 1%positive -> exists u, pstart (fbase (to_freq (fr_str f))) v = unit_start f u.
Proof.
  intros Hm. exists (v - fr_o0 f). change (fbase (to_freq (fr_str f))) with (fr_base f). unfold unit_start, unit_ord, fr_mult. rewrite Hm. f_equal. lia.
Qed.

Lemma every_points f s g offs : is_span f s -> accepts (fr_str f) g -> offs <> [] -> (forall o, In o offs -> usable o) ->
  marked f g s (map from_start_of_each offs) (fun t => exists o k, In o offs /\ ~ goes_back o /\ inspected f g s k
                                    /\ mark_upto g (fr_str f) (reach_before f g s) o k t).
Proof.
  intros Hs Hc Hne Hus. destruct (at_stencil f s g (is_span_wf f s Hs)) as [pi Hpi].
  destruct (all_points from_start_of_each
    (fun o t => exists k, ~ goes_back o /\ inspected f g s k /\ mark_upto g (fr_str f) (reach_before f g s) o k t)
    pi (fr_str f) offs) as (pts & Hp & Hin).
  { intros o Hi. destruct (C37_every_pf o g (fr_str f) _ _ pi (Hus o Hi) Hc Hpi) as [Hb Hn].
    assert (Hd : goes_back o \/ ~ goes_back o) by (unfold goes_back; lia). destruct Hd as [Hd|Hd].
    - exists []. split; [exact (Hb Hd)|]. intros t. split; [contradiction|]. intros (k & Hk & _). contradiction.
    - destruct (Hn Hd) as (ks & ms & E & _ & Hks & HF).
      exists ms. split; [exact E|]. intros t. rewrite (Forall2_members _ ks ms t (fun k x y => mark_upto_fun _ _ _ _ k x y) HF). split.
      + intros (k & Hk & Hm). exists k. split; [exact Hd|]. apply Hks in Hk. split; [apply (inspected_iff f g s pi k Hpi), Hk|exact Hm].
      + intros (k & _ & Hk & Hm). exists k. split; [|exact Hm]. apply Hks. split; [apply (inspected_iff f g s pi k Hpi), Hk|exists t; exact Hm]. }
  assert (Hne' : map from_start_of_each offs <> []) by (destruct offs; [contradiction|discriminate]).
  exists pi, pts. split; [exact Hpi|]. split; [exact Hp|]. split; [exact Hne'|].
  intros t. rewrite Hin. split; [intros (o & Ho & k & H); exists o, k; split; assumption|intros (o & k & Ho & H); exists o; split; [exact Ho|exists k; exact H]].
Qed.
Lemma C41_every_partial_pf : forall f s g offs, is_frame f -> long_units f -> is_span f s -> accepts (fr_str f) g ->
  fmult (to_freq (fr_str f)) = 1%positive -> offs <> [] -> (forall o, In o offs -> usable o) ->
  exists spans, partition f (DMarker (mkMarker g (map from_start_of_each offs))) s = Ok spans
    /\ skips_recorded f s (fun t => exists o k, In o offs /\ ~ goes_back o /\ inspected f g s k
                                    /\ mark_upto g (fr_str f) (reach_before f g s) o k t) spans.
Proof.
  intros f s g offs Hf Hlu Hs Hc Hmul Hne Hus. apply (skips_of f s g _ _ Hf Hlu Hs (proj2 (proj2 Hc)) (every_points f s g offs Hs Hc Hne Hus)).
  intros t (o & k & _ & _ & _ & p & p' & v & _ & _ & _ & _ & ->). apply base_unit_start, Hmul.
Qed.

Lemma midnight_start f d : fmult (to_freq (fr_str f)) = 1%positive -> fbase (to_freq (fr_str f)) = BD \/ fbase (to_freq (fr_str f)) = BH \/ fbase (to_freq (fr_str f)) = BT \/ fbase (to_freq (fr_str f)) = BS ->
  exists u, d * NS_DAY = unit_start f u.
Proof.
  intros Hmul Hb. assert (Hv : exists v, pstart (fbase (to_freq (fr_str f))) v = d * NS_DAY).
  { destruct Hb as [->|[->|[->| ->]]]; cbn [pstart]; [exists d|exists (d * 24)|exists (d * 1440)|exists (d * 86400)]; unfold NS_DAY, NS_HOUR, NS_MIN, NS_SEC; lia. }
  destruct Hv as [v <-]. apply base_unit_start, Hmul.
Qed.
Lemma nth_points f s g ats : is_span f s -> of_months g -> ats <> [] ->
  (forall month week wday shift, In (month, week, wday, shift) ats -> 1 <= month <= 12 /\ 1 <= wday <= 7 /\ 1 <= Z.abs week <= 5) ->
  marked f g s (map (fun '(month, week, wday, shift) => nth_weekday_of_month month week wday shift) ats)
    (fun t => exists month week wday shift k, In (month, week, wday, shift) ats /\ inspected f g s k
              /\ nth_mark g (reach_before f g s) month (wday - 1) week shift k t).
Proof.
  intros Hs Hg Hne Ha. destruct (at_stencil f s g (is_span_wf f s Hs)) as [pi Hpi].
  destruct (all_points (fun '(month, week, wday, shift) => nth_weekday_of_month month week wday shift)
    (fun '(month, week, wday, shift) t => exists k, inspected f g s k /\ nth_mark g (reach_before f g s) month (wday - 1) week shift k t)
    pi (fr_str f) ats) as (pts & Hp & Hin).
  { intros [[[month week] wday] shift] Hi. destruct (Ha _ _ _ _ Hi) as (H1 & H2 & H3).
    destruct (C38_marks_pf g (fr_str f) _ _ pi month week wday shift Hg Hpi H1 H2 H3) as (ks & ms & E & _ & Hks & HF).
    exists ms. split; [exact E|]. intros t. rewrite (Forall2_members _ ks ms t (fun k x y => nth_mark_fun _ _ _ _ _ _ k x y) HF). split.
    - intros (k & Hk & Hm). exists k. apply Hks in Hk. split; [apply (inspected_iff f g s pi k Hpi), Hk|exact Hm].
    - intros (k & Hk & Hm). exists k. split; [|exact Hm]. apply Hks. split; [apply (inspected_iff f g s pi k Hpi), Hk|exists t; exact Hm]. }
  assert (Hne' : map (fun '(month, week, wday, shift) => nth_weekday_of_month month week wday shift) ats <> []) by (destruct ats; [contradiction|discriminate]).
  exists pi, pts. split; [exact Hpi|]. split; [exact Hp|]. split; [exact Hne'|].
  intros t. rewrite Hin. split.
  - intros ([[[month week] wday] shift] & Hi & k & H). exists month, week, wday, shift, k. split; assumption.
  - intros (month & week & wday & shift & k & Hi & H). exists (month, week, wday, shift). split; [exact Hi|exists k; exact H].
Qed.
Lemma C41_nth_pf : forall f s g ats, is_frame f -> is_span f s -> check_groupby_freq (fr_str f) g = true -> of_months g -> ats <> [] ->
  (forall month week wday shift, In (month, week, wday, shift) ats -> 1 <= month <= 12 /\ 1 <= wday <= 7 /\ 1 <= Z.abs week <= 5) ->
  fmult (to_freq (fr_str f)) = 1%positive -> In (fbase (to_freq (fr_str f))) [BD; BH; BT; BS] ->
  exists spans, partition f (DMarker (mkMarker g (map (fun '(month, week, wday, shift) => nth_weekday_of_month month week wday shift) ats))) s = Ok spans
    /\ skips_recorded f s (fun t => exists month week wday shift k, In (month, week, wday, shift) ats /\ inspected f g s k
                                    /\ nth_mark g (reach_before f g s) month (wday - 1) week shift k t) spans.
Proof.
  intros f s g ats Hf Hs Hc Hg Hne Ha Hmul Hb.
  assert (Hlu : long_units f).
  { apply C05_long_pf. intros Hi. cbn [In] in Hb, Hi. destruct Hb as [Hb|[Hb|[Hb|[Hb|[]]]]]; rewrite <- Hb in Hi; intuition discriminate. }
  apply (skips_of f s g _ _ Hf Hlu Hs Hc (nth_points f s g ats Hs Hg Hne Ha)).
  intros t (month & week & wday & shift & k & _ & _ & m & d & _ & _ & _ & ->). apply (midnight_start f _ Hmul). cbn [In] in Hb. intuition.
Qed.

Lemma easter_points orth f s g offs : is_span f s -> accepts (fr_str f) g -> offs <> [] -> (forall o, In o offs -> usable o) ->
  (forall k p', inspected f g s k -> group_start g (reach_before f g s) (k + 1) p' -> easter_year (year_of ((p' - 1) / NS_DAY))) ->
  (forall k e, inspected f g s k -> group_easter orth g (reach_before f g s) k e -> in_group g (reach_before f g s) k e) ->
  marked f g s (map (from_easter orth) offs) (fun t => exists o k, In o offs /\ inspected f g s k
                                    /\ group_mark orth g (fr_str f) (reach_before f g s) o k t).
Proof.
  intros Hs Hc Hne Hus Hy Hall. destruct (at_stencil f s g (is_span_wf f s Hs)) as [pi Hpi].
  pose proof (fun k => inspected_iff f g s pi k Hpi) as Hin.
  assert (Hy' : forall k p', 0 <= k < fr_len pi -> group_start g (reach_before f g s) (k + 1) p' -> easter_year (year_of ((p' - 1) / NS_DAY))).
  { intros k p' Hk. apply Hy. apply Hin, Hk. }
  destruct (all_points (from_easter orth) (fun o t => exists k, inspected f g s k /\ group_mark orth g (fr_str f) (reach_before f g s) o k t) pi (fr_str f) offs) as (pts & Hp & Hpin).
  { intros o Hi. destruct (C42_periods_pf orth o g (fr_str f) _ _ pi (Hus o Hi) Hc Hpi Hy') as [_ Hgood].
    destruct Hgood as (ks & ms & E & _ & Hks & HF); [intros k e Hk Hke; apply (Hall k); [apply Hin, Hk|exact Hke]|].
    exists ms. split; [exact E|]. intros t. rewrite (Forall2_members _ ks ms t (fun k x y => group_mark_fun orth g _ _ o k x y) HF). split.
    - intros (k & Hk & Hm). exists k. apply Hks in Hk. split; [apply Hin, Hk|exact Hm].
    - intros (k & Hk & Hm). exists k. split; [|exact Hm]. apply Hks. split; [apply Hin, Hk|exists t; exact Hm]. }
  assert (Hne' : map (from_easter orth) offs <> []) by (destruct offs; [contradiction|discriminate]).
  exists pi, pts. split; [exact Hpi|]. split; [exact Hp|]. split; [exact Hne'|].
  intros t. rewrite Hpin. split; [intros (o & Ho & k & H); exists o, k; split; assumption|intros (o & k & Ho & H); exists o; split; [exact Ho|exists k; exact H]].
Qed.
Lemma C41_easter_partial_pf : forall orthodox f s g offs, is_frame f -> long_units f -> is_span f s -> accepts (fr_str f) g -> offs <> [] ->
  (forall o, In o offs -> usable o) -> fmult (to_freq (fr_str f)) = 1%positive ->
  (forall k p', inspected f g s k -> group_start g (reach_before f g s) (k + 1) p' -> easter_year (year_of ((p' - 1) / NS_DAY))) ->
  (forall k e, inspected f g s k -> group_easter orthodox g (reach_before f g s) k e -> in_group g (reach_before f g s) k e) ->
  exists spans, partition f (DMarker (mkMarker g (map (from_easter orthodox) offs))) s = Ok spans
    /\ skips_recorded f s (fun t => exists o k, In o offs /\ inspected f g s k
                                    /\ group_mark orthodox g (fr_str f) (reach_before f g s) o k t) spans.
Proof.
  intros orth f s g offs Hf Hlu Hs Hc Hne Hus Hmul Hy Hall.
  apply (skips_of f s g _ _ Hf Hlu Hs (proj2 (proj2 Hc)) (easter_points orth f s g offs Hs Hc Hne Hus Hy Hall)).
  intros t (o & k & _ & _ & p & p' & e & v & _ & _ & _ & _ & _ & _ & ->). apply base_unit_start, Hmul.
Qed.

(** The same without conditions on the units. *)
Lemma skips_found_of f s g hows P : is_frame f -> is_span f s -> unit_start f (s_first s) < unit_end f (s_last s) ->
  check_groupby_freq (fr_str f) g = true -> marked f g s hows P ->
  exists spans, partition f (DMarker (mkMarker g hows)) s = Ok spans /\ skips_found f s P spans.
Proof.
  intros Hf Hs Hlt Hc (pi & pts & Hpi & Hp & Hh & HP).
  destruct (C51_skips_pf f s g hows pi pts Hf Hs Hlt Hc Hh Hpi Hp) as (spans & E & a & b & HX & HY & HL & HR).
  exists spans. split; [exact E|]. exists a, b. split; [exact HX|]. split; [exact HY|]. unfold last_upto in *. split.
  - destruct HL as [[H1 H2]|(H1 & t & (H2 & H3 & H4) & H5)]; [left; split; [exact H1|]; intros t Ht; apply H2, HP, Ht|].
    right. split; [exact H1|]. exists t. split; [|exact H5]. split; [apply HP, H2|]. split; [exact H3|]. intros t' Ht'. apply H4, HP, Ht'.
  - destruct HR as [[H1 H2]|(H1 & t & H2 & H3 & H4 & H5)]; [left; split; [exact H1|]; intros t Ht; apply H2, HP, Ht|].
    right. split; [exact H1|]. exists t. split; [apply HP, H2|]. split; [exact H3|]. split; [|exact H5]. intros t' Ht'. apply H4, HP, Ht'.
Qed.
Lemma C41_found_pf : forall f s g offs, is_frame f -> is_span f s -> unit_start f (s_first s) < unit_end f (s_last s) -> accepts (fr_str f) g ->
  offs <> [] -> (forall o, In o offs -> usable o) ->
  exists spans, partition f (DMarker (mkMarker g (map from_start_of_each offs))) s = Ok spans
    /\ skips_found f s (fun t => exists o k, In o offs /\ ~ goes_back o /\ inspected f g s k
                                    /\ mark_upto g (fr_str f) (reach_before f g s) o k t) spans.
Proof.
  intros f s g offs Hf Hs Hlt Hc Hne Hus. exact (skips_found_of f s g _ _ Hf Hs Hlt (proj2 (proj2 Hc)) (every_points f s g offs Hs Hc Hne Hus)).
Qed.
Lemma C41_nth_found_pf : forall f s g ats, is_frame f -> is_span f s -> unit_start f (s_first s) < unit_end f (s_last s) -> check_groupby_freq (fr_str f) g = true -> of_months g -> ats <> [] ->
  (forall month week wday shift, In (month, week, wday, shift) ats -> 1 <= month <= 12 /\ 1 <= wday <= 7 /\ 1 <= Z.abs week <= 5) ->
  exists spans, partition f (DMarker (mkMarker g (map (fun '(month, week, wday, shift) => nth_weekday_of_month month week wday shift) ats))) s = Ok spans
    /\ skips_found f s (fun t => exists month week wday shift k, In (month, week, wday, shift) ats /\ inspected f g s k
                                    /\ nth_mark g (reach_before f g s) month (wday - 1) week shift k t) spans.
Proof.
  intros f s g ats Hf Hs Hlt Hc Hg Hne Ha. exact (skips_found_of f s g _ _ Hf Hs Hlt Hc (nth_points f s g ats Hs Hg Hne Ha)).
Qed.
Lemma C41_easter_found_pf : forall orthodox f s g offs, is_frame f -> is_span f s -> unit_start f (s_first s) < unit_end f (s_last s) -> accepts (fr_str f) g -> offs <> [] ->
  (forall o, In o offs -> usable o) ->
  (forall k p', inspected f g s k -> group_start g (reach_before f g s) (k + 1) p' -> easter_year (year_of ((p' - 1) / NS_DAY))) ->
  (forall k e, inspected f g s k -> group_easter orthodox g (reach_before f g s) k e -> in_group g (reach_before f g s) k e) ->
  exists spans, partition f (DMarker (mkMarker g (map (from_easter orthodox) offs))) s = Ok spans
    /\ skips_found f s (fun t => exists o k, In o offs /\ inspected f g s k
                                    /\ group_mark orthodox g (fr_str f) (reach_before f g s) o k t) spans.
Proof.
  intros orth f s g offs Hf Hs Hlt Hc Hne Hus Hy Hall. exact (skips_found_of f s g _ _ Hf Hs Hlt (proj2 (proj2 Hc)) (easter_points orth f s g offs Hs Hc Hne Hus Hy Hall)).
Qed.
