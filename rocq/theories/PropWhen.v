(** Marks of a Marker with `at`: C37, C38, C41, C42. *)
From Verif Require Import Base Civil Freq Frame When Timeline Board Spec SpecLookup SpecCivil SpecLayout SpecWhen Samples LookupProofs FrameProofs PartProofs WhenProofs MarkProofs NthProofs EasterProofs.
From Coq Require Import Sorted.

(** ** C37 *)
(** What is missing from the property: offsets that mix positive and negative components (see
    [C37_refuted]). *)
Theorem C37_marks_partial : forall o g norm t0 t1 pi, forward o -> accepts norm g -> mk_frame g t0 t1 = Ok pi ->
  exists ks marks, from_start_of_each o pi norm = Ok marks
    /\ StronglySorted Z.lt ks
    /\ (forall k, In k ks <-> 0 <= k < fr_len pi /\ exists t, mark_of g norm t0 o k t)
    /\ Forall2 (mark_of g norm t0 o) ks marks.
Proof. exact C37_marks_partial_pf. Qed.
Print Assumptions C37_marks_partial.

Theorem C37_negative : forall o pi norm, backward o -> from_start_of_each o pi norm = Ok [].
Proof. exact C37_negative_pf. Qed.
Print Assumptions C37_negative.

(** On a timeboard the marks separate the spans.  What is missing: mixed offsets as above, and
    if the base units are multiplied (so that a mark may be inside one), a mark in the very
    last base unit counts only if it is in its first second (as in C05). *)
Theorem C37_cuts_partial : forall f s g offs, is_frame f -> long_units f -> is_span f s -> accepts (fr_str f) g ->
  offs <> [] -> (forall o, In o offs -> forward o \/ backward o) ->
  exists spans, partition f (DMarker (mkMarker g (map from_start_of_each offs))) s = Ok spans
    /\ tiling (s_first s) (s_last s) spans
    /\ forall u, s_first s < u <= s_last s ->
         (starts_span spans u <->
          exists o k t, In o offs /\ mark_of g (fr_str f) (reach_before f g s) o k t
            /\ cut_by f u t).
Proof. exact C37_cuts_partial_pf. Qed.
Print Assumptions C37_cuts_partial.

(** Monthly marks on the 15th and the 31st (which February does not have). *)
Definition months17 : frame := mkFrame (fq AlM) 564 4.
Example C37_ex1 :
  mk_frame (fq AlM) (day 2017 1 5) (day 2017 4 2) = Ok months17 /\ accepts (fq AlD) (fq AlM)
  /\ from_start_of_each (DKw 0 0 2 0 0 0 0) months17 (fq AlD) = Ok [day 2017 1 15; day 2017 2 15; day 2017 3 15; day 2017 4 15]
  /\ from_start_of_each (DKw 0 0 0 30 5 0 0) months17 (fq AlD) = Ok [day 2017 1 31; day 2017 3 31]
  /\ from_start_of_each (DKw 0 1 0 0 0 0 0) months17 (fq AlD) = Ok []
  /\ from_start_of_each (DKw 0 0 0 (-1) 0 0 0) months17 (fq AlD) = Ok [].
Proof. vm_compute. repeat split. Qed.
(** 20 Feb to 10 Apr 2017: a new span on 15 Mar and 31 Mar. *)
Definition spring : frame := mkFrame (fq AlD) 17217 50.
Definition twice_monthly : list dateoffset := [DKw 0 0 2 0 0 0 0; DKw 0 0 0 30 0 0 0; DKw 0 0 0 (-3) 0 0 0].
Example spring_is : is_frame spring /\ is_span spring (mkSpan 0 49 0 0) /\ unit_start spring 0 = day 2017 2 20.
Proof. split; [exists (day 2017 2 20), (day 2017 4 10); vm_compute; reflexivity|]. vm_compute. repeat split; congruence. Qed.
Example C37_ex2 :
  accepts (fr_str spring) (fq AlM)
  /\ (forall o, In o twice_monthly -> forward o \/ backward o)
  /\ partition spring (DMarker (mkMarker (fq AlM) (map from_start_of_each twice_monthly))) (mkSpan 0 49 0 0)
     = Ok [mkSpan 0 22 5 0; mkSpan 23 38 0 0; mkSpan 39 49 0 4].
Proof.
  split; [vm_compute; repeat split|]. split; [|vm_compute; reflexivity].
  intros o [<-|[<-|[<-|[]]]]; [left|left|right]; vm_compute; repeat split; try congruence. right; right; right; left; reflexivity.
Qed.

(** Offsets of any signs: exactly what the code makes of them.  An offset that goes back from
    1 Jan 2004 gives no marks; any other gives a mark for every period after whose end the
    instant is not, even if it is before the period. *)
Theorem C37_every : forall o g norm t0 t1 pi, usable o -> accepts norm g -> mk_frame g t0 t1 = Ok pi ->
  (goes_back o -> from_start_of_each o pi norm = Ok [])
  /\ (~ goes_back o -> exists ks marks, from_start_of_each o pi norm = Ok marks
       /\ StronglySorted Z.lt ks
       /\ (forall k, In k ks <-> 0 <= k < fr_len pi /\ exists t, mark_upto g norm t0 o k t)
       /\ Forall2 (mark_upto g norm t0 o) ks marks).
Proof. exact C37_every_pf. Qed.
Print Assumptions C37_every.

Theorem C37_every_cuts : forall f s g offs, is_frame f -> is_span f s -> accepts (fr_str f) g -> offs <> [] ->
  (forall o, In o offs -> usable o) ->
  exists spans, partition f (DMarker (mkMarker g (map from_start_of_each offs))) s = Ok spans
    /\ tiling (s_first s) (s_last s) spans
    /\ forall u, s_first s < u <= s_last s ->
         (starts_span spans u <->
          exists o k t, In o offs /\ ~ goes_back o /\ inspected f g s k
            /\ mark_upto g (fr_str f) (reach_before f g s) o k t /\ cut_by f u t).
Proof. exact C37_every_cuts_pf. Qed.
Print Assumptions C37_every_cuts.

(** One month less 31 days. *)
Example C37_every_ex :
  ~ goes_back (DKw 0 1 0 (-31) 0 0 0) /\ goes_back (DKw 0 1 0 (-32) 0 0 0)
  /\ mark_upto (fq AlM) (fq AlD) (day 2017 1 5) (DKw 0 1 0 (-31) 0 0 0) 1 (day 2017 1 29)
  /\ from_start_of_each (DKw 0 1 0 (-31) 0 0 0) months17 (fq AlD) = Ok [day 2017 1 1; day 2017 1 29; day 2017 3 1; day 2017 3 31]
  /\ from_start_of_each (DKw 0 1 0 (-32) 0 0 0) months17 (fq AlD) = Ok []
  /\ partition spring (DMarker (mkMarker (fq AlM) (map from_start_of_each [DKw 0 1 0 (-31) 0 0 0]))) (mkSpan 0 49 0 0)
     = Ok [mkSpan 0 8 22 0; mkSpan 9 38 0 0; mkSpan 39 49 0 20].
Proof.
  split; [vm_compute; discriminate|]. split; [vm_compute; reflexivity|].
  split; [exists (day 2017 2 1), (day 2017 3 1), (day 2017 1 29 / NS_DAY)|vm_compute; repeat split].
  split; [exists 564; vm_compute; repeat split; congruence|]. split; [exists 564; vm_compute; repeat split; congruence|].
  vm_compute. repeat split; congruence.
Qed.

(** One month less 31 days: the mark for February 2017 is on 29 January, outside the period. *)
Theorem C37_refuted : exists o g norm t0 t1 pi marks t,
  check_groupby_freq norm g = true /\ mk_frame g t0 t1 = Ok pi /\ from_start_of_each o pi norm = Ok marks /\ In t marks
  /\ forall k, 0 <= k < fr_len pi -> ~ in_group g t0 k t.
Proof.
  exists (DKw 0 1 0 (-31) 0 0 0), (fq AlM), (fq AlD), (day 2017 2 1), (day 2017 2 28), (mkFrame (fq AlM) 565 1), [day 2017 1 29], (day 2017 1 29).
  split; [vm_compute; reflexivity|]. split; [vm_compute; reflexivity|]. split; [vm_compute; reflexivity|]. split; [left; reflexivity|].
  intros k Hk Hin. apply in_group_iff in Hin. vm_compute in Hin. subst k. destruct Hk as [Hk _]. exact (Hk eq_refl).
Qed.
Print Assumptions C37_refuted.

(** ** C63: absolute keywords (see also C46_offset, C46_refused in PropCivil.v, and C37_every,
    C37_every_cuts, C42_every, C42_periods) *)
Theorem C63_marks_partial : forall o g norm t0 t1 pi, usable o -> onward o -> of_months g \/ (of_days g /\ keeps_day o) ->
  accepts norm g -> mk_frame g t0 t1 = Ok pi -> ~ goes_back o
  /\ exists ks marks, from_start_of_each o pi norm = Ok marks
    /\ StronglySorted Z.lt ks
    /\ (forall k, In k ks <-> 0 <= k < fr_len pi /\ exists t, mark_of g norm t0 o k t)
    /\ Forall2 (mark_of g norm t0 o) ks marks.
Proof. exact C63_marks_partial_pf. Qed.
Print Assumptions C63_marks_partial.

(** Absolute keywords: the 15th; the first Friday; the last Friday (day 31 is the last day of any
    month); the first of January, which no other month contains and every month is marked with. *)
Example C63_marks_ex :
  let o1 := DSet (mkAbs None None (Some 15) None None None None) 0 0 0 0 0 0 0 in
  let o2 := DSet (mkAbs None None None None None None (Some (4, 0))) 0 0 0 0 0 0 0 in
  let o3 := DSet (mkAbs None None (Some 31) None None None (Some (4, -1))) 0 0 0 0 0 0 0 in
  let o4 := DSet (mkAbs None (Some 1) None None None None None) 0 0 0 0 0 0 0 in
  (forall o, In o [o1; o2; o3; o4] -> usable o /\ ~ goes_back o) /\ onward o1 /\ onward o2 /\ of_months (fq AlM)
  /\ from_start_of_each o1 months17 (fq AlD) = Ok [day 2017 1 15; day 2017 2 15; day 2017 3 15; day 2017 4 15]
  /\ from_start_of_each o2 months17 (fq AlD) = Ok [day 2017 1 6; day 2017 2 3; day 2017 3 3; day 2017 4 7]
  /\ from_start_of_each o3 months17 (fq AlD) = Ok [day 2017 1 27; day 2017 2 24; day 2017 3 31; day 2017 4 28]
  /\ from_start_of_each o4 months17 (fq AlD) = Ok [day 2017 1 1; day 2017 1 1; day 2017 1 1; day 2017 1 1]
  /\ partition spring (DMarker (mkMarker (fq AlM) (map from_start_of_each [o3]))) (mkSpan 0 49 0 0)
     = Ok [mkSpan 0 3 24 0; mkSpan 4 38 0 0; mkSpan 39 49 0 17].
Proof.
  intros o1 o2 o3 o4. split; [|split; [|split; [|vm_compute; repeat split]]].
  - intros o [<-|[<-|[<-|[<-|[]]]]]; (split; [unfold usable, within; cbn; repeat split; intros; try discriminate; congruence || lia || (match goal with H : Some _ = Some _ |- _ => injection H as ?; lia end)|vm_compute; discriminate]).
  - cbn. repeat split; try lia. intros; discriminate.
  - cbn. repeat split; try lia. intros wd n H. injection H as <- <-. lia.
Qed.

(** Day 15 of each week: for the week of 30 January 2017 the mark is on 15 January. *)
Theorem C63_refuted : exists a g norm t0 t1 pi marks t, let o := DSet a 0 0 0 0 0 0 0 in
  usable o /\ onward o /\ check_groupby_freq norm g = true /\ mk_frame g t0 t1 = Ok pi /\ from_start_of_each o pi norm = Ok marks /\ In t marks
  /\ forall k, 0 <= k < fr_len pi -> ~ in_group g t0 k t.
Proof.
  exists (mkAbs None None (Some 15) None None None None), (fq (AlW None)), (fq AlD), (day 2017 1 30), (day 2017 1 30).
  eexists. eexists. exists (day 2017 1 15). intros o.
  split; [unfold usable, within; cbn; repeat split; intros; try discriminate; match goal with H : Some _ = Some _ |- _ => injection H as ?; lia end|].
  split; [cbn; repeat split; try lia; intros; discriminate|].
  split; [vm_compute; reflexivity|]. split; [vm_compute; reflexivity|]. split; [vm_compute; reflexivity|]. split; [left; reflexivity|].
  intros k Hk Hin. apply in_group_iff in Hin. vm_compute in Hin. subst k. destruct Hk as [Hk _]. exact (Hk eq_refl).
Qed.
Print Assumptions C63_refuted.

(** ** C38: when.py (for calendarbase.py see PropCal.v) *)
Theorem C38_marks : forall g norm t0 t1 pi month week wday shift, of_months g -> mk_frame g t0 t1 = Ok pi ->
  1 <= month <= 12 -> 1 <= wday <= 7 -> 1 <= Z.abs week <= 5 ->
  exists ks marks, nth_weekday_of_month month week wday shift pi norm = Ok marks
    /\ StronglySorted Z.lt ks
    /\ (forall k, In k ks <-> 0 <= k < fr_len pi /\ exists t, nth_mark g t0 month (wday - 1) week shift k t)
    /\ Forall2 (nth_mark g t0 month (wday - 1) week shift) ks marks.
Proof. exact C38_marks_pf. Qed.
Print Assumptions C38_marks.

Theorem C38_unique : forall m w n d d', nth_weekday m w n d -> nth_weekday m w n d' -> d = d'.
Proof. exact C38_unique_pf. Qed.
Print Assumptions C38_unique.

Theorem C38_exists : forall m w n, 0 <= w < 7 -> 1 <= Z.abs n <= 4 -> exists d, nth_weekday m w n d.
Proof. exact C38_exists_pf. Qed.
Print Assumptions C38_exists.

Theorem C38_refused : forall month week wday shift pi norm, ~ (1 <= month <= 12 /\ 1 <= wday <= 7 /\ 1 <= Z.abs week <= 5) ->
  nth_weekday_of_month month week wday shift pi norm = Err EAssertion.
Proof. exact C38_refused_pf. Qed.
Print Assumptions C38_refused.
Example C38_refused_ex : nth_weekday_of_month 13 1 1 0 (mkFrame (fq (AlA None)) 46 2) (fq AlD) = Err EAssertion
  /\ nth_weekday_of_month 12 1 8 0 (mkFrame (fq (AlA None)) 46 2) (fq AlD) = Err EAssertion
  /\ nth_weekday_of_month 12 0 7 0 (mkFrame (fq (AlA None)) 46 2) (fq AlD) = Err EAssertion
  /\ is_ok (nth_weekday_of_month 12 (-5) 7 0 (mkFrame (fq (AlA None)) 46 2) (fq AlD)) = true.
Proof. vm_compute. repeat split. Qed.

(** Years: Thanksgiving, the last Monday of May.  Quarters: the fifth Wednesday of the second
    month, and the fourth month, which is outside. *)
Example C38_ex :
  mk_frame (fq (AlA None)) (day 2016 3 1) (day 2017 3 1) = Ok (mkFrame (fq (AlA None)) 46 2) /\ of_months (fq (AlA None))
  /\ nth_weekday_of_month 11 4 4 0 (mkFrame (fq (AlA None)) 46 2) (fq AlD) = Ok [day 2016 11 24; day 2017 11 23]
  /\ nth_weekday_of_month 5 (-1) 1 1 (mkFrame (fq (AlA None)) 46 2) (fq AlD) = Ok [day 2016 5 31; day 2017 5 30]
  /\ mk_frame (fq (AlQ None)) (day 2017 1 1) (day 2017 12 31) = Ok (mkFrame (fq (AlQ None)) 188 4)
  /\ nth_weekday_of_month 2 5 3 0 (mkFrame (fq (AlQ None)) 188 4) (fq AlD) = Ok [day 2017 5 31; day 2017 8 30; day 2017 11 29]
  /\ nth_weekday_of_month 4 1 3 0 (mkFrame (fq (AlQ None)) 188 4) (fq AlD) = Ok []
  /\ nth_weekday 564 0 1 (date 2017 1 2) /\ nth_weekday 564 0 (-5) (date 2017 1 2).
Proof.
  split; [vm_compute; reflexivity|]. split; [exact I|]. do 5 (split; [vm_compute; reflexivity|]).
  split; (split; [vm_compute; split; congruence|]); (split; [vm_compute; reflexivity|]); [left|right]; vm_compute; split; congruence.
Qed.

(** On a timeboard: where a new span begins. *)
Theorem C38_cuts : forall f s g ats, is_frame f -> is_span f s -> check_groupby_freq (fr_str f) g = true -> of_months g -> ats <> [] ->
  (forall month week wday shift, In (month, week, wday, shift) ats -> 1 <= month <= 12 /\ 1 <= wday <= 7 /\ 1 <= Z.abs week <= 5) ->
  exists spans, partition f (DMarker (mkMarker g (map (fun '(month, week, wday, shift) => nth_weekday_of_month month week wday shift) ats))) s = Ok spans
    /\ tiling (s_first s) (s_last s) spans
    /\ forall u, s_first s < u <= s_last s ->
         (starts_span spans u <->
          exists month week wday shift k t, In (month, week, wday, shift) ats /\ inspected f g s k
            /\ nth_mark g (reach_before f g s) month (wday - 1) week shift k t /\ cut_by f u t).
Proof. exact C38_cuts_pf. Qed.
Print Assumptions C38_cuts.

Theorem C38_inspected : forall f s g month w n k t u, is_frame f -> is_span f s -> of_months g -> 1 <= month ->
  nth_mark g (reach_before f g s) month w n 0 k t -> s_first s <= u <= s_last s -> in_unit f u t -> inspected f g s k.
Proof. exact C38_inspected_pf. Qed.
Print Assumptions C38_inspected.

(** 20 Feb to 10 Apr 2017, marks on the second Tuesday of March, and on the last Monday of
    March with a shift of three days. *)
Example C38_cuts_ex : of_months (fq (AlA None)) /\ check_groupby_freq (fr_str spring) (fq (AlA None)) = true
  /\ partition spring (DMarker (mkMarker (fq (AlA None)) (map (fun '(month, week, wday, shift) => nth_weekday_of_month month week wday shift)
                                                             [(3, 2, 2, 0); (3, -1, 1, 3)]))) (mkSpan 0 49 0 0)
     = Ok [mkSpan 0 21 326 0; mkSpan 22 37 0 0; mkSpan 38 49 0 336]
  /\ unit_start spring 22 = day 2017 3 14 /\ unit_start spring 38 = day 2017 3 30.
Proof. vm_compute. repeat split. Qed.

(** Weeks: several begin in one month, the duplicate months are dropped and the comparison with
    the periods' ends fails. *)
Theorem C38_weeks_refuted : exists g t0 t1 pi, mk_frame g t0 t1 = Ok pi /\ check_groupby_freq (fq AlD) g = true
  /\ nth_weekday_of_month 1 1 1 0 pi (fq AlD) = Err EValue.
Proof.
  exists (fq (AlW None)), (day 2017 1 2), (day 2017 1 31), (mkFrame (fq (AlW None)) 2452 5). vm_compute. repeat split.
Qed.
Print Assumptions C38_weeks_refuted.

(** ** C41 *)
(** What is missing: base units shorter than a second, see [C41_refuted]. *)
Theorem C41_skips_partial : forall f s g offs, is_frame f -> long_units f -> is_span f s -> accepts (fr_str f) g ->
  fmult (to_freq (fr_str f)) = 1%positive -> offs <> [] -> (forall o, In o offs -> forward o \/ backward o) ->
  exists spans before after, partition f (DMarker (mkMarker g (map from_start_of_each offs))) s = Ok spans
    /\ (exists rest, map s_left spans = before :: rest /\ forall x, In x rest -> x = 0)
    /\ (exists rest, map s_right spans = rest ++ [after] /\ forall x, In x rest -> x = 0)
    /\ ((before = -1 /\ forall t, near_mark f g s offs t -> unit_start f (s_first s) < t)
        \/ (0 <= before /\ last_upto (near_mark f g s offs) (unit_start f (s_first s)) (unit_start f (s_first s - before))))
    /\ ((after = -1 /\ forall t, near_mark f g s offs t -> t <= unit_end f (s_last s))
        \/ (0 <= after /\ first_after (near_mark f g s offs) (unit_end f (s_last s)) (unit_start f (s_last s + 1 + after)))).
Proof. exact C41_skips_partial_pf. Qed.
Print Assumptions C41_skips_partial.

Theorem C41_every_partial : forall f s g offs, is_frame f -> long_units f -> is_span f s -> accepts (fr_str f) g ->
  fmult (to_freq (fr_str f)) = 1%positive -> offs <> [] -> (forall o, In o offs -> usable o) ->
  exists spans, partition f (DMarker (mkMarker g (map from_start_of_each offs))) s = Ok spans
    /\ skips_recorded f s (fun t => exists o k, In o offs /\ ~ goes_back o /\ inspected f g s k
                                    /\ mark_upto g (fr_str f) (reach_before f g s) o k t) spans.
Proof. exact C41_every_partial_pf. Qed.
Print Assumptions C41_every_partial.

Theorem C41_nth : forall f s g ats, is_frame f -> is_span f s -> check_groupby_freq (fr_str f) g = true -> of_months g -> ats <> [] ->
  (forall month week wday shift, In (month, week, wday, shift) ats -> 1 <= month <= 12 /\ 1 <= wday <= 7 /\ 1 <= Z.abs week <= 5) ->
  fmult (to_freq (fr_str f)) = 1%positive -> In (fbase (to_freq (fr_str f))) [BD; BH; BT; BS] ->
  exists spans, partition f (DMarker (mkMarker g (map (fun '(month, week, wday, shift) => nth_weekday_of_month month week wday shift) ats))) s = Ok spans
    /\ skips_recorded f s (fun t => exists month week wday shift k, In (month, week, wday, shift) ats /\ inspected f g s k
                                    /\ nth_mark g (reach_before f g s) month (wday - 1) week shift k t) spans.
Proof. exact C41_nth_pf. Qed.
Print Assumptions C41_nth.

Theorem C41_easter_partial : forall orthodox f s g offs, is_frame f -> long_units f -> is_span f s -> accepts (fr_str f) g -> offs <> [] ->
  (forall o, In o offs -> usable o) -> fmult (to_freq (fr_str f)) = 1%positive ->
  (forall k p', inspected f g s k -> group_start g (reach_before f g s) (k + 1) p' -> easter_year (year_of ((p' - 1) / NS_DAY))) ->
  (forall k e, inspected f g s k -> group_easter orthodox g (reach_before f g s) k e -> in_group g (reach_before f g s) k e) ->
  exists spans, partition f (DMarker (mkMarker g (map (from_easter orthodox) offs))) s = Ok spans
    /\ skips_recorded f s (fun t => exists o k, In o offs /\ inspected f g s k
                                    /\ group_mark orthodox g (fr_str f) (reach_before f g s) o k t) spans.
Proof. exact C41_easter_partial_pf. Qed.
Print Assumptions C41_easter_partial.

(** The marks next to the spans of C37_every_ex and C38_cuts_ex, which record 22 and 20, 326 and 336. *)
Example C41_every_ex : In (fbase (to_freq (fr_str spring))) [BD; BH; BT; BS]
  /\ unit_start spring (0 - 22) = day 2017 1 29 /\ unit_start spring (49 + 1 + 20) = day 2017 5 1
  /\ unit_start spring (0 - 326) = day 2016 3 31 /\ unit_start spring (49 + 1 + 336) = day 2018 3 13.
Proof. split; [left; reflexivity|]. vm_compute. repeat split. Qed.

(** The span above begins 5 days after the mark of 15 Feb; the next mark is 4 days after it. *)
Example C41_ex : fmult (to_freq (fr_str spring)) = 1%positive
  /\ unit_start spring (0 - 5) = day 2017 2 15 /\ unit_start spring (49 + 1 + 4) = day 2017 4 15.
Proof. vm_compute. repeat split. Qed.
(** The marker looks back by one month only: from 15 Mar the mark of 31 Jan is not found. *)
Theorem C41_far_refuted : exists f s g o k t spans, is_frame f /\ is_span f s /\ check_groupby_freq (fr_str f) g = true /\ forward o
  /\ mark_of g (fr_str f) (unit_start f (s_first s)) o k t /\ t < unit_start f (s_first s)
  /\ partition f (DMarker (mkMarker g [from_start_of_each o])) s = Ok spans /\ map s_left spans = [-1; 0].
Proof.
  exists spring, (mkSpan 23 49 0 0), (fq AlM), (DKw 0 0 0 30 0 0 0), (-2), (day 2017 1 31), [mkSpan 23 38 (-1) 0; mkSpan 39 49 0 50].
  split; [apply spring_is|]. split; [vm_compute; repeat split; congruence|]. split; [vm_compute; reflexivity|].
  split; [vm_compute; repeat split; congruence|]. split; [|vm_compute; repeat split].
  apply mark_of_iff. split; [apply in_group_iff; vm_compute; reflexivity|vm_compute; reflexivity].
Qed.
Print Assumptions C41_far_refuted.
(** Milliseconds with a mark every second: the next mark after the first millisecond of a second is
    999 units away, but 0 are recorded. *)
Theorem C41_refuted : exists f s g o spans t, is_frame f /\ is_span f s /\ accepts (fr_str f) g
  /\ fmult (to_freq (fr_str f)) = 1%positive /\ forward o
  /\ partition f (DMarker (mkMarker g (map from_start_of_each [o]))) s = Ok spans /\ map s_right spans = [0]
  /\ first_after (near_mark f g s [o]) (unit_end f (s_last s)) t /\ t = unit_start f (s_last s + 1 + 999).
Proof.
  set (f := mkFrame (fq AlL) (17167 * 86400000) 5). set (s := mkSpan 0 0 0 0).
  exists f, s, (fq AlS), (DKw 0 0 0 0 0 0 0), [mkSpan 0 0 0 0], (day 2017 1 1 + NS_SEC).
  split; [exists (day 2017 1 1), (day 2017 1 1 + 4500000); vm_compute; reflexivity|].
  split; [vm_compute; repeat split; congruence|]. split; [vm_compute; repeat split|]. split; [reflexivity|].
  split; [vm_compute; repeat split; congruence|]. split; [vm_compute; reflexivity|]. split; [reflexivity|]. split; [|vm_compute; reflexivity].
  split; [|split; [vm_compute; reflexivity|]].
  - exists (DKw 0 0 0 0 0 0 0), 2. split; [left; reflexivity|]. split; [apply mark_of_iff; split; [apply in_group_iff|]; vm_compute; reflexivity|].
    split; [lia|]. exists (day 2017 1 1 + NS_SEC). split; [apply group_start_iff; vm_compute; reflexivity|vm_compute; congruence].
  - intros t' (o & k & [<-|[]] & Hm & Hk & p & Hp & Hr) Hx. apply group_start_iff in Hp. subst p.
    assert (Hk3 : k < 3).
    { destruct (Z.lt_ge_cases k 3) as [|Hge]; [assumption|exfalso]. apply (unit_start_le (gframe (fq AlS) (reach_before f (fq AlS) s))) in Hge.
      assert (H3 : reach_after f (fq AlS) s < unit_start (gframe (fq AlS) (reach_before f (fq AlS) s)) 3) by (vm_compute; reflexivity). lia. }
    apply mark_of_iff in Hm. destruct Hm as [_ ->]. assert (Hc : k = 0 \/ k = 1 \/ k = 2) by lia.
    destruct Hc as [->|[->| ->]]; vm_compute in Hx |- *; congruence.
Qed.
Print Assumptions C41_refuted.

(** Without conditions on the base units, exactly what is recorded; for spans longer than a
    nanosecond, see [C41_nano_refuted]. *)
Theorem C41_found : forall f s g offs, is_frame f -> is_span f s -> unit_start f (s_first s) < unit_end f (s_last s) -> accepts (fr_str f) g ->
  offs <> [] -> (forall o, In o offs -> usable o) ->
  exists spans, partition f (DMarker (mkMarker g (map from_start_of_each offs))) s = Ok spans
    /\ skips_found f s (fun t => exists o k, In o offs /\ ~ goes_back o /\ inspected f g s k
                                    /\ mark_upto g (fr_str f) (reach_before f g s) o k t) spans.
Proof. exact C41_found_pf. Qed.
Print Assumptions C41_found.

Theorem C41_nth_found : forall f s g ats, is_frame f -> is_span f s -> unit_start f (s_first s) < unit_end f (s_last s) -> check_groupby_freq (fr_str f) g = true -> of_months g -> ats <> [] ->
  (forall month week wday shift, In (month, week, wday, shift) ats -> 1 <= month <= 12 /\ 1 <= wday <= 7 /\ 1 <= Z.abs week <= 5) ->
  exists spans, partition f (DMarker (mkMarker g (map (fun '(month, week, wday, shift) => nth_weekday_of_month month week wday shift) ats))) s = Ok spans
    /\ skips_found f s (fun t => exists month week wday shift k, In (month, week, wday, shift) ats /\ inspected f g s k
                                    /\ nth_mark g (reach_before f g s) month (wday - 1) week shift k t) spans.
Proof. exact C41_nth_found_pf. Qed.
Print Assumptions C41_nth_found.

Theorem C41_easter_found : forall orthodox f s g offs, is_frame f -> is_span f s -> unit_start f (s_first s) < unit_end f (s_last s) -> accepts (fr_str f) g -> offs <> [] ->
  (forall o, In o offs -> usable o) ->
  (forall k p', inspected f g s k -> group_start g (reach_before f g s) (k + 1) p' -> easter_year (year_of ((p' - 1) / NS_DAY))) ->
  (forall k e, inspected f g s k -> group_easter orthodox g (reach_before f g s) k e -> in_group g (reach_before f g s) k e) ->
  exists spans, partition f (DMarker (mkMarker g (map (from_easter orthodox) offs))) s = Ok spans
    /\ skips_found f s (fun t => exists o k, In o offs /\ inspected f g s k
                                    /\ group_mark orthodox g (fr_str f) (reach_before f g s) o k t) spans.
Proof. exact C41_easter_found_pf. Qed.
Print Assumptions C41_easter_found.

(** Units of two hours and marks three hours into each six hours: the last mark before 08:00 is at
    05:00, in the unit two before; the next mark after 20:00 is at 23:00, and one second before it
    is the second unit after the span.  Milliseconds and marks in every other second. *)
Definition two_hours : frame := mkFrame (fqn 2 AlH) (17167 * 24) 20.
Definition millis : frame := mkFrame (fq AlL) (17167 * 86400000) 5000.
Example C41_found_ex :
  is_frame two_hours /\ is_frame millis /\ accepts (fr_str two_hours) (fqn 6 AlH) /\ accepts (fr_str millis) (fqn 2 AlS)
  /\ is_span two_hours (mkSpan 4 9 0 0) /\ is_span millis (mkSpan 300 1500 0 0)
  /\ partition two_hours (DMarker (mkMarker (fqn 6 AlH) (map from_start_of_each [DKw 0 0 0 0 3 0 0]))) (mkSpan 4 9 0 0)
     = Ok [mkSpan 4 4 2 0; mkSpan 5 7 0 0; mkSpan 8 9 0 2]
  /\ in_unit two_hours (4 - 2) (at_hour 2017 1 1 5) /\ in_unit two_hours (9 + 2) (at_hour 2017 1 1 23 - NS_SEC)
  /\ partition millis (DMarker (mkMarker (fqn 2 AlS) (map from_start_of_each [DKw 0 0 0 0 0 0 1]))) (mkSpan 300 1500 0 0)
     = Ok [mkSpan 300 999 1300 0; mkSpan 1000 1500 0 500]
  /\ in_unit millis (300 - 1300) (day 2017 1 1 - NS_SEC) /\ in_unit millis (1500 + 500) (day 2017 1 1 + 3 * NS_SEC - NS_SEC).
Proof.
  split; [exists (day 2017 1 1), (at_hour 2017 1 2 14); vm_compute; reflexivity|].
  split; [exists (day 2017 1 1), (day 2017 1 1 + 4999000000); vm_compute; reflexivity|].
  split; [vm_compute; repeat split|]. split; [vm_compute; repeat split|].
  split; [vm_compute; repeat split; congruence|]. split; [vm_compute; repeat split; congruence|].
  split; [vm_compute; reflexivity|]. split; [vm_compute; split; congruence|]. split; [vm_compute; split; congruence|].
  split; [vm_compute; reflexivity|]. split; vm_compute; split; congruence.
Qed.

(** A span of one nanosecond that is marked twice: no mark is found. *)
Theorem C41_nano_refuted : exists f s g offs spans t, is_frame f /\ is_span f s /\ accepts (fr_str f) g
  /\ fmult (to_freq (fr_str f)) = 1%positive /\ (forall o, In o offs -> forward o)
  /\ partition f (DMarker (mkMarker g (map from_start_of_each offs))) s = Ok spans /\ map s_left spans = [-1]
  /\ near_mark f g s offs t /\ t = unit_start f (s_first s).
Proof.
  exists (mkFrame (fq AlN) (17167 * 86400000000000) 5), (mkSpan 0 0 0 0), (fq AlU), [DKw 0 0 0 0 0 0 0; DKw 0 0 0 0 0 0 0], [mkSpan 0 0 (-1) (-1)], (day 2017 1 1).
  split; [exists (day 2017 1 1), (day 2017 1 1 + 4); vm_compute; reflexivity|].
  split; [vm_compute; repeat split; congruence|]. split; [vm_compute; repeat split|]. split; [reflexivity|].
  split; [intros o [<-|[<-|[]]]; vm_compute; repeat split; congruence|]. split; [vm_compute; reflexivity|]. split; [reflexivity|]. split; [|vm_compute; reflexivity].
  exists (DKw 0 0 0 0 0 0 0), 1. split; [left; reflexivity|]. split; [apply mark_of_iff; split; [apply in_group_iff|]; vm_compute; reflexivity|].
  split; [lia|]. exists (day 2017 1 1). split; [apply group_start_iff; vm_compute; reflexivity|vm_compute; congruence].
Qed.
Print Assumptions C41_nano_refuted.

(** ** C42 *)
Theorem C42_easter : forall orthodox y, easter_year y ->
  easter orthodox y = easter_day orthodox y /\ weekday (easter orthodox y) = 6
  /\ date y 3 22 <= easter orthodox y < date (y + 1) 1 1.
Proof. exact C42_easter_pf. Qed.
Print Assumptions C42_easter.

Theorem C42_marks : forall orthodox o g norm t0 t1 pi,
  fbase (to_freq g) = BA 12 -> fmult (to_freq g) = 1%positive -> check_groupby_freq norm g = true -> mk_frame g t0 t1 = Ok pi ->
  easter_year (year_of (t0 / NS_DAY)) -> easter_year (year_of (t1 / NS_DAY)) -> forward o \/ backward o ->
  exists ys marks, from_easter orthodox o pi norm = Ok marks
    /\ StronglySorted Z.lt ys
    /\ (forall y, In y ys <-> year_of (t0 / NS_DAY) <= y <= year_of (t1 / NS_DAY) /\ exists t, easter_mark orthodox norm o y t)
    /\ Forall2 (easter_mark orthodox norm o) ys marks.
Proof. exact C42_marks_pf. Qed.
Print Assumptions C42_marks.

(** Good Friday, Whit Monday, orthodox Easter. *)
Example C42_ex :
  mk_frame (fq (AlA None)) (day 2016 3 1) (day 2018 3 1) = Ok (mkFrame (fq (AlA None)) 46 3)
  /\ check_groupby_freq (fq AlD) (fq (AlA None)) = true
  /\ easter_year (year_of (day 2016 3 1 / NS_DAY)) /\ easter_year (year_of (day 2018 3 1 / NS_DAY))
  /\ from_easter false (DKw 0 0 0 (-2) 0 0 0) (mkFrame (fq (AlA None)) 46 3) (fq AlD) = Ok [day 2016 3 25; day 2017 4 14; day 2018 3 30]
  /\ from_easter false (DKw 0 0 7 1 0 0 0) (mkFrame (fq (AlA None)) 46 3) (fq AlD) = Ok [day 2016 5 16; day 2017 6 5; day 2018 5 21]
  /\ from_easter true (DKw 0 0 0 0 0 0 0) (mkFrame (fq (AlA None)) 46 3) (fq AlD) = Ok [day 2016 5 1; day 2017 4 16; day 2018 4 8]
  /\ from_easter true (DKw 0 9 0 0 0 0 0) (mkFrame (fq (AlA None)) 46 3) (fq AlD) = Ok [].
Proof. vm_compute. repeat split; congruence. Qed.

(** Offsets of any signs, and periods of any length: each of them must hold the Easter of the
    year it ends in, or the call fails. *)
Theorem C42_every : forall orthodox o g norm t0 t1 pi, usable o ->
  fbase (to_freq g) = BA 12 -> fmult (to_freq g) = 1%positive -> check_groupby_freq norm g = true -> mk_frame g t0 t1 = Ok pi ->
  easter_year (year_of (t0 / NS_DAY)) -> easter_year (year_of (t1 / NS_DAY)) ->
  exists ys marks, from_easter orthodox o pi norm = Ok marks
    /\ StronglySorted Z.lt ys
    /\ (forall y, In y ys <-> year_of (t0 / NS_DAY) <= y <= year_of (t1 / NS_DAY) /\ exists t, easter_upto orthodox norm o y t)
    /\ Forall2 (easter_upto orthodox norm o) ys marks.
Proof. exact C42_every_pf. Qed.
Print Assumptions C42_every.

Theorem C42_periods : forall orthodox o g norm t0 t1 pi, usable o -> accepts norm g -> mk_frame g t0 t1 = Ok pi ->
  (forall k p', 0 <= k < fr_len pi -> group_start g t0 (k + 1) p' -> easter_year (year_of ((p' - 1) / NS_DAY))) ->
  ((exists k e, 0 <= k < fr_len pi /\ group_easter orthodox g t0 k e /\ ~ in_group g t0 k e) -> from_easter orthodox o pi norm = Err EValue)
  /\ ((forall k e, 0 <= k < fr_len pi -> group_easter orthodox g t0 k e -> in_group g t0 k e) ->
      exists ks marks, from_easter orthodox o pi norm = Ok marks
        /\ StronglySorted Z.lt ks
        /\ (forall k, In k ks <-> 0 <= k < fr_len pi /\ exists t, group_mark orthodox g norm t0 o k t)
        /\ Forall2 (group_mark orthodox g norm t0 o) ks marks).
Proof. exact C42_periods_pf. Qed.
Print Assumptions C42_periods.

(** A year less 366 days; years that end in June; two years at a time; the second of two months. *)
Example C42_periods_ex :
  ~ goes_back (DKw 1 0 0 (-366) 0 0 0)
  /\ from_easter false (DKw 1 0 0 (-366) 0 0 0) (mkFrame (fq (AlA None)) 46 3) (fq AlD) = Ok [day 2016 3 26; day 2017 4 15; day 2018 3 31]
  /\ mk_frame (fq (AlA (Some 6))) (day 2016 3 1) (day 2018 3 1) = Ok (mkFrame (fq (AlA (Some 6))) 46 3)
  /\ accepts (fq AlD) (fq (AlA (Some 6)))
  /\ from_easter false (DKw 0 3 0 0 0 0 0) (mkFrame (fq (AlA (Some 6))) 46 3) (fq AlD) = Ok [day 2016 6 27]
  /\ from_easter false (DKw 0 0 0 0 0 0 0) (mkFrame (fqn 2 (AlA None)) 46 2) (fq AlD) = Ok [day 2017 4 16; day 2019 4 21]
  /\ (group_easter false (fq AlM) (day 2017 4 1) 1 (day 2017 4 16) /\ ~ in_group (fq AlM) (day 2017 4 1) 1 (day 2017 4 16))
  /\ from_easter false (DKw 0 0 0 0 0 0 0) (mkFrame (fq AlM) 567 2) (fq AlD) = Err EValue.
Proof.
  split; [vm_compute; discriminate|]. split; [vm_compute; reflexivity|]. split; [vm_compute; reflexivity|]. split; [vm_compute; repeat split|].
  split; [vm_compute; reflexivity|]. split; [vm_compute; reflexivity|]. split; [|vm_compute; reflexivity]. split.
  - exists (day 2017 6 1). split; [exists 567; vm_compute; repeat split; congruence|vm_compute; reflexivity].
  - intros H. apply in_group_iff in H. vm_compute in H. discriminate.
Qed.

(** On a timeboard: where a new span begins. *)
Theorem C42_cuts : forall orthodox f s g offs, is_frame f -> is_span f s -> check_groupby_freq (fr_str f) g = true ->
  fbase (to_freq g) = BA 12 -> fmult (to_freq g) = 1%positive -> offs <> [] -> (forall o, In o offs -> forward o \/ backward o) ->
  easter_year (year_of (reach_before f g s / NS_DAY)) -> easter_year (year_of (reach_after f g s / NS_DAY)) ->
  exists spans, partition f (DMarker (mkMarker g (map (from_easter orthodox) offs))) s = Ok spans
    /\ tiling (s_first s) (s_last s) spans
    /\ forall u, s_first s < u <= s_last s ->
         (starts_span spans u <-> exists o y t, In o offs /\ easter_mark orthodox (fr_str f) o y t /\ cut_by f u t).
Proof. exact C42_cuts_pf. Qed.
Print Assumptions C42_cuts.

Theorem C42_periods_cuts : forall orthodox f s g offs, is_frame f -> is_span f s -> accepts (fr_str f) g -> offs <> [] ->
  (forall o, In o offs -> usable o) ->
  (forall k p', inspected f g s k -> group_start g (reach_before f g s) (k + 1) p' -> easter_year (year_of ((p' - 1) / NS_DAY))) ->
  let m := mkMarker g (map (from_easter orthodox) offs) in
  let holds k := forall e, group_easter orthodox g (reach_before f g s) k e -> in_group g (reach_before f g s) k e in
  ((exists k, inspected f g s k /\ ~ holds k) -> partition f (DMarker m) s = Err EValue)
  /\ ((forall k, inspected f g s k -> holds k) ->
      exists spans, partition f (DMarker m) s = Ok spans
        /\ tiling (s_first s) (s_last s) spans
        /\ forall u, s_first s < u <= s_last s ->
             (starts_span spans u <->
              exists o k t, In o offs /\ inspected f g s k
                /\ group_mark orthodox g (fr_str f) (reach_before f g s) o k t /\ cut_by f u t)).
Proof. exact C42_periods_cuts_pf. Qed.
Print Assumptions C42_periods_cuts.

(** 20 Feb to 10 Apr 2017, marks seven and 40 days before Easter. *)
Example C42_cuts_ex : check_groupby_freq (fr_str spring) (fq (AlA None)) = true
  /\ easter_year (year_of (reach_before spring (fq (AlA None)) (mkSpan 0 49 0 0) / NS_DAY))
  /\ easter_year (year_of (reach_after spring (fq (AlA None)) (mkSpan 0 49 0 0) / NS_DAY))
  /\ partition spring (DMarker (mkMarker (fq (AlA None)) (map (from_easter false) [DKw 0 0 0 (-7) 0 0 0; DKw 0 0 0 (-40) 0 0 0])))
       (mkSpan 0 49 0 0) = Ok [mkSpan 0 14 337 0; mkSpan 15 47 0 0; mkSpan 48 49 0 315]
  /\ unit_start spring 48 = day 2017 4 9.
Proof. vm_compute. repeat split; congruence. Qed.

(** The same days with years that end in June: marks a year less 400 days after Easter, and a week
    before it.  A quarter that ends in March does not hold the Easter of 2017. *)
Example C42_periods_cuts_ex : accepts (fr_str spring) (fq (AlA (Some 6)))
  /\ (inspected spring (fq (AlA (Some 6))) (mkSpan 0 49 0 0) 1
      /\ group_easter false (fq (AlA (Some 6))) (reach_before spring (fq (AlA (Some 6))) (mkSpan 0 49 0 0)) 1 (day 2017 4 16)
      /\ in_group (fq (AlA (Some 6))) (reach_before spring (fq (AlA (Some 6))) (mkSpan 0 49 0 0)) 1 (day 2017 4 16))
  /\ partition spring (DMarker (mkMarker (fq (AlA (Some 6))) (map (from_easter false) [DKw 1 0 0 (-400) 0 0 0; DKw 0 0 0 (-7) 0 0 0])))
       (mkSpan 0 49 0 0) = Ok [mkSpan 0 19 337 0; mkSpan 20 47 0 0; mkSpan 48 49 0 320]
  /\ (inspected spring (fq (AlQ None)) (mkSpan 0 49 0 0) 1
      /\ group_easter false (fq (AlQ None)) (reach_before spring (fq (AlQ None)) (mkSpan 0 49 0 0)) 1 (day 2017 4 16)
      /\ ~ in_group (fq (AlQ None)) (reach_before spring (fq (AlQ None)) (mkSpan 0 49 0 0)) 1 (day 2017 4 16))
  /\ partition spring (DMarker (mkMarker (fq (AlQ None)) (map (from_easter false) [DKw 0 0 0 (-7) 0 0 0]))) (mkSpan 0 49 0 0) = Err EValue.
Proof.
  split; [vm_compute; repeat split|]. split.
  { split; [split; [lia|]; exists (day 2016 7 1); split; [apply group_start_iff; vm_compute; reflexivity|vm_compute; congruence]|].
    split; [exists (day 2017 7 1); split; [apply group_start_iff; vm_compute; reflexivity|vm_compute; reflexivity]|].
    apply in_group_iff. vm_compute. reflexivity. }
  split; [vm_compute; reflexivity|]. split; [|vm_compute; reflexivity].
  split; [split; [lia|]; exists (day 2017 1 1); split; [apply group_start_iff; vm_compute; reflexivity|vm_compute; congruence]|].
  split; [exists (day 2017 4 1); split; [apply group_start_iff; vm_compute; reflexivity|vm_compute; reflexivity]|].
  intros H. apply in_group_iff in H. vm_compute in H. discriminate.
Qed.

(** Without an offset the mark is Easter Monday. *)
Theorem C42_default_refuted : exists pi y, mk_frame (fq (AlA None)) (day y 1 1) (day y 12 31) = Ok pi
  /\ from_easter false DNone pi (fq AlD) = Ok [(easter_day false y + 1) * NS_DAY].
Proof. exists (mkFrame (fq (AlA None)) 47 1), 2017. vm_compute. split; reflexivity. Qed.
Print Assumptions C42_default_refuted.
(** Periods without an Easter in them: instead of being skipped they make the call fail. *)
Theorem C42_months_refuted : exists pi, mk_frame (fq AlM) (day 2017 4 1) (day 2017 5 31) = Ok pi
  /\ unit_start pi 0 <= easter_day false 2017 * NS_DAY <= unit_end pi 0
  /\ from_easter false (DKw 0 0 0 0 0 0 0) pi (fq AlD) = Err EValue.
Proof. exists (mkFrame (fq AlM) 567 2). vm_compute. repeat split; congruence. Qed.
Print Assumptions C42_months_refuted.
