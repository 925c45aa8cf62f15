(** Layouts: C05-C13. *)
From Verif Require Import Base Civil Freq Frame Timeline Board Spec SpecLookup SpecMisc SpecCivil SpecLayout SpecRemember Leftover SpecLeftover Samples LookupProofs PeriodProofs PartProofs LayoutProofs RememberProofs LeftoverProofs FitProofs AcceptProofs.
From Coq Require Import QArith.
Open Scope Z_scope.

(** Ten days from Thu 29 Dec 2016 to Sat 7 Jan 2017. *)
Definition days_frame : frame := mkFrame (fq AlD) 17164 10.
Example days_frame_is : is_frame days_frame /\ mk_frame (fq AlD) (at_hour 2016 12 29 5) (at_hour 2017 1 7 23) = Ok days_frame.
Proof. split; [exists (day 2016 12 29), (day 2017 1 7)|]; vm_compute; reflexivity. Qed.
Definition days_span : span := mkSpan 1 9 0 0.
Example days_span_is : is_span days_frame days_span.
Proof. vm_compute. repeat split; congruence. Qed.

(** C05: explicit marks.  What is missing from the property: a mark in the very last base
    unit of the timeboard is noticed only if it is within one second of the unit's start; and if the
    unit is shorter than a second, so are marks after the end of the timeboard. *)
Theorem C05_marks_partial : forall f s marks, is_frame f -> is_span f s ->
  exists spans, partition f (DMarks marks) s = Ok spans
    /\ tiling (s_first s) (s_last s) spans
    /\ (forall x, In x spans -> s_left x = 0 /\ s_right x = 0)
    /\ forall u, s_first s < u <= s_last s ->
         (starts_span spans u <->
          exists t, In t marks /\ cut_by f u t).
Proof. exact C05_marks_partial_pf. Qed.
Print Assumptions C05_marks_partial.

Theorem C05_order : forall f s marks marks', is_frame f -> is_span f s ->
  (forall u, s_first s < u <= s_last s ->
     ((exists t, In t marks /\ cut_by f u t)
      <-> exists t, In t marks' /\ cut_by f u t)) ->
  partition f (DMarks marks) s = partition f (DMarks marks') s.
Proof. exact C05_order_pf. Qed.
Print Assumptions C05_order.

Theorem C05_long : forall f, ~ In (fbase (to_freq (fr_str f))) [BL; BU; BN] -> long_units f.
Proof. exact C05_long_pf. Qed.
Print Assumptions C05_long.

(** Marks in the 3rd day at noon, twice in the 5th, before the span, in its first unit. *)
Definition days_marks : list Z :=
  [at_hour 2017 1 2 3; at_hour 2016 12 31 12; day 2017 1 2; day 2010 1 1; at_hour 2016 12 30 7].
Example C05_ex :
  partition days_frame (DMarks days_marks) days_span
  = Ok [mkSpan 1 1 0 0; mkSpan 2 3 0 0; mkSpan 4 9 0 0]
  /\ partition days_frame (DMarks (rev days_marks ++ days_marks)) days_span = partition days_frame (DMarks days_marks) days_span.
Proof. vm_compute. split; reflexivity. Qed.

(** A span that is not in the frame, or ends before it starts, is refused. *)
Theorem C05_refused : forall f d s, is_frame f ->
  (forall m, d = DMarker m -> check_groupby_freq (fr_str f) (m_each m) = true) ->
  ((~ 0 <= s_first s < fr_len f \/ ~ 0 <= s_last s < fr_len f) -> partition f d s = Err EOutOfBounds)
  /\ (0 <= s_last s < s_first s -> s_first s < fr_len f -> partition f d s = Err EVoidInterval).
Proof. exact C05_refused_pf. Qed.
Print Assumptions C05_refused.
Example C05_refused_ex :
  partition days_frame (DMarks days_marks) (mkSpan 1 10 0 0) = Err EOutOfBounds
  /\ partition days_frame (DMarks days_marks) (mkSpan (-2) 9 0 0) = Err EOutOfBounds
  /\ partition days_frame (DMarker (mkMarker (fq (AlW None)) [])) (mkSpan 4 3 0 0) = Err EVoidInterval.
Proof. vm_compute. repeat split. Qed.

(** The mark at noon of the last day (Sat 7 Jan) does not start a span. *)
Theorem C05_refuted : exists f s marks spans u t,
  is_frame f /\ is_span f s /\ partition f (DMarks marks) s = Ok spans
  /\ s_first s < u <= s_last s /\ In t marks /\ in_unit f u t /\ ~ starts_span spans u.
Proof.
  exists days_frame, days_span, [at_hour 2017 1 7 12], [mkSpan 1 9 0 0], 9, (at_hour 2017 1 7 12).
  split; [apply days_frame_is|]. split; [apply days_span_is|]. split; [vm_compute; reflexivity|].
  split; [vm_compute; split; congruence|]. split; [left; reflexivity|]. split; [vm_compute; split; congruence|].
  intros (s & [<-|[]] & H). discriminate.
Qed.
Print Assumptions C05_refuted.
(** Milliseconds: a mark after the end of the timeboard starts a span. *)
Definition short_frame : frame := mkFrame (fq AlL) (17167 * 86400000) 5.
Example short_frame_is : is_frame short_frame /\ is_span short_frame (mkSpan 0 4 0 0) /\ ~ long_units short_frame.
Proof.
  split; [exists (day 2017 1 1), (day 2017 1 1 + 4500000); vm_compute; reflexivity|].
  split; [vm_compute; repeat split; congruence|]. intros H. specialize (H 0). vm_compute in H. exact (H eq_refl).
Qed.
Theorem C05_outside_refuted : exists f s t spans, is_frame f /\ is_span f s /\ (forall u, 0 <= u < fr_len f -> ~ in_unit f u t)
  /\ partition f (DMarks [t]) s = Ok spans /\ starts_span spans (s_last s) /\ s_first s < s_last s.
Proof.
  exists short_frame, (mkSpan 0 4 0 0), (day 2017 1 1 + 7 * NS_MILLI), [mkSpan 0 3 0 0; mkSpan 4 4 0 0].
  split; [apply short_frame_is|]. split; [apply short_frame_is|]. split.
  { intros u Hu [H1 H2]. unfold unit_start, unit_end in H2. cbn in Hu.
    assert (Hc : u = 0 \/ u = 1 \/ u = 2 \/ u = 3 \/ u = 4) by lia.
    repeat (destruct Hc as [->|Hc]; [vm_compute in H2; exact (H2 eq_refl)|]). subst u. vm_compute in H2. exact (H2 eq_refl). }
  split; [vm_compute; reflexivity|]. split; [|reflexivity]. exists (mkSpan 4 4 0 0). split; [right; left; reflexivity|reflexivity].
Qed.
Print Assumptions C05_outside_refuted.

(** C06: a marker without `at`. *)
Theorem C06_calendar : forall f s g, is_frame f -> is_span f s -> accepts (fr_str f) g ->
  let t0 := unit_start f (s_first s) in
  exists spans before after, partition f (DMarker (mkMarker g [])) s = Ok spans
    /\ tiling (s_first s) (s_last s) spans
    /\ (forall u, s_first s < u <= s_last s ->
          (starts_span spans u <->
           exists k k', in_group g t0 k (unit_start f (u - 1)) /\ in_group g t0 k' (unit_start f u) /\ k <> k'))
    /\ (exists rest, map s_left spans = before :: rest /\ forall x, In x rest -> x = 0)
    /\ 0 <= before /\ group_start g t0 0 (unit_start f (s_first s - before))
    /\ (exists rest, map s_right spans = rest ++ [after] /\ forall x, In x rest -> x = 0)
    /\ 0 <= after /\ (forall k, in_group g t0 k (unit_start f (s_last s)) -> group_start g t0 (k + 1) (unit_start f (s_last s + 1 + after))).
Proof. exact C06_calendar_pf. Qed.
Print Assumptions C06_calendar.

(** Weeks on the ten days: the span starts on the 5th day (Fri) of its week; the last week
    lacks its Sunday. *)
Example C06_ex :
  accepts (fr_str days_frame) (fq (AlW None))
  /\ partition days_frame (DMarker (mkMarker (fq (AlW None)) [])) days_span = Ok [mkSpan 1 3 4 0; mkSpan 4 9 0 1]
  /\ partition days_frame (DMarker (mkMarker (fqn 2 AlM) [])) days_span = Ok [mkSpan 1 9 29 24].
Proof. vm_compute. repeat split. Qed.

(** For strings of several parts too, if the periods begin with base units (see [C13_lengths]). *)
Theorem C06_fitting : forall f s g, is_frame f -> is_span f s -> check_groupby_freq (fr_str f) g = true -> fits g f (s_first s) ->
  let t0 := unit_start f (s_first s) in
  exists spans before after, partition f (DMarker (mkMarker g [])) s = Ok spans
    /\ tiling (s_first s) (s_last s) spans
    /\ (forall u, s_first s < u <= s_last s ->
          (starts_span spans u <->
           exists k k', in_group g t0 k (unit_start f (u - 1)) /\ in_group g t0 k' (unit_start f u) /\ k <> k'))
    /\ (exists rest, map s_left spans = before :: rest /\ forall x, In x rest -> x = 0)
    /\ 0 <= before /\ group_start g t0 0 (unit_start f (s_first s - before))
    /\ (exists rest, map s_right spans = rest ++ [after] /\ forall x, In x rest -> x = 0)
    /\ 0 <= after /\ (forall k, in_group g t0 k (unit_start f (s_last s)) -> group_start g t0 (k + 1) (unit_start f (s_last s + 1 + after))).
Proof. exact C06_fitting_pf. Qed.
Print Assumptions C06_fitting.

(** C07.  What is missing: strings of several parts, see [C07_refuted]; but see [C07_fitting]. *)
Theorem C07_aligned_partial : forall (L : Type) (a : tb_args L) (h : heap L) tb h' g pat,
  build a h = Ok (tb, h') -> a_amendments a = [] -> one_part (fr_str (tl_frame (tb_tl tb))) -> one_part g ->
  a_layout a = LOrg (DMarker (mkMarker g [])) [LPat (PList pat)] -> pat <> [] ->
  let f := tl_frame (tb_tl tb) in
  tb_len tb = fr_len f
  /\ forall u, 0 <= u < fr_len f ->
       ws_first_baseunit (tb_tl tb) u = Ok u /\ ws_last_baseunit (tb_tl tb) u = Ok u
       /\ exists n p k x, in_group g (fr_start_time f) n (unit_start f u) /\ group_start g (fr_start_time f) n p
            /\ 0 <= k /\ unit_start f (u - k) = p /\ cycled pat k = Some x /\ tl_get (tb_tl tb) u = Ok x.
Proof. exact C07_aligned_partial_pf. Qed.
Print Assumptions C07_aligned_partial.

(** The weekly pattern on a board that starts on Fri 30 Dec 2016. *)
Example C07_ex :
  let a := with_amendments week_args [] in
  build a [] = Ok (the_tb a, []) /\ a_amendments a = []
  /\ one_part (fr_str (tl_frame (tb_tl (the_tb a)))) /\ one_part (fq (AlW None))
  /\ a_layout a = LOrg (DMarker (mkMarker (fq (AlW None)) [])) [LPat (PList [8; 8; 8; 8; 7; 0; 0])]
  /\ tl_labels (tb_tl (the_tb a)) = [7; 0; 0; 8; 8; 8; 8; 7; 0; 0; 8; 8; 8; 8; 7; 0; 0].
Proof. vm_compute. repeat split. Qed.

(** Wherever two boards with this layout have a base unit in common its label is the same, if the
    calendar periods are not multiplied (multiplied ones are counted from the start of the board). *)
Theorem C07_same : forall (L : Type) (a1 a2 : tb_args L) (h1 h2 : heap L) tb1 tb2 h1' h2' g pat u v,
  build a1 h1 = Ok (tb1, h1') -> build a2 h2 = Ok (tb2, h2') -> a_amendments a1 = [] -> a_amendments a2 = [] ->
  a_layout a1 = LOrg (DMarker (mkMarker g [])) [LPat (PList pat)] -> a_layout a2 = a_layout a1 -> pat <> [] ->
  let f1 := tl_frame (tb_tl tb1) in let f2 := tl_frame (tb_tl tb2) in
  fr_str f1 = fr_str f2 -> one_part (fr_str f1) -> one_part g -> times g = 1 ->
  0 <= u < tb_len tb1 -> 0 <= v < tb_len tb2 -> unit_start f1 u = unit_start f2 v ->
  exists x, tl_get (tb_tl tb1) u = Ok x /\ tl_get (tb_tl tb2) v = Ok x.
Proof. exact C07_same_pf. Qed.
Print Assumptions C07_same.

(** The same pattern on boards that start on Fri 30 Dec 2016 and on Tue 3 Jan 2017: 3 Jan is unit 4 of
    the one and unit 0 of the other. *)
Example C07_same_ex :
  let a1 := with_amendments week_args [] in
  let a2 := mkArgs (a_freq a1) (day 2017 1 3) (day 2017 1 12) (a_layout a1) [] (a_sel a1) (a_name a1) (a_ref_end a1) (a_default a1) (a_wt a1) (a_num a1) in
  build a2 [] = Ok (the_tb a2, []) /\ a_layout a2 = a_layout a1
  /\ fr_str (tl_frame (tb_tl (the_tb a1))) = fr_str (tl_frame (tb_tl (the_tb a2))) /\ times (fq (AlW None)) = 1
  /\ unit_start (tl_frame (tb_tl (the_tb a1))) 4 = unit_start (tl_frame (tb_tl (the_tb a2))) 0
  /\ tl_get (tb_tl (the_tb a2)) 0 = Ok 8 /\ tl_labels (tb_tl (the_tb a2)) = [8; 8; 8; 7; 0; 0; 8; 8; 8; 8].
Proof. vm_compute. repeat split. Qed.

(** Deeper in a layout: the pattern is aligned with the periods of the innermost organizer, whatever the
    organizers above it divide by. *)
Theorem C07_inner : forall (L : Type) (a : tb_args L) (h : heap L) tb h' org g s pat u,
  build a h = Ok (tb, h') -> a_amendments a = [] -> top_organizer (a_layout a) = Ok org ->
  let f := tl_frame (tb_tl tb) in
  one_part (fr_str f) -> one_part g -> 0 <= u < fr_len f -> pat <> [] ->
  governs f u org (whole_span f) (DMarker (mkMarker g [])) s (LPat (PList pat)) ->
  let t0 := unit_start f (s_first s) in
  exists n p k x, in_group g t0 n (unit_start f u) /\ group_start g t0 n p
    /\ 0 <= k /\ unit_start f (u - k) = p /\ cycled pat k = Some x /\ shift_of (tb_tl tb) u u u x.
Proof. exact C07_inner_pf. Qed.
Print Assumptions C07_inner.

(** Hence boards with different ranges, and even different layouts, agree on the unit. *)
Theorem C07_inner_same : forall (L : Type) (a1 a2 : tb_args L) (h1 h2 : heap L) tb1 tb2 h1' h2' org1 org2 g s1 s2 pat u v,
  build a1 h1 = Ok (tb1, h1') -> build a2 h2 = Ok (tb2, h2') -> a_amendments a1 = [] -> a_amendments a2 = [] ->
  top_organizer (a_layout a1) = Ok org1 -> top_organizer (a_layout a2) = Ok org2 ->
  let f1 := tl_frame (tb_tl tb1) in let f2 := tl_frame (tb_tl tb2) in
  fr_str f1 = fr_str f2 -> one_part (fr_str f1) -> one_part g -> times g = 1 -> pat <> [] ->
  0 <= u < fr_len f1 -> 0 <= v < fr_len f2 -> unit_start f1 u = unit_start f2 v ->
  governs f1 u org1 (whole_span f1) (DMarker (mkMarker g [])) s1 (LPat (PList pat)) ->
  governs f2 v org2 (whole_span f2) (DMarker (mkMarker g [])) s2 (LPat (PList pat)) ->
  exists x, shift_of (tb_tl tb1) u u u x /\ shift_of (tb_tl tb2) v v v x.
Proof. exact C07_inner_same_pf. Qed.
Print Assumptions C07_inner_same.

(** Weeks in months, from Fri 30 Dec 2016 and from Tue 27 Dec 2016: the week is not interrupted by the
    new month on Sunday. *)
Definition inner_args (from : Z) : tb_args Z :=
  mkArgs (a_freq week_args) from (day 2017 1 9)
    (LOrg (DMarker (mkMarker (fq AlM) [])) [LOrg (DMarker (mkMarker (fq (AlW None)) [])) [LPat (PList [1; 2; 3; 4; 5; 6; 7])]])
    [] pos_sel 1 false (-1) WLabels Samples.num.
Example C07_inner_ex :
  let a1 := inner_args (day 2016 12 30) in let a2 := inner_args (day 2016 12 27) in
  build a1 [] = Ok (the_tb a1, []) /\ build a2 [] = Ok (the_tb a2, [])
  /\ tl_labels (tb_tl (the_tb a1)) = [5; 6; 7; 1; 2; 3; 4; 5; 6; 7; 1]
  /\ tl_labels (tb_tl (the_tb a2)) = [2; 3; 4; 5; 6; 7; 1; 2; 3; 4; 5; 6; 7; 1]
  /\ unit_start (tl_frame (tb_tl (the_tb a1))) 2 = unit_start (tl_frame (tb_tl (the_tb a2))) 5.
Proof. vm_compute. repeat split. Qed.
Example C07_inner_governs :
  let f := tl_frame (tb_tl (the_tb (inner_args (day 2016 12 30)))) in
  governs f 2 (a_layout (inner_args (day 2016 12 30))) (whole_span f) (DMarker (mkMarker (fq (AlW None)) [])) (mkSpan 2 10 0 22) (LPat (PList [1; 2; 3; 4; 5; 6; 7])).
Proof.
  cbv zeta. eapply (gov_inside _ 2 _ _ [mkSpan 0 1 29 0; mkSpan 2 10 0 22] _ (mkSpan 2 10 0 22) 1%nat);
    [vm_compute; reflexivity|reflexivity|cbn; Lia.lia|reflexivity|].
  apply (gov_here _ 2 _ _ [mkSpan 2 2 6 0; mkSpan 3 9 0 0; mkSpan 10 10 0 6] _ (mkSpan 2 2 6 0) 0%nat);
    [vm_compute; reflexivity|reflexivity|cbn; Lia.lia|reflexivity|exact I].
Qed.

(** For all strings, those of several parts included, under the condition that is wanting: the periods
    begin with base units. *)
Theorem C07_fitting : forall (L : Type) (a : tb_args L) (h : heap L) tb h' g pat,
  build a h = Ok (tb, h') -> a_amendments a = [] -> fits g (tl_frame (tb_tl tb)) 0 ->
  a_layout a = LOrg (DMarker (mkMarker g [])) [LPat (PList pat)] -> pat <> [] ->
  let f := tl_frame (tb_tl tb) in
  tb_len tb = fr_len f
  /\ forall u, 0 <= u < fr_len f ->
       ws_first_baseunit (tb_tl tb) u = Ok u /\ ws_last_baseunit (tb_tl tb) u = Ok u
       /\ exists n p k x, in_group g (fr_start_time f) n (unit_start f u) /\ group_start g (fr_start_time f) n p
            /\ 0 <= k /\ unit_start f (u - k) = p /\ cycled pat k = Some x /\ tl_get (tb_tl tb) u = Ok x.
Proof. exact C07_fitting_pf. Qed.
Print Assumptions C07_fitting.
Theorem C07_inner_fitting : forall (L : Type) (a : tb_args L) (h : heap L) tb h' org g s pat u,
  build a h = Ok (tb, h') -> a_amendments a = [] -> top_organizer (a_layout a) = Ok org ->
  let f := tl_frame (tb_tl tb) in
  fits g f (s_first s) -> 0 <= u < fr_len f -> pat <> [] ->
  governs f u org (whole_span f) (DMarker (mkMarker g [])) s (LPat (PList pat)) ->
  let t0 := unit_start f (s_first s) in
  exists n p k x, in_group g t0 n (unit_start f u) /\ group_start g t0 n p
    /\ 0 <= k /\ unit_start f (u - k) = p /\ cycled pat k = Some x /\ shift_of (tb_tl tb) u u u x.
Proof. exact C07_inner_fitting_pf. Qed.
Print Assumptions C07_inner_fitting.

(** Units of '1H30T' in periods of '3H', from 1:30 of 1 Jan 2017 on: the first period began at 1:00, not
    with a unit; from 3:00 on the periods are of two units.  In the span of units 1 to 6 of the first frame the
    spans are told correctly. *)
Definition ninety : fstr := fqn 1 (AlMore KH [(30%positive, KT)]).
Definition ninety_frame : frame := mkFrame ninety (17167 * 24 * 60 + 90) 10.
Definition ninety_args : tb_args Z :=
  mkArgs ninety (at_hour 2017 1 1 3) (at_hour 2017 1 1 13) (LOrg (DMarker (mkMarker (fqn 3 AlH) [])) [LPat (PList [1; 2; 3])]) [] pos_sel 1 false (-1) WLabels Samples.num.
Lemma ninety_lasts : lasts ninety (5400 * NS_SEC).
Proof.
  intros t t' (c & u & k & Ha & -> & ->). apply adds_total in Ha. cbn [map fold_right fst snd] in Ha.
  change (times ninety) with 1 in Ha. unfold tick_len, NS_SEC, NS_HOUR, NS_MIN in *. lia.
Qed.
Lemma three_lasts : lasts (fqn 3 AlH) (10800 * NS_SEC).
Proof. intros t t' (k & -> & ->). change (times (fqn 3 AlH)) with 3. unfold NS_SEC. lia. Qed.
Lemma ninety_fits o n a : fits (fqn 3 AlH) (mkFrame ninety o n) a <-> exists v, group_start (fqn 3 AlH) (unit_start (mkFrame ninety o n) a) 0 (unit_start (mkFrame ninety o n) v).
Proof.
  rewrite (C13_lengths_pf (mkFrame ninety o n) (fqn 3 AlH) a (5400 * NS_SEC) (10800 * NS_SEC) I I ninety_lasts three_lasts).
  split; [intros [H _]; exact H|]. intros H. split; [exact H|]. exists 2. vm_compute. reflexivity.
Qed.
Example C07_fitting_ex :
  let f := tl_frame (tb_tl (the_tb ninety_args)) in
  build ninety_args [] = Ok (the_tb ninety_args, []) /\ fr_str f = ninety /\ fits (fqn 3 AlH) f 0
  /\ tl_labels (tb_tl (the_tb ninety_args)) = [1; 2; 1; 2; 1; 2; 1]
  /\ ~ fits (fqn 3 AlH) ninety_frame 0 /\ fits (fqn 3 AlH) ninety_frame 1
  /\ partition ninety_frame (DMarker (mkMarker (fqn 3 AlH) [])) (mkSpan 1 6 0 0) = Ok [mkSpan 1 2 0 0; mkSpan 3 4 0 0; mkSpan 5 6 0 0].
Proof.
  intros f. assert (Ef : f = mkFrame ninety (17167 * 24 * 60 + 180) 7) by (vm_compute; reflexivity). clearbody f. subst f.
  split; [vm_compute; reflexivity|]. split; [reflexivity|].
  split; [apply ninety_fits; exists 0; apply group_start_iff; vm_compute; reflexivity|].
  split; [vm_compute; reflexivity|]. unfold ninety_frame. split.
  { intros H. apply (proj1 (ninety_fits _ _ _)) in H. destruct H as [v H]. rewrite group_start_iff in H.
    assert (E1 : unit_start (mkFrame ninety (17167 * 24 * 60 + 90) 10) v = (17167 * 24 * 60 + 90 + v * 90) * 60000000000) by (unfold unit_start; replace (fr_base (mkFrame ninety (17167 * 24 * 60 + 90) 10)) with BT by (vm_compute; reflexivity); reflexivity).
    assert (E2 : unit_start (gframe (fqn 3 AlH) (unit_start (mkFrame ninety (17167 * 24 * 60 + 90) 10) 0)) 0 = (17167 * 24 + 1) * 3600000000000) by (vm_compute; reflexivity).
    rewrite E1, E2 in H. clear E1 E2. lia. }
  split; [|vm_compute; reflexivity]. apply ninety_fits. exists 1. apply group_start_iff. vm_compute. reflexivity.
Qed.

(** Hours are accepted for periods of '2H30T'; the second period does not begin with an hour. *)
Definition odd_hours : fstr := fqn 2 (AlMore KH [(30%positive, KT)]).
Definition odd_args : tb_args Z :=
  mkArgs (fq AlH) (day 2017 1 1) (at_hour 2017 1 1 9) (LOrg (DMarker (mkMarker odd_hours [])) [LPat (PList [1; 2])]) [] pos_sel 1 false (-1) WLabels Samples.num.
Theorem C07_refuted : exists (a : tb_args Z) h tb h' g pat, build a h = Ok (tb, h') /\ a_amendments a = []
  /\ a_layout a = LOrg (DMarker (mkMarker g [])) [LPat (PList pat)] /\ pat <> []
  /\ let f := tl_frame (tb_tl tb) in
     exists u n p, 0 <= u < fr_len f /\ in_group g (fr_start_time f) n (unit_start f u) /\ group_start g (fr_start_time f) n p
       /\ forall k, unit_start f (u - k) <> p.
Proof.
  exists odd_args, [], (the_tb odd_args), [], odd_hours, [1; 2].
  split; [vm_compute; reflexivity|]. split; [reflexivity|]. split; [reflexivity|]. split; [discriminate|]. intros f.
  exists 3, 1, (at_hour 2017 1 1 2 + 30 * NS_MIN).
  assert (Ef : f = mkFrame (fq AlH) (17167 * 24) 10) by (vm_compute; reflexivity). rewrite Ef. clear Ef f.
  split; [vm_compute; split; congruence|].
  split; [apply in_group_iff; vm_compute; reflexivity|]. split; [apply group_start_iff; vm_compute; reflexivity|].
  intros k H. change ((17167 * 24 + (3 - k) * 1) * 3600000000000 = (17167 * 24 + 2) * 3600000000000 + 1800000000000) in H. lia.
Qed.
Print Assumptions C07_refuted.

(** C08 *)
Theorem C08_pattern : forall (L : Type) (a : tb_args L) (h : heap L) tb h' l,
  build a h = Ok (tb, h') -> a_amendments a = [] -> a_layout a = LPat (PList l) ->
  h' = h /\ tb_len tb = fr_len (tl_frame (tb_tl tb))
  /\ forall i, 0 <= i < tb_len tb ->
     (exists x, (match l with [] => x = a_default a | _ => cycled l i = Some x end) /\ tl_get (tb_tl tb) i = Ok x)
     /\ ws_first_baseunit (tb_tl tb) i = Ok i /\ ws_last_baseunit (tb_tl tb) i = Ok i /\ ws_duration (tb_tl tb) i = Ok 1.
Proof. exact C08_pattern_pf. Qed.
Print Assumptions C08_pattern.

Definition on_days (ly : layout Z) : tb_args Z :=
  mkArgs (fq AlD) (day 2016 12 29) (day 2017 1 7) ly [] pos_sel 1 false (-1) WLabels Samples.num.
Example C08_ex :
  build (on_days (LPat (PList [1; 2; 3]))) [] = Ok (the_tb (on_days (LPat (PList [1; 2; 3]))), [])
  /\ tl_labels (tb_tl (the_tb (on_days (LPat (PList [1; 2; 3]))))) = [1; 2; 3; 1; 2; 3; 1; 2; 3; 1]
  /\ build (on_days (LPat (PList []))) [] = Ok (the_tb (on_days (LPat (PList []))), [])
  /\ tl_labels (tb_tl (the_tb (on_days (LPat (PList []))))) = repeat (-1) 10.
Proof. vm_compute. repeat split. Qed.

(** C09 *)
Theorem C09_tree : forall (L : Type) (a : tb_args L) (h : heap L) tb h',
  build a h = Ok (tb, h') -> a_amendments a = [] ->
  let f := tl_frame (tb_tl tb) in
  exists org, top_organizer (a_layout a) = Ok org /\ forall u, 0 <= u < fr_len f ->
    exists leaf s, decides f u org (whole_span f) leaf s
      /\ (forall leaf' s', decides f u org (whole_span f) leaf' s' -> leaf' = leaf /\ s' = s)
      /\ leaf_does (tb_tl tb) h (a_default a) leaf s u.
Proof. exact C09_tree_pf. Qed.
Print Assumptions C09_tree.

(** On the compound board hour 27 (03:00 of 2 Jan) is decided by the pattern [3; 4] of the
    nested organizer, hour 20 (20:00 of 1 Jan) by the label 0 next to it. *)
Example C09_ex :
  let f := tl_frame (tb_tl shift_tb) in
  build shift_args [] = Ok (shift_tb, []) /\ a_amendments shift_args = []
  /\ top_organizer (a_layout shift_args) = Ok shift_layout
  /\ decides f 27 shift_layout (whole_span f) (LPat (PList [3; 4])) (mkSpan 24 47 0 0)
  /\ shift_of (tb_tl shift_tb) 27 27 27 4
  /\ decides f 20 shift_layout (whole_span f) (LLab 0) (mkSpan 18 23 18 0)
  /\ shift_of (tb_tl shift_tb) 20 18 23 0.
Proof.
  intros f. split; [exact shift_builds|]. split; [reflexivity|]. split; [reflexivity|].
  assert (P : partition f (DMarks [at_hour 2017 1 1 8; at_hour 2017 1 1 18 + 1; at_hour 2017 1 3 0]) (whole_span f)
     = Ok [mkSpan 0 7 0 0; mkSpan 8 17 0 0; mkSpan 18 47 0 0; mkSpan 48 71 0 0]) by (vm_compute; reflexivity).
  assert (P2 : partition f (DMarker (mkMarker (fq AlD) [])) (mkSpan 18 47 0 0) = Ok [mkSpan 18 23 18 0; mkSpan 24 47 0 0]) by (vm_compute; reflexivity).
  split.
  { eapply (dec_org _ _ _ _ _ _ (mkSpan 18 47 0 0) 2%nat); [exact P|reflexivity|cbn; lia|reflexivity|].
    eapply (dec_org _ _ _ _ _ _ (mkSpan 24 47 0 0) 1%nat); [exact P2|reflexivity|cbn; lia|reflexivity|constructor]. }
  split; [exists 6; vm_compute; repeat split; congruence|]. split.
  { eapply (dec_org _ _ _ _ _ _ (mkSpan 18 47 0 0) 2%nat); [exact P|reflexivity|cbn; lia|reflexivity|].
    eapply (dec_org _ _ _ _ _ _ (mkSpan 18 23 18 0) 0%nat); [exact P2|reflexivity|cbn; lia|reflexivity|constructor]. }
  exists 2. vm_compute. repeat split; congruence.
Qed.

(** C10 *)
Theorem C10_compound : forall (L : Type) (a : tb_args L) (h : heap L) tb h' d labels,
  build a h = Ok (tb, h') -> a_amendments a = [] -> a_layout a = LOrg d (map LLab labels) -> labels <> [] ->
  exists spans, partition (tl_frame (tb_tl tb)) d (whole_span (tl_frame (tb_tl tb))) = Ok spans
    /\ tb_len tb = Z.of_nat (length spans)
    /\ forall j s, nth_error spans j = Some s ->
         ws_first_baseunit (tb_tl tb) (Z.of_nat j) = Ok (s_first s)
         /\ ws_last_baseunit (tb_tl tb) (Z.of_nat j) = Ok (s_last s)
         /\ ws_duration (tb_tl tb) (Z.of_nat j) = Ok (s_last s - s_first s + 1)
         /\ exists x, cycled labels (Z.of_nat j) = Some x /\ tl_get (tb_tl tb) (Z.of_nat j) = Ok x.
Proof. exact C10_compound_pf. Qed.
Print Assumptions C10_compound.

Definition weeks_args : tb_args Z := on_days (LOrg (DMarker (mkMarker (fq (AlW None)) [])) (map LLab [5; 6; 7])).
Example C10_ex :
  build weeks_args [] = Ok (the_tb weeks_args, [])
  /\ tl_labels (tb_tl (the_tb weeks_args)) = [5; 6]
  /\ rmap (fun x => x) (ws_duration (tb_tl (the_tb weeks_args)) 0) = Ok 4 /\ ws_duration (tb_tl (the_tb weeks_args)) 1 = Ok 6.
Proof. vm_compute. repeat split. Qed.

(** C11 *)
Theorem C11_empty_structure : forall (L : Type) (a : tb_args L) (h : heap L) tb h' d,
  build a h = Ok (tb, h') -> a_amendments a = [] -> a_layout a = LOrg d [] ->
  h' = h /\ tb_len tb = fr_len (tl_frame (tb_tl tb))
  /\ forall i, 0 <= i < tb_len tb -> tl_get (tb_tl tb) i = Ok (a_default a)
     /\ ws_first_baseunit (tb_tl tb) i = Ok i /\ ws_last_baseunit (tb_tl tb) i = Ok i /\ ws_duration (tb_tl tb) i = Ok 1.
Proof. exact C11_empty_structure_pf. Qed.
Print Assumptions C11_empty_structure.

Theorem C11_empty_pattern : forall (L : Type) (a : tb_args L) (h : heap L) tb h' org u s leaf,
  build a h = Ok (tb, h') -> a_amendments a = [] -> top_organizer (a_layout a) = Ok org ->
  0 <= u < fr_len (tl_frame (tb_tl tb)) -> decides (tl_frame (tb_tl tb)) u org (whole_span (tl_frame (tb_tl tb))) leaf s ->
  leaf = LPat (PList []) \/ (exists d, leaf = LOrg d []) \/ (exists k, leaf = LPat (PRem k) /\ rlabels h k = []) ->
  shift_of (tb_tl tb) u u u (a_default a).
Proof. exact C11_empty_pattern_pf. Qed.
Print Assumptions C11_empty_pattern.

Definition hollow : layout Z := LOrg (DMarks [day 2017 1 1]) [LPat (PList []); LLab 4].
Example C11_ex :
  let a := on_days (LOrg (DMarks days_marks) []) in
  build a [] = Ok (the_tb a, []) /\ tl_labels (tb_tl (the_tb a)) = repeat (-1) 10
  /\ build (on_days hollow) [] = Ok (the_tb (on_days hollow), [])
  /\ tl_labels (tb_tl (the_tb (on_days hollow))) = [-1; -1; -1; 4]
  /\ decides days_frame 2 hollow (whole_span days_frame) (LPat (PList [])) (mkSpan 0 2 0 0).
Proof.
  intros a. split; [vm_compute; reflexivity|]. split; [vm_compute; reflexivity|]. split; [vm_compute; reflexivity|]. split; [vm_compute; reflexivity|].
  eapply (dec_org _ _ _ _ _ _ (mkSpan 0 2 0 0) 0%nat); [vm_compute; reflexivity|reflexivity|cbn; lia|reflexivity|constructor].
Qed.

(** C12.  What the pattern gives out from the state in which one making of a timeboard left it;
    where the labels go; and the same over any sequence of timeboards. *)
Theorem C12_one : forall (L : Type) (a : tb_args L) (h : heap L) tb h', build a h = Ok (tb, h') ->
  exists uses, uses_of (a, tb) uses /\ (forall l, uses_of (a, tb) l -> l = uses)
    /\ forall k, rlabels h k <> [] ->
         rlabels h' k = rlabels h k
         /\ (forall i, 0 <= i -> upcoming h' k i = upcoming h k (taken k uses + i))
         /\ (forall m, 0 <= taken k (firstn m uses)) /\ (forall s, In (k, OnUnits s) uses -> 0 <= s_left s)
         /\ (a_amendments a = [] -> forall m w, nth_error uses m = Some (k, w) -> delivers (tb_tl tb) h k (taken k (firstn m uses)) w).
Proof. exact C12_one_pf. Qed.
Print Assumptions C12_one.

Theorem C12_history : forall (L : Type) (h : heap L) l h' k, history h l h' -> rlabels h k <> [] ->
  exists usess, Forall2 uses_of l usess
    /\ (forall n m uses, nth_error usess n = Some uses -> 0 <= taken k (concat (firstn n usess)) /\ 0 <= taken k (firstn m uses)
          /\ forall s, In (k, OnUnits s) uses -> 0 <= s_left s)
    /\ (forall i, 0 <= i -> upcoming h' k i = upcoming h k (taken k (concat usess) + i))
    /\ forall n a tb uses m w, nth_error l n = Some (a, tb) -> nth_error usess n = Some uses -> a_amendments a = [] ->
         nth_error uses m = Some (k, w) -> delivers (tb_tl tb) h k (taken k (concat (firstn n usess)) + taken k (firstn m uses)) w.
Proof. exact C12_history_pf. Qed.
Print Assumptions C12_history.

(** What is missing from the property: a use on a span that begins inside its calendar period
    also takes the labels for the part before the span, and these are not delivered.  Without
    such uses the deliveries are consecutive. *)
Theorem C12_consecutive_partial : forall (L : Type) (h : heap L) l h' k pat, fresh h k pat -> pat <> [] -> history h l h' ->
  exists usess, Forall2 uses_of l usess
    /\ (no_skips k (concat usess) ->
        (forall i, 0 <= i -> upcoming h' k i = cycled pat (given k (concat usess) + i))
        /\ forall n a tb uses m w, nth_error l n = Some (a, tb) -> nth_error usess n = Some uses -> a_amendments a = [] ->
             nth_error uses m = Some (k, w) -> delivers_from (tb_tl tb) pat (given k (concat (firstn n usess)) + given k (firstn m uses)) w).
Proof. exact C12_consecutive_partial_pf. Qed.
Print Assumptions C12_consecutive_partial.

(** Labels 1..5; weeks from Thu 29 Dec, the first one working by the pattern, then one label for
    each of the days 7-10; the next timeboard goes on. *)
Definition rem_layout : layout Z := LOrg (DMarks [day 2017 1 4]) [LPat (PRem 0); LOrgRem (DMarker (mkMarker (fqn 2 AlD) [])) 0].
Definition rem_heap : heap Z := [([1; 2; 3; 4; 5], [1; 2; 3; 4; 5])].
Definition tb_from (a : tb_args Z) (h : heap Z) : timeboard Z := match build a h with Ok (tb, _) => tb | Err _ => no_tb end.
Definition heap_from (a : tb_args Z) (h : heap Z) : heap Z := match build a h with Ok (_, h') => h' | Err _ => [] end.
Example C12_ex :
  let a := on_days rem_layout in
  let tb1 := tb_from a rem_heap in let h1 := heap_from a rem_heap in
  let tb2 := tb_from a h1 in let h2 := heap_from a h1 in
  fresh rem_heap 0 [1; 2; 3; 4; 5]
  /\ history rem_heap [(a, tb1); (a, tb2)] h2
  /\ uses_of (a, tb1) [(0%nat, OnUnits (mkSpan 0 5 0 0)); (0%nat, OnWhole (mkSpan 6 7 0 0)); (0%nat, OnWhole (mkSpan 8 9 0 0))]
  /\ tl_labels (tb_tl tb1) = [1; 2; 3; 4; 5; 1; 2; 3] /\ tl_labels (tb_tl tb2) = [4; 5; 1; 2; 3; 4; 5; 1]
  /\ h2 = [([1; 2; 3; 4; 5], [2; 3; 4; 5])].
Proof.
  intros a tb1 h1 tb2 h2. split; [reflexivity|]. split.
  { apply (hist_cons _ _ _ h1); [vm_compute; reflexivity|]. apply (hist_cons _ _ _ h2); [vm_compute; reflexivity|constructor]. }
  split.
  { exists rem_layout. split; [reflexivity|]. eapply used_org; [discriminate|vm_compute; reflexivity|].
    change [(0%nat, OnUnits (mkSpan 0 5 0 0)); (0%nat, OnWhole (mkSpan 6 7 0 0)); (0%nat, OnWhole (mkSpan 8 9 0 0))]
      with ([(0%nat, OnUnits (mkSpan 0 5 0 0))] ++ ([(0%nat, OnWhole (mkSpan 6 7 0 0)); (0%nat, OnWhole (mkSpan 8 9 0 0))] ++ [])).
    eapply us_cons; [reflexivity|constructor; cbn; lia|]. eapply us_cons; [reflexivity| |constructor].
    change [(0%nat, OnWhole (mkSpan 6 7 0 0)); (0%nat, OnWhole (mkSpan 8 9 0 0))] with (map (fun s => (0%nat, OnWhole s)) [mkSpan 6 7 0 0; mkSpan 8 9 0 0]).
    constructor. vm_compute. reflexivity. }
  vm_compute. repeat split.
Qed.

(** Two timeboards of Wed 4 and Thu 5 Jan 2017 with the pattern 0..9 on weeks: the first gets
    the labels 2, 3 and the second 6, 7; the labels 4 and 5 are lost. *)
Definition lossy_args : tb_args Z :=
  mkArgs (fq AlD) (day 2017 1 4) (day 2017 1 5) (LOrg (DMarker (mkMarker (fq (AlW None)) [])) [LPat (PRem 0)]) [] pos_sel 1 false (-1) WLabels Samples.num.
Theorem C12_refuted : exists (pat : list Z) h a tb1 h1 tb2 h2,
  fresh h 0 pat /\ build a h = Ok (tb1, h1) /\ build a h1 = Ok (tb2, h2)
  /\ a_layout a = LOrg (DMarker (mkMarker (fq (AlW None)) [])) [LPat (PRem 0)]
  /\ ~ exists p, forall i x, nth_error (tl_labels (tb_tl tb1) ++ tl_labels (tb_tl tb2)) i = Some x -> cycled pat (p + Z.of_nat i) = Some x.
Proof.
  set (pat := [0; 1; 2; 3; 4; 5; 6; 7; 8; 9]).
  exists pat, [(pat, pat)], lossy_args, (tb_from lossy_args [(pat, pat)]), (heap_from lossy_args [(pat, pat)]),
    (tb_from lossy_args (heap_from lossy_args [(pat, pat)])), (heap_from lossy_args (heap_from lossy_args [(pat, pat)])).
  split; [reflexivity|]. split; [vm_compute; reflexivity|]. split; [vm_compute; reflexivity|]. split; [reflexivity|].
  intros [p Hp]. pose proof (Hp 1%nat 3 ltac:(vm_compute; reflexivity)) as H1. pose proof (Hp 2%nat 6 ltac:(vm_compute; reflexivity)) as H2.
  assert (R : forall z, 0 <= z < 10 -> nth_error pat (Z.to_nat z) = Some z).
  { intros z Hz. assert (Hc : z = 0 \/ z = 1 \/ z = 2 \/ z = 3 \/ z = 4 \/ z = 5 \/ z = 6 \/ z = 7 \/ z = 8 \/ z = 9) by lia.
    repeat (destruct Hc as [->|Hc]; [reflexivity|]). rewrite Hc. reflexivity. }
  unfold cycled in H1, H2. change (Z.of_nat (length pat)) with 10 in H1, H2.
  rewrite R in H1 by (apply Z.mod_pos_bound; lia). rewrite R in H2 by (apply Z.mod_pos_bound; lia).
  injection H1 as H1. injection H2 as H2. change (Z.of_nat 1) with 1 in H1. change (Z.of_nat 2) with 2 in H2.
  pose proof (Z.div_mod (p + 1) 10 ltac:(lia)). pose proof (Z.div_mod (p + 2) 10 ltac:(lia)). lia.
Qed.
Print Assumptions C12_refuted.

(** C12 for attempts which may fail: what an exception interrupted remains taken. *)
Theorem C12_attempt : forall (L : Type) (a : tb_args L) (h : heap L),
  exists uses, spent a uses /\ (forall l, spent a l -> l = uses)
    /\ (forall tb h', build a h = Ok (tb, h') -> leftover a h = h' /\ uses_of (a, tb) uses)
    /\ (forall k, rlabels (leftover a h) k = rlabels h k)
    /\ (forall k, rlabels h k <> [] -> forall i, 0 <= i -> upcoming (leftover a h) k i = upcoming h k (taken k uses + i))
    /\ forall org f l e, top_organizer (a_layout a) = Ok org -> a_wt a <> WBad -> mk_frame (a_freq a) (a_start a) (a_end a) = Ok f ->
         used_until f org (whole_span f) l e -> build a h = Err e.
Proof. exact C12_attempt_pf. Qed.
Print Assumptions C12_attempt.

Theorem C12_attempts : forall (L : Type) (l : list (tb_args L)) (h : heap L) k, rlabels h k <> [] ->
  exists usess, Forall2 spent l usess
    /\ (forall i, 0 <= i -> upcoming (after l h) k i = upcoming h k (taken k (concat usess) + i))
    /\ forall n a uses tb h' m w, nth_error l n = Some a -> nth_error usess n = Some uses ->
         build a (after (firstn n l) h) = Ok (tb, h') -> a_amendments a = [] -> nth_error uses m = Some (k, w) ->
         delivers (tb_tl tb) h k (taken k (concat (firstn n usess)) + taken k (firstn m uses)) w.
Proof. exact C12_attempts_pf. Qed.
Print Assumptions C12_attempts.

(** The second span of [halfway] cannot be divided into hours; the amendments of [clashing] fall
    on the same workshift.  Both raise exceptions, but the next timeboard does not begin with
    label 1. *)
Definition halfway : tb_args Z :=
  on_days (LOrg (DMarks [day 2017 1 4]) [LPat (PRem 0); LOrg (DMarker (mkMarker (fq AlH) [])) [LLab 0]]).
Definition clashing : tb_args Z :=
  mkArgs (a_freq halfway) (a_start halfway) (a_end halfway) rem_layout [(day 2017 1 4, 9); (day 2017 1 5, 9)]
    pos_sel 1 false (-1) WLabels Samples.num.
Example C12_attempt_ex :
  build halfway rem_heap = Err EUnacceptablePeriod
  /\ spent halfway [(0%nat, OnUnits (mkSpan 0 5 0 0))]
  /\ leftover halfway rem_heap = [([1; 2; 3; 4; 5], [2; 3; 4; 5])]
  /\ tl_labels (tb_tl (tb_from (on_days rem_layout) (after [halfway] rem_heap))) = [2; 3; 4; 5; 1; 2; 3; 4]
  /\ build clashing rem_heap = Err EKey
  /\ after [halfway; clashing] rem_heap = [([1; 2; 3; 4; 5], [5])]
  /\ tl_labels (tb_tl (tb_from (on_days rem_layout) (after [halfway; clashing] rem_heap))) = [5; 1; 2; 3; 4; 5; 1; 2].
Proof.
  split; [vm_compute; reflexivity|]. split.
  { eapply spent_some; [reflexivity|discriminate|vm_compute; reflexivity|].
    eapply until_inside; [discriminate|vm_compute; reflexivity|].
    change [(0%nat, OnUnits (mkSpan 0 5 0 0))] with ([(0%nat, OnUnits (mkSpan 0 5 0 0))] ++ []).
    eapply until_later; [reflexivity|constructor; cbn; lia|]. eapply until_here; [reflexivity|]. apply until_divide. vm_compute. reflexivity. }
  vm_compute. repeat split.
Qed.

(** C13.  What is missing: strings of several parts, see [C13_refuted]. *)
Theorem C13_never_splits_partial : forall f s m, is_frame f -> is_span f s -> one_part (fr_str f) -> one_part (m_each m) ->
  (forall spans, partition f (DMarker m) s = Ok spans -> forall u a, ~ splits (m_each m) (unit_start f a) f u)
  /\ (forall u a, splits (m_each m) (unit_start f a) f u -> partition f (DMarker m) s = Err EUnacceptablePeriod).
Proof. exact C13_never_splits_partial_pf. Qed.
Print Assumptions C13_never_splits_partial.

(** Weeks of days pass, months of weeks are rejected: the week of 26 Dec 2016 is in two months. *)
Definition weeks_frame : frame := mkFrame (fq (AlW None)) 2451 3.
Example C13_ex :
  is_frame weeks_frame /\ splits (fq AlM) (unit_start weeks_frame 0) weeks_frame 0
  /\ partition weeks_frame (DMarker (mkMarker (fq AlM) [])) (whole_span weeks_frame) = Err EUnacceptablePeriod
  /\ is_ok (partition days_frame (DMarker (mkMarker (fq (AlW None)) [])) (whole_span days_frame)) = true.
Proof.
  split; [exists (day 2017 1 1), (day 2017 1 9); vm_compute; reflexivity|]. split; [|vm_compute; split; reflexivity].
  exists (day 2016 12 31), (day 2017 1 1), 0, 1.
  split; [vm_compute; split; congruence|]. split; [vm_compute; split; congruence|]. split; [|split; [|discriminate]].
  - exists (day 2016 12 1), (day 2017 1 1). split; [|split]; [exists 563; vm_compute; repeat split; congruence|exists 563; vm_compute; repeat split; congruence|vm_compute; split; congruence].
  - exists (day 2017 1 1), (day 2017 2 1). split; [|split]; [exists 563; vm_compute; repeat split; congruence|exists 563; vm_compute; repeat split; congruence|vm_compute; split; congruence].
Qed.

(** The hour from 2:00 is in two periods of '2H30T', which are accepted for hours. *)
Theorem C13_refuted : exists f s m spans u, is_frame f /\ is_span f s /\ partition f (DMarker m) s = Ok spans
  /\ s_first s <= u <= s_last s /\ splits (m_each m) (unit_start f (s_first s)) f u.
Proof.
  exists (mkFrame (fq AlH) (17167 * 24) 10), (mkSpan 0 9 0 0), (mkMarker odd_hours []),
    [mkSpan 0 1 0 0; mkSpan 2 4 0 0; mkSpan 5 6 0 0; mkSpan 7 9 0 0], 2.
  split; [exists (day 2017 1 1), (at_hour 2017 1 1 9); vm_compute; reflexivity|]. split; [vm_compute; repeat split; congruence|].
  split; [vm_compute; reflexivity|]. split; [vm_compute; split; congruence|].
  exists (at_hour 2017 1 1 2), (at_hour 2017 1 1 2 + 30 * NS_MIN), 0, 1.
  split; [vm_compute; split; congruence|]. split; [vm_compute; split; congruence|].
  split; [apply in_group_iff; vm_compute; reflexivity|]. split; [apply in_group_iff; vm_compute; reflexivity|discriminate].
Qed.
Print Assumptions C13_refuted.

(** No base unit is split if and only if the groups begin with base units; for periods of fixed length, such
    as all strings of several parts name, if and only if the first group does and its length is a multiple of
    that of a base unit. *)
Theorem C13_split_iff : forall f g a, (forall u, ~ splits g (unit_start f a) f u) <-> fits g f a.
Proof. exact C13_split_iff_pf. Qed.
Print Assumptions C13_split_iff.
Theorem C13_lengths : forall f g a df dg, proper_name (fr_str f) -> proper_name g -> lasts (fr_str f) df -> lasts g dg ->
  (fits g f a <-> (exists v, group_start g (unit_start f a) 0 (unit_start f v)) /\ (df | dg)).
Proof. exact C13_lengths_pf. Qed.
Print Assumptions C13_lengths.

(** 2 h 30 min is no multiple of an hour; of 1 h 30 min and 3 h see [C07_fitting_ex]. *)
Example C13_lengths_ex :
  lasts odd_hours (9000 * NS_SEC) /\ lasts (fq AlH) (3600 * NS_SEC) /\ forall o n a, ~ fits odd_hours (mkFrame (fq AlH) o n) a.
Proof.
  assert (L : lasts odd_hours (9000 * NS_SEC)).
  { intros t t' (c & u & k & Ha & -> & ->). apply adds_total in Ha. cbn [map fold_right fst snd] in Ha.
    change (times odd_hours) with 2 in Ha. unfold tick_len, NS_SEC, NS_HOUR, NS_MIN in *. lia. }
  assert (L' : lasts (fq AlH) (3600 * NS_SEC)) by (intros t t' (k & -> & ->); change (times (fq AlH)) with 1; unfold NS_SEC; lia).
  split; [exact L|]. split; [exact L'|]. intros o n a H. apply (proj1 (C13_lengths_pf (mkFrame (fq AlH) o n) odd_hours a _ _ I I L' L)) in H.
  destruct H as [_ [c Hc]]. unfold NS_SEC in Hc. lia.
Qed.

(** Exactly which groupings are accepted. *)
Theorem C13_accepted : forall bu gb, real_name (falias bu) -> real_name (falias gb) ->
  (may_group bu gb <-> check_groupby_freq bu gb = true).
Proof. exact C13_accepted_pf. Qed.
Print Assumptions C13_accepted.

Example C13_accepted_ex :
  may_group (fq (AlQ (Some 1))) (fq (AlA (Some 10))) /\ check_groupby_freq (fqn 2 AlH) (fqn 6 AlH) = true
  /\ check_groupby_freq (fq AlD) (fqn 2 AlM) = true
  /\ check_groupby_freq (fqn 2 AlH) (fq AlD) = false /\ check_groupby_freq (fq (AlW None)) (fq (AlW (Some 6))) = false
  /\ check_groupby_freq (fq AlMin) (fq AlD) = false /\ check_groupby_freq (fq AlD) (fq AlY) = false
  /\ check_groupby_freq (fq AlU) (fq AlL) = true /\ check_groupby_freq (fq AlL) (fq AlMs) = false
  /\ check_groupby_freq (fq AlH) odd_hours = true /\ check_groupby_freq (fqn 1 (AlMore KH [(30%positive, KT)])) (fqn 2 AlH) = true
  /\ check_groupby_freq (fqn 1 (AlMore KH [(30%positive, KT)])) (fq AlD) = false.
Proof.
  split; [|vm_compute; repeat split]. apply C13_accepted_pf; cbn; (lia || reflexivity).
Qed.
