(** Timeboards of the same layout agree where they overlap: C68. *)
From Verif Require Import Base Civil Freq FreqProofs Frame When Timeline Board Spec SpecLookup SpecMisc SpecCivil SpecLayout SpecWhen SpecSame Samples PeriodProofs WhenProofs NthProofs EasterProofs SameProofs.
From Coq Require Import Lia.
Open Scope Z_scope.

(** C68.  Calendar periods at any depth, and amendments. *)
Theorem C68_calendar : forall (L : Type) (a1 a2 : tb_args L) (h1 h2 : heap L) tb1 tb2 h1' h2' org g pat u v,
  build a1 h1 = Ok (tb1, h1') -> build a2 h2 = Ok (tb2, h2') -> a_amendments a1 = a_amendments a2 ->
  top_organizer (a_layout a1) = Ok org -> top_organizer (a_layout a2) = Ok org ->
  straight org (DMarker (mkMarker g [])) (LPat (PList pat)) -> one_part g -> times g = 1 -> pat <> [] ->
  one_part (fr_str (tl_frame (tb_tl tb1))) -> same_unit (tl_frame (tb_tl tb1)) (tl_frame (tb_tl tb2)) u v ->
  exists x, shift_of (tb_tl tb1) u u u x /\ shift_of (tb_tl tb2) v v v x.
Proof. exact C68_calendar_pf. Qed.
Print Assumptions C68_calendar.

(** Marks by offsets from the start of each period: the label is counted from the last mark, wherever
    the timeboard begins. *)
Theorem C68_offsets : forall (L : Type) (a : tb_args L) (h : heap L) tb h' org g offs s pat u,
  build a h = Ok (tb, h') -> a_amendments a = [] -> top_organizer (a_layout a) = Ok org ->
  let f := tl_frame (tb_tl tb) in
  long_units f -> accepts (fr_str f) g -> proper_name g -> proper_name (fr_str f) -> times g = 1 -> times (fr_str f) = 1 -> offs <> [] ->
  (forall o, In o offs -> usable o /\ ~ goes_back o /\ forall p p' x, period_named g p p' -> offset_means o p x -> p <= x) ->
  0 <= u < fr_len f -> pat <> [] ->
  governs f u org (whole_span f) (DMarker (mkMarker g (map from_start_of_each offs))) s (LPat (PList pat)) ->
  exists k x, 0 <= k /\ last_upto (offset_mark g (fr_str f) offs) (unit_start f u) (unit_start f (u - k))
    /\ cycled pat k = Some x /\ shift_of (tb_tl tb) u u u x.
Proof. exact C68_offsets_pf. Qed.
Print Assumptions C68_offsets.
Theorem C68_offsets_same : forall (L : Type) (a1 a2 : tb_args L) (h1 h2 : heap L) tb1 tb2 h1' h2' org g offs pat u v,
  build a1 h1 = Ok (tb1, h1') -> build a2 h2 = Ok (tb2, h2') -> a_amendments a1 = a_amendments a2 ->
  top_organizer (a_layout a1) = Ok org -> top_organizer (a_layout a2) = Ok org ->
  straight org (DMarker (mkMarker g (map from_start_of_each offs))) (LPat (PList pat)) -> pat <> [] ->
  let f := tl_frame (tb_tl tb1) in
  long_units f -> accepts (fr_str f) g -> proper_name g -> proper_name (fr_str f) -> times g = 1 -> times (fr_str f) = 1 -> offs <> [] ->
  (forall o, In o offs -> usable o /\ ~ goes_back o /\ forall p p' x, period_named g p p' -> offset_means o p x -> p <= x) ->
  same_unit f (tl_frame (tb_tl tb2)) u v ->
  exists x, shift_of (tb_tl tb1) u u u x /\ shift_of (tb_tl tb2) v v v x.
Proof. exact C68_offsets_same_pf. Qed.
Print Assumptions C68_offsets_same.

(** Marks at the n-th weekdays of months. *)
Theorem C68_weekdays : forall (L : Type) (a : tb_args L) (h : heap L) tb h' org g ats s pat u,
  build a h = Ok (tb, h') -> a_amendments a = [] -> top_organizer (a_layout a) = Ok org ->
  let f := tl_frame (tb_tl tb) in
  check_groupby_freq (fr_str f) g = true -> proper_name g -> of_months g -> one_part g -> times g = 1 ->
  fmult (to_freq (fr_str f)) = 1%positive -> In (fbase (to_freq (fr_str f))) [BD; BH; BT; BS] -> ats <> [] ->
  (forall month week wday shift, In (month, week, wday, shift) ats -> 1 <= month <= 12 /\ 1 <= wday <= 7 /\ 1 <= Z.abs week <= 5 /\ shift = 0) ->
  0 <= u < fr_len f -> pat <> [] ->
  governs f u org (whole_span f)
    (DMarker (mkMarker g (map (fun '(month, week, wday, shift) => nth_weekday_of_month month week wday shift) ats))) s (LPat (PList pat)) ->
  exists k x, 0 <= k /\ last_upto (weekday_mark g ats) (unit_start f u) (unit_start f (u - k))
    /\ cycled pat k = Some x /\ shift_of (tb_tl tb) u u u x.
Proof. exact C68_weekdays_pf. Qed.
Print Assumptions C68_weekdays.
Theorem C68_weekdays_same : forall (L : Type) (a1 a2 : tb_args L) (h1 h2 : heap L) tb1 tb2 h1' h2' org g ats pat u v,
  build a1 h1 = Ok (tb1, h1') -> build a2 h2 = Ok (tb2, h2') -> a_amendments a1 = a_amendments a2 ->
  top_organizer (a_layout a1) = Ok org -> top_organizer (a_layout a2) = Ok org ->
  straight org (DMarker (mkMarker g (map (fun '(month, week, wday, shift) => nth_weekday_of_month month week wday shift) ats))) (LPat (PList pat)) -> pat <> [] ->
  let f := tl_frame (tb_tl tb1) in
  check_groupby_freq (fr_str f) g = true -> proper_name g -> of_months g -> one_part g -> times g = 1 ->
  fmult (to_freq (fr_str f)) = 1%positive -> In (fbase (to_freq (fr_str f))) [BD; BH; BT; BS] -> ats <> [] ->
  (forall month week wday shift, In (month, week, wday, shift) ats -> 1 <= month <= 12 /\ 1 <= wday <= 7 /\ 1 <= Z.abs week <= 5 /\ shift = 0) ->
  same_unit f (tl_frame (tb_tl tb2)) u v ->
  exists x, shift_of (tb_tl tb1) u u u x /\ shift_of (tb_tl tb2) v v v x.
Proof. exact C68_weekdays_same_pf. Qed.
Print Assumptions C68_weekdays_same.

(** Marks at Easter. *)
Theorem C68_easter : forall (L : Type) orthodox (a : tb_args L) (h : heap L) tb h' org g offs s pat u,
  build a h = Ok (tb, h') -> a_amendments a = [] -> top_organizer (a_layout a) = Ok org ->
  let f := tl_frame (tb_tl tb) in
  long_units f -> accepts (fr_str f) g -> proper_name g -> fbase (to_freq g) = BA 12 -> times g = 1 -> fmult (to_freq (fr_str f)) = 1%positive ->
  offs <> [] -> (forall o, In o offs -> forward o \/ backward o) ->
  easter_year (year_of (reach_before f g (whole_span f) / NS_DAY)) -> easter_year (year_of (reach_after f g (whole_span f) / NS_DAY)) ->
  0 <= u < fr_len f -> pat <> [] ->
  governs f u org (whole_span f) (DMarker (mkMarker g (map (from_easter orthodox) offs))) s (LPat (PList pat)) ->
  exists k x, 0 <= k /\ last_upto (easter_marks orthodox (fr_str f) offs) (unit_start f u) (unit_start f (u - k))
    /\ cycled pat k = Some x /\ shift_of (tb_tl tb) u u u x.
Proof. exact C68_easter_pf. Qed.
Print Assumptions C68_easter.
Theorem C68_easter_same : forall (L : Type) orthodox (a1 a2 : tb_args L) (h1 h2 : heap L) tb1 tb2 h1' h2' org g offs pat u v,
  build a1 h1 = Ok (tb1, h1') -> build a2 h2 = Ok (tb2, h2') -> a_amendments a1 = a_amendments a2 ->
  top_organizer (a_layout a1) = Ok org -> top_organizer (a_layout a2) = Ok org ->
  straight org (DMarker (mkMarker g (map (from_easter orthodox) offs))) (LPat (PList pat)) -> pat <> [] ->
  let f1 := tl_frame (tb_tl tb1) in let f2 := tl_frame (tb_tl tb2) in
  long_units f1 -> accepts (fr_str f1) g -> proper_name g -> fbase (to_freq g) = BA 12 -> times g = 1 -> fmult (to_freq (fr_str f1)) = 1%positive ->
  offs <> [] -> (forall o, In o offs -> forward o \/ backward o) ->
  (forall f, f = f1 \/ f = f2 -> easter_year (year_of (reach_before f g (whole_span f) / NS_DAY)) /\ easter_year (year_of (reach_after f g (whole_span f) / NS_DAY))) ->
  same_unit f1 f2 u v ->
  exists x, shift_of (tb_tl tb1) u u u x /\ shift_of (tb_tl tb2) v v v x.
Proof. exact C68_easter_same_pf. Qed.
Print Assumptions C68_easter_same.

(** One label for all spans. *)
Theorem C68_label : forall (L : Type) (a : tb_args L) (h : heap L) tb h' org d x u,
  build a h = Ok (tb, h') -> a_amendments a = [] -> top_organizer (a_layout a) = Ok org -> straight org d (LLab x) ->
  0 <= u < fr_len (tl_frame (tb_tl tb)) -> exists b e, shift_of (tb_tl tb) u b e x.
Proof. exact C68_label_pf. Qed.
Print Assumptions C68_label.

(** When the number of units to skip is known (otherwise a pattern cannot be applied). *)
Theorem C68_offset_skips : forall f s g offs, is_frame f -> long_units f -> accepts (fr_str f) g -> proper_name g -> proper_name (fr_str f) ->
  times g = 1 -> times (fr_str f) = 1 -> offs <> [] ->
  (forall o, In o offs -> usable o /\ ~ goes_back o /\ forall p p' x, period_named g p p' -> offset_means o p x -> p <= x) ->
  is_span f s ->
  exists spans, partition f (DMarker (mkMarker g (map from_start_of_each offs))) s = Ok spans
    /\ (forall s' u, In s' spans -> s_first s' <= u <= s_last s' -> 0 <= s_left s' ->
         last_upto (offset_mark g (fr_str f) offs) (unit_start f u) (unit_start f (s_first s' - s_left s')))
    /\ (mark_in_reach f g s (offset_mark g (fr_str f) offs) <-> forall s', In s' spans -> 0 <= s_left s').
Proof. exact C68_offset_skips_pf. Qed.
Print Assumptions C68_offset_skips.
Theorem C68_weekday_skips : forall f s g ats, is_frame f -> check_groupby_freq (fr_str f) g = true -> proper_name g -> of_months g -> one_part g ->
  times g = 1 -> fmult (to_freq (fr_str f)) = 1%positive -> In (fbase (to_freq (fr_str f))) [BD; BH; BT; BS] -> ats <> [] ->
  (forall month week wday shift, In (month, week, wday, shift) ats -> 1 <= month <= 12 /\ 1 <= wday <= 7 /\ 1 <= Z.abs week <= 5 /\ shift = 0) ->
  is_span f s ->
  exists spans, partition f (DMarker (mkMarker g (map (fun '(month, week, wday, shift) => nth_weekday_of_month month week wday shift) ats))) s = Ok spans
    /\ (forall s' u, In s' spans -> s_first s' <= u <= s_last s' -> 0 <= s_left s' ->
         last_upto (weekday_mark g ats) (unit_start f u) (unit_start f (s_first s' - s_left s')))
    /\ (mark_in_reach f g s (weekday_mark g ats) <-> forall s', In s' spans -> 0 <= s_left s').
Proof. exact C68_weekday_skips_pf. Qed.
Print Assumptions C68_weekday_skips.
Theorem C68_easter_skips : forall orthodox f s g offs, is_frame f -> long_units f -> accepts (fr_str f) g -> proper_name g ->
  fbase (to_freq g) = BA 12 -> times g = 1 -> fmult (to_freq (fr_str f)) = 1%positive -> offs <> [] -> (forall o, In o offs -> forward o \/ backward o) ->
  easter_year (year_of (reach_before f g s / NS_DAY)) -> easter_year (year_of (reach_after f g s / NS_DAY)) -> is_span f s ->
  exists spans, partition f (DMarker (mkMarker g (map (from_easter orthodox) offs))) s = Ok spans
    /\ (forall s' u, In s' spans -> s_first s' <= u <= s_last s' -> 0 <= s_left s' ->
         last_upto (easter_marks orthodox (fr_str f) offs) (unit_start f u) (unit_start f (s_first s' - s_left s')))
    /\ (mark_in_reach f g s (easter_marks orthodox (fr_str f) offs) <-> forall s', In s' spans -> 0 <= s_left s').
Proof. exact C68_easter_skips_pf. Qed.
Print Assumptions C68_easter_skips.
Theorem C68_easter_reach : forall orthodox f s g offs o, accepts (fr_str f) g -> proper_name g -> fbase (to_freq g) = BA 12 -> times g = 1 -> In o offs ->
  easter_year (year_of (reach_before f g s / NS_DAY)) -> (forall y, easter_year y -> exists t, easter_mark orthodox (fr_str f) o y t) ->
  mark_in_reach f g s (easter_marks orthodox (fr_str f) offs).
Proof. exact C68_easter_reach_pf. Qed.
Print Assumptions C68_easter_reach.
(** It is known if there is a mark in each period, and no period is longer than the one of 1 July 2016. *)
Theorem C68_reach : forall f g s P, proper_name g -> one_part g -> times g = 1 -> longest_2016 g -> marked_each g P -> mark_in_reach f g s P.
Proof. exact C68_reach_pf. Qed.
Print Assumptions C68_reach.
(** That is so for all frequencies but the years that begin in March to July. *)
Theorem C68_longest : forall g, proper_name g -> one_part g -> times g = 1 -> (forall m, falias g = AlA (Some m) -> m = 1 \/ 7 <= m <= 12) -> longest_2016 g.
Proof. exact C68_longest_pf. Qed.
Print Assumptions C68_longest.

(** Days from 10 Jan and from 13 Jan 2017, with a mark on the 15th of each month, in quarters. *)
Definition ides : list dateoffset := [DKw 0 0 0 14 0 0 0].
Definition ides_layout : layout Z :=
  LOrg (DMarker (mkMarker (fq (AlQ None)) [])) [LOrg (DMarker (mkMarker (fq AlM) (map from_start_of_each ides))) [LPat (PList [1; 2; 3; 4; 5])]].
Definition days_args (from till : Z) (ly : layout Z) (am : list (Z * Z)) : tb_args Z :=
  mkArgs (fq AlD) from till ly am pos_sel 1 false (-1) WLabels Samples.num.
Definition ides1 := days_args (day 2017 1 10) (day 2017 1 20) ides_layout [(day 2017 1 16, 9)].
Definition ides2 := days_args (day 2017 1 13) (day 2017 4 3) ides_layout [(day 2017 1 16, 9)].
Example C68_offsets_ex :
  build ides1 [] = Ok (the_tb ides1, []) /\ build ides2 [] = Ok (the_tb ides2, [])
  /\ straight ides_layout (DMarker (mkMarker (fq AlM) (map from_start_of_each ides))) (LPat (PList [1; 2; 3; 4; 5]))
  /\ same_unit (tl_frame (tb_tl (the_tb ides1))) (tl_frame (tb_tl (the_tb ides2))) 4 1
  /\ tl_labels (tb_tl (the_tb ides1)) = [2; 3; 4; 5; 1; 1; 9; 3; 4; 5; 1]
  /\ firstn 8 (tl_labels (tb_tl (the_tb ides2))) = [5; 1; 1; 9; 3; 4; 5; 1].
Proof.
  split; [vm_compute; reflexivity|]. split; [vm_compute; reflexivity|]. split; [constructor; constructor; exact I|].
  split; [vm_compute; repeat split; congruence|]. split; vm_compute; reflexivity.
Qed.
Example C68_offsets_hyps :
  accepts (fq AlD) (fq AlM) /\ longest_2016 (fq AlM) /\ marked_each (fq AlM) (offset_mark (fq AlM) (fq AlD) ides)
  /\ (forall o, In o ides -> usable o /\ ~ goes_back o /\ forall p p' x, period_named (fq AlM) p p' -> offset_means o p x -> p <= x).
Proof.
  split; [vm_compute; repeat split|]. split; [apply C68_longest; try reflexivity; try exact I; intros m Hm; discriminate Hm|].
  assert (Ho : forall p, offset_means (DKw 0 0 0 14 0 0 0) p (p + 14 * 86400000000000)).
  { intros p. apply C46_offset_pf; [exact I|]. cbn [add_offset]. change ((0 =? 0) && (0 =? 0))%bool with true. cbv iota. unfold NS_DAY, NS_HOUR, NS_MIN, NS_SEC. lia. }
  split.
  - intros p p' Hn. pose proof Hn as Hn'. cbn in Hn'. destruct Hn' as (k & Hk & Hk'). change (times (fq AlM)) with 1 in Hk'.
    apply first_month_iff in Hk. apply first_month_iff in Hk'.
    exists (p + 14 * 86400000000000). assert (Hl : month_start k + 28 <= month_start (k + 1)).
    { unfold month_start. pose proof (CivilProofs.month_start2000_step (k - 360)) as Hs. cbv zeta in Hs. replace (k + 1 - 360) with (k - 360 + 1) by lia.
      destruct (_ =? 1) in Hs; [destruct (leap _) in Hs; lia|]. destruct (_ || _)%bool in Hs; lia. }
    unfold NS_DAY in *. split; [|lia].
    exists (DKw 0 0 0 14 0 0 0), p, p', (p + 14 * 86400000000000), (p + 15 * 86400000000000). split; [left; reflexivity|]. split; [exact Hn|].
    split; [apply Ho|]. split; [lia|]. split; [|lia]. cbn. exists (month_start k + 14). change (times (fq AlD)) with 1. lia.
  - intros o [<-|[]]. split; [exact I|]. split; [vm_compute; congruence|]. intros p p' x _ Hx. apply C46_offset_pf in Hx; [|exact I]. subst x. apply forward_le. cbn. lia.
Qed.
Example C68_weekdays_ex : let ats := [(1, 2, 3, 0)] in
  check_groupby_freq (fq AlD) (fq AlM) = true /\ of_months (fq AlM) /\ marked_each (fq AlM) (weekday_mark (fq AlM) ats)
  /\ let ly := LOrg (DMarker (mkMarker (fq AlM) (map (fun '(month, week, wday, shift) => nth_weekday_of_month month week wday shift) ats))) [LPat (PList [1; 2; 3; 4; 5])] in
     let a1 := days_args (day 2017 1 10) (day 2017 1 20) ly [] in let a2 := days_args (day 2016 12 30) (day 2017 1 16) ly [] in
     build a1 [] = Ok (the_tb a1, []) /\ build a2 [] = Ok (the_tb a2, [])
     /\ tl_labels (tb_tl (the_tb a1)) = [3; 1; 2; 3; 4; 5; 1; 2; 3; 4; 5]
     /\ skipn 11 (tl_labels (tb_tl (the_tb a2))) = [3; 1; 2; 3; 4; 5; 1]
     /\ same_unit (tl_frame (tb_tl (the_tb a1))) (tl_frame (tb_tl (the_tb a2))) 1 12.
Proof.
  cbv zeta. split; [reflexivity|]. split; [exact I|]. split.
  - intros p p' Hn. pose proof Hn as Hn'. cbn in Hn'. destruct Hn' as (k & Hk & Hk'). change (times (fq AlM)) with 1 in Hk'.
    apply first_month_iff in Hk. apply first_month_iff in Hk'. unfold NS_DAY in *.
    destruct (C38_exists_pf k 2 2 ltac:(lia) ltac:(lia)) as [d Hd]. pose proof Hd as ((Hd1 & Hd2) & _).
    exists (d * 86400000000000). split; [|lia]. exists 1, 2, 3, k, p', d. split; [left; reflexivity|]. split; [rewrite <- Hk; exact Hn|].
    replace (k + (1 - 1)) with k by lia. pose proof (CivilProofs.month_start_lt k). split; [lia|]. split; [exact Hd|reflexivity].
  - split; [vm_compute; reflexivity|]. split; [vm_compute; reflexivity|]. split; [vm_compute; reflexivity|]. split; [vm_compute; reflexivity|].
    vm_compute. repeat split; congruence.
Qed.
(** Good Friday and ten days after Easter, in calendar years divided into months. *)
Definition easter_offs : list dateoffset := [DKw 0 0 0 (-2) 0 0 0; DKw 0 0 0 10 0 0 0].
Example C68_easter_ex :
  let ly := LOrg (DMarker (mkMarker (fq AlM) [])) [LOrg (DMarker (mkMarker (fq (AlA None)) (map (from_easter false) easter_offs))) [LPat (PList [1; 2; 3; 4; 5])]] in
  let a1 := days_args (day 2017 4 11) (day 2017 4 28) ly [(day 2017 4 15, 9)] in let a2 := days_args (day 2017 3 30) (day 2017 4 16) ly [(day 2017 4 15, 9)] in
  build a1 [] = Ok (the_tb a1, []) /\ build a2 [] = Ok (the_tb a2, [])
  /\ straight ly (DMarker (mkMarker (fq (AlA None)) (map (from_easter false) easter_offs))) (LPat (PList [1; 2; 3; 4; 5]))
  /\ tl_labels (tb_tl (the_tb a1)) = [1; 2; 3; 1; 9; 3; 4; 5; 1; 2; 3; 4; 5; 1; 2; 1; 2; 3]
  /\ skipn 12 (tl_labels (tb_tl (the_tb a2))) = [1; 2; 3; 1; 9; 3]
  /\ same_unit (tl_frame (tb_tl (the_tb a1))) (tl_frame (tb_tl (the_tb a2))) 5 17
  /\ accepts (fq AlD) (fq (AlA None)) /\ fbase (to_freq (fq (AlA None))) = BA 12
  /\ (forall o, In o easter_offs -> forward o \/ backward o)
  /\ forall f, f = tl_frame (tb_tl (the_tb a1)) \/ f = tl_frame (tb_tl (the_tb a2)) ->
       easter_year (year_of (reach_before f (fq (AlA None)) (whole_span f) / NS_DAY)) /\ easter_year (year_of (reach_after f (fq (AlA None)) (whole_span f) / NS_DAY)).
Proof.
  cbv zeta. split; [vm_compute; reflexivity|]. split; [vm_compute; reflexivity|]. split; [constructor; constructor; exact I|].
  split; [vm_compute; reflexivity|]. split; [vm_compute; reflexivity|]. split; [vm_compute; repeat split; congruence|].
  split; [vm_compute; repeat split|]. split; [reflexivity|].
  split; [intros o [<-|[<-|[]]]; [right|left]; cbn; lia|]. intros f [->| ->]; vm_compute; repeat split; congruence.
Qed.
(** Each Easter has its Good Friday. *)
Example C68_easter_reach_ex : forall y, easter_year y -> exists t, easter_mark false (fq AlD) (DKw 0 0 0 (-2) 0 0 0) y t.
Proof.
  intros y Hy. destruct (C42_easter_pf false y Hy) as (E & _ & H). rewrite E in H. exists ((easter_day false y - 2) * NS_DAY).
  assert (Ea : add_offset (DKw 0 0 0 (-2) 0 0 0) (easter_day false y * NS_DAY) = (easter_day false y - 2) * NS_DAY).
  { cbn [add_offset]. change ((0 =? 0) && (0 =? 0))%bool with true. cbv iota. unfold NS_DAY, NS_HOUR, NS_MIN, NS_SEC. lia. }
  unfold easter_mark. rewrite Ea. cbv zeta. split.
  - assert (date y 1 1 + 21 <= date y 3 22).
    { unfold date. pose proof (proj1 (month_start_le_iff ((y - 1970) * 12 + (1 - 1)) ((y - 1970) * 12 + (3 - 1))) ltac:(lia)). lia. }
    clear - H H0. unfold NS_DAY. lia.
  - exists (easter_day false y - 2). split; [|reflexivity]. unfold in_cal_unit. cbn. unfold NS_DAY. lia.
Qed.
(** Weeks and months, the calendar periods of C07_inner_ex, from 30 Dec and from 27 Dec. *)
Example C68_calendar_ex :
  let ly := LOrg (DMarker (mkMarker (fq AlM) [])) [LOrg (DMarker (mkMarker (fq (AlW None)) [])) [LPat (PList [1; 2; 3; 4; 5; 6; 7])]] in
  let a1 := days_args (day 2016 12 30) (day 2017 1 4) ly [(day 2017 1 2, 0)] in let a2 := days_args (day 2016 12 27) (day 2017 1 3) ly [(day 2017 1 2, 0)] in
  build a1 [] = Ok (the_tb a1, []) /\ build a2 [] = Ok (the_tb a2, [])
  /\ straight ly (DMarker (mkMarker (fq (AlW None)) [])) (LPat (PList [1; 2; 3; 4; 5; 6; 7]))
  /\ same_unit (tl_frame (tb_tl (the_tb a1))) (tl_frame (tb_tl (the_tb a2))) 2 5
  /\ tl_labels (tb_tl (the_tb a1)) = [5; 6; 7; 0; 2; 3] /\ tl_labels (tb_tl (the_tb a2)) = [2; 3; 4; 5; 6; 7; 0; 2].
Proof.
  cbv zeta. split; [vm_compute; reflexivity|]. split; [vm_compute; reflexivity|]. split; [constructor; constructor; exact I|].
  split; [vm_compute; repeat split; congruence|]. split; vm_compute; reflexivity.
Qed.
Example C68_label_ex :
  let ly := LOrg (DMarker (mkMarker (fq AlM) [])) [LOrg (DMarks [day 2017 1 3]) [LLab 7]] in
  let a := days_args (day 2016 12 30) (day 2017 1 4) ly [] in
  build a [] = Ok (the_tb a, []) /\ straight ly (DMarks [day 2017 1 3]) (LLab 7) /\ tl_labels (tb_tl (the_tb a)) = [7; 7; 7].
Proof. cbv zeta. split; [vm_compute; reflexivity|]. split; [constructor; constructor; exact I|vm_compute; reflexivity]. Qed.

(** With two elements in a structure the first one goes to the first span of the timeboard, wherever
    that begins: two timeboards give different labels to Mon 9 Jan. *)
Theorem C68_cycle_refuted : exists ly a1 a2 tb1 tb2 u v x y,
  a1 = days_args (day 2017 1 2) (day 2017 1 15) ly [] /\ a2 = days_args (day 2017 1 9) (day 2017 1 15) ly []
  /\ build a1 [] = Ok (tb1, []) /\ build a2 [] = Ok (tb2, []) /\ same_unit (tl_frame (tb_tl tb1)) (tl_frame (tb_tl tb2)) u v
  /\ tl_get (tb_tl tb1) u = Ok x /\ tl_get (tb_tl tb2) v = Ok y /\ x <> y.
Proof.
  set (ly := LOrg (DMarker (mkMarker (fq (AlW None)) [])) [LPat (PList [1]); LPat (PList [2])]).
  exists ly, (days_args (day 2017 1 2) (day 2017 1 15) ly []), (days_args (day 2017 1 9) (day 2017 1 15) ly []),
    (the_tb (days_args (day 2017 1 2) (day 2017 1 15) ly [])), (the_tb (days_args (day 2017 1 9) (day 2017 1 15) ly [])), 7, 0, 2, 1.
  split; [reflexivity|]. split; [reflexivity|]. split; [vm_compute; reflexivity|]. split; [vm_compute; reflexivity|].
  split; [vm_compute; repeat split; congruence|]. split; [vm_compute; reflexivity|]. split; [vm_compute; reflexivity|]. congruence.
Qed.
Print Assumptions C68_cycle_refuted.
(** Groups of two weeks are counted from the first week of the timeboard. *)
Theorem C68_multiple_refuted : exists ly a1 a2 tb1 tb2 u v x y, straight ly (DMarker (mkMarker (fqn 2 (AlW None)) [])) (LPat (PList [1; 2; 3; 4; 5; 6; 7; 8]))
  /\ a1 = days_args (day 2017 1 2) (day 2017 1 15) ly [] /\ a2 = days_args (day 2017 1 9) (day 2017 1 15) ly []
  /\ build a1 [] = Ok (tb1, []) /\ build a2 [] = Ok (tb2, []) /\ same_unit (tl_frame (tb_tl tb1)) (tl_frame (tb_tl tb2)) u v
  /\ tl_get (tb_tl tb1) u = Ok x /\ tl_get (tb_tl tb2) v = Ok y /\ x <> y.
Proof.
  set (ly := LOrg (DMarker (mkMarker (fqn 2 (AlW None)) [])) [LPat (PList [1; 2; 3; 4; 5; 6; 7; 8])]).
  exists ly, (days_args (day 2017 1 2) (day 2017 1 15) ly []), (days_args (day 2017 1 9) (day 2017 1 15) ly []),
    (the_tb (days_args (day 2017 1 2) (day 2017 1 15) ly [])), (the_tb (days_args (day 2017 1 9) (day 2017 1 15) ly [])), 7, 0, 8, 1.
  split; [constructor; exact I|]. split; [reflexivity|]. split; [reflexivity|]. split; [vm_compute; reflexivity|]. split; [vm_compute; reflexivity|].
  split; [vm_compute; repeat split; congruence|]. split; [vm_compute; reflexivity|]. split; [vm_compute; reflexivity|]. congruence.
Qed.
Print Assumptions C68_multiple_refuted.
(** Years that begin in March: the one of 2015 lasts 366 days, the marker looks back 365.  A mark five
    hours into the last day of the year is found from 22:00 on 28 Feb 2016 (the mark of 2015), but four
    hours later there is none, and the timeboard cannot be made. *)
Theorem C68_reach_refuted : exists o ly a1 a2 g t,
  straight ly (DMarker (mkMarker g (map from_start_of_each [o]))) (LPat (PList [1; 2; 3]))
  /\ a1 = mkArgs (fq AlH) (at_hour 2016 2 28 22) (at_hour 2016 2 29 8) ly [] pos_sel 1 false (-1) WLabels Samples.num
  /\ a2 = mkArgs (fq AlH) (at_hour 2016 2 29 2) (at_hour 2016 2 29 8) ly [] pos_sel 1 false (-1) WLabels Samples.num
  /\ (exists tb, build a1 [] = Ok (tb, [])) /\ build a2 [] = Err EOutOfBounds
  /\ offset_mark g (fq AlH) [o] t /\ t < at_hour 2016 2 28 22 /\ ~ longest_2016 g.
Proof.
  set (o := DKw 0 12 0 (-1) 5 0 0). set (g := fq (AlA (Some 2))).
  set (ly := LOrg (DMarker (mkMarker g (map from_start_of_each [o]))) [LPat (PList [1; 2; 3])]).
  set (a1 := mkArgs (fq AlH) (at_hour 2016 2 28 22) (at_hour 2016 2 29 8) ly [] pos_sel 1 false (-1) WLabels Samples.num).
  exists o, ly, a1, (mkArgs (fq AlH) (at_hour 2016 2 29 2) (at_hour 2016 2 29 8) ly [] pos_sel 1 false (-1) WLabels Samples.num), g, (at_hour 2015 2 28 5).
  split; [constructor; exact I|]. split; [reflexivity|]. split; [reflexivity|].
  split; [exists (the_tb a1); vm_compute; reflexivity|]. split; [vm_compute; reflexivity|].
  assert (Y : forall y, 2014 <= y <= 2016 -> period_named g (day y 3 1) (day (y + 1) 3 1)).
  { intros y Hy. assert (E : y = 2014 \/ y = 2015 \/ y = 2016) by lia.
    destruct E as [->|[->| ->]]; [exists 530|exists 542|exists 554]; vm_compute; repeat split. }
  split; [|split; [vm_compute; reflexivity|]].
  - exists o, (day 2014 3 1), (day 2015 3 1), (at_hour 2015 2 28 5), (at_hour 2015 2 28 6). split; [left; reflexivity|]. split; [apply (Y 2014); lia|].
    split; [apply C46_offset_pf; [exact I|vm_compute; reflexivity]|]. split; [vm_compute; repeat split; congruence|].
    split; [exists (at_hour 2015 2 28 5 / 3600000000000); vm_compute; split; reflexivity|vm_compute; repeat split; congruence].
  - intros H. specialize (H _ _ _ _ (Y 2016 ltac:(lia)) ltac:(vm_compute; repeat split; congruence) (Y 2015 ltac:(lia))). vm_compute in H. apply H. reflexivity.
Qed.
Print Assumptions C68_reach_refuted.
