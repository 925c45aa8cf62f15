(** Theorems C51 and C52: markers with any `how`, and the constructors of markers, organizers and
    timeboards on arguments as the user writes them. *)
From Verif Require Import Base Civil Freq Frame When Timeline Board Spec SpecLookup SpecLayout SpecWhen Samples PropWhen Setup SpecSetup MarkProofs SetupProofs.
From Verif Require Api.
From Coq Require Import String QArith.
Open Scope Z_scope.

(** ** C51 *)
Theorem C51_cuts : forall f s g hows pi pts, is_frame f -> is_span f s -> check_groupby_freq (fr_str f) g = true -> hows <> [] ->
  handed f g s pi -> points_of pi (fr_str f) hows pts ->
  exists spans, partition f (DMarker (mkMarker g hows)) s = Ok spans
    /\ tiling (s_first s) (s_last s) spans
    /\ forall u, s_first s < u <= s_last s ->
         (starts_span spans u <-> exists ts t, In ts pts /\ In t ts /\ cut_by f u t).
Proof. exact C51_cuts_pf. Qed.
Print Assumptions C51_cuts.

Theorem C51_skips_partial : forall f s g hows pi pts, is_frame f -> long_units f -> is_span f s -> check_groupby_freq (fr_str f) g = true -> hows <> [] ->
  handed f g s pi -> points_of pi (fr_str f) hows pts -> (forall ts t, In ts pts -> In t ts -> exists u, t = unit_start f u) ->
  let mark t := exists ts, In ts pts /\ In t ts in
  exists spans before after, partition f (DMarker (mkMarker g hows)) s = Ok spans
    /\ (exists rest, map s_left spans = before :: rest /\ forall x, In x rest -> x = 0)
    /\ (exists rest, map s_right spans = rest ++ [after] /\ forall x, In x rest -> x = 0)
    /\ ((before = -1 /\ forall t, mark t -> unit_start f (s_first s) < t)
        \/ (0 <= before /\ last_upto mark (unit_start f (s_first s)) (unit_start f (s_first s - before))))
    /\ ((after = -1 /\ forall t, mark t -> t <= unit_end f (s_last s))
        \/ (0 <= after /\ first_after mark (unit_end f (s_last s)) (unit_start f (s_last s + 1 + after)))).
Proof. exact C51_skips_partial_pf. Qed.
Print Assumptions C51_skips_partial.

(** Exactly what is recorded, for units of any length and points anywhere in them. *)
Theorem C51_skips : forall f s g hows pi pts, is_frame f -> is_span f s -> unit_start f (s_first s) < unit_end f (s_last s) ->
  check_groupby_freq (fr_str f) g = true -> hows <> [] -> handed f g s pi -> points_of pi (fr_str f) hows pts ->
  exists spans, partition f (DMarker (mkMarker g hows)) s = Ok spans
    /\ skips_found f s (fun t => exists ts, In ts pts /\ In t ts) spans.
Proof. exact C51_skips_pf. Qed.
Print Assumptions C51_skips.

Theorem C51_fails : forall f s g pre how post pi pts e, is_frame f -> is_span f s -> check_groupby_freq (fr_str f) g = true ->
  handed f g s pi -> points_of pi (fr_str f) pre pts -> how pi (fr_str f) = Err e ->
  partition f (DMarker (mkMarker g (pre ++ how :: post))) s = Err e.
Proof. exact C51_fails_pf. Qed.
Print Assumptions C51_fails.

(** A function of the user's: the fourth day of each period and the time one hour before its end. *)
Definition fourth_and_last (pi : frame) (norm : fstr) : res (list Z) :=
  Ok (map (fun u => unit_start pi u + 3 * NS_DAY) (zrange 0 (Z.to_nat (fr_len pi))) ++ map (fun u => unit_end pi u + 1 - 3600 * NS_SEC) (zrange 0 (Z.to_nat (fr_len pi)))).
(** January to May 2017. *)
Definition spring_months : frame := mkFrame (fq AlM) 564 5.
Example C51_ex :
  handed spring (fq AlM) (mkSpan 0 49 0 0) spring_months
  /\ points_of spring_months (fq AlD) [fourth_and_last; from_start_of_each (DKw 0 0 0 1 0 0 0)]
       [[day 2017 1 4; day 2017 2 4; day 2017 3 4; day 2017 4 4; day 2017 5 4;
         at_hour 2017 1 31 23; at_hour 2017 2 28 23; at_hour 2017 3 31 23; at_hour 2017 4 30 23; at_hour 2017 5 31 23];
        [day 2017 1 2; day 2017 2 2; day 2017 3 2; day 2017 4 2; day 2017 5 2]]
  /\ partition spring (DMarker (mkMarker (fq AlM) [fourth_and_last; from_start_of_each (DKw 0 0 0 1 0 0 0)])) (mkSpan 0 49 0 0)
     = Ok [mkSpan 0 7 16 0; mkSpan 8 9 0 0; mkSpan 10 11 0 0; mkSpan 12 38 0 0; mkSpan 39 40 0 0; mkSpan 41 42 0 0; mkSpan 43 49 0 20]
  /\ in_unit spring (0 - 16) (day 2017 2 4) /\ in_unit spring (49 + 20) (at_hour 2017 4 30 23 - NS_SEC).
Proof.
  split; [vm_compute; reflexivity|]. split; [|split; [vm_compute; reflexivity|split; vm_compute; split; congruence]].
  do 2 (apply Forall2_cons; [vm_compute; reflexivity|]). apply Forall2_nil.
Qed.

Theorem C51_how : forall g ats s,
  (In s ["from_start_of_each"; "nth_weekday_of_month"; "from_easter_western"; "from_easter_orthodox"]%string ->
   exists m, new_marker g ats (HName s) = Ok m /\ m_each m = g)
  /\ (~ In s ["from_start_of_each"; "nth_weekday_of_month"; "from_easter_western"; "from_easter_orthodox"]%string ->
      new_marker g ats (HName s) = Err EKey).
Proof. exact C51_how_pf. Qed.
Print Assumptions C51_how.

(** The names and what they make of `at`.  (For offsets of mixed sign in the first one see
    [C37_refuted] and [C51_start_every].) *)
Theorem C51_start : forall f s g offs m, is_frame f -> long_units f -> is_span f s -> accepts (fr_str f) g ->
  offs <> [] -> (forall o, In o offs -> forward o \/ backward o) ->
  new_marker g (map KOffset offs) (HName "from_start_of_each"%string) = Ok m ->
  exists spans, partition f (DMarker m) s = Ok spans
    /\ tiling (s_first s) (s_last s) spans
    /\ forall u, s_first s < u <= s_last s ->
         (starts_span spans u <->
          exists o k t, In o offs /\ mark_of g (fr_str f) (reach_before f g s) o k t /\ cut_by f u t).
Proof. exact C51_start_pf. Qed.
Print Assumptions C51_start.

Theorem C51_start_every : forall f s g offs m, is_frame f -> is_span f s -> accepts (fr_str f) g ->
  offs <> [] -> (forall o, In o offs -> usable o) -> new_marker g (map KOffset offs) (HName "from_start_of_each"%string) = Ok m ->
  exists spans, partition f (DMarker m) s = Ok spans
    /\ tiling (s_first s) (s_last s) spans
    /\ forall u, s_first s < u <= s_last s ->
         (starts_span spans u <->
          exists o k t, In o offs /\ ~ goes_back o /\ inspected f g s k
            /\ mark_upto g (fr_str f) (reach_before f g s) o k t /\ cut_by f u t).
Proof. exact C51_start_every_pf. Qed.
Print Assumptions C51_start_every.

Theorem C51_nth : forall f s g ats m, is_frame f -> is_span f s -> check_groupby_freq (fr_str f) g = true -> of_months g -> ats <> [] ->
  (forall month week wday shift, In (month, week, wday, shift) ats -> 1 <= month <= 12 /\ 1 <= wday <= 7 /\ 1 <= Z.abs week <= 5) ->
  new_marker g (map (fun '(month, week, wday, shift) => KNth month week wday shift) ats) (HName "nth_weekday_of_month"%string) = Ok m ->
  exists spans, partition f (DMarker m) s = Ok spans
    /\ tiling (s_first s) (s_last s) spans
    /\ forall u, s_first s < u <= s_last s ->
         (starts_span spans u <->
          exists month week wday shift k t, In (month, week, wday, shift) ats /\ inspected f g s k
            /\ nth_mark g (reach_before f g s) month (wday - 1) week shift k t /\ cut_by f u t).
Proof. exact C51_nth_pf. Qed.
Print Assumptions C51_nth.

Theorem C51_easter : forall (orthodox : bool) f s g ats offs m, is_frame f -> is_span f s -> check_groupby_freq (fr_str f) g = true ->
  fbase (to_freq g) = BA 12 -> fmult (to_freq g) = 1%positive -> offs <> [] -> (forall o, In o offs -> forward o \/ backward o) ->
  easter_year (year_of (reach_before f g s / NS_DAY)) -> easter_year (year_of (reach_after f g s / NS_DAY)) ->
  Forall2 easter_offset ats offs ->
  new_marker g ats (HName (if orthodox then "from_easter_orthodox" else "from_easter_western")%string) = Ok m ->
  exists spans, partition f (DMarker m) s = Ok spans
    /\ tiling (s_first s) (s_last s) spans
    /\ forall u, s_first s < u <= s_last s ->
         (starts_span spans u <-> exists o y t, In o offs /\ easter_mark orthodox (fr_str f) o y t /\ cut_by f u t).
Proof. exact C51_easter_pf. Qed.
Print Assumptions C51_easter.

Theorem C51_easter_periods : forall (orthodox : bool) f s g ats offs m, is_frame f -> is_span f s -> accepts (fr_str f) g ->
  offs <> [] -> (forall o, In o offs -> usable o) ->
  (forall k p', inspected f g s k -> group_start g (reach_before f g s) (k + 1) p' -> easter_year (year_of ((p' - 1) / NS_DAY))) ->
  Forall2 easter_offset ats offs ->
  new_marker g ats (HName (if orthodox then "from_easter_orthodox" else "from_easter_western")%string) = Ok m ->
  let holds k := forall e, group_easter orthodox g (reach_before f g s) k e -> in_group g (reach_before f g s) k e in
  ((exists k, inspected f g s k /\ ~ holds k) -> partition f (DMarker m) s = Err EValue)
  /\ ((forall k, inspected f g s k -> holds k) ->
      exists spans, partition f (DMarker m) s = Ok spans
        /\ tiling (s_first s) (s_last s) spans
        /\ forall u, s_first s < u <= s_last s ->
             (starts_span spans u <->
              exists o k t, In o offs /\ inspected f g s k
                /\ group_mark orthodox g (fr_str f) (reach_before f g s) o k t /\ cut_by f u t)).
Proof. exact C51_easter_periods_pf. Qed.
Print Assumptions C51_easter_periods.

Theorem C51_unsuited : forall f s g pre k post how m pi pts, is_frame f -> is_span f s -> check_groupby_freq (fr_str f) g = true ->
  handed f g s pi -> new_marker g (pre ++ k :: post) (HName how) = Ok m ->
  points_of pi (fr_str f) (firstn (List.length pre) (m_at m)) pts -> unsuited how k ->
  partition f (DMarker m) s = Err EType.
Proof. exact C51_unsuited_pf. Qed.
Print Assumptions C51_unsuited.

Theorem C51_function : forall g ats fn, exists m, new_marker g ats (HFun fn) = Ok m /\ m_each m = g
  /\ Forall2 (fun k how => forall pi norm, how pi norm = fn k pi norm) ats (m_at m).
Proof. exact C51_function_pf. Qed.
Print Assumptions C51_function.

Example C51_how_ex : exists m1 m2 m3,
  new_marker (fq AlM) (map KOffset twice_monthly) (HName "from_start_of_each") = Ok m1
  /\ new_marker (fq (AlA None)) [KNth 3 2 2 0; KNth 3 (-1) 1 3] (HName "nth_weekday_of_month") = Ok m2
  /\ new_marker (fq (AlA None)) [KShift (-7) DNone; KOffset (DKw 0 0 0 (-40) 0 0 0)] (HName "from_easter_western") = Ok m3
  /\ partition spring (DMarker m1) (mkSpan 0 49 0 0) = Ok [mkSpan 0 22 5 0; mkSpan 23 38 0 0; mkSpan 39 49 0 4]
  /\ partition spring (DMarker m2) (mkSpan 0 49 0 0) = Ok [mkSpan 0 21 326 0; mkSpan 22 37 0 0; mkSpan 38 49 0 336]
  /\ partition spring (DMarker m3) (mkSpan 0 49 0 0) = Ok [mkSpan 0 14 337 0; mkSpan 15 47 0 0; mkSpan 48 49 0 315]
  /\ new_marker (fq AlM) [] (HName "from_start") = Err EKey.
Proof. do 3 eexists. repeat (split; [reflexivity|]). vm_compute. repeat split. Qed.

(** The first element is fine, the second has a `shift`; with Easter it would stand for nine days and two hours before. *)
Example C51_unsuited_ex : exists m,
  new_marker (fq AlM) [KOffset (DKw 0 0 0 1 0 0 0); KShift (-9) (DKw 0 0 0 4 (-2) 0 0)] (HName "from_start_of_each") = Ok m
  /\ points_of spring_months (fq AlD) (firstn 1 (m_at m)) [[day 2017 1 2; day 2017 2 2; day 2017 3 2; day 2017 4 2; day 2017 5 2]]
  /\ unsuited "from_start_of_each" (KShift (-9) (DKw 0 0 0 4 (-2) 0 0))
  /\ partition spring (DMarker m) (mkSpan 0 49 0 0) = Err EType
  /\ easter_offset (KShift (-9) (DKw 0 0 0 4 (-2) 0 0)) (DKw 0 0 0 (-9) (-2) 0 0).
Proof.
  eexists. split; [reflexivity|]. split; [constructor; [vm_compute; reflexivity|constructor]|].
  split; [constructor; discriminate|]. split; [vm_compute; reflexivity|constructor].
Qed.

(** ** C52 *)
Theorem C52_organizer : forall (L : Type) m ts (st : obj L),
  (forall e, organizer_fault m ts st e -> new_organizer m ts st = Err e)
  /\ ((forall e, ~ organizer_fault m ts st e) -> exists d, divides_by m ts d /\ new_organizer m ts st = Ok (OOrg d st)).
Proof. exact C52_organizer_pf. Qed.
Print Assumptions C52_organizer.

Example C52_organizer_ex :
  new_organizer MOmit (TMany []) (OOther 1) = Err EType /\ organizer_fault MOmit (TMany []) (OOther 1) EType
  /\ new_organizer (MEach (fq (AlW None))) (TOne 0) (@OList Z []) = Err EValue
  /\ new_organizer (MEach (fq (AlW None))) TOmit (OList [OOther 1; OList []]) = Ok (OOrg (DMarker (mkMarker (fq (AlW None)) [])) (OList [OOther 1; OList []]))
  /\ new_organizer MOmit (TOne (day 2017 1 3)) (@ORem Z 0) = Ok (OOrg (DMarks [day 2017 1 3]) (ORem 0)).
Proof.
  split; [reflexivity|]. split; [apply of_marks; [discriminate|intros [[l H]|[k H]]; discriminate H]|]. repeat split.
Qed.

Theorem C52_refused : forall (L : Type) nat (u : setup L) h e, fault u e -> construct nat u h = Err e.
Proof. exact C52_refused_pf. Qed.
Print Assumptions C52_refused.

Theorem C52_keys : forall (L : Type) nat (u : setup L) h l v x, u_amend u = ADict l -> In (v, x) l -> bad_key v ->
  exists e, construct nat u h = Err e.
Proof. exact C52_keys_pf. Qed.
Print Assumptions C52_keys.

Theorem C52_complete : forall (L : Type) (u : setup L), (forall e, ~ fault u e) -> proper (u_layout u) ->
  (forall l v x, u_amend u = ADict l -> In (v, x) l -> exists t, key_means v t) ->
  good_layout (u_layout u) /\ exists a, same_args u a.
Proof. exact C52_complete_pf. Qed.
Print Assumptions C52_complete.

Theorem C52_accepted : forall (L : Type) nat (u : setup L) a h, good_layout (u_layout u) -> same_args u a -> construct nat u h = build a h.
Proof. exact C52_accepted_pf. Qed.
Print Assumptions C52_accepted.

(** Weeks of seven days within 2 Jan to 15 Jan 2017 written as a user would: the end is given as
    a weekly period, the amendments have a time, a period and an integer for keys. *)
Definition week_org : obj Z := OOrg (DMarker (mkMarker (fq (AlW None)) [])) (OList [OList (map OOther [8; 8; 8; 8; 8; 0; 0])]).
Definition the_number (o : obj Z) : option Q := match o with OOther x => Some (inject_Z x) | _ => None end.
Definition at_work (o : obj Z) : bool := match o with OOther x => 0 <? x | _ => false end.
Definition user_args (layout : obj Z) (am : amend_arg (obj Z)) : setup Z :=
  mkSetup (Api.FStr (fq AlD)) (BTime (day 2017 1 2)) (BPer (mkPeriod (mkFreq (BW 6) 1%positive) (pord (BW 6) (day 2017 1 10)))) layout am
          at_work 0 false (OOther 0) WDuration the_number.
Definition user_amends : amend_arg (obj Z) :=
  ADict [(Api.VTime (at_hour 2017 1 4 9), OOther 0); (Api.VPer (mkPeriod (mkFreq BD 1%positive) (date 2017 1 7)), OOther 4); (Api.VInt 0, OOther 1)].
Definition plain_args : tb_args (obj Z) :=
  mkArgs (fq AlD) (day 2017 1 2) (day 2017 1 16 - 1) (LOrg (DMarker (mkMarker (fq (AlW None)) [])) [LPat (PList (map OOther [8; 8; 8; 8; 8; 0; 0]))])
    [(at_hour 2017 1 4 9, OOther 0); (day 2017 1 7, OOther 4); (0, OOther 1)] at_work 0 false (OOther 0) WDuration the_number.
Example C52_accepted_ex : good_layout (u_layout (user_args week_org user_amends)) /\ same_args (user_args week_org user_amends) plain_args
  /\ rmap (fun p => tl_labels (tb_tl (fst p))) (construct (Err EValue) (user_args week_org user_amends) [])
     = Ok (map OOther [8; 8; 0; 8; 8; 4; 0; 8; 8; 8; 8; 8; 0; 0]).
Proof.
  split; [left; eexists; eexists; reflexivity|]. split; [|vm_compute; reflexivity].
  split; [reflexivity|]. split; [constructor|]. split.
  { change (a_end plain_args) with (p_end (mkPeriod (mkFreq (BW 6) 1%positive) (pord (BW 6) (day 2017 1 10)))). apply bm_other. discriminate. }
  split; [repeat constructor|]. split; [|repeat split].
  constructor; [split; [constructor|reflexivity]|]. constructor.
  { split; [|reflexivity]. exact (km_period (mkPeriod (mkFreq BD 1%positive) (date 2017 1 7))). }
  constructor; [split; [constructor|reflexivity]|constructor].
Qed.
Example C52_refused_ex : fault (user_args (OOther 5) AOther) EType /\ fault (user_args week_org AOther) EType
  /\ fault (mkSetup Api.FNone BBad BBad week_org AOmit at_work 0 false (OOther 0) WDuration the_number) EKey
  /\ fault (mkSetup (Api.FStr (fq AlD)) (BTime 0) BBad week_org AOmit at_work 0 false (OOther 0) WDuration the_number) EValue
  /\ construct (Err EValue) (user_args week_org (ADict [(Api.VText, OOther 0)])) [] = Err EValue.
Proof.
  assert (G : good_layout week_org) by (left; eexists; eexists; reflexivity).
  split; [apply f_layout; intros [(d & st & H)|(l & H)]; discriminate H|]. split; [apply f_amend; [exact G|reflexivity]|].
  split; [apply f_no_freq; [exact G|discriminate|discriminate|reflexivity]|].
  split; [apply (f_bounds _ (fq AlD)); [exact G|discriminate|discriminate|reflexivity|right; reflexivity]|vm_compute; reflexivity].
Qed.

Theorem C52_list : forall (L : Type) nat (u : setup L) h tb h' l, u_layout u = OList l -> u_amend u = AOmit -> construct nat u h = Ok (tb, h') ->
  h' = h /\ tb_len tb = fr_len (tl_frame (tb_tl tb))
  /\ forall i, 0 <= i < tb_len tb ->
     (exists x, (match l with [] => x = u_default u | _ => cycled l i = Some x end) /\ tl_get (tb_tl tb) i = Ok x)
     /\ ws_duration (tb_tl tb) i = Ok 1.
Proof. exact C52_list_pf. Qed.
Print Assumptions C52_list.

(** The elements may be lists; in a list of one organizer that organizer becomes the label. *)
Example C52_list_ex :
  rmap (fun p => tl_labels (tb_tl (fst p))) (construct (Err EValue) (user_args (OList [OOther 1; OList [OOther 2]; OOther 3]) AOmit) [])
  = Ok [OOther 1; OList [OOther 2]; OOther 3; OOther 1; OList [OOther 2]; OOther 3; OOther 1;
        OList [OOther 2]; OOther 3; OOther 1; OList [OOther 2]; OOther 3; OOther 1; OList [OOther 2]]
  /\ rmap (fun p => tl_labels (tb_tl (fst p))) (construct (Err EValue) (mkSetup (Api.FStr (fq AlD)) (BTime (day 2017 1 2)) (BTime (day 2017 1 3))
       (OList [week_org]) AOmit at_work 0 false (OOther 0) WDuration the_number) []) = Ok [week_org; week_org].
Proof. vm_compute. split; reflexivity. Qed.

(** The documentation allows any iterable for a layout, and a RememberingPattern is one. *)
Theorem C52_iterable_refuted : exists u h k, iterable (u_layout u) /\ u_layout u = ORem k /\ nth_error h k = Some (new_rpat [OOther 1; OOther 2])
  /\ construct (Err EValue) u h = Err EType.
Proof. exists (user_args (ORem 0) AOmit), [new_rpat [OOther 1; OOther 2]], 0%nat. split; [right; eexists; reflexivity|]. vm_compute. repeat split. Qed.
Print Assumptions C52_iterable_refuted.
