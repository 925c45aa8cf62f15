(** Specification of C74: the same timeboard at another time. *)
From Verif Require Import Base Civil Freq Frame When Timeline Board.
Open Scope Z_scope.

Definition later (T t : Z) : Z := t + T.
(** [T] later the calendar has the same periods. *)
Definition repeats (T : Z) (fs : fstr) : Prop :=
  exists c, forall o, pstart (fbase (to_freq fs)) (o + c) = later T (pstart (fbase (to_freq fs)) o).
(** The same number of periods, each of them [T] later. *)
Definition later_frame (T : Z) (f f' : frame) : Prop :=
  fr_str f' = fr_str f /\ fr_len f' = fr_len f /\ forall i, unit_start f' i = later T (unit_start f i).
(** A function that gives points [T] later for periods [T] later. *)
Definition steady_how (T : Z) (how : frame -> fstr -> res (list Z)) : Prop :=
  forall f f' norm, repeats T norm -> later_frame T f f' -> how f' norm = rmap (map (later T)) (how f norm).
Definition steady_marker (T : Z) (m : marker) : Prop := repeats T (m_each m) /\ forall how, In how (m_at m) -> steady_how T how.
Inductive steady {L : Type} (T : Z) : layout L -> Prop :=
| steady_marker_org m items : steady_marker T m -> (forall it, In it items -> steady T it) -> steady T (LOrg (DMarker m) items)
| steady_marks_org ms items : (forall it, In it items -> steady T it) -> steady T (LOrg (DMarks ms) items)
| steady_marker_rem m k : steady_marker T m -> steady T (LOrgRem (DMarker m) k)
| steady_marks_rem ms k : steady T (LOrgRem (DMarks ms) k)
| steady_pattern p : steady T (LPat p)
| steady_label x : steady T (LLab x).

(** The marks of the layout [T] later; the rest as it is. *)
Definition later_divider (T : Z) (d : divider) : divider := match d with DMarks ms => DMarks (map (later T) ms) | DMarker m => DMarker m end.
Fixpoint later_layout {L : Type} (T : Z) (ly : layout L) : layout L :=
  match ly with
  | LOrg d items => LOrg (later_divider T d) (map (later_layout T) items)
  | LOrgRem d k => LOrgRem (later_divider T d) k
  | ly => ly
  end.
Definition later_args {L : Type} (T : Z) (a : tb_args L) : tb_args L :=
  mkArgs (a_freq a) (later T (a_start a)) (later T (a_end a)) (later_layout T (a_layout a))
    (map (fun q => (later T (fst q), snd q)) (a_amendments a)) (a_sel a) (a_name a) (a_ref_end a) (a_default a) (a_wt a) (a_num a).

(** References to intervals and rows of dataframes. *)
Inductive later_ref (T : Z) : ivl_ref -> ivl_ref -> Prop :=
| later_none : later_ref T RNone RNone
| later_pair a b : later_ref T (RPair a b) (RPair (option_map (later T) a) (option_map (later T) b))
| later_point t : later_ref T (RPoint t) (RPoint (later T t))
| later_period p p' : p_start p' = later T (p_start p) -> p_end p' = later T (p_end p) -> later_ref T (RPeriod p) (RPeriod p').
Definition later_row {L : Type} (T : Z) (r : df_row L) : df_row L :=
  mkRow (row_loc r) (later T (row_ref r)) (later T (row_start r)) (row_duration r) (later T (row_end r)) (row_label r).

(** What the timeboards answer: the same, [T] later. *)
Record same_later {L : Type} (T : Z) (tb tb' : timeboard L) : Prop := mkSameLater {
  sl_start : tb_start_time tb' = later T (tb_start_time tb);
  sl_end : tb_end_time tb' = later T (tb_end_time tb);
  sl_len : tb_len tb' = tb_len tb;
  sl_default : tb_default tb' = tb_default tb;
  sl_schedules : tb_schedules tb' = tb_schedules tb;
  sl_ws_label n : tl_get (tb_tl tb') n = tl_get (tb_tl tb) n;
  sl_ws_start n : ws_start_time (tb_tl tb') n = rmap (later T) (ws_start_time (tb_tl tb) n);
  sl_ws_end n : ws_end_time (tb_tl tb') n = rmap (later T) (ws_end_time (tb_tl tb) n);
  sl_ws_ref n : ws_ref_time (tb_tl tb') n = rmap (later T) (ws_ref_time (tb_tl tb) n);
  sl_ws_duration n : ws_duration (tb_tl tb') n = ws_duration (tb_tl tb) n;
  sl_ws_worktime w d s : ws_worktime tb' w d s = ws_worktime tb w d s;
  sl_rollforward w n d s : rollforward tb' w n d s = rollforward tb w n d s;
  sl_rollback w n d s : rollback tb' w n d s = rollback tb w n d s;
  sl_get_workshift t s : get_workshift tb' (later T t) s = get_workshift tb t s;
  sl_get_interval r r' len per clip c s : later_ref T r r' -> (forall fs, per = Some fs -> repeats T fs) ->
    get_interval tb' r' len per clip c s = get_interval tb r len per clip c s;
  sl_workshifts iv d s : iv_workshifts tb' iv d s = iv_workshifts tb iv d s;
  sl_nth iv n d s : iv_nth tb' iv n d s = iv_nth tb iv n d s;
  sl_worktime iv d s : iv_worktime tb' iv d s = iv_worktime tb iv d s;
  sl_overlap x y s : iv_overlap tb' x y s = iv_overlap tb x y s;
  sl_count_periods iv fs d s : repeats T fs -> count_periods tb' iv fs d s = count_periods tb iv fs d s;
  sl_dataframe a b : tb_dataframe tb' a b = rmap (map (fun q => (later_row T (fst q), snd q))) (tb_dataframe tb a b)
}.

(** 400 years. *)
Definition era : Z := 146097 * NS_DAY.
(** After this time the periods of the calendar come as before. *)
Definition cycle_of (b : base) : Z :=
  match b with
  | BN => 1 | BU => NS_MICRO | BL => NS_MILLI | BS => NS_SEC | BT => NS_MIN | BH => NS_HOUR | BD => NS_DAY | BW _ => 7 * NS_DAY
  | BM | BQ _ | BA _ => era
  end.
(** An offset of so many hours, days, ...; an offset that does not set the year. *)
Definition of_time (o : dateoffset) : Prop := match o with DNone => True | DKw y m _ _ _ _ _ => y = 0 /\ m = 0 | DSet _ _ _ _ _ _ _ _ => False end.
Definition any_year (o : dateoffset) : Prop := match o with DSet a _ _ _ _ _ _ _ => ab_year a = None | _ => True end.
