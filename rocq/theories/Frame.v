(** Frame: /repo/timeboard/core.py class _Frame and _Span. *)
From Verif Require Import Base Civil Freq.

(** /repo/timeboard/core.py:158-223 _Frame: a pandas.PeriodIndex given by its frequency
    string, the ordinal of the first base unit and the number of base units. *)
Record frame : Type := mkFrame { fr_str : fstr; fr_o0 : Z; fr_len : Z }.

Definition fr_base (f : frame) : base := fbase (to_freq (fr_str f)).
Definition fr_mult (f : frame) : Z := Zpos (fmult (to_freq (fr_str f))).

(** Ordinal of base unit [i]; its start; its end (pandas: next start minus 1 ns). *)
Definition unit_ord (f : frame) (i : Z) : Z := fr_o0 f + i * fr_mult f.
Definition unit_start (f : frame) (i : Z) : Z := pstart (fr_base f) (unit_ord f i).
Definition unit_end (f : frame) (i : Z) : Z := pstart (fr_base f) (unit_ord f i + fr_mult f) - 1.

(** [len(period_range(start, end, freq))]: ordinals np.arange(o0, o1 + 1, mult). *)
Definition period_count (mult o0 o1 : Z) : Z :=
  if o1 <? o0 then 0 else (o1 - o0) / mult + 1.

(** /repo/timeboard/core.py:198-223 _Frame.__new__(base_unit_freq, start, end).
    The RuntimeError of 213-220 (64-bit timestamp overflow) is not reachable with
    unbounded time. *)
Definition mk_frame (s : fstr) (t0 t1 : Z) : res frame :=
  let b := fbase (to_freq s) in
  let n := period_count (Zpos (fmult (to_freq s))) (pord b t0) (pord b t1) in
  if n =? 0 then Err EVoidInterval else Ok (mkFrame s (pord b t0) n).

(** /repo/timeboard/core.py:225-235 start_time, end_time, start_times *)
Definition fr_start_time (f : frame) : Z := unit_start f 0.
Definition fr_end_time (f : frame) : Z := unit_end f (fr_len f - 1).
Definition fr_start_times (f : frame) : list Z :=
  map (unit_start f) (zrange 0 (Z.to_nat (fr_len f))).

(** [frame[i]] with Python indexing: the position of the base unit, or IndexError. *)
Definition fr_get (f : frame) (i : Z) : res Z :=
  if (0 <=? i) && (i <? fr_len f) then Ok i
  else if (i <? 0) && (0 <=? i + fr_len f) then Ok (i + fr_len f)
  else Err EIndex.

(** /repo/timeboard/core.py:237-245 get_loc(timestamp) (not_in_range=None) *)
Definition fr_get_loc (f : frame) (t : Z) : res Z :=
  if (fr_end_time f <? t) || (t <? fr_start_time f) then Err EKey
  else Ok (ss_right (fr_start_times f) t - 1).

(** /repo/timeboard/core.py:247-261 get_loc_vectorized(timestamps, span_first, span_last) *)
Definition get_loc_vectorized (f : frame) (ts : list Z) (span_first span_last : Z) : list Z :=
  let start_times := fr_start_times f
                     ++ [unit_start f (fr_len f - 1) + SMALLEST_TIMEDELTA] in
  let arr := map (fun t => ss_right start_times t - 1) ts in
  filter (fun a => (span_first <? a) && (a <=? span_last)) arr.

(** /repo/timeboard/core.py:550-577 _Span *)
Record span : Type := mkSpan { s_first : Z; s_last : Z; s_left : Z; s_right : Z }.

(** /repo/timeboard/core.py:263-281 check_span *)
Definition check_span (f : frame) (s : span) : res unit :=
  match fr_get f (s_first s), fr_get f (s_last s) with
  | Ok _, Ok _ =>
      if (s_first s <? 0) || (s_last s <? 0) then Err EOutOfBounds
      else if s_last s <? s_first s then Err EVoidInterval
      else Ok tt
  | _, _ => Err EOutOfBounds
  end.

(** Pairs of neighbours: (p0, p1 - 1), (p1, p2 - 1), ..., (pk, last). *)
Fixpoint subspan_bounds (first : Z) (splits : list Z) (last : Z) : list (Z * Z) :=
  match splits with
  | [] => [(first, last)]
  | p :: ps => (first, p - 1) :: subspan_bounds p ps last
  end.

(** /repo/timeboard/core.py:283-335 _locate_subspans.  start_positions = first :: splits,
    end_positions = (splits - 1) ++ [last], zipped: written as [subspan_bounds]. *)
Definition locate_subspans (f : frame) (s : span) (points : list Z) : res (list (Z * Z)) :=
  do _ <- check_span f s;
  let splits := zdedup (zsort (get_loc_vectorized f points (s_first s) (s_last s))) in
  Ok (subspan_bounds (s_first s) splits (s_last s)).

(** /repo/timeboard/core.py:337-363 _create_subspans.  The list is never empty. *)
Definition create_subspans (f : frame) (s : span) (points : list Z) : res (list span) :=
  do b <- locate_subspans f s points;
  Ok (map (fun p => mkSpan (fst p) (snd p) 0 0) b).

(** /repo/timeboard/core.py:1626-1640 Marker.  Each element of [m_at] is
    [fun stencil normalize_by => how(stencil, normalize_by=..., **kwargs)] for one
    element [kwargs] of `at`; the functions of when.py are in When.v and a user may give
    any other function.  An absent `at` is the empty list. *)
Record marker : Type := mkMarker {
  m_each : fstr;
  m_at : list (frame -> fstr -> res (list Z))
}.

Definition set_left (v : Z) (spans : list span) : list span :=
  match spans with
  | [] => []
  | s :: rest => mkSpan (s_first s) (s_last s) v (s_right s) :: rest
  end.
Fixpoint set_right (v : Z) (spans : list span) : list span :=
  match spans with
  | [] => []
  | [s] => [mkSpan (s_first s) (s_last s) (s_left s) v]
  | s :: rest => s :: set_right v rest
  end.

(** [len(period_range(freq, start, end).difference(frame[a:b]))] where the slice of the
    frame is given by the positions [a .. a+n-1].  core.py:474-478, 486-490 *)
Definition dangle_len (f : frame) (t0 t1 : Z) (a : Z) (n : Z) : Z :=
  let o0 := pord (fr_base f) t0 in
  let k := period_count (fr_mult f) o0 (pord (fr_base f) t1) in
  let dangle := map (fun i => o0 + i * fr_mult f) (zrange 0 (Z.to_nat k)) in
  let slice := map (unit_ord f) (zrange a (Z.to_nat n)) in
  zlen (filter (fun o => negb (existsb (Z.eqb o) slice)) dangle).

(** core.py:469-481: skipped_units_before *)
Definition skipped_before (f : frame) (s : span) (undefined : bool) (bound : Z) : Z :=
  let t0 := unit_start f (s_first s) in
  if undefined then -1
  else if bound <? t0 then dangle_len f bound t0 (s_first s) (fr_len f - s_first s)
  else 0.

(** core.py:483-494: skipped_units_after *)
Definition skipped_after (f : frame) (s : span) (undefined : bool) (bound : Z) : Z :=
  if undefined then -1
  else if unit_end f (s_last s) <? bound
       then dangle_len f (unit_start f (s_last s)) bound 0 (s_last s + 1)
       else 0.

(** core.py:496-500 *)
Definition finish_partition (f : frame) (s : span) (points : list Z)
           (lu : bool) (lb : Z) (ru : bool) (rb : Z) : res (list span) :=
  do spans <- create_subspans f s points;
  Ok (set_right (skipped_after f s ru rb) (set_left (skipped_before f s lu lb) spans)).

(** /repo/timeboard/core.py:365-513 partition_with_marker *)
Definition partition_with_marker (f : frame) (s : span) (m : marker) : res (list span) :=
  if negb (check_groupby_freq (fr_str f) (m_each m)) then Err EUnacceptablePeriod
  else
  do _ <- check_span f s;
  let t0 := unit_start f (s_first s) in
  let t1 := unit_end f (s_last s) in
  match m_at m with
  | [] =>
      do stencil <- mk_frame (m_each m) t0 t1;
      finish_partition f s (fr_start_times stencil)
        false (fr_start_time stencil) false (fr_end_time stencil)
  | _ :: _ =>
      let d := get_freq_delta (to_freq (m_each m)) in
      do stencil <- mk_frame (m_each m) (t0 - d) (t1 + d);
      do pts <- mapM (fun how => how stencil (fr_str f)) (m_at m);
      let at_points := zsort (concat pts) in
      let lo := Z.max 0 (ss_right at_points t0 - 1) in
      let hi := Z.min (zlen at_points) (ss_left at_points t1 + 1) in
      match py_slice at_points lo hi with
      | [] => Ok [mkSpan (s_first s) (s_last s) (-1) (-1)]
      | p :: ps =>
          let first := p in
          let last := last (p :: ps) p in
          finish_partition f s (p :: ps)
            (t0 <? first) (Z.min first t0)
            (last <? t1) (Z.max t1 (last - SMALLEST_TIMEDELTA))
      end
  end.

(** /repo/timeboard/core.py:515-547 partition_at_marks *)
Definition partition_at_marks (f : frame) (s : span) (marks : list Z) : res (list span) :=
  create_subspans f s marks.
