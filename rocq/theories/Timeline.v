(** Timeline: /repo/timeboard/core.py classes _Timeline, Organizer, RememberingPattern,
    _Schedule.  [L] is the type of workshift labels. *)
From Verif Require Import Base Civil Freq Frame.

(** /repo/timeboard/core.py:1215-1385 Organizer: `marker` or `marks` (exactly one, checked
    at 1344-1346 and enforced here by the type). *)
Inductive divider : Type :=
| DMarker (m : marker)
| DMarks (marks : list Z).

(** A pattern: an iterable of labels; [PRem k] is the RememberingPattern number [k] of
    the heap (the same object may occur many times). *)
Inductive pattern (L : Type) : Type :=
| PList (l : list L)
| PRem (k : nat).
Arguments PList {L} l.
Arguments PRem {L} k.

(** An element of an organizer's structure: another organizer, a pattern, or a label.
    [LOrgRem]: an organizer whose structure is itself a RememberingPattern; its elements
    are taken as labels (simplification: not organizers or patterns). *)
Inductive layout (L : Type) : Type :=
| LOrg (d : divider) (structure : list (layout L))
| LOrgRem (d : divider) (k : nat)
| LPat (p : pattern L)
| LLab (x : L).
Arguments LOrg {L} d structure.
Arguments LOrgRem {L} d k.
Arguments LPat {L} p.
Arguments LLab {L} x.

(** /repo/timeboard/core.py:1661-1717 RememberingPattern: its labels and what is left of
    the current pass of itertools.cycle. *)
Definition rpat (L : Type) : Type := (list L * list L)%type.
Definition heap (L : Type) : Type := list (rpat L).

(** A fresh RememberingPattern(labels). core.py:1690-1692 *)
Definition new_rpat {L : Type} (l : list L) : rpat L := (l, l).

(** Missing heap cells behave as a RememberingPattern([]). *)
Definition heap_get {L : Type} (h : heap L) (k : nat) : rpat L := nth k h ([], []).
Definition heap_set {L : Type} (h : heap L) (k : nat) (r : rpat L) : heap L := set_nth h k r.

(** What __organize mutates: _ws_labels, _ws_compound_mask and the remembering patterns. *)
Record org_state (L : Type) : Type := mkSt {
  st_labels : list L; st_mask : list bool; st_heap : heap L
}.
Arguments mkSt {L} st_labels st_mask st_heap.
Arguments st_labels {L} o.
Arguments st_mask {L} o.
Arguments st_heap {L} o.

Definition span_len (s : span) : nat := Z.to_nat (s_last s + 1 - s_first s).

(** core.py:51-85 _skiperator and 692-702: skip, then take as many labels as the span has
    base units. Returns the labels and the new state of the cycle. *)
Definition skip_take {L : Type} (l cur : list L) (skip n : nat) : list L * list L :=
  let (t, r) := cyc_take l cur (skip + n) in (skipn skip t, r).

(** /repo/timeboard/core.py:662-702 __apply_pattern.  An empty pattern raises
    StopIteration inside, which leaves the labels as they are (701-702). *)
Definition apply_pattern {L : Type} (p : pattern L) (s : span) (st : org_state L)
  : res (org_state L) :=
  if s_left s <? 0 then Err EOutOfBounds
  else
    let skip := Z.to_nat (s_left s) in
    let n := span_len s in
    match p with
    | PList [] => Ok st
    | PList l =>
        Ok (mkSt (splice (st_labels st) (s_first s) (fst (skip_take l l skip n)))
                 (st_mask st) (st_heap st))
    | PRem k =>
        match heap_get (st_heap st) k with
        | ([], _) => Ok st
        | (l, cur) =>
            let (t, r) := skip_take l cur skip n in
            Ok (mkSt (splice (st_labels st) (s_first s) t) (st_mask st)
                     (heap_set (st_heap st) k (l, r)))
        end
    end.

(** core.py:739-745: a compound workshift from the span. *)
Definition apply_label {L : Type} (x : L) (s : span) (st : org_state L)
  : res (org_state L) :=
  Ok (mkSt (set_nth (st_labels st) (Z.to_nat (s_first s)) x)
           (splice (st_mask st) (s_first s + 1)
                   (repeat false (Z.to_nat (s_last s - s_first s))))
           (st_heap st)).

(** core.py:726-730 *)
Definition partition (f : frame) (d : divider) (s : span) : res (list span) :=
  match d with
  | DMarker m => partition_with_marker f s m
  | DMarks ms => partition_at_marks f s ms
  end.

(** core.py:732,739: for span, layout in zip(span_seq, cycle(structure)) where every
    element of the structure has been turned into its action on a span. *)
Fixpoint run_cycle {S : Type} (all cur : list (span -> S -> res S)) (spans : list span)
         (st : S) : res S :=
  match spans with
  | [] => Ok st
  | s :: rest =>
      match cur with
      | act :: cur' => do st' <- act s st; run_cycle all cur' rest st'
      | [] => match all with
              | [] => Ok st
              | act :: all' => do st' <- act s st; run_cycle all all' rest st'
              end
      end
  end.

(** The same loop over a RememberingPattern of labels. *)
Fixpoint run_remembering {L : Type} (k : nat) (spans : list span) (st : org_state L)
  : res (org_state L) :=
  match spans with
  | [] => Ok st
  | s :: rest =>
      match heap_get (st_heap st) k with
      | ([], _) => Ok st
      | (l, cur) =>
          match cyc_take l cur 1 with
          | (x :: _, r) =>
              do st' <- apply_label x s
                          (mkSt (st_labels st) (st_mask st) (heap_set (st_heap st) k (l, r)));
              run_remembering k rest st'
          | ([], _) => Ok st
          end
      end
  end.

(** /repo/timeboard/core.py:704-758 __organize (for LOrg/LOrgRem) and the branches of
    its loop (for LPat and LLab). *)
Fixpoint organize {L : Type} (f : frame) (ly : layout L) (s : span) (st : org_state L)
  : res (org_state L) :=
  match ly with
  | LOrg d structure =>
      do spans <- partition f d s;
      run_cycle (map (organize f) structure) (map (organize f) structure) spans st
  | LOrgRem d k =>
      do spans <- partition f d s;
      run_remembering k spans st
  | LPat p => apply_pattern p s st
  | LLab x => apply_label x s st
  end.

(** core.py:625-630 _masked_counter *)
Fixpoint masked_counter (i n : Z) (mask : list bool) : list Z :=
  match mask with
  | [] => []
  | m :: mask' => let n' := if m then i else n in n' :: masked_counter (i + 1) n' mask'
  end.

(** The timeline: `_wsband` (index and labels), `_frameband`, `_workshift_ref`.
    Anything but 'end' acts as 'start' (core.py:841-845), hence a boolean. *)
Record timeline (L : Type) : Type := mkTl {
  tl_frame : frame; tl_index : list Z; tl_labels : list L; tl_band : list Z;
  tl_ref_end : bool
}.
Arguments mkTl {L} tl_frame tl_index tl_labels tl_band tl_ref_end.
Arguments tl_frame {L} t.
Arguments tl_index {L} t.
Arguments tl_labels {L} t.
Arguments tl_band {L} t.
Arguments tl_ref_end {L} t.

(** [a[idx]] for an integer array index with valid non-negative positions. *)
Definition take_at {A : Type} (l : list A) (idx : list Z) : list A :=
  flat_map (fun i => match znth l i with Some x => [x] | None => [] end) idx.

(** /repo/timeboard/core.py:616-660 _Timeline.__init__ with an organizer. Returns the
    timeline and the remembering patterns as they are left. *)
Definition mk_timeline {L : Type} (f : frame) (org : layout L) (ref_end : bool) (dflt : L)
           (h : heap L) : res (timeline L * heap L) :=
  let n := Z.to_nat (fr_len f) in
  let st0 := mkSt (repeat dflt n) (repeat true n) h in
  do st <- organize f org (mkSpan 0 (fr_len f - 1) 0 0) st0;
  let idx := nonzero (st_mask st) in
  Ok (mkTl f idx (take_at (st_labels st) idx) (masked_counter 0 0 (st_mask st)) ref_end,
      st_heap st).

(** core.py:778-782 __len__, __getitem__ *)
Definition tl_len {L : Type} (tl : timeline L) : Z := zlen (tl_index tl).
Definition tl_get {L : Type} (tl : timeline L) (n : Z) : res L := py_get_res (tl_labels tl) n.

(** core.py:784-785 *)
Definition ws_first_baseunit {L : Type} (tl : timeline L) (n : Z) : res Z :=
  py_get_res (tl_index tl) n.

(** core.py:787-798 *)
Definition ws_last_baseunit {L : Type} (tl : timeline L) (n : Z) : res Z :=
  do _ <- tl_get tl n;
  match py_get (tl_index tl) (n + 1) with
  | Some i => Ok (i - 1)
  | None => Ok (zlen (tl_band tl) - 1)
  end.

(** core.py:800-812 *)
Definition ws_start_time {L : Type} (tl : timeline L) (n : Z) : res Z :=
  do u <- ws_first_baseunit tl n;
  do i <- fr_get (tl_frame tl) u;
  Ok (unit_start (tl_frame tl) i).

(** core.py:814-826 *)
Definition ws_end_time {L : Type} (tl : timeline L) (n : Z) : res Z :=
  do u <- ws_last_baseunit tl n;
  do i <- fr_get (tl_frame tl) u;
  Ok (unit_end (tl_frame tl) i).

(** core.py:828-845 *)
Definition ws_ref_time {L : Type} (tl : timeline L) (n : Z) : res Z :=
  if tl_ref_end tl then ws_end_time tl n else ws_start_time tl n.

(** core.py:847-860 *)
Definition ws_duration {L : Type} (tl : timeline L) (n : Z) : res Z :=
  do l <- ws_last_baseunit tl n;
  do f <- ws_first_baseunit tl n;
  Ok (l - f + 1).

(** core.py:862-891 get_durations_for_ws_array, one element: the number of base units
    whose frameband entry equals the workshift's first base unit, by two searches. *)
Definition ws_band_duration {L : Type} (tl : timeline L) (n : Z) : res Z :=
  do u <- ws_first_baseunit tl n;
  Ok (ss_right (tl_band tl) u - ss_left (tl_band tl) u).

(** core.py:893-916 get_ws_position *)
Definition get_ws_position {L : Type} (tl : timeline L) (t : Z) : res Z :=
  match fr_get_loc (tl_frame tl) t with
  | Err EKey => Err EOutOfBounds
  | Err e => Err e
  | Ok u =>
      do i <- py_get_res (tl_band tl) u;
      match find_pos (tl_index tl) i with
      | Some p => Ok p
      | None => Err EKey
      end
  end.

(** The loops of core.py:943-953 and 980-992; [fuel] bounds the iterations and is proved
    sufficient ([EFuel] is never returned). *)
Fixpoint ref_after_loop {L : Type} (fuel : nat) (tl : timeline L) (t c : Z) : res Z :=
  match fuel with
  | O => Err EFuel
  | S fuel' =>
      match ws_ref_time tl c with
      | Err EIndex => Err EOutOfBounds
      | Err e => Err e
      | Ok r => if t <=? r then Ok c else ref_after_loop fuel' tl t (c + 1)
      end
  end.
Fixpoint ref_before_loop {L : Type} (fuel : nat) (tl : timeline L) (t c : Z) : res Z :=
  match fuel with
  | O => Err EFuel
  | S fuel' =>
      match ws_ref_time tl c with
      | Err EIndex => Err EOutOfBounds
      | Err e => Err e
      | Ok r => if r <=? t then Ok c
                else if c <=? 0 then Err EOutOfBounds
                else ref_before_loop fuel' tl t (c - 1)
      end
  end.

(** core.py:918-953 get_ws_pos_by_ref_after *)
Definition pos_by_ref_after {L : Type} (tl : timeline L) (t : Z) : res Z :=
  do c <- get_ws_position tl t;
  ref_after_loop (S (length (tl_index tl))) tl t c.

(** core.py:955-992 get_ws_pos_by_ref_before *)
Definition pos_by_ref_before {L : Type} (tl : timeline L) (t : Z) : res Z :=
  do c <- get_ws_position tl t;
  ref_before_loop (S (length (tl_index tl))) tl t c.

(** core.py:1047-1060: locate the amendments; [raise]: not_in_range='raise'. *)
Fixpoint locate_amendments {L : Type} (tl : timeline L) (raise : bool)
         (am : list (Z * L)) (acc : list (Z * L)) : res (list (Z * L)) :=
  match am with
  | [] => Ok acc
  | (t, x) :: am' =>
      match get_ws_position tl t with
      | Err EOutOfBounds =>
          if raise then Err EOutOfBounds else locate_amendments tl raise am' acc
      | Err e => Err e
      | Ok p =>
          if existsb (fun q => fst q =? p) acc then Err EKey
          else locate_amendments tl raise am' (acc ++ [(p, x)])
      end
  end.

(** core.py:1062-1063: iloc[keys] = values, 0 <= keys < len. *)
Definition write_labels {L : Type} (labels : list L) (am : list (Z * L)) : list L :=
  fold_left (fun ls q => set_nth ls (Z.to_nat (fst q)) (snd q)) am labels.

(** /repo/timeboard/core.py:1016-1063 amend *)
Definition amend {L : Type} (tl : timeline L) (raise : bool) (am : list (Z * L))
  : res (timeline L) :=
  do located <- locate_amendments tl raise am [];
  Ok (mkTl (tl_frame tl) (tl_index tl) (write_labels (tl_labels tl) located)
           (tl_band tl) (tl_ref_end tl)).

(** A row of the dataframe view. *)
Record df_row (L : Type) : Type := mkRow {
  row_loc : Z; row_ref : Z; row_start : Z; row_duration : Z; row_end : Z; row_label : L
}.
Arguments mkRow {L} row_loc row_ref row_start row_duration row_end row_label.
Arguments row_loc {L} d.
Arguments row_ref {L} d.
Arguments row_start {L} d.
Arguments row_duration {L} d.
Arguments row_end {L} d.
Arguments row_label {L} d.

Fixpoint df_rows {L : Type} (f : frame) (ref_end : bool) (loc : Z) (bounds : list Z)
         (labels : list L) : list (df_row L) :=
  match bounds, labels with
  | b0 :: ((b1 :: _) as rest), x :: labels' =>
      mkRow loc (if ref_end then unit_end f (b1 - 1) else unit_start f b0)
            (unit_start f b0) (b1 - b0) (unit_end f (b1 - 1)) x
      :: df_rows f ref_end (loc + 1) rest labels'
  | _, _ => []
  end.

(** core.py:1065-1125 to_dataframe(first_ws, last_ws) *)
Definition tl_dataframe {L : Type} (tl : timeline L) (first last : Z)
  : res (list (df_row L)) :=
  let n := tl_len tl in
  if negb ((0 <=? first) && (first <? n) && (0 <=? last) && (last <? n)) then Err EAssertion
  else
    let bounds := if last =? n - 1
                  then skipn (Z.to_nat first) (tl_index tl) ++ [fr_len (tl_frame tl)]
                  else py_slice (tl_index tl) first (last + 2) in
    Ok (df_rows (tl_frame tl) (tl_ref_end tl) first bounds
                (py_slice (tl_labels tl) first (last + 1))).

(** /repo/timeboard/core.py:1128-1212 _Schedule *)
Record schedule (L : Type) : Type := mkSched {
  sc_name : Z; sc_sel : L -> bool; sc_on : list Z; sc_off : list Z; sc_all : list Z
}.
Arguments mkSched {L} sc_name sc_sel sc_on sc_off sc_all.
Arguments sc_name {L} s.
Arguments sc_sel {L} s.
Arguments sc_on {L} s.
Arguments sc_off {L} s.
Arguments sc_all {L} s.

(** core.py:1179-1187 and 1201-1202 (index = np.arange(len(timeline))).  Names are
    integers standing for strings. *)
Definition mk_schedule {L : Type} (tl : timeline L) (name : Z) (sel : L -> bool) : schedule L :=
  let on := map sel (tl_labels tl) in
  mkSched name sel (nonzero on) (nonzero (map negb on)) (zrange 0 (Z.to_nat (tl_len tl))).
