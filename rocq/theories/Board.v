(** Board: /repo/timeboard/timeboard.py, workshift.py, interval.py. *)
From Verif Require Import Base Civil Freq Frame Timeline.
From Coq Require Import QArith.
Open Scope Z_scope.

(** `duty` arguments; [DBad] is any other value. *)
Inductive duty : Type := DOn | DOff | DAny | DSame | DAlt | DBad.

(** `worktime_source` arguments; [WBad] is any other value. *)
Inductive wt_source : Type := WDuration | WLabels | WBad.

(** `closed` arguments; [CBad] is any other value. *)
Inductive closed_arg : Type := C00 | C01 | C10 | C11 | CBad.

(** Arguments of Timeboard(...).  `layout`: [LOrg], [LOrgRem] an Organizer;
    [LPat] an iterable; [LLab] anything else.
    [a_sel] is default_selector (or [bool] when not given); [a_num] tells which labels
    are numbers (for worktime_source='labels'; NaN and None labels are not modelled
    there).  Names are integers standing for strings. *)
Record tb_args (L : Type) : Type := mkArgs {
  a_freq : fstr; a_start : Z; a_end : Z; a_layout : layout L;
  a_amendments : list (Z * L); a_sel : L -> bool; a_name : Z;
  a_ref_end : bool; a_default : L; a_wt : wt_source; a_num : L -> option Q
}.
Arguments mkArgs {L} a_freq a_start a_end a_layout a_amendments a_sel a_name a_ref_end
  a_default a_wt a_num.
Arguments a_freq {L} t.
Arguments a_start {L} t.
Arguments a_end {L} t.
Arguments a_layout {L} t.
Arguments a_amendments {L} t.
Arguments a_sel {L} t.
Arguments a_name {L} t.
Arguments a_ref_end {L} t.
Arguments a_default {L} t.
Arguments a_wt {L} t.
Arguments a_num {L} t.

Record timeboard (L : Type) : Type := mkTb {
  tb_tl : timeline L; tb_default : schedule L; tb_schedules : list (Z * schedule L);
  tb_wt : wt_source; tb_num : L -> option Q
}.
Arguments mkTb {L} tb_tl tb_default tb_schedules tb_wt tb_num.
Arguments tb_tl {L} t.
Arguments tb_default {L} t.
Arguments tb_schedules {L} t.
Arguments tb_wt {L} t.
Arguments tb_num {L} t.

(** timeboard.py:173-186: the organizer made from `layout`.
    `len(layout)` (176) fails on a RememberingPattern, which has no __len__. *)
Definition top_organizer {L : Type} (ly : layout L) : res (layout L) :=
  match ly with
  | LOrg _ _ | LOrgRem _ _ => Ok ly
  | LPat (PList l) => Ok (LOrg (DMarks []) [LPat (PList l)])
  | LPat (PRem _) => Err EType
  | LLab _ => Err EType
  end.

(** /repo/timeboard/timeboard.py:164-213 Timeboard.__init__ (216-226 prepare __repr__), and the default
    selector and the properties of timeboard.py:241-274 *)
Definition build {L : Type} (a : tb_args L) (h : heap L) : res (timeboard L * heap L) :=
  do org <- top_organizer (a_layout a);
  match a_wt a with
  | WBad => Err EValue
  | _ =>
      do f <- mk_frame (a_freq a) (a_start a) (a_end a);
      do th <- mk_timeline f org (a_ref_end a) (a_default a) h;
      do tl <- amend (fst th) false (a_amendments a);
      let s := mk_schedule tl (a_name a) (a_sel a) in
      Ok (mkTb tl s [(a_name a, s)] (a_wt a) (a_num a), snd th)
  end.

(** timeboard.py:241-251 start_time, end_time *)
Definition tb_start_time {L : Type} (tb : timeboard L) : Z := fr_start_time (tl_frame (tb_tl tb)).
Definition tb_end_time {L : Type} (tb : timeboard L) : Z := fr_end_time (tl_frame (tb_tl tb)).
Definition tb_len {L : Type} (tb : timeboard L) : Z := tl_len (tb_tl tb).

(** timeboard.py:14-18 *)
Definition OOB_LEFT : Z := -1.
Definition OOB_RIGHT : Z := 1.
Definition LOC_WITHIN : Z := 0.
Record location : Type := mkLoc { l_pos : option Z; l_where : Z }.

Inductive by_ref : Type := ByNone | ByBefore | ByAfter.

(** timeboard.py:370-422 _locate *)
Definition locate {L : Type} (tb : timeboard L) (t : Z) (how : by_ref) : res location :=
  let r := match how with
           | ByNone => get_ws_position (tb_tl tb) t
           | ByBefore => pos_by_ref_before (tb_tl tb) t
           | ByAfter => pos_by_ref_after (tb_tl tb) t
           end in
  match r with
  | Ok p => if p <? 0 then Err ERuntime else Ok (mkLoc (Some p) LOC_WITHIN)
  | Err EOutOfBounds =>
      if t <? tb_start_time tb then Ok (mkLoc None OOB_LEFT)
      else if tb_end_time tb <? t then Ok (mkLoc None OOB_RIGHT)
      else match how with
           | ByBefore => Ok (mkLoc None OOB_LEFT)
           | ByAfter => Ok (mkLoc None OOB_RIGHT)
           | ByNone => Err ERuntime
           end
  | Err e => Err e
  end.

(** workshift.py:72-90 Workshift *)
Record workshift (L : Type) : Type := mkWs { ws_loc : Z; ws_label : L; ws_sched : schedule L }.
Arguments mkWs {L} ws_loc ws_label ws_sched.
Arguments ws_loc {L} w.
Arguments ws_label {L} w.
Arguments ws_sched {L} w.

(** workshift.py:72-90 Workshift(timeboard, location, schedule); [schedule] resolved *)
Definition new_workshift {L : Type} (tb : timeboard L) (loc : Z) (s : schedule L)
  : res (workshift L) :=
  match tl_get (tb_tl tb) loc with
  | Err EIndex => Err EOutOfBounds
  | Err e => Err e
  | Ok x => Ok (mkWs loc x s)
  end.

(** timeboard.py:437-496 get_workshift *)
Definition get_workshift {L : Type} (tb : timeboard L) (t : Z) (s : option (schedule L))
  : res (workshift L) :=
  let s := opt_or s (tb_default tb) in
  do l <- locate tb t ByNone;
  match l_pos l with
  | None => Err EOutOfBounds
  | Some p => new_workshift tb p s
  end.

(** interval.py:11-63 *)
Record interval (L : Type) : Type := mkIvl {
  iv_a : Z; iv_b : Z; iv_void : bool; iv_sched : schedule L
}.
Arguments mkIvl {L} iv_a iv_b iv_void iv_sched.
Arguments iv_a {L} i.
Arguments iv_b {L} i.
Arguments iv_void {L} i.
Arguments iv_sched {L} i.

Definition in_bounds {L : Type} (tb : timeboard L) (loc : Z) : bool :=
  (0 <=? loc) && (loc <? tb_len tb).

(** interval.py:13-63 _BaseInterval.__init__ with IS_VOID false *)
Definition new_interval {L : Type} (tb : timeboard L) (a b : Z) (s : schedule L)
  : res (interval L) :=
  if negb (in_bounds tb a) then Err EOutOfBounds
  else if negb (in_bounds tb b) then Err EOutOfBounds
  else if b <? a then Err EVoidInterval
  else Ok (mkIvl a b false s).

(** interval.py:13-63 with IS_VOID true (interval.py:1037) *)
Definition new_void_interval {L : Type} (tb : timeboard L) (a b : Z) (s : schedule L)
  : res (interval L) :=
  if negb (in_bounds tb a) then Err EOutOfBounds
  else if negb (in_bounds tb b) then Err EOutOfBounds
  else if a <=? b then Err EVoidInterval
  else Ok (mkIvl a b true s).

(** `length` and `len` (interval.py:51-56, 204-206, 326-327) *)
Definition iv_length {L : Type} (iv : interval L) : Z :=
  if iv_void iv then 0 else iv_b iv - iv_a iv + 1.

(** A pandas.Period. *)
Record period : Type := mkPeriod { p_freq : freq; p_ord : Z }.
Definition p_start (p : period) : Z := pstart (fbase (p_freq p)) (p_ord p).
Definition p_end (p : period) : Z :=
  pstart (fbase (p_freq p)) (p_ord p + Zpos (fmult (p_freq p))) - 1.

(** `interval_ref`: nothing; a pair of Timestamp-like (each may be null); a Period;
    a Timestamp-like. *)
Inductive ivl_ref : Type :=
| RNone
| RPair (a b : option Z)
| RPeriod (p : period)
| RPoint (t : Z).

(** core.py:35-42 get_period(period_ref, freq) *)
Definition get_period (r : ivl_ref) (f : option fstr) : res period :=
  match r, f with
  | RPeriod p, _ => Ok p
  | _, None => Err EType
  | RPoint t, Some s => Ok (mkPeriod (to_freq s) (pord (fbase (to_freq s)) t))
  | _, Some _ => Err EType  (* a null or a tuple in place of a point: not modelled further *)
  end.

(** core.py:29-33 get_timestamp *)
Definition ref_timestamp (r : ivl_ref) : res Z :=
  match r with
  | RPoint t => Ok t
  | RPeriod p => Ok (p_start p)
  | _ => Err EType   (* a null or a tuple in place of a point: not modelled further *)
  end.

(** timeboard.py:860-868 _strip_interval_locs *)
Definition strip_locs (l0 l1 : location) (drop_head drop_tail : bool) : location * location :=
  (mkLoc (match l_pos l0 with
          | Some p => Some (if drop_head then p + 1 else p) | None => None end) (l_where l0),
   mkLoc (match l_pos l1 with
          | Some p => Some (if drop_tail then p - 1 else p) | None => None end) (l_where l1)).

(** timeboard.py:790-798 _locations_in_order *)
Definition locations_in_order (l0 l1 : location) : res bool :=
  if (l_where l0 =? LOC_WITHIN) && (l_where l1 =? LOC_WITHIN) then
    match l_pos l0, l_pos l1 with
    | Some p, Some q => Ok (p <=? q)
    | _, _ => Err EType
    end
  else Ok (l_where l0 <=? l_where l1).

(** timeboard.py:800-816 _get_interval_locs_from_reference; [Err EType] for a
    reference that is neither null nor a pair. *)
Definition locs_from_reference {L : Type} (tb : timeboard L) (r : ivl_ref) (dh dt : bool)
  : res (location * location) :=
  let l0 := mkLoc (Some 0) LOC_WITHIN in
  let l1 := mkLoc (Some (tb_len tb - 1)) LOC_WITHIN in
  match r with
  | RNone => Ok (strip_locs l0 l1 dh dt)
  | RPair a b =>
      do l0 <- (match a with Some t => locate tb t ByNone | None => Ok l0 end);
      do l1 <- (match b with Some t => locate tb t ByNone | None => Ok l1 end);
      Ok (strip_locs l0 l1 dh dt)
  | _ => Err EType
  end.

(** timeboard.py:818-839 _get_interval_locs_by_length *)
Definition locs_by_length {L : Type} (tb : timeboard L) (r : ivl_ref) (len : Z) (dh dt : bool)
  : res (location * location) :=
  if len =? 0 then Err EVoidInterval
  else
  do t <- ref_timestamp r;
  do this <- locate tb t ByNone;
  match l_pos this with
  | None => Ok (this, this)
  | Some p =>
      let other := p + len - Z.sgn len in
      let locs :=
        if other <? 0 then (mkLoc None OOB_LEFT, this)
        else if tb_len tb <=? other then (this, mkLoc None OOB_RIGHT)
        else if other <? p then (mkLoc (Some other) LOC_WITHIN, this)
        else (this, mkLoc (Some other) LOC_WITHIN) in
      Ok (strip_locs (fst locs) (snd locs) dh dt)
  end.

(** timeboard.py:841-858 _get_interval_locs_by_period *)
Definition locs_by_period {L : Type} (tb : timeboard L) (p : period) (clip dh dt : bool)
  : res (location * location) :=
  do l0 <- locate tb (p_start p) ByAfter;
  do l1 <- locate tb (p_end p) ByBefore;
  let left := clip && (l_where l0 =? OOB_LEFT) && negb (l_where l1 =? OOB_LEFT) in
  let right := clip && (l_where l1 =? OOB_RIGHT) && negb (l_where l0 =? OOB_RIGHT) in
  let p0 := if left then Some 0 else l_pos l0 in
  let p1 := if right then Some (tb_len tb - 1) else l_pos l1 in
  Ok (strip_locs (mkLoc p0 (l_where l0)) (mkLoc p1 (l_where l1))
                 (if left then false else dh) (if right then false else dt)).

Definition drop_flags (c : closed_arg) : res (bool * bool) :=
  match c with
  | C00 => Ok (true, true) | C01 => Ok (true, false)
  | C10 => Ok (false, true) | C11 => Ok (false, false)
  | CBad => Err EValue
  end.

(** timeboard.py:764-788: from the two locations to the interval *)
Definition interval_from_locs {L : Type} (tb : timeboard L) (l0 l1 : location) (s : schedule L)
  : res (interval L) :=
  do ordered <- locations_in_order l0 l1;
  if negb ordered then Err EVoidInterval
  else
    match l_pos l0, l_pos l1 with
    | None, None => if l_where l0 =? l_where l1 then Err EOutOfBounds
                    else Err EPartialOutOfBounds
    | None, _ => Err EPartialOutOfBounds
    | _, None => Err EPartialOutOfBounds
    | Some p, Some q => new_interval tb p q s
    end.

(** timeboard.py:498-788 get_interval(interval_ref, length, period, clip_period, closed,
    schedule) *)
Definition get_interval {L : Type} (tb : timeboard L) (r : ivl_ref) (len : option Z)
           (per : option fstr) (clip : bool) (c : closed_arg) (s : option (schedule L))
  : res (interval L) :=
  do fl <- drop_flags c;
  let (dh, dt) := fl in
  let s := opt_or s (tb_default tb) in
  do locs <-
    (match len, per with
     | None, None =>
         match locs_from_reference tb r dh dt with
         | Err EType =>
             match get_period r None with
             | Err _ => Err EType
             | Ok p => locs_by_period tb p clip dh dt
             end
         | x => x
         end
     | Some n, None => locs_by_length tb r n dh dt
     | None, Some f => do p <- get_period r (Some f); locs_by_period tb p clip dh dt
     | Some _, Some _ => Err EType
     end);
  interval_from_locs tb (fst locs) (snd locs) s.

(** The leading elements satisfying [p]. *)
Fixpoint count_while (p : Z -> bool) (l : list Z) : Z :=
  match l with
  | [] => 0
  | x :: l' => if p x then 1 + count_while p l' else 0
  end.

(** interval.py:235-248 _find_my_bounds_in_idx: scan from the left while below loc[0],
    then from the right while above loc[1]. *)
Definition find_my_bounds {L : Type} (iv : interval L) (idx : list Z) : option (Z * Z) :=
  let left := count_while (fun x => x <? iv_a iv) idx in
  if left =? zlen idx then None
  else
    let right := zlen idx - 1
                 - count_while (fun x => iv_b iv <? x) (rev (skipn (Z.to_nat left) idx)) in
    if right <? left then None else Some (left, right).

(** interval.py:250-265 _get_duty_idx *)
Definition get_duty_idx {L : Type} (iv : interval L) (d : duty) (s : schedule L)
  : res (list Z * option (Z * Z)) :=
  match d with
  | DOn => Ok (sc_on s, find_my_bounds iv (sc_on s))
  | DOff => Ok (sc_off s, find_my_bounds iv (sc_off s))
  | DAny => Ok (sc_all s, Some (iv_a iv, iv_b iv))
  | _ => Err EValue
  end.

(** interval.py:267-314 workshifts(duty, schedule), as a list;
    interval.py:1058-1060 for a void one *)
Definition iv_workshifts {L : Type} (tb : timeboard L) (iv : interval L) (d : duty)
           (s : option (schedule L)) : res (list (workshift L)) :=
  if iv_void iv then Ok []
  else
  let s := opt_or s (iv_sched iv) in
  do ib <- get_duty_idx iv d s;
  match snd ib with
  | None => Ok []
  | Some (l, r) => mapM (fun i => new_workshift tb i s) (py_slice (fst ib) l (r + 1))
  end.

(** interval.py:329-392 nth(n, duty, schedule); interval.py:1062-1065
    for a void one (timeboard.py:424-429) *)
Definition iv_nth {L : Type} (tb : timeboard L) (iv : interval L) (n : Z) (d : duty)
           (s : option (schedule L)) : res (workshift L) :=
  if iv_void iv then Err EOutOfBounds
  else
  let s := opt_or s (iv_sched iv) in
  do ib <- get_duty_idx iv d s;
  match snd ib with
  | None => Err EOutOfBounds
  | Some (l, r) =>
      let k := if 0 <=? n then l + n else r + n + 1 in
      if (k <? l) || (r <? k) then Err EOutOfBounds
      else do i <- py_get_res (fst ib) k; new_workshift tb i s
  end.

(** interval.py:394-415, 417-438 *)
Definition iv_first {L : Type} (tb : timeboard L) (iv : interval L) (d : duty)
           (s : option (schedule L)) := iv_nth tb iv 0 d s.
Definition iv_last {L : Type} (tb : timeboard L) (iv : interval L) (d : duty)
           (s : option (schedule L)) := iv_nth tb iv (-1) d s.

(** interval.py:440-474 count(duty, schedule); interval.py:1067-1068 for a void one *)
Definition iv_count {L : Type} (iv : interval L) (d : duty) (s : option (schedule L))
  : res Z :=
  if iv_void iv then Ok 0
  else
  let s := opt_or s (iv_sched iv) in
  do ib <- get_duty_idx iv d s;
  match snd ib with
  | None => Ok 0
  | Some (l, r) => Ok (r - l + 1)
  end.

(** interval.py:476-546 overlap(other, schedule), also `self * other`
    (interval.py:548-551); interval.py:1070-1073 for a void self *)
Definition iv_overlap {L : Type} (tb : timeboard L) (x y : interval L)
           (s : option (schedule L)) : res (interval L) :=
  let s := opt_or s (iv_sched x) in
  if iv_void x then new_void_interval tb (iv_a x) (iv_b x) s
  else
    let a := Z.max (iv_a x) (iv_a y) in
    let b := Z.min (iv_b x) (iv_b y) in
    match new_interval tb a b s with
    | Err EVoidInterval => new_void_interval tb a b s
    | r => r
    end.

(** interval.py:194-202 start_time, end_time of a non-void interval *)
Definition iv_start_time {L : Type} (tb : timeboard L) (iv : interval L) : res Z :=
  ws_start_time (tb_tl tb) (iv_a iv).
Definition iv_end_time {L : Type} (tb : timeboard L) (iv : interval L) : res Z :=
  ws_end_time (tb_tl tb) (iv_b iv).

(** interval.py:194-202, 1050-1056; for a void interval they are NaT ([None]) *)
Definition iv_start {L : Type} (tb : timeboard L) (iv : interval L) : res (option Z) :=
  if iv_void iv then Ok None else rmap Some (iv_start_time tb iv).
Definition iv_end {L : Type} (tb : timeboard L) (iv : interval L) : res (option Z) :=
  if iv_void iv then Ok None else rmap Some (iv_end_time tb iv).

(** Division of two counts. *)
Definition q_div (a b : Z) : res Q :=
  if b =? 0 then Err EZeroDivision else Ok (inject_Z a / inject_Z b)%Q.

(** interval.py:768-818 what_portion_of(other, duty, schedule), also `self / other`
    (interval.py:820-828); interval.py:1078-1079 void self.
    [div] is the division of two counts: [q_div] without rounding, [float_div] of Rounding.v
    as Python does it. *)
Definition what_portion_by {L : Type} (div : Z -> Z -> res Q) (tb : timeboard L) (x y : interval L) (d : duty)
           (s : option (schedule L)) : res Q :=
  if iv_void x then Ok 0%Q
  else
  let s := opt_or s (iv_sched x) in
  do i <- iv_overlap tb x y (Some s);
  do c <- iv_count i d None;
  if c =? 0 then Ok 0%Q
  else
    do n <- iv_count y d (Some s);
    div c n.
Definition what_portion_of {L : Type} (tb : timeboard L) (x y : interval L) (d : duty)
           (s : option (schedule L)) : res Q := what_portion_by q_div tb x y d s.

(** interval.py:648-652 SUPPORTED_PERIODS *)
Definition supported_period (s : fstr) : bool :=
  match fdigits s with
  | Some _ => false
  | None =>
      match falias s with
      | AlS | AlT | AlMin | AlH | AlD | AlM | AlY => true
      | AlW None | AlQ None | AlA None => true
      | _ => false
      end
  end.

(** interval.py:673-689: the interval of one calendar period and its duty count *)
Definition period_entry {L : Type} (tb : timeboard L) (d : duty) (s : schedule L) (p : period)
  : res (option (interval L * Z)) :=
  match get_interval tb (RPeriod p) None None false C11 (Some s) with
  | Ok iv => do c <- iv_count iv d (Some s); Ok (Some (iv, c))
  | Err EOutOfBounds => Ok None
  | Err EVoidInterval => Err EUnacceptablePeriod
  | Err e => Err e
  end.

Definition unwrap_entry {L : Type} (o : option (option (interval L * Z)))
  : res (interval L * Z) :=
  match o with
  | Some (Some e) => Ok e
  | Some None => Err EType   (* None used as an interval or a number *)
  | None => Err EIndex
  end.

(** sum(map(lambda x: x > 0, counts)); None > 0 is a TypeError *)
Fixpoint count_positive {L : Type} (l : list (option (interval L * Z))) : res Z :=
  match l with
  | [] => Ok 0
  | None :: _ => Err EType
  | Some (_, c) :: l' => do r <- count_positive l'; Ok ((if 0 <? c then 1 else 0) + r)
  end.

(** /repo/timeboard/interval.py:554-721 count_periods(freq, duty, schedule);
    interval.py:1075-1076 for a void interval. The unbound second use of an absent period ([period_intervals[k]] is
    None) is an AttributeError/TypeError in Python, [EType] here.
    [div], [add]: the arithmetic, as for [what_portion_by]. *)
Definition count_periods_by {L : Type} (div : Z -> Z -> res Q) (add : Q -> Q -> Q)
           (tb : timeboard L) (iv : interval L) (fs : fstr) (d : duty)
           (s : option (schedule L)) : res Q :=
  if iv_void iv then Ok 0%Q
  else if negb (supported_period fs) then Err EUnacceptablePeriod
  else
  do t0 <- iv_start_time tb iv;
  do t1 <- iv_end_time tb iv;
  do pindex <- mk_frame fs t0 t1;
  let s := opt_or s (iv_sched iv) in
  match (do w0 <- iv_first tb iv d (Some s);
         do w1 <- iv_last tb iv d (Some s);
         do r0 <- ws_ref_time (tb_tl tb) (ws_loc w0);
         do r1 <- ws_ref_time (tb_tl tb) (ws_loc w1);
         Ok (r0, r1)) with
  | Err EOutOfBounds => Ok 0%Q
  | Err e => Err e
  | Ok (r0, r1) =>
      do entries <- mapM (fun i => period_entry tb d s (mkPeriod (to_freq fs) (unit_ord pindex i)))
                         (zrange 0 (Z.to_nat (fr_len pindex)));
      do k0 <- fr_get_loc pindex r0;
      do k1 <- fr_get_loc pindex r1;
      do e0 <- unwrap_entry (znth entries k0);
      do e1 <- unwrap_entry (znth entries k1);
      if r1 <=? unit_end pindex k0 then
        do c <- iv_count iv d (Some s);
        div c (snd e0)
      else
        do te <- iv_end_time tb (fst e0);
        do i0 <- get_interval tb (RPair (Some r0) (Some te)) None None false C11 (Some s);
        do c0 <- iv_count i0 d (Some s);
        do q0 <- div c0 (snd e0);
        do ts <- iv_start_time tb (fst e1);
        do i1 <- get_interval tb (RPair (Some ts) (Some r1)) None None false C11 (Some s);
        do c1 <- iv_count i1 d (Some s);
        do q1 <- div c1 (snd e1);
        do full <- (if 0 <? k1 - k0 - 1
                    then count_positive (py_slice entries (k0 + 1) k1) else Ok 0);
        Ok (add (add q0 q1) (inject_Z full))
  end.
Definition count_periods {L : Type} (tb : timeboard L) (iv : interval L) (fs : fstr) (d : duty)
           (s : option (schedule L)) : res Q := count_periods_by q_div Qplus tb iv fs d s.

(** interval.py:882-933 total_duration; interval.py:1081-1082 void *)
Definition total_duration {L : Type} (tb : timeboard L) (iv : interval L) (d : duty)
           (s : option (schedule L)) : res Z :=
  if iv_void iv then Ok 0
  else
  let s := opt_or s (iv_sched iv) in
  do ib <- get_duty_idx iv d s;
  match snd ib with
  | None => Ok 0
  | Some (l, r) =>
      do ds <- mapM (ws_band_duration (tb_tl tb)) (py_slice (fst ib) l (r + 1));
      Ok (zsum ds)
  end.

Definition qsum (l : list Q) : Q := fold_right Qplus 0%Q l.

(** interval.py:836-880 _sum_labels together with the check of 1001-1007: a label that is
    not a number makes the sum a TypeError. *)
Definition sum_labels {L : Type} (tb : timeboard L) (iv : interval L) (d : duty)
           (s : option (schedule L)) : res Q :=
  let s := opt_or s (iv_sched iv) in
  do ib <- get_duty_idx iv d s;
  match snd ib with
  | None => Ok 0%Q
  | Some (l, r) =>
      do qs <- mapM (fun i => do x <- tl_get (tb_tl tb) i;
                              match tb_num tb x with Some q => Ok q | None => Err EType end)
                    (py_slice (fst ib) l (r + 1));
      Ok (qsum qs)
  end.

(** interval.py:935-1013 worktime; interval.py:1084-1085 void *)
Definition iv_worktime {L : Type} (tb : timeboard L) (iv : interval L) (d : duty)
           (s : option (schedule L)) : res Q :=
  if iv_void iv then Ok 0%Q
  else
  match tb_wt tb with
  | WLabels => sum_labels tb iv d s
  | WDuration => rmap inject_Z (total_duration tb iv d s)
  | WBad => Err ERuntime
  end.

(** workshift.py:156-189 (core.py:1207-1212).  The other attributes of a workshift
    (workshift.py:120-154) are [ws_start_time], [ws_end_time], [ws_duration], [ws_label],
    [ws_sched] and [ws_ref_time]. *)
Definition is_on_duty {L : Type} (tb : timeboard L) (w : workshift L) (s : schedule L) : res bool :=
  rmap (sc_sel s) (tl_get (tb_tl tb) (ws_loc w)).

(** core.py:1211-1212 is_off_duty, workshift.py:172-189 *)
Definition is_off_duty {L : Type} (tb : timeboard L) (w : workshift L) (s : schedule L) : res bool :=
  rmap negb (is_on_duty tb w s).

(** workshift.py:191-204 _get_duty_index *)
Definition get_duty_index {L : Type} (tb : timeboard L) (w : workshift L) (d : duty)
           (s : schedule L) : res (list Z) :=
  do on <- is_on_duty tb w s;
  match d with
  | DOn => Ok (sc_on s)
  | DOff => Ok (sc_off s)
  | DSame => Ok (if on then sc_on s else sc_off s)
  | DAlt => Ok (if on then sc_off s else sc_on s)
  | DAny => Ok (sc_all s)
  | DBad => Err EValue
  end.

(** workshift.py:206-343 rollforward(steps, duty, schedule) *)
Definition rollforward {L : Type} (tb : timeboard L) (w : workshift L) (steps : Z) (d : duty)
           (s : option (schedule L)) : res (workshift L) :=
  let s := opt_or s (ws_sched w) in
  do idx <- get_duty_index tb w d s;
  let i := ss_left idx (ws_loc w) in
  if (i =? zlen idx) || (i + steps <? 0) || (zlen idx <=? i + steps) then Err EOutOfBounds
  else do loc <- py_get_res idx (i + steps); new_workshift tb loc s.

(** workshift.py:345-487 rollback(steps, duty, schedule) *)
Definition rollback {L : Type} (tb : timeboard L) (w : workshift L) (steps : Z) (d : duty)
           (s : option (schedule L)) : res (workshift L) :=
  let s := opt_or s (ws_sched w) in
  do idx <- get_duty_index tb w d s;
  let i := zlen idx - 1 - count_while (fun x => ws_loc w <? x) (rev idx) in
  if (i =? -1) || (i - steps <? 0) || (zlen idx <=? i - steps) then Err EOutOfBounds
  else do loc <- py_get_res idx (i - steps); new_workshift tb loc s.

(** workshift.py:588-602 ws + n, ws - n *)
Definition ws_add {L : Type} (tb : timeboard L) (w : workshift L) (n : Z) := rollforward tb w n DOn None.
Definition ws_sub {L : Type} (tb : timeboard L) (w : workshift L) (n : Z) := rollback tb w n DOn None.

(** workshift.py:489-586 worktime(duty, schedule) *)
Definition ws_worktime {L : Type} (tb : timeboard L) (w : workshift L) (d : duty)
           (s : option (schedule L)) : res Q :=
  let s := opt_or s (ws_sched w) in
  do on <- is_on_duty tb w s;
  do flag <- (match d with DOn => Ok on | DOff => Ok (negb on) | DAny => Ok true
              | _ => Err EValue end);
  if flag then
    match tb_wt tb with
    | WLabels => match tb_num tb (ws_label w) with Some q => Ok q | None => Err EType end
    | WDuration => rmap inject_Z (ws_duration (tb_tl tb) (ws_loc w))
    | WBad => Err ERuntime
    end
  else Ok 0%Q.

(** timeboard.py:870-897 add_schedule, timeboard.py:899-911 drop_schedule *)
Definition find_schedule {L : Type} (tb : timeboard L) (name : Z) : option (schedule L) :=
  match find (fun q => fst q =? name) (tb_schedules tb) with
  | Some q => Some (snd q)
  | None => None
  end.
Definition add_schedule {L : Type} (tb : timeboard L) (name : Z) (sel : L -> bool)
  : res (timeboard L * schedule L) :=
  match find_schedule tb name with
  | Some _ => Err EKey
  | None =>
      let s := mk_schedule (tb_tl tb) name sel in
      Ok (mkTb (tb_tl tb) (tb_default tb) (tb_schedules tb ++ [(name, s)]) (tb_wt tb) (tb_num tb), s)
  end.
Definition drop_schedule {L : Type} (tb : timeboard L) (s : schedule L) : res (timeboard L) :=
  match find_schedule tb (sc_name s) with
  | None => Err EKey
  | Some _ => Ok (mkTb (tb_tl tb) (tb_default tb)
                       (filter (fun q => negb (fst q =? sc_name s)) (tb_schedules tb))
                       (tb_wt tb) (tb_num tb))
  end.

(** timeboard.py:320-368 to_dataframe: the timeline's rows with one boolean column per
    schedule. *)
Definition tb_dataframe {L : Type} (tb : timeboard L) (first last : Z)
  : res (list (df_row L * list (Z * bool))) :=
  do rows <- tl_dataframe (tb_tl tb) first last;
  Ok (map (fun r => (r, map (fun q => (fst q, sc_sel (snd q) (row_label r))) (tb_schedules tb)))
          rows).
(** interval.py:212-233 Interval.to_dataframe; also of a void interval, which inherits it *)
Definition iv_dataframe {L : Type} (tb : timeboard L) (iv : interval L)
  : res (list (df_row L * list (Z * bool))) :=
  tb_dataframe tb (iv_a iv) (iv_b iv).

(** interval.py:316-324: an Interval is its own iterator; the state is the generator
    created by the latest __iter__ (None before any). *)
Definition iter_state (L : Type) : Type := option (list (workshift L)).
Definition iv_iter {L : Type} (tb : timeboard L) (iv : interval L) : res (iter_state L) :=
  rmap Some (iv_workshifts tb iv DAny None).
Definition iv_next {L : Type} (st : iter_state L) : res (workshift L * iter_state L) :=
  match st with
  | None => Err EAttribute
  | Some [] => Err EStopIteration
  | Some (w :: ws) => Ok (w, Some ws)
  end.
