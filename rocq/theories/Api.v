(** Api: the public entry points on arguments of any type, with their type checks.
    Board.v models the same functions on arguments of the documented types. *)
From Verif Require Import Base Freq Frame Timeline Board.

(** What a user may pass where a single object is expected.
    [VNull] None, NaN or NaT; [VTime t] a string, datetime or Timestamp naming the time
    [t]; [VText] a string (of two characters or more) that pandas cannot read as a time;
    [VPer p] a pandas.Period; [VWs b w] a Workshift of the timeboard [b]; [VInt n] an
    int; [VObj] any other object that is neither iterable nor convertible to a
    timestamp, or a float where an int is expected. *)
Inductive value (L : Type) : Type :=
| VNull | VTime (t : Z) | VText | VPer (p : period)
| VWs (b : timeboard L) (w : workshift L) | VInt (n : Z) | VObj.
Arguments VNull {L}.
Arguments VTime {L} t.
Arguments VText {L}.
Arguments VPer {L} p.
Arguments VWs {L} b w.
Arguments VInt {L} n.
Arguments VObj {L}.

(** A single object, a tuple of them, a list of them (tuples of tuples are not modelled). *)
Inductive pyref (L : Type) : Type :=
| PVal (v : value L) | PTuple (l : list (value L)) | PList (l : list (value L)).
Arguments PVal {L} v.
Arguments PTuple {L} l.
Arguments PList {L} l.

(** `period`: omitted, a frequency, or a string pandas does not know. *)
Inductive freq_arg : Type := FNone | FStr (s : fstr) | FBad.

(** `schedule`: omitted, a _Schedule, anything else. *)
Inductive sarg (L : Type) : Type := SNone | SSched (s : schedule L) | SOther.
Arguments SNone {L}.
Arguments SSched {L} s.
Arguments SOther {L}.

(** What numpy and pandas do with NaT as a point in time depends on their versions; the
    outcomes of `_locate(NaT)` and of `_get_interval_locs_by_period(NaT, ...)` are
    parameters, so that every statement holds whatever they are. *)
Record nat_behaviour : Type := mkNat {
  nat_loc : res location; nat_period : res (location * location)
}.

(** /repo/timeboard/core.py:29-33 get_timestamp; [Ok None] is NaT.  pandas.Timestamp(n)
    is n nanoseconds after the epoch; of an unreadable string, ValueError; of a tuple, a
    list or another object, TypeError. *)
Definition get_timestamp {L : Type} (r : pyref L) : res (option Z) :=
  match r with
  | PVal VNull => Ok None
  | PVal (VTime t) => Ok (Some t)
  | PVal VText => Err EValue
  | PVal (VPer p) => Ok (Some (p_start p))
  | PVal (VWs b w) => rmap Some (ws_ref_time (tb_tl b) (ws_loc w))
  | PVal (VInt n) => Ok (Some n)
  | PVal VObj => Err EType
  | PTuple _ => Err EType
  | PList _ => Err EType
  end.

(** timeboard.py:370-422 _locate(point_in_time) *)
Definition locate_any {L : Type} (nat : nat_behaviour) (tb : timeboard L) (r : pyref L)
  : res location :=
  do t <- get_timestamp r;
  match t with
  | Some t => locate tb t ByNone
  | None => nat_loc nat
  end.

(** utils.py:51-52 is_null on one object *)
Definition is_null {L : Type} (v : value L) : bool :=
  match v with VNull => true | _ => false end.

(** utils.py:51-52 is_null.  pandas.isnull of a tuple is False; of a list it is an array,
    which has a truth value only if it has at most one element. *)
Definition is_null_ref {L : Type} (r : pyref L) : res bool :=
  match r with
  | PVal v => Ok (is_null v)
  | PTuple _ => Ok false
  | PList [] => Ok false
  | PList [v] => Ok (is_null v)
  | PList (_ :: _ :: _) => Err EValue
  end.

(** timeboard.py:800-816 _get_interval_locs_from_reference *)
Definition locs_from_any {L : Type} (nat : nat_behaviour) (tb : timeboard L) (r : pyref L)
           (dh dt : bool) : res (location * location) :=
  let l0 := mkLoc (Some 0) LOC_WITHIN in
  let l1 := mkLoc (Some (tb_len tb - 1)) LOC_WITHIN in
  do n <- is_null_ref r;
  if n then Ok (strip_locs l0 l1 dh dt)
  else
    match r with
    | PTuple (x :: y :: _) | PList (x :: y :: _) =>
        do l0 <- (if is_null x then Ok l0 else locate_any nat tb (PVal x));
        do l1 <- (if is_null y then Ok l1 else locate_any nat tb (PVal y));
        Ok (strip_locs l0 l1 dh dt)
    | _ => Err EType
    end.

(** timeboard.py:818-839 _get_interval_locs_by_length *)
Definition locs_by_length_any {L : Type} (nat : nat_behaviour) (tb : timeboard L)
           (r : pyref L) (len : value L) (dh dt : bool) : res (location * location) :=
  match len with
  | VInt n =>
      if n =? 0 then Err EVoidInterval
      else
      do this <- locate_any nat tb r;
      match l_pos this with
      | None => Ok (this, this)
      | Some p =>
          let other := p + n - Z.sgn n in
          let locs :=
            if other <? 0 then (mkLoc None OOB_LEFT, this)
            else if tb_len tb <=? other then (this, mkLoc None OOB_RIGHT)
            else if other <? p then (mkLoc (Some other) LOC_WITHIN, this)
            else (this, mkLoc (Some other) LOC_WITHIN) in
          Ok (strip_locs (fst locs) (snd locs) dh dt)
      end
  | _ => Err EType
  end.

(** core.py:35-42 get_period(period_ref, freq); [Ok None] is NaT *)
Definition get_period_any {L : Type} (r : pyref L) (f : freq_arg) : res (option period) :=
  match r, f with
  | PVal (VPer p), _ => Ok (Some p)
  | _, FNone => Err EType
  | _, FBad => do t <- get_timestamp r; Err EValue
  | _, FStr s =>
      do t <- get_timestamp r;
      match t with
      | Some t => Ok (Some (mkPeriod (to_freq s) (pord (fbase (to_freq s)) t)))
      | None => Ok None
      end
  end.

(** timeboard.py:841-858 _get_interval_locs_by_period *)
Definition locs_by_period_any {L : Type} (nat : nat_behaviour) (tb : timeboard L)
           (r : pyref L) (f : freq_arg) (clip dh dt : bool) : res (location * location) :=
  do p <- get_period_any r f;
  match p with
  | Some p => locs_by_period tb p clip dh dt
  | None => nat_period nat
  end.

(** interval.py:57-63: the schedule is checked after the bounds *)
Definition ivl_sched {L : Type} (tb : timeboard L) (s : sarg L) : res (schedule L) :=
  match s with
  | SNone => Ok (tb_default tb)
  | SSched s => Ok s
  | SOther => Err EType
  end.

(** Arguments of get_interval (timeboard.py:498-499).  [ia_len] is [None] if omitted. *)
Record ivl_args (L : Type) : Type := mkIa {
  ia_ref : pyref L; ia_len : option (value L); ia_per : freq_arg; ia_clip : bool;
  ia_closed : closed_arg; ia_sched : sarg L
}.
Arguments mkIa {L} ia_ref ia_len ia_per ia_clip ia_closed ia_sched.
Arguments ia_ref {L} i.
Arguments ia_len {L} i.
Arguments ia_per {L} i.
Arguments ia_clip {L} i.
Arguments ia_closed {L} i.
Arguments ia_sched {L} i.

(** timeboard.py:764-788 the end of get_interval: order, bounds, Interval(...) *)
Definition interval_from_locs_any {L : Type} (tb : timeboard L) (l0 l1 : location)
           (s : sarg L) : res (interval L) :=
  do iv <- interval_from_locs tb l0 l1 (tb_default tb);
  do s <- ivl_sched tb s;
  Ok (mkIvl (iv_a iv) (iv_b iv) (iv_void iv) s).

(** timeboard.py:498-788 get_interval *)
Definition get_interval_any {L : Type} (nat : nat_behaviour) (tb : timeboard L)
           (a : ivl_args L) : res (interval L) :=
  do fl <- drop_flags (ia_closed a);
  let (dh, dt) := fl in
  let r := ia_ref a in
  do locs <-
    (match ia_len a, ia_per a with
     | None, FNone =>
         match locs_from_any nat tb r dh dt with
         | Err EType =>
             match get_period_any r FNone with
             | Err _ => Err EType
             | Ok p => locs_by_period_any nat tb r FNone (ia_clip a) dh dt
             end
         | x => x
         end
     | Some n, FNone => locs_by_length_any nat tb r n dh dt
     | None, f => locs_by_period_any nat tb r f (ia_clip a) dh dt
     | Some _, _ => Err EType
     end);
  interval_from_locs_any tb (fst locs) (snd locs) (ia_sched a).

(** workshift.py:72-90 Workshift(timeboard, location, schedule).  The location is used as
    a position in the labels (`iloc`): anything but an int is a TypeError. *)
Definition workshift_any {L : Type} (tb : timeboard L) (loc : value L) (s : sarg L)
  : res (workshift L) :=
  do s <- ivl_sched tb s;
  match loc with
  | VInt n => new_workshift tb n s
  | _ => Err EType
  end.

(** timeboard.py:438-496 get_workshift *)
Definition get_workshift_any {L : Type} (nat : nat_behaviour) (tb : timeboard L)
           (r : pyref L) (s : sarg L) : res (workshift L) :=
  do l <- locate_any nat tb r;
  match l_pos l with
  | None => Err EOutOfBounds
  | Some p => workshift_any tb (VInt p) s
  end.

(** What calling a timeboard returns. *)
Inductive found (L : Type) : Type :=
| FoundWs (w : workshift L) | FoundIvl (iv : interval L).
Arguments FoundWs {L} w.
Arguments FoundIvl {L} iv.

(** The arguments of a call: one positional argument and nothing else, or any other
    combination (which must suit get_interval). *)
Inductive call_args (L : Type) : Type :=
| COne (r : pyref L) | CMany (a : ivl_args L).
Arguments COne {L} r.
Arguments CMany {L} a.

(** get_interval(interval_ref), the rest omitted *)
Definition only_ref {L : Type} (r : pyref L) : ivl_args L :=
  mkIa r None FNone true C11 SNone.

(** timeboard.py:276-318 __call__ *)
Definition call {L : Type} (nat : nat_behaviour) (tb : timeboard L) (c : call_args L)
  : res (found L) :=
  match c with
  | COne r =>
      match get_workshift_any nat tb r SNone with
      | Ok w => Ok (FoundWs w)
      | Err EOutOfBounds => Err EOutOfBounds
      | Err _ => rmap FoundIvl (get_interval_any nat tb (only_ref r))
      end
  | CMany a => rmap FoundIvl (get_interval_any nat tb a)
  end.

(** interval.py:13-27 handle_bound; `timeboard` is [None] if it is no timeboard *)
Definition handle_bound {L : Type} (tb : option (timeboard L)) (v : value L) : res Z :=
  do loc <- (match v with
             | VWs _ w => Ok (ws_loc w)
             | VInt n => Ok n
             | _ => Err EType
             end);
  match tb with
  | None => Err EAttribute
  | Some tb => if (0 <=? loc) && (loc <? tb_len tb) then Ok loc else Err EOutOfBounds
  end.

(** interval.py:11-63 Interval(timeboard, bounds, schedule), and _VoidInterval(...) when
    [void] *)
Definition interval_any {L : Type} (void : bool) (tb : option (timeboard L))
           (bounds : pyref L) (s : sarg L) : res (interval L) :=
  match bounds with
  | PVal _ => Err EType
  | PTuple l | PList l =>
      match l with
      | x :: y :: _ =>
          do a <- handle_bound tb x;
          do b <- handle_bound tb y;
          if (if void then a <=? b else b <? a) then Err EVoidInterval
          else
            match tb with
            | None => Err EAttribute
            | Some tb => do s <- ivl_sched tb s; Ok (mkIvl a b void s)
            end
      | _ => Err EIndex
      end
  end.
