(** Revise: calls of `_Timeline.amend` and `_Timeline.reset` on the timeline of a timeboard that
    is already made, and selectors that raise exceptions. *)
From Verif Require Import Base Civil Freq Frame Timeline Board.

(** `not_in_range` of amend; [NOther] is any other value. *)
Inductive out_arg : Type := NIgnore | NRaise | NOther.

(** core.py:1016, 1052: only 'raise' is compared with. *)
Definition amend_call {L : Type} (tl : timeline L) (n : out_arg) (am : list (Z * L)) : res (timeline L) :=
  amend tl (match n with NRaise => true | NIgnore | NOther => false end) am.

(** /repo/timeboard/core.py:998-1014 reset *)
Definition reset {L : Type} (tl : timeline L) (x : L) : timeline L :=
  mkTl (tl_frame tl) (tl_index tl) (map (fun _ => x) (tl_labels tl)) (tl_band tl) (tl_ref_end tl).

Inductive revision (L : Type) : Type :=
| RAmend (n : out_arg) (am : list (Z * L))
| RReset (x : L).
Arguments RAmend {L} n am.
Arguments RReset {L} x.

(** The timeline is modified in place: the timeboard and its schedules refer to the same one.
    The schedules are not made anew (core.py:1184-1186 is run by their constructor only).  amend
    writes labels after all keys are located (core.py:1062), so an exception changes nothing. *)
Definition revise {L : Type} (tb : timeboard L) (op : revision L) : timeboard L * option err :=
  let put tl := mkTb tl (tb_default tb) (tb_schedules tb) (tb_wt tb) (tb_num tb) in
  match op with
  | RAmend n am =>
      match amend_call (tb_tl tb) n am with
      | Ok tl => (put tl, None)
      | Err e => (tb, Some e)
      end
  | RReset x => (put (reset (tb_tl tb) x), None)
  end.

(** One call after another; the caller catches the exceptions. *)
Definition revise_all {L : Type} (tb : timeboard L) (ops : list (revision L)) : timeboard L :=
  fold_left (fun tb op => fst (revise tb op)) ops tb.

(** core.py:1184 labels.apply(selector): the selector is called for one label after another. *)
Fixpoint apply_selector {L : Type} (sel : L -> res bool) (labels : list L) : res (list bool) :=
  match labels with
  | [] => Ok []
  | x :: rest => do b <- sel x; do bs <- apply_selector sel rest; Ok (b :: bs)
  end.

(** A selector as the rest of the model takes it. *)
Definition no_raise {L : Type} (sel : L -> res bool) (x : L) : bool :=
  match sel x with Ok b => b | Err _ => false end.

(** /repo/timeboard/core.py:1179-1187 _Schedule.__init__ with a selector that may raise *)
Definition mk_schedule_may {L : Type} (tl : timeline L) (name : Z) (sel : L -> res bool) : res (schedule L) :=
  do on <- apply_selector sel (tl_labels tl);
  Ok (mkSched name (no_raise sel) (nonzero on) (nonzero (map negb on)) (zrange 0 (Z.to_nat (tl_len tl)))).

(** core.py:1207-1212 _Schedule.is_on_duty, is_off_duty *)
Definition sched_on_duty_may {L : Type} (tl : timeline L) (sel : L -> res bool) (n : Z) : res bool :=
  do x <- tl_get tl n; sel x.
Definition sched_off_duty_may {L : Type} (tl : timeline L) (sel : L -> res bool) (n : Z) : res bool :=
  rmap negb (sched_on_duty_may tl sel n).

(** /repo/timeboard/timeboard.py:164-213 Timeboard.__init__ with a default_selector that may raise;
    [a_sel a] is not used. *)
Definition build_may {L : Type} (a : tb_args L) (sel : L -> res bool) (h : heap L) : res (timeboard L * heap L) :=
  do org <- top_organizer (a_layout a);
  match a_wt a with
  | WBad => Err EValue
  | _ =>
      do f <- mk_frame (a_freq a) (a_start a) (a_end a);
      do th <- mk_timeline f org (a_ref_end a) (a_default a) h;
      do tl <- amend (fst th) false (a_amendments a);
      do s <- mk_schedule_may tl (a_name a) sel;
      Ok (mkTb tl s [(a_name a, s)] (a_wt a) (a_num a), snd th)
  end.

(** /repo/timeboard/timeboard.py:890-897 add_schedule: the schedule is entered after it is made. *)
Definition add_schedule_may {L : Type} (tb : timeboard L) (name : Z) (sel : L -> res bool)
  : timeboard L * res (schedule L) :=
  match find_schedule tb name with
  | Some _ => (tb, Err EKey)
  | None =>
      match mk_schedule_may (tb_tl tb) name sel with
      | Err e => (tb, Err e)
      | Ok s => (mkTb (tb_tl tb) (tb_default tb) (tb_schedules tb ++ [(name, s)]) (tb_wt tb) (tb_num tb), Ok s)
      end
  end.
