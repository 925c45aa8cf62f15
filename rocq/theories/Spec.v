(** Spec: the vocabulary of the specifications.  Nothing here uses the indexes, searches
    or loops of the model; a workshift is known by its position and by what the
    accessors of the API report for it. *)
From Verif Require Import Base Civil Freq Frame Timeline Board.

(** Timeboards that a program can hold: constructed, then schedules added or dropped. *)
Inductive reachable {L : Type} : timeboard L -> Prop :=
| reach_build a h tb h' : build a h = Ok (tb, h') -> reachable tb
| reach_add tb name sel tb' s : reachable tb -> add_schedule tb name sel = Ok (tb', s) -> reachable tb'
| reach_drop tb s tb' : reachable tb -> drop_schedule tb s = Ok tb' -> reachable tb'.

(** A schedule made for this timeboard (by its constructor or add_schedule). *)
Definition sched_for {L : Type} (tb : timeboard L) (s : schedule L) : Prop :=
  exists name sel, s = mk_schedule (tb_tl tb) name sel.

(** Positions of the workshifts and their start, end and reference times. *)
Definition is_shift {L : Type} (tb : timeboard L) (i : Z) : Prop := 0 <= i < tb_len tb.
Definition starts_at {L : Type} (tb : timeboard L) (i t : Z) : Prop := ws_start_time (tb_tl tb) i = Ok t.
Definition ends_at {L : Type} (tb : timeboard L) (i t : Z) : Prop := ws_end_time (tb_tl tb) i = Ok t.
Definition ref_at {L : Type} (tb : timeboard L) (i t : Z) : Prop := ws_ref_time (tb_tl tb) i = Ok t.

(** The instant [t] is inside workshift [i]. *)
Definition holds_time {L : Type} (tb : timeboard L) (i t : Z) : Prop :=
  is_shift tb i /\ exists s e, starts_at tb i s /\ ends_at tb i e /\ s <= t <= e.

(** Duty of the workshift at a position under a schedule. *)
Definition on_duty {L : Type} (tb : timeboard L) (s : schedule L) (i : Z) : bool :=
  match tl_get (tb_tl tb) i with Ok x => sc_sel s x | Err _ => false end.
Definition has_duty {L : Type} (tb : timeboard L) (s : schedule L) (d : duty) (i : Z) : bool :=
  match d with
  | DOn => on_duty tb s i
  | DOff => negb (on_duty tb s i)
  | DAny => true
  | _ => false
  end.
(** 'same' and 'alt' are relative to the workshift at [i]. *)
Definition resolve_duty {L : Type} (tb : timeboard L) (s : schedule L) (i : Z) (d : duty) : duty :=
  match d with
  | DSame => if on_duty tb s i then DOn else DOff
  | DAlt => if on_duty tb s i then DOff else DOn
  | _ => d
  end.

(** All positions from [a] to [b]; those having the duty; how many they are. *)
Definition positions (a b : Z) : list Z := zrange a (Z.to_nat (b + 1 - a)).
Definition duty_list {L : Type} (tb : timeboard L) (s : schedule L) (d : duty) (a b : Z) : list Z :=
  filter (has_duty tb s d) (positions a b).
Definition duty_count {L : Type} (tb : timeboard L) (s : schedule L) (d : duty) (a b : Z) : Z :=
  zlen (duty_list tb s d a b).

(** Workshifts and intervals of this timeboard. *)
Definition ws_of {L : Type} (tb : timeboard L) (w : workshift L) : Prop :=
  is_shift tb (ws_loc w) /\ sched_for tb (ws_sched w) /\ tl_get (tb_tl tb) (ws_loc w) = Ok (ws_label w).
Definition iv_of {L : Type} (tb : timeboard L) (iv : interval L) : Prop :=
  sched_for tb (iv_sched iv) /\ is_shift tb (iv_a iv) /\ is_shift tb (iv_b iv)
  /\ (if iv_void iv then iv_b iv < iv_a iv else iv_a iv <= iv_b iv).
(** Position [i] belongs to the interval. *)
Definition iv_mem {L : Type} (iv : interval L) (i : Z) : Prop :=
  iv_void iv = false /\ iv_a iv <= i <= iv_b iv.

(** An exception that reports a place outside the timeboard. *)
Definition oob (e : err) : Prop := e = EOutOfBounds \/ e = EPartialOutOfBounds.
