(** Specification of interval construction (C20-C24) and of counting periods (C29, C30). *)
From Verif Require Import Base Civil Freq Frame Timeline Board Spec SpecRoll SpecLookup SpecQuery.
From Coq Require Import QArith.
Open Scope Z_scope.

(** A reference to the instant [t]: the instant itself, or a calendar period starting at [t]. *)
Definition refers_to (r : ivl_ref) (t : Z) : Prop :=
  r = RPoint t \/ exists p, r = RPeriod p /\ t = p_start p.
(** An instant outside the timeboard. *)
Definition t_outside {L : Type} (tb : timeboard L) (t : Z) : Prop := t < tb_start_time tb \/ tb_end_time tb < t.

(** Position [i] is denoted by a bound of a pair: by a point inside it, or, by null, as the
    corresponding end [dflt] of the timeboard. *)
Definition bound_pos {L : Type} (tb : timeboard L) (dflt : Z) (o : option Z) (i : Z) : Prop :=
  match o with None => i = dflt | Some t => holds_time tb i t end.

(** On which side of the timeboard a bound is: before, inside, after. *)
Inductive side : Type := Before | Inside | After.
Definition bound_side {L : Type} (tb : timeboard L) (o : option Z) (x : side) : Prop :=
  match x, o with
  | Before, Some t => t < tb_start_time tb
  | After, Some t => tb_end_time tb < t
  | Inside, Some t => tb_start_time tb <= t <= tb_end_time tb
  | Inside, None => True
  | _, None => False
  end.

(** The calendar period meant by the arguments of get_interval. *)
Inductive means_period : ivl_ref -> option fstr -> period -> Prop :=
| mp_period p per : means_period (RPeriod p) per p
| mp_point t f p : p_freq p = to_freq f -> in_cal_unit (fbase (to_freq f)) (p_ord p) t ->
    means_period (RPoint t) (Some f) p.

(** The workshift at [i] is in the period: its reference time is. *)
Definition in_period {L : Type} (tb : timeboard L) (p : period) (i : Z) : Prop :=
  is_shift tb i /\ exists r, ref_at tb i r /\ p_start p <= r <= p_end p.

(** The period lies in the span of the timeboard. *)
Definition inside {L : Type} (tb : timeboard L) (p : period) : Prop :=
  tb_start_time tb <= p_start p /\ p_end p <= tb_end_time tb.

(** Ends of the interval that were clipped. *)
Definition clipped_left {L : Type} (tb : timeboard L) (r : ivl_ref) (len : option Z) (per : option fstr) (clip : bool) : Prop :=
  clip = true /\ len = None /\ exists p, means_period r per p /\ p_start p < tb_start_time tb.
Definition clipped_right {L : Type} (tb : timeboard L) (r : ivl_ref) (len : option Z) (per : option fstr) (clip : bool) : Prop :=
  clip = true /\ len = None /\ exists p, means_period r per p /\ tb_end_time tb < p_end p.

(** Which ends a value of `closed` leaves out. *)
Definition open_left (c : closed_arg) : Prop := c = C00 \/ c = C01.
Definition open_right (c : closed_arg) : Prop := c = C00 \/ c = C10.
Definition closed_ok (c : closed_arg) : Prop := c = C00 \/ c = C01 \/ c = C10 \/ c = C11.

(** [a'] is [a], or the next position if the left end is to be left out. *)
Definition strip_left {L : Type} (tb : timeboard L) r len per clip (c : closed_arg) (a a' : Z) : Prop :=
  (open_left c /\ ~ clipped_left tb r len per clip /\ a' = a + 1)
  \/ (~ (open_left c /\ ~ clipped_left tb r len per clip) /\ a' = a).
Definition strip_right {L : Type} (tb : timeboard L) r len per clip (c : closed_arg) (b b' : Z) : Prop :=
  (open_right c /\ ~ clipped_right tb r len per clip /\ b' = b - 1)
  \/ (~ (open_right c /\ ~ clipped_right tb r len per clip) /\ b' = b).

(** The frequencies in which periods can be counted. *)
Definition countable (fs : fstr) : Prop :=
  fdigits fs = None
  /\ In (falias fs) [AlS; AlT; AlMin; AlH; AlD; AlW None; AlM; AlQ None; AlA None; AlY].
(** The reference time of position [i] is in the calendar period number [o]. *)
Definition ref_in {L : Type} (tb : timeboard L) (b : base) (o i : Z) : bool :=
  match ws_ref_time (tb_tl tb) i with
  | Ok r => (pstart b o <=? r) && (r <? pstart b (o + 1))
  | Err _ => false
  end.
(** The quotient for one period; 0/0 counts as 0. *)
Definition quotient {L : Type} (tb : timeboard L) (iv : interval L) (b : base) (d : duty) (s : schedule L) (o : Z) : Q :=
  let part := zlen (filter (ref_in tb b o) (iv_list tb iv d s)) in
  let whole := zlen (filter (ref_in tb b o) (duty_list tb s d 0 (tb_len tb - 1))) in
  if whole =? 0 then 0%Q else (inject_Z part / inject_Z whole)%Q.

(** The calendar period number [o], of a frequency without multiplier, leaves the timeboard. *)
Definition leaves {L : Type} (tb : timeboard L) (b : base) (o : Z) : Prop :=
  pstart b o < tb_start_time tb \/ tb_end_time tb < pstart b (o + 1) - 1.
(** What is wrong with the calendar period number [o], for a count: it has workshifts, and the
    timeboard does not cover all of it; or the timeboard covers it, and it has no workshift. *)
Inductive wrong {L : Type} (tb : timeboard L) (fs : fstr) (o : Z) : err -> Prop :=
| wrong_part i : leaves tb (fbase (to_freq fs)) o -> in_period tb (mkPeriod (to_freq fs) o) i ->
    wrong tb fs o EPartialOutOfBounds
| wrong_empty : ~ leaves tb (fbase (to_freq fs)) o -> (forall i, ~ in_period tb (mkPeriod (to_freq fs) o) i) ->
    wrong tb fs o EUnacceptablePeriod.
(** The interval [iv] touches the periods [o0] to [o1]. *)
Definition touches {L : Type} (tb : timeboard L) (iv : interval L) (b : base) (o0 o1 : Z) : Prop :=
  exists t0 t1, starts_at tb (iv_a iv) t0 /\ ends_at tb (iv_b iv) t1 /\ in_cal_unit b o0 t0 /\ in_cal_unit b o1 t1.
