(** Specification of C68: what the place of a base unit in the calendar decides about its label,
    whatever the first and the last base unit of the timeboard. *)
From Verif Require Import Base Civil Freq Frame When Timeline Spec SpecLookup SpecCivil SpecLayout SpecWhen.
Open Scope Z_scope.

(** Every structure on the way down has a single element.  The innermost organizer divides by [d],
    and its element is the pattern or label [leaf]. *)
Inductive straight {L : Type} : layout L -> divider -> layout L -> Prop :=
| straight_here d leaf : match leaf with LPat _ | LLab _ => True | _ => False end -> straight (LOrg d [leaf]) d leaf
| straight_inside d it d' leaf : straight it d' leaf -> straight (LOrg d [it]) d' leaf.

(** The same period of time is base unit [u] of one frame and base unit [v] of the other. *)
Definition same_unit (f1 f2 : frame) (u v : Z) : Prop :=
  fr_str f1 = fr_str f2 /\ 0 <= u < fr_len f1 /\ 0 <= v < fr_len f2 /\ unit_start f1 u = unit_start f2 v.

(** Marks in the calendar periods of [g], all of them: one of the offsets [offs] from the start of a
    period, if it is in the period, moved back to the start of the period of [norm] it falls in. *)
Definition offset_mark (g norm : fstr) (offs : list dateoffset) (t : Z) : Prop :=
  exists o p p' x t', In o offs /\ period_named g p p' /\ offset_means o p x /\ p <= x < p'
    /\ period_named norm t t' /\ t <= x < t'.
(** The n-th weekdays of the months of the periods of [g]. *)
Definition weekday_mark (g : fstr) (ats : list (Z * Z * Z * Z)) (t : Z) : Prop :=
  exists month week wday m p' d, In (month, week, wday, 0) ats
    /\ period_named g (month_start m * 86400000000000) p' /\ month_start (m + (month - 1)) * 86400000000000 < p'
    /\ nth_weekday (m + (month - 1)) (wday - 1) week d /\ t = d * 86400000000000.
(** Easter of any year plus one of the offsets, if still in that year, moved back to the start of its
    unit of [norm]. *)
Definition easter_marks (orthodox : bool) (norm : fstr) (offs : list dateoffset) (t : Z) : Prop :=
  exists o y, In o offs /\ easter_mark orthodox norm o y t.
(** There is a mark of [P] not after the start of the span [s], and not before the period of [g] that
    the marker looks back to. *)
Definition mark_in_reach (f : frame) (g : fstr) (s : span) (P : Z -> Prop) : Prop :=
  exists p p' t, period_named g p p' /\ p <= reach_before f g s < p' /\ P t /\ p <= t <= unit_start f (s_first s).
(** Each period of [g] has a mark in it. *)
Definition marked_each (g : fstr) (P : Z -> Prop) : Prop :=
  forall p p', period_named g p p' -> exists t, P t /\ p <= t < p'.
(** No period of [g] is longer than the one that contains 1 July 2016. *)
Definition longest_2016 (g : fstr) : Prop :=
  forall r r' p p', period_named g r r' -> r <= date 2016 7 1 * 86400000000000 < r' -> period_named g p p' -> p' - p <= r' - r.
