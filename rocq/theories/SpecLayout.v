(** Specification of layouts (C05-C13). *)
From Verif Require Import Base Civil Freq Frame Timeline Board Spec SpecLookup SpecCivil.

(** The instant [t] falls within base unit [u]. *)
Definition in_unit (f : frame) (u t : Z) : Prop := unit_start f u <= t <= unit_end f u.
(** A frame as the constructor makes it. *)
Definition is_frame (f : frame) : Prop := exists t0 t1, mk_frame (fr_str f) t0 t1 = Ok f.
(** A span of the frame. *)
Definition is_span (f : frame) (s : span) : Prop := 0 <= s_first s /\ s_first s <= s_last s /\ s_last s < fr_len f.

(** The spans are non-empty, follow one another without gaps, and cover [a] to [b]. *)
Definition tiling (a b : Z) (l : list span) : Prop :=
  (exists s, hd_error l = Some s /\ s_first s = a)
  /\ (exists s, hd_error (rev l) = Some s /\ s_last s = b)
  /\ (forall s, In s l -> s_first s <= s_last s)
  /\ forall j s s', nth_error l j = Some s -> nth_error l (S j) = Some s' -> s_first s' = s_last s + 1.
(** One of the spans starts at unit [u]. *)
Definition starts_span (l : list span) (u : Z) : Prop := exists s, In s l /\ s_first s = u.

(** Calendar periods of the frequency string [g]; a multiplied frequency groups whole
    periods, beginning with the one that contains [t0].  Group number [k] starts at [p]. *)
Definition group_start (g : fstr) (t0 k p : Z) : Prop :=
  exists o, in_cal_unit (fbase (to_freq g)) o t0
    /\ p = pstart (fbase (to_freq g)) (o + k * Zpos (fmult (to_freq g))).
Definition in_group (g : fstr) (t0 k t : Z) : Prop :=
  exists p p', group_start g t0 k p /\ group_start g t0 (k + 1) p' /\ p <= t < p'.

(** Which marks make [u] the first base unit of a span: those in the unit; but for the last base unit
    of the frame those in the second from its start on, be the unit longer or shorter. *)
Definition cut_by (f : frame) (u t : Z) : Prop :=
  unit_start f u <= t /\ (u < fr_len f - 1 -> t <= unit_end f u) /\ (u = fr_len f - 1 -> t < unit_start f u + NS_SEC).
(** No base unit is shorter than a second. *)
Definition long_units (f : frame) : Prop := forall u, unit_start f u + NS_SEC <= unit_start f (u + 1).

(** Every period of [b] begins where a period of [a] begins. *)
Definition begins_with (a b : base) : Prop := forall o, exists k, pstart a k = pstart b o.
(** Names of frequencies that are compared at all: the spellings 'min', 'ms', 'us', 'ns' and 'Y'
    and strings of several parts are not known, months, quarters and years are not divided into
    months, quarters and years respectively, and weeks into weeks only if the names are the same. *)
Definition known (a : alias) : Prop :=
  match a with AlMin | AlMs | AlUs | AlNs | AlY | AlMore _ _ => False | _ => True end.
Definition comparable (a b : alias) : Prop :=
  known a /\ known b
  /\ match a, b with
     | AlM, AlM | AlQ _, AlQ _ | AlA _, AlA _ => False
     | AlW x, AlW y => x = y
     | _, _ => True
     end.
(** Names with existing weekdays and months. *)
Definition real_name (a : alias) : Prop :=
  match a with
  | AlW (Some d) => 0 <= d <= 6
  | AlQ (Some m) | AlA (Some m) => 1 <= m <= 12
  | _ => True
  end.
(** Base units of frequency [bu] may be grouped by [gb]: without numbers; multiples of one name;
    single units grouped by a multiple of another name.  Of a string of several parts only the first
    is looked at. *)
Definition first_part (a : alias) : alias := match a with AlMore k _ => tick_alias k | a => a end.
Definition lower_case (a : alias) : Prop := match a with AlMin | AlMs | AlUs | AlNs => True | _ => False end.
Definition may_group (bu gb : fstr) : Prop :=
  let a := first_part (falias bu) in let b := first_part (falias gb) in
  (one_part bu /\ one_part gb /\ fdigits bu = None /\ fdigits gb = None /\ comparable a b /\ begins_with (alias_base a) (alias_base b))
  \/ (~ (times bu = 1 /\ times gb = 1) /\ a = b /\ ~ lower_case a /\ (times bu | times gb))
  \/ (times bu = 1 /\ times gb <> 1 /\ a <> b /\ comparable a b /\ begins_with (alias_base a) (alias_base b)).

(** Units of frequency [bu] are accepted for groups of frequency [gb], both strings of one part. *)
Definition accepts (bu gb : fstr) : Prop := one_part bu /\ one_part gb /\ check_groupby_freq bu gb = true.

(** Every group, counted from base unit [a], begins with a base unit. *)
Definition fits (g : fstr) (f : frame) (a : Z) : Prop := forall k, exists v, group_start g (unit_start f a) k (unit_start f v).

(** All periods of this name last [d] nanoseconds. *)
Definition lasts (s : fstr) (d : Z) : Prop := forall t t', period_named s t t' -> t' - t = d.

(** Base unit [u] overlaps two groups. *)
Definition splits (g : fstr) (t0 : Z) (f : frame) (u : Z) : Prop :=
  exists t t' k k', in_unit f u t /\ in_unit f u t' /\ in_group g t0 k t /\ in_group g t0 k' t' /\ k <> k'.

(** The part of a layout that decides about base unit [u], and the span it was given:
    in span number [j] of an organizer the element [j mod len] of its structure. *)
Inductive decides {L : Type} (f : frame) (u : Z) : layout L -> span -> layout L -> span -> Prop :=
| dec_pattern p s : decides f u (LPat p) s (LPat p) s
| dec_label x s : decides f u (LLab x) s (LLab x) s
| dec_nothing d s : decides f u (LOrg d []) s (LOrg d []) s
| dec_remember d k spans s s' j :
    partition f d s = Ok spans -> nth_error spans j = Some s' -> s_first s' <= u <= s_last s' ->
    decides f u (LOrgRem d k) s (LOrgRem d k) s'
| dec_org d items spans s s' j it leaf s'' :
    partition f d s = Ok spans -> nth_error spans j = Some s' -> s_first s' <= u <= s_last s' ->
    nth_error items (j mod length items)%nat = Some it ->
    decides f u it s' leaf s'' -> decides f u (LOrg d items) s leaf s''.

(** The innermost organizer above the pattern or label [leaf] that decides about unit [u]: what it
    divides by, and the span that it divides. *)
Inductive governs {L : Type} (f : frame) (u : Z) : layout L -> span -> divider -> span -> layout L -> Prop :=
| gov_here d items spans s s' j leaf :
    partition f d s = Ok spans -> nth_error spans j = Some s' -> s_first s' <= u <= s_last s' ->
    nth_error items (j mod length items)%nat = Some leaf -> match leaf with LPat _ | LLab _ => True | _ => False end ->
    governs f u (LOrg d items) s d s leaf
| gov_inside d items spans s s' j it d' s'' leaf :
    partition f d s = Ok spans -> nth_error spans j = Some s' -> s_first s' <= u <= s_last s' ->
    nth_error items (j mod length items)%nat = Some it ->
    governs f u it s' d' s'' leaf -> governs f u (LOrg d items) s d' s'' leaf.

(** Unit [u] is in a workshift that takes the units [a] to [b] and has the label [x]. *)
Definition shift_of {L : Type} (tl : timeline L) (u a b : Z) (x : L) : Prop :=
  exists i, 0 <= i < tl_len tl /\ ws_first_baseunit tl i = Ok a /\ ws_last_baseunit tl i = Ok b
    /\ a <= u <= b /\ tl_get tl i = Ok x.

(** Element [k] of the endless repetition of a list. *)
Definition cycled {A : Type} (l : list A) (k : Z) : option A := nth_error l (Z.to_nat (k mod Z.of_nat (length l))).

(** The labels of RememberingPattern number [k]. *)
Definition rlabels {L : Type} (h : heap L) (k : nat) : list L := fst (heap_get h k).

(** What the deciding part of the layout, given the span [s], makes of unit [u]: a label makes
    the span one workshift, a pattern leaves every unit a workshift of its own and labels it.
    (The labels out of a RememberingPattern are the subject of C12.) *)
Definition leaf_does {L : Type} (tl : timeline L) (h : heap L) (dflt : L) (leaf : layout L) (s : span) (u : Z) : Prop :=
  match leaf with
  | LLab x => shift_of tl u (s_first s) (s_last s) x
  | LPat (PList []) => shift_of tl u u u dflt
  | LPat (PList l) => exists x, cycled l (s_left s + (u - s_first s)) = Some x /\ shift_of tl u u u x
  | LPat (PRem k) => exists x, shift_of tl u u u x /\ (rlabels h k = [] -> x = dflt)
  | LOrgRem _ k => exists x, if rlabels h k then shift_of tl u u u dflt else shift_of tl u (s_first s) (s_last s) x
  | LOrg _ [] => shift_of tl u u u dflt
  | LOrg _ _ => False
  end.
Definition whole_span (f : frame) : span := mkSpan 0 (fr_len f - 1) 0 0.
