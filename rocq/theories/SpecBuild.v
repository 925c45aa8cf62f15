(** Specification of the reasons for which a timeboard cannot be constructed (C53). *)
From Verif Require Import Base Civil Freq Frame Timeline Board Spec SpecLookup SpecLayout SpecWhen SpecMisc.

(** The parts of a layout that come to be used, each with the span it is used on: the layout
    itself; the element [j mod len] of the structure of an organizer in use, on span number [j]
    of those into which the organizer divides its own span. *)
Inductive used {L : Type} (f : frame) : layout L -> span -> layout L -> span -> Prop :=
| used_itself ly s : used f ly s ly s
| used_element d items spans s s' j it ly s'' :
    partition f d s = Ok spans -> nth_error spans j = Some s' ->
    nth_error items (j mod length items)%nat = Some it ->
    used f it s' ly s'' -> used f (LOrg d items) s ly s''.

(** Why a span cannot be divided: the calendar periods of the marker do not group the base
    units; a function of the marker raises an error on the calendar periods around the span, and
    those for the preceding elements of `at` do not. *)
Inductive indivisible (f : frame) : divider -> span -> err -> Prop :=
| ind_frequency m s : check_groupby_freq (fr_str f) (m_each m) = false ->
    indivisible f (DMarker m) s EUnacceptablePeriod
| ind_function m s pre how post pi pts e : check_groupby_freq (fr_str f) (m_each m) = true ->
    m_at m = pre ++ how :: post -> handed f (m_each m) s pi ->
    points_of pi (fr_str f) pre pts -> how pi (fr_str f) = Err e ->
    indivisible f (DMarker m) s e.

(** Why a part of a layout cannot be used on a span: the organizer cannot divide it; for a
    pattern, it is not known how much of it to skip on the left. *)
Inductive unusable {L : Type} (f : frame) : layout L -> span -> err -> Prop :=
| un_organizer d items s e : indivisible f d s e -> unusable f (LOrg d items) s e
| un_remember d k s e : indivisible f d s e -> unusable f (LOrgRem d k) s e
| un_pattern p s : s_left s < 0 -> unusable f (LPat p) s EOutOfBounds.

(** Layouts that divide time by given marks and by calendar periods only. *)
Inductive plain_divider (bu : fstr) : divider -> Prop :=
| plain_marks ms : plain_divider bu (DMarks ms)
| plain_marker g : real_name (falias g) -> may_group bu g -> plain_divider bu (DMarker (mkMarker g [])).
Inductive plain {L : Type} (bu : fstr) : layout L -> Prop :=
| plain_org d items : plain_divider bu d -> (forall it, In it items -> plain bu it) -> plain bu (LOrg d items)
| plain_orgrem d k : plain_divider bu d -> plain bu (LOrgRem d k)
| plain_pattern p : plain bu (LPat p)
| plain_label x : plain bu (LLab x).
