(** Specification of what failed constructions take from remembering patterns (C12). *)
From Verif Require Import Base Civil Freq Frame Timeline Board Spec SpecLookup SpecLayout SpecRemember Leftover.

(** The uses of remembering patterns by a layout on a span, in order, until the exception [e]
    is raised: a span cannot be divided, or a pattern meets a span for which it is not known how
    much to skip on the left. *)
Inductive used_until {L : Type} (f : frame) : layout L -> span -> list (nat * use) -> err -> Prop :=
| until_divide d items s e : partition f d s = Err e -> used_until f (LOrg d items) s [] e
| until_divide_rem d k s e : partition f d s = Err e -> used_until f (LOrgRem d k) s [] e
| until_pattern p s : s_left s < 0 -> used_until f (LPat p) s [] EOutOfBounds
| until_inside d items s spans l e : items <> [] -> partition f d s = Ok spans ->
    used_spans_until f items 0 spans l e -> used_until f (LOrg d items) s l e
with used_spans_until {L : Type} (f : frame) : list (layout L) -> nat -> list span -> list (nat * use) -> err -> Prop :=
| until_here items j s rest it l e :
    nth_error items (j mod length items)%nat = Some it -> used_until f it s l e ->
    used_spans_until f items j (s :: rest) l e
| until_later items j s rest it l l' e :
    nth_error items (j mod length items)%nat = Some it -> used f it s l ->
    used_spans_until f items (S j) rest l' e -> used_spans_until f items j (s :: rest) (l ++ l') e.

(** What an attempt to make a timeboard takes from the patterns, be it successful or not:
    nothing, if it ends before the timeline is made. *)
Inductive spent {L : Type} (a : tb_args L) : list (nat * use) -> Prop :=
| spent_nothing : (forall org f, top_organizer (a_layout a) = Ok org -> a_wt a <> WBad ->
                     mk_frame (a_freq a) (a_start a) (a_end a) = Ok f -> False) -> spent a []
| spent_all org f uses : top_organizer (a_layout a) = Ok org -> a_wt a <> WBad ->
    mk_frame (a_freq a) (a_start a) (a_end a) = Ok f -> used f org (whole_span f) uses -> spent a uses
| spent_some org f uses e : top_organizer (a_layout a) = Ok org -> a_wt a <> WBad ->
    mk_frame (a_freq a) (a_start a) (a_end a) = Ok f -> used_until f org (whole_span f) uses e -> spent a uses.

(** The patterns after attempts one after another. *)
Definition after {L : Type} (l : list (tb_args L)) (h : heap L) : heap L :=
  fold_left (fun h a => leftover a h) l h.
