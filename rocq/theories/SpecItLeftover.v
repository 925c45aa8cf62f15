(** Specification of what attempts to make timeboards take from iterators of labels (C79). *)
From Verif Require Import Base Civil Freq Frame Timeline Board Spec SpecLookup SpecLayout SpecRemember Iterate SpecIterate ItLeftover.

(** The uses of iterators by a layout on a span, in order, until the exception [e] is raised: a span
    cannot be divided, or a pattern meets a span for which it is not known how much to skip on the left. *)
Inductive asked_until {L : Type} (f : frame) : layout L -> span -> list (nat * ask) -> err -> Prop :=
| auntil_divide d items s e : partition f d s = Err e -> asked_until f (LOrg d items) s [] e
| auntil_divide_it d k s e : partition f d s = Err e -> asked_until f (LOrgRem d k) s [] e
| auntil_pattern p s : s_left s < 0 -> asked_until f (LPat p) s [] EOutOfBounds
| auntil_inside d items s spans l e : items <> [] -> partition f d s = Ok spans ->
    asked_spans_until f items 0 spans l e -> asked_until f (LOrg d items) s l e
with asked_spans_until {L : Type} (f : frame) : list (layout L) -> nat -> list span -> list (nat * ask) -> err -> Prop :=
| auntil_here items j s rest it l e :
    nth_error items (j mod length items)%nat = Some it -> asked_until f it s l e ->
    asked_spans_until f items j (s :: rest) l e
| auntil_later items j s rest it l l' e :
    nth_error items (j mod length items)%nat = Some it -> asked f it s l ->
    asked_spans_until f items (S j) rest l' e -> asked_spans_until f items j (s :: rest) (l ++ l') e.

(** What an attempt to make a timeboard asks of the iterators, be it successful or not: nothing, if
    it ends before the timeline is made. *)
Inductive asked_by {L : Type} (a : tb_args L) : list (nat * ask) -> Prop :=
| by_nothing : (forall org f, top_organizer (a_layout a) = Ok org -> a_wt a <> WBad ->
                  mk_frame (a_freq a) (a_start a) (a_end a) = Ok f -> False) -> asked_by a []
| by_all org f asks : top_organizer (a_layout a) = Ok org -> a_wt a <> WBad ->
    mk_frame (a_freq a) (a_start a) (a_end a) = Ok f -> asked f org (whole_span f) asks -> asked_by a asks
| by_some org f asks e : top_organizer (a_layout a) = Ok org -> a_wt a <> WBad ->
    mk_frame (a_freq a) (a_start a) (a_end a) = Ok f -> asked_until f org (whole_span f) asks e -> asked_by a asks.

(** The iterators after attempts one after another. *)
Definition after_it {L : Type} (l : list (tb_args L)) (fd : feeds L) : feeds L :=
  fold_left (fun fd a => leftover_it a fd) l fd.
