(** Specification of C80: layouts that divide the workshifts of another layout further. *)
From Verif Require Import Base Civil Freq Frame Timeline Board Spec SpecLookup SpecLayout.
Open Scope Z_scope.

(** Workshift [j] of [tb2] takes place within workshift [i] of [tb1]. *)
Definition part_of {L : Type} (tb1 tb2 : timeboard L) (i j : Z) : Prop :=
  is_shift tb1 i /\ is_shift tb2 j /\ forall t, holds_time tb2 j t -> holds_time tb1 i t.
(** Every workshift of [tb2] takes place within one workshift of [tb1]. *)
Definition finer {L : Type} (tb1 tb2 : timeboard L) : Prop := forall j, is_shift tb2 j -> exists i, part_of tb1 tb2 i j.

(** Where [d] starts a span, [d'] does so too. *)
Definition cuts_too (f : frame) (d d' : divider) : Prop :=
  forall s spans spans', is_span f s -> partition f d s = Ok spans -> partition f d' s = Ok spans' ->
  forall u, starts_span spans u -> starts_span spans' u.

(** An organizer that makes every span one workshift. *)
Inductive compound {L : Type} (h : heap L) : divider -> layout L -> Prop :=
| cp_labels d x labels : compound h d (LOrg d (map LLab (x :: labels)))
| cp_remember d k : rlabels h k <> [] -> compound h d (LOrgRem d k).
(** An organizer that divides by [d]. *)
Inductive divides {L : Type} : divider -> layout L -> Prop :=
| dv_org d items : divides d (LOrg d items)
| dv_remember d k : divides d (LOrgRem d k).

(** The second layout comes from the first by changes that divide further: something else in place of
    a label, a pattern or an organizer without structure in place of anything, and more cuts of an
    organizer that makes every span one workshift; at any depth. *)
Inductive splits_into {L : Type} (f : frame) (h : heap L) : layout L -> layout L -> Prop :=
| sp_same l : splits_into f h l l
| sp_label x l : splits_into f h (LLab x) l
| sp_pattern l p : splits_into f h l (LPat p)
| sp_empty l d : splits_into f h l (LOrg d [])
| sp_divide l l' d d' : compound h d l -> divides d' l' -> cuts_too f d d' -> splits_into f h l l'
| sp_inside d items items' : length items = length items' ->
    (forall j it it', nth_error items j = Some it -> nth_error items' j = Some it' -> splits_into f h it it') ->
    splits_into f h (LOrg d items) (LOrg d items').
