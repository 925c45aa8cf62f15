(** Specification of iterators as marks (C67). *)
From Verif Require Import Base Civil Freq Frame Timeline Board Spec SpecLookup SpecLayout SpecRemember Iterate SpecIterate IterMarks.

(** A layout without iterators. *)
Fixpoint plainly {L : Type} (ly : layout L) : mlayout L :=
  match ly with
  | LOrg d items => MOrg (MDiv d) (map plainly items)
  | LOrgRem d k => MOrgRem (MDiv d) k
  | LPat p => MPat p
  | LLab x => MLab x
  end.

(** The iterators in [used] have been read before.  The first use of an iterator divides by all its marks,
    every other one by none. *)
Inductive divides_by (mf : mfeeds) : list nat -> mdivider -> divider -> list nat -> Prop :=
| by_itself used d : divides_by mf used (MDiv d) d used
| by_first used k : ~ In k used -> divides_by mf used (MIter k) (DMarks (still mf k)) (k :: used)
| by_again used k : In k used -> divides_by mf used (MIter k) (DMarks []) used.

(** The layout with lists of marks that a layout with iterators amounts to on a span, and the iterators
    that have been read afterwards.  The elements of a structure are used one by one for the spans. *)
Inductive amounts {L : Type} (f : frame) (mf : mfeeds) : list nat -> mlayout L -> span -> layout L -> list nat -> Prop :=
| am_label used x s : amounts f mf used (MLab x) s (LLab x) used
| am_pattern used p s : amounts f mf used (MPat p) s (LPat p) used
| am_rem used d k s d' used' : divides_by mf used d d' used' -> amounts f mf used (MOrgRem d k) s (LOrgRem d' k) used'
| am_nothing used d s d' used' : divides_by mf used d d' used' -> amounts f mf used (MOrg d []) s (LOrg d' []) used'
| am_org used d items s d' used1 spans its used' : items <> [] -> divides_by mf used d d' used1 ->
    partition f d' s = Ok spans -> amounts_each f mf used1 items 0 spans its used' ->
    amounts f mf used (MOrg d items) s (LOrg d' its) used'
with amounts_each {L : Type} (f : frame) (mf : mfeeds)
  : list nat -> list (mlayout L) -> nat -> list span -> list (layout L) -> list nat -> Prop :=
| am_end used items j : amounts_each f mf used items j [] [] used
| am_span used items j s rest it it' used1 its used' :
    nth_error items (j mod length items)%nat = Some it -> amounts f mf used it s it' used1 ->
    amounts_each f mf used1 items (S j) rest its used' -> amounts_each f mf used items j (s :: rest) (it' :: its) used'.

(** What is left in the iterators after those in [used] have been read. *)
Definition left_by (mf : mfeeds) (used : list nat) (mf' : mfeeds) : Prop :=
  forall k, (In k used -> still mf' k = []) /\ (~ In k used -> still mf' k = still mf k).
