(** Specification of C76: layouts that are written differently and mean the same. *)
From Verif Require Import Base Civil Freq Frame Timeline Board Spec.
From Coq Require Import Permutation.
Open Scope Z_scope.

(** The only error that a function of `at` raises, if any. *)
Definition fails_as (e : err) (how : frame -> fstr -> res (list Z)) : Prop := forall stencil by_ e', how stencil by_ = Err e' -> e' = e.
(** The elements of `at` in another order; or also repeated, if base units are longer than nanoseconds. *)
Definition same_at (fs : fstr) (l l' : list (frame -> fstr -> res (list Z))) : Prop :=
  (exists e, forall how, In how l -> fails_as e how)
  /\ (Permutation l l' \/ (fbase (to_freq fs) <> BN /\ forall how, In how l <-> In how l')).
(** Marks in another order or repeated; a marker with such elements of `at`. *)
Inductive same_divider (fs : fstr) : divider -> divider -> Prop :=
| sd_marks ms ms' : (forall t, In t ms <-> In t ms') -> same_divider fs (DMarks ms) (DMarks ms')
| sd_marker e l l' : same_at fs l l' -> same_divider fs (DMarker (mkMarker e l)) (DMarker (mkMarker e l')).
(** Not a pattern. *)
Definition no_pattern {L : Type} (ly : layout L) : Prop := match ly with LPat _ => False | _ => True end.
(** [n] copies of a list, one after another. *)
Definition copies {A : Type} (n : nat) (l : list A) : list A := concat (repeat l n).

(** Layouts that mean the same, for base units [fs]. *)
Inductive alike {L : Type} (fs : fstr) : layout L -> layout L -> Prop :=
| al_refl ly : alike fs ly ly
| al_sym x y : alike fs x y -> alike fs y x
| al_trans x y z : alike fs x y -> alike fs y z -> alike fs x z
(** a part of the structure replaced, *)
| al_part d pre x y post : alike fs x y -> alike fs (LOrg d (pre ++ x :: post)) (LOrg d (pre ++ y :: post))
(** the marks or the marker written differently, *)
| al_divider d d' items : same_divider fs d d' -> alike fs (LOrg d items) (LOrg d' items)
| al_divider_rem d d' k : same_divider fs d d' -> alike fs (LOrgRem d k) (LOrgRem d' k)
(** the structure or the pattern repeated, *)
| al_structure d items n : (0 < n)%nat -> alike fs (LOrg d items) (LOrg d (copies n items))
| al_pattern l n : (0 < n)%nat -> alike fs (LPat (PList l)) (LPat (PList (copies n l)))
(** an organizer with no marks around an organizer or a label, *)
| al_around ly : no_pattern ly -> alike fs (LOrg (DMarks []) [ly]) ly
(** or around a pattern in an organizer with marks. *)
| al_around_pattern ms pre p post :
    alike fs (LOrg (DMarks ms) (pre ++ LOrg (DMarks []) [LPat p] :: post)) (LOrg (DMarks ms) (pre ++ LPat p :: post)).

(** What `layout` of Timeboard may be. *)
Definition top_level {L : Type} (ly : layout L) : Prop :=
  match ly with LOrg _ _ | LOrgRem _ _ | LPat (PList _) => True | _ => False end.
(** The same arguments with another layout. *)
Definition with_layout {L : Type} (a : tb_args L) (ly : layout L) : tb_args L :=
  mkArgs (a_freq a) (a_start a) (a_end a) ly (a_amendments a) (a_sel a) (a_name a) (a_ref_end a) (a_default a) (a_wt a) (a_num a).
