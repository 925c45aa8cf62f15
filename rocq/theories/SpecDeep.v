(** Specification of iterators of organizers and patterns (C66). *)
From Verif Require Import Base Civil Freq Frame Timeline Board Spec SpecLookup SpecLayout SpecRemember Iterate SpecIterate Deep.

(** A layout without iterators. *)
Inductive without {L : Type} : layout L -> Prop :=
| wo_org d items : (forall it, In it items -> without it) -> without (LOrg d items)
| wo_list l : without (LPat (PList l))
| wo_label x : without (LLab x).

(** The elements that are still to come from the iterators use no iterators. *)
Definition simple_elements {L : Type} (fd : feeds (layout L)) : Prop :=
  forall k i e, 0 <= i -> to_come fd k i = Some e -> without e.

(** Unit [u] is treated as layout [ly], given the span [s], says. *)
Definition follows {L : Type} (tl : timeline L) (dflt : L) (u : Z) (ly : layout L) (s : span) : Prop :=
  exists leaf s', decides (tl_frame tl) u ly s leaf s' /\ leaf_does tl [] dflt leaf s' u.

(** What a use makes of its portion [c]: the elements are repeated over the base units or the spans; as
    a structure each element organizes its span. *)
Definition organizes {L : Type} (obj : layout L -> L) (tl : timeline L) (dflt : L) (c : list (layout L)) (w : ask) : Prop :=
  match w with
  | AskUnits s => forall u, s_first s <= u <= s_last s ->
      (c = [] -> shift_of tl u u u dflt)
      /\ (c <> [] -> exists e, cycled c (s_left s + (u - s_first s)) = Some e /\ shift_of tl u u u (as_label obj e))
  | AskSpans spans => forall j s u, nth_error spans j = Some s -> s_first s <= u <= s_last s ->
      (c = [] -> shift_of tl u u u dflt)
      /\ (c <> [] -> exists e, cycled c (Z.of_nat j) = Some e /\ follows tl dflt u e s)
  end.

(** Iterators of labels as iterators of elements. *)
Definition of_labels {L : Type} (fd : feeds L) : feeds (layout L) :=
  map (fun '(it, n) => (match it with Finite l => Finite (map LLab l) | Endless g => Endless (fun i => LLab (g i)) end, n)) fd.

(** [n k] elements of iterator [k] have been taken; one more use takes [m]. *)
Definition taken (n : nat -> Z) (k : nat) (m : Z) : nat -> Z := fun j => if (j =? k)%nat then n j + m else n j.

(** The layout without iterators that a layout stands for on a span, when [n k] elements have been taken
    from each iterator [k] before, and how many have been taken afterwards.  An organizer over an iterator
    takes one element for each span just before it turns to this span; when there are no more, it repeats
    those that it has taken itself ([saved]), and if there are none it leaves the span as it is. *)
Inductive stands {L : Type} (obj : layout L -> L) (f : frame) (fd : feeds (layout L))
  : (nat -> Z) -> layout L -> span -> layout L -> (nat -> Z) -> Prop :=
| stands_label n x s : stands obj f fd n (LLab x) s (LLab x) n
| stands_list n l s : stands obj f fd n (LPat (PList l)) s (LPat (PList l)) n
| stands_pattern n k s c : 0 <= s_left s -> portion fd k (n k) (wants (AskUnits s)) c ->
    stands obj f fd n (LPat (PRem k)) s (LPat (PList (map (as_label obj) c))) (taken n k (wants (AskUnits s)))
| stands_nothing n d s : stands obj f fd n (LOrg d []) s (LOrg d []) n
| stands_org n d items spans s its n' : items <> [] -> partition f d s = Ok spans ->
    stands_each obj f fd n items 0 spans its n' -> stands obj f fd n (LOrg d items) s (LOrg d its) n'
| stands_iterator n d k spans s its n' : partition f d s = Ok spans ->
    stands_next obj f fd n k [] 0 spans its n' -> stands obj f fd n (LOrgRem d k) s (LOrg d its) n'
with stands_each {L : Type} (obj : layout L -> L) (f : frame) (fd : feeds (layout L))
  : (nat -> Z) -> list (layout L) -> nat -> list span -> list (layout L) -> (nat -> Z) -> Prop :=
| each_end n items j : stands_each obj f fd n items j [] [] n
| each_span n items j s rest it it' n1 its n' :
    nth_error items (j mod length items)%nat = Some it -> stands obj f fd n it s it' n1 ->
    stands_each obj f fd n1 items (S j) rest its n' -> stands_each obj f fd n items j (s :: rest) (it' :: its) n'
with stands_next {L : Type} (obj : layout L -> L) (f : frame) (fd : feeds (layout L))
  : (nat -> Z) -> nat -> list (layout L) -> nat -> list span -> list (layout L) -> (nat -> Z) -> Prop :=
| next_end n k saved j : stands_next obj f fd n k saved j [] [] n
| next_none n k j s rest : to_come fd k (n k) = None -> stands_next obj f fd n k [] j (s :: rest) [] n
| next_take n k saved j s rest e it n1 its n' :
    to_come fd k (n k) = Some e -> stands obj f fd (taken n k 1) e s it n1 ->
    stands_next obj f fd n1 k (saved ++ [e]) (S j) rest its n' -> stands_next obj f fd n k saved j (s :: rest) (it :: its) n'
| next_again n k saved j s rest e it n1 its n' :
    to_come fd k (n k) = None -> nth_error saved (j mod length saved)%nat = Some e -> stands obj f fd n e s it n1 ->
    stands_next obj f fd n1 k saved (S j) rest its n' -> stands_next obj f fd n k saved j (s :: rest) (it :: its) n'.
