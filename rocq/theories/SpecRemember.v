(** Specification of remembering patterns (C12). *)
From Verif Require Import Base Civil Freq Frame Timeline Board Spec SpecLookup SpecLayout.

(** The [i]-th label that RememberingPattern number [k] would give out from now on. *)
Definition upcoming {L : Type} (h : heap L) (k : nat) (i : Z) : option L :=
  let (l, cur) := heap_get h k in
  if i <? Z.of_nat (length cur) then nth_error cur (Z.to_nat i) else cycled l (i - Z.of_nat (length cur)).

(** One use of a RememberingPattern: on the base units of a span, one label each, or on a
    whole span, one label for all of it. *)
Inductive use : Type := OnUnits (s : span) | OnWhole (s : span).

(** The uses of remembering patterns by a layout on a span, in order, when nothing prevents it
    from being used: the spans can be divided, and patterns know how much to skip on the left. *)
Inductive used {L : Type} (f : frame) : layout L -> span -> list (nat * use) -> Prop :=
| used_list l s : 0 <= s_left s -> used f (LPat (PList l)) s []
| used_label x s : used f (LLab x) s []
| used_rem k s : 0 <= s_left s -> used f (LPat (PRem k)) s [(k, OnUnits s)]
| used_orgrem d k s spans : partition f d s = Ok spans ->
    used f (LOrgRem d k) s (map (fun s' => (k, OnWhole s')) spans)
| used_nothing d s spans : partition f d s = Ok spans -> used f (LOrg d []) s []
| used_org d items s spans l : items <> [] -> partition f d s = Ok spans ->
    used_spans f items 0 spans l -> used f (LOrg d items) s l
with used_spans {L : Type} (f : frame) : list (layout L) -> nat -> list span -> list (nat * use) -> Prop :=
| us_nil items j : used_spans f items j [] []
| us_cons items j s rest it l l' :
    nth_error items (j mod length items)%nat = Some it -> used f it s l ->
    used_spans f items (S j) rest l' -> used_spans f items j (s :: rest) (l ++ l').

(** How many labels a use takes from the cycle: on units also the ones for the part of the
    calendar period that lies before the span. *)
Definition takes (w : use) : Z :=
  match w with OnUnits s => s_left s + (s_last s - s_first s + 1) | OnWhole _ => 1 end.
(** How many labels pattern [k] gives out in a list of uses. *)
Fixpoint taken (k : nat) (uses : list (nat * use)) : Z :=
  match uses with
  | [] => 0
  | (j, w) :: rest => (if (j =? k)%nat then takes w else 0) + taken k rest
  end.

(** What a use makes when the pattern already gave out [n] labels since [h]. *)
Definition delivers {L : Type} (tl : timeline L) (h : heap L) (k : nat) (n : Z) (w : use) : Prop :=
  match w with
  | OnUnits s => forall u, s_first s <= u <= s_last s ->
      exists x, upcoming h k (n + s_left s + (u - s_first s)) = Some x /\ shift_of tl u u u x
  | OnWhole s => exists x, upcoming h k n = Some x
      /\ forall u, s_first s <= u <= s_last s -> shift_of tl u (s_first s) (s_last s) x
  end.
(** The number of labels that end up on workshifts. *)
Definition gives (w : use) : Z :=
  match w with OnUnits s => s_last s - s_first s + 1 | OnWhole _ => 1 end.

(** Timeboards made one after another with the same remembering patterns. *)
Inductive history {L : Type} : heap L -> list (tb_args L * timeboard L) -> heap L -> Prop :=
| hist_nil h : history h [] h
| hist_cons h a tb h1 l h2 : build a h = Ok (tb, h1) -> history h1 l h2 -> history h ((a, tb) :: l) h2.
(** The uses in the making of a timeboard. *)
Definition uses_of {L : Type} (at_ : tb_args L * timeboard L) (uses : list (nat * use)) : Prop :=
  exists org, top_organizer (a_layout (fst at_)) = Ok org
    /\ used (tl_frame (tb_tl (snd at_))) org (whole_span (tl_frame (tb_tl (snd at_)))) uses.

(** The labels delivered in a list of uses, if none of them skips. *)
Fixpoint given (k : nat) (uses : list (nat * use)) : Z :=
  match uses with
  | [] => 0
  | (j, w) :: rest => (if (j =? k)%nat then gives w else 0) + given k rest
  end.
(** No use of pattern [k] on units begins inside a calendar period. *)
Definition no_skips (k : nat) (uses : list (nat * use)) : Prop :=
  forall s, In (k, OnUnits s) uses -> s_left s = 0.
(** The use delivers the elements of the endless cycle of [l] from number [n] on. *)
Definition delivers_from {L : Type} (tl : timeline L) (l : list L) (n : Z) (w : use) : Prop :=
  match w with
  | OnUnits s => forall u, s_first s <= u <= s_last s ->
      exists x, cycled l (n + (u - s_first s)) = Some x /\ shift_of tl u u u x
  | OnWhole s => exists x, cycled l n = Some x
      /\ forall u, s_first s <= u <= s_last s -> shift_of tl u (s_first s) (s_last s) x
  end.
(** RememberingPattern number [k] has the labels [l] and was never used. *)
Definition fresh {L : Type} (h : heap L) (k : nat) (l : list L) : Prop := heap_get h k = (l, l).
