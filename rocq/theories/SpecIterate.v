(** Specification of iterators as patterns and structures (C61). *)
From Verif Require Import Base Civil Freq Frame Timeline Board Spec SpecLookup SpecLayout SpecRemember Iterate.

(** Element number [i] of those still to come from iterator [k]. *)
Definition to_come {L : Type} (fd : feeds L) (k : nat) (i : Z) : option L :=
  match feed_get fd k with
  | (Finite l, n) => nth_error l (n + Z.to_nat i)
  | (Endless g, n) => Some (g (n + Z.to_nat i)%nat)
  end.

(** One use of an iterator: as a pattern on a span, as a structure on the spans of an organizer. *)
Inductive ask : Type := AskUnits (s : span) | AskSpans (spans : list span).

(** The uses of iterators by a layout on a span, in order. *)
Inductive asked {L : Type} (f : frame) : layout L -> span -> list (nat * ask) -> Prop :=
| asked_list l s : 0 <= s_left s -> asked f (LPat (PList l)) s []
| asked_label x s : asked f (LLab x) s []
| asked_pattern k s : 0 <= s_left s -> asked f (LPat (PRem k)) s [(k, AskUnits s)]
| asked_structure d k s spans : partition f d s = Ok spans -> asked f (LOrgRem d k) s [(k, AskSpans spans)]
| asked_nothing d s spans : partition f d s = Ok spans -> asked f (LOrg d []) s []
| asked_org d items s spans l : items <> [] -> partition f d s = Ok spans ->
    asked_spans f items 0 spans l -> asked f (LOrg d items) s l
with asked_spans {L : Type} (f : frame) : list (layout L) -> nat -> list span -> list (nat * ask) -> Prop :=
| as_nil items j : asked_spans f items j [] []
| as_cons items j s rest it l l' :
    nth_error items (j mod length items)%nat = Some it -> asked f it s l ->
    asked_spans f items (S j) rest l' -> asked_spans f items j (s :: rest) (l ++ l').

(** How many elements a use wants: for base units also those of the part of the calendar period
    that lies before the span. *)
Definition wants (w : ask) : Z :=
  match w with
  | AskUnits s => s_left s + (s_last s - s_first s + 1)
  | AskSpans spans => Z.of_nat (length spans)
  end.
Fixpoint wanted (k : nat) (asks : list (nat * ask)) : Z :=
  match asks with
  | [] => 0
  | (j, w) :: rest => (if (j =? k)%nat then wants w else 0) + wanted k rest
  end.

(** [c] is what there is of the [m] elements from number [n] on. *)
Definition portion {L : Type} (fd : feeds L) (k : nat) (n m : Z) (c : list L) : Prop :=
  Z.of_nat (length c) <= m
  /\ forall i, 0 <= i < m -> nth_error c (Z.to_nat i) = to_come fd k (n + i).

(** What a use makes of its portion [c]: the elements of [c] are repeated over the units or the
    spans; if there are none, the units remain workshifts with the default label. *)
Definition repeats {L : Type} (tl : timeline L) (dflt : L) (c : list L) (w : ask) : Prop :=
  match w with
  | AskUnits s => forall u, s_first s <= u <= s_last s ->
      (c = [] -> shift_of tl u u u dflt)
      /\ (c <> [] -> exists x, cycled c (s_left s + (u - s_first s)) = Some x /\ shift_of tl u u u x)
  | AskSpans spans => forall j s u, nth_error spans j = Some s -> s_first s <= u <= s_last s ->
      (c = [] -> shift_of tl u u u dflt)
      /\ (c <> [] -> exists x, cycled c (Z.of_nat j) = Some x /\ shift_of tl u (s_first s) (s_last s) x)
  end.

(** The uses in the making of a timeboard. *)
Definition asks_of {L : Type} (a : tb_args L) (tb : timeboard L) (asks : list (nat * ask)) : Prop :=
  exists org, top_organizer (a_layout a) = Ok org
    /\ asked (tl_frame (tb_tl tb)) org (whole_span (tl_frame (tb_tl tb))) asks.

(** A part of a layout that is no iterator. *)
Definition plain {L : Type} (leaf : layout L) : Prop :=
  match leaf with LPat (PRem _) | LOrgRem _ _ => False | _ => True end.

(** A RememberingPattern as an iterator: what is to come from it are its labels again and again. *)
Definition is_remembering {L : Type} (h : heap L) (fd : feeds L) : Prop :=
  forall k i, 0 <= i -> to_come fd k i = match fst (heap_get h k) with [] => None | _ => upcoming h k i end.

(** The layout with a list in the place of iterator [k] when it is used as a pattern, and the
    labels of a list in the place of the structure. *)
Fixpoint listed {L : Type} (k : nat) (l : list L) (ly : layout L) : layout L :=
  match ly with
  | LOrg d items => LOrg d (map (listed k l) items)
  | LOrgRem d j => if (j =? k)%nat then LOrg d (map LLab l) else ly
  | LPat (PRem j) => if (j =? k)%nat then LPat (PList l) else ly
  | LPat (PList _) | LLab _ => ly
  end.
Definition with_layout {L : Type} (a : tb_args L) (ly : layout L) : tb_args L :=
  mkArgs (a_freq a) (a_start a) (a_end a) ly (a_amendments a) (a_sel a) (a_name a) (a_ref_end a)
         (a_default a) (a_wt a) (a_num a).
