(** Print: the mock code that repr(Timeboard) and repr(Organizer) show
    (/repo/timeboard/core.py:1365-1448, timeboard.py:215-229).

    Strings are kept apart from their content: a line is a name and an expression over
    names; [V] is what `{!r}` shows of labels, lists of labels, lists of marks, markers and
    RememberingPatterns.  Objects have identities (`id(...)`). *)
From Verif Require Import Base.

(** core.py:1383-1386: the names of lines, "org_{id}", "mrk_{id}", "rp_{id}" *)
Inductive name : Type := NOrg (id : Z) | NMrk (id : Z) | NRp (id : Z).
Definition name_eqb (a b : name) : bool :=
  match a, b with
  | NOrg x, NOrg y | NMrk x, NMrk y | NRp x, NRp y => x =? y
  | _, _ => false
  end.

(** How an organizer divides time: a Marker with `at`, a Marker without, explicit marks. *)
Inductive pdiv (V : Type) : Type := PMarker (id : Z) (v : V) | PPlain (v : V) | PMarks (v : V).
Arguments PMarker {V} id v.
Arguments PPlain {V} v.
Arguments PMarks {V} v.
(** Objects: an Organizer whose structure is a sequence, a RememberingPattern or another
    iterable without length; a RememberingPattern; anything else. *)
Inductive pobj (V : Type) : Type :=
| OOrg (id : Z) (d : pdiv V) (st : pstruct V)
| ORp (id : Z) (v : V)
| OVal (v : V)
with pstruct (V : Type) : Type :=
| SSeq (l : list (pobj V))
| SRp (id : Z) (v : V)
| SIter (v : V).
Arguments OOrg {V} id d st.
Arguments ORp {V} id v.
Arguments OVal {V} v.
Arguments SSeq {V} l.
Arguments SRp {V} id v.
Arguments SIter {V} v.

(** Expressions: a literal, Organizer(marker=..., structure=...), Organizer(marks=..., ...) *)
Inductive term (V : Type) : Type := TName (n : name) | TVal (v : V).
Arguments TName {V} n.
Arguments TVal {V} v.
Inductive pexpr (V : Type) : Type :=
| XVal (v : V)
| XMarker (m : term V) (st : term V + list (term V))
| XMarks (v : V) (st : term V + list (term V)).
Arguments XVal {V} v.
Arguments XMarker {V} m st.
Arguments XMarks {V} v st.

(** The ordered dictionary of lines; `name in repr_objects` *)
Definition lines (V : Type) : Type := list (name * pexpr V).
Definition named {V : Type} (n : name) (ls : lines V) : bool := existsb (fun q => name_eqb n (fst q)) ls.
(** core.py:1403-1404, 1417-1418, 1432-1433: a line for an object that has none yet *)
Definition add_line {V : Type} (n : name) (v : V) (ls : lines V) : lines V :=
  if named n ls then ls else ls ++ [(n, XVal v)].

(** core.py:1400-1409 arg_m *)
Definition arg_m {V : Type} (d : pdiv V) (ls : lines V) : lines V :=
  match d with PMarker id v => add_line (NMrk id) v ls | _ => ls end.
Definition org_line {V : Type} (d : pdiv V) (st : term V + list (term V)) : pexpr V :=
  match d with
  | PMarker id _ => XMarker (TName (NMrk id)) st
  | PPlain v => XMarker (TVal v) st
  | PMarks v => XMarks v st
  end.

(** core.py:1424-1436: the loop over the elements of the structure, given what to do with an element *)
Definition elem_reprs {V : Type} (builder : pobj V -> lines V -> lines V)
  : list (pobj V) -> lines V -> list (term V) * lines V :=
  fix go (l : list (pobj V)) (ls : lines V) : list (term V) * lines V :=
    match l with
    | [] => ([], ls)
    | x :: l' =>
        let (t, ls1) :=
          match x with
          | OOrg id _ _ => (TName (NOrg id), if named (NOrg id) ls then ls else builder x ls)
          | ORp id v => (TName (NRp id), add_line (NRp id) v ls)
          | OVal v => (TVal v, ls)
          end in
        let (ts, ls2) := go l' ls1 in (t :: ts, ls2)
    end.

(** core.py:1365-1440 Organizer._repr_builder(repr_objects); called for organizers only *)
Fixpoint repr_builder {V : Type} (x : pobj V) (ls : lines V) {struct x} : lines V :=
  match x with
  | OOrg id d st =>
      if named (NOrg id) ls then ls
      else
        let ls1 := arg_m d ls in
        match st with
        | SRp rid v => add_line (NRp rid) v ls1 ++ [(NOrg id, org_line d (inl (TName (NRp rid))))]
        | SIter v => ls1 ++ [(NOrg id, org_line d (inl (TVal v)))]
        | SSeq l =>
            let (ts, ls2) := elem_reprs repr_builder l ls1 in
            ls2 ++ [(NOrg id, org_line d (inr ts))]
        end
  | _ => ls
  end.

(** core.py:1442-1448 Organizer.__repr__: the lines before the last, and the expression of the last *)
Definition org_repr {V : Type} (x : pobj V) : option (lines V * pexpr V) :=
  match rev (repr_builder x []) with
  | [] => None
  | (_, e) :: r => Some (rev r, e)
  end.

(** timeboard.py:215-229 the representation of a timeboard: lines, and the argument `layout` as
    a name; for a pattern [v] as a layout no lines, and the expression of the organizer made of
    it (timeboard.py:181; [none] is what repr shows of the empty list of marks) *)
Definition tb_repr {V : Type} (layout : pobj V) (none : V) : option (lines V * (name + lines V * pexpr V)) :=
  match layout with
  | OOrg id _ _ => Some (repr_builder layout [], inl (NOrg id))
  | OVal v => option_map (fun r => ([], inr r)) (org_repr (OOrg 0 (PMarks none) (SSeq [OVal v])))
  | ORp _ _ => None
  end.
