(** Specification of C72: layouts whose workshifts do not depend on the base unit. *)
From Verif Require Import Base Civil Freq Frame Timeline Spec SpecCivil SpecLayout.
Open Scope Z_scope.

(** Base units of both frames begin at [t]. *)
Definition both_begin (f1 f2 : frame) (t : Z) : Prop := (exists u, unit_start f1 u = t) /\ exists v, unit_start f2 v = t.
(** Organizers by calendar periods, and by marks where base units of both frames begin, down to labels. *)
Inductive whole_spans {L : Type} (f1 f2 : frame) : layout L -> Prop :=
| whole_label x : whole_spans f1 f2 (LLab x)
| whole_calendar g items : one_part g -> items <> [] -> (forall it, In it items -> whole_spans f1 f2 it) ->
    whole_spans f1 f2 (LOrg (DMarker (mkMarker g [])) items)
| whole_marks ms items : long_units f1 -> long_units f2 -> (forall t, In t ms -> both_begin f1 f2 t) -> items <> [] -> (forall it, In it items -> whole_spans f1 f2 it) ->
    whole_spans f1 f2 (LOrg (DMarks ms) items).
