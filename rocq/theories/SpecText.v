(** Specification of what is shown of workshifts, intervals and timeboards (C58). *)
From Verif Require Import Base Civil Freq Frame Timeline Board Spec SpecMisc Text.
From Coq Require Import String.
Open Scope Z_scope.
Open Scope list_scope.

(** The schedule is named, unless it has the name of the default schedule. *)
Inductive says_schedule {L : Type} (tb : timeboard L) (name : Z) : list token -> Prop :=
| ss_default : name = sc_name (tb_default tb) -> says_schedule tb name []
| ss_other : name <> sc_name (tb_default tb) -> says_schedule tb name [TText ", "; TSched name].
(** The workshift [i] is described by the number of its base units, if not one, the base unit
    frequency and the period, of this frequency, that starts when the workshift starts. *)
Inductive says_shift {L : Type} (tb : timeboard L) (i : Z) : list token -> Prop :=
| sh_unit f b o : f = fr_str (tl_frame (tb_tl tb)) -> b = fbase (to_freq f) -> has_units tb i 1 -> starts_at tb i (pstart b o) ->
    says_shift tb i [TText "'"; TFreq f; TText "' at "; TPeriod b o]
| sh_units f b o n : f = fr_str (tl_frame (tb_tl tb)) -> b = fbase (to_freq f) -> n <> 1 -> has_units tb i n -> starts_at tb i (pstart b o) ->
    says_shift tb i [TNum n; TText "x"; TText "'"; TFreq f; TText "' at "; TPeriod b o].
