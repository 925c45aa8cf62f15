(** Specification of C77: schedules compared by the duty they give to the workshifts. *)
From Verif Require Import Base Civil Freq Frame Timeline Board Spec.
Open Scope Z_scope.

(** What is on duty under one schedule is off duty under the other. *)
Definition opposite {L : Type} (tb : timeboard L) (s s' : schedule L) : Prop :=
  forall i, is_shift tb i -> on_duty tb s' i = negb (on_duty tb s i).
(** 'on' and 'off' exchanged. *)
Definition other_duty (d : duty) : duty := match d with DOn => DOff | DOff => DOn | _ => d end.
(** A workshift apart from its schedule. *)
Definition place {L : Type} (w : workshift L) : Z * L := (ws_loc w, ws_label w).
(** Workshifts with duty [d] under [s] have duty [d'] under [s']. *)
Definition covered {L : Type} (tb : timeboard L) (s : schedule L) (d : duty) (s' : schedule L) (d' : duty) : Prop :=
  forall i, is_shift tb i -> has_duty tb s d i = true -> has_duty tb s' d' i = true.
Definition plain_duty (d : duty) : Prop := d = DOn \/ d = DOff \/ d = DAny.
