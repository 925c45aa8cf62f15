(** Specification of C78: intervals found again, and intervals side by side. *)
From Verif Require Import Base Civil Freq Frame Timeline Board Spec.
Open Scope Z_scope.

(** The call gives an interval that holds position [i]. *)
Definition got {L : Type} (r : res (interval L)) (i : Z) : Prop := exists iv, r = Ok iv /\ iv_mem iv i.
(** Neither in both nor in anything else. *)
Definition shared_out (all one two : Prop) : Prop := (all <-> one \/ two) /\ ~ (one /\ two).
(** How far `closed` moves the ends. *)
Definition skip_left (c : closed_arg) : Z := match c with C00 | C01 => 1 | _ => 0 end.
Definition skip_right (c : closed_arg) : Z := match c with C00 | C10 => 1 | _ => 0 end.
