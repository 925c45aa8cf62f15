(** Specification of C75: times that fit in 64 bits. *)
From Verif Require Import Base Civil Freq Frame.
Open Scope Z_scope.

Definition fits (t : Z) : Prop := - 2 ^ 63 < t < 2 ^ 63.
(** The base units of the frame begin within the range. *)
Definition starts_fit (f : frame) : Prop := forall i, 0 <= i < fr_len f -> fits (unit_start f i).
