(** Specification of rolling by counting (C17, C18). *)
From Verif Require Import Base Civil Freq Frame Timeline Board Spec.

(** [q] is where a roll forward of [n] steps from position [p] lands. *)
Definition fwd_target {L : Type} (tb : timeboard L) (s : schedule L) (d : duty) (p n q : Z) : Prop :=
  is_shift tb q /\ has_duty tb s d q = true /\
  ((0 <= n /\ p <= q /\ duty_count tb s d p (q - 1) = n)
   \/ (n < 0 /\ exists z, is_shift tb z /\ p <= z /\ has_duty tb s d z = true
         /\ (forall j, p <= j < z -> has_duty tb s d j = false)
         /\ q <= z /\ duty_count tb s d q (z - 1) = - n)).

(** [q] is where a roll back of [n] steps from position [p] lands. *)
Definition back_target {L : Type} (tb : timeboard L) (s : schedule L) (d : duty) (p n q : Z) : Prop :=
  is_shift tb q /\ has_duty tb s d q = true /\
  ((0 <= n /\ q <= p /\ duty_count tb s d (q + 1) p = n)
   \/ (n < 0 /\ exists z, is_shift tb z /\ z <= p /\ has_duty tb s d z = true
         /\ (forall j, z < j <= p -> has_duty tb s d j = false)
         /\ z <= q /\ duty_count tb s d (z + 1) q = - n)).

(** The schedule a method of [w] works with. *)
Definition sched_arg {L : Type} (s : option (schedule L)) (own : schedule L) : schedule L :=
  match s with Some s' => s' | None => own end.
