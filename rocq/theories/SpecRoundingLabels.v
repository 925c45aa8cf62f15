(** Specification vocabulary for C65: sums of floats. *)
From Coq Require Import QArith Qabs Qpower.
From Verif Require Import Base SpecQuery SpecRounding.
Open Scope Z_scope.

(** Adding one number after the other to [a], each time taking the nearest double, gives [r]. *)
Inductive adds_up : Q -> list Q -> Q -> Prop :=
| au_nil a r : (a == r)%Q -> adds_up a [] r
| au_cons a b c l r : nearest_double (a + b) c -> adds_up c l r -> adds_up a (b :: l) r.

(** The sum without signs. *)
Definition size (qs : list Q) : Q := q_total (map Qabs qs).

(** [x] is a multiple of 1 / 2^k. *)
Definition in_parts (k : Z) (x : Q) : Prop := exists n, (x == inject_Z n * (2 # 1) ^ (- k))%Q.
