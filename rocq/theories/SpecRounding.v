(** Floating-point numbers: the doubles of IEEE 754, as rational numbers. *)
From Coq Require Import QArith Qpower Qabs.
From Verif Require Import Base.
Open Scope Z_scope.

(** A finite double: 53 binary digits and an exponent. *)
Definition is_double (x : Q) : Prop :=
  exists m k, Z.abs m < 2 ^ 53 /\ -1074 <= k <= 971 /\ (x == inject_Z m * (2 # 1) ^ k)%Q.
(** A (normal) double whose last binary digit is 0. *)
Definition even_double (x : Q) : Prop :=
  exists m k, Z.even m = true /\ 2 ^ 52 <= Z.abs m < 2 ^ 53 /\ -1074 <= k <= 971 /\ (x == inject_Z m * (2 # 1) ^ k)%Q.
(** [x] is the double nearest to [q]; if another double is as near, the last digit of [x] is 0. *)
Definition nearest_double (q x : Q) : Prop :=
  is_double x /\ (forall y, is_double y -> (Qabs (x - q) <= Qabs (y - q))%Q)
  /\ (forall y, is_double y -> (Qabs (y - q) == Qabs (x - q))%Q -> (y == x)%Q \/ even_double x).
(** [x] differs from [q] by at most [q] divided by [n]. *)
Definition within_part (n : Z) (q x : Q) : Prop := (Qabs (x - q) * inject_Z n <= Qabs q)%Q.
