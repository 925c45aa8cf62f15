(** Specification vocabulary for C62: labels that are not all numbers. *)
From Verif Require Import Base Timeline Board SpecQuery Labels.
From Coq Require Import QArith String.
Open Scope Z_scope.

(** The label is a number, and which. *)
Inductive number : pylabel -> Q -> Prop :=
| nu_int z : number (LInt z) (inject_Z z)
| nu_float q : number (LFloat q) q.

Definition missing (x : pylabel) : Prop := x = LNone \/ x = LNan.

(** Labels that are false in Python. *)
Inductive falsy : pylabel -> Prop :=
| fa_int : falsy (LInt 0)
| fa_float q : (q == 0)%Q -> falsy (LFloat q)
| fa_text : falsy (LText "")
| fa_none : falsy LNone.

(** What the label adds to a sum of numbers, and to a Period. *)
Definition adds (x : pylabel) (q : Q) : Prop := number x q \/ (missing x /\ q = 0%Q).
Definition moves (x : pylabel) (n : Z) : Prop := x = LInt n \/ (missing x /\ n = 0).

(** The labels are strings, and their concatenation. *)
Inductive joined : list pylabel -> string -> Prop :=
| jo_nil : joined [] ""
| jo_cons s l t : joined l t -> joined (LText s :: l) (s ++ t).

(** All labels but one add to a Period. *)
Inductive one_period : list pylabel -> Z -> Prop :=
| op_here o l ns : Forall2 moves l ns -> one_period (LPer o :: l) (o + z_total ns)
| op_later x n l o : moves x n -> one_period l o -> one_period (x :: l) (o + n).
