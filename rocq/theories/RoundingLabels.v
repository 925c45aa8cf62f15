(** Work time from labels, with floats as doubles.
    /repo/timeboard/interval.py:830-880, 935-1013. *)
From Coq Require Import QArith.
From Verif Require Import Base Timeline Board Labels Rounding.
Open Scope Z_scope.

(** x + y of two labels.  An int that is added to a float is converted to a float first (ints beyond
    the range of floats are not modelled). *)
Definition label_add (x y : pylabel) : res pylabel :=
  match x, y with
  | LInt a, LFloat b => Ok (LFloat (float_add (inject_Z a) b))
  | LFloat a, LInt b => Ok (LFloat (float_add a (inject_Z b)))
  | LFloat a, LFloat b => Ok (LFloat (float_add a b))
  | _, _ => py_add x y
  end.

(** interval.py:830-880 _sum_labels *)
Definition sum_labels_fl (tb : timeboard pylabel) (iv : interval pylabel) (d : duty)
           (s : option (schedule pylabel)) : res pylabel := sum_labels_by label_add tb iv d s.
(** interval.py:935-1013 worktime *)
Definition iv_worktime_fl (tb : timeboard pylabel) (iv : interval pylabel) (d : duty)
           (s : option (schedule pylabel)) : res pylabel := iv_worktime_by label_add tb iv d s.
