(** Arithmetic of Python floats, and the two methods that return quotients of counts, computed with
    it: Python's [int / int] is the double nearest to the quotient, ties to even, and [float + float]
    the double nearest to the sum (IEEE 754, as CPython's documentation says of [float]).
    Values are rational numbers; exponents are not limited here ([C64_nearest] is about doubles). *)
From Coq Require Import QArith Qpower.
From Verif Require Import Base Freq Frame Timeline Board.
Open Scope Z_scope.

(** [a / b * 2^k] as a fraction. *)
Definition scaled (a b k : Z) : Z * Z := (a * 2 ^ Z.max k 0, b * 2 ^ Z.max (- k) 0).
(** The integer nearest to [n / d], of two the even one. *)
Definition half_even (n d : Z) : Z :=
  let m := n / d in
  let r := n mod d in
  if 2 * r <? d then m else if d <? 2 * r then m + 1 else if Z.even m then m else m + 1.
(** The double nearest to [a / b], for positive [a] and [b]: 53 binary digits. *)
Definition rnd_pos (a b : Z) : Q :=
  let k := 52 - (Z.log2 a - Z.log2 b) in
  let '(n, d) := scaled a b k in
  let k := if 2 ^ 52 * d <=? n then k else k + 1 in
  let '(n, d) := scaled a b k in
  (inject_Z (half_even n d) * (2 # 1) ^ (- k))%Q.
Definition rnd (q : Q) : Q :=
  match Qnum q with
  | 0 => 0%Q
  | Zpos a => rnd_pos (Zpos a) (Zpos (Qden q))
  | Zneg a => (- rnd_pos (Zpos a) (Zpos (Qden q)))%Q
  end.

(** [c / n] of two counts (/repo/timeboard/interval.py:1 [from __future__ import division]). *)
Definition float_div (c n : Z) : res Q :=
  if n =? 0 then Err EZeroDivision else Ok (rnd (inject_Z c / inject_Z n)).
(** [x + y]; an integer [y] is converted to a float first. *)
Definition float_add (x y : Q) : Q := rnd (rnd x + rnd y).

(** /repo/timeboard/interval.py:810-818 what_portion_of, as a float *)
Definition what_portion_fl {L : Type} (tb : timeboard L) (x y : interval L) (d : duty)
           (s : option (schedule L)) : res Q := what_portion_by float_div tb x y d s.
(** /repo/timeboard/interval.py:554-721 count_periods, as a float; lines 697-719: [result] starts with
    0.0, to which the first quotient is added (an exact addition), then the last quotient, then the
    number of full periods. *)
Definition count_periods_fl {L : Type} (tb : timeboard L) (iv : interval L) (fs : fstr) (d : duty)
           (s : option (schedule L)) : res Q := count_periods_by float_div float_add tb iv fs d s.
