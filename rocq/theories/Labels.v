(** Labels: work time taken from labels of any type.
    /repo/timeboard/interval.py:830-880, 935-1013, 1084-1085; workshift.py:489-586. *)
From Verif Require Import Base Civil Freq Frame Timeline Board.
From Coq Require Import QArith String.
Open Scope Z_scope.

(** A label as Python sees it: an int, a float (an exact rational), a string, None, NaN, a
    pandas.Period (of some frequency without multiplier, by its ordinal). *)
Inductive pylabel : Type :=
| LInt (z : Z) | LFloat (q : Q) | LText (s : string) | LNone | LNan | LPer (o : Z).

(** bool(label), which is the selector if none is given (timeboard.py:253-262) *)
Definition truth (x : pylabel) : bool :=
  match x with
  | LInt z => negb (z =? 0)
  | LFloat q => negb (Qnum q =? 0)
  | LText s => negb (String.eqb s "")
  | LNone => false
  | LNan | LPer _ => true
  end.

(** x + y.  A Period takes an int only (what it makes of NaN is not used below). *)
Definition py_add (x y : pylabel) : res pylabel :=
  match x, y with
  | LInt a, LInt b => Ok (LInt (a + b))
  | LInt a, LFloat b => Ok (LFloat (inject_Z a + b))
  | LFloat a, LInt b => Ok (LFloat (a + inject_Z b))
  | LFloat a, LFloat b => Ok (LFloat (a + b))
  | LNan, (LInt _ | LFloat _ | LNan) | (LInt _ | LFloat _), LNan => Ok LNan
  | LText a, LText b => Ok (LText (a ++ b))
  | LPer o, LInt n | LInt n, LPer o => Ok (LPer (o + n))
  | _, _ => Err EType
  end.

(** pandas.Series.sum of a series of objects: missing values count as 0; the rest is added
    from the left.  [add] is the addition of labels: exact here ([py_add]), of doubles in
    RoundingLabels.v. *)
Definition fill (x : pylabel) : pylabel :=
  match x with LNone | LNan => LInt 0 | _ => x end.
Definition series_sum_by (add : pylabel -> pylabel -> res pylabel) (l : list pylabel) : res pylabel :=
  match map fill l with
  | [] => Ok (LInt 0)
  | x :: r => fold_left (fun a y => do a <- a; add a y) r (Ok x)
  end.
Definition series_sum (l : list pylabel) : res pylabel := series_sum_by py_add l.

(** interval.py:830-880 _sum_labels; interval.py:872-880 without such workshifts 0 *)
Definition sum_labels_by (add : pylabel -> pylabel -> res pylabel) (tb : timeboard pylabel)
           (iv : interval pylabel) (d : duty) (s : option (schedule pylabel)) : res pylabel :=
  let s := opt_or s (iv_sched iv) in
  do ib <- get_duty_idx iv d s;
  match snd ib with
  | None => Ok (LInt 0)
  | Some (l, r) =>
      do xs <- mapM (tl_get (tb_tl tb)) (py_slice (fst ib) l (r + 1));
      series_sum_by add xs
  end.
Definition sum_labels_any (tb : timeboard pylabel) (iv : interval pylabel) (d : duty)
           (s : option (schedule pylabel)) : res pylabel := sum_labels_by py_add tb iv d s.

(** interval.py:935-1013 worktime; interval.py:1084-1085 of a void interval.  The sum is
    returned if 0 can be added to it. *)
Definition iv_worktime_by (add : pylabel -> pylabel -> res pylabel) (tb : timeboard pylabel)
           (iv : interval pylabel) (d : duty) (s : option (schedule pylabel)) : res pylabel :=
  if iv_void iv then Ok (LFloat 0)
  else
  match tb_wt tb with
  | WLabels => do r <- sum_labels_by add tb iv d s;
               do _ <- py_add r (LInt 0);
               Ok r
  | WDuration => rmap LInt (total_duration tb iv d s)
  | WBad => Err ERuntime
  end.
Definition iv_worktime_any (tb : timeboard pylabel) (iv : interval pylabel) (d : duty)
           (s : option (schedule pylabel)) : res pylabel := iv_worktime_by py_add tb iv d s.

(** workshift.py:489-586 worktime *)
Definition ws_worktime_any (tb : timeboard pylabel) (w : workshift pylabel) (d : duty)
           (s : option (schedule pylabel)) : res pylabel :=
  let s := opt_or s (ws_sched w) in
  do on <- is_on_duty tb w s;
  do flag <- (match d with DOn => Ok on | DOff => Ok (negb on) | DAny => Ok true
              | _ => Err EValue end);
  if flag then
    match tb_wt tb with
    | WLabels => do _ <- py_add (ws_label w) (LInt 0); Ok (ws_label w)
    | WDuration => rmap LInt (ws_duration (tb_tl tb) (ws_loc w))
    | WBad => Err ERuntime
    end
  else Ok (LInt 0).
