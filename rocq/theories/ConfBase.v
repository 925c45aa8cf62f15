(** ConfBase: what the translated tests (Conf*.v, written by tools/tests2coq.py) use. *)
From Verif Require Api.
From Verif Require Import Base Civil Freq Frame Timeline Board When.
From Coq Require Import QArith.
Open Scope Z_scope.

(** A point in time. *)
Definition ts (y m d h mi s : Z) : Z :=
  date y m d * NS_DAY + h * NS_HOUR + mi * NS_MIN + s * NS_SEC.

(** pandas.Period(t, freq) *)
Definition period_at (t : Z) (s : fstr) : period :=
  mkPeriod (to_freq s) (pord (fbase (to_freq s)) t).

(** The test ran to its end and all its assertions hold. *)
Definition passes (r : res (list bool)) : bool :=
  match r with Ok l => forallb (fun b => b) l | Err _ => false end.

Definition err_code (e : err) : Z :=
  match e with
  | EOutOfBounds => 1 | EPartialOutOfBounds => 2 | EVoidInterval => 3 | EUnacceptablePeriod => 4
  | EKey => 5 | EValue => 6 | EType => 7 | EIndex => 8 | ERuntime => 9 | EAssertion => 10
  | EAttribute => 11 | EStopIteration => 12 | EZeroDivision => 13 | EFuel => 14
  end.

(** with pytest.raises(...) *)
Definition raises {A : Type} (es : list err) (r : res A) : bool :=
  match r with
  | Ok _ => false
  | Err e => existsb (fun x => err_code x =? err_code e) es
  end.

Fixpoint list_eqb {A : Type} (eq : A -> A -> bool) (a b : list A) : bool :=
  match a, b with
  | [], [] => true
  | x :: a', y :: b' => eq x y && list_eqb eq a' b'
  | _, _ => false
  end.
Definition pair_eqb (a b : Z * Z) : bool := (fst a =? fst b) && (snd a =? snd b).
Definition zlist_eqb : list Z -> list Z -> bool := list_eqb Z.eqb.
Definition blist_eqb : list bool -> list bool -> bool := list_eqb Bool.eqb.
Definition plist_eqb : list (Z * Z) -> list (Z * Z) -> bool := list_eqb pair_eqb.
Definition opt_pair_eqb (a b : option (Z * Z)) : bool :=
  match a, b with Some x, Some y => pair_eqb x y | None, None => true | _, _ => false end.
Definition loc_eqb (a b : location) : bool :=
  opt_eqb (l_pos a) (l_pos b) && (l_where a =? l_where b).
Definition wt_eqb (a b : wt_source) : bool :=
  match a, b with WDuration, WDuration | WLabels, WLabels | WBad, WBad => true | _, _ => false end.
(** The same schedule object: compared by name and contents. *)
Definition sched_eqb (a b : schedule Z) : bool :=
  (sc_name a =? sc_name b) && zlist_eqb (sc_on a) (sc_on b) && zlist_eqb (sc_off a) (sc_off b).
Definition is_some {A : Type} (o : option A) : bool := match o with Some _ => true | None => false end.
Definition opt_key {A : Type} (o : option A) : res A :=
  match o with Some a => Ok a | None => Err EKey end.
Fixpoint increasing (l : list Z) : bool :=
  match l with
  | x :: ((y :: _) as l') => (x <=? y) && increasing l'
  | _ => true
  end.

(** Labels: numbers are themselves; strings are coded from 1000001 up, None is -999999. *)
Definition conf_num (x : Z) : option Q :=
  if (x =? -999999) || (1000000 <? x) then None else Some (inject_Z x).

(** A timestamp from an argument of any type. *)
Definition conf_time (r : Api.pyref Z) : res Z :=
  do t <- Api.get_timestamp r;
  match t with Some t => Ok t | None => Err EType end.
(** No test uses NaT as a point in time. *)
Definition conf_nat : Api.nat_behaviour := Api.mkNat (Err EFuel) (Err EFuel).

(** Equal dictionaries. *)
Definition dict_eqb (a b : list (Z * Z)) : bool :=
  (zlen a =? zlen b) &&
  forallb (fun q => existsb (fun r => pair_eqb q r) b) a &&
  forallb (fun q => existsb (fun r => pair_eqb q r) a) b.
