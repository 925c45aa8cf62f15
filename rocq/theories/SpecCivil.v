(** Specification of the calendar itself (C45): the Gregorian rules as they are taught, and what
    the units of the frequencies are. *)
From Verif Require Import Base Civil Freq.
Open Scope Z_scope.

Definition leap_year (y : Z) : Prop := (y mod 4 = 0 /\ y mod 100 <> 0) \/ y mod 400 = 0.
(** [n] is the number of days in month [m] of year [y]. *)
Definition days_in (y m n : Z) : Prop :=
  (In m [1; 3; 5; 7; 8; 10; 12] /\ n = 31) \/ (In m [4; 6; 9; 11] /\ n = 30)
  \/ (m = 2 /\ leap_year y /\ n = 29) \/ (m = 2 /\ ~ leap_year y /\ n = 28).
Definition valid_date (y m d : Z) : Prop := exists n, days_in y m n /\ 1 <= d <= n.
(** The date that follows. *)
Definition next_date (y m d y' m' d' : Z) : Prop :=
  (valid_date y m (d + 1) /\ y' = y /\ m' = m /\ d' = d + 1)
  \/ (~ valid_date y m (d + 1) /\ m < 12 /\ y' = y /\ m' = m + 1 /\ d' = 1)
  \/ (~ valid_date y m (d + 1) /\ m = 12 /\ y' = y + 1 /\ m' = 1 /\ d' = 1).
(** Midnight at the beginning of the first day of the month that is [k] months after January of
    year [y]. *)
Definition first_of_month (y k t : Z) : Prop := t = date (y + k / 12) (k mod 12 + 1) 1 * 86400000000000.

(** What unit number [o] of a frequency is: from [t] until just before [t']. *)
Definition unit_means (b : base) (o t t' : Z) : Prop :=
  match b with
  | BS => t = o * 1000000000 /\ t' = t + 1000000000
  | BT => t = o * 60000000000 /\ t' = t + 60000000000
  | BH => t = o * 3600000000000 /\ t' = t + 3600000000000
  | BD => t = o * 86400000000000 /\ t' = t + 86400000000000
  | BW d => (* the last day of a week has weekday [d] *)
      exists n, t = n * 86400000000000 /\ weekday (n + 6) = d /\ t' = t + 7 * 86400000000000
  | BM => first_of_month 1970 o t /\ first_of_month 1970 (o + 1) t'
  | BQ m => (* month [m] ends a quarter *)
      exists k, first_of_month 1970 k t /\ first_of_month 1970 (k + 3) t' /\ (k - m) mod 3 = 0
  | BA m => (* month [m] ends a year *)
      exists k, first_of_month 1970 k t /\ first_of_month 1970 (k + 12) t' /\ (k - m) mod 12 = 0
  | BL => t = o * 1000000 /\ t' = t + 1000000
  | BU => t = o * 1000 /\ t' = t + 1000
  | BN => t = o /\ t' = t + 1
  end.
Definition proper (b : base) : Prop := match b with BW d => 0 <= d <= 6 | _ => True end.

(** ** Frequency names *)
(** The number before the name, and the letter's default anchors: weeks end on Sunday, quarters
    and years with December. *)
Definition times (s : fstr) : Z := match fdigits s with None => 1 | Some n => Zpos n end.
Definition or_default (o : option Z) (d : Z) : Z := match o with Some x => x | None => d end.
Definition proper_name (s : fstr) : Prop :=
  match falias s with AlW (Some d) => 0 <= d <= 6 | _ => True end.

(** A string of one part, unlike '1H30T'. *)
Definition one_part (s : fstr) : Prop := match falias s with AlMore _ _ => False | _ => True end.
(** Nanoseconds in a unit of fixed length. *)
Definition tick_len (k : tick) : Z :=
  match k with
  | KD => 86400000000000 | KH => 3600000000000 | KT | KMin => 60000000000 | KS => 1000000000
  | KL | KMs => 1000000 | KU | KUs => 1000 | KN | KNs => 1
  end.
Definition parts_len (rest : list (positive * tick)) : Z :=
  fold_right (fun p x => Zpos (fst p) * tick_len (snd p) + x) 0 rest.
(** The longest unit, from a day to a nanosecond, of which [d] is a multiple. *)
Definition measured (d u : Z) : Prop :=
  let units := [86400000000000; 3600000000000; 60000000000; 1000000000; 1000000; 1000; 1] in
  In u units /\ (u | d) /\ forall v, In v units -> (v | d) -> v <= u.
(** Parts written one after another, each a number and a length, are together [n] units of length
    [u]: while the units are the same they are counted, and different ones are measured anew. *)
Inductive adds_up : list (Z * Z) -> Z -> Z -> Prop :=
| add_first n u : adds_up [(n, u)] n u
| add_same ps n u m : adds_up ps n u -> adds_up (ps ++ [(m, u)]) (n + m) u
| add_other ps n u m v n' u' : adds_up ps n u -> u <> v -> measured (n * u + m * v) u' ->
    n' * u' = n * u + m * v -> adds_up (ps ++ [(m, v)]) n' u'.

(** A period that a frequency string names: from [t] until just before [t']. *)
Definition period_named (s : fstr) (t t' : Z) : Prop :=
  let n := times s in
  match falias s with
  | AlS => exists k, t = k * 1000000000 /\ t' = t + n * 1000000000
  | AlT | AlMin => exists k, t = k * 60000000000 /\ t' = t + n * 60000000000
  | AlH => exists k, t = k * 3600000000000 /\ t' = t + n * 3600000000000
  | AlD => exists k, t = k * 86400000000000 /\ t' = t + n * 86400000000000
  | AlW d => exists k, t = k * 86400000000000 /\ weekday (k + 6) = or_default d 6 /\ t' = t + n * (7 * 86400000000000)
  | AlM => exists k, first_of_month 1970 k t /\ first_of_month 1970 (k + n) t'
  | AlQ m => exists k, first_of_month 1970 k t /\ first_of_month 1970 (k + 3 * n) t' /\ (k - or_default m 12) mod 3 = 0
  | AlA m => exists k, first_of_month 1970 k t /\ first_of_month 1970 (k + 12 * n) t' /\ (k - or_default m 12) mod 12 = 0
  | AlY => exists k, first_of_month 1970 k t /\ first_of_month 1970 (k + 12 * n) t' /\ k mod 12 = 0
  | AlL | AlMs => exists k, t = k * 1000000 /\ t' = t + n * 1000000
  | AlU | AlUs => exists k, t = k * 1000 /\ t' = t + n * 1000
  | AlN | AlNs => t' = t + n
  | AlMore j rest => exists c u k, adds_up ((n, tick_len j) :: map (fun p => (Zpos (fst p), tick_len (snd p))) rest) c u
      /\ t = k * u /\ t' = t + c * u
  end.

(** The length of the period that begins with the unit in which 1 July 2016 begins. *)
Definition length_in_2016 (s : fstr) (n : Z) : Prop :=
  match falias s with
  | AlMore k rest => n = times s * tick_len k + parts_len rest
  | a => exists t t1 t', period_named (mkFstr None a) t t1
           /\ t <= date 2016 7 1 * 86400000000000 < t1 /\ period_named s t t' /\ n = t' - t
  end.

(** ** Adding months *)
(** [t'] is at the same time of day as [t], [k] months later, on the same day of the month or,
    if there is none, on the last. *)
Definition months_later (k t t' : Z) : Prop :=
  exists y m d y' m' n r, valid_date y m d /\ 0 <= r < 86400000000000 /\ t = date y m d * 86400000000000 + r
    /\ 12 * y' + m' = 12 * y + m + k /\ days_in y' m' n
    /\ t' = date y' m' (Z.min d n) * 86400000000000 + r.
