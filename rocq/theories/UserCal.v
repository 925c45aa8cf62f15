(** UserCal: CalendarBase as the template of calendar classes, with any `parameters` and
    `amendments` (calendarbase.py:196-340).  Calendars.v has the three classes of the package. *)
From Verif Require Import Base Civil Freq Frame Timeline Board Calendars.
From Coq Require Import QArith.
Open Scope Z_scope.

(** `start` and `end` among the parameters of a class: a Timestamp, or a string that stands for
    the given time. *)
Inductive class_bound : Type := CTime (t : Z) | CText (t : Z).
Definition class_time (b : class_bound) : Z := match b with CTime t | CText t => t end.

(** A calendar class.  [k_params]: what parameters() returns; `start`, `end` and amendments in it
    are not used.  [k_amend s e custom]: what the class method `amendments` returns, with the
    values of the additional keyword arguments. *)
Record cal_def (L : Type) : Type := mkDef {
  k_start : class_bound; k_end : class_bound; k_params : tb_args L;
  k_amend : Z -> Z -> option (list (Z * L)) -> res (list (Z * L))
}.
Arguments mkDef {L} k_start k_end k_params k_amend.
Arguments k_start {L} c.
Arguments k_end {L} c.
Arguments k_params {L} c.
Arguments k_amend {L} c.

(** The arguments of the constructor of a calendar (as [cal_opts], with any labels) *)
Record user_opts (L : Type) : Type := mkUser {
  q_start : option Z; q_end : option Z; q_no_amend : bool; q_only : bool; q_custom : option (list (Z * L))
}.
Arguments mkUser {L} q_start q_end q_no_amend q_only q_custom.
Arguments q_start {L} u.
Arguments q_end {L} u.
Arguments q_no_amend {L} u.
Arguments q_only {L} u.
Arguments q_custom {L} u.

(** calendarbase.py:304-308 _check_time: `start <= t <= end`; a string and a Timestamp cannot be
    compared *)
Definition class_check {L : Type} (c : cal_def L) (t : Z) : res unit :=
  match k_start c with
  | CText _ => Err EType
  | CTime s =>
      if s <=? t then
        match k_end c with
        | CText _ => Err EType
        | CTime e => if t <=? e then Ok tt else Err EOutOfBounds
        end
      else Err EOutOfBounds
  end.
(** calendarbase.py:310-322 _get_bounds *)
Definition class_bounds {L : Type} (c : cal_def L) (s e : option Z) : res (Z * Z) :=
  do s' <- (match s with None => Ok (class_time (k_start c)) | Some t => do _ <- class_check c t; Ok t end);
  do e' <- (match e with None => Ok (class_time (k_end c)) | Some t => do _ <- class_check c t; Ok t end);
  Ok (s', e').
(** The parameters with other bounds, and with amendments *)
Definition with_bounds {L : Type} (a : tb_args L) (s e : Z) (am : list (Z * L)) : tb_args L :=
  mkArgs (a_freq a) s e (a_layout a) am (a_sel a) (a_name a) (a_ref_end a) (a_default a) (a_wt a) (a_num a).
(** calendarbase.py:324-340 CalendarBase.__new__ *)
Definition user_calendar {L : Type} (c : cal_def L) (o : user_opts L) (h : heap L) : res (timeboard L * heap L) :=
  do b <- class_bounds c (q_start o) (q_end o);
  do am <- (if q_no_amend o then Ok []
            else if q_only o then Ok (opt_or (q_custom o) [])
            else k_amend c (fst b) (snd b) (q_custom o));
  build (with_bounds (k_params c) (fst b) (snd b) am) h.

(** calendarbase.py:288-302 CalendarBase itself: parameters, amendments *)
Definition base_class : cal_def Z :=
  mkDef (CTime (date 2001 1 1 * NS_DAY)) (CTime (date 2030 12 31 * NS_DAY))
        (mkArgs (mkFstr None AlD) 0 0 (LPat (PList [1])) [] (fun x => negb (x =? 0)) 0 false 0 WDuration (fun x => Some (inject_Z x)))
        (fun _ _ custom => Ok (opt_or custom [])).
