(** Specification of calendar classes (C57). *)
From Verif Require Import Base Civil Freq Frame Timeline Board Spec SpecMisc Calendars SpecCal UserCal.
From Coq Require Import QArith.
Open Scope Z_scope.

(** The class gives its bounds as Timestamps. *)
Definition of_times {L : Type} (c : cal_def L) (lo hi : Z) : Prop := k_start c = CTime lo /\ k_end c = CTime hi.
(** The user's bounds are within those of the class. *)
Definition within {L : Type} (lo hi : Z) (o : user_opts L) : Prop :=
  (forall t, q_start o = Some t -> lo <= t <= hi) /\ (forall t, q_end o = Some t -> lo <= t <= hi).
Definition from_time {L : Type} (lo : Z) (o : user_opts L) : Z := opt_or (q_start o) lo.
Definition to_time {L : Type} (hi : Z) (o : user_opts L) : Z := opt_or (q_end o) hi.
(** The parameters of the class with other bounds and no amendments. *)
Definition bounded {L : Type} (a : tb_args L) (s e : Z) : tb_args L :=
  mkArgs (a_freq a) s e (a_layout a) [] (a_sel a) (a_name a) (a_ref_end a) (a_default a) (a_wt a) (a_num a).
(** Which amendments are used (or which exception is raised by `amendments`). *)
Inductive chosen {L : Type} (c : cal_def L) (o : user_opts L) (s e : Z) : res (list (Z * L)) -> Prop :=
| ch_none : q_no_amend o = true -> chosen c o s e (Ok [])
| ch_nothing : q_no_amend o = false -> q_only o = true -> q_custom o = None -> chosen c o s e (Ok [])
| ch_only l : q_no_amend o = false -> q_only o = true -> q_custom o = Some l -> chosen c o s e (Ok l)
| ch_method : q_no_amend o = false -> q_only o = false -> chosen c o s e (k_amend c s e (q_custom o)).
(** The same calendar without amendments. *)
Definition unamended {L : Type} (o : user_opts L) : user_opts L := mkUser (q_start o) (q_end o) true (q_only o) (q_custom o).

(** ** CalendarBase itself *)
(** The amendments of CalendarBase(...). *)
Definition base_items (o : user_opts Z) : list (Z * Z) := if q_no_amend o then [] else opt_or (q_custom o) [].
(** The label of day [d]: that of the item for the day, otherwise 1. *)
Definition base_label (l : list (Z * Z)) (d x : Z) : Prop :=
  (exists t, In (t, x) l /\ t / NS_DAY = d) \/ ((forall t y, In (t, y) l -> t / NS_DAY <> d) /\ x = 1).
(** The workshift at [t] is the day of [t], of label [x]; its work time is one base unit, and it is
    on duty when the label is not 0. *)
Definition base_day (tb : timeboard Z) (t x : Z) : Prop :=
  exists w, get_workshift tb t None = Ok w /\ ws_label w = x
    /\ starts_at tb (ws_loc w) (t / NS_DAY * NS_DAY) /\ ends_at tb (ws_loc w) ((t / NS_DAY + 1) * NS_DAY - 1)
    /\ ref_at tb (ws_loc w) (t / NS_DAY * NS_DAY)
    /\ ws_worktime tb w DAny None = Ok 1%Q /\ is_on_duty tb w (tb_default tb) = Ok (negb (x =? 0)).

(** ** The calendars of the package as classes of this kind *)
Definition preset (c : cal_class) (am : option Z -> option Z -> option (list (Z * Z)) -> res (list (akey * Z))) : cal_def Z :=
  mkDef (CTime (c_start c)) (CTime (c_end c)) (cal_args 0 0 [])
        (fun s e custom => do d <- am (Some s) (Some e) custom; Ok (map (fun q => (key_ts (fst q), snd q)) d)).
Definition opts_of (o : cal_opts) : user_opts Z := mkUser (cu_start o) (cu_end o) (cu_no_amend o) (cu_only o) (cu_custom o).
