(** Specification of C69: timeboards that have some workshifts in common. *)
From Verif Require Import Base Civil Freq Frame Timeline Board Spec SpecLookup SpecQuery SpecInterval SpecLayout SpecSame.
Open Scope Z_scope.

(** Workshift [i] of one timeboard and workshift [j] of the other have the same times and label. *)
Definition same_shift {L : Type} (tb1 tb2 : timeboard L) (i j : Z) : Prop :=
  is_shift tb1 i /\ is_shift tb2 j
  /\ ws_start_time (tb_tl tb1) i = ws_start_time (tb_tl tb2) j /\ ws_end_time (tb_tl tb1) i = ws_end_time (tb_tl tb2) j
  /\ ws_ref_time (tb_tl tb1) i = ws_ref_time (tb_tl tb2) j /\ tl_get (tb_tl tb1) i = tl_get (tb_tl tb2) j.
(** The workshifts [a] to [b] of one timeboard are the workshifts [a + c] to [b + c] of the other. *)
Definition share {L : Type} (tb1 tb2 : timeboard L) (a b c : Z) : Prop :=
  forall i, a <= i <= b -> same_shift tb1 tb2 i (i + c).
(** And they have as many base units there. *)
Definition same_lengths {L : Type} (tb1 tb2 : timeboard L) (a b c : Z) : Prop :=
  forall i, a <= i <= b -> ws_duration (tb_tl tb1) i = ws_duration (tb_tl tb2) (i + c).
(** Schedules with the same selector. *)
Definition same_rule {L : Type} (s1 s2 : schedule L) : Prop := forall x, sc_sel s1 x = sc_sel s2 x.
(** The same workshift, position [c] further. *)
Definition moved {L : Type} (c : Z) (w1 w2 : workshift L) : Prop := ws_loc w2 = ws_loc w1 + c /\ ws_label w2 = ws_label w1.
(** The same interval, [c] positions further. *)
Definition moved_ivl {L : Type} (c : Z) (x1 x2 : interval L) : Prop :=
  iv_void x2 = iv_void x1 /\ iv_a x2 = iv_a x1 + c /\ iv_b x2 = iv_b x1 + c.
(** Both fail in the same way, or the results are related. *)
Definition alike {A B : Type} (R : A -> B -> Prop) (r1 : res A) (r2 : res B) : Prop :=
  (exists x y, r1 = Ok x /\ r2 = Ok y /\ R x y) \/ exists e, r1 = Err e /\ r2 = Err e.
(** The interval is among the positions [a] to [b]. *)
Definition iv_among {L : Type} (a b : Z) (x : interval L) : Prop := a <= iv_a x <= b /\ a <= iv_b x <= b.
(** The times [x] to [y] are in the time of the workshifts [a] to [b]. *)
Definition covers {L : Type} (tb : timeboard L) (a b x y : Z) : Prop :=
  exists t0 t1, starts_at tb a t0 /\ ends_at tb b t1 /\ t0 <= x /\ y <= t1.
