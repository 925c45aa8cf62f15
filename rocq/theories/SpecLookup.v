(** Specification vocabulary for C01: calendar units, and the mark functions of a layout. *)
From Verif Require Import Base Civil Freq Frame Timeline.

(** The instant [t] is in the calendar unit number [o] of the frequency [b]. *)
Definition in_cal_unit (b : base) (o t : Z) : Prop := pstart b o <= t < pstart b (o + 1).

(** The `how` functions that occur in a layout. *)
Inductive how_in_divider (how : frame -> fstr -> res (list Z)) : divider -> Prop :=
| hid m : In how (m_at m) -> how_in_divider how (DMarker m).
Inductive how_in_layout {L : Type} (how : frame -> fstr -> res (list Z)) : layout L -> Prop :=
| hil_div d items : how_in_divider how d -> how_in_layout how (LOrg d items)
| hil_divrem d k : how_in_divider how d -> how_in_layout how (LOrgRem d k)
| hil_item d items it : In it items -> how_in_layout how it -> how_in_layout how (LOrg d items).
