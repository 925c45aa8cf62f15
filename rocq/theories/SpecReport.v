(** Specification of C82: reports by calendar periods. *)
From Verif Require Import Base Civil Freq Frame Timeline Board Spec SpecRoll SpecLookup SpecQuery SpecInterval.
From Coq Require Import QArith.
Open Scope Z_scope.

(** [n] periods of frequency [f], one after another, beginning with number [o]. *)
Definition successive (f : freq) (o : Z) (n : nat) : list period :=
  map (fun j => mkPeriod f (o + Zpos (fmult f) * j)) (zrange 0 n).
(** The interval holds the workshifts of these periods. *)
Definition made_of {L : Type} (tb : timeboard L) (iv : interval L) (ps : list period) : Prop :=
  forall i, iv_mem iv i <-> exists p, In p ps /\ in_period tb p i.
(** What is reported for a period: [x] if [q] gives it for the interval of the period, [zero] if there
    are no workshifts. *)
Definition reported {L A : Type} (tb : timeboard L) (zero : A) (q : interval L -> res A) (p : period) (x : A) : Prop :=
  match get_interval tb (RPeriod p) None None true C11 None with
  | Ok iv => q iv = Ok x
  | Err e => (e = EVoidInterval \/ e = EOutOfBounds) /\ x = zero
  end.
