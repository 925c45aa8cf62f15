(** Specification of interval queries (C25-C28, C31). *)
From Verif Require Import Base Civil Freq Frame Timeline Board Spec SpecRoll.
From Coq Require Import QArith.
Open Scope Z_scope.

(** Duties accepted by the methods of an interval. *)
Definition ivl_duty (d : duty) : Prop := d = DOn \/ d = DOff \/ d = DAny.

(** The positions in the interval with the duty, in order. *)
Definition iv_list {L : Type} (tb : timeboard L) (iv : interval L) (d : duty) (s : schedule L) : list Z :=
  if iv_void iv then [] else duty_list tb s d (iv_a iv) (iv_b iv).

(** [i] is element [n] of the list, counting from the end if [n] is negative. *)
Definition at_index {A : Type} (l : list A) (n : Z) (i : A) : Prop :=
  (0 <= n /\ nth_error l (Z.to_nat n) = Some i)
  \/ (n < 0 /\ 0 <= Z.of_nat (length l) + n /\ nth_error l (Z.to_nat (Z.of_nat (length l) + n)) = Some i).

(** [w] is the workshift at position [i] with the schedule [s]. *)
Definition the_shift {L : Type} (tb : timeboard L) (s : schedule L) (i : Z) (w : workshift L) : Prop :=
  ws_loc w = i /\ ws_sched w = s /\ tl_get (tb_tl tb) i = Ok (ws_label w).

(** Adjacent intervals [x], [y] that make up [z]. *)
Definition pieces {L : Type} (x y z : interval L) : Prop :=
  iv_void x = false /\ iv_void y = false /\ iv_void z = false
  /\ iv_a x = iv_a z /\ iv_b x + 1 = iv_a y /\ iv_b y = iv_b z.

(** [x] contains every workshift of [y]. *)
Definition iv_includes {L : Type} (x y : interval L) : Prop := forall i, iv_mem y i -> iv_mem x i.

Definition q_total (l : list Q) : Q := fold_right Qplus 0%Q l.
Definition z_total (l : list Z) : Z := fold_right Z.add 0 l.

(** Every label of the timeboard is a number. *)
Definition numeric {L : Type} (tb : timeboard L) : Prop :=
  forall i x, is_shift tb i -> tl_get (tb_tl tb) i = Ok x -> exists q, tb_num tb x = Some q.
