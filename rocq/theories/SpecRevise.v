(** Specification of labels set after a timeboard is made (C60) and of selectors that raise (C59). *)
From Verif Require Import Base Civil Freq Frame Timeline Board Spec SpecMisc Revise.

(** The point in time is in no workshift. *)
Definition outside {L : Type} (tb : timeboard L) (t : Z) : Prop := forall i, ~ holds_time tb i t.

(** The documentation of amend: keys outside are an error if `not_in_range` is anything but 'ignore'. *)
Definition strict (n : out_arg) : Prop := n <> NIgnore.

(** Item number [j] is the first one to be wrong. *)
Definition fine {L : Type} (tb : timeboard L) (n : out_arg) (items : list (Z * L)) : Prop :=
  ~ clash tb items /\ (strict n -> forall t x, In (t, x) items -> ~ outside tb t).
Inductive raises {L : Type} (tb : timeboard L) : revision L -> err -> Prop :=
| raises_outside n am j t x : fine tb n (firstn j am) -> nth_error am j = Some (t, x) ->
    strict n -> outside tb t -> raises tb (RAmend n am) EOutOfBounds
| raises_twice n am j t x t' x' i : fine tb n (firstn j am) -> nth_error am j = Some (t, x) ->
    In (t', x') (firstn j am) -> holds_time tb i t' -> holds_time tb i t -> raises tb (RAmend n am) EKey.

(** The call tells the label of workshift [i]. *)
Inductive tells {L : Type} (tb : timeboard L) (i : Z) (x : L) : revision L -> Prop :=
| tells_amend n am t : In (t, x) am -> holds_time tb i t -> tells tb i x (RAmend n am)
| tells_reset : tells tb i x (RReset x).

(** All about the workshifts but their labels. *)
Definition same_shifts {L : Type} (tb tb' : timeboard L) : Prop :=
  forall i t, (is_shift tb i <-> is_shift tb' i) /\ (starts_at tb i t <-> starts_at tb' i t)
    /\ (ends_at tb i t <-> ends_at tb' i t) /\ (ref_at tb i t <-> ref_at tb' i t)
    /\ (holds_time tb i t <-> holds_time tb' i t).

(** Timeboards at any time of their life. *)
Inductive revised {L : Type} : timeboard L -> Prop :=
| revised_reachable tb : reachable tb -> revised tb
| revised_op tb op : revised tb -> revised (fst (revise tb op))
| revised_add tb name sel tb' s : revised tb -> add_schedule tb name sel = Ok (tb', s) -> revised tb'
| revised_drop tb s tb' : revised tb -> drop_schedule tb s = Ok tb' -> revised tb'.

(** The same arguments with another selector. *)
Definition with_selector {L : Type} (a : tb_args L) (sel : L -> bool) : tb_args L :=
  mkArgs (a_freq a) (a_start a) (a_end a) (a_layout a) (a_amendments a) sel (a_name a) (a_ref_end a)
         (a_default a) (a_wt a) (a_num a).

(** The selector raises [e] for the label of a workshift, and for none before it. *)
Definition first_raise {L : Type} (tb : timeboard L) (sel : L -> res bool) (e : err) : Prop :=
  exists i x, is_shift tb i /\ tl_get (tb_tl tb) i = Ok x /\ sel x = Err e
    /\ forall j y, 0 <= j < i -> tl_get (tb_tl tb) j = Ok y -> exists b, sel y = Ok b.
(** The selector raises for none of the labels. *)
Definition never_raises {L : Type} (tb : timeboard L) (sel : L -> res bool) (total : L -> bool) : Prop :=
  forall i x, is_shift tb i -> tl_get (tb_tl tb) i = Ok x -> sel x = Ok (total x).
