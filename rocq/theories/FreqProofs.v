From Verif Require Import Base Civil CivilProofs Freq.
From Coq Require Import ZifyBool.
Ltac Zify.zify_post_hook ::= Z.div_mod_to_equations.

(** A strictly increasing sequence with a locating function. *)
Lemma seq_mono (s : Z -> Z) (H : forall k, s k < s (k + 1)) a b : a < b -> s a < s b.
Proof.
  intros Hab. replace b with (a + 1 + (b - a - 1)) by lia.
  assert (Hn : 0 <= b - a - 1) by lia. revert Hn. generalize (b - a - 1). intros n Hn.
  pattern n. apply natlike_ind; [| |exact Hn].
  - replace (a + 1 + 0) with (a + 1) by lia. apply H.
  - intros x Hx IH. replace (a + 1 + Z.succ x) with (a + 1 + x + 1) by lia.
    specialize (H (a + 1 + x)). lia.
Qed.

Lemma seq_le (s : Z -> Z) (H : forall k, s k < s (k + 1)) a b : a <= b <-> s a <= s b.
Proof.
  split; intros Hab.
  - destruct (Z.eq_dec a b) as [->|Hn]; [lia|]. pose proof (seq_mono s H a b). lia.
  - destruct (Z.le_gt_cases a b) as [|Hn]; [assumption|]. pose proof (seq_mono s H b a). lia.
Qed.

Lemma month_start_mono a b : a < b -> month_start a < month_start b.
Proof. apply seq_mono, month_start_lt. Qed.

Lemma pstart_step b o : pstart b o < pstart b (o + 1).
Proof.
  destruct b as [| | | |d| |m|m| | |]; cbn [pstart]; unfold NS_MICRO, NS_MILLI, NS_SEC, NS_MIN, NS_HOUR, NS_DAY; try lia.
  - pose proof (month_start_lt o). lia.
  - pose proof (month_start_mono (3 * o + (m - 12)) (3 * (o + 1) + (m - 12))). lia.
  - pose proof (month_start_mono (12 * o + (m - 12)) (12 * (o + 1) + (m - 12))). lia.
Qed.

Lemma pstart_lt b a o : a < o -> pstart b a < pstart b o.
Proof. apply seq_mono, pstart_step. Qed.

Lemma pstart_le_iff b a o : a <= o <-> pstart b a <= pstart b o.
Proof. apply seq_le, pstart_step. Qed.

Lemma month_start_le_iff a o : a <= o <-> month_start a <= month_start o.
Proof. apply seq_le, month_start_lt. Qed.

(** The period found for a timestamp contains it. *)
Lemma pord_spec b t : pstart b (pord b t) <= t < pstart b (pord b t + 1).
Proof.
  destruct b as [| | | |d| |m|m| | |]; cbn [pstart pord]; unfold NS_MICRO, NS_MILLI, NS_SEC, NS_MIN, NS_HOUR, NS_DAY; try lia.
  - pose proof (month_of_day_spec (t / 86400000000000)). lia.
  - pose proof (month_of_day_spec (t / 86400000000000)) as H.
    set (k := month_of_day (t / 86400000000000)) in *.
    pose proof (month_start_le_iff (3 * ((k - (m - 12)) / 3) + (m - 12)) k).
    pose proof (month_start_le_iff (k + 1) (3 * ((k - (m - 12)) / 3 + 1) + (m - 12))). lia.
  - pose proof (month_of_day_spec (t / 86400000000000)) as H.
    set (k := month_of_day (t / 86400000000000)) in *.
    pose proof (month_start_le_iff (12 * ((k - (m - 12)) / 12) + (m - 12)) k).
    pose proof (month_start_le_iff (k + 1) (12 * ((k - (m - 12)) / 12 + 1) + (m - 12))). lia.
Qed.

Lemma pord_iff b t o : pord b t = o <-> pstart b o <= t < pstart b (o + 1).
Proof.
  pose proof (pord_spec b t) as H. split.
  - intros <-. exact H.
  - intros Ho. destruct (Z.lt_trichotomy (pord b t) o) as [Hc|[Hc|Hc]]; [|exact Hc|].
    + pose proof (proj1 (pstart_le_iff b (pord b t + 1) o)). lia.
    + pose proof (proj1 (pstart_le_iff b (o + 1) (pord b t))). lia.
Qed.

Lemma pord_pstart b o : pord b (pstart b o) = o.
Proof. apply pord_iff. pose proof (pstart_step b o). lia. Qed.

Lemma pord_le_iff b o t : o <= pord b t <-> pstart b o <= t.
Proof.
  pose proof (pord_spec b t) as H. split; intros Ho.
  - pose proof (proj1 (pstart_le_iff b o (pord b t))). lia.
  - destruct (Z.le_gt_cases o (pord b t)) as [|Hc]; [assumption|].
    pose proof (proj1 (pstart_le_iff b (pord b t + 1) o)). lia.
Qed.

Lemma pord_mono b s t : s <= t -> pord b s <= pord b t.
Proof. intros H. apply pord_le_iff. pose proof (pord_spec b s). lia. Qed.

(** [sub b g]: every start of a [g]-period is a start of a [b]-period. *)
Definition starts_aligned (b g : base) : Prop := forall o, exists k, pstart b k = pstart g o.

Lemma starts_aligned_refl b : starts_aligned b b.
Proof. intros o. exists o. reflexivity. Qed.

Lemma is_subperiod_alias_aligned a g :
  is_subperiod_alias a g = true -> starts_aligned (alias_base a) (alias_base g).
Proof.
  intros H.
  assert (Htick : forall u v c, (forall o, pstart u o = o * tick_ns u) -> (forall o, pstart v o = o * tick_ns v) -> tick_ns v = c * tick_ns u -> starts_aligned u v).
  { intros u v c Hu Hv E o. exists (o * c). rewrite Hu, Hv, E. ring. }
  assert (Hday : forall u v c, (forall o, pstart u o = o * tick_ns u) -> (forall o, exists d, pstart v o = d * NS_DAY) -> NS_DAY = c * tick_ns u -> starts_aligned u v).
  { intros u v c Hu Hv E o. destruct (Hv o) as [d Hd]. exists (d * c). rewrite Hu, Hd, E. ring. }
  destruct g as [| | | | |dg| |mg|mg| | | | | | | |kg rg]; destruct a as [| | | | |da| |ma|ma| | | | | | | |ka ra];
    cbn [is_subperiod_alias orb alias_eqb] in H; try discriminate; cbn [alias_base].
  all: try apply starts_aligned_refl.
  all: try (match goal with |- starts_aligned ?u ?v =>
         let c := eval vm_compute in (tick_ns v / tick_ns u) in
         apply (Htick u v c); [intros o; cbn [pstart tick_ns]; ring|intros o; cbn [pstart tick_ns]; ring|vm_compute; reflexivity] end; fail).
  all: try (match goal with |- starts_aligned ?u ?v =>
         let c := eval vm_compute in (NS_DAY / tick_ns u) in
         apply (Hday u v c); [intros o; cbn [pstart tick_ns]; ring|intros o; cbn [pstart]; eexists; reflexivity|vm_compute; reflexivity] end; fail).
  - intros o. exists o. destruct da as [x|]; destruct dg as [y|]; cbn [opt_eqb opt_or] in *; try discriminate; [|reflexivity].
    apply Z.eqb_eq in H. subst. reflexivity.
  - intros o. cbn [pstart]. eexists. reflexivity.
  - intros o. cbn [pstart]. eexists. reflexivity.
  - intros o. cbn [pstart]. exists ((12 * o + (opt_or mg 12 - 12) - (opt_or ma 12 - 12)) / 3).
    f_equal. f_equal. lia.
Qed.

Lemma alias_eqb_base a b : alias_eqb a b = true -> alias_base a = alias_base b.
Proof.
  destruct a as [| | | | |x| |x|x| | | | | | | |x r]; destruct b as [| | | | |y| |y|y| | | | | | | |y r']; cbn [alias_eqb]; intros H; try discriminate; try reflexivity;
  destruct x as [x|]; destruct y as [y|]; cbn [opt_eqb] in H; try discriminate; cbn [alias_base opt_or]; try reflexivity;
  apply Z.eqb_eq in H; subst; reflexivity.
Qed.

(** ** Strings of several parts *)
(** A string of one part. *)
Lemma single_freq s : (forall k rest, falias s <> AlMore k rest) ->
  to_freq s = mkFreq (alias_base (falias s)) (opt_or (fdigits s) 1%positive).
Proof. intros H. unfold to_freq. destruct (falias s); try reflexivity. destruct (H k rest eq_refl). Qed.
Definition is_tick (b : base) : Prop := match b with BW _ | BM | BQ _ | BA _ => False | _ => True end.
Lemma more_tick s k rest : falias s = AlMore k rest -> is_tick (fbase (to_freq s)).
Proof.
  intros E. unfold to_freq. rewrite E. cbn [alias_base]. clear E.
  assert (H : is_tick (fbase (mkFreq (tick_base k) (opt_or (fdigits s) 1%positive)))) by (cbn [fbase]; destruct k; exact I).
  revert H. generalize (mkFreq (tick_base k) (opt_or (fdigits s) 1%positive)). induction rest as [|p rest IH]; intros f H; cbn [fold_left]; [exact H|].
  apply IH. unfold add_tick. cbv zeta. destruct (base_eqb (fbase f) (tick_base (snd p))); cbn [fbase]; [exact H|]. unfold delta_to_tick. cbv zeta. cbn [fbase].
  repeat match goal with |- context [if ?c then _ else _] => destruct c end; exact I.
Qed.
