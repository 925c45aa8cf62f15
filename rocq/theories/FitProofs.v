(** Proofs about frequency strings of several parts: when groups begin with base units (C13, C07). *)
From Verif Require Import Base BaseProofs Civil Freq FreqProofs Frame FrameProofs When Timeline Board Spec SpecLookup LookupProofs SpecCivil SpecLayout PartProofs PeriodProofs.
From Coq Require Import ZifyBool ZifyNat.
Open Scope Z_scope.

Lemma C13_split_iff_pf : forall f g a, (forall u, ~ splits g (unit_start f a) f u) <-> fits g f a.
Proof.
  intros f g a. split.
  - intros H. apply fits_iff. intros k. set (G := gframe g (unit_start f a)). set (p := unit_start G k).
    exists (unit_of f p). pose proof (unit_of_spec f p) as Hp.
    destruct (Z.eq_dec p (unit_start f (unit_of f p))) as [E|N]; [exact E|exfalso].
    apply (H (unit_of f p)). exists (p - 1), p, (k - 1), k. unfold in_unit.
    split; [lia|]. split; [lia|]. split; [|split; [|lia]]; apply in_group_iff; fold G; apply unit_of_iff.
    + pose proof (unit_start_lt G (k - 1) k ltac:(lia)) as Hl. rewrite unit_end_next. replace (k - 1 + 1) with k by lia. unfold p in *. lia.
    + pose proof (unit_start_end G k). unfold p. lia.
  - intros H u (t & t' & k & k' & H1 & H2 & H3 & H4 & N). apply in_group_iff in H3, H4.
    rewrite (fitting_unit f g a u t H H1) in H3. rewrite (fitting_unit f g a u t' H H2) in H4. congruence.
Qed.

Lemma lasts_step f d : proper_name (fr_str f) -> lasts (fr_str f) d -> forall v, unit_start f v = unit_start f 0 + v * d.
Proof.
  intros Hn Hd.
  assert (Hs : forall v, unit_start f (v + 1) = unit_start f v + d).
  { intros v. pose proof (Hd _ _ (proj1 (C45_periods_pf (fr_str f) Hn) (unit_ord f v))) as E.
    unfold p_start, p_end in E. cbn [p_freq p_ord] in E.
    replace (unit_start f (v + 1)) with (pstart (fbase (to_freq (fr_str f))) (unit_ord f v + Zpos (fmult (to_freq (fr_str f))))).
    - unfold unit_start at 1. unfold fr_base. lia.
    - unfold unit_start, unit_ord, fr_base, fr_mult. f_equal. lia. }
  intros v. destruct (Z.le_ge_cases 0 v) as [Hv|Hv].
  - revert v Hv. apply natlike_ind; [lia|]. intros v Hv IH. unfold Z.succ. rewrite Hs, IH. lia.
  - assert (forall n, 0 <= n -> unit_start f (- n) = unit_start f 0 + (- n) * d) as X.
    { apply natlike_ind; [rewrite Z.opp_0; lia|]. intros n Hn' IH. pose proof (Hs (- Z.succ n)) as E. replace (- Z.succ n + 1) with (- n) in E by lia. lia. }
    specialize (X (- v) ltac:(lia)). replace (- - v) with v in X by lia. exact X.
Qed.

Lemma C13_lengths_pf : forall f g a df dg, proper_name (fr_str f) -> proper_name g -> lasts (fr_str f) df -> lasts g dg ->
  (fits g f a <-> (exists v, group_start g (unit_start f a) 0 (unit_start f v)) /\ (df | dg)).
Proof.
  intros f g a df dg Hf Hg Lf Lg. pose proof (lasts_step f df Hf Lf) as Ef.
  pose proof (lasts_step (gframe g (unit_start f a)) dg Hg Lg) as Eg. split.
  - intros H. split; [exact (H 0)|]. destruct (proj1 (fits_iff _ _ _) H 0) as [v Hv]. destruct (proj1 (fits_iff _ _ _) H 1) as [w Hw].
    rewrite Eg in Hw. rewrite Hv, (Ef v), (Ef w) in Hw. exists (w - v). lia.
  - intros [[v Hv] [c Hc]]. apply group_start_iff in Hv. apply fits_iff. intros k. exists (v + k * c). rewrite Eg, <- Hv, (Ef v), (Ef (v + k * c)). lia.
Qed.
