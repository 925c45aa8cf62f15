(** Proofs of C05, C06, C13: partitions of a span. *)
From Verif Require Import Base BaseProofs Civil Freq FreqProofs Frame FrameProofs Timeline TimelineProofs Board Spec SpecLookup LookupProofs SpecCivil SpecLayout.
From Coq Require Import ZifyBool ZifyNat Permutation.
Ltac Zify.zify_post_hook ::= Z.div_mod_to_equations.

Lemma is_frame_wf f : is_frame f -> fr_wf f.
Proof. intros (t0 & t1 & H). apply mk_frame_inv in H. apply H. Qed.
Lemma is_span_wf f s : is_span f s -> span_wf f s.
Proof. unfold is_span, span_wf. lia. Qed.

(** ** Tilings *)
Lemma tiles_last a b l : tiles a b l -> exists s, hd_error (rev l) = Some s /\ s_last s = b.
Proof.
  induction 1 as [a b x y H|a m b x y rest H1 H2 Ht (s & IH & E)].
  - eexists. split; reflexivity.
  - exists s. split; [|exact E]. cbn [rev]. destruct (rev rest); [discriminate|]. exact IH.
Qed.
Lemma tiles_tiling a b l : tiles a b l -> tiling a b l.
Proof.
  intros H. split; [|split; [apply (tiles_last _ _ _ H)|split]].
  - destruct (tiles_hd _ _ _ H) as (s & rest & -> & E). exists s. split; [reflexivity|exact E].
  - intros s Hs. apply (tiles_In _ _ _ _ H Hs).
  - induction H as [a b x y H|a m b x y rest H1 H2 Ht IH]; intros j s s' Hj Hj'.
    + cbn in Hj'. destruct j; discriminate.
    + destruct j as [|j]; [|apply (IH j s s'); assumption].
      cbn in Hj. injection Hj as <-. cbn [nth_error] in Hj'. destruct (tiles_hd _ _ _ Ht) as (s0 & r & -> & E0).
      cbn in Hj'. injection Hj' as <-. exact E0.
Qed.
Lemma starts_span_In l u : starts_span l u <-> In u (map s_first l).
Proof. unfold starts_span. rewrite in_map_iff. split; intros (s & H1 & H2); exists s; auto. Qed.

(** A tiling is known by its starts. *)
Lemma subspan_map_ext f s pts pts' : fr_wf f -> (forall t, In t pts <-> In t pts') ->
  create_subspans f s pts = create_subspans f s pts'.
Proof.
  intros Hw H. unfold create_subspans, locate_subspans. destruct (check_span f s); [|reflexivity]. cbn [bind].
  do 2 f_equal. f_equal. apply asc_ext; [apply zdedup_asc, zsort_sorted|apply zdedup_asc, zsort_sorted|].
  intros u. rewrite !zdedup_In, !zsort_In, !get_loc_vectorized_In by exact Hw.
  split; intros [Hr (t & Ht & E)]; (split; [exact Hr|]); exists t; (split; [apply H; exact Ht|exact E]).
Qed.

(** ** C05 *)
Lemma cut_unit_by f t u : fr_wf f -> 0 <= u < fr_len f -> (cut_unit f t = u <-> cut_by f u t).
Proof.
  intros Hw Hu. unfold fr_wf in Hw. unfold cut_unit, cut_by, SMALLEST_TIMEDELTA.
  pose proof (unit_of_le_iff f 0 t) as H0. pose proof (unit_start_le f 0 u ltac:(lia)) as Hs0.
  destruct (t <? unit_start f 0) eqn:E1; [lia|].
  pose proof (unit_of_le_iff f (fr_len f - 1) t) as H1. pose proof (unit_of_le_iff f u t) as H2. pose proof (unit_of_le_iff f (u + 1) t) as H3.
  pose proof (unit_start_le f (u + 1) (fr_len f - 1)) as H4. rewrite unit_end_next. unfold NS_SEC in *.
  destruct (unit_start f (fr_len f - 1) + 1000000000 <=? t) eqn:E2.
  - split; [lia|]. intros (Ht & Hl & Hm). destruct (Z.eq_dec u (fr_len f - 1)) as [->|N]; [specialize (Hm eq_refl); lia|]. lia.
  - destruct (Z.eq_dec u (fr_len f - 1)) as [->|N]; split.
    + intros Ht. split; [lia|]. split; [lia|]. intros _. lia.
    + intros (Ht & _). lia.
    + intros Ht. split; [lia|]. split; [lia|]. intros C. contradiction.
    + intros (Ht & Hm & _). specialize (Hm ltac:(lia)). lia.
Qed.
Lemma cut_unit_in f t u : fr_wf f -> long_units f -> 0 <= u < fr_len f ->
  (cut_unit f t = u <-> in_unit f u t /\ (u = fr_len f - 1 -> t < unit_start f u + NS_SEC)).
Proof.
  intros Hw HL Hu. rewrite cut_unit_by by assumption. unfold cut_by, in_unit. specialize (HL u). rewrite unit_end_next.
  destruct (Z.eq_dec u (fr_len f - 1)) as [->|N].
  - split; [intros (H1 & _ & H3); specialize (H3 eq_refl)|intros ([H1 H2] & H3)]; repeat split; try assumption; lia.
  - split; [intros (H1 & H2 & _); specialize (H2 ltac:(lia))|intros ([H1 H2] & H3)]; repeat split; try assumption; try lia; contradiction.
Qed.
Lemma C05_long_pf : forall f, ~ In (fbase (to_freq (fr_str f))) [BL; BU; BN] -> long_units f.
Proof.
  intros f Hb u. unfold unit_start. assert (Ho : unit_ord f u + 1 <= unit_ord f (u + 1)) by (unfold unit_ord; pose proof (fr_mult_pos f); lia).
  pose proof (proj1 (pstart_le_iff (fr_base f) _ _) Ho) as Hp.
  enough (pstart (fr_base f) (unit_ord f u) + NS_SEC <= pstart (fr_base f) (unit_ord f u + 1)) by lia.
  change (fbase (to_freq (fr_str f))) with (fr_base f) in Hb. clear Hp Ho.
  generalize (unit_ord f u). intros o. pose proof (pstart_step (fr_base f) o) as Hs. revert Hs.
  destruct (fr_base f); cbn [pstart In] in *; unfold NS_SEC, NS_MIN, NS_HOUR, NS_DAY in *; intros Hs; try lia; tauto.
Qed.

(** What C05 says, except that for the last base unit of the frame the marks of the second from its
    start on count. *)
Lemma C05_marks_partial_pf : forall f s marks, is_frame f -> is_span f s ->
  exists spans, partition f (DMarks marks) s = Ok spans
    /\ tiling (s_first s) (s_last s) spans
    /\ (forall x, In x spans -> s_left x = 0 /\ s_right x = 0)
    /\ forall u, s_first s < u <= s_last s ->
         (starts_span spans u <->
          exists t, In t marks /\ cut_by f u t).
Proof.
  intros f s marks Hf Hs. apply is_frame_wf in Hf. pose proof (is_span_wf f s Hs) as Hs'. cbn [partition]. unfold partition_at_marks.
  destruct (create_subspans_ok f s marks Hf Hs') as (spans & E & Ht & Hin & Hz). exists spans.
  split; [exact E|]. split; [apply tiles_tiling; exact Ht|]. split; [exact Hz|].
  intros u Hu. rewrite starts_span_In, Hin. unfold is_span in Hs. split.
  - intros [->|(_ & t & Hin' & Hc)]; [lia|]. exists t. split; [exact Hin'|]. apply cut_unit_by; [exact Hf|lia|exact Hc].
  - intros (t & Hin' & Hc). right. split; [lia|]. exists t. split; [exact Hin'|]. apply cut_unit_by; [exact Hf|lia|exact Hc].
Qed.

Lemma C05_order_pf : forall f s marks marks', is_frame f -> is_span f s ->
  (forall u, s_first s < u <= s_last s ->
     ((exists t, In t marks /\ cut_by f u t)
      <-> exists t, In t marks' /\ cut_by f u t)) ->
  partition f (DMarks marks) s = partition f (DMarks marks') s.
Proof.
  intros f s m m' Hf Hs H. apply is_frame_wf in Hf. pose proof (is_span_wf f s Hs) as Hs'. unfold is_span in Hs. cbn [partition].
  unfold partition_at_marks, create_subspans, locate_subspans. rewrite (check_span_ok f s Hs'). cbn [bind].
  do 2 f_equal. f_equal. apply asc_ext; [apply zdedup_asc, zsort_sorted|apply zdedup_asc, zsort_sorted|].
  intros u. rewrite !zdedup_In, !zsort_In, !get_loc_vectorized_In by exact Hf.
  split; intros [Hr (t & Ht & E)]; (split; [exact Hr|]); apply cut_unit_by in E; try lia; try exact Hf.
  - destruct (proj1 (H u Hr)) as (t' & Ht' & E'); [exists t; split; assumption|]. exists t'. split; [exact Ht'|]. apply cut_unit_by; [exact Hf|lia|exact E'].
  - destruct (proj2 (H u Hr)) as (t' & Ht' & E'); [exists t; split; assumption|]. exists t'. split; [exact Ht'|]. apply cut_unit_by; [exact Hf|lia|exact E'].
Qed.

(** ** Groups *)
(** The frame of periods of [g] from the one that contains [t0] (any length). *)
Definition gframe (g : fstr) (t0 : Z) : frame := mkFrame g (pord (fbase (to_freq g)) t0) 1.

Lemma group_start_iff g t0 k p : group_start g t0 k p <-> p = unit_start (gframe g t0) k.
Proof.
  unfold group_start, unit_start, unit_ord, gframe, fr_base, fr_mult. cbn [fr_o0 fr_str]. split.
  - intros (o & Ho & ->). apply in_cal_unit_pord in Ho. rewrite Ho. reflexivity.
  - intros ->. eexists. split; [apply in_cal_unit_pord; reflexivity|reflexivity].
Qed.
Lemma in_group_iff g t0 k t : in_group g t0 k t <-> unit_of (gframe g t0) t = k.
Proof.
  unfold in_group. rewrite unit_of_iff, unit_end_next. split.
  - intros (p & p' & H1 & H2 & H3). apply group_start_iff in H1, H2. lia.
  - intros H. exists (unit_start (gframe g t0) k), (unit_start (gframe g t0) (k + 1)).
    rewrite !group_start_iff. split; [reflexivity|]. split; [reflexivity|lia].
Qed.

(** Every group starts where a base unit starts. *)
(** A period without a number is accepted for units of one part only. *)
Lemma single_accepts bu gb : check_groupby_freq bu gb = true -> one_part gb -> fmult (to_freq gb) = 1%positive -> accepts bu gb.
Proof.
  intros Hc Hg Hm. split; [|split; assumption]. unfold one_part in *. rewrite single_freq in Hm.
  2:{ intros k rest E. rewrite E in Hg. exact Hg. }
  cbn [fmult] in Hm. destruct (falias bu) as [| | | | |w| |m|m| | | | | | | |k rest] eqn:Eb; try exact I.
  unfold check_groupby_freq, is_subperiod, re_match in Hc. rewrite Eb, Hm in Hc.
  assert (E1 : (match fdigits bu, fdigits gb with None, None => is_subperiod_alias (AlMore k rest) (falias gb) | _, _ => false end) = false).
  { destruct (fdigits bu), (fdigits gb); try reflexivity. destruct (falias gb); try reflexivity; destruct Hg. }
  rewrite E1 in Hc. set (bf := opt_or (fdigits bu) 1%positive) in *.
  assert (Hgen : forall ga, (if (Pos.eqb bf 1) && (Pos.eqb 1 1) then false else if alias_eqb (tick_alias k) ga then Zpos 1 mod Zpos bf =? 0 else if Pos.eqb bf 1 then is_subperiod_alias (tick_alias k) ga else false) = true -> False).
  { intros ga H. destruct (Pos.eqb bf 1) eqn:E; [discriminate|]. cbn [andb] in H. destruct (alias_eqb (tick_alias k) ga); [|discriminate].
    apply Pos.eqb_neq in E. apply Z.eqb_eq in H. rewrite Z.mod_small in H by lia. discriminate. }
  clearbody bf. clear Eb E1 Hm. exfalso. destruct k; cbn [tick_alias] in *; try discriminate Hc; destruct (falias gb); try discriminate Hc; try (match type of Hc with context [alias_eqb _ ?x] => exact (Hgen x Hc) end); destruct Hg.
Qed.
Lemma one_part_freq s : one_part s -> to_freq s = mkFreq (alias_base (falias s)) (opt_or (fdigits s) 1%positive).
Proof. intros H. apply single_freq. intros k rest E. unfold one_part in H. rewrite E in H. exact H. Qed.

Lemma accepted_aligned f g a : accepts (fr_str f) g ->
  forall k, exists u, unit_start (gframe g (unit_start f a)) k = unit_start f u.
Proof.
  intros (Of & Og & H) k. unfold check_groupby_freq in H.
  assert (Ff : to_freq (fr_str f) = mkFreq (alias_base (falias (fr_str f))) (opt_or (fdigits (fr_str f)) 1%positive)) by (apply one_part_freq; exact Of).
  assert (Fg : to_freq g = mkFreq (alias_base (falias g)) (opt_or (fdigits g) 1%positive)) by (apply one_part_freq; exact Og).
  assert (Hal : is_subperiod_alias (falias (fr_str f)) (falias g) = true -> opt_or (fdigits (fr_str f)) 1%positive = 1%positive ->
                exists u, unit_start (gframe g (unit_start f a)) k = unit_start f u).
  { intros Hs Hd. apply is_subperiod_alias_aligned in Hs. unfold unit_start at 1, unit_ord, gframe, fr_base, fr_mult. cbn [fr_o0 fr_str].
    destruct (Hs (pord (fbase (to_freq g)) (unit_start f a) + k * Zpos (fmult (to_freq g)))) as [o Ho].
    rewrite Fg in Ho |- *. cbn [fbase fmult] in Ho |- *. rewrite <- Ho. exists (o - fr_o0 f).
    unfold unit_start, unit_ord, fr_mult, fr_base. rewrite Ff. cbn [fbase fmult].
    rewrite Hd. f_equal. lia. }
  destruct (is_subperiod (fr_str f) g) eqn:E.
  - unfold is_subperiod in E. destruct (fdigits (fr_str f)) eqn:E1; [discriminate|]. destruct (fdigits g); [discriminate|].
    apply Hal; [exact E|reflexivity].
  - unfold re_match in H.
    assert (H' : (if Pos.eqb (opt_or (fdigits (fr_str f)) 1%positive) 1 && Pos.eqb (opt_or (fdigits g) 1%positive) 1 then false
        else if alias_eqb (falias (fr_str f)) (falias g) then Zpos (opt_or (fdigits g) 1%positive) mod Zpos (opt_or (fdigits (fr_str f)) 1%positive) =? 0
        else if Pos.eqb (opt_or (fdigits (fr_str f)) 1%positive) 1 then is_subperiod_alias (falias (fr_str f)) (falias g) else false) = true).
    { unfold one_part in Of, Og. revert H Of Og. clear. intros H Of Og. destruct (falias (fr_str f)); try contradiction; destruct (falias g); try contradiction; try exact H; exfalso; exact (Bool.diff_false_true H). }
    clear H. destruct (Pos.eqb (opt_or (fdigits (fr_str f)) 1%positive) 1 && Pos.eqb (opt_or (fdigits g) 1%positive) 1); [discriminate|].
    destruct (alias_eqb (falias (fr_str f)) (falias g)) eqn:Ea.
    + apply alias_eqb_base in Ea. apply Z.eqb_eq in H'.
      replace (alias_base (falias (fr_str f))) with (fbase (to_freq (fr_str f))) in Ea by (rewrite Ff; reflexivity).
      replace (alias_base (falias g)) with (fbase (to_freq g)) in Ea by (rewrite Fg; reflexivity).
      replace (opt_or (fdigits g) 1%positive) with (fmult (to_freq g)) in H' by (rewrite Fg; reflexivity).
      replace (Zpos (opt_or (fdigits (fr_str f)) 1%positive)) with (fr_mult f) in H' by (unfold fr_mult; rewrite Ff; reflexivity).
      clear Ff Fg.
      exists (a + k * (Zpos (fmult (to_freq g)) / fr_mult f)).
      unfold unit_start at 1, unit_ord, gframe, fr_base, fr_mult. cbn [fr_o0 fr_str]. rewrite <- Ea.
      unfold unit_start at 1. change (fbase (to_freq (fr_str f))) with (fr_base f). rewrite pord_pstart.
      unfold unit_start, unit_ord. f_equal. pose proof (fr_mult_pos f) as Hm.
      pose proof (Z.div_mod (Zpos (fmult (to_freq g))) (fr_mult f) ltac:(lia)) as Hdm. rewrite H' in Hdm.
      change (Zpos (fmult (to_freq (fr_str f)))) with (fr_mult f). revert Hdm. generalize (Zpos (fmult (to_freq g)) / fr_mult f). intros c Hc. rewrite Hc. ring.
    + destruct (Pos.eqb (opt_or (fdigits (fr_str f)) 1%positive) 1) eqn:E1; [|discriminate]. apply Hal; [exact H'|lia].
Qed.

Lemma fits_iff f g a : fits g f a <-> forall k, exists u, unit_start (gframe g (unit_start f a)) k = unit_start f u.
Proof.
  unfold fits. split; intros H k; destruct (H k) as [u Hu]; exists u; [apply group_start_iff in Hu|apply group_start_iff]; symmetry; exact Hu.
Qed.
Lemma accepted_fits f g a : accepts (fr_str f) g -> fits g f a.
Proof. intros H. apply fits_iff. exact (accepted_aligned f g a H). Qed.

(** So no base unit is split. *)
Lemma fitting_unit f g a u t : fits g f a -> in_unit f u t ->
  unit_of (gframe g (unit_start f a)) t = unit_of (gframe g (unit_start f a)) (unit_start f u).
Proof.
  intros H Ht. rewrite fits_iff in H. unfold in_unit in Ht. set (G := gframe g (unit_start f a)).
  pose proof (unit_of_mono G (unit_start f u) t (proj1 Ht)) as Hle.
  destruct (Z.eq_dec (unit_of G t) (unit_of G (unit_start f u))) as [|N]; [assumption|exfalso].
  assert (Hk : unit_of G (unit_start f u) + 1 <= unit_of G t) by lia. apply unit_of_le_iff in Hk.
  destruct (H (unit_of G (unit_start f u) + 1)) as [v Hv]. fold G in Hv. rewrite Hv in Hk.
  pose proof (unit_of_spec G (unit_start f u)) as Hs. rewrite unit_end_next, Hv in Hs.
  assert (Huv : u < v) by (apply (unit_start_lt_iff f); lia).
  pose proof (unit_start_le f (u + 1) v ltac:(lia)). rewrite unit_end_next in Ht. lia.
Qed.

Lemma accepted_unit f g a u t : accepts (fr_str f) g -> in_unit f u t ->
  unit_of (gframe g (unit_start f a)) t = unit_of (gframe g (unit_start f a)) (unit_start f u).
Proof. intros H. apply fitting_unit, accepted_fits, H. Qed.

(** ** C13 *)
Lemma accepted_no_split f g a u : accepts (fr_str f) g -> ~ splits g (unit_start f a) f u.
Proof.
  intros H (t & t' & k & k' & H1 & H2 & H3 & H4 & N). apply in_group_iff in H3, H4.
  rewrite (accepted_unit f g a u t H H1) in H3. rewrite (accepted_unit f g a u t' H H2) in H4. congruence.
Qed.

Lemma C13_never_splits_partial_pf : forall f s m, is_frame f -> is_span f s -> one_part (fr_str f) -> one_part (m_each m) ->
  (forall spans, partition f (DMarker m) s = Ok spans -> forall u a, ~ splits (m_each m) (unit_start f a) f u)
  /\ (forall u a, splits (m_each m) (unit_start f a) f u -> partition f (DMarker m) s = Err EUnacceptablePeriod).
Proof.
  intros f s m Hf Hs Of Om. cbn [partition]. unfold partition_with_marker.
  destruct (check_groupby_freq (fr_str f) (m_each m)) eqn:E; cbn [negb].
  - pose proof (conj Of (conj Om E)) as Hc.
    split; [intros _ _ u a; apply accepted_no_split; exact Hc|]. intros u a Hsp. exfalso. exact (accepted_no_split f _ a u Hc Hsp).
  - split; [discriminate|reflexivity].
Qed.

(** ** C06 *)
Lemma stencil_gframe g t0 t1 st : mk_frame g t0 t1 = Ok st ->
  (forall k, unit_start st k = unit_start (gframe g t0) k) /\ fr_wf st
  /\ fr_len st = unit_of (gframe g t0) t1 + 1 /\ t0 <= unit_end (gframe g t0) (fr_len st - 1).
Proof.
  intros H. apply mk_frame_inv in H. destruct H as (H1 & H2 & H3 & H4 & H5).
  assert (E : forall k, unit_start st k = unit_start (gframe g t0) k).
  { intros k. unfold unit_start, unit_ord, gframe, fr_base, fr_mult in *. cbn [fr_o0 fr_str]. rewrite H2, H1. reflexivity. }
  split; [exact E|]. split; [exact H3|].
  assert (EL : fr_len st = unit_of (gframe g t0) t1 + 1).
  { rewrite H4. unfold unit_of, gframe, fr_base, fr_mult. cbn [fr_o0 fr_str]. rewrite H1. reflexivity. }
  split; [exact EL|]. rewrite unit_end_next.
  pose proof (unit_start_le (gframe g t0) 1 (fr_len st - 1 + 1)) as Hl. unfold fr_wf in H3. specialize (Hl ltac:(lia)).
  assert (Ho : unit_of (gframe g t0) t0 = 0).
  { unfold unit_of, gframe, fr_base. cbn [fr_o0 fr_str]. rewrite Z.sub_diag. apply Z.div_0_l. pose proof (fr_mult_pos (mkFrame g (pord (fbase (to_freq g)) t0) 1)). lia. }
  apply unit_of_iff in Ho. rewrite unit_end_next in Ho. replace (0 + 1) with 1 in Ho by lia. lia.
Qed.

Lemma gframe_origin g t0 : unit_of (gframe g t0) t0 = 0.
Proof.
  unfold unit_of, gframe, fr_base. cbn [fr_o0 fr_str]. rewrite Z.sub_diag. apply Z.div_0_l.
  pose proof (fr_mult_pos (mkFrame g (pord (fbase (to_freq g)) t0) 1)). lia.
Qed.

Lemma existsb_ord f o a n : 0 <= n -> existsb (Z.eqb o) (map (unit_ord f) (zrange a (Z.to_nat n))) = true
  <-> exists u, a <= u < a + n /\ o = unit_ord f u.
Proof.
  intros Hn. rewrite existsb_exists. split.
  - intros (x & Hx & E). apply in_map_iff in Hx. destruct Hx as (u & <- & Hu). apply zrange_In in Hu. exists u. split; lia.
  - intros (u & Hu & ->). exists (unit_ord f u). split; [|lia]. apply in_map. apply zrange_In. lia.
Qed.
Lemma unit_ord_inj f i j : unit_ord f i = unit_ord f j -> i = j.
Proof. unfold unit_ord. pose proof (fr_mult_pos f). nia. Qed.

Lemma dangle_units f v t1 a n : 0 <= n -> v <= unit_of f t1 ->
  dangle_len f (unit_start f v) t1 a n
  = zlen (filter (fun u => negb ((a <=? u) && (u <? a + n))) (zrange v (Z.to_nat (unit_of f t1 + 1 - v)))).
Proof.
  intros Hn Hv. unfold dangle_len. cbn zeta. unfold unit_start at 1 2. rewrite !pord_pstart. pose proof (fr_mult_pos f) as Hm.
  assert (Hk : period_count (fr_mult f) (unit_ord f v) (pord (fr_base f) t1) = unit_of f t1 + 1 - v).
  { unfold period_count. pose proof (unit_of_le_iff f v t1) as H. pose proof (pord_le_iff (fr_base f) (unit_ord f v) t1) as H'.
    change (pstart (fr_base f) (unit_ord f v)) with (unit_start f v) in H'.
    destruct (pord (fr_base f) t1 <? unit_ord f v) eqn:E; [lia|].
    unfold unit_of, unit_ord. replace (pord (fr_base f) t1 - (fr_o0 f + v * fr_mult f)) with (pord (fr_base f) t1 - fr_o0 f + (- v) * fr_mult f) by lia.
    rewrite Z.div_add by lia. lia. }
  rewrite Hk. replace (unit_of f t1 + 1 - v) with (Z.of_nat (Z.to_nat (unit_of f t1 + 1 - v))) by lia. rewrite Nat2Z.id.
  generalize (Z.to_nat (unit_of f t1 + 1 - v)). intros k. clear Hk Hv.
  assert (HM : forall l, zlen (filter (fun o => negb (existsb (Z.eqb o) (map (unit_ord f) (zrange a (Z.to_nat n))))) (map (fun i => unit_ord f v + i * fr_mult f) l))
     = zlen (filter (fun u => negb ((a <=? u) && (u <? a + n))) (map (fun i => v + i) l))).
  { induction l as [|i l IH]; [reflexivity|]. cbn [map filter].
    assert (E : existsb (Z.eqb (unit_ord f v + i * fr_mult f)) (map (unit_ord f) (zrange a (Z.to_nat n))) = ((a <=? v + i) && (v + i <? a + n))).
    { apply Bool.eq_true_iff_eq. rewrite existsb_ord by exact Hn. replace (unit_ord f v + i * fr_mult f) with (unit_ord f (v + i)) by (unfold unit_ord; lia). split.
      - intros (u & Hu & Eu). apply unit_ord_inj in Eu. lia.
      - intros Hu. exists (v + i). split; [lia|reflexivity]. }
    rewrite E. destruct (negb _); [rewrite !zlen_cons; lia|exact IH]. }
  rewrite HM. f_equal. f_equal. apply znth_ext; [rewrite zlen_map, !zlen_zrange; reflexivity|]. intros i Hii.
  destruct (Z.lt_ge_cases i 0) as [Hi|Hi]; [rewrite !znth_none by lia; reflexivity|].
  destruct (Z.lt_ge_cases i (Z.of_nat k)) as [Hi'|Hi'].
  - rewrite znth_map, !zrange_znth by lia. cbn [option_map]. f_equal.
  - rewrite !znth_none by (rewrite ?zlen_map, ?zlen_zrange; lia). reflexivity.
Qed.

Lemma skipped_before_ok f s v : fr_wf f -> span_wf f s -> v <= s_first s ->
  skipped_before f s false (unit_start f v) = s_first s - v.
Proof.
  intros Hw [Hs1 Hs2] Hv. unfold skipped_before. pose proof (unit_start_lt_iff f v (s_first s)) as Hlt.
  destruct (unit_start f v <? unit_start f (s_first s)) eqn:E; [|lia].
  rewrite dangle_units by (try lia; rewrite unit_of_start; lia). rewrite unit_of_start.
  replace (Z.to_nat (s_first s + 1 - v)) with (Z.to_nat (s_first s - v) + 1)%nat by lia. rewrite zrange_app, filter_app, zlen_app.
  rewrite filter_all by (intros u Hu; apply zrange_In in Hu; lia). rewrite filter_none by (intros u Hu; apply zrange_In in Hu; lia).
  rewrite zlen_zrange. change (zlen []) with 0. lia.
Qed.
Lemma skipped_after_ok f s w : fr_wf f -> span_wf f s -> s_last s < w ->
  skipped_after f s false (unit_start f w - 1) = w - 1 - s_last s.
Proof.
  intros Hw [Hs1 Hs2] Hv. unfold skipped_after. rewrite unit_end_next. pose proof (unit_start_lt_iff f (s_last s + 1) w) as Hlt.
  destruct (unit_start f (s_last s + 1) - 1 <? unit_start f w - 1) eqn:E; [|lia].
  assert (Eu : unit_of f (unit_start f w - 1) = w - 1).
  { apply unit_of_iff. rewrite unit_end_next. replace (w - 1 + 1) with w by lia. pose proof (unit_start_lt f (w - 1) w). lia. }
  rewrite dangle_units by (try lia; rewrite Eu; lia). rewrite Eu.
  replace (Z.to_nat (w - 1 + 1 - s_last s)) with (1 + Z.to_nat (w - 1 - s_last s))%nat by lia. rewrite zrange_app, filter_app, zlen_app.
  rewrite filter_none by (intros u Hu; apply zrange_In in Hu; lia). rewrite filter_all by (intros u Hu; apply zrange_In in Hu; lia).
  rewrite zlen_zrange. change (zlen []) with 0. lia.
Qed.

Lemma set_left_right l v w : l <> [] -> (forall x, In x l -> s_left x = 0 /\ s_right x = 0) ->
  (exists rest, map s_left (set_right w (set_left v l)) = v :: rest /\ forall x, In x rest -> x = 0)
  /\ (exists rest, map s_right (set_right w (set_left v l)) = rest ++ [w] /\ forall x, In x rest -> x = 0).
Proof.
  intros Hl Hz. destruct l as [|s l]; [contradiction|]. cbn [set_left].
  assert (Hs := Hz s (or_introl eq_refl)). assert (Hz' : forall x, In x l -> s_left x = 0 /\ s_right x = 0) by (intros x Hx; apply Hz; right; exact Hx).
  rewrite set_right_left_hd. cbn [map s_left]. split.
  - eexists. split; [reflexivity|]. intros x Hx. apply in_map_iff in Hx. destruct Hx as (y & <- & Hy). apply Hz'. exact Hy.
  - assert (HR : forall l x, s_right x = 0 -> (forall y, In y l -> s_left y = 0 /\ s_right y = 0) ->
      exists rest, map s_right (set_right w (x :: l)) = rest ++ [w] /\ forall y, In y rest -> y = 0).
    { clear. induction l as [|y l IH]; intros x Hx Hy.
      - exists []. split; [reflexivity|contradiction].
      - destruct (IH y) as (rest & E & Hr); [apply Hy; left; reflexivity|intros z Hz; apply Hy; right; exact Hz|].
        exists (0 :: rest). change (set_right w (x :: y :: l)) with (x :: set_right w (y :: l)). cbn [map]. rewrite E, Hx.
        split; [reflexivity|]. intros z [<-|Hz]; [reflexivity|apply Hr; exact Hz]. }
    apply HR; [apply Hs|exact Hz'].
Qed.

Lemma partition_calendar f s g : fr_wf f -> span_wf f s -> check_groupby_freq (fr_str f) g = true -> fits g f (s_first s) ->
  let G := gframe g (unit_start f (s_first s)) in
  exists spans a b, partition f (DMarker (mkMarker g [])) s = Ok spans
    /\ tiles (s_first s) (s_last s) spans
    /\ (forall u, s_first s < u <= s_last s -> (starts_span spans u <-> unit_of G (unit_start f (u - 1)) <> unit_of G (unit_start f u)))
    /\ (exists rest, map s_left spans = a :: rest /\ forall x, In x rest -> x = 0)
    /\ (exists rest, map s_right spans = rest ++ [b] /\ forall x, In x rest -> x = 0)
    /\ 0 <= a /\ unit_start f (s_first s - a) = unit_start G 0
    /\ 0 <= b /\ unit_start f (s_last s + 1 + b) = unit_start G (unit_of G (unit_start f (s_last s)) + 1).
Proof.
  intros Hw Hs Hc Hal G. assert (Hal' := proj1 (fits_iff _ _ _) Hal). cbn [partition]. unfold partition_with_marker. cbn [m_each m_at]. rewrite Hc. cbn [negb].
  rewrite (check_span_ok f s Hs). cbn [bind]. destruct Hs as [Hs1 Hs2].
  set (t0 := unit_start f (s_first s)) in *. set (t1 := unit_end f (s_last s)).
  assert (Ht : t0 <= t1) by (unfold t0, t1; rewrite unit_end_next; pose proof (unit_start_lt f (s_first s) (s_last s + 1)); lia).
  destruct (mk_frame_ok g t0 t1) as [st Est]; [apply pord_mono; exact Ht|]. rewrite Est. cbn [bind].
  destruct (stencil_gframe g t0 t1 st Est) as (Hst & Hwst & Hlen & _). fold G in Hst, Hlen.
  assert (Hl1 : unit_of G t1 = unit_of G (unit_start f (s_last s))).
  { apply (fitting_unit f g (s_first s) (s_last s) t1 Hal). unfold in_unit, t1. pose proof (unit_start_end f (s_last s)). lia. }
  destruct (Hal' 0) as [v Hv]. fold t0 in Hv. fold G in Hv.
  destruct (Hal' (unit_of G t1 + 1)) as [w Hw']. fold t0 in Hw'. fold G in Hw'.
  pose proof (gframe_origin g t0) as HO. fold G in HO.
  assert (Hv0 : v <= s_first s).
  { apply unit_of_iff in HO. rewrite Hv in HO. destruct (Z.le_gt_cases v (s_first s)) as [|Hgt]; [assumption|].
    apply (unit_start_lt f) in Hgt. fold t0 in Hgt. lia. }
  assert (Hw0 : s_last s < w).
  { pose proof (unit_of_spec G t1) as Hsp. rewrite (unit_end_next G), Hw' in Hsp. unfold t1 in Hsp. rewrite unit_end_next in Hsp.
    destruct (Z.lt_ge_cases (s_last s) w) as [|Hge]; [assumption|].
    pose proof (unit_start_le f w (s_last s) Hge). pose proof (unit_start_lt f (s_last s) (s_last s + 1)). lia. }
  unfold finish_partition.
  replace (fr_start_time st) with (unit_start f v) by (unfold fr_start_time; rewrite Hst, Hv; reflexivity).
  replace (fr_end_time st) with (unit_start f w - 1).
  2:{ unfold fr_end_time. rewrite unit_end_next, Hst, <- Hw', Hlen. f_equal. f_equal. lia. }
  rewrite skipped_before_ok by (try assumption; split; lia). rewrite skipped_after_ok by (try assumption; split; lia).
  destruct (create_subspans_ok f s (fr_start_times st) Hw (conj Hs1 Hs2)) as (spans & E & Ht' & Hin & Hz).
  rewrite E. cbn [bind].
  assert (Hne : spans <> []) by (destruct (tiles_hd _ _ _ Ht') as (x & r & -> & _); discriminate).
  destruct (set_left_right spans (s_first s - v) (w - 1 - s_last s) Hne Hz) as [HL HR].
  exists (set_right (w - 1 - s_last s) (set_left (s_first s - v) spans)), (s_first s - v), (w - 1 - s_last s).
  split; [reflexivity|]. split; [apply set_right_tiles, set_left_tiles, Ht'|]. split.
  - intros u Hu. rewrite starts_span_In, set_right_firsts, set_left_firsts, Hin.
    assert (Hcut : (exists t, In t (fr_start_times st) /\ cut_unit f t = u) <-> exists k, 0 <= k < fr_len st /\ unit_start G k = unit_start f u).
    { unfold fr_start_times. split.
      - intros (t & Htin & Htc). apply in_map_iff in Htin. destruct Htin as (k & <- & Hk). apply zrange_In in Hk. unfold fr_wf in Hwst.
        exists k. split; [lia|]. rewrite Hst in Htc. apply cut_unit_by in Htc; [|exact Hw|lia]. unfold cut_by in Htc.
        destruct (Hal' k) as [x Hx]. fold t0 in Hx. fold G in Hx. rewrite Hx in *.
        assert (Hkt : unit_start G k <= t1) by (apply unit_of_le_iff; lia). rewrite Hx in Hkt. unfold t1 in Hkt. rewrite unit_end_next in Hkt, Htc.
        pose proof (unit_start_lt_iff f x (s_last s + 1)) as X1. pose proof (unit_start_lt_iff f x (u + 1)) as X2. pose proof (unit_start_lt_iff f x u) as X3.
        f_equal. lia.
      - intros (k & Hk & Ek). exists (unit_start st k). split; [apply in_map, zrange_In; lia|]. rewrite Hst, Ek.
        apply cut_unit_by; [exact Hw|lia|]. unfold cut_by. pose proof (unit_start_end f u). unfold NS_SEC. split; [lia|split; lia]. }
    rewrite Hcut. split.
    + intros [->|(_ & k & Hk & Ek)]; [lia|]. rewrite <- Ek, unit_of_start. intros Ex. apply unit_of_iff in Ex.
      rewrite Ek in Ex. pose proof (unit_start_lt f (u - 1) u). lia.
    + intros Hne'. right. split; [lia|]. exists (unit_of G (unit_start f u)).
      pose proof (unit_of_mono G (unit_start f (u - 1)) (unit_start f u) ltac:(pose proof (unit_start_lt f (u - 1) u); lia)) as Hm.
      assert (H0u : 0 <= unit_of G (unit_start f u)) by (rewrite <- HO; apply unit_of_mono; apply unit_start_le; lia).
      assert (Hul : unit_of G (unit_start f u) < fr_len st).
      { rewrite Hlen, Hl1. pose proof (unit_of_mono G (unit_start f u) (unit_start f (s_last s)) (unit_start_le f _ _ (proj2 Hu))). lia. }
      split; [lia|].
      destruct (Hal' (unit_of G (unit_start f u))) as [x Hx]. fold t0 in Hx. fold G in Hx. rewrite Hx.
      f_equal. pose proof (unit_of_spec G (unit_start f u)) as Hsp. rewrite Hx in Hsp.
      assert (Hxu : x <= u) by (destruct (Z.le_gt_cases x u) as [|Hgt]; [assumption|]; apply (unit_start_lt f) in Hgt; lia).
      destruct (Z.eq_dec x u) as [|Nxu]; [assumption|exfalso]. apply Hne'. apply unit_of_iff. rewrite Hx, unit_end_next.
      pose proof (unit_start_le f x (u - 1) ltac:(lia)). pose proof (unit_start_lt f (u - 1) u ltac:(lia)).
      rewrite unit_end_next in Hsp. lia.
  - split; [exact HL|]. split; [exact HR|]. split; [lia|]. split; [rewrite Hv; f_equal; lia|]. split; [lia|].
    rewrite <- Hl1, Hw'. f_equal. lia.
Qed.

Lemma C06_fitting_pf : forall f s g, is_frame f -> is_span f s -> check_groupby_freq (fr_str f) g = true -> fits g f (s_first s) ->
  let t0 := unit_start f (s_first s) in
  exists spans before after, partition f (DMarker (mkMarker g [])) s = Ok spans
    /\ tiling (s_first s) (s_last s) spans
    /\ (forall u, s_first s < u <= s_last s ->
          (starts_span spans u <->
           exists k k', in_group g t0 k (unit_start f (u - 1)) /\ in_group g t0 k' (unit_start f u) /\ k <> k'))
    /\ (exists rest, map s_left spans = before :: rest /\ forall x, In x rest -> x = 0)
    /\ 0 <= before /\ group_start g t0 0 (unit_start f (s_first s - before))
    /\ (exists rest, map s_right spans = rest ++ [after] /\ forall x, In x rest -> x = 0)
    /\ 0 <= after /\ (forall k, in_group g t0 k (unit_start f (s_last s)) -> group_start g t0 (k + 1) (unit_start f (s_last s + 1 + after))).
Proof.
  intros f s g Hf Hs Hc Hal t0. destruct (partition_calendar f s g (is_frame_wf f Hf) (is_span_wf f s Hs) Hc Hal) as (spans & a & b & E & Ht & Hu & HL & HR & Ha & Ea & Hb & Eb).
  fold t0 in Hu, Ea, Eb.
  exists spans, a, b. split; [exact E|]. split; [apply tiles_tiling, Ht|]. split; [|split; [exact HL|split; [exact Ha|split; [|split; [exact HR|split; [exact Hb|]]]]]].
  - intros u Hr. rewrite (Hu u Hr). split.
    + intros N. eexists _, _. rewrite !in_group_iff. split; [reflexivity|]. split; [reflexivity|exact N].
    + intros (k & k' & H1 & H2 & N). apply in_group_iff in H1, H2. congruence.
  - apply group_start_iff. exact Ea.
  - intros k Hk. apply in_group_iff in Hk. apply group_start_iff. rewrite Eb, Hk. reflexivity.
Qed.

Lemma C06_calendar_pf : forall f s g, is_frame f -> is_span f s -> accepts (fr_str f) g ->
  let t0 := unit_start f (s_first s) in
  exists spans before after, partition f (DMarker (mkMarker g [])) s = Ok spans
    /\ tiling (s_first s) (s_last s) spans
    /\ (forall u, s_first s < u <= s_last s ->
          (starts_span spans u <->
           exists k k', in_group g t0 k (unit_start f (u - 1)) /\ in_group g t0 k' (unit_start f u) /\ k <> k'))
    /\ (exists rest, map s_left spans = before :: rest /\ forall x, In x rest -> x = 0)
    /\ 0 <= before /\ group_start g t0 0 (unit_start f (s_first s - before))
    /\ (exists rest, map s_right spans = rest ++ [after] /\ forall x, In x rest -> x = 0)
    /\ 0 <= after /\ (forall k, in_group g t0 k (unit_start f (s_last s)) -> group_start g t0 (k + 1) (unit_start f (s_last s + 1 + after))).
Proof.
  intros f s g Hf Hs Hc. exact (C06_fitting_pf f s g Hf Hs (proj2 (proj2 Hc)) (accepted_fits f g _ Hc)).
Qed.

(** ** Spans that are not in the frame *)
Lemma C05_refused_pf : forall f d s, is_frame f ->
  (forall m, d = DMarker m -> check_groupby_freq (fr_str f) (m_each m) = true) ->
  ((~ 0 <= s_first s < fr_len f \/ ~ 0 <= s_last s < fr_len f) -> partition f d s = Err EOutOfBounds)
  /\ (0 <= s_last s < s_first s -> s_first s < fr_len f -> partition f d s = Err EVoidInterval).
Proof.
  intros f d s _ Hd.
  assert (E : forall e, check_span f s = Err e -> partition f d s = Err e).
  { intros e He. destruct d as [m|marks]; cbn [partition].
    - unfold partition_with_marker. rewrite (Hd m eq_refl). cbn [negb]. rewrite He. reflexivity.
    - unfold partition_at_marks, create_subspans, locate_subspans. rewrite He. reflexivity. }
  split; intros H; [|intros H']; apply E; unfold check_span, fr_get.
  - destruct ((0 <=? s_first s) && (s_first s <? fr_len f)) eqn:E1;
      [|destruct ((s_first s <? 0) && (0 <=? s_first s + fr_len f)) eqn:E3; [|reflexivity]];
      (destruct ((0 <=? s_last s) && (s_last s <? fr_len f)) eqn:E2;
         [|destruct ((s_last s <? 0) && (0 <=? s_last s + fr_len f)) eqn:E4; [|reflexivity]]);
      destruct ((s_first s <? 0) || (s_last s <? 0)) eqn:E5; try reflexivity; exfalso; lia.
  - replace ((0 <=? s_first s) && (s_first s <? fr_len f)) with true by lia.
    replace ((0 <=? s_last s) && (s_last s <? fr_len f)) with true by lia.
    replace ((s_first s <? 0) || (s_last s <? 0)) with false by lia.
    replace (s_last s <? s_first s) with true by lia. reflexivity.
Qed.
