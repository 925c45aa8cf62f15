(** Proofs of C80. *)
From Verif Require Import Base BaseProofs Civil CivilProofs Freq FreqProofs Frame FrameProofs Timeline Board Spec SpecLookup SpecMisc SpecCivil SpecLayout SpecQuery SpecInterval SpecSides SpecBuild SpecRoll SpecFiner BoardProofs TimelineProofs LookupProofs PeriodProofs PartProofs LayoutProofs MiscProofs TreeProofs SameProofs AlikeProofs IntervalProofs QueryProofs RollProofs SidesProofs.
From Coq Require Import ZifyBool ZifyNat.
Open Scope Z_scope.

(** ** Spans *)
Lemma tiles_next a b l x : tiles a b l -> In x l -> s_last x < b -> starts_span l (s_last x + 1).
Proof.
  intros Ht Hx Hb. destruct (tiles_tiling _ _ _ Ht) as (_ & (z & Hz & Ez) & _ & Hn).
  apply In_nth_error in Hx. destruct Hx as (j & Hj). destruct (nth_error l (S j)) as [y|] eqn:E.
  - exists y. split; [apply (nth_error_In _ _ E)|apply (Hn j x y Hj E)].
  - exfalso. apply nth_error_None in E. assert (S j = length l) by (pose proof (proj1 (nth_error_Some l j) ltac:(congruence)); lia).
    assert (Hl : nth_error (rev l) 0 = Some z) by (destruct (rev l); [discriminate Hz|exact Hz]).
    apply nth_error_split in Hj. destruct Hj as (l1 & l2 & -> & Hl1). rewrite app_length in H. cbn [length] in H.
    destruct l2; [|cbn [length] in H; lia]. rewrite rev_app_distr in Hl. cbn in Hl. injection Hl as ->. lia.
Qed.

Lemma within_span f d d' s spans spans' x y u : fr_wf f -> is_span f s -> cuts_too f d d' -> partition f d s = Ok spans -> partition f d' s = Ok spans' ->
  In x spans -> In y spans' -> s_first x <= u <= s_last x -> s_first y <= u <= s_last y -> s_first x <= s_first y /\ s_last y <= s_last x.
Proof.
  intros Hw Hs Hc P P' Hx Hy Ux Uy. assert (Sw : span_wf f s) by (unfold is_span, span_wf in *; lia).
  pose proof (partition_tiles _ _ _ _ Hw Sw P) as T. pose proof (partition_tiles _ _ _ _ Hw Sw P') as T'.
  pose proof (tiles_In _ _ _ _ T Hx) as Bx. pose proof (tiles_In _ _ _ _ T' Hy) as By.
  assert (K : forall v z, In z spans' -> s_first z = v -> ~ s_first y < v <= s_last y).
  { intros v z Hz E Hv. pose proof (tiles_In _ _ _ _ T' Hz) as Bz. apply In_znth in Hz, Hy. destruct Hz as (i & Hi). destruct Hy as (j & Hj).
    pose proof (tiles_unique _ _ _ i j z y v T' Hi Hj ltac:(lia) ltac:(lia)). subst j. rewrite Hi in Hj. injection Hj as ->. lia. }
  split.
  - destruct (Z.le_gt_cases (s_first x) (s_first y)) as [|G]; [assumption|exfalso].
    destruct (Hc s spans spans' Hs P P' (s_first x)) as (z & Hz & E); [exists x; auto|]. apply (K _ z Hz E). lia.
  - destruct (Z.le_gt_cases (s_last y) (s_last x)) as [|G]; [assumption|exfalso].
    destruct (Hc s spans spans' Hs P P' (s_last x + 1)) as (z & Hz & E); [apply (tiles_next _ _ _ _ T Hx); lia|]. apply (K _ z Hz E). lia.
Qed.

(** ** Units that a deciding part makes one workshift *)
Definition extent {L} (h : heap L) (leaf : layout L) (s : span) (u : Z) : Z * Z :=
  match leaf with
  | LLab _ => (s_first s, s_last s)
  | LOrgRem _ k => if rlabels h k then (u, u) else (s_first s, s_last s)
  | _ => (u, u)
  end.
Lemma extent_shift {L} (tl : timeline L) h dflt leaf s u : leaf_does tl h dflt leaf s u -> exists x, shift_of tl u (fst (extent h leaf s u)) (snd (extent h leaf s u)) x.
Proof.
  unfold leaf_does, extent. destruct leaf as [d [|i items]|d k|[[|z l]|k]|x]; cbn [fst snd].
  - eauto.
  - contradiction.
  - intros (x & H). destruct (rlabels h k); cbn [fst snd]; eauto.
  - eauto.
  - intros (x & _ & H). eauto.
  - intros (x & H & _). eauto.
  - eauto.
Qed.
Lemma extent_in {L} (h : heap L) leaf s u : s_first s <= u <= s_last s -> s_first s <= fst (extent h leaf s u) <= u /\ u <= snd (extent h leaf s u) <= s_last s.
Proof. intros H. unfold extent. destruct leaf as [| d k| |]; try destruct (rlabels h k); cbn [fst snd]; lia. Qed.

(** The organizers' own spans. *)
Lemma compound_span {L} f u (h : heap L) d l s leaf s1 : compound h d l -> decides f u l s leaf s1 ->
  extent h leaf s1 u = (s_first s1, s_last s1) /\ exists spans, partition f d s = Ok spans /\ In s1 spans /\ s_first s1 <= u <= s_last s1.
Proof.
  intros Hc Hd. destruct Hc as [d x labels|d k Hk].
  - inversion Hd as [| | | |d0 items spans s0 s' j it leaf0 s'' Hp Hj Hu Hit Hd']; subst.
    apply nth_error_In in Hit. apply (in_map_iff LLab (x :: labels)) in Hit. destruct Hit as (y & <- & _).
    inversion Hd'; subst. split; [reflexivity|]. exists spans. split; [exact Hp|]. split; [apply (nth_error_In _ _ Hj)|exact Hu].
  - inversion Hd as [| | |d0 k0 spans s0 s' j Hp Hj Hu|]; subst. split.
    + unfold extent. destruct (rlabels h k); [contradiction (Hk eq_refl)|reflexivity].
    + exists spans. split; [exact Hp|]. split; [apply (nth_error_In _ _ Hj)|exact Hu].
Qed.
Lemma divides_span {L} f u (h : heap L) d l s leaf s1 : fr_wf f -> span_wf f s -> divides d l -> decides f u l s leaf s1 ->
  extent h leaf s1 u = (u, u) \/ exists spans y, partition f d s = Ok spans /\ In y spans /\ s_first y <= u <= s_last y /\ s_first y <= s_first s1 /\ s_last s1 <= s_last y.
Proof.
  intros Hw Hs Hv Hd. destruct Hv as [d items|d k].
  - inversion Hd as [| |d0 s0| |d0 items0 spans s0 s' j it leaf0 s'' Hp Hj Hu Hit Hd']; subst; [left; reflexivity|right].
    exists spans, s'. split; [exact Hp|]. split; [apply (nth_error_In _ _ Hj)|]. split; [exact Hu|].
    apply (decides_nest _ _ _ _ _ _ Hw Hd'). pose proof (tiles_In _ _ _ _ (partition_tiles _ _ _ _ Hw Hs Hp) (nth_error_In _ _ Hj)). unfold span_wf in *. lia.
  - inversion Hd as [| | |d0 k0 spans s0 s' j Hp Hj Hu|]; subst. right. exists spans, s1. split; [exact Hp|]. split; [apply (nth_error_In _ _ Hj)|]. split; [exact Hu|lia].
Qed.

Lemma splits_extent {L} f (h : heap L) l l' : fr_wf f -> splits_into f h l l' -> forall s u leaf s1 leaf' s1', span_wf f s -> s_first s <= u <= s_last s ->
  decides f u l s leaf s1 -> decides f u l' s leaf' s1' ->
  fst (extent h leaf s1 u) <= fst (extent h leaf' s1' u) /\ snd (extent h leaf' s1' u) <= snd (extent h leaf s1 u).
Proof.
  intros Hw H. induction H as [l|x l|l p|l d|l l' d d' Hc Hv Hk|d items items' Hl Hi IH]; intros s u leaf s1 leaf' s1' Hs Hu D D';
    destruct (decides_inside _ _ _ _ _ _ Hw D Hs Hu) as (_ & U); destruct (decides_inside _ _ _ _ _ _ Hw D' Hs Hu) as (_ & U');
    pose proof (extent_in h leaf s1 u U) as X; pose proof (extent_in h leaf' s1' u U') as X'.
  - destruct (decides_fun _ _ _ _ _ _ Hw D Hs _ _ D') as (-> & ->). lia.
  - inversion D; subst. cbn [extent fst snd]. pose proof (decides_nest _ _ _ _ _ _ Hw D' Hs). lia.
  - inversion D'; subst. cbn [extent fst snd]. lia.
  - inversion D' as [| | | |d0 items0 spans s0 s' j it leaf0 s'' Hp Hj Hu' Hit Hd']; subst; [cbn [extent fst snd]; lia|].
    destruct (j mod length (@nil (layout L)))%nat; discriminate Hit.
  - destruct (compound_span _ _ _ _ _ _ _ _ Hc D) as (E & spans & P & I & B). rewrite E in *. cbn [fst snd] in *.
    destruct (divides_span _ _ h _ _ _ _ _ Hw Hs Hv D') as [E'|(spans' & y & P' & I' & B' & N)]; [rewrite E'; cbn [fst snd]; lia|].
    assert (Sp : is_span f s) by (unfold is_span, span_wf in *; lia).
    pose proof (within_span f d d' s spans spans' s1 y u Hw Sp Hk P P' I I' B B'). lia.
  - inversion D as [| |d0 s0 E0| |d0 items0 spans s0 s' j it leaf0 s2 Hp Hj Hu' Hit Hd]; subst.
    + destruct items'; [|discriminate Hl]. inversion D' as [| | | |d0 items0 spans s0 s' j it leaf0 s2 Hp Hj Hu' Hit Hd']; subst; [cbn [extent fst snd]; lia|].
      destruct (j mod length (@nil (layout L)))%nat; discriminate Hit.
    + inversion D' as [| |d0 s0 E0| |d0 items0 spans0 s0 s3 j' it' leaf0 s4 Hp' Hj' Hu1 Hit' Hd']; subst.
      { destruct items; [|discriminate Hl]. destruct (j mod length (@nil (layout L)))%nat; discriminate Hit. }
      rewrite Hp in Hp'. injection Hp' as <-. pose proof (partition_tiles _ _ _ _ Hw Hs Hp) as T.
      assert (Ej : Z.of_nat j = Z.of_nat j').
      { apply (tiles_unique _ _ _ _ _ s' s3 u T); try assumption; rewrite nth_error_znth, Nat2Z.id by lia; assumption. }
      assert (j = j') by lia. subst j'. rewrite Hj in Hj'. injection Hj' as <-. rewrite <- Hl in Hit'.
      pose proof (tiles_In _ _ _ _ T (nth_error_In _ _ Hj)) as B.
      eapply (IH _ it it' Hit Hit' s' u); try eassumption. unfold span_wf in *. lia.
Qed.

(** ** Whole timeboards *)
Lemma top_decides {L} f u (h : heap L) l o s leaf s1 : span_wf f s -> s_first s <= u <= s_last s -> fr_wf f -> top_organizer l = Ok o -> decides f u o s leaf s1 ->
  exists s2, decides f u l s leaf s2 /\ extent h leaf s2 u = extent h leaf s1 u.
Proof.
  intros Hs Hu Hw Ho D. destruct l as [d items|d k|[l|k]|x]; cbn [top_organizer] in Ho; try discriminate Ho; injection Ho as <-; eauto.
  inversion D as [| | | |d0 items0 spans s0 s' j it leaf0 s2 Hp Hj Hu' Hit Hd]; subst.
  rewrite Nat.mod_1_r in Hit. cbn [nth_error] in Hit. injection Hit as <-. inversion Hd; subst. exists s. split; [constructor|reflexivity].
Qed.

(** The same bounds with and without amendments. *)
Lemma built_extent {L} (a : tb_args L) h tb h' u : build a h = Ok (tb, h') ->
  let f := tl_frame (tb_tl tb) in 0 <= u < fr_len f ->
  exists leaf s i, decides f u (a_layout a) (whole_span f) leaf s /\ 0 <= i < tl_len (tb_tl tb)
    /\ bnd (tb_tl tb) i = fst (extent h leaf s u) /\ bnd (tb_tl tb) (i + 1) = snd (extent h leaf s u) + 1 /\ bnd (tb_tl tb) i <= u < bnd (tb_tl tb) (i + 1).
Proof.
  intros H f Hu. apply build_inv in H. destruct H as (org & f' & tl0 & Eo & _ & Et & _ & _ & _ & _ & _ & Hw & W0 & _ & Ef & Ef0 & Ei & _).
  unfold f in *. clear f. rewrite Ef in *. destruct (tree_leaf f' org _ _ h tl0 h' Hw Et u Hu) as (leaf & s & D & _ & Hd).
  assert (Hs : span_wf f' (whole_span f')) by (unfold span_wf, whole_span, fr_wf in *; cbn; lia).
  destruct (top_decides f' u h _ _ _ _ _ Hs ltac:(cbn; lia) Hw Eo D) as (s2 & D2 & E2).
  destruct (extent_shift _ _ _ _ _ _ Hd) as (x & Hx). apply shift_of_num in Hx; [|exact W0]. destruct Hx as (i & Hi & B1 & B2 & _ & Hb).
  exists leaf, s2, i. rewrite E2. split; [exact D2|]. unfold bnd, tl_len in *. rewrite Ei, Ef, Ef0 in *. split; [exact Hi|]. split; [exact B1|]. split; [exact B2|lia].
Qed.

Lemma C80_layouts_pf : forall L (a1 a2 : tb_args L) h tb1 tb2 h1 h2, build a1 h = Ok (tb1, h1) -> build a2 h = Ok (tb2, h2) ->
  a_freq a1 = a_freq a2 -> a_start a1 = a_start a2 -> a_end a1 = a_end a2 ->
  splits_into (tl_frame (tb_tl tb1)) h (a_layout a1) (a_layout a2) ->
  tl_frame (tb_tl tb1) = tl_frame (tb_tl tb2) /\ finer tb1 tb2.
Proof.
  intros L a1 a2 h tb1 tb2 h1 h2 B1 B2 E1 E2 E3 Hs.
  assert (Ef : tl_frame (tb_tl tb1) = tl_frame (tb_tl tb2)).
  { pose proof B1 as I1. pose proof B2 as I2. apply build_inv in I1, I2. destruct I1 as (o1 & f1 & t1 & _ & F1 & _ & _ & _ & _ & _ & _ & _ & _ & _ & G1 & _).
    destruct I2 as (o2 & f2 & t2 & _ & F2 & _ & _ & _ & _ & _ & _ & _ & _ & _ & G2 & _). rewrite G1, G2. rewrite E1, E2, E3, F2 in F1. congruence. }
  split; [exact Ef|]. pose proof (built_wf _ _ _ _ B1) as W1. pose proof (built_wf _ _ _ _ B2) as W2. intros j Hj. unfold is_shift, tb_len in Hj.
  set (u := bnd (tb_tl tb2) j).
  assert (Hu : 0 <= u < fr_len (tl_frame (tb_tl tb2))) by (apply (wf_range _ W2); apply (znth_In _ j); apply bnd_znth; exact Hj).
  destruct (built_extent a2 h tb2 h2 u B2 Hu) as (leaf' & s' & j' & D' & Hj' & X1 & X2 & X3).
  rewrite <- Ef in Hu. destruct (built_extent a1 h tb1 h1 u B1 Hu) as (leaf & s & i & D & Hi & Y1 & Y2 & Y3).
  assert (j' = j).
  { destruct (Z.lt_trichotomy j' j) as [G|[G|G]]; [|exact G|]; exfalso; unfold u in *.
    - pose proof (bnd_le _ W2 (j' + 1) j ltac:(lia) ltac:(lia) ltac:(lia)). lia.
    - pose proof (bnd_lt _ W2 j j' ltac:(lia) ltac:(lia) ltac:(lia)). lia. }
  subst j'. rewrite <- Ef in D'. pose proof (wf_frame _ W1) as Hw.
  destruct (splits_extent _ h _ _ Hw Hs (whole_span (tl_frame (tb_tl tb1))) u leaf s leaf' s' (whole_wf _ W1) ltac:(cbn; lia) D D') as (Z1 & Z2).
  exists i. split; [exact Hi|]. split; [exact Hj|]. intros t Ht. apply holds_time_iff in Ht; [|exact W2]. apply holds_time_iff; [exact W1|]. destruct Ht as (_ & Ht). rewrite <- Ef in Ht.
  split; [exact Hi|]. pose proof (unit_start_le (tl_frame (tb_tl tb1)) (bnd (tb_tl tb1) i) (bnd (tb_tl tb2) j) ltac:(lia)).
  pose proof (unit_start_le (tl_frame (tb_tl tb1)) (bnd (tb_tl tb2) (j + 1)) (bnd (tb_tl tb1) (i + 1)) ltac:(lia)). lia.
Qed.

(** ** Dividers *)
Lemma tiling_first a b l : tiles a b l -> starts_span l a.
Proof. intros H. destruct (tiles_hd _ _ _ H) as (s & rest & -> & E). exists s. split; [left; reflexivity|exact E]. Qed.
Lemma frame_wf f : is_frame f -> fr_wf f.
Proof. intros (t0 & t1 & H). apply mk_frame_inv in H. tauto. Qed.

(** Spans start at the first unit, or further on. *)
Lemma cuts_inside f d d' : fr_wf f -> (forall s spans spans', is_span f s -> partition f d s = Ok spans -> partition f d' s = Ok spans' ->
    forall u, s_first s < u <= s_last s -> starts_span spans u -> starts_span spans' u) -> cuts_too f d d'.
Proof.
  intros Hw H s spans spans' Hs P P' u Hu. assert (Sw : span_wf f s) by (unfold is_span, span_wf in *; lia).
  pose proof (partition_tiles _ _ _ _ Hw Sw P) as T. pose proof (partition_tiles _ _ _ _ Hw Sw P') as T'.
  destruct Hu as (x & Hx & E). pose proof (tiles_In _ _ _ _ T Hx).
  destruct (Z.eq_dec u (s_first s)) as [->|N]; [apply (tiling_first _ _ _ T')|].
  apply (H s spans spans' Hs P P'); [lia|]. exists x. auto.
Qed.

Lemma C80_marks_pf : forall f m m', is_frame f -> incl m m' -> cuts_too f (DMarks m) (DMarks m').
Proof.
  intros f m m' Hf Hi. pose proof (frame_wf f Hf) as Hw. apply cuts_inside; [exact Hw|]. intros s spans spans' Hs P P' u Hu.
  destruct (C05_marks_partial_pf f s m Hf Hs) as (l & El & _ & _ & H). destruct (C05_marks_partial_pf f s m' Hf Hs) as (l' & El' & _ & _ & H').
  rewrite P in El. rewrite P' in El'. injection El as <-. injection El' as <-. rewrite (H u Hu), (H' u Hu). intros (t & Ht & Hc). exists t. auto.
Qed.
Lemma C80_none_pf : forall f d, is_frame f -> cuts_too f (DMarks []) d.
Proof.
  intros f d Hf. pose proof (frame_wf f Hf) as Hw. apply cuts_inside; [exact Hw|]. intros s spans spans' Hs P P' u Hu.
  destruct (C05_marks_partial_pf f s [] Hf Hs) as (l & El & _ & _ & H). rewrite P in El. injection El as <-. rewrite (H u Hu). intros (t & [] & _).
Qed.
Lemma C80_periods_pf : forall f g g', is_frame f -> accepts (fr_str f) g -> accepts (fr_str f) g' -> fmult (to_freq g') = 1%positive ->
  begins_with (fbase (to_freq g')) (fbase (to_freq g)) -> cuts_too f (DMarker (mkMarker g [])) (DMarker (mkMarker g' [])).
Proof.
  intros f g g' Hf Ha Ha' Hm Hb. pose proof (frame_wf f Hf) as Hw. apply cuts_inside; [exact Hw|]. intros s spans spans' Hs P P' u Hu.
  destruct (C06_calendar_pf f s g Hf Hs Ha) as (l & _ & _ & El & _ & H & _). destruct (C06_calendar_pf f s g' Hf Hs Ha') as (l' & _ & _ & El' & _ & H' & _).
  rewrite P in El. rewrite P' in El'. injection El as <-. injection El' as <-. rewrite (H u Hu), (H' u Hu). clear H H'.
  set (t0 := unit_start f (s_first s)). set (b := fbase (to_freq g)) in *. set (b' := fbase (to_freq g')) in *.
  intros (k & k' & (p & p' & G1 & G2 & B) & (q & q' & G3 & G4 & C) & N).
  pose proof (unit_start_lt f (u - 1) u ltac:(lia)) as Hlt.
  destruct G1 as (o1 & O1 & ->). destruct G2 as (o2 & O2 & ->). destruct G3 as (o3 & O3 & ->). destruct G4 as (o4 & O4 & ->). fold b in O1, O2, O3, O4, B, C.
  apply in_cal_unit_pord in O1, O2, O3, O4. set (o := pord b t0) in *. subst o1 o2 o3 o4. set (n := fmult (to_freq g)) in *.
  assert (Hp : unit_start f (u - 1) < pstart b (o + (k + 1) * Z.pos n) <= unit_start f u).
  { split; [lia|]. assert (K : k < k').
    { destruct (Z.lt_ge_cases k k') as [|K]; [assumption|exfalso]. assert (K' : o + (k' + 1) * Z.pos n <= o + k * Z.pos n) by nia. apply (pstart_le_iff b) in K'. lia. }
    assert (K' : o + (k + 1) * Z.pos n <= o + k' * Z.pos n) by nia. apply (pstart_le_iff b) in K'. lia. }
  destruct (Hb (o + (k + 1) * Z.pos n)) as (m & Em). rewrite <- Em in Hp.
  assert (I : forall t, in_group g' t0 (pord b' t - pord b' t0) t).
  { intros t. unfold in_group, group_start. fold b'. rewrite Hm. exists (pstart b' (pord b' t)), (pstart b' (pord b' t + 1)).
    split; [exists (pord b' t0); split; [apply in_cal_unit_pord; reflexivity|f_equal; lia]|]. split; [exists (pord b' t0); split; [apply in_cal_unit_pord; reflexivity|f_equal; lia]|apply pord_spec]. }
  exists (pord b' (unit_start f (u - 1)) - pord b' t0), (pord b' (unit_start f u) - pord b' t0). split; [apply I|]. split; [apply I|].
  pose proof (pord_spec b' (unit_start f (u - 1))) as S1. pose proof (pord_spec b' (unit_start f u)) as S2.
  pose proof (pstart_le_iff b' m (pord b' (unit_start f (u - 1)))) as L1. pose proof (pstart_le_iff b' (pord b' (unit_start f u) + 1) m) as L2. lia.
Qed.

(** ** Intervals *)
Lemma bnd_times {L} (tb : timeboard L) i j a b : tl_wf (tb_tl tb) -> a < b ->
  (forall t, unit_start (tl_frame (tb_tl tb)) a <= t < unit_start (tl_frame (tb_tl tb)) b -> unit_start (tl_frame (tb_tl tb)) i <= t < unit_start (tl_frame (tb_tl tb)) j) -> i <= a /\ b <= j.
Proof.
  intros W Hab H. set (f := tl_frame (tb_tl tb)) in *. pose proof (unit_start_lt f a b Hab) as Hl.
  pose proof (H (unit_start f a) ltac:(lia)) as A. pose proof (H (unit_start f b - 1) ltac:(lia)) as B. split.
  - pose proof (unit_start_lt_iff f a i). lia.
  - pose proof (unit_start_lt_iff f j b). lia.
Qed.

Section Finer.
  Context {L : Type} (tb1 tb2 : timeboard L).
  Hypothesis W1 : tl_wf (tb_tl tb1).
  Hypothesis W2 : tl_wf (tb_tl tb2).
  Hypothesis Ef : tl_frame (tb_tl tb1) = tl_frame (tb_tl tb2).
  Let B1 := bnd (tb_tl tb1).
  Let B2 := bnd (tb_tl tb2).

  Lemma part_of_iff i j : part_of tb1 tb2 i j <-> is_shift tb1 i /\ is_shift tb2 j /\ B1 i <= B2 j /\ B2 (j + 1) <= B1 (i + 1).
  Proof.
    unfold part_of. split; intros (Hi & Hj & H); (split; [exact Hi|]; split; [exact Hj|]).
    - apply (bnd_times tb1 _ _ _ _ W1).
      + unfold B2, is_shift, tb_len in *. apply bnd_lt; [exact W2|lia..].
      + intros t Ht. rewrite Ef in Ht. assert (Hh : holds_time tb2 j t) by (apply holds_time_iff; [exact W2|split; [exact Hj|unfold B2 in *; lia]]).
        apply H in Hh. apply holds_time_iff in Hh; [|exact W1]. unfold B1. lia.
    - intros t Ht. apply holds_time_iff in Ht; [|exact W2]. apply holds_time_iff; [exact W1|]. split; [exact Hi|]. rewrite Ef.
      pose proof (unit_start_le (tl_frame (tb_tl tb2)) (B1 i) (B2 j) ltac:(lia)). pose proof (unit_start_le (tl_frame (tb_tl tb2)) (B2 (j + 1)) (B1 (i + 1)) ltac:(lia)).
      unfold B1, B2 in *. lia.
  Qed.

  Hypothesis F : finer tb1 tb2.
  Lemma bound_too i : 0 <= i <= tb_len tb1 -> exists j, 0 <= j <= tb_len tb2 /\ B2 j = B1 i.
  Proof.
    intros Hi. unfold tb_len in *. destruct (Z.eq_dec i (tl_len (tb_tl tb1))) as [->|N].
    - exists (tl_len (tb_tl tb2)). split; [unfold tl_len, zlen; lia|]. unfold B1, B2. rewrite !bnd_end by assumption. congruence.
    - pose proof (bnd_range _ W1 i ltac:(lia)) as R. fold (B1 i) in R. rewrite Ef in R. destruct (bnd_cover _ W2 (B1 i) R) as (j & Hj & C). fold (B2 j) (B2 (j + 1)) in C.
      destruct (F j Hj) as (i' & Hp). apply part_of_iff in Hp. destruct Hp as (Hi' & _ & P). unfold is_shift, tb_len in Hi'.
      pose proof (bnd_lt _ W1 i (i + 1) ltac:(lia) ltac:(lia) ltac:(lia)) as Q. fold (B1 i) (B1 (i + 1)) in Q.
      assert (i' = i) by (apply (bnd_unique _ W1 (B1 i)); fold (B1 i) (B1 i') (B1 (i + 1)) (B1 (i' + 1)); lia). subst i'.
      exists j. split; [lia|]. lia.
  Qed.
  Lemma bound_far i n : 0 <= i -> i + Z.of_nat n <= tb_len tb1 -> forall j k, 0 <= j <= tb_len tb2 -> 0 <= k <= tb_len tb2 -> B2 j = B1 i -> B2 k = B1 (i + Z.of_nat n) -> j + Z.of_nat n <= k.
  Proof.
    intros Hi. induction n as [|n IH]; intros Hn j k Hj Hk Ej Ek.
    - rewrite Z.add_0_r in *. rewrite <- Ej in Ek. unfold tb_len in *. destruct (Z.le_gt_cases j k) as [|G]; [assumption|].
      pose proof (bnd_lt _ W2 k j ltac:(lia) ltac:(lia) ltac:(lia)) as Q. fold (B2 j) (B2 k) in Q. lia.
    - destruct (bound_too (i + Z.of_nat n) ltac:(lia)) as (m & Hm & Em). pose proof (IH ltac:(lia) j m Hj Hm Ej Em) as Q.
      assert (m < k); [|lia]. unfold tb_len in *. apply (bnd_lt_inv _ W2); [lia|lia|]. fold (B2 m) (B2 k). rewrite Em, Ek. apply bnd_lt; [exact W1|lia..].
  Qed.
End Finer.

Lemma total_any {L} (tb : timeboard L) iv : tl_wf (tb_tl tb) -> iv_of tb iv -> iv_void iv = false ->
  total_duration tb iv DAny None = Ok (bnd (tb_tl tb) (iv_b iv + 1) - bnd (tb_tl tb) (iv_a iv)).
Proof.
  intros W Hiv Hv. rewrite (total_duration_ok tb W iv DAny None Hiv ltac:(unfold ivl_duty; auto) (proj1 Hiv)). f_equal.
  unfold iv_list. rewrite Hv, duty_list_any. destruct Hiv as (_ & Ha & Hb & Ho). rewrite Hv in Ho. unfold positions.
  replace (bnd (tb_tl tb) (iv_b iv + 1)) with (bnd (tb_tl tb) (iv_a iv + Z.of_nat (Z.to_nat (iv_b iv + 1 - iv_a iv)))) by (f_equal; lia).
  generalize (Z.to_nat (iv_b iv + 1 - iv_a iv)). generalize (iv_a iv). intros a0 n. revert a0. induction n as [|n IH]; intros a.
  - cbn [zrange map z_total fold_right]. replace (a + Z.of_nat 0) with a by lia. unfold z_total. cbn [fold_right]. lia.
  - cbn [zrange map]. unfold z_total in *. cbn [fold_right]. rewrite IH. replace (a + 1 + Z.of_nat n) with (a + Z.of_nat (S n)) by lia. lia.
Qed.

Lemma C80_interval_pf : forall L (tb1 tb2 : timeboard L) iv clip s, reachable tb1 -> reachable tb2 -> tl_frame (tb_tl tb1) = tl_frame (tb_tl tb2) -> finer tb1 tb2 ->
  iv_of tb1 iv -> iv_void iv = false -> (forall s', s = Some s' -> sched_for tb2 s') ->
  exists t0 t1 iv2, iv_start tb1 iv = Ok (Some t0) /\ iv_end tb1 iv = Ok (Some t1)
    /\ get_interval tb2 (RPair (Some t0) (Some t1)) None None clip C11 s = Ok iv2
    /\ iv_start tb2 iv2 = Ok (Some t0) /\ iv_end tb2 iv2 = Ok (Some t1)
    /\ iv_length iv <= iv_length iv2
    /\ (forall j, iv_mem iv2 j <-> exists i, iv_mem iv i /\ part_of tb1 tb2 i j)
    /\ total_duration tb1 iv DAny None = total_duration tb2 iv2 DAny None.
Proof.
  intros L tb1 tb2 iv clip s R1 R2 Ef F Hiv Hv Hsch. pose proof (reachable_wf tb1 R1) as (W1 & _). pose proof (reachable_wf tb2 R2) as (W2 & D2 & _).
  pose proof Hiv as (Hs & Ha & Hb & Ho). rewrite Hv in Ho. unfold is_shift in Ha, Hb.
  destruct (bound_too tb1 tb2 W1 W2 Ef F (iv_a iv) ltac:(lia)) as (a & Ra & Ea). destruct (bound_too tb1 tb2 W1 W2 Ef F (iv_b iv + 1) ltac:(lia)) as (c & Rc & Ec).
  pose proof (bound_far tb1 tb2 W1 W2 Ef F (iv_a iv) (Z.to_nat (iv_b iv + 1 - iv_a iv)) ltac:(lia) ltac:(lia) a c Ra Rc Ea ltac:(rewrite Ec; f_equal; lia)) as Far.
  assert (Sa : is_shift tb2 a) by (unfold is_shift; lia). assert (Sc : is_shift tb2 (c - 1)) by (unfold is_shift; lia).
  destruct (shift_times tb1 (iv_a iv) W1 Ha) as (T0 & _). destruct (shift_times tb1 (iv_b iv) W1 Hb) as (_ & T1 & _).
  destruct (shift_times tb2 a W2 Sa) as (T0' & _). destruct (shift_times tb2 (c - 1) W2 Sc) as (_ & T1' & _). replace (c - 1 + 1) with c in T1' by lia.
  rewrite Ea, <- Ef in T0'. rewrite Ec, <- Ef in T1'.
  set (t0 := unit_start (tl_frame (tb_tl tb1)) (bnd (tb_tl tb1) (iv_a iv))) in *. set (t1 := unit_start (tl_frame (tb_tl tb1)) (bnd (tb_tl tb1) (iv_b iv + 1)) - 1) in *.
  assert (H0 : holds_time tb2 a t0).
  { destruct (start_end tb2 a W2 Sa) as (x & _ & X & _ & Hx & _). unfold starts_at in *. rewrite T0' in X. injection X as <-. exact Hx. }
  assert (H1 : holds_time tb2 (c - 1) t1).
  { destruct (start_end tb2 (c - 1) W2 Sc) as (_ & x & _ & X & _ & Hx). unfold ends_at in *. rewrite T1' in X. injection X as <-. exact Hx. }
  set (iv2 := mkIvl a (c - 1) false (sched_arg s (tb_default tb2))).
  assert (Hiv2 : iv_of tb2 iv2).
  { split; [|split; [exact Sa|split; [exact Sc|cbn; lia]]]. unfold iv2. cbn [iv_sched]. destruct s as [s'|]; cbn [sched_arg]; [apply Hsch; reflexivity|apply D2]. }
  exists t0, t1, iv2. unfold iv_start, iv_end, iv_start_time, iv_end_time. rewrite Hv. unfold starts_at, ends_at in *. rewrite T0, T1. cbn [rmap].
  split; [reflexivity|]. split; [reflexivity|]. split.
  { destruct (C20_pair_pf L tb2 R2 (Some t0) (Some t1) clip s) as (H & _). destruct (H _ _ H0 H1) as (H2 & _). apply H2. lia. }
  unfold iv2. cbn [iv_void iv_a iv_b]. rewrite T0', T1'. split; [reflexivity|]. split; [reflexivity|].
  split; [unfold iv_length; rewrite Hv; cbn [iv_void iv_a iv_b]; lia|]. split.
  - intros j. unfold iv_mem. cbn [iv_void iv_a iv_b]. rewrite Hv. split.
    + intros (_ & Hj). assert (Sj : is_shift tb2 j) by (unfold is_shift; lia). destruct (F j Sj) as (i & Hp). exists i. split; [|exact Hp]. split; [reflexivity|].
      apply part_of_iff in Hp; [|assumption..]. destruct Hp as (Hi & _ & P). unfold is_shift, tb_len in *.
      pose proof (bnd_le _ W2 a j ltac:(lia) ltac:(lia) ltac:(lia)). pose proof (bnd_le _ W2 (j + 1) c ltac:(lia) ltac:(lia) ltac:(lia)).
      pose proof (bnd_lt _ W2 j (j + 1) ltac:(lia) ltac:(lia) ltac:(lia)).
      split.
      * assert (iv_a iv < i + 1); [|lia]. apply (bnd_lt_inv _ W1); lia.
      * assert (i < iv_b iv + 1); [|lia]. apply (bnd_lt_inv _ W1); lia.
    + intros (i & (_ & Hi) & Hp). split; [reflexivity|]. apply part_of_iff in Hp; [|assumption..]. destruct Hp as (Si & Sj & P). unfold is_shift, tb_len in *.
      pose proof (bnd_le _ W1 (iv_a iv) i ltac:(lia) ltac:(lia) ltac:(lia)). pose proof (bnd_le _ W1 (i + 1) (iv_b iv + 1) ltac:(lia) ltac:(lia) ltac:(lia)).
      pose proof (bnd_lt _ W2 j (j + 1) ltac:(lia) ltac:(lia) ltac:(lia)). split.
      * assert (a < j + 1); [|lia]. apply (bnd_lt_inv _ W2); lia.
      * assert (j < c); [|lia]. apply (bnd_lt_inv _ W2); lia.
  - rewrite (total_any tb1 iv W1 Hiv Hv). change (mkIvl a (c - 1) false (sched_arg s (tb_default tb2))) with iv2. rewrite (total_any tb2 iv2 W2 Hiv2 eq_refl). f_equal. unfold iv2. cbn [iv_a iv_b].
    replace (c - 1 + 1) with c by lia. lia.
Qed.
