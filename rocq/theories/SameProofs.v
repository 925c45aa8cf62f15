(** Proofs of C68: timeboards with the same layout agree where they overlap. *)
From Verif Require Import Base BaseProofs Civil CivilProofs Freq FreqProofs Frame FrameProofs When Timeline Board Spec SpecLookup SpecMisc SpecCivil SpecLayout SpecWhen SpecSame BoardProofs TimelineProofs LookupProofs PeriodProofs PartProofs LayoutProofs WhenProofs NthProofs EasterProofs MarkProofs MiscProofs TreeProofs.
From Coq Require Import Sorted ZifyBool ZifyNat.
Open Scope Z_scope.

(** ** Layouts with one element at every level *)
Lemma straight_governs {L} f u (ly : layout L) d leaf : straight ly d leaf -> forall s l1 s1, decides f u ly s l1 s1 ->
  exists s0, governs f u ly s d s0 leaf /\ l1 = leaf.
Proof.
  intros H. induction H as [d leaf Hl|d it d' leaf Hs IH]; intros s l1 s1 Hd; inversion Hd; subst; clear Hd.
  - match goal with H : nth_error [leaf] _ = Some ?x |- _ => assert (x = leaf) as ->
      by (rewrite Nat.mod_1_r in H; cbn [length nth_error] in H; congruence) end.
    exists s. split.
    + eapply (gov_here f u d [leaf] _ s _ _ leaf); eassumption.
    + match goal with H : decides f u leaf _ _ _ |- _ => destruct leaf; try contradiction; inversion H; reflexivity end.
  - match goal with H : nth_error [it] _ = Some ?x |- _ => assert (x = it) as ->
      by (rewrite Nat.mod_1_r in H; cbn [length nth_error] in H; congruence) end.
    match goal with H : decides f u it _ _ _ |- _ => destruct (IH _ _ _ H) as (s0 & Hg & ->) end.
    exists s0. split; [|reflexivity]. eapply (gov_inside f u d [it]); eassumption.
Qed.
Lemma straight_leaf {L} (ly : layout L) d leaf : straight ly d leaf -> match leaf with LPat _ | LLab _ => True | _ => False end.
Proof. induction 1; assumption. Qed.

Lemma whole_wf {L} (tl : timeline L) : tl_wf tl -> span_wf (tl_frame tl) (whole_span (tl_frame tl)).
Proof. intros W. pose proof (wf_frame _ W) as Hw. unfold span_wf, whole_span, fr_wf in *. cbn. lia. Qed.
Lemma built_wf {L} (a : tb_args L) h tb h' : build a h = Ok (tb, h') -> tl_wf (tb_tl tb).
Proof. intros H. apply reachable_wf. eapply reach_build. exact H. Qed.
Lemma built_frame {L} (a : tb_args L) h tb h' : build a h = Ok (tb, h') -> is_frame (tl_frame (tb_tl tb)).
Proof.
  intros H. apply build_inv in H. destruct H as (org & f & tl0 & _ & Ef & Et & Ea & _ & _ & _ & _ & _ & _ & _ & E & _).
  rewrite E. exists (a_start a), (a_end a). apply mk_frame_inv in Ef as Ei. destruct Ei as (-> & _). exact Ef.
Qed.

Lemma straight_board {L} (a : tb_args L) h tb h' org d leaf u : build a h = Ok (tb, h') -> a_amendments a = [] ->
  top_organizer (a_layout a) = Ok org -> straight org d leaf -> 0 <= u < fr_len (tl_frame (tb_tl tb)) ->
  let f := tl_frame (tb_tl tb) in
  exists s s', governs f u org (whole_span f) d s leaf /\ decides f u org (whole_span f) leaf s'
    /\ leaf_does (tb_tl tb) h (a_default a) leaf s' u.
Proof.
  intros H Ha Eo Hs Hu f. destruct (C09_tree_pf L a h tb h' H Ha) as (org' & Eo' & Ht). rewrite Eo in Eo'. injection Eo' as <-.
  destruct (Ht u Hu) as (l1 & s1 & Hd & _ & Hdo). destruct (straight_governs _ u org d leaf Hs _ _ _ Hd) as (s0 & Hg & ->).
  exists s0, s1. split; [exact Hg|]. split; [exact Hd|exact Hdo].
Qed.

(** ** Amendments *)
Lemma amended_shift {L} (a : tb_args L) h tb h' : build a h = Ok (tb, h') ->
  exists tb0, build (with_amendments a []) h = Ok (tb0, h') /\ tl_frame (tb_tl tb0) = tl_frame (tb_tl tb)
    /\ forall u x, shift_of (tb_tl tb0) u u u x -> exists y, shift_of (tb_tl tb) u u u y
      /\ forall z, z = y <-> (exists t, In (t, z) (a_amendments a) /\ in_unit (tl_frame (tb_tl tb)) u t)
                             \/ ((forall t w, In (t, w) (a_amendments a) -> ~ in_unit (tl_frame (tb_tl tb)) u t) /\ z = x).
Proof.
  intros H. pose proof H as H'. apply C14_amendments_pf in H'. destruct H' as (tb0 & E0 & _ & Hlab).
  exists tb0. split; [exact E0|].
  assert (W0 : tl_wf (tb_tl tb0)) by (eapply built_wf; exact E0). assert (W : tl_wf (tb_tl tb)) by (eapply built_wf; exact H).
  assert (Ea : with_amendments a (a_amendments a) = a) by (destruct a; reflexivity).
  pose proof (build_amended a h (a_amendments a) tb0 h' E0) as Eb. rewrite Ea, H in Eb.
  destruct (amend (tb_tl tb0) false (a_amendments a)) as [tl|e] eqn:Em; cbn [bind] in Eb; [|discriminate].
  assert (Etl : tb_tl tb = tl) by (injection Eb as ->; reflexivity). rewrite Etl in *. clear Eb.
  destruct (amend_wf _ _ _ _ W0 Em) as (_ & F1 & F2 & F3 & F4). split; [symmetry; exact F1|].
  intros u x (i & Hi & H1 & H2 & _ & H3).
  assert (Hl : tl_len tl = tl_len (tb_tl tb0)) by (unfold tl_len; rewrite F2; reflexivity).
  assert (Hb : forall k, bnd tl k = bnd (tb_tl tb0) k) by (intros k; unfold bnd; rewrite F1, F2; reflexivity).
  assert (Hi' : 0 <= i < tl_len tl) by lia.
  rewrite (ws_first_ok (tb_tl tb0)) in H1 by exact Hi. rewrite (ws_last_ok _ W0) in H2 by exact Hi. rewrite <- Hb in H1, H2. injection H1 as H1. injection H2 as H2.
  destruct (tl_get_ex _ W i Hi') as (y & Hy & _). exists y. split.
  { exists i. split; [exact Hi'|]. rewrite (ws_first_ok tl), (ws_last_ok _ W) by exact Hi'. rewrite H1, H2. split; [reflexivity|]. split; [reflexivity|]. split; [lia|exact Hy]. }
  assert (Hsh : is_shift tb i) by (unfold is_shift, tb_len; rewrite Etl; exact Hi').
  assert (Hh : forall t, holds_time tb i t <-> in_unit (tl_frame tl) u t).
  { intros t. rewrite holds_time_iff by (rewrite Etl; exact W). rewrite Etl. unfold in_unit. rewrite FrameProofs.unit_end_next, H1. replace (bnd tl (i + 1)) with (u + 1) by lia. tauto. }
  intros z. pose proof (Hlab i z Hsh) as Hz. rewrite Hy in Hz.
  assert (Ez : z = y <-> Ok y = Ok z) by (split; [intros ->; reflexivity|intros E; injection E as ->; reflexivity]).
  rewrite Ez, Hz. split.
  - intros [(t & Ht & Hht)|(Hn & Hg)]; [left; exists t; split; [exact Ht|apply Hh; exact Hht]|right].
    split; [intros t w Hw Hin; apply (Hn t w Hw), Hh, Hin|congruence].
  - intros [(t & Ht & Hht)|(Hn & ->)]; [left; exists t; split; [exact Ht|apply Hh; exact Hht]|right].
    split; [intros t w Hw Hin; apply (Hn t w Hw), Hh, Hin|exact H3].
Qed.

Lemma same_unit_next f1 f2 u v k : same_unit f1 f2 u v -> unit_start f1 (u + k) = unit_start f2 (v + k).
Proof.
  intros (E & _ & _ & H). unfold unit_start, unit_ord, fr_base, fr_mult in *. rewrite E in *. set (b := fbase (to_freq (fr_str f2))) in *.
  assert (I : forall o o', pstart b o = pstart b o' -> o = o').
  { intros o o' Ho. pose proof (pstart_le_iff b o o'). pose proof (pstart_le_iff b o' o). lia. }
  apply I in H. f_equal. lia.
Qed.
Lemma same_unit_dist f1 f2 u v k k' : same_unit f1 f2 u v -> unit_start f1 (u - k) = unit_start f2 (v - k') -> k = k'.
Proof.
  intros Hs E. pose proof (same_unit_next f1 f2 u v (- k) Hs) as E1. replace (u + - k) with (u - k) in E1 by lia. rewrite E in E1.
  pose proof (unit_start_lt_iff f2 (v - k') (v + - k)). pose proof (unit_start_lt_iff f2 (v + - k) (v - k')). lia.
Qed.
Lemma same_unit_in f1 f2 u v t : same_unit f1 f2 u v -> (in_unit f1 u t <-> in_unit f2 v t).
Proof.
  intros Hs. pose proof (same_unit_next f1 f2 u v 1 Hs) as E1. destruct Hs as (_ & _ & _ & E0). unfold in_unit. rewrite !FrameProofs.unit_end_next, E0, E1. tauto.
Qed.

(** If the timeboards without amendments agree, then so do those with the same amendments. *)
Lemma same_amended {L} (a1 a2 : tb_args L) h1 h2 tb1 tb2 h1' h2' u v :
  build a1 h1 = Ok (tb1, h1') -> build a2 h2 = Ok (tb2, h2') -> a_amendments a1 = a_amendments a2 ->
  same_unit (tl_frame (tb_tl tb1)) (tl_frame (tb_tl tb2)) u v ->
  (forall t1 t2, build (with_amendments a1 []) h1 = Ok (t1, h1') -> build (with_amendments a2 []) h2 = Ok (t2, h2') ->
     tl_frame (tb_tl t1) = tl_frame (tb_tl tb1) -> tl_frame (tb_tl t2) = tl_frame (tb_tl tb2) ->
     exists x, shift_of (tb_tl t1) u u u x /\ shift_of (tb_tl t2) v v v x) ->
  exists x, shift_of (tb_tl tb1) u u u x /\ shift_of (tb_tl tb2) v v v x.
Proof.
  intros H1 H2 Ea Hs Hk. destruct (amended_shift a1 h1 tb1 h1' H1) as (t1 & B1 & F1 & S1). destruct (amended_shift a2 h2 tb2 h2' H2) as (t2 & B2 & F2 & S2).
  destruct (Hk t1 t2 B1 B2 F1 F2) as (x & X1 & X2). destruct (S1 u x X1) as (y1 & Y1 & Z1). destruct (S2 v x X2) as (y2 & Y2 & Z2).
  assert (E : y1 = y2).
  { apply Z2. rewrite <- Ea. destruct (proj1 (Z1 y1) eq_refl) as [(t & Ht & Hi)|(Hn & ->)].
    - left. exists t. split; [exact Ht|]. apply (same_unit_in _ _ _ _ t Hs), Hi.
    - right. split; [|reflexivity]. intros t w Hw Hi. apply (Hn t w Hw). apply (same_unit_in _ _ _ _ t Hs), Hi. }
  subst y2. exists y1. split; assumption.
Qed.

(** ** Calendar periods *)
Lemma C68_calendar_pf : forall (L : Type) (a1 a2 : tb_args L) (h1 h2 : heap L) tb1 tb2 h1' h2' org g pat u v,
  build a1 h1 = Ok (tb1, h1') -> build a2 h2 = Ok (tb2, h2') -> a_amendments a1 = a_amendments a2 ->
  top_organizer (a_layout a1) = Ok org -> top_organizer (a_layout a2) = Ok org ->
  straight org (DMarker (mkMarker g [])) (LPat (PList pat)) -> one_part g -> times g = 1 -> pat <> [] ->
  one_part (fr_str (tl_frame (tb_tl tb1))) -> same_unit (tl_frame (tb_tl tb1)) (tl_frame (tb_tl tb2)) u v ->
  exists x, shift_of (tb_tl tb1) u u u x /\ shift_of (tb_tl tb2) v v v x.
Proof.
  intros L a1 a2 h1 h2 tb1 tb2 h1' h2' org g pat u v H1 H2 Ea O1 O2 Hst Og Tg Hne Of Hs.
  apply (same_amended a1 a2 h1 h2 tb1 tb2 h1' h2' u v H1 H2 Ea Hs). intros t1 t2 B1 B2 F1 F2.
  destruct Hs as (Es & Hu & Hv & Eu). rewrite <- F1 in *. rewrite <- F2 in *.
  destruct (straight_board (with_amendments a1 []) h1 t1 h1' org _ _ u B1 eq_refl O1 Hst Hu) as (s1 & s1' & G1 & _).
  destruct (straight_board (with_amendments a2 []) h2 t2 h2' org _ _ v B2 eq_refl O2 Hst Hv) as (s2 & s2' & G2 & _).
  exact (C07_inner_same_pf L (with_amendments a1 []) (with_amendments a2 []) h1 h2 t1 t2 h1' h2' org org g s1 s2 pat u v B1 B2 eq_refl eq_refl O1 O2 Es Of Og Tg Hne Hu Hv Eu G1 G2).
Qed.

(** ** Marks *)
(** The spans of a marker whose marks are those of [P] from [r] on: if the units to skip are known, the
    last mark up to any unit is at the start of its span less the skipped units. *)
Lemma aligned_marks f s g hows (P Q : Z -> Prop) r : is_frame f -> long_units f -> is_span f s -> check_groupby_freq (fr_str f) g = true ->
  marked f g s hows Q -> (forall t, Q t -> P t /\ r <= t) -> (forall t, P t -> exists u, t = unit_start f u) ->
  (forall t, P t -> r <= t <= unit_end f (s_last s) -> Q t) ->
  exists spans, partition f (DMarker (mkMarker g hows)) s = Ok spans
    /\ (forall s' u, In s' spans -> s_first s' <= u <= s_last s' -> 0 <= s_left s' ->
         last_upto P (unit_start f u) (unit_start f (s_first s' - s_left s')))
    /\ ((exists t, P t /\ r <= t <= unit_start f (s_first s)) <-> forall s', In s' spans -> 0 <= s_left s').
Proof.
  intros Hf Hlu Hs Hc HM HQP HPu HPQ.
  destruct (skips_of f s g hows Q Hf Hlu Hs Hc HM (fun t Ht => HPu t (proj1 (HQP t Ht)))) as (spans & E & before & after & HL & _ & HB & _).
  destruct HM as (pi & pts & Hpi & Hp & Hh & HQ).
  destruct (C51_cuts_pf f s g hows pi pts Hf Hs Hc Hh Hpi Hp) as (spans' & E' & _ & Hcut). rewrite E in E'. injection E' as <-.
  exists spans. split; [exact E|]. apply is_frame_wf in Hf. apply is_span_wf in Hs.
  pose proof (partition_tiles _ _ _ _ Hf Hs E) as Ht. destruct Hs as [Hs1 Hs2].
  assert (Hend : unit_start f (s_first s) <= unit_end f (s_last s)).
  { pose proof (unit_start_le f (s_first s) (s_last s) ltac:(lia)). pose proof (unit_start_end f (s_last s)). lia. }
  assert (Hcuts : forall w, s_first s < w <= s_last s -> (starts_span spans w <-> P (unit_start f w) /\ r <= unit_start f w)).
  { intros w Hw. rewrite (Hcut w Hw). split.
    - intros (ts & t & Hts & Hti & Hcb). assert (HPt : P t /\ r <= t) by (apply HQP, HQ; exists ts; split; assumption).
      destruct (HPu t (proj1 HPt)) as (z & Ez). apply (cut_unit_by f t w Hf ltac:(lia)) in Hcb. apply (cut_unit_in f t w Hf Hlu ltac:(lia)) in Hcb.
      destruct Hcb as [Hcb _]. unfold in_unit in Hcb. rewrite FrameProofs.unit_end_next in Hcb.
      assert (z = w) as -> by (pose proof (unit_start_lt_iff f z w); pose proof (unit_start_lt_iff f z (w + 1)); lia). rewrite <- Ez. exact HPt.
    - intros [HPw Hrw]. assert (Hwe : unit_start f w <= unit_end f (s_last s)).
      { rewrite FrameProofs.unit_end_next. pose proof (unit_start_lt f w (s_last s + 1) ltac:(lia)). lia. }
      assert (HQw : Q (unit_start f w)) by (apply HPQ; [exact HPw|lia]).
      apply HQ in HQw. destruct HQw as (ts & Hts & Hti). exists ts, (unit_start f w). split; [exact Hts|]. split; [exact Hti|].
      pose proof (Hlu w) as Hl. unfold cut_by. rewrite FrameProofs.unit_end_next. unfold NS_SEC in *. lia. }
  destruct (tiles_hd _ _ _ Ht) as (sh & rest & Esp & Eh). rewrite Esp in HL. cbn [map] in HL. destruct HL as (lrest & EL & HL0). injection EL as EL1 EL2.
  split.
  - intros s' u Hin Hu H0. pose proof (tiles_In _ _ _ s' Ht Hin) as Hin'.
    (* no mark within the span after its first unit *)
    assert (Hno : forall t, P t -> r <= t -> t <= unit_start f u -> t <= unit_start f (s_first s')).
    { intros t HPt Hrt Hle. destruct (HPu t HPt) as (w & ->).
      destruct (Z.le_gt_cases w (s_first s')) as [C|C]; [apply unit_start_le; exact C|exfalso].
      assert (Hwu : w <= u) by (pose proof (unit_start_lt_iff f u w); lia).
      destruct (proj2 (Hcuts w ltac:(lia)) (conj HPt Hrt)) as (s2 & Hi2 & E2).
      destruct (In_nth_error _ _ Hin) as (j1 & J1). destruct (In_nth_error _ _ Hi2) as (j2 & J2).
      assert (Z1 : znth spans (Z.of_nat j1) = Some s') by (rewrite nth_error_znth by lia; rewrite Nat2Z.id; exact J1).
      assert (Z2 : znth spans (Z.of_nat j2) = Some s2) by (rewrite nth_error_znth by lia; rewrite Nat2Z.id; exact J2).
      pose proof (tiles_In _ _ _ s2 Ht Hi2) as Hin2.
      pose proof (tiles_unique _ _ _ _ _ _ _ w Ht Z1 Z2 ltac:(lia) ltac:(lia)) as Ej. rewrite Ej, Z2 in Z1. injection Z1 as ->. lia. }
    (* a mark at the start of the span less the units skipped, and none between that and the start *)
    assert (Hm : exists t, t = unit_start f (s_first s' - s_left s') /\ P t /\ r <= t /\ t <= unit_start f (s_first s')
                   /\ forall t', P t' -> r <= t' -> t' <= unit_start f (s_first s') -> t' <= t).
    { eexists. split; [reflexivity|]. rewrite Esp in Hin. destruct Hin as [<-|Hin].
      - rewrite EL1, Eh in *. destruct HB as [[Hb _]|[Hb0 (HQb & Hle & Hlast)]]; [lia|]. destruct (HQP _ HQb) as [HPb Hrb].
        split; [exact HPb|]. split; [exact Hrb|]. split; [exact Hle|]. intros t' HPt' Hrt' Hlt'. apply Hlast; [apply HPQ; [exact HPt'|lia]|exact Hlt'].
      - assert (E0 : s_left s' = 0) by (apply HL0; rewrite <- EL2; apply in_map; exact Hin). rewrite E0 in *. rewrite Z.sub_0_r.
        assert (Hgt : s_first s < s_first s').
        { destruct (In_nth_error _ _ Hin) as (j & J). rewrite Esp in Ht.
          assert (Z1 : znth (sh :: rest) 0 = Some sh) by reflexivity.
          assert (Z2 : znth (sh :: rest) (Z.of_nat (S j)) = Some s') by (rewrite nth_error_znth by lia; rewrite Nat2Z.id; exact J).
          pose proof (tiles_disjoint _ _ _ _ _ _ _ Ht Z1 Z2 ltac:(lia)) as Hd. pose proof (tiles_In _ _ _ sh Ht ltac:(left; reflexivity)). lia. }
        destruct (proj1 (Hcuts (s_first s') ltac:(lia))) as [HPs Hrs]; [exists s'; split; [rewrite Esp; right; exact Hin|reflexivity]|].
        split; [exact HPs|]. split; [exact Hrs|]. split; [lia|]. intros t' _ _ Hlt'. exact Hlt'. }
    destruct Hm as (t & <- & HPt & Hrt & Hle & Hlast). split; [exact HPt|].
    split; [pose proof (unit_start_le f (s_first s') u ltac:(lia)); lia|].
    intros t' HPt' Ht'. destruct (Z.le_gt_cases r t') as [C|C]; [|lia]. apply Hlast; [exact HPt'|exact C|exact (Hno t' HPt' C Ht')].
  - split.
    + intros (tm & Htm & Hr) s' Hin. rewrite Esp in Hin. destruct Hin as [<-|Hin].
      * rewrite EL1. destruct HB as [[_ Hnone]|[Hb0 _]]; [|exact Hb0]. assert (HQm : Q tm) by (apply HPQ; [exact Htm|lia]). specialize (Hnone tm HQm). lia.
      * assert (E0 : s_left s' = 0) by (apply HL0; rewrite <- EL2; apply in_map; exact Hin). lia.
    + intros H. specialize (H sh ltac:(rewrite Esp; left; reflexivity)). rewrite EL1 in H. destruct HB as [[Hb _]|[_ (HQb & Hle & _)]]; [lia|].
      destruct (HQP _ HQb) as [HPb Hrb]. eexists. split; [exact HPb|]. split; [exact Hrb|exact Hle].
Qed.

Lemma once_mult g : one_part g -> times g = 1 -> fmult (to_freq g) = 1%positive.
Proof. intros Og E. rewrite (one_part_freq g Og). revert E. unfold times. cbn [fmult]. destruct (fdigits g); cbn [opt_or]; intros E; [congruence|reflexivity]. Qed.
Lemma named_iff g p p' : proper_name g -> one_part g -> times g = 1 ->
  (period_named g p p' <-> exists q, p = pstart (fbase (to_freq g)) q /\ p' = pstart (fbase (to_freq g)) (q + 1)).
Proof.
  intros Hp Og E. destruct (C45_periods_pf g Hp) as [A1 A2]. unfold p_start, p_end in *. cbn [p_freq p_ord] in *. rewrite (once_mult g Og E) in *. split.
  - intros H. destruct (A2 _ _ H) as (q & E1 & E2). exists q. split; [exact E1|lia].
  - intros (q & -> & ->). specialize (A1 q). replace (pstart (fbase (to_freq g)) (q + 1) - 1 + 1) with (pstart (fbase (to_freq g)) (q + 1)) in A1 by lia. exact A1.
Qed.
Lemma group_start_once g t0 k p : one_part g -> times g = 1 ->
  (group_start g t0 k p <-> p = pstart (fbase (to_freq g)) (pord (fbase (to_freq g)) t0 + k)).
Proof.
  intros Og E. unfold group_start. rewrite (once_mult g Og E). split.
  - intros (o & Ho & ->). apply in_cal_unit_pord in Ho. rewrite Ho. f_equal. lia.
  - intros ->. eexists. split; [apply in_cal_unit_pord; reflexivity|]. f_equal. lia.
Qed.
Lemma longest_delta g p p' : proper_name g -> one_part g -> times g = 1 -> longest_2016 g -> period_named g p p' -> p' - p <= get_freq_delta (to_freq g).
Proof.
  intros Hp Og E H Hn. unfold get_freq_delta. rewrite (once_mult g Og E). set (b := fbase (to_freq g)). set (o := pord b jul2016).
  apply (H (pstart b o) (pstart b (o + 1)) p p'); [apply named_iff; try assumption; exists o; split; reflexivity| |exact Hn].
  change (date 2016 7 1 * 86400000000000) with jul2016. apply pord_iff. reflexivity.
Qed.

(** A pattern is applied to no span with an unknown number of units to skip. *)
Lemma decides_skip {L} f u (ly : layout L) s leaf s' : fr_wf f -> decides f u ly s leaf s' -> span_wf f s -> s_first s <= u <= s_last s ->
  forall st st' p, leaf = LPat p -> st_ok (fr_len f) st -> organize f ly s st = Ok st' -> 0 <= s_left s'.
Proof.
  intros Hw H. induction H as [p s|x s|d s|d k spans s s' j Hp Hj Hu|d items spans s s' j it leaf s'' Hp Hj Hu Hit Hd IH];
    intros [Hs1 Hs2] Hus st st' p0 El Hst Ho; try discriminate El; cbn [organize] in Ho.
  - unfold apply_pattern in Ho. destruct (s_left s <? 0) eqn:E0; [discriminate|lia].
  - rewrite Hp in Ho. cbn [bind] in Ho. apply partition_tiles in Hp; [|exact Hw|split; assumption].
    assert (Hne : map (organize f) items <> []) by (destruct items; [destruct (j mod _)%nat; discriminate|discriminate]).
    assert (Hall : Forall (act_local (fr_len f)) (map (organize f) items)).
    { apply Forall_map, Forall_forall. intros x _. apply organize_local. exact Hw. }
    assert (Hsta : Forall act_static (map (organize f) items)).
    { apply Forall_map, Forall_forall. intros x _ sx. apply organize_static. }
    destruct (run_cycle_nth (fr_len f) _ Hne Hall Hsta spans _ _ Hp ltac:(lia) Hs2 0%nat st st' j s' ltac:(lia) Hst Ho Hj)
      as (act & st1 & st2 & Hn & Eact & Hok & Hsta1 & S1 & S2).
    rewrite map_length, Nat.add_0_l in Hn. rewrite (map_nth_error (organize f) _ _ Hit) in Hn. injection Hn as <-.
    pose proof (tiles_In _ _ _ s' Hp (nth_error_In _ _ Hj)) as Hin.
    apply (IH ltac:(split; lia) Hu st1 st2 p0 El Hok Eact).
Qed.
Lemma board_skip {L} (a : tb_args L) h tb h' org u p s : build a h = Ok (tb, h') -> top_organizer (a_layout a) = Ok org ->
  let f := tl_frame (tb_tl tb) in 0 <= u < fr_len f -> decides f u org (whole_span f) (LPat p) s -> 0 <= s_left s.
Proof.
  intros H Eo f Hu Hd. pose proof (built_wf a h tb h' H) as W. pose proof (wf_frame _ W) as Hw. pose proof (whole_wf _ W) as Hs. fold f in Hw, Hs.
  apply build_inv in H. destruct H as (org' & f' & tl0 & Eo' & _ & Et & _ & _ & _ & _ & _ & _ & _ & _ & Ef & _). rewrite Eo in Eo'. injection Eo' as <-.
  unfold f in *. rewrite Ef in *. destruct (mk_timeline_inv _ _ _ _ _ _ _ Hw Et) as (st & Ho & _).
  change (mkSpan 0 (fr_len f' - 1) 0 0) with (whole_span f') in Ho.
  refine (decides_skip f' u org _ _ s Hw Hd Hs _ _ _ p eq_refl _ Ho); [cbn; lia|].
  unfold st_ok, fr_wf in *. cbn. rewrite !zlen_repeat. lia.
Qed.

Lemma marks_board {L} (a : tb_args L) h tb h' org g hows s pat u (P : Z -> Prop) : build a h = Ok (tb, h') -> a_amendments a = [] ->
  top_organizer (a_layout a) = Ok org -> let f := tl_frame (tb_tl tb) in 0 <= u < fr_len f -> pat <> [] ->
  governs f u org (whole_span f) (DMarker (mkMarker g hows)) s (LPat (PList pat)) ->
  (is_span f s -> exists spans, partition f (DMarker (mkMarker g hows)) s = Ok spans
    /\ forall s' u, In s' spans -> s_first s' <= u <= s_last s' -> 0 <= s_left s' ->
         last_upto P (unit_start f u) (unit_start f (s_first s' - s_left s'))) ->
  exists k x, 0 <= k /\ last_upto P (unit_start f u) (unit_start f (u - k)) /\ cycled pat k = Some x /\ shift_of (tb_tl tb) u u u x.
Proof.
  intros H Ha Eo f Hu Hne Hg HA. assert (W := built_wf a h tb h' H). assert (Hw := wf_frame _ W). fold f in Hw. assert (Hs := whole_wf _ W). fold f in Hs.
  destruct (governs_decides f u org _ _ _ _ Hw Hg Hs) as (Hs1 & spans & j & s' & Hp & Hj & Hus & Hd).
  destruct HA as (spans' & Hp' & HA). { unfold span_wf in Hs1. unfold is_span. lia. }
  rewrite Hp in Hp'. injection Hp' as <-. pose proof (board_skip a h tb h' org u _ s' H Eo Hu Hd) as H0. pose proof (HA s' u (nth_error_In _ _ Hj) Hus H0) as Hl.
  destruct (C09_tree_pf L a h tb h' H Ha) as (org' & Eo' & Ht). rewrite Eo in Eo'. injection Eo' as <-. fold f in Ht.
  destruct (Ht u Hu) as (leaf & sl & _ & Hun & Hdo). destruct (Hun _ _ Hd) as [<- <-].
  destruct pat as [|z l]; [contradiction|]. cbn [leaf_does] in Hdo. destruct Hdo as (x & Hx & Hsh).
  exists (s_left s' + (u - s_first s')), x. split; [lia|]. replace (u - (s_left s' + (u - s_first s'))) with (s_first s' - s_left s') by lia.
  split; [exact Hl|]. split; [exact Hx|exact Hsh].
Qed.
Lemma reach_iff f g s P : proper_name g -> one_part g -> times g = 1 ->
  let r := pstart (fbase (to_freq g)) (pord (fbase (to_freq g)) (reach_before f g s)) in
  (mark_in_reach f g s P <-> exists t, P t /\ r <= t <= unit_start f (s_first s)).
Proof.
  intros Pg Og Tg r. split.
  - intros (p & p' & t & Hn & Hp & HP & Ht). apply (named_iff _ _ _ Pg Og Tg) in Hn. destruct Hn as (q & -> & ->).
    apply pord_iff in Hp. exists t. split; [exact HP|]. unfold r. rewrite Hp. exact Ht.
  - intros (t & HP & Ht). set (o0 := pord (fbase (to_freq g)) (reach_before f g s)) in *.
    exists r, (pstart (fbase (to_freq g)) (o0 + 1)), t. split; [apply named_iff; try assumption; exists o0; split; reflexivity|].
    split; [apply pord_iff; reflexivity|]. split; [exact HP|exact Ht].
Qed.
Lemma C68_reach_pf : forall f g s P, proper_name g -> one_part g -> times g = 1 -> longest_2016 g -> marked_each g P -> mark_in_reach f g s P.
Proof.
  intros f g s P Pg Og Tg Hlong Heach. apply (reach_iff f g s P Pg Og Tg). set (o0 := pord (fbase (to_freq g)) (reach_before f g s)).
  assert (Hn : period_named g (pstart (fbase (to_freq g)) o0) (pstart (fbase (to_freq g)) (o0 + 1))) by (apply named_iff; try assumption; exists o0; split; reflexivity).
  destruct (Heach _ _ Hn) as (t & HP & Ht). exists t. split; [exact HP|]. split; [lia|].
  pose proof (longest_delta g _ _ Pg Og Tg Hlong Hn). pose proof (proj1 (pord_iff _ (reach_before f g s) o0) eq_refl) as Hb. unfold reach_before in Hb. lia.
Qed.

(** Offsets from the start of each period. *)
Lemma C68_offset_skips_pf : forall f s g offs, is_frame f -> long_units f -> accepts (fr_str f) g -> proper_name g -> proper_name (fr_str f) ->
  times g = 1 -> times (fr_str f) = 1 -> offs <> [] ->
  (forall o, In o offs -> usable o /\ ~ goes_back o /\ forall p p' x, period_named g p p' -> offset_means o p x -> p <= x) ->
  is_span f s ->
  exists spans, partition f (DMarker (mkMarker g (map from_start_of_each offs))) s = Ok spans
    /\ (forall s' u, In s' spans -> s_first s' <= u <= s_last s' -> 0 <= s_left s' ->
         last_upto (offset_mark g (fr_str f) offs) (unit_start f u) (unit_start f (s_first s' - s_left s')))
    /\ (mark_in_reach f g s (offset_mark g (fr_str f) offs) <-> forall s', In s' spans -> 0 <= s_left s').
Proof.
  intros f s g offs Hf Hlu Hc Pg Pf Tg Tf Hne Ho Hs. pose proof Hc as (Of & Og & Hcc).
  set (bg := fbase (to_freq g)). set (bf := fbase (to_freq (fr_str f))). set (o0 := pord bg (reach_before f g s)).
  assert (Hxu : forall q x v, pstart bg q <= x -> pstart bf v <= x < pstart bf (v + 1) -> pstart bg q <= pstart bf v).
  { intros q x v H1 H2. destruct (accepted_base (fr_str f) g Hc q) as [w Hw]. fold bf bg in Hw. rewrite <- Hw in *. apply pstart_le_iff.
    destruct (Z.le_gt_cases w v) as [C|C]; [exact C|]. pose proof (proj1 (pstart_le_iff bf (v + 1) w) ltac:(lia)). lia. }
  setoid_rewrite (reach_iff f g s _ Pg Og Tg).
  refine (aligned_marks f s g (map from_start_of_each offs) (offset_mark g (fr_str f) offs) _ (pstart bg o0) Hf Hlu Hs Hcc
    (every_points f s g offs Hs Hc Hne (fun o Hi => proj1 (Ho o Hi))) _ _ _).
  - intros t (o & k & Hi & _ & (Hk0 & _) & p & p' & v & Hp & Hp' & Hlt & Hv & ->). destruct (Ho o Hi) as (Hus & _ & Hfw).
    apply (group_start_once g _ _ _ Og Tg) in Hp, Hp'. fold bg in Hp, Hp'. rewrite Z.add_assoc in Hp'.
    assert (Hn : period_named g p p') by (apply named_iff; try assumption; eexists; split; [exact Hp|exact Hp']).
    assert (Hom : offset_means o p (add_offset o p)) by (apply C46_offset_pf; [exact Hus|reflexivity]).
    split.
    2:{ apply Z.le_trans with p; [rewrite Hp; apply (proj1 (pstart_le_iff _ _ _)); fold o0; lia|]. rewrite Hp. apply (Hxu _ (add_offset o p) v); [|exact Hv].
      rewrite <- Hp. exact (Hfw _ _ _ Hn Hom). }
    exists o, p, p', (add_offset o p), (pstart bf (v + 1)). split; [exact Hi|]. split; [exact Hn|]. split; [exact Hom|].
    split; [split; [exact (Hfw _ _ _ Hn Hom)|exact Hlt]|]. split; [apply named_iff; try assumption; exists v; split; reflexivity|]. exact Hv.
  - intros t (o & p & p' & x & t' & _ & _ & _ & _ & Hn & _). apply (named_iff _ _ _ Pf Of Tf) in Hn. destruct Hn as (v & -> & _).
    apply base_unit_start. exact (once_mult _ Of Tf).
  - intros t (o & p & p' & x & t' & Hi & Hn & Hom & Hx & Hn2 & Hxt) Hr. destruct (Ho o Hi) as (Hus & Hnb & _).
    apply (named_iff _ _ _ Pf Of Tf) in Hn2. destruct Hn2 as (v & -> & ->). apply (named_iff _ _ _ Pg Og Tg) in Hn. destruct Hn as (q & -> & ->).
    fold bf in Hxt, Hr |- *. fold bg in Hx, Hom. apply (C46_offset_pf o _ x Hus) in Hom. pose proof (Hxu q x v (proj1 Hx) Hxt) as Hpt.
    assert (Hq : o0 <= q). { destruct (Z.le_gt_cases o0 q) as [C|C]; [exact C|]. pose proof (proj1 (pstart_le_iff bg (q + 1) o0) ltac:(lia)). lia. }
    exists o, (q - o0). split; [exact Hi|]. split; [exact Hnb|]. split.
    + split; [lia|]. exists (pstart bg q). split; [apply (group_start_once g _ _ _ Og Tg); fold bg o0; f_equal; lia|].
      unfold reach_after. pose proof (delta_pos (to_freq g)). lia.
    + exists (pstart bg q), (pstart bg (q + 1)), v. split; [apply (group_start_once g _ _ _ Og Tg); fold bg o0; f_equal; lia|].
      split; [apply (group_start_once g _ _ _ Og Tg); fold bg o0; f_equal; lia|]. rewrite Hom. split; [lia|]. split; [exact Hxt|reflexivity].
Qed.

(** The n-th weekdays of months. *)
Lemma C68_weekday_skips_pf : forall f s g ats, is_frame f -> check_groupby_freq (fr_str f) g = true -> proper_name g -> of_months g -> one_part g ->
  times g = 1 -> fmult (to_freq (fr_str f)) = 1%positive -> In (fbase (to_freq (fr_str f))) [BD; BH; BT; BS] -> ats <> [] ->
  (forall month week wday shift, In (month, week, wday, shift) ats -> 1 <= month <= 12 /\ 1 <= wday <= 7 /\ 1 <= Z.abs week <= 5 /\ shift = 0) ->
  is_span f s ->
  exists spans, partition f (DMarker (mkMarker g (map (fun '(month, week, wday, shift) => nth_weekday_of_month month week wday shift) ats))) s = Ok spans
    /\ (forall s' u, In s' spans -> s_first s' <= u <= s_last s' -> 0 <= s_left s' ->
         last_upto (weekday_mark g ats) (unit_start f u) (unit_start f (s_first s' - s_left s')))
    /\ (mark_in_reach f g s (weekday_mark g ats) <-> forall s', In s' spans -> 0 <= s_left s').
Proof.
  intros f s g ats Hf Hcc Pg Mg Og Tg Hm Hb Hne Ho Hs.
  assert (Hlu : long_units f).
  { apply C05_long_pf. intros Hi. cbn [In] in Hb, Hi. destruct Hb as [Hb|[Hb|[Hb|[Hb|[]]]]]; rewrite <- Hb in Hi; intuition discriminate. }
  set (bg := fbase (to_freq g)). set (o0 := pord bg (reach_before f g s)).
  setoid_rewrite (reach_iff f g s _ Pg Og Tg).
  refine (aligned_marks f s g _ (weekday_mark g ats) _ (pstart bg o0) Hf Hlu Hs Hcc
    (nth_points f s g ats Hs Mg Hne (fun m w d sh Hi => let '(conj A (conj B (conj C _))) := Ho m w d sh Hi in conj A (conj B C))) _ _ _).
  - intros t (month & week & wday & shift & k & Hi & (Hk0 & _) & m & d & Hp & Hin & Hn & ->). destruct (Ho _ _ _ _ Hi) as (Hmo & _ & _ & ->).
    apply (group_start_once g _ _ _ Og Tg) in Hp. fold bg o0 in Hp. destruct Hin as (p & p' & _ & Hp' & Hr). apply (group_start_once g _ _ _ Og Tg) in Hp'. fold bg o0 in Hp'.
    rewrite Z.add_assoc in Hp'. change NS_DAY with 86400000000000 in *.
    split.
    2:{ pose proof (proj1 (pstart_le_iff bg o0 (o0 + k)) ltac:(lia)). pose proof (proj1 (month_start_le_iff m (m + (month - 1))) ltac:(lia)). destruct Hn as ((Hd1 & _) & _). lia. }
    exists month, week, wday, m, p', d. split; [exact Hi|]. split; [apply named_iff; try assumption; eexists; split; [exact Hp|exact Hp']|].
    split; [lia|]. split; [exact Hn|lia].
  - intros t (month & week & wday & m & p' & d & _ & _ & _ & _ & ->). apply (midnight_start f _ Hm). cbn [In] in Hb. intuition.
  - intros t (month & week & wday & m & p' & d & Hi & Hn & Hlt & Hd & ->) Hr. destruct (Ho _ _ _ _ Hi) as (Hmo & _ & _ & _).
    apply (named_iff _ _ _ Pg Og Tg) in Hn. destruct Hn as (q & Eq & ->). fold bg in Eq, Hlt. change 86400000000000 with NS_DAY in *.
    destruct (months_base g Mg (q + 1)) as [m1 Hm1]. fold bg in Hm1.
    assert (Hd2 := Hd). destruct Hd2 as ((Hd1 & Hd2) & _).
    assert (Hm2 : m + (month - 1) + 1 <= m1).
    { rewrite Hm1 in Hlt. pose proof (month_start_le_iff m1 (m + (month - 1))). unfold NS_DAY in Hlt. lia. }
    apply (proj1 (month_start_le_iff _ _)) in Hm2. assert (Hm0 : month_start m <= month_start (m + (month - 1))) by (apply (proj1 (month_start_le_iff _ _)); lia).
    assert (Hq : o0 <= q). { destruct (Z.le_gt_cases o0 q) as [C|C]; [exact C|]. pose proof (proj1 (pstart_le_iff bg (q + 1) o0) ltac:(lia)). unfold NS_DAY in *. lia. }
    exists month, week, wday, 0, (q - o0). split; [exact Hi|]. split.
    + split; [lia|]. exists (pstart bg q). split; [apply (group_start_once g _ _ _ Og Tg); fold bg o0; f_equal; lia|].
      unfold reach_after. pose proof (delta_pos (to_freq g)). unfold NS_DAY in *. lia.
    + exists m, d. rewrite Eq. split; [apply (group_start_once g _ _ _ Og Tg); fold bg o0; f_equal; lia|]. split; [|split; [exact Hd|rewrite Z.add_0_r; reflexivity]].
      exists (pstart bg q), (pstart bg (q + 1)). split; [apply (group_start_once g _ _ _ Og Tg); fold bg o0; f_equal; lia|].
      split; [apply (group_start_once g _ _ _ Og Tg); fold bg o0; f_equal; lia|]. unfold NS_DAY in *. lia.
Qed.

(** Easter. *)
Lemma year_start y : pstart (BA 12) (y - 1970) = date y 1 1 * NS_DAY.
Proof. cbn [pstart]. unfold date. change (1 - 1) with 0. rewrite !Z.add_0_r. do 2 f_equal. lia. Qed.
Lemma date_years_le y y' : y <= y' -> date y 1 1 <= date y' 1 1.
Proof. intros H. unfold date. pose proof (proj1 (month_start_le_iff ((y - 1970) * 12 + (1 - 1)) ((y' - 1970) * 12 + (1 - 1))) ltac:(lia)). lia. Qed.
Lemma easter_mark_year orth norm g o y t : accepts norm g -> fbase (to_freq g) = BA 12 -> easter_mark orth norm o y t ->
  date y 1 1 * NS_DAY <= t < date (y + 1) 1 1 * NS_DAY.
Proof.
  intros Hc Hb (He & v & Hv & Et). cbv zeta in *. set (e := add_offset o (easter_day orth y * NS_DAY)) in *.
  destruct (accepted_base norm g Hc (y - 1970)) as [w Hw]. rewrite Hb in Hw. rewrite (year_start y) in Hw.
  pose proof Hv as Hv2. apply in_cal_unit_pord in Hv. pose proof (snap_lt norm e w) as Hsn. unfold snap in Hsn. rewrite Hv, <- Et, Hw in Hsn.
  unfold in_cal_unit in Hv2. lia.
Qed.
Lemma easter_span orth f s g offs : is_span f s -> check_groupby_freq (fr_str f) g = true ->
  fbase (to_freq g) = BA 12 -> fmult (to_freq g) = 1%positive -> offs <> [] -> (forall o, In o offs -> forward o \/ backward o) ->
  easter_year (year_of (reach_before f g s / NS_DAY)) -> easter_year (year_of (reach_after f g s / NS_DAY)) ->
  marked f g s (map (from_easter orth) offs) (fun t => exists o y, In o offs
    /\ year_of (reach_before f g s / NS_DAY) <= y <= year_of (reach_after f g s / NS_DAY) /\ easter_mark orth (fr_str f) o y t).
Proof.
  intros Hs Hc Hb Hmul Hne Ho Hy0 Hy1. destruct (at_stencil f s g (is_span_wf f s Hs)) as [pi Hpi].
  set (Y0 := year_of (reach_before f g s / NS_DAY)) in *. set (Y1 := year_of (reach_after f g s / NS_DAY)) in *.
  destruct (all_points (from_easter orth) (fun o t => exists y, Y0 <= y <= Y1 /\ easter_mark orth (fr_str f) o y t) pi (fr_str f) offs) as (pts & Hp & Hin).
  { intros o Hi. destruct (C42_marks_pf orth o g (fr_str f) _ _ pi Hb Hmul Hc Hpi Hy0 Hy1 (Ho o Hi)) as (ys & ms & E & _ & Hys & HF).
    exists ms. split; [exact E|]. intros t. rewrite (Forall2_members _ ys ms t (fun y => easter_mark_fun orth (fr_str f) o y) HF). split.
    - intros (y & Hy & Hm). exists y. apply Hys in Hy. split; [apply Hy|exact Hm].
    - intros (y & Hy & Hm). exists y. split; [|exact Hm]. apply Hys. split; [exact Hy|exists t; exact Hm]. }
  assert (Hne' : map (from_easter orth) offs <> []) by (destruct offs; [contradiction|discriminate]).
  exists pi, pts. split; [exact Hpi|]. split; [exact Hp|]. split; [exact Hne'|].
  intros t. rewrite Hin. split; [intros (o & Hi & y & H); exists o, y; split; assumption|intros (o & y & Hi & H); exists o; split; [exact Hi|exists y; exact H]].
Qed.
Lemma C68_easter_skips_pf : forall orthodox f s g offs, is_frame f -> long_units f -> accepts (fr_str f) g -> proper_name g ->
  fbase (to_freq g) = BA 12 -> times g = 1 -> fmult (to_freq (fr_str f)) = 1%positive -> offs <> [] -> (forall o, In o offs -> forward o \/ backward o) ->
  easter_year (year_of (reach_before f g s / NS_DAY)) -> easter_year (year_of (reach_after f g s / NS_DAY)) -> is_span f s ->
  exists spans, partition f (DMarker (mkMarker g (map (from_easter orthodox) offs))) s = Ok spans
    /\ (forall s' u, In s' spans -> s_first s' <= u <= s_last s' -> 0 <= s_left s' ->
         last_upto (easter_marks orthodox (fr_str f) offs) (unit_start f u) (unit_start f (s_first s' - s_left s')))
    /\ (mark_in_reach f g s (easter_marks orthodox (fr_str f) offs) <-> forall s', In s' spans -> 0 <= s_left s').
Proof.
  intros orth f s g offs Hf Hlu Hc Pg Hb Tg Hmf Hne Ho Hy0 Hy1 Hs. pose proof Hc as (Of & Og & Hcc).
  pose proof (once_mult g Og Tg) as Hmul.
  set (Y0 := year_of (reach_before f g s / NS_DAY)) in *. set (Y1 := year_of (reach_after f g s / NS_DAY)) in *.
  assert (HY : forall t, date (year_of (t / NS_DAY)) 1 1 * NS_DAY <= t < date (year_of (t / NS_DAY) + 1) 1 1 * NS_DAY).
  { intros t. pose proof (proj1 (year_of_iff (t / NS_DAY) _) eq_refl). unfold NS_DAY in *. lia. }
  assert (Er : pstart (fbase (to_freq g)) (pord (fbase (to_freq g)) (reach_before f g s)) = date Y0 1 1 * NS_DAY).
  { rewrite Hb. rewrite <- year_start. f_equal. apply pord_iff. pose proof (HY (reach_before f g s)) as H. fold Y0 in H.
    rewrite year_start. replace (Y0 - 1970 + 1) with (Y0 + 1 - 1970) by lia. rewrite year_start. exact H. }
  setoid_rewrite (reach_iff f g s _ Pg Og Tg). rewrite Er.
  refine (aligned_marks f s g _ (easter_marks orth (fr_str f) offs) _ (date Y0 1 1 * NS_DAY) Hf Hlu Hs Hcc
    (easter_span orth f s g offs Hs Hcc Hb Hmul Hne Ho Hy0 Hy1) _ _ _).
  - intros t (o & y & Hi & Hy & Hm). split; [exists o, y; split; assumption|]. pose proof (easter_mark_year orth _ g o y t Hc Hb Hm) as Ht.
    fold Y0 in Hy. assert (date Y0 1 1 <= date y 1 1) by (apply date_years_le; lia). unfold NS_DAY in *. lia.
  - intros t (o & y & Hi & _ & v & _ & ->). apply base_unit_start, Hmf.
  - intros t (o & y & Hi & Hm) Hr. exists o, y. split; [exact Hi|]. split; [|exact Hm].
    pose proof (easter_mark_year orth _ g o y t Hc Hb Hm) as Ht.
    assert (Ey : year_of (t / NS_DAY) = y) by (apply year_of_iff; unfold NS_DAY in *; lia).
    rewrite <- Ey. split; [|apply year_of_mono; unfold NS_DAY, reach_after; apply Z.div_le_mono; [lia|]; pose proof (delta_pos (to_freq g)); lia].
    rewrite Ey. destruct (Z.le_gt_cases Y0 y) as [C|C]; [exact C|]. assert (date (y + 1) 1 1 <= date Y0 1 1) by (apply date_years_le; lia). unfold NS_DAY in *. lia.
Qed.

(** ** Timeboards *)
Lemma C68_easter_pf : forall (L : Type) orthodox (a : tb_args L) (h : heap L) tb h' org g offs s pat u,
  build a h = Ok (tb, h') -> a_amendments a = [] -> top_organizer (a_layout a) = Ok org ->
  let f := tl_frame (tb_tl tb) in
  long_units f -> accepts (fr_str f) g -> proper_name g -> fbase (to_freq g) = BA 12 -> times g = 1 -> fmult (to_freq (fr_str f)) = 1%positive ->
  offs <> [] -> (forall o, In o offs -> forward o \/ backward o) ->
  easter_year (year_of (reach_before f g (whole_span f) / NS_DAY)) -> easter_year (year_of (reach_after f g (whole_span f) / NS_DAY)) ->
  0 <= u < fr_len f -> pat <> [] ->
  governs f u org (whole_span f) (DMarker (mkMarker g (map (from_easter orthodox) offs))) s (LPat (PList pat)) ->
  exists k x, 0 <= k /\ last_upto (easter_marks orthodox (fr_str f) offs) (unit_start f u) (unit_start f (u - k))
    /\ cycled pat k = Some x /\ shift_of (tb_tl tb) u u u x.
Proof.
  intros L orth a h tb h' org g offs s pat u H Ha Eo f Hlu Hc Pg Hb Tg Hmf Hne Ho Hy0 Hy1 Hu Hpat Hg.
  refine (marks_board a h tb h' org g _ s pat u _ H Ha Eo Hu Hpat Hg _).
  intros Hs. pose proof Hs as Hs'. apply is_span_wf in Hs'. destruct Hs' as [Hs1 Hs2]. fold f in Hs1, Hs2.
  assert (Hin : forall t, reach_before f g (whole_span f) <= t <= reach_after f g (whole_span f) -> easter_year (year_of (t / NS_DAY))).
  { intros t Ht. unfold easter_year in *. unfold NS_DAY in *.
    pose proof (year_of_mono _ _ (Z.div_le_mono _ _ 86400000000000 ltac:(lia) (proj1 Ht))). pose proof (year_of_mono _ _ (Z.div_le_mono _ _ 86400000000000 ltac:(lia) (proj2 Ht))). lia. }
  assert (Hrs : forall x, x = reach_before f g s \/ x = reach_after f g s -> reach_before f g (whole_span f) <= x <= reach_after f g (whole_span f)).
  { unfold reach_before, reach_after, whole_span. cbn [s_first s_last]. pose proof (delta_pos (to_freq g)).
    pose proof (unit_start_le f 0 (s_first s) ltac:(lia)). pose proof (unit_start_le f (s_first s) (s_last s + 1) ltac:(lia)).
    pose proof (unit_start_le f (s_last s + 1) (fr_len f) ltac:(lia)). rewrite !FrameProofs.unit_end_next. replace (fr_len f - 1 + 1) with (fr_len f) by lia. intros x [->| ->]; lia. }
  destruct (C68_easter_skips_pf orth f s g offs (built_frame _ _ _ _ H) Hlu Hc Pg Hb Tg Hmf Hne Ho (Hin _ (Hrs _ (or_introl eq_refl))) (Hin _ (Hrs _ (or_intror eq_refl))) Hs) as (spans & E & A & _).
  exists spans. split; [exact E|exact A].
Qed.
Lemma C68_offsets_pf : forall (L : Type) (a : tb_args L) (h : heap L) tb h' org g offs s pat u,
  build a h = Ok (tb, h') -> a_amendments a = [] -> top_organizer (a_layout a) = Ok org ->
  let f := tl_frame (tb_tl tb) in
  long_units f -> accepts (fr_str f) g -> proper_name g -> proper_name (fr_str f) -> times g = 1 -> times (fr_str f) = 1 -> offs <> [] ->
  (forall o, In o offs -> usable o /\ ~ goes_back o /\ forall p p' x, period_named g p p' -> offset_means o p x -> p <= x) ->
  0 <= u < fr_len f -> pat <> [] ->
  governs f u org (whole_span f) (DMarker (mkMarker g (map from_start_of_each offs))) s (LPat (PList pat)) ->
  exists k x, 0 <= k /\ last_upto (offset_mark g (fr_str f) offs) (unit_start f u) (unit_start f (u - k))
    /\ cycled pat k = Some x /\ shift_of (tb_tl tb) u u u x.
Proof.
  intros L a h tb h' org g offs s pat u H Ha Eo f Hlu Hc Pg Pf Tg Tf Hne Ho Hu Hpat Hg.
  refine (marks_board a h tb h' org g _ s pat u _ H Ha Eo Hu Hpat Hg _).
  intros Hs. destruct (C68_offset_skips_pf f s g offs (built_frame _ _ _ _ H) Hlu Hc Pg Pf Tg Tf Hne Ho Hs) as (spans & E & A & _). exists spans. split; [exact E|exact A].
Qed.
Lemma C68_weekdays_pf : forall (L : Type) (a : tb_args L) (h : heap L) tb h' org g ats s pat u,
  build a h = Ok (tb, h') -> a_amendments a = [] -> top_organizer (a_layout a) = Ok org ->
  let f := tl_frame (tb_tl tb) in
  check_groupby_freq (fr_str f) g = true -> proper_name g -> of_months g -> one_part g -> times g = 1 ->
  fmult (to_freq (fr_str f)) = 1%positive -> In (fbase (to_freq (fr_str f))) [BD; BH; BT; BS] -> ats <> [] ->
  (forall month week wday shift, In (month, week, wday, shift) ats -> 1 <= month <= 12 /\ 1 <= wday <= 7 /\ 1 <= Z.abs week <= 5 /\ shift = 0) ->
  0 <= u < fr_len f -> pat <> [] ->
  governs f u org (whole_span f)
    (DMarker (mkMarker g (map (fun '(month, week, wday, shift) => nth_weekday_of_month month week wday shift) ats))) s (LPat (PList pat)) ->
  exists k x, 0 <= k /\ last_upto (weekday_mark g ats) (unit_start f u) (unit_start f (u - k))
    /\ cycled pat k = Some x /\ shift_of (tb_tl tb) u u u x.
Proof.
  intros L a h tb h' org g ats s pat u H Ha Eo f Hc Pg Mg Og Tg Hm Hb Hne Ho Hu Hpat Hg.
  refine (marks_board a h tb h' org g _ s pat u _ H Ha Eo Hu Hpat Hg _).
  intros Hs. destruct (C68_weekday_skips_pf f s g ats (built_frame _ _ _ _ H) Hc Pg Mg Og Tg Hm Hb Hne Ho Hs) as (spans & E & A & _). exists spans. split; [exact E|exact A].
Qed.

Lemma last_upto_fun P x t t' : last_upto P x t -> last_upto P x t' -> t = t'.
Proof. intros (H1 & H2 & H3) (H1' & H2' & H3'). specialize (H3 _ H1' H2'). specialize (H3' _ H1 H2). lia. Qed.
Lemma long_same f1 f2 : fr_str f1 = fr_str f2 -> long_units f1 -> long_units f2.
Proof.
  intros E H u. set (m := Zpos (fmult (to_freq (fr_str f1)))).
  unfold long_units, unit_start, unit_ord, fr_base, fr_mult in *. rewrite <- E. fold m in H |- *.
  (* a unit of the one frame need not be a unit of the other: shift the frame *)
  assert (Hb : ~ In (fbase (to_freq (fr_str f1))) [BL; BU; BN] \/ In (fbase (to_freq (fr_str f1))) [BL; BU; BN]).
  { destruct (fbase (to_freq (fr_str f1))); cbn [In]; intuition discriminate. }
  destruct Hb as [Hb|Hb].
  - pose proof (C05_long_pf f2) as Hl. unfold long_units, unit_start, unit_ord, fr_base, fr_mult in Hl. rewrite <- E in Hl. exact (Hl Hb u).
  - specialize (H u). cbn [In] in Hb. destruct Hb as [Hb|[Hb|[Hb|[]]]]; rewrite <- Hb in *; cbn [pstart] in *; lia.
Qed.

Lemma C68_offsets_same_pf : forall (L : Type) (a1 a2 : tb_args L) (h1 h2 : heap L) tb1 tb2 h1' h2' org g offs pat u v,
  build a1 h1 = Ok (tb1, h1') -> build a2 h2 = Ok (tb2, h2') -> a_amendments a1 = a_amendments a2 ->
  top_organizer (a_layout a1) = Ok org -> top_organizer (a_layout a2) = Ok org ->
  straight org (DMarker (mkMarker g (map from_start_of_each offs))) (LPat (PList pat)) -> pat <> [] ->
  let f := tl_frame (tb_tl tb1) in
  long_units f -> accepts (fr_str f) g -> proper_name g -> proper_name (fr_str f) -> times g = 1 -> times (fr_str f) = 1 -> offs <> [] ->
  (forall o, In o offs -> usable o /\ ~ goes_back o /\ forall p p' x, period_named g p p' -> offset_means o p x -> p <= x) ->
  same_unit f (tl_frame (tb_tl tb2)) u v ->
  exists x, shift_of (tb_tl tb1) u u u x /\ shift_of (tb_tl tb2) v v v x.
Proof.
  intros L a1 a2 h1 h2 tb1 tb2 h1' h2' org g offs pat u v H1 H2 Ea O1 O2 Hst Hne f Hlu Hc Pg Pf Tg Tf Hof Ho Hs.
  apply (same_amended a1 a2 h1 h2 tb1 tb2 h1' h2' u v H1 H2 Ea Hs). intros t1 t2 B1 B2 F1 F2.
  pose proof Hs as (Es & Hu & Hv & Eu). unfold f in *. rewrite <- F1 in *. rewrite <- F2 in *.
  destruct (straight_board (with_amendments a1 []) h1 t1 h1' org _ _ u B1 eq_refl O1 Hst Hu) as (s1 & s1' & G1 & _).
  destruct (straight_board (with_amendments a2 []) h2 t2 h2' org _ _ v B2 eq_refl O2 Hst Hv) as (s2 & s2' & G2 & _).
  destruct (C68_offsets_pf L (with_amendments a1 []) h1 t1 h1' org g offs s1 pat u B1 eq_refl O1 Hlu Hc Pg Pf Tg Tf Hof Ho Hu Hne G1) as (k & x & K & M & X & S).
  pose proof (long_same _ _ Es Hlu) as Hlu2. rewrite Es in Hc, Pf, Tf, M.
  destruct (C68_offsets_pf L (with_amendments a2 []) h2 t2 h2' org g offs s2 pat v B2 eq_refl O2 Hlu2 Hc Pg Pf Tg Tf Hof Ho Hv Hne G2) as (k' & x' & K' & M' & X' & S').
  rewrite Eu in M. pose proof (same_unit_dist _ _ _ _ _ _ Hs (last_upto_fun _ _ _ _ M M')) as <-.
  rewrite X in X'. injection X' as <-. exists x. split; assumption.
Qed.
Lemma C68_weekdays_same_pf : forall (L : Type) (a1 a2 : tb_args L) (h1 h2 : heap L) tb1 tb2 h1' h2' org g ats pat u v,
  build a1 h1 = Ok (tb1, h1') -> build a2 h2 = Ok (tb2, h2') -> a_amendments a1 = a_amendments a2 ->
  top_organizer (a_layout a1) = Ok org -> top_organizer (a_layout a2) = Ok org ->
  straight org (DMarker (mkMarker g (map (fun '(month, week, wday, shift) => nth_weekday_of_month month week wday shift) ats))) (LPat (PList pat)) -> pat <> [] ->
  let f := tl_frame (tb_tl tb1) in
  check_groupby_freq (fr_str f) g = true -> proper_name g -> of_months g -> one_part g -> times g = 1 ->
  fmult (to_freq (fr_str f)) = 1%positive -> In (fbase (to_freq (fr_str f))) [BD; BH; BT; BS] -> ats <> [] ->
  (forall month week wday shift, In (month, week, wday, shift) ats -> 1 <= month <= 12 /\ 1 <= wday <= 7 /\ 1 <= Z.abs week <= 5 /\ shift = 0) ->
  same_unit f (tl_frame (tb_tl tb2)) u v ->
  exists x, shift_of (tb_tl tb1) u u u x /\ shift_of (tb_tl tb2) v v v x.
Proof.
  intros L a1 a2 h1 h2 tb1 tb2 h1' h2' org g ats pat u v H1 H2 Ea O1 O2 Hst Hne f Hc Pg Mg Og Tg Hm Hb Hof Ho Hs.
  apply (same_amended a1 a2 h1 h2 tb1 tb2 h1' h2' u v H1 H2 Ea Hs). intros t1 t2 B1 B2 F1 F2.
  pose proof Hs as (Es & Hu & Hv & Eu). unfold f in *. rewrite <- F1 in *. rewrite <- F2 in *.
  destruct (straight_board (with_amendments a1 []) h1 t1 h1' org _ _ u B1 eq_refl O1 Hst Hu) as (s1 & s1' & G1 & _).
  destruct (straight_board (with_amendments a2 []) h2 t2 h2' org _ _ v B2 eq_refl O2 Hst Hv) as (s2 & s2' & G2 & _).
  destruct (C68_weekdays_pf L (with_amendments a1 []) h1 t1 h1' org g ats s1 pat u B1 eq_refl O1 Hc Pg Mg Og Tg Hm Hb Hof Ho Hu Hne G1) as (k & x & K & M & X & S).
  rewrite Es in Hc, Hm, Hb.
  destruct (C68_weekdays_pf L (with_amendments a2 []) h2 t2 h2' org g ats s2 pat v B2 eq_refl O2 Hc Pg Mg Og Tg Hm Hb Hof Ho Hv Hne G2) as (k' & x' & K' & M' & X' & S').
  rewrite Eu in M. pose proof (same_unit_dist _ _ _ _ _ _ Hs (last_upto_fun _ _ _ _ M M')) as <-.
  rewrite X in X'. injection X' as <-. exists x. split; assumption.
Qed.
Lemma C68_easter_same_pf : forall (L : Type) orthodox (a1 a2 : tb_args L) (h1 h2 : heap L) tb1 tb2 h1' h2' org g offs pat u v,
  build a1 h1 = Ok (tb1, h1') -> build a2 h2 = Ok (tb2, h2') -> a_amendments a1 = a_amendments a2 ->
  top_organizer (a_layout a1) = Ok org -> top_organizer (a_layout a2) = Ok org ->
  straight org (DMarker (mkMarker g (map (from_easter orthodox) offs))) (LPat (PList pat)) -> pat <> [] ->
  let f1 := tl_frame (tb_tl tb1) in let f2 := tl_frame (tb_tl tb2) in
  long_units f1 -> accepts (fr_str f1) g -> proper_name g -> fbase (to_freq g) = BA 12 -> times g = 1 -> fmult (to_freq (fr_str f1)) = 1%positive ->
  offs <> [] -> (forall o, In o offs -> forward o \/ backward o) ->
  (forall f, f = f1 \/ f = f2 -> easter_year (year_of (reach_before f g (whole_span f) / NS_DAY)) /\ easter_year (year_of (reach_after f g (whole_span f) / NS_DAY))) ->
  same_unit f1 f2 u v ->
  exists x, shift_of (tb_tl tb1) u u u x /\ shift_of (tb_tl tb2) v v v x.
Proof.
  intros L orth a1 a2 h1 h2 tb1 tb2 h1' h2' org g offs pat u v H1 H2 Ea O1 O2 Hst Hne f1 f2 Hlu Hc Pg Hb Tg Hmf Hof Ho Hy Hs.
  apply (same_amended a1 a2 h1 h2 tb1 tb2 h1' h2' u v H1 H2 Ea Hs). intros t1 t2 B1 B2 F1 F2.
  pose proof Hs as (Es & Hu & Hv & Eu). unfold f1, f2 in *. rewrite <- F1 in *. rewrite <- F2 in *.
  destruct (straight_board (with_amendments a1 []) h1 t1 h1' org _ _ u B1 eq_refl O1 Hst Hu) as (s1 & s1' & G1 & _).
  destruct (straight_board (with_amendments a2 []) h2 t2 h2' org _ _ v B2 eq_refl O2 Hst Hv) as (s2 & s2' & G2 & _).
  destruct (Hy _ (or_introl eq_refl)) as [Y1 Y1']. destruct (Hy _ (or_intror eq_refl)) as [Y2 Y2'].
  destruct (C68_easter_pf L orth (with_amendments a1 []) h1 t1 h1' org g offs s1 pat u B1 eq_refl O1 Hlu Hc Pg Hb Tg Hmf Hof Ho Y1 Y1' Hu Hne G1) as (k & x & K & M & X & S).
  pose proof (long_same _ _ Es Hlu) as Hlu2. rewrite Es in Hc, Hmf, M.
  destruct (C68_easter_pf L orth (with_amendments a2 []) h2 t2 h2' org g offs s2 pat v B2 eq_refl O2 Hlu2 Hc Pg Hb Tg Hmf Hof Ho Y2 Y2' Hv Hne G2) as (k' & x' & K' & M' & X' & S').
  rewrite Eu in M. pose proof (same_unit_dist _ _ _ _ _ _ Hs (last_upto_fun _ _ _ _ M M')) as <-.
  rewrite X in X'. injection X' as <-. exists x. split; assumption.
Qed.
Lemma C68_label_pf : forall (L : Type) (a : tb_args L) (h : heap L) tb h' org d x u,
  build a h = Ok (tb, h') -> a_amendments a = [] -> top_organizer (a_layout a) = Ok org -> straight org d (LLab x) ->
  0 <= u < fr_len (tl_frame (tb_tl tb)) -> exists b e, shift_of (tb_tl tb) u b e x.
Proof.
  intros L a h tb h' org d x u H Ha Eo Hs Hu. destruct (straight_board a h tb h' org d _ u H Ha Eo Hs Hu) as (s & s' & _ & _ & Hd).
  cbn [leaf_does] in Hd. eexists _, _. exact Hd.
Qed.

(** ** How long periods are *)
Lemma month_start_periods k n : month_start (k + 4800 * n) = month_start k + 146097 * n.
Proof. unfold month_start. replace (k + 4800 * n - 360) with (k - 360 + 4800 * n) by lia. rewrite month_start2000_periods. lia. Qed.
Lemma month_spans_sweep : forallb (fun k => (month_start (k + 1) - month_start k <=? 31) && (month_start (k + 3) - month_start k <=? 92) && (month_start (k + 12) - month_start k <=? 366)) (zrange 0 4800) = true.
Proof. vm_compute. reflexivity. Qed.
Lemma month_spans k : month_start (k + 1) - month_start k <= 31 /\ month_start (k + 3) - month_start k <= 92 /\ month_start (k + 12) - month_start k <= 366.
Proof.
  pose proof (Z.div_mod k 4800 ltac:(lia)) as E. pose proof (Z.mod_pos_bound k 4800 ltac:(lia)) as R. set (n := k / 4800) in *. set (j := k mod 4800) in *. clearbody n j. subst k.
  replace (4800 * n + j + 1) with (j + 1 + 4800 * n) by lia. replace (4800 * n + j + 3) with (j + 3 + 4800 * n) by lia. replace (4800 * n + j + 12) with (j + 12 + 4800 * n) by lia.
  replace (4800 * n + j) with (j + 4800 * n) by lia. rewrite !month_start_periods.
  pose proof month_spans_sweep as H. rewrite forallb_forall in H. specialize (H j (proj2 (zrange_In 0 4800 j) ltac:(lia))). lia.
Qed.
Lemma C68_longest_pf : forall g, proper_name g -> one_part g -> times g = 1 -> (forall m, falias g = AlA (Some m) -> m = 1 \/ 7 <= m <= 12) -> longest_2016 g.
Proof.
  intros g Hp Og Tg HA r r' p p' Hr Hj Hq. apply (named_iff _ _ _ Hp Og Tg) in Hr, Hq. destruct Hr as (o & -> & ->). destruct Hq as (q & -> & ->).
  assert (Eb : fbase (to_freq g) = alias_base (falias g)) by (rewrite (one_part_freq g Og); reflexivity). rewrite Eb in *. clear Eb Tg Hp.
  assert (Ej : date 2016 7 1 * 86400000000000 = month_start 558 * NS_DAY) by (vm_compute; reflexivity). rewrite Ej in Hj. clear Ej.
  assert (Hmon : forall k n, 0 < n -> month_start k * NS_DAY <= month_start 558 * NS_DAY < month_start (k + n) * NS_DAY -> k <= 558 < k + n).
  { intros k n Hn H. unfold NS_DAY in H. pose proof (month_start_le_iff (k + n) 558). pose proof (month_start_le_iff k 558). lia. }
  destruct (falias g) as [| | | | |w| |m|m| | | | | | | |kk rest] eqn:Ea; unfold one_part in Og; rewrite ?Ea in Og; try contradiction; cbn [alias_base opt_or pstart] in *; try lia.
  - pose proof (Hmon o 1 ltac:(lia) Hj) as Ho. assert (o = 558) as -> by lia. pose proof (month_spans q) as (H & _).
    assert (month_start (558 + 1) - month_start 558 = 31) by (vm_compute; reflexivity). unfold NS_DAY. lia.
  - set (e := opt_or m 12 - 12) in *. replace (3 * (o + 1) + e) with (3 * o + e + 3) in * by lia. replace (3 * (q + 1) + e) with (3 * q + e + 3) by lia.
    pose proof (Hmon (3 * o + e) 3 ltac:(lia) Hj) as Ho. pose proof (month_spans (3 * q + e)) as (_ & H & _). set (k := 3 * o + e) in *. clearbody k.
    assert (month_start (k + 3) - month_start k = 92) by (assert (Hk : k = 556 \/ k = 557 \/ k = 558) by lia; destruct Hk as [->|[->| ->]]; vm_compute; reflexivity).
    unfold NS_DAY. lia.
  - assert (Hm : opt_or m 12 = 1 \/ 7 <= opt_or m 12 <= 12) by (destruct m as [m|]; cbn [opt_or]; [apply (HA m eq_refl)|lia]).
    set (e := opt_or m 12) in *. clearbody e. replace (12 * (o + 1) + (e - 12)) with (12 * o + (e - 12) + 12) in * by lia. replace (12 * (q + 1) + (e - 12)) with (12 * q + (e - 12) + 12) by lia.
    pose proof (Hmon (12 * o + (e - 12)) 12 ltac:(lia) Hj) as Ho. pose proof (month_spans (12 * q + (e - 12))) as (_ & _ & H). set (k := 12 * o + (e - 12)) in *.
    assert (Hk : k = 553 \/ k = 547 \/ k = 548 \/ k = 549 \/ k = 550 \/ k = 551 \/ k = 552) by lia. clearbody k.
    assert (month_start (k + 12) - month_start k = 366) by (repeat (destruct Hk as [->|Hk]; [vm_compute; reflexivity|]); subst k; vm_compute; reflexivity).
    unfold NS_DAY. lia.
  - replace (12 * (o + 1) + (12 - 12)) with (12 * o + (12 - 12) + 12) in * by lia. replace (12 * (q + 1) + (12 - 12)) with (12 * q + (12 - 12) + 12) by lia.
    pose proof (Hmon (12 * o + (12 - 12)) 12 ltac:(lia) Hj) as Ho. pose proof (month_spans (12 * q + (12 - 12))) as (_ & _ & H).
    assert (Hk : 12 * o + (12 - 12) = 552) by lia. rewrite Hk in *.
    assert (month_start (552 + 12) - month_start 552 = 366) by (vm_compute; reflexivity). unfold NS_DAY. lia.
Qed.
(** An offset that stays in the year from every Easter has a mark in reach. *)
Lemma C68_easter_reach_pf : forall orthodox f s g offs o, accepts (fr_str f) g -> proper_name g -> fbase (to_freq g) = BA 12 -> times g = 1 -> In o offs ->
  easter_year (year_of (reach_before f g s / NS_DAY)) -> (forall y, easter_year y -> exists t, easter_mark orthodox (fr_str f) o y t) ->
  mark_in_reach f g s (easter_marks orthodox (fr_str f) offs).
Proof.
  intros orth f s g offs o Hc Pg Hb Tg Hi Hy0 He. pose proof Hc as (_ & Og & _). set (Y0 := year_of (reach_before f g s / NS_DAY)) in *.
  assert (HY : date Y0 1 1 * NS_DAY <= reach_before f g s < date (Y0 + 1) 1 1 * NS_DAY).
  { pose proof (proj1 (year_of_iff (reach_before f g s / NS_DAY) Y0) eq_refl). unfold NS_DAY in *. lia. }
  destruct (He Y0 Hy0) as (t & Ht). pose proof (easter_mark_year orth _ g o Y0 t Hc Hb Ht) as Hty.
  assert (Hn : period_named g (date Y0 1 1 * NS_DAY) (date (Y0 + 1) 1 1 * NS_DAY)).
  { apply named_iff; try assumption. exists (Y0 - 1970). rewrite Hb. replace (Y0 - 1970 + 1) with (Y0 + 1 - 1970) by lia. rewrite !year_start. split; reflexivity. }
  exists (date Y0 1 1 * NS_DAY), (date (Y0 + 1) 1 1 * NS_DAY), t. split; [exact Hn|]. split; [exact HY|]. split; [exists o, Y0; split; assumption|].
  split; [lia|].
  assert (Hd : date (Y0 + 1) 1 1 * NS_DAY - date Y0 1 1 * NS_DAY <= get_freq_delta (to_freq g)).
  { pose proof (month_spans (12 * (Y0 - 1970))) as (_ & _ & Hm). unfold get_freq_delta. rewrite Hb, (once_mult g Og Tg).
    assert (E : pstart (BA 12) (pord (BA 12) jul2016 + Z.pos 1) - pstart (BA 12) (pord (BA 12) jul2016) = 366 * NS_DAY) by (vm_compute; reflexivity). rewrite E.
    unfold date. change (1 - 1) with 0. rewrite !Z.add_0_r. replace ((Y0 + 1 - 1970) * 12) with (12 * (Y0 - 1970) + 12) by lia. replace ((Y0 - 1970) * 12) with (12 * (Y0 - 1970)) by lia. unfold NS_DAY. lia. }
  unfold reach_before in HY. lia.
Qed.
