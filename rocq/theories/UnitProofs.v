(** Proofs of C72. *)
From Verif Require Import Base BaseProofs Civil CivilProofs Freq FreqProofs Frame FrameProofs When Timeline Board Spec SpecRoll SpecLookup SpecQuery SpecInterval SpecMisc SpecLayout SpecCivil SpecWhen SpecSame SpecShare SpecUnit BoardProofs TimelineProofs LookupProofs RollProofs QueryProofs IntervalProofs PartProofs TreeProofs LayoutProofs MiscProofs SameProofs ShareProofs.
From Coq Require Import ZifyBool ZifyNat Sorted.
Open Scope Z_scope.

Definition same_time (f1 f2 : frame) (s1 s2 : span) : Prop :=
  unit_start f1 (s_first s1) = unit_start f2 (s_first s2) /\ unit_start f1 (s_last s1 + 1) = unit_start f2 (s_last s2 + 1).

(** Tilings with the same starts. *)
Lemma tiles_same f1 f2 l1 : forall l2 a1 b1 a2 b2, tiles a1 b1 l1 -> tiles a2 b2 l2 ->
  unit_start f1 (b1 + 1) = unit_start f2 (b2 + 1) ->
  map (fun s => unit_start f1 (s_first s)) l1 = map (fun s => unit_start f2 (s_first s)) l2 -> Forall2 (same_time f1 f2) l1 l2.
Proof.
  induction l1 as [|x l1 IH]; intros l2 a1 b1 a2 b2 H1 H2 Eb Em.
  - inversion H1.
  - destruct l2 as [|y l2]; [discriminate|]. cbn [map] in Em. injection Em as E0 Em.
    inversion H1 as [? ? ? ? Hle1|? m1 ? ? ? ? Hle1 Hlt1 Hr1]; subst; inversion H2 as [? ? ? ? Hle2|? m2 ? ? ? ? Hle2 Hlt2 Hr2]; subst.
    + constructor; [|constructor]. split; [exact E0|exact Eb].
    + exfalso. destruct l2; [inversion Hr2|discriminate].
    + exfalso. destruct l1; [inversion Hr1|discriminate].
    + constructor; [|exact (IH l2 _ _ _ _ Hr1 Hr2 Eb Em)]. split; [exact E0|]. cbn [s_last].
      destruct (tiles_hd _ _ _ Hr1) as (z1 & r1 & -> & F1). destruct (tiles_hd _ _ _ Hr2) as (z2 & r2 & -> & F2).
      cbn [map] in Em. injection Em as E1 _. rewrite F1, F2 in E1. exact E1.
Qed.

Lemma map_start_asc f l : asc l -> asc (map (unit_start f) l).
Proof.
  induction 1 as [|x l Hl IH Hx]; cbn [map]; [constructor|]. constructor; [exact IH|]. apply Forall_forall. intros t Ht.
  apply in_map_iff in Ht. destruct Ht as (y & <- & Hy). rewrite Forall_forall in Hx. apply unit_start_lt, Hx, Hy.
Qed.
Lemma unit_start_inj f u v : unit_start f u = unit_start f v -> u = v.
Proof. intros H. pose proof (unit_start_lt_iff f u v). pose proof (unit_start_lt_iff f v u). lia. Qed.

(** Spans that begin at the times [C], wherever base units begin. *)
Lemma cuts_same f1 f2 s1 s2 l1 l2 (C : Z -> Prop) : same_time f1 f2 s1 s2 ->
  tiles (s_first s1) (s_last s1) l1 -> tiles (s_first s2) (s_last s2) l2 ->
  (forall u, s_first s1 < u <= s_last s1 -> (starts_span l1 u <-> C (unit_start f1 u))) ->
  (forall v, s_first s2 < v <= s_last s2 -> (starts_span l2 v <-> C (unit_start f2 v))) ->
  (forall t, C t -> both_begin f1 f2 t) -> Forall2 (same_time f1 f2) l1 l2.
Proof.
  intros (Es & Ee) T1 T2 C1 C2 HC. apply (tiles_same f1 f2 l1 l2 _ _ _ _ T1 T2 Ee).
  assert (Hin : forall f s l, tiles (s_first s) (s_last s) l -> (forall u, s_first s < u <= s_last s -> (starts_span l u <-> C (unit_start f u))) ->
     (forall t, C t -> exists u, unit_start f u = t) ->
     forall t, In t (map (fun x => unit_start f (s_first x)) l) <-> t = unit_start f (s_first s) \/ (C t /\ unit_start f (s_first s) < t < unit_start f (s_last s + 1))).
  { intros f s l T Cu HCf t. rewrite in_map_iff. split.
    - intros (x & <- & Hx). pose proof (tiles_In _ _ _ x T Hx) as Hr. destruct (Z.eq_dec (s_first x) (s_first s)) as [->|N]; [left; reflexivity|right].
      assert (Hu : s_first s < s_first x <= s_last s) by lia. split; [apply (Cu _ Hu); exists x; auto|]. split; apply unit_start_lt; lia.
    - intros [->|[Ct Ht]].
      + destruct (tiles_hd _ _ _ T) as (x & r & -> & E). exists x. split; [rewrite E; reflexivity|left; reflexivity].
      + destruct (HCf t Ct) as (u & <-). destruct Ht as [H1 H2]. apply (proj1 (unit_start_lt_iff _ _ _)) in H1, H2.
        destruct (proj2 (Cu u ltac:(lia)) Ct) as (x & Hx & <-). exists x. auto. }
  rewrite <- (map_map s_first (unit_start f1)), <- (map_map s_first (unit_start f2)).
  apply asc_ext; [apply map_start_asc, (tiles_firsts_asc _ _ _ T1)|apply map_start_asc, (tiles_firsts_asc _ _ _ T2)|].
  intros t. rewrite !map_map. rewrite (Hin f1 s1 l1 T1 C1 (fun t Ht => proj1 (HC t Ht)) t), (Hin f2 s2 l2 T2 C2 (fun t Ht => proj2 (HC t Ht)) t), Es, Ee. reflexivity.
Qed.

(** Groups begin where base units of both frames do. *)
Lemma calendar_cuts f s g spans : fr_wf f -> span_wf f s -> accepts (fr_str f) g -> partition f (DMarker (mkMarker g [])) s = Ok spans ->
  forall u, s_first s < u <= s_last s -> (starts_span spans u <-> exists k, unit_start f u = unit_start (gframe g (unit_start f (s_first s))) k).
Proof.
  intros Hw Hs Ha E u Hu. pose proof (accepted_fits f g (s_first s) Ha) as Hf. destruct Ha as (_ & _ & Hc).
  destruct (partition_calendar f s g Hw Hs Hc Hf) as (sp & a & b & E' & _ & H & _). rewrite E in E'. injection E' as <-. rewrite (H u Hu).
  set (G := gframe g (unit_start f (s_first s))) in *. pose proof (proj1 (fits_iff f g (s_first s)) Hf) as Hg. fold G in Hg.
  pose proof (unit_of_spec G (unit_start f u)) as S1. pose proof (unit_of_spec G (unit_start f (u - 1))) as S0. rewrite FrameProofs.unit_end_next in S0, S1.
  pose proof (unit_start_lt f (u - 1) u ltac:(lia)) as Hlt. split.
  - intros N. exists (unit_of G (unit_start f u)). pose proof (unit_of_mono G _ _ (Z.lt_le_incl _ _ Hlt)) as M.
    destruct (Hg (unit_of G (unit_start f u))) as (v & Ev). rewrite Ev in S1 |- *.
    assert (Hv : unit_start f (u - 1) < unit_start f v).
    { rewrite <- Ev. pose proof (unit_start_le G (unit_of G (unit_start f (u - 1)) + 1) (unit_of G (unit_start f u)) ltac:(lia)). lia. }
    apply (proj1 (unit_start_lt_iff _ _ _)) in Hv. destruct S1 as [S1 _]. pose proof (unit_start_lt_iff f u v). f_equal. lia.
  - intros (k & Ek) EE. rewrite Ek, unit_of_start in EE. rewrite EE in S0. lia.
Qed.
Lemma group_begin f g a k : accepts (fr_str f) g -> exists u, unit_start f u = unit_start (gframe g (unit_start f a)) k.
Proof. intros H. pose proof (proj1 (fits_iff f g a) (accepted_fits f g a H)) as Hg. destruct (Hg k) as (u & Hu). exists u. symmetry. exact Hu. Qed.

Lemma partition_same f1 f2 s1 s2 l1 l2 {L : Type} d (items : list (layout L)) : is_frame f1 -> is_frame f2 -> one_part (fr_str f1) -> one_part (fr_str f2) ->
  whole_spans f1 f2 (LOrg d items) -> is_span f1 s1 -> is_span f2 s2 -> same_time f1 f2 s1 s2 ->
  partition f1 d s1 = Ok l1 -> partition f2 d s2 = Ok l2 -> Forall2 (same_time f1 f2) l1 l2.
Proof.
  intros F1 F2 O1 O2 Hw S1 S2 Hs E1 E2. pose proof (is_frame_wf _ F1) as W1. pose proof (is_frame_wf _ F2) as W2.
  pose proof (is_span_wf _ _ S1) as V1. pose proof (is_span_wf _ _ S2) as V2.
  pose proof (partition_tiles _ _ _ _ W1 V1 E1) as T1. pose proof (partition_tiles _ _ _ _ W2 V2 E2) as T2.
  inversion Hw as [|g its Og Hne Hall|ms its L1 L2 Hms Hne Hall]; subst.
  - assert (A : forall f s l, one_part (fr_str f) -> partition f (DMarker (mkMarker g [])) s = Ok l -> accepts (fr_str f) g).
    { intros f s l Of E. split; [exact Of|]. split; [exact Og|]. cbn [partition] in E. unfold partition_with_marker in E. cbn [m_each m_at] in E.
      destruct (check_groupby_freq (fr_str f) g); [reflexivity|discriminate]. }
    pose proof (A f1 s1 l1 O1 E1) as A1. pose proof (A f2 s2 l2 O2 E2) as A2.
    apply (cuts_same f1 f2 s1 s2 l1 l2 (fun t => exists k, t = unit_start (gframe g (unit_start f1 (s_first s1))) k) Hs T1 T2).
    + exact (calendar_cuts f1 s1 g l1 W1 V1 A1 E1).
    + rewrite (proj1 Hs). exact (calendar_cuts f2 s2 g l2 W2 V2 A2 E2).
    + intros t (k & ->). split; [apply group_begin; exact A1|]. rewrite (proj1 Hs). apply group_begin. exact A2.
  - assert (A : forall f s l, is_frame f -> is_span f s -> long_units f -> (forall t, In t ms -> exists u, unit_start f u = t) -> partition f (DMarks ms) s = Ok l ->
       forall u, s_first s < u <= s_last s -> (starts_span l u <-> In (unit_start f u) ms)).
    { intros f s l Ff Sf Lf Hu E u Hr. destruct (C05_marks_partial_pf f s ms Ff Sf) as (l' & E' & _ & _ & H). rewrite E in E'. injection E' as <-.
      rewrite (H u Hr). split.
      - intros (t & Ht & Hc). destruct (Hu t Ht) as (w & <-). destruct Hc as (H1 & H2 & H3). assert (w = u) as ->; [|exact Ht].
        destruct (Z.eq_dec u (fr_len f - 1)) as [Eu|Nu].
        + specialize (H3 Eu). specialize (Lf u). pose proof (unit_start_lt_iff f w u). pose proof (unit_start_lt_iff f w (u + 1)). lia.
        + unfold is_span in Sf. specialize (H2 ltac:(lia)). rewrite FrameProofs.unit_end_next in H2. pose proof (unit_start_lt_iff f w u). pose proof (unit_start_lt_iff f w (u + 1)). lia.
      - intros Hm. exists (unit_start f u). split; [exact Hm|]. split; [lia|]. split; [intros _; apply unit_start_end|intros _; unfold NS_SEC; lia]. }
    apply (cuts_same f1 f2 s1 s2 l1 l2 (fun t => In t ms) Hs T1 T2).
    + exact (A f1 s1 l1 F1 S1 L1 (fun t Ht => proj1 (Hms t Ht)) E1).
    + exact (A f2 s2 l2 F2 S2 L2 (fun t Ht => proj2 (Hms t Ht)) E2).
    + exact Hms.
Qed.

(** Which span has the instant [t]. *)
Lemma same_time_in f1 f2 s1 s2 u v t : same_time f1 f2 s1 s2 -> in_unit f1 u t -> in_unit f2 v t -> s_first s1 <= u <= s_last s1 -> s_first s2 <= v <= s_last s2.
Proof.
  intros (Es & Ee) Hu Hv Hr. unfold in_unit in *. rewrite FrameProofs.unit_end_next in *.
  pose proof (unit_start_le f1 (s_first s1) u ltac:(lia)). pose proof (unit_start_le f1 (u + 1) (s_last s1 + 1) ltac:(lia)).
  assert (H1 : unit_start f2 (s_first s2) < unit_start f2 (v + 1)) by lia. assert (H2 : unit_start f2 v < unit_start f2 (s_last s2 + 1)) by lia.
  apply (proj1 (unit_start_lt_iff _ _ _)) in H1, H2. lia.
Qed.
Lemma tiles_disjoint a b l j j' s s' v : tiles a b l -> nth_error l j = Some s -> nth_error l j' = Some s' ->
  s_first s <= v <= s_last s -> s_first s' <= v <= s_last s' -> j = j'.
Proof.
  intros H. revert j j'. induction H as [a b x y H|a m b x y rest H1 H2 Ht IH]; intros j j' Hj Hj' Hv Hv'.
  - destruct j as [|[|]]; cbn in Hj; try discriminate. destruct j' as [|[|]]; cbn in Hj'; try discriminate. reflexivity.
  - destruct j as [|j]; destruct j' as [|j']; cbn [nth_error] in Hj, Hj'; [reflexivity| | |f_equal; apply IH; assumption].
    + injection Hj as <-. apply nth_error_In in Hj'. pose proof (tiles_In _ _ _ _ Ht Hj'). cbn [s_last] in *. lia.
    + injection Hj' as <-. apply nth_error_In in Hj. pose proof (tiles_In _ _ _ _ Ht Hj). cbn [s_last] in *. lia.
Qed.

Lemma decides_same {L} f1 f2 u v t (ly : layout L) s1 leaf1 s1' : is_frame f1 -> is_frame f2 -> one_part (fr_str f1) -> one_part (fr_str f2) ->
  in_unit f1 u t -> in_unit f2 v t ->
  decides f1 u ly s1 leaf1 s1' -> forall s2 leaf2 s2', decides f2 v ly s2 leaf2 s2' ->
  whole_spans f1 f2 ly -> is_span f1 s1 -> is_span f2 s2 -> same_time f1 f2 s1 s2 -> s_first s1 <= u <= s_last s1 ->
  exists x, leaf1 = LLab x /\ leaf2 = LLab x /\ same_time f1 f2 s1' s2'.
Proof.
  intros F1 F2 O1 O2 Hu Hv H.
  induction H as [p s|x s|d s|d k spans s s' j Hp Hj Hus|d items spans s s' j it leaf s'' Hp Hj Hus Hit Hd IH]; intros s2 leaf2 s2' H2 Hw S1 S2 Hst Hr.
  - inversion Hw.
  - inversion H2; subst. exists x. split; [reflexivity|]. split; [reflexivity|exact Hst].
  - inversion Hw; congruence.
  - inversion Hw.
  - inversion H2 as [| |? ? E0|? ? ? ? ? ? ? ? ?|? ? spans2 ? s'2 j2 it2 ? ? Hp2 Hj2 Hus2 Hit2 Hd2]; subst.
    + inversion Hw; congruence.
    + pose proof (partition_same f1 f2 s s2 spans spans2 d items F1 F2 O1 O2 Hw S1 S2 Hst Hp Hp2) as HF.
      pose proof (is_frame_wf _ F2) as W2. pose proof (is_span_wf _ _ S2) as V2. pose proof (partition_tiles _ _ _ _ W2 V2 Hp2) as T2.
      pose proof (is_frame_wf _ F1) as W1. pose proof (is_span_wf _ _ S1) as V1. pose proof (partition_tiles _ _ _ _ W1 V1 Hp) as T1.
      assert (Hpart : exists z, nth_error spans2 j = Some z /\ same_time f1 f2 s' z).
      { clear - HF Hj. revert j Hj. induction HF as [|a b l m Hab HF IH]; intros j Hj; [destruct j; discriminate|].
        destruct j as [|j]; [injection Hj as <-; exists b; split; [reflexivity|exact Hab]|apply IH; exact Hj]. }
      destruct Hpart as (z & Hz & Hsz). pose proof (same_time_in f1 f2 s' z u v t Hsz Hu Hv Hus) as Hvz.
      pose proof (tiles_disjoint _ _ _ j2 j s'2 z v T2 Hj2 Hz Hus2 Hvz) as ->. rewrite Hz in Hj2. injection Hj2 as <-.
      rewrite Hit in Hit2. injection Hit2 as <-.
      apply (IH z leaf2 s2' Hd2); [| | |exact Hsz|exact Hus].
      * inversion Hw as [|? ? ? ? Hall|? ? ? ? ? ? Hall]; subst; apply Hall, (nth_error_In _ _ Hit).
      * pose proof (tiles_In _ _ _ _ T1 (nth_error_In _ _ Hj)). unfold is_span in *. lia.
      * pose proof (tiles_In _ _ _ _ T2 (nth_error_In _ _ Hz)). unfold is_span in *. lia.
Qed.

(** ** Workshifts that are the same at every time *)
Definition alike_at {L} (t1 t2 : timeline L) (i j t : Z) : Prop :=
  0 <= i < tl_len t1 /\ 0 <= j < tl_len t2
  /\ unit_start (tl_frame t1) (bnd t1 i) = unit_start (tl_frame t2) (bnd t2 j)
  /\ unit_start (tl_frame t1) (bnd t1 (i + 1)) = unit_start (tl_frame t2) (bnd t2 (j + 1))
  /\ unit_start (tl_frame t1) (bnd t1 i) <= t < unit_start (tl_frame t1) (bnd t1 (i + 1))
  /\ tl_get t1 i = tl_get t2 j.

Lemma bnd_at {L} (tl : timeline L) i j t : tl_wf tl -> 0 <= i < tl_len tl -> 0 <= j < tl_len tl -> t = unit_start (tl_frame tl) (bnd tl j) ->
  unit_start (tl_frame tl) (bnd tl i) <= t < unit_start (tl_frame tl) (bnd tl (i + 1)) -> i = j.
Proof.
  intros W Hi Hj -> [H1 H2]. apply (proj1 (unit_start_lt_iff _ _ _)) in H2.
  pose proof (unit_start_lt_iff (tl_frame tl) (bnd tl j) (bnd tl i)) as H3. assert (Hle : bnd tl i <= bnd tl j) by lia.
  apply (bnd_unique tl W (bnd tl j) i j Hi Hj); [lia|]. pose proof (bnd_lt tl W j (j + 1) ltac:(lia) ltac:(lia) ltac:(lia)). lia.
Qed.

Lemma alike_shifts {L} (t1 t2 : timeline L) : tl_wf t1 -> tl_wf t2 ->
  unit_start (tl_frame t1) 0 = unit_start (tl_frame t2) 0 ->
  unit_start (tl_frame t1) (fr_len (tl_frame t1)) = unit_start (tl_frame t2) (fr_len (tl_frame t2)) ->
  (forall t, unit_start (tl_frame t1) 0 <= t < unit_start (tl_frame t1) (fr_len (tl_frame t1)) -> exists i j, alike_at t1 t2 i j t) ->
  tl_len t1 = tl_len t2 /\ forall i, 0 <= i < tl_len t1 -> alike_at t1 t2 i i (unit_start (tl_frame t1) (bnd t1 i)).
Proof.
  intros W1 W2 Es Ee H.
  pose proof (bnd_0 t1 W1) as Z1. pose proof (bnd_0 t2 W2) as Z2. pose proof (bnd_end t1) as N1. pose proof (bnd_end t2) as N2.
  assert (Hstep : forall i, 0 <= i < tl_len t1 -> 0 <= i < tl_len t2 -> unit_start (tl_frame t1) (bnd t1 i) = unit_start (tl_frame t2) (bnd t2 i) ->
     alike_at t1 t2 i i (unit_start (tl_frame t1) (bnd t1 i))).
  { intros i Hi Hi2 Eu. pose proof (bnd_range t1 W1 i Hi) as Hr.
    destruct (H (unit_start (tl_frame t1) (bnd t1 i))) as (i' & j' & A & B & C1 & C2 & C3 & C4).
    { split; [apply unit_start_le; lia|apply unit_start_lt; lia]. }
    assert (i' = i) as -> by (apply (bnd_at t1 i' i _ W1 A Hi eq_refl C3)).
    assert (j' = i) as ->. { apply (bnd_at t2 j' i _ W2 B Hi2 Eu). rewrite <- C1, <- C2. exact C3. }
    unfold alike_at. repeat (split; [assumption|]). assumption. }
  assert (L1 : 0 < tl_len t1). { pose proof (wf_frame _ W1) as Hf. unfold fr_wf in Hf. destruct (bnd_cover t1 W1 0 ltac:(lia)) as (k & Hk & _). lia. }
  assert (L2 : 0 < tl_len t2). { pose proof (wf_frame _ W2) as Hf. unfold fr_wf in Hf. destruct (bnd_cover t2 W2 0 ltac:(lia)) as (k & Hk & _). lia. }
  assert (Hind : forall n, 0 <= n -> n < tl_len t1 -> n < tl_len t2 /\ unit_start (tl_frame t1) (bnd t1 n) = unit_start (tl_frame t2) (bnd t2 n)).
  { intros n Hn. pattern n. apply natlike_ind; [| |exact Hn].
    - intros _. split; [exact L2|]. rewrite Z1, Z2. exact Es.
    - intros m Hm IH Hlt. destruct (IH ltac:(lia)) as [A B]. unfold Z.succ in *.
      destruct (Hstep m ltac:(lia) ltac:(lia) B) as (_ & _ & _ & C & _).
      split; [|exact C]. destruct (Z.eq_dec (m + 1) (tl_len t2)) as [E|N]; [|lia]. exfalso. rewrite E, N2, <- Ee in C.
      apply unit_start_inj in C. pose proof (bnd_range t1 W1 (tl_len t2) ltac:(lia)). lia. }
  assert (Hall : forall i, 0 <= i < tl_len t1 -> alike_at t1 t2 i i (unit_start (tl_frame t1) (bnd t1 i))).
  { intros i Hi. destruct (Hind i ltac:(lia) ltac:(lia)) as [A B]. apply Hstep; [lia|lia|exact B]. }
  split; [|exact Hall]. destruct (Hall (tl_len t1 - 1) ltac:(lia)) as (_ & B & _ & C & _).
  replace (tl_len t1 - 1 + 1) with (tl_len t1) in C by lia. rewrite N1, Ee, <- N2 in C. apply unit_start_inj in C.
  destruct (Z.eq_dec (tl_len t1) (tl_len t2)) as [E|N]; [exact E|exfalso].
  pose proof (bnd_lt t2 W2 (tl_len t1) (tl_len t2) ltac:(lia) ltac:(lia) ltac:(lia)). lia.
Qed.

(** ** C72 *)
Lemma plain_same {L} (a1 a2 : tb_args L) h1 h2 tb1 tb2 h1' h2' org :
  let f1 := tl_frame (tb_tl tb1) in let f2 := tl_frame (tb_tl tb2) in
  build a1 h1 = Ok (tb1, h1') -> build a2 h2 = Ok (tb2, h2') -> a_amendments a1 = [] -> a_amendments a2 = [] ->
  top_organizer (a_layout a1) = Ok org -> top_organizer (a_layout a2) = Ok org ->
  one_part (fr_str f1) -> one_part (fr_str f2) -> whole_spans f1 f2 org -> tb_start_time tb1 = tb_start_time tb2 -> tb_end_time tb1 = tb_end_time tb2 ->
  tl_len (tb_tl tb1) = tl_len (tb_tl tb2) /\ forall i, 0 <= i < tl_len (tb_tl tb1) -> alike_at (tb_tl tb1) (tb_tl tb2) i i (unit_start f1 (bnd (tb_tl tb1) i)).
Proof.
  intros f1 f2 B1 B2 A1 A2 E1 E2 O1 O2 Hw Es Ee.
  pose proof (built_wf _ _ _ _ B1) as W1. pose proof (built_wf _ _ _ _ B2) as W2. pose proof (built_frame _ _ _ _ B1) as F1. pose proof (built_frame _ _ _ _ B2) as F2.
  fold f1 in F1. fold f2 in F2. unfold tb_start_time, fr_start_time in Es. unfold tb_end_time, fr_end_time in Ee. rewrite !FrameProofs.unit_end_next in Ee.
  fold f1 f2 in Es, Ee. replace (fr_len f1 - 1 + 1) with (fr_len f1) in Ee by lia. replace (fr_len f2 - 1 + 1) with (fr_len f2) in Ee by lia.
  assert (Ee' : unit_start f1 (fr_len f1) = unit_start f2 (fr_len f2)) by lia. clear Ee.
  apply alike_shifts; try assumption. fold f1. intros t Ht.
  destruct (C09_tree_pf L a1 h1 tb1 h1' B1 A1) as (org1 & X1 & T1). rewrite E1 in X1. injection X1 as <-. fold f1 in T1.
  destruct (C09_tree_pf L a2 h2 tb2 h2' B2 A2) as (org2 & X2 & T2). rewrite E2 in X2. injection X2 as <-. fold f2 in T2.
  assert (Hin : forall f, unit_start f 0 <= t < unit_start f (fr_len f) -> exists u, in_unit f u t /\ 0 <= u < fr_len f).
  { intros f Hf. exists (unit_of f t). pose proof (unit_of_spec f t) as Hs. split; [exact Hs|]. rewrite FrameProofs.unit_end_next in Hs.
    pose proof (unit_start_lt_iff f 0 (unit_of f t + 1)). pose proof (unit_start_lt_iff f (unit_of f t) (fr_len f)). lia. }
  destruct (Hin f1 Ht) as (u & Hu & Ru). rewrite Es, Ee' in Ht. destruct (Hin f2 Ht) as (v & Hv & Rv).
  destruct (T1 u Ru) as (leaf1 & s1 & D1 & _ & K1). destruct (T2 v Rv) as (leaf2 & s2 & D2 & _ & K2).
  destruct (decides_same f1 f2 u v t org _ leaf1 s1 F1 F2 O1 O2 Hu Hv D1 _ leaf2 s2 D2 Hw) as (x & -> & -> & St).
  - unfold is_span, whole_span. cbn. lia.
  - unfold is_span, whole_span. cbn. lia.
  - unfold same_time, whole_span. cbn [s_first s_last]. split; [exact Es|]. replace (fr_len f1 - 1 + 1) with (fr_len f1) by lia. replace (fr_len f2 - 1 + 1) with (fr_len f2) by lia. exact Ee'.
  - unfold whole_span. cbn [s_first s_last]. lia.
  - cbn [leaf_does] in K1, K2. destruct K1 as (i & Hi & P1 & Q1 & R1 & G1). destruct K2 as (j & Hj & P2 & Q2 & R2 & G2).
    rewrite (ws_first_ok _ i Hi) in P1. rewrite (ws_last_ok _ W1 i Hi) in Q1. rewrite (ws_first_ok _ j Hj) in P2. rewrite (ws_last_ok _ W2 j Hj) in Q2.
    injection P1 as P1. injection Q1 as Q1. injection P2 as P2. injection Q2 as Q2. destruct St as [S1 S2]. rewrite <- P1, <- P2 in S1. rewrite <- Q1, <- Q2 in S2.
    replace (bnd (tb_tl tb1) (i + 1) - 1 + 1) with (bnd (tb_tl tb1) (i + 1)) in S2 by lia. replace (bnd (tb_tl tb2) (j + 1) - 1 + 1) with (bnd (tb_tl tb2) (j + 1)) in S2 by lia.
    exists i, j. unfold alike_at. fold f1 f2. repeat (split; [assumption|]). split; [|congruence].
    unfold in_unit in Hu. rewrite FrameProofs.unit_end_next in Hu. pose proof (unit_start_le f1 (bnd (tb_tl tb1) i) u ltac:(lia)). pose proof (unit_start_le f1 (u + 1) (bnd (tb_tl tb1) (i + 1)) ltac:(lia)). lia.
Qed.

Lemma C72_units_pf : forall (L : Type) (a1 a2 : tb_args L) (h1 h2 : heap L) tb1 tb2 h1' h2' org,
  let f1 := tl_frame (tb_tl tb1) in let f2 := tl_frame (tb_tl tb2) in
  build a1 h1 = Ok (tb1, h1') -> build a2 h2 = Ok (tb2, h2') -> a_amendments a1 = a_amendments a2 -> a_ref_end a1 = a_ref_end a2 ->
  top_organizer (a_layout a1) = Ok org -> top_organizer (a_layout a2) = Ok org ->
  one_part (fr_str f1) -> one_part (fr_str f2) -> whole_spans f1 f2 org -> tb_start_time tb1 = tb_start_time tb2 -> tb_end_time tb1 = tb_end_time tb2 ->
  tb_len tb1 = tb_len tb2 /\ share tb1 tb2 0 (tb_len tb1 - 1) 0.
Proof.
  intros L a1 a2 h1 h2 tb1 tb2 h1' h2' org f1 f2 B1 B2 Ea Er E1 E2 O1 O2 Hw Es Ee.
  destruct (C14_amendments_pf L a1 h1 tb1 h1' B1) as (p1 & Q1 & T1 & Lb1). destruct (C14_amendments_pf L a2 h2 tb2 h2' B2) as (p2 & Q2 & T2 & Lb2).
  destruct (build_inv _ _ _ _ B1) as (? & g1 & ? & I1). destruct (build_inv _ _ _ _ B2) as (? & g2 & ? & I2).
  destruct (build_inv _ _ _ _ Q1) as (? & g1' & ? & J1). destruct (build_inv _ _ _ _ Q2) as (? & g2' & ? & J2).
  destruct I1 as (_ & M1 & _ & _ & _ & _ & _ & _ & _ & _ & W1 & G1 & _ & _ & R1). destruct I2 as (_ & M2 & _ & _ & _ & _ & _ & _ & _ & _ & W2 & G2 & _ & _ & R2).
  destruct J1 as (_ & N1 & _ & _ & _ & _ & _ & _ & _ & _ & V1 & H1 & _ & _ & S1). destruct J2 as (_ & N2 & _ & _ & _ & _ & _ & _ & _ & _ & V2 & H2 & _ & _ & S2).
  change (a_freq (with_amendments a1 [])) with (a_freq a1) in N1. change (a_start (with_amendments a1 [])) with (a_start a1) in N1. change (a_end (with_amendments a1 [])) with (a_end a1) in N1.
  change (a_freq (with_amendments a2 [])) with (a_freq a2) in N2. change (a_start (with_amendments a2 [])) with (a_start a2) in N2. change (a_end (with_amendments a2 [])) with (a_end a2) in N2.
  assert (X1 : tl_frame (tb_tl p1) = f1) by (unfold f1; congruence). assert (X2 : tl_frame (tb_tl p2) = f2) by (unfold f2; congruence).
  change (a_ref_end (with_amendments a1 [])) with (a_ref_end a1) in S1. change (a_ref_end (with_amendments a2 [])) with (a_ref_end a2) in S2.
  assert (P : tl_len (tb_tl p1) = tl_len (tb_tl p2) /\ forall i, 0 <= i < tl_len (tb_tl p1) -> alike_at (tb_tl p1) (tb_tl p2) i i (unit_start (tl_frame (tb_tl p1)) (bnd (tb_tl p1) i))).
  { apply (plain_same (with_amendments a1 []) (with_amendments a2 []) h1 h2 p1 p2 h1' h2' org Q1 Q2 eq_refl eq_refl E1 E2).
    - rewrite X1. exact O1.
    - rewrite X2. exact O2.
    - rewrite X1, X2. exact Hw.
    - unfold tb_start_time in *. rewrite X1, X2. exact Es.
    - unfold tb_end_time in *. rewrite X1, X2. exact Ee. }
  destruct P as [Hl P].
  assert (HL : forall tb tb0 : timeboard L, tl_wf (tb_tl tb) -> tl_wf (tb_tl tb0) -> (forall i, is_shift tb i <-> is_shift tb0 i) -> tb_len tb = tb_len tb0).
  { intros tb tb0 Wa Wb Hi. pose proof (Hi (tb_len tb)) as A. pose proof (Hi (tb_len tb0)) as B. unfold is_shift in A, B.
    assert (0 <= tb_len tb) by (unfold tb_len, tl_len, zlen; lia). assert (0 <= tb_len tb0) by (unfold tb_len, tl_len, zlen; lia). lia. }
  pose proof (HL tb1 p1 W1 V1 (fun i => proj1 (T1 i 0))) as L1. pose proof (HL tb2 p2 W2 V2 (fun i => proj1 (T2 i 0))) as L2.
  assert (Hl' : tb_len tb1 = tb_len tb2) by (unfold tb_len in *; congruence). split; [exact Hl'|].
  intros i Hi. rewrite Z.add_0_r. assert (K1 : is_shift tb1 i) by (unfold is_shift; lia). assert (K2 : is_shift tb2 i) by (unfold is_shift; lia).
  assert (Hi' : 0 <= i < tl_len (tb_tl p1)) by (unfold tb_len in *; lia). destruct (P i Hi') as (_ & Hi2 & C1 & C2 & _ & C4).
  assert (Za : ws_start_time (tb_tl p1) i = ws_start_time (tb_tl p2) i) by (rewrite (ws_start_ok _ V1 i Hi'), (ws_start_ok _ V2 i Hi2), C1; reflexivity).
  assert (Zb : ws_end_time (tb_tl p1) i = ws_end_time (tb_tl p2) i) by (rewrite (ws_end_ok _ V1 i Hi'), (ws_end_ok _ V2 i Hi2), C2; reflexivity).
  assert (Ya : ws_start_time (tb_tl tb1) i = ws_start_time (tb_tl tb2) i).
  { pose proof (ws_start_ok _ V1 i Hi') as D. pose proof D as D'. rewrite Za in D'. apply (proj2 (proj1 (proj2 (T1 i _)))) in D. apply (proj2 (proj1 (proj2 (T2 i _)))) in D'. unfold starts_at in *. congruence. }
  assert (Yb : ws_end_time (tb_tl tb1) i = ws_end_time (tb_tl tb2) i).
  { pose proof (ws_end_ok _ V1 i Hi') as D. pose proof D as D'. rewrite Zb in D'. apply (proj2 (proj1 (proj2 (proj2 (T1 i _))))) in D. apply (proj2 (proj1 (proj2 (proj2 (T2 i _))))) in D'. unfold ends_at in *. congruence. }
  unfold same_shift. split; [exact K1|]. split; [exact K2|]. split; [exact Ya|]. split; [exact Yb|]. split.
  { unfold ws_ref_time. rewrite R1, R2, Er, Ya, Yb. reflexivity. }
  assert (Hh : forall t, holds_time tb1 i t <-> holds_time tb2 i t).
  { intros t. unfold holds_time, starts_at, ends_at. rewrite Ya, Yb. tauto. }
  destruct (tl_get_ex _ W1 i K1) as (y & Hy & _). rewrite Hy. symmetry. apply (Lb2 i y K2). apply (proj1 (Lb1 i y K1)) in Hy. rewrite <- Ea.
  destruct Hy as [(t & Ht & Hi0)|(Hn & Hx)]; [left; exists t; split; [exact Ht|apply Hh, Hi0]|right]. split; [|rewrite <- C4; exact Hx].
  intros t w Hw' Hd. apply (Hn t w Hw'), Hh, Hd.
Qed.

Lemma same_length_units f d a n : (forall u, unit_start f (u + 1) = unit_start f u + d) -> 0 <= n -> unit_start f (a + n) = unit_start f a + n * d.
Proof.
  intros H Hn. pattern n. apply natlike_ind; [rewrite Z.add_0_r; lia| |exact Hn].
  intros m Hm IH. unfold Z.succ. rewrite Z.add_assoc, H, IH. lia.
Qed.
Lemma C72_durations_pf : forall (L : Type) (tb1 tb2 : timeboard L) d1 d2 i j n1 n2,
  let f1 := tl_frame (tb_tl tb1) in let f2 := tl_frame (tb_tl tb2) in
  reachable tb1 -> reachable tb2 -> same_shift tb1 tb2 i j ->
  (forall u, unit_start f1 (u + 1) = unit_start f1 u + d1) -> (forall u, unit_start f2 (u + 1) = unit_start f2 u + d2) ->
  ws_duration (tb_tl tb1) i = Ok n1 -> ws_duration (tb_tl tb2) j = Ok n2 -> n1 * d1 = n2 * d2.
Proof.
  intros L tb1 tb2 d1 d2 i j n1 n2 f1 f2 R1 R2 (Hi & Hj & Es & Ee & _) D1 D2 N1 N2.
  pose proof (proj1 (reachable_wf tb1 R1)) as W1. pose proof (proj1 (reachable_wf tb2 R2)) as W2.
  rewrite (ws_start_ok _ W1 i Hi), (ws_start_ok _ W2 j Hj) in Es. rewrite (ws_end_ok _ W1 i Hi), (ws_end_ok _ W2 j Hj) in Ee.
  rewrite (ws_duration_ok _ W1 i Hi) in N1. rewrite (ws_duration_ok _ W2 j Hj) in N2. fold f1 f2 in Es, Ee.
  injection Es as Es. injection Ee as Ee. injection N1 as N1. injection N2 as N2. unfold is_shift, tb_len in *.
  pose proof (bnd_lt _ W1 i (i + 1) ltac:(lia) ltac:(lia) ltac:(lia)). pose proof (bnd_lt _ W2 j (j + 1) ltac:(lia) ltac:(lia) ltac:(lia)).
  pose proof (same_length_units f1 d1 (bnd (tb_tl tb1) i) n1 D1 ltac:(lia)) as A. pose proof (same_length_units f2 d2 (bnd (tb_tl tb2) j) n2 D2 ltac:(lia)) as B.
  replace (bnd (tb_tl tb1) i + n1) with (bnd (tb_tl tb1) (i + 1)) in A by lia. replace (bnd (tb_tl tb2) j + n2) with (bnd (tb_tl tb2) (j + 1)) in B by lia. lia.
Qed.
