(** Proofs of C76. *)
From Verif Require Import Base BaseProofs Civil Freq FreqProofs Frame FrameProofs When Timeline Board Spec SpecAlike SpecWhen TimelineProofs BoardProofs LookupProofs PartProofs SameProofs WhenProofs.
From Verif Require MoveProofs.
From Verif Require Import Samples.
From Coq Require Import ZifyBool ZifyNat Permutation Sorted.
Open Scope Z_scope.

(** ** Sorted points *)
Lemma sorted_perm l : forall l', StronglySorted Z.le l -> StronglySorted Z.le l' -> Permutation l l' -> l = l'.
Proof.
  induction l as [|a l IH]; intros l' Hl Hl' HP.
  - apply Permutation_nil in HP. congruence.
  - destruct l' as [|b l']; [apply Permutation_sym, Permutation_nil in HP; discriminate|].
    inversion Hl as [|? ? Hl0 Ha]; subst. inversion Hl' as [|? ? Hl0' Hb]; subst. rewrite Forall_forall in Ha, Hb.
    assert (E : a = b).
    { pose proof (Permutation_in a HP (or_introl eq_refl)) as H1. pose proof (Permutation_in b (Permutation_sym HP) (or_introl eq_refl)) as H2.
      destruct H1 as [H1|H1]; [congruence|]. destruct H2 as [H2|H2]; [congruence|]. specialize (Ha _ H2). specialize (Hb _ H1). lia. }
    subst b. f_equal. apply IH; [assumption|assumption|]. apply (Permutation_cons_inv HP).
Qed.
Lemma zinsert_perm x l : Permutation (zinsert x l) (x :: l).
Proof.
  induction l as [|a l IH]; cbn [zinsert]; [apply Permutation_refl|]. destruct (x <=? a); [apply Permutation_refl|].
  eapply Permutation_trans; [apply perm_skip, IH|apply perm_swap].
Qed.
Lemma zsort_perm l : Permutation (zsort l) l.
Proof. induction l as [|a l IH]; cbn [zsort]; [constructor|]. eapply Permutation_trans; [apply zinsert_perm|apply perm_skip, IH]. Qed.
Lemma zsort_Permutation l l' : Permutation l l' -> zsort l = zsort l'.
Proof.
  intros H. apply sorted_perm; [apply zsort_sorted|apply zsort_sorted|].
  eapply Permutation_trans; [apply zsort_perm|]. eapply Permutation_trans; [exact H|apply Permutation_sym, zsort_perm].
Qed.

(** The slice of partition_with_marker has the same elements, first and last one. *)
Definition kept (A : list Z) (t0 t1 : Z) : list Z := py_slice A (Z.max 0 (ss_right A t0 - 1)) (Z.min (zlen A) (ss_left A t1 + 1)).
Lemma kept_In A t0 t1 x : StronglySorted Z.le A -> t0 < t1 ->
  (In x (kept A t0 t1) <-> In x A /\ (forall y, In y A -> y <= t0 -> y <= x) /\ (forall y, In y A -> t1 <= y -> x <= y)).
Proof.
  intros HA Ht. unfold kept. set (lo := Z.max 0 (ss_right A t0 - 1)). set (hi := Z.min (zlen A) (ss_left A t1 + 1)).
  pose proof (ss_right_le A t0) as B1. pose proof (ss_left_le A t1) as B2.
  assert (Hlr : ss_right A t0 <= ss_left A t1).
  { destruct (Z.eq_dec (ss_right A t0) 0) as [->|N]; [lia|].
    destruct (znth_ex A (ss_right A t0 - 1) ltac:(lia)) as [y Hy].
    pose proof (ss_right_iff A t0 _ _ HA Hy). pose proof (ss_left_iff A t1 _ _ HA Hy). lia. }
  assert (Hlo : 0 <= lo) by (unfold lo; lia). assert (Hlh : lo <= hi) by (unfold lo, hi; lia). assert (Hhi : hi <= zlen A) by (unfold hi; lia).
  set (S := py_slice A lo hi).
  assert (HS : zlen S = hi - lo) by (apply py_slice_len; lia).
  assert (Hz : forall i, 0 <= i < hi - lo -> znth S i = znth A (lo + i)) by (intros i Hi; apply py_slice_znth; lia).
  split.
  - intros Hx. apply In_znth in Hx. destruct Hx as [i Hi]. pose proof (znth_range _ _ _ Hi). rewrite Hz in Hi by lia.
    split; [exact (znth_In _ _ _ Hi)|]. split; intros y Hy Hyt; apply In_znth in Hy; destruct Hy as [j Hj]; pose proof (znth_range _ _ _ Hj).
    + pose proof (ss_right_iff A t0 _ _ HA Hj). apply (sorted_znth A j (lo + i) y x HA Hj Hi). unfold lo. lia.
    + pose proof (ss_left_iff A t1 _ _ HA Hj). apply (sorted_znth A (lo + i) j x y HA Hi Hj). unfold hi in *. lia.
  - intros (Hx & H0 & H1). apply In_znth in Hx. destruct Hx as [j Hj]. pose proof (znth_range _ _ _ Hj) as Rj.
    destruct (Z.lt_ge_cases j lo) as [C|C].
    + destruct (znth_ex A lo ltac:(lia)) as [y Hy]. pose proof (ss_right_iff A t0 _ _ HA Hy) as C1. assert (Hyt : y <= t0) by (unfold lo in *; lia).
      pose proof (H0 y (znth_In _ _ _ Hy) Hyt). pose proof (sorted_znth A j lo x y HA Hj Hy ltac:(lia)). assert (x = y) by lia. subst y.
      apply (znth_In _ 0). rewrite Hz by (unfold lo, hi in *; lia). rewrite Z.add_0_r. exact Hy.
    + destruct (Z.lt_ge_cases j hi) as [D|D].
      * apply (znth_In _ (j - lo)). rewrite Hz by lia. replace (lo + (j - lo)) with j by lia. exact Hj.
      * destruct (znth_ex A (hi - 1) ltac:(unfold hi in *; lia)) as [y Hy]. pose proof (ss_left_iff A t1 _ _ HA Hy) as C1. assert (Hyt : t1 <= y) by (unfold hi in *; lia).
        pose proof (H1 y (znth_In _ _ _ Hy) Hyt). pose proof (sorted_znth A (hi - 1) j y x HA Hy Hj ltac:(lia)). assert (x = y) by lia. subst y.
        apply (znth_In _ (hi - 1 - lo)). rewrite Hz by (unfold lo, hi in *; lia). replace (lo + (hi - 1 - lo)) with (hi - 1) by lia. exact Hy.
Qed.
Lemma sorted_sub {A} (R : A -> A -> Prop) l n m : StronglySorted R l -> StronglySorted R (firstn n (skipn m l)).
Proof.
  intros H. assert (H1 : StronglySorted R (skipn m l)).
  { revert l H. induction m as [|m IH]; intros l H; [exact H|]. destruct H as [|a l H Ha]; [constructor|]. cbn [skipn]. apply IH, H. }
  revert H1. generalize (skipn m l). clear. induction n as [|n IH]; intros l H; [constructor|]. destruct H as [|a l H Ha]; [constructor|].
  cbn [firstn]. constructor; [apply IH, H|]. rewrite Forall_forall in *. intros x Hx. apply Ha. clear - Hx. revert l Hx. induction n as [|n IH]; intros l Hx; [destruct Hx|].
  destruct l as [|b l]; [destruct Hx|]. destruct Hx as [->|Hx]; [left; reflexivity|right; apply IH, Hx].
Qed.
Lemma sorted_ends p ps : StronglySorted Z.le (p :: ps) -> (forall x, In x (p :: ps) -> p <= x) /\ (forall x, In x (p :: ps) -> x <= last (p :: ps) p).
Proof.
  intros H. split.
  - inversion H as [|? ? _ Ha]; subst. rewrite Forall_forall in Ha. intros x [->|Hx]; [lia|exact (Ha _ Hx)].
  - assert (X : forall l a d, StronglySorted Z.le (a :: l) -> forall x, In x (a :: l) -> x <= last (a :: l) d).
    { induction l as [|b l IH]; intros a d Hl x Hx; [destruct Hx as [->|[]]; cbn; lia|].
      inversion Hl as [|? ? Hl0 Ha]; subst. change (last (a :: b :: l) d) with (last (b :: l) d). destruct Hx as [<-|Hx]; [|apply IH; assumption].
      rewrite Forall_forall in Ha. apply Ha. apply last_member. }
    apply X, H.
Qed.

Lemma mapM_fails {A B} (g : A -> res B) e0 l : (forall x e, In x l -> g x = Err e -> e = e0) ->
  (exists ys, mapM g l = Ok ys) \/ (mapM g l = Err e0 /\ exists x, In x l /\ g x = Err e0).
Proof.
  induction l as [|a l IH]; intros H; [left; exists []; reflexivity|]. cbn [mapM]. destruct (g a) as [y|e] eqn:Ea; cbn [bind].
  - destruct IH as [[ys ->]|[-> (x & Hx & E)]]; [intros x e Hx; apply H; right; exact Hx|left; exists (y :: ys); reflexivity|].
    right. split; [reflexivity|]. exists x. split; [right; exact Hx|exact E].
  - pose proof (H a e (or_introl eq_refl) Ea) as Ee. subst e0. right. split; [reflexivity|]. exists a. split; [left; reflexivity|exact Ea].
Qed.
Lemma mapM_all_ok {A B} (g : A -> res B) l ys x e : mapM g l = Ok ys -> In x l -> g x = Err e -> False.
Proof.
  intros H. apply mapM_inv in H. induction H as [|a y l ys Hay H IH]; intros Hx E; [destruct Hx|]. destruct Hx as [->|Hx]; [congruence|exact (IH Hx E)].
Qed.
Lemma mapM_concat_In {A} (g : A -> res (list Z)) l ys t : mapM g l = Ok ys -> (In t (concat ys) <-> exists x y, In x l /\ g x = Ok y /\ In t y).
Proof.
  intros H. apply mapM_inv in H. induction H as [|x y l ys Hxy H IH].
  - split; [intros []|intros (x & y & [] & _)].
  - cbn [concat]. rewrite in_app_iff, IH. split.
    + intros [Ht|(x' & y' & H1 & H2)]; [exists x, y; split; [left; reflexivity|split; assumption]|exists x', y'; split; [right; exact H1|exact H2]].
    + intros (x' & y' & [<-|H1] & H2 & H3); [left; congruence|right; exists x', y'; split; [exact H1|split; assumption]].
Qed.
Lemma mapM_perm {A} (g : A -> res (list Z)) l l' : Permutation l l' -> forall ys ys', mapM g l = Ok ys -> mapM g l' = Ok ys' -> Permutation (concat ys) (concat ys').
Proof.
  intros HP. assert (X : forall m ys, mapM g m = Ok ys -> ys = map (fun x => match g x with Ok y => y | Err _ => [] end) m).
  { intros m ys H. apply mapM_inv in H. induction H as [|x y m ys Hxy H IH]; [reflexivity|]. cbn [map]. rewrite Hxy, IH. reflexivity. }
  intros ys ys' H H'. rewrite (X _ _ H), (X _ _ H'). rewrite <- !flat_map_concat_map. apply Permutation_flat_map, HP.
Qed.

(** ** Partition *)
Lemma span_strict f s : fbase (to_freq (fr_str f)) <> BN -> span_wf f s -> unit_start f (s_first s) < unit_end f (s_last s).
Proof.
  intros Hb [H1 H2]. rewrite unit_end_next. pose proof (unit_start_lt f (s_first s) (s_first s + 1) ltac:(lia)) as H.
  assert (H3 : unit_start f (s_first s + 1) <= unit_start f (s_last s + 1)).
  { destruct (Z.eq_dec (s_first s) (s_last s)) as [->|N]; [lia|]. pose proof (unit_start_lt f (s_first s + 1) (s_last s + 1) ltac:(lia)). lia. }
  enough (unit_start f (s_first s) + 1 <> unit_start f (s_first s + 1)) by lia. clear H H3.
  unfold unit_start, fr_base. intros E. apply (f_equal (fun z => z mod 1000)) in E. rewrite Z.add_mod in E by lia.
  assert (X : forall o, pstart (fbase (to_freq (fr_str f))) o mod 1000 = 0).
  { intros o. destruct (fbase (to_freq (fr_str f))); cbn [pstart]; try congruence; 
      match goal with |- (?a * ?b) mod 1000 = 0 => let v := eval vm_compute in (b / 1000) in replace (a * b) with (a * v * 1000) by (change b with (v * 1000); ring) end; apply Z.mod_mul; lia. }
  rewrite !X in E. discriminate E.
Qed.

Lemma finish_ext f s pts pts' lu lb ru rb : fr_wf f -> (forall t, In t pts <-> In t pts') ->
  finish_partition f s pts lu lb ru rb = finish_partition f s pts' lu lb ru rb.
Proof. intros Hw H. unfold finish_partition. rewrite (subspan_map_ext f s pts pts' Hw H). reflexivity. Qed.

Lemma partition_same f d d' s : fr_wf f -> span_wf f s -> same_divider (fr_str f) d d' -> partition f d s = partition f d' s.
Proof.
  intros Hw Hs H. destruct H as [ms ms' H|e l l' [[e0 Htot] H]]; cbn [partition].
  - apply subspan_map_ext; assumption.
  - unfold partition_with_marker. cbn [m_each m_at]. destruct (negb _); [reflexivity|]. rewrite (check_span_ok f s Hs). cbn [bind].
    assert (HI : forall how, In how l <-> In how l').
    { destruct H as [H|[_ H]]; [|exact H]. intros how. split; apply Permutation_in; [exact H|apply Permutation_sym, H]. }
    destruct l as [|h0 l0]; destruct l' as [|h0' l0'].
    + reflexivity.
    + exfalso. exact (proj2 (HI h0') (or_introl eq_refl)).
    + exfalso. exact (proj1 (HI h0) (or_introl eq_refl)).
    + revert H Htot HI. generalize (h0 :: l0) as l, (h0' :: l0') as l'. clear h0 l0 h0' l0'. intros l l' H Htot HI.
      destruct (mk_frame e _ _) as [stn|er]; [|reflexivity]. cbn [bind].
      assert (M : (exists pts pts', mapM (fun how => how stn (fr_str f)) l = Ok pts /\ mapM (fun how => how stn (fr_str f)) l' = Ok pts')
        \/ (mapM (fun how => how stn (fr_str f)) l = Err e0 /\ mapM (fun how => how stn (fr_str f)) l' = Err e0)).
      { destruct (mapM_fails (fun how => how stn (fr_str f)) e0 l) as [[pts Ep]|[Ep (x & Hx & Ex)]]; [intros how e' Hh; exact (Htot how Hh stn (fr_str f) e')| |];
        (destruct (mapM_fails (fun how => how stn (fr_str f)) e0 l') as [[pts' Ep']|[Ep' (x' & Hx' & Ex')]]; [intros how e' Hh; exact (Htot how (proj2 (HI how) Hh) stn (fr_str f) e')| |]).
        - left. exists pts, pts'. split; assumption.
        - exfalso. exact (mapM_all_ok _ _ _ _ _ Ep (proj2 (HI x') Hx') Ex').
        - exfalso. exact (mapM_all_ok _ _ _ _ _ Ep' (proj1 (HI x) Hx) Ex).
        - right. split; assumption. }
      destruct M as [(pts & pts' & Ep & Ep')|[-> ->]]; [|reflexivity].
      rewrite Ep, Ep'. cbn [bind]. destruct H as [H|[Hb _]].
      * rewrite (zsort_Permutation _ _ (mapM_perm _ _ _ H _ _ Ep Ep')). reflexivity.
      * fold (kept (zsort (concat pts)) (unit_start f (s_first s)) (unit_end f (s_last s))).
        fold (kept (zsort (concat pts')) (unit_start f (s_first s)) (unit_end f (s_last s))).
        set (t0 := unit_start f (s_first s)). set (t1 := unit_end f (s_last s)). pose proof (span_strict f s Hb Hs) as Ht. fold t0 t1 in Ht.
        assert (HZ : forall t, In t (zsort (concat pts)) <-> In t (zsort (concat pts'))).
        { intros t. rewrite !zsort_In, (mapM_concat_In _ _ _ t Ep), (mapM_concat_In _ _ _ t Ep').
          split; intros (x & y & H1 & H2); exists x, y; (split; [apply HI, H1|exact H2]). }
        assert (HK : forall t, In t (kept (zsort (concat pts)) t0 t1) <-> In t (kept (zsort (concat pts')) t0 t1)).
        { intros t. rewrite !kept_In by (exact Ht || apply zsort_sorted). rewrite HZ. split; intros (H1 & H2 & H3); (split; [exact H1|]); (split; intros y Hy; [apply H2|apply H3]; apply HZ, Hy). }
        assert (S1 : StronglySorted Z.le (kept (zsort (concat pts)) t0 t1)) by (apply sorted_sub, zsort_sorted).
        assert (S2 : StronglySorted Z.le (kept (zsort (concat pts')) t0 t1)) by (apply sorted_sub, zsort_sorted).
        revert HK S1 S2. generalize (kept (zsort (concat pts)) t0 t1) as K, (kept (zsort (concat pts')) t0 t1) as K'. clear - Hw. intros K K' HK S1 S2.
        destruct K as [|p ps]; destruct K' as [|p' ps'].
        -- reflexivity.
        -- exfalso. exact (proj2 (HK p') (or_introl eq_refl)).
        -- exfalso. exact (proj1 (HK p) (or_introl eq_refl)).
        -- destruct (sorted_ends _ _ S1) as [A1 A2]. destruct (sorted_ends _ _ S2) as [B1 B2].
           assert (Ep : p = p'). { pose proof (A1 _ (proj2 (HK p') (or_introl eq_refl))). pose proof (B1 _ (proj1 (HK p) (or_introl eq_refl))). lia. }
           subst p'. assert (El : last (p :: ps) p = last (p :: ps') p).
           { pose proof (A2 _ (proj2 (HK _) (last_member ps' p p))). pose proof (B2 _ (proj1 (HK _) (last_member ps p p))). lia. }
           rewrite El. apply finish_ext; assumption.
Qed.

(** ** The loop over the structure *)
Lemma run_cycle_ext_on {S} (P : span -> Prop) (all all' : list (span -> S -> res S)) :
  Forall2 (fun a b => forall s st, P s -> a s st = b s st) all all' ->
  forall spans cur cur' st, Forall P spans -> Forall2 (fun a b => forall s st, P s -> a s st = b s st) cur cur' -> run_cycle all cur spans st = run_cycle all' cur' spans st.
Proof.
  intros Ha. induction spans as [|s spans IH]; intros cur cur' st HP Hc; [reflexivity|]. cbn [run_cycle]. inversion HP as [|? ? Ps Pr]; subst.
  destruct Hc as [|a b cur cur' Hab Hc].
  - destruct Ha as [|a b all all' Hab Ha']; [reflexivity|]. rewrite (Hab _ _ Ps). destruct (b s st); [|reflexivity]. cbn [bind]. apply IH; [exact Pr|exact Ha'].
  - rewrite (Hab _ _ Ps). destruct (b s st); [|reflexivity]. cbn [bind]. apply IH; [exact Pr|exact Hc].
Qed.
Lemma run_cycle_copies {S} (all : list (span -> S -> res S)) n : (0 < n)%nat ->
  forall spans cur j st, run_cycle (copies n all) (cur ++ copies j all) spans st = run_cycle all cur spans st.
Proof.
  intros Hn. induction spans as [|s spans IH]; intros cur j st; [reflexivity|]. destruct cur as [|a cur].
  - rewrite app_nil_l. destruct all as [|a all'] eqn:Ea.
    + assert (X : forall k, copies k ([] : list (span -> S -> res S)) = []) by (intros k; unfold copies; induction k as [|k IHk]; [reflexivity|exact IHk]).
      rewrite !X. reflexivity.
    + assert (G : forall i, run_cycle (copies n (a :: all')) (a :: all' ++ copies i (a :: all')) (s :: spans) st = run_cycle (a :: all') [] (s :: spans) st).
      { intros i. cbn [run_cycle]. destruct (a s st); [|reflexivity]. cbn [bind]. apply IH. }
      destruct j as [|j]; [|exact (G j)]. destruct n as [|n]; [lia|]. exact (G n).
  - cbn [app run_cycle]. destruct (a s st); [|reflexivity]. cbn [bind]. apply IH.
Qed.
Lemma cyc_take_copies {A} (l : list A) n : (0 < n)%nat -> forall m cur j, fst (cyc_take (copies n l) (cur ++ copies j l) m) = fst (cyc_take l cur m).
Proof.
  intros Hn. induction m as [|m IH]; intros cur j; [reflexivity|]. destruct cur as [|a cur].
  - rewrite app_nil_l. destruct l as [|a l'] eqn:Ea.
    + assert (X : forall k, copies k ([] : list A) = []) by (intros k; unfold copies; induction k as [|k IHk]; [reflexivity|exact IHk]).
      rewrite !X. reflexivity.
    + assert (K : forall i, cyc_take (copies n (a :: l')) (a :: l' ++ copies i (a :: l')) (S m) = (let (t, r) := cyc_take (copies n (a :: l')) (l' ++ copies i (a :: l')) m in (a :: t, r))) by reflexivity.
      assert (G : forall i, fst (cyc_take (copies n (a :: l')) (a :: l' ++ copies i (a :: l')) (S m)) = fst (cyc_take (a :: l') [] (S m))).
      { intros i. rewrite K. cbn [cyc_take]. specialize (IH l' i). destruct (cyc_take (copies n (a :: l')) _ m), (cyc_take (a :: l') l' m). cbn [fst] in *. rewrite IH. reflexivity. }
      destruct j as [|j]; [|exact (G j)]. destruct n as [|n]; [lia|]. exact (G n).
  - cbn [app cyc_take]. specialize (IH cur j). destruct (cyc_take (copies n l) _ m), (cyc_take l cur m). cbn [fst] in *. rewrite IH. reflexivity.
Qed.
Lemma map_copies {A B} (g : A -> B) n l : map g (copies n l) = copies n (map g l).
Proof. unfold copies. rewrite concat_map. f_equal. induction n as [|n IH]; [reflexivity|]. cbn [repeat map]. rewrite IH. reflexivity. Qed.
Lemma pattern_copies {L} (l : list L) n s st : (0 < n)%nat -> apply_pattern (PList (copies n l)) s st = apply_pattern (PList l) s st.
Proof.
  intros Hn. unfold apply_pattern. destruct (s_left s <? 0); [reflexivity|]. destruct l as [|a l'] eqn:Ea.
  - assert (X : forall k, copies k ([] : list L) = []) by (intros k; unfold copies; induction k as [|k IHk]; [reflexivity|exact IHk]).
    rewrite X. reflexivity.
  - pose proof (cyc_take_copies (a :: l') n Hn (Z.to_nat (s_left s) + span_len s)%nat [] n) as H. rewrite app_nil_l in H.
    assert (H2 : forall m, fst (cyc_take (a :: l') [] m) = fst (cyc_take (a :: l') (a :: l') m)) by (intros [|m]; reflexivity).
    rewrite H2 in H. unfold skip_take. destruct n as [|n]; [lia|]. revert H. change (copies (S n) (a :: l')) with (a :: l' ++ copies n (a :: l')).
    cbv beta iota zeta. destruct (cyc_take (a :: l' ++ copies n (a :: l')) _ _), (cyc_take (a :: l') (a :: l') _). cbn [fst]. intros ->. reflexivity.
Qed.

Lemma marks_none f s : fr_wf f -> span_wf f s -> partition f (DMarks []) s = Ok [mkSpan (s_first s) (s_last s) 0 0].
Proof.
  intros Hw Hs. cbn [partition]. unfold partition_at_marks, create_subspans, locate_subspans. rewrite (check_span_ok f s Hs). cbn [bind].
  reflexivity.
Qed.
Lemma marks_flat f ms s spans : fr_wf f -> span_wf f s -> partition f (DMarks ms) s = Ok spans -> Forall (fun x => span_wf f x /\ s_left x = 0 /\ s_right x = 0) spans.
Proof.
  intros Hw Hs E. pose proof (partition_tiles f (DMarks ms) s spans Hw Hs E) as Ht. apply Forall_forall. intros x Hx.
  split; [eapply span_wf_tiles; [exact Ht|destruct Hs; lia|destruct Hs; lia|exact Hx]|].
  cbn [partition] in E. unfold partition_at_marks, create_subspans in E. destruct (locate_subspans f s ms) as [b|e]; [|discriminate]. cbn [bind] in E. injection E as <-.
  apply in_map_iff in Hx. destruct Hx as (q & <- & _). split; reflexivity.
Qed.
Lemma partition_wf f d s spans : fr_wf f -> span_wf f s -> partition f d s = Ok spans -> Forall (span_wf f) spans.
Proof.
  intros Hw Hs E. pose proof (partition_tiles f d s spans Hw Hs E) as Ht. apply Forall_forall. intros x Hx.
  eapply span_wf_tiles; [exact Ht|destruct Hs; lia|destruct Hs; lia|exact Hx].
Qed.
Lemma partition_ends f d s : partition f d s = partition f d (mkSpan (s_first s) (s_last s) 0 0).
Proof. destruct d; reflexivity. Qed.
Lemma no_pattern_ends {L} f (ly : layout L) s st : no_pattern ly -> organize f ly (mkSpan (s_first s) (s_last s) 0 0) st = organize f ly s st.
Proof.
  destruct ly as [d items|d k|p|x]; intros H; cbn [organize]; [| |destruct H|reflexivity].
  - rewrite <- partition_ends. reflexivity.
  - rewrite <- partition_ends. reflexivity.
Qed.
Lemma around {L} f (ly : layout L) s st : fr_wf f -> span_wf f s -> organize f (LOrg (DMarks []) [ly]) s st = organize f ly (mkSpan (s_first s) (s_last s) 0 0) st.
Proof.
  intros Hw Hs. cbn [organize]. rewrite (marks_none f s Hw Hs). cbn [bind map run_cycle]. destruct (organize f ly _ st); reflexivity.
Qed.

Lemma organize_alike {L} f (x y : layout L) : fr_wf f -> alike (fr_str f) x y -> forall s st, span_wf f s -> organize f x s st = organize f y s st.
Proof.
  intros Hw H. induction H as [ly|x y H IH|x y z H1 IH1 H2 IH2|d pre x y post H IH|d d' items H|d d' k H|d items n Hn|l n Hn|ly Hn|ms pre p post]; intros s st Hs.
  - reflexivity.
  - symmetry. apply IH, Hs.
  - rewrite (IH1 s st Hs). apply IH2, Hs.
  - cbn [organize]. destruct (partition f d s) as [spans|e] eqn:E; [|reflexivity]. cbn [bind]. pose proof (partition_wf f d s spans Hw Hs E) as HF.
    assert (C : Forall2 (fun a b => forall s st, span_wf f s -> a s st = b s st) (map (organize f) (pre ++ x :: post)) (map (organize f) (pre ++ y :: post))).
    { assert (R : forall l : list (layout L), Forall2 (fun a b => forall s st, span_wf f s -> a s st = b s st) (map (organize f) l) (map (organize f) l)) by (induction l as [|i l IHl]; constructor; [reflexivity|exact IHl]).
      rewrite !map_app. apply Forall2_app; [apply R|]. cbn [map]. constructor; [exact IH|apply R]. }
    exact (run_cycle_ext_on (span_wf f) _ _ C spans _ _ st HF C).
  - cbn [organize]. rewrite (partition_same f d d' s Hw Hs H). reflexivity.
  - cbn [organize]. rewrite (partition_same f d d' s Hw Hs H). reflexivity.
  - cbn [organize]. destruct (partition f d s) as [spans|e]; [|reflexivity]. cbn [bind]. rewrite map_copies. symmetry.
    destruct n as [|n]; [lia|]. exact (run_cycle_copies (map (organize f) items) (S n) Hn spans (map (organize f) items) n st).
  - cbn [organize]. symmetry. apply pattern_copies, Hn.
  - rewrite (around f ly s st Hw Hs). apply no_pattern_ends, Hn.
  - cbn [organize]. destruct (partition f (DMarks ms) s) as [spans|e] eqn:E; [|reflexivity]. cbn [bind]. pose proof (marks_flat f ms s spans Hw Hs E) as HF.
    set (P := fun x => span_wf f x /\ s_left x = 0 /\ s_right x = 0) in *.
    assert (C : Forall2 (fun a b => forall s st, P s -> a s st = b s st) (map (organize f) (pre ++ LOrg (DMarks []) [LPat p] :: post)) (map (organize f) (pre ++ LPat p :: post))).
    { assert (R : forall l : list (layout L), Forall2 (fun a b => forall s st, P s -> a s st = b s st) (map (organize f) l) (map (organize f) l)) by (induction l as [|i l IHl]; constructor; [reflexivity|exact IHl]).
      rewrite !map_app. apply Forall2_app; [apply R|]. cbn [map]. constructor; [|apply R].
      intros [a b lft rgt] st' (Hs' & El & Er). cbn [s_left s_right] in El, Er. subst lft rgt. exact (around f (LPat p) _ st' Hw Hs'). }
    exact (run_cycle_ext_on P _ _ C spans _ _ st HF C).
Qed.

Lemma C76_same_pf : forall L (a : tb_args L) ly ly' h, alike (a_freq a) ly ly' -> top_level ly -> top_level ly' ->
  build (with_layout a ly) h = build (with_layout a ly') h.
Proof.
  intros L a ly ly' h H T T'. unfold build. cbn [with_layout a_layout a_wt a_freq a_start a_end a_ref_end a_default a_amendments a_name a_sel a_num].
  assert (X : forall l : layout L, top_level l -> exists org, top_organizer l = Ok org
    /\ forall f st, fr_wf f -> organize f org (mkSpan 0 (fr_len f - 1) 0 0) st = organize f l (mkSpan 0 (fr_len f - 1) 0 0) st).
  { intros [d items|d k|[l|k]|x] Hl; try destruct Hl; cbn [top_organizer]; eexists; (split; [reflexivity|]); intros f st Hf; try reflexivity.
    apply around; [exact Hf|]. unfold fr_wf in Hf. split; cbn [s_first s_last]; lia. }
  destruct (X ly T) as (org & -> & E1). destruct (X ly' T') as (org' & -> & E2). cbn [bind].
  destruct (mk_frame (a_freq a) _ _) as [f|e] eqn:Ef; [|reflexivity]. cbn [bind].
  assert (Hw : fr_wf f) by (exact (proj1 (proj2 (proj2 (mk_frame_inv _ _ _ _ Ef))))).
  assert (Hfs : fr_str f = a_freq a) by (exact (Verif.MoveProofs.mk_frame_str _ _ _ _ Ef)).
  unfold mk_timeline. rewrite (E1 f _ Hw), (E2 f _ Hw). rewrite <- Hfs in H. rewrite (organize_alike f ly ly' Hw H); [reflexivity|].
  unfold fr_wf in Hw. split; cbn [s_first s_last]; lia.
Qed.

(** ** The functions of when.py *)
Lemma filter2_fails cmp a b e : filter2 cmp a b = Err e -> e = EValue.
Proof. unfold filter2. destruct (negb _); [|discriminate]. injection 1 as <-. reflexivity. Qed.
Lemma C76_when_pf : (forall o, usable o -> fails_as EValue (from_start_of_each o))
  /\ (forall month week wday shift, 1 <= month <= 12 -> (1 <= week <= 5 \/ -5 <= week <= -1) -> 1 <= wday <= 7 ->
        fails_as EValue (nth_weekday_of_month month week wday shift))
  /\ (forall orthodox o, usable o -> fails_as EValue (from_easter orthodox o)).
Proof.
  split; [|split].
  - intros o H stn fs e. unfold from_start_of_each. rewrite (usable_none o H). destruct (_ <? _); discriminate.
  - intros month week wday shift H1 H2 H3 stn fs e. unfold nth_weekday_of_month.
    destruct (negb (_ && (month <=? 12))) eqn:C1; [lia|]. destruct (negb (_ && (wday <=? 7))) eqn:C2; [lia|]. destruct (negb (_ || _)) eqn:C3; [lia|]. clear.
    cbv zeta. destruct (filter2 Z.leb (map (fun k => month_start (k + (month - 1)) * NS_DAY) _) _) as [m|e1] eqn:E1; cbn [bind]; [|injection 1 as <-; exact (filter2_fails _ _ _ _ E1)].
    destruct (filter2 Z.leb (map (fun k => (month_start (k + month) - 1) * NS_DAY) _) _) as [m'|e2] eqn:E2; cbn [bind]; [|injection 1 as <-; exact (filter2_fails _ _ _ _ E2)].
    destruct (0 <? week).
    + destruct (filter2 Z.leb _ m') as [m''|e3] eqn:E3; cbn [bind]; [discriminate|injection 1 as <-; exact (filter2_fails _ _ _ _ E3)].
    + destruct (filter2 Z.geb _ m) as [m''|e3] eqn:E3; cbn [bind]; [discriminate|injection 1 as <-; exact (filter2_fails _ _ _ _ E3)].
  - intros orth o H stn fs e. unfold from_easter. rewrite (usable_none o H). cbv zeta. destruct (_ <=? add_offset _ _); apply filter2_fails.
Qed.

(** ** What is not the same *)
Definition al_args (fs : fstr) (t0 t1 : Z) : tb_args Z := mkArgs fs t0 t1 (LPat (PList [])) [] pos_sel 1 false 0 WDuration Samples.num.
Lemma C76_around_refuted_pf : exists (a : tb_args Z) m l tb tb', 
  build (with_layout a (LOrg (DMarker m) [LPat (PList l)])) [] = Ok (tb, [])
  /\ build (with_layout a (LOrg (DMarker m) [LOrg (DMarks []) [LPat (PList l)]])) [] = Ok (tb', [])
  /\ tl_labels (tb_tl tb) = [3; 4; 5; 6; 7; 1; 2] /\ tl_labels (tb_tl tb') = [1; 2; 3; 4; 5; 1; 2].
Proof.
  exists (al_args (fq AlD) (day 2017 1 4) (day 2017 1 10)), (mkMarker (fq (AlW None)) []), [1; 2; 3; 4; 5; 6; 7]. eexists. eexists.
  split; [vm_compute; reflexivity|]. split; [vm_compute; reflexivity|]. split; vm_compute; reflexivity.
Qed.
Lemma C76_twice_refuted_pf : exists (a : tb_args Z) e how l tb, fails_as EValue how
  /\ build (with_layout a (LOrg (DMarker (mkMarker e [how])) [LPat (PList l)])) [] = Ok (tb, [])
  /\ build (with_layout a (LOrg (DMarker (mkMarker e [how; how])) [LPat (PList l)])) [] = Err EOutOfBounds.
Proof.
  exists (al_args (fq AlN) 5000 5000), (fq AlU), (from_start_of_each (DKw 0 0 0 0 0 0 0)), [1]. eexists.
  split; [apply C76_when_pf; exact I|]. split; vm_compute; reflexivity.
Qed.
