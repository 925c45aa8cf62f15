(** Proofs of C07-C11 on whole timeboards. *)
From Verif Require Import Base BaseProofs Civil Freq FreqProofs Frame FrameProofs Timeline TimelineProofs Board Spec BoardProofs SpecLookup LookupProofs SpecMisc MiscProofs SpecCivil SpecLayout PartProofs TreeProofs.
From Coq Require Import ZifyBool ZifyNat.
Ltac Zify.zify_post_hook ::= Z.div_mod_to_equations.

(** ** From the mask of starts to workshifts *)
Lemma shift_intro {L} (tl : timeline L) m labels u a b x : tl_wf tl -> tl_index tl = nonzero m ->
  tl_labels tl = take_at labels (nonzero m) -> zlen m = fr_len (tl_frame tl) -> zlen labels = fr_len (tl_frame tl) ->
  a <= u <= b -> znth m a = Some true -> (forall v, a < v <= b -> znth m v = Some false) ->
  (b + 1 = fr_len (tl_frame tl) \/ znth m (b + 1) = Some true) -> znth labels a = Some x -> shift_of tl u a b x.
Proof.
  intros W Hi Hl Hm Hlab Hu Ha Hin Hb Hx.
  assert (Ia : In a (tl_index tl)) by (rewrite Hi; apply nonzero_In; exact Ha).
  apply In_znth in Ia. destruct Ia as [i Ei]. pose proof (znth_range _ _ _ Ei) as Ri. exists i.
  assert (Bi : bnd tl i = a) by (unfold bnd; rewrite Ei; reflexivity).
  assert (Bn : bnd tl (i + 1) = b + 1).
  { unfold bnd. destruct (znth (tl_index tl) (i + 1)) as [v|] eqn:Ev.
    - pose proof (proj1 (asc_znth_lt _ _ _ _ _ (wf_asc tl W) Ei Ev) ltac:(lia)) as Hav.
      pose proof (wf_range tl W v (znth_In _ _ _ Ev)) as Rv.
      assert (Mv : znth m v = Some true) by (apply nonzero_In; rewrite <- Hi; eapply znth_In; exact Ev).
      assert (Hvb : b < v). { destruct (Z.lt_ge_cases b v); [assumption|]. rewrite (Hin v) in Mv by lia. discriminate. }
      destruct Hb as [Hb|Hb]; [lia|].
      assert (Ib : In (b + 1) (tl_index tl)) by (rewrite Hi; apply nonzero_In; exact Hb).
      apply In_znth in Ib. destruct Ib as [j Ej].
      pose proof (asc_znth_lt _ _ _ _ _ (wf_asc tl W) Ei Ej). pose proof (asc_znth_lt _ _ _ _ _ (wf_asc tl W) Ej Ev). lia.
    - destruct Hb as [Hb|Hb]; [lia|].
      assert (Ib : In (b + 1) (tl_index tl)) by (rewrite Hi; apply nonzero_In; exact Hb).
      apply In_znth in Ib. destruct Ib as [j Ej]. pose proof (znth_range _ _ _ Ej).
      pose proof (asc_znth_lt _ _ _ _ _ (wf_asc tl W) Ei Ej).
      assert (zlen (tl_index tl) <= i + 1). { destruct (Z.lt_ge_cases (i + 1) (zlen (tl_index tl))) as [Hc|Hc]; [|lia]. destruct (znth_ex (tl_index tl) (i + 1) ltac:(lia)) as [y Ey]. congruence. }
      lia. }
  change (zlen (tl_index tl)) with (tl_len tl) in Ri. split; [exact Ri|].
  split; [rewrite ws_first_ok by assumption; f_equal; exact Bi|]. split; [rewrite ws_last_ok by assumption; f_equal; lia|]. split; [exact Hu|].
  apply py_get_res_ok; [lia|]. rewrite Hl. destruct (take_at_ok labels (nonzero m)) as [_ T].
  { intros k Hk. apply nonzero_In, znth_range in Hk. lia. }
  rewrite (T i a); [exact Hx|]. rewrite <- Hi. exact Ei.
Qed.

(** The unit of a workshift is found again in its number. *)
Lemma shift_of_num {L} (tl : timeline L) u a b x : tl_wf tl -> shift_of tl u a b x ->
  exists i, 0 <= i < tl_len tl /\ bnd tl i = a /\ bnd tl (i + 1) = b + 1 /\ tl_get tl i = Ok x /\ a <= u <= b.
Proof.
  intros W (i & Hi & H1 & H2 & H3 & H4). rewrite ws_first_ok in H1 by assumption. rewrite ws_last_ok in H2 by assumption.
  injection H1 as H1. injection H2 as H2. exists i. split; [exact Hi|]. split; [exact H1|]. split; [lia|]. split; assumption.
Qed.

Lemma amend_nil {L} (tl : timeline L) : amend tl false [] = Ok tl.
Proof. destruct tl. reflexivity. Qed.

(** ** C09 *)
Lemma decides_nest {L} f u (ly : layout L) s leaf s' : fr_wf f -> decides f u ly s leaf s' -> span_wf f s ->
  s_first s <= s_first s' /\ s_last s' <= s_last s.
Proof.
  intros Hw H. induction H as [p s|x s|d s|d k spans s s' j Hp Hj Hu|d items spans s s1 j it leaf s2 Hp Hj Hu Hit Hd IH]; intros Hs; try lia.
  - apply partition_tiles in Hp; [|exact Hw|exact Hs]. pose proof (tiles_In _ _ _ s' Hp (nth_error_In _ _ Hj)). lia.
  - apply partition_tiles in Hp; [|exact Hw|exact Hs]. pose proof (tiles_In _ _ _ s1 Hp (nth_error_In _ _ Hj)).
    assert (H0 : span_wf f s1) by (unfold span_wf in *; lia). specialize (IH H0). lia.
Qed.
Lemma decides_near {L} f u (ly : layout L) s leaf s' : fr_wf f -> decides f u ly s leaf s' -> span_wf f s ->
  forall v, s_first s' <= v <= s_last s' -> decides f v ly s leaf s'.
Proof.
  intros Hw H. induction H as [p s|x s|d s|d k spans s s' j Hp Hj Hu|d items spans s s' j it leaf s'' Hp Hj Hu Hit Hd IH]; intros Hs v Hv; try constructor.
  - eapply dec_remember; eassumption.
  - pose proof (partition_tiles _ _ _ _ Hw Hs Hp) as Ht. pose proof (tiles_In _ _ _ s' Ht (nth_error_In _ _ Hj)) as Hin.
    assert (Hs' : span_wf f s') by (unfold span_wf in *; lia).
    pose proof (decides_nest _ _ _ _ _ _ Hw Hd Hs').
    eapply dec_org; [exact Hp|exact Hj|lia|exact Hit|]. apply IH; [exact Hs'|exact Hv].
Qed.

(** The first unit of a deciding span starts a workshift; what becomes of every unit. *)
Section Result.
  Context {L : Type} (f : frame) (org : layout L) (re : bool) (dflt : L) (h : heap L) (tl : timeline L) (h' : heap L).
  Hypothesis Hw : fr_wf f.
  Hypothesis Hmk : mk_timeline f org re dflt h = Ok (tl, h').

  Lemma tree_leaf u : 0 <= u < fr_len f ->
    exists leaf s, decides f u org (whole_span f) leaf s
      /\ (forall leaf' s', decides f u org (whole_span f) leaf' s' -> leaf' = leaf /\ s' = s)
      /\ leaf_does tl h dflt leaf s u.
  Proof.
    intros Hu. destruct (mk_timeline_inv _ _ _ _ _ _ _ Hw Hmk) as (st & Ho & Lm & Ll & M0 & Etl & _ & W).
    change (mkSpan 0 (fr_len f - 1) 0 0) with (whole_span f) in Ho.
    set (st0 := mkSt (repeat dflt (Z.to_nat (fr_len f))) (repeat true (Z.to_nat (fr_len f))) h) in Ho.
    assert (Hst0 : st_ok (fr_len f) st0) by (unfold st_ok, st0; cbn; rewrite !zlen_repeat; lia).
    assert (Hs : span_wf f (whole_span f)) by (unfold span_wf, whole_span; cbn; lia).
    assert (Ef : tl_frame tl = f) by (rewrite Etl; reflexivity).
    assert (L0 : forall v, 0 <= v < fr_len f -> znth (st_labels st0) v = Some dflt) by (intros v Hv; apply znth_repeat; lia).
    assert (T0 : forall v, 0 <= v < fr_len f -> znth (st_mask st0) v = Some true) by (intros v Hv; apply znth_repeat; lia).
    assert (Hex : forall v, 0 <= v < fr_len f -> exists leaf s, decides f v org (whole_span f) leaf s /\ span_wf f s /\ s_first s <= v <= s_last s /\ effect leaf s v st0 st).
    { intros v Hv. assert (Hv' : s_first (whole_span f) <= v <= s_last (whole_span f)) by (cbn; lia).
      destruct (decides_ex f v org Hw _ _ _ Hs Hv' Hst0 Ho) as (leaf & s & Hd).
      destruct (decides_inside _ _ _ _ _ _ Hw Hd Hs Hv') as [D1 D2].
      exists leaf, s. split; [exact Hd|]. split; [exact D1|]. split; [exact D2|]. exact (decides_effect _ _ _ _ _ _ Hw Hd Hs Hv' _ _ Hst0 Ho). }
    (* the first unit of the span of a leaf starts a workshift *)
    assert (Hfirst : forall v leaf s, decides f v org (whole_span f) leaf s -> 0 <= v < fr_len f -> s_first s = v -> znth (st_mask st) v = Some true).
    { intros v leaf s Hd Hv Es. assert (Hv' : s_first (whole_span f) <= v <= s_last (whole_span f)) by (cbn; lia).
      pose proof (decides_effect _ _ _ _ _ _ Hw Hd Hs Hv' _ _ Hst0 Ho) as E. unfold effect in E. rewrite <- (T0 v Hv).
      destruct leaf as [d [|i items]|d k|[[|z l]|k]|x]; try (destruct E; assumption); try contradiction.
      - destruct (rlabels _ _); [apply E|]. rewrite Es, Z.eqb_refl in E. exact E.
      - rewrite Es, Z.eqb_refl in E. apply E. }
    assert (Hnext : forall v leaf s, decides f v org (whole_span f) leaf s -> 0 <= v < fr_len f -> s_last s + 1 = fr_len f \/ znth (st_mask st) (s_last s + 1) = Some true).
    { intros v leaf s Hd Hv. assert (Hv' : s_first (whole_span f) <= v <= s_last (whole_span f)) by (cbn; lia).
      destruct (decides_inside _ _ _ _ _ _ Hw Hd Hs Hv') as [[D1 D3] D2].
      destruct (Z.eq_dec (s_last s + 1) (fr_len f)) as [|Hne]; [left; assumption|right].
      assert (Hv2 : 0 <= s_last s + 1 < fr_len f) by lia.
      destruct (Hex _ Hv2) as (leaf2 & s2 & Hd2 & [E1 E3] & E2 & _). apply (Hfirst _ _ _ Hd2 Hv2).
      destruct (Z.eq_dec (s_first s2) (s_last s + 1)) as [|Hc]; [assumption|exfalso].
      assert (Hl : s_first (whole_span f) <= s_last s <= s_last (whole_span f)) by (cbn; lia).
      pose proof (decides_near _ _ _ _ _ _ Hw Hd Hs (s_last s) ltac:(lia)) as N1.
      pose proof (decides_near _ _ _ _ _ _ Hw Hd2 Hs (s_last s) ltac:(lia)) as N2.
      destruct (decides_fun _ _ _ _ _ _ Hw N1 Hs _ _ N2) as [_ ->]. lia. }
    destruct (Hex u Hu) as (leaf & s & Hd & [D1 D3] & D2 & E). exists leaf, s. split; [exact Hd|].
    assert (Hu' : s_first (whole_span f) <= u <= s_last (whole_span f)) by (cbn; lia).
    split. { intros leaf' s' Hd'. destruct (decides_fun _ _ _ _ _ _ Hw Hd Hs _ _ Hd') as [-> ->]. split; reflexivity. }
    assert (Mk : forall a b x, a <= u <= b -> znth (st_mask st) a = Some true -> (forall v, a < v <= b -> znth (st_mask st) v = Some false) ->
       b + 1 = fr_len f \/ znth (st_mask st) (b + 1) = Some true -> znth (st_labels st) a = Some x -> shift_of tl u a b x).
    { intros a b x H1 H2 H3 H4 H5. apply (shift_intro tl (st_mask st) (st_labels st)); try assumption; rewrite ?Etl; try reflexivity; cbn [tl_frame]; assumption. }
    (* effect on the other units of the span *)
    assert (Hall : forall v, s_first s <= v <= s_last s -> effect leaf s v st0 st).
    { intros v Hv. pose proof (decides_near _ _ _ _ _ _ Hw Hd Hs v Hv) as N.
      exact (decides_effect _ _ _ _ _ _ Hw N Hs ltac:(cbn; lia) _ _ Hst0 Ho). }
    assert (Hunit : (forall v, s_first s <= v <= s_last s -> znth (st_mask st) v = Some true) -> forall x, znth (st_labels st) u = Some x -> shift_of tl u u u x).
    { intros Hm x Hx. apply Mk; [lia|apply Hm; exact D2|intros v Hv; lia| |exact Hx].
      destruct (Z.eq_dec u (s_last s)) as [Eu|Hne]; [rewrite Eu; apply (Hnext u leaf s Hd Hu)|right; apply Hm; lia]. }
    assert (Hshift : forall x, (forall v, s_first s <= v <= s_last s -> znth (st_mask st) v = if v =? s_first s then znth (st_mask st0) v else Some false) ->
       znth (st_labels st) (s_first s) = Some x -> shift_of tl u (s_first s) (s_last s) x).
    { intros x Hm Hx. apply Mk; [exact D2| | |apply (Hnext u leaf s Hd Hu)|exact Hx].
      - rewrite Hm by lia. rewrite Z.eqb_refl. apply T0. lia.
      - intros v Hv. rewrite Hm by lia. destruct (v =? s_first s) eqn:Ev; [lia|reflexivity]. }
    unfold leaf_does. unfold effect in E, Hall.
    destruct leaf as [d [|i items]|d k|[[|z l]|k]|x].
    - apply Hunit; [|destruct E as [E _]; rewrite E; apply L0; exact Hu]. intros v Hv. destruct (Hall v Hv) as [_ ->]. apply T0. lia.
    - contradiction.
    - change (st_heap st0) with h in Hall, E. destruct (rlabels h k).
      + exists dflt. apply Hunit; [|destruct E as [E _]; rewrite E; apply L0; exact Hu]. intros v Hv. destruct (Hall v Hv) as [_ ->]. apply T0. lia.
      + destruct (znth_ex (st_labels st) (s_first s) ltac:(lia)) as [x Hx]. exists x. apply Hshift; [exact Hall|exact Hx].
    - apply Hunit; [|destruct E as [E _]; rewrite E; apply L0; exact Hu]. intros v Hv. destruct (Hall v Hv) as [_ ->]. apply T0. lia.
    - destruct (cycled_ok (z :: l) (s_left s + (u - s_first s)) ltac:(discriminate)) as [x Hx]. exists x. split; [exact Hx|].
      apply Hunit; [|destruct E as [E _]; rewrite E; exact Hx]. intros v Hv. destruct (Hall v Hv) as [_ ->]. apply T0. lia.
    - destruct (znth_ex (st_labels st) u ltac:(lia)) as [x Hx]. exists x. split.
      + apply Hunit; [|exact Hx]. intros v Hv. destruct (Hall v Hv) as [-> _]. apply T0. lia.
      + intros Hr. destruct E as [_ E]. rewrite (E Hr), L0 in Hx by exact Hu. congruence.
    - assert (Hf := Hall (s_first s) ltac:(lia)). rewrite Z.eqb_refl in Hf. apply Hshift; [|apply Hf].
      intros v Hv. specialize (Hall v Hv). destruct (v =? s_first s); [apply Hall|exact Hall].
  Qed.
End Result.

Lemma C09_tree_pf : forall (L : Type) (a : tb_args L) (h : heap L) tb h',
  build a h = Ok (tb, h') -> a_amendments a = [] ->
  let f := tl_frame (tb_tl tb) in
  exists org, top_organizer (a_layout a) = Ok org /\ forall u, 0 <= u < fr_len f ->
    exists leaf s, decides f u org (whole_span f) leaf s
      /\ (forall leaf' s', decides f u org (whole_span f) leaf' s' -> leaf' = leaf /\ s' = s)
      /\ leaf_does (tb_tl tb) h (a_default a) leaf s u.
Proof.
  intros L a h tb h' H Ha f. apply build_inv in H.
  destruct H as (org & f' & tl0 & Eo & _ & Et & Ea & _ & _ & _ & _ & Hw & _ & _ & Ef & _).
  rewrite Ha, amend_nil in Ea. injection Ea as Ea. exists org. split; [exact Eo|]. unfold f. rewrite Ef, <- Ea.
  intros u Hu. exact (tree_leaf f' org _ _ h tl0 h' Hw Et u Hu).
Qed.

(** Unit workshifts everywhere. *)
Lemma unit_shifts {L} (tl : timeline L) : tl_wf tl ->
  (forall u, 0 <= u < fr_len (tl_frame tl) -> exists x, shift_of tl u u u x) -> tl_index tl = zrange 0 (Z.to_nat (fr_len (tl_frame tl))).
Proof.
  intros W H. apply asc_ext; [apply (wf_asc tl W)|apply asc_zrange|]. intros u. rewrite zrange_In. split.
  - intros Hu. apply (wf_range tl W) in Hu. lia.
  - intros Hu. destruct (H u ltac:(lia)) as [x Hx]. apply shift_of_num in Hx; [|exact W].
    destruct Hx as (i & Hi & E & _). rewrite <- E. eapply znth_In. apply bnd_znth; assumption.
Qed.
Lemma unit_shift_get {L} (tl : timeline L) u x : tl_wf tl ->
  tl_index tl = zrange 0 (Z.to_nat (fr_len (tl_frame tl))) -> shift_of tl u u u x ->
  tl_get tl u = Ok x /\ ws_first_baseunit tl u = Ok u /\ ws_last_baseunit tl u = Ok u.
Proof.
  intros W E (i & Hi & H1 & H2 & H3 & H4).
  assert (i = u).
  { rewrite ws_first_ok in H1 by assumption. injection H1 as H1. pose proof (bnd_znth tl i Hi) as B. rewrite H1, E in B.
    pose proof (znth_range _ _ _ B). rewrite zlen_zrange in H. rewrite zrange_znth in B by lia. injection B as B. lia. }
  subst i. split; [exact H4|]. split; assumption.
Qed.

(** A timeboard of unit workshifts: workshift [u] is base unit [u] and has the label [want u]. *)
Lemma all_units {L} (tb : timeboard L) (want : Z -> L -> Prop) : tl_wf (tb_tl tb) ->
  (forall u, 0 <= u < fr_len (tl_frame (tb_tl tb)) -> exists x, want u x /\ shift_of (tb_tl tb) u u u x) ->
  tb_len tb = fr_len (tl_frame (tb_tl tb))
  /\ forall u, 0 <= u < tb_len tb -> exists x, want u x /\ tl_get (tb_tl tb) u = Ok x
      /\ ws_first_baseunit (tb_tl tb) u = Ok u /\ ws_last_baseunit (tb_tl tb) u = Ok u.
Proof.
  intros W H.
  assert (E : tl_index (tb_tl tb) = zrange 0 (Z.to_nat (fr_len (tl_frame (tb_tl tb))))).
  { apply unit_shifts; [exact W|]. intros u Hu. destruct (H u Hu) as (x & _ & Hx). exists x. exact Hx. }
  assert (El : tb_len tb = fr_len (tl_frame (tb_tl tb))).
  { unfold tb_len, tl_len. rewrite E, zlen_zrange. pose proof (wf_frame _ W) as Hf. unfold fr_wf in Hf. lia. }
  split; [exact El|]. intros u Hu. destruct (H u ltac:(lia)) as (x & Hwant & Hx). exists x. split; [exact Hwant|].
  apply unit_shift_get; assumption.
Qed.

(** ** C08 *)
Lemma partition_nomarks f s : fr_wf f -> span_wf f s ->
  exists s', partition f (DMarks []) s = Ok [s'] /\ s_first s' = s_first s /\ s_last s' = s_last s /\ s_left s' = 0 /\ s_right s' = 0.
Proof.
  intros Hf Hs. cbn [partition]. unfold partition_at_marks.
  destruct (create_subspans_ok f s [] Hf Hs) as (spans & E & Ht & Hin & Hz).
  assert (spans <> []) by (inversion Ht; discriminate). destruct spans as [|s1 [|s2 r]]; [contradiction| |].
  - exists s1. split; [exact E|]. inversion Ht; subst; cbn in *.
    + specialize (Hz _ (or_introl eq_refl)). tauto.
    + match goal with H : tiles _ _ [] |- _ => inversion H end.
  - exfalso. assert (H2 : In (s_first s2) (map s_first (s1 :: s2 :: r))) by (cbn; tauto). apply Hin in H2.
    assert (Hd := tiles_disjoint _ _ _ 0 1 s1 s2 Ht eq_refl eq_refl ltac:(lia)).
    pose proof (tiles_In _ _ _ s1 Ht (or_introl eq_refl)).
    destruct H2 as [H2|(_ & t & [] & _)]. lia.
Qed.

Lemma C08_pattern_pf : forall (L : Type) (a : tb_args L) (h : heap L) tb h' l,
  build a h = Ok (tb, h') -> a_amendments a = [] -> a_layout a = LPat (PList l) ->
  h' = h /\ tb_len tb = fr_len (tl_frame (tb_tl tb))
  /\ forall i, 0 <= i < tb_len tb ->
     (exists x, (match l with [] => x = a_default a | _ => cycled l i = Some x end) /\ tl_get (tb_tl tb) i = Ok x)
     /\ ws_first_baseunit (tb_tl tb) i = Ok i /\ ws_last_baseunit (tb_tl tb) i = Ok i /\ ws_duration (tb_tl tb) i = Ok 1.
Proof.
  intros L a h tb h' l H Ha Hl.
  assert (Hh : h' = h).
  { apply build_inv in H. destruct H as (org & f & tl0 & Eo & _ & Et & _ & _ & _ & _ & _ & Hw & _).
    rewrite Hl in Eo. injection Eo as <-. unfold mk_timeline in Et.
    match type of Et with (do _ <- ?o; _) = _ => destruct o as [st|e] eqn:Eo; cbn [bind] in Et; [|discriminate] end.
    injection Et as _ <-. cbn [organize] in Eo. destruct (partition_nomarks f (mkSpan 0 (fr_len f - 1) 0 0) Hw) as (s' & Ep & _).
    { unfold span_wf, fr_wf in *. cbn. lia. }
    rewrite Ep in Eo. cbn [map run_cycle bind] in Eo. unfold organize, apply_pattern in Eo. destruct (s_left s' <? 0); [discriminate|].
    destruct l; cbn [bind] in Eo; injection Eo as <-; reflexivity. }
  split; [exact Hh|].
  assert (W : tl_wf (tb_tl tb)) by (apply build_inv in H; destruct H as (? & ? & ? & _ & _ & _ & _ & _ & _ & _ & _ & _ & _ & W & _); exact W).
  destruct (C09_tree_pf L a h tb h' H Ha) as (org & Eo & Ht). rewrite Hl in Eo. injection Eo as <-. set (f := tl_frame (tb_tl tb)) in *.
  destruct (all_units tb (fun u x => match l with [] => x = a_default a | _ => cycled l u = Some x end) W) as [E1 E2].
  - intros u Hu. fold f in Hu. destruct (Ht u Hu) as (leaf & s & Hd & Hun & Hdo).
    destruct (partition_nomarks f (whole_span f) (wf_frame _ W)) as (s' & Ep & F1 & F2 & F3 & F4).
    { unfold span_wf, whole_span. cbn. lia. }
    assert (Hd2 : decides f u (LOrg (DMarks []) [LPat (PList l)]) (whole_span f) (LPat (PList l)) s').
    { eapply (dec_org _ _ _ _ _ _ s' 0%nat); [exact Ep|reflexivity|rewrite F1, F2; cbn; lia|reflexivity|constructor]. }
    destruct (Hun _ _ Hd2) as [<- <-]. unfold leaf_does in Hdo. destruct l as [|z l].
    + exists (a_default a). split; [reflexivity|exact Hdo].
    + destruct Hdo as (x & Hx & Hs). exists x. split; [|exact Hs]. rewrite F1, F3 in Hx. cbn [s_first whole_span] in Hx.
      rewrite <- Hx. f_equal. lia.
  - split; [exact E1|]. intros i Hi. destruct (E2 i Hi) as (x & X1 & X2 & X3 & X4). split; [exists x; split; assumption|].
    split; [exact X3|]. split; [exact X4|]. unfold ws_duration. rewrite X3, X4. cbn [bind]. f_equal. lia.
Qed.

(** ** C11 *)
Lemma C11_empty_structure_pf : forall (L : Type) (a : tb_args L) (h : heap L) tb h' d,
  build a h = Ok (tb, h') -> a_amendments a = [] -> a_layout a = LOrg d [] ->
  h' = h /\ tb_len tb = fr_len (tl_frame (tb_tl tb))
  /\ forall i, 0 <= i < tb_len tb -> tl_get (tb_tl tb) i = Ok (a_default a)
     /\ ws_first_baseunit (tb_tl tb) i = Ok i /\ ws_last_baseunit (tb_tl tb) i = Ok i /\ ws_duration (tb_tl tb) i = Ok 1.
Proof.
  intros L a h tb h' d H Ha Hl.
  assert (Hh : h' = h).
  { apply build_inv in H. destruct H as (org & f & tl0 & Eo & _ & Et & _ & _ & _ & _ & _ & Hw & _).
    rewrite Hl in Eo. injection Eo as <-. unfold mk_timeline in Et.
    match type of Et with (do _ <- ?o; _) = _ => destruct o as [st|e] eqn:Eo; cbn [bind] in Et; [|discriminate] end.
    injection Et as _ <-. cbn [organize map] in Eo. destruct (partition f d _) as [spans|e]; cbn [bind] in Eo; [|discriminate].
    destruct spans; cbn in Eo; injection Eo as <-; reflexivity. }
  split; [exact Hh|].
  assert (W : tl_wf (tb_tl tb)) by (apply build_inv in H; destruct H as (? & ? & ? & _ & _ & _ & _ & _ & _ & _ & _ & _ & _ & W & _); exact W).
  destruct (C09_tree_pf L a h tb h' H Ha) as (org & Eo & Ht). rewrite Hl in Eo. injection Eo as <-. set (f := tl_frame (tb_tl tb)) in *.
  destruct (all_units tb (fun u x => x = a_default a) W) as [E1 E2].
  - intros u Hu. fold f in Hu. destruct (Ht u Hu) as (leaf & s & Hd & Hun & Hdo). destruct (Hun _ _ (dec_nothing f u d (whole_span f))) as [<- <-].
    exists (a_default a). split; [reflexivity|exact Hdo].
  - split; [exact E1|]. intros i Hi. destruct (E2 i Hi) as (x & -> & X2 & X3 & X4). split; [exact X2|].
    split; [exact X3|]. split; [exact X4|]. unfold ws_duration. rewrite X3, X4. cbn [bind]. f_equal. lia.
Qed.

(** An empty pattern (or an empty organizer) anywhere in the tree. *)
Lemma C11_empty_pattern_pf : forall (L : Type) (a : tb_args L) (h : heap L) tb h' org u s leaf,
  build a h = Ok (tb, h') -> a_amendments a = [] -> top_organizer (a_layout a) = Ok org ->
  0 <= u < fr_len (tl_frame (tb_tl tb)) -> decides (tl_frame (tb_tl tb)) u org (whole_span (tl_frame (tb_tl tb))) leaf s ->
  leaf = LPat (PList []) \/ (exists d, leaf = LOrg d []) \/ (exists k, leaf = LPat (PRem k) /\ rlabels h k = []) ->
  shift_of (tb_tl tb) u u u (a_default a).
Proof.
  intros L a h tb h' org u s leaf H Ha Eo Hu Hd Hk. destruct (C09_tree_pf L a h tb h' H Ha) as (org' & Eo' & Ht).
  rewrite Eo in Eo'. injection Eo' as <-. destruct (Ht u Hu) as (leaf' & s' & _ & Hun & Hdo). destruct (Hun _ _ Hd) as [<- <-].
  destruct Hk as [->|[[d ->]|(k & -> & Hr)]]; cbn [leaf_does] in Hdo; [exact Hdo|exact Hdo|].
  destruct Hdo as (x & Hx & Ex). rewrite (Ex Hr) in Hx. exact Hx.
Qed.

(** ** C10 *)
Lemma tiles_firsts_asc a b l : tiles a b l -> asc (map s_first l).
Proof.
  induction 1 as [a b x y H|a m b x y rest H1 H2 Ht IH]; cbn [map]; [repeat constructor|].
  constructor; [exact IH|]. apply Forall_forall. intros v Hv. apply in_map_iff in Hv. destruct Hv as (s & <- & Hs).
  pose proof (tiles_In _ _ _ s Ht Hs). cbn. lia.
Qed.

Lemma C10_compound_pf : forall (L : Type) (a : tb_args L) (h : heap L) tb h' d labels,
  build a h = Ok (tb, h') -> a_amendments a = [] -> a_layout a = LOrg d (map LLab labels) -> labels <> [] ->
  exists spans, partition (tl_frame (tb_tl tb)) d (whole_span (tl_frame (tb_tl tb))) = Ok spans
    /\ tb_len tb = Z.of_nat (length spans)
    /\ forall j s, nth_error spans j = Some s ->
         ws_first_baseunit (tb_tl tb) (Z.of_nat j) = Ok (s_first s)
         /\ ws_last_baseunit (tb_tl tb) (Z.of_nat j) = Ok (s_last s)
         /\ ws_duration (tb_tl tb) (Z.of_nat j) = Ok (s_last s - s_first s + 1)
         /\ exists x, cycled labels (Z.of_nat j) = Some x /\ tl_get (tb_tl tb) (Z.of_nat j) = Ok x.
Proof.
  intros L a h tb h' d labels H Ha Hl Hne.
  assert (W : tl_wf (tb_tl tb)) by (apply build_inv in H; destruct H as (? & ? & ? & _ & _ & _ & _ & _ & _ & _ & _ & _ & _ & W & _); exact W).
  destruct (C09_tree_pf L a h tb h' H Ha) as (org & Eo & Ht). rewrite Hl in Eo. injection Eo as <-.
  set (f := tl_frame (tb_tl tb)) in *. set (tl := tb_tl tb) in *.
  assert (Hw := wf_frame tl W). fold f in Hw. assert (Hpos : 0 < fr_len f) by (unfold fr_wf in Hw; lia).
  destruct (partition f d (whole_span f)) as [spans|e] eqn:Ep.
  2:{ destruct (Ht 0 ltac:(lia)) as (leaf & s & Hd & _). inversion Hd; subst; [|congruence]. destruct labels; [contradiction|discriminate]. }
  exists spans. split; [reflexivity|].
  assert (Hs : span_wf f (whole_span f)) by (unfold span_wf, whole_span; cbn; lia).
  pose proof (partition_tiles _ _ _ _ Hw Hs Ep) as Htl.
  assert (Hcyc : forall j, exists x, cycled labels (Z.of_nat j) = Some x /\ nth_error (map (@LLab L) labels) (j mod length (map (@LLab L) labels))%nat = Some (LLab x)).
  { intros j. destruct (cycled_ok labels (Z.of_nat j) Hne) as [x Hx]. exists x. split; [exact Hx|].
    unfold cycled in Hx. rewrite map_length. apply map_nth_error. rewrite <- Hx. f_equal. rewrite <- Nat2Z.inj_mod, Nat2Z.id. reflexivity. }
  assert (Hspan : forall j s, nth_error spans j = Some s -> exists x, cycled labels (Z.of_nat j) = Some x /\ forall u, s_first s <= u <= s_last s -> shift_of tl u (s_first s) (s_last s) x).
  { intros j s Hj. destruct (Hcyc j) as (x & Hx & Hx2). exists x. split; [exact Hx|]. intros u Hu.
    pose proof (tiles_In _ _ _ s Htl (nth_error_In _ _ Hj)) as Hin. cbn [whole_span s_first s_last] in Hin.
    destruct (Ht u ltac:(lia)) as (leaf & s' & _ & Hun & Hdo).
    assert (Hd : decides f u (LOrg d (map LLab labels)) (whole_span f) (LLab x) s) by (eapply dec_org; [exact Ep|exact Hj|exact Hu|exact Hx2|constructor]).
    destruct (Hun _ _ Hd) as [<- <-]. exact Hdo. }
  assert (Eidx : tl_index tl = map s_first spans).
  { apply asc_ext; [apply (wf_asc tl W)|apply (tiles_firsts_asc _ _ _ Htl)|]. intros u. rewrite in_map_iff. split.
    - intros Hu. pose proof (wf_range tl W u Hu) as Ru. fold f in Ru.
      destruct (tiles_cover _ _ _ u Htl) as (jz & s & Hj & Hsu); [cbn; lia|]. pose proof (znth_range _ _ _ Hj) as Rj. rewrite nth_error_znth in Hj by lia.
      destruct (Hspan _ _ Hj) as (x & _ & Hsh). specialize (Hsh u Hsu). apply shift_of_num in Hsh; [|exact W].
      destruct Hsh as (i & Hi & B1 & B2 & _). apply In_znth in Hu. destruct Hu as [k Hk]. pose proof (znth_range _ _ _ Hk) as Rk.
      change (zlen (tl_index tl)) with (tl_len tl) in Rk.
      assert (Bk : bnd tl k = u) by (unfold bnd; rewrite Hk; reflexivity). pose proof (bnd_lt tl W k (k + 1) ltac:(lia) ltac:(lia) ltac:(lia)).
      assert (k = i) by (apply (bnd_unique tl W u); [exact Rk|exact Hi|lia|lia]). subst k. exists s. split; [lia|]. eapply nth_error_In. exact Hj.
    - intros (s & <- & Hin). apply In_nth_error in Hin. destruct Hin as [j Hj]. pose proof (tiles_In _ _ _ s Htl (nth_error_In _ _ Hj)) as Hin.
      destruct (Hspan _ _ Hj) as (x & _ & Hsh). specialize (Hsh (s_first s) ltac:(lia)). apply shift_of_num in Hsh; [|exact W].
      destruct Hsh as (i & Hi & B1 & _). rewrite <- B1. eapply znth_In. apply bnd_znth. exact Hi. }
  split. { unfold tb_len, tl_len. fold tl. rewrite Eidx. unfold zlen. rewrite map_length. reflexivity. }
  intros j s Hj. destruct (Hspan j s Hj) as (x & Hx & Hsh). pose proof (tiles_In _ _ _ s Htl (nth_error_In _ _ Hj)) as Hin.
  specialize (Hsh (s_first s) ltac:(lia)). destruct Hsh as (i & Hi & S1 & S2 & _ & S4).
  assert (i = Z.of_nat j).
  { rewrite ws_first_ok in S1 by assumption. injection S1 as S1. pose proof (bnd_znth tl i Hi) as B. rewrite S1 in B.
    apply (asc_znth_inj (tl_index tl) i (Z.of_nat j) (s_first s) (wf_asc tl W) B). rewrite Eidx, nth_error_znth, Nat2Z.id by lia. apply map_nth_error. exact Hj. }
  subst i. split; [exact S1|]. split; [exact S2|]. split; [unfold ws_duration; rewrite S1, S2; reflexivity|]. exists x. split; assumption.
Qed.

(** ** C07 *)
Lemma span_group f s g spans : fr_wf f -> span_wf f s -> check_groupby_freq (fr_str f) g = true -> fits g f (s_first s) ->
  partition f (DMarker (mkMarker g [])) s = Ok spans -> forall x u, In x spans -> s_first x <= u <= s_last x ->
  let G := gframe g (unit_start f (s_first s)) in
  0 <= s_left x /\ unit_start f (s_first x - s_left x) = unit_start G (unit_of G (unit_start f u)).
Proof.
  intros Hw Hs Hc Hal Ep x u Hx Hu G.
  destruct (partition_calendar f s g Hw Hs Hc Hal) as (spans' & a & b & E & Ht & Hst & (rest & HL & Hrest) & _ & Ha & Ea & _).
  rewrite Ep in E. injection E as <-. fold G in Hst, Ea.
  assert (Hsame : forall n, s_first x + Z.of_nat n <= s_last x -> unit_of G (unit_start f (s_first x + Z.of_nat n)) = unit_of G (unit_start f (s_first x))).
  { induction n as [|n IH]; intros Hn; [f_equal; f_equal; lia|]. rewrite <- IH by lia.
    pose proof (tiles_In _ _ _ x Ht Hx) as Hin.
    destruct (Z.eq_dec (unit_of G (unit_start f (s_first x + Z.of_nat n))) (unit_of G (unit_start f (s_first x + Z.of_nat (S n))))) as [Ee|Hne]; [symmetry; exact Ee|exfalso].
    assert (Hss : starts_span spans (s_first x + Z.of_nat (S n))).
    { apply Hst; [lia|]. replace (s_first x + Z.of_nat (S n) - 1) with (s_first x + Z.of_nat n) by lia. exact Hne. }
    destruct Hss as (y & Hy & Ey). pose proof (tiles_In _ _ _ y Ht Hy) as Hiny.
    apply In_znth in Hx, Hy. destruct Hx as [i Hi], Hy as [j Hj].
    assert (i = j) by (apply (tiles_unique _ _ _ i j x y (s_first y) Ht Hi Hj); lia). subst j. rewrite Hi in Hj. injection Hj as <-. lia. }
  assert (Eu : unit_of G (unit_start f u) = unit_of G (unit_start f (s_first x))).
  { specialize (Hsame (Z.to_nat (u - s_first x)) ltac:(lia)). rewrite <- Hsame. f_equal. f_equal. lia. }
  rewrite Eu. destruct spans as [|s1 spans]; [destruct Hx|]. cbn [map] in HL. injection HL as HL1 HL2.
  destruct (tiles_hd _ _ _ Ht) as (s1' & r & E1 & F1). injection E1 as <- <-.
  destruct Hx as [<-|Hx].
  - rewrite HL1. split; [exact Ha|]. rewrite F1, Ea. f_equal. unfold G. symmetry. apply gframe_origin.
  - assert (HL0 : s_left x = 0) by (apply Hrest; rewrite <- HL2; apply in_map; exact Hx). rewrite HL0. split; [lia|]. rewrite Z.sub_0_r.
    pose proof (tiles_In _ _ _ x Ht (or_intror Hx)) as Hin. pose proof (tiles_In _ _ _ s1 Ht (or_introl eq_refl)) as Hin1.
    assert (Hgt : s_first s < s_first x).
    { apply In_znth in Hx. destruct Hx as [i Hi]. pose proof (znth_range _ _ _ Hi).
      pose proof (tiles_disjoint _ _ _ 0 (i + 1) s1 x Ht eq_refl) as Hd. rewrite znth_cons in Hd by lia. replace (i + 1 - 1) with i in Hd by lia. specialize (Hd Hi ltac:(lia)). lia. }
    pose proof (proj1 (Hst (s_first x) ltac:(lia)) (ex_intro _ x (conj (or_intror Hx) eq_refl))) as Hdiff.
    set (K := unit_of G (unit_start f (s_first x))) in *.
    destruct (proj1 (fits_iff _ _ _) Hal K) as [v Hv]. fold G in Hv.
    pose proof (unit_of_spec G (unit_start f (s_first x))) as HK. fold K in HK.
    assert (Hlt : unit_start f (s_first x - 1) < unit_start G K).
    { destruct (Z.lt_ge_cases (unit_start f (s_first x - 1)) (unit_start G K)) as [|Hge]; [assumption|exfalso]. apply Hdiff. apply unit_of_iff.
      pose proof (unit_start_lt f (s_first x - 1) (s_first x)). lia. }
    rewrite Hv in *. apply unit_start_lt_iff in Hlt.
    assert (v <= s_first x). { destruct (Z.lt_ge_cases (s_first x) v) as [Hc2|]; [|lia]. apply (unit_start_lt f) in Hc2. lia. }
    f_equal. lia.
Qed.

Lemma C07_fitting_pf : forall (L : Type) (a : tb_args L) (h : heap L) tb h' g pat,
  build a h = Ok (tb, h') -> a_amendments a = [] -> fits g (tl_frame (tb_tl tb)) 0 ->
  a_layout a = LOrg (DMarker (mkMarker g [])) [LPat (PList pat)] -> pat <> [] ->
  let f := tl_frame (tb_tl tb) in
  tb_len tb = fr_len f
  /\ forall u, 0 <= u < fr_len f ->
       ws_first_baseunit (tb_tl tb) u = Ok u /\ ws_last_baseunit (tb_tl tb) u = Ok u
       /\ exists n p k x, in_group g (fr_start_time f) n (unit_start f u) /\ group_start g (fr_start_time f) n p
            /\ 0 <= k /\ unit_start f (u - k) = p /\ cycled pat k = Some x /\ tl_get (tb_tl tb) u = Ok x.
Proof.
  intros L a h tb h' g pat H Ha Hal Hl Hne f.
  assert (W : tl_wf (tb_tl tb)) by (apply build_inv in H; destruct H as (? & ? & ? & _ & _ & _ & _ & _ & _ & _ & _ & _ & _ & W & _); exact W).
  destruct (C09_tree_pf L a h tb h' H Ha) as (org & Eo & Ht). rewrite Hl in Eo. injection Eo as <-. fold f in Ht.
  assert (Hw := wf_frame _ W). fold f in Hw.
  assert (Hs : span_wf f (whole_span f)) by (unfold span_wf, whole_span, fr_wf in *; cbn; lia).
  assert (E0 : fr_start_time f = unit_start f (s_first (whole_span f))) by reflexivity.
  set (P := fun u x => exists n p k, in_group g (fr_start_time f) n (unit_start f u) /\ group_start g (fr_start_time f) n p
            /\ 0 <= k /\ unit_start f (u - k) = p /\ cycled pat k = Some x).
  destruct (all_units tb P W) as [E1 E2].
  - intros u Hu. fold f in Hu. destruct (Ht u Hu) as (leaf & s & Hd & Hun & Hdo).
    inversion Hd as [ | | | |d items spans s0 s' j it leaf0 s'' Hp Hj Hus Hit Hd']; subst.
    assert (it = LPat (PList pat)) as -> by (rewrite Nat.mod_1_r in Hit; cbn in Hit; congruence).
    inversion Hd'; subst. destruct pat as [|z l]; [contradiction|]. cbn [leaf_does] in Hdo. destruct Hdo as (x & Hx & Hsh).
    exists x. split; [|exact Hsh]. unfold P.
    assert (Hc : check_groupby_freq (fr_str f) g = true).
    { cbn [partition] in Hp. unfold partition_with_marker in Hp. cbn [m_each] in Hp. destruct (check_groupby_freq (fr_str f) g); [reflexivity|discriminate]. }
    destruct (span_group f (whole_span f) g spans Hw Hs Hc Hal Hp s u (nth_error_In _ _ Hj) Hus) as [B1 B2].
    rewrite E0. set (G := gframe g (unit_start f (s_first (whole_span f)))) in *.
    exists (unit_of G (unit_start f u)), (unit_start G (unit_of G (unit_start f u))), (s_left s + (u - s_first s)).
    split; [apply in_group_iff; reflexivity|]. split; [apply group_start_iff; reflexivity|]. split; [lia|].
    split; [rewrite <- B2; f_equal; lia|exact Hx].
  - split; [exact E1|]. intros u Hu. destruct (E2 u ltac:(rewrite E1; exact Hu)) as (x & (n & p & k & P1 & P2 & P3 & P4 & P5) & X2 & X3 & X4).
    split; [exact X3|]. split; [exact X4|]. exists n, p, k, x.
    repeat match goal with |- _ /\ _ => split end; assumption.
Qed.

Lemma C07_aligned_partial_pf : forall (L : Type) (a : tb_args L) (h : heap L) tb h' g pat,
  build a h = Ok (tb, h') -> a_amendments a = [] -> one_part (fr_str (tl_frame (tb_tl tb))) -> one_part g ->
  a_layout a = LOrg (DMarker (mkMarker g [])) [LPat (PList pat)] -> pat <> [] ->
  let f := tl_frame (tb_tl tb) in
  tb_len tb = fr_len f
  /\ forall u, 0 <= u < fr_len f ->
       ws_first_baseunit (tb_tl tb) u = Ok u /\ ws_last_baseunit (tb_tl tb) u = Ok u
       /\ exists n p k x, in_group g (fr_start_time f) n (unit_start f u) /\ group_start g (fr_start_time f) n p
            /\ 0 <= k /\ unit_start f (u - k) = p /\ cycled pat k = Some x /\ tl_get (tb_tl tb) u = Ok x.
Proof.
  intros L a h tb h' g pat H Ha Of Og Hl Hne.
  destruct (check_groupby_freq (fr_str (tl_frame (tb_tl tb))) g) eqn:Hc.
  - exact (C07_fitting_pf L a h tb h' g pat H Ha (accepted_fits _ _ _ (conj Of (conj Og Hc))) Hl Hne).
  - exfalso. assert (W : tl_wf (tb_tl tb)) by (apply build_inv in H; destruct H as (? & ? & ? & _ & _ & _ & _ & _ & _ & _ & _ & _ & _ & W & _); exact W).
    destruct (C09_tree_pf L a h tb h' H Ha) as (org & Eo & Ht). rewrite Hl in Eo. injection Eo as <-.
    destruct (Ht 0) as (leaf & s & Hd & _); [pose proof (wf_frame _ W) as Hw; unfold fr_wf in Hw; lia|].
    inversion Hd as [ | | | |d items spans s0 s' j it leaf0 s'' Hp Hj Hus Hit Hd']; subst.
    cbn [partition] in Hp. unfold partition_with_marker in Hp. cbn [m_each] in Hp. rewrite Hc in Hp. discriminate.
Qed.

(** The calendar period around a time is the same for every beginning. *)
Lemma group_once g t0 t0' n n' t p p' : one_part g -> times g = 1 ->
  in_group g t0 n t -> group_start g t0 n p -> in_group g t0' n' t -> group_start g t0' n' p' -> p = p'.
Proof.
  intros Og E0 H1 H2 H3 H4. assert (E : Zpos (fmult (to_freq g)) = 1).
  { rewrite (one_part_freq g Og). revert E0. unfold times. cbn [fmult]. destruct (fdigits g); intros E0; [exact E0|reflexivity]. }
  unfold in_group, group_start in *. rewrite E in *.
  set (b := fbase (to_freq g)) in *.
  destruct H1 as (a & c & (o1 & I1 & ->) & (o2 & I2 & ->) & R1). destruct H2 as (o3 & I3 & ->).
  destruct H3 as (a & c & (o4 & I4 & ->) & (o5 & I5 & ->) & R2). destruct H4 as (o6 & I6 & ->).
  unfold in_cal_unit in *. f_equal.
  assert (U : forall x y s, pstart b x <= s < pstart b (x + 1) -> pstart b y <= s < pstart b (y + 1) -> x = y).
  { intros x y s Hx Hy. destruct (Z.lt_trichotomy x y) as [C|[C|C]]; [exfalso|exact C|exfalso].
    - pose proof (proj1 (pstart_le_iff b (x + 1) y) ltac:(lia)). lia.
    - pose proof (proj1 (pstart_le_iff b (y + 1) x) ltac:(lia)). lia. }
  pose proof (U _ _ _ I1 I2). pose proof (U _ _ _ I1 I3). pose proof (U _ _ _ I4 I5). pose proof (U _ _ _ I4 I6). subst o2 o3 o5 o6.
  replace (o1 + (n + 1) * 1) with (o1 + n * 1 + 1) in R1 by lia. replace (o4 + (n' + 1) * 1) with (o4 + n' * 1 + 1) in R2 by lia.
  exact (U _ _ _ R1 R2).
Qed.

(** Two timeboards with the same layout and base units agree wherever they overlap. *)
Lemma C07_same_pf : forall (L : Type) (a1 a2 : tb_args L) (h1 h2 : heap L) tb1 tb2 h1' h2' g pat u v,
  build a1 h1 = Ok (tb1, h1') -> build a2 h2 = Ok (tb2, h2') -> a_amendments a1 = [] -> a_amendments a2 = [] ->
  a_layout a1 = LOrg (DMarker (mkMarker g [])) [LPat (PList pat)] -> a_layout a2 = a_layout a1 -> pat <> [] ->
  let f1 := tl_frame (tb_tl tb1) in let f2 := tl_frame (tb_tl tb2) in
  fr_str f1 = fr_str f2 -> one_part (fr_str f1) -> one_part g -> times g = 1 ->
  0 <= u < tb_len tb1 -> 0 <= v < tb_len tb2 -> unit_start f1 u = unit_start f2 v ->
  exists x, tl_get (tb_tl tb1) u = Ok x /\ tl_get (tb_tl tb2) v = Ok x.
Proof.
  intros L a1 a2 h1 h2 tb1 tb2 h1' h2' g pat u v H1 H2 A1 A2 L1 L2 Hne f1 f2 Ef Of Og Eg Hu Hv E.
  rewrite L1 in L2.
  destruct (C07_aligned_partial_pf L a1 h1 tb1 h1' g pat H1 A1 Of Og L1 Hne) as [N1 P1].
  destruct (C07_aligned_partial_pf L a2 h2 tb2 h2' g pat H2 A2 ltac:(fold f2; rewrite <- Ef; exact Of) Og L2 Hne) as [N2 P2].
  fold f1 in N1, P1. fold f2 in N2, P2.
  destruct (P1 u ltac:(lia)) as (_ & _ & n & p & k & x & G1 & S1 & K1 & B1 & X1 & T1).
  destruct (P2 v ltac:(lia)) as (_ & _ & n' & p' & k' & x' & G2 & S2 & K2 & B2 & X2 & T2).
  rewrite E in G1. pose proof (group_once g _ _ _ _ _ _ _ Og Eg G1 S1 G2 S2) as Ep.
  assert (B : unit_start f1 (u - k) = unit_start f2 (v - k')) by congruence. clear B1 B2 Ep S1 S2 G1 G2.
  assert (Ek : k = k').
  { unfold unit_start, unit_ord, fr_base, fr_mult in *. rewrite Ef in *. set (b := fbase (to_freq (fr_str f2))) in *.
    assert (I : forall o o', pstart b o = pstart b o' -> o = o').
    { intros o o' Ho. pose proof (pstart_le_iff b o o'). pose proof (pstart_le_iff b o' o). lia. }
    apply I in B. apply I in E.
    set (m := Z.pos (fmult (to_freq (fr_str f2)))) in *. assert (0 < m) by (unfold m; lia). nia. }
  subst k'. exists x. split; [exact T1|]. congruence.
Qed.

(** Patterns deeper in the layout. *)
Lemma governs_decides {L} f u (ly : layout L) s d s1 leaf : fr_wf f -> governs f u ly s d s1 leaf -> span_wf f s ->
  span_wf f s1 /\ exists spans j s', partition f d s1 = Ok spans /\ nth_error spans j = Some s' /\ s_first s' <= u <= s_last s' /\ decides f u ly s leaf s'.
Proof.
  intros Hw H. induction H as [d items spans s s' j leaf Hp Hj Hu Hit Hl|d items spans s s' j it d' s'' leaf Hp Hj Hu Hit Hg IH]; intros Hs.
  - split; [exact Hs|]. exists spans, j, s'. split; [exact Hp|]. split; [exact Hj|]. split; [exact Hu|]. refine (dec_org f u d items spans s s' j leaf leaf s' Hp Hj Hu Hit _).
    destruct leaf; try contradiction; constructor.
  - assert (Hs' : span_wf f s').
    { pose proof (partition_tiles _ _ _ _ Hw Hs Hp) as Ht. pose proof (tiles_In _ _ _ s' Ht (nth_error_In _ _ Hj)). unfold span_wf in *. lia. }
    destruct (IH Hs') as (W1 & spans1 & j1 & s1 & P1 & P2 & P3 & P4). split; [exact W1|]. exists spans1, j1, s1. split; [exact P1|]. split; [exact P2|]. split; [exact P3|].
    exact (dec_org f u d items spans s s' j it leaf s1 Hp Hj Hu Hit P4).
Qed.
Lemma C07_inner_fitting_pf : forall (L : Type) (a : tb_args L) (h : heap L) tb h' org g s pat u,
  build a h = Ok (tb, h') -> a_amendments a = [] -> top_organizer (a_layout a) = Ok org ->
  let f := tl_frame (tb_tl tb) in
  fits g f (s_first s) -> 0 <= u < fr_len f -> pat <> [] ->
  governs f u org (whole_span f) (DMarker (mkMarker g [])) s (LPat (PList pat)) ->
  let t0 := unit_start f (s_first s) in
  exists n p k x, in_group g t0 n (unit_start f u) /\ group_start g t0 n p
    /\ 0 <= k /\ unit_start f (u - k) = p /\ cycled pat k = Some x /\ shift_of (tb_tl tb) u u u x.
Proof.
  intros L a h tb h' org g s pat u H Ha Eo f Hal Hu Hne Hg t0.
  assert (W : tl_wf (tb_tl tb)) by (apply build_inv in H; destruct H as (? & ? & ? & _ & _ & _ & _ & _ & _ & _ & _ & _ & _ & W & _); exact W).
  destruct (C09_tree_pf L a h tb h' H Ha) as (org' & Eo' & Ht). rewrite Eo in Eo'. injection Eo' as <-. fold f in Ht.
  assert (Hw := wf_frame _ W). fold f in Hw.
  assert (Hs : span_wf f (whole_span f)) by (unfold span_wf, whole_span, fr_wf in *; cbn; lia).
  destruct (governs_decides f u org _ _ _ _ Hw Hg Hs) as (Hs1 & spans & j & s' & Hp & Hj & Hus & Hd).
  destruct (Ht u Hu) as (leaf & sl & _ & Hun & Hdo). destruct (Hun _ _ Hd) as [<- <-].
  destruct pat as [|z l]; [contradiction|]. cbn [leaf_does] in Hdo. destruct Hdo as (x & Hx & Hsh).
  assert (Hc : check_groupby_freq (fr_str f) g = true).
  { cbn [partition] in Hp. unfold partition_with_marker in Hp. cbn [m_each] in Hp. destruct (check_groupby_freq (fr_str f) g); [reflexivity|discriminate]. }
  destruct (span_group f s g spans Hw Hs1 Hc Hal Hp s' u (nth_error_In _ _ Hj) Hus) as [B1 B2].
  unfold t0. set (G := gframe g (unit_start f (s_first s))) in *.
  exists (unit_of G (unit_start f u)), (unit_start G (unit_of G (unit_start f u))), (s_left s' + (u - s_first s')), x.
  split; [apply in_group_iff; reflexivity|]. split; [apply group_start_iff; reflexivity|]. split; [lia|].
  split; [rewrite <- B2; f_equal; lia|]. split; [exact Hx|exact Hsh].
Qed.
Lemma C07_inner_pf : forall (L : Type) (a : tb_args L) (h : heap L) tb h' org g s pat u,
  build a h = Ok (tb, h') -> a_amendments a = [] -> top_organizer (a_layout a) = Ok org ->
  let f := tl_frame (tb_tl tb) in
  one_part (fr_str f) -> one_part g -> 0 <= u < fr_len f -> pat <> [] ->
  governs f u org (whole_span f) (DMarker (mkMarker g [])) s (LPat (PList pat)) ->
  let t0 := unit_start f (s_first s) in
  exists n p k x, in_group g t0 n (unit_start f u) /\ group_start g t0 n p
    /\ 0 <= k /\ unit_start f (u - k) = p /\ cycled pat k = Some x /\ shift_of (tb_tl tb) u u u x.
Proof.
  intros L a h tb h' org g s pat u H Ha Eo f Of Og Hu Hne Hg.
  assert (W : tl_wf (tb_tl tb)) by (apply build_inv in H; destruct H as (? & ? & ? & _ & _ & _ & _ & _ & _ & _ & _ & _ & _ & W & _); exact W).
  assert (Hw := wf_frame _ W). fold f in Hw.
  assert (Hs : span_wf f (whole_span f)) by (unfold span_wf, whole_span, fr_wf in *; cbn; lia).
  destruct (governs_decides f u org _ _ _ _ Hw Hg Hs) as (_ & spans & j & s' & Hp & _).
  assert (Hc : check_groupby_freq (fr_str f) g = true).
  { cbn [partition] in Hp. unfold partition_with_marker in Hp. cbn [m_each] in Hp. destruct (check_groupby_freq (fr_str f) g); [reflexivity|discriminate]. }
  exact (C07_inner_fitting_pf L a h tb h' org g s pat u H Ha Eo (accepted_fits _ _ _ (conj Of (conj Og Hc))) Hu Hne Hg).
Qed.
Lemma C07_inner_same_pf : forall (L : Type) (a1 a2 : tb_args L) (h1 h2 : heap L) tb1 tb2 h1' h2' org1 org2 g s1 s2 pat u v,
  build a1 h1 = Ok (tb1, h1') -> build a2 h2 = Ok (tb2, h2') -> a_amendments a1 = [] -> a_amendments a2 = [] ->
  top_organizer (a_layout a1) = Ok org1 -> top_organizer (a_layout a2) = Ok org2 ->
  let f1 := tl_frame (tb_tl tb1) in let f2 := tl_frame (tb_tl tb2) in
  fr_str f1 = fr_str f2 -> one_part (fr_str f1) -> one_part g -> times g = 1 -> pat <> [] ->
  0 <= u < fr_len f1 -> 0 <= v < fr_len f2 -> unit_start f1 u = unit_start f2 v ->
  governs f1 u org1 (whole_span f1) (DMarker (mkMarker g [])) s1 (LPat (PList pat)) ->
  governs f2 v org2 (whole_span f2) (DMarker (mkMarker g [])) s2 (LPat (PList pat)) ->
  exists x, shift_of (tb_tl tb1) u u u x /\ shift_of (tb_tl tb2) v v v x.
Proof.
  intros L a1 a2 h1 h2 tb1 tb2 h1' h2' org1 org2 g s1 s2 pat u v H1 H2 A1 A2 L1 L2 f1 f2 Ef Of Og Eg Hne Hu Hv E G1 G2.
  destruct (C07_inner_pf L a1 h1 tb1 h1' org1 g s1 pat u H1 A1 L1 Of Og Hu Hne G1) as (n & p & k & x & I1 & S1 & K1 & B1 & X1 & T1).
  destruct (C07_inner_pf L a2 h2 tb2 h2' org2 g s2 pat v H2 A2 L2 ltac:(fold f2; rewrite <- Ef; exact Of) Og Hv Hne G2) as (n' & p' & k' & x' & I2 & S2 & K2 & B2 & X2 & T2).
  fold f1 in I1, S1, B1. fold f2 in I2, S2, B2.
  rewrite E in I1. pose proof (group_once g _ _ _ _ _ _ _ Og Eg I1 S1 I2 S2) as Ep.
  assert (B : unit_start f1 (u - k) = unit_start f2 (v - k')) by congruence. clear B1 B2 Ep S1 S2 I1 I2 G1 G2.
  assert (Ek : k = k').
  { unfold unit_start, unit_ord, fr_base, fr_mult in *. rewrite Ef in *. set (b := fbase (to_freq (fr_str f2))) in *.
    assert (I : forall o o', pstart b o = pstart b o' -> o = o').
    { intros o o' Ho. pose proof (pstart_le_iff b o o'). pose proof (pstart_le_iff b o' o). lia. }
    apply I in B. apply I in E.
    set (m := Z.pos (fmult (to_freq (fr_str f2)))) in *. assert (0 < m) by (unfold m; lia). nia. }
  subst k'. exists x. split; [exact T1|]. replace x with x' by congruence. exact T2.
Qed.
