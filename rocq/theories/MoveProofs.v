(** Proofs of C74. *)
From Verif Require Import Base BaseProofs Civil CivilProofs Freq FreqProofs Frame FrameProofs When Timeline Board Spec SpecMove BoardProofs TimelineProofs SameProofs WhenProofs.
From Coq Require Import ZifyBool ZifyNat QArith.
Open Scope Z_scope.

Section Lists.
Variable T : Z.
Lemma zlen_filter_map (g : Z -> Z) p q l : (forall x, p (g x) = q x) -> zlen (filter p (map g l)) = zlen (filter q l).
Proof. intros E. induction l as [|x l IH]; [reflexivity|]. cbn [map filter]. rewrite E. destruct (q x); rewrite ?zlen_cons, IH; reflexivity. Qed.
Lemma ss_right_later l t : ss_right (map (later T) l) (later T t) = ss_right l t.
Proof. apply zlen_filter_map. intros x. unfold later. lia. Qed.
Lemma ss_left_later l t : ss_left (map (later T) l) (later T t) = ss_left l t.
Proof. apply zlen_filter_map. intros x. unfold later. lia. Qed.
Lemma zinsert_later x l : zinsert (later T x) (map (later T) l) = map (later T) (zinsert x l).
Proof.
  induction l as [|y l IH]; [reflexivity|]. cbn [map zinsert]. rewrite IH. unfold later at 1 2.
  replace (x + T <=? y + T) with (x <=? y) by lia. destruct (x <=? y); reflexivity.
Qed.
Lemma zsort_later l : zsort (map (later T) l) = map (later T) (zsort l).
Proof. induction l as [|x l IH]; [reflexivity|]. cbn [map zsort]. rewrite IH. apply zinsert_later. Qed.
Lemma py_slice_map {A B} (g : A -> B) l a b : py_slice (map g l) a b = map g (py_slice l a b).
Proof. unfold py_slice. rewrite skipn_map, firstn_map. reflexivity. Qed.
Lemma zlen_map {A B} (g : A -> B) l : zlen (map g l) = zlen l.
Proof. unfold zlen. rewrite map_length. reflexivity. Qed.
Lemma last_map {A B} (g : A -> B) l d : last (map g l) (g d) = g (last l d).
Proof. induction l as [|x [|y l] IH]; [reflexivity|reflexivity|]. cbn [map last] in *. exact IH. Qed.
End Lists.

Section Move.
Variable T : Z.

Lemma pord_later b c : (forall o, pstart b (o + c) = later T (pstart b o)) -> forall t, pord b (later T t) = pord b t + c.
Proof.
  intros H t. apply pord_iff. pose proof (pord_spec b t) as P. rewrite H. replace (pord b t + c + 1) with (pord b t + 1 + c) by lia.
  rewrite H. unfold later. lia.
Qed.

Definition movf (c : Z) (f : frame) : frame := mkFrame (fr_str f) (fr_o0 f + c) (fr_len f).
Definition rep (c : Z) (fs : fstr) : Prop := forall o, pstart (fbase (to_freq fs)) (o + c) = later T (pstart (fbase (to_freq fs)) o).

Lemma movf_start c f i : rep c (fr_str f) -> unit_start (movf c f) i = later T (unit_start f i).
Proof.
  intros H. unfold unit_start, unit_ord, fr_base, fr_mult, movf. cbn [fr_str fr_o0]. rewrite <- H. f_equal. lia.
Qed.
Lemma movf_later c f : rep c (fr_str f) -> later_frame T f (movf c f).
Proof. intros H. split; [reflexivity|]. split; [reflexivity|]. intros i. apply movf_start, H. Qed.

Lemma mk_frame_later c fs t0 t1 : rep c fs -> mk_frame fs (later T t0) (later T t1) = rmap (movf c) (mk_frame fs t0 t1).
Proof.
  intros H. unfold mk_frame. rewrite !(pord_later _ c H).
  assert (E : forall m a b, period_count m (a + c) (b + c) = period_count m a b).
  { intros m a b. unfold period_count. replace (b + c <? a + c) with (b <? a) by lia. replace (b + c - (a + c)) with (b - a) by lia. reflexivity. }
  rewrite E. destruct (_ =? 0); reflexivity.
Qed.
Lemma mk_frame_str fs t0 t1 f : mk_frame fs t0 t1 = Ok f -> fr_str f = fs.
Proof. unfold mk_frame. destruct (_ =? 0); [discriminate|]. injection 1 as <-. reflexivity. Qed.

Section Later.
Variables f f' : frame.
Hypothesis H : later_frame T f f'.
Lemma later_unit_end i : unit_end f' i = later T (unit_end f i).
Proof. destruct H as (_ & _ & E). rewrite !FrameProofs.unit_end_next, E. unfold later. lia. Qed.
Lemma later_starts : fr_start_times f' = map (later T) (fr_start_times f).
Proof. destruct H as (_ & El & E). unfold fr_start_times. rewrite El, map_map. apply map_ext. exact E. Qed.
Lemma later_get i : fr_get f' i = fr_get f i.
Proof. destruct H as (_ & El & _). unfold fr_get. rewrite El. reflexivity. Qed.
Lemma later_loc t : fr_get_loc f' (later T t) = fr_get_loc f t.
Proof.
  unfold fr_get_loc, fr_end_time, fr_start_time. rewrite later_starts, ss_right_later, later_unit_end. destruct H as (_ & El & E). rewrite El, E.
  unfold later. replace (_ + T <? t + T) with (unit_end f (fr_len f - 1) <? t) by lia. replace (t + T <? _ + T) with (t <? unit_start f 0) by lia. reflexivity.
Qed.
Lemma later_vec ts a b : get_loc_vectorized f' (map (later T) ts) a b = get_loc_vectorized f ts a b.
Proof.
  unfold get_loc_vectorized. rewrite later_starts. destruct H as (_ & El & E). rewrite El, E. f_equal. rewrite map_map. apply map_ext. intros t.
  f_equal. rewrite <- (ss_right_later T _ t), map_app. cbn [map].
  replace (later T (unit_start f (fr_len f - 1)) + SMALLEST_TIMEDELTA) with (later T (unit_start f (fr_len f - 1) + SMALLEST_TIMEDELTA)) by (unfold later; lia). reflexivity.
Qed.
Lemma later_check s : check_span f' s = check_span f s.
Proof. unfold check_span. rewrite !later_get. reflexivity. Qed.
Lemma later_create s ts : create_subspans f' s (map (later T) ts) = create_subspans f s ts.
Proof. unfold create_subspans, locate_subspans. rewrite later_check, later_vec. reflexivity. Qed.
End Later.

Lemma dangle_later c f t0 t1 a n : rep c (fr_str f) -> dangle_len (movf c f) (later T t0) (later T t1) a n = dangle_len f t0 t1 a n.
Proof.
  intros H. unfold dangle_len, fr_base, fr_mult, movf. cbn [fr_str]. rewrite !(pord_later _ c H).
  assert (E : forall m a b, period_count m (a + c) (b + c) = period_count m a b).
  { intros m a0 b. unfold period_count. replace (b + c <? a0 + c) with (b <? a0) by lia. replace (b + c - (a0 + c)) with (b - a0) by lia. reflexivity. }
  rewrite E. set (N := Z.to_nat (period_count _ _ _)). set (o0 := pord _ t0). set (mu := Z.pos _).
  replace (map (fun i => o0 + c + i * mu) (zrange 0 N)) with (map (fun o => o + c) (map (fun i => o0 + i * mu) (zrange 0 N))).
  2: { rewrite map_map. apply map_ext. intros i. lia. }
  apply zlen_filter_map. intros o. f_equal.
  replace (map (unit_ord (mkFrame (fr_str f) (fr_o0 f + c) (fr_len f))) (zrange a (Z.to_nat n))) with (map (fun o => o + c) (map (unit_ord f) (zrange a (Z.to_nat n)))).
  2: { rewrite map_map. apply map_ext. intros i. unfold unit_ord, fr_mult. cbn [fr_o0 fr_str]. lia. }
  induction (map (unit_ord f) (zrange a (Z.to_nat n))) as [|x l IH]; [reflexivity|]. cbn [map existsb]. rewrite IH. f_equal. lia.
Qed.

Lemma finish_later c f s pts lu lb ru rb : rep c (fr_str f) ->
  finish_partition (movf c f) s (map (later T) pts) lu (later T lb) ru (later T rb) = finish_partition f s pts lu lb ru rb.
Proof.
  intros H. pose proof (movf_later c f H) as F. unfold finish_partition. rewrite (later_create f _ F).
  assert (E1 : skipped_before (movf c f) s lu (later T lb) = skipped_before f s lu lb).
  { unfold skipped_before. rewrite (movf_start c f _ H), (dangle_later c f _ _ _ _ H). cbn [movf fr_len]. unfold later. replace (lb + T <? unit_start f (s_first s) + T) with (lb <? unit_start f (s_first s)) by lia. reflexivity. }
  assert (E2 : skipped_after (movf c f) s ru (later T rb) = skipped_after f s ru rb).
  { unfold skipped_after. rewrite (movf_start c f _ H), (dangle_later c f _ _ _ _ H), (later_unit_end f _ F). unfold later. replace (unit_end f (s_last s) + T <? rb + T) with (unit_end f (s_last s) <? rb) by lia. reflexivity. }
  rewrite E1, E2. reflexivity.
Qed.

Lemma mapM_later (hows : list (frame -> fstr -> res (list Z))) g g' norm : repeats T norm -> later_frame T g g' -> (forall how, In how hows -> steady_how T how) ->
  mapM (fun how => how g' norm) hows = rmap (map (map (later T))) (mapM (fun how => how g norm) hows).
Proof.
  intros Hn Hg. induction hows as [|how hows IH]; intros Hs; [reflexivity|]. cbn [mapM]. rewrite (Hs how (or_introl eq_refl) g g' norm Hn Hg).
  rewrite IH by (intros x Hx; apply Hs; right; exact Hx). destruct (how g norm); [|reflexivity]. cbn [rmap bind]. destruct (mapM (fun how => how g norm) hows); reflexivity.
Qed.

Lemma partition_later c f d s : rep c (fr_str f) -> match d with DMarker m => steady_marker T m | DMarks _ => True end ->
  partition (movf c f) (later_divider T d) s = partition f d s.
Proof.
  intros H Hd. pose proof (movf_later c f H) as F. destruct d as [m|ms]; cbn [partition later_divider].
  2: { unfold partition_at_marks. apply (later_create f _ F). }
  destruct Hd as [[c' Hm] Hh]. unfold partition_with_marker. cbn [movf fr_str]. fold (movf c f). destruct (negb _); [reflexivity|].
  rewrite (later_check f _ F). destruct (check_span f s); [|reflexivity]. cbn [bind].
  rewrite (movf_start c f _ H), (later_unit_end f _ F). destruct (m_at m) as [|h hows] eqn:Ea.
  - rewrite (mk_frame_later c' _ _ _ Hm). destruct (mk_frame (m_each m) _ _) as [g|e] eqn:Eg; [|reflexivity]. cbn [rmap bind].
    assert (Hg : rep c' (fr_str g)) by (rewrite (mk_frame_str _ _ _ _ Eg); exact Hm). pose proof (movf_later c' g Hg) as G.
    rewrite (later_starts g _ G). unfold fr_start_time, fr_end_time. rewrite (movf_start c' g _ Hg), (later_unit_end g _ G).
    exact (finish_later c f s _ _ _ _ _ H).
  - rewrite <- Ea in *. clear Ea h hows. set (dl := get_freq_delta _). set (t0 := unit_start f (s_first s)). set (t1 := unit_end f (s_last s)).
    replace (later T t0 - dl) with (later T (t0 - dl)) by (unfold later; lia). replace (later T t1 + dl) with (later T (t1 + dl)) by (unfold later; lia).
    rewrite (mk_frame_later c' _ _ _ Hm). destruct (mk_frame (m_each m) _ _) as [g|e] eqn:Eg; [|reflexivity]. cbn [rmap bind].
    assert (Hg : rep c' (fr_str g)) by (rewrite (mk_frame_str _ _ _ _ Eg); exact Hm). pose proof (movf_later c' g Hg) as G.
    rewrite (mapM_later (m_at m) g _ (fr_str f) (ex_intro _ c H) G Hh). destruct (mapM _ (m_at m)) as [pts|e]; [|reflexivity]. cbn [rmap bind].
    rewrite <- concat_map, zsort_later, ss_right_later, ss_left_later, zlen_map, py_slice_map.
    destruct (py_slice (zsort (concat pts)) _ _) as [|p ps]; [reflexivity|]. cbn [map].
    change (later T p :: map (later T) ps) with (map (later T) (p :: ps)). rewrite last_map. set (la := last (p :: ps) p).
    replace (Z.min (later T p) (later T t0)) with (later T (Z.min p t0)) by (unfold later; lia).
    replace (Z.max (later T t1) (later T la - SMALLEST_TIMEDELTA)) with (later T (Z.max t1 (la - SMALLEST_TIMEDELTA))) by (unfold later; lia).
    rewrite (finish_later c f s _ _ _ _ _ H). f_equal; unfold later; lia.
Qed.

Lemma run_cycle_ext {S} (all all' : list (span -> S -> res S)) : Forall2 (fun a b => forall s st, a s st = b s st) all all' ->
  forall spans cur cur' st, Forall2 (fun a b => forall s st, a s st = b s st) cur cur' -> run_cycle all cur spans st = run_cycle all' cur' spans st.
Proof.
  intros Ha. induction spans as [|s spans IH]; intros cur cur' st Hc; [reflexivity|]. cbn [run_cycle].
  destruct Hc as [|a b cur cur' Hab Hc].
  - destruct Ha as [|a b all all' Hab Ha']; [reflexivity|]. rewrite Hab. destruct (b s st); [|reflexivity]. cbn [bind]. apply IH, Ha'.
  - rewrite Hab. destruct (b s st); [|reflexivity]. cbn [bind]. apply IH, Hc.
Qed.

Lemma organize_later {L} c f (ly : layout L) : rep c (fr_str f) -> steady T ly -> forall s st, organize (movf c f) (later_layout T ly) s st = organize f ly s st.
Proof.
  intros H. induction ly as [d items IH|d k|p|x] using layout_ind2; intros Hs s st; cbn [later_layout organize]; [| |reflexivity|reflexivity].
  - assert (Hp : match d with DMarker m => steady_marker T m | DMarks _ => True end) by (inversion Hs; subst; [assumption|exact I]).
    assert (Hi : forall it, In it items -> steady T it) by (inversion Hs; subst; assumption).
    rewrite (partition_later c f d s H Hp). destruct (partition f d s) as [spans|e]; [|reflexivity]. cbn [bind].
    assert (C : Forall2 (fun a b => forall s st, a s st = b s st) (map (organize (movf c f)) (map (later_layout T) items)) (map (organize f) items)).
    { clear - IH Hi. induction IH as [|it items Hit _ IHi]; cbn [map]; constructor; [apply Hit, Hi; left; reflexivity|apply IHi; intros x Hx; apply Hi; right; exact Hx]. }
    apply run_cycle_ext; exact C.
  - assert (Hp : match d with DMarker m => steady_marker T m | DMarks _ => True end) by (inversion Hs; subst; [assumption|exact I]).
    rewrite (partition_later c f d s H Hp). reflexivity.
Qed.

Definition movtl {L} (c : Z) (tl : timeline L) : timeline L := mkTl (movf c (tl_frame tl)) (tl_index tl) (tl_labels tl) (tl_band tl) (tl_ref_end tl).
Definition movtb {L} (c : Z) (tb : timeboard L) : timeboard L := mkTb (movtl c (tb_tl tb)) (tb_default tb) (tb_schedules tb) (tb_wt tb) (tb_num tb).

Lemma position_later {L} c (tl : timeline L) t : rep c (fr_str (tl_frame tl)) -> get_ws_position (movtl c tl) (later T t) = get_ws_position tl t.
Proof. intros H. unfold get_ws_position. cbn [movtl tl_frame tl_band tl_index]. rewrite (later_loc _ _ (movf_later _ _ H)). reflexivity. Qed.

Lemma amend_later {L} c (tl : timeline L) raise am : rep c (fr_str (tl_frame tl)) ->
  amend (movtl c tl) raise (map (fun q => (later T (fst q), snd q)) am) = rmap (movtl c) (amend tl raise am).
Proof.
  intros H. unfold amend.
  assert (E : forall acc, locate_amendments (movtl c tl) raise (map (fun q => (later T (fst q), snd q)) am) acc = locate_amendments tl raise am acc).
  { induction am as [|[t x] am IH]; intros acc; [reflexivity|]. cbn [map locate_amendments fst snd]. rewrite (position_later c tl t H).
    destruct (get_ws_position tl t) as [p|e]; [|destruct e; try reflexivity; rewrite IH; reflexivity]. rewrite IH. reflexivity. }
  rewrite E. destruct (locate_amendments tl raise am []); reflexivity.
Qed.

Lemma build_later {L} c (a : tb_args L) h : rep c (a_freq a) -> steady T (a_layout a) ->
  build (later_args T a) h = rmap (fun r => (movtb c (fst r), snd r)) (build a h).
Proof.
  intros H Hs. unfold build. cbn [later_args a_layout a_wt a_freq a_start a_end a_ref_end a_default a_amendments a_name a_sel a_num].
  assert (Et : top_organizer (later_layout T (a_layout a)) = rmap (later_layout T) (top_organizer (a_layout a))).
  { destruct (a_layout a) as [d items|d k|[l|k]|x]; reflexivity. }
  rewrite Et. destruct (top_organizer (a_layout a)) as [org|e] eqn:Eo; [|reflexivity]. cbn [rmap bind].
  assert (Ho : steady T org).
  { destruct (a_layout a) as [d items|d k|[l|k]|x]; cbn in Eo; try discriminate; injection Eo as <-; [exact Hs|exact Hs|].
    constructor. intros it [<-|[]]. constructor. }
  rewrite (mk_frame_later c _ _ _ H). destruct (mk_frame (a_freq a) _ _) as [f|e] eqn:Ef; cbn [rmap bind]; [|destruct (a_wt a); reflexivity].
  assert (Hf : rep c (fr_str f)) by (rewrite (mk_frame_str _ _ _ _ Ef); exact H).
  unfold mk_timeline. cbn [movf fr_len]. fold (movf c f). rewrite (organize_later c f org Hf Ho).
  destruct (organize f org _ _) as [st|e]; cbn [bind fst snd]; [|destruct (a_wt a); reflexivity].
  set (tl := mkTl f _ _ _ _). change (mkTl (movf c f) (nonzero (st_mask st)) (take_at (st_labels st) (nonzero (st_mask st))) (masked_counter 0 0 (st_mask st)) (a_ref_end a)) with (movtl c tl).
  rewrite (amend_later c tl false _ Hf). destruct (amend tl false _) as [tl'|e]; cbn [rmap bind fst snd]; destruct (a_wt a); reflexivity.
Qed.

Section Board.
Context {L : Type}.
Variables (c : Z) (tb : timeboard L).
Hypothesis H : rep c (fr_str (tl_frame (tb_tl tb))).
Let F : later_frame T (tl_frame (tb_tl tb)) (movf c (tl_frame (tb_tl tb))) := movf_later c _ H.

Lemma start_later n : ws_start_time (movtl c (tb_tl tb)) n = rmap (later T) (ws_start_time (tb_tl tb) n).
Proof.
  unfold ws_start_time. change (ws_first_baseunit (movtl c (tb_tl tb)) n) with (ws_first_baseunit (tb_tl tb) n). cbn [movtl tl_frame].
  destruct (ws_first_baseunit (tb_tl tb) n); [|reflexivity]. cbn [bind]. rewrite (later_get _ _ F). destruct (fr_get _ _); [|reflexivity]. cbn [bind rmap].
  rewrite (movf_start c _ _ H). reflexivity.
Qed.
Lemma end_later n : ws_end_time (movtl c (tb_tl tb)) n = rmap (later T) (ws_end_time (tb_tl tb) n).
Proof.
  unfold ws_end_time. change (ws_last_baseunit (movtl c (tb_tl tb)) n) with (ws_last_baseunit (tb_tl tb) n). cbn [movtl tl_frame].
  destruct (ws_last_baseunit (tb_tl tb) n); [|reflexivity]. cbn [bind]. rewrite (later_get _ _ F). destruct (fr_get _ _); [|reflexivity]. cbn [bind rmap].
  rewrite (later_unit_end _ _ F). reflexivity.
Qed.
Lemma ref_later n : ws_ref_time (movtl c (tb_tl tb)) n = rmap (later T) (ws_ref_time (tb_tl tb) n).
Proof. unfold ws_ref_time. cbn [movtl tl_ref_end]. destruct (tl_ref_end (tb_tl tb)); [apply end_later|apply start_later]. Qed.
Lemma after_loop_later fuel : forall t p, ref_after_loop fuel (movtl c (tb_tl tb)) (later T t) p = ref_after_loop fuel (tb_tl tb) t p.
Proof.
  induction fuel as [|fuel IH]; intros t p; [reflexivity|]. cbn [ref_after_loop]. rewrite ref_later.
  destruct (ws_ref_time (tb_tl tb) p) as [r|e]; [|destruct e; reflexivity]. cbn [rmap]. rewrite IH. unfold later. replace (t + T <=? r + T) with (t <=? r) by lia. reflexivity.
Qed.
Lemma before_loop_later fuel : forall t p, ref_before_loop fuel (movtl c (tb_tl tb)) (later T t) p = ref_before_loop fuel (tb_tl tb) t p.
Proof.
  induction fuel as [|fuel IH]; intros t p; [reflexivity|]. cbn [ref_before_loop]. rewrite ref_later.
  destruct (ws_ref_time (tb_tl tb) p) as [r|e]; [|destruct e; reflexivity]. cbn [rmap]. rewrite IH. unfold later. replace (r + T <=? t + T) with (r <=? t) by lia. reflexivity.
Qed.
Lemma tb_start_later : tb_start_time (movtb c tb) = later T (tb_start_time tb).
Proof. unfold tb_start_time, fr_start_time. cbn [movtb tb_tl movtl tl_frame]. apply (movf_start c _ _ H). Qed.
Lemma tb_end_later : tb_end_time (movtb c tb) = later T (tb_end_time tb).
Proof. unfold tb_end_time, fr_end_time. cbn [movtb tb_tl movtl tl_frame]. rewrite (later_unit_end _ _ F). reflexivity. Qed.
Lemma locate_later t how : locate (movtb c tb) (later T t) how = locate tb t how.
Proof.
  unfold locate. rewrite tb_start_later, tb_end_later. cbn [movtb tb_tl].
  assert (E : match how with ByNone => get_ws_position (movtl c (tb_tl tb)) (later T t) | ByBefore => pos_by_ref_before (movtl c (tb_tl tb)) (later T t)
      | ByAfter => pos_by_ref_after (movtl c (tb_tl tb)) (later T t) end
    = match how with ByNone => get_ws_position (tb_tl tb) t | ByBefore => pos_by_ref_before (tb_tl tb) t | ByAfter => pos_by_ref_after (tb_tl tb) t end).
  { destruct how; unfold pos_by_ref_before, pos_by_ref_after; rewrite (position_later c _ _ H); [reflexivity| |].
    - destruct (get_ws_position (tb_tl tb) t); [|reflexivity]. cbn [bind]. apply before_loop_later.
    - destruct (get_ws_position (tb_tl tb) t); [|reflexivity]. cbn [bind]. apply after_loop_later. }
  rewrite E. unfold later. replace (t + T <? tb_start_time tb + T) with (t <? tb_start_time tb) by lia. replace (tb_end_time tb + T <? t + T) with (tb_end_time tb <? t) by lia.
  reflexivity.
Qed.
Lemma get_workshift_later t s : get_workshift (movtb c tb) (later T t) s = get_workshift tb t s.
Proof. unfold get_workshift. rewrite locate_later. reflexivity. Qed.

Lemma by_period_later p p' clip dh dt : p_start p' = later T (p_start p) -> p_end p' = later T (p_end p) ->
  locs_by_period (movtb c tb) p' clip dh dt = locs_by_period tb p clip dh dt.
Proof. intros E1 E2. unfold locs_by_period. rewrite E1, E2, !locate_later. reflexivity. Qed.
Lemma period_at_later fs t : repeats T fs -> p_start (mkPeriod (to_freq fs) (pord (fbase (to_freq fs)) (later T t))) = later T (p_start (mkPeriod (to_freq fs) (pord (fbase (to_freq fs)) t)))
  /\ p_end (mkPeriod (to_freq fs) (pord (fbase (to_freq fs)) (later T t))) = later T (p_end (mkPeriod (to_freq fs) (pord (fbase (to_freq fs)) t))).
Proof.
  intros [k Hk]. unfold p_start, p_end. cbn [p_freq p_ord]. rewrite (pord_later _ k Hk). split; [apply Hk|].
  set (o := pord _ t). set (mu := Z.pos _). replace (o + k + mu) with (o + mu + k) by lia. rewrite Hk. unfold later. lia.
Qed.
Lemma get_interval_later r r' len per clip cl s : later_ref T r r' -> (forall fs, per = Some fs -> repeats T fs) ->
  get_interval (movtb c tb) r' len per clip cl s = get_interval tb r len per clip cl s.
Proof.
  intros Hr Hper. unfold get_interval. destruct (drop_flags cl) as [[dh dt]|e]; [|reflexivity]. cbn [bind].
  assert (E : forall x x' : res (location * location), x' = x -> (do locs <- x'; interval_from_locs (movtb c tb) (fst locs) (snd locs) (opt_or s (tb_default (movtb c tb))))
      = (do locs <- x; interval_from_locs tb (fst locs) (snd locs) (opt_or s (tb_default tb)))) by (intros x x' ->; reflexivity).
  apply E. clear E. destruct len as [n|], per as [fs|]; [reflexivity| | |].
  - unfold locs_by_length. destruct (n =? 0); [reflexivity|]. destruct Hr; cbn [ref_timestamp bind]; [reflexivity|reflexivity| |].
    + rewrite locate_later. reflexivity.
    + rewrite H0, locate_later. reflexivity.
  - specialize (Hper fs eq_refl). destruct Hr as [|a b|t|p p' E1 E2]; cbn [get_period bind]; [reflexivity|reflexivity| |].
    + apply by_period_later; apply period_at_later, Hper.
    + apply by_period_later; assumption.
  - destruct Hr as [|a b|t|p p' E1 E2]; cbn [locs_from_reference get_period]; [reflexivity| |reflexivity|].
    + destruct a as [a|], b as [b|]; cbn [option_map bind]; rewrite ?locate_later; reflexivity.
    + apply by_period_later; assumption.
Qed.

Lemma period_entry_later d s p p' : p_start p' = later T (p_start p) -> p_end p' = later T (p_end p) ->
  period_entry (movtb c tb) d s p' = period_entry tb d s p.
Proof. intros E1 E2. unfold period_entry. rewrite (get_interval_later (RPeriod p) (RPeriod p') None None false C11 (Some s)); [reflexivity|constructor; assumption|discriminate]. Qed.

Lemma count_periods_later iv fs d s : repeats T fs -> count_periods (movtb c tb) iv fs d s = count_periods tb iv fs d s.
Proof.
  intros [k Hk]. unfold count_periods, count_periods_by. destruct (iv_void iv); [reflexivity|]. destruct (negb _); [reflexivity|].
  unfold iv_start_time, iv_end_time. cbn [movtb tb_tl]. fold (movtb c tb). rewrite start_later, end_later.
  destruct (ws_start_time (tb_tl tb) (iv_a iv)) as [t0|]; cbn [rmap bind]; [|reflexivity]. destruct (ws_end_time (tb_tl tb) (iv_b iv)) as [t1|]; cbn [rmap bind]; [|reflexivity].
  rewrite (mk_frame_later k _ _ _ Hk). destruct (mk_frame fs t0 t1) as [g|e] eqn:Eg; cbn [rmap bind]; [|reflexivity].
  assert (Es : fr_str g = fs) by exact (mk_frame_str _ _ _ _ Eg).
  assert (Hg : rep k (fr_str g)) by (rewrite Es; exact Hk). pose proof (movf_later k g Hg) as G.
  change (iv_first (movtb c tb) iv d) with (iv_first tb iv d). change (iv_last (movtb c tb) iv d) with (iv_last tb iv d).
  set (sc := opt_or s (iv_sched iv)). destruct (iv_first tb iv d (Some sc)) as [w0|]; cbn [rmap bind]; [|reflexivity]. destruct (iv_last tb iv d (Some sc)) as [w1|]; cbn [rmap bind]; [|reflexivity].
  rewrite !ref_later. destruct (ws_ref_time (tb_tl tb) (ws_loc w0)) as [r0|]; cbn [rmap bind]; [|reflexivity]. destruct (ws_ref_time (tb_tl tb) (ws_loc w1)) as [r1|]; cbn [rmap bind]; [|reflexivity].
  assert (Em : mapM (fun i => period_entry (movtb c tb) d sc (mkPeriod (to_freq fs) (unit_ord (movf k g) i))) (zrange 0 (Z.to_nat (fr_len (movf k g))))
    = mapM (fun i => period_entry tb d sc (mkPeriod (to_freq fs) (unit_ord g i))) (zrange 0 (Z.to_nat (fr_len g)))).
  { cbn [movf fr_len]. fold (movf k g). induction (zrange 0 (Z.to_nat (fr_len g))) as [|i l IH]; [reflexivity|]. cbn [mapM]. rewrite IH.
    rewrite (period_entry_later d sc (mkPeriod (to_freq fs) (unit_ord g i)) (mkPeriod (to_freq fs) (unit_ord (movf k g) i))); [reflexivity| |].
    - unfold p_start, unit_ord, movf, fr_mult. cbn [p_freq p_ord fr_o0 fr_str]. rewrite <- Hk. f_equal. lia.
    - unfold p_end, unit_ord, movf, fr_mult. cbn [p_freq p_ord fr_o0 fr_str].
      set (mu := Z.pos (fmult (to_freq fs))). replace (fr_o0 g + k + i * Z.pos (fmult (to_freq (fr_str g))) + mu) with (fr_o0 g + i * Z.pos (fmult (to_freq (fr_str g))) + mu + k) by lia.
      rewrite Hk. unfold later. lia. }
  rewrite Em. clear Em. destruct (mapM _ _) as [entries|]; cbn [rmap bind]; [|reflexivity]. rewrite !(later_loc g _ G).
  destruct (fr_get_loc g r0) as [k0|]; cbn [rmap bind]; [|reflexivity]. destruct (fr_get_loc g r1) as [k1|]; cbn [rmap bind]; [|reflexivity].
  destruct (unwrap_entry (znth entries k0)) as [e0|]; cbn [rmap bind]; [|reflexivity]. destruct (unwrap_entry (znth entries k1)) as [e1|]; cbn [rmap bind]; [|reflexivity].
  rewrite (later_unit_end g _ G). replace (later T r1 <=? later T (unit_end g k0)) with (r1 <=? unit_end g k0) by (unfold later; lia).
  destruct (r1 <=? unit_end g k0); [reflexivity|]. rewrite end_later, start_later.
  destruct (ws_end_time (tb_tl tb) (iv_b (fst e0))) as [te|]; cbn [rmap bind]; [|reflexivity].
  rewrite (get_interval_later (RPair (Some r0) (Some te)) (RPair (Some (later T r0)) (Some (later T te))) None None false C11 (Some sc) (later_pair T (Some r0) (Some te))) by discriminate.
  destruct (get_interval tb _ None None false C11 (Some sc)) as [i0|]; cbn [rmap bind]; [|reflexivity]. destruct (iv_count i0 d (Some sc)) as [c0|]; cbn [rmap bind]; [|reflexivity].
  destruct (q_div c0 (snd e0)) as [q0|]; cbn [rmap bind]; [|reflexivity]. destruct (ws_start_time (tb_tl tb) (iv_a (fst e1))) as [ts|]; cbn [rmap bind]; [|reflexivity].
  rewrite (get_interval_later (RPair (Some ts) (Some r1)) (RPair (Some (later T ts)) (Some (later T r1))) None None false C11 (Some sc) (later_pair T (Some ts) (Some r1))) by discriminate.
  reflexivity.
Qed.

Lemma rows_later re bounds : forall loc (labels : list L), df_rows (movf c (tl_frame (tb_tl tb))) re loc bounds labels = map (later_row T) (df_rows (tl_frame (tb_tl tb)) re loc bounds labels).
Proof.
  induction bounds as [|b0 [|b1 bounds] IH]; intros loc labels; [reflexivity|reflexivity|]. destruct labels as [|x labels]; [reflexivity|].
  change (df_rows ?f re loc (b0 :: b1 :: bounds) (x :: labels)) with
    (mkRow loc (if re then unit_end f (b1 - 1) else unit_start f b0) (unit_start f b0) (b1 - b0) (unit_end f (b1 - 1)) x :: df_rows f re (loc + 1) (b1 :: bounds) labels).
  rewrite IH. cbn [map]. f_equal. unfold later_row. cbn [row_loc row_ref row_start row_duration row_end row_label].
  rewrite (movf_start c _ _ H), (later_unit_end _ _ F). destruct re; reflexivity.
Qed.
Lemma dataframe_later a b : tb_dataframe (movtb c tb) a b = rmap (map (fun q => (later_row T (fst q), snd q))) (tb_dataframe tb a b).
Proof.
  unfold tb_dataframe, tl_dataframe. cbn [movtb tb_tl]. change (tl_len (movtl c (tb_tl tb))) with (tl_len (tb_tl tb)).
  destruct (negb _); [reflexivity|]. cbn [bind rmap movtl tl_frame tl_ref_end tl_index tl_labels tb_schedules]. rewrite rows_later. cbn [movf fr_len]. f_equal. rewrite !map_map. reflexivity.
Qed.

Lemma moved_same : same_later T tb (movtb c tb).
Proof.
  constructor.
  - exact tb_start_later.
  - exact tb_end_later.
  - reflexivity.
  - reflexivity.
  - reflexivity.
  - reflexivity.
  - exact start_later.
  - exact end_later.
  - exact ref_later.
  - reflexivity.
  - reflexivity.
  - reflexivity.
  - reflexivity.
  - exact get_workshift_later.
  - exact get_interval_later.
  - reflexivity.
  - reflexivity.
  - reflexivity.
  - reflexivity.
  - exact count_periods_later.
  - exact dataframe_later.
Qed.
End Board.
End Move.

Lemma C74_moved_pf : forall (L : Type) (T : Z) (a : tb_args L) (h : heap L), repeats T (a_freq a) -> steady T (a_layout a) ->
  match build a h with
  | Ok (tb, h1) => exists tb', build (later_args T a) h = Ok (tb', h1) /\ same_later T tb tb'
  | Err e => build (later_args T a) h = Err e
  end.
Proof.
  intros L T a h [c H] Hs. pose proof (build_later T c a h H Hs) as E. destruct (build a h) as [[tb h1]|e] eqn:B; [|exact E].
  cbn [rmap fst snd] in E. exists (movtb c tb). split; [exact E|]. apply moved_same.
  destruct (build_inv _ _ _ _ B) as (org & f & tl0 & _ & Ef & _ & _ & _ & _ & _ & _ & _ & _ & _ & Eq & _).
  rewrite Eq, (mk_frame_str _ _ _ _ Ef). exact H.
Qed.

(** ** Calendar periods *)
Lemma month_periods_mult m q c T : 0 < q -> (forall o, month_start (q * (o + c) + m) * NS_DAY = later T (month_start (q * o + m) * NS_DAY)) ->
  T * 4800 = 146097 * NS_DAY * (q * c) /\ T = (month_start (q * c + m) - month_start m) * NS_DAY.
Proof.
  intros Hq H.
  assert (Hn : forall n : nat, month_start (q * (Z.of_nat n * c) + m) * NS_DAY = month_start m * NS_DAY + Z.of_nat n * T).
  { induction n as [|n IH]; [replace (q * (Z.of_nat 0 * c) + m) with m by lia; lia|].
    replace (q * (Z.of_nat (S n) * c) + m) with (q * (Z.of_nat n * c + c) + m) by lia. rewrite H, IH. unfold later. lia. }
  split.
  - specialize (Hn 4800%nat). replace (q * (Z.of_nat 4800 * c) + m) with (m + 4800 * (q * c)) in Hn by lia. rewrite month_start_periods in Hn. lia.
  - specialize (Hn 1%nat). replace (q * (Z.of_nat 1 * c) + m) with (q * c + m) in Hn by lia. lia.
Qed.

Lemma cycle_repeats b n : exists c, forall o, pstart b (o + c) = later (n * cycle_of b) (pstart b o).
Proof.
  unfold later. destruct b; cbn [pstart cycle_of]; unfold era.
  - exists n. intros o. lia.
  - exists n. intros o. lia.
  - exists n. intros o. lia.
  - exists n. intros o. lia.
  - exists n. intros o. lia.
  - exists (4800 * n). intros o. rewrite month_start_periods. lia.
  - exists (1600 * n). intros o. replace (3 * (o + 1600 * n) + (m - 12)) with (3 * o + (m - 12) + 4800 * n) by lia. rewrite month_start_periods. lia.
  - exists (400 * n). intros o. replace (12 * (o + 400 * n) + (m - 12)) with (12 * o + (m - 12) + 4800 * n) by lia. rewrite month_start_periods. lia.
  - exists n. intros o. lia.
  - exists n. intros o. lia.
  - exists n. intros o. lia.
Qed.

Lemma repeats_cycle b c T : (forall o, pstart b (o + c) = later T (pstart b o)) -> exists n, T = n * cycle_of b.
Proof.
  intros H. destruct b; cbn [cycle_of]; try (exists c; specialize (H 0); cbn [pstart] in H; unfold later in H; lia).
  - (* months *)
    destruct (month_periods_mult 0 1 c T ltac:(lia)) as [E1 E2].
    { intros o. specialize (H o). cbn [pstart] in H. replace (1 * (o + c) + 0) with (o + c) by lia. replace (1 * o + 0) with o by lia. exact H. }
    set (D := month_start (1 * c + 0) - month_start 0) in *.
    assert (E3 : D * 1600 = 48699 * c) by (subst T; unfold NS_DAY in *; lia).
    assert (Ec : c = 1600 * (499 * D - 15188 * c)) by lia. set (k := 499 * D - 15188 * c) in *. clearbody k. subst c.
    assert (Hl : forall o, month_start (o + 1 + 1600 * k) - month_start (o + 1600 * k) = month_start (o + 1) - month_start o).
    { intros o. pose proof (H o) as A. pose proof (H (o + 1)) as B. cbn [pstart] in A, B. unfold later, NS_DAY in A, B. lia. }
    assert (R : k mod 3 = 0 \/ k mod 3 = 1 \/ k mod 3 = 2) by lia. pose proof (Z.div_mod k 3 ltac:(lia)) as Ek. set (j := k / 3) in *. clearbody j.
    destruct R as [R|[R|R]]; rewrite R in Ek.
    + exists j. unfold era. subst k T. assert (D = 146097 * j) by lia. lia.
    + exfalso. specialize (Hl 1). subst k. replace (1 + 1 + 1600 * (3 * j + 1)) with (1602 + 4800 * j) in Hl by lia. replace (1 + 1600 * (3 * j + 1)) with (1601 + 4800 * j) in Hl by lia.
      rewrite !month_start_periods in Hl. assert (C : month_start 1602 - month_start 1601 = month_start (1 + 1) - month_start 1) by lia. vm_compute in C. discriminate.
    + exfalso. specialize (Hl 1). subst k. replace (1 + 1 + 1600 * (3 * j + 2)) with (3202 + 4800 * j) in Hl by lia. replace (1 + 1600 * (3 * j + 2)) with (3201 + 4800 * j) in Hl by lia.
      rewrite !month_start_periods in Hl. assert (C : month_start 3202 - month_start 3201 = month_start (1 + 1) - month_start 1) by lia. vm_compute in C. discriminate.
  - destruct (month_periods_mult (m - 12) 3 c T ltac:(lia)) as [E1 E2]; [intros o; exact (H o)|].
    set (D := month_start (3 * c + (m - 12)) - month_start (m - 12)) in *. clearbody D.
    assert (E3 : D * 1600 = 146097 * c) by (subst T; unfold NS_DAY in *; lia).
    exists (1233 * D - 112586 * c). unfold era. subst T. assert (c = 1600 * (1233 * D - 112586 * c)) by lia. assert (D = 146097 * (1233 * D - 112586 * c)) by lia. lia.
  - destruct (month_periods_mult (m - 12) 12 c T ltac:(lia)) as [E1 E2]; [intros o; exact (H o)|].
    set (D := month_start (12 * c + (m - 12)) - month_start (m - 12)) in *. clearbody D.
    assert (E3 : D * 400 = 146097 * c) by (subst T; unfold NS_DAY in *; lia).
    exists (33 * D - 12053 * c). unfold era. subst T. assert (c = 400 * (33 * D - 12053 * c)) by lia. assert (D = 146097 * (33 * D - 12053 * c)) by lia. lia.
Qed.

Lemma C74_periods_pf : forall (T : Z) (fs : fstr), repeats T fs <-> exists n, T = n * cycle_of (fbase (to_freq fs)).
Proof.
  intros T fs. split.
  - intros [c H]. exact (repeats_cycle _ c T H).
  - intros [n ->]. apply cycle_repeats.
Qed.

(** ** Functions of when.py *)
Lemma snap_later T norm t : repeats T norm -> snap norm (later T t) = later T (snap norm t).
Proof. intros [c H]. unfold snap. rewrite (pord_later T _ c H). apply H. Qed.
Lemma filter2_later T cmp a b : (forall x y, cmp (later T x) (later T y) = cmp x y) ->
  filter2 cmp (map (later T) a) (map (later T) b) = rmap (map (later T)) (filter2 cmp a b).
Proof.
  intros Hc. unfold filter2. rewrite !map_length. destruct (negb _); [reflexivity|]. cbn [rmap]. f_equal.
  revert b. induction a as [|x a IH]; intros b; [reflexivity|]. destruct b as [|y b]; [reflexivity|]. cbn [map combine filter fst snd]. rewrite Hc.
  destruct (cmp x y); cbn [map fst]; rewrite IH; reflexivity.
Qed.
Lemma leb_later T x y : (later T x <=? later T y) = (x <=? y). Proof. unfold later. lia. Qed.
Lemma geb_later T x y : (later T x >=? later T y) = (x >=? y). Proof. unfold later. lia. Qed.

Section Era.
Variable n : Z.
Let E : Z := n * era.
Lemma month_of_day_era d : month_of_day (d + 146097 * n) = month_of_day d + 4800 * n.
Proof.
  apply month_of_day_iff. pose proof (month_of_day_spec d). replace (month_of_day d + 4800 * n + 1) with (month_of_day d + 1 + 4800 * n) by lia.
  rewrite !month_start_periods. lia.
Qed.
Lemma weekday_era d : weekday (d + 146097 * n) = weekday d.
Proof. unfold weekday. lia. Qed.
Lemma day_era t : later E t / NS_DAY = t / NS_DAY + 146097 * n.
Proof. unfold later, E, era, NS_DAY. lia. Qed.
Lemma rest_era t : later E t mod NS_DAY = t mod NS_DAY.
Proof. unfold later, E, era, NS_DAY. lia. Qed.
Lemma month_len_era k : month_len (k + 4800 * n) = month_len k.
Proof. unfold month_len. replace (k + 4800 * n + 1) with (k + 1 + 4800 * n) by lia. rewrite !month_start_periods. lia. Qed.
Lemma add_months_era t k : add_months (later E t) k = later E (add_months t k).
Proof.
  unfold add_months. rewrite day_era, rest_era, month_of_day_era.
  replace (month_of_day (t / NS_DAY) + 4800 * n + k) with (month_of_day (t / NS_DAY) + k + 4800 * n) by lia. rewrite !month_start_periods, month_len_era.
  generalize (month_of_day (t / NS_DAY)) (t / NS_DAY) (t mod NS_DAY). intros m d r.
  replace (d + 146097 * n - (month_start m + 146097 * n)) with (d - month_start m) by lia. unfold later, E, era. lia.
Qed.
Lemma add_offset_era o t : any_year o -> add_offset o (later E t) = later E (add_offset o t).
Proof.
  intros Ho. destruct o as [|y m w d h mi s|a y m w d h mi s]; cbn [add_offset any_year] in *.
  - unfold later. lia.
  - rewrite add_months_era. destruct (_ && _); unfold later; lia.
  - unfold add_absolute. rewrite day_era, rest_era. unfold month_num, year_of, mday_of. rewrite month_of_day_era, month_start_periods.
    set (M := month_of_day (t / NS_DAY)). replace ((M + 4800 * n) mod 12) with (M mod 12) by lia. replace ((M + 4800 * n) / 12) with (M / 12 + 400 * n) by lia.
    destruct (set_month a (M mod 12 + 1) m) as [c x]. rewrite Ho. cbn [or_zero].
    replace (t / NS_DAY + 146097 * n - (month_start M + 146097 * n) + 1) with (t / NS_DAY - month_start M + 1) by lia.
    replace (12 * (1970 + (M / 12 + 400 * n) + y + c - 1970) + (x - 1)) with (12 * (1970 + M / 12 + y + c - 1970) + (x - 1) + 4800 * n) by lia.
    set (k := 12 * _ + _). rewrite month_start_periods, month_len_era. set (dd := Z.min _ _).
    set (r := t mod NS_DAY). set (R := (7 * w + d) * NS_DAY). set (hh := or_none _ _ * NS_HOUR). set (mm := or_none _ _ * NS_MIN). set (ss := or_none _ _ * NS_SEC).
    replace ((month_start k + 146097 * n + (dd - 1)) * NS_DAY + hh + mm + ss + r mod NS_SEC + R + h * NS_HOUR + mi * NS_MIN + s * NS_SEC)
      with (later E ((month_start k + (dd - 1)) * NS_DAY + hh + mm + ss + r mod NS_SEC + R + h * NS_HOUR + mi * NS_MIN + s * NS_SEC)) by (unfold later, E, era; lia).
    set (t2 := _ + s * NS_SEC). clearbody t2. destruct (ab_weekday a) as [[wd k0]|]; [|reflexivity]. rewrite day_era. unfold jump. rewrite weekday_era. unfold later. lia.
Qed.
Lemma add_week_era wd k d : add_week wd k (d + 146097 * n) = add_week wd k d + 146097 * n.
Proof. unfold add_week. rewrite weekday_era. destruct (_ =? _); lia. Qed.
End Era.

Lemma add_offset_time T o t : of_time o -> add_offset o (later T t) = later T (add_offset o t).
Proof.
  intros Ho. destruct o as [|y m w d h mi s|a y m w d h mi s]; cbn [add_offset of_time] in *; [unfold later; lia| |contradiction].
  destruct Ho as [-> ->]. cbn [Z.eqb andb]. unfold later. lia.
Qed.

Lemma from_start_steady T o : (forall t, add_offset o (later T t) = later T (add_offset o t)) -> steady_how T (from_start_of_each o).
Proof.
  intros Ho f f' norm Hn F. unfold from_start_of_each. destruct (offset_error o); [reflexivity|]. destruct (_ <? _); [reflexivity|]. cbn [rmap]. f_equal.
  pose proof (later_unit_end T f f' F) as Ee. destruct F as (_ & El & Es). rewrite El.
  induction (zrange 0 (Z.to_nat (fr_len f))) as [|i l IH]; [reflexivity|]. cbn [map filter fst snd]. rewrite Es, Ee, Ho, (snap_later T norm _ Hn), leb_later.
  destruct (_ <=? _); cbn [map fst]; rewrite IH; reflexivity.
Qed.

Lemma C74_from_start_pf : forall (T : Z) (o : dateoffset), of_time o \/ any_year o /\ (exists n, T = n * era) -> steady_how T (from_start_of_each o).
Proof.
  intros T o [Ho|[Ho [n ->]]]; apply from_start_steady; intros t; [apply add_offset_time, Ho|apply add_offset_era, Ho].
Qed.

Lemma zdedup_later T l : zdedup (map (later T) l) = map (later T) (zdedup l).
Proof.
  induction l as [|x [|y l] IH]; [reflexivity|reflexivity|]. change (zdedup (x :: y :: l)) with (if x =? y then zdedup (y :: l) else x :: zdedup (y :: l)).
  change (zdedup (map (later T) (x :: y :: l))) with (if later T x =? later T y then zdedup (map (later T) (y :: l)) else later T x :: zdedup (map (later T) (y :: l))).
  rewrite IH. replace (later T x =? later T y) with (x =? y) by (unfold later; lia). destruct (x =? y); reflexivity.
Qed.

Lemma C74_weekday_pf : forall (n month week wday shift : Z), steady_how (n * era) (nth_weekday_of_month month week wday shift).
Proof.
  intros n month week wday shift f f' norm _ F. unfold nth_weekday_of_month. do 3 (destruct (negb _); [reflexivity|]).
  pose proof (later_unit_end _ f f' F) as Ee. destruct F as (_ & El & Es). rewrite El. set (units := zrange 0 _). cbv zeta.
  assert (E1 : drop_duplicates (map (fun i => month_of_day (unit_start f' i / NS_DAY)) units) = map (later (4800 * n)) (drop_duplicates (map (fun i => month_of_day (unit_start f i / NS_DAY)) units))).
  { unfold drop_duplicates. rewrite <- zdedup_later, map_map. f_equal. apply map_ext. intros i. rewrite Es, day_era, month_of_day_era. reflexivity. }
  rewrite E1. set (months := drop_duplicates _). clearbody months.
  assert (E2 : map (unit_end f') units = map (later (n * era)) (map (unit_end f) units)) by (rewrite map_map; apply map_ext; exact Ee).
  rewrite E2. set (ends := map (unit_end f) units). clearbody ends.
  assert (E3 : map (fun k => month_start (k + (month - 1)) * NS_DAY) (map (later (4800 * n)) months) = map (later (n * era)) (map (fun k => month_start (k + (month - 1)) * NS_DAY) months)).
  { rewrite !map_map. apply map_ext. intros k. unfold later. replace (k + 4800 * n + (month - 1)) with (k + (month - 1) + 4800 * n) by lia. rewrite month_start_periods. unfold era. lia. }
  assert (E4 : map (fun k => (month_start (k + month) - 1) * NS_DAY) (map (later (4800 * n)) months) = map (later (n * era)) (map (fun k => (month_start (k + month) - 1) * NS_DAY) months)).
  { rewrite !map_map. apply map_ext. intros k. unfold later. replace (k + 4800 * n + month) with (k + month + 4800 * n) by lia. rewrite month_start_periods. unfold era. lia. }
  rewrite E3, E4, !(filter2_later _ Z.leb) by (intros; apply leb_later).
  destruct (filter2 Z.leb (map (fun k => month_start (k + (month - 1)) * NS_DAY) months) ends) as [ms|]; [|reflexivity]. cbn [rmap bind].
  destruct (filter2 Z.leb (map (fun k => (month_start (k + month) - 1) * NS_DAY) months) ends) as [me|]; [|reflexivity]. cbn [rmap bind].
  assert (E5 : forall g l, map (fun t => let d := t / NS_DAY in let k := g (weekday d) in add_week (wday - 1) k d * NS_DAY) (map (later (n * era)) l)
     = map (later (n * era)) (map (fun t => let d := t / NS_DAY in let k := g (weekday d) in add_week (wday - 1) k d * NS_DAY) l)).
  { intros g l. rewrite !map_map. apply map_ext. intros t. cbv zeta. rewrite day_era, weekday_era, add_week_era. unfold later, era. lia. }
  assert (E6 : forall l, map (fun t => t + shift * NS_DAY) (map (later (n * era)) l) = map (later (n * era)) (map (fun t => t + shift * NS_DAY) l)).
  { intros l. rewrite !map_map. apply map_ext. intros t. unfold later. lia. }
  destruct (0 <? week).
  - rewrite (E5 (fun w => week - (if w =? wday - 1 then 1 else 0))), (filter2_later _ Z.leb) by (intros; apply leb_later).
    destruct (filter2 Z.leb _ me) as [dtw|]; [|reflexivity]. cbn [rmap bind]. rewrite E6. reflexivity.
  - rewrite (E5 (fun w => week + (if w =? wday - 1 then 1 else 0))), (filter2_later _ Z.geb) by (intros; apply geb_later).
    destruct (filter2 Z.geb _ ms) as [dtw|]; [|reflexivity]. cbn [rmap bind]. rewrite E6. reflexivity.
Qed.

Lemma easter_cycle n y : easter false (y + 5700000 * n) = easter false y + 146097 * (14250 * n).
Proof.
  unfold easter. replace ((y + 5700000 * n) mod 19) with (y mod 19) by lia. replace ((y + 5700000 * n) / 100) with (y / 100 + 57000 * n) by lia.
  set (g := y mod 19). set (c := y / 100). clearbody g.
  replace ((c + 57000 * n) / 4) with (c / 4 + 14250 * n) by lia. replace ((8 * (c + 57000 * n) + 13) / 25) with ((8 * c + 13) / 25 + 18240 * n) by lia.
  replace (c + 57000 * n - (c / 4 + 14250 * n) - ((8 * c + 13) / 25 + 18240 * n) + 19 * g + 15) with (c - c / 4 - (8 * c + 13) / 25 + 19 * g + 15 + 817 * n * 30) by lia.
  rewrite Z.mod_add by lia. set (h := _ mod 30). set (i := h - _). clearbody i. replace ((y + 5700000 * n) / 4) with (y / 4 + 1425000 * n) by lia.
  replace (y + 5700000 * n + (y / 4 + 1425000 * n) + i + 2 - (c + 57000 * n) + (c / 4 + 14250 * n)) with (y + y / 4 + i + 2 - c + c / 4 + 1011750 * n * 7) by lia.
  rewrite Z.mod_add by lia.
  set (j := _ mod 7). clearbody j. unfold date. set (dd := 1 + _). set (mm := 3 + _).
  replace ((y + 5700000 * n - 1970) * 12 + (mm - 1)) with ((y - 1970) * 12 + (mm - 1) + 4800 * (14250 * n)) by lia. rewrite month_start_periods. lia.
Qed.

Lemma C74_easter_pf : forall (n : Z) (o : dateoffset), any_year o -> steady_how (n * 14250 * era) (from_easter false o).
Proof.
  intros n o Ho f f' norm Hn F. unfold from_easter. destruct (offset_error o); [reflexivity|]. set (T := n * 14250 * era) in *.
  pose proof (later_unit_end T f f' F) as Ee. destruct F as (_ & El & Es). rewrite El. set (units := zrange 0 _). cbv zeta.
  rewrite (map_ext (unit_start f') (fun i => later T (unit_start f i)) Es), (map_ext (unit_end f') (fun i => later T (unit_end f i)) Ee).
  rewrite <- (map_map (unit_start f) (later T)), <- (map_map (unit_end f) (later T)).
  assert (E1 : map (fun i => easter false (year_of (unit_end f' i / NS_DAY)) * NS_DAY) units = map (later T) (map (fun i => easter false (year_of (unit_end f i / NS_DAY)) * NS_DAY) units)).
  { rewrite map_map. apply map_ext. intros i. rewrite Ee. unfold T. rewrite day_era. unfold year_of. rewrite month_of_day_era.
    replace ((month_of_day (unit_end f i / NS_DAY) + 4800 * (n * 14250)) / 12) with (month_of_day (unit_end f i / NS_DAY) / 12 + 5700000 * n) by lia.
    rewrite Z.add_assoc, easter_cycle. unfold later, era. lia. }
  rewrite E1. set (es := map _ units). set (ss := map (unit_start f) units). set (en := map (unit_end f) units). clearbody es ss en.
  set (P := fun p : Z * (Z * Z) => (fst (snd p) <=? fst p) && (fst p <=? snd (snd p))).
  assert (E2 : forall es ss en, map fst (filter P (combine (map (later T) es) (combine (map (later T) ss) (map (later T) en)))) = map (later T) (map fst (filter P (combine es (combine ss en))))).
  { clear. induction es as [|x es IH]; intros ss en; [reflexivity|]. destruct ss as [|y ss]; [reflexivity|]. destruct en as [|z en]; [reflexivity|]. cbn [map combine filter].
    replace (P (later T x, (later T y, later T z))) with (P (x, (y, z))) by (unfold P; cbn [fst snd]; rewrite !leb_later; reflexivity).
    destruct (P (x, (y, z))); cbn [map fst]; rewrite IH; reflexivity. }
  rewrite E2. set (dates := map fst _). clearbody dates.
  assert (E3 : map (fun t => snap norm (add_offset o t)) (map (later T) dates) = map (later T) (map (fun t => snap norm (add_offset o t)) dates)).
  { rewrite !map_map. apply map_ext. intros t. unfold T at 1. rewrite add_offset_era by exact Ho. apply snap_later, Hn. }
  rewrite E3. destruct (_ <=? _); apply filter2_later; intros; [apply leb_later|apply geb_later].
Qed.

(** April 2017 before and from Easter. *)
Definition easter_move : tb_args Z :=
  mkArgs (mkFstr None AlD) (date 2017 4 1 * NS_DAY) (date 2017 4 30 * NS_DAY)
    (LOrg (DMarker (mkMarker (mkFstr None (AlA None)) [from_easter false (DKw 0 0 0 0 0 0 0)])) [LLab 1; LLab 2]) [] (fun x => 0 <? x) 1 false 0 WDuration (fun x => Some (inject_Z x)).
Lemma C74_easter_refuted_pf : exists (a : tb_args Z) (tb tb' : timeboard Z), repeats era (a_freq a) /\ build a [] = Ok (tb, []) /\ build (later_args era a) [] = Ok (tb', [])
  /\ ~ same_later era tb tb'.
Proof.
  destruct (build easter_move []) as [[tb h]|e] eqn:B; [|vm_compute in B; discriminate].
  destruct (build (later_args era easter_move) []) as [[tb' h']|e] eqn:B'; [|vm_compute in B'; discriminate].
  assert (Eh : h = [] /\ h' = []) by (vm_compute in B, B'; injection B as _ <-; injection B' as _ <-; split; reflexivity). destruct Eh as [-> ->].
  exists easter_move, tb, tb'. split; [apply C74_periods_pf; exists 146097; reflexivity|]. split; [exact B|]. split; [exact B'|].
  intros S. pose proof (sl_ws_start _ _ _ S 1) as C. vm_compute in B, B'. injection B as <-. injection B' as <-. vm_compute in C. discriminate.
Qed.
