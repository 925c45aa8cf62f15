(** Proofs of C77. *)
From Verif Require Import Base BaseProofs Civil Freq Frame FrameProofs Timeline Board Spec SpecRoll SpecQuery SpecOpposite TimelineProofs BoardProofs RollProofs QueryProofs.
From Coq Require Import ZifyBool ZifyNat QArith.
Open Scope Z_scope.

Section Opposite.
Context {L : Type}.
Variables (tb : timeboard L) (s s' : schedule L).
Hypothesis Hr : reachable tb.
Hypothesis Hs : sched_for tb s.
Hypothesis Hs' : sched_for tb s'.
Hypothesis Hop : opposite tb s s'.

Lemma op_label i x : is_shift tb i -> tl_get (tb_tl tb) i = Ok x -> sc_sel s' x = negb (sc_sel s x).
Proof. intros Hi E. specialize (Hop i Hi). unfold on_duty in Hop. rewrite E in Hop. exact Hop. Qed.
Lemma op_lists : sc_on s' = sc_off s /\ sc_off s' = sc_on s /\ sc_all s' = sc_all s.
Proof.
  destruct Hs as (name & sel & E). destruct Hs' as (name' & sel' & E').
  assert (X : map sel' (tl_labels (tb_tl tb)) = map negb (map sel (tl_labels (tb_tl tb)))).
  { rewrite map_map. apply map_ext_in. intros x Hx. apply In_znth in Hx. destruct Hx as [i Hi]. pose proof (znth_range _ _ _ Hi) as Ri.
    pose proof (reachable_wf tb Hr) as (W & _). assert (Hsh : is_shift tb i).
    { unfold is_shift, tb_len, tl_len. pose proof (wf_labels _ W). lia. }
    pose proof (op_label i x Hsh) as H. rewrite E, E' in H. cbn [mk_schedule sc_sel] in H. apply H.
    apply py_get_res_ok; [lia|exact Hi]. }
  rewrite E, E'. unfold mk_schedule. cbn [sc_on sc_off sc_all]. rewrite X. split; [reflexivity|]. split; [|reflexivity].
  f_equal. rewrite map_map. rewrite <- (map_id (map sel _)) at 2. apply map_ext. intros b. apply negb_involutive.
Qed.

Lemma new_place i : rmap place (new_workshift tb i s') = rmap place (new_workshift tb i s).
Proof. unfold new_workshift. destruct (tl_get (tb_tl tb) i) as [x|e]; [reflexivity|]. destruct e; reflexivity. Qed.
Lemma new_places l : rmap (map place) (mapM (fun i => new_workshift tb i s') l) = rmap (map place) (mapM (fun i => new_workshift tb i s) l).
Proof.
  induction l as [|i l IH]; [reflexivity|]. cbn [mapM]. pose proof (new_place i) as E.
  destruct (new_workshift tb i s') as [w'|e'], (new_workshift tb i s) as [w|e]; cbn [rmap bind] in *; try discriminate E; [|injection E as ->; reflexivity].
  injection E as E1 E2.
  destruct (mapM (fun i => new_workshift tb i s') l) as [ws'|e'], (mapM (fun i => new_workshift tb i s) l) as [ws|e]; cbn [rmap bind] in *; try discriminate IH; [|exact IH].
  injection IH as IH. unfold rmap. cbn [map]. unfold place at 1 3. rewrite E1, E2, IH. reflexivity.
Qed.
Lemma op_index w d : is_shift tb (ws_loc w) -> get_duty_index tb w (other_duty d) s' = get_duty_index tb w d s.
Proof.
  intros Hw. unfold get_duty_index, is_on_duty. destruct op_lists as (E1 & E2 & E3).
  destruct (tl_get (tb_tl tb) (ws_loc w)) as [x|e] eqn:E; [|reflexivity]. cbn [rmap bind]. rewrite (op_label _ _ Hw E), E1, E2, E3.
  destruct d; cbn [other_duty]; try reflexivity; destruct (sc_sel s x); reflexivity.
Qed.
Lemma op_idx iv d : get_duty_idx iv (other_duty d) s' = get_duty_idx iv d s.
Proof. destruct op_lists as (E1 & E2 & E3). unfold get_duty_idx. rewrite E1, E2, E3. destruct d; reflexivity. Qed.

Lemma op_forward w n d : is_shift tb (ws_loc w) -> rmap place (rollforward tb w n (other_duty d) (Some s')) = rmap place (rollforward tb w n d (Some s)).
Proof.
  intros Hw. unfold rollforward. cbn [opt_or]. rewrite (op_index w d Hw). destruct (get_duty_index tb w d s) as [idx|e]; [|reflexivity]. cbn [bind].
  destruct (_ || _ || _); [reflexivity|]. destruct (py_get_res idx _) as [i|e]; [|reflexivity]. cbn [bind]. apply new_place.
Qed.
Lemma op_back w n d : is_shift tb (ws_loc w) -> rmap place (rollback tb w n (other_duty d) (Some s')) = rmap place (rollback tb w n d (Some s)).
Proof.
  intros Hw. unfold rollback. cbn [opt_or]. rewrite (op_index w d Hw). destruct (get_duty_index tb w d s) as [idx|e]; [|reflexivity]. cbn [bind].
  destruct (_ || _ || _); [reflexivity|]. destruct (py_get_res idx _) as [i|e]; [|reflexivity]. cbn [bind]. apply new_place.
Qed.
Lemma op_ws_worktime w d : is_shift tb (ws_loc w) -> ws_worktime tb w (other_duty d) (Some s') = ws_worktime tb w d (Some s).
Proof.
  intros Hw. unfold ws_worktime. cbn [opt_or]. unfold is_on_duty. destruct (tl_get (tb_tl tb) (ws_loc w)) as [x|e] eqn:E; [|reflexivity]. cbn [rmap bind].
  rewrite (op_label _ _ Hw E). destruct d; cbn [other_duty]; try reflexivity. rewrite negb_involutive. reflexivity.
Qed.
Lemma op_count iv iv' d : iv_a iv' = iv_a iv -> iv_b iv' = iv_b iv -> iv_void iv' = iv_void iv -> iv_count iv' (other_duty d) (Some s') = iv_count iv d (Some s).
Proof.
  intros Ea Eb Ev. unfold iv_count. rewrite Ev. cbn [opt_or]. destruct (iv_void iv); [reflexivity|].
  assert (E : get_duty_idx iv' (other_duty d) s' = get_duty_idx iv (other_duty d) s').
  { unfold get_duty_idx, find_my_bounds. rewrite Ea, Eb. reflexivity. }
  rewrite E, op_idx. reflexivity.
Qed.
Lemma op_workshifts iv d : rmap (map place) (iv_workshifts tb iv (other_duty d) (Some s')) = rmap (map place) (iv_workshifts tb iv d (Some s)).
Proof.
  unfold iv_workshifts. cbn [opt_or]. destruct (iv_void iv); [reflexivity|]. rewrite op_idx. destruct (get_duty_idx iv d s) as [[idx [[l r]|]]|e]; [|reflexivity|reflexivity].
  cbn [bind fst snd]. apply new_places.
Qed.
Lemma op_nth iv n d : rmap place (iv_nth tb iv n (other_duty d) (Some s')) = rmap place (iv_nth tb iv n d (Some s)).
Proof.
  unfold iv_nth. cbn [opt_or]. destruct (iv_void iv); [reflexivity|]. rewrite op_idx. destruct (get_duty_idx iv d s) as [[idx [[l r]|]]|e]; [|reflexivity|reflexivity].
  cbn [bind fst snd]. destruct (_ || _); [reflexivity|]. destruct (py_get_res idx _) as [i|e]; [|reflexivity]. cbn [bind]. apply new_place.
Qed.
Lemma op_duration iv d : total_duration tb iv (other_duty d) (Some s') = total_duration tb iv d (Some s).
Proof. unfold total_duration. cbn [opt_or]. rewrite op_idx. reflexivity. Qed.
Lemma op_worktime iv d : iv_worktime tb iv (other_duty d) (Some s') = iv_worktime tb iv d (Some s).
Proof. unfold iv_worktime, sum_labels. cbn [opt_or]. rewrite op_idx, op_duration. reflexivity. Qed.

(** Intervals that differ in their schedule. *)
Definition resched (iv : interval L) : interval L := mkIvl (iv_a iv) (iv_b iv) (iv_void iv) s'.
Lemma new_resched a b : new_interval tb a b s' = rmap resched (new_interval tb a b s).
Proof. unfold new_interval. do 3 (destruct (_ : bool); [reflexivity|]). reflexivity. Qed.
Lemma void_resched a b : new_void_interval tb a b s' = rmap resched (new_void_interval tb a b s).
Proof. unfold new_void_interval. do 3 (destruct (_ : bool); [reflexivity|]). reflexivity. Qed.
Lemma overlap_resched x y : iv_overlap tb x y (Some s') = rmap resched (iv_overlap tb x y (Some s)).
Proof.
  unfold iv_overlap. cbn [opt_or]. destruct (iv_void x); [apply void_resched|]. rewrite new_resched. destruct (new_interval tb _ _ s) as [i|e]; [reflexivity|].
  destruct e; try reflexivity. apply void_resched.
Qed.
Lemma overlap_sched x y i : iv_overlap tb x y (Some s) = Ok i -> iv_sched i = s.
Proof.
  unfold iv_overlap, new_interval, new_void_interval. cbn [opt_or]. destruct (iv_void x).
  - do 3 (destruct (_ : bool); [discriminate|]). injection 1 as <-. reflexivity.
  - destruct (negb _); [discriminate|]. destruct (negb _); [discriminate|]. destruct (_ <? _).
    + destruct (_ <=? _); [discriminate|]. injection 1 as <-. reflexivity.
    + injection 1 as <-. reflexivity.
Qed.
Lemma op_portion x y d : what_portion_of tb x y (other_duty d) (Some s') = what_portion_of tb x y d (Some s).
Proof.
  unfold what_portion_of, what_portion_by. cbn [opt_or]. destruct (iv_void x); [reflexivity|]. rewrite overlap_resched.
  destruct (iv_overlap tb x y (Some s)) as [i|e] eqn:E; [|reflexivity]. cbn [rmap bind].
  assert (C : iv_count (resched i) (other_duty d) None = iv_count i d None).
  { pose proof (op_count i (resched i) d eq_refl eq_refl eq_refl) as H. unfold iv_count in *. cbn [opt_or] in *. rewrite (overlap_sched _ _ _ E). exact H. }
  rewrite C. destruct (iv_count i d None) as [c|e]; [|reflexivity]. cbn [bind]. rewrite (op_count y y d eq_refl eq_refl eq_refl). reflexivity.
Qed.
Lemma interval_resched r len per clip c : get_interval tb r len per clip c (Some s') = rmap resched (get_interval tb r len per clip c (Some s)).
Proof.
  unfold get_interval. destruct (drop_flags c) as [[dh dt]|e]; [|reflexivity]. cbn [bind opt_or].
  match goal with |- bind ?X _ = rmap _ (bind ?X _) => destruct X as [[l0 l1]|e]; [|reflexivity] end. cbn [bind fst snd].
  unfold interval_from_locs. destruct (locations_in_order l0 l1) as [b|e]; [|reflexivity]. cbn [bind]. destruct (negb b); [reflexivity|].
  destruct (l_pos l0), (l_pos l1); try reflexivity; [apply new_resched|]. destruct (_ =? _); reflexivity.
Qed.
Definition entry' (o : option (interval L * Z)) : option (interval L * Z) := match o with Some (i, c) => Some (resched i, c) | None => None end.
Lemma op_entry d p : period_entry tb (other_duty d) s' p = rmap entry' (period_entry tb d s p).
Proof.
  unfold period_entry. rewrite interval_resched. destruct (get_interval tb (RPeriod p) None None false C11 (Some s)) as [i|e]; cbn [rmap].
  - rewrite (op_count i (resched i) d eq_refl eq_refl eq_refl). destruct (iv_count i d (Some s)); reflexivity.
  - destruct e; reflexivity.
Qed.
Lemma op_entries d fs pindex l : mapM (fun i => period_entry tb (other_duty d) s' (mkPeriod (to_freq fs) (unit_ord pindex i))) l
  = rmap (map entry') (mapM (fun i => period_entry tb d s (mkPeriod (to_freq fs) (unit_ord pindex i))) l).
Proof.
  induction l as [|i l IH]; [reflexivity|]. cbn [mapM]. rewrite op_entry. destruct (period_entry tb d s _) as [o|e]; [|reflexivity]. cbn [rmap bind].
  rewrite IH. clear IH. destruct (mapM _ l); reflexivity.
Qed.
Lemma op_positive l : count_positive (map entry' l) = count_positive l.
Proof. induction l as [|[[i c]|] l IH]; [reflexivity| |reflexivity]. cbn [map entry' count_positive]. rewrite IH. reflexivity. Qed.
Lemma op_unwrap l k : unwrap_entry (znth (map entry' l) k) = rmap (fun e => (resched (fst e), snd e)) (unwrap_entry (znth l k)).
Proof.
  assert (E : znth (map entry' l) k = option_map entry' (znth l k)).
  { unfold znth. destruct (k <? 0); [reflexivity|]. apply nth_error_map. }
  rewrite E. destruct (znth l k) as [[[i c]|]|]; reflexivity.
Qed.
Lemma op_slice l a b : py_slice (map entry' l) a b = map entry' (py_slice l a b).
Proof. unfold py_slice. rewrite skipn_map, firstn_map. reflexivity. Qed.
Lemma op_end iv d : (do w0 <- iv_first tb iv (other_duty d) (Some s');
         do w1 <- iv_last tb iv (other_duty d) (Some s');
         do r0 <- ws_ref_time (tb_tl tb) (ws_loc w0);
         do r1 <- ws_ref_time (tb_tl tb) (ws_loc w1);
         Ok (r0, r1)) = (do w0 <- iv_first tb iv d (Some s);
         do w1 <- iv_last tb iv d (Some s);
         do r0 <- ws_ref_time (tb_tl tb) (ws_loc w0);
         do r1 <- ws_ref_time (tb_tl tb) (ws_loc w1);
         Ok (r0, r1)).
Proof.
  unfold iv_first, iv_last. pose proof (op_nth iv 0 d) as E0. pose proof (op_nth iv (-1) d) as E1.
  destruct (iv_nth tb iv 0 (other_duty d) (Some s')) as [w0'|e0'], (iv_nth tb iv 0 d (Some s)) as [w0|e0]; cbn [rmap bind] in *; try discriminate E0; [|congruence].
  destruct (iv_nth tb iv (-1) (other_duty d) (Some s')) as [w1'|e1'], (iv_nth tb iv (-1) d (Some s)) as [w1|e1]; cbn [rmap bind] in *; try discriminate E1; [|congruence].
  injection E0 as E0 _. injection E1 as E1 _. rewrite E0, E1. reflexivity.
Qed.
Lemma op_periods iv fs d : count_periods tb iv fs (other_duty d) (Some s') = count_periods tb iv fs d (Some s).
Proof.
  unfold count_periods, count_periods_by. destruct (iv_void iv) eqn:Ev; [reflexivity|]. destruct (negb _); [reflexivity|].
  destruct (iv_start_time tb iv) as [t0|e]; [|reflexivity]. destruct (iv_end_time tb iv) as [t1|e]; [|reflexivity]. cbn [bind].
  destruct (mk_frame fs t0 t1) as [pindex|e]; [|reflexivity]. cbn [bind opt_or]. rewrite op_end.
  match goal with |- match ?X with _ => _ end = _ => destruct X as [[r0 r1]|e]; [|destruct e; reflexivity] end.
  rewrite op_entries. destruct (mapM _ _) as [entries|e]; [|reflexivity]. cbn [rmap bind].
  destruct (fr_get_loc pindex r0) as [k0|e]; [|reflexivity]. cbn [bind]. destruct (fr_get_loc pindex r1) as [k1|e]; [|reflexivity]. cbn [bind].
  rewrite !op_unwrap. destruct (unwrap_entry (znth entries k0)) as [[i0 n0]|e]; [|reflexivity]. cbn [rmap bind fst snd].
  destruct (unwrap_entry (znth entries k1)) as [[i1 n1]|e]; [|reflexivity]. cbn [rmap bind fst snd].
  rewrite (op_count iv iv d eq_refl eq_refl eq_refl). destruct (r1 <=? unit_end pindex k0); [reflexivity|].
  change (iv_end_time tb (resched i0)) with (iv_end_time tb i0). destruct (iv_end_time tb i0) as [te|e]; [|reflexivity]. cbn [bind].
  rewrite interval_resched. destruct (get_interval tb (RPair (Some r0) (Some te)) None None false C11 (Some s)) as [j0|e]; [|reflexivity]. cbn [rmap bind].
  rewrite (op_count j0 (resched j0) d eq_refl eq_refl eq_refl). destruct (iv_count j0 d (Some s)) as [c0|e]; [|reflexivity]. cbn [bind].
  destruct (q_div c0 n0) as [q0|e]; [|reflexivity]. cbn [bind]. change (iv_start_time tb (resched i1)) with (iv_start_time tb i1).
  destruct (iv_start_time tb i1) as [ts|e]; [|reflexivity]. cbn [bind].
  rewrite interval_resched. destruct (get_interval tb (RPair (Some ts) (Some r1)) None None false C11 (Some s)) as [j1|e]; [|reflexivity]. cbn [rmap bind].
  rewrite (op_count j1 (resched j1) d eq_refl eq_refl eq_refl). destruct (iv_count j1 d (Some s)) as [c1|e]; [|reflexivity]. cbn [bind].
  destruct (q_div c1 n1) as [q1|e]; [|reflexivity]. cbn [bind]. rewrite op_slice, op_positive. reflexivity.
Qed.
End Opposite.

Lemma C77_opposite_pf : forall L (tb : timeboard L) s s', reachable tb -> sched_for tb s -> sched_for tb s' -> opposite tb s s' ->
  (forall w n d, ws_of tb w ->
     rmap place (rollforward tb w n (other_duty d) (Some s')) = rmap place (rollforward tb w n d (Some s))
     /\ rmap place (rollback tb w n (other_duty d) (Some s')) = rmap place (rollback tb w n d (Some s))
     /\ ws_worktime tb w (other_duty d) (Some s') = ws_worktime tb w d (Some s))
  /\ (forall iv n d,
     rmap (map place) (iv_workshifts tb iv (other_duty d) (Some s')) = rmap (map place) (iv_workshifts tb iv d (Some s))
     /\ rmap place (iv_nth tb iv n (other_duty d) (Some s')) = rmap place (iv_nth tb iv n d (Some s))
     /\ iv_count iv (other_duty d) (Some s') = iv_count iv d (Some s)
     /\ total_duration tb iv (other_duty d) (Some s') = total_duration tb iv d (Some s)
     /\ iv_worktime tb iv (other_duty d) (Some s') = iv_worktime tb iv d (Some s))
  /\ (forall x y d, what_portion_of tb x y (other_duty d) (Some s') = what_portion_of tb x y d (Some s))
  /\ (forall iv fs d, count_periods tb iv fs (other_duty d) (Some s') = count_periods tb iv fs d (Some s)).
Proof.
  intros L tb s s' Hr Hs Hs' Hop. split; [|split; [|split]].
  - intros w n d (Hw & _). split; [apply op_forward; assumption|]. split; [apply op_back; assumption|apply op_ws_worktime; assumption].
  - intros iv n d. split; [apply op_workshifts; assumption|]. split; [apply op_nth; assumption|].
    split; [apply (op_count tb); (assumption || reflexivity)|]. split; [apply op_duration; assumption|apply op_worktime; assumption].
  - intros x y d. apply op_portion; assumption.
  - intros iv fs d. apply op_periods; assumption.
Qed.

(** ** More workshifts with the duty *)
Lemma z_total_filter (f g : Z -> bool) (h : Z -> Z) l : (forall i, In i l -> f i = true -> g i = true) -> (forall i, In i l -> 0 <= h i) ->
  z_total (map h (filter f l)) <= z_total (map h (filter g l)).
Proof.
  induction l as [|i l IH]; intros Hfg Hh; [apply Z.le_refl|]. cbn [filter].
  assert (X : z_total (map h (filter f l)) <= z_total (map h (filter g l))) by (apply IH; intros j Hj; [apply Hfg|apply Hh]; right; exact Hj).
  pose proof (Hfg i (or_introl eq_refl)) as H1. pose proof (Hh i (or_introl eq_refl)) as H2.
  destruct (f i) eqn:E1, (g i) eqn:E2; cbn [map z_total fold_right]; unfold z_total in *; [lia|specialize (H1 eq_refl); discriminate|lia|lia].
Qed.
Lemma zlen_total (l : list Z) : zlen l = z_total (map (fun _ => 1) l).
Proof. induction l as [|x l IH]; [reflexivity|]. unfold zlen in *. cbn [length map z_total fold_right]. unfold z_total in IH. lia. Qed.

Section Covered.
Context {L : Type}.
Variables (tb : timeboard L) (s s' : schedule L) (d d' : duty).
Hypothesis W : tl_wf (tb_tl tb).
Hypothesis Hc : covered tb s d s' d'.

Lemma cov_count a b : 0 <= a -> b < tb_len tb -> duty_count tb s d a b <= duty_count tb s' d' a b.
Proof.
  intros Ha Hb. unfold duty_count. rewrite !zlen_total. unfold duty_list. apply z_total_filter; [|intros; lia].
  intros i Hi. apply positions_In in Hi. apply Hc. unfold is_shift. lia.
Qed.
Lemma cov_forward p n q : is_shift tb p -> 0 <= n -> fwd_target tb s d p n q -> exists q', fwd_target tb s' d' p n q' /\ p <= q' <= q.
Proof.
  intros Hp Hn (Hq & Hd & [(_ & Hpq & Hcnt)|(F & _)]); [|lia]. unfold is_shift in *.
  pose proof (Hc q Hq Hd) as Hd'. pose proof (cov_count p (q - 1) ltac:(lia) ltac:(lia)) as H1.
  pose proof (idx_at tb s' d' q Hq Hd') as Hix. apply znth_range in Hix.
  pose proof (count_diff tb s' d' p q ltac:(lia) Hpq) as H2. pose proof (duty_count_nonneg tb s' d' 0 (p - 1)) as H3.
  destruct (znth_ex (duty_list tb s' d' 0 (tb_len tb - 1)) (duty_count tb s' d' 0 (p - 1) + n)) as [q' Hq']; [lia|].
  exists q'. assert (T : fwd_target tb s' d' p n q') by (apply fwd_of_pos; [exact Hp|exact Hq'|lia]). split; [exact T|].
  destruct T as (Tq & Td & [(_ & Tp & Tc)|(F & _)]); [|lia]. split; [exact Tp|].
  destruct (Z.le_gt_cases q' q) as [|G]; [assumption|exfalso].
  pose proof (duty_count_split tb s' d' p (q - 1) (q' - 1) ltac:(lia) ltac:(lia)) as H4. replace (q - 1 + 1) with q in H4 by lia.
  pose proof (count_pos tb s' d' q (q' - 1) q ltac:(lia) Hd'). lia.
Qed.
Lemma cov_back p n q : is_shift tb p -> 0 <= n -> back_target tb s d p n q -> exists q', back_target tb s' d' p n q' /\ q <= q' <= p.
Proof.
  intros Hp Hn (Hq & Hd & [(_ & Hpq & Hcnt)|(F & _)]); [|lia]. unfold is_shift in *.
  pose proof (Hc q Hq Hd) as Hd'. pose proof (cov_count (q + 1) p ltac:(lia) ltac:(lia)) as H1.
  pose proof (count_to tb s' d' q Hq Hd') as Hct. pose proof (duty_count_nonneg tb s' d' 0 (q - 1)) as H3.
  pose proof (count_diff2 tb s' d' q p ltac:(lia) Hpq) as H2.
  assert (Htot : duty_count tb s' d' 0 p <= zlen (duty_list tb s' d' 0 (tb_len tb - 1))).
  { change (zlen (duty_list tb s' d' 0 (tb_len tb - 1))) with (duty_count tb s' d' 0 (tb_len tb - 1)).
    rewrite (duty_count_split tb s' d' 0 p (tb_len tb - 1)) by lia. pose proof (duty_count_nonneg tb s' d' (p + 1) (tb_len tb - 1)). lia. }
  destruct (znth_ex (duty_list tb s' d' 0 (tb_len tb - 1)) (duty_count tb s' d' 0 p - 1 - n)) as [q' Hq']; [lia|].
  exists q'. assert (T : back_target tb s' d' p n q') by (apply back_of_pos; [exact Hp|exact Hq'|lia]). split; [exact T|].
  destruct T as (Tq & Td & [(_ & Tp & Tc)|(F & _)]); [|lia]. split; [|exact Tp].
  destruct (Z.le_gt_cases q q') as [|G]; [assumption|exfalso].
  pose proof (duty_count_split tb s' d' (q' + 1) q p ltac:(lia) ltac:(lia)) as H4.
  pose proof (count_pos tb s' d' (q' + 1) q q ltac:(lia) Hd'). lia.
Qed.
End Covered.

Lemma plain_resolve {L} (tb : timeboard L) s p d : plain_duty d -> resolve_duty tb s p d = d /\ d <> DBad.
Proof. intros [->|[->| ->]]; split; (reflexivity || discriminate). Qed.
Lemma places {L} (tb : timeboard L) s l ws : Forall2 (the_shift tb s) l ws ->
  forall y, In y (map place ws) <-> exists i, In i l /\ fst y = i /\ tl_get (tb_tl tb) i = Ok (snd y).
Proof.
  induction 1 as [|i w l ws (H1 & H2 & H3) H IH]; intros y.
  - split; [intros []|intros (i & [] & _)].
  - cbn [map In]. rewrite IH. split.
    + intros [<-|(j & Hj & Hy)]; [exists i; cbn [place fst snd]; auto|exists j; auto].
    + intros (j & [<-|Hj] & Hy & Hl); [left|right; exists j; auto]. destruct y as [a x]. cbn [fst snd] in *. subst a. unfold place. rewrite H3 in Hl. injection Hl as ->. rewrite H1. reflexivity.
Qed.

Lemma Forall2_len {A B} (P : A -> B -> Prop) l m : Forall2 P l m -> length l = length m.
Proof. induction 1; [reflexivity|]. cbn [length]. f_equal. assumption. Qed.

Lemma C77_covered_pf : forall L (tb : timeboard L) s d s' d', reachable tb -> sched_for tb s -> sched_for tb s' -> plain_duty d -> plain_duty d' ->
  covered tb s d s' d' ->
  (forall iv, iv_of tb iv -> exists ws ws' m m',
     iv_workshifts tb iv d (Some s) = Ok ws /\ iv_workshifts tb iv d' (Some s') = Ok ws'
     /\ incl (map place ws) (map place ws')
     /\ iv_count iv d (Some s) = Ok (Z.of_nat (length ws)) /\ iv_count iv d' (Some s') = Ok (Z.of_nat (length ws'))
     /\ (length ws <= length ws')%nat
     /\ total_duration tb iv d (Some s) = Ok m /\ total_duration tb iv d' (Some s') = Ok m' /\ m <= m')
  /\ (forall w n r, ws_of tb w -> 0 <= n -> rollforward tb w n d (Some s) = Ok r ->
        exists r', rollforward tb w n d' (Some s') = Ok r' /\ ws_loc w <= ws_loc r' <= ws_loc r)
  /\ (forall w n r, ws_of tb w -> 0 <= n -> rollback tb w n d (Some s) = Ok r ->
        exists r', rollback tb w n d' (Some s') = Ok r' /\ ws_loc r <= ws_loc r' <= ws_loc w).
Proof.
  intros L tb s d s' d' Hr Hs Hs' Hd Hd' Hc. pose proof (reachable_wf tb Hr) as (W & _).
  assert (A : forall t : schedule L, Some s = Some t -> sched_for tb t) by (intros t [= <-]; exact Hs).
  assert (A' : forall t : schedule L, Some s' = Some t -> sched_for tb t) by (intros t [= <-]; exact Hs').
  split; [|split].
  - intros iv Hiv.
    destruct (C25_queries_pf L tb iv d (Some s) Hr Hiv Hd A) as ((ws & E1 & F1) & N1 & _).
    destruct (C25_queries_pf L tb iv d' (Some s') Hr Hiv Hd' A') as ((ws' & E2 & F2) & N2 & _). cbn [sched_arg] in *.
    pose proof (total_duration_ok tb W iv d (Some s) Hiv Hd Hs) as T1. pose proof (total_duration_ok tb W iv d' (Some s') Hiv Hd' Hs') as T2. cbn [sched_arg] in *.
    pose proof (Forall2_len _ _ _ F1) as L1. pose proof (Forall2_len _ _ _ F2) as L2.
    assert (X : forall h, (forall i, is_shift tb i -> 0 <= h i) -> z_total (map h (iv_list tb iv d s)) <= z_total (map h (iv_list tb iv d' s'))).
    { intros h Hh. unfold iv_list. destruct (iv_void iv) eqn:Ev; [apply Z.le_refl|]. unfold duty_list.
      assert (B : forall i, In i (positions (iv_a iv) (iv_b iv)) -> is_shift tb i).
      { intros i Hi. apply positions_In in Hi. destruct Hiv as (_ & Ha & Hb & _). unfold is_shift in *. lia. }
      apply z_total_filter; intros i Hi; [apply Hc|apply Hh]; apply B; exact Hi. }
    exists ws, ws'. eexists _, _. split; [exact E1|]. split; [exact E2|]. split.
    + intros y Hy. apply (places tb s _ _ F1) in Hy. apply (places tb s' _ _ F2). destruct Hy as (i & Hi & Hy). exists i. split; [|exact Hy].
      pose proof (iv_list_shifts tb iv d s i Hiv Hi) as Hsh. unfold iv_list in *. destruct (iv_void iv); [destruct Hi|].
      apply duty_list_In in Hi. apply duty_list_In. split; [apply Hi|]. apply Hc; [exact Hsh|apply Hi].
    + rewrite <- L1, <- L2. split; [exact N1|]. split; [exact N2|]. split.
      * pose proof (X (fun _ => 1) ltac:(intros; lia)) as H. rewrite <- !zlen_total in H. unfold zlen in H. lia.
      * split; [exact T1|]. split; [exact T2|]. apply X. intros i Hi. unfold is_shift, tb_len in Hi. pose proof (bnd_lt _ W i (i + 1) ltac:(lia) ltac:(lia) ltac:(lia)). lia.
  - intros w n r Hw Hn E. destruct (plain_resolve tb s (ws_loc w) d Hd) as (R1 & B1). destruct (plain_resolve tb s' (ws_loc w) d' Hd') as (R2 & B2).
    destruct (C17_rollforward_pf L tb w n d (Some s) Hr Hw B1 A) as (H1 & _). destruct (C17_rollforward_pf L tb w n d' (Some s') Hr Hw B2 A') as (H2 & H3).
    cbn [sched_arg] in *. rewrite R1 in H1. rewrite R2 in H2, H3. destruct (H1 r E) as (T & _).
    destruct (cov_forward tb s s' d d' Hc _ n _ (proj1 Hw) Hn T) as (q' & T' & Hq').
    destruct (rollforward tb w n d' (Some s')) as [r'|e]; [|destruct (H3 e eq_refl) as (_ & F); destruct (F q' T')].
    exists r'. split; [reflexivity|]. destruct (H2 r' eq_refl) as (_ & U & _). rewrite <- (U q' T'). exact Hq'.
  - intros w n r Hw Hn E. destruct (plain_resolve tb s (ws_loc w) d Hd) as (R1 & B1). destruct (plain_resolve tb s' (ws_loc w) d' Hd') as (R2 & B2).
    destruct (C18_rollback_pf L tb w n d (Some s) Hr Hw B1 A) as (H1 & _). destruct (C18_rollback_pf L tb w n d' (Some s') Hr Hw B2 A') as (H2 & H3).
    cbn [sched_arg] in *. rewrite R1 in H1. rewrite R2 in H2, H3. destruct (H1 r E) as (T & _).
    destruct (cov_back tb s s' d d' Hc _ n _ (proj1 Hw) Hn T) as (q' & T' & Hq').
    destruct (rollback tb w n d' (Some s')) as [r'|e]; [|destruct (H3 e eq_refl) as (_ & F); destruct (F q' T')].
    exists r'. split; [reflexivity|]. destruct (H2 r' eq_refl) as (_ & U & _). rewrite <- (U q' T'). exact Hq'.
Qed.
