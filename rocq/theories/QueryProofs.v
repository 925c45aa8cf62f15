(** Proofs of C25-C28 and C31. *)
From Verif Require Import Base BaseProofs Civil Freq FreqProofs Frame FrameProofs Timeline TimelineProofs Board Spec BoardProofs SpecRoll SpecQuery.
From Coq Require Import ZifyBool ZifyNat QArith Qfield Lqa.
Open Scope Z_scope.
Ltac Zify.zify_post_hook ::= Z.div_mod_to_equations.

Lemma filter_prefix_count {A} (p : A -> bool) l : forall m, 0 <= m <= zlen l ->
  (forall i y, znth l i = Some y -> p y = (i <? m)) -> zlen (filter p l) = m.
Proof.
  induction l as [|x l IH]; intros m Hm H.
  - znil. cbn. lia.
  - rewrite zlen_cons in Hm. pose proof (H 0 x eq_refl) as Hx. cbn [filter]. rewrite Hx.
    assert (Ht : forall i y, znth l i = Some y -> p y = (i <? m - 1)).
    { intros i y Hi. pose proof (znth_range _ _ _ Hi) as R.
      rewrite (H (i + 1) y); [lia|]. rewrite znth_cons by lia. replace (i + 1 - 1) with i by lia. exact Hi. }
    destruct (0 <? m) eqn:E.
    + rewrite zlen_cons, (IH (m - 1)); [lia|lia|exact Ht].
    + assert (m = 0) by lia. subst m. rewrite filter_none; [reflexivity|]. intros y Hy. apply In_znth in Hy.
      destruct Hy as [i Hi]. rewrite (Ht i y Hi). pose proof (znth_range _ _ _ Hi). lia.
Qed.

Section WfQ.
  Context {L : Type} (tb : timeboard L) (W : tl_wf (tb_tl tb)).

  Lemma band_duration_ok k : is_shift tb k ->
    ws_band_duration (tb_tl tb) k = Ok (bnd (tb_tl tb) (k + 1) - bnd (tb_tl tb) k).
  Proof.
    intros Hk. unfold is_shift in Hk. unfold ws_band_duration. rewrite (ws_first_ok _ k Hk). cbn [bind]. f_equal.
    pose proof (wf_band_len _ W) as Hl.
    pose proof (bnd_range _ W k Hk) as Hb.
    assert (Hb2 : bnd (tb_tl tb) k < bnd (tb_tl tb) (k + 1)) by (apply (bnd_lt _ W); change (tl_len (tb_tl tb)) with (tb_len tb); lia).
    assert (Hb3 : bnd (tb_tl tb) (k + 1) <= zlen (tl_band (tb_tl tb))).
    { rewrite Hl. rewrite <- (bnd_end (tb_tl tb)). apply (bnd_le _ W); change (tl_len (tb_tl tb)) with (tb_len tb); lia. }
    assert (Hval : forall u v, znth (tl_band (tb_tl tb)) u = Some v ->
              exists j, is_shift tb j /\ v = bnd (tb_tl tb) j /\ bnd (tb_tl tb) j <= u < bnd (tb_tl tb) (j + 1)).
    { intros u v Hv. pose proof (znth_range _ _ _ Hv) as R. rewrite Hl in R.
      destruct (bnd_cover _ W u R) as (j & Hj & Hju). exists j. split; [exact Hj|].
      rewrite (band_ok _ W u j Hj Hju) in Hv. split; [congruence|exact Hju]. }
    f_equal.
    - unfold ss_right. apply filter_prefix_count; [lia|]. intros u v Hv.
      destruct (Hval u v Hv) as (j & Hj & -> & Hju). unfold is_shift in Hj.
      destruct (Z.lt_ge_cases k j) as [Hlt|Hge].
      + pose proof (bnd_le _ W (k + 1) j) as H1. change (tl_len (tb_tl tb)) with (tb_len tb) in H1. lia.
      + pose proof (bnd_le _ W j k) as H1. pose proof (bnd_le _ W (j + 1) (k + 1)) as H2.
        change (tl_len (tb_tl tb)) with (tb_len tb) in H1, H2. lia.
    - unfold ss_left. apply filter_prefix_count; [lia|]. intros u v Hv.
      destruct (Hval u v Hv) as (j & Hj & -> & Hju). unfold is_shift in Hj.
      destruct (Z.lt_ge_cases j k) as [Hlt|Hge].
      + pose proof (bnd_le _ W (j + 1) k) as H1. pose proof (bnd_lt _ W j k) as H2.
        change (tl_len (tb_tl tb)) with (tb_len tb) in H1, H2. lia.
      + pose proof (bnd_le _ W k j) as H1. change (tl_len (tb_tl tb)) with (tb_len tb) in H1. lia.
  Qed.

  Lemma iv_list_shifts iv d s i : iv_of tb iv -> In i (iv_list tb iv d s) -> is_shift tb i.
  Proof.
    intros (_ & Ha & Hb & _). unfold iv_list. destruct (iv_void iv); [contradiction|]. rewrite duty_list_In.
    unfold is_shift in *. lia.
  Qed.

  Lemma iv_count_ok (iv : interval L) d s : iv_of tb iv -> ivl_duty d -> sched_for tb (sched_arg s (iv_sched iv)) ->
    iv_count iv d s = Ok (zlen (iv_list tb iv d (sched_arg s (iv_sched iv)))).
  Proof.
    intros (_ & Ha & Hb & Hab) Hd Hs. unfold iv_count, iv_list. destruct (iv_void iv); [reflexivity|]. cbv zeta.
    replace (opt_or s (iv_sched iv)) with (sched_arg s (iv_sched iv)) by (destruct s; reflexivity).
    destruct (get_duty_idx_ok tb W iv d _ Hs Ha Hb Hab Hd) as (l & r & -> & H1 & H2 & H3 & H4). cbn [bind snd].
    rewrite <- H4.
    pose proof (duty_count_nonneg tb (sched_arg s (iv_sched iv)) d (iv_a iv) (iv_b iv)) as Hn.
    rewrite H4. fold (duty_count tb (sched_arg s (iv_sched iv)) d (iv_a iv) (iv_b iv)).
    destruct (l <? r) eqn:E; f_equal; lia.
  Qed.

  Lemma iv_workshifts_ok (iv : interval L) d s : iv_of tb iv -> ivl_duty d -> sched_for tb (sched_arg s (iv_sched iv)) ->
    iv_workshifts tb iv d s =
    mapM (fun i => new_workshift tb i (sched_arg s (iv_sched iv))) (iv_list tb iv d (sched_arg s (iv_sched iv))).
  Proof.
    intros (_ & Ha & Hb & Hab) Hd Hs. unfold iv_workshifts, iv_list. destruct (iv_void iv); [reflexivity|]. cbv zeta.
    replace (opt_or s (iv_sched iv)) with (sched_arg s (iv_sched iv)) by (destruct s; reflexivity).
    destruct (get_duty_idx_ok tb W iv d _ Hs Ha Hb Hab Hd) as (l & r & -> & H1 & H2 & H3 & H4). cbn [bind snd fst].
    destruct (l <? r) eqn:E.
    - replace (r - 1 + 1) with r by lia. rewrite H4. reflexivity.
    - pose proof (duty_count_nonneg tb (sched_arg s (iv_sched iv)) d (iv_a iv) (iv_b iv)) as Hn.
      assert (Hz : duty_list tb (sched_arg s (iv_sched iv)) d (iv_a iv) (iv_b iv) = []).
      { apply zlen_zero. fold (duty_count tb (sched_arg s (iv_sched iv)) d (iv_a iv) (iv_b iv)). lia. }
      rewrite Hz. reflexivity.
  Qed.

  Lemma mapM_shifts s l : (forall i, In i l -> is_shift tb i) ->
    exists ws, mapM (fun i => new_workshift tb i s) l = Ok ws /\ Forall2 (the_shift tb s) l ws.
  Proof.
    induction l as [|i l IH]; intros H; cbn [mapM]; [exists []; split; [reflexivity|constructor]|].
    destruct (new_workshift_ok tb W i s (H i (or_introl eq_refl))) as (x & Hx & ->). cbn [bind].
    destruct IH as (ws & -> & H2); [intros j Hj; apply H; right; exact Hj|]. cbn [bind].
    exists (mkWs i x s :: ws). split; [reflexivity|]. constructor; [|exact H2]. repeat split. exact Hx.
  Qed.

  Lemma at_index_znth {A} (l : list A) n i : at_index l n i <-> znth l (if 0 <=? n then n else zlen l + n) = Some i.
  Proof.
    unfold at_index, znth, zlen. destruct (0 <=? n) eqn:E.
    - destruct (n <? 0) eqn:E2; [lia|]. split; [intros [H|H]; [apply H|lia]|intros H; left; split; [lia|exact H]].
    - destruct (Z.of_nat (length l) + n <? 0) eqn:E2.
      + split; [intros [H|H]; lia|discriminate].
      + split; [intros [H|H]; [lia|apply H]|intros H; right; split; [lia|split; [lia|exact H]]].
  Qed.

  Lemma iv_nth_ok (iv : interval L) n d s : iv_of tb iv -> ivl_duty d -> sched_for tb (sched_arg s (iv_sched iv)) ->
    let s' := sched_arg s (iv_sched iv) in
    (forall i, at_index (iv_list tb iv d s') n i -> exists w, iv_nth tb iv n d s = Ok w /\ the_shift tb s' i w)
    /\ ((forall i, ~ at_index (iv_list tb iv d s') n i) -> iv_nth tb iv n d s = Err EOutOfBounds).
  Proof.
    intros Hiv Hd Hs s'. pose proof Hiv as (_ & Ha & Hb & Hab).
    set (l0 := iv_list tb iv d s'). set (k0 := if 0 <=? n then n else zlen l0 + n).
    assert (G : iv_nth tb iv n d s = match znth l0 k0 with Some i => new_workshift tb i s' | None => Err EOutOfBounds end).
    { unfold iv_nth. destruct (iv_void iv) eqn:Ev.
      { assert (E0 : l0 = []) by (unfold l0, iv_list; rewrite Ev; reflexivity).
        rewrite E0, znth_none; [reflexivity|]. znil. lia. }
      cbv zeta. replace (opt_or s (iv_sched iv)) with s' by (unfold s'; destruct s; reflexivity).
      destruct (get_duty_idx_ok tb W iv d s' Hs Ha Hb Hab Hd) as (l & r & -> & H1 & H2 & H3 & H4). cbn [bind snd fst].
      assert (E0 : l0 = py_slice (duty_idx s' d) l r) by (unfold l0, iv_list; rewrite Ev; symmetry; exact H4).
      assert (Hl : zlen l0 = r - l) by (rewrite E0, H4; symmetry; exact H3).
      pose proof (zlen_nonneg l0) as Hn.
      destruct (l <? r) eqn:E.
      2:{ rewrite znth_none; [reflexivity|]. unfold k0. destruct (0 <=? n) eqn:E2; lia. }
      set (k := if 0 <=? n then l + n else r - 1 + n + 1).
      assert (Hkk : k = l + k0) by (unfold k, k0; destruct (0 <=? n); lia).
      destruct ((k <? l) || (r - 1 <? k)) eqn:E2.
      { rewrite znth_none; [reflexivity|]. lia. }
      rewrite E0, py_slice_znth by lia. rewrite <- Hkk.
      destruct (znth_ex (duty_idx s' d) k ltac:(lia)) as [i Hi]. rewrite Hi.
      replace (py_get_res (duty_idx s' d) k) with (Ok i) by (symmetry; apply py_get_res_ok; [lia|exact Hi]).
      reflexivity. }
    split.
    - intros i Hi. apply at_index_znth in Hi. fold l0 in Hi. fold k0 in Hi. rewrite G, Hi.
      destruct (new_workshift_ok tb W i s') as (x & Hx & ->).
      { apply (iv_list_shifts iv d s'); [exact Hiv|]. apply znth_In in Hi. exact Hi. }
      exists (mkWs i x s'). split; [reflexivity|]. repeat split. exact Hx.
    - intros Hno. rewrite G. destruct (znth l0 k0) as [i|] eqn:E; [|reflexivity].
      exfalso. apply (Hno i), at_index_znth. exact E.
  Qed.
End WfQ.

Lemma iv_sched_for {L} (tb : timeboard L) iv s : iv_of tb iv -> (forall s', s = Some s' -> sched_for tb s') ->
  sched_for tb (sched_arg s (iv_sched iv)).
Proof. intros (H & _) Hs. destruct s as [s'|]; cbn; [apply Hs; reflexivity|exact H]. Qed.

Lemma C25_queries_pf : forall (L : Type) (tb : timeboard L) (iv : interval L) d s,
  reachable tb -> iv_of tb iv -> d = DOn \/ d = DOff \/ d = DAny -> (forall s', s = Some s' -> sched_for tb s') ->
  let s' := sched_arg s (iv_sched iv) in
  let l := iv_list tb iv d s' in
  (exists ws, iv_workshifts tb iv d s = Ok ws /\ Forall2 (the_shift tb s') l ws)
  /\ iv_count iv d s = Ok (Z.of_nat (length l))
  /\ (forall n i, at_index l n i -> exists w, iv_nth tb iv n d s = Ok w /\ the_shift tb s' i w)
  /\ (forall n, (forall i, ~ at_index l n i) -> iv_nth tb iv n d s = Err EOutOfBounds)
  /\ (forall i, hd_error l = Some i -> exists w, iv_first tb iv d s = Ok w /\ the_shift tb s' i w)
  /\ (forall i, hd_error (rev l) = Some i -> exists w, iv_last tb iv d s = Ok w /\ the_shift tb s' i w)
  /\ (l = [] -> iv_first tb iv d s = Err EOutOfBounds /\ iv_last tb iv d s = Err EOutOfBounds).
Proof.
  intros L tb iv d s Hr Hiv Hd Hs s' l. apply reachable_wf in Hr. destruct Hr as (W & _ & _).
  pose proof (iv_sched_for tb iv s Hiv Hs) as Hsa. fold s' in Hsa.
  split.
  { rewrite (iv_workshifts_ok tb W iv d s Hiv Hd Hsa). apply (mapM_shifts tb W). intros i. apply (iv_list_shifts tb iv d s' i Hiv). }
  split; [apply (iv_count_ok tb W iv d s Hiv Hd Hsa)|].
  assert (HN : forall n, (forall i, at_index l n i -> exists w, iv_nth tb iv n d s = Ok w /\ the_shift tb s' i w)
    /\ ((forall i, ~ at_index l n i) -> iv_nth tb iv n d s = Err EOutOfBounds)).
  { intros n. apply (iv_nth_ok tb W iv n d s Hiv Hd Hsa). }
  split; [intros n; apply HN|]. split; [intros n; apply HN|].
  split; [|split].
  - intros i Hi. apply (proj1 (HN 0)). left. split; [lia|]. destruct l; [discriminate|]. exact Hi.
  - intros i Hi. apply (proj1 (HN (-1))). right. split; [lia|].
    destruct l as [|x l0] eqn:El; [discriminate|]. cbn [length]. split; [lia|].
    destruct (exists_last (l := x :: l0)) as (m & y & E); [discriminate|]. rewrite E in Hi |- *.
    rewrite rev_app_distr in Hi. cbn in Hi. injection Hi as ->.
    assert (Hlen : length (x :: l0) = S (length m)) by (rewrite E, app_length; cbn; lia).
    cbn [length] in Hlen. rewrite nth_error_app2 by lia.
    replace (Z.to_nat (Z.of_nat (S (length l0)) + -1) - length m)%nat with 0%nat by lia. reflexivity.
  - intros El. split; [apply (proj2 (HN 0))|apply (proj2 (HN (-1)))]; intros i Hi; rewrite El in Hi;
      apply at_index_znth in Hi; rewrite znth_none in Hi; try discriminate; znil; cbn; lia.
Qed.

Lemma C25_bad_duty_pf : forall (L : Type) (tb : timeboard L) (iv : interval L) d s n,
  iv_void iv = false -> ~ (d = DOn \/ d = DOff \/ d = DAny) ->
  iv_workshifts tb iv d s = Err EValue /\ iv_count iv d s = Err EValue /\ iv_nth tb iv n d s = Err EValue
  /\ total_duration tb iv d s = Err EValue.
Proof.
  intros L tb iv d s n Hv Hd. unfold iv_workshifts, iv_count, iv_nth, total_duration. rewrite Hv. cbv zeta.
  rewrite get_duty_idx_bad by exact Hd. cbn [bind]. auto.
Qed.

(** ** C26 *)
Lemma total_duration_ok {L} (tb : timeboard L) (W : tl_wf (tb_tl tb)) (iv : interval L) d s :
  iv_of tb iv -> ivl_duty d -> sched_for tb (sched_arg s (iv_sched iv)) ->
  total_duration tb iv d s = Ok (z_total (map (fun i => bnd (tb_tl tb) (i + 1) - bnd (tb_tl tb) i)
                                         (iv_list tb iv d (sched_arg s (iv_sched iv))))).
Proof.
  intros Hiv Hd Hs. pose proof Hiv as (_ & Ha & Hb & Hab).
  unfold total_duration. set (s' := sched_arg s (iv_sched iv)) in *.
  destruct (iv_void iv) eqn:Ev; [unfold iv_list; rewrite Ev; reflexivity|]. cbv zeta.
  replace (opt_or s (iv_sched iv)) with s' by (unfold s'; destruct s; reflexivity).
  destruct (get_duty_idx_ok tb W iv d s' Hs Ha Hb Hab Hd) as (l & r & -> & H1 & H2 & H3 & H4). cbn [bind snd fst].
  assert (El : iv_list tb iv d s' = duty_list tb s' d (iv_a iv) (iv_b iv)) by (unfold iv_list; rewrite Ev; reflexivity).
  destruct (l <? r) eqn:E.
  - replace (r - 1 + 1) with r by lia. rewrite H4, <- El.
    rewrite (mapM_ok_map _ (fun i => bnd (tb_tl tb) (i + 1) - bnd (tb_tl tb) i)).
    + cbn [bind]. reflexivity.
    + intros i Hi. apply (band_duration_ok tb W). apply (iv_list_shifts tb iv d s'); assumption.
  - assert (Hz : iv_list tb iv d s' = []).
    { rewrite El. apply zlen_zero. fold (duty_count tb s' d (iv_a iv) (iv_b iv)).
      pose proof (duty_count_nonneg tb s' d (iv_a iv) (iv_b iv)). lia. }
    rewrite Hz. reflexivity.
Qed.
Lemma z_total_app l m : z_total (l ++ m) = z_total l + z_total m.
Proof. induction l as [|x l IH]; [reflexivity|]. cbn [app z_total fold_right] in *. unfold z_total in *. lia. Qed.
Lemma filter_negb_len {A} (p : A -> bool) l : (length (filter p l) + length (filter (fun x => negb (p x)) l) = length l)%nat.
Proof. induction l as [|x l IH]; [reflexivity|]. cbn [filter]. destruct (p x); cbn [negb length]; lia. Qed.

Lemma C26_on_off_pf : forall (L : Type) (tb : timeboard L) (iv : interval L) s,
  reachable tb -> iv_of tb iv -> (forall s', s = Some s' -> sched_for tb s') ->
  exists on off, iv_count iv DOn s = Ok on /\ iv_count iv DOff s = Ok off
    /\ iv_count iv DAny s = Ok (on + off) /\ iv_length iv = on + off
    /\ (iv_length iv = 0 <-> iv_void iv = true).
Proof.
  intros L tb iv s Hr Hiv Hs. apply reachable_wf in Hr. destruct Hr as (W & _ & _).
  pose proof (iv_sched_for tb iv s Hiv Hs) as Hsa. set (s' := sched_arg s (iv_sched iv)) in *.
  rewrite (iv_count_ok tb W iv DOn s Hiv ltac:(left; reflexivity) Hsa).
  rewrite (iv_count_ok tb W iv DOff s Hiv ltac:(right; left; reflexivity) Hsa).
  rewrite (iv_count_ok tb W iv DAny s Hiv ltac:(right; right; reflexivity) Hsa). fold s'.
  eexists _, _. split; [reflexivity|]. split; [reflexivity|].
  destruct Hiv as (_ & Ha & Hb & Hab). unfold iv_length, iv_list. destruct (iv_void iv) eqn:Ev; [repeat split; reflexivity|].
  assert (E : zlen (duty_list tb s' DAny (iv_a iv) (iv_b iv))
     = zlen (duty_list tb s' DOn (iv_a iv) (iv_b iv)) + zlen (duty_list tb s' DOff (iv_a iv) (iv_b iv))).
  { rewrite duty_list_any. unfold duty_list.
    pose proof (filter_negb_len (on_duty tb s') (positions (iv_a iv) (iv_b iv))) as Hf.
    change (filter (has_duty tb s' DOn)) with (filter (on_duty tb s')).
    change (filter (has_duty tb s' DOff)) with (filter (fun x => negb (on_duty tb s' x))). unfold zlen. lia. }
  rewrite <- E. split; [reflexivity|]. rewrite duty_list_any, zlen_positions by lia. split; [lia|].
  split; [lia|discriminate].
Qed.

Lemma C26_pieces_pf : forall (L : Type) (tb : timeboard L) (x y z : interval L) d s,
  reachable tb -> iv_of tb x -> iv_of tb y -> iv_of tb z -> pieces x y z ->
  d = DOn \/ d = DOff \/ d = DAny -> sched_for tb s ->
  exists cx cy dx dy, iv_count x d (Some s) = Ok cx /\ iv_count y d (Some s) = Ok cy
    /\ iv_count z d (Some s) = Ok (cx + cy)
    /\ total_duration tb x d (Some s) = Ok dx /\ total_duration tb y d (Some s) = Ok dy
    /\ total_duration tb z d (Some s) = Ok (dx + dy).
Proof.
  intros L tb x y z d s Hr Hx Hy Hz (V1 & V2 & V3 & E1 & E2 & E3) Hd Hs. apply reachable_wf in Hr. destruct Hr as (W & _ & _).
  assert (El : iv_list tb z d s = iv_list tb x d s ++ iv_list tb y d s).
  { unfold iv_list. rewrite V1, V2, V3. rewrite <- E1, <- E3, <- E2.
    destruct Hx as (_ & _ & _ & Hx). destruct Hy as (_ & _ & _ & Hy). rewrite V1 in Hx. rewrite V2 in Hy.
    apply duty_list_split; lia. }
  rewrite (iv_count_ok tb W x d (Some s) Hx Hd Hs), (iv_count_ok tb W y d (Some s) Hy Hd Hs), (iv_count_ok tb W z d (Some s) Hz Hd Hs).
  rewrite (total_duration_ok tb W x d (Some s) Hx Hd Hs), (total_duration_ok tb W y d (Some s) Hy Hd Hs), (total_duration_ok tb W z d (Some s) Hz Hd Hs).
  cbn [sched_arg]. rewrite El, map_app, z_total_app, zlen_app. eexists _, _, _, _. repeat split; reflexivity.
Qed.

(** ** C27 *)
Lemma overlap_ok {L} (tb : timeboard L) (x y : interval L) s : iv_of tb x -> iv_of tb y ->
  sched_for tb (sched_arg s (iv_sched x)) ->
  exists z, iv_overlap tb x y s = Ok z /\ iv_of tb z /\ iv_sched z = sched_arg s (iv_sched x)
    /\ (forall i, iv_mem z i <-> iv_mem x i /\ iv_mem y i)
    /\ (iv_void z = true <-> forall i, ~ (iv_mem x i /\ iv_mem y i)).
Proof.
  intros Hx Hy Hs. pose proof Hx as (_ & Ax & Bx & ABx). pose proof Hy as (_ & Ay & By & ABy).
  unfold iv_overlap. set (s' := sched_arg s (iv_sched x)) in *. cbv zeta.
  replace (opt_or s (iv_sched x)) with s' by (unfold s'; destruct s; reflexivity).
  unfold new_interval, new_void_interval, in_bounds. unfold is_shift in *.
  destruct (iv_void x) eqn:Vx.
  - destruct ((0 <=? iv_a x) && (iv_a x <? tb_len tb)) eqn:E1; [|lia]. cbn [negb].
    destruct ((0 <=? iv_b x) && (iv_b x <? tb_len tb)) eqn:E2; [|lia]. cbn [negb].
    destruct (iv_a x <=? iv_b x) eqn:E3; [lia|]. eexists. split; [reflexivity|].
    unfold iv_of, iv_mem, is_shift. cbn [iv_a iv_b iv_void iv_sched]. rewrite Vx.
    split; [repeat split; try assumption; lia|]. split; [reflexivity|].
    split; [intuition discriminate|]. split; [intros _ i (H & _); destruct H; discriminate|reflexivity].
  - set (a := Z.max (iv_a x) (iv_a y)). set (b := Z.min (iv_b x) (iv_b y)).
    destruct ((0 <=? a) && (a <? tb_len tb)) eqn:E1; [|lia]. cbn [negb].
    destruct ((0 <=? b) && (b <? tb_len tb)) eqn:E2; [|lia]. cbn [negb].
    destruct (b <? a) eqn:E3.
    + destruct (a <=? b) eqn:E4; [lia|]. eexists. split; [reflexivity|].
      unfold iv_of, iv_mem, is_shift. cbn [iv_a iv_b iv_void iv_sched]. rewrite Vx.
      split; [repeat split; try assumption; lia|]. split; [reflexivity|].
      split; [|split; [intros _|reflexivity]].
      * intros i. split; [intuition discriminate|]. intros ((_ & H1) & (_ & H2)). lia.
      * intros i ((_ & H1) & (_ & H2)). lia.
    + assert (Vy : iv_void y = false) by (destruct (iv_void y); [lia|reflexivity]).
      eexists. split; [reflexivity|].
      unfold iv_of, iv_mem, is_shift. cbn [iv_a iv_b iv_void iv_sched]. rewrite Vx, Vy.
      split; [repeat split; try assumption; lia|]. split; [reflexivity|].
      split; [|split; [discriminate|]].
      * intros i. intuition lia.
      * intros H. exfalso. apply (H a). repeat split; lia.
Qed.

Lemma C27_overlap_pf : forall (L : Type) (tb : timeboard L) (x y : interval L) s,
  reachable tb -> iv_of tb x -> iv_of tb y -> (forall s', s = Some s' -> sched_for tb s') ->
  exists z, iv_overlap tb x y s = Ok z /\ iv_of tb z /\ iv_sched z = sched_arg s (iv_sched x)
    /\ (forall i, iv_mem z i <-> iv_mem x i /\ iv_mem y i)
    /\ (iv_void z = true <-> forall i, ~ (iv_mem x i /\ iv_mem y i))
    /\ (iv_void z = true -> iv_length z = 0
        /\ forall d s2, iv_count z d s2 = Ok 0 /\ iv_workshifts tb z d s2 = Ok []).
Proof.
  intros L tb x y s _ Hx Hy Hs. destruct (overlap_ok tb x y s Hx Hy (iv_sched_for tb x s Hx Hs)) as (z & H1 & H2 & H3 & H4 & H5).
  exists z. repeat (split; [assumption|]). intros Hv. unfold iv_length, iv_count, iv_workshifts. rewrite Hv.
  repeat split.
Qed.

Lemma C27_algebra_pf : forall (L : Type) (tb : timeboard L) (x y w : interval L) s,
  reachable tb -> iv_of tb x -> iv_of tb y -> iv_of tb w -> (forall s', s = Some s' -> sched_for tb s') ->
  (exists z z', iv_overlap tb x y s = Ok z /\ iv_overlap tb y x s = Ok z' /\ forall i, iv_mem z i <-> iv_mem z' i)
  /\ (exists z, iv_overlap tb x x s = Ok z /\ forall i, iv_mem z i <-> iv_mem x i)
  /\ (exists z z', (do v <- iv_overlap tb x y s; iv_overlap tb v w s) = Ok z
        /\ (do v <- iv_overlap tb y w s; iv_overlap tb x v s) = Ok z' /\ forall i, iv_mem z i <-> iv_mem z' i).
Proof.
  intros L tb x y w s _ Hx Hy Hw Hs.
  assert (O : forall a b, iv_of tb a -> iv_of tb b -> exists z, iv_overlap tb a b s = Ok z /\ iv_of tb z
     /\ forall i, iv_mem z i <-> iv_mem a i /\ iv_mem b i).
  { intros a b Ha Hb. destruct (overlap_ok tb a b s Ha Hb (iv_sched_for tb a s Ha Hs)) as (z & H1 & H2 & _ & H4 & _).
    exists z. auto. }
  destruct (O x y Hx Hy) as (xy & E1 & I1 & M1). destruct (O y x Hy Hx) as (yx & E2 & I2 & M2).
  destruct (O x x Hx Hx) as (xx & E3 & I3 & M3). destruct (O y w Hy Hw) as (yw & E4 & I4 & M4).
  destruct (O xy w I1 Hw) as (l & E5 & I5 & M5). destruct (O x yw Hx I4) as (r & E6 & I6 & M6).
  split; [exists xy, yx; split; [exact E1|]; split; [exact E2|]; intros i; rewrite M1, M2; tauto|].
  split; [exists xx; split; [exact E3|]; intros i; rewrite M3; tauto|].
  exists l, r. rewrite E1, E4. cbn [bind]. split; [exact E5|]. split; [exact E6|].
  intros i. rewrite M5, M1, M6, M4. tauto.
Qed.

(** ** C28 *)
Lemma iv_list_mem {L} (tb : timeboard L) (iv : interval L) d s i :
  In i (iv_list tb iv d s) <-> iv_mem iv i /\ has_duty tb s d i = true.
Proof.
  unfold iv_list, iv_mem. destruct (iv_void iv).
  - cbn [In]. intuition discriminate.
  - rewrite duty_list_In. tauto.
Qed.
Lemma iv_list_asc {L} (tb : timeboard L) (iv : interval L) d s : asc (iv_list tb iv d s).
Proof. unfold iv_list. destruct (iv_void iv); [constructor|apply duty_list_asc]. Qed.
Lemma asc_incl_le l m : asc l -> (forall i, In i l -> In i m) -> zlen l <= zlen m.
Proof.
  intros H Hi. assert (Hn : NoDup l).
  { clear Hi. induction H as [|a l Hs IH Hf]; constructor; [|exact IH]. intros Hin. rewrite Forall_forall in Hf.
    specialize (Hf _ Hin). lia. }
  pose proof (NoDup_incl_length Hn Hi). unfold zlen. lia.
Qed.

Lemma portion_by {L} (tb : timeboard L) (W : tl_wf (tb_tl tb)) (x y : interval L) d s :
  iv_of tb x -> iv_of tb y -> ivl_duty d -> sched_for tb (sched_arg s (iv_sched x)) ->
  exists z, iv_overlap tb x y s = Ok z /\ iv_of tb z /\ (forall i, iv_mem z i <-> iv_mem x i /\ iv_mem y i) /\
  let s' := sched_arg s (iv_sched x) in
  let cz := zlen (iv_list tb z d s') in let cy := zlen (iv_list tb y d s') in
  iv_count z d (Some s') = Ok cz /\ iv_count y d (Some s') = Ok cy /\ 0 <= cz <= cy /\
  forall div, what_portion_by div tb x y d s = if cz =? 0 then Ok 0%Q else div cz cy.
Proof.
  intros Hx Hy Hd Hs. destruct (overlap_ok tb x y s Hx Hy Hs) as (z & H1 & H2 & H3 & H4 & H5).
  exists z. split; [exact H1|]. split; [exact H2|]. split; [exact H4|]. intros s' cz cy.
  assert (C1 : iv_count z d (Some s') = Ok cz) by (apply (iv_count_ok tb W z d (Some s') H2 Hd Hs)).
  assert (C2 : iv_count y d (Some s') = Ok cy) by (apply (iv_count_ok tb W y d (Some s') Hy Hd Hs)).
  assert (Hle : 0 <= cz <= cy).
  { split; [apply zlen_nonneg|]. apply asc_incl_le; [apply iv_list_asc|]. intros i. rewrite !iv_list_mem, H4. tauto. }
  repeat (split; [assumption|]). intros div. unfold what_portion_by. destruct (iv_void x) eqn:Vx.
  - assert (Hz : cz = 0).
    { unfold cz, iv_list. replace (iv_void z) with true; [reflexivity|]. symmetry. apply H5. intros i ((Hv & _) & _). congruence. }
    rewrite Hz. reflexivity.
  - cbv zeta. replace (opt_or s (iv_sched x)) with s' by (unfold s'; destruct s; reflexivity).
    assert (Ho : iv_overlap tb x y (Some s') = Ok z).
    { rewrite <- H1. unfold iv_overlap, s'. destruct s; reflexivity. }
    rewrite Ho. cbn [bind].
    assert (C3 : iv_count z d None = Ok cz).
    { rewrite <- C1. unfold iv_count. rewrite H3. reflexivity. }
    rewrite C3. cbn [bind]. destruct (cz =? 0) eqn:E; [reflexivity|]. rewrite C2. reflexivity.
Qed.

Lemma portion_ok {L} (tb : timeboard L) (W : tl_wf (tb_tl tb)) (x y : interval L) d s :
  iv_of tb x -> iv_of tb y -> ivl_duty d -> sched_for tb (sched_arg s (iv_sched x)) ->
  exists z, iv_overlap tb x y s = Ok z /\ iv_of tb z /\ (forall i, iv_mem z i <-> iv_mem x i /\ iv_mem y i) /\
  let s' := sched_arg s (iv_sched x) in
  let cz := zlen (iv_list tb z d s') in let cy := zlen (iv_list tb y d s') in
  iv_count z d (Some s') = Ok cz /\ iv_count y d (Some s') = Ok cy /\ 0 <= cz <= cy /\
  exists q, what_portion_of tb x y d s = Ok q /\ (q * inject_Z cy == inject_Z cz)%Q /\ (cz = 0 -> (q == 0)%Q).
Proof.
  intros Hx Hy Hd Hs. destruct (portion_by tb W x y d s Hx Hy Hd Hs) as (z & H1 & H2 & H3 & C1 & C2 & Hle & Hq).
  exists z. split; [exact H1|]. split; [exact H2|]. split; [exact H3|]. intros s' cz cy. repeat (split; [assumption|]).
  unfold what_portion_of. rewrite Hq. fold s' cz cy. fold s' in Hle. fold cz cy in Hle. destruct (cz =? 0) eqn:E.
  - exists 0%Q. split; [reflexivity|]. replace cz with 0 by lia. split; [ring|reflexivity].
  - unfold q_div. destruct (cy =? 0) eqn:E2; [lia|].
    exists (inject_Z cz / inject_Z cy)%Q. split; [reflexivity|].
    assert (Hnz : ~ (inject_Z cy == 0)%Q).
    { unfold Qeq. cbn. lia. }
    split; [field; exact Hnz|lia].
Qed.

Lemma C28_portion_pf : forall (L : Type) (tb : timeboard L) (x y : interval L) d s,
  reachable tb -> iv_of tb x -> iv_of tb y -> d = DOn \/ d = DOff \/ d = DAny ->
  (forall s', s = Some s' -> sched_for tb s') ->
  let s' := sched_arg s (iv_sched x) in
  exists q z cz cy, what_portion_of tb x y d s = Ok q
    /\ iv_overlap tb x y s = Ok z /\ iv_count z d (Some s') = Ok cz /\ iv_count y d (Some s') = Ok cy
    /\ (q * inject_Z cy == inject_Z cz)%Q /\ (0 <= q <= 1)%Q /\ ((q == 0)%Q <-> cz = 0)
    /\ (iv_includes x y -> cy <> 0 -> (q == 1)%Q).
Proof.
  intros L tb x y d s Hr Hx Hy Hd Hs s'. apply reachable_wf in Hr. destruct Hr as (W & _ & _).
  destruct (portion_ok tb W x y d s Hx Hy Hd (iv_sched_for tb x s Hx Hs)) as (z & H1 & H2 & H3 & C1 & C2 & H4 & q & H5 & H6 & H7).
  fold s' in C1, C2, H4, H6, H7. set (cz := zlen (iv_list tb z d s')) in *. set (cy := zlen (iv_list tb y d s')) in *.
  exists q, z, cz, cy. repeat (split; [assumption|]).
  assert (Hcz : (0 <= inject_Z cz)%Q) by (change 0%Q with (inject_Z 0); rewrite <- Zle_Qle; lia).
  assert (Hcy : (inject_Z cz <= inject_Z cy)%Q) by (rewrite <- Zle_Qle; lia).
  destruct (Z.eq_dec cz 0) as [E|E].
  - specialize (H7 E). split; [split; rewrite H7; [apply Qle_refl|discriminate]|]. split; [tauto|].
    intros Hinc Hne. exfalso. assert (Hc : cy <= cz); [|lia]. apply asc_incl_le; [apply iv_list_asc|].
    intros i. rewrite !iv_list_mem, H3. intros [Hm Hd']. specialize (Hinc i Hm). tauto.
  - assert (Hp : (0 < inject_Z cz)%Q) by (change 0%Q with (inject_Z 0); rewrite <- Zlt_Qlt; lia).
    assert (Hp2 : (0 < inject_Z cy)%Q) by (eapply Qlt_le_trans; eassumption).
    split; [|split].
    + split.
      * apply (Qmult_le_r 0 q (inject_Z cy) Hp2). rewrite H6, Qmult_0_l. exact Hcz.
      * apply (Qmult_le_r q 1 (inject_Z cy) Hp2). rewrite H6, Qmult_1_l. exact Hcy.
    + split; [|intros; contradiction]. intros Hq. exfalso. rewrite Hq, Qmult_0_l in H6. rewrite <- H6 in Hp.
      apply Qlt_irrefl in Hp. exact Hp.
    + intros Hinc Hne. assert (Hc : cy = cz).
      { assert (Hc : cy <= cz); [|lia]. apply asc_incl_le; [apply iv_list_asc|].
        intros i. rewrite !iv_list_mem, H3. intros [Hm Hd']. specialize (Hinc i Hm). tauto. }
      rewrite Hc in H6. apply (Qmult_inj_r q 1 (inject_Z cz)); [intros H0; rewrite H0 in Hp; apply Qlt_irrefl in Hp; exact Hp|].
      rewrite H6, Qmult_1_l. reflexivity.
Qed.

Lemma C28_pieces_pf : forall (L : Type) (tb : timeboard L) (x1 x2 x y : interval L) d s,
  reachable tb -> iv_of tb x1 -> iv_of tb x2 -> iv_of tb x -> iv_of tb y -> pieces x1 x2 x ->
  d = DOn \/ d = DOff \/ d = DAny -> sched_for tb s ->
  exists q1 q2 q, what_portion_of tb x1 y d (Some s) = Ok q1 /\ what_portion_of tb x2 y d (Some s) = Ok q2
    /\ what_portion_of tb x y d (Some s) = Ok q /\ (q == q1 + q2)%Q.
Proof.
  intros L tb x1 x2 x y d s Hr H1 H2 Hx Hy (V1 & V2 & V3 & E1 & E2 & E3) Hd Hs. apply reachable_wf in Hr. destruct Hr as (W & _ & _).
  destruct (portion_ok tb W x1 y d (Some s) H1 Hy Hd Hs) as (z1 & _ & _ & M1 & _ & _ & L1 & q1 & A1 & B1 & G1).
  destruct (portion_ok tb W x2 y d (Some s) H2 Hy Hd Hs) as (z2 & _ & _ & M2 & _ & _ & L2 & q2 & A2 & B2 & G2).
  destruct (portion_ok tb W x y d (Some s) Hx Hy Hd Hs) as (z & _ & _ & M & _ & _ & L3 & q & A & B & G).
  cbn [sched_arg] in *. exists q1, q2, q. repeat (split; [assumption|]).
  pose proof (proj2 (proj2 (proj2 H1))) as O1. pose proof (proj2 (proj2 (proj2 H2))) as O2. rewrite V1 in O1. rewrite V2 in O2.
  assert (El : iv_list tb z d s = iv_list tb z1 d s ++ iv_list tb z2 d s).
  { apply asc_ext; [apply iv_list_asc| |].
    - apply asc_app; [apply iv_list_asc|apply iv_list_asc|]. intros i j. rewrite !iv_list_mem, M1, M2. unfold iv_mem. lia.
    - intros i. rewrite in_app_iff, !iv_list_mem, M1, M2, M. unfold iv_mem. rewrite V1, V2, V3.
      destruct (iv_void y); destruct (has_duty tb s d i); intuition (try discriminate; try lia). }
  rewrite El, zlen_app in B, G, L3. rewrite inject_Z_plus in B.
  set (cy := zlen (iv_list tb y d s)) in *. set (c1 := zlen (iv_list tb z1 d s)) in *. set (c2 := zlen (iv_list tb z2 d s)) in *.
  destruct (Z.eq_dec cy 0) as [E|E].
  - rewrite G, G1, G2 by lia. ring.
  - assert (Hnz : ~ (inject_Z cy == 0)%Q) by (unfold Qeq; cbn; lia).
    apply (Qmult_inj_r q (q1 + q2) (inject_Z cy) Hnz). rewrite Qmult_plus_distr_l, B, B1, B2. reflexivity.
Qed.

(** ** C31 *)
Lemma C31_duration_pf : forall (L : Type) (tb : timeboard L) (iv : interval L) d s,
  reachable tb -> iv_of tb iv -> d = DOn \/ d = DOff \/ d = DAny -> (forall s', s = Some s' -> sched_for tb s') ->
  exists ws ds, iv_workshifts tb iv d s = Ok ws
    /\ Forall2 (fun w n => ws_duration (tb_tl tb) (ws_loc w) = Ok n) ws ds
    /\ total_duration tb iv d s = Ok (z_total ds).
Proof.
  intros L tb iv d s Hr Hiv Hd Hs. apply reachable_wf in Hr. destruct Hr as (W & _ & _).
  pose proof (iv_sched_for tb iv s Hiv Hs) as Hsa.
  rewrite (total_duration_ok tb W iv d s Hiv Hd Hsa), (iv_workshifts_ok tb W iv d s Hiv Hd Hsa).
  set (s' := sched_arg s (iv_sched iv)) in *.
  destruct (mapM_shifts tb W s' (iv_list tb iv d s')) as (ws & -> & H); [intros i; apply iv_list_shifts; assumption|].
  eexists ws, _. split; [reflexivity|]. split; [|reflexivity].
  assert (Hsh : forall i, In i (iv_list tb iv d s') -> is_shift tb i) by (intros i; apply iv_list_shifts; assumption).
  induction H as [|i w l ws Hw H IH]; cbn [map]; constructor.
  - destruct Hw as (-> & _ & _). apply (ws_duration_ok _ W). apply Hsh. left. reflexivity.
  - apply IH. intros j Hj. apply Hsh. right. exact Hj.
Qed.

Lemma reachable_wt {L} (tb : timeboard L) : reachable tb -> tb_wt tb <> WBad.
Proof.
  induction 1 as [a h tb h' H|tb name sel tb' s Hr IH H|tb s tb' Hr IH H].
  - unfold build in H. destruct (top_organizer (a_layout a)); cbn [bind] in H; [|discriminate].
    destruct (a_wt a) eqn:E; [| |discriminate];
      destruct (mk_frame (a_freq a) (a_start a) (a_end a)) as [f|]; cbn [bind] in H; try discriminate;
      destruct (mk_timeline f _ (a_ref_end a) (a_default a) h) as [th|]; cbn [bind] in H; try discriminate;
      destruct (amend (fst th) false (a_amendments a)) as [tl|]; cbn [bind] in H; try discriminate;
      injection H as <- _; cbn [tb_wt]; discriminate.
  - apply add_schedule_inv in H. destruct H as (_ & _ & ->). exact IH.
  - apply drop_schedule_inv in H. destruct H as (_ & ->). exact IH.
Qed.

Lemma filter_filter_and {A} (p q : A -> bool) l : filter p (filter q l) = filter (fun x => q x && p x) l.
Proof.
  induction l as [|x l IH]; [reflexivity|]. cbn [filter]. destruct (q x) eqn:E; cbn [filter andb]; [|exact IH].
  destruct (p x); rewrite IH; reflexivity.
Qed.

(** Sums over the workshifts with the duty = sums of gated values over all workshifts. *)
Lemma gated_sum {A} (p : A -> bool) (g : A -> Q) l :
  (q_total (map g (filter p l)) == q_total (map (fun i => if p i then g i else 0%Q) l))%Q.
Proof.
  unfold q_total. induction l as [|x l IH]; [reflexivity|]. cbn [filter map fold_right].
  destruct (p x); cbn [map fold_right]; rewrite <- IH; [reflexivity|ring].
Qed.

Lemma q_total_inject l : (q_total (map inject_Z l) == inject_Z (z_total l))%Q.
Proof.
  unfold q_total, z_total. induction l as [|x l IH]; [reflexivity|]. cbn [map fold_right]. rewrite IH, inject_Z_plus. reflexivity.
Qed.

Lemma C31_worktime_pf : forall (L : Type) (tb : timeboard L) (iv : interval L) d s,
  reachable tb -> iv_of tb iv -> d = DOn \/ d = DOff \/ d = DAny -> (forall s', s = Some s' -> sched_for tb s') ->
  numeric tb ->
  exists ws qs q, iv_workshifts tb iv DAny s = Ok ws
    /\ Forall2 (fun w x => ws_worktime tb w d s = Ok x) ws qs
    /\ iv_worktime tb iv d s = Ok q /\ (q == q_total qs)%Q.
Proof.
  intros L tb iv d s Hre Hiv Hd Hs Hnum. pose proof (reachable_wt tb Hre) as Hwt.
  apply reachable_wf in Hre. destruct Hre as (W & _ & _).
  pose proof (iv_sched_for tb iv s Hiv Hs) as Hsa.
  rewrite (iv_workshifts_ok tb W iv DAny s Hiv ltac:(right; right; reflexivity) Hsa).
  set (s' := sched_arg s (iv_sched iv)) in *.
  assert (Hsh : forall i, In i (iv_list tb iv DAny s') -> is_shift tb i) by (intros i; apply iv_list_shifts; assumption).
  destruct (mapM_shifts tb W s' (iv_list tb iv DAny s') Hsh) as (ws & -> & H).
  set (val := fun i => match tb_wt tb with
     | WLabels => match tl_get (tb_tl tb) i with Ok x => match tb_num tb x with Some q => q | None => 0%Q end | Err _ => 0%Q end
     | _ => inject_Z (bnd (tb_tl tb) (i + 1) - bnd (tb_tl tb) i) end).
  assert (El : iv_list tb iv d s' = filter (has_duty tb s' d) (iv_list tb iv DAny s')).
  { unfold iv_list. destruct (iv_void iv); [reflexivity|]. rewrite duty_list_any. reflexivity. }
  assert (Hq : exists q, iv_worktime tb iv d s = Ok q /\ (q == q_total (map val (iv_list tb iv d s')))%Q).
  { assert (Hsd : forall i, In i (iv_list tb iv d s') -> is_shift tb i) by (intros i; apply iv_list_shifts; assumption).
    unfold iv_worktime. destruct (iv_void iv) eqn:Ev.
    { exists 0%Q. split; [reflexivity|]. unfold iv_list. rewrite Ev. reflexivity. }
    unfold val. destruct (tb_wt tb) eqn:Ew; [| |contradiction].
    - rewrite (total_duration_ok tb W iv d s Hiv Hd Hsa). fold s'. cbn [rmap]. eexists. split; [reflexivity|].
      rewrite <- q_total_inject, map_map. reflexivity.
    - unfold sum_labels. cbv zeta.
      replace (opt_or s (iv_sched iv)) with s' by (unfold s'; destruct s; reflexivity).
      pose proof Hiv as (_ & Ha & Hb & Hab). rewrite Ev in Hab.
      destruct (get_duty_idx_ok tb W iv d s' Hsa Ha Hb Hab Hd) as (l & r & -> & H1 & H2 & H3 & H4). cbn [bind snd fst].
      assert (El2 : iv_list tb iv d s' = duty_list tb s' d (iv_a iv) (iv_b iv)) by (unfold iv_list; rewrite Ev; reflexivity).
      destruct (l <? r) eqn:E.
      + replace (r - 1 + 1) with r by lia. rewrite H4, <- El2.
        rewrite (mapM_ok_map _ (fun i => match tl_get (tb_tl tb) i with
            | Ok x => match tb_num tb x with Some q => q | None => 0%Q end | Err _ => 0%Q end)).
        * cbn [bind]. eexists. split; [reflexivity|]. reflexivity.
        * intros i Hi. destruct (tl_get_ex _ W i (Hsd i Hi)) as (x & Hx & _). rewrite Hx. cbn [bind].
          destruct (Hnum i x (Hsd i Hi) Hx) as (q & Hq). rewrite Hq. reflexivity.
      + assert (Hz : iv_list tb iv d s' = []).
        { rewrite El2. apply zlen_zero. fold (duty_count tb s' d (iv_a iv) (iv_b iv)).
          pose proof (duty_count_nonneg tb s' d (iv_a iv) (iv_b iv)). lia. }
        rewrite Hz. exists 0%Q. split; reflexivity. }
  destruct Hq as (q & Hq1 & Hq2).
  exists ws, (map (fun i => if has_duty tb s' d i then val i else 0%Q) (iv_list tb iv DAny s')), q.
  split; [reflexivity|]. split.
  { clear El. induction H as [|i w l ws Hw H IH]; cbn [map]; constructor.
    - destruct Hw as (H1 & H2 & H3). unfold ws_worktime, is_on_duty.
      assert (Es : opt_or s (ws_sched w) = s') by (rewrite H2; unfold s'; destruct s; reflexivity).
      rewrite Es, H1, H3. cbn [rmap bind].
      assert (Ho : on_duty tb s' i = sc_sel s' (ws_label w)) by (unfold on_duty; rewrite H3; reflexivity).
      assert (Hi : is_shift tb i) by (apply Hsh; left; reflexivity).
      assert (Hv : match tb_wt tb with
                   | WLabels => match tb_num tb (ws_label w) with Some q => Ok q | None => Err EType end
                   | WDuration => rmap inject_Z (ws_duration (tb_tl tb) i)
                   | WBad => Err ERuntime end = Ok (val i)).
      { unfold val. destruct (tb_wt tb).
        - rewrite (ws_duration_ok _ W i Hi). reflexivity.
        - destruct (Hnum i _ Hi H3) as (v & Hv). rewrite H3, Hv. reflexivity.
        - contradiction. }
      destruct Hd as [->|[->| ->]]; cbn [bind has_duty]; rewrite ?Ho.
      + destruct (sc_sel s' (ws_label w)); [exact Hv|reflexivity].
      + destruct (sc_sel s' (ws_label w)); cbn [negb]; [reflexivity|exact Hv].
      + exact Hv.
    - apply IH. intros j Hj. apply Hsh. right. exact Hj. }
  split; [exact Hq1|]. rewrite Hq2, El. apply gated_sum.
Qed.

Lemma mapM_nums {L} (tb : timeboard L) : tl_wf (tb_tl tb) -> forall s l ws, Forall2 (the_shift tb s) l ws ->
  let num i := do x <- tl_get (tb_tl tb) i; match tb_num tb x with Some q => Ok q | None => Err EType end in
  (forall qs, Forall2 (fun w q => tb_num tb (ws_label w) = Some q) ws qs -> mapM num l = Ok qs)
  /\ ((exists w, In w ws /\ tb_num tb (ws_label w) = None) -> mapM num l = Err EType).
Proof.
  intros W s l ws H num. induction H as [|i w l ws (H1 & H2 & H3) H [IH1 IH2]].
  - split; [intros qs Hq; inversion Hq; reflexivity|intros (w & [] & _)].
  - cbn [mapM]. unfold num at 1 3. rewrite H3. cbn [bind]. split.
    + intros qs Hq. inversion Hq as [|? q ? qs' Hq1 Hq2]; subst. rewrite Hq1. cbn [bind]. rewrite (IH1 qs' Hq2). reflexivity.
    + intros (v & [<-|Hv] & Hn); [rewrite Hn; reflexivity|].
      destruct (tb_num tb (ws_label w)); cbn [bind]; [|reflexivity]. rewrite IH2; [reflexivity|]. exists v. split; assumption.
Qed.

Lemma C31_labels_pf : forall (L : Type) (tb : timeboard L) (iv : interval L) d s,
  reachable tb -> iv_of tb iv -> d = DOn \/ d = DOff \/ d = DAny -> (forall s', s = Some s' -> sched_for tb s') ->
  tb_wt tb = WLabels ->
  exists ws, iv_workshifts tb iv d s = Ok ws
    /\ (forall qs, Forall2 (fun w q => tb_num tb (ws_label w) = Some q) ws qs ->
        exists q, iv_worktime tb iv d s = Ok q /\ (q == q_total qs)%Q)
    /\ ((exists w, In w ws /\ tb_num tb (ws_label w) = None) -> iv_worktime tb iv d s = Err EType).
Proof.
  intros L tb iv d s Hre Hiv Hd Hs Hwt. apply reachable_wf in Hre. destruct Hre as (W & _ & _).
  pose proof (iv_sched_for tb iv s Hiv Hs) as Hsa.
  rewrite (iv_workshifts_ok tb W iv d s Hiv Hd Hsa).
  set (s' := sched_arg s (iv_sched iv)) in *.
  assert (Hsh : forall i, In i (iv_list tb iv d s') -> is_shift tb i) by (intros i; apply iv_list_shifts; assumption).
  destruct (mapM_shifts tb W s' (iv_list tb iv d s') Hsh) as (ws & -> & H). exists ws. split; [reflexivity|].
  destruct (mapM_nums tb W s' _ ws H) as [N1 N2].
  unfold iv_worktime. rewrite Hwt. unfold sum_labels. cbv zeta.
  replace (opt_or s (iv_sched iv)) with s' by (unfold s'; destruct s; reflexivity).
  destruct (iv_void iv) eqn:Ev.
  { unfold iv_list in H. rewrite Ev in H. inversion H; subst. split.
    - intros qs Hq. inversion Hq. exists 0%Q. split; reflexivity.
    - intros (w & [] & _). }
  pose proof Hiv as (_ & Ha & Hb & Hab). rewrite Ev in Hab.
  destruct (get_duty_idx_ok tb W iv d s' Hsa Ha Hb Hab Hd) as (l & r & -> & H1 & H2 & H3 & H4). cbn [bind snd fst].
  assert (El : iv_list tb iv d s' = duty_list tb s' d (iv_a iv) (iv_b iv)) by (unfold iv_list; rewrite Ev; reflexivity).
  destruct (l <? r) eqn:E.
  - replace (r - 1 + 1) with r by lia. rewrite H4, <- El. split.
    + intros qs Hq. rewrite (N1 qs Hq). cbn [bind]. eexists. split; reflexivity.
    + intros Hn. rewrite (N2 Hn). reflexivity.
  - assert (Hz : iv_list tb iv d s' = []).
    { rewrite El. apply zlen_zero. fold (duty_count tb s' d (iv_a iv) (iv_b iv)).
      pose proof (duty_count_nonneg tb s' d (iv_a iv) (iv_b iv)). lia. }
    rewrite Hz in H. inversion H; subst. split.
    + intros qs Hq. inversion Hq. exists 0%Q. split; reflexivity.
    + intros (w & [] & _).
Qed.

Lemma C31_workshift_pf : forall (L : Type) (tb : timeboard L) (w : workshift L) d s,
  reachable tb -> ws_of tb w -> d = DOn \/ d = DOff \/ d = DAny ->
  let s' := sched_arg s (ws_sched w) in
  (has_duty tb s' d (ws_loc w) = false -> ws_worktime tb w d s = Ok 0%Q)
  /\ (has_duty tb s' d (ws_loc w) = true -> tb_wt tb = WDuration ->
      exists n, ws_duration (tb_tl tb) (ws_loc w) = Ok n /\ ws_worktime tb w d s = Ok (inject_Z n))
  /\ (forall q, has_duty tb s' d (ws_loc w) = true -> tb_wt tb = WLabels -> tb_num tb (ws_label w) = Some q ->
      ws_worktime tb w d s = Ok q)
  /\ (has_duty tb s' d (ws_loc w) = true -> tb_wt tb = WLabels -> tb_num tb (ws_label w) = None ->
      ws_worktime tb w d s = Err EType).
Proof.
  intros L tb w d s Hre Hw Hd s'. apply reachable_wf in Hre. destruct Hre as (W & _ & _).
  destruct Hw as (Hi & Hs & Hl). unfold ws_worktime. cbv zeta.
  replace (opt_or s (ws_sched w)) with s' by (unfold s'; destruct s; reflexivity).
  unfold is_on_duty. rewrite Hl. cbn [rmap bind].
  assert (Ho : on_duty tb s' (ws_loc w) = sc_sel s' (ws_label w)) by (unfold on_duty; rewrite Hl; reflexivity).
  rewrite (ws_duration_ok _ W _ Hi). cbn [rmap].
  destruct Hd as [->|[->| ->]]; cbn [bind has_duty]; rewrite ?Ho; destruct (sc_sel s' (ws_label w)); cbn [negb bind];
    (split; [try discriminate; reflexivity|split; [try discriminate; intros _ ->; eexists; split; reflexivity|
     split; [try discriminate; intros q _ -> ->; reflexivity|try discriminate; intros _ -> ->; reflexivity]]]).
Qed.
