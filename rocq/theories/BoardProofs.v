From Verif Require Import Base BaseProofs Civil Freq FreqProofs Frame FrameProofs Timeline TimelineProofs Board Spec.
From Coq Require Import ZifyBool ZifyNat Sorted.
Ltac Zify.zify_post_hook ::= Z.div_mod_to_equations.

Section Build.
  Context {L : Type}.

  Lemma build_inv (a : tb_args L) h tb h' : build a h = Ok (tb, h') ->
    exists org f tl0, top_organizer (a_layout a) = Ok org
    /\ mk_frame (a_freq a) (a_start a) (a_end a) = Ok f
    /\ mk_timeline f org (a_ref_end a) (a_default a) h = Ok (tl0, h')
    /\ amend tl0 false (a_amendments a) = Ok (tb_tl tb)
    /\ tb_default tb = mk_schedule (tb_tl tb) (a_name a) (a_sel a)
    /\ tb_schedules tb = [(a_name a, tb_default tb)]
    /\ tb_wt tb = a_wt a /\ tb_num tb = a_num a
    /\ fr_wf f /\ tl_wf tl0 /\ tl_wf (tb_tl tb)
    /\ tl_frame (tb_tl tb) = f /\ tl_frame tl0 = f /\ tl_index (tb_tl tb) = tl_index tl0
    /\ tl_ref_end (tb_tl tb) = a_ref_end a.
  Proof.
    unfold build. destruct (top_organizer (a_layout a)) as [org|e]; cbn [bind]; [|discriminate].
    intros H.
    assert (H' : a_wt a <> WBad /\
      (do f <- mk_frame (a_freq a) (a_start a) (a_end a);
       do th <- mk_timeline f org (a_ref_end a) (a_default a) h;
       do tl <- amend (fst th) false (a_amendments a);
       Ok (mkTb tl (mk_schedule tl (a_name a) (a_sel a)) [(a_name a, mk_schedule tl (a_name a) (a_sel a))]
                (a_wt a) (a_num a), snd th)) = Ok (tb, h')).
    { destruct (a_wt a); [split; [discriminate|exact H]|split; [discriminate|exact H]|discriminate]. }
    clear H. destruct H' as [_ H].
    destruct (mk_frame (a_freq a) (a_start a) (a_end a)) as [f|e] eqn:Ef; cbn [bind] in H; [|discriminate].
    destruct (mk_timeline f org (a_ref_end a) (a_default a) h) as [[tl0 hh]|e] eqn:Et; cbn [bind fst snd] in H; [|discriminate].
    destruct (amend tl0 false (a_amendments a)) as [tl|e] eqn:Ea; cbn [bind] in H; [|discriminate].
    injection H as <- <-.
    pose proof (mk_frame_inv _ _ _ _ Ef) as Hf.
    assert (Hw : fr_wf f) by (unfold fr_wf; tauto).
    destruct (mk_timeline_inv _ _ _ _ _ _ _ Hw Et) as (st & _ & _ & _ & _ & Htl & _ & W0).
    destruct (amend_wf _ _ _ _ W0 Ea) as (W & F1 & F2 & F3 & F4).
    assert (Hf0 : tl_frame tl0 = f) by (rewrite Htl; reflexivity).
    exists org, f, tl0. cbn [tb_tl tb_default tb_schedules tb_wt tb_num].
    repeat match goal with |- _ /\ _ => split end; try assumption; try reflexivity; try congruence.
    rewrite F4, Htl. reflexivity.
  Qed.

  Lemma add_schedule_inv (tb : timeboard L) name sel tb' s : add_schedule tb name sel = Ok (tb', s) ->
    find_schedule tb name = None /\ s = mk_schedule (tb_tl tb) name sel
    /\ tb' = mkTb (tb_tl tb) (tb_default tb) (tb_schedules tb ++ [(name, s)]) (tb_wt tb) (tb_num tb).
  Proof.
    unfold add_schedule. destruct (find_schedule tb name); [discriminate|]. intros H. injection H as <- <-.
    repeat split.
  Qed.
  Lemma drop_schedule_inv (tb : timeboard L) s tb' : drop_schedule tb s = Ok tb' ->
    (exists s0, find_schedule tb (sc_name s) = Some s0)
    /\ tb' = mkTb (tb_tl tb) (tb_default tb)
                  (filter (fun q => negb (fst q =? sc_name s)) (tb_schedules tb)) (tb_wt tb) (tb_num tb).
  Proof.
    unfold drop_schedule. destruct (find_schedule tb (sc_name s)) as [s0|]; [|discriminate]. intros H.
    injection H as <-. split; [exists s0; reflexivity|reflexivity].
  Qed.

  Lemma reachable_wf (tb : timeboard L) : reachable tb ->
    tl_wf (tb_tl tb) /\ sched_for tb (tb_default tb)
    /\ forall q, In q (tb_schedules tb) -> sched_for tb (snd q) /\ sc_name (snd q) = fst q.
  Proof.
    induction 1 as [a h tb h' H|tb name sel tb' s Hr IH H|tb s tb' Hr IH H].
    - apply build_inv in H. destruct H as (org & f & tl0 & _ & _ & _ & _ & Hd & Hs & _ & _ & _ & _ & W & _).
      split; [exact W|]. split; [exists (a_name a), (a_sel a); exact Hd|].
      intros q Hq. rewrite Hs in Hq. destruct Hq as [<-|[]]. cbn [fst snd].
      split; [exists (a_name a), (a_sel a); exact Hd|]. rewrite Hd. reflexivity.
    - apply add_schedule_inv in H. destruct H as (_ & -> & ->). destruct IH as (W & Hd & Hs).
      cbn [tb_tl tb_default tb_schedules]. split; [exact W|]. split; [exact Hd|].
      intros q Hq. apply in_app_iff in Hq. destruct Hq as [Hq|[<-|[]]]; [apply Hs; exact Hq|].
      cbn [fst snd]. split; [exists name, sel; reflexivity|reflexivity].
    - apply drop_schedule_inv in H. destruct H as (_ & ->). destruct IH as (W & Hd & Hs).
      cbn [tb_tl tb_default tb_schedules]. split; [exact W|]. split; [exact Hd|].
      intros q Hq. apply filter_In in Hq. apply Hs. apply Hq.
  Qed.
End Build.

(** ** Positions and duties *)
Lemma positions_In a b i : In i (positions a b) <-> a <= i <= b.
Proof. unfold positions. rewrite zrange_In. lia. Qed.
Lemma zlen_positions a b : a <= b + 1 -> zlen (positions a b) = b + 1 - a.
Proof. intros H. unfold positions. rewrite zlen_zrange. lia. Qed.
Lemma positions_split a m b : a <= m + 1 -> m <= b -> positions a b = positions a m ++ positions (m + 1) b.
Proof.
  intros H1 H2. unfold positions. replace (Z.to_nat (b + 1 - a)) with (Z.to_nat (m + 1 - a) + Z.to_nat (b + 1 - (m + 1)))%nat by lia.
  rewrite zrange_app. do 2 f_equal. lia.
Qed.
Lemma positions_empty a b : b < a -> positions a b = [].
Proof. intros H. unfold positions. replace (Z.to_nat (b + 1 - a)) with O by lia. reflexivity. Qed.
Lemma positions_asc a b : asc (positions a b).
Proof. apply asc_zrange. Qed.
Lemma positions_znth a b k : 0 <= k <= b - a -> znth (positions a b) k = Some (a + k).
Proof. intros H. apply zrange_znth. lia. Qed.
Lemma filter_range_positions lo hi a b : a <= lo -> hi <= b ->
  filter (fun x => (lo <=? x) && (x <=? hi)) (positions a b) = positions lo hi.
Proof.
  intros H1 H2. apply asc_ext; [apply asc_filter, positions_asc|apply positions_asc|].
  intros x. rewrite filter_In, !positions_In. lia.
Qed.
Lemma filter_comm {A} (p q : A -> bool) l : filter p (filter q l) = filter q (filter p l).
Proof.
  induction l as [|x l IH]; [reflexivity|]. cbn [filter].
  destruct (q x) eqn:E1; destruct (p x) eqn:E2; cbn [filter]; rewrite ?E1, ?E2, IH; reflexivity.
Qed.

(** The scan over leading elements of a sorted list counts all of them. *)
Lemma count_while_below l x : asc l -> count_while (fun y => y <? x) l = ss_left l x.
Proof.
  unfold ss_left. intros Hl. induction Hl as [|a l Hs IH Hf]; [reflexivity|].
  cbn [count_while filter]. destruct (a <? x) eqn:E; [rewrite zlen_cons, IH; reflexivity|].
  rewrite filter_none; [reflexivity|]. rewrite Forall_forall in Hf. intros y Hy. specialize (Hf _ Hy). lia.
Qed.
Lemma count_while_app p l m : count_while p (l ++ m) =
  if forallb p l then zlen l + count_while p m else count_while p l.
Proof.
  induction l as [|x l IH]; [cbn; lia|]. cbn [app count_while forallb]. destruct (p x); cbn [andb]; [|reflexivity].
  rewrite IH. destruct (forallb p l); [rewrite zlen_cons; lia|reflexivity].
Qed.
Lemma count_while_above l x : asc l -> count_while (fun y => x <? y) (rev l) = zlen l - ss_right l x.
Proof.
  unfold ss_right. intros Hl. induction Hl as [|a l Hs IH Hf]; [reflexivity|].
  cbn [rev]. rewrite count_while_app. rewrite Forall_forall in Hf. cbn [filter count_while].
  destruct (forallb (fun y => x <? y) (rev l)) eqn:E.
  - rewrite forallb_forall in E.
    assert (N : filter (fun a0 => a0 <=? x) l = []).
    { apply filter_none. intros y Hy. specialize (E y (proj1 (in_rev _ _) Hy)). lia. }
    rewrite N, zlen_rev, !zlen_cons. destruct (x <? a) eqn:E1; destruct (a <=? x) eqn:E2; try lia; rewrite ?zlen_cons; znil; lia.
  - rewrite IH. destruct (a <=? x) eqn:E2; [rewrite !zlen_cons; lia|]. exfalso.
    assert (forallb (fun y => x <? y) (rev l) = true); [|congruence].
    apply forallb_forall. intros y Hy. apply in_rev in Hy. specialize (Hf _ Hy). lia.
Qed.

Section Wf.
  Context {L : Type} (tb : timeboard L) (W : tl_wf (tb_tl tb)).

  Lemma tb_len_pos : 0 < tb_len tb.
  Proof. apply tl_len_pos. exact W. Qed.

  Lemma map_sel_mask sel i : 0 <= i < tb_len tb ->
    exists x, tl_get (tb_tl tb) i = Ok x /\ znth (map sel (tl_labels (tb_tl tb))) i = Some (sel x : bool).
  Proof.
    intros Hi. destruct (tl_get_ex _ W i Hi) as (x & H1 & H2). exists x. split; [exact H1|].
    rewrite znth_map, H2. reflexivity.
  Qed.

  Definition duty_idx (s : schedule L) (d : duty) : list Z :=
    match d with DOn => sc_on s | DOff => sc_off s | _ => sc_all s end.

  Lemma labels_length : length (tl_labels (tb_tl tb)) = Z.to_nat (tb_len tb).
  Proof. pose proof (wf_labels _ W) as H. unfold tb_len, tl_len, zlen in *. lia. Qed.

  Lemma sched_idx s d : sched_for tb s -> d = DOn \/ d = DOff \/ d = DAny ->
    duty_idx s d = duty_list tb s d 0 (tb_len tb - 1).
  Proof.
    intros (name & sel & ->) Hd. unfold duty_list, positions.
    replace (tb_len tb - 1 + 1 - 0) with (tb_len tb) by lia.
    assert (Hon : forall i, 0 <= i < tb_len tb ->
              mask_at (map sel (tl_labels (tb_tl tb))) i = on_duty tb (mk_schedule (tb_tl tb) name sel) i).
    { intros i Hi. destruct (map_sel_mask sel i Hi) as (x & H1 & H2). unfold mask_at, on_duty.
      rewrite H1, H2. reflexivity. }
    destruct Hd as [->|[->| ->]]; cbn [duty_idx has_duty].
    - change (sc_on (mk_schedule (tb_tl tb) name sel)) with (nonzero (map sel (tl_labels (tb_tl tb)))).
      rewrite nonzero_eq, map_length, labels_length. apply filter_ext_in. intros i Hi. apply zrange_In in Hi.
      apply Hon. lia.
    - change (sc_off (mk_schedule (tb_tl tb) name sel)) with (nonzero (map negb (map sel (tl_labels (tb_tl tb))))).
      rewrite nonzero_eq, !map_length, labels_length. apply filter_ext_in. intros i Hi. apply zrange_In in Hi.
      assert (Hr : 0 <= i < tb_len tb) by lia.
      cbn [has_duty]. rewrite <- (Hon i Hr). unfold mask_at. rewrite znth_map.
      destruct (map_sel_mask sel i Hr) as (x & H1 & H2). rewrite H2. reflexivity.
    - rewrite filter_all by reflexivity. reflexivity.
  Qed.

  Lemma duty_list_asc s d a b : asc (duty_list tb s d a b).
  Proof. apply asc_filter, positions_asc. Qed.
  Lemma duty_list_In s d a b i : In i (duty_list tb s d a b) <-> a <= i <= b /\ has_duty tb s d i = true.
  Proof. unfold duty_list. rewrite filter_In, positions_In. tauto. Qed.
  Lemma duty_list_restrict s d a b : 0 <= a -> b < tb_len tb ->
    filter (fun x => (a <=? x) && (x <=? b)) (duty_list tb s d 0 (tb_len tb - 1)) = duty_list tb s d a b.
  Proof.
    intros H1 H2. unfold duty_list. rewrite filter_comm. rewrite filter_range_positions by lia. reflexivity.
  Qed.
  Lemma duty_count_nonneg s d a b : 0 <= duty_count tb s d a b.
  Proof. apply zlen_nonneg. Qed.
  Lemma duty_list_split s d a m b : a <= m + 1 -> m <= b ->
    duty_list tb s d a b = duty_list tb s d a m ++ duty_list tb s d (m + 1) b.
  Proof. intros H1 H2. unfold duty_list. rewrite (positions_split a m b H1 H2). apply filter_app. Qed.
  Lemma duty_count_split s d a m b : a <= m + 1 -> m <= b ->
    duty_count tb s d a b = duty_count tb s d a m + duty_count tb s d (m + 1) b.
  Proof. intros H1 H2. unfold duty_count. rewrite (duty_list_split s d a m b H1 H2). apply zlen_app. Qed.
  Lemma duty_list_empty s d a b : b < a -> duty_list tb s d a b = [].
  Proof. intros H. unfold duty_list. rewrite positions_empty by exact H. reflexivity. Qed.
  Lemma duty_list_any s a b : duty_list tb s DAny a b = positions a b.
  Proof. unfold duty_list. apply filter_all. reflexivity. Qed.

  (** Counts below a position in the whole index. *)
  Lemma ss_left_duty s d p : 0 <= p <= tb_len tb ->
    ss_left (duty_list tb s d 0 (tb_len tb - 1)) p = duty_count tb s d 0 (p - 1).
  Proof.
    intros H. unfold ss_left, duty_count. f_equal.
    transitivity (filter (fun x => (0 <=? x) && (x <=? p - 1)) (duty_list tb s d 0 (tb_len tb - 1))).
    - apply filter_ext_in. intros x Hx. apply duty_list_In in Hx. lia.
    - apply duty_list_restrict; lia.
  Qed.
  Lemma ss_right_duty s d p : -1 <= p < tb_len tb ->
    ss_right (duty_list tb s d 0 (tb_len tb - 1)) p = duty_count tb s d 0 p.
  Proof.
    intros H. unfold ss_right, duty_count. f_equal.
    transitivity (filter (fun x => (0 <=? x) && (x <=? p)) (duty_list tb s d 0 (tb_len tb - 1))).
    - apply filter_ext_in. intros x Hx. apply duty_list_In in Hx. lia.
    - apply duty_list_restrict; lia.
  Qed.

  Lemma new_workshift_ok i s : is_shift tb i ->
    exists x, tl_get (tb_tl tb) i = Ok x /\ new_workshift tb i s = Ok (mkWs i x s).
  Proof.
    intros Hi. destruct (tl_get_ex _ W i Hi) as (x & H1 & H2). exists x. split; [exact H1|].
    unfold new_workshift. rewrite H1. reflexivity.
  Qed.

  (** ** The bounds of an interval in an index *)
  Lemma find_my_bounds_ok (iv : interval L) idx : asc idx -> iv_a iv <= iv_b iv ->
    find_my_bounds iv idx =
      if ss_left idx (iv_a iv) <? ss_right idx (iv_b iv)
      then Some (ss_left idx (iv_a iv), ss_right idx (iv_b iv) - 1) else None.
  Proof.
    intros Ha Hab. unfold find_my_bounds. rewrite count_while_below by exact Ha.
    set (l := ss_left idx (iv_a iv)). pose proof (ss_left_le idx (iv_a iv)) as B. fold l in B.
    pose proof (ss_right_le idx (iv_b iv)) as B2.
    destruct (l =? zlen idx) eqn:E1.
    - destruct (l <? ss_right idx (iv_b iv)) eqn:E2; [lia|reflexivity].
    - assert (Hsk : asc (skipn (Z.to_nat l) idx)).
      { rewrite <- (firstn_skipn (Z.to_nat l) idx) in Ha. apply asc_app_inv in Ha. apply Ha. }
      rewrite count_while_above by exact Hsk. rewrite zlen_skipn by lia.
      assert (Hsr : ss_right (skipn (Z.to_nat l) idx) (iv_b iv) = ss_right idx (iv_b iv) - l).
      { assert (E : ss_right idx (iv_b iv) = ss_right (firstn (Z.to_nat l) idx) (iv_b iv) + ss_right (skipn (Z.to_nat l) idx) (iv_b iv)).
        { rewrite <- (firstn_skipn (Z.to_nat l) idx) at 1. unfold ss_right. rewrite filter_app, zlen_app. reflexivity. }
        rewrite E. unfold ss_right at 2. rewrite filter_all; [rewrite zlen_firstn by lia; lia|].
        intros x Hx. apply In_znth in Hx. destruct Hx as [k Hk]. pose proof (znth_range _ _ _ Hk) as Rk.
        rewrite zlen_firstn in Rk by lia. rewrite znth_firstn in Hk by lia.
        pose proof (ss_left_lt_iff idx (iv_a iv) k x Ha Hk) as C. fold l in C. lia. }
      rewrite Hsr.
      destruct (l <? ss_right idx (iv_b iv)) eqn:E2.
      + match goal with |- (if ?c then _ else _) = _ => destruct c eqn:E3; [lia|] end. f_equal. f_equal. lia.
      + match goal with |- (if ?c then _ else _) = _ => destruct c eqn:E3; [reflexivity|lia] end.
  Qed.

  (** All interval queries run on [fst ib] between [snd ib]. *)
  Lemma get_duty_idx_ok (iv : interval L) d s : sched_for tb s -> is_shift tb (iv_a iv) -> is_shift tb (iv_b iv) ->
    iv_a iv <= iv_b iv -> d = DOn \/ d = DOff \/ d = DAny ->
    exists l r, get_duty_idx iv d s =
        Ok (duty_idx s d, if l <? r then Some (l, r - 1) else None)
    /\ 0 <= l /\ r <= zlen (duty_idx s d) /\ r - l = duty_count tb s d (iv_a iv) (iv_b iv)
    /\ py_slice (duty_idx s d) l r = duty_list tb s d (iv_a iv) (iv_b iv).
  Proof.
    intros Hs Ha Hb Hab Hd. pose proof (sched_idx s d Hs Hd) as Hidx. unfold is_shift in *.
    set (idx := duty_idx s d) in *.
    assert (Hasc : asc idx) by (rewrite Hidx; apply duty_list_asc).
    assert (Hsl : py_slice idx (ss_left idx (iv_a iv)) (ss_right idx (iv_b iv)) = duty_list tb s d (iv_a iv) (iv_b iv)).
    { rewrite slice_filter by exact Hasc. rewrite Hidx. apply duty_list_restrict; lia. }
    assert (Hcnt : ss_right idx (iv_b iv) - ss_left idx (iv_a iv) = duty_count tb s d (iv_a iv) (iv_b iv)).
    { rewrite Hidx. rewrite ss_left_duty, ss_right_duty by lia.
      rewrite (duty_count_split s d 0 (iv_a iv - 1) (iv_b iv)) by lia.
      replace (iv_a iv - 1 + 1) with (iv_a iv) by lia. lia. }
    pose proof (ss_left_le idx (iv_a iv)) as B1. pose proof (ss_right_le idx (iv_b iv)) as B2.
    assert (Hgen : exists l r, Ok (idx, find_my_bounds iv idx) =
        Ok (idx, if l <? r then Some (l, r - 1) else None)
      /\ 0 <= l /\ r <= zlen idx /\ r - l = duty_count tb s d (iv_a iv) (iv_b iv)
      /\ py_slice idx l r = duty_list tb s d (iv_a iv) (iv_b iv)).
    { exists (ss_left idx (iv_a iv)), (ss_right idx (iv_b iv)).
      rewrite find_my_bounds_ok by assumption. repeat split; try assumption; try lia. }
    destruct Hd as [->|[->| ->]]; cbn [get_duty_idx duty_idx] in *; try exact Hgen.
    exists (iv_a iv), (iv_b iv + 1).
    assert (Hz : zlen idx = tb_len tb).
    { rewrite Hidx, duty_list_any, zlen_positions by lia. lia. }
    split; [destruct (Z.ltb_spec (iv_a iv) (iv_b iv + 1)); [replace (iv_b iv + 1 - 1) with (iv_b iv) by lia; reflexivity|lia]|].
    split; [lia|]. split; [lia|].
    assert (Hc : iv_b iv + 1 - iv_a iv = duty_count tb s DAny (iv_a iv) (iv_b iv)).
    { unfold duty_count. rewrite duty_list_any, zlen_positions by lia. lia. }
    split; [exact Hc|].
    apply znth_ext.
    - rewrite py_slice_len by lia. unfold duty_count in Hc. lia.
    - intros k Hk. rewrite py_slice_len in Hk by lia.
      rewrite py_slice_znth by lia. rewrite Hidx, !duty_list_any.
      rewrite (positions_znth 0), (positions_znth (iv_a iv)) by lia. reflexivity.
  Qed.

  Lemma get_duty_idx_bad (iv : interval L) d s : ~ (d = DOn \/ d = DOff \/ d = DAny) -> get_duty_idx iv d s = Err EValue.
  Proof. destruct d; cbn; intros H; try reflexivity; exfalso; apply H; auto. Qed.

  Lemma mapM_new_workshift s l : (forall i, In i l -> is_shift tb i) ->
    exists ws, mapM (fun i => new_workshift tb i s) l = Ok ws
    /\ map ws_loc ws = l /\ (forall w, In w ws -> ws_sched w = s /\ tl_get (tb_tl tb) (ws_loc w) = Ok (ws_label w)).
  Proof.
    induction l as [|i l IH]; intros H; cbn [mapM].
    - exists []. repeat split; contradiction.
    - destruct (new_workshift_ok i s (H i (or_introl eq_refl))) as (x & Hx & ->). cbn [bind].
      destruct IH as (ws & -> & H2 & H3); [intros j Hj; apply H; right; exact Hj|]. cbn [bind].
      exists (mkWs i x s :: ws). split; [reflexivity|]. split; [cbn [map ws_loc]; rewrite H2; reflexivity|].
      intros w [<-|Hw]; [cbn; split; [reflexivity|exact Hx]|apply H3; exact Hw].
  Qed.
End Wf.
