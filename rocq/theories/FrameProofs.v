From Verif Require Import Base BaseProofs Civil Freq FreqProofs Frame.
From Coq Require Import ZifyBool ZifyNat Sorted.
Ltac Zify.zify_post_hook ::= Z.div_mod_to_equations.

(** ** Base units *)
Definition fr_wf (f : frame) : Prop := 0 < fr_len f.

Lemma fr_mult_pos f : 0 < fr_mult f.
Proof. unfold fr_mult. lia. Qed.

Lemma unit_start_lt f i j : i < j -> unit_start f i < unit_start f j.
Proof.
  intros H. unfold unit_start. apply pstart_lt. unfold unit_ord. pose proof (fr_mult_pos f). nia.
Qed.
Lemma unit_start_le f i j : i <= j -> unit_start f i <= unit_start f j.
Proof. intros H. destruct (Z.eq_dec i j) as [->|]; [lia|]. pose proof (unit_start_lt f i j). lia. Qed.
Lemma unit_start_lt_iff f i j : unit_start f i < unit_start f j <-> i < j.
Proof.
  split; [|apply unit_start_lt]. intros H. destruct (Z.lt_ge_cases i j); [assumption|].
  pose proof (unit_start_le f j i). lia.
Qed.
Lemma unit_end_next f i : unit_end f i = unit_start f (i + 1) - 1.
Proof. unfold unit_end, unit_start, unit_ord. f_equal. f_equal. lia. Qed.
Lemma unit_start_end f i : unit_start f i <= unit_end f i.
Proof. rewrite unit_end_next. pose proof (unit_start_lt f i (i + 1)). lia. Qed.

(** The unit of a timestamp, also outside the frame. *)
Definition unit_of (f : frame) (t : Z) : Z := (pord (fr_base f) t - fr_o0 f) / fr_mult f.

Lemma unit_of_le_iff f i t : i <= unit_of f t <-> unit_start f i <= t.
Proof.
  unfold unit_of, unit_start. rewrite <- pord_le_iff. unfold unit_ord.
  pose proof (fr_mult_pos f) as Hm. split; intros H.
  - assert (fr_mult f * ((pord (fr_base f) t - fr_o0 f) / fr_mult f) <= pord (fr_base f) t - fr_o0 f)
      by (apply Z.mul_div_le; exact Hm). nia.
  - apply Z.div_le_lower_bound; [exact Hm|]. lia.
Qed.
Lemma unit_of_iff f i t : unit_of f t = i <-> unit_start f i <= t <= unit_end f i.
Proof.
  rewrite unit_end_next. pose proof (unit_of_le_iff f i t). pose proof (unit_of_le_iff f (i + 1) t). lia.
Qed.
Lemma unit_of_spec f t : unit_start f (unit_of f t) <= t <= unit_end f (unit_of f t).
Proof. apply unit_of_iff. reflexivity. Qed.
Lemma unit_of_start f i : unit_of f (unit_start f i) = i.
Proof. apply unit_of_iff. pose proof (unit_start_end f i). lia. Qed.
Lemma unit_of_mono f s t : s <= t -> unit_of f s <= unit_of f t.
Proof. intros H. apply unit_of_le_iff. pose proof (unit_of_spec f s). lia. Qed.

Lemma mk_frame_inv s t0 t1 f : mk_frame s t0 t1 = Ok f ->
  fr_str f = s /\ fr_o0 f = pord (fr_base f) t0 /\ fr_wf f
  /\ fr_len f = (pord (fr_base f) t1 - pord (fr_base f) t0) / fr_mult f + 1
  /\ pord (fr_base f) t0 <= pord (fr_base f) t1.
Proof.
  unfold mk_frame, period_count, fr_wf, fr_base, fr_mult.
  set (b := fbase (to_freq s)). destruct (pord b t1 <? pord b t0) eqn:E.
  - cbn. discriminate.
  - destruct ((pord b t1 - pord b t0) / Z.pos (fmult (to_freq s)) + 1 =? 0) eqn:E2; [discriminate|].
    intros H. apply (f_equal (fun r => match r with Ok x => x | Err _ => f end)) in H. subst f. cbn [fr_str fr_o0 fr_len]. fold b.
    assert (0 <= (pord b t1 - pord b t0) / Z.pos (fmult (to_freq s))) by (apply Z.div_pos; lia).
    set (q := (pord b t1 - pord b t0) / Z.pos (fmult (to_freq s))) in *. clearbody q.
    repeat split; try reflexivity; lia.
Qed.
Lemma mk_frame_ok s t0 t1 : pord (fbase (to_freq s)) t0 <= pord (fbase (to_freq s)) t1 ->
  exists f, mk_frame s t0 t1 = Ok f.
Proof.
  intros H. unfold mk_frame, period_count. set (b := fbase (to_freq s)) in *.
  destruct (pord b t1 <? pord b t0) eqn:E; [lia|].
  assert (0 <= (pord b t1 - pord b t0) / Z.pos (fmult (to_freq s))) by (apply Z.div_pos; lia).
  destruct ((pord b t1 - pord b t0) / Z.pos (fmult (to_freq s)) + 1 =? 0) eqn:E2; [lia|].
  eexists. reflexivity.
Qed.
Lemma mk_frame_err s t0 t1 e : mk_frame s t0 t1 = Err e ->
  e = EVoidInterval /\ pord (fbase (to_freq s)) t1 < pord (fbase (to_freq s)) t0.
Proof.
  intros H. destruct (Z.le_gt_cases (pord (fbase (to_freq s)) t0) (pord (fbase (to_freq s)) t1)) as [Hc|Hc].
  - destruct (mk_frame_ok s t0 t1 Hc) as [f Hf]. congruence.
  - split; [|lia]. unfold mk_frame in H. destruct (period_count _ _ _ =? 0) in H; congruence.
Qed.

Lemma fr_start_times_znth f i : 0 <= i < fr_len f -> znth (fr_start_times f) i = Some (unit_start f i).
Proof. intros H. unfold fr_start_times. rewrite znth_map, zrange_znth by lia. reflexivity. Qed.
Lemma fr_start_times_asc f : asc (fr_start_times f).
Proof. apply asc_map_range. intros i j. apply unit_start_lt. Qed.
Lemma fr_start_times_len f : fr_wf f -> zlen (fr_start_times f) = fr_len f.
Proof. unfold fr_wf. intros H. unfold fr_start_times. rewrite zlen_map, zlen_zrange. lia. Qed.

Lemma fr_get_loc_in f t : fr_wf f -> fr_start_time f <= t <= fr_end_time f ->
  fr_get_loc f t = Ok (unit_of f t) /\ 0 <= unit_of f t < fr_len f.
Proof.
  unfold fr_wf, fr_start_time, fr_end_time. intros Hw Ht. rewrite unit_end_next in Ht.
  replace (fr_len f - 1 + 1) with (fr_len f) in Ht by lia.
  pose proof (unit_of_le_iff f 0 t). pose proof (unit_of_le_iff f (fr_len f) t).
  split; [|lia]. unfold fr_get_loc, fr_start_time, fr_end_time. rewrite unit_end_next.
  replace (fr_len f - 1 + 1) with (fr_len f) by lia.
  destruct ((unit_start f (fr_len f) - 1 <? t) || (t <? unit_start f 0)) eqn:E; [lia|].
  f_equal. unfold fr_start_times.
  pose proof (unit_of_spec f t) as Hs. rewrite unit_end_next in Hs.
  rewrite (ss_right_map_range (unit_start f) _ t (unit_of f t)); [lia|apply unit_start_lt|lia|lia|lia].
Qed.
Lemma fr_get_loc_out f t : t < fr_start_time f \/ fr_end_time f < t -> fr_get_loc f t = Err EKey.
Proof.
  intros H. unfold fr_get_loc.
  destruct ((fr_end_time f <? t) || (t <? fr_start_time f)) eqn:E; [reflexivity|lia].
Qed.

Lemma fr_get_nonneg f i : 0 <= i < fr_len f -> fr_get f i = Ok i.
Proof. intros H. unfold fr_get. destruct ((0 <=? i) && (i <? fr_len f)) eqn:E; [reflexivity|lia]. Qed.

(** ** Where a mark cuts *)
(** The position get_loc_vectorized finds for one timestamp. *)
Definition cut_unit (f : frame) (t : Z) : Z :=
  if t <? unit_start f 0 then -1
  else if unit_start f (fr_len f - 1) + SMALLEST_TIMEDELTA <=? t then fr_len f
  else Z.min (unit_of f t) (fr_len f - 1).

Lemma vectorized_cut f t : fr_wf f ->
  ss_right (fr_start_times f ++ [unit_start f (fr_len f - 1) + SMALLEST_TIMEDELTA]) t - 1 = cut_unit f t.
Proof.
  unfold fr_wf. intros Hw. set (l := fr_start_times f). set (w := unit_start f (fr_len f - 1) + SMALLEST_TIMEDELTA).
  assert (Hl : zlen l = fr_len f) by (apply fr_start_times_len; exact Hw).
  assert (Ha : asc (l ++ [w])).
  { apply asc_app; [apply fr_start_times_asc|repeat constructor|].
    intros x y Hx [<-|[]]. apply In_znth in Hx. destruct Hx as [i Hi].
    pose proof (znth_range _ _ _ Hi) as Ri. unfold l in Hi. rewrite fr_start_times_znth in Hi by lia.
    injection Hi as <-. unfold w, SMALLEST_TIMEDELTA, NS_SEC.
    pose proof (unit_start_le f i (fr_len f - 1)). lia. }
  assert (Hn : forall i, 0 <= i < fr_len f -> znth (l ++ [w]) i = Some (unit_start f i)).
  { intros i Hi. rewrite znth_app_l by lia. apply fr_start_times_znth. exact Hi. }
  assert (Hw2 : znth (l ++ [w]) (fr_len f) = Some w).
  { rewrite znth_app_r by lia. rewrite Hl, Z.sub_diag. reflexivity. }
  pose proof (ss_right_le (l ++ [w]) t) as B. rewrite zlen_app, Hl in B. change (zlen [w]) with 1 in B.
  pose proof (ss_right_lt_iff _ t _ _ Ha Hw2) as C1.
  pose proof (ss_right_lt_iff _ t _ _ Ha (Hn 0 ltac:(lia))) as C2.
  unfold cut_unit. fold w. destruct (t <? unit_start f 0) eqn:E1; [lia|].
  destruct (w <=? t) eqn:E2; [lia|].
  pose proof (unit_of_le_iff f 0 t). pose proof (unit_of_spec f t) as Hs. rewrite unit_end_next in Hs.
  destruct (Z.lt_ge_cases (unit_of f t) (fr_len f)) as [Hc|Hc].
  - pose proof (ss_right_lt_iff _ t _ _ Ha (Hn (unit_of f t) ltac:(lia))) as C3.
    destruct (Z.eq_dec (unit_of f t) (fr_len f - 1)) as [Hd|Hd]; [lia|].
    pose proof (ss_right_lt_iff _ t _ _ Ha (Hn (unit_of f t + 1) ltac:(lia))) as C4. lia.
  - (* beyond the last unit but before the sentinel *)
    pose proof (ss_right_lt_iff _ t _ _ Ha (Hn (fr_len f - 1) ltac:(lia))) as C3.
    pose proof (proj1 (unit_of_le_iff f (fr_len f) t) Hc). pose proof (unit_start_lt f (fr_len f - 1) (fr_len f) ltac:(lia)). lia.
Qed.

Lemma get_loc_vectorized_In f ts a b u : fr_wf f ->
  In u (get_loc_vectorized f ts a b) <-> a < u <= b /\ exists t, In t ts /\ cut_unit f t = u.
Proof.
  intros Hw. unfold get_loc_vectorized. rewrite filter_In, in_map_iff. split.
  - intros [(t & Ht & Hin) Hr]. rewrite vectorized_cut in Ht by exact Hw. split; [lia|]. exists t. split; assumption.
  - intros [Hr (t & Hin & Ht)]. split; [|lia]. exists t. rewrite vectorized_cut by exact Hw. split; assumption.
Qed.

(** ** Tilings *)
Inductive tiles : Z -> Z -> list span -> Prop :=
| tiles_one a b l r : a <= b -> tiles a b [mkSpan a b l r]
| tiles_cons a m b l r rest : a <= m -> m < b -> tiles (m + 1) b rest ->
    tiles a b (mkSpan a m l r :: rest).

Lemma tiles_le a b l : tiles a b l -> a <= b.
Proof. induction 1; lia. Qed.
Lemma tiles_In a b l s : tiles a b l -> In s l -> a <= s_first s /\ s_first s <= s_last s /\ s_last s <= b.
Proof.
  induction 1 as [a b x y H|a m b x y rest H1 H2 Ht IH]; cbn [In].
  - intros [<-|[]]. cbn. lia.
  - apply tiles_le in Ht as Hle. intros [<-|Hs]; [cbn; lia|]. specialize (IH Hs). lia.
Qed.
Lemma tiles_hd a b l : tiles a b l -> exists s rest, l = s :: rest /\ s_first s = a.
Proof. destruct 1; eexists; eexists; split; reflexivity. Qed.

(** Index of the span of a unit. *)
Lemma tiles_cover a b l u : tiles a b l -> a <= u <= b ->
  exists j s, znth l j = Some s /\ s_first s <= u <= s_last s.
Proof.
  induction 1 as [a b x y H|a m b x y rest H1 H2 Ht IH]; intros Hu.
  - exists 0. eexists. split; [reflexivity|]. cbn. lia.
  - destruct (Z.le_gt_cases u m) as [Hc|Hc].
    + exists 0. eexists. split; [reflexivity|]. cbn. lia.
    + destruct IH as (j & s & Hj & Hs); [lia|]. exists (j + 1), s.
      pose proof (znth_range _ _ _ Hj). rewrite znth_cons by lia.
      replace (j + 1 - 1) with j by lia. split; assumption.
Qed.
Lemma tiles_disjoint a b l i j s s' : tiles a b l -> znth l i = Some s -> znth l j = Some s' ->
  i < j -> s_last s < s_first s'.
Proof.
  intros Ht. revert i j. induction Ht as [a b x y H|a m b x y rest H1 H2 Ht IH]; intros i j Hi Hj Hij.
  - apply znth_range in Hi, Hj. rewrite zlen_cons in Hi, Hj. znil. lia.
  - pose proof (znth_range _ _ _ Hi) as Ri. rewrite znth_cons in Hj by lia.
    destruct (Z.eq_dec i 0) as [->|Ni].
    + rewrite znth_cons0 in Hi. injection Hi as <-. cbn.
      pose proof (tiles_In _ _ _ _ Ht (znth_In _ _ _ Hj)). lia.
    + rewrite znth_cons in Hi by lia. apply (IH (i - 1) (j - 1)); [assumption|assumption|lia].
Qed.
Lemma tiles_unique a b l i j s s' u : tiles a b l -> znth l i = Some s -> znth l j = Some s' ->
  s_first s <= u <= s_last s -> s_first s' <= u <= s_last s' -> i = j.
Proof.
  intros Ht Hi Hj H1 H2. destruct (Z.lt_trichotomy i j) as [Hc|[Hc|Hc]]; [|exact Hc|].
  - pose proof (tiles_disjoint _ _ _ _ _ _ _ Ht Hi Hj Hc). lia.
  - pose proof (tiles_disjoint _ _ _ _ _ _ _ Ht Hj Hi Hc). lia.
Qed.

Lemma subspan_tiles first last ps : first <= last ->
  asc (first :: ps) -> (forall p, In p ps -> p <= last) ->
  tiles first last (map (fun p => mkSpan (fst p) (snd p) 0 0) (subspan_bounds first ps last))
  /\ map s_first (map (fun p => mkSpan (fst p) (snd p) 0 0) (subspan_bounds first ps last)) = first :: ps.
Proof.
  revert first. induction ps as [|p ps IH]; intros first Hf Ha Hb; cbn [subspan_bounds map fst snd s_first].
  - split; [constructor; exact Hf|reflexivity].
  - inversion Ha as [|x y Hs Hall]; subst. inversion Hall as [|x y Hlt Hall2]; subst.
    destruct (IH p) as [H1 H2]; [apply Hb; left; reflexivity|exact Hs|intros q Hq; apply Hb; right; exact Hq|].
    pose proof (Hb p (or_introl eq_refl)). split.
    + apply tiles_cons; [lia|lia|]. replace (p - 1 + 1) with p by lia. exact H1.
    + rewrite H2. reflexivity.
Qed.

Definition span_wf (f : frame) (s : span) : Prop := 0 <= s_first s <= s_last s /\ s_last s < fr_len f.

Lemma check_span_ok f s : span_wf f s -> check_span f s = Ok tt.
Proof.
  intros [H1 H2]. unfold check_span. rewrite !fr_get_nonneg by lia.
  destruct ((s_first s <? 0) || (s_last s <? 0)) eqn:E1; [lia|].
  destruct (s_last s <? s_first s) eqn:E2; [lia|reflexivity].
Qed.

Lemma create_subspans_ok f s pts : fr_wf f -> span_wf f s ->
  exists spans, create_subspans f s pts = Ok spans
  /\ tiles (s_first s) (s_last s) spans
  /\ (forall u, In u (map s_first spans) <->
       u = s_first s \/ (s_first s < u <= s_last s /\ exists t, In t pts /\ cut_unit f t = u))
  /\ (forall x, In x spans -> s_left x = 0 /\ s_right x = 0).
Proof.
  intros Hw Hs. unfold create_subspans, locate_subspans. rewrite check_span_ok by exact Hs. cbn [bind].
  eexists. split; [reflexivity|].
  set (cuts := get_loc_vectorized f pts (s_first s) (s_last s)).
  assert (Hin : forall u, In u (zdedup (zsort cuts)) <-> s_first s < u <= s_last s /\ exists t, In t pts /\ cut_unit f t = u).
  { intros u. rewrite zdedup_In, zsort_In. apply get_loc_vectorized_In. exact Hw. }
  destruct (subspan_tiles (s_first s) (s_last s) (zdedup (zsort cuts))) as [H1 H2].
  - apply Hs.
  - constructor; [apply zdedup_asc, zsort_sorted|]. apply Forall_forall. intros u Hu. apply Hin in Hu. lia.
  - intros p Hp. apply Hin in Hp. lia.
  - split; [exact H1|]. split.
    + intros u. rewrite H2. cbn [In]. rewrite Hin. intuition.
    + intros x Hx. apply in_map_iff in Hx. destruct Hx as (p & <- & _). split; reflexivity.
Qed.

(** set_left / set_right only change the skip counts. *)
Lemma set_left_tiles v a b l : tiles a b l -> tiles a b (set_left v l).
Proof. destruct 1; cbn [set_left s_first s_last s_right]; constructor; assumption. Qed.
Lemma set_left_firsts v l : map s_first (set_left v l) = map s_first l.
Proof. destruct l; reflexivity. Qed.
Lemma set_right_tiles v a b l : tiles a b l -> tiles a b (set_right v l).
Proof.
  induction 1 as [a b x y H|a m b x y rest H1 H2 Ht IH]; [constructor; exact H|].
  destruct rest as [|s rest]; [inversion Ht|].
  change (set_right v (mkSpan a m x y :: s :: rest)) with (mkSpan a m x y :: set_right v (s :: rest)).
  constructor; assumption.
Qed.
Lemma set_right_firsts v l : map s_first (set_right v l) = map s_first l.
Proof.
  induction l as [|s l IH]; [reflexivity|]. destruct l as [|s2 l]; [reflexivity|].
  change (set_right v (s :: s2 :: l)) with (s :: set_right v (s2 :: l)). cbn [map]. rewrite IH. reflexivity.
Qed.
Lemma set_right_left_hd v l : map s_left (set_right v l) = map s_left l.
Proof.
  induction l as [|s l IH]; [reflexivity|]. destruct l as [|s2 l]; [reflexivity|].
  change (set_right v (s :: s2 :: l)) with (s :: set_right v (s2 :: l)). cbn [map]. rewrite IH. reflexivity.
Qed.

Lemma finish_partition_ok f s pts lu lb ru rb : fr_wf f -> span_wf f s ->
  exists spans, finish_partition f s pts lu lb ru rb = Ok spans
  /\ tiles (s_first s) (s_last s) spans
  /\ (forall u, In u (map s_first spans) <->
       u = s_first s \/ (s_first s < u <= s_last s /\ exists t, In t pts /\ cut_unit f t = u))
  /\ (exists rest, map s_left spans = skipped_before f s lu lb :: rest /\ forall v, In v rest -> v = 0).
Proof.
  intros Hw Hs. destruct (create_subspans_ok f s pts Hw Hs) as (spans & H1 & H2 & H3 & H4).
  unfold finish_partition. rewrite H1. cbn [bind]. eexists. split; [reflexivity|].
  split; [apply set_right_tiles, set_left_tiles, H2|]. split.
  - intros u. rewrite set_right_firsts, set_left_firsts. apply H3.
  - rewrite set_right_left_hd. destruct (tiles_hd _ _ _ H2) as (x & rest & -> & _).
    cbn [set_left map s_left]. eexists. split; [reflexivity|]. intros v Hv. apply in_map_iff in Hv.
    destruct Hv as (y & <- & Hy). apply H4. right; exact Hy.
Qed.

Lemma partition_with_marker_tiles f s m spans : fr_wf f -> span_wf f s ->
  partition_with_marker f s m = Ok spans -> tiles (s_first s) (s_last s) spans.
Proof.
  intros Hw Hs. unfold partition_with_marker.
  destruct (negb (check_groupby_freq (fr_str f) (m_each m))); [discriminate|].
  rewrite check_span_ok by exact Hs. cbn [bind].
  destruct (m_at m) as [|h at_]; cbn zeta.
  - destruct (mk_frame _ _ _) as [st|e]; cbn [bind]; [|discriminate]. intros H.
    destruct (finish_partition_ok f s (fr_start_times st) false (fr_start_time st) false (fr_end_time st) Hw Hs) as (x & Hx & Ht & _).
    rewrite Hx in H. injection H as <-. exact Ht.
  - destruct (mk_frame _ _ _) as [st|e]; cbn [bind]; [|discriminate].
    destruct (mapM _ _) as [pts|e]; cbn [bind]; [|discriminate].
    destruct (py_slice _ _ _) as [|p ps].
    + intros H. injection H as <-. constructor. apply Hs.
    + intros H.
      match type of H with finish_partition f s ?a ?b ?c ?d ?e = _ =>
        destruct (finish_partition_ok f s a b c d e Hw Hs) as (x & Hx & Ht & _) end.
      rewrite Hx in H. injection H as <-. exact Ht.
Qed.

Lemma partition_at_marks_tiles f s ms spans : fr_wf f -> span_wf f s ->
  partition_at_marks f s ms = Ok spans -> tiles (s_first s) (s_last s) spans.
Proof.
  intros Hw Hs H. destruct (create_subspans_ok f s ms Hw Hs) as (x & H1 & H2 & _).
  unfold partition_at_marks in H. rewrite H1 in H. injection H as <-. exact H2.
Qed.
