(** Proofs of C71. *)
From Verif Require Import Base BaseProofs Civil Freq FreqProofs Frame FrameProofs Timeline TimelineProofs Board Spec BoardProofs SpecLookup LookupProofs SpecRoll SpecQuery QueryProofs SpecInterval IntervalProofs CountProofs.
From Coq Require Import ZifyBool ZifyNat QArith Qfield Lqa.
Open Scope Z_scope.

Lemma q_total_ext {A} (f g : A -> Q) l : (forall x, In x l -> f x == g x)%Q -> (q_total (map f l) == q_total (map g l))%Q.
Proof.
  induction l as [|x l IH]; intros H; [reflexivity|]. cbn [map q_total fold_right]. rewrite (H x) by (left; reflexivity).
  fold (q_total (map f l)) (q_total (map g l)). rewrite IH; [reflexivity|]. intros y Hy. apply H. right. exact Hy.
Qed.
Lemma q_total_plus {A} (f g : A -> Q) l : (q_total (map (fun x => f x + g x) l) == q_total (map f l) + q_total (map g l))%Q.
Proof.
  induction l as [|x l IH]; [reflexivity|]. cbn [map q_total fold_right]. fold (q_total (map (fun x => f x + g x)%Q l)) (q_total (map f l)) (q_total (map g l)).
  rewrite IH. ring.
Qed.
Lemma q_total_le {A} (f g : A -> Q) l : (forall x, In x l -> f x <= g x)%Q -> (q_total (map f l) <= q_total (map g l))%Q.
Proof.
  induction l as [|x l IH]; intros H; [apply Qle_refl|]. cbn [map q_total fold_right]. fold (q_total (map f l)) (q_total (map g l)).
  apply Qplus_le_compat; [apply H; left; reflexivity|]. apply IH. intros y Hy. apply H. right. exact Hy.
Qed.
Lemma q_total_nonneg {A} (f : A -> Q) l : (forall x, In x l -> 0 <= f x)%Q -> (0 <= q_total (map f l))%Q.
Proof.
  induction l as [|x l IH]; intros H; [apply Qle_refl|]. cbn [map q_total fold_right]. fold (q_total (map f l)).
  change 0%Q with (0 + 0)%Q. apply Qplus_le_compat; [apply H; left; reflexivity|]. apply IH. intros y Hy. apply H. right. exact Hy.
Qed.
Lemma q_total_member {A} (f : A -> Q) l x : (forall y, In y l -> 0 <= f y)%Q -> In x l -> (f x <= q_total (map f l))%Q.
Proof.
  induction l as [|y l IH]; intros H Hx; [contradiction|]. cbn [map q_total fold_right]. fold (q_total (map f l)).
  assert (H0 : (0 <= f y)%Q) by (apply H; left; reflexivity).
  assert (H1 : (0 <= q_total (map f l))%Q) by (apply q_total_nonneg; intros z Hz; apply H; right; exact Hz).
  destruct Hx as [->|Hx]; [lra|]. specialize (IH (fun z Hz => H z (or_intror Hz)) Hx). lra.
Qed.
Lemma q_total_units {A} (f : A -> Q) l : (forall x, In x l -> f x <= 1)%Q -> (q_total (map f l) <= inject_Z (zlen l))%Q.
Proof.
  induction l as [|x l IH]; intros H; [apply Qle_refl|]. cbn [map q_total fold_right]. fold (q_total (map f l)). rewrite zlen_cons, inject_Z_plus.
  assert (H0 : (f x <= 1)%Q) by (apply H; left; reflexivity). specialize (IH (fun z Hz => H z (or_intror Hz))). change (inject_Z 1) with 1%Q. lra.
Qed.

Lemma countable_dec fs : countable fs \/ ~ countable fs.
Proof.
  destruct (supported_period fs) eqn:E; [left; apply countable_iff, E|right; intros H; apply countable_iff in H; rewrite E in H; discriminate].
Qed.

Lemma start_mono {L} (tl : timeline L) (W : tl_wf tl) i j : 0 <= i -> i < j -> j <= tl_len tl ->
  unit_start (tl_frame tl) (bnd tl i) < unit_start (tl_frame tl) (bnd tl j).
Proof. intros H1 H2 H3. apply unit_start_lt. apply (bnd_lt _ W); assumption. Qed.

Section Add.
  Context {L : Type} (tb : timeboard L) (Hr : reachable tb).
  Let W : tl_wf (tb_tl tb) := proj1 (reachable_wf tb Hr).

  Lemma count_returns iv fs d s q : iv_void iv = false -> count_periods tb iv fs d s = Ok q -> ivl_duty d /\ countable fs.
  Proof.
    intros Hv Hq. unfold count_periods, count_periods_by in Hq. rewrite Hv in Hq.
    destruct (supported_period fs) eqn:Hsup; [|discriminate]. split; [|apply countable_iff; exact Hsup]. cbn [negb] in Hq.
    destruct (iv_start_time tb iv); [|discriminate]. destruct (iv_end_time tb iv); [|discriminate]. cbn [bind] in Hq.
    destruct (mk_frame fs _ _); [|discriminate]. cbn [bind] in Hq. unfold iv_first, iv_nth in Hq. rewrite Hv in Hq.
    unfold ivl_duty. destruct d; cbn [get_duty_idx bind] in Hq; try discriminate; auto.
  Qed.

  (** A workshift of the interval is in a touched period. *)
  Lemma list_touched iv fs d s o0 o1 o i : iv_of tb iv -> touches tb iv (fbase (to_freq fs)) o0 o1 ->
    In i (iv_list tb iv d s) -> ref_in tb (fbase (to_freq fs)) o i = true -> o0 <= o <= o1.
  Proof.
    intros Hiv Ht Hi Ho. pose proof (iv_list_shifts tb iv d s i Hiv Hi) as Si. apply (ref_in_ok tb W fs o i Si) in Ho.
    destruct (touches_unique _ _ _ _ _ _ _ Ht (touches_ex tb W iv (fbase (to_freq fs)) Hiv)) as [-> ->].
    unfold iv_list in Hi. destruct (iv_void iv) eqn:Hv; [contradiction|]. apply duty_list_In in Hi. destruct Hi as [Hi _].
    pose proof (ref_of_within _ W i Si) as Hw. destruct Hiv as (_ & Ha & Hb & _).
    assert (H1 : unit_start (tl_frame (tb_tl tb)) (bnd (tb_tl tb) (iv_a iv)) <= unit_start (tl_frame (tb_tl tb)) (bnd (tb_tl tb) i)).
    { destruct (Z.eq_dec (iv_a iv) i) as [->|Hne]; [lia|]. pose proof (start_mono _ W (iv_a iv) i). unfold is_shift, tb_len in *. lia. }
    assert (H2 : unit_start (tl_frame (tb_tl tb)) (bnd (tb_tl tb) (i + 1)) <= unit_start (tl_frame (tb_tl tb)) (bnd (tb_tl tb) (iv_b iv + 1))).
    { destruct (Z.eq_dec (iv_b iv) i) as [->|Hne]; [lia|]. pose proof (start_mono _ W (i + 1) (iv_b iv + 1)). unfold is_shift, tb_len in *. lia. }
    rewrite <- Ho. split; apply pord_mono; lia.
  Qed.

  Definition part (iv : interval L) b d s o := zlen (filter (ref_in tb b o) (iv_list tb iv d s)).
  Definition whole b d s o := zlen (filter (ref_in tb b o) (duty_list tb s d 0 (tb_len tb - 1))).
  Lemma quotient_eq iv b d s o : quotient tb iv b d s o = if whole b d s o =? 0 then 0%Q else (inject_Z (part iv b d s o) / inject_Z (whole b d s o))%Q.
  Proof. reflexivity. Qed.

  Lemma filter_incl_len {A} (f : A -> bool) (l m n : list A) : l = m ++ n -> zlen (filter f l) = zlen (filter f m) + zlen (filter f n).
  Proof. intros ->. rewrite filter_app, zlen_app. lia. Qed.

  Lemma part_le x z b d s o : iv_of tb x -> iv_of tb z -> iv_includes z x -> 0 <= part x b d s o <= part z b d s o.
  Proof.
    intros Hx Hz Hi. split; [apply zlen_nonneg|]. unfold part, iv_list. destruct (iv_void x) eqn:Vx; [cbn [filter]; change (zlen []) with 0; apply zlen_nonneg|].
    destruct Hx as (_ & Xa & Xb & Hx). rewrite Vx in Hx. destruct (Hi (iv_a x)) as [Vz H1]; [split; [assumption|lia]|].
    destruct (Hi (iv_b x)) as [_ H2]; [split; [assumption|lia]|]. rewrite Vz.
    rewrite (duty_list_split tb s d (iv_a z) (iv_a x - 1) (iv_b z)) by lia. replace (iv_a x - 1 + 1) with (iv_a x) by lia.
    rewrite (duty_list_split tb s d (iv_a x) (iv_b x) (iv_b z)) by lia. rewrite !filter_app, !zlen_app.
    pose proof (zlen_nonneg (filter (ref_in tb b o) (duty_list tb s d (iv_a z) (iv_a x - 1)))).
    pose proof (zlen_nonneg (filter (ref_in tb b o) (duty_list tb s d (iv_b x + 1) (iv_b z)))). lia.
  Qed.
  Lemma part_whole x b d s o : iv_of tb x -> 0 <= part x b d s o <= whole b d s o.
  Proof.
    intros Hx. split; [apply zlen_nonneg|]. unfold part, whole, iv_list.
    destruct (iv_void x) eqn:Vx; [cbn [filter]; change (zlen []) with 0; apply zlen_nonneg|].
    destruct Hx as (_ & Xa & Xb & Hx). rewrite Vx in Hx. unfold is_shift in *.
    rewrite (duty_list_split tb s d 0 (iv_a x - 1) (tb_len tb - 1)) by lia. replace (iv_a x - 1 + 1) with (iv_a x) by lia.
    rewrite (duty_list_split tb s d (iv_a x) (iv_b x) (tb_len tb - 1)) by lia. rewrite !filter_app, !zlen_app.
    pose proof (zlen_nonneg (filter (ref_in tb b o) (duty_list tb s d 0 (iv_a x - 1)))).
    pose proof (zlen_nonneg (filter (ref_in tb b o) (duty_list tb s d (iv_b x + 1) (tb_len tb - 1)))). lia.
  Qed.

  Lemma q_div_le a b c : 0 < c -> a <= b -> (inject_Z a / inject_Z c <= inject_Z b / inject_Z c)%Q.
  Proof.
    intros Hc H. unfold Qdiv. apply Qmult_le_compat_r; [rewrite <- Zle_Qle; exact H|].
    apply Qinv_le_0_compat. change 0%Q with (inject_Z 0). rewrite <- Zle_Qle. lia.
  Qed.
  Lemma q_div_nonneg a c : 0 < c -> 0 <= a -> (0 <= inject_Z a / inject_Z c)%Q.
  Proof.
    intros Hc H. pose proof (q_div_le 0 a c Hc H) as Q. unfold Qdiv in Q at 1. change (inject_Z 0) with 0%Q in Q. rewrite Qmult_0_l in Q. exact Q.
  Qed.
  Lemma q_div_one c : 0 < c -> (inject_Z c / inject_Z c == 1)%Q.
  Proof. intros Hc. field. intros H. unfold Qeq in H. cbn in H. lia. Qed.
  Lemma quotient_le x z b d s o : iv_of tb x -> iv_of tb z -> iv_includes z x -> (quotient tb x b d s o <= quotient tb z b d s o)%Q.
  Proof.
    intros Hx Hz Hi. rewrite !quotient_eq. pose proof (zlen_nonneg (filter (ref_in tb b o) (duty_list tb s d 0 (tb_len tb - 1)))) as Hw. change (0 <= whole b d s o) in Hw.
    destruct (whole b d s o =? 0) eqn:E; [apply Qle_refl|]. apply q_div_le; [lia|apply part_le; assumption].
  Qed.
  Lemma quotient_range x b d s o : iv_of tb x -> (0 <= quotient tb x b d s o <= 1)%Q.
  Proof.
    intros Hx. rewrite quotient_eq. pose proof (part_whole x b d s o Hx) as Hp. destruct (whole b d s o =? 0) eqn:E; [split; [apply Qle_refl|discriminate]|].
    split; [apply q_div_nonneg; lia|]. rewrite <- (q_div_one (whole b d s o)) by lia. apply q_div_le; lia.
  Qed.
  Lemma quotient_out x fs d s o0 o1 o : iv_of tb x -> touches tb x (fbase (to_freq fs)) o0 o1 -> ~ o0 <= o <= o1 ->
    (quotient tb x (fbase (to_freq fs)) d s o == 0)%Q.
  Proof.
    intros Hx Ht Ho. rewrite quotient_eq.
    assert (E : part x (fbase (to_freq fs)) d s o = 0).
    { unfold part. destruct (filter (ref_in tb (fbase (to_freq fs)) o) (iv_list tb x d s)) as [|i l] eqn:E; [reflexivity|]. exfalso. apply Ho.
      assert (Hi : In i (filter (ref_in tb (fbase (to_freq fs)) o) (iv_list tb x d s))) by (rewrite E; left; reflexivity). apply filter_In in Hi.
      apply (list_touched x fs d s o0 o1 o i Hx Ht); apply Hi. }
    rewrite E. destruct (_ =? 0); [reflexivity|]. unfold Qdiv. change (inject_Z 0) with 0%Q. apply Qmult_0_l.
  Qed.

  (** The sum may be taken over more periods than those touched. *)
  Lemma sum_wide x fs d s o0 o1 p0 p1 : iv_of tb x -> touches tb x (fbase (to_freq fs)) o0 o1 -> p0 <= o0 -> o1 <= p1 -> o0 <= o1 + 1 ->
    (q_total (map (quotient tb x (fbase (to_freq fs)) d s) (positions p0 p1)) == q_total (map (quotient tb x (fbase (to_freq fs)) d s) (positions o0 o1)))%Q.
  Proof.
    intros Hx Ht H0 H1 H2. rewrite (positions_split p0 (o0 - 1) p1) by lia. replace (o0 - 1 + 1) with o0 by lia.
    rewrite (positions_split o0 o1 p1) by lia. rewrite !map_app, !q_total_app.
    rewrite (q_total_zero _ (positions p0 (o0 - 1))) by (intros o Hp; apply positions_In in Hp; apply (quotient_out x fs d s o0 o1 o Hx Ht); lia).
    rewrite (q_total_zero _ (positions (o1 + 1) p1)) by (intros o Hp; apply positions_In in Hp; apply (quotient_out x fs d s o0 o1 o Hx Ht); lia).
    ring.
  Qed.

  Lemma touches_order x b o0 o1 : iv_of tb x -> iv_void x = false -> touches tb x b o0 o1 -> o0 <= o1.
  Proof.
    intros Hx Hv Ht. destruct (touches_unique _ _ _ _ _ _ _ Ht (touches_ex tb W x b Hx)) as [-> ->].
    destruct Hx as (_ & Ha & Hb & Ho). rewrite Hv in Ho. apply pord_mono.
    pose proof (start_mono _ W (iv_a x) (iv_b x + 1)). unfold is_shift, tb_len in *. lia.
  Qed.
  Lemma touches_includes x z b o0 o1 p0 p1 : iv_of tb x -> iv_of tb z -> iv_void x = false -> iv_includes z x ->
    touches tb x b o0 o1 -> touches tb z b p0 p1 -> p0 <= o0 /\ o1 <= p1.
  Proof.
    intros Hx Hz Vx Hi Tx Tz.
    destruct (touches_unique _ _ _ _ _ _ _ Tx (touches_ex tb W x b Hx)) as [-> ->].
    destruct (touches_unique _ _ _ _ _ _ _ Tz (touches_ex tb W z b Hz)) as [-> ->].
    destruct Hx as (_ & Xa & Xb & Hx). rewrite Vx in Hx. destruct (Hi (iv_a x)) as [Vz H1]; [split; [assumption|lia]|].
    destruct (Hi (iv_b x)) as [_ H2]; [split; [assumption|lia]|]. destruct Hz as (_ & Za & Zb & _). unfold is_shift, tb_len in *. split; apply pord_mono.
    - destruct (Z.eq_dec (iv_a z) (iv_a x)) as [->|]; [lia|]. pose proof (start_mono _ W (iv_a z) (iv_a x)). lia.
    - destruct (Z.eq_dec (iv_b z) (iv_b x)) as [->|]; [lia|]. pose proof (start_mono _ W (iv_b x + 1) (iv_b z + 1)). lia.
  Qed.

  Lemma includes_list x z d s i : iv_includes z x -> In i (iv_list tb x d s) -> In i (iv_list tb z d s).
  Proof.
    intros Hi H. unfold iv_list in *. destruct (iv_void x) eqn:Vx; [contradiction|]. apply duty_list_In in H. destruct H as [H Hd].
    destruct (Hi i) as [Vz H1]; [split; assumption|]. rewrite Vz. apply duty_list_In. split; assumption.
  Qed.

  (** When the number is returned nothing is wrong with the touched periods. *)
  Lemma no_wrong z fs d s q : iv_of tb z -> sched_for tb s -> iv_list tb z d s <> [] ->
    count_periods tb z fs d (Some s) = Ok q ->
    forall p0 p1, touches tb z (fbase (to_freq fs)) p0 p1 -> forall o e, p0 <= o <= p1 -> ~ wrong tb fs o e.
  Proof.
    intros Hz Hs Nz Hq p0 p1 Tz. assert (Hs' : forall s', Some s = Some s' -> sched_for tb s') by (intros s' E; injection E as <-; exact Hs).
    assert (Vz : iv_void z = false) by (destruct (iv_void z) eqn:V; [exfalso; apply Nz; unfold iv_list; rewrite V; reflexivity|reflexivity]).
    destruct (count_returns z fs d (Some s) q Vz Hq) as [Hd Hc].
    pose proof (C30_errors_pf L tb z fs d (Some s) _ _ Hr Hz Hs' Hd Hc Nz Tz) as Hz'.
    assert (Hn : forall o, p0 <= o -> o <= p1 -> forall e', ~ wrong tb fs o e').
    { intros o Hp. pattern o. apply Zlt_lower_bound_ind with (z := p0); [|exact Hp].
      clear o Hp. intros o IH Hp Hpo e' Hw'. assert (Hf : count_periods tb z fs d (Some s) = Err e'); [|rewrite Hq in Hf; discriminate].
      apply Hz'. exists o. split; [lia|]. split; [exact Hw'|]. intros o' e0 Ho'. apply IH; lia. }
    intros o e Ho. apply Hn; lia.
  Qed.

  Lemma sub_returns x z fs d s q : iv_of tb x -> iv_of tb z -> iv_includes z x -> sched_for tb s ->
    count_periods tb z fs d (Some s) = Ok q -> exists qx, count_periods tb x fs d (Some s) = Ok qx.
  Proof.
    intros Hx Hz Hi Hs Hq. assert (Hs' : forall s', Some s = Some s' -> sched_for tb s') by (intros s' E; injection E as <-; exact Hs).
    destruct (iv_void x) eqn:Vx; [unfold count_periods, count_periods_by; rewrite Vx; eauto|].
    assert (Vz : iv_void z = false) by (destruct Hx as (_ & _ & _ & Hx); rewrite Vx in Hx; apply (Hi (iv_a x)); split; [assumption|lia]).
    destruct (count_returns z fs d (Some s) q Vz Hq) as [Hd Hc].
    destruct (iv_list tb x d s) as [|i l] eqn:El; [rewrite (C29_zero_pf L tb x fs d (Some s) Hr Hx Hs' Hd Hc El); eauto|].
    destruct (count_periods tb x fs d (Some s)) as [qx|e] eqn:Ex; [eauto|]. exfalso.
    assert (Hi0 : In i (iv_list tb x d s)) by (rewrite El; left; reflexivity).
    assert (Nx : iv_list tb x d (sched_arg (Some s) (iv_sched x)) <> []) by (cbn [sched_arg]; rewrite El; discriminate).
    assert (Nz : iv_list tb z d s <> []) by (intros E; apply (includes_list x z d s i Hi) in Hi0; rewrite E in Hi0; exact Hi0).
    pose proof (touches_ex tb W x (fbase (to_freq fs)) Hx) as Tx. pose proof (touches_ex tb W z (fbase (to_freq fs)) Hz) as Tz.
    destruct (proj1 (C30_errors_pf L tb x fs d (Some s) _ _ Hr Hx Hs' Hd Hc Nx Tx e) Ex) as (o & Ho & Hw & _).
    destruct (touches_includes x z _ _ _ _ _ Hx Hz Vx Hi Tx Tz) as [H1 H2].
    exact (no_wrong z fs d s q Hz Hs Nz Hq _ _ Tz o e ltac:(lia) Hw).
  Qed.

  Lemma count_sum iv fs d s q : iv_of tb iv -> sched_for tb s -> count_periods tb iv fs d (Some s) = Ok q ->
    exists o0 o1, touches tb iv (fbase (to_freq fs)) o0 o1 /\ (q == q_total (map (quotient tb iv (fbase (to_freq fs)) d s) (positions o0 o1)))%Q.
  Proof.
    intros Hiv Hs Hq. apply (C29_count_pf L tb iv fs d (Some s) q Hr Hiv); [|exact Hq]. intros s' E. injection E as <-. exact Hs.
  Qed.
End Add.

Lemma C71_inside_pf : forall (L : Type) (tb : timeboard L) (x z : interval L) fs d s q,
  reachable tb -> iv_of tb x -> iv_of tb z -> iv_includes z x -> sched_for tb s ->
  count_periods tb z fs d (Some s) = Ok q ->
  exists qx, count_periods tb x fs d (Some s) = Ok qx /\ (0 <= qx <= q)%Q.
Proof.
  intros L tb x z fs d s q Hr Hx Hz Hi Hs Hq. destruct (sub_returns tb Hr x z fs d s q Hx Hz Hi Hs Hq) as (qx & Ex). exists qx. split; [exact Ex|].
  destruct (count_sum tb Hr x fs d s qx Hx Hs Ex) as (o0 & o1 & Tx & Sx). destruct (count_sum tb Hr z fs d s q Hz Hs Hq) as (p0 & p1 & Tz & Sz).
  split; [rewrite Sx; apply q_total_nonneg; intros o _; apply (quotient_range tb x _ d s o Hx)|].
  assert (Zn : (0 <= q)%Q) by (rewrite Sz; apply q_total_nonneg; intros o _; apply (quotient_range tb z _ d s o Hz)).
  destruct (iv_void x) eqn:Vx; [unfold count_periods, count_periods_by in Ex; rewrite Vx in Ex; injection Ex as <-; exact Zn|].
  destruct (touches_includes tb Hr x z _ _ _ _ _ Hx Hz Vx Hi Tx Tz) as [H1 H2]. pose proof (touches_order tb Hr x _ _ _ Hx Vx Tx).
  rewrite Sx, Sz, <- (sum_wide tb Hr x fs d s o0 o1 p0 p1 Hx Tx) by lia. apply q_total_le. intros o _. apply quotient_le; assumption.
Qed.

Lemma C71_pieces_pf : forall (L : Type) (tb : timeboard L) (x y z : interval L) fs d s q,
  reachable tb -> iv_of tb x -> iv_of tb y -> iv_of tb z -> pieces x y z -> sched_for tb s ->
  count_periods tb z fs d (Some s) = Ok q ->
  exists qx qy, count_periods tb x fs d (Some s) = Ok qx /\ count_periods tb y fs d (Some s) = Ok qy /\ (q == qx + qy)%Q.
Proof.
  intros L tb x y z fs d s q Hr Hx Hy Hz (V1 & V2 & V3 & E1 & E2 & E3) Hs Hq.
  pose proof (proj2 (proj2 (proj2 Hx))) as Ox. pose proof (proj2 (proj2 (proj2 Hy))) as Oy. rewrite V1 in Ox. rewrite V2 in Oy.
  assert (Ix : iv_includes z x) by (intros i [_ Hi]; split; [assumption|lia]).
  assert (Iy : iv_includes z y) by (intros i [_ Hi]; split; [assumption|lia]).
  destruct (sub_returns tb Hr x z fs d s q Hx Hz Ix Hs Hq) as (qx & Ex). destruct (sub_returns tb Hr y z fs d s q Hy Hz Iy Hs Hq) as (qy & Ey).
  exists qx, qy. split; [exact Ex|]. split; [exact Ey|].
  destruct (count_sum tb Hr x fs d s qx Hx Hs Ex) as (o0 & o1 & Tx & Sx). destruct (count_sum tb Hr y fs d s qy Hy Hs Ey) as (r0 & r1 & Ty & Sy).
  destruct (count_sum tb Hr z fs d s q Hz Hs Hq) as (p0 & p1 & Tz & Sz).
  destruct (touches_includes tb Hr x z _ _ _ _ _ Hx Hz V1 Ix Tx Tz) as [H1 H2]. pose proof (touches_order tb Hr x _ _ _ Hx V1 Tx).
  destruct (touches_includes tb Hr y z _ _ _ _ _ Hy Hz V2 Iy Ty Tz) as [H3 H4]. pose proof (touches_order tb Hr y _ _ _ Hy V2 Ty).
  rewrite Sx, Sy, Sz, <- (sum_wide tb Hr x fs d s o0 o1 p0 p1 Hx Tx), <- (sum_wide tb Hr y fs d s r0 r1 p0 p1 Hy Ty) by lia.
  rewrite <- q_total_plus. apply q_total_ext. intros o _. rewrite !quotient_eq.
  assert (Ep : part tb z (fbase (to_freq fs)) d s o = part tb x (fbase (to_freq fs)) d s o + part tb y (fbase (to_freq fs)) d s o).
  { apply filter_incl_len. unfold iv_list. rewrite V1, V2, V3. rewrite <- E1, <- E3, <- E2. apply duty_list_split; lia. }
  rewrite Ep, inject_Z_plus. destruct (_ =? 0); [reflexivity|]. unfold Qdiv. ring.
Qed.

(** The other way round: the numbers for two pieces, both of which have workshifts to count. *)
Lemma C71_whole_pf : forall (L : Type) (tb : timeboard L) (x y z : interval L) fs d s qx qy,
  reachable tb -> iv_of tb x -> iv_of tb y -> iv_of tb z -> pieces x y z -> sched_for tb s ->
  iv_list tb x d s <> [] -> iv_list tb y d s <> [] ->
  count_periods tb x fs d (Some s) = Ok qx -> count_periods tb y fs d (Some s) = Ok qy ->
  exists q, count_periods tb z fs d (Some s) = Ok q /\ (q == qx + qy)%Q.
Proof.
  intros L tb x y z fs d s qx qy Hr Hx Hy Hz Hp Hs Nx Ny Ex Ey.
  assert (Hs' : forall s', Some s = Some s' -> sched_for tb s') by (intros s' E; injection E as <-; exact Hs).
  destruct (count_periods tb z fs d (Some s)) as [q|e] eqn:Ez.
  - exists q. split; [reflexivity|]. destruct (C71_pieces_pf L tb x y z fs d s q Hr Hx Hy Hz Hp Hs Ez) as (a & b & Ea & Eb & E).
    rewrite Ex in Ea. rewrite Ey in Eb. injection Ea as <-. injection Eb as <-. exact E.
  - exfalso. destruct Hp as (V1 & V2 & V3 & E1 & E2 & E3). pose proof (proj1 (reachable_wf tb Hr)) as W.
    destruct (count_returns tb x fs d (Some s) qx V1 Ex) as [Hd Hc].
    pose proof (proj2 (proj2 (proj2 Hx))) as Ox. pose proof (proj2 (proj2 (proj2 Hy))) as Oy. rewrite V1 in Ox. rewrite V2 in Oy.
    assert (Nz : iv_list tb z d s <> []).
    { intros E. destruct (iv_list tb x d s) as [|i l] eqn:El; [apply Nx; reflexivity|].
      assert (Hi : In i (iv_list tb z d s)); [|rewrite E in Hi; exact Hi]. apply (includes_list tb x z); [|rewrite El; left; reflexivity].
      intros k [_ Hk]; split; [assumption|lia]. }
    pose proof (touches_ex tb W x (fbase (to_freq fs)) Hx) as Tx. pose proof (touches_ex tb W y (fbase (to_freq fs)) Hy) as Ty.
    pose proof (touches_ex tb W z (fbase (to_freq fs)) Hz) as Tz.
    destruct (proj1 (C30_errors_pf L tb z fs d (Some s) _ _ Hr Hz Hs' Hd Hc Nz Tz e) Ez) as (o & Ho & Hw & _).
    pose proof (no_wrong tb Hr x fs d s qx Hx Hs Nx Ex _ _ Tx) as Wx. pose proof (no_wrong tb Hr y fs d s qy Hy Hs Ny Ey _ _ Ty) as Wy.
    rewrite <- E1, <- E3 in Ho. rewrite <- E2 in Wy.
    set (t := unit_start (tl_frame (tb_tl tb)) (bnd (tb_tl tb) (iv_b x + 1))) in *.
    assert (Hadj : pord (fbase (to_freq fs)) t <= pord (fbase (to_freq fs)) (t - 1) + 1).
    { pose proof (pord_spec (fbase (to_freq fs)) (t - 1)) as Q. pose proof (pord_spec (fbase (to_freq fs)) t) as Q'.
      destruct (Z.le_gt_cases (pord (fbase (to_freq fs)) t) (pord (fbase (to_freq fs)) (t - 1) + 1)) as [|H]; [assumption|exfalso].
      pose proof (pstart_lt (fbase (to_freq fs)) (pord (fbase (to_freq fs)) (t - 1) + 1) (pord (fbase (to_freq fs)) t) ltac:(lia)). lia. }
    destruct (Z.le_gt_cases o (pord (fbase (to_freq fs)) (t - 1))) as [H|H]; [apply (Wx o e ltac:(lia) Hw)|apply (Wy o e ltac:(lia) Hw)].
Qed.

Lemma C71_bounds_pf : forall (L : Type) (tb : timeboard L) (iv : interval L) fs d s q o0 o1,
  reachable tb -> iv_of tb iv -> sched_for tb s -> count_periods tb iv fs d (Some s) = Ok q ->
  iv_void iv = false -> touches tb iv (fbase (to_freq fs)) o0 o1 ->
  (0 <= q <= inject_Z (o1 - o0 + 1))%Q /\ ((q == 0)%Q <-> iv_list tb iv d s = []).
Proof.
  intros L tb iv fs d s q o0 o1 Hr Hiv Hs Hq Hv Ht. destruct (count_sum tb Hr iv fs d s q Hiv Hs Hq) as (p0 & p1 & Tz & Sz).
  destruct (touches_unique _ _ _ _ _ _ _ Ht Tz) as [<- <-]. clear Tz. pose proof (touches_order tb Hr iv _ _ _ Hiv Hv Ht) as Ho.
  assert (N : forall o, (0 <= quotient tb iv (fbase (to_freq fs)) d s o <= 1)%Q) by (intros o; apply (quotient_range tb iv _ d s o Hiv)).
  split; [split|].
  - rewrite Sz. apply q_total_nonneg. intros o _. apply N.
  - rewrite Sz. replace (o1 - o0 + 1) with (zlen (positions o0 o1)) by (rewrite zlen_positions by lia; lia). apply q_total_units. intros o _. apply N.
  - split.
    + intros H0. destruct (iv_list tb iv d s) as [|i l] eqn:El; [reflexivity|exfalso].
      assert (Hi : In i (iv_list tb iv d s)) by (rewrite El; left; reflexivity).
      pose proof (iv_list_shifts tb iv d s i Hiv Hi) as Si. pose proof (proj1 (reachable_wf tb Hr)) as W.
      assert (Hi2 : has_duty tb s d i = true) by (unfold iv_list in Hi; rewrite Hv in Hi; apply duty_list_In in Hi; apply Hi).
      set (o := pord (fbase (to_freq fs)) (ref_of (tb_tl tb) i)).
      assert (Ro : ref_in tb (fbase (to_freq fs)) o i = true) by (apply (ref_in_ok tb W fs o i Si); reflexivity).
      pose proof (list_touched tb Hr iv fs d s o0 o1 o i Hiv Ht Hi Ro) as Hoo.
      assert (Hp : 0 < part tb iv (fbase (to_freq fs)) d s o).
      { unfold part. assert (Hin : In i (filter (ref_in tb (fbase (to_freq fs)) o) (iv_list tb iv d s))) by (apply filter_In; split; assumption).
        destruct (filter _ _) as [|j m]; [contradiction|]. rewrite zlen_cons. pose proof (zlen_nonneg m). lia. }
      pose proof (part_whole tb iv (fbase (to_freq fs)) d s o Hiv) as Hpw.
      assert (Hpos : (0 < quotient tb iv (fbase (to_freq fs)) d s o)%Q).
      { rewrite quotient_eq. replace (whole tb (fbase (to_freq fs)) d s o =? 0) with false by lia.
        apply Qlt_shift_div_l; [change 0%Q with (inject_Z 0); rewrite <- Zlt_Qlt; lia|]. rewrite Qmult_0_l. change 0%Q with (inject_Z 0). rewrite <- Zlt_Qlt. lia. }
      assert (Hle : (quotient tb iv (fbase (to_freq fs)) d s o <= q_total (map (quotient tb iv (fbase (to_freq fs)) d s) (positions o0 o1)))%Q).
      { apply q_total_member; [intros y _; apply N|apply positions_In; lia]. }
      rewrite <- Sz in Hle. lra.
    + intros He. rewrite Sz. apply q_total_zero. intros o _. rewrite quotient_eq. unfold part. rewrite He. cbn [filter]. change (inject_Z (zlen [])) with 0%Q.
      destruct (_ =? 0); [reflexivity|]. unfold Qdiv. apply Qmult_0_l.
Qed.

Lemma inside_dec {L} (tb : timeboard L) p : inside tb p \/ ~ inside tb p.
Proof. unfold inside. lia. Qed.
Lemma in_period_dec {L} (tb : timeboard L) (W : tl_wf (tb_tl tb)) p : (exists i, in_period tb p i) \/ (forall i, ~ in_period tb p i).
Proof.
  destruct (existsb (fun i => (p_start p <=? ref_of (tb_tl tb) i) && (ref_of (tb_tl tb) i <=? p_end p)) (positions 0 (tb_len tb - 1))) eqn:E.
  - left. apply existsb_exists in E. destruct E as (i & Hi & H). apply positions_In in Hi. exists i. apply (in_period_ref tb W). split; [unfold is_shift; lia|lia].
  - right. intros i Hi. apply (in_period_ref tb W) in Hi. destruct Hi as [Si Hi]. apply Bool.not_true_iff_false in E. apply E.
    apply existsb_exists. exists i. split; [apply positions_In; unfold is_shift in Si; lia|lia].
Qed.

(** The interval of a calendar period counts as one such period, if it has workshifts to count. *)
Lemma C71_one_pf : forall (L : Type) (tb : timeboard L) (iv : interval L) r per clip s0 fs o d s q,
  reachable tb -> sched_for tb s -> (forall s', s0 = Some s' -> sched_for tb s') ->
  means_period r per (mkPeriod (to_freq fs) o) -> get_interval tb r None per clip C11 s0 = Ok iv ->
  count_periods tb iv fs d (Some s) = Ok q ->
  (iv_list tb iv d s = [] -> (q == 0)%Q) /\ (iv_list tb iv d s <> [] -> (q == 1)%Q).
Proof.
  intros L tb iv r per clip s0 fs o d s q Hr Hs Hs0 Hm Hg Hq. destruct (reachable_wf tb Hr) as (W & Hdef & _).
  assert (HC : get_interval tb r None per true C11 s0 = Ok iv /\ exists i, in_period tb (mkPeriod (to_freq fs) o) i).
  { destruct (C22_period_pf L tb Hr r per _ s0 Hm) as [A B]. destruct (C23_unclipped_pf L tb Hr r per _ s0 Hm) as [C D]. cbv zeta in *.
    destruct (in_period_dec tb W (mkPeriod (to_freq fs) o)) as [He|He].
    - split; [|exact He]. destruct clip; [exact Hg|]. destruct (inside_dec tb (mkPeriod (to_freq fs) o)) as [Hin|Hin]; [rewrite <- (C Hin); exact Hg|].
      rewrite (proj1 (D Hin) He) in Hg. discriminate.
    - exfalso. destruct (inside_dec tb (mkPeriod (to_freq fs) o)) as [Hin|Hin].
      + destruct clip; [rewrite (proj1 (B He) Hin) in Hg; discriminate|]. rewrite (C Hin), (proj1 (B He) Hin) in Hg. discriminate.
      + destruct clip; [rewrite (proj2 (B He) Hin) in Hg; discriminate|]. rewrite (proj2 (D Hin) He) in Hg. discriminate. }
  destruct HC as [Hc (k & Hk)]. destruct (proj1 (C22_period_pf L tb Hr r per _ s0 Hm) (ex_intro _ k Hk)) as (iv' & E & Hv & Hsch & HM).
  rewrite Hc in E. injection E as <-. pose proof (proj2 (proj2 (HM k) Hk)) as Hka.
  assert (Hiv : iv_of tb iv).
  { split; [rewrite Hsch; destruct s0; [apply Hs0; reflexivity|exact Hdef]|].
    split; [apply (HM (iv_a iv)); split; [exact Hv|lia]|]. split; [apply (HM (iv_b iv)); split; [exact Hv|lia]|]. rewrite Hv. lia. }
  destruct (count_sum tb Hr iv fs d s q Hiv Hs Hq) as (o0 & o1 & Ht & Sq).
  split; [intros He; apply (C71_bounds_pf L tb iv fs d s q o0 o1 Hr Hiv Hs Hq Hv Ht); exact He|]. intros Hne.
  assert (Hmult : fmult (to_freq fs) = 1%positive).
  { destruct (count_returns tb iv fs d (Some s) q Hv Hq) as [_ Hcs]. apply countable_iff in Hcs. exact (sup_mult fs Hcs). }
  assert (Hmem : forall i, iv_mem iv i <-> is_shift tb i /\ ref_in tb (fbase (to_freq fs)) o i = true).
  { intros i. rewrite HM. apply (in_period_P tb W fs Hmult). }
  assert (Hz : forall o', o' <> o -> (quotient tb iv (fbase (to_freq fs)) d s o' == 0)%Q).
  { intros o' Ho'. rewrite quotient_eq. unfold part. rewrite (filter_none (ref_in tb (fbase (to_freq fs)) o')).
    - change (inject_Z (zlen [])) with 0%Q. destruct (_ =? 0); [reflexivity|]. unfold Qdiv. apply Qmult_0_l.
    - intros i Hi. pose proof (iv_list_shifts tb iv d s i Hiv Hi) as Si. unfold iv_list in Hi. rewrite Hv in Hi. apply duty_list_In in Hi.
      destruct (ref_in tb (fbase (to_freq fs)) o' i) eqn:E; [exfalso|reflexivity]. apply Ho'. apply (ref_in_ok tb W fs o' i Si) in E.
      destruct (proj1 (Hmem i) (conj Hv (proj1 Hi))) as [_ E']. apply (ref_in_ok tb W fs o i Si) in E'. lia. }
  destruct (iv_list tb iv d s) as [|j l] eqn:El; [exfalso; apply Hne; reflexivity|]. clear Hne.
  assert (Hj : In j (iv_list tb iv d s)) by (rewrite El; left; reflexivity).
  assert (Hjo : ref_in tb (fbase (to_freq fs)) o j = true).
  { pose proof Hj as Hj'. unfold iv_list in Hj'. rewrite Hv in Hj'. apply duty_list_In in Hj'. apply Hmem. split; [exact Hv|apply Hj']. }
  pose proof (list_touched tb Hr iv fs d s o0 o1 o j Hiv Ht Hj Hjo) as Ho.
  rewrite Sq, (positions_split o0 (o - 1) o1) by lia. replace (o - 1 + 1) with o by lia. rewrite (positions_split o o o1) by lia.
  rewrite !map_app, !q_total_app.
  rewrite (q_total_zero _ (positions o0 (o - 1))) by (intros o' Hp; apply positions_In in Hp; apply Hz; lia).
  rewrite (q_total_zero _ (positions (o + 1) o1)) by (intros o' Hp; apply positions_In in Hp; apply Hz; lia).
  replace (positions o o) with [o] by (unfold positions; replace (Z.to_nat (o + 1 - o)) with 1%nat by lia; reflexivity).
  cbn [map q_total fold_right]. rewrite quotient_eq.
  assert (Hp : 0 < part tb iv (fbase (to_freq fs)) d s o).
  { unfold part. assert (Hin : In j (filter (ref_in tb (fbase (to_freq fs)) o) (iv_list tb iv d s))) by (apply filter_In; split; assumption).
    destruct (filter _ _) as [|j' m]; [contradiction|]. rewrite zlen_cons. pose proof (zlen_nonneg m). lia. }
  assert (Hw : part tb iv (fbase (to_freq fs)) d s o = whole tb (fbase (to_freq fs)) d s o).
  { unfold part, whole, iv_list. rewrite Hv. pose proof (proj1 (proj2 Hiv)) as Sa. pose proof (proj1 (proj2 (proj2 Hiv))) as Sb. unfold is_shift in Sa, Sb.
    rewrite (duty_list_split tb s d 0 (iv_a iv - 1) (tb_len tb - 1)) by lia. replace (iv_a iv - 1 + 1) with (iv_a iv) by lia.
    rewrite (duty_list_split tb s d (iv_a iv) (iv_b iv) (tb_len tb - 1)) by lia. rewrite !filter_app, !zlen_app.
    assert (Hout : forall x y, 0 <= x -> y < tb_len tb -> (y < iv_a iv \/ iv_b iv < x) -> filter (ref_in tb (fbase (to_freq fs)) o) (duty_list tb s d x y) = []).
    { intros x y Hx Hy Hxy. apply filter_none. intros i Hi. apply duty_list_In in Hi. destruct (ref_in tb (fbase (to_freq fs)) o i) eqn:E; [exfalso|reflexivity].
      destruct (proj2 (Hmem i)) as [_ Hi']; [split; [unfold is_shift; lia|exact E]|]. lia. }
    rewrite (Hout 0 (iv_a iv - 1)), (Hout (iv_b iv + 1) (tb_len tb - 1)) by lia. change (zlen []) with 0. lia. }
  replace (whole tb (fbase (to_freq fs)) d s o =? 0) with false by lia. rewrite Hw, q_div_one by lia. reflexivity.
Qed.

(** ** Worktime *)
Lemma mapM_app_ok {A B} (f : A -> res B) l m r : mapM f (l ++ m) = Ok r -> exists u v, mapM f l = Ok u /\ mapM f m = Ok v /\ r = u ++ v.
Proof.
  revert r. induction l as [|x l IH]; intros r; cbn [app mapM]; [intros H; exists [], r; auto|].
  destruct (f x) as [y|]; [|discriminate]. cbn [bind]. destruct (mapM f (l ++ m)) as [r'|]; [|discriminate]. cbn [bind].
  destruct (IH r' eq_refl) as (u & v & -> & Hv & ->). intros H. injection H as <-. exists (y :: u), v. auto.
Qed.
Lemma Forall2_split_app {A B} (R : A -> B -> Prop) l m r : Forall2 R (l ++ m) r -> exists u v, r = u ++ v /\ Forall2 R l u /\ Forall2 R m v.
Proof.
  revert r. induction l as [|x l IH]; intros r H; [exists [], r; auto|]. inversion H as [|? y ? r' Hxy Hr]; subst.
  destruct (IH r' Hr) as (u & v & -> & Hu & Hv). exists (y :: u), v. auto.
Qed.
Lemma numbers_or_not {L} (num : L -> option Q) (ws : list (workshift L)) :
  (exists qs, Forall2 (fun w q => num (ws_label w) = Some q) ws qs) \/ (exists w, In w ws /\ num (ws_label w) = None).
Proof.
  induction ws as [|w ws [(qs & H)|(v & Hv & E)]].
  - left. exists []. constructor.
  - destruct (num (ws_label w)) as [q|] eqn:E; [left; exists (q :: qs); constructor; assumption|right; exists w; split; [left; reflexivity|exact E]].
  - right. exists v. split; [right; exact Hv|exact E].
Qed.
Lemma C71_worktime_pf : forall (L : Type) (tb : timeboard L) (x y z : interval L) d s q,
  reachable tb -> iv_of tb x -> iv_of tb y -> iv_of tb z -> pieces x y z -> sched_for tb s ->
  d = DOn \/ d = DOff \/ d = DAny ->
  (iv_worktime tb z d (Some s) = Ok q ->
   exists qx qy, iv_worktime tb x d (Some s) = Ok qx /\ iv_worktime tb y d (Some s) = Ok qy /\ (q == qx + qy)%Q)
  /\ (iv_worktime tb z d (Some s) = Err EType <-> iv_worktime tb x d (Some s) = Err EType \/ iv_worktime tb y d (Some s) = Err EType).
Proof.
  intros L tb x y z d s q Hr Hx Hy Hz Hp Hs Hd. pose proof (reachable_wt tb Hr) as Hwt.
  assert (Hs' : forall s', Some s = Some s' -> sched_for tb s') by (intros s' E; injection E as <-; exact Hs).
  destruct (tb_wt tb) eqn:Ew; [| |exfalso; apply Hwt; reflexivity].
  - destruct (C26_pieces_pf L tb x y z d s Hr Hx Hy Hz Hp Hd Hs) as (_ & _ & dx & dy & _ & _ & _ & Dx & Dy & Dz).
    destruct Hp as (V1 & V2 & V3 & _). unfold iv_worktime. rewrite V1, V2, V3, Ew, Dx, Dy, Dz. cbn [rmap bind]. split.
    + intros H. injection H as <-. eexists _, _. split; [reflexivity|]. split; [reflexivity|]. rewrite inject_Z_plus. reflexivity.
    + split; [discriminate|]. intros [H|H]; discriminate.
  - destruct (C31_labels_pf L tb x d (Some s) Hr Hx Hd Hs' Ew) as (wx & Ex & Ax & Bx).
    destruct (C31_labels_pf L tb y d (Some s) Hr Hy Hd Hs' Ew) as (wy & Ey & Ay & By).
    destruct (C31_labels_pf L tb z d (Some s) Hr Hz Hd Hs' Ew) as (wz & Ez & Az & Bz).
    pose proof (proj1 (reachable_wf tb Hr)) as W.
    assert (E : wz = wx ++ wy).
    { rewrite (iv_workshifts_ok tb W x d (Some s) Hx Hd Hs) in Ex. rewrite (iv_workshifts_ok tb W y d (Some s) Hy Hd Hs) in Ey.
      rewrite (iv_workshifts_ok tb W z d (Some s) Hz Hd Hs) in Ez. cbn [sched_arg] in *.
      replace (iv_list tb z d s) with (iv_list tb x d s ++ iv_list tb y d s) in Ez.
      - destruct (mapM_app_ok _ _ _ _ Ez) as (u & v & Eu & Ev & ->). rewrite Ex in Eu. rewrite Ey in Ev. injection Eu as ->. injection Ev as ->. reflexivity.
      - destruct Hp as (V1 & V2 & V3 & E1 & E2 & E3). unfold iv_list. rewrite V1, V2, V3. rewrite <- E1, <- E3, <- E2.
        pose proof (proj2 (proj2 (proj2 Hx))) as Ox. pose proof (proj2 (proj2 (proj2 Hy))) as Oy. rewrite V1 in Ox. rewrite V2 in Oy.
        symmetry. apply duty_list_split; lia. }
    subst wz. clear Ex Ey Ez. destruct (numbers_or_not (tb_num tb) (wx ++ wy)) as [(qs & Hqs)|(w & Hw & Hn)].
    + destruct (Forall2_split_app _ _ _ _ Hqs) as (u & v & -> & Hu & Hv). destruct (Ax u Hu) as (qx & -> & Qx). destruct (Ay v Hv) as (qy & -> & Qy).
      destruct (Az _ Hqs) as (qz & -> & Qz). split.
      * intros H. injection H as <-. exists qx, qy. split; [reflexivity|]. split; [reflexivity|]. rewrite Qz, q_total_app, Qx, Qy. reflexivity.
      * split; [discriminate|]. intros [H|H]; discriminate.
    + rewrite (Bz (ex_intro _ w (conj Hw Hn))). split; [discriminate|]. split; [|reflexivity]. intros _.
      apply in_app_or in Hw. destruct Hw as [Hw|Hw]; [left; apply Bx|right; apply By]; exists w; split; assumption.
Qed.
