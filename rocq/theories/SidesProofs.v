(** Proofs of C78. *)
From Verif Require Import Base BaseProofs Civil Freq FreqProofs Frame FrameProofs Timeline Board Spec SpecRoll SpecLookup SpecQuery SpecInterval SpecSides TimelineProofs BoardProofs LookupProofs IntervalProofs.
From Coq Require Import ZifyBool ZifyNat.
Open Scope Z_scope.

Lemma start_end {L} (tb : timeboard L) i : tl_wf (tb_tl tb) -> is_shift tb i ->
  exists t0 t1, starts_at tb i t0 /\ ends_at tb i t1 /\ holds_time tb i t0 /\ holds_time tb i t1.
Proof.
  intros W Hi. destruct (shift_times tb i W Hi) as (H1 & H2 & _).
  assert (E : forall s e, starts_at tb i s -> ends_at tb i e -> s <= e).
  { intros s e Hs He. unfold starts_at, ends_at in *. rewrite H1 in Hs. rewrite H2 in He. injection Hs as <-. injection He as <-.
    assert (Hi' := Hi). unfold is_shift, tb_len in Hi'.
    pose proof (bnd_lt _ W i (i + 1) ltac:(lia) ltac:(lia) ltac:(lia)) as H.
    apply (unit_start_lt (tl_frame (tb_tl tb))) in H. lia. }
  eexists _, _. split; [exact H1|]. split; [exact H2|]. pose proof (E _ _ H1 H2).
  split; (split; [exact Hi|]); eexists _, _; (split; [exact H1|]); (split; [exact H2|]); lia.
Qed.

Lemma C78_again_pf : forall L (tb : timeboard L) iv, reachable tb -> iv_of tb iv -> iv_void iv = false ->
  exists t0 t1, iv_start_time tb iv = Ok t0 /\ iv_end_time tb iv = Ok t1 /\ forall clip,
    get_interval tb (RPair (Some t0) (Some t1)) None None clip C11 (Some (iv_sched iv)) = Ok iv
    /\ get_interval tb (RPoint t0) (Some (iv_length iv)) None clip C11 (Some (iv_sched iv)) = Ok iv
    /\ get_interval tb (RPoint t1) (Some (- iv_length iv)) None clip C11 (Some (iv_sched iv)) = Ok iv.
Proof.
  intros L tb iv Hr (Hs & Ha & Hb & Ho) Ev. rewrite Ev in Ho. pose proof (reachable_wf tb Hr) as (W & _).
  destruct (start_end tb _ W Ha) as (t0 & _ & S & _ & T0 & _). destruct (start_end tb _ W Hb) as (_ & t1 & _ & E & _ & T1).
  exists t0, t1. split; [exact S|]. split; [exact E|]. intros clip.
  assert (Eiv : mkIvl (iv_a iv) (iv_b iv) false (iv_sched iv) = iv) by (destruct iv as [x y v z]; cbn [iv_a iv_b iv_void iv_sched] in *; subst; reflexivity).
  assert (El : iv_length iv = iv_b iv - iv_a iv + 1) by (unfold iv_length; rewrite Ev; reflexivity).
  unfold is_shift in *. split; [|split].
  - destruct (C20_pair_pf L tb Hr (Some t0) (Some t1) clip (Some (iv_sched iv))) as (H & _).
    destruct (H _ _ T0 T1) as (H1 & _). rewrite (H1 Ho). cbn [sched_arg]. rewrite Eiv. reflexivity.
  - destruct (C21_length_pf L tb Hr (RPoint t0) t0 (iv_length iv) clip (Some (iv_sched iv)) (or_introl eq_refl)) as (_ & _ & H).
    destruct (H _ T0) as (H1 & _). rewrite H1 by lia. cbn [sched_arg]. replace (iv_a iv + iv_length iv - 1) with (iv_b iv) by lia. rewrite Eiv. reflexivity.
  - destruct (C21_length_pf L tb Hr (RPoint t1) t1 (- iv_length iv) clip (Some (iv_sched iv)) (or_introl eq_refl)) as (_ & _ & H).
    destruct (H _ T1) as (_ & H1 & _). rewrite H1 by lia. cbn [sched_arg]. replace (iv_b iv + - iv_length iv + 1) with (iv_a iv) by lia. rewrite Eiv. reflexivity.
Qed.

Lemma not_clipped {L} (tb : timeboard L) a b clip : ~ clipped_left tb (RPair a b) None None clip /\ ~ clipped_right tb (RPair a b) None None clip.
Proof. split; intros (_ & _ & p & H & _); inversion H. Qed.

Lemma C78_open_pf : forall L (tb : timeboard L) t0 t1 i j clip c s, reachable tb -> closed_ok c ->
  bound_pos tb 0 t0 i -> bound_pos tb (tb_len tb - 1) t1 j ->
  get_interval tb (RPair t0 t1) None None clip c s =
    if i + skip_left c <=? j - skip_right c then Ok (mkIvl (i + skip_left c) (j - skip_right c) false (sched_arg s (tb_default tb))) else Err EVoidInterval.
Proof.
  intros L tb t0 t1 i j clip c s Hr Hc Hi Hj. destruct (C20_pair_pf L tb Hr t0 t1 clip s) as (H & _). destruct (H i j Hi Hj) as (H1 & H2). clear H.
  destruct (C24_closed_pf L tb Hr (RPair t0 t1) None None clip s c) as (_ & H). destruct (H Hc) as (H3 & H4). clear H.
  assert (K : 0 <= skip_left c /\ 0 <= skip_right c) by (destruct c; cbn; lia).
  destruct (Z.le_gt_cases i j) as [Le|Gt].
  - specialize (H1 Le). destruct (not_clipped tb t0 t1 clip) as (N1 & N2).
    destruct (H4 _ (i + skip_left c) (j - skip_right c) H1) as (H5 & H6 & _); cbn [iv_a iv_b iv_sched] in *.
    + assert (D : (open_left c /\ skip_left c = 1) \/ (~ open_left c /\ skip_left c = 0)).
      { unfold open_left. destruct Hc as [->|[->|[->| ->]]]; cbn [skip_left]; [left|left|right|right]; (split; [|reflexivity]); auto; intros [F|F]; discriminate F. }
      unfold strip_left. destruct D as [(D & ->)|(D & ->)]; [left; auto|right; split; [intros (F & _); exact (D F)|lia]].
    + assert (D : (open_right c /\ skip_right c = 1) \/ (~ open_right c /\ skip_right c = 0)).
      { unfold open_right. destruct Hc as [->|[->|[->| ->]]]; cbn [skip_right]; [left|right|left|right]; (split; [|reflexivity]); auto; intros [F|F]; discriminate F. }
      unfold strip_right. destruct D as [(D & ->)|(D & ->)]; [left; auto|right; split; [intros (F & _); exact (D F)|lia]].
    + destruct (Z.leb_spec (i + skip_left c) (j - skip_right c)) as [G|G]; [apply (H5 G)|apply (H6 G N1 N2)].
  - rewrite (H3 _ (H2 Gt)). destruct (Z.leb_spec (i + skip_left c) (j - skip_right c)); [lia|reflexivity].
Qed.

Lemma holds_time_mono {L} (tb : timeboard L) (W : tl_wf (tb_tl tb)) a b x y : a <= b -> holds_time tb x a -> holds_time tb y b -> x <= y.
Proof.
  intros Hab Hx Hy. apply holds_time_iff in Hx, Hy; try exact W. destruct Hx as (X1 & X2), Hy as (Y1 & Y2).
  destruct (Z.le_gt_cases x y) as [|G]; [assumption|exfalso]. unfold is_shift, tb_len in *.
  pose proof (bnd_le _ W (y + 1) x ltac:(lia) ltac:(lia) ltac:(lia)) as H. apply (unit_start_le (tl_frame (tb_tl tb))) in H. lia.
Qed.

Lemma C78_halves_pf : forall L (tb : timeboard L) t0 t1 t2 clip s, reachable tb ->
  tb_start_time tb <= t0 -> t0 <= t1 -> t1 <= t2 -> t2 <= tb_end_time tb -> forall i,
  let get c a b := get_interval tb (RPair (Some a) (Some b)) None None clip c s in
  shared_out (got (get C10 t0 t2) i) (got (get C10 t0 t1) i) (got (get C10 t1 t2) i)
  /\ shared_out (got (get C01 t0 t2) i) (got (get C01 t0 t1) i) (got (get C01 t1 t2) i)
  /\ shared_out (got (get C11 t0 t2) i) (got (get C10 t0 t1) i) (got (get C11 t1 t2) i)
  /\ shared_out (got (get C11 t0 t2) i) (got (get C11 t0 t1) i) (got (get C01 t1 t2) i).
Proof.
  intros L tb t0 t1 t2 clip s Hr B0 B1 B2 B3 i get. pose proof (reachable_wf tb Hr) as (W & _).
  assert (X : forall t, tb_start_time tb <= t <= tb_end_time tb -> exists k, holds_time tb k t).
  { intros t Ht. destruct (C02_lookup_pf L tb Hr t None) as (H1 & H2 & _). destruct (H1 Ht) as (w & Hw). exists (ws_loc w). apply (H2 w Hw). }
  destruct (X t0 ltac:(lia)) as (k0 & K0). destruct (X t1 ltac:(lia)) as (k1 & K1). destruct (X t2 ltac:(lia)) as (k2 & K2).
  assert (M : forall a b x y, a <= b -> holds_time tb x a -> holds_time tb y b -> x <= y).
  { intros a b x y Hab Hx Hy. apply (holds_time_mono tb W a b); assumption. }
  pose proof (M _ _ _ _ B1 K0 K1). pose proof (M _ _ _ _ B2 K1 K2).
  assert (G : forall c a b x y, closed_ok c -> holds_time tb x a -> holds_time tb y b -> got (get c a b) i <-> x + skip_left c <= i <= y - skip_right c).
  { intros c a b x y Hc Hx Hy. unfold get. rewrite (C78_open_pf L tb (Some a) (Some b) x y clip c s Hr Hc Hx Hy). unfold got.
    destruct (Z.leb_spec (x + skip_left c) (y - skip_right c)) as [E|E]; split.
    - intros (iv & [= <-] & _ & Hm). exact Hm.
    - intros Hm. eexists. split; [reflexivity|]. split; [reflexivity|exact Hm].
    - intros (iv & F & _). discriminate F.
    - lia. }
  unfold shared_out. assert (P : closed_ok C10 /\ closed_ok C01 /\ closed_ok C11) by (unfold closed_ok; auto 8). destruct P as (P1 & P2 & P3).
  rewrite (G C10 t0 t2 k0 k2), (G C10 t0 t1 k0 k1), (G C10 t1 t2 k1 k2), (G C01 t0 t2 k0 k2), (G C01 t0 t1 k0 k1), (G C01 t1 t2 k1 k2),
    (G C11 t0 t2 k0 k2), (G C11 t0 t1 k0 k1), (G C11 t1 t2 k1 k2) by assumption.
  cbn [skip_left skip_right]. lia.
Qed.

Lemma C78_periods_pf : forall L (tb : timeboard L) i r f o s, reachable tb -> is_shift tb i -> ref_at tb i r -> in_cal_unit (fbase f) o r ->
  forall o', got (get_interval tb (RPeriod (mkPeriod f o')) None None true C11 s) i <-> o' <= o < o' + Zpos (fmult f).
Proof.
  intros L tb i r f o s Hr Hi Href Ho o'. set (p := mkPeriod f o').
  assert (A : in_period tb p i <-> o' <= o < o' + Zpos (fmult f)).
  { unfold in_period, p_start, p_end. cbn [p p_freq p_ord]. unfold in_cal_unit in Ho. split.
    - intros (_ & r' & Hr' & Hb). unfold ref_at in *. rewrite Href in Hr'. injection Hr' as <-. split.
      + destruct (Z.le_gt_cases o' o) as [|F]; [assumption|]. assert (F' : o + 1 <= o') by lia. apply (pstart_le_iff (fbase f)) in F'. lia.
      + destruct (Z.lt_ge_cases o (o' + Zpos (fmult f))) as [|F]; [assumption|]. apply (pstart_le_iff (fbase f)) in F. lia.
    - intros (H1 & H2). split; [exact Hi|]. exists r. split; [exact Href|]. apply (pstart_le_iff (fbase f)) in H1.
      assert (H3 : o + 1 <= o' + Zpos (fmult f)) by lia. apply (pstart_le_iff (fbase f)) in H3. lia. }
  destruct (C22_period_pf L tb Hr (RPeriod p) None p s (mp_period p None)) as (H1 & H2). rewrite <- A. unfold got. split.
  - intros (iv & E & Hm). destruct (get_interval tb (RPeriod p) None None true C11 s) as [iv'|e] eqn:G; [|discriminate E]. injection E as ->.
    assert (Q : (exists k, in_period tb p k) \/ (forall k, ~ in_period tb p k)).
    { destruct (List.existsb (fun k => match ws_ref_time (tb_tl tb) k with Ok x => (p_start p <=? x) && (x <=? p_end p) | Err _ => false end) (zrange 0 (Z.to_nat (tb_len tb)))) eqn:B.
      - left. apply existsb_exists in B. destruct B as (k & Hk & Hb). apply zrange_In in Hk. exists k. split; [unfold is_shift; lia|]. unfold ref_at.
        destruct (ws_ref_time (tb_tl tb) k) as [x|]; [|discriminate Hb]. exists x. split; [reflexivity|lia].
      - right. intros k (Hk & x & Hx & Hb). assert (N : false = true); [|discriminate N]. rewrite <- B. apply existsb_exists. exists k. split; [apply zrange_In; unfold is_shift in Hk; lia|].
        unfold ref_at in Hx. rewrite Hx. lia. }
    destruct Q as [Q|Q].
    + destruct (H1 Q) as (iv0 & E0 & _ & _ & Hm0). injection E0 as <-. apply Hm0. exact Hm.
    + destruct (H2 Q) as (_ & H4). destruct (Z.le_gt_cases (tb_start_time tb) (p_start p)) as [a|a], (Z.le_gt_cases (p_end p) (tb_end_time tb)) as [b|b].
      * specialize (proj1 (H2 Q) (conj a b)). discriminate.
      * assert (N : ~ inside tb p) by (unfold inside; lia). specialize (H4 N). discriminate.
      * assert (N : ~ inside tb p) by (unfold inside; lia). specialize (H4 N). discriminate.
      * assert (N : ~ inside tb p) by (unfold inside; lia). specialize (H4 N). discriminate.
  - intros H. destruct (H1 (ex_intro _ i H)) as (iv & E & _ & _ & Hm). exists iv. split; [exact E|]. apply Hm. exact H.
Qed.
