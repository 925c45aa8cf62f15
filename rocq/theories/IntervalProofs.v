(** Proofs of C20-C24. *)
From Verif Require Import Base BaseProofs Civil Freq FreqProofs Frame FrameProofs Timeline TimelineProofs Board Spec BoardProofs SpecLookup LookupProofs SpecRoll SpecQuery SpecInterval.
From Coq Require Import ZifyBool ZifyNat QArith.
Open Scope Z_scope.
Ltac Zify.zify_post_hook ::= Z.div_mod_to_equations.

Section WfI.
  Context {L : Type} (tb : timeboard L) (W : tl_wf (tb_tl tb)).

  Lemma len_pos : 0 < tb_len tb.
  Proof. exact (tb_len_pos tb W). Qed.

  (** Where a point is. *)
  Lemma locate_point t :
    (t < tb_start_time tb /\ locate tb t ByNone = Ok (mkLoc None OOB_LEFT))
    \/ (tb_end_time tb < t /\ locate tb t ByNone = Ok (mkLoc None OOB_RIGHT))
    \/ (tb_start_time tb <= t <= tb_end_time tb /\ exists p, holds_time tb p t
          /\ locate tb t ByNone = Ok (mkLoc (Some p) LOC_WITHIN)).
  Proof.
    destruct (Z.lt_ge_cases t (tb_start_time tb)) as [H1|H1].
    - left. split; [exact H1|]. rewrite locate_none_out by (try exact W; left; exact H1).
      destruct (t <? tb_start_time tb) eqn:E; [reflexivity|lia].
    - right. destruct (Z.lt_ge_cases (tb_end_time tb) t) as [H2|H2].
      + left. split; [exact H2|]. rewrite locate_none_out by (try exact W; right; exact H2).
        destruct (t <? tb_start_time tb) eqn:E; [lia|reflexivity].
      + right. split; [lia|]. destruct (locate_none_in tb t W ltac:(lia)) as (p & Hp & Hh). exists p. split; assumption.
  Qed.

  Lemma new_interval_ok a b s : is_shift tb a -> is_shift tb b -> a <= b -> new_interval tb a b s = Ok (mkIvl a b false s).
  Proof.
    unfold is_shift, new_interval, in_bounds. intros Ha Hb Hab.
    destruct ((0 <=? a) && (a <? tb_len tb)) eqn:E1; [|lia]. destruct ((0 <=? b) && (b <? tb_len tb)) eqn:E2; [|lia].
    cbn [negb]. destruct (b <? a) eqn:E3; [lia|reflexivity].
  Qed.
  Lemma new_interval_oob a b s : ~ is_shift tb a \/ ~ is_shift tb b -> new_interval tb a b s = Err EOutOfBounds.
  Proof.
    unfold is_shift, new_interval, in_bounds. intros H.
    destruct ((0 <=? a) && (a <? tb_len tb)) eqn:E1; [|reflexivity].
    destruct ((0 <=? b) && (b <? tb_len tb)) eqn:E2; [lia|reflexivity].
  Qed.

  (** From two located bounds. *)
  Lemma from_within p q s : is_shift tb p -> is_shift tb q ->
    interval_from_locs tb (mkLoc (Some p) LOC_WITHIN) (mkLoc (Some q) LOC_WITHIN) s
    = if p <=? q then Ok (mkIvl p q false s) else Err EVoidInterval.
  Proof.
    intros Hp Hq. unfold interval_from_locs, locations_in_order. cbn [l_where l_pos]. rewrite Z.eqb_refl. cbn [andb bind].
    destruct (p <=? q) eqn:E; cbn [negb]; [|reflexivity]. apply new_interval_ok; try assumption. lia.
  Qed.

  Lemma strip_none l0 l1 : strip_locs l0 l1 false false = (l0, l1).
  Proof. unfold strip_locs. destruct l0 as [[p|] w0], l1 as [[q|] w1]; reflexivity. Qed.

  Lemma bound_locate dflt o : is_shift tb dflt ->
    exists l, match o with Some t => locate tb t ByNone | None => Ok (mkLoc (Some dflt) LOC_WITHIN) end = Ok l
    /\ ((bound_side tb o Before /\ l = mkLoc None OOB_LEFT)
        \/ (bound_side tb o After /\ l = mkLoc None OOB_RIGHT)
        \/ (bound_side tb o Inside /\ exists p, is_shift tb p /\ bound_pos tb dflt o p /\ l = mkLoc (Some p) LOC_WITHIN)).
  Proof.
    intros Hd. destruct o as [t|]; cbn [bound_side bound_pos].
    - destruct (locate_point t) as [(H & E)|[(H & E)|(H & p & Hh & E)]]; rewrite E; eexists; (split; [reflexivity|]).
      + left. split; [exact H|reflexivity].
      + right. left. split; [exact H|reflexivity].
      + right. right. split; [exact H|]. exists p. split; [exact (proj1 Hh)|]. split; [exact Hh|reflexivity].
    - eexists. split; [reflexivity|]. right. right. split; [exact I|]. exists dflt. repeat split; try exact Hd; apply Hd.
  Qed.
End WfI.

Lemma bound_pos_unique {L} (tb : timeboard L) d o i j : tl_wf (tb_tl tb) ->
  bound_pos tb d o i -> bound_pos tb d o j -> i = j.
Proof.
  intros W. destruct o as [t|]; cbn [bound_pos]; [apply holds_time_unique; exact W|congruence].
Qed.
Lemma bound_side_pos {L} (tb : timeboard L) d o i x : tl_wf (tb_tl tb) ->
  bound_pos tb d o i -> bound_side tb o x -> x = Inside.
Proof.
  intros W Hp Hs. destruct o as [t|]; cbn [bound_pos] in Hp.
  - apply holds_time_within in Hp; [|exact W]. destruct x; cbn [bound_side] in Hs; [lia|reflexivity|lia].
  - destruct x; cbn [bound_side] in Hs; [contradiction|reflexivity|contradiction].
Qed.
Lemma bound_side_unique {L} (tb : timeboard L) o x y : tl_wf (tb_tl tb) -> bound_side tb o x -> bound_side tb o y -> x = y.
Proof.
  intros W. assert (tb_start_time tb <= tb_end_time tb).
  { pose proof (ws_within _ W 0) as H. pose proof (bnd_lt _ W 0 1) as H1. pose proof (len_pos tb W) as Hp.
    change (tl_len (tb_tl tb)) with (tb_len tb) in *. unfold tb_start_time, tb_end_time.
    specialize (H ltac:(lia)). specialize (H1 ltac:(lia) ltac:(lia) ltac:(lia)).
    apply (unit_start_lt (tl_frame (tb_tl tb))) in H1. change (0 + 1) with 1 in H. lia. }
  destruct o as [t|]; destruct x, y; cbn [bound_side]; intros; try reflexivity; try contradiction; lia.
Qed.

(** ** C20 *)
Lemma C20_pair_pf : forall (L : Type) (tb : timeboard L), reachable tb -> forall t1 t2 clip s,
  let get := get_interval tb (RPair t1 t2) None None clip C11 s in
  let sch := sched_arg s (tb_default tb) in
  (forall i j, bound_pos tb 0 t1 i -> bound_pos tb (tb_len tb - 1) t2 j ->
     (i <= j -> get = Ok (mkIvl i j false sch)) /\ (j < i -> get = Err EVoidInterval))
  /\ (forall x y, bound_side tb t1 x -> bound_side tb t2 y -> ~ (x = Inside /\ y = Inside) ->
        get = Err (match x, y with
                   | Before, Before | After, After => EOutOfBounds
                   | Inside, Before | After, Inside | After, Before => EVoidInterval
                   | _, _ => EPartialOutOfBounds
                   end)).
Proof.
  intros L tb Hr t1 t2 clip s get sch. apply reachable_wf in Hr. destruct Hr as (W & _ & _).
  pose proof (len_pos tb W) as Hlen.
  assert (H0 : is_shift tb 0) by (unfold is_shift; lia).
  assert (Hn : is_shift tb (tb_len tb - 1)) by (unfold is_shift; lia).
  unfold get, get_interval. cbn [drop_flags bind]. unfold locs_from_reference.
  destruct (bound_locate tb W 0 t1 H0) as (l0 & E0 & C0). rewrite E0. cbn [bind].
  destruct (bound_locate tb W (tb_len tb - 1) t2 Hn) as (l1 & E1 & C1). rewrite E1. cbn [bind].
  rewrite strip_none. cbn [bind fst snd].
  replace (opt_or s (tb_default tb)) with sch by (unfold sch; destruct s; reflexivity).
  split.
  - intros i j Hi Hj.
    destruct C0 as [(C & _)|[(C & _)|(C & p & Hp & Hbp & ->)]];
      [pose proof (bound_side_pos _ _ _ _ _ W Hi C); discriminate|pose proof (bound_side_pos _ _ _ _ _ W Hi C); discriminate|].
    destruct C1 as [(D & _)|[(D & _)|(D & q & Hq & Hbq & ->)]];
      [pose proof (bound_side_pos _ _ _ _ _ W Hj D); discriminate|pose proof (bound_side_pos _ _ _ _ _ W Hj D); discriminate|].
    rewrite (bound_pos_unique _ _ _ _ _ W Hi Hbp), (bound_pos_unique _ _ _ _ _ W Hj Hbq).
    rewrite (from_within tb p q sch Hp Hq). split; intros H; destruct (p <=? q) eqn:E; try lia; reflexivity.
  - intros x y Hx Hy Hxy.
    destruct C0 as [(C & ->)|[(C & ->)|(C & p & Hp & Hbp & ->)]]; rewrite (bound_side_unique tb _ _ _ W Hx C) in *;
    destruct C1 as [(D & ->)|[(D & ->)|(D & q & Hq & Hbq & ->)]]; rewrite (bound_side_unique tb _ _ _ W Hy D) in *;
    try reflexivity. exfalso. apply Hxy. split; reflexivity.
Qed.

Lemma C20_whole_pf : forall (L : Type) (tb : timeboard L), reachable tb -> forall clip s,
  get_interval tb RNone None None clip C11 s = Ok (mkIvl 0 (tb_len tb - 1) false (sched_arg s (tb_default tb))).
Proof.
  intros L tb Hr clip s. apply reachable_wf in Hr. destruct Hr as (W & _ & _). pose proof (len_pos tb W) as Hlen.
  unfold get_interval. cbn [drop_flags bind]. unfold locs_from_reference. rewrite strip_none. cbn [bind fst snd].
  rewrite from_within by (unfold is_shift; lia). destruct (0 <=? tb_len tb - 1) eqn:E; [|lia]. destruct s; reflexivity.
Qed.

(** ** C21 *)
Lemma C21_length_pf : forall (L : Type) (tb : timeboard L), reachable tb -> forall r t n clip s, refers_to r t ->
  let get := get_interval tb r (Some n) None clip C11 s in
  let sch := sched_arg s (tb_default tb) in
  (n = 0 -> get = Err EVoidInterval)
  /\ (n <> 0 -> t_outside tb t -> get = Err EOutOfBounds)
  /\ (forall i, holds_time tb i t ->
       (0 < n -> i + n <= tb_len tb -> get = Ok (mkIvl i (i + n - 1) false sch))
       /\ (n < 0 -> 0 <= i + n + 1 -> get = Ok (mkIvl (i + n + 1) i false sch))
       /\ (0 < n -> tb_len tb < i + n -> get = Err EPartialOutOfBounds)
       /\ (n < 0 -> i + n + 1 < 0 -> get = Err EPartialOutOfBounds)).
Proof.
  intros L tb Hr r t n clip s Ht get sch. apply reachable_wf in Hr. destruct Hr as (W & _ & _).
  assert (Hrt : ref_timestamp r = Ok t) by (destruct Ht as [->|(p & -> & ->)]; reflexivity).
  split; [intros ->; reflexivity|]. split.
  - intros Hn Ho. unfold get, get_interval. cbn [drop_flags bind]. unfold locs_by_length.
    destruct (n =? 0) eqn:E; [lia|]. rewrite Hrt. cbn [bind].
    destruct (locate_point tb W t) as [(H & ->)|[(H & ->)|(H & _)]]; [reflexivity|reflexivity|unfold t_outside in Ho; lia].
  - intros i Hi. pose proof (proj1 Hi) as His. unfold is_shift in His.
    assert (G : n <> 0 -> get = let other := i + n - Z.sgn n in
        if (other <? 0) || (tb_len tb <=? other) then Err EPartialOutOfBounds
        else Ok (mkIvl (Z.min i other) (Z.max i other) false sch)).
    { intros Hn. unfold get, get_interval. cbn [drop_flags bind]. unfold locs_by_length.
      replace (opt_or s (tb_default tb)) with sch by (unfold sch; destruct s; reflexivity).
      destruct (n =? 0) eqn:E; [lia|]. rewrite Hrt. cbn [bind]. rewrite (locate_holds tb t i W Hi).
      cbn [bind l_pos]. cbv zeta. rewrite strip_none. cbn [bind fst snd]. set (other := i + n - Z.sgn n).
      destruct (other <? 0) eqn:E1; [reflexivity|]. destruct (tb_len tb <=? other) eqn:E2; [reflexivity|]. cbn [orb].
      destruct (other <? i) eqn:E3; cbn [fst snd]; rewrite from_within by (unfold is_shift; lia).
      - destruct (other <=? i) eqn:E4; [|lia]. do 2 f_equal; lia.
      - destruct (i <=? other) eqn:E4; [|lia]. do 2 f_equal; lia. }
    repeat split; intros H1 H2; rewrite G by lia; cbv zeta.
    + replace (Z.sgn n) with 1 by lia. destruct ((i + n - 1 <? 0) || (tb_len tb <=? i + n - 1)) eqn:E; [lia|].
      do 2 f_equal; lia.
    + replace (Z.sgn n) with (-1) by lia. destruct ((i + n - -1 <? 0) || (tb_len tb <=? i + n - -1)) eqn:E; [lia|].
      do 2 f_equal; lia.
    + replace (Z.sgn n) with 1 by lia. destruct ((i + n - 1 <? 0) || (tb_len tb <=? i + n - 1)) eqn:E; [reflexivity|lia].
    + replace (Z.sgn n) with (-1) by lia. destruct ((i + n - -1 <? 0) || (tb_len tb <=? i + n - -1)) eqn:E; [reflexivity|lia].
Qed.

(** ** C22, C23 *)
Lemma p_start_end p : p_start p <= p_end p.
Proof. unfold p_start, p_end. pose proof (pstart_lt (fbase (p_freq p)) (p_ord p) (p_ord p + Z.pos (fmult (p_freq p)))). lia. Qed.

Section WfP.
  Context {L : Type} (tb : timeboard L) (W : tl_wf (tb_tl tb)).
  Local Notation ref := (ref_of (tb_tl tb)).

  Lemma after_loc t : exists l, locate tb t ByAfter = Ok l /\
    ((t < tb_start_time tb /\ l = mkLoc None OOB_LEFT)
     \/ (tb_start_time tb <= t /\ (forall j, is_shift tb j -> ref j < t) /\ l = mkLoc None OOB_RIGHT)
     \/ (tb_start_time tb <= t <= tb_end_time tb /\ exists k, is_shift tb k /\ l = mkLoc (Some k) LOC_WITHIN
           /\ t <= ref k /\ forall j, is_shift tb j -> j < k -> ref j < t)).
  Proof.
    unfold locate. destruct (Z.lt_ge_cases t (tb_start_time tb)) as [H1|H1].
    - rewrite (proj1 (pos_by_ref_out _ t (or_introl H1))). destruct (t <? tb_start_time tb) eqn:E; [|lia].
      eexists. split; [reflexivity|]. left. split; [exact H1|reflexivity].
    - destruct (t <? tb_start_time tb) eqn:E; [lia|]. destruct (Z.lt_ge_cases (tb_end_time tb) t) as [H2|H2].
      + rewrite (proj1 (pos_by_ref_out _ t (or_intror H2))). destruct (tb_end_time tb <? t) eqn:E2; [|lia].
        eexists. split; [reflexivity|]. right. left. split; [exact H1|]. split; [|reflexivity]. intros j Hj.
        pose proof (ref_of_within _ W j Hj) as H. pose proof (ws_within _ W j Hj) as H3. unfold tb_end_time in H2. lia.
      + destruct (tb_end_time tb <? t) eqn:E2; [lia|].
        destruct (pos_by_ref_after_in _ W t (conj H1 H2)) as [(k & Hk & -> & Hle & Hlt)|(-> & Hlt)].
        * destruct (k <? 0) eqn:E3; [lia|]. eexists. split; [reflexivity|]. right. right. split; [lia|].
          exists k. split; [exact Hk|]. split; [reflexivity|]. split; [exact Hle|]. intros j Hj Hjk. apply Hlt.
          unfold is_shift in Hj. lia.
        * eexists. split; [reflexivity|]. right. left. split; [exact H1|]. split; [|reflexivity]. exact Hlt.
  Qed.

  Lemma before_loc t : exists l, locate tb t ByBefore = Ok l /\
    ((tb_end_time tb < t /\ l = mkLoc None OOB_RIGHT)
     \/ (t <= tb_end_time tb /\ (forall j, is_shift tb j -> t < ref j) /\ l = mkLoc None OOB_LEFT)
     \/ (tb_start_time tb <= t <= tb_end_time tb /\ exists k, is_shift tb k /\ l = mkLoc (Some k) LOC_WITHIN
           /\ ref k <= t /\ forall j, is_shift tb j -> k < j -> t < ref j)).
  Proof.
    unfold locate.
    assert (Hse : tb_start_time tb <= tb_end_time tb).
    { pose proof (len_pos tb W) as Hp. assert (H0 : is_shift tb 0) by (unfold is_shift; lia).
      pose proof (ref_of_within _ W 0 H0) as H. pose proof (ws_within _ W 0 H0) as H3. unfold tb_start_time, tb_end_time. lia. }
    destruct (Z.lt_ge_cases t (tb_start_time tb)) as [H1|H1].
    - rewrite (proj2 (pos_by_ref_out _ t (or_introl H1))). destruct (t <? tb_start_time tb) eqn:E; [|lia].
      eexists. split; [reflexivity|]. right. left. split; [lia|]. split; [|reflexivity]. intros j Hj.
      pose proof (ref_of_within _ W j Hj) as H. pose proof (ws_within _ W j Hj) as H3. unfold tb_start_time in H1. lia.
    - destruct (t <? tb_start_time tb) eqn:E; [lia|]. destruct (Z.lt_ge_cases (tb_end_time tb) t) as [H2|H2].
      + rewrite (proj2 (pos_by_ref_out _ t (or_intror H2))). destruct (tb_end_time tb <? t) eqn:E2; [|lia].
        eexists. split; [reflexivity|]. left. split; [exact H2|reflexivity].
      + destruct (tb_end_time tb <? t) eqn:E2; [lia|].
        destruct (pos_by_ref_before_in _ W t (conj H1 H2)) as [(k & Hk & -> & Hle & Hlt)|(-> & Hlt)].
        * destruct (k <? 0) eqn:E3; [lia|]. eexists. split; [reflexivity|]. right. right. split; [lia|].
          exists k. split; [exact Hk|]. split; [reflexivity|]. split; [exact Hle|]. intros j Hj Hjk. apply Hlt.
          unfold is_shift, tb_len in Hj. lia.
        * eexists. split; [reflexivity|]. right. left. split; [exact H2|]. split; [|reflexivity]. exact Hlt.
  Qed.

  Lemma in_period_ref p i : in_period tb p i <-> is_shift tb i /\ p_start p <= ref i <= p_end p.
  Proof.
    unfold in_period. split.
    - intros (Hi & r & Hr & H). apply (ref_at_iff tb i r W Hi) in Hr. subst r. split; assumption.
    - intros (Hi & H). split; [exact Hi|]. exists (ref i). split; [apply (ref_at_iff tb i _ W Hi); reflexivity|exact H].
  Qed.

  Lemma get_by_period r per p clip c dh dt s : means_period r per p -> drop_flags c = Ok (dh, dt) ->
    get_interval tb r None per clip c s =
    (do locs <- locs_by_period tb p clip dh dt;
     interval_from_locs tb (fst locs) (snd locs) (sched_arg s (tb_default tb))).
  Proof.
    intros Hm Hc. unfold get_interval. rewrite Hc. cbn [bind].
    replace (opt_or s (tb_default tb)) with (sched_arg s (tb_default tb)) by (destruct s; reflexivity).
    destruct Hm as [p [f|]|t f p Hf Ht].
    - reflexivity.
    - cbn [locs_from_reference get_period]. reflexivity.
    - cbn [get_period bind]. replace (mkPeriod _ _) with p; [reflexivity|].
      destruct p as [pf po]. cbn [p_freq p_ord] in *. subst pf. f_equal. symmetry. apply in_cal_unit_pord. exact Ht.
  Qed.

  Lemma ref_start_end i : is_shift tb i -> tb_start_time tb <= ref i <= tb_end_time tb.
  Proof.
    intros Hi. pose proof (ref_of_within _ W i Hi) as H. pose proof (ws_within _ W i Hi) as H3.
    unfold tb_start_time, tb_end_time. lia.
  Qed.
  Lemma ref_mono i j : is_shift tb i -> is_shift tb j -> i <= j -> ref i <= ref j.
  Proof.
    unfold is_shift. intros Hi Hj H. destruct (Z.eq_dec i j) as [->|]; [lia|].
    pose proof (ref_of_lt _ W i j) as Hl. change (tl_len (tb_tl tb)) with (tb_len tb) in Hl. lia.
  Qed.
End WfP.

Lemma mem_mk {L} a b (s : schedule L) i : iv_mem (mkIvl a b false s) i <-> a <= i <= b.
Proof. unfold iv_mem. cbn [iv_void iv_a iv_b]. split; [intros [_ H]; exact H|]. intros H. split; [reflexivity|exact H]. Qed.

Lemma C22_period_pf : forall (L : Type) (tb : timeboard L), reachable tb -> forall r per p s,
  means_period r per p ->
  let get := get_interval tb r None per true C11 s in
  ((exists i, in_period tb p i) ->
     exists iv, get = Ok iv /\ iv_void iv = false /\ iv_sched iv = sched_arg s (tb_default tb)
       /\ forall i, iv_mem iv i <-> in_period tb p i)
  /\ ((forall i, ~ in_period tb p i) ->
      (inside tb p -> get = Err EVoidInterval) /\ (~ inside tb p -> get = Err EOutOfBounds)).
Proof.
  intros L tb Hr r per p s Hm get. apply reachable_wf in Hr. destruct Hr as (W & _ & _).
  unfold get. rewrite (get_by_period tb r per p true C11 false false s Hm eq_refl). unfold locs_by_period.
  pose proof (p_start_end p) as Hp. pose proof (len_pos tb W) as Hlen.
  assert (H0 : is_shift tb 0) by (unfold is_shift; lia).
  assert (Hn : is_shift tb (tb_len tb - 1)) by (unfold is_shift; lia).
  set (sch := sched_arg s (tb_default tb)).
  assert (HR : forall i, in_period tb p i <-> is_shift tb i /\ p_start p <= ref_of (tb_tl tb) i <= p_end p)
    by (intros i; apply in_period_ref; exact W).
  pose proof (ref_start_end tb W) as Hse. pose proof (ref_mono tb W) as Hmono.
  assert (Hmono2 : forall i j, is_shift tb i -> is_shift tb j -> ref_of (tb_tl tb) i < ref_of (tb_tl tb) j -> i < j).
  { intros i j Hi Hj H. destruct (Z.lt_ge_cases i j) as [|Hc]; [assumption|]. specialize (Hmono j i Hj Hi Hc). lia. }
  destruct (after_loc tb W (p_start p)) as (l0 & -> & C0). cbn [bind].
  destruct (before_loc tb W (p_end p)) as (l1 & -> & C1). cbn [bind].
  destruct C0 as [(A1 & ->)|[(A1 & A2 & ->)|(A1 & k & Hk & -> & A2 & A3)]];
  destruct C1 as [(B1 & ->)|[(B1 & B2 & ->)|(B1 & m & Hm' & -> & B2 & B3)]];
  cbn [l_where l_pos andb negb Z.eqb OOB_LEFT OOB_RIGHT LOC_WITHIN Pos.eqb]; rewrite strip_none; cbn [fst snd].
  - (* left, right *)
    unfold interval_from_locs, locations_in_order. cbn [l_where l_pos andb Z.eqb OOB_LEFT OOB_RIGHT LOC_WITHIN Z.leb Z.compare bind negb].
    rewrite (new_interval_ok tb 0 (tb_len tb - 1) sch H0 Hn ltac:(lia)). split.
    + intros _. eexists. split; [reflexivity|]. split; [reflexivity|]. split; [reflexivity|]. intros i.
      rewrite mem_mk, HR. unfold is_shift. split; [intros H; split; [lia|specialize (Hse i ltac:(unfold is_shift; lia)); lia]|lia].
    + intros H. exfalso. apply (H 0). rewrite HR. split; [exact H0|]. specialize (Hse 0 H0). lia.
  - (* left, left *)
    split; [|intros _; split; [unfold inside; lia|reflexivity]]. intros (i & Hi). apply HR in Hi. specialize (B2 i (proj1 Hi)). lia.
  - (* left, within *)
    unfold interval_from_locs, locations_in_order. cbn [l_where l_pos andb Z.eqb OOB_LEFT OOB_RIGHT LOC_WITHIN Z.leb Z.compare bind negb].
    rewrite (new_interval_ok tb 0 m sch H0 Hm') by (unfold is_shift in Hm'; lia). split.
    + intros _. eexists. split; [reflexivity|]. split; [reflexivity|]. split; [reflexivity|]. intros i.
      rewrite mem_mk, HR. split.
      * intros H. assert (Hi : is_shift tb i) by (unfold is_shift in *; lia). split; [exact Hi|].
        specialize (Hse i Hi). specialize (Hmono i m Hi Hm' ltac:(lia)). lia.
      * intros [Hi H]. destruct (Z.lt_ge_cases m i) as [Hc|Hc]; [specialize (B3 i Hi Hc); lia|]. unfold is_shift in Hi. lia.
    + intros H. exfalso. apply (H m). rewrite HR. split; [exact Hm'|]. specialize (Hse m Hm'). lia.
  - (* right, right *)
    split; [|intros _; split; [unfold inside; lia|reflexivity]]. intros (i & Hi). apply HR in Hi. specialize (A2 i (proj1 Hi)). lia.
  - (* right, left *)
    split; [|intros _; split; [reflexivity|unfold inside; lia]]. intros (i & Hi). apply HR in Hi. specialize (A2 i (proj1 Hi)). lia.
  - (* right, within *)
    split; [|intros _; split; [reflexivity|unfold inside; lia]]. intros (i & Hi). apply HR in Hi. specialize (A2 i (proj1 Hi)). lia.
  - (* within, right *)
    unfold interval_from_locs, locations_in_order. cbn [l_where l_pos andb Z.eqb OOB_LEFT OOB_RIGHT LOC_WITHIN Z.leb Z.compare bind negb].
    rewrite (new_interval_ok tb k (tb_len tb - 1) sch Hk Hn) by (unfold is_shift in Hk; lia). split.
    + intros _. eexists. split; [reflexivity|]. split; [reflexivity|]. split; [reflexivity|]. intros i.
      rewrite mem_mk, HR. split.
      * intros H. assert (Hi : is_shift tb i) by (unfold is_shift in *; lia). split; [exact Hi|].
        specialize (Hse i Hi). specialize (Hmono k i Hk Hi ltac:(lia)). lia.
      * intros [Hi H]. destruct (Z.lt_ge_cases i k) as [Hc|Hc]; [specialize (A3 i Hi Hc); lia|]. unfold is_shift in Hi. lia.
    + intros H. exfalso. apply (H k). rewrite HR. split; [exact Hk|]. specialize (Hse k Hk). lia.
  - (* within, left *)
    split; [|intros _; split; [reflexivity|unfold inside; lia]]. intros (i & Hi). apply HR in Hi. specialize (B2 i (proj1 Hi)). lia.
  - (* within, within *)
    fold LOC_WITHIN. rewrite (from_within tb k m sch Hk Hm'). destruct (k <=? m) eqn:E.
    + split.
      * intros _. eexists. split; [reflexivity|]. split; [reflexivity|]. split; [reflexivity|]. intros i.
        rewrite mem_mk, HR. split.
        -- intros H. assert (Hi : is_shift tb i) by (unfold is_shift in *; lia). split; [exact Hi|].
           specialize (Hmono k i Hk Hi ltac:(lia)) as M1. specialize (Hmono i m Hi Hm' ltac:(lia)) as M2. lia.
        -- intros [Hi H]. split.
           ++ destruct (Z.lt_ge_cases i k) as [Hc|Hc]; [specialize (A3 i Hi Hc); lia|exact Hc].
           ++ destruct (Z.lt_ge_cases m i) as [Hc|Hc]; [specialize (B3 i Hi Hc); lia|exact Hc].
      * intros H. exfalso. apply (H k). rewrite HR. split; [exact Hk|].
        specialize (Hmono k m Hk Hm' ltac:(lia)). lia.
    + split; [|intros _; split; [reflexivity|unfold inside; lia]]. intros (i & Hi). apply HR in Hi. destruct Hi as [Hi H]. exfalso.
      destruct (Z.lt_ge_cases i k) as [Hc|Hc]; [specialize (A3 i Hi Hc); lia|].
      destruct (Z.lt_ge_cases m i) as [Hc'|Hc']; [specialize (B3 i Hi Hc'); lia|]. lia.
Qed.

Lemma C23_unclipped_pf : forall (L : Type) (tb : timeboard L), reachable tb -> forall r per p s,
  means_period r per p ->
  let getc := get_interval tb r None per true C11 s in
  let getn := get_interval tb r None per false C11 s in
  (inside tb p -> getn = getc)
  /\ (~ inside tb p ->
       ((exists i, in_period tb p i) -> getn = Err EPartialOutOfBounds)
       /\ ((forall i, ~ in_period tb p i) -> getn = Err EOutOfBounds)).
Proof.
  intros L tb Hr r per p s Hm getc getn. apply reachable_wf in Hr. destruct Hr as (W & _ & _).
  unfold getc, getn. rewrite (get_by_period tb r per p true C11 false false s Hm eq_refl).
  rewrite (get_by_period tb r per p false C11 false false s Hm eq_refl). unfold locs_by_period.
  pose proof (p_start_end p) as Hp. pose proof (len_pos tb W) as Hlen.
  assert (H0 : is_shift tb 0) by (unfold is_shift; lia).
  assert (HR : forall i, in_period tb p i <-> is_shift tb i /\ p_start p <= ref_of (tb_tl tb) i <= p_end p)
    by (intros i; apply in_period_ref; exact W).
  pose proof (ref_start_end tb W) as Hse. pose proof (Hse 0 H0) as Hse0. unfold inside.
  set (sch := sched_arg s (tb_default tb)).
  destruct (after_loc tb W (p_start p)) as (l0 & -> & C0). cbn [bind].
  destruct (before_loc tb W (p_end p)) as (l1 & -> & C1). cbn [bind].
  destruct C0 as [(A1 & ->)|[(A1 & A2 & ->)|(A1 & k & Hk & -> & A2 & A3)]];
  destruct C1 as [(B1 & ->)|[(B1 & B2 & ->)|(B1 & m & Hm' & -> & B2 & B3)]];
  cbn [l_where l_pos andb negb Z.eqb OOB_LEFT OOB_RIGHT LOC_WITHIN Pos.eqb]; rewrite ?strip_none; cbn [fst snd];
  (split; [intros; try reflexivity; exfalso; lia|]); intros Ho; try (exfalso; lia).
  - split; [reflexivity|]. intros H. exfalso. apply (H 0). rewrite HR. split; [exact H0|lia].
  - split; [|reflexivity]. intros (i & Hi). apply HR in Hi. specialize (B2 i (proj1 Hi)). lia.
  - split; [reflexivity|]. intros H. exfalso. apply (H m). rewrite HR. split; [exact Hm'|]. specialize (Hse m Hm'). lia.
  - split; [|reflexivity]. intros (i & Hi). apply HR in Hi. specialize (A2 i (proj1 Hi)). lia.
  - split; [reflexivity|]. intros H. exfalso. apply (H k). rewrite HR. split; [exact Hk|]. specialize (Hse k Hk). lia.
Qed.

(** ** C24 *)
Section Strip.
  Context {L : Type} (tb : timeboard L) (W : tl_wf (tb_tl tb)).

  (** Located bounds, before stripping; the flags tell which ends are stripped. *)
  Inductive loc_pair : location -> location -> bool -> bool -> Prop :=
  | lp_in p q dh dt : is_shift tb p -> is_shift tb q ->
      loc_pair (mkLoc (Some p) LOC_WITHIN) (mkLoc (Some q) LOC_WITHIN) dh dt
  | lp_out l0 l1 dh dt : l_pos l0 = None \/ l_pos l1 = None -> l_where l0 <> LOC_WITHIN \/ l_where l1 <> LOC_WITHIN ->
      loc_pair l0 l1 dh dt
  | lp_left q dt : is_shift tb q -> loc_pair (mkLoc (Some 0) OOB_LEFT) (mkLoc (Some q) LOC_WITHIN) false dt
  | lp_right p dh : is_shift tb p -> loc_pair (mkLoc (Some p) LOC_WITHIN) (mkLoc (Some (tb_len tb - 1)) OOB_RIGHT) dh false
  | lp_both : loc_pair (mkLoc (Some 0) OOB_LEFT) (mkLoc (Some (tb_len tb - 1)) OOB_RIGHT) false false.

  Lemma strip_result l0 l1 dh dt s : loc_pair l0 l1 dh dt ->
    let base := interval_from_locs tb l0 l1 s in
    let got := interval_from_locs tb (fst (strip_locs l0 l1 dh dt)) (snd (strip_locs l0 l1 dh dt)) s in
    (forall e, base = Err e -> got = Err e)
    /\ forall iv, base = Ok iv ->
         exists p q, l_pos l0 = Some p /\ l_pos l1 = Some q /\ iv = mkIvl p q false s /\
         let a' := if dh then p + 1 else p in let b' := if dt then q - 1 else q in
         got = if a' <=? b' then Ok (mkIvl a' b' false s)
               else Err (if (l_where l0 =? LOC_WITHIN) && (l_where l1 =? LOC_WITHIN) then EVoidInterval else EOutOfBounds).
  Proof.
    pose proof (len_pos tb W) as Hlen.
    assert (H0 : is_shift tb 0) by (unfold is_shift; lia).
    assert (Hn : is_shift tb (tb_len tb - 1)) by (unfold is_shift; lia).
    intros Hl base got. destruct Hl as [p q dh dt Hp Hq|l0 l1 dh dt Hpos Hw|q dt Hq|p dh Hp|].
    - unfold base, got, strip_locs. cbn [l_pos l_where fst snd]. rewrite (from_within tb p q s Hp Hq).
      set (a' := if dh then p + 1 else p). set (b' := if dt then q - 1 else q). rewrite Z.eqb_refl. cbn [andb].
      assert (G : interval_from_locs tb (mkLoc (Some a') LOC_WITHIN) (mkLoc (Some b') LOC_WITHIN) s
                  = if a' <=? b' then Ok (mkIvl a' b' false s) else Err EVoidInterval).
      { unfold interval_from_locs, locations_in_order. cbn [l_where l_pos]. rewrite Z.eqb_refl. cbn [andb bind].
        destruct (a' <=? b') eqn:E; cbn [negb]; [|reflexivity].
        unfold is_shift in Hp, Hq. assert (p <= a' /\ b' <= q) by (unfold a', b'; destruct dh, dt; lia).
        apply new_interval_ok; unfold is_shift; lia. }
      rewrite G. destruct (p <=? q) eqn:E; split; try discriminate.
      + intros iv Hiv. injection Hiv as <-. exists p, q. repeat split.
      + intros e He. injection He as <-. assert (p <= a' /\ b' <= q) by (unfold a', b'; destruct dh, dt; lia).
        destruct (a' <=? b') eqn:E2; [lia|reflexivity].
    - assert (G : got = base).
      { unfold got, base, interval_from_locs, strip_locs, locations_in_order. cbn [fst snd l_pos l_where].
        destruct ((l_where l0 =? LOC_WITHIN) && (l_where l1 =? LOC_WITHIN)) eqn:E; [lia|]. cbn [bind].
        destruct (negb (l_where l0 <=? l_where l1)); [reflexivity|].
        destruct l0 as [[p0|] w0], l1 as [[p1|] w1]; cbn [l_pos] in *; try reflexivity. destruct Hpos; discriminate. }
      rewrite G. split; [trivial|]. intros iv Hb. exfalso. unfold base, interval_from_locs in Hb.
      destruct (locations_in_order l0 l1) as [o|]; [|discriminate]. cbn [bind] in Hb. destruct (negb o); [discriminate|].
      destruct Hpos as [Hp|Hp]; rewrite Hp in Hb; [destruct (l_pos l1)|destruct (l_pos l0)]; try discriminate;
        destruct (l_where l0 =? l_where l1); discriminate.
    - unfold base, got, strip_locs, interval_from_locs, locations_in_order.
      cbn [fst snd l_pos l_where andb Z.eqb OOB_LEFT OOB_RIGHT LOC_WITHIN Z.leb Z.compare bind negb].
      rewrite (new_interval_ok tb 0 q s H0 Hq) by (unfold is_shift in Hq; lia). split; [discriminate|].
      intros iv Hiv. injection Hiv as <-. exists 0, q. split; [reflexivity|]. split; [reflexivity|]. split; [reflexivity|].
      set (b' := if dt then q - 1 else q). assert (b' <= q) by (unfold b'; destruct dt; lia). unfold is_shift in Hq.
      cbv zeta. destruct (0 <=? b') eqn:E; [apply new_interval_ok; unfold is_shift; lia|].
      apply new_interval_oob. right. unfold is_shift. lia.
    - unfold base, got, strip_locs, interval_from_locs, locations_in_order.
      cbn [fst snd l_pos l_where andb Z.eqb OOB_LEFT OOB_RIGHT LOC_WITHIN Z.leb Z.compare bind negb].
      rewrite (new_interval_ok tb p (tb_len tb - 1) s Hp Hn) by (unfold is_shift in Hp; lia). split; [discriminate|].
      intros iv Hiv. injection Hiv as <-. exists p, (tb_len tb - 1). split; [reflexivity|]. split; [reflexivity|]. split; [reflexivity|].
      set (a' := if dh then p + 1 else p). assert (p <= a') by (unfold a'; destruct dh; lia). unfold is_shift in Hp.
      cbv zeta. destruct (a' <=? tb_len tb - 1) eqn:E; [apply new_interval_ok; unfold is_shift; lia|].
      apply new_interval_oob. left. unfold is_shift. lia.
    - unfold base, got, strip_locs, interval_from_locs, locations_in_order.
      cbn [fst snd l_pos l_where andb Z.eqb OOB_LEFT OOB_RIGHT LOC_WITHIN Z.leb Z.compare bind negb].
      rewrite (new_interval_ok tb 0 (tb_len tb - 1) s H0 Hn) by lia. split; [discriminate|].
      intros iv Hiv. injection Hiv as <-. exists 0, (tb_len tb - 1). split; [reflexivity|]. split; [reflexivity|]. split; [reflexivity|].
      cbv zeta. destruct (0 <=? tb_len tb - 1) eqn:E; [reflexivity|lia].
  Qed.
End Strip.

Section Shape.
  Context {L : Type} (tb : timeboard L) (W : tl_wf (tb_tl tb)).

  Definition shape (r : ivl_ref) (len : option Z) (per : option fstr) (clip : bool) (s : schedule L)
      (get : closed_arg -> res (interval L)) : Prop :=
    (exists e, forall c dh dt, drop_flags c = Ok (dh, dt) -> get c = Err e)
    \/ exists l0 l1 cl cr,
        (forall c dh dt, drop_flags c = Ok (dh, dt) ->
           get c = (let ls := strip_locs l0 l1 (dh && negb cl) (dt && negb cr) in interval_from_locs tb (fst ls) (snd ls) s)
           /\ loc_pair tb l0 l1 (dh && negb cl) (dt && negb cr))
        /\ (l_pos l0 <> None -> l_pos l1 <> None ->
              (cl = true <-> clipped_left tb r len per clip) /\ (cr = true <-> clipped_right tb r len per clip)
              /\ (l_where l0 =? LOC_WITHIN) && (l_where l1 =? LOC_WITHIN) = negb cl && negb cr).

  Lemma shape_plain r len per clip s get l0 l1 :
    ~ clipped_left tb r len per clip -> ~ clipped_right tb r len per clip ->
    (forall c dh dt, drop_flags c = Ok (dh, dt) ->
       get c = (let ls := strip_locs l0 l1 dh dt in interval_from_locs tb (fst ls) (snd ls) s)) ->
    (forall dh dt, loc_pair tb l0 l1 dh dt) ->
    (l_pos l0 <> None -> l_pos l1 <> None -> (l_where l0 =? LOC_WITHIN) && (l_where l1 =? LOC_WITHIN) = true) ->
    shape r len per clip s get.
  Proof.
    intros Hl Hr Hg Hp Hw. right. exists l0, l1, false, false. split.
    - intros c dh dt Hc. cbn [negb]. rewrite !Bool.andb_true_r. split; [apply (Hg c dh dt Hc)|apply Hp].
    - intros H0 H1. split; [split; [discriminate|contradiction]|]. split; [split; [discriminate|contradiction]|].
      apply Hw; assumption.
  Qed.

  Lemma no_clip_ref r per clip len : (forall p, ~ means_period r per p) ->
    ~ clipped_left tb r len per clip /\ ~ clipped_right tb r len per clip.
  Proof. intros H. split; intros (_ & _ & p & Hp & _); exact (H p Hp). Qed.

  (** A located bound of a pair. *)
  Definition plain_loc (l : location) : Prop :=
    (exists p, is_shift tb p /\ l = mkLoc (Some p) LOC_WITHIN) \/ (l_pos l = None /\ l_where l <> LOC_WITHIN).
  Lemma plain_pair l0 l1 : plain_loc l0 -> plain_loc l1 ->
    (forall dh dt, loc_pair tb l0 l1 dh dt)
    /\ (l_pos l0 <> None -> l_pos l1 <> None -> (l_where l0 =? LOC_WITHIN) && (l_where l1 =? LOC_WITHIN) = true).
  Proof.
    intros [(p & Hp & ->)|[H0 Hw0]] [(q & Hq & ->)|[H1 Hw1]].
    - split; [intros; apply lp_in; assumption|reflexivity].
    - split; [intros; apply lp_out; [right; exact H1|right; exact Hw1]|congruence].
    - split; [intros; apply lp_out; [left; exact H0|left; exact Hw0]|congruence].
    - split; [intros; apply lp_out; [left; exact H0|left; exact Hw0]|congruence].
  Qed.
  Lemma locate_plain t : exists l, locate tb t ByNone = Ok l /\ plain_loc l.
  Proof.
    destruct (locate_point tb W t) as [(H & ->)|[(H & ->)|(H & p & Hh & ->)]]; eexists; (split; [reflexivity|]).
    - right. split; [reflexivity|discriminate].
    - right. split; [reflexivity|discriminate].
    - left. exists p. split; [exact (proj1 Hh)|reflexivity].
  Qed.

  Lemma shape_pair a b clip s0 : shape (RPair a b) None None clip (sched_arg s0 (tb_default tb))
     (fun c => get_interval tb (RPair a b) None None clip c s0).
  Proof.
    pose proof (len_pos tb W) as Hlen.
    assert (H0 : is_shift tb 0) by (unfold is_shift; lia).
    assert (Hn : is_shift tb (tb_len tb - 1)) by (unfold is_shift; lia).
    assert (A : exists l0, match a with Some t => locate tb t ByNone | None => Ok (mkLoc (Some 0) LOC_WITHIN) end = Ok l0 /\ plain_loc l0).
    { destruct a as [t|]; [apply locate_plain|]. eexists. split; [reflexivity|]. left. exists 0. split; [exact H0|reflexivity]. }
    assert (B : exists l1, match b with Some t => locate tb t ByNone | None => Ok (mkLoc (Some (tb_len tb - 1)) LOC_WITHIN) end = Ok l1 /\ plain_loc l1).
    { destruct b as [t|]; [apply locate_plain|]. eexists. split; [reflexivity|]. left. exists (tb_len tb - 1). split; [exact Hn|reflexivity]. }
    destruct A as (l0 & E0 & P0). destruct B as (l1 & E1 & P1). destruct (plain_pair l0 l1 P0 P1) as [Q1 Q2].
    destruct (no_clip_ref (RPair a b) None clip None) as [C1 C2]; [intros p Hp; inversion Hp|].
    apply (shape_plain _ _ _ _ _ _ l0 l1 C1 C2); [|exact Q1|exact Q2].
    intros c dh dt Hc. unfold get_interval. rewrite Hc. cbn [bind]. unfold locs_from_reference. rewrite E0. cbn [bind]. rewrite E1.
    cbn [bind]. destruct s0; reflexivity.
  Qed.

  Lemma shape_none clip s0 : shape RNone None None clip (sched_arg s0 (tb_default tb))
     (fun c => get_interval tb RNone None None clip c s0).
  Proof.
    pose proof (len_pos tb W) as Hlen.
    destruct (plain_pair (mkLoc (Some 0) LOC_WITHIN) (mkLoc (Some (tb_len tb - 1)) LOC_WITHIN)) as [Q1 Q2].
    { left. eexists. split; [|reflexivity]. unfold is_shift. lia. }
    { left. eexists. split; [|reflexivity]. unfold is_shift. lia. }
    destruct (no_clip_ref RNone None clip None) as [C1 C2]; [intros p Hp; inversion Hp|].
    apply (shape_plain _ _ _ _ _ _ _ _ C1 C2) with (2 := Q1) (3 := Q2).
    intros c dh dt Hc. unfold get_interval. rewrite Hc. destruct s0; reflexivity.
  Qed.

  Lemma shape_length r n clip s0 : shape r (Some n) None clip (sched_arg s0 (tb_default tb))
     (fun c => get_interval tb r (Some n) None clip c s0).
  Proof.
    destruct (n =? 0) eqn:En.
    { left. exists EVoidInterval. intros c dh dt Hc. unfold get_interval, locs_by_length. rewrite Hc, En. reflexivity. }
    destruct (ref_timestamp r) as [t|e] eqn:Er.
    2:{ left. exists e. intros c dh dt Hc. unfold get_interval, locs_by_length. rewrite Hc, En, Er. reflexivity. }
    destruct (locate_plain t) as (this & Et & Pt).
    assert (C : ~ clipped_left tb r (Some n) None clip /\ ~ clipped_right tb r (Some n) None clip).
    { split; intros (_ & H & _); discriminate. }
    destruct C as [C1 C2].
    destruct Pt as [(p & Hp & ->)|[Hnone Hw]].
    - set (other := p + n - Z.sgn n).
      set (locs := if other <? 0 then (mkLoc None OOB_LEFT, mkLoc (Some p) LOC_WITHIN)
        else if tb_len tb <=? other then (mkLoc (Some p) LOC_WITHIN, mkLoc None OOB_RIGHT)
        else if other <? p then (mkLoc (Some other) LOC_WITHIN, mkLoc (Some p) LOC_WITHIN)
        else (mkLoc (Some p) LOC_WITHIN, mkLoc (Some other) LOC_WITHIN)).
      assert (P : plain_loc (fst locs) /\ plain_loc (snd locs)).
      { assert (P0 : plain_loc (mkLoc (Some p) LOC_WITHIN)) by (left; exists p; split; [exact Hp|reflexivity]).
        unfold locs. destruct (other <? 0) eqn:E1; [split; [right; split; [reflexivity|discriminate]|exact P0]|].
        destruct (tb_len tb <=? other) eqn:E2; [split; [exact P0|right; split; [reflexivity|discriminate]]|].
        assert (Po : plain_loc (mkLoc (Some other) LOC_WITHIN)) by (left; exists other; split; [unfold is_shift; lia|reflexivity]).
        destruct (other <? p); split; assumption. }
      destruct (plain_pair _ _ (proj1 P) (proj2 P)) as [Q1 Q2].
      apply (shape_plain _ _ _ _ _ _ _ _ C1 C2) with (2 := Q1) (3 := Q2).
      intros c dh dt Hc. unfold get_interval, locs_by_length. rewrite Hc. cbn [bind]. rewrite En, Er. cbn [bind]. rewrite Et. cbn [bind l_pos].
      cbv zeta. fold other. fold locs. destruct s0; reflexivity.
    - assert (Pt : plain_loc this) by (right; split; assumption).
      destruct (plain_pair _ _ Pt Pt) as [Q1 Q2].
      apply (shape_plain _ _ _ _ _ _ _ _ C1 C2) with (2 := Q1) (3 := Q2).
      intros c dh dt Hc. unfold get_interval, locs_by_length. rewrite Hc. cbn [bind]. rewrite En, Er. cbn [bind]. rewrite Et. cbn [bind].
      rewrite Hnone. cbn [bind fst snd]. unfold strip_locs. rewrite Hnone. cbn [fst snd].
      destruct this as [pp ww]. cbn [l_pos] in Hnone. subst pp. destruct s0; reflexivity.
  Qed.

  Lemma means_period_fun r per p q : means_period r per p -> means_period r per q -> p = q.
  Proof.
    intros H1 H2. destruct H1 as [p per|t f p Hf Ht]; inversion H2; subst; [reflexivity|].
    destruct p as [pf po], q as [qf qo]. cbn [p_freq p_ord] in *. subst. f_equal.
    match goal with H : in_cal_unit _ qo t |- _ => apply in_cal_unit_pord in H; apply in_cal_unit_pord in Ht end. congruence.
  Qed.

  Lemma shape_period r per p clip s0 : means_period r per p -> shape r None per clip (sched_arg s0 (tb_default tb))
     (fun c => get_interval tb r None per clip c s0).
  Proof.
    intros Hm. pose proof (len_pos tb W) as Hlen. pose proof (p_start_end p) as Hpp.
    assert (H0 : is_shift tb 0) by (unfold is_shift; lia).
    pose proof (ref_start_end tb W 0 H0) as Hse.
    assert (CL : clipped_left tb r None per clip <-> clip = true /\ p_start p < tb_start_time tb).
    { split.
      - intros (A & _ & q & Hq & B). rewrite (means_period_fun _ _ _ _ Hm Hq). split; assumption.
      - intros [A B]. split; [exact A|]. split; [reflexivity|]. exists p. split; assumption. }
    assert (CR : clipped_right tb r None per clip <-> clip = true /\ tb_end_time tb < p_end p).
    { split.
      - intros (A & _ & q & Hq & B). rewrite (means_period_fun _ _ _ _ Hm Hq). split; assumption.
      - intros [A B]. split; [exact A|]. split; [reflexivity|]. exists p. split; assumption. }
    destruct (after_loc tb W (p_start p)) as (l0 & E0 & C0).
    destruct (before_loc tb W (p_end p)) as (l1 & E1 & C1).
    set (left := clip && (l_where l0 =? OOB_LEFT) && negb (l_where l1 =? OOB_LEFT)).
    set (right := clip && (l_where l1 =? OOB_RIGHT) && negb (l_where l0 =? OOB_RIGHT)).
    right. exists (mkLoc (if left then Some 0 else l_pos l0) (l_where l0)),
           (mkLoc (if right then Some (tb_len tb - 1) else l_pos l1) (l_where l1)), left, right. split.
    - intros c dh dt Hc. split.
      + rewrite (get_by_period tb r per p clip c dh dt s0 Hm Hc). unfold locs_by_period. rewrite E0. cbn [bind]. rewrite E1. cbn [bind].
        fold left right. replace (if left then false else dh) with (dh && negb left) by (destruct dh, left; reflexivity).
        replace (if right then false else dt) with (dt && negb right) by (destruct dt, right; reflexivity). reflexivity.
      + unfold left, right.
        destruct C0 as [(A1 & ->)|[(A1 & A2 & ->)|(A1 & k & Hk & -> & A2 & A3)]];
        destruct C1 as [(B1 & ->)|[(B1 & B2 & ->)|(B1 & m & Hm' & -> & B2 & B3)]];
        destruct clip; cbn [l_where l_pos andb negb Z.eqb OOB_LEFT OOB_RIGHT LOC_WITHIN Pos.eqb]; rewrite ?Bool.andb_false_r, ?Bool.andb_true_r;
        try (apply lp_out; cbn [l_pos l_where]; [left; reflexivity|left; discriminate]);
        try (apply lp_out; cbn [l_pos l_where]; [right; reflexivity|right; discriminate]);
        try (apply lp_both); try (apply lp_left; assumption); try (apply lp_right; assumption); apply lp_in; assumption.
    - rewrite CL, CR. unfold left, right.
      destruct C0 as [(A1 & ->)|[(A1 & A2 & ->)|(A1 & k & Hk & -> & A2 & A3)]];
      destruct C1 as [(B1 & ->)|[(B1 & B2 & ->)|(B1 & m & Hm' & -> & B2 & B3)]];
      destruct clip; cbn [l_where l_pos andb negb Z.eqb OOB_LEFT OOB_RIGHT LOC_WITHIN Pos.eqb]; intros N0 N1; try congruence;
      (split; [split; [intros Q; try discriminate Q; (split; [reflexivity|lia])|intros [Q ?]; try discriminate Q; try reflexivity; lia]|]);
      (split; [split; [intros Q; try discriminate Q; (split; [reflexivity|lia])|intros [Q ?]; try discriminate Q; try reflexivity; lia]|reflexivity]).
  Qed.

  Lemma shape_all r len per clip s0 : shape r len per clip (sched_arg s0 (tb_default tb))
     (fun c => get_interval tb r len per clip c s0).
  Proof.
    destruct len as [n|], per as [f|].
    - left. exists EType. intros c dh dt Hc. unfold get_interval. rewrite Hc. reflexivity.
    - apply shape_length.
    - destruct r as [|a b|p|t].
      + left. exists EType. intros c dh dt Hc. unfold get_interval. rewrite Hc. reflexivity.
      + left. exists EType. intros c dh dt Hc. unfold get_interval. rewrite Hc. reflexivity.
      + apply (shape_period _ _ p). constructor.
      + apply (shape_period _ _ (mkPeriod (to_freq f) (pord (fbase (to_freq f)) t))). constructor; [reflexivity|].
        apply in_cal_unit_pord. reflexivity.
    - destruct r as [|a b|p|t].
      + apply shape_none.
      + apply shape_pair.
      + apply (shape_period _ _ p). constructor.
      + left. exists EType. intros c dh dt Hc. unfold get_interval. rewrite Hc. reflexivity.
  Qed.
End Shape.

Lemma C24_closed_pf : forall (L : Type) (tb : timeboard L), reachable tb -> forall r len per clip s c,
  let get c := get_interval tb r len per clip c s in
  (c = CBad -> get c = Err EValue)
  /\ (closed_ok c ->
      (forall e, get C11 = Err e -> get c = Err e)
      /\ forall iv a' b', get C11 = Ok iv ->
           strip_left tb r len per clip c (iv_a iv) a' -> strip_right tb r len per clip c (iv_b iv) b' ->
           (a' <= b' -> get c = Ok (mkIvl a' b' false (iv_sched iv)))
           /\ (b' < a' -> ~ clipped_left tb r len per clip -> ~ clipped_right tb r len per clip -> get c = Err EVoidInterval)
           /\ (b' < a' -> clipped_left tb r len per clip \/ clipped_right tb r len per clip -> get c = Err EOutOfBounds)).
Proof.
  intros L tb Hr r len per clip s c get. apply reachable_wf in Hr. destruct Hr as (W & _ & _).
  split; [intros ->; reflexivity|]. intros Hc.
  assert (Hfl : exists dh dt, drop_flags c = Ok (dh, dt) /\ (dh = true <-> open_left c) /\ (dt = true <-> open_right c)).
  { unfold open_left, open_right.
    destruct Hc as [ -> | [ -> | [ -> | -> ] ] ]; eexists; eexists; (split; [reflexivity|]); intuition discriminate. }
  destruct Hfl as (dh & dt & Hfl & Hdh & Hdt).
  destruct (shape_all tb W r len per clip s) as [(e & He)|(l0 & l1 & cl & cr & Hg & Hcl)].
  - split.
    + intros e' H. unfold get in *. rewrite (He C11 false false eq_refl) in H. rewrite (He c dh dt Hfl). exact H.
    + intros iv a' b' H. unfold get in H. rewrite (He C11 false false eq_refl) in H. discriminate.
  - destruct (Hg C11 false false eq_refl) as [G1 P1]. cbn [andb] in G1, P1. rewrite strip_none in G1. cbn [fst snd] in G1.
    destruct (Hg c dh dt Hfl) as [G2 P2]. cbv zeta in G2.
    destruct (strip_result tb W l0 l1 _ _ (sched_arg s (tb_default tb)) P2) as [R1 R2].
    fold (get C11) in G1. fold (get c) in G2. rewrite G1, G2. split; [exact R1|].
    intros iv a' b' Hiv Hl Hrt. destruct (R2 iv Hiv) as (p & q & E0 & E1 & -> & R). cbn [iv_a iv_b iv_sched] in *.
    destruct (Hcl ltac:(congruence) ltac:(congruence)) as (K1 & K2 & K3). rewrite K3 in R. cbv zeta in R.
    assert (Ha : a' = if dh && negb cl then p + 1 else p).
    { unfold strip_left in Hl. rewrite <- K1, <- Hdh in Hl. destruct dh, cl; cbn [andb negb]; intuition congruence. }
    assert (Hb : b' = if dt && negb cr then q - 1 else q).
    { unfold strip_right in Hrt. rewrite <- K2, <- Hdt in Hrt. destruct dt, cr; cbn [andb negb]; intuition congruence. }
    rewrite <- Ha, <- Hb in R. rewrite R, <- K1, <- K2.
    split; [intros H; destruct (a' <=? b') eqn:E; [reflexivity|lia]|].
    split; intros H; (destruct (a' <=? b') eqn:E; [lia|]).
    + intros H1 H2. destruct cl, cr; try congruence. reflexivity.
    + intros H1. destruct cl, cr; try reflexivity. destruct H1; discriminate.
Qed.
