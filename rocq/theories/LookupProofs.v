(** Proofs of C01-C04, C35, C36. *)
From Verif Require Import Base BaseProofs Civil Freq FreqProofs Frame FrameProofs Timeline TimelineProofs Board Spec BoardProofs SpecLookup.
From Coq Require Import ZifyBool ZifyNat Sorted.
Ltac Zify.zify_post_hook ::= Z.div_mod_to_equations.

(** ** C01 *)
Lemma in_cal_unit_pord b o t : in_cal_unit b o t <-> pord b t = o.
Proof. unfold in_cal_unit. rewrite pord_iff. reflexivity. Qed.

Lemma C01_units_pf : forall (L : Type) (a : tb_args L) (h : heap L) tb h',
  build a h = Ok (tb, h') ->
  let f := tl_frame (tb_tl tb) in
  let b := fbase (to_freq (a_freq a)) in
  let m := Zpos (fmult (to_freq (a_freq a))) in
  exists o n,
    fr_len f = n /\ 0 < n /\ in_cal_unit b o (a_start a)
    /\ (forall k, 0 <= k < n -> unit_start f k = pstart b (o + k * m)
                             /\ unit_end f k = pstart b (o + (k + 1) * m) - 1)
    /\ (forall k, unit_start f (k + 1) = unit_end f k + 1)
    /\ tb_start_time tb = unit_start f 0 /\ tb_end_time tb = unit_end f (n - 1)
    /\ tb_start_time tb <= a_start a
    /\ unit_start f (n - 1) <= a_end a <= tb_end_time tb.
Proof.
  intros L a h tb h' H f b m. apply build_inv in H.
  destruct H as (org & f0 & tl0 & _ & Hf & _ & _ & _ & _ & _ & _ & _ & _ & _ & Hfr & _).
  assert (Ef : f = f0) by exact Hfr.
  pose proof Hf as Hf'. apply mk_frame_inv in Hf'.
  unfold mk_frame in Hf. fold b in Hf. fold m in Hf.
  destruct (period_count m (pord b (a_start a)) (pord b (a_end a)) =? 0) eqn:E0; [discriminate|].
  assert (Hf0 : f0 = mkFrame (a_freq a) (pord b (a_start a)) (period_count m (pord b (a_start a)) (pord b (a_end a)))) by congruence.
  clear Hf. set (o := pord b (a_start a)) in *. set (n := period_count m o (pord b (a_end a))) in *.
  assert (Hm : 0 < m) by (unfold m; lia).
  assert (Hn : o <= pord b (a_end a) /\ n = (pord b (a_end a) - o) / m + 1).
  { unfold n, period_count in *. destruct (pord b (a_end a) <? o) eqn:E; [lia|]. split; [lia|reflexivity]. }
  assert (Hs : forall k, unit_start f k = pstart b (o + k * m)).
  { intros k. rewrite Ef, Hf0. reflexivity. }
  assert (He : forall k, unit_end f k = pstart b (o + (k + 1) * m) - 1).
  { intros k. rewrite unit_end_next, Hs. reflexivity. }
  assert (Hl : fr_len f = n) by (rewrite Ef, Hf0; reflexivity).
  assert (Hpos : 0 < n) by (destruct Hn as [A B]; rewrite B; assert (0 <= (pord b (a_end a) - o) / m) by (apply Z.div_pos; lia); lia).
  exists o, n.
  assert (Hte : tb_end_time tb = unit_end f (n - 1)) by (unfold tb_end_time, fr_end_time; fold f; rewrite Hl; reflexivity).
  split; [exact Hl|]. split; [exact Hpos|]. split; [apply in_cal_unit_pord; reflexivity|].
  split; [intros k _; split; [apply Hs|apply He]|]. split; [intros k; rewrite unit_end_next; lia|].
  split; [reflexivity|]. split; [exact Hte|].
  pose proof (pord_spec b (a_start a)) as P0. pose proof (pord_spec b (a_end a)) as P1.
  split.
  - unfold tb_start_time, fr_start_time. fold f. rewrite Hs. replace (o + 0 * m) with o by lia. unfold o. lia.
  - rewrite Hte, Hs, He. destruct Hn as [A B].
    assert (Hlo : o + (n - 1) * m <= pord b (a_end a)) by (rewrite B; nia).
    assert (Hhi : pord b (a_end a) + 1 <= o + (n - 1 + 1) * m) by (rewrite B; nia).
    apply (pstart_le_iff b) in Hlo. apply (pstart_le_iff b) in Hhi. lia.
Qed.

(** Errors an organizer can raise. *)
Lemma partition_err f d s e : fr_wf f -> span_wf f s -> partition f d s = Err e ->
  e = EUnacceptablePeriod \/ exists how st fs, how_in_divider how d /\ how st fs = Err e.
Proof.
  intros Hw Hs. destruct d as [m|ms]; cbn [partition].
  - unfold partition_with_marker.
    destruct (negb (check_groupby_freq (fr_str f) (m_each m))); [intros H; left; congruence|].
    rewrite check_span_ok by exact Hs. cbn [bind].
    assert (Ht : unit_start f (s_first s) <= unit_end f (s_last s)).
    { pose proof (unit_start_end f (s_last s)). pose proof (unit_start_le f (s_first s) (s_last s)). destruct Hs. lia. }
    assert (Hst : forall t0 t1, t0 <= t1 -> exists st, mk_frame (m_each m) t0 t1 = Ok st).
    { intros t0 t1 H. apply mk_frame_ok. apply pord_mono. exact H. }
    destruct (m_at m) as [|h at_] eqn:Em; cbn zeta.
    + destruct (Hst _ _ Ht) as [st ->]. cbn [bind]. intros H.
      destruct (finish_partition_ok f s (fr_start_times st) false (fr_start_time st) false (fr_end_time st) Hw Hs) as (x & Hx & _).
      congruence.
    + destruct (Hst (unit_start f (s_first s) - get_freq_delta (to_freq (m_each m)))
                    (unit_end f (s_last s) + get_freq_delta (to_freq (m_each m)))) as [st ->].
      { assert (0 <= get_freq_delta (to_freq (m_each m))); [|lia].
        unfold get_freq_delta. cbn zeta. set (o := pord (fbase (to_freq (m_each m))) jul2016).
        assert (Ho : o <= o + Z.pos (fmult (to_freq (m_each m)))) by lia.
        apply (pstart_le_iff (fbase (to_freq (m_each m)))) in Ho. lia. }
      cbn [bind].
      destruct (mapM _ _) as [pts|e0] eqn:Ep; cbn [bind].
      * destruct (py_slice _ _ _) as [|p ps]; [discriminate|]. intros H.
        match type of H with finish_partition f s ?a ?b ?c ?d ?e = _ =>
          destruct (finish_partition_ok f s a b c d e Hw Hs) as (x & Hx & _) end. congruence.
      * intros H. injection H as <-. right.
        assert (Hx : forall l, mapM (fun how : frame -> fstr -> res (list Z) => how st (fr_str f)) l = Err e0 ->
                  exists how, In how l /\ how st (fr_str f) = Err e0).
        { clear. induction l as [|y l IH]; cbn [mapM]; [discriminate|].
          destruct (y st (fr_str f)) as [v|e1] eqn:E; cbn [bind].
          - destruct (mapM _ l) as [vs|e2] eqn:E2; cbn [bind]; [discriminate|]. intros H.
            destruct IH as (how & H1 & H2); [congruence|]. exists how. split; [right; exact H1|exact H2].
          - intros H. exists y. split; [left; reflexivity|congruence]. }
        destruct (Hx _ Ep) as (how & H1 & H2). exists how, st, (fr_str f). split; [|exact H2].
        constructor. rewrite Em. exact H1.
  - unfold partition_at_marks. destruct (create_subspans_ok f s ms Hw Hs) as (x & -> & _). discriminate.
Qed.

Lemma span_wf_tiles f a b spans s : tiles a b spans -> 0 <= a -> b < fr_len f -> In s spans -> span_wf f s.
Proof. intros Ht Ha Hb Hs. pose proof (tiles_In _ _ _ _ Ht Hs). unfold span_wf. lia. Qed.

Lemma organize_err {L} f (ly : layout L) : fr_wf f -> forall s st e, span_wf f s -> organize f ly s st = Err e ->
  e = EUnacceptablePeriod \/ e = EOutOfBounds
  \/ exists how stn fs, how_in_layout how ly /\ how stn fs = Err e.
Proof.
  intros Hw. induction ly as [d items IH|d k|p|x] using layout_ind2; intros s st e Hs H.
  - cbn [organize] in H. destruct (partition f d s) as [spans|e0] eqn:E; cbn [bind] in H.
    + apply partition_tiles in E; [|exact Hw|exact Hs].
      assert (Hsp : forall x, In x spans -> span_wf f x).
      { intros x Hx. destruct Hs. eapply span_wf_tiles; [exact E|lia|lia|exact Hx]. }
      clear E.
      assert (G : forall all cur, incl all items -> incl cur items ->
                run_cycle (map (organize f) all) (map (organize f) cur) spans st = Err e ->
                exists it sp st', In it items /\ In sp spans /\ organize f it sp st' = Err e).
      { clear IH H Hs. revert st. induction spans as [|x spans IHs]; intros st all cur Hi1 Hi2 H; cbn [run_cycle] in H; [discriminate|].
        assert (Hsp' : forall y, In y spans -> span_wf f y) by (intros y Hy; apply Hsp; right; exact Hy).
        destruct cur as [|it cur]; cbn [map] in H.
        - destruct all as [|it all']; cbn [map] in H; [discriminate|].
          destruct (organize f it x st) as [st1|e1] eqn:E1; cbn [bind] in H.
          + destruct (IHs Hsp' st1 (it :: all') all') as (it2 & sp2 & st2 & G1 & G2 & G3);
              [exact Hi1|intros z Hz; apply Hi1; right; exact Hz|exact H|].
            exists it2, sp2, st2. split; [exact G1|]. split; [right; exact G2|exact G3].
          + exists it, x, st. split; [apply Hi1; left; reflexivity|]. split; [left; reflexivity|congruence].
        - destruct (organize f it x st) as [st1|e1] eqn:E1; cbn [bind] in H.
          + destruct (IHs Hsp' st1 all cur) as (it2 & sp2 & st2 & G1 & G2 & G3);
              [exact Hi1|intros z Hz; apply Hi2; right; exact Hz|exact H|].
            exists it2, sp2, st2. split; [exact G1|]. split; [right; exact G2|exact G3].
          + exists it, x, st. split; [apply Hi2; left; reflexivity|]. split; [left; reflexivity|congruence]. }
      destruct (G items items (incl_refl _) (incl_refl _) H) as (it & sp & st2 & G1 & G2 & G3).
      rewrite Forall_forall in IH. destruct (IH it G1 sp st2 e (Hsp sp G2) G3) as [C|[C|(how & stn & fs & C1 & C2)]]; auto.
      right; right. exists how, stn, fs. split; [|exact C2]. eapply hil_item; eassumption.
    + injection H as <-. destruct (partition_err f d s _ Hw Hs E) as [C|(how & stn & fs & C1 & C2)]; [auto|].
      right; right. exists how, stn, fs. split; [apply hil_div; exact C1|exact C2].
  - cbn [organize] in H. destruct (partition f d s) as [spans|e0] eqn:E; cbn [bind] in H.
    + exfalso. clear E. revert st H. induction spans as [|x spans IH]; intros st H; cbn [run_remembering] in H; [discriminate|].
      destruct (heap_get (st_heap st) k) as [l cur]. destruct l as [|z l]; [discriminate|].
      destruct (cyc_take (z :: l) cur 1) as [[|lab t] r]; [discriminate|].
      unfold apply_label in H. cbn [bind] in H. eapply IH. exact H.
    + injection H as <-. destruct (partition_err f d s _ Hw Hs E) as [C|(how & stn & fs & C1 & C2)]; [auto|].
      right; right. exists how, stn, fs. split; [apply hil_divrem; exact C1|exact C2].
  - cbn [organize] in H. unfold apply_pattern in H. destruct (s_left s <? 0); [right; left; congruence|].
    destruct p as [[|y l]|k]; try discriminate.
    destruct (heap_get (st_heap st) k) as [[|y l] cur]; [discriminate|]. destruct (skip_take _ _ _ _); discriminate.
  - discriminate.
Qed.

Lemma how_in_top {L} (ly : layout L) org how : top_organizer ly = Ok org -> how_in_layout how org -> how_in_layout how ly.
Proof.
  destruct ly as [d items|d k|[l|k]|x]; cbn [top_organizer]; intros H Hh; try discriminate; injection H as <-; try exact Hh.
  exfalso. inversion Hh; subst.
  - match goal with H : how_in_divider _ _ |- _ => inversion H end.
  - match goal with H : In _ [_] |- _ => destruct H as [<-|[]] end.
    match goal with H : how_in_layout _ (LPat _) |- _ => inversion H end.
Qed.

Lemma locate_amendments_err {L} (tl : timeline L) am : tl_wf tl -> forall acc e,
  locate_amendments tl false am acc = Err e -> e = EKey.
Proof.
  intros W. induction am as [|[t x] am IH]; intros acc e; cbn [locate_amendments]; [discriminate|].
  destruct (Z.lt_ge_cases t (fr_start_time (tl_frame tl))) as [H1|H1];
    [rewrite get_ws_position_out by (left; exact H1); apply IH|].
  destruct (Z.lt_ge_cases (fr_end_time (tl_frame tl)) t) as [H2|H2];
    [rewrite get_ws_position_out by (right; exact H2); apply IH|].
  destruct (get_ws_position_in tl W t ltac:(lia)) as (p & -> & _).
  destruct (existsb _ acc); [congruence|apply IH].
Qed.

Lemma C01_void_pf : forall (L : Type) (a : tb_args L) (h : heap L) o0 o1,
  (forall how st fs, how_in_layout how (a_layout a) -> how st fs <> Err EVoidInterval) ->
  is_ok (top_organizer (a_layout a)) = true -> a_wt a <> WBad ->
  let b := fbase (to_freq (a_freq a)) in
  in_cal_unit b o0 (a_start a) -> in_cal_unit b o1 (a_end a) ->
  (build a h = Err EVoidInterval <-> o1 < o0).
Proof.
  intros L a h o0 o1 Hhow Htop Hwt b H0 H1. apply in_cal_unit_pord in H0, H1.
  unfold build. destruct (top_organizer (a_layout a)) as [org|] eqn:Et; [|discriminate]. cbn [bind].
  destruct (a_wt a) eqn:Ew; [| |congruence].
  all: destruct (mk_frame (a_freq a) (a_start a) (a_end a)) as [f|e] eqn:Ef; cbn [bind].
  all: try (apply mk_frame_err in Ef as Ef2; fold b in Ef2; split; [intros _; lia|intros _; destruct Ef2; congruence]).
  all: destruct (mk_frame_inv _ _ _ _ Ef) as (Hf1 & _ & Hw & _ & Hf2).
  all: unfold fr_base in Hf2; rewrite Hf1 in Hf2; fold b in Hf2.
  all: split; [|lia].
  all: destruct (mk_timeline f org (a_ref_end a) (a_default a) h) as [[tl0 h2]|e] eqn:Em; cbn [bind fst snd].
  all: try (destruct (mk_timeline_inv _ _ _ _ _ _ _ Hw Em) as (_ & _ & _ & _ & _ & _ & _ & W);
    destruct (amend tl0 false (a_amendments a)) as [tl|e2] eqn:Ea; cbn [bind]; [discriminate|];
    unfold amend in Ea; destruct (locate_amendments tl0 false (a_amendments a) []) as [x|e3] eqn:El; cbn [bind] in Ea; [discriminate|];
    apply locate_amendments_err in El; [|exact W]; congruence).
  all: intros HH; injection HH as ->.
  all: unfold mk_timeline in Em; destruct (organize _ _ _ _) as [st|e] eqn:Eo; cbn [bind] in Em; [discriminate|].
  all: apply organize_err in Eo; [|exact Hw|unfold span_wf, fr_wf in *; cbn; lia].
  all: injection Em as ->.
  all: destruct Eo as [C|[C|(how & stn & fs & C1 & C2)]]; try discriminate.
  all: exfalso; eapply (Hhow how stn fs); [eapply how_in_top; eassumption|exact C2].
Qed.

(** ** C02-C04 *)
Lemma shift_times {L} (tb : timeboard L) i : tl_wf (tb_tl tb) -> is_shift tb i ->
  starts_at tb i (unit_start (tl_frame (tb_tl tb)) (bnd (tb_tl tb) i))
  /\ ends_at tb i (unit_start (tl_frame (tb_tl tb)) (bnd (tb_tl tb) (i + 1)) - 1)
  /\ ref_at tb i (ref_of (tb_tl tb) i).
Proof.
  intros W Hi. split; [apply ws_start_ok; assumption|]. split; [apply ws_end_ok; assumption|apply ws_ref_ok; assumption].
Qed.
Lemma starts_at_iff {L} (tb : timeboard L) i t : tl_wf (tb_tl tb) -> is_shift tb i ->
  (starts_at tb i t <-> t = unit_start (tl_frame (tb_tl tb)) (bnd (tb_tl tb) i)).
Proof. intros W Hi. destruct (shift_times tb i W Hi) as (H & _). unfold starts_at in *. rewrite H. split; congruence. Qed.
Lemma ends_at_iff {L} (tb : timeboard L) i t : tl_wf (tb_tl tb) -> is_shift tb i ->
  (ends_at tb i t <-> t = unit_start (tl_frame (tb_tl tb)) (bnd (tb_tl tb) (i + 1)) - 1).
Proof. intros W Hi. destruct (shift_times tb i W Hi) as (_ & H & _). unfold ends_at in *. rewrite H. split; congruence. Qed.
Lemma ref_at_iff {L} (tb : timeboard L) i t : tl_wf (tb_tl tb) -> is_shift tb i ->
  (ref_at tb i t <-> t = ref_of (tb_tl tb) i).
Proof. intros W Hi. destruct (shift_times tb i W Hi) as (_ & _ & H). unfold ref_at in *. rewrite H. split; congruence. Qed.
Lemma holds_time_iff {L} (tb : timeboard L) i t : tl_wf (tb_tl tb) ->
  (holds_time tb i t <-> is_shift tb i /\
     unit_start (tl_frame (tb_tl tb)) (bnd (tb_tl tb) i) <= t
       <= unit_start (tl_frame (tb_tl tb)) (bnd (tb_tl tb) (i + 1)) - 1).
Proof.
  intros W. unfold holds_time. split.
  - intros (Hi & s & e & H1 & H2 & H3). split; [exact Hi|].
    apply starts_at_iff in H1; [|exact W|exact Hi]. apply ends_at_iff in H2; [|exact W|exact Hi]. subst. exact H3.
  - intros (Hi & H). split; [exact Hi|]. destruct (shift_times tb i W Hi) as (H1 & H2 & _). eauto.
Qed.

Lemma locate_none_in {L} (tb : timeboard L) t : tl_wf (tb_tl tb) -> tb_start_time tb <= t <= tb_end_time tb ->
  exists p, locate tb t ByNone = Ok (mkLoc (Some p) LOC_WITHIN) /\ holds_time tb p t.
Proof.
  intros W Ht. destruct (get_ws_position_in _ W t Ht) as (p & Hp & Hr & Hb).
  exists p. unfold locate. rewrite Hp. destruct (p <? 0) eqn:E; [lia|]. split; [reflexivity|].
  apply holds_time_iff; [exact W|]. split; [exact Hr|exact Hb].
Qed.
Lemma locate_none_out {L} (tb : timeboard L) t : tl_wf (tb_tl tb) -> t < tb_start_time tb \/ tb_end_time tb < t ->
  locate tb t ByNone = Ok (mkLoc None (if t <? tb_start_time tb then OOB_LEFT else OOB_RIGHT)).
Proof.
  intros W Ht. unfold locate. rewrite get_ws_position_out by exact Ht.
  destruct (t <? tb_start_time tb) eqn:E; [reflexivity|]. destruct (tb_end_time tb <? t) eqn:E2; [reflexivity|lia].
Qed.
Lemma holds_time_unique {L} (tb : timeboard L) t i j : tl_wf (tb_tl tb) ->
  holds_time tb i t -> holds_time tb j t -> i = j.
Proof.
  intros W Hi Hj. apply holds_time_iff in Hi, Hj; try exact W.
  destruct Hi as [I1 I2]. destruct Hj as [J1 J2]. eapply time_pos_unique; eassumption.
Qed.
Lemma holds_time_within {L} (tb : timeboard L) t i : tl_wf (tb_tl tb) ->
  holds_time tb i t -> tb_start_time tb <= t <= tb_end_time tb.
Proof.
  intros W Hi. apply holds_time_iff in Hi; [|exact W]. destruct Hi as [I1 I2].
  pose proof (ws_within _ W i I1) as H. unfold tb_start_time, tb_end_time. lia.
Qed.
Lemma locate_holds {L} (tb : timeboard L) t i : tl_wf (tb_tl tb) -> holds_time tb i t ->
  locate tb t ByNone = Ok (mkLoc (Some i) LOC_WITHIN).
Proof.
  intros W Hi. destruct (locate_none_in tb t W (holds_time_within tb t i W Hi)) as (p & Hp & Hh).
  rewrite Hp. rewrite (holds_time_unique tb t i p W Hi Hh). reflexivity.
Qed.

Lemma C02_lookup_pf : forall (L : Type) (tb : timeboard L), reachable tb -> forall t s,
  (tb_start_time tb <= t <= tb_end_time tb -> exists w, get_workshift tb t s = Ok w)
  /\ (forall w, get_workshift tb t s = Ok w ->
        holds_time tb (ws_loc w) t /\ (forall j, holds_time tb j t -> j = ws_loc w)
        /\ tl_get (tb_tl tb) (ws_loc w) = Ok (ws_label w)
        /\ ws_sched w = match s with Some s' => s' | None => tb_default tb end)
  /\ (t < tb_start_time tb \/ tb_end_time tb < t -> get_workshift tb t s = Err EOutOfBounds)
  /\ (forall j, holds_time tb j t -> tb_start_time tb <= t <= tb_end_time tb).
Proof.
  intros L tb Hr t s. apply reachable_wf in Hr. destruct Hr as (W & _ & _).
  assert (Hin : tb_start_time tb <= t <= tb_end_time tb ->
      exists p x, holds_time tb p t /\ tl_get (tb_tl tb) p = Ok x
        /\ get_workshift tb t s = Ok (mkWs p x (opt_or s (tb_default tb)))).
  { intros Ht. destruct (locate_none_in tb t W Ht) as (p & Hp & Hh).
    destruct (new_workshift_ok tb W p (opt_or s (tb_default tb)) (proj1 Hh)) as (x & Hx & Hn).
    exists p, x. split; [exact Hh|]. split; [exact Hx|]. unfold get_workshift. rewrite Hp. cbn [bind l_pos]. exact Hn. }
  assert (Hout : t < tb_start_time tb \/ tb_end_time tb < t -> get_workshift tb t s = Err EOutOfBounds).
  { intros Ht. unfold get_workshift. rewrite locate_none_out by assumption. reflexivity. }
  split; [intros Ht; destruct (Hin Ht) as (p & x & _ & _ & H); eauto|]. split; [|split].
  - intros w Hw. destruct (Z.lt_ge_cases t (tb_start_time tb)) as [H1|H1]; [rewrite Hout in Hw by auto; discriminate|].
    destruct (Z.lt_ge_cases (tb_end_time tb) t) as [H2|H2]; [rewrite Hout in Hw by auto; discriminate|].
    destruct (Hin ltac:(lia)) as (p & x & Hh & Hx & Hg). rewrite Hg in Hw. injection Hw as <-. cbn [ws_loc ws_label ws_sched].
    split; [exact Hh|]. split; [intros j Hj; eapply holds_time_unique; eassumption|]. split; [exact Hx|].
    destruct s; reflexivity.
  - exact Hout.
  - intros j Hj. eapply holds_time_within; eassumption.
Qed.

Lemma mapM_duration {L} (tl : timeline L) : tl_wf tl -> forall n a, 0 <= a -> a + Z.of_nat n <= tl_len tl ->
  mapM (ws_duration tl) (zrange a n) = Ok (map (fun k => bnd tl (k + 1) - bnd tl k) (zrange a n))
  /\ zsum (map (fun k => bnd tl (k + 1) - bnd tl k) (zrange a n)) = bnd tl (a + Z.of_nat n) - bnd tl a.
Proof.
  intros W. induction n as [|n IH]; intros a Ha Hn; cbn [zrange mapM map zsum fold_right].
  - split; [reflexivity|]. replace (a + Z.of_nat 0) with a by lia. lia.
  - rewrite ws_duration_ok by (try assumption; lia). cbn [bind].
    destruct (IH (a + 1) ltac:(lia) ltac:(lia)) as [H1 H2]. rewrite H1. cbn [bind]. split; [reflexivity|].
    unfold zsum in H2. rewrite H2. replace (a + 1 + Z.of_nat n) with (a + Z.of_nat (S n)) by lia. lia.
Qed.

Lemma C03_tile_pf : forall (L : Type) (tb : timeboard L), reachable tb ->
  is_shift tb 0 /\ starts_at tb 0 (tb_start_time tb) /\ ends_at tb (tb_len tb - 1) (tb_end_time tb)
  /\ (forall i, is_shift tb i -> exists s e d,
        starts_at tb i s /\ ends_at tb i e /\ s <= e /\ ws_duration (tb_tl tb) i = Ok d /\ 1 <= d
        /\ (is_shift tb (i + 1) -> starts_at tb (i + 1) (e + 1)))
  /\ exists ds, mapM (ws_duration (tb_tl tb)) (positions 0 (tb_len tb - 1)) = Ok ds
       /\ zsum ds = fr_len (tl_frame (tb_tl tb)).
Proof.
  intros L tb Hr. apply reachable_wf in Hr. destruct Hr as (W & _ & _).
  pose proof (tb_len_pos tb W) as Hp.
  assert (H0 : is_shift tb 0) by (unfold is_shift; lia).
  assert (Hl : is_shift tb (tb_len tb - 1)) by (unfold is_shift; lia).
  split; [exact H0|].
  split; [apply starts_at_iff; [exact W|exact H0|]; rewrite bnd_0 by exact W; reflexivity|].
  split.
  { apply ends_at_iff; [exact W|exact Hl|]. unfold tb_end_time. rewrite tl_end_time_ok by exact W.
    replace (tb_len tb - 1 + 1) with (tl_len (tb_tl tb)) by (unfold tb_len; lia). rewrite bnd_end by exact W. reflexivity. }
  split.
  - intros i Hi. destruct (shift_times tb i W Hi) as (H1 & H2 & _).
    pose proof (bnd_lt _ W i (i + 1) ltac:(unfold is_shift in Hi; lia) ltac:(lia) ltac:(unfold is_shift, tb_len in Hi; lia)) as Hlt.
    pose proof (unit_start_lt (tl_frame (tb_tl tb)) _ _ Hlt) as Hus.
    eexists _, _, _. split; [exact H1|]. split; [exact H2|]. split; [lia|].
    split; [apply ws_duration_ok; [exact W|exact Hi]|]. split; [lia|].
    intros Hn. apply starts_at_iff; [exact W|exact Hn|]. lia.
  - destruct (mapM_duration _ W (Z.to_nat (tb_len tb)) 0 ltac:(lia) ltac:(change (tl_len (tb_tl tb)) with (tb_len tb); lia)) as [M1 M2].
    unfold positions. replace (tb_len tb - 1 + 1 - 0) with (tb_len tb) by lia.
    eexists. split; [exact M1|]. rewrite M2.
    replace (0 + Z.of_nat (Z.to_nat (tb_len tb))) with (tl_len (tb_tl tb)) by (unfold tb_len in *; lia).
    rewrite bnd_end, bnd_0 by exact W. lia.
Qed.

Lemma C04_own_times_pf : forall (L : Type) (tb : timeboard L), reachable tb -> forall i, is_shift tb i ->
  (exists s e r, starts_at tb i s /\ ends_at tb i e /\ ref_at tb i r)
  /\ forall t sch, starts_at tb i t \/ ends_at tb i t \/ ref_at tb i t ->
       exists x, tl_get (tb_tl tb) i = Ok x
         /\ get_workshift tb t sch = Ok (mkWs i x (match sch with Some s => s | None => tb_default tb end)).
Proof.
  intros L tb Hr i Hi. apply reachable_wf in Hr. destruct Hr as (W & _ & _).
  destruct (shift_times tb i W Hi) as (H1 & H2 & H3). split; [eauto 6|].
  intros t sch Ht.
  assert (Hh : holds_time tb i t).
  { apply holds_time_iff; [exact W|]. split; [exact Hi|].
    pose proof (ref_of_within _ W i Hi) as Hrw.
    pose proof (bnd_lt _ W i (i + 1) ltac:(unfold is_shift in Hi; lia) ltac:(lia) ltac:(unfold is_shift, tb_len in Hi; lia)) as Hlt.
    pose proof (unit_start_lt (tl_frame (tb_tl tb)) _ _ Hlt) as Hus.
    destruct Ht as [Ht|[Ht|Ht]].
    - apply starts_at_iff in Ht; [|exact W|exact Hi]. lia.
    - apply ends_at_iff in Ht; [|exact W|exact Hi]. lia.
    - apply ref_at_iff in Ht; [|exact W|exact Hi]. lia. }
  destruct (new_workshift_ok tb W i (opt_or sch (tb_default tb)) Hi) as (x & Hx & Hn).
  exists x. split; [exact Hx|]. unfold get_workshift. rewrite (locate_holds tb t i W Hh). cbn [bind l_pos]. rewrite Hn.
  destruct sch; reflexivity.
Qed.

(** ** C35 *)
Lemma C35_constructor_pf : forall (L : Type) (tb : timeboard L), reachable tb -> forall loc s,
  (loc < - tb_len tb \/ tb_len tb <= loc -> new_workshift tb loc s = Err EOutOfBounds)
  /\ (is_shift tb loc -> exists w d st e,
        new_workshift tb loc s = Ok w /\ ws_loc w = loc /\ ws_sched w = s
        /\ ws_duration (tb_tl tb) loc = Ok d /\ 1 <= d
        /\ starts_at tb loc st /\ ends_at tb loc e /\ st <= e).
Proof.
  intros L tb Hr loc s. pose proof (C03_tile_pf L tb Hr) as (_ & _ & _ & Ht & _).
  apply reachable_wf in Hr. destruct Hr as (W & _ & _). split.
  - intros H. unfold new_workshift, tl_get, py_get_res.
    pose proof (tb_len_pos tb W).
    destruct (Z.lt_ge_cases loc 0) as [Hn|Hn].
    + rewrite py_get_neg by exact Hn. rewrite znth_none; [reflexivity|].
      rewrite (wf_labels _ W). fold (tl_len (tb_tl tb)). unfold tb_len in *. lia.
    + rewrite py_get_znth by exact Hn. rewrite znth_none; [reflexivity|].
      rewrite (wf_labels _ W). fold (tl_len (tb_tl tb)). unfold tb_len in *. lia.
  - intros Hi. destruct (Ht loc Hi) as (st & e & d & H1 & H2 & H3 & H4 & H5 & _).
    destruct (new_workshift_ok tb W loc s Hi) as (x & Hx & Hn).
    exists (mkWs loc x s), d, st, e. repeat split; assumption.
Qed.

(** A location counted from the end: the workshift from there, except for the duration of the
    last one. *)
Lemma C35_negative_pf : forall (L : Type) (tb : timeboard L), reachable tb -> forall loc s,
  - tb_len tb <= loc < 0 ->
  let k := loc + tb_len tb in
  exists w, new_workshift tb loc s = Ok w /\ ws_loc w = loc /\ ws_sched w = s
    /\ tl_get (tb_tl tb) k = Ok (ws_label w)
    /\ (forall t, starts_at tb loc t <-> starts_at tb k t)
    /\ (forall t, ends_at tb loc t <-> ends_at tb k t)
    /\ (loc <> -1 -> ws_duration (tb_tl tb) loc = ws_duration (tb_tl tb) k)
    /\ (loc = -1 -> exists d, ws_duration (tb_tl tb) loc = Ok d /\ d <= 0
         /\ forall t, starts_at tb k t -> t = unit_start (tl_frame (tb_tl tb)) (- d)).
Proof.
  intros L tb Hr loc s Hl k. apply reachable_wf in Hr. destruct Hr as (W & _ & _).
  assert (Hlen : tb_len tb = zlen (tl_index (tb_tl tb))) by reflexivity.
  assert (Hk : 0 <= k < tl_len (tb_tl tb)) by (unfold k, tb_len in *; lia).
  destruct (tl_get_ex _ W k Hk) as (x & Hx & Hz).
  assert (Hg : tl_get (tb_tl tb) loc = Ok x).
  { unfold tl_get, py_get_res. rewrite py_get_neg by lia. rewrite (wf_labels _ W), <- Hlen. fold k. rewrite Hz. reflexivity. }
  assert (Hf : ws_first_baseunit (tb_tl tb) loc = Ok (bnd (tb_tl tb) k)).
  { unfold ws_first_baseunit, py_get_res. rewrite py_get_neg by lia. rewrite <- Hlen. fold k.
    rewrite (bnd_znth (tb_tl tb) k Hk). reflexivity. }
  pose proof (ws_first_ok _ k Hk) as Hf'. pose proof (ws_last_ok _ W k Hk) as Hla'.
  pose proof (wf_frame _ W) as Wf.
  assert (Hlast : loc <> -1 -> ws_last_baseunit (tb_tl tb) loc = ws_last_baseunit (tb_tl tb) k).
  { intros Hn. rewrite Hla'. unfold ws_last_baseunit. rewrite Hg. cbn [bind]. rewrite py_get_neg by lia. rewrite <- Hlen.
    replace (loc + 1 + tb_len tb) with (k + 1) by (unfold k; lia).
    rewrite (bnd_znth (tb_tl tb) (k + 1)) by (unfold k, tb_len in *; lia). reflexivity. }
  assert (Hlast1 : loc = -1 -> ws_last_baseunit (tb_tl tb) loc = Ok (-1)).
  { intros ->. unfold ws_last_baseunit. rewrite Hg. cbn [bind]. change (-1 + 1) with 0. rewrite py_get_znth by lia.
    rewrite (wf_zero _ W). reflexivity. }
  exists (mkWs loc x s). split; [unfold new_workshift; rewrite Hg; reflexivity|]. split; [reflexivity|]. split; [reflexivity|].
  split; [exact Hx|]. split.
  { intros t. unfold starts_at, ws_start_time. rewrite Hf, Hf'. tauto. }
  split.
  { intros t. unfold ends_at. destruct (Z.eq_dec loc (-1)) as [E|E]; unfold ws_end_time; [|rewrite (Hlast E); tauto].
    rewrite (Hlast1 E), Hla'. replace (k + 1) with (tl_len (tb_tl tb)) by (unfold k; rewrite E; unfold tb_len in *; lia).
    rewrite (bnd_end (tb_tl tb)). cbn [bind]. unfold fr_get. pose proof (bnd_range _ W k Hk) as Hb.
    destruct ((0 <=? -1) && (-1 <? fr_len (tl_frame (tb_tl tb)))) eqn:E1; [lia|].
    destruct ((-1 <? 0) && (0 <=? -1 + fr_len (tl_frame (tb_tl tb)))) eqn:E2; [|lia].
    destruct ((0 <=? fr_len (tl_frame (tb_tl tb)) - 1) && (fr_len (tl_frame (tb_tl tb)) - 1 <? fr_len (tl_frame (tb_tl tb)))) eqn:E3; [|lia].
    replace (-1 + fr_len (tl_frame (tb_tl tb))) with (fr_len (tl_frame (tb_tl tb)) - 1) by lia. tauto. }
  split.
  { intros E. unfold ws_duration. rewrite (Hlast E), Hf, Hf'. reflexivity. }
  intros E. exists (- bnd (tb_tl tb) k). pose proof (bnd_range _ W k Hk) as Hb. split; [|split; [lia|]].
  - unfold ws_duration. rewrite (Hlast1 E), Hf. cbn [bind]. f_equal. lia.
  - intros t Ht. apply (starts_at_iff tb _ _ W Hk) in Ht. rewrite Z.opp_involutive. exact Ht.
Qed.

(** ** C36 *)
Lemma C36_after_pf : forall (L : Type) (tb : timeboard L), reachable tb -> forall t,
  (forall k, pos_by_ref_after (tb_tl tb) t = Ok k ->
     is_shift tb k /\ (exists r, ref_at tb k r /\ t <= r)
     /\ forall j r, is_shift tb j -> ref_at tb j r -> t <= r -> k <= j)
  /\ (forall e, pos_by_ref_after (tb_tl tb) t = Err e -> e = EOutOfBounds)
  /\ (pos_by_ref_after (tb_tl tb) t = Err EOutOfBounds <->
      (t < tb_start_time tb \/ tb_end_time tb < t)
      \/ forall j r, is_shift tb j -> ref_at tb j r -> r < t).
Proof.
  intros L tb Hr t. apply reachable_wf in Hr. destruct Hr as (W & _ & _).
  assert (Hcase : (t < tb_start_time tb \/ tb_end_time tb < t) \/ tb_start_time tb <= t <= tb_end_time tb) by lia.
  destruct Hcase as [Ho|Hi].
  - rewrite (proj1 (pos_by_ref_out _ t Ho)). repeat split; try congruence. intros _. left. exact Ho.
  - destruct (pos_by_ref_after_in _ W t Hi) as [(k & Hk & Hp & Hle & Hlt)|(Hp & Hlt)]; rewrite Hp.
    + split; [|split; [congruence|]].
      * intros k2 H. injection H as <-. split; [exact Hk|]. split.
        -- exists (ref_of (tb_tl tb) k). split; [apply ref_at_iff; [exact W|exact Hk|reflexivity]|exact Hle].
        -- intros j r Hj Hrj Htr. apply ref_at_iff in Hrj; [|exact W|exact Hj]. subst r.
           destruct (Z.lt_ge_cases j k) as [Hc|]; [|assumption]. unfold is_shift in Hj. specialize (Hlt j ltac:(lia)). lia.
      * split; [congruence|]. intros [Ho|Hn]; [lia|]. specialize (Hn k (ref_of (tb_tl tb) k) Hk).
        assert (ref_at tb k (ref_of (tb_tl tb) k)) by (apply ref_at_iff; [exact W|exact Hk|reflexivity]). intuition lia.
    + split; [congruence|]. split; [congruence|]. split; [|reflexivity]. intros _. right.
      intros j r Hj Hrj. apply ref_at_iff in Hrj; [|exact W|exact Hj]. subst r. apply Hlt. exact Hj.
Qed.
Lemma C36_before_pf : forall (L : Type) (tb : timeboard L), reachable tb -> forall t,
  (forall k, pos_by_ref_before (tb_tl tb) t = Ok k ->
     is_shift tb k /\ (exists r, ref_at tb k r /\ r <= t)
     /\ forall j r, is_shift tb j -> ref_at tb j r -> r <= t -> j <= k)
  /\ (forall e, pos_by_ref_before (tb_tl tb) t = Err e -> e = EOutOfBounds)
  /\ (pos_by_ref_before (tb_tl tb) t = Err EOutOfBounds <->
      (t < tb_start_time tb \/ tb_end_time tb < t)
      \/ forall j r, is_shift tb j -> ref_at tb j r -> t < r).
Proof.
  intros L tb Hr t. apply reachable_wf in Hr. destruct Hr as (W & _ & _).
  assert (Hcase : (t < tb_start_time tb \/ tb_end_time tb < t) \/ tb_start_time tb <= t <= tb_end_time tb) by lia.
  destruct Hcase as [Ho|Hi].
  - rewrite (proj2 (pos_by_ref_out _ t Ho)). repeat split; try congruence. intros _. left. exact Ho.
  - destruct (pos_by_ref_before_in _ W t Hi) as [(k & Hk & Hp & Hle & Hlt)|(Hp & Hlt)]; rewrite Hp.
    + split; [|split; [congruence|]].
      * intros k2 H. injection H as <-. split; [exact Hk|]. split.
        -- exists (ref_of (tb_tl tb) k). split; [apply ref_at_iff; [exact W|exact Hk|reflexivity]|exact Hle].
        -- intros j r Hj Hrj Htr. apply ref_at_iff in Hrj; [|exact W|exact Hj]. subst r.
           destruct (Z.lt_ge_cases k j) as [Hc|]; [|assumption]. unfold is_shift in Hj. specialize (Hlt j ltac:(unfold tb_len in Hj; lia)). lia.
      * split; [congruence|]. intros [Ho|Hn]; [lia|]. specialize (Hn k (ref_of (tb_tl tb) k) Hk).
        assert (ref_at tb k (ref_of (tb_tl tb) k)) by (apply ref_at_iff; [exact W|exact Hk|reflexivity]). intuition lia.
    + split; [congruence|]. split; [congruence|]. split; [|reflexivity]. intros _. right.
      intros j r Hj Hrj. apply ref_at_iff in Hrj; [|exact W|exact Hj]. subst r. apply Hlt. exact Hj.
Qed.
