(** Proofs about calendar classes (C57). *)
From Verif Require Import Base BaseProofs Civil Freq FreqProofs Frame FrameProofs Timeline TimelineProofs Board Spec SpecLookup SpecLayout BoardProofs LookupProofs LayoutProofs SpecMisc MiscProofs Calendars SpecCal CalProofs SpecBuild BuildProofs QueryProofs SettingsProofs UserCal SpecUserCal.
From Coq Require Import ZifyBool ZifyNat.
Ltac Zify.zify_post_hook ::= Z.div_mod_to_equations.

Section Class.
  Context {L : Type} (c : cal_def L) (lo hi : Z) (Hc : of_times c lo hi).

  Lemma class_check_ok t : class_check c t = if (lo <=? t) && (t <=? hi) then Ok tt else Err EOutOfBounds.
  Proof.
    destruct Hc as [H1 H2]. unfold class_check. rewrite H1, H2. destruct (lo <=? t); [|reflexivity].
    destruct (t <=? hi); reflexivity.
  Qed.

  Lemma class_bounds_ok (o : user_opts L) : within lo hi o -> class_bounds c (q_start o) (q_end o) = Ok (from_time lo o, to_time hi o).
  Proof.
    intros [H1 H2]. unfold class_bounds, from_time, to_time. destruct Hc as [E1 E2].
    destruct (q_start o) as [s|]; destruct (q_end o) as [e|]; rewrite ?class_check_ok, ?E1, ?E2; cbn [bind opt_or class_time].
    - specialize (H1 s eq_refl). specialize (H2 e eq_refl).
      replace ((lo <=? s) && (s <=? hi)) with true by lia. replace ((lo <=? e) && (e <=? hi)) with true by lia. reflexivity.
    - specialize (H1 s eq_refl). replace ((lo <=? s) && (s <=? hi)) with true by lia. reflexivity.
    - specialize (H2 e eq_refl). replace ((lo <=? e) && (e <=? hi)) with true by lia. reflexivity.
    - reflexivity.
  Qed.

  Lemma class_bounds_err (o : user_opts L) : ~ within lo hi o -> class_bounds c (q_start o) (q_end o) = Err EOutOfBounds.
  Proof.
    intros H. unfold class_bounds. rewrite !class_check_ok || idtac.
    destruct (q_start o) as [s|] eqn:Es; [rewrite class_check_ok; destruct ((lo <=? s) && (s <=? hi)) eqn:E1|]; cbn [bind]; [| |].
    - destruct (q_end o) as [e|] eqn:Ee; [rewrite class_check_ok; destruct ((lo <=? e) && (e <=? hi)) eqn:E2|]; cbn [bind].
      + exfalso. apply H. split; intros t Ht; rewrite ?Es, ?Ee in Ht; injection Ht as <-; lia.
      + reflexivity.
      + exfalso. apply H. split; intros t Ht; rewrite ?Es, ?Ee in Ht; [injection Ht as <-; lia|discriminate].
    - reflexivity.
    - destruct (q_end o) as [e|] eqn:Ee; [rewrite class_check_ok; destruct ((lo <=? e) && (e <=? hi)) eqn:E2|]; cbn [bind].
      + exfalso. apply H. split; intros t Ht; rewrite ?Es, ?Ee in Ht; [discriminate|injection Ht as <-; lia].
      + reflexivity.
      + exfalso. apply H. split; intros t Ht; rewrite ?Es, ?Ee in Ht; discriminate.
  Qed.

  Lemma user_calendar_chosen (o : user_opts L) h r : within lo hi o -> chosen c o (from_time lo o) (to_time hi o) r ->
    user_calendar c o h = (do am <- r; build (with_bounds (k_params c) (from_time lo o) (to_time hi o) am) h).
  Proof.
    intros Hw Hr. unfold user_calendar. rewrite (class_bounds_ok o Hw). cbn [bind fst snd].
    destruct Hr as [H|H1 H2 H3|l H1 H2 H3|H1 H2]; [rewrite H|rewrite H1, H2, H3|rewrite H1, H2, H3|rewrite H1, H2]; reflexivity.
  Qed.

  Lemma chosen_ex (o : user_opts L) : exists r, chosen c o (from_time lo o) (to_time hi o) r.
  Proof.
    destruct (q_no_amend o) eqn:E1; [eexists; apply ch_none; exact E1|].
    destruct (q_only o) eqn:E2; [|eexists; apply ch_method; assumption].
    destruct (q_custom o) eqn:E3; eexists; [eapply ch_only; eassumption|apply ch_nothing; assumption].
  Qed.
End Class.

Lemma build_amend_err {L : Type} (a : tb_args L) h am e :
  build (with_amendments a []) h = Err e -> build (with_amendments a am) h = Err e.
Proof.
  unfold build. cbn [with_amendments a_layout a_wt a_freq a_start a_end a_ref_end a_default a_amendments a_name a_sel a_num].
  destruct (top_organizer (a_layout a)) as [org|]; cbn [bind]; [|congruence].
  destruct (a_wt a); try congruence;
    (destruct (mk_frame (a_freq a) (a_start a) (a_end a)) as [f|]; cbn [bind]; [|congruence]);
    (destruct (mk_timeline f org (a_ref_end a) (a_default a) h) as [th|]; cbn [bind]; [|congruence]);
    rewrite amend_nil; cbn [bind]; discriminate.
Qed.

Lemma C57_refused_pf : forall (L : Type) (c : cal_def L) lo hi (o : user_opts L) h, of_times c lo hi ->
  ~ within lo hi o -> user_calendar c o h = Err EOutOfBounds.
Proof.
  intros L c lo hi o h Hc Hw. unfold user_calendar. rewrite (class_bounds_err c lo hi Hc o Hw). reflexivity.
Qed.

Lemma C57_plain_pf : forall (L : Type) (c : cal_def L) lo hi (o : user_opts L) h, of_times c lo hi -> within lo hi o ->
  user_calendar c (unamended o) h = build (bounded (k_params c) (from_time lo o) (to_time hi o)) h.
Proof.
  intros L c lo hi o h Hc Hw.
  exact (user_calendar_chosen c lo hi Hc (unamended o) h (Ok []) Hw (ch_none c (unamended o) _ _ eq_refl)).
Qed.

Lemma C57_amended_pf : forall (L : Type) (c : cal_def L) lo hi (o : user_opts L) h am tb0 h', of_times c lo hi -> within lo hi o ->
  chosen c o (from_time lo o) (to_time hi o) (Ok am) -> user_calendar c (unamended o) h = Ok (tb0, h') ->
  (clash tb0 am -> user_calendar c o h = Err EKey)
  /\ (~ clash tb0 am -> exists tb, user_calendar c o h = Ok (tb, h')
      /\ (forall i t, (is_shift tb i <-> is_shift tb0 i) /\ (starts_at tb i t <-> starts_at tb0 i t)
            /\ (ends_at tb i t <-> ends_at tb0 i t) /\ (ref_at tb i t <-> ref_at tb0 i t))
      /\ forall i x, is_shift tb i ->
           (tl_get (tb_tl tb) i = Ok x <->
            (exists t, In (t, x) am /\ holds_time tb i t)
            \/ ((forall t y, In (t, y) am -> ~ holds_time tb i t) /\ tl_get (tb_tl tb0) i = Ok x))).
Proof.
  intros L c lo hi o h am tb0 h' Hc Hw Hch Hb. rewrite (C57_plain_pf L c lo hi o h Hc Hw) in Hb.
  rewrite (user_calendar_chosen c lo hi Hc o h _ Hw Hch). cbn [bind].
  set (a := with_bounds (k_params c) (from_time lo o) (to_time hi o) am) in *.
  change (bounded (k_params c) (from_time lo o) (to_time hi o)) with (with_amendments a []) in Hb.
  destruct (C15_clash_pf L a h am tb0 h' Hb) as [A B]. change (with_amendments a am) with a in A, B.
  split; [exact A|]. intros Hn. destruct (B Hn) as [tb Htb]. exists tb. split; [exact Htb|].
  destruct (C14_amendments_pf L a h tb h' Htb) as (tb1 & Hb1 & S1 & S2). rewrite Hb in Hb1. injection Hb1 as <-.
  split; [exact S1|exact S2].
Qed.

Lemma C57_error_pf : forall (L : Type) (c : cal_def L) lo hi (o : user_opts L) h r, of_times c lo hi -> within lo hi o ->
  chosen c o (from_time lo o) (to_time hi o) r ->
  (forall e, r = Err e -> user_calendar c o h = Err e)
  /\ (forall am e, r = Ok am -> user_calendar c (unamended o) h = Err e -> user_calendar c o h = Err e).
Proof.
  intros L c lo hi o h r Hc Hw Hch. rewrite (user_calendar_chosen c lo hi Hc o h _ Hw Hch). split.
  - intros e ->. reflexivity.
  - intros am e -> He. rewrite (C57_plain_pf L c lo hi o h Hc Hw) in He. cbn [bind].
    exact (build_amend_err (with_bounds (k_params c) (from_time lo o) (to_time hi o) am) h am e He).
Qed.

Lemma C57_choice_pf : forall (L : Type) (c : cal_def L) (o : user_opts L) s e, exists r,
  chosen c o s e r /\ forall r', chosen c o s e r' -> r' = r.
Proof.
  intros L c o s e. destruct (q_no_amend o) eqn:E1; [|destruct (q_only o) eqn:E2; [destruct (q_custom o) as [l|] eqn:E3|]].
  - eexists. split; [apply ch_none; exact E1|]. intros r' H. destruct H; congruence.
  - eexists. split; [eapply ch_only; eassumption|]. intros r' H. destruct H; congruence.
  - eexists. split; [apply ch_nothing; assumption|]. intros r' H. destruct H; congruence.
  - eexists. split; [apply ch_method; assumption|]. intros r' H. destruct H; congruence.
Qed.

(** ** CalendarBase *)
Definition B0 : Z := date 2001 1 1 * NS_DAY.
Definition B1 : Z := date 2030 12 31 * NS_DAY.
Lemma base_times : of_times base_class B0 B1.
Proof. split; reflexivity. Qed.

Definition base_args (s e : Z) (am : list (Z * Z)) : tb_args Z := with_bounds (k_params base_class) s e am.
Lemma base_frame s e am tb h' : s / NS_DAY <= e / NS_DAY -> build (base_args s e am) [] = Ok (tb, h') ->
  tl_frame (tb_tl tb) = mkFrame DAYS (s / NS_DAY) (e / NS_DAY - s / NS_DAY + 1).
Proof.
  intros H Hb. destruct (build_inv _ _ _ _ Hb) as (org & f & tl0 & _ & Ef & _ & _ & _ & _ & _ & _ & _ & _ & _ & Hf & _).
  change (mk_frame DAYS s e = Ok f) in Ef. rewrite (day_frame s e H) in Ef. injection Ef as <-. exact Hf.
Qed.
Lemma base_builds s e : s / NS_DAY <= e / NS_DAY -> exists tb, build (base_args s e []) [] = Ok (tb, []).
Proof.
  intros H. destruct (C53_plain_pf Z (base_args s e []) [] (s / NS_DAY) (e / NS_DAY)) as (tb & h' & Hb & _).
  - apply plain_pattern.
  - reflexivity.
  - discriminate.
  - exact I.
  - unfold in_cal_unit. cbn. pose proof (Z.div_mod s NS_DAY ltac:(discriminate)). pose proof (Z.mod_pos_bound s NS_DAY eq_refl). lia.
  - unfold in_cal_unit. cbn. pose proof (Z.div_mod e NS_DAY ltac:(discriminate)). pose proof (Z.mod_pos_bound e NS_DAY eq_refl). lia.
  - exact H.
  - exists tb. change (with_amendments (base_args s e []) []) with (base_args s e []) in Hb.
    destruct (C08_pattern_pf Z _ _ _ _ [1] Hb eq_refl eq_refl) as [-> _]. exact Hb.
Qed.
Lemma base_labels s e tb h' : s / NS_DAY <= e / NS_DAY -> build (base_args s e []) [] = Ok (tb, h') ->
  tb_len tb = e / NS_DAY - s / NS_DAY + 1
  /\ forall u, 0 <= u <= e / NS_DAY - s / NS_DAY ->
       starts_at tb u ((s / NS_DAY + u) * NS_DAY) /\ ends_at tb u ((s / NS_DAY + u + 1) * NS_DAY - 1)
       /\ tl_get (tb_tl tb) u = Ok 1.
Proof.
  intros H Hb. pose proof (base_frame s e [] tb h' H Hb) as Ef.
  destruct (C08_pattern_pf Z _ _ _ _ [1] Hb eq_refl eq_refl) as (_ & Hlen & Hu).
  rewrite Ef in *. cbn [fr_len] in *. split; [exact Hlen|]. intros u Hr.
  destruct (Hu u ltac:(lia)) as ((x & Hx & Hget) & Hf & Hl & _).
  destruct (day_unit (s / NS_DAY) (e / NS_DAY - s / NS_DAY + 1) u) as [U1 U2].
  assert (Hfr : fr_get (mkFrame DAYS (s / NS_DAY) (e / NS_DAY - s / NS_DAY + 1)) u = Ok u).
  { unfold fr_get. cbn [fr_len]. destruct ((0 <=? u) && (u <? e / NS_DAY - s / NS_DAY + 1)) eqn:E; [reflexivity|lia]. }
  split; [unfold starts_at, ws_start_time; rewrite Hf; cbn [bind]; rewrite Ef, Hfr; cbn [bind]; rewrite U1; reflexivity|].
  split; [unfold ends_at, ws_end_time; rewrite Hl; cbn [bind]; rewrite Ef, Hfr; cbn [bind]; rewrite U2; reflexivity|].
  rewrite Hget. f_equal. clear - Hx. unfold cycled in Hx. cbn [length] in Hx.
  rewrite (Z.mod_1_r u : u mod Z.of_nat 1 = 0) in Hx. cbn in Hx. congruence.
Qed.
Lemma base_holds s e tb h' i t : s / NS_DAY <= e / NS_DAY -> build (base_args s e []) [] = Ok (tb, h') ->
  (holds_time tb i t <-> 0 <= i <= e / NS_DAY - s / NS_DAY /\ t / NS_DAY = s / NS_DAY + i).
Proof.
  intros H Hb. destruct (base_labels s e tb h' H Hb) as [Hlen Hu]. unfold holds_time, is_shift. rewrite Hlen.
  remember (s / NS_DAY) as a. remember (e / NS_DAY) as b. unfold starts_at, ends_at in *. split.
  - intros [Hi (x & y & Hx & Hy & Ht)]. destruct (Hu i ltac:(lia)) as (A & B & _).
    rewrite A in Hx. rewrite B in Hy. injection Hx as <-. injection Hy as <-. split; [lia|]. change NS_DAY with 86400000000000 in *. lia.
  - intros [Hi Ht]. split; [lia|]. destruct (Hu i ltac:(lia)) as (A & B & _).
    eexists _, _. split; [exact A|]. split; [exact B|]. change NS_DAY with 86400000000000 in *. lia.
Qed.

Lemma base_amended s e am : s / NS_DAY <= e / NS_DAY ->
  (same_day_twice (s / NS_DAY) (e / NS_DAY) am -> build (base_args s e am) [] = Err EKey)
  /\ (~ same_day_twice (s / NS_DAY) (e / NS_DAY) am -> exists tb, build (base_args s e am) [] = Ok (tb, [])
        /\ tb_start_time tb = s / NS_DAY * NS_DAY /\ tb_end_time tb = (e / NS_DAY + 1) * NS_DAY - 1
        /\ forall t, s / NS_DAY <= t / NS_DAY <= e / NS_DAY -> forall x,
             base_day tb t x <-> base_label am (t / NS_DAY) x).
Proof.
  intros H. destruct (base_builds s e H) as (tb0 & Hb).
  change (base_args s e []) with (with_amendments (base_args s e []) []) in Hb.
  destruct (C15_clash_pf Z (base_args s e []) [] am tb0 [] Hb) as [A B].
  change (with_amendments (base_args s e []) am) with (base_args s e am) in A, B.
  change (with_amendments (base_args s e []) []) with (base_args s e []) in Hb.
  assert (Hc : clash tb0 am <-> same_day_twice (s / NS_DAY) (e / NS_DAY) am).
  { unfold clash, same_day_twice. split.
    - intros (j & k & i & t1 & x1 & t2 & x2 & Hjk & H1 & H2 & H3 & H4).
      apply (base_holds s e tb0 [] _ _ H Hb) in H3. apply (base_holds s e tb0 [] _ _ H Hb) in H4.
      exists j, k, t1, x1, t2, x2. split; [exact Hjk|]. split; [exact H1|]. split; [exact H2|]. clear -H3 H4. revert H3 H4. generalize (t1 / NS_DAY) (t2 / NS_DAY) (s / NS_DAY) (e / NS_DAY). lia.
    - intros (j & k & t1 & x1 & t2 & x2 & Hjk & H1 & H2 & H3 & H4).
      exists j, k, (t1 / NS_DAY - s / NS_DAY), t1, x1, t2, x2. split; [exact Hjk|]. split; [exact H1|]. split; [exact H2|].
      split; apply (base_holds s e tb0 [] _ _ H Hb); lia. }
  split; [intros Hd; apply A, Hc, Hd|]. intros Hd. destruct B as [tb Htb]; [rewrite Hc; exact Hd|].
  exists tb. split; [exact Htb|].
  destruct (C14_amendments_pf Z (base_args s e am) [] tb [] Htb) as (tb1 & Hb1 & Hsame & Hlab).
  change (with_amendments (base_args s e am) []) with (base_args s e []) in Hb1. rewrite Hb in Hb1. injection Hb1 as <-.
  change (a_amendments (base_args s e am)) with am in Hlab.
  assert (Hh : forall i t, holds_time tb i t <-> 0 <= i <= e / NS_DAY - s / NS_DAY /\ t / NS_DAY = s / NS_DAY + i).
  { intros i t. rewrite <- (base_holds s e tb0 [] i t H Hb). unfold holds_time. destruct (Hsame i 0) as (S1 & _).
    rewrite S1. split; (intros [H1 (x & y & H2 & H3 & H4)]; split; [exact H1|]; exists x, y;
      (split; [apply (Hsame i x); exact H2|]); (split; [apply (Hsame i y); exact H3|exact H4])). }
  assert (R : reachable tb) by (eapply reach_build; exact Htb).
  destruct (base_labels s e tb0 [] H Hb) as [Hlen Hu].
  assert (Hse : tb_start_time tb = s / NS_DAY * NS_DAY /\ tb_end_time tb = (e / NS_DAY + 1) * NS_DAY - 1).
  { destruct (C03_tile_pf Z tb R) as (_ & T0 & T1 & _).
    assert (Hl : tb_len tb = e / NS_DAY - s / NS_DAY + 1).
    { assert (Hx : forall i, 0 <= i < tb_len tb <-> 0 <= i < tb_len tb0) by (intros i; apply (Hsame i 0)). rewrite Hlen in Hx.
      pose proof (Hx (tb_len tb)). pose proof (Hx (tb_len tb - 1)). pose proof (Hx (e / NS_DAY - s / NS_DAY)).
      assert (0 <= tb_len tb) by (unfold tb_len, tl_len, zlen; lia). lia. }
    rewrite Hl in T1. destruct (Hu 0 ltac:(lia)) as (U0 & _). destruct (Hu (e / NS_DAY - s / NS_DAY) ltac:(lia)) as (_ & U1 & _).
    apply (Hsame 0 _) in T0. replace (e / NS_DAY - s / NS_DAY + 1 - 1) with (e / NS_DAY - s / NS_DAY) in T1 by lia. apply (Hsame _ _) in T1.
    unfold starts_at, ends_at in *. rewrite U0 in T0. rewrite U1 in T1. injection T0 as T0. injection T1 as T1. split; [|rewrite <- T1; f_equal; f_equal; lia].
    rewrite <- T0. f_equal. lia. }
  destruct Hse as [E1 E2]. split; [exact E1|]. split; [exact E2|].
  intros t Ht x. remember (t / NS_DAY - s / NS_DAY) as i eqn:Ei.
  assert (Hi : holds_time tb i t) by (apply Hh; lia).
  assert (Hsh : is_shift tb i) by (destruct Hi; assumption).
  destruct (Hu i ltac:(lia)) as (U0 & U1 & U2).
  destruct (C02_lookup_pf Z tb R t None) as (G1 & G2 & _).
  destruct G1 as [w Hw]. { rewrite E1, E2. change NS_DAY with 86400000000000 in *. lia. }
  destruct (G2 w Hw) as (W1 & W2 & W3 & W4). pose proof (W2 i Hi) as Ew. rewrite Ew in U0, U1, U2, Hsh, Hi.
  assert (Hv : forall y, tl_get (tb_tl tb) (ws_loc w) = Ok y <-> base_label am (t / NS_DAY) y).
  { intros y. rewrite (Hlab _ y Hsh). rewrite U2. unfold base_label.
    assert (Q : forall t', holds_time tb (ws_loc w) t' <-> t' / NS_DAY = t / NS_DAY).
    { intros t'. rewrite Hh. apply Hh in Hi. clear - Hi. generalize dependent (ws_loc w). intros l Hi. generalize dependent (t' / NS_DAY). generalize dependent (t / NS_DAY).
      generalize (s / NS_DAY) (e / NS_DAY). intros. lia. }
    split.
    - intros [(t' & I1 & I2)|(I1 & I2)]; [left; exists t'; split; [exact I1|apply Q, I2]|right].
      split; [intros t' z Hz Hq; apply (I1 t' z Hz), Q, Hq|]. injection I2 as <-. reflexivity.
    - intros [(t' & I1 & I2)|(I1 & ->)]; [left; exists t'; split; [exact I1|apply Q, I2]|right].
      split; [|reflexivity]. intros t' z Hz Hq. apply (I1 t' z Hz), Q, Hq. }
  assert (Hm : made_with (base_args s e am) tb) by (eapply made_build; exact Htb).
  assert (Hws : ws_of tb w).
  { split; [exact Hsh|]. split; [|exact W3]. rewrite W4. apply (proj2 (C50_default_pf _ _ _ Hm)). }
  assert (Hs : starts_at tb (ws_loc w) (t / NS_DAY * NS_DAY)).
  { apply (Hsame _ _). unfold starts_at in *. rewrite U0. f_equal. f_equal. lia. }
  assert (He : ends_at tb (ws_loc w) ((t / NS_DAY + 1) * NS_DAY - 1)).
  { apply (Hsame _ _). unfold ends_at in *. rewrite U1. f_equal. f_equal. f_equal. lia. }
  unfold base_day. split.
  - intros (w' & K1 & K2 & _). rewrite Hw in K1. injection K1 as <-. rewrite <- K2. apply Hv. exact W3.
  - intros Hx. exists w. split; [exact Hw|]. apply Hv in Hx. rewrite W3 in Hx. injection Hx as <-. split; [reflexivity|].
    split; [exact Hs|]. split; [exact He|].
    split; [apply (C50_reference_pf _ _ _ Hm _ _ Hsh); exact Hs|].
    split; [|exact (proj1 (proj2 (proj2 (C50_default_pf _ _ _ Hm)) w Hws))].
    destruct (proj2 (proj2 (proj2 (C50_worktime_pf _ _ _ Hm w None DAny Hws ltac:(discriminate))))) as (n & Hn & Ek); [reflexivity|reflexivity|].
    rewrite Ek. destruct Hn as (u & Hn). pose proof (base_frame s e am tb [] H Htb) as Ef. rewrite Ef in Hn. cbn zeta in Hn.
    destruct Hn as (N1 & N2 & N3 & N4 & N5).
    rewrite (proj1 (day_unit _ _ _)) in N4. rewrite (proj2 (day_unit _ _ _)) in N5. unfold starts_at, ends_at in *.
    rewrite Hs in N4. rewrite He in N5. injection N4 as N4. injection N5 as N5.
    assert (n = 1) as ->; [|reflexivity]. clear - N4 N5. change NS_DAY with 86400000000000 in *. lia.
Qed.

Lemma C57_base_pf : forall o : user_opts Z,
  let lo := date 2001 1 1 * NS_DAY in let hi := date 2030 12 31 * NS_DAY in
  let d0 := from_time lo o / NS_DAY in let d1 := to_time hi o / NS_DAY in
  (~ within lo hi o -> user_calendar base_class o [] = Err EOutOfBounds)
  /\ (within lo hi o -> d1 < d0 -> user_calendar base_class o [] = Err EVoidInterval)
  /\ (within lo hi o -> d0 <= d1 -> same_day_twice d0 d1 (base_items o) -> user_calendar base_class o [] = Err EKey)
  /\ (within lo hi o -> d0 <= d1 -> ~ same_day_twice d0 d1 (base_items o) ->
        exists tb, user_calendar base_class o [] = Ok (tb, [])
          /\ tb_start_time tb = d0 * NS_DAY /\ tb_end_time tb = (d1 + 1) * NS_DAY - 1
          /\ forall t, d0 <= t / NS_DAY <= d1 -> forall x, base_day tb t x <-> base_label (base_items o) (t / NS_DAY) x).
Proof.
  intros o lo hi d0 d1. split; [exact (C57_refused_pf Z base_class lo hi o [] base_times)|].
  assert (Hu : within lo hi o -> user_calendar base_class o [] = build (base_args (from_time lo o) (to_time hi o) (base_items o)) []).
  { intros Hw. rewrite (user_calendar_chosen base_class lo hi base_times o [] (Ok (base_items o)) Hw); [reflexivity|].
    unfold base_items. destruct (q_no_amend o) eqn:E1; [apply ch_none; exact E1|].
    destruct (q_only o) eqn:E2; [|exact (ch_method base_class o _ _ E1 E2)].
    destruct (q_custom o) eqn:E3; [apply ch_only; assumption|apply ch_nothing; assumption]. }
  split; [|split].
  - intros Hw Hd. rewrite (Hu Hw). unfold build, base_args.
    cbn [with_bounds k_params base_class a_layout a_wt a_freq a_start a_end top_organizer bind].
    change (mkFstr None AlD) with DAYS. rewrite (day_frame_void _ _ Hd). reflexivity.
  - intros Hw Hd. rewrite (Hu Hw). apply (proj1 (base_amended _ _ _ Hd)).
  - intros Hw Hd. rewrite (Hu Hw). apply (proj2 (base_amended _ _ _ Hd)).
Qed.

(** ** Bounds given as strings *)
Lemma C57_text_pf : forall (L : Type) (c : cal_def L) a b (o : user_opts L) h,
  k_start c = CText a -> k_end c = CText b -> q_start o <> None \/ q_end o <> None -> user_calendar c o h = Err EType.
Proof.
  intros L c a b o h Ha Hb Ho. unfold user_calendar, class_bounds, class_check. rewrite Ha, Hb.
  destruct (q_start o) as [s|]; [reflexivity|]. destruct (q_end o) as [e|]; [reflexivity|]. destruct Ho; congruence.
Qed.

Lemma C57_one_text_pf : forall (L : Type) (c : cal_def L) a b (o : user_opts L) h t,
  q_start o = Some t \/ (q_start o = None /\ q_end o = Some t) ->
  (k_start c = CText a -> user_calendar c o h = Err EType)
  /\ (k_start c = CTime a -> k_end c = CText b ->
      (t < a -> user_calendar c o h = Err EOutOfBounds) /\ (a <= t -> user_calendar c o h = Err EType)).
Proof.
  intros L c a b o h t Ht. split; [intros Ha|intros Ha Hb; split; intros H]; unfold user_calendar, class_bounds, class_check; rewrite Ha, ?Hb;
    (destruct Ht as [->|[-> ->]]; cbn [bind]; [|]); try reflexivity; destruct (a <=? t) eqn:E; try reflexivity; lia.
Qed.

(** ** The calendars of the package *)
Lemma C57_preset_pf : forall c am o, new_calendar c am o = rmap fst (user_calendar (preset c am) (opts_of o) []).
Proof.
  intros c am o.
  assert (Hc : forall t, check_time c t = class_check (preset c am) t).
  { intros t. unfold check_time, class_check, preset. cbn [k_start k_end].
    destruct (c_start c <=? t); [|reflexivity]. destruct (t <=? c_end c); reflexivity. }
  assert (Hb : get_bounds c (cu_start o) (cu_end o) = class_bounds (preset c am) (cu_start o) (cu_end o)).
  { unfold get_bounds, class_bounds. destruct (cu_start o); destruct (cu_end o); rewrite ?Hc; reflexivity. }
  unfold new_calendar, user_calendar. cbn [opts_of q_start q_end q_no_amend q_only q_custom]. rewrite Hb.
  destruct (class_bounds (preset c am) (cu_start o) (cu_end o)) as [[s e]|err]; [|reflexivity]. cbn [bind fst snd].
  destruct (cu_no_amend o); [reflexivity|]. destruct (cu_only o); [reflexivity|]. cbn [preset k_amend].
  destruct (am (Some s) (Some e) (cu_custom o)); reflexivity.
Qed.

(** ** A class with bounds given as strings, when no other bounds are asked for *)
Lemma C57_as_times_pf : forall (L : Type) (c : cal_def L) a b (o : user_opts L) h,
  k_start c = CText a -> k_end c = CText b -> q_start o = None -> q_end o = None ->
  user_calendar c o h = user_calendar (mkDef (CTime a) (CTime b) (k_params c) (k_amend c)) o h.
Proof. intros L c a b o h E1 E2 E3 E4. unfold user_calendar, class_bounds. rewrite E3, E4, E1, E2. reflexivity. Qed.
