(** Proofs about the preconfigured calendars, part 1: the weekly timeboard with amendments. *)
From Verif Require Import Base BaseProofs Civil CivilProofs Freq FreqProofs Frame FrameProofs Timeline TimelineProofs Board Spec BoardProofs SpecLookup LookupProofs SpecRoll SpecQuery QueryProofs SpecMisc MiscProofs SettingsProofs SpecLayout PartProofs TreeProofs LayoutProofs When Calendars SpecWhen SpecCal.
From Coq Require Import ZifyBool ZifyNat QArith String.
Open Scope Z_scope.
Ltac Zify.zify_post_hook ::= Z.div_mod_to_equations.

Definition DAYS : fstr := mkFstr None AlD.
Definition WEEKS : fstr := mkFstr None (AlW None).

Lemma day_frame s e : s / NS_DAY <= e / NS_DAY ->
  mk_frame DAYS s e = Ok (mkFrame DAYS (s / NS_DAY) (e / NS_DAY - s / NS_DAY + 1)).
Proof.
  intros H. unfold mk_frame, DAYS, to_freq. cbn [fbase fmult falias fdigits alias_base opt_or pord]. unfold period_count.
  replace (e / NS_DAY <? s / NS_DAY) with false by lia. rewrite Z.div_1_r.
  replace (e / NS_DAY - s / NS_DAY + 1 =? 0) with false by lia. reflexivity.
Qed.
Lemma day_frame_void s e : e / NS_DAY < s / NS_DAY -> mk_frame DAYS s e = Err EVoidInterval.
Proof.
  intros H. unfold mk_frame, DAYS, to_freq. cbn [fbase fmult falias fdigits alias_base opt_or pord]. unfold period_count.
  replace (e / NS_DAY <? s / NS_DAY) with true by lia. reflexivity.
Qed.
Lemma day_unit o n u : unit_start (mkFrame DAYS o n) u = (o + u) * NS_DAY /\ unit_end (mkFrame DAYS o n) u = (o + u + 1) * NS_DAY - 1.
Proof.
  unfold unit_start, unit_end, unit_ord, fr_base, fr_mult, DAYS, to_freq. cbn [fr_str fr_o0 fbase fmult falias fdigits alias_base opt_or pstart].
  split; f_equal; lia.
Qed.

Lemma run_cycle_ok {S} (act : span -> S -> res S) spans : (forall s st, In s spans -> exists st', act s st = Ok st') ->
  forall cur st, cur = [] \/ cur = [act] -> exists st', run_cycle [act] cur spans st = Ok st'.
Proof.
  intros H. induction spans as [|s spans IH]; intros cur st Hc; [exists st; destruct Hc as [ -> | -> ]; reflexivity|].
  destruct (H s st (or_introl eq_refl)) as [st' E].
  assert (H' : forall s st, In s spans -> exists st', act s st = Ok st') by (intros; apply H; right; assumption).
  destruct Hc as [ -> | -> ]; cbn [run_cycle]; rewrite E; cbn [bind]; apply IH; auto.
Qed.

Lemma weekly_organize f st : is_frame f -> fr_str f = DAYS -> is_span f (whole_span f) ->
  exists st', organize f weekly8x5 (whole_span f) st = Ok st'.
Proof.
  intros If Ed Is.
  destruct (C06_calendar_pf f (whole_span f) WEEKS If Is) as (spans & before & after & Ep & _ & _ & (rest & El & Hr) & Hb & _).
  { rewrite Ed. split; [exact I|]. split; [exact I|]. reflexivity. }
  unfold weekly8x5. cbn [organize map]. change (mkFstr None (AlW None)) with WEEKS. rewrite Ep. cbn [bind].
  apply run_cycle_ok; [|right; reflexivity].
  intros x st0 Hx. assert (Hl : 0 <= s_left x).
  { assert (Hin : In (s_left x) (map s_left spans)) by (apply in_map; exact Hx). rewrite El in Hin.
    destruct Hin as [<-|Hin]; [exact Hb|]. rewrite (Hr _ Hin). lia. }
  unfold apply_pattern. replace (s_left x <? 0) with false by lia. eexists. reflexivity.
Qed.

(** The timeboard without amendments. *)
Lemma weekly_base s e : s / NS_DAY <= e / NS_DAY -> exists tb h', build (cal_args s e []) [] = Ok (tb, h')
  /\ tl_frame (tb_tl tb) = mkFrame DAYS (s / NS_DAY) (e / NS_DAY - s / NS_DAY + 1).
Proof.
  intros H. pose proof (day_frame s e H) as Ef. set (f := mkFrame DAYS (s / NS_DAY) (e / NS_DAY - s / NS_DAY + 1)) in *.
  destruct (weekly_organize f (mkSt (repeat 0 (Z.to_nat (fr_len f))) (repeat true (Z.to_nat (fr_len f))) [])) as [st' E].
  { exists s, e. exact Ef. } { reflexivity. }
  { unfold is_span, whole_span, f. cbn [s_first s_last fr_len]. lia. }
  unfold build, cal_args. cbn [a_layout a_wt a_freq a_start a_end a_ref_end a_default a_amendments a_name a_sel a_num].
  replace (top_organizer weekly8x5) with (Ok weekly8x5) by reflexivity. cbn [bind].
  change (mkFstr None AlD) with DAYS. rewrite Ef. cbn [bind]. unfold mk_timeline.
  change (mkSpan 0 (fr_len f - 1) 0 0) with (whole_span f). rewrite E. cbn [bind fst snd]. rewrite amend_nil. cbn [bind].
  eexists _, _. split; [reflexivity|]. reflexivity.
Qed.

Lemma weekly_labels s e tb h' : s / NS_DAY <= e / NS_DAY -> build (cal_args s e []) [] = Ok (tb, h') ->
  tb_len tb = e / NS_DAY - s / NS_DAY + 1
  /\ forall u, 0 <= u <= e / NS_DAY - s / NS_DAY ->
       starts_at tb u ((s / NS_DAY + u) * NS_DAY) /\ ends_at tb u ((s / NS_DAY + u + 1) * NS_DAY - 1)
       /\ tl_get (tb_tl tb) u = Ok (weekly_hours (s / NS_DAY + u)).
Proof.
  intros H Hb. destruct (weekly_base s e H) as (tb0 & h0 & Hb0 & Ef). rewrite Hb in Hb0. injection Hb0 as <- <-.
  destruct (C07_aligned_partial_pf Z (cal_args s e []) [] tb h' WEEKS [8; 8; 8; 8; 8; 0; 0] Hb eq_refl ltac:(rewrite Ef; exact I) I eq_refl ltac:(discriminate)) as [Hlen Hu].
  rewrite Ef in *. cbn [fr_len] in *. split; [exact Hlen|]. intros u Hr.
  destruct (Hu u ltac:(lia)) as (Hf & Hl & n & p & k & x & Hg & Hp & Hk & Ek & Hx & Hget).
  destruct (day_unit (s / NS_DAY) (e / NS_DAY - s / NS_DAY + 1) u) as [U1 U2].
  assert (Hfr : fr_get (mkFrame DAYS (s / NS_DAY) (e / NS_DAY - s / NS_DAY + 1)) u = Ok u).
  { unfold fr_get. cbn [fr_len]. destruct ((0 <=? u) && (u <? e / NS_DAY - s / NS_DAY + 1)) eqn:E; [reflexivity|lia]. }
  split; [unfold starts_at, ws_start_time; rewrite Hf; cbn [bind]; rewrite Ef, Hfr; cbn [bind]; rewrite U1; reflexivity|].
  split; [unfold ends_at, ws_end_time; rewrite Hl; cbn [bind]; rewrite Ef, Hfr; cbn [bind]; rewrite U2; reflexivity|].
  rewrite Hget. f_equal.
  rewrite U1 in Hg. destruct (day_unit (s / NS_DAY) (e / NS_DAY - s / NS_DAY + 1) (u - k)) as [U3 _]. rewrite U3 in Ek.
  destruct Hg as (p1 & p2 & G1 & G2 & Hin).
  destruct Hp as (o & Ho & Ep). destruct G1 as (o1 & Ho1 & Ep1). destruct G2 as (o2 & Ho2 & Ep2).
  unfold in_cal_unit, WEEKS, to_freq in *. cbn [fbase fmult falias fdigits alias_base opt_or pstart] in *.
  remember (s / NS_DAY + u) as d eqn:Ed. replace (s / NS_DAY + (u - k)) with (d - k) in Ek by lia.
  remember (fr_start_time (mkFrame DAYS (s / NS_DAY) (e / NS_DAY - s / NS_DAY + 1))) as t0 eqn:Et0.
  change NS_DAY with 86400000000000 in *.
  assert (o1 = o) by lia. assert (o2 = o) by lia. subst o1 o2.
  assert (Hk6 : 0 <= k <= 6 /\ d - k = 7 * (o + n) + 4) by lia. destruct Hk6 as [Hk6 Hd].
  unfold weekly_hours, weekday. assert (Ew : (d + 3) mod 7 = k) by lia. rewrite Ew.
  assert (Hc : k = 0 \/ k = 1 \/ k = 2 \/ k = 3 \/ k = 4 \/ k = 5 \/ k = 6) by lia.
  clear - Hx Hc. destruct Hc as [ -> | [ -> | [ -> | [ -> | [ -> | [ -> | -> ] ] ] ] ] ]; vm_compute in Hx; injection Hx as <-; reflexivity.
Qed.

Lemma build_sel {L} (a : tb_args L) h tb h' : build a h = Ok (tb, h') -> sc_sel (tb_default tb) = a_sel a.
Proof.
  unfold build. destruct (top_organizer (a_layout a)) as [org|]; cbn [bind]; [|discriminate].
  destruct (a_wt a); try discriminate;
    (destruct (mk_frame (a_freq a) (a_start a) (a_end a)) as [f|]; cbn [bind]; [|discriminate];
     destruct (mk_timeline f org (a_ref_end a) (a_default a) h) as [[tl h1]|]; cbn [bind]; [|discriminate];
     cbn [fst snd]; destruct (amend tl false (a_amendments a)); cbn [bind]; [|discriminate];
     intros H; injection H as <- <-; reflexivity).
Qed.

(** What the amendments [am] make of day [d]. *)
Definition day_value (am : list (Z * Z)) (d x : Z) : Prop :=
  (exists t, In (t, x) am /\ t / NS_DAY = d)
  \/ ((forall t y, In (t, y) am -> t / NS_DAY <> d) /\ x = weekly_hours d).

Lemma weekly_holds s e tb h' i t : s / NS_DAY <= e / NS_DAY -> build (cal_args s e []) [] = Ok (tb, h') ->
  (holds_time tb i t <-> 0 <= i <= e / NS_DAY - s / NS_DAY /\ t / NS_DAY = s / NS_DAY + i).
Proof.
  intros H Hb. destruct (weekly_labels s e tb h' H Hb) as [Hlen Hu]. unfold holds_time, is_shift. rewrite Hlen.
  remember (s / NS_DAY) as a. remember (e / NS_DAY) as b. unfold starts_at, ends_at in *. split.
  - intros [Hi (x & y & Hx & Hy & Ht)]. destruct (Hu i ltac:(lia)) as (A & B & _).
    rewrite A in Hx. rewrite B in Hy. injection Hx as <-. injection Hy as <-. split; [lia|]. change NS_DAY with 86400000000000 in *. lia.
  - intros [Hi Ht]. split; [lia|]. destruct (Hu i ltac:(lia)) as (A & B & _).
    eexists _, _. split; [exact A|]. split; [exact B|]. change NS_DAY with 86400000000000 in *. lia.
Qed.

Lemma weekly_amended s e am : s / NS_DAY <= e / NS_DAY ->
  (same_day_twice (s / NS_DAY) (e / NS_DAY) am -> build (cal_args s e am) [] = Err EKey)
  /\ (~ same_day_twice (s / NS_DAY) (e / NS_DAY) am -> exists tb h', build (cal_args s e am) [] = Ok (tb, h')
        /\ tb_start_time tb = s / NS_DAY * NS_DAY /\ tb_end_time tb = (e / NS_DAY + 1) * NS_DAY - 1
        /\ forall t, s / NS_DAY <= t / NS_DAY <= e / NS_DAY -> forall x b,
             shows tb t x b <-> day_value am (t / NS_DAY) x /\ b = negb (x =? 0)).
Proof.
  intros H. destruct (weekly_base s e H) as (tb0 & h0 & Hb & Ef).
  change (cal_args s e []) with (with_amendments (cal_args s e []) []) in Hb.
  destruct (C15_clash_pf Z (cal_args s e []) [] am tb0 h0 Hb) as [A B].
  change (with_amendments (cal_args s e []) am) with (cal_args s e am) in A, B.
  change (with_amendments (cal_args s e []) []) with (cal_args s e []) in Hb.
  assert (Hc : clash tb0 am <-> same_day_twice (s / NS_DAY) (e / NS_DAY) am).
  { unfold clash, same_day_twice. split.
    - intros (j & k & i & t1 & x1 & t2 & x2 & Hjk & H1 & H2 & H3 & H4).
      apply (weekly_holds s e tb0 h0 _ _ H Hb) in H3. apply (weekly_holds s e tb0 h0 _ _ H Hb) in H4.
      exists j, k, t1, x1, t2, x2. split; [exact Hjk|]. split; [exact H1|]. split; [exact H2|]. clear -H3 H4. revert H3 H4. generalize (t1 / NS_DAY) (t2 / NS_DAY) (s / NS_DAY) (e / NS_DAY). lia.
    - intros (j & k & t1 & x1 & t2 & x2 & Hjk & H1 & H2 & H3 & H4).
      exists j, k, (t1 / NS_DAY - s / NS_DAY), t1, x1, t2, x2. split; [exact Hjk|]. split; [exact H1|]. split; [exact H2|].
      split; apply (weekly_holds s e tb0 h0 _ _ H Hb); lia. }
  split; [intros Hd; apply A, Hc, Hd|]. intros Hd. destruct B as [tb Htb]; [rewrite Hc; exact Hd|].
  exists tb, h0. split; [exact Htb|].
  destruct (C14_amendments_pf Z (cal_args s e am) [] tb h0 Htb) as (tb1 & Hb1 & Hsame & Hlab).
  change (with_amendments (cal_args s e am) []) with (cal_args s e []) in Hb1. rewrite Hb in Hb1. injection Hb1 as <-.
  change (a_amendments (cal_args s e am)) with am in Hlab.
  assert (Hh : forall i t, holds_time tb i t <-> 0 <= i <= e / NS_DAY - s / NS_DAY /\ t / NS_DAY = s / NS_DAY + i).
  { intros i t. rewrite <- (weekly_holds s e tb0 h0 i t H Hb). unfold holds_time. destruct (Hsame i 0) as (S1 & _).
    rewrite S1. split; (intros [H1 (x & y & H2 & H3 & H4)]; split; [exact H1|]; exists x, y;
      (split; [apply (Hsame i x); exact H2|]); (split; [apply (Hsame i y); exact H3|exact H4])). }
  assert (R : reachable tb) by (eapply reach_build; exact Htb).
  assert (Hse : tb_start_time tb = s / NS_DAY * NS_DAY /\ tb_end_time tb = (e / NS_DAY + 1) * NS_DAY - 1).
  { destruct (weekly_labels s e tb0 h0 H Hb) as [Hlen Hu].
    destruct (C03_tile_pf Z tb R) as (_ & T0 & T1 & _).
    assert (Hl : tb_len tb = e / NS_DAY - s / NS_DAY + 1).
    { assert (Hx : forall i, 0 <= i < tb_len tb <-> 0 <= i < tb_len tb0) by (intros i; apply (Hsame i 0)). rewrite Hlen in Hx.
      pose proof (Hx (tb_len tb)). pose proof (Hx (tb_len tb - 1)). pose proof (Hx (e / NS_DAY - s / NS_DAY)). 
      assert (0 <= tb_len tb) by (unfold tb_len, tl_len, zlen; lia). lia. }
    rewrite Hl in T1. destruct (Hu 0 ltac:(lia)) as (U0 & _). destruct (Hu (e / NS_DAY - s / NS_DAY) ltac:(lia)) as (_ & U1 & _).
    apply (Hsame 0 _) in T0. replace (e / NS_DAY - s / NS_DAY + 1 - 1) with (e / NS_DAY - s / NS_DAY) in T1 by lia. apply (Hsame _ _) in T1.
    unfold starts_at, ends_at in *. rewrite U0 in T0. rewrite U1 in T1. injection T0 as T0. injection T1 as T1. split; [|rewrite <- T1; f_equal; f_equal; lia].
    rewrite <- T0. f_equal. lia. }
  destruct Hse as [E1 E2]. split; [exact E1|]. split; [exact E2|].
  intros t Ht x b. remember (t / NS_DAY - s / NS_DAY) as i eqn:Ei.
  assert (Hi : holds_time tb i t) by (apply Hh; lia).
  assert (Hsh : is_shift tb i) by (destruct Hi; assumption).
  destruct (weekly_labels s e tb0 h0 H Hb) as [Hlen Hu]. destruct (Hu i ltac:(lia)) as (U0 & U1 & U2).
  destruct (C02_lookup_pf Z tb R t None) as (G1 & G2 & _).
  destruct G1 as [w Hw]. { rewrite E1, E2. change NS_DAY with 86400000000000 in *. lia. }
  destruct (G2 w Hw) as (W1 & W2 & W3 & W4). pose proof (W2 i Hi) as Ew. rewrite Ew in U0, U1, U2, Hsh, Hi.
  assert (Hv : forall y, tl_get (tb_tl tb) (ws_loc w) = Ok y <-> day_value am (t / NS_DAY) y).
  { intros y. rewrite (Hlab _ y Hsh). rewrite U2. unfold day_value.
    replace (s / NS_DAY + ws_loc w) with (t / NS_DAY) by lia.
    assert (Q : forall t', holds_time tb (ws_loc w) t' <-> t' / NS_DAY = t / NS_DAY).
    { intros t'. rewrite Hh. apply Hh in Hi. clear - Hi. generalize dependent (ws_loc w). intros l Hi. generalize dependent (t' / NS_DAY). generalize dependent (t / NS_DAY).
      generalize (s / NS_DAY) (e / NS_DAY). intros. lia. }
    split.
    - intros [(t' & I1 & I2)|(I1 & I2)]; [left; exists t'; split; [exact I1|apply Q, I2]|right].
      split; [intros t' z Hz Hq; apply (I1 t' z Hz), Q, Hq|]. injection I2 as <-. reflexivity.
    - intros [(t' & I1 & I2)|(I1 & ->)]; [left; exists t'; split; [exact I1|apply Q, I2]|right].
      split; [|reflexivity]. intros t' z Hz Hq. apply (I1 t' z Hz), Q, Hq. }
  assert (Hon : forall y, tl_get (tb_tl tb) (ws_loc w) = Ok y -> is_on_duty tb w (tb_default tb) = Ok (negb (y =? 0))).
  { intros y Hy. unfold is_on_duty. rewrite Hy. cbn [rmap bind]. unfold rmap, bind. rewrite (build_sel _ _ _ _ Htb). reflexivity. }
  assert (Hm : made_with (cal_args s e am) tb) by (eapply made_build; exact Htb).
  assert (Hws : ws_of tb w).
  { split; [exact Hsh|]. split; [|exact W3]. rewrite W4. apply (proj2 (C50_default_pf _ _ _ Hm)). }
  unfold shows. split.
  - intros (w' & K1 & K2 & _ & _ & _ & _ & K5). rewrite Hw in K1. injection K1 as <-. rewrite W3 in Hv. rewrite (Hon _ W3) in K5. injection K5 as <-.
    rewrite K2 in *. split; [apply Hv; reflexivity|reflexivity].
  - intros [Hx ->]. exists w. split; [exact Hw|]. apply Hv in Hx. rewrite W3 in Hx. injection Hx as <-. split; [reflexivity|].
    split; [apply (Hsame _ _); unfold starts_at in *; rewrite U0; f_equal; f_equal; lia|].
    split; [apply (Hsame _ _); unfold ends_at in *; rewrite U1; f_equal; f_equal; f_equal; lia|].
    split.
    { apply (C50_reference_pf _ _ _ Hm _ _ Hsh). cbn [a_ref_end cal_args]. apply (Hsame _ _). unfold starts_at in *. rewrite U0. f_equal. f_equal. lia. }
    split; [|apply Hon; exact W3].
    apply (C50_worktime_pf _ _ _ Hm w None DAny Hws ltac:(discriminate)); reflexivity.
Qed.
