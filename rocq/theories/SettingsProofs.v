(** Proofs of C50: the settings given to the constructor govern the workshifts. *)
From Verif Require Import Base BaseProofs Civil Freq FreqProofs Frame FrameProofs Timeline TimelineProofs Board Spec BoardProofs SpecLookup LookupProofs SpecRoll SpecQuery QueryProofs SpecMisc.
From Coq Require Import ZifyBool ZifyNat QArith.
Open Scope Z_scope.
Ltac Zify.zify_post_hook ::= Z.div_mod_to_equations.

Lemma made_reachable {L} (a : tb_args L) tb : made_with a tb -> reachable tb.
Proof.
  induction 1 as [h tb h' H|tb name sel tb' s _ IH H|tb s tb' _ IH H].
  - eapply reach_build, H.
  - eapply reach_add; eassumption.
  - eapply reach_drop; eassumption.
Qed.

Lemma made_inv {L} (a : tb_args L) tb : made_with a tb ->
  tl_ref_end (tb_tl tb) = a_ref_end a /\ tb_default tb = mk_schedule (tb_tl tb) (a_name a) (a_sel a)
  /\ tb_wt tb = a_wt a /\ tb_num tb = a_num a.
Proof.
  induction 1 as [h tb h' H|tb name sel tb' s _ IH H|tb s tb' _ IH H].
  - apply build_inv in H. destruct H as (org & f & tl0 & _ & _ & _ & _ & H1 & _ & H2 & H3 & _ & _ & _ & _ & _ & _ & H4).
    repeat split; assumption.
  - apply add_schedule_inv in H. destruct H as (_ & _ & ->). exact IH.
  - apply drop_schedule_inv in H. destruct H as (_ & ->). exact IH.
Qed.

Lemma C50_reference_pf : forall (L : Type) (a : tb_args L) (tb : timeboard L), made_with a tb ->
  forall i t, is_shift tb i -> (ref_at tb i t <-> if a_ref_end a then ends_at tb i t else starts_at tb i t).
Proof.
  intros L a tb H i t Hi. apply made_inv in H. destruct H as (Hr & _). unfold ref_at, ws_ref_time. rewrite Hr.
  destruct (a_ref_end a); reflexivity.
Qed.

Lemma C50_default_pf : forall (L : Type) (a : tb_args L) (tb : timeboard L), made_with a tb ->
  sc_name (tb_default tb) = a_name a /\ sched_for tb (tb_default tb)
  /\ forall w, ws_of tb w -> is_on_duty tb w (tb_default tb) = Ok (a_sel a (ws_label w))
                             /\ is_off_duty tb w (tb_default tb) = Ok (negb (a_sel a (ws_label w))).
Proof.
  intros L a tb H. apply made_inv in H. destruct H as (_ & Hd & _). rewrite Hd. split; [reflexivity|].
  split; [eexists _, _; reflexivity|]. intros w (_ & _ & Hw). unfold is_off_duty, is_on_duty. rewrite Hw. split; reflexivity.
Qed.

Lemma units_ok {L} (tb : timeboard L) i : reachable tb -> is_shift tb i ->
  exists n, has_units tb i n /\ ws_duration (tb_tl tb) i = Ok n.
Proof.
  intros Hr Hi. apply reachable_wf in Hr. destruct Hr as (W & _ & _). unfold is_shift, tb_len in Hi.
  exists (bnd (tb_tl tb) (i + 1) - bnd (tb_tl tb) i). split; [|apply ws_duration_ok; assumption].
  exists (bnd (tb_tl tb) i). cbv zeta. pose proof (bnd_range _ W i Hi). pose proof (bnd_lt _ W i (i + 1) ltac:(lia) ltac:(lia) ltac:(lia)).
  pose proof (bnd_le _ W (i + 1) (tl_len (tb_tl tb)) ltac:(lia) ltac:(lia) ltac:(lia)) as He. rewrite (bnd_end _) in He.
  split; [lia|]. split; [lia|]. split; [lia|]. split; [apply ws_start_ok; assumption|]. unfold ends_at.
  rewrite ws_end_ok by assumption. rewrite unit_end_next. do 3 f_equal. lia.
Qed.

Lemma C50_worktime_pf : forall (L : Type) (a : tb_args L) (tb : timeboard L), made_with a tb ->
  forall w s d, ws_of tb w -> (forall s', s = Some s' -> sched_for tb s') ->
  let sch := match s with Some s' => s' | None => ws_sched w end in
  (~ (d = DOn \/ d = DOff \/ d = DAny) -> ws_worktime tb w d s = Err EValue)
  /\ (d = DOn \/ d = DOff \/ d = DAny -> has_duty tb sch d (ws_loc w) = false -> ws_worktime tb w d s = Ok 0%Q)
  /\ (has_duty tb sch d (ws_loc w) = true -> a_wt a = WLabels ->
        ws_worktime tb w d s = match a_num a (ws_label w) with Some q => Ok q | None => Err EType end)
  /\ (has_duty tb sch d (ws_loc w) = true -> a_wt a = WDuration ->
        exists n, has_units tb (ws_loc w) n /\ ws_worktime tb w d s = Ok (inject_Z n)).
Proof.
  intros L a tb H w s d (Hi & Hs & Hx) Hs' sch. destruct (units_ok tb (ws_loc w) (made_reachable a tb H) Hi) as (n & Hu & Hn).
  apply made_inv in H. destruct H as (_ & _ & Hw & Hnum). unfold ws_worktime.
  replace (opt_or s (ws_sched w)) with sch by (unfold sch; destruct s; reflexivity).
  unfold is_on_duty, has_duty, on_duty. rewrite Hx, Hw, Hnum, Hn. cbn [rmap bind].
  split; [intros Hd; destruct d; try reflexivity; exfalso; apply Hd; auto|].
  split; [intros [->|[->| ->]] E; cbn [bind]; [rewrite E; reflexivity|rewrite E; reflexivity|discriminate]|].
  split; intros E ->; destruct d; cbn [bind]; try discriminate; rewrite ?E; try reflexivity; exists n; split; try assumption; reflexivity.
Qed.
