(** Proofs about what is shown of workshifts, intervals and timeboards (C58). *)
From Verif Require Import Base BaseProofs Civil Freq FreqProofs Frame FrameProofs Timeline TimelineProofs Board Spec SpecLookup SpecMisc BoardProofs LookupProofs MiscProofs SettingsProofs Text SpecText.
From Coq Require Import String ZifyBool ZifyNat.
Ltac Zify.zify_post_hook ::= Z.div_mod_to_equations.
Open Scope Z_scope.
Open Scope list_scope.

Lemma schedule_says {L : Type} (tb : timeboard L) s : says_schedule tb (sc_name s) (schedule_label tb s).
Proof.
  unfold schedule_label. destruct (sc_name s =? sc_name (tb_default tb)) eqn:E; [apply ss_default|apply ss_other]; lia.
Qed.
Lemma schedule_inj {L : Type} (tb : timeboard L) s s' : schedule_label tb s = schedule_label tb s' -> sc_name s = sc_name s'.
Proof.
  unfold schedule_label. destruct (sc_name s =? sc_name (tb_default tb)) eqn:E; destruct (sc_name s' =? sc_name (tb_default tb)) eqn:E';
    intros H; try discriminate; [lia|]. injection H as H. exact H.
Qed.
Lemma schedule_cong {L : Type} (tb : timeboard L) s s' : sc_name s = sc_name s' -> schedule_label tb s = schedule_label tb s'.
Proof. intros H. unfold schedule_label. rewrite H. reflexivity. Qed.

Lemma compact_says {L : Type} (tb : timeboard L) w : reachable tb -> is_shift tb (ws_loc w) ->
  exists c, ws_compact tb w = Ok c /\ says_shift tb (ws_loc w) c.
Proof.
  intros Hr Hi. destruct (units_ok tb (ws_loc w) Hr Hi) as (n & Hu & Hn). unfold ws_compact. rewrite Hn. cbn [bind].
  pose proof Hu as (u & H0 & H1 & H2 & Hs & He). unfold starts_at in Hs. rewrite Hs. cbn [bind]. eexists. split; [reflexivity|].
  unfold unit_text. unfold unit_start in *.
  assert (Hp : pord (fr_base (tl_frame (tb_tl tb))) (pstart (fr_base (tl_frame (tb_tl tb))) (unit_ord (tl_frame (tb_tl tb)) u)) = unit_ord (tl_frame (tb_tl tb)) u).
  { apply pord_pstart. }
  rewrite Hp. destruct (n =? 1) eqn:E.
  - replace n with 1 in * by lia. apply sh_unit; [reflexivity|reflexivity|exact Hu|exact Hs].
  - apply (sh_units tb (ws_loc w) _ _ _ n); [reflexivity|reflexivity|lia|exact Hu|exact Hs].
Qed.

Definition compact_at {L : Type} (tb : timeboard L) (i : Z) : list token :=
  match (do n <- ws_duration (tb_tl tb) i; do t <- ws_start_time (tb_tl tb) i;
         Ok ((if n =? 1 then [] else [TNum n; TText "x"])
             ++ [TText "'"; TFreq (fr_str (tl_frame (tb_tl tb))); TText "' at "; unit_text tb t])) with Ok c => c | Err _ => [] end.
Lemma compact_at_ok {L : Type} (tb : timeboard L) w : reachable tb -> is_shift tb (ws_loc w) ->
  ws_compact tb w = Ok (compact_at tb (ws_loc w)) /\ says_shift tb (ws_loc w) (compact_at tb (ws_loc w)).
Proof.
  intros Hr Hi. destruct (compact_says tb w Hr Hi) as (c & E & H). unfold compact_at, ws_compact in *. rewrite E. split; [reflexivity|exact H].
Qed.
Lemma positions_one i : positions i i = [i].
Proof.
  unfold positions. replace (Z.to_nat (i + 1 - i)) with 1%nat by lia. reflexivity.
Qed.
Definition iv_text {L : Type} (tb : timeboard L) (v : interval L) : list token :=
  let at_ := [TText "("; TNum (iv_a v); TText ", "; TNum (iv_b v); TText ")"] in
  if iv_void v then [TText "Interval ("] ++ at_ ++ schedule_label tb (iv_sched v) ++ [TText "): void [0]"]
  else [TText "Interval("] ++ at_ ++ schedule_label tb (iv_sched v) ++ [TText "): "] ++ compact_at tb (iv_a v) ++ [TText " -> "]
       ++ compact_at tb (iv_b v) ++ [TText " ["; TNum (iv_b v - iv_a v + 1); TText "]"].
Lemma iv_text_ok {L : Type} (tb : timeboard L) v : reachable tb -> iv_of tb v -> iv_repr tb v = Ok (iv_text tb v).
Proof.
  intros Hr (_ & Ha & Hb & _). unfold iv_repr, iv_text, locs_text, iv_length. destruct (iv_void v); [reflexivity|].
  pose proof (reachable_wf _ Hr) as (W & _ & _).
  destruct (new_workshift_ok tb W (iv_a v) (tb_default tb) Ha) as (xa & _ & Ea). destruct (new_workshift_ok tb W (iv_b v) (tb_default tb) Hb) as (xb & _ & Eb).
  rewrite Ea. cbn [bind]. destruct (compact_at_ok tb (mkWs (iv_a v) xa (tb_default tb)) Hr Ha) as [-> _]. cbn [bind].
  rewrite Eb. cbn [bind]. destruct (compact_at_ok tb (mkWs (iv_b v) xb (tb_default tb)) Hr Hb) as [-> _]. reflexivity.
Qed.

Lemma C58_workshift_pf : forall (L : Type) (tb : timeboard L) w, reachable tb -> ws_of tb w ->
  exists s c row, says_schedule tb (sc_name (ws_sched w)) s /\ says_shift tb (ws_loc w) c /\ row_agrees tb (ws_loc w) row
    /\ let l := [TText "Workshift("; TNum (ws_loc w)] ++ s ++ [TText ") of "] ++ c in
       ws_repr tb w = Ok l /\ ws_str tb w = Ok (l, [row]).
Proof.
  intros L tb w Hr (Hi & _ & _). destruct (compact_says tb w Hr Hi) as (c & Ec & Hc).
  destruct (proj1 (C32_dataframe_pf L tb (ws_loc w) (ws_loc w) Hr) Hi Hi) as (rows & Ed & F).
  rewrite positions_one in F. inversion F as [|? row ? rest Hrow F']; subst. inversion F'; subst.
  exists (schedule_label tb (ws_sched w)), c, row. split; [apply schedule_says|]. split; [exact Hc|]. split; [exact Hrow|].
  unfold ws_str, ws_repr. rewrite Ec. cbn [bind]. rewrite Ed. split; reflexivity.
Qed.

Lemma C58_interval_pf : forall (L : Type) (tb : timeboard L) iv, reachable tb -> iv_of tb iv ->
  exists s, says_schedule tb (sc_name (iv_sched iv)) s
  /\ let at_ := [TText "("; TNum (iv_a iv); TText ", "; TNum (iv_b iv); TText ")"] in
     (iv_void iv = true ->
        let l := [TText "Interval ("] ++ at_ ++ s ++ [TText "): void [0]"] in
        iv_repr tb iv = Ok l /\ iv_str tb iv = Ok (l, None))
     /\ (iv_void iv = false -> exists ca cb rows, says_shift tb (iv_a iv) ca /\ says_shift tb (iv_b iv) cb
        /\ Forall2 (row_agrees tb) (positions (iv_a iv) (iv_b iv)) rows
        /\ let l := [TText "Interval("] ++ at_ ++ s ++ [TText "): "] ++ ca ++ [TText " -> "] ++ cb
                    ++ [TText " ["; TNum (iv_b iv - iv_a iv + 1); TText "]"] in
           iv_repr tb iv = Ok l /\ iv_str tb iv = Ok (l, Some rows)).
Proof.
  intros L tb iv Hr Hv0. pose proof Hv0 as (_ & Ha & Hb & _). exists (schedule_label tb (iv_sched iv)). split; [apply schedule_says|]. cbv zeta.
  split; intros Hv.
  - unfold iv_str, iv_repr. rewrite Hv. split; reflexivity.
  - destruct (proj1 (C32_dataframe_pf L tb (iv_a iv) (iv_b iv) Hr) Ha Hb) as (rows & Ed & F).
    pose proof (reachable_wf _ Hr) as (W & _ & _). destruct (new_workshift_ok tb W (iv_a iv) (tb_default tb) Ha) as (x & _ & _).
    exists (compact_at tb (iv_a iv)), (compact_at tb (iv_b iv)), rows.
    split; [exact (proj2 (compact_at_ok tb (mkWs (iv_a iv) x (tb_default tb)) Hr Ha))|].
    split; [exact (proj2 (compact_at_ok tb (mkWs (iv_b iv) x (tb_default tb)) Hr Hb))|]. split; [exact F|].
    unfold iv_str. rewrite (iv_text_ok tb iv Hr Hv0). cbn [bind]. unfold iv_dataframe, iv_text. rewrite Hv, Ed. split; reflexivity.
Qed.

Lemma C58_same_pf : forall (L : Type) (tb : timeboard L), reachable tb ->
  (forall w w', ws_of tb w -> ws_of tb w' ->
     (ws_repr tb w = ws_repr tb w' <-> ws_loc w = ws_loc w' /\ sc_name (ws_sched w) = sc_name (ws_sched w')))
  /\ (forall v v', iv_of tb v -> iv_of tb v' ->
     (iv_repr tb v = iv_repr tb v' <-> iv_a v = iv_a v' /\ iv_b v = iv_b v' /\ sc_name (iv_sched v) = sc_name (iv_sched v'))).
Proof.
  intros L tb Hr. split.
  - intros w w' (Hi & _) (Hi' & _).
    destruct (compact_says tb w Hr Hi) as (c & Ec & _). destruct (compact_says tb w' Hr Hi') as (c' & Ec' & _).
    unfold ws_repr. rewrite Ec, Ec'. cbn [bind]. split.
    + intros H. injection H as Hl H. split; [exact Hl|].
      assert (c' = c) as -> by (unfold ws_compact in Ec, Ec'; rewrite Hl in Ec; rewrite Ec in Ec'; injection Ec' as <-; reflexivity).
      change (TText ") of " :: c) with ([TText ") of "] ++ c) in H. apply app_inv_tail in H. apply (schedule_inj tb). exact H.
    + intros [Hl Hs]. assert (c' = c) as -> by (unfold ws_compact in Ec, Ec'; rewrite Hl in Ec; rewrite Ec in Ec'; injection Ec' as <-; reflexivity).
      rewrite Hl, (schedule_cong tb _ _ Hs). reflexivity.
  - intros v v' Hv Hv'. rewrite (iv_text_ok tb v Hr Hv), (iv_text_ok tb v' Hr Hv'). unfold iv_text.
    destruct Hv as (_ & _ & _ & Hab). destruct Hv' as (_ & _ & _ & Hab'). split.
    + destruct (iv_void v); destruct (iv_void v'); intros H; try discriminate; injection H as H1 H2 H;
        (split; [exact H1|]); (split; [exact H2|]); apply (schedule_inj tb).
      * apply app_inv_tail in H. exact H.
      * rewrite H1, H2 in H. apply app_inv_tail in H. exact H.
    + intros (H1 & H2 & H3). rewrite H1, H2, (schedule_cong tb _ _ H3). destruct (iv_void v); destruct (iv_void v'); try reflexivity; lia.
Qed.

Lemma C58_timeboard_pf : forall (L : Type) (tb : timeboard L), reachable tb ->
  let f := fr_str (tl_frame (tb_tl tb)) in let b := fbase (to_freq f) in
  exists o o', tb_compact tb = Ok [TText "Timeboard of '"; TFreq f; TText "': "; TPeriod b o; TText " -> "; TPeriod b o']
    /\ pstart b o = tb_start_time tb /\ pstart b (o' + Zpos (fmult (to_freq f))) - 1 = tb_end_time tb.
Proof.
  intros L tb Hr f b. apply reachable_wf in Hr. destruct Hr as (W & _ & _).
  pose proof (wf_frame _ W) as Hn. unfold fr_wf in Hn.
  unfold tb_compact, fr_get. replace ((0 <=? 0) && (0 <? fr_len (tl_frame (tb_tl tb)))) with true by lia.
  replace ((0 <=? -1) && (-1 <? fr_len (tl_frame (tb_tl tb)))) with false by lia.
  replace ((-1 <? 0) && (0 <=? -1 + fr_len (tl_frame (tb_tl tb)))) with true by lia. cbn [bind].
  eexists _, _. split; [reflexivity|]. unfold tb_start_time, tb_end_time, fr_start_time, fr_end_time, unit_start, unit_end. split; [reflexivity|].
  replace (fr_len (tl_frame (tb_tl tb)) - 1) with (-1 + fr_len (tl_frame (tb_tl tb))) by lia. reflexivity.
Qed.
