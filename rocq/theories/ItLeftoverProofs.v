(** Proofs of C79. *)
From Verif Require Import Base BaseProofs Civil Freq FreqProofs Frame FrameProofs Timeline TimelineProofs Board Spec BoardProofs SpecLookup LookupProofs SpecMisc MiscProofs SpecLayout PartProofs TreeProofs LayoutProofs SpecRemember Iterate SpecIterate IterateProofs ItLeftover SpecItLeftover.
From Coq Require Import ZifyBool ZifyNat.
Ltac Zify.zify_post_hook ::= Z.div_mod_to_equations.
Open Scope Z_scope.

(** ** [leave_it] follows [organize_it] *)
Definition agrees_it {L} (r : res (org_state L * feeds L)) (o : feeds L * option err) : Prop :=
  match r with
  | Ok sf => o = (snd sf, None)
  | Err e => exists fd', o = (fd', Some e)
  end.
Lemma cycle_agrees_it {L} f (all : list (layout L)) :
  (forall it, In it all -> forall s sf, agrees_it (organize_it f it s sf) (leave_it f it s (snd sf))) ->
  forall spans cur sf, (forall it, In it cur -> In it all) ->
  agrees_it (run_cycle (map (organize_it f) all) (map (organize_it f) cur) spans sf)
         (leave_cycle_it (map (leave_it f) all) (map (leave_it f) cur) spans (snd sf)).
Proof.
  intros H. induction spans as [|s spans IH]; intros cur st Hc; [reflexivity|].
  assert (Step : forall it cur', In it all -> (forall x, In x cur' -> In x all) ->
     agrees_it (do st' <- organize_it f it s st; run_cycle (map (organize_it f) all) (map (organize_it f) cur') spans st')
            (match leave_it f it s (snd st) with
             | (h', None) => leave_cycle_it (map (leave_it f) all) (map (leave_it f) cur') spans h'
             | raised => raised end)).
  { intros it cur' Hit Hcur'. specialize (H it Hit s st). destruct (organize_it f it s st) as [st1|e]; cbn [agrees_it bind] in *.
    - rewrite H. apply IH. exact Hcur'.
    - destruct H as [h' ->]. exists h'. reflexivity. }
  destruct cur as [|it cur]; cbn [map run_cycle leave_cycle_it].
  - destruct all as [|it all']; [reflexivity|].
    exact (Step it all' (or_introl eq_refl) (fun x Hx => or_intror Hx)).
  - apply Step; [apply Hc; left; reflexivity|]. intros x Hx. apply Hc. right. exact Hx.
Qed.
Lemma iterator_agrees {L} k spans : forall c (st : org_state L) fd, agrees_it (run_iterator k c spans st fd) (leave_iterator k c spans fd, None).
Proof.
  induction spans as [|s spans IH]; intros c st fd; [reflexivity|]. cbn [run_iterator leave_iterator].
  destruct (cyc_next k c fd) as [[[x|] c'] fd1]; [|reflexivity]. unfold apply_label. cbn [bind]. apply IH.
Qed.
Lemma organize_leave_it {L} f (ly : layout L) : forall s sf, agrees_it (organize_it f ly s sf) (leave_it f ly s (snd sf)).
Proof.
  induction ly as [d items IH|d k|p|x] using layout_ind2; intros s sf; cbn [organize_it leave_it].
  - destruct (partition f d s) as [spans|e]; cbn [bind]; [|eexists; reflexivity].
    apply cycle_agrees_it; [|intros it Hit; exact Hit]. intros it Hit. rewrite Forall_forall in IH. exact (IH it Hit).
  - destruct (partition f d s) as [spans|e]; cbn [bind]; [|eexists; reflexivity]. apply iterator_agrees.
  - destruct p as [l|k].
    + unfold apply_pattern. destruct (s_left s <? 0); [eexists; reflexivity|]. destruct l; reflexivity.
    + unfold apply_iterator. destruct (s_left s <? 0); [eexists; reflexivity|].
      destruct (cyc_times k (Z.to_nat (s_left s) + span_len s) new_cyc (snd sf)) as [[l|] fd']; reflexivity.
  - reflexivity.
Qed.

(** ** What is taken *)
Definition istep {L} (fd fd' : feeds L) (asks : list (nat * ask)) : Prop :=
  (forall k, 0 <= wanted k asks) /\ forall k i, 0 <= i -> to_come fd' k i = to_come fd k (wanted k asks + i).
Lemma istep_nil {L} (fd : feeds L) : istep fd fd [].
Proof. split; [intros k; cbn; lia|]. reflexivity. Qed.
Lemma istep_app {L} (h h1 h2 : feeds L) l1 l2 : istep h h1 l1 -> istep h1 h2 l2 -> istep h h2 (l1 ++ l2).
Proof.
  intros (B1 & C1) (B2 & C2). split.
  - intros k. rewrite wanted_app. specialize (B1 k). specialize (B2 k). lia.
  - intros k i Hi. rewrite C2 by exact Hi. specialize (B2 k). rewrite C1 by lia. rewrite wanted_app. f_equal. lia.
Qed.
Lemma istep_one {L} k n (fd : feeds L) w : wants w = Z.of_nat n -> istep fd (snd (pull k n fd)) [(k, w)].
Proof.
  intros Hw. destruct (pull k n fd) as [c fd'] eqn:E. cbn [snd]. destruct (pull_spec _ _ _ _ _ E) as (_ & B & C).
  assert (O : forall j, wanted j [(k, w)] = if (k =? j)%nat then Z.of_nat n else 0) by (intros j; cbn [wanted]; destruct (k =? j)%nat; lia).
  split; [intros j; rewrite O; destruct (k =? j)%nat; lia|]. intros j i Hi. rewrite O. destruct (k =? j)%nat eqn:Ek.
  - apply Nat.eqb_eq in Ek. subst j. apply C. exact Hi.
  - apply Nat.eqb_neq in Ek. unfold to_come. rewrite B by congruence. reflexivity.
Qed.
Lemma times_feed {L} k n (fd : feeds L) : snd (cyc_times k n new_cyc fd) = snd (pull k n fd).
Proof. unfold new_cyc. rewrite times_reading. destruct (pull k n fd). reflexivity. Qed.
Lemma leave_iterator_times {L} k spans : forall c (fd : feeds L), leave_iterator k c spans fd = snd (cyc_times k (length spans) c fd).
Proof.
  induction spans as [|s spans IH]; intros c fd; [reflexivity|]. cbn [leave_iterator length cyc_times].
  destruct (cyc_next k c fd) as [[[x|] c'] fd1]; [|reflexivity]. rewrite IH. destruct (cyc_times k (length spans) c' fd1) as [[l|] fd2]; reflexivity.
Qed.

Definition told_it {L} f (ly : layout L) s (h : feeds L) (o : feeds L * option err) : Prop :=
  exists asks, istep h (fst o) asks
    /\ match snd o with None => asked f ly s asks | Some e => asked_until f ly s asks e end.
Definition told_spans_it {L} f (items : list (layout L)) j spans (h : feeds L) (o : feeds L * option err) : Prop :=
  exists asks, istep h (fst o) asks
    /\ match snd o with None => asked_spans f items j spans asks | Some e => asked_spans_until f items j spans asks e end.

Lemma leave_cycle_it_step {F} (all : list (span -> F -> F * option err)) r s spans h :
  all <> [] -> (r <= length all)%nat ->
  exists act r', nth_error all (r mod length all)%nat = Some act
    /\ (r' <= length all)%nat /\ (forall j, ((r' + j) mod length all = (r + S j) mod length all)%nat)
    /\ leave_cycle_it all (skipn r all) (s :: spans) h
       = match act s h with (h', None) => leave_cycle_it all (skipn r' all) spans h' | raised => raised end.
Proof.
  intros Hne Hr. cbn [leave_cycle_it].
  assert (Hn : (length all <> 0)%nat) by (destruct all; [contradiction|discriminate]).
  destruct (skipn r all) as [|act cur] eqn:E.
  - assert (Er : r = length all) by (pose proof (skipn_length r all) as Hk; rewrite E in Hk; cbn in Hk; lia). subst r.
    destruct all as [|act all'] eqn:Ea; [contradiction|]. rewrite <- Ea in *.
    exists act, 1%nat. rewrite Nat.mod_same by exact Hn. split; [rewrite Ea; reflexivity|]. split; [lia|]. split.
    + intros j. replace (length all + S j)%nat with ((1 + j) + 1 * length all)%nat by lia. rewrite Nat.mod_add by exact Hn. reflexivity.
    + replace (skipn 1 all) with all' by (rewrite Ea; reflexivity). reflexivity.
  - assert (Hr' : (r < length all)%nat) by (destruct (Nat.eq_dec r (length all)) as [->|]; [rewrite skipn_all in E; discriminate|lia]).
    assert (Hx : nth_error all r = Some act /\ cur = skipn (S r) all).
    { clear - E. revert r E. induction all as [|y l IH]; intros r E; [destruct r; discriminate|]. destruct r as [|r].
      - cbn in E. injection E as -> ->. split; reflexivity.
      - cbn [skipn] in E. apply IH in E. exact E. }
    destruct Hx as [Hx ->]. exists act, (S r). rewrite Nat.mod_small by lia. split; [exact Hx|]. split; [lia|]. split; [|reflexivity].
    intros j. f_equal. lia.
Qed.

Lemma cycle_told_it {L} f (items : list (layout L)) : items <> [] ->
  (forall it, In it items -> forall s h, span_wf f s -> told_it f it s h (leave_it f it s h)) ->
  forall spans, (forall s, In s spans -> span_wf f s) ->
  forall r j h, (r <= length items)%nat -> (forall i, ((r + i) mod length items = (j + i) mod length items)%nat) ->
  told_spans_it f items j spans h (leave_cycle_it (map (leave_it f) items) (skipn r (map (leave_it f) items)) spans h).
Proof.
  intros Hne Hall. assert (Hne' : map (leave_it f) items <> []) by (destruct items; [contradiction|discriminate]).
  assert (Hc : (length items <> 0)%nat) by (destruct items; [contradiction|discriminate]).
  induction spans as [|s spans IH]; intros Hsp r j h Hr Hm.
  - exists []. split; [apply istep_nil|constructor].
  - destruct (leave_cycle_it_step (map (leave_it f) items) r s spans h Hne' ltac:(rewrite map_length; exact Hr)) as (act & r' & Hact & Hr' & Hm' & E).
    rewrite map_length in Hact, Hr', Hm'. rewrite E. clear E.
    assert (Hj : (r mod length items = j mod length items)%nat) by (specialize (Hm 0%nat); rewrite !Nat.add_0_r in Hm; exact Hm). rewrite Hj in Hact.
    destruct (nth_error items (j mod length items)%nat) as [it|] eqn:Ei.
    2:{ apply nth_error_None in Ei. pose proof (Nat.mod_upper_bound j _ Hc). lia. }
    rewrite (map_nth_error (leave_it f) _ _ Ei) in Hact. injection Hact as <-.
    destruct (Hall it (nth_error_In _ _ Ei) s h (Hsp s (or_introl eq_refl))) as (uses & Hh & Hu).
    destruct (leave_it f it s h) as [h1 [e|]]; cbn [fst snd] in *.
    + exists uses. split; [exact Hh|]. cbn [snd]. eapply auntil_here; eassumption.
    + destruct (IH (fun x Hx => Hsp x (or_intror Hx)) r' (S j) h1 Hr') as (uses' & Hh' & Hu').
      { intros i. rewrite Hm', (Hm (S i)). f_equal. lia. }
      exists (uses ++ uses'). split; [eapply istep_app; eassumption|].
      destruct (leave_cycle_it _ _ _ _) as [h2 [e|]]; cbn [fst snd] in *; [eapply auntil_later; eassumption|eapply as_cons; eassumption].
Qed.

Lemma leave_told_it {L} f (ly : layout L) : fr_wf f -> forall s h, span_wf f s -> told_it f ly s h (leave_it f ly s h).
Proof.
  intros Hw. induction ly as [d items IH|d k|p|x] using layout_ind2; intros s h Hs; cbn [leave_it].
  - destruct (partition f d s) as [spans|e] eqn:Hp; [|exists []; split; [apply istep_nil|constructor; exact Hp]].
    pose proof (partition_tiles _ _ _ _ Hw Hs Hp) as Ht. destruct items as [|i0 items0] eqn:Ei.
    + exists []. cbn [map]. replace (leave_cycle_it (F := feeds L) [] [] spans h) with (h, @None err) by (destruct spans; reflexivity).
      split; [apply istep_nil|eapply asked_nothing; exact Hp].
    + rewrite <- Ei in *. assert (Hne : items <> []) by (rewrite Ei; discriminate). rewrite Forall_forall in IH.
      destruct (cycle_told_it f items Hne IH spans) with (r := 0%nat) (j := 0%nat) (h := h) as (uses & Hh & Hu);
        [intros x Hx; pose proof (tiles_In _ _ _ x Ht Hx); unfold span_wf in *; lia|lia|reflexivity|].
      cbn [skipn] in *. exists uses. split; [exact Hh|].
      destruct (leave_cycle_it _ _ _ _) as [h2 [e|]]; cbn [fst snd] in *; [eapply auntil_inside; eassumption|eapply asked_org; eassumption].
  - destruct (partition f d s) as [spans|e] eqn:Hp; [|exists []; split; [apply istep_nil|constructor; exact Hp]].
    exists [(k, AskSpans spans)]. cbn [fst snd]. rewrite leave_iterator_times, times_feed. split; [apply istep_one; reflexivity|constructor; exact Hp].
  - destruct (s_left s <? 0) eqn:El; [exists []; split; [apply istep_nil|constructor; lia]|].
    destruct p as [l|k]; [exists []; split; [apply istep_nil|constructor; lia]|].
    assert (Hsl := span_len_z s ltac:(unfold span_wf in Hs; lia)).
    exists [(k, AskUnits s)]. cbn [fst snd]. rewrite times_feed. split; [apply istep_one; cbn [wants]; lia|constructor; lia].
  - exists []. split; [apply istep_nil|constructor].
Qed.

(** ** Uses until an exception are determined *)
Scheme auntil_mind := Minimality for asked_until Sort Prop
  with aspans_until_mind := Minimality for asked_spans_until Sort Prop.
Combined Scheme auntil_mutind from auntil_mind, aspans_until_mind.

Lemma asked_not_until_both {L} f :
  (forall (ly : layout L) s l, asked f ly s l -> forall l' e, ~ asked_until f ly s l' e)
  /\ (forall (items : list (layout L)) j spans l, asked_spans f items j spans l -> forall l' e, ~ asked_spans_until f items j spans l' e).
Proof.
  apply asked_mutind.
  - intros l s Hs l' e H. inversion H; subst. lia.
  - intros x s l' e H. inversion H.
  - intros k s Hs l' e H. inversion H; subst. lia.
  - intros d k s spans Hp l' e H. inversion H; subst. congruence.
  - intros d s spans Hp l' e H. inversion H; subst; [congruence|contradiction].
  - intros d items s spans l Hne Hp _ IH l' e H. inversion H; subst; [congruence|]. assert (spans0 = spans) by congruence. subst. eapply IH. eassumption.
  - intros items j l' e H. inversion H.
  - intros items j s rest it l l1 Hit _ IHl _ IHr l' e H. inversion H; subst.
    + match goal with Hx : nth_error items _ = Some ?it2 |- _ => rewrite Hit in Hx; injection Hx as <- end. eapply IHl. eassumption.
    + eapply IHr. eassumption.
Qed.

Lemma auntil_fun_both {L} f :
  (forall (ly : layout L) s l e, asked_until f ly s l e -> forall l' e', asked_until f ly s l' e' -> l' = l /\ e' = e)
  /\ (forall (items : list (layout L)) j spans l e, asked_spans_until f items j spans l e -> forall l' e', asked_spans_until f items j spans l' e' -> l' = l /\ e' = e).
Proof.
  apply auntil_mutind.
  - intros d items s e Hp l' e' H. inversion H; subst; [split; congruence|congruence].
  - intros d k s e Hp l' e' H. inversion H; subst. split; congruence.
  - intros p s Hs l' e' H. inversion H; subst. split; reflexivity.
  - intros d items s spans l e Hne Hp _ IH l' e' H. inversion H; subst; [congruence|]. assert (spans0 = spans) by congruence. subst. apply IH. assumption.
  - intros items j s rest it l e Hit Hu IH l' e' H.
    inversion H; subst; match goal with Hx : nth_error items _ = Some ?it2 |- _ => rewrite Hit in Hx; injection Hx as <- end.
    + apply IH. assumption.
    + exfalso. eapply (proj1 (asked_not_until_both f)); eassumption.
  - intros items j s rest it l l1 e Hit Hl _ IH l' e' H.
    inversion H; subst; match goal with Hx : nth_error items _ = Some ?it2 |- _ => rewrite Hit in Hx; injection Hx as <- end.
    + exfalso. eapply (proj1 (asked_not_until_both f)); eassumption.
    + match goal with H1 : asked f it s ?la, H2 : asked_spans_until _ _ _ _ ?lb e' |- _ =>
        rewrite (proj1 (asked_fun_both f) _ _ _ Hl _ H1); destruct (IH _ _ H2) as [-> ->] end. split; reflexivity.
Qed.

Lemma asked_by_fun {L} (a : tb_args L) l l' : asked_by a l -> asked_by a l' -> l' = l.
Proof.
  intros H H'. destruct H as [No|org f uses Eo Ew Ef Hu|org f uses e Eo Ew Ef Hu]; destruct H' as [No'|org' f' uses' Eo' Ew' Ef' Hu'|org' f' uses' e' Eo' Ew' Ef' Hu'];
    try reflexivity; try (exfalso; eauto; fail);
    rewrite Eo in Eo'; injection Eo' as <-; rewrite Ef in Ef'; injection Ef' as <-.
  - exact (proj1 (asked_fun_both f) _ _ _ Hu _ Hu').
  - exfalso. exact (proj1 (asked_not_until_both f) _ _ _ Hu _ _ Hu').
  - exfalso. exact (proj1 (asked_not_until_both f) _ _ _ Hu' _ _ Hu).
  - exact (proj1 (proj1 (auntil_fun_both f) _ _ _ _ Hu _ _ Hu')).
Qed.


(** ** Attempts *)
Lemma leftover_it_cases {L} (a : tb_args L) fd :
  (leftover_it a fd = fd /\ (forall org f, top_organizer (a_layout a) = Ok org -> a_wt a <> WBad -> mk_frame (a_freq a) (a_start a) (a_end a) = Ok f -> False))
  \/ exists org f, top_organizer (a_layout a) = Ok org /\ a_wt a <> WBad /\ mk_frame (a_freq a) (a_start a) (a_end a) = Ok f
       /\ leftover_it a fd = fst (leave_it f org (whole_span f) fd).
Proof.
  unfold leftover_it. destruct (top_organizer (a_layout a)) as [org|e]; [|left; split; [reflexivity|discriminate]].
  destruct (mk_frame (a_freq a) (a_start a) (a_end a)) as [f|e].
  - assert (Hex : a_wt a = WBad \/ a_wt a <> WBad) by (destruct (a_wt a); (left; reflexivity) || (right; discriminate)).
    destruct Hex as [Ew|Ew]; [rewrite Ew; left; split; [reflexivity|intros; contradiction]|].
    right. exists org, f. repeat (split; [first [reflexivity|exact Ew]|]). destruct (a_wt a); first [reflexivity|contradiction].
  - left. split; [destruct (a_wt a); reflexivity|discriminate].
Qed.
Lemma build_it_timeline {L} (a : tb_args L) fd org f : top_organizer (a_layout a) = Ok org -> a_wt a <> WBad ->
  mk_frame (a_freq a) (a_start a) (a_end a) = Ok f ->
  build_it a fd = (do th <- mk_timeline_it f org (a_ref_end a) (a_default a) fd;
               do tl <- amend (fst th) false (a_amendments a);
               let s := mk_schedule tl (a_name a) (a_sel a) in Ok (mkTb tl s [(a_name a, s)] (a_wt a) (a_num a), snd th)).
Proof. intros Eo Ew Ef. unfold build_it. rewrite Eo. cbn [bind]. rewrite Ef. destruct (a_wt a); try reflexivity. contradiction. Qed.

Lemma C79_attempt_pf : forall (L : Type) (a : tb_args L) (fd : feeds L),
  exists asks, asked_by a asks /\ (forall l, asked_by a l -> l = asks)
    /\ (forall tb fd', build_it a fd = Ok (tb, fd') -> leftover_it a fd = fd' /\ asks_of a tb asks)
    /\ (forall k, 0 <= wanted k asks)
    /\ (forall k i, 0 <= i -> to_come (leftover_it a fd) k i = to_come fd k (wanted k asks + i))
    /\ forall org f l e, top_organizer (a_layout a) = Ok org -> a_wt a <> WBad -> mk_frame (a_freq a) (a_start a) (a_end a) = Ok f ->
         asked_until f org (whole_span f) l e -> build_it a fd = Err e.
Proof.
  intros L a fd. destruct (leftover_it_cases a fd) as [[El No]|(org & f & Eo & Ew & Ef & El)].
  - exists []. split; [apply by_nothing; exact No|]. split; [intros l Hl; eapply asked_by_fun; [apply by_nothing; exact No|exact Hl]|].
    split; [|split; [intros k; cbn; lia|split; [intros k i _; rewrite El; reflexivity|]]].
    + intros tb h' Hb. exfalso. unfold build_it in Hb. destruct (top_organizer (a_layout a)) as [org|e]; [|discriminate Hb]. cbn [bind] in Hb.
      destruct (mk_frame (a_freq a) (a_start a) (a_end a)) as [f|e]; [|destruct (a_wt a); discriminate Hb].
      apply (No org f eq_refl); [|reflexivity]. intros Ew. rewrite Ew in Hb. discriminate.
    + intros org f l e Eo Ew Ef. exfalso. eauto.
  - assert (Hw : fr_wf f) by (pose proof (mk_frame_inv _ _ _ _ Ef); unfold fr_wf; tauto).
    assert (Hs : span_wf f (whole_span f)) by (unfold span_wf, whole_span, fr_wf in *; cbn; lia).
    destruct (leave_told_it f org Hw _ fd Hs) as (uses & Hh & Hu).
    set (n := Z.to_nat (fr_len f)). set (st0 := mkSt (repeat (a_default a) n) (repeat true n) []).
    pose proof (organize_leave_it f org (whole_span f) (st0, fd)) as Ha. cbn [snd] in Ha.
    pose proof (build_it_timeline a fd org f Eo Ew Ef) as Hb. unfold mk_timeline_it in Hb. fold n in Hb. fold st0 in Hb.
    change (mkSpan 0 (fr_len f - 1) 0 0) with (whole_span f) in Hb. rewrite Hb. clear Hb.
    assert (Sp : asked_by a uses). { destruct (snd _) as [e|]; [eapply by_some|eapply by_all]; eassumption. }
    exists uses. split; [exact Sp|]. split; [intros l Hl; eapply asked_by_fun; eassumption|]. rewrite El.
    split; [|split; [apply Hh|split; [apply Hh|]]].
    + intros tb h' Hb. destruct (organize_it f org (whole_span f) (st0, fd)) as [sf|e]; cbn [bind agrees_it fst snd] in *; [|discriminate].
      rewrite Ha in Hu |- *. cbn [fst snd] in *. destruct (amend _ _ _) as [tl|e] eqn:Ea; cbn [bind] in Hb; [|discriminate]. injection Hb as <- <-.
      split; [reflexivity|]. exists org. cbn [fst snd tb_tl]. split; [exact Eo|].
      assert (Efr : tl_frame tl = f) by (unfold amend in Ea; destruct (locate_amendments _ _ _ _); cbn [bind] in Ea; [injection Ea as <-; reflexivity|discriminate]). rewrite Efr. exact Hu.
    + intros org' f' l e Eo' _ Ef' Hl. rewrite Eo in Eo'. injection Eo' as <-. rewrite Ef in Ef'. injection Ef' as <-.
      destruct (organize_it f org (whole_span f) (st0, fd)) as [sf|e']; cbn [bind agrees_it] in *.
      * rewrite Ha in Hu. cbn [snd] in Hu. exfalso. exact (proj1 (asked_not_until_both f) _ _ _ Hu _ _ Hl).
      * destruct Ha as [h' Ha]. rewrite Ha in Hu. cbn [snd] in Hu. f_equal.
        exact (eq_sym (proj2 (proj1 (auntil_fun_both f) _ _ _ _ Hu _ _ Hl))).
Qed.

Lemma C79_attempts_pf : forall (L : Type) (l : list (tb_args L)) (fd : feeds L),
  exists askss, Forall2 asked_by l askss
    /\ (forall k i, 0 <= i -> to_come (after_it l fd) k i = to_come fd k (wanted k (concat askss) + i))
    /\ forall n a asks tb fd' m k w, nth_error l n = Some a -> nth_error askss n = Some asks ->
         build_it a (after_it (firstn n l) fd) = Ok (tb, fd') -> a_amendments a = [] -> nth_error asks m = Some (k, w) ->
         exists c, portion fd k (wanted k (concat (firstn n askss)) + wanted k (firstn m asks)) (wants w) c /\ repeats (tb_tl tb) (a_default a) c w.
Proof.
  intros L l. induction l as [|a l IH]; intros fd.
  - exists []. split; [constructor|]. split; [reflexivity|]. intros n a asks tb fd' m k w H. destruct n; discriminate H.
  - destruct (C79_attempt_pf L a fd) as (asks & H1 & H2 & H3 & H4 & H5 & _). destruct (IH (leftover_it a fd)) as (askss & F & T & P).
    exists (asks :: askss). split; [constructor; assumption|]. split.
    + intros k i Hi. cbn [concat]. rewrite wanted_app. change (after_it (a :: l) fd) with (after_it l (leftover_it a fd)). rewrite (T k i Hi).
      assert (N : 0 <= wanted k (concat askss)).
      { clear - F. induction F as [|x y l askss H F IHF]; [cbn; lia|]. cbn [concat]. rewrite wanted_app.
        destruct (C79_attempt_pf L x []) as (asks' & _ & Hu & _ & N & _). rewrite <- (Hu y H) in N. specialize (N k). lia. }
      rewrite H5 by lia. f_equal. lia.
    + intros n a' asks' tb fd' m k w Hn Hk Hb Ham Hm. destruct n as [|n].
      * cbn [nth_error] in Hn, Hk. injection Hn as <-. injection Hk as <-. cbn [firstn concat wanted]. change (after_it (firstn 0 (a :: l)) fd) with fd in Hb.
        destruct (C61_uses_pf L a fd tb fd' Hb) as (asks1 & A1 & A2 & _ & _ & A5 & _). rewrite (A2 asks (proj2 (H3 tb fd' Hb))) in Hm |- *. rewrite Z.add_0_l. apply (A5 Ham m k w Hm).
      * cbn [nth_error] in Hn, Hk. change (after_it (firstn (S n) (a :: l)) fd) with (after_it (firstn n l) (leftover_it a fd)) in Hb.
        destruct (P n a' asks' tb fd' m k w Hn Hk Hb Ham Hm) as (c & (Lc & Pc) & Rc). exists c. split; [|exact Rc]. split; [exact Lc|].
        intros i Hi. rewrite (Pc i Hi). cbn [firstn concat]. rewrite wanted_app.
        assert (N : 0 <= wanted k (concat (firstn n askss))).
        { assert (F' : Forall2 asked_by (firstn n l) (firstn n askss)).
          { clear - F. revert n. induction F as [|x y l askss H F IHF]; intros [|n]; constructor; [assumption|apply IHF]. }
          clear - F'. induction F' as [|x y l0 askss0 H F IHF]; [cbn; lia|]. cbn [concat]. rewrite wanted_app.
          destruct (C79_attempt_pf L x []) as (asks' & _ & Hu & _ & N & _). rewrite <- (Hu y H) in N. specialize (N k). lia. }
        destruct (C61_uses_pf L a' _ tb fd' Hb) as (asks1 & A1 & A2 & _ & A4 & _).
        assert (Ea : asks' = asks1).
        { apply A2. destruct (C79_attempt_pf L a' (after_it (firstn n l) (leftover_it a fd))) as (asks2 & _ & B2 & B3 & _).
          assert (E : asks' = asks2). { apply B2. clear - F Hn Hk. revert n Hn Hk. induction F as [|x y l askss H F IHF]; intros [|n] Hn Hk; try discriminate; cbn [nth_error] in *; [congruence|]. exact (IHF n Hn Hk). }
          rewrite E. apply (B3 tb fd' Hb). }
        specialize (A4 m k). rewrite <- Ea in A4. rewrite H5 by lia. f_equal. lia.
Qed.
