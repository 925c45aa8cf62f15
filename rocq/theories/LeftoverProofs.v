(** Proofs of C12 for constructions that fail. *)
From Verif Require Import Base BaseProofs Civil Freq FreqProofs Frame FrameProofs Timeline TimelineProofs Board Spec BoardProofs SpecLookup LookupProofs SpecMisc MiscProofs SpecLayout PartProofs TreeProofs LayoutProofs SpecRemember RememberProofs Leftover SpecLeftover.
From Coq Require Import ZifyBool ZifyNat.
Ltac Zify.zify_post_hook ::= Z.div_mod_to_equations.

(** ** [leave] follows [organize] *)
Definition agrees {L} (r : res (org_state L)) (o : heap L * option err) : Prop :=
  match r with
  | Ok st' => o = (st_heap st', None)
  | Err e => exists h', o = (h', Some e)
  end.

Lemma cycle_agrees {L} f (all : list (layout L)) :
  (forall it, In it all -> forall s st, agrees (organize f it s st) (leave f it s (st_heap st))) ->
  forall spans cur st, (forall it, In it cur -> In it all) ->
  agrees (run_cycle (map (organize f) all) (map (organize f) cur) spans st)
         (leave_cycle (map (leave f) all) (map (leave f) cur) spans (st_heap st)).
Proof.
  intros H. induction spans as [|s spans IH]; intros cur st Hc; [reflexivity|].
  assert (Step : forall it cur', In it all -> (forall x, In x cur' -> In x all) ->
     agrees (do st' <- organize f it s st; run_cycle (map (organize f) all) (map (organize f) cur') spans st')
            (match leave f it s (st_heap st) with
             | (h', None) => leave_cycle (map (leave f) all) (map (leave f) cur') spans h'
             | raised => raised end)).
  { intros it cur' Hit Hcur'. specialize (H it Hit s st). destruct (organize f it s st) as [st1|e]; cbn [agrees bind] in *.
    - rewrite H. apply IH. exact Hcur'.
    - destruct H as [h' ->]. exists h'. reflexivity. }
  destruct cur as [|it cur]; cbn [map run_cycle leave_cycle].
  - destruct all as [|it all']; [reflexivity|].
    exact (Step it all' (or_introl eq_refl) (fun x Hx => or_intror Hx)).
  - apply Step; [apply Hc; left; reflexivity|]. intros x Hx. apply Hc. right. exact Hx.
Qed.

Lemma remembering_agrees {L} k spans : forall (st : org_state L), agrees (run_remembering k spans st) (leave_remembering k spans (st_heap st), None).
Proof.
  induction spans as [|s spans IH]; intros st; [reflexivity|]. cbn [run_remembering leave_remembering].
  destruct (heap_get (st_heap st) k) as [[|x l] cur] eqn:Eh; [reflexivity|].
  destruct (cyc_take_1 x l cur) as (y & t & r & Ec). rewrite Ec. cbn [apply_label bind snd].
  match goal with |- agrees (run_remembering k spans ?st1) _ => exact (IH st1) end.
Qed.

Lemma organize_leave {L} f (ly : layout L) : forall s st, agrees (organize f ly s st) (leave f ly s (st_heap st)).
Proof.
  induction ly as [d items IH|d k|p|x] using layout_ind2; intros s st; cbn [organize leave].
  - destruct (partition f d s) as [spans|e]; cbn [bind]; [|eexists; reflexivity].
    apply cycle_agrees; [|intros it Hit; exact Hit]. intros it Hit. rewrite Forall_forall in IH. exact (IH it Hit).
  - destruct (partition f d s) as [spans|e]; cbn [bind]; [|eexists; reflexivity]. apply remembering_agrees.
  - unfold apply_pattern. destruct (s_left s <? 0); [eexists; reflexivity|]. destruct p as [[|z l]|k]; [reflexivity|reflexivity|].
    destruct (heap_get (st_heap st) k) as [[|z l] cur]; [reflexivity|].
    destruct (skip_take (z :: l) cur (Z.to_nat (s_left s)) (span_len s)) as [t r]. reflexivity.
  - reflexivity.
Qed.

(** ** What is taken *)
Definition hstep {L} (h h' : heap L) (uses : list (nat * use)) : Prop :=
  (forall k, rlabels h' k = rlabels h k) /\ (forall k, 0 <= taken k uses)
  /\ forall k, rlabels h k <> [] -> forall i, 0 <= i -> upcoming h' k i = upcoming h k (taken k uses + i).

Lemma hstep_nil {L} (h : heap L) : hstep h h [].
Proof. split; [reflexivity|]. split; [intros k; cbn; lia|]. reflexivity. Qed.
Lemma hstep_app {L} (h h1 h2 : heap L) l1 l2 : hstep h h1 l1 -> hstep h1 h2 l2 -> hstep h h2 (l1 ++ l2).
Proof.
  intros (A1 & B1 & C1) (A2 & B2 & C2). split; [intros k; rewrite A2; apply A1|]. split.
  - intros k. rewrite taken_app. specialize (B1 k). specialize (B2 k). lia.
  - intros k Hk i Hi. rewrite C2; [|rewrite A1; exact Hk|exact Hi]. specialize (B2 k). rewrite C1 by (try assumption; lia). rewrite taken_app. f_equal. lia.
Qed.
Lemma taken_one k j w : taken j [(k, w)] = if (k =? j)%nat then takes w else 0.
Proof. cbn. destruct (k =? j)%nat; lia. Qed.
Lemma hstep_nobody {L} (h : heap L) k w : rlabels h k = [] -> 0 <= takes w -> hstep h h [(k, w)].
Proof.
  intros E Hw. split; [reflexivity|]. split; [intros j; rewrite taken_one; destruct (k =? j)%nat; lia|].
  intros j Hj i Hi. rewrite taken_one. destruct (k =? j)%nat eqn:Ek; [|reflexivity]. apply Nat.eqb_eq in Ek. subst j. contradiction.
Qed.
Lemma hstep_take {L} (h : heap L) k l cur n w : heap_get h k = (l, cur) -> l <> [] -> takes w = Z.of_nat n ->
  hstep h (heap_set h k (l, snd (cyc_take l cur n))) [(k, w)].
Proof.
  intros Eh Hl Hn. destruct (cyc_take l cur n) as [t r] eqn:Ec. cbn [snd]. destruct (cyc_take_upc l _ Hl _ _ _ Ec) as (_ & _ & T3).
  assert (Hr : rlabels h k = l) by (unfold rlabels; rewrite Eh; reflexivity).
  split; [intros j; apply heap_set_get; exact Hr|]. split; [intros j; rewrite taken_one; destruct (k =? j)%nat; lia|].
  intros j Hj i Hi. rewrite taken_one. destruct (k =? j)%nat eqn:Ek.
  - apply Nat.eqb_eq in Ek. subst j. rewrite (upcoming_upc _ k l r) by (apply heap_get_set_same; exact Hj).
    rewrite (upcoming_upc _ k l cur) by exact Eh. rewrite T3 by exact Hi. f_equal. lia.
  - apply Nat.eqb_neq in Ek. unfold upcoming. rewrite heap_get_set_other by congruence. reflexivity.
Qed.

Lemma remembering_hstep {L} k spans : forall (h : heap L), hstep h (leave_remembering k spans h) (map (fun s => (k, OnWhole s)) spans).
Proof.
  induction spans as [|s spans IH]; intros h; cbn [leave_remembering map]; [apply hstep_nil|].
  change ((k, OnWhole s) :: map (fun s => (k, OnWhole s)) spans) with ([(k, OnWhole s)] ++ map (fun s => (k, OnWhole s)) spans).
  destruct (heap_get h k) as [[|x l] cur] eqn:Eh.
  - assert (Hr : rlabels h k = []) by (unfold rlabels; rewrite Eh; reflexivity).
    apply (hstep_app h h h); [apply hstep_nobody; [exact Hr|cbn; lia]|].
    assert (E : leave_remembering k spans h = h) by (destruct spans; cbn [leave_remembering]; rewrite ?Eh; reflexivity).
    rewrite <- E at 2. apply IH.
  - eapply hstep_app; [|apply IH]. apply hstep_take; [exact Eh|discriminate|reflexivity].
Qed.

Definition told {L} f (ly : layout L) s (h : heap L) (o : heap L * option err) : Prop :=
  exists uses, hstep h (fst o) uses
    /\ match snd o with None => used f ly s uses | Some e => used_until f ly s uses e end.
Definition told_spans {L} f (items : list (layout L)) j spans (h : heap L) (o : heap L * option err) : Prop :=
  exists uses, hstep h (fst o) uses
    /\ match snd o with None => used_spans f items j spans uses | Some e => used_spans_until f items j spans uses e end.

Lemma leave_cycle_step {L} (all : list (span -> heap L -> heap L * option err)) r s spans h :
  all <> [] -> (r <= length all)%nat ->
  exists act r', nth_error all (r mod length all)%nat = Some act
    /\ (r' <= length all)%nat /\ (forall j, ((r' + j) mod length all = (r + S j) mod length all)%nat)
    /\ leave_cycle all (skipn r all) (s :: spans) h
       = match act s h with (h', None) => leave_cycle all (skipn r' all) spans h' | raised => raised end.
Proof.
  intros Hne Hr. cbn [leave_cycle].
  assert (Hn : (length all <> 0)%nat) by (destruct all; [contradiction|discriminate]).
  destruct (skipn r all) as [|act cur] eqn:E.
  - assert (Er : r = length all) by (pose proof (skipn_length r all) as Hk; rewrite E in Hk; cbn in Hk; lia). subst r.
    destruct all as [|act all'] eqn:Ea; [contradiction|]. rewrite <- Ea in *.
    exists act, 1%nat. rewrite Nat.mod_same by exact Hn. split; [rewrite Ea; reflexivity|]. split; [lia|]. split.
    + intros j. replace (length all + S j)%nat with ((1 + j) + 1 * length all)%nat by lia. rewrite Nat.mod_add by exact Hn. reflexivity.
    + replace (skipn 1 all) with all' by (rewrite Ea; reflexivity). reflexivity.
  - assert (Hr' : (r < length all)%nat) by (destruct (Nat.eq_dec r (length all)) as [->|]; [rewrite skipn_all in E; discriminate|lia]).
    assert (Hx : nth_error all r = Some act /\ cur = skipn (S r) all).
    { clear - E. revert r E. induction all as [|y l IH]; intros r E; [destruct r; discriminate|]. destruct r as [|r].
      - cbn in E. injection E as -> ->. split; reflexivity.
      - cbn [skipn] in E. apply IH in E. exact E. }
    destruct Hx as [Hx ->]. exists act, (S r). rewrite Nat.mod_small by lia. split; [exact Hx|]. split; [lia|]. split; [|reflexivity].
    intros j. f_equal. lia.
Qed.

Lemma cycle_told {L} f (items : list (layout L)) : items <> [] ->
  (forall it, In it items -> forall s h, span_wf f s -> told f it s h (leave f it s h)) ->
  forall spans, (forall s, In s spans -> span_wf f s) ->
  forall r j h, (r <= length items)%nat -> (forall i, ((r + i) mod length items = (j + i) mod length items)%nat) ->
  told_spans f items j spans h (leave_cycle (map (leave f) items) (skipn r (map (leave f) items)) spans h).
Proof.
  intros Hne Hall. assert (Hne' : map (leave f) items <> []) by (destruct items; [contradiction|discriminate]).
  assert (Hc : (length items <> 0)%nat) by (destruct items; [contradiction|discriminate]).
  induction spans as [|s spans IH]; intros Hsp r j h Hr Hm.
  - exists []. split; [apply hstep_nil|constructor].
  - destruct (leave_cycle_step (map (leave f) items) r s spans h Hne' ltac:(rewrite map_length; exact Hr)) as (act & r' & Hact & Hr' & Hm' & E).
    rewrite map_length in Hact, Hr', Hm'. rewrite E. clear E.
    assert (Hj : (r mod length items = j mod length items)%nat) by (specialize (Hm 0%nat); rewrite !Nat.add_0_r in Hm; exact Hm). rewrite Hj in Hact.
    destruct (nth_error items (j mod length items)%nat) as [it|] eqn:Ei.
    2:{ apply nth_error_None in Ei. pose proof (Nat.mod_upper_bound j _ Hc). lia. }
    rewrite (map_nth_error (leave f) _ _ Ei) in Hact. injection Hact as <-.
    destruct (Hall it (nth_error_In _ _ Ei) s h (Hsp s (or_introl eq_refl))) as (uses & Hh & Hu).
    destruct (leave f it s h) as [h1 [e|]]; cbn [fst snd] in *.
    + exists uses. split; [exact Hh|]. cbn [snd]. eapply until_here; eassumption.
    + destruct (IH (fun x Hx => Hsp x (or_intror Hx)) r' (S j) h1 Hr') as (uses' & Hh' & Hu').
      { intros i. rewrite Hm', (Hm (S i)). f_equal. lia. }
      exists (uses ++ uses'). split; [eapply hstep_app; eassumption|].
      destruct (leave_cycle _ _ _ _) as [h2 [e|]]; cbn [fst snd] in *; [eapply until_later; eassumption|eapply us_cons; eassumption].
Qed.

Lemma leave_told {L} f (ly : layout L) : fr_wf f -> forall s h, span_wf f s -> told f ly s h (leave f ly s h).
Proof.
  intros Hw. induction ly as [d items IH|d k|p|x] using layout_ind2; intros s h Hs; cbn [leave].
  - destruct (partition f d s) as [spans|e] eqn:Hp; [|exists []; split; [apply hstep_nil|constructor; exact Hp]].
    pose proof (partition_tiles _ _ _ _ Hw Hs Hp) as Ht. destruct items as [|i0 items0] eqn:Ei.
    + exists []. cbn [map]. replace (leave_cycle (L := L) [] [] spans h) with (h, @None err) by (destruct spans; reflexivity).
      split; [apply hstep_nil|eapply used_nothing; exact Hp].
    + rewrite <- Ei in *. assert (Hne : items <> []) by (rewrite Ei; discriminate). rewrite Forall_forall in IH.
      destruct (cycle_told f items Hne IH spans) with (r := 0%nat) (j := 0%nat) (h := h) as (uses & Hh & Hu);
        [intros x Hx; pose proof (tiles_In _ _ _ x Ht Hx); unfold span_wf in *; lia|lia|reflexivity|].
      cbn [skipn] in *. exists uses. split; [exact Hh|].
      destruct (leave_cycle _ _ _ _) as [h2 [e|]]; cbn [fst snd] in *; [eapply until_inside; eassumption|eapply used_org; eassumption].
  - destruct (partition f d s) as [spans|e] eqn:Hp; [|exists []; split; [apply hstep_nil|constructor; exact Hp]].
    exists (map (fun s => (k, OnWhole s)) spans). split; [apply remembering_hstep|constructor; exact Hp].
  - destruct (s_left s <? 0) eqn:El; [exists []; split; [apply hstep_nil|constructor; lia]|].
    destruct p as [l|k]; [exists []; split; [apply hstep_nil|constructor; lia]|].
    assert (Hsl := span_len_z s ltac:(unfold span_wf in Hs; lia)).
    exists [(k, OnUnits s)]. destruct (heap_get h k) as [l cur] eqn:Eh.
    assert (Hex : l = [] \/ l <> []) by (destruct l; [left; reflexivity|right; discriminate]). destruct Hex as [->|Hl].
    + split; [|constructor; lia]. cbn [fst]. apply hstep_nobody; [unfold rlabels; rewrite Eh; reflexivity|cbn; unfold span_wf in Hs; lia].
    + assert (E : (match l with [] => (h, @None err) | _ :: _ => (heap_set h k (l, snd (skip_take l cur (Z.to_nat (s_left s)) (span_len s))), None) end)
                  = (heap_set h k (l, snd (cyc_take l cur (Z.to_nat (s_left s) + span_len s))), None)).
      { unfold skip_take. destruct (cyc_take l cur (Z.to_nat (s_left s) + span_len s)). destruct l; [contradiction|reflexivity]. }
      rewrite E. split; [|constructor; lia]. cbn [fst]. apply hstep_take; [exact Eh|exact Hl|]. cbn [takes]. lia.
  - exists []. split; [apply hstep_nil|constructor].
Qed.

(** ** Uses until an exception are determined *)
Scheme until_mind := Minimality for used_until Sort Prop
  with spans_until_mind := Minimality for used_spans_until Sort Prop.
Combined Scheme until_mutind from until_mind, spans_until_mind.

Lemma used_not_until_both {L} f :
  (forall (ly : layout L) s l, used f ly s l -> forall l' e, ~ used_until f ly s l' e)
  /\ (forall (items : list (layout L)) j spans l, used_spans f items j spans l -> forall l' e, ~ used_spans_until f items j spans l' e).
Proof.
  apply used_mutind.
  - intros l s Hs l' e H. inversion H; subst. lia.
  - intros x s l' e H. inversion H.
  - intros k s Hs l' e H. inversion H; subst. lia.
  - intros d k s spans Hp l' e H. inversion H; subst. congruence.
  - intros d s spans Hp l' e H. inversion H; subst; [congruence|contradiction].
  - intros d items s spans l Hne Hp _ IH l' e H. inversion H; subst; [congruence|]. assert (spans0 = spans) by congruence. subst. eapply IH. eassumption.
  - intros items j l' e H. inversion H.
  - intros items j s rest it l l1 Hit _ IHl _ IHr l' e H. inversion H; subst.
    + match goal with Hx : nth_error items _ = Some ?it2 |- _ => rewrite Hit in Hx; injection Hx as <- end. eapply IHl. eassumption.
    + eapply IHr. eassumption.
Qed.

Lemma until_fun_both {L} f :
  (forall (ly : layout L) s l e, used_until f ly s l e -> forall l' e', used_until f ly s l' e' -> l' = l /\ e' = e)
  /\ (forall (items : list (layout L)) j spans l e, used_spans_until f items j spans l e -> forall l' e', used_spans_until f items j spans l' e' -> l' = l /\ e' = e).
Proof.
  apply until_mutind.
  - intros d items s e Hp l' e' H. inversion H; subst; [split; congruence|congruence].
  - intros d k s e Hp l' e' H. inversion H; subst. split; congruence.
  - intros p s Hs l' e' H. inversion H; subst. split; reflexivity.
  - intros d items s spans l e Hne Hp _ IH l' e' H. inversion H; subst; [congruence|]. assert (spans0 = spans) by congruence. subst. apply IH. assumption.
  - intros items j s rest it l e Hit Hu IH l' e' H.
    inversion H; subst; match goal with Hx : nth_error items _ = Some ?it2 |- _ => rewrite Hit in Hx; injection Hx as <- end.
    + apply IH. assumption.
    + exfalso. eapply (proj1 (used_not_until_both f)); eassumption.
  - intros items j s rest it l l1 e Hit Hl _ IH l' e' H.
    inversion H; subst; match goal with Hx : nth_error items _ = Some ?it2 |- _ => rewrite Hit in Hx; injection Hx as <- end.
    + exfalso. eapply (proj1 (used_not_until_both f)); eassumption.
    + match goal with H1 : used f it s ?la, H2 : used_spans_until _ _ _ _ ?lb e' |- _ =>
        rewrite (proj1 (used_fun_both f) _ _ _ Hl _ H1); destruct (IH _ _ H2) as [-> ->] end. split; reflexivity.
Qed.

Lemma spent_fun {L} (a : tb_args L) l l' : spent a l -> spent a l' -> l' = l.
Proof.
  intros H H'. destruct H as [No|org f uses Eo Ew Ef Hu|org f uses e Eo Ew Ef Hu]; destruct H' as [No'|org' f' uses' Eo' Ew' Ef' Hu'|org' f' uses' e' Eo' Ew' Ef' Hu'];
    try reflexivity; try (exfalso; eauto; fail);
    rewrite Eo in Eo'; injection Eo' as <-; rewrite Ef in Ef'; injection Ef' as <-.
  - exact (proj1 (used_fun_both f) _ _ _ Hu _ Hu').
  - exfalso. exact (proj1 (used_not_until_both f) _ _ _ Hu _ _ Hu').
  - exfalso. exact (proj1 (used_not_until_both f) _ _ _ Hu' _ _ Hu).
  - exact (proj1 (proj1 (until_fun_both f) _ _ _ _ Hu _ _ Hu')).
Qed.

(** ** Attempts *)
Lemma leftover_cases {L} (a : tb_args L) h :
  (leftover a h = h /\ (forall org f, top_organizer (a_layout a) = Ok org -> a_wt a <> WBad -> mk_frame (a_freq a) (a_start a) (a_end a) = Ok f -> False))
  \/ exists org f, top_organizer (a_layout a) = Ok org /\ a_wt a <> WBad /\ mk_frame (a_freq a) (a_start a) (a_end a) = Ok f
       /\ leftover a h = fst (leave f org (whole_span f) h).
Proof.
  unfold leftover. destruct (top_organizer (a_layout a)) as [org|e]; [|left; split; [reflexivity|discriminate]].
  destruct (mk_frame (a_freq a) (a_start a) (a_end a)) as [f|e].
  - assert (Hex : a_wt a = WBad \/ a_wt a <> WBad) by (destruct (a_wt a); (left; reflexivity) || (right; discriminate)).
    destruct Hex as [Ew|Ew]; [rewrite Ew; left; split; [reflexivity|intros; contradiction]|].
    right. exists org, f. repeat (split; [first [reflexivity|exact Ew]|]). destruct (a_wt a); first [reflexivity|contradiction].
  - left. split; [destruct (a_wt a); reflexivity|discriminate].
Qed.

Lemma build_timeline {L} (a : tb_args L) h org f : top_organizer (a_layout a) = Ok org -> a_wt a <> WBad ->
  mk_frame (a_freq a) (a_start a) (a_end a) = Ok f ->
  build a h = (do th <- mk_timeline f org (a_ref_end a) (a_default a) h;
               do tl <- amend (fst th) false (a_amendments a);
               let s := mk_schedule tl (a_name a) (a_sel a) in Ok (mkTb tl s [(a_name a, s)] (a_wt a) (a_num a), snd th)).
Proof. intros Eo Ew Ef. unfold build. rewrite Eo. cbn [bind]. rewrite Ef. destruct (a_wt a); try reflexivity. contradiction. Qed.

Lemma whole_wf f : fr_wf f -> span_wf f (whole_span f).
Proof. unfold span_wf, whole_span, fr_wf. cbn. lia. Qed.

Lemma C12_attempt_pf : forall (L : Type) (a : tb_args L) (h : heap L),
  exists uses, spent a uses /\ (forall l, spent a l -> l = uses)
    /\ (forall tb h', build a h = Ok (tb, h') -> leftover a h = h' /\ uses_of (a, tb) uses)
    /\ (forall k, rlabels (leftover a h) k = rlabels h k)
    /\ (forall k, rlabels h k <> [] -> forall i, 0 <= i -> upcoming (leftover a h) k i = upcoming h k (taken k uses + i))
    /\ forall org f l e, top_organizer (a_layout a) = Ok org -> a_wt a <> WBad -> mk_frame (a_freq a) (a_start a) (a_end a) = Ok f ->
         used_until f org (whole_span f) l e -> build a h = Err e.
Proof.
  intros L a h. destruct (leftover_cases a h) as [[El No]|(org & f & Eo & Ew & Ef & El)].
  - exists []. split; [apply spent_nothing; exact No|]. split; [intros l Hl; eapply spent_fun; [apply spent_nothing; exact No|exact Hl]|].
    split; [|split; [intros k; rewrite El; reflexivity|split; [intros k _ i _; rewrite El; reflexivity|]]].
    + intros tb h' Hb. exfalso. destruct (build_inv _ _ _ _ Hb) as (org & f & _ & Eo & Ef & _).
      apply (No org f Eo); [|exact Ef]. intros Ew. unfold build in Hb. rewrite Eo, Ew in Hb. discriminate.
    + intros org f l e Eo Ew Ef. exfalso. eauto.
  - assert (Hw : fr_wf f) by (pose proof (mk_frame_inv _ _ _ _ Ef); unfold fr_wf; tauto). pose proof (whole_wf f Hw) as Hs.
    destruct (leave_told f org Hw _ h Hs) as (uses & Hh & Hu).
    set (n := Z.to_nat (fr_len f)). set (st0 := mkSt (repeat (a_default a) n) (repeat true n) h).
    pose proof (organize_leave f org (whole_span f) st0) as Ha. change (st_heap st0) with h in Ha.
    pose proof (build_timeline a h org f Eo Ew Ef) as Hb. unfold mk_timeline in Hb. fold n in Hb. fold st0 in Hb.
    change (mkSpan 0 (fr_len f - 1) 0 0) with (whole_span f) in Hb. rewrite Hb. clear Hb.
    assert (Sp : spent a uses). { destruct (snd _) as [e|]; [eapply spent_some|eapply spent_all]; eassumption. }
    exists uses. split; [exact Sp|]. split; [intros l Hl; eapply spent_fun; eassumption|]. rewrite El.
    split; [|split; [apply Hh|split; [apply Hh|]]].
    + intros tb h' Hb. destruct (organize f org (whole_span f) st0) as [st|e]; cbn [bind agrees fst snd] in *; [|discriminate].
      rewrite Ha in Hu |- *. cbn [fst snd] in *. destruct (amend _ _ _) as [tl|e] eqn:Ea; cbn [bind] in Hb; [|discriminate]. injection Hb as <- <-.
      split; [reflexivity|]. exists org. cbn [fst snd tb_tl]. split; [exact Eo|].
      assert (Efr : tl_frame tl = f) by (unfold amend in Ea; destruct (locate_amendments _ _ _ _); cbn [bind] in Ea; [injection Ea as <-; reflexivity|discriminate]). rewrite Efr. exact Hu.
    + intros org' f' l e Eo' _ Ef' Hl. rewrite Eo in Eo'. injection Eo' as <-. rewrite Ef in Ef'. injection Ef' as <-.
      destruct (organize f org (whole_span f) st0) as [st|e']; cbn [bind agrees] in *.
      * rewrite Ha in Hu. cbn [snd] in Hu. exfalso. exact (proj1 (used_not_until_both f) _ _ _ Hu _ _ Hl).
      * destruct Ha as [h' Ha]. rewrite Ha in Hu. cbn [snd] in Hu. f_equal.
        exact (eq_sym (proj2 (proj1 (until_fun_both f) _ _ _ _ Hu _ _ Hl))).
Qed.

(** ** No use gives labels back *)
Definition sound (uses : list (nat * use)) : Prop := forall j w, In (j, w) uses -> 0 <= takes w /\ forall s, w = OnUnits s -> 0 <= s_left s.
Lemma sound_app l l' : sound l -> sound l' -> sound (l ++ l').
Proof. intros H H' j w Hin. apply in_app_or in Hin. destruct Hin; eauto. Qed.

Lemma used_sound {L} f : fr_wf f ->
  (forall (ly : layout L) s l, used f ly s l -> span_wf f s -> sound l)
  /\ (forall (items : list (layout L)) j spans l, used_spans f items j spans l -> (forall s, In s spans -> span_wf f s) -> sound l).
Proof.
  intros Hw. apply used_mutind.
  - intros l s _ _ j w [].
  - intros x s _ j w [].
  - intros k s Hs Hsw j w [E|[]]. injection E as <- <-. unfold span_wf in Hsw. split; [cbn; lia|]. intros s' E. injection E as <-. exact Hs.
  - intros d k s spans _ _ j w Hin. apply in_map_iff in Hin. destruct Hin as (s' & E & _). injection E as <- <-. split; [cbn; lia|discriminate].
  - intros d s spans _ _ j w [].
  - intros d items s spans l _ Hp _ IH Hs. apply IH. pose proof (partition_tiles _ _ _ _ Hw Hs Hp) as Ht.
    intros x Hx. pose proof (tiles_In _ _ _ x Ht Hx). unfold span_wf in *. lia.
  - intros items j _ i w [].
  - intros items j s rest it l l' _ _ IHl _ IHr Hsp. apply sound_app; [apply IHl, Hsp; left; reflexivity|].
    apply IHr. intros x Hx. apply Hsp. right. exact Hx.
Qed.
Lemma until_sound {L} f : fr_wf f ->
  (forall (ly : layout L) s l e, used_until f ly s l e -> span_wf f s -> sound l)
  /\ (forall (items : list (layout L)) j spans l e, used_spans_until f items j spans l e -> (forall s, In s spans -> span_wf f s) -> sound l).
Proof.
  intros Hw. apply until_mutind.
  - intros d items s e _ _ j w [].
  - intros d k s e _ _ j w [].
  - intros p s _ _ j w [].
  - intros d items s spans l e _ Hp _ IH Hs. apply IH. pose proof (partition_tiles _ _ _ _ Hw Hs Hp) as Ht.
    intros x Hx. pose proof (tiles_In _ _ _ x Ht Hx). unfold span_wf in *. lia.
  - intros items j s rest it l e _ _ IH Hsp. apply IH, Hsp. left. reflexivity.
  - intros items j s rest it l l' e _ Hl _ IH Hsp. apply sound_app; [eapply (proj1 (used_sound f Hw)); [exact Hl|apply Hsp; left; reflexivity]|].
    apply IH. intros x Hx. apply Hsp. right. exact Hx.
Qed.
Lemma spent_sound {L} (a : tb_args L) uses : spent a uses -> sound uses.
Proof.
  intros H. destruct H as [No|org f uses Eo Ew Ef Hu|org f uses e Eo Ew Ef Hu]; [intros j w []| |];
    assert (Hw : fr_wf f) by (pose proof (mk_frame_inv _ _ _ _ Ef); unfold fr_wf; tauto).
  - eapply (proj1 (used_sound f Hw)); [exact Hu|apply whole_wf; exact Hw].
  - eapply (proj1 (until_sound f Hw)); [exact Hu|apply whole_wf; exact Hw].
Qed.
Lemma sound_nonneg k uses : sound uses -> forall m, 0 <= taken k (firstn m uses).
Proof.
  induction uses as [|[j w] uses IH]; intros H m; destruct m; cbn [firstn taken]; try lia.
  specialize (IH (fun j w Hin => H j w (or_intror Hin)) m). destruct (H j w (or_introl eq_refl)) as [Hw _]. destruct (j =? k)%nat; lia.
Qed.
Lemma spent_nonneg {L} (a : tb_args L) uses k : spent a uses -> forall m, 0 <= taken k (firstn m uses).
Proof. intros H. apply sound_nonneg. eapply spent_sound. exact H. Qed.
Lemma spent_left {L} (a : tb_args L) uses k s : spent a uses -> In (k, OnUnits s) uses -> 0 <= s_left s.
Proof. intros H Hin. eapply (spent_sound a uses H); [exact Hin|reflexivity]. Qed.
Lemma attempts_nonneg {L} (l : list (tb_args L)) usess k : Forall2 spent l usess -> 0 <= taken k (concat usess).
Proof.
  induction 1 as [|a uses l usess Sp _ IH]; [cbn; lia|]. cbn [concat]. rewrite taken_app.
  pose proof (spent_nonneg a uses k Sp (length uses)) as H. rewrite firstn_all in H. lia.
Qed.
Lemma Forall2_firstn {A B} (P : A -> B -> Prop) l l' : Forall2 P l l' -> forall n, Forall2 P (firstn n l) (firstn n l').
Proof. induction 1; intros n; destruct n; cbn [firstn]; constructor; auto. Qed.
Lemma Forall2_nth {A B} (P : A -> B -> Prop) l l' : Forall2 P l l' -> forall n a b, nth_error l n = Some a -> nth_error l' n = Some b -> P a b.
Proof.
  induction 1; intros n a b Ha Hb; destruct n; cbn [nth_error] in *; try discriminate; [congruence|eauto].
Qed.

Lemma C12_attempts_pf : forall (L : Type) (l : list (tb_args L)) (h : heap L) k, rlabels h k <> [] ->
  exists usess, Forall2 spent l usess
    /\ (forall i, 0 <= i -> upcoming (after l h) k i = upcoming h k (taken k (concat usess) + i))
    /\ forall n a uses tb h' m w, nth_error l n = Some a -> nth_error usess n = Some uses ->
         build a (after (firstn n l) h) = Ok (tb, h') -> a_amendments a = [] -> nth_error uses m = Some (k, w) ->
         delivers (tb_tl tb) h k (taken k (concat (firstn n usess)) + taken k (firstn m uses)) w.
Proof.
  intros L l. induction l as [|a l IH]; intros h k Hk.
  - exists []. split; [constructor|]. split; [reflexivity|]. intros n a uses tb h' m w Hn. destruct n; discriminate.
  - destruct (C12_attempt_pf L a h) as (uses & Sp & _ & Hmade & Hrl & Hup & _).
    destruct (IH (leftover a h) k ltac:(rewrite Hrl; exact Hk)) as (usess & F & Hups & Hdel).
    pose proof (spent_nonneg a uses k Sp) as Hnn.
    exists (uses :: usess). split; [constructor; assumption|]. cbn [concat]. rewrite taken_app. split.
    + intros i Hi. change (after (a :: l) h) with (after l (leftover a h)). rewrite Hups by exact Hi.
      assert (0 <= taken k (concat usess)) by (apply (attempts_nonneg l); exact F).
      specialize (Hnn (length uses)). rewrite firstn_all in Hnn. rewrite Hup by (try exact Hk; lia). f_equal. lia.
    + intros n a' uses' tb h' m w Hn Hn' Hb Ham Hm. destruct n as [|n]; cbn [nth_error firstn] in Hn, Hn'.
      * injection Hn as <-. injection Hn' as <-. cbn [firstn concat taken]. change (after (firstn 0 (a :: l)) h) with h in Hb.
        destruct (Hmade _ _ Hb) as [_ Hu]. destruct (C12_one_pf _ _ _ _ _ Hb) as (uses0 & _ & Hun & Hone).
        rewrite <- (Hun uses Hu) in Hone. apply (Hone k Hk); assumption.
      * change (after (firstn (S n) (a :: l)) h) with (after (firstn n l) (leftover a h)) in Hb.
        specialize (Hdel n a' uses' tb h' m w Hn Hn' Hb Ham Hm). cbn [firstn concat]. rewrite taken_app.
        assert (N1 : 0 <= taken k uses) by (specialize (Hnn (length uses)); rewrite firstn_all in Hnn; exact Hnn).
        assert (Sp' : spent a' uses') by (eapply Forall2_nth; eassumption).
        assert (N2 : 0 <= taken k (firstn m uses')) by (apply (spent_nonneg a'); exact Sp').
        assert (N3 : 0 <= taken k (concat (firstn n usess))) by (apply (attempts_nonneg (firstn n l)); apply Forall2_firstn; exact F).
        destruct w as [s|s]; cbn [delivers] in *.
        -- assert (0 <= s_left s) by (eapply spent_left; [exact Sp'|eapply nth_error_In; exact Hm]).
           intros u Hu. destruct (Hdel u Hu) as (x & E & Hx). exists x. split; [|exact Hx]. rewrite <- E, Hup by (try exact Hk; lia). f_equal. lia.
        -- destruct Hdel as (x & E & Hx). exists x. split; [|exact Hx]. rewrite <- E, Hup by (try exact Hk; lia). f_equal. lia.
Qed.
