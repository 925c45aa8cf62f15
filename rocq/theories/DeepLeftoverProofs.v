(** Proofs of C81. *)
From Verif Require Import Base BaseProofs Civil Freq FreqProofs Frame FrameProofs Timeline TimelineProofs Board Spec BoardProofs SpecLookup LookupProofs SpecMisc MiscProofs SpecLayout PartProofs TreeProofs LayoutProofs SpecRemember Iterate SpecIterate IterateProofs Deep SpecDeep DeepProofs ItLeftover ItLeftoverProofs DeepLeftover SpecDeepLeftover.
From Coq Require Import ZifyBool ZifyNat.
Open Scope Z_scope.

(** ** [leave_deep] follows [organize_deep] *)
Definition agrees_deep {L} (r : res (org_state L * feeds (layout L))) (o : feeds (layout L) * option err) : Prop :=
  match r with
  | Ok sf => o = (snd sf, None)
  | Err e => exists fd', o = (fd', Some e)
  end.
Lemma cycle_agrees_deep {L} (g : layout L -> span -> org_state L * feeds (layout L) -> res (org_state L * feeds (layout L))) g' (all : list (layout L)) :
  (forall it s sf, agrees_deep (g it s sf) (g' it s (snd sf))) ->
  forall spans cur sf, agrees_deep (run_cycle (map g all) (map g cur) spans sf) (leave_cycle_it (map g' all) (map g' cur) spans (snd sf)).
Proof.
  intros H. induction spans as [|s spans IH]; intros cur st; [reflexivity|].
  assert (Step : forall it cur', agrees_deep (do st' <- g it s st; run_cycle (map g all) (map g cur') spans st')
            (match g' it s (snd st) with
             | (h', None) => leave_cycle_it (map g' all) (map g' cur') spans h'
             | raised => raised end)).
  { intros it cur'. specialize (H it s st). destruct (g it s st) as [st1|e]; cbn [agrees_deep bind] in *.
    - rewrite H. apply IH.
    - destruct H as [h' ->]. exists h'. reflexivity. }
  destruct cur as [|it cur]; cbn [map run_cycle leave_cycle_it]; [destruct all as [|it all']; [reflexivity|apply (Step it all')]|apply (Step it cur)].
Qed.
Lemma run_agrees_deep {L} (g : layout L -> span -> org_state L * feeds (layout L) -> res (org_state L * feeds (layout L))) g' k :
  (forall it s sf, agrees_deep (g it s sf) (g' it s (snd sf))) ->
  forall spans c st fd, agrees_deep (run_deep g k c spans st fd) (leave_run g' k c spans fd).
Proof.
  intros H. induction spans as [|s spans IH]; intros c st fd; [reflexivity|]. cbn [run_deep leave_run].
  destruct (cyc_next k c fd) as [[[x|] c'] fd1]; [|reflexivity]. specialize (H x s (st, fd1)). cbn [snd] in H.
  destruct (g x s (st, fd1)) as [[st1 fd2]|e]; cbn [agrees_deep bind fst snd] in *; [rewrite H; apply IH|destruct H as (h' & ->); exists h'; reflexivity].
Qed.
Lemma organize_leave_deep {L} obj f : forall n (ly : layout L) s sf, agrees_deep (organize_deep obj n f ly s sf) (leave_deep n f ly s (snd sf)).
Proof.
  assert (Leaf : forall n (ly : layout L) s sf, match ly with LPat _ | LLab _ => True | _ => False end -> agrees_deep (organize_deep obj n f ly s sf) (leave_deep n f ly s (snd sf))).
  { intros n [d items|d k|[l|k]|x] s sf Hl; try contradiction.
    - assert (E : organize_deep obj n f (LPat (PList l)) s sf = (do st <- apply_pattern (PList l) s (fst sf); Ok (st, snd sf))) by (destruct n; reflexivity). rewrite E.
      assert (E' : leave_deep n f (LPat (PList l)) s (snd sf) = if s_left s <? 0 then (snd sf, Some EOutOfBounds) else (snd sf, None)) by (destruct n; reflexivity). rewrite E'.
      unfold apply_pattern. destruct (s_left s <? 0); [eexists; reflexivity|]. destruct l; reflexivity.
    - assert (E : organize_deep obj n f (LPat (PRem k)) s sf = apply_deep obj k s (fst sf) (snd sf)) by (destruct n; reflexivity). rewrite E.
      assert (E' : leave_deep n f (LPat (PRem k)) s (snd sf) = if s_left s <? 0 then (snd sf, Some EOutOfBounds) else (snd (cyc_times k (Z.to_nat (s_left s) + span_len s) new_cyc (snd sf)), None)) by (destruct n; reflexivity). rewrite E'.
      unfold apply_deep. destruct (s_left s <? 0); [eexists; reflexivity|]. destruct (cyc_times k (Z.to_nat (s_left s) + span_len s) new_cyc (snd sf)) as [[l|] fd']; reflexivity.
    - destruct n; reflexivity. }
  induction n as [|n IH]; intros ly s sf; (destruct ly as [d items|d k|p|x]; [| |apply Leaf; exact I|apply Leaf; exact I]); cbn [organize_deep leave_deep].
  - eexists; reflexivity.
  - eexists; reflexivity.
  - destruct (partition f d s) as [spans|e]; cbn [bind]; [|eexists; reflexivity]. apply cycle_agrees_deep. exact IH.
  - destruct (partition f d s) as [spans|e]; cbn [bind]; [|eexists; reflexivity]. apply run_agrees_deep. exact IH.
Qed.

(** ** What is taken *)
Definition runs_so {L} f (fd : feeds (layout L)) ly (g : span -> feeds (layout L) -> feeds (layout L) * option err) : Prop :=
  forall s fd1 fd2 o n, span_wf f s -> now fd n fd1 -> g s fd1 = (fd2, o) -> o <> Some ERuntime ->
    exists n', runs f fd n ly s n' o /\ now fd n' fd2 /\ grows n n'.

Lemma each_runs {L} f (fd : feeds (layout L)) (items : list (layout L)) g :
  items <> [] -> (forall it, runs_so f fd it (g it)) ->
  forall spans, Forall (span_wf f) spans -> forall j r fd1 fd2 o n,
  (r <= length items)%nat -> (forall i, ((r + i) mod length items = (j + i) mod length items)%nat) ->
  now fd n fd1 -> leave_cycle_it (map g items) (skipn r (map g items)) spans fd1 = (fd2, o) -> o <> Some ERuntime ->
  exists n', runs_each f fd n items j spans n' o /\ now fd n' fd2 /\ grows n n'.
Proof.
  intros Hne Hso. assert (Hne' : map g items <> []) by (destruct items; [contradiction|discriminate]).
  assert (Hc : (length items <> 0)%nat) by (destruct items; [contradiction|discriminate]).
  induction spans as [|s spans IH]; intros HF j r fd1 fd2 o n Hr Hm Hn H Ho.
  - cbn [leave_cycle_it] in H. injection H as <- <-. exists n. split; [constructor|split; [exact Hn|intros k; lia]].
  - assert (Hs := Forall_inv HF). assert (HF' := Forall_inv_tail HF).
    destruct (leave_cycle_it_step (map g items) r s spans fd1 Hne' ltac:(rewrite map_length; exact Hr)) as (act & r' & Hact & Hr' & Hm' & E).
    rewrite map_length in Hact, Hr', Hm'. rewrite E in H. clear E.
    assert (Hj : (r mod length items = j mod length items)%nat) by (specialize (Hm 0%nat); rewrite !Nat.add_0_r in Hm; exact Hm). rewrite Hj in Hact.
    destruct (nth_error items (j mod length items)%nat) as [it|] eqn:Ei.
    2:{ apply nth_error_None in Ei. pose proof (Nat.mod_upper_bound j _ Hc). lia. }
    rewrite (map_nth_error g _ _ Ei) in Hact. injection Hact as <-.
    destruct (g it s fd1) as [fd3 [e|]] eqn:E.
    + injection H as <- <-. destruct (Hso it s fd1 fd3 (Some e) n Hs Hn E Ho) as (n1 & R & N & G). exists n1. split; [|split; assumption]. eapply reach_stop; eassumption.
    + destruct (Hso it s fd1 fd3 None n Hs Hn E ltac:(discriminate)) as (n1 & R & N & G).
      destruct (IH HF' (S j) r' fd3 fd2 o n1 Hr') as (n2 & R2 & N2 & G2); [|exact N|exact H|exact Ho|].
      { intros i. rewrite Hm', (Hm (S i)). f_equal. lia. }
      exists n2. split; [eapply reach_on; eassumption|]. split; [exact N2|exact (grows_trans _ _ _ G G2)].
Qed.

Lemma next_runs {L} f (fd : feeds (layout L)) k g : (forall it, runs_so f fd it (g it)) ->
  forall spans, Forall (span_wf f) spans -> forall c saved j fd1 fd2 o n,
  at_span fd n k c saved j -> now fd n fd1 -> leave_run g k c spans fd1 = (fd2, o) -> o <> Some ERuntime ->
  exists n', runs_next f fd n k saved j spans n' o /\ now fd n' fd2 /\ grows n n'.
Proof.
  intros Hso. induction spans as [|s spans IH]; intros HF c saved j fd1 fd2 o n Hc Hn H Ho.
  - cbn [leave_run] in H. injection H as <- <-. exists n. split; [constructor|split; [exact Hn|intros i; lia]].
  - assert (Hs := Forall_inv HF). assert (HF' := Forall_inv_tail HF). cbn [leave_run] in H.
    assert (Step : forall e c' saved' fd3 n0, grows n n0 -> now fd n0 fd3 -> at_span fd n0 k c' saved' (S j) ->
      match g e s fd3 with (fd4, None) => leave_run g k c' spans fd4 | raised => raised end = (fd2, o) ->
      (exists n' er, o = Some er /\ runs f fd n0 e s n' (Some er) /\ now fd n' fd2 /\ grows n n')
      \/ exists n1 n', runs f fd n0 e s n1 None /\ runs_next f fd n1 k saved' (S j) spans n' o /\ now fd n' fd2 /\ grows n n').
    { intros e c' saved' fd3 n0 G0 N0 Hc' H'. destruct (g e s fd3) as [fd4 [er|]] eqn:E.
      - injection H' as <- <-. destruct (Hso e s fd3 fd4 (Some er) n0 Hs N0 E Ho) as (n1 & R & N & G). left. exists n1, er. split; [reflexivity|]. split; [exact R|]. split; [exact N|exact (grows_trans _ _ _ G0 G)].
      - destruct (Hso e s fd3 fd4 None n0 Hs N0 E ltac:(discriminate)) as (n1 & R & N & G).
        assert (Hc1 : at_span fd n1 k c' saved' (S j)) by (apply (at_span_grows fd n0); [intros i; apply (N0 i)|exact G|exact Hc']).
        destruct (IH HF' c' saved' (S j) fd4 fd2 o n1 Hc1 N H' Ho) as (n2 & R2 & N2 & G2). right. exists n1, n2. split; [exact R|]. split; [exact R2|]. split; [exact N2|].
        exact (grows_trans _ _ _ G0 (grows_trans _ _ _ G G2)). }
    assert (Again : forall r, to_come fd k (n k) = None -> saved <> [] -> (r <= length saved)%nat ->
      (forall i, ((r + i) mod length saved = (j + i) mod length saved)%nat) ->
      exists e c', repeat_saved saved (skipn r saved) = (Some e, c') /\ at_span fd n k c' saved (S j) /\ nth_error saved (j mod length saved)%nat = Some e).
    { intros r Hend Hne Hr Hm. destruct (saved_pick saved r j Hne Hr Hm) as (e & r' & He & Hr' & Hm' & Er).
      exists e, (mkCyc saved (Some (skipn r' saved))). split; [exact Er|]. split; [|exact He]. right. split; [exact Hend|]. split; [exact Hne|].
      exists r'. split; [reflexivity|]. split; [exact Hr'|exact Hm']. }
    assert (Finish : forall e c', to_come fd k (n k) = None -> at_span fd n k c' saved (S j) -> nth_error saved (j mod length saved)%nat = Some e ->
      match g e s fd1 with (fd4, None) => leave_run g k c' spans fd4 | raised => raised end = (fd2, o) ->
      exists n', runs_next f fd n k saved j (s :: spans) n' o /\ now fd n' fd2 /\ grows n n').
    { intros e c' Hend Hc' He H'. destruct (Step e c' saved fd1 n (fun i => Z.le_refl _) Hn Hc' H') as [(n' & er & -> & R & N & G)|(n1 & n' & R & R2 & N & G)].
      - exists n'. split; [eapply rnext_again_stop; eassumption|split; assumption].
      - exists n'. split; [eapply rnext_again_on; eassumption|split; assumption]. }
    destruct Hc as [(-> & Ej)|(Hend & Hne & r & -> & Hr & Hm)]; unfold cyc_next in *; cbn [cy_rest cy_saved] in *.
    + destruct (feed_next fd1 k) as [[e|] fd3] eqn:E.
      * destruct (now_next _ _ _ _ _ _ Hn E) as [He Hn3].
        destruct (Step e (mkCyc (saved ++ [e]) None) (saved ++ [e]) fd3 (taken n k 1) (grows_taken n k 1 ltac:(lia)) Hn3) as [(n' & er & -> & R & N & G)|(n1 & n' & R & R2 & N & G)].
        { left. split; [reflexivity|]. rewrite app_length. cbn. lia. }
        { exact H. }
        { exists n'. split; [eapply rnext_take_stop; eassumption|split; assumption]. }
        { exists n'. split; [eapply rnext_take_on; eassumption|split; assumption]. }
      * destruct (now_ended _ _ _ _ _ Hn E) as [Hend ->]. destruct saved as [|x t] eqn:Es.
        { cbn [repeat_saved] in *. injection H as <- <-. exists n. split; [apply rnext_none; exact Hend|]. split; [exact Hn|intros i; lia]. }
        rewrite <- Es in *. assert (Hne : saved <> []) by (rewrite Es; discriminate).
        destruct (Again (length saved) Hend Hne (le_n _) ltac:(rewrite Ej; reflexivity)) as (e & c' & Er & Hc' & He).
        rewrite skipn_all in Er. rewrite Er in *. exact (Finish e c' Hend Hc' He H).
    + destruct (Again r Hend Hne Hr Hm) as (e & c' & Er & Hc' & He). rewrite Er in *. exact (Finish e c' Hend Hc' He H).
Qed.

Lemma all_run {L} f (fd : feeds (layout L)) : fr_wf f -> forall m ly, runs_so f fd ly (leave_deep m f ly).
Proof.
  intros Hw.
  assert (Leaf : forall m (ly : layout L), match ly with LPat _ | LLab _ => True | _ => False end -> runs_so f fd ly (leave_deep m f ly)).
  { intros m ly Hl s fd1 fd2 o n Hs Hn H Ho. destruct ly as [d items|d k|p|x]; try contradiction.
    - assert (E : leave_deep m f (LPat p) s fd1 = if s_left s <? 0 then (fd1, Some EOutOfBounds) else match p with PList _ => (fd1, None) | PRem k => (snd (cyc_times k (Z.to_nat (s_left s) + span_len s) new_cyc fd1), None) end) by (destruct m; reflexivity).
      rewrite E in H. clear E. destruct (s_left s <? 0) eqn:El.
      { injection H as <- <-. exists n. split; [constructor; lia|]. split; [exact Hn|intros k; lia]. }
      destruct p as [l|k]; [injection H as <- <-; exists n; split; [constructor; lia|]; split; [exact Hn|intros k; lia]|].
      rewrite times_feed in H. injection H as <- <-. destruct (pull k (Z.to_nat (s_left s) + span_len s) fd1) as [c fd3] eqn:Ep. cbn [snd].
      destruct (now_pull _ _ _ _ _ _ _ Hn Ep) as [_ N]. assert (Ew : Z.of_nat (Z.to_nat (s_left s) + span_len s) = wants (AskUnits s)).
      { unfold wants, span_len, span_wf in *. lia. }
      rewrite Ew in N. exists (taken n k (wants (AskUnits s))). split; [constructor; lia|]. split; [exact N|]. apply grows_taken. lia.
    - assert (E : leave_deep m f (LLab x) s fd1 = (fd1, None)) by (destruct m; reflexivity). rewrite E in H. injection H as <- <-.
      exists n. split; [constructor|]. split; [exact Hn|intros k; lia]. }
  induction m as [|m IH]; intros ly; (destruct ly as [d items|d k|p|x]; [| |apply Leaf; exact I|apply Leaf; exact I]); intros s fd1 fd2 o n Hs Hn H Ho; cbn [leave_deep] in H;
    [injection H as <- <-; contradiction (Ho eq_refl)|injection H as <- <-; contradiction (Ho eq_refl)| |];
    (destruct (partition f d s) as [spans|e] eqn:Hp;
      [|injection H as <- <-; exists n; split; [constructor; exact Hp|]; split; [exact Hn|intros i; lia]]);
    pose proof (spans_wf _ _ _ _ Hw Hs Hp) as HF.
  - destruct items as [|i0 items0] eqn:Ei.
    + assert (E : leave_cycle_it (F:=feeds (layout L)) [] [] spans fd1 = (fd1, None)) by (destruct spans; reflexivity). cbn [map] in H. rewrite E in H. injection H as <- <-.
      exists n. split; [econstructor; exact Hp|]. split; [exact Hn|intros i; lia].
    + rewrite <- Ei in *. assert (Hne : items <> []) by (rewrite Ei; discriminate).
      destruct (each_runs f fd items (leave_deep m f) Hne IH spans HF 0 0 fd1 fd2 o n ltac:(lia) (fun i => eq_refl) Hn H Ho) as (n' & R & N & G).
      exists n'. split; [eapply runs_org; eassumption|split; assumption].
  - destruct (next_runs f fd k (leave_deep m f) IH spans HF new_cyc [] 0 fd1 fd2 o n ltac:(left; split; reflexivity) Hn H Ho) as (n' & R & N & G).
    exists n'. split; [eapply runs_iterator; eassumption|split; assumption].
Qed.

(** ** It is determined *)
Scheme runs_mut := Minimality for runs Sort Prop
with reach_mut := Minimality for runs_each Sort Prop
with rnext_mut := Minimality for runs_next Sort Prop.

Lemma runs_one {L} f (fd : feeds (layout L)) n ly s n1 o1 : runs f fd n ly s n1 o1 -> forall n2 o2, runs f fd n ly s n2 o2 -> n2 = n1 /\ o2 = o1.
Proof.
  intros H. refine (runs_mut L f fd (fun n ly s n1 o1 => forall n2 o2, runs f fd n ly s n2 o2 -> n2 = n1 /\ o2 = o1)
    (fun n items j spans n1 o1 => forall n2 o2, runs_each f fd n items j spans n2 o2 -> n2 = n1 /\ o2 = o1)
    (fun n k saved j spans n1 o1 => forall n2 o2, runs_next f fd n k saved j spans n2 o2 -> n2 = n1 /\ o2 = o1) _ _ _ _ _ _ _ _ _ _ _ _ _ _ _ _ _ _ n ly s n1 o1 H); clear.
  - intros n x s n2 o2 H. inversion H; subst. auto.
  - intros n l s Hl n2 o2 H. inversion H; subst; [auto|lia].
  - intros n k s Hl n2 o2 H. inversion H; subst; [auto|lia].
  - intros n p s Hl n2 o2 H. inversion H; subst; try lia. auto.
  - intros n d items s e Hp n2 o2 H. inversion H; subst; try congruence. split; congruence.
  - intros n d k s e Hp n2 o2 H. inversion H; subst; try congruence. split; congruence.
  - intros n d s spans Hp n2 o2 H. inversion H; subst; try congruence; auto; contradiction.
  - intros n d items spans s n' o Hne Hp _ IH n2 o2 H. inversion H; subst; try congruence; try contradiction. assert (spans0 = spans) by congruence. subst. apply IH. assumption.
  - intros n d k spans s n' o Hp _ IH n2 o2 H. inversion H; subst; try congruence. assert (spans0 = spans) by congruence. subst. apply IH. assumption.
  - intros n items j n2 o2 H. inversion H; subst. auto.
  - intros n items j s rest it n' e Hit _ IH n2 o2 H. inversion H; subst; match goal with Hx : nth_error items _ = Some ?x |- _ => rewrite Hit in Hx; injection Hx as <- end.
    + apply IH. assumption.
    + match goal with Hx : runs f fd n it s _ None |- _ => destruct (IH _ _ Hx) as (_ & F); discriminate F end.
  - intros n items j s rest it n1 n' o Hit _ IH _ IH2 n2 o2 H. inversion H; subst; match goal with Hx : nth_error items _ = Some ?x |- _ => rewrite Hit in Hx; injection Hx as <- end.
    + match goal with Hx : runs f fd n it s _ (Some _) |- _ => destruct (IH _ _ Hx) as (_ & F); discriminate F end.
    + match goal with Hx : runs f fd n it s _ None |- _ => destruct (IH _ _ Hx) as (-> & _) end. apply IH2. assumption.
  - intros n k saved j n2 o2 H. inversion H; subst. auto.
  - intros n k j s rest He n2 o2 H. inversion H; subst; try congruence; [auto| |];
      match goal with Hx : nth_error [] _ = Some _ |- _ => destruct (j mod length (@nil (layout L)))%nat; discriminate Hx end.
  - intros n k saved j s rest x n' e Hx _ IH n2 o2 H. inversion H; subst; try congruence; match goal with Hy : to_come fd k (n k) = Some ?y |- _ => rewrite Hx in Hy; injection Hy as <- end.
    + apply IH. assumption.
    + match goal with Hy : runs f fd _ x s _ None |- _ => destruct (IH _ _ Hy) as (_ & F); discriminate F end.
  - intros n k saved j s rest x n1 n' o Hx _ IH _ IH2 n2 o2 H. inversion H; subst; try congruence; match goal with Hy : to_come fd k (n k) = Some ?y |- _ => rewrite Hx in Hy; injection Hy as <- end.
    + match goal with Hy : runs f fd _ x s _ (Some _) |- _ => destruct (IH _ _ Hy) as (_ & F); discriminate F end.
    + match goal with Hy : runs f fd _ x s _ None |- _ => destruct (IH _ _ Hy) as (-> & _) end. apply IH2. assumption.
  - intros n k saved j s rest x n' e Hend Hx _ IH n2 o2 H. inversion H; subst; try congruence.
    + destruct (j mod length (@nil (layout L)))%nat; discriminate Hx.
    + match goal with Hy : nth_error saved _ = Some ?y |- _ => rewrite Hx in Hy; injection Hy as <- end. apply IH. assumption.
    + match goal with Hy : nth_error saved _ = Some ?y |- _ => rewrite Hx in Hy; injection Hy as <- end.
      match goal with Hy : runs f fd _ x s _ None |- _ => destruct (IH _ _ Hy) as (_ & F); discriminate F end.
  - intros n k saved j s rest x n1 n' o Hend Hx _ IH _ IH2 n2 o2 H. inversion H; subst; try congruence.
    + destruct (j mod length (@nil (layout L)))%nat; discriminate Hx.
    + match goal with Hy : nth_error saved _ = Some ?y |- _ => rewrite Hx in Hy; injection Hy as <- end.
      match goal with Hy : runs f fd _ x s _ (Some _) |- _ => destruct (IH _ _ Hy) as (_ & F); discriminate F end.
    + match goal with Hy : nth_error saved _ = Some ?y |- _ => rewrite Hx in Hy; injection Hy as <- end.
      match goal with Hy : runs f fd _ x s _ None |- _ => destruct (IH _ _ Hy) as (-> & _) end. apply IH2. assumption.
Qed.

(** ** Enough depth *)
Lemma take_next {L} (fd : feeds (layout L)) n k c saved j x fd1 : now fd n fd1 -> at_span fd n k c saved j -> to_come fd k (n k) = Some x ->
  exists fd3 c', cyc_next k c fd1 = (Some x, c', fd3) /\ now fd (taken n k 1) fd3 /\ at_span fd (taken n k 1) k c' (saved ++ [x]) (S j).
Proof.
  intros Hn [(-> & Ej)|(F & _)] Hx; [|congruence]. unfold cyc_next. cbn [cy_rest cy_saved]. destruct (feed_next fd1 k) as [[e|] fd3] eqn:E.
  - destruct (now_next _ _ _ _ _ _ Hn E) as [He N]. assert (e = x) by congruence. subst e. exists fd3, (mkCyc (saved ++ [x]) None). split; [reflexivity|]. split; [exact N|].
    left. split; [reflexivity|]. rewrite app_length. cbn. lia.
  - destruct (now_ended _ _ _ _ _ Hn E) as [F _]. congruence.
Qed.
Lemma again_next {L} (fd : feeds (layout L)) n k c saved j x fd1 : now fd n fd1 -> at_span fd n k c saved j -> to_come fd k (n k) = None ->
  nth_error saved (j mod length saved)%nat = Some x ->
  exists c', cyc_next k c fd1 = (Some x, c', fd1) /\ at_span fd n k c' saved (S j).
Proof.
  intros Hn Hc Hend Hx. assert (Hne : saved <> []) by (intros ->; destruct (j mod length (@nil (layout L)))%nat; discriminate Hx).
  assert (G : forall r, (r <= length saved)%nat -> (forall i, ((r + i) mod length saved = (j + i) mod length saved)%nat) ->
    exists c', repeat_saved saved (skipn r saved) = (Some x, c') /\ at_span fd n k c' saved (S j)).
  { intros r Hr Hm. destruct (saved_pick saved r j Hne Hr Hm) as (e & r' & He & Hr' & Hm' & Er). assert (e = x) by congruence. subst e.
    eexists. split; [exact Er|]. right. split; [exact Hend|]. split; [exact Hne|]. exists r'. split; [reflexivity|]. split; [exact Hr'|exact Hm']. }
  destruct Hc as [(-> & Ej)|(_ & _ & r & -> & Hr & Hm)]; unfold cyc_next; cbn [cy_rest cy_saved].
  - destruct (feed_next fd1 k) as [[e|] fd3] eqn:E; [destruct (now_next _ _ _ _ _ _ Hn E); congruence|]. destruct (now_ended _ _ _ _ _ Hn E) as [_ ->].
    destruct (G (length saved) (le_n _) ltac:(rewrite Ej; reflexivity)) as (c' & Er & Hc'). rewrite skipn_all in Er. exists c'. split; [|exact Hc'].
    destruct saved; [contradiction|]. rewrite Er. reflexivity.
  - destruct (G r Hr Hm) as (c' & Er & Hc'). exists c'. split; [|exact Hc']. rewrite Er. reflexivity.
Qed.
Definition does {L} (fd : feeds (layout L)) (n n' : nat -> Z) (o : option err) (x : feeds (layout L) * option err) : Prop :=
  exists fd2, x = (fd2, o) /\ now fd n' fd2 /\ grows n n'.
Lemma runs_enough {L} f (fd : feeds (layout L)) : fr_wf f -> forall n ly s n' o, runs f fd n ly s n' o ->
  span_wf f s -> exists N, forall M, (N <= M)%nat -> forall fd1, now fd n fd1 -> does fd n n' o (leave_deep M f ly s fd1).
Proof.
  intros Hw n ly s n' o H.
  refine (runs_mut L f fd (fun n ly s n' o => span_wf f s -> exists N, forall M, (N <= M)%nat -> forall fd1, now fd n fd1 -> does fd n n' o (leave_deep M f ly s fd1))
    (fun n items j spans n' o => items <> [] -> Forall (span_wf f) spans -> exists N, forall M, (N <= M)%nat -> forall fd1 r, now fd n fd1 ->
       (r <= length items)%nat -> (forall i, ((r + i) mod length items = (j + i) mod length items)%nat) ->
       does fd n n' o (leave_cycle_it (map (leave_deep M f) items) (skipn r (map (leave_deep M f) items)) spans fd1))
    (fun n k saved j spans n' o => Forall (span_wf f) spans -> exists N, forall M, (N <= M)%nat -> forall fd1 c, now fd n fd1 ->
       at_span fd n k c saved j -> does fd n n' o (leave_run (leave_deep M f) k c spans fd1)) _ _ _ _ _ _ _ _ _ _ _ _ _ _ _ _ _ _ n ly s n' o H); clear - Hw.
  - intros n x s _. exists 0%nat. intros M _ fd1 Hn. exists fd1. split; [destruct M; reflexivity|]. split; [exact Hn|intros k; lia].
  - intros n l s Hl _. exists 0%nat. intros M _ fd1 Hn. exists fd1. split; [|split; [exact Hn|intros k; lia]].
    assert (E : leave_deep M f (LPat (PList l)) s fd1 = if s_left s <? 0 then (fd1, Some EOutOfBounds) else (fd1, None)) by (destruct M; reflexivity).
    rewrite E. destruct (s_left s <? 0) eqn:El; [lia|reflexivity].
  - intros n k s Hl Hs. exists 0%nat. intros M _ fd1 Hn.
    destruct (leave_deep M f (LPat (PRem k)) s fd1) as [fd2 o] eqn:E.
    assert (E' : leave_deep M f (LPat (PRem k)) s fd1 = if s_left s <? 0 then (fd1, Some EOutOfBounds) else (snd (cyc_times k (Z.to_nat (s_left s) + span_len s) new_cyc fd1), None)) by (destruct M; reflexivity).
    assert (Ho : o = None). { rewrite E' in E. destruct (s_left s <? 0) eqn:El; [lia|congruence]. } subst o.
    destruct (all_run f fd Hw M _ s fd1 fd2 None n Hs Hn E ltac:(discriminate)) as (n1 & R & N & G). destruct (runs_one _ _ _ _ _ _ _ R _ _ (runs_pattern f fd n k s Hl)) as (-> & _).
    exists fd2. split; [reflexivity|split; assumption].
  - intros n p s Hl _. exists 0%nat. intros M _ fd1 Hn. exists fd1. split; [|split; [exact Hn|intros k; lia]].
    assert (E : exists x, leave_deep M f (LPat p) s fd1 = if s_left s <? 0 then (fd1, Some EOutOfBounds) else x) by (eexists; destruct M; reflexivity).
    destruct E as (x & ->). destruct (s_left s <? 0) eqn:El; [reflexivity|lia].
  - intros n d items s e Hp _. exists 1%nat. intros [|M] HM fd1 Hn; [lia|]. exists fd1. split; [cbn [leave_deep]; rewrite Hp; reflexivity|]. split; [exact Hn|intros k; lia].
  - intros n d k s e Hp _. exists 1%nat. intros [|M] HM fd1 Hn; [lia|]. exists fd1. split; [cbn [leave_deep]; rewrite Hp; reflexivity|]. split; [exact Hn|intros i; lia].
  - intros n d s spans Hp _. exists 1%nat. intros [|M] HM fd1 Hn; [lia|]. exists fd1. split; [cbn [leave_deep map]; rewrite Hp; destruct spans; reflexivity|]. split; [exact Hn|intros i; lia].
  - intros n d items spans s n' o Hne Hp _ IH Hs. destruct (IH Hne (spans_wf _ _ _ _ Hw Hs Hp)) as [N HN]. exists (S N). intros [|M] HM fd1 Hn; [lia|].
    cbn [leave_deep]. rewrite Hp. apply (HN M ltac:(lia) fd1 0%nat Hn); [lia|reflexivity].
  - intros n d k spans s n' o Hp _ IH Hs. destruct (IH (spans_wf _ _ _ _ Hw Hs Hp)) as [N HN]. exists (S N). intros [|M] HM fd1 Hn; [lia|].
    cbn [leave_deep]. rewrite Hp. apply (HN M ltac:(lia) fd1 new_cyc Hn). left. split; reflexivity.
  - intros n items j _ _. exists 0%nat. intros M _ fd1 r Hn _ _. exists fd1. split; [reflexivity|]. split; [exact Hn|intros i; lia].
  - intros n items j s rest it n' e Hit _ IH Hne HF. destruct (IH (Forall_inv HF)) as [N HN]. exists N. intros M HM fd1 r Hn Hr Hm.
    destruct (leave_cycle_it_step (map (leave_deep M f) items) r s rest fd1) as (act & r' & Hact & Hr' & Hm' & E); [destruct items; [contradiction|discriminate]|rewrite map_length; exact Hr|].
    rewrite E. clear E. rewrite map_length in Hact. pose proof (Hm 0%nat) as Hj. rewrite !Nat.add_0_r in Hj. rewrite Hj, (map_nth_error _ _ _ Hit) in Hact. injection Hact as <-.
    destruct (HN M HM fd1 Hn) as (fd2 & -> & D). exists fd2. split; [reflexivity|exact D].
  - intros n items j s rest it n1 n' o Hit _ IH _ IH2 Hne HF. destruct (IH (Forall_inv HF)) as [N HN]. destruct (IH2 Hne (Forall_inv_tail HF)) as [N2 HN2]. exists (Nat.max N N2). intros M HM fd1 r Hn Hr Hm.
    destruct (leave_cycle_it_step (map (leave_deep M f) items) r s rest fd1) as (act & r' & Hact & Hr' & Hm' & E); [destruct items; [contradiction|discriminate]|rewrite map_length; exact Hr|].
    rewrite E. clear E. rewrite map_length in Hact, Hr', Hm'. pose proof (Hm 0%nat) as Hj. rewrite !Nat.add_0_r in Hj. rewrite Hj, (map_nth_error _ _ _ Hit) in Hact. injection Hact as <-.
    destruct (HN M ltac:(lia) fd1 Hn) as (fd2 & -> & N1 & G1).
    destruct (HN2 M ltac:(lia) fd2 r' N1 Hr') as (fd3 & E3 & N3 & G3).
    { intros i. rewrite Hm', (Hm (S i)). f_equal. lia. }
    exists fd3. split; [exact E3|]. split; [exact N3|exact (grows_trans _ _ _ G1 G3)].
  - intros n k saved j _. exists 0%nat. intros M _ fd1 c Hn _. exists fd1. split; [reflexivity|]. split; [exact Hn|intros i; lia].
  - intros n k j s rest Hend _. exists 0%nat. intros M _ fd1 c Hn Hc. destruct Hc as [(-> & _)|(_ & F & _)]; [|contradiction]. exists fd1. split; [|split; [exact Hn|intros i; lia]].
    cbn [leave_run]. unfold cyc_next. cbn [cy_rest cy_saved]. destruct (feed_next fd1 k) as [[e|] fd3] eqn:E.
    + destruct (now_next _ _ _ _ _ _ Hn E) as [He _]. congruence.
    + destruct (now_ended _ _ _ _ _ Hn E) as [_ ->]. reflexivity.
  - intros n k saved j s rest x n' e Hx _ IH HF. destruct (IH (Forall_inv HF)) as [N HN]. exists N. intros M HM fd1 c Hn Hc.
    destruct (take_next fd n k c saved j x fd1 Hn Hc Hx) as (fd3 & c' & Ec & N3 & _). cbn [leave_run]. rewrite Ec.
    destruct (HN M HM fd3 N3) as (fd2 & -> & D1 & D2). exists fd2. split; [reflexivity|]. split; [exact D1|]. exact (grows_trans _ _ _ (grows_taken n k 1 ltac:(lia)) D2).
  - intros n k saved j s rest x n1 n' o Hx _ IH _ IH2 HF. destruct (IH (Forall_inv HF)) as [N HN]. destruct (IH2 (Forall_inv_tail HF)) as [N2 HN2]. exists (Nat.max N N2). intros M HM fd1 c Hn Hc.
    destruct (take_next fd n k c saved j x fd1 Hn Hc Hx) as (fd3 & c' & Ec & N3 & Hc3). cbn [leave_run]. rewrite Ec.
    destruct (HN M ltac:(lia) fd3 N3) as (fd4 & -> & N4 & G4).
    destruct (HN2 M ltac:(lia) fd4 c' N4) as (fd5 & E5 & N5 & G5).
    { apply (at_span_grows fd (taken n k 1)); [intros i; apply (N3 i)|exact G4|exact Hc3]. }
    exists fd5. split; [exact E5|]. split; [exact N5|]. exact (grows_trans _ _ _ (grows_taken n k 1 ltac:(lia)) (grows_trans _ _ _ G4 G5)).
  - intros n k saved j s rest x n' e Hend Hx _ IH HF. destruct (IH (Forall_inv HF)) as [N HN]. exists N. intros M HM fd1 c Hn Hc.
    destruct (again_next fd n k c saved j x fd1 Hn Hc Hend Hx) as (c' & Ec & _). cbn [leave_run]. rewrite Ec.
    destruct (HN M HM fd1 Hn) as (fd2 & -> & D). exists fd2. split; [reflexivity|exact D].
  - intros n k saved j s rest x n1 n' o Hend Hx _ IH _ IH2 HF. destruct (IH (Forall_inv HF)) as [N HN]. destruct (IH2 (Forall_inv_tail HF)) as [N2 HN2]. exists (Nat.max N N2). intros M HM fd1 c Hn Hc.
    destruct (again_next fd n k c saved j x fd1 Hn Hc Hend Hx) as (c' & Ec & Hc'). cbn [leave_run]. rewrite Ec.
    destruct (HN M ltac:(lia) fd1 Hn) as (fd4 & -> & N4 & G4).
    destruct (HN2 M ltac:(lia) fd4 c' N4) as (fd5 & E5 & N5 & G5).
    { apply (at_span_grows fd n); [intros i; apply (Hn i)|exact G4|exact Hc']. }
    exists fd5. split; [exact E5|]. split; [exact N5|]. exact (grows_trans _ _ _ G4 G5).
Qed.

(** ** Attempts *)
Lemma whole_wf' f : fr_wf f -> span_wf f (mkSpan 0 (fr_len f - 1) 0 0).
Proof. unfold fr_wf, span_wf. cbn. lia. Qed.
Lemma frame_wf' a1 a2 a3 f : mk_frame a1 a2 a3 = Ok f -> fr_wf f.
Proof. intros E. exact (proj1 (proj2 (proj2 (mk_frame_inv _ _ _ _ E)))). Qed.

(** Either the timeline is not begun, or the outcome is that of [leave_deep]. *)
Lemma leftover_cases {L} obj n (a : tb_args L) (fd : feeds (layout L)) :
  ((forall org f, top_organizer (a_layout a) = Ok org -> a_wt a <> WBad -> mk_frame (a_freq a) (a_start a) (a_end a) = Ok f -> False)
   /\ leftover_deep n a fd = fd /\ exists e, build_deep obj n a fd = Err e)
  \/ exists org f o, top_organizer (a_layout a) = Ok org /\ a_wt a <> WBad /\ mk_frame (a_freq a) (a_start a) (a_end a) = Ok f
      /\ leave_deep n f org (whole_span f) fd = (leftover_deep n a fd, o)
      /\ match o with
         | Some e => build_deep obj n a fd = Err e
         | None => forall tb fd', build_deep obj n a fd = Ok (tb, fd') -> leftover_deep n a fd = fd'
         end.
Proof.
  unfold leftover_deep, build_deep. destruct (top_organizer (a_layout a)) as [org|e] eqn:Eo; cbn [bind].
  2:{ left. split; [intros; congruence|]. split; [reflexivity|eexists; reflexivity]. }
  destruct (a_wt a) eqn:Ew.
  3:{ left. split; [intros; congruence|]. split; [reflexivity|eexists; reflexivity]. }
  1:{ destruct (mk_frame (a_freq a) (a_start a) (a_end a)) as [f|e] eqn:Ef; cbn [bind];
    [right|left; split; [intros; congruence|]; split; [reflexivity|eexists; reflexivity]].
    destruct (leave_deep n f org (mkSpan 0 (fr_len f - 1) 0 0) fd) as [fd2 o] eqn:El.
    exists org, f, o. split; [reflexivity|]. split; [discriminate|]. split; [reflexivity|]. split; [exact El|].
    unfold mk_timeline_deep. cbv zeta.
    match goal with |- context [organize_deep obj n f org ?s ?sf] => pose proof (organize_leave_deep obj f n org s sf) as A; destruct (organize_deep obj n f org s sf) as [[st fd3]|e] end;
    cbn [agrees_deep fst snd bind] in *; rewrite El in A.
    - injection A as -> ->. intros tb fd' H. match type of H with context [amend ?t false ?am] => destruct (amend t false am) as [tl|e] end; cbn [bind] in H; [congruence|discriminate].
    - destruct A as (h & A). injection A as _ ->. reflexivity. }
  1:{ destruct (mk_frame (a_freq a) (a_start a) (a_end a)) as [f|e] eqn:Ef; cbn [bind];
    [right|left; split; [intros; congruence|]; split; [reflexivity|eexists; reflexivity]].
    destruct (leave_deep n f org (mkSpan 0 (fr_len f - 1) 0 0) fd) as [fd2 o] eqn:El.
    exists org, f, o. split; [reflexivity|]. split; [discriminate|]. split; [reflexivity|]. split; [exact El|].
    unfold mk_timeline_deep. cbv zeta.
    match goal with |- context [organize_deep obj n f org ?s ?sf] => pose proof (organize_leave_deep obj f n org s sf) as A; destruct (organize_deep obj n f org s sf) as [[st fd3]|e] end;
    cbn [agrees_deep fst snd bind] in *; rewrite El in A.
    - injection A as -> ->. intros tb fd' H. match type of H with context [amend ?t false ?am] => destruct (amend t false am) as [tl|e] end; cbn [bind] in H; [congruence|discriminate].
    - destruct A as (h & A). injection A as _ ->. reflexivity. }
Qed.
Lemma attempt_one {L} (fd : feeds (layout L)) a n n1 o1 n2 o2 : attempt fd a n n1 o1 -> attempt fd a n n2 o2 -> n2 = n1 /\ o2 = o1.
Proof.
  intros H1 H2. destruct H1 as [n A|n org f n1 o1 Eo Ew Ef R]; destruct H2 as [n B|n org' f' n2 o2 Eo' Ew' Ef' R'].
  - auto.
  - exfalso. exact (A _ _ Eo' Ew' Ef').
  - exfalso. exact (B _ _ Eo Ew Ef).
  - rewrite Eo in Eo'. injection Eo' as <-. rewrite Ef in Ef'. injection Ef' as <-. exact (runs_one _ _ _ _ _ _ _ R _ _ R').
Qed.
Lemma attempts_one {L} (fd : feeds (layout L)) l : forall n n1 n2, attempts fd l n n1 -> attempts fd l n n2 -> n2 = n1.
Proof.
  induction l as [|a l IH]; intros n n1 n2 H1 H2; inversion H1; inversion H2; subst; [reflexivity|].
  match goal with A : attempt fd a n ?x _, B : attempt fd a n ?y _ |- _ => destruct (attempt_one _ _ _ _ _ _ _ A B) as (E & _) end. subst. eapply IH; eassumption.
Qed.
Lemma attempt_now {L} obj n (a : tb_args L) (fd fd1 : feeds (layout L)) m : now fd m fd1 -> build_deep obj n a fd1 <> Err ERuntime ->
  exists m' o, attempt fd a m m' o /\ now fd m' (leftover_deep n a fd1) /\ match o with Some e => build_deep obj n a fd1 = Err e | None => True end.
Proof.
  intros Hn Hb. destruct (leftover_cases obj n a fd1) as [(A & E & _)|(org & f & o & Eo & Ew & Ef & El & Hr)].
  - exists m, None. split; [apply att_nothing; exact A|]. rewrite E. split; [exact Hn|exact I].
  - pose proof (frame_wf' _ _ _ _ Ef) as Hw.
    destruct (all_run f fd Hw n org (whole_span f) fd1 _ o m (whole_wf' f Hw) Hn El) as (m' & R & N & _).
    { intros ->. exact (Hb Hr). }
    exists m', o. split; [eapply att_runs; eassumption|]. split; [exact N|]. destruct o; [exact Hr|exact I].
Qed.
Lemma attempts_now {L} obj n (fd : feeds (layout L)) : forall (l : list (tb_args L)) fd1 m, now fd m fd1 -> shallow obj n l fd1 ->
  exists m', attempts fd l m m' /\ now fd m' (after_deep n l fd1).
Proof.
  induction l as [|a l IH]; intros fd1 m Hn Hs; [exists m; split; [constructor|exact Hn]|]. destruct Hs as [Ha Hl].
  destruct (attempt_now obj n a fd fd1 m Hn Ha) as (m1 & o & A & N & _). destruct (IH _ _ N Hl) as (m2 & A2 & N2). exists m2. split; [econstructor; eassumption|exact N2].
Qed.
Lemma now_start {L} (fd : feeds L) : now fd (fun _ => 0) fd.
Proof. intros k. split; [lia|intros i _; f_equal]. Qed.

Lemma C81_attempt_pf : forall (L : Type) (obj : layout L -> L) n (a : tb_args L) (fd : feeds (layout L)),
  (forall tb fd', build_deep obj n a fd = Ok (tb, fd') -> leftover_deep n a fd = fd')
  /\ (build_deep obj n a fd <> Err ERuntime ->
      exists m o, attempt fd a (fun _ => 0) m o /\ (forall m' o', attempt fd a (fun _ => 0) m' o' -> m' = m /\ o' = o)
        /\ (forall e, o = Some e -> build_deep obj n a fd = Err e)
        /\ (forall k, 0 <= m k)
        /\ forall k i, 0 <= i -> to_come (leftover_deep n a fd) k i = to_come fd k (m k + i)).
Proof.
  intros L obj n a fd. split.
  - intros tb fd' H. destruct (leftover_cases obj n a fd) as [(_ & _ & e & E)|(org & f & o & _ & _ & _ & _ & Hr)]; [congruence|]. destruct o; [congruence|]. exact (Hr tb fd' H).
  - intros Hb. destruct (attempt_now obj n a fd fd _ (now_start fd) Hb) as (m & o & A & N & E). exists m, o. split; [exact A|].
    split; [intros m' o' A'; exact (attempt_one _ _ _ _ _ _ _ A A')|]. split; [intros e ->; exact E|]. split; [intros k; apply (N k)|]. intros k. apply (N k).
Qed.
Lemma C81_attempts_pf : forall (L : Type) (obj : layout L -> L) n (l : list (tb_args L)) (fd : feeds (layout L)),
  shallow obj n l fd ->
  exists m, attempts fd l (fun _ => 0) m /\ (forall m', attempts fd l (fun _ => 0) m' -> m' = m)
    /\ forall k i, 0 <= i -> to_come (after_deep n l fd) k i = to_come fd k (m k + i).
Proof.
  intros L obj n l fd H. destruct (attempts_now obj n fd l fd _ (now_start fd) H) as (m & A & N). exists m. split; [exact A|].
  split; [intros m' A'; exact (attempts_one _ _ _ _ _ A A')|]. intros k. apply (N k).
Qed.
Lemma C81_enough_pf : forall (L : Type) (l : list (tb_args L)) (fd : feeds (layout L)) m,
  attempts fd l (fun _ => 0) m ->
  exists N, forall n, (N <= n)%nat -> forall k i, 0 <= i -> to_come (after_deep n l fd) k i = to_come fd k (m k + i).
Proof.
  intros L l fd m H. enough (E : exists N, forall n, (N <= n)%nat -> forall fd1, now fd (fun _ => 0) fd1 -> now fd m (after_deep n l fd1)).
  { destruct E as [N HN]. exists N. intros n Hn k. apply (HN n Hn fd (now_start fd) k). }
  revert H. generalize (fun _ : nat => 0). intros n0 H. induction H as [n0|a l n0 n1 n' o A _ [N HN]]; [exists 0%nat; intros n _ fd1 H; exact H|].
  destruct A as [n0 A|n0 org f n1 o Eo Ew Ef R].
  - exists N. intros n Hn fd1 Hf. unfold after_deep. cbn [fold_left]. apply (HN n Hn).
    destruct (leftover_cases (fun x => match x with LLab y => y | _ => a_default a end) n a fd1) as [(_ & -> & _)|(org & f & o & Eo & Ew & Ef & _)]; [exact Hf|exfalso; exact (A _ _ Eo Ew Ef)].
  - pose proof (frame_wf' _ _ _ _ Ef) as Hw. destruct (runs_enough f fd Hw _ _ _ _ _ R (whole_wf' f Hw)) as [N2 HN2].
    exists (Nat.max N N2). intros n Hn fd1 Hf. unfold after_deep. cbn [fold_left]. apply (HN n ltac:(lia)). destruct (HN2 n ltac:(lia) fd1 Hf) as (fd2 & E & N3 & _).
    unfold leftover_deep. rewrite Eo, Ef. change (mkSpan 0 (fr_len f - 1) 0 0) with (whole_span f). rewrite E. cbn [fst]. destruct (a_wt a); [exact N3|exact N3|contradiction].
Qed.
