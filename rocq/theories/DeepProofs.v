(** Proofs of C66. *)
From Verif Require Import Base BaseProofs Civil Freq FreqProofs Frame FrameProofs Timeline TimelineProofs Board Spec BoardProofs SpecLookup LookupProofs SpecMisc MiscProofs SpecLayout PartProofs TreeProofs LayoutProofs SpecRemember RememberProofs Iterate SpecIterate IterateProofs Deep SpecDeep.
From Coq Require Import ZifyBool ZifyNat.
Ltac Zify.zify_post_hook ::= Z.div_mod_to_equations.

(** ** Layouts without iterators that do the same *)
Fixpoint unroll_run {L} (act : layout L -> span -> feeds (layout L) -> layout L * feeds (layout L)) (k : nat) (c : cyc (layout L))
  (spans : list span) (fd : feeds (layout L)) : list (layout L) * feeds (layout L) :=
  match spans with
  | [] => ([], fd)
  | s :: rest =>
      match cyc_next k c fd with
      | (None, _, fd') => ([], fd')
      | (Some e, c', fd') =>
          let (it, fd1) := act e s fd' in let (its, fd2) := unroll_run act k c' rest fd1 in (it :: its, fd2)
      end
  end.
Fixpoint unroll_any {L} (obj : layout L -> L) (n : nat) (f : frame) (ly : layout L) (s : span) (fd : feeds (layout L))
  : layout L * feeds (layout L) :=
  match ly with
  | LOrg d items =>
      match n with
      | O => (LOrg d [], fd)
      | S m =>
          match partition f d s with
          | Err _ => (LOrg d [], fd)
          | Ok spans => let (its, fd') := unroll_cycle (map (unroll_any obj m f) items) (map (unroll_any obj m f) items) spans fd in (LOrg d its, fd')
          end
      end
  | LOrgRem d k =>
      match n with
      | O => (LOrg d [], fd)
      | S m =>
          match partition f d s with
          | Err _ => (LOrg d [], fd)
          | Ok spans => let (its, fd') := unroll_run (unroll_any obj m f) k new_cyc spans fd in (LOrg d its, fd')
          end
      end
  | LPat (PRem k) =>
      if s_left s <? 0 then (LPat (PList []), fd)
      else let (c, fd') := pull k (Z.to_nat (s_left s) + span_len s) fd in (LPat (PList (map (as_label obj) c)), fd')
  | LPat (PList _) | LLab _ => (ly, fd)
  end.

(** What the action [o] does with iterators the layout [u] does without them. *)
Definition does_same {L} (P : feeds (layout L) -> Prop) f (u : span -> feeds (layout L) -> layout L * feeds (layout L))
  (o : span -> org_state L * feeds (layout L) -> res (org_state L * feeds (layout L))) : Prop :=
  forall s st fd, span_wf f s -> P fd ->
    match o s (st, fd) with
    | Ok (st', fd') => organize f (fst (u s fd)) s st = Ok st' /\ snd (u s fd) = fd' /\ P fd'
    | Err e => e = ERuntime \/ organize f (fst (u s fd)) s st = Err e
    end.

Lemma seq_same {L} P f (acts : list (span -> feeds (layout L) -> layout L * feeds (layout L))) acts_it :
  acts <> [] -> Forall2 (does_same P f) acts acts_it ->
  forall spans, Forall (span_wf f) spans -> forall cur cur_it, Forall2 (does_same P f) cur cur_it ->
  forall all st fd, P fd -> let u := unroll_cycle acts cur spans fd in
    match run_cycle acts_it cur_it spans (st, fd) with
    | Ok (st', fd') => run_cycle all (map (organize f) (fst u)) spans st = Ok st' /\ snd u = fd' /\ P fd'
    | Err e => e = ERuntime \/ run_cycle all (map (organize f) (fst u)) spans st = Err e
    end.
Proof.
  intros Hne Hall. induction spans as [|s spans IH]; intros HF cur cur_it Hcur all st fd HP; [split; [reflexivity|split; [reflexivity|exact HP]]|].
  assert (Hs := Forall_inv HF). assert (HF' := Forall_inv_tail HF). cbv zeta.
  assert (Step : forall u o cur' cur_it', does_same P f u o -> Forall2 (does_same P f) cur' cur_it' ->
    let r := (let (it, fd1) := u s fd in let (its, fd2) := unroll_cycle acts cur' spans fd1 in (it :: its, fd2)) in
    match (do st1 <- o s (st, fd); run_cycle acts_it cur_it' spans st1) with
    | Ok (st', fd') => run_cycle all (map (organize f) (fst r)) (s :: spans) st = Ok st' /\ snd r = fd' /\ P fd'
    | Err e => e = ERuntime \/ run_cycle all (map (organize f) (fst r)) (s :: spans) st = Err e
    end).
  { intros u o cur' cur_it' Hu Hc. specialize (Hu s st fd Hs HP). destruct (u s fd) as [it fd1]. cbv zeta. cbn [fst snd] in *.
    destruct (unroll_cycle acts cur' spans fd1) as [its fd2] eqn:E. cbn [fst snd map run_cycle].
    destruct (o s (st, fd)) as [[st1 fd']|e]; cbn [bind].
    - destruct Hu as (Hu & <- & HP1). rewrite Hu. cbn [bind]. specialize (IH HF' cur' cur_it' Hc all st1 fd1 HP1). cbv zeta in IH. rewrite E in IH. exact IH.
    - destruct Hu as [Hu|Hu]; [left; exact Hu|right]. rewrite Hu. reflexivity. }
  cbn [run_cycle unroll_cycle]. destruct Hcur as [|u o cur' cur_it' Hu Hc].
  - destruct Hall as [|u o acts' acts_it' Hu Hc] eqn:Eq; [contradiction|]. exact (Step u o acts' acts_it' Hu Hc).
  - exact (Step u o cur' cur_it' Hu Hc).
Qed.

(** After its first element a cycle never ends. *)
Definition goes_on {L} (c : cyc L) : Prop := cy_saved c <> [].
Lemma next_goes_on {L} k (c : cyc L) fd : goes_on c -> exists e c' fd', cyc_next k c fd = (Some e, c', fd') /\ goes_on c'.
Proof.
  unfold goes_on, cyc_next. destruct c as [saved rest]. cbn [cy_saved cy_rest]. intros H.
  assert (R : forall r, exists e c', repeat_saved saved r = (Some e, c') /\ cy_saved c' <> []).
  { intros r. unfold repeat_saved. destruct r as [|x r]; [destruct saved as [|x saved]; [contradiction|]|]; eexists _, _; split; try reflexivity; cbn; congruence. }
  destruct rest as [r|].
  - destruct (R r) as (e & c' & E & Hc). rewrite E. exists e, c', fd. split; [reflexivity|exact Hc].
  - destruct (feed_next fd k) as [[x|] fd'].
    + eexists _, _, _. split; [reflexivity|]. cbn. destruct saved; discriminate.
    + destruct (R []) as (e & c' & E & Hc). rewrite E. exists e, c', fd'. split; [reflexivity|exact Hc].
Qed.
Lemma run_same {L} f (act : layout L -> span -> feeds (layout L) -> layout L * feeds (layout L)) act_it k all :
  (forall e, does_same (fun _ => True) f (act e) (act_it e)) ->
  forall spans, Forall (span_wf f) spans -> forall c st fd, goes_on c -> let u := unroll_run act k c spans fd in
    length (fst u) = length spans /\
    match run_deep act_it k c spans st fd with
    | Ok (st', fd') => run_cycle all (map (organize f) (fst u)) spans st = Ok st' /\ snd u = fd'
    | Err e => e = ERuntime \/ run_cycle all (map (organize f) (fst u)) spans st = Err e
    end.
Proof.
  intros Hact. induction spans as [|s spans IH]; intros HF c st fd Hc; [split; [|split]; reflexivity|].
  assert (Hs := Forall_inv HF). assert (HF' := Forall_inv_tail HF). cbv zeta. cbn [unroll_run run_deep].
  destruct (next_goes_on k c fd Hc) as (e & c' & fd' & E & Hc'). rewrite E. specialize (Hact e s st fd' Hs I).
  destruct (act e s fd') as [it fd1]. cbn [fst snd] in Hact.
  destruct (act_it e s (st, fd')) as [[st1 fd2]|er]; cbn [bind fst snd].
  - destruct Hact as (Ho & <- & _). specialize (IH HF' c' st1 fd1 Hc'). cbv zeta in IH. destruct (unroll_run act k c' spans fd1) as [its fd3].
    cbn [fst snd map run_cycle length] in *. rewrite Ho. cbn [bind]. destruct IH as [Hl IH]. split; [f_equal; exact Hl|exact IH].
  - specialize (IH HF' c' st fd1 Hc'). cbv zeta in IH. destruct (unroll_run act k c' spans fd1) as [its fd3].
    cbn [fst snd map run_cycle length] in *. split; [f_equal; apply IH|]. destruct Hact as [H|H]; [left; exact H|right]. rewrite H. reflexivity.
Qed.
Lemma run_new_same {L} f (act : layout L -> span -> feeds (layout L) -> layout L * feeds (layout L)) act_it k :
  (forall e, does_same (fun _ => True) f (act e) (act_it e)) ->
  forall spans, Forall (span_wf f) spans -> forall st fd, let u := unroll_run act k new_cyc spans fd in
    let acts := map (organize f) (fst u) in
    match run_deep act_it k new_cyc spans st fd with
    | Ok (st', fd') => run_cycle acts acts spans st = Ok st' /\ snd u = fd'
    | Err e => e = ERuntime \/ run_cycle acts acts spans st = Err e
    end.
Proof.
  intros Hact spans HF st fd. cbv zeta. destruct spans as [|s spans]; [split; reflexivity|].
  assert (Hs := Forall_inv HF). assert (HF' := Forall_inv_tail HF). cbn [unroll_run run_deep]. unfold cyc_next. cbn [new_cyc cy_rest cy_saved].
  destruct (feed_next fd k) as [[e|] fd'] eqn:E.
  2:{ cbn. split; reflexivity. }
  cbn [app]. specialize (Hact e s st fd' Hs I) as Ha. destruct (act e s fd') as [it fd1]. cbn [fst snd] in Ha.
  set (c' := mkCyc [e] None). assert (Hc' : goes_on c') by (unfold goes_on, c'; cbn; discriminate).
  pose proof (fun st all => run_same f act act_it k all Hact spans HF' c' st fd1 Hc') as R. cbv zeta in R.
  destruct (unroll_run act k c' spans fd1) as [its fd3]. cbn [fst snd map run_cycle] in *.
  destruct (act_it e s (st, fd')) as [[st1 fd2]|er]; cbn [bind fst snd].
  - destruct Ha as (Ho & <- & _). rewrite Ho. cbn [bind]. destruct (R st1 (organize f it :: map (organize f) its)) as [_ R']. exact R'.
  - destruct Ha as [H|H]; [left; exact H|right]. rewrite H. reflexivity.
Qed.

Lemma apply_same {L} obj f k s (st : org_state L) fd : span_wf f s ->
  apply_deep obj k s st fd =
    (let u := if s_left s <? 0 then (LPat (PList []), fd)
              else let (c, fd') := pull k (Z.to_nat (s_left s) + span_len s) fd in (LPat (PList (map (as_label obj) c)), fd') in
     do st' <- organize f (fst u) s st; Ok (st', snd u)).
Proof.
  intros Hs. unfold apply_deep. cbv zeta. destruct (s_left s <? 0) eqn:El; cbn [fst snd organize].
  - unfold apply_pattern. rewrite El. reflexivity.
  - assert (Hn : (0 < Z.to_nat (s_left s) + span_len s)%nat) by (unfold span_wf, span_len in *; lia).
    rewrite times_new by exact Hn. destruct (pull k _ fd) as [c fd'] eqn:Ep. cbn [fst snd organize]. unfold apply_pattern. rewrite El.
    destruct c as [|x t0] eqn:Ec; [reflexivity|]. rewrite <- Ec. destruct (map (as_label obj) c) as [|y l] eqn:Em; [rewrite Ec in Em; discriminate|].
    rewrite <- Em. cbn [bind]. unfold skip_take. rewrite cyc_take_map. destruct (cyc_take c c _) as [t r]. cbn [fst snd]. reflexivity.
Qed.

Lemma spans_wf f d s spans : fr_wf f -> span_wf f s -> partition f d s = Ok spans -> Forall (span_wf f) spans.
Proof.
  intros Hw Hs Hp. pose proof (partition_tiles _ _ _ _ Hw Hs Hp) as Ht. apply Forall_forall. intros x Hx.
  pose proof (tiles_In _ _ _ x Ht Hx). unfold span_wf in *. lia.
Qed.
Lemma same_all {L} obj f : fr_wf f -> forall n (ly : layout L), does_same (fun _ => True) f (unroll_any obj n f ly) (organize_deep obj n f ly).
Proof.
  intros Hw.
  assert (Leaf : forall n (ly : layout L), match ly with LPat _ | LLab _ => True | _ => False end -> does_same (fun _ => True) f (unroll_any obj n f ly) (organize_deep obj n f ly)).
  { intros n ly Hl s st fd Hs _. destruct ly as [d items|d k|[l|k]|x]; try contradiction.
    - destruct n; cbn [organize_deep unroll_any fst snd organize]; (destruct (apply_pattern (PList l) s st); cbn [bind]; [repeat split|right; reflexivity]).
    - assert (E : organize_deep obj n f (LPat (PRem k)) s (st, fd) =
        (do st' <- organize f (fst (unroll_any obj n f (LPat (PRem k)) s fd)) s st; Ok (st', snd (unroll_any obj n f (LPat (PRem k)) s fd)))).
      { destruct n; cbn [organize_deep unroll_any fst snd]; apply (apply_same obj f k s st fd Hs). }
      rewrite E. destruct (organize f _ s st); cbn [bind]; [repeat split|right; reflexivity].
    - destruct n; cbn [organize_deep unroll_any fst snd organize]; unfold apply_label; cbn [bind]; repeat split. }
  induction n as [|n IH]; intros ly s st fd Hs _.
  - destruct ly as [d items|d k|p|x]; [left; reflexivity|left; reflexivity|apply Leaf; [exact I|exact Hs|exact I]|apply Leaf; [exact I|exact Hs|exact I]].
  - destruct ly as [d items|d k|p|x]; [| |apply Leaf; [exact I|exact Hs|exact I]|apply Leaf; [exact I|exact Hs|exact I]]; cbn [organize_deep unroll_any fst snd].
    + destruct (partition f d s) as [spans|e] eqn:Hp; cbn [bind fst snd organize]; [|rewrite Hp; right; reflexivity].
      pose proof (spans_wf _ _ _ _ Hw Hs Hp) as HF. destruct items as [|i0 items0] eqn:Ei.
      * cbn [map]. assert (E : unroll_cycle (F:=feeds (layout L)) (L:=L) [] [] spans fd = ([], fd)) by (destruct spans; reflexivity).
        rewrite E. cbn [fst snd organize map]. rewrite Hp. cbn [bind]. assert (E2 : forall S (x : S), run_cycle [] [] spans x = Ok x) by (intros; destruct spans; reflexivity).
        rewrite !E2. repeat split.
      * rewrite <- Ei. assert (F2 : Forall2 (does_same (fun _ => True) f) (map (unroll_any obj n f) items) (map (organize_deep obj n f) items)).
        { clear - IH. induction items; cbn [map]; constructor; [apply IH|assumption]. }
        assert (Hne : map (unroll_any obj n f) items <> []) by (rewrite Ei; discriminate).
        destruct (unroll_cycle (map (unroll_any obj n f) items) (map (unroll_any obj n f) items) spans fd) as [its fd'] eqn:E. cbn [fst snd organize]. rewrite Hp. cbn [bind].
        pose proof (seq_same (fun _ => True) f _ _ Hne F2 spans HF _ _ F2 (map (organize f) its) st fd I) as R. cbv zeta in R. rewrite E in R. exact R.
    + destruct (partition f d s) as [spans|e] eqn:Hp; cbn [bind fst snd organize]; [|rewrite Hp; right; reflexivity].
      pose proof (spans_wf _ _ _ _ Hw Hs Hp) as HF. pose proof (run_new_same f (unroll_any obj n f) (organize_deep obj n f) k IH spans HF st fd) as R. cbv zeta in R.
      destruct (unroll_run (unroll_any obj n f) k new_cyc spans fd) as [its fd']. cbn [fst snd organize]. rewrite Hp. cbn [bind].
      destruct (run_deep _ _ _ _ _ _) as [[st' fd1]|e]; [split; [apply R|split; [apply R|exact I]]|exact R].
Qed.

(** ** Timeboards *)
Lemma top_is_org {L} (ly org : layout L) : top_organizer ly = Ok org -> match org with LOrg _ _ | LOrgRem _ _ => True | _ => False end.
Proof. destruct ly as [d items|d k|[l|k]|x]; cbn; try discriminate; intros H; injection H as <-; exact I. Qed.
Lemma build_args {L} (a : tb_args L) : with_layout a (a_layout a) = a.
Proof. destruct a; reflexivity. Qed.

(** [build_deep] by a layout [u] without iterators that does the same. *)
Lemma build_same {L} obj n (a : tb_args L) fd org f ly fd1 :
  top_organizer (a_layout a) = Ok org -> mk_frame (a_freq a) (a_start a) (a_end a) = Ok f -> top_organizer ly = Ok ly ->
  (forall st, match organize_deep obj n f org (whole_span f) (st, fd) with
    | Ok (st', fd') => organize f ly (whole_span f) st = Ok st' /\ fd1 = fd'
    | Err e => e = ERuntime \/ organize f ly (whole_span f) st = Err e
    end) ->
  match build_deep obj n a fd with
  | Ok (tb, fd') => (exists h, build (with_layout a ly) [] = Ok (tb, h)) /\ fd1 = fd'
  | Err e => e = ERuntime \/ build (with_layout a ly) [] = Err e
  end.
Proof.
  intros Eo Ef Et Hst. unfold build_deep, build. rewrite Eo. cbn [bind with_layout a_layout a_freq a_start a_end a_wt a_ref_end a_default a_amendments a_name a_sel a_num].
  rewrite Et, Ef. cbn [bind]. unfold mk_timeline_deep, mk_timeline. change (mkSpan 0 (fr_len f - 1) 0 0) with (whole_span f).
  specialize (Hst (mkSt (repeat (a_default a) (Z.to_nat (fr_len f))) (repeat true (Z.to_nat (fr_len f))) [])).
  destruct (a_wt a); [| |right; reflexivity]; cbv zeta;
    (destruct (organize_deep obj n f org (whole_span f) _) as [[st fd']|e]; cbn [bind fst snd];
     [destruct Hst as [-> <-]; cbn [bind fst snd]; match goal with |- context [amend ?t false ?am] => destruct (amend t false am) as [tl|e] end; cbn [bind];
        [split; [eexists; reflexivity|reflexivity]|right; reflexivity]
     |destruct Hst as [H|H]; [left; exact H|right; rewrite H; reflexivity]]).
Qed.
Lemma unroll_top {L} obj n f (org : layout L) s fd : match org with LOrg _ _ | LOrgRem _ _ => True | _ => False end ->
  top_organizer (fst (unroll_any obj n f org s fd)) = Ok (fst (unroll_any obj n f org s fd)).
Proof.
  intros Ho. destruct org as [d items|d k|p|x]; try contradiction; destruct n; cbn [unroll_any]; try reflexivity.
  - destruct (partition f d s); [|reflexivity]. destruct (unroll_cycle _ _ _ _). reflexivity.
  - destruct (partition f d s); [|reflexivity]. destruct (unroll_run _ _ _ _ _). reflexivity.
Qed.
Lemma deep_early {L} obj n (a : tb_args L) fd : (forall org, top_organizer (a_layout a) <> Ok org) \/ (forall f, mk_frame (a_freq a) (a_start a) (a_end a) <> Ok f) ->
  exists e, build_deep obj n a fd = Err e /\ forall h, build a h = Err e.
Proof.
  intros H. unfold build_deep, build. destruct (top_organizer (a_layout a)) as [org|e].
  2:{ exists e. split; reflexivity. }
  destruct H as [H|H]; [destruct (H org eq_refl)|]. cbn [bind]. destruct (mk_frame (a_freq a) (a_start a) (a_end a)) as [f|e]; [destruct (H f eq_refl)|].
  cbn [bind]. destruct (a_wt a); eexists; split; reflexivity.
Qed.

Lemma C66_plain_pf : forall (L : Type) (obj : layout L -> L) n (a : tb_args L) (fd : feeds (layout L)),
  (forall tb fd', build_deep obj n a fd = Ok (tb, fd') -> exists ly h, build (with_layout a ly) [] = Ok (tb, h))
  /\ forall e, build_deep obj n a fd = Err e -> e = ERuntime \/ exists ly, build (with_layout a ly) [] = Err e.
Proof.
  intros L obj n a fd.
  assert (Hbad : (exists e, build_deep obj n a fd = Err e /\ forall h, build a h = Err e) ->
    (forall tb fd', build_deep obj n a fd = Ok (tb, fd') -> exists ly h, build (with_layout a ly) [] = Ok (tb, h))
    /\ forall e, build_deep obj n a fd = Err e -> e = ERuntime \/ exists ly, build (with_layout a ly) [] = Err e).
  { intros (e & E1 & E2). rewrite E1. split; [discriminate|]. intros e' E. injection E as <-. right.
    exists (a_layout a). rewrite build_args. apply E2. }
  destruct (top_organizer (a_layout a)) as [org|e0] eqn:Eo; [|apply Hbad, deep_early; left; intros; congruence].
  destruct (mk_frame (a_freq a) (a_start a) (a_end a)) as [f|e0] eqn:Ef; [|apply Hbad, deep_early; right; intros; congruence].
  clear Hbad. assert (Hw : fr_wf f) by (exact (proj1 (proj2 (proj2 (mk_frame_inv _ _ _ _ Ef))))).
  assert (Hs : span_wf f (whole_span f)) by (unfold span_wf, whole_span, fr_wf in *; cbn; lia).
  set (u := unroll_any obj n f org (whole_span f) fd).
  pose proof (build_same obj n a fd org f (fst u) (snd u) Eo Ef (unroll_top obj n f org _ fd (top_is_org _ _ Eo))
     (fun st => ltac:(pose proof (same_all obj f Hw n org (whole_span f) st fd Hs I) as R; destruct (organize_deep _ _ _ _ _ _) as [[st' fd']|e]; [split; apply R|exact R]))) as R.
  destruct (build_deep obj n a fd) as [[tb fd']|e].
  - split; [|discriminate]. intros tb1 fd1 E. injection E as <- <-. destruct R as [[h R] _]. exists (fst u), h. exact R.
  - split; [discriminate|]. intros e1 E. injection E as <-. destruct R as [R|R]; [left; exact R|right; exists (fst u); exact R].
Qed.

(** ** The depth *)
Definition same_unless {A} (r r' : res A) : Prop := r = Err ERuntime \/ r' = r.
Lemma cycle_deeper {S} (all all' : list (span -> S -> res S)) : Forall2 (fun g g' => forall s st, same_unless (g s st) (g' s st)) all all' ->
  forall spans cur cur', Forall2 (fun g g' => forall s st, same_unless (g s st) (g' s st)) cur cur' ->
  forall st, same_unless (run_cycle all cur spans st) (run_cycle all' cur' spans st).
Proof.
  intros Hall. induction spans as [|s spans IH]; intros cur cur' Hcur st; [right; reflexivity|].
  assert (Step : forall g g' c c', (forall s st, same_unless (g s st) (g' s st)) -> Forall2 (fun g g' => forall s st, same_unless (g s st) (g' s st)) c c' ->
    same_unless (do st1 <- g s st; run_cycle all c spans st1) (do st1 <- g' s st; run_cycle all' c' spans st1)).
  { intros g g' c c' Hg Hc. destruct (Hg s st) as [E|E]; [left; rewrite E; reflexivity|]. rewrite E. destruct (g s st) as [st1|e]; cbn [bind]; [apply IH; exact Hc|right; reflexivity]. }
  cbn [run_cycle]. destruct Hcur as [|g g' c c' Hg Hc].
  - destruct Hall as [|g g' c c' Hg Hc] eqn:E; [right; reflexivity|]. exact (Step g g' c c' Hg Hc).
  - exact (Step g g' c c' Hg Hc).
Qed.
Lemma run_deeper {L} (act act' : layout L -> span -> org_state L * feeds (layout L) -> res (org_state L * feeds (layout L))) k :
  (forall e s sf, same_unless (act e s sf) (act' e s sf)) ->
  forall spans c st fd, same_unless (run_deep act k c spans st fd) (run_deep act' k c spans st fd).
Proof.
  intros H. induction spans as [|s spans IH]; intros c st fd; [right; reflexivity|]. cbn [run_deep].
  destruct (cyc_next k c fd) as [[[e|] c'] fd']; [|right; reflexivity].
  destruct (H e s (st, fd')) as [E|E]; [left; rewrite E; reflexivity|]. rewrite E. destruct (act e s (st, fd')) as [sf|er]; cbn [bind]; [apply IH|right; reflexivity].
Qed.
Lemma organize_deeper {L} obj f : forall n m (ly : layout L) s sf, (n <= m)%nat -> same_unless (organize_deep obj n f ly s sf) (organize_deep obj m f ly s sf).
Proof.
  induction n as [|n IH]; intros m ly s sf Hm.
  - destruct ly as [d items|d k|[l|k]|x]; [left; reflexivity|left; reflexivity| | |]; right; destruct m; reflexivity.
  - destruct m as [|m]; [lia|]. destruct ly as [d items|d k|[l|k]|x]; [| |right; reflexivity|right; reflexivity|right; reflexivity]; cbn [organize_deep].
    + destruct (partition f d s) as [spans|e]; cbn [bind]; [|right; reflexivity].
      assert (F2 : Forall2 (fun g g' => forall s st, same_unless (g s st) (g' s st)) (map (organize_deep obj n f) items) (map (organize_deep obj m f) items)).
      { clear - IH Hm. induction items as [|i items IHi]; cbn [map]; constructor; [|exact IHi]. intros s st. apply IH. lia. }
      apply cycle_deeper; exact F2.
    + destruct (partition f d s) as [spans|e]; cbn [bind]; [|right; reflexivity]. apply run_deeper. intros e s' sf'. apply IH. lia.
Qed.
Lemma C66_deeper_pf : forall (L : Type) (obj : layout L -> L) n m (a : tb_args L) (fd : feeds (layout L)), (n <= m)%nat ->
  build_deep obj n a fd <> Err ERuntime -> build_deep obj m a fd = build_deep obj n a fd.
Proof.
  intros L obj n m a fd Hm Hne. unfold build_deep, mk_timeline_deep in *. destruct (top_organizer (a_layout a)) as [org|e]; [|reflexivity]. cbn [bind] in *.
  destruct (mk_frame (a_freq a) (a_start a) (a_end a)) as [f|e]; [|destruct (a_wt a); reflexivity]. cbn [bind] in *. cbv zeta in *.
  set (sf := (mkSt _ _ _, fd)) in *. destruct (organize_deeper obj f n m org (mkSpan 0 (fr_len f - 1) 0 0) sf Hm) as [E|E].
  - rewrite E in Hne. destruct (a_wt a); cbn [bind] in Hne; [contradiction|contradiction|reflexivity].
  - rewrite E. reflexivity.
Qed.

(** ** Elements without iterators *)
Lemma cycle_same_fd {L} (F : Type) (all : list (span -> org_state L -> res (org_state L))) (all' : list (span -> org_state L * F -> res (org_state L * F))) (fd : F) :
  let rel g g' := forall s st, g' s (st, fd) = Err ERuntime \/ g' s (st, fd) = (do st' <- g s st; Ok (st', fd)) in
  Forall2 rel all all' -> forall spans cur cur', Forall2 rel cur cur' -> forall st,
  run_cycle all' cur' spans (st, fd) = Err ERuntime \/ run_cycle all' cur' spans (st, fd) = (do st' <- run_cycle all cur spans st; Ok (st', fd)).
Proof.
  cbv zeta. intros Hall. induction spans as [|s spans IH]; intros cur cur' Hcur st; [right; reflexivity|].
  assert (Step : forall g g' c c', (forall s st, g' s (st, fd) = Err ERuntime \/ g' s (st, fd) = (do st' <- g s st; Ok (st', fd))) ->
    Forall2 (fun (g : span -> org_state L -> res (org_state L)) (g' : span -> org_state L * F -> res (org_state L * F)) => forall s st, g' s (st, fd) = Err ERuntime \/ g' s (st, fd) = (do st' <- g s st; Ok (st', fd))) c c' ->
    (do st1 <- g' s (st, fd); run_cycle all' c' spans st1) = Err ERuntime
    \/ (do st1 <- g' s (st, fd); run_cycle all' c' spans st1) = (do st' <- (do st1 <- g s st; run_cycle all c spans st1); Ok (st', fd))).
  { intros g g' c c' Hg Hc. destruct (Hg s st) as [E|E]; rewrite E; [left; reflexivity|]. destruct (g s st) as [st1|e]; cbn [bind]; [apply IH; exact Hc|right; reflexivity]. }
  cbn [run_cycle]. destruct Hcur as [|g g' c c' Hg Hc].
  - destruct Hall as [|g g' c c' Hg Hc] eqn:E; [right; reflexivity|]. exact (Step g g' c c' Hg Hc).
  - exact (Step g g' c c' Hg Hc).
Qed.
Lemma without_same {L} obj f : forall n (e : layout L), without e -> forall s st fd,
  organize_deep obj n f e s (st, fd) = Err ERuntime \/ organize_deep obj n f e s (st, fd) = (do st' <- organize f e s st; Ok (st', fd)).
Proof.
  induction n as [|n IH]; intros e He s st fd; destruct He as [d items Hi|l|x]; cbn [organize_deep organize fst snd]; try (left; reflexivity); try (right; reflexivity).
  destruct (partition f d s) as [spans|e]; cbn [bind]; [|right; reflexivity].
  assert (F2 : Forall2 (fun (g : span -> org_state L -> res (org_state L)) (g' : span -> org_state L * feeds (layout L) -> res (org_state L * feeds (layout L))) =>
    forall s st, g' s (st, fd) = Err ERuntime \/ g' s (st, fd) = (do st' <- g s st; Ok (st', fd))) (map (organize f) items) (map (organize_deep obj n f) items)).
  { clear - IH Hi. induction items as [|i items IHi]; cbn [map]; constructor.
    - intros s st. apply IH, Hi. left. reflexivity.
    - apply IHi. intros it Hit. apply Hi. right. exact Hit. }
  exact (cycle_same_fd _ _ _ fd F2 spans _ _ F2 st).
Qed.

Definition simple_cyc {L} (c : cyc (layout L)) : Prop := Forall without (cy_saved c) /\ forall r, cy_rest c = Some r -> Forall without r.
Lemma feed_simple {L} (fd fd' : feeds (layout L)) k o : simple_elements fd -> feed_next fd k = (o, fd') -> simple_elements fd' /\ forall e, o = Some e -> without e.
Proof.
  intros Hs H. destruct (feed_next_spec _ _ _ _ H) as (Ho & Hother & Hcome & _). split.
  - intros j i e Hi. destruct (Nat.eq_dec j k) as [->|Hj].
    + rewrite Hcome by exact Hi. apply Hs. lia.
    + unfold to_come. rewrite Hother by exact Hj. apply Hs. exact Hi.
  - intros e He. apply (Hs k 0 e); [lia|]. congruence.
Qed.
Lemma repeat_simple {L} (saved rest : list (layout L)) o c : Forall without saved -> Forall without rest -> repeat_saved saved rest = (o, c) ->
  simple_cyc c /\ forall e, o = Some e -> without e.
Proof.
  intros Hs Hr. unfold repeat_saved. destruct rest as [|x rest].
  - destruct saved as [|x saved].
    + intros H. injection H as <- <-. split; [|discriminate]. split; [constructor|]. intros r H. injection H as <-. constructor.
    + intros H. injection H as <- <-. split; [|intros e H; injection H as <-; exact (Forall_inv Hs)]. split; [exact Hs|]. intros r H. injection H as <-. exact (Forall_inv_tail Hs).
  - intros H. injection H as <- <-. split; [|intros e H; injection H as <-; exact (Forall_inv Hr)]. split; [exact Hs|]. intros r H. injection H as <-. exact (Forall_inv_tail Hr).
Qed.
Lemma next_simple {L} k (c c' : cyc (layout L)) fd fd' o : simple_cyc c -> simple_elements fd -> cyc_next k c fd = (o, c', fd') ->
  simple_cyc c' /\ simple_elements fd' /\ forall e, o = Some e -> without e.
Proof.
  intros [Hs Hr] Hf. unfold cyc_next. destruct c as [saved rest]. cbn [cy_saved cy_rest] in *. destruct rest as [r|].
  - destruct (repeat_saved saved r) as [o1 c1] eqn:E. intros H. injection H as <- <- <-.
    destruct (repeat_simple _ _ _ _ Hs (Hr r eq_refl) E) as [H1 H2]. split; [exact H1|]. split; [exact Hf|exact H2].
  - destruct (feed_next fd k) as [[x|] fd1] eqn:E; destruct (feed_simple _ _ _ _ Hf E) as [F1 F2].
    + intros H. injection H as <- <- <-. split; [|split; [exact F1|exact F2]]. split; cbn [cy_saved cy_rest]; [|discriminate].
      apply Forall_app. split; [exact Hs|]. constructor; [apply F2; reflexivity|constructor].
    + destruct (repeat_saved saved []) as [o1 c1] eqn:E1. intros H. injection H as <- <- <-.
      destruct (repeat_simple _ _ _ _ Hs (Forall_nil _) E1) as [H1 H2]. split; [exact H1|]. split; [exact F1|exact H2].
Qed.

Lemma run_deep_times {L} f obj n k all spans : forall (c : cyc (layout L)) st fd, goes_on c -> simple_cyc c -> simple_elements fd ->
  exists l fd', cyc_times k (length spans) c fd = (Some l, fd') /\ 
   (run_deep (organize_deep obj n f) k c spans st fd = Err ERuntime
    \/ run_deep (organize_deep obj n f) k c spans st fd = (do st' <- run_cycle all (map (organize f) l) spans st; Ok (st', fd'))).
Proof.
  induction spans as [|s spans IH]; intros c st fd Hg Hc Hf; [exists [], fd; split; [reflexivity|right; reflexivity]|].
  cbn [run_deep length cyc_times]. destruct (next_goes_on k c fd Hg) as (e & c' & fd1 & E & Hg'). rewrite E.
  destruct (next_simple _ _ _ _ _ _ Hc Hf E) as (Hc' & Hf' & He). specialize (He e eq_refl).
  destruct (without_same obj f n e He s st fd1) as [Er|Er]; rewrite Er.
  - destruct (IH c' st fd1 Hg' Hc' Hf') as (l & fd' & El & _). rewrite El. exists (e :: l), fd'. split; [reflexivity|left; reflexivity].
  - destruct (organize f e s st) as [st1|er] eqn:Eo; cbn [bind fst snd].
    + destruct (IH c' st1 fd1 Hg' Hc' Hf') as (l & fd' & El & R). rewrite El. exists (e :: l), fd'. split; [reflexivity|].
      cbn [map run_cycle]. rewrite Eo. cbn [bind]. exact R.
    + destruct (IH c' st fd1 Hg' Hc' Hf') as (l & fd' & El & _). rewrite El. exists (e :: l), fd'. split; [reflexivity|]. right.
      cbn [map run_cycle]. rewrite Eo. reflexivity.
Qed.
Lemma run_deep_pull {L} f obj n k spans st (fd : feeds (layout L)) : simple_elements fd ->
  let r := run_deep (organize_deep obj n f) k new_cyc spans st fd in
  let (c, fd') := pull k (length spans) fd in
  r = Err ERuntime \/ r = (do st' <- run_cycle (map (organize f) c) (map (organize f) c) spans st; Ok (st', fd')).
Proof.
  intros Hf. cbv zeta. destruct spans as [|s spans]; [right; reflexivity|].
  assert (Hn : (0 < length (s :: spans))%nat) by (cbn; lia). pose proof (times_new k (length (s :: spans)) fd Hn) as Et.
  cbn [run_deep length cyc_times] in *. unfold cyc_next in *. cbn [new_cyc cy_rest cy_saved] in *.
  destruct (feed_next fd k) as [[e|] fd1] eqn:E.
  - destruct (feed_simple _ _ _ _ Hf E) as [F1 F2]. specialize (F2 e eq_refl). cbn [app] in *.
    set (c1 := mkCyc [e] None) in *.
    assert (Hg : goes_on c1) by (unfold goes_on, c1; cbn; discriminate).
    assert (Hc : simple_cyc c1) by (split; [constructor; [exact F2|constructor]|discriminate]).
    destruct (pull k (S (length spans)) fd) as [c fd'] eqn:Ep.
    assert (Hcne : c <> []).
    { cbn [pull] in Ep. rewrite E in Ep. destruct (pull k (length spans) fd1). injection Ep as <- _. discriminate. }
    assert (Hm : map (organize f) c <> []) by (destruct c; [contradiction|discriminate]).
    rewrite (run_cycle_take _ Hm (s :: spans) _ []). rewrite cyc_take_map. cbn [fst length].
    destruct (without_same obj f n e F2 s st fd1) as [Er|Er]; rewrite Er; [left; reflexivity|].
    destruct (run_deep_times f obj n k [] spans c1 (match organize f e s st with Ok st1 => st1 | Err _ => st end) fd1 Hg Hc F1) as (l & fd2 & El & R).
    set (T := fst (cyc_take c c (S (length spans)))) in *. rewrite El in Et.
    assert (Em : match c with [] => None | _ => Some T end = Some T) by (destruct c; [contradiction|reflexivity]).
    rewrite Em in Et. clearbody T. injection Et as Et <-. subst T. cbn [map run_cycle].
    destruct (organize f e s st) as [st1|er]; cbn [bind fst snd]; [|right; reflexivity]. exact R.
  - cbn [pull]. rewrite E. right. reflexivity.
Qed.
Lemma pull_simple {L} k m (fd fd' : feeds (layout L)) c : simple_elements fd -> pull k m fd = (c, fd') -> simple_elements fd'.
Proof.
  intros Hs Hp. destruct (pull_spec _ _ _ _ _ Hp) as (_ & Q & R). intros j i e Hi. destruct (Nat.eq_dec j k) as [->|Hj].
  - rewrite R by exact Hi. apply Hs. lia.
  - unfold to_come. rewrite Q by exact Hj. apply Hs. exact Hi.
Qed.

Lemma simple_same {L} obj f : fr_wf f -> forall n (ly : layout L), does_same simple_elements f (unroll (as_label obj) (fun e => e) f ly) (organize_deep obj n f ly).
Proof.
  intros Hw.
  assert (Leaf : forall n (ly : layout L), match ly with LPat _ | LLab _ => True | _ => False end -> does_same simple_elements f (unroll (as_label obj) (fun e => e) f ly) (organize_deep obj n f ly)).
  { intros n ly Hl s st fd Hs HP. destruct ly as [d items|d k|[l|k]|x]; try contradiction.
    - destruct n; cbn [organize_deep unroll fst snd organize]; (destruct (apply_pattern (PList l) s st); cbn [bind]; [split; [reflexivity|split; [reflexivity|exact HP]]|right; reflexivity]).
    - assert (E : organize_deep obj n f (LPat (PRem k)) s (st, fd) = apply_deep obj k s st fd) by (destruct n; reflexivity).
      rewrite E, (apply_same obj f k s st fd Hs). cbv zeta. cbn [unroll].
      destruct (s_left s <? 0); [cbn [fst snd]; destruct (organize f _ s st); cbn [bind]; [split; [reflexivity|split; [reflexivity|exact HP]]|right; reflexivity]|].
      destruct (pull k _ fd) as [c fd'] eqn:Ep. cbn [fst snd]. destruct (organize f _ s st); cbn [bind]; [split; [reflexivity|split; [reflexivity|exact (pull_simple _ _ _ _ _ HP Ep)]]|right; reflexivity].
    - destruct n; cbn [organize_deep unroll fst snd organize]; unfold apply_label; cbn [bind]; (split; [reflexivity|split; [reflexivity|exact HP]]). }
  induction n as [|n IH]; intros ly s st fd Hs HP.
  - destruct ly as [d items|d k|p|x]; [left; reflexivity|left; reflexivity|apply Leaf; [exact I|exact Hs|exact HP]|apply Leaf; [exact I|exact Hs|exact HP]].
  - destruct ly as [d items|d k|p|x]; [| |apply Leaf; [exact I|exact Hs|exact HP]|apply Leaf; [exact I|exact Hs|exact HP]]; cbn [organize_deep unroll fst snd].
    + destruct (partition f d s) as [spans|e] eqn:Hp; cbn [bind fst snd organize]; [|rewrite Hp; right; reflexivity].
      pose proof (spans_wf _ _ _ _ Hw Hs Hp) as HF. set (ur := unroll (as_label obj) (fun e => e) f). destruct items as [|i0 items0] eqn:Ei.
      * cbn [map]. assert (E : unroll_cycle (F:=feeds (layout L)) (L:=L) [] [] spans fd = ([], fd)) by (destruct spans; reflexivity).
        rewrite E. cbn [fst snd organize map]. rewrite Hp. cbn [bind]. assert (E2 : forall S (x : S), run_cycle [] [] spans x = Ok x) by (intros; destruct spans; reflexivity).
        rewrite !E2. split; [reflexivity|]. split; [reflexivity|exact HP].
      * rewrite <- Ei. assert (F2 : Forall2 (does_same simple_elements f) (map ur items) (map (organize_deep obj n f) items)).
        { clear - IH. induction items; cbn [map]; constructor; [apply IH|assumption]. }
        assert (Hne : map ur items <> []) by (rewrite Ei; discriminate).
        destruct (unroll_cycle (map ur items) (map ur items) spans fd) as [its fd'] eqn:E. cbn [fst snd organize]. rewrite Hp. cbn [bind].
        pose proof (seq_same simple_elements f _ _ Hne F2 spans HF _ _ F2 (map (organize f) its) st fd HP) as R. cbv zeta in R. rewrite E in R. exact R.
    + destruct (partition f d s) as [spans|e] eqn:Hp; cbn [bind fst snd organize]; [|rewrite Hp; right; reflexivity].
      pose proof (run_deep_pull f obj n k spans st fd HP) as R. cbv zeta in R. destruct (pull k (length spans) fd) as [c fd'] eqn:Ep.
      cbn [fst snd organize]. rewrite Hp, map_id. cbn [bind]. destruct R as [R|R]; rewrite R; [left; reflexivity|].
      destruct (run_cycle _ _ _ _) as [st'|e]; cbn [bind]; [split; [reflexivity|split; [reflexivity|exact (pull_simple _ _ _ _ _ HP Ep)]]|right; reflexivity].
Qed.

Lemma C66_uses_pf : forall (L : Type) (obj : layout L -> L) n (a : tb_args L) (fd : feeds (layout L)) tb fd',
  simple_elements fd -> build_deep obj n a fd = Ok (tb, fd') ->
  exists asks, asks_of a tb asks /\ (forall l, asks_of a tb l -> l = asks)
    /\ (forall k i, 0 <= i -> to_come fd' k i = to_come fd k (wanted k asks + i))
    /\ (forall m k, 0 <= wanted k (firstn m asks))
    /\ (a_amendments a = [] -> forall m k w, nth_error asks m = Some (k, w) ->
          exists c, portion fd k (wanted k (firstn m asks)) (wants w) c /\ organizes obj (tb_tl tb) (a_default a) c w)
    /\ exists org, top_organizer (a_layout a) = Ok org /\ let f := tl_frame (tb_tl tb) in
         (a_amendments a = [] -> forall u leaf s, 0 <= u < fr_len f -> decides f u org (whole_span f) leaf s -> plain leaf ->
            leaf_does (tb_tl tb) [] (a_default a) leaf s u)
         /\ forall u, 0 <= u < fr_len f -> (exists leaf s, decides f u org (whole_span f) leaf s /\ plain leaf)
              \/ exists k w, In (k, w) asks /\ match w with AskUnits s => s_first s <= u <= s_last s
                                              | AskSpans spans => exists s, In s spans /\ s_first s <= u <= s_last s end.
Proof.
  intros L obj n a fd tb fd' Hsim H.
  destruct (top_organizer (a_layout a)) as [org|e0] eqn:Eo.
  2:{ destruct (deep_early obj n a fd) as (e & E & _); [left; intros; congruence|congruence]. }
  destruct (mk_frame (a_freq a) (a_start a) (a_end a)) as [f|e0] eqn:Ef.
  2:{ destruct (deep_early obj n a fd) as (e & E & _); [right; intros; congruence|congruence]. }
  assert (Hw : fr_wf f) by (exact (proj1 (proj2 (proj2 (mk_frame_inv _ _ _ _ Ef))))).
  assert (Hs : span_wf f (whole_span f)) by (unfold span_wf, whole_span, fr_wf in *; cbn; lia).
  set (u := unroll (as_label obj) (fun e => e) f org (whole_span f) fd).
  assert (Et : top_organizer (fst u) = Ok (fst u)).
  { pose proof (top_is_org _ _ Eo) as Ho. unfold u. clear - Ho. destruct org as [d items|d k|p|x]; try contradiction; cbn [unroll].
    - destruct (partition f d (whole_span f)); [|reflexivity]. destruct (unroll_cycle _ _ _ _). reflexivity.
    - destruct (partition f d (whole_span f)); [|reflexivity]. destruct (pull _ _ _). reflexivity. }
  pose proof (build_same obj n a fd org f (fst u) (snd u) Eo Ef Et
     (fun st => ltac:(pose proof (simple_same obj f Hw n org (whole_span f) st fd Hs Hsim) as R; destruct (organize_deep _ _ _ _ _ _) as [[st' fd1]|e]; [split; apply R|exact R]))) as R.
  rewrite H in R. destruct R as [[h Hb] <-].
  destruct (uses_of (as_label obj) (fun e => e) a fd org f tb h Eo Ef Hb) as (Efr & asks & H1 & H2 & H3 & H4 & H5 & H6 & H7).
  exists asks. split; [exact H1|]. split; [exact H2|]. split; [exact H3|]. split; [exact H4|]. split.
  - intros Ham m k w Hm. destruct (H5 Ham m k w Hm) as (c & Hc & Ht). exists c. split; [exact Hc|]. destruct w as [s|spans]; cbn [tells organizes] in *.
    + intros v Hv. specialize (Ht v Hv). cbn [leaf_does] in Ht. destruct c as [|x c]; [split; [intros _; exact Ht|contradiction]|]. split; [discriminate|]. intros _.
      destruct (cycled_ok (x :: c) (s_left s + (v - s_first s)) ltac:(discriminate)) as (e & He). exists e. split; [exact He|].
      destruct Ht as (y & Hy & Hsh). pose proof (cycled_map (as_label obj) _ _ _ He) as Hm'. cbn [map] in Hy, Hm'. rewrite Hm' in Hy. injection Hy as <-. exact Hsh.
    + intros j s v Hj Hv. destruct (Ht j s v Hj Hv) as [T1 T2]. split; intros Hcc.
      * destruct (T1 Hcc) as (d & s' & Hd). exact Hd.
      * destruct (T2 Hcc) as (e & leaf & s' & He & Hl & Hd). exists e. split; [exact He|]. exists leaf, s'. rewrite Efr. split; assumption.
  - exists org. split; [reflexivity|]. cbv zeta. rewrite Efr. split; [exact H6|exact H7].
Qed.

(** ** What a layout stands for *)
Definition now {L} (fd : feeds L) (n : nat -> Z) (fd1 : feeds L) : Prop :=
  forall k, 0 <= n k /\ forall i, 0 <= i -> to_come fd1 k i = to_come fd k (n k + i).
Lemma now_next {L} (fd fd1 fd2 : feeds L) n k x : now fd n fd1 -> feed_next fd1 k = (Some x, fd2) ->
  to_come fd k (n k) = Some x /\ now fd (taken n k 1) fd2.
Proof.
  intros Hn H. destruct (feed_next_spec _ _ _ _ H) as (A & B & C & _). split.
  - destruct (Hn k) as [_ Hk]. specialize (Hk 0 ltac:(lia)). rewrite Z.add_0_r in Hk. congruence.
  - intros j. destruct (Hn j) as [H0 Hj]. unfold taken. destruct (j =? k)%nat eqn:E.
    + apply Nat.eqb_eq in E. subst j. split; [lia|]. intros i Hi. rewrite C, Hj by lia. f_equal. lia.
    + apply Nat.eqb_neq in E. split; [exact H0|]. intros i Hi. rewrite <- Hj by exact Hi. unfold to_come. rewrite B by exact E. reflexivity.
Qed.
Lemma now_ended {L} (fd fd1 fd2 : feeds L) n k : now fd n fd1 -> feed_next fd1 k = (None, fd2) ->
  to_come fd k (n k) = None /\ fd2 = fd1.
Proof.
  intros Hn H. destruct (feed_next_spec _ _ _ _ H) as (A & _ & _ & D). split; [|apply D; reflexivity].
  destruct (Hn k) as [_ Hk]. specialize (Hk 0 ltac:(lia)). rewrite Z.add_0_r in Hk. congruence.
Qed.
Lemma now_pull {L} (fd fd1 fd2 : feeds L) n k m c : now fd n fd1 -> pull k m fd1 = (c, fd2) ->
  portion fd k (n k) (Z.of_nat m) c /\ now fd (taken n k (Z.of_nat m)) fd2.
Proof.
  intros Hn H. destruct (pull_spec _ _ _ _ _ H) as ((P0 & P) & Q & R). split; [split; [exact P0|]|].
  - intros i Hi. rewrite P by exact Hi. rewrite Z.add_0_l. apply (Hn k). lia.
  - intros j. destruct (Hn j) as [H0 Hj]. unfold taken. destruct (j =? k)%nat eqn:E.
    + apply Nat.eqb_eq in E. subst j. split; [lia|]. intros i Hi. rewrite R, Hj by lia. f_equal. lia.
    + apply Nat.eqb_neq in E. split; [exact H0|]. intros i Hi. rewrite <- Hj by exact Hi. unfold to_come. rewrite Q by exact E. reflexivity.
Qed.
Definition grows (n n' : nat -> Z) : Prop := forall k, n k <= n' k.
Lemma grows_taken n k m : 0 <= m -> grows n (taken n k m).
Proof. intros H j. unfold taken. destruct (j =? k)%nat; lia. Qed.
Lemma grows_trans n1 n2 n3 : grows n1 n2 -> grows n2 n3 -> grows n1 n3.
Proof. intros A B k. specialize (A k). specialize (B k). lia. Qed.

(** What the layout [u] is taken to be is what [ly] stands for. *)
Definition stands_so {L} obj f (fd : feeds (layout L)) ly (u : span -> feeds (layout L) -> layout L * feeds (layout L))
  (o : span -> org_state L * feeds (layout L) -> res (org_state L * feeds (layout L))) : Prop :=
  forall s st fd1 st' fd2 n, span_wf f s -> now fd n fd1 -> o s (st, fd1) = Ok (st', fd2) ->
    exists n', stands obj f fd n ly s (fst (u s fd1)) n' /\ now fd n' fd2 /\ grows n n'.

Lemma each_stands {L} obj f (fd : feeds (layout L)) (items : list (layout L)) u o :
  items <> [] -> (forall it, stands_so obj f fd it (u it) (o it)) -> (forall it, does_same (fun _ => True) f (u it) (o it)) ->
  forall spans, Forall (span_wf f) spans -> forall j r st fd1 st' fd2 n,
  (r <= length items)%nat -> (forall i, ((r + i) mod length items = (j + i) mod length items)%nat) ->
  now fd n fd1 -> run_cycle (map o items) (skipn r (map o items)) spans (st, fd1) = Ok (st', fd2) ->
  exists n', stands_each obj f fd n items j spans (fst (unroll_cycle (map u items) (skipn r (map u items)) spans fd1)) n'
    /\ now fd n' fd2 /\ grows n n'.
Proof.
  intros Hne Hso Hsame. induction spans as [|s spans IH]; intros HF j r st fd1 st' fd2 n Hr Hm Hn H.
  - cbn [run_cycle] in H. injection H as <- <-. exists n. split; [|split; [exact Hn|intros k; lia]].
    cbn [unroll_cycle fst]. constructor.
  - assert (Hs := Forall_inv HF). assert (HF' := Forall_inv_tail HF).
    destruct (cycle_pick items r j Hne Hr Hm) as (it & r' & Hit & Hr' & Hm' & Erun & Eun). rewrite Erun in H. rewrite Eun.
    destruct (o it s (st, fd1)) as [[st1 fd3]|e] eqn:E; [|discriminate]. cbn [bind] in H.
    destruct (Hso it s st fd1 st1 fd3 n Hs Hn E) as (n1 & S1 & N1 & G1).
    specialize (Hsame it s st fd1 Hs I). rewrite E in Hsame. destruct (u it s fd1) as [x fd3']. cbn [fst snd] in *. destruct Hsame as (_ & -> & _).
    destruct (IH HF' (S j) r' st1 fd3 st' fd2 n1 Hr' Hm' N1 H) as (n2 & S2 & N2 & G2).
    destruct (unroll_cycle (map u items) (skipn r' (map u items)) spans fd3) as [its fd4]. cbn [fst] in *.
    exists n2. split; [|split; [exact N2|exact (grows_trans _ _ _ G1 G2)]].
    exact (each_span obj f fd n items j s spans it x n1 its n2 Hit S1 S2).
Qed.

Lemma saved_pick {A} (saved : list A) r j : saved <> [] -> (r <= length saved)%nat ->
  (forall i, ((r + i) mod length saved = (j + i) mod length saved)%nat) ->
  exists e r', nth_error saved (j mod length saved)%nat = Some e /\ (r' <= length saved)%nat
    /\ (forall i, ((r' + i) mod length saved = (S j + i) mod length saved)%nat)
    /\ repeat_saved saved (skipn r saved) = (Some e, mkCyc saved (Some (skipn r' saved))).
Proof.
  intros Hne Hr Hm. assert (Hn : (length saved <> 0)%nat) by (destruct saved; [contradiction|discriminate]).
  pose proof (Hm 0%nat) as H0. rewrite !Nat.add_0_r in H0.
  destruct (Nat.eq_dec r (length saved)) as [->|Hlt].
  - rewrite Nat.mod_same in H0 by exact Hn. rewrite <- H0, skipn_all. destruct saved as [|x t] eqn:E; [contradiction|]. rewrite <- E in *.
    exists x, 1%nat. split; [rewrite E; reflexivity|]. split; [lia|]. split.
    + intros i. specialize (Hm (S i)). replace (S j + i)%nat with (j + S i)%nat by lia. rewrite <- Hm.
      replace (length saved + S i)%nat with (1 + i + 1 * length saved)%nat by lia. rewrite Nat.mod_add by exact Hn. reflexivity.
    + rewrite E. reflexivity.
  - rewrite Nat.mod_small in H0 by lia. rewrite <- H0. destruct (nth_error saved r) as [x|] eqn:E.
    2:{ apply nth_error_None in E. lia. }
    exists x, (S r). split; [reflexivity|]. split; [lia|]. split.
    + intros i. specialize (Hm (S i)). replace (S j + i)%nat with (j + S i)%nat by lia. rewrite <- Hm. f_equal. lia.
    + assert (Es : skipn r saved = x :: skipn (S r) saved).
      { clear - E. revert r E. induction saved as [|y saved IH]; intros r E; [destruct r; discriminate|]. destruct r as [|r]; [injection E as <-; reflexivity|]. cbn [nth_error] in E. cbn [skipn]. rewrite (IH r E). reflexivity. }
      rewrite Es. reflexivity.
Qed.

(** The cycle at span [j]. *)
Definition at_span {L} (fd : feeds L) (n : nat -> Z) (k : nat) (c : cyc L) (saved : list L) (j : nat) : Prop :=
  (c = mkCyc saved None /\ j = length saved)
  \/ (to_come fd k (n k) = None /\ saved <> [] /\ exists r, c = mkCyc saved (Some (skipn r saved)) /\ (r <= length saved)%nat
      /\ forall i, ((r + i) mod length saved = (j + i) mod length saved)%nat).
Lemma at_span_grows {L} (fd : feeds L) n n' k c saved j : (forall i, 0 <= n i) -> grows n n' -> at_span fd n k c saved j -> at_span fd n' k c saved j.
Proof.
  intros H0 Hg [H|(H & H1)]; [left; exact H|right; split; [|exact H1]]. apply (to_come_none fd k (n k)); [|exact H].
  specialize (Hg k). specialize (H0 k). lia.
Qed.
Lemma next_stands {L} obj f (fd : feeds (layout L)) k u o :
  (forall it, stands_so obj f fd it (u it) (o it)) -> (forall it, does_same (fun _ => True) f (u it) (o it)) ->
  forall spans, Forall (span_wf f) spans -> forall c saved j st fd1 st' fd2 n,
  at_span fd n k c saved j -> now fd n fd1 -> run_deep o k c spans st fd1 = Ok (st', fd2) ->
  exists n', stands_next obj f fd n k saved j spans (fst (unroll_run u k c spans fd1)) n' /\ now fd n' fd2 /\ grows n n'.
Proof.
  intros Hso Hsame. induction spans as [|s spans IH]; intros HF c saved j st fd1 st' fd2 n Hc Hn H.
  - cbn [run_deep] in H. injection H as <- <-. exists n. split; [|split; [exact Hn|intros i; lia]]. cbn [unroll_run fst]. constructor.
  - assert (Hs := Forall_inv HF). assert (HF' := Forall_inv_tail HF). cbn [run_deep unroll_run] in *.
    (* a span with element [e] *)
    assert (Step : forall e c' saved' fd3 n0, grows n n0 -> now fd n0 fd3 -> at_span fd n0 k c' saved' (S j) ->
      (do sf <- o e s (st, fd3); run_deep o k c' spans (fst sf) (snd sf)) = Ok (st', fd2) ->
      exists n1 n', stands obj f fd n0 e s (fst (u e s fd3)) n1
        /\ stands_next obj f fd n1 k saved' (S j) spans (fst (unroll_run u k c' spans (snd (u e s fd3)))) n' /\ now fd n' fd2 /\ grows n n').
    { intros e c' saved' fd3 n0 G0 N0 Hc' H'. destruct (o e s (st, fd3)) as [[st1 fd4]|er] eqn:E; [|discriminate]. cbn [bind fst snd] in H'.
      destruct (Hso e s st fd3 st1 fd4 n0 Hs N0 E) as (n1 & S1 & N1 & G1).
      specialize (Hsame e s st fd3 Hs I). rewrite E in Hsame. destruct Hsame as (_ & -> & _).
      assert (Hc1 : at_span fd n1 k c' saved' (S j)) by (apply (at_span_grows fd n0); [intros i; apply (N0 i)|exact G1|exact Hc']).
      destruct (IH HF' c' saved' (S j) st1 fd4 st' fd2 n1 Hc1 N1 H') as (n2 & S2 & N2 & G2).
      exists n1, n2. split; [exact S1|]. split; [exact S2|]. split; [exact N2|]. exact (grows_trans _ _ _ G0 (grows_trans _ _ _ G1 G2)). }
    assert (Again : forall r, to_come fd k (n k) = None -> saved <> [] -> (r <= length saved)%nat ->
      (forall i, ((r + i) mod length saved = (j + i) mod length saved)%nat) ->
      exists e c', repeat_saved saved (skipn r saved) = (Some e, c') /\ at_span fd n k c' saved (S j) /\ nth_error saved (j mod length saved)%nat = Some e).
    { intros r Hend Hne Hr Hm. destruct (saved_pick saved r j Hne Hr Hm) as (e & r' & He & Hr' & Hm' & Er).
      exists e, (mkCyc saved (Some (skipn r' saved))). split; [exact Er|]. split; [|exact He]. right. split; [exact Hend|]. split; [exact Hne|].
      exists r'. split; [reflexivity|]. split; [exact Hr'|exact Hm']. }
    assert (Finish : forall e c', to_come fd k (n k) = None -> at_span fd n k c' saved (S j) -> nth_error saved (j mod length saved)%nat = Some e ->
      (do sf <- o e s (st, fd1); run_deep o k c' spans (fst sf) (snd sf)) = Ok (st', fd2) ->
      exists n', stands_next obj f fd n k saved j (s :: spans) (fst (let (it, fd3) := u e s fd1 in let (its, fd4) := unroll_run u k c' spans fd3 in (it :: its, fd4))) n'
        /\ now fd n' fd2 /\ grows n n').
    { intros e c' Hend Hc' He H'. destruct (Step e c' saved fd1 n (fun i => Z.le_refl _) Hn Hc' H') as (n1 & n' & S1 & S2 & N & G).
      destruct (u e s fd1) as [it fd3]. cbn [fst snd] in *. destruct (unroll_run u k c' spans fd3) as [its fd4]. cbn [fst] in *.
      exists n'. split; [|split; [exact N|exact G]]. exact (next_again obj f fd n k saved j s spans e it n1 its n' Hend He S1 S2). }
    destruct Hc as [(-> & Ej)|(Hend & Hne & r & -> & Hr & Hm)]; unfold cyc_next in *; cbn [cy_rest cy_saved] in *.
    + destruct (feed_next fd1 k) as [[e|] fd3] eqn:E.
      * destruct (now_next _ _ _ _ _ _ Hn E) as [He Hn3].
        destruct (Step e (mkCyc (saved ++ [e]) None) (saved ++ [e]) fd3 (taken n k 1) (grows_taken n k 1 ltac:(lia)) Hn3) as (n1 & n' & S1 & S2 & N & G).
        { left. split; [reflexivity|]. rewrite app_length. cbn. lia. }
        { exact H. }
        destruct (u e s fd3) as [it fd4]. cbn [fst snd] in *. destruct (unroll_run u k _ spans fd4) as [its fd5]. cbn [fst] in *.
        exists n'. split; [|split; [exact N|exact G]]. exact (next_take obj f fd n k saved j s spans e it n1 its n' He S1 S2).
      * destruct (now_ended _ _ _ _ _ Hn E) as [Hend ->]. destruct saved as [|x t] eqn:Es.
        { cbn [repeat_saved fst] in *. injection H as <- <-. exists n. split; [|split; [exact Hn|intros i; lia]]. apply next_none. exact Hend. }
        rewrite <- Es in *. assert (Hne : saved <> []) by (rewrite Es; discriminate).
        destruct (Again (length saved) Hend Hne (le_n _) ltac:(rewrite Ej; reflexivity)) as (e & c' & Er & Hc' & He).
        rewrite skipn_all in Er. rewrite Er in *. exact (Finish e c' Hend Hc' He H).
    + destruct (Again r Hend Hne Hr Hm) as (e & c' & Er & Hc' & He). rewrite Er in *. exact (Finish e c' Hend Hc' He H).
Qed.

Lemma all_stand {L} obj f (fd : feeds (layout L)) : fr_wf f -> forall n ly, stands_so obj f fd ly (unroll_any obj n f ly) (organize_deep obj n f ly).
Proof.
  intros Hw.
  assert (Leaf : forall n (ly : layout L), match ly with LPat _ | LLab _ => True | _ => False end -> stands_so obj f fd ly (unroll_any obj n f ly) (organize_deep obj n f ly)).
  { intros m ly Hl s st fd1 st' fd2 n Hs Hn H. destruct ly as [d items|d k|[l|k]|x]; try contradiction.
    - assert (E : fd2 = fd1). { destruct m; cbn [organize_deep fst snd] in H; destruct (apply_pattern (PList l) s st); cbn [bind] in H; congruence. }
      subst fd2. exists n. split; [|split; [exact Hn|intros k; lia]]. destruct m; constructor.
    - assert (E : organize_deep obj m f (LPat (PRem k)) s (st, fd1) = apply_deep obj k s st fd1) by (destruct m; reflexivity).
      rewrite E, (apply_same obj f k s st fd1 Hs) in H. clear E. cbv zeta in H.
      assert (E : unroll_any obj m f (LPat (PRem k)) s fd1 = if s_left s <? 0 then (LPat (PList []), fd1)
        else let (c, fd') := pull k (Z.to_nat (s_left s) + span_len s) fd1 in (LPat (PList (map (as_label obj) c)), fd')) by (destruct m; reflexivity).
      rewrite E. clear E. destruct (s_left s <? 0) eqn:El; cbn [fst snd organize] in *.
      { unfold apply_pattern in H. rewrite El in H. discriminate. }
      destruct (pull k (Z.to_nat (s_left s) + span_len s) fd1) as [c fd3] eqn:Ep. cbn [fst snd] in *.
      destruct (organize f _ s st) as [st1|e]; cbn [bind] in H; [|discriminate]. injection H as <- <-.
      destruct (now_pull _ _ _ _ _ _ _ Hn Ep) as [P N]. assert (Ew : Z.of_nat (Z.to_nat (s_left s) + span_len s) = wants (AskUnits s)).
      { unfold wants, span_len, span_wf in *. lia. }
      rewrite Ew in P, N. exists (taken n k (wants (AskUnits s))). split; [constructor; [lia|exact P]|]. split; [exact N|]. apply grows_taken. lia.
    - assert (E : fd2 = fd1). { destruct m; cbn [organize_deep fst snd] in H; unfold apply_label in H; cbn [bind] in H; congruence. }
      subst fd2. exists n. split; [|split; [exact Hn|intros k; lia]]. destruct m; constructor. }
  induction n as [|m IH]; intros ly; (destruct ly as [d items|d k|p|x]; [| |apply Leaf; exact I|apply Leaf; exact I]); intros s st fd1 st' fd2 n Hs Hn H; [discriminate|discriminate| |];
    cbn [organize_deep unroll_any fst snd] in *; (destruct (partition f d s) as [spans|e] eqn:Hp; cbn [bind] in *; [|discriminate]);
    pose proof (spans_wf _ _ _ _ Hw Hs Hp) as HF.
  - destruct items as [|i0 items0] eqn:Ei.
    + cbn [map] in *. assert (E : unroll_cycle (F:=feeds (layout L)) (L:=L) [] [] spans fd1 = ([], fd1)) by (destruct spans; reflexivity). rewrite E. cbn [fst].
      assert (E2 : forall S (x : S), run_cycle [] [] spans x = Ok x) by (intros; destruct spans; reflexivity). rewrite E2 in H. injection H as <- <-.
      exists n. split; [constructor|split; [exact Hn|intros k; lia]].
    + rewrite <- Ei in *. assert (Hne : items <> []) by (rewrite Ei; discriminate).
      destruct (each_stands obj f fd items (unroll_any obj m f) (organize_deep obj m f) Hne IH (same_all obj f Hw m) spans HF 0 0 st fd1 st' fd2 n ltac:(lia) (fun i => eq_refl) Hn H) as (n' & S1 & N & G).
      cbn [skipn] in S1. destruct (unroll_cycle _ _ spans fd1) as [its fd3]. cbn [fst] in *. exists n'. split; [|split; [exact N|exact G]].
      exact (stands_org obj f fd n d items spans s its n' Hne Hp S1).
  - destruct (next_stands obj f fd k (unroll_any obj m f) (organize_deep obj m f) IH (same_all obj f Hw m) spans HF new_cyc [] 0 st fd1 st' fd2 n
      ltac:(left; split; reflexivity) Hn H) as (n' & S1 & N & G).
    destruct (unroll_run _ k new_cyc spans fd1) as [its fd3]. cbn [fst] in *. exists n'. split; [|split; [exact N|exact G]].
    exact (stands_iterator obj f fd n d k spans s its n' Hp S1).
Qed.

Scheme stands_mut := Minimality for stands Sort Prop
with each_mut := Minimality for stands_each Sort Prop
with next_mut := Minimality for stands_next Sort Prop.

(** *** It is a layout without iterators, and only one *)
Lemma stands_without {L} obj f (fd : feeds (layout L)) n ly s ly' n' : stands obj f fd n ly s ly' n' -> without ly'.
Proof.
  intros H. refine (stands_mut L obj f fd (fun n ly s ly' n' => without ly') (fun n items j spans its n' => forall it, In it its -> without it)
    (fun n k saved j spans its n' => forall it, In it its -> without it) _ _ _ _ _ _ _ _ _ _ _ _ n ly s ly' n' H); clear.
  - intros; constructor.
  - intros; constructor.
  - intros; constructor.
  - intros; constructor. intros it [].
  - intros; constructor; assumption.
  - intros; constructor; assumption.
  - intros n items j it [].
  - intros n items j s rest it it' n1 its n' _ _ H1 _ H2 x [<-|Hx]; [exact H1|apply H2; exact Hx].
  - intros n k saved j it [].
  - intros n k j s rest _ it [].
  - intros n k saved j s rest e it n1 its n' _ _ H1 _ H2 x [<-|Hx]; [exact H1|apply H2; exact Hx].
  - intros n k saved j s rest e it n1 its n' _ _ _ H1 _ H2 x [<-|Hx]; [exact H1|apply H2; exact Hx].
Qed.
Lemma nth_same {A} (l l' : list A) : (forall i, nth_error l i = nth_error l' i) -> l = l'.
Proof.
  revert l'. induction l as [|x l IH]; intros l' H; destruct l' as [|y l']; [reflexivity|discriminate (H 0%nat)|discriminate (H 0%nat)|].
  pose proof (H 0%nat) as H0. injection H0 as ->. f_equal. apply IH. intros i. exact (H (S i)).
Qed.
Lemma portion_one {L} (fd : feeds L) k n m c c' : portion fd k n m c -> portion fd k n m c' -> c = c'.
Proof.
  intros [H1 H2] [H3 H4]. apply nth_same. intros i. destruct (Z_lt_ge_dec (Z.of_nat i) m) as [Hi|Hi].
  - specialize (H2 (Z.of_nat i) ltac:(lia)). specialize (H4 (Z.of_nat i) ltac:(lia)). rewrite Nat2Z.id in *. congruence.
  - rewrite !(proj2 (nth_error_None _ _)) by lia. reflexivity.
Qed.
Lemma stands_one {L} obj f (fd : feeds (layout L)) n ly s ly1 n1 : stands obj f fd n ly s ly1 n1 ->
  forall ly2 n2, stands obj f fd n ly s ly2 n2 -> ly2 = ly1 /\ n2 = n1.
Proof.
  intros H. refine (stands_mut L obj f fd (fun n ly s ly1 n1 => forall ly2 n2, stands obj f fd n ly s ly2 n2 -> ly2 = ly1 /\ n2 = n1)
    (fun n items j spans its n' => forall its2 n2, stands_each obj f fd n items j spans its2 n2 -> its2 = its /\ n2 = n')
    (fun n k saved j spans its n' => forall its2 n2, stands_next obj f fd n k saved j spans its2 n2 -> its2 = its /\ n2 = n') _ _ _ _ _ _ _ _ _ _ _ _ n ly s ly1 n1 H); clear.
  - intros n x s ly2 n2 H. inversion H; subst. split; reflexivity.
  - intros n l s ly2 n2 H. inversion H; subst. split; reflexivity.
  - intros n k s c _ Hc ly2 n2 H. inversion H; subst.
    match goal with P : portion fd k (n k) (wants (AskUnits s)) ?c2 |- _ => match c2 with c => fail 1 | _ => rewrite (portion_one _ _ _ _ _ _ P Hc) end end. split; reflexivity.
  - intros n d s ly2 n2 H. inversion H; subst; [split; reflexivity|contradiction].
  - intros n d items spans s its n' Hne Hp _ IH ly2 n2 H. inversion H; subst; [contradiction|].
    match goal with P : partition f d s = Ok ?sp, Q : stands_each _ _ _ _ _ _ ?sp _ _ |- _ => match sp with spans => fail 1 | _ => rewrite P in Hp; injection Hp as -> end end.
    match goal with Q : stands_each _ _ _ _ _ _ _ ?i2 n2 |- _ => destruct (IH _ _ Q) as [-> ->] end. split; reflexivity.
  - intros n d k spans s its n' Hp _ IH ly2 n2 H. inversion H; subst.
    match goal with P : partition f d s = Ok ?sp, Q : stands_next _ _ _ _ _ _ _ ?sp _ _ |- _ => match sp with spans => fail 1 | _ => rewrite P in Hp; injection Hp as -> end end.
    match goal with Q : stands_next _ _ _ _ _ _ _ _ ?i2 n2 |- _ => destruct (IH _ _ Q) as [-> ->] end. split; reflexivity.
  - intros n items j its2 n2 H. inversion H; subst. split; reflexivity.
  - intros n items j s rest it it' n1 its n' Hit _ IH1 _ IH2 its2 n2 H. inversion H; subst.
    match goal with P : nth_error items _ = Some ?e |- _ => match e with it => fail 1 | _ => rewrite P in Hit; injection Hit as -> end end.
    match goal with P : stands _ _ _ n it s _ _ |- _ => destruct (IH1 _ _ P) as [-> ->] end.
    match goal with P : stands_each _ _ _ n1 items _ rest _ _ |- _ => destruct (IH2 _ _ P) as [-> ->] end. split; reflexivity.
  - intros n k saved j its2 n2 H. inversion H; subst. split; reflexivity.
  - intros n k j s rest Hn its2 n2 H. inversion H; subst; [split; reflexivity|congruence|].
    match goal with P : nth_error [] _ = Some _ |- _ => destruct (j mod length (@nil (layout L)))%nat in P; discriminate P end.
  - intros n k saved j s rest e it n1 its n' He _ IH1 _ IH2 its2 n2 H. inversion H; subst; [congruence| |congruence].
    match goal with P : to_come fd k (n k) = Some ?e2 |- _ => match e2 with e => fail 1 | _ => rewrite P in He; injection He as -> end end.
    match goal with P : stands _ _ _ _ e s _ _ |- _ => destruct (IH1 _ _ P) as [-> ->] end.
    match goal with P : stands_next _ _ _ n1 k _ _ rest _ _ |- _ => destruct (IH2 _ _ P) as [-> ->] end. split; reflexivity.
  - intros n k saved j s rest e it n1 its n' Hn He _ IH1 _ IH2 its2 n2 H. inversion H; subst; [|congruence|].
    { destruct (j mod length (@nil (layout L)))%nat in He; discriminate He. }
    match goal with P : nth_error saved _ = Some ?e2 |- _ => match e2 with e => fail 1 | _ => rewrite P in He; injection He as -> end end.
    match goal with P : stands _ _ _ _ e s _ _ |- _ => destruct (IH1 _ _ P) as [-> ->] end.
    match goal with P : stands_next _ _ _ n1 k _ _ rest _ _ |- _ => destruct (IH2 _ _ P) as [-> ->] end. split; reflexivity.
Qed.

(** *** With enough depth it is done *)
Definition done_as {L} (fd : feeds (layout L)) n' (plain : res (org_state L)) (r : res (org_state L * feeds (layout L))) : Prop :=
  match plain with
  | Ok st' => exists fd2, now fd n' fd2 /\ r = Ok (st', fd2)
  | Err e => r = Err e
  end.
Lemma stands_done {L} obj f (fd : feeds (layout L)) : fr_wf f -> forall n ly s ly' n', stands obj f fd n ly s ly' n' -> span_wf f s ->
  (forall k, 0 <= n k) -> grows n n' /\ exists N, forall m, (N <= m)%nat -> forall st fd1, now fd n fd1 -> done_as fd n' (organize f ly' s st) (organize_deep obj m f ly s (st, fd1)).
Proof.
  intros Hw n ly s ly' n' H.
  refine (stands_mut L obj f fd (fun n ly s ly' n' => span_wf f s -> (forall k, 0 <= n k) -> grows n n' /\ exists N, forall m, (N <= m)%nat -> forall st fd1, now fd n fd1 -> done_as fd n' (organize f ly' s st) (organize_deep obj m f ly s (st, fd1)))
    (fun n items j spans its n' => Forall (span_wf f) spans -> (forall k, 0 <= n k) -> items <> [] -> length its = length spans /\ grows n n' /\ exists N, forall m, (N <= m)%nat -> forall r st fd1 all,
       (r <= length items)%nat -> (forall i, ((r + i) mod length items = (j + i) mod length items)%nat) -> now fd n fd1 ->
       done_as fd n' (run_cycle all (map (organize f) its) spans st) (run_cycle (map (organize_deep obj m f) items) (skipn r (map (organize_deep obj m f) items)) spans (st, fd1)))
    (fun n k saved j spans its n' => Forall (span_wf f) spans -> (forall k, 0 <= n k) -> (saved <> [] -> length its = length spans) /\ grows n n' /\ exists N, forall m, (N <= m)%nat -> forall c st fd1 all,
       at_span fd n k c saved j -> now fd n fd1 -> (saved = [] -> its = [] -> all = []) ->
       done_as fd n' (run_cycle all (map (organize f) its) spans st) (run_deep (organize_deep obj m f) k c spans st fd1)) _ _ _ _ _ _ _ _ _ _ _ _ n ly s ly' n' H); clear n ly s ly' n' H.
  - intros n x s Hs H0. split; [intros k; lia|]. exists 0%nat. intros m _ st fd1 Hn. unfold done_as. cbn [organize]. unfold apply_label. exists fd1. split; [exact Hn|]. destruct m; reflexivity.
  - intros n l s Hs H0. split; [intros k; lia|]. exists 0%nat. intros m _ st fd1 Hn. unfold done_as. cbn [organize]. 
    assert (E : organize_deep obj m f (LPat (PList l)) s (st, fd1) = (do st' <- apply_pattern (PList l) s st; Ok (st', fd1))) by (destruct m; reflexivity).
    rewrite E. destruct (apply_pattern (PList l) s st); cbn [bind]; [exists fd1; split; [exact Hn|reflexivity]|reflexivity].
  - intros n k s c Hl Hc Hs H0. assert (Ew : Z.of_nat (Z.to_nat (s_left s) + span_len s) = wants (AskUnits s)) by (unfold wants, span_len, span_wf in *; lia).
    split; [apply grows_taken; lia|]. exists 0%nat. intros m _ st fd1 Hn.
    assert (E : organize_deep obj m f (LPat (PRem k)) s (st, fd1) = apply_deep obj k s st fd1) by (destruct m; reflexivity).
    rewrite E, (apply_same obj f k s st fd1 Hs). clear E. cbv zeta. assert (El : (s_left s <? 0) = false) by lia. rewrite El.
    destruct (pull k (Z.to_nat (s_left s) + span_len s) fd1) as [c1 fd2] eqn:Ep. destruct (now_pull _ _ _ _ _ _ _ Hn Ep) as [P N]. rewrite Ew in P, N.
    rewrite (portion_one _ _ _ _ _ _ P Hc). cbn [fst snd]. unfold done_as. destruct (organize f _ s st); cbn [bind]; [exists fd2; split; [exact N|reflexivity]|reflexivity].
  - intros n d s Hs H0. split; [intros k; lia|]. exists 1%nat. intros m Hm st fd1 Hn. destruct m as [|m]; [lia|]. unfold done_as. cbn [organize organize_deep].
    destruct (partition f d s) as [spans|e]; cbn [bind map]; [|reflexivity]. destruct spans; (exists fd1; split; [exact Hn|reflexivity]).
  - intros n d items spans s its n' Hne Hp _ IH Hs H0. destruct (IH (spans_wf _ _ _ _ Hw Hs Hp) H0 Hne) as (Hlen & G & N & IHN). split; [exact G|].
    exists (S N). intros m Hm st fd1 Hn. destruct m as [|m]; [lia|]. cbn [organize organize_deep]. rewrite Hp. cbn [bind].
    exact (IHN m ltac:(lia) 0%nat st fd1 _ ltac:(lia) (fun i => eq_refl) Hn).
  - intros n d k spans s its n' Hp _ IH Hs H0. destruct (IH (spans_wf _ _ _ _ Hw Hs Hp) H0) as (_ & G & N & IHN). split; [exact G|].
    exists (S N). intros m Hm st fd1 Hn. destruct m as [|m]; [lia|]. cbn [organize organize_deep fst snd]. rewrite Hp. cbn [bind].
    apply (IHN m ltac:(lia) new_cyc st fd1 _); [left; split; reflexivity|exact Hn|]. intros _ ->. reflexivity.
  - intros n items j _ H0 _. split; [reflexivity|]. split; [intros k; lia|]. exists 0%nat. intros m _ r st fd1 all _ _ Hn. cbn [map run_cycle done_as]. exists fd1. split; [exact Hn|reflexivity].
  - intros n items j s rest it it' n1 its n' Hit _ IH1 _ IH2 HF H0 Hne.
    destruct (IH1 (Forall_inv HF) H0) as (G1 & N1 & D1). assert (H1 : forall k, 0 <= n1 k) by (intros k; specialize (H0 k); specialize (G1 k); lia).
    destruct (IH2 (Forall_inv_tail HF) H1 Hne) as (Hlen & G2 & N2 & D2). split; [cbn [length]; f_equal; exact Hlen|]. split; [exact (grows_trans _ _ _ G1 G2)|].
    exists (Nat.max N1 N2). intros m Hm r st fd1 all Hr Hmod Hn. destruct (cycle_pick items r j Hne Hr Hmod) as (it2 & r' & Hit2 & Hr' & Hm' & Erun & _).
    rewrite Hit in Hit2. injection Hit2 as <-. rewrite Erun. cbn [map run_cycle]. specialize (D1 m ltac:(lia) st fd1 Hn). unfold done_as in D1.
    destruct (organize f it' s st) as [st1|e]; [|rewrite D1; reflexivity]. destruct D1 as (fd2 & N & ->). cbn [bind]. exact (D2 m ltac:(lia) r' st1 fd2 all Hr' Hm' N).
  - intros n k saved j _ H0. split; [reflexivity|]. split; [intros i; lia|]. exists 0%nat. intros m _ c st fd1 all _ Hn _. cbn [map run_cycle run_deep done_as]. exists fd1. split; [exact Hn|reflexivity].
  - intros n k j s rest Hend _ H0. split; [contradiction|]. split; [intros i; lia|]. exists 0%nat. intros m _ c st fd1 all Hc Hn Hall. rewrite (Hall eq_refl eq_refl). cbn [map run_cycle run_deep done_as].
    destruct Hc as [[-> _]|(_ & Hne & _)]; [|contradiction]. unfold cyc_next. cbn [cy_rest cy_saved]. destruct (feed_next fd1 k) as [[e|] fd2] eqn:E.
    + destruct (now_next _ _ _ _ _ _ Hn E). congruence.
    + destruct (now_ended _ _ _ _ _ Hn E) as [_ ->]. cbn [repeat_saved]. exists fd1. split; [exact Hn|reflexivity].
  - intros n k saved j s rest e it n1 its n' He _ IH1 _ IH2 HF H0.
    assert (H0' : forall i, 0 <= taken n k 1 i) by (intros i; specialize (H0 i); pose proof (grows_taken n k 1 ltac:(lia) i); lia).
    destruct (IH1 (Forall_inv HF) H0') as (G1 & N1 & D1). assert (H1 : forall i, 0 <= n1 i) by (intros i; specialize (H0' i); specialize (G1 i); lia).
    destruct (IH2 (Forall_inv_tail HF) H1) as (Hlen & G2 & N2 & D2). assert (Hne : saved ++ [e] <> []) by (destruct saved; discriminate).
    split; [intros _; cbn [length]; f_equal; exact (Hlen Hne)|]. split; [exact (grows_trans _ _ _ (grows_taken n k 1 ltac:(lia)) (grows_trans _ _ _ G1 G2))|].
    exists (Nat.max N1 N2). intros m Hm c st fd1 all Hc Hn Hall. cbn [map run_cycle run_deep].
    destruct Hc as [[-> Ej]|(Hend & _)]; [|congruence]. unfold cyc_next. cbn [cy_rest cy_saved]. destruct (feed_next fd1 k) as [[e2|] fd2] eqn:E.
    2:{ destruct (now_ended _ _ _ _ _ Hn E). congruence. }
    destruct (now_next _ _ _ _ _ _ Hn E) as [He2 Hn2]. rewrite He in He2. injection He2 as <-.
    specialize (D1 m ltac:(lia) st fd2 Hn2). unfold done_as in D1.
    destruct (organize f it s st) as [st1|er]; [|rewrite D1; reflexivity]. destruct D1 as (fd3 & N & ->). cbn [bind fst snd].
    apply (D2 m ltac:(lia)); [left; split; [reflexivity|rewrite app_length; cbn; lia]|exact N|intros H; destruct (Hne H)].
  - intros n k saved j s rest e it n1 its n' Hend He _ IH1 _ IH2 HF H0.
    destruct (IH1 (Forall_inv HF) H0) as (G1 & N1 & D1). assert (H1 : forall i, 0 <= n1 i) by (intros i; specialize (H0 i); specialize (G1 i); lia).
    destruct (IH2 (Forall_inv_tail HF) H1) as (Hlen & G2 & N2 & D2).
    assert (Hne : saved <> []) by (intros ->; destruct (j mod length (@nil (layout L)))%nat in He; discriminate He).
    split; [intros _; cbn [length]; f_equal; exact (Hlen Hne)|]. split; [exact (grows_trans _ _ _ G1 G2)|].
    exists (Nat.max N1 N2). intros m Hm c st fd1 all Hc Hn Hall. cbn [map run_cycle run_deep].
    assert (Next : exists c', cyc_next k c fd1 = (Some e, c', fd1) /\ at_span fd n k c' saved (S j)).
    { assert (Rep : forall r, (r <= length saved)%nat -> (forall i, ((r + i) mod length saved = (j + i) mod length saved)%nat) ->
        exists c', repeat_saved saved (skipn r saved) = (Some e, c') /\ at_span fd n k c' saved (S j)).
      { intros r Hr Hmod. destruct (saved_pick saved r j Hne Hr Hmod) as (e2 & r' & He2 & Hr' & Hm' & Er). rewrite He in He2. injection He2 as <-.
        exists (mkCyc saved (Some (skipn r' saved))). split; [exact Er|]. right. split; [exact Hend|]. split; [exact Hne|]. exists r'. split; [reflexivity|]. split; [exact Hr'|exact Hm']. }
      destruct Hc as [[-> Ej]|(_ & _ & r & -> & Hr & Hmod)]; unfold cyc_next; cbn [cy_rest cy_saved].
      - destruct (feed_next fd1 k) as [[e2|] fd2] eqn:E; [destruct (now_next _ _ _ _ _ _ Hn E); congruence|]. destruct (now_ended _ _ _ _ _ Hn E) as [_ ->].
        destruct (Rep (length saved) (le_n _) ltac:(rewrite Ej; reflexivity)) as (c' & Er & Hc'). rewrite skipn_all in Er. rewrite Er. exists c'. split; [reflexivity|exact Hc'].
      - destruct (Rep r Hr Hmod) as (c' & Er & Hc'). rewrite Er. exists c'. split; [reflexivity|exact Hc']. }
    destruct Next as (c' & -> & Hc'). specialize (D1 m ltac:(lia) st fd1 Hn). unfold done_as in D1.
    destruct (organize f it s st) as [st1|er]; [|rewrite D1; reflexivity]. destruct D1 as (fd3 & N & ->). cbn [bind fst snd].
    apply (D2 m ltac:(lia)); [apply (at_span_grows fd n); assumption|exact N|intros Hx; destruct (Hne Hx)].
Qed.

(** *** Timeboards *)
Lemma stands_top {L} obj f (fd : feeds (layout L)) n org s ly n' : match org with LOrg _ _ | LOrgRem _ _ => True | _ => False end ->
  stands obj f fd n org s ly n' -> top_organizer ly = Ok ly.
Proof. intros Ho H. destruct H; try contradiction; reflexivity. Qed.
Lemma C66_stands_pf : forall (L : Type) (obj : layout L -> L) n (a : tb_args L) (fd : feeds (layout L)) tb fd',
  build_deep obj n a fd = Ok (tb, fd') ->
  let f := tl_frame (tb_tl tb) in
  exists org ly m, top_organizer (a_layout a) = Ok org /\ stands obj f fd (fun _ => 0) org (whole_span f) ly m
    /\ without ly
    /\ (exists h, build (with_layout a ly) [] = Ok (tb, h))
    /\ (a_amendments a = [] -> forall u, 0 <= u < fr_len f -> follows (tb_tl tb) (a_default a) u ly (whole_span f))
    /\ forall k i, 0 <= i -> to_come fd' k i = to_come fd k (m k + i).
Proof.
  intros L obj n a fd tb fd' H.
  destruct (top_organizer (a_layout a)) as [org|e0] eqn:Eo.
  2:{ destruct (deep_early obj n a fd) as (e & E & _); [left; intros; congruence|congruence]. }
  destruct (mk_frame (a_freq a) (a_start a) (a_end a)) as [f|e0] eqn:Ef.
  2:{ destruct (deep_early obj n a fd) as (e & E & _); [right; intros; congruence|congruence]. }
  assert (Hw : fr_wf f) by (exact (proj1 (proj2 (proj2 (mk_frame_inv _ _ _ _ Ef))))).
  assert (Hs : span_wf f (whole_span f)) by (unfold span_wf, whole_span, fr_wf in *; cbn; lia).
  set (u := unroll_any obj n f org (whole_span f) fd).
  pose proof (build_same obj n a fd org f (fst u) (snd u) Eo Ef (unroll_top obj n f org _ fd (top_is_org _ _ Eo))
     (fun st => ltac:(pose proof (same_all obj f Hw n org (whole_span f) st fd Hs I) as R; destruct (organize_deep _ _ _ _ _ _) as [[st' fd1]|e]; [split; apply R|exact R]))) as R.
  rewrite H in R. destruct R as [[h Hb] Efd].
  assert (Eu : top_organizer (fst u) = Ok (fst u)) by (apply unroll_top; exact (top_is_org _ _ Eo)).
  pose proof Hb as Hb'. apply build_inv in Hb'.
  destruct Hb' as (org' & f' & tl0 & Eo' & Ef' & Et & Ea & _ & _ & _ & _ & _ & _ & _ & Efr & _).
  cbn [with_layout a_freq a_start a_end a_layout a_amendments a_default a_ref_end] in *. rewrite Ef in Ef'. injection Ef' as <-.
  rewrite Eu in Eo'. injection Eo' as <-. cbv zeta. rewrite Efr.
  assert (Hst : exists m, stands obj f fd (fun _ => 0) org (whole_span f) (fst u) m /\ now fd m fd' /\ grows (fun _ => 0) m).
  { unfold build_deep in H. rewrite Eo in H. cbn [bind] in H. rewrite Ef in H. cbn [bind] in H. unfold mk_timeline_deep in H. change (mkSpan 0 (fr_len f - 1) 0 0) with (whole_span f) in H. cbv zeta in H.
    set (st0 := mkSt _ _ _) in H. destruct (organize_deep obj n f org (whole_span f) (st0, fd)) as [[st1 fd1]|e] eqn:E; [|destruct (a_wt a); discriminate].
    assert (fd1 = fd').
    { pose proof (same_all obj f Hw n org (whole_span f) st0 fd Hs I) as R. rewrite E in R. destruct R as (_ & R & _). fold u in R. congruence. }
    subst fd1. apply (all_stand obj f fd Hw n org (whole_span f) st0 fd st1 fd' (fun _ => 0) Hs); [|exact E].
    intros k. split; [lia|]. intros i Hi. f_equal. }
  destruct Hst as (m & Hst & Hn & _). exists org, (fst u), m. split; [reflexivity|]. split; [exact Hst|]. split; [exact (stands_without _ _ _ _ _ _ _ _ Hst)|].
  split; [exists h; exact Hb|]. split.
  - intros Ham v Hv. rewrite Ham, amend_nil in Ea. injection Ea as Ea. rewrite <- Ea.
    destruct (tree_leaf f (fst u) _ _ [] tl0 h Hw Et v Hv) as (leaf & s & Hd & _ & Hdo). exists leaf, s.
    assert (Ef0 : tl_frame tl0 = f) by (rewrite Ea; exact Efr). rewrite Ef0. split; assumption.
  - intros k i Hi. apply (Hn k). exact Hi.
Qed.

Lemma C66_enough_pf : forall (L : Type) (obj : layout L -> L) (a : tb_args L) (fd : feeds (layout L)) org f ly m,
  top_organizer (a_layout a) = Ok org -> mk_frame (a_freq a) (a_start a) (a_end a) = Ok f ->
  stands obj f fd (fun _ => 0) org (whole_span f) ly m ->
  (forall ly' m', stands obj f fd (fun _ => 0) org (whole_span f) ly' m' -> ly' = ly /\ m' = m)
  /\ exists N, forall n, (N <= n)%nat ->
       match build (with_layout a ly) [] with
       | Ok (tb, _) => exists fd', build_deep obj n a fd = Ok (tb, fd') /\ forall k i, 0 <= i -> to_come fd' k i = to_come fd k (m k + i)
       | Err e => build_deep obj n a fd = Err e
       end.
Proof.
  intros L obj a fd org f ly m Eo Ef Hst. split; [exact (stands_one _ _ _ _ _ _ _ _ Hst)|].
  assert (Hw : fr_wf f) by (exact (proj1 (proj2 (proj2 (mk_frame_inv _ _ _ _ Ef))))).
  assert (Hs : span_wf f (whole_span f)) by (unfold span_wf, whole_span, fr_wf in *; cbn; lia).
  pose proof (stands_top _ _ _ _ _ _ _ _ (top_is_org _ _ Eo) Hst) as Et.
  destruct (stands_done obj f fd Hw _ _ _ _ _ Hst Hs (fun _ => Z.le_refl 0)) as (_ & N & D). exists N. intros n Hn.
  specialize (D n Hn (mkSt (repeat (a_default a) (Z.to_nat (fr_len f))) (repeat true (Z.to_nat (fr_len f))) []) fd).
  assert (H0 : now fd (fun _ => 0) fd) by (intros k; split; [lia|]; intros i Hi; f_equal). specialize (D H0). unfold done_as in D.
  unfold build_deep, build. rewrite Eo. cbn [bind with_layout a_layout a_freq a_start a_end a_wt a_ref_end a_default a_amendments a_name a_sel a_num].
  rewrite Et, Ef. cbn [bind]. unfold mk_timeline_deep, mk_timeline. change (mkSpan 0 (fr_len f - 1) 0 0) with (whole_span f). cbv zeta.
  set (st0 := mkSt _ _ _) in *. destruct (organize f ly (whole_span f) st0) as [st1|e].
  - destruct D as (fd2 & N2 & ->). cbn [bind fst snd].
    destruct (a_wt a); [| |reflexivity]; (match goal with |- context [amend ?t false ?am] => destruct (amend t false am) as [tl|e] end; cbn [bind];
      [eexists; split; [reflexivity|]; intros k i Hi; apply (N2 k); exact Hi|reflexivity]).
  - rewrite D. cbn [bind]. destruct (a_wt a); reflexivity.
Qed.

(** ** Iterators of labels *)
Definition lift {A L} (r : res (A * feeds L)) : res (A * feeds (layout L)) := do x <- r; Ok (fst x, of_labels (snd x)).
Definition cyc_lab {L} (c : cyc L) : cyc (layout L) := mkCyc (map LLab (cy_saved c)) (option_map (map LLab) (cy_rest c)).
Lemma labels_set {L} (fd : feeds L) k it : set_nth (of_labels fd) k (match it with (Finite l, n) => (Finite (map LLab l), n) | (Endless g, n) => (Endless (fun i => LLab (g i)), n) end) = of_labels (set_nth fd k it).
Proof.
  revert k. induction fd as [|x fd IH]; intros k; [destruct k; reflexivity|]. destruct k as [|k]; cbn [of_labels map set_nth].
  - f_equal. destruct it as [[l|g] n]; reflexivity.
  - f_equal. apply IH.
Qed.
Lemma labels_next {L} (fd : feeds L) k : feed_next (of_labels fd) k = (option_map LLab (fst (feed_next fd k)), of_labels (snd (feed_next fd k))).
Proof.
  unfold feed_next. assert (E : feed_get (of_labels fd) k = match feed_get fd k with (Finite l, n) => (Finite (map LLab l), n) | (Endless g, n) => (Endless (fun i => LLab (g i)), n) end).
  { unfold feed_get, of_labels. revert k. induction fd as [|[[l|g] n] fd IH]; intros k; destruct k; try reflexivity; cbn [map nth]; apply IH. }
  rewrite E. destruct (feed_get fd k) as [[l|g] n]; cbn [it_next].
  - rewrite nth_error_map. destruct (nth_error l n) as [x|]; cbn [option_map fst snd]; f_equal; [apply (labels_set fd k (Finite l, S n))|apply (labels_set fd k (Finite l, n))].
  - cbn [fst snd option_map]. f_equal. apply (labels_set fd k (Endless g, S n)).
Qed.
Lemma labels_repeat {L} (saved rest : list L) : repeat_saved (map LLab saved) (map (@LLab L) rest) = (option_map LLab (fst (repeat_saved saved rest)), cyc_lab (snd (repeat_saved saved rest))).
Proof. unfold repeat_saved. destruct rest as [|x rest]; [destruct saved as [|x saved]|]; reflexivity. Qed.
Lemma labels_cyc {L} k (c : cyc L) fd : cyc_next k (cyc_lab c) (of_labels fd) =
  (let '(o, c', fd') := cyc_next k c fd in (option_map LLab o, cyc_lab c', of_labels fd')).
Proof.
  unfold cyc_next. destruct c as [saved [rest|]]; cbn [cyc_lab cy_rest cy_saved option_map].
  - rewrite labels_repeat. destruct (repeat_saved saved rest). reflexivity.
  - rewrite labels_next. destruct (feed_next fd k) as [[x|] fd']; cbn [fst snd option_map].
    + unfold cyc_lab. cbn [cy_rest cy_saved option_map]. rewrite map_app. reflexivity.
    + change (@nil (layout L)) with (map (@LLab L) []). rewrite (labels_repeat saved []). destruct (repeat_saved saved []). reflexivity.
Qed.
Lemma labels_times {L} k n : forall (c : cyc L) fd, cyc_times k n (cyc_lab c) (of_labels fd) =
  (option_map (map LLab) (fst (cyc_times k n c fd)), of_labels (snd (cyc_times k n c fd))).
Proof.
  induction n as [|n IH]; intros c fd; [reflexivity|]. cbn [cyc_times]. rewrite labels_cyc. destruct (cyc_next k c fd) as [[[x|] c'] fd']; cbn [option_map]; [|reflexivity].
  rewrite IH. destruct (cyc_times k n c' fd') as [[l|] fd2]; reflexivity.
Qed.
Lemma labels_apply {L} obj k s (st : org_state L) fd : apply_deep obj k s st (of_labels fd) = lift (apply_iterator k s st fd).
Proof.
  unfold apply_deep, apply_iterator, lift. destruct (s_left s <? 0); [reflexivity|]. change (@new_cyc (layout L)) with (cyc_lab (@new_cyc L)). rewrite labels_times.
  destruct (cyc_times k _ new_cyc fd) as [[l|] fd']; cbn [fst snd option_map bind]; [|reflexivity].
  rewrite map_map. cbn [as_label]. rewrite map_id. reflexivity.
Qed.
Lemma labels_run {L} obj f k m spans : forall (c : cyc L) st fd, run_deep (organize_deep obj m f) k (cyc_lab c) spans st (of_labels fd) = lift (run_iterator k c spans st fd).
Proof.
  induction spans as [|s spans IH]; intros c st fd; [reflexivity|]. cbn [run_deep run_iterator]. rewrite labels_cyc.
  destruct (cyc_next k c fd) as [[[x|] c'] fd']; cbn [option_map]; [|reflexivity].
  assert (E : organize_deep obj m f (LLab x) s (st, of_labels fd') = (do st' <- apply_label x s st; Ok (st', of_labels fd'))) by (destruct m; reflexivity).
  rewrite E. unfold apply_label. cbn [bind fst snd]. apply IH.
Qed.
Lemma labels_organize {L} obj f (ly : layout L) : exists N, forall m, (N <= m)%nat -> forall s st fd,
  organize_deep obj m f ly s (st, of_labels fd) = lift (organize_it f ly s (st, fd)).
Proof.
  induction ly as [d items IH|d k|[l|k]|x] using layout_ind2.
  - assert (HN : exists N, forall m, (N <= m)%nat -> Forall (fun it => forall s st fd, organize_deep obj m f it s (st, of_labels fd) = lift (organize_it f it s (st, fd))) items).
    { induction IH as [|it items [N1 H1] _ [N2 H2]]; [exists 0%nat; intros; constructor|]. exists (Nat.max N1 N2). intros m Hm. constructor; [apply H1; lia|apply H2; lia]. }
    destruct HN as [N HN]. exists (S N). intros m Hm s st fd. destruct m as [|m]; [lia|]. specialize (HN m ltac:(lia)). cbn [organize_deep organize_it].
    destruct (partition f d s) as [spans|e]; [|reflexivity]. cbn [bind]. clear - HN.
    assert (C : forall spans cur st fd, Forall (fun it => forall s st fd, organize_deep obj m f it s (st, of_labels fd) = lift (organize_it f it s (st, fd))) cur ->
      run_cycle (map (organize_deep obj m f) items) (map (organize_deep obj m f) cur) spans (st, of_labels fd) = lift (run_cycle (map (organize_it f) items) (map (organize_it f) cur) spans (st, fd))).
    { clear spans st fd. induction spans as [|s spans IH]; intros cur st fd Hc; [destruct cur; reflexivity|].
      assert (Step : forall it c, (forall s st fd, organize_deep obj m f it s (st, of_labels fd) = lift (organize_it f it s (st, fd))) ->
         Forall (fun it => forall s st fd, organize_deep obj m f it s (st, of_labels fd) = lift (organize_it f it s (st, fd))) c ->
         (do x <- organize_deep obj m f it s (st, of_labels fd); run_cycle (map (organize_deep obj m f) items) (map (organize_deep obj m f) c) spans x)
         = lift (do x <- organize_it f it s (st, fd); run_cycle (map (organize_it f) items) (map (organize_it f) c) spans x)).
      { intros it c Hit Hc'. rewrite Hit. unfold lift at 1. destruct (organize_it f it s (st, fd)) as [[st1 fd1]|e]; cbn [bind fst snd]; [|reflexivity]. apply IH. exact Hc'. }
      destruct Hc as [|it c Hit Hc]; cbn [map run_cycle]; [|exact (Step it c Hit Hc)].
      destruct items as [|it items'] eqn:Ei; [reflexivity|]. rewrite <- Ei in *. cbn [map]. pose proof HN as HN'. rewrite Ei in HN'. inversion HN'; subst. exact (Step it items' ltac:(assumption) ltac:(assumption)). }
    exact (C spans items st fd HN).
  - exists 1%nat. intros m Hm s st fd. destruct m as [|m]; [lia|]. cbn [organize_deep organize_it fst snd]. destruct (partition f d s) as [spans|e]; [|reflexivity]. cbn [bind].
    change (@new_cyc (layout L)) with (cyc_lab (@new_cyc L)). apply labels_run.
  - exists 0%nat. intros m _ s st fd. destruct m; cbn [organize_deep organize_it fst snd]; unfold lift; destruct (apply_pattern (PList l) s st); reflexivity.
  - exists 0%nat. intros m _ s st fd. destruct m; cbn [organize_deep organize_it fst snd]; apply labels_apply.
  - exists 0%nat. intros m _ s st fd. destruct m; reflexivity.
Qed.
Lemma C66_labels_pf : forall (L : Type) (obj : layout L -> L) (a : tb_args L) (fd : feeds L),
  exists N, forall n, (N <= n)%nat ->
    build_deep obj n a (of_labels fd) = match build_it a fd with Ok (tb, fd') => Ok (tb, of_labels fd') | Err e => Err e end.
Proof.
  intros L obj a fd. unfold build_deep, build_it. destruct (top_organizer (a_layout a)) as [org|e]; [|exists 0%nat; reflexivity]. cbn [bind].
  destruct (mk_frame (a_freq a) (a_start a) (a_end a)) as [f|e]; [|exists 0%nat; intros; destruct (a_wt a); reflexivity]. cbn [bind].
  destruct (labels_organize obj f org) as [N HN]. exists N. intros n Hn. unfold mk_timeline_deep, mk_timeline_it. cbv zeta. rewrite (HN n Hn). unfold lift.
  destruct (organize_it f org _ _) as [[st fd']|e]; cbn [bind fst snd].
  - destruct (a_wt a); [| |reflexivity]; (match goal with |- context [amend ?t false ?am] => destruct (amend t false am) as [tl|e] end; reflexivity).
  - destruct (a_wt a); reflexivity.
Qed.

(** ** An iterator that yields organizers over itself *)
Lemma endless_deep {L} (obj : layout L -> L) f ms : fr_wf f -> forall n s st j, span_wf f s ->
  organize_deep obj n f (LOrgRem (DMarks ms) 0) s (st, [(Endless (fun _ => LOrgRem (DMarks ms) 0), j)]) = Err ERuntime.
Proof.
  intros Hw. induction n as [|n IH]; intros s st j Hs; [reflexivity|]. cbn [organize_deep fst snd partition]. unfold partition_at_marks.
  destruct (create_subspans_ok f s ms Hw Hs) as (spans & E & Ht & _). rewrite E. cbn [bind]. destruct spans as [|s1 spans].
  { inversion Ht. }
  assert (Hs1 : span_wf f s1) by (pose proof (tiles_In _ _ _ s1 Ht (or_introl eq_refl)); unfold span_wf in *; lia).
  cbn [run_deep]. unfold cyc_next. cbn [new_cyc cy_rest cy_saved feed_next feed_get nth it_next set_nth].
  rewrite IH by exact Hs1. reflexivity.
Qed.
Lemma C66_itself_pf : forall (L : Type) (obj : layout L -> L) (a : tb_args L) ms f,
  mk_frame (a_freq a) (a_start a) (a_end a) = Ok f -> a_wt a <> WBad ->
  let ly := LOrgRem (DMarks ms) 0 in
  forall n, build_deep obj n (with_layout a ly) [(Endless (fun _ => ly), 0%nat)] = Err ERuntime.
Proof.
  intros L obj a ms f Ef Hwt. cbv zeta. assert (Hw : fr_wf f) by (exact (proj1 (proj2 (proj2 (mk_frame_inv _ _ _ _ Ef))))).
  assert (Hs : span_wf f (whole_span f)) by (unfold span_wf, whole_span, fr_wf in *; cbn; lia).
  intros n. unfold build_deep. cbn [with_layout a_layout a_freq a_start a_end a_wt a_ref_end a_default a_amendments a_name a_sel a_num top_organizer bind].
  rewrite Ef. cbn [bind]. unfold mk_timeline_deep. change (mkSpan 0 (fr_len f - 1) 0 0) with (whole_span f). cbv zeta. rewrite (endless_deep obj f ms Hw) by exact Hs.
  destruct (a_wt a); [reflexivity|reflexivity|contradiction].
Qed.
