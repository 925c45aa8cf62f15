(** Proofs about the success of construction (C53). *)
From Verif Require Import Base BaseProofs Civil CivilProofs Freq FreqProofs Frame FrameProofs When Timeline Board Spec SpecLookup SpecLayout SpecWhen SpecMisc SpecBuild BoardProofs TimelineProofs LookupProofs PartProofs AcceptProofs WhenProofs MarkProofs MiscProofs.
From Coq Require Import ZifyBool ZifyNat.
Ltac Zify.zify_post_hook ::= Z.div_mod_to_equations.

Lemma mapM_fate {A B} (g : A -> res B) l :
  (exists ys, mapM g l = Ok ys) \/ (exists pre x post ys e, l = pre ++ x :: post /\ Forall2 (fun x y => g x = Ok y) pre ys /\ g x = Err e).
Proof.
  induction l as [|x l IH]; [left; exists []; reflexivity|]. cbn [mapM].
  destruct (g x) as [y|e] eqn:E; cbn [bind].
  - destruct IH as [(ys & ->)|(pre & x' & post & ys & e & -> & Hp & He)].
    + left. exists (y :: ys). reflexivity.
    + right. exists (x :: pre), x', post, (y :: ys), e. split; [reflexivity|]. split; [constructor; assumption|exact He].
  - right. exists [], x, l, [], e. repeat split; [constructor|exact E].
Qed.

Lemma indivisible_partition f d s e : is_frame f -> span_wf f s -> indivisible f d s e -> partition f d s = Err e.
Proof.
  intros Hf Hs H. destruct H as [m s Hc|m s pre how post pi pts e Hc Hat Hpi Hp He].
  - cbn [partition]. unfold partition_with_marker. rewrite Hc. reflexivity.
  - destruct m as [g at_]. cbn [m_each m_at] in *. subst at_.
    eapply C51_fails_pf; try eassumption. unfold is_span. unfold span_wf in Hs. lia.
Qed.

(** Whole calendar periods, accepted for whatever reason. *)
Lemma calendar_ok f s g : is_frame f -> span_wf f s -> check_groupby_freq (fr_str f) g = true ->
  exists spans, partition f (DMarker (mkMarker g [])) s = Ok spans /\ forall x, In x spans -> 0 <= s_left x.
Proof.
  intros Hf Hs Hc. cbn [partition]. unfold partition_with_marker. cbn [m_each m_at]. rewrite Hc. cbn [negb]. rewrite (check_span_ok f s Hs). cbn [bind]. cbv zeta.
  destruct (mk_frame_ok g (unit_start f (s_first s)) (unit_end f (s_last s))) as [st ->]; [apply pord_mono, span_le, Hs|]. cbn [bind].
  unfold finish_partition. destruct (create_subspans_ok f s (fr_start_times st) (is_frame_wf f Hf) Hs) as (spans & -> & Ht & _ & Hz). cbn [bind].
  eexists. split; [reflexivity|]. intros x Hx. apply (in_map s_left) in Hx.
  destruct (set_left_right spans (skipped_before f s false (fr_start_time st)) (skipped_after f s false (fr_end_time st))) as [(rest & E & H0) _]; [|exact Hz|].
  { destruct (tiles_hd _ _ _ Ht) as (y & r & -> & _). discriminate. }
  rewrite E in Hx. destruct Hx as [<-|Hx]; [|rewrite (H0 _ Hx); lia].
  unfold skipped_before. destruct (_ <? _); [|lia]. unfold dangle_len, zlen. lia.
Qed.

Lemma partition_fate f d s : is_frame f -> span_wf f s ->
  (exists spans, partition f d s = Ok spans) \/ (exists e, partition f d s = Err e /\ indivisible f d s e).
Proof.
  intros Hf Hs. destruct d as [m|ms].
  - destruct (check_groupby_freq (fr_str f) (m_each m)) eqn:Hc.
    + destruct m as [g at_]. cbn [m_each] in Hc. destruct at_ as [|h hs].
      * left. destruct (calendar_ok f s g Hf Hs Hc) as (spans & E & _). exists spans. exact E.
      * destruct (at_stencil f s g Hs) as [pi Hpi].
        destruct (mapM_fate (fun how => how pi (fr_str f)) (h :: hs)) as [(pts & Hp)|(pre & how & post & pts & e & El & Hp & He)].
        -- left. destruct (at_spans f s g (h :: hs) pi pts (is_frame_wf f Hf) Hs Hc ltac:(discriminate) Hpi Hp) as (spans & E & _).
           exists spans. exact E.
        -- right. exists e.
           assert (I : indivisible f (DMarker (mkMarker g (h :: hs))) s e) by (eapply ind_function; eassumption).
           split; [apply indivisible_partition; assumption|exact I].
    + right. eexists. split; [|apply ind_frequency; exact Hc]. cbn [partition]. unfold partition_with_marker. rewrite Hc. reflexivity.
  - left. cbn [partition]. unfold partition_at_marks. destruct (create_subspans_ok f s ms (is_frame_wf f Hf) Hs) as (x & -> & _). eexists. reflexivity.
Qed.

Definition fails {S : Type} (act : span -> S -> res S) (s : span) (e : err) : Prop := forall st, act s st = Err e.
Definition works {S : Type} (act : span -> S -> res S) (s : span) : Prop := forall st, exists st', act s st = Ok st'.

Lemma cycle_fate {S} (all : list (span -> S -> res S)) : all <> [] -> forall spans r, (r <= length all)%nat ->
  (forall act s, In act all -> In s spans -> (exists e, fails act s e) \/ works act s) ->
  (exists j s act e, nth_error spans j = Some s /\ nth_error all ((r + j) mod length all)%nat = Some act /\ fails act s e
     /\ forall st, run_cycle all (skipn r all) spans st = Err e)
  \/ ((forall j s act, nth_error spans j = Some s -> nth_error all ((r + j) mod length all)%nat = Some act -> works act s)
      /\ forall st, exists st', run_cycle all (skipn r all) spans st = Ok st').
Proof.
  intros Hne. assert (Hn : (length all <> 0)%nat) by (destruct all; [contradiction|discriminate]).
  induction spans as [|s spans IH]; intros r Hr Hall.
  - right. split; [intros [|j] s act Hj; discriminate|]. intros st. exists st. reflexivity.
  - assert (Hstep : exists act r', nth_error all (r mod length all)%nat = Some act /\ (r' <= length all)%nat
      /\ (forall j, ((r' + j) mod length all = (r + Datatypes.S j) mod length all)%nat)
      /\ forall st, run_cycle all (skipn r all) (s :: spans) st = (do st1 <- act s st; run_cycle all (skipn r' all) spans st1)).
    { destruct (skipn r all) as [|act cur] eqn:E.
      - assert (Er : r = length all) by (pose proof (skipn_length r all) as Hk; rewrite E in Hk; cbn in Hk; lia). subst r.
        destruct all as [|act all'] eqn:Ea; [contradiction|]. rewrite <- Ea in *.
        exists act, 1%nat. rewrite Nat.mod_same by exact Hn. split; [rewrite Ea; reflexivity|]. split; [lia|]. split.
        + intros j. replace (length all + Datatypes.S j)%nat with ((1 + j) + 1 * length all)%nat by lia. rewrite Nat.mod_add by exact Hn. reflexivity.
        + intros st. rewrite Ea. reflexivity.
      - assert (Hr' : (r < length all)%nat) by (destruct (Nat.eq_dec r (length all)) as [->|]; [rewrite skipn_all in E; discriminate|lia]).
        assert (Hx : nth_error all r = Some act /\ cur = skipn (Datatypes.S r) all).
        { clear - E. revert r E. induction all as [|y l IH]; intros r E; [destruct r; discriminate|]. destruct r as [|r].
          - cbn in E. injection E as -> ->. split; reflexivity.
          - cbn [skipn] in E. apply IH in E. exact E. }
        destruct Hx as [Hx ->]. exists act, (Datatypes.S r). rewrite Nat.mod_small by exact Hr'. split; [exact Hx|]. split; [lia|]. split.
        + intros j. f_equal. lia.
        + intros st. reflexivity. }
    destruct Hstep as (act & r' & Hact & Hr' & Hmod & Hrun).
    destruct (Hall act s) as [(e & He)|Hw]; [eapply nth_error_In; exact Hact|left; reflexivity| |].
    + left. exists 0%nat, s, act, e. split; [reflexivity|]. rewrite Nat.add_0_r. split; [exact Hact|]. split; [exact He|].
      intros st. rewrite Hrun, He. reflexivity.
    + destruct (IH r' Hr') as [(j & s' & act' & e & Hj & Ha & He & Hrest)|[Hok Hrest]].
      { intros a x Ha Hx. apply Hall; [exact Ha|right; exact Hx]. }
      * left. exists (Datatypes.S j), s', act', e. split; [exact Hj|]. rewrite <- Hmod. split; [exact Ha|]. split; [exact He|].
        intros st. rewrite Hrun. destruct (Hw st) as [st1 ->]. cbn [bind]. apply Hrest.
      * right. split.
        -- intros [|j] s' act' Hj Ha.
           ++ injection Hj as <-. rewrite Nat.add_0_r, Hact in Ha. injection Ha as <-. exact Hw.
           ++ apply (Hok j); [exact Hj|]. rewrite Hmod. exact Ha.
        -- intros st. rewrite Hrun. destruct (Hw st) as [st1 ->]. cbn [bind]. apply Hrest.
Qed.

Lemma remembering_ok {L} k spans (st : org_state L) : exists st', run_remembering k spans st = Ok st'.
Proof.
  revert st. induction spans as [|s spans IH]; intros st; cbn [run_remembering]; [eexists; reflexivity|].
  destruct (heap_get (st_heap st) k) as [l cur]. destruct l as [|z l]; [eexists; reflexivity|].
  destruct (cyc_take (z :: l) cur 1) as [[|lab t] r]; [eexists; reflexivity|]. unfold apply_label. cbn [bind]. apply IH.
Qed.
Lemma pattern_fate {L} (p : pattern L) s : (s_left s < 0 /\ fails (fun s st => apply_pattern p s st) s EOutOfBounds)
  \/ (0 <= s_left s /\ works (fun s st => apply_pattern p s st) s).
Proof.
  destruct (s_left s <? 0) eqn:E; [left|right]; (split; [lia|]); intros st; unfold apply_pattern; rewrite E; [reflexivity|].
  cbv zeta. destruct p as [[|y l]|k]; try (eexists; reflexivity).
  destruct (heap_get (st_heap st) k) as [[|y l] cur]; [eexists; reflexivity|]. destruct (skip_take _ _ _ _). eexists; reflexivity.
Qed.

Lemma fails_works {L} (act : span -> org_state L -> res (org_state L)) s e : fails act s e -> works act s -> False.
Proof. intros H1 H2. specialize (H1 (mkSt [] [] [])). destruct (H2 (mkSt [] [] [])) as [st' H]. congruence. Qed.

Lemma organize_fate {L} f (ly : layout L) : is_frame f -> forall s, span_wf f s ->
  (exists e, fails (organize f ly) s e /\ exists ly' s', used f ly s ly' s' /\ unusable f ly' s' e)
  \/ (works (organize f ly) s /\ forall ly' s' e, used f ly s ly' s' -> ~ unusable f ly' s' e).
Proof.
  intros Hf. induction ly as [d items IH|d k|p|x] using layout_ind2; intros s Hs.
  - destruct (partition_fate f d s Hf Hs) as [(spans & E)|(e & E & Hi)].
    + assert (Hsp : forall x, In x spans -> span_wf f x).
      { intros x Hx. pose proof (partition_tiles f d s spans (is_frame_wf f Hf) Hs E) as Ht. destruct Hs.
        eapply span_wf_tiles; [exact Ht|lia|lia|exact Hx]. }
      destruct items as [|i0 items0] eqn:Ei.
      * right. split.
        -- intros st. exists st. cbn [organize]. rewrite E. cbn [bind map]. destruct spans; reflexivity.
        -- intros ly' s' e Hu Hun. inversion Hu; subst.
           ++ inversion Hun as [? ? ? ? Hd| |]; subst. apply indivisible_partition in Hd; [congruence|exact Hf|exact Hs].
           ++ match goal with H : nth_error [] _ = _ |- _ => destruct (_ mod _)%nat in H; discriminate end.
      * rewrite <- Ei in *. assert (Hne : items <> []) by (rewrite Ei; discriminate). clear Ei i0 items0. rewrite Forall_forall in IH.
        assert (Hlen : length (map (organize f) items) = length items) by apply map_length.
        destruct (cycle_fate (map (organize f) items) ltac:(destruct items; [contradiction|discriminate]) spans 0%nat ltac:(lia)) as [(j & s' & act & e & Hj & Ha & He & Hrun)|[Hok Hrun]].
        { intros act x Ha Hx. apply in_map_iff in Ha. destruct Ha as (it & <- & Hit).
          destruct (IH it Hit x (Hsp x Hx)) as [(e & He & _)|[Hw _]]; [left; exists e; exact He|right; exact Hw]. }
        -- left. exists e. split; [intros st; cbn [organize]; rewrite E; cbn [bind]; apply Hrun|].
           cbn [Nat.add] in Ha. rewrite Hlen, nth_error_map in Ha.
           destruct (nth_error items (j mod length items)) as [it|] eqn:Eit; [|discriminate]. injection Ha as <-.
           destruct (IH it (nth_error_In _ _ Eit) s' (Hsp s' (nth_error_In _ _ Hj))) as [(e' & He' & ly' & s'' & Hu & Hun)|[Hw _]].
           ++ specialize (He (mkSt [] [] [])). rewrite (He' (mkSt [] [] [])) in He. injection He as ->.
              exists ly', s''. split; [|exact Hun]. eapply used_element; eassumption.
           ++ exfalso. eapply fails_works; eassumption.
        -- right. split; [intros st; cbn [organize]; rewrite E; cbn [bind]; apply Hrun|].
           intros ly' s' e Hu Hun. inversion Hu as [|? ? spans' ? s1 j it ? ? E' Hj Hit Hu']; subst.
           ++ inversion Hun as [? ? ? ? Hd| |]; subst. apply indivisible_partition in Hd; [congruence|exact Hf|exact Hs].
           ++ rewrite E in E'. injection E' as <-.
              assert (Hw : works (organize f it) s1).
              { apply (Hok j); [exact Hj|]. cbn [Nat.add]. rewrite Hlen, nth_error_map, Hit. reflexivity. }
              destruct (IH it (nth_error_In _ _ Hit) s1 (Hsp s1 (nth_error_In _ _ Hj))) as [(e' & He' & _)|[_ Hno]].
              ** eapply fails_works; eassumption.
              ** exact (Hno _ _ _ Hu' Hun).
    + left. exists e. split; [intros st; cbn [organize]; rewrite E; reflexivity|]. eexists _, _. split; [apply used_itself|apply un_organizer; exact Hi].
  - destruct (partition_fate f d s Hf Hs) as [(spans & E)|(e & E & Hi)].
    + right. split; [intros st; cbn [organize]; rewrite E; cbn [bind]; apply remembering_ok|].
      intros ly' s' e Hu Hun. inversion Hu; subst. inversion Hun as [|? ? ? ? Hd|]; subst.
      apply indivisible_partition in Hd; [congruence|exact Hf|exact Hs].
    + left. exists e. split; [intros st; cbn [organize]; rewrite E; reflexivity|]. eexists _, _. split; [apply used_itself|apply un_remember; exact Hi].
  - destruct (pattern_fate p s) as [[Hl H]|[Hl H]].
    + left. exists EOutOfBounds. split; [exact H|]. eexists _, _. split; [apply used_itself|apply un_pattern; exact Hl].
    + right. split; [exact H|]. intros ly' s' e Hu Hun. inversion Hu; subst. inversion Hun; subst. lia.
  - right. split; [intros st; eexists; reflexivity|]. intros ly' s' e Hu Hun. inversion Hu; subst. inversion Hun.
Qed.

Lemma whole_wf f : fr_wf f -> span_wf f (whole_span f).
Proof. unfold fr_wf, span_wf, whole_span. cbn. lia. Qed.
Lemma mk_is_frame s t0 t1 f : mk_frame s t0 t1 = Ok f -> is_frame f.
Proof. intros H. pose proof (mk_frame_inv _ _ _ _ H) as (E & _). exists t0, t1. rewrite E. exact H. Qed.

Lemma C53_builds_pf : forall (L : Type) (a : tb_args L) (h : heap L) org f,
  top_organizer (a_layout a) = Ok org -> a_wt a <> WBad -> mk_frame (a_freq a) (a_start a) (a_end a) = Ok f ->
  ((forall ly s e, used f org (whole_span f) ly s -> ~ unusable f ly s e)
   <-> exists tb h', build (with_amendments a []) h = Ok (tb, h')).
Proof.
  intros L a h org f Ht Hw Hf. pose proof (mk_is_frame _ _ _ _ Hf) as Hi.
  unfold build, with_amendments. cbn [a_layout a_wt a_freq a_start a_end a_ref_end a_default a_amendments a_name a_sel a_num].
  rewrite Ht, Hf. cbn [bind]. unfold mk_timeline. fold (whole_span f).
  destruct (organize_fate f org Hi _ (whole_wf f (is_frame_wf f Hi))) as [(e & He & ly' & s' & Hu & Hun)|[Hok Hno]].
  - split; [intros H; exfalso; exact (H _ _ _ Hu Hun)|]. rewrite He. cbn [bind]. intros (tb & h' & H). destruct (a_wt a); try discriminate.
  - split; [|intros _; exact Hno]. intros _. edestruct Hok as [st ->]. cbn [bind fst snd]. unfold amend. cbn [locate_amendments bind].
    destruct (a_wt a); [eexists _, _; reflexivity|eexists _, _; reflexivity|congruence].
Qed.

Lemma with_own {L} (a : tb_args L) : with_amendments a (a_amendments a) = a.
Proof. destruct a. reflexivity. Qed.

Lemma C53_reason_pf : forall (L : Type) (a : tb_args L) (h : heap L) org e,
  top_organizer (a_layout a) = Ok org -> a_wt a <> WBad -> build a h = Err e ->
  let b := fbase (to_freq (a_freq a)) in
  (e = EVoidInterval /\ exists o0 o1, in_cal_unit b o0 (a_start a) /\ in_cal_unit b o1 (a_end a) /\ o1 < o0)
  \/ (exists f ly s, mk_frame (a_freq a) (a_start a) (a_end a) = Ok f /\ used f org (whole_span f) ly s /\ unusable f ly s e)
  \/ (e = EKey /\ exists tb h', build (with_amendments a []) h = Ok (tb, h') /\ clash tb (a_amendments a)).
Proof.
  intros L a h org e Ht Hw He b.
  destruct (mk_frame (a_freq a) (a_start a) (a_end a)) as [f|e0] eqn:Hf.
  - right. pose proof (mk_is_frame _ _ _ _ Hf) as Hi.
    destruct (organize_fate f org Hi _ (whole_wf f (is_frame_wf f Hi))) as [(e1 & He1 & ly' & s' & Hu & Hun)|[_ Hno]].
    + left. exists f, ly', s'. split; [reflexivity|]. split; [exact Hu|].
      unfold build in He. rewrite Ht, Hf in He. cbn [bind] in He. unfold mk_timeline in He. fold (whole_span f) in He. rewrite He1 in He. cbn [bind] in He.
      revert He. destruct (a_wt a); [| |congruence]; intros He; rewrite ?He1 in He; cbn [bind] in He; (replace e with e1 by congruence); exact Hun.
    + right. destruct (proj1 (C53_builds_pf L a h org f Ht Hw Hf) Hno) as (tb & h' & Hb).
      destruct (C15_clash_pf L a h (a_amendments a) tb h' Hb) as [_ Hok]. rewrite with_own in Hok.
      rewrite <- (with_own a), (build_amended a h (a_amendments a) tb h' Hb) in He.
      assert (W0 : tl_wf (tb_tl tb)) by (apply reachable_wf; eapply reach_build; exact Hb).
      destruct (amend (tb_tl tb) false (a_amendments a)) as [tl|e2] eqn:Ea; cbn [bind] in He; [discriminate|]. injection He as <-.
      pose proof Ea as Ea'. unfold amend in Ea. destruct (locate_amendments _ _ _ _) as [x|e3] eqn:El; [discriminate|].
      cbn [bind] in Ea. injection Ea as <-. split; [eapply locate_amendments_err; eassumption|].
      exists tb, h'. split; [exact Hb|]. rewrite (clash_located tb (a_amendments a) W0).
      destruct (locate_amendments_ok (tb_tl tb) W0 (a_amendments a) [] (NoDup_nil _)) as (_ & _ & C). cbn [app] in C. apply (C e3 El).
  - left. destruct (mk_frame_err _ _ _ _ Hf) as [-> Hlt].
    unfold build in He. rewrite Ht, Hf in He. cbn [bind] in He. revert He. destruct (a_wt a); [| |congruence]; intros He; (replace e with EVoidInterval by congruence).
    all: split; [reflexivity|]; eexists _, _; rewrite !in_cal_unit_pord; split; [reflexivity|]; split; [reflexivity|exact Hlt].
Qed.

Lemma C53_unusable_pf : forall (L : Type) (a : tb_args L) (h : heap L) org f ly s e,
  top_organizer (a_layout a) = Ok org -> a_wt a <> WBad -> mk_frame (a_freq a) (a_start a) (a_end a) = Ok f ->
  used f org (whole_span f) ly s -> unusable f ly s e ->
  exists e' ly' s', build a h = Err e' /\ used f org (whole_span f) ly' s' /\ unusable f ly' s' e'.
Proof.
  intros L a h org f ly s e Ht Hw Hf Hu Hun. pose proof (mk_is_frame _ _ _ _ Hf) as Hi.
  destruct (organize_fate f org Hi _ (whole_wf f (is_frame_wf f Hi))) as [(e1 & He1 & ly' & s' & Hu' & Hun')|[_ Hno]].
  - exists e1, ly', s'. split; [|split; assumption]. unfold build. rewrite Ht, Hf. cbn [bind]. unfold mk_timeline. fold (whole_span f). rewrite He1. cbn [bind].
    destruct (a_wt a); [reflexivity|rewrite He1; reflexivity|congruence].
  - exfalso. exact (Hno _ _ _ Hu Hun).
Qed.

(** ** Layouts of marks and calendar periods *)
Lemma plain_divides f d s : is_frame f -> span_wf f s -> real_name (falias (fr_str f)) -> plain_divider (fr_str f) d ->
  exists spans, partition f d s = Ok spans /\ forall x, In x spans -> 0 <= s_left x.
Proof.
  intros Hf Hs Hr Hd. assert (Hs' : is_span f s) by (unfold is_span; unfold span_wf in Hs; lia). destruct Hd as [ms|g Hg Hm].
  - destruct (C05_marks_partial_pf f s ms Hf Hs') as (spans & E & _ & H0 & _). exists spans. split; [exact E|]. intros x Hx. destruct (H0 x Hx). lia.
  - apply C13_accepted_pf in Hm; [|exact Hr|exact Hg]. exact (calendar_ok f s g Hf Hs Hm).
Qed.

Lemma plain_usable {L} f (ly : layout L) s ly' s' : is_frame f -> real_name (falias (fr_str f)) -> used f ly s ly' s' ->
  span_wf f s -> 0 <= s_left s -> plain (fr_str f) ly -> forall e, ~ unusable f ly' s' e.
Proof.
  intros Hf Hr Hu. induction Hu as [ly s|d items spans s s1 j it ly s'' E Hj Hit Hu IH]; intros Hs Hl Hp e.
  - intros Hun. inversion Hun as [d items ? ? Hd|d k ? ? Hd|p ? Hn]; subst.
    + inversion Hp; subst. destruct (plain_divides f d s Hf Hs Hr) as (spans & E & _); [assumption|].
      apply indivisible_partition in Hd; [congruence|exact Hf|exact Hs].
    + inversion Hp; subst. destruct (plain_divides f d s Hf Hs Hr) as (spans & E & _); [assumption|].
      apply indivisible_partition in Hd; [congruence|exact Hf|exact Hs].
    + lia.
  - inversion Hp as [? ? Hd Hit'| | |]; subst. destruct (plain_divides f d s Hf Hs Hr Hd) as (spans' & E' & H0). rewrite E in E'. injection E' as <-.
    apply IH.
    + pose proof (partition_tiles f d s spans (is_frame_wf f Hf) Hs E) as Ht. destruct Hs.
      eapply span_wf_tiles; [exact Ht|lia|lia|eapply nth_error_In; exact Hj].
    + apply H0. eapply nth_error_In; exact Hj.
    + apply Hit'. eapply nth_error_In; exact Hit.
Qed.

Lemma C53_plain_pf : forall (L : Type) (a : tb_args L) (h : heap L) o0 o1,
  plain (a_freq a) (a_layout a) -> is_ok (top_organizer (a_layout a)) = true -> a_wt a <> WBad ->
  real_name (falias (a_freq a)) -> let b := fbase (to_freq (a_freq a)) in
  in_cal_unit b o0 (a_start a) -> in_cal_unit b o1 (a_end a) -> o0 <= o1 ->
  exists tb0 h', build (with_amendments a []) h = Ok (tb0, h')
    /\ (~ clash tb0 (a_amendments a) -> exists tb, build a h = Ok (tb, h')).
Proof.
  intros L a h o0 o1 Hp Ht Hw Hr b H0 H1 Hle. apply in_cal_unit_pord in H0, H1.
  destruct (mk_frame_ok (a_freq a) (a_start a) (a_end a)) as [f Hf]; [fold b; lia|].
  pose proof (mk_is_frame _ _ _ _ Hf) as Hi. destruct (mk_frame_inv _ _ _ _ Hf) as (Ef & _).
  destruct (top_organizer (a_layout a)) as [org|] eqn:Et; [|discriminate].
  assert (Hpo : plain (fr_str f) org).
  { rewrite Ef. destruct (a_layout a) as [d items|d k|[l|k]|x]; cbn [top_organizer] in Et; try discriminate; injection Et as <-; try exact Hp.
    constructor; [constructor|]. intros it [<-|[]]. constructor. }
  destruct (proj1 (C53_builds_pf L a h org f Et Hw Hf)) as (tb & h' & Hb).
  { intros ly s e Hu. eapply plain_usable; [exact Hi|rewrite Ef; exact Hr|exact Hu|apply whole_wf, is_frame_wf, Hi|cbn; lia|exact Hpo]. }
  exists tb, h'. split; [exact Hb|]. intros Hc. destruct (C15_clash_pf L a h (a_amendments a) tb h' Hb) as [_ Hok]. rewrite with_own in Hok. exact (Hok Hc).
Qed.
