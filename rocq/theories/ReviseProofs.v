(** Proofs of C59 and C60. *)
From Verif Require Import Base BaseProofs Civil Freq FreqProofs Frame FrameProofs Timeline TimelineProofs Board Spec BoardProofs SpecLookup LookupProofs SpecRoll RollProofs SpecMisc MiscProofs Revise SpecRevise.
From Coq Require Import ZifyBool ZifyNat.
Ltac Zify.zify_post_hook ::= Z.div_mod_to_equations.

(** ** Timeboards after revisions *)
Lemma reset_wf {L} (tl : timeline L) x : tl_wf tl -> tl_wf (reset tl x).
Proof. intros []. constructor; cbn [reset tl_frame tl_index tl_labels tl_band]; try assumption. rewrite zlen_map. assumption. Qed.

Lemma revise_keeps {L} (tb : timeboard L) op : tl_wf (tb_tl tb) ->
  tl_wf (tb_tl (fst (revise tb op))) /\ tl_frame (tb_tl (fst (revise tb op))) = tl_frame (tb_tl tb)
  /\ tl_index (tb_tl (fst (revise tb op))) = tl_index (tb_tl tb) /\ tl_band (tb_tl (fst (revise tb op))) = tl_band (tb_tl tb)
  /\ tl_ref_end (tb_tl (fst (revise tb op))) = tl_ref_end (tb_tl tb).
Proof.
  intros W. destruct op as [n am|x]; cbn [revise].
  - destruct (amend_call (tb_tl tb) n am) as [tl|e] eqn:E; cbn [fst tb_tl]; [exact (amend_wf _ _ _ _ W E)|].
    split; [exact W|]. repeat split.
  - cbn [fst tb_tl]. split; [apply reset_wf; exact W|]. repeat split.
Qed.

Lemma revised_wf {L} (tb : timeboard L) : revised tb -> tl_wf (tb_tl tb).
Proof.
  induction 1 as [tb H|tb op _ IH|tb name sel tb' s _ IH H|tb s tb' _ IH H].
  - apply reachable_wf. exact H.
  - apply (revise_keeps tb op IH).
  - apply add_schedule_inv in H. destruct H as (_ & _ & ->). exact IH.
  - apply drop_schedule_inv in H. destruct H as [_ ->]. exact IH.
Qed.

Lemma kept_same {L} (tb tb' : timeboard L) : tl_wf (tb_tl tb) -> tl_wf (tb_tl tb') ->
  tl_frame (tb_tl tb') = tl_frame (tb_tl tb) -> tl_index (tb_tl tb') = tl_index (tb_tl tb) ->
  tl_band (tb_tl tb') = tl_band (tb_tl tb) -> tl_ref_end (tb_tl tb') = tl_ref_end (tb_tl tb) -> same_shifts tb tb'.
Proof.
  intros W W' F1 F2 F3 F4 i t.
  assert (Hg : forall (k : res Z), (do _ <- tl_get (tb_tl tb') i; k) = (do _ <- tl_get (tb_tl tb) i; k)).
  { intros k. apply same_len_get. rewrite (wf_labels _ W), (wf_labels _ W'). rewrite F2. reflexivity. }
  assert (Hh : holds_time tb i t <-> holds_time tb' i t) by (symmetry; apply same_bounds_holds; assumption).
  unfold is_shift, starts_at, ends_at, ref_at, tb_len, tl_len, ws_ref_time, ws_start_time, ws_end_time, ws_first_baseunit, ws_last_baseunit, ws_first_baseunit, tl_len.
  rewrite !Hg, F1, F2, F3, F4. split; [reflexivity|]. split; [reflexivity|]. split; [reflexivity|]. split; [reflexivity|exact Hh].
Qed.

Lemma same_shifts_trans {L} (a b c : timeboard L) : same_shifts a b -> same_shifts b c -> same_shifts a c.
Proof.
  intros H1 H2 i t. destruct (H1 i t) as (A1 & A2 & A3 & A4 & A5). destruct (H2 i t) as (B1 & B2 & B3 & B4 & B5).
  rewrite A1, A2, A3, A4, A5. repeat (split; [assumption|]). assumption.
Qed.

(** ** Locating *)
Definition flag (n : out_arg) : bool := match n with NRaise => true | NIgnore | NOther => false end.
Lemma locate_flag {L} (tl : timeline L) (W : tl_wf tl) r am : forall acc, NoDup (map fst acc) ->
  match locate_amendments tl r am acc with
  | Ok res => res = acc ++ located tl am /\ NoDup (map fst res)
              /\ (r = true -> forall t x, In (t, x) am -> exists p, get_ws_position tl t = Ok p)
  | Err e => exists j t x, nth_error am j = Some (t, x) /\ NoDup (map fst (acc ++ located tl (firstn j am)))
              /\ (r = true -> forall t' x', In (t', x') (firstn j am) -> exists p, get_ws_position tl t' = Ok p)
              /\ ((e = EOutOfBounds /\ r = true /\ get_ws_position tl t = Err EOutOfBounds)
                  \/ (e = EKey /\ exists p, get_ws_position tl t = Ok p /\ In p (map fst (acc ++ located tl (firstn j am)))))
  end.
Proof.
  induction am as [|[t x] am IH]; intros acc Hacc; cbn [locate_amendments].
  - unfold located. cbn [flat_map]. rewrite app_nil_r. split; [reflexivity|]. split; [exact Hacc|]. intros _ t x [].
  - assert (Eloc : forall m, located tl ((t, x) :: m) = locs_of tl (t, x) ++ located tl m) by reflexivity.
    destruct (position_cases tl W t) as [(p & Hp & _)|Hp]; rewrite Hp.
    + assert (El : locs_of tl (t, x) = [(p, x)]) by (unfold locs_of; cbn [fst snd]; rewrite Hp; reflexivity).
      destruct (existsb (fun q => fst q =? p) acc) eqn:E.
      * apply existsb_fst in E. exists 0%nat, t, x. split; [reflexivity|]. cbn [firstn]. change (located tl []) with (@nil (Z * L)). rewrite app_nil_r.
        split; [exact Hacc|]. split; [intros _ t' x' []|]. right. split; [reflexivity|]. exists p. split; assumption.
      * assert (Hn : ~ In p (map fst acc)) by (intros H; apply existsb_fst in H; congruence).
        specialize (IH (acc ++ [(p, x)])). destruct (locate_amendments tl r am (acc ++ [(p, x)])) as [res|e].
        -- destruct IH as (-> & H2 & H3); [rewrite map_app; apply NoDup_snoc; assumption|]. rewrite Eloc, El. rewrite <- app_assoc in *. split; [reflexivity|].
           split; [exact H2|]. intros Hr t' x' [E'|Hin]; [injection E' as <- <-; exists p; exact Hp|eauto].
        -- destruct IH as (j & t1 & x1 & Hj & H2 & H3 & H4); [rewrite map_app; apply NoDup_snoc; assumption|].
           exists (S j), t1, x1. cbn [nth_error firstn]. rewrite Eloc, El. rewrite <- app_assoc in H2, H4.
           split; [exact Hj|]. split; [exact H2|]. split; [|exact H4].
           intros Hr t' x' [E'|Hin]; [injection E' as <- <-; exists p; exact Hp|eauto].
    + assert (El : locs_of tl (t, x) = []) by (unfold locs_of; cbn [fst snd]; rewrite Hp; reflexivity).
      destruct r.
      * exists 0%nat, t, x. split; [reflexivity|]. cbn [firstn]. change (located tl []) with (@nil (Z * L)). rewrite app_nil_r.
        split; [exact Hacc|]. split; [intros _ t' x' []|]. left. repeat split. exact Hp.
      * specialize (IH acc Hacc). destruct (locate_amendments tl false am acc) as [res|e].
        -- destruct IH as (-> & H2 & H3). rewrite Eloc, El. split; [reflexivity|]. split; [exact H2|discriminate].
        -- destruct IH as (j & t1 & x1 & Hj & H2 & H3 & H4). exists (S j), t1, x1. cbn [nth_error firstn]. rewrite Eloc, El.
           split; [exact Hj|]. split; [exact H2|]. split; [discriminate|exact H4].
Qed.

Lemma NoDup_dec_Z (l : list Z) : NoDup l \/ ~ NoDup l.
Proof.
  induction l as [|x l [IH|IH]]; [left; constructor| |right; intros H; inversion H; contradiction].
  destruct (in_dec Z.eq_dec x l) as [H|H]; [right; intros H'; inversion H'; contradiction|left; constructor; assumption].
Qed.
Lemma no_clash {L} (tb : timeboard L) am : tl_wf (tb_tl tb) -> ~ clash tb am <-> NoDup (map fst (located (tb_tl tb) am)).
Proof.
  intros W. rewrite (clash_located tb am W). destruct (NoDup_dec_Z (map fst (located (tb_tl tb) am))) as [H|H]; split; intros H'; [exact H|intros []; exact H|contradiction|contradiction].
Qed.
Lemma outside_pos {L} (tb : timeboard L) t : tl_wf (tb_tl tb) -> outside tb t <-> get_ws_position (tb_tl tb) t = Err EOutOfBounds.
Proof.
  intros W. unfold outside. split.
  - intros H. destruct (position_cases _ W t) as [(p & Hp & _)|Hp]; [|exact Hp]. exfalso. apply (H p). apply (holds_position tb p t W). exact Hp.
  - intros H i Hi. apply (holds_position tb i t W) in Hi. congruence.
Qed.
Lemma inside_pos {L} (tb : timeboard L) t : tl_wf (tb_tl tb) -> ~ outside tb t <-> exists p, get_ws_position (tb_tl tb) t = Ok p.
Proof.
  intros W. rewrite (outside_pos tb t W). destruct (position_cases _ W t) as [(p & Hp & _)|Hp]; rewrite Hp; split.
  - intros _. exists p. reflexivity.
  - intros _. discriminate.
  - intros H. contradiction.
  - intros [p H]. discriminate.
Qed.

Lemma fine_flag {L} (tb : timeboard L) n am : tl_wf (tb_tl tb) -> n <> NOther ->
  fine tb n am <-> NoDup (map fst (located (tb_tl tb) am)) /\ (flag n = true -> forall t x, In (t, x) am -> exists p, get_ws_position (tb_tl tb) t = Ok p).
Proof.
  intros W Hn. unfold fine. rewrite (no_clash tb am W).
  assert (Hs : strict n <-> flag n = true) by (unfold strict; destruct n; cbn [flag]; split; congruence).
  rewrite Hs. split; intros [H1 H2]; (split; [exact H1|]); intros Hf t x Hin; apply (inside_pos tb t W); eauto.
Qed.

Lemma nth_firstn {A} (l : list A) : forall j k x, nth_error l j = Some x -> (j < k)%nat -> In x (firstn k l).
Proof.
  induction l as [|y l IH]; intros j k x Hj Hk; [destruct j; discriminate|]. destruct k as [|k]; [lia|]. destruct j as [|j]; cbn [firstn].
  - injection Hj as <-. left. reflexivity.
  - right. apply (IH j k); [exact Hj|lia].
Qed.
Lemma In_firstn_nth {A} (l : list A) k x : In x (firstn k l) -> exists j, (j < k)%nat /\ nth_error l j = Some x.
Proof.
  revert k. induction l as [|y l IH]; intros k H; [destruct k; destruct H|]. destruct k as [|k]; [destruct H|]. cbn [firstn] in H. destruct H as [->|H].
  - exists 0%nat. split; [lia|reflexivity].
  - destruct (IH k H) as (j & Hj & E). exists (S j). split; [lia|exact E].
Qed.
Lemma nth_firstn_eq {A} (l : list A) : forall j k x, nth_error l j = Some x -> (j < k)%nat -> nth_error (firstn k l) j = Some x.
Proof.
  induction l as [|y l IH]; intros j k x Hj Hk; [destruct j; discriminate|]. destruct k as [|k]; [lia|]. destruct j as [|j]; cbn [firstn]; [exact Hj|].
  apply (IH j k); [exact Hj|lia].
Qed.

Lemma twice_clash {L} (tb : timeboard L) am k j t x t' x' i : nth_error am j = Some (t, x) -> (j < k)%nat -> In (t', x') (firstn j am) ->
  holds_time tb i t' -> holds_time tb i t -> clash tb (firstn k am).
Proof.
  intros Hj Hk Hin H1 H2. apply In_firstn_nth in Hin. destruct Hin as (m & Hm & Em).
  exists m, j, i, t', x', t, x. split; [lia|]. split; [apply nth_firstn_eq; [exact Em|lia]|]. split; [apply nth_firstn_eq; assumption|]. split; assumption.
Qed.

Lemma raises_fun {L} (tb : timeboard L) op e e' : raises tb op e -> raises tb op e' -> e = e'.
Proof.
  intros H H'. destruct H as [n am j t x F Hj S O|n am j t x t' x' i F Hj Hin Ht' Ht].
  - remember (RAmend n am) as op eqn:Eop. destruct H' as [n2 am2 k u y F2 Hk S2 O2|n2 am2 k u y u' y' i2 F2 Hk Hin2 Hu' Hu]; [reflexivity|].
    injection Eop as -> ->. destruct (Nat.lt_trichotomy j k) as [Hc|[Hc|Hc]].
    + exfalso. apply (proj2 F2 S t x); [apply (nth_firstn am j k); assumption|exact O].
    + subst k. rewrite Hj in Hk. injection Hk as <- <-. exfalso. exact (O i2 Hu).
    + exfalso. apply (proj1 F). exact (twice_clash tb am j k u y u' y' i2 Hk Hc Hin2 Hu' Hu).
  - remember (RAmend n am) as op eqn:Eop. destruct H' as [n2 am2 k u y F2 Hk S2 O2|n2 am2 k u y u' y' i2 F2 Hk Hin2 Hu' Hu]; [|reflexivity].
    injection Eop as -> ->. destruct (Nat.lt_trichotomy j k) as [Hc|[Hc|Hc]].
    + exfalso. apply (proj1 F2). exact (twice_clash tb am k j t x t' x' i Hj Hc Hin Ht' Ht).
    + subst k. rewrite Hj in Hk. injection Hk as <- <-. exfalso. exact (O2 i Ht).
    + exfalso. apply (proj2 F S2 u y); [apply (nth_firstn am k j); assumption|exact O2].
Qed.

Lemma raises_not_fine {L} (tb : timeboard L) n am e : raises tb (RAmend n am) e -> ~ fine tb n am.
Proof.
  intros H [F1 F2]. remember (RAmend n am) as op eqn:Eop. destruct H as [n2 am2 j t x F Hj S O|n2 am2 j t x t' x' i F Hj Hin Ht' Ht]; injection Eop as -> ->.
  - apply (F2 S t x); [eapply nth_error_In; exact Hj|exact O].
  - apply F1. rewrite <- (firstn_all am). eapply (twice_clash tb am (length am) j); try eassumption. apply nth_error_Some. congruence.
Qed.

Definition of_amend {L} (op : revision L) : Prop := match op with RAmend NOther _ => False | _ => True end.

Lemma amend_label {L} (tb : timeboard L) n am tl : tl_wf (tb_tl tb) -> amend_call (tb_tl tb) n am = Ok tl ->
  NoDup (map fst (located (tb_tl tb) am)) /\ tl_labels tl = write_labels (tl_labels (tb_tl tb)) (located (tb_tl tb) am)
  /\ (flag n = true -> forall t x, In (t, x) am -> exists p, get_ws_position (tb_tl tb) t = Ok p).
Proof.
  intros W H. unfold amend_call, amend in H. fold (flag n) in H.
  pose proof (locate_flag (tb_tl tb) W (flag n) am [] (NoDup_nil _)) as Hl.
  destruct (locate_amendments (tb_tl tb) (flag n) am []) as [res|e]; cbn [bind] in H; [|discriminate]. injection H as <-.
  destruct Hl as (-> & H2 & H3). cbn [app tl_labels] in *. split; [exact H2|]. split; [reflexivity|exact H3].
Qed.

Lemma step_labels {L} (tb : timeboard L) op : tl_wf (tb_tl tb) -> snd (revise tb op) = None -> forall i x, is_shift tb i ->
  (tl_get (tb_tl (fst (revise tb op))) i = Ok x <-> tells tb i x op \/ (forall y, ~ tells tb i y op) /\ tl_get (tb_tl tb) i = Ok x).
Proof.
  intros W Hn i x Hi. unfold is_shift, tb_len, tl_len in Hi. rewrite <- (wf_labels _ W) in Hi. unfold tl_get. rewrite !py_get_res_ok by lia.
  destruct op as [n am|v]; cbn [revise] in *.
  - destruct (amend_call (tb_tl tb) n am) as [tl|e] eqn:E; cbn [fst snd tb_tl] in *; [|discriminate]. clear Hn.
    destruct (amend_label tb n am tl W E) as (Hnd & -> & _).
    destruct (write_labels_znth (located (tb_tl tb) am) (tl_labels (tb_tl tb)) i Hnd) as [A1 A2].
    { intros q Hq. rewrite (wf_labels _ W). apply (located_range (tb_tl tb) W am). exact Hq. }
    { exact Hi. }
    assert (T : forall y, tells tb i y (RAmend n am) <-> In (i, y) (located (tb_tl tb) am)).
    { intros y. rewrite located_In. split.
      - intros H. inversion H; subst. exists t. split; [assumption|]. apply (holds_position tb i t W). assumption.
      - intros (t & H1 & H2). apply (tells_amend tb i y n am t H1). apply (holds_position tb i t W). exact H2. }
    rewrite T. destruct (in_dec Z.eq_dec i (map fst (located (tb_tl tb) am))) as [Hin|Hnin].
    + apply in_map_iff in Hin. destruct Hin as ([j y] & Ej & Hin). cbn [fst] in Ej. subst j. rewrite (A1 y Hin). split.
      * intros E'. injection E' as <-. left. exact Hin.
      * intros [H|[H _]]; [rewrite <- (A1 y Hin); apply A1; exact H|]. exfalso. apply (H y). apply T. exact Hin.
    + rewrite (A2 Hnin). split.
      * intros H. right. split; [|exact H]. intros y Hy. apply T in Hy. apply Hnin, in_map_iff. exists (i, y). split; [reflexivity|exact Hy].
      * intros [H|[_ H]]; [|exact H]. exfalso. apply Hnin, in_map_iff. exists (i, x). split; [reflexivity|exact H].
  - cbn [fst tb_tl reset tl_labels]. rewrite znth_map. destruct (znth_ex (tl_labels (tb_tl tb)) i Hi) as [z ->]. cbn [option_map]. split.
    + intros H. injection H as <-. left. constructor.
    + intros [H|[H _]]; [inversion H; reflexivity|]. exfalso. apply (H v). constructor.
Qed.

Lemma C60_step_partial_pf : forall (L : Type) (tb : timeboard L) op, revised tb -> (forall am, op <> RAmend NOther am) ->
  (forall e, snd (revise tb op) = Some e <-> raises tb op e)
  /\ (snd (revise tb op) <> None -> fst (revise tb op) = tb)
  /\ same_shifts tb (fst (revise tb op))
  /\ (snd (revise tb op) = None -> forall i x, is_shift tb i ->
        (tl_get (tb_tl (fst (revise tb op))) i = Ok x
         <-> tells tb i x op \/ (forall y, ~ tells tb i y op) /\ tl_get (tb_tl tb) i = Ok x)).
Proof.
  intros L tb op Hr Hop. apply revised_wf in Hr. rename Hr into W. split; [|split; [|split; [|apply step_labels; exact W]]].
  - destruct op as [n am|v]; [|cbn [revise snd]; intros e; split; [discriminate|intros H; inversion H]].
    assert (Hn : n <> NOther) by (intros ->; exact (Hop am eq_refl)). clear Hop.
    cbn [revise]. unfold amend_call, amend. fold (flag n).
    pose proof (locate_flag (tb_tl tb) W (flag n) am [] (NoDup_nil _)) as Hl.
    destruct (locate_amendments (tb_tl tb) (flag n) am []) as [res|e']; cbn [bind snd app] in *; intros e.
    + split; [discriminate|]. intros H. apply raises_not_fine in H. exfalso. apply H. apply (fine_flag tb n am W Hn).
      destruct Hl as (-> & H2 & H3). split; assumption.
    + assert (Hr : raises tb (RAmend n am) e').
      { destruct Hl as (j & t & x & Hj & H2 & H3 & H4).
        assert (F : fine tb n (firstn j am)) by (apply (fine_flag tb n _ W Hn); split; assumption).
        destruct H4 as [(-> & Hf & Hp)|(-> & p & Hp & Hin)].
        - eapply raises_outside; [exact F|exact Hj|unfold strict; destruct n; discriminate|apply (outside_pos tb t W); exact Hp].
        - apply in_map_iff in Hin. destruct Hin as ([q y] & Eq & Hin). cbn [fst] in Eq. subst q. apply located_In in Hin. destruct Hin as (t' & H5 & H6).
          eapply (raises_twice tb n am j t x t' y p); [exact F|exact Hj|exact H5|apply (holds_position tb p _ W); exact H6|apply (holds_position tb p _ W); exact Hp]. }
      split; [intros H; injection H as <-; exact Hr|]. intros H. f_equal. exact (raises_fun tb _ _ _ Hr H).
  - destruct op as [n am|v]; cbn [revise]; [|intros H; contradiction H; reflexivity].
    destruct (amend_call (tb_tl tb) n am); cbn [fst snd]; [intros H; contradiction H; reflexivity|reflexivity].
  - destruct (revise_keeps tb op W) as (W' & F1 & F2 & F3 & F4). apply kept_same; assumption.
Qed.

Lemma C60_other_pf : forall (L : Type) (tb : timeboard L) am, revise tb (RAmend NOther am) = revise tb (RAmend NIgnore am).
Proof. reflexivity. Qed.

(** ** Histories *)
Lemma same_clash {L} (tb tb' : timeboard L) am : same_shifts tb tb' -> clash tb am -> clash tb' am.
Proof.
  intros H (j & k & i & t1 & x1 & t2 & x2 & A & B & C & D & E). exists j, k, i, t1, x1, t2, x2.
  split; [exact A|]. split; [exact B|]. split; [exact C|]. split; apply H; assumption.
Qed.
Lemma same_sym {L} (tb tb' : timeboard L) : same_shifts tb tb' -> same_shifts tb' tb.
Proof. intros H i t. destruct (H i t) as (A & B & C & D & E). split; [symmetry; exact A|]. split; [symmetry; exact B|]. split; [symmetry; exact C|]. split; symmetry; assumption. Qed.
Lemma same_outside {L} (tb tb' : timeboard L) t : same_shifts tb tb' -> outside tb t -> outside tb' t.
Proof. intros H O i Hi. apply (O i). apply H. exact Hi. Qed.
Lemma same_fine {L} (tb tb' : timeboard L) n am : same_shifts tb tb' -> fine tb n am -> fine tb' n am.
Proof.
  intros H [F1 F2]. split; [intros C; apply F1; exact (same_clash _ _ _ (same_sym _ _ H) C)|].
  intros S t x Hin O. exact (F2 S t x Hin (same_outside _ _ _ (same_sym _ _ H) O)).
Qed.
Lemma same_raises {L} (tb tb' : timeboard L) op e : same_shifts tb tb' -> raises tb op e -> raises tb' op e.
Proof.
  intros H R. destruct R as [n am j t x F Hj S O|n am j t x t' x' i F Hj Hin Ht' Ht].
  - eapply raises_outside; [exact (same_fine _ _ _ _ H F)|exact Hj|exact S|exact (same_outside _ _ _ H O)].
  - eapply raises_twice; [exact (same_fine _ _ _ _ H F)|exact Hj|exact Hin|apply H; exact Ht'|apply H; exact Ht].
Qed.
Lemma same_tells {L} (tb tb' : timeboard L) i x op : same_shifts tb tb' -> tells tb i x op -> tells tb' i x op.
Proof. intros H T. destruct T as [n am t Hin Ht|]; [|constructor]. eapply tells_amend; [exact Hin|apply H; exact Ht]. Qed.

Lemma C60_history_partial_pf : forall (L : Type) (ops : list (revision L)) (tb : timeboard L), revised tb ->
  (forall am, ~ In (RAmend NOther am) ops) ->
  same_shifts tb (revise_all tb ops)
  /\ forall i x, is_shift tb i ->
       (tl_get (tb_tl (revise_all tb ops)) i = Ok x
        <-> (exists n op, nth_error ops n = Some op /\ (forall e, ~ raises tb op e) /\ tells tb i x op
               /\ forall m op' y, (n < m)%nat -> nth_error ops m = Some op' -> (forall e, ~ raises tb op' e) -> ~ tells tb i y op')
            \/ (forall op y, In op ops -> (forall e, ~ raises tb op e) -> ~ tells tb i y op) /\ tl_get (tb_tl tb) i = Ok x).
Proof.
  intros L ops. induction ops as [|op ops IH]; intros tb Hr Hops.
  - split; [intros i t; repeat (split; [reflexivity|]); reflexivity|]. intros i x Hi. cbn [revise_all fold_left]. split.
    + intros H. right. split; [intros op y []|exact H].
    + intros [(n & op & Hn & _)|[_ H]]; [destruct n; discriminate|exact H].
  - assert (Hop : forall am, op <> RAmend NOther am) by (intros am ->; apply (Hops am); left; reflexivity).
    destruct (C60_step_partial_pf L tb op Hr Hop) as (S1 & S2 & S3 & S4).
    destruct (IH (fst (revise tb op)) (revised_op tb op Hr) (fun am Hin => Hops am (or_intror Hin))) as [I1 I2].
    change (revise_all tb (op :: ops)) with (revise_all (fst (revise tb op)) ops).
    split; [eapply same_shifts_trans; eassumption|]. intros i x Hi. rewrite (I2 i x) by exact (proj1 (proj1 (S3 i 0)) Hi).
    set (tb1 := fst (revise tb op)) in *. pose proof (same_sym _ _ S3) as S3'.
    assert (R : forall o e, raises tb1 o e <-> raises tb o e) by (intros o e; split; apply same_raises; assumption).
    assert (T : forall o y, tells tb1 i y o <-> tells tb i y o) by (intros o y; split; apply same_tells; assumption).
    assert (Hq : forall o, (forall e, ~ raises tb1 o e) <-> (forall e, ~ raises tb o e)) by (intros o; split; intros H e He; apply (H e), R; exact He).
    split.
    + intros [(n & o & Hn & Hq1 & Ht & Hl)|[Hno Hg]].
      * left. exists (S n), o. split; [exact Hn|]. split; [apply Hq; exact Hq1|]. split; [apply T; exact Ht|].
        intros m o' y Hm Ho' Hq2 Ht2. destruct m as [|m]; [lia|]. apply (Hl m o' y); [lia|exact Ho'|apply Hq; exact Hq2|apply T; exact Ht2].
      * destruct (snd (revise tb op)) as [e|] eqn:Es.
        -- assert (Etb : tb1 = tb) by (apply S2; discriminate). right. rewrite Etb in Hg. split; [|exact Hg].
           intros o y [<-|Hin] Hq2 Ht2; [exact (Hq2 e (proj1 (S1 e) eq_refl))|]. exact (Hno o y Hin (proj2 (Hq o) Hq2) (proj2 (T o y) Ht2)).
        -- assert (Hq0 : forall e, ~ raises tb op e) by (intros e He; apply S1 in He; discriminate).
           apply (S4 eq_refl i x Hi) in Hg. destruct Hg as [Ht|[Hn Hg]].
           ++ left. exists 0%nat, op. split; [reflexivity|]. split; [exact Hq0|]. split; [exact Ht|].
              intros m o' y Hm Ho' Hq2 Ht2. destruct m as [|m]; [lia|]. apply (Hno o' y (nth_error_In ops m Ho')); [apply Hq; exact Hq2|apply T; exact Ht2].
           ++ right. split; [|exact Hg]. intros o y [<-|Hin] Hq2 Ht2; [exact (Hn y Ht2)|]. exact (Hno o y Hin (proj2 (Hq o) Hq2) (proj2 (T o y) Ht2)).
    + intros [(n & o & Hn & Hq1 & Ht & Hl)|[Hno Hg]].
      * destruct n as [|n].
        -- injection Hn as <-. right. split.
           ++ intros o' y Hin Hq2 Ht2. apply In_nth_error in Hin. destruct Hin as [m Hm].
              apply (Hl (S m) o' y); [lia|exact Hm|apply Hq; exact Hq2|apply T; exact Ht2].
           ++ assert (Es : snd (revise tb op) = None) by (destruct (snd (revise tb op)) as [e|] eqn:Es; [exfalso; apply (Hq1 e), S1; reflexivity|reflexivity]).
              apply (S4 Es i x Hi). left. exact Ht.
        -- left. exists n, o. split; [exact Hn|]. split; [apply Hq; exact Hq1|]. split; [apply T; exact Ht|].
           intros m o' y Hm Ho' Hq2 Ht2. apply (Hl (S m) o' y); [lia|exact Ho'|apply Hq; exact Hq2|apply T; exact Ht2].
      * right. split.
        -- intros o y Hin Hq2 Ht2. apply (Hno o y (or_intror Hin)); [apply Hq; exact Hq2|apply T; exact Ht2].
        -- destruct (snd (revise tb op)) as [e|] eqn:Es.
           ++ assert (Etb : tb1 = tb) by (apply S2; discriminate). rewrite Etb. exact Hg.
           ++ apply (S4 eq_refl i x Hi). right. split; [|exact Hg]. intros y. apply (Hno op y (or_introl eq_refl)). intros e He. apply S1 in He. discriminate.
Qed.

(** Schedules made later follow the labels. *)
Lemma C60_new_pf : forall (L : Type) (tb : timeboard L) name sel tb' s, revised tb -> add_schedule tb name sel = Ok (tb', s) ->
  forall i x, is_shift tb' i -> tl_get (tb_tl tb') i = Ok x ->
  (In i (sc_on s) <-> sel x = true) /\ (In i (sc_off s) <-> sel x = false)
  /\ forall w, ws_loc w = i -> is_on_duty tb' w s = Ok (sel x).
Proof.
  intros L tb name sel tb' s Hr H i x Hi Hx. apply revised_wf in Hr. apply add_schedule_inv in H. destruct H as (_ & Es & Etb). subst tb'.
  cbn [tb_tl] in *. unfold is_shift, tb_len in Hi. cbn [tb_tl] in Hi. unfold tl_get in Hx. pose proof Hx as Hx'. apply py_get_res_ok in Hx'; [|lia].
  subst s. unfold mk_schedule. cbn [sc_on sc_off]. rewrite !nonzero_In, !znth_map, Hx'. cbn [option_map]. split; [split; congruence|].
  split; [destruct (sel x); cbn [negb]; split; congruence|]. intros w <-. unfold is_on_duty. cbn [tb_tl]. unfold tl_get. rewrite Hx. reflexivity.
Qed.

(** ** Selectors that raise *)
Lemma apply_selector_ok {L} (sel : L -> res bool) labels : forall on, apply_selector sel labels = Ok on ->
  on = map (no_raise sel) labels /\ forall x, In x labels -> sel x = Ok (no_raise sel x).
Proof.
  induction labels as [|x labels IH]; intros on H; cbn [apply_selector] in H.
  - injection H as <-. split; [reflexivity|intros x []].
  - destruct (sel x) as [b|e] eqn:E; cbn [bind] in H; [|discriminate].
    destruct (apply_selector sel labels) as [bs|e]; cbn [bind] in H; [|discriminate]. injection H as <-.
    destruct (IH bs eq_refl) as [-> IH2]. assert (Hb : no_raise sel x = b) by (unfold no_raise; rewrite E; reflexivity).
    split; [cbn [map]; rewrite Hb; reflexivity|]. intros y [<-|Hy]; [rewrite Hb; exact E|apply IH2; exact Hy].
Qed.
Lemma apply_selector_total {L} (sel : L -> res bool) labels : (forall x, In x labels -> sel x = Ok (no_raise sel x)) ->
  apply_selector sel labels = Ok (map (no_raise sel) labels).
Proof.
  induction labels as [|x labels IH]; intros H; cbn [apply_selector map]; [reflexivity|].
  rewrite (H x (or_introl eq_refl)). cbn [bind]. rewrite IH by (intros y Hy; apply H; right; exact Hy). reflexivity.
Qed.
Lemma apply_selector_err {L} (sel : L -> res bool) labels e : apply_selector sel labels = Err e <->
  exists i x, nth_error labels i = Some x /\ sel x = Err e /\ forall j y, (j < i)%nat -> nth_error labels j = Some y -> exists b, sel y = Ok b.
Proof.
  induction labels as [|x labels IH]; cbn [apply_selector].
  - split; [discriminate|]. intros (i & x & H & _). destruct i; discriminate.
  - destruct (sel x) as [b|e'] eqn:E; cbn [bind].
    + destruct (apply_selector sel labels) as [bs|e']; cbn [bind].
      * split; [discriminate|]. intros (i & y & Hi & Hy & Hj). assert (H : Ok bs = Err e); [|discriminate].
        apply IH. destruct i as [|i]; [injection Hi as <-; congruence|]. exists i, y. split; [exact Hi|]. split; [exact Hy|].
        intros j z Hlt Hz. apply (Hj (S j) z); [lia|exact Hz].
      * split.
        -- intros H. injection H as <-. destruct (proj1 IH eq_refl) as (i & y & Hi & Hy & Hj). exists (S i), y. split; [exact Hi|]. split; [exact Hy|].
           intros j z Hlt Hz. destruct j as [|j]; [injection Hz as <-; exists b; exact E|apply (Hj j z); [lia|exact Hz]].
        -- intros (i & y & Hi & Hy & Hj). apply IH. destruct i as [|i]; [injection Hi as <-; congruence|]. exists i, y. split; [exact Hi|]. split; [exact Hy|].
           intros j z Hlt Hz. apply (Hj (S j) z); [lia|exact Hz].
    + split.
      * intros H. injection H as <-. exists 0%nat, x. split; [reflexivity|]. split; [exact E|]. intros j y Hj. lia.
      * intros (i & y & Hi & Hy & Hj). destruct i as [|i]; [injection Hi as <-; congruence|]. destruct (Hj 0%nat x ltac:(lia) eq_refl) as [b Hb]. congruence.
Qed.

Lemma shift_labels {L} (tb : timeboard L) i x : tl_wf (tb_tl tb) -> (is_shift tb i /\ tl_get (tb_tl tb) i = Ok x) <-> 0 <= i /\ nth_error (tl_labels (tb_tl tb)) (Z.to_nat i) = Some x.
Proof.
  intros W. assert (Hl := wf_labels _ W). unfold is_shift, tb_len, tl_len. rewrite <- Hl. split.
  - intros [Hi H]. apply py_get_res_ok in H; [|lia]. unfold znth in H. destruct (i <? 0) eqn:E; [discriminate|]. split; [lia|exact H].
  - intros [Hi H]. assert (Hz : znth (tl_labels (tb_tl tb)) i = Some x) by (unfold znth; destruct (i <? 0) eqn:E; [lia|exact H]).
    split; [|apply py_get_res_ok; assumption]. split; [exact Hi|].
    assert (Hlt : (Z.to_nat i < length (tl_labels (tb_tl tb)))%nat) by (apply nth_error_Some; congruence). unfold zlen. lia.
Qed.

Lemma first_raise_apply {L} (tb : timeboard L) sel e : tl_wf (tb_tl tb) ->
  first_raise tb sel e <-> apply_selector sel (tl_labels (tb_tl tb)) = Err e.
Proof.
  intros W. rewrite apply_selector_err. split.
  - intros (i & x & Hi & Hx & He & Hj). destruct (proj1 (shift_labels tb i x W) (conj Hi Hx)) as [H0 Hn]. exists (Z.to_nat i), x.
    split; [exact Hn|]. split; [exact He|]. intros j y Hlt Hy. destruct (proj2 (shift_labels tb (Z.of_nat j) y W)) as [_ H]; [split; [lia|rewrite Nat2Z.id; exact Hy]|].
    apply (Hj (Z.of_nat j) y); [lia|exact H].
  - intros (i & x & Hi & He & Hj). destruct (proj2 (shift_labels tb (Z.of_nat i) x W)) as [H1 H2]; [split; [lia|rewrite Nat2Z.id; exact Hi]|].
    exists (Z.of_nat i), x. split; [exact H1|]. split; [exact H2|]. split; [exact He|]. intros j y Hlt Hy.
    destruct (proj1 (shift_labels tb j y W)) as [H3 H4]; [split; [unfold is_shift in *; lia|exact Hy]|]. apply (Hj (Z.to_nat j) y); [lia|exact H4].
Qed.
Lemma never_raises_all {L} (tb : timeboard L) sel : tl_wf (tb_tl tb) ->
  never_raises tb sel (no_raise sel) <-> forall x, In x (tl_labels (tb_tl tb)) -> sel x = Ok (no_raise sel x).
Proof.
  intros W. split.
  - intros H x Hin. apply In_nth_error in Hin. destruct Hin as [i Hi].
    destruct (proj2 (shift_labels tb (Z.of_nat i) x W)) as [H1 H2]; [split; [lia|rewrite Nat2Z.id; exact Hi]|]. exact (H _ _ H1 H2).
  - intros H i x Hi Hx. destruct (proj1 (shift_labels tb i x W) (conj Hi Hx)) as [_ Hn]. apply H. eapply nth_error_In. exact Hn.
Qed.

Lemma mk_schedule_may_eq {L} (tl : timeline L) name sel : (forall x, In x (tl_labels tl) -> sel x = Ok (no_raise sel x)) ->
  mk_schedule_may tl name sel = Ok (mk_schedule tl name (no_raise sel)).
Proof. intros H. unfold mk_schedule_may. rewrite (apply_selector_total sel _ H). reflexivity. Qed.

Lemma build_may_eq {L} (a : tb_args L) sel h : build_may a sel h =
  match build a h with
  | Err e => Err e
  | Ok (tb, h') => do s <- mk_schedule_may (tb_tl tb) (a_name a) sel; Ok (mkTb (tb_tl tb) s [(a_name a, s)] (a_wt a) (a_num a), h')
  end.
Proof.
  unfold build_may, build. destruct (top_organizer (a_layout a)) as [org|e]; cbn [bind]; [|reflexivity].
  destruct (a_wt a); try reflexivity;
    (destruct (mk_frame (a_freq a) (a_start a) (a_end a)) as [f|e]; cbn [bind]; [|reflexivity];
     destruct (mk_timeline f org (a_ref_end a) (a_default a) h) as [th|e]; cbn [bind]; [|reflexivity];
     destruct (amend (fst th) false (a_amendments a)) as [tl|e]; cbn [bind tb_tl]; reflexivity).
Qed.
Lemma build_selector {L} (a : tb_args L) sel h : build (with_selector a sel) h =
  match build a h with
  | Err e => Err e
  | Ok (tb, h') => let s := mk_schedule (tb_tl tb) (a_name a) sel in Ok (mkTb (tb_tl tb) s [(a_name a, s)] (a_wt a) (a_num a), h')
  end.
Proof.
  unfold build, with_selector. cbn [a_layout a_wt a_freq a_start a_end a_ref_end a_default a_amendments a_name a_sel a_num].
  destruct (top_organizer (a_layout a)) as [org|e]; cbn [bind]; [|reflexivity].
  destruct (a_wt a); try reflexivity;
    (destruct (mk_frame (a_freq a) (a_start a) (a_end a)) as [f|e]; cbn [bind]; [|reflexivity];
     destruct (mk_timeline f org (a_ref_end a) (a_default a) h) as [th|e]; cbn [bind]; [|reflexivity];
     destruct (amend (fst th) false (a_amendments a)) as [tl|e]; cbn [bind tb_tl]; reflexivity).
Qed.

Lemma C59_build_pf : forall (L : Type) (a : tb_args L) (sel : L -> res bool) (h : heap L),
  (forall e, build_may a sel h = Err e <-> build a h = Err e \/ exists tb h', build a h = Ok (tb, h') /\ first_raise tb sel e)
  /\ forall tb h', build_may a sel h = Ok (tb, h') <->
       never_raises tb sel (no_raise sel) /\ build (with_selector a (no_raise sel)) h = Ok (tb, h').
Proof.
  intros L a sel h. rewrite build_may_eq, build_selector. destruct (build a h) as [[tb0 h0]|e0] eqn:Eb.
  - assert (W : tl_wf (tb_tl tb0)) by (apply reachable_wf; eapply reach_build; exact Eb).
    destruct (apply_selector sel (tl_labels (tb_tl tb0))) as [on|e1] eqn:Ea.
    + destruct (apply_selector_ok sel _ _ Ea) as [_ Hall]. rewrite (mk_schedule_may_eq _ _ _ Hall). cbn [bind]. split.
      * intros e. split; [discriminate|]. intros [H|(tb & h' & H & Hf)]; [discriminate|]. injection H as <- <-.
        apply (first_raise_apply tb0 sel e W) in Hf. congruence.
      * intros tb h'. split; [|intros [_ H]; exact H]. intros H. split; [|exact H]. injection H as <- <-. cbn [tb_tl].
        apply never_raises_all; [exact W|exact Hall].
    + unfold mk_schedule_may. rewrite Ea. cbn [bind]. split.
      * intros e. split.
        -- intros H. injection H as <-. right. exists tb0, h0. split; [reflexivity|]. apply (first_raise_apply tb0 sel e1 W). exact Ea.
        -- intros [H|(tb & h' & H & Hf)]; [discriminate|]. injection H as <- <-. apply (first_raise_apply tb0 sel e W) in Hf. congruence.
      * intros tb h'. split; [discriminate|]. intros [Hn H]. injection H as <- <-. pose proof (proj1 (never_raises_all (mkTb (tb_tl tb0) _ _ _ _) sel W) Hn) as Hn'. cbn [tb_tl] in Hn'.
        rewrite (apply_selector_total sel _ Hn') in Ea. discriminate.
  - split.
    + intros e. split; [intros H; left; exact H|]. intros [H|(tb & h' & H & _)]; [exact H|discriminate].
    + intros tb h'. split; [discriminate|intros [_ H]; discriminate].
Qed.

Lemma C59_add_pf : forall (L : Type) (tb : timeboard L) name (sel : L -> res bool), reachable tb ->
  (forall e, snd (add_schedule_may tb name sel) = Err e -> fst (add_schedule_may tb name sel) = tb)
  /\ (known tb name <> None -> snd (add_schedule_may tb name sel) = Err EKey)
  /\ (known tb name = None -> forall e, snd (add_schedule_may tb name sel) = Err e <-> first_raise tb sel e)
  /\ (known tb name = None -> never_raises tb sel (no_raise sel) ->
        add_schedule tb name (no_raise sel) = rmap (fun s => (fst (add_schedule_may tb name sel), s)) (snd (add_schedule_may tb name sel))).
Proof.
  intros L tb name sel Hr. apply reachable_wf in Hr. destruct Hr as (W & _ & _). unfold add_schedule_may, add_schedule, known.
  destruct (find_schedule tb name) as [s|].
  - cbn [fst snd]. split; [reflexivity|]. split; [reflexivity|]. split; discriminate.
  - split; [|split; [intros H; contradiction H; reflexivity|split]].
    + intros e. destruct (mk_schedule_may (tb_tl tb) name sel); cbn [fst snd]; [discriminate|reflexivity].
    + intros _ e. rewrite (first_raise_apply tb sel e W). unfold mk_schedule_may.
      destruct (apply_selector sel (tl_labels (tb_tl tb))) as [on|e']; cbn [bind snd]; [split; discriminate|split; intros H; injection H as ->; reflexivity].
    + intros _ Hn. pose proof (proj1 (never_raises_all tb sel W) Hn) as Hn'. clear Hn. rename Hn' into Hn. rewrite (mk_schedule_may_eq _ _ _ Hn). reflexivity.
Qed.

(** What was made with a selector never raises afterwards. *)
Lemma C59_duty_pf : forall (L : Type) (a : tb_args L) (sel : L -> res bool) (h : heap L) tb h', build_may a sel h = Ok (tb, h') ->
  forall i, is_shift tb i -> exists x b, tl_get (tb_tl tb) i = Ok x /\ sel x = Ok b
    /\ sched_on_duty_may (tb_tl tb) sel i = Ok b /\ sched_off_duty_may (tb_tl tb) sel i = Ok (negb b)
    /\ (In i (sc_on (tb_default tb)) <-> b = true) /\ (In i (sc_off (tb_default tb)) <-> b = false).
Proof.
  intros L a sel h tb h' H i Hi. destruct (C59_build_pf L a sel h) as [_ C]. apply C in H. destruct H as [Hn Hb].
  assert (Hr : reachable tb) by (eapply reach_build; exact Hb). assert (W : tl_wf (tb_tl tb)) by (apply reachable_wf; exact Hr).
  destruct (tl_get_ex _ W i Hi) as (x & Hx & _). exists x, (no_raise sel x). split; [exact Hx|]. split; [exact (Hn i x Hi Hx)|].
  unfold sched_off_duty_may, sched_on_duty_may. rewrite Hx. cbn [bind]. rewrite (Hn i x Hi Hx). split; [reflexivity|]. split; [reflexivity|].
  rewrite build_selector in Hb. destruct (build a h) as [[tb0 h0]|e]; [|discriminate]. injection Hb as <- <-. cbn [tb_tl tb_default] in *.
  unfold mk_schedule. cbn [sc_on sc_off]. rewrite !nonzero_In, !znth_map.
  assert (Hz : znth (tl_labels (tb_tl tb0)) i = Some x) by (apply py_get_res_ok; [unfold is_shift in Hi; lia|exact Hx]).
  rewrite Hz. cbn [option_map]. split; [split; congruence|]. destruct (no_raise sel x); cbn [negb]; split; congruence.
Qed.

Lemma C59_asked_pf : forall (L : Type) (tb : timeboard L) (sel : L -> res bool) i, revised tb -> is_shift tb i ->
  exists x, tl_get (tb_tl tb) i = Ok x
    /\ (forall b, sched_on_duty_may (tb_tl tb) sel i = Ok b <-> sel x = Ok b)
    /\ (forall b, sched_off_duty_may (tb_tl tb) sel i = Ok b <-> sel x = Ok (negb b))
    /\ (forall e, sched_on_duty_may (tb_tl tb) sel i = Err e <-> sel x = Err e)
    /\ (forall e, sched_off_duty_may (tb_tl tb) sel i = Err e <-> sel x = Err e).
Proof.
  intros L tb sel i Hr Hi. apply revised_wf in Hr. destruct (tl_get_ex _ Hr i Hi) as (x & Hx & _).
  exists x. split; [exact Hx|]. unfold sched_off_duty_may, sched_on_duty_may. rewrite Hx. cbn [bind].
  destruct (sel x) as [[]|e0]; cbn [rmap negb]; (split; [intros []; reflexivity || (split; congruence)|]);
    (split; [intros []; cbn [negb]; split; congruence|]); split; intros e; split; congruence.
Qed.
