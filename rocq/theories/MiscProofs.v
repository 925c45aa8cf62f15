(** Proofs of C14, C15, C32-C34. *)
From Verif Require Import Base BaseProofs Civil Freq FreqProofs Frame FrameProofs Timeline TimelineProofs Board Spec BoardProofs SpecLookup LookupProofs SpecRoll SpecQuery QueryProofs SpecMisc.
From Coq Require Import ZifyBool ZifyNat Permutation.
Ltac Zify.zify_post_hook ::= Z.div_mod_to_equations.

(** ** Amendments *)
Section Amend.
  Context {L : Type} (tl : timeline L) (W : tl_wf tl).

  Definition locs_of (q : Z * L) : list (Z * L) :=
    match get_ws_position tl (fst q) with Ok p => [(p, snd q)] | Err _ => [] end.
  Definition located (am : list (Z * L)) : list (Z * L) := flat_map locs_of am.

  Lemma position_cases t : (exists p, get_ws_position tl t = Ok p /\ 0 <= p < tl_len tl)
                           \/ get_ws_position tl t = Err EOutOfBounds.
  Proof.
    destruct (Z.lt_ge_cases t (fr_start_time (tl_frame tl))) as [H1|H1];
      [right; apply get_ws_position_out; left; exact H1|].
    destruct (Z.lt_ge_cases (fr_end_time (tl_frame tl)) t) as [H2|H2];
      [right; apply get_ws_position_out; right; exact H2|].
    left. destruct (get_ws_position_in tl W t ltac:(lia)) as (p & Hp & Hr & _). exists p. split; assumption.
  Qed.

  Lemma existsb_fst (p : Z) (acc : list (Z * L)) : existsb (fun q => fst q =? p) acc = true <-> In p (map fst acc).
  Proof.
    rewrite existsb_exists, in_map_iff. split.
    - intros (q & H1 & H2). exists q. split; [lia|exact H1].
    - intros (q & H1 & H2). exists q. split; [exact H2|lia].
  Qed.

  Lemma NoDup_snoc {A} (l : list A) x : NoDup l -> ~ In x l -> NoDup (l ++ [x]).
  Proof.
    intros H1 H2. apply (Permutation_NoDup (l := x :: l)); [|constructor; assumption].
    apply Permutation_cons_append.
  Qed.

  Lemma locate_amendments_ok am : forall acc, NoDup (map fst acc) ->
    (NoDup (map fst (acc ++ located am)) -> locate_amendments tl false am acc = Ok (acc ++ located am))
    /\ (forall r, locate_amendments tl false am acc = Ok r -> r = acc ++ located am /\ NoDup (map fst r))
    /\ (forall e, locate_amendments tl false am acc = Err e -> e = EKey /\ ~ NoDup (map fst (acc ++ located am))).
  Proof.
    induction am as [|[t x] am IH]; intros acc Hacc; cbn [locate_amendments].
    - cbn [located flat_map]. rewrite app_nil_r. split; [reflexivity|]. split; [|discriminate].
      intros r H. injection H as <-. split; [reflexivity|exact Hacc].
    - replace (located ((t, x) :: am)) with
        ((match get_ws_position tl t with Ok p => [(p, x)] | Err _ => [] end) ++ located am) by reflexivity.
      destruct (position_cases t) as [(p & -> & Hp)| ->].
      2:{ cbn [app]. apply IH. exact Hacc. }
      destruct (existsb (fun q => fst q =? p) acc) eqn:E.
      + apply existsb_fst in E.
        assert (Hno : ~ NoDup (map fst (acc ++ [(p, x)] ++ located am))).
        { rewrite map_app. cbn [map app fst]. intros H. apply NoDup_remove_2 in H. apply H, in_app_iff. left. exact E. }
        split; [intros H; contradiction|]. split; [discriminate|]. intros e H. injection H as <-. split; [reflexivity|exact Hno].
      + assert (Hn : ~ In p (map fst acc)) by (intros H; apply existsb_fst in H; congruence).
        rewrite app_assoc. apply IH. rewrite map_app. apply NoDup_snoc; assumption.
  Qed.

  Lemma located_range am q : In q (located am) -> 0 <= fst q < tl_len tl.
  Proof.
    intros H. apply in_flat_map in H. destruct H as ([t x] & _ & H). unfold locs_of in H. cbn [fst snd] in H.
    destruct (position_cases t) as [(p & Hp & Hr)|Hp]; rewrite Hp in H; [|contradiction].
    destruct H as [<-|[]]. exact Hr.
  Qed.

  Lemma write_labels_znth (am : list (Z * L)) : forall labels i, NoDup (map fst am) ->
    (forall q, In q am -> 0 <= fst q < zlen labels) -> 0 <= i < zlen labels ->
    (forall x, In (i, x) am -> znth (write_labels labels am) i = Some x)
    /\ (~ In i (map fst am) -> znth (write_labels labels am) i = znth labels i).
  Proof.
    unfold write_labels. induction am as [|[p y] am IH]; intros labels i Hn Hr Hi; cbn [fold_left map fst snd].
    - split; [contradiction|reflexivity].
    - apply NoDup_cons_iff in Hn. destruct Hn as [Hp Hn].
      pose proof (Hr (p, y) (or_introl eq_refl)) as Hp0. cbn [fst] in Hp0.
      assert (Hr' : forall q, In q am -> 0 <= fst q < zlen (set_nth labels (Z.to_nat p) y)).
      { intros q Hq. rewrite zlen_set_nth. apply Hr. right. exact Hq. }
      destruct (IH (set_nth labels (Z.to_nat p) y) i Hn Hr' ltac:(rewrite zlen_set_nth; exact Hi)) as [A B].
      split.
      + intros x [E|Hx]; [|apply A; exact Hx]. injection E as <- <-.
        cbn [map fst] in Hp. rewrite B by exact Hp. rewrite set_nth_znth by lia.
        destruct ((p =? p) && (p <? zlen labels)) eqn:E; [reflexivity|lia].
      + intros Hni. cbn [In] in Hni. rewrite B by tauto. rewrite set_nth_znth by lia.
        destruct ((i =? p) && (i <? zlen labels)) eqn:E; [exfalso; apply Hni; left; lia|reflexivity].
  Qed.
End Amend.

Lemma build_amended {L} (a : tb_args L) h am tb0 h' : build (with_amendments a []) h = Ok (tb0, h') ->
  build (with_amendments a am) h =
    (do tl <- amend (tb_tl tb0) false am;
     let s := mk_schedule tl (a_name a) (a_sel a) in
     Ok (mkTb tl s [(a_name a, s)] (a_wt a) (a_num a), h')).
Proof.
  unfold build, with_amendments. cbn [a_layout a_wt a_freq a_start a_end a_ref_end a_default a_amendments a_name a_sel a_num].
  destruct (top_organizer (a_layout a)) as [org|]; cbn [bind]; [|discriminate].
  destruct (a_wt a); try discriminate;
    (destruct (mk_frame (a_freq a) (a_start a) (a_end a)) as [f|]; cbn [bind]; [|discriminate];
     destruct (mk_timeline f org (a_ref_end a) (a_default a) h) as [[tl h1]|]; cbn [bind]; [|discriminate];
     cbn [fst snd]; intros H; injection H as <- <-; cbn [tb_tl];
     unfold amend; cbn [tl_frame tl_index tl_labels tl_band tl_ref_end write_labels fold_left];
     replace (mkTl (tl_frame tl) (tl_index tl) (tl_labels tl) (tl_band tl) (tl_ref_end tl)) with tl by (destruct tl; reflexivity);
     reflexivity).
Qed.
Lemma build_amended_err {L} (a : tb_args L) h am e : build (with_amendments a []) h = Err e ->
  build (with_amendments a am) h = Err e.
Proof.
  unfold build, with_amendments. cbn [a_layout a_wt a_freq a_start a_end a_ref_end a_default a_amendments a_name a_sel a_num].
  destruct (top_organizer (a_layout a)) as [org|]; cbn [bind]; [|trivial].
  destruct (a_wt a); try solve [trivial];
    (destruct (mk_frame (a_freq a) (a_start a) (a_end a)) as [f|]; cbn [bind]; [|trivial];
     destruct (mk_timeline f org (a_ref_end a) (a_default a) h) as [[tl h1]|]; cbn [bind]; [|trivial];
     cbn [fst snd]; discriminate).
Qed.

Lemma holds_position {L} (tb : timeboard L) i t : tl_wf (tb_tl tb) ->
  holds_time tb i t <-> get_ws_position (tb_tl tb) t = Ok i.
Proof.
  intros W. rewrite (holds_time_iff tb i t W). split.
  - intros [Hi Ht]. apply (get_ws_position_at _ W); assumption.
  - intros H. destruct (Z.lt_ge_cases t (fr_start_time (tl_frame (tb_tl tb)))) as [H1|H1];
      [rewrite get_ws_position_out in H by (left; exact H1); discriminate|].
    destruct (Z.lt_ge_cases (fr_end_time (tl_frame (tb_tl tb))) t) as [H2|H2];
      [rewrite get_ws_position_out in H by (right; exact H2); discriminate|].
    destruct (get_ws_position_in _ W t ltac:(lia)) as (p & Hp & Hr & Hb). rewrite Hp in H. injection H as <-.
    split; assumption.
Qed.

Lemma located_In {L} (tl : timeline L) am i x : In (i, x) (located tl am) <-> exists t, In (t, x) am /\ get_ws_position tl t = Ok i.
Proof.
  unfold located. rewrite in_flat_map. split.
  - intros ([t y] & H1 & H2). unfold locs_of in H2. cbn [fst snd] in H2.
    destruct (get_ws_position tl t) as [p|] eqn:E; [|contradiction]. destruct H2 as [H2|[]]. injection H2 as -> ->.
    exists t. split; assumption.
  - intros (t & H1 & H2). exists (t, x). split; [exact H1|]. unfold locs_of. cbn [fst snd]. rewrite H2. left. reflexivity.
Qed.

Lemma clash_located {L} (tb : timeboard L) am : tl_wf (tb_tl tb) ->
  clash tb am <-> ~ NoDup (map fst (located (tb_tl tb) am)).
Proof.
  intros W. split.
  - intros (j & k & i & t1 & x1 & t2 & x2 & Hjk & H1 & H2 & H3 & H4).
    apply (holds_position tb i _ W) in H3. apply (holds_position tb i _ W) in H4.
    assert (G : forall j k am t1 x1 t2 x2, (j < k)%nat -> nth_error am j = Some (t1, x1) -> nth_error am k = Some (t2, x2) ->
       get_ws_position (tb_tl tb) t1 = Ok i -> get_ws_position (tb_tl tb) t2 = Ok i -> ~ NoDup (map fst (located (tb_tl tb) am))).
    { clear. intros j k am t1 x1 t2 x2 Hjk H1 H2 H3 H4 Hn.
      apply nth_error_split in H1. destruct H1 as (l1 & l2 & -> & El).
      rewrite nth_error_app2 in H2 by lia.
      replace (k - length l1)%nat with (S (k - length l1 - 1)) in H2 by lia. cbn [nth_error] in H2. apply nth_error_In in H2.
      unfold located in Hn. rewrite flat_map_app in Hn. cbn [flat_map] in Hn. unfold locs_of at 2 in Hn. cbn [fst snd] in Hn.
      rewrite H3 in Hn. rewrite map_app in Hn. cbn [app map fst] in Hn. apply NoDup_remove_2 in Hn. apply Hn, in_app_iff. right.
      apply in_map_iff. exists (i, x2). split; [reflexivity|]. apply located_In. exists t2. split; assumption. }
    destruct (Nat.lt_gt_cases j k) as [Hc _]. destruct (Hc Hjk) as [Hlt|Hlt]; [eapply (G j k)|eapply (G k j)]; eassumption.
  - intros Hn. induction am as [|[t x] am IH].
    + exfalso. apply Hn. constructor.
    + unfold located in Hn. cbn [flat_map] in Hn. unfold locs_of at 1 in Hn. cbn [fst snd] in Hn. fold (located (tb_tl tb) am) in Hn.
      assert (Hrec : clash tb am -> clash tb ((t, x) :: am)).
      { intros (j & k & i & t1 & x1 & t2 & x2 & Hjk & H1 & H2 & H3). exists (S j), (S k), i, t1, x1, t2, x2.
        split; [congruence|]. split; [exact H1|]. split; [exact H2|exact H3]. }
      destruct (get_ws_position (tb_tl tb) t) as [p|] eqn:E; [|apply Hrec, IH; exact Hn].
      cbn [app map fst] in Hn. destruct (in_dec Z.eq_dec p (map fst (located (tb_tl tb) am))) as [Hin|Hnin].
      * apply in_map_iff in Hin. destruct Hin as ([i y] & Ei & Hin). cbn [fst] in Ei. subst i. apply located_In in Hin.
        destruct Hin as (t2 & H1 & H2). apply In_nth_error in H1. destruct H1 as (k & Hk).
        exists 0%nat, (S k), p, t, x, t2, y. split; [congruence|]. split; [reflexivity|]. split; [exact Hk|].
        split; apply (holds_position tb p _ W); assumption.
      * apply Hrec, IH. intros Hd. apply Hn. constructor; assumption.
Qed.

Lemma same_bounds_holds {L} (tb tb0 : timeboard L) : tl_wf (tb_tl tb) -> tl_wf (tb_tl tb0) ->
  tl_frame (tb_tl tb) = tl_frame (tb_tl tb0) -> tl_index (tb_tl tb) = tl_index (tb_tl tb0) ->
  tl_band (tb_tl tb) = tl_band (tb_tl tb0) -> forall i t, holds_time tb i t <-> holds_time tb0 i t.
Proof.
  intros W W0 E1 E2 E3 i t. rewrite (holds_position tb i t W), (holds_position tb0 i t W0).
  unfold get_ws_position. rewrite E1, E2, E3. reflexivity.
Qed.

Lemma same_len_get {L A} (tl tl0 : timeline L) i (k : res A) : zlen (tl_labels tl) = zlen (tl_labels tl0) ->
  (do _ <- tl_get tl i; k) = (do _ <- tl_get tl0 i; k).
Proof.
  intros H. unfold tl_get, py_get_res.
  assert (G : forall j, (znth (tl_labels tl) j = None) <-> (znth (tl_labels tl0) j = None)).
  { intros j. destruct (Z.lt_ge_cases j 0) as [Hj|Hj]; [rewrite !znth_none by (left; exact Hj); tauto|].
    destruct (Z.lt_ge_cases j (zlen (tl_labels tl))) as [Hk|Hk].
    - destruct (znth_ex (tl_labels tl) j ltac:(lia)) as [x ->]. destruct (znth_ex (tl_labels tl0) j ltac:(lia)) as [y ->].
      split; discriminate.
    - rewrite !znth_none by lia. tauto. }
  destruct (Z.lt_ge_cases i 0) as [Hi|Hi].
  - rewrite !py_get_neg by exact Hi. rewrite H. specialize (G (i + zlen (tl_labels tl0))).
    destruct (znth (tl_labels tl) _); destruct (znth (tl_labels tl0) _); try reflexivity; destruct G as [G1 G2];
      [discriminate (G2 eq_refl)|discriminate (G1 eq_refl)].
  - rewrite !py_get_znth by exact Hi. specialize (G i).
    destruct (znth (tl_labels tl) _); destruct (znth (tl_labels tl0) _); try reflexivity; destruct G as [G1 G2];
      [discriminate (G2 eq_refl)|discriminate (G1 eq_refl)].
Qed.

Lemma C14_amendments_pf : forall (L : Type) (a : tb_args L) (h : heap L) tb h',
  build a h = Ok (tb, h') ->
  exists tb0, build (with_amendments a []) h = Ok (tb0, h')
    /\ (forall i t, (is_shift tb i <-> is_shift tb0 i) /\ (starts_at tb i t <-> starts_at tb0 i t)
          /\ (ends_at tb i t <-> ends_at tb0 i t) /\ (ref_at tb i t <-> ref_at tb0 i t))
    /\ forall i x, is_shift tb i ->
         (tl_get (tb_tl tb) i = Ok x <->
          (exists t, In (t, x) (a_amendments a) /\ holds_time tb i t)
          \/ ((forall t y, In (t, y) (a_amendments a) -> ~ holds_time tb i t) /\ tl_get (tb_tl tb0) i = Ok x)).
Proof.
  intros L a h tb h' H. assert (Ea : with_amendments a (a_amendments a) = a) by (destruct a; reflexivity).
  destruct (build (with_amendments a []) h) as [[tb0 h0]|e] eqn:E0.
  2:{ apply (build_amended_err a h (a_amendments a)) in E0. rewrite Ea in E0. congruence. }
  pose proof (build_amended a h (a_amendments a) tb0 h0 E0) as Eb. rewrite Ea, H in Eb.
  destruct (amend (tb_tl tb0) false (a_amendments a)) as [tl|e] eqn:Em; cbn [bind] in Eb; [|discriminate].
  injection Eb as -> ->. exists tb0. split; [reflexivity|].
  assert (W0 : tl_wf (tb_tl tb0)) by (apply reachable_wf; eapply reach_build; exact E0).
  destruct (amend_wf _ _ _ _ W0 Em) as (W & F1 & F2 & F3 & F4). cbn [tb_tl].
  split.
  - intros i t. unfold is_shift, starts_at, ends_at, ref_at, tb_len, tl_len, ws_start_time, ws_end_time, ws_ref_time, ws_start_time, ws_end_time, ws_first_baseunit, ws_last_baseunit, ws_first_baseunit, tl_len.
    cbn [tb_tl].
    assert (Hg : forall (k : res Z), (do _ <- tl_get tl i; k) = (do _ <- tl_get (tb_tl tb0) i; k)).
    { intros k. apply same_len_get. rewrite (wf_labels _ W), (wf_labels _ W0). unfold tl_len. rewrite F2. reflexivity. }
    rewrite !Hg, F1, F2, F3, F4. split; [reflexivity|]. split; [reflexivity|]. split; reflexivity.
  - intros i x Hi.
    set (tb1 := mkTb tl (mk_schedule tl (a_name a) (a_sel a)) [(a_name a, mk_schedule tl (a_name a) (a_sel a))] (a_wt a) (a_num a)) in *.
    pose proof (same_bounds_holds tb1 tb0 W W0 F1 F2 F3) as Hh.
    unfold amend in Em. destruct (locate_amendments (tb_tl tb0) false (a_amendments a) []) as [loc|e] eqn:El; cbn [bind] in Em; [|discriminate].
    destruct (locate_amendments_ok (tb_tl tb0) W0 (a_amendments a) [] (NoDup_nil _)) as (_ & B & _).
    destruct (B _ El) as [-> Hn]. cbn [app] in Em, Hn. injection Em as <-.
    assert (Hlab : zlen (tl_labels (tb_tl tb0)) = tb_len tb0) by (apply (wf_labels _ W0)).
    assert (Hi0 : is_shift tb0 i) by (unfold is_shift, tb_len, tl_len, tb1 in Hi; cbn [tb_tl tl_index] in Hi; exact Hi).
    destruct (write_labels_znth (located (tb_tl tb0) (a_amendments a)) (tl_labels (tb_tl tb0)) i Hn) as [A1 A2].
    { intros q Hq. rewrite Hlab. apply (located_range (tb_tl tb0) W0 (a_amendments a)). exact Hq. }
    { rewrite Hlab. exact Hi0. }
    assert (G1 : forall y, tl_get (tb_tl tb1) i = Ok y <-> znth (write_labels (tl_labels (tb_tl tb0)) (located (tb_tl tb0) (a_amendments a))) i = Some y).
    { intros y. unfold tl_get, tb1. cbn [tb_tl tl_labels]. apply py_get_res_ok. apply Hi. }
    assert (G0 : forall y, tl_get (tb_tl tb0) i = Ok y <-> znth (tl_labels (tb_tl tb0)) i = Some y).
    { intros y. unfold tl_get. apply py_get_res_ok. apply Hi. }
    change (tb_tl tb1) with (tb_tl tb1) in G1. cbn [tb_tl tb1] in G1 |- *. rewrite G1, G0.
    destruct (in_dec Z.eq_dec i (map fst (located (tb_tl tb0) (a_amendments a)))) as [Hin|Hnin].
    + apply in_map_iff in Hin. destruct Hin as ([j y] & Ej & Hin). cbn [fst] in Ej. subst j.
      rewrite (A1 y Hin). split.
      * intros E. injection E as <-. left. apply located_In in Hin. destruct Hin as (t & H1 & H2). exists t. split; [exact H1|].
        apply Hh. apply (holds_position tb0 i t W0). exact H2.
      * intros [(t & H1 & H2)|(H1 & _)].
        -- apply Hh, (holds_position tb0 i t W0) in H2.
           assert (Hin2 : In (i, x) (located (tb_tl tb0) (a_amendments a))) by (apply located_In; exists t; split; assumption).
           rewrite <- (A1 y Hin). apply A1. exact Hin2.
        -- exfalso. apply located_In in Hin. destruct Hin as (t & H3 & H4). apply (H1 t y H3), Hh, (holds_position tb0 i t W0). exact H4.
    + rewrite (A2 Hnin).
      assert (Hno : forall t y, In (t, y) (a_amendments a) -> ~ holds_time tb1 i t).
      { intros t y H1 H2. apply Hh, (holds_position tb0 i t W0) in H2. apply Hnin, in_map_iff. exists (i, y).
        split; [reflexivity|]. apply located_In. exists t. split; assumption. }
      split; [intros E; right; split; [exact Hno|exact E]|].
      intros [(t & H1 & H2)|(_ & E)]; [exfalso; exact (Hno t x H1 H2)|exact E].
Qed.

Lemma C15_clash_pf : forall (L : Type) (a : tb_args L) (h : heap L) am tb0 h',
  build (with_amendments a []) h = Ok (tb0, h') ->
  (clash tb0 am -> build (with_amendments a am) h = Err EKey)
  /\ (~ clash tb0 am -> exists tb, build (with_amendments a am) h = Ok (tb, h')).
Proof.
  intros L a h am tb0 h' H. rewrite (build_amended a h am tb0 h' H).
  assert (W0 : tl_wf (tb_tl tb0)) by (apply reachable_wf; eapply reach_build; exact H).
  rewrite (clash_located tb0 am W0).
  destruct (locate_amendments_ok (tb_tl tb0) W0 am [] (NoDup_nil _)) as (A & B & C). cbn [app] in *. unfold amend. split; intros Hc.
  - destruct (locate_amendments (tb_tl tb0) false am []) as [r|e]; [destruct (B r eq_refl) as [-> Hn]; contradiction|].
    destruct (C e eq_refl) as [-> _]. reflexivity.
  - destruct (locate_amendments (tb_tl tb0) false am []) as [r|e]; [|destruct (C e eq_refl) as [_ Hn]; contradiction].
    cbn [bind]. eexists. reflexivity.
Qed.

Lemma write_labels_perm {L} (labels : list L) am am' : Permutation am am' -> NoDup (map fst am) ->
  (forall q, In q am -> 0 <= fst q < zlen labels) -> write_labels labels am = write_labels labels am'.
Proof.
  intros HP Hn Hr. apply znth_ext; [rewrite !write_labels_len; reflexivity|]. intros i Hi. rewrite write_labels_len in Hi.
  assert (Hn' : NoDup (map fst am')) by (eapply Permutation_NoDup; [apply Permutation_map; exact HP|exact Hn]).
  assert (Hr' : forall q, In q am' -> 0 <= fst q < zlen labels).
  { intros q Hq. apply Hr. eapply Permutation_in; [apply Permutation_sym; exact HP|exact Hq]. }
  destruct (write_labels_znth am labels i Hn Hr Hi) as [A1 A2]. destruct (write_labels_znth am' labels i Hn' Hr' Hi) as [B1 B2].
  destruct (in_dec Z.eq_dec i (map fst am)) as [Hin|Hnin].
  - apply in_map_iff in Hin. destruct Hin as ([j y] & Ej & Hin). cbn [fst] in Ej. subst j.
    rewrite (A1 y Hin). symmetry. apply B1. eapply Permutation_in; eassumption.
  - rewrite A2 by exact Hnin. symmetry. apply B2. intros H. apply Hnin. eapply Permutation_in; [|exact H].
    apply Permutation_sym, Permutation_map. exact HP.
Qed.
Lemma located_perm {L} (tl : timeline L) am am' : Permutation am am' -> Permutation (located tl am) (located tl am').
Proof. apply Permutation_flat_map. Qed.

Lemma C15_order_pf : forall (L : Type) (a : tb_args L) (h : heap L) am am',
  Permutation am am' -> build (with_amendments a am) h = build (with_amendments a am') h.
Proof.
  intros L a h am am' HP. destruct (build (with_amendments a []) h) as [[tb0 h0]|e] eqn:E0.
  2:{ rewrite (build_amended_err a h am e E0), (build_amended_err a h am' e E0). reflexivity. }
  rewrite (build_amended a h am tb0 h0 E0), (build_amended a h am' tb0 h0 E0).
  assert (W0 : tl_wf (tb_tl tb0)) by (apply reachable_wf; eapply reach_build; exact E0).
  destruct (locate_amendments_ok (tb_tl tb0) W0 am [] (NoDup_nil _)) as (A & B & C).
  destruct (locate_amendments_ok (tb_tl tb0) W0 am' [] (NoDup_nil _)) as (A' & B' & C'). cbn [app] in *.
  pose proof (located_perm (tb_tl tb0) am am' HP) as HL. pose proof (Permutation_map fst HL) as HM. unfold amend.
  destruct (locate_amendments (tb_tl tb0) false am []) as [r|e].
  - destruct (B r eq_refl) as [-> Hn]. rewrite A' by (eapply Permutation_NoDup; eassumption). cbn [bind].
    rewrite (write_labels_perm _ _ _ HL Hn); [reflexivity|].
    intros q Hq. rewrite (wf_labels _ W0). apply (located_range _ W0 am). exact Hq.
  - destruct (C e eq_refl) as [-> Hn]. destruct (locate_amendments (tb_tl tb0) false am' []) as [r|e'].
    + destruct (B' r eq_refl) as [-> Hn']. exfalso. apply Hn. eapply Permutation_NoDup; [apply Permutation_sym; exact HM|exact Hn'].
    + destruct (C' e' eq_refl) as [-> _]. reflexivity.
Qed.

(** ** C32 *)
Lemma unit_end_next f i : unit_end f (i - 1) = unit_start f i - 1.
Proof. unfold unit_end, unit_start, unit_ord. do 2 f_equal. ring. Qed.

Lemma df_rows_ok {L} (tb : timeboard L) : tl_wf (tb_tl tb) -> forall n a labels,
  0 <= a -> a + Z.of_nat n <= tb_len tb ->
  (forall k, 0 <= k < Z.of_nat n -> exists x, znth labels k = Some x /\ tl_get (tb_tl tb) (a + k) = Ok x) ->
  zlen labels = Z.of_nat n ->
  Forall2 (fun i r => row_loc r = i /\ starts_at tb i (row_start r) /\ ends_at tb i (row_end r)
             /\ ref_at tb i (row_ref r) /\ ws_duration (tb_tl tb) i = Ok (row_duration r)
             /\ tl_get (tb_tl tb) i = Ok (row_label r))
          (zrange a n)
          (df_rows (tl_frame (tb_tl tb)) (tl_ref_end (tb_tl tb)) a (map (bnd (tb_tl tb)) (zrange a (S n))) labels).
Proof.
  intros W. induction n as [|n IH]; intros a labels Ha Hn Hl Hz.
  - constructor.
  - destruct labels as [|x labels]; [znil; lia|]. rewrite zlen_cons in Hz.
    assert (Hi : is_shift tb a) by (unfold is_shift; lia).
    change (zrange a (S (S n))) with (a :: zrange (a + 1) (S n)).
    change (zrange a (S n)) with (a :: zrange (a + 1) n). cbn [map].
    change (map (bnd (tb_tl tb)) (zrange (a + 1) (S n)))
      with (bnd (tb_tl tb) (a + 1) :: map (bnd (tb_tl tb)) (zrange (a + 1 + 1) n)). cbn [df_rows].
    constructor.
    + cbn [row_loc row_start row_end row_ref row_duration row_label]. rewrite unit_end_next.
      split; [reflexivity|]. split; [apply (starts_at_iff tb a _ W Hi); reflexivity|].
      split; [apply (ends_at_iff tb a _ W Hi); reflexivity|]. split; [apply (ref_at_iff tb a _ W Hi); reflexivity|].
      split; [apply (ws_duration_ok _ W a Hi)|].
      destruct (Hl 0 ltac:(lia)) as (y & E1 & E2). rewrite znth_cons0 in E1. injection E1 as ->.
      replace (a + 0) with a in E2 by lia. exact E2.
    + apply (IH (a + 1) labels); [lia|lia| |lia]. intros k Hk. destruct (Hl (k + 1) ltac:(lia)) as (y & E1 & E2).
      rewrite znth_cons in E1 by lia. replace (k + 1 - 1) with k in E1 by lia. exists y. split; [exact E1|].
      replace (a + 1 + k) with (a + (k + 1)) by lia. exact E2.
Qed.

Lemma C32_dataframe_pf : forall (L : Type) (tb : timeboard L) a b, reachable tb ->
  (is_shift tb a -> is_shift tb b ->
     exists rows, tb_dataframe tb a b = Ok rows /\ Forall2 (row_agrees tb) (positions a b) rows)
  /\ (~ (is_shift tb a /\ is_shift tb b) -> tb_dataframe tb a b = Err EAssertion).
Proof.
  intros L tb a b Hr. apply reachable_wf in Hr. destruct Hr as (W & _ & _).
  unfold tb_dataframe, tl_dataframe. change (tl_len (tb_tl tb)) with (tb_len tb). unfold is_shift. split.
  - intros Ha Hb.
    destruct ((0 <=? a) && (a <? tb_len tb) && (0 <=? b) && (b <? tb_len tb)) eqn:E; [|lia]. cbn [negb bind].
    eexists. split; [reflexivity|].
    set (tl := tb_tl tb) in *.
    destruct (Z.lt_ge_cases b a) as [Hba|Hab].
    { rewrite positions_empty by exact Hba.
      assert (Hl0 : py_slice (tl_labels tl) a (b + 1) = []).
      { unfold py_slice. replace (Z.to_nat (b + 1 - a)) with O by lia. reflexivity. }
      rewrite Hl0. destruct (b =? tb_len tb - 1) eqn:E2; [lia|].
      destruct (py_slice (tl_index tl) a (b + 2)) as [|b0 [|b1 r]]; constructor. }
    assert (Hb' : (if b =? tb_len tb - 1 then skipn (Z.to_nat a) (tl_index tl) ++ [fr_len (tl_frame tl)]
                   else py_slice (tl_index tl) a (b + 2)) = map (bnd tl) (zrange a (S (Z.to_nat (b + 1 - a))))).
    { pose proof (eq_refl : zlen (tl_index tl) = tb_len tb) as Hlen. apply znth_ext.
      - rewrite zlen_map, zlen_zrange. destruct (b =? tb_len tb - 1) eqn:E2.
        + rewrite zlen_app, zlen_skipn by lia. change (zlen [fr_len (tl_frame tl)]) with 1. lia.
        + rewrite py_slice_len by lia. lia.
      - intros k Hk. rewrite znth_map. destruct (b =? tb_len tb - 1) eqn:E2.
        + rewrite zlen_app, zlen_skipn in Hk by lia. change (zlen [fr_len (tl_frame tl)]) with 1 in Hk.
          rewrite zrange_znth by lia. destruct (Z.eq_dec k (tb_len tb - a)) as [->|Hne].
          * rewrite znth_app_r by (rewrite zlen_skipn by lia; lia). rewrite zlen_skipn by lia. rewrite Hlen.
            replace (tb_len tb - a - (tb_len tb - Z.of_nat (Z.to_nat a))) with 0 by lia.
            rewrite znth_cons0. f_equal. replace (a + (tb_len tb - a)) with (tl_len tl) by (unfold tb_len; fold tl; lia).
            symmetry. apply bnd_end.
          * rewrite znth_app_l by (rewrite zlen_skipn by lia; lia). rewrite znth_skipn by lia.
            replace (Z.of_nat (Z.to_nat a) + k) with (a + k) by lia. apply bnd_znth. change (tl_len tl) with (tb_len tb). lia.
        + rewrite py_slice_len in Hk by lia. rewrite zrange_znth by lia. rewrite py_slice_znth by lia.
          apply bnd_znth. change (tl_len tl) with (tb_len tb). lia. }
    rewrite Hb'.
    pose proof (wf_labels _ W) as Hlab. change (zlen (tl_labels tl) = tb_len tb) in Hlab.
    pose proof (df_rows_ok tb W (Z.to_nat (b + 1 - a)) a (py_slice (tl_labels tl) a (b + 1))) as HR.
    fold tl in HR. unfold positions. set (rows := df_rows _ _ _ _ _) in *.
    assert (HF : Forall2 (fun i r => row_loc r = i /\ starts_at tb i (row_start r) /\ ends_at tb i (row_end r)
             /\ ref_at tb i (row_ref r) /\ ws_duration tl i = Ok (row_duration r)
             /\ tl_get tl i = Ok (row_label r)) (zrange a (Z.to_nat (b + 1 - a))) rows).
    { apply HR; [lia|lia| |rewrite py_slice_len by lia; lia].
      intros k Hk. rewrite py_slice_znth by lia. destruct (tl_get_ex _ W (a + k)) as (x & H1 & H2).
      { change (0 <= a + k < tb_len tb). lia. }
      exists x. split; [exact H2|exact H1]. }
    clearbody rows. clear HR Hb' E. revert HF. generalize (zrange a (Z.to_nat (b + 1 - a))). intros l HF.
    induction HF as [|i r l rows (H1 & H2 & H3 & H4 & H5 & H6) HF IH]; cbn [map]; constructor; [|exact IH].
    unfold row_agrees. cbn [fst snd]. fold tl. repeat (split; [assumption|]).
    clear -H6. fold tl in H6. induction (tb_schedules tb) as [|q qs IH]; cbn [map]; constructor; [|exact IH].
    cbn [fst snd]. split; [reflexivity|]. unfold is_on_duty. cbn [ws_loc]. fold tl. rewrite H6. reflexivity.
  - intros H. destruct ((0 <=? a) && (a <? tb_len tb) && (0 <=? b) && (b <? tb_len tb)) eqn:E; [lia|]. reflexivity.
Qed.

Lemma C32_interval_pf : forall (L : Type) (tb : timeboard L) iv, reachable tb -> iv_of tb iv ->
  exists ws rows, iv_workshifts tb iv DAny None = Ok ws /\ iv_dataframe tb iv = Ok rows
    /\ Forall2 (fun w r => row_agrees tb (ws_loc w) r) ws rows.
Proof.
  intros L tb iv Hr Hiv. pose proof (C32_dataframe_pf L tb (iv_a iv) (iv_b iv) Hr) as [H _].
  destruct Hiv as (Hs & Ha & Hb & Hv). destruct (H Ha Hb) as (rows & E & F).
  assert (Hiv : iv_of tb iv) by (split; [|split; [|split]]; assumption).
  destruct (C25_queries_pf L tb iv DAny None Hr Hiv ltac:(right; right; reflexivity) ltac:(discriminate)) as ((ws & Ew & Fw) & _).
  exists ws, rows. split; [exact Ew|]. split; [exact E|].
  assert (El : iv_list tb iv DAny (sched_arg None (iv_sched iv)) = positions (iv_a iv) (iv_b iv)).
  { unfold iv_list. rewrite duty_list_any. destruct (iv_void iv); [|reflexivity].
    now rewrite positions_empty by exact Hv. }
  rewrite El in Fw. clear - F Fw. revert ws Fw. induction F as [|i r l rows Hi F IH]; intros ws Fw;
    inversion Fw as [|? w ? ws' Hw Fw']; subst; constructor; [|exact (IH _ Fw')].
  destruct Hw as [-> _]. exact Hi.
Qed.

(** ** C33 *)
Lemma find_app_none {A} (p : A -> bool) l x : find p l = None -> find p (l ++ [x]) = if p x then Some x else None.
Proof.
  induction l as [|y l IH]; cbn [find app]; [reflexivity|]. destruct (p y); [discriminate|exact IH].
Qed.
Lemma find_app_some {A} (p : A -> bool) l x y : find p l = Some y -> find p (l ++ [x]) = Some y.
Proof. induction l as [|z l IH]; cbn [find app]; [discriminate|]. destruct (p z); [trivial|exact IH]. Qed.
Lemma find_filter {B} (n k : Z) (l : list (Z * B)) :
  find (fun q => fst q =? k) (filter (fun q => negb (fst q =? n)) l)
  = if k =? n then None else find (fun q => fst q =? k) l.
Proof.
  induction l as [|q l IH]; cbn [filter find]; [destruct (k =? n); reflexivity|].
  destruct (fst q =? n) eqn:E; cbn [negb find].
  - rewrite IH. destruct (k =? n) eqn:E2; [reflexivity|]. destruct (fst q =? k) eqn:E3; [lia|reflexivity].
  - destruct (fst q =? k) eqn:E3; [|exact IH]. destruct (k =? n) eqn:E2; [lia|reflexivity].
Qed.

Lemma C33_step_pf : forall (L : Type) (tb : timeboard L) (op : sched_op L), reachable tb ->
  let tb' := perform tb op in
  reachable tb' /\ tb_tl tb' = tb_tl tb /\ tb_default tb' = tb_default tb
  /\ (forall k, known tb' k = abs_perform (known tb) op k)
  /\ (forall k s, find_schedule tb' k = Some s -> sched_for tb' s /\ sc_name s = k)
  /\ match op with
     | OpAdd name sel =>
         (forall k, k <> name -> find_schedule tb' k = find_schedule tb k)
         /\ (known tb name = None -> exists s, add_schedule tb name sel = Ok (tb', s)
               /\ find_schedule tb' name = Some s)
         /\ (known tb name <> None -> add_schedule tb name sel = Err EKey /\ tb' = tb)
     | OpDrop s =>
         (forall k, k <> sc_name s -> find_schedule tb' k = find_schedule tb k)
         /\ (known tb (sc_name s) <> None -> drop_schedule tb s = Ok tb')
         /\ (known tb (sc_name s) = None -> drop_schedule tb s = Err EKey /\ tb' = tb)
     end.
Proof.
  intros L tb op Hr tb'.
  assert (Hr' : reachable tb').
  { unfold tb', perform. destruct op as [name sel|s].
    - destruct (add_schedule tb name sel) as [[t s]|] eqn:E; [eapply reach_add; eassumption|exact Hr].
    - destruct (drop_schedule tb s) as [t|] eqn:E; [eapply reach_drop; eassumption|exact Hr]. }
  assert (Hk : forall k s, find_schedule tb' k = Some s -> sched_for tb' s /\ sc_name s = k).
  { apply reachable_wf in Hr'. destruct Hr' as (_ & _ & H). intros k s. unfold find_schedule.
    destruct (find (fun q => fst q =? k) (tb_schedules tb')) as [q|] eqn:E; [|discriminate]. intros Hq. injection Hq as <-.
    apply find_some in E. destruct E as [E1 E2]. destruct (H q E1) as [H1 H2]. split; [exact H1|]. lia. }
  split; [exact Hr'|]. clear Hr'.
  assert (G : tb_tl tb' = tb_tl tb /\ tb_default tb' = tb_default tb
    /\ (forall k, known tb' k = abs_perform (known tb) op k)
    /\ match op with
     | OpAdd name sel =>
         (forall k, k <> name -> find_schedule tb' k = find_schedule tb k)
         /\ (known tb name = None -> exists s, add_schedule tb name sel = Ok (tb', s)
               /\ find_schedule tb' name = Some s)
         /\ (known tb name <> None -> add_schedule tb name sel = Err EKey /\ tb' = tb)
     | OpDrop s =>
         (forall k, k <> sc_name s -> find_schedule tb' k = find_schedule tb k)
         /\ (known tb (sc_name s) <> None -> drop_schedule tb s = Ok tb')
         /\ (known tb (sc_name s) = None -> drop_schedule tb s = Err EKey /\ tb' = tb)
     end).
  { unfold tb', perform. destruct op as [name sel|s].
    - unfold add_schedule. destruct (find_schedule tb name) as [s0|] eqn:E.
      + assert (Ek : known tb name = Some (sc_sel s0)) by (unfold known; rewrite E; reflexivity).
        split; [reflexivity|]. split; [reflexivity|]. split; [intros k; cbn [abs_perform]; rewrite Ek; reflexivity|].
        split; [reflexivity|]. rewrite Ek. split; [discriminate|]. intros _. split; reflexivity.
      + assert (Ek : known tb name = None) by (unfold known; rewrite E; reflexivity).
        cbn [tb_tl tb_default]. split; [reflexivity|]. split; [reflexivity|].
        assert (Hf : forall k, find_schedule (mkTb (tb_tl tb) (tb_default tb)
            (tb_schedules tb ++ [(name, mk_schedule (tb_tl tb) name sel)]) (tb_wt tb) (tb_num tb)) k
            = if k =? name then Some (mk_schedule (tb_tl tb) name sel) else find_schedule tb k).
        { intros k. unfold find_schedule in E |- *. cbn [tb_schedules].
          destruct (find (fun q => fst q =? k) (tb_schedules tb)) as [q|] eqn:E2.
          - rewrite (find_app_some _ _ _ _ E2). destruct (k =? name) eqn:E3; [|reflexivity].
            assert (k = name) by lia. subst k. rewrite E2 in E. discriminate.
          - rewrite (find_app_none _ _ _ E2). cbn [fst snd].
            destruct (name =? k) eqn:E3; destruct (k =? name) eqn:E4; try lia; reflexivity. }
        split; [|split; [|split]].
        * intros k. unfold known at 1. rewrite Hf. cbn [abs_perform]. rewrite Ek.
          destruct (k =? name); reflexivity.
        * intros k Hk'. rewrite Hf. destruct (k =? name) eqn:E3; [lia|reflexivity].
        * intros _. eexists. split; [reflexivity|]. rewrite Hf, Z.eqb_refl. reflexivity.
        * congruence.
    - unfold drop_schedule. destruct (find_schedule tb (sc_name s)) as [s0|] eqn:E.
      + cbn [tb_tl tb_default]. split; [reflexivity|]. split; [reflexivity|].
        assert (Hf : forall k, find_schedule (mkTb (tb_tl tb) (tb_default tb)
            (filter (fun q => negb (fst q =? sc_name s)) (tb_schedules tb)) (tb_wt tb) (tb_num tb)) k
            = if k =? sc_name s then None else find_schedule tb k).
        { intros k. unfold find_schedule. cbn [tb_schedules]. rewrite find_filter. destruct (k =? sc_name s); reflexivity. }
        assert (Ek : known tb (sc_name s) = Some (sc_sel s0)) by (unfold known; rewrite E; reflexivity).
        split; [|split; [|split]].
        * intros k. unfold known. rewrite Hf. cbn [abs_perform]. destruct (k =? sc_name s); reflexivity.
        * intros k Hk'. rewrite Hf. destruct (k =? sc_name s) eqn:E3; [lia|reflexivity].
        * reflexivity.
        * congruence.
      + assert (Ek : known tb (sc_name s) = None) by (unfold known; rewrite E; reflexivity).
        split; [reflexivity|]. split; [reflexivity|]. split; [|split; [reflexivity|split; [congruence|split; reflexivity]]].
        intros k. cbn [abs_perform]. destruct (k =? sc_name s) eqn:E3; [|reflexivity].
        replace k with (sc_name s) by lia. exact Ek. }
  destruct G as (G1 & G2 & G3 & G4). repeat (split; [assumption|]). exact G4.
Qed.

Lemma abs_perform_ext {L} (m m' : sched_map L) op : (forall k, m k = m' k) -> forall k, abs_perform m op k = abs_perform m' op k.
Proof.
  intros H k. destruct op as [name sel|s]; cbn [abs_perform].
  - rewrite <- (H name). destruct (m name); [apply H|]. destruct (k =? name); [reflexivity|apply H].
  - destruct (k =? sc_name s); [reflexivity|apply H].
Qed.

Lemma C33_history_pf : forall (L : Type) (ops : list (sched_op L)) (tb : timeboard L), reachable tb ->
  let tb' := fold_left perform ops tb in
  (forall k, known tb' k = fold_left abs_perform ops (known tb) k)
  /\ tb_tl tb' = tb_tl tb /\ tb_default tb' = tb_default tb
  /\ (forall k s, find_schedule tb' k = Some s -> sched_for tb' s /\ sc_name s = k).
Proof.
  assert (Hext : forall (L : Type) (ops : list (sched_op L)) m m', (forall k, m k = m' k) ->
     forall k, fold_left abs_perform ops m k = fold_left abs_perform ops m' k).
  { intros L ops. induction ops as [|op ops IH]; intros m m' H; cbn [fold_left]; [exact H|].
    apply IH. apply abs_perform_ext. exact H. }
  intros L ops. induction ops as [|op ops IH]; intros tb Hr; cbn [fold_left].
  - split; [reflexivity|]. split; [reflexivity|]. split; [reflexivity|].
    apply reachable_wf in Hr. destruct Hr as (_ & _ & H). intros k s. unfold find_schedule.
    destruct (find (fun q => fst q =? k) (tb_schedules tb)) as [q|] eqn:E; [|discriminate]. intros Hq. injection Hq as <-.
    apply find_some in E. destruct E as [E1 E2]. destruct (H q E1) as [H1 H2]. split; [exact H1|]. lia.
  - destruct (C33_step_pf L tb op Hr) as (H1 & H2 & H3 & H4 & _).
    destruct (IH (perform tb op) H1) as (I1 & I2 & I3 & I4). rewrite H2 in I2. rewrite H3 in I3.
    split; [|split; [exact I2|split; [exact I3|exact I4]]]. intros k. rewrite I1. apply Hext. exact H4.
Qed.

(** ** C34 *)
Lemma shifts_locs {L} (tb : timeboard L) s l ws : Forall2 (the_shift tb s) l ws -> map ws_loc ws = l.
Proof.
  induction 1 as [|i w l ws H _ IH]; cbn [map]; [reflexivity|]. f_equal; [apply H|exact IH].
Qed.

Fixpoint expected_run {L} (ws : list (workshift L)) (ops : list iter_op) (n : option nat) : list (iter_out L) :=
  match ops with
  | [] => []
  | OIter :: ops' => OutSelf :: expected_run ws ops' (Some 0%nat)
  | ONext :: ops' => match n with
                     | None => OutErr EAttribute
                     | Some k => match nth_error ws k with Some w => OutWs w | None => OutErr EStopIteration end
                     end :: expected_run ws ops' (match n with Some k => Some (S k) | None => None end)
  end.
Lemma iter_run_snoc_state {L} (tb : timeboard L) (iv : interval L) ws : iv_workshifts tb iv DAny None = Ok ws ->
  forall ops n, iter_run tb iv (match n with Some k => Some (skipn k ws) | None => None end) ops = expected_run ws ops n.
Proof.
  intros Hws. induction ops as [|[|] ops IH]; intros n; cbn [iter_run expected_run]; [reflexivity| |].
  - unfold iv_iter. rewrite Hws. cbn [rmap]. f_equal. apply (IH (Some 0%nat)).
  - destruct n as [k|]; cbn [iv_next]; [|f_equal; apply (IH None)].
    assert (Hs : forall k (l : list (workshift L)), match nth_error l k with Some w => skipn k l = w :: skipn (S k) l
        | None => skipn k l = [] /\ skipn (S k) l = [] end).
    { clear. induction k as [|k IHk]; intros l; destruct l as [|w l]; cbn; try reflexivity; try (split; reflexivity).
      specialize (IHk l). destruct (nth_error l k); exact IHk. }
    specialize (Hs k ws). destruct (nth_error ws k) as [w|].
    + rewrite Hs. cbn [iv_next]. f_equal. apply (IH (Some (S k))).
    + destruct Hs as [H1 H2]. rewrite H1. cbn [iv_next]. f_equal. rewrite <- (IH (Some (S k))). rewrite H2. reflexivity.
Qed.

Lemma C34_interleaving_pf : forall (L : Type) (tb : timeboard L) (iv : interval L) ws ops before,
  reachable tb -> iv_of tb iv -> iv_workshifts tb iv DAny None = Ok ws ->
  map ws_loc ws = iv_list tb iv DAny (iv_sched iv)
  /\ forall after, ops = before ++ ONext :: after ->
     nth_error (iter_run tb iv None ops) (length before) =
       Some (match since_iter before None with
             | None => OutErr EAttribute
             | Some k => match nth_error ws k with Some w => OutWs w | None => OutErr EStopIteration end
             end).
Proof.
  intros L tb iv ws ops before Hr Hiv Hws. split.
  - apply reachable_wf in Hr. destruct Hr as (W & _ & _).
    rewrite (iv_workshifts_ok tb W iv DAny None Hiv ltac:(right; right; reflexivity)) in Hws by (destruct Hiv as [H _]; exact H).
    cbn [sched_arg] in Hws.
    destruct (mapM_shifts tb W (iv_sched iv) (iv_list tb iv DAny (iv_sched iv))) as (ws' & E & H).
    { intros i. apply iv_list_shifts. exact Hiv. }
    rewrite E in Hws. injection Hws as <-. apply shifts_locs in H. exact H.
  - intros after ->. pose proof (iter_run_snoc_state tb iv ws Hws) as H.
    change (@None (list (workshift L))) with (match (@None nat) with Some k => Some (skipn k ws) | None => None end).
    rewrite H. clear H. generalize (@None nat).
    induction before as [|[|] before IH]; intros n; cbn [app length nth_error since_iter expected_run]; [reflexivity|apply IH|apply IH].
Qed.

Lemma C34_once_pf : forall (L : Type) (tb : timeboard L) (iv : interval L) st,
  reachable tb -> iv_of tb iv ->
  exists ws, map ws_loc ws = iv_list tb iv DAny (iv_sched iv)
    /\ iter_run tb iv st (OIter :: repeat ONext (S (length ws)))
       = OutSelf :: map OutWs ws ++ [OutErr EStopIteration].
Proof.
  intros L tb iv st Hr Hiv. pose proof (reachable_wf tb Hr) as (W & _ & _).
  destruct (mapM_shifts tb W (iv_sched iv) (iv_list tb iv DAny (iv_sched iv))) as (ws & E & H).
  { intros i. apply iv_list_shifts. exact Hiv. }
  exists ws. split; [apply shifts_locs in H; exact H|]. cbn [iter_run]. unfold iv_iter.
  rewrite (iv_workshifts_ok tb W iv DAny None Hiv ltac:(right; right; reflexivity)) by (destruct Hiv as [H' _]; exact H').
  cbn [sched_arg]. rewrite E. cbn [rmap]. f_equal. clear.
  induction ws as [|w ws IH]; cbn [length repeat iter_run iv_next map app]; [reflexivity|]. f_equal. exact IH.
Qed.

Lemma since_repeat n : forall k, since_iter (repeat ONext n) (Some k) = Some (n + k)%nat.
Proof. induction n as [|n IH]; intros k; cbn [repeat since_iter]; [reflexivity|]. rewrite IH. f_equal. lia. Qed.

(** The outer of two nested loops ends after its first round, whatever remains. *)
Lemma C34_nested_pf : forall (L : Type) (tb : timeboard L) (iv : interval L) ws,
  reachable tb -> iv_of tb iv -> iv_workshifts tb iv DAny None = Ok ws ->
  let ops := OIter :: ONext :: OIter :: repeat ONext (S (length ws)) ++ [ONext] in
  nth_error (iter_run tb iv None ops) (4 + length ws) = Some (OutErr EStopIteration).
Proof.
  intros L tb iv ws Hr Hiv Hws ops.
  destruct (C34_interleaving_pf L tb iv ws ops (OIter :: ONext :: OIter :: repeat ONext (S (length ws))) Hr Hiv Hws) as [_ H].
  specialize (H [] eq_refl). cbn [length] in H. rewrite repeat_length in H. cbn [since_iter] in H.
  rewrite since_repeat in H. change (4 + length ws)%nat with (S (S (S (S (length ws))))). rewrite H. f_equal.
  replace (nth_error ws _) with (@None (workshift L)); [reflexivity|]. symmetry. apply nth_error_None. lia.
Qed.
