(** calendarbase.py extend_weekends (C43). *)
From Verif Require Import Base BaseProofs Civil CivilProofs Freq FreqProofs Frame FrameProofs Timeline Board Spec SpecLookup SpecLayout When SpecWhen Calendars SpecCal SeekProofs.
From Coq Require Import ZifyBool ZifyNat Sorted.
Ltac Zify.zify_post_hook ::= Z.div_mod_to_equations.

Lemma walk_ok {L} (d : list (Z * L)) step t0 : step <> 0 -> forall fuel,
  (exists k, 0 <= k < Z.of_nat fuel /\ walk_free fuel d step t0 = Ok (t0 + k * step * NS_DAY)
     /\ ~ In (t0 + k * step * NS_DAY) (map fst d)
     /\ forall i, 0 <= i < k -> In (t0 + i * step * NS_DAY) (map fst d))
  \/ (walk_free fuel d step t0 = Err EFuel /\ forall i, 0 <= i < Z.of_nat fuel -> In (t0 + i * step * NS_DAY) (map fst d)).
Proof.
  intros Hs fuel. revert t0. induction fuel as [|fuel IH]; intros t0; cbn [walk_free]; [right; split; [reflexivity|lia]|].
  destruct (dict_has Z.eqb d t0) eqn:E.
  - apply (has_get _ Z.eqb_eq) in E. destruct (IH (t0 + step * NS_DAY)) as [(k & Hk & E1 & H1 & H2)|[E1 H1]].
    + left. exists (k + 1). split; [lia|]. replace (t0 + (k + 1) * step * NS_DAY) with (t0 + step * NS_DAY + k * step * NS_DAY) by lia.
      split; [exact E1|]. split; [exact H1|]. intros i Hi. destruct (Z.eq_dec i 0) as [->|Hn]; [replace (t0 + 0 * step * NS_DAY) with t0 by lia; exact E|].
      replace (t0 + i * step * NS_DAY) with (t0 + step * NS_DAY + (i - 1) * step * NS_DAY) by lia. apply H2. lia.
    + right. split; [exact E1|]. intros i Hi. destruct (Z.eq_dec i 0) as [->|Hn]; [replace (t0 + 0 * step * NS_DAY) with t0 by lia; exact E|].
      replace (t0 + i * step * NS_DAY) with (t0 + step * NS_DAY + (i - 1) * step * NS_DAY) by lia. apply H1. lia.
  - left. exists 0. replace (t0 + 0 * step * NS_DAY) with t0 by lia. split; [lia|]. split; [reflexivity|]. split; [|lia].
    intros Hin. apply (has_get _ Z.eqb_eq) in Hin. congruence.
Qed.

Lemma walk_enough {L} (d : list (Z * L)) step t0 : step <> 0 ->
  exists k, 0 <= k /\ walk_free (S (length d)) d step t0 = Ok (t0 + k * step * NS_DAY)
     /\ ~ In (t0 + k * step * NS_DAY) (map fst d)
     /\ forall i, 0 <= i < k -> In (t0 + i * step * NS_DAY) (map fst d).
Proof.
  intros Hs. destruct (walk_ok d step t0 Hs (S (length d))) as [(k & Hk & H)|[_ H]]; [exists k; split; [lia|exact H]|].
  exfalso. set (l := map (fun i => t0 + i * step * NS_DAY) (zrange 0 (S (length d)))).
  assert (Hn : NoDup l).
  { unfold l. generalize 0. generalize (S (length d)). intros n. induction n as [|n IH]; intros a; cbn [zrange map]; [constructor|].
    constructor; [|apply IH]. intros Hin. apply in_map_iff in Hin. destruct Hin as (j & Hj & Hin). apply zrange_In in Hin.
    unfold NS_DAY in Hj. nia. }
  assert (Hi : incl l (map fst d)).
  { intros x Hx. apply in_map_iff in Hx. destruct Hx as (j & <- & Hj). apply zrange_In in Hj. apply H. lia. }
  pose proof (NoDup_incl_length Hn Hi) as Hlen. unfold l in Hlen. rewrite !map_length, zrange_length in Hlen. lia.
Qed.

Lemma index_of_some x l loc : index_of x l = Some loc -> 0 <= loc < zlen l /\ nth_error l (Z.to_nat loc) = Some x
  /\ forall j, (j < Z.to_nat loc)%nat -> nth_error l j <> Some x.
Proof.
  revert loc. induction l as [|y l IH]; intros loc; cbn [index_of]; [discriminate|]. destruct (y =? x) eqn:E.
  - intros H. injection H as <-. rewrite zlen_cons. pose proof (zlen_nonneg l). split; [lia|]. split; [cbn; f_equal; lia|]. intros j Hj. lia.
  - destruct (index_of x l) as [k|]; cbn [option_map]; [|discriminate]. intros H. injection H as <-.
    destruct (IH k eq_refl) as (A & B & C). rewrite zlen_cons. split; [lia|].
    replace (Z.to_nat (Z.succ k)) with (S (Z.to_nat k)) by lia. split; [exact B|].
    intros [|j] Hj; cbn [nth_error]; [intros H; injection H as ->; lia|]. apply C. lia.
Qed.
Lemma index_of_none x l : index_of x l = None <-> ~ In x l.
Proof.
  induction l as [|y l IH]; cbn [index_of In]; [tauto|]. destruct (y =? x) eqn:E.
  - split; [discriminate|]. intros H. exfalso. apply H. left. lia.
  - destruct (index_of x l); cbn [option_map]; [split; [discriminate|]|split; [|reflexivity]].
    + intros H. exfalso. assert (Some z = None); [apply IH; tauto|discriminate].
    + intros _ [H|H]; [lia|]. apply (proj1 IH eq_refl H).
Qed.

Lemma nth_error_snoc {A} (l : list A) x j y : nth_error (l ++ [x]) j = Some y ->
  nth_error l j = Some y \/ (j = length l /\ y = x).
Proof.
  intros H. destruct (Nat.lt_ge_cases j (length l)) as [Hj|Hj]; [left; rewrite nth_error_app1 in H by exact Hj; exact H|].
  rewrite nth_error_app2 in H by exact Hj. destruct (j - length l)%nat as [|k] eqn:E; [|destruct k; discriminate].
  injection H as <-. right. split; [lia|reflexivity].
Qed.

Section Extend.
  Context {L : Type} (how : extend_how) (label : option L) (weekend : list Z) (d0 : list (Z * L)).
  Notation taken added := (fun t => In t (map fst d0) \/ In t (map snd added)).

  Definition ext_inv (added : list (Z * Z)) (d : list (Z * L)) : Prop :=
    NoDup (map fst d)
    /\ (forall t x, In (t, x) d <-> In (t, x) d0 \/ exists h y, In (h, t) added /\ In (h, y) d0 /\ x = opt_or label y)
    /\ (forall h n, In (h, n) added -> ~ In n (map fst d0))
    /\ (forall j h n, nth_error added j = Some (h, n) -> first_free how weekend (taken (firstn j added)) h n).

  Lemma inv_keys added d t : ext_inv added d -> (forall h n, In (h, n) added -> In h (map fst d0)) ->
    (In t (map fst d) <-> In t (map fst d0) \/ In t (map snd added)).
  Proof.
    intros (_ & I2 & _) Hh. rewrite !in_map_iff. split.
    - intros ([t' x] & <- & Hin). cbn [fst]. apply I2 in Hin. destruct Hin as [Hin|(h & y & Hin & _)].
      + left. exists (t', x). split; [reflexivity|exact Hin].
      + right. exists (h, t'). split; [reflexivity|exact Hin].
    - intros [([t' x] & <- & Hin)|([h n] & <- & Hin)]; cbn [fst snd].
      + exists (t', x). split; [reflexivity|]. apply I2. left. exact Hin.
      + pose proof (Hh _ _ Hin) as Hk. apply in_map_iff in Hk. destruct Hk as ([h' y] & E & Hy). cbn [fst] in E. subst h'.
        exists (n, opt_or label y). split; [reflexivity|]. apply I2. right. exists h, y. split; [exact Hin|]. split; [exact Hy|reflexivity].
  Qed.

  Lemma ext_fold hs : forall added d, NoDup (map fst d0) -> ext_inv added d ->
    (forall h n, In (h, n) added -> In h (map fst d0)) -> (forall h, In h hs -> In h (map fst d0)) ->
    exists d' more, foldM (extend_one how label weekend) hs d = Ok d' /\ ext_inv (added ++ more) d'
      /\ map fst more = filter (fun h => existsb (Z.eqb (weekday (h / NS_DAY))) weekend) hs.
  Proof.
    induction hs as [|h hs IH]; intros added d Hd0 Hi Ha Hhs.
    { exists d, []. rewrite app_nil_r. split; [reflexivity|]. split; [exact Hi|reflexivity]. }
    cbn [foldM filter]. unfold extend_one at 1.
    assert (Hhs' : forall h0, In h0 hs -> In h0 (map fst d0)) by (intros; apply Hhs; right; assumption).
    destruct (index_of (weekday (h / NS_DAY)) weekend) as [loc|] eqn:El.
    2:{ cbn [bind]. assert (E : existsb (Z.eqb (weekday (h / NS_DAY))) weekend = false).
        { apply index_of_none in El. destruct (existsb _ weekend) eqn:E; [|reflexivity]. exfalso. apply existsb_exists in E.
          destruct E as (x & Hx & E). apply Z.eqb_eq in E. subst x. tauto. }
        rewrite E. apply IH; assumption. }
    apply index_of_some in El. destruct El as (L1 & L2 & L3).
    assert (E : existsb (Z.eqb (weekday (h / NS_DAY))) weekend = true).
    { apply existsb_exists. exists (weekday (h / NS_DAY)). split; [apply (nth_error_In _ _ L2)|apply Z.eqb_refl]. }
    rewrite E. assert (Hh : exists y, In (h, y) d0).
    { pose proof (Hhs h (or_introl eq_refl)) as Hk. apply in_map_iff in Hk. destruct Hk as ([h' y] & Eh & Hy). cbn [fst] in Eh. subst h'. exists y. exact Hy. }
    destruct Hh as [y Hy]. pose proof Hi as (I1 & I2 & I3 & I4).
    assert (Hg : dict_get Z.eqb d h = Some y) by (apply (In_get _ Z.eqb_eq d h y I1), I2; left; exact Hy).
    rewrite Hg.
    set (before := match how with HPrevious => true | HNext => false | HNearest => loc <? zlen weekend / 2 end).
    assert (Es : extend_steps how loc (zlen weekend) = if before then (- (loc + 1), -1) else (zlen weekend - loc, 1)).
    { unfold before. destruct how; cbn [extend_steps]; reflexivity. }
    rewrite Es. destruct (if before then (- (loc + 1), -1) else (zlen weekend - loc, 1)) as [first step] eqn:Ef.
    assert (Hst : step <> 0) by (destruct before; injection Ef as <- <-; lia).
    destruct (walk_enough d step (h + first * NS_DAY) Hst) as (k & Hk & Ew & Hfree & Hbusy). rewrite Ew. cbn [bind].
    set (n := h + first * NS_DAY + k * step * NS_DAY) in *.
    pose proof (fun t => inv_keys added d t Hi Ha) as Hkeys.
    assert (Hff : first_free how weekend (taken added) h n).
    { exists (Z.to_nat loc), k. split; [exact L2|]. split; [exact L3|]. cbv zeta.
      assert (Eb : match how with HPrevious => true | HNext => false | HNearest => Z.of_nat (Z.to_nat loc) <? Z.of_nat (length weekend) / 2 end = before).
      { unfold before, zlen. rewrite Z2Nat.id by lia. reflexivity. }
      rewrite Eb. fold (zlen weekend). rewrite Z2Nat.id by lia.
      assert (Hday : forall i, (if before then h - (loc + 1 + i) * NS_DAY else h + (zlen weekend - loc + i) * NS_DAY) = h + first * NS_DAY + i * step * NS_DAY).
      { intros i. destruct before; injection Ef as <- <-; lia. }
      split; [exact Hk|]. split; [rewrite Hday; reflexivity|]. split; [intros Ht; apply Hfree, Hkeys, Ht|].
      intros i Hir. rewrite Hday. apply Hkeys, Hbusy, Hir. }
    assert (Hi' : ext_inv (added ++ [(h, n)]) (dict_put Z.eqb d n (opt_or label y))).
    { split; [apply (NoDup_put _ Z.eqb_eq), I1|]. split; [|split].
      - intros t x. rewrite (In_get _ Z.eqb_eq) by (apply (NoDup_put _ Z.eqb_eq), I1). rewrite (get_put _ Z.eqb_eq).
        destruct (n =? t) eqn:Ent.
        + apply Z.eqb_eq in Ent. split.
          * intros Hx. injection Hx as <-. right. exists h, y. split; [apply in_app_iff; right; left; congruence|]. split; [exact Hy|reflexivity].
          * intros Hx. assert (Hno : ~ In t (map fst d0) /\ ~ In t (map snd added)) by (rewrite <- Ent; split; intros Hin; apply Hfree, Hkeys; tauto).
            destruct Hx as [Hx|(h' & y' & Hx & Hy' & ->)]; [exfalso; apply (proj1 Hno), in_map_iff; exists (t, x); split; [reflexivity|exact Hx]|].
            apply in_app_iff in Hx. destruct Hx as [Hx|[Hx|[]]]; [exfalso; apply (proj2 Hno), in_map_iff; exists (h', t); split; [reflexivity|exact Hx]|].
            injection Hx as <- _. f_equal. f_equal. apply (In_get _ Z.eqb_eq d0 h y Hd0) in Hy. apply (In_get _ Z.eqb_eq d0 h y' Hd0) in Hy'. congruence.
        + rewrite <- (In_get _ Z.eqb_eq d t x I1), I2. apply Z.eqb_neq in Ent. split; (intros [Hx|(h' & y' & Hx & Hr)]; [left; exact Hx|right; exists h', y']).
          * split; [apply in_app_iff; left; exact Hx|exact Hr].
          * apply in_app_iff in Hx. destruct Hx as [Hx|[Hx|[]]]; [split; [exact Hx|exact Hr]|]. injection Hx as _ <-. congruence.
      - intros h' n' Hin. apply in_app_iff in Hin. destruct Hin as [Hin|[Hin|[]]]; [apply (I3 _ _ Hin)|]. injection Hin as _ <-.
        intros Hin. apply Hfree, Hkeys. left. exact Hin.
      - intros j h' n' Hj. apply nth_error_snoc in Hj. destruct Hj as [Hj|[-> Hj]].
        + assert (Hjl : (j < length added)%nat) by (apply nth_error_Some; congruence).
          rewrite firstn_app. replace (j - length added)%nat with O by lia. cbn [firstn]. rewrite app_nil_r. apply I4, Hj.
        + injection Hj as -> ->. rewrite firstn_app, Nat.sub_diag. cbn [firstn]. rewrite app_nil_r, firstn_all. exact Hff. }
    destruct (IH (added ++ [(h, n)]) (dict_put Z.eqb d n (opt_or label y)) Hd0 Hi') as (d' & more & E1 & E2 & E3).
    { intros h' n' Hin. apply in_app_iff in Hin. destruct Hin as [Hin|[Hin|[]]]; [apply (Ha _ _ Hin)|]. injection Hin as <- _. apply Hhs. left. reflexivity. }
    { exact Hhs'. }
    exists d', ((h, n) :: more). split; [exact E1|]. rewrite <- app_assoc in E2. split; [exact E2|]. cbn [map fst]. rewrite E3. reflexivity.
  Qed.
End Extend.

Lemma zinsert_count x l : NoDup (x :: l) -> NoDup (zinsert x l).
Proof.
  induction l as [|a l IH]; intros H; cbn [zinsert]; [exact H|]. destruct (x <=? a); [exact H|].
  apply NoDup_cons_iff in H. destruct H as [H1 H2]. apply NoDup_cons_iff in H2. destruct H2 as [H2 H3]. constructor.
  - rewrite zinsert_In. intros [->|Hin]; [apply H1; left; reflexivity|tauto].
  - apply IH. constructor; [|exact H3]. intros Hin. apply H1. right. exact Hin.
Qed.
Lemma zsort_NoDup l : NoDup l -> NoDup (zsort l).
Proof.
  induction l as [|a l IH]; intros H; cbn [zsort]; [constructor|]. apply NoDup_cons_iff in H. destruct H as [H1 H2].
  apply zinsert_count. constructor; [rewrite zsort_In; exact H1|apply IH, H2].
Qed.
Lemma sorted_strict l : StronglySorted Z.le l -> NoDup l -> StronglySorted Z.lt l.
Proof.
  induction l as [|a l IH]; intros Hs Hn; [constructor|]. apply StronglySorted_inv in Hs. destruct Hs as [Hs Hf].
  apply NoDup_cons_iff in Hn. destruct Hn as [H1 H2]. constructor; [apply IH; assumption|].
  rewrite Forall_forall in *. intros x Hx. specialize (Hf x Hx). assert (a <> x) by (intros ->; tauto). lia.
Qed.
Lemma sorted_filter (f : Z -> bool) l : StronglySorted Z.lt l -> StronglySorted Z.lt (filter f l).
Proof.
  induction l as [|a l IH]; intros Hs; cbn [filter]; [constructor|]. apply StronglySorted_inv in Hs. destruct Hs as [Hs Hf].
  destruct (f a); [constructor|]; try (apply IH, Hs). rewrite Forall_forall in *. intros x Hx. apply filter_In in Hx. apply Hf, Hx.
Qed.

Lemma get_rev_last {L} (am : list (akey * L)) t x :
  dict_get Z.eqb (rev (map (fun q => (key_ts (fst q), snd q)) am)) t = Some x <-> last_value am t x.
Proof.
  rewrite <- map_rev. unfold last_value. induction am as [|[k v] am IH] using rev_ind.
  { cbn. split; [discriminate|]. intros (l1 & k & l2 & E & _). destruct l1; discriminate. }
  rewrite rev_unit. cbn [map dict_get fst snd]. destruct (key_ts k =? t) eqn:E.
  - apply Z.eqb_eq in E. split.
    + intros H. injection H as <-. exists am, k, []. split; [reflexivity|]. split; [exact E|contradiction].
    + intros (l1 & k' & l2 & El & Ek & Hl). destruct l2 as [|q l2] using rev_ind.
      * apply app_inj_tail in El. destruct El as [_ El]. injection El as _ ->. reflexivity.
      * exfalso. clear IHl2. rewrite app_comm_cons, app_assoc in El. apply app_inj_tail in El. destruct El as [_ <-].
        apply (Hl (k, v)); [apply in_app_iff; right; left; reflexivity|exact E].
  - apply Z.eqb_neq in E. rewrite IH. split.
    + intros (l1 & k' & l2 & -> & Ek & Hl). exists l1, k', (l2 ++ [(k, v)]). split; [rewrite <- app_assoc; reflexivity|]. split; [exact Ek|].
      intros q Hq. apply in_app_iff in Hq. destruct Hq as [Hq|[<-|[]]]; [apply Hl, Hq|exact E].
    + intros (l1 & k' & l2 & El & Ek & Hl). destruct l2 as [|q l2] using rev_ind.
      * apply app_inj_tail in El. destruct El as [_ El]. injection El as -> _. congruence.
      * clear IHl2. rewrite app_comm_cons, app_assoc in El. apply app_inj_tail in El. destruct El as [-> <-].
        exists l1, k', l2. split; [reflexivity|]. split; [exact Ek|]. intros q Hq. apply Hl, in_app_iff. left. exact Hq.
Qed.

Lemma C43_extend_pf : forall (L : Type) (am : list (akey * L)) how label weekend,
  exists d added, extend_weekends am how label weekend = Ok d
    /\ NoDup (map fst d)
    /\ StronglySorted Z.lt (map fst added)
    /\ (forall h, In h (map fst added) <-> In (weekday (h / NS_DAY)) weekend /\ exists x, last_value am h x)
    /\ (forall j h n, nth_error added j = Some (h, n) ->
          first_free how weekend (fun t => (exists x, last_value am t x) \/ In t (map snd (firstn j added))) h n)
    /\ (forall t x, In (t, x) d <->
          last_value am t x \/ exists h y, In (h, t) added /\ last_value am h y /\ x = opt_or label y).
Proof.
  intros L am how label weekend. unfold extend_weekends. set (d0 := dict_update Z.eqb [] (map (fun q => (key_ts (fst q), snd q)) am)).
  assert (Hd0 : NoDup (map fst d0)) by (apply (NoDup_update _ Z.eqb_eq); constructor).
  assert (Hv : forall t x, In (t, x) d0 <-> last_value am t x).
  { intros t x. rewrite (In_get _ Z.eqb_eq d0 t x Hd0). unfold d0. rewrite (get_update _ Z.eqb_eq), <- get_rev_last. cbn [dict_get].
    destruct (dict_get Z.eqb (rev (map (fun q => (key_ts (fst q), snd q)) am)) t); split; intros H; congruence. }
  assert (Hk : forall t, In t (map fst d0) <-> exists x, last_value am t x).
  { intros t. rewrite in_map_iff. split; [intros ([t' x] & <- & H); exists x; apply Hv, H|intros [x H]; exists (t, x); split; [reflexivity|apply Hv, H]]. }
  destruct (ext_fold how label weekend d0 (zsort (map fst d0)) [] d0 Hd0) as (d & added & E1 & (I1 & I2 & I3 & I4) & E3).
  { split; [exact Hd0|]. split; [|split].
    - intros t x. split; [intros H; left; exact H|]. intros [H|(h & y & [] & _)]; exact H.
    - intros h n [].
    - intros [|j] h n H; discriminate. }
  { intros h n []. } { intros h H. apply zsort_In, H. }
  cbn [app] in *. exists d, added. split; [exact E1|]. split; [exact I1|]. rewrite E3. split.
  { apply sorted_filter, sorted_strict; [apply zsort_sorted|apply zsort_NoDup, Hd0]. }
  split.
  { intros h. rewrite filter_In, zsort_In, Hk. rewrite existsb_exists. split.
    - intros [H (x & Hx & E)]. apply Z.eqb_eq in E. subst x. split; [exact Hx|exact H].
    - intros [H1 H2]. split; [exact H2|]. exists (weekday (h / NS_DAY)). split; [exact H1|apply Z.eqb_refl]. }
  split.
  { intros j h n Hj. destruct (I4 j h n Hj) as (loc & k & A & B & C). exists loc, k. split; [exact A|]. split; [exact B|]. cbv zeta in *.
    destruct C as (C1 & C2 & C3 & C4). split; [exact C1|]. split; [exact C2|]. split.
    - intros [H|H]; apply C3; [left; apply Hk, H|right; exact H].
    - intros i Hi. destruct (C4 i Hi) as [H|H]; [left; apply Hk, H|right; exact H]. }
  intros t x. rewrite I2, Hv. split; (intros [H|(h & y & A & B & C)]; [left; exact H|right; exists h, y]); (split; [exact A|split; [apply Hv, B|exact C]]).
Qed.

Lemma C44_weekday_partial_pf : forall (L : Type) (am : list (akey * L)) how label d t x,
  extend_weekends am how label sat_sun = Ok d -> In (t, x) d -> (forall y, ~ last_value am t y) -> 5 <= weekday (t / NS_DAY) ->
  exists s, weekday (s / NS_DAY) = 0 /\ Z.abs (s - t) <= 6 * NS_DAY /\ forall i, 0 <= i < 5 -> In (s + i * NS_DAY) (map fst d).
Proof.
  intros L am how label d t x E Hin Hno Hw. destruct (C43_extend_pf L am how label sat_sun) as (d' & added & E' & N & _ & K & FF & V).
  rewrite E in E'. injection E' as <-. apply V in Hin. destruct Hin as [C|(h & y & Ha & Hh & _)]; [destruct (Hno x C)|].
  destruct (In_nth_error _ _ Ha) as (j & Hj). pose proof (FF j h t Hj) as (loc & k & A & _ & C). cbv zeta in C.
  set (before := match how with HPrevious => true | HNext => false | HNearest => Z.of_nat loc <? Z.of_nat (List.length sat_sun) / 2 end) in C.
  destruct C as (Hk & Ht & _ & Htaken). change (Z.of_nat (List.length sat_sun)) with 2 in *.
  assert (Hloc : (loc = 0%nat /\ weekday (h / NS_DAY) = 5) \/ (loc = 1%nat /\ weekday (h / NS_DAY) = 6)).
  { destruct loc as [|[|loc]]; cbn in A; [left|right|destruct loc; discriminate]; (split; [reflexivity|congruence]). }
  assert (Hd : forall i, (if before then h - (Z.of_nat loc + 1 + i) * NS_DAY else h + (2 - Z.of_nat loc + i) * NS_DAY) / NS_DAY
                = if before then h / NS_DAY - (Z.of_nat loc + 1 + i) else h / NS_DAY + (2 - Z.of_nat loc + i)) by (intros i; destruct before; unfold NS_DAY; lia).
  assert (Hk5 : 5 <= k).
  { rewrite Ht, Hd in Hw. destruct (Z_lt_le_dec k 5); [exfalso|lia]. unfold weekday in *. destruct Hloc as [[-> Hl]|[-> Hl]]; destruct before; lia. }
  assert (Hall : forall i, 0 <= i < k -> In (if before then h - (Z.of_nat loc + 1 + i) * NS_DAY else h + (2 - Z.of_nat loc + i) * NS_DAY) (map fst d)).
  { intros i Hi. destruct (Htaken i Hi) as [(z & Hz)|Hs].
    - apply in_map_iff. eexists (_, z). split; [reflexivity|]. apply V. left. exact Hz.
    - apply in_map_iff in Hs. destruct Hs as ([h' t'] & Et & Hs). cbn [snd] in Et. assert (Hs2 : In (h', t') added) by (rewrite <- (firstn_skipn j added); apply in_or_app; left; exact Hs).
      assert (Hk' : In h' (map fst added)) by (apply in_map_iff; exists (h', t'); split; [reflexivity|exact Hs2]). apply K in Hk'. destruct Hk' as [_ (z & Hz)].
      apply in_map_iff. exists (t', opt_or label z). split; [exact Et|]. apply V. right. exists h', z. split; [exact Hs2|]. split; [exact Hz|reflexivity]. }
  pose proof (Hd k) as Hdk. rewrite <- Ht in Hdk. clear FF V K Htaken. 
  destruct before.
  - set (e := 6 - weekday (t / NS_DAY)). assert (He : 0 <= e <= 1) by (unfold e, weekday in *; lia). 
    assert (Hk6 : 5 + e <= k) by (unfold e, weekday in *; destruct Hloc as [[-> Hl]|[-> Hl]]; lia).
    exists (h - (Z.of_nat loc + 1 + (k - 1 - e)) * NS_DAY). split; [|split].
    + rewrite Hd. unfold e, weekday in *. lia.
    + rewrite Ht. unfold NS_DAY. lia.
    + intros i Hi. replace (h - (Z.of_nat loc + 1 + (k - 1 - e)) * NS_DAY + i * NS_DAY) with (h - (Z.of_nat loc + 1 + (k - 1 - e - i)) * NS_DAY) by lia. apply Hall. lia.
  - set (e := weekday (t / NS_DAY) - 5). assert (He : 0 <= e <= 1) by (unfold e, weekday in *; lia).
    assert (Hk6 : 5 + e <= k) by (unfold e, weekday in *; destruct Hloc as [[-> Hl]|[-> Hl]]; lia).
    exists (h + (2 - Z.of_nat loc + (k - 5 - e)) * NS_DAY). split; [|split].
    + rewrite Hd. unfold e, weekday in *. lia.
    + rewrite Ht. unfold NS_DAY. lia.
    + intros i Hi. replace (h + (2 - Z.of_nat loc + (k - 5 - e)) * NS_DAY + i * NS_DAY) with (h + (2 - Z.of_nat loc + (k - 5 - e + i)) * NS_DAY) by lia. apply Hall. lia.
Qed.
