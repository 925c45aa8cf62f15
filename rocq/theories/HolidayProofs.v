(** Proofs about the preconfigured calendars, part 2: dictionaries of holidays. *)
From Verif Require Import Base BaseProofs Civil CivilProofs Freq FreqProofs Frame FrameProofs Timeline Board Spec SpecLookup SpecLayout When SpecWhen Calendars SpecCal CalProofs SeekProofs ExtendProofs.
From Coq Require Import ZifyBool ZifyNat String.
Open Scope Z_scope.
Ltac Zify.zify_post_hook ::= Z.div_mod_to_equations.

(** ** What a dictionary says about a day *)
Definition midnights (H : list (akey * Z)) : Prop := forall t x, In (KTs t, x) H -> t = t / NS_DAY * NS_DAY.
Definition single (d0 d1 : Z) (H : list (akey * Z)) : Prop := forall d x y, d0 <= d <= d1 -> In (KStr d, x) H -> ~ In (KTs (d * NS_DAY), y) H.
Definition dict_day (H : list (akey * Z)) (d x : Z) : Prop :=
  In (KTs (d * NS_DAY), x) H \/ In (KStr d, x) H
  \/ ((forall y, ~ In (KTs (d * NS_DAY), y) H /\ ~ In (KStr d, y) H) /\ x = weekly_hours d).

Lemma day_mul d : d * NS_DAY / NS_DAY = d.
Proof. unfold NS_DAY. lia. Qed.
Lemma day_start t : pstart BD (pord BD t) = t / NS_DAY * NS_DAY.
Proof. reflexivity. Qed.

Lemma custom_last (l : list (Z * Z)) d x :
  dict_get akey_eqb (rev (map (fun q => (KTs (pstart BD (pord BD (fst q))), snd q)) l)) (KTs (d * NS_DAY)) = Some x <-> custom_value l d x.
Proof.
  rewrite <- map_rev. unfold custom_value. induction l as [|[t v] l IH] using rev_ind.
  { cbn. split; [discriminate|]. intros (l1 & k & l2 & E & _). destruct l1; discriminate. }
  rewrite rev_unit. cbn [map dict_get fst snd akey_eqb]. rewrite day_start. destruct (t / NS_DAY * NS_DAY =? d * NS_DAY) eqn:E.
  - assert (E' : t / NS_DAY = d) by (unfold NS_DAY in *; lia). split.
    + intros H. injection H as <-. exists l, t, []. split; [reflexivity|]. split; [exact E'|contradiction].
    + intros (l1 & k' & l2 & El & Ek & Hl). destruct l2 as [|q l2] using rev_ind.
      * apply app_inj_tail in El. destruct El as [_ El]. injection El as _ ->. reflexivity.
      * exfalso. clear IHl2. rewrite app_comm_cons, app_assoc in El. apply app_inj_tail in El. destruct El as [_ <-].
        apply (Hl (t, v)); [apply in_app_iff; right; left; reflexivity|exact E'].
  - assert (E' : t / NS_DAY <> d) by (unfold NS_DAY in *; lia). rewrite IH. split.
    + intros (l1 & k' & l2 & -> & Ek & Hl). exists l1, k', (l2 ++ [(t, v)])%list. split; [rewrite <- app_assoc; reflexivity|]. split; [exact Ek|].
      intros q Hq. apply in_app_iff in Hq. destruct Hq as [Hq|[<-|[]]]; [apply Hl, Hq|exact E'].
    + intros (l1 & k' & l2 & El & Ek & Hl). destruct l2 as [|q l2] using rev_ind.
      * apply app_inj_tail in El. destruct El as [_ El]. injection El as -> _. congruence.
      * clear IHl2. rewrite app_comm_cons, app_assoc in El. apply app_inj_tail in El. destruct El as [-> <-].
        exists l1, k', l2. split; [reflexivity|]. split; [exact Ek|]. intros q Hq. apply Hl, in_app_iff. left. exact Hq.
Qed.
Lemma custom_none (l : list (Z * Z)) d :
  dict_get akey_eqb (rev (map (fun q => (KTs (pstart BD (pord BD (fst q))), snd q)) l)) (KTs (d * NS_DAY)) = None <-> forall q, In q l -> fst q / NS_DAY <> d.
Proof.
  rewrite (get_none _ akey_eqb_ok). rewrite in_map_iff. split.
  - intros H q Hq E. apply H. exists (KTs (pstart BD (pord BD (fst q))), snd q). cbn [fst]. rewrite day_start, E. split; [reflexivity|].
    apply -> in_rev. apply in_map_iff. exists q. split; [rewrite day_start, E; reflexivity|exact Hq].
  - intros H ([k v] & E & Hq). apply in_rev in Hq. apply in_map_iff in Hq. destruct Hq as (q & Eq & Hq). cbn [fst] in E.
    assert (E1 : pstart BD (pord BD (fst q)) = d * NS_DAY) by congruence. rewrite day_start in E1. apply (H q Hq). unfold NS_DAY in *. lia.
Qed.

Section Custom.
  Context (H : list (akey * Z)) (HN : NoDup (map fst H)) (HM : midnights H).
  Context (l : list (Z * Z)).
  Let H1 := add_custom H (Some l).
  Lemma custom_NoDup : NoDup (map fst H1).
  Proof. apply (NoDup_update _ akey_eqb_ok), HN. Qed.
  Lemma custom_KTs d x : In (KTs (d * NS_DAY), x) H1 <-> custom_value l d x \/ ((forall q, In q l -> fst q / NS_DAY <> d) /\ In (KTs (d * NS_DAY), x) H).
  Proof.
    rewrite (In_get _ akey_eqb_ok _ _ _ custom_NoDup), (In_get _ akey_eqb_ok H _ _ HN). unfold H1, add_custom. rewrite (get_update _ akey_eqb_ok).
    rewrite <- custom_last, <- custom_none. destruct (dict_get akey_eqb (rev _) (KTs (d * NS_DAY))) as [v|]; split.
    - intros E. left. exact E.
    - intros [E|[E _]]; [exact E|discriminate].
    - intros E. right. split; [reflexivity|exact E].
    - intros [E|[_ E]]; [discriminate|exact E].
  Qed.
  Lemma custom_KStr d x : In (KStr d, x) H1 <-> In (KStr d, x) H.
  Proof.
    rewrite (In_get _ akey_eqb_ok _ _ _ custom_NoDup), (In_get _ akey_eqb_ok H _ _ HN). unfold H1, add_custom. rewrite (get_update _ akey_eqb_ok).
    destruct (dict_get akey_eqb (rev _) (KStr d)) as [v|] eqn:E; [|reflexivity]. exfalso. apply (get_some_In _ akey_eqb_ok), in_rev, in_map_iff in E.
    destruct E as (q & E & _). discriminate.
  Qed.
  Lemma custom_midnights : midnights H1.
  Proof.
    intros t x Hin. apply (In_get _ akey_eqb_ok _ _ _ custom_NoDup) in Hin. unfold H1, add_custom in Hin. rewrite (get_update _ akey_eqb_ok) in Hin.
    destruct (dict_get akey_eqb (rev _) (KTs t)) as [v|] eqn:E.
    - apply (get_some_In _ akey_eqb_ok), in_rev, in_map_iff in E. destruct E as (q & E & _).
      assert (Et : pstart BD (pord BD (fst q)) = t) by congruence. rewrite day_start in Et. rewrite <- Et, day_mul. reflexivity.
    - apply (HM t x). apply (In_get _ akey_eqb_ok H _ _ HN), Hin.
  Qed.
End Custom.

(** Two items for one day: the day is there as a string and as a timestamp. *)
Lemma twice_iff H d0 d1 : NoDup (map fst H) -> midnights H ->
  (same_day_twice d0 d1 (map (fun q => (key_ts (fst q), snd q)) H)
   <-> exists d x y, d0 <= d <= d1 /\ In (KStr d, x) H /\ In (KTs (d * NS_DAY), y) H).
Proof.
  intros HN HM. split.
  - intros (j & k & t1 & x1 & t2 & x2 & Hjk & H1 & H2 & E & Hr). rewrite nth_error_map in H1, H2.
    destruct (nth_error H j) as [[k1 v1]|] eqn:E1; [|discriminate]. destruct (nth_error H k) as [[k2 v2]|] eqn:E2; [|discriminate].
    cbn [option_map fst snd] in H1, H2. injection H1 as <- <-. injection H2 as <- <-.
    assert (Hne : k1 <> k2).
    { intros <-. apply Hjk. apply (NoDup_nth_error (map fst H)); [exact HN| |rewrite !nth_error_map, E1, E2; reflexivity].
      rewrite map_length. apply nth_error_Some. congruence. }
    apply nth_error_In in E1. apply nth_error_In in E2.
    destruct k1 as [a|a], k2 as [b|b]; cbn [key_ts] in *; rewrite ?day_mul in *.
    + exfalso. apply Hne. congruence.
    + exists a, v1, v2. split; [exact Hr|]. split; [exact E1|]. rewrite E, <- (HM b v2 E2). exact E2.
    + exists b, v2, v1. split; [lia|]. split; [exact E2|]. rewrite <- E, <- (HM a v1 E1). exact E1.
    + exfalso. apply Hne. rewrite (HM a v1 E1), (HM b v2 E2), E. reflexivity.
  - intros (d & x & y & Hr & Hx & Hy). apply In_nth_error in Hx, Hy. destruct Hx as [j Hj], Hy as [k Hk].
    exists j, k, (d * NS_DAY), x, (d * NS_DAY), y. split; [congruence|]. rewrite !nth_error_map, Hj, Hk. cbn [option_map fst snd key_ts].
    split; [reflexivity|]. split; [reflexivity|]. split; [reflexivity|]. rewrite day_mul. exact Hr.
Qed.

Lemma day_value_iff H d0 d1 d x : midnights H -> single d0 d1 H -> d0 <= d <= d1 ->
  (day_value (map (fun q => (key_ts (fst q), snd q)) H) d x <-> dict_day H d x).
Proof.
  intros HM HS Hd. unfold day_value, dict_day.
  assert (A : forall y, (exists t, In (t, y) (map (fun q => (key_ts (fst q), snd q)) H) /\ t / NS_DAY = d)
                       <-> In (KTs (d * NS_DAY), y) H \/ In (KStr d, y) H).
  { intros y. split.
    - intros (t & Hin & Ht). apply in_map_iff in Hin. destruct Hin as ([k v] & E & Hin). cbn [fst snd] in E. injection E as E ->. subst t.
      destruct k as [a|a]; cbn [key_ts] in Ht.
      + rewrite day_mul in Ht. subst a. right. exact Hin.
      + left. rewrite <- Ht, <- (HM a y Hin). exact Hin.
    - intros [Hin|Hin]; exists (d * NS_DAY); (split; [|apply day_mul]); apply in_map_iff; [exists (KTs (d * NS_DAY), y)|exists (KStr d, y)];
        (split; [reflexivity|exact Hin]). }
  rewrite A. split.
  - intros [[C|C]|[C ->]]; [left; exact C|right; left; exact C|right; right]. split; [|reflexivity]. intros y. split; intros Hin.
    + assert (Hex : In (KTs (d * NS_DAY), y) H \/ In (KStr d, y) H) by (left; exact Hin). apply A in Hex. destruct Hex as (t & Ht & E). apply (C t y Ht E).
    + assert (Hex : In (KTs (d * NS_DAY), y) H \/ In (KStr d, y) H) by (right; exact Hin). apply A in Hex. destruct Hex as (t & Ht & E). apply (C t y Ht E).
  - intros [C|[C|[C ->]]]; [left; left; exact C|left; right; exact C|right]. split; [|reflexivity]. intros t y Ht E.
    assert (Hex : exists t, In (t, y) (map (fun q => (key_ts (fst q), snd q)) H) /\ t / NS_DAY = d) by (exists t; split; assumption).
    apply A in Hex. destruct (C y). tauto.
Qed.

(** The dictionary of holidays together with the user's items. *)
Lemma custom_day H l d0 d1 : NoDup (map fst H) -> midnights H -> single d0 d1 H ->
  let am := map (fun q => (key_ts (fst q), snd q)) (add_custom H l) in
  let cl := opt_or l [] in
  (same_day_twice d0 d1 am <-> exists t x y, In (t, x) cl /\ d0 <= t / NS_DAY <= d1 /\ In (KStr (t / NS_DAY), y) H)
  /\ (~ same_day_twice d0 d1 am -> forall d x, d0 <= d <= d1 ->
        (day_value am d x <-> custom_value cl d x \/ ((forall q, In q cl -> fst q / NS_DAY <> d) /\ dict_day H d x))).
Proof.
  intros HN HM HS. cbv zeta. destruct l as [l|]; cbn [opt_or].
  2:{ cbn [add_custom]. split.
      - rewrite (twice_iff H d0 d1 HN HM). split; [intros (d & x & y & Hr & Hx & Hy); exfalso; apply (HS d x y Hr Hx Hy)|intros (t & x & y & [] & _)].
      - intros _ d x Hd. rewrite (day_value_iff H d0 d1 d x HM HS Hd). split; [intros Hv; right; split; [intros q []|exact Hv]|].
        intros [(l1 & t & l2 & E & _)|[_ Hv]]; [destruct l1; discriminate|exact Hv]. }
  pose proof (custom_NoDup H HN l) as CN. pose proof (custom_midnights H HN HM l) as CM.
  pose proof (fun d x => custom_KTs H HN l d x) as CT. pose proof (fun d x => custom_KStr H HN l d x) as CS.
  assert (Hsome : forall d, (exists q, In q l /\ fst q / NS_DAY = d) -> exists v, custom_value l d v).
  { intros d (q & Hq & Eq). destruct (dict_get akey_eqb (rev (map (fun q => (KTs (pstart BD (pord BD (fst q))), snd q)) l)) (KTs (d * NS_DAY))) as [v|] eqn:E.
    - exists v. apply custom_last, E.
    - exfalso. apply (proj1 (custom_none l d) E q Hq), Eq. }
  assert (Hin : forall d v, custom_value l d v -> exists t, In (t, v) l /\ t / NS_DAY = d).
  { intros d v (l1 & t & l2 & -> & E & _). exists t. split; [apply in_app_iff; right; left; reflexivity|exact E]. }
  set (H1 := add_custom H (Some l)) in *.
  assert (Htw : same_day_twice d0 d1 (map (fun q => (key_ts (fst q), snd q)) H1) <-> exists t x y, In (t, x) l /\ d0 <= t / NS_DAY <= d1 /\ In (KStr (t / NS_DAY), y) H).
  { rewrite (twice_iff H1 d0 d1 CN CM). split.
    - intros (d & x & y & Hr & Hx & Hy). apply CS in Hx. apply CT in Hy. destruct Hy as [Hy|[_ Hy]]; [|exfalso; apply (HS d x y Hr Hx Hy)].
      apply Hin in Hy. destruct Hy as (t & Ht & E). exists t, y, x. rewrite E. split; [exact Ht|]. split; [exact Hr|exact Hx].
    - intros (t & x & y & Ht & Hr & Hy). destruct (Hsome (t / NS_DAY)) as [v Hv]; [exists (t, x); split; [exact Ht|reflexivity]|].
      exists (t / NS_DAY), y, v. split; [exact Hr|]. split; [apply CS, Hy|]. apply CT. left. exact Hv. }
  split; [exact Htw|]. intros Hno d x Hd.
  assert (HS1 : single d0 d1 H1).
  { intros e a b He Ha Hb. apply Hno, (twice_iff H1 d0 d1 CN CM). exists e, a, b. split; [exact He|]. split; assumption. }
  rewrite (day_value_iff H1 d0 d1 d x CM HS1 Hd). unfold dict_day.
  destruct (dict_get akey_eqb (rev (map (fun q => (KTs (pstart BD (pord BD (fst q))), snd q)) l)) (KTs (d * NS_DAY))) as [v|] eqn:E.
  - apply custom_last in E. destruct (Hin d v E) as (t & Ht & Et).
    assert (Hnn : ~ forall q, In q l -> fst q / NS_DAY <> d) by (intros Hq; apply (Hq (t, v) Ht), Et). split.
    + intros [Hx|[Hx|[Hx _]]].
      * apply CT in Hx. destruct Hx as [Hx|[Hx _]]; [left; exact Hx|tauto].
      * exfalso. apply (HS1 d x v Hd Hx). apply CT. left. exact E.
      * exfalso. apply (proj1 (Hx v)). apply CT. left. exact E.
    + intros [Hx|[Hx _]]; [left; apply CT; left; exact Hx|tauto].
  - pose proof (proj1 (custom_none l d) E) as Hq.
    assert (Hnc : forall v, ~ custom_value l d v) by (intros v Hv; apply custom_last in Hv; congruence).
    split.
    + intros [Hx|[Hx|[Hx ->]]]; right; (split; [exact Hq|]).
      * apply CT in Hx. destruct Hx as [Hx|[_ Hx]]; [exfalso; apply (Hnc x Hx)|left; exact Hx].
      * right. left. apply CS, Hx.
      * right. right. split; [|reflexivity]. intros y. destruct (Hx y) as [A B]. split; [intros Hy; apply A, CT; right; split; assumption|intros Hy; apply B, CS, Hy].
    + intros [Hx|[_ Hx]]; [exfalso; apply (Hnc x Hx)|]. destruct Hx as [Hx|[Hx|[Hx ->]]].
      * left. apply CT. right. split; assumption.
      * right. left. apply CS, Hx.
      * right. right. split; [|reflexivity]. intros y. destruct (Hx y) as [A B]. split; intros Hy; [|apply B, CS, Hy].
        apply CT in Hy. destruct Hy as [Hy|[_ Hy]]; [apply (Hnc y Hy)|apply A, Hy].
Qed.

(** ** The constructor *)
Lemma custom_unique l d0 d1 d x : ~ same_day_twice d0 d1 l -> d0 <= d <= d1 ->
  ((exists t, In (t, x) l /\ t / NS_DAY = d) <-> custom_value l d x).
Proof.
  intros Hno Hd. split.
  - intros (t & Hin & Et). apply in_split in Hin. destruct Hin as (l1 & l2 & ->). exists l1, t, l2. split; [reflexivity|]. split; [exact Et|].
    intros [t' x'] Hq E. cbn [fst] in E. apply Hno. apply In_nth_error in Hq. destruct Hq as [k Hk].
    exists (List.length l1), (List.length l1 + S k)%nat, t, x, t', x'. split; [lia|]. split; [rewrite nth_error_app2, Nat.sub_diag by lia; reflexivity|].
    split; [rewrite nth_error_app2 by lia; replace (List.length l1 + S k - List.length l1)%nat with (S k) by lia; exact Hk|]. split; [congruence|lia].
  - intros (l1 & t & l2 & -> & Et & _). exists t. split; [apply in_app_iff; right; left; reflexivity|exact Et].
Qed.

Definition the_start (y0 : Z) (o : cal_opts) : Z := opt_or (cu_start o) (date y0 1 1 * NS_DAY).
Definition the_end (y1 : Z) (o : cal_opts) : Z := opt_or (cu_end o) (last_second (date y1 12 31)).

Section Outcome.
  Context (y0 y1 : Z) (Hy : date y0 1 1 <= date y1 12 31).
  Let c := mkCal (date y0 1 1 * NS_DAY) (last_second (date y1 12 31)).

  Lemma check_ok t : check_time c t = if (date y0 1 1 * NS_DAY <=? t) && (t <=? last_second (date y1 12 31)) then Ok tt else Err EOutOfBounds.
  Proof. reflexivity. Qed.
  Lemma check_iff t : check_time c t = Ok tt <-> supported y0 y1 t.
  Proof. rewrite check_ok. unfold supported, last_second. destruct ((_ <=? t) && _) eqn:E; split; intros H; try discriminate; try reflexivity; lia. Qed.
  Lemma check_err t : ~ supported y0 y1 t -> check_time c t = Err EOutOfBounds.
  Proof. intros H. rewrite check_ok. unfold supported, last_second in *. destruct ((_ <=? t) && _) eqn:E; [exfalso; apply H; lia|reflexivity]. Qed.

  Lemma bounds_ok o : bounds_supported y0 y1 o ->
    get_bounds c (cu_start o) (cu_end o) = Ok (the_start y0 o, the_end y1 o)
    /\ get_bounds c (Some (the_start y0 o)) (Some (the_end y1 o)) = Ok (the_start y0 o, the_end y1 o)
    /\ the_start y0 o / NS_DAY = from_day y0 o /\ the_end y1 o / NS_DAY = to_day y1 o
    /\ date y0 1 1 <= from_day y0 o <= date y1 12 31 /\ date y0 1 1 <= to_day y1 o <= date y1 12 31.
  Proof.
    intros [Hs He]. unfold the_start, the_end, from_day, to_day.
    assert (Hls : last_second (date y1 12 31) / NS_DAY = date y1 12 31) by (unfold last_second, NS_DAY, NS_SEC; lia).
    assert (Hc1 : check_time c (date y0 1 1 * NS_DAY) = Ok tt) by (apply check_iff; unfold supported, NS_DAY, NS_SEC; lia).
    assert (Hc2 : check_time c (last_second (date y1 12 31)) = Ok tt) by (apply check_iff; unfold supported, last_second, NS_DAY, NS_SEC; lia).
    assert (Hr : forall t, supported y0 y1 t -> date y0 1 1 <= t / NS_DAY <= date y1 12 31) by (intros t; unfold supported, NS_DAY, NS_SEC; lia).
    assert (A : forall s, (forall t, s = Some t -> supported y0 y1 t) -> forall dflt (v : Z),
               match s with None => Ok dflt | Some t => do _ <- check_time c t; Ok t end = Ok (opt_or s dflt)).
    { intros [t|] H dflt v; [|reflexivity]. rewrite (proj2 (check_iff t) (H t eq_refl)). reflexivity. }
    unfold get_bounds. rewrite (A _ Hs _ 0), (A _ He _ 0). cbn [bind c_start c_end].
    split; [reflexivity|]. split.
    { assert (B1 : check_time c (opt_or (cu_start o) (date y0 1 1 * NS_DAY)) = Ok tt) by (destruct (cu_start o) as [t|]; cbn [opt_or]; [apply check_iff, Hs; reflexivity|exact Hc1]).
      assert (B2 : check_time c (opt_or (cu_end o) (last_second (date y1 12 31))) = Ok tt) by (destruct (cu_end o) as [t|]; cbn [opt_or]; [apply check_iff, He; reflexivity|exact Hc2]).
      rewrite B1, B2. reflexivity. }
    destruct (cu_start o) as [s|], (cu_end o) as [e|]; cbn [opt_or]; rewrite ?day_mul, ?Hls;
      repeat (split; [first [reflexivity|lia|apply Hr; first [apply Hs; reflexivity|apply He; reflexivity]]|]); first [lia|apply Hr; first [apply Hs; reflexivity|apply He; reflexivity]].
  Qed.

  Lemma bounds_err o : ~ bounds_supported y0 y1 o -> get_bounds c (cu_start o) (cu_end o) = Err EOutOfBounds.
  Proof.
    intros Hn. unfold get_bounds. destruct (cu_start o) as [s|] eqn:Es.
    - destruct (check_time c s) as [[]|] eqn:E1.
      2:{ assert (~ supported y0 y1 s) by (intros H; apply check_iff in H; congruence). rewrite (check_err s H) in E1. injection E1 as <-. reflexivity. }
      cbn [bind]. destruct (cu_end o) as [e|] eqn:Ee.
      + rewrite (check_err e); [reflexivity|]. intros H. apply Hn. split; intros t Ht; [rewrite Es in Ht|rewrite Ee in Ht]; injection Ht as <-; [apply check_iff, E1|exact H].
      + exfalso. apply Hn. split; intros t Ht; [rewrite Es in Ht; injection Ht as <-; apply check_iff, E1|congruence].
    - cbn [bind]. destruct (cu_end o) as [e|] eqn:Ee.
      + rewrite (check_err e); [reflexivity|]. intros H. apply Hn. split; intros t Ht; [congruence|]. rewrite Ee in Ht. injection Ht as <-. exact H.
      + exfalso. apply Hn. split; intros t Ht; congruence.
  Qed.

  Lemma outcome_ok amf o H std dup :
    (bounds_supported y0 y1 o -> cu_no_amend o = false -> cu_only o = false ->
       amf (Some (the_start y0 o)) (Some (the_end y1 o)) (cu_custom o) = Ok (add_custom H (cu_custom o))) ->
    (bounds_supported y0 y1 o -> NoDup (map fst H) /\ midnights H /\ single (from_day y0 o) (to_day y1 o) H
       /\ forall d x, from_day y0 o <= d <= to_day y1 o -> (dict_day H d x <-> std d x)) ->
    (bounds_supported y0 y1 o -> (dup <-> cu_no_amend o = false /\ exists l, cu_custom o = Some l
       /\ if cu_only o then same_day_twice (from_day y0 o) (to_day y1 o) l
          else exists t x y, In (t, x) l /\ from_day y0 o <= t / NS_DAY <= to_day y1 o /\ In (KStr (t / NS_DAY), y) H)) ->
    outcome y0 y1 o dup std (new_calendar c amf o).
  Proof.
    intros Ham HH Hdup. unfold outcome, new_calendar. split; [intros Hn; rewrite (bounds_err o Hn); reflexivity|].
    assert (Main : bounds_supported y0 y1 o -> exists am,
      new_calendar c amf o = rmap fst (build (cal_args (the_start y0 o) (the_end y1 o) am) [])
      /\ (same_day_twice (from_day y0 o) (to_day y1 o) am <-> dup)
      /\ (~ dup -> forall d x, from_day y0 o <= d <= to_day y1 o -> (day_value am d x <-> day_hours o std d x))).
    { intros Hb. destruct (bounds_ok o Hb) as (E1 & E2 & E3 & E4 & _). specialize (Hdup Hb). unfold new_calendar. rewrite E1. cbn [bind fst snd].
      unfold day_hours. destruct (cu_no_amend o) eqn:En.
      { exists []. cbn [bind]. split; [reflexivity|]. split.
        - rewrite Hdup. split; [|intros [C _]; discriminate]. intros (j & k & t1 & x1 & t2 & x2 & _ & C & _). destruct j; discriminate.
        - intros _ d x Hd. unfold day_value. split; [intros [(t & [] & _)|[_ E]]; exact E|]. intros ->. right. split; [intros t y []|reflexivity]. }
      destruct (cu_only o) eqn:Eo.
      { exists (opt_or (cu_custom o) []). cbn [bind]. split; [reflexivity|].
        assert (Hd2 : same_day_twice (from_day y0 o) (to_day y1 o) (opt_or (cu_custom o) []) <-> dup).
        { rewrite Hdup. split.
          - intros Ht. split; [reflexivity|]. destruct (cu_custom o) as [l|]; [exists l; split; [reflexivity|exact Ht]|].
            exfalso. destruct Ht as (j & k & t1 & x1 & t2 & x2 & _ & C & _). destruct j; discriminate.
          - intros (_ & l & El & Ht). rewrite El. exact Ht. }
        split; [exact Hd2|]. intros Hno d x Hd. assert (Hno' : ~ same_day_twice (from_day y0 o) (to_day y1 o) (opt_or (cu_custom o) [])) by (rewrite Hd2; exact Hno).
        unfold day_value. rewrite (custom_unique _ _ _ d x Hno' Hd). cbv zeta. split; (intros [A|[A B]]; [left; exact A|right; split; [|exact B]]).
        - intros [t y] Hq. apply (A t y Hq).
        - intros t y Hq. apply (A (t, y) Hq). }
      destruct (HH Hb) as (HN & HM & HS & HD). destruct (custom_day H (cu_custom o) _ _ HN HM HS) as [C1 C2]. cbv zeta in C1, C2.
      exists (map (fun q => (key_ts (fst q), snd q)) (add_custom H (cu_custom o))). rewrite (Ham Hb eq_refl eq_refl). cbn [bind]. split; [reflexivity|].
      assert (Hd2 : same_day_twice (from_day y0 o) (to_day y1 o) (map (fun q => (key_ts (fst q), snd q)) (add_custom H (cu_custom o))) <-> dup).
      { rewrite C1, Hdup. split.
        - intros (t & x & y & Hin & Hr). split; [reflexivity|]. destruct (cu_custom o) as [l|]; [|contradiction]. exists l. split; [reflexivity|].
          exists t, x, y. split; assumption.
        - intros (_ & l & El & Ht). rewrite El. exact Ht. }
      split; [exact Hd2|]. intros Hno d x Hd. rewrite C2; [|rewrite Hd2; exact Hno|exact Hd]. cbv zeta. rewrite (HD d x Hd). reflexivity. }
    fold (new_calendar c amf o).
    split; [|split]; intros Hb Hr; destruct (Main Hb) as (am & Ec & Hd & Hv); destruct (bounds_ok o Hb) as (_ & _ & E3 & E4 & _); rewrite Ec.
    - assert (Eb : build (cal_args (the_start y0 o) (the_end y1 o) am) [] = Err EVoidInterval).
      { unfold build. cbn [a_layout cal_args top_organizer weekly8x5 bind a_wt a_freq a_start a_end].
        change (mkFstr None AlD) with DAYS. rewrite (day_frame_void (the_start y0 o) (the_end y1 o)) by lia. reflexivity. }
      rewrite Eb. reflexivity.
    - intros Hdu. destruct (weekly_amended (the_start y0 o) (the_end y1 o) am ltac:(lia)) as [W _].
      rewrite W; [reflexivity|]. rewrite E3, E4. apply Hd, Hdu.
    - intros Hno. destruct (weekly_amended (the_start y0 o) (the_end y1 o) am ltac:(lia)) as [_ W]. rewrite E3, E4 in W.
      destruct W as (tb & h' & Eb & S1 & S2 & S3); [rewrite Hd; exact Hno|]. rewrite Eb. exists tb. split; [reflexivity|]. split; [exact S1|]. split; [exact S2|].
      intros t Ht x b. rewrite (S3 t Ht x b). rewrite (Hv Hno (t / NS_DAY) x Ht). reflexivity.
  Qed.
End Outcome.
