(** Proofs about the preconfigured calendars, part 4: dictionaries of days off, extended weekends. *)
From Verif Require Import Base BaseProofs Civil CivilProofs Freq FreqProofs Frame FrameProofs Timeline Board Spec SpecLookup SpecLayout When SpecWhen Calendars SpecCal CalProofs SeekProofs ExtendProofs HolidayProofs YearProofs.
From Coq Require Import ZifyBool ZifyNat String Sorted Wf_nat.
Open Scope Z_scope.
Ltac Zify.zify_post_hook ::= Z.div_mod_to_equations.

(** ** Dictionaries whose values are all 0 *)
Definition zdict (H : list (akey * Z)) (P : akey -> Prop) : Prop :=
  NoDup (map fst H) /\ forall k v, In (k, v) H <-> P k /\ v = 0.
Lemma zdict_ext H P Q : (forall k, P k <-> Q k) -> zdict H P -> zdict H Q.
Proof. intros E [A B]. split; [exact A|]. intros k v. rewrite B, E. reflexivity. Qed.
Lemma zdict_put H P k0 : zdict H P -> zdict (dict_put akey_eqb H k0 0) (fun k => P k \/ k = k0).
Proof.
  intros [A B]. pose proof (NoDup_put _ akey_eqb_ok H k0 0 A) as N. split; [exact N|]. intros k v.
  rewrite (In_get _ akey_eqb_ok _ k v N), (get_put _ akey_eqb_ok). specialize (B k v). rewrite (In_get _ akey_eqb_ok H k v A) in B. destruct (akey_eqb k0 k) eqn:E.
  - apply akey_eqb_ok in E. subst k0. split; [intros H1; injection H1 as <-; tauto|intros [_ ->]; reflexivity].
  - rewrite B. assert (k <> k0) by (intros ->; rewrite (proj2 (akey_eqb_ok k0 k0) eq_refl) in E; discriminate). tauto.
Qed.
Lemma zdict_del H P k0 : zdict H P -> zdict (dict_del akey_eqb H k0) (fun k => P k /\ k <> k0).
Proof.
  intros [A B]. pose proof (NoDup_del akey_eqb H k0 A) as N. split; [exact N|]. intros k v.
  rewrite (In_get _ akey_eqb_ok _ k v N), (get_del _ akey_eqb_ok). specialize (B k v). rewrite (In_get _ akey_eqb_ok H k v A) in B. destruct (akey_eqb k0 k) eqn:E.
  - apply akey_eqb_ok in E. subst k0. split; [discriminate|tauto].
  - rewrite B. assert (k <> k0) by (intros ->; rewrite (proj2 (akey_eqb_ok k0 k0) eq_refl) in E; discriminate). tauto.
Qed.
Lemma zdict_update e : forall H P, (forall q, In q e -> snd q = 0) -> zdict H P -> zdict (dict_update akey_eqb H e) (fun k => P k \/ In k (map fst e)).
Proof.
  induction e as [|[k0 v0] e IH]; intros H P He HP; cbn [map fst In].
  - apply (zdict_ext H P); [tauto|exact HP].
  - assert (v0 = 0) by (apply (He (k0, v0)); left; reflexivity). subst v0. unfold dict_update. cbn [fold_left fst snd].
    apply (zdict_ext _ (fun k => (P k \/ k = k0) \/ In k (map fst e))); [intros k; split; [intros [[?|?]|?]|intros [?|[?|?]]]; auto|].
    apply IH; [intros q Hq; apply He; right; exact Hq|]. apply zdict_put, HP.
Qed.
Lemma zdict_fold (f : list (akey * Z) -> Z -> res (list (akey * Z))) (Q : Z -> akey -> Prop) ys :
  (forall H P y, In y ys -> zdict H P -> exists H', f H y = Ok H' /\ zdict H' (fun k => P k \/ Q y k)) ->
  forall H P, zdict H P -> exists H', foldM f ys H = Ok H' /\ zdict H' (fun k => P k \/ exists y, In y ys /\ Q y k).
Proof.
  induction ys as [|y ys IH]; intros Hf H P HP; cbn [foldM].
  - exists H. split; [reflexivity|]. apply (zdict_ext H P); [|exact HP]. intros k. split; [tauto|]. intros [?|(y & [] & _)]; assumption.
  - destruct (Hf H P y (or_introl eq_refl) HP) as (H' & E & Z'). rewrite E. cbn [bind].
    destruct (IH (fun H P y' Hy => Hf H P y' (or_intror Hy)) H' _ Z') as (H2 & E2 & Z2). exists H2. split; [exact E2|].
    refine (zdict_ext _ _ _ _ Z2). cbn beta. intros k. split.
    + intros [[?|?]|(y' & Hy & ?)]; [left; assumption|right; exists y; split; [left; reflexivity|assumption]|right; exists y'; split; [right; exact Hy|assumption]].
    + intros [?|(y' & [->|Hy] & ?)]; [left; left; assumption|left; right; assumption|right; exists y'; split; assumption].
Qed.

(** ** Fixed dates *)
Lemma named_In {A} skip (tbl : list (string * A)) x : In x (named skip tbl) <-> exists name, In (name, x) tbl /\ ~ In name skip.
Proof.
  unfold named. rewrite in_map_iff. split.
  - intros ([name y] & <- & Hin). apply filter_In in Hin. destruct Hin as [Hin E]. exists name. split; [exact Hin|]. cbn [fst] in E.
    intros Hc. assert (existsb (String.eqb name) skip = true) by (apply existsb_exists; exists name; split; [exact Hc|apply String.eqb_refl]). rewrite H in E. discriminate.
  - intros (name & Hin & Hno). exists (name, x). split; [reflexivity|]. apply filter_In. split; [exact Hin|]. cbn [fst].
    destruct (existsb (String.eqb name) skip) eqn:E; [|reflexivity]. exfalso. apply existsb_exists in E. destruct E as (s & Hs & E). apply String.eqb_eq in E. subst s. tauto.
Qed.
Lemma skips_iff skip s : skips skip s = true <-> In s skip.
Proof.
  unfold skips. rewrite existsb_exists. split; [intros (x & Hx & E); apply String.eqb_eq in E; subst x; exact Hx|].
  intros H. exists s. split; [exact H|apply String.eqb_refl].
Qed.
Fixpoint sublists {A} (l : list A) : list (list A) :=
  match l with [] => [[]] | x :: l' => (map (cons x) (sublists l') ++ sublists l')%list end.
Lemma named_sub {A} skip (tbl : list (string * A)) : In (named skip tbl) (sublists (map snd tbl)).
Proof.
  unfold named. induction tbl as [|q tbl IH]; cbn [map filter sublists]; [left; reflexivity|]. apply in_app_iff.
  destruct (negb (existsb (String.eqb (fst q)) skip)); [left; cbn [map]; apply in_map, IH|right; exact IH].
Qed.

Definition fixb (days : list (Z * Z)) (d : Z) : bool := existsb (fun md => d =? date (year_of d) (fst md) (snd md)) days.
Lemma fixed_fixb tbl skip d : fixed_on tbl skip d = fixb (named skip tbl) d.
Proof.
  unfold fixed_on, fixb, named. induction tbl as [|[name md] tbl IH]; cbn [existsb filter map]; [reflexivity|]. rewrite IH. cbn [fst snd].
  destruct (existsb (String.eqb name) skip); cbn [negb]; [reflexivity|]. cbn [map existsb]. reflexivity.
Qed.

Lemma fixed_zdict days ys : zdict (fixed_dates days ys 0) (fun k => exists m dd y, In (m, dd) days /\ In y ys /\ k = KStr (date y m dd)).
Proof.
  unfold fixed_dates. eapply zdict_ext; [|apply (zdict_update _ [] (fun _ => False))].
  - cbn beta. intros k. rewrite in_map_iff. split.
    + intros [[]|([k' v] & <- & Hin)]. apply in_flat_map in Hin. destruct Hin as ([m dd] & Hmd & Hin). apply in_map_iff in Hin.
      destruct Hin as (y & E & Hy). exists m, dd, y. split; [exact Hmd|]. split; [exact Hy|]. cbn [fst snd] in *. congruence.
    + intros (m & dd & y & Hmd & Hy & ->). right. exists (KStr (date y m dd), 0). split; [reflexivity|]. apply in_flat_map. exists (m, dd). split; [exact Hmd|].
      apply in_map_iff. exists y. split; [reflexivity|exact Hy].
  - intros q Hin. apply in_flat_map in Hin. destruct Hin as ([m dd] & Hmd & Hin). apply in_map_iff in Hin. destruct Hin as (y & <- & _). reflexivity.
  - split; [constructor|]. intros k v. cbn. tauto.
Qed.

(** ** Weekends extended *)
Lemma weekend_iff d : In (weekday d) sat_sun <-> 5 <= weekday d.
Proof. unfold sat_sun, weekday. cbn [In]. lia. Qed.

(** Candidate number [i] for a holiday on Saturday or Sunday. *)
Definition cand (how : extend_how) (h i : Z) : Z :=
  let loc := weekday h - 5 in
  let before := match how with HPrevious => true | HNext => false | HNearest => loc <? 1 end in
  if before then h - (loc + 1 + i) else h + (2 - loc + i).
Definition g_ok (how : extend_how) (F : Z -> Prop) (g : Z -> Z) : Prop :=
  forall h, F h -> 5 <= weekday h -> exists k, 0 <= k /\ g h = cand how h k /\ ~ F (g h)
    /\ (forall h', F h' -> 5 <= weekday h' -> h' < h -> g h' <> g h)
    /\ forall i, 0 <= i < k -> F (cand how h i) \/ exists h', F h' /\ 5 <= weekday h' /\ h' < h /\ g h' = cand how h i.

Lemma first_free_cand how taken hd n : 5 <= weekday hd ->
  first_free how sat_sun taken (hd * NS_DAY) n ->
  exists k, 0 <= k /\ n = cand how hd k * NS_DAY /\ ~ taken n /\ forall i, 0 <= i < k -> taken (cand how hd i * NS_DAY).
Proof.
  intros Hw (loc & k & A & B & C). rewrite day_mul in *. cbv zeta in C.
  assert (El : Z.of_nat loc = weekday hd - 5).
  { unfold sat_sun in A. destruct loc as [|[|[|loc]]]; cbn [nth_error] in A; [injection A as A| injection A as A|discriminate|destruct loc; discriminate]; lia. }
  rewrite El in C. change (Z.of_nat (List.length sat_sun)) with 2 in C. change (2 / 2) with 1 in C.
  assert (E : forall i, (if match how with HPrevious => true | HNext => false | HNearest => weekday hd - 5 <? 1 end
                        then hd * NS_DAY - (weekday hd - 5 + 1 + i) * NS_DAY else hd * NS_DAY + (2 - (weekday hd - 5) + i) * NS_DAY) = cand how hd i * NS_DAY).
  { intros i. unfold cand. cbv zeta. destruct (match how with HPrevious => true | HNext => false | HNearest => weekday hd - 5 <? 1 end); lia. }
  destruct C as (C1 & C2 & C3 & C4). exists k. rewrite E in C2. split; [exact C1|]. split; [exact C2|]. split; [exact C3|].
  intros i Hi. rewrite <- E. apply C4, Hi.
Qed.
Lemma cand_inj how h i j : cand how h i = cand how h j -> i = j.
Proof. unfold cand. cbv zeta. destruct (match how with HPrevious => true | HNext => false | HNearest => weekday h - 5 <? 1 end); lia. Qed.

Lemma ext_g am how F g : (forall t x, last_value am t x <-> x = 0 /\ exists d, F d /\ t = d * NS_DAY) -> g_ok how F g ->
  exists L, extend_weekends am how None sat_sun = Ok L /\ NoDup (map fst L)
    /\ forall t x, In (t, x) L <-> x = 0 /\ exists d, t = d * NS_DAY /\ (F d \/ exists h, F h /\ 5 <= weekday h /\ d = g h).
Proof.
  intros Ha Hg. destruct (C43_extend_pf Z am how None sat_sun) as (L & added & E & N & S & K & FF & V).
  exists L. split; [exact E|]. split; [exact N|].
  assert (Hh : forall h, In h (map fst added) <-> exists d, h = d * NS_DAY /\ F d /\ 5 <= weekday d).
  { intros h. rewrite K. split.
    - intros [Hw (x & Hx)]. apply Ha in Hx. destruct Hx as [_ (d & Hd & ->)]. rewrite day_mul in Hw. exists d. split; [reflexivity|]. split; [exact Hd|]. apply weekend_iff, Hw.
    - intros (d & -> & Hd & Hw). rewrite day_mul. split; [apply weekend_iff, Hw|]. exists 0. apply Ha. split; [reflexivity|]. exists d. split; [exact Hd|reflexivity]. }
  assert (Hsort : forall i j h n h' n', nth_error added i = Some (h, n) -> nth_error added j = Some (h', n') -> (h < h' <-> (i < j)%nat)).
  { clear -S. induction added as [|[a b] added IH]; intros i j h n h' n' Hi Hj; [destruct i; discriminate|].
    cbn [map fst] in S. apply StronglySorted_inv in S. destruct S as [S1 S2]. rewrite Forall_forall in S2.
    destruct i as [|i], j as [|j]; cbn [nth_error] in Hi, Hj.
    - injection Hi as <- <-. injection Hj as <- <-. split; lia.
    - injection Hi as <- <-. apply nth_error_In, (in_map fst) in Hj. specialize (S2 _ Hj). cbn [fst] in S2. split; lia.
    - injection Hj as <- <-. apply nth_error_In, (in_map fst) in Hi. specialize (S2 _ Hi). cbn [fst] in S2. split; lia.
    - rewrite (IH S1 i j h n h' n' Hi Hj). split; lia. }
  assert (Hall : forall j h n, nth_error added j = Some (h, n) -> n = g (h / NS_DAY) * NS_DAY).
  { intros j. induction j as [j IHj] using (well_founded_induction lt_wf). intros h n Hj.
    assert (Hin : In h (map fst added)) by (apply in_map_iff; exists (h, n); split; [reflexivity|apply (nth_error_In _ _ Hj)]).
    apply Hh in Hin. destruct Hin as (hd & -> & Hd & Hw). rewrite day_mul.
    destruct (first_free_cand how _ hd n Hw (FF j _ _ Hj)) as (k & Hk & -> & Hno & Hbusy).
    destruct (Hg hd Hd Hw) as (k' & Hk' & Eg & Hno1 & Hno2 & Hbusy').
    assert (Ht : forall e, ((exists x, last_value am (e * NS_DAY) x) \/ In (e * NS_DAY) (map snd (firstn j added)))
                 <-> F e \/ exists h', F h' /\ 5 <= weekday h' /\ h' < hd /\ g h' = e).
    { intros e. split.
      - intros [(x & Hx)|Hin].
        + apply Ha in Hx. destruct Hx as [_ (d & Hd' & Ed)]. left. replace e with d by (unfold NS_DAY in Ed; lia). exact Hd'.
        + right. apply in_map_iff in Hin. destruct Hin as ([h1 n1] & En & Hin). cbn [snd] in En. subst n1. apply In_nth_error in Hin. destruct Hin as [i Hi].
          assert (Hij : (i < j)%nat).
          { assert (i < List.length (firstn j added))%nat by (apply nth_error_Some; congruence). rewrite firstn_length in H. lia. }
          assert (Hi' : nth_error added i = Some (h1, e * NS_DAY)).
          { rewrite <- Hi. rewrite <- (firstn_skipn j added) at 1. rewrite nth_error_app1; [reflexivity|]. apply nth_error_Some. congruence. }
          pose proof (IHj i Hij _ _ Hi') as Ei. assert (Hin1 : In h1 (map fst added)) by (apply in_map_iff; exists (h1, e * NS_DAY); split; [reflexivity|apply (nth_error_In _ _ Hi')]).
          apply Hh in Hin1. destruct Hin1 as (hd1 & -> & Hd1 & Hw1). rewrite day_mul in Ei. exists hd1. split; [exact Hd1|]. split; [exact Hw1|].
          pose proof (proj2 (Hsort i j _ _ _ _ Hi' Hj) Hij). unfold NS_DAY in *. split; lia.
      - intros [Hd'|(h' & Hd' & Hw' & Hlt & Eg')].
        + left. exists 0. apply Ha. split; [reflexivity|]. exists e. split; [exact Hd'|reflexivity].
        + right. assert (Hin1 : In (h' * NS_DAY) (map fst added)) by (apply Hh; exists h'; split; [reflexivity|]; split; assumption).
          apply in_map_iff in Hin1. destruct Hin1 as ([h1 n1] & En & Hin1). cbn [fst] in En. subst h1. apply In_nth_error in Hin1. destruct Hin1 as [i Hi].
          assert (Hij : (i < j)%nat) by (apply (Hsort i j _ _ _ _ Hi Hj); unfold NS_DAY; lia).
          pose proof (IHj i Hij _ _ Hi) as Ei. rewrite day_mul, Eg' in Ei. subst n1. apply in_map_iff. exists (h' * NS_DAY, e * NS_DAY). split; [reflexivity|].
          apply (nth_error_In _ i). rewrite <- (firstn_skipn j added) in Hi. rewrite nth_error_app1 in Hi; [exact Hi|]. rewrite firstn_length.
          assert (j < List.length added)%nat by (apply nth_error_Some; congruence). lia. }
    f_equal. rewrite Eg. f_equal. destruct (Z.lt_trichotomy k k') as [Hlt|[Heq|Hgt]]; [exfalso|exact Heq|exfalso].
    - apply Hno, Ht. destruct (Hbusy' k ltac:(lia)) as [Hf|Hf]; [left|right]; exact Hf.
    - specialize (Hbusy k' ltac:(lia)). apply Ht in Hbusy. rewrite <- Eg in Hbusy. destruct Hbusy as [Hf|(h' & A & B & C & D)]; [tauto|]. apply (Hno2 h' A B C D). }
  intros t x. rewrite V. split.
  - intros [Hl|(h & y & Hin & Hl & ->)].
    + apply Ha in Hl. destruct Hl as [-> (d & Hd & ->)]. split; [reflexivity|]. exists d. split; [reflexivity|]. left. exact Hd.
    + apply Ha in Hl. destruct Hl as [-> _]. split; [reflexivity|]. pose proof Hin as Hin2. apply In_nth_error in Hin2. destruct Hin2 as [j Hj].
      assert (Hk : In h (map fst added)) by (apply in_map_iff; exists (h, t); split; [reflexivity|exact Hin]). apply Hh in Hk. destruct Hk as (hd & -> & Hd & Hw).
      pose proof (Hall j _ _ Hj) as En. rewrite day_mul in En. exists (g hd). split; [exact En|]. right. exists hd. split; [exact Hd|]. split; [exact Hw|reflexivity].
  - intros [-> (d & -> & [Hd|(h & Hd & Hw & ->)])].
    + left. apply Ha. split; [reflexivity|]. exists d. split; [exact Hd|reflexivity].
    + right. assert (Hk : In (h * NS_DAY) (map fst added)) by (apply Hh; exists h; split; [reflexivity|]; split; assumption).
      apply in_map_iff in Hk. destruct Hk as ([h1 n1] & En & Hk). cbn [fst] in En. subst h1. pose proof Hk as Hk2. apply In_nth_error in Hk2. destruct Hk2 as [j Hj].
      pose proof (Hall j _ _ Hj) as En. rewrite day_mul in En. subst n1. exists (h * NS_DAY), 0. split; [exact Hk|]. split; [|reflexivity].
      apply Ha. split; [reflexivity|]. exists h. split; [exact Hd|reflexivity].
Qed.

(** ** Fixed dates of several years: a check by computation *)
(** [need hol d]: is [d] a day off when [hol] are the fixed holidays and weekends are extended;
    the answer is the year that the calendar must include. *)
Definition memz (l : list Z) (x : Z) : bool := existsb (Z.eqb x) l.
Lemma memz_In l x : memz l x = true <-> In x l.
Proof. unfold memz. rewrite existsb_exists. split; [intros (y & Hy & E); apply Z.eqb_eq in E; subst y; exact Hy|]. intros H. exists x. split; [exact H|apply Z.eqb_refl]. Qed.
Definition year_days (days : list (Z * Z)) (y : Z) : list Z := map (fun md => date y (fst md) (snd md)) days.
Definition pick (how : extend_how) (taken : list Z) (h : Z) : Z :=
  fold_right (fun i r => let c := cand how h i in if memz taken c then r else c) h (zrange 0 8).
Fixpoint pick_all (how : extend_how) (taken hs : list Z) : list (Z * Z) :=
  match hs with
  | [] => []
  | h :: hs' => let n := pick how taken h in (h, n) :: pick_all how (n :: taken) hs'
  end.
Definition row (how : extend_how) (days : list (Z * Z)) (y : Z) : Z * (list Z * list (Z * Z)) :=
  let Fy := year_days days y in (y, (Fy, pick_all how Fy (zsort (filter (fun d => 5 <=? weekday d) Fy)))).
Definition oeq (o : option Z) (y : Z) : bool := match o with Some x => x =? y | None => false end.
Definition sub_ok (how : extend_how) (need : Z -> option Z) (allF : list Z) (allG : list (Z * Z)) (y : Z) (Fy : list Z) (Gy : list (Z * Z)) (q : Z * Z) : bool :=
  existsb (fun k => (snd q =? cand how (fst q) k)
                    && forallb (fun i => let c := cand how (fst q) i in
                                         memz Fy c || existsb (fun q' => (fst q' <? fst q) && (snd q' =? c)) Gy) (zrange 0 (Z.to_nat k))) (zrange 0 8)
  && negb (memz allF (snd q))
  && forallb (fun q' => if snd q' =? snd q then fst q' =? fst q else true) allG
  && oeq (need (snd q)) y && memz Fy (fst q) && (5 <=? weekday (fst q)).
Definition row_ok (how : extend_how) (need : Z -> option Z) (allF : list Z) (allG : list (Z * Z)) (r : Z * (list Z * list (Z * Z))) : bool :=
  let '(y, (Fy, Gy)) := r in
  forallb (sub_ok how need allF allG y Fy Gy) Gy
  && forallb (fun d => oeq (need d) y) Fy
  && forallb (fun h => if 5 <=? weekday h then existsb (fun q => fst q =? h) Gy else true) Fy.
Definition in_row (d : Z) (r : Z * (list Z * list (Z * Z))) : bool := memz (fst (snd r)) d || existsb (fun q => snd q =? d) (snd (snd r)).
Definition long_check (how : extend_how) (need : (Z -> bool) -> Z -> option Z) (ylo yhi : Z) (days : list (Z * Z)) : bool :=
  let tab := map (row how days) (years_of ylo yhi) in
  let AF := flat_map (year_days days) (years_of (ylo - 1) (yhi + 1)) in
  let nd := need (memz AF) in
  let allF := flat_map (fun r => fst (snd r)) tab in
  let allG := flat_map (fun r => snd (snd r)) tab in
  forallb (row_ok how nd allF allG) tab
  && zdistinct (map fst allG)
  && forallb (fun d => match nd d with
                       | Some y => forallb (fun r => if fst r =? y then in_row d r else true) tab
                       | None => true
                       end) (flat_map (fun f => zrange (f - 1) 8) AF).

Lemma assoc_In (l : list (Z * Z)) h n : NoDup (map fst l) -> In (h, n) l -> match find (fun q => fst q =? h) l with Some q => snd q | None => h end = n.
Proof.
  induction l as [|[a b] l IH]; cbn [map fst]; intros Hn Hin; [contradiction|]. apply NoDup_cons_iff in Hn. destruct Hn as [N1 N2]. cbn [find fst].
  destruct (a =? h) eqn:E.
  - destruct Hin as [Hin|Hin]; [cbn [snd]; congruence|]. exfalso. apply N1. replace a with h by lia. apply in_map_iff. exists (h, n). split; [reflexivity|exact Hin].
  - destruct Hin as [Hin|Hin]; [assert (a = h) by congruence; lia|]. apply IH; assumption.
Qed.

Lemma long_ok how need ylo yhi days : long_check how need ylo yhi days = true ->
  let AF := flat_map (year_days days) (years_of (ylo - 1) (yhi + 1)) in
  (forall d y, need (memz AF) d = Some y -> exists e, memz AF e = true /\ d - 6 <= e <= d + 1) ->
  forall y0 y1, ylo <= y0 -> y1 <= yhi ->
  exists L, extend_weekends (fixed_dates days (years_of y0 y1) 0) how None sat_sun = Ok L /\ NoDup (map fst L)
    /\ forall t x, In (t, x) L <-> x = 0 /\ exists d y, t = d * NS_DAY /\ y0 <= y <= y1 /\ need (memz AF) d = Some y.
Proof.
  intros Hc AF Hloc y0 y1 Hy0 Hy1. unfold long_check in Hc. cbv zeta in Hc. fold AF in Hc. set (nd := need (memz AF)) in *.
  set (tab := map (row how days) (years_of ylo yhi)) in *. set (allF := flat_map (fun r => fst (snd r)) tab) in *. set (allG := flat_map (fun r => snd (snd r)) tab) in *.
  apply andb_prop in Hc. destruct Hc as [Hc Hcand]. apply andb_prop in Hc. destruct Hc as [Hrow Hdist]. apply zdistinct_ok in Hdist.
  rewrite forallb_forall in Hrow, Hcand.
  set (Fy := year_days days). set (Gy := fun y => pick_all how (Fy y) (zsort (filter (fun d => 5 <=? weekday d) (Fy y)))).
  assert (Htab : forall y, ylo <= y <= yhi -> In (y, (Fy y, Gy y)) tab).
  { intros y Hy. apply in_map_iff. exists y. split; [reflexivity|apply years_In, Hy]. }
  assert (HF : forall y d, ylo <= y <= yhi -> In d (Fy y) -> In d allF /\ nd d = Some y /\ (5 <= weekday d -> exists n, In (d, n) (Gy y))).
  { intros y d Hy Hd. pose proof (Hrow _ (Htab y Hy)) as R. cbn [row_ok] in R. apply andb_prop in R. destruct R as [R R3]. apply andb_prop in R. destruct R as [_ R2].
    rewrite forallb_forall in R2, R3. split; [apply in_flat_map; exists (y, (Fy y, Gy y)); split; [apply Htab, Hy|exact Hd]|]. split.
    - specialize (R2 d Hd). destruct (nd d) as [z|]; cbn [oeq] in R2; [f_equal; lia|discriminate].
    - intros Hw. specialize (R3 d Hd). replace (5 <=? weekday d) with true in R3 by lia. apply existsb_exists in R3. destruct R3 as ([h n] & Hin & E). cbn [fst] in E.
      exists n. replace d with h by lia. exact Hin. }
  assert (HG : forall y h n, ylo <= y <= yhi -> In (h, n) (Gy y) -> In (h, n) allG /\ sub_ok how nd allF allG y (Fy y) (Gy y) (h, n) = true).
  { intros y h n Hy Hin. pose proof (Hrow _ (Htab y Hy)) as R. cbn [row_ok] in R. apply andb_prop in R. destruct R as [R R3]. apply andb_prop in R. destruct R as [R1 _].
    rewrite forallb_forall in R1. split; [apply in_flat_map; exists (y, (Fy y, Gy y)); split; [apply Htab, Hy|exact Hin]|]. apply R1, Hin. }
  set (g := fun h => match find (fun q => fst q =? h) allG with Some q => snd q | None => h end).
  assert (Hgv : forall y h n, ylo <= y <= yhi -> In (h, n) (Gy y) -> g h = n).
  { intros y h n Hy Hin. apply assoc_In; [exact Hdist|]. apply (HG y h n Hy Hin). }
  set (F := fun d => exists y, y0 <= y <= y1 /\ In d (Fy y)).
  assert (Hgok : g_ok how F g).
  { intros h (y & Hy & Hd) Hw. destruct (HF y h ltac:(lia) Hd) as (_ & _ & Hex). destruct (Hex Hw) as [n Hin].
    destruct (HG y h n ltac:(lia) Hin) as [HinG Hs]. pose proof (Hgv y h n ltac:(lia) Hin) as Eg. unfold sub_ok in Hs. cbn [fst snd] in Hs.
    apply andb_prop in Hs. destruct Hs as [Hs _]. apply andb_prop in Hs. destruct Hs as [Hs _]. apply andb_prop in Hs. destruct Hs as [Hs _].
    apply andb_prop in Hs. destruct Hs as [Hs Hu]. apply andb_prop in Hs. destruct Hs as [Hk Hf]. apply existsb_exists in Hk. destruct Hk as (k & Hkr & Hk).
    apply zrange_In in Hkr. apply andb_prop in Hk. destruct Hk as [Ek Hk]. rewrite forallb_forall in Hk, Hu. exists k. split; [lia|]. rewrite Eg. split; [lia|].
    split; [|split].
    - intros (y' & Hy' & Hd'). destruct (HF y' n ltac:(lia) Hd') as (Hc1 & _ & _). apply memz_In in Hc1. rewrite Hc1 in Hf. discriminate.
    - intros h' (y' & Hy' & Hd') Hw' Hlt E'. destruct (HF y' h' ltac:(lia) Hd') as (_ & _ & Hex'). destruct (Hex' Hw') as [n' Hin'].
      pose proof (Hgv y' h' n' ltac:(lia) Hin') as Eg'. rewrite Eg' in E'. subst n'. specialize (Hu (h', n) (proj1 (HG y' h' n ltac:(lia) Hin'))). cbn [fst snd] in Hu.
      rewrite Z.eqb_refl in Hu. lia.
    - intros i Hi. specialize (Hk i). rewrite zrange_In in Hk. specialize (Hk ltac:(lia)). cbv zeta in Hk. apply orb_prop in Hk. destruct Hk as [Hk|Hk].
      + left. exists y. split; [exact Hy|]. apply memz_In, Hk.
      + right. apply existsb_exists in Hk. destruct Hk as ([h' n'] & Hin' & Hk). cbn [fst snd] in Hk.
        destruct (HG y h' n' ltac:(lia) Hin') as [_ Hs']. unfold sub_ok in Hs'. cbn [fst snd] in Hs'. apply andb_prop in Hs'. destruct Hs' as [Hs' Hw'].
        apply andb_prop in Hs'. destruct Hs' as [_ Hd']. exists h'. split; [exists y; split; [exact Hy|apply memz_In, Hd']|]. split; [lia|]. split; [lia|].
        rewrite (Hgv y h' n' ltac:(lia) Hin'). lia. }
  destruct (ext_g (fixed_dates days (years_of y0 y1) 0) how F g) as (L & E & N & V); [|exact Hgok|].
  { intros t x. destruct (fixed_zdict days (years_of y0 y1)) as [Z1 Z2]. split.
    - intros (l1 & k & l2 & El & Ek & _). assert (Hin : In (k, x) (fixed_dates days (years_of y0 y1) 0)) by (rewrite El; apply in_app_iff; right; left; reflexivity).
      apply Z2 in Hin. destruct Hin as [(m & dd & y & Hmd & Hy & ->) ->]. split; [reflexivity|]. apply years_In in Hy. exists (date y m dd). split; [|symmetry; exact Ek].
      exists y. split; [exact Hy|]. apply in_map_iff. exists (m, dd). split; [reflexivity|exact Hmd].
    - intros [-> (d & (y & Hy & Hd) & ->)]. apply in_map_iff in Hd. destruct Hd as ([m dd] & <- & Hmd). cbn [fst snd].
      assert (Hin : In (KStr (date y m dd), 0) (fixed_dates days (years_of y0 y1) 0)).
      { apply Z2. split; [|reflexivity]. exists m, dd, y. split; [exact Hmd|]. split; [apply years_In, Hy|reflexivity]. }
      apply in_split in Hin. destruct Hin as (l1 & l2 & El). exists l1, (KStr (date y m dd)), l2. split; [exact El|]. split; [reflexivity|].
      intros [k v] Hq Ek. cbn [fst] in Ek.
      assert (Hk : In (k, v) (fixed_dates days (years_of y0 y1) 0)) by (rewrite El; apply in_app_iff; right; right; exact Hq). apply Z2 in Hk.
      destruct Hk as [(m' & dd' & y' & _ & _ & Ek') _]. subst k. cbn [key_ts] in Ek. assert (E' : date y' m' dd' = date y m dd) by (unfold NS_DAY in Ek; lia).
      rewrite E' in Hq. rewrite El, map_app in Z1. cbn [map fst] in Z1. apply NoDup_remove_2 in Z1. apply Z1, in_app_iff. right. apply in_map_iff.
      exists (KStr (date y m dd), v). split; [reflexivity|exact Hq]. }
  exists L. split; [exact E|]. split; [exact N|]. intros t x. rewrite V. split; (intros [-> Hd]; split; [reflexivity|]).
  - destruct Hd as (d & -> & [(y & Hy & Hd)|(h & (y & Hy & Hh) & Hw & ->)]).
    + exists d, y. split; [reflexivity|]. split; [exact Hy|]. apply (HF y d ltac:(lia) Hd).
    + exists (g h), y. split; [reflexivity|]. split; [exact Hy|]. destruct (HF y h ltac:(lia) Hh) as (_ & _ & Hex). destruct (Hex Hw) as [n Hin].
      rewrite (Hgv y h n ltac:(lia) Hin). destruct (HG y h n ltac:(lia) Hin) as [_ Hs]. unfold sub_ok in Hs. cbn [fst snd] in Hs.
      apply andb_prop in Hs. destruct Hs as [Hs _]. apply andb_prop in Hs. destruct Hs as [Hs _]. apply andb_prop in Hs. destruct Hs as [_ Hs].
      destruct (nd n) as [z|]; cbn [oeq] in Hs; [f_equal; lia|discriminate].
  - destruct Hd as (d & y & -> & Hy & Hn). exists d. split; [reflexivity|]. destruct (Hloc d y Hn) as (e & He & Hr). apply memz_In in He.
    assert (Hd : In d (flat_map (fun f => zrange (f - 1) 8) AF)) by (apply in_flat_map; exists e; split; [exact He|]; apply zrange_In; lia).
    specialize (Hcand d Hd). rewrite Hn in Hcand. rewrite forallb_forall in Hcand. specialize (Hcand _ (Htab y ltac:(lia))). cbn [fst] in Hcand. rewrite Z.eqb_refl in Hcand.
    unfold in_row in Hcand. cbn [fst snd] in Hcand. apply orb_prop in Hcand. destruct Hcand as [Hc1|Hc1].
    + left. exists y. split; [exact Hy|]. apply memz_In, Hc1.
    + right. apply existsb_exists in Hc1. destruct Hc1 as ([h n] & Hin & En). cbn [snd] in En. destruct (HG y h n ltac:(lia) Hin) as [_ Hs]. unfold sub_ok in Hs. cbn [fst snd] in Hs.
      apply andb_prop in Hs. destruct Hs as [Hs Hw]. apply andb_prop in Hs. destruct Hs as [_ Hd']. exists h. split; [exists y; split; [exact Hy|apply memz_In, Hd']|]. split; [lia|].
      rewrite (Hgv y h n ltac:(lia) Hin). lia.
Qed.

(** ** From dictionaries of zeros to hours *)
Lemma zdict_day H P off d x : zdict H P -> (P (KTs (d * NS_DAY)) \/ P (KStr d) <-> off d) -> (dict_day H d x <-> off_hours off d x).
Proof.
  intros [N V] Hoff. unfold dict_day, off_hours.
  assert (Hdec : off d \/ ~ off d).
  { rewrite <- Hoff. destruct (dict_get akey_eqb H (KTs (d * NS_DAY))) as [v|] eqn:E.
    - left. left. apply (get_some_In _ akey_eqb_ok) in E. apply V in E. tauto.
    - destruct (dict_get akey_eqb H (KStr d)) as [v|] eqn:E2.
      + left. right. apply (get_some_In _ akey_eqb_ok) in E2. apply V in E2. tauto.
      + right. apply (get_none _ akey_eqb_ok) in E, E2. intros [C|C]; [apply E|apply E2]; apply in_map_iff; [exists (KTs (d * NS_DAY), 0)|exists (KStr d, 0)];
          (split; [reflexivity|apply V; split; [exact C|reflexivity]]). }
  rewrite !V. split.
  - intros [[A ->]|[[A ->]|[A ->]]]; [left; split; [apply Hoff; left; exact A|reflexivity]|left; split; [apply Hoff; right; exact A|reflexivity]|].
    right. split; [|reflexivity]. intros Ho. apply Hoff in Ho. destruct (A 0) as [A1 A2]. rewrite V in A1, A2. tauto.
  - intros [[A ->]|[A ->]]; [apply Hoff in A; tauto|]. right. right. split; [|reflexivity]. intros y. rewrite !V. rewrite <- Hoff in A. tauto.
Qed.

Definition years_ok (tbl : list (Z * Z)) : Prop := forall y m dd, 1999 <= y <= 2021 -> In (m, dd) tbl -> year_of (date y m dd) = y.
Definition years_okb (tbl : list (Z * Z)) (y : Z) : bool := forallb (fun md => year_of (date y (fst md) (snd md)) =? y) tbl.
Lemma years_ok_sweep tbl : sweep (years_okb tbl) 1999 23 = true -> years_ok tbl.
Proof.
  intros H y m dd Hy Hin. pose proof (year_sweep _ _ _ H y ltac:(lia)) as Hs. unfold years_okb in Hs. rewrite forallb_forall in Hs.
  specialize (Hs (m, dd) Hin). cbn [fst snd] in Hs. lia.
Qed.
Lemma fixb_In days d : fixb days d = true <-> exists m dd, In (m, dd) days /\ d = date (year_of d) m dd.
Proof.
  unfold fixb. rewrite existsb_exists. split.
  - intros ([m dd] & Hin & E). cbn [fst snd] in E. exists m, dd. split; [exact Hin|lia].
  - intros (m & dd & Hin & E). exists (m, dd). split; [exact Hin|]. cbn [fst snd]. lia.
Qed.
Lemma memz_fixb tbl days d : years_ok tbl -> (forall md, In md days -> In md tbl) -> 1999 <= year_of d <= 2021 ->
  memz (flat_map (year_days days) (years_of (2000 - 1) (2020 + 1))) d = fixb days d.
Proof.
  intros Hok Hsub Hy. apply eq_true_iff_eq. rewrite memz_In, fixb_In, in_flat_map. split.
  - intros (y & Hyy & Hin). apply years_In in Hyy. apply in_map_iff in Hin. destruct Hin as ([m dd] & <- & Hin). cbn [fst snd]. exists m, dd. split; [exact Hin|].
    rewrite (Hok y m dd); [reflexivity|lia|apply Hsub, Hin].
  - intros (m & dd & Hin & E). exists (year_of d). split; [apply years_In; lia|]. apply in_map_iff. exists (m, dd). split; [symmetry; exact E|exact Hin].
Qed.
Lemma named_incl {A} skip (tbl : list (string * A)) x : In x (named skip tbl) -> In x (map snd tbl).
Proof. intros H. apply named_In in H. destruct H as (name & Hin & _). apply in_map_iff. exists (name, x). split; [reflexivity|exact Hin]. Qed.
Lemma year_next d : year_of d <= year_of (d + 1) <= year_of d + 1 /\ year_of d - 1 <= year_of (d - 6) <= year_of d.
Proof.
  pose proof (year_mono d (d + 1) ltac:(lia)). pose proof (year_mono (d - 6) d ltac:(lia)).
  assert (H6 : forall k, month_start (k + 12) - month_start k >= 7).
  { intros k. pose proof (month_start_lt k). pose proof (month_start_lt (k + 1)). pose proof (month_start_lt (k + 2)). pose proof (month_start_lt (k + 3)). pose proof (month_start_lt (k + 4)).
    pose proof (month_start_lt (k + 5)). pose proof (month_start_lt (k + 6)). pose proof (month_start_lt (k + 7)).
    replace (k + 1 + 1) with (k + 2) in * by lia. replace (k + 2 + 1) with (k + 3) in * by lia. replace (k + 3 + 1) with (k + 4) in * by lia. replace (k + 4 + 1) with (k + 5) in * by lia.
    replace (k + 5 + 1) with (k + 6) in * by lia. replace (k + 6 + 1) with (k + 7) in * by lia. replace (k + 7 + 1) with (k + 8) in * by lia.
    pose proof (month_le (k + 8) (k + 12) ltac:(lia)). lia. }
  assert (Hup : forall a b, a <= b <= a + 6 -> month_of_day b <= month_of_day a + 12).
  { intros a b Hab. destruct (Z_le_gt_dec (month_of_day b) (month_of_day a + 12)) as [Hl|Hg]; [exact Hl|exfalso].
    pose proof (month_of_day_spec a). pose proof (month_of_day_spec b). pose proof (H6 (month_of_day a + 1)).
    pose proof (month_le (month_of_day a + 1 + 12) (month_of_day b) ltac:(lia)). lia. }
  pose proof (Hup d (d + 1) ltac:(lia)). pose proof (Hup (d - 6) d ltac:(lia)). unfold year_of in *. lia.
Qed.

(** ** The two ways of taking fixed dates *)
Definition float_ok (fixed : list (Z * Z)) (fl : list seek) (y : Z) : bool :=
  forallb (fun s => match seek_day y s with Some d => (year_of d =? y) && negb (fixb fixed d) | None => true end) fl.
Lemma float_year fixed fl y s d : sweep (float_ok fixed fl) 2000 21 = true -> Forall seek_valid fl -> 2000 <= y <= 2020 -> In s fl ->
  seek_finds y s d -> year_of d = y /\ fixb fixed d = false.
Proof.
  intros Hs Hv Hy Hin Hd. pose proof (year_sweep _ _ _ Hs y ltac:(lia)) as H. unfold float_ok in H. rewrite forallb_forall in H. specialize (H s Hin).
  rewrite Forall_forall in Hv. apply (seek_day_ok y s (Hv s Hin)) in Hd. rewrite Hd in H. apply andb_prop in H. destruct H as [A B]. split; [lia|].
  destruct (fixb fixed d); [discriminate|reflexivity].
Qed.
Lemma fixb_sub days tbl d : (forall md, In md days -> In md tbl) -> fixb days d = true -> fixb tbl d = true.
Proof. intros Hs H. apply fixb_In in H. destruct H as (m & dd & Hin & E). apply fixb_In. exists m, dd. split; [apply Hs, Hin|exact E]. Qed.

Lemma zdict_float (fl : list seek) H P y : Forall seek_valid fl -> zdict H P ->
  exists f, cb_nth_weekday y fl 0 false = Ok f
    /\ zdict (dict_update akey_eqb H (map tskey f)) (fun k => P k \/ exists s d, In s fl /\ seek_finds y s d /\ k = KTs (d * NS_DAY)).
Proof.
  intros Hv HP. destruct (proj1 (C38_calendar_pf Z y fl 0 false Hv) (or_introl eq_refl)) as (f & E & N & V). exists f. split; [exact E|].
  refine (zdict_ext _ _ _ _ (zdict_update (map tskey f) H P _ HP)).
  - cbn beta. intros k. rewrite map_map. unfold tskey. cbn [fst]. rewrite in_map_iff. split.
    + intros [A|([t x] & <- & Hin)]; [left; exact A|]. apply V in Hin. destruct Hin as [_ (s & d & A & B & ->)]. right. exists s, d. split; [exact A|]. split; [exact B|reflexivity].
    + intros [A|(s & d & A & B & ->)]; [left; exact A|]. right. exists (d * NS_DAY, 0). split; [reflexivity|]. apply V. split; [reflexivity|]. exists s, d. split; [exact A|]. split; [exact B|reflexivity].
  - intros q Hq. apply in_map_iff in Hq. destruct Hq as ([t x] & <- & Hin). apply V in Hin. cbn. tauto.
Qed.

(** What the fixed dates contribute. *)
Definition base_key (need : (Z -> bool) -> Z -> option Z) (days : list (Z * Z)) (long : bool) (y0 y1 : Z) (k : akey) : Prop :=
  if long then exists d y, k = KTs (d * NS_DAY) /\ y0 <= y <= y1
                 /\ need (memz (flat_map (year_days days) (years_of (2000 - 1) (2020 + 1)))) d = Some y
  else exists m dd y, In (m, dd) days /\ y0 <= y <= y1 /\ k = KStr (date y m dd).
Definition need_local (need : (Z -> bool) -> Z -> option Z) : Prop :=
  forall hol d y, need hol d = Some y -> exists e, hol e = true /\ d - 6 <= e <= d + 1.
Lemma lengthen_zdict how need tbl skip long y0 y1 : forallb (long_check how need 2000 2020) (sublists (map snd tbl)) = true -> need_local need ->
  2000 <= y0 -> y1 <= 2020 ->
  exists H, lengthen long how (fixed_dates (named skip tbl) (years_of y0 y1) 0) = Ok H /\ zdict H (base_key need (named skip tbl) long y0 y1).
Proof.
  intros Hs Hloc Hy0 Hy1. unfold lengthen, base_key. destruct long.
  - rewrite forallb_forall in Hs. specialize (Hs _ (named_sub skip tbl)).
    destruct (long_ok how need 2000 2020 _ Hs (fun d y => Hloc _ d y) y0 y1 Hy0 Hy1) as (L & E & N & V). rewrite E. exists (map tskey L). split; [reflexivity|].
    split.
    + rewrite map_map. unfold tskey. cbn [fst]. rewrite <- (map_map fst KTs). apply FinFun.Injective_map_NoDup; [|exact N]. intros a b Hab. congruence.
    + intros k v. rewrite in_map_iff. split.
      * intros ([t x] & Eq & Hin). unfold tskey in Eq. cbn [fst snd] in Eq. apply V in Hin. destruct Hin as [-> (d & y & -> & Hr)]. assert (v = 0) by congruence. subst v.
        split; [|reflexivity]. exists d, y. split; [congruence|exact Hr].
      * intros [(d & y & -> & Hr) ->]. exists (d * NS_DAY, 0). split; [reflexivity|]. apply V. split; [reflexivity|]. exists d, y. split; [reflexivity|exact Hr].
  - exists (fixed_dates (named skip tbl) (years_of y0 y1) 0). split; [reflexivity|]. refine (zdict_ext _ _ _ _ (fixed_zdict _ _)). cbn beta. intros k.
    split; intros (m & dd & y & A & B & C); exists m, dd, y; (split; [exact A|]; split; [apply years_In, B|exact C]).
Qed.

(** Adding and removing one day. *)
Lemma zdict_put_if (c : bool) t H P : zdict H P ->
  zdict (if c then dict_put akey_eqb H (KTs (t * NS_DAY)) 0 else H) (fun k => P k \/ (c = true /\ k = KTs (t * NS_DAY))).
Proof.
  intros HP. destruct c; [refine (zdict_ext _ _ _ _ (zdict_put H P _ HP))|refine (zdict_ext _ _ _ _ HP)]; cbn beta; intros k; intuition congruence.
Qed.
Lemma zdict_del_if (c : bool) t H P : zdict H P ->
  zdict (if c then dict_del akey_eqb H (KTs (t * NS_DAY)) else H) (fun k => P k /\ ~ (c = true /\ k = KTs (t * NS_DAY))).
Proof.
  intros HP. destruct c; [refine (zdict_ext _ _ _ _ (zdict_del H P _ HP))|refine (zdict_ext _ _ _ _ HP)]; cbn beta; intros k; intuition congruence.
Qed.
Lemma KTs_inj a b : KTs (a * NS_DAY) = KTs (b * NS_DAY) <-> a = b.
Proof. split; [|intros ->; reflexivity]. intros E. assert (E' : a * NS_DAY = b * NS_DAY) by congruence. unfold NS_DAY in E'. lia. Qed.
Lemma reshuffle (long : bool) (A B C : Prop) : ((long = true /\ (A \/ B)) \/ C) \/ (long = false /\ A) <-> A \/ (long = true /\ B) \/ C.
Proof. destruct long; split; intros H; [| | |]; repeat match goal with
  | H : _ \/ _ |- _ => destruct H as [H|H]
  | H : _ /\ _ |- _ => let E := fresh in destruct H as [E H]; try discriminate E
  end; auto. Qed.
