(** Dictionaries; calendarbase.py nth_weekday_of_month (C38). *)
From Verif Require Import Base BaseProofs Civil CivilProofs Freq FreqProofs Frame FrameProofs Timeline Board Spec SpecLookup SpecLayout When WhenProofs SpecWhen NthProofs Calendars SpecCal.
From Coq Require Import ZifyBool ZifyNat.
Ltac Zify.zify_post_hook ::= Z.div_mod_to_equations.

(** ** Dictionaries *)
Section DictProofs.
  Context {K V : Type} (eqb : K -> K -> bool) (eqb_ok : forall a b, eqb a b = true <-> a = b).
  Notation get := (dict_get eqb). Notation put := (dict_put eqb). Notation update := (dict_update eqb).

  Lemma eqb_refl k : eqb k k = true.
  Proof. apply eqb_ok. reflexivity. Qed.
  Lemma get_put (d : list (K * V)) k v k' : get (put d k v) k' = if eqb k k' then Some v else get d k'.
  Proof.
    induction d as [|[a x] d IH]; cbn [dict_put dict_get]; [reflexivity|].
    destruct (eqb a k) eqn:E; cbn [dict_get].
    - apply eqb_ok in E. subst a. destruct (eqb k k'); reflexivity.
    - rewrite IH. destruct (eqb a k') eqn:E2; [|reflexivity]. apply eqb_ok in E2. subst k'.
      destruct (eqb k a) eqn:E3; [|reflexivity]. apply eqb_ok in E3. subst a. rewrite eqb_refl in E. discriminate.
  Qed.
  Lemma get_some_In (d : list (K * V)) k v : get d k = Some v -> In (k, v) d.
  Proof.
    induction d as [|[a x] d IH]; cbn [dict_get]; [discriminate|]. destruct (eqb a k) eqn:E.
    - apply eqb_ok in E. intros H. injection H as ->. left. subst. reflexivity.
    - intros H. right. apply IH, H.
  Qed.
  Lemma get_none (d : list (K * V)) k : get d k = None <-> ~ In k (map fst d).
  Proof.
    induction d as [|[a x] d IH]; cbn [dict_get map fst In]; [tauto|]. destruct (eqb a k) eqn:E.
    - apply eqb_ok in E. split; [discriminate|]. intros H. exfalso. apply H. left. exact E.
    - rewrite IH. split; [|tauto]. intros H [H1|H1]; [|tauto]. subst a. rewrite eqb_refl in E. discriminate.
  Qed.
  Lemma has_get (d : list (K * V)) k : dict_has eqb d k = true <-> In k (map fst d).
  Proof.
    unfold dict_has. rewrite existsb_exists, in_map_iff. split.
    - intros (q & H1 & H2). apply eqb_ok in H2. exists q. split; assumption.
    - intros (q & H1 & H2). exists q. split; [exact H2|]. apply eqb_ok. exact H1.
  Qed.
  Lemma NoDup_put (d : list (K * V)) k v : NoDup (map fst d) -> NoDup (map fst (put d k v)).
  Proof.
    induction d as [|[a x] d IH]; cbn [dict_put map fst]; intros H; [constructor; [tauto|constructor]|].
    destruct (eqb a k) eqn:E; cbn [map fst]; [exact H|]. apply NoDup_cons_iff in H. destruct H as [H1 H2]. constructor; [|apply IH, H2].
    intros Hin. assert (Hg : get (put d k v) a <> None) by (intros Hn; apply get_none in Hn; tauto).
    rewrite get_put in Hg. destruct (eqb k a) eqn:E2; [apply eqb_ok in E2; subst a; rewrite eqb_refl in E; discriminate|].
    apply Hg, get_none, H1.
  Qed.
  Lemma In_get (d : list (K * V)) k v : NoDup (map fst d) -> (In (k, v) d <-> get d k = Some v).
  Proof.
    intros Hn. split; [|apply get_some_In]. induction d as [|[a x] d IH]; [contradiction|]. cbn [map fst] in Hn.
    apply NoDup_cons_iff in Hn. destruct Hn as [H1 H2]. cbn [dict_get]. intros [E|Hin].
    - injection E as -> ->. rewrite eqb_refl. reflexivity.
    - destruct (eqb a k) eqn:E; [|apply IH; assumption]. apply eqb_ok in E. subst a. exfalso. apply H1, in_map_iff.
      exists (k, v). split; [reflexivity|exact Hin].
  Qed.
  Lemma NoDup_update e : forall d : list (K * V), NoDup (map fst d) -> NoDup (map fst (update d e)).
  Proof. unfold dict_update. induction e as [|q e IH]; intros d H; cbn [fold_left]; [exact H|]. apply IH, NoDup_put, H. Qed.
  Lemma get_app (d e : list (K * V)) k : get (d ++ e) k = match get d k with Some v => Some v | None => get e k end.
  Proof. induction d as [|[a x] d IH]; cbn [app dict_get]; [reflexivity|]. destruct (eqb a k); [reflexivity|exact IH]. Qed.
  Lemma get_update e : forall (d : list (K * V)) k,
    get (update d e) k = match get (rev e) k with Some v => Some v | None => get d k end.
  Proof.
    unfold dict_update. induction e as [|[a x] e IH]; intros d k; cbn [fold_left rev]; [reflexivity|].
    rewrite IH, get_app, get_put. cbn [dict_get fst snd]. destruct (get (rev e) k); [reflexivity|]. destruct (eqb a k); reflexivity.
  Qed.
  Lemma keys_update (d e : list (K * V)) k : In k (map fst (update d e)) <-> In k (map fst d) \/ In k (map fst e).
  Proof.
    assert (H : forall a : list (K * V), In k (map fst a) <-> get a k <> None).
    { intros a. pose proof (get_none a k). split; [tauto|]. intros Hn. destruct (in_dec (fun x y => match eqb x y as b return eqb x y = b -> {x = y} + {x <> y} with
        | true => fun E => left (proj1 (eqb_ok x y) E)
        | false => fun E => right (fun Hxy => Bool.diff_false_true (eq_trans (eq_sym E) (proj2 (eqb_ok x y) Hxy))) end eq_refl) k (map fst a)) as [Hi|Hi]; [exact Hi|tauto]. }
    rewrite H, get_update. assert (He : In k (map fst e) <-> In k (map fst (rev e))).
    { rewrite map_rev. apply in_rev. }
    rewrite He, !H. destruct (get (rev e) k); [split; [right; discriminate|discriminate]|tauto].
  Qed.
  Lemma get_del (d : list (K * V)) k k' : get (dict_del eqb d k) k' = if eqb k k' then None else get d k'.
  Proof.
    unfold dict_del. induction d as [|[a x] d IH]; cbn [filter dict_get fst]; [destruct (eqb k k'); reflexivity|].
    destruct (eqb a k) eqn:E; cbn [negb dict_get].
    - apply eqb_ok in E. subst a. rewrite IH. destruct (eqb k k') eqn:E2; reflexivity.
    - destruct (eqb a k') eqn:E2; [|exact IH]. apply eqb_ok in E2. subst k'.
      destruct (eqb k a) eqn:E3; [|reflexivity]. apply eqb_ok in E3. subst a. rewrite eqb_refl in E. discriminate.
  Qed.
  Lemma NoDup_del (d : list (K * V)) k : NoDup (map fst d) -> NoDup (map fst (dict_del eqb d k)).
  Proof.
    unfold dict_del. induction d as [|[a x] d IH]; cbn [filter map fst]; intros H; [exact H|]. apply NoDup_cons_iff in H. destruct H as [H1 H2].
    destruct (negb (eqb a k)); cbn [map fst]; [|apply IH, H2]. constructor; [|apply IH, H2].
    intros Hin. apply H1. apply in_map_iff in Hin. destruct Hin as (q & <- & Hq). apply filter_In in Hq. apply in_map, Hq.
  Qed.
End DictProofs.

Lemma akey_eqb_ok a b : akey_eqb a b = true <-> a = b.
Proof.
  destruct a, b; cbn [akey_eqb]; split; intros H; try discriminate; try (apply Z.eqb_eq in H; congruence);
    injection H as ->; apply Z.eqb_refl.
Qed.

(** ** n-th weekdays *)
Lemma seek_date_ok year m w n shift : seek_valid (m, w, n, shift) ->
  exists o, (forall d, seek_finds year (m, w, n, shift) d <-> o = Some d)
    /\ forall raise, seek_date year raise (m, w, n, shift) =
         match o with Some d => Ok (Some (d * NS_DAY)) | None => if raise then Err EOutOfBounds else Ok None end.
Proof.
  intros (Hm & Hw & Hn). unfold seek_date, seek_finds.
  replace ((1 <=? m) && (m <=? 12)) with true by lia. replace ((1 <=? w) && (w <=? 7)) with true by lia.
  replace (((1 <=? n) && (n <=? 5)) || ((-5 <=? n) && (n <=? -1))) with true by lia. cbn [negb].
  remember (12 * (year - 1970) + (m - 1)) as mm eqn:Emm. cbn [pstart].
  remember (month_start mm) as ms eqn:Ems. remember (month_start (mm + 1)) as me eqn:Eme.
  assert (H28 : ms + 28 <= me).
  { subst ms me. unfold month_start. replace (mm + 1 - 360) with (mm - 360 + 1) by lia. pose proof (month_start2000_step (mm - 360)) as Hs. cbv zeta in Hs.
    repeat match type of Hs with context [if ?c then _ else _] => destruct c end; lia. }
  remember ((w - 2) mod 7 - 2) as c eqn:Ec.
  remember ((ms - c) / 7) as o0 eqn:Eo0. remember ((me - 1 - c) / 7) as o1 eqn:Eo1.
  assert (Ew : mk_frame (week_ending w) (ms * NS_DAY) (me * NS_DAY - 1) = Ok (mkFrame (week_ending w) o0 (o1 - o0 + 1))).
  { unfold mk_frame, week_ending, to_freq. cbn [fbase fmult falias fdigits alias_base opt_or pord]. rewrite <- Ec.
    rewrite Z.div_mul by (unfold NS_DAY; lia). replace ((me * NS_DAY - 1) / NS_DAY) with (me - 1) by (unfold NS_DAY; lia).
    rewrite <- Eo0, <- Eo1. unfold period_count. replace (o1 <? o0) with false by lia. rewrite Z.div_1_r.
    replace (o1 - o0 + 1 =? 0) with false by lia. reflexivity. }
  rewrite Ew. cbn [bind].
  assert (Est : fr_start_times (mkFrame (week_ending w) o0 (o1 - o0 + 1)) = map (fun i => (7 * (o0 + i) + c) * NS_DAY) (zrange 0 (Z.to_nat (o1 - o0 + 1)))).
  { unfold fr_start_times. cbn [fr_len]. apply map_ext. intros i. unfold unit_start, unit_ord, fr_base, fr_mult, week_ending, to_freq.
    cbn [fr_str fr_o0 fbase fmult falias fdigits alias_base opt_or pstart]. subst c. f_equal. lia. }
  rewrite Est.
  remember (if 7 * o0 + c <? ms then 7 * o0 + c + 7 else 7 * o0 + c) as f0 eqn:Ef0.
  remember (if 7 * o0 + c <? ms then o1 - o0 else o1 - o0 + 1) as N eqn:EN.
  assert (Hf0 : ms <= f0 < ms + 7 /\ weekday f0 = w - 1 /\ f0 + 7 * (N - 1) < me <= f0 + 7 * N /\ 4 <= N).
  { unfold weekday. destruct (7 * o0 + c <? ms) eqn:E; lia. }
  match goal with |- context [py_get ?l _] => remember l as starts eqn:Es end.
  assert (Hs : zlen starts = N /\ forall i, 0 <= i < N -> znth starts i = Some ((f0 + 7 * i) * NS_DAY)).
  { assert (Hz : forall i, 0 <= i <= o1 - o0 -> znth (map (fun i => (7 * (o0 + i) + c) * NS_DAY) (zrange 0 (Z.to_nat (o1 - o0 + 1)))) i = Some ((7 * (o0 + i) + c) * NS_DAY)).
    { intros i Hi. rewrite znth_map, zrange_znth by lia. reflexivity. }
    assert (Hl : zlen (map (fun i => (7 * (o0 + i) + c) * NS_DAY) (zrange 0 (Z.to_nat (o1 - o0 + 1)))) = o1 - o0 + 1).
    { rewrite zlen_map, zlen_zrange. lia. }
    destruct (map (fun i => (7 * (o0 + i) + c) * NS_DAY) (zrange 0 (Z.to_nat (o1 - o0 + 1)))) as [|s0 rest].
    { change (zlen []) with 0 in Hl. lia. }
    pose proof (Hz 0 ltac:(lia)) as H0. rewrite znth_cons0 in H0. assert (H0' : s0 = (7 * o0 + c) * NS_DAY) by (replace o0 with (o0 + 0) by lia; congruence). subst s0. clear H0.
    replace ((7 * o0 + c) * NS_DAY <? ms * NS_DAY) with (7 * o0 + c <? ms) in Es by (unfold NS_DAY; lia).
    destruct (7 * o0 + c <? ms) eqn:E; rewrite ?E in EN, Ef0; subst starts.
    - rewrite zlen_cons in Hl. split; [lia|]. intros i Hi. pose proof (Hz (i + 1) ltac:(lia)) as H1. rewrite znth_cons in H1 by lia.
      replace (i + 1 - 1) with i in H1 by lia. rewrite H1. f_equal. f_equal. lia.
    - split; [lia|]. intros i Hi. rewrite (Hz i ltac:(lia)). f_equal. f_equal. lia. }
  destruct Hs as [Hl Hz]. destruct Hf0 as (F1 & F2 & F3 & F4). clear Est Ew Es Ef0 EN Eo0 Eo1 Ec c o0 o1.
  assert (Hnw : forall d, nth_weekday mm (w - 1) n d <->
    d = f0 + 7 * (if 0 <? n then n - 1 else N + n) /\ 0 <= (if 0 <? n then n - 1 else N + n) < N).
  { intros d. unfold nth_weekday. rewrite <- Ems, <- Eme. destruct (0 <? n) eqn:E.
    - split.
      + intros (A & B & [[_ C]|[C _]]); [|lia]. rewrite weekdays_up in C by lia. unfold weekday in *. lia.
      + intros [-> A]. split; [lia|]. split; [unfold weekday in *; lia|]. left. split; [lia|]. rewrite weekdays_up; [lia|lia|]. unfold weekday in *; lia.
    - split.
      + intros (A & B & [[C _]|[_ C]]); [lia|]. rewrite weekdays_down in C by lia. unfold weekday in *. lia.
      + intros [-> A]. split; [lia|]. split; [unfold weekday in *; lia|]. right. split; [lia|]. rewrite weekdays_down; [lia|lia|]. unfold weekday in *; lia. }
  assert (Hg : forall k, py_get starts (if 0 <? n then n - 1 else n) = k <-> znth starts (if 0 <? n then n - 1 else N + n) = k).
  { intros k. destruct (0 <? n) eqn:E; [rewrite py_get_znth by lia; reflexivity|]. rewrite py_get_neg, Hl by lia. rewrite Z.add_comm. reflexivity. }
  remember (if 0 <? n then n - 1 else N + n) as i eqn:Ei.
  destruct ((0 <=? i) && (i <? N)) eqn:Eb.
  - exists (Some (f0 + 7 * i + shift)). split.
    + intros d. split; [intros (e & He & ->); apply Hnw in He; destruct He as [-> _]; reflexivity|].
      intros H. injection H as <-. exists (f0 + 7 * i). split; [apply Hnw; lia|reflexivity].
    + intros raise. rewrite (proj2 (Hg _) (Hz i ltac:(lia))). f_equal. f_equal. lia.
  - exists None. split.
    + intros d. split; [intros (e & He & ->); apply Hnw in He; lia|discriminate].
    + intros raise. rewrite (proj2 (Hg _) (znth_none starts i ltac:(lia))). reflexivity.
Qed.

(** Whether a date is found, as a function. *)
Definition seek_day (year : Z) (s : seek) : option Z :=
  match seek_date year false s with Ok (Some t) => Some (t / NS_DAY) | _ => None end.
Lemma seek_day_ok year s : seek_valid s -> (forall d, seek_finds year s d <-> seek_day year s = Some d)
  /\ forall raise, seek_date year raise s =
       match seek_day year s with Some d => Ok (Some (d * NS_DAY)) | None => if raise then Err EOutOfBounds else Ok None end.
Proof.
  destruct s as [[[m w] n] shift]. intros Hv. destruct (seek_date_ok year m w n shift Hv) as (o & A & B).
  assert (E : seek_day year (m, w, n, shift) = o).
  { unfold seek_day. rewrite B. destruct o as [d|]; [|reflexivity]. rewrite Z.div_mul by (unfold NS_DAY; lia). reflexivity. }
  rewrite E. split; assumption.
Qed.

Lemma mapM_all {A B} (f : A -> res B) (g : A -> B) l : (forall x, In x l -> f x = Ok (g x)) -> mapM f l = Ok (map g l).
Proof.
  induction l as [|x l IH]; intros H; cbn [mapM map]; [reflexivity|]. rewrite (H x (or_introl eq_refl)). cbn [bind].
  rewrite IH by (intros; apply H; right; assumption). reflexivity.
Qed.

Definition found (year : Z) (l : list seek) : list Z :=
  flat_map (fun s => match seek_day year s with Some d => [d * NS_DAY] | None => [] end) l.
Lemma cb_nth_ok {L} year l (label : L) raise : Forall seek_valid l ->
  raise = false \/ (forall s, In s l -> exists d, seek_finds year s d) ->
  cb_nth_weekday year l label raise = Ok (dict_update Z.eqb [] (map (fun t => (t, label)) (found year l))).
Proof.
  intros Hv Hr. unfold cb_nth_weekday. rewrite Forall_forall in Hv.
  rewrite (mapM_all _ (fun s => match seek_day year s with Some d => Some (d * NS_DAY) | None => None end)).
  - cbn [bind]. f_equal. f_equal. f_equal. unfold found. clear. induction l as [|s l IH]; [reflexivity|]. cbn [map flat_map].
    rewrite IH. destruct (seek_day year s); reflexivity.
  - intros s Hs. destruct (seek_day_ok year s (Hv s Hs)) as [A B]. rewrite B. destruct (seek_day year s) as [d|] eqn:E; [reflexivity|].
    destruct Hr as [ -> |Hr]; [reflexivity|]. destruct (Hr s Hs) as [d Hd]. apply A in Hd. discriminate.
Qed.
Lemma found_In year l t : Forall seek_valid l -> (In t (found year l) <-> exists s d, In s l /\ seek_finds year s d /\ t = d * NS_DAY).
Proof.
  intros Hv. rewrite Forall_forall in Hv. unfold found. rewrite in_flat_map. split.
  - intros (s & Hs & Ht). destruct (seek_day year s) as [d|] eqn:E; [|contradiction]. destruct Ht as [<-|[]].
    exists s, d. split; [exact Hs|]. split; [|reflexivity]. apply (seek_day_ok year s (Hv s Hs)), E.
  - intros (s & d & Hs & Hd & ->). exists s. split; [exact Hs|]. apply (seek_day_ok year s (Hv s Hs)) in Hd. rewrite Hd. left. reflexivity.
Qed.

Lemma const_update {K L} (eqb : K -> K -> bool) (ok : forall a b, eqb a b = true <-> a = b) (label : L) (ts : list K) k x :
  In (k, x) (dict_update eqb [] (map (fun t => (t, label)) ts)) <-> In k ts /\ x = label.
Proof.
  rewrite (In_get eqb ok) by (apply (NoDup_update eqb ok); constructor). rewrite (get_update eqb ok). cbn [dict_get]. rewrite <- map_rev.
  assert (H : forall l, match dict_get eqb (map (fun t => (t, label)) l) k with Some v => v = label /\ In k l | None => ~ In k l end).
  { intros l. induction l as [|a l IH]; cbn [map dict_get In]; [tauto|]. destruct (eqb a k) eqn:E.
    - split; [reflexivity|left; apply ok, E].
    - destruct (dict_get eqb (map (fun t => (t, label)) l) k); [tauto|]. intros [->|H]; [|tauto].
      assert (eqb k k = true) by (apply ok; reflexivity). congruence. }
  specialize (H (rev ts)). pose proof (in_rev ts k) as Hr. destruct (dict_get eqb (map (fun t => (t, label)) (rev ts)) k) as [v|].
  - destruct H as [ -> H]. split; [intros E; injection E as <-; tauto|]. intros [_ ->]. reflexivity.
  - split; [discriminate|]. tauto.
Qed.

Lemma C38_calendar_pf : forall (L : Type) year l (label : L) raise, Forall seek_valid l ->
  (raise = false \/ (forall s, In s l -> exists d, seek_finds year s d) ->
   exists am, cb_nth_weekday year l label raise = Ok am /\ NoDup (map fst am)
     /\ forall t x, In (t, x) am <-> x = label /\ exists s d, In s l /\ seek_finds year s d /\ t = d * NS_DAY)
  /\ (raise = true -> ~ (forall s, In s l -> exists d, seek_finds year s d) -> cb_nth_weekday year l label raise = Err EOutOfBounds).
Proof.
  intros L year l label raise Hv. split.
  - intros Hr. eexists. split; [apply cb_nth_ok; assumption|]. split; [apply (NoDup_update _ Z.eqb_eq); constructor|].
    intros t x. rewrite (const_update _ Z.eqb_eq), (found_In year l t Hv). tauto.
  - intros -> Hno. unfold cb_nth_weekday.
    assert (E : mapM (seek_date year true) l = Err EOutOfBounds); [|rewrite E; reflexivity].
    induction Hv as [|s l Hs Hv IH]; [exfalso; apply Hno; intros s []|]. cbn [mapM].
    destruct (seek_day_ok year s Hs) as [A B]. rewrite B. destruct (seek_day year s) as [d|] eqn:E; [|reflexivity]. cbn [bind].
    rewrite IH; [reflexivity|]. intros Hall. apply Hno. intros s' [<-|Hin]; [exists d; apply A; reflexivity|apply Hall, Hin].
Qed.

Lemma C38_invalid_pf : forall (L : Type) year l1 s l2 (label : L) raise, Forall seek_valid l1 -> ~ seek_valid s ->
  raise = false \/ (forall s', In s' l1 -> exists d, seek_finds year s' d) ->
  cb_nth_weekday year (l1 ++ s :: l2) label raise = Err EAssertion.
Proof.
  intros L year l1 s l2 label raise Hv Hs Hr. unfold cb_nth_weekday.
  assert (E : mapM (seek_date year raise) (l1 ++ s :: l2) = Err EAssertion); [|rewrite E; reflexivity].
  induction Hv as [|x l1 Hx Hv IH]; cbn [app mapM].
  - destruct s as [[[m w] n] shift]. unfold seek_valid in Hs. unfold seek_date.
    destruct ((1 <=? m) && (m <=? 12)) eqn:E1; [|reflexivity]. destruct ((1 <=? w) && (w <=? 7)) eqn:E2; [|reflexivity].
    destruct (((1 <=? n) && (n <=? 5)) || ((-5 <=? n) && (n <=? -1))) eqn:E3; [|reflexivity]. exfalso. apply Hs. lia.
  - destruct (seek_day_ok year x Hx) as [A B]. rewrite B. rewrite IH.
    + destruct (seek_day year x) as [d|] eqn:E; [reflexivity|]. destruct raise; [|reflexivity].
      destruct Hr as [Hr|Hr]; [discriminate|]. destruct (Hr x (or_introl eq_refl)) as [d Hd]. apply A in Hd. congruence.
    + destruct Hr as [Hr|Hr]; [left; exact Hr|right]. intros s' Hin. apply Hr. right. exact Hin.
Qed.
