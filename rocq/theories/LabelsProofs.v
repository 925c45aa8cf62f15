(** Proofs about work time from labels of any type (C62). *)
From Verif Require Import Base BaseProofs Civil Freq Frame Timeline Board Spec SpecRoll SpecQuery TimelineProofs BoardProofs QueryProofs Labels SpecLabels.
From Coq Require Import QArith String ZifyBool ZifyNat.
Open Scope Z_scope.

Definition addall (l : list pylabel) (a : res pylabel) : res pylabel :=
  fold_left (fun a y => do a <- a; py_add a y) (map fill l) a.

Lemma addall_err l e : addall l (Err e) = Err e.
Proof. unfold addall. induction l as [|x l IH]; [reflexivity|exact IH]. Qed.
Lemma addall_cons x l a : addall (x :: l) (Ok a) = addall l (py_add a (fill x)).
Proof. reflexivity. Qed.
Lemma series_cons x l : series_sum (x :: l) = addall l (Ok (fill x)).
Proof. reflexivity. Qed.

Lemma py_add_err x y e : py_add x y = Err e -> e = EType.
Proof. destruct x, y; cbn; congruence. Qed.
Lemma addall_errs l : forall a e, addall l (Ok a) = Err e -> e = EType.
Proof.
  induction l as [|x l IH]; intros a e; [discriminate|]. rewrite addall_cons.
  destruct (py_add a (fill x)) as [b|e'] eqn:E; [apply IH|]. rewrite addall_err. intros H. injection H as <-. exact (py_add_err _ _ _ E).
Qed.

Lemma adds_fill x q : adds x q -> exists q', number (fill x) q' /\ (q' == q)%Q.
Proof.
  intros [H|[H ->]]; [destruct H; eexists; (split; [constructor|reflexivity])|].
  exists (inject_Z 0). split; [destruct H as [->| ->]; constructor|reflexivity].
Qed.
Lemma add_numbers x y a b : number x a -> number y b -> exists r c, py_add x y = Ok r /\ number r c /\ (c == a + b)%Q.
Proof.
  intros Hx Hy. destruct Hx, Hy; do 2 eexists; (split; [reflexivity|split; [constructor|]]); rewrite ?inject_Z_plus; reflexivity.
Qed.
Lemma addall_numbers l : forall qs a qa, Forall2 adds l qs -> number a qa ->
  exists r q, addall l (Ok a) = Ok r /\ number r q /\ (q == qa + q_total qs)%Q.
Proof.
  induction l as [|x l IH]; intros qs a qa H Ha; inversion H as [|? q ? qs' Hx Hl]; subst.
  - exists a, qa. split; [reflexivity|]. split; [exact Ha|]. cbn. ring.
  - destruct (adds_fill x q Hx) as (q' & Hq' & Eq'). destruct (add_numbers a (fill x) qa q' Ha Hq') as (r & c & Er & Hc & Ec).
    rewrite addall_cons, Er. destruct (IH qs' r c Hl Hc) as (r2 & q2 & E2 & H2 & Eq2). exists r2, q2. split; [exact E2|]. split; [exact H2|].
    rewrite Eq2, Ec, Eq'. cbn [q_total fold_right]. unfold q_total. cbn [fold_right]. ring.
Qed.

Lemma moves_fill x n : moves x n <-> fill x = LInt n.
Proof.
  unfold moves, missing. split.
  - intros [->|[[->| ->] ->]]; reflexivity.
  - destruct x; cbn; intros H; try discriminate; injection H as <-; auto.
Qed.
Lemma addall_period l : forall ns o, Forall2 moves l ns -> addall l (Ok (LPer o)) = Ok (LPer (o + z_total ns)).
Proof.
  induction l as [|x l IH]; intros ns o H; inversion H as [|? n ? ns' Hx Hl]; subst.
  - cbn. do 2 f_equal. lia.
  - apply moves_fill in Hx. rewrite addall_cons, Hx. cbn [py_add]. rewrite (IH ns' _ Hl). do 2 f_equal. unfold z_total. cbn [fold_right]. lia.
Qed.
Lemma addall_one l o : one_period l o -> forall a, addall l (Ok (LInt a)) = Ok (LPer (o + a)).
Proof.
  intros H. induction H as [o l ns Hl|x n l o Hx Hl IH]; intros a; rewrite addall_cons.
  - cbn [fill py_add]. rewrite (addall_period l ns _ Hl). do 2 f_equal. lia.
  - apply moves_fill in Hx. rewrite Hx. cbn [py_add]. rewrite IH. do 2 f_equal. lia.
Qed.

Lemma addall_text l : forall s t, joined l t -> addall l (Ok (LText s)) = Ok (LText (s ++ t)).
Proof.
  induction l as [|x l IH]; intros s t H; inversion H as [|u l' t' Hl]; subst.
  - cbn. do 2 f_equal. induction s as [|c s IHs]; [reflexivity|cbn; congruence].
  - rewrite addall_cons. cbn [fill py_add]. rewrite (IH _ _ Hl). do 2 f_equal.
    clear. induction s as [|c s IHs]; [reflexivity|]. cbn. rewrite IHs. reflexivity.
Qed.

(** What results there can be. *)
Lemma addall_from_text l : forall s r, addall l (Ok (LText s)) = Ok r -> exists t, r = LText t.
Proof.
  induction l as [|x l IH]; intros s r; [intros H; injection H as <-; exists s; reflexivity|]. rewrite addall_cons.
  destruct x; cbn [fill py_add]; rewrite ?addall_err; try discriminate. apply IH.
Qed.
Lemma addall_from_period l : forall o r, addall l (Ok (LPer o)) = Ok r -> exists ns, Forall2 moves l ns.
Proof.
  induction l as [|x l IH]; intros o r; [intros _; exists []; constructor|]. rewrite addall_cons.
  destruct (fill x) as [n| | | | |] eqn:E; cbn [py_add]; rewrite ?addall_err; try discriminate;
    try (destruct x; discriminate).
  intros H. destruct (IH _ _ H) as [ns Hns]. exists (n :: ns). constructor; [apply moves_fill, E|exact Hns].
Qed.
Lemma fill_number x q : number (fill x) q -> exists q', adds x q'.
Proof. destruct x; cbn; intros H; inversion H; subst; eexists; try (left; constructor); right; (split; [unfold missing; auto|reflexivity]). Qed.
Lemma addall_from_float l : forall a r, addall l (Ok (LFloat a)) = Ok r -> exists qs, Forall2 adds l qs.
Proof.
  induction l as [|x l IH]; intros a r; [intros _; exists []; constructor|]. rewrite addall_cons.
  destruct (fill x) as [n|q| | | |] eqn:E; cbn [py_add]; rewrite ?addall_err; try discriminate;
    try (destruct x; discriminate); intros H; destruct (IH _ _ H) as [qs Hqs].
  - destruct (fill_number x (inject_Z n)) as [q' Hq']; [rewrite E; constructor|]. exists (q' :: qs). constructor; assumption.
  - destruct (fill_number x q) as [q' Hq']; [rewrite E; constructor|]. exists (q' :: qs). constructor; assumption.
Qed.
Lemma addall_from_int l : forall a r, addall l (Ok (LInt a)) = Ok r -> (exists qs, Forall2 adds l qs) \/ (exists o, one_period l o).
Proof.
  induction l as [|x l IH]; intros a r; [intros _; left; exists []; constructor|]. rewrite addall_cons.
  destruct (fill x) as [n|q| | | |o] eqn:E; cbn [py_add]; rewrite ?addall_err; try discriminate;
    try (destruct x; discriminate); intros H.
  - destruct (fill_number x (inject_Z n)) as [q' Hq']; [rewrite E; constructor|].
    destruct (IH _ _ H) as [[qs Hqs]|[o Ho]]; [left; exists (q' :: qs); constructor; assumption|].
    right. exists (o + n). apply op_later; [apply moves_fill, E|exact Ho].
  - destruct (fill_number x q) as [q' Hq']; [rewrite E; constructor|].
    destruct (addall_from_float l _ _ H) as [qs Hqs]. left. exists (q' :: qs). constructor; assumption.
  - destruct (addall_from_period l _ _ H) as [ns Hns]. right. destruct x; try discriminate. cbn in E. injection E as ->.
    exists (o + z_total ns). apply op_here, Hns.
Qed.

(** The sum with the check that 0 can be added to it. *)
Definition summed (l : list pylabel) : res pylabel := do r <- series_sum l; do _ <- py_add r (LInt 0); Ok r.
Lemma number_add0 r q : number r q -> exists x, py_add r (LInt 0) = Ok x.
Proof. intros H. destruct H; eexists; reflexivity. Qed.
Lemma summed_numbers l qs : Forall2 adds l qs -> exists r q, summed l = Ok r /\ number r q /\ (q == q_total qs)%Q.
Proof.
  intros H. inversion H as [|x q l' qs' Hx Hl]; subst.
  - exists (LInt 0), 0%Q. split; [reflexivity|]. split; [apply (nu_int 0)|reflexivity].
  - destruct (adds_fill x q Hx) as (q' & Hq' & Eq'). destruct (addall_numbers l' qs' _ _ Hl Hq') as (r & q2 & E & Hr & Er).
    destruct (number_add0 r q2 Hr) as [y Hy]. exists r, q2. unfold summed. rewrite series_cons, E. cbn [bind]. rewrite Hy. split; [reflexivity|].
    split; [exact Hr|]. rewrite Er, Eq'. reflexivity.
Qed.
Lemma summed_period l o : one_period l o -> summed l = Ok (LPer o).
Proof.
  intros H. unfold summed. assert (E : series_sum l = Ok (LPer o)).
  { destruct H as [o l ns Hl|x n l o Hx Hl]; rewrite series_cons; [exact (addall_period l ns o Hl)|].
    apply moves_fill in Hx. rewrite Hx. apply addall_one, Hl. }
  rewrite E. reflexivity.
Qed.
Lemma summed_else l r : summed l = Ok r -> (exists qs, Forall2 adds l qs) \/ (exists o, one_period l o).
Proof.
  unfold summed. destruct l as [|x l]; [intros _; left; exists []; constructor|]. rewrite series_cons.
  destruct (fill x) as [n|q|s| | |o] eqn:E; try (destruct x; discriminate).
  - destruct (addall l (Ok (LInt n))) as [y|e] eqn:Ea; [|discriminate]. intros _.
    destruct (fill_number x (inject_Z n)) as [q' Hq']; [rewrite E; constructor|].
    destruct (addall_from_int l _ _ Ea) as [[qs Hqs]|[o Ho]]; [left; exists (q' :: qs); constructor; assumption|].
    right. exists (o + n). apply op_later; [apply moves_fill, E|exact Ho].
  - destruct (addall l (Ok (LFloat q))) as [y|e] eqn:Ea; [|discriminate]. intros _.
    destruct (fill_number x q) as [q' Hq']; [rewrite E; constructor|].
    destruct (addall_from_float l _ _ Ea) as [qs Hqs]. left. exists (q' :: qs). constructor; assumption.
  - destruct (addall l (Ok (LText s))) as [y|e] eqn:Ea; [|discriminate]. destruct (addall_from_text l _ _ Ea) as [t ->]. discriminate.
  - destruct (addall l (Ok (LPer o))) as [y|e] eqn:Ea; [|discriminate]. intros _.
    destruct (addall_from_period l _ _ Ea) as [ns Hns]. right. destruct x; try discriminate. cbn in E. injection E as ->.
    exists (o + z_total ns). apply op_here, Hns.
Qed.
Lemma summed_err l e : summed l = Err e -> e = EType.
Proof.
  unfold summed. destruct l as [|x l]; [discriminate|]. rewrite series_cons.
  destruct (addall l (Ok (fill x))) as [y|e'] eqn:E; cbn [bind].
  - destruct (py_add y (LInt 0)) eqn:E2; [discriminate|]. intros H. injection H as <-. exact (py_add_err _ _ _ E2).
  - intros H. injection H as <-. exact (addall_errs _ _ _ E).
Qed.
Lemma sum_text l s t : joined l t -> series_sum (LText s :: l) = Ok (LText (s ++ t)).
Proof. intros H. rewrite series_cons. exact (addall_text l s t H). Qed.

(** ** Intervals *)
Lemma mapM_labels {L} (tb : timeboard L) s l ws : Forall2 (the_shift tb s) l ws -> mapM (tl_get (tb_tl tb)) l = Ok (map ws_label ws).
Proof. intros H. induction H as [|i w l ws (H1 & H2 & H3) H IH]; [reflexivity|]. cbn [mapM map]. rewrite H3. cbn [bind]. rewrite IH. reflexivity. Qed.

Lemma sums_by add (tb : timeboard pylabel) (iv : interval pylabel) d s :
  reachable tb -> iv_of tb iv -> d = DOn \/ d = DOff \/ d = DAny -> (forall s', s = Some s' -> sched_for tb s') ->
  exists ws, iv_workshifts tb iv d s = Ok ws
    /\ (iv_void iv = true -> ws = [])
    /\ (iv_void iv = false -> sum_labels_by add tb iv d s = series_sum_by add (map ws_label ws)).
Proof.
  intros Hre Hiv Hd Hs. apply reachable_wf in Hre. destruct Hre as (W & _ & _).
  pose proof (iv_sched_for tb iv s Hiv Hs) as Hsa.
  rewrite (iv_workshifts_ok tb W iv d s Hiv Hd Hsa).
  set (s' := sched_arg s (iv_sched iv)) in *.
  assert (Hsh : forall i, In i (iv_list tb iv d s') -> is_shift tb i) by (intros i; apply iv_list_shifts; assumption).
  destruct (mapM_shifts tb W s' (iv_list tb iv d s') Hsh) as (ws & -> & H). exists ws. split; [reflexivity|].
  split. { intros Ev. unfold iv_list in H. rewrite Ev in H. inversion H. reflexivity. }
  intros Ev. unfold sum_labels_by. cbv zeta.
  replace (opt_or s (iv_sched iv)) with s' by (unfold s'; destruct s; reflexivity).
  pose proof Hiv as (_ & Ha & Hb & Hab). rewrite Ev in Hab.
  destruct (get_duty_idx_ok tb W iv d s' Hsa Ha Hb Hab Hd) as (l & r & -> & H1 & H2 & H3 & H4). cbn [bind snd fst].
  assert (El : iv_list tb iv d s' = duty_list tb s' d (iv_a iv) (iv_b iv)) by (unfold iv_list; rewrite Ev; reflexivity).
  destruct (l <? r) eqn:E.
  - replace (r - 1 + 1) with r by lia. rewrite H4, <- El, (mapM_labels tb s' _ ws H). reflexivity.
  - assert (Hz : iv_list tb iv d s' = []).
    { rewrite El. apply zlen_zero. fold (duty_count tb s' d (iv_a iv) (iv_b iv)).
      pose proof (duty_count_nonneg tb s' d (iv_a iv) (iv_b iv)). lia. }
    rewrite Hz in H. inversion H; subst. reflexivity.
Qed.

Lemma sums_ok (tb : timeboard pylabel) (iv : interval pylabel) d s :
  reachable tb -> iv_of tb iv -> d = DOn \/ d = DOff \/ d = DAny -> (forall s', s = Some s' -> sched_for tb s') ->
  exists ws, iv_workshifts tb iv d s = Ok ws
    /\ (iv_void iv = true -> ws = [])
    /\ (iv_void iv = false -> sum_labels_any tb iv d s = series_sum (map ws_label ws)).
Proof. exact (sums_by py_add tb iv d s). Qed.

Lemma C62_interval_pf : forall (tb : timeboard pylabel) (iv : interval pylabel) d s,
  reachable tb -> iv_of tb iv -> d = DOn \/ d = DOff \/ d = DAny -> (forall s', s = Some s' -> sched_for tb s') ->
  tb_wt tb = WLabels ->
  exists ws, iv_workshifts tb iv d s = Ok ws
    /\ let labels := map ws_label ws in
       (forall qs, Forall2 adds labels qs ->
          exists r q, iv_worktime_any tb iv d s = Ok r /\ number r q /\ (q == q_total qs)%Q)
       /\ (forall o, one_period labels o -> iv_worktime_any tb iv d s = Ok (LPer o))
       /\ ((forall qs, ~ Forall2 adds labels qs) -> (forall o, ~ one_period labels o) -> iv_worktime_any tb iv d s = Err EType).
Proof.
  intros tb iv d s Hre Hiv Hd Hs Hwt. destruct (sums_ok tb iv d s Hre Hiv Hd Hs) as (ws & E & Hv & Hn).
  exists ws. split; [exact E|]. cbv zeta. unfold iv_worktime_any, iv_worktime_by. fold (sum_labels_any tb iv d s). rewrite Hwt. destruct (iv_void iv) eqn:Ev.
  - rewrite (Hv eq_refl). cbn [map]. split; [|split].
    + intros qs H. inversion H. exists (LFloat 0), 0%Q. split; [reflexivity|]. split; [constructor|reflexivity].
    + intros o H. inversion H.
    + intros H. exfalso. apply (H []). constructor.
  - rewrite (Hn eq_refl). fold (summed (map ws_label ws)). split; [|split].
    + intros qs H. exact (summed_numbers _ _ H).
    + intros o H. exact (summed_period _ _ H).
    + intros H1 H2. destruct (summed (map ws_label ws)) as [r|e] eqn:Es.
      * destruct (summed_else _ _ Es) as [[qs H]|[o H]]; [destruct (H1 _ H)|destruct (H2 _ H)].
      * rewrite (summed_err _ _ Es). reflexivity.
Qed.

Lemma C62_text_pf : forall (tb : timeboard pylabel) (iv : interval pylabel) d s,
  reachable tb -> iv_of tb iv -> iv_void iv = false -> d = DOn \/ d = DOff \/ d = DAny -> (forall s', s = Some s' -> sched_for tb s') ->
  exists ws, iv_workshifts tb iv d s = Ok ws
    /\ forall t, ws <> [] -> joined (map ws_label ws) t -> sum_labels_any tb iv d s = Ok (LText t).
Proof.
  intros tb iv d s Hre Hiv Hnv Hd Hs. destruct (sums_ok tb iv d s Hre Hiv Hd Hs) as (ws & E & _ & Hn).
  exists ws. split; [exact E|]. intros t Hne Hj. rewrite (Hn Hnv). destruct ws as [|w ws]; [contradiction|]. cbn [map] in *.
  inversion Hj as [|u l t' Hl Eu]; subst. exact (sum_text _ _ _ Hl).
Qed.

Lemma C62_workshift_pf : forall (tb : timeboard pylabel) (w : workshift pylabel) d s,
  reachable tb -> ws_of tb w -> d = DOn \/ d = DOff \/ d = DAny ->
  let s' := sched_arg s (ws_sched w) in
  (has_duty tb s' d (ws_loc w) = false -> ws_worktime_any tb w d s = Ok (LInt 0))
  /\ (has_duty tb s' d (ws_loc w) = true -> tb_wt tb = WDuration ->
      exists n, ws_duration (tb_tl tb) (ws_loc w) = Ok n /\ ws_worktime_any tb w d s = Ok (LInt n))
  /\ (has_duty tb s' d (ws_loc w) = true -> tb_wt tb = WLabels ->
      ((exists q, number (ws_label w) q) \/ ws_label w = LNan \/ (exists o, ws_label w = LPer o) -> ws_worktime_any tb w d s = Ok (ws_label w))
      /\ (ws_label w = LNone \/ (exists t, ws_label w = LText t) -> ws_worktime_any tb w d s = Err EType)).
Proof.
  intros tb w d s Hre Hw Hd s'. apply reachable_wf in Hre. destruct Hre as (W & _ & _).
  destruct Hw as (Hi & Hs & Hl). unfold ws_worktime_any. cbv zeta.
  replace (opt_or s (ws_sched w)) with s' by (unfold s'; destruct s; reflexivity).
  unfold is_on_duty. rewrite Hl. cbn [rmap bind].
  assert (Ho : on_duty tb s' (ws_loc w) = sc_sel s' (ws_label w)) by (unfold on_duty; rewrite Hl; reflexivity).
  rewrite (ws_duration_ok _ W _ Hi). cbn [rmap].
  assert (Hf : exists flag, (match d with DOn => Ok (sc_sel s' (ws_label w)) | DOff => Ok (negb (sc_sel s' (ws_label w))) | DAny => Ok true
              | _ => Err EValue end) = Ok flag /\ has_duty tb s' d (ws_loc w) = flag).
  { destruct Hd as [->|[->| ->]]; cbn [has_duty]; rewrite ?Ho; eexists; split; reflexivity. }
  destruct Hf as (flag & -> & ->). cbn [bind].
  split; [intros ->; reflexivity|]. split; [intros -> ->; eexists; split; reflexivity|].
  intros -> ->. split.
  - intros [[q Hq]|[->|[o ->]]]; [|reflexivity|reflexivity]. destruct Hq; reflexivity.
  - intros [->|[t ->]]; reflexivity.
Qed.

Lemma C62_duration_pf : forall (tb : timeboard pylabel) (iv : interval pylabel) d s,
  reachable tb -> iv_of tb iv -> d = DOn \/ d = DOff \/ d = DAny -> (forall s', s = Some s' -> sched_for tb s') ->
  tb_wt tb = WDuration ->
  exists n r q, total_duration tb iv d s = Ok n /\ iv_worktime_any tb iv d s = Ok r /\ number r q /\ (q == inject_Z n)%Q.
Proof.
  intros tb iv d s Hre Hiv Hd Hs Hwt. destruct (C31_duration_pf _ tb iv d s Hre Hiv Hd Hs) as (ws & ds & _ & _ & E).
  unfold iv_worktime_any, iv_worktime_by. rewrite Hwt, E. destruct (iv_void iv) eqn:Ev.
  - assert (En : z_total ds = 0) by (revert E; unfold total_duration; rewrite Ev; congruence).
    exists (z_total ds), (LFloat 0), 0%Q. split; [reflexivity|]. split; [reflexivity|]. split; [constructor|]. rewrite En. reflexivity.
  - exists (z_total ds), (LInt (z_total ds)), (inject_Z (z_total ds)). split; [reflexivity|]. split; [reflexivity|]. split; [constructor|reflexivity].
Qed.

(** Without missing labels and Periods an interval agrees with its workshifts. *)
Lemma C62_partial_pf : forall (tb : timeboard pylabel) (iv : interval pylabel) d s,
  reachable tb -> iv_of tb iv -> d = DOn \/ d = DOff \/ d = DAny -> (forall s', s = Some s' -> sched_for tb s') ->
  tb_wt tb = WLabels ->
  exists ws, iv_workshifts tb iv d s = Ok ws
    /\ ((forall w, In w ws -> ~ missing (ws_label w) /\ forall o, ws_label w <> LPer o) ->
        (forall qs, Forall2 (fun w q => exists x, ws_worktime_any tb w d s = Ok x /\ number x q) ws qs ->
           exists r q, iv_worktime_any tb iv d s = Ok r /\ number r q /\ (q == q_total qs)%Q)
        /\ ((exists w e, In w ws /\ ws_worktime_any tb w d s = Err e) -> iv_worktime_any tb iv d s = Err EType)
        /\ ((exists qs, Forall2 (fun w q => exists x, ws_worktime_any tb w d s = Ok x /\ number x q) ws qs)
            \/ (exists w, In w ws /\ ws_worktime_any tb w d s = Err EType))).
Proof.
  intros tb iv d s Hre Hiv Hd Hs Hwt. destruct (C62_interval_pf tb iv d s Hre Hiv Hd Hs Hwt) as (ws & E & Hnum & _ & Helse).
  exists ws. split; [exact E|]. intros Hok.
  assert (Hw : forall w, In w ws -> ws_of tb w /\ has_duty tb (sched_arg s (ws_sched w)) d (ws_loc w) = true).
  { pose proof Hre as Hre'. apply reachable_wf in Hre'. destruct Hre' as (W & _ & _).
    pose proof (iv_sched_for tb iv s Hiv Hs) as Hsa. rewrite (iv_workshifts_ok tb W iv d s Hiv Hd Hsa) in E.
    set (s' := sched_arg s (iv_sched iv)) in *.
    assert (Hsh : forall i, In i (iv_list tb iv d s') -> is_shift tb i) by (intros i; apply iv_list_shifts; assumption).
    destruct (mapM_shifts tb W s' (iv_list tb iv d s') Hsh) as (ws' & E' & H). rewrite E' in E. injection E as ->.
    assert (Hdu : forall i, In i (iv_list tb iv d s') -> has_duty tb s' d i = true).
    { intros i. unfold iv_list. destruct (iv_void iv); [contradiction|]. unfold duty_list. intros Hi. apply filter_In in Hi. apply Hi. }
    clear - H Hsh Hdu Hsa. induction H as [|i w l ws (H1 & H2 & H3) H IH]; [contradiction|]. intros v [<-|Hv].
    - split.
      + split; [rewrite H1; apply Hsh; left; reflexivity|]. split; [rewrite H2; exact Hsa|]. rewrite H1. exact H3.
      + rewrite H1, H2. replace (sched_arg s s') with s' by (unfold s'; destruct s; reflexivity). apply Hdu. left. reflexivity.
    - apply IH; [intros j Hj; apply Hsh; right; exact Hj|intros j Hj; apply Hdu; right; exact Hj|exact Hv]. }
  assert (Hws : forall w, In w ws ->
     (exists q, number (ws_label w) q /\ ws_worktime_any tb w d s = Ok (ws_label w))
     \/ ((exists t, ws_label w = LText t) /\ ws_worktime_any tb w d s = Err EType)).
  { intros w Hi. destruct (Hw w Hi) as [H1 H2]. destruct (Hok w Hi) as [H3 H4].
    destruct (C62_workshift_pf tb w d s Hre H1 Hd) as (_ & _ & H5). destruct (H5 H2 Hwt) as [H6 H7].
    destruct (ws_label w) as [z|q|t| | |o] eqn:El.
    - left. exists (inject_Z z). split; [constructor|]. apply H6. left. exists (inject_Z z). constructor.
    - left. exists q. split; [constructor|]. apply H6. left. exists q. constructor.
    - right. split; [exists t; reflexivity|]. apply H7. right. exists t. reflexivity.
    - exfalso. apply H3. left. reflexivity.
    - exfalso. apply H3. right. reflexivity.
    - exfalso. apply (H4 o). reflexivity. }
  split; [|split].
  - intros qs Hq. apply Hnum. clear Helse Hnum E Hok Hw. induction Hq as [|w q ws qs (x & Hx & Hq1) Hq IH]; cbn [map]; constructor.
    + left. destruct (Hws w (or_introl eq_refl)) as [(q' & Hn & Hx')|[_ Hx']]; rewrite Hx' in Hx; [|discriminate]. injection Hx as ->. exact Hq1.
    + apply IH. intros v Hv. apply Hws. right. exact Hv.
  - intros (w & e & Hi & He). destruct (Hws w Hi) as [(q & _ & Hx)|[(t & Ht) _]]; [congruence|].
    assert (Hin : In (LText t) (map ws_label ws)) by (rewrite <- Ht; apply in_map, Hi).
    apply Helse.
    + intros qs HF. clear - HF Hin. induction HF as [|x q l qs Hx HF IH]; [contradiction|]. destruct Hin as [->|Hin]; [|apply IH, Hin].
      destruct Hx as [Hx|[[Hx|Hx] _]]; [inversion Hx|discriminate|discriminate].
    + intros o Ho. clear - Ho Hin. induction Ho as [o l ns HF|x n l o Hx Ho IH].
      * destruct Hin as [Hin|Hin]; [discriminate|]. induction HF as [|x n l ns Hx HF IH]; [contradiction|]. destruct Hin as [->|Hin]; [|apply IH, Hin].
        destruct Hx as [Hx|[[Hx|Hx] _]]; discriminate.
      * destruct Hin as [->|Hin]; [|apply IH, Hin]. destruct Hx as [Hx|[[Hx|Hx] _]]; discriminate.
  - clear - Hws. induction ws as [|w ws IH]; [left; exists []; constructor|].
    destruct (Hws w (or_introl eq_refl)) as [(q & Hn & Hx)|[_ Hx]]; [|right; exists w; split; [left; reflexivity|exact Hx]].
    destruct IH as [[qs Hq]|(v & Hv & Hx')]; [intros v Hv; apply Hws; right; exact Hv| |].
    + left. exists (q :: qs). constructor; [exists (ws_label w); split; assumption|exact Hq].
    + right. exists v. split; [right; exact Hv|exact Hx'].
Qed.

(** ** Duty by the labels themselves *)
Lemma build_sel_of {L} (a : tb_args L) h tb h' : build a h = Ok (tb, h') -> sc_sel (tb_default tb) = a_sel a.
Proof.
  unfold build. destruct (top_organizer (a_layout a)) as [org|]; cbn [bind]; [|discriminate].
  destruct (a_wt a); try discriminate;
    (destruct (mk_frame (a_freq a) (a_start a) (a_end a)) as [f|]; cbn [bind]; [|discriminate];
     destruct (mk_timeline f org (a_ref_end a) (a_default a) h) as [[tl h1]|]; cbn [bind]; [|discriminate];
     cbn [fst snd]; destruct (amend tl false (a_amendments a)); cbn [bind]; [|discriminate];
     intros H; injection H as <- <-; reflexivity).
Qed.
Lemma C62_duty_pf : forall (a : tb_args pylabel) h tb h' i x, build a h = Ok (tb, h') -> a_sel a = truth ->
  tl_get (tb_tl tb) i = Ok x -> (on_duty tb (tb_default tb) i = false <-> falsy x).
Proof.
  intros a h tb h' i x Hb Hsel Hx. unfold on_duty. rewrite Hx, (build_sel_of a h tb h' Hb), Hsel. split.
  - destruct x as [z|q|t| | |o]; cbn [truth]; intros H; try discriminate H.
    + assert (z = 0) by lia. subst z. constructor.
    + constructor. unfold Qeq. cbn [Qnum Qden]. lia.
    + destruct (String.eqb_spec t ""); [subst t; constructor|discriminate H].
    + constructor.
  - intros [|q E| |]; try reflexivity. cbn [truth]. unfold Qeq in E. cbn [Qnum Qden] in E. lia.
Qed.
