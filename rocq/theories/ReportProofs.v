(** Proofs of C82. *)
From Verif Require Import Base BaseProofs Civil Freq FreqProofs Frame FrameProofs Timeline TimelineProofs Board Spec BoardProofs SpecLookup LookupProofs SpecRoll SpecQuery QueryProofs SpecInterval IntervalProofs SpecLayout SpecSides SidesProofs SpecReport.
From Coq Require Import ZifyBool ZifyNat QArith Permutation.
Open Scope Z_scope.

(** ** Sums over lists *)
Lemma z_total_app l l' : z_total (l ++ l') = z_total l + z_total l'.
Proof. induction l as [|x l IH]; [reflexivity|]. cbn [app z_total fold_right]. fold (z_total (l ++ l')) (z_total l). lia. Qed.
Lemma q_total_app l l' : (q_total (l ++ l') == q_total l + q_total l')%Q.
Proof. induction l as [|x l IH]; [symmetry; apply Qplus_0_l|]. cbn [app q_total fold_right]. fold (q_total (l ++ l')) (q_total l). rewrite IH. ring. Qed.
Lemma z_total_perm l l' : Permutation l l' -> z_total l = z_total l'.
Proof. induction 1 as [|x l l' _ IH|x y l|l1 l2 l3 _ IH1 _ IH2]; unfold z_total in *; cbn [fold_right]; lia. Qed.
Lemma q_total_perm l l' : Permutation l l' -> (q_total l == q_total l')%Q.
Proof. induction 1 as [|x l l' _ IH|x y l|l1 l2 l3 _ IH1 _ IH2]; unfold q_total in *; cbn [fold_right]; [reflexivity|rewrite IH; reflexivity|ring|rewrite IH1; exact IH2]. Qed.
Lemma z_total_concat (w : Z -> Z) ls : z_total (map w (concat ls)) = z_total (map (fun l => z_total (map w l)) ls).
Proof. induction ls as [|l ls IH]; [reflexivity|]. cbn [concat map]. rewrite map_app, z_total_app, IH. reflexivity. Qed.
Lemma q_total_concat (w : Z -> Q) ls : (q_total (map w (concat ls)) == q_total (map (fun l => q_total (map w l)) ls))%Q.
Proof. induction ls as [|l ls IH]; [reflexivity|]. cbn [concat map]. rewrite map_app, q_total_app, IH. reflexivity. Qed.
Lemma zrange_nodup n : forall a, NoDup (zrange a n).
Proof. induction n as [|n IH]; intros a; cbn [zrange]; constructor; [rewrite zrange_In; lia|apply IH]. Qed.
Lemma z_total_filter (p : Z -> bool) w l : z_total (map w (filter p l)) = z_total (map (fun i => if p i then w i else 0) l).
Proof. induction l as [|x l IH]; [reflexivity|]. cbn [filter map]. destruct (p x); cbn [map z_total fold_right]; fold (z_total (map w (filter p l))) (z_total (map (fun i => if p i then w i else 0) l)); lia. Qed.

(** ** What the queries add up *)
Definition members {L} (iv : interval L) : list Z := if iv_void iv then [] else positions (iv_a iv) (iv_b iv).
Lemma members_In {L} (iv : interval L) i : In i (members iv) <-> iv_mem iv i.
Proof.
  unfold members, iv_mem. destruct (iv_void iv).
  - split; [intros []|intros [F _]; discriminate F].
  - rewrite positions_In. split; [intros H; split; [reflexivity|exact H]|intros [_ H]; exact H].
Qed.
Lemma members_nodup {L} (iv : interval L) : NoDup (members iv).
Proof. unfold members, positions. destruct (iv_void iv); [constructor|apply zrange_nodup]. Qed.
Lemma iv_list_members {L} (tb : timeboard L) iv d s : iv_list tb iv d s = filter (has_duty tb s d) (members iv).
Proof. unfold iv_list, members, duty_list. destruct (iv_void iv); reflexivity. Qed.

Section Queries.
  Context {L : Type} (tb : timeboard L) (d : duty) (s : schedule L).
  Hypothesis Hr : reachable tb.
  Hypothesis Hd : d = DOn \/ d = DOff \/ d = DAny.
  Hypothesis Hs : sched_for tb s.
  Definition one_of (i : Z) : Z := if has_duty tb s d i then 1 else 0.
  Definition dur_of (i : Z) : Z := if has_duty tb s d i then match ws_duration (tb_tl tb) i with Ok n => n | Err _ => 0 end else 0.
  Definition work_of (i : Z) : Q :=
    match tl_get (tb_tl tb) i with
    | Ok x => match ws_worktime tb (mkWs i x s) d (Some s) with Ok q => q | Err _ => 0%Q end
    | Err _ => 0%Q
    end.
  Lemma some_for : forall s', Some s = Some s' -> sched_for tb s'.
  Proof. intros s' [= <-]. exact Hs. Qed.
  Lemma count_sum iv : iv_of tb iv -> iv_count iv d (Some s) = Ok (z_total (map one_of (members iv))).
  Proof.
    intros Hiv. destruct (C25_queries_pf L tb iv d (Some s) Hr Hiv Hd some_for) as (_ & E & _). cbn [sched_arg] in E. rewrite E. f_equal.
    rewrite iv_list_members. unfold one_of. rewrite <- (z_total_filter (has_duty tb s d) (fun _ => 1)).
    induction (filter _ _) as [|x l IH]; [reflexivity|]. cbn [length map z_total fold_right]. fold (z_total (map (fun _ : Z => 1) l)). lia.
  Qed.
  Lemma dur_sum iv : iv_of tb iv -> total_duration tb iv d (Some s) = Ok (z_total (map dur_of (members iv))).
  Proof.
    intros Hiv. destruct (C25_queries_pf L tb iv d (Some s) Hr Hiv Hd some_for) as ((ws & Ew & F) & _).
    destruct (C31_duration_pf L tb iv d (Some s) Hr Hiv Hd some_for) as (ws' & ds & Ew' & F' & ->). rewrite Ew in Ew'. injection Ew' as <-. cbn [sched_arg] in F. f_equal.
    rewrite iv_list_members in F. unfold dur_of. rewrite <- (z_total_filter (has_duty tb s d) (fun i => match ws_duration (tb_tl tb) i with Ok n => n | Err _ => 0 end)).
    f_equal. clear - F F'. revert ds F'. induction F as [|i w l ws (Hi & _) _ IH]; intros ds F'; inversion F' as [|? n ? ds' Hn F'']; subst; [reflexivity|].
    cbn [map]. rewrite Hn. f_equal. apply IH. exact F''.
  Qed.
  Lemma work_sum iv : numeric tb -> iv_of tb iv -> exists q, iv_worktime tb iv d (Some s) = Ok q /\ (q == q_total (map work_of (members iv)))%Q.
  Proof.
    intros Hn Hiv. destruct (C25_queries_pf L tb iv DAny (Some s) Hr Hiv (or_intror (or_intror eq_refl)) some_for) as ((ws & Ew & F) & _).
    destruct (C31_worktime_pf L tb iv d (Some s) Hr Hiv Hd some_for Hn) as (ws' & qs & q & Ew' & F' & Eq & Hq). rewrite Ew in Ew'. injection Ew' as <-. cbn [sched_arg] in F.
    exists q. split; [exact Eq|]. rewrite Hq. rewrite iv_list_members in F.
    assert (Ef : filter (has_duty tb s DAny) (members iv) = members iv).
    { assert (A : forall l, filter (has_duty tb s DAny) l = l) by (induction l as [|x l IH]; [reflexivity|cbn; rewrite IH; reflexivity]). apply A. }
    rewrite Ef in F. assert (E : qs = map work_of (members iv)); [|rewrite E; reflexivity].
    clear - F F'. revert qs F'. induction F as [|i w l ws (Hi & Hsc & Hl) _ IH]; intros qs F'; inversion F' as [|? n ? qs' Hn F'']; subst; [reflexivity|].
    cbn [map]. f_equal; [|apply IH; exact F'']. unfold work_of. rewrite Hl. destruct w as [i x s0]. cbn [ws_loc ws_label ws_sched] in *. subst s0. rewrite Hn. reflexivity.
  Qed.
End Queries.

(** ** The workshifts of successive periods *)
Section Periods.
  Context {L : Type} (tb : timeboard L).
  Hypothesis Hr : reachable tb.
  Let W : tl_wf (tb_tl tb) := proj1 (reachable_wf _ Hr).
  Definition of_period (p : period) : list Z :=
    match get_interval tb (RPeriod p) None None true C11 None with Ok iv => members iv | Err _ => [] end.
  Definition ord_of (b : base) (i : Z) : Z := pord b (ref_of (tb_tl tb) i).
  Lemma in_period_ord f o i : in_period tb (mkPeriod f o) i <-> is_shift tb i /\ o <= ord_of (fbase f) i < o + Zpos (fmult f).
  Proof.
    unfold in_period, ord_of, ref_at. split.
    - intros (Hi & r & E & H1 & H2). rewrite (ws_ref_ok _ W i Hi) in E. injection E as <-. split; [exact Hi|].
      unfold p_start, p_end in *. cbn [p_freq p_ord] in *. split; [apply pord_le_iff; exact H1|].
      destruct (Z.lt_ge_cases (pord (fbase f) (ref_of (tb_tl tb) i)) (o + Zpos (fmult f))) as [|F]; [assumption|]. apply pord_le_iff in F. lia.
    - intros (Hi & H1 & H2). split; [exact Hi|]. exists (ref_of (tb_tl tb) i). split; [apply (ws_ref_ok _ W i Hi)|].
      unfold p_start, p_end. cbn [p_freq p_ord]. split; [apply pord_le_iff; exact H1|].
      destruct (Z.lt_ge_cases (ref_of (tb_tl tb) i) (pstart (fbase f) (o + Zpos (fmult f)))) as [|F]; [lia|]. apply pord_le_iff in F. lia.
  Qed.
  (** Either there are workshifts, or one of two exceptions. *)
  Lemma period_get p : ((exists k, in_period tb p k) /\ exists iv, get_interval tb (RPeriod p) None None true C11 None = Ok iv /\ iv_of tb iv /\ forall i, iv_mem iv i <-> in_period tb p i)
    \/ ((exists e, get_interval tb (RPeriod p) None None true C11 None = Err e /\ (e = EVoidInterval \/ e = EOutOfBounds)) /\ forall i, ~ in_period tb p i).
  Proof.
    destruct (C22_period_pf L tb Hr (RPeriod p) None p None (mp_period p None)) as (H1 & H2). cbv zeta in *.
    assert (Q : (exists k, in_period tb p k) \/ (forall k, ~ in_period tb p k)).
    { destruct p as [f o]. destruct (List.existsb (fun i => (o <=? ord_of (fbase f) i) && (ord_of (fbase f) i <? o + Zpos (fmult f))) (zrange 0 (Z.to_nat (tb_len tb)))) eqn:B.
      - left. apply existsb_exists in B. destruct B as (k & Hk & Hb). apply zrange_In in Hk. exists k. apply in_period_ord. unfold is_shift. lia.
      - right. intros k Hk. apply in_period_ord in Hk. destruct Hk as (Hi & Hk). assert (N : false = true); [|discriminate N]. rewrite <- B. apply existsb_exists. exists k. split; [apply zrange_In; unfold is_shift in Hi; lia|lia]. }
    destruct Q as [Q|Q].
    - left. split; [exact Q|]. destruct (H1 Q) as (iv & E & V & Sc & M). exists iv. split; [exact E|]. split; [|exact M].
      destruct Q as (k & Hk). apply M in Hk. destruct Hk as (_ & Hk).
      assert (A : is_shift tb (iv_a iv)) by (apply (M (iv_a iv)); split; [exact V|lia]). assert (B : is_shift tb (iv_b iv)) by (apply (M (iv_b iv)); split; [exact V|lia]).
      unfold iv_of. rewrite Sc, V. split; [exact (proj1 (proj2 (reachable_wf _ Hr)))|]. split; [exact A|]. split; [exact B|lia].
    - right. split; [|exact Q]. destruct (H2 Q) as (A & B).
      destruct (Z.le_gt_cases (tb_start_time tb) (p_start p)) as [a|a]; [destruct (Z.le_gt_cases (p_end p) (tb_end_time tb)) as [b|b]|].
      + eexists. split; [apply A; split; assumption|left; reflexivity].
      + eexists. split; [apply B; unfold inside; lia|right; reflexivity].
      + eexists. split; [apply B; unfold inside; lia|right; reflexivity].
  Qed.
  Lemma of_period_In p i : In i (of_period p) <-> in_period tb p i.
  Proof.
    unfold of_period. destruct (period_get p) as [(_ & iv & -> & _ & M)|((e & -> & _) & N)].
    - rewrite members_In. apply M.
    - split; [intros []|intros H; exact (N i H)].
  Qed.
  Lemma of_period_nodup p : NoDup (of_period p).
  Proof. unfold of_period. destruct (get_interval tb (RPeriod p) None None true C11 None); [apply members_nodup|constructor]. Qed.
  Lemma periods_nodup f o n : forall j, NoDup (concat (map of_period (map (fun j => mkPeriod f (o + Zpos (fmult f) * j)) (zrange j n)))).
  Proof.
    induction n as [|n IH]; intros j; cbn [zrange map concat]; [constructor|].
    assert (A : forall (l l' : list Z), NoDup l -> NoDup l' -> (forall x, In x l -> In x l' -> False) -> NoDup (l ++ l')).
    { induction l as [|x l IHl]; intros l' H1 H2 H3; [exact H2|]. inversion H1; subst. cbn [app]. constructor.
      - rewrite in_app_iff. intros [F|F]; [contradiction|]. exact (H3 x (or_introl eq_refl) F).
      - apply IHl; [assumption|assumption|]. intros y Hy Hy'. exact (H3 y (or_intror Hy) Hy'). }
    apply A; [apply of_period_nodup|apply IH|]. intros i H1 H2. apply of_period_In, in_period_ord in H1. destruct H1 as (_ & H1).
    apply in_concat in H2. destruct H2 as (l & Hl & Hi). apply in_map_iff in Hl. destruct Hl as (p & <- & Hp). apply in_map_iff in Hp. destruct Hp as (k & <- & Hk).
    apply of_period_In, in_period_ord in Hi. destruct Hi as (_ & Hi). apply zrange_In in Hk. nia.
  Qed.
  Lemma periods_perm iv f o n : made_of tb iv (successive f o n) -> Permutation (members iv) (concat (map of_period (successive f o n))).
  Proof.
    intros H. apply NoDup_Permutation; [apply members_nodup|apply periods_nodup|]. intros i. rewrite members_In, (H i), in_concat. split.
    - intros (p & Hp & Hi). exists (of_period p). split; [apply in_map; exact Hp|apply of_period_In; exact Hi].
    - intros (l & Hl & Hi). apply in_map_iff in Hl. destruct Hl as (p & <- & Hp). exists p. split; [exact Hp|apply of_period_In; exact Hi].
  Qed.
End Periods.

Lemma Forall2_map {A B} (P : A -> B -> Prop) (g : A -> B) l : (forall x, P x (g x)) -> Forall2 P l (map g l).
Proof. intros H. induction l; constructor; auto. Qed.

Lemma C82_sums_pf : forall L (tb : timeboard L) iv f o n d s, reachable tb -> iv_of tb iv -> made_of tb iv (successive f o n) ->
  d = DOn \/ d = DOff \/ d = DAny -> sched_for tb s ->
  (exists xs, Forall2 (reported tb 0 (fun v => iv_count v d (Some s))) (successive f o n) xs /\ iv_count iv d (Some s) = Ok (z_total xs))
  /\ (exists xs, Forall2 (reported tb 0 (fun v => total_duration tb v d (Some s))) (successive f o n) xs /\ total_duration tb iv d (Some s) = Ok (z_total xs))
  /\ (numeric tb -> exists xs q, Forall2 (reported tb 0%Q (fun v => iv_worktime tb v d (Some s))) (successive f o n) xs
        /\ iv_worktime tb iv d (Some s) = Ok q /\ (q == q_total xs)%Q).
Proof.
  intros L tb iv f o n d s Hr Hiv Hm Hd Hs. pose proof (periods_perm tb Hr iv f o n Hm) as P.
  assert (R : forall (w : Z -> Z) (q : interval L -> res Z), (forall v, iv_of tb v -> q v = Ok (z_total (map w (members v)))) ->
    forall p, reported tb 0 q p (z_total (map w (of_period tb p)))).
  { intros w q Hq p. unfold reported, of_period. destruct (period_get tb Hr p) as [(_ & v & -> & Hv & _)|((e & -> & He) & _)]; [apply Hq; exact Hv|split; [exact He|reflexivity]]. }
  split; [|split].
  - exists (map (fun p => z_total (map (one_of tb d s) (of_period tb p))) (successive f o n)). split.
    + apply Forall2_map. apply R. intros v Hv. apply count_sum; assumption.
    + rewrite (count_sum tb d s Hr Hd Hs iv Hiv). f_equal. rewrite (z_total_perm _ _ (Permutation_map _ P)), z_total_concat, map_map. reflexivity.
  - exists (map (fun p => z_total (map (dur_of tb d s) (of_period tb p))) (successive f o n)). split.
    + apply Forall2_map. apply R. intros v Hv. apply dur_sum; assumption.
    + rewrite (dur_sum tb d s Hr Hd Hs iv Hiv). f_equal. rewrite (z_total_perm _ _ (Permutation_map _ P)), z_total_concat, map_map. reflexivity.
  - intros Hn. destruct (work_sum tb d s Hr Hd Hs iv Hn Hiv) as (q & Eq & Hq).
    exists (map (fun p => match get_interval tb (RPeriod p) None None true C11 None with Ok v => match iv_worktime tb v d (Some s) with Ok x => x | Err _ => 0%Q end | Err _ => 0%Q end) (successive f o n)), q.
    split; [|split; [exact Eq|]].
    + apply Forall2_map. intros p. unfold reported. destruct (period_get tb Hr p) as [(_ & v & -> & Hv & _)|((e & -> & He) & _)]; [|split; [exact He|reflexivity]].
      destruct (work_sum tb d s Hr Hd Hs v Hn Hv) as (x & -> & _). reflexivity.
    + rewrite Hq, (q_total_perm _ _ (Permutation_map _ P)), q_total_concat, map_map. clear - Hr Hd Hs Hn. induction (successive f o n) as [|p l IH]; [reflexivity|].
      cbn [map q_total fold_right]. apply Qplus_comp; [|exact IH]. unfold of_period. destruct (period_get tb Hr p) as [(_ & v & -> & Hv & _)|((e & -> & He) & _)]; [|reflexivity].
      destruct (work_sum tb d s Hr Hd Hs v Hn Hv) as (x & -> & E). rewrite E. reflexivity.
Qed.

(** A longer period that begins and ends with shorter ones. *)
Lemma C82_longer_pf : forall L (tb : timeboard L) iv f o n p s, reachable tb ->
  p_start p = pstart (fbase f) o -> p_end p + 1 = pstart (fbase f) (o + Zpos (fmult f) * Z.of_nat n) ->
  get_interval tb (RPeriod p) None None true C11 s = Ok iv -> made_of tb iv (successive f o n).
Proof.
  intros L tb iv f o n p s Hr E1 E2 G i.
  assert (M : forall i, iv_mem iv i <-> in_period tb p i).
  { destruct (C22_period_pf L tb Hr (RPeriod p) None p s (mp_period p None)) as (H1 & H2). cbv zeta in *. rewrite G in *.
    destruct (period_get tb Hr p) as [(X & _)|((e & _ & _) & N)].
    - destruct (H1 X) as (v' & E & _ & _ & M'). injection E as <-. exact M'.
    - exfalso. destruct (H2 N) as (A & B).
      destruct (Z.le_gt_cases (tb_start_time tb) (p_start p)) as [a|a]; [destruct (Z.le_gt_cases (p_end p) (tb_end_time tb)) as [b|b]|].
      + discriminate (A (conj a b)).
      + assert (F : ~ inside tb p) by (unfold inside; lia). discriminate (B F).
      + assert (F : ~ inside tb p) by (unfold inside; lia). discriminate (B F). }
  rewrite M. pose proof (proj1 (reachable_wf _ Hr)) as W. split.
  - intros (Hi & r & E & H1 & H2). unfold ref_at in E. rewrite (ws_ref_ok _ W i Hi) in E. injection E as <-.
    assert (O1 : o <= ord_of tb (fbase f) i) by (apply pord_le_iff; lia).
    assert (O2 : ord_of tb (fbase f) i < o + Zpos (fmult f) * Z.of_nat n).
    { destruct (Z.lt_ge_cases (ord_of tb (fbase f) i) (o + Zpos (fmult f) * Z.of_nat n)) as [|F]; [assumption|]. apply pord_le_iff in F. lia. }
    exists (mkPeriod f (o + Zpos (fmult f) * ((ord_of tb (fbase f) i - o) / Zpos (fmult f)))).
    pose proof (Z.div_mod (ord_of tb (fbase f) i - o) (Zpos (fmult f)) ltac:(lia)) as D. pose proof (Z.mod_pos_bound (ord_of tb (fbase f) i - o) (Zpos (fmult f)) ltac:(lia)) as B.
    set (j := (ord_of tb (fbase f) i - o) / Zpos (fmult f)) in *. split.
    + unfold successive. apply (in_map (fun j => mkPeriod f (o + Zpos (fmult f) * j))). apply zrange_In. nia.
    + apply in_period_ord; [exact Hr|]. split; [exact Hi|]. nia.
  - intros (p' & Hp & H). apply in_map_iff in Hp. destruct Hp as (j & <- & Hj). apply zrange_In in Hj. apply in_period_ord in H; [|exact Hr]. destruct H as (Hi & H1 & H2).
    split; [exact Hi|]. exists (ref_of (tb_tl tb) i). split; [apply (ws_ref_ok _ W i Hi)|].
    assert (O1 : o <= ord_of tb (fbase f) i) by nia. assert (O2 : ord_of tb (fbase f) i < o + Zpos (fmult f) * Z.of_nat n) by nia.
    unfold ord_of in *. apply pord_le_iff in O1. split; [lia|].
    destruct (Z.lt_ge_cases (ref_of (tb_tl tb) i) (pstart (fbase f) (o + Zpos (fmult f) * Z.of_nat n))) as [|F]; [lia|]. apply pord_le_iff in F. lia.
Qed.
Lemma C82_nested_pf : forall f p, fmult f = 1%positive -> begins_with (fbase f) (fbase (p_freq p)) ->
  exists o n, p_start p = pstart (fbase f) o /\ p_end p + 1 = pstart (fbase f) (o + Zpos (fmult f) * Z.of_nat n).
Proof.
  intros f [g o'] Hf Hb. cbn [p_freq] in Hb. destruct (Hb o') as (k & Ek). destruct (Hb (o' + Zpos (fmult g))) as (k2 & Ek2).
  assert (Hk : k < k2). { destruct (Z.lt_ge_cases k k2) as [|F]; [assumption|]. apply (pstart_le_iff (fbase f)) in F. assert (A : o' + 1 <= o' + Zpos (fmult g)) by lia. apply (pstart_le_iff (fbase g)) in A. pose proof (pstart_step (fbase g) o'). lia. }
  exists k, (Z.to_nat (k2 - k)). unfold p_start, p_end. cbn [p_freq p_ord]. split; [symmetry; exact Ek|]. rewrite Hf. replace (k + 1 * Z.of_nat (Z.to_nat (k2 - k))) with k2 by lia. rewrite Ek2. lia.
Qed.
(** The whole timeboard. *)
Lemma C82_whole_pf : forall L (tb : timeboard L) f o n s, reachable tb ->
  pstart (fbase f) o <= tb_start_time tb -> tb_end_time tb < pstart (fbase f) (o + Zpos (fmult f) * Z.of_nat n) ->
  exists iv, get_interval tb RNone None None true C11 s = Ok iv /\ made_of tb iv (successive f o n).
Proof.
  intros L tb f o n s Hr H1 H2. rewrite (C20_whole_pf L tb Hr true s). eexists. split; [reflexivity|]. pose proof (proj1 (reachable_wf _ Hr)) as W. intros i. rewrite mem_mk. split.
  - intros Hi. assert (Hi' : is_shift tb i) by (unfold is_shift; lia). pose proof (ref_start_end tb W i Hi') as R.
    assert (O1 : o <= ord_of tb (fbase f) i) by (apply pord_le_iff; lia).
    assert (O2 : ord_of tb (fbase f) i < o + Zpos (fmult f) * Z.of_nat n).
    { destruct (Z.lt_ge_cases (ord_of tb (fbase f) i) (o + Zpos (fmult f) * Z.of_nat n)) as [|F]; [assumption|]. apply pord_le_iff in F. lia. }
    exists (mkPeriod f (o + Zpos (fmult f) * ((ord_of tb (fbase f) i - o) / Zpos (fmult f)))).
    pose proof (Z.div_mod (ord_of tb (fbase f) i - o) (Zpos (fmult f)) ltac:(lia)) as D. pose proof (Z.mod_pos_bound (ord_of tb (fbase f) i - o) (Zpos (fmult f)) ltac:(lia)) as B.
    set (j := (ord_of tb (fbase f) i - o) / Zpos (fmult f)) in *. split.
    + unfold successive. apply (in_map (fun j => mkPeriod f (o + Zpos (fmult f) * j))). apply zrange_In. nia.
    + apply in_period_ord; [exact Hr|]. split; [exact Hi'|]. nia.
  - intros (p & _ & (Hi & _)). unfold is_shift in Hi. lia.
Qed.
