(** Proofs of C73: steps from a workshift and workshifts of an interval. *)
From Verif Require Import Base BaseProofs Civil Freq Frame Timeline Board Spec SpecRoll SpecQuery BoardProofs TimelineProofs RollProofs QueryProofs.
From Coq Require Import ZifyBool ZifyNat Lia.
Open Scope Z_scope.

Section Lists.
  Context {L : Type} (tb : timeboard L) (s : schedule L) (d : duty).
  Lemma duty_one q : has_duty tb s d q = true -> duty_list tb s d q q = [q].
  Proof. intros H. unfold duty_list, positions. replace (Z.to_nat (q + 1 - q)) with 1%nat by lia. cbn [zrange filter]. rewrite H. reflexivity. Qed.
  Lemma list_nth a b q : a <= q <= b -> has_duty tb s d q = true -> znth (duty_list tb s d a b) (duty_count tb s d a (q - 1)) = Some q.
  Proof.
    intros Hq Hd. rewrite (duty_list_split tb s d a (q - 1) b) by lia. rewrite znth_app_r by (unfold duty_count; lia).
    replace (q - 1 + 1) with q by lia. rewrite (duty_list_split tb s d q q b), (duty_one q Hd) by lia. unfold duty_count. rewrite Z.sub_diag. reflexivity.
  Qed.
  Lemma list_nth_iff a b n q : znth (duty_list tb s d a b) n = Some q <-> a <= q <= b /\ has_duty tb s d q = true /\ duty_count tb s d a (q - 1) = n.
  Proof.
    split.
    - intros H. pose proof (znth_In _ _ _ H) as Hin. apply duty_list_In in Hin. destruct Hin as [Hq Hd]. split; [exact Hq|]. split; [exact Hd|].
      pose proof (list_nth a b q Hq Hd) as H'. exact (asc_znth_inj _ _ _ _ (duty_list_asc tb s d a b) H' H).
    - intros (Hq & Hd & <-). apply list_nth; assumption.
  Qed.
  Lemma list_nth_end a b n q : a <= b + 1 -> znth (duty_list tb s d a b) (duty_count tb s d a b - 1 - n) = Some q <-> a <= q <= b /\ has_duty tb s d q = true /\ duty_count tb s d (q + 1) b = n.
  Proof.
    intros Hab. rewrite list_nth_iff. split; intros (Hq & Hd & Hc); (split; [exact Hq|]; split; [exact Hd|]);
      pose proof (duty_count_split tb s d a (q - 1) b ltac:(lia) ltac:(lia)) as E1; pose proof (duty_count_split tb s d q q b ltac:(lia) ltac:(lia)) as E2;
      replace (q - 1 + 1) with q in E1 by lia; unfold duty_count at 2 in E2; rewrite (duty_one q Hd) in E2; change (zlen [q]) with 1 in E2; lia.
  Qed.
End Lists.

Lemma ivl_ok {d} : ivl_duty d -> d <> DBad.
Proof. intros [-> |[-> | ->]]; discriminate. Qed.

(** Rolls that cannot be told apart from where they land. *)
Lemma ws_eq {L} (tb : timeboard L) s q (w r : workshift L) : the_shift tb s q w -> the_shift tb s q r -> w = r.
Proof. destruct w as [a b c], r as [a' b' c']. unfold the_shift. cbn [ws_loc ws_sched ws_label]. intros (-> & -> & E1) (-> & -> & E2). rewrite E1 in E2. injection E2 as ->. reflexivity. Qed.

Lemma C73_nth_pf : forall (L : Type) (tb : timeboard L) (iv : interval L) (w : workshift L) n d s,
  reachable tb -> iv_of tb iv -> iv_void iv = false -> ws_of tb w -> ws_loc w = iv_a iv -> ws_sched w = iv_sched iv ->
  ivl_duty d -> (forall s', s = Some s' -> sched_for tb s') -> 0 <= n ->
  iv_nth tb iv n d s = (do r <- rollforward tb w n d s; if ws_loc r <=? iv_b iv then Ok r else Err EOutOfBounds).
Proof.
  intros L tb iv w n d s R Hiv Hv Hw Ew Es Hd Hs Hn.
  destruct (C17_rollforward_pf L tb w n d s R Hw (ivl_ok Hd) Hs) as [F1 F2]. rewrite (resolve_duty3 tb _ _ d Hd) in F1, F2. rewrite Es, Ew in F1, F2.
  pose proof (C25_queries_pf L tb iv d s R Hiv Hd Hs) as Q. cbv zeta in Q. destruct Q as (_ & _ & Q1 & Q2 & _).
  set (s' := sched_arg s (iv_sched iv)) in *. destruct Hiv as (_ & Ia & Ib & Hab). rewrite Hv in Hab.
  assert (Hat : forall q, at_index (iv_list tb iv d s') n q <-> iv_a iv <= q <= iv_b iv /\ has_duty tb s' d q = true /\ duty_count tb s' d (iv_a iv) (q - 1) = n).
  { intros q. rewrite at_index_znth. destruct (Z.leb_spec 0 n); [|lia]. unfold iv_list. rewrite Hv. apply list_nth_iff. }
  destruct (rollforward tb w n d s) as [r|e] eqn:E; cbn [bind].
  - destruct (F1 r eq_refl) as ((G1 & G2 & G3) & G4 & G5 & G6). destruct G3 as [(_ & Hle & Hc)|(Hneg & _)]; [|lia].
    destruct (Z.leb_spec (ws_loc r) (iv_b iv)) as [Hb|Hb].
    + destruct (Q1 n (ws_loc r)) as (w' & -> & Hw'); [apply Hat; repeat split; assumption|]. f_equal. apply (ws_eq tb s' (ws_loc r)); [exact Hw'|]. repeat split; assumption.
    + apply Q2. intros q Hq. apply Hat in Hq. destruct Hq as (Hr & Hdq & Hcq). assert (q = ws_loc r); [|lia]. apply G4. split; [unfold is_shift in *; lia|]. split; [exact Hdq|]. left. repeat split; lia.
  - destruct (F2 e eq_refl) as [-> G]. apply Q2. intros q Hq. apply Hat in Hq. destruct Hq as (Hr & Hdq & Hcq). apply (G q). split; [unfold is_shift in *; lia|]. split; [exact Hdq|]. left. repeat split; lia.
Qed.

Lemma C73_nth_last_pf : forall (L : Type) (tb : timeboard L) (iv : interval L) (w : workshift L) n d s,
  reachable tb -> iv_of tb iv -> iv_void iv = false -> ws_of tb w -> ws_loc w = iv_b iv -> ws_sched w = iv_sched iv ->
  ivl_duty d -> (forall s', s = Some s' -> sched_for tb s') -> 0 <= n ->
  iv_nth tb iv (- n - 1) d s = (do r <- rollback tb w n d s; if iv_a iv <=? ws_loc r then Ok r else Err EOutOfBounds).
Proof.
  intros L tb iv w n d s R Hiv Hv Hw Ew Es Hd Hs Hn.
  destruct (C18_rollback_pf L tb w n d s R Hw (ivl_ok Hd) Hs) as [F1 F2]. rewrite (resolve_duty3 tb _ _ d Hd) in F1, F2. rewrite Es, Ew in F1, F2.
  pose proof (C25_queries_pf L tb iv d s R Hiv Hd Hs) as Q. cbv zeta in Q. destruct Q as (_ & _ & Q1 & Q2 & _).
  set (s' := sched_arg s (iv_sched iv)) in *. destruct Hiv as (_ & Ia & Ib & Hab). rewrite Hv in Hab.
  assert (Hat : forall q, at_index (iv_list tb iv d s') (- n - 1) q <-> iv_a iv <= q <= iv_b iv /\ has_duty tb s' d q = true /\ duty_count tb s' d (q + 1) (iv_b iv) = n).
  { intros q. rewrite at_index_znth. destruct (Z.leb_spec 0 (- n - 1)); [lia|]. unfold iv_list. rewrite Hv. rewrite <- (list_nth_end tb s' d (iv_a iv) (iv_b iv) n q ltac:(lia)).
    unfold duty_count. replace (zlen (duty_list tb s' d (iv_a iv) (iv_b iv)) + (- n - 1)) with (zlen (duty_list tb s' d (iv_a iv) (iv_b iv)) - 1 - n) by lia. reflexivity. }
  destruct (rollback tb w n d s) as [r|e] eqn:E; cbn [bind].
  - destruct (F1 r eq_refl) as ((G1 & G2 & G3) & G4 & G5 & G6). destruct G3 as [(_ & Hle & Hc)|(Hneg & _)]; [|lia].
    destruct (Z.leb_spec (iv_a iv) (ws_loc r)) as [Hb|Hb].
    + destruct (Q1 (- n - 1) (ws_loc r)) as (w' & -> & Hw'); [apply Hat; repeat split; assumption|]. f_equal. apply (ws_eq tb s' (ws_loc r)); [exact Hw'|]. repeat split; assumption.
    + apply Q2. intros q Hq. apply Hat in Hq. destruct Hq as (Hr & Hdq & Hcq). assert (q = ws_loc r); [|lia]. apply G4. split; [unfold is_shift in *; lia|]. split; [exact Hdq|]. left. repeat split; lia.
  - destruct (F2 e eq_refl) as [-> G]. apply Q2. intros q Hq. apply Hat in Hq. destruct Hq as (Hr & Hdq & Hcq). apply (G q). split; [unfold is_shift in *; lia|]. split; [exact Hdq|]. left. repeat split; lia.
Qed.

Lemma C73_count_pf : forall (L : Type) (tb : timeboard L) (w r : workshift L) n d s,
  reachable tb -> ws_of tb w -> ivl_duty d -> (forall s', s = Some s' -> sched_for tb s') -> 0 <= n ->
  (rollforward tb w n d s = Ok r -> iv_of tb (mkIvl (ws_loc w) (ws_loc r) false (ws_sched w)) /\ iv_count (mkIvl (ws_loc w) (ws_loc r) false (ws_sched w)) d s = Ok (n + 1))
  /\ (rollback tb w n d s = Ok r -> iv_of tb (mkIvl (ws_loc r) (ws_loc w) false (ws_sched w)) /\ iv_count (mkIvl (ws_loc r) (ws_loc w) false (ws_sched w)) d s = Ok (n + 1)).
Proof.
  intros L tb w r n d s R Hw Hd Hs Hn. pose proof Hw as (Hw1 & Hw2 & _). split; intros H.
  - destruct (C17_rollforward_pf L tb w n d s R Hw (ivl_ok Hd) Hs) as [F1 _]. rewrite (resolve_duty3 tb _ _ d Hd) in F1.
    destruct (F1 r H) as ((G1 & G2 & G3) & _). destruct G3 as [(_ & Hle & Hc)|(Hneg & _)]; [|lia].
    assert (Hiv : iv_of tb (mkIvl (ws_loc w) (ws_loc r) false (ws_sched w))) by (repeat split; try assumption; apply Hw1 || apply G1).
    split; [exact Hiv|]. destruct (C25_queries_pf L tb _ d s R Hiv Hd Hs) as (_ & -> & _). unfold iv_list. cbn [iv_void iv_a iv_b iv_sched].
    f_equal. rewrite (duty_list_split tb _ d (ws_loc w) (ws_loc r - 1) (ws_loc r)) by lia. replace (ws_loc r - 1 + 1) with (ws_loc r) by lia.
    rewrite (duty_one tb _ d _ G2), app_length. unfold duty_count, zlen in Hc. cbn [length]. lia.
  - destruct (C18_rollback_pf L tb w n d s R Hw (ivl_ok Hd) Hs) as [F1 _]. rewrite (resolve_duty3 tb _ _ d Hd) in F1.
    destruct (F1 r H) as ((G1 & G2 & G3) & _). destruct G3 as [(_ & Hle & Hc)|(Hneg & _)]; [|lia].
    assert (Hiv : iv_of tb (mkIvl (ws_loc r) (ws_loc w) false (ws_sched w))) by (repeat split; try assumption; apply Hw1 || apply G1).
    split; [exact Hiv|]. destruct (C25_queries_pf L tb _ d s R Hiv Hd Hs) as (_ & -> & _). unfold iv_list. cbn [iv_void iv_a iv_b iv_sched].
    f_equal. rewrite (duty_list_split tb _ d (ws_loc r) (ws_loc r) (ws_loc w)) by lia.
    rewrite (duty_one tb _ d _ G2), app_length. unfold duty_count, zlen in Hc. cbn [length]. lia.
Qed.

Lemma C73_reach_pf : forall (L : Type) (tb : timeboard L) (w r : workshift L) k d s,
  reachable tb -> ws_of tb w -> ws_of tb r -> ws_loc w <= ws_loc r -> ws_sched r = ws_sched w ->
  ivl_duty d -> (forall s', s = Some s' -> sched_for tb s') ->
  iv_count (mkIvl (ws_loc w) (ws_loc r) false (ws_sched w)) d s = Ok k ->
  let s' := sched_arg s (ws_sched w) in
  (has_duty tb s' d (ws_loc r) = true -> rollforward tb w (k - 1) d s = Ok (mkWs (ws_loc r) (ws_label r) s'))
  /\ (has_duty tb s' d (ws_loc w) = true -> rollback tb r (k - 1) d s = Ok (mkWs (ws_loc w) (ws_label w) s')).
Proof.
  intros L tb w r k d s R Hw Hr Hle Es Hd Hs Hk s'. pose proof Hw as (Hw1 & Hw2 & Hw3). pose proof Hr as (Hr1 & Hr2 & Hr3).
  assert (Hiv : iv_of tb (mkIvl (ws_loc w) (ws_loc r) false (ws_sched w))) by (repeat split; try assumption; apply Hw1 || apply Hr1).
  destruct (C25_queries_pf L tb _ d s R Hiv Hd Hs) as (_ & Hc & _). unfold iv_list in Hc. cbn [iv_void iv_a iv_b iv_sched] in Hc. rewrite Hc in Hk. injection Hk as Hk. fold s' in Hk.
  pose proof (proj1 (reachable_wf tb R)) as W. split; intros Hq.
  - pose proof (rollforward_eq tb W w (k - 1) d s Hw1 (ivl_ok Hd)) as F. cbv zeta in F. destruct (F ltac:(apply sched_arg_for; assumption)) as [F1 _].
    rewrite (resolve_duty3 tb _ _ d Hd) in F1. apply F1; [|exact Hr3]. fold s'. split; [exact Hr1|]. split; [exact Hq|]. left.
    rewrite (duty_list_split tb _ d (ws_loc w) (ws_loc r - 1) (ws_loc r)) in Hk by lia. replace (ws_loc r - 1 + 1) with (ws_loc r) in Hk by lia.
    rewrite (duty_one tb _ d _ Hq), app_length in Hk. cbn [length] in Hk. unfold duty_count, zlen. lia.
  - pose proof (rollback_eq tb W r (k - 1) d s Hr1 (ivl_ok Hd)) as F. cbv zeta in F. destruct (F ltac:(apply sched_arg_for; assumption)) as [F1 _].
    rewrite (resolve_duty3 tb _ _ d Hd) in F1. rewrite Es in F1. fold s' in F1. apply F1; [|exact Hw3]. split; [exact Hw1|]. split; [exact Hq|]. left.
    rewrite (duty_list_split tb _ d (ws_loc w) (ws_loc w) (ws_loc r)) in Hk by lia.
    rewrite (duty_one tb _ d _ Hq), app_length in Hk. cbn [length] in Hk. unfold duty_count, zlen. lia.
Qed.
