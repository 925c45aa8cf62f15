(** Proofs of C69: what timeboards that have workshifts in common say of these. *)
From Verif Require Import Base BaseProofs Civil CivilProofs Freq FreqProofs Frame FrameProofs When Timeline Board Spec SpecRoll SpecLookup SpecQuery SpecInterval SpecMisc SpecLayout SpecCivil SpecWhen SpecMisc SpecSame SpecShare BoardProofs TimelineProofs LookupProofs RollProofs QueryProofs IntervalProofs CountProofs LayoutProofs MiscProofs TreeProofs SameProofs.
From Coq Require Import QArith ZifyBool ZifyNat Sorted.
Open Scope Z_scope.

Section Share.
  Context {L : Type} (tb1 tb2 : timeboard L) (a b c : Z).
  Hypothesis R1 : reachable tb1.
  Hypothesis R2 : reachable tb2.
  Hypothesis Hab : share tb1 tb2 a b c.

  Lemma share_holds i t : a <= i <= b -> (holds_time tb1 i t <-> holds_time tb2 (i + c) t).
  Proof.
    intros Hi. destruct (Hab i Hi) as (H1 & H2 & Es & Ee & _). unfold holds_time, starts_at, ends_at. rewrite <- Es, <- Ee. intuition.
  Qed.
  Lemma share_duty s1 s2 d i : same_rule s1 s2 -> a <= i <= b -> has_duty tb2 s2 d (i + c) = has_duty tb1 s1 d i.
  Proof.
    intros Hr Hi. destruct (Hab i Hi) as (_ & _ & _ & _ & _ & El).
    assert (E : on_duty tb2 s2 (i + c) = on_duty tb1 s1 i) by (unfold on_duty; rewrite <- El; destruct (tl_get (tb_tl tb1) i); [symmetry; apply Hr|reflexivity]).
    unfold has_duty. rewrite E. reflexivity.
  Qed.
  Lemma positions_moved x y : positions (x + c) (y + c) = map (fun i => i + c) (positions x y).
  Proof.
    unfold positions. replace (y + c + 1 - (x + c)) with (y + 1 - x) by lia. generalize (Z.to_nat (y + 1 - x)). intros n. revert x.
    induction n as [|n IH]; intros x; [reflexivity|]. cbn [zrange map]. f_equal. replace (x + c + 1) with (x + 1 + c) by lia. apply IH.
  Qed.
  Lemma filter_moved (P1 P2 : Z -> bool) l : (forall i, In i l -> P2 (i + c) = P1 i) -> filter P2 (map (fun i => i + c) l) = map (fun i => i + c) (filter P1 l).
  Proof.
    induction l as [|x l IH]; intros H; [reflexivity|]. cbn [map filter]. rewrite (H x (or_introl eq_refl)).
    rewrite IH by (intros i Hi; apply H; right; exact Hi). destruct (P1 x); reflexivity.
  Qed.
  Lemma share_list s1 s2 d x y : same_rule s1 s2 -> a <= x -> y <= b -> duty_list tb2 s2 d (x + c) (y + c) = map (fun i => i + c) (duty_list tb1 s1 d x y).
  Proof.
    intros Hr Hx Hy. unfold duty_list. rewrite positions_moved. apply filter_moved. intros i Hi. apply positions_In in Hi. apply share_duty; [exact Hr|lia].
  Qed.
  Lemma share_iv_list s1 s2 d x1 x2 : same_rule s1 s2 -> iv_among a b x1 -> moved_ivl c x1 x2 ->
    iv_list tb2 x2 d s2 = map (fun i => i + c) (iv_list tb1 x1 d s1).
  Proof.
    intros Hr Ha (Ev & Ea & Eb). unfold iv_list. rewrite Ev, Ea, Eb. destruct (iv_void x1); [reflexivity|]. unfold iv_among in Ha. apply share_list; [exact Hr|lia|lia].
  Qed.
  Lemma share_the_shift s1 s2 i w1 w2 : a <= i <= b -> the_shift tb1 s1 i w1 -> the_shift tb2 s2 (i + c) w2 -> moved c w1 w2.
  Proof.
    intros Hi (E1 & _ & G1) (E2 & _ & G2). destruct (Hab i Hi) as (_ & _ & _ & _ & _ & El). split; [lia|]. rewrite <- El, G1 in G2. injection G2 as ->. reflexivity.
  Qed.
End Share.

(** ** Look-up and intervals by times *)
Lemma C69_workshift_pf : forall (L : Type) (tb1 tb2 : timeboard L) a b c i t s1 s2,
  reachable tb1 -> reachable tb2 -> share tb1 tb2 a b c -> a <= i <= b -> holds_time tb1 i t ->
  exists w1 w2, get_workshift tb1 t s1 = Ok w1 /\ get_workshift tb2 t s2 = Ok w2 /\ moved c w1 w2 /\ ws_loc w1 = i.
Proof.
  intros L tb1 tb2 a b c i t s1 s2 R1 R2 Hab Hi Ht.
  destruct (C02_lookup_pf L tb1 R1 t s1) as (A1 & B1 & _ & D1). destruct (C02_lookup_pf L tb2 R2 t s2) as (A2 & B2 & _ & D2).
  pose proof (proj1 (share_holds tb1 tb2 a b c Hab i t Hi) Ht) as Ht2.
  destruct (A1 (D1 _ Ht)) as (w1 & E1). destruct (A2 (D2 _ Ht2)) as (w2 & E2).
  destruct (B1 w1 E1) as (_ & U1 & G1 & _). destruct (B2 w2 E2) as (_ & U2 & G2 & _).
  pose proof (U1 i Ht) as P1. pose proof (U2 _ Ht2) as P2. exists w1, w2. split; [exact E1|]. split; [exact E2|]. split; [|lia].
  split; [lia|]. destruct (Hab i Hi) as (_ & _ & _ & _ & _ & El). rewrite <- P1 in G1. rewrite <- P2, <- El, G1 in G2. congruence.
Qed.
Lemma C69_pair_pf : forall (L : Type) (tb1 tb2 : timeboard L) a b c i j t1 t2 clip s1 s2,
  reachable tb1 -> reachable tb2 -> share tb1 tb2 a b c -> a <= i <= b -> a <= j <= b -> holds_time tb1 i t1 -> holds_time tb1 j t2 ->
  alike (fun x1 x2 => moved_ivl c x1 x2 /\ iv_among a b x1 /\ iv_a x1 = i /\ iv_b x1 = j)
    (get_interval tb1 (RPair (Some t1) (Some t2)) None None clip C11 s1) (get_interval tb2 (RPair (Some t1) (Some t2)) None None clip C11 s2).
Proof.
  intros L tb1 tb2 a b c i j t1 t2 clip s1 s2 R1 R2 Hab Hi Hj Ht1 Ht2.
  destruct (C20_pair_pf L tb1 R1 (Some t1) (Some t2) clip s1) as [H1 _]. destruct (C20_pair_pf L tb2 R2 (Some t1) (Some t2) clip s2) as [H2 _].
  destruct (H1 i j Ht1 Ht2) as [A1 B1].
  destruct (H2 (i + c) (j + c) (proj1 (share_holds tb1 tb2 a b c Hab i t1 Hi) Ht1) (proj1 (share_holds tb1 tb2 a b c Hab j t2 Hj) Ht2)) as [A2 B2].
  destruct (Z.le_gt_cases i j) as [Hij|Hij].
  - left. eexists _, _. split; [apply A1, Hij|]. split; [apply A2; lia|]. unfold moved_ivl, iv_among. cbn. repeat split; lia.
  - right. exists EVoidInterval. split; [apply B1; lia|apply B2; lia].
Qed.

(** ** Queries of intervals *)
Lemma moved_of {L} (tb1 tb2 : timeboard L) a b c x1 x2 : share tb1 tb2 a b c -> iv_among a b x1 -> moved_ivl c x1 x2 -> sched_for tb2 (iv_sched x2) ->
  iv_of tb1 x1 -> iv_of tb2 x2.
Proof.
  intros Hab Ha (Ev & Ea & Eb) Hs (_ & _ & _ & Hv). split; [exact Hs|]. rewrite Ev, Ea, Eb. unfold iv_among in Ha.
  split; [apply (Hab (iv_a x1) ltac:(lia))|]. split; [apply (Hab (iv_b x1) ltac:(lia))|]. destruct (iv_void x1); lia.
Qed.
Lemma Forall2_moved {A} (P : Z -> A -> Prop) c l ws : Forall2 P (map (fun i => i + c) l) ws <-> Forall2 (fun i => P (i + c)) l ws.
Proof.
  revert ws. induction l as [|x l IH]; intros ws; split; intros H; inversion H; subst; constructor; try assumption; apply IH; assumption.
Qed.
Lemma at_index_moved c l n j : at_index (map (fun i => i + c) l) n j <-> exists i, at_index l n i /\ j = i + c.
Proof.
  unfold at_index. rewrite map_length. split.
  - intros [(H1 & H2)|(H1 & H0 & H2)]; rewrite nth_error_map in H2; destruct (nth_error l _) as [i|] eqn:E; cbn in H2; try discriminate; injection H2 as <-;
      exists i; (split; [|reflexivity]); [left|right]; auto.
  - intros (i & [(H1 & H2)|(H1 & H0 & H2)] & ->); [left|right]; rewrite nth_error_map, H2; auto.
Qed.
Lemma at_index_dec {A} (l : list A) n : {i | at_index l n i} + {forall i, ~ at_index l n i}.
Proof.
  unfold at_index. destruct (0 <=? n) eqn:E.
  - destruct (nth_error l (Z.to_nat n)) as [i|] eqn:E1; [left; exists i; left; split; [lia|reflexivity]|right; intros i [(_ & H)|(H & _)]; [congruence|lia]].
  - destruct (0 <=? Z.of_nat (length l) + n) eqn:E2; [|right; intros i [(H & _)|(_ & H & _)]; lia].
    destruct (nth_error l (Z.to_nat (Z.of_nat (length l) + n))) as [i|] eqn:E1; [left; exists i; right; repeat split; lia || reflexivity|right; intros i [(H & _)|(_ & _ & H)]; [lia|congruence]].
Qed.
Lemma C69_queries_pf : forall (L : Type) (tb1 tb2 : timeboard L) a b c x1 x2 d s1 s2,
  reachable tb1 -> reachable tb2 -> share tb1 tb2 a b c -> iv_of tb1 x1 -> sched_for tb2 (iv_sched x2) -> iv_among a b x1 -> moved_ivl c x1 x2 ->
  d = DOn \/ d = DOff \/ d = DAny -> (forall s, s1 = Some s -> sched_for tb1 s) -> (forall s, s2 = Some s -> sched_for tb2 s) ->
  same_rule (sched_arg s1 (iv_sched x1)) (sched_arg s2 (iv_sched x2)) ->
  iv_count x1 d s1 = iv_count x2 d s2
  /\ alike (Forall2 (moved c)) (iv_workshifts tb1 x1 d s1) (iv_workshifts tb2 x2 d s2)
  /\ (forall n, alike (moved c) (iv_nth tb1 x1 n d s1) (iv_nth tb2 x2 n d s2))
  /\ (same_lengths tb1 tb2 a b c -> total_duration tb1 x1 d s1 = total_duration tb2 x2 d s2).
Proof.
  intros L tb1 tb2 a b c x1 x2 d s1 s2 R1 R2 Hab I1 Hsf Ha Hm Hd Hs1 Hs2 Hr.
  pose proof (moved_of tb1 tb2 a b c x1 x2 Hab Ha Hm Hsf I1) as I2.
  destruct (C25_queries_pf L tb1 x1 d s1 R1 I1 Hd Hs1) as ((ws1 & W1 & F1) & N1 & X1 & Y1 & _).
  destruct (C25_queries_pf L tb2 x2 d s2 R2 I2 Hd Hs2) as ((ws2 & W2 & F2) & N2 & X2 & Y2 & _).
  pose proof (share_iv_list tb1 tb2 a b c Hab _ _ d x1 x2 Hr Ha Hm) as El.
  set (l1 := iv_list tb1 x1 d (sched_arg s1 (iv_sched x1))) in *. rewrite El in *.
  assert (Hin : forall i, In i l1 -> a <= i <= b).
  { intros i Hi. apply iv_list_mem in Hi. destruct Hi as [(_ & Hi) _]. unfold iv_among in Ha. lia. }
  split; [rewrite N1, N2, map_length; reflexivity|]. split; [|split].
  - left. exists ws1, ws2. split; [exact W1|]. split; [exact W2|]. apply (proj1 (Forall2_moved _ c l1 ws2)) in F2.
    clear - F1 F2 Hin Hab. revert ws2 F2. induction F1 as [|i w l ws Hw HF IH]; intros ws2 F2; inversion F2; subst; constructor.
    + eapply (share_the_shift tb1 tb2 a b c Hab); [apply Hin; left; reflexivity|eassumption|eassumption].
    + apply IH; [intros j Hj; apply Hin; right; exact Hj|assumption].
  - intros n. destruct (at_index_dec l1 n) as [[i Hi]|Hn].
    + left. destruct (X1 n i Hi) as (w1 & E1 & S1). destruct (X2 n (i + c) (proj2 (at_index_moved c l1 n _) (ex_intro _ i (conj Hi eq_refl)))) as (w2 & E2 & S2).
      exists w1, w2. split; [exact E1|]. split; [exact E2|]. eapply (share_the_shift tb1 tb2 a b c Hab); [|eassumption|eassumption].
      apply Hin. destruct Hi as [(_ & Hi)|(_ & _ & Hi)]; exact (nth_error_In _ _ Hi).
    + right. exists EOutOfBounds. split; [apply Y1, Hn|]. apply Y2. intros j Hj. apply at_index_moved in Hj. destruct Hj as (i & Hi & _). exact (Hn i Hi).
  - intros Hlen. destruct (C31_duration_pf L tb1 x1 d s1 R1 I1 Hd Hs1) as (v1 & d1 & V1 & D1 & T1). destruct (C31_duration_pf L tb2 x2 d s2 R2 I2 Hd Hs2) as (v2 & d2 & V2 & D2 & T2).
    rewrite T1, T2. do 2 f_equal. rewrite W1 in V1. injection V1 as <-. rewrite W2 in V2. injection V2 as <-. apply (proj1 (Forall2_moved _ c l1 ws2)) in F2.
    clear - F1 F2 D1 D2 Hin Hab Hlen. revert ws2 d1 d2 F2 D1 D2. induction F1 as [|i w l ws Hw HF IH]; intros ws2 d1 d2 F2 D1 D2; inversion F2; subst; inversion D1; subst; inversion D2; subst; [reflexivity|].
    f_equal; [|eapply IH; try eassumption; intros j Hj; apply Hin; right; exact Hj].
    pose proof (Hlen i (Hin i (or_introl eq_refl))) as Ed. destruct Hw as (Ei & _). match goal with H : the_shift tb2 _ (i + c) _ |- _ => destruct H as (Ej & _) end.
    rewrite Ei in *. rewrite Ej in *. congruence.
Qed.

(** ** Work time *)
Lemma nums_dec {L} (num : L -> option Q) (ws : list (workshift L)) :
  {qs | Forall2 (fun w q => num (ws_label w) = Some q) ws qs} + {exists w, In w ws /\ num (ws_label w) = None}.
Proof.
  induction ws as [|w ws IH]; [left; exists []; constructor|]. destruct (num (ws_label w)) as [q|] eqn:E; [|right; exists w; split; [left; reflexivity|exact E]].
  destruct IH as [[qs H]|H]; [left; exists (q :: qs); constructor; assumption|right]. destruct H as (v & Hv & Ev). exists v. split; [right; exact Hv|exact Ev].
Qed.
Lemma C69_worktime_pf : forall (L : Type) (tb1 tb2 : timeboard L) a b c x1 x2 d s1 s2,
  reachable tb1 -> reachable tb2 -> share tb1 tb2 a b c -> iv_of tb1 x1 -> sched_for tb2 (iv_sched x2) -> iv_among a b x1 -> moved_ivl c x1 x2 ->
  d = DOn \/ d = DOff \/ d = DAny -> (forall s, s1 = Some s -> sched_for tb1 s) -> (forall s, s2 = Some s -> sched_for tb2 s) ->
  same_rule (sched_arg s1 (iv_sched x1)) (sched_arg s2 (iv_sched x2)) ->
  tb_wt tb1 = tb_wt tb2 -> (forall x, tb_num tb1 x = tb_num tb2 x) -> (tb_wt tb1 = WDuration -> same_lengths tb1 tb2 a b c) ->
  alike Qeq (iv_worktime tb1 x1 d s1) (iv_worktime tb2 x2 d s2).
Proof.
  intros L tb1 tb2 a b c x1 x2 d s1 s2 R1 R2 Hab I1 Hsf Ha Hm Hd Hs1 Hs2 Hr Ew En Hlen.
  pose proof (moved_of tb1 tb2 a b c x1 x2 Hab Ha Hm Hsf I1) as I2.
  destruct (C69_queries_pf L tb1 tb2 a b c x1 x2 d s1 s2 R1 R2 Hab I1 Hsf Ha Hm Hd Hs1 Hs2 Hr) as (_ & HW & _ & HT).
  destruct (tb_wt tb1) eqn:E1.
  - left. destruct Hm as (Ev & _). unfold iv_worktime. rewrite E1, <- Ew, Ev. rewrite <- (HT (Hlen eq_refl)). destruct (C31_duration_pf L tb1 x1 d s1 R1 I1 Hd Hs1) as (v1 & d1 & _ & _ & T1). rewrite T1.
    destruct (iv_void x1); eexists _, _; (split; [reflexivity|split; reflexivity]).
  - destruct (C31_labels_pf L tb1 x1 d s1 R1 I1 Hd Hs1 E1) as (ws1 & W1 & A1 & B1). destruct (C31_labels_pf L tb2 x2 d s2 R2 I2 Hd Hs2 ltac:(congruence)) as (ws2 & W2 & A2 & B2).
    rewrite W1, W2 in HW. destruct HW as [(y1 & y2 & Y1 & Y2 & HF)|(e & He & _)]; [|discriminate]. injection Y1 as <-. injection Y2 as <-.
    destruct (nums_dec (tb_num tb1) ws1) as [[qs Hq]|(w & Hw & Hn)].
    + left. destruct (A1 qs Hq) as (q1 & Q1 & E). destruct (A2 qs) as (q2 & Q2 & E').
      { clear - HF Hq En. revert ws2 HF. induction Hq as [|w q ws qs Hw Hqs IH]; intros ws2 HF; inversion HF; subst; constructor; [|apply IH; assumption].
        match goal with H : moved c w _ |- _ => destruct H as (_ & El) end. rewrite El, <- En. exact Hw. }
      exists q1, q2. split; [exact Q1|]. split; [exact Q2|]. rewrite E, E'. reflexivity.
    + right. exists EType. split; [apply B1; exists w; split; assumption|]. apply B2.
      clear - HF Hw Hn En. induction HF as [|u v ws1 ws2 Huv HF IH]; [destruct Hw|]. destruct Hw as [->|Hw].
      * exists v. split; [left; reflexivity|]. destruct Huv as (_ & El). rewrite El, <- En. exact Hn.
      * destruct (IH Hw) as (z & Hz & Ez). exists z. split; [right; exact Hz|exact Ez].
  - exfalso. exact (reachable_wt tb1 R1 E1).
Qed.

(** ** Rolling *)
Lemma share_count {L} (tb1 tb2 : timeboard L) a b c s1 s2 d x y : share tb1 tb2 a b c -> same_rule s1 s2 -> a <= x -> y <= b ->
  duty_count tb2 s2 d (x + c) (y + c) = duty_count tb1 s1 d x y.
Proof. intros Hab Hr Hx Hy. unfold duty_count. rewrite (share_list tb1 tb2 a b c Hab s1 s2 d x y Hr Hx Hy). unfold zlen. rewrite map_length. reflexivity. Qed.
Lemma share_resolve {L} (tb1 tb2 : timeboard L) a b c s1 s2 i d : share tb1 tb2 a b c -> same_rule s1 s2 -> a <= i <= b ->
  resolve_duty tb2 s2 (i + c) d = resolve_duty tb1 s1 i d.
Proof. intros Hab Hr Hi. pose proof (share_duty tb1 tb2 a b c Hab s1 s2 DOn i Hr Hi) as E. cbn [has_duty] in E. unfold resolve_duty. rewrite E. reflexivity. Qed.
Lemma first_duty {L} (tb : timeboard L) s d p z z' : is_shift tb z' -> has_duty tb s d z = true -> p <= z ->
  p <= z' -> has_duty tb s d z' = true -> (forall j, p <= j < z' -> has_duty tb s d j = false) -> z' <= z.
Proof. intros _ Hz Hp Hp' _ Hn. destruct (Z.le_gt_cases z' z) as [C|C]; [exact C|]. rewrite (Hn z ltac:(lia)) in Hz. discriminate. Qed.
Lemma C69_forward_pf : forall (L : Type) (tb1 tb2 : timeboard L) a b c w1 w2 n d s1 s2 r1,
  reachable tb1 -> reachable tb2 -> share tb1 tb2 a b c -> ws_of tb1 w1 -> ws_of tb2 w2 -> moved c w1 w2 -> a <= ws_loc w1 <= b ->
  d <> DBad -> (forall s, s1 = Some s -> sched_for tb1 s) -> (forall s, s2 = Some s -> sched_for tb2 s) ->
  same_rule (sched_arg s1 (ws_sched w1)) (sched_arg s2 (ws_sched w2)) ->
  rollforward tb1 w1 n d s1 = Ok r1 -> a <= ws_loc r1 <= b ->
  0 <= n \/ (exists z, rollforward tb1 w1 0 d s1 = Ok z /\ ws_loc z <= b) ->
  exists r2, rollforward tb2 w2 n d s2 = Ok r2 /\ moved c r1 r2.
Proof.
  intros L tb1 tb2 a b c w1 w2 n d s1 s2 r1 R1 R2 Hab O1 O2 (El & Elab) Hw Hd Hs1 Hs2 Hr E1 Hb Hz.
  destruct (C17_rollforward_pf L tb1 w1 n d s1 R1 O1 Hd Hs1) as [A1 _]. destruct (A1 r1 E1) as (T1 & _ & G1 & _).
  destruct (C17_rollforward_pf L tb2 w2 n d s2 R2 O2 Hd Hs2) as [A2 B2].
  set (t1 := sched_arg s1 (ws_sched w1)) in *. set (t2 := sched_arg s2 (ws_sched w2)) in *.
  set (d1 := resolve_duty tb1 t1 (ws_loc w1) d) in *.
  assert (Ed : resolve_duty tb2 t2 (ws_loc w2) d = d1) by (rewrite El; apply (share_resolve tb1 tb2 a b c t1 t2 _ d Hab Hr Hw)). rewrite Ed in *. clear Ed.
  assert (T2 : fwd_target tb2 t2 d1 (ws_loc w2) n (ws_loc r1 + c)).
  { destruct T1 as (S1 & H1 & HT). split; [apply (Hab _ Hb)|]. split; [rewrite (share_duty tb1 tb2 a b c Hab t1 t2 d1 _ Hr Hb); exact H1|]. rewrite El.
    destruct HT as [(Hn & Hle & Hc)|(Hn & z & Sz & Hpz & Hzd & Hno & Hqz & Hc)].
    - left. split; [exact Hn|]. split; [lia|]. replace (ws_loc r1 + c - 1) with (ws_loc r1 - 1 + c) by lia. rewrite (share_count tb1 tb2 a b c t1 t2 d1 _ _ Hab Hr); [exact Hc|lia|lia].
    - right. split; [exact Hn|]. destruct Hz as [Hz|(z0 & Ez & Hzb)]; [lia|].
      destruct (C17_rollforward_pf L tb1 w1 0 d s1 R1 O1 Hd Hs1) as [A0 _]. destruct (A0 z0 Ez) as ((_ & Hd0 & H0) & _). fold t1 d1 in Hd0, H0.
      destruct H0 as [(_ & Hp0 & _)|(H0 & _)]; [|lia].
      assert (Hzz : z <= ws_loc z0) by (eapply (first_duty tb1 t1 d1 (ws_loc w1)); eassumption).
      exists (z + c). split; [apply (Hab z ltac:(lia))|]. split; [lia|]. split; [rewrite (share_duty tb1 tb2 a b c Hab t1 t2 d1 z Hr ltac:(lia)); exact Hzd|].
      split. { intros j Hj. replace j with (j - c + c) by lia. rewrite (share_duty tb1 tb2 a b c Hab t1 t2 d1 (j - c) Hr ltac:(lia)). apply Hno. lia. }
      split; [lia|]. replace (z + c - 1) with (z - 1 + c) by lia. rewrite (share_count tb1 tb2 a b c t1 t2 d1 _ _ Hab Hr); [exact Hc|lia|lia]. }
  destruct (rollforward tb2 w2 n d s2) as [r2|e] eqn:E2; [|destruct (B2 e eq_refl) as (_ & Hn); exfalso; exact (Hn _ T2)].
  exists r2. split; [reflexivity|]. destruct (A2 r2 eq_refl) as (_ & U2 & G2 & _). pose proof (U2 _ T2) as P2. split; [lia|].
  rewrite <- P2 in G2. destruct (Hab _ Hb) as (_ & _ & _ & _ & _ & Eg). rewrite <- Eg, G1 in G2. injection G2 as ->. reflexivity.
Qed.
Lemma last_duty {L} (tb : timeboard L) s d p z z' : has_duty tb s d z = true -> z <= p ->
  z' <= p -> (forall j, z' < j <= p -> has_duty tb s d j = false) -> z <= z'.
Proof. intros Hz Hp Hp' Hn. destruct (Z.le_gt_cases z z') as [C|C]; [exact C|]. rewrite (Hn z ltac:(lia)) in Hz. discriminate. Qed.
Lemma C69_back_pf : forall (L : Type) (tb1 tb2 : timeboard L) a b c w1 w2 n d s1 s2 r1,
  reachable tb1 -> reachable tb2 -> share tb1 tb2 a b c -> ws_of tb1 w1 -> ws_of tb2 w2 -> moved c w1 w2 -> a <= ws_loc w1 <= b ->
  d <> DBad -> (forall s, s1 = Some s -> sched_for tb1 s) -> (forall s, s2 = Some s -> sched_for tb2 s) ->
  same_rule (sched_arg s1 (ws_sched w1)) (sched_arg s2 (ws_sched w2)) ->
  rollback tb1 w1 n d s1 = Ok r1 -> a <= ws_loc r1 <= b ->
  0 <= n \/ (exists z, rollback tb1 w1 0 d s1 = Ok z /\ a <= ws_loc z) ->
  exists r2, rollback tb2 w2 n d s2 = Ok r2 /\ moved c r1 r2.
Proof.
  intros L tb1 tb2 a b c w1 w2 n d s1 s2 r1 R1 R2 Hab O1 O2 (El & Elab) Hw Hd Hs1 Hs2 Hr E1 Hb Hz.
  destruct (C18_rollback_pf L tb1 w1 n d s1 R1 O1 Hd Hs1) as [A1 _]. destruct (A1 r1 E1) as (T1 & _ & G1 & _).
  destruct (C18_rollback_pf L tb2 w2 n d s2 R2 O2 Hd Hs2) as [A2 B2].
  set (t1 := sched_arg s1 (ws_sched w1)) in *. set (t2 := sched_arg s2 (ws_sched w2)) in *.
  set (d1 := resolve_duty tb1 t1 (ws_loc w1) d) in *.
  assert (Ed : resolve_duty tb2 t2 (ws_loc w2) d = d1) by (rewrite El; apply (share_resolve tb1 tb2 a b c t1 t2 _ d Hab Hr Hw)). rewrite Ed in *. clear Ed.
  assert (T2 : back_target tb2 t2 d1 (ws_loc w2) n (ws_loc r1 + c)).
  { destruct T1 as (S1 & H1 & HT). split; [apply (Hab _ Hb)|]. split; [rewrite (share_duty tb1 tb2 a b c Hab t1 t2 d1 _ Hr Hb); exact H1|]. rewrite El.
    destruct HT as [(Hn & Hle & Hc)|(Hn & z & Sz & Hpz & Hzd & Hno & Hqz & Hc)].
    - left. split; [exact Hn|]. split; [lia|]. replace (ws_loc r1 + c + 1) with (ws_loc r1 + 1 + c) by lia. rewrite (share_count tb1 tb2 a b c t1 t2 d1 _ _ Hab Hr); [exact Hc|lia|lia].
    - right. split; [exact Hn|]. destruct Hz as [Hz|(z0 & Ez & Hzb)]; [lia|].
      destruct (C18_rollback_pf L tb1 w1 0 d s1 R1 O1 Hd Hs1) as [A0 _]. destruct (A0 z0 Ez) as ((_ & Hd0 & H0) & _). fold t1 d1 in Hd0, H0.
      destruct H0 as [(_ & Hp0 & _)|(H0 & _)]; [|lia].
      assert (Hzz : ws_loc z0 <= z) by (eapply (last_duty tb1 t1 d1 (ws_loc w1)); eassumption).
      exists (z + c). split; [apply (Hab z ltac:(lia))|]. split; [lia|]. split; [rewrite (share_duty tb1 tb2 a b c Hab t1 t2 d1 z Hr ltac:(lia)); exact Hzd|].
      split. { intros j Hj. replace j with (j - c + c) by lia. rewrite (share_duty tb1 tb2 a b c Hab t1 t2 d1 (j - c) Hr ltac:(lia)). apply Hno. lia. }
      split; [lia|]. replace (z + c + 1) with (z + 1 + c) by lia. rewrite (share_count tb1 tb2 a b c t1 t2 d1 _ _ Hab Hr); [exact Hc|lia|lia]. }
  destruct (rollback tb2 w2 n d s2) as [r2|e] eqn:E2; [|destruct (B2 e eq_refl) as (_ & Hn); exfalso; exact (Hn _ T2)].
  exists r2. split; [reflexivity|]. destruct (A2 r2 eq_refl) as (_ & U2 & G2 & _). pose proof (U2 _ T2) as P2. split; [lia|].
  rewrite <- P2 in G2. destruct (Hab _ Hb) as (_ & _ & _ & _ & _ & Eg). rewrite <- Eg, G1 in G2. injection G2 as ->. reflexivity.
Qed.

(** ** Overlap and portions *)
Lemma C69_portion_pf : forall (L : Type) (tb1 tb2 : timeboard L) a b c x1 y1 x2 y2 d s1 s2,
  reachable tb1 -> reachable tb2 -> share tb1 tb2 a b c -> iv_of tb1 x1 -> iv_of tb1 y1 -> sched_for tb2 (iv_sched x2) -> sched_for tb2 (iv_sched y2) ->
  iv_among a b x1 -> iv_among a b y1 -> moved_ivl c x1 x2 -> moved_ivl c y1 y2 ->
  d = DOn \/ d = DOff \/ d = DAny -> (forall s, s1 = Some s -> sched_for tb1 s) -> (forall s, s2 = Some s -> sched_for tb2 s) ->
  same_rule (sched_arg s1 (iv_sched x1)) (sched_arg s2 (iv_sched x2)) ->
  exists q1 q2, what_portion_of tb1 x1 y1 d s1 = Ok q1 /\ what_portion_of tb2 x2 y2 d s2 = Ok q2 /\ (q1 == q2)%Q.
Proof.
  intros L tb1 tb2 a b c x1 y1 x2 y2 d s1 s2 R1 R2 Hab Ix1 Iy1 Hsx Hsy Hax Hay Hmx Hmy Hd Hs1 Hs2 Hr.
  pose proof (moved_of tb1 tb2 a b c x1 x2 Hab Hax Hmx Hsx Ix1) as Ix2. pose proof (moved_of tb1 tb2 a b c y1 y2 Hab Hay Hmy Hsy Iy1) as Iy2.
  destruct (C28_portion_pf L tb1 x1 y1 d s1 R1 Ix1 Iy1 Hd Hs1) as (q1 & z1 & cz1 & cy1 & P1 & O1 & Cz1 & Cy1 & M1 & _ & Z1 & _).
  destruct (C28_portion_pf L tb2 x2 y2 d s2 R2 Ix2 Iy2 Hd Hs2) as (q2 & z2 & cz2 & cy2 & P2 & O2 & Cz2 & Cy2 & M2 & _ & Z2 & _).
  destruct (C27_overlap_pf L tb1 x1 y1 s1 R1 Ix1 Iy1 Hs1) as (v1 & V1 & Iz1 & Es1 & Mz1 & Vz1 & _). rewrite O1 in V1. injection V1 as <-.
  destruct (C27_overlap_pf L tb2 x2 y2 s2 R2 Ix2 Iy2 Hs2) as (v2 & V2 & Iz2 & Es2 & Mz2 & Vz2 & _). rewrite O2 in V2. injection V2 as <-.
  set (t1 := sched_arg s1 (iv_sched x1)) in *. set (t2 := sched_arg s2 (iv_sched x2)) in *.
  assert (St1 : sched_for tb1 t1) by (rewrite <- Es1; apply Iz1). assert (St2 : sched_for tb2 t2) by (rewrite <- Es2; apply Iz2).
  assert (Hcy : cy1 = cy2).
  { destruct (C69_queries_pf L tb1 tb2 a b c y1 y2 d (Some t1) (Some t2) R1 R2 Hab Iy1 Hsy Hay Hmy Hd) as (E & _); try (intros s E; injection E as <-; assumption); [exact Hr|]. congruence. }
  assert (Hcz : cz1 = cz2).
  { destruct (C25_queries_pf L tb1 z1 d (Some t1) R1 Iz1 Hd ltac:(intros s E; injection E as <-; exact St1)) as (_ & N1 & _).
    destruct (C25_queries_pf L tb2 z2 d (Some t2) R2 Iz2 Hd ltac:(intros s E; injection E as <-; exact St2)) as (_ & N2 & _). cbn [sched_arg] in N1, N2.
    assert (El : iv_list tb2 z2 d t2 = map (fun i => i + c) (iv_list tb1 z1 d t1)).
    { assert (Hmv : forall i, iv_mem z2 (i + c) <-> iv_mem z1 i).
      { intros i. rewrite Mz1, Mz2. unfold iv_mem. destruct Hmx as (Ex & Exa & Exb), Hmy as (Ey & Eya & Eyb). rewrite Ex, Exa, Exb, Ey, Eya, Eyb.
        split; intros ((A & B) & C & D); repeat split; try assumption; lia. }
      unfold iv_list. destruct (iv_void z1) eqn:Ev1, (iv_void z2) eqn:Ev2.
      - reflexivity.
      - exfalso. assert (Hm : iv_mem z1 (iv_a z2 - c)). { apply Hmv. split; [exact Ev2|]. destruct Iz2 as (_ & _ & _ & Hv). rewrite Ev2 in Hv. lia. } destruct Hm as (Hm & _). congruence.
      - exfalso. assert (Hm : iv_mem z2 (iv_a z1 + c)). { apply Hmv. split; [exact Ev1|]. destruct Iz1 as (_ & _ & _ & Hv). rewrite Ev1 in Hv. lia. } destruct Hm as (Hm & _). congruence.
      - destruct Iz1 as (_ & _ & _ & H1). destruct Iz2 as (_ & _ & _ & H2). rewrite Ev1 in H1. rewrite Ev2 in H2.
        assert (B1 : iv_mem z1 (iv_a z2 - c)) by (apply Hmv; split; [exact Ev2|lia]). assert (B2 : iv_mem z1 (iv_b z2 - c)) by (apply Hmv; split; [exact Ev2|lia]).
        assert (B3 : iv_mem z2 (iv_a z1 + c)) by (apply Hmv; split; [exact Ev1|lia]). assert (B4 : iv_mem z2 (iv_b z1 + c)) by (apply Hmv; split; [exact Ev1|lia]).
        destruct B1 as (_ & B1), B2 as (_ & B2), B3 as (_ & B3), B4 as (_ & B4).
        replace (iv_a z2) with (iv_a z1 + c) by lia. replace (iv_b z2) with (iv_b z1 + c) by lia.
        assert (Hz : iv_mem x1 (iv_a z1) /\ iv_mem x1 (iv_b z1)).
        { split; [apply (proj1 (Mz1 (iv_a z1)))|apply (proj1 (Mz1 (iv_b z1)))]; split; try exact Ev1; lia. }
        unfold iv_among in Hax. destruct Hz as ((_ & Hz1) & (_ & Hz2)). apply (share_list tb1 tb2 a b c Hab t1 t2 d _ _ Hr); lia. }
    rewrite Cz1 in N1. rewrite Cz2 in N2. rewrite El, map_length in N2. congruence. }
  subst cy2 cz2. exists q1, q2. split; [exact P1|]. split; [exact P2|].
  destruct (Z.eq_dec cy1 0) as [->|Hne].
  - assert (E0 : cz1 = 0). { rewrite (Qmult_comm q1) in M1. change (inject_Z 0) with 0%Q in M1. rewrite Qmult_0_l in M1. apply Z1. destruct Z1 as [_ Z1]. apply Z1. clear - M1. unfold Qeq, inject_Z in M1. cbn in M1. lia. }
    rewrite (proj2 Z1 E0), (proj2 Z2 E0). reflexivity.
  - apply (Qmult_inj_r _ _ (inject_Z cy1)); [intros H; apply Hne; unfold Qeq, inject_Z in H; cbn in H; lia|]. rewrite M1, M2. reflexivity.
Qed.

(** ** Calendar periods *)
Lemma covers_in {L} (tb : timeboard L) a b x y i r : reachable tb -> is_shift tb a -> is_shift tb b -> covers tb a b x y ->
  is_shift tb i -> ref_at tb i r -> x <= r <= y -> a <= i <= b.
Proof.
  intros R Sa Sb (t0 & t1 & H0 & H1 & Ht0 & Ht1) Si Hi Hxy. pose proof (proj1 (reachable_wf tb R)) as W.
  apply (starts_at_iff tb a t0 W Sa) in H0. apply (ends_at_iff tb b t1 W Sb) in H1. apply (ref_at_iff tb i r W Si) in Hi. subst r.
  pose proof (ref_of_within (tb_tl tb) W i Si) as Hr.
  set (f := tl_frame (tb_tl tb)) in *. unfold is_shift, tb_len in *. split.
  - destruct (Z.le_gt_cases a i) as [C|C]; [exact C|]. pose proof (unit_start_le f (bnd (tb_tl tb) (i + 1)) (bnd (tb_tl tb) a)) as Hm.
    assert (bnd (tb_tl tb) (i + 1) <= bnd (tb_tl tb) a). { destruct (Z.eq_dec (i + 1) a) as [->|Hn]; [lia|]. pose proof (bnd_lt (tb_tl tb) W (i + 1) a ltac:(lia) ltac:(lia) ltac:(lia)). lia. } lia.
  - destruct (Z.le_gt_cases i b) as [C|C]; [exact C|]. pose proof (unit_start_le f (bnd (tb_tl tb) (b + 1)) (bnd (tb_tl tb) i)) as Hm.
    assert (bnd (tb_tl tb) (b + 1) <= bnd (tb_tl tb) i). { destruct (Z.eq_dec (b + 1) i) as [->|Hn]; [lia|]. pose proof (bnd_lt (tb_tl tb) W (b + 1) i ltac:(lia) ltac:(lia) ltac:(lia)). lia. } lia.
Qed.
Lemma covers_within {L} (tb : timeboard L) a b x y : reachable tb -> is_shift tb a -> is_shift tb b -> covers tb a b x y -> tb_start_time tb <= x /\ y <= tb_end_time tb.
Proof.
  intros R Sa Sb (t0 & t1 & H0 & H1 & Ht0 & Ht1). destruct (C02_lookup_pf L tb R t0 None) as (_ & _ & _ & D0). destruct (C02_lookup_pf L tb R t1 None) as (_ & _ & _ & D1).
  pose proof (proj1 (reachable_wf tb R)) as W.
  assert (Hh : forall i, is_shift tb i -> forall t, starts_at tb i t \/ ends_at tb i t -> holds_time tb i t).
  { intros i Si t Ht. destruct (C03_tile_pf L tb R) as (_ & _ & _ & Hs & _). destruct (Hs i Si) as (s & e & d & S & E & Hse & _).
    split; [exact Si|]. exists s, e. split; [exact S|]. split; [exact E|]. unfold starts_at, ends_at in *. destruct Ht as [Ht|Ht]; [rewrite S in Ht|rewrite E in Ht]; injection Ht as <-; lia. }
  pose proof (D0 a (Hh a Sa t0 (or_introl H0))). pose proof (D1 b (Hh b Sb t1 (or_intror H1))). lia.
Qed.
Section Periods.
  Context {L : Type} (tb1 tb2 : timeboard L) (a b c : Z).
  Hypothesis R1 : reachable tb1.
  Hypothesis R2 : reachable tb2.
  Hypothesis Hab : share tb1 tb2 a b c.
  Hypothesis Hle : a <= b.
  Lemma share_a : is_shift tb1 a /\ is_shift tb2 (a + c). Proof. destruct (Hab a ltac:(lia)) as (A & B & _). split; assumption. Qed.
  Lemma share_b : is_shift tb1 b /\ is_shift tb2 (b + c). Proof. destruct (Hab b ltac:(lia)) as (A & B & _). split; assumption. Qed.
  Lemma share_covers x y : covers tb1 a b x y -> covers tb2 (a + c) (b + c) x y.
  Proof.
    intros (t0 & t1 & H0 & H1 & H). exists t0, t1. unfold starts_at, ends_at in *. destruct (Hab a ltac:(lia)) as (_ & _ & Es & _). destruct (Hab b ltac:(lia)) as (_ & _ & _ & Ee & _).
    rewrite <- Es, <- Ee. split; [exact H0|]. split; [exact H1|exact H].
  Qed.
  Lemma share_ref x y i : covers tb1 a b x y -> ((is_shift tb1 i /\ exists r, ref_at tb1 i r /\ x <= r <= y) <-> a <= i <= b /\ exists r, ref_at tb1 i r /\ x <= r <= y).
  Proof.
    intros Hc. split.
    - intros (Si & r & Hr & Hxy). split; [exact (covers_in tb1 a b x y i r R1 (proj1 share_a) (proj1 share_b) Hc Si Hr Hxy)|exists r; split; assumption].
    - intros (Hi & H). split; [apply (Hab i Hi)|exact H].
  Qed.
  Lemma share_ref2 x y j : covers tb1 a b x y -> ((is_shift tb2 j /\ exists r, ref_at tb2 j r /\ x <= r <= y) <-> a <= j - c <= b /\ exists r, ref_at tb1 (j - c) r /\ x <= r <= y).
  Proof.
    intros Hc. assert (Hsh : forall i, a <= i <= b -> forall r, ref_at tb2 (i + c) r <-> ref_at tb1 i r).
    { intros i Hi r. destruct (Hab i Hi) as (_ & _ & _ & _ & Er & _). unfold ref_at. rewrite Er. tauto. }
    split.
    - intros (Sj & r & Hr & Hxy). pose proof (covers_in tb2 (a + c) (b + c) x y j r R2 (proj2 share_a) (proj2 share_b) (share_covers x y Hc) Sj Hr Hxy) as Hj.
      split; [lia|]. exists r. split; [|exact Hxy]. apply Hsh; [lia|]. replace (j - c + c) with j by lia. exact Hr.
    - intros (Hj & r & Hr & Hxy). replace j with (j - c + c) by lia. split; [apply (Hab _ Hj)|]. exists r. split; [apply Hsh; assumption|exact Hxy].
  Qed.
  Lemma share_period p i : covers tb1 a b (p_start p) (p_end p) -> (in_period tb1 p i <-> in_period tb2 p (i + c)).
  Proof.
    intros Hc. unfold in_period. rewrite (share_ref _ _ i Hc), (share_ref2 _ _ (i + c) Hc). replace (i + c - c) with i by lia. tauto.
  Qed.
End Periods.
Lemma C69_period_pf : forall (L : Type) (tb1 tb2 : timeboard L) a b c r per p clip s1 s2,
  reachable tb1 -> reachable tb2 -> share tb1 tb2 a b c -> a <= b -> means_period r per p -> covers tb1 a b (p_start p) (p_end p) ->
  alike (fun x1 x2 => moved_ivl c x1 x2 /\ iv_among a b x1)
    (get_interval tb1 r None per clip C11 s1) (get_interval tb2 r None per clip C11 s2).
Proof.
  intros L tb1 tb2 a b c r per p clip s1 s2 R1 R2 Hab Hle Hm Hc.
  destruct (share_a tb1 tb2 a b c Hab Hle) as [Sa1 Sa2]. destruct (share_b tb1 tb2 a b c Hab Hle) as [Sb1 Sb2].
  pose proof (share_covers tb1 tb2 a b c Hab Hle _ _ Hc) as Hc2.
  assert (In1 : inside tb1 p) by (exact (covers_within tb1 a b _ _ R1 Sa1 Sb1 Hc)). assert (In2 : inside tb2 p) by (exact (covers_within tb2 _ _ _ _ R2 Sa2 Sb2 Hc2)).
  destruct (C22_period_pf L tb1 R1 r per p s1 Hm) as [A1 B1]. destruct (C22_period_pf L tb2 R2 r per p s2 Hm) as [A2 B2].
  destruct (C23_unclipped_pf L tb1 R1 r per p s1 Hm) as [C1 _]. destruct (C23_unclipped_pf L tb2 R2 r per p s2 Hm) as [C2 _].
  assert (E1 : get_interval tb1 r None per clip C11 s1 = get_interval tb1 r None per true C11 s1) by (destruct clip; [reflexivity|apply C1, In1]).
  assert (E2 : get_interval tb2 r None per clip C11 s2 = get_interval tb2 r None per true C11 s2) by (destruct clip; [reflexivity|apply C2, In2]).
  rewrite E1, E2. clear E1 E2 C1 C2.
  pose proof (fun i => share_period tb1 tb2 a b c R1 R2 Hab Hle p i Hc) as Hsh.
  assert (Hdec : (exists i, in_period tb1 p i) \/ forall i, ~ in_period tb1 p i).
  { destruct (get_interval tb1 r None per true C11 s1) as [iv|e] eqn:E.
    - destruct (existsb (fun i => match ws_ref_time (tb_tl tb1) i with Ok r => (p_start p <=? r) && (r <=? p_end p) | Err _ => false end) (positions a b)) eqn:Ex.
      + left. apply existsb_exists in Ex. destruct Ex as (i & Hi & H). apply positions_In in Hi. destruct (ws_ref_time (tb_tl tb1) i) as [t|] eqn:Et; [|discriminate].
        exists i. split; [apply (Hab i Hi)|]. exists t. split; [exact Et|]. lia.
      + right. intros i Hi. apply (share_ref tb1 tb2 a b c R1 Hab Hle _ _ i Hc) in Hi. destruct Hi as (Hi & t & Ht & Hxy).
        assert (existsb (fun i => match ws_ref_time (tb_tl tb1) i with Ok r => (p_start p <=? r) && (r <=? p_end p) | Err _ => false end) (positions a b) = true); [|congruence].
        apply existsb_exists. exists i. split; [apply positions_In; exact Hi|]. unfold ref_at in Ht. rewrite Ht. lia.
    - right. intros i Hi. destruct (A1 (ex_intro _ i Hi)) as (iv & E' & _). congruence. }
  destruct Hdec as [(i & Hi)|Hn].
  - left. destruct (A1 (ex_intro _ i Hi)) as (x1 & X1 & V1 & _ & M1). destruct (A2 (ex_intro _ (i + c) (proj1 (Hsh i) Hi))) as (x2 & X2 & V2 & _ & M2).
    exists x1, x2. split; [exact X1|]. split; [exact X2|].
    assert (Hmem : forall k, iv_mem x2 (k + c) <-> iv_mem x1 k) by (intros k; rewrite M1, M2; symmetry; apply Hsh).
    unfold iv_mem in Hmem, M1. rewrite V1, V2 in Hmem. rewrite V1 in M1.
    pose proof (proj2 (M1 i) Hi) as (_ & Hi1). 
    pose proof (proj2 (Hmem (iv_a x1)) ltac:(split; [reflexivity|lia])) as (_ & H1). pose proof (proj2 (Hmem (iv_b x1)) ltac:(split; [reflexivity|lia])) as (_ & H2).
    pose proof (proj1 (Hmem (iv_a x2 - c)) ltac:(split; [reflexivity|lia])) as (_ & H3). pose proof (proj1 (Hmem (iv_b x2 - c)) ltac:(split; [reflexivity|lia])) as (_ & H4).
    split; [unfold moved_ivl; rewrite V1, V2; repeat split; lia|].
    assert (Ha : forall k, iv_a x1 <= k <= iv_b x1 -> a <= k <= b).
    { intros k Hk. apply (share_ref tb1 tb2 a b c R1 Hab Hle _ _ k Hc). apply (proj1 (M1 k)). split; [reflexivity|exact Hk]. }
    split; apply Ha; lia.
  - right. exists EVoidInterval. split; [apply B1; assumption|]. apply B2; [|exact In2]. intros j Hj. apply (Hn (j - c)). apply Hsh. replace (j - c + c) with j by lia. exact Hj.
Qed.

Lemma filter_part (P : Z -> bool) x y lo hi : lo <= x -> x <= y + 1 -> y <= hi -> (forall i, lo <= i <= hi -> P i = true -> x <= i <= y) ->
  filter P (positions lo hi) = filter P (positions x y).
Proof.
  intros H1 H2 H3 H. assert (Hnil : forall l, (forall i, In i l -> P i = false) -> filter P l = []).
  { induction l as [|z l IH]; intros Hl; [reflexivity|]. cbn [filter]. rewrite (Hl z (or_introl eq_refl)). apply IH. intros i Hi. apply Hl. right. exact Hi. }
  rewrite (positions_split lo (x - 1) hi) by lia. replace (x - 1 + 1) with x by lia. rewrite filter_app.
  rewrite (Hnil (positions lo (x - 1))). 2:{ intros i Hi. apply positions_In in Hi. destruct (P i) eqn:E; [|reflexivity]. specialize (H i ltac:(lia) E). lia. }
  cbn [app]. destruct (Z.eq_dec y hi) as [->|Hn]; [reflexivity|]. rewrite (positions_split x y hi) by lia. rewrite filter_app.
  rewrite (Hnil (positions (y + 1) hi)); [apply app_nil_r|]. intros i Hi. apply positions_In in Hi. destruct (P i) eqn:E; [|reflexivity]. specialize (H i ltac:(lia) E). lia.
Qed.
Lemma ref_in_at {L} (tb : timeboard L) base o i : ref_in tb base o i = true <-> exists r, ref_at tb i r /\ pstart base o <= r <= pstart base (o + 1) - 1.
Proof.
  unfold ref_in, ref_at. destruct (ws_ref_time (tb_tl tb) i) as [r|e].
  - split; [intros H; exists r; split; [reflexivity|lia]|intros (r' & E & H); injection E as <-; lia].
  - split; [discriminate|intros (r' & E & _); discriminate].
Qed.
Lemma share_quotient {L} (tb1 tb2 : timeboard L) a b c x1 x2 base d s1 s2 o : reachable tb1 -> reachable tb2 -> share tb1 tb2 a b c -> a <= b ->
  iv_among a b x1 -> moved_ivl c x1 x2 -> same_rule s1 s2 -> covers tb1 a b (pstart base o) (pstart base (o + 1) - 1) ->
  quotient tb2 x2 base d s2 o = quotient tb1 x1 base d s1 o.
Proof.
  intros R1 R2 Hab Hle Ha Hm Hr Hc. unfold quotient.
  destruct (share_a tb1 tb2 a b c Hab Hle) as [Sa1 Sa2]. destruct (share_b tb1 tb2 a b c Hab Hle) as [Sb1 Sb2].
  assert (Hri : forall i, a <= i <= b -> ref_in tb2 base o (i + c) = ref_in tb1 base o i).
  { intros i Hi. destruct (Hab i Hi) as (_ & _ & _ & _ & Er & _). unfold ref_in. rewrite <- Er. reflexivity. }
  assert (E1 : zlen (filter (ref_in tb2 base o) (iv_list tb2 x2 d s2)) = zlen (filter (ref_in tb1 base o) (iv_list tb1 x1 d s1))).
  { rewrite (share_iv_list tb1 tb2 a b c Hab s1 s2 d x1 x2 Hr Ha Hm). rewrite (filter_moved c (ref_in tb1 base o) (ref_in tb2 base o)).
    - unfold zlen. rewrite map_length. reflexivity.
    - intros i Hi. apply iv_list_mem in Hi. destruct Hi as [(_ & Hi) _]. apply Hri. unfold iv_among in Ha. lia. }
  assert (E2 : zlen (filter (ref_in tb2 base o) (duty_list tb2 s2 d 0 (tb_len tb2 - 1))) = zlen (filter (ref_in tb1 base o) (duty_list tb1 s1 d 0 (tb_len tb1 - 1)))).
  { unfold duty_list. rewrite !filter_filter_and. unfold is_shift in *.
    rewrite (filter_part _ a b 0 (tb_len tb1 - 1)); [|lia|lia|lia|].
    2:{ intros i Hi H. apply Bool.andb_true_iff in H. destruct H as [_ H]. apply ref_in_at in H.
        apply (share_ref tb1 tb2 a b c R1 Hab Hle _ _ i Hc). split; [unfold is_shift; lia|exact H]. }
    rewrite (filter_part _ (a + c) (b + c) 0 (tb_len tb2 - 1)); [|lia|lia|lia|].
    2:{ intros i Hi H. apply Bool.andb_true_iff in H. destruct H as [_ H]. apply ref_in_at in H.
        assert (a <= i - c <= b); [|lia]. apply (share_ref2 tb1 tb2 a b c R2 Hab Hle _ _ i Hc). split; [unfold is_shift; lia|exact H]. }
    rewrite positions_moved. rewrite (filter_moved c (fun i => has_duty tb1 s1 d i && ref_in tb1 base o i)).
    - unfold zlen. rewrite map_length. reflexivity.
    - intros i Hi. apply positions_In in Hi. rewrite (share_duty tb1 tb2 a b c Hab s1 s2 d i Hr Hi), (Hri i Hi). reflexivity. }
  cbv zeta. rewrite E1, E2. reflexivity.
Qed.
Lemma C69_count_periods_pf : forall (L : Type) (tb1 tb2 : timeboard L) a b c x1 x2 fs d s1 s2,
  reachable tb1 -> reachable tb2 -> share tb1 tb2 a b c -> a <= b -> iv_of tb1 x1 -> sched_for tb2 (iv_sched x2) -> iv_among a b x1 -> moved_ivl c x1 x2 ->
  d = DOn \/ d = DOff \/ d = DAny -> (forall s, s1 = Some s -> sched_for tb1 s) -> (forall s, s2 = Some s -> sched_for tb2 s) ->
  same_rule (sched_arg s1 (iv_sched x1)) (sched_arg s2 (iv_sched x2)) ->
  (forall o0 o1 o, touches tb1 x1 (fbase (to_freq fs)) o0 o1 -> o0 <= o <= o1 ->
     covers tb1 a b (pstart (fbase (to_freq fs)) o) (pstart (fbase (to_freq fs)) (o + 1) - 1)) ->
  alike Qeq (count_periods tb1 x1 fs d s1) (count_periods tb2 x2 fs d s2).
Proof.
  intros L tb1 tb2 a b c x1 x2 fs d s1 s2 R1 R2 Hab Hle I1 Hsf Ha Hm Hd Hs1 Hs2 Hr Hc.
  pose proof (moved_of tb1 tb2 a b c x1 x2 Hab Ha Hm Hsf I1) as I2.
  assert (Hcd : countable fs \/ ~ countable fs).
  { unfold countable. destruct (fdigits fs); [right; intros [H _]; discriminate|].
    destruct (falias fs) as [| | | | |w| |m|m| | | | | | | |kk rest]; try (left; split; [reflexivity|cbn; tauto]); try destruct w; try destruct m;
      try (left; split; [reflexivity|cbn; tauto]); right; intros [_ H]; cbn in H; repeat (destruct H as [H|H]; [discriminate|]); exact H. }
  destruct Hcd as [Hcd|Hcd].
  2:{ rewrite (C30_unsupported_pf L tb1 x1 fs d s1 Hcd), (C30_unsupported_pf L tb2 x2 fs d s2 Hcd). destruct Hm as (-> & _). destruct (iv_void x1);
      [left; eexists _, _; split; [reflexivity|split; reflexivity]|right; eexists; split; reflexivity]. }
  set (t1 := sched_arg s1 (iv_sched x1)) in *. set (t2 := sched_arg s2 (iv_sched x2)) in *.
  pose proof (share_iv_list tb1 tb2 a b c Hab t1 t2 d x1 x2 Hr Ha Hm) as El.
  destruct (iv_list tb1 x1 d t1) as [|h l] eqn:E1.
  { left. exists 0%Q, 0%Q. split; [apply (C29_zero_pf L tb1 x1 fs d s1); assumption|]. split; [apply (C29_zero_pf L tb2 x2 fs d s2); try assumption|reflexivity]. }
  assert (Hn1 : iv_list tb1 x1 d t1 <> []) by (rewrite E1; discriminate). assert (Hn2 : iv_list tb2 x2 d t2 <> []) by (rewrite El; discriminate).
  set (base := fbase (to_freq fs)) in *.
  assert (Ht : exists o0 o1, touches tb1 x1 base o0 o1).
  { destruct I1 as (_ & Sa & Sb & _). destruct (C03_tile_pf L tb1 R1) as (_ & _ & _ & Hs & _).
    destruct (Hs _ Sa) as (u & _ & _ & U & _). destruct (Hs _ Sb) as (_ & v & _ & _ & V & _).
    exists (pord base u), (pord base v), u, v. split; [exact U|]. split; [exact V|]. split; apply in_cal_unit_pord; reflexivity. }
  destruct Ht as (o0 & o1 & Ht1).
  assert (Hu : forall p0 p1, touches tb1 x1 base p0 p1 -> p0 = o0 /\ p1 = o1).
  { intros p0 p1 (u & v & U & V & Hu & Hv). destruct Ht1 as (u' & v' & U' & V' & Hu' & Hv'). unfold starts_at, ends_at in *. rewrite U in U'. rewrite V in V'. injection U' as <-. injection V' as <-.
    apply in_cal_unit_pord in Hu, Hv, Hu', Hv'. lia. }
  assert (Htt : forall p0 p1, touches tb2 x2 base p0 p1 <-> touches tb1 x1 base p0 p1).
  { intros p0 p1. unfold touches, starts_at, ends_at. destruct Hm as (_ & Ea & Eb). rewrite Ea, Eb.
    destruct (Hab (iv_a x1) (proj1 Ha)) as (_ & _ & Es & _). destruct (Hab (iv_b x1) (proj2 Ha)) as (_ & _ & _ & Ee & _). rewrite Es, Ee. tauto. }
  assert (Hw : forall o e, o0 <= o <= o1 -> (wrong tb1 fs o e <-> wrong tb2 fs o e)).
  { intros o e Ho. pose proof (Hc o0 o1 o Ht1 Ho) as Hco.
    destruct (share_a tb1 tb2 a b c Hab Hle) as [Sa1 Sa2]. destruct (share_b tb1 tb2 a b c Hab Hle) as [Sb1 Sb2].
    pose proof (covers_within tb1 a b _ _ R1 Sa1 Sb1 Hco) as W1. pose proof (covers_within tb2 _ _ _ _ R2 Sa2 Sb2 (share_covers tb1 tb2 a b c Hab Hle _ _ Hco)) as W2.
    assert (Hfm : fmult (to_freq fs) = 1%positive).
    { destruct Hcd as [Hf Hin]. clear - Hf Hin. destruct fs as [n al]. cbn in Hf, Hin. subst n. repeat (destruct Hin as [<-|Hin]; [reflexivity|]). destruct Hin. }
    assert (Hin : forall i, in_period tb1 (mkPeriod (to_freq fs) o) i <-> in_period tb2 (mkPeriod (to_freq fs) o) (i + c)).
    { intros i. apply (share_period tb1 tb2 a b c R1 R2 Hab Hle). unfold p_start, p_end. cbn [p_freq p_ord]. rewrite Hfm. exact Hco. }
    fold base in W1, W2. split; intros H; inversion H as [i Hl Hi|Hl Hi]; subst; unfold leaves in Hl; fold base in Hl; try lia.
    - apply wrong_empty; [unfold leaves; fold base; lia|]. intros j Hj. apply (Hi (j - c)). apply Hin. replace (j - c + c) with j by lia. exact Hj.
    - apply wrong_empty; [unfold leaves; fold base; lia|]. intros i Hii. apply (Hi (i + c)). apply Hin. exact Hii. }
  pose proof (C30_errors_pf L tb1 x1 fs d s1 o0 o1 R1 I1 Hs1 Hd Hcd Hn1 Ht1) as X1.
  pose proof (C30_errors_pf L tb2 x2 fs d s2 o0 o1 R2 I2 Hs2 Hd Hcd Hn2 (proj2 (Htt o0 o1) Ht1)) as X2.
  assert (HE : forall e, count_periods tb1 x1 fs d s1 = Err e <-> count_periods tb2 x2 fs d s2 = Err e).
  { intros e. rewrite X1, X2. split; intros (o & Ho & H & Hn); exists o; (split; [exact Ho|split; [apply (Hw o e Ho); exact H|]]); intros o' e' Ho' H'; apply (Hn o' e' Ho'); apply (Hw o' e'); try assumption; lia. }
  destruct (count_periods tb1 x1 fs d s1) as [q1|e] eqn:E.
  - destruct (count_periods tb2 x2 fs d s2) as [q2|e] eqn:E'; [|exfalso; specialize (proj2 (HE e) eq_refl); discriminate].
    left. exists q1, q2. split; [reflexivity|]. split; [reflexivity|].
    destruct (C29_count_pf L tb1 x1 fs d s1 q1 R1 I1 Hs1 E) as (p0 & p1 & T1 & Q1). destruct (Hu p0 p1 T1) as [-> ->].
    destruct (C29_count_pf L tb2 x2 fs d s2 q2 R2 I2 Hs2 E') as (p0 & p1 & T2 & Q2). apply Htt in T2. destruct (Hu p0 p1 T2) as [-> ->].
    fold base t1 t2 in Q1, Q2. rewrite Q1, Q2. match goal with |- (?x == ?y)%Q => assert (EQ : x = y); [f_equal|rewrite EQ; reflexivity] end. apply map_ext_in. intros o Ho. apply positions_In in Ho. symmetry.
    apply (share_quotient tb1 tb2 a b c x1 x2 base d t1 t2 o R1 R2 Hab Hle Ha Hm Hr). exact (Hc o0 o1 o Ht1 Ho).
  - right. exists e. split; [reflexivity|]. apply HE. reflexivity.
Qed.

(** ** Where the workshifts in common come from *)
Lemma C69_units_pf : forall (L : Type) (a1 a2 : tb_args L) (h1 h2 : heap L) tb1 tb2 h1' h2' u v n,
  build a1 h1 = Ok (tb1, h1') -> build a2 h2 = Ok (tb2, h2') -> a_ref_end a1 = a_ref_end a2 ->
  same_unit (tl_frame (tb_tl tb1)) (tl_frame (tb_tl tb2)) u v -> 0 <= n ->
  (forall k, 0 <= k <= n -> exists x, shift_of (tb_tl tb1) (u + k) (u + k) (u + k) x /\ shift_of (tb_tl tb2) (v + k) (v + k) (v + k) x) ->
  exists i j, ws_first_baseunit (tb_tl tb1) i = Ok u /\ ws_first_baseunit (tb_tl tb2) j = Ok v /\ share tb1 tb2 i (i + n) (j - i) /\ same_lengths tb1 tb2 i (i + n) (j - i).
Proof.
  intros L a1 a2 h1 h2 tb1 tb2 h1' h2' u v n B1 B2 Er Hs Hn H.
  pose proof (reach_build a1 h1 tb1 h1' B1) as R1. pose proof (reach_build a2 h2 tb2 h2' B2) as R2.
  pose proof (proj1 (reachable_wf tb1 R1)) as W1. pose proof (proj1 (reachable_wf tb2 R2)) as W2.
  assert (Re : tl_ref_end (tb_tl tb1) = tl_ref_end (tb_tl tb2)).
  { destruct (build_inv _ _ _ _ B1) as (? & ? & ? & P1). destruct (build_inv _ _ _ _ B2) as (? & ? & ? & P2). decompose [and] P1. decompose [and] P2. congruence. }
  set (t1 := tb_tl tb1) in *. set (t2 := tb_tl tb2) in *.
  assert (Hun : forall (tl : timeline L), tl_wf tl -> forall w x, shift_of tl w w w x -> exists i, 0 <= i < tl_len tl /\ bnd tl i = w /\ bnd tl (i + 1) = w + 1 /\ tl_get tl i = Ok x).
  { intros tl W w x (i & Hi & F & La & _ & G). rewrite (ws_first_ok tl i Hi) in F. rewrite (ws_last_ok tl W i Hi) in La. injection F as F. injection La as La.
    exists i. repeat split; try assumption; lia. }
  assert (Hrun : forall (tl : timeline L), tl_wf tl -> forall w i, 0 <= i < tl_len tl -> bnd tl i = w -> (forall k, 0 <= k <= n -> exists x, shift_of tl (w + k) (w + k) (w + k) x) ->
    forall k, 0 <= k <= n -> 0 <= i + k < tl_len tl /\ bnd tl (i + k) = w + k).
  { intros tl W w i Hi Eb Hk k [K0 K1]. revert K1. pattern k. apply natlike_rec2 with (z := k); cbn beta.
    - intros _. rewrite !Z.add_0_r. split; assumption.
    - intros m Hm IH Hle. destruct (IH ltac:(lia)) as [A B]. destruct (Hk m ltac:(lia)) as [x X]. destruct (Hun tl W _ _ X) as (i' & Hi' & F & S & _).
      assert (i' = i + m). { apply (bnd_unique tl W (w + m) i' (i + m) Hi' A); [lia|]. pose proof (bnd_lt tl W (i + m) (i + m + 1) ltac:(lia) ltac:(lia) ltac:(lia)). lia. }
      subst i'. unfold Z.succ. destruct (Hk (m + 1) ltac:(lia)) as [x' X']. destruct (Hun tl W _ _ X') as (i'' & Hi'' & F'' & S'' & _).
      assert (i'' = i + m + 1).
      { assert (Hl : i + m < i'') by (apply (bnd_lt_inv tl W); lia). destruct (Z.lt_ge_cases (i + m + 1) i'') as [C|C]; [|lia].
        pose proof (bnd_lt tl W (i + m + 1) i'' ltac:(lia) C ltac:(lia)). lia. }
      subst i''. replace (i + (m + 1)) with (i + m + 1) by lia. split; [assumption|lia].
    - exact K0. }
  destruct (H 0 ltac:(lia)) as (x & X1 & X2). rewrite !Z.add_0_r in X1, X2.
  destruct (Hun t1 W1 _ _ X1) as (i & Hi & Fi & _). destruct (Hun t2 W2 _ _ X2) as (j & Hj & Fj & _).
  exists i, j. split; [rewrite (ws_first_ok t1 i Hi), Fi; reflexivity|]. split; [rewrite (ws_first_ok t2 j Hj), Fj; reflexivity|].
  pose proof (Hrun t1 W1 u i Hi Fi (fun k Hk => match H k Hk with ex_intro _ x (conj A _) => ex_intro _ x A end)) as N1.
  pose proof (Hrun t2 W2 v j Hj Fj (fun k Hk => match H k Hk with ex_intro _ x (conj _ A) => ex_intro _ x A end)) as N2.
  assert (HH : forall q, i <= q <= i + n -> same_shift tb1 tb2 q (q + (j - i)) /\ ws_duration (tb_tl tb1) q = ws_duration (tb_tl tb2) (q + (j - i)));
    [|split; intros q Hq; apply (HH q Hq)].
  intros q Hq. destruct (N1 (q - i) ltac:(lia)) as [A1 A2]. destruct (N2 (q - i) ltac:(lia)) as [A3 A4].
  destruct (H (q - i) ltac:(lia)) as (y & Y1 & Y2).
  destruct (Hun t1 W1 _ _ Y1) as (i' & Hi' & F1 & S1 & G1). destruct (Hun t2 W2 _ _ Y2) as (j' & Hj' & F2 & S2 & G2).
  replace (i + (q - i)) with q in * by lia. replace (j + (q - i)) with (q + (j - i)) in * by lia.
  assert (i' = q). { apply (bnd_unique t1 W1 (u + (q - i)) i' q Hi' A1); [lia|]. pose proof (bnd_lt t1 W1 q (q + 1) ltac:(lia) ltac:(lia) ltac:(lia)). lia. }
  assert (j' = q + (j - i)). { apply (bnd_unique t2 W2 (v + (q - i)) j' (q + (j - i)) Hj' A3); [lia|]. pose proof (bnd_lt t2 W2 (q + (j - i)) (q + (j - i) + 1) ltac:(lia) ltac:(lia) ltac:(lia)). lia. }
  subst i' j'. pose proof (same_unit_next _ _ _ _ (q - i) Hs) as E0. pose proof (same_unit_next _ _ _ _ (q - i + 1) Hs) as E1.
  rewrite !Z.add_assoc in E1.
  unfold same_shift. fold t1 t2. split; [split; [exact A1|]; split; [exact A3|]|].
  - rewrite (ws_start_ok t1 W1 q A1), (ws_start_ok t2 W2 _ A3), (ws_end_ok t1 W1 q A1), (ws_end_ok t2 W2 _ A3), (ws_ref_ok t1 W1 q A1), (ws_ref_ok t2 W2 _ A3).
    unfold ref_of. rewrite Re, S1, S2, A2, A4, E0, E1. split; [reflexivity|]. split; [reflexivity|]. split; [reflexivity|congruence].
  - unfold ws_duration. rewrite (ws_first_ok t1 q A1), (ws_first_ok t2 _ A3), (ws_last_ok t1 W1 q A1), (ws_last_ok t2 W2 _ A3). cbn [bind].
    rewrite S1, S2, A2, A4. f_equal. lia.
Qed.
Lemma C69_calendar_pf : forall (L : Type) (a1 a2 : tb_args L) (h1 h2 : heap L) tb1 tb2 h1' h2' org g pat u v n,
  build a1 h1 = Ok (tb1, h1') -> build a2 h2 = Ok (tb2, h2') -> a_amendments a1 = a_amendments a2 -> a_ref_end a1 = a_ref_end a2 ->
  top_organizer (a_layout a1) = Ok org -> top_organizer (a_layout a2) = Ok org ->
  straight org (DMarker (mkMarker g [])) (LPat (PList pat)) -> one_part g -> times g = 1 -> pat <> [] ->
  one_part (fr_str (tl_frame (tb_tl tb1))) -> same_unit (tl_frame (tb_tl tb1)) (tl_frame (tb_tl tb2)) u v ->
  0 <= n -> u + n < fr_len (tl_frame (tb_tl tb1)) -> v + n < fr_len (tl_frame (tb_tl tb2)) ->
  exists i j, ws_first_baseunit (tb_tl tb1) i = Ok u /\ ws_first_baseunit (tb_tl tb2) j = Ok v /\ share tb1 tb2 i (i + n) (j - i) /\ same_lengths tb1 tb2 i (i + n) (j - i).
Proof.
  intros L a1 a2 h1 h2 tb1 tb2 h1' h2' org g pat u v n B1 B2 Ea Er O1 O2 Hst Og Tg Hne Of Hs Hn Hu Hv.
  apply (C69_units_pf L a1 a2 h1 h2 tb1 tb2 h1' h2' u v n B1 B2 Er Hs Hn). intros k Hk.
  apply (C68_calendar_pf L a1 a2 h1 h2 tb1 tb2 h1' h2' org g pat (u + k) (v + k) B1 B2 Ea O1 O2 Hst Og Tg Hne Of).
  pose proof (same_unit_next _ _ _ _ k Hs) as E0. destruct Hs as (Es & Hu0 & Hv0 & _). split; [exact Es|]. split; [lia|]. split; [lia|exact E0].
Qed.
