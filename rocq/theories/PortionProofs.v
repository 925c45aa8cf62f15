(** Proofs of C83. *)
From Verif Require Import Base BaseProofs Civil Freq FreqProofs Frame FrameProofs Timeline TimelineProofs Board Spec BoardProofs SpecLookup LookupProofs SpecRoll SpecQuery QueryProofs SpecInterval IntervalProofs CountProofs AddProofs SpecLayout SpecReport ReportProofs.
From Coq Require Import ZifyBool ZifyNat QArith Permutation.
Open Scope Z_scope.

Lemma countable_once fs : countable fs -> fmult (to_freq fs) = 1%positive.
Proof.
  intros (Hd & Ha). destruct fs as [n a]. cbn [fdigits falias] in *. subst n. cbn [In] in Ha.
  repeat (destruct Ha as [<-|Ha]; [reflexivity|]). destruct Ha.
Qed.
Section Parts.
  Context {L : Type} (tb : timeboard L) (iv : interval L).
  Hypothesis Hr : reachable tb.
  Hypothesis Hiv : iv_of tb iv.
  Definition in_iv (i : Z) : bool := negb (iv_void iv) && (iv_a iv <=? i) && (i <=? iv_b iv).
  Lemma in_iv_iff i : in_iv i = true <-> iv_mem iv i.
  Proof. unfold in_iv, iv_mem. destruct (iv_void iv); cbn [negb andb]; [split; [discriminate|intros [F _]; discriminate F]|]. lia. Qed.
  (** The part of the interval in a period. *)
  Lemma part_perm (v z : interval L) : (forall i, iv_mem z i <-> iv_mem iv i /\ iv_mem v i) -> Permutation (members z) (filter in_iv (members v)).
  Proof.
    intros H. apply NoDup_Permutation; [apply members_nodup|apply NoDup_filter, members_nodup|]. intros i. rewrite filter_In, !members_In, in_iv_iff, (H i). tauto.
  Qed.
  Lemma parts_perm f o n : (forall i, iv_mem iv i -> exists p, In p (successive f o n) /\ in_period tb p i) ->
    Permutation (members iv) (concat (map (fun p => filter in_iv (of_period tb p)) (successive f o n))).
  Proof.
    intros H. rewrite <- (map_map (of_period tb) (filter in_iv)), concat_filter_map.
    apply NoDup_Permutation; [apply members_nodup|apply NoDup_filter, (periods_nodup tb Hr)|]. intros i. rewrite filter_In, members_In, in_iv_iff, in_concat. split.
    - intros Hi. split; [|exact Hi]. destruct (H i Hi) as (p & Hp & Hp'). exists (of_period tb p). split; [apply in_map; exact Hp|apply (of_period_In tb Hr); exact Hp'].
    - intros (_ & Hi). exact Hi.
  Qed.
End Parts.

Lemma C83_parts_pf : forall L (tb : timeboard L) iv f o n d s, reachable tb -> iv_of tb iv ->
  (forall i, iv_mem iv i -> exists p, In p (successive f o n) /\ in_period tb p i) ->
  d = DOn \/ d = DOff \/ d = DAny -> sched_for tb s ->
  exists xs, Forall2 (reported tb 0 (fun v => do z <- iv_overlap tb iv v None; iv_count z d (Some s))) (successive f o n) xs
    /\ iv_count iv d (Some s) = Ok (z_total xs).
Proof.
  intros L tb iv f o n d s Hr Hiv Hc Hd Hs. pose proof (parts_perm tb iv Hr f o n Hc) as P.
  exists (map (fun p => z_total (map (one_of tb d s) (filter (in_iv iv) (of_period tb p)))) (successive f o n)). split.
  - apply Forall2_map. intros p. unfold reported, of_period. destruct (period_get tb Hr p) as [(_ & v & -> & Hv & _)|((e & -> & He) & _)]; [|split; [exact He|reflexivity]].
    destruct (C27_overlap_pf L tb iv v None Hr Hiv Hv ltac:(discriminate)) as (z & -> & Hz & _ & Hm & _). cbn [bind].
    rewrite (count_sum tb d s Hr Hd Hs z Hz). f_equal. apply z_total_perm, Permutation_map, part_perm. exact Hm.
  - rewrite (count_sum tb d s Hr Hd Hs iv Hiv). f_equal. rewrite (z_total_perm _ _ (Permutation_map _ P)), z_total_concat, map_map. reflexivity.
Qed.

(** ** Portions of one interval in the periods *)
Lemma reported_portion {L} (tb : timeboard L) iv d s p : reachable tb -> iv_of tb iv -> d = DOn \/ d = DOff \/ d = DAny -> sched_for tb s ->
  exists x, reported tb 0%Q (fun v => what_portion_of tb iv v d (Some s)) p x
    /\ (x * inject_Z (z_total (map (one_of tb d s) (of_period tb p))) == inject_Z (z_total (map (one_of tb d s) (filter (in_iv iv) (of_period tb p)))))%Q
    /\ (z_total (map (one_of tb d s) (of_period tb p)) = 0 -> (x == 0)%Q).
Proof.
  intros Hr Hiv Hd Hs. unfold reported, of_period. destruct (period_get tb Hr p) as [(_ & v & -> & Hv & _)|((e & -> & He) & _)].
  2:{ exists 0%Q. split; [split; [exact He|reflexivity]|]. split; [reflexivity|reflexivity]. }
  destruct (C28_portion_pf L tb iv v d (Some s) Hr Hiv Hv Hd ltac:(intros s' [= <-]; exact Hs)) as (q & z & cz & cy & Eq & Ez & Ecz & Ecy & E & _ & E0 & _). cbn [sched_arg] in *.
  destruct (C27_overlap_pf L tb iv v (Some s) Hr Hiv Hv ltac:(intros s' [= <-]; exact Hs)) as (z' & Ez' & Hz & _ & Hm & _). rewrite Ez in Ez'. injection Ez' as <-.
  rewrite (count_sum tb d s Hr Hd Hs z Hz) in Ecz. injection Ecz as <-. rewrite (count_sum tb d s Hr Hd Hs v Hv) in Ecy. injection Ecy as <-.
  assert (EP : z_total (map (one_of tb d s) (members z)) = z_total (map (one_of tb d s) (filter (in_iv iv) (members v)))) by (apply z_total_perm, Permutation_map, part_perm; exact Hm).
  exists q. split; [exact Eq|]. rewrite EP in E, E0. split; [exact E|]. intros H0. apply E0. rewrite H0 in E. rewrite Qmult_0_r in E. symmetry in E.
  unfold Qeq in E. cbn [inject_Z Qnum Qden] in E. lia.
Qed.
Lemma ones_filter {L} (tb : timeboard L) d s l : z_total (map (one_of tb d s) l) = zlen (filter (has_duty tb s d) l).
Proof.
  unfold one_of. rewrite <- (z_total_filter (has_duty tb s d) (fun _ => 1)). unfold zlen. induction (filter _ _) as [|x t IH]; [reflexivity|].
  cbn [length map z_total fold_right]. fold (z_total (map (fun _ : Z => 1) t)). lia.
Qed.
Lemma perm_zlen {A} (l l' : list A) : Permutation l l' -> zlen l = zlen l'.
Proof. intros H. unfold zlen. rewrite (Permutation_length H). reflexivity. Qed.

Lemma C83_count_pf : forall L (tb : timeboard L) iv fs d s q, reachable tb -> iv_of tb iv -> d = DOn \/ d = DOff \/ d = DAny -> sched_for tb s -> countable fs ->
  count_periods tb iv fs d (Some s) = Ok q ->
  exists o0 o1 xs, touches tb iv (fbase (to_freq fs)) o0 o1
    /\ Forall2 (reported tb 0%Q (fun v => what_portion_of tb iv v d (Some s))) (successive (to_freq fs) o0 (Z.to_nat (o1 + 1 - o0))) xs
    /\ (q == q_total xs)%Q.
Proof.
  intros L tb iv fs d s q Hr Hiv Hd Hs Hcf H.
  destruct (C29_count_pf L tb iv fs d (Some s) q Hr Hiv ltac:(intros s' [= <-]; exact Hs) H) as (o0 & o1 & Ht & Eq). cbn [sched_arg] in Eq.
  assert (Hf : fmult (to_freq fs) = 1%positive) by (exact (countable_once fs Hcf)). pose proof (proj1 (reachable_wf _ Hr)) as W.
  exists o0, o1. set (b := fbase (to_freq fs)) in *.
  assert (Main : forall o, exists x, reported tb 0%Q (fun v => what_portion_of tb iv v d (Some s)) (mkPeriod (to_freq fs) o) x /\ (x == quotient tb iv b d s o)%Q).
  { intros o. destruct (reported_portion tb iv d s (mkPeriod (to_freq fs) o) Hr Hiv Hd Hs) as (x & R & E & E0). exists x. split; [exact R|].
    assert (Ri : forall i, is_shift tb i -> (ref_in tb b o i = true <-> in_period tb (mkPeriod (to_freq fs) o) i)).
    { intros i Hi. rewrite (in_period_ord tb Hr), Hf. unfold ref_in, ord_of. rewrite (ws_ref_ok _ W i Hi). fold b.
      rewrite pord_le_iff. assert (A : pord b (ref_of (tb_tl tb) i) < o + 1 <-> ref_of (tb_tl tb) i < pstart b (o + 1)).
      { pose proof (pord_le_iff b (o + 1) (ref_of (tb_tl tb) i)). lia. }
      rewrite A. split; [intros B; split; [exact Hi|lia]|intros (_ & B); lia]. }
    assert (Whole : z_total (map (one_of tb d s) (of_period tb (mkPeriod (to_freq fs) o))) = zlen (filter (ref_in tb b o) (duty_list tb s d 0 (tb_len tb - 1)))).
    { rewrite ones_filter. apply perm_zlen, NoDup_Permutation; [apply NoDup_filter, of_period_nodup|apply NoDup_filter, NoDup_filter, zrange_nodup|].
      intros i. unfold duty_list. rewrite !filter_In, (of_period_In tb Hr), positions_In. split.
      - intros (A & B). assert (Hi : is_shift tb i) by exact (proj1 A). split; [split; [unfold is_shift in Hi; lia|exact B]|]. apply Ri; assumption.
      - intros ((A & B) & C). assert (Hi : is_shift tb i) by (unfold is_shift; lia). split; [apply Ri; assumption|exact B]. }
    assert (Part : z_total (map (one_of tb d s) (filter (in_iv iv) (of_period tb (mkPeriod (to_freq fs) o)))) = zlen (filter (ref_in tb b o) (iv_list tb iv d s))).
    { rewrite ones_filter. apply perm_zlen, NoDup_Permutation; [apply NoDup_filter, NoDup_filter, of_period_nodup|rewrite iv_list_members; apply NoDup_filter, NoDup_filter, members_nodup|].
      intros i. rewrite iv_list_members, !filter_In, (of_period_In tb Hr), in_iv_iff, members_In. split.
      - intros ((A & B) & C). split; [split; assumption|]. apply Ri; [exact (proj1 A)|exact A].
      - intros ((A & B) & C). split; [split; [|exact A]|exact B]. apply Ri; [|exact C]. apply (iv_list_shifts tb iv d s i Hiv). rewrite iv_list_members. apply filter_In. rewrite members_In. split; assumption. }
    rewrite Whole, Part in E. rewrite Whole in E0. unfold quotient. destruct (zlen (filter (ref_in tb b o) (duty_list tb s d 0 (tb_len tb - 1))) =? 0) eqn:Z0.
    - apply E0. lia.
    - rewrite <- E. field. intros F. unfold Qeq in F. cbn [inject_Z Qnum Qden] in F. lia. }
  assert (Gen : forall n j, exists xs, Forall2 (reported tb 0%Q (fun v => what_portion_of tb iv v d (Some s))) (map (fun j => mkPeriod (to_freq fs) (o0 + Zpos (fmult (to_freq fs)) * j)) (zrange j n)) xs
    /\ (q_total xs == q_total (map (quotient tb iv b d s) (zrange (o0 + j) n)))%Q).
  { induction n as [|n IH]; intros j; cbn [zrange map]; [exists []; split; [constructor|reflexivity]|].
    destruct (Main (o0 + j)) as (x & Rx & Ex). destruct (IH (j + 1)) as (xs & Rs & Es). exists (x :: xs). split.
    - constructor; [|exact Rs]. rewrite Hf, Z.mul_1_l. exact Rx.
    - cbn [q_total fold_right]. apply Qplus_comp; [exact Ex|]. replace (o0 + j + 1) with (o0 + (j + 1)) by lia. exact Es. }
  destruct (Gen (Z.to_nat (o1 + 1 - o0)) 0) as (xs & Rs & Es). exists xs. split; [exact Ht|]. split; [exact Rs|]. rewrite Eq, Es, Z.add_0_r. reflexivity.
Qed.

(** ** Portions of the periods in one interval *)
Lemma C83_shares_pf : forall L (tb : timeboard L) iv f o n d s c, reachable tb -> iv_of tb iv -> made_of tb iv (successive f o n) ->
  d = DOn \/ d = DOff \/ d = DAny -> sched_for tb s -> iv_count iv d (Some s) = Ok c -> c <> 0 ->
  exists xs, Forall2 (reported tb 0%Q (fun v => what_portion_of tb v iv d (Some s))) (successive f o n) xs /\ (q_total xs == 1)%Q.
Proof.
  intros L tb iv f o n d s c Hr Hiv Hm Hd Hs Hc H0. pose proof (periods_perm tb Hr iv f o n Hm) as P.
  rewrite (count_sum tb d s Hr Hd Hs iv Hiv) in Hc. injection Hc as <-.
  assert (Hsome : forall s', Some s = Some s' -> sched_for tb s') by (intros s' [= <-]; exact Hs).
  assert (One : forall p, In p (successive f o n) -> exists x, reported tb 0%Q (fun v => what_portion_of tb v iv d (Some s)) p x
    /\ (x * inject_Z (z_total (map (one_of tb d s) (members iv))) == inject_Z (z_total (map (one_of tb d s) (of_period tb p))))%Q).
  { intros p Hp. unfold reported, of_period. destruct (period_get tb Hr p) as [(_ & v & -> & Hv & Mv)|((e & -> & He) & _)].
    2:{ exists 0%Q. split; [split; [exact He|reflexivity]|]. rewrite Qmult_0_l. reflexivity. }
    destruct (C28_portion_pf L tb v iv d (Some s) Hr Hv Hiv Hd Hsome) as (q & z & cz & cy & Eq & Ez & Ecz & Ecy & E & _). cbn [sched_arg] in *.
    destruct (C27_overlap_pf L tb v iv (Some s) Hr Hv Hiv Hsome) as (z' & Ez' & Hz & _ & Hmz & _). rewrite Ez in Ez'. injection Ez' as <-.
    rewrite (count_sum tb d s Hr Hd Hs z Hz) in Ecz. injection Ecz as <-. rewrite (count_sum tb d s Hr Hd Hs iv Hiv) in Ecy. injection Ecy as <-.
    exists q. split; [exact Eq|]. rewrite E. assert (X : z_total (map (one_of tb d s) (members z)) = z_total (map (one_of tb d s) (members v))); [|rewrite X; reflexivity]. apply z_total_perm, Permutation_map, NoDup_Permutation; [apply members_nodup|apply members_nodup|].
    intros i. rewrite !members_In, (Hmz i). split; [intros [A _]; exact A|]. intros A. split; [exact A|]. apply Hm. exists p. split; [exact Hp|apply Mv; exact A]. }
  assert (Gen : forall l, incl l (successive f o n) -> exists xs, Forall2 (reported tb 0%Q (fun v => what_portion_of tb v iv d (Some s))) l xs
    /\ (q_total xs * inject_Z (z_total (map (one_of tb d s) (members iv))) == inject_Z (z_total (map (fun p => z_total (map (one_of tb d s) (of_period tb p))) l)))%Q).
  { induction l as [|p l IH]; intros Hl; [exists []; split; [constructor|apply Qmult_0_l]|].
    destruct (One p (Hl p (or_introl eq_refl))) as (x & Rx & Ex). destruct (IH (fun y Hy => Hl y (or_intror Hy))) as (xs & Rs & Es). exists (x :: xs). split; [constructor; assumption|].
    unfold q_total, z_total in *. cbn [map fold_right]. rewrite inject_Z_plus, <- Ex, <- Es. ring. }
  destruct (Gen _ (incl_refl _)) as (xs & Rs & Es). exists xs. split; [exact Rs|].
  assert (T : z_total (map (one_of tb d s) (members iv)) = z_total (map (fun p => z_total (map (one_of tb d s) (of_period tb p))) (successive f o n))).
  { rewrite (z_total_perm _ _ (Permutation_map _ P)), z_total_concat, map_map. reflexivity. }
  rewrite <- T in Es. set (c := z_total (map (one_of tb d s) (members iv))) in *.
  assert (N : ~ (inject_Z c == 0)%Q) by (intros F; unfold Qeq in F; cbn [inject_Z Qnum Qden] in F; lia).
  apply (Qmult_inj_r _ _ (inject_Z c) N). rewrite Es, Qmult_1_l. reflexivity.
Qed.
