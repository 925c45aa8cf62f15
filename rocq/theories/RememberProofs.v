(** Proofs of C12. *)
From Verif Require Import Base BaseProofs Civil Freq FreqProofs Frame FrameProofs Timeline TimelineProofs Board Spec BoardProofs SpecLookup LookupProofs SpecMisc MiscProofs SpecLayout PartProofs TreeProofs LayoutProofs SpecRemember.
From Coq Require Import ZifyBool ZifyNat.
Ltac Zify.zify_post_hook ::= Z.div_mod_to_equations.

(** ** Labels to come *)
Definition upc {L} (l cur : list L) (i : Z) : option L :=
  if i <? Z.of_nat (length cur) then nth_error cur (Z.to_nat i) else cycled l (i - Z.of_nat (length cur)).

Lemma cycled_shift {L} (l : list L) i : cycled l (i + Z.of_nat (length l)) = cycled l i.
Proof.
  unfold cycled. destruct l as [|x l]; [cbn [length]; rewrite Z.add_0_r; reflexivity|].
  set (n := Z.of_nat (length (x :: l))). assert (n <> 0) by (unfold n; cbn [length]; lia).
  replace (i + n) with (i + 1 * n) by lia. rewrite Z.mod_add by assumption. reflexivity.
Qed.
Lemma cycled_small {L} (l : list L) i : 0 <= i < Z.of_nat (length l) -> cycled l i = nth_error l (Z.to_nat i).
Proof. intros H. unfold cycled. rewrite Z.mod_small by exact H. reflexivity. Qed.

Lemma upc_full {L} (l : list L) i : 0 <= i -> upc l l i = cycled l i.
Proof.
  intros Hi. unfold upc. destruct (i <? Z.of_nat (length l)) eqn:E; [symmetry; apply cycled_small; lia|].
  rewrite <- (cycled_shift l (i - _)). f_equal. lia.
Qed.
Lemma upc_nil {L} (l : list L) i : 0 <= i -> upc l [] i = cycled l i.
Proof. intros Hi. unfold upc. cbn [length]. destruct (i <? Z.of_nat 0) eqn:E; [lia|]. f_equal. lia. Qed.
Lemma upc_0 {L} (l : list L) x cur : upc l (x :: cur) 0 = Some x.
Proof. reflexivity. Qed.
Lemma upc_S {L} (l : list L) x cur i : 0 <= i -> upc l (x :: cur) (1 + i) = upc l cur i.
Proof.
  intros Hi. unfold upc. cbn [length].
  destruct (i <? Z.of_nat (length cur)) eqn:E.
  - destruct (1 + i <? Z.of_nat (S (length cur))) eqn:E2; [|lia]. replace (Z.to_nat (1 + i)) with (S (Z.to_nat i)) by lia. reflexivity.
  - destruct (1 + i <? Z.of_nat (S (length cur))) eqn:E2; [lia|]. f_equal. lia.
Qed.

Lemma cyc_take_upc {L} (l : list L) n : l <> [] -> forall cur t r, cyc_take l cur n = (t, r) ->
  length t = n
  /\ (forall i, 0 <= i < Z.of_nat n -> nth_error t (Z.to_nat i) = upc l cur i)
  /\ (forall i, 0 <= i -> upc l r i = upc l cur (Z.of_nat n + i)).
Proof.
  intros Hl. induction n as [|n IH]; intros cur t r H; cbn [cyc_take] in H.
  - injection H as <- <-. split; [reflexivity|]. split; [intros i Hi; lia|]. intros i Hi. f_equal.
  - assert (Step : forall x cur', (let (t, r) := cyc_take l cur' n in (x :: t, r)) = (t, r) ->
      length t = S n /\ (forall i, 0 <= i < Z.of_nat (S n) -> nth_error t (Z.to_nat i) = upc l (x :: cur') i)
      /\ (forall i, 0 <= i -> upc l r i = upc l (x :: cur') (Z.of_nat (S n) + i))).
    { intros x cur' H'. destruct (cyc_take l cur' n) as [t' r'] eqn:E. injection H' as <- <-. destruct (IH _ _ _ E) as (I1 & I2 & I3).
      split; [cbn [length]; lia|]. split.
      - intros i Hi. destruct (Z.eq_dec i 0) as [->|Hne]; [reflexivity|]. replace i with (1 + (i - 1)) at 2 by lia. rewrite upc_S by lia.
        rewrite <- I2 by lia. replace (Z.to_nat i) with (S (Z.to_nat (i - 1))) by lia. reflexivity.
      - intros i Hi. rewrite I3 by exact Hi. replace (Z.of_nat (S n) + i) with (1 + (Z.of_nat n + i)) by lia. rewrite upc_S by lia. reflexivity. }
    destruct cur as [|x cur]; [|apply Step; exact H]. destruct l as [|y l'] eqn:El; [contradiction|]. rewrite <- El in *.
    destruct (Step y l' H) as (S1 & S2 & S3).
    assert (E : forall i, 0 <= i -> upc l (y :: l') i = upc l [] i) by (intros i Hi; rewrite <- El, upc_full, upc_nil by exact Hi; reflexivity).
    split; [exact S1|]. split; intros i Hi; [rewrite S2 by exact Hi; apply E; lia|rewrite S3 by exact Hi; apply E; lia].
Qed.

(** ** The heap *)
Lemma heap_get_set_same {L} (h : heap L) k r : rlabels h k <> [] -> heap_get (heap_set h k r) k = r.
Proof.
  unfold rlabels, heap_get, heap_set. revert k. induction h as [|x h IH]; intros k H; [destruct k; contradiction|].
  destruct k as [|k]; [reflexivity|]. cbn [set_nth nth] in *. apply IH. exact H.
Qed.
Lemma heap_get_set_other {L} (h : heap L) k j r : j <> k -> heap_get (heap_set h k r) j = heap_get h j.
Proof.
  unfold heap_get, heap_set. revert k j. induction h as [|x h IH]; intros k j H; [destruct k; reflexivity|].
  destruct k as [|k], j as [|j]; cbn [set_nth nth]; try reflexivity; [contradiction|]. apply IH. congruence.
Qed.

(** ** What uses do to the state *)
Definition w_span (w : use) : span := match w with OnUnits s => s | OnWhole s => s end.
Definition puts {L} (st st' : org_state L) (k : nat) (n : Z) (w : use) : Prop :=
  match w with
  | OnUnits s => forall u, s_first s <= u <= s_last s -> znth (st_labels st') u = upcoming (st_heap st) k (n + s_left s + (u - s_first s))
  | OnWhole s => znth (st_labels st') (s_first s) = upcoming (st_heap st) k n
  end.
Definition outcome {L} (a b : Z) (st st' : org_state L) (uses : list (nat * use)) : Prop :=
  (forall k w, In (k, w) uses -> a <= s_first (w_span w) /\ s_first (w_span w) <= s_last (w_span w) <= b
      /\ match w with OnUnits s => 0 <= s_left s | _ => True end)
  /\ (forall k, rlabels (st_heap st) k <> [] -> forall i, 0 <= i -> upcoming (st_heap st') k i = upcoming (st_heap st) k (taken k uses + i))
  /\ (forall m k w, nth_error uses m = Some (k, w) -> rlabels (st_heap st) k <> [] -> puts st st' k (taken k (firstn m uses)) w).

Lemma outcome_nil {L} a b (st st' : org_state L) : st_heap st' = st_heap st -> outcome a b st st' [].
Proof.
  intros E. split; [intros k w []|]. split; [intros k _ i Hi; rewrite E; reflexivity|]. intros m k w H. destruct m; discriminate.
Qed.
Lemma taken_app k l1 l2 : taken k (l1 ++ l2) = taken k l1 + taken k l2.
Proof. induction l1 as [|[j w] l1 IH]; cbn [app taken]; [reflexivity|]. rewrite IH. lia. Qed.
Lemma taken_nonneg {L} a b (st st' : org_state L) uses : outcome a b st st' uses -> forall m k, 0 <= taken k (firstn m uses).
Proof.
  intros (H & _) m k. revert m. induction uses as [|[j w] uses IH]; intros m; [rewrite firstn_nil; cbn; lia|].
  destruct m as [|m]; [cbn; lia|]. cbn [firstn taken]. specialize (IH (fun k' w' Hin => H k' w' (or_intror Hin)) m).
  specialize (H j w (or_introl eq_refl)). unfold takes. destruct w as [s|s]; cbn in *; destruct (j =? k)%nat; lia.
Qed.

Lemma outcome_join {L} a m b (st st1 st2 : org_state L) l1 l2 : a <= m -> m < b -> outcome a m st st1 l1 -> outcome (m + 1) b st1 st2 l2 ->
  static st st1 -> local (m + 1) b st1 st2 -> outcome a b st st2 (l1 ++ l2).
Proof.
  intros Ham Hmb O1 O2 Hsta Lo. pose proof (taken_nonneg _ _ _ _ _ O1) as T1. pose proof (taken_nonneg _ _ _ _ _ O2) as T2.
  destruct O1 as (A1 & B1 & C1), O2 as (A2 & B2 & C2). destruct Lo as (_ & _ & Lo & _). split; [|split].
  - intros k w H. apply in_app_or in H. destruct H as [H|H]; [specialize (A1 k w H)|specialize (A2 k w H)]; intuition lia.
  - intros k Hk i Hi. rewrite B2; [|rewrite (Hsta k); exact Hk|exact Hi].
    assert (0 <= taken k l2) by (specialize (T2 (length l2) k); rewrite firstn_all in T2; exact T2).
    rewrite B1 by (try assumption; lia). rewrite taken_app. f_equal. lia.
  - intros j k w H Hk. destruct (Nat.lt_ge_cases j (length l1)) as [Hj|Hj].
    + rewrite nth_error_app1 in H by exact Hj. rewrite firstn_app. replace (j - length l1)%nat with 0%nat by lia. cbn [firstn]. rewrite app_nil_r.
      specialize (C1 j k w H Hk). specialize (A1 k w (nth_error_In _ _ H)). unfold puts in *. destruct w as [s|s]; cbn [w_span] in A1.
      * intros u Hu. destruct (Lo u ltac:(lia)) as [-> _]. apply C1. exact Hu.
      * destruct (Lo (s_first s) ltac:(lia)) as [-> _]. exact C1.
    + rewrite nth_error_app2 in H by exact Hj. rewrite firstn_app, (firstn_all2 l1) by exact Hj. rewrite taken_app.
      assert (Hk1 : rlabels (st_heap st1) k <> []) by (rewrite (Hsta k); exact Hk).
      specialize (C2 _ k w H Hk1). specialize (T2 (j - length l1)%nat k). specialize (A2 k w (nth_error_In _ _ H)). unfold puts in *.
      set (n2 := taken k (firstn (j - length l1) l2)) in *. destruct w as [s|s].
      * intros u Hu. rewrite (C2 u Hu), B1 by (try assumption; lia). f_equal. lia.
      * rewrite C2, B1 by (try assumption; lia). reflexivity.
Qed.

Lemma upcoming_upc {L} (h : heap L) k l cur i : heap_get h k = (l, cur) -> upcoming h k i = upc l cur i.
Proof. intros E. unfold upcoming. rewrite E. reflexivity. Qed.

Lemma taken_1 k w : taken k [(k, w)] = takes w.
Proof. cbn. rewrite Nat.eqb_refl. lia. Qed.
Lemma taken_1_other k j w : j <> k -> taken k [(j, w)] = 0.
Proof. intros H. cbn. destruct (j =? k)%nat eqn:E; [apply Nat.eqb_eq in E; contradiction|reflexivity]. Qed.

Lemma pattern_outcome {L} n k s (st st' : org_state L) : st_ok n st -> 0 <= s_first s <= s_last s -> s_last s < n ->
  apply_pattern (PRem k) s st = Ok st' -> outcome (s_first s) (s_last s) st st' [(k, OnUnits s)].
Proof.
  intros [H1 H2] Hs Hn H. unfold apply_pattern in H. destruct (s_left s <? 0) eqn:El; [discriminate|].
  split; [|].
  { intros k' w [E|[]]. injection E as <- <-. cbn. lia. }
  destruct (heap_get (st_heap st) k) as [l cur] eqn:Eh.
  assert (Hex : l = [] \/ l <> []) by (destruct l; [left; reflexivity|right; discriminate]). destruct Hex as [->|Hl].
  - injection H as <-. assert (Hr : rlabels (st_heap st) k = []) by (unfold rlabels; rewrite Eh; reflexivity). split.
    + intros k' Hk' i Hi. rewrite taken_1_other by congruence. reflexivity.
    + intros m k' w Hm Hk'. destruct m as [|m]; [|destruct m; discriminate]. cbn in Hm. injection Hm as <- <-. contradiction.
  - assert (H' : (let (t, r) := skip_take l cur (Z.to_nat (s_left s)) (span_len s) in
        Ok (mkSt (splice (st_labels st) (s_first s) t) (st_mask st) (heap_set (st_heap st) k (l, r)))) = Ok st').
    { destruct l; [contradiction|exact H]. }
    clear H. unfold skip_take in H'. destruct (cyc_take l cur (Z.to_nat (s_left s) + span_len s)) as [t r] eqn:Ec. injection H' as <-.
    destruct (cyc_take_upc l _ Hl _ _ _ Ec) as (T1 & T2 & T3). pose proof (span_len_z s ltac:(lia)) as Hsl.
    assert (Hr : rlabels (st_heap st) k <> []) by (unfold rlabels; rewrite Eh; exact Hl). split.
    + intros k' Hk' i Hi. destruct (Nat.eq_dec k' k) as [->|Hne].
      * rewrite taken_1. cbn [st_heap takes]. rewrite (upcoming_upc _ k l r) by (apply heap_get_set_same; exact Hr).
        rewrite (upcoming_upc _ k l cur) by exact Eh. rewrite T3 by exact Hi. f_equal. lia.
      * rewrite taken_1_other by congruence. unfold upcoming. cbn [st_heap]. rewrite heap_get_set_other by exact Hne. reflexivity.
    + intros m k' w Hm Hk'. destruct m as [|m]; [|destruct m; discriminate]. cbn in Hm. injection Hm as <- <-. cbn [firstn taken puts].
      intros u Hu. cbn [st_labels].
      assert (Hlen : zlen (skipn (Z.to_nat (s_left s)) t) = s_last s + 1 - s_first s).
      { unfold zlen. rewrite skipn_length, T1. lia. }
      rewrite splice_znth by lia. rewrite Hlen.
      destruct ((s_first s <=? u) && (u <? s_first s + (s_last s + 1 - s_first s))) eqn:E2; [|lia].
      rewrite znth_skipn by lia. rewrite nth_error_znth by lia. rewrite T2 by lia. rewrite (upcoming_upc _ k l cur) by exact Eh. f_equal. lia.
Qed.

Lemma label_outcome {L} n k s x l cur r (st st' : org_state L) : st_ok n st -> 0 <= s_first s <= s_last s -> s_last s < n ->
  heap_get (st_heap st) k = (l, cur) -> l <> [] -> forall t, cyc_take l cur 1 = (x :: t, r) ->
  apply_label x s (mkSt (st_labels st) (st_mask st) (heap_set (st_heap st) k (l, r))) = Ok st' ->
  outcome (s_first s) (s_last s) st st' [(k, OnWhole s)].
Proof.
  intros [H1 H2] Hs Hn Eh Hl t Ec H. unfold apply_label in H. injection H as <-.
  destruct (cyc_take_upc l _ Hl _ _ _ Ec) as (T1 & T2 & T3).
  assert (Hr : rlabels (st_heap st) k <> []) by (unfold rlabels; rewrite Eh; exact Hl).
  split; [|split].
  - intros k' w [E|[]]. injection E as <- <-. cbn. lia.
  - intros k' Hk' i Hi. cbn [st_heap]. destruct (Nat.eq_dec k' k) as [->|Hne].
    + rewrite taken_1. cbn [takes]. rewrite (upcoming_upc _ k l r) by (apply heap_get_set_same; exact Hr).
      rewrite (upcoming_upc _ k l cur) by exact Eh. rewrite T3 by exact Hi. f_equal.
    + rewrite taken_1_other by congruence. unfold upcoming. rewrite heap_get_set_other by exact Hne. reflexivity.
  - intros m k' w Hm Hk'. destruct m as [|m]; [|destruct m; discriminate]. cbn in Hm. injection Hm as <- <-. cbn [firstn taken puts st_labels].
    rewrite set_nth_znth by lia. rewrite Z.eqb_refl. match goal with |- (if ?c then _ else _) = _ => destruct c eqn:E; [|lia] end.
    rewrite (upcoming_upc _ k l cur) by exact Eh. rewrite <- T2 by lia. reflexivity.
Qed.

Lemma remembering_outcome {L} n k spans a b : tiles a b spans -> 0 <= a -> b < n ->
  forall (st st' : org_state L), st_ok n st -> run_remembering k spans st = Ok st' ->
  outcome a b st st' (map (fun s => (k, OnWhole s)) spans).
Proof.
  intros Ht Ha Hb st st' Hst H. destruct (heap_get (st_heap st) k) as [[|z l0] cur0] eqn:Eh.
  - assert (st' = st) as -> by (destruct spans; cbn [run_remembering] in H; rewrite ?Eh in H; congruence).
    assert (Hr : rlabels (st_heap st) k = []) by (unfold rlabels; rewrite Eh; reflexivity). split; [|split].
    + intros k' w Hin. apply in_map_iff in Hin. destruct Hin as (s & E & Hs). injection E as <- <-. cbn.
      pose proof (tiles_In _ _ _ s Ht Hs). lia.
    + intros k' Hk' i Hi. assert (E : taken k' (map (fun s => (k, OnWhole s)) spans) = 0); [|rewrite E; reflexivity].
      assert (k <> k') by congruence. clear - H0. induction spans as [|s spans IH]; [reflexivity|]. cbn [map taken]. rewrite IH.
      destruct (k =? k')%nat eqn:E; [apply Nat.eqb_eq in E; contradiction|reflexivity].
    + intros m k' w Hm Hk'. apply nth_error_In, in_map_iff in Hm. destruct Hm as (s & E & _). injection E as <- <-. contradiction.
  - assert (Hr : rlabels (st_heap st) k <> []) by (unfold rlabels; rewrite Eh; discriminate). clear Eh z l0 cur0.
    revert st st' Hst H Hr. induction Ht as [a b x y H0|a m b x y rest H1 H2 Ht IH]; intros st st' Hst H Hr.
    + cbn [run_remembering] in H. destruct (heap_get (st_heap st) k) as [l cur] eqn:Eh.
      assert (Hl : l <> []) by (unfold rlabels in Hr; rewrite Eh in Hr; exact Hr). destruct l as [|z l]; [contradiction|].
      destruct (cyc_take_1 z l cur) as (lab & t & r & Ec). rewrite Ec in H.
      destruct (apply_label _ _ _) as [st1|e] eqn:E1; cbn [bind] in H; [|discriminate]. injection H as <-.
      exact (label_outcome n k (mkSpan a b x y) lab _ _ _ st st1 Hst ltac:(cbn; lia) ltac:(cbn; lia) Eh Hl t Ec E1).
    + pose proof (tiles_le _ _ _ Ht) as Hle. cbn [run_remembering] in H. destruct (heap_get (st_heap st) k) as [l cur] eqn:Eh.
      assert (Hl : l <> []) by (unfold rlabels in Hr; rewrite Eh in Hr; exact Hr). destruct l as [|z l]; [contradiction|].
      destruct (cyc_take_1 z l cur) as (lab & t & r & Ec). rewrite Ec in H.
      destruct (apply_label _ _ _) as [st1|e] eqn:E1; cbn [bind] in H; [|discriminate].
      assert (O1 := label_outcome n k (mkSpan a m x y) lab _ _ _ st st1 Hst ltac:(cbn; lia) ltac:(cbn; lia) Eh Hl t Ec E1).
      assert (Hok : st_ok n st1).
      { eapply st_ok_local; [|eapply (apply_label_local n lab (mkSpan a m x y)); [|cbn; lia|cbn; lia|exact E1]]; exact Hst. }
      assert (Hsta : static st st1).
      { unfold apply_label in E1. injection E1 as <-. intros j. cbn [st_heap]. apply heap_set_get. unfold rlabels. rewrite Eh. reflexivity. }
      change (map (fun s => (k, OnWhole s)) (mkSpan a m x y :: rest)) with ([(k, OnWhole (mkSpan a m x y))] ++ map (fun s => (k, OnWhole s)) rest).
      apply (outcome_join a m b st st1 st'); [lia|lia|exact O1| |exact Hsta|].
      * apply (IH ltac:(lia) Hb st1 st' Hok H). rewrite (Hsta k). exact Hr.
      * exact (run_remembering_local n k rest (m + 1) b Ht ltac:(lia) Hb st1 st' Hok H).
Qed.

Lemma Forall_skip {A} (P : A -> Prop) l : Forall P l -> forall n, Forall P (skipn n l).
Proof. intros H n. revert l H. induction n as [|n IH]; intros l H; [exact H|]. destruct H; cbn [skipn]; [constructor|apply IH; assumption]. Qed.
Lemma cycle_outcome {L} f (items : list (layout L)) : fr_wf f -> items <> [] ->
  Forall (fun it => forall s st st', span_wf f s -> st_ok (fr_len f) st -> organize f it s st = Ok st' ->
            exists uses, used f it s uses /\ outcome (s_first s) (s_last s) st st' uses) items ->
  forall spans a b, tiles a b spans -> 0 <= a -> b < fr_len f ->
  forall r j st st', (r <= length items)%nat -> (forall i, ((r + i) mod length items = (j + i) mod length items)%nat) -> st_ok (fr_len f) st ->
    run_cycle (map (organize f) items) (skipn r (map (organize f) items)) spans st = Ok st' ->
    exists uses, used_spans f items j spans uses /\ outcome a b st st' uses.
Proof.
  intros Hw Hne Hall spans a b Ht.
  assert (Hne' : map (organize f) items <> []) by (destruct items; [contradiction|discriminate]).
  assert (Hloc : Forall (act_local (fr_len f)) (map (organize f) items)).
  { apply Forall_map, Forall_forall. intros x _. apply organize_local. exact Hw. }
  assert (Hsel : forall r j act s st st1, (forall i, ((r + i) mod length items = (j + i) mod length items)%nat) ->
     nth_error (map (organize f) items) (r mod length (map (organize f) items))%nat = Some act -> act s st = Ok st1 ->
     exists it, nth_error items (j mod length items)%nat = Some it /\ organize f it s st = Ok st1).
  { intros r j act s st st1 Hm Hn E. rewrite map_length in Hn. specialize (Hm 0%nat). rewrite !Nat.add_0_r in Hm. rewrite Hm in Hn.
    destruct (nth_error items (j mod length items)%nat) as [it|] eqn:Ei.
    - rewrite (map_nth_error (organize f) _ _ Ei) in Hn. injection Hn as <-. exists it. split; [reflexivity|exact E].
    - apply nth_error_None in Ei. assert (Hc : (length items <> 0)%nat) by (destruct items; [contradiction|discriminate]).
      pose proof (Nat.mod_upper_bound j _ Hc). lia. }
  rewrite Forall_forall in Hall.
  induction Ht as [a b x y H0|a m b x y rest H1 H2 Ht IH]; intros Ha Hb r j st st' Hr Hm Hst Hrun.
  - destruct (run_cycle_step (fr_len f) _ r _ _ st st' Hne' ltac:(rewrite map_length; exact Hr) Hloc Hrun) as (act & st1 & r' & Hn & Eact & _ & _ & Hrest).
    cbn [run_cycle] in Hrest. injection Hrest as ->. destruct (Hsel _ _ _ _ _ _ Hm Hn Eact) as (it & Hit & Eo).
    destruct (Hall it (nth_error_In _ _ Hit) (mkSpan a b x y) st st' ltac:(unfold span_wf; cbn; lia) Hst Eo) as (l & Hl & Ol).
    exists (l ++ []). rewrite app_nil_r. split; [|exact Ol]. rewrite <- (app_nil_r l). eapply us_cons; [exact Hit|exact Hl|constructor].
  - pose proof (tiles_le _ _ _ Ht) as Hle.
    destruct (run_cycle_step (fr_len f) _ r _ _ st st' Hne' ltac:(rewrite map_length; exact Hr) Hloc Hrun) as (act & st1 & r' & Hn & Eact & Hr' & Hmod & Hrest).
    rewrite map_length in Hr', Hmod.
    destruct (Hsel _ _ _ _ _ _ Hm Hn Eact) as (it & Hit & Eo).
    destruct (Hall it (nth_error_In _ _ Hit) (mkSpan a m x y) st st1 ltac:(unfold span_wf; cbn; lia) Hst Eo) as (l & Hl & Ol).
    assert (Lo1 := organize_local f it Hw (mkSpan a m x y) st st1 Hst ltac:(cbn; lia) ltac:(cbn; lia) Eo). cbn [s_first s_last] in Lo1.
    assert (Hok : st_ok (fr_len f) st1) by (eapply st_ok_local; eassumption).
    destruct (IH ltac:(lia) Hb r' (S j) st1 st' Hr') as (l' & Hl' & Ol').
    { intros i. rewrite Hmod, (Hm (S i)). f_equal. lia. }
    { exact Hok. }
    { exact Hrest. }
    exists (l ++ l'). split; [eapply us_cons; eassumption|].
    apply (outcome_join a m b st st1 st'); [lia|lia|exact Ol|exact Ol'|exact (organize_static f it _ _ _ Eo)|].
    exact (run_cycle_local (fr_len f) _ _ rest (m + 1) b Hloc (Forall_skip _ _ Hloc r') Ht ltac:(lia) Hb st1 st' Hok Hrest).
Qed.

Lemma organize_outcome {L} f (ly : layout L) : fr_wf f -> forall s st st', span_wf f s -> st_ok (fr_len f) st -> organize f ly s st = Ok st' ->
  exists uses, used f ly s uses /\ outcome (s_first s) (s_last s) st st' uses.
Proof.
  intros Hw. induction ly as [d items IH|d k|p|x] using layout_ind2; intros s st st' [Hs1 Hs2] Hst Ho; cbn [organize] in Ho.
  - destruct (partition f d s) as [spans|e] eqn:Hp; cbn [bind] in Ho; [|discriminate].
    pose proof (partition_tiles _ _ _ _ Hw (conj Hs1 Hs2) Hp) as Ht. destruct items as [|i0 items0] eqn:Ei.
    + exists []. split; [eapply used_nothing; exact Hp|]. apply outcome_nil. cbn [map] in Ho. destruct spans; cbn in Ho; congruence.
    + rewrite <- Ei in *. assert (Hne : items <> []) by (rewrite Ei; discriminate).
      destruct (cycle_outcome f items Hw Hne IH spans _ _ Ht ltac:(lia) Hs2 0%nat 0%nat st st' ltac:(lia) (fun i => eq_refl) Hst Ho) as (l & Hl & Ol).
      exists l. split; [|exact Ol]. eapply used_org; eassumption.
  - destruct (partition f d s) as [spans|e] eqn:Hp; cbn [bind] in Ho; [|discriminate].
    pose proof (partition_tiles _ _ _ _ Hw (conj Hs1 Hs2) Hp) as Ht.
    exists (map (fun s' => (k, OnWhole s')) spans). split; [constructor; exact Hp|].
    exact (remembering_outcome (fr_len f) k spans _ _ Ht ltac:(lia) Hs2 st st' Hst Ho).
  - destruct p as [l|k].
    + assert (Hl : 0 <= s_left s) by (unfold apply_pattern in Ho; destruct (s_left s <? 0) eqn:El; [discriminate|lia]).
      exists []. split; [constructor; exact Hl|]. apply outcome_nil. unfold apply_pattern in Ho. destruct (s_left s <? 0); [discriminate|].
      destruct l; injection Ho as <-; reflexivity.
    + assert (Hl : 0 <= s_left s) by (unfold apply_pattern in Ho; destruct (s_left s <? 0) eqn:El; [discriminate|lia]).
      exists [(k, OnUnits s)]. split; [constructor; exact Hl|]. exact (pattern_outcome (fr_len f) k s st st' Hst Hs1 Hs2 Ho).
  - exists []. split; [constructor|]. apply outcome_nil. unfold apply_label in Ho. injection Ho as <-. reflexivity.
Qed.

(** ** Uses and deciding leaves *)
Scheme used_mind := Minimality for used Sort Prop
  with used_spans_mind := Minimality for used_spans Sort Prop.
Combined Scheme used_mutind from used_mind, used_spans_mind.

Definition use_leaf {L} (k : nat) (w : use) (leaf : layout L) : Prop :=
  match w with OnUnits _ => leaf = LPat (PRem k) | OnWhole _ => exists d, leaf = LOrgRem d k end.

Lemma used_decides_both {L} f : fr_wf f ->
  (forall (ly : layout L) s uses, used f ly s uses -> span_wf f s ->
     forall k w u, In (k, w) uses -> s_first (w_span w) <= u <= s_last (w_span w) ->
     exists leaf, decides f u ly s leaf (w_span w) /\ use_leaf k w leaf)
  /\ (forall (items : list (layout L)) j spans uses, used_spans f items j spans uses -> Forall (span_wf f) spans ->
     forall k w u, In (k, w) uses -> s_first (w_span w) <= u <= s_last (w_span w) ->
     exists i s it leaf, nth_error spans i = Some s /\ nth_error items ((j + i) mod length items)%nat = Some it
       /\ s_first s <= u <= s_last s /\ decides f u it s leaf (w_span w) /\ use_leaf k w leaf).
Proof.
  intros Hw. apply used_mutind.
  - intros l s _ _ k w u [].
  - intros x s _ k w u [].
  - intros k s _ _ k' w u [E|[]] Hu. injection E as <- <-. exists (LPat (PRem k)). split; [constructor|reflexivity].
  - intros d k s spans Hp _ k' w u Hin Hu. apply in_map_iff in Hin. destruct Hin as (s' & E & Hin). injection E as <- <-.
    apply In_nth_error in Hin. destruct Hin as [j Hj]. exists (LOrgRem d k). split; [|exists d; reflexivity].
    cbn [w_span] in *. eapply dec_remember; eassumption.
  - intros d s spans _ _ k w u [].
  - intros d items s spans l Hne Hp _ IH Hs k w u Hin Hu. pose proof (partition_tiles _ _ _ _ Hw Hs Hp) as Ht.
    destruct (IH ltac:(apply Forall_forall; intros x Hx; pose proof (tiles_In _ _ _ x Ht Hx); unfold span_wf in *; lia) k w u Hin Hu)
      as (i & s' & it & leaf & Hi & Hit & Hus & Hd & Hlf).
    exists leaf. split; [|exact Hlf]. eapply dec_org; [exact Hp|exact Hi|exact Hus|exact Hit|exact Hd].
  - intros items j _ k w u [].
  - intros items j s rest it l l' Hit Hl IHl Hl' IHr HF k w u Hin Hu.
    assert (Hs := Forall_inv HF). assert (HF' := Forall_inv_tail HF). apply in_app_or in Hin. destruct Hin as [Hin|Hin].
    + destruct (IHl Hs k w u Hin Hu) as (leaf & Hd & Hlf). exists 0%nat, s, it, leaf. rewrite Nat.add_0_r. split; [reflexivity|]. split; [exact Hit|].
      split; [|split; assumption]. pose proof (decides_nest _ _ _ _ _ _ Hw Hd Hs). lia.
    + destruct (IHr HF' k w u Hin Hu) as (i & s' & it' & leaf & Hi & Hit' & H1 & H2 & H3). exists (S i), s', it', leaf.
      split; [exact Hi|]. split; [rewrite <- Hit'; f_equal; f_equal; lia|]. split; [exact H1|]. split; assumption.
Qed.

Lemma used_fun_both {L} f :
  (forall (ly : layout L) s uses, used f ly s uses -> forall uses', used f ly s uses' -> uses' = uses)
  /\ (forall (items : list (layout L)) j spans uses, used_spans f items j spans uses -> forall uses', used_spans f items j spans uses' -> uses' = uses).
Proof.
  apply used_mutind.
  - intros l s _ u' H. inversion H. reflexivity.
  - intros x s u' H. inversion H. reflexivity.
  - intros k s _ u' H. inversion H. reflexivity.
  - intros d k s spans Hp u' H. inversion H; subst. congruence.
  - intros d s spans _ u' H. inversion H; subst; [reflexivity|contradiction].
  - intros d items s spans l Hne Hp _ IH u' H. inversion H; subst; [contradiction|]. apply IH. congruence.
  - intros items j u' H. inversion H. reflexivity.
  - intros items j s rest it l l' Hit _ IHl _ IHr u' H. inversion H; subst.
    match goal with Hx : nth_error items _ = Some ?it2 |- _ => rewrite Hit in Hx; injection Hx as <- end.
    f_equal; [apply IHl|apply IHr]; assumption.
Qed.

Lemma shift_label {L} f m labels band re (tl : timeline L) u a b x : tl = mkTl f (nonzero m) (take_at labels (nonzero m)) band re ->
  tl_wf tl -> zlen m = zlen labels -> shift_of tl u a b x -> znth labels a = Some x.
Proof.
  intros E W Hl H. apply shift_of_num in H; [|exact W]. destruct H as (i & Hi & B1 & _ & Hx & _).
  pose proof (bnd_znth tl i Hi) as Bi. rewrite B1 in Bi.
  destruct (tl_get_ex tl W i Hi) as (y & E1 & E2). rewrite Hx in E1. injection E1 as <-. rewrite E in Bi, E2. cbn [tl_index tl_labels] in Bi, E2.
  destruct (take_at_ok labels (nonzero m)) as [_ T]. { intros k Hk. apply nonzero_In, znth_range in Hk. lia. }
  rewrite (T i a Bi) in E2. exact E2.
Qed.

Lemma C12_one_pf : forall (L : Type) (a : tb_args L) (h : heap L) tb h', build a h = Ok (tb, h') ->
  exists uses, uses_of (a, tb) uses /\ (forall l, uses_of (a, tb) l -> l = uses)
    /\ forall k, rlabels h k <> [] ->
         rlabels h' k = rlabels h k
         /\ (forall i, 0 <= i -> upcoming h' k i = upcoming h k (taken k uses + i))
         /\ (forall m, 0 <= taken k (firstn m uses)) /\ (forall s, In (k, OnUnits s) uses -> 0 <= s_left s)
         /\ (a_amendments a = [] -> forall m w, nth_error uses m = Some (k, w) -> delivers (tb_tl tb) h k (taken k (firstn m uses)) w).
Proof.
  intros L a h tb h' H. pose proof H as H0. apply build_inv in H.
  destruct H as (org & f & tl0 & Eo & _ & Et & Ea & _ & _ & _ & _ & Hw & _ & _ & Ef & _).
  destruct (mk_timeline_inv _ _ _ _ _ _ _ Hw Et) as (st & Ho & Lm & Ll & M0 & Etl & Eh & W).
  change (mkSpan 0 (fr_len f - 1) 0 0) with (whole_span f) in Ho.
  match type of Ho with organize _ _ _ ?s = _ => set (st0 := s) in Ho end.
  assert (Hst0 : st_ok (fr_len f) st0) by (unfold st_ok, st0; cbn; rewrite !zlen_repeat; unfold fr_wf in Hw; lia).
  assert (Hs : span_wf f (whole_span f)) by (unfold span_wf, whole_span, fr_wf in *; cbn; lia).
  destruct (organize_outcome f org Hw _ _ _ Hs Hst0 Ho) as (uses & Hu & Ol).
  pose proof (taken_nonneg _ _ _ _ _ Ol) as Hnn. destruct Ol as (O1 & O2 & O3).
  exists uses. split; [exists org; cbn [fst snd]; rewrite Ef; split; assumption|]. split.
  { intros l (org' & Eo' & Hu'). cbn [fst snd] in *. rewrite Eo in Eo'. injection Eo' as <-. rewrite Ef in Hu'.
    exact (proj1 (used_fun_both f) _ _ _ Hu _ Hu'). }
  intros k Hk. split. { rewrite Eh. apply (organize_static f org _ _ _ Ho). }
  split; [intros i Hi; rewrite Eh; exact (O2 k Hk i Hi)|]. split; [intros m; apply Hnn|].
  split; [intros s Hin; apply (O1 k (OnUnits s) Hin)|].
  intros Ham m w Hm. rewrite Ham, amend_nil in Ea. injection Ea as Ea. rewrite <- Ea.
  specialize (O3 m k w Hm Hk). specialize (O1 k w (nth_error_In _ _ Hm)). cbn [whole_span s_first s_last] in O1.
  assert (Hleaf : forall u, s_first (w_span w) <= u <= s_last (w_span w) -> exists leaf, use_leaf k w leaf /\ leaf_does tl0 h (a_default a) leaf (w_span w) u).
  { intros u Hu'. destruct (proj1 (used_decides_both f Hw) _ _ _ Hu Hs k w u (nth_error_In _ _ Hm) Hu') as (leaf & Hd & Hlf).
    destruct (tree_leaf f org _ _ h tl0 h' Hw Et u ltac:(lia)) as (leaf' & s' & _ & Hun & Hdo). destruct (Hun _ _ Hd) as [<- <-].
    exists leaf. split; assumption. }
  assert (Hlab : forall u a' b x, shift_of tl0 u a' b x -> znth (st_labels st) a' = Some x).
  { intros u a' b x Hx. eapply shift_label; [exact Etl|exact W|lia|exact Hx]. }
  destruct w as [s|s]; cbn [puts delivers w_span use_leaf] in *; change (st_heap st0) with h in O3.
  - intros u Hu'. destruct (Hleaf u Hu') as (leaf & -> & x & Hx & _). exists x. split; [|exact Hx].
    rewrite <- (O3 u Hu'). exact (Hlab _ _ _ _ Hx).
  - destruct (Hleaf (s_first s) ltac:(lia)) as (leaf & [d ->] & x & Hx). cbn [leaf_does] in Hx.
    destruct (rlabels h k) as [|z l] eqn:Er; [contradiction|]. exists x. split; [rewrite <- O3; exact (Hlab _ _ _ _ Hx)|].
    intros u Hu'. destruct (Hleaf u Hu') as (leaf & [d' ->] & y & Hy). cbn [leaf_does] in Hy. rewrite Er in Hy.
    assert (x = y) by (apply Hlab in Hx, Hy; congruence). subst y. exact Hy.
Qed.

Lemma C12_history_pf : forall (L : Type) (h : heap L) l h' k, history h l h' -> rlabels h k <> [] ->
  exists usess, Forall2 uses_of l usess
    /\ (forall n m uses, nth_error usess n = Some uses -> 0 <= taken k (concat (firstn n usess)) /\ 0 <= taken k (firstn m uses)
          /\ forall s, In (k, OnUnits s) uses -> 0 <= s_left s)
    /\ (forall i, 0 <= i -> upcoming h' k i = upcoming h k (taken k (concat usess) + i))
    /\ forall n a tb uses m w, nth_error l n = Some (a, tb) -> nth_error usess n = Some uses -> a_amendments a = [] ->
         nth_error uses m = Some (k, w) -> delivers (tb_tl tb) h k (taken k (concat (firstn n usess)) + taken k (firstn m uses)) w.
Proof.
  intros L h l h' k H. revert k.
  enough (Hx : forall k, rlabels h k <> [] -> exists usess, Forall2 uses_of l usess /\ 0 <= taken k (concat usess)
    /\ (forall n m uses, nth_error usess n = Some uses -> 0 <= taken k (concat (firstn n usess)) /\ 0 <= taken k (firstn m uses)
          /\ forall s, In (k, OnUnits s) uses -> 0 <= s_left s)
    /\ (forall i, 0 <= i -> upcoming h' k i = upcoming h k (taken k (concat usess) + i))
    /\ forall n a tb uses m w, nth_error l n = Some (a, tb) -> nth_error usess n = Some uses -> a_amendments a = [] ->
         nth_error uses m = Some (k, w) -> delivers (tb_tl tb) h k (taken k (concat (firstn n usess)) + taken k (firstn m uses)) w).
  { intros k Hk. destruct (Hx k Hk) as (usess & A & _ & B & C). exists usess. split; [exact A|]. split; assumption. }
  induction H as [h|h a tb h1 l h2 Hb Hh IH]; intros k Hk.
  - exists []. split; [constructor|]. split; [cbn; lia|]. split; [intros n m uses Hn; destruct n; discriminate|]. split; [reflexivity|].
    intros n a tb uses m w Hn. destruct n; discriminate.
  - destruct (C12_one_pf _ _ _ _ _ Hb) as (uses0 & Hu0 & _ & Hone). destruct (Hone k Hk) as (R1 & R2 & R3 & R5 & R4).
    destruct (IH k) as (usess & F & Hnn & Hpre & Hup & Hdel). { rewrite R1. exact Hk. }
    assert (Hn0 : 0 <= taken k uses0) by (specialize (R3 (length uses0)); rewrite firstn_all in R3; exact R3).
    exists (uses0 :: usess). split; [constructor; assumption|]. cbn [concat]. rewrite taken_app. split; [lia|]. split; [|split].
    + intros n m uses Hn. destruct n as [|n]; cbn [nth_error firstn concat] in *.
      * injection Hn as <-. split; [cbn; lia|]. split; [apply R3|exact R5].
      * rewrite taken_app. destruct (Hpre n m uses Hn) as (P1 & P2 & P3). split; [lia|]. split; assumption.
    + intros i Hi. rewrite Hup by exact Hi. rewrite R2 by lia. f_equal. lia.
    + intros n a' tb' uses m w Hn Hn' Ha Hm. destruct n as [|n]; cbn [nth_error firstn concat] in *.
      * injection Hn as <- <-. injection Hn' as <-. cbn [taken]. apply R4; assumption.
      * destruct (Hpre n m uses Hn') as (P1 & P2 & P3). specialize (Hdel n a' tb' uses m w Hn Hn' Ha Hm). rewrite taken_app.
        unfold delivers in *. destruct w as [s|s].
        -- intros u Hu. destruct (Hdel u Hu) as (x & E & Hx). exists x. split; [|exact Hx]. rewrite <- E.
           rewrite R2; [f_equal; lia|]. assert (0 <= s_left s); [|lia].
           apply P3. eapply nth_error_In. exact Hm.
        -- destruct Hdel as (x & E & Hx). exists x. split; [|exact Hx]. rewrite <- E. rewrite R2 by lia. f_equal. lia.
Qed.

Lemma upcoming_fresh {L} (h : heap L) k l i : fresh h k l -> 0 <= i -> upcoming h k i = cycled l i.
Proof. intros H Hi. rewrite (upcoming_upc h k l l i H). apply upc_full. exact Hi. Qed.
Lemma taken_given k uses : no_skips k uses -> taken k uses = given k uses.
Proof.
  induction uses as [|[j w] uses IH]; intros H; [reflexivity|]. cbn [taken given]. rewrite IH by (intros s Hs; apply H; right; exact Hs).
  destruct (j =? k)%nat eqn:E; [|reflexivity]. apply Nat.eqb_eq in E. subst j. destruct w as [s|s]; [|reflexivity].
  cbn [takes gives]. rewrite (H s (or_introl eq_refl)). lia.
Qed.
Lemma no_skips_firstn k uses m : no_skips k uses -> no_skips k (firstn m uses).
Proof. intros H s Hs. apply H. rewrite <- (firstn_skipn m uses). apply in_or_app. left. exact Hs. Qed.
Lemma in_concat_firstn {A} (x : A) ls n : In x (concat (firstn n ls)) -> In x (concat ls).
Proof. intros H. rewrite <- (firstn_skipn n ls), concat_app. apply in_or_app. left. exact H. Qed.

Lemma C12_consecutive_partial_pf : forall (L : Type) (h : heap L) l h' k pat, fresh h k pat -> pat <> [] -> history h l h' ->
  exists usess, Forall2 uses_of l usess
    /\ (no_skips k (concat usess) ->
        (forall i, 0 <= i -> upcoming h' k i = cycled pat (given k (concat usess) + i))
        /\ forall n a tb uses m w, nth_error l n = Some (a, tb) -> nth_error usess n = Some uses -> a_amendments a = [] ->
             nth_error uses m = Some (k, w) -> delivers_from (tb_tl tb) pat (given k (concat (firstn n usess)) + given k (firstn m uses)) w).
Proof.
  intros L h l h' k pat Hf Hp Hh.
  assert (Hk : rlabels h k <> []) by (unfold rlabels; rewrite Hf; exact Hp).
  destruct (C12_history_pf L h l h' k Hh Hk) as (usess & F & Hpos & Hup & Hdel). exists usess. split; [exact F|]. intros Hns. split.
  - intros i Hi. rewrite Hup by exact Hi. rewrite (taken_given k (concat usess)) by exact Hns. apply upcoming_fresh; [exact Hf|].
    assert (0 <= given k (concat usess)); [|lia]. rewrite <- taken_given by exact Hns.
    assert (Hall : forall ls, (forall n u, nth_error ls n = Some u -> 0 <= taken k u) -> 0 <= taken k (concat ls)).
    { induction ls as [|u ls IH]; intros H; [cbn; lia|]. cbn [concat]. rewrite taken_app. specialize (IH (fun n u' Hn => H (S n) u' Hn)). specialize (H 0%nat u eq_refl). lia. }
    apply Hall. intros n u Hn. destruct (Hpos n (length u) u Hn) as (_ & P & _). rewrite firstn_all in P. exact P.
  - intros n a tb uses m w Hn Hn' Ha Hm. specialize (Hdel n a tb uses m w Hn Hn' Ha Hm). destruct (Hpos n m uses Hn') as (P1 & P2 & P3).
    assert (N1 : no_skips k (concat (firstn n usess))) by (intros s Hs; apply Hns; eapply in_concat_firstn; exact Hs).
    assert (Hin : forall x, In x uses -> In x (concat usess)) by (intros x Hx; apply in_concat; exists uses; split; [eapply nth_error_In; exact Hn'|exact Hx]).
    assert (N2 : no_skips k uses) by (intros s Hs; apply Hns; apply Hin; exact Hs).
    rewrite (taken_given k (concat (firstn n usess)) N1), (taken_given k (firstn m uses) (no_skips_firstn _ _ _ N2)) in *.
    unfold delivers in Hdel. unfold delivers_from. destruct w as [s|s].
    + assert (E0 : s_left s = 0) by (apply N2; eapply nth_error_In; exact Hm). intros u Hu. destruct (Hdel u Hu) as (x & E & Hx). exists x. split; [|exact Hx].
      rewrite <- E, E0. rewrite (upcoming_fresh h k pat) by (try assumption; lia). f_equal. lia.
    + destruct Hdel as (x & E & Hx). exists x. split; [|exact Hx]. rewrite <- E. symmetry. apply upcoming_fresh; [exact Hf|lia].
Qed.
