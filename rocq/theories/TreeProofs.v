(** Proofs of C07-C11: what a layout makes of every base unit. *)
From Verif Require Import Base BaseProofs Civil Freq FreqProofs Frame FrameProofs Timeline TimelineProofs Board Spec BoardProofs SpecLookup LookupProofs SpecMisc MiscProofs SpecLayout PartProofs.
From Coq Require Import ZifyBool ZifyNat.
Ltac Zify.zify_post_hook ::= Z.div_mod_to_equations.

(** ** Cycles *)
Lemma cyc_take_nth {A} (l : list A) n : l <> [] -> forall r i, (r <= length l)%nat -> (i < n)%nat ->
  nth_error (fst (cyc_take l (skipn r l) n)) i = nth_error l ((r + i) mod length l)%nat.
Proof.
  intros Hl. assert (Hn : (length l <> 0)%nat) by (destruct l; [contradiction|discriminate]).
  induction n as [|n IH]; intros r i Hr Hi; [lia|]. cbn [cyc_take].
  assert (Step : forall x r', (r' < length l)%nat -> nth_error l r' = Some x ->
     nth_error (fst (let (t, c) := cyc_take l (skipn (S r') l) n in (x :: t, c))) i = nth_error l ((r' + i) mod length l)%nat).
  { intros x r' Hr' Hx. specialize (IH (S r')). destruct (cyc_take l (skipn (S r') l) n) as [t c]. cbn [fst] in *.
    destruct i as [|i]; [cbn [nth_error]; rewrite Nat.add_0_r, Nat.mod_small by lia; symmetry; exact Hx|].
    cbn [nth_error]. rewrite IH by lia. f_equal. f_equal. lia. }
  destruct (skipn r l) as [|x cur] eqn:E.
  - assert (Er : r = length l) by (pose proof (skipn_length r l) as H; rewrite E in H; cbn in H; lia). subst r.
    destruct l as [|y l']; [contradiction|].
    specialize (Step y 0%nat ltac:(cbn [length]; lia) eq_refl). cbn [skipn] in Step. rewrite Step.
    f_equal. rewrite Nat.add_0_l. set (m := length (y :: l')) in *. replace (m + i)%nat with (i + 1 * m)%nat by lia. rewrite Nat.mod_add by exact Hn. reflexivity.
  - assert (Hr' : (r < length l)%nat).
    { destruct (Nat.eq_dec r (length l)) as [->|]; [rewrite skipn_all in E; discriminate|lia]. }
    assert (Hx : nth_error l r = Some x /\ cur = skipn (S r) l).
    { clear - E. revert r E. induction l as [|y l IH]; intros r E; [destruct r; discriminate|]. destruct r as [|r].
      - cbn in E. injection E as -> ->. split; reflexivity.
      - cbn [skipn] in E. apply IH in E. exact E. }
    destruct Hx as [Hx ->]. apply Step; assumption.
Qed.

Lemma nth_error_znth {A} (l : list A) (i : Z) : 0 <= i -> znth l i = nth_error l (Z.to_nat i).
Proof. intros H. unfold znth. destruct (i <? 0) eqn:E; [lia|reflexivity]. Qed.

Lemma cycled_ok {A} (l : list A) k : l <> [] -> exists x, cycled l k = Some x.
Proof.
  intros Hl. unfold cycled. destruct (nth_error l (Z.to_nat (k mod Z.of_nat (length l)))) as [x|] eqn:E; [exists x; reflexivity|].
  apply nth_error_None in E. assert (0 < Z.of_nat (length l)) by (destruct l; [contradiction|cbn [length]; lia]).
  pose proof (Z.mod_pos_bound k (Z.of_nat (length l))). lia.
Qed.

(** The labels a fresh pattern gives to a span. *)
Lemma skip_take_cycled {A} (l : list A) skip n i : l <> [] -> 0 <= i < Z.of_nat n ->
  znth (fst (skip_take l l skip n)) i = cycled l (Z.of_nat skip + i).
Proof.
  intros Hl Hi. unfold skip_take. pose proof (cyc_take_nth l (skip + n) Hl 0%nat) as H. cbn [skipn] in H.
  destruct (cyc_take l l (skip + n)) as [t r]. cbn [fst] in *. rewrite nth_error_znth by lia.
  assert (E : nth_error (skipn skip t) (Z.to_nat i) = nth_error t (skip + Z.to_nat i)).
  { clear. revert t. induction skip as [|k IH]; intros t; [reflexivity|]. destruct t as [|y t]; [destruct (Z.to_nat i); reflexivity|]. apply IH. }
  rewrite E, H by lia. unfold cycled. f_equal. rewrite Nat.add_0_l.
  rewrite <- (Nat2Z.id ((skip + Z.to_nat i) mod length l)). f_equal. rewrite Nat2Z.inj_mod. f_equal. lia.
Qed.

(** ** The labels of remembering patterns do not change *)
Definition static {L} (st st' : org_state L) : Prop := forall k, rlabels (st_heap st') k = rlabels (st_heap st) k.
Lemma static_refl {L} (st : org_state L) : static st st.
Proof. intros k. reflexivity. Qed.
Lemma static_trans {L} (a b c : org_state L) : static a b -> static b c -> static a c.
Proof. intros H1 H2 k. rewrite H2. apply H1. Qed.
Lemma heap_set_get {L} (h : heap L) k l r j : rlabels h k = l -> rlabels (heap_set h k (l, r)) j = rlabels h j.
Proof.
  unfold rlabels, heap_get, heap_set. revert k j. induction h as [|x h IH]; intros k j H.
  - destruct k; reflexivity.
  - destruct k as [|k].
    + cbn [set_nth]. destruct j; cbn [nth]; [cbn in H; symmetry; exact H|reflexivity].
    + cbn [set_nth]. destruct j; cbn [nth]; [reflexivity|]. apply IH. exact H.
Qed.
Lemma pattern_static {L} p s (st st' : org_state L) : apply_pattern p s st = Ok st' -> static st st'.
Proof.
  unfold apply_pattern. destruct (s_left s <? 0); [discriminate|]. destruct p as [[|x l]|k].
  - intros H. injection H as <-. apply static_refl.
  - intros H. injection H as <-. intros k. reflexivity.
  - destruct (heap_get (st_heap st) k) as [[|x l] cur] eqn:E; [intros H; injection H as <-; apply static_refl|].
    destruct (skip_take _ _ _ _) as [t r]. intros H. injection H as <-. intros j. cbn [st_heap]. apply heap_set_get.
    unfold rlabels. rewrite E. reflexivity.
Qed.
Lemma remembering_static {L} k spans : forall (st st' : org_state L), run_remembering k spans st = Ok st' -> static st st'.
Proof.
  induction spans as [|s spans IH]; intros st st' H; cbn [run_remembering] in H; [injection H as <-; apply static_refl|].
  destruct (heap_get (st_heap st) k) as [[|x l] cur] eqn:E; [injection H as <-; apply static_refl|].
  destruct (cyc_take (x :: l) cur 1) as [[|y t] r]; [injection H as <-; apply static_refl|].
  unfold apply_label in H. cbn [bind st_heap st_labels st_mask] in H. apply IH in H. intros j. rewrite H. cbn [st_heap].
  apply heap_set_get. unfold rlabels. rewrite E. reflexivity.
Qed.
Lemma cycle_static {L} (all cur : list (span -> org_state L -> res (org_state L))) spans :
  (forall act, In act all \/ In act cur -> forall s st st', act s st = Ok st' -> static st st') ->
  forall st st', run_cycle all cur spans st = Ok st' -> static st st'.
Proof.
  revert cur. induction spans as [|s spans IH]; intros cur Hc st st' H; cbn [run_cycle] in H; [injection H as <-; apply static_refl|].
  destruct cur as [|act cur].
  - destruct all as [|act all'] eqn:Ea; [injection H as <-; apply static_refl|].
    destruct (act s st) as [st1|e] eqn:E; cbn [bind] in H; [|discriminate].
    apply (static_trans _ st1); [apply (Hc act) in E; [exact E|left; left; reflexivity]|].
    apply (IH all'); [|exact H]. intros a [Ha|Ha]; apply Hc; left; [exact Ha|right; exact Ha].
  - destruct (act s st) as [st1|e] eqn:E; cbn [bind] in H; [|discriminate].
    apply (static_trans _ st1); [apply (Hc act) in E; [exact E|right; left; reflexivity]|].
    apply (IH cur); [|exact H]. intros a [Ha|Ha]; apply Hc; [left; exact Ha|right; right; exact Ha].
Qed.
Lemma organize_static {L} f (ly : layout L) : forall s st st', organize f ly s st = Ok st' -> static st st'.
Proof.
  induction ly as [d items IH|d k|p|x] using layout_ind2; intros s st st' H; cbn [organize] in H.
  - destruct (partition f d s); cbn [bind] in H; [|discriminate]. eapply cycle_static; [|exact H].
    intros act Ha. assert (Ha' : In act (map (organize f) items)) by (destruct Ha; assumption). apply in_map_iff in Ha'.
    destruct Ha' as (it & <- & Hit). rewrite Forall_forall in IH. apply IH. exact Hit.
  - destruct (partition f d s); cbn [bind] in H; [|discriminate]. eapply remembering_static. exact H.
  - eapply pattern_static. exact H.
  - unfold apply_label in H. injection H as <-. intros k. reflexivity.
Qed.

(** ** The span of a number in a cycle run *)
Definition same_on {L} (a b : Z) (st st' : org_state L) : Prop :=
  forall u, a <= u <= b -> znth (st_labels st') u = znth (st_labels st) u /\ znth (st_mask st') u = znth (st_mask st) u.
Lemma same_refl {L} a b (st : org_state L) : same_on a b st st.
Proof. intros u _. split; reflexivity. Qed.
Lemma same_trans {L} a b (s0 s1 s2 : org_state L) : same_on a b s0 s1 -> same_on a b s1 s2 -> same_on a b s0 s2.
Proof. intros H1 H2 u Hu. destruct (H1 u Hu), (H2 u Hu). split; congruence. Qed.
Lemma local_same {L} a b c d (st st' : org_state L) : local a b st st' -> (d < a \/ b < c) -> same_on c d st st'.
Proof. intros (_ & _ & H & _) Hr u Hu. apply H. lia. Qed.

Lemma run_cycle_step {L} n (all : list (span -> org_state L -> res (org_state L))) r s spans st st' :
  all <> [] -> (r <= length all)%nat -> Forall (act_local n) all ->
  run_cycle all (skipn r all) (s :: spans) st = Ok st' ->
  exists act st1 r', nth_error all (r mod length all)%nat = Some act /\ act s st = Ok st1
    /\ (r' <= length all)%nat /\ (forall j, ((r' + j) mod length all = (r + S j) mod length all)%nat)
    /\ run_cycle all (skipn r' all) spans st1 = Ok st'.
Proof.
  intros Hne Hr Hall H. cbn [run_cycle] in H.
  assert (Hn : (length all <> 0)%nat) by (destruct all; [contradiction|discriminate]).
  destruct (skipn r all) as [|act cur] eqn:E.
  - assert (Er : r = length all) by (pose proof (skipn_length r all) as Hk; rewrite E in Hk; cbn in Hk; lia). subst r.
    destruct all as [|act all'] eqn:Ea; [contradiction|]. rewrite <- Ea in *.
    destruct (act s st) as [st1|e] eqn:Eact; cbn [bind] in H; [|discriminate].
    exists act, st1, 1%nat. rewrite Nat.mod_same by exact Hn. split; [rewrite Ea; reflexivity|]. split; [exact Eact|]. split; [lia|]. split.
    + intros j. replace (length all + S j)%nat with ((1 + j) + 1 * length all)%nat by lia. rewrite Nat.mod_add by exact Hn. reflexivity.
    + rewrite Ea at 2. cbn [skipn]. exact H.
  - assert (Hr' : (r < length all)%nat) by (destruct (Nat.eq_dec r (length all)) as [->|]; [rewrite skipn_all in E; discriminate|lia]).
    assert (Hx : nth_error all r = Some act /\ cur = skipn (S r) all).
    { clear - E. revert r E. induction all as [|y l IH]; intros r E; [destruct r; discriminate|]. destruct r as [|r].
      - cbn in E. injection E as -> ->. split; reflexivity.
      - cbn [skipn] in E. apply IH in E. exact E. }
    destruct Hx as [Hx ->]. destruct (act s st) as [st1|e] eqn:Eact; cbn [bind] in H; [|discriminate].
    exists act, st1, (S r). rewrite Nat.mod_small by lia. split; [exact Hx|]. split; [exact Eact|]. split; [lia|]. split; [|exact H].
    intros j. f_equal. lia.
Qed.

Definition act_static {L} (act : span -> org_state L -> res (org_state L)) : Prop := forall s st st', act s st = Ok st' -> static st st'.
Lemma run_cycle_nth {L} n (all : list (span -> org_state L -> res (org_state L))) :
  all <> [] -> Forall (act_local n) all -> Forall act_static all ->
  forall spans a b, tiles a b spans -> 0 <= a -> b < n ->
  forall r st st' j s, (r <= length all)%nat -> st_ok n st ->
    run_cycle all (skipn r all) spans st = Ok st' -> nth_error spans j = Some s ->
    exists act st1 st2, nth_error all ((r + j) mod length all)%nat = Some act /\ act s st1 = Ok st2 /\ st_ok n st1 /\ static st st1
      /\ same_on (s_first s) (s_last s) st st1 /\ same_on (s_first s) (s_last s) st2 st'.
Proof.
  intros Hne Hall Hsta spans a b Ht. induction Ht as [a b x y H|a m b x y rest H1 H2 Ht IH]; intros Ha Hb r st st' j s Hr Hst Hrun Hj.
  - destruct j as [|j]; [|destruct j; discriminate]. cbn in Hj. injection Hj as <-.
    destruct (run_cycle_step n all r _ _ st st' Hne Hr Hall Hrun) as (act & st1 & r' & Hn & Eact & _ & _ & Hrest).
    cbn [run_cycle] in Hrest. injection Hrest as ->. exists act, st, st'. rewrite Nat.add_0_r.
    split; [exact Hn|]. split; [exact Eact|]. split; [exact Hst|]. split; [apply static_refl|]. split; apply same_refl.
  - destruct (run_cycle_step n all r _ _ st st' Hne Hr Hall Hrun) as (act & st1 & r' & Hn & Eact & Hr' & Hmod & Hrest).
    assert (Hb2 := tiles_le _ _ _ Ht).
    assert (Hact : act_local n act) by (rewrite Forall_forall in Hall; apply Hall; apply (nth_error_In _ _ Hn)).
    assert (L1 : local a m st st1) by (apply (Hact (mkSpan a m x y) st st1 Hst); cbn; (lia || exact Eact)).
    assert (Hst1 : st_ok n st1) by (eapply st_ok_local; eassumption).
    destruct j as [|j].
    + cbn in Hj. injection Hj as <-. cbn [s_first s_last]. rewrite Nat.add_0_r.
      exists act, st, st1. split; [exact Hn|]. split; [exact Eact|]. split; [exact Hst|]. split; [apply static_refl|]. split; [apply same_refl|].
      assert (L2 : local (m + 1) b st1 st').
      { eapply run_cycle_local; [exact Hall| |exact Ht|lia|exact Hb|exact Hst1|exact Hrest]. apply Forall_forall. intros z Hz.
        rewrite Forall_forall in Hall. apply Hall. rewrite <- (firstn_skipn r' all). apply in_or_app. right. exact Hz. }
      apply (local_same _ _ _ _ _ _ L2). lia.
    + cbn in Hj. destruct (IH ltac:(lia) Hb r' st1 st' j s Hr' Hst1 Hrest Hj) as (act' & st2 & st3 & Hn' & Eact' & Hok & Hst' & S1 & S2).
      exists act', st2, st3. rewrite Hmod in Hn'. split; [exact Hn'|]. split; [exact Eact'|]. split; [exact Hok|]. split; [apply (static_trans _ st1); [|exact Hst']; rewrite Forall_forall in Hsta; apply (Hsta act (nth_error_In _ _ Hn) _ _ _ Eact)|]. split; [|exact S2].
      apply (same_trans _ _ _ st1); [|exact S1]. apply (local_same _ _ _ _ _ _ L1).
      pose proof (tiles_In _ _ _ s Ht (nth_error_In _ _ Hj)). lia.
Qed.

(** ** The effect of the deciding leaf *)
Definition effect {L} (leaf : layout L) (s : span) (u : Z) (st st' : org_state L) : Prop :=
  match leaf with
  | LLab x => if u =? s_first s then znth (st_labels st') u = Some x /\ znth (st_mask st') u = znth (st_mask st) u
              else znth (st_mask st') u = Some false
  | LPat (PList []) | LOrg _ [] => znth (st_labels st') u = znth (st_labels st) u /\ znth (st_mask st') u = znth (st_mask st) u
  | LPat (PList l) => znth (st_labels st') u = cycled l (s_left s + (u - s_first s)) /\ znth (st_mask st') u = znth (st_mask st) u
  | LPat (PRem k) => znth (st_mask st') u = znth (st_mask st) u
      /\ (rlabels (st_heap st) k = [] -> znth (st_labels st') u = znth (st_labels st) u)
  | LOrgRem _ k => if rlabels (st_heap st) k
      then znth (st_labels st') u = znth (st_labels st) u /\ znth (st_mask st') u = znth (st_mask st) u
      else znth (st_mask st') u = if u =? s_first s then znth (st_mask st) u else Some false
  | LOrg _ _ => False
  end.

Lemma effect_same {L} (leaf : layout L) s u a b (st st1 st2 st' : org_state L) : a <= u <= b -> static st st1 ->
  same_on a b st st1 -> same_on a b st2 st' -> effect leaf s u st1 st2 -> effect leaf s u st st'.
Proof.
  intros Hu Hsta S1 S2. destruct (S1 u Hu) as [A B], (S2 u Hu) as [C D]. unfold effect.
  destruct leaf as [d [|i items]|d k|[[|z l]|k]|x]; try rewrite (Hsta k).
  - intros [E F]. split; congruence.
  - tauto.
  - destruct (rlabels (st_heap st) k); [intros [E F]; split; congruence|]. rewrite D, B. tauto.
  - intros [E F]. split; congruence.
  - intros [E F]. split; congruence.
  - rewrite A, B, C, D. tauto.
  - destruct (u =? s_first s); [intros [E F]; split; congruence|congruence].
Qed.

Lemma decides_inside {L} f u (ly : layout L) s leaf s' : fr_wf f -> decides f u ly s leaf s' ->
  span_wf f s -> s_first s <= u <= s_last s -> span_wf f s' /\ s_first s' <= u <= s_last s'.
Proof.
  intros Hw H. induction H as [p s|x s|d s|d k spans s s' j Hp Hj Hu|d items spans s s' j it leaf s'' Hp Hj Hu Hit Hd IH]; intros Hs Hus; try (split; assumption).
  - apply partition_tiles in Hp; [|exact Hw|exact Hs]. pose proof (tiles_In _ _ _ s' Hp (nth_error_In _ _ Hj)). unfold span_wf in *. split; lia.
  - apply partition_tiles in Hp; [|exact Hw|exact Hs]. pose proof (tiles_In _ _ _ s' Hp (nth_error_In _ _ Hj)). unfold span_wf in *. apply IH; lia.
Qed.

Lemma pattern_effect {L} n p s (st st' : org_state L) u : st_ok n st -> 0 <= s_first s <= s_last s -> s_last s < n ->
  s_first s <= u <= s_last s -> apply_pattern p s st = Ok st' -> effect (LPat p) s u st st'.
Proof.
  intros [H1 H2] Hs Hn Hu. unfold apply_pattern. destruct (s_left s <? 0) eqn:E; [discriminate|].
  destruct p as [[|x l]|k]; cbn [effect]; [intros H; injection H as <-; split; reflexivity| |].
  2:{ unfold rlabels. destruct (heap_get (st_heap st) k) as [[|y l] cur]; [intros H; injection H as <-; split; reflexivity|].
      destruct (skip_take _ _ _ _). intros H. injection H as <-. split; [reflexivity|discriminate]. }
  intros H. injection H as <-. cbn [st_labels st_mask]. split; [|reflexivity].
  set (t := fst (skip_take (x :: l) (x :: l) (Z.to_nat (s_left s)) (span_len s))).
  assert (Hl : zlen t = s_last s + 1 - s_first s) by (unfold t; rewrite skip_take_len by discriminate; apply span_len_z; lia).
  rewrite splice_znth by lia. rewrite Hl.
  destruct ((s_first s <=? u) && (u <? s_first s + (s_last s + 1 - s_first s))) eqn:E2; [|lia].
  unfold t. rewrite skip_take_cycled by (try discriminate; rewrite ?span_len_z by lia; lia). f_equal. lia.
Qed.

Lemma label_effect {L} n (x : L) s st st' u : st_ok n st -> 0 <= s_first s <= s_last s -> s_last s < n ->
  s_first s <= u <= s_last s -> apply_label x s st = Ok st' -> effect (LLab x) s u st st'.
Proof.
  intros [H1 H2] Hs Hn Hu. unfold apply_label. intros H. injection H as <-. cbn [effect st_labels st_mask].
  rewrite splice_znth by (rewrite ?zlen_repeat; lia). rewrite zlen_repeat, set_nth_znth by lia.
  destruct (u =? s_first s) eqn:E.
  - split.
    + destruct ((true) && (u <? zlen (st_labels st))) eqn:E2; [reflexivity|lia].
    + match goal with |- (if ?c then _ else _) = _ => destruct c eqn:E2; [lia|reflexivity] end.
  - match goal with |- (if ?c then _ else _) = _ => destruct c eqn:E2; [|lia] end. apply znth_repeat. lia.
Qed.

Lemma cyc_take_1 {L} (x : L) l cur : exists y t r, cyc_take (x :: l) cur 1 = (y :: t, r).
Proof. cbn [cyc_take]. destruct cur as [|y cur]; eexists _, _, _; reflexivity. Qed.

Lemma remembering_effect {L} n d k spans a b : tiles a b spans -> 0 <= a -> b < n ->
  forall (st st' : org_state L) s u, st_ok n st -> run_remembering k spans st = Ok st' -> In s spans -> s_first s <= u <= s_last s ->
  effect (LOrgRem d k) s u st st'.
Proof.
  intros Ht Ha Hb. revert Ha Hb.
  assert (Hhead : forall (s : span) (st : org_state L) x, st_ok n st -> 0 <= s_first s <= s_last s -> s_last s < n ->
     exists st1, apply_label x s st = Ok st1 /\ st_ok n st1 /\ local (s_first s) (s_last s) st st1
       /\ forall u, s_first s <= u <= s_last s -> znth (st_mask st1) u = if u =? s_first s then znth (st_mask st) u else Some false).
  { intros s st x Hst H1 H2. eexists. split; [reflexivity|].
    assert (Lo := apply_label_local n x s st _ Hst H1 H2 eq_refl). split; [eapply st_ok_local; eassumption|]. split; [exact Lo|].
    intros u Hu. pose proof (label_effect n x s st _ u Hst H1 H2 Hu eq_refl) as E. cbn [effect] in E.
    destruct (u =? s_first s); [apply E|exact E]. }
  assert (Hstep : forall s rest (st st' : org_state L), st_ok n st -> 0 <= s_first s <= s_last s -> s_last s < n ->
     run_remembering k (s :: rest) st = Ok st' ->
     (rlabels (st_heap st) k = [] /\ st' = st)
     \/ (rlabels (st_heap st) k <> [] /\ exists st1, run_remembering k rest st1 = Ok st' /\ st_ok n st1 /\ static st st1 /\ local (s_first s) (s_last s) st st1
          /\ forall u, s_first s <= u <= s_last s -> znth (st_mask st1) u = if u =? s_first s then znth (st_mask st) u else Some false)).
  { intros s rest st st' Hst H1 H2 H. cbn [run_remembering] in H. unfold rlabels.
    destruct (heap_get (st_heap st) k) as [[|x l] cur] eqn:E; [left; split; [reflexivity|congruence]|]. right. split; [discriminate|].
    destruct (cyc_take_1 x l cur) as (y & t & r & Ec). rewrite Ec in H.
    set (st0 := mkSt (st_labels st) (st_mask st) (heap_set (st_heap st) k (x :: l, r))) in *.
    assert (Hst0 : st_ok n st0) by exact Hst. destruct (Hhead s st0 y Hst0 H1 H2) as (st1 & E1 & Hok & Lo & Hm).
    assert (Hsta : static st st1).
    { unfold apply_label in E1. injection E1 as <-. intros j. cbn [st_heap st0]. apply heap_set_get. unfold rlabels. rewrite E. reflexivity. }
    rewrite E1 in H. cbn [bind] in H. exists st1. split; [exact H|]. split; [exact Hok|]. split; [exact Hsta|]. split; [exact Lo|exact Hm]. }
  induction Ht as [a b x y H|a m b x y rest H1 H2 Ht IH]; intros Ha Hb st st' s u Hst Hrun Hin Hu; cbn [effect].
  - destruct Hin as [<-|[]].
    destruct (Hstep (mkSpan a b x y) [] st st' Hst ltac:(cbn; lia) ltac:(cbn; lia) Hrun) as [[E ->]|(E & st1 & Hr & _ & _ & _ & Hm)].
    + rewrite E. split; reflexivity.
    + cbn [run_remembering] in Hr. injection Hr as <-. destruct (rlabels (st_heap st) k); [contradiction|]. apply Hm. exact Hu.
  - assert (Hb2 := tiles_le _ _ _ Ht).
    destruct (Hstep (mkSpan a m x y) rest st st' Hst ltac:(cbn; lia) ltac:(cbn; lia) Hrun) as [[E ->]|(E & st1 & Hr & Hok & Hsta & Lo & Hm)].
    + rewrite E. split; reflexivity.
    + cbn [s_first s_last] in Lo, Hm. destruct Hin as [<-|Hin].
      * destruct (rlabels (st_heap st) k); [contradiction|]. cbn [s_first s_last] in Hu |- *.
        pose proof (run_remembering_local n k rest (m + 1) b Ht ltac:(lia) Hb st1 st' Hok Hr) as Lo2.
        destruct Lo2 as (_ & _ & Lo2 & _). destruct (Lo2 u ltac:(lia)) as [_ ->]. apply Hm. exact Hu.
      * pose proof (tiles_In _ _ _ s Ht Hin) as Hs. specialize (IH ltac:(lia) Hb st1 st' s u Hok Hr Hin Hu). cbn [effect] in IH.
        rewrite (Hsta k) in IH. destruct Lo as (_ & _ & Lo & _). destruct (Lo u ltac:(lia)) as [A B].
        destruct (rlabels (st_heap st) k); [contradiction|]. rewrite <- B. exact IH.
Qed.

Lemma decides_effect {L} f u (ly : layout L) s leaf s' : fr_wf f -> decides f u ly s leaf s' ->
  span_wf f s -> s_first s <= u <= s_last s ->
  forall st st', st_ok (fr_len f) st -> organize f ly s st = Ok st' -> effect leaf s' u st st'.
Proof.
  intros Hw H. induction H as [p s|x s|d s|d k spans s s' j Hp Hj Hu|d items spans s s' j it leaf s'' Hp Hj Hu Hit Hd IH];
    intros [Hs1 Hs2] Hus st st' Hst Ho; cbn [organize] in Ho.
  - apply (pattern_effect (fr_len f)); assumption.
  - apply (label_effect (fr_len f)); assumption.
  - cbn [map] in Ho. destruct (partition f d s) as [spans|e]; cbn [bind] in Ho; [|discriminate].
    assert (st' = st) as -> by (destruct spans; cbn in Ho; congruence). split; reflexivity.
  - rewrite Hp in Ho. cbn [bind] in Ho. apply partition_tiles in Hp; [|exact Hw|split; assumption].
    apply (remembering_effect (fr_len f) d k spans _ _ Hp ltac:(lia) Hs2 st st' s' u Hst Ho (nth_error_In _ _ Hj) Hu).
  - rewrite Hp in Ho. cbn [bind] in Ho. apply partition_tiles in Hp; [|exact Hw|split; assumption].
    assert (Hne : map (organize f) items <> []) by (destruct items; [destruct (j mod _)%nat; discriminate|discriminate]).
    assert (Hall : Forall (act_local (fr_len f)) (map (organize f) items)).
    { apply Forall_map, Forall_forall. intros x _. apply organize_local. exact Hw. }
    assert (Hsta : Forall act_static (map (organize f) items)).
    { apply Forall_map, Forall_forall. intros x _ sx. apply organize_static. }
    destruct (run_cycle_nth (fr_len f) _ Hne Hall Hsta spans _ _ Hp ltac:(lia) Hs2 0%nat st st' j s' ltac:(lia) Hst Ho Hj)
      as (act & st1 & st2 & Hn & Eact & Hok & Hsta1 & S1 & S2).
    rewrite map_length, Nat.add_0_l in Hn. rewrite (map_nth_error (organize f) _ _ Hit) in Hn. injection Hn as <-.
    pose proof (tiles_In _ _ _ s' Hp (nth_error_In _ _ Hj)) as Hin.
    apply (effect_same leaf s'' u (s_first s') (s_last s') st st1 st2 st' Hu Hsta1 S1 S2).
    apply IH; [split; lia|exact Hu|exact Hok|exact Eact].
Qed.

(** Some leaf decides, and just one. *)
Lemma decides_ex {L} f u (ly : layout L) : fr_wf f -> forall s st st', span_wf f s -> s_first s <= u <= s_last s -> st_ok (fr_len f) st ->
  organize f ly s st = Ok st' -> exists leaf s', decides f u ly s leaf s'.
Proof.
  intros Hw. induction ly as [d items IH|d k|p|x] using layout_ind2; intros s st st' [Hs1 Hs2] Hus Hst Ho; cbn [organize] in Ho.
  - destruct (partition f d s) as [spans|e] eqn:Hp; cbn [bind] in Ho; [|discriminate].
    destruct items as [|i0 items0] eqn:Ei; [exists (LOrg d []), s; constructor|]. rewrite <- Ei in *.
    pose proof (partition_tiles _ _ _ _ Hw (conj Hs1 Hs2) Hp) as Ht.
    destruct (tiles_cover _ _ _ u Ht Hus) as (jz & s' & Hj & Hu).
    pose proof (znth_range _ _ _ Hj) as Rj. rewrite nth_error_znth in Hj by lia. set (j := Z.to_nat jz) in *.
    assert (Hne : map (organize f) items <> []) by (rewrite Ei; discriminate).
    assert (Hall : Forall (act_local (fr_len f)) (map (organize f) items)).
    { apply Forall_map, Forall_forall. intros x _. apply organize_local. exact Hw. }
    assert (Hsta : Forall act_static (map (organize f) items)).
    { apply Forall_map, Forall_forall. intros x _ sx. apply organize_static. }
    destruct (run_cycle_nth (fr_len f) _ Hne Hall Hsta spans _ _ Ht ltac:(lia) Hs2 0%nat st st' j s' ltac:(lia) Hst Ho Hj)
      as (act & st1 & st2 & Hn & Eact & Hok & _).
    rewrite map_length, Nat.add_0_l in Hn.
    destruct (nth_error items (j mod length items)%nat) as [it|] eqn:Hit.
    2:{ apply nth_error_None in Hit. assert (length items <> 0)%nat by (rewrite Ei; discriminate). pose proof (Nat.mod_upper_bound j (length items)). lia. }
    rewrite (map_nth_error (organize f) _ _ Hit) in Hn. injection Hn as <-.
    pose proof (tiles_In _ _ _ s' Ht (nth_error_In _ _ Hj)) as Hin.
    rewrite Forall_forall in IH. destruct (IH it (nth_error_In _ _ Hit) s' st1 st2 ltac:(split; lia) Hu Hok Eact) as (leaf & s'' & Hd).
    exists leaf, s''. eapply dec_org; eassumption.
  - destruct (partition f d s) as [spans|e] eqn:Hp; cbn [bind] in Ho; [|discriminate].
    pose proof (partition_tiles _ _ _ _ Hw (conj Hs1 Hs2) Hp) as Ht.
    destruct (tiles_cover _ _ _ u Ht Hus) as (jz & s' & Hj & Hu).
    pose proof (znth_range _ _ _ Hj) as Rj. rewrite nth_error_znth in Hj by lia.
    exists (LOrgRem d k), s'. eapply dec_remember; eassumption.
  - exists (LPat p), s. constructor.
  - exists (LLab x), s. constructor.
Qed.

Lemma decides_fun {L} f u (ly : layout L) s l1 s1 : fr_wf f -> decides f u ly s l1 s1 -> span_wf f s ->
  forall l2 s2, decides f u ly s l2 s2 -> l1 = l2 /\ s1 = s2.
Proof.
  intros Hw H. induction H as [p s|x s|d s|d k spans s s' j Hp Hj Hu|d items spans s s' j it leaf s'' Hp Hj Hu Hit Hd IH]; intros Hs l2 s2 H2.
  - inversion H2; subst. split; reflexivity.
  - inversion H2; subst. split; reflexivity.
  - inversion H2 as [ | | | |? ? ? ? ? ? ? ? ? ? ? ? Hx]; subst; [split; reflexivity|]. destruct (j mod length _)%nat; discriminate.
  - inversion H2 as [ | | |? ? spans2 ? ? j2 Hp2 Hj2 Hu2| ]; subst. rewrite Hp in Hp2. injection Hp2 as <-.
    apply partition_tiles in Hp; [|exact Hw|exact Hs].
    assert (Ej : Z.of_nat j = Z.of_nat j2).
    { apply (tiles_unique _ _ _ _ _ s' s2 u Hp); try assumption; rewrite nth_error_znth, Nat2Z.id by lia; assumption. }
    assert (j = j2) by lia. subst j2. rewrite Hj in Hj2. injection Hj2 as <-. split; reflexivity.
  - inversion H2 as [ | |d0 s0| |d2 items2 spans2 sx s2' j2 it2 leaf2 s2'' Hp2 Hj2 Hu2 Hit2 Hd2]; subst; [destruct (j mod length _)%nat; discriminate|].
    rewrite Hp in Hp2. injection Hp2 as <-.
    pose proof (partition_tiles _ _ _ _ Hw Hs Hp) as Ht.
    assert (Ej : Z.of_nat j = Z.of_nat j2).
    { apply (tiles_unique _ _ _ _ _ s' s2' u Ht); try assumption; rewrite nth_error_znth, Nat2Z.id by lia; assumption. }
    assert (j = j2) by lia. subst j2. rewrite Hj in Hj2. injection Hj2 as <-. rewrite Hit in Hit2. injection Hit2 as <-.
    apply IH; [|exact Hd2]. pose proof (tiles_In _ _ _ s' Ht (nth_error_In _ _ Hj)). unfold span_wf in *. lia.
Qed.
