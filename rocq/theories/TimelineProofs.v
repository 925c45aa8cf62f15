From Verif Require Import Base BaseProofs Civil Freq FreqProofs Frame FrameProofs Timeline.
From Coq Require Import ZifyBool ZifyNat Sorted.
Ltac Zify.zify_post_hook ::= Z.div_mod_to_equations.

(** ** Induction over layouts *)
Section LayoutInd.
  Context {L : Type} (P : layout L -> Prop).
  Hypothesis Horg : forall d items, Forall P items -> P (LOrg d items).
  Hypothesis Hrem : forall d k, P (LOrgRem d k).
  Hypothesis Hpat : forall p, P (LPat p).
  Hypothesis Hlab : forall x, P (LLab x).
  Fixpoint layout_ind2 (ly : layout L) : P ly :=
    match ly with
    | LOrg d items =>
        Horg d items ((fix go (l : list (layout L)) : Forall P l :=
                         match l with
                         | [] => Forall_nil P
                         | x :: l' => Forall_cons x (layout_ind2 x) (go l')
                         end) items)
    | LOrgRem d k => Hrem d k
    | LPat p => Hpat p
    | LLab x => Hlab x
    end.
End LayoutInd.

(** ** Organizing a span touches nothing else *)
Definition st_ok {L} (n : Z) (st : org_state L) : Prop :=
  zlen (st_labels st) = n /\ zlen (st_mask st) = n.

Definition local {L} (a b : Z) (st st' : org_state L) : Prop :=
  zlen (st_labels st') = zlen (st_labels st) /\ zlen (st_mask st') = zlen (st_mask st)
  /\ (forall u, u < a \/ b < u -> znth (st_labels st') u = znth (st_labels st) u
                               /\ znth (st_mask st') u = znth (st_mask st) u)
  /\ znth (st_mask st') a = znth (st_mask st) a.

Lemma local_refl {L} a b (st : org_state L) : local a b st st.
Proof. repeat split; auto. Qed.

Lemma cyc_take_len {A} (l cur : list A) n : l <> [] -> length (fst (cyc_take l cur n)) = n.
Proof.
  intros Hl. revert cur. induction n as [|n IH]; intros cur; cbn [cyc_take]; [reflexivity|].
  destruct cur as [|x cur].
  - destruct l as [|y l]; [congruence|]. specialize (IH l). destruct (cyc_take (y :: l) l n). cbn in *. lia.
  - specialize (IH cur). destruct (cyc_take l cur n). cbn in *. lia.
Qed.
Lemma skip_take_len {A} (l cur : list A) k n : l <> [] -> zlen (fst (skip_take l cur k n)) = Z.of_nat n.
Proof.
  intros Hl. unfold skip_take. pose proof (cyc_take_len l cur (k + n) Hl) as H.
  destruct (cyc_take l cur (k + n)) as [t r]. cbn [fst] in *. unfold zlen. rewrite skipn_length. lia.
Qed.

Lemma span_len_z s : s_first s <= s_last s -> Z.of_nat (span_len s) = s_last s + 1 - s_first s.
Proof. unfold span_len. lia. Qed.

Lemma splice_local_labels {L} n (st : org_state L) s t h :
  st_ok n st -> 0 <= s_first s <= s_last s -> s_last s < n -> zlen t = s_last s + 1 - s_first s ->
  local (s_first s) (s_last s) st (mkSt (splice (st_labels st) (s_first s) t) (st_mask st) h).
Proof.
  intros [H1 H2] Hs Hn Ht. unfold local. cbn [st_labels st_mask].
  rewrite zlen_splice by lia. repeat split; try reflexivity.
  rewrite splice_znth by lia. destruct ((s_first s <=? u) && (u <? s_first s + zlen t)) eqn:E; [lia|reflexivity].
Qed.

Lemma apply_pattern_local {L} n p s (st st' : org_state L) :
  st_ok n st -> 0 <= s_first s <= s_last s -> s_last s < n ->
  apply_pattern p s st = Ok st' -> local (s_first s) (s_last s) st st'.
Proof.
  intros Hst Hs Hn. unfold apply_pattern. destruct (s_left s <? 0); [discriminate|].
  destruct p as [l|k].
  - destruct l as [|x l]; intros H; injection H as <-; [apply local_refl|].
    eapply splice_local_labels; [exact Hst|exact Hs|exact Hn|].
    change (zlen (fst (skip_take (x :: l) (x :: l) (Z.to_nat (s_left s)) (span_len s))) = s_last s + 1 - s_first s).
    rewrite skip_take_len by discriminate. apply span_len_z. lia.
  - destruct (heap_get (st_heap st) k) as [l cur] eqn:Eh. destruct l as [|x l].
    + intros H. injection H as <-. apply local_refl.
    + destruct (skip_take (x :: l) cur (Z.to_nat (s_left s)) (span_len s)) as [t r] eqn:Et.
      intros H. injection H as <-. eapply splice_local_labels; [exact Hst|exact Hs|exact Hn|].
      pose proof (skip_take_len (x :: l) cur (Z.to_nat (s_left s)) (span_len s)) as Hl.
      rewrite Et in Hl. cbn [fst] in Hl. rewrite Hl by discriminate. apply span_len_z. lia.
Qed.

Lemma apply_label_local {L} n (x : L) s st st' :
  st_ok n st -> 0 <= s_first s <= s_last s -> s_last s < n ->
  apply_label x s st = Ok st' -> local (s_first s) (s_last s) st st'.
Proof.
  intros [H1 H2] Hs Hn. unfold apply_label. intros H. injection H as <-.
  unfold local. cbn [st_labels st_mask]. rewrite zlen_set_nth.
  rewrite zlen_splice by (rewrite ?zlen_repeat; lia).
  split; [reflexivity|]. split; [reflexivity|]. split.
  - intros u Hu. rewrite set_nth_znth by lia. rewrite splice_znth by (rewrite ?zlen_repeat; lia).
    rewrite zlen_repeat. split.
    + destruct ((u =? s_first s) && (u <? zlen (st_labels st))) eqn:E; [lia|reflexivity].
    + match goal with |- (if ?c then _ else _) = _ => destruct c eqn:E; [lia|reflexivity] end.
  - rewrite splice_znth by (rewrite ?zlen_repeat; lia).
    match goal with |- (if ?c then _ else _) = _ => destruct c eqn:E; [lia|reflexivity] end.
Qed.

Lemma st_ok_local {L} n a b (st st' : org_state L) : st_ok n st -> local a b st st' -> st_ok n st'.
Proof. intros [H1 H2] (H3 & H4 & _). split; lia. Qed.

(** Acting on consecutive spans acts on their union. *)
Lemma local_join {L} a m b (s0 s1 s2 : org_state L) : a <= m -> m < b ->
  local a m s0 s1 -> local (m + 1) b s1 s2 -> local a b s0 s2.
Proof.
  intros Ha Hm (A1 & A2 & A3 & A4) (B1 & B2 & B3 & B4).
  split; [congruence|]. split; [congruence|]. split.
  - intros u Hu. destruct (A3 u ltac:(lia)) as [X1 X2]. destruct (B3 u ltac:(lia)) as [Y1 Y2].
    split; congruence.
  - destruct (B3 a ltac:(lia)) as [_ Y]. congruence.
Qed.
Lemma local_widen_right {L} a m b (s0 s1 : org_state L) : m <= b ->
  local a m s0 s1 -> local a b s0 s1.
Proof.
  intros Hm (A1 & A2 & A3 & A4). split; [exact A1|]. split; [exact A2|]. split; [|exact A4].
  intros u Hu. apply A3. lia.
Qed.

Lemma partition_tiles f d s spans : fr_wf f -> span_wf f s ->
  partition f d s = Ok spans -> tiles (s_first s) (s_last s) spans.
Proof.
  destruct d as [m|ms]; cbn [partition]; [apply partition_with_marker_tiles|apply partition_at_marks_tiles].
Qed.

Definition act_local {L} (n : Z) (act : span -> org_state L -> res (org_state L)) : Prop :=
  forall s st st', st_ok n st -> 0 <= s_first s <= s_last s -> s_last s < n ->
    act s st = Ok st' -> local (s_first s) (s_last s) st st'.

Lemma run_cycle_local {L} n (all cur : list (span -> org_state L -> res (org_state L))) spans a b :
  Forall (act_local n) all -> Forall (act_local n) cur ->
  tiles a b spans -> 0 <= a -> b < n ->
  forall st st', st_ok n st -> run_cycle all cur spans st = Ok st' -> local a b st st'.
Proof.
  intros Hall Hcur Ht Ha Hb. revert cur Hcur.
  assert (Hstep : forall act (cur' : list (span -> org_state L -> res (org_state L))) a m x y (st st1 : org_state L), act_local n act -> 0 <= a <= m -> m < n -> st_ok n st ->
            act (mkSpan a m x y) st = Ok st1 -> Forall (act_local n) cur' -> local a m st st1).
  { intros act cur' a0 m x y st st1 Hact Hr1 Hr2 Hst E _.
    apply (Hact (mkSpan a0 m x y)) in E; [exact E|exact Hst|exact Hr1|exact Hr2]. }
  induction Ht as [a b x y H|a m b x y rest H1 H2 Ht IH]; intros cur Hcur st st' Hst H0;
    cbn [run_cycle] in H0.
  - destruct cur as [|act cur].
    + destruct all as [|act all]; [injection H0 as <-; apply local_refl|].
      destruct (act (mkSpan a b x y) st) as [st1|e] eqn:E; cbn [bind] in H0; [|discriminate].
      injection H0 as <-. pose proof (Forall_inv Hall) as Hact.
      apply (Hstep act [] a b x y); auto; lia.
    + destruct (act (mkSpan a b x y) st) as [st1|e] eqn:E; cbn [bind] in H0; [|discriminate].
      injection H0 as <-. pose proof (Forall_inv Hcur) as Hact.
      apply (Hstep act [] a b x y); auto; lia.
  - destruct cur as [|act cur].
    + destruct all as [|act all']; [injection H0 as <-; apply local_refl|].
      destruct (act (mkSpan a m x y) st) as [st1|e] eqn:E; cbn [bind] in H0; [|discriminate].
      pose proof (Forall_inv Hall) as Hact. pose proof (Forall_inv_tail Hall) as Hrest.
      assert (Hb2 := tiles_le _ _ _ Ht).
      assert (L1 : local a m st st1) by (apply (Hstep act [] a m x y); auto; lia).
      eapply local_join; [exact H1|exact H2|exact L1|].
      apply (IH ltac:(lia) Hb _ Hrest); [eapply st_ok_local; eassumption|exact H0].
    + destruct (act (mkSpan a m x y) st) as [st1|e] eqn:E; cbn [bind] in H0; [|discriminate].
      pose proof (Forall_inv Hcur) as Hact. pose proof (Forall_inv_tail Hcur) as Hrest.
      assert (Hb2 := tiles_le _ _ _ Ht).
      assert (L1 : local a m st st1) by (apply (Hstep act [] a m x y); auto; lia).
      eapply local_join; [exact H1|exact H2|exact L1|].
      apply (IH ltac:(lia) Hb _ Hrest); [eapply st_ok_local; eassumption|exact H0].
Qed.

Lemma run_remembering_local {L} n k spans a b :
  tiles a b spans -> 0 <= a -> b < n ->
  forall (st st' : org_state L), st_ok n st -> run_remembering k spans st = Ok st' -> local a b st st'.
Proof.
  intros Ht Ha Hb.
  induction Ht as [a b x y H|a m b x y rest H1 H2 Ht IH]; intros st st' Hst H0; cbn [run_remembering] in H0.
  - destruct (heap_get (st_heap st) k) as [l cur]. destruct l as [|z l]; [injection H0 as <-; apply local_refl|].
    destruct (cyc_take (z :: l) cur 1) as [[|lab t] r]; [injection H0 as <-; apply local_refl|].
    destruct (apply_label _ _ _) as [st1|e] eqn:E; cbn [bind] in H0; [|discriminate]. injection H0 as <-.
    apply (apply_label_local n) in E; [exact E|exact Hst|cbn; lia|cbn; lia].
  - destruct (heap_get (st_heap st) k) as [l cur]. destruct l as [|z l]; [injection H0 as <-; apply local_refl|].
    destruct (cyc_take (z :: l) cur 1) as [[|lab t] r]; [injection H0 as <-; apply local_refl|].
    destruct (apply_label _ _ _) as [st1|e] eqn:E; cbn [bind] in H0; [|discriminate].
    apply (apply_label_local n) in E; [|exact Hst|cbn; lia|cbn; lia]. cbn [s_first s_last] in E.
    assert (L1 : local a m st st1) by exact E.
    eapply local_join; [exact H1|exact H2|exact L1|]. apply IH; [lia|lia| |exact H0].
    eapply st_ok_local; eassumption.
Qed.

Lemma organize_local {L} f (ly : layout L) : fr_wf f -> act_local (fr_len f) (organize f ly).
Proof.
  intros Hw. induction ly as [d items IH|d k|p|x] using layout_ind2; intros s st st' Hst Hs Hn H.
  - cbn [organize] in H. destruct (partition f d s) as [spans|e] eqn:E; cbn [bind] in H; [|discriminate].
    apply partition_tiles in E; [|exact Hw|split; [lia|exact Hn]].
    assert (Hall : Forall (act_local (fr_len f)) (map (organize f) items)).
    { apply Forall_map. exact IH. }
    eapply run_cycle_local; [exact Hall|exact Hall|exact E|lia|exact Hn|exact Hst|exact H].
  - cbn [organize] in H. destruct (partition f d s) as [spans|e] eqn:E; cbn [bind] in H; [|discriminate].
    apply partition_tiles in E; [|exact Hw|split; [lia|exact Hn]].
    eapply run_remembering_local; [exact E|lia|exact Hn|exact Hst|exact H].
  - eapply apply_pattern_local; eassumption.
  - eapply apply_label_local; eassumption.
Qed.

(** ** Well-formed timelines *)
Record tl_wf {L} (tl : timeline L) : Prop := mkTlWf {
  wf_frame : fr_wf (tl_frame tl);
  wf_asc : asc (tl_index tl);
  wf_range : forall v, In v (tl_index tl) -> 0 <= v < fr_len (tl_frame tl);
  wf_zero : znth (tl_index tl) 0 = Some 0;
  wf_labels : zlen (tl_labels tl) = zlen (tl_index tl);
  wf_band_len : zlen (tl_band tl) = fr_len (tl_frame tl);
  wf_band : forall u v, znth (tl_band tl) u = Some v ->
      In v (tl_index tl) /\ v <= u /\ forall w, In w (tl_index tl) -> w <= u -> w <= v
}.

Lemma masked_counter_len i n m : zlen (masked_counter i n m) = zlen m.
Proof.
  revert i n. induction m as [|b m IH]; intros i n; [reflexivity|].
  cbn [masked_counter]. rewrite !zlen_cons, IH. reflexivity.
Qed.
(** [n] is the last marked position before [i] ([-1]-safe: [n] itself otherwise). *)
Lemma masked_counter_spec m : forall i n u v,
  znth (masked_counter i n m) u = Some v ->
  (v = n /\ forall w, i <= w <= i + u -> znth m (w - i) <> Some true)
  \/ (i <= v <= i + u /\ znth m (v - i) = Some true /\ forall w, v < w <= i + u -> znth m (w - i) <> Some true).
Proof.
  induction m as [|b m IH]; intros i n u v H.
  - apply znth_range in H. cbn in H. lia.
  - pose proof (znth_range _ _ _ H) as Ru. cbn [masked_counter] in H.
    destruct (Z.eq_dec u 0) as [->|Nu].
    + rewrite znth_cons0 in H. injection H as <-. destruct b.
      * right. split; [lia|]. split; [rewrite Z.sub_diag; reflexivity|]. intros w Hw. lia.
      * left. split; [reflexivity|]. intros w Hw. replace (w - i) with 0 by lia. rewrite znth_cons0. congruence.
    + rewrite znth_cons in H by lia. apply IH in H.
      assert (E : forall w, i < w -> znth (b :: m) (w - i) = znth m (w - (i + 1))).
      { intros w Hw. rewrite znth_cons by lia. f_equal. lia. }
      destruct H as [[H1 H2]|(H1 & H2 & H3)].
      * destruct b.
        -- right. subst v. split; [lia|]. split; [rewrite Z.sub_diag; reflexivity|].
           intros w Hw. rewrite E by lia. apply H2. lia.
        -- left. split; [exact H1|]. intros w Hw. destruct (Z.eq_dec w i) as [->|Nw].
           ++ rewrite Z.sub_diag, znth_cons0. congruence.
           ++ rewrite E by lia. apply H2. lia.
      * right. split; [lia|]. split; [rewrite E by lia; exact H2|].
        intros w Hw. rewrite E by lia. apply H3. lia.
Qed.

Lemma take_at_ok {A} (l : list A) idx : (forall i, In i idx -> 0 <= i < zlen l) ->
  zlen (take_at l idx) = zlen idx /\
  forall k i, znth idx k = Some i -> znth (take_at l idx) k = znth l i.
Proof.
  unfold take_at. induction idx as [|i idx IH]; intros H; cbn [flat_map].
  - split; [reflexivity|]. intros k i Hk. apply znth_range in Hk. cbn in Hk. lia.
  - destruct (znth_ex l i) as [x Hx]; [apply H; left; reflexivity|]. rewrite Hx.
    destruct IH as [IH1 IH2]; [intros j Hj; apply H; right; exact Hj|].
    change ([x] ++ flat_map (fun i0 : Z => match znth l i0 with Some x0 => [x0] | None => [] end) idx)
      with (x :: flat_map (fun i0 : Z => match znth l i0 with Some x0 => [x0] | None => [] end) idx).
    split; [rewrite !zlen_cons, IH1; reflexivity|].
    intros k j Hk. pose proof (znth_range _ _ _ Hk) as Rk. destruct (Z.eq_dec k 0) as [->|Nk].
    + rewrite znth_cons0 in *. injection Hk as <-. congruence.
    + rewrite znth_cons in Hk by lia. rewrite znth_cons by lia. apply IH2. exact Hk.
Qed.

Lemma tl_wf_of_mask {L} f mask (labels : list L) re :
  fr_wf f -> zlen mask = fr_len f -> zlen labels = fr_len f -> znth mask 0 = Some true ->
  tl_wf (mkTl f (nonzero mask) (take_at labels (nonzero mask)) (masked_counter 0 0 mask) re).
Proof.
  intros Hw Hm Hl H0. constructor; cbn [tl_frame tl_index tl_labels tl_band].
  - exact Hw.
  - apply nonzero_asc.
  - intros v Hv. apply nonzero_In in Hv. apply znth_range in Hv. lia.
  - assert (Hin : In 0 (nonzero mask)) by (apply nonzero_In; exact H0).
    rewrite <- (znth_of_count _ _ (nonzero_asc mask) Hin). f_equal.
    unfold ss_left. rewrite filter_none; [reflexivity|]. intros x Hx. apply nonzero_In in Hx.
    apply znth_range in Hx. lia.
  - apply take_at_ok. intros i Hi. apply nonzero_In in Hi. apply znth_range in Hi. lia.
  - rewrite masked_counter_len. exact Hm.
  - intros u v Hv. pose proof (znth_range _ _ _ Hv) as Ru. rewrite masked_counter_len in Ru.
    apply masked_counter_spec in Hv.
    destruct Hv as [[H1 H2]|(H1 & H2 & H3)].
    + exfalso. apply (H2 0); [lia|]. exact H0.
    + rewrite Z.sub_0_r in H2. split; [apply nonzero_In; exact H2|]. split; [lia|].
      intros w Hin Hw2. destruct (Z.le_gt_cases w v) as [|Hgt]; [assumption|]. exfalso.
      apply (H3 w); [lia|]. rewrite Z.sub_0_r. apply nonzero_In. exact Hin.
Qed.

Lemma mk_timeline_inv {L} f (org : layout L) re dflt h tl h' :
  fr_wf f -> mk_timeline f org re dflt h = Ok (tl, h') ->
  exists st, organize f org (mkSpan 0 (fr_len f - 1) 0 0)
               (mkSt (repeat dflt (Z.to_nat (fr_len f))) (repeat true (Z.to_nat (fr_len f))) h) = Ok st
  /\ zlen (st_mask st) = fr_len f /\ zlen (st_labels st) = fr_len f /\ znth (st_mask st) 0 = Some true
  /\ tl = mkTl f (nonzero (st_mask st)) (take_at (st_labels st) (nonzero (st_mask st)))
               (masked_counter 0 0 (st_mask st)) re
  /\ h' = st_heap st /\ tl_wf tl.
Proof.
  intros Hw H. unfold fr_wf in Hw. unfold mk_timeline in H.
  destruct (organize _ _ _ _) as [st|e] eqn:E; cbn [bind] in H; [|discriminate].
  assert (Htl : tl = mkTl f (nonzero (st_mask st)) (take_at (st_labels st) (nonzero (st_mask st)))
               (masked_counter 0 0 (st_mask st)) re) by congruence.
  assert (Hh : h' = st_heap st) by congruence. clear H.
  exists st. split; [reflexivity|].
  apply (organize_local f org Hw) in E.
  - destruct E as (E1 & E2 & _ & E4). cbn [st_labels st_mask s_first] in *.
    rewrite zlen_repeat in E1. rewrite zlen_repeat in E2.
    assert (M0 : znth (st_mask st) 0 = Some true) by (rewrite E4; apply znth_repeat; lia).
    split; [lia|]. split; [lia|]. split; [exact M0|]. split; [exact Htl|]. split; [exact Hh|].
    rewrite Htl. apply tl_wf_of_mask; [exact Hw|lia|lia|exact M0].
  - split; cbn [st_labels st_mask]; rewrite zlen_repeat; lia.
  - cbn. lia.
  - cbn. lia.
Qed.

(** ** Boundaries of workshifts *)
(** First base unit of workshift [k]; the number of units for [k = len]. *)
Definition bnd {L} (tl : timeline L) (k : Z) : Z :=
  match znth (tl_index tl) k with Some v => v | None => fr_len (tl_frame tl) end.

Section Wf.
  Context {L : Type} (tl : timeline L) (W : tl_wf tl).
  Let n := fr_len (tl_frame tl).

  Lemma tl_len_pos : 0 < tl_len tl.
  Proof. pose proof (znth_range _ _ _ (wf_zero tl W)). unfold tl_len. lia. Qed.

  Lemma bnd_znth k : 0 <= k < tl_len tl -> znth (tl_index tl) k = Some (bnd tl k).
  Proof. intros H. unfold bnd. destruct (znth_ex (tl_index tl) k H) as [v ->]. reflexivity. Qed.
  Lemma bnd_range k : 0 <= k < tl_len tl -> 0 <= bnd tl k < n.
  Proof. intros H. apply (wf_range tl W). eapply znth_In. apply bnd_znth. exact H. Qed.
  Lemma bnd_0 : bnd tl 0 = 0.
  Proof. unfold bnd. rewrite (wf_zero tl W). reflexivity. Qed.
  Lemma bnd_end : bnd tl (tl_len tl) = n.
  Proof. unfold bnd. rewrite znth_none by (unfold tl_len; lia). reflexivity. Qed.
  Lemma bnd_lt i j : 0 <= i -> i < j -> j <= tl_len tl -> bnd tl i < bnd tl j.
  Proof.
    intros H1 H2 H3. destruct (Z.eq_dec j (tl_len tl)) as [->|Hj].
    - rewrite bnd_end. apply bnd_range. lia.
    - pose proof (bnd_znth i ltac:(lia)) as Hi. pose proof (bnd_znth j ltac:(lia)) as Hj2.
      apply (asc_znth_lt _ _ _ _ _ (wf_asc tl W) Hi Hj2). exact H2.
  Qed.
  Lemma bnd_le i j : 0 <= i -> i <= j -> j <= tl_len tl -> bnd tl i <= bnd tl j.
  Proof. intros H1 H2 H3. destruct (Z.eq_dec i j) as [->|]; [lia|]. pose proof (bnd_lt i j). lia. Qed.
  Lemma bnd_lt_inv i j : 0 <= i <= tl_len tl -> 0 <= j <= tl_len tl -> bnd tl i < bnd tl j -> i < j.
  Proof. intros Hi Hj H. destruct (Z.lt_ge_cases i j); [assumption|]. pose proof (bnd_le j i). lia. Qed.

  (** The workshift of a base unit. *)
  Lemma bnd_cover u : 0 <= u < n -> exists k, 0 <= k < tl_len tl /\ bnd tl k <= u < bnd tl (k + 1).
  Proof.
    intros Hu.
    assert (Hb : exists v, znth (tl_band tl) u = Some v) by (apply znth_ex; rewrite (wf_band_len tl W); exact Hu).
    destruct Hb as [v Hv]. apply (wf_band tl W) in Hv. destruct Hv as (Hin & Hle & Hmax).
    apply In_znth in Hin. destruct Hin as [k Hk]. pose proof (znth_range _ _ _ Hk) as Rk.
    exists k. split; [exact Rk|]. fold (tl_len tl) in Rk.
    assert (Ek : bnd tl k = v) by (unfold bnd; rewrite Hk; reflexivity). split; [lia|].
    destruct (Z.eq_dec (k + 1) (tl_len tl)) as [->|Hk1]; [rewrite bnd_end; apply Hu|].
    pose proof (bnd_lt k (k + 1) ltac:(lia) ltac:(lia) ltac:(lia)) as Hlt.
    destruct (Z.lt_ge_cases u (bnd tl (k + 1))) as [|Hge]; [assumption|].
    specialize (Hmax (bnd tl (k + 1)) (znth_In _ _ _ (bnd_znth (k + 1) ltac:(lia))) Hge). lia.
  Qed.
  Lemma bnd_unique u j k : 0 <= j < tl_len tl -> 0 <= k < tl_len tl ->
    bnd tl j <= u < bnd tl (j + 1) -> bnd tl k <= u < bnd tl (k + 1) -> j = k.
  Proof.
    intros Hj Hk H1 H2.
    pose proof (bnd_lt_inv j (k + 1) ltac:(lia) ltac:(lia) ltac:(lia)).
    pose proof (bnd_lt_inv k (j + 1) ltac:(lia) ltac:(lia) ltac:(lia)). lia.
  Qed.

  Lemma ws_first_ok k : 0 <= k < tl_len tl -> ws_first_baseunit tl k = Ok (bnd tl k).
  Proof. intros H. apply py_get_res_ok; [lia|]. apply bnd_znth. exact H. Qed.
  Lemma tl_get_ex k : 0 <= k < tl_len tl -> exists x, tl_get tl k = Ok x /\ znth (tl_labels tl) k = Some x.
  Proof.
    intros H. destruct (znth_ex (tl_labels tl) k) as [x Hx]; [rewrite (wf_labels tl W); exact H|].
    exists x. split; [|exact Hx]. apply py_get_res_ok; [lia|exact Hx].
  Qed.
  Lemma tl_get_out k : tl_len tl <= k -> tl_get tl k = Err EIndex.
  Proof.
    intros H. pose proof tl_len_pos. unfold tl_get, py_get_res. rewrite py_get_znth by lia.
    rewrite znth_none; [reflexivity|]. rewrite (wf_labels tl W). right. exact H.
  Qed.
  Lemma ws_last_ok k : 0 <= k < tl_len tl -> ws_last_baseunit tl k = Ok (bnd tl (k + 1) - 1).
  Proof.
    intros H. unfold ws_last_baseunit. destruct (tl_get_ex k H) as (x & -> & _). cbn [bind].
    rewrite py_get_znth by lia. unfold bnd.
    destruct (znth (tl_index tl) (k + 1)) as [v|]; [reflexivity|]. rewrite (wf_band_len tl W). reflexivity.
  Qed.
  Lemma ws_start_ok k : 0 <= k < tl_len tl -> ws_start_time tl k = Ok (unit_start (tl_frame tl) (bnd tl k)).
  Proof.
    intros H. unfold ws_start_time. rewrite ws_first_ok by exact H. cbn [bind].
    rewrite fr_get_nonneg by (apply bnd_range; exact H). reflexivity.
  Qed.
  Lemma ws_end_ok k : 0 <= k < tl_len tl ->
    ws_end_time tl k = Ok (unit_start (tl_frame tl) (bnd tl (k + 1)) - 1).
  Proof.
    intros H. unfold ws_end_time. rewrite ws_last_ok by exact H. cbn [bind].
    pose proof (bnd_lt k (k + 1)). pose proof (bnd_range k H). pose proof (bnd_le (k + 1) (tl_len tl)) as He.
    rewrite bnd_end in He. unfold n in *. rewrite fr_get_nonneg by lia. cbn [bind]. rewrite unit_end_next.
    replace (bnd tl (k + 1) - 1 + 1) with (bnd tl (k + 1)) by lia. reflexivity.
  Qed.
  Lemma ws_start_out k : tl_len tl <= k -> ws_start_time tl k = Err EIndex.
  Proof.
    intros H. pose proof tl_len_pos. unfold ws_start_time, ws_first_baseunit, py_get_res.
    rewrite py_get_znth by lia. rewrite znth_none by (right; exact H). reflexivity.
  Qed.
  Lemma ws_end_out k : tl_len tl <= k -> ws_end_time tl k = Err EIndex.
  Proof. intros H. unfold ws_end_time, ws_last_baseunit. rewrite tl_get_out by exact H. reflexivity. Qed.

  Definition ref_of (k : Z) : Z :=
    if tl_ref_end tl then unit_start (tl_frame tl) (bnd tl (k + 1)) - 1
    else unit_start (tl_frame tl) (bnd tl k).
  Lemma ws_ref_ok k : 0 <= k < tl_len tl -> ws_ref_time tl k = Ok (ref_of k).
  Proof.
    intros H. unfold ws_ref_time, ref_of. destruct (tl_ref_end tl); [apply ws_end_ok|apply ws_start_ok]; exact H.
  Qed.
  Lemma ws_ref_out k : tl_len tl <= k -> ws_ref_time tl k = Err EIndex.
  Proof. intros H. unfold ws_ref_time. destruct (tl_ref_end tl); [apply ws_end_out|apply ws_start_out]; exact H. Qed.
  Lemma ref_of_lt i j : 0 <= i -> i < j -> j < tl_len tl -> ref_of i < ref_of j.
  Proof.
    intros H1 H2 H3. unfold ref_of. destruct (tl_ref_end tl).
    - pose proof (bnd_lt (i + 1) (j + 1) ltac:(lia) ltac:(lia) ltac:(lia)) as Hb.
      apply (unit_start_lt (tl_frame tl)) in Hb. lia.
    - apply unit_start_lt, bnd_lt; lia.
  Qed.
  Lemma ref_of_within k : 0 <= k < tl_len tl ->
    unit_start (tl_frame tl) (bnd tl k) <= ref_of k <= unit_start (tl_frame tl) (bnd tl (k + 1)) - 1.
  Proof.
    intros H. pose proof (bnd_lt k (k + 1) ltac:(lia) ltac:(lia) ltac:(lia)) as Hb.
    apply (unit_start_lt (tl_frame tl)) in Hb. unfold ref_of. destruct (tl_ref_end tl); lia.
  Qed.

  Lemma ws_duration_ok k : 0 <= k < tl_len tl -> ws_duration tl k = Ok (bnd tl (k + 1) - bnd tl k).
  Proof.
    intros H. unfold ws_duration. rewrite ws_last_ok, ws_first_ok by exact H. cbn [bind]. f_equal. lia.
  Qed.

  Lemma band_ok u k : 0 <= k < tl_len tl -> bnd tl k <= u < bnd tl (k + 1) -> znth (tl_band tl) u = Some (bnd tl k).
  Proof.
    intros Hk Hu.
    assert (Hn : 0 <= u < n).
    { pose proof (bnd_range k Hk). pose proof (bnd_le (k + 1) (tl_len tl)) as He. rewrite bnd_end in He. lia. }
    destruct (znth_ex (tl_band tl) u) as [v Hv]; [rewrite (wf_band_len tl W); exact Hn|].
    rewrite Hv. f_equal. apply (wf_band tl W) in Hv. destruct Hv as (Hin & Hle & Hmax).
    apply In_znth in Hin. destruct Hin as [j Hj]. pose proof (znth_range _ _ _ Hj) as Rj. fold (tl_len tl) in Rj.
    assert (Ej : v = bnd tl j) by (unfold bnd; rewrite Hj; reflexivity). subst v.
    pose proof (Hmax _ (znth_In _ _ _ (bnd_znth k Hk)) ltac:(lia)) as Hm.
    f_equal.
    pose proof (bnd_lt_inv j (k + 1) ltac:(lia) ltac:(lia) ltac:(lia)).
    destruct (Z.eq_dec j k) as [|Hne]; [assumption|].
    pose proof (bnd_lt j k ltac:(lia) ltac:(lia) ltac:(lia)). lia.
  Qed.

  Lemma tl_start_time_ok : fr_start_time (tl_frame tl) = unit_start (tl_frame tl) 0.
  Proof. reflexivity. Qed.
  Lemma tl_end_time_ok : fr_end_time (tl_frame tl) = unit_start (tl_frame tl) n - 1.
  Proof.
    unfold fr_end_time. rewrite unit_end_next. unfold n. f_equal. f_equal. lia.
  Qed.

  (** Lookup by a point in time. *)
  Lemma get_ws_position_in t : fr_start_time (tl_frame tl) <= t <= fr_end_time (tl_frame tl) ->
    exists p, get_ws_position tl t = Ok p /\ 0 <= p < tl_len tl
    /\ unit_start (tl_frame tl) (bnd tl p) <= t <= unit_start (tl_frame tl) (bnd tl (p + 1)) - 1.
  Proof.
    intros Ht. destruct (fr_get_loc_in _ _ (wf_frame tl W) Ht) as [Hloc Hu].
    destruct (bnd_cover _ Hu) as (k & Hk & Hb).
    exists k. unfold get_ws_position. rewrite Hloc.
    assert (Hbd : py_get_res (tl_band tl) (unit_of (tl_frame tl) t) = Ok (bnd tl k)).
    { apply py_get_res_ok; [lia|]. apply band_ok; assumption. }
    rewrite Hbd. cbn [bind]. rewrite (find_pos_asc _ _ _ (wf_asc tl W) (bnd_znth k Hk)).
    split; [reflexivity|]. split; [exact Hk|].
    pose proof (unit_of_le_iff (tl_frame tl) (bnd tl k) t).
    pose proof (unit_of_le_iff (tl_frame tl) (bnd tl (k + 1)) t). lia.
  Qed.
  Lemma get_ws_position_out t : t < fr_start_time (tl_frame tl) \/ fr_end_time (tl_frame tl) < t ->
    get_ws_position tl t = Err EOutOfBounds.
  Proof. intros H. unfold get_ws_position. rewrite fr_get_loc_out by exact H. reflexivity. Qed.

  Lemma time_pos_unique t j k : 0 <= j < tl_len tl -> 0 <= k < tl_len tl ->
    unit_start (tl_frame tl) (bnd tl j) <= t <= unit_start (tl_frame tl) (bnd tl (j + 1)) - 1 ->
    unit_start (tl_frame tl) (bnd tl k) <= t <= unit_start (tl_frame tl) (bnd tl (k + 1)) - 1 -> j = k.
  Proof.
    intros Hj Hk H1 H2. apply (bnd_unique (unit_of (tl_frame tl) t)); try assumption.
    - pose proof (unit_of_le_iff (tl_frame tl) (bnd tl j) t).
      pose proof (unit_of_le_iff (tl_frame tl) (bnd tl (j + 1)) t). lia.
    - pose proof (unit_of_le_iff (tl_frame tl) (bnd tl k) t).
      pose proof (unit_of_le_iff (tl_frame tl) (bnd tl (k + 1)) t). lia.
  Qed.

  Lemma ws_within k : 0 <= k < tl_len tl ->
    fr_start_time (tl_frame tl) <= unit_start (tl_frame tl) (bnd tl k)
    /\ unit_start (tl_frame tl) (bnd tl (k + 1)) - 1 <= fr_end_time (tl_frame tl).
  Proof.
    intros H. rewrite tl_end_time_ok. rewrite <- bnd_end. split.
    - apply unit_start_le. apply bnd_range. exact H.
    - pose proof (unit_start_le (tl_frame tl) (bnd tl (k + 1)) (bnd tl (tl_len tl))) as Hu.
      specialize (Hu (bnd_le (k + 1) (tl_len tl) ltac:(lia) ltac:(lia) ltac:(lia))). lia.
  Qed.

  Lemma get_ws_position_at k t : 0 <= k < tl_len tl ->
    unit_start (tl_frame tl) (bnd tl k) <= t <= unit_start (tl_frame tl) (bnd tl (k + 1)) - 1 ->
    get_ws_position tl t = Ok k.
  Proof.
    intros Hk Ht. pose proof (ws_within k Hk) as [H1 H2].
    destruct (get_ws_position_in t ltac:(lia)) as (p & Hp & Hr & Hb). rewrite Hp. f_equal.
    eapply time_pos_unique; eassumption.
  Qed.

  (** Search by reference time. *)
  Lemma ref_after_loop_ok fuel t c : 0 <= c <= tl_len tl -> tl_len tl - c < Z.of_nat fuel ->
    (forall j, 0 <= j < c -> ref_of j < t) ->
    (exists k, 0 <= k < tl_len tl /\ ref_after_loop fuel tl t c = Ok k /\ t <= ref_of k
       /\ forall j, 0 <= j < k -> ref_of j < t)
    \/ (ref_after_loop fuel tl t c = Err EOutOfBounds /\ forall j, 0 <= j < tl_len tl -> ref_of j < t).
  Proof.
    revert c. induction fuel as [|fuel IH]; intros c Hc Hf Hlt; [lia|].
    cbn [ref_after_loop]. destruct (Z.eq_dec c (tl_len tl)) as [->|Hne].
    - right. rewrite ws_ref_out by lia. split; [reflexivity|exact Hlt].
    - rewrite ws_ref_ok by lia. destruct (t <=? ref_of c) eqn:E.
      + left. exists c. split; [lia|]. split; [reflexivity|]. split; [lia|exact Hlt].
      + apply IH; [lia|lia|]. intros j Hj. destruct (Z.eq_dec j c) as [->|]; [lia|]. apply Hlt. lia.
  Qed.
  Lemma ref_before_loop_ok fuel t c : 0 <= c < tl_len tl -> c < Z.of_nat fuel ->
    (forall j, c < j < tl_len tl -> t < ref_of j) ->
    (exists k, 0 <= k < tl_len tl /\ ref_before_loop fuel tl t c = Ok k /\ ref_of k <= t
       /\ forall j, k < j < tl_len tl -> t < ref_of j)
    \/ (ref_before_loop fuel tl t c = Err EOutOfBounds /\ forall j, 0 <= j < tl_len tl -> t < ref_of j).
  Proof.
    revert c. induction fuel as [|fuel IH]; intros c Hc Hf Hlt; [lia|].
    cbn [ref_before_loop]. rewrite ws_ref_ok by lia. destruct (ref_of c <=? t) eqn:E.
    - left. exists c. split; [lia|]. split; [reflexivity|]. split; [lia|exact Hlt].
    - destruct (c <=? 0) eqn:E2.
      + right. split; [reflexivity|]. intros j Hj. destruct (Z.eq_dec j c) as [->|]; [lia|]. apply Hlt. lia.
      + apply IH; [lia|lia|]. intros j Hj. destruct (Z.eq_dec j c) as [->|]; [lia|]. apply Hlt. lia.
  Qed.

  Lemma pos_by_ref_after_in t : fr_start_time (tl_frame tl) <= t <= fr_end_time (tl_frame tl) ->
    (exists k, 0 <= k < tl_len tl /\ pos_by_ref_after tl t = Ok k /\ t <= ref_of k
       /\ forall j, 0 <= j < k -> ref_of j < t)
    \/ (pos_by_ref_after tl t = Err EOutOfBounds /\ forall j, 0 <= j < tl_len tl -> ref_of j < t).
  Proof.
    intros Ht. destruct (get_ws_position_in t Ht) as (p & Hp & Hr & Hb).
    unfold pos_by_ref_after. rewrite Hp. cbn [bind]. apply ref_after_loop_ok; [lia| |].
    - unfold tl_len, zlen in *. lia.
    - intros j Hj. pose proof (ref_of_within j ltac:(lia)) as Hw.
      pose proof (bnd_le (j + 1) p ltac:(lia) ltac:(lia) ltac:(lia)) as Hb2.
      apply (unit_start_le (tl_frame tl)) in Hb2. lia.
  Qed.
  Lemma pos_by_ref_before_in t : fr_start_time (tl_frame tl) <= t <= fr_end_time (tl_frame tl) ->
    (exists k, 0 <= k < tl_len tl /\ pos_by_ref_before tl t = Ok k /\ ref_of k <= t
       /\ forall j, k < j < tl_len tl -> t < ref_of j)
    \/ (pos_by_ref_before tl t = Err EOutOfBounds /\ forall j, 0 <= j < tl_len tl -> t < ref_of j).
  Proof.
    intros Ht. destruct (get_ws_position_in t Ht) as (p & Hp & Hr & Hb).
    unfold pos_by_ref_before. rewrite Hp. cbn [bind]. apply ref_before_loop_ok; [lia| |].
    - unfold tl_len, zlen in *. lia.
    - intros j Hj. pose proof (ref_of_within j ltac:(lia)) as Hw.
      pose proof (bnd_le (p + 1) j ltac:(lia) ltac:(lia) ltac:(lia)) as Hb2.
      apply (unit_start_le (tl_frame tl)) in Hb2. lia.
  Qed.
  Lemma pos_by_ref_out t : t < fr_start_time (tl_frame tl) \/ fr_end_time (tl_frame tl) < t ->
    pos_by_ref_after tl t = Err EOutOfBounds /\ pos_by_ref_before tl t = Err EOutOfBounds.
  Proof.
    intros H. unfold pos_by_ref_after, pos_by_ref_before. rewrite get_ws_position_out by exact H. split; reflexivity.
  Qed.
End Wf.

(** ** Amendments *)
Lemma write_labels_len {L} (am : list (Z * L)) labels : zlen (write_labels labels am) = zlen labels.
Proof.
  unfold write_labels. revert labels. induction am as [|q am IH]; intros labels; cbn [fold_left]; [reflexivity|].
  rewrite IH. apply zlen_set_nth.
Qed.
Lemma amend_wf {L} (tl : timeline L) r am tl' : tl_wf tl -> amend tl r am = Ok tl' ->
  tl_wf tl' /\ tl_frame tl' = tl_frame tl /\ tl_index tl' = tl_index tl /\ tl_band tl' = tl_band tl
  /\ tl_ref_end tl' = tl_ref_end tl.
Proof.
  intros W H. unfold amend in H. destruct (locate_amendments _ _ _ _) as [loc|e]; cbn [bind] in H; [|discriminate].
  injection H as <-. split; [|repeat split; reflexivity].
  destruct W. constructor; cbn [tl_frame tl_index tl_labels tl_band]; try assumption.
  rewrite write_labels_len. assumption.
Qed.
