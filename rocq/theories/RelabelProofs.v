(** Proofs of C70. *)
From Verif Require Import Base BaseProofs Civil Freq Frame Timeline Board SpecShare SpecRelabel TimelineProofs.
From Coq Require Import QArith.
Open Scope Z_scope.

(** ** Lists *)
Lemma rl_nth_error {A B} (f : A -> B) l n : nth_error (map f l) n = option_map f (nth_error l n).
Proof. revert n. induction l as [|x l IH]; intros [|n]; cbn; auto. Qed.
Lemma rl_zlen {A B} (f : A -> B) l : zlen (map f l) = zlen l.
Proof. unfold zlen. rewrite map_length. reflexivity. Qed.
Lemma rl_znth {A B} (f : A -> B) l i : znth (map f l) i = option_map f (znth l i).
Proof. unfold znth. destruct (i <? 0); [reflexivity|apply rl_nth_error]. Qed.
Lemma rl_py_get_res {A B} (f : A -> B) l i : py_get_res (map f l) i = rmap f (py_get_res l i).
Proof.
  unfold py_get_res, py_get. rewrite rl_zlen, !rl_nth_error. destruct (i <? 0); [destruct (i + zlen l <? 0); [reflexivity|]|];
    destruct (nth_error l _); reflexivity.
Qed.
Lemma rl_skipn {A B} (f : A -> B) n l : skipn n (map f l) = map f (skipn n l).
Proof. revert l. induction n as [|n IH]; intros [|x l]; cbn; auto. Qed.
Lemma rl_py_slice {A B} (f : A -> B) l a b : py_slice (map f l) a b = map f (py_slice l a b).
Proof. unfold py_slice. rewrite rl_skipn, firstn_map. reflexivity. Qed.
Lemma rl_splice {A B} (f : A -> B) l a v : splice (map f l) a (map f v) = map f (splice l a v).
Proof. unfold splice. rewrite !map_app, map_length, rl_skipn, firstn_map. reflexivity. Qed.
Lemma rl_set_nth {A B} (f : A -> B) l i x : set_nth (map f l) i (f x) = map f (set_nth l i x).
Proof. revert i. induction l as [|y l IH]; intros [|i]; cbn; try reflexivity. f_equal. apply IH. Qed.
Lemma rl_cyc_take {A B} (f : A -> B) l cur n : cyc_take (map f l) (map f cur) n = (map f (fst (cyc_take l cur n)), map f (snd (cyc_take l cur n))).
Proof.
  revert cur. induction n as [|n IH]; intros cur; [reflexivity|]. cbn [cyc_take]. destruct cur as [|x cur]; cbn [map].
  - destruct l as [|x l']; [reflexivity|]. cbn [map]. specialize (IH l'). cbn [map] in IH. rewrite IH. destruct (cyc_take (x :: l') l' n). reflexivity.
  - rewrite IH. destruct (cyc_take l cur n). reflexivity.
Qed.
Lemma rl_skip_take {A B} (f : A -> B) l cur k n : skip_take (map f l) (map f cur) k n = (map f (fst (skip_take l cur k n)), map f (snd (skip_take l cur k n))).
Proof. unfold skip_take. rewrite rl_cyc_take. destruct (cyc_take l cur (k + n)). cbn [fst snd]. rewrite rl_skipn. reflexivity. Qed.
Lemma rl_take_at {A B} (f : A -> B) l idx : take_at (map f l) idx = map f (take_at l idx).
Proof.
  unfold take_at. induction idx as [|i idx IH]; [reflexivity|]. cbn [flat_map]. rewrite map_app, <- IH, rl_znth. destruct (znth l i); reflexivity.
Qed.
Lemma rl_repeat {A B} (f : A -> B) x n : repeat (f x) n = map f (repeat x n).
Proof. induction n as [|n IH]; cbn; [reflexivity|f_equal; exact IH]. Qed.

(** ** Construction *)
Definition st_map {L M} (f : L -> M) (st : org_state L) : org_state M := mkSt (map f (st_labels st)) (st_mask st) (hmap f (st_heap st)).
Definition tl_map {L M} (f : L -> M) (tl : timeline L) : timeline M := mkTl (tl_frame tl) (tl_index tl) (map f (tl_labels tl)) (tl_band tl) (tl_ref_end tl).
Section Construction.
  Context {L M : Type} (f : L -> M).
  Lemma rl_heap_get h k : heap_get (hmap f h) k = (map f (fst (heap_get h k)), map f (snd (heap_get h k))).
  Proof. unfold heap_get, hmap. revert k. induction h as [|r h IH]; intros [|k]; cbn; auto. Qed.
  Lemma rl_heap_set h k r : heap_set (hmap f h) k (map f (fst r), map f (snd r)) = hmap f (heap_set h k r).
  Proof. unfold heap_set, hmap. apply (rl_set_nth (fun r : rpat L => (map f (fst r), map f (snd r)))). Qed.
  Lemma rl_apply_pattern p s st : apply_pattern match p with PList l => PList (map f l) | PRem k => PRem k end s (st_map f st) = rmap (st_map f) (apply_pattern p s st).
  Proof.
    unfold apply_pattern. destruct (s_left s <? 0); [reflexivity|]. destruct p as [l|k].
    - destruct l as [|x l]; [reflexivity|]. cbn [map rmap]. change (f x :: map f l) with (map f (x :: l)). rewrite rl_skip_take. cbn [fst st_map st_labels st_mask st_heap].
      rewrite rl_splice. reflexivity.
    - cbn [st_map st_heap]. rewrite rl_heap_get. destruct (heap_get (st_heap st) k) as [[|x l] cur]; [reflexivity|]. cbn [fst snd map].
      change (f x :: map f l) with (map f (x :: l)). rewrite rl_skip_take. destruct (skip_take (x :: l) cur _ _) as [t r]. cbn [fst snd st_map st_labels st_mask].
      rewrite rl_splice. unfold rmap, st_map. cbn [st_labels st_mask st_heap]. rewrite <- rl_heap_set. reflexivity.
  Qed.
  Lemma rl_apply_label x s st : apply_label (f x) s (st_map f st) = rmap (st_map f) (apply_label x s st).
  Proof. unfold apply_label, st_map, rmap. cbn [st_labels st_mask st_heap]. rewrite rl_set_nth. reflexivity. Qed.
  Lemma rl_run_cycle (all1 cur1 : list (span -> org_state L -> res (org_state L))) (all2 cur2 : list (span -> org_state M -> res (org_state M))) spans st :
    Forall2 (fun a1 a2 => forall s st, a2 s (st_map f st) = rmap (st_map f) (a1 s st)) all1 all2 ->
    Forall2 (fun a1 a2 => forall s st, a2 s (st_map f st) = rmap (st_map f) (a1 s st)) cur1 cur2 ->
    run_cycle all2 cur2 spans (st_map f st) = rmap (st_map f) (run_cycle all1 cur1 spans st).
  Proof.
    intros Ha. revert cur1 cur2 st. induction spans as [|s spans IH]; intros cur1 cur2 st Hc; [reflexivity|]. cbn [run_cycle].
    destruct Hc as [|c1 c2 cur1 cur2 H Hc].
    - destruct Ha as [|a1 a2 all1 all2 H Ha']; [reflexivity|]. rewrite H. destruct (a1 s st) as [st'|e]; cbn [rmap bind]; [|reflexivity].
      apply IH. exact Ha'.
    - rewrite H. destruct (c1 s st) as [st'|e]; cbn [rmap bind]; [|reflexivity]. apply IH. exact Hc.
  Qed.
  Lemma rl_run_remembering k spans st : run_remembering k spans (st_map f st) = rmap (st_map f) (run_remembering k spans st).
  Proof.
    revert st. induction spans as [|s spans IH]; intros st; [reflexivity|]. cbn [run_remembering]. cbn [st_map st_heap]. rewrite rl_heap_get.
    destruct (heap_get (st_heap st) k) as [[|x l] cur]; [reflexivity|]. cbn [fst snd map]. change (f x :: map f l) with (map f (x :: l)).
    rewrite rl_cyc_take. destruct (cyc_take (x :: l) cur 1) as [[|y t] r]; [reflexivity|]. cbn [fst snd map].
    cbn [st_map st_labels st_mask st_heap]. pose proof (rl_heap_set (st_heap st) k (x :: l, r)) as Hh. cbn [fst snd map] in Hh |- *. rewrite Hh.
    change (mkSt (map f (st_labels st)) (st_mask st) (hmap f (heap_set (st_heap st) k (x :: l, r)))) with (st_map f (mkSt (st_labels st) (st_mask st) (heap_set (st_heap st) k (x :: l, r)))).
    rewrite rl_apply_label. destruct (apply_label y s _) as [st'|e]; cbn [rmap bind]; [apply IH|reflexivity].
  Qed.
  Lemma rl_organize fr ly s st : organize fr (lmap f ly) s (st_map f st) = rmap (st_map f) (organize fr ly s st).
  Proof.
    revert s st. induction ly as [d items IH|d k|p|x] using layout_ind2; intros s st; cbn [lmap organize].
    - destruct (partition fr d s) as [spans|e]; cbn [bind rmap]; [|reflexivity].
      assert (H : Forall2 (fun a1 a2 => forall s st, a2 s (st_map f st) = rmap (st_map f) (a1 s st)) (map (organize fr) items) (map (organize fr) (map (lmap f) items))).
      { clear -IH. induction IH as [|it items H _ IHi]; cbn [map]; constructor; [exact H|exact IHi]. }
      apply rl_run_cycle; exact H.
    - destruct (partition fr d s) as [spans|e]; cbn [bind rmap]; [apply rl_run_remembering|reflexivity].
    - pose proof (rl_apply_pattern p s st) as H. destruct p; exact H.
    - apply rl_apply_label.
  Qed.
  Lemma rl_mk_timeline fr org re dflt h : mk_timeline fr (lmap f org) re (f dflt) (hmap f h) = rmap (fun q => (tl_map f (fst q), hmap f (snd q))) (mk_timeline fr org re dflt h).
  Proof.
    unfold mk_timeline. cbv zeta. rewrite rl_repeat.
    pose proof (rl_organize fr org (mkSpan 0 (fr_len fr - 1) 0 0) (mkSt (repeat dflt (Z.to_nat (fr_len fr))) (repeat true (Z.to_nat (fr_len fr))) h)) as H.
    unfold st_map in H at 1. cbn [st_labels st_mask st_heap] in H. rewrite H. destruct (organize fr org _ _) as [st|e]; cbn [rmap bind]; [|reflexivity].
    unfold st_map, tl_map. cbn [st_labels st_mask st_heap fst snd tl_frame tl_index tl_labels tl_band tl_ref_end]. rewrite rl_take_at. reflexivity.
  Qed.
  Lemma rl_get_ws_position tl t : get_ws_position (tl_map f tl) t = get_ws_position tl t. Proof. reflexivity. Qed.
  Definition ammap (am : list (Z * L)) : list (Z * M) := map (fun q => (fst q, f (snd q))) am.
  Lemma rl_locate_amendments tl raise am acc : locate_amendments (tl_map f tl) raise (ammap am) (ammap acc) = rmap ammap (locate_amendments tl raise am acc).
  Proof.
    revert acc. induction am as [|[t x] am IH]; intros acc; [reflexivity|]. cbn [ammap map locate_amendments fst snd]. rewrite rl_get_ws_position.
    assert (He : forall p, existsb (fun q => fst q =? p) (ammap acc) = existsb (fun q => fst q =? p) acc).
    { intros p. unfold ammap. clear. induction acc as [|q acc IH]; [reflexivity|]. cbn. rewrite IH. reflexivity. }
    destruct (get_ws_position tl t) as [p|e].
    - rewrite He. destruct (existsb _ acc); [reflexivity|]. rewrite <- IH. unfold ammap. rewrite map_app. reflexivity.
    - destruct e; try reflexivity. destruct raise; [reflexivity|]. apply IH.
  Qed.
  Lemma rl_write_labels labels am : write_labels (map f labels) (ammap am) = map f (write_labels labels am).
  Proof.
    unfold write_labels. revert labels. induction am as [|q am IH]; intros labels; [reflexivity|]. cbn [ammap map fold_left fst snd]. rewrite rl_set_nth. apply IH.
  Qed.
  Lemma rl_amend tl raise am : amend (tl_map f tl) raise (ammap am) = rmap (tl_map f) (amend tl raise am).
  Proof.
    unfold amend. change (@nil (Z * M)) with (ammap []). rewrite rl_locate_amendments. destruct (locate_amendments tl raise am []) as [l|e]; cbn [rmap bind]; [|reflexivity].
    unfold tl_map. cbn [tl_frame tl_index tl_labels tl_band tl_ref_end]. rewrite rl_write_labels. reflexivity.
  Qed.
  Lemma rl_mk_schedule tl name sel1 sel2 : (forall x, sel2 (f x) = sel1 x) -> sched_like f (mk_schedule tl name sel1) (mk_schedule (tl_map f tl) name sel2).
  Proof.
    intros H. unfold mk_schedule, sched_like. cbn [sc_name sc_sel sc_on sc_off sc_all tl_map tl_labels].
    assert (E : map sel2 (map f (tl_labels tl)) = map sel1 (tl_labels tl)) by (rewrite map_map; apply map_ext; exact H). rewrite E.
    split; [reflexivity|]. split; [exact H|]. repeat split.
  Qed.
  Lemma rl_top ly : top_organizer (lmap f ly) = rmap (lmap f) (top_organizer ly).
  Proof. destruct ly as [d items|d k|[l|k]|x]; reflexivity. Qed.
End Construction.
Lemma C70_build_pf : forall (L M : Type) (f : L -> M) (a : tb_args L) (b : tb_args M) h, relabelled f a b ->
  alike (fun q1 q2 => tb_like f (fst q1) (fst q2) /\ snd q2 = hmap f (snd q1)) (build a h) (build b (hmap f h)).
Proof.
  intros L M f a b h (E1 & E2 & E3 & E4 & E5 & E6 & E7 & E8 & E9 & Hs & Hn). unfold build. rewrite E1, E2, E3, E4, E5, E6, E7, E8, E9, rl_top.
  destruct (top_organizer (a_layout a)) as [org|e]; cbn [rmap bind]; [|right; exists e; split; reflexivity].
  assert (Hw : a_wt a = WBad \/ a_wt a <> WBad) by (destruct (a_wt a); [right|right|left]; congruence).
  destruct Hw as [Hw|Hw]; [rewrite Hw; right; exists EValue; split; reflexivity|].
  assert (HW : forall A (x y : A), match a_wt a with WBad => x | _ => y end = y) by (intros A x y; destruct (a_wt a); [reflexivity|reflexivity|congruence]).
  rewrite !HW. clear HW. destruct (mk_frame (a_freq a) (a_start a) (a_end a)) as [fr|e]; cbn [bind]; [|right; exists e; split; reflexivity].
  rewrite rl_mk_timeline. destruct (mk_timeline fr org (a_ref_end a) (a_default a) h) as [[tl h']|e]; cbn [rmap bind fst snd]; [|right; exists e; split; reflexivity].
  change (map (fun q => (fst q, f (snd q))) (a_amendments a)) with (ammap f (a_amendments a)). rewrite rl_amend.
  destruct (amend tl false (a_amendments a)) as [tl'|e]; cbn [rmap bind]; [|right; exists e; split; reflexivity].
  left. eexists _, _. split; [reflexivity|]. split; [reflexivity|]. cbn [fst snd]. split; [|reflexivity].
  pose proof (rl_mk_schedule f tl' (a_name a) (a_sel a) (a_sel b) Hs) as HS.
  unfold tb_like. cbn [tb_tl tb_default tb_schedules tb_wt tb_num tl_map tl_frame tl_index tl_band tl_ref_end tl_labels].
  split; [repeat split|]. split; [exact HS|]. split; [|split; [reflexivity|exact Hn]]. constructor; [|constructor]. split; [reflexivity|exact HS].
Qed.

(** ** Queries *)
Lemma alike_eq {A} (r : res A) : alike eq r r.
Proof. destruct r as [x|e]; [left; exists x, x; auto|right; exists e; auto]. Qed.
Lemma alike_is_eq {A} (r1 r2 : res A) : alike eq r1 r2 -> r1 = r2.
Proof. intros [(x & y & -> & -> & ->)|(e & -> & ->)]; reflexivity. Qed.
Lemma alike_bind {A B C D} (R : A -> B -> Prop) (S : C -> D -> Prop) r1 r2 k1 k2 :
  alike R r1 r2 -> (forall x y, R x y -> alike S (k1 x) (k2 y)) -> alike S (bind r1 k1) (bind r2 k2).
Proof. intros [(x & y & -> & -> & H)|(e & -> & ->)] Hk; cbn [bind]; [apply Hk; exact H|right; exists e; auto]. Qed.
Lemma alike_bind_eq {A C D} (S : C -> D -> Prop) (r : res A) k1 k2 :
  (forall x, alike S (k1 x) (k2 x)) -> alike S (bind r k1) (bind r k2).
Proof. intros H. destruct r as [x|e]; cbn [bind]; [apply H|right; exists e; auto]. Qed.
Lemma alike_mapM {A B C} (R : B -> C -> Prop) (g1 : A -> res B) (g2 : A -> res C) l :
  (forall x, alike R (g1 x) (g2 x)) -> alike (Forall2 R) (mapM g1 l) (mapM g2 l).
Proof.
  intros H. induction l as [|x l IH]; [left; exists [], []; repeat split; constructor|]. cbn [mapM].
  eapply alike_bind; [apply H|]. intros y z Hy. eapply alike_bind; [exact IH|]. intros ys zs Hys. left. exists (y :: ys), (z :: zs). repeat split; constructor; assumption.
Qed.
Lemma mapM_same {A B} (g1 g2 : A -> res B) l : (forall x, g1 x = g2 x) -> mapM g1 l = mapM g2 l.
Proof. intros H. induction l as [|x l IH]; [reflexivity|]. cbn [mapM]. rewrite H, IH. reflexivity. Qed.
Ltac aok := left; eexists _, _; split; [reflexivity|split; [reflexivity|]].
Ltac aerr := right; eexists; split; reflexivity.
Section Queries.
  Context {L M : Type} (f : L -> M) (tb1 : timeboard L) (tb2 : timeboard M).
  Hypothesis H : tb_like f tb1 tb2.
  Lemma like_tl : tb_tl tb2 = tl_map f (tb_tl tb1).
  Proof. destruct H as ((A & B & C & D & E) & _). destruct (tb_tl tb2), (tb_tl tb1). cbn in *. unfold tl_map. cbn. congruence. Qed.
  Lemma like_get n : tl_get (tb_tl tb2) n = rmap f (tl_get (tb_tl tb1) n).
  Proof. rewrite like_tl. unfold tl_get, tl_map. cbn [tl_labels]. apply rl_py_get_res. Qed.
  Lemma like_first n : ws_first_baseunit (tb_tl tb2) n = ws_first_baseunit (tb_tl tb1) n.
  Proof. rewrite like_tl. reflexivity. Qed.
  Lemma like_last n : ws_last_baseunit (tb_tl tb2) n = ws_last_baseunit (tb_tl tb1) n.
  Proof. unfold ws_last_baseunit. rewrite like_get, like_tl. cbn [tl_map tl_index tl_band]. destruct (tl_get (tb_tl tb1) n); reflexivity. Qed.
  Lemma like_start n : ws_start_time (tb_tl tb2) n = ws_start_time (tb_tl tb1) n.
  Proof. rewrite like_tl. reflexivity. Qed.
  Lemma like_end n : ws_end_time (tb_tl tb2) n = ws_end_time (tb_tl tb1) n.
  Proof. unfold ws_end_time. rewrite like_last, like_tl. reflexivity. Qed.
  Lemma like_ref n : ws_ref_time (tb_tl tb2) n = ws_ref_time (tb_tl tb1) n.
  Proof. unfold ws_ref_time. rewrite like_end, like_start, like_tl. reflexivity. Qed.
  Lemma like_duration n : ws_duration (tb_tl tb2) n = ws_duration (tb_tl tb1) n.
  Proof. unfold ws_duration. rewrite like_last, like_first. reflexivity. Qed.
  Lemma like_band n : ws_band_duration (tb_tl tb2) n = ws_band_duration (tb_tl tb1) n.
  Proof. rewrite like_tl. reflexivity. Qed.
  Lemma like_len : tb_len tb2 = tb_len tb1.
  Proof. unfold tb_len. rewrite like_tl. reflexivity. Qed.
  Lemma like_locate t how : locate tb2 t how = locate tb1 t how.
  Proof.
    assert (Ep : forall t, get_ws_position (tb_tl tb2) t = get_ws_position (tb_tl tb1) t) by (intros; rewrite like_tl; reflexivity).
    assert (Ea : forall n t c, ref_after_loop n (tb_tl tb2) t c = ref_after_loop n (tb_tl tb1) t c).
    { induction n as [|n IH]; intros t0 c; [reflexivity|]. cbn [ref_after_loop]. rewrite like_ref. destruct (ws_ref_time (tb_tl tb1) c); [|reflexivity]. rewrite IH. reflexivity. }
    assert (Eb : forall n t c, ref_before_loop n (tb_tl tb2) t c = ref_before_loop n (tb_tl tb1) t c).
    { induction n as [|n IH]; intros t0 c; [reflexivity|]. cbn [ref_before_loop]. rewrite like_ref. destruct (ws_ref_time (tb_tl tb1) c); [|reflexivity]. rewrite IH. reflexivity. }
    assert (Ei : length (tl_index (tb_tl tb2)) = length (tl_index (tb_tl tb1))) by (rewrite like_tl; reflexivity).
    assert (Es : tb_start_time tb2 = tb_start_time tb1) by (unfold tb_start_time; rewrite like_tl; reflexivity).
    assert (Ee : tb_end_time tb2 = tb_end_time tb1) by (unfold tb_end_time; rewrite like_tl; reflexivity).
    unfold locate. rewrite Es, Ee.
    assert (Er : match how with ByNone => get_ws_position (tb_tl tb2) t | ByBefore => pos_by_ref_before (tb_tl tb2) t | ByAfter => pos_by_ref_after (tb_tl tb2) t end
               = match how with ByNone => get_ws_position (tb_tl tb1) t | ByBefore => pos_by_ref_before (tb_tl tb1) t | ByAfter => pos_by_ref_after (tb_tl tb1) t end).
    { destruct how; [apply Ep| |]; unfold pos_by_ref_before, pos_by_ref_after; rewrite Ep, Ei; destruct (get_ws_position (tb_tl tb1) t); cbn [bind]; [apply Eb|reflexivity|apply Ea|reflexivity]. }
    rewrite Er. reflexivity.
  Qed.
  Lemma like_arg s1 s2 d1 d2 : arg_like f s1 s2 -> sched_like f d1 d2 -> sched_like f (opt_or s1 d1) (opt_or s2 d2).
  Proof. destruct s1, s2; cbn; tauto. Qed.
  Lemma like_default : sched_like f (tb_default tb1) (tb_default tb2). Proof. apply H. Qed.
  Lemma like_new_workshift i s1 s2 : sched_like f s1 s2 -> alike (ws_like f) (new_workshift tb1 i s1) (new_workshift tb2 i s2).
  Proof.
    intros Hs. unfold new_workshift. rewrite like_get. destruct (tl_get (tb_tl tb1) i) as [x|e]; cbn [rmap].
    - aok. split; [reflexivity|]. split; [reflexivity|exact Hs].
    - destruct e; aerr.
  Qed.
  Lemma like_get_workshift t s1 s2 : arg_like f s1 s2 -> alike (ws_like f) (get_workshift tb1 t s1) (get_workshift tb2 t s2).
  Proof.
    intros Hs. unfold get_workshift. rewrite like_locate. apply alike_bind_eq. intros l. destruct (l_pos l); [|aerr].
    apply like_new_workshift. apply like_arg; [exact Hs|apply like_default].
  Qed.
  Lemma like_new_interval a b s1 s2 : sched_like f s1 s2 -> alike (iv_like f) (new_interval tb1 a b s1) (new_interval tb2 a b s2).
  Proof.
    intros Hs. unfold new_interval, in_bounds. rewrite like_len. destruct (negb _); [aerr|]. destruct (negb _); [aerr|]. destruct (b <? a); [aerr|].
    aok. repeat split; apply Hs.
  Qed.
  Lemma like_new_void a b s1 s2 : sched_like f s1 s2 -> alike (iv_like f) (new_void_interval tb1 a b s1) (new_void_interval tb2 a b s2).
  Proof.
    intros Hs. unfold new_void_interval, in_bounds. rewrite like_len. destruct (negb _); [aerr|]. destruct (negb _); [aerr|]. destruct (a <=? b); [aerr|].
    aok. repeat split; apply Hs.
  Qed.
  Lemma like_get_interval r len per clip c s1 s2 : arg_like f s1 s2 ->
    alike (iv_like f) (get_interval tb1 r len per clip c s1) (get_interval tb2 r len per clip c s2).
  Proof.
    intros Hs. unfold get_interval. apply alike_bind_eq. intros [dh dt].
    assert (E1 : locs_from_reference tb2 r dh dt = locs_from_reference tb1 r dh dt).
    { unfold locs_from_reference. rewrite like_len. destruct r as [|[x|] [y|]| |]; rewrite ?like_locate; reflexivity. }
    assert (E2 : forall n, locs_by_length tb2 r n dh dt = locs_by_length tb1 r n dh dt).
    { intros n. unfold locs_by_length. rewrite like_len. destruct (n =? 0); [reflexivity|]. destruct (ref_timestamp r); cbn [bind]; [|reflexivity]. rewrite like_locate. reflexivity. }
    assert (E3 : forall p, locs_by_period tb2 p clip dh dt = locs_by_period tb1 p clip dh dt).
    { intros p. unfold locs_by_period. rewrite !like_locate, like_len. reflexivity. }
    pose proof (like_arg s1 s2 _ _ Hs like_default) as Hs'.
    assert (Hi : forall l0 l1, alike (iv_like f) (interval_from_locs tb1 l0 l1 (opt_or s1 (tb_default tb1))) (interval_from_locs tb2 l0 l1 (opt_or s2 (tb_default tb2)))).
    { intros l0 l1. unfold interval_from_locs. apply alike_bind_eq. intros o. destruct (negb o); [aerr|].
      destruct (l_pos l0), (l_pos l1); try aerr; [apply like_new_interval; exact Hs'|]. destruct (_ =? _); aerr. }
    rewrite E1.
    destruct len as [n|], per as [fs|]; cbv zeta.
    - apply alike_bind_eq. intros l. apply Hi.
    - rewrite E2. apply alike_bind_eq. intros l. apply Hi.
    - destruct (get_period r (Some fs)) as [p|e]; cbn [bind]; [rewrite E3; apply alike_bind_eq; intros l; apply Hi|aerr].
    - destruct (locs_from_reference tb1 r dh dt) as [q|e]; [apply alike_bind_eq; intros l; apply Hi|]. destruct e; try aerr.
      destruct (get_period r None) as [p|e]; [rewrite E3; apply alike_bind_eq; intros l; apply Hi|aerr].
  Qed.
  Lemma like_duty_idx x1 x2 d s1 s2 : iv_like f x1 x2 -> sched_like f s1 s2 -> get_duty_idx x2 d s2 = get_duty_idx x1 d s1.
  Proof.
    intros (Ea & Eb & _) (_ & _ & E1 & E2 & E3). unfold get_duty_idx, find_my_bounds. rewrite Ea, Eb, E1, E2, E3. reflexivity.
  Qed.
  Section Interval.
    Context (x1 : interval L) (x2 : interval M) (s1 : option (schedule L)) (s2 : option (schedule M)).
    Hypothesis Hx : iv_like f x1 x2.
    Hypothesis Hs : arg_like f s1 s2.
    Lemma like_void : iv_void x2 = iv_void x1. Proof. apply Hx. Qed.
    Lemma like_own : sched_like f (opt_or s1 (iv_sched x1)) (opt_or s2 (iv_sched x2)). Proof. apply like_arg; [exact Hs|apply Hx]. Qed.
    Lemma like_count d : iv_count x2 d s2 = iv_count x1 d s1.
    Proof. unfold iv_count. rewrite like_void, (like_duty_idx x1 x2 d _ _ Hx like_own). reflexivity. Qed.
    Lemma like_workshifts d : alike (Forall2 (ws_like f)) (iv_workshifts tb1 x1 d s1) (iv_workshifts tb2 x2 d s2).
    Proof.
      unfold iv_workshifts. rewrite like_void. destruct (iv_void x1); [aok; constructor|]. rewrite (like_duty_idx x1 x2 d _ _ Hx like_own).
      apply alike_bind_eq. intros [idx [[l r]|]]; cbn [fst snd]; [|aok; constructor]. apply alike_mapM. intros i. apply like_new_workshift. apply like_own.
    Qed.
    Lemma like_nth n d : alike (ws_like f) (iv_nth tb1 x1 n d s1) (iv_nth tb2 x2 n d s2).
    Proof.
      unfold iv_nth. rewrite like_void. destruct (iv_void x1); [aerr|]. rewrite (like_duty_idx x1 x2 d _ _ Hx like_own).
      apply alike_bind_eq. intros [idx [[l r]|]]; cbn [fst snd]; [|aerr]. destruct ((_ <? l) || _)%bool; [aerr|]. apply alike_bind_eq. intros i. apply like_new_workshift. apply like_own.
    Qed.
    Lemma like_total d : total_duration tb2 x2 d s2 = total_duration tb1 x1 d s1.
    Proof.
      unfold total_duration. rewrite like_void. destruct (iv_void x1); [reflexivity|]. rewrite (like_duty_idx x1 x2 d _ _ Hx like_own).
      destruct (get_duty_idx x1 d _) as [[idx [[l r]|]]|e]; cbn [bind fst snd]; try reflexivity. rewrite (mapM_same _ (ws_band_duration (tb_tl tb1)) _ like_band). reflexivity.
    Qed.
    Lemma like_worktime d : iv_worktime tb2 x2 d s2 = iv_worktime tb1 x1 d s1.
    Proof.
      unfold iv_worktime. rewrite like_void, like_total. destruct H as (_ & _ & _ & Ew & Hn). rewrite Ew. destruct (iv_void x1); [reflexivity|]. destruct (tb_wt tb1); try reflexivity.
      unfold sum_labels. rewrite (like_duty_idx x1 x2 d _ _ Hx like_own).
      destruct (get_duty_idx x1 d _) as [[idx [[l r]|]]|e]; cbn [bind fst snd]; try reflexivity. f_equal. apply mapM_same. intros i. rewrite like_get.
      destruct (tl_get (tb_tl tb1) i) as [x|e]; cbn [rmap bind]; [rewrite Hn|]; reflexivity.
    Qed.
    Lemma like_overlap y1 y2 : iv_like f y1 y2 -> alike (iv_like f) (iv_overlap tb1 x1 y1 s1) (iv_overlap tb2 x2 y2 s2).
    Proof.
      intros Hy. unfold iv_overlap. rewrite like_void. destruct Hx as (Ea & Eb & _). destruct Hy as (Ea' & Eb' & _). rewrite Ea, Eb, Ea', Eb'.
      destruct (iv_void x1); [apply like_new_void, like_own|]. cbv zeta.
      destruct (like_new_interval (Z.max (iv_a x1) (iv_a y1)) (Z.min (iv_b x1) (iv_b y1)) _ _ like_own) as [(u & v & -> & -> & R)|(e & -> & ->)]; [left; exists u, v; auto|].
      destruct e; try aerr. apply like_new_void, like_own.
    Qed.
  End Interval.
  Lemma like_portion x1 x2 y1 y2 d s1 s2 : iv_like f x1 x2 -> iv_like f y1 y2 -> arg_like f s1 s2 -> what_portion_of tb2 x2 y2 d s2 = what_portion_of tb1 x1 y1 d s1.
  Proof.
    intros Hx Hy Hs. unfold what_portion_of, what_portion_by. rewrite (like_void x1 x2 Hx). destruct (iv_void x1); [reflexivity|]. cbv zeta.
    pose proof (like_own x1 x2 s1 s2 Hx Hs) as Ho.
    destruct (like_overlap x1 x2 (Some (opt_or s1 (iv_sched x1))) (Some (opt_or s2 (iv_sched x2))) Hx Ho y1 y2 Hy) as [(u & v & E1 & E2 & R)|(e & E1 & E2)]; rewrite E1, E2; cbn [bind]; [|reflexivity].
    rewrite (like_count u v None None R I), (like_count y1 y2 (Some (opt_or s1 (iv_sched x1))) (Some (opt_or s2 (iv_sched x2))) Hy Ho). reflexivity.
  Qed.
  Definition entry_like (e1 : option (interval L * Z)) (e2 : option (interval M * Z)) : Prop :=
    match e1, e2 with Some p, Some q => iv_like f (fst p) (fst q) /\ snd q = snd p | None, None => True | _, _ => False end.
  Lemma like_entry d s1 s2 p : sched_like f s1 s2 -> alike entry_like (period_entry tb1 d s1 p) (period_entry tb2 d s2 p).
  Proof.
    intros Hs. unfold period_entry.
    destruct (like_get_interval (RPeriod p) None None false C11 (Some s1) (Some s2) Hs) as [(u & v & -> & -> & R)|(e & -> & ->)].
    - rewrite (like_count u v (Some s1) (Some s2) R Hs). apply alike_bind_eq. intros c. aok. split; [exact R|reflexivity].
    - destruct e; try aerr. aok. exact I.
  Qed.
  Lemma like_unwrap l1 l2 k : Forall2 entry_like l1 l2 -> alike (fun p q => iv_like f (fst p) (fst q) /\ snd q = snd p) (unwrap_entry (znth l1 k)) (unwrap_entry (znth l2 k)).
  Proof.
    intros Hl. unfold znth. destruct (k <? 0); [aerr|]. generalize (Z.to_nat k) as n. induction Hl as [|e1 e2 l1 l2 He Hl IH]; intros [|n]; cbn [nth_error]; try aerr; [|apply IH].
    destruct e1 as [p|], e2 as [q|]; cbn in He; try contradiction; [aok; exact He|aerr].
  Qed.
  Lemma like_positive l1 l2 : Forall2 entry_like l1 l2 -> count_positive l2 = count_positive l1.
  Proof.
    induction 1 as [|e1 e2 l1 l2 He Hl IH]; [reflexivity|]. destruct e1 as [[i c]|], e2 as [[j c']|]; cbn in He; try contradiction; [|reflexivity].
    destruct He as [_ ->]. cbn [count_positive]. rewrite IH. reflexivity.
  Qed.
  Lemma Forall2_slice {A B} (R : A -> B -> Prop) l1 l2 i j : Forall2 R l1 l2 -> Forall2 R (py_slice l1 i j) (py_slice l2 i j).
  Proof.
    intros Hl. unfold py_slice. generalize (Z.to_nat (j - i)) as n. generalize (Z.to_nat i) as k. clear i j.
    induction Hl as [|x y l1 l2 Hxy Hl IH]; intros k n; [destruct k; destruct n; constructor|]. destruct k as [|k]; cbn [skipn]; [|apply IH].
    destruct n as [|n]; cbn [firstn]; constructor; [exact Hxy|]. specialize (IH O n). exact IH.
  Qed.
  Lemma like_count_periods x1 x2 fs d s1 s2 : iv_like f x1 x2 -> arg_like f s1 s2 -> count_periods tb2 x2 fs d s2 = count_periods tb1 x1 fs d s1.
  Proof.
    intros Hx Hs. pose proof (like_own x1 x2 s1 s2 Hx Hs) as Ho. apply alike_is_eq.
    assert (HE : alike eq (count_periods tb1 x1 fs d s1) (count_periods tb2 x2 fs d s2)).
    2:{ apply alike_is_eq in HE. rewrite HE. apply alike_eq. }
    unfold count_periods, count_periods_by. rewrite (like_void x1 x2 Hx). destruct (iv_void x1); [apply alike_eq|]. destruct (negb _); [apply alike_eq|].
    unfold iv_start_time, iv_end_time. destruct Hx as (Ea & Eb & Hx') eqn:EHx. rewrite Ea, Eb, like_start, like_end. clear EHx.
    assert (Hx2 : iv_like f x1 x2) by (split; [exact Ea|split; [exact Eb|exact Hx']]).
    apply alike_bind_eq. intros t0. apply alike_bind_eq. intros t1. apply alike_bind_eq. intros pindex. cbv zeta.
    set (a1 := opt_or s1 (iv_sched x1)) in *. set (a2 := opt_or s2 (iv_sched x2)) in *.
    assert (Ho' : arg_like f (Some a1) (Some a2)) by exact Ho.
    assert (HB : alike eq (do w0 <- iv_first tb1 x1 d (Some a1); do w1 <- iv_last tb1 x1 d (Some a1); do r0 <- ws_ref_time (tb_tl tb1) (ws_loc w0); do r1 <- ws_ref_time (tb_tl tb1) (ws_loc w1); Ok (r0, r1))
                          (do w0 <- iv_first tb2 x2 d (Some a2); do w1 <- iv_last tb2 x2 d (Some a2); do r0 <- ws_ref_time (tb_tl tb2) (ws_loc w0); do r1 <- ws_ref_time (tb_tl tb2) (ws_loc w1); Ok (r0, r1))).
    { eapply alike_bind; [apply (like_nth x1 x2 (Some a1) (Some a2) Hx2 Ho' 0 d)|]. intros u v (Eu & _). eapply alike_bind; [apply (like_nth x1 x2 (Some a1) (Some a2) Hx2 Ho' (-1) d)|]. intros u' v' (Eu' & _).
      rewrite Eu, Eu', !like_ref. apply alike_eq. }
    destruct HB as [([r0 r1] & y & -> & -> & <-)|(e & -> & ->)]; [|destruct e; apply alike_eq].
    eapply alike_bind; [apply alike_mapM; intros i; apply (like_entry d a1 a2); exact Ho|]. intros l1 l2 Hl.
    apply alike_bind_eq. intros k0. apply alike_bind_eq. intros k1.
    eapply alike_bind; [apply like_unwrap; exact Hl|]. intros e0 e0' ((A0 & B0 & _) & C0). eapply alike_bind; [apply like_unwrap; exact Hl|]. intros e1 e1' ((A1 & B1 & _) & C1).
    rewrite C0, C1, A1, B0, like_end, like_start, (like_count x1 x2 (Some a1) (Some a2) Hx2 Ho'). destruct (r1 <=? _); [apply alike_eq|].
    apply alike_bind_eq. intros te. eapply alike_bind; [apply like_get_interval; exact Ho'|]. intros i0 j0 R0. rewrite (like_count i0 j0 (Some a1) (Some a2) R0 Ho').
    apply alike_bind_eq. intros c0. apply alike_bind_eq. intros q0. apply alike_bind_eq. intros ts. eapply alike_bind; [apply like_get_interval; exact Ho'|]. intros i1 j1 R1.
    rewrite (like_count i1 j1 (Some a1) (Some a2) R1 Ho'). apply alike_bind_eq. intros c1. apply alike_bind_eq. intros q1.
    rewrite (like_positive _ _ (Forall2_slice entry_like l1 l2 (k0 + 1) k1 Hl)). apply alike_eq.
  Qed.
  Section Workshift.
    Context (w1 : workshift L) (w2 : workshift M) (s1 : option (schedule L)) (s2 : option (schedule M)).
    Hypothesis Hw : ws_like f w1 w2.
    Hypothesis Hs : arg_like f s1 s2.
    Lemma like_wown : sched_like f (opt_or s1 (ws_sched w1)) (opt_or s2 (ws_sched w2)). Proof. apply like_arg; [exact Hs|apply Hw]. Qed.
    Lemma like_on_duty a1 a2 : sched_like f a1 a2 -> is_on_duty tb2 w2 a2 = is_on_duty tb1 w1 a1.
    Proof.
      intros (_ & E & _). unfold is_on_duty. destruct Hw as (-> & _). rewrite like_get. destruct (tl_get (tb_tl tb1) (ws_loc w1)); cbn [rmap]; [rewrite E|]; reflexivity.
    Qed.
    Lemma like_duty_index d a1 a2 : sched_like f a1 a2 -> get_duty_index tb2 w2 d a2 = get_duty_index tb1 w1 d a1.
    Proof.
      intros Ha. unfold get_duty_index. rewrite (like_on_duty a1 a2 Ha). destruct Ha as (_ & _ & -> & -> & ->). reflexivity.
    Qed.
    Lemma like_forward n d : alike (ws_like f) (rollforward tb1 w1 n d s1) (rollforward tb2 w2 n d s2).
    Proof.
      unfold rollforward. cbv zeta. rewrite (like_duty_index d _ _ like_wown). destruct Hw as (-> & _). apply alike_bind_eq. intros idx. destruct (_ || _)%bool; [aerr|].
      apply alike_bind_eq. intros i. apply like_new_workshift, like_wown.
    Qed.
    Lemma like_back n d : alike (ws_like f) (rollback tb1 w1 n d s1) (rollback tb2 w2 n d s2).
    Proof.
      unfold rollback. cbv zeta. rewrite (like_duty_index d _ _ like_wown). destruct Hw as (-> & _). apply alike_bind_eq. intros idx. destruct (_ || _)%bool; [aerr|].
      apply alike_bind_eq. intros i. apply like_new_workshift, like_wown.
    Qed.
    Lemma like_ws_worktime d : ws_worktime tb2 w2 d s2 = ws_worktime tb1 w1 d s1.
    Proof.
      unfold ws_worktime. rewrite (like_on_duty _ _ like_wown). destruct H as (_ & _ & _ & Ew & Hn). destruct Hw as (El & Ex & _). rewrite Ew, El, Ex, Hn, like_duration. reflexivity.
    Qed.
  End Workshift.
  Lemma like_find name : arg_like f (find_schedule tb1 name) (find_schedule tb2 name).
  Proof.
    destruct H as (_ & _ & Hl & _). unfold find_schedule. induction Hl as [|q1 q2 l1 l2 (E & Hq) Hl IH]; [exact I|]. cbn [find]. rewrite E.
    destruct (fst q1 =? name); [exact Hq|exact IH].
  Qed.
  Lemma like_add name sel1 sel2 : (forall x, sel2 (f x) = sel1 x) ->
    alike (fun q1 q2 => tb_like f (fst q1) (fst q2) /\ sched_like f (snd q1) (snd q2)) (add_schedule tb1 name sel1) (add_schedule tb2 name sel2).
  Proof.
    intros He. unfold add_schedule. pose proof (like_find name) as Hf. destruct (find_schedule tb1 name), (find_schedule tb2 name); cbn in Hf; try contradiction; [aerr|].
    aok. cbn [fst snd]. pose proof (rl_mk_schedule f (tb_tl tb1) name sel1 sel2 He) as Hn. rewrite <- like_tl in Hn. split; [|exact Hn].
    destruct H as (A & B & C & D). split; [exact A|]. split; [exact B|]. split; [|exact D]. cbn [tb_schedules]. apply Forall2_app; [exact C|]. constructor; [|constructor]. split; [reflexivity|exact Hn].
  Qed.
  Lemma like_drop s1 s2 : sched_like f s1 s2 -> alike (tb_like f) (drop_schedule tb1 s1) (drop_schedule tb2 s2).
  Proof.
    intros (En & _). unfold drop_schedule. rewrite En. pose proof (like_find (sc_name s1)) as Hf. destruct (find_schedule tb1 (sc_name s1)), (find_schedule tb2 (sc_name s1)); cbn in Hf; try contradiction; [|aerr].
    aok. destruct H as (A & B & C & D). split; [exact A|]. split; [exact B|]. split; [|exact D]. cbn [tb_schedules]. clear -C.
    induction C as [|q1 q2 l1 l2 (E & Hq) Hl IH]; [constructor|]. cbn [filter]. rewrite E. destruct (negb _); [constructor; [split; [exact E|exact Hq]|exact IH]|exact IH].
  Qed.
  Lemma like_dataframe a b : alike (Forall2 (row_like f)) (tb_dataframe tb1 a b) (tb_dataframe tb2 a b).
  Proof.
    unfold tb_dataframe. 
    assert (Hd : forall fr re loc bounds (l : list L), df_rows fr re loc bounds (map f l)
      = map (fun r => mkRow (row_loc r) (row_ref r) (row_start r) (row_duration r) (row_end r) (f (row_label r))) (df_rows fr re loc bounds l)).
    { intros fr re loc bounds. revert loc. induction bounds as [|b0 bounds IH]; intros loc l; [destruct l; reflexivity|]. destruct bounds as [|b1 bounds]; [destruct l; reflexivity|].
      destruct l as [|x l]; [reflexivity|]. cbn [map]. cbn [df_rows]. cbn [map row_loc row_ref row_start row_duration row_end row_label]. f_equal. apply IH. }
    assert (E : tl_dataframe (tb_tl tb2) a b = rmap (map (fun r => mkRow (row_loc r) (row_ref r) (row_start r) (row_duration r) (row_end r) (f (row_label r)))) (tl_dataframe (tb_tl tb1) a b)).
    { unfold tl_dataframe. rewrite like_tl. cbv zeta. change (tl_len (tl_map f (tb_tl tb1))) with (tl_len (tb_tl tb1)). destruct (negb _); [reflexivity|].
      cbn [tl_map tl_frame tl_index tl_labels tl_ref_end rmap]. rewrite rl_py_slice, Hd. reflexivity. }
    rewrite E. destruct (tl_dataframe (tb_tl tb1) a b) as [rows|e]; cbn [rmap bind]; [|aerr]. aok. destruct H as (_ & _ & Hl & _). clear -Hl.
    induction rows as [|r rows IH]; cbn [map]; constructor; [|exact IH]. split; [reflexivity|]. cbn [snd row_label]. clear -Hl.
    induction Hl as [|q1 q2 l1 l2 (E & Hq) Hl IH]; [reflexivity|]. cbn [map]. rewrite IH, E. destruct Hq as (_ & -> & _). reflexivity.
  Qed.
End Queries.

(** ** The theorems *)
Lemma C70_lookup_pf : forall (L M : Type) (f : L -> M) tb1 tb2 s1 s2, tb_like f tb1 tb2 -> arg_like f s1 s2 ->
  (forall t, alike (ws_like f) (get_workshift tb1 t s1) (get_workshift tb2 t s2))
  /\ (forall r len per clip c, alike (iv_like f) (get_interval tb1 r len per clip c s1) (get_interval tb2 r len per clip c s2))
  /\ (forall i, ws_start_time (tb_tl tb2) i = ws_start_time (tb_tl tb1) i /\ ws_end_time (tb_tl tb2) i = ws_end_time (tb_tl tb1) i
       /\ ws_ref_time (tb_tl tb2) i = ws_ref_time (tb_tl tb1) i /\ ws_duration (tb_tl tb2) i = ws_duration (tb_tl tb1) i).
Proof.
  intros L M f tb1 tb2 s1 s2 H Hs. split; [intros; apply like_get_workshift; assumption|]. split; [intros; apply like_get_interval; assumption|].
  intros i. rewrite (like_start f tb1 tb2 H), (like_end f tb1 tb2 H), (like_ref f tb1 tb2 H), (like_duration f tb1 tb2 H). auto.
Qed.
Lemma C70_interval_pf : forall (L M : Type) (f : L -> M) tb1 tb2 x1 x2 s1 s2 d, tb_like f tb1 tb2 -> iv_like f x1 x2 -> arg_like f s1 s2 ->
  iv_count x2 d s2 = iv_count x1 d s1
  /\ alike (Forall2 (ws_like f)) (iv_workshifts tb1 x1 d s1) (iv_workshifts tb2 x2 d s2)
  /\ (forall n, alike (ws_like f) (iv_nth tb1 x1 n d s1) (iv_nth tb2 x2 n d s2))
  /\ total_duration tb2 x2 d s2 = total_duration tb1 x1 d s1
  /\ iv_worktime tb2 x2 d s2 = iv_worktime tb1 x1 d s1
  /\ (forall fs, count_periods tb2 x2 fs d s2 = count_periods tb1 x1 fs d s1)
  /\ (forall y1 y2, iv_like f y1 y2 -> alike (iv_like f) (iv_overlap tb1 x1 y1 s1) (iv_overlap tb2 x2 y2 s2)
       /\ what_portion_of tb2 x2 y2 d s2 = what_portion_of tb1 x1 y1 d s1).
Proof.
  intros L M f tb1 tb2 x1 x2 s1 s2 d H Hx Hs. split; [apply (like_count f x1 x2); assumption|]. split; [apply like_workshifts; assumption|].
  split; [intros n; apply like_nth; assumption|]. split; [apply (like_total f tb1 tb2 H); assumption|]. split; [apply (like_worktime f tb1 tb2 H); assumption|].
  split; [intros fs; apply (like_count_periods f tb1 tb2 H); assumption|]. intros y1 y2 Hy. split; [apply like_overlap; assumption|apply (like_portion f tb1 tb2 H); assumption].
Qed.
Lemma C70_workshift_pf : forall (L M : Type) (f : L -> M) tb1 tb2 w1 w2 s1 s2 d, tb_like f tb1 tb2 -> ws_like f w1 w2 -> arg_like f s1 s2 ->
  (forall n, alike (ws_like f) (rollforward tb1 w1 n d s1) (rollforward tb2 w2 n d s2))
  /\ (forall n, alike (ws_like f) (rollback tb1 w1 n d s1) (rollback tb2 w2 n d s2))
  /\ ws_worktime tb2 w2 d s2 = ws_worktime tb1 w1 d s1
  /\ (forall t1 t2, sched_like f t1 t2 -> is_on_duty tb2 w2 t2 = is_on_duty tb1 w1 t1 /\ is_off_duty tb2 w2 t2 = is_off_duty tb1 w1 t1).
Proof.
  intros L M f tb1 tb2 w1 w2 s1 s2 d H Hw Hs. split; [intros; apply like_forward; assumption|]. split; [intros; apply like_back; assumption|].
  split; [apply (like_ws_worktime f tb1 tb2 H); assumption|]. intros t1 t2 Ht. unfold is_off_duty. rewrite (like_on_duty f tb1 tb2 H w1 w2 Hw t1 t2 Ht). auto.
Qed.
Lemma C70_schedules_pf : forall (L M : Type) (f : L -> M) tb1 tb2, tb_like f tb1 tb2 ->
  (forall name sel1 sel2, (forall x, sel2 (f x) = sel1 x) ->
     alike (fun q1 q2 => tb_like f (fst q1) (fst q2) /\ sched_like f (snd q1) (snd q2)) (add_schedule tb1 name sel1) (add_schedule tb2 name sel2))
  /\ (forall s1 s2, sched_like f s1 s2 -> alike (tb_like f) (drop_schedule tb1 s1) (drop_schedule tb2 s2))
  /\ (forall a b, alike (Forall2 (row_like f)) (tb_dataframe tb1 a b) (tb_dataframe tb2 a b)).
Proof.
  intros L M f tb1 tb2 H. split; [intros; apply like_add; assumption|]. split; [intros; apply like_drop; assumption|]. intros. apply like_dataframe. exact H.
Qed.
(** Only the duties of the labels matter: the timeboard of the duties themselves counts the same. *)
Lemma C70_duties_pf : forall (L : Type) (a : tb_args L) h tb h', build a h = Ok (tb, h') -> a_wt a = WDuration ->
  exists tb2 h2, build (mkArgs (a_freq a) (a_start a) (a_end a) (lmap (a_sel a) (a_layout a)) (map (fun q => (fst q, a_sel a (snd q))) (a_amendments a)) (fun b => b)
      (a_name a) (a_ref_end a) (a_sel a (a_default a)) WDuration (fun _ => None)) (hmap (a_sel a) h) = Ok (tb2, h2)
  /\ forall r len per clip c x1, get_interval tb r len per clip c None = Ok x1 ->
       exists x2, get_interval tb2 r len per clip c None = Ok x2
       /\ forall d, iv_count x2 d None = iv_count x1 d None /\ iv_worktime tb2 x2 d None = iv_worktime tb x1 d None
            /\ forall fs, count_periods tb2 x2 fs d None = count_periods tb x1 fs d None.
Proof.
  intros L a h tb h' B Ew.
  set (b0 := mkArgs (a_freq a) (a_start a) (a_end a) (a_layout a) (a_amendments a) (a_sel a) (a_name a) (a_ref_end a) (a_default a) WDuration (fun _ : L => None)).
  assert (B0 : exists tb0, build b0 h = Ok (tb0, h') /\ tb0 = mkTb (tb_tl tb) (tb_default tb) (tb_schedules tb) WDuration (fun _ => None)).
  { unfold build in *. unfold b0. cbn [a_freq a_start a_end a_layout a_amendments a_sel a_name a_ref_end a_default a_wt a_num]. rewrite Ew in B.
    destruct (top_organizer (a_layout a)); cbn [bind] in *; [|discriminate]. destruct (mk_frame _ _ _); cbn [bind] in *; [|discriminate].
    destruct (mk_timeline _ _ _ _ _); cbn [bind] in *; [|discriminate]. destruct (amend _ _ _); cbn [bind] in *; [|discriminate]. injection B as <- <-. eexists. split; reflexivity. }
  destruct B0 as (tb0 & B0 & E0).
  set (b := mkArgs (a_freq a) (a_start a) (a_end a) (lmap (a_sel a) (a_layout a)) (map (fun q => (fst q, a_sel a (snd q))) (a_amendments a)) (fun b => b)
      (a_name a) (a_ref_end a) (a_sel a (a_default a)) WDuration (fun _ : bool => None)).
  assert (Hr : relabelled (a_sel a) b0 b) by (unfold relabelled, b0, b; repeat split).
  destruct (C70_build_pf L bool (a_sel a) b0 b h Hr) as [(q1 & [tb2 h2] & E1 & E2 & Hlike & _)|(e & E1 & _)]; [|congruence].
  rewrite B0 in E1. injection E1 as <-. cbn [fst] in Hlike. exists tb2, h2. split; [exact E2|]. intros r len per clip c x1 Hx.
  assert (Hg : get_interval tb0 r len per clip c None = Ok x1) by (rewrite E0; exact Hx).
  destruct (like_get_interval (a_sel a) tb0 tb2 Hlike r len per clip c None None I) as [(u & v & U & V & R)|(e & U & _)]; [|congruence].
  rewrite Hg in U. injection U as <-. exists v. split; [exact V|]. intros d.
  destruct (C70_interval_pf L bool (a_sel a) tb0 tb2 x1 v None None d Hlike R I) as (A & _ & _ & _ & C & D & _).
  split; [exact A|]. split; [|intros fs; rewrite D, E0; reflexivity]. rewrite C, E0. unfold iv_worktime. cbn [tb_wt].
  assert (Et : tb_wt tb = WDuration).
  { unfold build in B. rewrite Ew in B. destruct (top_organizer (a_layout a)); cbn [bind] in *; [|discriminate]. destruct (mk_frame _ _ _); cbn [bind] in *; [|discriminate].
    destruct (mk_timeline _ _ _ _ _); cbn [bind] in *; [|discriminate]. destruct (amend _ _ _); cbn [bind] in *; [|discriminate]. injection B as <- <-. reflexivity. }
  rewrite Et. reflexivity.
Qed.
