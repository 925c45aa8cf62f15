(** Proofs of C61. *)
From Verif Require Import Base BaseProofs Civil Freq FreqProofs Frame FrameProofs Timeline TimelineProofs Board Spec BoardProofs SpecLookup LookupProofs SpecMisc MiscProofs SpecLayout PartProofs TreeProofs LayoutProofs SpecRemember RememberProofs Iterate SpecIterate.
From Coq Require Import ZifyBool ZifyNat.
Ltac Zify.zify_post_hook ::= Z.div_mod_to_equations.

(** ** Taking elements *)
Lemma feed_get_set_other {L} (fd : feeds L) k j it : j <> k -> feed_get (set_nth fd k it) j = feed_get fd j.
Proof.
  unfold feed_get. revert k j. induction fd as [|x fd IH]; intros k j H; [destruct k; reflexivity|].
  destruct k as [|k], j as [|j]; cbn [set_nth nth]; try reflexivity; [contradiction|]. apply IH. congruence.
Qed.
Lemma feed_get_set {L} (fd : feeds L) k it : (k < length fd)%nat -> feed_get (set_nth fd k it) k = it.
Proof.
  unfold feed_get. revert k. induction fd as [|x fd IH]; intros k H; [cbn in H; lia|].
  destruct k as [|k]; [reflexivity|]. cbn [set_nth nth]. apply IH. cbn in H. lia.
Qed.
Lemma set_nth_self {L} (fd : feeds L) k : set_nth fd k (feed_get fd k) = fd.
Proof.
  unfold feed_get. revert k. induction fd as [|x fd IH]; intros k; [destruct k; reflexivity|].
  destruct k as [|k]; [reflexivity|]. cbn [set_nth nth]. f_equal. apply IH.
Qed.
Lemma feed_get_out {L} (fd : feeds L) k : (length fd <= k)%nat -> feed_get fd k = (Finite [], 0%nat).
Proof. intros H. unfold feed_get. apply nth_overflow. exact H. Qed.

Lemma feed_next_spec {L} (fd fd' : feeds L) k o : feed_next fd k = (o, fd') ->
  o = to_come fd k 0 /\ (forall j, j <> k -> feed_get fd' j = feed_get fd j)
  /\ (forall i, 0 <= i -> to_come fd' k i = to_come fd k (1 + i)) /\ (o = None -> fd' = fd).
Proof.
  unfold feed_next. destruct (feed_get fd k) as [[l|g] n] eqn:E; cbn [it_next].
  - destruct (nth_error l n) as [x|] eqn:En; intros H; injection H as <- <-; unfold to_come at 1; rewrite E; cbn [Z.to_nat]; rewrite Nat.add_0_r.
    + assert (Hk : (k < length fd)%nat).
      { destruct (Nat.lt_ge_cases k (length fd)) as [H|H]; [exact H|]. rewrite (feed_get_out fd k H) in E. injection E as <- <-. discriminate. }
      split; [symmetry; exact En|]. split; [intros j Hj; apply feed_get_set_other; exact Hj|]. split; [|discriminate].
      intros i Hi. unfold to_come. rewrite feed_get_set by exact Hk. rewrite E. f_equal. lia.
    + split; [symmetry; exact En|]. rewrite <- E, set_nth_self. split; [reflexivity|]. split; [|reflexivity].
      intros i Hi. unfold to_come. rewrite E. apply nth_error_None in En. rewrite !(proj2 (nth_error_None _ _)) by lia. reflexivity.
  - intros H. injection H as <- <-. unfold to_come at 1. rewrite E. cbn [Z.to_nat]. rewrite Nat.add_0_r.
    assert (Hk : (k < length fd)%nat).
    { destruct (Nat.lt_ge_cases k (length fd)) as [H|H]; [exact H|]. rewrite (feed_get_out fd k H) in E. discriminate. }
    split; [reflexivity|]. split; [intros j Hj; apply feed_get_set_other; exact Hj|]. split; [|discriminate].
    intros i Hi. unfold to_come. rewrite feed_get_set by exact Hk. rewrite E. do 2 f_equal. lia.
Qed.

Fixpoint pull {L} (k m : nat) (fd : feeds L) : list L * feeds L :=
  match m with
  | O => ([], fd)
  | S m' => match feed_next fd k with
            | (None, fd') => ([], fd')
            | (Some x, fd') => let (c, fd'') := pull k m' fd' in (x :: c, fd'')
            end
  end.

(** Once an iterator ended there is nothing more to come. *)
Lemma to_come_none {L} (fd : feeds L) k i j : 0 <= i <= j -> to_come fd k i = None -> to_come fd k j = None.
Proof.
  intros Hij. unfold to_come. destruct (feed_get fd k) as [[l|g] n]; [|discriminate]. rewrite !nth_error_None. lia.
Qed.

Lemma pull_spec {L} k m : forall (fd fd' : feeds L) c, pull k m fd = (c, fd') ->
  portion fd k 0 (Z.of_nat m) c /\ (forall j, j <> k -> feed_get fd' j = feed_get fd j)
  /\ (forall i, 0 <= i -> to_come fd' k i = to_come fd k (Z.of_nat m + i)).
Proof.
  unfold portion. induction m as [|m IH]; intros fd fd' c H; cbn [pull] in H.
  - injection H as <- <-. split; [split; [cbn; lia|intros i Hi; lia]|]. split; [reflexivity|]. intros i Hi. f_equal.
  - destruct (feed_next fd k) as [o fd1] eqn:E. destruct (feed_next_spec _ _ _ _ E) as (A & B & C & D). destruct o as [x|].
    + destruct (pull k m fd1) as [c1 fd2] eqn:Ep. injection H as <- <-. destruct (IH _ _ _ Ep) as ((L1 & P1) & Q1 & R1).
      split; [split; [cbn [length]; lia|]|].
      * intros i Hi. destruct (Z.eq_dec i 0) as [->|Hne]; [exact A|].
        replace (Z.to_nat i) with (S (Z.to_nat (i - 1))) by lia. cbn [nth_error]. rewrite (P1 (i - 1)) by lia. rewrite Z.add_0_l, C by lia. f_equal. lia.
      * split; [intros j Hj; rewrite Q1, B by exact Hj; reflexivity|]. intros i Hi. rewrite R1, C by lia. f_equal. lia.
    + injection H as <- <-. rewrite (D eq_refl). symmetry in A. split; [split; [cbn; lia|]|].
      * intros i Hi. rewrite (to_come_none fd k 0 (0 + i)) by (try assumption; lia). destruct (Z.to_nat i); reflexivity.
      * split; [reflexivity|]. intros i Hi. rewrite (to_come_none fd k 0 i), (to_come_none fd k 0 (Z.of_nat (S m) + i)) by (try assumption; lia). reflexivity.
Qed.
Lemma pull_len {L} k m (fd : feeds L) : (length (fst (pull k m fd)) <= m)%nat.
Proof. destruct (pull k m fd) as [c fd'] eqn:E. destruct (pull_spec _ _ _ _ _ E) as ((H & _) & _). cbn [fst]. lia. Qed.

(** ** Cycles over iterators *)
Lemma times_saved {L} k n (saved : list L) : saved <> [] -> forall rest fd,
  cyc_times k n (mkCyc saved (Some rest)) fd = (Some (fst (cyc_take saved rest n)), fd).
Proof.
  intros Hs. induction n as [|n IH]; intros rest fd; [reflexivity|]. cbn [cyc_times cyc_next cyc_take cy_rest cy_saved].
  destruct rest as [|x rest]; cbn [repeat_saved].
  - destruct saved as [|y saved'] eqn:E; [contradiction|]. rewrite <- E in *. rewrite IH.
    destruct (cyc_take saved saved' n); reflexivity.
  - rewrite IH. destruct (cyc_take saved rest n); reflexivity.
Qed.
Lemma times_reading {L} k n : forall saved (fd : feeds L), 
  cyc_times k n (mkCyc saved None) fd =
    (let (c, fd') := pull k n fd in
     (if (length c =? n)%nat then Some c
      else match saved ++ c with [] => None | _ => Some (c ++ fst (cyc_take (saved ++ c) [] (n - length c))) end, fd')).
Proof.
  induction n as [|n IH]; intros saved fd; [reflexivity|]. cbn [cyc_times pull]. unfold cyc_next. cbn [cy_rest cy_saved].
  destruct (feed_next fd k) as [[x|] fd1] eqn:E.
  - rewrite IH. destruct (pull k n fd1) as [c fd2]. cbn [length Nat.eqb app Nat.sub].
    destruct (length c =? n)%nat; [reflexivity|]. rewrite <- app_assoc. cbn [app].
    destruct (saved ++ x :: c) as [|y t] eqn:Ey; [destruct saved; discriminate|]. reflexivity.
  - cbn [length Nat.eqb app Nat.sub]. rewrite app_nil_r. destruct saved as [|x t]; cbn [repeat_saved]; [reflexivity|].
    rewrite times_saved by discriminate. cbn [cyc_take]. destruct (cyc_take (x :: t) t n); reflexivity.
Qed.
(** The first [n] elements of the endless repetition of [c]. *)
Lemma cyc_take_split {A} (l : list A) : l <> [] -> forall cur m, (length cur <= m)%nat ->
  fst (cyc_take l cur m) = cur ++ fst (cyc_take l [] (m - length cur)).
Proof.
  intros Hl. induction cur as [|x cur IH]; intros m Hm; [cbn [length app]; rewrite Nat.sub_0_r; reflexivity|].
  destruct m as [|m]; [cbn in Hm; lia|]. cbn [cyc_take length app Nat.sub]. cbn [length] in Hm. specialize (IH m ltac:(lia)).
  destruct (cyc_take l cur m) as [t r]. cbn [fst] in *. rewrite IH. reflexivity.
Qed.
Lemma times_new {L} k n (fd : feeds L) : (0 < n)%nat ->
  cyc_times k n new_cyc fd =
    (let (c, fd') := pull k n fd in (match c with [] => None | _ => Some (fst (cyc_take c c n)) end, fd')).
Proof.
  intros Hn. unfold new_cyc. rewrite times_reading. pose proof (pull_len k n fd) as Hlen. destruct (pull k n fd) as [c fd']. cbn [fst] in Hlen.
  cbn [app]. destruct c as [|x t] eqn:Ec; [cbn [length]; destruct n; [lia|reflexivity]|]. rewrite <- Ec in *.
  assert (Hc : c <> []) by (rewrite Ec; discriminate). rewrite (cyc_take_split c Hc c n) by exact Hlen.
  destruct (length c =? n)%nat eqn:E.
  - apply Nat.eqb_eq in E. rewrite E, Nat.sub_diag. cbn [cyc_take fst]. rewrite app_nil_r. reflexivity.
  - rewrite Ec. reflexivity.
Qed.

(** ** Layouts without iterators that do the same *)
Fixpoint unroll_cycle {F L} (all cur : list (span -> F -> layout L * F)) (spans : list span) (fd : F)
  : list (layout L) * F :=
  match spans with
  | [] => ([], fd)
  | s :: rest =>
      match cur with
      | act :: cur' =>
          let (it, fd1) := act s fd in let (its, fd2) := unroll_cycle all cur' rest fd1 in (it :: its, fd2)
      | [] => match all with
              | [] => ([], fd)
              | act :: all' => let (it, fd1) := act s fd in let (its, fd2) := unroll_cycle all all' rest fd1 in (it :: its, fd2)
              end
      end
  end.
(** [lab], [lay]: an element of an iterator as a label of a pattern and as an element of a structure. *)
Fixpoint unroll {E L} (lab : E -> L) (lay : E -> layout L) (f : frame) (ly : layout L) (s : span) (fd : feeds E) : layout L * feeds E :=
  match ly with
  | LOrg d items =>
      match partition f d s with
      | Err _ => (ly, fd)
      | Ok spans => let (its, fd') := unroll_cycle (map (unroll lab lay f) items) (map (unroll lab lay f) items) spans fd in (LOrg d its, fd')
      end
  | LOrgRem d k =>
      match partition f d s with
      | Err _ => (LOrg d [], fd)
      | Ok spans => let (c, fd') := pull k (length spans) fd in (LOrg d (map lay c), fd')
      end
  | LPat (PRem k) =>
      if s_left s <? 0 then (LPat (PList []), fd)
      else let (c, fd') := pull k (Z.to_nat (s_left s) + span_len s) fd in (LPat (PList (map lab c)), fd')
  | LPat (PList _) | LLab _ => (ly, fd)
  end.

Definition unrolls {L} f (u : span -> feeds L -> layout L * feeds L) (o : span -> org_state L * feeds L -> res (org_state L * feeds L)) : Prop :=
  forall s st fd, span_wf f s -> o s (st, fd) = (do st' <- organize f (fst (u s fd)) s st; Ok (st', snd (u s fd))).
Lemma cycle_unrolled {L} f (acts : list (span -> feeds L -> layout L * feeds L)) acts_it :
  acts <> [] -> Forall2 (unrolls f) acts acts_it ->
  forall spans, Forall (span_wf f) spans -> forall cur cur_it, Forall2 (unrolls f) cur cur_it ->
  forall all st fd, run_cycle acts_it cur_it spans (st, fd) =
    (do st' <- run_cycle all (map (organize f) (fst (unroll_cycle acts cur spans fd))) spans st;
     Ok (st', snd (unroll_cycle acts cur spans fd))).
Proof.
  intros Hne Hall. induction spans as [|s spans IH]; intros HF cur cur_it Hcur all st fd; [reflexivity|].
  assert (Hs := Forall_inv HF). assert (HF' := Forall_inv_tail HF).
  assert (Step : forall u o cur' cur_it', unrolls f u o -> Forall2 (unrolls f) cur' cur_it' ->
    (do st1 <- o s (st, fd); run_cycle acts_it cur_it' spans st1) =
    let r := (let (it, fd1) := u s fd in let (its, fd2) := unroll_cycle acts cur' spans fd1 in (it :: its, fd2)) in
    (do st' <- run_cycle all (map (organize f) (fst r)) (s :: spans) st; Ok (st', snd r))).
  { intros u o cur' cur_it' Hu Hc. rewrite (Hu s st fd Hs). destruct (u s fd) as [it fd1]. cbn [fst snd].
    destruct (unroll_cycle acts cur' spans fd1) as [its fd2] eqn:E. cbn [fst snd map run_cycle].
    destruct (organize f it s st) as [st1|e]; cbn [bind]; [|reflexivity].
    specialize (IH HF' cur' cur_it' Hc all st1 fd1). rewrite E in IH. exact IH. }
  cbn [run_cycle unroll_cycle]. destruct Hcur as [|u o cur' cur_it' Hu Hc].
  - destruct Hall as [|u o acts' acts_it' Hu Hc] eqn:Eq; [contradiction|]. exact (Step u o acts' acts_it' Hu Hc).
  - exact (Step u o cur' cur_it' Hu Hc).
Qed.

(** The loop over an iterator of labels. *)
Lemma run_times {L} f k all spans : forall c (st : org_state L) fd,
  run_iterator k c spans st fd =
    match cyc_times k (length spans) c fd with
    | (Some l, fd') => do st' <- run_cycle all (map (fun x => organize f (LLab x)) l) spans st; Ok (st', fd')
    | (None, fd') => run_iterator k c spans st fd
    end.
Proof.
  induction spans as [|s spans IH]; intros c st fd; [reflexivity|]. cbn [run_iterator length cyc_times].
  destruct (cyc_next k c fd) as [[[x|] c'] fd1]; [|reflexivity]. unfold apply_label. cbn [bind].
  match goal with |- run_iterator _ _ _ ?s1 _ = _ => specialize (IH c' s1 fd1) end.
  destruct (cyc_times k (length spans) c' fd1) as [[l|] fd2]; [|reflexivity]. exact IH.
Qed.
Lemma run_cycle_take {L} (all : list (span -> org_state L -> res (org_state L))) : all <> [] -> forall spans cur any st,
  run_cycle all cur spans st = run_cycle any (fst (cyc_take all cur (length spans))) spans st.
Proof.
  intros Hne. induction spans as [|s spans IH]; intros cur any st; [destruct cur; reflexivity|]. cbn [length cyc_take run_cycle].
  destruct cur as [|act cur].
  - destruct all as [|act all'] eqn:E; [contradiction|]. rewrite <- E in *. specialize (IH all' any).
    destruct (cyc_take all all' (length spans)) as [t r]. cbn [fst run_cycle] in *. destruct (act s st); cbn [bind]; [apply IH|reflexivity].
  - specialize (IH cur any). destruct (cyc_take all cur (length spans)) as [t r]. cbn [fst run_cycle] in *.
    destruct (act s st); cbn [bind]; [apply IH|reflexivity].
Qed.
Lemma cyc_take_map {A B} (g : A -> B) l n : forall cur, cyc_take (map g l) (map g cur) n = (map g (fst (cyc_take l cur n)), map g (snd (cyc_take l cur n))).
Proof.
  induction n as [|n IH]; intros cur; [reflexivity|]. cbn [cyc_take]. destruct cur as [|x cur]; cbn [map].
  - destruct l as [|x l'] eqn:E; [reflexivity|]. cbn [map]. rewrite <- E. change (g x :: map g l') with (map g (x :: l')). rewrite <- E in *. rewrite IH.
    destruct (cyc_take l l' n); reflexivity.
  - rewrite IH. destruct (cyc_take l cur n); reflexivity.
Qed.
Lemma times_none {L} k n c (fd : feeds L) : cy_rest c = None -> cy_saved c = [] -> fst (cyc_times k n c fd) = None -> fst (pull k n fd) = [] /\ (0 < n)%nat.
Proof.
  destruct c as [saved rest]. cbn [cy_rest cy_saved]. intros -> -> H. destruct n as [|n]; [discriminate|]. split; [|lia].
  change (mkCyc [] None) with (@new_cyc L) in H. rewrite times_new in H by lia. destruct (pull k (S n) fd) as [[|x c] fd']; [reflexivity|discriminate].
Qed.
Lemma run_iterator_unrolled {L} f k spans (st : org_state L) fd :
  run_iterator k new_cyc spans st fd =
    (do st' <- run_cycle (map (organize f) (map LLab (fst (pull k (length spans) fd)))) (map (organize f) (map LLab (fst (pull k (length spans) fd)))) spans st;
     Ok (st', snd (pull k (length spans) fd))).
Proof.
  destruct spans as [|s spans]; [reflexivity|]. set (ss := s :: spans). set (n := length ss). assert (Hn : (0 < n)%nat) by (unfold n, ss; cbn; lia).
  rewrite (run_times f k [] ss). fold n. rewrite times_new by exact Hn. destruct (pull k n fd) as [c fd'] eqn:Ep. cbn [fst snd].
  destruct c as [|x t0] eqn:Ec.
  - cbn [map]. unfold ss. cbn [run_iterator run_cycle bind]. unfold cyc_next. cbn [cy_rest cy_saved new_cyc].
    unfold n, ss in Ep. cbn [length pull] in Ep. destruct (feed_next fd k) as [[y|] fd1]; [destruct (pull k (length spans) fd1); discriminate|].
    injection Ep as <-. reflexivity.
  - rewrite <- Ec in *. assert (Hc : map (organize f) (map LLab c) <> []) by (rewrite Ec; discriminate).
    rewrite (run_cycle_take _ Hc ss _ []). fold n. rewrite !map_map, cyc_take_map. cbn [fst]. reflexivity.
Qed.

Lemma organize_unrolled {L} f (ly : layout L) : fr_wf f -> unrolls f (unroll (fun x => x) LLab f ly) (organize_it f ly).
Proof.
  intros Hw. induction ly as [d items IH|d k|p|x] using layout_ind2; intros s st fd Hs; cbn [organize_it unroll].
  - destruct (partition f d s) as [spans|e] eqn:Hp; cbn [bind fst snd organize]; [|rewrite Hp; reflexivity].
    pose proof (partition_tiles _ _ _ _ Hw Hs Hp) as Ht.
    destruct items as [|i0 items0] eqn:Ei.
    + cbn [map]. assert (E : unroll_cycle (F:=feeds L) (L:=L) [] [] spans fd = ([], fd)) by (destruct spans; reflexivity).
      rewrite E. cbn [fst snd organize map]. rewrite Hp. cbn [bind]. assert (E2 : forall S (x : S), run_cycle [] [] spans x = Ok x) by (intros; destruct spans; reflexivity).
      rewrite !E2. reflexivity.
    + rewrite <- Ei in *. assert (Hne : map (unroll (fun x => x) LLab f) items <> []) by (rewrite Ei; discriminate).
      assert (F2 : Forall2 (unrolls f) (map (unroll (fun x => x) LLab f) items) (map (organize_it f) items)).
      { clear - IH. induction IH; cbn [map]; constructor; assumption. }
      assert (HF : Forall (span_wf f) spans).
      { apply Forall_forall. intros x Hx. pose proof (tiles_In _ _ _ x Ht Hx). unfold span_wf in *. lia. }
      destruct (unroll_cycle (map (unroll (fun x => x) LLab f) items) (map (unroll (fun x => x) LLab f) items) spans fd) as [its fd'] eqn:E. cbn [fst snd organize]. rewrite Hp. cbn [bind].
      rewrite (cycle_unrolled f _ _ Hne F2 spans HF _ _ F2 (map (organize f) its)). rewrite E. reflexivity.
  - destruct (partition f d s) as [spans|e] eqn:Hp; cbn [bind fst snd organize]; [|rewrite Hp; reflexivity].
    rewrite (run_iterator_unrolled f). destruct (pull k (length spans) fd) as [c fd']. cbn [fst snd organize]. rewrite Hp. reflexivity.
  - destruct p as [l|k]; [reflexivity|]. unfold apply_iterator. cbn [fst snd]. destruct (s_left s <? 0) eqn:El; cbn [fst snd organize].
    + unfold apply_pattern. rewrite El. reflexivity.
    + assert (Hn : (0 < Z.to_nat (s_left s) + span_len s)%nat) by (unfold span_wf, span_len in *; lia).
      rewrite times_new by exact Hn. destruct (pull k _ fd) as [c fd'] eqn:Ep. cbn [fst snd organize]. unfold apply_pattern. rewrite El, map_id.
      destruct c as [|x t0] eqn:Ec; [reflexivity|]. rewrite <- Ec. cbn [bind]. unfold skip_take.
      destruct (cyc_take c c _) as [t r]. reflexivity.
  - reflexivity.
Qed.

(** ** Uses *)
Definition covers (w : ask) (u : Z) : Prop :=
  match w with
  | AskUnits s => s_first s <= u <= s_last s
  | AskSpans spans => exists s, In s spans /\ s_first s <= u <= s_last s
  end.
Lemma cycled_map {A B} (g : A -> B) l k x : cycled l k = Some x -> cycled (map g l) k = Some (g x).
Proof. unfold cycled. rewrite map_length. intros H. apply map_nth_error. exact H. Qed.
Lemma cycled_nat {A} (l : list A) j : cycled l (Z.of_nat j) = nth_error l (j mod length l)%nat.
Proof. unfold cycled. f_equal. rewrite <- (Nat2Z.id (j mod length l)). f_equal. rewrite Nat2Z.inj_mod. reflexivity. Qed.

Section Told.
Context {E L : Type}.
Variables (lab : E -> L) (lay : E -> layout L) (f : frame).
Definition tells (D : Z -> layout L -> span -> Prop) (c : list E) (w : ask) : Prop :=
  match w with
  | AskUnits s => forall u, s_first s <= u <= s_last s -> D u (LPat (PList (map lab c))) s
  | AskSpans spans => forall j s u, nth_error spans j = Some s -> s_first s <= u <= s_last s ->
      (c = [] -> exists d s', D u (LOrg d []) s')
      /\ (c <> [] -> exists e leaf s', cycled c (Z.of_nat j) = Some e /\ decides f u (lay e) s leaf s' /\ D u leaf s')
  end.
Definition told (D0 D : Z -> layout L -> span -> Prop) (a b : Z) (fd fd' : feeds E) (asks : list (nat * ask)) : Prop :=
  (forall k i, 0 <= i -> to_come fd' k i = to_come fd k (wanted k asks + i))
  /\ (forall m k w, nth_error asks m = Some (k, w) -> 0 <= wants w
        /\ exists c, portion fd k (wanted k (firstn m asks)) (wants w) c /\ tells D c w)
  /\ (forall u leaf s', D0 u leaf s' -> plain leaf -> D u leaf s')
  /\ (forall u, a <= u <= b -> (exists leaf s', D0 u leaf s' /\ plain leaf) \/ exists k w, In (k, w) asks /\ covers w u).

Lemma wanted_app k l1 l2 : wanted k (l1 ++ l2) = wanted k l1 + wanted k l2.
Proof. induction l1 as [|[j w] l1 IH]; cbn [app wanted]; [reflexivity|]. rewrite IH. lia. Qed.
Lemma wanted_nonneg asks : (forall m k w, nth_error asks m = Some (k, w) -> 0 <= wants w) -> forall m k, 0 <= wanted k (firstn m asks).
Proof.
  induction asks as [|[j w] asks IH]; intros H m k; [rewrite firstn_nil; cbn; lia|]. destruct m as [|m]; [cbn; lia|]. cbn [firstn wanted].
  specialize (IH (fun m' => H (S m')) m k). specialize (H 0%nat j w eq_refl). destruct (j =? k)%nat; lia.
Qed.
Lemma tells_mono (D D' : Z -> layout L -> span -> Prop) c w : (forall u leaf s, D u leaf s -> D' u leaf s) -> tells D c w -> tells D' c w.
Proof.
  intros H. destruct w as [s|spans]; cbn [tells]; [intros T u Hu; apply H, T, Hu|].
  intros T j s u Hj Hu. destruct (T j s u Hj Hu) as [T1 T2]. split.
  - intros Hc. destruct (T1 Hc) as (d & s' & Hd). exists d, s'. apply H. exact Hd.
  - intros Hc. destruct (T2 Hc) as (e & leaf & s' & He & Hl & Hd). exists e, leaf, s'. split; [exact He|]. split; [exact Hl|apply H; exact Hd].
Qed.
Lemma told_nil (D0 D : Z -> layout L -> span -> Prop) a b fd :
  (forall u leaf s', D0 u leaf s' -> plain leaf -> D u leaf s') ->
  (forall u, a <= u <= b -> exists leaf s', D0 u leaf s' /\ plain leaf) -> told D0 D a b fd fd [].
Proof.
  intros H1 H2. split; [intros k i Hi; reflexivity|]. split; [intros m k w H; destruct m; discriminate|]. split; [exact H1|].
  intros u Hu. left. apply H2. exact Hu.
Qed.
Lemma told_join (D01 D1 D02 D2 D0 D : Z -> layout L -> span -> Prop) a m b fd fd1 fd2 l1 l2 :
  told D01 D1 a m fd fd1 l1 -> told D02 D2 (m + 1) b fd1 fd2 l2 ->
  (forall u leaf s, D0 u leaf s -> D01 u leaf s \/ D02 u leaf s) ->
  (forall u leaf s, D01 u leaf s -> D0 u leaf s) -> (forall u leaf s, D02 u leaf s -> D0 u leaf s) ->
  (forall u leaf s, D1 u leaf s -> D u leaf s) -> (forall u leaf s, D2 u leaf s -> D u leaf s) ->
  told D0 D a b fd fd2 (l1 ++ l2).
Proof.
  intros (A1 & B1 & C1 & E1) (A2 & B2 & C2 & E2) HD HD01 HD02 HD1 HD2.
  assert (N1 : forall n k, 0 <= wanted k (firstn n l1)) by (apply wanted_nonneg; intros n k w H; apply (B1 n k w H)).
  assert (N2 : forall n k, 0 <= wanted k (firstn n l2)) by (apply wanted_nonneg; intros n k w H; apply (B2 n k w H)).
  split; [|split; [|split]].
  - intros k i Hi. rewrite A2 by exact Hi. specialize (N2 (length l2) k). rewrite firstn_all in N2. rewrite A1 by lia. rewrite wanted_app. f_equal. lia.
  - intros n k w H. destruct (Nat.lt_ge_cases n (length l1)) as [Hn|Hn].
    + rewrite nth_error_app1 in H by exact Hn. rewrite firstn_app. replace (n - length l1)%nat with 0%nat by lia. cbn [firstn]. rewrite app_nil_r.
      destruct (B1 n k w H) as (Hw & c & Hc & Ht). split; [exact Hw|]. exists c. split; [exact Hc|]. exact (tells_mono _ _ _ _ HD1 Ht).
    + rewrite nth_error_app2 in H by exact Hn. rewrite firstn_app, (firstn_all2 l1) by exact Hn. rewrite wanted_app.
      destruct (B2 _ k w H) as (Hw & c & (Hl & Hc) & Ht). split; [exact Hw|]. exists c. split; [|exact (tells_mono _ _ _ _ HD2 Ht)].
      split; [exact Hl|]. intros i Hi. rewrite Hc by exact Hi. specialize (N2 (n - length l1)%nat k). rewrite A1 by lia. f_equal. lia.
  - intros u leaf s' Hd Hp. destruct (HD _ _ _ Hd) as [H|H]; [apply HD1, C1|apply HD2, C2]; assumption.
  - intros u Hu. destruct (Z_le_gt_dec u m) as [H|H].
    + destruct (E1 u ltac:(lia)) as [(leaf & s' & Hd & Hp)|(k & w & Hin & Hc)].
      * left. exists leaf, s'. split; [apply HD01; exact Hd|exact Hp].
      * right. exists k, w. split; [apply in_or_app; left; exact Hin|exact Hc].
    + destruct (E2 u ltac:(lia)) as [(leaf & s' & Hd & Hp)|(k & w & Hin & Hc)].
      * left. exists leaf, s'. split; [apply HD02; exact Hd|exact Hp].
      * right. exists k, w. split; [apply in_or_app; right; exact Hin|exact Hc].
Qed.

(** One use. *)
Lemma told_ask (D0 D : Z -> layout L -> span -> Prop) a b (fd fd' : feeds E) k w c n :
  pull k n fd = (c, fd') -> wants w = Z.of_nat n -> tells D c w ->
  (forall u leaf s', D0 u leaf s' -> ~ plain leaf) -> (forall u, a <= u <= b -> covers w u) ->
  told D0 D a b fd fd' [(k, w)].
Proof.
  intros Hp Hn Ht H0 Hc. destruct (pull_spec _ _ _ _ _ Hp) as (P & Q & R). split; [|split; [|split]].
  - intros j i Hi. cbn [wanted]. destruct (k =? j)%nat eqn:E0.
    + apply Nat.eqb_eq in E0. subst j. rewrite R by exact Hi. f_equal. lia.
    + apply Nat.eqb_neq in E0. unfold to_come. rewrite Q by congruence. reflexivity.
  - intros m k' w' H. destruct m as [|m]; [|destruct m; discriminate]. cbn in H. injection H as <- <-. split; [lia|].
    exists c. split; [|exact Ht]. cbn [firstn wanted]. rewrite Hn. exact P.
  - intros u leaf s' Hd Hpl. destruct (H0 _ _ _ Hd Hpl).
  - intros u Hu. right. exists k, w. split; [left; reflexivity|apply Hc; exact Hu].
Qed.

Definition by_span (g : nat -> option (layout L)) (spans : list span) (u : Z) (leaf : layout L) (s' : span) : Prop :=
  exists i s it, nth_error spans i = Some s /\ g i = Some it /\ s_first s <= u <= s_last s /\ decides f u it s leaf s'.

Lemma cycle_pick (items : list (layout L)) r j :
  items <> [] -> (r <= length items)%nat -> (forall i, ((r + i) mod length items = (j + i) mod length items)%nat) ->
  exists it r', nth_error items (j mod length items)%nat = Some it
    /\ (r' <= length items)%nat /\ (forall i, ((r' + i) mod length items = (S j + i) mod length items)%nat)
    /\ (forall (S : Type) (g : layout L -> span -> S -> res S) s spans st,
          run_cycle (map g items) (skipn r (map g items)) (s :: spans) st = (do st1 <- g it s st; run_cycle (map g items) (skipn r' (map g items)) spans st1))
    /\ (forall (F : Type) (g : layout L -> span -> F -> layout L * F) s spans fd,
          unroll_cycle (map g items) (skipn r (map g items)) (s :: spans) fd =
          (let (x, fd1) := g it s fd in let (its, fd2) := unroll_cycle (map g items) (skipn r' (map g items)) spans fd1 in (x :: its, fd2))).
Proof.
  intros Hne Hr Hm. assert (Hn : (length items <> 0)%nat) by (destruct items; [contradiction|discriminate]).
  destruct (Nat.eq_dec r (length items)) as [->|Hlt].
  - destruct items as [|it items'] eqn:E0; [contradiction|]. rewrite <- E0 in *. exists it, 1%nat.
    pose proof (Hm 0%nat) as H0. rewrite !Nat.add_0_r, Nat.mod_same in H0 by exact Hn. rewrite <- H0. split; [rewrite E0; reflexivity|]. split; [lia|]. split.
    + intros i. specialize (Hm (S i)). replace (S j + i)%nat with (j + S i)%nat by lia. rewrite <- Hm.
      replace (length items + S i)%nat with ((1 + i) + 1 * length items)%nat by lia. rewrite Nat.mod_add by exact Hn. reflexivity.
    + split; intros; rewrite <- (map_length g items) at 1; rewrite skipn_all; rewrite E0; cbn [map skipn run_cycle unroll_cycle]; reflexivity.
  - assert (Hr' : (r < length items)%nat) by lia. destruct (nth_error items r) as [it|] eqn:Ei; [|apply nth_error_None in Ei; lia].
    exists it, (S r). pose proof (Hm 0%nat) as H0. rewrite !Nat.add_0_r, Nat.mod_small in H0 by exact Hr'. rewrite <- H0. split; [exact Ei|]. split; [lia|]. split.
    + intros i. specialize (Hm (S i)). replace (S j + i)%nat with (j + S i)%nat by lia. rewrite <- Hm. f_equal. lia.
    + assert (Hx : forall (A : Type) (g : layout L -> A), skipn r (map g items) = g it :: skipn (S r) (map g items)).
      { intros A g. clear - Ei. revert r Ei. induction items as [|y l IH]; intros r E0; [destruct r; discriminate|]. destruct r as [|r].
        - cbn in E0. injection E0 as ->. reflexivity.
        - cbn [map skipn]. apply IH. exact E0. }
      split; intros; rewrite Hx; reflexivity.
Qed.

Notation unr := (unroll lab lay f).
Definition layout_told (ly : layout L) : Prop := forall s fd (st st' : org_state L), span_wf f s -> st_ok (fr_len f) st ->
  organize f (fst (unr ly s fd)) s st = Ok st' ->
  exists asks, asked f ly s asks
    /\ told (fun u leaf s' => decides f u ly s leaf s' /\ s_first s <= u <= s_last s) (fun u leaf s' => decides f u (fst (unr ly s fd)) s leaf s' /\ s_first s <= u <= s_last s)
            (s_first s) (s_last s) fd (snd (unr ly s fd)) asks.

Lemma unroll_cycle_len {F} (all : list (span -> F -> layout L * F)) : all <> [] -> forall spans cur fd,
  length (fst (unroll_cycle all cur spans fd)) = length spans.
Proof.
  intros Hne. induction spans as [|s spans IH]; intros cur fd; [reflexivity|]. cbn [unroll_cycle length].
  destruct cur as [|act cur]; [destruct all as [|act all'] eqn:E0; [contradiction|]; rewrite <- E0 in *|].
  - destruct (act s fd) as [it fd1]. specialize (IH all' fd1). destruct (unroll_cycle all all' spans fd1). cbn [fst length] in *. congruence.
  - destruct (act s fd) as [it fd1]. specialize (IH cur fd1). destruct (unroll_cycle all cur spans fd1). cbn [fst length] in *. congruence.
Qed.

Lemma cycle_told (items : list (layout L)) all : fr_wf f -> items <> [] -> Forall layout_told items ->
  forall spans a b, tiles a b spans -> 0 <= a -> b < fr_len f ->
  forall r j fd st st', st_ok (fr_len f) st -> (r <= length items)%nat -> (forall i, ((r + i) mod length items = (j + i) mod length items)%nat) ->
    let u := unroll_cycle (map unr items) (skipn r (map unr items)) spans fd in
    run_cycle all (map (organize f) (fst u)) spans st = Ok st' ->
    exists asks, asked_spans f items j spans asks
      /\ told (by_span (fun i => nth_error items ((j + i) mod length items)%nat) spans) (by_span (nth_error (fst u)) spans) a b fd (snd u) asks.
Proof.
  intros Hw Hne Hall spans a b Ht.
  rewrite Forall_forall in Hall.
  assert (Head : forall s rest r j fd st sf, span_wf f s -> st_ok (fr_len f) st -> (r <= length items)%nat -> (forall i, ((r + i) mod length items = (j + i) mod length items)%nat) ->
    run_cycle all (map (organize f) (fst (unroll_cycle (map unr items) (skipn r (map unr items)) (s :: rest) fd))) (s :: rest) st = Ok sf ->
    exists it r' st1 l, nth_error items (j mod length items)%nat = Some it /\ (r' <= length items)%nat
      /\ (forall i, ((r' + i) mod length items = (S j + i) mod length items)%nat) /\ asked f it s l
      /\ told (fun u leaf s' => decides f u it s leaf s' /\ s_first s <= u <= s_last s) (fun u leaf s' => decides f u (fst (unr it s fd)) s leaf s' /\ s_first s <= u <= s_last s)
            (s_first s) (s_last s) fd (snd (unr it s fd)) l
      /\ st_ok (fr_len f) st1
      /\ run_cycle all (map (organize f) (fst (unroll_cycle (map unr items) (skipn r' (map unr items)) rest (snd (unr it s fd))))) rest st1 = Ok sf
      /\ unroll_cycle (map unr items) (skipn r (map unr items)) (s :: rest) fd =
          (let (its, fd2) := unroll_cycle (map unr items) (skipn r' (map unr items)) rest (snd (unr it s fd)) in (fst (unr it s fd) :: its, fd2))).
  { intros s rest r j fd st sf Hs Hst Hr Hm Hrun. destruct (cycle_pick items r j Hne Hr Hm) as (it & r' & Hit & Hr' & Hm' & _ & Eun).
    specialize (Eun _ unr s rest fd). pose proof (Hall it (nth_error_In _ _ Hit) s fd st) as Hl. rewrite Eun in Hrun |- *. clear Eun.
    destruct (unr it s fd) as [x fd1] eqn:Ex. cbn [fst snd] in *.
    destruct (unroll_cycle (map unr items) (skipn r' (map unr items)) rest fd1) as [its fd2] eqn:Er. cbn [fst snd map run_cycle] in *.
    destruct (organize f x s st) as [st1|e] eqn:Eo; cbn [bind] in Hrun; [|discriminate].
    destruct (Hl st1 Hs Hst eq_refl) as (l & Hl1 & Tl).
    exists it, r', st1, l. rewrite Ex. cbn [fst snd]. split; [exact Hit|]. split; [exact Hr'|]. split; [exact Hm'|]. split; [exact Hl1|]. split; [exact Tl|].
    rewrite Er. cbn [fst]. split; [|split; [exact Hrun|reflexivity]].
    destruct Hs as [Hs1 Hs2]. exact (st_ok_local _ _ _ _ _ Hst (organize_local f x Hw s st st1 Hst Hs1 Hs2 Eo)). }
  assert (Join : forall s rest a m b fd fd1 fd2 l1 l2 it it' its j, s_first s = a -> s_last s = m ->
    nth_error items (j mod length items)%nat = Some it ->
    told (fun u leaf s' => decides f u it s leaf s' /\ s_first s <= u <= s_last s) (fun u leaf s' => decides f u it' s leaf s' /\ s_first s <= u <= s_last s) a m fd fd1 l1 ->
    told (by_span (fun i => nth_error items ((S j + i) mod length items)%nat) rest) (by_span (nth_error its) rest) (m + 1) b fd1 fd2 l2 ->
    told (by_span (fun i => nth_error items ((j + i) mod length items)%nat) (s :: rest)) (by_span (nth_error (it' :: its)) (s :: rest)) a b fd fd2 (l1 ++ l2)).
  { intros s rest a0 m b0 fd fd1 fd2 l1 l2 it it' its j Ea Em Hit T1 T2. refine (told_join _ _ _ _ _ _ a0 m b0 fd fd1 fd2 l1 l2 T1 T2 _ _ _ _ _).
    - intros u leaf s' (i & si & iti & Hi & Hg & Hu & Hd). destruct i as [|i].
      + left. cbn in Hi. injection Hi as <-. rewrite Nat.add_0_r, Hit in Hg. injection Hg as <-. split; assumption.
      + right. exists i, si, iti. cbn in Hi. split; [exact Hi|]. split; [rewrite <- Hg; f_equal; f_equal; lia|]. split; assumption.
    - intros u leaf s' [Hd Hu]. exists 0%nat, s, it. rewrite Nat.add_0_r. repeat split; try assumption; lia.
    - intros u leaf s' (i & si & iti & Hi & Hg & Hu & Hd). exists (S i), si, iti. split; [exact Hi|]. split; [rewrite <- Hg; f_equal; f_equal; lia|]. split; assumption.
    - intros u leaf s' [Hd Hu]. exists 0%nat, s, it'. repeat split; try assumption; lia.
    - intros u leaf s' (i & si & iti & Hi & Hg & Hu & Hd). exists (S i), si, iti. split; [exact Hi|]. split; [exact Hg|]. split; assumption. }
  induction Ht as [a b x y H0|a m b x y rest H1 H2 Ht IH]; intros Ha Hb r j fd st st' Hst Hr Hm; cbv zeta; intros Hrun.
  - destruct (Head (mkSpan a b x y) [] r j fd st st' ltac:(unfold span_wf; cbn; lia) Hst Hr Hm Hrun) as (it & r' & st1 & l & Hit & Hr' & Hm' & Hl & Tl & Hst1 & Hrest & Eu).
    rewrite Eu. cbn [unroll_cycle fst snd]. exists (l ++ []). split; [eapply as_cons; [exact Hit|exact Hl|constructor]|].
    eapply (Join (mkSpan a b x y) [] a b b); [reflexivity|reflexivity|exact Hit|exact Tl|].
    apply told_nil; [|intros u Hu; lia]. intros u leaf s' (i & si & iti & Hi & _). destruct i; discriminate.
  - pose proof (tiles_le _ _ _ Ht) as Hle.
    destruct (Head (mkSpan a m x y) rest r j fd st st' ltac:(unfold span_wf; cbn; lia) Hst Hr Hm Hrun) as (it & r' & st1 & l & Hit & Hr' & Hm' & Hl & Tl & Hst1 & Hrest & Eu).
    pose proof (IH ltac:(lia) Hb r' (S j) (snd (unr it (mkSpan a m x y) fd)) st1 st' Hst1 Hr' Hm') as IH'. cbv zeta in IH'. destruct (IH' Hrest) as (l' & Hl' & Tl'). exists (l ++ l'). split; [eapply as_cons; eassumption|].
    rewrite Eu. destruct (unroll_cycle (map unr items) (skipn r' (map unr items)) rest (snd (unr it (mkSpan a m x y) fd))) as [its fd2].
    cbn [fst snd] in *. eapply (Join (mkSpan a m x y) rest a m b); [reflexivity|reflexivity|exact Hit|exact Tl|exact Tl'].
Qed.

Lemma all_told (ly : layout L) : fr_wf f -> layout_told ly.
Proof.
  intros Hw. induction ly as [d items IH|d k|p|x] using layout_ind2; intros s fd st st' Hs Hst Ho; pose proof Hs as [Hs1 Hs2]; cbn [unroll] in Ho |- *.
  - destruct (partition f d s) as [spans|e] eqn:Hp; [|cbn [fst organize] in Ho; rewrite Hp in Ho; discriminate].
    pose proof (partition_tiles _ _ _ _ Hw Hs Hp) as Ht. destruct items as [|i0 items0] eqn:Ei.
    + cbn [map]. assert (E0 : unroll_cycle (F:=feeds E) (L:=L) [] [] spans fd = ([], fd)) by (destruct spans; reflexivity). rewrite E0. cbn [fst snd].
      exists []. split; [eapply asked_nothing; exact Hp|]. apply told_nil; [intros u leaf s' H _; exact H|].
      intros u Hu. exists (LOrg d []), s. split; [split; [constructor|exact Hu]|exact I].
    + rewrite <- Ei in *. assert (Hne : items <> []) by (rewrite Ei; discriminate).
      assert (Hlen := unroll_cycle_len (map unr items) ltac:(rewrite Ei; discriminate) spans (map unr items) fd).
      pose proof (fun all => cycle_told items all Hw Hne IH spans _ _ Ht ltac:(lia) Hs2 0%nat 0%nat fd st st' Hst ltac:(lia) (fun i => eq_refl)) as Hct. cbv zeta in Hct. cbn [skipn] in Hct.
      destruct (unroll_cycle (map unr items) (map unr items) spans fd) as [its fd2]. cbn [fst snd organize] in *. rewrite Hp in Ho. cbn [bind] in Ho.
      destruct (Hct _ Ho) as (l & Hl & Tl).
      exists l. split; [eapply asked_org; eassumption|].
      assert (D1 : forall u leaf s', by_span (nth_error its) spans u leaf s' -> decides f u (LOrg d its) s leaf s' /\ s_first s <= u <= s_last s).
      { intros u leaf s' (i & si & iti & Hi & Hg & Hu & Hd). split.
        - eapply dec_org; [exact Hp|exact Hi|exact Hu| |exact Hd]. rewrite Hlen, Nat.mod_small; [exact Hg|]. apply nth_error_Some. congruence.
        - pose proof (tiles_In _ _ _ si Ht (nth_error_In _ _ Hi)). lia. }
      assert (D0 : forall u leaf s', by_span (fun i => nth_error items ((0 + i) mod length items)%nat) spans u leaf s' <->
         decides f u (LOrg d items) s leaf s' /\ s_first s <= u <= s_last s).
      { intros u leaf s'. split.
        - intros (i & si & iti & Hi & Hg & Hu & Hd). split.
          + eapply dec_org; [exact Hp|exact Hi|exact Hu|exact Hg|exact Hd].
          + pose proof (tiles_In _ _ _ si Ht (nth_error_In _ _ Hi)). lia.
        - intros [Hd Hu]. inversion Hd as [| | | |d1 items1 spans1 s1 s2 i it leaf1 s3 Hp1 Hi Hu1 Hit Hd1]; [congruence|]. subst.
          rewrite Hp in Hp1. injection Hp1 as <-. exists i, s2, it. split; [exact Hi|]. split; [exact Hit|]. split; [exact Hu1|exact Hd1]. }
      destruct Tl as (A & B & C & G). split; [exact A|]. split; [|split].
      * intros m k w H. destruct (B m k w H) as (Hwt & c & Hc & Htl). split; [exact Hwt|]. exists c. split; [exact Hc|]. exact (tells_mono _ _ _ _ D1 Htl).
      * intros u leaf s' H Hpl. apply D1. apply C; [apply D0; exact H|exact Hpl].
      * intros u Hu. destruct (G u Hu) as [(leaf & s' & Hd & Hpl)|H]; [left|right; exact H]. exists leaf, s'. split; [apply D0; exact Hd|exact Hpl].
  - destruct (partition f d s) as [spans|e] eqn:Hp; [|cbn [fst organize] in Ho; rewrite Hp in Ho; discriminate].
    pose proof (partition_tiles _ _ _ _ Hw Hs Hp) as Ht. destruct (pull k (length spans) fd) as [c fd2] eqn:Epl. cbn [fst snd] in Ho |- *.
    exists [(k, AskSpans spans)]. split; [constructor; exact Hp|]. eapply told_ask; [exact Epl|reflexivity| | |].
    + intros j s' u Hj Hu. pose proof (tiles_In _ _ _ s' Ht (nth_error_In _ _ Hj)) as Hin. split.
      * intros ->. exists d, s. split; [constructor|lia].
      * intros Hc. destruct (cycled_ok c (Z.of_nat j) Hc) as (e & He).
        destruct (decides_ex f u _ Hw s st st' Hs ltac:(lia) Hst Ho) as (leaf & s'' & Hd).
        exists e, leaf, s''. split; [exact He|]. split; [|split; [exact Hd|lia]].
        inversion Hd as [| |d1 s1 E0| |d1 items1 spans1 s1 s2 i it leaf1 s3 Hp1 Hi Hu1 Hit Hd1]; [destruct c; [contradiction|discriminate]|]. subst.
        rewrite Hp in Hp1. injection Hp1 as <-.
        assert (Ej : Z.of_nat j = Z.of_nat i).
        { apply (tiles_unique _ _ _ _ _ s' s2 u Ht); try assumption; rewrite nth_error_znth, Nat2Z.id by lia; assumption. }
        assert (j = i) by lia. subst i. rewrite Hj in Hi. injection Hi as <-.
        rewrite <- cycled_nat in Hit. rewrite (cycled_map lay c _ _ He) in Hit. injection Hit as <-. exact Hd1.
    + intros u leaf s' [Hd _] Hpl. inversion Hd; subst. exact Hpl.
    + intros u Hu. destruct (tiles_cover _ _ _ u Ht Hu) as (i & s' & Hi & Hu'). exists s'. split; [eapply znth_In; exact Hi|exact Hu'].
  - destruct p as [l|k].
    + cbn [fst snd organize] in *. unfold apply_pattern in Ho. destruct (s_left s <? 0) eqn:El; [discriminate|].
      exists []. split; [constructor; lia|]. apply told_nil; [intros u leaf s' H _; exact H|].
      intros u Hu. exists (LPat (PList l)), s. split; [split; [constructor|exact Hu]|exact I].
    + destruct (s_left s <? 0) eqn:El; [cbn [fst organize] in Ho; unfold apply_pattern in Ho; rewrite El in Ho; discriminate|].
      destruct (pull k (Z.to_nat (s_left s) + span_len s) fd) as [c fd2] eqn:Epl. cbn [fst snd].
      exists [(k, AskUnits s)]. split; [constructor; lia|]. eapply told_ask; [exact Epl| | | |].
      * cbn [wants]. pose proof (span_len_z s ltac:(lia)). lia.
      * intros u Hu. split; [constructor|exact Hu].
      * intros u leaf s' [Hd _] Hpl. inversion Hd; subst. exact Hpl.
      * intros u Hu. exact Hu.
  - cbn [fst snd]. exists []. split; [constructor|]. apply told_nil; [intros u leaf s' H _; exact H|].
    intros u Hu. exists (LLab x), s. split; [split; [constructor|exact Hu]|exact I].
Qed.
End Told.

(** ** Timeboards *)
Lemma build_it_plain {L} (a : tb_args L) fd :
  match top_organizer (a_layout a), mk_frame (a_freq a) (a_start a) (a_end a) with
  | Ok org, Ok f =>
      let u := unroll (fun x => x) LLab f org (whole_span f) fd in
      build_it a fd = match build (with_layout a (fst u)) [] with Ok (tb, _) => Ok (tb, snd u) | Err e => Err e end
  | _, _ => forall h, exists e, build_it a fd = Err e /\ build a h = Err e
  end.
Proof.
  unfold build_it. destruct (top_organizer (a_layout a)) as [org|e] eqn:Eo.
  2:{ intros h. exists e. unfold build. rewrite Eo. split; reflexivity. }
  destruct (mk_frame (a_freq a) (a_start a) (a_end a)) as [f|e] eqn:Ef.
  2:{ intros h. unfold build. rewrite Eo. cbn [bind]. rewrite Ef. destruct (a_wt a); eexists; split; reflexivity. }
  cbv zeta. assert (Hw : fr_wf f) by (exact (proj1 (proj2 (proj2 (mk_frame_inv _ _ _ _ Ef))))).
  assert (Hs : span_wf f (whole_span f)) by (unfold span_wf, whole_span, fr_wf in *; cbn; lia).
  assert (Et : top_organizer (fst (unroll (fun x => x) LLab f org (whole_span f) fd)) = Ok (fst (unroll (fun x => x) LLab f org (whole_span f) fd))).
  { assert (Ho : match org with LOrg _ _ | LOrgRem _ _ => True | _ => False end).
    { destruct (a_layout a) as [d items|d k|[l|k]|x]; cbn in Eo; try discriminate; injection Eo as <-; exact I. }
    destruct org as [d items|d k|p|x]; try contradiction; cbn [unroll].
    - destruct (partition f d (whole_span f)); [|reflexivity]. destruct (unroll_cycle _ _ _ _). reflexivity.
    - destruct (partition f d (whole_span f)); [|reflexivity]. destruct (pull _ _ _). reflexivity. }
  unfold build. cbn [with_layout a_layout a_freq a_start a_end a_wt a_ref_end a_default a_amendments a_name a_sel a_num]. rewrite Et. cbn [bind]. rewrite Ef. cbn [bind].
  unfold mk_timeline_it, mk_timeline. change (mkSpan 0 (fr_len f - 1) 0 0) with (whole_span f).
  rewrite (organize_unrolled f org Hw (whole_span f) _ fd Hs).
  destruct (a_wt a); try reflexivity;
    (destruct (organize f (fst (unroll (fun x => x) LLab f org (whole_span f) fd)) (whole_span f) _) as [st|e]; cbn [bind fst snd]; [|reflexivity];
     match goal with |- context [amend ?t false ?am] => destruct (amend t false am); reflexivity end).
Qed.

Lemma C61_plain_pf : forall (L : Type) (a : tb_args L) (fd : feeds L),
  (forall tb fd', build_it a fd = Ok (tb, fd') -> exists ly h, build (with_layout a ly) [] = Ok (tb, h))
  /\ forall e, build_it a fd = Err e -> exists ly, build (with_layout a ly) [] = Err e.
Proof.
  intros L a fd. pose proof (build_it_plain a fd) as H.
  assert (Hbad : (forall h, exists e, build_it a fd = Err e /\ build a h = Err e) ->
    (forall tb fd', build_it a fd = Ok (tb, fd') -> exists ly h, build (with_layout a ly) [] = Ok (tb, h))
    /\ forall e, build_it a fd = Err e -> exists ly, build (with_layout a ly) [] = Err e).
  { intros Hb. destruct (Hb []) as (e & E1 & E2). rewrite E1. split; [discriminate|]. intros e' E. injection E as <-.
    exists (a_layout a). destruct a. exact E2. }
  destruct (top_organizer (a_layout a)) as [org|e0]; [|exact (Hbad H)].
  destruct (mk_frame (a_freq a) (a_start a) (a_end a)) as [f|e0]; [|exact (Hbad H)].
  cbv zeta in H. rewrite H. destruct (build _ _) as [[tb h]|e] eqn:E.
  - split; [|discriminate]. intros tb' fd' H'. injection H' as <- <-. eexists _, _. exact E.
  - split; [discriminate|]. intros e' H'. injection H' as <-. eexists. exact E.
Qed.

Scheme asked_mind := Minimality for asked Sort Prop
  with asked_spans_mind := Minimality for asked_spans Sort Prop.
Combined Scheme asked_mutind from asked_mind, asked_spans_mind.
Lemma asked_fun_both {L} f :
  (forall (ly : layout L) s asks, asked f ly s asks -> forall asks', asked f ly s asks' -> asks' = asks)
  /\ (forall (items : list (layout L)) j spans asks, asked_spans f items j spans asks -> forall asks', asked_spans f items j spans asks' -> asks' = asks).
Proof.
  apply asked_mutind.
  - intros l s _ u' H. inversion H. reflexivity.
  - intros x s u' H. inversion H. reflexivity.
  - intros k s _ u' H. inversion H. reflexivity.
  - intros d k s spans Hp u' H. inversion H; subst. congruence.
  - intros d s spans _ u' H. inversion H; subst; [reflexivity|contradiction].
  - intros d items s spans l Hne Hp _ IH u' H. inversion H; subst; [contradiction|]. apply IH. congruence.
  - intros items j u' H. inversion H. reflexivity.
  - intros items j s rest it l l' Hit _ IHl _ IHr u' H. inversion H; subst.
    match goal with Hx : nth_error items _ = Some ?it2 |- _ => rewrite Hit in Hx; injection Hx as <- end.
    f_equal; [apply IHl|apply IHr]; assumption.
Qed.

Lemma unroll_org {E L} lab lay f (org : layout L) s (fd : feeds E) : match org with LOrg _ _ | LOrgRem _ _ => True | _ => False end ->
  forall ly, top_organizer (fst (unroll lab lay f org s fd)) = Ok ly -> ly = fst (unroll lab lay f org s fd).
Proof.
  intros Ho ly Eo. destruct org as [d items|d k|p|x]; try contradiction; cbn [unroll] in *.
  - destruct (partition f d s); [|cbn in Eo |- *; congruence]. destruct (unroll_cycle _ _ _ _). cbn in Eo |- *. congruence.
  - destruct (partition f d s); [|cbn in Eo |- *; congruence]. destruct (pull _ _ _). cbn in Eo |- *. congruence.
Qed.
(** The uses of iterators in a timeboard made from the layout without them. *)
Lemma uses_of {E L} (lab : E -> L) lay (a : tb_args L) (fd : feeds E) org f tb h :
  top_organizer (a_layout a) = Ok org -> mk_frame (a_freq a) (a_start a) (a_end a) = Ok f ->
  let u := unroll lab lay f org (whole_span f) fd in
  build (with_layout a (fst u)) [] = Ok (tb, h) ->
  tl_frame (tb_tl tb) = f /\ exists asks, asks_of a tb asks /\ (forall l, asks_of a tb l -> l = asks)
    /\ (forall k i, 0 <= i -> to_come (snd u) k i = to_come fd k (wanted k asks + i))
    /\ (forall m k, 0 <= wanted k (firstn m asks))
    /\ (a_amendments a = [] -> forall m k w, nth_error asks m = Some (k, w) ->
          exists c, portion fd k (wanted k (firstn m asks)) (wants w) c
            /\ tells lab lay f (fun u leaf s => leaf_does (tb_tl tb) [] (a_default a) leaf s u) c w)
    /\ (a_amendments a = [] -> forall u leaf s, 0 <= u < fr_len f -> decides f u org (whole_span f) leaf s -> plain leaf ->
            leaf_does (tb_tl tb) [] (a_default a) leaf s u)
    /\ forall u, 0 <= u < fr_len f -> (exists leaf s, decides f u org (whole_span f) leaf s /\ plain leaf)
              \/ exists k w, In (k, w) asks /\ match w with AskUnits s => s_first s <= u <= s_last s
                                              | AskSpans spans => exists s, In s spans /\ s_first s <= u <= s_last s end.
Proof.
  intros Eo Ef. cbv zeta. set (u := unroll lab lay f org (whole_span f) fd). intros Eb. apply build_inv in Eb.
  destruct Eb as (org' & f' & tl0 & Eo' & Ef' & Et & Ea & _ & _ & _ & _ & Hw & _ & _ & Efr & _).
  cbn [with_layout a_freq a_start a_end a_layout a_amendments a_default a_ref_end] in *. rewrite Ef in Ef'. injection Ef' as <-.
  assert (Hs : span_wf f (whole_span f)) by (unfold span_wf, whole_span, fr_wf in *; cbn; lia).
  assert (Ho : match org with LOrg _ _ | LOrgRem _ _ => True | _ => False end).
  { destruct (a_layout a) as [d items|d k|[l|k]|x]; cbn in Eo; try discriminate; injection Eo as <-; exact I. }
  pose proof (unroll_org lab lay f org _ fd Ho _ Eo') as Eu. fold u in Eu. subst org'. clear Ho.
  destruct (mk_timeline_inv _ _ _ _ _ _ _ Hw Et) as (st & Ho & _). change (mkSpan 0 (fr_len f - 1) 0 0) with (whole_span f) in Ho.
  assert (Hst0 : st_ok (fr_len f) (mkSt (repeat (a_default a) (Z.to_nat (fr_len f))) (repeat true (Z.to_nat (fr_len f))) [])) by (unfold st_ok, fr_wf in *; cbn; rewrite !zlen_repeat; lia).
  destruct (all_told lab lay f org Hw (whole_span f) fd _ _ Hs Hst0 Ho) as (asks & Hask & (A & B & C & G)). fold u in A, B, C.
  split; [exact Efr|].
  exists asks. split; [exists org; rewrite Efr; split; assumption|]. split.
  { intros l (org2 & Eo2 & Hl). rewrite Eo in Eo2. injection Eo2 as <-. rewrite Efr in Hl. exact (proj1 (asked_fun_both f) _ _ _ Hask _ Hl). }
  split; [exact A|]. split. { apply wanted_nonneg. intros m k w Hm. apply (B m k w Hm). }
  assert (Hleaf : a_amendments a = [] -> forall v leaf s, 0 <= v < fr_len f -> decides f v (fst u) (whole_span f) leaf s -> leaf_does (tb_tl tb) [] (a_default a) leaf s v).
  { intros Ham v leaf s Hv Hd. rewrite Ham, amend_nil in Ea. injection Ea as Ea. rewrite <- Ea.
    destruct (tree_leaf f (fst u) _ _ [] tl0 h Hw Et v Hv) as (leaf' & s' & _ & Hun & Hdo). destruct (Hun _ _ Hd) as [<- <-]. exact Hdo. }
  split; [|split].
  - intros Ham m k w Hm. destruct (B m k w Hm) as (Hwt & c & Hc & Ht). exists c. split; [exact Hc|]. refine (tells_mono _ _ _ _ _ _ _ _ Ht).
    intros v leaf s [Hd Hr]. cbn [whole_span s_first s_last] in Hr. exact (Hleaf Ham v _ _ ltac:(lia) Hd).
  - intros Ham v leaf s Hv Hd Hpl. apply (Hleaf Ham v leaf s Hv). apply (C v leaf s); [split; [exact Hd|cbn; lia]|exact Hpl].
  - intros v Hv. destruct (G v ltac:(cbn; lia)) as [(leaf & s & [Hd _] & Hpl)|(k & w & Hin & Hc)]; [left; exists leaf, s; split; assumption|right].
    exists k, w. split; [exact Hin|]. destruct w; exact Hc.
Qed.

Lemma C61_uses_pf : forall (L : Type) (a : tb_args L) (fd : feeds L) tb fd', build_it a fd = Ok (tb, fd') ->
  exists asks, asks_of a tb asks /\ (forall l, asks_of a tb l -> l = asks)
    /\ (forall k i, 0 <= i -> to_come fd' k i = to_come fd k (wanted k asks + i))
    /\ (forall m k, 0 <= wanted k (firstn m asks))
    /\ (a_amendments a = [] -> forall m k w, nth_error asks m = Some (k, w) ->
          exists c, portion fd k (wanted k (firstn m asks)) (wants w) c /\ repeats (tb_tl tb) (a_default a) c w)
    /\ exists org, top_organizer (a_layout a) = Ok org /\ let f := tl_frame (tb_tl tb) in
         (a_amendments a = [] -> forall u leaf s, 0 <= u < fr_len f -> decides f u org (whole_span f) leaf s -> plain leaf ->
            leaf_does (tb_tl tb) [] (a_default a) leaf s u)
         /\ forall u, 0 <= u < fr_len f -> (exists leaf s, decides f u org (whole_span f) leaf s /\ plain leaf)
              \/ exists k w, In (k, w) asks /\ match w with AskUnits s => s_first s <= u <= s_last s
                                              | AskSpans spans => exists s, In s spans /\ s_first s <= u <= s_last s end.
Proof.
  intros L a fd tb fd' H. pose proof (build_it_plain a fd) as Hp.
  destruct (top_organizer (a_layout a)) as [org|e0] eqn:Eo. 2:{ destruct (Hp []) as (e & E & _). congruence. }
  destruct (mk_frame (a_freq a) (a_start a) (a_end a)) as [f|e0] eqn:Ef. 2:{ destruct (Hp []) as (e & E & _). congruence. }
  cbv zeta in Hp. destruct (build _ []) as [[tb1 h1]|e] eqn:Eb; [|congruence]. rewrite Hp in H. injection H as -> <-.
  destruct (uses_of (fun x => x) LLab a fd org f tb h1 Eo Ef Eb) as (Efr & asks & H1 & H2 & H3 & H4 & H5 & H6 & H7).
  exists asks. split; [exact H1|]. split; [exact H2|]. split; [exact H3|]. split; [exact H4|]. split.
  - intros Ham m k w Hm. destruct (H5 Ham m k w Hm) as (c & Hc & Ht). exists c. split; [exact Hc|]. destruct w as [s|spans]; cbn [tells repeats] in *.
    + intros v Hv. specialize (Ht v Hv). rewrite map_id in Ht. cbn [leaf_does] in Ht.
      destruct c as [|x c]; [split; [intros _; exact Ht|contradiction]|]. split; [discriminate|]. intros _. exact Ht.
    + intros j s v Hj Hv. destruct (Ht j s v Hj Hv) as [T1 T2]. split; intros Hcc.
      * destruct (T1 Hcc) as (d & s' & Hd). exact Hd.
      * destruct (T2 Hcc) as (x & leaf & s' & Hx & Hl & Hd). exists x. split; [exact Hx|]. inversion Hl; subst. exact Hd.
  - exists org. split; [reflexivity|]. cbv zeta. rewrite Efr. split; [exact H6|exact H7].
Qed.

(** ** Remembering patterns are iterators *)
Lemma upcoming_upc {L} (h : heap L) k l cur i : heap_get h k = (l, cur) -> upcoming h k i = upc l cur i.
Proof. intros H. unfold upcoming, upc. rewrite H. reflexivity. Qed.
Lemma upc_some {L} (l cur : list L) i : l <> [] -> 0 <= i -> upc l cur i <> None.
Proof.
  intros Hl Hi. unfold upc. destruct (i <? Z.of_nat (length cur)) eqn:E; [apply nth_error_Some; lia|].
  unfold cycled. apply nth_error_Some. destruct l as [|x l]; [contradiction|]. cbn [length] in *. lia.
Qed.
Lemma nth_error_same {A} (l : list A) : forall l', (forall i, nth_error l i = nth_error l' i) -> l = l'.
Proof.
  induction l as [|x l IH]; intros [|y l'] H; [reflexivity|specialize (H 0%nat); discriminate|specialize (H 0%nat); discriminate|].
  f_equal; [specialize (H 0%nat); injection H as ->; reflexivity|]. apply IH. intros i. exact (H (S i)).
Qed.
Lemma rem_pull {L} (h : heap L) fd k l cur n c fd' t r : is_remembering h fd -> heap_get h k = (l, cur) -> l <> [] ->
  pull k n fd = (c, fd') -> cyc_take l cur n = (t, r) -> c = t /\ is_remembering (heap_set h k (l, r)) fd'.
Proof.
  intros HR Hg Hl Hp Ht. destruct (pull_spec _ _ _ _ _ Hp) as ((P1 & P2) & Q & R). destruct (cyc_take_upc l n Hl _ _ _ Ht) as (T1 & T2 & T3).
  assert (Hc : forall i, 0 <= i -> to_come fd k i = upc l cur i).
  { intros i Hi. rewrite (HR k i Hi), Hg, (upcoming_upc h k l cur i Hg). cbn [fst]. destruct l; [contradiction|reflexivity]. }
  assert (Hsame : forall i, 0 <= i < Z.of_nat n -> nth_error c (Z.to_nat i) = nth_error t (Z.to_nat i)).
  { intros i Hi. rewrite (P2 i Hi), (T2 i Hi), Hc by lia. reflexivity. }
  assert (Hlen : length c = n).
  { destruct (Nat.eq_dec (length c) n) as [E|E]; [exact E|exfalso]. pose proof (P2 (Z.of_nat (length c)) ltac:(lia)) as H.
    rewrite (proj2 (nth_error_None _ _)), Hc in H by lia. symmetry in H. revert H. apply upc_some; [exact Hl|lia]. }
  split.
  - apply nth_error_same. intros i. destruct (Nat.lt_ge_cases i n) as [Hi|Hi].
    + specialize (Hsame (Z.of_nat i) ltac:(lia)). rewrite Nat2Z.id in Hsame. exact Hsame.
    + rewrite !(proj2 (nth_error_None _ _)) by lia. reflexivity.
  - intros j i Hi. destruct (Nat.eq_dec j k) as [->|Hne].
    + rewrite heap_get_set_same by (unfold rlabels; rewrite Hg; exact Hl). cbn [fst].
      rewrite (upcoming_upc _ k l r i) by (apply heap_get_set_same; unfold rlabels; rewrite Hg; exact Hl).
      rewrite (R i Hi), Hc, (T3 i Hi) by lia. destruct l; [contradiction|reflexivity].
    + rewrite heap_get_set_other by exact Hne. unfold upcoming. rewrite heap_get_set_other by exact Hne.
      unfold to_come. rewrite (Q j Hne). exact (HR j i Hi).
Qed.
Lemma rem_pull_none {L} (h : heap L) fd k cur n c fd' : is_remembering h fd -> heap_get h k = ([], cur) ->
  pull k n fd = (c, fd') -> c = [] /\ is_remembering h fd'.
Proof.
  intros HR Hg Hp. destruct (pull_spec _ _ _ _ _ Hp) as ((P1 & P2) & Q & R).
  assert (Hc : forall i, 0 <= i -> to_come fd k i = None) by (intros i Hi; rewrite (HR k i Hi), Hg; reflexivity).
  split.
  - destruct c as [|x c]; [reflexivity|]. specialize (P2 0 ltac:(cbn [length] in P1; lia)). rewrite Hc in P2 by lia. discriminate.
  - intros j i Hi. destruct (Nat.eq_dec j k) as [->|Hne]; [rewrite (R i Hi), <- (HR k i Hi), !Hc by lia; reflexivity|].
    unfold to_come. rewrite (Q j Hne). exact (HR j i Hi).
Qed.
Lemma pull_1 {L} k (fd : feeds L) : pull k 1 fd = match feed_next fd k with (None, fd') => ([], fd') | (Some x, fd') => ([x], fd') end.
Proof. cbn [pull]. destruct (feed_next fd k) as [[x|] fd']; reflexivity. Qed.

Definition alike {L} (hx : heap L) (r : res (org_state L)) (r' : res (org_state L * feeds L)) : Prop :=
  match r with
  | Ok st => exists fd', r' = Ok (mkSt (st_labels st) (st_mask st) hx, fd') /\ is_remembering (st_heap st) fd'
  | Err e => r' = Err e
  end.
Lemma run_alike {L} k hx spans : forall lab mask (h : heap L) fd saved, is_remembering h fd -> fst (heap_get h k) <> [] ->
  alike hx (run_remembering k spans (mkSt lab mask h)) (run_iterator k (mkCyc saved None) spans (mkSt lab mask hx) fd).
Proof.
  induction spans as [|s spans IH]; intros lab mask h fd saved HR Hne; cbn [run_remembering run_iterator].
  - exists fd. split; [reflexivity|exact HR].
  - cbn [st_heap]. destruct (heap_get h k) as [l cur] eqn:Hg. cbn [fst] in Hne. destruct (cyc_take l cur 1) as [t r] eqn:Ht.
    destruct (feed_next fd k) as [o fd1] eqn:En. pose proof (pull_1 k fd) as Hp. rewrite En in Hp.
    destruct l as [|l0 l'] eqn:El; [contradiction|]. rewrite <- El in *.
    assert (Hp' : pull k 1 fd = (match o with None => [] | Some x => [x] end, fd1)) by (rewrite Hp; destruct o; reflexivity).
    destruct (rem_pull _ _ _ _ _ _ _ _ _ _ HR Hg Hne Hp' Ht) as [Et HR'].
    destruct (cyc_take_upc l 1 Hne _ _ _ Ht) as (T1 & _). rewrite <- Et in *. destruct o as [x|]; [|discriminate].
    unfold cyc_next. cbn [cy_rest cy_saved]. rewrite En. unfold apply_label. cbn [bind st_labels st_mask st_heap].
    apply IH; [exact HR'|]. rewrite heap_get_set_same by (unfold rlabels; rewrite Hg; exact Hne). exact Hne.
Qed.
Definition acts_alike {L} f (act : span -> org_state L -> res (org_state L)) (act' : span -> org_state L * feeds L -> res (org_state L * feeds L)) : Prop :=
  forall s lab mask h hx fd, span_wf f s -> is_remembering h fd -> alike hx (act s (mkSt lab mask h)) (act' s (mkSt lab mask hx, fd)).
Lemma cycle_alike {L} f (all : list (span -> org_state L -> res (org_state L))) all' : Forall2 (acts_alike f) all all' ->
  forall spans, Forall (span_wf f) spans -> forall cur cur' lab mask h hx fd, Forall2 (acts_alike f) cur cur' -> is_remembering h fd ->
    alike hx (run_cycle all cur spans (mkSt lab mask h)) (run_cycle all' cur' spans (mkSt lab mask hx, fd)).
Proof.
  intros HA. induction spans as [|s spans IH]; intros HF cur cur' lab mask h hx fd HC HR; cbn [run_cycle].
  - exists fd. split; [reflexivity|exact HR].
  - inversion HF as [|s0 r0 Hs0 HF0]; subst.
    assert (Step : forall act act' c c', acts_alike f act act' -> Forall2 (acts_alike f) c c' ->
      alike hx (do st' <- act s (mkSt lab mask h); run_cycle all c spans st') (do st' <- act' s (mkSt lab mask hx, fd); run_cycle all' c' spans st')).
    { intros act act' c c' Ha Hc. specialize (Ha s lab mask h hx fd Hs0 HR). unfold alike in Ha at 1. destruct (act s (mkSt lab mask h)) as [st|e]; [|rewrite Ha; reflexivity].
      destruct Ha as (fd1 & -> & HR1). cbn [bind]. destruct st as [lab1 mask1 h1]. cbn [st_labels st_mask st_heap] in *. apply IH; assumption. }
    destruct HC as [|act act' c c' Ha Hc]; [|apply Step; assumption].
    destruct HA as [|act act' c c' Ha Hc]; [exists fd; split; [reflexivity|exact HR]|]. apply Step; assumption.
Qed.
Lemma organize_alike {L} f (ly : layout L) : fr_wf f -> acts_alike f (organize f ly) (organize_it f ly).
Proof.
  intros Hw. induction ly as [d items IH|d k|p|x] using layout_ind2; intros s lab mask h hx fd Hs HR; cbn [organize_it organize].
  - destruct (partition f d s) as [spans|e] eqn:Hp; cbn [bind]; [|reflexivity]. pose proof (partition_tiles _ _ _ _ Hw Hs Hp) as Ht.
    assert (F2 : Forall2 (acts_alike f) (map (organize f) items) (map (organize_it f) items)).
    { clear - IH. induction IH; cbn [map]; constructor; assumption. }
    apply (cycle_alike f _ _ F2); try assumption. apply Forall_forall. intros x Hx. pose proof (tiles_In _ _ _ x Ht Hx). unfold span_wf in *. lia.
  - destruct (partition f d s) as [spans|e] eqn:Hp; cbn [bind fst snd]; [|reflexivity]. destruct (heap_get h k) as [[|l0 l] cur] eqn:Hg.
    + rewrite (run_iterator_unrolled f). destruct (pull k (length spans) fd) as [c fd'] eqn:Ep. destruct (rem_pull_none _ _ _ _ _ _ _ HR Hg Ep) as [-> HR'].
      cbn [fst snd map]. assert (E : run_cycle (S := org_state L) [] [] spans (mkSt lab mask hx) = Ok (mkSt lab mask hx)) by (destruct spans; reflexivity). 
      rewrite E. cbn [bind]. assert (E2 : run_remembering k spans (mkSt lab mask h) = Ok (mkSt lab mask h)) by (destruct spans; cbn [run_remembering st_heap]; [|rewrite Hg]; reflexivity).
      rewrite E2. exists fd'. split; [reflexivity|exact HR'].
    + apply run_alike; [exact HR|]. rewrite Hg. discriminate.
  - destruct p as [l|k].
    + unfold apply_pattern. destruct (s_left s <? 0); [reflexivity|]. destruct l; cbn [bind fst snd]; (exists fd; split; [reflexivity|exact HR]).
    + unfold apply_pattern, apply_iterator. cbn [fst snd st_heap st_labels st_mask]. destruct (s_left s <? 0) eqn:El; [reflexivity|].
      assert (Hn : (0 < Z.to_nat (s_left s) + span_len s)%nat) by (unfold span_wf, span_len in *; lia).
      rewrite times_new by exact Hn. destruct (pull k _ fd) as [c fd'] eqn:Ep. destruct (heap_get h k) as [l cur] eqn:Hg. destruct l as [|l0 l'] eqn:Ell.
      * destruct (rem_pull_none _ _ _ _ _ _ _ HR Hg Ep) as [-> HR']. exists fd'. split; [reflexivity|exact HR'].
      * rewrite <- Ell in *. assert (Hl : l <> []) by (rewrite Ell; discriminate). unfold skip_take. destruct (cyc_take l cur _) as [t r] eqn:Et.
        destruct (rem_pull _ _ _ _ _ _ _ _ _ _ HR Hg Hl Ep Et) as [-> HR']. destruct (cyc_take_upc l _ Hl _ _ _ Et) as (T1 & _).
        assert (Htne : t <> []) by (destruct t; [cbn in T1; lia|discriminate]).
        rewrite (cyc_take_split t Htne t _) by lia. rewrite T1, Nat.sub_diag. cbn [cyc_take fst]. rewrite app_nil_r.
        destruct t as [|t0 t']; [contradiction|]. exists fd'. split; [reflexivity|exact HR'].
  - exists fd. split; [reflexivity|exact HR].
Qed.

Lemma C61_remembering_pf : forall (L : Type) (a : tb_args L) (h : heap L) (fd : feeds L), is_remembering h fd ->
  (forall tb h', build a h = Ok (tb, h') -> exists fd', build_it a fd = Ok (tb, fd') /\ is_remembering h' fd')
  /\ (forall tb fd', build_it a fd = Ok (tb, fd') -> exists h', build a h = Ok (tb, h') /\ is_remembering h' fd')
  /\ (forall e, build a h = Err e <-> build_it a fd = Err e).
Proof.
  intros L a h fd HR.
  assert (K : match build a h with
              | Ok (tb, h') => exists fd', build_it a fd = Ok (tb, fd') /\ is_remembering h' fd'
              | Err e => build_it a fd = Err e end).
  { unfold build, build_it. destruct (top_organizer (a_layout a)) as [org|e]; cbn [bind]; [|reflexivity].
    destruct (mk_frame (a_freq a) (a_start a) (a_end a)) as [f|e] eqn:Ef; cbn [bind]; [|destruct (a_wt a); reflexivity].
    assert (Hw : fr_wf f) by (exact (proj1 (proj2 (proj2 (mk_frame_inv _ _ _ _ Ef))))).
    assert (Hs : span_wf f (mkSpan 0 (fr_len f - 1) 0 0)) by (unfold span_wf, fr_wf in *; cbn; lia).
    pose proof (organize_alike f org Hw _ (repeat (a_default a) (Z.to_nat (fr_len f))) (repeat true (Z.to_nat (fr_len f))) h [] fd Hs HR) as H.
    unfold mk_timeline, mk_timeline_it. unfold alike in H.
    destruct (organize f org _ _) as [st|e]; cbn [bind]; [destruct H as (fd' & H & HR')|]; rewrite H; [|destruct (a_wt a); reflexivity].
    cbn [bind fst snd st_labels st_mask]. destruct (a_wt a); try reflexivity;
      (match goal with |- context [amend ?t false ?am] => destruct (amend t false am) end; [|reflexivity]; exists fd'; split; [reflexivity|exact HR']). }
  destruct (build a h) as [[tb h']|e].
  - destruct K as (fd' & K & HR'). rewrite K. split; [|split].
    + intros tb1 h1 H. injection H as <- <-. exists fd'. split; [reflexivity|exact HR'].
    + intros tb1 h1 H. injection H as <- <-. exists h'. split; [reflexivity|exact HR'].
    + intros e. split; discriminate.
  - rewrite K. split; [discriminate|]. split; [discriminate|]. intros e'. split; intros H; injection H as <-; reflexivity.
Qed.

(** ** Iterators used once, used up, and endless *)
Lemma portion_list {L} (fd : feeds L) k l m c : feed_get fd k = (Finite l, 0%nat) -> portion fd k 0 m c -> 0 <= m -> l <> [] ->
  forall i, 0 <= i < m -> c <> [] /\ cycled c i = cycled l i.
Proof.
  intros Hf [H1 H2] Hm Hl i Hi.
  assert (Hn : forall i, 0 <= i < m -> nth_error c (Z.to_nat i) = nth_error l (Z.to_nat i)) by (intros j Hj; rewrite (H2 j Hj); unfold to_come; rewrite Hf; f_equal).
  assert (Hc : c <> []). { intros ->. specialize (Hn 0 ltac:(lia)). destruct l; [contradiction|discriminate]. }
  split; [exact Hc|].
  destruct (Z.le_gt_cases m (Z.of_nat (length l))) as [Hle|Hgt].
  - assert (Hlen : Z.of_nat (length c) = m).
    { destruct (Z.eq_dec (Z.of_nat (length c)) m) as [E|E]; [exact E|exfalso]. specialize (Hn (Z.of_nat (length c)) ltac:(lia)).
      rewrite (proj2 (nth_error_None c _)) in Hn by lia. symmetry in Hn. apply nth_error_None in Hn. lia. }
    rewrite !cycled_small by lia. apply Hn. exact Hi.
  - replace c with l; [reflexivity|]. apply nth_error_same. intros j. destruct (Z.lt_ge_cases (Z.of_nat j) m) as [Hj|Hj].
    + specialize (Hn (Z.of_nat j) ltac:(lia)). rewrite Nat2Z.id in Hn. symmetry. exact Hn.
    + rewrite !(proj2 (nth_error_None _ _)) by lia. reflexivity.
Qed.

Lemma asked_left {L} f :
  (forall (ly : layout L) s0 asks, asked f ly s0 asks -> forall m k s, nth_error asks m = Some (k, AskUnits s) -> 0 <= s_left s)
  /\ (forall (items : list (layout L)) j spans asks, asked_spans f items j spans asks -> forall m k s, nth_error asks m = Some (k, AskUnits s) -> 0 <= s_left s).
Proof.
  apply asked_mutind; try (intros; destruct m as [|[|m]]; discriminate).
  - intros k s Hs m k' s' H. destruct m as [|m]; [injection H as <- <-; exact Hs|destruct m; discriminate].
  - intros d items s spans l Hne Hp _ IH. exact IH.
  - intros items j s rest it l l' Hit _ IHl _ IHr m k s' H. destruct (Nat.lt_ge_cases m (length l)) as [Hlt|Hge].
    + rewrite nth_error_app1 in H by exact Hlt. exact (IHl _ _ _ H).
    + rewrite nth_error_app2 in H by exact Hge. exact (IHr _ _ _ H).
Qed.

Lemma C61_first_pf : forall (L : Type) (a : tb_args L) (fd : feeds L) tb fd' asks m k w l, build_it a fd = Ok (tb, fd') -> asks_of a tb asks ->
  a_amendments a = [] -> nth_error asks m = Some (k, w) -> (forall j w', (j < m)%nat -> nth_error asks j = Some (k, w') -> False) ->
  feed_get fd k = (Finite l, 0%nat) -> l <> [] -> 
  match w with
  | AskUnits s => forall u, s_first s <= u <= s_last s -> exists x, cycled l (s_left s + (u - s_first s)) = Some x /\ shift_of (tb_tl tb) u u u x
  | AskSpans spans => forall j s u, nth_error spans j = Some s -> s_first s <= u <= s_last s ->
      exists x, cycled l (Z.of_nat j) = Some x /\ shift_of (tb_tl tb) u (s_first s) (s_last s) x
  end.
Proof.
  intros L a fd tb fd' asks m k w l H Ha Ham Hm Hno Hf Hl. destruct (C61_uses_pf L a fd tb fd' H) as (asks' & _ & Hun & _ & _ & Hdo & _).
  rewrite <- (Hun _ Ha) in *. clear Hun. destruct (Hdo Ham m k w Hm) as (c & Hc & Hr).
  assert (E0 : wanted k (firstn m asks) = 0).
  { clear - Hno. revert m Hno. induction asks as [|[j w] asks IH]; intros [|m] Hno; cbn [firstn wanted]; try reflexivity.
    rewrite IH; [|intros i w' Hi Hn; exact (Hno (S i) w' ltac:(lia) Hn)]. destruct (j =? k)%nat eqn:E; [|reflexivity]. apply Nat.eqb_eq in E. subst j.
    exfalso. exact (Hno 0%nat w ltac:(lia) eq_refl). }
  rewrite E0 in Hc.
  assert (Hnn : 0 <= wants w -> forall i, 0 <= i < wants w -> c <> [] /\ cycled c i = cycled l i) by (intros H0; apply (portion_list fd k l (wants w) c Hf Hc H0 Hl)).
  destruct w as [s|spans]; cbn [repeats wants] in *.
  - intros u Hu. destruct (Hr u Hu) as [_ R].
    assert (Hs : 0 <= s_left s) by (destruct Ha as (org & _ & Ha); exact (proj1 (asked_left _) _ _ _ Ha _ _ _ Hm)).
    destruct (Hnn ltac:(lia) (s_left s + (u - s_first s)) ltac:(lia)) as [Hne E]. destruct (R Hne) as (x & Hx & Hsh). exists x. rewrite <- E. split; assumption.
  - intros j s u Hj Hu. destruct (Hr j s u Hj Hu) as [_ R]. assert (Hlt : (j < length spans)%nat) by (apply nth_error_Some; congruence).
    destruct (Hnn ltac:(lia) (Z.of_nat j) ltac:(lia)) as [Hne E]. destruct (R Hne) as (x & Hx & Hsh). exists x. rewrite <- E. split; assumption.
Qed.

Lemma C61_used_up_pf : forall (L : Type) (a : tb_args L) (fd : feeds L) tb fd' asks m k w, build_it a fd = Ok (tb, fd') -> asks_of a tb asks ->
  a_amendments a = [] -> nth_error asks m = Some (k, w) -> to_come fd k (wanted k (firstn m asks)) = None ->
  match w with
  | AskUnits s => forall u, s_first s <= u <= s_last s -> shift_of (tb_tl tb) u u u (a_default a)
  | AskSpans spans => forall s u, In s spans -> s_first s <= u <= s_last s -> shift_of (tb_tl tb) u u u (a_default a)
  end.
Proof.
  intros L a fd tb fd' asks m k w H Ha Ham Hm Hno. destruct (C61_uses_pf L a fd tb fd' H) as (asks' & _ & Hun & _ & Hnn & Hdo & _).
  rewrite <- (Hun _ Ha) in *. clear Hun. destruct (Hdo Ham m k w Hm) as (c & [Hc1 Hc2] & Hr).
  assert (E : c = []).
  { destruct c as [|x c]; [reflexivity|exfalso]. specialize (Hc2 0 ltac:(cbn [length] in Hc1; lia)). rewrite Z.add_0_r, Hno in Hc2. discriminate. }
  destruct w as [s|spans]; cbn [repeats] in Hr; [intros u Hu; exact (proj1 (Hr u Hu) E)|].
  intros s u Hs Hu. apply In_nth_error in Hs. destruct Hs as [j Hj]. exact (proj1 (Hr j s u Hj Hu) E).
Qed.

Lemma C61_endless_pf : forall (L : Type) (a : tb_args L) (fd : feeds L) tb fd' asks m k w, build_it a fd = Ok (tb, fd') -> asks_of a tb asks ->
  a_amendments a = [] -> nth_error asks m = Some (k, w) -> (forall i, 0 <= i -> to_come fd k i <> None) ->
  let n := wanted k (firstn m asks) in
  match w with
  | AskUnits s => forall u, s_first s <= u <= s_last s ->
      exists x, to_come fd k (n + s_left s + (u - s_first s)) = Some x /\ shift_of (tb_tl tb) u u u x
  | AskSpans spans => forall j s u, nth_error spans j = Some s -> s_first s <= u <= s_last s ->
      exists x, to_come fd k (n + Z.of_nat j) = Some x /\ shift_of (tb_tl tb) u (s_first s) (s_last s) x
  end.
Proof.
  intros L a fd tb fd' asks m k w H Ha Ham Hm Hall n. destruct (C61_uses_pf L a fd tb fd' H) as (asks' & _ & Hun & _ & Hnn & Hdo & _).
  rewrite <- (Hun _ Ha) in *. clear Hun. destruct (Hdo Ham m k w Hm) as (c & [Hc1 Hc2] & Hr). specialize (Hnn m k). fold n in Hc2, Hnn.
  assert (Hfull : forall i, 0 <= i < wants w -> c <> [] /\ cycled c i = to_come fd k (n + i)).
  { intros i Hi. assert (Hlen : Z.of_nat (length c) = wants w).
    { destruct (Z.eq_dec (Z.of_nat (length c)) (wants w)) as [E|E]; [exact E|exfalso]. specialize (Hc2 (Z.of_nat (length c)) ltac:(lia)).
      rewrite (proj2 (nth_error_None c _)) in Hc2 by lia. symmetry in Hc2. revert Hc2. apply Hall. lia. }
    split; [intros ->; cbn [length] in Hlen; lia|]. rewrite cycled_small by lia. apply Hc2. exact Hi. }
  destruct w as [s|spans]; cbn [repeats wants] in *.
  - intros u Hu. assert (Hs : 0 <= s_left s) by (destruct Ha as (org & _ & Ha); exact (proj1 (asked_left _) _ _ _ Ha _ _ _ Hm)).
    destruct (Hfull (s_left s + (u - s_first s)) ltac:(lia)) as [Hne E]. destruct (proj2 (Hr u Hu) Hne) as (x & Hx & Hsh). exists x.
    split; [|exact Hsh]. rewrite <- Hx, E. f_equal. lia.
  - intros j s u Hj Hu. assert (Hlt : (j < length spans)%nat) by (apply nth_error_Some; congruence).
    destruct (Hfull (Z.of_nat j) ltac:(lia)) as [Hne E]. destruct (proj2 (Hr j s u Hj Hu) Hne) as (x & Hx & Hsh). exists x.
    split; [|exact Hsh]. rewrite <- Hx, E. reflexivity.
Qed.
