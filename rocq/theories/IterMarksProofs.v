(** Proofs of C67. *)
From Verif Require Import Base BaseProofs Civil Freq FreqProofs Frame FrameProofs Timeline TimelineProofs Board Spec BoardProofs SpecLookup SpecLayout SpecRemember Iterate SpecIterate IterMarks SpecIterMarks.
From Coq Require Import ZifyBool ZifyNat.

Lemma mlayout_rect' {L} (P : mlayout L -> Prop) : (forall d items, Forall P items -> P (MOrg d items)) -> (forall d k, P (MOrgRem d k)) ->
  (forall p, P (MPat p)) -> (forall x, P (MLab x)) -> forall ly, P ly.
Proof.
  intros H1 H2 H3 H4. fix IH 1. intros [d items|d k|p|x]; [|apply H2|apply H3|apply H4].
  apply H1. induction items as [|it items IHi]; constructor; [apply IH|exact IHi].
Qed.
Lemma layout_rect' {L} (P : layout L -> Prop) : (forall d items, Forall P items -> P (LOrg d items)) -> (forall d k, P (LOrgRem d k)) ->
  (forall p, P (LPat p)) -> (forall x, P (LLab x)) -> forall ly, P ly.
Proof.
  intros H1 H2 H3 H4. fix IH 1. intros [d items|d k|p|x]; [|apply H2|apply H3|apply H4].
  apply H1. induction items as [|it items IHi]; constructor; [apply IH|exact IHi].
Qed.
Scheme amounts_min := Minimality for amounts Sort Prop
with amounts_each_min := Minimality for amounts_each Sort Prop.
Combined Scheme amounts_both from amounts_min, amounts_each_min.

(** Where the cycle over a structure stands before span number [j]. *)
Definition stands_at {A} (acts : list A) (j : nat) (cur : list A) : Prop :=
  cur = skipn (j mod length acts) acts \/ (cur = [] /\ (j mod length acts = 0)%nat).
Lemma skipn_nth {A} (l : list A) : forall i x, nth_error l i = Some x -> skipn i l = x :: skipn (S i) l.
Proof. induction l as [|y l IH]; intros [|i] x H; try discriminate; cbn in *; [congruence|]. exact (IH i x H). Qed.
Lemma stands_next {A} (acts : list A) j cur x : acts <> [] -> stands_at acts j cur -> nth_error acts (j mod length acts) = Some x ->
  exists cur', stands_at acts (S j) cur' /\ (cur = x :: cur' \/ cur = [] /\ acts = x :: cur').
Proof.
  intros Hne Hs Hx. assert (Hn : length acts <> 0%nat) by (destruct acts; [contradiction|cbn; lia]).
  pose proof (Nat.mod_upper_bound j _ Hn) as Hb. pose proof (skipn_nth _ _ _ Hx) as Hk.
  exists (skipn (S (j mod length acts)) acts). split.
  - unfold stands_at. replace (S j) with (j + 1)%nat by lia. rewrite <- (Nat.add_mod_idemp_l j 1 _ Hn). rewrite Nat.add_1_r.
    destruct (Nat.eq_dec (S (j mod length acts)) (length acts)) as [E|N].
    + right. rewrite E, Nat.mod_same by exact Hn. split; [apply skipn_all|reflexivity].
    + left. rewrite (Nat.mod_small (S (j mod length acts))) by lia. reflexivity.
  - destruct Hs as [->|[-> E0]]; [left; exact Hk|right]. split; [reflexivity|]. rewrite E0 in Hk |- *. exact Hk.
Qed.
Lemma run_step {S F} (acts cur : list (span -> S * F -> res S * F)) x cur' s rest sf :
  cur = x :: cur' \/ cur = [] /\ acts = x :: cur' ->
  run_marks acts cur (s :: rest) sf = match x s sf with (Ok st, mf) => run_marks acts cur' rest (st, mf) | (Err e, mf) => (Err e, mf) end.
Proof. intros [->|[-> ->]]; reflexivity. Qed.

Lemma still_set (mf : mfeeds) k j : still (set_nth mf k []) j = if (j =? k)%nat then [] else still mf j.
Proof.
  unfold still. revert k j. induction mf as [|l mf IH]; intros [|k] [|j]; cbn [set_nth nth]; try reflexivity.
  - destruct (_ =? _)%nat; reflexivity.
  - rewrite IH. reflexivity.
Qed.
Lemma left_refl mf : left_by mf [] mf.
Proof. intros k. split; [intros []|reflexivity]. Qed.
Lemma left_read mf used mf1 k : left_by mf used mf1 -> left_by mf (k :: used) (set_nth mf1 k []).
Proof.
  intros H j. rewrite still_set. destruct (Nat.eqb_spec j k) as [->|N].
  - split; [reflexivity|]. intros X. destruct X. left. reflexivity.
  - destruct (H j) as [H1 H2]. split; [intros [X|X]; [congruence|exact (H1 X)]|]. intros X. apply H2. intros Y. apply X. right. exact Y.
Qed.
Lemma left_more mf used mf1 k : In k used -> left_by mf used mf1 -> left_by mf used (set_nth mf1 k []).
Proof.
  intros Hin H j. rewrite still_set. destruct (Nat.eqb_spec j k) as [->|N]; [|exact (H j)]. split; [reflexivity|]. intros X. destruct (X Hin).
Qed.
Lemma divides_sound mf used d d' used' : divides_by mf used d d' used' -> forall f s mf1, left_by mf used mf1 ->
  exists mf2, partition_iter f d s mf1 = (partition f d' s, mf2) /\ left_by mf used' mf2.
Proof.
  intros H. destruct H as [used d|used k N|used k N]; intros f s mf1 Hl; cbn [partition_iter partition].
  - exists mf1. split; [reflexivity|exact Hl].
  - exists (set_nth mf1 k []). rewrite (proj2 (Hl k) N). split; [reflexivity|]. apply left_read. exact Hl.
  - exists (set_nth mf1 k []). rewrite (proj1 (Hl k) N). split; [reflexivity|]. apply left_more; [exact N|exact Hl].
Qed.

Lemma map_ne {A B} (g : A -> B) l : l <> [] -> map g l <> [].
Proof. destruct l; [contradiction|discriminate]. Qed.

Lemma amounts_sound {L} (f : frame) (mf : mfeeds) :
  (forall used (ly : mlayout L) s ly' used', amounts f mf used ly s ly' used' -> forall st mf1, left_by mf used mf1 ->
    exists mf2, organize_marks f ly s (st, mf1) = (organize f ly' s st, mf2)
      /\ forall st', organize f ly' s st = Ok st' -> left_by mf used' mf2)
  /\ (forall used (items : list (mlayout L)) j spans its used', amounts_each f mf used items j spans its used' ->
    items <> [] -> forall st mf1 all cur, left_by mf used mf1 -> stands_at (map (organize_marks f) items) j cur ->
    exists mf2, run_marks (map (organize_marks f) items) cur spans (st, mf1) = (run_cycle all (map (organize f) its) spans st, mf2)
      /\ forall st', run_cycle all (map (organize f) its) spans st = Ok st' -> left_by mf used' mf2).
Proof.
  apply amounts_both.
  - intros used x s st mf1 Hl. exists mf1. split; [reflexivity|]. intros _ _. exact Hl.
  - intros used p s st mf1 Hl. exists mf1. split; [reflexivity|]. intros _ _. exact Hl.
  - intros used d k s d' used' Hd st mf1 Hl. destruct (divides_sound _ _ _ _ _ Hd f s mf1 Hl) as (mf2 & E & H2).
    exists mf2. cbn [organize_marks organize fst snd]. rewrite E. destruct (partition f d' s) as [spans|e]; cbn [bind].
    + split; [reflexivity|]. intros _ _. exact H2.
    + split; [reflexivity|]. intros st' X. discriminate.
  - intros used d s d' used' Hd st mf1 Hl. destruct (divides_sound _ _ _ _ _ Hd f s mf1 Hl) as (mf2 & E & H2).
    exists mf2. cbn [organize_marks organize fst snd map]. rewrite E. destruct (partition f d' s) as [spans|e]; cbn [bind].
    + destruct spans; (split; [reflexivity|]; intros _ _; exact H2).
    + split; [reflexivity|]. intros st' X. discriminate.
  - intros used d items s d' used1 spans its used' Hne Hd Hp _ IH st mf1 Hl. destruct (divides_sound _ _ _ _ _ Hd f s mf1 Hl) as (mf2 & E & H2).
    rewrite Hp in E. cbn [organize_marks organize fst snd]. rewrite E, Hp. cbn [bind].
    apply (IH Hne); [exact H2|]. left. rewrite Nat.mod_0_l; [reflexivity|]. rewrite map_length. destruct items; [contradiction|cbn; lia].
  - intros used items j Hne st mf1 all cur Hl _. exists mf1. split; [reflexivity|]. intros _ _. exact Hl.
  - intros used items j s rest it it' used1 its used' Hn _ IH1 _ IH2 Hne st mf1 all cur Hl Hat.
    destruct (stands_next _ _ _ (organize_marks f it) (map_ne _ _ Hne) Hat) as (cur' & Hat' & Hc).
    { rewrite map_length. apply map_nth_error. exact Hn. }
    rewrite (run_step _ _ _ _ s rest (st, mf1) Hc). destruct (IH1 st mf1 Hl) as (mf2 & E & H2). rewrite E. cbn [map run_cycle].
    destruct (organize f it' s st) as [st1|e] eqn:Eo; cbn [bind].
    + exact (IH2 Hne st1 mf2 all cur' (H2 st1 eq_refl) Hat').
    + exists mf2. split; [reflexivity|]. intros st' X. discriminate.
Qed.

(** A successful pass amounts to some layout. *)
Lemma divides_total mf used d : exists d' used', divides_by mf used d d' used'.
Proof.
  destruct d as [d|k]; [exists d, used; constructor|]. destruct (in_dec Nat.eq_dec k used) as [H|H].
  - exists (DMarks []), used. constructor. exact H.
  - exists (DMarks (still mf k)), (k :: used). constructor. exact H.
Qed.
Lemma amounts_exists {L} (f : frame) (mf : mfeeds) : forall (ly : mlayout L) used s st mf1 st' mf2, left_by mf used mf1 ->
  organize_marks f ly s (st, mf1) = (Ok st', mf2) -> exists ly' used', amounts f mf used ly s ly' used'.
Proof.
  intros ly. induction ly as [d items IH|d k|p|x] using mlayout_rect'; intros used s st mf1 st' mf2 Hl H.
  - destruct (divides_total mf used d) as (d' & used1 & Hd). destruct items as [|i0 items0] eqn:Ei; [exists (LOrg d' []), used1; constructor; exact Hd|].
    rewrite <- Ei in *. assert (Hne : items <> []) by (rewrite Ei; discriminate). clear Ei.
    destruct (divides_sound _ _ _ _ _ Hd f s mf1 Hl) as (mf3 & E & H3). cbn [organize_marks fst snd] in H. rewrite E in H.
    destruct (partition f d' s) as [spans|e] eqn:Hp; [|discriminate].
    assert (Hrun : forall spans j cur used1 st mf3, left_by mf used1 mf3 -> stands_at (map (organize_marks f) items) j cur ->
      run_marks (map (organize_marks f) items) cur spans (st, mf3) = (Ok st', mf2) -> exists its used', amounts_each f mf used1 items j spans its used').
    { clear - IH Hne. induction spans as [|s spans IHs]; intros j cur used st mf1 Hl Hat Hr; [exists [], used; constructor|].
      assert (Hn : length items <> 0%nat) by (destruct items; [contradiction|cbn; lia]).
      destruct (nth_error items (j mod length items)) as [it|] eqn:En; [|apply nth_error_None in En; pose proof (Nat.mod_upper_bound j _ Hn); lia].
      destruct (stands_next _ _ _ (organize_marks f it) (map_ne _ _ Hne) Hat) as (cur' & Hat' & Hc); [rewrite map_length; apply map_nth_error; exact En|].
      rewrite (run_step _ _ _ _ s spans (st, mf1) Hc) in Hr. destruct (organize_marks f it s (st, mf1)) as [[st1|e] mf3] eqn:Eo; [|discriminate].
      rewrite Forall_forall in IH. destruct (IH it (nth_error_In _ _ En) _ _ _ _ _ _ Hl Eo) as (it' & used1 & Ha).
      destruct (proj1 (amounts_sound f mf) _ _ _ _ _ Ha st mf1 Hl) as (mf4 & Eo' & H4). rewrite Eo in Eo'. injection Eo' as E1 ->.
      destruct (IHs (S j) cur' used1 st1 mf4 (H4 st1 (eq_sym E1)) Hat' Hr) as (its & used' & Hi).
      exists (it' :: its), used'. econstructor; eassumption. }
    destruct (Hrun spans 0%nat (map (organize_marks f) items) used1 st mf3 H3) as (its & used' & Hi); [|exact H|].
    { left. rewrite Nat.mod_0_l; [reflexivity|]. rewrite map_length. destruct items; [contradiction|cbn; lia]. }
    exists (LOrg d' its), used'. econstructor; eassumption.
  - destruct (divides_total mf used d) as (d' & used1 & Hd). exists (LOrgRem d' k), used1. constructor. exact Hd.
  - exists (LPat p), used. constructor.
  - exists (LLab x), used. constructor.
Qed.

(** And to one only. *)
Lemma divides_fun mf used d d1 u1 d2 u2 : divides_by mf used d d1 u1 -> divides_by mf used d d2 u2 -> d1 = d2 /\ u1 = u2.
Proof. intros H1 H2. destruct H1; inversion H2; subst; try contradiction; split; reflexivity. Qed.
Lemma amounts_fun {L} (f : frame) (mf : mfeeds) :
  (forall used (ly : mlayout L) s l1 u1, amounts f mf used ly s l1 u1 -> forall l2 u2, amounts f mf used ly s l2 u2 -> l1 = l2 /\ u1 = u2)
  /\ (forall used (items : list (mlayout L)) j spans i1 u1, amounts_each f mf used items j spans i1 u1 ->
      forall i2 u2, amounts_each f mf used items j spans i2 u2 -> i1 = i2 /\ u1 = u2).
Proof.
  apply amounts_both.
  - intros used x s l2 u2 H. inversion H; subst. split; reflexivity.
  - intros used p s l2 u2 H. inversion H; subst. split; reflexivity.
  - intros used d k s d' used' Hd l2 u2 H. inversion H as [| |? ? ? ? d2 ? Hd2| |]; subst. destruct (divides_fun _ _ _ _ _ _ _ Hd Hd2) as [<- <-]. split; reflexivity.
  - intros used d s d' used' Hd l2 u2 H. inversion H as [| | |? ? ? d2 ? Hd2|? ? ? ? ? ? ? ? ? Hne]; subst; [|contradiction].
    destruct (divides_fun _ _ _ _ _ _ _ Hd Hd2) as [<- <-]. split; reflexivity.
  - intros used d items s d' used1 spans its used' Hne Hd Hp _ IH l2 u2 H.
    inversion H as [| | |? ? ? d2 ? Hd2|? ? ? ? d2 used2 spans2 its2 ? _ Hd2 Hp2 He2]; subst; [contradiction|].
    destruct (divides_fun _ _ _ _ _ _ _ Hd Hd2) as [<- <-]. rewrite Hp in Hp2. injection Hp2 as <-.
    destruct (IH _ _ He2) as [<- <-]. split; reflexivity.
  - intros used items j i2 u2 H. inversion H; subst. split; reflexivity.
  - intros used items j s rest it it' used1 its used' Hn _ IH1 _ IH2 i2 u2 H.
    inversion H as [|? ? ? ? ? it2 it2' used2 its2 ? Hn2 Ha2 He2]; subst. rewrite Hn in Hn2. injection Hn2 as <-.
    destruct (IH1 _ _ Ha2) as [<- <-]. destruct (IH2 _ _ He2) as [<- <-]. split; reflexivity.
Qed.

(** ** Timeboards *)
Lemma amounts_top {L} f mf used (ly org : mlayout L) s ly' used' : top_marks ly = Ok org -> amounts f mf used org s ly' used' -> top_organizer ly' = Ok ly'.
Proof. destruct ly as [d items|d k|[l|k]|x]; cbn; try discriminate; intros H; injection H as <-; intros H; inversion H; subst; reflexivity. Qed.

Lemma C67_amounts_pf : forall (L : Type) (a : tb_args L) ly org (h : heap L) mf f ly' used,
  top_marks ly = Ok org -> mk_frame (a_freq a) (a_start a) (a_end a) = Ok f -> amounts f mf [] org (whole_span f) ly' used ->
  fst (build_marks a ly h mf) = build (with_layout a ly') h
  /\ forall tb h' mf', build_marks a ly h mf = (Ok (tb, h'), mf') -> left_by mf used mf'.
Proof.
  intros L a ly org h mf f ly' used Et Ef Ha.
  pose proof (amounts_top f mf [] ly org _ _ _ Et Ha) as Et'.
  unfold build_marks, build. rewrite Et. cbn [bind with_layout a_layout a_freq a_start a_end a_wt a_ref_end a_default a_amendments a_name a_sel a_num].
  rewrite Et', Ef. cbn [bind]. unfold mk_timeline_marks, mk_timeline. change (mkSpan 0 (fr_len f - 1) 0 0) with (whole_span f).
  destruct (proj1 (amounts_sound f mf) _ _ _ _ _ Ha (mkSt (repeat (a_default a) (Z.to_nat (fr_len f))) (repeat true (Z.to_nat (fr_len f))) h) mf (left_refl mf)) as (mf2 & E & H2).
  cbv zeta. rewrite E.
  destruct (a_wt a); [| |split; [reflexivity|discriminate]];
    (destruct (organize f ly' (whole_span f) _) as [st|e]; cbn [bind fst snd]; [|split; [reflexivity|discriminate]];
     split; [reflexivity|]; intros tb h' mf' X; injection X as _ <-; exact (H2 st eq_refl)).
Qed.

Lemma C67_exists_pf : forall (L : Type) (a : tb_args L) ly (h : heap L) mf tb h' mf', build_marks a ly h mf = (Ok (tb, h'), mf') ->
  exists org f ly' used, top_marks ly = Ok org /\ mk_frame (a_freq a) (a_start a) (a_end a) = Ok f
    /\ amounts f mf [] org (whole_span f) ly' used
    /\ (forall ly'' used', amounts f mf [] org (whole_span f) ly'' used' -> ly'' = ly' /\ used' = used).
Proof.
  intros L a ly h mf tb h' mf' H. unfold build_marks in H. destruct (top_marks ly) as [org|e] eqn:Et; [|discriminate].
  destruct (mk_frame (a_freq a) (a_start a) (a_end a)) as [f|e] eqn:Ef; [|destruct (a_wt a); discriminate].
  assert (X : exists th, mk_timeline_marks f org (a_ref_end a) (a_default a) h mf = (Ok th, mf')).
  { destruct (a_wt a); [| |discriminate]; (destruct (mk_timeline_marks _ _ _ _ _ _) as [[th|e] mf2]; [|discriminate]; injection H as _ <-; exists th; reflexivity). }
  destruct X as [th X]. unfold mk_timeline_marks in X. change (mkSpan 0 (fr_len f - 1) 0 0) with (whole_span f) in X.
  destruct (organize_marks f org (whole_span f) _) as [[st|e] mf2] eqn:Eo; [|discriminate].
  destruct (amounts_exists f mf org [] (whole_span f) _ _ _ _ (left_refl mf) Eo) as (ly' & used & Ha).
  exists org, f, ly', used. split; [reflexivity|]. split; [reflexivity|]. split; [exact Ha|].
  intros ly'' used' H2. exact (proj1 (amounts_fun f mf) _ _ _ _ _ H2 _ _ Ha).
Qed.

(** ** Without iterators *)
Lemma plainly_same {L} (f : frame) : forall (ly : layout L) s st mf, organize_marks f (plainly ly) s (st, mf) = (organize f ly s st, mf).
Proof.
  intros ly. induction ly as [d items IH|d k|p|x] using layout_rect'; intros s st mf; cbn [plainly organize_marks organize partition_iter fst snd]; try reflexivity.
  - destruct (partition f d s) as [spans|e]; cbn [bind]; [|reflexivity]. rewrite map_map.
    assert (R : forall spans cur, Forall (fun ly => forall s st mf, organize_marks f (plainly ly) s (st, mf) = (organize f ly s st, mf)) cur -> forall st,
      run_marks (map (fun x => organize_marks f (plainly x)) items) (map (fun x => organize_marks f (plainly x)) cur) spans (st, mf)
      = (run_cycle (map (organize f) items) (map (organize f) cur) spans st, mf)).
    { clear - IH. induction spans as [|s spans IHs]; intros cur Hc st; [reflexivity|]. cbn [run_marks run_cycle].
      destruct Hc as [|ly cur Hly Hc]; cbn [map].
      - destruct items as [|ly items']; [reflexivity|]. cbn [map]. rewrite (Forall_inv IH). destruct (organize f ly s st) as [st1|e]; cbn [bind]; [|reflexivity].
        exact (IHs items' (Forall_inv_tail IH) st1).
      - rewrite Hly. destruct (organize f ly s st) as [st1|e]; cbn [bind]; [|reflexivity]. exact (IHs cur Hc st1). }
    exact (R spans items IH st).
  - destruct (partition f d s); reflexivity.
Qed.
Lemma C67_plain_pf : forall (L : Type) (a : tb_args L) (h : heap L) mf, build_marks a (plainly (a_layout a)) h mf = (build a h, mf).
Proof.
  intros L a h mf. unfold build_marks, build.
  assert (Et : top_marks (plainly (a_layout a)) = do org <- top_organizer (a_layout a); Ok (plainly org)) by (destruct (a_layout a) as [d items|d k|[l|k]|x]; reflexivity).
  rewrite Et. destruct (top_organizer (a_layout a)) as [org|e]; cbn [bind]; [|reflexivity].
  destruct (a_wt a); [| |reflexivity]; (destruct (mk_frame (a_freq a) (a_start a) (a_end a)) as [f|e]; cbn [bind]; [|reflexivity];
    unfold mk_timeline_marks, mk_timeline; cbv zeta; rewrite plainly_same; destruct (organize f org _ _) as [st|e]; cbn [bind fst snd]; reflexivity).
Qed.

(** ** An iterator in the organizer of the whole timeboard *)
Lemma C67_once_pf : forall (L : Type) (a : tb_args L) (h : heap L) mf k items f, mk_frame (a_freq a) (a_start a) (a_end a) = Ok f -> a_wt a <> WBad ->
  exists mf', build_marks a (MOrg (MIter k) (map plainly items)) h mf = (build (with_layout a (LOrg (DMarks (still mf k)) items)) h, mf')
    /\ left_by mf [k] mf'.
Proof.
  intros L a h mf k items f Ef Hwt. exists (set_nth mf k []). split; [|apply left_read, left_refl].
  pose proof (C67_plain_pf L (with_layout a (LOrg (DMarks (still mf k)) items)) h (set_nth mf k [])) as P.
  unfold build_marks in *. cbn [with_layout a_layout a_freq a_start a_end a_wt a_ref_end a_default a_amendments a_name a_sel a_num plainly top_marks] in *.
  rewrite Ef in *. assert (E : forall st, organize_marks f (MOrg (MIter k) (map plainly items)) (mkSpan 0 (fr_len f - 1) 0 0) (st, mf)
    = organize_marks f (MOrg (MDiv (DMarks (still mf k))) (map plainly items)) (mkSpan 0 (fr_len f - 1) 0 0) (st, set_nth mf k [])) by reflexivity.
  unfold mk_timeline_marks in *. cbv zeta in *. rewrite E. destruct (a_wt a); [| |contradiction]; exact P.
Qed.
Lemma C67_again_pf : forall (L : Type) (a : tb_args L) (h : heap L) mf k items f, mk_frame (a_freq a) (a_start a) (a_end a) = Ok f -> a_wt a <> WBad ->
  still mf k = [] -> fst (build_marks a (MOrg (MIter k) (map plainly items)) h mf) = build (with_layout a (LOrg (DMarks []) items)) h.
Proof.
  intros L a h mf k items f Ef Hwt E. destruct (C67_once_pf L a h mf k items f Ef Hwt) as (mf' & Eb & _). rewrite Eb, E. reflexivity.
Qed.

(** ** Attempts that raise exceptions *)
Lemma C67_attempt_pf : forall (L : Type) (a : tb_args L) ly (h : heap L) mf r mf', build_marks a ly h mf = (r, mf') ->
  exists used, left_by mf used mf'.
Proof.
  assert (Ho : forall (L : Type) f (ly : mlayout L) s st mf, exists used, left_by mf used (snd (organize_marks f ly s (st, mf)))).
  { assert (Tr : forall mf u mf1 u' mf2, left_by mf u mf1 -> left_by mf1 u' mf2 -> left_by mf (u ++ u') mf2).
    { intros mf u mf1 u' mf2 H1 H2 k. destruct (H1 k) as [A1 B1], (H2 k) as [A2 B2]. destruct (in_dec Nat.eq_dec k u') as [Hk|Hk].
      - split; [intros _; exact (A2 Hk)|]. intros X. destruct X. apply in_or_app. right. exact Hk.
      - rewrite (B2 Hk). split; [intros X; apply in_app_or in X; destruct X as [X|X]; [exact (A1 X)|contradiction]|]. intros X. apply B1. intros Y. apply X, in_or_app. left. exact Y. }
    assert (Pa : forall f d s mf, exists used, left_by mf used (snd (partition_iter f d s mf))).
    { intros f [d|k] s mf; cbn [partition_iter snd]; [exists []; apply left_refl|exists [k]; apply left_read, left_refl]. }
    intros L f ly. induction ly as [d items IH|d k|p|x] using mlayout_rect'; intros s st mf; cbn [organize_marks fst snd]; try (exists []; apply left_refl).
    - destruct (Pa f d s mf) as [u Hu]. destruct (partition_iter f d s mf) as [[spans|e] mf1]; cbn [fst snd] in *; [|exists u; exact Hu].
      assert (R : forall spans cur st mf1, Forall (fun act => forall s st (mf : mfeeds), exists used, left_by mf used (snd (act s (st, mf)))) cur ->
        exists used, left_by mf1 used (snd (run_marks (map (organize_marks f) items) cur spans (st, mf1)))).
      { clear - IH Tr. induction spans as [|s spans IHs]; intros cur st mf1 Hc; [exists []; apply left_refl|].
        assert (HA : Forall (fun act => forall s st (mf : mfeeds), exists used, left_by mf used (snd (act s (st, mf)))) (map (organize_marks f) items)).
        { apply Forall_forall. intros act Hin. apply in_map_iff in Hin. destruct Hin as (it & <- & Hin). rewrite Forall_forall in IH. exact (IH it Hin). }
        assert (Step : forall act cur', (forall s st (mf : mfeeds), exists used, left_by mf used (snd (act s (st, mf)))) ->
          Forall (fun act => forall s st (mf : mfeeds), exists used, left_by mf used (snd (act s (st, mf)))) cur' ->
          exists used, left_by mf1 used (snd (match act s (st, mf1) with (Ok st0, mf0) => run_marks (map (organize_marks f) items) cur' spans (st0, mf0) | (Err e, mf0) => (Err e, mf0) end))).
        { intros act cur' Ha Hc'. destruct (Ha s st mf1) as [u Hu]. destruct (act s (st, mf1)) as [[st1|e] mf2]; cbn [snd] in *; [|exists u; exact Hu].
          destruct (IHs cur' st1 mf2 Hc') as [u' Hu']. exists (u ++ u'). exact (Tr _ _ _ _ _ Hu Hu'). }
        cbn [run_marks]. destruct Hc as [|act cur' Ha Hc']; [|exact (Step act cur' Ha Hc')].
        destruct (map (organize_marks f) items) as [|act acts'] eqn:Em; [exists []; apply left_refl|]. rewrite <- Em in *. rewrite Em in HA. exact (Step act acts' (Forall_inv HA) (Forall_inv_tail HA)). }
      destruct (R spans (map (organize_marks f) items) st mf1) as [u' Hu'].
      { apply Forall_forall. intros act Hin. apply in_map_iff in Hin. destruct Hin as (it & <- & Hin). rewrite Forall_forall in IH. exact (IH it Hin). }
      exists (u ++ u'). exact (Tr _ _ _ _ _ Hu Hu').
    - destruct (Pa f d s mf) as [u Hu]. exists u. destruct (partition_iter f d s mf) as [[spans|e] mf1]; exact Hu. }
  intros L a ly h mf r mf' H. unfold build_marks in H.
  assert (N : forall r0 : res (timeboard L * heap L), (r0, mf) = (r, mf') -> exists used, left_by mf used mf') by (intros r0 X; injection X as _ <-; exists []; apply left_refl).
  destruct (top_marks ly) as [org|e]; [|exact (N _ H)]. unfold mk_timeline_marks in H. cbv zeta in H.
  destruct (a_wt a); [| |exact (N _ H)]; (destruct (mk_frame (a_freq a) (a_start a) (a_end a)) as [f|e]; [|exact (N _ H)];
    match type of H with context [organize_marks f org ?s (?st, mf)] => destruct (Ho L f org s st mf) as [u Hu]; destruct (organize_marks f org s (st, mf)) as [[st1|e] mf1] end;
    cbn [snd] in *; injection H as _ <-; exists u; exact Hu).
Qed.
