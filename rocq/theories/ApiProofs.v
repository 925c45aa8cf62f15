(** ApiProofs: proofs of C47-C49. *)
From Verif Require Import Base Civil Freq Frame Timeline Board Api Spec SpecLookup SpecRoll SpecQuery SpecInterval SpecApi LookupProofs BoardProofs IntervalProofs.
From Coq Require Import Lia ZifyBool ZifyNat.
Open Scope Z_scope.

Lemma names_get {L} (v : value L) t : names_time v t -> get_timestamp (PVal v) = Ok (Some t).
Proof. intros H. inversion H; subst; cbn; try reflexivity. unfold ref_at in H0. rewrite H0. reflexivity. Qed.

Lemma names_not_null {L} (v : value L) t : names_time v t -> is_null v = false.
Proof. intros H. inversion H; reflexivity. Qed.

Lemma names_locate {L} nat (tb : timeboard L) v t : names_time v t ->
  locate_any nat tb (PVal v) = locate tb t ByNone.
Proof. intros H. unfold locate_any. rewrite (names_get _ _ H). reflexivity. Qed.

Lemma from_locs_sched {L} (tb : timeboard L) l0 l1 s s' :
  interval_from_locs tb l0 l1 s' = rmap (fun iv => mkIvl (iv_a iv) (iv_b iv) (iv_void iv) s') (interval_from_locs tb l0 l1 s).
Proof.
  unfold interval_from_locs. destruct (locations_in_order l0 l1) as [[]|e]; cbn; try reflexivity.
  destruct (l_pos l0), (l_pos l1); try reflexivity.
  - unfold new_interval. destruct (negb (in_bounds tb z)); [reflexivity|].
    destruct (negb (in_bounds tb z0)); [reflexivity|]. destruct (z0 <? z); reflexivity.
  - destruct (l_where l0 =? l_where l1); reflexivity.
Qed.

Lemma from_locs_any {L} (tb : timeboard L) l0 l1 s sch : sched_given tb s sch ->
  interval_from_locs_any tb l0 l1 s = interval_from_locs tb l0 l1 sch.
Proof.
  intros H. unfold interval_from_locs_any. rewrite (from_locs_sched tb l0 l1 (tb_default tb) sch).
  destruct (interval_from_locs tb l0 l1 (tb_default tb)) as [iv|e]; [|reflexivity].
  cbn [bind rmap]. destruct H as [->|[-> ->]]; reflexivity.
Qed.

Lemma from_locs_other {L} (tb : timeboard L) l0 l1 :
  interval_from_locs_any tb l0 l1 SOther =
  match interval_from_locs tb l0 l1 (tb_default tb) with Ok _ => Err EType | Err e => Err e end.
Proof. unfold interval_from_locs_any. destruct (interval_from_locs tb l0 l1 (tb_default tb)); reflexivity. Qed.

(** The schedule argument as Board.v has it. *)
Definition sopt {L} (s : sarg L) : option (schedule L) := match s with SSched x => Some x | _ => None end.
Lemma sopt_arg {L} (tb : timeboard L) s sch : sched_given tb s sch -> sched_arg (sopt s) (tb_default tb) = sch.
Proof. intros [->|[-> ->]]; reflexivity. Qed.
Lemma sopt_or {L} (tb : timeboard L) s sch : sched_given tb s sch -> opt_or (sopt s) (tb_default tb) = sch.
Proof. intros [->|[-> ->]]; reflexivity. Qed.

Lemma locs_pair {L} nat (tb : timeboard L) r a b dh dt : names_pair r a b ->
  locs_from_any nat tb r dh dt = locs_from_reference tb (RPair a b) dh dt.
Proof.
  intros [x y l a' b' Hx Hy]. unfold locs_from_any, locs_from_reference. cbn [is_null_ref bind].
  f_equal.
  - destruct a' as [t|]; cbn in Hx.
    + rewrite (names_not_null _ _ Hx), (names_locate nat tb _ _ Hx). reflexivity.
    + subst x. reflexivity.
  - destruct b' as [t|]; cbn in Hy.
    + rewrite (names_not_null _ _ Hy), (names_locate nat tb _ _ Hy). reflexivity.
    + subst y. reflexivity.
Qed.

Lemma any_pair {L} nat (tb : timeboard L) r a b clip c s sch : names_pair r a b -> sched_given tb s sch ->
  get_interval_any nat tb (mkIa r None FNone clip c s) = get_interval tb (RPair a b) None None clip c (sopt s).
Proof.
  intros Hp Hs. unfold get_interval_any, get_interval. cbn [ia_ref ia_len ia_per ia_clip ia_closed ia_sched].
  destruct (drop_flags c) as [[dh dt]|e]; [|reflexivity]. cbn [bind].
  rewrite (locs_pair nat tb r a b dh dt Hp), (sopt_or tb s sch Hs).
  replace (get_period_any r FNone) with (@Err (option period) EType) by (destruct Hp; reflexivity).
  replace (get_period (RPair a b) None) with (@Err period EType) by reflexivity.
  destruct (locs_from_reference tb (RPair a b) dh dt) as [[l0 l1]|[]]; try reflexivity.
  cbn [bind fst snd]. apply from_locs_any, Hs.
Qed.

Lemma any_null {L} nat (tb : timeboard L) clip c s sch : sched_given tb s sch ->
  get_interval_any nat tb (mkIa (PVal VNull) None FNone clip c s) = get_interval tb RNone None None clip c (sopt s).
Proof.
  intros Hs. unfold get_interval_any, get_interval. cbn [ia_ref ia_len ia_per ia_clip ia_closed ia_sched].
  destruct (drop_flags c) as [[dh dt]|e]; [|reflexivity]. cbn [bind].
  rewrite (sopt_or tb s sch Hs). unfold locs_from_any, locs_from_reference. cbn [is_null_ref is_null bind].
  apply from_locs_any, Hs.
Qed.

Lemma any_length {L} nat (tb : timeboard L) v t n clip c s sch : names_time v t -> sched_given tb s sch ->
  get_interval_any nat tb (mkIa (PVal v) (Some (VInt n)) FNone clip c s) = get_interval tb (RPoint t) (Some n) None clip c (sopt s).
Proof.
  intros Hv Hs. unfold get_interval_any, get_interval. cbn [ia_ref ia_len ia_per ia_clip ia_closed ia_sched].
  destruct (drop_flags c) as [[dh dt]|e]; [|reflexivity]. cbn [bind].
  rewrite (sopt_or tb s sch Hs). unfold locs_by_length_any, locs_by_length. cbn [ref_timestamp bind].
  rewrite (names_locate nat tb v t Hv).
  destruct (n =? 0); [reflexivity|]. destruct (locate tb t ByNone) as [l|e]; [|reflexivity]. cbn [bind].
  destruct (l_pos l); cbn [bind fst snd]; apply from_locs_any, Hs.
Qed.

Lemma any_period {L} nat (tb : timeboard L) v t f clip c s sch : names_time v t -> not_period v -> sched_given tb s sch ->
  get_interval_any nat tb (mkIa (PVal v) None (FStr f) clip c s) = get_interval tb (RPoint t) None (Some f) clip c (sopt s).
Proof.
  intros Hv Hn Hs. unfold get_interval_any, get_interval. cbn [ia_ref ia_len ia_per ia_clip ia_closed ia_sched].
  destruct (drop_flags c) as [[dh dt]|e]; [|reflexivity]. cbn [bind].
  rewrite (sopt_or tb s sch Hs). unfold locs_by_period_any.
  replace (get_period_any (PVal v) (FStr f)) with (do x <- get_timestamp (PVal v);
      match x with Some t => Ok (Some (mkPeriod (to_freq f) (pord (fbase (to_freq f)) t))) | None => Ok None end)
    by (destruct v; try reflexivity; exfalso; apply (Hn p); reflexivity).
  rewrite (names_get _ _ Hv). cbn [bind get_period].
  destruct (locs_by_period tb _ clip dh dt) as [[l0 l1]|e]; [|reflexivity].
  cbn [bind fst snd]. apply from_locs_any, Hs.
Qed.

Lemma any_period_obj {L} nat (tb : timeboard L) p f per clip c s sch :
  per = match f with FStr x => Some x | _ => None end -> sched_given tb s sch ->
  get_interval_any nat tb (mkIa (PVal (VPer p)) None f clip c s) = get_interval tb (RPeriod p) None per clip c (sopt s).
Proof.
  intros -> Hs. unfold get_interval_any, get_interval. cbn [ia_ref ia_len ia_per ia_clip ia_closed ia_sched].
  destruct (drop_flags c) as [[dh dt]|e]; [|reflexivity]. cbn [bind].
  rewrite (sopt_or tb s sch Hs). unfold locs_by_period_any.
  destruct f; cbn [get_period_any locs_from_any is_null_ref is_null bind locs_from_reference get_period];
    (destruct (locs_by_period tb p clip dh dt) as [[l0 l1]|e]; [|reflexivity]);
    cbn [bind fst snd]; apply from_locs_any, Hs.
Qed.

(** * C47 *)
Lemma call_other {L} nat (tb : timeboard L) r e : bad_point r e ->
  call nat tb (COne r) = rmap FoundIvl (get_interval_any nat tb (only_ref r)).
Proof. intros H. destruct H; reflexivity. Qed.

Lemma C47_point_pf : forall (L : Type) (nat : nat_behaviour) (tb : timeboard L), reachable tb -> forall v t,
  names_time v t ->
  (tb_start_time tb <= t <= tb_end_time tb ->
     exists w, call nat tb (COne (PVal v)) = Ok (FoundWs w)
       /\ holds_time tb (ws_loc w) t /\ tl_get (tb_tl tb) (ws_loc w) = Ok (ws_label w)
       /\ ws_sched w = tb_default tb)
  /\ (t_outside tb t -> call nat tb (COne (PVal v)) = Err EOutOfBounds).
Proof.
  intros L nat tb Hr v t Hv.
  assert (E : get_workshift_any nat tb (PVal v) SNone = get_workshift tb t None).
  { unfold get_workshift_any, get_workshift. rewrite (names_locate nat tb v t Hv).
    destruct (locate tb t ByNone) as [l|e]; [|reflexivity]. cbn [bind].
    destruct (l_pos l); reflexivity. }
  destruct (C02_lookup_pf L tb Hr t None) as (H1 & H2 & H3 & _).
  unfold call. rewrite E. split.
  - intros Ht. destruct (H1 Ht) as [w Hw]. rewrite Hw. exists w. split; [reflexivity|].
    destruct (H2 w Hw) as (Ha & _ & Hb & Hc). repeat split; assumption || apply Ha.
  - intros Ht. rewrite (H3 Ht). reflexivity.
Qed.

Lemma C47_pair_pf : forall (L : Type) (nat : nat_behaviour) (tb : timeboard L), reachable tb -> forall r t1 t2,
  names_pair r t1 t2 ->
  let found := call nat tb (COne r) in
  (forall i j, bound_pos tb 0 t1 i -> bound_pos tb (tb_len tb - 1) t2 j ->
     (i <= j -> found = Ok (FoundIvl (mkIvl i j false (tb_default tb)))) /\ (j < i -> found = Err EVoidInterval))
  /\ (forall x y, bound_side tb t1 x -> bound_side tb t2 y -> ~ (x = Inside /\ y = Inside) ->
        found = Err (match x, y with
                     | Before, Before | After, After => EOutOfBounds
                     | Inside, Before | After, Inside | After, Before => EVoidInterval
                     | _, _ => EPartialOutOfBounds
                     end)).
Proof.
  intros L nat tb Hr r t1 t2 Hp. cbv zeta.
  assert (Hb : exists e, bad_point r e) by (destruct Hp; eexists; constructor).
  destruct Hb as [e Hb]. rewrite (call_other nat tb r e Hb). unfold only_ref.
  rewrite (any_pair nat tb r t1 t2 true C11 SNone (tb_default tb) Hp (or_intror (conj eq_refl eq_refl))).
  cbn [sopt]. destruct (C20_pair_pf L tb Hr t1 t2 true None) as [H1 H2]. split.
  - intros i j Hi Hj. destruct (H1 i j Hi Hj) as [Ha Hc].
    split; intros H; [rewrite (Ha H)|rewrite (Hc H)]; reflexivity.
  - intros x y Hx Hy Hn. rewrite (H2 x y Hx Hy Hn). reflexivity.
Qed.

Lemma C47_whole_pf : forall (L : Type) (nat : nat_behaviour) (tb : timeboard L), reachable tb ->
  (forall r clip s sch, r = PVal VNull \/ r = PList [VNull] -> sched_given tb s sch ->
     call nat tb (CMany (mkIa r None FNone clip C11 s)) = Ok (FoundIvl (mkIvl 0 (tb_len tb - 1) false sch)))
  /\ call nat tb (COne (PList [VNull])) = Ok (FoundIvl (mkIvl 0 (tb_len tb - 1) false (tb_default tb))).
Proof.
  intros L nat tb Hr.
  assert (G : forall clip s sch, sched_given tb s sch ->
    get_interval_any nat tb (mkIa (PVal VNull) None FNone clip C11 s) = Ok (mkIvl 0 (tb_len tb - 1) false sch)).
  { intros clip s sch Hs. rewrite (any_null nat tb clip C11 s sch Hs), (C20_whole_pf L tb Hr), (sopt_arg tb s sch Hs). reflexivity. }
  assert (E : forall clip s, get_interval_any nat tb (mkIa (PList [VNull]) None FNone clip C11 s)
                             = get_interval_any nat tb (mkIa (PVal VNull) None FNone clip C11 s)) by reflexivity.
  split.
  - intros r clip s sch [->| ->] Hs; unfold call; rewrite ?E, (G clip s sch Hs); reflexivity.
  - change (call nat tb (COne (PList [VNull]))) with (rmap FoundIvl (get_interval_any nat tb (only_ref (PList [VNull])))).
    unfold only_ref. rewrite E, (G true SNone (tb_default tb)) by (right; split; reflexivity). reflexivity.
Qed.

Lemma C47_length_pf : forall (L : Type) (nat : nat_behaviour) (tb : timeboard L), reachable tb -> forall v t n clip s sch,
  names_time v t -> sched_given tb s sch ->
  let found := call nat tb (CMany (mkIa (PVal v) (Some (VInt n)) FNone clip C11 s)) in
  (n = 0 -> found = Err EVoidInterval)
  /\ (n <> 0 -> t_outside tb t -> found = Err EOutOfBounds)
  /\ (forall i, holds_time tb i t ->
       (0 < n -> i + n <= tb_len tb -> found = Ok (FoundIvl (mkIvl i (i + n - 1) false sch)))
       /\ (n < 0 -> 0 <= i + n + 1 -> found = Ok (FoundIvl (mkIvl (i + n + 1) i false sch)))
       /\ (0 < n -> tb_len tb < i + n -> found = Err EPartialOutOfBounds)
       /\ (n < 0 -> i + n + 1 < 0 -> found = Err EPartialOutOfBounds)).
Proof.
  intros L nat tb Hr v t n clip s sch Hv Hs. cbv zeta. unfold call.
  rewrite (any_length nat tb v t n clip C11 s sch Hv Hs).
  destruct (C21_length_pf L tb Hr (RPoint t) t n clip (sopt s) (or_introl eq_refl)) as (H1 & H2 & H3). rewrite (sopt_arg tb s sch Hs) in H3.
  split; [intros H; rewrite (H1 H); reflexivity|].
  split; [intros H H'; rewrite (H2 H H'); reflexivity|].
  intros i Hi. destruct (H3 i Hi) as (Ha & Hb & Hc & Hd).
  split; [intros H H'; rewrite (Ha H H'); reflexivity|].
  split; [intros H H'; rewrite (Hb H H'); reflexivity|].
  split; [intros H H'; rewrite (Hc H H'); reflexivity|].
  intros H H'; rewrite (Hd H H'); reflexivity.
Qed.

Lemma C47_period_pf : forall (L : Type) (nat : nat_behaviour) (tb : timeboard L), reachable tb -> forall v t f p s sch,
  names_time v t -> not_period v -> p_freq p = to_freq f -> in_cal_unit (fbase (to_freq f)) (p_ord p) t ->
  sched_given tb s sch ->
  let found := call nat tb (CMany (mkIa (PVal v) None (FStr f) true C11 s)) in
  ((exists i, in_period tb p i) ->
     exists iv, found = Ok (FoundIvl iv) /\ iv_void iv = false /\ iv_sched iv = sch
       /\ forall i, iv_mem iv i <-> in_period tb p i)
  /\ ((forall i, ~ in_period tb p i) ->
      (inside tb p -> found = Err EVoidInterval) /\ (~ inside tb p -> found = Err EOutOfBounds)).
Proof.
  intros L nat tb Hr v t f p s sch Hv Hn Hf Hu Hs. cbv zeta. unfold call.
  rewrite (any_period nat tb v t f true C11 s sch Hv Hn Hs).
  destruct (C22_period_pf L tb Hr (RPoint t) (Some f) p (sopt s) (mp_point t f p Hf Hu)) as [H1 H2].
  rewrite (sopt_arg tb s sch Hs) in H1. split.
  - intros H. destruct (H1 H) as (iv & E & Ha & Hb & Hc). exists iv. rewrite E.
    split; [reflexivity|]. split; [exact Ha|]. split; [exact Hb|exact Hc].
  - intros H. destruct (H2 H) as [Ha Hb]. split; intros Hi; [rewrite (Ha Hi)|rewrite (Hb Hi)]; reflexivity.
Qed.

(** * C48 *)
Lemma closed_flags c : closed_ok c -> exists fl, drop_flags c = Ok fl.
Proof. intros [->|[->|[->| ->]]]; eexists; reflexivity. Qed.

Lemma bad_get {L} (r : pyref L) e : bad_point r e -> get_timestamp r = Err e.
Proof. intros H; destruct H; reflexivity. Qed.
Lemma bad_locate {L} nat (tb : timeboard L) r e : bad_point r e -> locate_any nat tb r = Err e.
Proof. intros H. unfold locate_any. rewrite (bad_get _ _ H). reflexivity. Qed.
Lemma C47_workshift_pf : forall (L : Type) (nat : nat_behaviour) (tb : timeboard L), reachable tb -> forall v t s,
  names_time v t ->
  (tb_start_time tb <= t <= tb_end_time tb ->
     (forall sch, sched_given tb s sch -> exists w, get_workshift_any nat tb (PVal v) s = Ok w
        /\ holds_time tb (ws_loc w) t /\ tl_get (tb_tl tb) (ws_loc w) = Ok (ws_label w) /\ ws_sched w = sch)
     /\ (s = SOther -> get_workshift_any nat tb (PVal v) s = Err EType))
  /\ (t_outside tb t -> get_workshift_any nat tb (PVal v) s = Err EOutOfBounds).
Proof.
  intros L nat tb Hr v t s Hv. apply reachable_wf in Hr. destruct Hr as (W & _ & _).
  unfold get_workshift_any. rewrite (names_locate nat tb v t Hv). split.
  - intros Ht. destruct (locate_none_in tb t W Ht) as (p & -> & Hh). cbn [bind l_pos]. split; [|intros ->; reflexivity].
    intros sch Hs. assert (Es : ivl_sched tb s = Ok sch) by (destruct Hs as [->|[-> ->]]; reflexivity).
    destruct (new_workshift_ok tb W p sch (proj1 Hh)) as (x & Hx & Hn).
    exists (mkWs p x sch). unfold workshift_any. rewrite Es. cbn [bind ws_loc ws_label ws_sched].
    split; [exact Hn|]. split; [exact Hh|]. split; [exact Hx|reflexivity].
  - intros Ht. rewrite locate_none_out by assumption. reflexivity.
Qed.

Lemma bad_err {L} (r : pyref L) e : bad_point r e -> e = EValue \/ e = EType.
Proof. intros H; destruct H; auto. Qed.
Lemma bad_not_null {L} (v : value L) e : bad_point (PVal v) e -> is_null v = false.
Proof. intros H; inversion H; reflexivity. Qed.

Lemma locate_bound {L} nat (tb : timeboard L) x a l : reachable tb -> names_bound x a ->
  exists l', (if is_null x then Ok l else locate_any nat tb (PVal x)) = Ok l'.
Proof.
  intros Hr Hx. destruct a as [t|]; cbn in Hx.
  - rewrite (names_not_null _ _ Hx), (names_locate nat tb _ _ Hx).
    destruct (locate_plain tb (proj1 (reachable_wf tb Hr)) t) as [l' [E _]]. exists l'. exact E.
  - subst x. exists l. reflexivity.
Qed.

Lemma C48_refused_pf : forall (L : Type) (nat : nat_behaviour) (tb : timeboard L), reachable tb -> forall a e,
  refused a e -> get_interval_any nat tb a = Err e.
Proof.
  intros L nat tb Hr a e H. destruct H;
    try (match goal with H : closed_ok _ |- _ => destruct (closed_flags _ H) as [[dh dt] Efl] end);
    unfold get_interval_any; cbn [ia_ref ia_len ia_per ia_clip ia_closed ia_sched];
    rewrite ?Efl; cbn [bind]; try reflexivity.
  - destruct f; [contradiction|reflexivity|reflexivity].
  - destruct n; try reflexivity. exfalso. apply (H0 n). reflexivity.
  - unfold locs_by_length_any. rewrite (bad_locate nat tb r e H1).
    destruct (n =? 0) eqn:E; [lia|]. reflexivity.
  - unfold locs_by_period_any, get_period_any.
    destruct f; [contradiction| |]; destruct H1; reflexivity.
  - unfold locs_by_period_any, get_period_any.
    inversion H0; subst; try (exfalso; eapply H1; reflexivity);
      rewrite (names_get _ _ H0); reflexivity.
  - destruct x; try reflexivity. contradiction.
  - destruct v; try reflexivity; [contradiction|exfalso; apply (H1 p); reflexivity].
  - unfold locs_from_any. cbn [is_null_ref bind]. rewrite (bad_not_null _ _ H0), (bad_locate nat tb _ _ H0).
    cbn [bind get_period_any]. destruct (bad_err _ _ H0) as [->| ->]; reflexivity.
  - unfold locs_from_any. cbn [is_null_ref bind].
    destruct (locate_bound nat tb x a (mkLoc (Some 0) LOC_WITHIN) Hr H0) as [l' E]. rewrite E. cbn [bind].
    rewrite (bad_not_null _ _ H1), (bad_locate nat tb _ _ H1).
    cbn [bind get_period_any]. destruct (bad_err _ _ H1) as [->| ->]; reflexivity.
Qed.

Lemma C47_other_pf : forall (L : Type) (nat : nat_behaviour) (tb : timeboard L), reachable tb -> forall r e,
  (bad_point r e -> forall s, get_workshift_any nat tb r s = Err e)
  /\ (refused (only_ref r) e -> ref_ok r -> (forall v t, r = PVal v -> ~ names_time v t) -> call nat tb (COne r) = Err e).
Proof.
  intros L nat tb Hr r e. split.
  - intros H s. unfold get_workshift_any. rewrite (bad_locate nat tb r e H). reflexivity.
  - intros H Hok Hno. pose proof (C48_refused_pf L nat tb Hr _ e H) as E.
    assert (B : exists e', bad_point r e').
    { destruct r as [v|l|l]; [|eexists; constructor|eexists; constructor].
      destruct v; try (eexists; constructor).
      - exfalso. unfold only_ref in H. inversion H; subst; try contradiction.
      - exfalso. apply (Hno _ t eq_refl). constructor.
      - exfalso. apply (Hno _ (p_start p) eq_refl). constructor.
      - exfalso. cbn in Hok. destruct Hok as [t Ht]. apply (Hno _ t eq_refl). constructor. exact Ht.
      - exfalso. apply (Hno _ n eq_refl). constructor. }
    destruct B as [e' B]. rewrite (call_other nat tb r e' B), E. reflexivity.
Qed.

Definition loc_good (l : location) : Prop := l_where l = LOC_WITHIN -> l_pos l <> None.
Definition pair_good (ll : location * location) : Prop := loc_good (fst ll) /\ loc_good (snd ll).
Definition bounds_error (e : err) : Prop := e = EOutOfBounds \/ e = EPartialOutOfBounds \/ e = EVoidInterval.

Lemma from_locs_err {L} (tb : timeboard L) ll s e : pair_good ll ->
  interval_from_locs tb (fst ll) (snd ll) s = Err e -> bounds_error e.
Proof.
  intros [G0 G1]. unfold interval_from_locs, locations_in_order, bounds_error.
  destruct ll as [l0 l1]. cbn [fst snd] in *. unfold loc_good in *.
  destruct ((l_where l0 =? LOC_WITHIN) && (l_where l1 =? LOC_WITHIN)) eqn:E.
  - destruct (l_pos l0) as [p|]; [|exfalso; apply G0; [lia|reflexivity]].
    destruct (l_pos l1) as [q|]; [|exfalso; apply G1; [lia|reflexivity]].
    cbn [bind]. unfold new_interval. destruct (p <=? q); cbn [negb]; [|intros H; injection H; auto].
    destruct (negb (in_bounds tb p)); [intros H; injection H; auto|].
    destruct (negb (in_bounds tb q)); [intros H; injection H; auto|].
    destruct (q <? p); [intros H; injection H; auto|discriminate].
  - cbn [bind]. destruct (l_where l0 <=? l_where l1); cbn [negb]; [|intros H; injection H; auto].
    destruct (l_pos l0), (l_pos l1); try (intros H; injection H; auto; fail).
    + unfold new_interval.
      destruct (negb (in_bounds tb z)); [intros H; injection H; auto|].
      destruct (negb (in_bounds tb z0)); [intros H; injection H; auto|].
      destruct (z0 <? z); [intros H; injection H; auto|discriminate].
    + destruct (l_where l0 =? l_where l1); intros H; injection H; auto.
Qed.

Lemma strip_good l0 l1 dh dt : loc_good l0 -> loc_good l1 -> pair_good (strip_locs l0 l1 dh dt).
Proof.
  unfold pair_good, strip_locs, loc_good. cbn [fst snd l_pos l_where]. intros H0 H1.
  split; intros H; [specialize (H0 H); destruct (l_pos l0)|specialize (H1 H); destruct (l_pos l1)]; congruence.
Qed.

Lemma plain_good {L} (tb : timeboard L) l : plain_loc tb l -> loc_good l.
Proof. intros [(p & _ & ->)|[H1 H2]]; unfold loc_good; cbn; congruence. Qed.

Lemma some_good p w : loc_good (mkLoc (Some p) w).
Proof. intros _. discriminate. Qed.

Lemma bound_good {L} nat (tb : timeboard L) x a p : reachable tb -> names_bound x a ->
  exists l, (if is_null x then Ok (mkLoc (Some p) LOC_WITHIN) else locate_any nat tb (PVal x)) = Ok l /\ loc_good l.
Proof.
  intros Hr Hx. destruct a as [t|]; cbn in Hx.
  - rewrite (names_not_null _ _ Hx), (names_locate nat tb _ _ Hx).
    destruct (locate_plain tb (proj1 (reachable_wf tb Hr)) t) as [l [E P]]. exists l. split; [exact E|].
    apply (plain_good tb), P.
  - subst x. eexists. split; [reflexivity|apply some_good].
Qed.

Lemma by_period_good {L} (tb : timeboard L) p clip dh dt : reachable tb ->
  exists ll, locs_by_period tb p clip dh dt = Ok ll /\ pair_good ll.
Proof.
  intros Hr. pose proof (proj1 (reachable_wf tb Hr)) as W. unfold locs_by_period.
  destruct (after_loc tb W (p_start p)) as (l0 & E0 & C0).
  destruct (before_loc tb W (p_end p)) as (l1 & E1 & C1).
  rewrite E0. cbn [bind]. rewrite E1. cbn [bind]. eexists. split; [reflexivity|]. apply strip_good.
  - assert (G : loc_good l0) by (destruct C0 as [(A1 & ->)|[(A1 & A2 & ->)|(A1 & k & Hk & -> & A2 & A3)]]; unfold loc_good, OOB_LEFT, OOB_RIGHT, LOC_WITHIN; cbn; congruence).
    unfold loc_good in *. cbn [l_pos l_where]. intros H. specialize (G H). destruct (clip && _ && _); congruence.
  - assert (G : loc_good l1) by (destruct C1 as [(A1 & ->)|[(A1 & A2 & ->)|(A1 & k & Hk & -> & A2 & A3)]]; unfold loc_good, OOB_LEFT, OOB_RIGHT, LOC_WITHIN; cbn; congruence).
    unfold loc_good in *. cbn [l_pos l_where]. intros H. specialize (G H). destruct (clip && _ && _); congruence.
Qed.

(** An object is null, names a time, or is bad. *)
Lemma value_cases {L} (v : value L) : value_ok v ->
  v = VNull \/ (exists t, names_time v t) \/ (exists e, bad_point (PVal v) e).
Proof.
  destruct v; cbn; intros H.
  - left; reflexivity.
  - right; left; eexists; constructor.
  - right; right; eexists; constructor.
  - right; left; eexists; constructor.
  - destruct H as [t H]. right; left; exists t; constructor; exact H.
  - right; left; eexists; constructor.
  - right; right; eexists; constructor.
Qed.

Lemma C48_errors_pf : forall (L : Type) (nat : nat_behaviour) (tb : timeboard L), reachable tb -> forall a e,
  ref_ok (ia_ref a) -> no_null_point a -> ia_sched a <> SOther ->
  get_interval_any nat tb a = Err e ->
  e = EOutOfBounds \/ e = EPartialOutOfBounds \/ e = EVoidInterval \/ refused a e.
Proof.
  intros L nat tb Hr [r n f clip c s] e Hok Hnn Hs. cbn [ia_ref ia_sched] in *.
  unfold no_null_point in Hnn. cbn [ia_ref ia_len ia_per] in Hnn.
  destruct (drop_flags c) as [[dh dt]|e0] eqn:Efl.
  2:{ destruct c; try discriminate. unfold get_interval_any. cbn. intros H. injection H as <-. do 3 right. constructor. }
  assert (Hc : closed_ok c) by (unfold closed_ok; destruct c; try discriminate; auto).
  assert (Hsch : exists sch, sched_given tb s sch).
  { destruct s; [exists (tb_default tb); right; split; reflexivity|exists s; left; reflexivity|contradiction]. }
  destruct Hsch as [sch Hsch].
  assert (Hend : forall ll, pair_good ll -> interval_from_locs_any tb (fst ll) (snd ll) s = Err e ->
    e = EOutOfBounds \/ e = EPartialOutOfBounds \/ e = EVoidInterval).
  { intros ll G H. rewrite (from_locs_any tb _ _ s sch Hsch) in H. exact (from_locs_err tb ll sch e G H). }
  assert (Hfin : (refused (mkIa r n f clip c s) e) \/ (e = EOutOfBounds \/ e = EPartialOutOfBounds \/ e = EVoidInterval) ->
    e = EOutOfBounds \/ e = EPartialOutOfBounds \/ e = EVoidInterval \/ refused (mkIa r n f clip c s) e).
  { intros [H|[H|[H|H]]]; [do 3 right; exact H|left; exact H|right; left; exact H|do 2 right; left; exact H]. }
  intros H. apply Hfin. clear Hfin.
  (* refused arguments end the proof, the others lead to locations *)
  assert (Href : forall e', refused (mkIa r n f clip c s) e' -> refused (mkIa r n f clip c s) e).
  { intros e' H'. pose proof (C48_refused_pf L nat tb Hr _ _ H') as H''. rewrite H in H''. injection H'' as ->. exact H'. }
  assert (Heq : get_interval_any nat tb (mkIa r n f clip c s) = Err e) by exact H.
  unfold get_interval_any in H. cbn [ia_ref ia_len ia_per ia_clip ia_closed ia_sched] in H. rewrite Efl in H. cbn [bind] in H.
  destruct n as [n|].
  - destruct (f) as [|f'|] eqn:Ef.
    2,3: left; apply (Href EType); apply rf_both; [exact Hc|discriminate].
    destruct n as [| | | | |n|]; try (left; apply (Href EType); apply rf_length; [exact Hc|intros m Hm; discriminate]).
    unfold locs_by_length_any in H. destruct (n =? 0) eqn:En.
    { cbn [bind] in H. injection H as <-. right. auto. }
    assert (Hr' : (exists t, locate_any nat tb r = locate tb t ByNone) \/ exists e', bad_point r e').
    { destruct r as [v|l|l]; [|right; eexists; constructor|right; eexists; constructor].
      destruct (value_cases v Hok) as [->|[[t Ht]|[e' He']]].
      - destruct (Hnn eq_refl) as [Q _]. discriminate.
      - left. exists t. apply names_locate, Ht.
      - right. exists e'. exact He'. }
    destruct Hr' as [[t Et]|[e' He']].
    2:{ left. apply (Href e'). apply rf_length_point; [exact Hc|lia|exact He']. }
    rewrite Et in H. destruct (locate_plain tb (proj1 (reachable_wf tb Hr)) t) as [l [El P]]. rewrite El in H.
    cbn [bind] in H. apply plain_good in P. right. destruct (l_pos l) as [p|] eqn:Ep.
    + cbn [bind] in H. cbv zeta in H. apply (fun G => Hend _ G H). apply strip_good.
      * repeat match goal with |- context [if ?b then _ else _] => destruct b end; cbn [fst]; try exact P; try apply some_good; unfold loc_good, OOB_LEFT, OOB_RIGHT, LOC_WITHIN; cbn; congruence.
      * repeat match goal with |- context [if ?b then _ else _] => destruct b end; cbn [snd]; try exact P; try apply some_good; unfold loc_good, OOB_LEFT, OOB_RIGHT, LOC_WITHIN; cbn; congruence.
    + cbn [bind] in H. apply (Hend (l, l)) in H; [exact H|]. split; exact P.
  - destruct f as [|f|].
    + (* by reference *)
      destruct r as [v|l|l].
      * destruct v; try (left; apply (Href EType); apply rf_point; [exact Hc|discriminate|intros q Hq; discriminate]).
        -- right. cbn in H. apply (Hend _ (strip_good (mkLoc (Some 0) LOC_WITHIN) (mkLoc (Some (tb_len tb - 1)) LOC_WITHIN) dh dt (some_good _ _) (some_good _ _))) in H. exact H.
        -- cbn [locs_from_any is_null_ref is_null bind get_period_any] in H. unfold locs_by_period_any in H. cbn [get_period_any bind] in H.
           destruct (by_period_good tb p clip dh dt Hr) as (ll & E & G). rewrite E in H. cbn [bind] in H.
           right. exact (Hend ll G H).
      * destruct l as [|x [|y l]].
        -- left. apply (Href EType). apply rf_empty_tuple. exact Hc.
        -- left. apply (Href EType). apply rf_short_tuple. exact Hc.
        -- cbn [ref_ok] in Hok.
           assert (Hx : (exists a, names_bound x a) \/ exists e', bad_point (PVal x) e').
           { destruct (value_cases x (Hok x (or_introl eq_refl))) as [->|[[t Ht]|Hb]];
               [left; exists None; reflexivity|left; exists (Some t); exact Ht|right; exact Hb]. }
           destruct Hx as [[a Ha]|[e' He']]; [|left; apply (Href e'); apply rf_first; assumption].
           assert (Hy : (exists b, names_bound y b) \/ exists e', bad_point (PVal y) e').
           { destruct (value_cases y (Hok y (or_intror (or_introl eq_refl)))) as [->|[[t Ht]|Hb]];
               [left; exists None; reflexivity|left; exists (Some t); exact Ht|right; exact Hb]. }
           destruct Hy as [[b Hb]|[e' He']]; [|left; apply (Href e'); apply (rf_second x a); assumption].
           unfold locs_from_any in H. cbn [is_null_ref bind] in H.
           destruct (bound_good nat tb x a 0 Hr Ha) as (l0 & E0 & G0). rewrite E0 in H. cbn [bind] in H.
           destruct (bound_good nat tb y b (tb_len tb - 1) Hr Hb) as (l1 & E1 & G1). rewrite E1 in H. cbn [bind] in H.
           right. exact (Hend _ (strip_good l0 l1 dh dt G0 G1) H).
      * destruct l as [|x [|y l]].
        -- left. apply (Href EType). apply rf_empty_list. exact Hc.
        -- destruct x; try (left; apply (Href EType); apply rf_short_list; [exact Hc|discriminate]).
           cbn in H. right. apply (Hend _ (strip_good (mkLoc (Some 0) LOC_WITHIN) (mkLoc (Some (tb_len tb - 1)) LOC_WITHIN) dh dt (some_good _ _) (some_good _ _))) in H. exact H.
        -- left. apply (Href EValue). apply rf_list. exact Hc.
    + (* by period *)
      assert (Hr' : (exists p, get_period_any r (FStr f) = Ok (Some p)) \/ exists e', bad_point r e').
      { destruct r as [v|l|l]; [|right; eexists; constructor|right; eexists; constructor].
        destruct (value_cases v Hok) as [->|[[t Ht]|[e' He']]].
        - destruct (Hnn eq_refl) as [_ Q]. discriminate.
        - left. unfold get_period_any. pose proof (names_get _ _ Ht) as Eg.
          destruct v; try (rewrite Eg; eexists; reflexivity); eexists; reflexivity.
        - right. exists e'. exact He'. }
      destruct Hr' as [[p Ep]|[e' He']].
      2:{ left. apply (Href e'). apply rf_period_point; [exact Hc|discriminate|exact He']. }
      unfold locs_by_period_any in H. rewrite Ep in H. cbn [bind] in H.
      destruct (by_period_good tb p clip dh dt Hr) as (ll & E & G). rewrite E in H. cbn [bind] in H.
      right. exact (Hend ll G H).
    + (* an unknown frequency *)
      destruct r as [v|l|l]; [|left; apply (Href EType); apply rf_period_point; [exact Hc|discriminate|constructor]..].
      destruct (value_cases v Hok) as [->|[[t Ht]|[e' He']]].
      * destruct (Hnn eq_refl) as [_ Q]. discriminate.
      * destruct v; try (left; apply (Href EValue); apply (rf_period _ t); [exact Hc|exact Ht|intros q Hq; discriminate]).
        unfold locs_by_period_any in H. cbn [get_period_any bind] in H.
        destruct (by_period_good tb p clip dh dt Hr) as (ll & E & G). rewrite E in H. cbn [bind] in H.
        right. exact (Hend ll G H).
      * left. apply (Href e'). apply rf_period_point; [exact Hc|discriminate|exact He'].
Qed.

Lemma C48_schedule_pf : forall (L : Type) (nat : nat_behaviour) (tb : timeboard L) r n f clip c,
  get_interval_any nat tb (mkIa r n f clip c SOther)
  = match get_interval_any nat tb (mkIa r n f clip c SNone) with Ok _ => Err EType | Err e => Err e end.
Proof.
  intros L nat tb r n f clip c. unfold get_interval_any. cbn [ia_ref ia_len ia_per ia_clip ia_closed ia_sched].
  destruct (drop_flags c) as [[dh dt]|e]; [|reflexivity]. cbn [bind].
  match goal with |- context [bind ?x _] => destruct x as [[l0 l1]|e] end; [|reflexivity]. cbn [bind fst snd].
  rewrite from_locs_other, (from_locs_any tb l0 l1 SNone (tb_default tb) (or_intror (conj eq_refl eq_refl))). reflexivity.
Qed.

(** * C49 *)
Lemma names_loc_handle {L} (tb : timeboard L) v i : names_loc v i ->
  handle_bound (Some tb) v = if (0 <=? i) && (i <? tb_len tb) then Ok i else Err EOutOfBounds.
Proof. intros H. inversion H; subst; reflexivity. Qed.

Lemma C49_interval_pf : forall (L : Type) (tb : timeboard L) r x y i j s sch,
  sequence_of r x y -> names_loc x i -> names_loc y j -> sched_given tb s sch ->
  let ivl := interval_any false (Some tb) r s in
  let void := interval_any true (Some tb) r s in
  (is_shift tb i -> is_shift tb j -> i <= j -> ivl = Ok (mkIvl i j false sch) /\ void = Err EVoidInterval)
  /\ (is_shift tb i -> is_shift tb j -> j < i -> ivl = Err EVoidInterval /\ void = Ok (mkIvl i j true sch))
  /\ (~ (is_shift tb i /\ is_shift tb j) -> ivl = Err EOutOfBounds /\ void = Err EOutOfBounds).
Proof.
  intros L tb r x y i j s sch [l Hr] Hx Hy Hs. cbv zeta.
  assert (E : forall b, interval_any b (Some tb) r s =
    (do a <- handle_bound (Some tb) x; do c <- handle_bound (Some tb) y;
     if (if b then a <=? c else c <? a) then Err EVoidInterval else do z <- ivl_sched tb s; Ok (mkIvl a c b z)))
    by (intros b; destruct Hr; subst r; reflexivity).
  rewrite !E, (names_loc_handle tb x i Hx), (names_loc_handle tb y j Hy).
  assert (Es : ivl_sched tb s = Ok sch) by (destruct Hs as [->|[-> ->]]; reflexivity).
  rewrite Es. unfold is_shift.
  destruct ((0 <=? i) && (i <? tb_len tb)) eqn:Ei; cbn [bind].
  2:{ split; [lia|]. split; [lia|]. split; reflexivity. }
  destruct ((0 <=? j) && (j <? tb_len tb)) eqn:Ej; cbn [bind].
  2:{ split; [lia|]. split; [lia|]. split; reflexivity. }
  destruct (j <? i) eqn:E1, (i <=? j) eqn:E2; try lia.
  - split; [lia|]. split; [intros; split; reflexivity|lia].
  - split; [intros; split; reflexivity|]. split; lia.
Qed.

Lemma C49_bad_bounds_pf : forall (L : Type) (void : bool) (tb : timeboard L) r s,
  ((exists v, r = PVal v) -> interval_any void (Some tb) r s = Err EType)
  /\ ((exists l, (r = PTuple l \/ r = PList l) /\ zlen l < 2) -> interval_any void (Some tb) r s = Err EIndex)
  /\ (forall x y, sequence_of r x y -> no_loc x -> interval_any void (Some tb) r s = Err EType)
  /\ (forall x y i, sequence_of r x y -> names_loc x i -> is_shift tb i -> no_loc y -> interval_any void (Some tb) r s = Err EType)
  /\ (forall x y i j, sequence_of r x y -> names_loc x i -> names_loc y j -> is_shift tb i -> is_shift tb j ->
        (if void then j < i else i <= j) -> s = SOther -> interval_any void (Some tb) r s = Err EType).
Proof.
  intros L void tb r s.
  assert (Hno : forall v : value L, no_loc v -> handle_bound (Some tb) v = Err EType).
  { intros v Hv. destruct v; try reflexivity; exfalso; eapply Hv; constructor. }
  split; [intros [v ->]; reflexivity|].
  split; [intros (l & [->| ->] & Hl); destruct l as [|x [|y l]]; try reflexivity; unfold zlen in Hl; cbn [length] in Hl; lia|].
  split; [intros x y [l [->| ->]] Hx; cbn [interval_any]; rewrite (Hno x Hx); reflexivity|].
  split.
  - intros x y i [l [->| ->]] Hx Hi Hy; cbn [interval_any]; rewrite (names_loc_handle tb x i Hx), (Hno y Hy);
      unfold is_shift in Hi; destruct ((0 <=? i) && (i <? tb_len tb)) eqn:Ei; try lia; reflexivity.
  - intros x y i j [l [->| ->]] Hx Hy Hi Hj Hv ->; cbn [interval_any];
      rewrite (names_loc_handle tb x i Hx), (names_loc_handle tb y j Hy); unfold is_shift in *;
      (destruct ((0 <=? i) && (i <? tb_len tb)) eqn:Ei; [|lia]); (destruct ((0 <=? j) && (j <? tb_len tb)) eqn:Ej; [|lia]);
      cbn [bind]; (destruct void; [destruct (i <=? j) eqn:E; [lia|reflexivity]|destruct (j <? i) eqn:E; [lia|reflexivity]]).
Qed.

Lemma C49_no_board_pf : forall (L : Type) (void : bool) (r : pyref L) x y i s,
  sequence_of r x y -> names_loc x i -> interval_any void None r s = Err EAttribute.
Proof. intros L void r x y i s [l [->| ->]] Hx; inversion Hx; subst; reflexivity. Qed.

Lemma C49_workshift_pf : forall (L : Type) (tb : timeboard L), reachable tb -> forall v s,
  (forall i sch, v = VInt i -> sched_given tb s sch -> is_shift tb i ->
     exists x, tl_get (tb_tl tb) i = Ok x /\ workshift_any tb v s = Ok (mkWs i x sch))
  /\ (forall i sch, v = VInt i -> sched_given tb s sch -> - tb_len tb <= i < 0 ->
        exists x, tl_get (tb_tl tb) (i + tb_len tb) = Ok x /\ workshift_any tb v s = Ok (mkWs i x sch))
  /\ (forall i, v = VInt i -> s <> SOther -> i < - tb_len tb \/ tb_len tb <= i -> workshift_any tb v s = Err EOutOfBounds)
  /\ (s = SOther \/ not_int v -> workshift_any tb v s = Err EType).
Proof.
  intros L tb Hr v s. split; [|split; [|split]].
  - intros i sch -> Hs Hi. assert (Es : ivl_sched tb s = Ok sch) by (destruct Hs as [->|[-> ->]]; reflexivity).
    destruct (C35_constructor_pf L tb Hr i sch) as [_ H]. destruct (H Hi) as (w & d & st & e & H1 & H2 & H3 & _).
    unfold workshift_any. rewrite Es. cbn [bind]. exists (ws_label w).
    assert (w = mkWs i (ws_label w) sch) by (destruct w; cbn in *; congruence).
    split; [|congruence].
    revert H1. unfold new_workshift. destruct (tl_get (tb_tl tb) i) as [x|[]]; try discriminate; cbn;
      intros E; injection E as <-; reflexivity.
  - intros i sch -> Hs Hi. assert (Es : ivl_sched tb s = Ok sch) by (destruct Hs as [->|[-> ->]]; reflexivity).
    destruct (C35_negative_pf L tb Hr i sch Hi) as (w & H1 & H2 & H3 & H4 & _).
    unfold workshift_any. rewrite Es. cbn [bind]. exists (ws_label w). split; [exact H4|].
    rewrite H1. destruct w; cbn in *; congruence.
  - intros i -> Hs Hi. unfold workshift_any. destruct s; cbn [ivl_sched bind]; [| |contradiction];
      apply (C35_constructor_pf L tb Hr), Hi.
  - intros [->|H]; [reflexivity|]. unfold workshift_any. destruct s; cbn [ivl_sched bind]; try reflexivity;
      destruct v; try reflexivity; exfalso; eapply H; reflexivity.
Qed.

(** ** NaT as a point in time *)
Lemma C48_nat_pf : forall (L : Type) (nat : nat_behaviour) (tb : timeboard L), reachable tb ->
  (forall e s, nat_loc nat = Err e -> get_workshift_any nat tb (PVal VNull) s = Err e)
  /\ (forall e n clip cl s, nat_loc nat = Err e -> n <> 0 -> closed_ok cl ->
        get_interval_any nat tb (mkIa (PVal VNull) (Some (VInt n)) FNone clip cl s) = Err e)
  /\ (forall e f clip cl s, nat_period nat = Err e -> closed_ok cl ->
        get_interval_any nat tb (mkIa (PVal VNull) None (FStr f) clip cl s) = Err e)
  /\ (forall e, nat_loc nat = Err e -> e <> EOutOfBounds ->
        call nat tb (COne (PVal VNull)) = Ok (FoundIvl (mkIvl 0 (tb_len tb - 1) false (tb_default tb))))
  /\ (forall l, nat_loc nat = Err EOutOfBounds \/ (nat_loc nat = Ok l /\ l_pos l = None) -> call nat tb (COne (PVal VNull)) = Err EOutOfBounds).
Proof.
  intros L nat tb Hr.
  assert (W : forall e s, nat_loc nat = Err e -> get_workshift_any nat tb (PVal VNull) s = Err e).
  { intros e s E. unfold get_workshift_any, locate_any. cbn [get_timestamp bind]. rewrite E. reflexivity. }
  split; [exact W|]. split; [|split; [|split]].
  - intros e n clip cl s E Hn Hc. unfold get_interval_any. cbn [ia_closed ia_ref ia_len ia_per ia_clip ia_sched].
    destruct (drop_flags cl) as [[dh dt]|e'] eqn:Ed; cbn [bind]; [|exfalso; destruct cl; try discriminate Ed; unfold closed_ok in Hc; intuition discriminate].
    unfold locs_by_length_any, locate_any. cbn [get_timestamp bind]. rewrite E. destruct (n =? 0) eqn:En; [lia|]. reflexivity.
  - intros e f clip cl s E Hc. unfold get_interval_any. cbn [ia_closed ia_ref ia_len ia_per ia_clip ia_sched].
    destruct (drop_flags cl) as [[dh dt]|e'] eqn:Ed; cbn [bind]; [|exfalso; destruct cl; try discriminate Ed; unfold closed_ok in Hc; intuition discriminate].
    unfold locs_by_period_any, get_period_any. cbn [get_timestamp bind]. rewrite E. reflexivity.
  - intros e E He. unfold call. rewrite (W e SNone E).
    assert (G : rmap FoundIvl (get_interval_any nat tb (only_ref (PVal VNull))) = Ok (FoundIvl (mkIvl 0 (tb_len tb - 1) false (tb_default tb)))).
    { exact (proj1 (C47_whole_pf L nat tb Hr) (PVal VNull) true SNone (tb_default tb) (or_introl eq_refl) (or_intror (conj eq_refl eq_refl))). }
    destruct e; try exact G. exfalso. apply He. reflexivity.
  - intros l [E|[E El]]; unfold call.
    + rewrite (W _ SNone E). reflexivity.
    + assert (X : get_workshift_any nat tb (PVal VNull) SNone = Err EOutOfBounds).
      { unfold get_workshift_any, locate_any. cbn [get_timestamp bind]. rewrite E. cbn [bind]. rewrite El. reflexivity. }
      rewrite X. reflexivity.
Qed.
