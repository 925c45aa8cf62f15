(** Proofs about frequency names (C45) and offsets (C46). *)
From Verif Require Import Base BaseProofs Civil CivilProofs Freq FreqProofs Frame When Timeline Board SpecLookup SpecLayout SpecCivil SpecWhen GregorianProofs WhenProofs.
From Coq Require Import ZifyBool ZifyNat.
Open Scope Z_scope.
Ltac Zify.zify_post_hook ::= Z.div_mod_to_equations.

Lemma first_month_iff k t : first_of_month 1970 k t <-> t = month_start k * NS_DAY.
Proof. pose proof (first_month k) as H. unfold first_of_month in *. split; congruence. Qed.

Lemma times_opt s : Zpos (opt_or (fdigits s) 1%positive) = times s.
Proof. unfold times, opt_or. destruct (fdigits s); reflexivity. Qed.

(** ** Strings of several parts *)
Lemma tick_base_ok k : is_tick (tick_base k) /\ tick_ns (tick_base k) = tick_len k.
Proof. destruct k; split; try exact I; reflexivity. Qed.
Lemma tick_start b o : is_tick b -> pstart b o = o * tick_ns b.
Proof. destruct b; intros H; try destruct H; cbn [pstart tick_ns]; try reflexivity; lia. Qed.
Lemma tick_ns_pos b : 0 < tick_ns b.
Proof. destruct b; reflexivity. Qed.
Lemma tick_ns_inj b b' : is_tick b -> is_tick b' -> (base_eqb b b' = true <-> tick_ns b = tick_ns b').
Proof. destruct b; intros H; try destruct H; destruct b'; intros H; try destruct H; cbn; split; intros E; try reflexivity; discriminate. Qed.

Lemma measured_fun d u u' : measured d u -> measured d u' -> u = u'.
Proof. intros (H1 & H2 & H3) (H1' & H2' & H3'). pose proof (H3 _ H1' H2'). pose proof (H3' _ H1 H2). lia. Qed.
Lemma measured_pos d u : measured d u -> 0 < u.
Proof. intros (H & _). cbn [In] in H. lia. Qed.

Lemma dt_measured d : 0 < d -> let f := delta_to_tick d in
  is_tick (fbase f) /\ measured d (tick_ns (fbase f)) /\ Zpos (fmult f) * tick_ns (fbase f) = d.
Proof.
  intros Hd. unfold delta_to_tick. cbv zeta. cbn [fbase fmult].
  assert (Hgen : forall b, is_tick b -> In (tick_ns b) [86400000000000; 3600000000000; 60000000000; 1000000000; 1000000; 1000; 1] ->
    d mod tick_ns b = 0 -> (forall v, In v [86400000000000; 3600000000000; 60000000000; 1000000000; 1000000; 1000; 1] -> tick_ns b < v -> d mod v <> 0) ->
    is_tick b /\ measured d (tick_ns b) /\ Zpos (Z.to_pos (d / tick_ns b)) * tick_ns b = d).
  { intros b Hb Hin Hm Hv. split; [exact Hb|]. pose proof (tick_ns_pos b) as Hp. split.
    - split; [exact Hin|]. split; [apply Z.mod_divide; [lia|exact Hm]|].
      intros v Hi Hdv. destruct (Z.le_gt_cases v (tick_ns b)) as [|Hgt]; [assumption|exfalso].
      apply (Hv v Hi Hgt). apply Z.mod_divide; [cbn [In] in Hi; lia|exact Hdv].
    - assert (E : d = tick_ns b * (d / tick_ns b)) by (apply Z_div_exact_full_2; [lia|exact Hm]).
      assert (0 < d / tick_ns b). { destruct (Z.le_gt_cases (d / tick_ns b) 0) as [Hle|]; [|assumption]. exfalso. clear - E Hle Hp Hd. nia. }
      rewrite Z2Pos.id by assumption. lia. }
  destruct (Z.eqb_spec (d mod NS_DAY) 0) as [E0|E0].
  { apply (Hgen BD); [exact I|left; reflexivity|exact E0|]. intros v Hi Hlt.
    repeat (destruct Hi as [<-|Hi]; [first [assumption|exfalso; clear - Hlt; vm_compute in Hlt; discriminate]|]). destruct Hi. }
  destruct (Z.eqb_spec (d mod NS_HOUR) 0) as [E1|E1].
  { apply (Hgen BH); [exact I|right; left; reflexivity|exact E1|]. intros v Hi Hlt.
    repeat (destruct Hi as [<-|Hi]; [first [assumption|exfalso; clear - Hlt; vm_compute in Hlt; discriminate]|]). destruct Hi. }
  destruct (Z.eqb_spec (d mod NS_MIN) 0) as [E2|E2].
  { apply (Hgen BT); [exact I|right; right; left; reflexivity|exact E2|]. intros v Hi Hlt.
    repeat (destruct Hi as [<-|Hi]; [first [assumption|exfalso; clear - Hlt; vm_compute in Hlt; discriminate]|]). destruct Hi. }
  destruct (Z.eqb_spec (d mod NS_SEC) 0) as [E3|E3].
  { apply (Hgen BS); [exact I|right; right; right; left; reflexivity|exact E3|]. intros v Hi Hlt.
    repeat (destruct Hi as [<-|Hi]; [first [assumption|exfalso; clear - Hlt; vm_compute in Hlt; discriminate]|]). destruct Hi. }
  destruct (Z.eqb_spec (d mod NS_MILLI) 0) as [E4|E4].
  { apply (Hgen BL); [exact I|right; right; right; right; left; reflexivity|exact E4|]. intros v Hi Hlt.
    repeat (destruct Hi as [<-|Hi]; [first [assumption|exfalso; clear - Hlt; vm_compute in Hlt; discriminate]|]). destruct Hi. }
  destruct (Z.eqb_spec (d mod NS_MICRO) 0) as [E5|E5].
  { apply (Hgen BU); [exact I|right; right; right; right; right; left; reflexivity|exact E5|]. intros v Hi Hlt.
    repeat (destruct Hi as [<-|Hi]; [first [assumption|exfalso; clear - Hlt; vm_compute in Hlt; discriminate]|]). destruct Hi. }
  apply (Hgen BN); [exact I|right; right; right; right; right; right; left; reflexivity|apply Z.mod_1_r|]. intros v Hi Hlt.
  repeat (destruct Hi as [<-|Hi]; [first [assumption|exfalso; clear - Hlt; vm_compute in Hlt; discriminate]|]). destruct Hi.
Qed.

Definition part_len (p : positive * tick) : Z * Z := (Zpos (fst p), tick_len (snd p)).
Lemma adds_fold rest : forall f ps, is_tick (fbase f) -> adds_up ps (Zpos (fmult f)) (tick_ns (fbase f)) ->
  let f' := fold_left add_tick rest f in
  is_tick (fbase f') /\ adds_up (ps ++ map part_len rest) (Zpos (fmult f')) (tick_ns (fbase f')).
Proof.
  induction rest as [|[m k] rest IH]; intros f ps Hb Ha; cbn [fold_left map].
  - rewrite app_nil_r. split; assumption.
  - replace (ps ++ part_len (m, k) :: map part_len rest) with ((ps ++ [part_len (m, k)]) ++ map part_len rest) by (rewrite <- app_assoc; reflexivity).
    destruct (tick_base_ok k) as [Hk El].
    assert (H : is_tick (fbase (add_tick f (m, k))) /\
      adds_up (ps ++ [part_len (m, k)]) (Zpos (fmult (add_tick f (m, k)))) (tick_ns (fbase (add_tick f (m, k))))).
    { unfold add_tick, part_len. cbn [fst snd]. pose proof (tick_ns_inj _ _ Hb Hk) as Hj. rewrite El in Hj.
      destruct (base_eqb (fbase f) (tick_base k)) eqn:E.
      - cbn [fbase fmult]. split; [exact Hb|]. rewrite Pos2Z.inj_add, <- (proj1 Hj eq_refl). apply add_same, Ha.
      - assert (Hne : tick_ns (fbase f) <> tick_len k) by (intros He; apply Hj in He; discriminate).
        pose proof (tick_ns_pos (fbase f)). pose proof (tick_ns_pos (tick_base k)).
        destruct (dt_measured (Zpos (fmult f) * tick_ns (fbase f) + Zpos m * tick_ns (tick_base k)) ltac:(nia)) as (D1 & D2 & D3).
        rewrite El in D2, D3 |- *. rewrite El in D1. split; [exact D1|]. exact (add_other ps _ _ _ _ _ _ Ha Hne D2 D3). }
    destruct H as [H1 H2]. exact (IH _ _ H1 H2).
Qed.
Lemma adds_nonempty ps n u : adds_up ps n u -> ps <> [].
Proof. intros [| |]; [discriminate| |]; intros Hn; apply app_eq_nil in Hn; destruct Hn; discriminate. Qed.
Lemma adds_inv q n u : adds_up q n u -> forall ps m v, q = ps ++ [(m, v)] ->
  (ps = [] /\ n = m /\ u = v) \/ exists n0 u0, adds_up ps n0 u0 /\
    ((u0 = v /\ u = v /\ n = n0 + m) \/ (u0 <> v /\ measured (n0 * u0 + m * v) u /\ n * u = n0 * u0 + m * v)).
Proof.
  intros H ps m v E. destruct H as [n u|ps0 n u m0 H|ps0 n u m0 v0 n' u' H Hne Hm He].
  - change [(n, u)] with ([] ++ [(n, u)]) in E. apply app_inj_tail in E. destruct E as [<- E]. injection E as -> ->. left. auto.
  - apply app_inj_tail in E. destruct E as [-> E]. injection E as -> ->. right. exists n, v. split; [exact H|]. left. auto.
  - apply app_inj_tail in E. destruct E as [-> E]. injection E as -> ->. right. exists n, u. split; [exact H|]. right. auto.
Qed.
Lemma adds_fun ps n u : adds_up ps n u -> forall n' u', adds_up ps n' u' -> n = n' /\ u = u'.
Proof.
  intros H. induction H as [n u|ps n u m H IH|ps n u m v n1 u1 H IH Hne Hm He]; intros n' u' H'.
  - destruct (adds_inv _ _ _ H' [] n u eq_refl) as [(_ & -> & ->)|(n0 & u0 & H0 & _)]; [auto|]. destruct (adds_nonempty _ _ _ H0 eq_refl).
  - destruct (adds_inv _ _ _ H' ps m u eq_refl) as [(E & _)|(n0 & u0 & H0 & Hc)]; [destruct (adds_nonempty _ _ _ H E)|].
    destruct (IH _ _ H0) as [<- <-]. destruct Hc as [(_ & -> & ->)|(Hc & _)]; [auto|contradiction].
  - destruct (adds_inv _ _ _ H' ps m v eq_refl) as [(E & _)|(n0 & u0 & H0 & Hc)]; [destruct (adds_nonempty _ _ _ H E)|].
    destruct (IH _ _ H0) as [<- <-]. destruct Hc as [(Hc & _)|(_ & Hm' & He')]; [contradiction|].
    assert (u1 = u') by (exact (measured_fun _ _ _ Hm Hm')). subst u'. split; [|reflexivity].
    pose proof (measured_pos _ _ Hm) as Hp. clear - He He' Hp. nia.
Qed.
Lemma adds_total ps n u : adds_up ps n u -> n * u = fold_right (fun p x => fst p * snd p + x) 0 ps.
Proof.
  assert (Happ : forall l m v, fold_right (fun p x => fst p * snd p + x) 0 (l ++ [(m, v)]) = fold_right (fun p x => fst p * snd p + x) 0 l + m * v).
  { induction l as [|a l IH]; intros m v; cbn [app fold_right fst snd]; [lia|]. rewrite IH. lia. }
  intros H. induction H as [n u|ps n u m H IH|ps n u m v n1 u1 H IH Hne Hm He].
  - cbn [fold_right fst snd]. lia.
  - rewrite Happ, <- IH. lia.
  - rewrite Happ, <- IH, He. reflexivity.
Qed.

(** All of a string of several parts. *)
Lemma more_parts s k rest : falias s = AlMore k rest ->
  is_tick (fbase (to_freq s)) /\
  adds_up ((times s, tick_len k) :: map part_len rest) (Zpos (fmult (to_freq s))) (tick_ns (fbase (to_freq s))).
Proof.
  intros E. unfold to_freq. rewrite E. cbn [alias_base]. destruct (tick_base_ok k) as [Hk El].
  apply (adds_fold rest (mkFreq (tick_base k) (opt_or (fdigits s) 1%positive)) [(times s, tick_len k)]); cbn [fbase fmult]; [exact Hk|].
  rewrite times_opt, El. apply add_first.
Qed.

Lemma C45_periods_pf : forall s, proper_name s ->
  (forall o, period_named s (p_start (mkPeriod (to_freq s) o)) (p_end (mkPeriod (to_freq s) o) + 1))
  /\ (forall t t', period_named s t t' -> exists o, t = p_start (mkPeriod (to_freq s) o) /\ t' = p_end (mkPeriod (to_freq s) o) + 1).
Proof.
  intros s Hs. unfold p_start, p_end. cbn [p_freq p_ord].
  destruct (falias s) as [| | | | |w| |m|m| | | | | | | |k rest] eqn:Ea.
  17: { destruct (more_parts s k rest Ea) as [Hb Ha]. unfold period_named. rewrite Ea. fold part_len in *.
    change (map (fun p => (Zpos (fst p), tick_len (snd p))) rest) with (map part_len rest).
    split.
    - intros o. exists (Zpos (fmult (to_freq s))), (tick_ns (fbase (to_freq s))), o. split; [exact Ha|]. rewrite !(tick_start _ _ Hb). lia.
    - intros t t' (c & u & i & Hc & -> & ->). destruct (adds_fun _ _ _ Ha _ _ Hc) as [<- <-]. exists i. rewrite !(tick_start _ _ Hb). lia. }
  all: assert (E1 : to_freq s = mkFreq (alias_base (falias s)) (opt_or (fdigits s) 1%positive)) by (apply single_freq; rewrite Ea; discriminate);
    rewrite Ea in E1; rewrite E1; cbn [fbase fmult]; rewrite times_opt; clear E1; unfold period_named; rewrite Ea;
    assert (Hn : 0 < times s) by (unfold times; destruct (fdigits s); lia);
    generalize dependent (times s); intros n Hn; unfold proper_name in Hs; rewrite Ea in Hs; clear Ea; cbn [alias_base pstart].
  1-5: split; [intros o; exists o; unfold NS_SEC, NS_MIN, NS_HOUR, NS_DAY; lia|intros t t' (k & -> & ->); exists k; unfold NS_SEC, NS_MIN, NS_HOUR, NS_DAY; lia].
  - assert (Hw : 0 <= opt_or w 6 <= 6) by (destruct w; cbn; lia). change (or_default w 6) with (opt_or w 6).
    generalize dependent (opt_or w 6). intros d Hd. unfold weekday, NS_DAY. split.
    + intros o. exists (7 * o + (d - 2)). lia.
    + intros t t' (k & -> & Hk & ->). exists ((k - (d - 2)) / 7). lia.
  - split; [intros o; exists o; rewrite !first_month_iff; lia|].
    intros t t' (k & H1 & H2). rewrite first_month_iff in H1, H2. exists k. lia.
  - change (or_default m 12) with (opt_or m 12). generalize (opt_or m 12). intros q. split.
    + intros o. exists (3 * o + (q - 12)). rewrite !first_month_iff. split; [reflexivity|].
      split; [replace (3 * o + (q - 12) + 3 * n) with (3 * (o + n) + (q - 12)) by lia; lia|lia].
    + intros t t' (k & H1 & H2 & H3). rewrite first_month_iff in H1, H2. exists ((k - (q - 12)) / 3).
      replace (3 * ((k - (q - 12)) / 3) + (q - 12)) with k by lia.
      replace (3 * ((k - (q - 12)) / 3 + n) + (q - 12)) with (k + 3 * n) by lia. lia.
  - change (or_default m 12) with (opt_or m 12). generalize (opt_or m 12). intros q. split.
    + intros o. exists (12 * o + (q - 12)). rewrite !first_month_iff. split; [reflexivity|].
      split; [replace (12 * o + (q - 12) + 12 * n) with (12 * (o + n) + (q - 12)) by lia; lia|lia].
    + intros t t' (k & H1 & H2 & H3). rewrite first_month_iff in H1, H2. exists ((k - (q - 12)) / 12).
      replace (12 * ((k - (q - 12)) / 12) + (q - 12)) with k by lia.
      replace (12 * ((k - (q - 12)) / 12 + n) + (q - 12)) with (k + 12 * n) by lia. lia.
  - split.
    + intros o. exists (12 * o + (12 - 12)). rewrite !first_month_iff. split; [reflexivity|].
      split; [replace (12 * o + (12 - 12) + 12 * n) with (12 * (o + n) + (12 - 12)) by lia; lia|lia].
    + intros t t' (k & H1 & H2 & H3). rewrite first_month_iff in H1, H2. exists (k / 12).
      replace (12 * (k / 12) + (12 - 12)) with k by lia.
      replace (12 * (k / 12 + n) + (12 - 12)) with (k + 12 * n) by lia. lia.
  - split; [intros o; exists o; unfold NS_MILLI; lia|intros t t' (k & -> & ->); exists k; unfold NS_MILLI; lia].
  - split; [intros o; exists o; unfold NS_MILLI; lia|intros t t' (k & -> & ->); exists k; unfold NS_MILLI; lia].
  - split; [intros o; exists o; unfold NS_MICRO; lia|intros t t' (k & -> & ->); exists k; unfold NS_MICRO; lia].
  - split; [intros o; exists o; unfold NS_MICRO; lia|intros t t' (k & -> & ->); exists k; unfold NS_MICRO; lia].
  - split; [intros o; lia|intros t t' ->; exists t; lia].
  - split; [intros o; lia|intros t t' ->; exists t; lia].
Qed.

Lemma parts_total rest : fold_right (fun p x => fst p * snd p + x) 0 (map part_len rest) = parts_len rest.
Proof. unfold parts_len. induction rest as [|p rest IH]; [reflexivity|]. cbn [map fold_right part_len fst snd]. rewrite IH. reflexivity. Qed.
Lemma C45_sum_pf : forall s k rest t t', falias s = AlMore k rest -> period_named s t t' ->
  t' - t = times s * tick_len k + parts_len rest.
Proof.
  intros s k rest t t' Ea H. unfold period_named in H. rewrite Ea in H. destruct H as (c & u & i & Hc & -> & ->).
  apply adds_total in Hc. cbn [fold_right fst snd] in Hc. change (map (fun p => (Zpos (fst p), tick_len (snd p))) rest) with (map part_len rest) in Hc.
  rewrite parts_total in Hc. lia.
Qed.

Lemma C45_length_pf : forall s n, proper_name s -> (length_in_2016 s n <-> get_freq_delta (to_freq s) = n).
Proof.
  intros s n Hs. unfold length_in_2016, get_freq_delta.
  destruct (falias s) as [| | | | |w| |m|m| | | | | | | |k rest] eqn:Ea.
  17: { destruct (more_parts s k rest Ea) as [Hb Ha]. rewrite !(tick_start _ _ Hb).
    apply adds_total in Ha. cbn [fold_right fst snd] in Ha. rewrite parts_total in Ha.
    generalize dependent (Zpos (fmult (to_freq s))). generalize (tick_ns (fbase (to_freq s))) (pord (fbase (to_freq s)) jul2016). clear. intros; split; intros; lia. }
  all: rewrite <- Ea.
  all: assert (Hs' : proper_name (mkFstr None (falias s))) by exact Hs;
    destruct (C45_periods_pf s Hs) as [A1 A2]; destruct (C45_periods_pf _ Hs') as [B1 B2];
    unfold p_start, p_end in *; cbn [p_freq p_ord] in *;
    assert (Eb : fbase (to_freq (mkFstr None (falias s))) = fbase (to_freq s) /\ fmult (to_freq (mkFstr None (falias s))) = 1%positive)
      by (rewrite !single_freq by (cbn [falias]; rewrite Ea; discriminate); split; reflexivity);
    destruct Eb as [Eb Em]; rewrite Eb, Em in *; clear Eb Em Ea Hs' Hs;
    set (b := fbase (to_freq s)) in *; split;
  [ intros (t & t1 & t' & H1 & H2 & H3 & ->); destruct (B2 _ _ H1) as (o & -> & ->); destruct (A2 _ _ H3) as (o' & E & ->);
    assert (o' = o) as -> by (pose proof (pstart_le_iff b o o'); pose proof (pstart_le_iff b o' o); lia);
    assert (pord b jul2016 = o) as -> by (apply pord_iff; change (date 2016 7 1 * 86400000000000) with jul2016 in H2; lia); lia
  | intros <-; pose proof (pord_spec b jul2016) as H; eexists _, _, _; split; [apply (B1 (pord b jul2016))|];
    split; [change (date 2016 7 1 * 86400000000000) with jul2016; lia|]; split; [apply A1|]; lia ].
Qed.

(** * C46 *)
Lemma months_later_iff k t t' : months_later k t t' <-> t' = add_months t k.
Proof.
  unfold months_later, add_months. split.
  - intros (y & m & d & y' & m' & n & r & Hv & Hr & -> & Hk & Hn & ->).
    pose proof (valid_m _ _ _ Hv) as Hm. pose proof Hv as Hv'. apply (valid_iff _ _ _ Hm) in Hv'.
    assert (Hm' : 1 <= m' <= 12) by (unfold days_in in Hn; cbn [In] in Hn; lia).
    apply (month_len_ok y' m' n Hm') in Hn.
    assert (E : (date y m d * 86400000000000 + r) / NS_DAY = date y m d) by (unfold NS_DAY; lia).
    assert (E' : (date y m d * 86400000000000 + r) mod NS_DAY = r) by (unfold NS_DAY; lia). rewrite E, E'.
    apply month_of_unique in Hv'. rewrite Hv'.
    replace (12 * (y - 1970) + (m - 1) + k) with (12 * (y' - 1970) + (m' - 1)) by lia. unfold month_len. rewrite <- Hn.
    rewrite !date_k. generalize (month_start (12 * (y - 1970) + (m - 1))) (month_start (12 * (y' - 1970) + (m' - 1))). unfold NS_DAY. lia.
  - intros ->. set (D := t / NS_DAY). set (M := month_of_day D).
    destruct C45_dates_pf as (_ & _ & H & _). destruct (H D) as [Hv He]. clear H.
    pose proof (valid_m _ _ _ Hv) as Hm.
    set (N := M + k). exists (year_of D), (month_num D), (mday_of D), (1970 + N / 12), (N mod 12 + 1), (month_len N), (t mod NS_DAY).
    split; [exact Hv|]. split; [unfold NS_DAY; lia|]. split; [rewrite He; unfold D, NS_DAY; lia|].
    split; [unfold year_of, month_num; fold M; unfold N; lia|].
    assert (EN : 12 * (1970 + N / 12 - 1970) + (N mod 12 + 1 - 1) = N) by lia.
    split; [apply month_len_ok; [lia|]; rewrite EN; reflexivity|].
    rewrite date_k, EN. unfold mday_of. fold M. unfold NS_DAY. lia.
Qed.

(** Absolute keywords. *)
Lemma or_zero_part x old new : date_part x old new <-> new = or_zero x old.
Proof.
  unfold date_part, or_zero. destruct x as [v|]; [|reflexivity]. destruct v; reflexivity.
Qed.
Lemma or_none_part x old new : time_part x old new <-> new = or_none x old.
Proof. reflexivity. Qed.
Lemma weekday_range d : 0 <= weekday d < 7.
Proof. unfold weekday. lia. Qed.
Lemma week_forward v N d d' : 0 <= v < 7 ->
  (weekday d' = v /\ 7 * N <= d' - d < 7 * N + 7 <-> d' = d + (N * 7 + (7 - weekday d + v) mod 7)).
Proof.
  intros Hv. unfold weekday. pose proof (Z.div_mod (d + 3) 7 ltac:(lia)) as H1. pose proof (Z.mod_pos_bound (d + 3) 7 ltac:(lia)) as H2.
  pose proof (Z.div_mod (d' + 3) 7 ltac:(lia)) as H3. pose proof (Z.mod_pos_bound (d' + 3) 7 ltac:(lia)) as H4.
  pose proof (Z.div_mod (7 - (d + 3) mod 7 + v) 7 ltac:(lia)) as H5. pose proof (Z.mod_pos_bound (7 - (d + 3) mod 7 + v) 7 ltac:(lia)) as H6.
  revert H1 H2 H3 H4 H5 H6. generalize ((7 - (d + 3) mod 7 + v) mod 7) ((7 - (d + 3) mod 7 + v) / 7). generalize ((d + 3) mod 7) ((d + 3) / 7) ((d' + 3) mod 7) ((d' + 3) / 7).
  intros q a e c j b H1 H2 H3 H4 H5 H6. split.
  - intros [-> H]. assert (c - a + b - 1 = N) by lia. lia.
  - intros ->. assert (c = N + a - b + 1) by lia. split; lia.
Qed.
Lemma to_weekday_iff w n d d' : to_weekday w n d d' <-> d' = d + jump (w mod 7) n d.
Proof.
  unfold to_weekday, jump. cbv zeta.
  assert (Hw : 0 <= w mod 7 < 7) by (apply Z.mod_pos_bound; lia). set (v := w mod 7) in *. clearbody v.
  destruct (Z.lt_trichotomy n 0) as [C|[->|C]].
  - replace (n =? 0) with false by lia. replace (0 <? n) with false by lia.
    pose proof (week_forward (weekday d) (- n - 1) d' d (weekday_range d)) as H.
    assert (E : weekday d' = v -> (7 - weekday d' + weekday d) mod 7 = (weekday d - v) mod 7).
    { intros ->. replace (7 - v + weekday d) with (weekday d - v + 1 * 7) by lia. apply Z_mod_plus_full. }
    assert (E2 : d' = d - ((- n - 1) * 7 + (weekday d - v) mod 7) -> weekday d' = v).
    { intros ->. unfold weekday. pose proof (weekday_range d) as Hr. unfold weekday in *. pose proof (Z.div_mod (d + 3) 7 ltac:(lia)) as H1. pose proof (Z.div_mod ((d + 3) mod 7 - v) 7 ltac:(lia)) as H5.
      revert Hr H1 H5. generalize ((d + 3) mod 7) ((d + 3) / 7). intros q a Hr H1 H5. generalize dependent (((q - v) mod 7)). intros j H5.
      replace (d - ((- n - 1) * 7 + j) + 3) with (v + (a + n + 1 + (q - v) / 7) * 7) by lia. rewrite Z_mod_plus_full. apply Z.mod_small. exact Hw. }
    replace (Z.abs n - 1) with (- n - 1) by lia. split.
    + intros (H1 & _ & H2). specialize (H2 C). specialize (E H1). rewrite E in H. destruct H as [H _].
      assert (HH : 7 * (- n - 1) <= d - d' < 7 * (- n - 1) + 7) by (clear - H2; lia). specialize (H (conj eq_refl HH)).
      revert H. generalize ((weekday d - v) mod 7). clear. intros j H. lia.
    + intros Hd. assert (Hv : weekday d' = v) by (apply E2; lia). split; [exact Hv|]. split; [lia|]. intros _. specialize (E Hv). rewrite E in H. destruct H as [_ H].
      destruct H as [_ H]; [revert Hd; generalize ((weekday d - v) mod 7); clear; intros j Hd; lia|]. clear - H. lia.
  - pose proof (week_forward v 0 d d' Hw) as H. change (0 =? 0) with true. cbv iota. change (0 <? 1) with true. cbv iota. change (Z.abs 1 - 1) with 0.
    rewrite <- H. split; [intros (H1 & H2 & _); split; [exact H1|]|intros (H1 & H2); split; [exact H1|split]]; lia.
  - replace (n =? 0) with false by lia. replace (0 <? n) with true by lia. replace (Z.abs n - 1) with (n - 1) by lia.
    rewrite <- (week_forward v (n - 1) d d' Hw). split; [intros (H1 & H2 & _); split; [exact H1|]|intros (H1 & H2); split; [exact H1|split]]; lia.
Qed.

Lemma clock_fun t Y M D hh mm ss fr : clock t Y M D hh mm ss fr ->
  Y = year_of (t / NS_DAY) /\ M = month_num (t / NS_DAY) /\ D = mday_of (t / NS_DAY)
  /\ hh = t mod NS_DAY / NS_HOUR /\ mm = (t mod NS_DAY) mod NS_HOUR / NS_MIN /\ ss = (t mod NS_DAY) mod NS_MIN / NS_SEC /\ fr = (t mod NS_DAY) mod NS_SEC.
Proof.
  intros (Hv & H1 & H2 & H3 & H4 & ->). pose proof (valid_m _ _ _ Hv) as Hm. pose proof Hv as Hv'. apply (valid_iff _ _ _ Hm) in Hv'.
  assert (E : (date Y M D * 86400000000000 + ((hh * 60 + mm) * 60 + ss) * 1000000000 + fr) / NS_DAY = date Y M D) by (unfold NS_DAY; lia).
  assert (E' : (date Y M D * 86400000000000 + ((hh * 60 + mm) * 60 + ss) * 1000000000 + fr) mod NS_DAY = ((hh * 60 + mm) * 60 + ss) * 1000000000 + fr) by (unfold NS_DAY; lia).
  rewrite E, E'. apply month_of_unique in Hv'. unfold year_of, month_num, mday_of. rewrite Hv', date_k.
  unfold NS_HOUR, NS_MIN, NS_SEC. repeat split; lia.
Qed.
Lemma clock_of t : clock t (year_of (t / NS_DAY)) (month_num (t / NS_DAY)) (mday_of (t / NS_DAY))
  (t mod NS_DAY / NS_HOUR) ((t mod NS_DAY) mod NS_HOUR / NS_MIN) ((t mod NS_DAY) mod NS_MIN / NS_SEC) ((t mod NS_DAY) mod NS_SEC).
Proof.
  destruct C45_dates_pf as (_ & _ & H & _). destruct (H (t / NS_DAY)) as [Hv He]. unfold clock. rewrite He.
  split; [exact Hv|]. unfold NS_DAY, NS_HOUR, NS_MIN, NS_SEC. lia.
Qed.

Lemma set_weekday_iff a T t' :
  match ab_weekday a with
  | None => t' = T
  | Some (wd, nth) => exists x x' r, T = x * 86400000000000 + r /\ 0 <= r < 86400000000000
      /\ to_weekday wd nth x x' /\ t' = x' * 86400000000000 + r end
  <-> match ab_weekday a with Some (w0, n) => T + jump (w0 mod 7) n (T / NS_DAY) * NS_DAY | None => T end = t'.
Proof.
  destruct (ab_weekday a) as [[wd nth]|]; [|split; congruence]. split.
  - intros (q & q' & r & E & Hr & Hq & ->). apply to_weekday_iff in Hq.
    assert (Eq : T / NS_DAY = q) by (clear - E Hr; unfold NS_DAY; lia). rewrite Eq. subst q'. generalize (jump (wd mod 7) nth q). clear - E. unfold NS_DAY. lia.
  - intros <-. exists (T / NS_DAY), (T / NS_DAY + jump (wd mod 7) nth (T / NS_DAY)), (T mod NS_DAY).
    split; [unfold NS_DAY; lia|]. split; [unfold NS_DAY; lia|]. split; [apply to_weekday_iff; reflexivity|].
    generalize (jump (wd mod 7) nth (T / NS_DAY)). unfold NS_DAY. lia.
Qed.

Lemma C46_offset_pf : forall o t t', usable o -> (offset_means o t t' <-> add_offset o t = t').
Proof.
  intros [|y m w d h mi s|a y m w d h mi s] t t' Hus; cbn [offset_means add_offset].
  - unfold NS_DAY. lia.
  - assert (E : (if (y =? 0) && (m =? 0) then t else add_months t (12 * y + m)) = add_months t (12 * y + m)).
    { destruct ((y =? 0) && (m =? 0)) eqn:E; [|reflexivity]. replace (12 * y + m) with 0 by lia. symmetry. apply add_months_0. }
    rewrite E. unfold NS_DAY, NS_HOUR, NS_MIN, NS_SEC. split.
    + intros (t1 & H & ->). apply months_later_iff in H. lia.
    + intros H. exists (add_months t (12 * y + m)). split; [apply months_later_iff; reflexivity|lia].
  - destruct Hus as (Hmo & _). unfold add_absolute. cbv zeta.
    assert (HM : 1 <= month_num (t / NS_DAY) <= 12) by (unfold month_num; lia).
    destruct (set_month_ok a _ m Hmo HM) as [Hx Hcx]. destruct (set_month a (month_num (t / NS_DAY)) m) as [c x]. cbn [fst snd] in *.
    set (Yr := or_zero (ab_year a) (year_of (t / NS_DAY)) + y + c). set (k := 12 * (Yr - 1970) + (x - 1)).
    set (D1 := or_zero (ab_day a) (mday_of (t / NS_DAY))).
    set (h1 := or_none (ab_hour a) _). set (m1 := or_none (ab_minute a) _). set (s1 := or_none (ab_second a) _).
    set (t2 := (month_start k + (Z.min (month_len k) D1 - 1)) * NS_DAY + h1 * NS_HOUR + m1 * NS_MIN + s1 * NS_SEC + (t mod NS_DAY) mod NS_SEC
               + (7 * w + d) * NS_DAY + h * NS_HOUR + mi * NS_MIN + s * NS_SEC).
    assert (Hlen : days_in Yr x (month_len k)) by (apply month_len_ok; [exact Hx|reflexivity]).
    assert (Ht2 : t2 = date Yr x (Z.min D1 (month_len k)) * 86400000000000 + ((h1 * 60 + m1) * 60 + s1) * 1000000000 + (t mod NS_DAY) mod NS_SEC
                + (((7 * w + d) * 24 + h) * 3600 + mi * 60 + s) * 1000000000).
    { unfold t2. rewrite date_k. fold k. rewrite (Z.min_comm D1). unfold NS_DAY, NS_HOUR, NS_MIN. replace NS_SEC with 1000000000 by reflexivity.
      generalize ((t mod 86400000000000) mod 1000000000) (month_start k) (Z.min (month_len k) D1). intros. lia. }
    assert (Hlast := set_weekday_iff a t2 t').
    split.
    + intros (Y & M & D & hh & mm & ss & fr & Y1 & M1 & D1' & h1' & m1' & s1' & Y2 & M2 & n & T & Hcl & HY & HMo & HD & Hh & Hmm & Hs & Hsum & Hn & ET & HL).
      apply clock_fun in Hcl. destruct Hcl as (-> & -> & -> & -> & -> & -> & ->).
      apply or_zero_part in HY, HMo, HD. apply (proj1 (or_none_part _ _ _)) in Hh. apply (proj1 (or_none_part _ _ _)) in Hmm. apply (proj1 (or_none_part _ _ _)) in Hs. fold D1 in HD. fold h1 in Hh. fold m1 in Hmm. fold s1 in Hs. subst Y1 M1 D1' h1' m1' s1'.
      assert (HM2 : 1 <= M2 <= 12) by (clear - Hn; unfold days_in in Hn; cbn [In] in Hn; lia).
      assert (EY : Y2 = Yr /\ M2 = x).
      { unfold Yr. revert Hsum Hcx Hx HM2. generalize (or_zero (ab_year a) (year_of (t / NS_DAY))) (or_zero (ab_month a) (month_num (t / NS_DAY))). clear. lia. }
      destruct EY as [-> ->].
      apply (month_len_ok _ _ _ Hx) in Hn. fold k in Hn. 
      apply Hlast. replace t2 with T; [exact HL|]. rewrite ET, Ht2, Hn. reflexivity.
    + intros E. eexists _, _, _, _, _, _, _, _, _, _, _, _, _, Yr, x, (month_len k), t2.
      split; [apply clock_of|]. split; [apply or_zero_part; reflexivity|]. split; [apply or_zero_part; reflexivity|]. split; [apply or_zero_part; reflexivity|].
      split; [apply or_none_part; reflexivity|]. split; [apply or_none_part; reflexivity|]. split; [apply or_none_part; reflexivity|].
      
      split. { unfold Yr. revert Hcx. generalize (or_zero (ab_year a) (year_of (t / NS_DAY))) (or_zero (ab_month a) (month_num (t / NS_DAY))). clear. lia. }
      split; [exact Hlen|]. split; [exact Ht2|]. apply Hlast, E.
Qed.
