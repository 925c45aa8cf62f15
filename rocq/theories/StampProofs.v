(** Proofs of C75. *)
From Verif Require Import Base BaseProofs Civil CivilProofs Freq FreqProofs Frame FrameProofs Range SpecRange SameProofs.
From Coq Require Import ZifyBool ZifyNat.
Open Scope Z_scope.

Lemma stamp_fits c t : fits t -> stamp c t = Ok t.
Proof. intros H. unfold stamp, TS_MIN, TS_MAX, fits in *. replace (_ && _) with true by lia. reflexivity. Qed.
Lemma stamp_not c t : ~ fits t -> stamp c t = if c then Err EValue else Ok (wrap t).
Proof. intros H. unfold stamp, TS_MIN, TS_MAX, fits in *. replace (_ && _) with false by lia. reflexivity. Qed.
Lemma fits_dec t : fits t \/ ~ fits t.
Proof. unfold fits. lia. Qed.

(** Periods are not longer than 366 days. *)
Lemma days_le a b k : b - a <= k -> b * NS_DAY - a * NS_DAY <= k * NS_DAY.
Proof. unfold NS_DAY. lia. Qed.
Lemma period_len_le b o : pstart b (o + 1) - pstart b o <= 366 * NS_DAY.
Proof.
  destruct b as [| | | |d| |m|m| | |]; cbn [pstart].
  - unfold NS_SEC, NS_DAY. lia.
  - unfold NS_MIN, NS_DAY. lia.
  - unfold NS_HOUR, NS_DAY. lia.
  - apply days_le. lia.
  - apply days_le. lia.
  - apply days_le. pose proof (month_spans o) as (H & _). lia.
  - apply days_le. pose proof (month_spans (3 * o + (m - 12))) as (_ & H & _). replace (3 * (o + 1) + (m - 12)) with (3 * o + (m - 12) + 3) by lia. lia.
  - apply days_le. pose proof (month_spans (12 * o + (m - 12))) as (_ & _ & H). replace (12 * (o + 1) + (m - 12)) with (12 * o + (m - 12) + 12) by lia. lia.
  - unfold NS_MILLI, NS_DAY. lia.
  - unfold NS_MICRO, NS_DAY. lia.
  - unfold NS_DAY. lia.
Qed.
Lemma period_short b t : t - 366 * NS_DAY < pstart b (pord b t).
Proof. pose proof (pord_spec b t) as H. pose proof (period_len_le b (pord b t)) as K. generalize dependent (366 * NS_DAY). intros Y K. lia. Qed.

(** No period begins at the number that stands for NaT, except nanoseconds. *)
Lemma not_thousands k : k * 1000 <> - 2 ^ 63.
Proof. intros E. apply (f_equal (fun x => x mod 1000)) in E. rewrite Z.mod_mul in E by discriminate. vm_compute in E. discriminate. Qed.
Lemma not_nat b t : - 2 ^ 63 < t -> pstart b (pord b t) <> - 2 ^ 63.
Proof.
  intros Ht. set (Y := - 2 ^ 63) in *. pose proof not_thousands as N. fold Y in N. clearbody Y. generalize (pord_spec b t). set (o := pord b t). intros P E.
  assert (K : (exists k, pstart b o = k * 1000) \/ b = BN).
  { clear. destruct b as [| | | |d| |m|m| | |]; cbn [pstart]; [left..|right; reflexivity].
    - exists (o * 1000000). unfold NS_SEC. lia.
    - exists (o * 60000000). unfold NS_MIN. lia.
    - exists (o * 3600000000). unfold NS_HOUR. lia.
    - exists (o * 86400000000). unfold NS_DAY. lia.
    - exists ((7 * o + (d - 2)) * 86400000000). unfold NS_DAY. lia.
    - exists (month_start o * 86400000000). unfold NS_DAY. lia.
    - exists (month_start (3 * o + (m - 12)) * 86400000000). unfold NS_DAY. lia.
    - exists (month_start (12 * o + (m - 12)) * 86400000000). unfold NS_DAY. lia.
    - exists (o * 1000). unfold NS_MILLI. lia.
    - exists o. unfold NS_MICRO. lia. }
  destruct K as [[k K]|Eb]; [apply (N k); congruence|]. subst b. cbn [pstart] in *. lia.
Qed.

(** The frame of [t0], [t1]. *)
Lemma frame_bounds s t0 t1 f : mk_frame s t0 t1 = Ok f -> 0 < fr_len f /\ t0 - 366 * NS_DAY < unit_start f 0 <= t0 /\ unit_start f (fr_len f - 1) <= t1.
Proof.
  unfold mk_frame. set (b := fbase (to_freq s)). set (mu := Z.pos (fmult (to_freq s))). set (o0 := pord b t0). set (o1 := pord b t1).
  destruct (period_count mu o0 o1 =? 0) eqn:E; [discriminate|]. injection 1 as <-. cbn [fr_len]. unfold unit_start, unit_ord, fr_base, fr_mult. cbn [fr_str fr_o0]. fold b mu.
  assert (Hmu : 0 < mu) by (unfold mu; lia). assert (Hn : 0 < period_count mu o0 o1 /\ o0 + (period_count mu o0 o1 - 1) * mu <= o1).
  { unfold period_count in *. destruct (o1 <? o0) eqn:El; [lia|]. pose proof (Z.div_pos (o1 - o0) mu ltac:(lia) Hmu). pose proof (Z.mul_div_le (o1 - o0) mu Hmu). lia. }
  destruct Hn as [Hn1 Hn2]. split; [exact Hn1|]. replace (o0 + 0 * mu) with o0 by lia. split.
  - pose proof (pord_spec b t0). split; [apply period_short|fold o0 in H; lia].
  - pose proof (pord_spec b t1) as H. fold o1 in H. pose proof (proj1 (pstart_le_iff b _ _) Hn2). lia.
Qed.

Lemma mapM_ok_all {A B} (g : A -> res B) (h : A -> B) l : (forall x, In x l -> g x = Ok (h x)) -> mapM g l = Ok (map h l).
Proof.
  induction l as [|x l IH]; intros H; [reflexivity|]. cbn [mapM map]. rewrite (H x (or_introl eq_refl)). cbn [bind].
  rewrite IH by (intros y Hy; apply H; right; exact Hy). reflexivity.
Qed.
Lemma stamps_fit c f : starts_fit f -> start_stamps c f = Ok (fr_start_times f).
Proof. intros H. apply mapM_ok_all. intros i Hi. apply zrange_In in Hi. apply stamp_fits, H. lia. Qed.
Lemma stamps_wrap f : start_stamps false f = Ok (map (fun i => if (TS_MIN <=? unit_start f i) && (unit_start f i <=? TS_MAX) then unit_start f i else wrap (unit_start f i)) (zrange 0 (Z.to_nat (fr_len f)))).
Proof. apply mapM_ok_all. intros i _. unfold start_stamp, stamp. destruct (_ && _); reflexivity. Qed.

Section Frame.
Variables (s : fstr) (t0 t1 : Z) (f : frame).
Hypothesis F0 : fits t0.
Hypothesis F1 : fits t1.
Hypothesis H : mk_frame s t0 t1 = Ok f.

Lemma starts_fit_iff : starts_fit f <-> fits (unit_start f 0).
Proof.
  destruct (frame_bounds _ _ _ _ H) as (Hn & Hs & He). split; [intros A; apply A; lia|]. intros A i Hi.
  pose proof (unit_start_le f 0 i ltac:(lia)). pose proof (unit_start_le f i (fr_len f - 1) ltac:(lia)). unfold fits in *. lia.
Qed.
(** When the first base unit begins before the range, what it wraps to. *)
Lemma wrapped_start : ~ fits (unit_start f 0) -> wrap (unit_start f 0) = unit_start f 0 + 2 ^ 64.
Proof.
  intros A. destruct (frame_bounds _ _ _ _ H) as (Hn & Hs & He).
  assert (N : unit_start f 0 <> - 2 ^ 63).
  { revert H. unfold mk_frame. destruct (_ =? 0); [discriminate|]. intros E. injection E as <-. unfold unit_start, unit_ord, fr_base. cbn [fr_str fr_o0].
    rewrite Z.mul_0_l, Z.add_0_r. apply not_nat. exact (proj1 F0). }
  unfold wrap, fits, NS_DAY in *. set (x := unit_start f 0) in *. clearbody x.
  rewrite <- (Z.mod_unique (x + 2 ^ 63) (2 ^ 64) (-1) (x + 2 ^ 63 + 2 ^ 64)); lia.
Qed.
Lemma last_fits : 1 < fr_len f -> fits (unit_start f (fr_len f - 1)).
Proof.
  intros Hl. destruct (frame_bounds _ _ _ _ H) as (Hn & Hs & He). split; [|unfold fits in *; lia].
  (* the second unit begins after t0 *)
  assert (t0 < unit_start f 1).
  { revert H. unfold mk_frame. destruct (_ =? 0); [discriminate|]. intros E. injection E as <-. unfold unit_start, unit_ord, fr_base, fr_mult. cbn [fr_str fr_o0].
    set (b := fbase (to_freq s)). pose proof (pord_spec b t0) as P. set (o := pord b t0) in *. pose proof (proj1 (pstart_le_iff b (o + 1) (o + 1 * Z.pos (fmult (to_freq s)))) ltac:(lia)). lia. }
  pose proof (unit_start_le f 1 (fr_len f - 1) ltac:(lia)). unfold fits in *. lia.
Qed.
End Frame.

Lemma mk_frame_len s t0 t1 f : mk_frame s t0 t1 = Ok f -> 0 < fr_len f.
Proof. intros H. exact (proj1 (frame_bounds _ _ _ _ H)). Qed.

Lemma C75_checked_pf : forall (s : fstr) (t0 t1 : Z) (f : frame),
  (frame_in_range true s t0 t1 = Ok f <-> mk_frame s t0 t1 = Ok f /\ starts_fit f)
  /\ frame_in_range true s t0 t1 <> Err ERuntime.
Proof.
  intros s t0 t1 f. unfold frame_in_range. destruct (mk_frame s t0 t1) as [g|e] eqn:E.
  2: { cbn [bind]. split; [split; [discriminate|intros [? _]; discriminate]|]. unfold mk_frame in E. destruct (_ =? 0); [injection E as <-|]; discriminate. }
  cbn [bind]. pose proof (mk_frame_len _ _ _ _ E) as Hn. unfold start_stamp. destruct (fits_dec (unit_start g 0)) as [A|A].
  - destruct (fits_dec (unit_start g (fr_len g - 1))) as [B|B].
    + assert (S : starts_fit g).
      { intros i Hi. pose proof (unit_start_le g 0 i ltac:(lia)). pose proof (unit_start_le g i (fr_len g - 1) ltac:(lia)). unfold fits in *. lia. }
      rewrite (stamp_fits true _ A), (stamp_fits true _ B). cbn [bind].
      pose proof (unit_start_le g 0 (fr_len g - 1) ltac:(lia)). replace (_ <? _) with false by lia. rewrite (stamps_fit true g S). cbn [bind]. split; [|discriminate].
      split; [intros X; injection X as <-; split; [reflexivity|exact S]|intros [X _]; exact X].
    + rewrite (stamp_fits true _ A), (stamp_not true _ B). cbn [bind]. split; [|discriminate]. split; [discriminate|]. intros [X S]. injection X as <-. exfalso. apply B, S. lia.
  - rewrite (stamp_not true _ A). cbn [bind]. split; [|discriminate]. split; [discriminate|]. intros [X S]. injection X as <-.
    exfalso. apply A, S. lia.
Qed.

Lemma C75_wrapped_pf : forall (s : fstr) (t0 t1 : Z) (f : frame), fits t0 -> fits t1 ->
  (frame_in_range false s t0 t1 = Ok f
   <-> mk_frame s t0 t1 = Ok f /\ (starts_fit f \/ fr_len f = 1 \/ 2 ^ 64 <= unit_start f (fr_len f - 1) - unit_start f 0)).
Proof.
  intros s t0 t1 f F0 F1. unfold frame_in_range. destruct (mk_frame s t0 t1) as [g|e] eqn:E.
  2: { cbn [bind]. split; [discriminate|intros [? _]; discriminate]. }
  cbn [bind]. destruct (frame_bounds _ _ _ _ E) as (Hn & Hs & He). rewrite stamps_wrap. destruct (fits_dec (unit_start g 0)) as [A|A].
  - pose proof (proj2 (starts_fit_iff s t0 t1 g F1 E) A) as S. unfold start_stamp. rewrite (stamp_fits false _ A), (stamp_fits false _ (S (fr_len g - 1) ltac:(lia))). cbn [bind].
    pose proof (unit_start_le g 0 (fr_len g - 1) ltac:(lia)). replace (_ <? _) with false by lia.
    split; [intros X; injection X as <-; split; [reflexivity|left; exact S]|intros [X _]; exact X].
  - unfold start_stamp. rewrite (stamp_not false _ A). cbn [bind]. destruct (Z.eq_dec (fr_len g) 1) as [L1|L1].
    + rewrite L1. replace (1 - 1) with 0 by lia. rewrite (stamp_not false _ A). cbn [bind]. rewrite Z.ltb_irrefl.
      split; [intros X; injection X as <-; split; [reflexivity|right; left; exact L1]|intros [X _]; exact X].
    + rewrite (stamp_fits false _ (last_fits s t0 t1 g F0 F1 E ltac:(lia))). cbn [bind]. rewrite (wrapped_start s t0 t1 g F0 E A).
      destruct (_ <? _) eqn:Q.
      * split; [discriminate|]. intros [X [S|[S|S]]]; injection X as <-; exfalso; [apply A, S; lia|lia|lia].
      * split; [intros X; injection X as <-; split; [reflexivity|right; right; lia]|intros [X _]; exact X].
Qed.

Lemma C75_days_pf : forall (s : fstr) (t0 t1 : Z) (f : frame), fits t0 -> fits t1 -> fbase (to_freq s) = BD -> frame_in_range false s t0 t1 = Ok f -> 1 < fr_len f ->
  starts_fit f.
Proof.
  intros s t0 t1 f F0 F1 Hb H Hl. apply (C75_wrapped_pf s t0 t1 f F0 F1) in H. destruct H as [M [S|[S|S]]]; [exact S|lia|]. exfalso.
  destruct (frame_bounds _ _ _ _ M) as (_ & _ & He). revert M He S. unfold mk_frame. destruct (_ =? 0); [discriminate|]. intros E. injection E as <-.
  unfold unit_start, unit_ord, fr_base, fr_mult. cbn [fr_str fr_o0 fr_len]. rewrite Hb. cbn [pstart pord]. set (o := t0 / NS_DAY). set (k := (_ - 1) * _). clearbody k.
  assert (P : t0 < (o + 1) * NS_DAY) by (unfold o, NS_DAY; lia). clearbody o. unfold fits, NS_DAY in *. intros A B. lia.
Qed.

Lemma C75_lookup_pf : forall (c : bool) (f : frame) (t : Z), 0 < fr_len f -> starts_fit f -> fits (unit_end f (fr_len f - 1) + 1) ->
  loc_in_range c f t = fr_get_loc f t.
Proof.
  intros c f t Hn S E. unfold loc_in_range, fr_get_loc, end_stamp, start_stamp. rewrite FrameProofs.unit_end_next in E.
  replace (unit_start f (fr_len f - 1 + 1) - 1 + 1) with (unit_start f (fr_len f - 1 + 1)) in E by lia. rewrite (stamp_fits c _ E). cbn [rmap bind].
  unfold fr_end_time, fr_start_time. rewrite FrameProofs.unit_end_next. destruct (_ <? t); [reflexivity|]. cbn [orb]. rewrite (stamp_fits c _ (S 0 ltac:(lia))). cbn [bind].
  destruct (t <? _); [reflexivity|]. rewrite (stamps_fit c f S). reflexivity.
Qed.

(** A month that begins before the range: 22 Sep 1677. *)
Definition first_month : frame := mkFrame (mkFstr None AlM) (pord BM (date 1677 9 22 * NS_DAY)) 1.
Lemma C75_start_refuted_pf : exists (s : fstr) (t : Z) (f : frame), fits t /\ frame_in_range false s t t = Ok f
  /\ exists x, start_stamp false f 0 = Ok x /\ t < x.
Proof.
  exists (mkFstr None AlM), (date 1677 9 22 * NS_DAY), first_month. split; [vm_compute; split; reflexivity|]. split; [vm_compute; reflexivity|].
  eexists. split; [vm_compute; reflexivity|]. vm_compute. reflexivity.
Qed.
(** Months up to the end of the range: 11 Apr 2262. *)
Lemma C75_end_refuted_pf : exists (s : fstr) (t0 t1 : Z) (f : frame), fits t0 /\ fits t1 /\ (forall c, frame_in_range c s t0 t1 = Ok f) /\ starts_fit f
  /\ forall t, fits t -> t0 <= t <= t1 -> (exists i, fr_get_loc f t = Ok i) /\ loc_in_range false f t = Err EKey /\ loc_in_range true f t = Err EValue.
Proof.
  set (s := mkFstr None AlM). set (t0 := date 2262 3 5 * NS_DAY). set (t1 := date 2262 4 11 * NS_DAY). set (f := mkFrame s (pord BM t0) 2).
  exists s, t0, t1, f. assert (F0 : fits t0) by (vm_compute; split; reflexivity). assert (F1 : fits t1) by (vm_compute; split; reflexivity).
  assert (B : forall c, frame_in_range c s t0 t1 = Ok f) by (intros [|]; vm_compute; reflexivity).
  assert (M : mk_frame s t0 t1 = Ok f) by (vm_compute; reflexivity).
  split; [exact F0|]. split; [exact F1|]. split; [exact B|]. split; [apply (starts_fit_iff s t0 t1 f F1 M); vm_compute; split; reflexivity|].
  intros t Ht Hin. split; [|split].
  - unfold fr_get_loc. assert (E : (fr_end_time f <? t) || (t <? fr_start_time f) = false).
    { assert (t1 <= fr_end_time f) by (vm_compute; discriminate). assert (fr_start_time f <= t0) by (vm_compute; discriminate). lia. }
    rewrite E. eexists. reflexivity.
  - unfold loc_in_range. assert (E : exists e, end_stamp false f (fr_len f - 1) = Ok e /\ e < t0) by (eexists; split; [vm_compute; reflexivity|vm_compute; reflexivity]).
    destruct E as (e & -> & E). cbn [bind]. replace (e <? t) with true by lia. reflexivity.
  - unfold loc_in_range. assert (E : end_stamp true f (fr_len f - 1) = Err EValue) by (vm_compute; reflexivity). rewrite E. reflexivity.
Qed.
(** Years from 1200: with strings for the bounds they need not be Timestamps. *)
Lemma C75_far_refuted_pf : exists (s : fstr) (t0 t1 : Z) (f : frame), fits t1 /\ frame_in_range false s t0 t1 = Ok f /\ 1 < fr_len f /\ ~ fits (unit_start f 0)
  /\ start_stamp false f 0 <> Ok (unit_start f 0).
Proof.
  set (s := mkFstr None (AlA None)). set (t0 := date 1200 1 1 * NS_DAY). set (t1 := date 2017 1 1 * NS_DAY).
  exists s, t0, t1, (mkFrame s (pord (BA 12) t0) 818). split; [vm_compute; split; reflexivity|]. split; [vm_compute; reflexivity|]. split; [reflexivity|].
  split; [intros [A _]; vm_compute in A; discriminate|intros A; vm_compute in A; discriminate].
Qed.
