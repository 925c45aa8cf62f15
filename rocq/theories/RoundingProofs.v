(** Proofs about the arithmetic of floats. *)
From Coq Require Import QArith Qpower Qabs Lqa ZifyBool.
From Verif Require Import Base BaseProofs Civil Freq FreqProofs Frame FrameProofs Timeline TimelineProofs Board Spec BoardProofs SpecLookup LookupProofs SpecRoll SpecQuery QueryProofs SpecInterval IntervalProofs Rounding SpecRounding CountProofs.
Open Scope Z_scope.

(** ** The nearest integer *)
Lemma half_even_cases n d : 0 < d -> let m := half_even n d in
  2 * Z.abs (m * d - n) <= d /\ (2 * Z.abs (m * d - n) = d -> Z.even m = true).
Proof.
  intros Hd. pose proof (Z.div_mod n d ltac:(lia)) as E. pose proof (Z.mod_pos_bound n d Hd) as R.
  unfold half_even. set (m := n / d) in *. set (r := n mod d) in *.
  destruct (2 * r <? d) eqn:E1; [|destruct (d <? 2 * r) eqn:E2; [|destruct (Z.even m) eqn:E3]]; cbv zeta.
  - replace (m * d - n) with (- r) by lia. lia.
  - replace ((m + 1) * d - n) with (d - r) by lia. lia.
  - replace (m * d - n) with (- r) by lia. split; [lia|]. intros _. exact E3.
  - replace ((m + 1) * d - n) with (d - r) by lia. split; [lia|]. intros _.
    rewrite Z.even_add, E3. reflexivity.
Qed.
Lemma half_even_near n d z : 0 < d -> let m := half_even n d in
  Z.abs (m * d - n) <= Z.abs (z * d - n) /\ (Z.abs (z * d - n) = Z.abs (m * d - n) -> z = m \/ Z.even m = true).
Proof.
  intros Hd m. destruct (half_even_cases n d Hd) as [H1 H2]. fold m in H1, H2.
  destruct (Z.eq_dec z m) as [->|N]; [split; [lia|auto]|].
  assert (d <= Z.abs (z * d - m * d)) by (replace (z * d - m * d) with ((z - m) * d) by lia; rewrite Z.abs_mul; nia).
  split; [lia|]. intros H3. right. apply H2. lia.
Qed.
Lemma half_even_range n d a b : 0 < d -> a * d <= n < b * d -> a <= half_even n d <= b.
Proof.
  intros Hd [Ha Hb]. destruct (half_even_cases n d Hd) as [H1 _]. nia.
Qed.

(** ** Powers of two *)
Notation P2 k := (Qpower (2 # 1) k).
Lemma P2_pos k : (0 < P2 k)%Q.
Proof. apply Qpower_0_lt. reflexivity. Qed.
Lemma P2_plus j k : (P2 (j + k) == P2 j * P2 k)%Q.
Proof. apply Qpower_plus. discriminate. Qed.
Lemma P2_opp k : (P2 (- k) * P2 k == 1)%Q.
Proof. rewrite <- P2_plus. replace (- k + k) with 0 by lia. reflexivity. Qed.
Lemma P2_Z k : 0 <= k -> (P2 k == inject_Z (2 ^ k))%Q.
Proof. intros H. rewrite (Zpower_Qpower 2 k H). reflexivity. Qed.

Lemma scaled_eq a b k n d : 0 < a -> 0 < b -> scaled a b k = (n, d) ->
  0 < d /\ (inject_Z a / inject_Z b * P2 k == inject_Z n / inject_Z d)%Q.
Proof.
  intros Ha Hb H. injection H as <- <-.
  assert (H1 : 0 < 2 ^ Z.max k 0) by (apply Z.pow_pos_nonneg; lia).
  assert (H2 : 0 < 2 ^ Z.max (- k) 0) by (apply Z.pow_pos_nonneg; lia).
  split; [nia|]. rewrite !inject_Z_mult, <- !P2_Z by lia.
  assert (E : (P2 (Z.max k 0) == P2 k * P2 (Z.max (- k) 0))%Q).
  { rewrite <- P2_plus. replace (k + Z.max (- k) 0) with (Z.max k 0) by lia. reflexivity. }
  rewrite E. field. split; [|unfold Qeq; cbn; lia]. intros H. pose proof (P2_pos (Z.max (- k) 0)) as Hp.
  rewrite H in Hp. discriminate.
Qed.

Lemma pow_split a b c : 0 <= a -> 0 <= b -> c = a + b -> 2 ^ c = 2 ^ a * 2 ^ b.
Proof. intros Ha Hb ->. apply Z.pow_add_r; assumption. Qed.

Lemma scaled_first a b : 0 < a -> 0 < b -> let k := 52 - (Z.log2 a - Z.log2 b) in
  let '(n, d) := scaled a b k in 2 ^ 51 * d < n < 2 ^ 53 * d.
Proof.
  intros Ha Hb k. unfold scaled. pose proof (Z.log2_spec a Ha) as [A1 A2]. pose proof (Z.log2_spec b Hb) as [B1 B2].
  pose proof (Z.log2_nonneg a) as La. pose proof (Z.log2_nonneg b) as Lb. rewrite Z.pow_succ_r in A2, B2 by lia.
  set (u := Z.max k 0). set (v := Z.max (- k) 0). set (la := Z.log2 a) in *. set (lb := Z.log2 b) in *.
  assert (Hu : 0 <= u) by lia. assert (Hv : 0 <= v) by lia. assert (Huv : la + u = 52 + lb + v) by lia.
  assert (E : 2 ^ la * 2 ^ u = 2 ^ 52 * (2 ^ lb * 2 ^ v)).
  { rewrite <- (pow_split la u (la + u)) by lia. rewrite <- (pow_split lb v (lb + v)) by lia. apply pow_split; lia. }
  assert (0 < 2 ^ u) by (apply Z.pow_pos_nonneg; lia). assert (0 < 2 ^ v) by (apply Z.pow_pos_nonneg; lia).
  change (2 ^ 53) with (2 * 2 ^ 52). change (2 ^ 52) with (2 * 2 ^ 51) in E |- *.
  set (c := 2 ^ 51) in *. assert (0 < c) by reflexivity. clearbody c u v.
  revert A1 A2 B1 B2 E H H0 H1. generalize (2 ^ la) as pa, (2 ^ lb) as pb, (2 ^ u) as pu, (2 ^ v) as pv. clear.
  intros pa pb pu pv A1 A2 B1 B2 E Hpu Hpv H.
  split.
  - apply (Z.lt_le_trans _ (c * (2 * pb * pv))); [|nia]. apply Zmult_lt_compat_l; [assumption|]. nia.
  - apply (Z.lt_le_trans _ (2 * pa * pu)); [nia|]. assert (pb * pv <= b * pv) by nia. nia.
Qed.

Lemma scaled_next a b k n d n' d' : scaled a b k = (n, d) -> scaled a b (k + 1) = (n', d') ->
  (n' = 2 * n /\ d' = d) \/ (n' = n /\ d = 2 * d').
Proof.
  intros H H'. injection H as <- <-. injection H' as <- <-. destruct (0 <=? k) eqn:E.
  - left. replace (Z.max (k + 1) 0) with (Z.succ (Z.max k 0)) by lia. rewrite Z.pow_succ_r by lia.
    replace (Z.max (- (k + 1)) 0) with (Z.max (- k) 0) by lia. lia.
  - right. replace (Z.max (- k) 0) with (Z.succ (Z.max (- (k + 1)) 0)) by lia. rewrite Z.pow_succ_r by lia.
    replace (Z.max (k + 1) 0) with (Z.max k 0) by lia. lia.
Qed.

Lemma rnd_pos_ex a b : 0 < a -> 0 < b -> exists k n d, 0 < d /\ 2 ^ 52 * d <= n < 2 ^ 53 * d
  /\ (inject_Z a / inject_Z b * P2 k == inject_Z n / inject_Z d)%Q
  /\ rnd_pos a b = (inject_Z (half_even n d) * P2 (- k))%Q.
Proof.
  intros Ha Hb. pose proof (scaled_first a b Ha Hb) as H. unfold rnd_pos. cbv zeta in *.
  set (k := 52 - (Z.log2 a - Z.log2 b)) in *.
  destruct (scaled a b k) as [n d] eqn:E. destruct (2 ^ 52 * d <=? n) eqn:C.
  - rewrite E. destruct (scaled_eq a b k n d Ha Hb E) as [Hd Hq]. exists k, n, d. split; [exact Hd|]. split; [lia|]. split; [exact Hq|reflexivity].
  - destruct (scaled a b (k + 1)) as [n' d'] eqn:E'. destruct (scaled_eq a b (k + 1) n' d' Ha Hb E') as [Hd Hq].
    exists (k + 1), n', d'. split; [exact Hd|]. split; [|split; [exact Hq|reflexivity]].
    destruct (scaled_next a b k n d n' d' E E') as [[-> ->]|[-> ->]]; lia.
Qed.

(** ** Nearest *)
Lemma Qabs_Z z : Qabs (inject_Z z) = inject_Z (Z.abs z).
Proof. reflexivity. Qed.
Lemma inject_minus a b : (inject_Z (a - b) == inject_Z a - inject_Z b)%Q.
Proof. unfold Z.sub. rewrite inject_Z_plus, inject_Z_opp. reflexivity. Qed.
Lemma inject_pos d : 0 < d -> (0 < inject_Z d)%Q.
Proof. intros H. change 0%Q with (inject_Z 0). rewrite <- Zlt_Qlt. exact H. Qed.

Lemma near_pos a b : 0 < a -> 0 < b -> let q := (inject_Z a / inject_Z b)%Q in let x := rnd_pos a b in
  exists m k, 2 ^ 52 <= m <= 2 ^ 53 /\ (x == inject_Z m * P2 (- k))%Q
    /\ (inject_Z (2 ^ 52) <= q * P2 k)%Q /\ (q * P2 k < inject_Z (2 ^ 53))%Q
    /\ (Qabs (x - q) * inject_Z (2 ^ 53) <= q)%Q /\ ((2 # 1) * Qabs (x - q) <= P2 (- k))%Q
    /\ forall w j, Z.abs w < 2 ^ 53 -> let y := (inject_Z w * P2 j)%Q in
       (Qabs (x - q) <= Qabs (y - q))%Q /\ ((Qabs (y - q) == Qabs (x - q))%Q -> (y == x)%Q \/ Z.even m = true).
Proof.
  intros Ha Hb q x. destruct (rnd_pos_ex a b Ha Hb) as (k & n & d & Hd & Hn & Hq & Hx). fold q in Hq. fold x in Hx.
  set (m := half_even n d) in *. pose proof (inject_pos d Hd) as Qd.
  assert (Hdn : ~ (inject_Z d == 0)%Q) by (intros H; rewrite H in Qd; discriminate).
  set (c := (P2 (- k) / inject_Z d)%Q).
  assert (Hc : (0 < c)%Q).
  { unfold c. apply Qlt_shift_div_l; [exact Qd|]. rewrite Qmult_0_l. apply P2_pos. }
  assert (Hqc : (q == inject_Z n * c)%Q).
  { assert (E : (q == q * P2 k * P2 (- k))%Q) by (rewrite <- Qmult_assoc, (Qmult_comm (P2 k)), P2_opp; ring).
    rewrite E, Hq. unfold c. field. exact Hdn. }
  assert (Hxq : (x - q == inject_Z (m * d - n) * c)%Q).
  { rewrite Hx, Hqc, inject_minus, inject_Z_mult. unfold c. field. exact Hdn. }
  assert (Ax : (Qabs (x - q) == inject_Z (Z.abs (m * d - n)) * c)%Q).
  { rewrite Hxq, Qabs_Qmult, (Qabs_pos c) by (apply Qlt_le_weak; exact Hc). reflexivity. }
  exists m, k. split; [apply half_even_range; assumption|]. split; [rewrite Hx; reflexivity|].
  split; [|split; [|split; [|split]]].
  - rewrite Hq. apply Qle_shift_div_l; [exact Qd|]. rewrite <- inject_Z_mult, <- Zle_Qle. lia.
  - rewrite Hq. apply Qlt_shift_div_r; [exact Qd|]. rewrite <- inject_Z_mult, <- Zlt_Qlt. lia.
  - rewrite Ax, Hqc. rewrite <- Qmult_assoc, (Qmult_comm c), Qmult_assoc. apply Qmult_le_compat_r; [|apply Qlt_le_weak; exact Hc].
    rewrite <- inject_Z_mult, <- Zle_Qle. destruct (half_even_cases n d Hd) as [H _]. fold m in H.
    change (2 ^ 53) with (2 * 2 ^ 52). assert (T : 0 < 2 ^ 52) by reflexivity. destruct Hn as [Hn _]. revert T Hn H.
    generalize (2 ^ 52) as t, (Z.abs (m * d - n)) as e. clear. intros t e T Hn H. apply (Z.le_trans _ (t * d)); [|exact Hn]. nia.
  - destruct (half_even_cases n d Hd) as [H _]. fold m in H. rewrite Ax.
    assert (Ec : (P2 (- k) == inject_Z d * c)%Q) by (unfold c; field; exact Hdn). rewrite Ec, Qmult_assoc.
    apply Qmult_le_compat_r; [|apply Qlt_le_weak; exact Hc]. change (2 # 1)%Q with (inject_Z 2). rewrite <- inject_Z_mult, <- Zle_Qle. exact H.
  - intros w j Hw y.
    assert (Hyq : (y - q == (inject_Z w * P2 (j + k) * inject_Z d - inject_Z n) * c)%Q).
    { rewrite Hqc. unfold y. rewrite P2_plus. unfold c.
      assert (E : (P2 j == P2 j * (P2 (- k) * P2 k))%Q) by (rewrite P2_opp; ring). rewrite E at 1. field. exact Hdn. }
    assert (Ay : (Qabs (y - q) == Qabs (inject_Z w * P2 (j + k) * inject_Z d - inject_Z n) * c)%Q).
    { rewrite Hyq, Qabs_Qmult, (Qabs_pos c) by (apply Qlt_le_weak; exact Hc). reflexivity. }
    rewrite Ax, Ay. destruct (0 <=? j + k) eqn:E.
    + (* the other one is a whole number of units of [x] *)
      set (z := w * 2 ^ (j + k)).
      assert (Ez : (inject_Z w * P2 (j + k) * inject_Z d - inject_Z n == inject_Z (z * d - n))%Q).
      { rewrite P2_Z by lia. unfold z. rewrite inject_minus, !inject_Z_mult. reflexivity. }
      rewrite Ez, Qabs_Z. destruct (half_even_near n d z Hd) as [H1 H2]. fold m in H1, H2. split.
      * apply Qmult_le_compat_r; [rewrite <- Zle_Qle; exact H1|apply Qlt_le_weak; exact Hc].
      * intros He. apply Qmult_inj_r in He; [|intros H0; rewrite H0 in Hc; discriminate].
        assert (He' : Z.abs (z * d - n) = Z.abs (m * d - n)) by (unfold Qeq in He; cbn in He; lia).
        destruct (H2 He') as [Hz|Hz]; [left|right; exact Hz]. rewrite Hx, <- Hz. unfold y, z. rewrite inject_Z_mult, <- P2_Z by lia.
        rewrite P2_plus, <- Qmult_assoc, <- Qmult_assoc, (Qmult_comm (P2 k)), P2_opp. ring.
    + (* the other one is smaller than a half of the least with 53 digits *)
      assert (Hz : (inject_Z w * P2 (j + k) < inject_Z (2 ^ 52))%Q).
      { assert (Hp : (P2 (j + k) <= 1 # 2)%Q).
        { change (1 # 2)%Q with (P2 (-1)). apply Qpower_le_compat_l; [lia|discriminate]. }
        pose proof (P2_pos (j + k)) as Hp0. destruct (Z_le_gt_dec w 0) as [W0|W0].
        - apply (Qle_lt_trans _ 0); [|reflexivity].
          rewrite <- (Qmult_0_l (P2 (j + k))). apply Qmult_le_compat_r; [|apply Qlt_le_weak; exact Hp0].
          change 0%Q with (inject_Z 0). rewrite <- Zle_Qle. exact W0.
        - apply (Qle_lt_trans _ (inject_Z w * (1 # 2))).
          + rewrite !(Qmult_comm (inject_Z w)). apply Qmult_le_compat_r; [exact Hp|]. apply Qlt_le_weak, inject_pos. lia.
          + unfold Qlt, inject_Z. cbn [Qmult Qnum Qden]. rewrite !Z.mul_1_r. change (2 ^ 53) with (2 ^ 52 * 2) in Hw. change (QDen (w * 1 # 1 * 2)) with 2.
            generalize dependent (2 ^ 52). intros t. lia. }
      assert (Hs : (inject_Z (Z.abs (m * d - n)) < Qabs (inject_Z w * P2 (j + k) * inject_Z d - inject_Z n))%Q).
      { destruct (half_even_near n d (2 ^ 52) Hd) as [H1 _]. fold m in H1.
        apply (Qle_lt_trans _ (inject_Z (n - 2 ^ 52 * d))); [rewrite <- Zle_Qle; lia|].
        apply (Qlt_le_trans _ (- (inject_Z w * P2 (j + k) * inject_Z d - inject_Z n))).
        - rewrite inject_minus, inject_Z_mult.
          assert (inject_Z w * P2 (j + k) * inject_Z d < inject_Z (2 ^ 52) * inject_Z d)%Q by (apply Qmult_lt_compat_r; assumption).
          generalize dependent (inject_Z w * P2 (j + k) * inject_Z d)%Q. intros u. generalize (inject_Z (2 ^ 52) * inject_Z d)%Q. intros. lra.
        - rewrite <- Qabs_opp. apply Qle_Qabs. }
      assert (Hm : (inject_Z (Z.abs (m * d - n)) * c < Qabs (inject_Z w * P2 (j + k) * inject_Z d - inject_Z n) * c)%Q) by (apply Qmult_lt_compat_r; assumption).
      split; [apply Qlt_le_weak; exact Hm|]. intros He. rewrite He in Hm. apply Qlt_irrefl in Hm. contradiction.
Qed.

Lemma rnd_zero q : (q == 0)%Q -> rnd q = 0%Q.
Proof. intros H. unfold rnd. destruct q as [[|a|a] b]; cbn [Qnum]; [reflexivity|unfold Qeq in H; cbn in H; lia..]. Qed.
(** Up to the sign, [rnd] is [rnd_pos]. *)
Lemma rnd_sign q : ~ (q == 0)%Q -> exists a b, 0 < a /\ 0 < b
  /\ ((q == inject_Z a / inject_Z b)%Q /\ rnd q = rnd_pos a b \/ (q == - (inject_Z a / inject_Z b))%Q /\ rnd q = (- rnd_pos a b)%Q).
Proof.
  intros H. destruct q as [[|a|a] b]; [exfalso; apply H; reflexivity| |]; exists (Zpos a), (Zpos b); (split; [lia|]); (split; [lia|]).
  - left. split; [unfold Qeq; cbn; lia|reflexivity].
  - right. split; [unfold Qeq; cbn; lia|reflexivity].
Qed.
Lemma neg_diff x q : (Qabs (- x - - q) == Qabs (x - q))%Q.
Proof. rewrite <- Qabs_opp. apply Qabs_wd. ring. Qed.
Lemma neg_diff2 y q : (Qabs (y - - q) == Qabs (- y - q))%Q.
Proof. rewrite <- Qabs_opp. apply Qabs_wd. ring. Qed.

Lemma near_any q : ~ (q == 0)%Q -> let x := rnd q in
  exists m k, 2 ^ 52 <= Z.abs m <= 2 ^ 53 /\ (x == inject_Z m * P2 (- k))%Q
    /\ (inject_Z (2 ^ 52) <= Qabs q * P2 k)%Q /\ (Qabs q * P2 k < inject_Z (2 ^ 53))%Q
    /\ (Qabs (x - q) * inject_Z (2 ^ 53) <= Qabs q)%Q /\ ((2 # 1) * Qabs (x - q) <= P2 (- k))%Q
    /\ forall w j, Z.abs w < 2 ^ 53 -> let y := (inject_Z w * P2 j)%Q in
       (Qabs (x - q) <= Qabs (y - q))%Q /\ ((Qabs (y - q) == Qabs (x - q))%Q -> (y == x)%Q \/ Z.even m = true).
Proof.
  intros Hq x. destruct (rnd_sign q Hq) as (a & b & Ha & Hb & C).
  assert (Pos : (0 <= inject_Z a / inject_Z b)%Q).
  { apply Qle_shift_div_l; [apply inject_pos, Hb|]. rewrite Qmult_0_l. apply Qlt_le_weak, inject_pos, Ha. }
  destruct (near_pos a b Ha Hb) as (m & k & Hm & Hx & H1 & H2 & H3 & H3' & H4). cbv zeta in *.
  destruct C as [[Eq Ex]|[Eq Ex]]; unfold x; rewrite Ex.
  - exists m, k. split; [lia|]. split; [exact Hx|]. assert (Ea : (Qabs q == inject_Z a / inject_Z b)%Q) by (rewrite Eq; apply Qabs_pos, Pos).
    rewrite Ea. split; [exact H1|]. split; [exact H2|]. split; [rewrite Eq; exact H3|]. split; [rewrite Eq; exact H3'|]. intros w j Hw. rewrite !Eq. apply H4, Hw.
  - exists (- m), k. split; [lia|]. split; [rewrite Hx, inject_Z_opp; ring|].
    assert (Ea : (Qabs q == inject_Z a / inject_Z b)%Q) by (rewrite Eq, Qabs_opp; apply Qabs_pos, Pos).
    rewrite Ea. split; [exact H1|]. split; [exact H2|]. split; [rewrite Eq, neg_diff; exact H3|]. split; [rewrite Eq, neg_diff; exact H3'|]. intros w j Hw. rewrite !Eq, neg_diff, neg_diff2.
    assert (E : (- (inject_Z w * P2 j) == inject_Z (- w) * P2 j)%Q) by (rewrite inject_Z_opp; ring).
    destruct (H4 (- w) j ltac:(lia)) as [G1 G2]. rewrite E. split; [exact G1|]. intros He. destruct (G2 He) as [G|G]; [left|right].
    + rewrite <- G, inject_Z_opp. ring.
    + rewrite Z.even_opp. exact G.
Qed.

Lemma C64_nearest_pf : forall q,
  (q == 0 \/ (2 # 1) ^ (-1022) <= Qabs q <= (2 # 1) ^ 1022)%Q -> nearest_double q (rnd q).
Proof.
  intros q [Hq|[Hl Hu]].
  - rewrite (rnd_zero q Hq). assert (Hz : (Qabs (0 - q) == 0)%Q) by (rewrite Hq; reflexivity). split; [|split].
    + exists 0, 0. split; [reflexivity|]. split; [lia|reflexivity].
    + intros y _. rewrite Hz. apply Qabs_nonneg.
    + intros y _. rewrite Hz, Hq. intros H. left. revert H. apply Qabs_case; intros _ H; [rewrite <- H|rewrite <- (Qopp_involutive y)]; lra.
  - assert (Hnz : ~ (q == 0)%Q).
    { intros H. rewrite H in Hl. change (Qabs 0) with 0%Q in Hl. pose proof (P2_pos (-1022)) as Hp. apply (Qlt_not_le _ _ Hp Hl). }
    destruct (near_any q Hnz) as (m & k & Hm & Hx & H1 & H2 & _ & _ & H3). cbv zeta in *.
    assert (K : -970 <= k <= 1074).
    { pose proof (P2_pos k) as Pk. split.
      - apply Z.nlt_ge. intros Hk. apply (Qlt_not_le _ _ (P2_pos 0)).
        assert (A : (P2 52 <= P2 1022 * P2 k)%Q).
        { rewrite (P2_Z 52) by lia. eapply Qle_trans; [exact H1|]. apply Qmult_le_compat_r; [exact Hu|]. apply Qlt_le_weak, Pk. }
        rewrite <- P2_plus in A. apply Qpower_le_compat_l_inv in A; [lia|reflexivity].
      - apply Z.nlt_ge. intros Hk.
        assert (A : (P2 (-1022) * P2 k < P2 53)%Q).
        { rewrite (P2_Z 53) by lia. eapply Qle_lt_trans; [|exact H2]. apply Qmult_le_compat_r; [exact Hl|]. apply Qlt_le_weak, Pk. }
        rewrite <- P2_plus in A. apply Qpower_lt_compat_l_inv in A; [lia|reflexivity]. }
    assert (Half : Z.abs m = 2 ^ 53 -> exists m', m = 2 * m' /\ Z.abs m' = 2 ^ 52).
    { intros E. exists (Z.sgn m * 2 ^ 52). change (2 ^ 53) with (2 * 2 ^ 52) in E. generalize dependent (2 ^ 52). intros t. nia. }
    assert (Dbl : forall m', m = 2 * m' -> (rnd q == inject_Z m' * P2 (- k + 1))%Q).
    { intros m' ->. rewrite Hx, P2_plus, inject_Z_mult. change (P2 1) with (2 # 1)%Q. change (inject_Z 2) with (2 # 1)%Q. ring. }
    split; [|split].
    + destruct (Z.eq_dec (Z.abs m) (2 ^ 53)) as [E|E].
      * destruct (Half E) as (m' & Em & Em'). exists m', (- k + 1). split; [lia|]. split; [lia|]. apply Dbl, Em.
      * exists m, (- k). split; [lia|]. split; [lia|exact Hx].
    + intros y (w & j & Hw & _ & Hy). rewrite Hy. apply H3, Hw.
    + intros y (w & j & Hw & _ & Hy) He. rewrite Hy in He |- *. destruct (proj2 (H3 w j Hw) He) as [G|G]; [left; exact G|right].
      destruct (Z.eq_dec (Z.abs m) (2 ^ 53)) as [E|E].
      * destruct (Half E) as (m' & Em & Em'). exists m', (- k + 1). split; [|split; [lia|split; [lia|apply Dbl, Em]]].
        rewrite <- Z.even_opp. destruct (Z.abs_eq_or_opp m') as [A|A]; [rewrite Z.even_opp, <- A, Em'; reflexivity|rewrite <- A, Em'; reflexivity].
      * exists m, (- k). split; [exact G|]. split; [lia|]. split; [lia|exact Hx].
Qed.

(** ** What follows from being nearest *)
Definition flt (x : Q) : Prop := exists w j, Z.abs w < 2 ^ 53 /\ (x == inject_Z w * P2 j)%Q.
Lemma flt_Z z : Z.abs z < 2 ^ 53 -> flt (inject_Z z).
Proof. intros H. exists z, 0. split; [exact H|]. change (P2 0) with 1%Q. ring. Qed.
Lemma flt_rnd q : flt (rnd q).
Proof.
  destruct (Qeq_dec q 0) as [E|E]; [rewrite (rnd_zero q E); exact (flt_Z 0 ltac:(reflexivity))|].
  destruct (near_any q E) as (m & k & Hm & Hx & _). cbv zeta in *. destruct (Z.eq_dec (Z.abs m) (2 ^ 53)) as [A|A].
  - exists (Z.sgn m * 2 ^ 52), (- k + 1). split.
    + rewrite Z.abs_mul. change (Z.abs (2 ^ 52)) with (2 ^ 52). change (2 ^ 53) with (2 * 2 ^ 52). assert (Z.abs (Z.sgn m) <= 1) by lia.
      assert (0 < 2 ^ 52) by reflexivity. generalize dependent (2 ^ 52). intros t. nia.
    + rewrite Hx, P2_plus. change (P2 1) with (inject_Z 2). assert (Em : m = 2 * (Z.sgn m * 2 ^ 52)).
      { change (2 ^ 53) with (2 * 2 ^ 52) in A. generalize dependent (2 ^ 52). intros t. lia. }
      rewrite Em at 1. rewrite inject_Z_mult. ring.
  - exists m, (- k). split; [lia|exact Hx].
Qed.
Lemma near_flt q y : flt y -> (Qabs (rnd q - q) <= Qabs (y - q))%Q.
Proof.
  intros (w & j & Hw & Hy). destruct (Qeq_dec q 0) as [E|E].
  - rewrite (rnd_zero q E). assert (Hz : (0 - q == 0)%Q) by lra. rewrite Hz. apply Qabs_nonneg.
  - destruct (near_any q E) as (m & k & _ & _ & _ & _ & _ & _ & H). rewrite Hy. apply H, Hw.
Qed.
Lemma abs_le x y : (Qabs x <= y)%Q <-> (- y <= x <= y)%Q.
Proof. apply Qabs_Qle_condition. Qed.
Lemma rnd_le q h : flt h -> (q <= h)%Q -> (rnd q <= h)%Q.
Proof.
  intros Hh Hq. pose proof (near_flt q h Hh) as H. rewrite (Qabs_pos (h - q)) in H by lra. apply abs_le in H. lra.
Qed.
Lemma rnd_ge q h : flt h -> (h <= q)%Q -> (h <= rnd q)%Q.
Proof.
  intros Hh Hq. pose proof (near_flt q h Hh) as H. rewrite (Qabs_neg (h - q)) in H by lra. apply abs_le in H. lra.
Qed.
Lemma rnd_flt q : flt q -> (rnd q == q)%Q.
Proof. intros H. apply Qle_antisym; [apply rnd_le|apply rnd_ge]; try exact H; apply Qle_refl. Qed.
Lemma rnd_eq q y : flt y -> (q == y)%Q -> (rnd q == y)%Q.
Proof. intros H E. rewrite <- E. apply rnd_flt. destruct H as (w & j & Hw & Hy). exists w, j. rewrite E. auto. Qed.
Lemma rnd_rel q : (0 <= q)%Q -> (q * (1 - (1 # 9007199254740992)) <= rnd q <= q * (1 + (1 # 9007199254740992)))%Q.
Proof.
  intros Hq. destruct (Qeq_dec q 0) as [E|E]; [rewrite (rnd_zero q E); lra|].
  destruct (near_any q E) as (m & k & _ & _ & _ & _ & H & _). cbv zeta in H.
  rewrite (Qabs_pos q Hq) in H. change (inject_Z (2 ^ 53)) with (9007199254740992 # 1)%Q in H.
  assert (H' : (Qabs (rnd q - q) <= q * (1 # 9007199254740992))%Q) by lra. apply abs_le in H'. lra.
Qed.

(** Quotients of counts *)
Lemma div_01 c n : 0 <= c <= n -> 0 < n -> (0 <= inject_Z c / inject_Z n <= 1)%Q.
Proof.
  intros Hc Hn. pose proof (inject_pos n Hn) as Qn. split.
  - apply Qle_shift_div_l; [exact Qn|]. rewrite Qmult_0_l. change 0%Q with (inject_Z 0). rewrite <- Zle_Qle. lia.
  - apply Qle_shift_div_r; [exact Qn|]. rewrite Qmult_1_l, <- Zle_Qle. lia.
Qed.
Lemma div_low c n : 0 < c -> 0 < n < 2 ^ 53 -> ((1 # 9007199254740992) <= inject_Z c / inject_Z n)%Q.
Proof.
  intros Hc [Hn Hn2]. pose proof (inject_pos n Hn) as Qn. apply Qle_shift_div_l; [exact Qn|].
  assert (A : (inject_Z n <= 9007199254740992 # 1)%Q) by (unfold Qle; cbn; change (2 ^ 53) with 9007199254740992 in Hn2; lia).
  assert (B : (1 <= inject_Z c)%Q) by (change 1%Q with (inject_Z 1); rewrite <- Zle_Qle; lia). lra.
Qed.
Lemma div_one c n : 0 <= c < n -> n < 2 ^ 53 -> (inject_Z c / inject_Z n <= 1 - (1 # 9007199254740992))%Q.
Proof.
  intros Hc Hn. pose proof (inject_pos n ltac:(lia)) as Qn. apply Qle_shift_div_r; [exact Qn|].
  assert (A : (inject_Z n <= 9007199254740992 # 1)%Q) by (unfold Qle; cbn; change (2 ^ 53) with 9007199254740992 in Hn; lia).
  assert (B : (inject_Z c <= inject_Z n - 1)%Q) by (change 1%Q with (inject_Z 1); rewrite <- inject_minus, <- Zle_Qle; lia). lra.
Qed.
Lemma div_eq1 n : 0 < n -> (inject_Z n / inject_Z n == 1)%Q.
Proof. intros H. field. intros E. pose proof (inject_pos n H) as Hn. rewrite E in Hn. discriminate. Qed.

Lemma rnd_pos_iff q : (0 <= q)%Q -> (0 <= rnd q)%Q /\ ((rnd q == 0)%Q <-> (q == 0)%Q).
Proof. intros H. pose proof (rnd_rel q H). split; [lra|]. split; intros; [lra|]. rewrite rnd_zero by assumption. reflexivity. Qed.
Lemma in_range q : (1 # 9007199254740992 <= q)%Q -> (q <= 9007199254740994 # 1)%Q -> ((2 # 1) ^ (-1022) <= Qabs q <= (2 # 1) ^ 1022)%Q.
Proof.
  intros H1 H2. rewrite Qabs_pos by lra. split.
  - apply (Qle_trans _ ((2 # 1) ^ (-53))); [apply Qpower_le_compat_l; [lia|discriminate]|]. exact H1.
  - apply (Qle_trans _ ((2 # 1) ^ 54)); [|apply Qpower_le_compat_l; [lia|discriminate]]. eapply Qle_trans; [exact H2|]. discriminate.
Qed.

Lemma all_shifts {L} (tb : timeboard L) l : asc l -> (forall i, In i l -> is_shift tb i) -> zlen l <= Z.max 0 (tb_len tb).
Proof.
  intros Ha Hl. apply (Z.le_trans _ (zlen (zrange 0 (Z.to_nat (tb_len tb))))).
  - apply asc_incl_le; [exact Ha|]. intros i Hi. apply zrange_In. pose proof (Hl i Hi) as H. unfold is_shift in H. lia.
  - rewrite zlen_zrange. lia.
Qed.

Lemma C64_portion_pf : forall (L : Type) (tb : timeboard L) (x y : interval L) d s,
  reachable tb -> iv_of tb x -> iv_of tb y -> d = DOn \/ d = DOff \/ d = DAny ->
  (forall s', s = Some s' -> sched_for tb s') -> tb_len tb < 2 ^ 53 ->
  exists r q, what_portion_fl tb x y d s = Ok r /\ what_portion_of tb x y d s = Ok q
    /\ nearest_double q r /\ (0 <= r <= 1)%Q /\ ((r == 0)%Q <-> (q == 0)%Q) /\ ((r == 1)%Q <-> (q == 1)%Q).
Proof.
  intros L tb x y d s Hr Hx Hy Hd Hs Hlen. apply reachable_wf in Hr. destruct Hr as (W & _ & _).
  destruct (portion_by tb W x y d s Hx Hy Hd (iv_sched_for tb x s Hx Hs)) as (z & _ & _ & _ & _ & _ & Hle & Hq).
  set (cz := zlen (iv_list tb z d _)) in *. set (cy := zlen (iv_list tb y d _)) in *.
  assert (Hcy : cy < 2 ^ 53).
  { apply (Z.le_lt_trans _ (Z.max 0 (tb_len tb))); [|apply Z.max_lub_lt; [reflexivity|exact Hlen]].
    apply all_shifts; [apply iv_list_asc|]. intros i. apply iv_list_shifts, Hy. }
  unfold what_portion_fl, what_portion_of. rewrite !Hq. destruct (cz =? 0) eqn:E.
  - exists 0%Q, 0%Q. split; [reflexivity|]. split; [reflexivity|]. split; [apply (C64_nearest_pf 0); left; reflexivity|].
    split; [lra|]. split; [tauto|tauto].
  - unfold float_div, q_div. destruct (cy =? 0) eqn:E2; [lia|]. set (q := (inject_Z cz / inject_Z cy)%Q).
    exists (rnd q), q. split; [reflexivity|]. split; [reflexivity|].
    assert (B : (0 <= q <= 1)%Q) by (apply div_01; lia). assert (B2 : ((1 # 9007199254740992) <= q)%Q) by (apply div_low; lia).
    split; [apply C64_nearest_pf; right; apply in_range; lra|].
    pose proof (rnd_pos_iff q (proj1 B)) as [P1 P2].
    split; [split; [exact P1|apply rnd_le; [apply (flt_Z 1); reflexivity|apply B]]|]. split; [exact P2|]. split; intros H.
    + destruct (Z.eq_dec cz cy) as [Ec|Ec]; [unfold q; rewrite Ec; apply div_eq1; lia|]. exfalso.
      assert (B3 : (q <= 1 - (1 # 9007199254740992))%Q) by (apply div_one; lia).
      assert (F : flt (1 - (1 # 9007199254740992))).
      { exists (2 ^ 53 - 1), (-53). split; reflexivity. }
      pose proof (rnd_le q _ F B3). lra.
    + apply rnd_eq; [apply (flt_Z 1); reflexivity|exact H].
Qed.

(** ** Sums of quotients *)
Lemma two_sums q0 q1 f : (0 <= q0 <= 1)%Q -> (0 <= q1 <= 1)%Q -> 0 <= f < 2 ^ 53 ->
  let q := (q0 + q1 + inject_Z f)%Q in
  let x := float_add (float_add (rnd q0) (rnd q1)) (inject_Z f) in
  (0 <= x)%Q /\ (Qabs (x - q) * inject_Z (2 ^ 51) <= Qabs q)%Q
  /\ ((1 # 9007199254740992) <= q0 -> is_double x)%Q
  /\ ((q0 == 1)%Q -> (q1 == 1)%Q -> f < 2 ^ 53 - 2 -> (x == q)%Q).
Proof.
  intros H0 H1 Hf q x. unfold float_add in x.
  assert (F1 : flt 1) by (apply (flt_Z 1); reflexivity).
  pose proof (rnd_rel q0 (proj1 H0)) as R0. pose proof (rnd_rel q1 (proj1 H1)) as R1.
  pose proof (rnd_le q0 1 F1 (proj2 H0)) as L0. pose proof (rnd_le q1 1 F1 (proj2 H1)) as L1.
  pose proof (rnd_flt (rnd q0) (flt_rnd q0)) as E0. pose proof (rnd_flt (rnd q1) (flt_rnd q1)) as E1.
  set (S := (rnd (rnd q0) + rnd (rnd q1))%Q) in *.
  assert (HS : (0 <= S)%Q) by (unfold S; lra). pose proof (rnd_rel S HS) as RS.
  pose proof (rnd_le S (inject_Z 2) (flt_Z 2 ltac:(reflexivity))) as LS. change (inject_Z 2) with (2 # 1)%Q in LS.
  pose proof (rnd_flt (rnd S) (flt_rnd S)) as ES. pose proof (rnd_flt (inject_Z f) (flt_Z f ltac:(lia))) as Ef.
  set (T := (rnd (rnd S) + rnd (inject_Z f))%Q) in *.
  assert (Hf0 : (0 <= inject_Z f)%Q) by (change 0%Q with (inject_Z 0); rewrite <- Zle_Qle; lia).
  assert (HT : (0 <= T)%Q) by (unfold T; lra). pose proof (rnd_rel T HT) as RT. fold x in RT.
  assert (Hq : (0 <= q)%Q) by (unfold q; lra).
  split; [lra|]. split; [|split].
  - rewrite (Qabs_pos q Hq). change (inject_Z (2 ^ 51)) with (2251799813685248 # 1)%Q.
    assert (A : (Qabs (x - q) <= q * (1 # 2251799813685248))%Q); [|lra]. apply abs_le.
    assert (TT : (T == rnd S + inject_Z f)%Q) by (unfold T; rewrite ES, Ef; reflexivity).
    assert (SS : (S == rnd q0 + rnd q1)%Q) by (unfold S; rewrite E0, E1; reflexivity).
    revert R0 R1 RS RT TT SS H0 H1 Hf0. unfold q. clear. generalize (rnd q0) as x0, (rnd q1) as x1, (rnd S) as y, (inject_Z f) as ff. clearbody x T S.
    intros x0 x1 y ff R0 R1 RS RT TT SS H0 H1 Hf0. split; nra.
  - intros Hl. apply (C64_nearest_pf T). right. apply in_range.
    + assert (Fl : flt (1 # 9007199254740992)) by (exists 1, (-53); split; reflexivity).
      pose proof (rnd_ge q0 _ Fl Hl) as G0. pose proof (rnd_ge S _ Fl ltac:(unfold S; lra)) as GS. unfold T. lra.
    + assert (Hf2 : (inject_Z f <= 9007199254740992 # 1)%Q) by (unfold Qle; cbn; change (2 ^ 53) with 9007199254740992 in Hf; lia).
      unfold T. assert (S <= 2 # 1)%Q by (unfold S; lra). specialize (LS H). lra.
  - intros Q0 Q1 Hff. pose proof (rnd_eq q0 1 F1 Q0) as A0. pose proof (rnd_eq q1 1 F1 Q1) as A1.
    assert (AS : (rnd S == inject_Z 2)%Q).
    { apply rnd_eq; [apply flt_Z; reflexivity|]. unfold S. rewrite E0, E1, A0, A1. reflexivity. }
    unfold q. transitivity (inject_Z (2 + f)).
    + apply (rnd_eq T); [apply flt_Z; lia|]. unfold T. rewrite ES, AS, Ef, inject_Z_plus. reflexivity.
    + rewrite inject_Z_plus, Q0, Q1. reflexivity.
Qed.

Lemma zlen_filter_le {A} (p : A -> bool) l : zlen (filter p l) <= zlen l.
Proof. induction l as [|x l IH]; cbn [filter]; [lia|]. destruct (p x); rewrite ?zlen_cons; lia. Qed.
Lemma part_whole {L} (tb : timeboard L) fs iv d s o : iv_of tb iv ->
  0 <= part tb fs iv d s o <= whole tb fs d (sched_arg s (iv_sched iv)) o.
Proof.
  intros Hiv. split; [apply zlen_nonneg|]. apply asc_incl_le; [apply asc_filter, iv_list_asc|].
  intros i Hi. apply filter_In in Hi. destruct Hi as [Hi Hr]. apply filter_In. split; [|exact Hr].
  pose proof (iv_list_shifts tb iv d _ i Hiv Hi) as Hs. unfold iv_list in Hi. destruct (iv_void iv); [destruct Hi|].
  apply duty_list_In in Hi. apply duty_list_In. unfold is_shift in Hs. split; [lia|apply Hi].
Qed.
Lemma whole_len {L} (tb : timeboard L) fs d s o : whole tb fs d s o <= Z.max 0 (tb_len tb).
Proof.
  apply all_shifts; [apply asc_filter, duty_list_asc|]. intros i Hi. apply filter_In in Hi. destruct Hi as [Hi _].
  apply duty_list_In in Hi. unfold is_shift. lia.
Qed.
Lemma part_pos {L} (tb : timeboard L) (W : tl_wf (tb_tl tb)) fs iv d s i : iv_of tb iv ->
  In i (iv_list tb iv d (sched_arg s (iv_sched iv))) -> 0 < part tb fs iv d s (pord (fbase (to_freq fs)) (ref_of (tb_tl tb) i)).
Proof.
  intros Hiv Hi. assert (Hin : In i (filter (ref_in tb (fbase (to_freq fs)) (pord (fbase (to_freq fs)) (ref_of (tb_tl tb) i))) (iv_list tb iv d (sched_arg s (iv_sched iv))))).
  { apply filter_In. split; [exact Hi|]. apply (ref_in_ok tb W fs); [|reflexivity]. exact (iv_list_shifts tb iv d _ i Hiv Hi). }
  unfold part. destruct (filter _ _) as [|y l] eqn:E; [destruct Hin|]. rewrite zlen_cons. pose proof (zlen_nonneg l). lia.
Qed.

Lemma C64_count_pf : forall (L : Type) (tb : timeboard L) (iv : interval L) fs d s o0 o1,
  reachable tb -> iv_of tb iv -> (forall s', s = Some s' -> sched_for tb s') -> d = DOn \/ d = DOff \/ d = DAny ->
  tb_len tb < 2 ^ 53 -> touches tb iv (fbase (to_freq fs)) o0 o1 -> o1 - o0 < 2 ^ 53 - 2 ->
  let lst := iv_list tb iv d (sched_arg s (iv_sched iv)) in
  let quot := quotient tb iv (fbase (to_freq fs)) d (sched_arg s (iv_sched iv)) in
  match count_periods tb iv fs d s with
  | Err e => count_periods_fl tb iv fs d s = Err e
  | Ok q => exists x, count_periods_fl tb iv fs d s = Ok x
      /\ is_double x /\ within_part (2 ^ 51) q x /\ ((x == 0)%Q <-> (q == 0)%Q)
      /\ ((forall o, o0 <= o <= o1 -> (quot o == 0)%Q \/ (quot o == 1)%Q) -> (x == q)%Q)
      /\ (forall o, (forall i, In i lst -> ref_in tb (fbase (to_freq fs)) o i = true) -> nearest_double q x)
  end.
Proof.
  intros L tb iv fs d s p0 p1 Hr Hiv Hs Hd Hlen Ht Hp lst quot. apply reachable_wf in Hr. destruct Hr as (W & _ & _).
  pose proof (iv_sched_for tb iv s Hiv Hs) as Hsa.
  destruct (touches_unique _ _ _ _ _ _ _ Ht (touches_ex tb W iv (fbase (to_freq fs)) Hiv)) as [-> ->]. clear Ht.
  assert (Zero : exists x, Ok 0%Q = Ok x /\ is_double x /\ within_part (2 ^ 51) 0 x /\ ((x == 0)%Q <-> (0 == 0)%Q)
     /\ (forall P : Prop, P -> (x == 0)%Q) /\ nearest_double 0 x).
  { assert (N : nearest_double 0 0) by (apply (C64_nearest_pf 0); left; reflexivity).
    exists 0%Q. split; [reflexivity|]. split; [apply N|]. split; [unfold within_part; discriminate|]. split; [tauto|]. split; [reflexivity|exact N]. }
  unfold count_periods, count_periods_fl.
  destruct (iv_void iv) eqn:Hv.
  { unfold count_periods_by. rewrite Hv. destruct Zero as (x & A & B & C & D & E & F). exists x. repeat (split; [assumption|]). split; [apply E|]. intros _ _. exact F. }
  destruct (supported_period fs) eqn:Hsup; [|unfold count_periods_by; rewrite Hv, Hsup; reflexivity].
  destruct lst as [|y l0] eqn:El; unfold lst in El.
  { rewrite !(empty_zero tb W fs iv d s Hsup Hiv Hv Hd Hsa _ _ El).
    destruct Zero as (x & A & B & C & D & E & F). exists x. repeat (split; [assumption|]). split; [apply E|]. intros _ _. exact F. }
  destruct (list_ends (y :: l0)) as (f & l & Hf & Hl); [discriminate|]. rewrite <- El in *.
  destruct (first_last_list _ f l (iv_list_asc tb iv d _) Hf Hl) as (If & Il & Hfl). clear Hf Hl.
  destruct (mapM (fun i => period_entry tb d (sched_arg s (iv_sched iv)) (mkPeriod (to_freq fs) (unit_ord (mkFrame fs
      (pord (fbase (to_freq fs)) (unit_start (tl_frame (tb_tl tb)) (bnd (tb_tl tb) (iv_a iv))))
      (pord (fbase (to_freq fs)) (unit_start (tl_frame (tb_tl tb)) (bnd (tb_tl tb) (iv_b iv + 1)) - 1)
       - pord (fbase (to_freq fs)) (unit_start (tl_frame (tb_tl tb)) (bnd (tb_tl tb) (iv_a iv))) + 1)) i)))
      (zrange 0 (Z.to_nat (pord (fbase (to_freq fs)) (unit_start (tl_frame (tb_tl tb)) (bnd (tb_tl tb) (iv_b iv + 1)) - 1)
       - pord (fbase (to_freq fs)) (unit_start (tl_frame (tb_tl tb)) (bnd (tb_tl tb) (iv_a iv))) + 1)))) as [entries|e] eqn:E.
  2:{ rewrite !(count_unfold tb W fs iv d s Hsup Hiv Hv Hd Hsa f l If Il Hfl), E. reflexivity. }
  rewrite !(count_entries_by tb W fs iv d s Hsup Hiv Hv Hd Hsa f l If Il Hfl _ _ entries E).
  pose proof (K_range tb W fs iv d s Hsup Hiv Hv f l If Il Hfl) as HK.
  set (b := fbase (to_freq fs)) in *. set (K0 := pord b (ref_of (tb_tl tb) f)) in *. set (K1 := pord b (ref_of (tb_tl tb) l)) in *.
  set (o0 := pord b (unit_start (tl_frame (tb_tl tb)) (bnd (tb_tl tb) (iv_a iv)))) in *.
  set (o1 := pord b (unit_start (tl_frame (tb_tl tb)) (bnd (tb_tl tb) (iv_b iv + 1)) - 1)) in *. clearbody o0 o1.
  pose proof (part_pos tb W fs iv d s f Hiv If) as P0. pose proof (part_pos tb W fs iv d s l Hiv Il) as P1.
  fold b K0 in P0. fold b K1 in P1.
  pose proof (part_whole tb fs iv d s K0 Hiv) as W0. pose proof (part_whole tb fs iv d s K1 Hiv) as W1.
  pose proof (whole_len tb fs d (sched_arg s (iv_sched iv)) K0) as M0. pose proof (whole_len tb fs d (sched_arg s (iv_sched iv)) K1) as M1.
  pose proof (quotient_part tb fs iv d s) as Hqp. fold b in Hqp. fold quot in Hqp.
  assert (Hlen' : Z.max 0 (tb_len tb) < 2 ^ 53) by (apply Z.max_lub_lt; [reflexivity|exact Hlen]).
  set (w0 := whole tb fs d (sched_arg s (iv_sched iv)) K0) in *. set (w1 := whole tb fs d (sched_arg s (iv_sched iv)) K1) in *.
  set (a0 := part tb fs iv d s K0) in *. set (a1 := part tb fs iv d s K1) in *.
  pose proof (Hqp K0) as Q0. pose proof (Hqp K1) as Q1. fold w0 a0 in Q0. fold w1 a1 in Q1.
  replace (w0 =? 0) with false in Q0 by (symmetry; lia). replace (w1 =? 0) with false in Q1 by (symmetry; lia).
  unfold q_div, float_div. replace (w0 =? 0) with false by (symmetry; lia). replace (w1 =? 0) with false by (symmetry; lia). cbn [bind].
  set (q0 := (inject_Z a0 / inject_Z w0)%Q) in *. set (q1 := (inject_Z a1 / inject_Z w1)%Q) in *.
  assert (B0 : (0 <= q0 <= 1)%Q) by (apply div_01; lia). assert (B1 : (0 <= q1 <= 1)%Q) by (apply div_01; lia).
  assert (C0 : ((1 # 9007199254740992) <= q0)%Q) by (apply div_low; lia). assert (C1 : ((1 # 9007199254740992) <= q1)%Q) by (apply div_low; lia).
  assert (Hone : (forall o, o0 <= o <= o1 -> (quot o == 0)%Q \/ (quot o == 1)%Q) -> (q0 == 1)%Q /\ (q1 == 1)%Q).
  { intros H. destruct (H K0 ltac:(lia)) as [A|A]; rewrite Q0 in A; [lra|]. destruct (H K1 ltac:(lia)) as [A1|A1]; rewrite Q1 in A1; [lra|]. auto. }
  destruct (K0 =? K1) eqn:EK.
  - exists (rnd q0). split; [reflexivity|].
    assert (N : nearest_double q0 (rnd q0)) by (apply C64_nearest_pf; right; apply in_range; lra).
    split; [apply N|]. pose proof (rnd_rel q0 (proj1 B0)) as R. split; [|split; [|split]].
    + unfold within_part. rewrite (Qabs_pos q0) by lra. change (inject_Z (2 ^ 51)) with (2251799813685248 # 1)%Q.
      assert (A : (Qabs (rnd q0 - q0) <= q0 * (1 # 2251799813685248))%Q) by (apply abs_le; split; lra). lra.
    + apply rnd_pos_iff. lra.
    + intros H. apply rnd_flt. exists 1, 0. split; [reflexivity|]. apply (Hone H).
    + intros _ _. exact N.
  - set (fb := full_between tb fs iv d s f l).
    assert (Hfb : 0 <= fb <= K1 - 1 - K0).
    { unfold fb, full_between. fold b. fold K0 K1. split; [apply zlen_nonneg|].
      apply (Z.le_trans _ (zlen (positions (K0 + 1) (K1 - 1)))); [|rewrite zlen_positions by lia; lia].
      apply zlen_filter_le. }
    destruct (two_sums q0 q1 fb B0 B1 ltac:(lia)) as (T1 & T2 & T3 & T4). cbv zeta in *.
    exists (float_add (float_add (rnd q0) (rnd q1)) (inject_Z fb)). split; [reflexivity|]. split; [apply T3, C0|]. split; [exact T2|]. split; [|split].
    + assert (Hfq : (0 <= inject_Z fb)%Q) by (change 0%Q with (inject_Z 0); rewrite <- Zle_Qle; lia).
      set (q := (q0 + q1 + inject_Z fb)%Q) in *. assert (Hq : (0 < q)%Q) by (unfold q; lra).
      rewrite (Qabs_pos q) in T2 by lra. change (inject_Z (2 ^ 51)) with (2251799813685248 # 1)%Q in T2.
      set (x := float_add _ (inject_Z fb)) in *.
      assert (A : (Qabs (x - q) <= q * (1 # 2251799813685248))%Q) by lra. apply abs_le in A. split; intros; lra.
    + intros H. destruct (Hone H). apply T4; try assumption. lia.
    + intros o Ho. exfalso. pose proof (Ho f If) as F. pose proof (Ho l Il) as F'.
      apply (ref_in_ok tb W fs o f (iv_list_shifts tb iv d _ f Hiv If)) in F. apply (ref_in_ok tb W fs o l (iv_list_shifts tb iv d _ l Hiv Il)) in F'.
      fold b K0 in F. fold b K1 in F'. lia.
Qed.

(** ** Portions that complete each other *)
Lemma P2_le j k : j <= k -> (P2 j <= P2 k)%Q.
Proof. intros H. apply Qpower_le_compat_l; [exact H|discriminate]. Qed.
Lemma P2_le_inv j k : (P2 j < P2 k)%Q -> j < k.
Proof. intros H. apply Qpower_lt_compat_l_inv in H; [exact H|reflexivity]. Qed.

(** The exponent, of numbers between two powers of two. *)
Lemma exponent q k e : (P2 e <= q)%Q -> (q < P2 (e + 1))%Q -> (inject_Z (2 ^ 52) <= q * P2 k)%Q -> (q * P2 k < inject_Z (2 ^ 53))%Q -> k = 52 - e.
Proof.
  intros H1 H2 H3 H4. pose proof (P2_pos k) as Hk. rewrite <- P2_Z in H3, H4 by lia.
  assert (A : (P2 e * P2 k < P2 53)%Q) by (eapply Qle_lt_trans; [apply Qmult_le_compat_r; [exact H1|lra]|exact H4]).
  assert (B : (P2 52 < P2 (e + 1) * P2 k)%Q) by (eapply Qle_lt_trans; [exact H3|apply Qmult_lt_compat_r; assumption]).
  rewrite <- P2_plus in A, B. apply P2_le_inv in A, B. lia.
Qed.

Lemma near_one S : (1 - (1 # 18014398509481984) <= S)%Q -> (S <= 1 + (1 # 18014398509481984))%Q -> (rnd S == 1)%Q.
Proof.
  intros Hl Hu. assert (Hnz : ~ (S == 0)%Q) by (intros E; rewrite E in Hl; apply Hl; reflexivity).
  destruct (near_any S Hnz) as (m & k & Hm & Hx & H1 & H2 & _ & _ & H). cbv zeta in *.
  rewrite (Qabs_pos S) in H1, H2 by lra. set (x := rnd S) in *.
  destruct (Qlt_le_dec S 1) as [C|C].
  - assert (Ek : k = 53).
    { apply (exponent S k (-1)); try assumption. change (P2 (-1)) with (1 # 2)%Q. lra. }
    subst k. destruct (H 1 0 ltac:(reflexivity)) as [A B]. change (inject_Z 1 * P2 0)%Q with 1%Q in A, B.
    rewrite (Qabs_pos (1 - S)) in A, B by lra. change (P2 (- (53))) with (1 # 9007199254740992)%Q in Hx.
    pose proof A as A'. apply abs_le in A'.
    assert (M1 : (inject_Z (2 ^ 53 - 1) <= inject_Z m)%Q) by (change (inject_Z (2 ^ 53 - 1)) with (9007199254740991 # 1)%Q; lra).
    assert (M2 : (inject_Z m <= inject_Z (2 ^ 53))%Q) by (change (inject_Z (2 ^ 53)) with (9007199254740992 # 1)%Q; lra).
    rewrite <- Zle_Qle in M1, M2. destruct (Z.eq_dec m (2 ^ 53)) as [E|E]; [rewrite Hx, E; reflexivity|].
    assert (E' : m = 2 ^ 53 - 1) by lia. rewrite E' in Hx, B. change (inject_Z (2 ^ 53 - 1)) with (9007199254740991 # 1)%Q in Hx.
    assert (Ex : (x - S == - (1 - S))%Q \/ (x - S == 1 - S)%Q) by (destruct (Qlt_le_dec (x - S) 0); [left|right]; lra).
    destruct B as [B|B]; [|lra|discriminate B]. destruct Ex as [Ex|Ex]; rewrite Ex; [rewrite Qabs_opp|]; rewrite Qabs_pos by lra; reflexivity.
  - assert (Ek : k = 52).
    { apply (exponent S k 0); try assumption. change (P2 (0 + 1)) with (2 # 1)%Q. lra. }
    subst k. destruct (H 1 0 ltac:(reflexivity)) as [A _]. change (inject_Z 1 * P2 0)%Q with 1%Q in A.
    rewrite (Qabs_neg (1 - S)) in A by lra. change (P2 (- (52))) with (1 # 4503599627370496)%Q in Hx. apply abs_le in A.
    assert (M1 : (inject_Z (2 ^ 52) <= inject_Z m)%Q) by (change (inject_Z (2 ^ 52)) with (4503599627370496 # 1)%Q; lra).
    assert (M2 : (inject_Z m < inject_Z (2 ^ 52 + 1))%Q) by (change (inject_Z (2 ^ 52 + 1)) with (4503599627370497 # 1)%Q; lra).
    rewrite <- Zle_Qle in M1. rewrite <- Zlt_Qlt in M2. assert (E : m = 2 ^ 52) by lia. rewrite Hx, E. reflexivity.
Qed.

Lemma halves_le a b : ((1 # 2) <= a <= 1)%Q -> (a + b == 1)%Q ->
  (1 - (1 # 18014398509481984) <= rnd a + rnd b <= 1 + (1 # 18014398509481984))%Q.
Proof.
  intros Ha Hab.
  destruct (Qlt_le_dec a 1) as [C|C].
  2:{ assert (A1 : (a == 1)%Q) by lra. assert (B0 : (b == 0)%Q) by lra. rewrite (rnd_zero b B0).
      pose proof (rnd_eq a 1 (flt_Z 1 ltac:(reflexivity)) A1) as A2. lra. }
  assert (Hnz : ~ (a == 0)%Q) by (intros E; rewrite E in Ha; destruct Ha as [Ha _]; apply Ha; reflexivity).
  destruct (near_any a Hnz) as (m & k & Hm & Hx & H1 & H2 & _ & H & _). cbv zeta in *. rewrite (Qabs_pos a) in H1, H2 by lra.
  assert (Ek : k = 53). { apply (exponent a k (-1)); try assumption. change (P2 (-1)) with (1 # 2)%Q. lra. }
  subst k. change (P2 (- (53))) with (1 # 9007199254740992)%Q in Hx, H.
  assert (H' : (Qabs (rnd a - a) <= 1 # 18014398509481984)%Q) by lra. apply abs_le in H'.
  assert (Rp : (0 < rnd a)%Q) by lra.
  assert (Mp : 0 < m).
  { rewrite Zlt_Qlt. change (inject_Z 0) with 0%Q. lra. }
  set (N := 2 ^ 53 - m). assert (HN : 0 <= N <= 2 ^ 52) by (unfold N; lia).
  assert (Er : (1 - rnd a == inject_Z N * (1 # 9007199254740992))%Q).
  { unfold N. rewrite inject_minus. change (inject_Z (2 ^ 53)) with (9007199254740992 # 1)%Q. lra. }
  assert (Fl : flt (inject_Z N * (1 # 9007199254740992) - (1 # 18014398509481984))).
  { exists (2 * N - 1), (-54). split; [change (2 ^ 53) with (2 * 2 ^ 52); lia|]. rewrite inject_minus, inject_Z_mult.
    change (P2 (-54)) with (1 # 18014398509481984)%Q. change (inject_Z 1) with 1%Q. change (inject_Z 2) with (2 # 1)%Q. lra. }
  pose proof (rnd_ge b _ Fl ltac:(lra)) as Lb.
  assert (Ub : (rnd b <= inject_Z N * (1 # 9007199254740992) + (1 # 18014398509481984))%Q).
  { destruct (Z.eq_dec N (2 ^ 52)) as [EN|EN].
    - assert (Fh : flt (1 # 2)) by (exists 1, (-1); split; reflexivity). pose proof (rnd_le b _ Fh ltac:(lra)) as L.
      rewrite EN. change (inject_Z (2 ^ 52)) with (4503599627370496 # 1)%Q. lra.
    - apply rnd_le; [|lra]. exists (2 * N + 1), (-54). split; [change (2 ^ 53) with (2 * 2 ^ 52); lia|]. rewrite inject_Z_plus, inject_Z_mult.
      change (P2 (-54)) with (1 # 18014398509481984)%Q. change (inject_Z 1) with 1%Q. change (inject_Z 2) with (2 # 1)%Q. lra. }
  lra.
Qed.

Lemma halves a b : (0 <= a)%Q -> (0 <= b)%Q -> (a + b == 1)%Q -> (float_add (rnd a) (rnd b) == 1)%Q.
Proof.
  intros Ha Hb Hab. unfold float_add. pose proof (rnd_flt (rnd a) (flt_rnd a)) as Ea. pose proof (rnd_flt (rnd b) (flt_rnd b)) as Eb.
  assert (H : (1 - (1 # 18014398509481984) <= rnd a + rnd b <= 1 + (1 # 18014398509481984))%Q).
  { destruct (Qlt_le_dec a (1 # 2)) as [C|C]; [|apply halves_le; lra].
    rewrite (Qplus_comm (rnd a)). apply halves_le; lra. }
  apply near_one; lra.
Qed.

Lemma nearest_ext q x x' : (x == x')%Q -> nearest_double q x -> nearest_double q x'.
Proof.
  intros E ((m & k & Hm & Hk & Hx) & H1 & H2). split; [exists m, k; rewrite <- E; auto|]. split.
  - intros y Hy. rewrite <- E. apply H1, Hy.
  - intros y Hy He. rewrite <- E in He. destruct (H2 y Hy He) as [A|(m' & k' & A & B & C & D)]; [left; rewrite A; exact E|right].
    exists m', k'. rewrite <- E. auto.
Qed.
Lemma nearest_opp q x : nearest_double q x -> nearest_double (- q) (- x).
Proof.
  assert (Hd : forall x, is_double x -> is_double (- x)).
  { intros y (m & k & Hm & Hk & Hx). exists (- m), k. split; [lia|]. split; [lia|]. rewrite Hx, inject_Z_opp. ring. }
  intros (Hx & H1 & H2). split; [apply Hd, Hx|]. split.
  - intros y Hy. rewrite neg_diff, neg_diff2. apply H1, Hd, Hy.
  - intros y Hy He. rewrite neg_diff, neg_diff2 in He. destruct (H2 _ (Hd y Hy) He) as [A|(m & k & A & B & C & D)]; [left; rewrite <- A; ring|right].
    exists (- m), k. split; [rewrite Z.even_opp; exact A|]. split; [lia|]. split; [lia|]. rewrite D, inject_Z_opp. ring.
Qed.

(** No two numbers with an even last digit are neighbours. *)
Lemma between_pos x y : even_double x -> even_double y -> (0 < x)%Q -> (x < y)%Q -> exists z, is_double z /\ (x < z < y)%Q.
Proof.
  intros (m & j & Em & Hm & Hj & Hx) (n & k & En & Hn & Hk & Hy) P Lt.
  pose proof (P2_pos j) as Pj. pose proof (P2_pos k) as Pk.
  assert (Mp : 0 < m).
  { rewrite Hx in P. rewrite Zlt_Qlt. change (inject_Z 0) with 0%Q. rewrite <- (Qmult_0_l (P2 j)) in P. apply Qmult_lt_r in P; assumption. }
  assert (Np : 0 < n).
  { assert (Py : (0 < y)%Q) by lra. rewrite Hy in Py. rewrite Zlt_Qlt. change (inject_Z 0) with 0%Q. rewrite <- (Qmult_0_l (P2 k)) in Py. apply Qmult_lt_r in Py; assumption. }
  assert (Hjk : j <= k).
  { apply Z.nlt_ge. intros C.
    assert (A : (y < P2 (53 + k))%Q).
    { rewrite Hy, P2_plus, (P2_Z 53) by lia. apply Qmult_lt_compat_r; [exact Pk|]. rewrite <- Zlt_Qlt. lia. }
    assert (B : (P2 (52 + j) <= x)%Q).
    { rewrite Hx, P2_plus, (P2_Z 52) by lia. apply Qmult_le_compat_r; [|lra]. rewrite <- Zle_Qle. lia. }
    pose proof (P2_le (53 + k) (52 + j) ltac:(lia)). lra. }
  exists (inject_Z (m + 1) * P2 j)%Q. split; [exists (m + 1), j; split; [|split; [exact Hj|reflexivity]]|].
  - assert (m + 1 <> 2 ^ 53); [|lia]. intros E. replace m with (2 ^ 53 - 1) in Em by lia. discriminate.
  - assert (Ey : (y == inject_Z (n * 2 ^ (k - j)) * P2 j)%Q).
    { rewrite Hy, inject_Z_mult, <- P2_Z by lia. rewrite <- Qmult_assoc, <- P2_plus. replace (k - j + j) with k by lia. reflexivity. }
    rewrite Ey, Hx in Lt |- *. apply Qmult_lt_r in Lt; [|exact Pj]. rewrite <- Zlt_Qlt in Lt.
    assert (Ev : Z.even (n * 2 ^ (k - j)) = true) by (rewrite Z.even_mul, En; reflexivity).
    assert (Hlt : m + 1 < n * 2 ^ (k - j)).
    { assert (m + 1 <> n * 2 ^ (k - j)); [|lia]. intros E. rewrite <- E, Z.even_add, Em in Ev. discriminate. }
    split; apply Qmult_lt_compat_r; try exact Pj; rewrite <- Zlt_Qlt; lia.
Qed.
Lemma unique_lt q x y : nearest_double q x -> nearest_double q y -> (x < y)%Q -> False.
Proof.
  intros Nx Ny Lt.
  assert (Main : forall q x y, nearest_double q x -> nearest_double q y -> (x < y)%Q -> (Qabs (x - q) == Qabs (y - q))%Q /\ even_double x /\ even_double y
     /\ forall z, is_double z -> (x < z < y)%Q -> False).
  { clear. intros q x y (Dx & X1 & X2) (Dy & Y1 & Y2) Lt. pose proof (X1 y Dy) as A. pose proof (Y1 x Dx) as B.
    assert (E : (Qabs (x - q) == Qabs (y - q))%Q) by (apply Qle_antisym; assumption). split; [exact E|].
    split; [destruct (X2 y Dy ltac:(symmetry; exact E)) as [C|C]; [lra|exact C]|].
    split; [destruct (Y2 x Dx E) as [C|C]; [lra|exact C]|].
    intros z Dz Hz. pose proof (X1 z Dz) as C. pose proof (Y1 z Dz) as D. clear X1 X2 Y1 Y2.
    assert (Q1 : (x - q < z - q)%Q) by lra. assert (Q2 : (z - q < y - q)%Q) by lra.
    revert C D. apply (Qabs_case (z - q)); intros Hzq C D.
    - assert ((y - q) <= z - q)%Q; [|lra]. eapply Qle_trans; [apply Qle_Qabs|exact D].
    - assert (- (x - q) <= - (z - q))%Q; [|lra]. eapply Qle_trans; [|exact C]. rewrite <- Qabs_opp. apply Qle_Qabs. }
  destruct (Main q x y Nx Ny Lt) as (_ & Ex & Ey & No).
  assert (D0 : is_double 0) by (exists 0, 0; split; [reflexivity|split; [lia|reflexivity]]).
  assert (Hn0 : forall x, even_double x -> ~ (x == 0)%Q).
  { clear. intros x (m & k & _ & Hm & _ & Hx) E. rewrite Hx in E. apply Qmult_integral in E. destruct E as [E|E].
    - unfold Qeq in E. cbn in E. lia.
    - pose proof (P2_pos k) as P. rewrite E in P. discriminate. }
  destruct (Qlt_le_dec 0 x) as [Px|Px].
  - destruct (between_pos x y Ex Ey Px Lt) as (z & Dz & Hz). exact (No z Dz Hz).
  - assert (Px' : (x < 0)%Q) by (apply Qle_lteq in Px; destruct Px as [C|C]; [exact C|exfalso; exact (Hn0 x Ex C)]).
    destruct (Qlt_le_dec 0 y) as [Py|Py]; [apply (No 0%Q D0); split; assumption|].
    assert (Py' : (y < 0)%Q) by (apply Qle_lteq in Py; destruct Py as [C|C]; [exact C|exfalso; exact (Hn0 y Ey C)]).
    destruct (Main (- q) (- y) (- x) (nearest_opp _ _ Ny) (nearest_opp _ _ Nx) ltac:(lra))%Q as (_ & Fy & Fx & No').
    destruct (between_pos (- y) (- x) Fy Fx ltac:(lra) ltac:(lra))%Q as (z & Dz & Hz). exact (No' z Dz Hz).
Qed.
Lemma C64_unique_pf : forall q x y, nearest_double q x -> nearest_double q y -> (x == y)%Q.
Proof.
  intros q x y Nx Ny. destruct (Q_dec x y) as [[C|C]|C]; [exfalso..|exact C].
  - exact (unique_lt q x y Nx Ny C).
  - exact (unique_lt q y x Ny Nx C).
Qed.

Lemma portion_rnd {L} (tb : timeboard L) (W : tl_wf (tb_tl tb)) (x y : interval L) d s :
  iv_of tb x -> iv_of tb y -> ivl_duty d -> sched_for tb (sched_arg s (iv_sched x)) ->
  exists q, what_portion_of tb x y d s = Ok q /\ what_portion_fl tb x y d s = Ok (rnd q).
Proof.
  intros Hx Hy Hd Hs. destruct (portion_by tb W x y d s Hx Hy Hd Hs) as (z & _ & _ & _ & _ & _ & Hle & Hq).
  unfold what_portion_of, what_portion_fl. rewrite !Hq. destruct (_ =? 0) eqn:E; [exists 0%Q; split; reflexivity|].
  unfold q_div, float_div. set (cy := zlen (iv_list tb y d _)) in *. destruct (cy =? 0) eqn:E2; [lia|]. eexists. split; reflexivity.
Qed.

Lemma C64_halves_pf : forall (L : Type) (tb : timeboard L) (x1 x2 y : interval L) d s c,
  reachable tb -> iv_of tb x1 -> iv_of tb x2 -> iv_of tb y -> pieces x1 x2 y ->
  d = DOn \/ d = DOff \/ d = DAny -> sched_for tb s -> iv_count y d (Some s) = Ok c -> c <> 0 ->
  exists r1 r2, what_portion_fl tb x1 y d (Some s) = Ok r1 /\ what_portion_fl tb x2 y d (Some s) = Ok r2
    /\ nearest_double (r1 + r2) 1.
Proof.
  intros L tb x1 x2 y d s c Hr H1 H2 Hy Hp Hd Hs Hc Hne.
  destruct (C28_pieces_pf L tb x1 x2 y y d s Hr H1 H2 Hy Hy Hp Hd Hs) as (q1 & q2 & q & A1 & A2 & A & E).
  destruct (C28_portion_pf L tb y y d (Some s) Hr Hy Hy Hd) as (q' & z & cz & cy & B & _ & _ & Bc & _ & _ & _ & B1).
  { intros s' Es. injection Es as <-. exact Hs. }
  cbn [sched_arg] in Bc. rewrite Hc in Bc. injection Bc as <-. rewrite A in B. injection B as <-.
  specialize (B1 (fun i H => H) Hne).
  assert (G : forall x q, iv_of tb x -> what_portion_of tb x y d (Some s) = Ok q -> (0 <= q)%Q).
  { intros x qx Hx Hq. destruct (C28_portion_pf L tb x y d (Some s) Hr Hx Hy Hd) as (q'' & ? & ? & ? & B & _ & _ & _ & _ & (B0 & _) & _).
    - intros s' Es. injection Es as <-. exact Hs.
    - rewrite Hq in B. injection B as <-. exact B0. }
  pose proof (G x1 q1 H1 A1) as G1. pose proof (G x2 q2 H2 A2) as G2.
  apply reachable_wf in Hr. destruct Hr as (W & _ & _).
  destruct (portion_rnd tb W x1 y d (Some s) H1 Hy Hd Hs) as (q1' & C1 & D1). rewrite A1 in C1. injection C1 as <-.
  destruct (portion_rnd tb W x2 y d (Some s) H2 Hy Hd Hs) as (q2' & C2 & D2). rewrite A2 in C2. injection C2 as <-.
  exists (rnd q1), (rnd q2). split; [exact D1|]. split; [exact D2|].
  assert (H : (1 - (1 # 18014398509481984) <= rnd q1 + rnd q2 <= 1 + (1 # 18014398509481984))%Q).
  { destruct (Qlt_le_dec q1 (1 # 2)) as [C|C]; [|apply halves_le; lra].
    rewrite (Qplus_comm (rnd q1)). apply halves_le; lra. }
  apply (nearest_ext _ (rnd (rnd q1 + rnd q2))); [apply near_one; lra|]. apply C64_nearest_pf. right. apply in_range; lra.
Qed.
