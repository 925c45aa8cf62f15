(** Proofs about sums of floats (C65). *)
From Coq Require Import QArith Qpower Qabs Lqa ZifyBool.
From Verif Require Import Base BaseProofs Timeline Board Spec SpecRoll SpecQuery Labels SpecLabels LabelsProofs Rounding SpecRounding RoundingProofs RoundingLabels SpecRoundingLabels.
Open Scope Z_scope.

(** ** The nearest double of a sum *)
Lemma double_flt x : is_double x -> flt x.
Proof. intros (m & k & Hm & _ & Hx). exists m, k. split; assumption. Qed.
Lemma double_eq x y : (x == y)%Q -> is_double x -> is_double y.
Proof. intros E (m & k & Hm & Hk & Hx). exists m, k. rewrite <- E. auto. Qed.
Lemma nearest_eq q q' x x' : (q == q')%Q -> (x == x')%Q -> nearest_double q x -> nearest_double q' x'.
Proof.
  intros Eq Ex (H1 & H2 & H3). split; [exact (double_eq _ _ Ex H1)|]. split.
  - intros y Hy. rewrite <- Eq, <- Ex. apply H2, Hy.
  - intros y Hy H. rewrite <- Eq, <- Ex in H. destruct (H3 y Hy H) as [E|(m & k & A & B & C & D)]; [left; rewrite <- Ex; exact E|right].
    exists m, k. rewrite <- Ex. auto.
Qed.
Lemma abs_zero x : (Qabs x <= 0)%Q -> (x == 0)%Q.
Proof. intros H. apply abs_le in H. lra. Qed.
Lemma nearest_self x : is_double x -> nearest_double x x.
Proof.
  intros H. assert (Hz : (x - x == 0)%Q) by ring. split; [exact H|]. split.
  - intros y _. rewrite Hz. apply Qabs_nonneg.
  - intros y _ E. left. rewrite Hz in E. change (Qabs 0) with 0%Q in E.
    assert (E' : (y - x == 0)%Q) by (apply abs_zero; rewrite E; apply Qle_refl). lra.
Qed.
Lemma nearest_double_exact q x : is_double q -> nearest_double q x -> (x == q)%Q.
Proof.
  intros Hq (_ & H & _). specialize (H q Hq). assert (Hz : (q - q == 0)%Q) by ring. rewrite Hz in H. change (Qabs 0) with 0%Q in H.
  apply abs_zero in H. lra.
Qed.

Lemma double_parts x : is_double x -> exists n, (x == inject_Z n * P2 (-1074))%Q.
Proof.
  intros (m & k & Hm & Hk & Hx). exists (m * 2 ^ (k + 1074)). rewrite Hx, inject_Z_mult, <- P2_Z by lia.
  rewrite <- Qmult_assoc, <- P2_plus. replace (k + 1074 + -1074) with k by lia. reflexivity.
Qed.
Lemma near_sum a b : is_double a -> is_double b -> (Qabs (a + b) <= P2 1022)%Q -> nearest_double (a + b) (float_add a b).
Proof.
  intros Ha Hb Hs. unfold float_add. assert (E : (rnd a + rnd b == a + b)%Q) by (rewrite (rnd_flt a), (rnd_flt b) by (apply double_flt; assumption); reflexivity).
  set (s := (rnd a + rnd b)%Q) in *. rewrite <- E in Hs. apply (nearest_eq s _ (rnd s)); [exact E|reflexivity|].
  destruct (Qlt_le_dec (Qabs s) (P2 (-1022))) as [L|L]; [|apply C64_nearest_pf; right; split; assumption].
  destruct (double_parts a Ha) as (n1 & E1). destruct (double_parts b Hb) as (n2 & E2).
  assert (Es : (s == inject_Z (n1 + n2) * P2 (-1074))%Q) by (rewrite E, E1, E2, inject_Z_plus; ring).
  assert (D : is_double s).
  { exists (n1 + n2), (-1074). split; [|split; [lia|exact Es]].
    rewrite Es, Qabs_Qmult, Qabs_Z, (Qabs_pos (P2 (-1074))) in L by (apply Qlt_le_weak, P2_pos).
    change (-1022) with (52 + -1074) in L. rewrite P2_plus in L. apply Qmult_lt_r in L; [|apply P2_pos].
    rewrite P2_Z, <- Zlt_Qlt in L by lia. lia. }
  apply (nearest_eq s s s); [reflexivity|symmetry; apply rnd_flt, double_flt, D|]. apply nearest_self, D.
Qed.
Lemma double_Z z : Z.abs z < 2 ^ 53 -> is_double (inject_Z z).
Proof. intros H. exists z, 0. split; [exact H|]. split; [lia|]. change (P2 0) with 1%Q. ring. Qed.

(** The nearest double is no further than the first summand. *)
Lemma sum_grows a b c : is_double a -> nearest_double (a + b) c -> (Qabs (c - (a + b)) <= Qabs b)%Q.
Proof.
  intros Ha (_ & H & _). eapply Qle_trans; [apply (H a Ha)|]. rewrite <- (Qabs_opp b). apply Qle_lteq. right. apply Qabs_wd. ring.
Qed.
Lemma abs_sum3 x y z : (Qabs x <= Qabs (x - y - z) + Qabs y + Qabs z)%Q.
Proof.
  assert (E : (x == (x - y - z) + y + z)%Q) by ring. rewrite E at 1. eapply Qle_trans; [apply Qabs_triangle|].
  pose proof (Qabs_triangle (x - y - z) y). lra.
Qed.

(** ** Sums *)
Definition addall_fl (l : list pylabel) (a : res pylabel) : res pylabel :=
  fold_left (fun a y => do a <- a; label_add a y) (map fill l) a.
Lemma addall_fl_cons x l a : addall_fl (x :: l) (Ok a) = addall_fl l (label_add a (fill x)).
Proof. reflexivity. Qed.

(** What has been summed: an int not greater than what was added, or a double. *)
Definition state (a : pylabel) (q : Q) (rest : Q) : Prop :=
  number a q /\ is_double q /\ (Qabs q + (2 # 1) * rest < P2 54)%Q
  /\ (forall z, a = LInt z -> (Qabs q + rest < P2 53)%Q).

Lemma size_nonneg l : (0 <= size l)%Q.
Proof. induction l as [|x l IH]; unfold size in *; cbn [map q_total fold_right]; [apply Qle_refl|]. pose proof (Qabs_nonneg x). unfold q_total in IH. lra. Qed.
Lemma size_cons x l : (size (x :: l) == Qabs x + size l)%Q.
Proof. reflexivity. Qed.

Lemma state_step a q x b rest : (0 <= rest)%Q -> state a q (Qabs b + rest) -> number x b -> is_double b ->
  exists c qc, label_add a x = Ok c /\ nearest_double (q + b) qc /\ state c qc rest.
Proof.
  intros Hr (Hn & Hd & H2 & H1) Hx Hb. pose proof (Qabs_triangle q b) as T. pose proof (Qabs_nonneg q) as Nq. pose proof (Qabs_nonneg b) as Nb.
  assert (Small : (P2 54 <= P2 1022)%Q) by (apply Qpower_le_compat_l; [lia|discriminate]).
  assert (NS : nearest_double (q + b) (float_add q b)) by (apply near_sum; try assumption; lra).
  pose proof (sum_grows q b _ Hd NS) as G. pose proof (abs_sum3 (float_add q b) q b) as G3.
  assert (G4 : (Qabs (float_add q b - q - b) <= Qabs b)%Q).
  { eapply Qle_trans; [|exact G]. apply Qle_lteq. right. apply Qabs_wd. ring. }
  assert (F : state (LFloat (float_add q b)) (float_add q b) rest).
  { split; [constructor|]. split; [exact (proj1 NS)|]. split; [lra|]. intros z E. discriminate. }
  destruct Hn as [za|qa], Hx as [zb|qb]; try (do 2 eexists; split; [reflexivity|]; split; [exact NS|exact F]).
  pose proof (H1 za eq_refl) as H0. clear H1. rename H0 into H1. exists (LInt (za + zb)), (inject_Z (za + zb)). split; [reflexivity|].
  assert (E : (inject_Z (za + zb) == inject_Z za + inject_Z zb)%Q) by (rewrite inject_Z_plus; reflexivity).
  assert (D : is_double (inject_Z (za + zb))).
  { apply double_Z. rewrite Zlt_Qlt, <- Qabs_Z, <- P2_Z by lia. eapply Qle_lt_trans; [|exact H1]. rewrite E. lra. }
  split; [apply (nearest_eq (inject_Z (za + zb)) _ (inject_Z (za + zb))); [exact E|reflexivity|apply nearest_self, D]|].
  split; [constructor|]. split; [exact D|]. split; [rewrite E; lra|]. intros z _. rewrite E. lra.
Qed.

Lemma adds_up_eq a l r : adds_up a l r -> forall a', (a == a')%Q -> adds_up a' l r.
Proof.
  intros H. destruct H as [a r E|a b c l r Hn H]; intros a' Ea; [apply au_nil; rewrite <- Ea; exact E|].
  apply (au_cons _ _ c); [|exact H]. apply (nearest_eq (a + b) _ c); [rewrite Ea; reflexivity|reflexivity|exact Hn].
Qed.

Lemma state_all l : forall qs a q, Forall2 adds l qs -> Forall is_double qs -> state a q (size qs) ->
  exists r qr, addall_fl l (Ok a) = Ok r /\ number r qr /\ adds_up q qs qr.
Proof.
  induction l as [|x l IH]; intros qs a q H Hd Hs; inversion H as [|? b ? qs' Hx Hl]; subst.
  - exists a, q. split; [reflexivity|]. split; [exact (proj1 Hs)|apply au_nil; reflexivity].
  - inversion Hd as [|? ? Hb Hd']; subst. destruct (adds_fill x b Hx) as (b' & Hn & Eb). rewrite addall_fl_cons.
    assert (Hb' : is_double b') by (apply (double_eq b); [symmetry; exact Eb|exact Hb]).
    destruct (state_step a q (fill x) b' (size qs')) as (c & qc & Ec & Hc & Sc); [apply size_nonneg| |exact Hn|exact Hb'|].
    { destruct Hs as (S1 & S2 & S3 & S4). rewrite size_cons in S3. split; [exact S1|]. split; [exact S2|]. split; [rewrite Eb; exact S3|].
      intros z E. specialize (S4 z E). rewrite size_cons in S4. rewrite Eb. exact S4. }
    rewrite Ec. destruct (IH qs' c qc Hl Hd' Sc) as (r & qr & Er & Hr & Hu). exists r, qr. split; [exact Er|]. split; [exact Hr|].
    apply (au_cons _ _ qc); [|exact Hu]. apply (nearest_eq (q + b') _ qc); [rewrite Eb; reflexivity|reflexivity|exact Hc].
Qed.

Lemma series_fl l qs : Forall2 adds l qs -> Forall is_double qs -> (size qs < inject_Z (2 ^ 53))%Q ->
  exists r q, series_sum_by label_add l = Ok r /\ number r q /\ adds_up 0 qs q.
Proof.
  intros H Hd Hs. rewrite <- P2_Z in Hs by lia. inversion H as [|x b l' qs' Hx Hl]; subst.
  - exists (LInt 0), (inject_Z 0). split; [reflexivity|]. split; [constructor|]. apply au_nil. reflexivity.
  - inversion Hd as [|? ? Hb Hd']; subst. destruct (adds_fill x b Hx) as (b' & Hn & Eb). rewrite size_cons in Hs.
    destruct (state_all l' qs' (fill x) b' Hl Hd') as (r & q & Er & Hr & Hu).
    { pose proof (size_nonneg qs') as Hnn. split; [exact Hn|]. split; [apply (double_eq b); [symmetry; exact Eb|exact Hb]|]. rewrite Eb.
      assert (E54 : (P2 54 == (2 # 1) * P2 53)%Q) by reflexivity.
      pose proof (Qabs_nonneg b). split; [lra|]. intros _ _. rewrite Eb. exact Hs. }
    exists r, q. split; [exact Er|]. split; [exact Hr|]. apply (au_cons _ _ b); [|apply (adds_up_eq b'); [exact Hu|exact Eb]].
    apply (nearest_eq b _ b); [ring|reflexivity|apply nearest_self, Hb].
Qed.

Lemma C65_steps_pf : forall (tb : timeboard pylabel) (iv : interval pylabel) d s,
  reachable tb -> iv_of tb iv -> d = DOn \/ d = DOff \/ d = DAny -> (forall s', s = Some s' -> sched_for tb s') ->
  tb_wt tb = WLabels ->
  exists ws, iv_workshifts tb iv d s = Ok ws
    /\ forall qs, Forall2 adds (map ws_label ws) qs -> Forall is_double qs -> (size qs < inject_Z (2 ^ 53))%Q ->
         exists r q, iv_worktime_fl tb iv d s = Ok r /\ number r q /\ adds_up 0 qs q.
Proof.
  intros tb iv d s Hre Hiv Hd Hs Hwt. destruct (sums_by label_add tb iv d s Hre Hiv Hd Hs) as (ws & E & Hv & Hn).
  exists ws. split; [exact E|]. intros qs H Hq Hz. unfold iv_worktime_fl, iv_worktime_by. rewrite Hwt. destruct (iv_void iv) eqn:Ev.
  - rewrite (Hv eq_refl) in H. inversion H; subst. exists (LFloat 0), 0%Q. split; [reflexivity|]. split; [constructor|apply au_nil; reflexivity].
  - rewrite (Hn eq_refl). destruct (series_fl _ _ H Hq Hz) as (r & q & Er & Hr & Hu). rewrite Er. cbn [bind].
    destruct (number_add0 r q Hr) as (y & Ey). rewrite Ey. cbn [bind]. exists r, q. auto.
Qed.

(** ** Sums without rounding *)
Lemma parts_double k x : 0 <= k <= 1074 -> in_parts k x -> (Qabs x * P2 k < P2 53)%Q -> is_double x.
Proof.
  intros Hk (n & E) H. exists n, (- k). split; [|split; [lia|exact E]].
  rewrite E, Qabs_Qmult, Qabs_Z, (Qabs_pos (P2 (- k))), <- Qmult_assoc, <- P2_plus in H by (apply Qlt_le_weak, P2_pos).
  replace (- k + k) with 0 in H by lia. change (P2 0) with 1%Q in H. rewrite Qmult_1_r, P2_Z, <- Zlt_Qlt in H by lia. exact H.
Qed.
Lemma parts_sum k x y : in_parts k x -> in_parts k y -> in_parts k (x + y).
Proof. intros (n & E) (m & F). exists (n + m). rewrite E, F, inject_Z_plus. ring. Qed.
Lemma parts_eq k x y : (x == y)%Q -> in_parts k x -> in_parts k y.
Proof. intros E (n & F). exists n. rewrite <- E. exact F. Qed.
Lemma exact_sum k l : 0 <= k <= 1074 -> forall a r, in_parts k a -> Forall (in_parts k) l -> ((Qabs a + size l) * P2 k < P2 53)%Q ->
  adds_up a l r -> (r == a + q_total l)%Q.
Proof.
  intros Hk. induction l as [|b l IH]; intros a r Ha Hl Hs H; inversion H as [? ? E|? ? c ? ? Hn Hr]; subst.
  - change (q_total []) with 0%Q. lra.
  - inversion Hl as [|? ? Hb Hl']; subst. rewrite size_cons in Hs. pose proof (parts_sum k a b Ha Hb) as Hab.
    pose proof (Qabs_triangle a b) as T. pose proof (size_nonneg l) as N. pose proof (P2_pos k) as Pk.
    assert (Hd : is_double (a + b)).
    { apply (parts_double k); [exact Hk|exact Hab|]. eapply Qle_lt_trans; [|exact Hs]. apply Qmult_le_compat_r; [lra|lra]. }
    pose proof (nearest_double_exact _ _ Hd Hn) as Ec.
    assert (Er : (r == c + q_total l)%Q).
    { apply IH; [apply (parts_eq k (a + b)); [symmetry; exact Ec|exact Hab]|exact Hl'| |exact Hr].
      eapply Qle_lt_trans; [|exact Hs]. apply Qmult_le_compat_r; [rewrite Ec; lra|lra]. }
    change (q_total (b :: l)) with (b + q_total l)%Q. rewrite Er, Ec. ring.
Qed.
Lemma parts_all k qs : 0 <= k <= 1074 -> Forall (in_parts k) qs -> (size qs * P2 k < P2 53)%Q -> Forall is_double qs.
Proof.
  intros Hk. induction qs as [|x l IH]; intros Hl Hs; [constructor|]. inversion Hl as [|? ? Hx Hl']; subst. rewrite size_cons in Hs.
  pose proof (size_nonneg l) as N. pose proof (Qabs_nonneg x) as Nx. pose proof (P2_pos k) as Pk.
  constructor; [apply (parts_double k); [exact Hk|exact Hx|]|apply IH; [exact Hl'|]]; (eapply Qle_lt_trans; [|exact Hs]; apply Qmult_le_compat_r; lra).
Qed.

Lemma C65_exact_pf : forall (tb : timeboard pylabel) (iv : interval pylabel) d s k,
  reachable tb -> iv_of tb iv -> d = DOn \/ d = DOff \/ d = DAny -> (forall s', s = Some s' -> sched_for tb s') ->
  tb_wt tb = WLabels -> 0 <= k <= 1074 ->
  exists ws, iv_workshifts tb iv d s = Ok ws
    /\ forall qs, Forall2 adds (map ws_label ws) qs -> Forall (in_parts k) qs -> (size qs * inject_Z (2 ^ k) < inject_Z (2 ^ 53))%Q ->
         exists r q, iv_worktime_fl tb iv d s = Ok r /\ number r q /\ (q == q_total qs)%Q.
Proof.
  intros tb iv d s k Hre Hiv Hd Hs Hwt Hk. destruct (C65_steps_pf tb iv d s Hre Hiv Hd Hs Hwt) as (ws & E & H).
  exists ws. split; [exact E|]. intros qs Hq Hp Hz. rewrite <- !P2_Z in Hz by lia. pose proof (parts_all k qs Hk Hp Hz) as Hdb.
  destruct (H qs Hq Hdb) as (r & q & Er & Hr & Hu).
  - rewrite <- P2_Z by lia. eapply Qle_lt_trans; [|exact Hz]. rewrite <- (Qmult_1_r (size qs)) at 1.
    rewrite (Qmult_comm (size qs) 1), (Qmult_comm (size qs)). apply Qmult_le_compat_r; [|apply size_nonneg].
    change 1%Q with (P2 0). apply Qpower_le_compat_l; [lia|discriminate].
  - exists r, q. split; [exact Er|]. split; [exact Hr|]. rewrite (exact_sum k qs Hk 0 q); [ring| |exact Hp| |exact Hu].
    + exists 0. change (inject_Z 0) with 0%Q. ring.
    + eapply Qle_lt_trans; [|exact Hz]. change (Qabs 0) with 0%Q. apply Qmult_le_compat_r; [lra|apply Qlt_le_weak, P2_pos].
Qed.

(** ** How far sums may be off *)
Lemma Forall2_zlen {A B} (R : A -> B -> Prop) l m : Forall2 R l m -> zlen l = zlen m.
Proof. intros H. induction H as [|x y l m Hx H IH]; [reflexivity|]. rewrite !zlen_cons, IH. reflexivity. Qed.
Lemma nearest_rel a b c : is_double a -> is_double b -> (Qabs (a + b) <= P2 1022)%Q -> nearest_double (a + b) c ->
  (Qabs (c - (a + b)) * P2 53 <= Qabs (a + b))%Q.
Proof.
  intros Ha Hb Hs Hc. rewrite (C64_unique_pf _ _ _ Hc (near_sum a b Ha Hb Hs)). unfold float_add.
  assert (E : (rnd a + rnd b == a + b)%Q) by (rewrite (rnd_flt a), (rnd_flt b) by (apply double_flt; assumption); reflexivity).
  rewrite <- E. set (s := (rnd a + rnd b)%Q). destruct (Qeq_dec s 0) as [Z|Z].
  - rewrite (rnd_zero s Z), Z. discriminate.
  - destruct (near_any s Z) as (m & k & _ & _ & _ & _ & H & _). rewrite P2_Z by lia. exact H.
Qed.
Lemma off_sum l : forall a r t A k, 0 <= k -> k + zlen l <= 2 ^ 52 ->
  is_double a -> Forall is_double l -> (Qabs a + (2 # 1) * size l < P2 54)%Q -> (0 <= A)%Q -> (Qabs t <= A)%Q ->
  (Qabs (a - t) * P2 52 <= inject_Z k * A)%Q -> adds_up a l r ->
  (Qabs (r - (t + q_total l)) * P2 52 <= inject_Z (k + zlen l) * (A + size l))%Q.
Proof.
  induction l as [|b l IH]; intros a r t A k Hk Hn Ha Hl Hs HA Ht He H; inversion H as [? ? E|? ? c ? ? Hc Hr]; subst.
  - change (q_total []) with 0%Q. change (size []) with 0%Q. change (zlen []) with 0. rewrite Z.add_0_r, !Qplus_0_r.
    rewrite <- E. exact He.
  - inversion Hl as [|? ? Hb Hl']; subst. rewrite size_cons in Hs |- *. rewrite zlen_cons in Hn |- *.
    pose proof (Qabs_triangle a b) as T. pose proof (Qabs_nonneg a) as Na. pose proof (Qabs_nonneg b) as Nb. pose proof (size_nonneg l) as N.
    assert (Small : (P2 54 <= P2 1022)%Q) by (apply Qpower_le_compat_l; [lia|discriminate]).
    assert (R : (Qabs (c - (a + b)) * P2 53 <= Qabs (a + b))%Q) by (apply nearest_rel; try assumption; lra).
    pose proof (sum_grows a b c Ha Hc) as G. pose proof (abs_sum3 c a b) as G3.
    assert (G4 : (Qabs (c - a - b) <= Qabs b)%Q).
    { eapply Qle_trans; [|exact G]. apply Qle_lteq. right. apply Qabs_wd. ring. }
    change (q_total (b :: l)) with (b + q_total l)%Q.
    assert (X : (Qabs (r - (t + b + q_total l)) * P2 52 <= inject_Z (k + 1 + zlen l) * (A + Qabs b + size l))%Q).
    { pose proof (zlen_nonneg l) as Zl. apply (IH c r (t + b)%Q (A + Qabs b)%Q (k + 1)); try assumption; try lia; try lra.
      - exact (proj1 Hc).
      - pose proof (Qabs_triangle t b). lra.
      - clear IH. change (P2 53) with (9007199254740992 # 1)%Q in R. change (P2 52) with (4503599627370496 # 1)%Q in *.
        assert (T1 : (Qabs (c - (t + b)) <= Qabs (c - (a + b)) + Qabs (a - t))%Q).
        { assert (E : (c - (t + b) == (c - (a + b)) + (a - t))%Q) by ring. rewrite E. apply Qabs_triangle. }
        assert (T2 : (Qabs a <= Qabs (a - t) + A)%Q).
        { assert (E : (a == (a - t) + t)%Q) by ring. rewrite E at 1. eapply Qle_trans; [apply Qabs_triangle|]. lra. }
        assert (K0 : (0 <= inject_Z k)%Q) by (change 0%Q with (inject_Z 0); rewrite <- Zle_Qle; lia).
        assert (K1 : (inject_Z k <= 4503599627370496 # 1)%Q).
        { change (4503599627370496 # 1)%Q with (inject_Z 4503599627370496). rewrite <- Zle_Qle. change 4503599627370496 with (2 ^ 52). lia. }
        rewrite inject_Z_plus. change (inject_Z 1) with 1%Q.
        assert (KA : (inject_Z k * A <= (4503599627370496 # 1) * A)%Q) by (apply Qmult_le_compat_r; assumption).
        assert (KB : (0 <= inject_Z k * Qabs b)%Q) by (apply Qmult_le_0_compat; assumption).
        revert R He T1 T2 T KA KB HA Nb. generalize (Qabs (c - (t + b))), (Qabs (c - (a + b))), (Qabs (a - t)), (Qabs a), (Qabs (a + b)), (Qabs b).
        generalize (inject_Z k). clear. intros. setoid_replace ((q + 1) * (A + q5))%Q with (q * A + A + q * q5 + q5)%Q by ring. generalize dependent (q * A)%Q. generalize dependent (q * q5)%Q. intros. lra. }
    assert (E : (r - (t + (b + q_total l)) == r - (t + b + q_total l))%Q) by ring. rewrite E.
    replace (k + (1 + zlen l)) with (k + 1 + zlen l) by lia. eapply Qle_trans; [exact X|].
    assert (E2 : (A + Qabs b + size l == A + (Qabs b + size l))%Q) by ring. rewrite E2. apply Qle_refl.
Qed.

Lemma C65_error_pf : forall (tb : timeboard pylabel) (iv : interval pylabel) d s,
  reachable tb -> iv_of tb iv -> d = DOn \/ d = DOff \/ d = DAny -> (forall s', s = Some s' -> sched_for tb s') ->
  tb_wt tb = WLabels ->
  exists ws, iv_workshifts tb iv d s = Ok ws
    /\ forall qs, Forall2 adds (map ws_label ws) qs -> Forall is_double qs -> (size qs < inject_Z (2 ^ 53))%Q -> zlen ws <= 2 ^ 52 ->
         exists r q, iv_worktime_fl tb iv d s = Ok r /\ number r q
           /\ (Qabs (q - q_total qs) * inject_Z (2 ^ 52) <= inject_Z (zlen ws) * size qs)%Q.
Proof.
  intros tb iv d s Hre Hiv Hd Hs Hwt. destruct (C65_steps_pf tb iv d s Hre Hiv Hd Hs Hwt) as (ws & E & H).
  exists ws. split; [exact E|]. intros qs Hq Hdb Hz Hl. destruct (H qs Hq Hdb Hz) as (r & q & Er & Hr & Hu).
  exists r, q. split; [exact Er|]. split; [exact Hr|].
  assert (El : zlen ws = zlen qs) by (rewrite <- (Forall2_zlen _ _ _ Hq); unfold zlen; rewrite map_length; reflexivity). rewrite El in *.
  rewrite <- P2_Z in * by lia. pose proof (off_sum qs 0 q 0 0 0) as X.
  assert (E54 : (P2 54 == (2 # 1) * P2 53)%Q) by reflexivity.
  rewrite Z.add_0_l in X. rewrite <- (Qplus_0_l (q_total qs)), <- (Qplus_0_l (size qs)). apply X; try lia; try assumption.
  - apply (double_Z 0). reflexivity.
  - change (Qabs 0) with 0%Q. lra.
  - apply Qle_refl.
  - discriminate.
  - discriminate.
Qed.
