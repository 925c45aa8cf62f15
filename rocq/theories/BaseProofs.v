From Verif Require Import Base.
From Coq Require Import ZifyBool ZifyNat Sorted.
Ltac Zify.zify_post_hook ::= Z.div_mod_to_equations.

(** ** zlen, znth, py_get, zrange *)
Lemma zlen_nonneg {A} (l : list A) : 0 <= zlen l.
Proof. unfold zlen. lia. Qed.
Lemma zlen_nil {A} : zlen (@nil A) = 0. Proof. reflexivity. Qed.
Ltac znil := repeat match goal with
  | |- context[zlen (@nil ?A)] => change (zlen (@nil A)) with 0
  | H : context[zlen (@nil ?A)] |- _ => change (zlen (@nil A)) with 0 in H
  end.
Lemma zlen_cons {A} (x : A) l : zlen (x :: l) = 1 + zlen l.
Proof. unfold zlen. cbn [length]. lia. Qed.
Lemma zlen_app {A} (l m : list A) : zlen (l ++ m) = zlen l + zlen m.
Proof. unfold zlen. rewrite app_length. lia. Qed.
Lemma zlen_map {A B} (f : A -> B) l : zlen (map f l) = zlen l.
Proof. unfold zlen. rewrite map_length. reflexivity. Qed.
Lemma zlen_rev {A} (l : list A) : zlen (rev l) = zlen l.
Proof. unfold zlen. rewrite rev_length. reflexivity. Qed.
Lemma zlen_zero {A} (l : list A) : zlen l = 0 -> l = [].
Proof. destruct l as [|x l]; [reflexivity|]. rewrite zlen_cons. pose proof (zlen_nonneg l). lia. Qed.

Lemma znth_range {A} (l : list A) i x : znth l i = Some x -> 0 <= i < zlen l.
Proof.
  unfold znth. destruct (i <? 0) eqn:E; [discriminate|]. intros H.
  assert (Hn : nth_error l (Z.to_nat i) <> None) by congruence.
  apply nth_error_Some in Hn. unfold zlen. lia.
Qed.
Lemma znth_ex {A} (l : list A) i : 0 <= i < zlen l -> exists x, znth l i = Some x.
Proof.
  intros H. unfold znth. destruct (i <? 0) eqn:E; [lia|].
  destruct (nth_error l (Z.to_nat i)) as [x|] eqn:En; [exists x; reflexivity|].
  apply nth_error_None in En. unfold zlen in H. lia.
Qed.
Lemma znth_none {A} (l : list A) i : i < 0 \/ zlen l <= i -> znth l i = None.
Proof.
  intros H. destruct (znth l i) as [x|] eqn:E; [|reflexivity]. apply znth_range in E. lia.
Qed.
Lemma znth_In {A} (l : list A) i x : znth l i = Some x -> In x l.
Proof.
  unfold znth. destruct (i <? 0); [discriminate|]. apply nth_error_In.
Qed.
Lemma In_znth {A} (l : list A) x : In x l -> exists i, znth l i = Some x.
Proof.
  intros H. apply In_nth_error in H. destruct H as [n Hn]. exists (Z.of_nat n).
  unfold znth. destruct (Z.of_nat n <? 0) eqn:E; [lia|]. rewrite Nat2Z.id. exact Hn.
Qed.
Lemma znth_cons0 {A} (x : A) l : znth (x :: l) 0 = Some x.
Proof. reflexivity. Qed.
Lemma znth_cons {A} (x : A) l i : 0 < i -> znth (x :: l) i = znth l (i - 1).
Proof.
  intros H. unfold znth. destruct (i <? 0) eqn:E1; [lia|]. destruct (i - 1 <? 0) eqn:E2; [lia|].
  replace (Z.to_nat i) with (S (Z.to_nat (i - 1))) by lia. reflexivity.
Qed.
Lemma znth_app_l {A} (l m : list A) i : i < zlen l -> znth (l ++ m) i = znth l i.
Proof.
  intros H. unfold znth. destruct (i <? 0) eqn:E; [reflexivity|].
  apply nth_error_app1. unfold zlen in H. lia.
Qed.
Lemma znth_app_r {A} (l m : list A) i : zlen l <= i -> znth (l ++ m) i = znth m (i - zlen l).
Proof.
  intros H. pose proof (zlen_nonneg l). unfold znth.
  destruct (i <? 0) eqn:E; [lia|]. destruct (i - zlen l <? 0) eqn:E2; [lia|].
  rewrite nth_error_app2 by (unfold zlen in H; lia). f_equal. unfold zlen. lia.
Qed.
Lemma znth_map {A B} (f : A -> B) l i :
  znth (map f l) i = match znth l i with Some x => Some (f x) | None => None end.
Proof.
  unfold znth. destruct (i <? 0); [reflexivity|]. rewrite nth_error_map. unfold option_map.
  destruct (nth_error l (Z.to_nat i)); reflexivity.
Qed.
Lemma znth_ext {A} (l m : list A) : zlen l = zlen m ->
  (forall i, 0 <= i < zlen l -> znth l i = znth m i) -> l = m.
Proof.
  revert m. induction l as [|x l IH]; intros m Hl H.
  - symmetry. apply zlen_zero. rewrite <- Hl. reflexivity.
  - destruct m as [|y m]; [rewrite zlen_cons in Hl; znil; pose proof (zlen_nonneg l); lia|].
    rewrite !zlen_cons in Hl. pose proof (zlen_nonneg l).
    assert (E : x = y).
    { specialize (H 0). rewrite !znth_cons0 in H. rewrite zlen_cons in H.
      specialize (H ltac:(lia)). congruence. }
    subst y. f_equal. apply IH; [lia|]. intros i Hi. specialize (H (i + 1)).
    rewrite zlen_cons in H. specialize (H ltac:(lia)).
    rewrite !znth_cons in H by lia. replace (i + 1 - 1) with i in H by lia. exact H.
Qed.

Lemma py_get_znth {A} (l : list A) i : 0 <= i -> py_get l i = znth l i.
Proof. intros H. unfold py_get, znth. destruct (i <? 0) eqn:E; [lia|reflexivity]. Qed.
Lemma py_get_neg {A} (l : list A) i : i < 0 -> py_get l i = znth l (i + zlen l).
Proof.
  intros H. unfold py_get, znth. destruct (i <? 0) eqn:E; [|lia].
  destruct (i + zlen l <? 0); reflexivity.
Qed.
Lemma py_get_res_ok {A} (l : list A) i x : 0 <= i -> py_get_res l i = Ok x <-> znth l i = Some x.
Proof.
  intros H. unfold py_get_res. rewrite py_get_znth by exact H.
  destruct (znth l i); split; congruence.
Qed.

Lemma zrange_length a n : length (zrange a n) = n.
Proof. revert a. induction n as [|n IH]; intros a; cbn [zrange length]; [reflexivity|]. rewrite IH. reflexivity. Qed.
Lemma zlen_zrange a n : zlen (zrange a n) = Z.of_nat n.
Proof. unfold zlen. rewrite zrange_length. reflexivity. Qed.
Lemma zrange_In a n x : In x (zrange a n) <-> a <= x < a + Z.of_nat n.
Proof.
  revert a. induction n as [|n IH]; intros a; cbn [zrange In]; [lia|]. rewrite IH. lia.
Qed.
Lemma zrange_znth a n i : 0 <= i < Z.of_nat n -> znth (zrange a n) i = Some (a + i).
Proof.
  revert a i. induction n as [|n IH]; intros a i H; [lia|]. cbn [zrange].
  destruct (Z.eq_dec i 0) as [->|Hi]; [rewrite znth_cons0; f_equal; lia|].
  rewrite znth_cons by lia. rewrite IH by lia. f_equal. lia.
Qed.
Lemma zrange_app a n m : zrange a (n + m) = zrange a n ++ zrange (a + Z.of_nat n) m.
Proof.
  revert a. induction n as [|n IH]; intros a; cbn [zrange Nat.add app].
  - f_equal. lia.
  - rewrite IH. f_equal. f_equal. f_equal. lia.
Qed.

(** ** Sorted lists *)
Notation asc := (StronglySorted Z.lt).

Lemma asc_zrange a n : asc (zrange a n).
Proof.
  revert a. induction n as [|n IH]; intros a; cbn [zrange]; constructor; [apply IH|].
  apply Forall_forall. intros x Hx. apply zrange_In in Hx. lia.
Qed.
Lemma asc_filter p l : asc l -> asc (filter p l).
Proof.
  induction 1 as [|x l Hs IH Hf]; cbn [filter]; [constructor|].
  destruct (p x); [|exact IH]. constructor; [exact IH|].
  apply Forall_forall. intros y Hy. apply filter_In in Hy. destruct Hy as [Hy _].
  rewrite Forall_forall in Hf. apply Hf. exact Hy.
Qed.
Lemma asc_ext l m : asc l -> asc m -> (forall x, In x l <-> In x m) -> l = m.
Proof.
  intros Hl. revert m. induction Hl as [|x l Hs IH Hf]; intros m Hm H.
  - destruct m as [|y m]; [reflexivity|]. specialize (H y). cbn [In] in H. tauto.
  - destruct Hm as [|y m Hms Hmf].
    + specialize (H x). cbn [In] in H. tauto.
    + rewrite Forall_forall in Hf, Hmf.
      assert (E : x = y).
      { destruct (Z.lt_trichotomy x y) as [Hc|[Hc|Hc]]; [|exact Hc|].
        - pose proof (proj1 (H x) (or_introl eq_refl)) as [Hx|Hx]; [lia|]. specialize (Hmf _ Hx). lia.
        - pose proof (proj2 (H y) (or_introl eq_refl)) as [Hx|Hx]; [lia|]. specialize (Hf _ Hx). lia. }
      subst y. f_equal. apply IH; [exact Hms|]. intros z. split; intros Hz.
      * pose proof (proj1 (H z) (or_intror Hz)) as [Hx|Hx]; [|exact Hx]. specialize (Hf _ Hz). lia.
      * pose proof (proj2 (H z) (or_intror Hz)) as [Hx|Hx]; [|exact Hx]. specialize (Hmf _ Hz). lia.
Qed.
Lemma asc_znth_lt l i j x y : asc l -> znth l i = Some x -> znth l j = Some y -> (i < j <-> x < y).
Proof.
  intros Hl. revert i j. induction Hl as [|a l Hs IH Hf]; intros i j Hi Hj.
  - apply znth_range in Hi. znil. lia.
  - pose proof (znth_range _ _ _ Hi) as Ri. pose proof (znth_range _ _ _ Hj) as Rj.
    rewrite Forall_forall in Hf.
    destruct (Z.eq_dec i 0) as [->|Ni]; destruct (Z.eq_dec j 0) as [->|Nj].
    + rewrite znth_cons0 in Hi, Hj. injection Hi as <-. injection Hj as <-. lia.
    + rewrite znth_cons0 in Hi. injection Hi as <-. rewrite znth_cons in Hj by lia.
      apply znth_In in Hj. specialize (Hf _ Hj). lia.
    + rewrite znth_cons0 in Hj. injection Hj as <-. rewrite znth_cons in Hi by lia.
      apply znth_In in Hi. specialize (Hf _ Hi). lia.
    + rewrite znth_cons in Hi by lia. rewrite znth_cons in Hj by lia. specialize (IH _ _ Hi Hj). lia.
Qed.
Lemma asc_znth_inj l i j x : asc l -> znth l i = Some x -> znth l j = Some x -> i = j.
Proof.
  intros Hl Hi Hj. pose proof (asc_znth_lt l i j x x Hl Hi Hj). pose proof (asc_znth_lt l j i x x Hl Hj Hi). lia.
Qed.
Lemma asc_app_inv l m : asc (l ++ m) -> asc l /\ asc m /\ (forall x y, In x l -> In y m -> x < y).
Proof.
  induction l as [|x l IH]; cbn [app]; intros H.
  - split; [constructor|]. split; [exact H|]. intros x y [].
  - inversion H as [|a b Hs Hf]; subst. destruct (IH Hs) as (H1 & H2 & H3).
    rewrite Forall_forall in Hf. split; [|split; [exact H2|]].
    + constructor; [exact H1|]. apply Forall_forall. intros y Hy. apply Hf, in_or_app. left; exact Hy.
    + intros y z [Hy|Hy] Hz; [subst; apply Hf, in_or_app; right; exact Hz|]. apply H3; assumption.
Qed.
Lemma asc_app l m : asc l -> asc m -> (forall x y, In x l -> In y m -> x < y) -> asc (l ++ m).
Proof.
  induction 1 as [|x l Hs IH Hf]; intros Hm H; cbn [app]; [exact Hm|].
  constructor.
  - apply IH; [exact Hm|]. intros a b Ha Hb. apply H; [right; exact Ha|exact Hb].
  - apply Forall_forall. intros y Hy. apply in_app_or in Hy. rewrite Forall_forall in Hf.
    destruct Hy as [Hy|Hy]; [apply Hf; exact Hy|]. apply H; [left; reflexivity|exact Hy].
Qed.
Lemma asc_map_range (g : Z -> Z) a n : (forall i j, i < j -> g i < g j) -> asc (map g (zrange a n)).
Proof.
  intros Hg. revert a. induction n as [|n IH]; intros a; cbn [zrange map]; constructor; [apply IH|].
  apply Forall_forall. intros y Hy. apply in_map_iff in Hy. destruct Hy as (z & <- & Hz).
  apply zrange_In in Hz. apply Hg. lia.
Qed.

(** Positions in an ascending list are counts. *)
Lemma ss_left_le l x : 0 <= ss_left l x <= zlen l.
Proof.
  unfold ss_left. induction l as [|y l IH]; cbn [filter]; [cbv; split; congruence|].
  destruct (y <? x); rewrite ?zlen_cons; lia.
Qed.
Lemma ss_right_le l x : 0 <= ss_right l x <= zlen l.
Proof.
  unfold ss_right. induction l as [|y l IH]; cbn [filter]; [cbv; split; congruence|].
  destruct (y <=? x); rewrite ?zlen_cons; lia.
Qed.
Lemma filter_none {A} (p : A -> bool) l : (forall x, In x l -> p x = false) -> filter p l = [].
Proof.
  induction l as [|y l IH]; intros H; cbn [filter]; [reflexivity|].
  rewrite H by (left; reflexivity). apply IH. intros x Hx. apply H. right; exact Hx.
Qed.
Lemma filter_all {A} (p : A -> bool) l : (forall x, In x l -> p x = true) -> filter p l = l.
Proof.
  induction l as [|y l IH]; intros H; cbn [filter]; [reflexivity|].
  rewrite H by (left; reflexivity). f_equal. apply IH. intros x Hx. apply H. right; exact Hx.
Qed.
Lemma ss_left_pos l k x : asc l -> znth l k = Some x -> ss_left l x = k.
Proof.
  unfold ss_left. intros Hl. revert k. induction Hl as [|a l Hs IH Hf]; intros k Hk.
  - apply znth_range in Hk. znil. lia.
  - pose proof (znth_range _ _ _ Hk) as Rk. rewrite Forall_forall in Hf. cbn [filter].
    destruct (Z.eq_dec k 0) as [->|Nk].
    + rewrite znth_cons0 in Hk. injection Hk as <-. destruct (a <? a) eqn:E; [lia|].
      rewrite filter_none; [reflexivity|]. intros y Hy. specialize (Hf _ Hy). lia.
    + rewrite znth_cons in Hk by lia. pose proof (Hf _ (znth_In _ _ _ Hk)).
      destruct (a <? x) eqn:E; [|lia]. rewrite zlen_cons, (IH _ Hk). lia.
Qed.
Lemma znth_of_count l x : asc l -> In x l -> znth l (ss_left l x) = Some x.
Proof.
  intros Hl Hx. apply In_znth in Hx. destruct Hx as [i Hi].
  rewrite (ss_left_pos l i x Hl Hi). exact Hi.
Qed.
Lemma ss_left_split l x y : ss_left l y = ss_left l x + zlen (filter (fun a => (x <=? a) && (a <? y)) l) \/ y < x.
Proof.
  destruct (Z.lt_ge_cases y x) as [H|H]; [right; exact H|left].
  unfold ss_left. induction l as [|a l IH]; cbn [filter]; [reflexivity|].
  destruct (a <? y) eqn:E1; destruct (a <? x) eqn:E2; destruct (x <=? a) eqn:E3; cbn [andb]; rewrite ?zlen_cons; lia.
Qed.
(** The element at position [ss_left l x] is the first one not below [x]. *)
Lemma ss_left_lt_iff l x k y : asc l -> znth l k = Some y -> (k < ss_left l x <-> y < x).
Proof.
  unfold ss_left. intros Hl. revert k. induction Hl as [|a l Hs IH Hf]; intros k Hk.
  - apply znth_range in Hk. znil. lia.
  - pose proof (znth_range _ _ _ Hk) as Rk. rewrite Forall_forall in Hf. cbn [filter].
    destruct (Z.eq_dec k 0) as [->|Nk].
    + rewrite znth_cons0 in Hk. injection Hk as <-. destruct (a <? x) eqn:E.
      * rewrite zlen_cons. pose proof (zlen_nonneg (filter (fun a => a <? x) l)). lia.
      * rewrite filter_none; [znil; lia|]. intros z Hz. specialize (Hf _ Hz). lia.
    + rewrite znth_cons in Hk by lia. pose proof (Hf _ (znth_In _ _ _ Hk)) as Hlt.
      specialize (IH _ Hk). destruct (a <? x) eqn:E; [rewrite zlen_cons; lia|].
      rewrite filter_none; [znil; lia|]. intros z Hz. specialize (Hf _ Hz). lia.
Qed.
Lemma ss_right_lt_iff l x k y : asc l -> znth l k = Some y -> (k < ss_right l x <-> y <= x).
Proof.
  unfold ss_right. intros Hl. revert k. induction Hl as [|a l Hs IH Hf]; intros k Hk.
  - apply znth_range in Hk. znil. lia.
  - pose proof (znth_range _ _ _ Hk) as Rk. rewrite Forall_forall in Hf. cbn [filter].
    destruct (Z.eq_dec k 0) as [->|Nk].
    + rewrite znth_cons0 in Hk. injection Hk as <-. destruct (a <=? x) eqn:E.
      * rewrite zlen_cons. pose proof (zlen_nonneg (filter (fun a => a <=? x) l)). lia.
      * rewrite filter_none; [znil; lia|]. intros z Hz. specialize (Hf _ Hz). lia.
    + rewrite znth_cons in Hk by lia. pose proof (Hf _ (znth_In _ _ _ Hk)) as Hlt.
      specialize (IH _ Hk). destruct (a <=? x) eqn:E; [rewrite zlen_cons; lia|].
      rewrite filter_none; [znil; lia|]. intros z Hz. specialize (Hf _ Hz). lia.
Qed.

(** searchsorted(side='right') - 1 on the starts of consecutive units. *)
Lemma ss_right_map_range (g : Z -> Z) n t k :
  (forall i j, i < j -> g i < g j) -> 0 <= k < Z.of_nat n -> g k <= t ->
  (k + 1 < Z.of_nat n -> t < g (k + 1)) -> ss_right (map g (zrange 0 n)) t = k + 1.
Proof.
  intros Hg Hk H1 H2.
  assert (Hasc := asc_map_range g 0 n Hg).
  assert (Hn : forall i, 0 <= i < Z.of_nat n -> znth (map g (zrange 0 n)) i = Some (g i)).
  { intros i Hi. rewrite znth_map, zrange_znth by lia. reflexivity. }
  pose proof (ss_right_lt_iff _ t _ _ Hasc (Hn k ltac:(lia))) as A.
  pose proof (ss_right_le (map g (zrange 0 n)) t) as B. rewrite zlen_map, zlen_zrange in B.
  destruct (Z.lt_ge_cases (k + 1) (Z.of_nat n)) as [Hc|Hc]; [|lia].
  pose proof (ss_right_lt_iff _ t _ _ Hasc (Hn (k + 1) ltac:(lia))) as C. specialize (H2 Hc). lia.
Qed.

(** ** nonzero *)
Definition mask_at (m : list bool) (i : Z) : bool :=
  match znth m i with Some b => b | None => false end.

Lemma nonzero_from_eq i m : nonzero_from i m = filter (fun k => mask_at m (k - i)) (zrange i (length m)).
Proof.
  revert i. induction m as [|b m IH]; intros i; cbn [nonzero_from zrange length filter]; [reflexivity|].
  replace (i - i) with 0 by lia. unfold mask_at at 1. rewrite znth_cons0. rewrite IH.
  assert (E : filter (fun k : Z => mask_at m (k - (i + 1))) (zrange (i + 1) (length m)) =
              filter (fun k : Z => mask_at (b :: m) (k - i)) (zrange (i + 1) (length m))).
  { apply filter_ext_in. intros k Hk. apply zrange_In in Hk. unfold mask_at.
    rewrite znth_cons by lia. replace (k - i - 1) with (k - (i + 1)) by lia. reflexivity. }
  rewrite E. destruct b; reflexivity.
Qed.
Lemma nonzero_eq m : nonzero m = filter (mask_at m) (zrange 0 (length m)).
Proof.
  unfold nonzero. rewrite nonzero_from_eq. apply filter_ext. intros k. f_equal. lia.
Qed.
Lemma nonzero_In m i : In i (nonzero m) <-> znth m i = Some true.
Proof.
  rewrite nonzero_eq, filter_In, zrange_In. unfold mask_at. split.
  - intros [_ H]. destruct (znth m i) as [[|]|]; congruence.
  - intros H. rewrite H. split; [|reflexivity]. apply znth_range in H. unfold zlen in H. lia.
Qed.
Lemma nonzero_asc m : asc (nonzero m).
Proof. rewrite nonzero_eq. apply asc_filter, asc_zrange. Qed.

(** ** count_while-like scans and slices of ascending lists *)
Lemma py_slice_znth {A} (l : list A) a b i : 0 <= a -> 0 <= i < b - a -> znth (py_slice l a b) i = znth l (a + i).
Proof.
  intros Ha Hi. unfold py_slice, znth.
  destruct (i <? 0) eqn:E; [lia|]. destruct (a + i <? 0) eqn:E2; [lia|].
  assert (H : forall (l : list A) n, (Z.to_nat i < n)%nat -> nth_error (firstn n l) (Z.to_nat i) = nth_error l (Z.to_nat i)).
  { clear. intros l n. revert l. generalize (Z.to_nat i). intros k. revert k.
    induction n as [|n IH]; intros k l H; [lia|]. destruct l as [|x l]; [destruct k; reflexivity|].
    destruct k as [|k]; [reflexivity|]. cbn [firstn nth_error]. apply IH. lia. }
  rewrite H by lia.
  assert (H2 : forall (l : list A) m k, nth_error (skipn m l) k = nth_error l (m + k)).
  { clear. intros l m. revert l. induction m as [|m IH]; intros l k; [reflexivity|].
    destruct l as [|x l]; cbn [skipn Nat.add nth_error]; [destruct k; reflexivity|apply IH]. }
  rewrite H2. f_equal. lia.
Qed.
Lemma py_slice_len {A} (l : list A) a b : 0 <= a <= b -> b <= zlen l -> zlen (py_slice l a b) = b - a.
Proof.
  intros H Hb. unfold py_slice, zlen. unfold zlen in Hb. rewrite firstn_length, skipn_length. lia.
Qed.

(** A slice of an ascending list between two counts is a filter. *)
Lemma slice_filter l lo hi : asc l ->
  py_slice l (ss_left l lo) (ss_right l hi) = filter (fun x => (lo <=? x) && (x <=? hi)) l.
Proof.
  intros Hl.
  destruct (Z.lt_ge_cases (ss_right l hi) (ss_left l lo)) as [Hc|Hc].
  - unfold py_slice. replace (Z.to_nat (ss_right l hi - ss_left l lo)) with O by lia. cbn [firstn].
    symmetry. apply filter_none. intros x Hx. apply In_znth in Hx. destruct Hx as [i Hi].
    pose proof (ss_left_lt_iff l lo i x Hl Hi). pose proof (ss_right_lt_iff l hi i x Hl Hi). lia.
  - pose proof (ss_left_le l lo) as B1. pose proof (ss_right_le l hi) as B2.
    apply asc_ext.
    + unfold py_slice. rewrite <- (firstn_skipn (Z.to_nat (ss_left l lo)) l) in Hl.
      apply asc_app_inv in Hl. destruct Hl as (_ & Hl & _).
      rewrite <- (firstn_skipn (Z.to_nat (ss_right l hi - ss_left l lo)) (skipn (Z.to_nat (ss_left l lo)) l)) in Hl.
      apply asc_app_inv in Hl. apply Hl.
    + apply asc_filter. exact Hl.
    + intros x. rewrite filter_In. split.
      * intros Hx. apply In_znth in Hx. destruct Hx as [i Hi].
        pose proof (znth_range _ _ _ Hi) as Ri. rewrite py_slice_len in Ri by lia.
        rewrite py_slice_znth in Hi by lia.
        pose proof (ss_left_lt_iff l lo _ x Hl Hi). pose proof (ss_right_lt_iff l hi _ x Hl Hi).
        split; [apply znth_In in Hi; exact Hi|]. lia.
      * intros [Hx Hr]. apply In_znth in Hx. destruct Hx as [i Hi].
        pose proof (ss_left_lt_iff l lo _ x Hl Hi). pose proof (ss_right_lt_iff l hi _ x Hl Hi).
        apply znth_In with (i := i - ss_left l lo). rewrite py_slice_znth by lia.
        replace (ss_left l lo + (i - ss_left l lo)) with i by lia. exact Hi.
Qed.

(** ** Sorting and removing duplicates *)
Lemma zinsert_In x l y : In y (zinsert x l) <-> y = x \/ In y l.
Proof.
  induction l as [|a l IH]; cbn [zinsert In]; [intuition|].
  destruct (x <=? a); cbn [In]; [intuition|]. rewrite IH. intuition.
Qed.
Lemma zsort_In l y : In y (zsort l) <-> In y l.
Proof.
  induction l as [|a l IH]; cbn [zsort In]; [intuition|]. rewrite zinsert_In, IH. intuition.
Qed.
Lemma zinsert_sorted x l : StronglySorted Z.le l -> StronglySorted Z.le (zinsert x l).
Proof.
  induction 1 as [|a l Hs IH Hf]; cbn [zinsert]; [repeat constructor|].
  destruct (x <=? a) eqn:E.
  - constructor; [constructor; assumption|]. constructor; [lia|].
    rewrite Forall_forall in *. intros y Hy. specialize (Hf _ Hy). lia.
  - constructor; [exact IH|]. rewrite Forall_forall in *. intros y Hy. apply zinsert_In in Hy.
    destruct Hy as [->|Hy]; [lia|]. apply Hf; exact Hy.
Qed.
Lemma zsort_sorted l : StronglySorted Z.le (zsort l).
Proof. induction l as [|a l IH]; cbn [zsort]; [constructor|]. apply zinsert_sorted, IH. Qed.
Lemma zinsert_len x l : zlen (zinsert x l) = 1 + zlen l.
Proof.
  induction l as [|a l IH]; cbn [zinsert]; [reflexivity|].
  destruct (x <=? a); rewrite ?zlen_cons; rewrite ?IH; lia.
Qed.
Lemma zdedup_In l y : In y (zdedup l) <-> In y l.
Proof.
  induction l as [|a l IH]; [reflexivity|]. destruct l as [|b l]; [reflexivity|].
  change (zdedup (a :: b :: l)) with (if a =? b then zdedup (b :: l) else a :: zdedup (b :: l)).
  destruct (a =? b) eqn:E.
  - rewrite IH. cbn [In]. assert (a = b) by lia. subst. intuition.
  - cbn [In] in *. rewrite IH. reflexivity.
Qed.
Lemma zdedup_asc l : StronglySorted Z.le l -> asc (zdedup l).
Proof.
  induction 1 as [|a l Hs IH Hf]; [constructor|]. destruct l as [|b l]; [repeat constructor|].
  change (zdedup (a :: b :: l)) with (if a =? b then zdedup (b :: l) else a :: zdedup (b :: l)).
  destruct (a =? b) eqn:E; [exact IH|]. constructor; [exact IH|].
  rewrite Forall_forall. intros y Hy. apply (proj1 (zdedup_In _ _)) in Hy. rewrite Forall_forall in Hf.
  inversion Hs as [|q r Hs2 Hf2]; subst. rewrite Forall_forall in Hf2.
  pose proof (Hf b (or_introl eq_refl)). destruct Hy as [->|Hy]; [lia|]. specialize (Hf2 _ Hy). lia.
Qed.

(** ** find_pos *)
Lemma find_pos_znth l x p : find_pos l x = Some p -> znth l p = Some x.
Proof.
  revert p. induction l as [|a l IH]; intros p; cbn [find_pos]; [discriminate|].
  destruct (a =? x) eqn:E.
  - intros H. injection H as <-. rewrite znth_cons0. f_equal. lia.
  - destruct (find_pos l x) as [q|]; [|discriminate]. intros H. injection H as <-.
    specialize (IH q eq_refl). pose proof (znth_range _ _ _ IH). rewrite znth_cons by lia.
    replace (q + 1 - 1) with q by lia. exact IH.
Qed.
Lemma find_pos_In l x : In x l -> exists p, find_pos l x = Some p.
Proof.
  induction l as [|a l IH]; [intros []|]. cbn [find_pos In]. intros H.
  destruct (a =? x) eqn:E; [exists 0; reflexivity|].
  destruct H as [H|H]; [lia|]. destruct (IH H) as [p ->]. exists (p + 1). reflexivity.
Qed.
Lemma find_pos_asc l p x : asc l -> znth l p = Some x -> find_pos l x = Some p.
Proof.
  intros Hl Hp. destruct (find_pos_In l x (znth_In _ _ _ Hp)) as [q Hq]. rewrite Hq. f_equal.
  apply find_pos_znth in Hq. eapply asc_znth_inj; eassumption.
Qed.

(** ** mapM *)
Lemma mapM_ok_map {A B} (f : A -> res B) (g : A -> B) l :
  (forall x, In x l -> f x = Ok (g x)) -> mapM f l = Ok (map g l).
Proof.
  induction l as [|x l IH]; intros H; cbn [mapM map]; [reflexivity|].
  rewrite H by (left; reflexivity). cbn [bind]. rewrite IH; [reflexivity|].
  intros y Hy. apply H. right; exact Hy.
Qed.
Lemma mapM_inv {A B} (f : A -> res B) l ys : mapM f l = Ok ys -> Forall2 (fun x y => f x = Ok y) l ys.
Proof.
  revert ys. induction l as [|x l IH]; intros ys; cbn [mapM]; intros H.
  - injection H as <-. constructor.
  - destruct (f x) as [y|e] eqn:E; cbn [bind] in H; [|discriminate].
    destruct (mapM f l) as [zs|e]; cbn [bind] in H; [|discriminate]. injection H as <-.
    constructor; [exact E|]. apply IH. reflexivity.
Qed.

(** ** splice, set_nth *)
Lemma set_nth_length {A} (l : list A) i x : length (set_nth l i x) = length l.
Proof. revert i. induction l as [|y l IH]; intros i; cbn [set_nth length]; [reflexivity|]. destruct i; cbn [length]; [reflexivity|]. rewrite IH. reflexivity. Qed.
Lemma set_nth_znth {A} (l : list A) i x k : 0 <= i -> znth (set_nth l (Z.to_nat i) x) k =
  if (k =? i) && (k <? zlen l) then Some x else znth l k.
Proof.
  intros Hi. revert i k Hi. induction l as [|y l IH]; intros i k Hi.
  - cbn [set_nth]. znil. destruct ((k =? i) && (k <? 0)) eqn:E; [lia|reflexivity].
  - cbn [set_nth]. rewrite zlen_cons. pose proof (zlen_nonneg l) as Hn.
    destruct (Z.to_nat i) as [|j] eqn:Ej.
    + assert (i = 0) by lia. subst i. destruct (k =? 0) eqn:Ek; cbn [andb].
      * assert (k = 0) by lia. subst k. destruct (0 <? 1 + zlen l) eqn:E2; [reflexivity|lia].
      * destruct (Z.lt_ge_cases k 0) as [Hk|Hk]; [rewrite !znth_none by lia; reflexivity|].
        rewrite !znth_cons by lia. reflexivity.
    + destruct (Z.lt_ge_cases k 0) as [Hk|Hk].
      { rewrite !znth_none by lia. destruct ((k =? i) && (k <? 1 + zlen l)) eqn:E; [lia|reflexivity]. }
      destruct (Z.eq_dec k 0) as [->|Hk0].
      { rewrite !znth_cons0. destruct ((0 =? i) && (0 <? 1 + zlen l)) eqn:E; [lia|reflexivity]. }
      rewrite !znth_cons by lia. replace j with (Z.to_nat (i - 1)) by lia. rewrite IH by lia.
      replace (k - 1 =? i - 1) with (k =? i) by lia. replace (k - 1 <? zlen l) with (k <? 1 + zlen l) by lia. reflexivity.
Qed.
Lemma zlen_set_nth {A} (l : list A) i x : zlen (set_nth l i x) = zlen l.
Proof. unfold zlen. rewrite set_nth_length. reflexivity. Qed.

Lemma zlen_firstn {A} (l : list A) a : 0 <= a <= zlen l -> zlen (firstn (Z.to_nat a) l) = a.
Proof. intros H. unfold zlen in *. rewrite firstn_length. lia. Qed.
Lemma znth_firstn {A} (l : list A) a k : k < a -> znth (firstn (Z.to_nat a) l) k = znth l k.
Proof.
  intros H. destruct (Z.lt_ge_cases k 0); [rewrite !znth_none by lia; reflexivity|].
  pose proof (py_slice_znth l 0 a k ltac:(lia) ltac:(lia)) as E.
  unfold py_slice in E. cbn [skipn Z.to_nat] in E. rewrite Z.sub_0_r in E. exact E.
Qed.
Lemma znth_skipn {A} (l : list A) n k : 0 <= k -> znth (skipn n l) k = znth l (Z.of_nat n + k).
Proof.
  intros Hk. unfold znth. destruct (k <? 0) eqn:E; [lia|]. destruct (Z.of_nat n + k <? 0) eqn:E2; [lia|].
  assert (H2 : forall (l : list A) m k, nth_error (skipn m l) k = nth_error l (m + k)).
  { clear. intros l m. revert l. induction m as [|m IH]; intros l k; [reflexivity|].
    destruct l as [|x l]; cbn [skipn Nat.add nth_error]; [destruct k; reflexivity|apply IH]. }
  rewrite H2. f_equal. lia.
Qed.
Lemma zlen_skipn {A} (l : list A) n : Z.of_nat n <= zlen l -> zlen (skipn n l) = zlen l - Z.of_nat n.
Proof. intros H. unfold zlen in *. rewrite skipn_length. lia. Qed.

Lemma zlen_splice {A} (l : list A) a v : 0 <= a -> a + zlen v <= zlen l -> zlen (splice l a v) = zlen l.
Proof.
  intros Ha H. pose proof (zlen_nonneg v). unfold splice. rewrite !zlen_app, zlen_firstn by lia.
  rewrite zlen_skipn; unfold zlen in *; lia.
Qed.
Lemma splice_znth {A} (l : list A) a v k : 0 <= a -> a + zlen v <= zlen l ->
  znth (splice l a v) k = if (a <=? k) && (k <? a + zlen v) then znth v (k - a) else znth l k.
Proof.
  intros Ha H. pose proof (zlen_nonneg v) as Hv. unfold splice.
  destruct (Z.lt_ge_cases k a) as [Hk|Hk].
  { destruct ((a <=? k) && (k <? a + zlen v)) eqn:E; [lia|].
    rewrite znth_app_l by (rewrite zlen_firstn; lia). apply znth_firstn. exact Hk. }
  rewrite znth_app_r by (rewrite zlen_firstn; lia). rewrite zlen_firstn by lia.
  destruct (Z.lt_ge_cases k (a + zlen v)) as [Hk2|Hk2].
  { destruct ((a <=? k) && (k <? a + zlen v)) eqn:E; [|lia]. apply znth_app_l. lia. }
  destruct ((a <=? k) && (k <? a + zlen v)) eqn:E; [lia|].
  rewrite znth_app_r by lia. rewrite znth_skipn by lia. f_equal. unfold zlen. lia.
Qed.
Lemma zlen_repeat {A} (x : A) n : zlen (repeat x n) = Z.of_nat n.
Proof. unfold zlen. rewrite repeat_length. reflexivity. Qed.
Lemma znth_repeat {A} (x : A) n k : 0 <= k < Z.of_nat n -> znth (repeat x n) k = Some x.
Proof.
  intros H. destruct (znth_ex (repeat x n) k) as [y Hy]; [rewrite zlen_repeat; lia|].
  rewrite Hy. f_equal. apply znth_In in Hy. eapply repeat_spec. exact Hy.
Qed.
