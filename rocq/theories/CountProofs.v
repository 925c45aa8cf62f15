(** Proofs of C29, C30. *)
From Verif Require Import Base BaseProofs Civil Freq FreqProofs Frame FrameProofs Timeline TimelineProofs Board Spec BoardProofs SpecLookup LookupProofs SpecRoll SpecQuery QueryProofs SpecInterval IntervalProofs.
From Coq Require Import ZifyBool ZifyNat QArith Qfield Lqa.
Open Scope Z_scope.
Ltac Zify.zify_post_hook ::= Z.div_mod_to_equations.

(** ** Sums *)
Lemma q_total_app l m : (q_total (l ++ m) == q_total l + q_total m)%Q.
Proof. induction l as [|x l IH]; cbn [app q_total fold_right]; [unfold q_total; cbn; ring|]. fold (q_total (l ++ m)). fold (q_total l). rewrite IH. ring. Qed.
Lemma q_total_zero {A} (g : A -> Q) l : (forall x, In x l -> g x == 0)%Q -> (q_total (map g l) == 0)%Q.
Proof.
  induction l as [|x l IH]; intros H; [reflexivity|]. cbn [map q_total fold_right]. fold (q_total (map g l)).
  rewrite (H x) by (left; reflexivity). rewrite IH by (intros y Hy; apply H; right; exact Hy). reflexivity.
Qed.
Lemma q_total_count {A} (g : A -> Q) (p : A -> bool) l :
  (forall x, In x l -> g x == if p x then 1 else 0)%Q -> (q_total (map g l) == inject_Z (zlen (filter p l)))%Q.
Proof.
  induction l as [|x l IH]; intros H; [reflexivity|]. cbn [map q_total fold_right]. fold (q_total (map g l)).
  rewrite (H x) by (left; reflexivity). rewrite IH by (intros y Hy; apply H; right; exact Hy). cbn [filter].
  destruct (p x); [rewrite zlen_cons, inject_Z_plus; reflexivity|]. rewrite Qplus_0_l. reflexivity.
Qed.

Lemma mapM_err {A B} (f : A -> res B) l e : mapM f l = Err e -> exists x, In x l /\ f x = Err e.
Proof.
  induction l as [|x l IH]; cbn [mapM]; intros H; [discriminate|].
  destruct (f x) as [y|e'] eqn:E; cbn [bind] in H.
  - destruct (mapM f l) as [ys|e'']; cbn [bind] in H; [discriminate|]. injection H as ->.
    destruct (IH eq_refl) as (z & Hz & Ez). exists z. split; [right; exact Hz|exact Ez].
  - injection H as ->. exists x. split; [left; reflexivity|exact E].
Qed.
(** The first failure is the failure. *)
Lemma mapM_first {B} (f : Z -> res B) n a e : mapM f (zrange a n) = Err e
  <-> exists k, a <= k < a + Z.of_nat n /\ f k = Err e /\ forall j e', a <= j < k -> f j <> Err e'.
Proof.
  revert a. induction n as [|n IH]; intros a.
  - cbn [zrange mapM]. split; [discriminate|]. intros (k & Hk & _). lia.
  - cbn [zrange mapM]. destruct (f a) as [y|e0] eqn:E; cbn [bind].
    + assert (H : match mapM f (zrange (a + 1) n) with Ok ys => Ok (y :: ys) | Err e' => Err e' end = Err e
                  <-> mapM f (zrange (a + 1) n) = Err e)
        by (destruct (mapM f (zrange (a + 1) n)); split; congruence).
      unfold bind. rewrite H, IH. clear H. split.
      * intros (k & Hk & Ek & Hb). exists k. split; [lia|]. split; [exact Ek|]. intros j e' Hj.
        destruct (Z.eq_dec j a) as [->|]; [congruence|]. apply Hb. lia.
      * intros (k & Hk & Ek & Hb). exists k.
        assert (k <> a) by (intros ->; congruence). split; [lia|]. split; [exact Ek|]. intros j e' Hj. apply Hb. lia.
    + split.
      * intros H. injection H as ->. exists a. split; [lia|]. split; [exact E|]. intros j e' Hj. lia.
      * intros (k & Hk & Ek & Hb). destruct (Z.eq_dec k a) as [->|]; [congruence|]. exfalso. apply (Hb a e0); [lia|exact E].
Qed.
Lemma Forall2_znth {A B} (R : A -> B -> Prop) l m : Forall2 R l m ->
  zlen l = zlen m /\ forall i x, znth l i = Some x -> exists y, znth m i = Some y /\ R x y.
Proof.
  induction 1 as [|x y l m H _ [IHl IHn]]; [split; [reflexivity|]; intros i x Hx; apply znth_In in Hx; contradiction|].
  rewrite !zlen_cons. split; [lia|]. intros i z Hz. pose proof (znth_range _ _ _ Hz) as R0. rewrite zlen_cons in R0.
  destruct (Z.eq_dec i 0) as [->|Hi].
  - rewrite znth_cons0 in Hz. injection Hz as <-. exists y. rewrite znth_cons0. split; [reflexivity|exact H].
  - rewrite znth_cons in Hz by lia. rewrite znth_cons by lia. apply IHn. exact Hz.
Qed.

Section Per.
  Context {L : Type} (tb : timeboard L) (W : tl_wf (tb_tl tb)).
  Local Notation ref := (ref_of (tb_tl tb)).

  (** What a period without clipping gives. *)
  Lemma unclipped_cases p s :
    let get := get_interval tb (RPeriod p) None None false C11 (Some s) in
    let out := p_start p < tb_start_time tb \/ tb_end_time tb < p_end p in
    (exists k m, get = Ok (mkIvl k m false s) /\ is_shift tb k /\ is_shift tb m /\ k <= m /\ ~ out
        /\ forall i, in_period tb p i <-> k <= i <= m)
    \/ (get = Err EOutOfBounds /\ out /\ forall i, ~ in_period tb p i)
    \/ (get = Err EPartialOutOfBounds /\ out /\ exists i, in_period tb p i)
    \/ (get = Err EVoidInterval /\ ~ out /\ forall i, ~ in_period tb p i).
  Proof.
    intros get out. unfold get. rewrite (get_by_period tb (RPeriod p) None p false C11 false false (Some s) (mp_period p None) eq_refl).
    cbn [sched_arg]. unfold locs_by_period.
    pose proof (p_start_end p) as Hp. pose proof (len_pos tb W) as Hlen.
    assert (HR : forall i, in_period tb p i <-> is_shift tb i /\ p_start p <= ref i <= p_end p)
      by (intros i; apply in_period_ref; exact W).
    pose proof (ref_start_end tb W) as Hse. pose proof (ref_mono tb W) as Hmono.
    assert (H0 : is_shift tb 0) by (unfold is_shift; lia). pose proof (Hse 0 H0) as Hse0.
    destruct (after_loc tb W (p_start p)) as (l0 & -> & C0). cbn [bind].
    destruct (before_loc tb W (p_end p)) as (l1 & -> & C1). cbn [bind].
    destruct C0 as [(A1 & ->)|[(A1 & A2 & ->)|(A1 & k & Hk & -> & A2 & A3)]];
    destruct C1 as [(B1 & ->)|[(B1 & B2 & ->)|(B1 & m & Hm' & -> & B2 & B3)]];
    cbn [l_where l_pos andb negb Z.eqb OOB_LEFT OOB_RIGHT LOC_WITHIN Pos.eqb]; rewrite strip_none; cbn [fst snd]; unfold out.
    - right. right. left. split; [reflexivity|]. split; [lia|]. exists 0. apply HR. split; [exact H0|lia].
    - right. left. split; [reflexivity|]. split; [lia|]. intros i Hi. apply HR in Hi. specialize (B2 i (proj1 Hi)). lia.
    - right. right. left. split; [reflexivity|]. split; [lia|]. exists m. apply HR. split; [exact Hm'|]. specialize (Hse m Hm'). lia.
    - right. left. split; [reflexivity|]. split; [lia|]. intros i Hi. apply HR in Hi. specialize (A2 i (proj1 Hi)). lia.
    - right. right. right. split; [reflexivity|]. split; [lia|]. intros i Hi. apply HR in Hi. specialize (A2 i (proj1 Hi)). lia.
    - right. right. right. split; [reflexivity|]. split; [lia|]. intros i Hi. apply HR in Hi. specialize (A2 i (proj1 Hi)). lia.
    - right. right. left. split; [reflexivity|]. split; [lia|]. exists k. apply HR. split; [exact Hk|]. specialize (Hse k Hk). lia.
    - right. right. right. split; [reflexivity|]. split; [lia|]. intros i Hi. apply HR in Hi. specialize (B2 i (proj1 Hi)). lia.
    - fold LOC_WITHIN. rewrite (from_within tb k m s Hk Hm'). destruct (k <=? m) eqn:E.
      + left. exists k, m. split; [reflexivity|]. split; [exact Hk|]. split; [exact Hm'|]. split; [lia|]. split; [lia|].
        intros i. rewrite HR. split.
        * intros [Hi H]. split.
          -- destruct (Z.lt_ge_cases i k) as [Hc|Hc]; [specialize (A3 i Hi Hc); lia|exact Hc].
          -- destruct (Z.lt_ge_cases m i) as [Hc|Hc]; [specialize (B3 i Hi Hc); lia|exact Hc].
        * intros H. assert (Hi : is_shift tb i) by (unfold is_shift in *; lia). split; [exact Hi|].
          specialize (Hmono k i Hk Hi ltac:(lia)) as M1. specialize (Hmono i m Hi Hm' ltac:(lia)) as M2. lia.
      + right. right. right. split; [reflexivity|]. split; [lia|]. intros i Hi. apply HR in Hi. destruct Hi as [Hi H].
        destruct (Z.lt_ge_cases i k) as [Hc|Hc]; [specialize (A3 i Hi Hc); lia|].
        destruct (Z.lt_ge_cases m i) as [Hc'|Hc']; [specialize (B3 i Hi Hc'); lia|]. lia.
  Qed.

  Variable (fs : fstr).
  Hypothesis (Hmult : fmult (to_freq fs) = 1%positive).
  Let b := fbase (to_freq fs).
  Let P o := mkPeriod (to_freq fs) o.

  Lemma P_start o : p_start (P o) = pstart b o. Proof. reflexivity. Qed.
  Lemma P_end o : p_end (P o) = pstart b (o + 1) - 1.
  Proof. unfold p_end, P. cbn [p_freq p_ord]. rewrite Hmult. reflexivity. Qed.
  Lemma ref_in_ok o i : is_shift tb i -> (ref_in tb b o i = true <-> pord b (ref i) = o).
  Proof.
    clear Hmult. intros Hi. unfold ref_in. rewrite (ws_ref_ok _ W i Hi). rewrite pord_iff. lia.
  Qed.
  Lemma in_period_P o i : in_period tb (P o) i <-> is_shift tb i /\ ref_in tb b o i = true.
  Proof.
    rewrite (in_period_ref tb W). rewrite P_start, P_end. split; intros [Hi H]; (split; [exact Hi|]).
    - apply ref_in_ok; [exact Hi|]. apply pord_iff. lia.
    - apply ref_in_ok in H; [|exact Hi]. apply pord_iff in H. lia.
  Qed.

  (** Duty workshifts of a period. *)
  Definition whole (d : duty) (s : schedule L) (o : Z) : Z :=
    zlen (filter (ref_in tb b o) (duty_list tb s d 0 (tb_len tb - 1))).

  Lemma whole_range d s o k m : is_shift tb k -> is_shift tb m ->
    (forall i, in_period tb (P o) i <-> k <= i <= m) -> whole d s o = zlen (duty_list tb s d k m).
  Proof.
    intros Hk Hm H. unfold whole. f_equal. apply asc_ext; [apply asc_filter, duty_list_asc|apply duty_list_asc|].
    intros i. rewrite filter_In, !duty_list_In. specialize (H i). rewrite in_period_P in H.
    unfold is_shift in *. split.
    - intros [[Hi Hd] Hri]. split; [|exact Hd]. apply H. split; [lia|exact Hri].
    - intros [Hi Hd]. assert (Hi' := proj2 H Hi). split; [split; [lia|exact Hd]|apply Hi'].
  Qed.

  Lemma entry_cases d s o : ivl_duty d -> sched_for tb s ->
    (exists k m, period_entry tb d s (P o) = Ok (Some (mkIvl k m false s, whole d s o))
        /\ is_shift tb k /\ is_shift tb m /\ k <= m /\ ~ leaves tb b o
        /\ forall i, in_period tb (P o) i <-> k <= i <= m)
    \/ (period_entry tb d s (P o) = Ok None /\ leaves tb b o /\ forall i, ~ in_period tb (P o) i)
    \/ (period_entry tb d s (P o) = Err EPartialOutOfBounds /\ leaves tb b o /\ exists i, in_period tb (P o) i)
    \/ (period_entry tb d s (P o) = Err EUnacceptablePeriod /\ ~ leaves tb b o /\ forall i, ~ in_period tb (P o) i).
  Proof.
    intros Hd Hs. unfold period_entry.
    assert (Hl : leaves tb b o <-> p_start (P o) < tb_start_time tb \/ tb_end_time tb < p_end (P o)).
    { unfold leaves. rewrite P_start, P_end. tauto. }
    destruct (unclipped_cases (P o) s) as [(k & m & E & Hk & Hm & Hkm & Ho & Hi)|[(E & Ho & Hi)|[(E & Ho & Hi)|(E & Ho & Hi)]]]; rewrite E; rewrite <- Hl in Ho.
    - left. exists k, m. split; [|split; [exact Hk|split; [exact Hm|split; [exact Hkm|split; [exact Ho|exact Hi]]]]].
      rewrite (iv_count_ok tb W (mkIvl k m false s) d (Some s)).
      + cbn [sched_arg bind]. rewrite (whole_range d s o k m Hk Hm Hi). reflexivity.
      + split; [exact Hs|]. split; [exact Hk|]. split; [exact Hm|]. exact Hkm.
      + exact Hd.
      + exact Hs.
    - right. left. split; [reflexivity|]. split; assumption.
    - right. right. left. split; [reflexivity|]. split; assumption.
    - right. right. right. split; [reflexivity|]. split; assumption.
  Qed.

  Lemma entry_wrong d s o e : ivl_duty d -> sched_for tb s ->
    (period_entry tb d s (P o) = Err e <-> wrong tb fs o e).
  Proof.
    intros Hd Hs. destruct (entry_cases d s o Hd Hs) as [(k & m & E & Hk & _ & Hkm & Ho & Hi)|[(E & Ho & Hi)|[(E & Ho & (i & Hi))|(E & Ho & Hi)]]]; rewrite E.
    - split; [discriminate|]. intros [j Hl _|_ Hn]; [destruct (Ho Hl)|]. exfalso. apply (Hn k), Hi. lia.
    - split; [discriminate|]. intros [j _ Hj|Hl _]; [destruct (Hi j Hj)|destruct (Hl Ho)].
    - split; [intros H; injection H as <-; exact (wrong_part tb fs o i Ho Hi)|].
      intros [j _ _|Hl _]; [reflexivity|destruct (Hl Ho)].
    - split; [intros H; injection H as <-; exact (wrong_empty tb fs o Ho Hi)|].
      intros [j Hl _|_ _]; [destruct (Ho Hl)|reflexivity].
  Qed.
End Per.

Section Cnt.
  Context {L : Type} (tb : timeboard L) (W : tl_wf (tb_tl tb)).
  Local Notation ref := (ref_of (tb_tl tb)).
  Variables (fs : fstr) (iv : interval L) (d : duty) (s : option (schedule L)).
  Hypothesis (Hsup : supported_period fs = true) (Hiv : iv_of tb iv) (Hnv : iv_void iv = false)
             (Hd : ivl_duty d) (Hs : sched_for tb (sched_arg s (iv_sched iv))).
  Let b := fbase (to_freq fs).
  Let sch := sched_arg s (iv_sched iv).
  Let lst := iv_list tb iv d sch.
  Let P o := mkPeriod (to_freq fs) o.

  Lemma sup_mult : fmult (to_freq fs) = 1%positive.
  Proof.
    unfold supported_period in Hsup. destruct (fdigits fs) eqn:E; [discriminate|]. rewrite single_freq; [rewrite E; reflexivity|].
    intros k rest Ea. rewrite Ea in Hsup. discriminate.
  Qed.

  Let t0 := unit_start (tl_frame (tb_tl tb)) (bnd (tb_tl tb) (iv_a iv)).
  Let t1 := unit_start (tl_frame (tb_tl tb)) (bnd (tb_tl tb) (iv_b iv + 1)) - 1.
  Let o0 := pord b t0.
  Let o1 := pord b t1.

  Lemma iv_times : starts_at tb (iv_a iv) t0 /\ ends_at tb (iv_b iv) t1.
  Proof.
    destruct Hiv as (_ & Ha & Hb & _). split; [apply (starts_at_iff tb _ _ W Ha)|apply (ends_at_iff tb _ _ W Hb)]; reflexivity.
  Qed.
  Lemma t0_t1 : t0 <= t1.
  Proof.
    destruct Hiv as (_ & Ha & Hb & Hab). rewrite Hnv in Hab. unfold is_shift in *. unfold t0, t1.
    pose proof (bnd_lt _ W (iv_a iv) (iv_b iv + 1)) as H. change (tl_len (tb_tl tb)) with (tb_len tb) in H.
    specialize (H ltac:(lia) ltac:(lia) ltac:(lia)). apply (unit_start_lt (tl_frame (tb_tl tb))) in H. lia.
  Qed.
  Lemma o0_o1 : o0 <= o1. Proof. apply pord_mono, t0_t1. Qed.
  Lemma ref_in_iv i : iv_a iv <= i <= iv_b iv -> t0 <= ref i <= t1.
  Proof.
    intros Hi. destruct Hiv as (_ & Ha & Hb & Hab). rewrite Hnv in Hab. unfold is_shift in *. unfold t0, t1.
    assert (Hi' : is_shift tb i) by (unfold is_shift; lia).
    pose proof (ref_of_within _ W i Hi') as H.
    pose proof (bnd_le _ W (iv_a iv) i) as H1. pose proof (bnd_le _ W (i + 1) (iv_b iv + 1)) as H2.
    change (tl_len (tb_tl tb)) with (tb_len tb) in *.
    specialize (H1 ltac:(lia) ltac:(lia) ltac:(lia)). specialize (H2 ltac:(lia) ltac:(lia) ltac:(lia)).
    apply (unit_start_le (tl_frame (tb_tl tb))) in H1. apply (unit_start_le (tl_frame (tb_tl tb))) in H2. lia.
  Qed.

  Let pindex := mkFrame fs o0 (o1 - o0 + 1).
  Lemma pindex_ok : mk_frame fs t0 t1 = Ok pindex /\ fr_wf pindex.
  Proof.
    pose proof o0_o1 as Ho. unfold mk_frame, period_count. fold b o0 o1. rewrite sup_mult.
    destruct (o1 <? o0) eqn:E; [lia|]. rewrite Z.div_1_r. destruct (o1 - o0 + 1 =? 0) eqn:E2; [lia|].
    split; [reflexivity|]. unfold fr_wf, pindex. cbn [fr_len]. lia.
  Qed.
  Lemma pindex_ord i : unit_ord pindex i = o0 + i.
  Proof. unfold unit_ord, pindex, fr_mult. cbn [fr_o0 fr_str]. rewrite sup_mult. lia. Qed.
  Lemma pindex_end i : unit_end pindex i = pstart b (o0 + i + 1) - 1.
  Proof. unfold unit_end. rewrite pindex_ord. unfold fr_mult, fr_base, pindex. cbn [fr_str]. rewrite sup_mult. reflexivity. Qed.
  Lemma pindex_loc t : t0 <= t <= t1 -> fr_get_loc pindex t = Ok (pord b t - o0) /\ o0 <= pord b t <= o1.
  Proof.
    intros Ht. pose proof (pord_mono b t0 t (proj1 Ht)) as M1. pose proof (pord_mono b t t1 (proj2 Ht)) as M2.
    fold o0 in M1. fold o1 in M2.
    destruct (fr_get_loc_in pindex t) as [E _]; [apply pindex_ok| |].
    - unfold fr_start_time, fr_end_time. rewrite pindex_end. unfold unit_start. rewrite pindex_ord. unfold fr_base, pindex.
      cbn [fr_str fr_len]. fold b. replace (o0 + 0) with o0 by lia. replace (o0 + (o1 - o0 + 1 - 1) + 1) with (o1 + 1) by lia.
      pose proof (pord_spec b t0) as S0. pose proof (pord_spec b t1) as S1. fold o0 in S0. fold o1 in S1. lia.
    - split; [|lia]. rewrite E. f_equal. apply unit_of_iff. rewrite pindex_end. unfold unit_start. rewrite pindex_ord. unfold fr_base, pindex.
      cbn [fr_str]. fold b. replace (o0 + (pord b t - o0)) with (pord b t) by lia. pose proof (pord_spec b t). lia.
  Qed.

  Lemma lst_In i : In i lst <-> iv_a iv <= i <= iv_b iv /\ has_duty tb sch d i = true.
  Proof. unfold lst, iv_list. rewrite Hnv. apply duty_list_In. Qed.
  Lemma lst_shift i : In i lst -> is_shift tb i.
  Proof. apply iv_list_shifts. exact Hiv. Qed.

  Lemma empty_zero div add : lst = [] -> count_periods_by div add tb iv fs d s = Ok 0%Q.
  Proof.
    intros He. unfold count_periods_by. rewrite Hnv, Hsup. cbn [negb].
    destruct iv_times as [E0 E1]. unfold starts_at in E0. unfold ends_at in E1.
    unfold iv_start_time, iv_end_time. rewrite E0, E1. cbn [bind]. rewrite (proj1 pindex_ok). cbn [bind].
    replace (opt_or s (iv_sched iv)) with sch by (unfold sch; destruct s; reflexivity).
    unfold iv_first. destruct (iv_nth_ok tb W iv 0 d (Some sch) Hiv Hd Hs) as [_ H]. cbn [sched_arg] in H. fold lst in H.
    rewrite H; [reflexivity|]. intros i [[_ Hi]|[Hi _]]; [|lia]. rewrite He in Hi. destruct (Z.to_nat 0); discriminate.
  Qed.

  (** The non-empty case. *)
  Variables (f l : Z).
  Hypothesis (Hf : In f lst) (Hl : In l lst) (Hfl : forall i, In i lst -> f <= i <= l).

  Lemma first_last : iv_first tb iv d (Some sch) = new_workshift tb f sch /\ iv_last tb iv d (Some sch) = new_workshift tb l sch
    /\ exists x y, new_workshift tb f sch = Ok (mkWs f x sch) /\ new_workshift tb l sch = Ok (mkWs l y sch).
  Proof.
    pose proof (iv_list_asc tb iv d sch) as Has. fold lst in Has.
    assert (A0 : at_index lst 0 f).
    { left. split; [lia|]. destruct lst as [|x l0] eqn:El; [contradiction|]. cbn. f_equal.
      pose proof (Hfl x (or_introl eq_refl)) as H1. destruct Hf as [->|Hin]; [reflexivity|].
      inversion Has as [|? ? _ HF]; subst. rewrite Forall_forall in HF. specialize (HF _ Hin). lia. }
    assert (A1 : at_index lst (-1) l).
    { right. split; [lia|]. destruct (exists_last (l := lst)) as (m & y & E).
      { intros E. rewrite E in Hf. contradiction. }
      rewrite E. rewrite app_length. cbn [length]. split; [lia|].
      replace (Z.to_nat (Z.of_nat (length m + 1) + -1)) with (length m) by lia.
      rewrite nth_error_app2 by lia. rewrite Nat.sub_diag. cbn. f_equal.
      assert (Hy : In y lst) by (rewrite E; apply in_or_app; right; left; reflexivity).
      pose proof (Hfl y Hy) as H1. pose proof Hl as Hl'. rewrite E in Hl'. apply in_app_or in Hl'.
      destruct Hl' as [Hin|[->|[]]]; [|reflexivity].
      rewrite E in Has. apply asc_app_inv in Has. destruct Has as (_ & _ & Hc). specialize (Hc l y Hin (or_introl eq_refl)). lia. }
    destruct (iv_nth_ok tb W iv 0 d (Some sch) Hiv Hd Hs) as [H0 _]. cbn [sched_arg] in H0. fold lst in H0.
    destruct (iv_nth_ok tb W iv (-1) d (Some sch) Hiv Hd Hs) as [H1 _]. cbn [sched_arg] in H1. fold lst in H1.
    destruct (H0 f A0) as (w0 & E0 & S0 & S1 & S2). destruct (H1 l A1) as (w1 & E1 & U0 & U1 & U2).
    unfold iv_first, iv_last. rewrite E0, E1. unfold new_workshift. rewrite S2, U2.
    destruct w0 as [p0 x0 q0], w1 as [p1 x1 q1]. cbn [ws_loc ws_label ws_sched] in *. subst.
    split; [reflexivity|]. split; [reflexivity|]. exists x0, x1. split; reflexivity.
  Qed.

  Let K0 := pord b (ref f).
  Let K1 := pord b (ref l).
  Lemma K_range : o0 <= K0 /\ K0 <= K1 /\ K1 <= o1.
  Proof.
    pose proof (lst_shift f Hf) as Sf. pose proof (lst_shift l Hl) as Sl.
    pose proof (ref_in_iv f (proj1 (proj1 (lst_In f) Hf))) as R0. pose proof (ref_in_iv l (proj1 (proj1 (lst_In l) Hl))) as R1.
    pose proof (pindex_loc _ R0) as [_ Q0]. pose proof (pindex_loc _ R1) as [_ Q1]. fold K0 in Q0. fold K1 in Q1.
    assert (K0 <= K1) by (apply pord_mono, (ref_mono tb W); try assumption; apply (Hfl f Hf)). lia.
  Qed.

  Definition part (o : Z) : Z := zlen (filter (ref_in tb b o) lst).

  Lemma part_out o : o < K0 \/ K1 < o -> part o = 0.
  Proof.
    intros Ho. unfold part. rewrite filter_none; [reflexivity|]. intros i Hi. pose proof (lst_shift i Hi) as Si.
    destruct (ref_in tb b o i) eqn:E; [|reflexivity]. apply (ref_in_ok tb W fs o i Si) in E. fold b in E.
    pose proof (Hfl i Hi) as Hr.
    pose proof (pord_mono b _ _ (ref_mono tb W f i (lst_shift f Hf) Si (proj1 Hr))) as M1.
    pose proof (pord_mono b _ _ (ref_mono tb W i l Si (lst_shift l Hl) (proj2 Hr))) as M2. fold K0 in M1. fold K1 in M2. lia.
  Qed.

  (** Members of a period strictly between, or on the inner side of [f] or [l]. *)
  Lemma ref_lt_pos i j : is_shift tb i -> is_shift tb j -> pord b (ref i) < pord b (ref j) -> i < j.
  Proof.
    intros Hi Hj H. destruct (Z.lt_ge_cases i j) as [|Hc]; [assumption|].
    pose proof (pord_mono b _ _ (ref_mono tb W j i Hj Hi Hc)). lia.
  Qed.
  Lemma part_mid o : K0 < o < K1 -> part o = whole tb fs d sch o.
  Proof.
    intros Ho. unfold part, whole. fold b. f_equal. apply asc_ext; [apply asc_filter, iv_list_asc|apply asc_filter, duty_list_asc|].
    intros i. rewrite !filter_In, lst_In, duty_list_In. destruct Hiv as (_ & Ha & Hb & _). unfold is_shift in Ha, Hb. split.
    - intros [[Hi Hdi] Hri]. split; [split; [lia|exact Hdi]|exact Hri].
    - intros [[Hi Hdi] Hri]. split; [|exact Hri]. split; [|exact Hdi].
      assert (Si : is_shift tb i) by (unfold is_shift; lia).
      pose proof (proj1 (ref_in_ok tb W fs o i Si) Hri) as E. fold b in E.
      pose proof (ref_lt_pos f i (lst_shift f Hf) Si) as L1. pose proof (ref_lt_pos i l Si (lst_shift l Hl)) as L2.
      fold K0 in L1. fold K1 in L2. pose proof (proj1 (proj1 (lst_In f) Hf)). pose proof (proj1 (proj1 (lst_In l) Hl)). lia.
  Qed.

  Lemma in_P o i : is_shift tb i -> (in_period tb (P o) i <-> pord b (ref i) = o).
  Proof.
    intros Hi. unfold P. rewrite (in_period_P tb W fs sup_mult). rewrite (ref_in_ok tb W fs o i Hi). fold b. tauto.
  Qed.
  Lemma whole_pos o i : In i lst -> pord b (ref i) = o -> 0 < whole tb fs d sch o.
  Proof.
    intros Hi Ho. unfold whole. fold b. pose proof (lst_shift i Hi) as Si. pose proof (proj1 (lst_In i) Hi) as [_ Hdi].
    assert (Hin : In i (filter (ref_in tb b o) (duty_list tb sch d 0 (tb_len tb - 1)))).
    { apply filter_In. rewrite duty_list_In. split; [split; [unfold is_shift in Si; lia|exact Hdi]|].
      apply (ref_in_ok tb W fs o i Si). exact Ho. }
    destruct (filter _ _) as [|x r]; [contradiction|]. rewrite zlen_cons. pose proof (zlen_nonneg r). lia.
  Qed.

  Lemma quotient_part o : (quotient tb iv b d sch o == if whole tb fs d sch o =? 0 then 0 else inject_Z (part o) / inject_Z (whole tb fs d sch o))%Q.
  Proof. reflexivity. Qed.

  Lemma sum_split : (q_total (map (quotient tb iv b d sch) (positions o0 o1)) ==
     if K0 =? K1 then quotient tb iv b d sch K0
     else quotient tb iv b d sch K0 + quotient tb iv b d sch K1
          + inject_Z (zlen (filter (fun o => 0 <? whole tb fs d sch o) (positions (K0 + 1) (K1 - 1)))))%Q.
  Proof.
    pose proof K_range as HK.
    assert (Z0 : forall o, o < K0 \/ K1 < o -> (quotient tb iv b d sch o == 0)%Q).
    { intros o Ho. rewrite quotient_part. rewrite (part_out o Ho). destruct (whole tb fs d sch o =? 0) eqn:E; [reflexivity|].
      unfold Qdiv. rewrite Qmult_0_l. reflexivity. }
    assert (One : forall k, positions k k = [k]).
    { intros k. unfold positions. replace (Z.to_nat (k + 1 - k)) with 1%nat by lia. reflexivity. }
    rewrite (positions_split o0 (K0 - 1) o1) by lia. replace (K0 - 1 + 1) with K0 by lia.
    rewrite map_app, q_total_app.
    rewrite (q_total_zero _ (positions o0 (K0 - 1))) by (intros o Ho; apply Z0; apply positions_In in Ho; lia).
    rewrite Qplus_0_l. destruct (K0 =? K1) eqn:E.
    - assert (EK : K0 = K1) by lia. rewrite (positions_split K0 K0 o1) by lia. rewrite One, map_app, q_total_app.
      rewrite (q_total_zero _ (positions (K0 + 1) o1)) by (intros o Ho; apply Z0; apply positions_In in Ho; lia).
      cbn [map q_total fold_right]. rewrite !Qplus_0_r. reflexivity.
    - rewrite (positions_split K0 K0 o1) by lia. rewrite One, map_app, q_total_app.
      rewrite (positions_split (K0 + 1) (K1 - 1) o1) by lia. replace (K1 - 1 + 1) with K1 by lia. rewrite map_app, q_total_app.
      rewrite (positions_split K1 K1 o1) by lia. rewrite One, map_app, q_total_app.
      rewrite (q_total_zero _ (positions (K1 + 1) o1)) by (intros o Ho; apply Z0; apply positions_In in Ho; lia).
      rewrite (q_total_count _ (fun o => 0 <? whole tb fs d sch o) (positions (K0 + 1) (K1 - 1))).
      + cbn [map q_total fold_right]. ring.
      + intros o Ho. apply positions_In in Ho. rewrite quotient_part. rewrite (part_mid o) by lia.
        pose proof (zlen_nonneg (filter (ref_in tb b o) (duty_list tb sch d 0 (tb_len tb - 1)))) as Hw. fold b in Hw.
        change (0 <= whole tb fs d sch o) in Hw.
        destruct (whole tb fs d sch o =? 0) eqn:E0; destruct (0 <? whole tb fs d sch o) eqn:E1; try lia; [reflexivity|].
        field. intros H. unfold Qeq in H. cbn in H. lia.
  Qed.

  Let entry i := period_entry tb d sch (mkPeriod (to_freq fs) (unit_ord pindex i)).
  Lemma entry_P i : entry i = period_entry tb d sch (P (o0 + i)).
  Proof. unfold entry. rewrite pindex_ord. reflexivity. Qed.

  Lemma count_unfold div add : count_periods_by div add tb iv fs d s =
      do entries <- mapM entry (zrange 0 (Z.to_nat (o1 - o0 + 1)));
      do e0 <- unwrap_entry (znth entries (K0 - o0));
      do e1 <- unwrap_entry (znth entries (K1 - o0));
      if K0 =? K1 then
        div (zlen lst) (snd e0)
      else
        do te <- iv_end_time tb (fst e0);
        do i0 <- get_interval tb (RPair (Some (ref f)) (Some te)) None None false C11 (Some sch);
        do c0 <- iv_count i0 d (Some sch);
        do q0 <- div c0 (snd e0);
        do ts <- iv_start_time tb (fst e1);
        do i1 <- get_interval tb (RPair (Some ts) (Some (ref l))) None None false C11 (Some sch);
        do c1 <- iv_count i1 d (Some sch);
        do q1 <- div c1 (snd e1);
        do full <- (if 0 <? (K1 - o0) - (K0 - o0) - 1
                    then count_positive (py_slice entries (K0 - o0 + 1) (K1 - o0)) else Ok 0);
        Ok (add (add q0 q1) (inject_Z full)).
  Proof.
    unfold count_periods_by. rewrite Hnv, Hsup. cbn [negb].
    destruct iv_times as [E0 E1]. unfold starts_at in E0. unfold ends_at in E1.
    unfold iv_start_time at 1. unfold iv_end_time at 1. rewrite E0, E1. cbn [bind]. rewrite (proj1 pindex_ok). cbn [bind].
    replace (opt_or s (iv_sched iv)) with sch by (unfold sch; destruct s; reflexivity).
    destruct first_last as (F1 & F2 & x & y & F3 & F4). rewrite F1, F2, F3, F4. cbn [bind ws_loc].
    pose proof (lst_shift f Hf) as Sf. pose proof (lst_shift l Hl) as Sl.
    rewrite (ws_ref_ok _ W f Sf), (ws_ref_ok _ W l Sl). cbn [bind].
    change (fr_len pindex) with (o1 - o0 + 1). fold entry.
    destruct (mapM entry (zrange 0 (Z.to_nat (o1 - o0 + 1)))) as [entries|e]; [|reflexivity]. cbn [bind].
    pose proof (ref_in_iv f (proj1 (proj1 (lst_In f) Hf))) as R0. pose proof (ref_in_iv l (proj1 (proj1 (lst_In l) Hl))) as R1.
    rewrite (proj1 (pindex_loc _ R0)), (proj1 (pindex_loc _ R1)). fold K0 K1. cbn [bind].
    destruct (unwrap_entry (znth entries (K0 - o0))) as [e0|e]; [|reflexivity]. cbn [bind].
    destruct (unwrap_entry (znth entries (K1 - o0))) as [e1|e]; [|reflexivity]. cbn [bind].
    assert (Hc : (ref l <=? unit_end pindex (K0 - o0)) = (K0 =? K1)).
    { rewrite pindex_end. replace (o0 + (K0 - o0) + 1) with (K0 + 1) by lia. pose proof K_range.
      pose proof (pord_le_iff b (K0 + 1) (ref l)) as H1. fold K1 in H1. lia. }
    rewrite Hc. destruct (K0 =? K1); [|reflexivity].
    rewrite (iv_count_ok tb W iv d (Some sch) Hiv Hd Hs). reflexivity.
  Qed.

  Lemma count_positive_ok ents os : Forall2 (fun o e => exists k m, e = Some (mkIvl k m false sch, whole tb fs d sch o)) os ents ->
    count_positive ents = Ok (zlen (filter (fun o => 0 <? whole tb fs d sch o) os)).
  Proof.
    induction 1 as [|o e os ents (k & m & ->) _ IH]; cbn [count_positive filter]; [reflexivity|]. rewrite IH. cbn [bind].
    destruct (0 <? whole tb fs d sch o); [rewrite zlen_cons|]; f_equal; lia.
  Qed.

  Definition full_between : Z := zlen (filter (fun o => 0 <? whole tb fs d sch o) (positions (K0 + 1) (K1 - 1))).
  (** All entries computed: one quotient, or two quotients and the number of the periods between. *)
  Lemma count_entries_by div add entries : mapM entry (zrange 0 (Z.to_nat (o1 - o0 + 1))) = Ok entries ->
    count_periods_by div add tb iv fs d s =
      if K0 =? K1 then div (part K0) (whole tb fs d sch K0)
      else do q0 <- div (part K0) (whole tb fs d sch K0); do q1 <- div (part K1) (whole tb fs d sch K1);
           Ok (add (add q0 q1) (inject_Z full_between)).
  Proof.
    intros HE. rewrite count_unfold, HE. cbn [bind]. apply mapM_inv in HE. apply Forall2_znth in HE. destruct HE as [Hlen HE].
    rewrite zlen_zrange in Hlen. pose proof K_range as HK. pose proof o0_o1 as Ho.
    assert (GE : forall o, K0 <= o <= K1 -> exists k m, znth entries (o - o0) = Some (Some (mkIvl k m false sch, whole tb fs d sch o))
       /\ is_shift tb k /\ is_shift tb m /\ k <= m /\ forall i, in_period tb (P o) i <-> k <= i <= m).
    { intros o Hoo. destruct (HE (o - o0) (o - o0)) as (e & Ee & Er).
      { rewrite zrange_znth by lia. reflexivity. }
      rewrite entry_P in Er. replace (o0 + (o - o0)) with o in Er by lia.
      pose proof (lst_shift f Hf) as Sf. pose proof (lst_shift l Hl) as Sl.
      assert (Hex : (exists i, in_period tb (P o) i) \/ ~ leaves tb b o).
      { destruct (Z.eq_dec o K0) as [->|N0]; [left; exists f; apply in_P; [exact Sf|reflexivity]|].
        destruct (Z.eq_dec o K1) as [->|N1]; [left; exists l; apply in_P; [exact Sl|reflexivity]|].
        right. unfold leaves. pose proof (ref_start_end tb W f Sf). pose proof (ref_start_end tb W l Sl).
        pose proof (pord_spec b (ref f)) as Q0. pose proof (pord_spec b (ref l)) as Q1. fold K0 in Q0. fold K1 in Q1.
        pose proof (pstart_le_iff b (K0 + 1) o). pose proof (pstart_le_iff b (o + 1) K1). lia. }
      destruct (entry_cases tb W fs sup_mult d sch o Hd Hs) as [(k & m & E & Hk & Hm & Hkm & _ & Hi)|[(E & Hl' & Hn)|[(E & _)|(E & _)]]];
        fold (P o) in E; rewrite E in Er.
      - injection Er as <-. exists k, m. repeat (split; [assumption|]). exact Hi.
      - exfalso. destruct Hex as [(i & Hi)|Hx]; [exact (Hn i Hi)|exact (Hx Hl')].
      - discriminate.
      - discriminate. }
    destruct (GE K0 ltac:(lia)) as (k0 & m0 & E0 & Sk0 & Sm0 & Hkm0 & Hi0).
    destruct (GE K1 ltac:(lia)) as (k1 & m1 & E1 & Sk1 & Sm1 & Hkm1 & Hi1).
    rewrite E0, E1. cbn [unwrap_entry bind fst snd].
    pose proof (lst_shift f Hf) as Sf. pose proof (lst_shift l Hl) as Sl.
    pose proof (whole_pos K0 f Hf eq_refl) as W0. pose proof (whole_pos K1 l Hl eq_refl) as W1.
    destruct (K0 =? K1) eqn:EK.
    - unfold part. rewrite filter_all; [reflexivity|].
      intros i Hi. pose proof (lst_shift i Hi) as Si. apply (ref_in_ok tb W fs K0 i Si). fold b. pose proof (Hfl i Hi) as Hr.
      pose proof (pord_mono b _ _ (ref_mono tb W f i Sf Si (proj1 Hr))) as M1.
      pose proof (pord_mono b _ _ (ref_mono tb W i l Si Sl (proj2 Hr))) as M2. fold K0 in M1. fold K1 in M2. lia.
    - assert (HK01 : K0 < K1) by lia.
      assert (If : in_period tb (P K0) f) by (apply in_P; [exact Sf|reflexivity]).
      assert (Il : in_period tb (P K1) l) by (apply in_P; [exact Sl|reflexivity]).
      apply Hi0 in If. apply Hi1 in Il.
      unfold iv_end_time. cbn [iv_b]. destruct (shift_times tb m0 W Sm0) as (_ & Em0 & _). unfold ends_at in Em0. rewrite Em0. cbn [bind].
      assert (Hpair : forall i j t u, holds_time tb i t -> holds_time tb j u -> i <= j ->
         get_interval tb (RPair (Some t) (Some u)) None None false C11 (Some sch) = Ok (mkIvl i j false sch)).
      { intros i j t u Hi Hj Hij. unfold get_interval. cbn [drop_flags bind]. unfold locs_from_reference.
        rewrite (locate_holds tb t i W Hi), (locate_holds tb u j W Hj). cbn [bind]. rewrite strip_none. cbn [fst snd opt_or].
        rewrite (from_within tb i j sch (proj1 Hi) (proj1 Hj)). destruct (i <=? j) eqn:E; [reflexivity|lia]. }
      assert (Href : forall i, is_shift tb i -> holds_time tb i (ref i)).
      { intros i Hi. apply (holds_time_iff tb i _ W). split; [exact Hi|]. apply (ref_of_within _ W i Hi). }
      rewrite (Hpair f m0 _ _ (Href f Sf)).
      2:{ apply (holds_time_iff tb m0 _ W). split; [exact Sm0|]. pose proof (ref_of_within _ W m0 Sm0). lia. }
      2:{ lia. }
      cbn [bind].
      assert (Hof : forall i j, is_shift tb i -> is_shift tb j -> i <= j -> iv_of tb (mkIvl i j false sch)).
      { intros i j Hi Hj Hij. split; [exact Hs|]. split; [exact Hi|]. split; [exact Hj|exact Hij]. }
      rewrite (iv_count_ok tb W (mkIvl f m0 false sch) d (Some sch) (Hof f m0 Sf Sm0 ltac:(lia)) Hd Hs). cbn [bind sched_arg].
      unfold iv_start_time. cbn [iv_a]. destruct (shift_times tb k1 W Sk1) as (Ek1 & _). unfold starts_at in Ek1. rewrite Ek1. cbn [bind].
      rewrite (Hpair k1 l _ _).
      2:{ apply (holds_time_iff tb k1 _ W). split; [exact Sk1|]. pose proof (ref_of_within _ W k1 Sk1). lia. }
      2:{ apply Href. exact Sl. }
      2:{ lia. }
      cbn [bind].
      rewrite (iv_count_ok tb W (mkIvl k1 l false sch) d (Some sch) (Hof k1 l Sk1 Sl ltac:(lia)) Hd Hs). cbn [bind sched_arg].
      assert (Hfull : (if 0 <? K1 - o0 - (K0 - o0) - 1 then count_positive (py_slice entries (K0 - o0 + 1) (K1 - o0)) else Ok 0)
         = Ok (zlen (filter (fun o => 0 <? whole tb fs d sch o) (positions (K0 + 1) (K1 - 1))))).
      { destruct (0 <? K1 - o0 - (K0 - o0) - 1) eqn:E.
        - apply count_positive_ok.
          assert (Hz : forall os ents, zlen os = zlen ents -> (forall i o e, znth os i = Some o -> znth ents i = Some e ->
              exists k m, e = Some (mkIvl k m false sch, whole tb fs d sch o)) ->
              Forall2 (fun o e => exists k m, e = Some (mkIvl k m false sch, whole tb fs d sch o)) os ents).
          { induction os as [|o os IH]; intros [|e ents] Hln Hz; rewrite ?zlen_cons in Hln; try (pose proof (zlen_nonneg os)); try (pose proof (zlen_nonneg ents)); try (revert Hln; znil; lia).
            - constructor.
            - constructor; [apply (Hz 0); apply znth_cons0|]. apply IH; [lia|]. intros i o' e' Ho' He'.
              apply (Hz (i + 1)); (rewrite znth_cons by (pose proof (znth_range _ _ _ Ho'); lia)); replace (i + 1 - 1) with i by lia; assumption. }
          apply Hz.
          + rewrite zlen_positions by lia. rewrite py_slice_len by lia. lia.
          + intros i o e Hoi Hei. pose proof (znth_range _ _ _ Hoi) as R. rewrite zlen_positions in R by lia.
            rewrite positions_znth in Hoi by lia. injection Hoi as <-. rewrite py_slice_znth in Hei by lia.
            destruct (GE (K0 + 1 + i) ltac:(lia)) as (k & m & Ee & _). replace (K0 + 1 + i - o0) with (K0 - o0 + 1 + i) in Ee by lia.
            rewrite Ee in Hei. injection Hei as <-. exists k, m. reflexivity.
        - rewrite positions_empty by lia. reflexivity. }
      rewrite Hfull. cbn [bind]. fold full_between.
      assert (P0 : iv_list tb (mkIvl f m0 false sch) d sch = filter (ref_in tb b K0) lst).
      { apply asc_ext; [apply iv_list_asc|apply asc_filter, iv_list_asc|]. intros i. unfold iv_list at 1. cbn [iv_void iv_a iv_b].
        rewrite duty_list_In, filter_In, lst_In. pose proof (proj1 (proj1 (lst_In f) Hf)) as Fa. pose proof (proj1 (proj1 (lst_In l) Hl)) as La.
        split.
        - intros [Hi Hdi]. assert (Si : is_shift tb i) by (unfold is_shift in *; lia).
          assert (Hp : in_period tb (P K0) i) by (apply Hi0; lia). apply in_P in Hp; [|exact Si].
          split; [|apply (ref_in_ok tb W fs K0 i Si); exact Hp]. split; [|exact Hdi].
          pose proof (ref_lt_pos i l Si Sl) as Hlt. fold K1 in Hlt. lia.
        - intros [[Hi Hdi] Hri]. split; [|exact Hdi].
          assert (Hin : In i lst) by (apply lst_In; split; assumption). pose proof (lst_shift i Hin) as Si.
          apply (ref_in_ok tb W fs K0 i Si) in Hri. assert (Hp : in_period tb (P K0) i) by (apply in_P; assumption).
          apply Hi0 in Hp. pose proof (Hfl i Hin). lia. }
      assert (P1 : iv_list tb (mkIvl k1 l false sch) d sch = filter (ref_in tb b K1) lst).
      { apply asc_ext; [apply iv_list_asc|apply asc_filter, iv_list_asc|]. intros i. unfold iv_list at 1. cbn [iv_void iv_a iv_b].
        rewrite duty_list_In, filter_In, lst_In. pose proof (proj1 (proj1 (lst_In f) Hf)) as Fa. pose proof (proj1 (proj1 (lst_In l) Hl)) as La.
        split.
        - intros [Hi Hdi]. assert (Si : is_shift tb i) by (unfold is_shift in *; lia).
          assert (Hp : in_period tb (P K1) i) by (apply Hi1; lia). apply in_P in Hp; [|exact Si].
          split; [|apply (ref_in_ok tb W fs K1 i Si); exact Hp]. split; [|exact Hdi].
          pose proof (ref_lt_pos f i Sf Si) as Hlt. fold K0 in Hlt. lia.
        - intros [[Hi Hdi] Hri]. split; [|exact Hdi].
          assert (Hin : In i lst) by (apply lst_In; split; assumption). pose proof (lst_shift i Hin) as Si.
          apply (ref_in_ok tb W fs K1 i Si) in Hri. assert (Hp : in_period tb (P K1) i) by (apply in_P; assumption).
          apply Hi1 in Hp. pose proof (Hfl i Hin). lia. }
      unfold part. rewrite P0, P1. destruct (div _ _) as [q0|e]; [|reflexivity]. reflexivity.
  Qed.
  (** Without rounding, that is the sum. *)
  Lemma count_entries entries : mapM entry (zrange 0 (Z.to_nat (o1 - o0 + 1))) = Ok entries ->
    exists q, count_periods tb iv fs d s = Ok q
      /\ (q == q_total (map (quotient tb iv b d sch) (positions o0 o1)))%Q.
  Proof.
    intros HE. unfold count_periods. rewrite (count_entries_by q_div Qplus entries HE).
    pose proof (whole_pos K0 f Hf eq_refl) as W0. pose proof (whole_pos K1 l Hl eq_refl) as W1.
    unfold q_div. destruct (whole tb fs d sch K0 =? 0) eqn:Ew0; [lia|]. destruct (whole tb fs d sch K1 =? 0) eqn:Ew1; [lia|]. cbn [bind].
    assert (Hsum := sum_split). fold full_between in Hsum.
    destruct (K0 =? K1); eexists; (split; [reflexivity|]); rewrite Hsum, !quotient_part, Ew0, ?Ew1; reflexivity.
  Qed.

  Lemma entries_err e : count_periods tb iv fs d s = Err e <-> exists o, o0 <= o <= o1
    /\ wrong tb fs o e /\ forall o' e', o0 <= o' < o -> ~ wrong tb fs o' e'.
  Proof.
    assert (H : count_periods tb iv fs d s = Err e <-> mapM entry (zrange 0 (Z.to_nat (o1 - o0 + 1))) = Err e).
    { destruct (mapM entry (zrange 0 (Z.to_nat (o1 - o0 + 1)))) as [entries|e'] eqn:E.
      - destruct (count_entries entries E) as (q & Hq & _). rewrite Hq. split; discriminate.
      - unfold count_periods. rewrite count_unfold, E. cbn [bind]. split; congruence. }
    pose proof o0_o1 as Ho. rewrite H, mapM_first. clear H. split.
    - intros (k & Hk & E & Hb). exists (o0 + k). split; [lia|]. rewrite entry_P in E.
      apply (entry_wrong tb W fs sup_mult d sch _ e Hd Hs) in E. split; [exact E|]. intros o' e' Ho' Hw.
      apply (entry_wrong tb W fs sup_mult d sch _ e' Hd Hs) in Hw. apply (Hb (o' - o0) e'); [lia|]. rewrite entry_P.
      replace (o0 + (o' - o0)) with o' by lia. exact Hw.
    - intros (o & Hoo & Hw & Hb). exists (o - o0). split; [lia|]. rewrite entry_P. replace (o0 + (o - o0)) with o by lia.
      split; [apply (entry_wrong tb W fs sup_mult d sch _ e Hd Hs); exact Hw|]. intros j e' Hj Hw'. rewrite entry_P in Hw'.
      apply (entry_wrong tb W fs sup_mult d sch _ e' Hd Hs) in Hw'. apply (Hb (o0 + j) e'); [lia|exact Hw'].
  Qed.
End Cnt.

Lemma first_last_list (l : list Z) f x : asc l -> hd_error l = Some f -> hd_error (rev l) = Some x ->
  In f l /\ In x l /\ forall i, In i l -> f <= i <= x.
Proof.
  intros Has Hf Hx. destruct l as [|y l]; [discriminate|]. injection Hf as ->.
  destruct (exists_last (l := f :: l)) as (m & z & E); [discriminate|]. rewrite E in Hx. rewrite rev_app_distr in Hx. injection Hx as ->.
  split; [left; reflexivity|]. split; [rewrite E; apply in_or_app; right; left; reflexivity|]. intros i Hi. split.
  - destruct Hi as [->|Hi]; [lia|]. inversion Has as [|? ? _ HF]; subst. rewrite Forall_forall in HF. specialize (HF _ Hi). lia.
  - rewrite E in Has, Hi. apply asc_app_inv in Has. destruct Has as (_ & _ & Hc). apply in_app_or in Hi.
    destruct Hi as [Hi|[->|[]]]; [|lia]. specialize (Hc i x Hi (or_introl eq_refl)). lia.
Qed.
Lemma list_ends (l : list Z) : l <> [] -> exists f x, hd_error l = Some f /\ hd_error (rev l) = Some x.
Proof.
  intros Hl. destruct l as [|f l]; [contradiction|]. destruct (exists_last (l := f :: l)) as (m & z & E); [discriminate|].
  exists f, z. split; [reflexivity|]. rewrite E, rev_app_distr. reflexivity.
Qed.

Lemma touches_unique {L} (tb : timeboard L) iv b o0 o1 p0 p1 :
  touches tb iv b o0 o1 -> touches tb iv b p0 p1 -> o0 = p0 /\ o1 = p1.
Proof.
  intros (t0 & t1 & A & B & C & D) (u0 & u1 & A' & B' & C' & D'). unfold starts_at in *. unfold ends_at in *.
  rewrite A in A'. rewrite B in B'. injection A' as <-. injection B' as <-.
  apply in_cal_unit_pord in C, D, C', D'. lia.
Qed.

Lemma touches_ex {L} (tb : timeboard L) (W : tl_wf (tb_tl tb)) iv b : iv_of tb iv ->
  touches tb iv b (pord b (unit_start (tl_frame (tb_tl tb)) (bnd (tb_tl tb) (iv_a iv))))
                  (pord b (unit_start (tl_frame (tb_tl tb)) (bnd (tb_tl tb) (iv_b iv + 1)) - 1)).
Proof.
  intros (_ & Ha & Hb & _). eexists _, _. split; [apply (starts_at_iff tb _ _ W Ha); reflexivity|].
  split; [apply (ends_at_iff tb _ _ W Hb); reflexivity|]. split; apply in_cal_unit_pord; reflexivity.
Qed.

Lemma C29_count_pf : forall (L : Type) (tb : timeboard L) (iv : interval L) fs d s q,
  reachable tb -> iv_of tb iv -> (forall s', s = Some s' -> sched_for tb s') ->
  count_periods tb iv fs d s = Ok q ->
  exists o0 o1, touches tb iv (fbase (to_freq fs)) o0 o1
    /\ (q == q_total (map (quotient tb iv (fbase (to_freq fs)) d (sched_arg s (iv_sched iv))) (positions o0 o1)))%Q.
Proof.
  intros L tb iv fs d s q Hr Hiv Hs Hq. apply reachable_wf in Hr. destruct Hr as (W & _ & _).
  pose proof (iv_sched_for tb iv s Hiv Hs) as Hsa. eexists _, _. split; [apply (touches_ex tb W iv _ Hiv)|].
  assert (HZ : iv_list tb iv d (sched_arg s (iv_sched iv)) = [] -> forall l, (q_total (map (quotient tb iv (fbase (to_freq fs)) d (sched_arg s (iv_sched iv))) l) == 0)%Q).
  { intros He l. apply q_total_zero. intros o _. unfold quotient. rewrite He. cbn [filter]. destruct (_ =? 0); [reflexivity|].
    change (zlen []) with 0. unfold Qdiv. rewrite Qmult_0_l. reflexivity. }
  destruct (iv_void iv) eqn:Hv.
  - unfold count_periods, count_periods_by in Hq. rewrite Hv in Hq. injection Hq as <-. rewrite HZ; [reflexivity|]. unfold iv_list. rewrite Hv. reflexivity.
  - assert (Hsup : supported_period fs = true).
    { unfold count_periods, count_periods_by in Hq. rewrite Hv in Hq. destruct (supported_period fs); [reflexivity|discriminate]. }
    assert (Hd : ivl_duty d).
    { unfold count_periods, count_periods_by in Hq. rewrite Hv, Hsup in Hq. cbn [negb] in Hq.
      destruct (iv_start_time tb iv); [|discriminate]. destruct (iv_end_time tb iv); [|discriminate]. cbn [bind] in Hq.
      destruct (mk_frame fs _ _); [|discriminate]. cbn [bind] in Hq. unfold iv_first, iv_nth in Hq. rewrite Hv in Hq.
      unfold ivl_duty. destruct d; cbn [get_duty_idx bind] in Hq; try discriminate; auto. }
    destruct (iv_list tb iv d (sched_arg s (iv_sched iv))) as [|y l0] eqn:El.
    + unfold count_periods in Hq. rewrite (empty_zero tb W fs iv d s Hsup Hiv Hv Hd Hsa q_div Qplus El) in Hq. injection Hq as <-. rewrite HZ by reflexivity. reflexivity.
    + destruct (list_ends (y :: l0)) as (f & x & Hf & Hx); [discriminate|]. rewrite <- El in Hf, Hx.
      destruct (first_last_list _ f x (iv_list_asc tb iv d _) Hf Hx) as (If & Ix & Hfx).
      destruct (mapM (fun i => period_entry tb d (sched_arg s (iv_sched iv)) (mkPeriod (to_freq fs) (unit_ord (mkFrame fs
          (pord (fbase (to_freq fs)) (unit_start (tl_frame (tb_tl tb)) (bnd (tb_tl tb) (iv_a iv))))
          (pord (fbase (to_freq fs)) (unit_start (tl_frame (tb_tl tb)) (bnd (tb_tl tb) (iv_b iv + 1)) - 1)
           - pord (fbase (to_freq fs)) (unit_start (tl_frame (tb_tl tb)) (bnd (tb_tl tb) (iv_a iv))) + 1)) i)))
          (zrange 0 (Z.to_nat (pord (fbase (to_freq fs)) (unit_start (tl_frame (tb_tl tb)) (bnd (tb_tl tb) (iv_b iv + 1)) - 1)
           - pord (fbase (to_freq fs)) (unit_start (tl_frame (tb_tl tb)) (bnd (tb_tl tb) (iv_a iv))) + 1)))) as [entries|e] eqn:E.
      * destruct (count_entries tb W fs iv d s Hsup Hiv Hv Hd Hsa f x If Ix Hfx entries E) as (q' & Hq' & HH).
        rewrite Hq in Hq'. injection Hq' as <-. exact HH.
      * exfalso. unfold count_periods in Hq. rewrite (count_unfold tb W fs iv d s Hsup Hiv Hv Hd Hsa f x If Ix Hfx), E in Hq. discriminate.
Qed.

Lemma countable_iff fs : countable fs <-> supported_period fs = true.
Proof.
  unfold countable, supported_period. destruct fs as [[n|] a]; cbn [fdigits falias].
  - split; [intros [H _]|]; discriminate.
  - split.
    + intros [_ H]. cbn [In] in H. repeat (destruct H as [H|H]; [subst a; reflexivity|]). destruct H.
    + intros H. split; [reflexivity|]. destruct a as [| | | | |[d|]| |[m|]|[m|]| | | | | | | |k rest]; try discriminate; cbn [In]; auto 12.
Qed.

Lemma C29_zero_pf : forall (L : Type) (tb : timeboard L) (iv : interval L) fs d s,
  reachable tb -> iv_of tb iv -> (forall s', s = Some s' -> sched_for tb s') ->
  ivl_duty d -> countable fs ->
  iv_list tb iv d (sched_arg s (iv_sched iv)) = [] -> count_periods tb iv fs d s = Ok 0%Q.
Proof.
  intros L tb iv fs d s Hr Hiv Hs Hd Hsup He. apply countable_iff in Hsup. apply reachable_wf in Hr. destruct Hr as (W & _ & _).
  destruct (iv_void iv) eqn:Hv; [unfold count_periods, count_periods_by; rewrite Hv; reflexivity|].
  exact (empty_zero tb W fs iv d s Hsup Hiv Hv Hd (iv_sched_for tb iv s Hiv Hs) q_div Qplus He).
Qed.

(** Every way to fail. *)
Lemma C30_errors_pf : forall (L : Type) (tb : timeboard L) (iv : interval L) fs d s o0 o1,
  reachable tb -> iv_of tb iv -> (forall s', s = Some s' -> sched_for tb s') ->
  ivl_duty d -> countable fs ->
  iv_list tb iv d (sched_arg s (iv_sched iv)) <> [] ->
  touches tb iv (fbase (to_freq fs)) o0 o1 ->
  forall e, count_periods tb iv fs d s = Err e
    <-> exists o, o0 <= o <= o1 /\ wrong tb fs o e /\ forall o' e', o0 <= o' < o -> ~ wrong tb fs o' e'.
Proof.
  intros L tb iv fs d s o0 o1 Hr Hiv Hs Hd Hsup Hne Ht. apply countable_iff in Hsup. apply reachable_wf in Hr. destruct Hr as (W & _ & _).
  pose proof (iv_sched_for tb iv s Hiv Hs) as Hsa.
  destruct (touches_unique _ _ _ _ _ _ _ Ht (touches_ex tb W iv (fbase (to_freq fs)) Hiv)) as [-> ->].
  assert (Hv : iv_void iv = false) by (destruct (iv_void iv) eqn:Hv; [exfalso; apply Hne; unfold iv_list; rewrite Hv; reflexivity|reflexivity]).
  destruct (list_ends _ Hne) as (f & x & Hf & Hx). destruct (first_last_list _ f x (iv_list_asc tb iv d _) Hf Hx) as (If & Ix & Hfx).
  intros e. apply (entries_err tb W fs iv d s Hsup Hiv Hv Hd Hsa f x If Ix Hfx).
Qed.

(** The documented condition, when the periods of the ends of the interval are those of the
    first and last workshifts counted. *)
Lemma C30_partial_pf : forall (L : Type) (tb : timeboard L) (iv : interval L) fs d s f l e,
  reachable tb -> iv_of tb iv -> (forall s', s = Some s' -> sched_for tb s') ->
  ivl_duty d -> countable fs ->
  let b := fbase (to_freq fs) in
  let lst := iv_list tb iv d (sched_arg s (iv_sched iv)) in
  hd_error lst = Some f -> hd_error (rev lst) = Some l ->
  (exists o0 o1, touches tb iv b o0 o1 /\ ref_in tb b o0 f = true /\ ref_in tb b o1 l = true) ->
  count_periods tb iv fs d s = Err e -> oob e ->
  exists o, leaves tb b o /\ (ref_in tb b o f = true \/ ref_in tb b o l = true).
Proof.
  intros L tb iv fs d s f l e Hr Hiv Hs Hd Hsup b lst Hf Hl (o0 & o1 & Ht & Rf & Rl) He Ho.
  assert (Hne : lst <> []) by (intros E; rewrite E in Hf; discriminate).
  pose proof (C30_errors_pf L tb iv fs d s o0 o1 Hr Hiv Hs Hd Hsup Hne Ht) as H.
  apply reachable_wf in Hr. destruct Hr as (W & _ & _).
  destruct (proj1 (H e) He) as (o & Hoo & Hw & _). destruct Hw as [i0 Hlv _|_ _]; [|destruct Ho; discriminate]. fold b in Hlv.
  assert (o = o0 \/ o = o1) as [ -> | -> ]; [|exists o0; auto|exists o1; auto].
  destruct (first_last_list lst f l (iv_list_asc tb iv d _) Hf Hl) as (If & Il & _).
  pose proof (iv_list_shifts tb iv d _ f Hiv If) as Sf. pose proof (iv_list_shifts tb iv d _ l Hiv Il) as Sl.
  apply (ref_in_ok tb W fs o0 f Sf) in Rf. apply (ref_in_ok tb W fs o1 l Sl) in Rl. fold b in Rf, Rl.
  pose proof (ref_start_end tb W f Sf). pose proof (ref_start_end tb W l Sl).
  pose proof (pord_spec b (ref_of (tb_tl tb) f)) as Q0. pose proof (pord_spec b (ref_of (tb_tl tb) l)) as Q1. rewrite Rf in Q0. rewrite Rl in Q1.
  unfold leaves in Hlv. pose proof (pstart_le_iff b (o0 + 1) o). pose proof (pstart_le_iff b (o + 1) o1). lia.
Qed.

Lemma C30_unsupported_pf : forall (L : Type) (tb : timeboard L) (iv : interval L) fs d s,
  ~ countable fs -> count_periods tb iv fs d s = if iv_void iv then Ok 0%Q else Err EUnacceptablePeriod.
Proof.
  intros L tb iv fs d s H. unfold count_periods, count_periods_by. destruct (iv_void iv); [reflexivity|].
  destruct (supported_period fs) eqn:E; [exfalso; apply H, countable_iff, E|reflexivity].
Qed.

(** The methods of an interval with a duty that is not for intervals ('same', 'alt' or none at all). *)
Lemma C25_other_duties_pf : forall (L : Type) (tb : timeboard L) (iv y : interval L) fs d s,
  reachable tb -> iv_of tb iv -> iv_of tb y -> iv_void iv = false -> (forall s', s = Some s' -> sched_for tb s') ->
  ~ (d = DOn \/ d = DOff \/ d = DAny) ->
  iv_first tb iv d s = Err EValue /\ iv_last tb iv d s = Err EValue /\ iv_worktime tb iv d s = Err EValue
  /\ (countable fs -> count_periods tb iv fs d s = Err EValue)
  /\ (forall i, iv_mem iv i -> iv_mem y i -> what_portion_of tb iv y d s = Err EValue)
  /\ ((forall i, ~ (iv_mem iv i /\ iv_mem y i)) -> what_portion_of tb iv y d s = Ok 0%Q).
Proof.
  intros L tb iv y fs d s Hr Hiv Hy Hv Hs Hd.
  assert (N : forall n s', iv_nth tb iv n d s' = Err EValue) by (intros n s'; apply (C25_bad_duty_pf L tb iv d s' n Hv Hd)).
  split; [apply N|]. split; [apply N|]. split; [|split; [|]].
  - unfold iv_worktime. rewrite Hv. pose proof (reachable_wt tb Hr) as Hwt. destruct (tb_wt tb); [| |contradiction].
    + destruct (C25_bad_duty_pf L tb iv d s 0 Hv Hd) as (_ & _ & _ & ->). reflexivity.
    + unfold sum_labels. cbv zeta. rewrite get_duty_idx_bad by exact Hd. reflexivity.
  - intros Hsup. apply countable_iff in Hsup. apply reachable_wf in Hr. destruct Hr as (W & _ & _).
    unfold count_periods, count_periods_by. rewrite Hv, Hsup. cbn [negb].
    destruct (iv_times tb W iv Hiv) as [E0 E1]. unfold starts_at in E0. unfold ends_at in E1.
    unfold iv_start_time at 1. unfold iv_end_time at 1. rewrite E0, E1. cbn [bind].
    rewrite (proj1 (pindex_ok tb W fs iv Hsup Hiv Hv)). cbn [bind]. unfold iv_first. rewrite N. reflexivity.
  - destruct (C27_overlap_pf L tb iv y (Some (sched_arg s (iv_sched iv))) Hr Hiv Hy) as (z & Ez & Hz & _ & Hm & Hvz & _).
    { intros s' E. injection E as <-. exact (iv_sched_for tb iv s Hiv Hs). }
    assert (E : what_portion_of tb iv y d s = do c <- iv_count z d None; if c =? 0 then Ok 0%Q else do n <- iv_count y d (Some (sched_arg s (iv_sched iv))); q_div c n).
    { unfold what_portion_of, what_portion_by. rewrite Hv. replace (opt_or s (iv_sched iv)) with (sched_arg s (iv_sched iv)) by (destruct s; reflexivity).
      rewrite Ez. reflexivity. }
    rewrite E. split.
    + intros i H1 H2. destruct (iv_void z) eqn:Vz.
      * exfalso. apply (proj1 Hvz eq_refl i). split; assumption.
      * destruct (C25_bad_duty_pf L tb z d None 0 Vz Hd) as (_ & -> & _). reflexivity.
    + intros H. unfold iv_count at 1. rewrite (proj2 Hvz H). reflexivity.
Qed.
