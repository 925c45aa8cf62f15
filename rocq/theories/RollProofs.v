(** Proofs of C16-C19. *)
From Verif Require Import Base BaseProofs Civil Freq FreqProofs Frame FrameProofs Timeline TimelineProofs Board Spec BoardProofs SpecRoll.
From Coq Require Import ZifyBool ZifyNat Sorted.
Ltac Zify.zify_post_hook ::= Z.div_mod_to_equations.

Definition duty3 (d : duty) : Prop := d = DOn \/ d = DOff \/ d = DAny.

(** ** C16 *)
Lemma C16_schedule_pf : forall (L : Type) (tb : timeboard L) (s : schedule L), reachable tb -> sched_for tb s ->
  StronglySorted Z.lt (sc_on s) /\ StronglySorted Z.lt (sc_off s)
  /\ (forall i, In i (sc_on s) \/ In i (sc_off s) -> is_shift tb i)
  /\ forall i, is_shift tb i ->
       (In i (sc_on s) <-> ~ In i (sc_off s))
       /\ exists x, tl_get (tb_tl tb) i = Ok x /\ (In i (sc_on s) <-> sc_sel s x = true)
            /\ forall w, ws_loc w = i ->
                 is_on_duty tb w s = Ok (sc_sel s x) /\ is_off_duty tb w s = Ok (negb (sc_sel s x)).
Proof.
  intros L tb s Hr Hs. apply reachable_wf in Hr. destruct Hr as (W & _ & _).
  pose proof (sched_idx tb W s DOn Hs ltac:(auto)) as H1. pose proof (sched_idx tb W s DOff Hs ltac:(auto)) as H2.
  cbn [duty_idx] in H1, H2.
  split; [rewrite H1; apply duty_list_asc|]. split; [rewrite H2; apply duty_list_asc|].
  split.
  - intros i [H|H]; [rewrite H1 in H|rewrite H2 in H]; apply duty_list_In in H; unfold is_shift; lia.
  - intros i Hi. destruct (tl_get_ex _ W i Hi) as (x & Hx & _).
    assert (Hon : on_duty tb s i = sc_sel s x) by (unfold on_duty; rewrite Hx; reflexivity).
    assert (I1 : In i (sc_on s) <-> on_duty tb s i = true).
    { rewrite H1, duty_list_In. cbn [has_duty]. unfold is_shift in Hi. intuition lia. }
    assert (I2 : In i (sc_off s) <-> on_duty tb s i = false).
    { rewrite H2, duty_list_In. cbn [has_duty]. unfold is_shift in Hi. rewrite negb_true_iff. intuition lia. }
    split.
    + rewrite I1, I2. destruct (on_duty tb s i); intuition congruence.
    + exists x. split; [exact Hx|]. split; [rewrite <- Hon; exact I1|].
      intros w <-. unfold is_off_duty, is_on_duty. rewrite Hx. split; reflexivity.
Qed.

(** ** Rolling *)
Section Roll.
  Context {L : Type} (tb : timeboard L) (W : tl_wf (tb_tl tb)).

  Lemma get_duty_index_ok (w : workshift L) d s : is_shift tb (ws_loc w) -> sched_for tb s -> d <> DBad ->
    get_duty_index tb w d s = Ok (duty_list tb s (resolve_duty tb s (ws_loc w) d) 0 (tb_len tb - 1))
    /\ duty3 (resolve_duty tb s (ws_loc w) d).
  Proof.
    intros Hi Hs Hd. destruct (tl_get_ex _ W _ Hi) as (x & Hx & _).
    assert (Hon : is_on_duty tb w s = Ok (on_duty tb s (ws_loc w))).
    { unfold is_on_duty, on_duty. rewrite Hx. reflexivity. }
    unfold get_duty_index. rewrite Hon. cbn [bind].
    pose proof (sched_idx tb W s DOn Hs ltac:(auto)) as H1. pose proof (sched_idx tb W s DOff Hs ltac:(auto)) as H2.
    pose proof (sched_idx tb W s DAny Hs ltac:(auto)) as H3. cbn [duty_idx] in *.
    unfold duty3. destruct d; cbn [resolve_duty]; try congruence;
      try (destruct (on_duty tb s (ws_loc w))); rewrite ?H1, ?H2, ?H3; split; auto.
  Qed.

  Section Counting.
    Context (s : schedule L) (d : duty).
    Let N := tb_len tb.
    Let idx := duty_list tb s d 0 (N - 1).

    Lemma idx_at q : is_shift tb q -> has_duty tb s d q = true -> znth idx (duty_count tb s d 0 (q - 1)) = Some q.
    Proof.
      intros Hq Hd. unfold is_shift in Hq. rewrite <- (ss_left_duty tb s d q) by (unfold N; lia).
      apply znth_of_count; [apply duty_list_asc|]. apply duty_list_In. unfold N. split; [lia|exact Hd].
    Qed.
    Lemma idx_inv k q : znth idx k = Some q ->
      is_shift tb q /\ has_duty tb s d q = true /\ duty_count tb s d 0 (q - 1) = k.
    Proof.
      intros H. pose proof (znth_In _ _ _ H) as Hin. apply duty_list_In in Hin. unfold N in Hin.
      assert (Hq : is_shift tb q) by (unfold is_shift; lia). split; [exact Hq|]. split; [apply Hin|].
      rewrite <- (ss_left_duty tb s d q) by (unfold is_shift in Hq; lia).
      apply ss_left_pos; [apply duty_list_asc|exact H].
    Qed.
    (** Counts between positions with the duty. *)
    Lemma count_diff a b : 0 <= a -> a <= b ->
      duty_count tb s d 0 (b - 1) = duty_count tb s d 0 (a - 1) + duty_count tb s d a (b - 1).
    Proof.
      intros H1 H2. rewrite (duty_count_split tb s d 0 (a - 1) (b - 1)) by lia.
      replace (a - 1 + 1) with a by lia. reflexivity.
    Qed.
    Lemma count_zero a b : duty_count tb s d a b = 0 <-> forall j, a <= j <= b -> has_duty tb s d j = false.
    Proof.
      unfold duty_count. split.
      - intros H j Hj. apply zlen_zero in H. destruct (has_duty tb s d j) eqn:E; [|reflexivity].
        assert (Hin : In j (duty_list tb s d a b)) by (apply duty_list_In; split; [exact Hj|exact E]).
        rewrite H in Hin. contradiction.
      - intros H. unfold duty_list. rewrite filter_none; [reflexivity|]. intros j Hj. apply positions_In in Hj.
        apply H. exact Hj.
    Qed.
    Lemma count_one q : has_duty tb s d q = true -> duty_count tb s d q q = 1.
    Proof.
      intros H. unfold duty_count, duty_list, positions. replace (Z.to_nat (q + 1 - q)) with 1%nat by lia.
      cbn [zrange filter]. rewrite H. reflexivity.
    Qed.
    Lemma count_pos a b q : a <= q <= b -> has_duty tb s d q = true -> 0 < duty_count tb s d a b.
    Proof.
      intros Hq H. pose proof (duty_count_nonneg tb s d a b) as Hn.
      destruct (Z.eq_dec (duty_count tb s d a b) 0) as [E|]; [|lia].
      rewrite count_zero in E. rewrite E in H by exact Hq. discriminate.
    Qed.

    Lemma fwd_pos p n q : is_shift tb p -> fwd_target tb s d p n q ->
      znth idx (duty_count tb s d 0 (p - 1) + n) = Some q /\ duty_count tb s d 0 (p - 1) < zlen idx.
    Proof.
      intros Hp (Hq & Hd & H). pose proof (idx_at q Hq Hd) as Hn. unfold is_shift in *.
      destruct H as [(H1 & H2 & H3)|(H1 & z & Hz & H2 & H3 & H4 & H5 & H6)].
      - pose proof (count_diff p q ltac:(lia) H2) as Hc. rewrite Hc, H3 in Hn. split; [exact Hn|].
        apply znth_range in Hn. lia.
      - pose proof (idx_at z Hz H3) as Hnz. unfold is_shift in Hz.
        pose proof (count_diff p z ltac:(lia) H2) as C1.
        assert (C0 : duty_count tb s d p (z - 1) = 0) by (apply count_zero; intros j Hj; apply H4; lia).
        pose proof (count_diff q z ltac:(lia) H5) as C2.
        replace (duty_count tb s d 0 (p - 1) + n) with (duty_count tb s d 0 (q - 1)) by lia. split; [exact Hn|].
        apply znth_range in Hnz. lia.
    Qed.
    Lemma fwd_of_pos p n q : is_shift tb p -> znth idx (duty_count tb s d 0 (p - 1) + n) = Some q ->
      duty_count tb s d 0 (p - 1) < zlen idx -> fwd_target tb s d p n q.
    Proof.
      intros Hp Hn Hl. destruct (idx_inv _ _ Hn) as (Hq & Hd & Hc). split; [exact Hq|]. split; [exact Hd|].
      unfold is_shift in *. pose proof (duty_count_nonneg tb s d 0 (p - 1)) as Hnn.
      destruct (Z.lt_ge_cases n 0) as [Hneg|Hge].
      - right. split; [exact Hneg|].
        destruct (znth_ex idx (duty_count tb s d 0 (p - 1)) ltac:(lia)) as [z Hz].
        destruct (idx_inv _ _ Hz) as (Hzs & Hzd & Hzc). unfold is_shift in Hzs. exists z.
        assert (Hpz : p <= z).
        { destruct (Z.lt_ge_cases z p) as [Hlt|]; [|assumption]. exfalso.
          pose proof (count_diff z p ltac:(lia) ltac:(lia)) as C.
          pose proof (count_pos z (p - 1) z ltac:(lia) Hzd). lia. }
        split; [exact Hzs|]. split; [exact Hpz|]. split; [exact Hzd|].
        pose proof (count_diff p z ltac:(lia) Hpz) as C.
        split; [intros j Hj; apply (proj1 (count_zero p (z - 1))); lia|].
        assert (Hqz : q <= z).
        { destruct (Z.lt_ge_cases z q) as [Hlt|]; [|lia]. exfalso.
          pose proof (count_diff z q ltac:(lia) ltac:(lia)) as C2.
          pose proof (duty_count_nonneg tb s d z (q - 1)). lia. }
        split; [exact Hqz|]. pose proof (count_diff q z ltac:(lia) Hqz) as C2. lia.
      - left. split; [exact Hge|].
        assert (Hpq : p <= q).
        { destruct (Z.lt_ge_cases q p) as [Hlt|]; [|assumption]. exfalso.
          pose proof (count_diff q p ltac:(lia) ltac:(lia)) as C.
          pose proof (count_pos q (p - 1) q ltac:(lia) Hd). lia. }
        split; [exact Hpq|]. pose proof (count_diff p q ltac:(lia) Hpq) as C. lia.
    Qed.

    (** The same for rolling back; [count 0 p - 1] is the position of the last workshift
        with the duty at or before [p]. *)
    Lemma count_to q : is_shift tb q -> has_duty tb s d q = true ->
      duty_count tb s d 0 q = duty_count tb s d 0 (q - 1) + 1.
    Proof.
      intros Hq Hd. unfold is_shift in Hq. rewrite (duty_count_split tb s d 0 (q - 1) q) by lia.
      replace (q - 1 + 1) with q by lia. rewrite (count_one q Hd). reflexivity.
    Qed.
    Lemma count_diff2 a b : 0 <= a -> a <= b ->
      duty_count tb s d 0 b = duty_count tb s d 0 a + duty_count tb s d (a + 1) b.
    Proof. intros H1 H2. apply duty_count_split; lia. Qed.

    Lemma back_pos p n q : is_shift tb p -> back_target tb s d p n q ->
      znth idx (duty_count tb s d 0 p - 1 - n) = Some q /\ 0 < duty_count tb s d 0 p.
    Proof.
      intros Hp (Hq & Hd & H). pose proof (idx_at q Hq Hd) as Hn. pose proof (count_to q Hq Hd) as Hct. unfold is_shift in *.
      pose proof (duty_count_nonneg tb s d 0 (q - 1)) as Hnn.
      destruct H as [(H1 & H2 & H3)|(H1 & z & Hz & H2 & H3 & H4 & H5 & H6)].
      - pose proof (count_diff2 q p ltac:(lia) H2) as Hc.
        replace (duty_count tb s d 0 p - 1 - n) with (duty_count tb s d 0 (q - 1)) by lia. split; [exact Hn|lia].
      - pose proof (count_to z Hz H3) as Hctz. unfold is_shift in Hz.
        pose proof (duty_count_nonneg tb s d 0 (z - 1)) as Hnz.
        pose proof (count_diff2 z p ltac:(lia) H2) as C1.
        assert (C0 : duty_count tb s d (z + 1) p = 0) by (apply count_zero; intros j Hj; apply H4; lia).
        pose proof (count_diff2 z q ltac:(lia) H5) as C2.
        replace (duty_count tb s d 0 p - 1 - n) with (duty_count tb s d 0 (q - 1)) by lia. split; [exact Hn|lia].
    Qed.
    Lemma back_of_pos p n q : is_shift tb p -> znth idx (duty_count tb s d 0 p - 1 - n) = Some q ->
      0 < duty_count tb s d 0 p -> back_target tb s d p n q.
    Proof.
      intros Hp Hn Hl. destruct (idx_inv _ _ Hn) as (Hq & Hd & Hc). pose proof (count_to q Hq Hd) as Hct.
      split; [exact Hq|]. split; [exact Hd|]. unfold is_shift in *.
      assert (Htot : duty_count tb s d 0 p <= zlen idx).
      { unfold idx, N. change (zlen (duty_list tb s d 0 (tb_len tb - 1))) with (duty_count tb s d 0 (tb_len tb - 1)).
        rewrite (duty_count_split tb s d 0 p (tb_len tb - 1)) by lia.
        pose proof (duty_count_nonneg tb s d (p + 1) (tb_len tb - 1)). lia. }
      destruct (Z.lt_ge_cases n 0) as [Hneg|Hge].
      - right. split; [exact Hneg|].
        destruct (znth_ex idx (duty_count tb s d 0 p - 1) ltac:(lia)) as [z Hz].
        destruct (idx_inv _ _ Hz) as (Hzs & Hzd & Hzc). pose proof (count_to z Hzs Hzd) as Hctz. unfold is_shift in Hzs. exists z.
        assert (Hpz : z <= p).
        { destruct (Z.lt_ge_cases p z) as [Hlt|]; [|assumption]. exfalso.
          pose proof (count_diff2 p (z - 1) ltac:(lia) ltac:(lia)) as C.
          pose proof (duty_count_nonneg tb s d (p + 1) (z - 1)). lia. }
        split; [exact Hzs|]. split; [exact Hpz|]. split; [exact Hzd|].
        pose proof (count_diff2 z p ltac:(lia) Hpz) as C.
        split; [intros j Hj; apply (proj1 (count_zero (z + 1) p)); lia|].
        assert (Hqz : z <= q).
        { destruct (Z.lt_ge_cases q z) as [Hlt|]; [|lia]. exfalso.
          pose proof (count_diff2 q z ltac:(lia) ltac:(lia)) as C2.
          pose proof (duty_count_nonneg tb s d (q + 1) z). lia. }
        split; [exact Hqz|]. pose proof (count_diff2 z q ltac:(lia) Hqz) as C2. lia.
      - left. split; [exact Hge|].
        assert (Hpq : q <= p).
        { destruct (Z.lt_ge_cases p q) as [Hlt|]; [|assumption]. exfalso.
          pose proof (count_diff2 p (q - 1) ltac:(lia) ltac:(lia)) as C.
          pose proof (duty_count_nonneg tb s d (p + 1) (q - 1)). lia. }
        split; [exact Hpq|]. pose proof (count_diff2 q p ltac:(lia) Hpq) as C. lia.
    Qed.
  End Counting.

  Lemma rollforward_eq (w : workshift L) n d s : is_shift tb (ws_loc w) -> d <> DBad ->
    sched_for tb (sched_arg s (ws_sched w)) ->
    let s' := sched_arg s (ws_sched w) in
    let d' := resolve_duty tb s' (ws_loc w) d in
    (forall q x, fwd_target tb s' d' (ws_loc w) n q -> tl_get (tb_tl tb) q = Ok x ->
       rollforward tb w n d s = Ok (mkWs q x s'))
    /\ (forall r, rollforward tb w n d s = Ok r ->
          fwd_target tb s' d' (ws_loc w) n (ws_loc r) /\ tl_get (tb_tl tb) (ws_loc r) = Ok (ws_label r) /\ ws_sched r = s')
    /\ (forall e, rollforward tb w n d s = Err e -> e = EOutOfBounds).
  Proof.
    intros Hi Hd Hs s' d'. destruct (get_duty_index_ok w d s' Hi Hs Hd) as [Hidx _]. fold d' in Hidx.
    assert (Es : opt_or s (ws_sched w) = s') by (destruct s; reflexivity).
    assert (Ei : ss_left (duty_list tb s' d' 0 (tb_len tb - 1)) (ws_loc w) = duty_count tb s' d' 0 (ws_loc w - 1)).
    { apply ss_left_duty. unfold is_shift in Hi. lia. }
    pose proof (duty_count_nonneg tb s' d' 0 (ws_loc w - 1)) as Hnn.
    assert (Hle : duty_count tb s' d' 0 (ws_loc w - 1) <= zlen (duty_list tb s' d' 0 (tb_len tb - 1))).
    { rewrite <- Ei. apply ss_left_le. }
    unfold rollforward. rewrite Es, Hidx. cbn [bind]. cbv zeta. rewrite Ei.
    set (i := duty_count tb s' d' 0 (ws_loc w - 1)) in *. set (idx := duty_list tb s' d' 0 (tb_len tb - 1)) in *.
    split; [|split].
    - intros q x Ht Hx. destruct (fwd_pos s' d' _ _ _ Hi Ht) as [H1 H2]. fold i in H1, H2. fold idx in H1, H2.
      pose proof (znth_range _ _ _ H1) as R.
      destruct ((i =? zlen idx) || (i + n <? 0) || (zlen idx <=? i + n)) eqn:E; [lia|].
      assert (Hg : py_get_res idx (i + n) = Ok q) by (apply py_get_res_ok; [lia|exact H1]).
      rewrite Hg. cbn [bind]. unfold new_workshift. rewrite Hx. reflexivity.
    - intros r. destruct ((i =? zlen idx) || (i + n <? 0) || (zlen idx <=? i + n)) eqn:E; [discriminate|].
      destruct (znth_ex idx (i + n) ltac:(lia)) as [q Hq].
      assert (Hg : py_get_res idx (i + n) = Ok q) by (apply py_get_res_ok; [lia|exact Hq]).
      rewrite Hg. cbn [bind].
      pose proof (fwd_of_pos s' d' (ws_loc w) n q Hi Hq ltac:(fold i; fold idx; lia)) as Ht.
      destruct (new_workshift_ok tb W q s' (proj1 Ht)) as (x & Hx & Hn). rewrite Hn. intros H. injection H as <-.
      cbn [ws_loc ws_label ws_sched]. auto.
    - intros e. destruct ((i =? zlen idx) || (i + n <? 0) || (zlen idx <=? i + n)) eqn:E; [congruence|].
      destruct (znth_ex idx (i + n) ltac:(lia)) as [q Hq].
      assert (Hg : py_get_res idx (i + n) = Ok q) by (apply py_get_res_ok; [lia|exact Hq]).
      rewrite Hg. cbn [bind].
      destruct (new_workshift_ok tb W q s' (proj1 (idx_inv s' d' _ _ Hq))) as (x & Hx & Hn). rewrite Hn. discriminate.
  Qed.

  Lemma rollback_eq (w : workshift L) n d s : is_shift tb (ws_loc w) -> d <> DBad ->
    sched_for tb (sched_arg s (ws_sched w)) ->
    let s' := sched_arg s (ws_sched w) in
    let d' := resolve_duty tb s' (ws_loc w) d in
    (forall q x, back_target tb s' d' (ws_loc w) n q -> tl_get (tb_tl tb) q = Ok x ->
       rollback tb w n d s = Ok (mkWs q x s'))
    /\ (forall r, rollback tb w n d s = Ok r ->
          back_target tb s' d' (ws_loc w) n (ws_loc r) /\ tl_get (tb_tl tb) (ws_loc r) = Ok (ws_label r) /\ ws_sched r = s')
    /\ (forall e, rollback tb w n d s = Err e -> e = EOutOfBounds).
  Proof.
    intros Hi Hd Hs s' d'. destruct (get_duty_index_ok w d s' Hi Hs Hd) as [Hidx _]. fold d' in Hidx.
    assert (Es : opt_or s (ws_sched w) = s') by (destruct s; reflexivity).
    assert (Ei : zlen (duty_list tb s' d' 0 (tb_len tb - 1)) - 1
                 - count_while (fun x => ws_loc w <? x) (rev (duty_list tb s' d' 0 (tb_len tb - 1)))
                 = duty_count tb s' d' 0 (ws_loc w) - 1).
    { rewrite count_while_above by apply duty_list_asc. rewrite ss_right_duty by (unfold is_shift in Hi; lia). lia. }
    pose proof (duty_count_nonneg tb s' d' 0 (ws_loc w)) as Hnn.
    unfold rollback. rewrite Es, Hidx. cbn [bind]. cbv zeta. rewrite Ei.
    set (i := duty_count tb s' d' 0 (ws_loc w)) in *. set (idx := duty_list tb s' d' 0 (tb_len tb - 1)) in *.
    split; [|split].
    - intros q x Ht Hx. destruct (back_pos s' d' _ _ _ Hi Ht) as [H1 H2]. fold i in H1, H2. fold idx in H1.
      pose proof (znth_range _ _ _ H1) as R.
      destruct ((i - 1 =? -1) || (i - 1 - n <? 0) || (zlen idx <=? i - 1 - n)) eqn:E; [lia|].
      assert (Hg : py_get_res idx (i - 1 - n) = Ok q) by (apply py_get_res_ok; [lia|exact H1]).
      rewrite Hg. cbn [bind]. unfold new_workshift. rewrite Hx. reflexivity.
    - intros r. destruct ((i - 1 =? -1) || (i - 1 - n <? 0) || (zlen idx <=? i - 1 - n)) eqn:E; [discriminate|].
      destruct (znth_ex idx (i - 1 - n) ltac:(lia)) as [q Hq].
      assert (Hg : py_get_res idx (i - 1 - n) = Ok q) by (apply py_get_res_ok; [lia|exact Hq]).
      rewrite Hg. cbn [bind].
      pose proof (back_of_pos s' d' (ws_loc w) n q Hi Hq ltac:(fold i; lia)) as Ht.
      destruct (new_workshift_ok tb W q s' (proj1 Ht)) as (x & Hx & Hn). rewrite Hn. intros H. injection H as <-.
      cbn [ws_loc ws_label ws_sched]. auto.
    - intros e. destruct ((i - 1 =? -1) || (i - 1 - n <? 0) || (zlen idx <=? i - 1 - n)) eqn:E; [congruence|].
      destruct (znth_ex idx (i - 1 - n) ltac:(lia)) as [q Hq].
      assert (Hg : py_get_res idx (i - 1 - n) = Ok q) by (apply py_get_res_ok; [lia|exact Hq]).
      rewrite Hg. cbn [bind].
      destruct (new_workshift_ok tb W q s' (proj1 (idx_inv s' d' _ _ Hq))) as (x & Hx & Hn). rewrite Hn. discriminate.
  Qed.
End Roll.

Lemma sched_arg_for {L} (tb : timeboard L) w s : ws_of tb w -> (forall s', s = Some s' -> sched_for tb s') ->
  sched_for tb (sched_arg s (ws_sched w)).
Proof. intros (_ & H & _) Hs. destruct s as [s'|]; cbn; [apply Hs; reflexivity|exact H]. Qed.

Lemma C17_rollforward_pf : forall (L : Type) (tb : timeboard L) (w : workshift L) n d s,
  reachable tb -> ws_of tb w -> d <> DBad -> (forall s', s = Some s' -> sched_for tb s') ->
  let s' := sched_arg s (ws_sched w) in
  let d' := resolve_duty tb s' (ws_loc w) d in
  (forall r, rollforward tb w n d s = Ok r ->
     fwd_target tb s' d' (ws_loc w) n (ws_loc r)
     /\ (forall q, fwd_target tb s' d' (ws_loc w) n q -> q = ws_loc r)
     /\ tl_get (tb_tl tb) (ws_loc r) = Ok (ws_label r) /\ ws_sched r = s')
  /\ (forall e, rollforward tb w n d s = Err e ->
        e = EOutOfBounds /\ forall q, ~ fwd_target tb s' d' (ws_loc w) n q).
Proof.
  intros L tb w n d s Hr Hw Hd Hs s' d'. apply reachable_wf in Hr. destruct Hr as (W & _ & _).
  destruct (rollforward_eq tb W w n d s (proj1 Hw) Hd (sched_arg_for tb w s Hw Hs)) as (H1 & H2 & H3).
  fold s' in H1, H2. fold d' in H1, H2.
  assert (Hx : forall q, fwd_target tb s' d' (ws_loc w) n q ->
      exists x, rollforward tb w n d s = Ok (mkWs q x s')).
  { intros q Hq. destruct (tl_get_ex _ W q (proj1 Hq)) as (x & Hx & _). exists x. apply H1; assumption. }
  split.
  - intros r Hr. destruct (H2 r Hr) as (A & B & C). split; [exact A|]. split; [|split; assumption].
    intros q Hq. destruct (Hx q Hq) as (x & E). rewrite E in Hr. injection Hr as <-. reflexivity.
  - intros e He. split; [apply H3; exact He|]. intros q Hq. destruct (Hx q Hq) as (x & E). congruence.
Qed.
Lemma C18_rollback_pf : forall (L : Type) (tb : timeboard L) (w : workshift L) n d s,
  reachable tb -> ws_of tb w -> d <> DBad -> (forall s', s = Some s' -> sched_for tb s') ->
  let s' := sched_arg s (ws_sched w) in
  let d' := resolve_duty tb s' (ws_loc w) d in
  (forall r, rollback tb w n d s = Ok r ->
     back_target tb s' d' (ws_loc w) n (ws_loc r)
     /\ (forall q, back_target tb s' d' (ws_loc w) n q -> q = ws_loc r)
     /\ tl_get (tb_tl tb) (ws_loc r) = Ok (ws_label r) /\ ws_sched r = s')
  /\ (forall e, rollback tb w n d s = Err e ->
        e = EOutOfBounds /\ forall q, ~ back_target tb s' d' (ws_loc w) n q).
Proof.
  intros L tb w n d s Hr Hw Hd Hs s' d'. apply reachable_wf in Hr. destruct Hr as (W & _ & _).
  destruct (rollback_eq tb W w n d s (proj1 Hw) Hd (sched_arg_for tb w s Hw Hs)) as (H1 & H2 & H3).
  fold s' in H1, H2. fold d' in H1, H2.
  assert (Hx : forall q, back_target tb s' d' (ws_loc w) n q ->
      exists x, rollback tb w n d s = Ok (mkWs q x s')).
  { intros q Hq. destruct (tl_get_ex _ W q (proj1 Hq)) as (x & Hx & _). exists x. apply H1; assumption. }
  split.
  - intros r Hr. destruct (H2 r Hr) as (A & B & C). split; [exact A|]. split; [|split; assumption].
    intros q Hq. destruct (Hx q Hq) as (x & E). rewrite E in Hr. injection Hr as <-. reflexivity.
  - intros e He. split; [apply H3; exact He|]. intros q Hq. destruct (Hx q Hq) as (x & E). congruence.
Qed.

(** ** C19 *)
Lemma resolve_duty3 {L} (tb : timeboard L) s p d : d = DOn \/ d = DOff \/ d = DAny -> resolve_duty tb s p d = d.
Proof. intros [->|[->| ->]]; reflexivity. Qed.

Lemma C17_bad_duty_pf : forall (L : Type) (tb : timeboard L) (w : workshift L) n s,
  reachable tb -> ws_of tb w -> rollforward tb w n DBad s = Err EValue /\ rollback tb w n DBad s = Err EValue.
Proof.
  intros L tb w n s Hr (Hi & _ & Hx). unfold rollforward, rollback, get_duty_index, is_on_duty. rewrite Hx. split; reflexivity.
Qed.

Lemma C19_there_and_back_pf : forall (L : Type) (tb : timeboard L) (w r : workshift L) n d s,
  reachable tb -> ws_of tb w -> d = DOn \/ d = DOff \/ d = DAny -> (forall s', s = Some s' -> sched_for tb s') ->
  has_duty tb (sched_arg s (ws_sched w)) d (ws_loc w) = true ->
  (rollforward tb w n d s = Ok r ->
     exists w', rollback tb r n d s = Ok w' /\ ws_loc w' = ws_loc w /\ ws_label w' = ws_label w
                /\ rollback tb w (- n) d s = Ok r)
  /\ (rollback tb w n d s = Ok r ->
     exists w', rollforward tb r n d s = Ok w' /\ ws_loc w' = ws_loc w /\ ws_label w' = ws_label w
                /\ rollforward tb w (- n) d s = Ok r).
Proof.
  intros L tb w r n d s Hr Hw Hd Hs Hduty. apply reachable_wf in Hr. destruct Hr as (W & _ & _).
  assert (Hb : d <> DBad) by (destruct Hd as [->|[->| ->]]; discriminate).
  pose proof (sched_arg_for tb w s Hw Hs) as Hsa.
  destruct (rollforward_eq tb W w n d s (proj1 Hw) Hb Hsa) as (_ & F2 & _).
  destruct (rollback_eq tb W w n d s (proj1 Hw) Hb Hsa) as (_ & B2 & _).
  rewrite resolve_duty3 in F2, B2 by exact Hd.
  set (s' := sched_arg s (ws_sched w)) in *. destruct Hw as (Hwi & Hwl & Hwx).
  assert (Hr' : forall r0, ws_sched r0 = s' -> sched_arg s (ws_sched r0) = s').
  { intros r0 E. destruct s; [reflexivity|]. cbn. exact E. }
  pose proof (count_to tb s' d (ws_loc w) Hwi Hduty) as Ctw.
  split; intros H.
  - destruct (F2 r H) as (T & Hl & Hsc). destruct T as (Tq & Td & T).
    assert (Tp : fwd_target tb s' d (ws_loc w) n (ws_loc r)) by (split; [exact Tq|]; split; [exact Td|exact T]).
    destruct (fwd_pos tb s' d _ _ _ Hwi Tp) as [P1 _].
    destruct (idx_inv tb s' d _ _ P1) as (_ & _ & P2).
    pose proof (count_to tb s' d (ws_loc r) Tq Td) as Ctr.
    assert (Hsa2 : sched_for tb (sched_arg s (ws_sched r))) by (rewrite (Hr' r Hsc); exact Hsa).
    destruct (rollback_eq tb W r n d s Tq Hb Hsa2) as (B1 & _ & _).
    destruct (rollback_eq tb W w (- n) d s Hwi Hb Hsa) as (B3 & _ & _).
    rewrite (Hr' r Hsc) in B1. rewrite resolve_duty3 in B1, B3 by exact Hd. fold s' in B3.
    pose proof (idx_at tb s' d (ws_loc w) Hwi Hduty) as Ix.
    pose proof (duty_count_nonneg tb s' d 0 (ws_loc w - 1)). pose proof (duty_count_nonneg tb s' d 0 (ws_loc r - 1)).
    exists (mkWs (ws_loc w) (ws_label w) s'). split; [|split; [reflexivity|split; [reflexivity|]]].
    + apply B1; [|exact Hwx]. apply back_of_pos; [exact Tq| |lia].
      replace (duty_count tb s' d 0 (ws_loc r) - 1 - n) with (duty_count tb s' d 0 (ws_loc w - 1)) by lia. exact Ix.
    + destruct r as [rl rx rs]. cbn [ws_loc ws_label ws_sched] in *. subst rs. apply B3; [|exact Hl].
      apply back_of_pos; [exact Hwi| |lia].
      replace (duty_count tb s' d 0 (ws_loc w) - 1 - - n) with (duty_count tb s' d 0 (ws_loc w - 1) + n) by lia. exact P1.
  - destruct (B2 r H) as (T & Hl & Hsc). destruct T as (Tq & Td & T).
    assert (Tp : back_target tb s' d (ws_loc w) n (ws_loc r)) by (split; [exact Tq|]; split; [exact Td|exact T]).
    destruct (back_pos tb s' d _ _ _ Hwi Tp) as [P1 _].
    destruct (idx_inv tb s' d _ _ P1) as (_ & _ & P2).
    pose proof (count_to tb s' d (ws_loc r) Tq Td) as Ctr.
    assert (Hsa2 : sched_for tb (sched_arg s (ws_sched r))) by (rewrite (Hr' r Hsc); exact Hsa).
    destruct (rollforward_eq tb W r n d s Tq Hb Hsa2) as (B1 & _ & _).
    destruct (rollforward_eq tb W w (- n) d s Hwi Hb Hsa) as (B3 & _ & _).
    rewrite (Hr' r Hsc) in B1. rewrite resolve_duty3 in B1, B3 by exact Hd. fold s' in B3.
    pose proof (idx_at tb s' d (ws_loc w) Hwi Hduty) as Ix. pose proof (znth_range _ _ _ Ix) as Rx.
    pose proof (idx_at tb s' d (ws_loc r) Tq Td) as Ir. pose proof (znth_range _ _ _ Ir) as Rr.
    exists (mkWs (ws_loc w) (ws_label w) s'). split; [|split; [reflexivity|split; [reflexivity|]]].
    + apply B1; [|exact Hwx]. apply fwd_of_pos; [exact Tq| |lia].
      replace (duty_count tb s' d 0 (ws_loc r - 1) + n) with (duty_count tb s' d 0 (ws_loc w - 1)) by lia. exact Ix.
    + destruct r as [rl rx rs]. cbn [ws_loc ws_label ws_sched] in *. subst rs. apply B3; [|exact Hl].
      apply fwd_of_pos; [exact Hwi| |lia].
      replace (duty_count tb s' d 0 (ws_loc w - 1) + - n) with (duty_count tb s' d 0 (ws_loc w) - 1 - n) by lia. exact P1.
Qed.

Lemma C19_compose_pf : forall (L : Type) (tb : timeboard L) (w : workshift L) a b d s,
  reachable tb -> ws_of tb w -> d = DOn \/ d = DOff \/ d = DAny -> (forall s', s = Some s' -> sched_for tb s') ->
  0 <= a -> 0 <= b ->
  (do r <- rollforward tb w a d s; rollforward tb r b d s) = rollforward tb w (a + b) d s
  /\ (do r <- rollback tb w a d s; rollback tb r b d s) = rollback tb w (a + b) d s.
Proof.
  intros L tb w a b d s Hr Hw Hd Hs Ha Hb0. pose proof Hr as Hre. apply reachable_wf in Hr. destruct Hr as (W & _ & _).
  assert (Hb : d <> DBad) by (destruct Hd as [->|[->| ->]]; discriminate).
  pose proof (sched_arg_for tb w s Hw Hs) as Hsa.
  set (s' := sched_arg s (ws_sched w)) in *. destruct Hw as (Hwi & Hwl & Hwx).
  assert (Hr' : forall r0, ws_sched r0 = s' -> sched_arg s (ws_sched r0) = s').
  { intros r0 E. destruct s; [reflexivity|]. cbn. exact E. }
  split.
  - destruct (rollforward_eq tb W w a d s Hwi Hb Hsa) as (_ & A2 & A3).
    destruct (rollforward_eq tb W w (a + b) d s Hwi Hb Hsa) as (C1 & C2 & C3).
    fold s' in A2, C1, C2. rewrite resolve_duty3 in A2, C1, C2 by exact Hd.
    destruct (rollforward tb w a d s) as [r|e] eqn:E; cbn [bind].
    + destruct (A2 r eq_refl) as (T & Hl & Hsc). pose proof T as (Tq & Td & _).
      destruct (fwd_pos tb s' d _ _ _ Hwi T) as [P1 P0]. destruct (idx_inv tb s' d _ _ P1) as (_ & _ & P2).
      assert (Hsa2 : sched_for tb (sched_arg s (ws_sched r))) by (rewrite (Hr' r Hsc); exact Hsa).
      destruct (rollforward_eq tb W r b d s Tq Hb Hsa2) as (B1 & B2 & B3).
      rewrite (Hr' r Hsc) in B1, B2. rewrite resolve_duty3 in B1, B2 by exact Hd.
      destruct (rollforward tb r b d s) as [q|e] eqn:E2.
      * destruct (B2 q eq_refl) as (T2 & Hl2 & Hsc2). destruct (fwd_pos tb s' d _ _ _ Tq T2) as [Q1 _].
        symmetry. destruct q as [ql qx qs]. cbn [ws_loc ws_label ws_sched] in *. subst qs. apply C1; [|exact Hl2].
        apply fwd_of_pos; [exact Hwi| |exact P0].
        replace (duty_count tb s' d 0 (ws_loc w - 1) + (a + b)) with (duty_count tb s' d 0 (ws_loc r - 1) + b) by lia. exact Q1.
      * rewrite (B3 _ eq_refl). destruct (rollforward tb w (a + b) d s) as [q|e2] eqn:E3; [|rewrite (C3 _ eq_refl); reflexivity].
        exfalso. destruct (C2 q eq_refl) as (T3 & Hl3 & _). destruct (fwd_pos tb s' d _ _ _ Hwi T3) as [Q1 _].
        assert (B : Err e = Ok (mkWs (ws_loc q) (ws_label q) s')); [|discriminate].
        apply B1; [|exact Hl3]. apply fwd_of_pos; [exact Tq| |].
        -- replace (duty_count tb s' d 0 (ws_loc r - 1) + b) with (duty_count tb s' d 0 (ws_loc w - 1) + (a + b)) by lia. exact Q1.
        -- pose proof (znth_range _ _ _ P1). lia.
    + rewrite (A3 _ eq_refl). destruct (rollforward tb w (a + b) d s) as [q|e2] eqn:E3; [|rewrite (C3 _ eq_refl); reflexivity].
      exfalso. destruct (C2 q eq_refl) as (T3 & Hl3 & _). destruct (fwd_pos tb s' d _ _ _ Hwi T3) as [Q1 Q0].
      pose proof (znth_range _ _ _ Q1) as R. pose proof (duty_count_nonneg tb s' d 0 (ws_loc w - 1)).
      destruct (znth_ex (duty_list tb s' d 0 (tb_len tb - 1)) (duty_count tb s' d 0 (ws_loc w - 1) + a) ltac:(lia)) as [z Hz].
      destruct (rollforward_eq tb W w a d s Hwi Hb Hsa) as (A1 & _ & _). fold s' in A1. rewrite resolve_duty3 in A1 by exact Hd.
      destruct (idx_inv tb s' d _ _ Hz) as (Hzs & _ & _). destruct (tl_get_ex _ W z Hzs) as (x & Hx & _).
      assert (B : rollforward tb w a d s = Ok (mkWs z x s')); [|congruence].
      apply A1; [|exact Hx]. apply fwd_of_pos; assumption.
  - destruct (rollback_eq tb W w a d s Hwi Hb Hsa) as (A1 & A2 & A3).
    destruct (rollback_eq tb W w (a + b) d s Hwi Hb Hsa) as (C1 & C2 & C3).
    fold s' in A1, A2, C1, C2. rewrite resolve_duty3 in A1, A2, C1, C2 by exact Hd.
    destruct (rollback tb w a d s) as [r|e] eqn:E; cbn [bind].
    + destruct (A2 r eq_refl) as (T & Hl & Hsc). pose proof T as (Tq & Td & _).
      destruct (back_pos tb s' d _ _ _ Hwi T) as [P1 P0]. destruct (idx_inv tb s' d _ _ P1) as (_ & _ & P2).
      pose proof (count_to tb s' d (ws_loc r) Tq Td) as Ctr.
      assert (Hsa2 : sched_for tb (sched_arg s (ws_sched r))) by (rewrite (Hr' r Hsc); exact Hsa).
      destruct (rollback_eq tb W r b d s Tq Hb Hsa2) as (B1 & B2 & B3).
      rewrite (Hr' r Hsc) in B1, B2. rewrite resolve_duty3 in B1, B2 by exact Hd.
      destruct (rollback tb r b d s) as [q|e] eqn:E2.
      * destruct (B2 q eq_refl) as (T2 & Hl2 & Hsc2). destruct (back_pos tb s' d _ _ _ Tq T2) as [Q1 _].
        symmetry. destruct q as [ql qx qs]. cbn [ws_loc ws_label ws_sched] in *. subst qs. apply C1; [|exact Hl2].
        apply back_of_pos; [exact Hwi| |exact P0].
        replace (duty_count tb s' d 0 (ws_loc w) - 1 - (a + b)) with (duty_count tb s' d 0 (ws_loc r) - 1 - b) by lia. exact Q1.
      * rewrite (B3 _ eq_refl). destruct (rollback tb w (a + b) d s) as [q|e2] eqn:E3; [|rewrite (C3 _ eq_refl); reflexivity].
        exfalso. destruct (C2 q eq_refl) as (T3 & Hl3 & _). destruct (back_pos tb s' d _ _ _ Hwi T3) as [Q1 _].
        assert (B : Err e = Ok (mkWs (ws_loc q) (ws_label q) s')); [|discriminate].
        apply B1; [|exact Hl3]. pose proof (duty_count_nonneg tb s' d 0 (ws_loc r - 1)).
        apply back_of_pos; [exact Tq| |lia].
        replace (duty_count tb s' d 0 (ws_loc r) - 1 - b) with (duty_count tb s' d 0 (ws_loc w) - 1 - (a + b)) by lia. exact Q1.
    + rewrite (A3 _ eq_refl). destruct (rollback tb w (a + b) d s) as [q|e2] eqn:E3; [|rewrite (C3 _ eq_refl); reflexivity].
      exfalso. destruct (C2 q eq_refl) as (T3 & Hl3 & _). destruct (back_pos tb s' d _ _ _ Hwi T3) as [Q1 Q0].
      pose proof (znth_range _ _ _ Q1) as R.
      assert (Htot : duty_count tb s' d 0 (ws_loc w) <= zlen (duty_list tb s' d 0 (tb_len tb - 1))).
      { change (zlen (duty_list tb s' d 0 (tb_len tb - 1))) with (duty_count tb s' d 0 (tb_len tb - 1)).
        unfold is_shift in Hwi. rewrite (duty_count_split tb s' d 0 (ws_loc w) (tb_len tb - 1)) by lia.
        pose proof (duty_count_nonneg tb s' d (ws_loc w + 1) (tb_len tb - 1)). lia. }
      destruct (znth_ex (duty_list tb s' d 0 (tb_len tb - 1)) (duty_count tb s' d 0 (ws_loc w) - 1 - a) ltac:(lia)) as [z Hz].
      destruct (idx_inv tb s' d _ _ Hz) as (Hzs & _ & _). destruct (tl_get_ex _ W z Hzs) as (x & Hx & _).
      assert (B : Err e = Ok (mkWs z x s')); [|discriminate].
      apply A1; [|exact Hx]. apply back_of_pos; assumption.
Qed.

(** ws + n, ws - n for a workshift on duty. *)
Lemma C19_operators_pf : forall (L : Type) (tb : timeboard L) (w r : workshift L) n,
  reachable tb -> ws_of tb w -> on_duty tb (ws_sched w) (ws_loc w) = true ->
  ws_add tb w n = Ok r ->
  (exists w', ws_sub tb r n = Ok w' /\ ws_loc w' = ws_loc w) /\ ws_sub tb w (- n) = Ok r
  /\ rollforward tb w n DOn (Some (ws_sched w)) = Ok r.
Proof.
  intros L tb w r n Hr Hw Hd H.
  destruct (C19_there_and_back_pf L tb w r n DOn None Hr Hw ltac:(auto)) as [H1 _]; [discriminate|exact Hd|].
  destruct (H1 H) as (w' & A & B & _ & C). split; [exists w'; split; assumption|]. split; [exact C|]. exact H.
Qed.

(** Duty 'same' and 'alt' are those of the workshift itself. *)
Lemma roll_resolve {L} (tb : timeboard L) (w : workshift L) n d s : tl_wf (tb_tl tb) -> is_shift tb (ws_loc w) ->
  let d' := resolve_duty tb (sched_arg s (ws_sched w)) (ws_loc w) d in
  rollforward tb w n d s = rollforward tb w n d' s /\ rollback tb w n d s = rollback tb w n d' s.
Proof.
  intros W Hi d'. set (s' := sched_arg s (ws_sched w)) in *.
  assert (Es : opt_or s (ws_sched w) = s') by (destruct s; reflexivity).
  assert (E : get_duty_index tb w d s' = get_duty_index tb w d' s').
  { destruct (tl_get_ex _ W _ Hi) as (x & Hx & _). unfold d', get_duty_index, resolve_duty, is_on_duty, on_duty.
    rewrite Hx. cbn [rmap bind]. destruct d; try reflexivity; destruct (sc_sel s' x); reflexivity. }
  unfold rollforward, rollback. rewrite Es, E. split; reflexivity.
Qed.

Lemma C19_same_pf : forall (L : Type) (tb : timeboard L) (w r : workshift L) n s,
  reachable tb -> ws_of tb w -> (forall s', s = Some s' -> sched_for tb s') ->
  (rollforward tb w n DSame s = Ok r ->
     exists w', rollback tb r n DSame s = Ok w' /\ ws_loc w' = ws_loc w /\ ws_label w' = ws_label w
                /\ rollback tb w (- n) DSame s = Ok r)
  /\ (rollback tb w n DSame s = Ok r ->
     exists w', rollforward tb r n DSame s = Ok w' /\ ws_loc w' = ws_loc w /\ ws_label w' = ws_label w
                /\ rollforward tb w (- n) DSame s = Ok r).
Proof.
  intros L tb w r n s Hr Hw Hs. pose proof (reachable_wf tb Hr) as (W & _ & _).
  set (s' := sched_arg s (ws_sched w)).
  set (d := resolve_duty tb s' (ws_loc w) DSame).
  assert (Hd : d = DOn \/ d = DOff \/ d = DAny).
  { unfold d, resolve_duty. destruct (on_duty tb s' (ws_loc w)); auto. }
  assert (Hdn : d <> DBad) by (destruct Hd as [->|[->| ->]]; discriminate).
  assert (Hduty : has_duty tb s' d (ws_loc w) = true).
  { unfold d, resolve_duty. destruct (on_duty tb s' (ws_loc w)) eqn:E; cbn [has_duty]; rewrite E; reflexivity. }
  assert (Hsame : forall q, is_shift tb q -> has_duty tb s' d q = true -> resolve_duty tb s' q DSame = d).
  { intros q _. unfold d, resolve_duty. destruct (on_duty tb s' (ws_loc w)); cbn [has_duty];
      destruct (on_duty tb s' q); cbn [negb]; congruence. }
  pose proof (sched_arg_for tb w s Hw Hs) as Hsa. fold s' in Hsa.
  destruct (C19_there_and_back_pf L tb w r n d s Hr Hw Hd Hs Hduty) as [H1 H2].
  destruct (roll_resolve tb w n DSame s W (proj1 Hw)) as [E1 E2].
  destruct (roll_resolve tb w (- n) DSame s W (proj1 Hw)) as [E3 E4].
  fold s' in E1, E2, E3, E4. fold d in E1, E2, E3, E4. rewrite E1, E2, E3, E4.
  assert (Hr2 : forall r0, ws_sched r0 = s' -> is_shift tb (ws_loc r0) -> has_duty tb s' d (ws_loc r0) = true ->
     rollforward tb r0 n DSame s = rollforward tb r0 n d s /\ rollback tb r0 n DSame s = rollback tb r0 n d s).
  { intros r0 E Hi Hh. pose proof (roll_resolve tb r0 n DSame s W Hi) as H.
    assert (Ea : sched_arg s (ws_sched r0) = s') by (rewrite E; unfold s'; destruct s; reflexivity).
    rewrite Ea in H.
    rewrite (Hsame _ Hi Hh) in H. exact H. }
  split; intros H.
  - destruct (rollforward_eq tb W w n d s (proj1 Hw) Hdn Hsa) as (_ & F & _). fold s' in F.
    rewrite resolve_duty3 in F by exact Hd. destruct (F r H) as ((Hi & Hh & _) & _ & Hsc).
    rewrite (proj2 (Hr2 r Hsc Hi Hh)). apply H1, H.
  - destruct (rollback_eq tb W w n d s (proj1 Hw) Hdn Hsa) as (_ & F & _). fold s' in F.
    rewrite resolve_duty3 in F by exact Hd. destruct (F r H) as ((Hi & Hh & _) & _ & Hsc).
    rewrite (proj1 (Hr2 r Hsc Hi Hh)). apply H2, H.
Qed.
