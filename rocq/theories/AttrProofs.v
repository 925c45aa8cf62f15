(** Proofs about the attributes of intervals (C54) and objects of other timeboards (C55). *)
From Verif Require Import Base BaseProofs Civil Freq FreqProofs Frame FrameProofs Timeline TimelineProofs Board Spec BoardProofs SpecLookup LookupProofs SpecRoll SpecQuery SpecInterval IntervalProofs.
From Coq Require Import ZifyBool ZifyNat.
Ltac Zify.zify_post_hook ::= Z.div_mod_to_equations.

(** ** Times of an interval *)
Lemma shift_order {L} (tb : timeboard L) i j s s' e e' : tl_wf (tb_tl tb) -> is_shift tb i -> is_shift tb j ->
  starts_at tb i s -> starts_at tb j s' -> ends_at tb i e -> ends_at tb j e' -> (i <= j <-> s <= s') /\ (i <= j <-> e <= e') /\ (i < j <-> e < s') /\ s <= e.
Proof.
  intros W Hi Hj. unfold starts_at, ends_at. rewrite !ws_start_ok, !ws_end_ok by assumption.
  intros E1 E2 E3 E4. injection E1 as <-. injection E2 as <-. injection E3 as <-. injection E4 as <-.
  pose proof (unit_start_le (tl_frame (tb_tl tb))) as U. pose proof (unit_start_lt (tl_frame (tb_tl tb))) as V.
  assert (M : forall a b, a < b -> 0 <= a -> b <= tb_len tb -> unit_start (tl_frame (tb_tl tb)) (bnd (tb_tl tb) a) < unit_start (tl_frame (tb_tl tb)) (bnd (tb_tl tb) b)).
  { intros a b H1 H2 H3. apply V. apply bnd_lt; try assumption; unfold tb_len in *; lia. }
  unfold is_shift in *. pose proof (M i (i + 1)) as Mi. pose proof (M j (j + 1)) as Mj.
  destruct (Z.lt_trichotomy i j) as [C|[->|C]].
  - pose proof (M i j C). pose proof (M (i + 1) (j + 1)). assert (i + 1 = j \/ i + 1 < j) as [E|E] by lia; [|pose proof (M (i + 1) j E)]; try rewrite E in *; lia.
  - lia.
  - pose proof (M j i C). pose proof (M (j + 1) (i + 1)). lia.
Qed.

Lemma iv_times_ok {L} (tb : timeboard L) iv : tl_wf (tb_tl tb) -> iv_of tb iv -> iv_void iv = false ->
  exists t0 t1, iv_start tb iv = Ok (Some t0) /\ iv_end tb iv = Ok (Some t1)
    /\ starts_at tb (iv_a iv) t0 /\ ends_at tb (iv_b iv) t1 /\ iv_a iv <= iv_b iv /\ t0 <= t1.
Proof.
  intros W (Hs & Ha & Hb & Hab) Hv. rewrite Hv in Hab.
  destruct (shift_times tb (iv_a iv) W Ha) as (A1 & A2 & _). destruct (shift_times tb (iv_b iv) W Hb) as (B1 & B2 & _).
  eexists _, _. unfold iv_start, iv_end, iv_start_time, iv_end_time. rewrite Hv.
  rewrite A1, B2. cbn [rmap bind]. repeat (split; [reflexivity || eassumption|]).
  destruct (shift_order tb _ _ _ _ _ _ W Ha Hb A1 B1 A2 B2) as (O1 & O2 & O3 & O4).
  apply O1 in Hab. pose proof (shift_order tb _ _ _ _ _ _ W Hb Hb B1 B1 B2 B2). lia.
Qed.

Lemma C54_times_pf : forall (L : Type) (tb : timeboard L) iv, reachable tb -> iv_of tb iv ->
  (iv_void iv = true /\ iv_start tb iv = Ok None /\ iv_end tb iv = Ok None)
  \/ exists t0 t1, iv_start tb iv = Ok (Some t0) /\ iv_end tb iv = Ok (Some t1) /\ t0 <= t1
       /\ forall t, t0 <= t <= t1 <-> exists i, iv_mem iv i /\ holds_time tb i t.
Proof.
  intros L tb iv Hr Hiv. apply reachable_wf in Hr. destruct Hr as (W & _ & _).
  destruct (iv_void iv) eqn:Hv; [left; split; [reflexivity|]; unfold iv_start, iv_end; rewrite Hv; split; reflexivity|].
  right. destruct (iv_times_ok tb iv W Hiv Hv) as (t0 & t1 & H0 & H1 & S0 & E1 & Hab & Ht). destruct Hiv as (_ & Ha & Hb & _).
  exists t0, t1. split; [exact H0|]. split; [exact H1|]. split; [exact Ht|].
  destruct (shift_times tb (iv_a iv) W Ha) as (_ & A2 & _). destruct (shift_times tb (iv_b iv) W Hb) as (B1 & _ & _).
  pose proof (holds_time_within tb) as Hin.
  intros t. split.
  - intros Htt. destruct (locate_none_in tb t W) as (p & _ & Hh).
    { pose proof (Hin t0 (iv_a iv) W) as I0. pose proof (Hin t1 (iv_b iv) W) as I1.
      assert (t0 <= unit_start (tl_frame (tb_tl tb)) (bnd (tb_tl tb) (iv_a iv + 1)) - 1).
      { destruct (shift_order tb _ _ _ _ _ _ W Ha Ha S0 S0 A2 A2). lia. }
      assert (unit_start (tl_frame (tb_tl tb)) (bnd (tb_tl tb) (iv_b iv)) <= t1).
      { destruct (shift_order tb _ _ _ _ _ _ W Hb Hb B1 B1 E1 E1). lia. }
      assert (holds_time tb (iv_a iv) t0) by (split; [exact Ha|]; eexists _, _; split; [exact S0|]; split; [exact A2|lia]).
      assert (holds_time tb (iv_b iv) t1) by (split; [exact Hb|]; eexists _, _; split; [exact B1|]; split; [exact E1|lia]).
      specialize (I0 ltac:(assumption)). specialize (I1 ltac:(assumption)). lia. }
    exists p. split; [|exact Hh]. split; [exact Hv|]. destruct Hh as (Hp & s & e & P1 & P2 & P3).
    destruct (shift_order tb _ _ _ _ _ _ W Ha Hp S0 P1 A2 P2) as (_ & _ & _ & _).
    pose proof (shift_order tb _ _ _ _ _ _ W Hp Ha P1 S0 P2 A2). pose proof (shift_order tb _ _ _ _ _ _ W Hb Hp B1 P1 E1 P2). lia.
  - intros (i & (_ & Hi) & (Hi' & s & e & P1 & P2 & P3)).
    pose proof (shift_order tb _ _ _ _ _ _ W Ha Hi' S0 P1 A2 P2). pose proof (shift_order tb _ _ _ _ _ _ W Hi' Hb P1 B1 P2 E1). lia.
Qed.

Lemma C54_back_pf : forall (L : Type) (tb : timeboard L) iv t0 t1 clip, reachable tb -> iv_of tb iv ->
  iv_start tb iv = Ok (Some t0) -> iv_end tb iv = Ok (Some t1) ->
  get_interval tb (RPair (Some t0) (Some t1)) None None clip C11 (Some (iv_sched iv)) = Ok iv.
Proof.
  intros L tb iv t0 t1 clip Hr Hiv H0 H1. pose proof (reachable_wf tb Hr) as (W & _ & _).
  assert (Hv : iv_void iv = false) by (unfold iv_start in H0; destruct (iv_void iv); [discriminate|reflexivity]).
  destruct (iv_times_ok tb iv W Hiv Hv) as (u0 & u1 & E0 & E1 & S0 & S1 & Hab & Ht).
  rewrite H0 in E0. rewrite H1 in E1. injection E0 as <-. injection E1 as <-. destruct Hiv as (_ & Ha & Hb & _).
  destruct (shift_times tb (iv_a iv) W Ha) as (_ & A2 & _). destruct (shift_times tb (iv_b iv) W Hb) as (B1 & _ & _).
  pose proof (shift_order tb _ _ _ _ _ _ W Ha Ha S0 S0 A2 A2) as OA. pose proof (shift_order tb _ _ _ _ _ _ W Hb Hb B1 B1 S1 S1) as OB.
  destruct (C20_pair_pf L tb Hr (Some t0) (Some t1) clip (Some (iv_sched iv))) as [HH _].
  destruct (HH (iv_a iv) (iv_b iv)) as [G _].
  - split; [exact Ha|]. eexists _, _. split; [exact S0|]. split; [exact A2|lia].
  - split; [exact Hb|]. eexists _, _. split; [exact B1|]. split; [exact S1|lia].
  - rewrite (G Hab). destruct iv; cbn in *. subst. reflexivity.
Qed.

Lemma C54_order_pf : forall (L : Type) (tb : timeboard L) x y x0 x1 y0 y1, reachable tb -> iv_of tb x -> iv_of tb y ->
  iv_start tb x = Ok (Some x0) -> iv_end tb x = Ok (Some x1) -> iv_start tb y = Ok (Some y0) -> iv_end tb y = Ok (Some y1) ->
  (iv_includes x y <-> x0 <= y0 /\ y1 <= x1)
  /\ ((forall i j, iv_mem x i -> iv_mem y j -> i < j) <-> x1 < y0)
  /\ (iv_b x + 1 = iv_a y <-> x1 + 1 = y0).
Proof.
  intros L tb x y x0 x1 y0 y1 Hr Hx Hy H1 H2 H3 H4. apply reachable_wf in Hr. destruct Hr as (W & _ & _).
  assert (Vx : iv_void x = false) by (unfold iv_start in H1; destruct (iv_void x); [discriminate|reflexivity]).
  assert (Vy : iv_void y = false) by (unfold iv_start in H3; destruct (iv_void y); [discriminate|reflexivity]).
  destruct (iv_times_ok tb x W Hx Vx) as (u0 & u1 & E0 & E1 & S0 & S1 & Hab & Ht). rewrite H1 in E0. rewrite H2 in E1. injection E0 as <-. injection E1 as <-.
  destruct (iv_times_ok tb y W Hy Vy) as (u0 & u1 & E0 & E1 & T0 & T1 & Hcd & Hu). rewrite H3 in E0. rewrite H4 in E1. injection E0 as <-. injection E1 as <-.
  destruct Hx as (_ & Ha & Hb & _). destruct Hy as (_ & Hc & Hd & _).
  destruct (shift_times tb _ W Ha) as (_ & A2 & _). destruct (shift_times tb _ W Hb) as (B1 & _ & _).
  destruct (shift_times tb _ W Hc) as (_ & C2 & _). destruct (shift_times tb _ W Hd) as (D1 & _ & _).
  pose proof (shift_order tb _ _ _ _ _ _ W Ha Hc S0 T0 A2 C2) as O1. pose proof (shift_order tb _ _ _ _ _ _ W Hd Hb D1 B1 T1 S1) as O2.
  pose proof (shift_order tb _ _ _ _ _ _ W Hb Hc B1 T0 S1 C2) as O3.
  split; [|split].
  - split.
    + intros Hi. destruct (Hi (iv_a y)) as [_ I1]; [split; [exact Vy|lia]|]. destruct (Hi (iv_b y)) as [_ I2]; [split; [exact Vy|lia]|]. lia.
    + intros [G1 G2] i [_ Hi]. split; [exact Vx|]. lia.
  - split.
    + intros H. assert (iv_b x < iv_a y); [|lia]. apply H; (split; [assumption|lia]).
    + intros H i j [_ Hi] [_ Hj]. lia.
  - unfold starts_at, ends_at in S1, T0. rewrite ws_end_ok in S1 by assumption. rewrite ws_start_ok in T0 by assumption.
    injection S1 as <-. injection T0 as <-. split.
    + intros ->. lia.
    + intros E. assert (E' : unit_start (tl_frame (tb_tl tb)) (bnd (tb_tl tb) (iv_b x + 1)) = unit_start (tl_frame (tb_tl tb)) (bnd (tb_tl tb) (iv_a y))) by lia.
      unfold is_shift, tb_len in *.
      destruct (Z.lt_trichotomy (iv_b x + 1) (iv_a y)) as [G|[G|G]]; [|exact G|].
      * pose proof (unit_start_lt (tl_frame (tb_tl tb)) (bnd (tb_tl tb) (iv_b x + 1)) (bnd (tb_tl tb) (iv_a y))) as U.
        pose proof (bnd_lt _ W (iv_b x + 1) (iv_a y)). lia.
      * pose proof (unit_start_lt (tl_frame (tb_tl tb)) (bnd (tb_tl tb) (iv_a y)) (bnd (tb_tl tb) (iv_b x + 1))) as U.
        pose proof (bnd_lt _ W (iv_a y) (iv_b x + 1)). lia.
Qed.
