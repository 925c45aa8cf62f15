(** Theorems C53-C55: when construction succeeds, the times of intervals, objects of another timeboard. *)
From Verif Require Import Base Civil Freq Frame When Timeline Board Spec SpecLookup SpecLayout SpecWhen SpecMisc SpecRoll SpecQuery SpecInterval SpecBuild Samples PropQuery BuildProofs AttrProofs.
From Verif Require Api.
From Coq Require Import QArith.
Open Scope Z_scope.

(** ** C53 *)
Theorem C53_builds : forall (L : Type) (a : tb_args L) (h : heap L) org f,
  top_organizer (a_layout a) = Ok org -> a_wt a <> WBad -> mk_frame (a_freq a) (a_start a) (a_end a) = Ok f ->
  ((forall ly s e, used f org (whole_span f) ly s -> ~ unusable f ly s e)
   <-> exists tb h', build (with_amendments a []) h = Ok (tb, h')).
Proof. exact C53_builds_pf. Qed.
Print Assumptions C53_builds.

Theorem C53_unusable : forall (L : Type) (a : tb_args L) (h : heap L) org f ly s e,
  top_organizer (a_layout a) = Ok org -> a_wt a <> WBad -> mk_frame (a_freq a) (a_start a) (a_end a) = Ok f ->
  used f org (whole_span f) ly s -> unusable f ly s e ->
  exists e' ly' s', build a h = Err e' /\ used f org (whole_span f) ly' s' /\ unusable f ly' s' e'.
Proof. exact C53_unusable_pf. Qed.
Print Assumptions C53_unusable.

Theorem C53_reason : forall (L : Type) (a : tb_args L) (h : heap L) org e,
  top_organizer (a_layout a) = Ok org -> a_wt a <> WBad -> build a h = Err e ->
  let b := fbase (to_freq (a_freq a)) in
  (e = EVoidInterval /\ exists o0 o1, in_cal_unit b o0 (a_start a) /\ in_cal_unit b o1 (a_end a) /\ o1 < o0)
  \/ (exists f ly s, mk_frame (a_freq a) (a_start a) (a_end a) = Ok f /\ used f org (whole_span f) ly s /\ unusable f ly s e)
  \/ (e = EKey /\ exists tb h', build (with_amendments a []) h = Ok (tb, h') /\ clash tb (a_amendments a)).
Proof. exact C53_reason_pf. Qed.
Print Assumptions C53_reason.

(** The first quarter of 2017 in days. *)
Definition quarter_args (ly : layout Z) (am : list (Z * Z)) : tb_args Z :=
  mkArgs (fq AlD) (day 2017 1 1) (day 2017 3 31) ly am pos_sel 1 false (-1) WDuration Samples.num.
Definition quarter : frame := mkFrame (fq AlD) 17167 90.
(** An organizer that comes to be used on the second part only groups days by hours. *)
Definition by_hours : layout Z := LOrg (DMarker (mkMarker (fq AlH) [])) [LPat (PList [1])].
Definition nested_hours (marks : list Z) : layout Z := LOrg (DMarks marks) [LPat (PList [0]); by_hours].
(** A marker with a function that knows one mark, and one with a function that fails on the second element. *)
Definition one_mark : marker := mkMarker (fq AlM) [fun _ _ => Ok [day 2017 2 10]].
Definition failing : marker := mkMarker (fq AlM) [(fun _ _ => Ok []); (fun _ _ => Err EValue)].
Example C53_ex :
  mk_frame (fq AlD) (day 2017 1 1) (day 2017 3 31) = Ok quarter
  (* reached: on the days from 15 February *)
  /\ used quarter (nested_hours [day 2017 2 15]) (whole_span quarter) by_hours (mkSpan 45 89 0 0)
  /\ unusable quarter by_hours (mkSpan 45 89 0 0) EUnacceptablePeriod
  /\ build (quarter_args (nested_hours [day 2017 2 15]) []) [] = Err EUnacceptablePeriod
  (* not reached: there is no second part *)
  /\ is_ok (build (quarter_args (nested_hours []) []) []) = true
  (* what precedes the only known mark is unknown; patterns cannot be used there, labels can *)
  /\ unusable quarter (@LPat Z (PList [1; 2])) (mkSpan 0 39 (-1) 0) EOutOfBounds
  /\ build (quarter_args (LOrg (DMarker one_mark) [LPat (PList [1; 2])]) []) [] = Err EOutOfBounds
  /\ rmap (fun r => tl_labels (tb_tl (fst r))) (build (quarter_args (LOrg (DMarker one_mark) [LLab 3; LLab 4]) []) []) = Ok [3; 4]
  /\ indivisible quarter (DMarker failing) (whole_span quarter) EValue
  /\ build (quarter_args (LOrg (DMarker failing) [LLab 3]) []) [] = Err EValue
  (* amendments *)
  /\ build (quarter_args (LOrg (DMarker (mkMarker (fq AlM) [])) [LLab 3]) [(day 2017 2 1, 5); (day 2017 2 9, 5)]) [] = Err EKey.
Proof.
  split; [vm_compute; reflexivity|].
  split. { eapply (used_element _ _ _ _ _ (mkSpan 45 89 0 0) 1%nat by_hours); [vm_compute; reflexivity|reflexivity|reflexivity|apply used_itself]. }
  split; [apply un_organizer, ind_frequency; vm_compute; reflexivity|].
  split; [vm_compute; reflexivity|]. split; [vm_compute; reflexivity|].
  split; [apply un_pattern; reflexivity|]. split; [vm_compute; reflexivity|]. split; [vm_compute; reflexivity|].
  split. { eapply (ind_function _ failing _ [fun _ _ => Ok []] _ []); try (vm_compute; reflexivity). apply Forall2_cons; [reflexivity|apply Forall2_nil]. }
  split; vm_compute; reflexivity.
Qed.

Theorem C53_plain : forall (L : Type) (a : tb_args L) (h : heap L) o0 o1,
  plain (a_freq a) (a_layout a) -> is_ok (top_organizer (a_layout a)) = true -> a_wt a <> WBad ->
  real_name (falias (a_freq a)) -> let b := fbase (to_freq (a_freq a)) in
  in_cal_unit b o0 (a_start a) -> in_cal_unit b o1 (a_end a) -> o0 <= o1 ->
  exists tb0 h', build (with_amendments a []) h = Ok (tb0, h')
    /\ (~ clash tb0 (a_amendments a) -> exists tb, build a h = Ok (tb, h')).
Proof. exact C53_plain_pf. Qed.
Print Assumptions C53_plain.

Example C53_plain_ex : plain (fq AlD) week_layout /\ plain (fq AlH) shift_layout
  /\ is_ok (build (quarter_args week_layout [(day 2017 2 1, 5)]) []) = true.
Proof.
  assert (Hd : forall bu g, real_name (falias bu) -> real_name (falias g) -> check_groupby_freq bu g = true -> plain_divider bu (DMarker (mkMarker g []))).
  { intros bu g H1 H2 H. apply plain_marker; [exact H2|]. apply AcceptProofs.C13_accepted_pf; assumption. }
  split; [|split; [|vm_compute; reflexivity]].
  - constructor; [apply Hd; vm_compute; auto; split; discriminate|]. intros it [<-|[]]. constructor.
  - constructor; [constructor|]. intros it [<-|[<-|[<-|[<-|[]]]]]; try constructor.
    + apply Hd; vm_compute; auto.
    + intros it [<-|[<-|[]]]; constructor.
Qed.

(** ** C54 *)
Theorem C54_times : forall (L : Type) (tb : timeboard L) iv, reachable tb -> iv_of tb iv ->
  (iv_void iv = true /\ iv_start tb iv = Ok None /\ iv_end tb iv = Ok None)
  \/ exists t0 t1, iv_start tb iv = Ok (Some t0) /\ iv_end tb iv = Ok (Some t1) /\ t0 <= t1
       /\ forall t, t0 <= t <= t1 <-> exists i, iv_mem iv i /\ holds_time tb i t.
Proof. exact C54_times_pf. Qed.
Print Assumptions C54_times.

Theorem C54_back : forall (L : Type) (tb : timeboard L) iv t0 t1 clip, reachable tb -> iv_of tb iv ->
  iv_start tb iv = Ok (Some t0) -> iv_end tb iv = Ok (Some t1) ->
  get_interval tb (RPair (Some t0) (Some t1)) None None clip C11 (Some (iv_sched iv)) = Ok iv.
Proof. exact C54_back_pf. Qed.
Print Assumptions C54_back.

Theorem C54_order : forall (L : Type) (tb : timeboard L) x y x0 x1 y0 y1, reachable tb -> iv_of tb x -> iv_of tb y ->
  iv_start tb x = Ok (Some x0) -> iv_end tb x = Ok (Some x1) -> iv_start tb y = Ok (Some y0) -> iv_end tb y = Ok (Some y1) ->
  (iv_includes x y <-> x0 <= y0 /\ y1 <= x1)
  /\ ((forall i j, iv_mem x i -> iv_mem y j -> i < j) <-> x1 < y0)
  /\ (iv_b x + 1 = iv_a y <-> x1 + 1 = y0).
Proof. exact C54_order_pf. Qed.
Print Assumptions C54_order.

Definition sh (a b : Z) : interval Z := mkIvl a b false (tb_default shift_tb).
Example C54_ex :
  iv_of week_tb (wk 4 6) /\ iv_start week_tb (wk 4 6) = Ok (Some (day 2017 1 3)) /\ iv_end week_tb (wk 4 6) = Ok (Some (day 2017 1 6 - 1))
  /\ get_interval week_tb (RPair (Some (day 2017 1 3)) (Some (day 2017 1 6 - 1))) None None true C11 (Some (tb_default week_tb)) = Ok (wk 4 6)
  /\ iv_start shift_tb (sh 0 1) = Ok (Some (day 2017 1 1)) /\ iv_end shift_tb (sh 0 1) = Ok (Some (at_hour 2017 1 1 18 - 1))
  /\ (do z <- iv_overlap week_tb (wk 2 5) (wk 7 12) None; iv_start week_tb z) = Ok None.
Proof.
  split; [apply wk_of; discriminate || reflexivity|]. repeat (split; [vm_compute; reflexivity|]). vm_compute. reflexivity.
Qed.

(** ** C55 *)
(** The day of a workshift of one timeboard used as a reference for another is found by time
    (C47_point); overlap and Interval(...) go by position. *)
Lemma apart (x y : interval Z) x0 x1 y0 y1 : iv_of week_tb x -> iv_of shift_tb y ->
  iv_start week_tb x = Ok (Some x0) -> iv_end week_tb x = Ok (Some x1) -> iv_start shift_tb y = Ok (Some y0) -> iv_end shift_tb y = Ok (Some y1) ->
  y1 < x0 -> forall t i j, iv_mem x i -> holds_time week_tb i t -> iv_mem y j -> holds_time shift_tb j t -> False.
Proof.
  intros Hx Hy H0 H1 H2 H3 Hlt t i j Hi Ti Hj Tj.
  destruct (C54_times Z week_tb x week_reachable Hx) as [(_ & E & _)|(t0 & t1 & E0 & E1 & _ & H)]; [congruence|].
  destruct (C54_times Z shift_tb y shift_reachable Hy) as [(_ & E & _)|(u0 & u1 & F0 & F1 & _ & G)]; [congruence|].
  assert (A : t0 <= t <= t1) by (apply H; exists i; split; assumption).
  assert (B : u0 <= t <= u1) by (apply G; exists j; split; assumption).
  rewrite H0 in E0. rewrite H3 in F1. injection E0 as <-. injection F1 as <-.
  apply (Z.lt_irrefl t). apply (Z.le_lt_trans _ y1); [apply B|]. apply (Z.lt_le_trans _ x0); [exact Hlt|apply A].
Qed.
Lemma sh_of a b : 0 <= a -> a <= b -> b < 28 -> iv_of shift_tb (sh a b).
Proof.
  intros H1 H2 H3. split; [exact shift_default_for|]. unfold is_shift. cbn [iv_a iv_b iv_void sh].
  assert (E : tb_len shift_tb = 28) by (vm_compute; reflexivity). rewrite E. repeat split; try assumption; eauto using Z.le_trans, Z.le_lt_trans.
Qed.

(** Intervals without a common instant, but with an overlap that is not void. *)
Theorem C55_overlap_refuted : exists (tb tb' : timeboard Z) x y z i,
  reachable tb /\ reachable tb' /\ iv_of tb x /\ iv_of tb' y /\ iv_overlap tb x y None = Ok z /\ iv_mem z i
  /\ forall t i j, iv_mem x i -> holds_time tb i t -> iv_mem y j -> holds_time tb' j t -> False.
Proof.
  exists week_tb, shift_tb, (wk 4 6), (sh 4 6), (wk 4 6), 5.
  assert (Hx : iv_of week_tb (wk 4 6)) by (apply wk_of; discriminate || reflexivity).
  assert (Hy : iv_of shift_tb (sh 4 6)) by (apply sh_of; discriminate || reflexivity).
  split; [exact week_reachable|]. split; [exact shift_reachable|]. split; [exact Hx|]. split; [exact Hy|].
  split; [vm_compute; reflexivity|]. split; [vm_compute; repeat split; discriminate|].
  apply (apart _ _ (day 2017 1 3) (day 2017 1 6 - 1) (at_hour 2017 1 2 1) (at_hour 2017 1 2 4 - 1)); try assumption; vm_compute; reflexivity.
Qed.
Print Assumptions C55_overlap_refuted.

(** Intervals with a common instant whose overlap is an error. *)
Theorem C55_error_refuted : exists (tb tb' : timeboard Z) x y t i j,
  reachable tb /\ reachable tb' /\ iv_of tb x /\ iv_of tb' y /\ iv_mem x i /\ holds_time tb i t /\ iv_mem y j /\ holds_time tb' j t
  /\ iv_overlap tb x y None = Err EOutOfBounds.
Proof.
  exists week_tb, shift_tb, (wk 2 9), (sh 20 25), (at_hour 2017 1 2 18), 3, 21.
  split; [exact week_reachable|]. split; [exact shift_reachable|].
  split; [apply wk_of; discriminate || reflexivity|]. split; [apply sh_of; discriminate || reflexivity|].
  split; [vm_compute; repeat split; discriminate|].
  split; [split; [vm_compute; split; congruence|]; exists (day 2017 1 2), (day 2017 1 3 - 1); vm_compute; repeat split; discriminate|].
  split; [vm_compute; repeat split; discriminate|].
  split; [split; [vm_compute; split; congruence|]; exists (at_hour 2017 1 2 18), (at_hour 2017 1 2 19 - 1); vm_compute; repeat split; discriminate|].
  vm_compute. reflexivity.
Qed.
Print Assumptions C55_error_refuted.

(** An interval constructed from workshifts of another timeboard that lie outside it. *)
Theorem C55_bounds_refuted : exists (tb tb' : timeboard Z) w iv,
  reachable tb /\ reachable tb' /\ ws_of tb' w
  /\ Api.interval_any false (Some tb) (Api.PTuple [Api.VWs tb' w; Api.VWs tb' w]) Api.SNone = Ok iv
  /\ forall t i, iv_mem iv i -> holds_time tb i t -> holds_time tb' (ws_loc w) t -> False.
Proof.
  exists week_tb, shift_tb, (mkWs 4 4 (tb_default shift_tb)), (wk 4 4).
  split; [exact week_reachable|]. split; [exact shift_reachable|].
  split; [split; [vm_compute; split; congruence|split; [exact shift_default_for|vm_compute; reflexivity]]|].
  split; [vm_compute; reflexivity|].
  assert (Hx : iv_of week_tb (wk 4 4)) by (apply wk_of; discriminate || reflexivity).
  assert (Hy : iv_of shift_tb (sh 4 4)) by (apply sh_of; discriminate || reflexivity).
  intros t i Hi Hh Hw.
  apply (apart _ _ (day 2017 1 3) (day 2017 1 4 - 1) (at_hour 2017 1 2 1) (at_hour 2017 1 2 2 - 1) Hx Hy) with (t := t) (i := i) (j := 4); try assumption; try (vm_compute; reflexivity).
  vm_compute. repeat split; discriminate.
Qed.
Print Assumptions C55_bounds_refuted.
