(** Layouts that divide the workshifts of another layout further: C80. *)
From Verif Require Import Base Civil Freq Frame Timeline Board Spec SpecRoll SpecLookup SpecLayout SpecFiner Samples BoardProofs LookupProofs FinerProofs.
From Coq Require Import QArith Lia.
Open Scope Z_scope.

(** C80.  A layout made from another by changes that divide further gives workshifts that take place
    within those of the other. *)
Theorem C80_layouts : forall L (a1 a2 : tb_args L) h tb1 tb2 h1 h2, build a1 h = Ok (tb1, h1) -> build a2 h = Ok (tb2, h2) ->
  a_freq a1 = a_freq a2 -> a_start a1 = a_start a2 -> a_end a1 = a_end a2 ->
  splits_into (tl_frame (tb_tl tb1)) h (a_layout a1) (a_layout a2) ->
  tl_frame (tb_tl tb1) = tl_frame (tb_tl tb2) /\ finer tb1 tb2.
Proof. exact C80_layouts_pf. Qed.
Print Assumptions C80_layouts.
(** More marks divide further. *)
Theorem C80_marks : forall f m m', is_frame f -> incl m m' -> cuts_too f (DMarks m) (DMarks m').
Proof. exact C80_marks_pf. Qed.
Print Assumptions C80_marks.
(** So does anything compared with no marks. *)
Theorem C80_none : forall f d, is_frame f -> cuts_too f (DMarks []) d.
Proof. exact C80_none_pf. Qed.
Print Assumptions C80_none.
(** And periods with which the other periods, or groups of them, begin. *)
Theorem C80_periods : forall f g g', is_frame f -> accepts (fr_str f) g -> accepts (fr_str f) g' -> fmult (to_freq g') = 1%positive ->
  begins_with (fbase (to_freq g')) (fbase (to_freq g)) -> cuts_too f (DMarker (mkMarker g [])) (DMarker (mkMarker g' [])).
Proof. exact C80_periods_pf. Qed.
Print Assumptions C80_periods.
(** What an interval holds on the finer timeboard: the same time, the same number of base units, and the
    parts of its workshifts. *)
Theorem C80_interval : forall L (tb1 tb2 : timeboard L) iv clip s, reachable tb1 -> reachable tb2 -> tl_frame (tb_tl tb1) = tl_frame (tb_tl tb2) -> finer tb1 tb2 ->
  iv_of tb1 iv -> iv_void iv = false -> (forall s', s = Some s' -> sched_for tb2 s') ->
  exists t0 t1 iv2, iv_start tb1 iv = Ok (Some t0) /\ iv_end tb1 iv = Ok (Some t1)
    /\ get_interval tb2 (RPair (Some t0) (Some t1)) None None clip C11 s = Ok iv2
    /\ iv_start tb2 iv2 = Ok (Some t0) /\ iv_end tb2 iv2 = Ok (Some t1)
    /\ iv_length iv <= iv_length iv2
    /\ (forall j, iv_mem iv2 j <-> exists i, iv_mem iv i /\ part_of tb1 tb2 i j)
    /\ total_duration tb1 iv DAny None = total_duration tb2 iv2 DAny None.
Proof. exact C80_interval_pf. Qed.
Print Assumptions C80_interval.

Definition div_by (d : divider) (items : list (layout Z)) (am : list (Z * Z)) : tb_args Z :=
  mkArgs (fq AlD) (day 2016 12 5) (day 2017 4 10) (LOrg d items) am pos_sel 1 false (-1) WLabels Samples.num.
Definition per (a : alias) : divider := DMarker (mkMarker (fq a) []).
(** Quarters, and months some of which are divided into days or at a mark. *)
Definition quarters : tb_args Z := div_by (per (AlQ None)) (map LLab [1; 2]) [(day 2017 1 7, 8)].
Definition months : tb_args Z := div_by (per AlM) [LLab 3; LPat (PList [4; 5]); LOrg (DMarks [day 2017 2 14]) [LLab 6]] [].
Example C80_layouts_ex :
  build quarters [] = Ok (the_tb quarters, []) /\ build months [] = Ok (the_tb months, [])
  /\ splits_into (tl_frame (tb_tl (the_tb quarters))) [] (a_layout quarters) (a_layout months)
  /\ tl_index (tb_tl (the_tb quarters)) = [0; 27; 117]
  /\ tl_index (tb_tl (the_tb months)) = [0] ++ zrange 27 31 ++ [58; 71; 86; 117] ++ zrange 118 9.
Proof.
  split; [vm_compute; reflexivity|]. split; [vm_compute; reflexivity|]. split; [|vm_compute; split; reflexivity].
  eapply sp_divide; [apply (cp_labels [] (per (AlQ None)) 1 [2])|apply dv_org|].
  apply C80_periods; [|vm_compute; repeat split|vm_compute; repeat split|reflexivity|].
  - exists (day 2016 12 5), (day 2017 4 10). vm_compute. reflexivity.
  - intros o. exists (3 * o + (12 - 12)). reflexivity.
Qed.
(** The label of the first span of [shift_layout] gives way to a pattern, that of the last to two halves,
    and the one inside to hours in groups. *)
Definition cut_layout : layout Z :=
  LOrg (DMarks [at_hour 2017 1 1 8; at_hour 2017 1 1 18 + 1; at_hour 2017 1 3 0])
       [LPat (PList [1]); LLab 2; LOrg (DMarker (mkMarker (fq AlD) [])) [LOrg (DMarks [at_hour 2017 1 1 21]) [LLab 7]; LPat (PList [3; 4])]; LOrg (DMarks [at_hour 2017 1 3 9]) [LLab 5]].
Definition cut_args : tb_args Z :=
  mkArgs (fq AlH) (day 2017 1 1) (at_hour 2017 1 3 23) cut_layout [] pos_sel 1 true (-1) WDuration Samples.num.
Example C80_inside_ex :
  build shift_args [] = Ok (shift_tb, []) /\ build cut_args [] = Ok (the_tb cut_args, [])
  /\ (forall f, splits_into f [] shift_layout cut_layout)
  /\ tl_index (tb_tl (the_tb cut_args)) = zrange 0 9 ++ [18; 21] ++ zrange 24 25 ++ [57].
Proof.
  split; [exact shift_builds|]. split; [vm_compute; reflexivity|]. split; [|vm_compute; reflexivity]. intros f.
  apply sp_inside; [reflexivity|]. intros [|[|[|[|j]]]] it it' H H'; [| | | |destruct j; discriminate H]; injection H as <-; injection H' as <-; [apply sp_label|apply sp_label| |apply sp_label].
  apply sp_inside; [reflexivity|]. intros [|[|j]] it it' H H'; [| |destruct j; discriminate H]; injection H as <-; injection H' as <-; [apply sp_label|apply sp_same].
Qed.
(** One interval on the two: 1 Jan in three workshifts, or in eleven. *)
Example C80_interval_ex :
  let iv := mkIvl 0 2 false (tb_default shift_tb) in
  iv_of shift_tb iv /\ iv_length iv = 3 /\ total_duration shift_tb iv DAny None = Ok 24
  /\ rmap (fun x => (iv_a x, iv_b x, total_duration (the_tb cut_args) x DAny None))
       (get_interval (the_tb cut_args) (RPair (Some (day 2017 1 1)) (Some (day 2017 1 2 - 1))) None None true C11 None) = Ok (0, 10, Ok 24).
Proof. split; [split; [exact shift_default_for|]; vm_compute; repeat split; congruence|]. vm_compute. repeat split. Qed.
Example C80_marks_ex : incl [day 2017 1 3] [day 2017 1 9; day 2017 1 3] /\ is_frame (tl_frame (tb_tl (the_tb quarters))).
Proof. split; [intros t [<-|[]]; right; left; reflexivity|]. exists (day 2016 12 5), (day 2017 4 10). vm_compute. reflexivity. Qed.
(** With something else than labels in the structure, a mark more may join base units: the spans get
    other elements of the structure. *)
Example C80_mixed_ex :
  let a := div_by (DMarks [day 2017 2 1]) [LPat (PList [1]); LLab 2] [] in
  let b := div_by (DMarks [day 2017 1 1; day 2017 2 1]) [LPat (PList [1]); LLab 2] [] in
  build a [] = Ok (the_tb a, []) /\ build b [] = Ok (the_tb b, []) /\ ~ finer (the_tb a) (the_tb b).
Proof.
  intros a b. split; [vm_compute; reflexivity|]. split; [vm_compute; reflexivity|]. intros F.
  destruct (F 27) as (i & _ & _ & H); [vm_compute; split; congruence|].
  assert (T : forall t, t = day 2017 1 1 \/ t = day 2017 1 2 -> holds_time (the_tb b) 27 t).
  { intros t Ht. split; [vm_compute; split; congruence|]. exists (day 2017 1 1), (day 2017 2 1 - 1). split; [vm_compute; reflexivity|]. split; [vm_compute; reflexivity|].
    destruct Ht as [-> | ->]; vm_compute; split; congruence. }
  destruct (H _ (T _ (or_introl eq_refl))) as (Hi & s1 & e1 & S1 & E1 & B1). destruct (H _ (T _ (or_intror eq_refl))) as (_ & s2 & e2 & S2 & E2 & B2).
  assert (i = 27).
  { assert (X : reachable (the_tb a)) by (apply (reach_build a [] _ []); vm_compute; reflexivity).
    apply reachable_wf in X. destruct X as (W & _). apply (holds_time_unique (the_tb a) (day 2017 1 1) i 27 W); [split; [exact Hi|eauto]|].
    split; [vm_compute; split; congruence|]. exists (day 2017 1 1), (day 2017 1 2 - 1). split; [vm_compute; reflexivity|]. split; [vm_compute; reflexivity|vm_compute; split; congruence]. }
  subst i. unfold ends_at in E2. vm_compute in E2. injection E2 as <-. destruct B2 as (_ & B2). vm_compute in B2. exact (B2 eq_refl).
Qed.
