(** Workshifts that span calendar periods do not depend on the base unit: C72. *)
From Verif Require Import Base Civil Freq Frame When Timeline Board Spec SpecRoll SpecLookup SpecQuery SpecInterval SpecMisc SpecLayout SpecCivil SpecWhen SpecSame SpecShare SpecUnit Samples UnitProofs.
From Coq Require Import QArith Lia.
Open Scope Z_scope.

(** C72.  All the workshifts are in common (C69 tells what follows from it). *)
Theorem C72_units : forall (L : Type) (a1 a2 : tb_args L) (h1 h2 : heap L) tb1 tb2 h1' h2' org,
  let f1 := tl_frame (tb_tl tb1) in let f2 := tl_frame (tb_tl tb2) in
  build a1 h1 = Ok (tb1, h1') -> build a2 h2 = Ok (tb2, h2') -> a_amendments a1 = a_amendments a2 -> a_ref_end a1 = a_ref_end a2 ->
  top_organizer (a_layout a1) = Ok org -> top_organizer (a_layout a2) = Ok org ->
  one_part (fr_str f1) -> one_part (fr_str f2) -> whole_spans f1 f2 org -> tb_start_time tb1 = tb_start_time tb2 -> tb_end_time tb1 = tb_end_time tb2 ->
  tb_len tb1 = tb_len tb2 /\ share tb1 tb2 0 (tb_len tb1 - 1) 0.
Proof. exact C72_units_pf. Qed.
Print Assumptions C72_units.
(** Their durations, counted in base units, are as the base units are. *)
Theorem C72_durations : forall (L : Type) (tb1 tb2 : timeboard L) d1 d2 i j n1 n2,
  let f1 := tl_frame (tb_tl tb1) in let f2 := tl_frame (tb_tl tb2) in
  reachable tb1 -> reachable tb2 -> same_shift tb1 tb2 i j ->
  (forall u, unit_start f1 (u + 1) = unit_start f1 u + d1) -> (forall u, unit_start f2 (u + 1) = unit_start f2 u + d2) ->
  ws_duration (tb_tl tb1) i = Ok n1 -> ws_duration (tb_tl tb2) j = Ok n2 -> n1 * d1 = n2 * d2.
Proof. exact C72_durations_pf. Qed.
Print Assumptions C72_durations.

(** Weeks up to Mon 16 Jan and one workshift from there, in days and in hours, from Wed 4 to Fri 20 Jan
    2017, the second workshift amended. *)
Definition unit_layout : layout Z :=
  LOrg (DMarks [day 2017 1 16]) [LOrg (DMarker (mkMarker (fq (AlW None)) [])) [LLab 1; LLab 0]; LLab 5].
Definition unit_args (al : alias) (till : Z) : tb_args Z :=
  mkArgs (fq al) (day 2017 1 4) till unit_layout [(at_hour 2017 1 10 15, 9)] pos_sel 1 true (-1) WDuration Samples.num.
Definition unit_d := unit_args AlD (day 2017 1 20).
Definition unit_h := unit_args AlH (at_hour 2017 1 20 23).
Lemma unit_d_built : build unit_d [] = Ok (the_tb unit_d, []). Proof. vm_compute. reflexivity. Qed.
Lemma unit_h_built : build unit_h [] = Ok (the_tb unit_h, []). Proof. vm_compute. reflexivity. Qed.
Definition frame_d := tl_frame (tb_tl (the_tb unit_d)).
Definition frame_h := tl_frame (tb_tl (the_tb unit_h)).
Lemma frame_d_step u : unit_start frame_d (u + 1) = unit_start frame_d u + NS_DAY.
Proof.
  assert (E : frame_d = mkFrame (fq AlD) (fr_o0 frame_d) 17) by (vm_compute; reflexivity). rewrite E. unfold unit_start, unit_ord, fr_base, fr_mult.
  generalize (fr_o0 (mkFrame (fq AlD) (fr_o0 frame_d) 17)). intros o. cbn. lia.
Qed.
Lemma frame_h_step u : unit_start frame_h (u + 1) = unit_start frame_h u + NS_HOUR.
Proof.
  assert (E : frame_h = mkFrame (fq AlH) (fr_o0 frame_h) 408) by (vm_compute; reflexivity). rewrite E. unfold unit_start, unit_ord, fr_base, fr_mult.
  generalize (fr_o0 (mkFrame (fq AlH) (fr_o0 frame_h) 408)). intros o. cbn. lia.
Qed.
Lemma unit_whole : whole_spans frame_d frame_h unit_layout.
Proof.
  assert (Ld : long_units frame_d) by (intros u; rewrite frame_d_step; unfold NS_SEC, NS_DAY; lia).
  assert (Lh : long_units frame_h) by (intros u; rewrite frame_h_step; unfold NS_SEC, NS_HOUR; lia).
  apply (whole_marks frame_d frame_h _ _ Ld Lh); [|discriminate|].
  - intros t [<-|[]]. split; [exists 12|exists 288]; vm_compute; reflexivity.
  - intros it [<-|[<-|[]]]; [|constructor]. apply whole_calendar; [exact I|discriminate|].
    intros it' [<-|[<-|[]]]; constructor.
Qed.
Example C72_units_ex : tb_len (the_tb unit_d) = tb_len (the_tb unit_h) /\ share (the_tb unit_d) (the_tb unit_h) 0 (tb_len (the_tb unit_d) - 1) 0.
Proof.
  assert (Od : one_part (fr_str frame_d)) by (vm_compute; exact I). assert (Oh : one_part (fr_str frame_h)) by (vm_compute; exact I).
  assert (Es : tb_start_time (the_tb unit_d) = tb_start_time (the_tb unit_h)) by (vm_compute; reflexivity).
  assert (Ee : tb_end_time (the_tb unit_d) = tb_end_time (the_tb unit_h)) by (vm_compute; reflexivity).
  exact (C72_units Z unit_d unit_h [] [] (the_tb unit_d) (the_tb unit_h) [] [] unit_layout unit_d_built unit_h_built eq_refl eq_refl eq_refl eq_refl Od Oh unit_whole Es Ee).
Qed.
Example C72_labels_ex : tl_labels (tb_tl (the_tb unit_d)) = [1; 9; 5] /\ tl_labels (tb_tl (the_tb unit_h)) = [1; 9; 5]
  /\ map (ws_duration (tb_tl (the_tb unit_d))) [0; 1; 2] = [Ok 5; Ok 7; Ok 5] /\ map (ws_duration (tb_tl (the_tb unit_h))) [0; 1; 2] = [Ok 120; Ok 168; Ok 120].
Proof. vm_compute. repeat split. Qed.
Example C72_durations_ex : reachable (the_tb unit_d) /\ reachable (the_tb unit_h) /\ same_shift (the_tb unit_d) (the_tb unit_h) 1 1 /\ 7 * NS_DAY = 168 * NS_HOUR.
Proof.
  split; [exact (reach_build _ _ _ _ unit_d_built)|]. split; [exact (reach_build _ _ _ _ unit_h_built)|]. split; [|reflexivity].
  apply (proj2 C72_units_ex 1). vm_compute. split; discriminate.
Qed.

(** A mark inside a day moves the workshifts: whole days stay on one side of it. *)
Definition noon_args (al : alias) (till : Z) : tb_args Z :=
  mkArgs (fq al) (day 2017 1 4) till (LOrg (DMarks [at_hour 2017 1 6 12]) [LLab 1; LLab 2]) [] pos_sel 1 false (-1) WDuration Samples.num.
Theorem C72_marks_refuted : exists (a1 a2 : tb_args Z) tb1 tb2 h1 h2 org,
  build a1 [] = Ok (tb1, h1) /\ build a2 [] = Ok (tb2, h2) /\ a_amendments a1 = a_amendments a2 /\ a_ref_end a1 = a_ref_end a2
  /\ top_organizer (a_layout a1) = Ok org /\ top_organizer (a_layout a2) = Ok org
  /\ tb_start_time tb1 = tb_start_time tb2 /\ tb_end_time tb1 = tb_end_time tb2
  /\ tb_len tb1 = tb_len tb2 /\ ws_start_time (tb_tl tb1) 1 = Ok (day 2017 1 6) /\ ws_start_time (tb_tl tb2) 1 = Ok (at_hour 2017 1 6 12).
Proof.
  exists (noon_args AlD (day 2017 1 8)), (noon_args AlH (at_hour 2017 1 8 23)), (the_tb (noon_args AlD (day 2017 1 8))), (the_tb (noon_args AlH (at_hour 2017 1 8 23))), [], [],
    (LOrg (DMarks [at_hour 2017 1 6 12]) [LLab 1; LLab 2]).
  repeat split; vm_compute; reflexivity.
Qed.
Print Assumptions C72_marks_refuted.
