(** Frames and the range of timestamps: C75. *)
From Verif Require Import Base Civil Freq Frame Range Spec SpecRange Samples StampProofs.
From Coq Require Import Lia.
Open Scope Z_scope.

(** C75.  With a pandas that checks the range, the frames constructed are those whose base units begin
    within it; the RuntimeError of the constructor never comes. *)
Theorem C75_checked : forall (s : fstr) (t0 t1 : Z) (f : frame),
  (frame_in_range true s t0 t1 = Ok f <-> mk_frame s t0 t1 = Ok f /\ starts_fit f)
  /\ frame_in_range true s t0 t1 <> Err ERuntime.
Proof. exact C75_checked_pf. Qed.
Print Assumptions C75_checked.
(** With a pandas that wraps around, for bounds that are Timestamps: the check of the constructor lets
    through, besides, frames of one base unit and those as long as the whole range. *)
Theorem C75_wrapped : forall (s : fstr) (t0 t1 : Z) (f : frame), fits t0 -> fits t1 ->
  (frame_in_range false s t0 t1 = Ok f
   <-> mk_frame s t0 t1 = Ok f /\ (starts_fit f \/ fr_len f = 1 \/ 2 ^ 64 <= unit_start f (fr_len f - 1) - unit_start f 0)).
Proof. exact C75_wrapped_pf. Qed.
Print Assumptions C75_wrapped.
(** Of days, none but one day. *)
Theorem C75_days : forall (s : fstr) (t0 t1 : Z) (f : frame), fits t0 -> fits t1 -> fbase (to_freq s) = BD -> frame_in_range false s t0 t1 = Ok f -> 1 < fr_len f ->
  starts_fit f.
Proof. exact C75_days_pf. Qed.
Print Assumptions C75_days.
(** Within the range the lookup is the one of the model. *)
Theorem C75_lookup : forall (c : bool) (f : frame) (t : Z), 0 < fr_len f -> starts_fit f -> fits (unit_end f (fr_len f - 1) + 1) ->
  loc_in_range c f t = fr_get_loc f t.
Proof. exact C75_lookup_pf. Qed.
Print Assumptions C75_lookup.
(** A base unit that begins before the range gets a start time after it, *)
Theorem C75_start_refuted : exists (s : fstr) (t : Z) (f : frame), fits t /\ frame_in_range false s t t = Ok f
  /\ exists x, start_stamp false f 0 = Ok x /\ t < x.
Proof. exact C75_start_refuted_pf. Qed.
Print Assumptions C75_start_refuted.
(** and with bounds that are not Timestamps, longer frames too. *)
Theorem C75_far_refuted : exists (s : fstr) (t0 t1 : Z) (f : frame), fits t1 /\ frame_in_range false s t0 t1 = Ok f /\ 1 < fr_len f /\ ~ fits (unit_start f 0)
  /\ start_stamp false f 0 <> Ok (unit_start f 0).
Proof. exact C75_far_refuted_pf. Qed.
Print Assumptions C75_far_refuted.
(** A base unit that ends after the range: no point in time is found. *)
Theorem C75_end_refuted : exists (s : fstr) (t0 t1 : Z) (f : frame), fits t0 /\ fits t1 /\ (forall c, frame_in_range c s t0 t1 = Ok f) /\ starts_fit f
  /\ forall t, fits t -> t0 <= t <= t1 -> (exists i, fr_get_loc f t = Ok i) /\ loc_in_range false f t = Err EKey /\ loc_in_range true f t = Err EValue.
Proof. exact C75_end_refuted_pf. Qed.
Print Assumptions C75_end_refuted.

(** The test of the project, test_frame_constructor_too_big_range: days from 21 Sep 1677 (here, to the 30th). *)
Example C75_checked_ex : frame_in_range true (fq AlD) (day 1677 9 21) (day 1677 9 30) = Err EValue
  /\ is_ok (frame_in_range true (fq AlD) (day 1677 9 22) (day 1677 9 30)) = true.
Proof. vm_compute. split; reflexivity. Qed.
Example C75_wrapped_ex : frame_in_range false (fq AlD) (day 1677 9 21) (day 1677 9 30) = Err ERuntime
  /\ is_ok (frame_in_range false (fq AlD) (day 1677 9 22) (day 1677 9 30)) = true
  /\ is_ok (frame_in_range false (fq AlM) (day 1677 9 22) (day 1677 9 30)) = true
  /\ frame_in_range false (fq AlM) (day 1677 9 22) (day 1677 10 1) = Err ERuntime.
Proof. vm_compute. repeat split; reflexivity. Qed.
(** Months over the whole range. *)
Example C75_wrapped_ex2 : exists f, frame_in_range false (fq AlM) (day 1677 9 22) (day 2262 4 11) = Ok f /\ fr_len f = 7016 /\ ~ fits (unit_start f 0).
Proof.
  destruct (mk_frame (fq AlM) (day 1677 9 22) (day 2262 4 11)) as [f|e] eqn:M; [|vm_compute in M; discriminate]. exists f.
  assert (E : f = mkFrame (fq AlM) (fr_o0 f) 7016) by (vm_compute in M; injection M as <-; reflexivity). assert (Eo : fr_o0 f = -3508) by (vm_compute in M; injection M as <-; reflexivity).
  rewrite Eo in E. split; [|split; [rewrite E; reflexivity|rewrite E; intros [A _]; vm_compute in A; discriminate]].
  apply C75_wrapped; [vm_compute; split; reflexivity|vm_compute; split; reflexivity|]. split; [exact M|]. right. right. rewrite E. vm_compute. discriminate.
Qed.
Example C75_days_ex : exists f, frame_in_range false (fq AlD) (day 1677 9 22) (day 1677 9 30) = Ok f /\ fr_len f = 9 /\ starts_fit f.
Proof.
  assert (E : exists f, frame_in_range false (fq AlD) (day 1677 9 22) (day 1677 9 30) = Ok f /\ fr_len f = 9) by (eexists; split; vm_compute; reflexivity).
  destruct E as (f & E & L). exists f. split; [exact E|]. split; [exact L|].
  refine (C75_days (fq AlD) (day 1677 9 22) (day 1677 9 30) f _ _ eq_refl E _); [vm_compute; split; reflexivity|vm_compute; split; reflexivity|rewrite L; reflexivity].
Qed.
