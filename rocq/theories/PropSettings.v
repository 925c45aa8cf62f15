(** Theorems C50: the settings given to the constructor govern the workshifts. *)
From Verif Require Import Base Civil Freq Frame Timeline Board Spec SpecRoll SpecQuery SpecMisc Samples PropQuery SettingsProofs.
From Coq Require Import QArith.
Open Scope Z_scope.

(** C50.  `workshift_ref`. *)
Theorem C50_reference : forall (L : Type) (a : tb_args L) (tb : timeboard L), made_with a tb ->
  forall i t, is_shift tb i -> (ref_at tb i t <-> if a_ref_end a then ends_at tb i t else starts_at tb i t).
Proof. exact C50_reference_pf. Qed.
Print Assumptions C50_reference.

(** The default schedule is that of `default_selector`, by the name `default_name`. *)
Theorem C50_default : forall (L : Type) (a : tb_args L) (tb : timeboard L), made_with a tb ->
  sc_name (tb_default tb) = a_name a /\ sched_for tb (tb_default tb)
  /\ forall w, ws_of tb w -> is_on_duty tb w (tb_default tb) = Ok (a_sel a (ws_label w))
                             /\ is_off_duty tb w (tb_default tb) = Ok (negb (a_sel a (ws_label w))).
Proof. exact C50_default_pf. Qed.
Print Assumptions C50_default.

(** `worktime_source`: the numeric label, or the number of base units. *)
Theorem C50_worktime : forall (L : Type) (a : tb_args L) (tb : timeboard L), made_with a tb ->
  forall w s d, ws_of tb w -> (forall s', s = Some s' -> sched_for tb s') ->
  let sch := match s with Some s' => s' | None => ws_sched w end in
  (~ (d = DOn \/ d = DOff \/ d = DAny) -> ws_worktime tb w d s = Err EValue)
  /\ (d = DOn \/ d = DOff \/ d = DAny -> has_duty tb sch d (ws_loc w) = false -> ws_worktime tb w d s = Ok 0%Q)
  /\ (has_duty tb sch d (ws_loc w) = true -> a_wt a = WLabels ->
        ws_worktime tb w d s = match a_num a (ws_label w) with Some q => Ok q | None => Err EType end)
  /\ (has_duty tb sch d (ws_loc w) = true -> a_wt a = WDuration ->
        exists n, has_units tb (ws_loc w) n /\ ws_worktime tb w d s = Ok (inject_Z n)).
Proof. exact C50_worktime_pf. Qed.
Print Assumptions C50_worktime.

(** [week_tb] counts labels and [shift_tb] base units: 10 hours from 8 to 18 o'clock. *)
Example C50_ex :
  made_with week_args week_tb /\ a_wt week_args = WLabels /\ a_ref_end week_args = false
  /\ ws_worktime week_tb (mkWs 7 7 (tb_default week_tb)) DOn None = Ok 7%Q
  /\ made_with shift_args shift_tb /\ a_wt shift_args = WDuration
  /\ has_units shift_tb 1 10
  /\ rmap (fun w => ws_worktime shift_tb w DAny None) (new_workshift shift_tb 1 (tb_default shift_tb)) = Ok (Ok 10%Q).
Proof.
  split; [eapply made_build; exact week_builds|]. split; [reflexivity|]. split; [reflexivity|].
  split; [vm_compute; reflexivity|]. split; [eapply made_build; exact shift_builds|]. split; [reflexivity|].
  split; [|vm_compute; reflexivity]. exists 8. vm_compute. repeat split; discriminate.
Qed.
