(** Theorems C58: what is shown of workshifts, intervals and timeboards. *)
From Verif Require Import Base Civil Freq Frame Timeline Board Spec SpecMisc Text SpecText Samples TextProofs.
From Coq Require Import String.
Open Scope Z_scope.
Open Scope list_scope.

(** ** C58 *)
Theorem C58_workshift : forall (L : Type) (tb : timeboard L) w, reachable tb -> ws_of tb w ->
  exists s c row, says_schedule tb (sc_name (ws_sched w)) s /\ says_shift tb (ws_loc w) c /\ row_agrees tb (ws_loc w) row
    /\ let l := [TText "Workshift("; TNum (ws_loc w)] ++ s ++ [TText ") of "] ++ c in
       ws_repr tb w = Ok l /\ ws_str tb w = Ok (l, [row]).
Proof. exact C58_workshift_pf. Qed.
Print Assumptions C58_workshift.

Theorem C58_interval : forall (L : Type) (tb : timeboard L) iv, reachable tb -> iv_of tb iv ->
  exists s, says_schedule tb (sc_name (iv_sched iv)) s
  /\ let at_ := [TText "("; TNum (iv_a iv); TText ", "; TNum (iv_b iv); TText ")"] in
     (iv_void iv = true ->
        let l := [TText "Interval ("] ++ at_ ++ s ++ [TText "): void [0]"] in
        iv_repr tb iv = Ok l /\ iv_str tb iv = Ok (l, None))
     /\ (iv_void iv = false -> exists ca cb rows, says_shift tb (iv_a iv) ca /\ says_shift tb (iv_b iv) cb
        /\ Forall2 (row_agrees tb) (positions (iv_a iv) (iv_b iv)) rows
        /\ let l := [TText "Interval("] ++ at_ ++ s ++ [TText "): "] ++ ca ++ [TText " -> "] ++ cb
                    ++ [TText " ["; TNum (iv_b iv - iv_a iv + 1); TText "]"] in
           iv_repr tb iv = Ok l /\ iv_str tb iv = Ok (l, Some rows)).
Proof. exact C58_interval_pf. Qed.
Print Assumptions C58_interval.

Theorem C58_same : forall (L : Type) (tb : timeboard L), reachable tb ->
  (forall w w', ws_of tb w -> ws_of tb w' ->
     (ws_repr tb w = ws_repr tb w' <-> ws_loc w = ws_loc w' /\ sc_name (ws_sched w) = sc_name (ws_sched w')))
  /\ (forall v v', iv_of tb v -> iv_of tb v' ->
     (iv_repr tb v = iv_repr tb v' <-> iv_a v = iv_a v' /\ iv_b v = iv_b v' /\ sc_name (iv_sched v) = sc_name (iv_sched v'))).
Proof. exact C58_same_pf. Qed.
Print Assumptions C58_same.

Theorem C58_timeboard : forall (L : Type) (tb : timeboard L), reachable tb ->
  let f := fr_str (tl_frame (tb_tl tb)) in let b := fbase (to_freq f) in
  exists o o', tb_compact tb = Ok [TText "Timeboard of '"; TFreq f; TText "': "; TPeriod b o; TText " -> "; TPeriod b o']
    /\ pstart b o = tb_start_time tb /\ pstart b (o' + Zpos (fmult (to_freq f))) - 1 = tb_end_time tb.
Proof. exact C58_timeboard_pf. Qed.
Print Assumptions C58_timeboard.

(** A day of the weekly timeboard under its own and another schedule; a workshift of several hours;
    an interval and a void interval; a timeboard. *)
Example C58_ex :
  let d i := TPeriod BD (date 2017 1 1 + i) in
  rmap (fun w => ws_repr week_tb w) (get_workshift week_tb (day 2017 1 3) None)
  = Ok (Ok [TText "Workshift("; TNum 4; TText ") of "; TText "'"; TFreq (fq AlD); TText "' at "; d 2])
  /\ rmap (fun w => ws_repr week_tb w) (get_workshift week_tb (day 2017 1 3) (Some week_full))
  = Ok (Ok [TText "Workshift("; TNum 4; TText ", "; TSched 2; TText ") of "; TText "'"; TFreq (fq AlD); TText "' at "; d 2])
  /\ rmap (fun w => ws_repr shift_tb w) (get_workshift shift_tb (at_hour 2017 1 1 12) None)
  = Ok (Ok [TText "Workshift("; TNum 1; TText ") of "; TNum 10; TText "x"; TText "'"; TFreq (fq AlH); TText "' at "; TPeriod BH (24 * date 2017 1 1 + 8)])
  /\ iv_repr week_tb (mkIvl 4 6 false week_full)
  = Ok [TText "Interval("; TText "("; TNum 4; TText ", "; TNum 6; TText ")"; TText ", "; TSched 2; TText "): ";
        TText "'"; TFreq (fq AlD); TText "' at "; d 2; TText " -> "; TText "'"; TFreq (fq AlD); TText "' at "; d 4;
        TText " ["; TNum 3; TText "]"]
  /\ iv_repr week_tb (mkIvl 6 4 true (tb_default week_tb))
  = Ok [TText "Interval ("; TText "("; TNum 6; TText ", "; TNum 4; TText ")"; TText "): void [0]"]
  /\ is_ok (tb_compact week_tb) = true.
Proof. vm_compute. repeat split. Qed.
