(** Theorems C62: work time taken from labels of any type. *)
From Verif Require Import Base Civil Freq Frame Timeline Board Spec SpecRoll SpecQuery Samples Labels SpecLabels LabelsProofs.
From Coq Require Import QArith String.
Open Scope Z_scope.

(** 1 to 8 Oct 2017, the labels in cycles, duty by the truth of the label. *)
Definition label_args (l : list pylabel) : tb_args pylabel :=
  mkArgs (fq AlD) (day 2017 10 1) (day 2017 10 8) (LPat (PList l)) [] truth 1 false LNone WLabels (fun _ => None).
Definition label_tb (l : list pylabel) : timeboard pylabel :=
  match build (label_args l) [] with
  | Ok (tb, _) => tb
  | Err _ => let tl := mkTl (mkFrame (fq AlD) 0 0) [] [] [] false in mkTb tl (mk_schedule tl 0 truth) [] WLabels (fun _ => None)
  end.
Definition all_of (tb : timeboard pylabel) (a b : Z) : interval pylabel := mkIvl a b false (tb_default tb).
Definition at_loc (tb : timeboard pylabel) (i : Z) (x : pylabel) : workshift pylabel := mkWs i x (tb_default tb).

(** The labels with the duty asked for are numbers or missing: their sum, without the missing ones.
    A single Period among ints: the Period moved by them.  Anything else: TypeError. *)
Theorem C62_interval : forall (tb : timeboard pylabel) (iv : interval pylabel) d s,
  reachable tb -> iv_of tb iv -> d = DOn \/ d = DOff \/ d = DAny -> (forall s', s = Some s' -> sched_for tb s') ->
  tb_wt tb = WLabels ->
  exists ws, iv_workshifts tb iv d s = Ok ws
    /\ let labels := map ws_label ws in
       (forall qs, Forall2 adds labels qs ->
          exists r q, iv_worktime_any tb iv d s = Ok r /\ number r q /\ (q == q_total qs)%Q)
       /\ (forall o, one_period labels o -> iv_worktime_any tb iv d s = Ok (LPer o))
       /\ ((forall qs, ~ Forall2 adds labels qs) -> (forall o, ~ one_period labels o) -> iv_worktime_any tb iv d s = Err EType).
Proof. exact C62_interval_pf. Qed.
Print Assumptions C62_interval.

(** _sum_labels joins strings. *)
Theorem C62_text : forall (tb : timeboard pylabel) (iv : interval pylabel) d s,
  reachable tb -> iv_of tb iv -> iv_void iv = false -> d = DOn \/ d = DOff \/ d = DAny -> (forall s', s = Some s' -> sched_for tb s') ->
  exists ws, iv_workshifts tb iv d s = Ok ws
    /\ forall t, ws <> [] -> joined (map ws_label ws) t -> sum_labels_any tb iv d s = Ok (LText t).
Proof. exact C62_text_pf. Qed.
Print Assumptions C62_text.

Theorem C62_workshift : forall (tb : timeboard pylabel) (w : workshift pylabel) d s,
  reachable tb -> ws_of tb w -> d = DOn \/ d = DOff \/ d = DAny ->
  let s' := sched_arg s (ws_sched w) in
  (has_duty tb s' d (ws_loc w) = false -> ws_worktime_any tb w d s = Ok (LInt 0))
  /\ (has_duty tb s' d (ws_loc w) = true -> tb_wt tb = WDuration ->
      exists n, ws_duration (tb_tl tb) (ws_loc w) = Ok n /\ ws_worktime_any tb w d s = Ok (LInt n))
  /\ (has_duty tb s' d (ws_loc w) = true -> tb_wt tb = WLabels ->
      ((exists q, number (ws_label w) q) \/ ws_label w = LNan \/ (exists o, ws_label w = LPer o) -> ws_worktime_any tb w d s = Ok (ws_label w))
      /\ (ws_label w = LNone \/ (exists t, ws_label w = LText t) -> ws_worktime_any tb w d s = Err EType)).
Proof. exact C62_workshift_pf. Qed.
Print Assumptions C62_workshift.

Theorem C62_duration : forall (tb : timeboard pylabel) (iv : interval pylabel) d s,
  reachable tb -> iv_of tb iv -> d = DOn \/ d = DOff \/ d = DAny -> (forall s', s = Some s' -> sched_for tb s') ->
  tb_wt tb = WDuration ->
  exists n r q, total_duration tb iv d s = Ok n /\ iv_worktime_any tb iv d s = Ok r /\ number r q /\ (q == inject_Z n)%Q.
Proof. exact C62_duration_pf. Qed.
Print Assumptions C62_duration.

(** An interval agrees with its workshifts, if no label is missing or a Period. *)
Theorem C62_partial : forall (tb : timeboard pylabel) (iv : interval pylabel) d s,
  reachable tb -> iv_of tb iv -> d = DOn \/ d = DOff \/ d = DAny -> (forall s', s = Some s' -> sched_for tb s') ->
  tb_wt tb = WLabels ->
  exists ws, iv_workshifts tb iv d s = Ok ws
    /\ ((forall w, In w ws -> ~ missing (ws_label w) /\ forall o, ws_label w <> LPer o) ->
        (forall qs, Forall2 (fun w q => exists x, ws_worktime_any tb w d s = Ok x /\ number x q) ws qs ->
           exists r q, iv_worktime_any tb iv d s = Ok r /\ number r q /\ (q == q_total qs)%Q)
        /\ ((exists w e, In w ws /\ ws_worktime_any tb w d s = Err e) -> iv_worktime_any tb iv d s = Err EType)
        /\ ((exists qs, Forall2 (fun w q => exists x, ws_worktime_any tb w d s = Ok x /\ number x q) ws qs)
            \/ (exists w, In w ws /\ ws_worktime_any tb w d s = Err EType))).
Proof. exact C62_partial_pf. Qed.
Print Assumptions C62_partial.

Definition halves : list pylabel := [LInt 8; LFloat (1 # 2); LInt 0; LText ""].
Example C62_ex :
  build (label_args halves) [] = Ok (label_tb halves, []) /\ tb_wt (label_tb halves) = WLabels
  /\ rmap (map ws_label) (iv_workshifts (label_tb halves) (all_of (label_tb halves) 0 7) DOn None) = Ok [LInt 8; LFloat (1 # 2); LInt 8; LFloat (1 # 2)]
  /\ Forall2 adds [LInt 8; LFloat (1 # 2); LInt 8; LFloat (1 # 2)] [8; 1 # 2; 8; 1 # 2]%Q
  /\ (match iv_worktime_any (label_tb halves) (all_of (label_tb halves) 0 7) DOn None with Ok (LFloat q) => Qeq_bool q 17 | _ => false end) = true
  /\ ws_worktime_any (label_tb halves) (at_loc (label_tb halves) 4 (LInt 8)) DOn None = Ok (LInt 8)
  /\ iv_worktime_any (label_tb halves) (all_of (label_tb halves) 0 2) DOff None = Ok (LInt 0)
  /\ iv_worktime_any (label_tb halves) (all_of (label_tb halves) 0 7) DOff None = Err EType
  /\ ws_worktime_any (label_tb halves) (at_loc (label_tb halves) 3 (LText "")) DOff None = Err EType.
Proof.
  split; [vm_compute; reflexivity|]. split; [vm_compute; reflexivity|]. split; [vm_compute; reflexivity|]. split.
  - repeat (constructor; [left; constructor|]). constructor.
  - vm_compute. repeat split.
Qed.

Example C62_period_ex :
  let tb := label_tb [LPer 47; LInt 2; LNone] in
  one_period [LPer 47; LInt 2] 49 /\ iv_worktime_any tb (all_of tb 0 2) DOn None = Ok (LPer 49)
  /\ iv_worktime_any tb (all_of tb 0 3) DOn None = Err EType
  /\ iv_worktime_any tb (all_of tb 1 2) DAny None = Ok (LInt 2)
  /\ sum_labels_any (label_tb [LText "a"; LText "b"]) (all_of (label_tb [LText "a"; LText "b"]) 2 5) DOn None = Ok (LText "abab")
  /\ joined [LText "a"; LText "b"; LText "a"; LText "b"] "abab".
Proof.
  cbv zeta. split; [apply (op_here 47 [LInt 2] [2]); constructor; [left; reflexivity|constructor]|].
  split; [vm_compute; reflexivity|]. split; [vm_compute; reflexivity|]. split; [vm_compute; reflexivity|]. split; [vm_compute; reflexivity|].
  apply (jo_cons "a" _ "bab"), (jo_cons "b" _ "ab"), (jo_cons "a" _ "b"), (jo_cons "b" _ ""). constructor.
Qed.

(** The project's tests test_ivl_sum_strings, test_ivl_worktime_in_labels_strings,
    test_ivl_sum_exotic_fails, test_ivl_worktime_exotic_fails (tests/test_interval_methods.py). *)
Example C62_tests_ex :
  let args l sel := mkArgs (fq AlD) (day 2017 10 1) (day 2017 10 10) (LPat (PList l)) [] sel 1 false LNone WLabels (fun _ => None) in
  let is_b x := match x with LText s => String.eqb s "b" | _ => false end in
  (match build (args [LText "a"; LText "b"] is_b) [] with
   | Ok (tb, _) =>
       sum_labels_any tb (all_of tb 2 9) DOn None = Ok (LText "bbbb") /\ sum_labels_any tb (all_of tb 2 9) DOff None = Ok (LText "aaaa")
       /\ sum_labels_any tb (all_of tb 2 9) DAny None = Ok (LText "abababab") /\ iv_worktime_any tb (all_of tb 2 9) DOn None = Err EType
       /\ iv_worktime_any tb (all_of tb 2 9) DOff None = Err EType /\ iv_worktime_any tb (all_of tb 2 9) DAny None = Err EType
   | Err _ => False end)
  /\ (match build (args [LPer 47] truth) [] with
      | Ok (tb, _) =>
          sum_labels_any tb (all_of tb 0 9) DOn None = Err EType /\ sum_labels_any tb (all_of tb 0 9) DOff None = Ok (LInt 0)
          /\ iv_worktime_any tb (all_of tb 0 9) DOn None = Err EType /\ iv_worktime_any tb (all_of tb 0 9) DAny None = Err EType
          /\ iv_worktime_any tb (all_of tb 0 9) DOff None = Ok (LInt 0)
      | Err _ => False end).
Proof. vm_compute. repeat split. Qed.

(** A workshift with the label None has no work time, but an interval takes it for 0. *)
Theorem C62_none_refuted : exists (tb : timeboard pylabel) iv ws w,
  reachable tb /\ iv_workshifts tb iv DOff None = Ok ws /\ In w ws
  /\ ws_worktime_any tb w DOff None = Err EType /\ iv_worktime_any tb iv DOff None = Ok (LInt 0).
Proof.
  set (l := [LInt 8; LNone]). exists (label_tb l), (all_of (label_tb l) 0 2), [at_loc (label_tb l) 1 LNone], (at_loc (label_tb l) 1 LNone).
  split; [exact (reach_build (label_args l) [] _ [] eq_refl)|]. split; [vm_compute; reflexivity|]. split; [left; reflexivity|].
  vm_compute. split; reflexivity.
Qed.
Print Assumptions C62_none_refuted.

(** The work time of a workshift with the label NaN is NaN, that of the interval is the sum of the rest. *)
Theorem C62_nan_refuted : exists (tb : timeboard pylabel) iv ws w,
  reachable tb /\ iv_workshifts tb iv DOn None = Ok ws /\ In w ws
  /\ ws_worktime_any tb w DOn None = Ok LNan /\ iv_worktime_any tb iv DOn None = Ok (LInt 16).
Proof.
  set (l := [LInt 8; LNan]). exists (label_tb l), (all_of (label_tb l) 0 2),
    [at_loc (label_tb l) 0 (LInt 8); at_loc (label_tb l) 1 LNan; at_loc (label_tb l) 2 (LInt 8)], (at_loc (label_tb l) 1 LNan).
  split; [exact (reach_build (label_args l) [] _ [] eq_refl)|]. split; [vm_compute; reflexivity|]. split; [right; left; reflexivity|].
  vm_compute. split; reflexivity.
Qed.
Print Assumptions C62_nan_refuted.

(** A label that is no number and yet no TypeError: a Period. *)
Theorem C62_period_refuted : exists (tb : timeboard pylabel) w o,
  reachable tb /\ ws_of tb w /\ ws_label w = LPer o /\ (forall q, ~ number (ws_label w) q)
  /\ ws_worktime_any tb w DOn None = Ok (LPer o)
  /\ iv_worktime_any tb (mkIvl (ws_loc w) (ws_loc w) false (ws_sched w)) DOn None = Ok (LPer o).
Proof.
  set (l := [LPer 47]). exists (label_tb l), (at_loc (label_tb l) 3 (LPer 47)), 47.
  split; [exact (reach_build (label_args l) [] _ [] eq_refl)|].
  split; [split; [split; vm_compute; congruence|split; [exists 1, truth; vm_compute; reflexivity|vm_compute; reflexivity]]|].
  split; [reflexivity|]. split; [intros q H; inversion H|]. vm_compute. split; reflexivity.
Qed.
Print Assumptions C62_period_refuted.

(** Without a selector a workshift is on duty unless its label is zero, empty or None: negative numbers and
    NaN are on duty. *)
Theorem C62_duty : forall (a : tb_args pylabel) h tb h' i x, build a h = Ok (tb, h') -> a_sel a = truth ->
  tl_get (tb_tl tb) i = Ok x -> (on_duty tb (tb_default tb) i = false <-> falsy x).
Proof. exact C62_duty_pf. Qed.
Print Assumptions C62_duty.
Example C62_duty_ex :
  let a := mkArgs (fq AlD) (day 2017 10 1) (day 2017 10 8) (LPat (PList [LInt 0; LFloat (-1 # 2); LFloat (0 # 3); LText ""; LText "a"; LNone; LNan; LPer 4])) [] truth 1 false LNone WLabels (fun _ => None) in
  match build a [] with
  | Ok (tb, _) => map (on_duty tb (tb_default tb)) (zrange 0 8) = [false; true; false; false; true; false; true; true]
  | Err _ => False
  end.
Proof. vm_compute. reflexivity. Qed.
