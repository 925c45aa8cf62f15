(** Theorems C65: work time from labels that are floats. *)
From Coq Require Import QArith Qabs Qpower Lqa.
From Verif Require Import Base Civil Freq Frame Timeline Board Spec SpecRoll SpecQuery Samples Labels SpecLabels Rounding SpecRounding RoundingProofs RoundingLabels SpecRoundingLabels RoundingLabelsProofs.
Open Scope Z_scope.

(** The labels of the workshifts counted are added in chronological order, each time the nearest
    double is taken. *)
Theorem C65_steps : forall (tb : timeboard pylabel) (iv : interval pylabel) d s,
  reachable tb -> iv_of tb iv -> d = DOn \/ d = DOff \/ d = DAny -> (forall s', s = Some s' -> sched_for tb s') ->
  tb_wt tb = WLabels ->
  exists ws, iv_workshifts tb iv d s = Ok ws
    /\ forall qs, Forall2 adds (map ws_label ws) qs -> Forall is_double qs -> (size qs < inject_Z (2 ^ 53))%Q ->
         exists r q, iv_worktime_fl tb iv d s = Ok r /\ number r q /\ adds_up 0 qs q.
Proof. exact C65_steps_pf. Qed.
Print Assumptions C65_steps.

(** Labels in parts of 1 / 2^k (whole, half or quarter hours, ...) are added exactly. *)
Theorem C65_exact : forall (tb : timeboard pylabel) (iv : interval pylabel) d s k,
  reachable tb -> iv_of tb iv -> d = DOn \/ d = DOff \/ d = DAny -> (forall s', s = Some s' -> sched_for tb s') ->
  tb_wt tb = WLabels -> 0 <= k <= 1074 ->
  exists ws, iv_workshifts tb iv d s = Ok ws
    /\ forall qs, Forall2 adds (map ws_label ws) qs -> Forall (in_parts k) qs -> (size qs * inject_Z (2 ^ k) < inject_Z (2 ^ 53))%Q ->
         exists r q, iv_worktime_fl tb iv d s = Ok r /\ number r q /\ (q == q_total qs)%Q.
Proof. exact C65_exact_pf. Qed.
Print Assumptions C65_exact.

(** The sum of n labels differs from the exact one by at most n / 2^52 of the sum of the sizes of
    the labels. *)
Theorem C65_error : forall (tb : timeboard pylabel) (iv : interval pylabel) d s,
  reachable tb -> iv_of tb iv -> d = DOn \/ d = DOff \/ d = DAny -> (forall s', s = Some s' -> sched_for tb s') ->
  tb_wt tb = WLabels ->
  exists ws, iv_workshifts tb iv d s = Ok ws
    /\ forall qs, Forall2 adds (map ws_label ws) qs -> Forall is_double qs -> (size qs < inject_Z (2 ^ 53))%Q -> zlen ws <= 2 ^ 52 ->
         exists r q, iv_worktime_fl tb iv d s = Ok r /\ number r q
           /\ (Qabs (q - q_total qs) * inject_Z (2 ^ 52) <= inject_Z (zlen ws) * size qs)%Q.
Proof. exact C65_error_pf. Qed.
Print Assumptions C65_error.

(** 1 to 8 Oct 2017, the labels in cycles. *)
Definition float_args (l : list pylabel) : tb_args pylabel :=
  mkArgs (fq AlD) (day 2017 10 1) (day 2017 10 8) (LPat (PList l)) [] truth 1 false LNone WLabels (fun _ => None).
Definition float_tb (l : list pylabel) : timeboard pylabel :=
  match build (float_args l) [] with
  | Ok (tb, _) => tb
  | Err _ => let tl := mkTl (mkFrame (fq AlD) 0 0) [] [] [] false in mkTb tl (mk_schedule tl 0 truth) [] WLabels (fun _ => None)
  end.
Definition days (tb : timeboard pylabel) (a b : Z) : interval pylabel := mkIvl a b false (tb_default tb).
Definition float_is (r : res pylabel) (q : Q) : bool := match r with Ok (LFloat x) => Qeq_bool x q | _ => false end.

Definition value (r : res pylabel) : Q := match r with Ok (LFloat x) => x | _ => 0%Q end.

(** 0.1, 0.2 and 0.3 as Python takes them: the nearest doubles *)
Definition tenth_values : list Q := [rnd (1 # 10); rnd (2 # 10); rnd (3 # 10)].
Definition tenths : list pylabel := map LFloat tenth_values.
Example C65_ex :
  build (float_args tenths) [] = Ok (float_tb tenths, [])
  /\ rmap (map ws_label) (iv_workshifts (float_tb tenths) (days (float_tb tenths) 0 2) DOn None) = Ok tenths
  /\ Forall is_double tenth_values
  /\ (size tenth_values < inject_Z (2 ^ 53))%Q
  /\ float_is (iv_worktime_fl (float_tb tenths) (days (float_tb tenths) 0 1) DOn None) (rnd (3 # 10)) = false
  /\ float_is (iv_worktime_fl (float_tb tenths) (days (float_tb tenths) 0 1) DOn None) (rnd (30000000000000004 # 100000000000000000)) = true
  /\ float_is (iv_worktime_fl (float_tb tenths) (days (float_tb tenths) 0 2) DOn None) (rnd (6000000000000001 # 10000000000000000)) = true
  /\ ws_worktime_any (float_tb tenths) (mkWs 2 (LFloat (rnd (3 # 10))) (tb_default (float_tb tenths))) DOn None = Ok (LFloat (rnd (3 # 10))).
Proof.
  split; [vm_compute; reflexivity|]. split; [vm_compute; reflexivity|]. split.
  - repeat (constructor; [refine (proj1 (C64_nearest_pf _ _)); right; split; vm_compute; discriminate|]). constructor.
  - split; [vm_compute; reflexivity|]. vm_compute. repeat split.
Qed.

(** Hours and halves. *)
Definition half_hours : list pylabel := [LInt 8; LFloat (15 # 2); LInt 0; LFloat (-1 # 2)].
Example C65_exact_ex :
  rmap (map ws_label) (iv_workshifts (float_tb half_hours) (days (float_tb half_hours) 0 7) DOn None)
    = Ok [LInt 8; LFloat (15 # 2); LFloat (-1 # 2); LInt 8; LFloat (15 # 2); LFloat (-1 # 2)]
  /\ Forall2 adds [LInt 8; LFloat (15 # 2); LFloat (-1 # 2)] [8; 15 # 2; -1 # 2]%Q
  /\ Forall (in_parts 1) [8; 15 # 2; -1 # 2]%Q
  /\ float_is (iv_worktime_fl (float_tb half_hours) (days (float_tb half_hours) 0 7) DOn None) 30 = true
  /\ iv_worktime_fl (float_tb half_hours) (days (float_tb half_hours) 4 4) DOn None = Ok (LInt 8).
Proof.
  split; [vm_compute; reflexivity|]. split; [repeat (constructor; [left; constructor|]); constructor|]. split.
  - constructor; [exists 16; reflexivity|]. constructor; [exists 15; reflexivity|]. constructor; [exists (-1); reflexivity|]. constructor.
  - vm_compute. split; reflexivity.
Qed.

(** The work times of two parts of an interval need not add up to that of the whole. *)
Theorem C65_pieces_refuted : exists (tb : timeboard pylabel) x y z p q r,
  reachable tb /\ x = days tb 0 2 /\ y = days tb 0 0 /\ z = days tb 1 2
  /\ iv_worktime_fl tb x DOn None = Ok (LFloat p) /\ iv_worktime_fl tb y DOn None = Ok (LFloat q) /\ iv_worktime_fl tb z DOn None = Ok (LFloat r)
  /\ ~ (float_add q r == p)%Q.
Proof.
  exists (float_tb tenths), (days (float_tb tenths) 0 2), (days (float_tb tenths) 0 0), (days (float_tb tenths) 1 2).
  exists (value (iv_worktime_fl (float_tb tenths) (days (float_tb tenths) 0 2) DOn None)), (value (iv_worktime_fl (float_tb tenths) (days (float_tb tenths) 0 0) DOn None)),
    (value (iv_worktime_fl (float_tb tenths) (days (float_tb tenths) 1 2) DOn None)).
  split; [exact (reach_build (float_args tenths) [] _ [] eq_refl)|]. do 3 (split; [reflexivity|]). do 3 (split; [vm_compute; reflexivity|]).
  vm_compute. discriminate.
Qed.
Print Assumptions C65_pieces_refuted.
