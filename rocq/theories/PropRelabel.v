(** Labels matter only through selectors and worktime: C70. *)
From Verif Require Import Base Civil Freq Frame Timeline Board Spec SpecShare SpecRelabel Samples RelabelProofs.
From Coq Require Import QArith Lia.
Open Scope Z_scope.

(** C70.  Construction with other labels gives the same timeboard with other labels, or the same error. *)
Theorem C70_build : forall (L M : Type) (f : L -> M) (a : tb_args L) (b : tb_args M) h, relabelled f a b ->
  alike (fun q1 q2 => tb_like f (fst q1) (fst q2) /\ snd q2 = hmap f (snd q1)) (build a h) (build b (hmap f h)).
Proof. exact C70_build_pf. Qed.
Print Assumptions C70_build.
(** Everything asked of the two has the same answer. *)
Theorem C70_lookup : forall (L M : Type) (f : L -> M) tb1 tb2 s1 s2, tb_like f tb1 tb2 -> arg_like f s1 s2 ->
  (forall t, alike (ws_like f) (get_workshift tb1 t s1) (get_workshift tb2 t s2))
  /\ (forall r len per clip c, alike (iv_like f) (get_interval tb1 r len per clip c s1) (get_interval tb2 r len per clip c s2))
  /\ (forall i, ws_start_time (tb_tl tb2) i = ws_start_time (tb_tl tb1) i /\ ws_end_time (tb_tl tb2) i = ws_end_time (tb_tl tb1) i
       /\ ws_ref_time (tb_tl tb2) i = ws_ref_time (tb_tl tb1) i /\ ws_duration (tb_tl tb2) i = ws_duration (tb_tl tb1) i).
Proof. exact C70_lookup_pf. Qed.
Print Assumptions C70_lookup.
Theorem C70_interval : forall (L M : Type) (f : L -> M) tb1 tb2 x1 x2 s1 s2 d, tb_like f tb1 tb2 -> iv_like f x1 x2 -> arg_like f s1 s2 ->
  iv_count x2 d s2 = iv_count x1 d s1
  /\ alike (Forall2 (ws_like f)) (iv_workshifts tb1 x1 d s1) (iv_workshifts tb2 x2 d s2)
  /\ (forall n, alike (ws_like f) (iv_nth tb1 x1 n d s1) (iv_nth tb2 x2 n d s2))
  /\ total_duration tb2 x2 d s2 = total_duration tb1 x1 d s1
  /\ iv_worktime tb2 x2 d s2 = iv_worktime tb1 x1 d s1
  /\ (forall fs, count_periods tb2 x2 fs d s2 = count_periods tb1 x1 fs d s1)
  /\ (forall y1 y2, iv_like f y1 y2 -> alike (iv_like f) (iv_overlap tb1 x1 y1 s1) (iv_overlap tb2 x2 y2 s2)
       /\ what_portion_of tb2 x2 y2 d s2 = what_portion_of tb1 x1 y1 d s1).
Proof. exact C70_interval_pf. Qed.
Print Assumptions C70_interval.
Theorem C70_workshift : forall (L M : Type) (f : L -> M) tb1 tb2 w1 w2 s1 s2 d, tb_like f tb1 tb2 -> ws_like f w1 w2 -> arg_like f s1 s2 ->
  (forall n, alike (ws_like f) (rollforward tb1 w1 n d s1) (rollforward tb2 w2 n d s2))
  /\ (forall n, alike (ws_like f) (rollback tb1 w1 n d s1) (rollback tb2 w2 n d s2))
  /\ ws_worktime tb2 w2 d s2 = ws_worktime tb1 w1 d s1
  /\ (forall t1 t2, sched_like f t1 t2 -> is_on_duty tb2 w2 t2 = is_on_duty tb1 w1 t1 /\ is_off_duty tb2 w2 t2 = is_off_duty tb1 w1 t1).
Proof. exact C70_workshift_pf. Qed.
Print Assumptions C70_workshift.
Theorem C70_schedules : forall (L M : Type) (f : L -> M) tb1 tb2, tb_like f tb1 tb2 ->
  (forall name sel1 sel2, (forall x, sel2 (f x) = sel1 x) ->
     alike (fun q1 q2 => tb_like f (fst q1) (fst q2) /\ sched_like f (snd q1) (snd q2)) (add_schedule tb1 name sel1) (add_schedule tb2 name sel2))
  /\ (forall s1 s2, sched_like f s1 s2 -> alike (tb_like f) (drop_schedule tb1 s1) (drop_schedule tb2 s2))
  /\ (forall a b, alike (Forall2 (row_like f)) (tb_dataframe tb1 a b) (tb_dataframe tb2 a b)).
Proof. exact C70_schedules_pf. Qed.
Print Assumptions C70_schedules.
Theorem C70_duties : forall (L : Type) (a : tb_args L) h tb h', build a h = Ok (tb, h') -> a_wt a = WDuration ->
  exists tb2 h2, build (mkArgs (a_freq a) (a_start a) (a_end a) (lmap (a_sel a) (a_layout a)) (map (fun q => (fst q, a_sel a (snd q))) (a_amendments a)) (fun b => b)
      (a_name a) (a_ref_end a) (a_sel a (a_default a)) WDuration (fun _ => None)) (hmap (a_sel a) h) = Ok (tb2, h2)
  /\ forall r len per clip c x1, get_interval tb r len per clip c None = Ok x1 ->
       exists x2, get_interval tb2 r len per clip c None = Ok x2
       /\ forall d, iv_count x2 d None = iv_count x1 d None /\ iv_worktime tb2 x2 d None = iv_worktime tb x1 d None
            /\ forall fs, count_periods tb2 x2 fs d None = count_periods tb x1 fs d None.
Proof. exact C70_duties_pf. Qed.
Print Assumptions C70_duties.

(** Shifts 1, 2, 3 remembered from week to week, with days off; and the same with pairs for labels, where
    shifts 2 and 3 have become the same. *)
Definition rl_args (L : Type) (off : L) (sel : L -> bool) (num : L -> option Q) (dflt : L) : tb_args L :=
  mkArgs (fq AlD) (day 2017 1 4) (day 2017 1 18)
    (LOrg (DMarker (mkMarker (fq (AlW None)) [])) [LOrg (DMarks [day 2017 1 7; day 2017 1 14]) [LPat (PRem 0); LPat (PList [off])]])
    [(day 2017 1 12, off)] sel 1 false dflt WLabels num.
Definition rl_name (x : Z) : bool * bool := (x =? 1, 0 <? x).
Definition rl_1 := rl_args Z 0 pos_sel (fun x => Some (if 0 <? x then 8 else 0)%Q) (-1).
Definition rl_2 := rl_args (bool * bool) (false, false) snd (fun p => Some (if snd p then 8 else 0)%Q) (false, false).
Example C70_ex : relabelled rl_name rl_1 rl_2
  /\ let h := [new_rpat [1; 2; 3]] in
     match build rl_1 h, build rl_2 (hmap rl_name h) with
     | Ok (tb1, _), Ok (tb2, _) =>
         tl_labels (tb_tl tb1) = [1; 2; 3; 0; 0; 1; 2; 3; 0; 2; 0; 0; 3; 1; 2]
         /\ firstn 4 (tl_labels (tb_tl tb2)) = [(true, true); (false, true); (false, true); (false, false)]
         /\ sc_on (tb_default tb1) = sc_on (tb_default tb2)
         /\ match get_interval tb1 RNone None None true C11 None, get_interval tb2 RNone None None true C11 None with
            | Ok x1, Ok x2 => iv_count x1 DOn None = Ok 10 /\ iv_count x2 DOn None = Ok 10
            | _, _ => False
            end
     | _, _ => False
     end.
Proof.
  split; [|vm_compute; repeat split; reflexivity].
  unfold relabelled, rl_1, rl_2, rl_args. cbn [a_freq a_start a_end a_layout a_amendments a_sel a_name a_ref_end a_default a_wt a_num]. repeat split.
Qed.
Example C70_duties_ex : exists tb h, build (mkArgs (a_freq rl_1) (a_start rl_1) (a_end rl_1) (a_layout rl_1) [] pos_sel 1 false (-1) WDuration (fun _ => None)) [new_rpat [1; 2; 3]] = Ok (tb, h)
  /\ match get_interval tb RNone None None true C11 None with Ok x => iv_worktime tb x DOn None = Ok 11%Q | Err _ => False end.
Proof.
  set (r := build _ _). exists (match r with Ok q => fst q | Err _ => the_tb rl_1 end), (match r with Ok q => snd q | Err _ => [] end).
  split; vm_compute; reflexivity.
Qed.
