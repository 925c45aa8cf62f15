(** What attempts to make timeboards take from iterators of labels: C79. *)
From Verif Require Import Base Civil Freq Frame Timeline Board Spec SpecLookup SpecLayout SpecRemember Iterate SpecIterate ItLeftover SpecItLeftover Samples ItLeftoverProofs.
From Coq Require Import Lia.
Open Scope Z_scope.

(** C79.  What an attempt takes is determined by its arguments, and remains taken if it fails. *)
Theorem C79_attempt : forall (L : Type) (a : tb_args L) (fd : feeds L),
  exists asks, asked_by a asks /\ (forall l, asked_by a l -> l = asks)
    /\ (forall tb fd', build_it a fd = Ok (tb, fd') -> leftover_it a fd = fd' /\ asks_of a tb asks)
    /\ (forall k, 0 <= wanted k asks)
    /\ (forall k i, 0 <= i -> to_come (leftover_it a fd) k i = to_come fd k (wanted k asks + i))
    /\ forall org f l e, top_organizer (a_layout a) = Ok org -> a_wt a <> WBad -> mk_frame (a_freq a) (a_start a) (a_end a) = Ok f ->
         asked_until f org (whole_span f) l e -> build_it a fd = Err e.
Proof. exact C79_attempt_pf. Qed.
Print Assumptions C79_attempt.
(** Each of several attempts, some of which may fail, continues where the one before ended. *)
Theorem C79_attempts : forall (L : Type) (l : list (tb_args L)) (fd : feeds L),
  exists askss, Forall2 asked_by l askss
    /\ (forall k i, 0 <= i -> to_come (after_it l fd) k i = to_come fd k (wanted k (concat askss) + i))
    /\ forall n a asks tb fd' m k w, nth_error l n = Some a -> nth_error askss n = Some asks ->
         build_it a (after_it (firstn n l) fd) = Ok (tb, fd') -> a_amendments a = [] -> nth_error asks m = Some (k, w) ->
         exists c, portion fd k (wanted k (concat (firstn n askss)) + wanted k (firstn m asks)) (wants w) c /\ repeats (tb_tl tb) (a_default a) c w.
Proof. exact C79_attempts_pf. Qed.
Print Assumptions C79_attempts.

Definition il_days (ly : layout Z) (am : list (Z * Z)) : tb_args Z :=
  mkArgs (fq AlD) (day 2017 1 1) (day 2017 1 8) ly am pos_sel 1 false (-1) WLabels Samples.num.
(** The days up to 3 Jan get labels from the iterator, then it turns out that days are not divided into hours. *)
Definition il_halfway : tb_args Z :=
  il_days (LOrg (DMarks [day 2017 1 4]) [LPat (PRem 0); LOrg (DMarker (mkMarker (fq AlH) [])) [LLab 0]]) [].
(** Two amendments of one day: the iterator was used on all days before it fails. *)
Definition il_clashing : tb_args Z := il_days (LOrg (DMarks []) [LPat (PRem 0)]) [(day 2017 1 4, 9); (day 2017 1 4 + 1, 9)].
Definition il_good : tb_args Z := il_days (LOrg (DMarks []) [LPat (PRem 0)]) [].
Definition il_labels (r : res (timeboard Z * feeds Z)) : res (list Z) := rmap (fun x => tl_labels (tb_tl (fst x))) r.
Example C79_ex :
  let it := [(Endless Z.of_nat, 0%nat)] in
  build_it il_halfway it = Err EUnacceptablePeriod
  /\ asked_by il_halfway [(0%nat, AskUnits (mkSpan 0 2 0 0))]
  /\ leftover_it il_halfway it = [(Endless Z.of_nat, 3%nat)]
  /\ build_it il_clashing it = Err EKey
  /\ leftover_it il_clashing it = [(Endless Z.of_nat, 8%nat)]
  /\ il_labels (build_it il_good it) = Ok [0; 1; 2; 3; 4; 5; 6; 7]
  /\ il_labels (build_it il_good (after_it [il_halfway] it)) = Ok [3; 4; 5; 6; 7; 8; 9; 10]
  /\ il_labels (build_it il_good (after_it [il_halfway; il_clashing] it)) = Ok [11; 12; 13; 14; 15; 16; 17; 18].
Proof.
  split; [vm_compute; reflexivity|]. split.
  { eapply by_some; [reflexivity|discriminate|vm_compute; reflexivity|].
    eapply auntil_inside; [discriminate|vm_compute; reflexivity|].
    change [(0%nat, AskUnits (mkSpan 0 2 0 0))] with ([(0%nat, AskUnits (mkSpan 0 2 0 0))] ++ []).
    eapply auntil_later; [reflexivity|constructor; cbn; lia|]. eapply auntil_here; [reflexivity|]. apply auntil_divide. vm_compute. reflexivity. }
  vm_compute. repeat split.
Qed.
(** An iterator over a list is used up by the first attempt: after that the labels are default ones. *)
Example C79_used_up_ex :
  let it := [(Finite [8; 8; 0], 0%nat)] in
  il_labels (build_it il_good it) = Ok [8; 8; 0; 8; 8; 0; 8; 8]
  /\ build_it il_clashing it = Err EKey
  /\ il_labels (build_it il_good (after_it [il_clashing] it)) = Ok [-1; -1; -1; -1; -1; -1; -1; -1].
Proof. vm_compute. repeat split. Qed.
