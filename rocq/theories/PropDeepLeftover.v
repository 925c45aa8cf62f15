(** What attempts to make timeboards take from iterators of organizers and patterns: C81. *)
From Verif Require Import Base Civil Freq Frame Timeline Board Spec SpecLookup SpecLayout SpecRemember Iterate SpecIterate Deep SpecDeep DeepLeftover SpecDeepLeftover Samples DeepLeftoverProofs.
From Coq Require Import Lia.
Open Scope Z_scope.

(** C81.  What an attempt takes is determined by its arguments and by what the iterators are to yield, and
    remains taken if it fails, unless by the depth of calls. *)
Theorem C81_attempt : forall (L : Type) (obj : layout L -> L) n (a : tb_args L) (fd : feeds (layout L)),
  (forall tb fd', build_deep obj n a fd = Ok (tb, fd') -> leftover_deep n a fd = fd')
  /\ (build_deep obj n a fd <> Err ERuntime ->
      exists m o, attempt fd a (fun _ => 0) m o /\ (forall m' o', attempt fd a (fun _ => 0) m' o' -> m' = m /\ o' = o)
        /\ (forall e, o = Some e -> build_deep obj n a fd = Err e)
        /\ (forall k, 0 <= m k)
        /\ forall k i, 0 <= i -> to_come (leftover_deep n a fd) k i = to_come fd k (m k + i)).
Proof. exact C81_attempt_pf. Qed.
Print Assumptions C81_attempt.
(** Each of several attempts, some of which may fail, goes on where the one before ended. *)
Theorem C81_attempts : forall (L : Type) (obj : layout L -> L) n (l : list (tb_args L)) (fd : feeds (layout L)),
  shallow obj n l fd ->
  exists m, attempts fd l (fun _ => 0) m /\ (forall m', attempts fd l (fun _ => 0) m' -> m' = m)
    /\ forall k i, 0 <= i -> to_come (after_deep n l fd) k i = to_come fd k (m k + i).
Proof. exact C81_attempts_pf. Qed.
Print Assumptions C81_attempts.
(** Whenever it is determined what attempts take, they take it if Python allows calls deep enough. *)
Theorem C81_enough : forall (L : Type) (l : list (tb_args L)) (fd : feeds (layout L)) m,
  attempts fd l (fun _ => 0) m ->
  exists N, forall n, (N <= n)%nat -> forall k i, 0 <= i -> to_come (after_deep n l fd) k i = to_come fd k (m k + i).
Proof. exact C81_enough_pf. Qed.
Print Assumptions C81_enough.

(** Weeks Fri-Sun, Mon-Sun, Mon-Sun. *)
Definition dl_week (ly : layout Z) (am : list (Z * Z)) : tb_args Z :=
  mkArgs (fq AlD) (at_hour 2016 12 30 12) (day 2017 1 15) ly am pos_sel 1 false (-1) WLabels Samples.num.
Definition dl_by_week : divider := DMarker (mkMarker (fq (AlW None)) []).
(** A pattern over another iterator, an organizer that divides days into hours, and a label. *)
Definition dl_elements : list (layout Z) := [LPat (PRem 1); LOrg (DMarker (mkMarker (fq AlH) [])) [LLab 0]; LLab 5].
Definition dl_counts : feed (layout Z) := Endless (fun n => LLab (Z.of_nat n)).
Definition dl_fd : feeds (layout Z) := [(Finite dl_elements, 0%nat); (dl_counts, 0%nat)].
Definition dl_tb (r : res (timeboard Z * feeds (layout Z))) : res (list Z) := rmap (fun x => tl_labels (tb_tl (fst x))) r.
Definition dl_obj : layout Z -> Z := fun _ => -7.
(** The first week takes an element, which takes seven labels; then the second element does not divide its
    week.  The next attempt begins with the third element. *)
Example C81_ex :
  build_deep dl_obj 9 (dl_week (LOrgRem dl_by_week 0) []) dl_fd = Err EUnacceptablePeriod
  /\ leftover_deep 9 (dl_week (LOrgRem dl_by_week 0) []) dl_fd = [(Finite dl_elements, 2%nat); (dl_counts, 7%nat)]
  /\ dl_tb (build_deep dl_obj 9 (dl_week (LOrgRem dl_by_week 0) []) (after_deep 9 [dl_week (LOrgRem dl_by_week 0) []] dl_fd)) = Ok [5; 5; 5]
  /\ dl_tb (build_deep dl_obj 9 (dl_week (LOrg (DMarks []) [LPat (PRem 1)]) []) (after_deep 9 [dl_week (LOrgRem dl_by_week 0) []] dl_fd))
     = Ok [7; 8; 9; 10; 11; 12; 13; 14; 15; 16; 17; 18; 19; 20; 21; 22; 23].
Proof. vm_compute. repeat split. Qed.
Example C81_shallow_ex : shallow dl_obj 9 [dl_week (LOrgRem dl_by_week 0) []; dl_week (LOrgRem dl_by_week 0) []] dl_fd.
Proof. vm_compute. repeat split; discriminate. Qed.
Example C81_attempt_ex :
  exists m, attempts dl_fd [dl_week (LOrgRem dl_by_week 0) []] (fun _ => 0) m /\ m 0%nat = 2 /\ m 1%nat = 7.
Proof.
  eexists. split.
  - eapply atts_on; [|apply atts_end]. eapply att_runs; [reflexivity|discriminate|vm_compute; reflexivity|].
    eapply runs_iterator; [vm_compute; reflexivity|].
    eapply rnext_take_on; [reflexivity|apply runs_pattern; cbn; lia|].
    eapply rnext_take_stop; [reflexivity|]. apply runs_divide. vm_compute. reflexivity.
  - split; vm_compute; reflexivity.
Qed.
(** Elements that are repeated do not take from their own iterator, but from the other one; a clash of amendments
    comes after all that. *)
Example C81_clash_ex :
  let fd := [(Finite [LPat (PRem 1)], 0%nat); (dl_counts, 0%nat)] in
  let a := dl_week (LOrgRem dl_by_week 0) [(day 2017 1 4, 9); (day 2017 1 4 + 1, 9)] in
  build_deep dl_obj 9 a fd = Err EKey
  /\ leftover_deep 9 a fd = [(Finite [LPat (PRem 1)], 1%nat); (dl_counts, 21%nat)]
  /\ dl_tb (build_deep dl_obj 9 (dl_week (LOrgRem dl_by_week 0) []) (after_deep 9 [a] fd)) = Ok [-1; -1; -1; -1; -1; -1; -1; -1; -1; -1; -1; -1; -1; -1; -1; -1; -1].
Proof. vm_compute. repeat split. Qed.
