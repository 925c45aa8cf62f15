(** Iterators as marks: C67. *)
From Verif Require Import Base Civil Freq Frame Timeline Board Spec SpecLookup SpecLayout SpecRemember Iterate SpecIterate IterMarks SpecIterMarks Samples IterMarksProofs.
Open Scope Z_scope.

(** C67.  Without iterators nothing changes. *)
Theorem C67_plain : forall (L : Type) (a : tb_args L) (h : heap L) mf, build_marks a (plainly (a_layout a)) h mf = (build a h, mf).
Proof. exact C67_plain_pf. Qed.
Print Assumptions C67_plain.

(** A layout with iterators gives what the layout does that it amounts to, errors included; the iterators
    used are empty afterwards. *)
Theorem C67_amounts : forall (L : Type) (a : tb_args L) ly org (h : heap L) mf f ly' used,
  top_marks ly = Ok org -> mk_frame (a_freq a) (a_start a) (a_end a) = Ok f -> amounts f mf [] org (whole_span f) ly' used ->
  fst (build_marks a ly h mf) = build (with_layout a ly') h
  /\ forall tb h' mf', build_marks a ly h mf = (Ok (tb, h'), mf') -> left_by mf used mf'.
Proof. exact C67_amounts_pf. Qed.
Print Assumptions C67_amounts.

(** Whenever there is a timeboard, there is exactly one such layout. *)
Theorem C67_exists : forall (L : Type) (a : tb_args L) ly (h : heap L) mf tb h' mf', build_marks a ly h mf = (Ok (tb, h'), mf') ->
  exists org f ly' used, top_marks ly = Ok org /\ mk_frame (a_freq a) (a_start a) (a_end a) = Ok f
    /\ amounts f mf [] org (whole_span f) ly' used
    /\ (forall ly'' used', amounts f mf [] org (whole_span f) ly'' used' -> ly'' = ly' /\ used' = used).
Proof. exact C67_exists_pf. Qed.
Print Assumptions C67_exists.

(** Two weeks from Mon 2 Jan 2017, each divided by an organizer with the same iterator of two Wednesdays. *)
Definition wednesdays : list Z := [day 2017 1 4; day 2017 1 11].
Definition fortnight (ly : layout Z) (am : list (Z * Z)) : tb_args Z :=
  mkArgs (fq AlD) (day 2017 1 2) (day 2017 1 15) ly am pos_sel 1 false (-1) WLabels Samples.num.
Definition by_weeks : divider := DMarker (mkMarker (fq (AlW None)) []).
Definition with_iterator : mlayout Z := MOrg (MDiv by_weeks) [MOrg (MIter 0) [MLab 1; MLab 2]].
Definition with_list : layout Z := LOrg by_weeks [LOrg (DMarks wednesdays) [LLab 1; LLab 2]].
Definition as_read : layout Z := LOrg by_weeks [LOrg (DMarks wednesdays) [LLab 1; LLab 2]; LOrg (DMarks []) [LLab 1]].
Definition labels_of (r : res (timeboard Z * heap Z)) : list Z := match r with Ok (tb, _) => tl_labels (tb_tl tb) | Err _ => [] end.
Definition fortnight_frame : frame := mkFrame (fq AlD) 17168 14.

Example C67_ex :
  mk_frame (fq AlD) (day 2017 1 2) (day 2017 1 15) = Ok fortnight_frame
  /\ amounts fortnight_frame [wednesdays] [] with_iterator (whole_span fortnight_frame) as_read [0%nat]
  /\ labels_of (fst (build_marks (fortnight as_read []) with_iterator [] [wednesdays])) = [1; 2; 1]
  /\ snd (build_marks (fortnight as_read []) with_iterator [] [wednesdays]) = [[]].
Proof.
  split; [vm_compute; reflexivity|]. split; [|split; vm_compute; reflexivity].
  eapply (am_org _ _ _ _ _ _ _ _ [mkSpan 0 6 0 0; mkSpan 7 13 0 0]); [discriminate|apply by_itself|vm_compute; reflexivity|].
  eapply am_span; [reflexivity| |].
  { eapply (am_org _ _ _ _ _ _ _ _ [mkSpan 0 1 0 0; mkSpan 2 6 0 0]); [discriminate|apply by_first; intros []|vm_compute; reflexivity|].
    eapply am_span; [reflexivity|apply am_label|]. eapply am_span; [reflexivity|apply am_label|]. apply am_end. }
  eapply am_span; [reflexivity| |apply am_end].
  eapply (am_org _ _ _ _ _ _ _ _ [mkSpan 7 13 0 0]); [discriminate|apply by_again; left; reflexivity|vm_compute; reflexivity|].
  eapply am_span; [reflexivity|apply am_label|]. apply am_end.
Qed.

(** The documentation takes any iterable of points in time for `marks`; a list and an iterator with the same
    elements do not give the same. *)
Theorem C67_list_refuted : exists (a : tb_args Z) marks d items tb tb' h h' mf,
  build_marks a (MOrg (MDiv d) [MOrg (MIter 0) (map plainly items)]) [] [marks] = (Ok (tb, h), mf)
  /\ build (with_layout a (LOrg d [LOrg (DMarks marks) items])) [] = Ok (tb', h')
  /\ tl_labels (tb_tl tb) <> tl_labels (tb_tl tb').
Proof.
  set (get := fun r : res (timeboard Z * heap Z) => match r with Ok x => x | Err _ => (the_tb (fortnight with_list []), []) end).
  exists (fortnight with_list []), wednesdays, by_weeks, [LLab 1; LLab 2].
  exists (fst (get (fst (build_marks (fortnight with_list []) with_iterator [] [wednesdays])))), (the_tb (fortnight with_list [])), [], [], [[]].
  split; [vm_compute; reflexivity|]. split; [vm_compute; reflexivity|].
  intros H. apply (f_equal (@length Z)) in H. vm_compute in H. discriminate.
Qed.
Print Assumptions C67_list_refuted.

(** An iterator of the organizer of the whole timeboard does what a list does (whatever the outcome), once. *)
Theorem C67_once : forall (L : Type) (a : tb_args L) (h : heap L) mf k items f, mk_frame (a_freq a) (a_start a) (a_end a) = Ok f -> a_wt a <> WBad ->
  exists mf', build_marks a (MOrg (MIter k) (map plainly items)) h mf = (build (with_layout a (LOrg (DMarks (still mf k)) items)) h, mf')
    /\ left_by mf [k] mf'.
Proof. exact C67_once_pf. Qed.
Print Assumptions C67_once.
Theorem C67_again : forall (L : Type) (a : tb_args L) (h : heap L) mf k items f, mk_frame (a_freq a) (a_start a) (a_end a) = Ok f -> a_wt a <> WBad ->
  still mf k = [] -> fst (build_marks a (MOrg (MIter k) (map plainly items)) h mf) = build (with_layout a (LOrg (DMarks []) items)) h.
Proof. exact C67_again_pf. Qed.
Print Assumptions C67_again.

(** Attempts that raise an exception use iterators up too: each is as it was or empty. *)
Theorem C67_attempt : forall (L : Type) (a : tb_args L) ly (h : heap L) mf r mf', build_marks a ly h mf = (r, mf') ->
  exists used, left_by mf used mf'.
Proof. exact C67_attempt_pf. Qed.
Print Assumptions C67_attempt.

(** The iterator divides the first timeboard made with it; the second one is not divided, be it that the first
    attempt raised KeyError because of two amendments for one workshift. *)
Definition at_top : mlayout Z := MOrg (MIter 0) [MLab 1; MLab 2; MLab 3].
Example C67_once_ex :
  let a := fortnight with_list [] in let bad := fortnight with_list [(day 2017 1 5, 9); (day 2017 1 6, 9)] in
  let first := build_marks a at_top [] [wednesdays] in let failed := build_marks bad at_top [] [wednesdays] in
  labels_of (fst first) = [1; 2; 3] /\ labels_of (fst (build_marks a at_top [] (snd first))) = [1]
  /\ fst failed = Err EKey /\ labels_of (fst (build_marks a at_top [] (snd failed))) = [1].
Proof. vm_compute. repeat split. Qed.
