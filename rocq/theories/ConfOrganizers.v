(** ConfOrganizers: /repo/timeboard/tests/test_organizers.py as examples about the model.
    Written by tools/tests2coq.py. *)
From Verif Require Api Setup Iterate.
From Verif Require Import Base Civil Freq Frame Timeline Board When ConfBase.
From Coq Require Import QArith String.
Open Scope Z_scope.

(** test_organizers.py:23 TestOrganizerConstructor.test_organizer_constructor_structures_as_str *)
Example test_organizer_constructor_structures_as_str : passes (
  let heap0 : heap Z := [] in

  Ok [raises [EType] (do o1 <- Setup.new_organizer Setup.MOmit (Setup.TOne (ts 2017 1 1 0 0 0)) (Setup.OOther 1000001); Ok tt)]) = true.
Proof. vm_compute. reflexivity. Qed.

(** test_organizers.py:27 TestOrganizerConstructor.test_organizer_constructor_no_marker_or_marks *)
Example test_organizer_constructor_no_marker_or_marks : passes (
  let heap0 : heap Z := [] in

  Ok [raises [EValue] (do o1 <- Setup.new_organizer Setup.MOmit Setup.TOmit (Setup.OList [Setup.OOther 1; Setup.OOther 2; Setup.OOther 3]); Ok tt)]) = true.
Proof. vm_compute. reflexivity. Qed.

(** test_organizers.py:31 TestOrganizerConstructor.test_organizer_constructor_both_marker_and_marks *)
Example test_organizer_constructor_both_marker_and_marks : passes (
  let heap0 : heap Z := [] in

  Ok [raises [EValue] (do o1 <- Setup.new_organizer (Setup.MEach (mkFstr None (AlW None))) (Setup.TOne (ts 2017 1 1 0 0 0)) (Setup.OList [Setup.OOther 1; Setup.OOther 2; Setup.OOther 3]); Ok tt)]) = true.
Proof. vm_compute. reflexivity. Qed.

(** test_organizers.py:35 TestOrganizerConstructor.test_organizer_constructor_no_structures *)
Example test_organizer_constructor_no_structures : passes (
  let heap0 : heap Z := [] in

  Ok [raises [EType] (do o1 <- Setup.new_organizer (Setup.MEach (mkFstr None (AlW None))) Setup.TOmit (Setup.OOther (-999999)); Ok tt)]) = true.
Proof. vm_compute. reflexivity. Qed.

(** test_organizers.py:39 TestOrganizerConstructor.test_organizer_constructor_bad_structures *)
Example test_organizer_constructor_bad_structures : passes (
  let heap0 : heap Z := [] in

  Ok [raises [EType] (do o1 <- Setup.new_organizer (Setup.MEach (mkFstr None (AlW None))) Setup.TOmit (Setup.OOther 1); Ok tt)]) = true.
Proof. vm_compute. reflexivity. Qed.

(** test_organizers.py:46 TestOrganizeSimple.test_organize_trivial *)
Example test_organize_trivial : passes (
  let heap0 : heap Z := [] in
  do f1 <- mk_frame (mkFstr None AlD) (ts 2017 1 1 0 0 0) (ts 2017 1 10 0 0 0);
  do r2 <- mk_timeline f1 (LOrg (DMarks []) [(LPat (PList [1; 2; 3]))]) false (-999999) heap0;
  Ok [(zlist_eqb (tl_labels (fst r2)) [1; 2; 3; 1; 2; 3; 1; 2; 3; 1])]) = true.
Proof. vm_compute. reflexivity. Qed.

(** test_organizers.py:52 TestOrganizeSimple.test_organize_trivial_string_are_labels *)
Example test_organize_trivial_string_are_labels : passes (
  let heap0 : heap Z := [] in
  do f1 <- mk_frame (mkFstr None AlD) (ts 2017 1 1 0 0 0) (ts 2017 1 10 0 0 0);
  do r2 <- mk_timeline f1 (LOrg (DMarks []) [(LPat (PList [1000001; 1000002; 1000003]))]) false (-999999) heap0;
  Ok [(zlist_eqb (tl_labels (fst r2)) [1000001; 1000002; 1000003; 1000001; 1000002; 1000003; 1000001; 1000002; 1000003; 1000001])]) = true.
Proof. vm_compute. reflexivity. Qed.

(** test_organizers.py:59 TestOrganizeSimple.test_organize_one_mark *)
Example test_organize_one_mark : passes (
  let heap0 : heap Z := [] in
  do f1 <- mk_frame (mkFstr None AlD) (ts 2017 1 1 0 0 0) (ts 2017 1 10 0 0 0);
  do r2 <- mk_timeline f1 (LOrg (DMarks [(ts 2017 1 5 0 0 0)]) [(LPat (PList [1; 2; 3])); (LPat (PList [11; 12]))]) false (-999999) heap0;
  Ok [(zlist_eqb (tl_labels (fst r2)) [1; 2; 3; 1; 11; 12; 11; 12; 11; 12])]) = true.
Proof. vm_compute. reflexivity. Qed.

(** test_organizers.py:66 TestOrganizeSimple.test_organize_one_mark_as_single_value *)
Example test_organize_one_mark_as_single_value : passes (
  let heap0 : heap Z := [] in
  do f1 <- mk_frame (mkFstr None AlD) (ts 2017 1 1 0 0 0) (ts 2017 1 10 0 0 0);
  do r2 <- mk_timeline f1 (LOrg (DMarks [(ts 2017 1 5 0 0 0)]) [(LPat (PList [1; 2; 3])); (LPat (PList [11; 12]))]) false (-999999) heap0;
  Ok [(zlist_eqb (tl_labels (fst r2)) [1; 2; 3; 1; 11; 12; 11; 12; 11; 12])]) = true.
Proof. vm_compute. reflexivity. Qed.

(** test_organizers.py:73 TestOrganizeSimple.test_organize_one_mark_cycle_structures *)
Example test_organize_one_mark_cycle_structures : passes (
  let heap0 : heap Z := [] in
  do f1 <- mk_frame (mkFstr None AlD) (ts 2017 1 1 0 0 0) (ts 2017 1 10 0 0 0);
  do r2 <- mk_timeline f1 (LOrg (DMarks [(ts 2017 1 5 0 0 0)]) [(LPat (PList [1; 2; 3]))]) false (-999999) heap0;
  Ok [(zlist_eqb (tl_labels (fst r2)) [1; 2; 3; 1; 1; 2; 3; 1; 2; 3])]) = true.
Proof. vm_compute. reflexivity. Qed.

(** test_organizers.py:80 TestOrganizeSimple.test_organize_simple_marker *)
Example test_organize_simple_marker : passes (
  let heap0 : heap Z := [] in
  do f1 <- mk_frame (mkFstr None AlD) (ts 2017 1 1 0 0 0) (ts 2017 1 10 0 0 0);
  do r2 <- mk_timeline f1 (LOrg (DMarker (mkMarker (mkFstr None (AlW None)) [])) [(LPat (PList [1; 2; 3])); (LPat (PList [11; 12]))]) false (-999999) heap0;
  Ok [(zlist_eqb (tl_labels (fst r2)) [1; 11; 12; 11; 12; 11; 12; 11; 1; 2])]) = true.
Proof. vm_compute. reflexivity. Qed.

(** test_organizers.py:86 TestOrganizeSimple.test_organize_simple_marker_cycle_structures *)
Example test_organize_simple_marker_cycle_structures : passes (
  let heap0 : heap Z := [] in
  do f1 <- mk_frame (mkFstr None AlD) (ts 2017 1 1 0 0 0) (ts 2017 1 10 0 0 0);
  do r2 <- mk_timeline f1 (LOrg (DMarker (mkMarker (mkFstr None (AlW None)) [])) [(LPat (PList [1; 2; 3]))]) false (-999999) heap0;
  Ok [(zlist_eqb (tl_labels (fst r2)) [1; 1; 2; 3; 1; 2; 3; 1; 1; 2])]) = true.
Proof. vm_compute. reflexivity. Qed.

(** test_organizers.py:92 TestOrganizeSimple.test_organize_marks_outside *)
Example test_organize_marks_outside : passes (
  let heap0 : heap Z := [] in
  do f1 <- mk_frame (mkFstr None AlD) (ts 2017 1 1 0 0 0) (ts 2017 1 10 0 0 0);
  do r2 <- mk_timeline f1 (LOrg (DMarks [(ts 2017 1 20 0 0 0)]) [(LPat (PList [1; 2; 3]))]) false (-999999) heap0;
  Ok [(zlist_eqb (tl_labels (fst r2)) [1; 2; 3; 1; 2; 3; 1; 2; 3; 1])]) = true.
Proof. vm_compute. reflexivity. Qed.

(** test_organizers.py:98 TestOrganizeSimple.test_organize_marker_outside *)
Example test_organize_marker_outside : passes (
  let heap0 : heap Z := [] in
  do f1 <- mk_frame (mkFstr None AlD) (ts 2017 1 1 0 0 0) (ts 2017 1 10 0 0 0);
  do r2 <- mk_timeline f1 (LOrg (DMarker (mkMarker (mkFstr None AlM) [])) [(LPat (PList [1; 2; 3]))]) false (-999999) heap0;
  Ok [(zlist_eqb (tl_labels (fst r2)) [1; 2; 3; 1; 2; 3; 1; 2; 3; 1])]) = true.
Proof. vm_compute. reflexivity. Qed.

(** test_organizers.py:104 TestOrganizeSimple.test_organize_pattern_with_memory *)
Example test_organize_pattern_with_memory : passes (
  let heap0 : heap Z := [new_rpat [1; 2; 3]] in
  do f1 <- mk_frame (mkFstr None AlD) (ts 2017 1 2 0 0 0) (ts 2017 1 22 0 0 0);
  do r2 <- mk_timeline f1 (LOrg (DMarker (mkMarker (mkFstr None (AlW None)) [])) [(LPat (PRem 0)); (LPat (PList [9])); (LPat (PRem 0))]) false (-999999) heap0;
  Ok [(zlist_eqb (tl_labels (fst r2)) [1; 2; 3; 1; 2; 3; 1; 9; 9; 9; 9; 9; 9; 9; 2; 3; 1; 2; 3; 1; 2])]) = true.
Proof. vm_compute. reflexivity. Qed.

(** test_organizers.py:117 TestOrganizeRecursive.test_organize_recursive_mixed *)
Example test_organize_recursive_mixed : passes (
  let heap0 : heap Z := [] in
  do f1 <- mk_frame (mkFstr None AlD) (ts 2017 1 1 0 0 0) (ts 2017 1 10 0 0 0);
  do r2 <- mk_timeline f1 (LOrg (DMarks [(ts 2017 1 6 0 0 0)]) [(LOrg (DMarker (mkMarker (mkFstr None (AlW None)) [])) [(LPat (PList [1; 2; 3]))]); (LPat (PList [11; 12]))]) false (-999999) heap0;
  Ok [(zlist_eqb (tl_labels (fst r2)) [1; 1; 2; 3; 1; 11; 12; 11; 12; 11])]) = true.
Proof. vm_compute. reflexivity. Qed.

(** test_organizers.py:125 TestOrganizeRecursive.test_organize_recursive_2org *)
Example test_organize_recursive_2org : passes (
  let heap0 : heap Z := [] in
  do f1 <- mk_frame (mkFstr None AlD) (ts 2016 12 27 0 0 0) (ts 2017 1 5 0 0 0);
  do r2 <- mk_timeline f1 (LOrg (DMarker (mkMarker (mkFstr None AlM) [])) [(LOrg (DMarks [(ts 2016 12 30 0 0 0)]) [(LPat (PList [1000001; 1000002])); (LPat (PList [1000003]))]); (LOrg (DMarker (mkMarker (mkFstr None (AlW None)) [])) [(LPat (PList [1; 2; 3]))])]) false (-999999) heap0;
  Ok [(zlist_eqb (tl_labels (fst r2)) [1000001; 1000002; 1000001; 1000003; 1000003; 1; 1; 2; 3; 1])]) = true.
Proof. vm_compute. reflexivity. Qed.

(** test_organizers.py:135 TestOrganizeRecursive.test_organize_recursive_cycled_org *)
Example test_organize_recursive_cycled_org : passes (
  let heap0 : heap Z := [] in
  do f1 <- mk_frame (mkFstr None AlD) (ts 2016 12 27 0 0 0) (ts 2017 1 5 0 0 0);
  do r2 <- mk_timeline f1 (LOrg (DMarker (mkMarker (mkFstr None AlM) [])) [(LOrg (DMarker (mkMarker (mkFstr None (AlW None)) [])) [(LPat (PList [1; 2; 3]))])]) false (-999999) heap0;
  Ok [(zlist_eqb (tl_labels (fst r2)) [2; 3; 1; 2; 3; 1; 1; 2; 3; 1])]) = true.
Proof. vm_compute. reflexivity. Qed.

(** test_organizers.py:142 TestOrganizeRecursive.test_organize_recursive_with_memory *)
Example test_organize_recursive_with_memory : passes (
  let heap0 : heap Z := [new_rpat [1000001; 1000002; 1000003; 1000004]] in
  do f1 <- mk_frame (mkFstr None AlD) (ts 2017 11 29 0 0 0) (ts 2017 12 6 0 0 0);
  do r2 <- mk_timeline f1 (LOrg (DMarker (mkMarker (mkFstr None AlM) [])) [(LPat (PRem 0)); (LOrg (DMarker (mkMarker (mkFstr None (AlW None)) [])) [(LPat (PList [1; 2])); (LPat (PRem 0))])]) false (-999999) heap0;
  Ok [(zlist_eqb (tl_labels (fst r2)) [1000001; 1000002; 1; 2; 1; 1000003; 1000004; 1000001])]) = true.
Proof. vm_compute. reflexivity. Qed.

(** test_organizers.py:150 TestOrganizeRecursive.test_organize_recursive_complex *)
Example test_organize_recursive_complex : passes (
  let heap0 : heap Z := [] in
  do f1 <- mk_frame (mkFstr None AlD) (ts 2016 12 27 0 0 0) (ts 2017 2 1 0 0 0);
  do r2 <- mk_timeline f1 (LOrg (DMarker (mkMarker (mkFstr None (AlA None)) [])) [(LOrg (DMarks []) [(LPat (PList [1000001; 1000002; 1000003]))]); (LOrg (DMarker (mkMarker (mkFstr None AlM) [])) [(LOrg (DMarks [(ts 2017 1 6 0 0 0)]) [(LOrg (DMarker (mkMarker (mkFstr None (AlW None)) [])) [(LPat (PList [1; 2; 3]))]); (LPat (PList [1000004]))]); (LOrg (DMarker (mkMarker (mkFstr None (AlW None)) [])) [(LPat (PList [1; 2; 3]))])])]) false (-999999) heap0;
  Ok [(zlist_eqb (tl_labels (fst r2)) [1000001; 1000002; 1000003; 1000001; 1000002; 1; 1; 2; 3; 1; 1000004; 1000004; 1000004; 1000004; 1000004; 1000004; 1000004; 1000004; 1000004; 1000004; 1000004; 1000004; 1000004; 1000004; 1000004; 1000004; 1000004; 1000004; 1000004; 1000004; 1000004; 1000004; 1000004; 1000004; 1000004; 1000004; 3])]) = true.
Proof. vm_compute. reflexivity. Qed.

(** test_organizers.py:176 TestOrganizeVariousTypesOfStructure.test_organize_with_empty_structure *)
Example test_organize_with_empty_structure : passes (
  let heap0 : heap Z := [] in
  do f1 <- mk_frame (mkFstr None AlD) (ts 2017 10 2 0 0 0) (ts 2017 10 4 23 59 0);
  do r2 <- mk_timeline f1 (LOrg (DMarker (mkMarker (mkFstr None (AlW None)) [])) []) false 0 heap0;
  Ok [(zlist_eqb (tl_labels (fst r2)) [0; 0; 0])]) = true.
Proof. vm_compute. reflexivity. Qed.

(** test_organizers.py:183 TestOrganizeVariousTypesOfStructure.test_organize_with_empty_pattern_in_structure *)
Example test_organize_with_empty_pattern_in_structure : passes (
  let heap0 : heap Z := [] in
  do f1 <- mk_frame (mkFstr None AlD) (ts 2017 10 1 0 0 0) (ts 2017 10 10 0 0 0);
  do r2 <- mk_timeline f1 (LOrg (DMarker (mkMarker (mkFstr None (AlW None)) [])) [(LPat (PList [1; 2])); (LPat (PList []))]) false 0 heap0;
  Ok [(zlist_eqb (tl_labels (fst r2)) [1; 0; 0; 0; 0; 0; 0; 0; 1; 2])]) = true.
Proof. vm_compute. reflexivity. Qed.

(** test_organizers.py:190 TestOrganizeVariousTypesOfStructure.test_organize_structure_as_rememberingpattern *)
Example test_organize_structure_as_rememberingpattern : passes (
  let heap0 : heap Z := [new_rpat [1; 2]] in
  do f1 <- mk_frame (mkFstr None AlH) (ts 2017 10 2 0 0 0) (ts 2017 10 4 23 59 0);
  do r2 <- mk_timeline f1 (LOrgRem (DMarker (mkMarker (mkFstr None AlD) [])) 0) false 0 heap0;
  Ok [(zlist_eqb (tl_labels (fst r2)) [1; 2; 1])]) = true.
Proof. vm_compute. reflexivity. Qed.

(** test_organizers.py:197 TestOrganizeVariousTypesOfStructure.test_organize_structure_as_empty_rememberingpattern *)
Example test_organize_structure_as_empty_rememberingpattern : passes (
  let heap0 : heap Z := [new_rpat []] in
  do f1 <- mk_frame (mkFstr None AlH) (ts 2017 10 2 0 0 0) (ts 2017 10 4 23 59 0);
  do r2 <- mk_timeline f1 (LOrgRem (DMarker (mkMarker (mkFstr None AlD) [])) 0) false 0 heap0;
  Ok [(zlist_eqb (tl_labels (fst r2)) [0; 0; 0; 0; 0; 0; 0; 0; 0; 0; 0; 0; 0; 0; 0; 0; 0; 0; 0; 0; 0; 0; 0; 0; 0; 0; 0; 0; 0; 0; 0; 0; 0; 0; 0; 0; 0; 0; 0; 0; 0; 0; 0; 0; 0; 0; 0; 0; 0; 0; 0; 0; 0; 0; 0; 0; 0; 0; 0; 0; 0; 0; 0; 0; 0; 0; 0; 0; 0; 0; 0; 0])]) = true.
Proof. vm_compute. reflexivity. Qed.

(** test_organizers.py:204 TestOrganizeVariousTypesOfStructure.test_organize_structure_element_as_rememberingpattern *)
Example test_organize_structure_element_as_rememberingpattern : passes (
  let heap0 : heap Z := [new_rpat [1; 2]] in
  do f1 <- mk_frame (mkFstr None AlD) (ts 2017 10 2 0 0 0) (ts 2017 10 4 23 59 0);
  do r2 <- mk_timeline f1 (LOrg (DMarker (mkMarker (mkFstr None (AlW None)) [])) [(LPat (PRem 0))]) false 0 heap0;
  Ok [(zlist_eqb (tl_labels (fst r2)) [1; 2; 1])]) = true.
Proof. vm_compute. reflexivity. Qed.

(** test_organizers.py:211 TestOrganizeVariousTypesOfStructure.test_organize_structure_element_as_empty_rememberingpattern *)
Example test_organize_structure_element_as_empty_rememberingpattern : passes (
  let heap0 : heap Z := [new_rpat []] in
  do f1 <- mk_frame (mkFstr None AlD) (ts 2017 10 2 0 0 0) (ts 2017 10 4 23 59 0);
  do r2 <- mk_timeline f1 (LOrg (DMarker (mkMarker (mkFstr None (AlW None)) [])) [(LPat (PRem 0))]) false 0 heap0;
  Ok [(zlist_eqb (tl_labels (fst r2)) [0; 0; 0])]) = true.
Proof. vm_compute. reflexivity. Qed.

(** test_organizers.py:218 TestOrganizeVariousTypesOfStructure.test_organize_structure_as_generator *)
Example test_organize_structure_as_generator : passes (
  let heap0 : heap Z := [] in
  let feeds0 : Iterate.feeds Z := [(Iterate.Endless (fun n => nth (n mod 2)%nat [1; 2] 0), 0%nat)] in
  do f1 <- mk_frame (mkFstr None AlH) (ts 2017 10 2 0 0 0) (ts 2017 10 4 23 59 0);
  do r2 <- Iterate.mk_timeline_it f1 (LOrgRem (DMarker (mkMarker (mkFstr None AlD) [])) 0) false 0 feeds0;
  Ok [(zlist_eqb (tl_labels (fst r2)) [1; 2; 1])]) = true.
Proof. vm_compute. reflexivity. Qed.

(** test_organizers.py:225 TestOrganizeVariousTypesOfStructure.test_organize_structure_as_empty_generator *)
Example test_organize_structure_as_empty_generator : passes (
  let heap0 : heap Z := [] in
  let feeds0 : Iterate.feeds Z := [(Iterate.Finite [], 0%nat)] in
  do f1 <- mk_frame (mkFstr None AlH) (ts 2017 10 2 0 0 0) (ts 2017 10 4 23 59 0);
  do r2 <- Iterate.mk_timeline_it f1 (LOrgRem (DMarker (mkMarker (mkFstr None AlD) [])) 0) false 0 feeds0;
  Ok [(zlist_eqb (tl_labels (fst r2)) [0; 0; 0; 0; 0; 0; 0; 0; 0; 0; 0; 0; 0; 0; 0; 0; 0; 0; 0; 0; 0; 0; 0; 0; 0; 0; 0; 0; 0; 0; 0; 0; 0; 0; 0; 0; 0; 0; 0; 0; 0; 0; 0; 0; 0; 0; 0; 0; 0; 0; 0; 0; 0; 0; 0; 0; 0; 0; 0; 0; 0; 0; 0; 0; 0; 0; 0; 0; 0; 0; 0; 0])]) = true.
Proof. vm_compute. reflexivity. Qed.

(** test_organizers.py:232 TestOrganizeVariousTypesOfStructure.test_organize_structure_element_as_generator *)
Example test_organize_structure_element_as_generator : passes (
  let heap0 : heap Z := [] in
  let feeds0 : Iterate.feeds Z := [(Iterate.Endless (fun n => nth (n mod 2)%nat [1; 2] 0), 0%nat)] in
  do f1 <- mk_frame (mkFstr None AlD) (ts 2017 10 2 0 0 0) (ts 2017 10 4 23 59 0);
  do r2 <- Iterate.mk_timeline_it f1 (LOrg (DMarker (mkMarker (mkFstr None (AlW None)) [])) [(LPat (PRem 0))]) false 0 feeds0;
  Ok [(zlist_eqb (tl_labels (fst r2)) [1; 2; 1])]) = true.
Proof. vm_compute. reflexivity. Qed.

(** test_organizers.py:239 TestOrganizeVariousTypesOfStructure.test_organize_structure_element_as_empty_generator *)
Example test_organize_structure_element_as_empty_generator : passes (
  let heap0 : heap Z := [] in
  let feeds0 : Iterate.feeds Z := [(Iterate.Finite [], 0%nat)] in
  do f1 <- mk_frame (mkFstr None AlD) (ts 2017 10 2 0 0 0) (ts 2017 10 4 23 59 0);
  do r2 <- Iterate.mk_timeline_it f1 (LOrg (DMarker (mkMarker (mkFstr None (AlW None)) [])) [(LPat (PRem 0))]) false 0 feeds0;
  Ok [(zlist_eqb (tl_labels (fst r2)) [0; 0; 0])]) = true.
Proof. vm_compute. reflexivity. Qed.

(** test_organizers.py:246 TestOrganizeVariousTypesOfStructure.test_organize_structure_as_numpy_array *)
Example test_organize_structure_as_numpy_array : passes (
  let heap0 : heap Z := [] in
  do f1 <- mk_frame (mkFstr None AlH) (ts 2017 10 2 0 0 0) (ts 2017 10 4 23 59 0);
  do r2 <- mk_timeline f1 (LOrg (DMarker (mkMarker (mkFstr None AlD) [])) [(LLab 1); (LLab 2)]) false 0 heap0;
  Ok [(zlist_eqb (tl_labels (fst r2)) [1; 2; 1])]) = true.
Proof. vm_compute. reflexivity. Qed.

(** test_organizers.py:253 TestOrganizeVariousTypesOfStructure.test_organize_structure_as_empty_numpy_array *)
Example test_organize_structure_as_empty_numpy_array : passes (
  let heap0 : heap Z := [] in
  do f1 <- mk_frame (mkFstr None AlH) (ts 2017 10 2 0 0 0) (ts 2017 10 4 23 59 0);
  do r2 <- mk_timeline f1 (LOrg (DMarker (mkMarker (mkFstr None AlD) [])) []) false 0 heap0;
  Ok [(zlist_eqb (tl_labels (fst r2)) [0; 0; 0; 0; 0; 0; 0; 0; 0; 0; 0; 0; 0; 0; 0; 0; 0; 0; 0; 0; 0; 0; 0; 0; 0; 0; 0; 0; 0; 0; 0; 0; 0; 0; 0; 0; 0; 0; 0; 0; 0; 0; 0; 0; 0; 0; 0; 0; 0; 0; 0; 0; 0; 0; 0; 0; 0; 0; 0; 0; 0; 0; 0; 0; 0; 0; 0; 0; 0; 0; 0; 0])]) = true.
Proof. vm_compute. reflexivity. Qed.

(** test_organizers.py:260 TestOrganizeVariousTypesOfStructure.test_organize_structure_element_as_numpy_array *)
Example test_organize_structure_element_as_numpy_array : passes (
  let heap0 : heap Z := [] in
  do f1 <- mk_frame (mkFstr None AlD) (ts 2017 10 2 0 0 0) (ts 2017 10 4 23 59 0);
  do r2 <- mk_timeline f1 (LOrg (DMarker (mkMarker (mkFstr None (AlW None)) [])) [(LPat (PList [1; 2]))]) false 0 heap0;
  Ok [(zlist_eqb (tl_labels (fst r2)) [1; 2; 1])]) = true.
Proof. vm_compute. reflexivity. Qed.

(** test_organizers.py:267 TestOrganizeVariousTypesOfStructure.test_organize_structure_element_as_empty_numpy_array *)
Example test_organize_structure_element_as_empty_numpy_array : passes (
  let heap0 : heap Z := [] in
  do f1 <- mk_frame (mkFstr None AlD) (ts 2017 10 2 0 0 0) (ts 2017 10 4 23 59 0);
  do r2 <- mk_timeline f1 (LOrg (DMarker (mkMarker (mkFstr None (AlW None)) [])) [(LPat (PList []))]) false 0 heap0;
  Ok [(zlist_eqb (tl_labels (fst r2)) [0; 0; 0])]) = true.
Proof. vm_compute. reflexivity. Qed.

(** test_organizers.py:277 TestApplyAmendments.test_amendments_basic *)
Example test_amendments_basic : passes (
  let heap0 : heap Z := [] in
  do f1 <- mk_frame (mkFstr None AlD) (ts 2017 1 1 0 0 0) (ts 2017 1 10 0 0 0);
  do tl2 <- amend (mkTl f1 (zrange 0 (Z.to_nat (fr_len f1))) (st_labels (mkSt (repeat 0 (Z.to_nat (fr_len f1))) (repeat true (Z.to_nat (fr_len f1))) heap0)) (zrange 0 (Z.to_nat (fr_len f1))) false) false [((ts 2017 1 2 0 0 0), 1); ((ts 2017 1 9 0 0 0), 2)];
  Ok [(zlist_eqb (tl_labels tl2) [0; 1; 0; 0; 0; 0; 0; 0; 2; 0])]) = true.
Proof. vm_compute. reflexivity. Qed.

(** test_organizers.py:285 TestApplyAmendments.test_amendments_timestamps *)
Example test_amendments_timestamps : passes (
  let heap0 : heap Z := [] in
  do f1 <- mk_frame (mkFstr None AlD) (ts 2017 1 1 0 0 0) (ts 2017 1 10 0 0 0);
  do tl2 <- amend (mkTl f1 (zrange 0 (Z.to_nat (fr_len f1))) (st_labels (mkSt (repeat 0 (Z.to_nat (fr_len f1))) (repeat true (Z.to_nat (fr_len f1))) heap0)) (zrange 0 (Z.to_nat (fr_len f1))) false) false [((ts 2017 1 2 0 0 0), 1); ((ts 2017 1 9 0 0 0), 2)];
  Ok [(zlist_eqb (tl_labels tl2) [0; 1; 0; 0; 0; 0; 0; 0; 2; 0])]) = true.
Proof. vm_compute. reflexivity. Qed.

(** test_organizers.py:294 TestApplyAmendments.test_amendments_periods *)
Example test_amendments_periods : passes (
  let heap0 : heap Z := [] in
  do f1 <- mk_frame (mkFstr None AlD) (ts 2017 1 1 0 0 0) (ts 2017 1 10 0 0 0);
  do tl2 <- amend (mkTl f1 (zrange 0 (Z.to_nat (fr_len f1))) (st_labels (mkSt (repeat 0 (Z.to_nat (fr_len f1))) (repeat true (Z.to_nat (fr_len f1))) heap0)) (zrange 0 (Z.to_nat (fr_len f1))) false) false [((p_start (period_at (ts 2017 1 2 0 0 0) (mkFstr None AlD))), 1); ((p_start (period_at (ts 2017 1 9 0 0 0) (mkFstr None AlD))), 2)];
  Ok [(zlist_eqb (tl_labels tl2) [0; 1; 0; 0; 0; 0; 0; 0; 2; 0])]) = true.
Proof. vm_compute. reflexivity. Qed.

(** test_organizers.py:303 TestApplyAmendments.test_amendments_subperiods *)
Example test_amendments_subperiods : passes (
  let heap0 : heap Z := [] in
  do f1 <- mk_frame (mkFstr None AlD) (ts 2017 1 1 0 0 0) (ts 2017 1 10 0 0 0);
  do tl2 <- amend (mkTl f1 (zrange 0 (Z.to_nat (fr_len f1))) (st_labels (mkSt (repeat 0 (Z.to_nat (fr_len f1))) (repeat true (Z.to_nat (fr_len f1))) heap0)) (zrange 0 (Z.to_nat (fr_len f1))) false) false [((p_start (period_at (ts 2017 1 2 12 0 0) (mkFstr None AlH))), 1); ((p_start (period_at (ts 2017 1 9 15 0 0) (mkFstr None AlH))), 2)];
  Ok [(zlist_eqb (tl_labels tl2) [0; 1; 0; 0; 0; 0; 0; 0; 2; 0])]) = true.
Proof. vm_compute. reflexivity. Qed.

(** test_organizers.py:312 TestApplyAmendments.test_amendments_outside *)
Example test_amendments_outside : passes (
  let heap0 : heap Z := [] in
  do f1 <- mk_frame (mkFstr None AlD) (ts 2017 1 1 0 0 0) (ts 2017 1 10 0 0 0);
  do tl2 <- amend (mkTl f1 (zrange 0 (Z.to_nat (fr_len f1))) (st_labels (mkSt (repeat 0 (Z.to_nat (fr_len f1))) (repeat true (Z.to_nat (fr_len f1))) heap0)) (zrange 0 (Z.to_nat (fr_len f1))) false) false [((ts 2017 1 2 0 0 0), 1); ((ts 2017 1 11 0 0 0), 2)];
  Ok [(zlist_eqb (tl_labels tl2) [0; 1; 0; 0; 0; 0; 0; 0; 0; 0])]) = true.
Proof. vm_compute. reflexivity. Qed.

(** test_organizers.py:320 TestApplyAmendments.test_amendments_all_outside *)
Example test_amendments_all_outside : passes (
  let heap0 : heap Z := [] in
  do f1 <- mk_frame (mkFstr None AlD) (ts 2017 1 1 0 0 0) (ts 2017 1 10 0 0 0);
  do tl2 <- amend (mkTl f1 (zrange 0 (Z.to_nat (fr_len f1))) (st_labels (mkSt (repeat 0 (Z.to_nat (fr_len f1))) (repeat true (Z.to_nat (fr_len f1))) heap0)) (zrange 0 (Z.to_nat (fr_len f1))) false) false [((ts 2016 1 2 0 0 0), 1); ((ts 2017 1 11 0 0 0), 2)];
  Ok [(zlist_eqb (tl_labels tl2) [0; 0; 0; 0; 0; 0; 0; 0; 0; 0])]) = true.
Proof. vm_compute. reflexivity. Qed.

(** test_organizers.py:328 TestApplyAmendments.test_amendments_outside_raise_and_clean *)
Example test_amendments_outside_raise_and_clean : passes (
  let heap0 : heap Z := [] in
  do f1 <- mk_frame (mkFstr None AlD) (ts 2017 1 1 0 0 0) (ts 2017 1 10 0 0 0);
  Ok [raises [EOutOfBounds] (do tl2 <- amend (mkTl f1 (zrange 0 (Z.to_nat (fr_len f1))) (st_labels (mkSt (repeat 0 (Z.to_nat (fr_len f1))) (repeat true (Z.to_nat (fr_len f1))) heap0)) (zrange 0 (Z.to_nat (fr_len f1))) false) true [((ts 2017 1 2 0 0 0), 1); ((ts 2017 1 11 0 0 0), 2)]; Ok tt);
       (zlist_eqb (st_labels (mkSt (repeat 0 (Z.to_nat (fr_len f1))) (repeat true (Z.to_nat (fr_len f1))) heap0)) [0; 0; 0; 0; 0; 0; 0; 0; 0; 0])]) = true.
Proof. vm_compute. reflexivity. Qed.

(** test_organizers.py:340 TestApplyAmendments.test_amendments_empty *)
Example test_amendments_empty : passes (
  let heap0 : heap Z := [] in
  do f1 <- mk_frame (mkFstr None AlD) (ts 2017 1 1 0 0 0) (ts 2017 1 10 0 0 0);
  do tl2 <- amend (mkTl f1 (zrange 0 (Z.to_nat (fr_len f1))) (st_labels (mkSt (repeat 0 (Z.to_nat (fr_len f1))) (repeat true (Z.to_nat (fr_len f1))) heap0)) (zrange 0 (Z.to_nat (fr_len f1))) false) false [];
  Ok [(zlist_eqb (tl_labels tl2) [0; 0; 0; 0; 0; 0; 0; 0; 0; 0])]) = true.
Proof. vm_compute. reflexivity. Qed.

(** test_organizers.py:348 TestApplyAmendments.test_amendments_bad_timestamp_raise_and_clean *)
Example test_amendments_bad_timestamp_raise_and_clean : passes (
  let heap0 : heap Z := [] in
  do f1 <- mk_frame (mkFstr None AlD) (ts 2017 1 1 0 0 0) (ts 2017 1 10 0 0 0);
  Ok [raises [EValue] (do t2 <- conf_time (Api.PVal Api.VText); do tl3 <- amend (mkTl f1 (zrange 0 (Z.to_nat (fr_len f1))) (st_labels (mkSt (repeat 0 (Z.to_nat (fr_len f1))) (repeat true (Z.to_nat (fr_len f1))) heap0)) (zrange 0 (Z.to_nat (fr_len f1))) false) false [((ts 2017 1 2 0 0 0), 1); (t2, 2)]; Ok tt);
       (zlist_eqb (st_labels (mkSt (repeat 0 (Z.to_nat (fr_len f1))) (repeat true (Z.to_nat (fr_len f1))) heap0)) [0; 0; 0; 0; 0; 0; 0; 0; 0; 0])]) = true.
Proof. vm_compute. reflexivity. Qed.

(** test_organizers.py:363 TestOrganizeCompoundWorkshifts.test_organize_compound_all *)
Example test_organize_compound_all : passes (
  let heap0 : heap Z := [] in
  do f1 <- mk_frame (mkFstr None AlD) (ts 2016 12 31 0 0 0) (ts 2017 1 10 0 0 0);
  do r2 <- mk_timeline f1 (LOrg (DMarker (mkMarker (mkFstr None (AlW None)) [])) [(LLab 1); (LLab 2)]) false (-999999) heap0;
  Ok [(zlist_eqb (tl_labels (fst r2)) [1; 2; 1]);
       (zlist_eqb (tl_band (fst r2)) [0; 0; 2; 2; 2; 2; 2; 2; 2; 9; 9]);
       ((zlist_eqb (tl_index (fst r2)) [0; 2; 9]))]) = true.
Proof. vm_compute. reflexivity. Qed.

(** test_organizers.py:371 TestOrganizeCompoundWorkshifts.test_organize_compound_alternate *)
Example test_organize_compound_alternate : passes (
  let heap0 : heap Z := [] in
  do f1 <- mk_frame (mkFstr None AlD) (ts 2016 12 31 0 0 0) (ts 2017 1 10 0 0 0);
  do r2 <- mk_timeline f1 (LOrg (DMarker (mkMarker (mkFstr None (AlW None)) [])) [(LLab 100); (LPat (PList [1; 2; 3]))]) false (-999999) heap0;
  Ok [(zlist_eqb (tl_labels (fst r2)) [100; 1; 2; 3; 1; 2; 3; 1; 100]);
       (zlist_eqb (tl_band (fst r2)) [0; 0; 2; 3; 4; 5; 6; 7; 8; 9; 9]);
       ((zlist_eqb (tl_index (fst r2)) [0; 2; 3; 4; 5; 6; 7; 8; 9]))]) = true.
Proof. vm_compute. reflexivity. Qed.

(** test_organizers.py:379 TestOrganizeCompoundWorkshifts.test_organize_compound_when_strings_are_labels *)
Example test_organize_compound_when_strings_are_labels : passes (
  let heap0 : heap Z := [] in
  do f1 <- mk_frame (mkFstr None AlD) (ts 2016 12 31 0 0 0) (ts 2017 1 10 0 0 0);
  do r2 <- mk_timeline f1 (LOrg (DMarker (mkMarker (mkFstr None (AlW None)) [])) [(LLab 1000001); (LLab 1000002)]) false (-999999) heap0;
  Ok [(zlist_eqb (tl_labels (fst r2)) [1000001; 1000002; 1000001]);
       (zlist_eqb (tl_band (fst r2)) [0; 0; 2; 2; 2; 2; 2; 2; 2; 9; 9]);
       ((zlist_eqb (tl_index (fst r2)) [0; 2; 9]))]) = true.
Proof. vm_compute. reflexivity. Qed.
