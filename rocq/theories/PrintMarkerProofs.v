(** Proofs about the printed form of markers (C56). *)
From Verif Require Import Base Freq Frame Setup PrintMarker.
From Coq Require Import String.
Open Scope Z_scope.

Lemma C56_marker_pf : forall text each ats name m, new_marker each ats (HName name) = Ok m ->
  call_shown (marker_repr text each ats (HName name)) = Ok m.
Proof.
  intros text each ats name m H. unfold marker_repr, call_shown. destruct ats as [|k ats]; [|exact H].
  cbn [new_marker] in *. destruct (how_function name); [|discriminate]. exact H.
Qed.
Lemma C56_function_pf : forall text each ats fn,
  (ats = [] -> call_shown (marker_repr text each ats (HFun fn)) = new_marker each ats (HFun fn))
  /\ (ats <> [] -> ~ In (text fn) ["from_start_of_each"; "nth_weekday_of_month"; "from_easter_western"; "from_easter_orthodox"]%string ->
      call_shown (marker_repr text each ats (HFun fn)) = Err EKey).
Proof.
  intros text each ats fn. split; [intros ->; reflexivity|]. intros Hne Hn. unfold marker_repr, call_shown. destruct ats as [|k ats]; [contradiction|].
  cbn [how_str new_marker]. unfold how_function. cbn [In] in Hn.
  repeat match goal with |- context [String.eqb ?a ?b] => destruct (String.eqb_spec a b); [exfalso; apply Hn; intuition congruence|] end.
  reflexivity.
Qed.
