(** Theorems C56: the printed form of a layout makes the layout again. *)
From Verif Require Import Base Freq Frame Setup PrintMarker Print SpecPrint Samples PrintProofs PrintMarkerProofs.
From Coq Require Import String.
Open Scope Z_scope.

(** ** C56 *)
Theorem C56_read : forall (V : Type) (id : Z) (d : pdiv V) (st : pstruct V),
  identified (OOrg id d st) ->
  (exists e, reads (repr_builder (OOrg id d st) []) e) /\
  (forall e, reads (repr_builder (OOrg id d st) []) e ->
     forall n w, e n = Some w <-> part (OOrg id d st) n w).
Proof. exact C56_read_pf. Qed.
Print Assumptions C56_read.

Theorem C56_organizer : forall (V : Type) (id : Z) (d : pdiv V) (st : pstruct V),
  identified (OOrg id d st) ->
  exists ls x e, org_repr (OOrg id d st) = Some (ls, x) /\ reads ls e /\
    reads_expr e (NOrg id) x (VOrg (OOrg id d st)) /\
    (forall n w, e n = Some w <-> part (OOrg id d st) n w /\ n <> NOrg id).
Proof. exact C56_organizer_pf. Qed.
Print Assumptions C56_organizer.

Theorem C56_timeboard : forall (V : Type) (id : Z) (d : pdiv V) (st : pstruct V) (v none : V),
  (identified (OOrg id d st) ->
   exists ls e, tb_repr (OOrg id d st) none = Some (ls, inl (NOrg id)) /\ reads ls e /\
     e (NOrg id) = Some (VOrg (OOrg id d st))) /\
  (exists x, tb_repr (OVal v) none = Some ([], inr ([], x)) /\
     forall w, reads_expr (fun _ => None) (NOrg 0) x w <->
       w = VOrg (OOrg 0 (PMarks none) (SSeq [OVal v]))).
Proof. exact C56_timeboard_pf. Qed.
Print Assumptions C56_timeboard.

(** One marker and one pattern used in two places, an organizer used twice in a structure;
    what `{!r}` shows is a number here. *)
Definition inner : pobj Z := OOrg 1 (PMarker 7 70) (SSeq [ORp 3 30; OVal 5]).
Definition other : pobj Z := OOrg 2 (PPlain 60) (SRp 3 30).
Definition outer : pobj Z := OOrg 9 (PMarker 7 70) (SSeq [inner; other; inner; OVal 4]).

Lemma outer_parts : forall n w, part outer n w ->
  (n, w) = (NOrg 9, VOrg outer) \/ (n, w) = (NMrk 7, VLit 70) \/ (n, w) = (NOrg 1, VOrg inner) \/
  (n, w) = (NRp 3, VLit 30) \/ (n, w) = (NOrg 2, VOrg other).
Proof.
  intros n w H. unfold outer, inner, other in *.
  repeat match goal with
    | A : part (OVal _) _ _ |- _ => inversion A; clear A; subst
    | A : part (OOrg _ _ _) _ _ |- _ => inversion A; clear A; subst; auto
    | A : part (ORp _ _) _ _ |- _ => inversion A; clear A; subst; auto
    | A : In _ (_ :: _) |- _ => destruct A as [A|A]; subst
    | A : In _ [] |- _ => destruct A
    end; auto 10.
Qed.

Example C56_ex :
  identified outer
  /\ repr_builder outer [] =
     [(NMrk 7, XVal 70); (NRp 3, XVal 30);
      (NOrg 1, XMarker (TName (NMrk 7)) (inr [TName (NRp 3); TVal 5]));
      (NOrg 2, XMarker (TVal 60) (inl (TName (NRp 3))));
      (NOrg 9, XMarker (TName (NMrk 7)) (inr [TName (NOrg 1); TName (NOrg 2); TName (NOrg 1); TVal 4]))]
  /\ tb_repr (OVal 8) 0 = Some ([], inr ([], XMarks 0 (inr [TVal 8]))).
Proof.
  split; [|split; reflexivity].
  intros n w w' H H'. apply outer_parts in H. apply outer_parts in H'.
  repeat match goal with A : _ \/ _ |- _ => destruct A as [A|A] end; congruence.
Qed.

(** A marker, called as it is shown, is the same marker if its `how` is a name. *)
Theorem C56_marker : forall text each ats name m, new_marker each ats (HName name) = Ok m ->
  call_shown (marker_repr text each ats (HName name)) = Ok m.
Proof. exact C56_marker_pf. Qed.
Print Assumptions C56_marker.

(** If `how` is a function it is shown as text, which Marker refuses. *)
Theorem C56_function : forall text each ats fn,
  (ats = [] -> call_shown (marker_repr text each ats (HFun fn)) = new_marker each ats (HFun fn))
  /\ (ats <> [] -> ~ In (text fn) ["from_start_of_each"; "nth_weekday_of_month"; "from_easter_western"; "from_easter_orthodox"]%string ->
      call_shown (marker_repr text each ats (HFun fn)) = Err EKey).
Proof. exact C56_function_pf. Qed.
Print Assumptions C56_function.

Example C56_marker_ex :
  let text := fun _ : kwargs -> frame -> fstr -> res (list Z) => "<function when>"%string in
  let at9 := [KOffset (When.DKw 0 0 0 0 9 0 0)] in
  is_ok (new_marker (fq AlD) at9 (HName "from_easter_western")) = true
  /\ marker_repr text (fq AlD) at9 (HName "from_easter_western") = (fq AlD, Some (at9, "from_easter_western"%string))
  /\ marker_repr text (fq AlD) [] (HName "from_easter_western") = (fq AlD, None)
  /\ call_shown (marker_repr text (fq AlD) at9 (HFun call_nth)) = Err EKey.
Proof. vm_compute. repeat split. Qed.
