(** Specification of printing (C56): the lines, read one by one, make the objects again. *)
From Verif Require Import Base Print.

Section Spec.
  Context {V : Type}.

  (** What a name stands for: an organizer, or a marker or RememberingPattern given by its repr. *)
  Inductive value : Type := VOrg (o : pobj V) | VLit (v : V).

  (** The named objects in an object. *)
  Inductive part : pobj V -> name -> value -> Prop :=
  | part_org id d st : part (OOrg id d st) (NOrg id) (VOrg (OOrg id d st))
  | part_marker id k v st : part (OOrg id (PMarker k v) st) (NMrk k) (VLit v)
  | part_structure id d k v : part (OOrg id d (SRp k v)) (NRp k) (VLit v)
  | part_pattern id v : part (ORp id v) (NRp id) (VLit v)
  | part_element id d l x n w : In x l -> part x n w -> part (OOrg id d (SSeq l)) n w.
  (** Objects with the same identity are the same. *)
  Definition identified (o : pobj V) : Prop := forall n w w', part o n w -> part o n w' -> w = w'.

  (** Reading: [env] holds what the preceding lines have defined. *)
  Definition env : Type := name -> option value.
  Inductive reads_elem (e : env) : term V -> pobj V -> Prop :=
  | re_org n o : e n = Some (VOrg o) -> reads_elem e (TName n) o
  | re_rp k v : e (NRp k) = Some (VLit v) -> reads_elem e (TName (NRp k)) (ORp k v)
  | re_val v : reads_elem e (TVal v) (OVal v).
  Inductive reads_structure (e : env) : term V + list (term V) -> pstruct V -> Prop :=
  | rs_list ts l : Forall2 (reads_elem e) ts l -> reads_structure e (inr ts) (SSeq l)
  | rs_rp k v : e (NRp k) = Some (VLit v) -> reads_structure e (inl (TName (NRp k))) (SRp k v)
  | rs_val v : reads_structure e (inl (TVal v)) (SIter v).
  Inductive reads_expr (e : env) : name -> pexpr V -> value -> Prop :=
  | rx_val n v : reads_expr e n (XVal v) (VLit v)
  | rx_marker id k v st s : e (NMrk k) = Some (VLit v) -> reads_structure e st s ->
      reads_expr e (NOrg id) (XMarker (TName (NMrk k)) st) (VOrg (OOrg id (PMarker k v) s))
  | rx_plain id v st s : reads_structure e st s ->
      reads_expr e (NOrg id) (XMarker (TVal v) st) (VOrg (OOrg id (PPlain v) s))
  | rx_marks id v st s : reads_structure e st s ->
      reads_expr e (NOrg id) (XMarks v st) (VOrg (OOrg id (PMarks v) s)).
  (** Each line defines a new name by means of the names defined before. *)
  Inductive reads : lines V -> env -> Prop :=
  | reads_nothing : reads [] (fun _ => None)
  | reads_line ls n x w e e' : reads ls e -> e n = None -> reads_expr e n x w ->
      e' n = Some w -> (forall n', n' <> n -> e' n' = e n') -> reads (ls ++ [(n, x)]) e'.
End Spec.
