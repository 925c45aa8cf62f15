(** Iterators of organizers and patterns (C66). *)
From Verif Require Import Base Civil Freq Frame Timeline Board Spec SpecLookup SpecLayout SpecRemember Iterate SpecIterate Deep SpecDeep Samples DeepProofs.
Open Scope Z_scope.

(** C66.  A timeboard made with iterators of any elements is one that can be made without any, and a
    failure is one that can be had without any, if it is no RecursionError. *)
Theorem C66_plain : forall (L : Type) (obj : layout L -> L) n (a : tb_args L) (fd : feeds (layout L)),
  (forall tb fd', build_deep obj n a fd = Ok (tb, fd') -> exists ly h, build (with_layout a ly) [] = Ok (tb, h))
  /\ forall e, build_deep obj n a fd = Err e -> e = ERuntime \/ exists ly, build (with_layout a ly) [] = Err e.
Proof. exact C66_plain_pf. Qed.
Print Assumptions C66_plain.

(** The layout that makes the same timeboard is the one that the given layout stands for; and the
    iterators go on behind what was taken. *)
Theorem C66_stands : forall (L : Type) (obj : layout L -> L) n (a : tb_args L) (fd : feeds (layout L)) tb fd',
  build_deep obj n a fd = Ok (tb, fd') ->
  let f := tl_frame (tb_tl tb) in
  exists org ly m, top_organizer (a_layout a) = Ok org /\ stands obj f fd (fun _ => 0) org (whole_span f) ly m
    /\ without ly
    /\ (exists h, build (with_layout a ly) [] = Ok (tb, h))
    /\ (a_amendments a = [] -> forall u, 0 <= u < fr_len f -> follows (tb_tl tb) (a_default a) u ly (whole_span f))
    /\ forall k i, 0 <= i -> to_come fd' k i = to_come fd k (m k + i).
Proof. exact C66_stands_pf. Qed.
Print Assumptions C66_stands.

(** There is only one such layout, and if there is one the timeboard is made, or not made, as with it,
    if only Python allows calls deep enough. *)
Theorem C66_enough : forall (L : Type) (obj : layout L -> L) (a : tb_args L) (fd : feeds (layout L)) org f ly m,
  top_organizer (a_layout a) = Ok org -> mk_frame (a_freq a) (a_start a) (a_end a) = Ok f ->
  stands obj f fd (fun _ => 0) org (whole_span f) ly m ->
  (forall ly' m', stands obj f fd (fun _ => 0) org (whole_span f) ly' m' -> ly' = ly /\ m' = m)
  /\ exists N, forall n, (N <= n)%nat ->
       match build (with_layout a ly) [] with
       | Ok (tb, _) => exists fd', build_deep obj n a fd = Ok (tb, fd') /\ forall k i, 0 <= i -> to_come fd' k i = to_come fd k (m k + i)
       | Err e => build_deep obj n a fd = Err e
       end.
Proof. exact C66_enough_pf. Qed.
Print Assumptions C66_enough.

(** Calls deeper than necessary change nothing. *)
Theorem C66_deeper : forall (L : Type) (obj : layout L -> L) n m (a : tb_args L) (fd : feeds (layout L)), (n <= m)%nat ->
  build_deep obj n a fd <> Err ERuntime -> build_deep obj m a fd = build_deep obj n a fd.
Proof. exact C66_deeper_pf. Qed.
Print Assumptions C66_deeper.

(** If the elements have no iterators in them: each use of an iterator takes its portion of what is to
    come, and the elements organize their spans. *)
Theorem C66_uses : forall (L : Type) (obj : layout L -> L) n (a : tb_args L) (fd : feeds (layout L)) tb fd',
  simple_elements fd -> build_deep obj n a fd = Ok (tb, fd') ->
  exists asks, asks_of a tb asks /\ (forall l, asks_of a tb l -> l = asks)
    /\ (forall k i, 0 <= i -> to_come fd' k i = to_come fd k (wanted k asks + i))
    /\ (forall m k, 0 <= wanted k (firstn m asks))
    /\ (a_amendments a = [] -> forall m k w, nth_error asks m = Some (k, w) ->
          exists c, portion fd k (wanted k (firstn m asks)) (wants w) c /\ organizes obj (tb_tl tb) (a_default a) c w)
    /\ exists org, top_organizer (a_layout a) = Ok org /\ let f := tl_frame (tb_tl tb) in
         (a_amendments a = [] -> forall u leaf s, 0 <= u < fr_len f -> decides f u org (whole_span f) leaf s -> plain leaf ->
            leaf_does (tb_tl tb) [] (a_default a) leaf s u)
         /\ forall u, 0 <= u < fr_len f -> (exists leaf s, decides f u org (whole_span f) leaf s /\ plain leaf)
              \/ exists k w, In (k, w) asks /\ match w with AskUnits s => s_first s <= u <= s_last s
                                              | AskSpans spans => exists s, In s spans /\ s_first s <= u <= s_last s end.
Proof. exact C66_uses_pf. Qed.
Print Assumptions C66_uses.

(** Iterators of labels are those of C61. *)
Theorem C66_labels : forall (L : Type) (obj : layout L -> L) (a : tb_args L) (fd : feeds L),
  exists N, forall n, (N <= n)%nat ->
    build_deep obj n a (of_labels fd) = match build_it a fd with Ok (tb, fd') => Ok (tb, of_labels fd') | Err e => Err e end.
Proof. exact C66_labels_pf. Qed.
Print Assumptions C66_labels.

(** An iterator that yields organizers over itself without end: RecursionError however deep the calls. *)
Theorem C66_itself : forall (L : Type) (obj : layout L -> L) (a : tb_args L) ms f,
  mk_frame (a_freq a) (a_start a) (a_end a) = Ok f -> a_wt a <> WBad ->
  let ly := LOrgRem (DMarks ms) 0 in
  forall n, build_deep obj n (with_layout a ly) [(Endless (fun _ => ly), 0%nat)] = Err ERuntime.
Proof. exact C66_itself_pf. Qed.
Print Assumptions C66_itself.

(** Weeks Fri-Sun, Mon-Sun, Mon-Sun. *)
Definition deep_week (ly : layout Z) : tb_args Z :=
  mkArgs (fq AlD) (at_hour 2016 12 30 12) (day 2017 1 15) ly [] pos_sel 1 false (-1) WLabels num.
Definition by_week : divider := DMarker (mkMarker (fq (AlW None)) []).
Definition deep_tb (a : tb_args Z) (fd : feeds (layout Z)) : timeboard Z :=
  match build_deep (fun _ => -7) 9 a fd with Ok (tb, _) => tb | Err _ => no_tb end.
Definition deep_fd (a : tb_args Z) (fd : feeds (layout Z)) : feeds (layout Z) :=
  match build_deep (fun _ => -7) 9 a fd with Ok (_, fd') => fd' | Err _ => [] end.
Definition some_elements : list (layout Z) := [LPat (PList [1; 2]); LLab 9; LOrg (DMarks [day 2017 1 12]) [LLab 4; LPat (PList [5; 6])]].
(** A pattern, a label and an organizer for the three weeks. *)
Example deep_three :
  let fd := [(Finite some_elements, 0%nat)] in
  build_deep (fun _ => -7) 9 (deep_week (LOrgRem by_week 0)) fd = Ok (deep_tb (deep_week (LOrgRem by_week 0)) fd, [(Finite some_elements, 3%nat)])
  /\ tl_labels (tb_tl (deep_tb (deep_week (LOrgRem by_week 0)) fd)) = [1; 2; 1; 9; 4; 5; 6; 5; 6]
  /\ tl_index (tb_tl (deep_tb (deep_week (LOrgRem by_week 0)) fd)) = [0; 1; 2; 3; 10; 13; 14; 15; 16].
Proof. vm_compute. repeat split. Qed.
Example deep_simple : simple_elements [(Finite some_elements, 0%nat)].
Proof.
  intros k i e Hi H. assert (Hin : In e some_elements).
  { destruct k as [|k]; [exact (nth_error_In _ _ H)|]. exfalso. revert H. unfold to_come, feed_get. destruct k; cbn; destruct (Z.to_nat i); discriminate. }
  destruct Hin as [<-|[<-|[<-|[]]]]; repeat constructor. intros it [<-|[<-|[]]]; constructor.
Qed.
(** One element, again and again; it is a pattern over another iterator, which goes on. *)
Definition counts : iterator (layout Z) := (Endless (fun n => LLab (Z.of_nat n)), 0%nat).
Example deep_nested :
  let fd := [(Finite [LPat (PRem 1)], 0%nat); counts] in
  tl_labels (tb_tl (deep_tb (deep_week (LOrgRem by_week 0)) fd)) = [4; 5; 6; 7; 8; 9; 10; 11; 12; 13; 14; 15; 16; 17; 18; 19; 20]
  /\ deep_fd (deep_week (LOrgRem by_week 0)) fd = [(Finite [LPat (PRem 1)], 1%nat); (fst counts, 21%nat)].
Proof. vm_compute. repeat split. Qed.
(** What it stands for. *)
Example deep_stands :
  let fd := [(Finite [LPat (PRem 1)], 0%nat); counts] in
  exists m, stands (fun _ => -7) (tl_frame (tb_tl (deep_tb (deep_week (LOrgRem by_week 0)) fd))) fd (fun _ => 0) (LOrgRem by_week 0)
    (whole_span (tl_frame (tb_tl (deep_tb (deep_week (LOrgRem by_week 0)) fd))))
    (LOrg by_week [LPat (PList [0; 1; 2; 3; 4; 5; 6]); LPat (PList [7; 8; 9; 10; 11; 12; 13]); LPat (PList [14; 15; 16; 17; 18; 19; 20])]) m
    /\ m 0%nat = 1 /\ m 1%nat = 21.
Proof.
  cbv zeta. eexists. split.
  - apply stands_iterator with (spans := [mkSpan 0 2 4 0; mkSpan 3 9 0 0; mkSpan 10 16 0 0]); [vm_compute; reflexivity|].
    eapply (next_take _ _ _ _ 0%nat [] 0%nat _ _ (LPat (PRem 1))); [reflexivity|apply (stands_pattern _ _ _ _ 1%nat _ (map LLab [0; 1; 2; 3; 4; 5; 6])); [cbn; Lia.lia|]|].
    { split; [cbn; Lia.lia|]. intros i Hi. change (wants _) with 7 in Hi. assert (E : i = 0 \/ i = 1 \/ i = 2 \/ i = 3 \/ i = 4 \/ i = 5 \/ i = 6) by Lia.lia. repeat (destruct E as [->|E]; [reflexivity|]). subst i. reflexivity. }
    eapply (next_again _ _ _ _ 0%nat _ 1%nat _ _ (LPat (PRem 1))); [reflexivity|reflexivity|apply (stands_pattern _ _ _ _ 1%nat _ (map LLab [7; 8; 9; 10; 11; 12; 13])); [cbn; Lia.lia|]|].
    { split; [cbn; Lia.lia|]. intros i Hi. change (wants _) with 7 in Hi. assert (E : i = 0 \/ i = 1 \/ i = 2 \/ i = 3 \/ i = 4 \/ i = 5 \/ i = 6) by Lia.lia. repeat (destruct E as [->|E]; [reflexivity|]). subst i. reflexivity. }
    eapply (next_again _ _ _ _ 0%nat _ 2%nat _ _ (LPat (PRem 1))); [reflexivity|reflexivity|apply (stands_pattern _ _ _ _ 1%nat _ (map LLab [14; 15; 16; 17; 18; 19; 20])); [cbn; Lia.lia|]|].
    { split; [cbn; Lia.lia|]. intros i Hi. change (wants _) with 7 in Hi. assert (E : i = 0 \/ i = 1 \/ i = 2 \/ i = 3 \/ i = 4 \/ i = 5 \/ i = 6) by Lia.lia. repeat (destruct E as [->|E]; [reflexivity|]). subst i. reflexivity. }
    apply next_end.
  - split; reflexivity.
Qed.
(** An element that is used as a label of a pattern is any object: here an organizer. *)
Example deep_object :
  tl_labels (tb_tl (deep_tb (deep_week (LOrg by_week [LPat (PRem 0)])) [(Finite [LLab 3; LOrg by_week []], 0%nat)])) = [3; -7; 3; -1; -1; -1; -1; -1; -1; -1; -1; -1; -1; -1; -1; -1; -1].
Proof. vm_compute. reflexivity. Qed.
(** The iterator is taken from by its own elements. *)
Example deep_own :
  let g := fun n => if Nat.even n then LPat (PRem 0) else LLab (Z.of_nat n) in
  tl_labels (tb_tl (deep_tb (deep_week (LOrgRem by_week 0)) [(Endless g, 0%nat)])) = [5; -7; 7; 9; -7; 11; -7; 13; -7; 15; 17; -7; 19; -7; 21; -7; 23].
Proof. vm_compute. reflexivity. Qed.
(** Depth: an organizer in an organizer needs two calls. *)
Example deep_depth :
  build_deep (fun _ => -7) 1 (deep_week (LOrgRem by_week 0)) [(Finite [LOrg (DMarks []) [LLab 5]], 0%nat)] = Err ERuntime
  /\ tl_labels (tb_tl (match build_deep (fun _ => -7) 2 (deep_week (LOrgRem by_week 0)) [(Finite [LOrg (DMarks []) [LLab 5]], 0%nat)] with Ok (tb, _) => tb | Err _ => no_tb end)) = [5; 5; 5].
Proof. vm_compute. repeat split. Qed.
(** Organizers over their own iterator. *)
Example deep_itself :
  exists f, mk_frame (a_freq (deep_week (LLab 0))) (a_start (deep_week (LLab 0))) (a_end (deep_week (LLab 0))) = Ok f
  /\ build_deep (fun _ => -7) 30 (deep_week (LOrgRem (DMarks []) 0)) [(Endless (fun _ => LOrgRem (DMarks []) 0), 0%nat)] = Err ERuntime.
Proof. eexists. split; [vm_compute; reflexivity|vm_compute; reflexivity]. Qed.
