(** Iterators as patterns and structures (C61). *)
From Verif Require Import Base Civil Freq Frame Timeline Board Spec SpecLookup SpecLayout SpecRemember Iterate SpecIterate Samples IterateProofs.
Open Scope Z_scope.

(** C61.  A timeboard made with iterators is one that can be made without any; so everything proved
    of timeboards holds for it. *)
Theorem C61_plain : forall (L : Type) (a : tb_args L) (fd : feeds L),
  (forall tb fd', build_it a fd = Ok (tb, fd') -> exists ly h, build (with_layout a ly) [] = Ok (tb, h))
  /\ forall e, build_it a fd = Err e -> exists ly, build (with_layout a ly) [] = Err e.
Proof. exact C61_plain_pf. Qed.
Print Assumptions C61_plain.

(** Every use of an iterator takes its portion of what is to come: each use begins where the one
    before ended. *)
Theorem C61_uses : forall (L : Type) (a : tb_args L) (fd : feeds L) tb fd', build_it a fd = Ok (tb, fd') ->
  exists asks, asks_of a tb asks /\ (forall l, asks_of a tb l -> l = asks)
    /\ (forall k i, 0 <= i -> to_come fd' k i = to_come fd k (wanted k asks + i))
    /\ (forall m k, 0 <= wanted k (firstn m asks))
    /\ (a_amendments a = [] -> forall m k w, nth_error asks m = Some (k, w) ->
          exists c, portion fd k (wanted k (firstn m asks)) (wants w) c /\ repeats (tb_tl tb) (a_default a) c w)
    /\ exists org, top_organizer (a_layout a) = Ok org /\ let f := tl_frame (tb_tl tb) in
         (a_amendments a = [] -> forall u leaf s, 0 <= u < fr_len f -> decides f u org (whole_span f) leaf s -> plain leaf ->
            leaf_does (tb_tl tb) [] (a_default a) leaf s u)
         /\ forall u, 0 <= u < fr_len f -> (exists leaf s, decides f u org (whole_span f) leaf s /\ plain leaf)
              \/ exists k w, In (k, w) asks /\ match w with AskUnits s => s_first s <= u <= s_last s
                                              | AskSpans spans => exists s, In s spans /\ s_first s <= u <= s_last s end.
Proof. exact C61_uses_pf. Qed.
Print Assumptions C61_uses.

(** The labels of a use of an iterator that does not end. *)
Theorem C61_endless : forall (L : Type) (a : tb_args L) (fd : feeds L) tb fd' asks m k w, build_it a fd = Ok (tb, fd') -> asks_of a tb asks ->
  a_amendments a = [] -> nth_error asks m = Some (k, w) -> (forall i, 0 <= i -> to_come fd k i <> None) ->
  let n := wanted k (firstn m asks) in
  match w with
  | AskUnits s => forall u, s_first s <= u <= s_last s ->
      exists x, to_come fd k (n + s_left s + (u - s_first s)) = Some x /\ shift_of (tb_tl tb) u u u x
  | AskSpans spans => forall j s u, nth_error spans j = Some s -> s_first s <= u <= s_last s ->
      exists x, to_come fd k (n + Z.of_nat j) = Some x /\ shift_of (tb_tl tb) u (s_first s) (s_last s) x
  end.
Proof. exact C61_endless_pf. Qed.
Print Assumptions C61_endless.

(** The first use of iter(list) does what the list would do. *)
Theorem C61_first : forall (L : Type) (a : tb_args L) (fd : feeds L) tb fd' asks m k w l, build_it a fd = Ok (tb, fd') -> asks_of a tb asks ->
  a_amendments a = [] -> nth_error asks m = Some (k, w) -> (forall j w', (j < m)%nat -> nth_error asks j = Some (k, w') -> False) ->
  feed_get fd k = (Finite l, 0%nat) -> l <> [] -> 
  match w with
  | AskUnits s => forall u, s_first s <= u <= s_last s -> exists x, cycled l (s_left s + (u - s_first s)) = Some x /\ shift_of (tb_tl tb) u u u x
  | AskSpans spans => forall j s u, nth_error spans j = Some s -> s_first s <= u <= s_last s ->
      exists x, cycled l (Z.of_nat j) = Some x /\ shift_of (tb_tl tb) u (s_first s) (s_last s) x
  end.
Proof. exact C61_first_pf. Qed.
Print Assumptions C61_first.

(** A use of an iterator that is used up changes nothing. *)
Theorem C61_used_up : forall (L : Type) (a : tb_args L) (fd : feeds L) tb fd' asks m k w, build_it a fd = Ok (tb, fd') -> asks_of a tb asks ->
  a_amendments a = [] -> nth_error asks m = Some (k, w) -> to_come fd k (wanted k (firstn m asks)) = None ->
  match w with
  | AskUnits s => forall u, s_first s <= u <= s_last s -> shift_of (tb_tl tb) u u u (a_default a)
  | AskSpans spans => forall s u, In s spans -> s_first s <= u <= s_last s -> shift_of (tb_tl tb) u u u (a_default a)
  end.
Proof. exact C61_used_up_pf. Qed.
Print Assumptions C61_used_up.

(** RememberingPatterns are iterators. *)
Theorem C61_remembering : forall (L : Type) (a : tb_args L) (h : heap L) (fd : feeds L), is_remembering h fd ->
  (forall tb h', build a h = Ok (tb, h') -> exists fd', build_it a fd = Ok (tb, fd') /\ is_remembering h' fd')
  /\ (forall tb fd', build_it a fd = Ok (tb, fd') -> exists h', build a h = Ok (tb, h') /\ is_remembering h' fd')
  /\ (forall e, build a h = Err e <-> build_it a fd = Err e).
Proof. exact C61_remembering_pf. Qed.
Print Assumptions C61_remembering.

(** The weeks of [week_tb]: Fri-Sun, Mon-Sun, Mon-Sun. *)
Definition it_week (ly : layout Z) : tb_args Z :=
  mkArgs (fq AlD) (at_hour 2016 12 30 12) (day 2017 1 15) ly [] pos_sel 1 false (-1) WLabels num.
Definition it_pat : layout Z := LOrg (DMarker (mkMarker (fq (AlW None)) [])) [LPat (PRem 0)].
Definition it_str : layout Z := LOrgRem (DMarker (mkMarker (fq (AlW None)) [])) 0.
Definition it_tb (a : tb_args Z) (fd : feeds Z) : timeboard Z := match build_it a fd with Ok (tb, _) => tb | Err _ => no_tb end.
Definition it_asks : list (nat * ask) :=
  [(0%nat, AskUnits (mkSpan 0 2 4 0)); (0%nat, AskUnits (mkSpan 3 9 0 0)); (0%nat, AskUnits (mkSpan 10 16 0 0))].
Example it_asked fd tb fd' : build_it (it_week it_pat) fd = Ok (tb, fd') -> asks_of (it_week it_pat) tb it_asks.
Proof.
  intros H. exists it_pat. split; [reflexivity|].
  assert (E : tl_frame (tb_tl tb) = tl_frame (tb_tl week_tb)).
  { destruct (proj1 (C61_plain _ (it_week it_pat) fd) _ _ H) as (ly & h & Hb).
    destruct (BoardProofs.build_inv _ _ _ _ Hb) as (org & f & tl0 & _ & Ef & _ & _ & _ & _ & _ & _ & _ & _ & _ & E & _).
    rewrite E. cbn [with_layout it_week a_freq a_start a_end] in Ef. vm_compute in Ef. injection Ef as <-. vm_compute. reflexivity. }
  rewrite E.
  apply asked_org with (spans := [mkSpan 0 2 4 0; mkSpan 3 9 0 0; mkSpan 10 16 0 0]); [discriminate|vm_compute; reflexivity|].
  apply (as_cons _ _ _ _ _ (LPat (PRem 0)) [_] _); [reflexivity|apply asked_pattern; discriminate|].
  apply (as_cons _ _ _ _ _ (LPat (PRem 0)) [_] _); [reflexivity|apply asked_pattern; discriminate|].
  apply (as_cons _ _ _ _ _ (LPat (PRem 0)) [_] []); [reflexivity|apply asked_pattern; discriminate|]. apply as_nil.
Qed.
(** Ten elements: the first week takes seven and uses three of them; the second gets three, which it
    repeats; the third gets none.  Twenty-one elements and more make three weeks. *)
Definition ten : feeds Z := [(Finite [1; 2; 3; 4; 5; 6; 7; 8; 9; 10], 0%nat)].
Example C61_ex_pattern :
  build_it (it_week it_pat) ten = Ok (it_tb (it_week it_pat) ten, [(Finite [1; 2; 3; 4; 5; 6; 7; 8; 9; 10], 10%nat)])
  /\ tl_labels (tb_tl (it_tb (it_week it_pat) ten)) = [5; 6; 7; 8; 9; 10; 8; 9; 10; 8; -1; -1; -1; -1; -1; -1; -1]
  /\ portion ten 0 7 7 [8; 9; 10] /\ to_come ten 0 (wanted 0 (firstn 2 it_asks)) = None.
Proof.
  split; [vm_compute; reflexivity|]. split; [vm_compute; reflexivity|]. split; [split; [discriminate|]|reflexivity].
  intros i Hi. assert (D : i = 0 \/ i = 1 \/ i = 2 \/ i = 3 \/ i = 4 \/ i = 5 \/ i = 6) by Lia.lia.
  repeat (destruct D as [->|D]; [reflexivity|]). rewrite D. reflexivity.
Qed.
Definition counting : feeds Z := [(Endless (fun n => Z.of_nat n + 1), 0%nat)].
Example C61_ex_endless :
  build_it (it_week it_pat) counting = Ok (it_tb (it_week it_pat) counting, [(Endless (fun n => Z.of_nat n + 1), 21%nat)])
  /\ tl_labels (tb_tl (it_tb (it_week it_pat) counting)) = [5; 6; 7; 8; 9; 10; 11; 12; 13; 14; 15; 16; 17; 18; 19; 20; 21]
  /\ forall i, 0 <= i -> to_come counting 0 i <> None.
Proof. split; [vm_compute; reflexivity|]. split; [vm_compute; reflexivity|]. discriminate. Qed.
(** As structures: a label for each week; two labels are repeated. *)
Example C61_ex_structure :
  tl_labels (tb_tl (it_tb (it_week it_str) counting)) = [1; 2; 3]
  /\ tl_labels (tb_tl (it_tb (it_week it_str) [(Finite [4; 5], 0%nat)])) = [4; 5; 4]
  /\ tl_labels (tb_tl (it_tb (it_week it_str) [])) = repeat (-1) 17
  /\ build_it (it_week (LPat (PRem 0))) counting = Err EType.
Proof. split; [vm_compute; reflexivity|]. split; [vm_compute; reflexivity|]. split; vm_compute; reflexivity. Qed.
(** RememberingPattern([1, 2, 3]) of which one label was taken. *)
Example C61_ex_remembering :
  is_remembering [([1; 2; 3], [2; 3])] [(Endless (fun n => Z.of_nat ((n + 1) mod 3) + 1), 0%nat)]
  /\ tl_labels (tb_tl (it_tb (it_week it_pat) [(Endless (fun n => Z.of_nat ((n + 1) mod 3) + 1), 0%nat)]))
     = [3; 1; 2; 3; 1; 2; 3; 1; 2; 3; 1; 2; 3; 1; 2; 3; 1].
Proof.
  split; [|vm_compute; reflexivity]. intros [|k] i Hi; [|destruct k; unfold to_come, feed_get; cbn; destruct (Z.to_nat i); reflexivity].
  unfold to_come, feed_get, upcoming, heap_get. cbn [nth fst length Nat.add].
  assert (D : i = 0 \/ i = 1 \/ 2 <= i) by Lia.lia. destruct D as [->|[->|D]]; [reflexivity|reflexivity|].
  destruct (i <? Z.of_nat 2) eqn:E; [apply Z.ltb_lt in E; Lia.lia|]. unfold cycled. cbn [length].
  assert (Em : Z.of_nat ((Z.to_nat i + 1) mod 3) = (i - Z.of_nat 2) mod 3).
  { rewrite Nat2Z.inj_mod. change (Z.of_nat 3) with 3. rewrite Nat2Z.inj_add, Z2Nat.id by exact Hi.
    replace (Z.of_nat 2) with 2 by reflexivity. replace (i + Z.of_nat 1) with (i - 2 + 1 * 3) by Lia.lia. apply Z.mod_add. discriminate. }
  rewrite Em. change (Z.of_nat 3) with 3. pose proof (Z.mod_pos_bound (i - Z.of_nat 2) 3 eq_refl) as B.
  assert (D3 : (i - Z.of_nat 2) mod 3 = 0 \/ (i - Z.of_nat 2) mod 3 = 1 \/ (i - Z.of_nat 2) mod 3 = 2) by Lia.lia.
  destruct D3 as [->|[->| ->]]; reflexivity.
Qed.

(** "The same approach applies to patterns" (they are "re-enacted in cycles", core.py:1265-1267) is not
    so of iterators that end: only the first use does what the same labels in a list do. *)
Theorem C61_refuted : exists (a : tb_args Z) l tb fd' tb',
  build_it a [(Finite l, 0%nat)] = Ok (tb, fd')
  /\ build_it (with_layout a (listed 0 l (a_layout a))) [] = Ok (tb', [])
  /\ tl_labels (tb_tl tb) <> tl_labels (tb_tl tb')
  /\ tl_labels (tb_tl tb) = [7; 0; 0; -1; -1; -1; -1; -1; -1; -1; -1; -1; -1; -1; -1; -1; -1].
Proof.
  exists (it_week it_pat), [8; 8; 8; 8; 7; 0; 0], (it_tb (it_week it_pat) [(Finite [8; 8; 8; 8; 7; 0; 0], 0%nat)]),
    [(Finite [8; 8; 8; 8; 7; 0; 0], 7%nat)], (it_tb (it_week week_layout) []).
  split; [vm_compute; reflexivity|]. split; [vm_compute; reflexivity|]. split; [vm_compute; discriminate|vm_compute; reflexivity].
Qed.
Print Assumptions C61_refuted.
