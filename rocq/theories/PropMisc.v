(** Theorems C14, C15, C32-C34: amendments, dataframe view, schedules by name, iteration. *)
From Verif Require Import Base Civil Freq Frame Timeline Board Spec SpecRoll SpecQuery SpecMisc Samples PropQuery MiscProofs.
From Coq Require Import QArith Permutation.
Open Scope Z_scope.

(** C14.  The board built without the amendments has the same workshifts; each label is
    the amendment's or the unamended board's. *)
Theorem C14_amendments : forall (L : Type) (a : tb_args L) (h : heap L) tb h',
  build a h = Ok (tb, h') ->
  exists tb0, build (with_amendments a []) h = Ok (tb0, h')
    /\ (forall i t, (is_shift tb i <-> is_shift tb0 i) /\ (starts_at tb i t <-> starts_at tb0 i t)
          /\ (ends_at tb i t <-> ends_at tb0 i t) /\ (ref_at tb i t <-> ref_at tb0 i t))
    /\ forall i x, is_shift tb i ->
         (tl_get (tb_tl tb) i = Ok x <->
          (exists t, In (t, x) (a_amendments a) /\ holds_time tb i t)
          \/ ((forall t y, In (t, y) (a_amendments a) -> ~ holds_time tb i t) /\ tl_get (tb_tl tb0) i = Ok x)).
Proof. exact C14_amendments_pf. Qed.
Print Assumptions C14_amendments.

(** On [week_tb] the key inside Mon 2 Jan replaces 8 by 0; the one of 2016 is ignored. *)
Example C14_ex :
  build week_args [] = Ok (week_tb, [])
  /\ holds_time week_tb 3 (at_hour 2017 1 2 15) /\ tl_get (tb_tl week_tb) 3 = Ok 0
  /\ tl_get (tb_tl (the_tb (with_amendments week_args []))) 3 = Ok 8
  /\ tl_get (tb_tl week_tb) 4 = Ok 8.
Proof.
  split; [exact week_builds|]. split; [|vm_compute; repeat split].
  split; [vm_compute; split; congruence|]. exists (day 2017 1 2), (day 2017 1 3 - 1). vm_compute. repeat split; discriminate.
Qed.

(** C15. *)
Theorem C15_clash : forall (L : Type) (a : tb_args L) (h : heap L) am tb0 h',
  build (with_amendments a []) h = Ok (tb0, h') ->
  (clash tb0 am -> build (with_amendments a am) h = Err EKey)
  /\ (~ clash tb0 am -> exists tb, build (with_amendments a am) h = Ok (tb, h')).
Proof. exact C15_clash_pf. Qed.
Print Assumptions C15_clash.

Theorem C15_order : forall (L : Type) (a : tb_args L) (h : heap L) am am',
  Permutation am am' -> build (with_amendments a am) h = build (with_amendments a am') h.
Proof. exact C15_order_pf. Qed.
Print Assumptions C15_order.

Definition two_keys : list (Z * Z) := [(at_hour 2017 1 2 15, 0); (day 2016 1 1, 3); (day 2017 1 2, 4)].
Example C15_ex :
  clash (the_tb (with_amendments week_args [])) two_keys
  /\ build (with_amendments week_args two_keys) [] = Err EKey
  /\ Permutation (a_amendments week_args) [(day 2016 1 1, 3); (at_hour 2017 1 2 15, 0)].
Proof.
  split; [|split; [vm_compute; reflexivity|apply perm_swap]].
  exists 0%nat, 2%nat, 3, (at_hour 2017 1 2 15), 0, (day 2017 1 2), 4.
  split; [discriminate|]. split; [reflexivity|]. split; [reflexivity|].
  split; (split; [vm_compute; split; congruence|]); exists (day 2017 1 2), (day 2017 1 3 - 1); vm_compute; repeat split; discriminate.
Qed.

(** C32. *)
Theorem C32_dataframe : forall (L : Type) (tb : timeboard L) a b, reachable tb ->
  (is_shift tb a -> is_shift tb b ->
     exists rows, tb_dataframe tb a b = Ok rows /\ Forall2 (row_agrees tb) (positions a b) rows)
  /\ (~ (is_shift tb a /\ is_shift tb b) -> tb_dataframe tb a b = Err EAssertion).
Proof. exact C32_dataframe_pf. Qed.
Print Assumptions C32_dataframe.

Theorem C32_interval : forall (L : Type) (tb : timeboard L) iv, reachable tb -> iv_of tb iv ->
  exists ws rows, iv_workshifts tb iv DAny None = Ok ws /\ iv_dataframe tb iv = Ok rows
    /\ Forall2 (fun w r => row_agrees tb (ws_loc w) r) ws rows.
Proof. exact C32_interval_pf. Qed.
Print Assumptions C32_interval.

(** The last three workshifts of the compound board. *)
Example C32_ex :
  is_shift shift_tb 1 /\ is_shift shift_tb 3
  /\ rmap (map (fun r => (row_loc (fst r), row_duration (fst r), row_label (fst r), snd r))) (tb_dataframe shift_tb 1 3)
     = Ok [(1, 10, 2, [(1, true)]); (2, 6, 0, [(1, false)]); (3, 1, 3, [(1, true)])]
  /\ rmap (map (fun r => row_loc (fst r))) (iv_dataframe shift_tb (mkIvl 1 3 false (tb_default shift_tb))) = Ok [1; 2; 3]
  /\ tb_dataframe shift_tb 3 1 = Ok [] /\ tb_dataframe shift_tb 3 28 = Err EAssertion.
Proof. vm_compute. repeat split; congruence. Qed.

(** C33. *)
Theorem C33_step : forall (L : Type) (tb : timeboard L) (op : sched_op L), reachable tb ->
  let tb' := perform tb op in
  reachable tb' /\ tb_tl tb' = tb_tl tb /\ tb_default tb' = tb_default tb
  /\ (forall k, known tb' k = abs_perform (known tb) op k)
  /\ (forall k s, find_schedule tb' k = Some s -> sched_for tb' s /\ sc_name s = k)
  /\ match op with
     | OpAdd name sel =>
         (forall k, k <> name -> find_schedule tb' k = find_schedule tb k)
         /\ (known tb name = None -> exists s, add_schedule tb name sel = Ok (tb', s)
               /\ find_schedule tb' name = Some s)
         /\ (known tb name <> None -> add_schedule tb name sel = Err EKey /\ tb' = tb)
     | OpDrop s =>
         (forall k, k <> sc_name s -> find_schedule tb' k = find_schedule tb k)
         /\ (known tb (sc_name s) <> None -> drop_schedule tb s = Ok tb')
         /\ (known tb (sc_name s) = None -> drop_schedule tb s = Err EKey /\ tb' = tb)
     end.
Proof. exact C33_step_pf. Qed.
Print Assumptions C33_step.

Theorem C33_history : forall (L : Type) (ops : list (sched_op L)) (tb : timeboard L), reachable tb ->
  let tb' := fold_left perform ops tb in
  (forall k, known tb' k = fold_left abs_perform ops (known tb) k)
  /\ tb_tl tb' = tb_tl tb /\ tb_default tb' = tb_default tb
  /\ (forall k s, find_schedule tb' k = Some s -> sched_for tb' s /\ sc_name s = k).
Proof. exact C33_history_pf. Qed.
Print Assumptions C33_history.

Example C33_ex :
  let tb1 := fold_left perform [OpAdd 2 full_day; OpAdd 2 pos_sel; OpAdd 3 pos_sel; OpDrop week_full] week_tb in
  known week_tb 2 = None /\ map fst (tb_schedules tb1) = [1; 3]
  /\ known (perform tb1 (OpAdd 2 pos_sel)) 2 = Some pos_sel /\ add_schedule tb1 3 full_day = Err EKey
  /\ drop_schedule tb1 week_full = Err EKey.
Proof. vm_compute. repeat split. Qed.

(** C34.  One loop at a time yields each workshift once ([C34_once]).  In general the
    outcome of a step is the element numbered by the steps since the latest __iter__ of
    any loop ([C34_interleaving]), so nested loops break ([C34_nested], and a witness). *)
Theorem C34_interleaving : forall (L : Type) (tb : timeboard L) (iv : interval L) ws ops before,
  reachable tb -> iv_of tb iv -> iv_workshifts tb iv DAny None = Ok ws ->
  map ws_loc ws = iv_list tb iv DAny (iv_sched iv)
  /\ forall after, ops = before ++ ONext :: after ->
     nth_error (iter_run tb iv None ops) (length before) =
       Some (match since_iter before None with
             | None => OutErr EAttribute
             | Some k => match nth_error ws k with Some w => OutWs w | None => OutErr EStopIteration end
             end).
Proof. exact C34_interleaving_pf. Qed.
Print Assumptions C34_interleaving.

Theorem C34_once : forall (L : Type) (tb : timeboard L) (iv : interval L) st,
  reachable tb -> iv_of tb iv ->
  exists ws, map ws_loc ws = iv_list tb iv DAny (iv_sched iv)
    /\ iter_run tb iv st (OIter :: repeat ONext (S (length ws)))
       = OutSelf :: map OutWs ws ++ [OutErr EStopIteration].
Proof. exact C34_once_pf. Qed.
Print Assumptions C34_once.

Theorem C34_nested : forall (L : Type) (tb : timeboard L) (iv : interval L) ws,
  reachable tb -> iv_of tb iv -> iv_workshifts tb iv DAny None = Ok ws ->
  let ops := OIter :: ONext :: OIter :: repeat ONext (S (length ws)) ++ [ONext] in
  nth_error (iter_run tb iv None ops) (4 + length ws) = Some (OutErr EStopIteration).
Proof. exact C34_nested_pf. Qed.
Print Assumptions C34_nested.

(** The full statement of C34 asks that a loop visits each workshift regardless of other
    loops on the same object.  Two days, two nested loops: the outer one sees only Tue 3 Jan. *)
Theorem C34_refuted : exists (tb : timeboard Z) (iv : interval Z) (w0 w1 : workshift Z),
  reachable tb /\ iv_of tb iv /\ iv_workshifts tb iv DAny None = Ok [w0; w1]
  /\ iter_run tb iv None [OIter; ONext; OIter; ONext; ONext; ONext; ONext]
     = [OutSelf; OutWs w0; OutSelf; OutWs w0; OutWs w1; OutErr EStopIteration; OutErr EStopIteration].
Proof.
  exists week_tb, (wk 4 5), (mkWs 4 8 (tb_default week_tb)), (mkWs 5 8 (tb_default week_tb)).
  split; [exact week_reachable|]. split; [apply wk_of; discriminate || reflexivity|].
  split; vm_compute; reflexivity.
Qed.
Print Assumptions C34_refuted.
