(** Selectors that raise (C59); labels set after a timeboard is made (C60). *)
From Verif Require Import Base Civil Freq Frame Timeline Board Spec SpecLookup SpecMisc SpecCivil Revise SpecRevise Samples TimelineProofs LookupProofs BoardProofs MiscProofs ReviseProofs.
Open Scope Z_scope.

(** C59.  The constructor of a timeboard. *)
Theorem C59_build : forall (L : Type) (a : tb_args L) (sel : L -> res bool) (h : heap L),
  (forall e, build_may a sel h = Err e <-> build a h = Err e \/ exists tb h', build a h = Ok (tb, h') /\ first_raise tb sel e)
  /\ forall tb h', build_may a sel h = Ok (tb, h') <->
       never_raises tb sel (no_raise sel) /\ build (with_selector a (no_raise sel)) h = Ok (tb, h').
Proof. exact C59_build_pf. Qed.
Print Assumptions C59_build.

Theorem C59_duty : forall (L : Type) (a : tb_args L) (sel : L -> res bool) (h : heap L) tb h', build_may a sel h = Ok (tb, h') ->
  forall i, is_shift tb i -> exists x b, tl_get (tb_tl tb) i = Ok x /\ sel x = Ok b
    /\ sched_on_duty_may (tb_tl tb) sel i = Ok b /\ sched_off_duty_may (tb_tl tb) sel i = Ok (negb b)
    /\ (In i (sc_on (tb_default tb)) <-> b = true) /\ (In i (sc_off (tb_default tb)) <-> b = false).
Proof. exact C59_duty_pf. Qed.
Print Assumptions C59_duty.

(** Also if the label was set later than the schedule was made. *)
Theorem C59_asked : forall (L : Type) (tb : timeboard L) (sel : L -> res bool) i, revised tb -> is_shift tb i ->
  exists x, tl_get (tb_tl tb) i = Ok x
    /\ (forall b, sched_on_duty_may (tb_tl tb) sel i = Ok b <-> sel x = Ok b)
    /\ (forall b, sched_off_duty_may (tb_tl tb) sel i = Ok b <-> sel x = Ok (negb b))
    /\ (forall e, sched_on_duty_may (tb_tl tb) sel i = Err e <-> sel x = Err e)
    /\ (forall e, sched_off_duty_may (tb_tl tb) sel i = Err e <-> sel x = Err e).
Proof. exact C59_asked_pf. Qed.
Print Assumptions C59_asked.

(** The method add_schedule: an exception leaves the timeboard as it was. *)
Theorem C59_add : forall (L : Type) (tb : timeboard L) name (sel : L -> res bool), reachable tb ->
  (forall e, snd (add_schedule_may tb name sel) = Err e -> fst (add_schedule_may tb name sel) = tb)
  /\ (known tb name <> None -> snd (add_schedule_may tb name sel) = Err EKey)
  /\ (known tb name = None -> forall e, snd (add_schedule_may tb name sel) = Err e <-> first_raise tb sel e)
  /\ (known tb name = None -> never_raises tb sel (no_raise sel) ->
        add_schedule tb name (no_raise sel) = rmap (fun s => (fst (add_schedule_may tb name sel), s)) (snd (add_schedule_may tb name sel))).
Proof. exact C59_add_pf. Qed.
Print Assumptions C59_add.

(** The labels of [week_tb] are 0, 7 and 8: [no8] raises TypeError first at position 4; [no9] never
    raises. *)
Definition no8 (x : Z) : res bool := if x =? 8 then Err EType else Ok (0 <? x).
Definition no9 (x : Z) : res bool := if x =? 9 then Err EType else Ok (7 <? x).
Definition may_tb (a : tb_args Z) (sel : Z -> res bool) : timeboard Z :=
  match build_may a sel [] with Ok (tb, _) => tb | Err _ => no_tb end.
Example C59_ex :
  build_may week_args no8 [] = Err EType /\ first_raise week_tb no8 EType
  /\ build_may week_args no9 [] = Ok (may_tb week_args no9, [])
  /\ sc_on (tb_default (may_tb week_args no9)) = [4; 5; 6; 10; 11; 12; 13]
  /\ sched_on_duty_may (tb_tl (may_tb week_args no9)) no9 7 = Ok false
  /\ sched_off_duty_may (tb_tl (fst (revise (may_tb week_args no9) (RReset 9)))) no9 7 = Err EType
  /\ known week_tb 77 = None /\ add_schedule_may week_tb 77 no8 = (week_tb, Err EType)
  /\ rmap sc_on (snd (add_schedule_may week_tb 77 no9)) = Ok [4; 5; 6; 10; 11; 12; 13].
Proof.
  split; [vm_compute; reflexivity|]. split.
  { exists 4, 8. split; [vm_compute; split; congruence|]. split; [vm_compute; reflexivity|]. split; [reflexivity|].
    intros j y Hj Hy. assert (Hc : j = 0 \/ j = 1 \/ j = 2 \/ j = 3) by lia.
    repeat (destruct Hc as [->|Hc]; [vm_compute in Hy; injection Hy as <-; eexists; reflexivity|]).
    rewrite Hc in Hy. vm_compute in Hy. injection Hy as <-. eexists. reflexivity. }
  vm_compute. repeat split.
Qed.

(** C60.  What is missing: `not_in_range` with other values than 'ignore' and 'raise' (see
    C60_other and C60_refuted). *)
Theorem C60_step_partial : forall (L : Type) (tb : timeboard L) op, revised tb -> (forall am, op <> RAmend NOther am) ->
  (forall e, snd (revise tb op) = Some e <-> raises tb op e)
  /\ (snd (revise tb op) <> None -> fst (revise tb op) = tb)
  /\ same_shifts tb (fst (revise tb op))
  /\ (snd (revise tb op) = None -> forall i x, is_shift tb i ->
        (tl_get (tb_tl (fst (revise tb op))) i = Ok x
         <-> tells tb i x op \/ (forall y, ~ tells tb i y op) /\ tl_get (tb_tl tb) i = Ok x)).
Proof. exact C60_step_partial_pf. Qed.
Print Assumptions C60_step_partial.

Theorem C60_history_partial : forall (L : Type) (ops : list (revision L)) (tb : timeboard L), revised tb ->
  (forall am, ~ In (RAmend NOther am) ops) ->
  same_shifts tb (revise_all tb ops)
  /\ forall i x, is_shift tb i ->
       (tl_get (tb_tl (revise_all tb ops)) i = Ok x
        <-> (exists n op, nth_error ops n = Some op /\ (forall e, ~ raises tb op e) /\ tells tb i x op
               /\ forall m op' y, (n < m)%nat -> nth_error ops m = Some op' -> (forall e, ~ raises tb op' e) -> ~ tells tb i y op')
            \/ (forall op y, In op ops -> (forall e, ~ raises tb op e) -> ~ tells tb i y op) /\ tl_get (tb_tl tb) i = Ok x).
Proof. exact C60_history_partial_pf. Qed.
Print Assumptions C60_history_partial.

Theorem C60_new : forall (L : Type) (tb : timeboard L) name sel tb' s, revised tb -> add_schedule tb name sel = Ok (tb', s) ->
  forall i x, is_shift tb' i -> tl_get (tb_tl tb') i = Ok x ->
  (In i (sc_on s) <-> sel x = true) /\ (In i (sc_off s) <-> sel x = false)
  /\ forall w, ws_loc w = i -> is_on_duty tb' w s = Ok (sel x).
Proof. exact C60_new_pf. Qed.
Print Assumptions C60_new.

(** Position 4 is Tue 3 Jan 2017, the label is 8.  The first call writes 5; the second one has a key
    outside and writes nothing; the third refers to Mon 2 Jan twice; the fourth ignores the key
    outside. *)
Definition early : Z := day 2016 1 1.
Definition calls : list (revision Z) :=
  [RAmend NRaise [(at_hour 2017 1 3 15, 5)]; RAmend NRaise [(at_hour 2017 1 3 15, 6); (early, 6)];
   RAmend NIgnore [(day 2017 1 2, 6); (early, 6); (at_hour 2017 1 2 15, 7); (at_hour 2017 1 3 15, 6)];
   RAmend NIgnore [(early, 6); (day 2017 1 1, 9)]].
Example C60_ex :
  revised week_tb
  /\ map (fun n => snd (revise (revise_all week_tb (firstn n calls)) (nth n calls (RReset 0)))) [0; 1; 2; 3]%nat
     = [None; Some EOutOfBounds; Some EKey; None]
  /\ tl_get (tb_tl week_tb) 4 = Ok 8 /\ tl_get (tb_tl (revise_all week_tb calls)) 4 = Ok 5
  /\ tl_get (tb_tl (revise_all week_tb calls)) 2 = Ok 9
  /\ raises week_tb (RAmend NRaise [(at_hour 2017 1 3 15, 6); (early, 6)]) EOutOfBounds
  /\ tells week_tb 2 9 (RAmend NIgnore [(early, 6); (day 2017 1 1, 9)])
  /\ tl_labels (tb_tl (revise_all week_tb (calls ++ [RReset 3]))) = repeat 3 17.
Proof.
  assert (Hr : revised week_tb) by (apply revised_reachable; exact week_reachable).
  assert (W : tl_wf (tb_tl week_tb)) by (apply revised_wf; exact Hr).
  split; [exact Hr|]. split; [vm_compute; reflexivity|]. split; [vm_compute; reflexivity|]. split; [vm_compute; reflexivity|].
  split; [vm_compute; reflexivity|]. split.
  { apply (raises_outside _ _ _ 1%nat early 6); [|reflexivity|discriminate|apply (outside_pos _ _ W); vm_compute; reflexivity].
    apply (fine_flag _ _ _ W); [discriminate|]. cbn [firstn]. split.
    - assert (E : map fst (located (tb_tl week_tb) [(at_hour 2017 1 3 15, 6)]) = [4]) by (vm_compute; reflexivity).
      rewrite E. constructor; [intros []|constructor].
    - intros _ t x [H|[]]. injection H as <- <-. exists 4. vm_compute. reflexivity. }
  split; [|vm_compute; reflexivity]. apply (tells_amend _ _ _ _ _ (day 2017 1 1)); [right; left; reflexivity|].
  apply (holds_position week_tb 2 _ W). vm_compute. reflexivity.
Qed.

(** The documentation: OutOfBoundsError "if `not_in_range` parameter value is anything but
    'ignore'".  Anything but 'raise' is taken for 'ignore'. *)
Theorem C60_other : forall (L : Type) (tb : timeboard L) am, revise tb (RAmend NOther am) = revise tb (RAmend NIgnore am).
Proof. exact C60_other_pf. Qed.
Print Assumptions C60_other.
Theorem C60_refuted : exists (tb : timeboard Z) am e, reachable tb /\ raises tb (RAmend NOther am) e
  /\ snd (revise tb (RAmend NOther am)) = None.
Proof.
  exists week_tb, [(early, 6)], EOutOfBounds. split; [exact week_reachable|].
  assert (W : tl_wf (tb_tl week_tb)) by (apply reachable_wf; exact week_reachable).
  split; [|vm_compute; reflexivity]. apply (raises_outside _ _ _ 0%nat early 6); [|reflexivity|discriminate|apply (outside_pos _ _ W); vm_compute; reflexivity].
  split; [|intros _ t x []]. intros (j & k & i & t1 & x1 & t2 & x2 & _ & H & _). destruct j; discriminate.
Qed.
Print Assumptions C60_refuted.

(** The schedules that exist when labels are set do not follow them: on duty in the list of the
    schedule, off duty when asked. *)
Theorem C60_schedules_refuted : exists (tb : timeboard Z) op w, reachable tb /\ snd (revise tb op) = None
  /\ let tb' := fst (revise tb op) in
     In (ws_loc w) (sc_on (tb_default tb')) /\ is_on_duty tb' w (tb_default tb') = Ok false.
Proof.
  exists week_tb, (RReset 0), (mkWs 4 0 (tb_default week_tb)). split; [exact week_reachable|]. split; [reflexivity|].
  cbv zeta. split; [|vm_compute; reflexivity].
  assert (E : existsb (Z.eqb 4) (sc_on (tb_default (fst (revise week_tb (RReset 0))))) = true) by (vm_compute; reflexivity).
  apply existsb_exists in E. destruct E as (z & Hz & Ez). apply Z.eqb_eq in Ez. subst z. exact Hz.
Qed.
Print Assumptions C60_schedules_refuted.
