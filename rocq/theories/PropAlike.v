(** Layouts written differently: C76. *)
From Verif Require Import Base Civil Freq Frame When Timeline Board Spec SpecWhen SpecAlike Samples AlikeProofs.
From Coq Require Import QArith Lia Permutation.
Open Scope Z_scope.

(** C76.  Layouts that mean the same give the same timeboard and leave the same of the patterns, or fail in the same way. *)
Theorem C76_same : forall L (a : tb_args L) ly ly' h, alike (a_freq a) ly ly' -> top_level ly -> top_level ly' ->
  build (with_layout a ly) h = build (with_layout a ly') h.
Proof. exact C76_same_pf. Qed.
Print Assumptions C76_same.
(** The functions of when.py with proper arguments raise ValueError only, so they may be listed in any order. *)
Theorem C76_when : (forall o, usable o -> fails_as EValue (from_start_of_each o))
  /\ (forall month week wday shift, 1 <= month <= 12 -> (1 <= week <= 5 \/ -5 <= week <= -1) -> 1 <= wday <= 7 ->
        fails_as EValue (nth_weekday_of_month month week wday shift))
  /\ (forall orthodox o, usable o -> fails_as EValue (from_easter orthodox o)).
Proof. exact C76_when_pf. Qed.
Print Assumptions C76_when.

(** An organizer with no marks around a pattern does matter in an organizer with a marker:
    the pattern does not skip what the first span misses. *)
Theorem C76_around_refuted : exists (a : tb_args Z) m l tb tb', 
  build (with_layout a (LOrg (DMarker m) [LPat (PList l)])) [] = Ok (tb, [])
  /\ build (with_layout a (LOrg (DMarker m) [LOrg (DMarks []) [LPat (PList l)]])) [] = Ok (tb', [])
  /\ tl_labels (tb_tl tb) = [3; 4; 5; 6; 7; 1; 2] /\ tl_labels (tb_tl tb') = [1; 2; 3; 4; 5; 1; 2].
Proof. exact C76_around_refuted_pf. Qed.
Print Assumptions C76_around_refuted.
(** An element of `at` given twice does matter for base units of a nanosecond. *)
Theorem C76_twice_refuted : exists (a : tb_args Z) e how l tb, fails_as EValue how
  /\ build (with_layout a (LOrg (DMarker (mkMarker e [how])) [LPat (PList l)])) [] = Ok (tb, [])
  /\ build (with_layout a (LOrg (DMarker (mkMarker e [how; how])) [LPat (PList l)])) [] = Err EOutOfBounds.
Proof. exact C76_twice_refuted_pf. Qed.
Print Assumptions C76_twice_refuted.

Definition al_mon : frame -> fstr -> res (list Z) := from_start_of_each (DKw 0 0 0 0 0 0 0).
Definition al_thu : frame -> fstr -> res (list Z) := from_start_of_each (DKw 0 0 0 3 0 0 0).
Definition al_weeks (l : list (frame -> fstr -> res (list Z))) (items : list (layout Z)) : layout Z := LOrg (DMarker (mkMarker (fq (AlW None)) l)) items.
(** Workshifts from Mondays and Thursdays, and days from Wed 18 Jan to Fri 20 Jan 2017. *)
Definition al_short : layout Z :=
  LOrg (DMarks [day 2017 1 18; day 2017 1 21]) [al_weeks [al_mon; al_thu] [LLab 1; LLab 0]; LPat (PList [5; 6])].
(** The same at more length. *)
Definition al_long : layout Z :=
  LOrg (DMarks [day 2017 1 21; day 2017 1 18; day 2017 1 21])
    [LOrg (DMarks []) [al_weeks [al_thu; al_mon; al_thu] [LLab 1; LLab 0; LLab 1; LLab 0]]; LOrg (DMarks []) [LPat (PList [5; 6; 5; 6; 5; 6])]].
Lemma al_short_long : alike (fq AlD) al_short al_long.
Proof.
  unfold al_short, al_long.
  apply al_trans with (LOrg (DMarks [day 2017 1 21; day 2017 1 18; day 2017 1 21]) [al_weeks [al_mon; al_thu] [LLab 1; LLab 0]; LPat (PList [5; 6])]).
  { apply al_divider. constructor. intros t. cbn [In]. tauto. }
  set (ms := [day 2017 1 21; day 2017 1 18; day 2017 1 21]).
  apply al_trans with (LOrg (DMarks ms) [al_weeks [al_mon; al_thu] [LLab 1; LLab 0]; LPat (PList [5; 6; 5; 6; 5; 6])]).
  { apply (al_part (fq AlD) (DMarks ms) [_] (LPat (PList [5; 6])) _ []). exact (al_pattern (fq AlD) [5; 6] 3 ltac:(lia)). }
  apply al_trans with (LOrg (DMarks ms) [al_weeks [al_mon; al_thu] [LLab 1; LLab 0]; LOrg (DMarks []) [LPat (PList [5; 6; 5; 6; 5; 6])]]).
  { apply al_sym. exact (al_around_pattern (fq AlD) ms [_] (PList [5; 6; 5; 6; 5; 6]) []). }
  apply (al_part (fq AlD) (DMarks ms) [] _ _ [_]).
  apply al_trans with (al_weeks [al_thu; al_mon; al_thu] [LLab 1; LLab 0; LLab 1; LLab 0]); [|apply al_sym, al_around; exact I].
  apply al_trans with (al_weeks [al_mon; al_thu] [LLab 1; LLab 0; LLab 1; LLab 0]).
  { exact (al_structure (fq AlD) _ [LLab 1; LLab 0] 2 ltac:(lia)). }
  apply al_divider. constructor. split.
  - exists EValue. intros how [<-|[<-|[]]]; apply C76_when; exact I.
  - right. split; [discriminate|]. intros how. cbn [In]. tauto.
Qed.
Definition al_sample : tb_args Z := mkArgs (fq AlD) (day 2017 1 4) (day 2017 1 24) (LPat (PList [])) [(day 2017 1 10, 9)] pos_sel 1 true (-1) WDuration Samples.num.
Example C76_same_ex h : build (with_layout al_sample al_short) h = build (with_layout al_sample al_long) h.
Proof. exact (C76_same Z al_sample al_short al_long h al_short_long I I). Qed.
(** Both have these workshifts. *)
Example C76_same_ex2 : rmap (fun r => tl_labels (tb_tl (fst r))) (build (with_layout al_sample al_short) []) = Ok [1; 0; 9; 0; 1; 5; 6; 5; 1; 0]
  /\ rmap (fun r => tl_labels (tb_tl (fst r))) (build (with_layout al_sample al_long) []) = Ok [1; 0; 9; 0; 1; 5; 6; 5; 1; 0].
Proof. vm_compute. split; reflexivity. Qed.
(** A structure in another order is another timeboard. *)
Example C76_same_ex3 : rmap (fun r => tl_labels (tb_tl (fst r))) (build (with_layout al_sample (al_weeks [al_mon] [LLab 0; LLab 1])) [])
  <> rmap (fun r => tl_labels (tb_tl (fst r))) (build (with_layout al_sample (al_weeks [al_mon] [LLab 1; LLab 0])) []).
Proof. vm_compute. discriminate. Qed.
(** The last Thursday of November and Easter Monday may be listed in any order: both fail with ValueError only. *)
Example C76_when_ex : fails_as EValue (nth_weekday_of_month 11 (-1) 4 0) /\ fails_as EValue (from_easter false (DKw 0 0 0 1 0 0 0))
  /\ from_easter false (DKw 0 0 0 1 0 0 0) (mkFrame (fq AlM) (47 * 12 + 3) 2) (fq AlD) = Err EValue.
Proof.
  split; [apply C76_when; lia|]. split; [apply C76_when; exact I|]. vm_compute. reflexivity.
Qed.
