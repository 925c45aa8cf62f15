(** Specification of C70: the same timeboard with other labels. *)
From Verif Require Import Base Civil Freq Frame Timeline Board SpecShare.
From Coq Require Import QArith.
Open Scope Z_scope.

(** The layout, and the RememberingPatterns in use, with each label [x] replaced by [f x]. *)
Fixpoint lmap {L M : Type} (f : L -> M) (ly : layout L) : layout M :=
  match ly with
  | LOrg d items => LOrg d (map (lmap f) items)
  | LOrgRem d k => LOrgRem d k
  | LPat (PList l) => LPat (PList (map f l))
  | LPat (PRem k) => LPat (PRem k)
  | LLab x => LLab (f x)
  end.
Definition hmap {L M : Type} (f : L -> M) (h : heap L) : heap M := map (fun r => (map f (fst r), map f (snd r))) h.

(** Arguments of Timeboard() that differ in the labels.  The selector and the worktime of a label [f x]
    are those of [x]. *)
Definition relabelled {L M : Type} (f : L -> M) (a : tb_args L) (b : tb_args M) : Prop :=
  a_freq b = a_freq a /\ a_start b = a_start a /\ a_end b = a_end a /\ a_layout b = lmap f (a_layout a)
  /\ a_amendments b = map (fun q => (fst q, f (snd q))) (a_amendments a)
  /\ a_name b = a_name a /\ a_ref_end b = a_ref_end a /\ a_default b = f (a_default a) /\ a_wt b = a_wt a
  /\ (forall x, a_sel b (f x) = a_sel a x) /\ (forall x, a_num b (f x) = a_num a x).

(** The same with other labels: schedules, timeboards, workshifts, intervals and rows. *)
Definition sched_like {L M : Type} (f : L -> M) (s1 : schedule L) (s2 : schedule M) : Prop :=
  sc_name s2 = sc_name s1 /\ (forall x, sc_sel s2 (f x) = sc_sel s1 x)
  /\ sc_on s2 = sc_on s1 /\ sc_off s2 = sc_off s1 /\ sc_all s2 = sc_all s1.
Definition tb_like {L M : Type} (f : L -> M) (tb1 : timeboard L) (tb2 : timeboard M) : Prop :=
  (tl_frame (tb_tl tb2) = tl_frame (tb_tl tb1) /\ tl_index (tb_tl tb2) = tl_index (tb_tl tb1)
   /\ tl_band (tb_tl tb2) = tl_band (tb_tl tb1) /\ tl_ref_end (tb_tl tb2) = tl_ref_end (tb_tl tb1)
   /\ tl_labels (tb_tl tb2) = map f (tl_labels (tb_tl tb1)))
  /\ sched_like f (tb_default tb1) (tb_default tb2)
  /\ Forall2 (fun q1 q2 => fst q2 = fst q1 /\ sched_like f (snd q1) (snd q2)) (tb_schedules tb1) (tb_schedules tb2)
  /\ tb_wt tb2 = tb_wt tb1 /\ (forall x, tb_num tb2 (f x) = tb_num tb1 x).
Definition ws_like {L M : Type} (f : L -> M) (w1 : workshift L) (w2 : workshift M) : Prop :=
  ws_loc w2 = ws_loc w1 /\ ws_label w2 = f (ws_label w1) /\ sched_like f (ws_sched w1) (ws_sched w2).
Definition iv_like {L M : Type} (f : L -> M) (x1 : interval L) (x2 : interval M) : Prop :=
  iv_a x2 = iv_a x1 /\ iv_b x2 = iv_b x1 /\ iv_void x2 = iv_void x1 /\ sched_like f (iv_sched x1) (iv_sched x2).
Definition row_like {L M : Type} (f : L -> M) (r1 : df_row L * list (Z * bool)) (r2 : df_row M * list (Z * bool)) : Prop :=
  fst r2 = mkRow (row_loc (fst r1)) (row_ref (fst r1)) (row_start (fst r1)) (row_duration (fst r1)) (row_end (fst r1)) (f (row_label (fst r1)))
  /\ snd r2 = snd r1.
(** The schedule given to a method, if any. *)
Definition arg_like {L M : Type} (f : L -> M) (s1 : option (schedule L)) (s2 : option (schedule M)) : Prop :=
  match s1, s2 with Some x, Some y => sched_like f x y | None, None => True | _, _ => False end.
