(** Theorems C57: a calendar class makes the timeboard of its parameters. *)
From Verif Require Import Base Civil Freq Frame Timeline Board Calendars UserCal Spec SpecMisc SpecCal SpecUserCal UserCalProofs.
From Coq Require Import QArith.
Open Scope Z_scope.

(** ** C57 *)
Theorem C57_refused : forall (L : Type) (c : cal_def L) lo hi (o : user_opts L) h, of_times c lo hi ->
  ~ within lo hi o -> user_calendar c o h = Err EOutOfBounds.
Proof. exact C57_refused_pf. Qed.
Print Assumptions C57_refused.

Theorem C57_plain : forall (L : Type) (c : cal_def L) lo hi (o : user_opts L) h, of_times c lo hi -> within lo hi o ->
  user_calendar c (unamended o) h = build (bounded (k_params c) (from_time lo o) (to_time hi o)) h.
Proof. exact C57_plain_pf. Qed.
Print Assumptions C57_plain.

Theorem C57_choice : forall (L : Type) (c : cal_def L) (o : user_opts L) s e, exists r,
  chosen c o s e r /\ forall r', chosen c o s e r' -> r' = r.
Proof. exact C57_choice_pf. Qed.
Print Assumptions C57_choice.

Theorem C57_error : forall (L : Type) (c : cal_def L) lo hi (o : user_opts L) h r, of_times c lo hi -> within lo hi o ->
  chosen c o (from_time lo o) (to_time hi o) r ->
  (forall e, r = Err e -> user_calendar c o h = Err e)
  /\ (forall am e, r = Ok am -> user_calendar c (unamended o) h = Err e -> user_calendar c o h = Err e).
Proof. exact C57_error_pf. Qed.
Print Assumptions C57_error.

Theorem C57_amended : forall (L : Type) (c : cal_def L) lo hi (o : user_opts L) h am tb0 h', of_times c lo hi -> within lo hi o ->
  chosen c o (from_time lo o) (to_time hi o) (Ok am) -> user_calendar c (unamended o) h = Ok (tb0, h') ->
  (clash tb0 am -> user_calendar c o h = Err EKey)
  /\ (~ clash tb0 am -> exists tb, user_calendar c o h = Ok (tb, h')
      /\ (forall i t, (is_shift tb i <-> is_shift tb0 i) /\ (starts_at tb i t <-> starts_at tb0 i t)
            /\ (ends_at tb i t <-> ends_at tb0 i t) /\ (ref_at tb i t <-> ref_at tb0 i t))
      /\ forall i x, is_shift tb i ->
           (tl_get (tb_tl tb) i = Ok x <->
            (exists t, In (t, x) am /\ holds_time tb i t)
            \/ ((forall t y, In (t, y) am -> ~ holds_time tb i t) /\ tl_get (tb_tl tb0) i = Ok x))).
Proof. exact C57_amended_pf. Qed.
Print Assumptions C57_amended.

Theorem C57_text : forall (L : Type) (c : cal_def L) a b (o : user_opts L) h,
  k_start c = CText a -> k_end c = CText b -> q_start o <> None \/ q_end o <> None -> user_calendar c o h = Err EType.
Proof. exact C57_text_pf. Qed.
Print Assumptions C57_text.
(** One of them is a string: the end is looked at only if the given time is not before the start. *)
Theorem C57_one_text : forall (L : Type) (c : cal_def L) a b (o : user_opts L) h t,
  q_start o = Some t \/ (q_start o = None /\ q_end o = Some t) ->
  (k_start c = CText a -> user_calendar c o h = Err EType)
  /\ (k_start c = CTime a -> k_end c = CText b ->
      (t < a -> user_calendar c o h = Err EOutOfBounds) /\ (a <= t -> user_calendar c o h = Err EType)).
Proof. exact C57_one_text_pf. Qed.
Print Assumptions C57_one_text.
(** With the bounds of the class it is as with Timestamps. *)
Theorem C57_as_times : forall (L : Type) (c : cal_def L) a b (o : user_opts L) h,
  k_start c = CText a -> k_end c = CText b -> q_start o = None -> q_end o = None ->
  user_calendar c o h = user_calendar (mkDef (CTime a) (CTime b) (k_params c) (k_amend c)) o h.
Proof. exact C57_as_times_pf. Qed.
Print Assumptions C57_as_times.

Theorem C57_base : forall o : user_opts Z,
  let lo := date 2001 1 1 * NS_DAY in let hi := date 2030 12 31 * NS_DAY in
  let d0 := from_time lo o / NS_DAY in let d1 := to_time hi o / NS_DAY in
  (~ within lo hi o -> user_calendar base_class o [] = Err EOutOfBounds)
  /\ (within lo hi o -> d1 < d0 -> user_calendar base_class o [] = Err EVoidInterval)
  /\ (within lo hi o -> d0 <= d1 -> same_day_twice d0 d1 (base_items o) -> user_calendar base_class o [] = Err EKey)
  /\ (within lo hi o -> d0 <= d1 -> ~ same_day_twice d0 d1 (base_items o) ->
        exists tb, user_calendar base_class o [] = Ok (tb, [])
          /\ tb_start_time tb = d0 * NS_DAY /\ tb_end_time tb = (d1 + 1) * NS_DAY - 1
          /\ forall t, d0 <= t / NS_DAY <= d1 -> forall x, base_day tb t x <-> base_label (base_items o) (t / NS_DAY) x).
Proof. exact C57_base_pf. Qed.
Print Assumptions C57_base.

Theorem C57_preset : forall c am o, new_calendar c am o = rmap fst (user_calendar (preset c am) (opts_of o) []).
Proof. exact C57_preset_pf. Qed.
Print Assumptions C57_preset.

(** A class of months with labels 1, 2, 3 in turn; its last month is 9, and its `amendments` method
    fails for a period that starts after 2018. *)
Definition months_class (bound : Z -> class_bound) : cal_def Z :=
  mkDef (bound (date 2010 1 1 * NS_DAY)) (bound (date 2019 12 31 * NS_DAY))
        (mkArgs (mkFstr None AlM) 0 0 (LPat (PList [1; 2; 3])) [] (fun x => negb (x =? 0)) 0 false 0 WDuration (fun x => Some (inject_Z x)))
        (fun s e custom => if date 2019 1 1 * NS_DAY <=? s then Err EValue else Ok ((e, 9) :: opt_or custom [])).
Definition in_2018 (custom : option (list (Z * Z))) (no only : bool) : user_opts Z :=
  mkUser (Some (date 2018 3 15 * NS_DAY)) (Some (date 2018 8 15 * NS_DAY)) no only custom.
Definition labels_of (r : res (timeboard Z * heap Z)) : res (list Z) := rmap (fun q => tl_labels (tb_tl (fst q))) r.

Example C57_ex : let c := months_class CTime in
  let lo := date 2010 1 1 * NS_DAY in let hi := date 2019 12 31 * NS_DAY in
  let may := date 2018 5 20 * NS_DAY in let aug := date 2018 8 20 * NS_DAY in
  of_times c lo hi /\ within lo hi (in_2018 None false false)
  /\ labels_of (user_calendar c (in_2018 None true false) []) = Ok [1; 2; 3; 1; 2; 3]
  /\ labels_of (user_calendar c (in_2018 None false false) []) = Ok [1; 2; 3; 1; 2; 9]
  /\ labels_of (user_calendar c (in_2018 (Some [(may, 7)]) false false) []) = Ok [1; 2; 7; 1; 2; 9]
  /\ labels_of (user_calendar c (in_2018 (Some [(aug, 7)]) false true) []) = Ok [1; 2; 3; 1; 2; 7]
  /\ user_calendar c (in_2018 (Some [(aug, 7)]) false false) [] = Err EKey
  /\ user_calendar c (mkUser (Some (date 2019 1 1 * NS_DAY)) None false false None) [] = Err EValue
  /\ user_calendar c (mkUser (Some (date 2009 12 31 * NS_DAY)) None false false None) [] = Err EOutOfBounds
  /\ user_calendar c (mkUser (Some (date 2018 2 1 * NS_DAY)) (Some (date 2018 1 1 * NS_DAY)) false false None) [] = Err EVoidInterval.
Proof.
  cbv zeta. split; [split; reflexivity|].
  split; [split; intros t Ht; injection Ht as <-; vm_compute; split; discriminate|].
  vm_compute. repeat split.
Qed.

(** The same class with its bounds as strings: a timeboard without custom bounds, an exception
    with custom bounds that are within the bounds of the class. *)
Theorem C57_text_refuted : exists (c : cal_def Z) a b o,
  k_start c = CText a /\ k_end c = CText b /\ within a b o /\ is_ok (user_calendar c (mkUser None None false false None) []) = true
  /\ is_ok (build (bounded (k_params c) (from_time a o) (to_time b o)) []) = true
  /\ user_calendar c o [] = Err EType.
Proof.
  exists (months_class CText), (date 2010 1 1 * NS_DAY), (date 2019 12 31 * NS_DAY), (in_2018 None true false).
  split; [reflexivity|]. split; [reflexivity|].
  split; [split; intros t Ht; injection Ht as <-; vm_compute; split; discriminate|].
  vm_compute. repeat split.
Qed.
Print Assumptions C57_text_refuted.

Example C57_base_ex : let d := date 2017 1 1 in
  let o l := mkUser (Some (d * NS_DAY + 5)) (Some ((d + 3) * NS_DAY)) false false (Some l) in
  labels_of (user_calendar base_class (o [((d + 1) * NS_DAY + 7, 0)]) []) = Ok [1; 0; 1; 1]
  /\ base_label [((d + 1) * NS_DAY + 7, 0)] (d + 1) 0 /\ ~ base_label [((d + 1) * NS_DAY + 7, 0)] (d + 1) 1
  /\ user_calendar base_class (o [(d * NS_DAY, 0); (d * NS_DAY + 1, 0)]) [] = Err EKey
  /\ user_calendar base_class (mkUser (Some (d * NS_DAY)) (Some (date 2030 12 31 * NS_DAY + 1)) false false None) [] = Err EOutOfBounds.
Proof.
  cbv zeta. split; [vm_compute; reflexivity|].
  split; [left; exists ((date 2017 1 1 + 1) * NS_DAY + 7); split; [left; reflexivity|vm_compute; reflexivity]|].
  split; [|split; vm_compute; reflexivity].
  intros [(t & [Ht|[]] & _)|[H _]]; [discriminate|]. apply (H ((date 2017 1 1 + 1) * NS_DAY + 7) 0); [left; reflexivity|vm_compute; reflexivity].
Qed.
Example C57_as_times_ex : let o := mkUser None None false false None in
  user_calendar (months_class CText) o [] = user_calendar (months_class CTime) o [] /\ is_ok (user_calendar (months_class CText) o []) = true.
Proof. cbv zeta. split; [exact (C57_as_times Z (months_class CText) _ _ (mkUser None None false false None) [] eq_refl eq_refl eq_refl eq_refl)|vm_compute; reflexivity]. Qed.
(** A class with a Timestamp and a string. *)
Example C57_one_text_ex :
  let c := mkDef (CTime (date 2010 1 1 * NS_DAY)) (CText (date 2019 12 31 * NS_DAY)) (k_params (months_class CTime)) (k_amend (months_class CTime)) in
  user_calendar c (mkUser None (Some (date 2009 5 1 * NS_DAY)) false false None) [] = Err EOutOfBounds
  /\ user_calendar c (mkUser None (Some (date 2018 5 1 * NS_DAY)) false false None) [] = Err EType
  /\ is_ok (user_calendar c (mkUser None None false false None) []) = true.
Proof. vm_compute. repeat split. Qed.
