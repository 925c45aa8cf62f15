(** Specifications of amendments, dataframe view, schedules by name, iteration
    (C14, C15, C32-C34). *)
From Verif Require Import Base Civil Freq Frame Timeline Board Spec.

(** The same arguments with other amendments. *)
Definition with_amendments {L : Type} (a : tb_args L) (am : list (Z * L)) : tb_args L :=
  mkArgs (a_freq a) (a_start a) (a_end a) (a_layout a) am (a_sel a) (a_name a) (a_ref_end a)
         (a_default a) (a_wt a) (a_num a).

(** Two different items of the mapping with keys inside one workshift. *)
Definition clash {L : Type} (tb : timeboard L) (am : list (Z * L)) : Prop :=
  exists j k i t1 x1 t2 x2, j <> k /\ nth_error am j = Some (t1, x1) /\ nth_error am k = Some (t2, x2)
    /\ holds_time tb i t1 /\ holds_time tb i t2.

(** A row tells what the accessors of the workshift at [i] tell. *)
Definition row_agrees {L : Type} (tb : timeboard L) (i : Z) (r : df_row L * list (Z * bool)) : Prop :=
  row_loc (fst r) = i /\ starts_at tb i (row_start (fst r)) /\ ends_at tb i (row_end (fst r))
  /\ ref_at tb i (row_ref (fst r)) /\ ws_duration (tb_tl tb) i = Ok (row_duration (fst r))
  /\ tl_get (tb_tl tb) i = Ok (row_label (fst r))
  /\ Forall2 (fun q c => fst c = fst q
                /\ is_on_duty tb (mkWs i (row_label (fst r)) (snd q)) (snd q) = Ok (snd c))
             (tb_schedules tb) (snd r).

(** A history of operations on the schedules of a timeboard; a failing operation raises
    and leaves the timeboard as it was. *)
Inductive sched_op (L : Type) : Type :=
| OpAdd (name : Z) (sel : L -> bool)
| OpDrop (s : schedule L).
Arguments OpAdd {L} name sel.
Arguments OpDrop {L} s.
Definition perform {L : Type} (tb : timeboard L) (op : sched_op L) : timeboard L :=
  match op with
  | OpAdd name sel => match add_schedule tb name sel with Ok (tb', _) => tb' | Err _ => tb end
  | OpDrop s => match drop_schedule tb s with Ok tb' => tb' | Err _ => tb end
  end.
(** The abstract map: which selector is known under a name. *)
Definition sched_map (L : Type) : Type := Z -> option (L -> bool).
Definition abs_perform {L : Type} (m : sched_map L) (op : sched_op L) : sched_map L :=
  match op with
  | OpAdd name sel => match m name with
                      | Some _ => m
                      | None => fun k => if k =? name then Some sel else m k
                      end
  | OpDrop s => fun k => if k =? sc_name s then None else m k
  end.
Definition known {L : Type} (tb : timeboard L) : sched_map L :=
  fun k => match find_schedule tb k with Some s => Some (sc_sel s) | None => None end.

(** Uses of one interval object as iterator, by any number of loops. *)
Inductive iter_op : Type := OIter | ONext.
Inductive iter_out (L : Type) : Type := OutSelf | OutWs (w : workshift L) | OutErr (e : err).
Arguments OutSelf {L}.
Arguments OutWs {L} w.
Arguments OutErr {L} e.
Fixpoint iter_run {L : Type} (tb : timeboard L) (iv : interval L) (st : iter_state L) (ops : list iter_op)
  : list (iter_out L) :=
  match ops with
  | [] => []
  | OIter :: ops' => match iv_iter tb iv with
                     | Ok st' => OutSelf :: iter_run tb iv st' ops'
                     | Err e => OutErr e :: iter_run tb iv st ops'
                     end
  | ONext :: ops' => match iv_next st with
                     | Ok (w, st') => OutWs w :: iter_run tb iv st' ops'
                     | Err e => OutErr e :: iter_run tb iv st ops'
                     end
  end.
(** The number of [ONext] after the last [OIter], [None] if there was no [OIter]. *)
Fixpoint since_iter (ops : list iter_op) (n : option nat) : option nat :=
  match ops with
  | [] => n
  | OIter :: ops' => since_iter ops' (Some 0%nat)
  | ONext :: ops' => since_iter ops' (match n with Some k => Some (S k) | None => None end)
  end.

(** Timeboards made with the arguments [a]; schedules may have been added and dropped since. *)
Inductive made_with {L : Type} (a : tb_args L) : timeboard L -> Prop :=
| made_build h tb h' : build a h = Ok (tb, h') -> made_with a tb
| made_add tb name sel tb' s : made_with a tb -> add_schedule tb name sel = Ok (tb', s) -> made_with a tb'
| made_drop tb s tb' : made_with a tb -> drop_schedule tb s = Ok tb' -> made_with a tb'.

(** The workshift [i] consists of [n] base units of the timeboard. *)
Definition has_units {L : Type} (tb : timeboard L) (i n : Z) : Prop :=
  exists u, let f := tl_frame (tb_tl tb) in
    0 <= u /\ 1 <= n /\ u + n <= fr_len f
    /\ starts_at tb i (unit_start f u) /\ ends_at tb i (unit_end f (u + n - 1)).
