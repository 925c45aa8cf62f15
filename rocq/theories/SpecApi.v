(** Specification of the public entry points on arguments of any type (C47-C49). *)
From Verif Require Import Base Freq Frame Timeline Board Api Spec SpecLookup SpecRoll SpecQuery SpecInterval.

(** The object names a point in time. *)
Inductive names_time {L : Type} : value L -> Z -> Prop :=
| nt_time t : names_time (VTime t) t
| nt_int n : names_time (VInt n) n
| nt_period p : names_time (VPer p) (p_start p)
| nt_ws b w t : ref_at b (ws_loc w) t -> names_time (VWs b w) t.

(** The object names a bound of an interval: a point in time, or null for the end of the
    timeboard. *)
Definition names_bound {L : Type} (v : value L) (o : option Z) : Prop :=
  match o with None => v = VNull | Some t => names_time v t end.

(** A tuple of two bounds; further items are ignored. *)
Inductive names_pair {L : Type} : pyref L -> option Z -> option Z -> Prop :=
| np x y l a b : names_bound x a -> names_bound y b -> names_pair (PTuple (x :: y :: l)) a b.

(** The schedule that the argument stands for. *)
Definition sched_given {L : Type} (tb : timeboard L) (s : sarg L) (sch : schedule L) : Prop :=
  s = SSched sch \/ (s = SNone /\ sch = tb_default tb).

Definition not_period {L : Type} (v : value L) : Prop := forall p, v <> VPer p.
Definition not_int {L : Type} (v : value L) : Prop := forall n, v <> VInt n.

(** The object cannot be read as a point in time, and the error it causes. *)
Inductive bad_point {L : Type} : pyref L -> err -> Prop :=
| bp_text : bad_point (PVal VText) EValue
| bp_obj : bad_point (PVal VObj) EType
| bp_tuple l : bad_point (PTuple l) EType
| bp_list l : bad_point (PList l) EType.

(** The arguments of get_interval that are refused for their types, and the error. *)
Inductive refused {L : Type} : ivl_args L -> err -> Prop :=
| rf_closed r n f clip s : refused (mkIa r n f clip CBad s) EValue
| rf_both r n f clip c s : closed_ok c -> f <> FNone -> refused (mkIa r (Some n) f clip c s) EType
| rf_length r n clip c s : closed_ok c -> not_int n -> refused (mkIa r (Some n) FNone clip c s) EType
| rf_length_point r n clip c s e : closed_ok c -> n <> 0 -> bad_point r e ->
    refused (mkIa r (Some (VInt n)) FNone clip c s) e
| rf_period_point r f clip c s e : closed_ok c -> f <> FNone -> bad_point r e ->
    refused (mkIa r None f clip c s) e
| rf_period v t clip c s : closed_ok c -> names_time v t -> not_period v ->
    refused (mkIa (PVal v) None FBad clip c s) EValue
| rf_list x y l clip c s : closed_ok c -> refused (mkIa (PList (x :: y :: l)) None FNone clip c s) EValue
| rf_short_list x clip c s : closed_ok c -> x <> VNull -> refused (mkIa (PList [x]) None FNone clip c s) EType
| rf_empty_list clip c s : closed_ok c -> refused (mkIa (PList []) None FNone clip c s) EType
| rf_short_tuple x clip c s : closed_ok c -> refused (mkIa (PTuple [x]) None FNone clip c s) EType
| rf_empty_tuple clip c s : closed_ok c -> refused (mkIa (PTuple []) None FNone clip c s) EType
| rf_point v clip c s : closed_ok c -> v <> VNull -> not_period v ->
    refused (mkIa (PVal v) None FNone clip c s) EType
| rf_first x y l clip c s e : closed_ok c -> bad_point (PVal x) e ->
    refused (mkIa (PTuple (x :: y :: l)) None FNone clip c s) e
| rf_second x a y l clip c s e : closed_ok c -> names_bound x a -> bad_point (PVal y) e ->
    refused (mkIa (PTuple (x :: y :: l)) None FNone clip c s) e.

(** The workshifts among the arguments are workshifts of their timeboards. *)
Definition value_ok {L : Type} (v : value L) : Prop :=
  match v with VWs b w => exists t, ref_at b (ws_loc w) t | _ => True end.
Definition ref_ok {L : Type} (r : pyref L) : Prop :=
  match r with PVal v => value_ok v | PTuple l | PList l => forall v, In v l -> value_ok v end.

(** No null is passed where `length` or `period` needs a point in time. *)
Definition no_null_point {L : Type} (a : ivl_args L) : Prop :=
  ia_ref a = PVal VNull -> ia_len a = None /\ ia_per a = FNone.

(** The object names a position on the timeline. *)
Inductive names_loc {L : Type} : value L -> Z -> Prop :=
| nl_int n : names_loc (VInt n) n
| nl_ws b w : names_loc (VWs b w) (ws_loc w).
Definition no_loc {L : Type} (v : value L) : Prop := forall n, ~ names_loc v n.

(** A sequence that begins with the two objects. *)
Definition sequence_of {L : Type} (r : pyref L) (x y : value L) : Prop :=
  exists l, r = PTuple (x :: y :: l) \/ r = PList (x :: y :: l).
