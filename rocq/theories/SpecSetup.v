(** Specification of the constructors on arguments as the user writes them (C52). *)
From Verif Require Import Base Civil Freq Frame When Timeline Board Spec SpecLookup SpecLayout Setup.
From Verif Require Api.
From Coq Require Import String QArith.
Open Scope Z_scope.

(** ** Marker *)
(** The offset from Easter that an element of `at` stands for; `shift` replaces `days`. *)
Inductive easter_offset : kwargs -> dateoffset -> Prop :=
| eo_offset o : easter_offset (KOffset o) o
| eo_shift n : easter_offset (KShift n DNone) (DKw 0 0 0 n 0 0 0)
| eo_both n y m w d h mi s : easter_offset (KShift n (DKw y m w d h mi s)) (DKw y m w n h mi s)
| eo_set n a y m w d h mi s : easter_offset (KShift n (DSet a y m w d h mi s)) (DSet a y m w n h mi s).
(** Elements of `at` that the named function does not take. *)
Inductive unsuited : string -> kwargs -> Prop :=
| un_start k : (forall o, k <> KOffset o) -> unsuited "from_start_of_each" k
| un_nth k : (forall month week wday shift, k <> KNth month week wday shift) -> unsuited "nth_weekday_of_month" k
| un_western month week wday shift : unsuited "from_easter_western" (KNth month week wday shift)
| un_orthodox month week wday shift : unsuited "from_easter_orthodox" (KNth month week wday shift).

(** ** Organizer *)
Definition iterable {L : Type} (o : obj L) : Prop := (exists l, o = OList l) \/ exists k, o = ORem k.
(** What is wrong with the arguments of Organizer(marker, marks, structure). *)
Inductive organizer_fault {L : Type} : marker_arg -> marks_arg -> obj L -> err -> Prop :=
| of_none st : organizer_fault MOmit TOmit st EValue
| of_both m ts st : m <> MOmit -> ts <> TOmit -> organizer_fault m ts st EValue
| of_marker m st : m <> MOmit -> ~ iterable st -> organizer_fault m TOmit st EType
| of_marks ts st : ts <> TOmit -> ~ iterable st -> organizer_fault MOmit ts st EType.
(** How the time is divided: a frequency is a marker without `at`, a single mark a list of one. *)
Inductive divides_by : marker_arg -> marks_arg -> divider -> Prop :=
| db_marker m : divides_by (MMarker m) TOmit (DMarker m)
| db_each s : divides_by (MEach s) TOmit (DMarker (mkMarker s []))
| db_one t : divides_by MOmit (TOne t) (DMarks [t])
| db_many l : divides_by MOmit (TMany l) (DMarks l).

(** ** Timeboard *)
(** What may be a layout: an organizer or a list. *)
Definition good_layout {L : Type} (o : obj L) : Prop := (exists d st, o = OOrg d st) \/ exists l, o = OList l.
Definition good_bound (b : bound) : Prop := b <> BBad.
(** The first thing that is wrong with the arguments, in the order in which they are checked. *)
Inductive fault {L : Type} (u : setup L) : err -> Prop :=
| f_layout : ~ good_layout (u_layout u) -> fault u EType
| f_amend : good_layout (u_layout u) -> u_amend u = AOther -> fault u EType
| f_source : good_layout (u_layout u) -> u_amend u <> AOther -> u_wt u = WBad -> fault u EValue
| f_no_freq : good_layout (u_layout u) -> u_amend u <> AOther -> u_wt u <> WBad -> u_freq u = Api.FNone -> fault u EKey
| f_freq : good_layout (u_layout u) -> u_amend u <> AOther -> u_wt u <> WBad -> u_freq u = Api.FBad -> fault u EValue
| f_bounds s : good_layout (u_layout u) -> u_amend u <> AOther -> u_wt u <> WBad -> u_freq u = Api.FStr s ->
    (u_start u = BBad \/ u_end u = BBad) -> fault u EValue.

(** An object as an element of a structure. *)
Inductive reads {L : Type} : obj L -> layout (obj L) -> Prop :=
| r_org d l items : Forall2 reads l items -> reads (OOrg d (OList l)) (LOrg d items)
| r_remember d k : reads (OOrg d (ORem k)) (LOrgRem d k)
| r_list l : reads (OList l) (LPat (PList l))
| r_pattern k : reads (ORem k) (LPat (PRem k))
| r_label x : reads (OOther x) (LLab (OOther x)).
(** Every organizer in an object was accepted by its constructor. *)
Inductive proper {L : Type} : obj L -> Prop :=
| p_org d l : Forall proper l -> proper (OOrg d (OList l))
| p_remember d k : proper (OOrg d (ORem k))
| p_list l : proper (OList l)
| p_pattern k : proper (ORem k)
| p_label x : proper (OOther x).

(** The instant that `start` or `end` stands for: a period of the same frequency as the base units
    stands for its start, any other one for its end. *)
Inductive bound_means (s : fstr) : bound -> Z -> Prop :=
| bm_time t : bound_means s (BTime t) t
| bm_same p : p_freq p = to_freq s -> bound_means s (BPer p) (p_start p)
| bm_other p : p_freq p <> to_freq s -> bound_means s (BPer p) (p_end p).

(** The instant that the key of an amendment stands for. *)
Inductive key_means {L : Type} : Api.value L -> Z -> Prop :=
| km_time t : key_means (Api.VTime t) t
| km_int n : key_means (Api.VInt n) n
| km_period p : key_means (Api.VPer p) (p_start p)
| km_workshift b w t : ws_ref_time (tb_tl b) (ws_loc w) = Ok t -> key_means (Api.VWs b w) t.
(** Keys that stand for no instant. *)
Inductive bad_key {L : Type} : Api.value L -> Prop :=
| bk_text : bad_key Api.VText
| bk_obj : bad_key Api.VObj.

(** The same arguments in the form of Board.v. *)
Definition same_args {L : Type} (u : setup L) (a : tb_args (obj L)) : Prop :=
  u_freq u = Api.FStr (a_freq a) /\ bound_means (a_freq a) (u_start u) (a_start a) /\ bound_means (a_freq a) (u_end u) (a_end a)
  /\ reads (u_layout u) (a_layout a)
  /\ (match u_amend u with
      | AOmit => a_amendments a = []
      | ADict l => Forall2 (fun q r => key_means (fst q) (fst r) /\ snd q = snd r) l (a_amendments a)
      | AOther => False
      end)
  /\ a_sel a = u_sel u /\ a_name a = u_name u /\ a_ref_end a = u_ref_end u /\ a_default a = u_default u
  /\ a_wt a = u_wt u /\ a_num a = u_num u.
