(** Setup: the constructors Marker(...), Organizer(...) and Timeboard(...) on arguments as the
    user writes them, with their type checks.  Frame.v, Timeline.v and Board.v model the same
    objects on arguments of the documented types. *)
From Verif Require Import Base Civil Freq Frame When Timeline Board.
From Verif Require Api.
From Coq Require Import String QArith.
Open Scope Z_scope.

(** One element of `at` of a Marker, a dictionary of keyword arguments.  [KOffset o]: only
    keywords of pandas.DateOffset; [KNth]: month, week, weekday,
    shift (0 stands for an absent shift); [KShift n o]: shift and the keywords of [o].
    Other combinations are not modelled. *)
Inductive kwargs : Type :=
| KOffset (o : dateoffset)
| KNth (month week wday shift : Z)
| KShift (n : Z) (o : dateoffset).

(** when.py:10 from_start_of_each( ..., **kwargs ): pandas.DateOffset refuses the keywords
    `shift` and `week` with TypeError. *)
Definition call_from_start (k : kwargs) (pi : frame) (norm : fstr) : res (list Z) :=
  match k with KOffset o => from_start_of_each o pi norm | _ => Err EType end.
(** when.py:63 nth_weekday_of_month( ..., **kwargs ): month, week and weekday are required. *)
Definition call_nth (k : kwargs) (pi : frame) (norm : fstr) : res (list Z) :=
  match k with
  | KNth month week wday shift => nth_weekday_of_month month week wday shift pi norm
  | _ => Err EType
  end.
(** when.py:194-195: `shift` is put in place of `days` *)
Definition shifted (n : Z) (o : dateoffset) : dateoffset :=
  match o with
  | DNone => DKw 0 0 0 n 0 0 0
  | DKw y m w _ h mi s => DKw y m w n h mi s
  | DSet a y m w _ h mi s => DSet a y m w n h mi s
  end.
(** when.py:166, 222-225 from_easter( ..., **kwargs ), from_easter_orthodox, from_easter_western *)
Definition call_easter (orthodox : bool) (k : kwargs) (pi : frame) (norm : fstr) : res (list Z) :=
  match k with
  | KOffset o => from_easter orthodox o pi norm
  | KShift n o => from_easter orthodox (shifted n o) pi norm
  | KNth _ _ _ _ => Err EType
  end.

(** `how` of a Marker: a name or a function. *)
Inductive how_arg : Type :=
| HName (s : string)
| HFun (fn : kwargs -> frame -> fstr -> res (list Z)).

(** core.py:1629-1634 how_functions *)
Definition how_function (s : string) : option (kwargs -> frame -> fstr -> res (list Z)) :=
  if String.eqb s "from_start_of_each" then Some call_from_start
  else if String.eqb s "nth_weekday_of_month" then Some call_nth
  else if String.eqb s "from_easter_western" then Some (call_easter false)
  else if String.eqb s "from_easter_orthodox" then Some (call_easter true)
  else None.

(** core.py:1626-1640 Marker(each, at, how); an omitted `at` is the empty list.  [how] omitted
    is [HName "from_start_of_each"]. *)
Definition new_marker (each : fstr) (ats : list kwargs) (how : how_arg) : res marker :=
  match how with
  | HFun fn => Ok (mkMarker each (map fn ats))
  | HName s => match how_function s with
               | Some fn => Ok (mkMarker each (map fn ats))
               | None => Err EKey
               end
  end.

(** What a user may give as a layout, a structure, or an element of these: an Organizer; a list
    or a tuple; the RememberingPattern number [k] of the heap; any other object, which is taken
    as not iterable (strings are not iterable in the sense of utils.py:35-37).  Dictionaries,
    sets and generators are not modelled.  Any of these objects may become a label. *)
Inductive obj (L : Type) : Type :=
| OOrg (d : divider) (structure : obj L)
| OList (l : list (obj L))
| ORem (k : nat)
| OOther (x : L).
Arguments OOrg {L} d structure.
Arguments OList {L} l.
Arguments ORem {L} k.
Arguments OOther {L} x.

(** utils.py:35-37 *)
Definition is_iterable {L : Type} (o : obj L) : bool :=
  match o with OList _ | ORem _ => true | _ => false end.

(** `marker` of an Organizer: omitted, a Marker, or something that is given to Marker(...) as
    `each`.  `marks`: omitted, a single point in time, an iterable of them. *)
Inductive marker_arg : Type := MOmit | MMarker (m : marker) | MEach (s : fstr).
Inductive marks_arg : Type := TOmit | TOne (t : Z) | TMany (l : list Z).

(** core.py:1343-1355 Organizer(marker, marks, structure); an omitted structure is None, which
    is an [OOther].  utils.py:40-46 to_iterable *)
Definition new_organizer {L : Type} (m : marker_arg) (ts : marks_arg) (st : obj L) : res (obj L) :=
  do d <- (match m, ts with
           | MOmit, TOmit => Err EValue
           | MOmit, TOne t => Ok (DMarks [t])
           | MOmit, TMany l => Ok (DMarks l)
           | MMarker m, TOmit => Ok (DMarker m)
           | MEach s, TOmit => Ok (DMarker (mkMarker s []))
           | _, _ => Err EValue
           end);
  if is_iterable st then Ok (OOrg d st) else Err EType.

(** core.py:732-745: how an element of a structure is read; an Organizer's structure is always
    iterable. *)
Fixpoint read_layout {L : Type} (o : obj L) : layout (obj L) :=
  match o with
  | OOrg d (OList l) => LOrg d (map read_layout l)
  | OOrg d (ORem k) => LOrgRem d k
  | OList l => LPat (PList l)
  | ORem k => LPat (PRem k)
  | OOther _ | OOrg _ _ => LLab o
  end.

(** `start` and `end`: a time; a pandas.Period; anything pandas.Period(...) does not take (None
    and NaT included). *)
Inductive bound : Type := BTime (t : Z) | BPer (p : period) | BBad.

(** core.py:207-209 pandas.period_range(start, end, freq) makes pandas.Period(start, freq): a
    Period of another frequency is converted by its end. *)
Definition bound_time (s : fstr) (b : bound) : res Z :=
  match b with
  | BTime t => Ok t
  | BPer p => if base_eqb (fbase (p_freq p)) (fbase (to_freq s)) && Pos.eqb (fmult (p_freq p)) (fmult (to_freq s))
              then Ok (p_start p) else Ok (p_end p)
  | BBad => Err EValue
  end.
(** core.py:198-223 _Frame(base_unit_freq, start, end); without base_unit_freq line 202 looks
    for kwargs['freq']. *)
Definition frame_any (f : Api.freq_arg) (start fin : bound) : res frame :=
  match f with
  | Api.FNone => Err EKey
  | Api.FBad => Err EValue
  | Api.FStr s => do t0 <- bound_time s start; do t1 <- bound_time s fin; mk_frame s t0 t1
  end.

(** `amendments`: omitted, a dictionary, an object without `items`. *)
Inductive amend_arg (L : Type) : Type :=
| AOmit | ADict (l : list (Api.value L * L)) | AOther.
Arguments AOmit {L}.
Arguments ADict {L} l.
Arguments AOther {L}.

(** core.py:893-916 get_ws_position of a key of any type; [nat] is the outcome for NaT. *)
Definition key_position {L : Type} (nat : res Z) (tl : timeline L) (v : Api.value L) : res Z :=
  do t <- Api.get_timestamp (Api.PVal v);
  match t with Some t => get_ws_position tl t | None => nat end.
(** core.py:1047-1060 *)
Fixpoint locate_keys {L : Type} (nat : res Z) (tl : timeline L) (am : list (Api.value L * L))
         (acc : list (Z * L)) : res (list (Z * L)) :=
  match am with
  | [] => Ok acc
  | (v, x) :: am' =>
      match key_position nat tl v with
      | Err EOutOfBounds => locate_keys nat tl am' acc
      | Err e => Err e
      | Ok p =>
          if existsb (fun q => fst q =? p) acc then Err EKey
          else locate_keys nat tl am' (acc ++ [(p, x)])%list
      end
  end.

(** Arguments of Timeboard(...); labels are objects. *)
Record setup (L : Type) : Type := mkSetup {
  u_freq : Api.freq_arg; u_start : bound; u_end : bound; u_layout : obj L;
  u_amend : amend_arg (obj L); u_sel : obj L -> bool; u_name : Z; u_ref_end : bool;
  u_default : obj L; u_wt : wt_source; u_num : obj L -> option Q
}.
Arguments mkSetup {L} u_freq u_start u_end u_layout u_amend u_sel u_name u_ref_end u_default u_wt u_num.
Arguments u_freq {L} s.
Arguments u_start {L} s.
Arguments u_end {L} s.
Arguments u_layout {L} s.
Arguments u_amend {L} s.
Arguments u_sel {L} s.
Arguments u_name {L} s.
Arguments u_ref_end {L} s.
Arguments u_default {L} s.
Arguments u_wt {L} s.
Arguments u_num {L} s.

(** timeboard.py:164-213 Timeboard.__init__ *)
Definition construct {L : Type} (nat : res Z) (u : setup L) (h : heap (obj L))
  : res (timeboard (obj L) * heap (obj L)) :=
  do org <- (match u_layout u with
             | OOrg _ _ => Ok (read_layout (u_layout u))
             | OList l => Ok (LOrg (DMarks []) [read_layout (OList l)])
             | ORem _ => Err EType
             | OOther _ => Err EType
             end);
  do am <- (match u_amend u with AOmit => Ok [] | ADict l => Ok l | AOther => Err EType end);
  match u_wt u with
  | WBad => Err EValue
  | _ =>
      do f <- frame_any (u_freq u) (u_start u) (u_end u);
      do th <- mk_timeline f org (u_ref_end u) (u_default u) h;
      do located <- locate_keys nat (fst th) am [];
      let tl := mkTl (tl_frame (fst th)) (tl_index (fst th)) (write_labels (tl_labels (fst th)) located)
                     (tl_band (fst th)) (tl_ref_end (fst th)) in
      let s := mk_schedule tl (u_name u) (u_sel u) in
      Ok (mkTb tl s [(u_name u, s)] (u_wt u) (u_num u), snd th)
  end.
