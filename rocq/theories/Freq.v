(** Freq: pandas period frequencies and the frequency check of timeboard.
    Time is an integer number of nanoseconds since 1970-01-01 00:00 (pandas.Timestamp). *)
From Verif Require Import Base Civil.

Definition NS_MICRO : Z := 1000.
Definition NS_MILLI : Z := 1000000.
Definition NS_SEC  : Z := 1000000000.
Definition NS_MIN  : Z := 60000000000.
Definition NS_HOUR : Z := 3600000000000.
Definition NS_DAY  : Z := 86400000000000.

(** /repo/timeboard/core.py:22  SMALLEST_TIMEDELTA = 1 second *)
Definition SMALLEST_TIMEDELTA : Z := NS_SEC.

(** Calendar period types.  [BW d]: weeks ending on weekday [d] (Mon=0..Sun=6);
    [BQ m], [BA m]: quarters / years ending with month [m] (1..12); [BL], [BU], [BN]: milli-,
    micro- and nanoseconds. *)
Inductive base : Type :=
| BS | BT | BH | BD | BW (d : Z) | BM | BQ (m : Z) | BA (m : Z) | BL | BU | BN.

(** Start time of the period with ordinal [o] (models pandas.Period.start_time). *)
Definition pstart (b : base) (o : Z) : Z :=
  match b with
  | BS => o * NS_SEC
  | BT => o * NS_MIN
  | BH => o * NS_HOUR
  | BD => o * NS_DAY
  | BW d => (7 * o + (d - 2)) * NS_DAY
  | BM => month_start o * NS_DAY
  | BQ m => month_start (3 * o + (m - 12)) * NS_DAY
  | BA m => month_start (12 * o + (m - 12)) * NS_DAY
  | BL => o * NS_MILLI
  | BU => o * NS_MICRO
  | BN => o
  end.

(** Ordinal of the period containing a timestamp (models pandas.Period(ts, freq)). *)
Definition pord (b : base) (t : Z) : Z :=
  match b with
  | BS => t / NS_SEC
  | BT => t / NS_MIN
  | BH => t / NS_HOUR
  | BD => t / NS_DAY
  | BW d => (t / NS_DAY - (d - 2)) / 7
  | BM => month_of_day (t / NS_DAY)
  | BQ m => (month_of_day (t / NS_DAY) - (m - 12)) / 3
  | BA m => (month_of_day (t / NS_DAY) - (m - 12)) / 12
  | BL => t / NS_MILLI
  | BU => t / NS_MICRO
  | BN => t
  end.

(** A pandas frequency: [fmult] consecutive periods of type [fbase] taken as one. *)
Record freq : Type := mkFreq { fbase : base; fmult : positive }.

Definition base_eqb (a b : base) : bool :=
  match a, b with
  | BS, BS | BT, BT | BH, BH | BD, BD | BM, BM | BL, BL | BU, BU | BN, BN => true
  | BW x, BW y | BQ x, BQ y | BA x, BA y => x =? y
  | _, _ => false
  end.

(** Names of units of fixed length: 'D', 'H', 'T', 'min', 'S', 'L', 'ms', 'U', 'us', 'N', 'ns'. *)
Inductive tick : Type := KD | KH | KT | KMin | KS | KL | KMs | KU | KUs | KN | KNs.

(** A frequency string as the user writes it: optional digits, then an alias.
    Kept apart from [freq] because /repo/timeboard/core.py:88-156 compares strings
    ('W' and 'W-SUN' are different strings for the same frequency).
    [AlMore k rest]: a string of several parts, as '1H30T' ([rest] is the part '30T'); pandas adds
    only units of fixed length. *)
Inductive alias : Type :=
| AlS | AlT | AlMin | AlH | AlD
| AlW (d : option Z) | AlM | AlQ (m : option Z) | AlA (m : option Z) | AlY
| AlL | AlMs | AlU | AlUs | AlN | AlNs
| AlMore (k : tick) (rest : list (positive * tick)).

Record fstr : Type := mkFstr { fdigits : option positive; falias : alias }.

Definition opt_or {A : Type} (o : option A) (d : A) : A :=
  match o with Some a => a | None => d end.

Definition tick_alias (k : tick) : alias :=
  match k with
  | KD => AlD | KH => AlH | KT => AlT | KMin => AlMin | KS => AlS
  | KL => AlL | KMs => AlMs | KU => AlU | KUs => AlUs | KN => AlN | KNs => AlNs
  end.
Definition tick_base (k : tick) : base :=
  match k with
  | KD => BD | KH => BH | KT | KMin => BT | KS => BS | KL | KMs => BL | KU | KUs => BU | KN | KNs => BN
  end.

(** pandas' reading of an alias: 'W' = 'W-SUN', 'Q' = 'Q-DEC', 'A' = 'Y' = 'A-DEC', 'ms' = 'L',
    'us' = 'U', 'ns' = 'N'; of several parts, the first. *)
Definition alias_base (a : alias) : base :=
  match a with
  | AlS => BS | AlT => BT | AlMin => BT | AlH => BH | AlD => BD
  | AlW d => BW (opt_or d 6)
  | AlM => BM
  | AlQ m => BQ (opt_or m 12)
  | AlA m => BA (opt_or m 12)
  | AlY => BA 12
  | AlL => BL | AlMs => BL | AlU => BU | AlUs => BU | AlN => BN | AlNs => BN
  | AlMore k _ => tick_base k
  end.

(** Length of a unit of fixed length. *)
Definition tick_ns (b : base) : Z :=
  match b with
  | BD => NS_DAY | BH => NS_HOUR | BT => NS_MIN | BS => NS_SEC | BL => NS_MILLI | BU => NS_MICRO | _ => 1
  end.
(** pandas.tseries.offsets.delta_to_tick(delta): the longest unit that measures it. *)
Definition delta_to_tick (d : Z) : freq :=
  let u := if d mod NS_DAY =? 0 then BD
           else if d mod NS_HOUR =? 0 then BH
           else if d mod NS_MIN =? 0 then BT
           else if d mod NS_SEC =? 0 then BS
           else if d mod NS_MILLI =? 0 then BL
           else if d mod NS_MICRO =? 0 then BU else BN in
  mkFreq u (Z.to_pos (d / tick_ns u)).
(** pandas.tseries.offsets.Tick.__add__: units of one kind are counted, others are measured. *)
Definition add_tick (f : freq) (p : positive * tick) : freq :=
  let b := tick_base (snd p) in
  if base_eqb (fbase f) b then mkFreq (fbase f) (fmult f + fst p)
  else delta_to_tick (Zpos (fmult f) * tick_ns (fbase f) + Zpos (fst p) * tick_ns b).

(** pandas.tseries.frequencies.to_offset(string): the parts are added from left to right. *)
Definition to_freq (s : fstr) : freq :=
  let first := mkFreq (alias_base (falias s)) (opt_or (fdigits s) 1%positive) in
  match falias s with
  | AlMore _ rest => fold_left add_tick rest first
  | _ => first
  end.

Definition opt_eqb (a b : option Z) : bool :=
  match a, b with
  | Some x, Some y => x =? y
  | None, None => true
  | _, _ => false
  end.

(** Equality of the alias parts as strings; only strings of one part are compared. *)
Definition alias_eqb (a b : alias) : bool :=
  match a, b with
  | AlS, AlS | AlT, AlT | AlMin, AlMin | AlH, AlH | AlD, AlD | AlM, AlM | AlY, AlY => true
  | AlL, AlL | AlMs, AlMs | AlU, AlU | AlUs, AlUs | AlN, AlN | AlNs, AlNs => true
  | AlW x, AlW y | AlQ x, AlQ y | AlA x, AlA y => opt_eqb x y
  | _, _ => false
  end.

(** pandas.tseries.frequencies.is_subperiod(source, target) on un-multiplied strings
    (pandas 1.x; reached through /repo/timeboard/utils.py:12-15).  A string with digits
    is in none of pandas' sets, see [is_subperiod], nor is one of several parts. *)
Definition is_subperiod_alias (src tgt : alias) : bool :=
  let nano := match src with AlN => true | _ => false end in
  let micro := match src with AlU => true | _ => nano end in
  let milli := match src with AlL => true | _ => micro end in
  let second := match src with AlS => true | _ => milli end in
  let minute := match src with AlT => true | _ => second end in
  let fine := match src with AlH => true | _ => minute end in
  match tgt with
  | AlA m =>
      match src with
      | AlQ m' => (opt_or m' 12) mod 3 =? (opt_or m 12) mod 3
      | AlD | AlM => true
      | _ => fine
      end
  | AlQ _ => match src with AlD | AlM => true | _ => fine end
  | AlM => match src with AlD => true | _ => fine end
  | AlW _ => match src with AlD => true | _ => fine || alias_eqb src tgt end
  | AlD => match src with AlD => true | _ => fine end
  | AlH => fine
  | AlT => minute
  | AlS => second
  | AlL => milli
  | AlU => micro
  | AlN => nano
  | AlMin | AlY | AlMs | AlUs | AlNs | AlMore _ _ => false
  end.

Definition is_subperiod (src tgt : fstr) : bool :=
  match fdigits src, fdigits tgt with
  | None, None => is_subperiod_alias (falias src) (falias tgt)
  | _, _ => false
  end.

(** The regular expression r"(^\d* )([A-Z-]+)" of core.py:125-126 matches every alias
    but the lower-case ones.  It is not anchored at the end: of several parts it sees the first. *)
Definition re_match (s : fstr) : option (positive * alias) :=
  match match falias s with AlMore k _ => tick_alias k | a => a end with
  | AlMin | AlMs | AlUs | AlNs => None
  | a => Some (opt_or (fdigits s) 1%positive, a)
  end.

(** /repo/timeboard/core.py:88-156 _check_groupby_freq(base_unit_freq, group_by_freq).
    Every [fstr] is a valid frequency, so the ValueError branch (124-127) is not
    reached.  The recursive call (145-147) has both factors stripped, hence is either
    decided by is_subperiod or False (137-139).
    Strings with digits on either side are in none of pandas' sets for is_subperiod;
    this includes the multiplied target with an annual/quarterly/weekly alias, whose
    string starts with a digit. *)
Definition check_groupby_freq (bu gb : fstr) : bool :=
  if is_subperiod bu gb then true
  else
    match re_match bu, re_match gb with
    | Some (bf, ba), Some (gf, ga) =>
        if (Pos.eqb bf 1) && (Pos.eqb gf 1) then false
        else if alias_eqb ba ga then Zpos gf mod Zpos bf =? 0
        else if Pos.eqb bf 1 then is_subperiod_alias ba ga
        else false
    | _, _ => false
    end.

(** Start times of a frequency's period. *)
Definition fstart (f : freq) (o : Z) : Z := pstart (fbase f) o.

(** Timestamp of '01 Jul 2016'. *)
Definition jul2016 : Z := date 2016 7 1 * NS_DAY.

(** /repo/timeboard/core.py:44-48 get_freq_delta(freq): the distance between the starts
    of two consecutive periods, the first containing 01 Jul 2016. *)
Definition get_freq_delta (f : freq) : Z :=
  let o := pord (fbase f) jul2016 in
  pstart (fbase f) (o + Zpos (fmult f)) - pstart (fbase f) o.
