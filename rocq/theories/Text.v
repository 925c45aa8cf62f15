(** Text: what str and repr show of workshifts, intervals and timeboards
    (/repo/timeboard/workshift.py:92-118, interval.py:170-192, 1040-1048, timeboard.py:231-239).

    The text is kept as a list of its parts, not as characters: how an integer, the name of a
    schedule, a frequency and a Period are written is left to Python and pandas.  str adds a
    table, kept as the rows of the dataframe. *)
From Verif Require Import Base Civil Freq Frame Timeline Board.
From Coq Require Import String.
Open Scope Z_scope.
Open Scope list_scope.

Inductive token : Type :=
| TText (s : string) | TNum (n : Z) | TSched (name : Z) | TFreq (f : fstr) | TPeriod (b : base) (o : Z).

(** workshift.py:92-98, interval.py:170-176 _repr_schedule_label *)
Definition schedule_label {L : Type} (tb : timeboard L) (s : schedule L) : list token :=
  if sc_name s =? sc_name (tb_default tb) then [] else [TText ", "; TSched (sc_name s)].
(** The base unit of the timeboard that contains [t], as a pandas.Period *)
Definition unit_text {L : Type} (tb : timeboard L) (t : Z) : token :=
  let b := fr_base (tl_frame (tb_tl tb)) in TPeriod b (pord b t).

(** workshift.py:105-113 Workshift.compact_str *)
Definition ws_compact {L : Type} (tb : timeboard L) (w : workshift L) : res (list token) :=
  do n <- ws_duration (tb_tl tb) (ws_loc w);
  do t <- ws_start_time (tb_tl tb) (ws_loc w);
  Ok ((if n =? 1 then [] else [TNum n; TText "x"])
      ++ [TText "'"; TFreq (fr_str (tl_frame (tb_tl tb))); TText "' at "; unit_text tb t]).
(** workshift.py:100-103 Workshift.__repr__ *)
Definition ws_repr {L : Type} (tb : timeboard L) (w : workshift L) : res (list token) :=
  do c <- ws_compact tb w;
  Ok ([TText "Workshift("; TNum (ws_loc w)] ++ schedule_label tb (ws_sched w) ++ [TText ") of "] ++ c).
(** workshift.py:115-118 Workshift.__str__ *)
Definition ws_str {L : Type} (tb : timeboard L) (w : workshift L) : res (list token * list (df_row L * list (Z * bool))) :=
  do r <- ws_repr tb w; do d <- tb_dataframe tb (ws_loc w) (ws_loc w); Ok (r, d).

(** `{!r}` of the pair of positions *)
Definition locs_text {L : Type} (iv : interval L) : list token :=
  [TText "("; TNum (iv_a iv); TText ", "; TNum (iv_b iv); TText ")"].
(** interval.py:178-186 Interval.compact_str, 188-189 __repr__; of a void interval 1040-1045 *)
Definition iv_repr {L : Type} (tb : timeboard L) (iv : interval L) : res (list token) :=
  let s := schedule_label tb (iv_sched iv) in
  if iv_void iv then Ok ([TText "Interval ("] ++ locs_text iv ++ s ++ [TText "): void [0]"])
  else
    do a <- new_workshift tb (iv_a iv) (tb_default tb); do ca <- ws_compact tb a;
    do b <- new_workshift tb (iv_b iv) (tb_default tb); do cb <- ws_compact tb b;
    Ok ([TText "Interval("] ++ locs_text iv ++ s ++ [TText "): "] ++ ca ++ [TText " -> "] ++ cb
        ++ [TText " ["; TNum (iv_length iv); TText "]"]).
(** interval.py:191-192 Interval.__str__, 1047-1048 *)
Definition iv_str {L : Type} (tb : timeboard L) (iv : interval L)
  : res (list token * option (list (df_row L * list (Z * bool)))) :=
  do r <- iv_repr tb iv;
  if iv_void iv then Ok (r, None) else do d <- iv_dataframe tb iv; Ok (r, Some d).

(** timeboard.py:231-236 Timeboard.compact_str: the first and the last base unit *)
Definition tb_compact {L : Type} (tb : timeboard L) : res (list token) :=
  let f := tl_frame (tb_tl tb) in
  do i <- fr_get f 0; do j <- fr_get f (-1);
  Ok [TText "Timeboard of '"; TFreq (fr_str f); TText "': "; TPeriod (fr_base f) (unit_ord f i); TText " -> ";
      TPeriod (fr_base f) (unit_ord f j)].
