(** Range: the frame with timestamps of 64 bits, /repo/timeboard/core.py:198-245.  Frame.v has
    unbounded times.  A pandas.Timestamp is a number of nanoseconds that fits in 64 bits (the least
    one stands for NaT).  What the start of a period outside of the range gives depends on pandas:
    [checked] (0.24 and later) raises OutOfBoundsDatetime, which is a ValueError, otherwise the number
    wraps around.  Not modelled: the frame of nanoseconds at the last nanosecond of the range, where
    the wrapped number is NaT; times of markers and queries outside of the range. *)
From Verif Require Import Base Civil Freq Frame.

Definition TS_MIN : Z := - 2 ^ 63 + 1.
Definition TS_MAX : Z := 2 ^ 63 - 1.
Definition wrap (t : Z) : Z := (t + 2 ^ 63) mod 2 ^ 64 - 2 ^ 63.
Definition stamp (checked : bool) (t : Z) : res Z :=
  if (TS_MIN <=? t) && (t <=? TS_MAX) then Ok t else if checked then Err EValue else Ok (wrap t).

(** Period.start_time, Period.end_time (the start of the next one less 1 ns) of base unit [i] *)
Definition start_stamp (checked : bool) (f : frame) (i : Z) : res Z := stamp checked (unit_start f i).
Definition end_stamp (checked : bool) (f : frame) (i : Z) : res Z :=
  rmap (fun t => t - 1) (stamp checked (unit_start f (i + 1))).
(** frame.to_timestamp(how='start'), core.py:222 *)
Definition start_stamps (checked : bool) (f : frame) : res (list Z) :=
  mapM (start_stamp checked f) (zrange 0 (Z.to_nat (fr_len f))).

(** core.py:198-223 *)
Definition frame_in_range (checked : bool) (s : fstr) (t0 t1 : Z) : res frame :=
  do f <- mk_frame s t0 t1;
  do a <- start_stamp checked f 0;
  do b <- start_stamp checked f (fr_len f - 1);
  if b <? a then Err ERuntime
  else do _ <- start_stamps checked f; Ok f.

(** core.py:237-245 (for a frame whose start times are ascending, as searchsorted needs) *)
Definition loc_in_range (checked : bool) (f : frame) (t : Z) : res Z :=
  do e <- end_stamp checked f (fr_len f - 1);
  if e <? t then Err EKey
  else
    do s <- start_stamp checked f 0;
    if t <? s then Err EKey
    else do starts <- start_stamps checked f; Ok (ss_right starts t - 1).
