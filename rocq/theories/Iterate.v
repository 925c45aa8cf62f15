(** Iterate: layouts with iterators (generators, itertools.cycle(...), iter(...)) in the places of
    patterns and structures.  In this file [PRem k] and [LOrgRem d k] stand for iterator number [k]
    whatever it is; a RememberingPattern is one of them (core.py:1661-1717). *)
From Verif Require Import Base Civil Freq Frame Timeline Board.

(** What an iterator yields: the elements of a list and then StopIteration for ever, or elements
    without end; and how many of them were taken. *)
Inductive feed (L : Type) : Type :=
| Finite (l : list L)
| Endless (at_ : nat -> L).
Arguments Finite {L} l.
Arguments Endless {L} at_.
Definition iterator (L : Type) : Type := (feed L * nat)%type.
Definition feeds (L : Type) : Type := list (iterator L).

(** next(it); [None] is StopIteration *)
Definition it_next {L : Type} (it : iterator L) : option L * iterator L :=
  match it with
  | (Finite l, n) => match nth_error l n with Some x => (Some x, (Finite l, S n)) | None => (None, it) end
  | (Endless g, n) => (Some (g n), (Endless g, S n))
  end.

(** Missing iterators are empty. *)
Definition feed_get {L : Type} (fd : feeds L) (k : nat) : iterator L := nth k fd (Finite [], 0%nat).
Definition feed_next {L : Type} (fd : feeds L) (k : nat) : option L * feeds L :=
  let (x, it) := it_next (feed_get fd k) in (x, set_nth fd k it).

(** itertools.cycle(it) over iterator number [k]: the elements are saved while they are read
    ([cy_rest] is [None]); after StopIteration the saved ones are repeated. *)
Record cyc (L : Type) : Type := mkCyc { cy_saved : list L; cy_rest : option (list L) }.
Arguments mkCyc {L} cy_saved cy_rest.
Arguments cy_saved {L} c.
Arguments cy_rest {L} c.
Definition new_cyc {L : Type} : cyc L := mkCyc [] None.
Definition repeat_saved {L : Type} (saved rest : list L) : option L * cyc L :=
  match rest with
  | x :: rest' => (Some x, mkCyc saved (Some rest'))
  | [] => match saved with
          | [] => (None, mkCyc [] (Some []))
          | x :: rest' => (Some x, mkCyc saved (Some rest'))
          end
  end.
Definition cyc_next {L : Type} (k : nat) (c : cyc L) (fd : feeds L) : option L * cyc L * feeds L :=
  match cy_rest c with
  | None =>
      match feed_next fd k with
      | (Some x, fd') => (Some x, mkCyc (cy_saved c ++ [x]) None, fd')
      | (None, fd') => (repeat_saved (cy_saved c) [], fd')
      end
  | Some rest => (repeat_saved (cy_saved c) rest, fd)
  end.

(** [n] times next(...); [None] if StopIteration is raised. *)
Fixpoint cyc_times {L : Type} (k : nat) (n : nat) (c : cyc L) (fd : feeds L) : option (list L) * feeds L :=
  match n with
  | O => (Some [], fd)
  | S m =>
      match cyc_next k c fd with
      | (None, _, fd') => (None, fd')
      | (Some x, c', fd') =>
          match cyc_times k m c' fd' with
          | (Some l, fd'') => (Some (x :: l), fd'')
          | (None, fd'') => (None, fd'')
          end
      end
  end.

(** core.py:51-85, 662-702 __apply_pattern with an iterator: `dropwhile` takes the skipped elements
    from the cycle, then one is taken for every base unit; StopIteration leaves the labels. *)
Definition apply_iterator {L : Type} (k : nat) (s : span) (st : org_state L) (fd : feeds L)
  : res (org_state L * feeds L) :=
  if s_left s <? 0 then Err EOutOfBounds
  else
    match cyc_times k (Z.to_nat (s_left s) + span_len s) new_cyc fd with
    | (Some l, fd') =>
        Ok (mkSt (splice (st_labels st) (s_first s) (skipn (Z.to_nat (s_left s)) l)) (st_mask st) (st_heap st), fd')
    | (None, fd') => Ok (st, fd')
    end.

(** core.py:732-745 the loop over spans with an iterator of labels as `structure` *)
Fixpoint run_iterator {L : Type} (k : nat) (c : cyc L) (spans : list span) (st : org_state L) (fd : feeds L)
  : res (org_state L * feeds L) :=
  match spans with
  | [] => Ok (st, fd)
  | s :: rest =>
      match cyc_next k c fd with
      | (None, _, fd') => Ok (st, fd')
      | (Some x, c', fd') => do st' <- apply_label x s st; run_iterator k c' rest st' fd'
      end
  end.

(** /repo/timeboard/core.py:704-758 __organize *)
Fixpoint organize_it {L : Type} (f : frame) (ly : layout L) (s : span) (sf : org_state L * feeds L)
  : res (org_state L * feeds L) :=
  match ly with
  | LOrg d structure =>
      do spans <- partition f d s;
      run_cycle (map (organize_it f) structure) (map (organize_it f) structure) spans sf
  | LOrgRem d k =>
      do spans <- partition f d s;
      run_iterator k new_cyc spans (fst sf) (snd sf)
  | LPat (PRem k) => apply_iterator k s (fst sf) (snd sf)
  | LPat (PList l) => do st <- apply_pattern (PList l) s (fst sf); Ok (st, snd sf)
  | LLab x => do st <- apply_label x s (fst sf); Ok (st, snd sf)
  end.

(** /repo/timeboard/core.py:616-660 _Timeline.__init__ *)
Definition mk_timeline_it {L : Type} (f : frame) (org : layout L) (ref_end : bool) (dflt : L)
           (fd : feeds L) : res (timeline L * feeds L) :=
  let n := Z.to_nat (fr_len f) in
  let st0 := mkSt (repeat dflt n) (repeat true n) [] in
  do sf <- organize_it f org (mkSpan 0 (fr_len f - 1) 0 0) (st0, fd);
  let st := fst sf in
  let idx := nonzero (st_mask st) in
  Ok (mkTl f idx (take_at (st_labels st) idx) (masked_counter 0 0 (st_mask st)) ref_end, snd sf).

(** /repo/timeboard/timeboard.py:164-213 Timeboard.__init__; an iterator has no len (176). *)
Definition build_it {L : Type} (a : tb_args L) (fd : feeds L) : res (timeboard L * feeds L) :=
  do org <- top_organizer (a_layout a);
  match a_wt a with
  | WBad => Err EValue
  | _ =>
      do f <- mk_frame (a_freq a) (a_start a) (a_end a);
      do th <- mk_timeline_it f org (a_ref_end a) (a_default a) fd;
      do tl <- amend (fst th) false (a_amendments a);
      let s := mk_schedule tl (a_name a) (a_sel a) in
      Ok (mkTb tl s [(a_name a, s)] (a_wt a) (a_num a), snd th)
  end.
