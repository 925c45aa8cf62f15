(** Deep: iterators (generators, RememberingPatterns ...) whose elements are organizers or patterns, in
    the place of structures.  As in Iterate.v [PRem k] and [LOrgRem d k] stand for iterator number [k];
    an element is written as a layout: [LLab x] is the label [x]. *)
From Verif Require Import Base Civil Freq Frame Timeline Board Iterate.

(** In a pattern any element is a label; [obj] makes a label of an organizer or a pattern object
    (simplification: not of a list, which numpy would unpack, core.py:697-700). *)
Definition as_label {L : Type} (obj : layout L -> L) (e : layout L) : L :=
  match e with LLab x => x | _ => obj e end.

(** core.py:51-85, 662-702 __apply_pattern with an iterator *)
Definition apply_deep {L : Type} (obj : layout L -> L) (k : nat) (s : span) (st : org_state L) (fd : feeds (layout L))
  : res (org_state L * feeds (layout L)) :=
  if s_left s <? 0 then Err EOutOfBounds
  else
    match cyc_times k (Z.to_nat (s_left s) + span_len s) new_cyc fd with
    | (Some l, fd') =>
        Ok (mkSt (splice (st_labels st) (s_first s) (skipn (Z.to_nat (s_left s)) (map (as_label obj) l)))
                 (st_mask st) (st_heap st), fd')
    | (None, fd') => Ok (st, fd')
    end.

(** core.py:732-745 the loop over spans with iterator [k] as `structure`; [act] is what is done with an
    element, which may take from iterators itself. *)
Fixpoint run_deep {L : Type} (act : layout L -> span -> org_state L * feeds (layout L) -> res (org_state L * feeds (layout L)))
  (k : nat) (c : cyc (layout L)) (spans : list span) (st : org_state L) (fd : feeds (layout L))
  : res (org_state L * feeds (layout L)) :=
  match spans with
  | [] => Ok (st, fd)
  | s :: rest =>
      match cyc_next k c fd with
      | (None, _, fd') => Ok (st, fd')
      | (Some e, c', fd') => do sf <- act e s (st, fd'); run_deep act k c' rest (fst sf) (snd sf)
      end
  end.

(** /repo/timeboard/core.py:704-758 __organize.  An iterator may yield organizers with the same iterator
    again and again; [n] is the depth of calls at which Python raises RecursionError (a RuntimeError). *)
Fixpoint organize_deep {L : Type} (obj : layout L -> L) (n : nat) (f : frame) (ly : layout L) (s : span)
  (sf : org_state L * feeds (layout L)) : res (org_state L * feeds (layout L)) :=
  match ly with
  | LOrg d structure =>
      match n with
      | O => Err ERuntime
      | S m =>
          do spans <- partition f d s;
          run_cycle (map (organize_deep obj m f) structure) (map (organize_deep obj m f) structure) spans sf
      end
  | LOrgRem d k =>
      match n with
      | O => Err ERuntime
      | S m =>
          do spans <- partition f d s;
          run_deep (organize_deep obj m f) k new_cyc spans (fst sf) (snd sf)
      end
  | LPat (PRem k) => apply_deep obj k s (fst sf) (snd sf)
  | LPat (PList l) => do st <- apply_pattern (PList l) s (fst sf); Ok (st, snd sf)
  | LLab x => do st <- apply_label x s (fst sf); Ok (st, snd sf)
  end.

(** /repo/timeboard/core.py:616-660 _Timeline.__init__ *)
Definition mk_timeline_deep {L : Type} (obj : layout L -> L) (n : nat) (f : frame) (org : layout L) (ref_end : bool) (dflt : L)
           (fd : feeds (layout L)) : res (timeline L * feeds (layout L)) :=
  let len := Z.to_nat (fr_len f) in
  let st0 := mkSt (repeat dflt len) (repeat true len) [] in
  do sf <- organize_deep obj n f org (mkSpan 0 (fr_len f - 1) 0 0) (st0, fd);
  let st := fst sf in
  let idx := nonzero (st_mask st) in
  Ok (mkTl f idx (take_at (st_labels st) idx) (masked_counter 0 0 (st_mask st)) ref_end, snd sf).

(** /repo/timeboard/timeboard.py:164-213 Timeboard.__init__ *)
Definition build_deep {L : Type} (obj : layout L -> L) (n : nat) (a : tb_args L) (fd : feeds (layout L))
  : res (timeboard L * feeds (layout L)) :=
  do org <- top_organizer (a_layout a);
  match a_wt a with
  | WBad => Err EValue
  | _ =>
      do f <- mk_frame (a_freq a) (a_start a) (a_end a);
      do th <- mk_timeline_deep obj n f org (a_ref_end a) (a_default a) fd;
      do tl <- amend (fst th) false (a_amendments a);
      let s := mk_schedule tl (a_name a) (a_sel a) in
      Ok (mkTb tl s [(a_name a, s)] (a_wt a) (a_num a), snd th)
  end.
