(** IterMarks: organizers whose `marks` are iterators (generators ...), which can be read only once. *)
From Verif Require Import Base Civil Freq Frame Timeline Board.

(** /repo/timeboard/core.py:1343-1362: `marks` is kept as it is given; [MIter k] is iterator number [k]
    (the same object may be given to several organizers). *)
Inductive mdivider : Type :=
| MDiv (d : divider)
| MIter (k : nat).

(** Layouts as in Timeline.v with such organizers. *)
Inductive mlayout (L : Type) : Type :=
| MOrg (d : mdivider) (structure : list (mlayout L))
| MOrgRem (d : mdivider) (k : nat)
| MPat (p : pattern L)
| MLab (x : L).
Arguments MOrg {L} d structure.
Arguments MOrgRem {L} d k.
Arguments MPat {L} p.
Arguments MLab {L} x.

(** The points in time that are still to come from each iterator, which are finitely many
    (the list comprehension of core.py:547 would not end otherwise). *)
Definition mfeeds : Type := list (list Z).
Definition still {A : Type} (mf : list (list A)) (k : nat) : list A := nth k mf [].

(** core.py:726-730, 515-547: `[get_timestamp(m) for m in marks]` reads an iterator to its end. *)
Definition partition_iter (f : frame) (d : mdivider) (s : span) (mf : mfeeds) : res (list span) * mfeeds :=
  match d with
  | MDiv d => (partition f d s, mf)
  | MIter k => (partition_at_marks f s (still mf k), set_nth mf k [])
  end.

(** core.py:732,739: the loop over spans; an exception leaves the iterators as they are then. *)
Fixpoint run_marks {S F : Type} (all cur : list (span -> S * F -> res S * F)) (spans : list span) (sf : S * F)
  : res S * F :=
  match spans with
  | [] => (Ok (fst sf), snd sf)
  | s :: rest =>
      match cur with
      | act :: cur' =>
          match act s sf with
          | (Ok st, mf) => run_marks all cur' rest (st, mf)
          | (Err e, mf) => (Err e, mf)
          end
      | [] =>
          match all with
          | [] => (Ok (fst sf), snd sf)
          | act :: all' =>
              match act s sf with
              | (Ok st, mf) => run_marks all all' rest (st, mf)
              | (Err e, mf) => (Err e, mf)
              end
          end
      end
  end.

(** /repo/timeboard/core.py:704-758 __organize *)
Fixpoint organize_marks {L : Type} (f : frame) (ly : mlayout L) (s : span) (sf : org_state L * mfeeds)
  : res (org_state L) * mfeeds :=
  match ly with
  | MOrg d structure =>
      match partition_iter f d s (snd sf) with
      | (Ok spans, mf) => run_marks (map (organize_marks f) structure) (map (organize_marks f) structure) spans (fst sf, mf)
      | (Err e, mf) => (Err e, mf)
      end
  | MOrgRem d k =>
      match partition_iter f d s (snd sf) with
      | (Ok spans, mf) => (run_remembering k spans (fst sf), mf)
      | (Err e, mf) => (Err e, mf)
      end
  | MPat p => (apply_pattern p s (fst sf), snd sf)
  | MLab x => (apply_label x s (fst sf), snd sf)
  end.

(** core.py:616-660 _Timeline.__init__ *)
Definition mk_timeline_marks {L : Type} (f : frame) (org : mlayout L) (ref_end : bool) (dflt : L) (h : heap L) (mf : mfeeds)
  : res (timeline L * heap L) * mfeeds :=
  let n := Z.to_nat (fr_len f) in
  match organize_marks f org (mkSpan 0 (fr_len f - 1) 0 0) (mkSt (repeat dflt n) (repeat true n) h, mf) with
  | (Ok st, mf') =>
      let idx := nonzero (st_mask st) in
      (Ok (mkTl f idx (take_at (st_labels st) idx) (masked_counter 0 0 (st_mask st)) ref_end, st_heap st), mf')
  | (Err e, mf') => (Err e, mf')
  end.

(** timeboard.py:173-186 *)
Definition top_marks {L : Type} (ly : mlayout L) : res (mlayout L) :=
  match ly with
  | MOrg _ _ | MOrgRem _ _ => Ok ly
  | MPat (PList l) => Ok (MOrg (MDiv (DMarks [])) [MPat (PList l)])
  | MPat (PRem _) => Err EType
  | MLab _ => Err EType
  end.

(** /repo/timeboard/timeboard.py:164-213 Timeboard.__init__ with the layout [ly] in place of [a_layout a]. *)
Definition build_marks {L : Type} (a : tb_args L) (ly : mlayout L) (h : heap L) (mf : mfeeds)
  : res (timeboard L * heap L) * mfeeds :=
  match top_marks ly with
  | Err e => (Err e, mf)
  | Ok org =>
      match a_wt a with
      | WBad => (Err EValue, mf)
      | _ =>
          match mk_frame (a_freq a) (a_start a) (a_end a) with
          | Err e => (Err e, mf)
          | Ok f =>
              match mk_timeline_marks f org (a_ref_end a) (a_default a) h mf with
              | (Err e, mf') => (Err e, mf')
              | (Ok th, mf') =>
                  (do tl <- amend (fst th) false (a_amendments a);
                   let s := mk_schedule tl (a_name a) (a_sel a) in
                   Ok (mkTb tl s [(a_name a, s)] (a_wt a) (a_num a), snd th), mf')
              end
          end
      end
  end.
