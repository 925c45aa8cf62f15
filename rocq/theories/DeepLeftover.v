(** DeepLeftover: the state in which iterators of organizers and patterns (Deep.v) are left by the
    construction of a timeboard, whether it succeeds or raises an exception on the way.  [build_deep]
    gives them only together with a timeboard. *)
From Verif Require Import Base Civil Freq Frame Timeline Board Iterate Deep ItLeftover.

(** core.py:732-745 the loop over spans with iterator [k] as `structure` ([run_deep]); an exception ends it. *)
Fixpoint leave_run {L : Type} (act : layout L -> span -> feeds (layout L) -> feeds (layout L) * option err)
  (k : nat) (c : cyc (layout L)) (spans : list span) (fd : feeds (layout L)) : feeds (layout L) * option err :=
  match spans with
  | [] => (fd, None)
  | s :: rest =>
      match cyc_next k c fd with
      | (None, _, fd') => (fd', None)
      | (Some e, c', fd') =>
          match act e s fd' with
          | (fd'', None) => leave_run act k c' rest fd''
          | raised => raised
          end
      end
  end.

(** /repo/timeboard/core.py:662-758 __organize and __apply_pattern; [n] as in [organize_deep] *)
Fixpoint leave_deep {L : Type} (n : nat) (f : frame) (ly : layout L) (s : span) (fd : feeds (layout L))
  : feeds (layout L) * option err :=
  match ly with
  | LOrg d structure =>
      match n with
      | O => (fd, Some ERuntime)
      | S m =>
          match partition f d s with
          | Err e => (fd, Some e)
          | Ok spans => leave_cycle_it (map (leave_deep m f) structure) (map (leave_deep m f) structure) spans fd
          end
      end
  | LOrgRem d k =>
      match n with
      | O => (fd, Some ERuntime)
      | S m =>
          match partition f d s with
          | Err e => (fd, Some e)
          | Ok spans => leave_run (leave_deep m f) k new_cyc spans fd
          end
      end
  | LPat p =>
      if s_left s <? 0 then (fd, Some EOutOfBounds)
      else
        match p with
        | PList _ => (fd, None)
        | PRem k => (snd (cyc_times k (Z.to_nat (s_left s) + span_len s) new_cyc fd), None)
        end
  | LLab _ => (fd, None)
  end.

(** /repo/timeboard/timeboard.py:164-213 Timeboard.__init__: what comes before and after the
    making of the timeline takes nothing from the iterators. *)
Definition leftover_deep {L : Type} (n : nat) (a : tb_args L) (fd : feeds (layout L)) : feeds (layout L) :=
  match top_organizer (a_layout a) with
  | Err _ => fd
  | Ok org =>
      match a_wt a with
      | WBad => fd
      | _ =>
          match mk_frame (a_freq a) (a_start a) (a_end a) with
          | Err _ => fd
          | Ok f => fst (leave_deep n f org (mkSpan 0 (fr_len f - 1) 0 0) fd)
          end
      end
  end.
