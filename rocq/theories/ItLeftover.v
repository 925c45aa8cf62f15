(** ItLeftover: the state in which iterators of labels (Iterate.v) are left by the construction of a
    timeboard, whether it succeeds or raises an exception on the way.  [build_it] gives them only
    together with a timeboard. *)
From Verif Require Import Base Civil Freq Frame Timeline Board Iterate.

(** core.py:732,739: the loop of __organize over the spans ([run_cycle]); an exception ends it. *)
Fixpoint leave_cycle_it {F : Type} (all cur : list (span -> F -> F * option err))
         (spans : list span) (fd : F) : F * option err :=
  match spans with
  | [] => (fd, None)
  | s :: rest =>
      match cur with
      | act :: cur' =>
          match act s fd with
          | (fd', None) => leave_cycle_it all cur' rest fd'
          | raised => raised
          end
      | [] => match all with
              | [] => (fd, None)
              | act :: all' =>
                  match act s fd with
                  | (fd', None) => leave_cycle_it all all' rest fd'
                  | raised => raised
                  end
              end
      end
  end.

(** core.py:732-745 the loop with an iterator as the structure ([run_iterator]) *)
Fixpoint leave_iterator {L : Type} (k : nat) (c : cyc L) (spans : list span) (fd : feeds L) : feeds L :=
  match spans with
  | [] => fd
  | _ :: rest =>
      match cyc_next k c fd with
      | (None, _, fd') => fd'
      | (Some _, c', fd') => leave_iterator k c' rest fd'
      end
  end.

(** /repo/timeboard/core.py:662-758 __organize and __apply_pattern *)
Fixpoint leave_it {L : Type} (f : frame) (ly : layout L) (s : span) (fd : feeds L) : feeds L * option err :=
  match ly with
  | LOrg d structure =>
      match partition f d s with
      | Err e => (fd, Some e)
      | Ok spans => leave_cycle_it (map (leave_it f) structure) (map (leave_it f) structure) spans fd
      end
  | LOrgRem d k =>
      match partition f d s with
      | Err e => (fd, Some e)
      | Ok spans => (leave_iterator k new_cyc spans fd, None)
      end
  | LPat p =>
      if s_left s <? 0 then (fd, Some EOutOfBounds)
      else
        match p with
        | PList _ => (fd, None)
        | PRem k => (snd (cyc_times k (Z.to_nat (s_left s) + span_len s) new_cyc fd), None)
        end
  | LLab _ => (fd, None)
  end.

(** /repo/timeboard/timeboard.py:164-213 Timeboard.__init__: what comes before and after the
    making of the timeline takes nothing from the iterators. *)
Definition leftover_it {L : Type} (a : tb_args L) (fd : feeds L) : feeds L :=
  match top_organizer (a_layout a) with
  | Err _ => fd
  | Ok org =>
      match a_wt a with
      | WBad => fd
      | _ =>
          match mk_frame (a_freq a) (a_start a) (a_end a) with
          | Err _ => fd
          | Ok f => fst (leave_it f org (mkSpan 0 (fr_len f - 1) 0 0) fd)
          end
      end
  end.
