(** Leftover: the state in which the remembering patterns are left by the construction of a
    timeboard, whether it succeeds or raises an exception on the way.  [build] (Board.v) gives
    the patterns only together with a timeboard. *)
From Verif Require Import Base Civil Freq Frame Timeline Board.

(** core.py:732,739: the loop of __organize over the spans ([run_cycle]); an exception ends
    it, and what was taken from the patterns so far remains taken. *)
Fixpoint leave_cycle {L : Type} (all cur : list (span -> heap L -> heap L * option err))
         (spans : list span) (h : heap L) : heap L * option err :=
  match spans with
  | [] => (h, None)
  | s :: rest =>
      match cur with
      | act :: cur' =>
          match act s h with
          | (h', None) => leave_cycle all cur' rest h'
          | raised => raised
          end
      | [] => match all with
              | [] => (h, None)
              | act :: all' =>
                  match act s h with
                  | (h', None) => leave_cycle all all' rest h'
                  | raised => raised
                  end
              end
      end
  end.

(** The loop with a RememberingPattern as the structure ([run_remembering]). *)
Fixpoint leave_remembering {L : Type} (k : nat) (spans : list span) (h : heap L) : heap L :=
  match spans with
  | [] => h
  | _ :: rest =>
      match heap_get h k with
      | ([], _) => h
      | (l, cur) => leave_remembering k rest (heap_set h k (l, snd (cyc_take l cur 1)))
      end
  end.

(** /repo/timeboard/core.py:662-758 __organize and __apply_pattern *)
Fixpoint leave {L : Type} (f : frame) (ly : layout L) (s : span) (h : heap L)
  : heap L * option err :=
  match ly with
  | LOrg d structure =>
      match partition f d s with
      | Err e => (h, Some e)
      | Ok spans => leave_cycle (map (leave f) structure) (map (leave f) structure) spans h
      end
  | LOrgRem d k =>
      match partition f d s with
      | Err e => (h, Some e)
      | Ok spans => (leave_remembering k spans h, None)
      end
  | LPat p =>
      if s_left s <? 0 then (h, Some EOutOfBounds)
      else
        match p with
        | PList _ => (h, None)
        | PRem k =>
            match heap_get h k with
            | ([], _) => (h, None)
            | (l, cur) =>
                (heap_set h k (l, snd (skip_take l cur (Z.to_nat (s_left s)) (span_len s))), None)
            end
        end
  | LLab _ => (h, None)
  end.

(** /repo/timeboard/timeboard.py:164-213 Timeboard.__init__: what comes before and after the
    making of the timeline takes nothing from the patterns. *)
Definition leftover {L : Type} (a : tb_args L) (h : heap L) : heap L :=
  match top_organizer (a_layout a) with
  | Err _ => h
  | Ok org =>
      match a_wt a with
      | WBad => h
      | _ =>
          match mk_frame (a_freq a) (a_start a) (a_end a) with
          | Err _ => h
          | Ok f => fst (leave f org (mkSpan 0 (fr_len f - 1) 0 0) h)
          end
      end
  end.
