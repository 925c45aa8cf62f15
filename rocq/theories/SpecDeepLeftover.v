(** Specification of what attempts to make timeboards take from iterators of organizers and patterns (C81). *)
From Verif Require Import Base Civil Freq Frame Timeline Board Spec SpecLookup SpecLayout SpecRemember Iterate SpecIterate Deep SpecDeep DeepLeftover.

(** A layout on a span, when [n k] elements have been taken from each iterator [k] before, how many have
    been taken afterwards, and the exception that ended it, if any: a span cannot be divided, or a pattern
    meets a span for which it is not known how much to skip on the left.  An organizer over an iterator
    takes one element for each span just before it turns to this span; when there are no more, it repeats
    those that it has taken itself ([saved]), and if there are none it leaves the span as it is. *)
Inductive runs {L : Type} (f : frame) (fd : feeds (layout L)) : (nat -> Z) -> layout L -> span -> (nat -> Z) -> option err -> Prop :=
| runs_label n x s : runs f fd n (LLab x) s n None
| runs_list n l s : 0 <= s_left s -> runs f fd n (LPat (PList l)) s n None
| runs_pattern n k s : 0 <= s_left s -> runs f fd n (LPat (PRem k)) s (taken n k (wants (AskUnits s))) None
| runs_refused n p s : s_left s < 0 -> runs f fd n (LPat p) s n (Some EOutOfBounds)
| runs_divide n d items s e : partition f d s = Err e -> runs f fd n (LOrg d items) s n (Some e)
| runs_divide_it n d k s e : partition f d s = Err e -> runs f fd n (LOrgRem d k) s n (Some e)
| runs_nothing n d s spans : partition f d s = Ok spans -> runs f fd n (LOrg d []) s n None
| runs_org n d items spans s n' o : items <> [] -> partition f d s = Ok spans ->
    runs_each f fd n items 0 spans n' o -> runs f fd n (LOrg d items) s n' o
| runs_iterator n d k spans s n' o : partition f d s = Ok spans ->
    runs_next f fd n k [] 0 spans n' o -> runs f fd n (LOrgRem d k) s n' o
with runs_each {L : Type} (f : frame) (fd : feeds (layout L)) : (nat -> Z) -> list (layout L) -> nat -> list span -> (nat -> Z) -> option err -> Prop :=
| reach_end n items j : runs_each f fd n items j [] n None
| reach_stop n items j s rest it n' e : nth_error items (j mod length items)%nat = Some it ->
    runs f fd n it s n' (Some e) -> runs_each f fd n items j (s :: rest) n' (Some e)
| reach_on n items j s rest it n1 n' o : nth_error items (j mod length items)%nat = Some it ->
    runs f fd n it s n1 None -> runs_each f fd n1 items (S j) rest n' o -> runs_each f fd n items j (s :: rest) n' o
with runs_next {L : Type} (f : frame) (fd : feeds (layout L)) : (nat -> Z) -> nat -> list (layout L) -> nat -> list span -> (nat -> Z) -> option err -> Prop :=
| rnext_end n k saved j : runs_next f fd n k saved j [] n None
| rnext_none n k j s rest : to_come fd k (n k) = None -> runs_next f fd n k [] j (s :: rest) n None
| rnext_take_stop n k saved j s rest x n' e : to_come fd k (n k) = Some x ->
    runs f fd (taken n k 1) x s n' (Some e) -> runs_next f fd n k saved j (s :: rest) n' (Some e)
| rnext_take_on n k saved j s rest x n1 n' o : to_come fd k (n k) = Some x ->
    runs f fd (taken n k 1) x s n1 None -> runs_next f fd n1 k (saved ++ [x]) (S j) rest n' o -> runs_next f fd n k saved j (s :: rest) n' o
| rnext_again_stop n k saved j s rest x n' e : to_come fd k (n k) = None -> nth_error saved (j mod length saved)%nat = Some x ->
    runs f fd n x s n' (Some e) -> runs_next f fd n k saved j (s :: rest) n' (Some e)
| rnext_again_on n k saved j s rest x n1 n' o : to_come fd k (n k) = None -> nth_error saved (j mod length saved)%nat = Some x ->
    runs f fd n x s n1 None -> runs_next f fd n1 k saved (S j) rest n' o -> runs_next f fd n k saved j (s :: rest) n' o.

(** An attempt to make a timeboard; [None] if the timeline is made or not even begun. *)
Inductive attempt {L : Type} (fd : feeds (layout L)) (a : tb_args L) : (nat -> Z) -> (nat -> Z) -> option err -> Prop :=
| att_nothing n : (forall org f, top_organizer (a_layout a) = Ok org -> a_wt a <> WBad ->
                     mk_frame (a_freq a) (a_start a) (a_end a) = Ok f -> False) -> attempt fd a n n None
| att_runs n org f n' o : top_organizer (a_layout a) = Ok org -> a_wt a <> WBad ->
    mk_frame (a_freq a) (a_start a) (a_end a) = Ok f -> runs f fd n org (whole_span f) n' o -> attempt fd a n n' o.
(** Attempts one after another. *)
Inductive attempts {L : Type} (fd : feeds (layout L)) : list (tb_args L) -> (nat -> Z) -> (nat -> Z) -> Prop :=
| atts_end n : attempts fd [] n n
| atts_on a l n n1 n' o : attempt fd a n n1 o -> attempts fd l n1 n' -> attempts fd (a :: l) n n'.

(** The iterators after attempts one after another. *)
Definition after_deep {L : Type} (n : nat) (l : list (tb_args L)) (fd : feeds (layout L)) : feeds (layout L) :=
  fold_left (fun fd a => leftover_deep n a fd) l fd.
(** None of the attempts runs out of the depth of calls. *)
Fixpoint shallow {L : Type} (obj : layout L -> L) (n : nat) (l : list (tb_args L)) (fd : feeds (layout L)) : Prop :=
  match l with
  | [] => True
  | a :: l' => build_deep obj n a fd <> Err ERuntime /\ shallow obj n l' (leftover_deep n a fd)
  end.
