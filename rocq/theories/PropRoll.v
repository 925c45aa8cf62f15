(** Theorems C16-C19: schedules, and rolling a workshift forward and back. *)
From Verif Require Import Base Civil Freq Frame Timeline Board Spec SpecRoll Samples RollProofs.
From Coq Require Import Sorted.

(** C16. *)
Theorem C16_schedule : forall (L : Type) (tb : timeboard L) (s : schedule L), reachable tb -> sched_for tb s ->
  StronglySorted Z.lt (sc_on s) /\ StronglySorted Z.lt (sc_off s)
  /\ (forall i, In i (sc_on s) \/ In i (sc_off s) -> is_shift tb i)
  /\ forall i, is_shift tb i ->
       (In i (sc_on s) <-> ~ In i (sc_off s))
       /\ exists x, tl_get (tb_tl tb) i = Ok x /\ (In i (sc_on s) <-> sc_sel s x = true)
            /\ forall w, ws_loc w = i ->
                 is_on_duty tb w s = Ok (sc_sel s x) /\ is_off_duty tb w s = Ok (negb (sc_sel s x)).
Proof. exact C16_schedule_pf. Qed.
Print Assumptions C16_schedule.

Example C16_schedule_ex :
  reachable week_tb /\ sched_for week_tb week_full
  /\ sc_on week_full = [4; 5; 6; 10; 11; 12; 13]
  /\ sc_off week_full = [0; 1; 2; 3; 7; 8; 9; 14; 15; 16].
Proof. split; [exact week_reachable|]. split; [exact week_full_for|]. vm_compute. split; reflexivity. Qed.

(** C17.  [fwd_target] (SpecRoll.v) says by counting where the roll must land; the roll
    lands there, this place is unique, and failure means that there is none. *)
Theorem C17_rollforward : forall (L : Type) (tb : timeboard L) (w : workshift L) n d s,
  reachable tb -> ws_of tb w -> d <> DBad -> (forall s', s = Some s' -> sched_for tb s') ->
  let s' := sched_arg s (ws_sched w) in
  let d' := resolve_duty tb s' (ws_loc w) d in
  (forall r, rollforward tb w n d s = Ok r ->
     fwd_target tb s' d' (ws_loc w) n (ws_loc r)
     /\ (forall q, fwd_target tb s' d' (ws_loc w) n q -> q = ws_loc r)
     /\ tl_get (tb_tl tb) (ws_loc r) = Ok (ws_label r) /\ ws_sched r = s')
  /\ (forall e, rollforward tb w n d s = Err e ->
        e = EOutOfBounds /\ forall q, ~ fwd_target tb s' d' (ws_loc w) n q).
Proof. exact C17_rollforward_pf. Qed.
Print Assumptions C17_rollforward.

Definition the_ws (i x : Z) : workshift Z := mkWs i x (tb_default week_tb).
Example the_ws_of : ws_of week_tb (the_ws 2 0) /\ ws_of week_tb (the_ws 7 7).
Proof. split; (split; [split; vm_compute; congruence|split; [exact week_default_for|vm_compute; reflexivity]]). Qed.
(** From Sunday 1 Jan: the zero step is Tue 3 Jan, two steps Thu 5 Jan; one step back from
    the zero step is Fri 30 Dec; two are out of bounds; under the other schedule three
    steps lead to the next week. *)
Example C17_rollforward_ex :
  rmap (@ws_loc Z) (rollforward week_tb (the_ws 2 0) 0 DOn None) = Ok 4
  /\ rmap (@ws_loc Z) (rollforward week_tb (the_ws 2 0) 2 DOn None) = Ok 6
  /\ rmap (@ws_loc Z) (rollforward week_tb (the_ws 2 0) (-1) DOn None) = Ok 0
  /\ rmap (@ws_loc Z) (rollforward week_tb (the_ws 2 0) (-2) DOn None) = Err EOutOfBounds
  /\ rmap (@ws_loc Z) (rollforward week_tb (the_ws 2 0) 3 DAlt (Some week_full)) = Ok 10
  /\ rmap (@ws_loc Z) (rollforward week_tb (the_ws 2 0) 9 DOn None) = Err EOutOfBounds.
Proof. vm_compute. repeat split. Qed.
Example fwd_target_ex :
  fwd_target week_tb (tb_default week_tb) DOn 2 (-1) 0 /\ fwd_target week_tb (tb_default week_tb) DOn 2 2 6.
Proof.
  split; (split; [split; vm_compute; congruence|split; [reflexivity|]]).
  - right. split; [reflexivity|]. exists 4. split; [split; vm_compute; congruence|]. split; [discriminate|].
    split; [reflexivity|]. split; [|split; [discriminate|reflexivity]].
    intros j Hj. assert (H : j = 2 \/ j = 3) by lia. destruct H as [-> | ->]; reflexivity.
  - left. split; [discriminate|]. split; [discriminate|reflexivity].
Qed.

(** C18. *)
Theorem C17_bad_duty : forall (L : Type) (tb : timeboard L) (w : workshift L) n s,
  reachable tb -> ws_of tb w -> rollforward tb w n DBad s = Err EValue /\ rollback tb w n DBad s = Err EValue.
Proof. exact C17_bad_duty_pf. Qed.
Print Assumptions C17_bad_duty.

Theorem C18_rollback : forall (L : Type) (tb : timeboard L) (w : workshift L) n d s,
  reachable tb -> ws_of tb w -> d <> DBad -> (forall s', s = Some s' -> sched_for tb s') ->
  let s' := sched_arg s (ws_sched w) in
  let d' := resolve_duty tb s' (ws_loc w) d in
  (forall r, rollback tb w n d s = Ok r ->
     back_target tb s' d' (ws_loc w) n (ws_loc r)
     /\ (forall q, back_target tb s' d' (ws_loc w) n q -> q = ws_loc r)
     /\ tl_get (tb_tl tb) (ws_loc r) = Ok (ws_label r) /\ ws_sched r = s')
  /\ (forall e, rollback tb w n d s = Err e ->
        e = EOutOfBounds /\ forall q, ~ back_target tb s' d' (ws_loc w) n q).
Proof. exact C18_rollback_pf. Qed.
Print Assumptions C18_rollback.

Example C18_rollback_ex :
  rmap (@ws_loc Z) (rollback week_tb (the_ws 2 0) 0 DOn None) = Ok 0
  /\ rmap (@ws_loc Z) (rollback week_tb (the_ws 7 7) 4 DOn None) = Ok 0
  /\ rmap (@ws_loc Z) (rollback week_tb (the_ws 7 7) 5 DOn None) = Err EOutOfBounds
  /\ rmap (@ws_loc Z) (rollback week_tb (the_ws 2 0) (-2) DOn None) = Ok 5
  /\ rmap (@ws_loc Z) (rollback week_tb (the_ws 7 7) 1 DAlt None) = Ok 2.
Proof. vm_compute. repeat split. Qed.

(** C19. *)
Theorem C19_there_and_back : forall (L : Type) (tb : timeboard L) (w r : workshift L) n d s,
  reachable tb -> ws_of tb w -> d = DOn \/ d = DOff \/ d = DAny -> (forall s', s = Some s' -> sched_for tb s') ->
  has_duty tb (sched_arg s (ws_sched w)) d (ws_loc w) = true ->
  (rollforward tb w n d s = Ok r ->
     exists w', rollback tb r n d s = Ok w' /\ ws_loc w' = ws_loc w /\ ws_label w' = ws_label w
                /\ rollback tb w (- n) d s = Ok r)
  /\ (rollback tb w n d s = Ok r ->
     exists w', rollforward tb r n d s = Ok w' /\ ws_loc w' = ws_loc w /\ ws_label w' = ws_label w
                /\ rollforward tb w (- n) d s = Ok r).
Proof. exact C19_there_and_back_pf. Qed.
Print Assumptions C19_there_and_back.

Theorem C19_same : forall (L : Type) (tb : timeboard L) (w r : workshift L) n s,
  reachable tb -> ws_of tb w -> (forall s', s = Some s' -> sched_for tb s') ->
  (rollforward tb w n DSame s = Ok r ->
     exists w', rollback tb r n DSame s = Ok w' /\ ws_loc w' = ws_loc w /\ ws_label w' = ws_label w
                /\ rollback tb w (- n) DSame s = Ok r)
  /\ (rollback tb w n DSame s = Ok r ->
     exists w', rollforward tb r n DSame s = Ok w' /\ ws_loc w' = ws_loc w /\ ws_label w' = ws_label w
                /\ rollforward tb w (- n) DSame s = Ok r).
Proof. exact C19_same_pf. Qed.
Print Assumptions C19_same.

Theorem C19_compose : forall (L : Type) (tb : timeboard L) (w : workshift L) a b d s,
  reachable tb -> ws_of tb w -> d = DOn \/ d = DOff \/ d = DAny -> (forall s', s = Some s' -> sched_for tb s') ->
  0 <= a -> 0 <= b ->
  (do r <- rollforward tb w a d s; rollforward tb r b d s) = rollforward tb w (a + b) d s
  /\ (do r <- rollback tb w a d s; rollback tb r b d s) = rollback tb w (a + b) d s.
Proof. exact C19_compose_pf. Qed.
Print Assumptions C19_compose.

Theorem C19_operators : forall (L : Type) (tb : timeboard L) (w r : workshift L) n,
  reachable tb -> ws_of tb w -> on_duty tb (ws_sched w) (ws_loc w) = true ->
  ws_add tb w n = Ok r ->
  (exists w', ws_sub tb r n = Ok w' /\ ws_loc w' = ws_loc w) /\ ws_sub tb w (- n) = Ok r
  /\ rollforward tb w n DOn (Some (ws_sched w)) = Ok r.
Proof. exact C19_operators_pf. Qed.
Print Assumptions C19_operators.

Example C19_ex :
  has_duty week_tb (tb_default week_tb) DOn 7 = true
  /\ rmap (@ws_loc Z) (rollforward week_tb (the_ws 7 7) 3 DOn None) = Ok 12
  /\ rmap (@ws_loc Z) (rollforward week_tb (the_ws 7 7) (-3) DOn None) = Ok 4
  /\ rmap (@ws_loc Z) (ws_add week_tb (the_ws 7 7) 3) = Ok 12
  /\ on_duty week_tb (tb_default week_tb) 7 = true.
Proof. vm_compute. repeat split. Qed.
