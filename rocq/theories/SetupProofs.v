(** Proofs about the constructors on any arguments (C51, C52). *)
From Verif Require Import Base BaseProofs Civil CivilProofs Freq FreqProofs Frame FrameProofs When Timeline Board Spec SpecLookup SpecLayout SpecWhen BoardProofs TimelineProofs LookupProofs PartProofs TreeProofs LayoutProofs WhenProofs NthProofs EasterProofs MarkProofs Setup SpecSetup.
From Verif Require Api.
From Coq Require Import String QArith.
Open Scope Z_scope.

(** ** Marker *)
Lemma C51_how_pf : forall g ats s,
  (In s ["from_start_of_each"; "nth_weekday_of_month"; "from_easter_western"; "from_easter_orthodox"]%string ->
   exists m, new_marker g ats (HName s) = Ok m /\ m_each m = g)
  /\ (~ In s ["from_start_of_each"; "nth_weekday_of_month"; "from_easter_western"; "from_easter_orthodox"]%string ->
      new_marker g ats (HName s) = Err EKey).
Proof.
  intros g ats s. split.
  - intros [<-|[<-|[<-|[<-|[]]]]]; eexists; (split; [reflexivity|reflexivity]).
  - intros H. unfold new_marker, how_function.
    destruct (String.eqb s "from_start_of_each") eqn:E1; [apply String.eqb_eq in E1; destruct H; left; congruence|].
    destruct (String.eqb s "nth_weekday_of_month") eqn:E2; [apply String.eqb_eq in E2; destruct H; right; left; congruence|].
    destruct (String.eqb s "from_easter_western") eqn:E3; [apply String.eqb_eq in E3; destruct H; do 2 right; left; congruence|].
    destruct (String.eqb s "from_easter_orthodox") eqn:E4; [apply String.eqb_eq in E4; destruct H; do 3 right; left; congruence|].
    reflexivity.
Qed.

Lemma C51_start_pf : forall f s g offs m, is_frame f -> long_units f -> is_span f s -> accepts (fr_str f) g ->
  offs <> [] -> (forall o, In o offs -> forward o \/ backward o) ->
  new_marker g (map KOffset offs) (HName "from_start_of_each"%string) = Ok m ->
  exists spans, partition f (DMarker m) s = Ok spans
    /\ tiling (s_first s) (s_last s) spans
    /\ forall u, s_first s < u <= s_last s ->
         (starts_span spans u <->
          exists o k t, In o offs /\ mark_of g (fr_str f) (reach_before f g s) o k t /\ cut_by f u t).
Proof.
  intros f s g offs m Hf Hlu Hs Hc Hne Ho Hm. cbn in Hm. injection Hm as <-. rewrite map_map.
  exact (C37_cuts_partial_pf f s g offs Hf Hlu Hs Hc Hne Ho).
Qed.

Lemma C51_start_every_pf : forall f s g offs m, is_frame f -> is_span f s -> accepts (fr_str f) g ->
  offs <> [] -> (forall o, In o offs -> usable o) -> new_marker g (map KOffset offs) (HName "from_start_of_each"%string) = Ok m ->
  exists spans, partition f (DMarker m) s = Ok spans
    /\ tiling (s_first s) (s_last s) spans
    /\ forall u, s_first s < u <= s_last s ->
         (starts_span spans u <->
          exists o k t, In o offs /\ ~ goes_back o /\ inspected f g s k
            /\ mark_upto g (fr_str f) (reach_before f g s) o k t /\ cut_by f u t).
Proof.
  intros f s g offs m Hf Hs Hc Hne Hus Hm. cbn in Hm. injection Hm as <-. rewrite map_map.
  exact (C37_every_cuts_pf f s g offs Hf Hs Hc Hne Hus).
Qed.

Lemma C51_nth_pf : forall f s g ats m, is_frame f -> is_span f s -> check_groupby_freq (fr_str f) g = true -> of_months g -> ats <> [] ->
  (forall month week wday shift, In (month, week, wday, shift) ats -> 1 <= month <= 12 /\ 1 <= wday <= 7 /\ 1 <= Z.abs week <= 5) ->
  new_marker g (map (fun '(month, week, wday, shift) => KNth month week wday shift) ats) (HName "nth_weekday_of_month"%string) = Ok m ->
  exists spans, partition f (DMarker m) s = Ok spans
    /\ tiling (s_first s) (s_last s) spans
    /\ forall u, s_first s < u <= s_last s ->
         (starts_span spans u <->
          exists month week wday shift k t, In (month, week, wday, shift) ats /\ inspected f g s k
            /\ nth_mark g (reach_before f g s) month (wday - 1) week shift k t /\ cut_by f u t).
Proof.
  intros f s g ats m Hf Hs Hc Hg Hne Ha Hm. cbn in Hm. injection Hm as <-. rewrite map_map.
  rewrite (map_ext _ (fun '(month, week, wday, shift) => nth_weekday_of_month month week wday shift)) by (intros [[[month week] wday] shift]; reflexivity).
  exact (C38_cuts_pf f s g ats Hf Hs Hc Hg Hne Ha).
Qed.

(** The offset that an element of `at` stands for with the Easter functions. *)
Lemma C51_easter_pf : forall (orthodox : bool) f s g ats offs m, is_frame f -> is_span f s -> check_groupby_freq (fr_str f) g = true ->
  fbase (to_freq g) = BA 12 -> fmult (to_freq g) = 1%positive -> offs <> [] -> (forall o, In o offs -> forward o \/ backward o) ->
  easter_year (year_of (reach_before f g s / NS_DAY)) -> easter_year (year_of (reach_after f g s / NS_DAY)) ->
  Forall2 easter_offset ats offs ->
  new_marker g ats (HName (if orthodox then "from_easter_orthodox" else "from_easter_western")%string) = Ok m ->
  exists spans, partition f (DMarker m) s = Ok spans
    /\ tiling (s_first s) (s_last s) spans
    /\ forall u, s_first s < u <= s_last s ->
         (starts_span spans u <-> exists o y t, In o offs /\ easter_mark orthodox (fr_str f) o y t /\ cut_by f u t).
Proof.
  intros orth f s g ats offs m Hf Hs Hc Hb Hmul Hne Ho Hy0 Hy1 Hk Hm.
  assert (E : m = mkMarker g (map (from_easter orth) offs)).
  { assert (Hm' : m = mkMarker g (map (call_easter orth) ats)) by (destruct orth; cbn in Hm; congruence). rewrite Hm'. f_equal.
    clear - Hk. induction Hk as [|k o ats offs Hk _ IH]; [reflexivity|]. cbn [map]. rewrite IH. f_equal. destruct Hk; reflexivity. }
  rewrite E. exact (C42_cuts_pf orth f s g offs Hf Hs Hc Hb Hmul Hne Ho Hy0 Hy1).
Qed.

Lemma C51_easter_periods_pf : forall (orthodox : bool) f s g ats offs m, is_frame f -> is_span f s -> accepts (fr_str f) g ->
  offs <> [] -> (forall o, In o offs -> usable o) ->
  (forall k p', inspected f g s k -> group_start g (reach_before f g s) (k + 1) p' -> easter_year (year_of ((p' - 1) / NS_DAY))) ->
  Forall2 easter_offset ats offs ->
  new_marker g ats (HName (if orthodox then "from_easter_orthodox" else "from_easter_western")%string) = Ok m ->
  let holds k := forall e, group_easter orthodox g (reach_before f g s) k e -> in_group g (reach_before f g s) k e in
  ((exists k, inspected f g s k /\ ~ holds k) -> partition f (DMarker m) s = Err EValue)
  /\ ((forall k, inspected f g s k -> holds k) ->
      exists spans, partition f (DMarker m) s = Ok spans
        /\ tiling (s_first s) (s_last s) spans
        /\ forall u, s_first s < u <= s_last s ->
             (starts_span spans u <->
              exists o k t, In o offs /\ inspected f g s k
                /\ group_mark orthodox g (fr_str f) (reach_before f g s) o k t /\ cut_by f u t)).
Proof.
  intros orth f s g ats offs m Hf Hs Hc Hne Hus Hy Hk Hm.
  assert (E : m = mkMarker g (map (from_easter orth) offs)).
  { assert (Hm' : m = mkMarker g (map (call_easter orth) ats)) by (destruct orth; cbn in Hm; congruence). rewrite Hm'. f_equal.
    clear - Hk. induction Hk as [|k o ats offs Hk _ IH]; [reflexivity|]. cbn [map]. rewrite IH. f_equal. destruct Hk; reflexivity. }
  rewrite E. exact (C42_periods_cuts_pf orth f s g offs Hf Hs Hc Hne Hus Hy).
Qed.

Lemma map_app_cons {A B} (fn : A -> B) pre k post : map fn (pre ++ k :: post) = map fn pre ++ fn k :: map fn post.
Proof. rewrite map_app. reflexivity. Qed.

Lemma C51_unsuited_pf : forall f s g pre k post how m pi pts, is_frame f -> is_span f s -> check_groupby_freq (fr_str f) g = true ->
  handed f g s pi -> new_marker g (pre ++ k :: post) (HName how) = Ok m ->
  points_of pi (fr_str f) (firstn (List.length pre) (m_at m)) pts -> unsuited how k ->
  partition f (DMarker m) s = Err EType.
Proof.
  intros f s g pre k post how m pi pts Hf Hs Hc Hp Hm Hpts Hu.
  assert (G : forall fn, m = mkMarker g (map fn (pre ++ k :: post)) -> fn k pi (fr_str f) = Err EType -> partition f (DMarker m) s = Err EType).
  { intros fn -> Hk. cbn [m_at] in Hpts. rewrite map_app_cons in *.
    rewrite firstn_app, map_length, Nat.sub_diag, firstn_O, app_nil_r in Hpts.
    rewrite (firstn_all2 (map fn pre)) in Hpts by (rewrite map_length; lia).
    exact (C51_fails_pf f s g (map fn pre) (fn k) (map fn post) pi pts EType Hf Hs Hc Hp Hpts Hk). }
  destruct Hu as [k Hk|k Hk|month week wday shift|month week wday shift]; cbn in Hm; injection Hm as Hm; symmetry in Hm;
    eapply G; try exact Hm; try reflexivity.
  - destruct k; [destruct (Hk o eq_refl)|reflexivity|reflexivity].
  - destruct k; [reflexivity|destruct (Hk _ _ _ _ eq_refl)|reflexivity].
Qed.

Lemma C51_function_pf : forall g ats fn, exists m, new_marker g ats (HFun fn) = Ok m /\ m_each m = g
  /\ Forall2 (fun k how => forall pi norm, how pi norm = fn k pi norm) ats (m_at m).
Proof.
  intros g ats fn. eexists. split; [reflexivity|]. split; [reflexivity|]. cbn [m_at].
  induction ats as [|k ats IH]; cbn [map]; constructor; [reflexivity|exact IH].
Qed.

(** ** Organizer *)
Lemma iterable_iff {L : Type} (o : obj L) : iterable o <-> is_iterable o = true.
Proof.
  unfold iterable. destruct o; cbn [is_iterable]; (split; [intros H|intros H]); try reflexivity; try discriminate H.
  - destruct H as [[? H]|[? H]]; discriminate H.
  - left. eexists. reflexivity.
  - right. eexists. reflexivity.
  - destruct H as [[? H]|[? H]]; discriminate H.
Qed.

Lemma C52_organizer_pf : forall (L : Type) m ts (st : obj L),
  (forall e, organizer_fault m ts st e -> new_organizer m ts st = Err e)
  /\ ((forall e, ~ organizer_fault m ts st e) -> exists d, divides_by m ts d /\ new_organizer m ts st = Ok (OOrg d st)).
Proof.
  intros L m ts st. split.
  - intros e H. destruct H as [st|m ts st Hm Ht|m st Hm Hst|ts st Ht Hst]; unfold new_organizer.
    + reflexivity.
    + destruct m; [destruct (Hm eq_refl)| |]; (destruct ts; [destruct (Ht eq_refl)| |]); reflexivity.
    + destruct (is_iterable st) eqn:E; [destruct Hst; apply iterable_iff, E|]. destruct m; [destruct (Hm eq_refl)| |]; reflexivity.
    + destruct (is_iterable st) eqn:E; [destruct Hst; apply iterable_iff, E|]. destruct ts; [destruct (Ht eq_refl)| |]; reflexivity.
  - intros H. unfold new_organizer. destruct (is_iterable st) eqn:E.
    + destruct m, ts; try (destruct (H EValue); constructor; discriminate); eexists; (split; [constructor|reflexivity]).
    + assert (Hn : ~ iterable st) by (intros C; apply iterable_iff in C; congruence).
      destruct m, ts; try (destruct (H EValue); constructor; discriminate);
        first [destruct (H EType); apply of_marker; [discriminate|exact Hn]|destruct (H EType); apply of_marks; [discriminate|exact Hn]].
Qed.

(** ** Timeboard *)
Section ObjInd.
  Variables (L : Type) (P : obj L -> Prop).
  Hypothesis HO : forall d l, Forall P l -> P (OOrg d (OList l)).
  Hypothesis HO' : forall d o, (forall l, o <> OList l) -> P (OOrg d o).
  Hypothesis HL : forall l, P (OList l).
  Hypothesis HR : forall k, P (ORem k).
  Hypothesis HX : forall x, P (OOther x).
  Fixpoint obj_ind' (o : obj L) : P o :=
    match o with
    | OOrg d (OList l) => HO d l ((fix go l := match l return Forall P l with [] => Forall_nil _ | x :: l' => Forall_cons _ (obj_ind' x) (go l') end) l)
    | OOrg d (OOrg d' st) => HO' d (OOrg d' st) ltac:(discriminate)
    | OOrg d (ORem k) => HO' d (ORem k) ltac:(discriminate)
    | OOrg d (OOther x) => HO' d (OOther x) ltac:(discriminate)
    | OList l => HL l
    | ORem k => HR k
    | OOther x => HX x
    end.
End ObjInd.

Lemma reads_iff {L : Type} (o : obj L) : forall ly, reads o ly <-> proper o /\ ly = read_layout o.
Proof.
  induction o as [d l IH|d o Hn|l|k|x] using obj_ind'; intros ly.
  - cbn [read_layout]. split.
    + intros H. inversion H as [d' l' items HF| | | |]; subst. clear H.
      assert (HX : Forall proper l /\ items = map read_layout l).
      { revert items HF. induction IH as [|x l Hx _ IHl]; intros items HF; inversion HF as [|? y ? items' Hy HF']; subst; [split; [constructor|reflexivity]|].
        apply Hx in Hy. destruct Hy as [Hy ->]. destruct (IHl _ HF') as [Hl ->]. split; [constructor; assumption|reflexivity]. }
      destruct HX as [Hp ->]. split; [constructor; exact Hp|reflexivity].
    + intros [H ->]. inversion H as [? ? Hl| | | |]; subst. constructor. clear H.
      induction IH as [|x l Hx _ IHl]; [constructor|]. inversion Hl as [|? ? Hpx Hpl]; subst. cbn [map]. constructor; [apply Hx; split; [exact Hpx|reflexivity]|apply IHl, Hpl].
  - split.
    + intros H. inversion H; subst; [destruct (Hn l eq_refl)|]. split; [constructor|reflexivity].
    + intros [H ->]. inversion H; subst; [destruct (Hn l eq_refl)|]. cbn [read_layout]. constructor.
  - split; [intros H; inversion H; subst; split; [constructor|reflexivity]|intros [_ ->]; constructor].
  - split; [intros H; inversion H; subst; split; [constructor|reflexivity]|intros [_ ->]; constructor].
  - split; [intros H; inversion H; subst; split; [constructor|reflexivity]|intros [_ ->]; constructor].
Qed.

Lemma C52_refused_pf : forall (L : Type) nat (u : setup L) h e, fault u e -> construct nat u h = Err e.
Proof.
  intros L nat u h e H. unfold construct.
  assert (Hgood : good_layout (u_layout u) -> exists org, (match u_layout u with
             | OOrg _ _ => Ok (read_layout (u_layout u)) | OList l => Ok (LOrg (DMarks []) [read_layout (OList l)])
             | ORem _ => Err EType | OOther _ => Err EType end) = Ok org).
  { intros [(d & st & ->)|(l & ->)]; eexists; reflexivity. }
  assert (Ham : u_amend u <> AOther -> exists am, (match u_amend u with AOmit => Ok [] | ADict l => Ok l | AOther => Err EType end) = Ok am).
  { intros Hn. destruct (u_amend u); [eexists; reflexivity|eexists; reflexivity|destruct (Hn eq_refl)]. }
  destruct H as [Hl|Hl Ha|Hl Ha Hw|Hl Ha Hw Hf|Hl Ha Hw Hf|s Hl Ha Hw Hf Hb].
  - destruct (u_layout u) as [d st|l|k|x]; try reflexivity; destruct Hl; [left; eexists; eexists; reflexivity|right; eexists; reflexivity].
  - destruct (Hgood Hl) as [org ->]. rewrite Ha. reflexivity.
  - destruct (Hgood Hl) as [org ->]. destruct (Ham Ha) as [am ->]. cbn [bind]. rewrite Hw. reflexivity.
  - destruct (Hgood Hl) as [org ->]. destruct (Ham Ha) as [am ->]. cbn [bind]. rewrite Hf. destruct (u_wt u); [reflexivity|reflexivity|destruct (Hw eq_refl)].
  - destruct (Hgood Hl) as [org ->]. destruct (Ham Ha) as [am ->]. cbn [bind]. rewrite Hf. destruct (u_wt u); [reflexivity|reflexivity|destruct (Hw eq_refl)].
  - destruct (Hgood Hl) as [org ->]. destruct (Ham Ha) as [am ->]. cbn [bind]. rewrite Hf. cbn [frame_any].
    assert (E : (do t0 <- bound_time s (u_start u); do t1 <- bound_time s (u_end u); mk_frame s t0 t1) = Err EValue).
    { destruct Hb as [E|E]; rewrite E; [reflexivity|]. cbn [bound_time].
      assert (Hs : bound_time s (u_start u) = Err EValue \/ exists t, bound_time s (u_start u) = Ok t).
      { destruct (u_start u); cbn [bound_time]; [right; eexists; reflexivity| |left; reflexivity]. right. destruct (_ && _); eexists; reflexivity. }
      destruct Hs as [->|[t ->]]; reflexivity. }
    rewrite E. destruct (u_wt u); [reflexivity|reflexivity|destruct (Hw eq_refl)].
Qed.

Lemma base_eqb_eq a b : base_eqb a b = true <-> a = b.
Proof. destruct a, b; cbn [base_eqb]; split; intros H; try reflexivity; try discriminate; try (apply Z.eqb_eq in H; subst; reflexivity); injection H as ->; apply Z.eqb_refl. Qed.
Lemma bound_time_ok s b t : bound_means s b t <-> bound_time s b = Ok t.
Proof.
  assert (He : forall p, base_eqb (fbase (p_freq p)) (fbase (to_freq s)) && Pos.eqb (fmult (p_freq p)) (fmult (to_freq s)) = true <-> p_freq p = to_freq s).
  { intros p. rewrite andb_true_iff, base_eqb_eq, Pos.eqb_eq. destruct (p_freq p) as [mm bb], (to_freq s) as [mm2 bb2]. cbn. split; [intros [-> ->]; reflexivity|intros H; injection H as -> ->; split; reflexivity]. }
  split.
  - intros [t'|p Hp|p Hp]; cbn [bound_time]; [reflexivity| |].
    + rewrite (proj2 (He p) Hp). reflexivity.
    + destruct (_ && _) eqn:E; [apply He in E; contradiction|reflexivity].
  - destruct b as [t'|p|]; cbn [bound_time]; [intros H; injection H as ->; constructor| |discriminate].
    destruct (_ && _) eqn:E; intros H; injection H as <-; constructor; [apply He, E|]. intros C. apply He in C. congruence.
Qed.

Lemma key_position_means {L : Type} nat (tl : timeline L) v t : key_means v t -> key_position nat tl v = get_ws_position tl t.
Proof. intros [x|n|p|b w x H]; unfold key_position; cbn [Api.get_timestamp bind]; try reflexivity. rewrite H. reflexivity. Qed.
Lemma locate_keys_means {L : Type} nat (tl : timeline L) am am' : Forall2 (fun q r => key_means (fst q) (fst r) /\ snd q = snd r) am am' ->
  forall acc, locate_keys nat tl am acc = locate_amendments tl false am' acc.
Proof.
  intros H. induction H as [|[v x] [t y] am am' [Hk Hx] _ IH]; intros acc; [reflexivity|]. cbn [fst snd] in Hk, Hx. subst y.
  cbn [locate_keys locate_amendments]. rewrite (key_position_means nat tl v t Hk).
  destruct (get_ws_position tl t) as [p|[]]; try apply IH; try reflexivity. destruct (existsb _ acc); [reflexivity|apply IH].
Qed.

Lemma C52_accepted_pf : forall (L : Type) nat (u : setup L) a h, good_layout (u_layout u) -> same_args u a -> construct nat u h = build a h.
Proof.
  intros L nat u a h Hl (Hf & Hs & He & Hr & Ham & H1 & H2 & H3 & H4 & H5 & H6). unfold construct, build.
  rewrite H1, H2, H3, H4, H5, H6. clear H1 H2 H3 H4 H5 H6. rewrite Hf.
  apply bound_time_ok in Hs. apply bound_time_ok in He. cbn [frame_any]. rewrite Hs, He. cbn [bind].
  apply reads_iff in Hr. destruct Hr as [Hp Hr]. rewrite Hr.
  assert (Eo : (match u_layout u with
             | OOrg _ _ => Ok (read_layout (u_layout u)) | OList l => Ok (LOrg (DMarks []) [read_layout (OList l)])
             | ORem _ => Err EType | OOther _ => Err EType end) = top_organizer (read_layout (u_layout u))).
  { destruct Hl as [(d & st & E)|(l & E)]; rewrite E in *; [|reflexivity]. inversion Hp; subst; reflexivity. }
  rewrite Eo. destruct (top_organizer (read_layout (u_layout u))) as [org|e]; [|reflexivity]. cbn [bind].
  assert (Ea : exists am, (match u_amend u with AOmit => Ok [] | ADict l => Ok l | AOther => Err EType end) = Ok am
                  /\ forall tl : timeline (obj L), locate_keys nat tl am [] = locate_amendments tl false (a_amendments a) []).
  { destruct (u_amend u) as [|l|]; [|..|contradiction]; (eexists; split; [reflexivity|]); intros tl; [rewrite Ham; reflexivity|apply locate_keys_means, Ham]. }
  destruct Ea as (am & -> & Ea). cbn [bind]. destruct (u_wt u); try reflexivity.
  all: destruct (mk_frame (a_freq a) (a_start a) (a_end a)) as [f|e]; [|reflexivity]; cbn [bind].
  all: destruct (mk_timeline f org (u_ref_end u) (u_default u) h) as [th|e]; [|reflexivity]; cbn [bind].
  all: unfold amend; rewrite Ea; destruct (locate_amendments (fst th) false (a_amendments a) []) as [loc|e]; reflexivity.
Qed.

(** Nothing wrong with the arguments: there are corresponding ones of the documented types, if the keys are times. *)
Lemma C52_complete_pf : forall (L : Type) (u : setup L), (forall e, ~ fault u e) -> proper (u_layout u) ->
  (forall l v x, u_amend u = ADict l -> In (v, x) l -> exists t, key_means v t) ->
  good_layout (u_layout u) /\ exists a, same_args u a.
Proof.
  intros L u Hn Hp Hk.
  assert (Hl : good_layout (u_layout u)).
  { destruct (u_layout u) as [d st|l|k|x] eqn:E; [left; eexists; eexists; reflexivity|right; eexists; reflexivity| |];
      (destruct (Hn EType); apply f_layout; rewrite E; intros [(d & st & C)|(l & C)]; discriminate C). }
  assert (Ha : u_amend u <> AOther) by (intros C; exact (Hn EType (f_amend u Hl C))).
  assert (Hw : u_wt u <> WBad) by (intros C; exact (Hn EValue (f_source u Hl Ha C))).
  destruct (u_freq u) as [|s|] eqn:Ef; [destruct (Hn EKey (f_no_freq u Hl Ha Hw Ef))| |destruct (Hn EValue (f_freq u Hl Ha Hw Ef))].
  assert (Hb : forall b, (u_start u = b \/ u_end u = b) -> exists t, bound_means s b t).
  { intros b Hb. destruct b as [t|p|].
    - exists t. constructor.
    - destruct (bound_time s (BPer p)) as [t|e] eqn:E; [exists t; apply bound_time_ok, E|]. cbn [bound_time] in E. destruct (_ && _); discriminate E.
    - destruct (Hn EValue (f_bounds u s Hl Ha Hw Ef Hb)). }
  destruct (Hb _ (or_introl eq_refl)) as [t0 H0]. destruct (Hb _ (or_intror eq_refl)) as [t1 H1].
  assert (Ham : exists am, match u_amend u with AOmit => am = [] | ADict l => Forall2 (fun q r => key_means (fst q) (fst r) /\ snd q = snd r) l am | AOther => False end).
  { destruct (u_amend u) as [|l|]; [exists []; reflexivity| |destruct (Ha eq_refl)]. specialize (Hk l).
    assert (Hk' : forall v x, In (v, x) l -> exists t, key_means v t) by (intros v x; apply Hk; reflexivity). clear - Hk'.
    induction l as [|[v x] l IH]; [exists []; constructor|]. destruct IH as [am IH]; [intros v' x' Hi; apply (Hk' v' x'); right; exact Hi|].
    destruct (Hk' v x (or_introl eq_refl)) as [t Ht]. exists ((t, x) :: am). constructor; [split; [exact Ht|reflexivity]|exact IH]. }
  destruct Ham as [am Ham]. split; [exact Hl|].
  exists (mkArgs s t0 t1 (read_layout (u_layout u)) am (u_sel u) (u_name u) (u_ref_end u) (u_default u) (u_wt u) (u_num u)).
  unfold same_args. cbn [a_freq a_start a_end a_layout a_amendments a_sel a_name a_ref_end a_default a_wt a_num].
  split; [exact Ef|]. split; [exact H0|]. split; [exact H1|]. split; [apply reads_iff; split; [exact Hp|reflexivity]|]. split; [exact Ham|]. repeat split.
Qed.

(** A key that stands for no instant: nothing is built. *)
Lemma C52_keys_pf : forall (L : Type) nat (u : setup L) h l v x, u_amend u = ADict l -> In (v, x) l -> bad_key v ->
  exists e, construct nat u h = Err e.
Proof.
  intros L nat u h l v x Hl Hi Hb. unfold construct. rewrite Hl.
  destruct (match u_layout u with OOrg _ _ => _ | OList _ => _ | ORem _ => _ | OOther _ => _ end) as [org|e]; [|eexists; reflexivity]. cbn [bind].
  assert (HX : forall (f : frame) w, exists e, (do th <- mk_timeline f org (u_ref_end u) (u_default u) h; do located <- locate_keys nat (fst th) l [];
     let tl := mkTl (tl_frame (fst th)) (tl_index (fst th)) (write_labels (tl_labels (fst th)) located) (tl_band (fst th)) (tl_ref_end (fst th)) in
     let s := mk_schedule tl (u_name u) (u_sel u) in Ok (mkTb tl s [(u_name u, s)] w (u_num u), snd th)) = Err e).
  { intros f w. destruct (mk_timeline f org (u_ref_end u) (u_default u) h) as [th|e]; [|eexists; reflexivity]. cbn [bind].
    enough (E : exists e, locate_keys nat (fst th) l [] = Err e) by (destruct E as [e ->]; eexists; reflexivity).
    assert (Hk : exists e, key_position nat (fst th) v = Err e /\ e <> EOutOfBounds) by (destruct Hb; eexists; (split; [reflexivity|discriminate])).
    generalize (@nil (Z * obj L)). clear Hl Hb. induction l as [|[v' x'] l IH]; [contradiction|]. intros acc. cbn [locate_keys]. destruct Hi as [E|Hi].
    - injection E as -> ->. destruct Hk as (e & -> & He). destruct e; try (eexists; reflexivity). destruct (He eq_refl).
    - specialize (IH Hi). destruct (key_position nat (fst th) v') as [p|[]]; try (eexists; reflexivity); try apply IH. destruct (existsb _ acc); [eexists; reflexivity|apply IH]. }
  destruct (frame_any (u_freq u) (u_start u) (u_end u)) as [f|e]; destruct (u_wt u); cbn [bind]; try (eexists; reflexivity); apply HX.
Qed.

(** A list gives its elements, whatever they are, to the base units in turn. *)
Lemma C52_list_pf : forall (L : Type) nat (u : setup L) h tb h' l, u_layout u = OList l -> u_amend u = AOmit -> construct nat u h = Ok (tb, h') ->
  h' = h /\ tb_len tb = fr_len (tl_frame (tb_tl tb))
  /\ forall i, 0 <= i < tb_len tb ->
     (exists x, (match l with [] => x = u_default u | _ => cycled l i = Some x end) /\ tl_get (tb_tl tb) i = Ok x)
     /\ ws_duration (tb_tl tb) i = Ok 1.
Proof.
  intros L nat u h tb h' l Hl Ha H.
  assert (HN : forall e, ~ fault u e) by (intros e He; rewrite (C52_refused_pf L nat u h e He) in H; discriminate H).
  destruct (C52_complete_pf L u HN) as (Hg & a & Hsame); [rewrite Hl; constructor|intros l' v x E; rewrite Ha in E; discriminate E|].
  rewrite (C52_accepted_pf L nat u a h Hg Hsame) in H. destruct Hsame as (_ & _ & _ & Hr & Ham & _ & _ & _ & Hd & _). rewrite Ha in Ham. rewrite Hl in Hr.
  assert (Hlay : a_layout a = LPat (PList l)) by (inversion Hr; reflexivity).
  destruct (C08_pattern_pf (obj L) a h tb h' l H Ham Hlay) as (H1 & H2 & H3). split; [exact H1|]. split; [exact H2|].
  intros i Hi. destruct (H3 i Hi) as (H4 & _ & _ & H5). rewrite Hd in H4. split; [exact H4|exact H5].
Qed.
