(** Proofs about the printed form of layouts (C56). *)
From Verif Require Import Base Print SpecPrint.

Section P.
  Context {V : Type}.
  Notation pobj := (pobj V).
  Notation lines := (lines V).
  Notation env := (@env V).

  Fixpoint size (x : pobj) : nat :=
    match x with
    | OOrg _ _ (SSeq l) => S (fold_right (fun y n => size y + n)%nat 0%nat l)
    | _ => 1%nat
    end.

  Lemma size_in : forall id d l x, In x l -> (size x < size (OOrg id d (SSeq l)))%nat.
  Proof.
    intros id d l x H. cbn [size]. induction l as [|y l IH]; [destruct H|].
    cbn [fold_right]. destruct H as [->|H]; [lia|]. specialize (IH H). lia.
  Qed.

  Lemma part_size : forall x n w, part x n w -> forall o, w = VOrg o -> (size o <= size x)%nat.
  Proof.
    induction 1 as [| | | |id d l x n w Hin Hp IH]; intros o E; try discriminate.
    - injection E as <-. lia.
    - pose proof (size_in id d l x Hin). specialize (IH _ E). lia.
  Qed.

  Lemma name_eqb_eq : forall a b, name_eqb a b = true <-> a = b.
  Proof.
    intros a b; destruct a, b; cbn [name_eqb]; split; intro H; try discriminate;
      try (apply Z.eqb_eq in H; congruence); injection H as ->; apply Z.eqb_refl.
  Qed.

  Lemma name_dec : forall a b : name, {a = b} + {a <> b}.
  Proof. decide equality; apply Z.eq_dec. Defined.

  Lemma named_snoc : forall n (ls : lines) m x,
    named n (ls ++ [(m, x)]) = named n ls || name_eqb n m.
  Proof. intros. unfold named. rewrite existsb_app. cbn. now rewrite orb_false_r. Qed.

  Lemma named_reads : forall ls (e : env), reads ls e ->
    forall n, named n ls = true <-> exists w, e n = Some w.
  Proof.
    induction 1 as [|ls n x w e e' Hr IH Hn Hx Hw Ho]; intros m.
    - cbn. split; [discriminate|]. now intros [w H].
    - rewrite named_snoc, orb_true_iff, name_eqb_eq, IH. destruct (name_dec m n) as [->|D].
      + split; [|now right]. intros _. eauto.
      + rewrite Ho by exact D. split; [|now left]. now intros [H|H].
  Qed.

  Lemma unnamed_reads : forall ls (e : env), reads ls e -> forall n, named n ls = false -> e n = None.
  Proof.
    intros ls e H n Hn. destruct (e n) eqn:E; [|reflexivity].
    assert (named n ls = true) by (apply (named_reads ls e H); eauto). congruence.
  Qed.

  (** a reading never changes *)
  Lemma reads_elem_fun : forall (e : env) t x x',
    (forall k o, e (NRp k) <> Some (VOrg o)) ->
    reads_elem e t x -> reads_elem e t x' -> x = x'.
  Proof.
    intros e t x x' Hk H H'. destruct H; inversion H'; subst; try congruence;
      exfalso; eapply Hk; eassumption.
  Qed.
  Lemma reads_rp : forall ls (e : env), reads ls e -> forall k o, e (NRp k) <> Some (VOrg o).
  Proof.
    induction 1 as [|ls n x w e e' Hr IH Hn Hx Hw Ho]; intros k o E; [discriminate|].
    destruct (name_dec (NRp k) n) as [<-|D].
    - rewrite Hw in E. injection E as ->. inversion Hx.
    - rewrite Ho in E by exact D. now apply IH in E.
  Qed.
  Lemma reads_elems_fun : forall (e : env) ts l l',
    (forall k o, e (NRp k) <> Some (VOrg o)) ->
    Forall2 (reads_elem e) ts l -> Forall2 (reads_elem e) ts l' -> l = l'.
  Proof.
    intros e ts l l' Hk H. revert l'. induction H; intros l2 H'; inversion H'; subst; [reflexivity|].
    f_equal; [eapply reads_elem_fun; eassumption|auto].
  Qed.
  Lemma reads_structure_fun : forall (e : env) st s s',
    (forall k o, e (NRp k) <> Some (VOrg o)) ->
    reads_structure e st s -> reads_structure e st s' -> s = s'.
  Proof.
    intros e st s s' Hk H H'. destruct H; inversion H'; subst; try congruence.
    f_equal. eapply reads_elems_fun; eassumption.
  Qed.
  Lemma reads_expr_fun : forall (e : env) n x w w',
    (forall k o, e (NRp k) <> Some (VOrg o)) ->
    reads_expr e n x w -> reads_expr e n x w' -> w = w'.
  Proof.
    intros e n x w w' Hk H H'. destruct H; inversion H'; subst; try congruence;
      match goal with A : reads_structure _ ?st ?s, B : reads_structure _ ?st ?s' |- _ =>
        rewrite (reads_structure_fun _ _ _ _ Hk A B) in * end; congruence.
  Qed.

  Lemma env_ext_elem : forall (e e' : env), (forall n w, e n = Some w -> e' n = Some w) ->
    forall t x, reads_elem e t x -> reads_elem e' t x.
  Proof. intros e e' H t x Hr; destruct Hr; [apply re_org|apply re_rp|apply re_val]; auto. Qed.
  Lemma env_ext_structure : forall (e e' : env), (forall n w, e n = Some w -> e' n = Some w) ->
    forall t x, reads_structure e t x -> reads_structure e' t x.
  Proof.
    intros e e' H t x Hr; destruct Hr; constructor; auto.
    induction H0; constructor; [eapply env_ext_elem; eassumption|assumption].
  Qed.
  Lemma env_ext_expr : forall (e e' : env), (forall n w, e n = Some w -> e' n = Some w) ->
    forall n t x, reads_expr e n t x -> reads_expr e' n t x.
  Proof.
    intros e e' H n t x Hr; destruct Hr; constructor; auto; eapply env_ext_structure; eassumption.
  Qed.

  Lemma reads_fun : forall ls (e e' : env), reads ls e -> reads ls e' -> forall n, e n = e' n.
  Proof.
    intros ls e e' H. revert e'. induction H as [|ls n x w e e1 Hr IH Hn Hx Hw Ho]; intros e' H' m.
    - inversion H' as [|ls' ? ? ? ? ? ? ? ? ? ? E]; [reflexivity|]. now destruct ls'.
    - inversion H' as [E|ls' n' x' w' e0 e1' Hr' Hn' Hx' Hw' Ho' E]; [now destruct ls|].
      subst. apply app_inj_tail in E. destruct E as [-> E]. injection E as -> ->.
      specialize (IH _ Hr').
      assert (W : w = w').
      { eapply reads_expr_fun; [eapply reads_rp; exact Hr'| |exact Hx'].
        eapply env_ext_expr; [|exact Hx]. intros k v Hk. now rewrite <- IH. }
      subst w'. destruct (name_dec m n) as [->|D]; [congruence|].
      rewrite Ho, Ho' by exact D. apply IH.
  Qed.

  Definition sub (e e' : env) : Prop := forall n w, e n = Some w -> e' n = Some w.
  Definition closed (e : env) : Prop :=
    forall n o, e n = Some (VOrg o) -> forall m w, part o m w -> e m = Some w.
  Definition into (P : name -> value -> Prop) (e : env) : Prop := forall n w, P n w -> e n = Some w.

  Definition extend (e : env) (n : name) (w : value) : env :=
    fun m => if name_dec m n then Some w else e m.

  (** what a step of printing achieves: [P] are the parts it has to write down *)
  Definition step (P : name -> value -> Prop) (ls ls' : lines) : Prop :=
    forall e, reads ls e -> closed e -> (forall n w w', P n w -> e n = Some w' -> w = w') ->
    exists e', reads ls' e' /\ closed e' /\ sub e e' /\
      (forall n w, e' n = Some w -> e n = Some w \/ P n w) /\ into P e'.

  Lemma add_line_step : forall n v ls,
    step (fun m w => m = n /\ w = VLit v) ls (add_line n v ls).
  Proof.
    intros n v ls e Hr Hc Hid. unfold add_line. destruct (named n ls) eqn:En.
    - apply (named_reads ls e Hr) in En. destruct En as [w' Ew].
      exists e. repeat apply conj; [exact Hr|exact Hc|intros m w H; exact H|auto|].
      intros m w [-> ->]. rewrite Ew. f_equal. symmetry. apply (Hid n); auto.
    - pose proof (unnamed_reads ls e Hr n En) as Hn.
      exists (extend e n (VLit v)). repeat apply conj.
      + apply (reads_line ls n (XVal v) (VLit v) e); auto.
        * constructor.
        * unfold extend. now destruct (name_dec n n).
        * intros m Hm. unfold extend. now destruct (name_dec m n).
      + intros m o E k w Hk. unfold extend in E |- *. destruct (name_dec m n); [discriminate|].
        pose proof (Hc m o E k w Hk) as Ek. destruct (name_dec k n) as [->|]; [congruence|exact Ek].
      + intros m w E. unfold extend. destruct (name_dec m n) as [->|]; [congruence|exact E].
      + intros m w E. unfold extend in E. destruct (name_dec m n) as [->|]; [right|now left].
        injection E as <-. auto.
      + intros m w [-> ->]. unfold extend. now destruct (name_dec n n).
  Qed.

  Lemma none_step : forall ls, step (fun _ _ => False) ls ls.
  Proof.
    intros ls e Hr Hc Hid. exists e. repeat apply conj; auto.
    - intros n w H; exact H.
    - intros n w [].
  Qed.

  Lemma step_iff : forall (P Q : name -> value -> Prop) ls ls', (forall n w, P n w <-> Q n w) -> step P ls ls' -> step Q ls ls'.
  Proof.
    intros P Q ls ls' H S e Hr Hc Hid.
    destruct (S e Hr Hc) as (e' & H1 & H2 & H3 & H4 & H5).
    - intros n w w' Hp. apply Hid. now apply H.
    - exists e'. repeat apply conj; auto.
      + intros n w E. destruct (H4 n w E); [now left|right; now apply H].
      + intros n w Hq. apply H5. now apply H.
  Qed.

  Lemma step_seq : forall (P Q : name -> value -> Prop) l1 l2 l3,
    (forall n w w', P n w -> Q n w' -> w = w') ->
    step P l1 l2 -> step Q l2 l3 -> step (fun n w => P n w \/ Q n w) l1 l3.
  Proof.
    intros P Q l1 l2 l3 HPQ S1 S2 e Hr Hc Hid.
    destruct (S1 e Hr Hc) as (e1 & R1 & C1 & U1 & O1 & I1); [intros n w w' Hp; apply Hid; now left|].
    destruct (S2 e1 R1 C1) as (e2 & R2 & C2 & U2 & O2 & I2).
    - intros n w w' Hq E. destruct (O1 _ _ E) as [E'|Hp].
      + apply (Hid n); auto.
      + symmetry. eapply HPQ; eassumption.
    - exists e2. repeat apply conj; auto.
      + intros n w E. auto.
      + intros n w E. destruct (O2 _ _ E) as [E'|Hq]; [|auto]. destruct (O1 _ _ E'); auto.
      + intros n w [Hp|Hq]; auto.
  Qed.

  (** the terms written for the elements of a structure *)
  Definition elem_term (x : pobj) : term V :=
    match x with OOrg id _ _ => TName (NOrg id) | ORp id _ => TName (NRp id) | OVal v => TVal v end.
  Definition lparts (l : list pobj) (n : name) (w : value) : Prop := exists x, In x l /\ part x n w.

  Lemma elem_terms : forall l ls, fst (elem_reprs repr_builder l ls) = map elem_term l.
  Proof.
    induction l as [|x l IH]; intros ls; [reflexivity|]. cbn [elem_reprs map].
    destruct x; cbn [elem_term];
      match goal with |- context [let (_, _) := ?g ?a ?b in _] => change (g a b) with (elem_reprs repr_builder a b) end;
      match goal with |- context [elem_reprs repr_builder l ?b] =>
        specialize (IH b); destruct (elem_reprs repr_builder l b) as [ts ls2] end;
      cbn [fst] in *; now rewrite IH.
  Qed.

  Lemma elem_read : forall (e : env) l, into (lparts l) e -> Forall2 (reads_elem e) (map elem_term l) l.
  Proof.
    intros e l H. induction l as [|x l IH]; cbn [map]; constructor.
    - destruct x as [id d st|id v|v]; cbn [elem_term]; [apply re_org|apply re_rp|apply re_val]; apply H;
        eexists; (split; [now left|]); constructor.
    - apply IH. intros n w (y & Hy & Hp). apply H. exists y. split; [now right|exact Hp].
  Qed.

  Lemma builder_step : forall k x, (size x < k)%nat -> identified x ->
    (exists id d st, x = OOrg id d st) ->
    forall ls, step (part x) ls (repr_builder x ls).
  Proof.
    induction k as [|k IHk]; intros x Hk Hx (id & d & st & ->) ls; [lia|].
    cbn [repr_builder]. destruct (named (NOrg id) ls) eqn:En.
    { intros e Hr Hc Hid. apply (named_reads ls e Hr) in En. destruct En as [w' Ew].
      assert (W : VOrg (OOrg id d st) = w') by (apply (Hid (NOrg id)); [constructor|exact Ew]).
      subst w'. exists e. repeat apply conj; auto; intros n w H; [exact H|].
      exact (Hc _ _ Ew n w H). }
    set (PM := fun n (w : @value V) => exists j v, d = PMarker j v /\ n = NMrk j /\ w = VLit v).
    assert (SM : forall ls, step PM ls (arg_m d ls)).
    { intros ls0. destruct d as [j v|v|v]; cbn [arg_m].
      - eapply step_iff; [|apply add_line_step]. intros n w. unfold PM. split.
        + intros [-> ->]. eauto.
        + intros (j' & v' & E & -> & ->). injection E as -> ->. auto.
      - eapply step_iff; [|apply none_step]. intros n w. unfold PM. split; [intros []|].
        intros (j' & v' & E & _). discriminate.
      - eapply step_iff; [|apply none_step]. intros n w. unfold PM. split; [intros []|].
        intros (j' & v' & E & _). discriminate. }
    set (PS := fun n (w : @value V) =>
           match st with
           | SRp j v => n = NRp j /\ w = VLit v
           | SSeq l => lparts l n w
           | SIter _ => False
           end).
    assert (Hparts : forall n w, part (OOrg id d st) n w <->
              (n = NOrg id /\ w = VOrg (OOrg id d st)) \/ PM n w \/ PS n w).
    { intros n w. split.
      - intros H. inversion H; subst; auto.
        + right; left. unfold PM. eauto.
        + right; right. unfold PS. eauto.
        + right; right. unfold PS, lparts. eauto.
      - intros [[-> ->]|[(j & v & -> & -> & ->)|H]].
        + constructor.
        + constructor.
        + unfold PS in H. destruct st as [l|j v|v].
          * destruct H as (x & Hin & Hp). econstructor; eassumption.
          * destruct H as [-> ->]. constructor.
          * destruct H. }
    (* the lines before the organizer's own *)
    assert (Hlast : forall ls' sx,
              step PS (arg_m d ls) ls' ->
              (forall e, into PS e -> reads_structure e sx st) ->
              step (part (OOrg id d st)) ls (ls' ++ [(NOrg id, org_line d sx)])).
    { intros ls' sx S2 Hsx e Hr Hc Hid.
      assert (S12 : step (fun n w => PM n w \/ PS n w) ls ls').
      { eapply step_seq; [|apply SM|exact S2]. intros n w w' H1 H2.
        apply (Hx n); apply Hparts; auto. }
      destruct (S12 e Hr Hc) as (e1 & R1 & C1 & U1 & O1 & I1).
      { intros n w w' H. apply Hid. apply Hparts. now right. }
      pose proof (unnamed_reads ls e Hr _ En) as En'.
      assert (N1 : e1 (NOrg id) = None).
      { destruct (e1 (NOrg id)) as [w|] eqn:E; [exfalso|reflexivity].
        destruct (O1 _ _ E) as [E'|H]; [congruence|].
        assert (Hw : w = VOrg (OOrg id d st)).
        { apply (Hx (NOrg id)); [apply Hparts; now right|constructor]. }
        destruct H as [(j & v & _ & A & _)|H]; [discriminate|].
        unfold PS in H. destruct st as [l|j v|v]; [|destruct H as [A _]; discriminate|destruct H].
        destruct H as (x & Hin & Hp). pose proof (size_in id d l x Hin).
        pose proof (part_size x _ _ Hp _ Hw). lia. }
      exists (extend e1 (NOrg id) (VOrg (OOrg id d st))).
      assert (Hext : sub e1 (extend e1 (NOrg id) (VOrg (OOrg id d st)))).
      { intros m w E. unfold extend. destruct (name_dec m (NOrg id)) as [->|]; [congruence|exact E]. }
      assert (Hinto : into (part (OOrg id d st)) (extend e1 (NOrg id) (VOrg (OOrg id d st)))).
      { intros n w H. apply Hparts in H. destruct H as [[-> ->]|H].
        - unfold extend. now destruct (name_dec (NOrg id) (NOrg id)).
        - apply Hext, I1, H. }
      repeat apply conj.
      - apply (reads_line ls' (NOrg id) _ (VOrg (OOrg id d st)) e1); [exact R1|exact N1| | |].
        + assert (Hst : reads_structure e1 sx st) by (apply Hsx; intros n w H; apply I1; now right).
          destruct d as [j v|v|v]; cbn [org_line];
            [apply rx_marker|apply rx_plain|apply rx_marks]; try exact Hst.
          apply I1. left. unfold PM. eauto.
        + unfold extend. now destruct (name_dec (NOrg id) (NOrg id)).
        + intros m Hm. unfold extend. now destruct (name_dec m (NOrg id)).
      - intros n o E m w Hp. unfold extend in E. destruct (name_dec n (NOrg id)) as [->|D].
        + injection E as <-. now apply Hinto.
        + apply Hext. eapply C1; eassumption.
      - intros n w E. apply Hext. now apply U1.
      - intros n w E. unfold extend in E. destruct (name_dec n (NOrg id)) as [->|D].
        + injection E as <-. right. constructor.
        + destruct (O1 _ _ E) as [E'|H]; [now left|right]. apply Hparts. now right.
      - exact Hinto. }
    destruct st as [l|j v|v].
    - assert (Hl : forall l', incl l' l -> forall ls,
                step (lparts l') ls (snd (elem_reprs repr_builder l' ls))).
      { induction l' as [|x l' IHl]; intros Hi ls0.
        - cbn [elem_reprs snd]. eapply step_iff; [|apply none_step].
          intros n w. split; [intros []|]. now intros (x & [] & _).
        - assert (Hin : In x l) by (apply Hi; now left).
          assert (Hix : identified x).
          { intros n w w' H1 H2. apply (Hx n); apply Hparts; right; right; exists x; auto. }
          assert (Sx : step (part x) ls0
                    (match x with
                     | OOrg i _ _ => if named (NOrg i) ls0 then ls0 else repr_builder x ls0
                     | ORp i v => add_line (NRp i) v ls0
                     | OVal _ => ls0
                     end)).
          { destruct x as [i d' st'|i v|v].
            - assert (B : step (part (OOrg i d' st')) ls0 (repr_builder (OOrg i d' st') ls0)).
              { apply IHk; [pose proof (size_in id d l _ Hin); lia|exact Hix|eauto]. }
              cbn [repr_builder] in B |- *. destruct (named (NOrg i) ls0); exact B.
            - eapply step_iff; [|apply add_line_step]. intros n w. split.
              + intros [-> ->]. constructor.
              + intros H. inversion H; auto.
            - eapply step_iff; [|apply none_step]. intros n w. split; [intros []|]. intros H; inversion H. }
          assert (E : snd (elem_reprs repr_builder (x :: l') ls0) =
                      snd (elem_reprs repr_builder l'
                        (match x with
                         | OOrg i _ _ => if named (NOrg i) ls0 then ls0 else repr_builder x ls0
                         | ORp i v => add_line (NRp i) v ls0
                         | OVal _ => ls0
                         end))).
          { destruct x; cbn [elem_reprs];
              match goal with |- context [let (_, _) := ?g ?a ?b in _] =>
                change (g a b) with (elem_reprs repr_builder a b) end;
              match goal with |- context [elem_reprs repr_builder l' ?b] =>
                destruct (elem_reprs repr_builder l' b) end; reflexivity. }
          rewrite E.
          eapply step_iff; [|eapply step_seq; [|exact Sx|apply IHl]].
          + intros n w. unfold lparts. split.
            * intros [H|(y & Hy & H)]; [exists x; split; [now left|exact H]|exists y; split; [now right|exact H]].
            * intros (y & [<-|Hy] & H); [now left|right; eauto].
          + intros n w w' H1 (y & Hy & H2). apply (Hx n); apply Hparts; right; right;
              [exists x|exists y]; split; auto. apply Hi. now right.
          + intros y Hy. apply Hi. now right. }
      specialize (Hl l (incl_refl l) (arg_m d ls)).
      pose proof (elem_terms l (arg_m d ls)) as Ht.
      destruct (elem_reprs repr_builder l (arg_m d ls)) as [ts ls2]. cbn [fst snd] in *. subst ts.
      apply Hlast; [exact Hl|]. intros e He. constructor. now apply elem_read.
    - apply Hlast; [apply add_line_step|]. intros e He. constructor. apply He. split; reflexivity.
    - apply Hlast; [apply none_step|]. intros e He. constructor.
  Qed.

End P.

Lemma C56_read_pf : forall (V : Type) (id : Z) (d : pdiv V) (st : pstruct V),
  identified (OOrg id d st) ->
  (exists e, reads (repr_builder (OOrg id d st) []) e) /\
  (forall e, reads (repr_builder (OOrg id d st) []) e ->
     forall n w, e n = Some w <-> part (OOrg id d st) n w).
Proof.
  intros V id d st Hx.
  destruct (builder_step (S (size (OOrg id d st))) _ (Nat.lt_succ_diag_r _) Hx
              (ex_intro _ id (ex_intro _ d (ex_intro _ st eq_refl))) [] (fun _ => None))
    as (e & R & _ & _ & O & I).
  - constructor.
  - intros n o E. discriminate.
  - intros n w w' _ E. discriminate.
  - split; [exists e; exact R|]. intros e' R' n w. rewrite (reads_fun _ _ _ R' R n). split.
    + intros E. destruct (O n w E) as [A|A]; [discriminate|exact A].
    + apply I.
Qed.

Lemma builder_last : forall (V : Type) id (d : pdiv V) st ls, named (NOrg id) ls = false ->
  exists ls' x, repr_builder (OOrg id d st) ls = ls' ++ [(NOrg id, x)].
Proof.
  intros V id d st ls H. cbn [repr_builder]. rewrite H.
  destruct st as [l|j v|v]; [|eauto|eauto].
  destruct (elem_reprs repr_builder l (arg_m d ls)) as [ts ls2]. eauto.
Qed.

Lemma C56_organizer_pf : forall (V : Type) (id : Z) (d : pdiv V) (st : pstruct V),
  identified (OOrg id d st) ->
  exists ls x e, org_repr (OOrg id d st) = Some (ls, x) /\ reads ls e /\
    reads_expr e (NOrg id) x (VOrg (OOrg id d st)) /\
    (forall n w, e n = Some w <-> part (OOrg id d st) n w /\ n <> NOrg id).
Proof.
  intros V id d st Hx. destruct (C56_read_pf V id d st Hx) as [[e R] U].
  specialize (U e R). unfold org_repr.
  destruct (builder_last V id d st [] eq_refl) as (ls & x & E). rewrite E in *.
  rewrite rev_app_distr. cbn [rev app]. rewrite rev_involutive.
  inversion R as [A|ls' n' x' w e0 e1 Hr Hn Hxx Hw Ho A]; [now destruct ls|].
  subst. apply app_inj_tail in A. destruct A as [-> A]. injection A as -> ->.
  assert (W : w = VOrg (OOrg id d st)).
  { apply (Hx (NOrg id)); [|constructor]. now apply U. }
  subst w. exists ls, x, e0. repeat apply conj; auto.
  intros n w. split.
  - intros H. assert (D : n <> NOrg id) by congruence. split; [|exact D]. apply U. now rewrite Ho.
  - intros [H D]. rewrite <- Ho by exact D. now apply U.
Qed.

Lemma C56_timeboard_pf : forall (V : Type) (id : Z) (d : pdiv V) (st : pstruct V) (v none : V),
  (identified (OOrg id d st) ->
   exists ls e, tb_repr (OOrg id d st) none = Some (ls, inl (NOrg id)) /\ reads ls e /\
     e (NOrg id) = Some (VOrg (OOrg id d st))) /\
  (exists x, tb_repr (OVal v) none = Some ([], inr ([], x)) /\
     forall w, reads_expr (fun _ => None) (NOrg 0) x w <->
       w = VOrg (OOrg 0 (PMarks none) (SSeq [OVal v]))).
Proof.
  intros V id d st v none. split.
  - intros Hx. destruct (C56_read_pf V id d st Hx) as [[e R] U].
    exists (repr_builder (OOrg id d st) []), e. repeat split; [exact R|].
    apply (U e R). constructor.
  - eexists. split; [reflexivity|]. intros w. split.
    + intros H. inversion H as [| | |? ? ? s Hs]; subst. inversion Hs as [ts l Hl| |]; subst.
      inversion Hl as [|? ? ? ? He Hn]; subst. inversion Hn; subst. inversion He; subst. reflexivity.
    + intros ->. repeat constructor.
Qed.
