(** Which groupings are accepted (C13). *)
From Verif Require Import Base BaseProofs Civil CivilProofs Freq FreqProofs Frame Timeline Board SpecLookup SpecCivil SpecLayout.
From Coq Require Import ZifyBool ZifyNat.
Open Scope Z_scope.
Ltac Zify.zify_post_hook ::= Z.div_mod_to_equations.

Definition all_names : list alias :=
  [AlS; AlT; AlMin; AlH; AlD; AlW None; AlM; AlQ None; AlA None; AlY; AlL; AlMs; AlU; AlUs; AlN; AlNs]
  ++ map (fun d => AlW (Some d)) (zrange 0 7)
  ++ map (fun m => AlQ (Some m)) (zrange 1 12) ++ map (fun m => AlA (Some m)) (zrange 1 12).
Definition one_name (a : alias) : Prop := match a with AlMore _ _ => False | _ => True end.
Lemma all_names_ok a : real_name a -> one_name a -> In a all_names.
Proof.
  intros H H1. unfold all_names. rewrite !in_app_iff, !in_map_iff.
  destruct a as [| | | | |[d|]| |[m|]|[m|]| | | | | | | |k rest]; cbn [real_name one_name] in H, H1; try contradiction; try (left; cbn; auto 20; fail).
  - right. left. exists d. split; [reflexivity|]. apply zrange_In. lia.
  - right. right. left. exists m. split; [reflexivity|]. apply zrange_In. lia.
  - right. right. right. exists m. split; [reflexivity|]. apply zrange_In. lia.
Qed.

Definition known_b (a : alias) : bool :=
  match a with AlMin | AlMs | AlUs | AlNs | AlY | AlMore _ _ => false | _ => true end.
Definition comparable_b (a b : alias) : bool :=
  known_b a && known_b b &&
  match a, b with
  | AlM, AlM | AlQ _, AlQ _ | AlA _, AlA _ => false
  | AlW x, AlW y => opt_eqb x y
  | _, _ => true
  end.
Lemma opt_eqb_iff x y : opt_eqb x y = true <-> x = y.
Proof.
  destruct x as [x|], y as [y|]; cbn [opt_eqb]; split; intros H; try discriminate; try reflexivity.
  - f_equal. lia.
  - injection H as ->. lia.
Qed.
Lemma known_iff a : known a <-> known_b a = true.
Proof. destruct a; cbn [known known_b]; split; intros H; try contradiction; try discriminate; constructor. Qed.
Lemma comparable_iff a b : comparable a b <-> comparable_b a b = true.
Proof.
  unfold comparable, comparable_b. rewrite !known_iff, !andb_true_iff, and_assoc.
  enough (match a, b with AlM, AlM | AlQ _, AlQ _ | AlA _, AlA _ => False | AlW x, AlW y => x = y | _, _ => True end
    <-> match a, b with AlM, AlM | AlQ _, AlQ _ | AlA _, AlA _ => false | AlW x, AlW y => opt_eqb x y | _, _ => true end = true) by tauto.
  destruct a as [| | | | |x| |x|x| | | | | | | |x r]; destruct b as [| | | | |y| |y|y| | | | | | | |y r'];
    rewrite ?opt_eqb_iff; split; intros H; try contradiction; try discriminate; try assumption; try constructor.
Qed.

(** A start of [b] among a few that is no start of [a]. *)
Definition misses (a b : base) : bool :=
  existsb (fun o => negb (pstart a (pord a (pstart b o)) =? pstart b o)) (zrange 560 13).
Lemma misses_ok a b : misses a b = true -> ~ begins_with a b.
Proof.
  intros H Hb. apply existsb_exists in H. destruct H as (o & _ & H). destruct (Hb o) as [k Hk].
  rewrite <- Hk, pord_pstart in H. lia.
Qed.

Lemma names_sweep :
  forallb (fun a => forallb (fun b => is_subperiod_alias a b || negb (comparable_b a b) || misses (alias_base a) (alias_base b)) all_names) all_names = true.
Proof. vm_cast_no_check (eq_refl true). Qed.

Lemma alias_eqb_iff a b : one_name a -> (alias_eqb a b = true <-> a = b).
Proof.
  destruct a as [| | | | |x| |x|x| | | | | | | |x r]; destruct b as [| | | | |y| |y|y| | | | | | | |y r']; cbn [alias_eqb one_name]; rewrite ?opt_eqb_iff;
    intros H1; split; intros H; try discriminate; try reflexivity; try contradiction; congruence.
Qed.

Lemma sub_comparable a b : is_subperiod_alias a b = true -> comparable_b a b = true.
Proof.
  destruct a as [| | | | |x| |x|x| | | | | | | |x r]; destruct b as [| | | | |y| |y|y| | | | | | | |y r'].
  all: try (intros H; reflexivity).
  all: intros H; exact H.
Qed.

Lemma subperiod_iff a b : real_name a -> real_name b ->
  (is_subperiod_alias a b = true <-> comparable a b /\ begins_with (alias_base a) (alias_base b)).
Proof.
  intros Ha Hb. split.
  - intros H. split; [|exact (is_subperiod_alias_aligned a b H)]. apply comparable_iff.
    exact (sub_comparable a b H).
  - intros [Hc Hw]. pose proof Hc as (Ka & Kb & _). apply comparable_iff in Hc. pose proof names_sweep as S. rewrite forallb_forall in S.
    assert (Na : one_name a) by (destruct a; try exact I; contradiction). assert (Nb : one_name b) by (destruct b; try exact I; contradiction).
    specialize (S a (all_names_ok a Ha Na)). cbv beta in S. rewrite forallb_forall in S. specialize (S b (all_names_ok b Hb Nb)).
    destruct (is_subperiod_alias a b); [reflexivity|]. rewrite Hc in S. exfalso. exact (misses_ok _ _ S Hw).
Qed.

Lemma first_one a : one_name (first_part a).
Proof. destruct a as [| | | | |x| |x|x| | | | | | | |k r]; cbn [first_part one_name]; try exact I. destruct k; exact I. Qed.
Lemma first_real a : real_name a -> real_name (first_part a).
Proof. destruct a as [| | | | |x| |x|x| | | | | | | |k r]; cbn [first_part]; intros H; try exact H. destruct k; exact I. Qed.
Definition lower_b (a : alias) : bool := match a with AlMin | AlMs | AlUs | AlNs => true | _ => false end.
Lemma lower_iff a : lower_case a <-> lower_b a = true.
Proof. destruct a; cbn [lower_case lower_b]; split; intros H; try contradiction; try discriminate; constructor. Qed.
Lemma re_match_first s : re_match s = if lower_b (first_part (falias s)) then None else Some (opt_or (fdigits s) 1%positive, first_part (falias s)).
Proof. unfold re_match. destruct (falias s) as [| | | | |x| |x|x| | | | | | | |k r]; try reflexivity. destruct k; reflexivity. Qed.
Lemma subperiod_parts bu gb : is_subperiod bu gb = true <->
  one_part bu /\ one_part gb /\ fdigits bu = None /\ fdigits gb = None /\ is_subperiod_alias (first_part (falias bu)) (first_part (falias gb)) = true.
Proof.
  unfold is_subperiod, one_part. destruct (fdigits bu) as [n|]; [split; [discriminate|intros (_ & _ & H & _); discriminate]|].
  destruct (fdigits gb) as [n|]; [split; [discriminate|intros (_ & _ & _ & H & _); discriminate]|].
  destruct (falias bu) as [| | | | |x| |x|x| | | | | | | |k r]; destruct (falias gb) as [| | | | |y| |y|y| | | | | | | |j q]; cbn [first_part];
    (split; [intros H|intros (H1 & H2 & _ & _ & H); try contradiction; exact H]).
  all: try (split; [exact I|split; [exact I|split; [reflexivity|split; [reflexivity|exact H]]]]).
  all: exfalso; exact (Bool.diff_false_true H).
Qed.

Lemma C13_accepted_pf : forall bu gb, real_name (falias bu) -> real_name (falias gb) ->
  (may_group bu gb <-> check_groupby_freq bu gb = true).
Proof.
  intros bu gb Ha Hb. unfold may_group, check_groupby_freq. cbv zeta.
  pose proof (subperiod_parts bu gb) as Hsp. rewrite !re_match_first.
  apply first_real in Ha, Hb. pose proof (first_one (falias bu)) as Oa. pose proof (first_one (falias gb)) as Ob.
  unfold times. set (n := fdigits bu) in *. set (k := fdigits gb) in *.
  set (a := first_part (falias bu)) in *. set (b := first_part (falias gb)) in *. clearbody a b.
  pose proof (subperiod_iff a b Ha Hb) as E. rewrite <- E.
  assert (Hnm : is_subperiod_alias a b = true -> lower_b a = false /\ lower_b b = false).
  { intros H. apply E in H. destruct H as [(H1 & H2 & _) _]. split; [destruct a; try reflexivity; contradiction|destruct b; try reflexivity; contradiction]. }
  set (p := opt_or n 1%positive). set (q := opt_or k 1%positive).
  replace (match n with Some n0 => Zpos n0 | None => 1 end) with (Zpos p) by (unfold p; destruct n; reflexivity).
  replace (match k with Some n0 => Zpos n0 | None => 1 end) with (Zpos q) by (unfold q; destruct k; reflexivity).
  clear E. rewrite lower_iff.
  assert (Hmod : (Zpos p | Zpos q) <-> (Zpos q mod Zpos p =? 0) = true) by (rewrite Z.eqb_eq; symmetry; apply Z.mod_divide; lia).
  assert (Rest : (match (if lower_b a then None else Some (p, a)), (if lower_b b then None else Some (q, b)) with
     | Some (bf, ba), Some (gf, ga) =>
        if (Pos.eqb bf 1) && (Pos.eqb gf 1) then false
        else if alias_eqb ba ga then Zpos gf mod Zpos bf =? 0
        else if Pos.eqb bf 1 then is_subperiod_alias ba ga
        else false
     | _, _ => false end) = true
     <-> (~ (Zpos p = 1 /\ Zpos q = 1) /\ a = b /\ ~ lower_b a = true /\ (Zpos p | Zpos q))
         \/ (Zpos p = 1 /\ Zpos q <> 1 /\ a <> b /\ is_subperiod_alias a b = true)).
  { rewrite Hmod. clear Hmod Hsp.
    destruct (lower_b a) eqn:Ea.
    { split; [discriminate|]. intros [(_ & _ & H & _)|(_ & _ & _ & H)]; [destruct H; reflexivity|].
      apply Hnm in H. destruct H. discriminate. }
    destruct (lower_b b) eqn:Eb.
    { split; [discriminate|]. intros [(_ & -> & H & _)|(_ & _ & _ & H)]; [congruence|]. apply Hnm in H. destruct H. discriminate. }
    clear Hnm. pose proof (alias_eqb_iff a b Oa) as Hab.
    assert (Nf : ~ (false = true)) by discriminate.
    destruct (Pos.eqb p 1) eqn:Ep, (Pos.eqb q 1) eqn:Eq; cbn [andb];
      (destruct (alias_eqb a b) eqn:Eab; [pose proof (proj1 Hab eq_refl) as Hx|assert (a <> b) by (intros H; apply Hab in H; discriminate)]);
      (split; [intros H'|intros [(H1 & H2 & H3 & H4)|(H1 & H2 & H3 & H4)]]); try discriminate; try contradiction; try assumption; try lia;
      try (left; split; [lia|]; repeat split; assumption); try (right; split; [lia|]; split; [lia|]; split; assumption). }
  split.
  - intros [H|H]; [apply Hsp in H; rewrite H; reflexivity|].
    destruct (is_subperiod bu gb); [reflexivity|]. apply Rest. exact H.
  - intros H. destruct (is_subperiod bu gb) eqn:Es; [left; apply Hsp; reflexivity|]. right. apply Rest. exact H.
Qed.
