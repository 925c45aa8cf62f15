(** Proofs about the preconfigured calendars, part 6: UK. *)
From Verif Require Import Base BaseProofs Civil CivilProofs Freq FreqProofs Frame FrameProofs Timeline Board Spec SpecLookup SpecLayout When SpecWhen EasterProofs Calendars SpecCal CalProofs SeekProofs ExtendProofs HolidayProofs YearProofs LongProofs.
From Coq Require Import ZifyBool ZifyNat String.
Open Scope string_scope.
Open Scope Z_scope.
Ltac Zify.zify_post_hook ::= Z.div_mod_to_equations.

Definition uk_need (hol : Z -> bool) (d : Z) : option Z :=
  if hol d then Some (year_of d)
  else let w := weekday d in
       if w <=? 4 then
         let monday := d - w in
         let k := zlen (filter hol [monday - 2; monday - 1]) in
         if k =? 0 then None
         else if zlen (filter (fun e => negb (hol e)) (zrange monday (Z.to_nat w))) <? k then Some (year_of d) else None
       else None.
Lemma uk_long_sweep : forallb (long_check HNext uk_need 2000 2020) (sublists (map snd uk_fixed)) = true.
Proof. vm_cast_no_check (eq_refl true). Qed.
Lemma uk_years_ok : years_ok (map snd uk_fixed).
Proof. apply years_ok_sweep. vm_compute. reflexivity. Qed.
Definition uk_seeks : list seek := [(5, 1, 1, 0); (5, 1, -1, 0); (8, 1, 1, 0); (8, 1, -1, 0)].
Lemma uk_float_sweep : sweep (float_ok (map snd uk_fixed) uk_seeks) 2000 21 = true.
Proof. vm_cast_no_check (eq_refl true). Qed.
Lemma uk_valid : Forall seek_valid uk_seeks.
Proof. unfold uk_seeks. repeat constructor; try lia. Qed.
Lemma uk_floating_seeks c name s : In (name, s) (uk_floating c) -> In s uk_seeks.
Proof.
  unfold uk_floating. intros [H|[H|[H|[]]]]; assert (s = snd (name, s)) as -> by reflexivity; rewrite <- H; cbn [snd];
    [|  |destruct (String.eqb c "scotland")]; unfold uk_seeks; cbn [In]; tauto.
Qed.
Lemma uk_easter_sweep : sweep (fun y => forallb (fun k => let d := easter_gregorian y + k in
    (easter false y =? easter_gregorian y) && (year_of d =? y) && negb (fixb (map snd uk_fixed) d)
    && negb (d =? date 2002 5 27) && negb (d =? date 2012 5 28)) [-2; 1]) 2000 21 = true.
Proof. vm_cast_no_check (eq_refl true). Qed.
Lemma uk_easter_ok y k : 2000 <= y <= 2020 -> In k [-2; 1] -> let d := easter_gregorian y + k in
  easter false y = easter_gregorian y /\ year_of d = y /\ fixb (map snd uk_fixed) d = false /\ d <> date 2002 5 27 /\ d <> date 2012 5 28.
Proof.
  intros Hy Hk d. pose proof (year_sweep _ _ _ uk_easter_sweep y ltac:(lia)) as H. cbv beta in H. rewrite forallb_forall in H. specialize (H k Hk). cbv zeta in H. fold d in H.
  generalize dependent (date 2002 5 27). generalize (date 2012 5 28). intros a b H. repeat (apply andb_prop in H; destruct H as [H ?]).
  destruct (fixb (map snd uk_fixed) d); [discriminate|]. split; [lia|]. split; [lia|]. split; [reflexivity|]. split; lia.
Qed.

Lemma uk_need_local : need_local uk_need.
Proof.
  intros hol d y. unfold uk_need. destruct (hol d) eqn:E0; [intros _; exists d; split; [exact E0|lia]|]. cbv zeta.
  destruct (weekday d <=? 4) eqn:Ew; [|discriminate]. assert (Hw : 0 <= weekday d <= 4) by (unfold weekday in *; lia). remember (weekday d) as w. clear Heqw.
  cbn [filter]. destruct (hol (d - w - 2)) eqn:E2; [intros _; exists (d - w - 2); split; [exact E2|lia]|].
  destruct (hol (d - w - 1)) eqn:E1; [intros _; exists (d - w - 1); split; [exact E1|lia]|]. change (zlen (@nil Z) =? 0) with true. discriminate.
Qed.
Lemma uk_need_ext h1 h2 d : (forall e, d - 6 <= e <= d -> h1 e = h2 e) -> uk_need h1 d = uk_need h2 d.
Proof.
  intros H. unfold uk_need. rewrite (H d) by lia. destruct (h2 d); [reflexivity|]. cbv zeta. destruct (weekday d <=? 4) eqn:Ew; [|reflexivity].
  assert (Hw : 0 <= weekday d <= 4) by (unfold weekday in *; lia). remember (weekday d) as w. clear Heqw.
  assert (Ef : filter h1 [d - w - 2; d - w - 1] = filter h2 [d - w - 2; d - w - 1]) by (cbn [filter]; rewrite !H by lia; reflexivity). rewrite Ef.
  assert (Eg : filter (fun e => negb (h1 e)) (zrange (d - w) (Z.to_nat w)) = filter (fun e => negb (h2 e)) (zrange (d - w) (Z.to_nat w))).
  { apply filter_ext_in. intros e He. apply zrange_In in He. rewrite H by lia. reflexivity. }
  rewrite Eg. reflexivity.
Qed.
Lemma uk_need_instead h d y : uk_need h d = Some y <-> y = year_of d /\ (h d = true \/ instead h d).
Proof.
  unfold uk_need, instead. destruct (h d) eqn:E0.
  - split; [intros H; assert (y = year_of d) by congruence; tauto|]. intros [-> _]. reflexivity.
  - cbv zeta. destruct (weekday d <=? 4) eqn:Ew.
    + destruct (zlen (filter h [d - weekday d - 2; d - weekday d - 1]) =? 0) eqn:Ek.
      * split; [discriminate|]. intros [_ [C|(_ & _ & C)]]; [discriminate|]. exfalso. pose proof (zlen_nonneg (filter (fun e => negb (h e)) (zrange (d - weekday d) (Z.to_nat (weekday d))))). lia.
      * destruct (zlen (filter (fun e => negb (h e)) (zrange (d - weekday d) (Z.to_nat (weekday d)))) <? zlen (filter h [d - weekday d - 2; d - weekday d - 1])) eqn:E.
        -- split; [intros H; assert (y = year_of d) by congruence|intros [-> _]; reflexivity]. split; [assumption|]. right. split; [reflexivity|]. split; [lia|]. apply Z.ltb_lt, E.
        -- split; [discriminate|]. intros [_ [C|(_ & _ & C)]]; [discriminate|]. apply Z.ltb_lt in C. congruence.
    + split; [discriminate|]. intros [_ [C|(_ & C & _)]]; [discriminate|lia].
Qed.

(** What a country adds to the ignored names. *)
Lemma uk_skip_app c skip : uk_skip c skip = (skip ++ uk_skip c [])%list.
Proof. reflexivity. Qed.
Lemma uk_country c : uk_skip c [] = ["new_year2"; "st_patricks"; "orangemens"; "st_andrews"] /\ uk_dates c = [("new_year", (1, 1)); ("christmas", (12, 25)); ("boxing", (12, 26))] /\ String.eqb c "scotland" = false
  \/ uk_skip c [] = ["st_patricks"; "orangemens"; "easter_monday"] /\ uk_dates c = [("new_year", (1, 1)); ("christmas", (12, 25)); ("boxing", (12, 26)); ("new_year2", (1, 2)); ("st_andrews", (11, 30))] /\ String.eqb c "scotland" = true
  \/ uk_skip c [] = ["new_year2"; "st_andrews"] /\ uk_dates c = [("new_year", (1, 1)); ("christmas", (12, 25)); ("boxing", (12, 26)); ("st_patricks", (3, 17)); ("orangemens", (7, 12))] /\ String.eqb c "scotland" = false
  \/ uk_skip c [] = [] /\ uk_dates c = [("new_year", (1, 1)); ("christmas", (12, 25)); ("boxing", (12, 26)); ("new_year2", (1, 2)); ("st_andrews", (11, 30)); ("st_patricks", (3, 17)); ("orangemens", (7, 12))] /\ String.eqb c "scotland" = false.
Proof.
  unfold uk_skip, uk_dates. destruct (String.eqb c "england") eqn:E1.
  - apply String.eqb_eq in E1. subst c. left. split; [reflexivity|]. split; reflexivity.
  - destruct (String.eqb c "scotland") eqn:E2.
    + apply String.eqb_eq in E2. subst c. right. left. split; [reflexivity|]. split; reflexivity.
    + destruct (String.eqb c "northern_ireland") eqn:E3.
      * apply String.eqb_eq in E3. subst c. right. right. left. split; [reflexivity|]. split; reflexivity.
      * right. right. right. split; [reflexivity|]. split; reflexivity.
Qed.

Definition entryb (name : string) (l : list string) : bool := existsb (String.eqb name) l.
Lemma entryb_iff name l : entryb name l = true <-> In name l.
Proof. apply skips_iff. Qed.
Lemma uk_fixed_entry c skip name md : In (name, md) uk_fixed /\ ~ In name (uk_skip c skip) <-> In (name, md) (uk_dates c) /\ ~ In name skip.
Proof.
  rewrite uk_skip_app, in_app_iff.
  assert (Hd : In (name, md) uk_fixed -> entryb name (uk_skip c []) = false -> In (name, md) (uk_dates c)).
  { intros H. destruct (uk_country c) as [(-> & -> & _)|[(-> & -> & _)|[(-> & -> & _)|(-> & -> & _)]]]; unfold uk_fixed in H; cbn [In] in H |- *;
      repeat (destruct H as [H|H]; [intros E; first [tauto|exfalso; assert (name = fst (name, md)) as En by reflexivity; rewrite <- H in En; cbn [fst] in En; subst name; vm_compute in E; discriminate]|]); contradiction. }
  assert (Hd2 : In (name, md) (uk_dates c) -> In (name, md) uk_fixed /\ entryb name (uk_skip c []) = false).
  { intros H. destruct (uk_country c) as [(-> & E2 & _)|[(-> & E2 & _)|[(-> & E2 & _)|(-> & E2 & _)]]]; rewrite E2 in H; unfold uk_fixed; cbn [In] in H |- *;
      repeat (destruct H as [H|H]; [split; [tauto|assert (name = fst (name, md)) as -> by reflexivity; rewrite <- H; vm_compute; reflexivity]|]); contradiction. }
  split.
  - intros [H1 H2]. split; [|tauto]. apply Hd; [exact H1|]. destruct (entryb name (uk_skip c [])) eqn:E; [|reflexivity]. apply entryb_iff in E. tauto.
  - intros [H1 H2]. destruct (Hd2 H1) as [H3 H4]. split; [exact H3|]. intros [C|C]; [tauto|]. apply entryb_iff in C. congruence.
Qed.
Lemma fixed_on_In tbl skip d : fixed_on tbl skip d = true <-> exists name m dd, In (name, (m, dd)) tbl /\ ~ In name skip /\ d = date (year_of d) m dd.
Proof.
  rewrite fixed_fixb, fixb_In. split.
  - intros (m & dd & Hin & E). apply named_In in Hin. destruct Hin as (name & A & B). exists name, m, dd. split; [exact A|]. split; [exact B|exact E].
  - intros (name & m & dd & A & B & E). exists m, dd. split; [apply named_In; exists name; split; assumption|exact E].
Qed.
Lemma uk_fixed_eq c skip d : fixed_on uk_fixed (uk_skip c skip) d = fixed_on (uk_dates c) skip d.
Proof.
  apply eq_true_iff_eq. rewrite !fixed_on_In. split; intros (name & m & dd & A & B & E); exists name, m, dd;
    [destruct (proj1 (uk_fixed_entry c skip name (m, dd)) (conj A B)) as [C D]|destruct (proj2 (uk_fixed_entry c skip name (m, dd)) (conj A B)) as [C D]];
    (split; [exact C|]; split; [exact D|exact E]).
Qed.
Lemma uk_float_entry c skip name s : In (name, s) (uk_floating c) /\ ~ In name (uk_skip c skip) <-> In (name, s) (uk_weekdays c) /\ ~ In name skip.
Proof.
  rewrite uk_skip_app, in_app_iff. change (uk_weekdays c) with (uk_floating c). split; [tauto|]. intros [H1 H2]. split; [exact H1|]. intros [C|C]; [tauto|].
  apply entryb_iff in C. unfold uk_floating in H1. cbn [In] in H1.
  destruct (uk_country c) as [(E & _)|[(E & _)|[(E & _)|(E & _)]]]; rewrite E in C;
    (destruct H1 as [H|[H|[H|[]]]]; assert (name = fst (name, s)) as En by reflexivity; rewrite <- H in En; cbn [fst] in En; subst name; vm_compute in C; discriminate).
Qed.
Lemma uk_easter_entry c skip name k : In (name, k) uk_easter /\ ~ In name (uk_skip c skip) <-> In (name, k) (uk_easters c) /\ ~ In name skip.
Proof.
  rewrite uk_skip_app, in_app_iff. unfold uk_easters, uk_easter.
  assert (Hd : In (name, k) [("good_friday", -2); ("easter_monday", 1)] /\ entryb name (uk_skip c []) = false <-> In (name, k) (("good_friday", -2) :: (if String.eqb c "scotland" then [] else [("easter_monday", 1)]))).
  { destruct (uk_country c) as [(E & _ & E2)|[(E & _ & E2)|[(E & _ & E2)|(E & _ & E2)]]]; rewrite E, E2; cbn [In]; split.
    all: try (intros [[H|[H|[]]] C]; assert (name = fst (name, k)) as En by reflexivity; rewrite <- H in En; cbn [fst] in En; subst name; first [tauto|vm_compute in C; discriminate]).
    all: intros H; (split; [tauto|]); repeat (destruct H as [H|H]; [assert (name = fst (name, k)) as -> by reflexivity; rewrite <- H; vm_compute; reflexivity|]); contradiction. }
  rewrite <- Hd. destruct (entryb name (uk_skip c [])) eqn:E.
  - apply entryb_iff in E. split; [tauto|]. intros [[_ C] _]. discriminate.
  - assert (~ In name (uk_skip c [])) by (intros C; apply entryb_iff in C; congruence). tauto.
Qed.
Lemma uk_royal c skip : ~ In "royal" (uk_skip c skip) <-> ~ In "royal" skip.
Proof.
  rewrite uk_skip_app, in_app_iff. assert (Hn : ~ In "royal" (uk_skip c [])); [|tauto]. intros C. apply entryb_iff in C.
  destruct (uk_country c) as [(E & _)|[(E & _)|[(E & _)|(E & _)]]]; rewrite E in C; vm_compute in C; discriminate.
Qed.

Lemma zdict_easter (l : list Z) H P y : 2000 <= y <= 2020 -> (forall k, In k l -> In k [-2; 1]) -> zdict H P ->
  zdict (dict_update akey_eqb H (map tskey (cb_from_easter y l false 0))) (fun k => P k \/ exists s, In s l /\ k = KTs ((easter_gregorian y + s) * NS_DAY)).
Proof.
  intros Hy Hl HP. unfold cb_from_easter. set (f := dict_update Z.eqb [] (map (fun s => ((easter false y + s) * NS_DAY, 0)) l)).
  assert (V : forall t x, In (t, x) f <-> (exists s, In s l /\ t = (easter_gregorian y + s) * NS_DAY) /\ x = 0).
  { intros t x. unfold f. rewrite <- (map_map (fun s => (easter false y + s) * NS_DAY) (fun t => (t, 0))). rewrite (const_update _ Z.eqb_eq), in_map_iff.
    split; intros [(s & A & B) ->]; (split; [|reflexivity]).
    - subst t. exists s. split; [exact B|]. destruct (uk_easter_ok y s Hy (Hl s B)) as [E _]. rewrite E. reflexivity.
    - exists s. split; [|exact A]. destruct (uk_easter_ok y s Hy (Hl s A)) as [E _]. rewrite E. symmetry. exact B. }
  refine (zdict_ext _ _ _ _ (zdict_update (map tskey f) H P _ HP)).
  - cbn beta. intros k. rewrite map_map. unfold tskey. cbn [fst]. rewrite in_map_iff. split.
    + intros [A|([t x] & <- & Hin)]; [left; exact A|]. apply V in Hin. destruct Hin as [(s & A & ->) _]. right. exists s. split; [exact A|reflexivity].
    + intros [A|(s & A & ->)]; [left; exact A|]. right. exists ((easter_gregorian y + s) * NS_DAY, 0). split; [reflexivity|]. apply V. split; [|reflexivity]. exists s. split; [exact A|reflexivity].
  - intros q Hq. apply in_map_iff in Hq. destruct Hq as ([t x] & <- & Hin). apply V in Hin. cbn. tauto.
Qed.

Definition uk_base (y0 y1 : Z) (c : string) (skip : list string) (long : bool) (k : akey) : Prop :=
  base_key uk_need (named skip uk_fixed) long y0 y1 k
  \/ exists y, In y (years_of y0 y1)
       /\ ((exists s d, In s (named skip (uk_floating c)) /\ seek_finds y s d /\ k = KTs (d * NS_DAY))
           \/ exists s, In s (named skip uk_easter) /\ k = KTs ((easter_gregorian y + s) * NS_DAY)).
Definition uk_key (y0 y1 : Z) (c : string) (skip : list string) (long : bool) (k : akey) : Prop :=
  let r := negb (skips skip "royal") in
  (((((((uk_base y0 y1 c skip long k /\ ~ (in_years 2002 y0 y1 = true /\ k = KTs (date 2002 5 27 * NS_DAY)))
    \/ (in_years 2002 y0 y1 && r = true /\ k = KTs (date 2002 6 3 * NS_DAY)))
    \/ (in_years 2002 y0 y1 && r = true /\ k = KTs (date 2002 6 4 * NS_DAY)))
    \/ (in_years 2011 y0 y1 && r = true /\ k = KTs (date 2011 4 29 * NS_DAY)))
    /\ ~ (in_years 2012 y0 y1 = true /\ k = KTs (date 2012 5 28 * NS_DAY)))
    \/ (in_years 2012 y0 y1 && r = true /\ k = KTs (date 2012 6 4 * NS_DAY)))
    \/ (in_years 2012 y0 y1 && r = true /\ k = KTs (date 2012 6 5 * NS_DAY))).

Lemma bank_ok y0 y1 c skip long : 2000 <= y0 -> y1 <= 2020 ->
  exists H, bank_holidays y0 y1 c skip long 0 = Ok H /\ zdict H (uk_key y0 y1 c (uk_skip c skip) long).
Proof.
  intros Hy0 Hy1. unfold bank_holidays, uk_key. cbv zeta. generalize (uk_skip c skip). clear skip. intros skip.
  destruct (lengthen_zdict HNext uk_need uk_fixed skip long y0 y1 uk_long_sweep uk_need_local Hy0 Hy1) as (H0 & E0 & Z0). rewrite E0. cbn [bind].
  assert (Hv : Forall seek_valid (named skip (uk_floating c))).
  { apply Forall_forall. intros s Hs. apply named_In in Hs. destruct Hs as (name & Hs & _). pose proof uk_valid as Hv. rewrite Forall_forall in Hv. apply Hv, (uk_floating_seeks c name), Hs. }
  assert (He : forall k, In k (named skip uk_easter) -> In k [-2; 1]) by (intros k Hk; apply named_incl in Hk; exact Hk).
  destruct (zdict_fold (fun d y => do f <- cb_nth_weekday y (named skip (uk_floating c)) 0 false;
                            Ok (dict_update akey_eqb (dict_update akey_eqb d (map tskey f)) (map tskey (cb_from_easter y (named skip uk_easter) false 0))))
              (fun y k => (exists s d, In s (named skip (uk_floating c)) /\ seek_finds y s d /\ k = KTs (d * NS_DAY))
                 \/ exists s, In s (named skip uk_easter) /\ k = KTs ((easter_gregorian y + s) * NS_DAY)) (years_of y0 y1)) with (H := H0) (P := base_key uk_need (named skip uk_fixed) long y0 y1) as (H1 & E1 & Z1).
  { intros H P y Hyy HP. apply years_In in Hyy. destruct (zdict_float (named skip (uk_floating c)) H P y Hv HP) as (f & Ef & Zf). rewrite Ef. cbn [bind]. cbv zeta. eexists. split; [reflexivity|].
    refine (zdict_ext _ _ _ _ (zdict_easter _ _ _ y ltac:(lia) He Zf)). cbn beta. intros k. tauto. }
  { exact Z0. }
  rewrite E1. cbn [bind]. cbv zeta. eexists. split; [reflexivity|]. apply zdict_put_if, zdict_put_if, zdict_del_if, zdict_put_if, zdict_put_if, zdict_put_if, zdict_del_if. exact Z1.
Qed.

Lemma instead_ext h1 h2 d : (forall e, h1 e = h2 e) -> (instead h1 d <-> instead h2 d).
Proof.
  intros H. unfold instead. cbv zeta. rewrite (H d). rewrite (filter_ext h1 h2 H). rewrite (filter_ext (fun e => negb (h1 e)) (fun e => negb (h2 e))); [reflexivity|]. intros e. rewrite H. reflexivity.
Qed.
Lemma uk_need_spec skip d y0 y1 : 2000 <= y0 -> y1 <= 2020 -> y0 <= year_of d <= y1 ->
  ((exists y', y0 <= y' <= y1 /\ uk_need (memz (flat_map (year_days (named skip uk_fixed)) (years_of (2000 - 1) (2020 + 1)))) d = Some y')
   <-> fixed_on uk_fixed skip d = true \/ instead (fixed_on uk_fixed skip) d).
Proof.
  intros Hy0 Hy1 Hy. pose proof (year_next d) as [_ Hp].
  rewrite (uk_need_ext _ (fixed_on uk_fixed skip)).
  - split.
    + intros (y' & _ & H). apply uk_need_instead in H. tauto.
    + intros H. exists (year_of d). split; [exact Hy|]. apply uk_need_instead. split; [reflexivity|exact H].
  - intros e He. rewrite fixed_fixb. apply (memz_fixb (map snd uk_fixed)); [exact uk_years_ok|intros md; apply named_incl|].
    pose proof (year_mono (d - 6) e ltac:(lia)). pose proof (year_mono e d ltac:(lia)). lia.
Qed.

Lemma uk_plain (c : string) skip e : fixb (map snd uk_fixed) e = false -> fixed_on (uk_dates c) skip e = false.
Proof.
  intros He. rewrite <- uk_fixed_eq, fixed_fixb. destruct (fixb (named (uk_skip c skip) uk_fixed) e) eqn:E; [|reflexivity].
  apply (fixb_sub _ (map snd uk_fixed)) in E; [congruence|]. intros md. apply named_incl.
Qed.
(** The two moved Mondays are neither holidays nor substitutes of holidays. *)
Lemma uk_moved c skip d : d = date 2002 5 27 \/ d = date 2012 5 28 ->
  fixed_on (uk_dates c) skip d = false /\ ~ instead (fixed_on (uk_dates c) skip) d /\ ~ easter_on (uk_easters c) skip d.
Proof.
  intros Hd.
  assert (Hw : weekday d = 0 /\ fixb (map snd uk_fixed) d = false /\ fixb (map snd uk_fixed) (d - 2) = false /\ fixb (map snd uk_fixed) (d - 1) = false /\ 2000 <= year_of d <= 2020).
  { destruct Hd as [ -> | -> ]; vm_compute; repeat split; discriminate. }
  destruct Hw as (Hw & H0 & H2 & H1 & Hy). split; [apply uk_plain, H0|]. split.
  - unfold instead. cbv zeta. rewrite Hw. cbn [filter]. rewrite !Z.sub_0_r. rewrite (uk_plain c skip _ H2), (uk_plain c skip _ H1).
    change (zlen (@nil Z)) with 0. pose proof (zlen_nonneg (filter (fun e => negb (fixed_on (uk_dates c) skip e)) (zrange d (Z.to_nat 0)))). lia.
  - intros (name & k & Hin & _ & E). assert (Hk : In k [-2; 1]).
    { unfold uk_easters in Hin. destruct (String.eqb c "scotland"); cbn [In] in Hin |- *; repeat (destruct Hin as [Hin|Hin]; [assert (k = snd (name, k)) as -> by reflexivity; rewrite <- Hin; cbn [snd]; tauto|]); contradiction. }
    destruct (uk_easter_ok (year_of d) k Hy Hk) as (_ & _ & _ & N1 & N2). cbv zeta in N1, N2. rewrite <- E in N1, N2. tauto.
Qed.

Lemma uk_tidy (L W E a b r1 r2 r3 r4 r5 i2 i11 i12 r : Prop) :
  (a -> i2) -> (b -> i12) -> (L -> ~ a /\ ~ b) -> (E -> ~ a /\ ~ b) -> (r1 -> i2 /\ ~ b) -> (r2 -> i2 /\ ~ b) -> (r3 -> i11 /\ ~ b) -> (r4 -> i12) -> (r5 -> i12) ->
  (((((((L \/ W \/ E) /\ ~ (i2 /\ a)) \/ ((i2 /\ r) /\ r1)) \/ ((i2 /\ r) /\ r2)) \/ ((i11 /\ r) /\ r3)) /\ ~ (i12 /\ b)) \/ ((i12 /\ r) /\ r4)) \/ ((i12 /\ r) /\ r5)
  <-> L \/ (W /\ ~ a /\ ~ b) \/ E \/ (r /\ (r1 \/ r2 \/ r3 \/ r4 \/ r5)).
Proof.
  intros Ha Hb HL HE H1 H2 H3 H4 H5. split.
  - intros [[[[[[[[X|[X|X]] N1]|[[_ R] X]]|[[_ R] X]]|[[_ R] X]] N2]|[[_ R] X]]|[[_ R] X]].
    + left. exact X.
    + right. left. split; [exact X|]. split; [intros C; apply N1; split; [apply Ha, C|exact C]|intros C; apply N2; split; [apply Hb, C|exact C]].
    + right. right. left. exact X.
    + right. right. right. split; [exact R|]. left. exact X.
    + right. right. right. split; [exact R|]. right. left. exact X.
    + right. right. right. split; [exact R|]. right. right. left. exact X.
    + right. right. right. split; [exact R|]. right. right. right. left. exact X.
    + right. right. right. split; [exact R|]. right. right. right. right. exact X.
  - intros [X|[(X & A & B)|[X|[R [X|[X|[X|[X|X]]]]]]]].
    + left. left. destruct (HL X) as [A B]. split; [|intros [_ C]; exact (B C)]. left. left. left. split; [left; exact X|intros [_ C]; exact (A C)].
    + left. left. split; [|intros [_ C]; exact (B C)]. left. left. left. split; [right; left; exact X|intros [_ C]; exact (A C)].
    + left. left. destruct (HE X) as [A B]. split; [|intros [_ C]; exact (B C)]. left. left. left. split; [right; right; exact X|intros [_ C]; exact (A C)].
    + left. left. destruct (H1 X) as [A B]. split; [|intros [_ C]; exact (B C)]. left. left. right. split; [split; assumption|exact X].
    + left. left. destruct (H2 X) as [A B]. split; [|intros [_ C]; exact (B C)]. left. right. split; [split; assumption|exact X].
    + left. left. destruct (H3 X) as [A B]. split; [|intros [_ C]; exact (B C)]. right. split; [split; assumption|exact X].
    + left. right. split; [split; [apply H4, X|exact R]|exact X].
    + right. split; [split; [apply H5, X|exact R]|exact X].
Qed.

Lemma uk_float_on c skip y0 y1 d : 2000 <= y0 -> y1 <= 2020 -> y0 <= year_of d <= y1 ->
  ((exists y, In y (years_of y0 y1) /\ ((exists s e, In s (named (uk_skip c skip) (uk_floating c)) /\ seek_finds y s e /\ KTs (d * NS_DAY) = KTs (e * NS_DAY))
           \/ exists s, In s (named (uk_skip c skip) uk_easter) /\ KTs (d * NS_DAY) = KTs ((easter_gregorian y + s) * NS_DAY)))
   <-> weekday_on (uk_weekdays c) skip d \/ easter_on (uk_easters c) skip d).
Proof.
  intros Hy0 Hy1 Hy. split.
  - intros (y & Hyy & [(s & e & Hs & He & E)|(s & Hs & E)]); apply years_In in Hyy; apply KTs_inj in E.
    + left. subst e. apply named_In in Hs. destruct Hs as (name & Hin & Hno). pose proof (uk_floating_seeks c name s Hin) as Hsk.
      destruct (proj1 (uk_float_entry c skip name s) (conj Hin Hno)) as [A B]. exists name, s. split; [exact A|]. split; [exact B|].
      destruct (float_year _ _ y s d uk_float_sweep uk_valid ltac:(lia) Hsk He) as [Ey _]. rewrite Ey. exact He.
    + right. pose proof (named_incl _ _ _ Hs) as Hk. apply named_In in Hs. destruct Hs as (name & Hin & Hno). destruct (proj1 (uk_easter_entry c skip name s) (conj Hin Hno)) as [A B].
      exists name, s. split; [exact A|]. split; [exact B|]. destruct (uk_easter_ok y s ltac:(lia) Hk) as (_ & Ey & _). cbv zeta in Ey. rewrite <- E in Ey. rewrite Ey. exact E.
  - intros [(name & s & Hin & Hno & He)|(name & k & Hin & Hno & E)]; exists (year_of d); (split; [apply years_In, Hy|]).
    + left. destruct (proj2 (uk_float_entry c skip name s) (conj Hin Hno)) as [A B]. exists s, d. split; [apply named_In; exists name; split; assumption|]. split; [exact He|reflexivity].
    + right. destruct (proj2 (uk_easter_entry c skip name k) (conj Hin Hno)) as [A B]. exists k. split; [apply named_In; exists name; split; assumption|]. apply KTs_inj. exact E.
Qed.

Lemma uk_key_day y0 y1 c skip long d : 2000 <= y0 -> y1 <= 2020 -> y0 <= year_of d <= y1 ->
  let key := uk_key y0 y1 c (uk_skip c skip) long in
  (key (KTs (d * NS_DAY)) \/ key (KStr d) <-> uk_off c skip long d)
  /\ ~ (key (KTs (d * NS_DAY)) /\ key (KStr d))
  /\ (key (KStr d) <-> long = false /\ fixed_on (uk_dates c) skip d = true).
Proof.
  intros Hy0 Hy1 Hy key.
  assert (Hstr : key (KStr d) <-> long = false /\ fixed_on (uk_dates c) skip d = true).
  { unfold key, uk_key, uk_base, base_key. cbv zeta. rewrite <- uk_fixed_eq, fixed_fixb. split.
    - intros A. assert (B : if long then exists d0 y, KStr d = KTs (d0 * NS_DAY) /\ y0 <= y <= y1 /\ uk_need (memz (flat_map (year_days (named (uk_skip c skip) uk_fixed)) (years_of (2000 - 1) (2020 + 1)))) d0 = Some y
                        else exists m dd y, In (m, dd) (named (uk_skip c skip) uk_fixed) /\ y0 <= y <= y1 /\ KStr d = KStr (date y m dd)).
      { destruct A as [[[[[[[[A|(y & _ & [(s & e & _ & _ & E)|(s & _ & E)])] _]|[_ E]]|[_ E]]|[_ E]] _]|[_ E]]|[_ E]]; first [discriminate|exact A]. }
      clear A. destruct long; [destruct B as (e & y & E & _); discriminate|]. split; [reflexivity|].
      destruct B as (m & dd & y & Hin & Hyy & E). assert (Ed : d = date y m dd) by congruence. apply fixb_In. exists m, dd. split; [exact Hin|].
      replace (year_of d) with y; [exact Ed|]. rewrite Ed. symmetry. apply uk_years_ok; [lia|]. apply (named_incl (uk_skip c skip) uk_fixed), Hin.
    - intros [-> Hf]. apply fixb_In in Hf. destruct Hf as (m & dd & Hin & E).
      left. left. split; [|intros [_ C]; discriminate]. left. left. left. split; [|intros [_ C]; discriminate]. left.
      exists m, dd, (year_of d). split; [exact Hin|]. split; [exact Hy|]. f_equal. exact E. }
  assert (Hts : key (KTs (d * NS_DAY)) <->
     (long = true /\ (fixed_on (uk_dates c) skip d = true \/ instead (fixed_on (uk_dates c) skip) d))
     \/ ((weekday_on (uk_weekdays c) skip d /\ d <> date 2002 5 27 /\ d <> date 2012 5 28)
     \/ easter_on (uk_easters c) skip d
     \/ (~ In "royal" skip /\ In d [date 2002 6 3; date 2002 6 4; date 2011 4 29; date 2012 6 4; date 2012 6 5]))).
  { unfold key, uk_key, uk_base. cbv zeta. rewrite (uk_float_on c skip y0 y1 d Hy0 Hy1 Hy). rewrite !KTs_inj. rewrite !andb_true_iff, !negb_true_iff.
    assert (Hsk : skips (uk_skip c skip) "royal" = false <-> ~ In "royal" skip) by (rewrite <- (uk_royal c skip), <- skips_iff; destruct (skips (uk_skip c skip) "royal"); split; [discriminate|congruence|discriminate|reflexivity]).
    rewrite !Hsk.
    assert (Hb : base_key uk_need (named (uk_skip c skip) uk_fixed) long y0 y1 (KTs (d * NS_DAY)) <-> long = true /\ (fixed_on (uk_dates c) skip d = true \/ instead (fixed_on (uk_dates c) skip) d)).
    { rewrite <- (uk_fixed_eq c skip d). rewrite <- (instead_ext _ _ d (uk_fixed_eq c skip)). rewrite <- (uk_need_spec (uk_skip c skip) d y0 y1 Hy0 Hy1 Hy).
      unfold base_key. destruct long; split.
      - intros (e & y & E & Hr & Hn). apply KTs_inj in E. subst e. split; [reflexivity|]. exists y. split; assumption.
      - intros [_ (y & Hr & Hn)]. exists d, y. split; [reflexivity|]. split; assumption.
      - intros (m & dd & y & _ & _ & E). discriminate.
      - intros [C _]. discriminate. }
    rewrite Hb. clear Hb.
    assert (Y : forall z y, d = z -> year_of z = y -> in_years y y0 y1 = true) by (intros z y -> E; unfold in_years; lia).
    pose proof (uk_moved c skip d) as Hm. cbn [In].
    assert (Hd1 : date 2002 6 3 <> date 2012 5 28 /\ date 2002 6 4 <> date 2012 5 28 /\ date 2011 4 29 <> date 2012 5 28) by (vm_compute; repeat split; discriminate).
    assert (Ha : d = date 2002 5 27 -> in_years 2002 y0 y1 = true) by (intros E; apply (Y _ _ E); reflexivity).
    assert (Hb : d = date 2012 5 28 -> in_years 2012 y0 y1 = true) by (intros E; apply (Y _ _ E); reflexivity).
    assert (H1 : d = date 2002 6 3 -> in_years 2002 y0 y1 = true) by (intros E; apply (Y _ _ E); reflexivity).
    assert (H2 : d = date 2002 6 4 -> in_years 2002 y0 y1 = true) by (intros E; apply (Y _ _ E); reflexivity).
    assert (H3 : d = date 2011 4 29 -> in_years 2011 y0 y1 = true) by (intros E; apply (Y _ _ E); reflexivity).
    assert (H4 : d = date 2012 6 4 -> in_years 2012 y0 y1 = true) by (intros E; apply (Y _ _ E); reflexivity).
    assert (H5 : d = date 2012 6 5 -> in_years 2012 y0 y1 = true) by (intros E; apply (Y _ _ E); reflexivity).
    clear Y. revert Hm Hd1 Ha Hb H1 H2 H3 H4 H5.
    generalize (date 2002 5 27) (date 2012 5 28) (date 2002 6 3) (date 2002 6 4) (date 2011 4 29) (date 2012 6 4) (date 2012 6 5).
    intros a b c1 c2 c3 c4 c5 Hm Hd1 Ha Hb H1 H2 H3 H4 H5.
    assert (Hor : forall P, P = d -> d = P) by (intros P ->; reflexivity).
    assert (Hfin : (c1 = d \/ c2 = d \/ c3 = d \/ c4 = d \/ c5 = d \/ False) <-> (d = c1 \/ d = c2 \/ d = c3 \/ d = c4 \/ d = c5)).
    { split; [intros [X|[X|[X|[X|[X|[]]]]]]; symmetry in X; tauto|intros [X|[X|[X|[X|X]]]]; symmetry in X; tauto]. }
    rewrite Hfin. apply uk_tidy; try assumption.
    - intros [_ L]. split; intros E; [destruct (Hm (or_introl E)) as (M1 & M2 & _)|destruct (Hm (or_intror E)) as (M1 & M2 & _)]; destruct L as [L|L]; [congruence|exact (M2 L)|congruence|exact (M2 L)].
    - intros L. split; intros E; [destruct (Hm (or_introl E)) as (_ & _ & M)|destruct (Hm (or_intror E)) as (_ & _ & M)]; exact (M L).
    - intros E. split; [apply H1, E|]. intros E2. destruct Hd1 as (Hd1 & _ & _). apply Hd1. congruence.
    - intros E. split; [apply H2, E|]. intros E2. destruct Hd1 as (_ & Hd1 & _). apply Hd1. congruence.
    - intros E. split; [apply H3, E|]. intros E2. destruct Hd1 as (_ & _ & Hd1). apply Hd1. congruence. }
  split; [|split; [|exact Hstr]].
  - rewrite Hts, Hstr. unfold uk_off. apply reshuffle.
  - rewrite Hts, Hstr. intros [A [-> B]]. destruct A as [[C _]|[[A _]|[A|[_ A]]]]; [discriminate| | |].
    + destruct A as (name & s & Hin & Hno & He). destruct (float_year _ _ (year_of d) s d uk_float_sweep uk_valid ltac:(lia)) as [_ Hf]; [|exact He|].
      * apply (uk_floating_seeks c name), Hin.
      * rewrite (uk_plain c skip d Hf) in B. discriminate.
    + destruct A as (name & k & Hin & Hno & E). destruct (proj2 (uk_easter_entry c skip name k) (conj Hin Hno)) as [Hin2 _].
      assert (Hk : In k [-2; 1]) by (change [-2; 1] with (map snd uk_easter); apply in_map_iff; exists (name, k); split; [reflexivity|exact Hin2]).
      destruct (uk_easter_ok (year_of d) k ltac:(lia) Hk) as (_ & _ & Hf & _). cbv zeta in Hf. rewrite <- E in Hf. rewrite (uk_plain c skip d Hf) in B. discriminate.
    + cbn [In] in A. assert (Hf : fixb (map snd uk_fixed) d = false); [|rewrite (uk_plain c skip d Hf) in B; discriminate].
      destruct A as [<-|[<-|[<-|[<-|[<-|[]]]]]]; vm_compute; reflexivity.
Qed.

Lemma uk_date_year y d m dd : In (m, dd) (map snd uk_fixed) -> d = date y m dd -> y = year_of d.
Proof.
  intros Hin ->. symmetry. apply year_date; cbn [uk_fixed map snd In] in Hin;
    repeat (destruct Hin as [Hin|Hin]; [assert (m = fst (m, dd) /\ dd = snd (m, dd)) as [Em Ed] by (split; reflexivity); rewrite <- Hin in Em, Ed; cbn [fst snd] in Em, Ed; lia|]); contradiction.
Qed.

Lemma C39_uk_pf : forall country skip long o,
  outcome 2000 2020 o (duplicates (from_day 2000 o) (to_day 2020 o) (uk_dates country) skip long o)
    (off_hours (uk_off country skip long))
    (uk_calendar country skip long o).
Proof.
  intros c skip long o. unfold uk_calendar.
  assert (Hy : date 2000 1 1 <= date 2020 12 31) by (vm_compute; discriminate).
  set (Y0 := year_of (from_day 2000 o)). set (Y1 := year_of (to_day 2020 o)).
  assert (Hb0 : bounds_supported 2000 2020 o -> 2000 <= Y0 /\ Y1 <= 2020).
  { intros Hb. destruct (bounds_ok 2000 2020 Hy o Hb) as (_ & _ & _ & _ & Hf & Ht). split; apply (year_window 2000 2020); first [reflexivity|assumption]. }
  set (H := match bank_holidays Y0 Y1 c skip long 0 with Ok d => d | Err _ => [] end).
  assert (HH : bounds_supported 2000 2020 o -> bank_holidays Y0 Y1 c skip long 0 = Ok H /\ zdict H (uk_key Y0 Y1 c (uk_skip c skip) long)).
  { intros Hb. destruct (Hb0 Hb) as [A B]. destruct (bank_ok Y0 Y1 c skip long A B) as (H' & E & Z'). unfold H. rewrite E. split; [reflexivity|exact Z']. }
  apply (outcome_ok 2000 2020 Hy (uk_amendments c skip long) o H).
  - intros Hb _ _. destruct (bounds_ok 2000 2020 Hy o Hb) as (_ & E2 & E3 & E4 & _). unfold uk_amendments. change uk_class with (mkCal (date 2000 1 1 * NS_DAY) (last_second (date 2020 12 31))).
    rewrite E2. cbn [bind fst snd]. unfold year_at. rewrite E3, E4. fold Y0 Y1. destruct (HH Hb) as [E _]. rewrite E. reflexivity.
  - intros Hb. destruct (HH Hb) as [_ HZ]. destruct (Hb0 Hb) as [A B]. pose proof HZ as [N V].
    assert (Hyd : forall d, from_day 2000 o <= d <= to_day 2020 o -> Y0 <= year_of d <= Y1) by (intros d Hd; split; apply year_mono; lia).
    split; [exact N|]. split; [|split].
    + intros t x Hin. apply V in Hin. destruct Hin as [Hin _]. unfold uk_key, uk_base, base_key in Hin. cbv zeta in Hin.
      assert (Hm : exists e, KTs t = KTs (e * NS_DAY)).
      { destruct Hin as [[[[[[[[Hin|(y & _ & [(s & e & _ & _ & E)|(s & _ & E)])] _]|[_ E]]|[_ E]]|[_ E]] _]|[_ E]]|[_ E]]; [|eexists; exact E..].
        destruct long; [destruct Hin as (e & y & E & _); exists e; exact E|destruct Hin as (m & dd & y & _ & _ & E); discriminate]. }
      destruct Hm as (e & E). assert (E' : t = e * NS_DAY) by congruence. rewrite E', day_mul. reflexivity.
    + intros d x y Hd Hx Hy'. apply V in Hx, Hy'. apply (proj1 (proj2 (uk_key_day Y0 Y1 c skip long d A B (Hyd d Hd)))). tauto.
    + intros d x Hd. apply (zdict_day H _ _ d x HZ). apply (uk_key_day Y0 Y1 c skip long d A B (Hyd d Hd)).
  - intros Hb. destruct (HH Hb) as [_ [N V]]. destruct (Hb0 Hb) as [A B]. unfold duplicates. split; intros [Hn (l & El & Hl)]; (split; [exact Hn|]); exists l; (split; [exact El|]);
      (destruct (cu_only o); [exact Hl|]).
    + destruct Hl as [Hlong (t & x & name & m & dd & y & Hin & Hname & Hno & Ed & Hr)]. exists t, x, 0. split; [exact Hin|]. split; [exact Hr|].
      assert (Hyd : Y0 <= year_of (t / NS_DAY) <= Y1) by (split; apply year_mono; lia).
      apply V. split; [|reflexivity]. apply (uk_key_day Y0 Y1 c skip long _ A B Hyd). split; [exact Hlong|]. rewrite fixed_on_In.
      exists name, m, dd. split; [exact Hname|]. split; [exact Hno|].
      assert (Ey : y = year_of (t / NS_DAY)); [|rewrite <- Ey; exact Ed].
      destruct (proj2 (uk_fixed_entry c skip name (m, dd)) (conj Hname Hno)) as [Hfx _].
      apply (uk_date_year y (t / NS_DAY) m dd); [apply in_map_iff; exists (name, (m, dd)); split; [reflexivity|exact Hfx]|exact Ed].
    + destruct Hl as (t & x & z & Hin & Hr & Hz). apply V in Hz. destruct Hz as [Hz _].
      assert (Hyd : Y0 <= year_of (t / NS_DAY) <= Y1) by (split; apply year_mono; lia).
      apply (uk_key_day Y0 Y1 c skip long _ A B Hyd) in Hz. destruct Hz as [Hlong Hf]. split; [exact Hlong|]. rewrite fixed_on_In in Hf.
      destruct Hf as (name & m & dd & Hname & Hno & E). exists t, x, name, m, dd, (year_of (t / NS_DAY)).
      split; [exact Hin|]. split; [exact Hname|]. split; [exact Hno|]. split; [exact E|exact Hr].
Qed.
