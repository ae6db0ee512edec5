(** * C70-C73: what the result record of a step says *)

From Coq Require Import Reals List Arith Bool Lia Lra.
From Verif Require Import MassModel MassSpec MassProofs FillModel InitModel InitProps.
Import ListNotations.
Open Scope R_scope.

(** ** Specification *)

Definition sumE (f : Entry -> R) (l : list Entry) : R := fold_right (fun e x => f e + x) 0 l.
Definition optE (o : option Entry) : list Entry := match o with Some e => [e] | None => [] end.

(** The record of a system of several phases: masses and properties add up, and the density is
    the mass over the volume. *)
Definition isSumOf (t : Tot) (l : list Entry) : Prop :=
  tMass t = sumE eMass l
  /\ (forall w, tProp t w = sumE (fun e => eProp e w) l)
  /\ (tProp t Volume <> 0 -> tDens t = tMass t / tProp t Volume).

(** Density as printed beside a mass and a volume. *)
Definition densityRight (e : Entry) : Prop := eProp e Volume <> 0 -> eDens e = eMass e / eProp e Volume.

(** Grams of all oxides in a quantity of matter. *)
Definition weighs (tab : Tab) (x : nat -> R) : R := sum (nc tab) (fun o => x o * omw tab o).

(** The instances of all solids, phase by phase. *)
Definition instances (n : nat) (cnt : nat -> nat) : list (nat * nat) :=
  flat_map (fun j => map (fun ns => (j, ns)) (seq 0 (cnt j))) (seq 0 n).

(** ** Lemmas *)

Lemma sumE_app : forall f a b, sumE f (a ++ b) = sumE f a + sumE f b.
Proof. intros f a b. unfold sumE. induction a as [| e a IH]; cbn [app fold_right]; [ring |]. rewrite IH. ring. Qed.

Lemma fold_plus : forall (A : Type) (f : A -> R) (l : list A) x,
  fold_left (fun x a => x + f a) l x = x + fold_right (fun a x => f a + x) 0 l.
Proof. induction l as [| a l IH]; intros x; cbn; [ring |]. rewrite IH. ring. Qed.

Lemma sumE_map : forall (A : Type) (g : A -> Entry) f l,
  sumE f (map g l) = fold_right (fun a x => f (g a) + x) 0 l.
Proof. intros A g f l. unfold sumE. induction l as [| a l IH]; cbn [map fold_right]; [reflexivity |]. rewrite IH. reflexivity. Qed.

Lemma fold_right_seq : forall (f : nat -> R) n, fold_right (fun a x => f a + x) 0 (seq 0 n) = sum n f.
Proof.
  intros f n. induction n as [| n IH]; [reflexivity |].
  rewrite seq_S, fold_right_app. cbn [fold_right sum Nat.add].
  assert (G : forall l y, fold_right (fun a x => f a + x) y l = fold_right (fun a x => f a + x) 0 l + y).
  { induction l as [| a l IHl]; intros y; cbn; [ring |]. rewrite IHl. ring. }
  rewrite G, IH. ring.
Qed.

Section P.
Variable tab : Tab.
Variable isFluid : nat -> bool.
Variable curLiq : nat -> Which -> R.
Variable curSol : nat -> Which -> R.
Variable mixLiq : (nat -> R) -> Which -> R.
Variable mixSol : nat -> (nat -> R) -> Which -> R.
Variable viscLiq : (nat -> R) -> R.
Variable junk : R.
Variable someLiquid : bool.

Notation fill := (fill tab isFluid curLiq curSol mixLiq mixSol viscLiq junk someLiquid).
Notation liqEntry := (liqEntry tab curLiq mixLiq).
Notation liqVal := (liqVal tab curLiq mixLiq).
Notation solEntry := (solEntry tab curSol mixSol).
Notation solMass := (solMass tab).
Notation solVal := (solVal tab curSol mixSol).
Notation addSolids := (addSolids tab curSol mixSol).
Notation addSolid := (addSolid tab curSol mixSol).

(** The running totals are the sums over the list, the volume in J/bar. *)
Definition ahead (m0 : R) (p0 : Which -> R) (r : Run) : Prop :=
  rMass r = m0 + sumE eMass (rList r)
  /\ forall w, inCc (rProp r) w = inCc p0 w + sumE (fun e => eProp e w) (rList r).

Lemma ahead_addSolid : forall m0 p0 comp j ns r, ahead m0 p0 r -> ahead m0 p0 (addSolid comp j ns r).
Proof.
  intros m0 p0 comp j ns r [A B]. unfold FillModel.addSolid, ahead. cbn [rMass rList rProp].
  rewrite !sumE_app. split.
  - rewrite A. cbn. ring.
  - intros w. rewrite sumE_app. rewrite <- Rplus_assoc, <- B. destruct w; cbn; ring.
Qed.

Lemma ahead_addSolids : forall m0 p0 skip n comp r, ahead m0 p0 r -> ahead m0 p0 (addSolids skip n comp r).
Proof.
  intros m0 p0 skip n comp r A. unfold FillModel.addSolids.
  induction (npc tab) as [| k IH]; cbn [loop]; [exact A |].
  destruct (skip k); [exact IH |].
  induction (n k) as [| q IHq]; cbn [loop]; [exact IH |]. apply ahead_addSolid. exact IHq.
Qed.

Lemma addSolid_list : forall comp j ns r, rList (addSolid comp j ns r) = rList r ++ [solEntry comp j ns].
Proof. reflexivity. Qed.

Lemma addSolids_list : forall skip n comp r,
  rList (addSolids skip n comp r)
  = rList r ++ map (fun q => solEntry comp (fst q) (snd q))
                   (instances (npc tab) (fun j => if skip j then O else n j)).
Proof.
  intros skip n comp r. unfold FillModel.addSolids, instances.
  induction (npc tab) as [| k IH]; cbn [loop]; [cbn; rewrite app_nil_r; reflexivity |].
  set (r1 := loop k _ r) in *. rewrite seq_S, flat_map_app, map_app, app_assoc, <- IH. cbn [Nat.add flat_map].
  rewrite app_nil_r. destruct (skip k); [cbn; rewrite app_nil_r; reflexivity |].
  induction (n k) as [| q IHq]; cbn [loop]; [cbn; rewrite app_nil_r; reflexivity |].
  rewrite addSolid_list, IHq, seq_S, !map_app, <- app_assoc. reflexivity.
Qed.

Lemma totals_sum : forall (l1 l2 : list Entry) mL vL r,
  mL = sumE eMass l1 -> (forall w, inCc vL w = sumE (fun e => eProp e w) l1) ->
  rMass r = sumE eMass l2 -> (forall w, inCc (rProp r) w = sumE (fun e => eProp e w) l2) ->
  isSumOf (totals mL vL r) (l1 ++ l2).
Proof.
  intros l1 l2 mL vL r A B C D. unfold totals, isSumOf. cbn [tMass tProp tDens].
  rewrite sumE_app, A, C. split; [reflexivity |]. split.
  - intros w. rewrite sumE_app, <- B, <- D. destruct w; cbn; ring.
  - cbn [inCc]. intros N. destruct (Req_EM_T (rProp r Volume + vL Volume) 0) as [E | E].
    + exfalso. apply N. lra.
    + f_equal. ring.
Qed.

(** The totals add up: liquids and solids; solids; and all of these with what was fractionated. *)
Theorem C70_totals : forall index st c s,
  let out := fst (fill index st c s) in
  isSumOf (oNoFrac out) (oLiq out ++ oSol out)
  /\ isSumOf (oSolTot out) (oSol out)
  /\ isSumOf (oSys out) (oLiq out ++ oSol out ++ oFrac out ++ optE (oFracLiq out)).
Proof.
  intros index st c s. unfold FillModel.fill. cbv zeta. cbn [fst].
  set (st' := if Nat.eqb index 0 then _ else st).
  set (liquids := if someLiquid then _ else _).
  set (r := addSolids (fun _ => false) _ _ _).
  assert (AR : ahead 0 (fun _ => 0) r).
  { apply ahead_addSolids. split; cbn; [ring |]. intros w. destruct w; cbn; ring. }
  destruct AR as [A1 A2]. rewrite Rplus_0_l in A1.
  assert (A3 : forall w, inCc (rProp r) w = sumE (fun e => eProp e w) (rList r)).
  { intros w. rewrite A2. destruct w; cbn; ring. }
  set (mL := fold_left _ liquids 0). set (vL := fun w => fold_left _ liquids 0).
  assert (L1 : mL = sumE eMass (map (fun nl => liqEntry (liqC s nl)) liquids)).
  { unfold mL. rewrite (fold_plus _ (fun nl => liqMass tab (liqC s nl))), sumE_map. cbn [eMass FillModel.liqEntry]. ring. }
  assert (L2 : forall w, inCc vL w = sumE (fun e => eProp e w) (map (fun nl => liqEntry (liqC s nl)) liquids)).
  { assert (Q : forall w, vL w = fold_right (fun nl x => liqVal (liqC s nl) w + x) 0 liquids).
    { intros w. unfold vL. rewrite (fold_plus _ (fun nl => liqVal (liqC s nl) w)). ring. }
    intros w. rewrite sumE_map. unfold inCc at 1. cbn [eProp FillModel.liqEntry].
    destruct w; rewrite Q; try reflexivity. cbn [inCc]. clear.
    induction liquids as [| a l IH]; cbn; [ring |]. rewrite <- IH. ring. }
  set (showS := _ || cFracFlu c). set (rf := if showS then _ else _).
  assert (AF : ahead (rMass r) (rProp r) rf).
  { unfold rf. destruct showS; [apply ahead_addSolids |]; split; cbn; try ring; intros w; destruct w; cbn; ring. }
  set (mF := sum (nlc tab) _). set (writeL := _ && (if Rlt_dec 0 mF then true else false)).
  cbn [oNoFrac oSolTot oSys oLiq oSol oFrac oFracLiq].
  split; [| split].
  - apply totals_sum; assumption.
  - unfold isSumOf. cbn [tMass tDens tProp]. split; [exact A1 |]. split; [exact A3 |].
    cbn [inCc]. intros N. unfold dens. destruct (Req_EM_T (rProp r Volume) 0) as [E | E]; [exfalso; apply N; rewrite E; ring |].
    f_equal. ring.
  - destruct AF as [F1 F2]. apply totals_sum; try assumption.
    + rewrite !sumE_app, <- A1. destruct writeL; cbn [rMass optE sumE fold_right eMass]; rewrite F1; ring.
    + intros w. rewrite !sumE_app, <- A3. specialize (F2 w).
      destruct writeL; cbn [rProp optE sumE fold_right eProp].
      * rewrite <- Rplus_assoc, <- F2. destruct w; cbn; ring.
      * rewrite F2. ring.
Qed.

(** One entry per liquid and per instance of a solid, in order, each with the mass of what the
    state holds of it. *)
Theorem C70_entries : forall index st c s,
  let out := fst (fill index st c s) in
  oLiq out = map (fun nl => liqEntry (liqC s nl)) (if someLiquid then seq 0 (nLiq s) else [])
  /\ oSol out = map (fun q => solEntry (solC s) (fst q) (snd q)) (instances (npc tab) (nSol s)).
Proof.
  intros index st c s. unfold FillModel.fill. cbv zeta. cbn [fst oLiq oSol].
  split; [reflexivity |]. rewrite addSolids_list. reflexivity.
Qed.

(** A liquid weighs what its oxides weigh; its composition is in weight per cent. *)
Lemma liqMass_is : forall s nl, liqMass tab (liqC s nl) = weighs tab (fun o => inLiquid tab (oxide tab o) s nl).
Proof. intros s nl. reflexivity. Qed.

Theorem C70_liquid_entry : forall s nl,
  eMass (liqEntry (liqC s nl)) = weighs tab (fun o => inLiquid tab (oxide tab o) s nl)
  /\ (forall o, (o < nc tab)%nat -> eMass (liqEntry (liqC s nl)) <> 0 ->
        nth o (wtPercent tab (liqGrams tab (liqC s nl))) 0
        = 100 * (inLiquid tab (oxide tab o) s nl * omw tab o) / eMass (liqEntry (liqC s nl)))
  /\ (forall w, eProp (liqEntry (liqC s nl)) w
        = (match w with Volume => 10 | _ => 1 end)
          * (sum (nlc tab) (liqC s nl) * mixLiq (liqC s nl) w + sum (nlc tab) (fun i => liqC s nl i * curLiq i w))).
Proof.
  intros s nl. split; [reflexivity |]. split.
  - intros o Ho N. unfold wtPercent. set (f := fun o0 : nat => if Req_EM_T (sum (nc tab) (liqGrams tab (liqC s nl))) 0 then liqGrams tab (liqC s nl) o0 else liqGrams tab (liqC s nl) o0 / sum (nc tab) (liqGrams tab (liqC s nl)) * 100).
    change (nth o (map f (seq 0 (nc tab))) 0 = 100 * (inLiquid tab (oxide tab o) s nl * omw tab o) / eMass (liqEntry (liqC s nl))).
    assert (E : nth o (map f (seq 0 (nc tab))) (f O) = f o) by (rewrite map_nth, seq_nth by lia; reflexivity).
    rewrite (nth_indep _ _ (f O)) by (rewrite map_length, seq_length; lia). rewrite E. unfold f.
    cbn [eMass FillModel.liqEntry] in N. unfold liqMass in N.
    destruct (Req_EM_T (sum (nc tab) (liqGrams tab (liqC s nl))) 0) as [Z | Z]; [contradiction |].
    cbn [eMass FillModel.liqEntry]. unfold liqMass. unfold liqGrams at 1. unfold inLiquid, oxide. cbn [perLiq]. field. exact Z.
  - intros w. cbn [eProp FillModel.liqEntry]. destruct w; cbn [inCc]; unfold FillModel.liqVal; ring.
Qed.

(** Solids: mass, properties, density and end members. *)
Theorem C70_solid_entry : forall comp j ns, (0 < na tab j)%nat ->
  let e := solEntry comp j ns in
  let amt := fun i => if Nat.eqb (na tab j) 1 then comp j ns else comp (j + 1 + i)%nat ns in
  let row := fun i => if Nat.eqb (na tab j) 1 then j else (j + 1 + i)%nat in
  let mixing := fun w => if Nat.eqb (na tab j) 1 then 0 else comp j ns * mixSol j amt w in
  eRow e = j
  /\ eMass e = sum (na tab j) (fun i => amt i * smw tab (row i))
  /\ (forall w, eProp e w = (match w with Volume => 10 | _ => 1 end)
                            * (mixing w + sum (na tab j) (fun i => amt i * curSol (row i) w)))
  /\ densityRight e
  /\ (na tab j <> 1%nat -> forall i, (i < na tab j)%nat -> nth i (eEnds e) 0 = 100 * amt i / comp j ns).
Proof.
  intros comp j ns Hn. cbv zeta. unfold FillModel.solEntry. cbn [eRow eMass eProp eEnds].
  split; [reflexivity |].
  split; [| split; [| split]].
  - unfold FillModel.solMass. destruct (Nat.eqb_spec (na tab j) 1) as [E | E]; [rewrite E; cbn; ring | reflexivity].
  - intros w. unfold inCc, FillModel.solVal. destruct (Nat.eqb_spec (na tab j) 1) as [E | E].
    + rewrite E. cbn [sum]. destruct w; ring.
    + unfold solVec. destruct w; ring.
  - unfold densityRight. cbn [eProp eDens eMass]. intros N. unfold dens.
    cbn [inCc] in N |- *. destruct (Req_EM_T (solVal comp j ns Volume) 0) as [Z | Z]; [exfalso; apply N; rewrite Z; ring |].
    f_equal. ring.
  - intros N i Hi. destruct (Nat.eqb_spec (na tab j) 1) as [E | _]; [contradiction |].
    set (f := fun i0 => 100 * comp (j + 1 + i0)%nat ns / comp j ns).
    rewrite (nth_indep _ _ (f O)) by (rewrite map_length, seq_length; lia).
    rewrite map_nth, seq_nth by lia. reflexivity.
Qed.

(** C71 is false: the density printed for a liquid is its mass times its volume; it is right only
    if the liquid fills 10 cc. *)
Theorem C71_refuted_liquid_density : forall m,
  eMass (liqEntry m) <> 0 -> 0 < eProp (liqEntry m) Volume ->
  (densityRight (liqEntry m) <-> eProp (liqEntry m) Volume = 10).
Proof.
  intros m Hm Hv. unfold densityRight. cbn [eDens eMass eProp FillModel.liqEntry inCc] in *.
  set (M := liqMass tab m) in *. set (v := liqVal m Volume) in *. split.
  - intros D. specialize (D ltac:(lra)).
    assert (Q : M * (v * v - 1) = 0).
    { assert (M / 10 * v * (v * 10) = M) by (rewrite D; field; lra). lra. }
    apply Rmult_integral in Q. destruct Q as [Q | Q]; [contradiction |].
    assert (v = 1) by nra. lra.
  - intros E _. assert (V : v = 1) by lra. rewrite V. field.
Qed.

(** The same holds of the aggregate fractionated liquid. *)
Theorem C71_refuted_fractionated_density : forall index st c s e,
  oFracLiq (fst (fill index st c s)) = Some e ->
  eMass e <> 0 -> 0 < eProp e Volume -> (densityRight e <-> eProp e Volume = 10).
Proof.
  intros index st c s e. unfold FillModel.fill. cbv zeta. cbn [fst oFracLiq].
  set (mF := sum (nlc tab) _). set (b := _ && (if Rlt_dec 0 mF then true else false)).
  destruct b; [| discriminate]. intros E. injection E as E. rewrite <- E. unfold densityRight.
  cbn [eMass eDens eProp inCc]. intros Hm Hv. set (v := liqVal (fracL s) Volume) in *.
  destruct (Req_EM_T v 0) as [Z | Z]; [exfalso; lra |]. split.
  - intros D. specialize (D ltac:(lra)).
    assert (Q : mF * (v * v - 1) = 0).
    { assert (mF / 10 * v * (v * 10) = mF) by (rewrite D; field; lra). lra. }
    apply Rmult_integral in Q. destruct Q as [Q | Q]; [contradiction |].
    assert (v = 1) by nra. lra.
  - intros E' _. assert (V : v = 1) by lra. rewrite V. field.
Qed.

(** ** The mass of the system *)

Definition weightsAgree : Prop :=
  forall c, (c < npc tab)%nat -> smw tab c = sum (nc tab) (fun o => solToOx tab c o * omw tab o).

Lemma solMass_oxides : forall comp j ns, weightsAgree -> layout tab -> (j < npc tab)%nat -> isPhase tab j = true ->
  solMass comp j ns
  = weighs tab (fun o => if Nat.eqb (na tab j) 1 then solToOx tab j o * comp j ns
                         else sum (na tab j) (fun i => solToOx tab (j + 1 + i) o * comp (j + 1 + i)%nat ns)).
Proof.
  intros comp j ns W L Hj HP. destruct (L j Hj HP) as [L1 L2]. unfold FillModel.solMass, weighs.
  destruct (Nat.eqb_spec (na tab j) 1) as [E | E].
  - rewrite (W j Hj), <- sum_scal. apply sum_ext. intros o _. ring.
  - destruct L2 as [L2 _]; [lia |].
    transitivity (sum (na tab j) (fun i => sum (nc tab) (fun o => solToOx tab (j + 1 + i) o * comp (j + 1 + i)%nat ns * omw tab o))).
    + apply sum_ext. intros i Hi. rewrite (W (j + 1 + i)%nat) by lia. rewrite <- sum_scal. apply sum_ext. intros o _. ring.
    + rewrite sum_swap. apply sum_ext. intros o _. rewrite sum_scal_r. reflexivity.
Qed.

Lemma sumE_instances : forall (f : nat -> nat -> R) n cnt g,
  (forall j ns, eMass (g j ns) = f j ns) ->
  sumE eMass (map (fun q => g (fst q) (snd q)) (instances n cnt)) = sum n (fun j => sum (cnt j) (f j)).
Proof.
  intros f n cnt g E. unfold instances. induction n as [| n IH]; [reflexivity |].
  rewrite seq_S, flat_map_app, map_app, sumE_app, IH. cbn [sum Nat.add flat_map]. f_equal.
  rewrite app_nil_r, map_map. cbn [fst snd]. rewrite sumE_map.
  rewrite <- fold_right_seq. induction (seq 0 (cnt n)) as [| a l IHl]; [reflexivity |].
  cbn [fold_right]. rewrite IHl, E. reflexivity.
Qed.

Lemma weighs_sum : forall n (f : nat -> nat -> R),
  weighs tab (fun o => sum n (fun i => f i o)) = sum n (fun i => weighs tab (f i)).
Proof.
  intros n f. unfold weighs. rewrite sum_swap. apply sum_ext. intros o _. rewrite sum_scal_r. reflexivity.
Qed.
Lemma weighs_plus : forall f g, weighs tab (fun o => f o + g o) = weighs tab f + weighs tab g.
Proof. intros f g. unfold weighs. rewrite <- sum_plus. apply sum_ext. intros; ring. Qed.
Lemma weighs_ext : forall f g, (forall o, (o < nc tab)%nat -> f o = g o) -> weighs tab f = weighs tab g.
Proof. intros f g E. apply sum_ext. intros o Ho. rewrite E by assumption. reflexivity. Qed.
Lemma weighs_0 : weighs tab (fun _ => 0) = 0.
Proof. apply sum_0. intros; ring. Qed.

(** The solids of the record weigh what the solids hold. *)
Lemma solids_weigh : forall s, weightsAgree -> layout tab -> (forall j, isPhase tab j = false -> nSol s j = O) ->
  sumE eMass (map (fun q => solEntry (solC s) (fst q) (snd q)) (instances (npc tab) (nSol s)))
  = weighs tab (fun o => inSolids tab (oxide tab o) s).
Proof.
  intros s W L C. rewrite (sumE_instances (fun j ns => solMass (solC s) j ns)) by reflexivity.
  unfold inSolids. rewrite weighs_sum. apply sum_ext. intros j Hj.
  destruct (isPhase tab j) eqn:HP; [| rewrite (C j HP); cbn [sum]; rewrite weighs_0; reflexivity].
  rewrite weighs_sum. apply sum_ext. intros ns _. rewrite solMass_oxides by assumption.
  apply weighs_ext. intros o _. unfold solidAmount, oxide. cbn [perSol]. reflexivity.
Qed.

Lemma liquids_weigh : forall s,
  sumE eMass (map (fun nl => liqEntry (liqC s nl)) (seq 0 (nLiq s)))
  = weighs tab (fun o => inLiquids tab (oxide tab o) s).
Proof.
  intros s. rewrite sumE_map, fold_right_seq. unfold inLiquids. rewrite weighs_sum. apply sum_ext.
  intros nl _. reflexivity.
Qed.

(** The mass of the system is the mass of the bulk composition, and the record's grams of oxides
    add up to it. *)
Theorem C72_mass_balance : forall index st c s,
  weightsAgree -> layout tab -> counts tab s -> balanced tab s ->
  (someLiquid = true \/ nLiq s = O) -> (nc tab <= 20)%nat ->
  let out := fst (fill index st c s) in
  tMass (oNoFrac out) = weighs tab (bulk s)
  /\ tMass (oNoFrac out) = sum (nc tab) (fun o => nth o (oBulk out) 0).
Proof.
  intros index st c s W L [C0 _] B HL HN out.
  assert (A : tMass (oNoFrac out) = weighs tab (bulk s)).
  { destruct (C70_totals index st c s) as [[T _] _]. fold out in T. rewrite T.
    destruct (C70_entries index st c s) as [E1 E2]. fold out in E1, E2. rewrite sumE_app, E1, E2.
    rewrite (solids_weigh s W L C0).
    replace (sumE eMass (map (fun nl => liqEntry (liqC s nl)) (if someLiquid then seq 0 (nLiq s) else [])))
      with (weighs tab (fun o => inLiquids tab (oxide tab o) s)).
    - rewrite <- weighs_plus. apply weighs_ext. intros o Ho. rewrite (B o Ho). unfold amount. ring.
    - destruct HL as [-> | HL]; [symmetry; apply liquids_weigh |].
      unfold inLiquids. rewrite HL. cbn [sum seq]. rewrite weighs_0. destruct someLiquid; reflexivity. }
  split; [exact A |]. rewrite A. unfold weighs. apply sum_ext. intros o Ho.
  unfold out, FillModel.fill. cbv zeta. cbn [fst oBulk].
  set (f := fun i => omw tab i * bulk s i). rewrite (nth_indep _ _ (f O)) by (rewrite map_length, seq_length; lia).
  rewrite map_nth, seq_nth by lia. unfold f. cbn [Nat.add]. ring.
Qed.

(** *** What was fractionated *)

Definition fracCols (c : Conf) : nat -> nat := cNFrac c.

Lemma addSolids_mass : forall skip n comp r,
  rMass (addSolids skip n comp r) = rMass r + sum (npc tab) (fun j => if skip j then 0 else sum (n j) (solMass comp j)).
Proof.
  intros skip n comp r. unfold FillModel.addSolids. induction (npc tab) as [| k IH]; cbn [loop sum]; [ring |].
  destruct (skip k); [rewrite IH; ring |].
  induction (n k) as [| q IHq]; cbn [loop sum]; [rewrite IH; ring |].
  unfold FillModel.addSolid at 1. cbn [rMass]. rewrite IHq. ring.
Qed.

Lemma fracLiquid_weighs : forall s,
  sum (nlc tab) (fun i => fracL s i * sum (nc tab) (fun o => liqToOx tab i o * omw tab o))
  = weighs tab (fun o => sum (nlc tab) (fun j => liqToOx tab j o * fracL s j)).
Proof.
  intros s. unfold weighs.
  transitivity (sum (nlc tab) (fun i => sum (nc tab) (fun o => liqToOx tab i o * fracL s i * omw tab o))).
  - apply sum_ext. intros i _. rewrite <- sum_scal. apply sum_ext. intros; ring.
  - rewrite sum_swap. apply sum_ext. intros o _. rewrite sum_scal_r. reflexivity.
Qed.

(** If nothing is passed over, the mass of the whole system includes everything fractionated. *)
Theorem C73_fractionated_partial : forall index st c s,
  weightsAgree -> layout tab -> (forall j, isPhase tab j = false -> cNFrac c j = O) ->
  cFracSol c = true -> cFracFlu c = true -> cFracLiq c = true ->
  0 <= weighs tab (fun o => sum (nlc tab) (fun j => liqToOx tab j o * fracL s j)) ->
  let out := fst (fill index st c s) in
  tMass (oSys out) = tMass (oNoFrac out) + weighs tab (fun o => fracAmount tab (oxide tab o) (cNFrac c) s).
Proof.
  intros index st c s W L C FS FF FL Pos. unfold FillModel.fill. cbv zeta. cbn [fst oSys oNoFrac].
  rewrite FS, FF, FL. rewrite !orb_true_r. cbn [orb andb].
  rewrite fracLiquid_weighs. set (mF := weighs tab _) in *.
  set (r := addSolids (fun _ => false) _ _ _). set (mL := fold_left _ _ 0).
  unfold totals. cbn [tMass].
  assert (SK : forall j, skipFrac isFluid c j = false) by (intros j; unfold skipFrac; rewrite FS, FF; reflexivity).
  assert (FM : rMass (addSolids (skipFrac isFluid c) (cNFrac c) (fracS s) (mkRun [] (rMass r) (rProp r)))
               = rMass r + weighs tab (fun o => fracAmount tab (oxide tab o) (cNFrac c) s) - mF).
  { rewrite addSolids_mass. cbn [rMass]. unfold fracAmount. rewrite weighs_plus.
    unfold mF, oxide. cbn [perSol perLiq]. rewrite weighs_sum.
    match goal with |- _ + ?a = _ + (?b + ?d) - ?d => assert (E : a = b); [| rewrite E; ring] end.
    apply sum_ext. intros j Hj. rewrite SK. destruct (isPhase tab j) eqn:HP.
    - rewrite weighs_sum. apply sum_ext. intros ns _. rewrite solMass_oxides by assumption. reflexivity.
    - rewrite (C j HP). cbn [sum]. rewrite weighs_0. reflexivity. }
  destruct (Rlt_dec 0 mF) as [Z | Z]; cbn [rMass].
  - rewrite FM. ring.
  - rewrite FM. assert (mF = 0) by lra. lra.
Qed.
(** the same as a property of its own (C116) *)
Theorem C116_fractionated : forall index st c s,
  weightsAgree -> layout tab -> (forall j, isPhase tab j = false -> cNFrac c j = O) ->
  cFracSol c = true -> cFracFlu c = true -> cFracLiq c = true ->
  0 <= weighs tab (fun o => sum (nlc tab) (fun j => liqToOx tab j o * fracL s j)) ->
  let out := fst (fill index st c s) in
  tMass (oSys out) = tMass (oNoFrac out) + weighs tab (fun o => fracAmount tab (oxide tab o) (cNFrac c) s).
Proof. exact C73_fractionated_partial. Qed.

(** The record is not a function of the system: with nineteen oxides it contains the weight of
    FeO1.3 (entry 19 of the table of oxides) times whatever lies behind the nineteen numbers of
    the bulk composition. *)
Theorem C74_refuted_reads_past_bulk : forall index st c s x,
  nc tab = 19%nat -> omw tab 19 <> 0 ->
  let s' := setBulk (fun o => if Nat.ltb o (nc tab) then bulk s o else x) s in
  (forall o, (o < nc tab)%nat -> bulk s' o = bulk s o)
  /\ nth 19 (oBulk (fst (fill index st c s'))) 0 = omw tab 19 * x.
Proof.
  intros index st c s x HN HW s'. unfold s'. split.
  - intros o Ho. cbn [bulk setBulk]. apply Nat.ltb_lt in Ho. rewrite Ho. reflexivity.
  - unfold FillModel.fill. cbv zeta. cbn [fst oBulk seq map nth bulk setBulk]. rewrite HN. reflexivity.
Qed.

(** Everything else in the record is a function of the first nc entries. *)
Theorem C74_rest_partial : forall index st c s b,
  (forall o, (o < nc tab)%nat -> b o = bulk s o) -> (nc tab <= 20)%nat ->
  let out := fst (fill index st c s) in
  let out' := fst (fill index st c (setBulk b s)) in
  firstn (nc tab) (oBulk out') = firstn (nc tab) (oBulk out)
  /\ oLiq out' = oLiq out /\ oLiqComp out' = oLiqComp out /\ oSol out' = oSol out
  /\ oSolTot out' = oSolTot out /\ oNoFrac out' = oNoFrac out /\ oFrac out' = oFrac out
  /\ oFracLiq out' = oFracLiq out /\ oSys out' = oSys out /\ oVisc out' = oVisc out /\ oConf out' = oConf out.
Proof.
  intros index st c s b E HN out out'. split.
  - unfold out, out', FillModel.fill. cbv zeta. cbn [fst oBulk setBulk bulk].
    rewrite !firstn_map. assert (F : firstn (nc tab) (seq 0 20) = seq 0 (nc tab)).
    { assert (G : forall n k a, (n <= k)%nat -> firstn n (seq a k) = seq a n).
      { induction n as [| n IH]; intros k a H; [reflexivity |]. destruct k; [lia |]. cbn [seq firstn]. rewrite IH by lia. reflexivity. }
      apply G. exact HN. }
    rewrite F. apply map_ext_in. intros o Ho. apply in_seq in Ho. rewrite E by lia. reflexivity.
  - repeat split.
Qed.
(** the same as a property of its own (C117) *)
Theorem C117_rest_of_record : forall index st c s b,
  (forall o, (o < nc tab)%nat -> b o = bulk s o) -> (nc tab <= 20)%nat ->
  let out := fst (fill index st c s) in
  let out' := fst (fill index st c (setBulk b s)) in
  firstn (nc tab) (oBulk out') = firstn (nc tab) (oBulk out)
  /\ oLiq out' = oLiq out /\ oLiqComp out' = oLiqComp out /\ oSol out' = oSol out
  /\ oSolTot out' = oSolTot out /\ oNoFrac out' = oNoFrac out /\ oFrac out' = oFrac out
  /\ oFracLiq out' = oFracLiq out /\ oSys out' = oSys out /\ oVisc out' = oVisc out /\ oConf out' = oConf out.
Proof. exact C74_rest_partial. Qed.
End P.

(** ** With the tables as shipped *)

(** The hypotheses about the tables of C72 and C73 hold in all four variants. *)
Theorem C72_mass_balance_shipped : forall m t isFluid curLiq curSol mixLiq mixSol viscLiq junk someLiquid index st c s,
  In m modes -> initialised m t -> counts t s -> balanced t s -> (someLiquid = true \/ nLiq s = O) ->
  let out := fst (fill t isFluid curLiq curSol mixLiq mixSol viscLiq junk someLiquid index st c s) in
  tMass (oNoFrac out) = weighs t (bulk s)
  /\ tMass (oNoFrac out) = sum (nc t) (fun o => nth o (oBulk out) 0).
Proof.
  intros m t isFluid curLiq curSol mixLiq mixSol viscLiq junk someLiquid index st c s Hm It C B HL.
  destruct (C46_tables_consistent m t Hm It) as (L & _ & _ & W & _).
  apply C72_mass_balance; try assumption. rewrite (in_nc m t It). vm_compute. repeat constructor.
Qed.

(** ** Counterexamples to C73 *)

(** One phase, water, one oxide. *)
Definition wTab : Tab :=
  mkTab 0 1 1 (fun _ => true) (fun _ => 1%nat) (fun _ _ => 0) (fun _ _ => 1) (fun _ _ => 0) (fun _ _ => 0)
        (fun _ => 18) (fun _ => 18) (fun _ => 0) (fun _ => 0) (fun _ => false).
(** One mole of it has been fractionated, nothing else is left. *)
Definition wState : St :=
  mkSt false 0 (fun _ _ => 0) (fun _ => O) (fun _ _ => 0) (fun _ => 0) (fun _ _ => 1) (fun _ => 0) 18 0 false.
Definition wConf (sol flu : bool) : Conf :=
  mkConf sol flu false (fun j => if Nat.eqb j 0 then 1%nat else O) false false false 0 0 0.
Definition wFill (index : nat) (st : Statics) (c : Conf) (s : St) : Out * Statics :=
  fill wTab (fun _ => true) (fun _ _ => 0) (fun _ _ => 1) (fun _ _ => 0) (fun _ _ _ => 0) (fun _ => 0) 0
       false index st c s.
Definition wNothing : St :=
  mkSt false 0 (fun _ _ => 0) (fun _ => O) (fun _ _ => 0) (fun _ => 0) (fun _ _ => 0) (fun _ => 0) 0 0 false.
Definition wConf0 : Conf := mkConf true true false (fun _ => O) false false false 0 0 0.

Lemma wAmount : fracAmount wTab (oxide wTab 0) (cNFrac (wConf true true)) wState = 1.
Proof. unfold fracAmount. cbn. ring. Qed.

(** With both switches on the water is counted ... *)
Theorem C73_case : forall st, let out := fst (wFill 1 st (wConf true true) wState) in
  tMass (oSys out) = 18 /\ map eMass (oFrac out) = [18].
Proof.
  intros st. unfold wFill, fill. cbv zeta. cbn [fst oSys oFrac Nat.eqb].
  unfold skipFrac. cbn [wConf cFracSol cFracFlu cFracLiq]. rewrite !orb_true_r, orb_false_r. cbn [orb andb negb].
  assert (Z : (if Rlt_dec 0 (sum (nlc wTab) (fun i => fracL wState i * sum (nc wTab) (fun o => liqToOx wTab i o * omw wTab o))) then true else false) = false).
  { cbn. destruct (Rlt_dec 0 0); [lra | reflexivity]. }
  rewrite Z, andb_false_r. cbn. split; [ring | f_equal; ring].
Qed.

(** ... but with the fractionation of fluids switched off later, it is in no list and in no
    total, ... *)
Theorem C73_refuted_fluid_forgotten : forall st, let out := fst (wFill 1 st (wConf true false) wState) in
  tMass (oSys out) = 0 /\ oFrac out = [].
Proof.
  intros st. unfold wFill, fill. cbv zeta. cbn [fst oSys oFrac Nat.eqb].
  unfold skipFrac. cbn [wConf cFracSol cFracFlu cFracLiq]. rewrite orb_false_r, !orb_true_r, orb_false_r. cbn [orb andb negb].
  assert (Z : (if Rlt_dec 0 (sum (nlc wTab) (fun i => fracL wState i * sum (nc wTab) (fun o => liqToOx wTab i o * omw wTab o))) then true else false) = false).
  { cbn. destruct (Rlt_dec 0 0); [lra | reflexivity]. }
  rewrite Z, andb_false_r. cbn. split; [ring | reflexivity].
Qed.

(** ... and so it is if fractionation is switched off after the first step: the first record is
    made before anything is fractionated, so the second step does not know that something was. *)
Theorem C73_refuted_switched_off : forall st0,
  let st1 := snd (wFill 0 st0 wConf0 wNothing) in
  let out := fst (wFill 1 st1 (wConf false false) wState) in
  fracMass wState = 18 /\ tMass (oSys out) = 0 /\ oFrac out = [].
Proof.
  intros st0 st1 out.
  assert (E1 : fSol st1 = 0 /\ fLiq st1 = 0).
  { unfold st1, wFill, fill. cbv zeta. cbn [snd fSol fLiq Nat.eqb].
    assert (Z : (if Rlt_dec 0 (sum (nlc wTab) (fun i => fracL wNothing i * sum (nc wTab) (fun o => liqToOx wTab i o * omw wTab o))) then true else false) = false).
    { cbn. destruct (Rlt_dec 0 0); [lra | reflexivity]. }
    rewrite Z, andb_false_r. cbn [wConf0 cFracSol]. rewrite orb_true_r. cbn. split; ring. }
  destruct E1 as [E1 E2]. split; [reflexivity |].
  unfold out, wFill, fill. cbv zeta. cbn [fst oSys oFrac Nat.eqb wConf cFracSol cFracFlu cFracLiq].
  rewrite E1, E2, !orb_false_r. destruct (Rlt_dec 0 0) as [Q | _]; [lra |].
  cbn. split; [ring | reflexivity].
Qed.
