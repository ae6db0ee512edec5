(** C187, C191-C193: end members in the shared library, molecular weights, and compositions a phase cannot have. *)
From Coq Require Import Reals QArith Qcanon Qreals String Bool Arith ZArith Lia Lra FunctionalExtensionality.
From Coquelicot Require Import Coquelicot.
From Verif Require Import RealTac Sym MassModel MassSpec MassProofs InitModel InitProofs InitProps InitCert Tables ReportModel QryModel QrySpec QryProps QryTable QryLiquid ElmModel ElmTable DynModel DynProps QryOrd.
From Verif Require Import OrdModel OrdData OrdSpec OrdProps OrdActModel OrdActData OrdActSpec OrdActProps.
From Verif Require SolnModel SolnData SolnProofs SolnProps LiqModel LiqProofs LiqProps OrdActCase OrdCase.
From Coq Require Import List. Import ListNotations.
Local Open Scope R_scope.

Lemma smw_pos m t c : initialised m t -> In m modes -> (c < npc t)%nat -> solidFormula m c <> ""%string -> 0 < smw t c.
Proof.
  intros It Hm Hc Nf. rewrite (in_smw m t It c Hc). rewrite (in_npc m t It) in Hc.
  assert (K : forallb (fun m => forallb (fun x : string * bool * string => String.eqb (snd x) "" || negb (Qle_bool (this (fst (parsed (snd x)))) 0)) (mSol m)) modes = true) by (vm_compute; reflexivity).
  rewrite forallb_forall in K. specialize (K m Hm). rewrite forallb_forall in K.
  specialize (K _ (nth_In (mSol m) (""%string, false, ""%string) Hc)). unfold QR.
  replace 0 with (Q2R 0) by (unfold Q2R; cbn; lra). apply Qlt_Rlt. apply orb_prop in K. destruct K as [K|K]; [apply String.eqb_eq in K; contradiction|]. apply negb_true_iff in K.
  apply Qnot_le_lt. intros L. apply Qle_bool_iff in L.
  unfold solidFormula in L. match type of L with ?x = true => match type of K with ?y = false => change (x = false) in K end end. congruence.
Qed.
(** C188 for the pure phases of the tables *)
Theorem C188_pure_phases md t oxToElm liq redo j cur T P n a mem o : In md modes -> initialised md t -> (o < nc t)%nat -> (j < npc t)%nat -> solidFormula md j <> ""%string ->
  oxideCell (dynPhase_ t oxToElm liq redo (Some (j, Pure (smw t j) cur)) T P (fun o => n * (solToOx t j o * omw t o)) a mem) a o = n * (solToOx t j o * omw t o).
Proof. intros Hm It Ho Hj Nf. apply (C188_pure md t Hm It); auto. pose proof (smw_pos md t j It Hm Hj Nf). lra. Qed.

(** ** C187: one gram of MgO entered for feldspar is reported as a mass of one gram without any oxide *)
Lemma feldspar_at : exists i, (i < length (mSol mode_meltsFluid))%nat /\ label mode_meltsFluid i = "feldspar"%string /\ nth i (phaseTypes mode_meltsFluid) false = true
  /\ length (formulas mode_meltsFluid i) = 3%nat.
Proof.
  assert (K : existsb (fun i => Nat.ltb i (length (mSol mode_meltsFluid)) && String.eqb (label mode_meltsFluid i) "feldspar" && nth i (phaseTypes mode_meltsFluid) false && Nat.eqb (length (formulas mode_meltsFluid i)) 3) (seq 0 200) = true) by (vm_compute; reflexivity).
  apply existsb_exists in K. destruct K as (i & _ & K). apply andb_prop in K. destruct K as [K K4]. apply andb_prop in K. destruct K as [K K3]. apply andb_prop in K. destruct K as [K1 K2].
  exists i. apply Nat.ltb_lt in K1. apply String.eqb_eq in K2. apply Nat.eqb_eq in K4. auto.
Qed.
Theorem C187_refuted : exists md t i s grams, In md modes /\ initialised md t /\ (i < npc t)%nat /\ isPhase t i = true /\ (1 < na t i)%nat
  /\ sNa s = na t i /\ fromElements (label md i) (na t i) = Some (sElem s) /\ (forall o, 0 <= grams o)
  /\ forall liq redo T P a mem, let after := dynPhase_ t ElmTable.oxToElm liq redo (Some (i, Solution s)) T P grams a mem in
     cell after a (13 + nc t)%nat = 1 /\ (exists o, (o < nc t)%nat /\ grams o = 1) /\ forall o, (o < nc t)%nat -> oxideCell after a o = 0.
Proof.
  assert (Hm : In mode_meltsFluid modes) by (right; right; left; reflexivity).
  destruct (C46_tables_exist _ Hm) as [t It]. destruct feldspar_at as (i & Li & Lb & Ty & Le).
  assert (Hi : (i < npc t)%nat) by (rewrite (in_npc _ t It); exact Li).
  assert (Hp : isPhase t i = true) by (rewrite (in_type _ t It i Hi); exact Ty).
  assert (Hn : na t i = 3%nat).
  { rewrite (in_na _ t It i Hi Hp). unfold naOf, phaseTypes. rewrite skipn_map, endMembers_length. fold (formulas mode_meltsFluid i). rewrite Le. reflexivity. }
  exists mode_meltsFluid, t, i, (mkSoln 3 fld (fun m => m) (fun _ _ _ _ => 0) (fun _ _ _ _ => 0) (fun _ _ _ _ => 0) (fun _ _ _ _ => 0)), (fun o => if Nat.eqb o 7 then 1 else 0).
  assert (En : nc t = length tbl_bulk) by apply It. assert (L8 : (7 < length tbl_bulk)%nat) by (vm_compute; lia).
  split; [exact Hm|]. split; [exact It|]. split; [exact Hi|]. split; [exact Hp|]. split; [lia|]. split; [now rewrite Hn|].
  split; [rewrite Lb; reflexivity|]. split; [intros o; destruct (Nat.eqb o 7); lra|].
  intros liq redo T P a mem after.
  assert (Z : forall z, (z < NE)%nat -> z <> 12%nat -> z <> 8%nat -> elements t ElmTable.oxToElm (fun o => if Nat.eqb o 7 then 1 else 0) z = 0).
  { intros z Hz N12 N8. unfold elements. apply (MassProofs.sum_0). intros o Ho. destruct (Nat.eqb o 7) eqn:E; [|unfold Rdiv; ring].
    apply Nat.eqb_eq in E. subst o. rewrite oxToElm_atoms by (rewrite <- ?En; assumption).
    assert (K : forallb (fun z => Nat.eqb z 12 || Nat.eqb z 8 || Qeq_bool (this (getV (elemRow (nth 7 tbl_bulk ""%string)) z)) 0) (seq 0 NE) = true) by (vm_compute; reflexivity).
    rewrite forallb_forall in K. specialize (K z ltac:(apply in_seq; lia)). apply orb_prop in K. destruct K as [K|K].
    - apply orb_prop in K. destruct K as [K|K]; apply Nat.eqb_eq in K; contradiction.
    - apply Qeq_bool_eq in K. apply Qeq_eqR in K. unfold atoms, oxideFormula, QR. rewrite K. unfold Q2R; cbn. ring. }
  assert (L30 : (30 <= NE)%nat) by (vm_compute; lia).
  split; [|split].
  - unfold after. rewrite (proj1 (C189_density t ElmTable.oxToElm liq redo _ T P _ a mem)). rewrite En. vm_compute (length tbl_bulk). cbn. ring.
  - exists 7%nat. split; [rewrite En; exact L8|reflexivity].
  - intros o Ho. unfold after, oxideCell, cell. cbn [dynPhase_]. rewrite store_same. unfold phaseCells. cbv zeta. rewrite read_ox by exact Ho.
    unfold oxGrams. cbn [sNa]. apply (MassProofs.sum_0). intros k Hk. unfold moles. cbn [sElem]. unfold fld, ElmModel.listed.
    rewrite !Z by (try discriminate; lia). destruct k as [|[|[|k]]]; cbn [nth]; try lia; ring.
Qed.

(** ** C191: activities of end members *)
Section Activities.
Variables (t : Tab) (oxToElm : nat -> nat -> R).
Notation members liq carb := (dynMembers_ t oxToElm liq None carb).
(** what is reported about end member i: fraction, activity, standard potential, potential *)
Definition entry (r : nat * Mem) (a i c : nat) : R := cell (snd r) a (4 * i + c)%nat.
Lemma solution_entries liq carb j s T P grams a number mem i : (i < sNa s)%nat ->
  let m := sElem s (elements t oxToElm grams) in
  let r := members liq carb (Some (j, Solution s)) T P grams a number mem in
  m i <> 0 -> entry r a i 1 = sAct s T P (sR s m) i /\ entry r a i 2 = sCur s i 0%nat T P /\ entry r a i 3 = potential s T P m i
  /\ entry r a i 0 = unlessZero (sum (sNa s) m) (m i / sum (sNa s) m).
Proof.
  intros L m r N. assert (NZ : forall y, unlessZero (m i) y = y) by (intros y; unfold unlessZero; destruct (Req_EM_T (m i) 0); [contradiction|reflexivity]).
  unfold r, entry, cell. cbn [dynMembers_ snd]. rewrite store_same, !fill_at by (try assumption; lia). unfold endRows. rewrite !row_at by lia.
  unfold moles. fold m. rewrite !NZ. repeat split; reflexivity.
Qed.
(** the fifteen solutions without ordering parameters; activity(0, ...) is the formula of mask FIRST *)
Theorem C191_solution ph f cur liq carb j T P grams a number mem i : In ph SolnData.phases ->
  let m := f (elements t oxToElm grams) in
  SolnProofs.feasible ph T P (fun j => SolnModel.con_r (SolnModel.ph_con ph) j m) -> 0 < T -> (i < SolnModel.ph_na ph)%nat -> m i <> 0 ->
  let r := members liq carb (Some (j, Solution (solution ph f cur))) T P grams a number mem in
  0 < entry r a i 1 /\ entry r a i 3 = entry r a i 2 + Rgas * T * ln (entry r a i 1).
Proof.
  intros I m F Tp L Mi r.
  destruct (solution_entries liq carb j (solution ph f cur) T P grams a number mem i L Mi) as (E1 & E2 & E3 & _). fold r in E1, E2, E3.
  rewrite E1, E2, E3. unfold potential. cbn [sMu sR sCur sAct sElem solution]. fold m.
  assert (N0 : (0 < SolnModel.ph_nr ph)%nat).
  { assert (K : forallb (fun ph => Nat.ltb 0 (SolnModel.ph_nr ph)) SolnData.phases = true) by (vm_compute; reflexivity). rewrite forallb_forall in K. specialize (K ph I). now apply Nat.ltb_lt in K. }
  destruct (SolnProps.C14_activities ph I T P _ F i 0%nat L N0) as [E _]. rewrite E. split; [apply exp_pos|]. rewrite ln_exp.
  replace (Q2R (83143 # 10000)) with Rgas by (unfold Rgas, Q2R; cbn; lra). field. split; [lra|unfold Rgas; lra].
Qed.
(** phases with ordering parameters: activity(0, ...) is not divided by that of the pure end member (melilite.c 2080-2086 beside
    2098-2102, and the same in the other files) *)
Definition libSolution (A : ordAct) sv slv ends a0 f cur : Soln :=
  let s := orderedSolution A sv slv ends a0 f cur in
  {| sNa := sNa s; sElem := sElem s; sR := sR s; sMix := sMix s; sMu := sMu s; sCur := sCur s;
     sAct := fun t p r i => exp (aArg A sv t p r i / (gasR * t)) |}.
Lemma ordered_entries A sv slv ends a0 f cur liq carb j T P grams a number mem i : 0 < T ->
  let m := f (elements t oxToElm grams) in (i < o_na (oa_ph A))%nat -> m i <> 0 ->
  let r := members liq carb (Some (j, Solution (libSolution A sv slv ends a0 f cur))) T P grams a number mem in
  0 < entry r a i 1 /\ entry r a i 3 = entry r a i 2 + Rgas * T * ln (entry r a i 1) - match o_ends (oa_ph A) with None => 0 | Some _ => ends 0%nat T P i end.
Proof.
  intros Tp m L Mi r.
  destruct (solution_entries liq carb j (libSolution A sv slv ends a0 f cur) T P grams a number mem i L Mi) as (E1 & E2 & E3 & _). fold r in E1, E2, E3.
  rewrite E1, E2, E3. unfold potential. cbn [sMu sR sCur sAct sElem libSolution orderedSolution]. fold m. split; [apply exp_pos|]. rewrite ln_exp. unfold actO_mu.
  replace gasR with Rgas by (unfold Rgas, gasR, Q2R; cbn; lra). assert (Rgas <> 0) by (unfold Rgas; lra). destruct (o_ends (oa_ph A)); field; split; lra.
Qed.
(** so that they belong to the potentials where pure end members have no ordering energy: in files that do not correct for one, *)
Theorem C191_ordered A sv slv ends a0 f cur liq carb j T P grams a number mem i : 0 < T ->
  let m := f (elements t oxToElm grams) in (i < o_na (oa_ph A))%nat -> m i <> 0 -> o_ends (oa_ph A) = None ->
  let r := members liq carb (Some (j, Solution (libSolution A sv slv ends a0 f cur))) T P grams a number mem in
  0 < entry r a i 1 /\ entry r a i 3 = entry r a i 2 + Rgas * T * ln (entry r a i 1).
Proof.
  intros Tp m L Mi En r. destruct (ordered_entries A sv slv ends a0 f cur liq carb j T P grams a number mem i Tp L Mi) as [Q1 Q2]. fold r in Q1, Q2.
  rewrite En in Q2. split; [exact Q1|]. lra.
Qed.
(** and never in the six that do, for an end member that has one *)
Theorem C191_refuted A sv slv ends a0 f cur liq carb j T P grams a number mem i : 0 < T ->
  let m := f (elements t oxToElm grams) in (i < o_na (oa_ph A))%nat -> m i <> 0 -> o_ends (oa_ph A) <> None -> ends 0%nat T P i <> 0 ->
  let r := members liq carb (Some (j, Solution (libSolution A sv slv ends a0 f cur))) T P grams a number mem in
  entry r a i 3 <> entry r a i 2 + Rgas * T * ln (entry r a i 1).
Proof.
  intros Tp m L Mi En Ee r. destruct (ordered_entries A sv slv ends a0 f cur liq carb j T P grams a number mem i Tp L Mi) as [Q1 Q2]. fold r in Q1, Q2.
  destruct (o_ends (oa_ph A)); [|congruence]. lra.
Qed.
End Activities.
(** the six: *)
Theorem C191_which : map (fun A => o_file (oa_ph A)) (filter (fun A => match o_ends (oa_ph A) with None => false | Some _ => true end) ordActs)
  = ["clinopyroxene"; "melilite"; "ortho-oxide"; "orthopyroxene"; "rhombohedral"; "spinel"]%string.
Proof. vm_compute. reflexivity. Qed.
(** met by melilite at 1700 K: 240 (T - T ln T) + 9 P is not 0 *)
Theorem C191_case : exists A ends f (e : nat -> R) i, In A ordActs /\ fromElements "melilite" 4 = Some f /\ (i < o_na (oa_ph A))%nat /\ f e i <> 0
  /\ o_ends (oa_ph A) <> None /\ ends 0%nat 1700 1 i <> 0.
Proof.
  exists OrdActData.aMel, OrdCase.melEnds, mel, (fun z : nat => match z with 12%nat => 4/10 | 13%nat => 4/10 | 26%nat => 3/10 | 11%nat => 2/10 | _ => 0 end), 0%nat.
  split; [exact OrdActCase.mel_act|]. split; [reflexivity|]. split; [cbn; lia|]. split; [unfold mel, ElmModel.listed; cbn; lra|]. split; [discriminate|].
  unfold OrdCase.melEnds. assert (3 < ln 1700); [|lra].
  rewrite <- (ln_exp 3). apply ln_increasing; [apply exp_pos|]. apply Rle_lt_trans with 27; [|lra].
  replace 3 with (1 + 1 + 1) by ring. rewrite !exp_plus. pose proof exp_le_3. pose proof (exp_pos 1). nra.
Qed.

(** ** C192: the liquid with carbon dioxide: the species CaCO3 *)
Lemma sum_if n k y : (k < n)%nat -> sum n (fun i => if Nat.eqb i k then y else 0) = y.
Proof.
  intros H. induction n as [|n IH]; [lia|]. cbn [sum]. destruct (Nat.eqb n k) eqn:E.
  - apply Nat.eqb_eq in E. subst k. rewrite MassProofs.sum_0; [ring|]. intros i Hi. destruct (Nat.eqb i n) eqn:E; [apply Nat.eqb_eq in E; lia|reflexivity].
  - apply Nat.eqb_neq in E. rewrite IH by lia. ring.
Qed.
Section Carbon.
Variables (t : Tab) (oxToElm : nat -> nat -> R) (liq : Soln) (redo : option (R -> R -> (nat -> R) -> nat -> R)) (c : Carbonate).
Hypothesis places : (iSi c < nlc t)%nat /\ (iCa c < nlc t)%nat /\ (iC c < nlc t)%nat.
Notation sp := (speciated t liq c).
(** for any weights: what the species hold is what the components held, if one CaCO3 holds what CaSiO3 and CO2 less SiO2 hold *)
Lemma sp_sum T P m w : w (nlc t) = w (iCa c) + w (iC c) - w (iSi c) ->
  sum (S (nlc t)) (fun i => sp T P m i * w i) = sum (nlc t) (fun i => m i * w i).
Proof.
  intros W. destruct places as (A & B & D). cbn [sum]. set (y := xSpecies c T P (sR liq m) * sum (nlc t) m).
  assert (E : sum (nlc t) (fun i => sp T P m i * w i) = sum (nlc t) (fun i => m i * w i) + y * w (iSi c) - y * w (iCa c) - y * w (iC c)).
  { transitivity (sum (nlc t) (fun i => m i * w i + (if Nat.eqb i (iSi c) then y * w (iSi c) else 0) + (if Nat.eqb i (iCa c) then - (y * w (iCa c)) else 0) + (if Nat.eqb i (iC c) then - (y * w (iC c)) else 0))).
    - apply MassProofs.sum_ext. intros i Hi. unfold speciated. fold y. cbv zeta. rewrite (proj2 (Nat.eqb_neq i (nlc t))) by lia.
      destruct (Nat.eqb i (iSi c)) eqn:E1, (Nat.eqb i (iCa c)) eqn:E2, (Nat.eqb i (iC c)) eqn:E3;
        repeat match goal with H : (_ =? _)%nat = true |- _ => apply Nat.eqb_eq in H; rewrite <- H; clear H end; ring.
    - rewrite !MassProofs.sum_plus, !sum_if by assumption. ring. }
  rewrite E, W. unfold speciated. fold y. cbv zeta. rewrite Nat.eqb_refl. ring.
Qed.
Lemma species_entries T P j grams a number mem i : (i <= nlc t)%nat ->
  let m := moles t oxToElm redo true liq T P grams in
  let r := dynMembers_ t oxToElm liq redo (Some c) (Some (j, Liquid)) T P grams a number mem in
  fst r = S (nlc t)
  /\ entry r a i 0 = unlessZero (sum (nlc t) m) (sp T P m i / sum (nlc t) m) /\ entry r a i 1 = unlessZero (sp T P m i) (carbAct t liq c T P m i)
  /\ entry r a i 2 = unlessZero (sp T P m i) (carbG t liq c T P i) /\ entry r a i 3 = unlessZero (sp T P m i) (carbMu t liq c T P m i).
Proof.
  intros L m r. unfold r, entry, cell. cbn [dynMembers_ fst snd]. split; [reflexivity|]. rewrite store_same, !fill_at by lia. unfold speciesRows. cbv zeta. rewrite !row_at by lia.
  repeat split; reflexivity.
Qed.
(** the fractions of the species add up to one *)
Theorem C192_fractions T P j grams a number mem :
  sum (nlc t) (moles t oxToElm redo true liq T P grams) <> 0 ->
  let r := dynMembers_ t oxToElm liq redo (Some c) (Some (j, Liquid)) T P grams a number mem in
  sum (fst r) (fun i => entry r a i 0) = 1.
Proof.
  intros N r. set (m := moles t oxToElm redo true liq T P grams) in *. change (fst r) with (S (nlc t)).
  transitivity (sum (S (nlc t)) (fun i => sp T P m i * / sum (nlc t) m)).
  - apply MassProofs.sum_ext. intros i Hi. destruct (species_entries T P j grams a number mem i ltac:(lia)) as (_ & E & _). fold m in E. fold r in E. rewrite E.
    unfold unlessZero. destruct (Req_EM_T _ _); [contradiction|reflexivity].
  - rewrite (sp_sum T P m (fun _ => / sum (nlc t) m)) by ring. rewrite MassProofs.sum_scal_r. field. exact N.
Qed.
(** and the potentials reported belong to the activities reported, also for CaCO3; that potential is what CaSiO3 + CO2 - SiO2 gives *)
Theorem C192_species T P j grams a number mem : 0 < T ->
  let r := dynMembers_ t oxToElm liq redo (Some c) (Some (j, Liquid)) T P grams a number mem in
  entry r a (nlc t) 0 <> 0 -> entry r a (iSi c) 0 <> 0 -> entry r a (iCa c) 0 <> 0 -> entry r a (iC c) 0 <> 0 ->
  0 < entry r a (nlc t) 1 /\ entry r a (nlc t) 3 = entry r a (nlc t) 2 + Rgas * T * ln (entry r a (nlc t) 1)
  /\ entry r a (iCa c) 3 + entry r a (iC c) 3 = entry r a (iSi c) 3 + entry r a (nlc t) 3.
Proof.
  intros Tp r N1 N2 N3 N4. destruct places as (A & B & D). set (m := moles t oxToElm redo true liq T P grams) in *.
  assert (Q : forall i, (i <= nlc t)%nat -> entry r a i 0 <> 0 -> entry r a i 1 = carbAct t liq c T P m i /\ entry r a i 2 = carbG t liq c T P i /\ entry r a i 3 = carbMu t liq c T P m i).
  { intros i Hi N. destruct (species_entries T P j grams a number mem i Hi) as (_ & E0 & E1 & E2 & E3). fold m in E0, E1, E2, E3. fold r in E0, E1, E2, E3. rewrite E1, E2, E3.
    assert (Z : sp T P m i <> 0). { intros Z. apply N. rewrite E0, Z. unfold unlessZero, Rdiv. destruct (Req_EM_T _ _); ring. }
    unfold unlessZero. destruct (Req_EM_T (sp T P m i) 0); [contradiction|]. auto. }
  destruct (Q (nlc t) ltac:(lia) N1) as (E1 & E2 & E3). rewrite E1, E2, E3. destruct (Q (iSi c) ltac:(lia) N2) as (_ & _ & ->). destruct (Q (iCa c) ltac:(lia) N3) as (_ & _ & ->). destruct (Q (iC c) ltac:(lia) N4) as (_ & _ & ->).
  unfold carbAct, carbG, carbMu. rewrite Nat.eqb_refl. rewrite !(proj2 (Nat.eqb_neq _ (nlc t))) by lia.
  split; [apply exp_pos|]. split; [|ring]. rewrite ln_exp. field. split; [unfold Rgas|]; lra.
Qed.
End Carbon.
