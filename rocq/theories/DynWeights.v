(** C192, C193: what the species of a liquid hold, and the weights of end members. *)
From Coq Require Import Reals QArith Qcanon Qreals String Bool Arith ZArith Lia Lra.
From Verif Require Import MassModel MassSpec MassProofs InitModel InitProofs InitProps InitCert Tables ReportModel QryModel QrySpec QryProps QryTable QryLiquid ElmTable DynModel DynProps DynMem.
From Coq Require Import List. Import ListNotations.
Local Open Scope R_scope.

(** C192: CaCO3 is what the liquid table of the two modes names after its components; its atoms are those of CaSiO3 and CO2 less
    those of SiO2, so that species hold the elements entered as components do *)
Theorem C192_elements m t liq c T P x z : In m [mode_xMelts; mode_meltsFluid] -> initialised m t -> iSi c = 0%nat -> iCa c = 10%nat -> iC c = 14%nat -> (z < NE)%nat ->
  sum (S (nlc t)) (fun i => speciated t liq c T P x i * atoms (nth i tbl_meltsFluidLiquid ""%string) z) = sum (nlc t) (fun i => x i * atoms (liquidFormula m i) z).
Proof.
  intros Hm It E1 E2 E3 Hz.
  assert (K : nlc t = 19%nat /\ forall i, (i < 19)%nat -> liquidFormula m i = nth i tbl_meltsFluidLiquid ""%string).
  { pose proof (in_nlc m t It) as L. assert (K : forallb (fun m => Nat.eqb (length (mLiq m)) 19 && forallb (fun i => String.eqb (liquidFormula m i) (nth i tbl_meltsFluidLiquid ""%string)) (seq 0 19)) [mode_xMelts; mode_meltsFluid] = true) by (vm_compute; reflexivity).
    rewrite forallb_forall in K. specialize (K m Hm). apply andb_prop in K. destruct K as [K1 K2]. apply Nat.eqb_eq in K1. rewrite forallb_forall in K2.
    split; [lia|]. intros i Hi. apply String.eqb_eq, K2, in_seq. lia. }
  destruct K as [L F].
  rewrite (sp_sum t liq c ltac:(lia) T P x (fun i => atoms (nth i tbl_meltsFluidLiquid ""%string) z)).
  - apply MassProofs.sum_ext. intros i Hi. rewrite F by lia. reflexivity.
  - cbv beta. rewrite L, E1, E2, E3. unfold atoms.
    assert (K : forallb (fun z => Qeq_bool (this (getV (elemRow (nth 19 tbl_meltsFluidLiquid ""%string)) z))
      (this (getV (elemRow (nth 10 tbl_meltsFluidLiquid ""%string)) z) + this (getV (elemRow (nth 14 tbl_meltsFluidLiquid ""%string)) z) - this (getV (elemRow (nth 0 tbl_meltsFluidLiquid ""%string)) z))) (seq 0 NE) = true) by (vm_compute; reflexivity).
    rewrite forallb_forall in K. specialize (K z ltac:(apply in_seq; lia)). apply Qeq_bool_eq, Qeq_eqR in K. rewrite Q2R_minus, Q2R_plus in K. exact K.
Qed.

(** ** C193 *)
Section Weights.
Variables (m : Mode) (t : Tab) (beyond : nat -> nat -> R) (nls : nat).
Hypotheses (Hm : In m modes) (It : initialised m t).
(** the weight of a formula *)
Definition formulaWeight (f : string) : R := sum NE (fun z => atoms f z * atomicWeight z).
Lemma smw_formula i : (i < npc t)%nat -> smw t i = formulaWeight (solidFormula m i).
Proof.
  intros Hi. destruct (checked m Hm) as [c Ch]. rewrite (smw_atoms m t It c Ch i Hi). apply MassProofs.sum_ext. intros k Hk. rewrite solE_atoms; [reflexivity|].
  now rewrite <- (in_npc m t It).
Qed.
(** solids: the weights of the formulas listed *)
Theorem C193_solution j n k ptr number mem : isPhase t j = true -> n = na t j -> (1 < n)%nat -> (k < n)%nat -> (j < npc t)%nat ->
  let r := weights_ t beyond nls (Some (j, n)) false ptr number mem in
  fst r = n /\ cell (snd r) ptr k = formulaWeight (solidFormula m (j + 1 + k)).
Proof.
  intros Ph En N Hk Hj r. destruct (init_layout m t It j Hj Ph) as [_ L]. rewrite <- En in L. destruct (L N) as [L1 _].
  unfold r, weights_, cell. destruct n as [|[|n]]; [lia|lia|]. cbn [fst snd]. split; [reflexivity|]. rewrite store_same. unfold put.
  rewrite (proj2 (Nat.ltb_lt _ _) Hk). apply smw_formula. lia.
Qed.
Theorem C193_pure j ptr number mem : (j < npc t)%nat ->
  let r := weights_ t beyond nls (Some (j, 1%nat)) false ptr number mem in
  fst r = 1%nat /\ cell (snd r) ptr 0 = formulaWeight (solidFormula m j).
Proof. intros Hj r. unfold r, weights_, cell. cbn [fst snd]. split; [reflexivity|]. rewrite store_same. unfold put. cbn [Nat.ltb Nat.leb]. now apply smw_formula. Qed.
Lemma liquid_weight ptr number mem i : (i < nls)%nat ->
  cell (snd (weights_ t beyond nls None true ptr number mem)) ptr i = sum (nc t) (fun o => readOxToLiq t beyond o i * omw t o).
Proof. intros Hi. unfold weights_, cell. cbn [snd]. rewrite store_same. unfold put. now rewrite (proj2 (Nat.ltb_lt _ _) Hi). Qed.
(** the liquid: what is written is the sum of the column of the other conversion (oxides to components), and for CaSiO3 that is negative *)
Theorem C193_refuted ptr number mem found : In m [mode_xMelts; mode_melts; mode_meltsFluid] -> (nlc t <= nls)%nat ->
  let w i := cell (snd (weights_ t beyond nls found true ptr number mem)) ptr i in
  liquidFormula m 10 = "CaSiO3"%string /\ w 10%nat < 0 /\ 0 < formulaWeight "CaSiO3".
Proof.
  intros H3 Ls w. pose proof (in_nc m t It) as En. pose proof (in_nlc m t It) as El.
  assert (Lm19 : length (mLiq m) = 19%nat) by (destruct H3 as [E|[E|[E|E]]]; [subst m; vm_compute; reflexivity..|destruct E]).
  assert (Ch : checkMode cert_bulk cert_melts m = true) by (destruct H3 as [E|[E|[E|E]]]; [subst m; vm_compute; reflexivity..|destruct E]).
  split; [destruct H3 as [E|[E|[E|E]]]; [subst m; vm_compute; reflexivity..|destruct E]|].
  destruct (ch_split m t It cert_melts Ch) as ((En' & El') & (RO & RL) & _ & _ & IO & _).
  assert (Ln : length tbl_bulk = 19%nat) by (vm_compute; reflexivity).
  split.
  - assert (W : w 10%nat = sum (nc t) (fun o => cf 19 (certM 19 cert_melts) (nth o Om []) 10 * omw t o)).
    { unfold w, weights_, cell. cbn [snd]. rewrite store_same. unfold put. rewrite (proj2 (Nat.ltb_lt _ _)) by lia. apply MassProofs.sum_ext. intros o Ho.
      unfold readOxToLiq. rewrite (proj2 (Nat.ltb_lt _ _)) by lia. f_equal.
      pose proof (in_oxToLiq m t It o Ho) as A. rewrite El' in A. exact (solved_unique _ _ _ _ RL (IO _ (in_O o ltac:(unfold nOx in *; lia))) _ A 10%nat ltac:(unfold nOx; lia)). }
    rewrite W, En, Ln.
    assert (E : forall o, (o < 19)%nat -> cf 19 (certM 19 cert_melts) (nth o Om []) 10 = QR (getV (map (fun o => getV (coef 19 (certM 19 cert_melts) (nth o Om [])) 10) (seq 0 19)) o)).
    { intros o Ho. unfold cf, getV at 2. f_equal. rewrite (nth_indep _ _ (getV (coef 19 (certM 19 cert_melts) (nth 0 Om [])) 10)) by (rewrite map_length, seq_length; exact Ho).
      change (getV (coef 19 (certM 19 cert_melts) (nth 0 Om [])) 10) with ((fun o => getV (coef 19 (certM 19 cert_melts) (nth o Om [])) 10) 0%nat). rewrite map_nth, seq_nth by exact Ho. reflexivity. }
    rewrite (MassProofs.sum_ext 19 _ (fun o => QR (getV (map (fun o => getV (coef 19 (certM 19 cert_melts) (nth o Om [])) 10) (seq 0 19)) o) * QR (getV (map (fun f => fst (parsed f)) tbl_bulk) o))).
    + rewrite <- sumz_QR. unfold QR. replace 0 with (Q2R 0) by (unfold Q2R; cbn; lra). apply Qlt_Rlt.
      apply Qnot_le_lt. intros L. apply Qle_bool_iff in L. revert L.
      match goal with |- ?a = true -> False => assert (Z : a = false) by (vm_compute; reflexivity); rewrite Z; discriminate end.
    + intros o Ho. rewrite E by exact Ho. f_equal. rewrite (in_omw m t It o) by lia. unfold getV. f_equal.
      rewrite (nth_indep _ _ (fst (parsed ""%string))) by (rewrite map_length; lia). now rewrite (map_nth (fun f => fst (parsed f))).
  - unfold formulaWeight. rewrite <- weight_atoms by (vm_compute; reflexivity). unfold QR. replace 0 with (Q2R 0) by (unfold Q2R; cbn; lra). apply Qlt_Rlt.
    apply Qnot_le_lt. intros L. apply Qle_bool_iff in L. revert L. match goal with |- ?a = true -> False => assert (Z : a = false) by (vm_compute; reflexivity); rewrite Z; discriminate end.
Qed.
End Weights.
(** and the weight written for a species past the components is made of what lies beyond the rows of the conversion *)
Theorem C193_refuted_beyond : forall m t nls found ptr number mem w, In m modes -> initialised m t -> (nlc t < nls)%nat ->
  exists beyond, cell (snd (weights_ t beyond nls found true ptr number mem)) ptr (nlc t) = w.
Proof.
  intros m t nls found ptr number mem w Hm It L. assert (L0 : (0 < nc t)%nat) by (rewrite (in_nc m t It); vm_compute; lia).
  pose proof (omw_pos m t 0 It L0) as P0. exists (fun o _ => if Nat.eqb o 0 then w / omw t 0 else 0).
  unfold weights_, cell. cbn [snd]. rewrite store_same. unfold put. rewrite (proj2 (Nat.ltb_lt _ _) L). unfold readOxToLiq. rewrite Nat.ltb_irrefl.
  transitivity (sum (nc t) (fun o => if Nat.eqb o 0 then w else 0)); [|now apply sum_if].
  apply MassProofs.sum_ext. intros o Ho. destruct (Nat.eqb o 0) eqn:E; [apply Nat.eqb_eq in E; subst o; field; lra|ring].
Qed.
(** cases: any of the first three modes; feldspar's three end members *)
Theorem C193_case : exists m t j, In m [mode_xMelts; mode_melts; mode_meltsFluid] /\ In m modes /\ initialised m t /\ (j < npc t)%nat /\ isPhase t j = true /\ (1 < na t j)%nat.
Proof.
  assert (Hm : In mode_meltsFluid modes) by (right; right; left; reflexivity).
  destruct (C46_tables_exist _ Hm) as [t It]. destruct feldspar_at as (i & Li & Lb & Ty & Le). exists mode_meltsFluid, t, i.
  assert (Hi : (i < npc t)%nat) by (rewrite (in_npc _ t It); exact Li).
  assert (Hp : isPhase t i = true) by (rewrite (in_type _ t It i Hi); exact Ty).
  split; [right; right; left; reflexivity|]. split; [exact Hm|]. split; [exact It|]. split; [exact Hi|]. split; [exact Hp|].
  rewrite (in_na _ t It i Hi Hp). unfold naOf, phaseTypes. rewrite skipn_map, endMembers_length. fold (formulas mode_meltsFluid i). rewrite Le. cbn. lia.
Qed.
(** C192's hypotheses: a liquid of one mole each of SiO2, CaSiO3 and CO2, a tenth of whose moles become CaCO3 *)
Theorem C192_case : exists m t (c : Carbonate) (liq : Soln) (grams : nat -> R), In m [mode_xMelts; mode_meltsFluid] /\ initialised m t
  /\ iSi c = 0%nat /\ iCa c = 10%nat /\ iC c = 14%nat /\ (iSi c < nlc t)%nat /\ (iCa c < nlc t)%nat /\ (iC c < nlc t)%nat
  /\ forall T P, let x := moles t ElmTable.oxToElm None true liq T P grams in sum (nlc t) x <> 0
     /\ forall i, In i [nlc t; 0%nat; 10%nat; 14%nat] -> unlessZero (sum (nlc t) x) (speciated t liq c T P x i / sum (nlc t) x) <> 0.
Proof.
  assert (Hm : In mode_meltsFluid modes) by (right; right; left; reflexivity).
  destruct (C46_tables_exist _ Hm) as [t It]. pose (x := fun i : nat => match i with 0%nat | 10%nat | 14%nat => 1 | _ => 0 end).
  exists mode_meltsFluid, t, (mkCarb 0 10 14 (fun _ _ _ => 1/10) (fun _ _ => 0)), (mkSoln 19 (fun e => e) (fun m => m) (fun _ _ _ _ => 0) (fun _ _ _ _ => 0) (fun _ _ _ _ => 0) (fun _ _ _ _ => 0)), (liqGrams t x).
  assert (L : nlc t = 19%nat) by (rewrite (in_nlc _ t It); vm_compute; reflexivity).
  split; [right; left; reflexivity|]. split; [exact It|]. split; [reflexivity|]. split; [reflexivity|]. split; [reflexivity|]. do 3 (split; [cbn; lia|]). intros T P y.
  assert (Y : forall i, (i < nlc t)%nat -> y i = x i) by (intros i Hi; exact (C184_liquid_recovered _ t x i Hm It Hi)).
  assert (S : sum (nlc t) y = 3). { rewrite (MassProofs.sum_ext _ y x Y), L. unfold x. cbn. lra. }
  split; [lra|]. intros i Hi. unfold unlessZero. destruct (Req_EM_T _ 0); [lra|]. unfold speciated. cbn [xSpecies iSi iCa iC sR]. rewrite S.
  assert (V : y 0%nat = 1 /\ y 10%nat = 1 /\ y 14%nat = 1) by (rewrite !Y by lia; unfold x; auto). destruct V as (V0 & V1 & V2).
  clearbody y. rewrite L in *. repeat destruct Hi as [Hi|Hi]; try subst i; try contradiction; cbn; rewrite ?V0, ?V1, ?V2; intros Z; lra.
Qed.
