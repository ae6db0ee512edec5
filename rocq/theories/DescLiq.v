(** The liquid of the MELTS and pMELTS modes along a line of amounts, and a case meeting the hypotheses of C92. *)
From Coq Require Import Reals List Lia Lra Bool Arith FunctionalExtensionality.
From Coquelicot Require Import Coquelicot.
From Verif Require Import MassModel MassSpec MassProofs RealTac LiqModel LiqProofs LiqProps QuadModel StepModel StepProofs StepProps HessModel HessSpec HessFill HessGen HessPhase HessBlock HessProofs HessLiq HessInst DescSpec DescProofs DescProps.
Import List ListNotations.
Open Scope R_scope.
Section L.
Variable n : nat.
Variables WH WS WV : nat -> nat -> R.
Hypotheses (SH : symmetric n WH) (SS : symmetric n WS) (SV : symmetric n WV).
Hypothesis N1 : (1 <= n)%nat.
Lemma liq_directional t p : 0 < t -> directional (liqMixing n WH WS WV) (S n) (liqDomain n) t p.
Proof.
  intros Ht m z Dm Z. cbn [liqMixing xG xGx xR xDr xNr].
  assert (T : 0 < total n m). { exact (tot_pos n N1 m Dm). }
  assert (Lt : is_derive (fun y => total n (fun k => m k + y * z k)) 0 (sum (S n) z)) by apply sum_lin.
  assert (T0 : total n (fun k => m k + 0 * z k) = total n m) by (unfold total; apply sum_ext; intros; ring).
  assert (Near : locally 0 (fun y => 0 < total n (fun k => m k + y * z k))).
  { pose proof (ex_derive_continuous _ _ (ex_intro _ _ Lt)) as Ct. apply (Ct (fun x => 0 < x)). apply (open_gt 0). cbv beta. rewrite T0. exact T. }
  assert (DR : forall i, (i < n)%nat -> is_derive (fun y => rOf n (fun k => m k + y * z k) i) 0 (sum (S n) (fun k => drOf n m i k * z k))).
  { intros i Hi. apply (is_derive_ext_loc (fun y => (m (S i) + y * z (S i)) / total n (fun k => m k + y * z k))).
    - revert Near. apply filter_imp. intros y Hy. unfold rOf, isZ. destruct (Req_EM_T _ 0); [lra|reflexivity].
    - assert (D1 : is_derive (fun y => m (S i) + y * z (S i)) 0 (z (S i))) by (auto_derive; [exact I|rr]).
      eapply is_derive_eq; [apply (is_derive_div (fun y => m (S i) + y * z (S i)) (fun y => total n (fun k => m k + y * z k)) 0 _ _ D1 Lt); rewrite T0; lra|].
      rewrite T0. rewrite (sum_ext (S n) (fun k => drOf n m i k * z k) (fun k => / total n m * (if Nat.eqb k (S i) then z k else 0) + (- m (S i) / (total n m * total n m)) * z k)).
      + rewrite sum_plus, !sum_scal. rewrite sum_one_f. replace (S i <? S n)%nat with true by (symmetry; apply Nat.ltb_lt; lia).
        match goal with |- ?a = ?b => change (@eq R a b) end. field. lra.
      + intros k Hk. unfold drOf, isZ. destruct (Req_EM_T (total n m) 0); [lra|]. destruct (Nat.eqb_spec (S i) k) as [<-|Ne]; [rewrite Nat.eqb_refl; field; lra|]. replace (k =? S i)%nat with false by (symmetry; apply Nat.eqb_neq; auto). field; lra. }
  assert (E0 : (fun k => m k + 0 * z k) = m) by (extensionality k; ring).
  pose proof (gmix_path n WH WS WV SH SS SV N1 (fun y => rOf n (fun k => m k + y * z k)) 0 (fun i => sum (S n) (fun k => drOf n m i k * z k)) DR) as K. cbv beta in K. rewrite E0 in K. apply K.
  - intros i Hi. destruct (Req_EM_T (m (S i)) 0) as [Zi|Ni]; [right|left; now apply r_pos].
    apply filter_forall. intros y. unfold rOf. rewrite Zi, (Z (S i) ltac:(lia) Zi). destruct (isZ _); unfold Rdiv; ring.
  - destruct Dm as [P M0]. destruct (C85_proper n N1 m P M0) as [Q _]. now apply proper_x0.
Qed.
End L.

(** *** A case: a liquid of two components beside a solid of one of them. Its melting is the one redistribution there is. *)
Definition eTab : Tab :=
  mkTab 2 1 2 (fun _ => true) (fun _ => 1%nat)
    (fun _ j => if Nat.eqb j 0 then 1 else 0) (fun _ o => if Nat.eqb o 0 then 1 else 0)
    (fun j o => if Nat.eqb j o then 1 else 0) (fun o j => if Nat.eqb o j then 1 else 0)
    (fun _ => 1) (fun _ => 1) (fun _ => 0) (fun _ => 0) (fun _ => false).
Definition eSt : St :=
  mkSt true 1 (fun _ _ => 2) (fun i => match i with O => 1 | _ => 0 end)%nat (fun _ _ => 5) (fun o => match o with O => 7 | _ => 2 end) (fun _ _ => 0) (fun _ => 0) 0 0 false.
Definition eX : Mixing := liqMixing 1 (fun _ _ => 0) (fun _ _ => 0) (fun _ _ => 0).
Definition eZero : nat -> nat -> R := fun _ _ => 0.
Definition eM : Mats := gradHess eTab Plain 1500 1000 eX hStd (fun _ => eX) hStd true 3 eSt.
Lemma e_lay : layout eTab.
Proof. intros i Hi _. cbn [eTab na npc] in *. split; [lia|]. intros; lia. Qed.
Lemma e_cnt : counts eTab eSt.
Proof.
  split; [|split]; intros i; cbn [eTab eSt isPhase na nSol npc]; try discriminate.
  - intros _. destruct i; lia.
  - intros Hi. destruct i; [lia|reflexivity].
Qed.
Lemma e_vars : conVars eTab true eSt = [VLiq 0 0; VLiq 0 1; VSol 0 0].
Proof.
  unfold conVars, conLiquids. cbn [eTab nlc npc eSt nLiq seq flat_map conSolids nSol na Nat.ltb Nat.leb Nat.eqb Nat.add app].
  unfold onlyPresent, present. cbn [eSt liqC solC].
  repeat match goal with |- context[Req_EM_T ?a ?b] => destruct (Req_EM_T a b); [try (exfalso; lra)|try (exfalso; lra)] end. reflexivity.
Qed.
Lemma e_rows : nRowsOx eTab eSt = 2%nat.
Proof.
  unfold nRowsOx. cbn [eTab nc seq filter eSt bulk]. unfold isZero.
  repeat match goal with |- context[Req_EM_T ?a ?b] => destruct (Req_EM_T a b); [try (exfalso; lra)|try (exfalso; lra)] end. reflexivity.
Qed.
Lemma e_inL : hasLiquid eSt = true -> forall nl, (nl < nLiq eSt)%nat -> liqDomain 1 (liqC eSt nl).
Proof. intros _ nl _. cbn [eSt liqC]. split; [intros; lra|lra]. Qed.
Lemma e_inS i n : (n < nSol eSt i)%nat -> na eTab i <> 1%nat -> hDS i (fun j => solC eSt (i + 1 + j)%nat n) /\ solC eSt i n = sum (na eTab i) (fun j => solC eSt (i + 1 + j)%nat n).
Proof. intros _ N. cbn in N. lia. Qed.
Lemma e_bal : balanced eTab eSt.
Proof.
  intros o Ho. cbn [eTab nc] in Ho. unfold amount, inSolids, inLiquids, inLiquid, solidAmount, oxide. cbn [eTab eSt nc npc nlc isPhase na nSol nLiq solC liqC bulk sum perSol perLiq solToOx liqToOx Nat.eqb].
  destruct o as [|[|o]]; cbn; lra || lia.
Qed.
Lemma e_cols : nCols eTab false true eSt = 3%nat.
Proof. unfold nCols. rewrite e_rows. reflexivity. Qed.
Lemma e_nrows : nRows eTab false eSt = 2%nat.
Proof. unfold nRows. rewrite e_rows. reflexivity. Qed.
Lemma e_matrix iF2 iF3 extra r j : (r < 2)%nat -> constraintMatrix eTab false iF2 iF3 (conVars eTab true eSt) eSt eZero (fun _ => 0) extra r j =
  match r, j with O, O => 1 | O, 2%nat => 1 | 1%nat, 1%nat => 1 | _, _ => 0 end.
Proof.
  intros Hr. unfold constraintMatrix, fillOxides. rewrite e_vars. cbn [eTab nc loop]. unfold fillOxide. cbn [eSt bulk fo2On]. unfold isZero.
  destruct (Req_EM_T 7 0); [exfalso; lra|]. destruct (Req_EM_T 2 0); [exfalso; lra|]. cbn [fk fC].
  destruct (Nat.ltb_spec r 2) as [_|?]; [|lia]. unfold upd, oxideRow. destruct r as [|[|r]]; [| |lia]; cbn [Nat.eqb fC]; destruct j as [|[|[|j]]]; cbn; try reflexivity; destruct j; reflexivity.
Qed.
Lemma e_reg iF2 iF3 extra : regular eTab false iF2 iF3 eSt eZero (fun _ => 0) extra.
Proof.
  unfold regular. change (hasLiquid eSt) with true. rewrite e_cols, e_nrows. split; [lia|].
  intros u Hu i Hi. pose proof (Hu O ltac:(lia)) as H0. pose proof (Hu 1%nat ltac:(lia)) as H1. cbn [LaSpec.sum] in H0, H1. rewrite !e_matrix in H0, H1 by lia. destruct i as [|[|i]]; [lra|lra|lia].
Qed.
Lemma e_liq : rOf 1 (fun _ => 2) 0 = / 2 /\ drOf 1 (fun _ => 2) 0 0 = - / 8 /\ d2rOf 1 (fun _ => 2) 0 0 0 = / 16 /\ xr 1 (rOf 1 (fun _ => 2)) 0 = / 2 /\ xr 1 (rOf 1 (fun _ => 2)) 1 = / 2.
Proof.
  assert (T : total 1 (fun _ => 2) = 4) by (unfold total; cbn [sum]; lra).
  assert (Z : isZ 4 = false) by (unfold isZ; destruct (Req_EM_T 4 0); [lra|reflexivity]).
  assert (R0 : rOf 1 (fun _ => 2) 0 = / 2) by (unfold rOf; rewrite T, Z; field).
  repeat split; auto.
  - unfold drOf; rewrite T, Z; cbn [Nat.eqb]; field.
  - unfold d2rOf; rewrite T, Z; cbn [Nat.eqb]; field.
  - unfold xr; cbn [sum]; rewrite R0; lra.
Qed.
Lemma e_places : places Id (act eTab Plain 1500 1000 eX hStd (fun _ => eX) hStd eSt) (ids eTab eSt) = [(IL 0, 0%nat); (IL 0, 1%nat); (IP 0, 0%nat)].
Proof.
  unfold places, ids, idsL, idsS, idsP. cbn [eSt hasLiquid nLiq seq map eTab npc flat_map nSol na Nat.ltb Nat.leb Nat.eqb app].
  unfold act, active, upto, isActive. cbn [Bk liqBlock mixBlock bN bM eTab nlc seq filter]. unfold zeroR. cbn [eSt liqC]. destruct (Req_EM_T 2 0); [exfalso; lra|]. reflexivity.
Qed.
Lemma e_E : mE eM 0 0 = Rg * 1500 / 2 /\ mE eM 0 2 = 0 /\ mE eM 2 0 = 0 /\ mE eM 2 2 = 0.
Proof.
  set (P := places Id (act eTab Plain 1500 1000 eX hStd (fun _ => eX) hStd eSt) (ids eTab eSt)). pose proof e_places as EP. fold P in EP.
  assert (En : forall r c a b, nth_error P r = Some a -> nth_error P c = Some b -> mE eM r c = pairE Id id_dec (Bk eTab Plain 1500 1000 eX hStd (fun _ => eX) hStd eSt) a b).
  { intros r c a b Ha Hb. change eM with (gradHess eTab Plain 1500 1000 eX hStd (fun _ => eX) hStd (hasLiquid eSt) 4 eSt).
    destruct (gradHess_filled eTab Plain 1500 1000 eX hStd (fun _ => eX) hStd 4 eSt) as (_ & F2 & _); [fold P; rewrite EP; cbn; lia|]. rewrite F2.
    apply (totE_place Id id_dec (tIndex Plain 4) _ _ (ids eTab eSt) (ids_NoDup eTab eSt) 0 r c a b); try lia; try reflexivity; now rewrite Nat.sub_0_r. }
  rewrite EP in En. rewrite (En 0%nat 0%nat _ _ eq_refl eq_refl), (En 0%nat 2%nat _ _ eq_refl eq_refl), (En 2%nat 0%nat _ _ eq_refl eq_refl), (En 2%nat 2%nat _ _ eq_refl eq_refl).
  unfold pairE. cbn [fst snd]. destruct (id_dec (IL 0) (IL 0)) as [_|]; [|congruence]. destruct (id_dec (IL 0) (IP 0)); [discriminate|]. destruct (id_dec (IP 0) (IL 0)); [discriminate|]. destruct (id_dec (IP 0) (IP 0)) as [_|]; [|congruence].
  split; [|split; [reflexivity|split; reflexivity]].
  cbn [Bk]. unfold liqBlock, mixBlock. cbn [bD2p]. unfold extHess, eX, liqMixing. cbn [xNr xR xDr xD2r xGx xGxx sum eTab nlc eSt liqC].
  destruct e_liq as (R0 & D & D2 & X0 & X1).
  assert (Zh : isZ (/ 2) = false) by (unfold isZ; destruct (Req_EM_T (/ 2) 0); [lra|reflexivity]).
  rewrite D, D2. unfold d2gmix. rewrite R0, X0, X1, Zh. unfold curve, W. cbn [Nat.eqb andb]. field.
Qed.
Theorem C92_witness extra :
  let convex' := convex eTab 1500 1000 eX hStd (fun _ => eX) hStd eSt in
  let next' := next eTab 1500 1000 eX hStd (fun _ => eX) hStd eSt 0 1 eZero (fun _ => 0) extra 1 0 (fun _ => 0) (fun _ => 0) (fun _ => 0) (fun _ => 0) (fun _ => 0) (fun _ => O) eZero eZero 0 [] in
  let G := gibbs eTab eX hStd (fun _ => eX) hStd true 1500 1000 in
  layout eTab /\ counts eTab eSt /\ balanced eTab eSt /\ length (conVars eTab true eSt) = nCols eTab false true eSt /\ (nRows eTab false eSt < nCols eTab false true eSt)%nat /\
  regular eTab false 0 1 eSt eZero (fun _ => 0) extra /\ convex' /\
  (exists eps, 0 < eps /\ forall lam, 0 < lam < eps -> G (next' lam) < G eSt).
Proof.
  cbv zeta.
  assert (OKL : solutionOK eX (nlc eTab) (liqDomain 1)) by (apply (liq_solution 1); auto; apply h_sym).
  assert (OKS : forall i, (i < npc eTab)%nat -> isPhase eTab i = true -> na eTab i <> 1%nat -> solutionOK eX (na eTab i) (hDS i)) by (intros i _ _ N; cbn in N; lia).
  assert (DirL : directional eX (nlc eTab) (liqDomain 1) 1500 1000) by (apply (liq_directional 1); try apply h_sym; auto; lra).
  assert (DirS : forall i, (i < npc eTab)%nat -> isPhase eTab i = true -> na eTab i <> 1%nat -> directional eX (na eTab i) (hDS i) 1500 1000) by (intros i _ _ N; cbn in N; lia).
  assert (Len : length (conVars eTab true eSt) = nCols eTab false true eSt) by (rewrite e_vars, e_cols; reflexivity).
  assert (Dry : dry eTab eSt) by (intros N; discriminate N).
  assert (Fits : fits eTab eSt).
  { intros _ nl Hnl. rewrite e_rows. unfold nPresent. cbn [eTab nlc]. cbn [seq filter eSt liqC]. destruct (negb (isZero 2)); cbn; lia. }
  assert (Cv : convex eTab 1500 1000 eX hStd (fun _ => eX) hStd eSt).
  { intros z [Z1 Z2] (r & Hr & Nz). change (hasLiquid eSt) with true in *. rewrite e_vars in *. rewrite e_cols in *. fold eM.
    pose proof (Z2 0%nat ltac:(cbn; lia) ltac:(cbn; lra)) as K0. pose proof (Z2 1%nat ltac:(cbn; lia) ltac:(cbn; lra)) as K1.
    cbn in K0, K1. unfold atCol in *. change (hasLiquid eSt) with true in *. rewrite e_vars in *. destruct e_E as (E0 & E1 & E2 & E3).
    cbn [length sum nth_error]. rewrite E0, E1, E2, E3.
    assert (L1 : z (VLiq 0 1) = 0) by lra. assert (S0 : z (VSol 0 0) = - z (VLiq 0 0)) by lra. rewrite L1, S0 in *.
    assert (Nz0 : z (VLiq 0 0) <> 0). { destruct r as [|[|[|r]]]; cbn [nth_error] in Nz; try lra. cbn [length] in Hr. lia. }
    assert (P : 0 < z (VLiq 0 0) * z (VLiq 0 0)) by nra. assert (Hg : 0 < Rg * 1500 / 2) by (unfold Rg; lra). nra. }
  pose proof (e_reg 0 1 extra) as Reg.
  assert (LT : (nRows eTab false eSt < nCols eTab false true eSt)%nat) by (rewrite e_cols, e_nrows; lia).
  split; [exact e_lay|split; [exact e_cnt|split; [exact e_bal|split; [exact Len|split; [exact LT|split; [exact Reg|split; [exact Cv|]]]]]]].
  assert (Rk : (nRows eTab false eSt < nCols eTab false (hasLiquid eSt) eSt)%nat -> snd (quadStep (nRows eTab false eSt) (nCols eTab false (hasLiquid eSt) eSt) (constraintMatrix eTab false 0 1 (conVars eTab (hasLiquid eSt) eSt) eSt eZero (fun _ => 0) extra)
     (constraintRhs eTab false 0 1 (conVars eTab (hasLiquid eSt) eSt) eSt eZero (fun _ => 0)) (mE (gradHess eTab Plain 1500 1000 eX hStd (fun _ => eX) hStd (hasLiquid eSt) (nCols eTab false (hasLiquid eSt) eSt) eSt))
     (fun r _ => mB (gradHess eTab Plain 1500 1000 eX hStd (fun _ => eX) hStd (hasLiquid eSt) (nCols eTab false (hasLiquid eSt) eSt) eSt) r) 1 0 (fun _ => 0) (fun _ => 0) (fun _ => 0) (fun _ => 0) (fun _ => 0) (fun _ => O)) = (nCols eTab false (hasLiquid eSt) eSt - nRows eTab false eSt)%nat).
  { apply (C92_rank eTab 1500 1000 eX hStd (fun _ => eX) hStd e_lay eSt e_cnt eq_refl Len 0 1 eZero (fun _ => 0) extra 1 0 _ _ _ _ _ _ eZero eZero ltac:(lra) Reg Cv eq_refl). }
  apply (C92_downhill eTab 1500 1000 eX hStd (fun _ => eX) hStd (liqDomain 1) hDS e_lay ltac:(lra) OKL OKS DirL DirS (fun j _ => simple_ok _ _ _) (fun i _ => simple_ok _ _ _) eSt e_cnt e_inL e_inS eq_refl Dry e_bal Fits Len
    0 1 eZero (fun _ => 0) extra 1 0 (fun _ => 0) (fun _ => 0) (fun _ => 0) (fun _ => 0) (fun _ => 0) (fun _ => O) eZero eZero 0 [] ltac:(lra) ltac:(lra) Reg Rk Cv).
  set (st := stepped eTab 1500 1000 eX hStd (fun _ => eX) hStd eSt 0 1 eZero (fun _ => 0) extra 1 0 (fun _ => 0) (fun _ => 0) (fun _ => 0) (fun _ => 0) (fun _ => 0) (fun _ => O) eZero eZero 0 []).
  destruct (FullRank.classic_nz (length (conVars eTab (hasLiquid eSt) eSt)) st) as [Ex|No]; [exact Ex|exfalso].
  pose proof (C92_equilibrium eTab 1500 1000 eX hStd (fun _ => eX) hStd (liqDomain 1) hDS e_lay ltac:(lra) OKL OKS DirL DirS (fun j _ => simple_ok _ _ _) (fun i _ => simple_ok _ _ _) eSt e_cnt e_inL e_inS eq_refl Len
    0 1 eZero (fun _ => 0) extra 1 0 (fun _ => 0) (fun _ => 0) (fun _ => 0) (fun _ => 0) (fun _ => 0) (fun _ => O) eZero eZero 0 [] ltac:(lra) ltac:(lra) Reg Rk No) as Eq.
  set (z := fun v => match v with VLiq O O => 1 | VSol O O => -1 | _ => 0 end).
  assert (Rz : redistribution eTab eSt z).
  { split; change (hasLiquid eSt) with true; rewrite e_vars.
    - intros v Hv. unfold z. destruct v as [[|nl] [|j]|[|i] [|n]]; auto; exfalso; apply Hv; cbn; auto.
    - intros o Ho _. cbn [eTab nc] in Ho. destruct o as [|[|o]]; [| |lia]; cbn; lra. }
  specialize (Eq z Rz).
  pose proof (line_slope eTab 1500 1000 eX hStd (fun _ => eX) hStd (liqDomain 1) hDS e_lay DirL DirS eSt e_cnt e_inL e_inS z (proj1 Rz) 3 ltac:(lra) OKL OKS (fun j _ => simple_ok _ _ _) (fun i _ => simple_ok _ _ _)) as Sl.
  apply is_derive_unique in Eq, Sl. rewrite Eq in Sl. clear Eq. pose proof (grad_place eTab 1500 1000 eX hStd (fun _ => eX) hStd (liqDomain 1) hDS e_lay eSt e_cnt e_inL e_inS 3 ltac:(lra) OKL OKS (fun j _ => simple_ok _ _ _) (fun i _ => simple_ok _ _ _)) as Gp.
  rewrite e_places in Gp. unfold atCol in Sl. change (hasLiquid eSt) with true in Sl. rewrite e_vars in Sl. cbn [length sum nth_error z] in Sl.
  rewrite (Gp 0%nat _ _ eq_refl), (Gp 1%nat _ _ eq_refl), (Gp 2%nat _ _ eq_refl) in Sl. clear Gp. cbn [Bk] in Sl. unfold liqBlock, mixBlock, pureBlock in Sl. cbn [bDp] in Sl. unfold extGrad in Sl. unfold eX, liqMixing in Sl. cbn [xNr xR xDr xG xGx sum eTab nlc eSt liqC] in Sl.
  destruct e_liq as (R0 & D & _ & X0 & X1). rewrite D in Sl. unfold dgmix, gmix in Sl. cbn [sum Nat.ltb Nat.leb Nat.eqb] in Sl. rewrite ?R0, ?X0, ?X1 in Sl.
  assert (Zh : isZ (/ 2) = false) by (unfold isZ; destruct (Req_EM_T (/ 2) 0); [lra|reflexivity]). rewrite ?Zh in Sl. unfold slope, W in Sl. cbn [sum Nat.eqb] in Sl.
  replace (1 - / 2) with (/ 2) in Sl by lra. assert (Ln2 : ln (/ 2) < 0) by (rewrite <- ln_1; apply ln_increasing; lra). set (l := ln (/ 2)) in *. set (gs := stG (hStd 0) 1500 1000) in *. set (g1 := stG (hStd 1) 1500 1000) in *. unfold Rg in Sl. ring_simplify in Sl. lra.
Qed.
