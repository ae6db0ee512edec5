(** Runs of the test for a second solid, on a solution of two end-members that unmixes and on one that does not: cases of
    C150 and C152-C155, and two refutations. *)
From Coq Require Import Reals List Bool Arith Lia Lra FunctionalExtensionality.
From Verif Require Import MassModel MassSpec MassProofs MassOps MassDrop MassProps LiqModel LiqProofs LiqProps LaSpec LaBase HhModel QuadModel NashModel NashSpec VmminProofs NashProofs NashProps CoexModel CoexSpec CoexFrame CoexProofs CoexProps CoexMore CoexGrad CoexCase CoexSolModel CoexSolProps CoexSolMore CoexSolDet.
Import List ListNotations.
Open Scope R_scope.

(** a solution of two end-members with the mixing functions of the liquid; w its interaction parameter *)
Definition two (w : R) : Solid := {| sNa := 2; sNr := 1; sR := rOf 1; sX := xr 1; sDx := fun _ => dxdr; sTest := feasibleR 1;
  sG := fun t p => gmix 1 (fun _ _ => w) W0 W0 t p; sGx := fun t p => dgmix 1 (fun _ _ => w) W0 W0 t p |}.
Notation Xc := (two Wc).

Lemma ne0S w : neS (two w) mc = 0%nat.
Proof. unfold neS, nullsS. cbn [two sNa seq filter]. unfold mc. rewrite isZ_no by lra. reflexivity. Qed.
Lemma presentS_c w : presentS (two w) mc = [0%nat; 1%nat].
Proof. unfold presentS. cbn [two sNa seq filter]. unfold mc. rewrite isZ_no by lra. reflexivity. Qed.
Definition sgn (i : nat) : R := match i with O => -1 | _ => 1 end.
Definition st0 (i : nat) : R := match i with O => 1 / 21 | _ => 20 / 21 end.
Lemma startS_c h0 i : (i < 2)%nat -> startFreeS Xc h0 mc i 0 = st0 i.
Proof.
  intros Hi. unfold startFreeS. rewrite ne0S. cbn [Nat.eqb]. cbn [two sR]. unfold rOf, total, startOfS. rewrite ne0S. cbn [two sNa MassModel.sum Nat.sub]. rewrite (isZ_no (mc 0)), (isZ_no (mc 1)) by (unfold mc; lra). cbn [INR].
  destruct i as [|[|i]]; [| |lia]; cbn [Nat.eqb st0]; rewrite isZ_no by lra; lra.
Qed.
Lemma liftS_c h0 y b : liftS Xc h0 mc y b = fun i => b (i - 0)%nat.
Proof. unfold liftS. rewrite ne0S. reflexivity. Qed.
Lemma grad_st i : (i < 2)%nat -> dgmixc (fun _ => st0 i) 0 = sgn i * delta.
Proof.
  intros Hi. destruct i as [|[|i]]; [|cbn [st0 sgn]; rewrite grad_start; ring|lia]. cbn [st0 sgn].
  rewrite dg_eq by lra. replace (1 - 1 / 21) with (20 / 21) by lra. rewrite !ln_ratio, ln_1 by lra. unfold Wc. field.
Qed.
Lemma gap_st i : (i < 2)%nat -> gap 1 WHc W0 W0 1 1 (fun _ => 1 / 2) (fun _ => st0 i) = gap 1 WHc W0 W0 1 1 (fun _ => 1 / 2) (fun _ => 20 / 21).
Proof.
  intros Hi. destruct i as [|[|i]]; [|reflexivity|lia]. cbn [st0]. unfold gap. cbn [MassModel.sum]. rewrite grad_ref, !g_eq by lra.
  replace (1 - 20 / 21) with (1 / 21) by lra. replace (1 - 1 / 21) with (20 / 21) by lra. ring.
Qed.
Lemma trialS_c h0 j : (j < 2)%nat -> exists x, trialS Xc 1 1 h0 mc j (Some x) /\ x 0%nat = st0 j - sgn j * delta.
Proof.
  intros Hj. set (y := fixedS Xc h0 mc j). set (F := fminfnS Xc 1 1 h0 mc y). set (G := fmingrS Xc 1 1 h0 mc y). set (b0 := fun k => startFreeS Xc h0 mc j (k + neS Xc mc)%nat).
  assert (B0 : b0 0%nat = st0 j) by (unfold b0; rewrite ne0S; now apply startS_c).
  assert (Bs : 0 < st0 j < 1) by (destruct j; cbn [st0]; lra).
  assert (Te : feasibleR 1 (fun i => b0 (i - 0)%nat) = true).
  { apply feasibleR_spec. split.
    - intros i Hi. replace i with 0%nat by lia. cbn [Nat.sub]. rewrite B0. lra.
    - cbn [MassModel.sum Nat.sub]. rewrite B0. lra. }
  assert (Gp : gapS Xc 1 1 (sR Xc mc) (fun i => b0 (i - 0)%nat) = gap 1 WHc W0 W0 1 1 (fun _ => 1 / 2) (fun _ => 20 / 21)).
  { change (gapS Xc 1 1 (sR Xc mc) (fun i => b0 (i - 0)%nat)) with (gap 1 WHc W0 W0 1 1 (rOf 1 mc) (fun i => b0 (i - 0)%nat)). rewrite <- (gap_st j Hj), ref_c. unfold gap. rewrite (only0 (fun i => b0 (i - 0)%nat)). cbn [MassModel.sum Nat.sub]. rewrite B0. reflexivity. }
  set (v := gap 1 WHc W0 W0 1 1 (fun _ => 1 / 2) (fun _ => 20 / 21)) in *.
  assert (Fv : F b0 = Some v) by (unfold F, fminfnS; cbv zeta; rewrite liftS_c; change (sTest Xc) with (feasibleR 1); rewrite Te, Gp; reflexivity).
  assert (Gv : G b0 0%nat = sgn j * delta).
  { unfold G, fmingrS. cbv zeta. rewrite liftS_c, ne0S. cbn [Nat.eqb Nat.add]. change (sGx Xc 1 1) with dgmixc. change (sR Xc mc) with (rOf 1 mc). rewrite ref_c, (only0d (fun i => b0 (i - 0)%nat)). cbn [Nat.sub]. rewrite B0, (grad_st j Hj), grad_ref. ring. }
  assert (Nz : nzS Xc mc = 1%nat) by (unfold nzS; rewrite presentS_c; reflexivity).
  set (d := direction 1 ident (G b0)). assert (Dv : d 0%nat = - (sgn j * delta)) by (unfold d; rewrite VmminProofs.direction_eq; cbn [LaSpec.sum]; unfold ident; cbn [Nat.eqb]; rewrite Gv; ring).
  set (Bn := upto 1 (fun i => b0 i + 1 * d i) b0). pose proof delta_pos as Dp. assert (Sg : sgn j * sgn j = 1 /\ Rabs (sgn j) = 1) by (split; destruct j; cbn [sgn]; [lra|lra|rewrite Rabs_left; lra|apply Rabs_R1]). destruct Sg as (Sg & Sa).
  assert (Cn : still 1 b0 Bn reltest = 1%nat).
  { unfold still, forUp. cbn [Nat.sub LaBase.repeat Nat.add]. unfold Bn, upto. cbn [Nat.ltb Nat.leb]. rewrite Dv.
    destruct (Rlt_dec _ _) as [|N]; [reflexivity|]. elim N. replace (b0 0%nat - (b0 0%nat + 1 * - (sgn j * delta))) with (sgn j * delta) by ring. rewrite Rabs_mult, Sa, Rabs_pos_eq by lra. unfold delta. pose proof reltest_pos. lra. }
  exists (liftS Xc h0 mc y Bn). split; [exists 0, {| codev := SUCCESS; oB := Bn; oF := v |}; split|].
  - rewrite Nz. unfold vmmin. fold y. fold F. fold G. fold b0. rewrite Fv. eapply runs_next.
    + unfold vmminInit. cbn [vmminStep]. cbv zeta. cbn [iters ilast gradcount gv Bv Fmin Bm]. cbn [Nat.eqb]. fold d.
      replace (10000 <? Z.of_nat 1)%Z with false by reflexivity.
      destruct (Rlt_dec _ 0) as [L|N]; [reflexivity|]. elim N. unfold forUp. cbn [Nat.sub LaBase.repeat Nat.add]. rewrite Dv, Gv. assert (0 < delta * delta) by nra.
      replace (0 + - (sgn j * delta) * (sgn j * delta)) with (- (sgn j * sgn j * (delta * delta))) by ring. rewrite Sg. lra.
    + apply runs_done. cbn [vmminStep]. cbv zeta. cbn [Bv Fmin Bm cv gv tv Xv gradproj steplength gradcount ilast iters]. fold Bn. rewrite Cn. cbn [Nat.ltb Nat.leb Nat.eqb]. reflexivity.
  - cbn [codev oF oB]. change (sR Xc mc) with (rOf 1 mc). rewrite ref_c. destruct (Rlt_dec v _) as [|N]; [reflexivity|]. elim N. exact gap_start.
  - rewrite liftS_c. cbn [Nat.sub]. unfold Bn, upto. cbn [Nat.ltb Nat.leb]. rewrite Dv, B0. ring.
Qed.
Lemma scan_c h0 ms : exists x, scanS Xc 1 1 h0 (mc :: ms) (Some x) /\ 0 < x 0%nat < 1.
Proof.
  destruct (trialS_c h0 1 ltac:(lia)) as (x & T & Ex). destruct (trialS_c h0 0 ltac:(lia)) as (z & T0 & Ez).
  assert (S : searchesS Xc 1 1 h0 mc [z; x]) by (exists [Some z; Some x]; rewrite presentS_c; split; [repeat constructor; assumption|reflexivity]).
  eexists. split; [apply scanS_found; exact S|]. pose proof reltest_small. pose proof reltest_pos. cbn [st0 sgn] in Ex, Ez. unfold delta in Ex, Ez.
  destruct (farthest_inS Xc (sR Xc mc) [x] z) as [<-|[<-|[]]]; lra.
Qed.

(** one solution phase of two end-members, made of the two components of the liquid *)
Definition tabc : Tab := {| nlc := 2; npc := 3; nc := 2; isPhase := fun i => Nat.eqb i 0; na := fun i => if Nat.eqb i 0 then 2%nat else 1%nat;
  solToLiq := fun c j => if Nat.eqb c (j + 1) then 1 else 0; solToOx := fun c o => if Nat.eqb c (o + 1) then 1 else 0;
  liqToOx := fun j o => if Nat.eqb j o then 1 else 0; oxToLiq := fun o j => if Nat.eqb j o then 1 else 0; smw := fun _ => 1; omw := fun _ => 1; o2Sol := fun _ => 0; o2Liq := fun _ => 0; isFe2O3 := fun _ => false |}.
Definition stc (liq : bool) (l : nat -> R) (insts : nat) (sol : nat -> nat -> R) : St := {| hasLiquid := liq; nLiq := 1; liqC := fun _ => l; nSol := fun i => if Nat.eqb i 0 then insts else 0%nat; solC := sol;
  bulk := fun _ => 0; fracS := fun _ _ => 0; fracL := fun _ => 0; fracMass := 0; oxy := 0; fo2On := false |}.
Definition kindc (_ : nat) : Kind := OtherSolid.
(** two moles of the solution, one of each end-member, in the first instance, and c moles of each end-member in a second one *)
Definition solc (c : R) (row ns : nat) : R := match row with O => match ns with O => 2 | _ => 2 * c end | _ => match ns with O => 1 | _ => c end end.
Lemma tabc_layout : layout tabc.
Proof.
  intros i Hi P. cbn [tabc isPhase] in P. apply Nat.eqb_eq in P. subst i. cbn [tabc na npc isPhase Nat.eqb]. split; [lia|]. intros _. split; [lia|]. intros j Hj. apply Nat.eqb_neq. lia.
Qed.
Lemma tabc_phase i : (i < npc tabc)%nat -> (1 < na tabc i)%nat -> isPhase tabc i = true.
Proof. intros _. cbn [tabc na isPhase]. destruct (Nat.eqb i 0); [reflexivity|lia]. Qed.
Lemma inst_first c k l liq : instances 0 (stc liq l (S k) (solc c)) = mc :: map (fun ns e => solc c (0 + 1 + e) ns) (seq 1 k).
Proof. unfold instances. cbn [stc nSol solC Nat.eqb seq map]. f_equal. Qed.
Lemma call_c s s' f h0 : visit tabc (fun _ => Xc) kindc 1 1 h0 0 s s' f -> checkSolids tabc (fun _ => Xc) kindc 1 1 h0 s s' f.
Proof.
  intros V. unfold checkSolids. destruct (Rle_dec 1 0); [lra|]. destruct (Rlt_dec 1 0); [lra|]. cbn [tabc npc seq].
  replace f with (f || (false || (false || false))) by (destruct f; reflexivity).
  eapply visits_next; [exact V|]. eapply visits_next; [unfold visit; cbn [tabc na Nat.eqb Nat.leb]; auto|]. eapply visits_next; [unfold visit; cbn [tabc na Nat.eqb Nat.leb]; auto|]. constructor.
Qed.
Lemma visit_c h0 k c l liq a x : scanS Xc 1 1 h0 (instances 0 (stc liq l (S k) (solc c))) (Some x) -> amountOf tabc 0 (xr 1 x) (stc liq l (S k) (solc c)) a ->
  checkSolids tabc (fun _ => Xc) kindc 1 1 h0 (stc liq l (S k) (solc c)) (addSecondSolid tabc 0 (xr 1 x) a (stc liq l (S k) (solc c))) true.
Proof.
  intros S A. apply call_c. unfold visit. cbn [tabc na Nat.eqb Nat.leb kindc blocked]. exists (Some x). split; [exact S|]. exists a. split; [exact A|]. split; reflexivity.
Qed.
(** a run that adds an instance: one mole of each component in the liquid *)
Theorem C152_case : forall h0, layout tabc /\ (forall i, (i < npc tabc)%nat -> (1 < na tabc i)%nat -> isPhase tabc i = true) /\
  exists s', checkSolids tabc (fun _ => Xc) kindc 1 1 h0 (stc true (fun _ => 1) 1 (solc 0)) s' true /\ nSol s' 0%nat = 2%nat.
Proof.
  intros h0. split; [exact tabc_layout|]. split; [exact tabc_phase|]. destruct (scan_c h0 []) as (x & S & _).
  assert (I : instances 0 (stc true (fun _ => 1) 1 (solc 0)) = [mc]) by apply inst_first. rewrite <- I in S.
  destruct (amountIn_exists tabc 0 (xr 1 x) (stc true (fun _ => 1) 1 (solc 0)) MassModel.MASSIN ltac:(unfold MassModel.MASSIN; lra)) as (a & A).
  { intros j Hj. left. cbn [stc liqC]. lra. }
  eexists. split; [apply (visit_c h0 0 0 (fun _ => 1) true a x S); unfold amountOf; cbn [stc hasLiquid]; exact A|].
  destruct (addSecondSolid_cells tabc 0 (xr 1 x) a (stc true (fun _ => 1) 1 (solc 0)) ltac:(cbn [stc nSol Nat.eqb]; lia)) as (N & _). rewrite N. reflexivity.
Qed.

(** ** C156, refuted: the matter of the new instance comes from the last instance, which need not be the one that was found
    unstable, and the amount of that instance can become negative *)
Theorem C156_refuted : exists tab solid kind t p h0 s s',
  layout tab /\ checkSolids tab solid kind t p h0 s s' true /\ hasLiquid s = false /\
  (forall c ns, 0 <= solC s c ns) /\ (forall c, solC s' c 0%nat = solC s c 0%nat) /\ nSol s 0%nat = 2%nat /\ solC s 0%nat 1%nat = 4 / 10 ^ 6 /\ solC s' 0%nat 1%nat < 0.
Proof.
  set (h0 := fun _ : nat => 0). set (c := 2 / 10 ^ 6). set (s := stc false (fun _ => 0) 2 (solc c)). assert (C : 0 < c) by (unfold c; lra).
  destruct (scan_c h0 [fun e => solc c (0 + 1 + e) 1]) as (x & S & _).
  exists tabc, (fun _ => Xc), kindc, 1, 1, h0, s, (addSecondSolid tabc 0 (xr 1 x) MassModel.MASSIN s).
  destruct (addSecondSolid_cells tabc 0 (xr 1 x) MassModel.MASSIN s ltac:(unfold s; cbn [stc nSol Nat.eqb]; lia)) as (_ & _ & _ & D & _).
  split; [exact tabc_layout|]. split; [apply (visit_c h0 1 c (fun _ => 0) false MassModel.MASSIN x); [exact S|reflexivity]|]. split; [reflexivity|]. split.
  { intros r ns. cbn [s stc solC]. unfold solc. destruct r, ns; lra. }
  split.
  { intros r. rewrite D. unfold cell. cbn [s stc nSol hasLiquid Nat.eqb Nat.sub negb andb]. destruct (Nat.eqb r 0); [reflexivity|]. destruct (_ && _); reflexivity. }
  split; [reflexivity|]. split; [cbn [s stc solC solc]; unfold c; lra|].
  rewrite D. unfold cell. cbn [s stc nSol hasLiquid Nat.eqb Nat.sub negb andb]. cbn [stc solC solc]. change (solC s 0 1) with (2 * c). unfold c, MassModel.MASSIN. lra.
Qed.
(** ** C157, refuted: the halving of the amount need not end. The first liquid has nothing of a component that the new
    instance needs *)
Lemma no_amount x s a b : liqC s 0 0%nat = 0 -> 0 < x 0%nat -> 0 < a -> ~ amountIn tabc 0 x s a b.
Proof.
  intros Z X A H. induction H as [a E|a b E H IH]; [|apply IH; lra].
  unfold liquidOK in E. rewrite forallb_forall in E. specialize (E 0%nat (or_introl eq_refl)). apply leb_true in E. rewrite drawn_eq, Z in E.
  unfold demand in E. cbn [tabc na Nat.eqb MassModel.sum solToLiq Nat.add] in E. nra.
Qed.
Theorem C157_refuted : exists tab solid kind t p s, layout tab /\ hasLiquid s = true /\ (forall j, 0 <= liqC s 0 j) /\ liqC s 0 1%nat = 1 /\ (forall c ns, 0 <= solC s c ns) /\
  forall h0, ~ exists s' found, checkSolids tab solid kind t p h0 s s' found.
Proof.
  set (l := fun j : nat => match j with O => 0 | _ => 1 end).
  exists tabc, (fun _ => Xc), kindc, 1, 1, (stc true l 1 (solc 0)). split; [exact tabc_layout|]. split; [reflexivity|]. split; [intros [|j]; cbn; lra|]. split; [reflexivity|].
  split; [intros [|c] [|ns]; cbn [stc solC solc]; lra|].
  intros h0 (s' & f & C). unfold checkSolids in C. destruct (Rle_dec 1 0); [lra|]. destruct (Rlt_dec 1 0); [lra|]. cbn [tabc npc seq] in C.
  inversion C as [|i0 l0 q0 q1 q2 f0 f1 V _]; subst. unfold visit in V. cbn [tabc na Nat.eqb Nat.leb kindc blocked] in V. destruct V as (o & S & A).
  destruct (scan_c h0 []) as (x & S' & X). assert (I : instances 0 (stc true l 1 (solc 0)) = [mc]) by apply inst_first. rewrite I in S.
  rewrite (scanS_det _ _ _ _ _ _ _ S S') in A. destruct A as (a & A & _). unfold amountOf in A. cbn [stc hasLiquid] in A.
  refine (no_amount _ _ _ _ _ _ _ A); [reflexivity| |unfold MassModel.MASSIN; lra]. cbn [two sX xr MassModel.sum]. lra.
Qed.

(** ** A case of C150: without interaction no composition unmixes *)
From Coquelicot Require Import Coquelicot.
From Verif Require Import RealTac HessLiq CoexSolSpec CoexSolProofs.
Import List ListNotations.
Lemma two_linear w : linearOK (two w) (fun _ k => if Nat.eqb k 1 then 1 else 0) (xr 1).
Proof.
  constructor.
  - intros m i Hi T. cbn [two sNr sNa sR MassModel.sum Nat.eqb] in *. replace i with 0%nat by lia. unfold rOf, total. cbn [MassModel.sum]. rewrite isZ_no by lra. field. lra.
  - intros r. cbn [two sNa MassModel.sum xr]. ring.
  - intros r i Hi. cbn [two sNr sNa MassModel.sum xr Nat.eqb] in *. replace i with 0%nat by lia. ring.
  - intros r r' E. cbn [two sTest sNr] in *.
    assert (Q : forall r r', (forall i, (i < 1)%nat -> r i = r' i) -> feasibleR 1 r = true -> feasibleR 1 r' = true).
    { clear. intros r r' E. rewrite !feasibleR_spec. unfold testR. cbn [MassModel.sum]. rewrite (E 0%nat) by lia. intros (A & B). split; [|exact B]. intros i Hi. rewrite <- (E i Hi). now apply A. }
    apply eq_true_iff_eq. split; apply Q; [exact E|intros i Hi; symmetry; now apply E].
  - intros t p r r' E. cbn [two sG sNr] in *. rewrite !gmix_eq. unfold pairs, ent. cbn [MassModel.sum xr]. rewrite (E 0%nat) by lia. reflexivity.
Qed.

Lemma two_interior w t p r : 0 < r 0%nat < 1 -> interior (two w) t p r.
Proof.
  intros P d. cbn [two sG sGx sNr sTest]. assert (Sy : forall w, symmetric 1 (fun _ _ => w)) by (intros w' i j _ _; reflexivity). split.
  - assert (E0 : (fun i => r i + 0 * d i) = r) by (apply functional_extensionality; intros i; ring).
    pose proof (gmix_path 1 (fun _ _ => w) W0 W0 (Sy w) (Sy 0) (Sy 0) (Nat.le_refl 1) (fun y i => r i + y * d i) 0 d) as G. cbv beta in G. rewrite E0 in G. apply G.
    + intros i Hi. auto_derive; [auto|ring].
    + intros i Hi. replace i with 0%nat by lia. left. lra.
    + cbn [xr MassModel.sum]. lra.
  - assert (Dl : is_derive (fun y => r 0%nat + y * d 0%nat) 0 (d 0%nat)) by (auto_derive; [auto|ring]).
    assert (Du : is_derive (fun y => 1 - (r 0%nat + y * d 0%nat)) 0 (- d 0%nat)) by (auto_derive; [auto|ring]).
    pose proof (CoexGrad.near_pos _ _ 0 Dl ltac:(lra)) as Nl. pose proof (CoexGrad.near_pos _ _ 0 Du ltac:(lra)) as Nu.
    generalize (filter_and _ _ Nl Nu). apply filter_imp. intros y (A & B).
    apply feasibleR_spec. split; [|cbn [MassModel.sum]; lra]. intros i Hi. replace i with 0%nat by lia. lra.
Qed.
Lemma two_stable t p mu0 m : 0 < t -> 0 < m 0%nat -> 0 < m 1%nat -> stableS (two 0) mu0 t p m.
Proof.
  intros T M0 M1. assert (Tot : 0 < MassModel.sum 2 m) by (cbn [MassModel.sum]; lra).
  apply (C151_stable (two 0) _ _ t p mu0 m (two_linear 0) Tot). intros z Hz. cbn [two sTest] in Hz.
  change (gapS (two 0) t p (sR (two 0) m) z) with (gap 1 (fun _ _ => 0) (fun _ _ => 0) (fun _ _ => 0) t p (rOf 1 m) z).
  assert (R0 : 0 < rOf 1 m 0 < 1).
  { unfold rOf, total. cbn [MassModel.sum] in *. rewrite isZ_no by lra. split; [apply Rdiv_lt_0_compat; lra|]. apply (Rmult_lt_reg_r (0 + m 0%nat + m 1%nat)); [lra|]. unfold Rdiv. rewrite Rmult_assoc, Rinv_l by lra. lra. }
  apply ideal_gap; [lia|lra| | |now apply feasibleR_spec].
  - intros i Hi. replace i with 0%nat by lia. lra.
  - cbn [MassModel.sum]. lra.
Qed.
Theorem C150_case : forall t p h0 l a b, 0 < t -> 0 < a -> 0 < b -> let s := stc true l 1 (fun row _ => match row with O => a + b | S O => a | _ => b end) in
  all_stable tabc (fun _ => two 0) t p s /\ exists s' f, checkSolids tabc (fun _ => two 0) kindc t p h0 s s' f.
Proof.
  intros t p h0 l a b T A B s. assert (St : all_stable tabc (fun _ => two 0) t p s).
  { intros i Hi Hn. cbn [tabc npc na] in Hi, Hn. destruct i as [|[|[|i]]]; cbn [Nat.eqb] in Hn; try lia. split; [exists (fun _ k => if Nat.eqb k 1 then 1 else 0), (xr 1); apply two_linear|]. exists (fun _ => 0).
    intros m I. unfold instances in I. cbn [s stc nSol Nat.eqb seq map solC] in I. destruct I as [<-|[]]. split; [intros [|[|e]] He; cbn [two sNa] in He; try lia; cbn; lra|].
    split; [cbn; lra|]. split; [|apply two_stable; cbn; lra].
    apply two_interior. cbn [two sR]. unfold rOf, total. cbn [MassModel.sum Nat.add]. rewrite isZ_no by lra. split; [apply Rdiv_lt_0_compat; lra|]. apply (Rmult_lt_reg_r (0 + a + b)); [lra|]. unfold Rdiv. rewrite Rmult_assoc, Rinv_l by lra. lra. }
  split; [exact St|]. destruct (C155_result_or_lack tabc (fun _ => two 0) kindc t p h0 s) as [R|(_ & l1 & i & s1 & f & x & j & V & Hi & Sc & _)]; [exact R|]. exfalso.
  assert (E : s1 = s).
  { assert (Q : forall L q q' g, visits tabc (fun _ => two 0) kindc t p h0 L q q' g -> q = s -> q' = s); [|exact (Q _ _ _ _ V eq_refl)]. clear - St.
    intros L q q' g V. induction V as [q|i0 l0 q q1 q2 f0 g0 V1 V2 IH]; intros E0; [exact E0|]. apply IH. rewrite E0 in V1.
    destruct (Nat.lt_ge_cases i0 (npc tabc)) as [Hl|Hl].
    - exact (proj1 (visit_stable tabc (fun _ => two 0) kindc t p h0 i0 s q1 f0 Hl St V1)).
    - unfold visit in V1. cbn [tabc npc] in Hl. destruct i0; [lia|]. cbn [tabc na Nat.eqb Nat.leb] in V1. exact (proj1 V1). }
  subst s1. destruct (scan_someS _ _ _ _ _ _ Sc) as (m & k & I & _ & Tr).
  destruct (Nat.eq_dec i 0) as [->|Ni]; [|unfold instances in I; cbn [s stc nSol] in I; destruct (Nat.eqb_spec i 0); [contradiction|destruct I]].
  destruct (St 0%nat ltac:(cbn; lia) ltac:(cbn; lia)) as ((Am & xl & Lin) & mu0 & H). destruct (H m I) as (W & P & Int & Sb).
  destruct (candidate_gap _ _ _ _ _ _ _ W Tr) as (z & Tz & Neg).
  destruct (gap_unstableS (two 0) Am xl Lin t p mu0 m z P Int Tz Neg) as (part & rest & Ap & Ar & E & L).
  specialize (Sb part rest Ap Ar (fun j _ => E j)). lra.
Qed.
