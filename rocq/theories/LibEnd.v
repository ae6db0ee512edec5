(** The end of a library call that keeps enthalpy, entropy or volume: what reference the node is left with.

    Model of sources/library.c 1127-1178 in modes 2-4 (isenthalpic, isentropic, isochoric): after the report (866-1125),
    `if (output == 1) doBatchFractionation();' and then `refEnthalpy = hLiq+totalH; *enthalpy = refEnthalpy;' (refEntropy,
    refVolume alike).  hLiq+totalH is the sum over the phases when they were reported; it enters as [content] of that
    state (ReportProps and QryProps are about the report itself).  With output 0 the flags are off during silmin() and put
    back at 1127-1131; with output 2 silmin() itself has fractionated, before the report.  One reference; real numbers. *)
From Coq Require Import Reals List Lia Lra Bool Arith.
From Verif Require Import MassModel MassSpec MassProofs MassOps MassDrop MassSolve MassFrac MassProps LibFracModel LibFracProps.
Open Scope R_scope.

Section End_.
Variable tab : Tab.
Variables (pureS pureL : nat -> R) (mixS : nat -> (nat -> R) -> R) (mixL : (nat -> R) -> R).
(** library.c 1132-1156; the second component is the node's reference, which is also what the caller is given *)
Definition processEnd (output : nat) (isFluid : nat -> bool) (frSol frFlu frLiq : bool) (p : St * R) : St * R :=
  let reported := content tab pureS pureL mixS mixL (fst p) in
  let q := if Nat.eqb output 1 then fractionate tab pureS pureL mixS mixL false isFluid frSol frFlu frLiq p else p in
  (fst q, reported).
End End_.

(** C219, when it holds: no fractionation in the call's tail *)
Theorem C219_partial : forall tab pureS pureL mixS mixL output isFluid frSol frFlu frLiq p,
  output <> 1%nat \/ hasLiquid (fst p) = false \/ (frSol = false /\ frFlu = false /\ frLiq = false) ->
  let p' := processEnd tab pureS pureL mixS mixL output isFluid frSol frFlu frLiq p in
  snd p' = content tab pureS pureL mixS mixL (fst p') /\ fst p' = fst p.
Proof.
  intros tab pureS pureL mixS mixL output isFluid frSol frFlu frLiq p H. cbv zeta. unfold processEnd. cbv zeta.
  destruct (Nat.eqb_spec output 1) as [E|E]; [|split; reflexivity]. unfold fractionate.
  destruct H as [H|[H|(H1 & H2 & H3)]]; [contradiction| |].
  - rewrite H, !andb_false_r. cbn. split; reflexivity.
  - rewrite H1, H2, H3. cbn. split; reflexivity.
Qed.
(** false of a call that fractionates after the report: whatever the tables and the phases, the reference left is off by
    exactly what was taken out *)
Theorem C219_off : forall tab cols pureS pureL mixS mixL isFluid p, layout tab -> intensive tab mixS mixL -> fit tab cols (fst p) -> hasLiquid (fst p) = true ->
  snd p = content tab pureS pureL mixS mixL (fst p) ->
  let p1 := solidsWith tab pureS mixS false (takesPart isFluid true false) p in noTrace tab (fst p1) -> snd p1 <> 0 ->
  let p' := processEnd tab pureS pureL mixS mixL 1 isFluid true false false p in
  snd p1 = content tab pureS pureL mixS mixL (fst p') /\
  snd p' - content tab pureS pureL mixS mixL (fst p') = snd p - snd p1.
Proof.
  intros tab cols pureS pureL mixS mixL isFluid p Lay Mix F HL E. cbv zeta. intros NT N0. unfold processEnd. cbv zeta. cbn [Nat.eqb].
  unfold fractionate. rewrite HL. cbn [orb andb fst snd]. rewrite (clearTraces_none tab) by exact NT.
  destruct (C217_solids tab cols pureS pureL mixS mixL false (takesPart isFluid true false) p Lay Mix F) as [Z|Z]; [contradiction|].
  split; lra.
Qed.
(** the case of C217: the enthalpy of two moles of solution is left in the reference of a node that holds a trace of it *)
Theorem C219_refuted : exists tab cols pureS pureL mixS mixL isFluid s,
  layout tab /\ intensive tab mixS mixL /\ fit tab cols s /\ ample tab s /\ balanced tab s /\ hasLiquid s = true /\
  let p' := processEnd tab pureS pureL mixS mixL 1 isFluid true false false (s, content tab pureS pureL mixS mixL s) in
  snd p' <> content tab pureS pureL mixS mixL (fst p').
Proof.
  destruct C217_case as (A & B & C & D & D' & B' & K).
  exists duoTab, (nSol duoSt), (fun _ => -1000), (fun _ => -1000), (fun _ => regular), regular, (fun _ => false), duoSt.
  repeat (split; [first [assumption|reflexivity]|]). cbv zeta.
  set (p := (duoSt, content duoTab (fun _ => -1000) (fun _ => -1000) (fun _ => regular) regular duoSt)).
  assert (Part : solidsWith duoTab (fun _ => -1000) (fun _ => regular) false (takesPart (fun _ => false) true false) p = solidsWith duoTab (fun _ => -1000) (fun _ => regular) false (fun _ => true) p) by reflexivity.
  destruct (K (snd p)) as (K1 & K2 & K3). change (duoSt, snd p) with p in K1, K2, K3.
  destruct (C215_solids duoTab (nSol duoSt) (fun _ => -1000) (fun _ => regular) false (fun _ => true) p A C) as ((_ & M & _) & N1 & N2 & N3).
  set (q := solidsWith duoTab (fun _ => -1000) (fun _ => regular) false (fun _ => true) p) in *.
  assert (Bk : fst q = fst q -> noTrace duoTab (fst q)).
  { intros _ o Ho. right. left. cbn in Ho. unfold q, p. destruct o as [|[|]]; [| |lia].
    - cbn. unfold upd2, setSol, setSolC, addBulk, setBulk, setFracMass, setFracS. cbn. unfold upd2. cbn. unfold MASSIN, MASSOUT. lra.
    - cbn. unfold upd2, setSol, setSolC, addBulk, setBulk, setFracMass, setFracS. cbn. unfold upd2. cbn. unfold MASSIN, MASSOUT. lra. }
  specialize (Bk eq_refl).
  unfold processEnd. cbv zeta. cbn [Nat.eqb]. unfold fractionate. change (hasLiquid (fst p)) with true. cbn [orb andb fst snd]. rewrite Part. fold q.
  rewrite (clearTraces_none duoTab) by exact Bk.
  assert (Lq : liqC (fst q) = liqC duoSt) by reflexivity.
  assert (Cq : forall t a, a <> 0 -> nSol t = nSol duoSt -> nLiq t = 1%nat -> liqC t = liqC duoSt -> solC t 1%nat 0%nat = a / 4 -> solC t 2%nat 0%nat = 3 * a / 4 ->
     content duoTab (fun _ => -1000) (fun _ => -1000) (fun _ => regular) regular t = a * 500 + liquidContent duoTab (fun _ => -1000) regular duoSt 0%nat).
  { intros t a Ha T1 T2 T3 T4 T5. unfold content. rewrite T1, T2. cbn -[regular liquidContent]. unfold phaseContent. cbn -[regular liquidContent].
    unfold liquidContent. rewrite T3. cbn -[regular].
    assert (Rg : regular (fun j => solC t (S j) 0%nat) = 1500) by (unfold regular; rewrite T4, T5; field; lra).
    rewrite Rg, T4, T5. field. }
  rewrite (Cq (fst q) MASSIN); [|unfold MASSIN; lra|exact N1|exact N2|exact Lq|exact K2|exact K3].
  unfold p at 1. cbn [fst]. change (fst p) with duoSt. rewrite (Cq duoSt 2); [|lra|reflexivity|reflexivity|reflexivity|cbn; lra|cbn; lra].
  generalize (liquidContent duoTab (fun _ => -1000) regular duoSt 0%nat). intros L. unfold MASSIN. intros Z. lra.
Qed.
