(** Model of the filling of the gradient and the Hessian of one minimisation step.

    Source: sources/gradient_hessian.c intenToExtenGradient 206-215, intenToExtenHessian 217-234,
    getProjGradientAndHessian 236-500 (liquids) and 789-830, 918-1190 (solids), without the oxygen constraint (fo2Path ==
    FO2_NONE). What is done with the result afterwards (Lagrange multipliers, projection) is in QuadModel.v.

    Simplifications: doubles are real numbers; eMatrix and bMatrix are total functions, set to zero first (284-287); the
    functions gmixLiq, smixLiq, ... and the pointers solids[i].gmix, ... are the fields of a record, the values
    liquid[i].cur and solids[i].cur at the current temperature and pressure those of another; the row counter k of the
    liquids, which starts each liquid equal to colRow, is written colRow + m as it is for the solids; the auxiliary
    matrices eMatrixT and eMatrixP, which only serve the multiplier terms, are left out. *)
From Coq Require Import Reals List Bool Arith.
From Verif Require Import MassModel.
Import ListNotations.
Open Scope R_scope.

(** ** 206-234 *)
Definition extGrad (nr : nat) (pMix : R) (dpMix : nat -> R) (mTotal : R) (drdm : nat -> nat -> R) (j : nat) : R :=
  mTotal * sum nr (fun i => dpMix i * drdm i j) + pMix.
Definition extHess (nr : nat) (dpMix : nat -> R) (d2pMix : nat -> nat -> R) (mTotal : R) (drdm : nat -> nat -> R)
    (d2rdm2 : nat -> nat -> nat -> R) (j l : nat) : R :=
  sum nr (fun i => dpMix i * (drdm i j + drdm i l + mTotal * d2rdm2 i j l)
                   + mTotal * drdm i j * sum nr (fun k => d2pMix i k * drdm k l)).

(** The functions of a solution: conversion from moles, and per mole of solution the Gibbs energy, entropy, heat capacity
    and volume of mixing with their derivatives, at a temperature and a pressure. *)
Record Mixing : Type := mkMixing {
  xNr : nat;
  xR : (nat -> R) -> nat -> R; xDr : (nat -> R) -> nat -> nat -> R; xD2r : (nat -> R) -> nat -> nat -> nat -> R;
  xG : R -> R -> (nat -> R) -> R; xGx : R -> R -> (nat -> R) -> nat -> R; xGxx : R -> R -> (nat -> R) -> nat -> nat -> R;
  xS : R -> R -> (nat -> R) -> R; xSx : R -> R -> (nat -> R) -> nat -> R; xSxx : R -> R -> (nat -> R) -> nat -> nat -> R;
  xC : R -> R -> (nat -> R) -> R; xCt : R -> R -> (nat -> R) -> R; xCx : R -> R -> (nat -> R) -> nat -> R;
  xV : R -> R -> (nat -> R) -> R; xVx : R -> R -> (nat -> R) -> nat -> R; xVxx : R -> R -> (nat -> R) -> nat -> nat -> R;
  xVp : R -> R -> (nat -> R) -> R; xVpp : R -> R -> (nat -> R) -> R; xVxp : R -> R -> (nat -> R) -> nat -> R }.
(** The fields of ThermoData (includes/silmin.h) that are read, as functions of temperature and pressure *)
Record Std : Type := mkStd { stG : R -> R -> R; stH : R -> R -> R; stS : R -> R -> R; stC : R -> R -> R; stCt : R -> R -> R;
  stV : R -> R -> R; stVp : R -> R -> R; stVpp : R -> R -> R }.

(** isothermal and isobaric, isenthalpic, isentropic, isochoric (258-260) *)
Inductive Mode : Type := Plain | Isenthalpic | Isentropic | Isochoric.
Definition imposedMode (md : Mode) : bool := match md with Plain => false | _ => true end.

(** What one phase contributes: gradient and Hessian by its own amounts; by amount and T (or P); by T (or P) once and twice. *)
Record Block : Type := mkBlock { bN : nat; bM : nat -> R; bDp : nat -> R; bD2p : nat -> nat -> R; bX : nat -> R; bT : R; bTT : R }.

Section Block.
Variable md : Mode.
Variables t p : R.

(** 349-434 for a liquid, 955-1050 for a solid solution. mTotal is an argument: 411 adds up the moles, 1015 reads solidComp[i][n]. *)
Definition mixBlock (n : nat) (X : Mixing) (std : nat -> Std) (m : nat -> R) (mTotal : R) : Block :=
  let r := xR X m in
  let nr := xNr X in
  let ext := fun f fx => extGrad nr f fx mTotal (xDr X m) in
  let hess := fun fx fxx => extHess nr fx fxx mTotal (xDr X m) (xD2r X m) in
  let over := fun q : Std -> R -> R -> R => sum n (fun i => m i * q (std i) t p) in
  match md with
  | Plain =>
      mkBlock n m (fun j => ext (xG X t p r) (xGx X t p r) j + stG (std j) t p) (hess (xGx X t p r) (xGxx X t p r)) (fun _ => 0) 0 0
  | Isenthalpic =>
      let con := fun j => ext (xC X t p r) (xCx X t p r) j + stC (std j) t p in
      let pCon := mTotal * xC X t p r + over stC in
      let d2pCon := mTotal * xCt X t p r + over stCt in
      mkBlock n m (fun j => ext (- xS X t p r) (fun i => - xSx X t p r i) j - stS (std j) t p)
        (hess (fun i => - xSx X t p r i) (fun i k => - xSxx X t p r i k)) (fun j => - con j / t) (- pCon / t) (pCon / (t * t) - d2pCon / t)
  | Isentropic =>
      let con := fun j => ext (xC X t p r) (xCx X t p r) j + stC (std j) t p in
      let pCon := mTotal * xC X t p r + over stC in
      let d2pCon := mTotal * xCt X t p r + over stCt in
      mkBlock n m (fun j => ext (xG X t p r + t * xS X t p r) (fun i => xGx X t p r i + t * xSx X t p r i) j + stH (std j) t p)
        (hess (fun i => xGx X t p r i + t * xSx X t p r i) (fun i k => xGxx X t p r i k + t * xSxx X t p r i k)) con pCon d2pCon
  | Isochoric =>
      let con := fun j => ext (xVp X t p r) (xVxp X t p r) j + stVp (std j) t p in
      let pCon := mTotal * xVp X t p r + over stVp in
      let d2pCon := mTotal * xVpp X t p r + over stVpp in
      mkBlock n m (fun j => ext (xG X t p r - p * xV X t p r) (fun i => xGx X t p r i - p * xVx X t p r i) j + (stG (std j) t p - p * stV (std j) t p))
        (hess (fun i => xGx X t p r i - p * xVx X t p r i) (fun i k => xGxx X t p r i k - p * xVxx X t p r i k))
        (fun j => - p * con j) (- p * pCon) (- pCon - p * d2pCon)
  end.
(** 793-826: a solid of one component *)
Definition pureBlock (q : Std) (m : nat -> R) : Block :=
  let n := m O in
  match md with
  | Plain => mkBlock 1 m (fun _ => stG q t p) (fun _ _ => 0) (fun _ => 0) 0 0
  | Isenthalpic => mkBlock 1 m (fun _ => - stS q t p) (fun _ _ => 0) (fun _ => - stC q t p / t) (- (n * stC q t p / t))
                     (n * (- stCt q t p / t + stC q t p / (t * t)))
  | Isentropic => mkBlock 1 m (fun _ => stH q t p) (fun _ _ => 0) (fun _ => stC q t p) (n * stC q t p) (n * stCt q t p)
  | Isochoric => mkBlock 1 m (fun _ => stG q t p - p * stV q t p) (fun _ _ => 0) (fun _ => - p * stVp q t p) (- (n * p * stVp q t p))
                   (- n * (stVp q t p + p * stVpp q t p))
  end.
End Block.

(** eMatrix, bMatrix, colRow *)
Record Mats : Type := mkMats { mE : nat -> nat -> R; mB : nat -> R; colRow : nat }.
Definition addE (r c : nat) (x : R) (M : Mats) : Mats := mkMats (upd2 (mE M) r c (mE M r c + x)) (mB M) (colRow M).
Definition addB (r : nat) (x : R) (M : Mats) : Mats := mkMats (mE M) (upd (mB M) r (mB M r + x)) (colRow M).
Definition zeroR (x : R) : bool := if Req_EM_T x 0 then true else false.

Section Fill.
(** hasNlCon (293); indexT or indexP (294-303) *)
Variable nonLinear : bool.
Variable idx : option nat.
(** the Hessian row of component j: 455-463, 1153-1162 *)
Definition fillRow (B : Block) (j m : nat) (M : Mats) : Mats :=
  fst (loop (bN B) (fun k Ml =>
    let '(M, l) := Ml in
    if zeroR (bM B k) then (M, l)
    else let M := addE (colRow M + m) (colRow M + l) (bD2p B j k) M in
         (addB (colRow M + m) (if nonLinear then 0 else bM B k * bD2p B j k) M, S l)) (M, O)).
(** 452-482, 1064-1183 *)
Definition fillRows (B : Block) (M : Mats) : Mats * nat :=
  loop (bN B) (fun j Mm =>
    let '(M, m) := Mm in
    if zeroR (bM B j) then (M, m)
    else let M := addB (colRow M + m) (- bDp B j) M in
         let M := fillRow B j m M in
         let M := match idx with Some i => addE i (colRow M + m) (bX B j) (addE (colRow M + m) i (bX B j) M) | None => M end in
         (M, S m)) (M, O).
(** 483-497, 1184-1200 *)
Definition fillMix (B : Block) (M : Mats) : Mats :=
  let '(M, m) := fillRows B M in
  let M := mkMats (mE M) (mB M) (colRow M + m) in
  match idx with Some i => addE i i (bTT B) (addB i (- bT B) M) | None => M end.
(** 796-826, 918: the one component gets a column whatever its amount *)
Definition fillPure (B : Block) (M : Mats) : Mats :=
  let M := addB (colRow M) (- bDp B O) M in
  let M := match idx with
           | Some i => addE i i (bTT B) (addE i (colRow M) (bX B O) (addE (colRow M) i (bX B O) (addB i (- bT B) M)))
           | None => M end in
  mkMats (mE M) (mB M) (S (colRow M)).
End Fill.

(** ** getProjGradientAndHessian up to line 1200, fo2Path == FO2_NONE. [hasL] is liquidMass != 0. *)
Section Hess.
Variable tab : Tab.
Variable md : Mode.
Variables t p : R.
Variable liqX : Mixing.
Variable liqStd : nat -> Std.
Variable solX : nat -> Mixing.
Variable solStd : nat -> Std.
Variable hasL : bool.
Variable conCols : nat.
Definition tIndex : option nat := if imposedMode md then Some (conCols - 1)%nat else None.
(** 341-497 *)
Definition liqBlock (s : St) (nl : nat) : Block := mixBlock md t p (nlc tab) liqX liqStd (liqC s nl) (sum (nlc tab) (liqC s nl)).
(** 921-1200 *)
Definition solBlock (s : St) (i n : nat) : Block :=
  mixBlock md t p (na tab i) (solX i) (fun j => solStd (i + 1 + j)%nat) (fun j => solC s (i + 1 + j)%nat n) (solC s i n).
Definition gradHess (s : St) : Mats :=
  let nl := imposedMode md in
  let M := mkMats (fun _ _ => 0) (fun _ => 0) O in
  let M := if hasL then loop (nLiq s) (fun l => fillMix nl tIndex (liqBlock s l)) M else M in
  loop (npc tab) (fun i M =>
    if Nat.ltb 0 (nSol s i) then
      if Nat.eqb (na tab i) 1 then fillPure tIndex (pureBlock md t p (solStd i) (fun _ => solC s i O)) M
      else loop (nSol s i) (fun n => fillMix nl tIndex (solBlock s i n)) M
    else M) M.
End Hess.
