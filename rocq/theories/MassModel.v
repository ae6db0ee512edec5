(** Model of the mass-transfer bookkeeping of the equilibrium driver.

    Sources: sources/silmin.c (cases ADD_PHASE 675-830, DROP_PHASE 1424-1560,
    UPDATE_SYSTEM 1719-1960), sources/check_coexisting_liquids.c 290-320,
    sources/check_coexisting_solids.c 322-374, sources/silmin_support.c
    addOrDropLiquid 2022-2120, src/melts_interface.cpp
    AssimilateSetComposition 721-785.

    Simplifications (all of them):
    - doubles are real numbers;
    - arrays are total functions from indices; allocation is not modelled, and
      freed or never written cells are simply not counted by any theorem;
    - the innermost loops over liquid components or oxides, in which every
      iteration writes a different cell and reads no cell written by another
      iteration, are written as one simultaneous update ([addLiq], [addBulk]);
      all other loops are kept as loops, in the program's order;
    - the enthalpy, entropy and volume targets, the log output, the iteration
      counters (iterQuad, bestrNorm, cylSolids, curStep) are left out: no
      statement about matter reads them;
    - routines that only answer a question (testLiq, the phase [test] and
      spinodeTest) and the two numerical solvers used here (the SVD solve and
      the redox speciation conLiq(FIRST|SEVENTH)) are parameters, so that
      theorems hold whatever they answer, unless a hypothesis says otherwise. *)
From Coq Require Import Reals List Lia Lra Bool Arith.
Import ListNotations.
Open Scope R_scope.

(** includes/silmin.h: MASSIN, MASSOUT (moles). *)
Definition MASSIN : R := 1 / 100000.
Definition MASSOUT : R := 1 / 10000000.
(** float.h DBL_EPSILON = 2^-52, used in silmin.c 725 and 769. *)
Definition DBL_EPSILON : R := / 2 ^ 52.

(** The read-only tables filled by InitComputeDataStruct
    (sources/melts_support.c 260-): solids[i].type == PHASE, solids[i].na,
    solids[i].solToLiq[j], solids[i].solToOx[o], liquid[j].liqToOx[o],
    bulkSystem[o].oxToLiq[j], solids[i].mw, bulkSystem[o].mw,
    oxygen.solToOx[i], oxygen.liqToOx[j], bulkSystem[o].type == FE2O3. *)
Record Tab : Type := mkTab {
  nlc : nat; npc : nat; nc : nat;
  isPhase : nat -> bool;
  na : nat -> nat;
  solToLiq : nat -> nat -> R;
  solToOx : nat -> nat -> R;
  liqToOx : nat -> nat -> R;
  oxToLiq : nat -> nat -> R;
  smw : nat -> R;
  omw : nat -> R;
  o2Sol : nat -> R;
  o2Liq : nat -> R;
  isFe2O3 : nat -> bool
}.

(** The part of SilminState (includes/silmin.h) that holds matter, plus the
    driver's static flag hasLiquid (sources/silmin.c). *)
Record St : Type := mkSt {
  hasLiquid : bool;
  nLiq : nat;                   (* nLiquidCoexist *)
  liqC : nat -> nat -> R;       (* liquidComp[nl][j] *)
  nSol : nat -> nat;            (* nSolidCoexist[i] *)
  solC : nat -> nat -> R;       (* solidComp[i][ns] *)
  bulk : nat -> R;              (* bulkComp[o] *)
  fracS : nat -> nat -> R;      (* fracSComp[i][ns] *)
  fracL : nat -> R;             (* fracLComp[j] *)
  fracMass : R;
  oxy : R;                      (* oxygen *)
  fo2On : bool                  (* fo2Path != FO2_NONE *)
}.

(** ** Assignments *)
Definition upd {A} (f : nat -> A) (i : nat) (v : A) : nat -> A :=
  fun i' => if Nat.eqb i' i then v else f i'.
Definition upd2 (f : nat -> nat -> R) (i k : nat) (v : R) : nat -> nat -> R :=
  fun i' k' => if Nat.eqb i' i && Nat.eqb k' k then v else f i' k'.

Definition setHas (b : bool) (s : St) : St :=
  mkSt b (nLiq s) (liqC s) (nSol s) (solC s) (bulk s) (fracS s) (fracL s) (fracMass s) (oxy s) (fo2On s).
Definition setNLiq (n : nat) (s : St) : St :=
  mkSt (hasLiquid s) n (liqC s) (nSol s) (solC s) (bulk s) (fracS s) (fracL s) (fracMass s) (oxy s) (fo2On s).
Definition setLiqC (f : nat -> nat -> R) (s : St) : St :=
  mkSt (hasLiquid s) (nLiq s) f (nSol s) (solC s) (bulk s) (fracS s) (fracL s) (fracMass s) (oxy s) (fo2On s).
Definition setNSol (f : nat -> nat) (s : St) : St :=
  mkSt (hasLiquid s) (nLiq s) (liqC s) f (solC s) (bulk s) (fracS s) (fracL s) (fracMass s) (oxy s) (fo2On s).
Definition setSolC (f : nat -> nat -> R) (s : St) : St :=
  mkSt (hasLiquid s) (nLiq s) (liqC s) (nSol s) f (bulk s) (fracS s) (fracL s) (fracMass s) (oxy s) (fo2On s).
Definition setBulk (f : nat -> R) (s : St) : St :=
  mkSt (hasLiquid s) (nLiq s) (liqC s) (nSol s) (solC s) f (fracS s) (fracL s) (fracMass s) (oxy s) (fo2On s).
Definition setFracS (f : nat -> nat -> R) (s : St) : St :=
  mkSt (hasLiquid s) (nLiq s) (liqC s) (nSol s) (solC s) (bulk s) f (fracL s) (fracMass s) (oxy s) (fo2On s).
Definition setFracL (f : nat -> R) (s : St) : St :=
  mkSt (hasLiquid s) (nLiq s) (liqC s) (nSol s) (solC s) (bulk s) (fracS s) f (fracMass s) (oxy s) (fo2On s).
Definition setFracMass (x : R) (s : St) : St :=
  mkSt (hasLiquid s) (nLiq s) (liqC s) (nSol s) (solC s) (bulk s) (fracS s) (fracL s) x (oxy s) (fo2On s).
Definition setOxy (x : R) (s : St) : St :=
  mkSt (hasLiquid s) (nLiq s) (liqC s) (nSol s) (solC s) (bulk s) (fracS s) (fracL s) (fracMass s) x (fo2On s).

(** solidComp[i][ns] = v *)
Definition setSol (i ns : nat) (v : R) (s : St) : St := setSolC (upd2 (solC s) i ns v) s.
(** liquidComp[nl][j] = v *)
Definition setLiq (nl j : nat) (v : R) (s : St) : St := setLiqC (upd2 (liqC s) nl j v) s.

(** for (i=0; i<n; i++) s = f(i, s) *)
Fixpoint loop {S : Type} (n : nat) (f : nat -> S -> S) (s : S) : S :=
  match n with O => s | Datatypes.S m => f m (loop m f s) end.

Fixpoint sum (n : nat) (f : nat -> R) : R :=
  match n with O => 0 | S m => sum m f + f m end.

Section Ops.
Variable tab : Tab.

(** for (j=0; j<nlc; j++) liquidComp[nl][j] += a(j) *)
Definition addLiq (nl : nat) (a : nat -> R) (s : St) : St :=
  setLiqC (fun nl' j => if Nat.eqb nl' nl && Nat.ltb j (nlc tab) then liqC s nl' j + a j else liqC s nl' j) s.
(** for (j=0; j<nlc; j++) liquidComp[nl][j] = a(j) *)
Definition putLiq (nl : nat) (a : nat -> R) (s : St) : St :=
  setLiqC (fun nl' j => if Nat.eqb nl' nl && Nat.ltb j (nlc tab) then a j else liqC s nl' j) s.
(** for (o=0; o<nc; o++) bulkComp[o] += a(o) *)
Definition addBulk (a : nat -> R) (s : St) : St :=
  setBulk (fun o => if Nat.ltb o (nc tab) then bulk s o + a o else bulk s o) s.

(** ** The solver for systems without liquid: silmin_support.c 2022-2120 *)

(** The sizes of the corrections, weights[k]*deltaSol[k], for every solid
    component row; the SVD solve that computes them is a parameter. *)
Definition Corr := St -> (nat -> R) -> nat -> R.

Section Solver.
Variable corr : Corr.
(** solids[i].test(SIXTH, ..., mSol): answers TRUE when the composition is
    feasible. Line 2087 passes the composition before the correction. *)
Variable phaseTest : nat -> (nat -> R) -> bool.

(** 2078-2101, one phase: subtract the corrections in column 0. *)
Definition correctPhase (d : nat -> R) (i : nat) (s : St) : St :=
  if Nat.eqb (nSol s i) 0 then s
  else if Nat.eqb (na tab i) 1 then setSol i 0 (solC s i 0 - d i) s
  else loop (na tab i)
         (fun j s => setSol (i+1+j) 0 (solC s (i+1+j)%nat 0 - d (i+1+j)%nat)
                      (setSol i 0 (solC s i 0 - d (i+1+j)%nat) s)) s.

(** 2082-2099: the verdict on one phase, [before] and [after] its correction. *)
Definition phaseOk (before after : St) (i : nat) : bool :=
  if Nat.eqb (nSol before i) 0 then true
  else if Rle_dec (solC after i 0) 0 then false
  else if Nat.eqb (na tab i) 1 then true
  else phaseTest i (fun j => solC before (i+1+j)%nat 0).

Fixpoint allb (n : nat) (p : nat -> bool) : bool :=
  match n with O => true | S m => allb m p && p m end.

(** 2033-2036, 2106-2120: nothing to correct is a failure; a failed correction
    is undone (in real arithmetic this restores the previous state). *)
Definition addOrDropLiquid (delta : nat -> R) (s : St) : St * bool :=
  if allb (npc tab) (fun i => Nat.eqb (nSol s i) 0) then (s, false)
  else
    let s' := loop (npc tab) (correctPhase (corr s delta)) s in
    if allb (npc tab) (phaseOk s s') then (s', true) else (s, false).

(** ** Adding a solid: silmin.c 690-778 *)

(** 694-734: halve the trial amount until the first liquid can supply it.
    [None] is the error exit SILMIN_ADD_LIQUID_1. 64 rounds are more than the
    loop can make ([inmass_rounds] in MassProofs.v). *)
Fixpoint trial (fuel : nat) (ok : R -> bool) (inmass : R) : option R :=
  match fuel with
  | O => None
  | S f => if ok inmass then Some inmass
           else if Rlt_dec (inmass * (1/2)) (10 * DBL_EPSILON) then None
           else trial f ok (inmass * (1/2))
  end.

(** 698-707: what is left of the first liquid after supplying [inmass]. *)
Definition leftOver (index : nat) (mSol : nat -> R) (s : St) (inmass : R) : nat -> R :=
  fun j =>
    if Nat.eqb (na tab index) 1 then liqC s 0 j - solToLiq tab index j * inmass
    else liqC s 0 j - sum (na tab index) (fun i => solToLiq tab (index+1+i) j * mSol i * inmass).

(** 737-762, 778 with liquid. *)
Definition placeSolid (index : nat) (mSol : nat -> R) (inmass : R) (s : St) : St :=
  let s := setSol index 0 inmass s in
  let s :=
    if Nat.eqb (na tab index) 1
    then addLiq 0 (fun j => - (solToLiq tab index j * solC s index 0)) s
    else loop (na tab index)
           (fun i s =>
              let s := setSol (index+1+i) 0 (mSol i * solC s index 0) s in
              addLiq 0 (fun j => - (solToLiq tab (index+1+i) j * solC s (index+1+i)%nat 0)) s) s in
  setNSol (upd (nSol s) index 1%nat) s.

(** The whole branch for a system with liquid; testLiq is a parameter. *)
Definition addSolidWithLiquid (testLiq : (nat -> R) -> bool) (index : nat) (mSol : nat -> R) (s : St) : option St :=
  match trial 64 (fun m => testLiq (leftOver index mSol s m)) MASSIN with
  | None => None
  | Some inmass => Some (placeSolid index mSol inmass s)
  end.

(** 737-777 without liquid. For a one-component phase the answer of
    addOrDropLiquid is not looked at (line 745); a rejected attempt is
    repeated with half the amount, starting from the state it left. *)
Fixpoint addSolidNoLiquid (fuel : nat) (spinodeTest : St -> bool) (index : nat) (mSol : nat -> R)
    (inmass : R) (s : St) : option St :=
  match fuel with
  | O => None
  | S f =>
    let s := setSol index 0 inmass s in
    let '(s, acceptable) :=
      if Nat.eqb (na tab index) 1
      then (fst (addOrDropLiquid (fun o => solToOx tab index o * solC s index 0) s), true)
      else
        let s := loop (na tab index) (fun i s => setSol (index+1+i) 0 (mSol i * solC s index 0) s) s in
        addOrDropLiquid (fun o => sum (na tab index)
            (fun i => solToOx tab (index+1+i) o * solC s (index+1+i)%nat 0)) s in
    if acceptable && spinodeTest s then Some (setNSol (upd (nSol s) index 1%nat) s)
    else if Rlt_dec (inmass / 2) (10 * DBL_EPSILON) then None
    else addSolidNoLiquid f spinodeTest index mSol (inmass / 2) s
  end.

(** 780-818: adding liquid to a solid assemblage. *)
Fixpoint addLiquid (fuel : nat) (mLiq : nat -> R) (inmass : R) (s : St) : option St :=
  match fuel with
  | O => None
  | S f =>
    let s := putLiq 0 (fun j => mLiq j * inmass) (setHas true s) in
    let '(s, acceptable) :=
      addOrDropLiquid (fun o => sum (nlc tab) (fun j => liqToOx tab j o * liqC s 0 j)) s in
    if acceptable then Some (setNLiq 1 s)
    else if Rlt_dec (inmass / 2) (10 * DBL_EPSILON) then None
    else addLiquid f mLiq (inmass / 2) s
  end.

(** ** Second instances of a phase *)

(** check_coexisting_liquids.c 290-312: a new liquid of composition m. *)
Definition addSecondLiquid (m : nat -> R) (s : St) : St :=
  let nl := nLiq s in
  let s := setNLiq (S nl) s in
  let s := putLiq nl (fun j => m j * MASSIN) s in
  addLiq 0 (fun j => - liqC s nl j) s.

(** check_coexisting_solids.c 349-368. [inmass] is the amount found by the
    halving loop 350-360, which has no lower limit; any amount is allowed. *)
Definition addSecondSolid (index : nat) (m : nat -> R) (inmass : R) (s : St) : St :=
  let ns := nSol s index in
  let s := setNSol (upd (nSol s) index (S ns)) s in
  let s := setSol index ns inmass s in
  let s := if hasLiquid s then s else setSol index (ns-1) (solC s index (ns-1)%nat - inmass) s in
  loop (na tab index)
    (fun i s =>
       let s := setSol (index+1+i) ns (m i * inmass) s in
       if hasLiquid s
       then addLiq 0 (fun j => - (solToLiq tab (index+1+i) j * solC s (index+1+i)%nat ns)) s
       else setSol (index+1+i) (ns-1) (solC s (index+1+i)%nat (ns-1)%nat - m i * inmass) s) s.

(** ** The redox correction of a liquid: silmin.c 821-831 and 1468-1477.
    [redox] is conLiq(FIRST|SEVENTH, FIRST, ...) at the current T, P, fO2. *)
Definition liqOxides (s : St) (nl o : nat) : R := sum (nlc tab) (fun j => liqC s nl j * liqToOx tab j o).
Definition redoxLiquid (redox : (nat -> R) -> nat -> R) (nl : nat) (s : St) : St :=
  let moles := liqOxides s nl in
  let moles' := redox moles in
  let s := addBulk (fun o => - moles o + moles' o) s in
  putLiq nl (fun j => sum (nc tab) (fun o => moles' o * oxToLiq tab o j)) s.
(** 819-831: after adding a phase, every liquid. *)
Definition redoxAll (redox : (nat -> R) -> nat -> R) (s : St) : St :=
  if fo2On s && hasLiquid s then loop (nLiq s) (redoxLiquid redox) s else s.

(** ** Dropping phases: silmin.c 1434-1560 *)

(** 1440-1464, body for column ns of phase i, with the count of dropped
    columns. Lines 1468-1490 (fO2 path) for a system with liquid. *)
Definition dropColumn (redox : (nat -> R) -> nat -> R) (i ns : nat) (sd : St * nat) : St * nat :=
  let '(s, nDrop) := sd in
  if negb (Nat.ltb ns (nSol s i)) then (s, nDrop)
  else if Rlt_dec (solC s i ns) MASSOUT then
    let '(s, nDrop) :=
      if Nat.eqb (na tab i) 1 then
        let s1 :=
          if hasLiquid s
          then setNSol (upd (nSol s) i (nSol s i - 1)%nat) (addLiq 0 (fun j => solToLiq tab i j * solC s i ns) s)
          else fst (addOrDropLiquid (fun o => - (solToOx tab i o * solC s i ns))
                      (setNSol (upd (nSol s) i (nSol s i - 1)%nat) s)) in
        (setSol i ns 0 s1, nDrop)
      else
        let s1 := setSol i ns 0 s in
        let '(s2, delta) :=
          loop (na tab i)
            (fun j sd => let '(s, delta) := sd in
               let x := solC s (i+1+j)%nat ns in
               let delta' := if hasLiquid s then delta else fun o => delta o - solToOx tab (i+1+j) o * x in
               let s' := if hasLiquid s then addLiq 0 (fun k => solToLiq tab (i+1+j) k * x) s else s in
               (setSol (i+1+j) ns 0 s', delta'))
            (s1, fun _ => 0) in
        let s3 := if hasLiquid s2 then s2
                  else let s' := setNSol (upd (nSol s2) i (nSol s2 i - 1)%nat) s2 in
                       let s'' := fst (addOrDropLiquid delta s') in
                       setNSol (upd (nSol s'') i (nSol s'' i + 1)%nat) s'' in
        (s3, S nDrop) in
    (if fo2On s && hasLiquid s then redoxLiquid redox 0 s else s, nDrop)
  else (s, nDrop).

(** 1497-1506: close the gaps left by dropped columns. *)
Definition compactColumn (i ns : nat) (sk : St * nat) : St * nat :=
  let '(s, k) := sk in
  if Req_EM_T (solC s i ns) 0 then (s, k)
  else
    let s1 := setSol i k (solC s i ns) s in
    let s2 := if Nat.ltb 1 (na tab i)
              then loop (na tab i) (fun j s => setSol (i+1+j) k (solC s (i+1+j)%nat ns) s) s1
              else s1 in
    (s2, S k).

(** 1435-1508: one phase. *)
Definition dropSolid (redox : (nat -> R) -> nat -> R) (i : nat) (s : St) : St :=
  let '(s1, nDrop) := loop (nSol s i) (dropColumn redox i) (s, O) in
  if Nat.ltb 0 nDrop then
    let s2 := fst (loop (nSol s1 i) (compactColumn i) (s1, O)) in
    setNSol (upd (nSol s2) i (nSol s2 i - nDrop)%nat) s2
  else s1.

Definition dropSolids (redox : (nat -> R) -> nat -> R) (s : St) : St := loop (npc tab) (dropSolid redox) s.

(** 1514-1545: liquids, in order; [nl] runs while it is below the current
    number of liquids, which drops as liquids are removed. The test of
    multipleLiqs is left to the caller. *)
Definition liqMass (s : St) (nl : nat) : R :=
  sum (nlc tab) (fun j => sum (nc tab) (fun o => liqC s nl j * liqToOx tab j o * omw tab o)).
Definition dropLiquid (nl : nat) (s : St) : St :=
  if negb (Nat.ltb nl (nLiq s)) then s
  else if Rlt_dec (liqMass s nl) MASSOUT then
    let s1 := if Nat.ltb 0 nl
              then setLiqC (fun n j => if Nat.ltb j (nlc tab)
                                       then if Nat.eqb n 0 then liqC s 0 j + liqC s nl j
                                            else if Nat.eqb n nl then 0 else liqC s n j
                                       else liqC s n j) s
              else s in
    (* for (i=nl+1; i<nLiquidCoexist; i++) liquidComp[i-1] += liquidComp[i] *)
    let s2 := loop (nLiq s1 - (nl+1)) (fun d s => addLiq (nl+d) (liqC s (nl+1+d)%nat) s) s1 in
    setNLiq (nLiq s2 - 1) s2
  else s.
(** The caller's condition (1511): hasLiquid && multipleLiqs && nLiquidCoexist > 1. *)
Definition dropLiquids (redox : (nat -> R) -> nat -> R) (s : St) : St :=
  if hasLiquid s && Nat.ltb 1 (nLiq s) then
    let s' := loop (nLiq s) dropLiquid s in
    if Nat.ltb (nLiq s') (nLiq s) && fo2On s then redoxLiquid redox 0 s' else s'
  else s.

(** 1546-1575: the last liquid disappears; the solver's answer is ignored. *)
Definition dropLastLiquid (s : St) : St :=
  let delta := fun o => - sum (nlc tab) (fun j => liqToOx tab j o * liqC s 0 j) in
  let s := putLiq 0 (fun _ => 0) (setHas false s) in
  fst (addOrDropLiquid delta s).

End Solver.

(** ** Fractionation: silmin.c 1727-1935 *)

(** The label rules 1751-1754: which phases take part. [isFluid i] is
    label == "water" (MELTS and pMELTS) or label == "fluid" (other modes). *)
Definition takesPart (isFluid : nat -> bool) (frSol frFlu : bool) (i : nat) : bool :=
  if frSol && negb frFlu && isFluid i then false
  else if negb frSol && frFlu && negb (isFluid i) then false
  else true.

(** 1757-1774 and 1776-1791: one column of one phase. *)
Definition fracColumn (i ns : nat) (s : St) : St :=
  if negb (Nat.ltb ns (nSol s i)) then s
  else if Rlt_dec (solC s i ns) MASSIN then s
  else if Nat.eqb (na tab i) 1 then
    let x := solC s i ns - MASSIN in
    let s := setFracS (upd2 (fracS s) i ns (fracS s i ns + x)) s in
    let s := if fo2On s then setOxy (oxy s - o2Sol tab i * x) s else s in
    let s := setFracMass (fracMass s + x * smw tab i) s in
    let s := addBulk (fun o => - (solToOx tab i o * x)) s in
    setSol i ns MASSIN s
  else
    let s := setFracS (upd2 (fracS s) i ns (fracS s i ns + (solC s i ns - MASSIN))) s in
    let s := loop (na tab i)
      (fun j s =>
         let c := (i+1+j)%nat in
         let moleF := solC s c ns / solC s i ns in
         let m := solC s c ns - MASSIN * moleF in
         let s := setFracS (upd2 (fracS s) c ns (fracS s c ns + m)) s in
         let s := if fo2On s then setOxy (oxy s - o2Sol tab c * m) s else s in
         let s := setFracMass (fracMass s + m * smw tab c) s in
         let s := addBulk (fun o => - (solToOx tab c o * m)) s in
         setSol c ns (MASSIN * moleF) s) s in
    setSol i ns MASSIN s.

(** 1750-1811 *)
Definition fracSolids (part : nat -> bool) (s : St) : St :=
  loop (npc tab) (fun i s => if part i then loop (nSol s i) (fracColumn i) s else s) s.

(** 1817-1858 (and again 1923-1960): forget traces. [clearOxide o] is the body
    for an oxide whose bulk amount is not zero and below MASSOUT. *)
Definition clearColumn (o j ns : nat) (s : St) : St :=
  if negb (Nat.ltb ns (nSol s j)) then s
  else if Nat.eqb (na tab j) 1 then
    if Req_EM_T (solToOx tab j o) 0 then s else setSol j ns 0 s
  else loop (na tab j)
         (fun k s => if Req_EM_T (solToOx tab (j+1+k) o) 0 then s
                     else setSol (j+1+k) ns 0 (setSol j ns (solC s j ns - solC s (j+1+k)%nat ns) s)) s.
Definition clearOxide (o : nat) (s : St) : St :=
  if Req_EM_T (bulk s o) 0 then s
  else if Rlt_dec (bulk s o) MASSOUT then
    if isFe2O3 tab o then s
    else
      let s := setBulk (upd (bulk s) o 0) s in
      let s := setLiqC (fun nl j => if Nat.ltb nl (nLiq s) && Nat.ltb j (nlc tab)
                                    then if Req_EM_T (liqToOx tab j o) 0 then liqC s nl j else 0
                                    else liqC s nl j) s in
      loop (npc tab) (fun j s => loop (nSol s j) (clearColumn o j) s) s
  else s.
Definition clearTraces (s : St) : St := loop (nc tab) clearOxide s.

(** 1873-1892: one component of one liquid; [ref] is the sum 1872. *)
Definition fracLiqComponent (ref : R) (nl j : nat) (s : St) : St :=
  if Req_EM_T (liqC s nl j) 0 then s
  else if Req_EM_T ref 0 then s
  else
    let mw := sum (nc tab) (fun o => liqToOx tab j o * omw tab o) in
    let moleF := liqC s nl j / ref in
    let m := liqC s nl j - MASSIN * moleF in
    let s := setFracL (upd (fracL s) j (fracL s j + m)) s in
    let s := if fo2On s then setOxy (oxy s - o2Liq tab j * m) s else s in
    let s := setFracMass (fracMass s + m * mw) s in
    let s := addBulk (fun o => - (liqToOx tab j o * m)) s in
    setLiq nl j (MASSIN * moleF) s.
Definition fracLiquid (nl : nat) (s : St) : St :=
  let ref := sum (nlc tab) (liqC s nl) in
  if Rlt_dec ref MASSIN then s else loop (nlc tab) (fracLiqComponent ref nl) s.
Definition fracLiquids (s : St) : St := loop (nLiq s) fracLiquid s.

(** ** Assimilation: melts_interface.cpp 722-771 (fraction = 1) and
    silmin.c 2050-2150 (fraction = 1/dspAssimInc). *)
Record Assim : Type := mkAssim {
  nAss : nat -> nat;            (* nAssimComp[i] *)
  nAssLiq : nat;                (* nAssimComp[npc+1] *)
  assC : nat -> nat -> R;       (* assimComp[i][ns] *)
  assL : nat -> nat -> R        (* assimComp[npc+j][ns], indexed j, ns *)
}.

Definition assimComponent (f : R) (c : nat) (x : R) (s : St) : St :=
  let s := addBulk (fun o => f * x * solToOx tab c o) s in
  if hasLiquid s then addLiq 0 (fun j => f * x * solToLiq tab c j) s else s.

Definition assimColumn (a : Assim) (f : R) (i ns : nat) (s : St) : St :=
  if isPhase tab i then
    if Nat.eqb (na tab i) 1 then
      let x := assC a i ns in
      let s := assimComponent f i x s in
      let s := if hasLiquid s then s
               else let s := if Nat.eqb (nSol s i) 0 then setNSol (upd (nSol s) i 1%nat) s else s in
                    setSol i 0 (solC s i 0 + f * x) s in
      if fo2On s then setOxy (oxy s + o2Sol tab i * f * x) s else s
    else if Nat.ltb 1 (na tab i) then
      loop (na tab i)
        (fun j s =>
           let c := (i+1+j)%nat in
           let x := assC a c ns in
           let s := assimComponent f c x s in
           let s := if hasLiquid s then s
                    else let s := if Nat.eqb (nSol s i) 0 then setNSol (upd (nSol s) i 1%nat) s else s in
                         setSol c 0 (solC s c 0 + f * x) s in
           if fo2On s then setOxy (oxy s + o2Sol tab c * f * x) s else s) s
    else s
  else s.

Definition assimLiquid (a : Assim) (f : R) (ns : nat) (s : St) : St :=
  let s := setHas true s in
  loop (nlc tab)
    (fun j s =>
       let s := setLiq 0 j (liqC s 0 j + f * assL a j ns) s in
       let s := addBulk (fun o => f * assL a j ns * liqToOx tab j o) s in
       if fo2On s then setOxy (oxy s + o2Liq tab j * f * assL a j ns) s else s) s.

Definition assimilate (a : Assim) (f : R) (s : St) : St :=
  let s := loop (npc tab) (fun i s => loop (nAss a i) (assimColumn a f i) s) s in
  loop (nAssLiq a) (assimLiquid a f) s.

End Ops.
