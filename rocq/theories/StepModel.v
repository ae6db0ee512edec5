(** Model of one step of the minimiser: the linear constraints, the reading back of the solution of the quadratic
    problem, and the move along it.

    Sources: sources/equality_constraints.c getEqualityConstraints 165-460 (what the rows and columns are; the
    factorisation is in QuadModel.v), sources/silmin.c case REASSEMBLE_SOLUTION 1021-1125 and case LINEAR_SEARCH
    1265-1310, sources/linear_search.c 218-222, 276-290, 320-332.

    Simplifications: doubles are real numbers; the matrices are total functions and the two numbers of rows and columns
    are computed as in the program; the rows for the oxygen potential and for enthalpy, entropy or volume are arbitrary
    numbers; norms, print-out and the temperature and pressure entries of the solution are left out; the step length is
    arbitrary, and the oxygen correction is evaluated at an arbitrary other step length, since the search (C50) may have
    evaluated it elsewhere last; the correction of a system without liquid (subsolidusmuO2) is not modelled. *)
From Coq Require Import Reals List Lia Bool Arith.
From Verif Require Import MassModel QuadModel.
Import ListNotations.
Open Scope R_scope.

(** A column of the constraint matrix: moles of component j of liquid nl, or of row m of the solids table in instance
    ns of its phase. *)
Inductive Var : Type := VLiq (nl j : nat) | VSol (m ns : nat).

Section Step.
Variable tab : Tab.
(** isenthalpic, isentropic or isochoric with a target set (equality_constraints.c 181-183, silmin.c 1023-1026) *)
Variable imposed : bool.
(** the indices of FeO and Fe2O3 in bulkSystem *)
Variables iF2 iF3 : nat.

Definition coefOx (v : Var) (o : nat) : R :=
  match v with VLiq _ j => liqToOx tab j o | VSol m _ => solToOx tab m o end.
Definition present (s : St) (v : Var) : bool :=
  match v with
  | VLiq nl j => if Req_EM_T (liqC s nl j) 0 then false else true
  | VSol m ns => if Req_EM_T (solC s m ns) 0 then false else true
  end.
Definition onlyPresent (s : St) (v : Var) : list Var := if present s v then [v] else [].

(** ** equality_constraints.c *)

(** 256-272: the liquid columns. [hasL] is the test liquidMass != 0 of line 184. *)
Definition conLiquids (hasL : bool) (s : St) : list Var :=
  if hasL then flat_map (fun nl => flat_map (fun j => onlyPresent s (VLiq nl j)) (seq 0 (nlc tab))) (seq 0 (nLiq s)) else [].
(** 273-288: the solid columns; j skips the components of a solution (287) *)
Fixpoint conSolids (fuel j : nat) (s : St) : list Var :=
  match fuel with
  | O => []
  | S f =>
    if Nat.ltb j (npc tab) then
      if Nat.ltb 0 (nSol s j) then
        if Nat.eqb (na tab j) 1 then VSol j 0 :: conSolids f (j + 1) s
        else flat_map (fun ns => flat_map (fun k => onlyPresent s (VSol (j + 1 + k) ns)) (seq 0 (na tab j))) (seq 0 (nSol s j))
             ++ conSolids f (j + na tab j + 1) s
      else conSolids f (j + 1) s
    else []
  end.
Definition conVars (hasL : bool) (s : St) : list Var := conLiquids hasL s ++ conSolids (npc tab) 0 s.

Definition nonlin (s : St) : bool := imposed || fo2On s.
Definition isZero (x : R) : bool := if Req_EM_T x 0 then true else false.

(** 212: rows for oxides *)
Definition nRowsOx (s : St) : nat := length (filter (fun i => negb (isZero (bulk s i))) (seq 0 (nc tab))).
(** 213-216: columns for the solids *)
Definition nColsSol (s : St) : nat :=
  fold_right Nat.add O (map (fun i =>
    if Nat.ltb 0 (nSol s i) then
      if Nat.eqb (na tab i) 1 then 1%nat
      else length (flat_map (fun k => flat_map (fun ns => onlyPresent s (VSol (i + 1 + k) ns)) (seq 0 (nSol s i))) (seq 0 (na tab i)))
    else O) (seq 0 (npc tab))).
(** 212, 218-222 *)
Definition nRows (s : St) : nat :=
  (nRowsOx s + (if fo2On s && Nat.ltb 1 (nLiq s) then nLiq s - 1 else 0) + (if imposed then 1 else 0))%nat.
Definition nCols (hasL : bool) (s : St) : nat :=
  ((if hasL then nRowsOx s * nLiq s else 0) + nColsSol s + (if imposed then 1 else 0))%nat.

(** 254-289: the coefficients of oxide i, zero in the remaining columns *)
Definition oxideRow (vars : list Var) (i : nat) : nat -> R :=
  fun l => match nth_error vars l with Some v => coefOx v i | None => 0 end.

(** The matrix under construction: k, cMatrix, dVector, kMin. *)
Record Fill : Type := mkFill { fk : nat; fC : nat -> nat -> R; fd : nat -> R; fkMin : option nat }.
(** 248-306, one oxide. Line 303 with kMin = -1 writes outside the matrix; the model then leaves the matrix alone. *)
Definition fillOxide (vars : list Var) (s : St) (i : nat) (f : Fill) : Fill :=
  if isZero (bulk s i) then f
  else
    let k := fk f in
    let C := upd (fC f) k (oxideRow vars i) in
    let d := upd (fd f) k (if nonlin s then 0 else bulk s i) in
    if fo2On s then
      let C := if Nat.eqb i iF3 then upd C k (fun j => C k j * 2) else C in
      if Nat.eqb i (Nat.min iF3 iF2) then mkFill (k + 1) C d (Some k)
      else if Nat.eqb i (Nat.max iF3 iF2) then
        match fkMin f with
        | Some km => mkFill k (upd C km (fun j => C km j + C k j)) d (fkMin f)
        | None => mkFill k C d (fkMin f)
        end
      else mkFill (k + 1) C d (fkMin f)
    else mkFill (k + 1) C d (fkMin f).
Definition fillOxides (vars : list Var) (s : St) (C0 : nat -> nat -> R) (d0 : nat -> R) : Fill :=
  loop (nc tab) (fillOxide vars s) (mkFill O C0 d0 None).
(** 310-440: the rows after those are given by [extra], with right hand side 0 (345, 437) *)
Definition constraintMatrix (vars : list Var) (s : St) (C0 : nat -> nat -> R) (d0 : nat -> R) (extra : nat -> nat -> R) : nat -> nat -> R :=
  let f := fillOxides vars s C0 d0 in fun r j => if Nat.ltb r (fk f) then fC f r j else extra r j.
Definition constraintRhs (vars : list Var) (s : St) (C0 : nat -> nat -> R) (d0 : nat -> R) : nat -> R :=
  let f := fillOxides vars s C0 d0 in fun r => if Nat.ltb r (fk f) then fd f r else 0.
(** the number of rows written: the oxide rows, one row per liquid (or one) with a buffer (311-346), one row with an
    imposed property (349-438) *)
Definition rowsWritten (hasL : bool) (vars : list Var) (s : St) (C0 : nat -> nat -> R) (d0 : nat -> R) : nat :=
  (fk (fillOxides vars s C0 d0) + (if fo2On s then (if hasL then nLiq s else 1) else 0) + (if imposed then 1 else 0))%nat.

(** ** silmin.c 1021-1125: reading back the solution b *)
Record Delta : Type := mkDelta { dLiq : nat -> nat -> R; dSol : nat -> nat -> R; dj : nat }.
Variable b : nat -> R.
Definition change (s : St) (x : R) (j : nat) : R := if nonlin s then b j else b j - x.
(** 1039-1052 *)
Definition readLiq (s : St) (nl i : nat) (d : Delta) : Delta :=
  if present s (VLiq nl i) then mkDelta (upd2 (dLiq d) nl i (change s (liqC s nl i) (dj d))) (dSol d) (S (dj d))
  else mkDelta (upd2 (dLiq d) nl i 0) (dSol d) (dj d).
(** 1084-1096: one component of a solution, with mTotal *)
Definition readComp (s : St) (i ns k : nat) (dm : Delta * R) : Delta * R :=
  let '(d, mTotal) := dm in
  if present s (VSol (i + 1 + k) ns)
  then (mkDelta (dLiq d) (upd2 (dSol d) (i + 1 + k) ns (change s (solC s (i + 1 + k)%nat ns) (dj d))) (S (dj d)),
        mTotal + (if nonlin s then b (dj d) + solC s (i + 1 + k)%nat ns else b (dj d)))
  else (mkDelta (dLiq d) (upd2 (dSol d) (i + 1 + k) ns 0) (dj d), mTotal).
(** 1062-1102: one instance of a phase *)
Definition readSol (s : St) (i ns : nat) (d : Delta) : Delta :=
  let d := mkDelta (dLiq d) (upd2 (dSol d) i ns 0) (dj d) in
  if Nat.eqb (na tab i) 1
  then mkDelta (dLiq d) (upd2 (dSol d) i ns (change s (solC s i ns) (dj d))) (S (dj d))
  else let '(d, mTotal) := loop (na tab i) (readComp s i ns) (d, 0) in
       mkDelta (dLiq d) (upd2 (dSol d) i ns (mTotal - solC s i ns)) (dj d).
Definition readBack (s : St) (d0 : nat -> nat -> R) (e0 : nat -> nat -> R) : Delta :=
  let d := mkDelta d0 e0 O in
  let d := if hasLiquid s then loop (nLiq s) (fun nl => loop (nlc tab) (readLiq s nl)) d else d in
  loop (npc tab) (fun i => loop (nSol s i) (readSol s i)) d.

(** ** linear_search.c: the correction that puts every liquid back on the buffer
    218-222: the trial composition; 276-287 for a buffer alone, and 320-332 once per iteration of the temperature loop:
    convert to oxides, redistribute iron, convert back. [redoxes]: one conversion per iteration. *)
Definition trialLiq (s : St) (d : Delta) (lam : R) (nl j : nat) : R := liqC s nl j + lam * dLiq d nl j.
Definition rebuffer (redox : (nat -> R) -> nat -> R) (m : nat -> R) : nat -> R :=
  let ox := redox (fun i => sum (nlc tab) (fun j => liqToOx tab j i * m j)) in
  fun i => sum (nc tab) (fun j => oxToLiq tab j i * ox j).
Definition correction (redoxes : list ((nat -> R) -> nat -> R)) (s : St) (d : Delta) (lam : R) (nl j : nat) : R :=
  fold_left (fun m redox => rebuffer redox m) redoxes (trialLiq s d lam nl) j - trialLiq s d lam nl j.

(** ** silmin.c 1265-1310: the move *)
(** 1268-1276 *)
Definition moveLiquids (d : Delta) (lam : R) (corr : nat -> nat -> R) (s : St) : St :=
  if hasLiquid s
  then loop (nLiq s) (fun nl => loop (nlc tab) (fun i s =>
         let s := setLiq nl i (liqC s nl i + lam * dLiq d nl i) s in
         if fo2On s then setLiq nl i (liqC s nl i + corr nl i) s else s)) s
  else s.
(** 1277-1285, with liquid *)
Definition moveSolid (d : Delta) (lam : R) (i ns : nat) (s : St) : St :=
  let s := setSol i ns (solC s i ns + lam * dSol d i ns) s in
  if Nat.ltb 1 (na tab i)
  then loop (na tab i) (fun j s => setSol (i + 1 + j) ns (solC s (i + 1 + j)%nat ns + lam * dSol d (i + 1 + j)%nat ns) s) s
  else s.
Definition moveSolids (d : Delta) (lam : R) (s : St) : St :=
  loop (npc tab) (fun i s => loop (nSol s i) (moveSolid d lam i) s) s.
(** 1286-1295 *)
Definition sumBulk (s : St) : St :=
  if fo2On s
  then setBulk (fun o => if Nat.ltb o (nc tab) then
         sum (nLiq s) (fun nl => sum (nlc tab) (fun j => liqC s nl j * liqToOx tab j o))
         + sum (npc tab) (fun j => sum (nSol s j) (fun ns =>
             if Nat.eqb (na tab j) 1 then solC s j ns * solToOx tab j o
             else sum (na tab j) (fun k => solC s (j + 1 + k)%nat ns * solToOx tab (j + 1 + k) o)))
         else bulk s o) s
  else s.
Definition move (d : Delta) (lam : R) (corr : nat -> nat -> R) (s : St) : St :=
  sumBulk (moveSolids d lam (moveLiquids d lam corr s)).
End Step.

(** One pass through PROJECT_CONSTRAINTS .. LINEAR_SEARCH (silmin.c 900-1310): constraints, quadratic problem (QuadModel.v,
    with the Hessian E, the gradient B and the work arrays as they are), reading back, move. [hasL] is liquidMass != 0. *)
Definition step (tab : Tab) (imposed : bool) (iF2 iF3 : nat) (hasL : bool)
    (C0 : nat -> nat -> R) (d0 : nat -> R) (extra E B : nat -> nat -> R) (dblmin tol : R) (h0 y0 rn hh g : nat -> R) (p : nat -> nat)
    (dl0 ds0 : nat -> nat -> R) (lam lamLast : R) (redoxes : list ((nat -> R) -> nat -> R)) (s : St) : St :=
  let vs := conVars tab hasL s in
  let C := constraintMatrix tab imposed iF2 iF3 vs s C0 d0 extra in
  let d := constraintRhs tab imposed iF2 iF3 vs s C0 d0 in
  let b := fst (quadStep (nRows tab imposed s) (nCols tab imposed hasL s) C d E B dblmin tol h0 y0 rn hh g p) in
  let dl := readBack tab imposed b s dl0 ds0 in
  move tab dl lam (correction tab redoxes s dl lamLast) s.
