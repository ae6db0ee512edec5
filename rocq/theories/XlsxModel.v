(** * The exported spreadsheet (model of XLSXWriter::WriteToFile, src/xlsx_writer.cpp 41-413)

    A worksheet is the function from row and column to the last thing written there; libxlsxwriter
    keeps the last write to a cell.  Loops over [npc]/[mpi] and [nc] are folds over positions.
    [None] in a number is NaN.  The file name search (45-55) is the one of C38 with another
    suffix and is not repeated. *)

From Coq Require Import Reals List Arith Bool String.
Import ListNotations.
Open Scope string_scope.
Open Scope nat_scope.

Inductive Cell :=
| Str (s : string)
| Num (x : option R).

Definition Sheet := nat -> nat -> option Cell.
Definition emptySheet : Sheet := fun _ _ => None.
(** worksheet_write_string / worksheet_write_number *)
Definition put (sh : Sheet) (r c : nat) (v : Cell) : Sheet :=
  fun r' c' => if (r' =? r) && (c' =? c) then Some v else sh r' c'.

(** One entry of sol_properties, frac_properties or assim_properties: [pPos] is the position of
    the phase in the list of phases ([phase_indices.at(melts_phase_index)]). *)
Record Phase := MkPhase { pPos : nat; pLabel : string; pFormula : string; pMass : R }.

(** The fields of SilminData (include/melts_interface.hpp) that are exported. *)
Record Data := MkData {
  dIsenthalpic : bool; dIsentropic : bool; dIsochoric : bool;
  dT : R; dP : R; dFO2 : R;
  dG : R; dH : R; dS : R; dCp : R; dV : R; dDens : R; dVisc : option R;   (* sys_prop_nofrac *)
  dMass : R;                           (* sys_properties.mass *)
  dLiqMass : option R;                 (* liq_properties.find(0): the first liquid, if any *)
  dLiqComp : nat -> R;                 (* liquid_composition.at(0) *)
  dSolMass : option R;                 (* sol_tot_properties.mass *)
  dFracMass : option R; dAssimMass : option R;
  dBulk : nat -> R;                    (* bulk_comp_n *)
  dSol : list Phase; dFrac : list Phase; dAssim : list Phase;
  dFracLiqMass : option R; dFracLiqComp : nat -> R;
  dAssimT : option R;
  dAssimLiqMass : option R; dAssimLiqComp : nat -> R
}.

Definition START : nat := 17.

Section Writer.
Variable NC : nat.                     (* nc *)
Variable ox : nat -> string.           (* bulkSystem[i].label *)
Variable NP : nat.                     (* mpi.size(): the entries of solids that are phases *)
Variable ph : nat -> string.           (* solids[mpi[i]].label *)
Variable toFloat : R -> R.             (* the cast (float) in lines 83-93 *)
Variable positive : R -> bool.         (* x > 0.0 *)

(** Lines 83-84, 87, 92: mass of phase position i in one list of phases: the zero it starts
    from plus the masses, in order. *)
Definition massOf (l : list Phase) (i : nat) : R :=
  fold_left (fun acc p => if pPos p =? i then (acc + toFloat (pMass p))%R else acc) l 0%R.

(** Lines 84, 88, 93: does phase i occur in some step? *)
Definition occurs (f : Data -> list Phase) (data : list Data) (i : nat) : bool :=
  existsb (fun d => existsb (fun p => pPos p =? i) (f d)) data.

Definition isPos (x : option R) : bool := match x with Some v => positive v | None => false end.
(** Lines 90, 95 *)
Definition liqFractionated (data : list Data) : bool := existsb (fun d => isPos (dFracLiqMass d)) data.
Definition liqAssimilated (data : list Data) : bool := existsb (fun d => isPos (dAssimLiqMass d)) data.

(** Lines 103-107 *)
Definition countPhases (e : nat -> bool) : nat :=
  fold_left (fun n i => if e i then S n else n) (seq 0 NP) 0.

(** for (i = 0; i < nc; ++i) write(row, base + i, f i) *)
Definition putOx (sh : Sheet) (row base : nat) (f : nat -> Cell) : Sheet :=
  fold_left (fun sh i => put sh row (base + i) (f i)) (seq 0 NC) sh.

(** The loops "for i in phases: if exists[i] write(row, base + counter++, f i)"; the result
    carries the counter. *)
Definition putPhases (sh : Sheet) (row base n0 : nat) (e : nat -> bool) (f : nat -> Cell) : Sheet * nat :=
  fold_left (fun (st : Sheet * nat) i => let (sh, n) := st in
                         if e i then (put sh row (base + n) (f i), S n) else (sh, n))
            (seq 0 NP) (sh, n0).

Definition wStr (row c : nat) (s : string) (sh : Sheet) : Sheet := put sh row c (Str s).
Definition wNum (row c : nat) (x : R) (sh : Sheet) : Sheet := put sh row c (Num (Some x)).
Definition wOpt (row c : nat) (x : option R) (sh : Sheet) : Sheet := put sh row c (Num x).

Definition orZero (x : option R) : R := match x with Some v => v | None => 0%R end.

Definition b2n (b : bool) : nat := if b then 1 else 0.

Section Layout.
Variable data : list Data.
Let eS := occurs dSol data.
Let eF := occurs dFrac data.
Let eA := occurs dAssim data.
Let nS := countPhases eS.
Let nF := countPhases eF.
Let nA := countPhases eA.
Let lf := liqFractionated data.
Let la := liqAssimilated data.

(** Lines 112-130 *)
Definition fixedHeadings : list string :=
  ["Index"; "Mode"; "T (C)"; "P (bar)"; "log fO2"; "G (J)"; "H (J)"; "S (J/K)"; "Cp (J)";
   "V (cm3)"; "density (g/cm3)"; "viscosity (log poise)"; "m (total)"; "m (melt)"; "m (solid)";
   "m (frac)"; "m (assim)"].
Definition putList (sh : Sheet) (row base : nat) (l : list Cell) : Sheet :=
  fst (fold_left (fun (st : Sheet * nat) v => let (sh, c) := st in (put sh row c v, S c)) l (sh, base)).

(** Lines 112-180: the two heading rows. *)
Definition headings (sh : Sheet) : Sheet :=
  let row := 1 in
  let sh := putList sh row 0 (map Str fixedHeadings) in
  let sh := wStr 0 1 "System properties (no fractionated)" sh in
  let sh := wStr 0 12 "Masses (grams)" sh in
  let sh := wStr 0 START "Bulk composition (grams)" sh in
  let sh := if 0 <? nS then wStr 0 (START + NC) "Phases in equilibrium with melt (grams)" sh else sh in
  let sh := if (0 <? nF) || lf
            then wStr 0 (START + NC + nS) "Fractionated phases (masses in grams)" sh else sh in
  let sh := if (0 <? nA) || la
            then wStr 0 (START + NC + nS + nF + b2n lf) "Assimilant" sh else sh in
  let sh := if 0 <? nA
            then wStr 0 (START + NC + nS + nF + (if lf then 2 else 1)) "Phase masses (grams)" sh else sh in
  let sh := if la
            then wStr 0 (START + NC + nS + nF + (if lf then 2 else 1) + nA)
                      "Bulk assimilant (liquid mass in grams)" sh else sh in
  let sh := putOx sh row START (fun i => Str (ox i)) in
  let (sh, n) := putPhases sh row (NC + START) 0 eS (fun i => Str (ph i)) in
  let (sh, n) := if 0 <? nF then putPhases sh row (NC + START) n eF (fun i => Str (ph i)) else (sh, n) in
  let (sh, n) := if lf then (wStr row (NC + START + n) "liquid (frac)" sh, S n) else (sh, n) in
  let (sh, n) := if (0 <? nA) || la
                 then (wStr row (NC + START + n) "assim T (C)" sh, S n) else (sh, n) in
  let (sh, n) := if 0 <? nA then putPhases sh row (NC + START) n eA (fun i => Str (ph i)) else (sh, n) in
  if la
  then fold_left (fun sh i =>
         let sh := if i =? 0 then wStr row (NC + START + n + i) "liquid (assim)" sh else sh in
         wStr row (NC + START + n + i) (ox i) sh) (seq 0 NC) sh
  else sh.

Definition modeOf (d : Data) : string :=
  if dIsenthalpic d then "Isenthalpic"
  else if dIsentropic d then "Isentropic"
  else if dIsochoric d then "Isochoric"
  else "Isothermal/Isobaric".

(** Lines 184-223: the seventeen fixed columns of one row. *)
Definition fixedCells (step : nat) (d : Data) : list Cell :=
  [Num (Some (INR step)); Str (modeOf d); Num (Some (dT d)); Num (Some (dP d)); Num (Some (dFO2 d));
   Num (Some (dG d)); Num (Some (dH d)); Num (Some (dS d)); Num (Some (dCp d)); Num (Some (dV d));
   Num (Some (dDens d));
   match dVisc d with None => Str "Vsol>Vliq" | Some v => Num (Some v) end;
   Num (Some (dMass d)); Num (Some (orZero (dLiqMass d))); Num (Some (orZero (dSolMass d)));
   Num (Some (orZero (dFracMass d))); Num (Some (orZero (dAssimMass d)))].

(** Lines 183-274: one row of the System sheet. *)
Definition systemRow (sh : Sheet) (step : nat) (d : Data) : Sheet :=
  let row := 2 + step in
  let sh := putList sh row 0 (fixedCells step d) in
  let sh := putOx sh row START (fun i => Num (Some (dBulk d i))) in
  let (sh, _) := putPhases sh row (NC + START) 0 eS (fun i => Num (Some (massOf (dSol d) i))) in
  let (sh, _) := if 0 <? nF
                 then putPhases sh row (NC + START + nS) 0 eF (fun i => Num (Some (massOf (dFrac d) i)))
                 else (sh, 0) in
  let sh := if lf then wOpt row (NC + START + nS + nF) (dFracLiqMass d) sh else sh in
  let sh := match dAssimT d with
            | Some t => wNum row (NC + START + nS + nF + b2n lf) t sh
            | None => sh end in
  let (sh, _) := if 0 <? nA
                 then putPhases sh row (NC + START + nS + nF + (if lf then 2 else 1)) 0 eA
                                (fun i => Num (Some (massOf (dAssim d) i)))
                 else (sh, 0) in
  match dAssimLiqMass d with
  | Some m =>
      fold_left (fun sh i =>
        let sh := if i =? 0 then wNum row (START + NC + nS + nF + b2n lf + nA) m sh else sh in
        wNum row (START + NC + nS + nF + (if lf then 2 else 1) + nA + i) (dAssimLiqComp d i) sh)
        (seq 0 NC) sh
  | None => sh
  end.

(** for (const auto &a : data) { ...; row++; step++; } *)
Definition putRows (f : Sheet -> nat -> Data -> Sheet) (sh : Sheet) : Sheet :=
  fst (fold_left (fun (st : Sheet * nat) d => let (sh, step) := st in (f sh step d, S step)) data (sh, 0)).

Definition systemSheet : Sheet := putRows systemRow (headings emptySheet).

(** ** The sheet "Liquid" (lines 276-341) *)

Definition liquidHeadings (sh : Sheet) (title : string) (base : nat) : Sheet :=
  let sh := wStr 0 base title sh in
  let sh := wStr 1 base "Step" sh in
  let sh := wStr 1 (base + 1) "Mass" sh in
  putOx sh 1 (base + 2) (fun i => Str (ox i)).

Definition liqTitle := "Liquids in equilibrium with solid residue (and to be fractionated before next equilibration step if liquid fractionation is active)".
Definition aggTitle := "Aggregate liquid 1-D column (total fractionated before the current equilibration step)".
Definition asTitle := "Liquid assimilant (to be assimilated before next equilibration step)".

(** Lines 288-301 *)
Definition liquidRow (sh : Sheet) (step : nat) (d : Data) : Sheet :=
  let row := 2 + step in
  let sh := wNum row 0 (INR step) sh in
  let sh := wNum row 1 (orZero (dLiqMass d)) sh in
  match dLiqMass d with
  | Some _ => putOx sh row 2 (fun i => Num (Some (dLiqComp d i)))
  | None => sh
  end.

(** Lines 313-323 and 335-345 *)
Definition sideRow (base : nat) (mass : Data -> option R) (comp : Data -> nat -> R)
           (sh : Sheet) (step : nat) (d : Data) : Sheet :=
  let row := 2 + step in
  let sh := wNum row base (INR step) sh in
  match mass d with
  | Some m => fold_left (fun sh i =>
                let sh := if i =? 0 then wNum row (base + 1) m sh else sh in
                wNum row (base + i + 2) (comp d i) sh) (seq 0 NC) sh
  | None => sh
  end.

Definition liquidSheet : Sheet :=
  let maxc := NC + 3 in
  let sh := liquidHeadings emptySheet liqTitle 0 in
  let sh := putRows liquidRow sh in
  let (sh, maxc) := if lf
    then (putRows (sideRow maxc dFracLiqMass dFracLiqComp) (liquidHeadings sh aggTitle maxc), maxc * 2)
    else (sh, maxc) in
  if la then putRows (sideRow maxc dAssimLiqMass dAssimLiqComp) (liquidHeadings sh asTitle maxc) else sh.

(** ** The sheet "Phases" (lines 349-411) *)

Definition phTitle := "Solid and fluid phases in equilibrium with the melt (and to be fractionated before next equilibration step if fractionation is active)".
Definition cuTitle := "Solid and fluid phases in cumulate (total fractionated before the current equilibration step)".
Definition apTitle := "Assimilant solid and fluid phases (to be assimilated before next equilibration step)".

Definition phasesHeadings (sh : Sheet) (title : string) (base : nat) : Sheet :=
  let sh := wStr 0 base title sh in
  let sh := wStr 1 base "Step" sh in
  let sh := wStr 1 (base + 1) "Label" sh in
  let sh := wStr 1 (base + 2) "Mass" sh in
  wStr 1 (base + 3) "Formula" sh.

(** Lines 361-370, 385-395, 405-415 *)
Definition phaseRow (base : nat) (f : Data -> list Phase) (sh : Sheet) (step : nat) (d : Data) : Sheet :=
  let row := 2 + step in
  let sh := wNum row base (INR step) sh in
  fst (fold_left (fun (st : Sheet * nat) p =>
         let (sh, c) := st in
         let sh := wStr row c (pLabel p) sh in
         let sh := wNum row (S c) (pMass p) sh in
         (wStr row (S (S c)) (pFormula p) sh, S (S (S c)))) (f d) (sh, base + 1)).

(** [max_column = std::max(max_column, column)] over the rows, from 3, and then one more *)
Definition phasesWidth : nat :=
  S (fold_left (fun m d => Nat.max m (1 + 3 * List.length (dSol d))) data 3).

Definition phasesSheet : Sheet :=
  let sh := phasesHeadings emptySheet phTitle 0 in
  let sh := putRows (phaseRow 0 dSol) sh in
  let maxc := phasesWidth in
  let (sh, maxc) := if 0 <? nF
    then (putRows (phaseRow maxc dFrac) (phasesHeadings sh cuTitle maxc), maxc * 2)
    else (sh, maxc) in
  if 0 <? nA then putRows (phaseRow maxc dAssim) (phasesHeadings sh apTitle maxc) else sh.

End Layout.
End Writer.
