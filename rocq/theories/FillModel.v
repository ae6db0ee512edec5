(** * The result record of one step (model of SilminData::FillStructure,
    include/melts_interface.hpp 63-598)

    The state of the system is [St] of MassModel.v with the tables [Tab]; the numbers of fractionated
    instances and the switches are in [Conf].  The mixing properties per mole (gmixLiq .. cpmixLiq,
    the solids' gmix .. cpmix), the viscosity function and the end-member properties [cur] are
    parameters.  Doubles are real numbers.  Left out: formulas and labels as text, moles of
    exchanged oxygen (544-561), the derivatives of the volume (which are summed and never used).
    [solids[j].type] is looked at only for assimilants, as in the code. *)

From Coq Require Import Reals List Arith Bool.
From Verif Require Import MassModel.
Import ListNotations.
Open Scope R_scope.

(** The five extensive properties. *)
Inductive Which := Gibbs | Enthalpy | Entropy | Volume | HeatCap.

(** Prop (lines 41-55): phase index, mass, density and the properties; volume in cc. *)
Record Entry := mkEntry {
  eRow : nat;
  eMass : R;
  eDens : R;
  eProp : Which -> R;
  eEnds : list R
}.

(** What the record keeps of the system (sol_tot_properties, sys_prop_nofrac, sys_properties). *)
Record Tot := mkTot { tMass : R; tDens : R; tProp : Which -> R }.

(** Switches and fractionated instances of the SilminState; reference values. *)
Record Conf := mkConf {
  cFracSol : bool; cFracFlu : bool; cFracLiq : bool;
  cNFrac : nat -> nat;                (* nFracCoexist *)
  cIsoH : bool; cIsoS : bool; cIsoV : bool;
  cRefH : R; cRefS : R; cRefV : R
}.

(** The static variables f_sol_mass and f_liq_mass (65-66). *)
Record Statics := mkStatics { fSol : R; fLiq : R }.

Record Out := mkOut {
  oBulk : list R;                     (* bulk_comp_n *)
  oLiq : list Entry;                  (* liq_properties, by number of the liquid *)
  oLiqComp : list (list R);           (* liquid_composition *)
  oSol : list Entry;                  (* sol_properties *)
  oSolTot : Tot;
  oNoFrac : Tot;                      (* sys_prop_nofrac *)
  oFrac : list Entry;                 (* frac_properties *)
  oFracLiq : option Entry;            (* frac_liq_properties, if written *)
  oFracLiqMass : option R; oFracLiqComp : list R;
  oSys : Tot;                         (* sys_properties *)
  oVisc : option R;                   (* sys_prop_nofrac.viscosity; None is NaN *)
  oConf : Conf                        (* with the reference values set *)
}.

Section Fill.
Variable tab : Tab.
Variable isFluid : nat -> bool.            (* label "water" or "fluid" *)
Variable curLiq : nat -> Which -> R.
Variable curSol : nat -> Which -> R.
Variable mixLiq : (nat -> R) -> Which -> R.
Variable mixSol : nat -> (nat -> R) -> Which -> R.
Variable viscLiq : (nat -> R) -> R.        (* visLiq *)
Variable junk : R.                         (* the uninitialised variable viscosity, line 85 *)

(** x *= 10 for the volume only *)
Definition inCc (f : Which -> R) (w : Which) : R :=
  match w with Volume => f Volume * 10 | _ => f w end.

(** ** Liquids (lines 98-176) *)

(** 108-131: mixing per mole times moles plus the end members *)
Definition liqVal (m : nat -> R) (w : Which) : R :=
  mixLiq m w * sum (nlc tab) m + sum (nlc tab) (fun i => m i * curLiq i w).
(** 133-140: grams of oxide o *)
Definition liqGrams (m : nat -> R) (o : nat) : R :=
  sum (nlc tab) (fun j => liqToOx tab j o * m j) * omw tab o.
Definition liqMass (m : nat -> R) : R := sum (nc tab) (liqGrams m).
(** 141-145 *)
Definition wtPercent (g : nat -> R) : list R :=
  let total := sum (nc tab) g in
  map (fun o => if Req_EM_T total 0 then g o else g o / total * 100) (seq 0 (nc tab)).
(** 151-163: note the density, oxSum / 10. * volume *)
Definition liqEntry (m : nat -> R) : Entry :=
  mkEntry (npc tab) (liqMass m) (liqMass m / 10 * liqVal m Volume) (inCc (liqVal m)) [].

(** ** Solids (lines 178-270) *)

Definition solVec (comp : nat -> nat -> R) (j ns : nat) : nat -> R := fun i => comp (j + 1 + i)%nat ns.
(** 181-197 and 222-256 *)
Definition solMass (comp : nat -> nat -> R) (j ns : nat) : R :=
  if Nat.eqb (na tab j) 1 then comp j ns * smw tab j
  else sum (na tab j) (fun i => comp (j + 1 + i)%nat ns * smw tab (j + 1 + i)%nat).
Definition solVal (comp : nat -> nat -> R) (j ns : nat) (w : Which) : R :=
  if Nat.eqb (na tab j) 1 then comp j ns * curSol j w
  else mixSol j (solVec comp j ns) w * comp j ns
       + sum (na tab j) (fun i => solVec comp j ns i * curSol (j + 1 + i)%nat w).
Definition dens (mass volume : R) : R := if Req_EM_T volume 0 then 0 else mass / (10 * volume).
(** 199-209 and 259-275 *)
Definition solEntry (comp : nat -> nat -> R) (j ns : nat) : Entry :=
  mkEntry j (solMass comp j ns) (dens (solMass comp j ns) (solVal comp j ns Volume))
          (inCc (solVal comp j ns))
          (if Nat.eqb (na tab j) 1 then []
           else map (fun i => 100 * comp (j + 1 + i)%nat ns / comp j ns) (seq 0 (na tab j))).

(** totalMass, totalGibbsEnergy, ...: the running totals. *)
Record Run := mkRun { rList : list Entry; rMass : R; rProp : Which -> R }.
Definition addSolid (comp : nat -> nat -> R) (j ns : nat) (r : Run) : Run :=
  mkRun (rList r ++ [solEntry comp j ns]) (rMass r + solMass comp j ns)
        (fun w => rProp r w + solVal comp j ns w).
(** 178-179 and 325-330 with the phases that are passed over *)
Definition addSolids (skip : nat -> bool) (n : nat -> nat) (comp : nat -> nat -> R) (r : Run) : Run :=
  loop (npc tab) (fun j r => if skip j then r else loop (n j) (addSolid comp j) r) r.

(** Totals of liquid and solids: 278-302 and 530-540 *)
Definition totals (mLiq : R) (vLiq : Which -> R) (r : Run) : Tot :=
  mkTot (mLiq + rMass r)
        (if Req_EM_T (rProp r Volume + vLiq Volume) 0 then 0
         else (mLiq + rMass r) / (10 * (vLiq Volume + rProp r Volume)))
        (inCc (fun w => vLiq w + rProp r w)).

Definition log10 (x : R) : R := ln x / ln 10.

(** 326-329 *)
Definition skipFrac (c : Conf) (j : nat) : bool :=
  (cFracSol c && negb (cFracFlu c) && isFluid j) || (negb (cFracSol c) && cFracFlu c && negb (isFluid j)).

(** liquidMass > 0 *)
Variable someLiquid : bool.

(** The whole function; [index] is the number of the step. *)
Definition fill (index : nat) (st : Statics) (c : Conf) (s : St) : Out * Statics :=
  (* 69-74 *)
  let st := if Nat.eqb index 0 then mkStatics 0 0 else st in
  (* 85-87: for (i = 0; i < 20; ++i) *)
  let bulkN := map (fun i => omw tab i * bulk s i) (seq 0 20) in
  (* 98-176 *)
  let liquids := if someLiquid then seq 0 (nLiq s) else [] in
  let mLiq := fold_left (fun x nl => x + liqMass (liqC s nl)) liquids 0 in
  let vLiq := fun w => fold_left (fun x nl => x + liqVal (liqC s nl) w) liquids 0 in
  let visc := fold_left (fun _ nl => viscLiq (liqC s nl)) liquids junk in
  (* 178-276 *)
  let r := addSolids (fun _ => false) (nSol s) (solC s) (mkRun [] 0 (fun _ => 0)) in
  let solTot := mkTot (rMass r) (dens (rMass r) (rProp r Volume)) (inCc (rProp r)) in
  let vT := rProp r Volume in
  let sysVisc := if Rlt_dec (vLiq Volume) vT then None
                 else Some (visc - 2 * log10 (1 - 2 * vT / (vT + vLiq Volume))) in
  let noFrac := totals mLiq vLiq r in
  (* 304-311 *)
  let ref (on : bool) (old val : R) := if on then (if Req_EM_T old 0 then val else old) else 0 in
  let c' := mkConf (cFracSol c) (cFracFlu c) (cFracLiq c) (cNFrac c) (cIsoH c) (cIsoS c) (cIsoV c)
                   (ref (cIsoH c) (cRefH c) (vLiq Enthalpy + rProp r Enthalpy))
                   (ref (cIsoS c) (cRefS c) (vLiq Entropy + rProp r Entropy))
                   (ref (cIsoV c) (cRefV c) (vLiq Volume + rProp r Volume)) in
  (* 324-432: fractionated solids; f_sol_mass gains the mass of each *)
  let showS := (if Rlt_dec 0 (fSol st) then true else false) || cFracSol c || cFracFlu c in
  let r0 := mkRun [] (rMass r) (rProp r) in
  let rf := if showS then addSolids (skipFrac c) (cNFrac c) (fracS s) r0 else r0 in
  let fS := fSol st + (rMass rf - rMass r) in
  (* 434-510: fractionated liquid *)
  let showL := (if Rlt_dec 0 (fLiq st) then true else false) || cFracLiq c in
  let mF := sum (nlc tab) (fun i => fracL s i * sum (nc tab) (fun o => liqToOx tab i o * omw tab o)) in
  let writeL := showL && (if Rlt_dec 0 mF then true else false) in
  let rl := if writeL
            then mkRun (rList rf) (rMass rf + mF) (fun w => rProp rf w + liqVal (fracL s) w)
            else rf in
  let fracLiq := if writeL
                 then Some (mkEntry (npc tab) mF
                             (if Req_EM_T (liqVal (fracL s) Volume) 0 then 0
                              else mF / 10 * liqVal (fracL s) Volume)
                             (inCc (liqVal (fracL s))) [])
                 else None in
  let fL := if writeL then fLiq st + mF else fLiq st in
  (* 512-527 *)
  let showL2 := (if Rlt_dec 0 fL then true else false) || cFracLiq c in
  (mkOut bulkN (map (fun nl => liqEntry (liqC s nl)) liquids)
         (map (fun nl => wtPercent (liqGrams (liqC s nl))) liquids)
         (rList r) solTot noFrac (rList rf) fracLiq
         (if showL2 then Some (liqMass (fracL s)) else None)
         (if showL2 then wtPercent (liqGrams (fracL s)) else [])
         (totals mLiq vLiq rl) sysVisc c',
   mkStatics fS fL).

End Fill.
