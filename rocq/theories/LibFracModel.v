(** Model of fractionation with its effect on the reference enthalpy (entropy, volume), in both programs:
    the graphical one (sources/silmin.c 1727-1960) and the shared library (sources/library.c 2505-2717, called from
    meltsprocess 1133 after the phases have been reported).  The matter part of silmin.c is MassModel.fracColumn,
    fracLiquid, clearTraces; library.c is the same text without the two tests for less than MASSIN moles.

    Simplifications: one reference (enthalpy when isenthalpic, entropy when isentropic, volume when isochoric) in a mode
    that keeps it; (solids[i].cur).h and the like, computed by the last iteration of silmin(), enter as [pureS] and [pureL];
    convert followed by hmix/smix/vmix enters as [mixS i m] and [mixL m], a function of the moles m.  Numbers are real. *)
From Coq Require Import Reals List Arith Bool.
Import ListNotations.
From Verif Require Import MassModel.
Open Scope R_scope.

Section Ops.
Variable tab : Tab.
Variables (pureS pureL : nat -> R) (mixS : nat -> (nat -> R) -> R) (mixL : (nat -> R) -> R).

(** if (silminState->isenthalpic && (silminState->refEnthalpy != 0.0)) silminState->refEnthalpy -= x;
    (library.c 2547-2548 and so on): a reference of exactly zero means that none has been set *)
Definition take (x E : R) : R := if Req_EM_T E 0 then E else E - x.

(** library.c 2540-2599, one column of one phase: silmin.c 1756-1806 without `if (solidComp[i][ns] < MASSIN) continue;' *)
Definition libColumn (i ns : nat) (s : St) : St :=
  if negb (Nat.ltb ns (nSol s i)) then s
  else if Nat.eqb (na tab i) 1 then
    let x := solC s i ns - MASSIN in
    let s := setFracS (upd2 (fracS s) i ns (fracS s i ns + x)) s in
    let s := if fo2On s then setOxy (oxy s - o2Sol tab i * x) s else s in
    let s := setFracMass (fracMass s + x * smw tab i) s in
    let s := addBulk tab (fun o => - (solToOx tab i o * x)) s in
    setSol i ns MASSIN s
  else
    let s := setFracS (upd2 (fracS s) i ns (fracS s i ns + (solC s i ns - MASSIN))) s in
    let s := loop (na tab i)
      (fun j s =>
         let c := (i+1+j)%nat in
         let moleF := solC s c ns / solC s i ns in
         let m := solC s c ns - MASSIN * moleF in
         let s := setFracS (upd2 (fracS s) c ns (fracS s c ns + m)) s in
         let s := if fo2On s then setOxy (oxy s - o2Sol tab c * m) s else s in
         let s := setFracMass (fracMass s + m * smw tab c) s in
         let s := addBulk tab (fun o => - (solToOx tab c o * m)) s in
         setSol c ns (MASSIN * moleF) s) s in
    setSol i ns MASSIN s.
(** the matter of a column in the two programs *)
Definition column (graphical : bool) (i ns : nat) (s : St) : St := if graphical then fracColumn tab i ns s else libColumn i ns s.

(** moles of end member j taken: library.c 2562-2563, silmin.c 1777-1778 *)
Definition takenMoles (i ns : nat) (s : St) (j : nat) : R :=
  solC s (i+1+j)%nat ns - MASSIN * (solC s (i+1+j)%nat ns / solC s i ns).
(** the reference in a column: library.c 2546-2552 (pure), 2571-2599 (solution: each end member, then mixing);
    silmin.c 1763-1769, 1784-1804.  Each statement reads m[j] only, so they are grouped after the moles *)
Definition columnRef (i ns : nat) (s : St) (E : R) : R :=
  if negb (Nat.ltb ns (nSol s i)) then E
  else if Nat.eqb (na tab i) 1 then take ((solC s i ns - MASSIN) * pureS i) E
  else
    let m := takenMoles i ns s in
    let E := loop (na tab i) (fun j E => take (m j * pureS (i+1+j)%nat) E) E in
    take (sum (na tab i) m * mixS i m) E.
Definition columnWith (graphical : bool) (i ns : nat) (p : St * R) : St * R :=
  let '(s, E) := p in
  (column graphical i ns s,
   if graphical && (if Rlt_dec (solC s i ns) MASSIN then true else false) then E else columnRef i ns s E).
(** library.c 2534-2601, silmin.c 1750-1811; [part] is the rule of the labels (MassModel.takesPart) *)
Definition solidsWith (graphical : bool) (part : nat -> bool) (p : St * R) : St * R :=
  loop (npc tab) (fun i p => if part i then loop (nSol (fst p) i) (columnWith graphical i) p else p) p.

(** library.c 2639-2658, silmin.c 1871-1899: one liquid; silmin.c alone skips a liquid of less than MASSIN moles *)
Definition liquid (graphical : bool) (nl : nat) (s : St) : St :=
  if graphical then fracLiquid tab nl s else loop (nlc tab) (fracLiqComponent tab (sum (nlc tab) (liqC s nl)) nl) s.
Definition takenLiquid (nl : nat) (s : St) (j : nat) : R :=
  let ref := sum (nlc tab) (liqC s nl) in
  if Req_EM_T (liqC s nl j) 0 then 0 else if Req_EM_T ref 0 then 0 else liqC s nl j - MASSIN * (liqC s nl j / ref).
(** library.c 2654-2657 and 2660-2679, silmin.c 1895-1918 *)
Definition liquidRef (nl : nat) (s : St) (E : R) : R :=
  let m := takenLiquid nl s in
  let ref := sum (nlc tab) (liqC s nl) in
  let E := loop (nlc tab) (fun j E => if Req_EM_T (liqC s nl j) 0 then E else if Req_EM_T ref 0 then E else take (m j * pureL j) E) E in
  take (sum (nlc tab) m * mixL m) E.
Definition liquidWith (graphical : bool) (nl : nat) (p : St * R) : St * R :=
  let '(s, E) := p in
  (liquid graphical nl s,
   if graphical && (if Rlt_dec (sum (nlc tab) (liqC s nl)) MASSIN then true else false) then E else liquidRef nl s E).
Definition liquidsWith (graphical : bool) (p : St * R) : St * R := loop (nLiq (fst p)) (liquidWith graphical) p.

(** doBatchFractionation, library.c 2505-2717; silmin.c 1727-1960 in its two states: the flags are fractionateSol,
    fractionateFlu and fractionateLiq, [isFluid] says which phases carry the label of the fluid (water in MELTS and
    pMELTS, fluid in the other modes); hasLiquid is found once, on entry *)
Definition fractionate (graphical : bool) (isFluid : nat -> bool) (frSol frFlu frLiq : bool) (p : St * R) : St * R :=
  let has := hasLiquid (fst p) in
  let p := if (frSol || frFlu) && has
           then let q := solidsWith graphical (takesPart isFluid frSol frFlu) p in (clearTraces tab (fst q), snd q) else p in
  if frLiq && has then let q := liquidsWith graphical p in (clearTraces tab (fst q), snd q) else p.
End Ops.
