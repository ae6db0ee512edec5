(** Model of the saturation test of the equilibrium driver.

    Source: sources/evaluate_saturation.c evaluateSaturationState 145-502, lines 161-207 (potentials of the liquid and
    their correction on an oxygen buffer), 305-327 (pure phases), 329-446 (solutions), 448-478 (liquid).

    Simplifications: doubles are real numbers; the chemical potentials muLiq of the components of the liquid (actLiq
    plus the end-member energies; in a system without liquid the SVD solution of lines 210-303) and the answers of
    getAffinityAndComposition and its variants, with the fallbacks of lines 362-443, are parameters, so that the
    theorems hold whatever they answer; the liquid composition that a system without liquid gets in lines 210-303 is a
    parameter too. rSol is a total function. *)
From Coq Require Import Reals List Bool Arith.
From Verif Require Import MassModel.
Local Open Scope R_scope.

(** evaluate_saturation.c 143 *)
Definition CYL : nat := 2.

(** What the test reads, apart from the tables *)
Record SatIn : Type := mkSatIn {
  liquidThere : bool;              (* silminState->liquidMass != 0.0 *)
  onBuffer : bool;                 (* fo2Path != FO2_NONE *)
  silicaAtoms : R;                 (* 4 in pMELTS (component Si4O8), 1 in the other modes (SiO2) *)
  muO2 : R;                        (* R T ln(10) fo2 + oxygen.cur.g *)
  muRaw : nat -> R;                (* the potentials before the correction *)
  amounts : nat -> R;              (* liquidComp *)
  gSol : nat -> R;                 (* solids[i].cur.g *)
  gLiq : nat -> R;                 (* liquid[k].cur.g *)
  included : nat -> bool;          (* incSolids[j], j the number of the phase *)
  liquidIncluded : bool;           (* incSolids[npc] *)
  cycles : nat -> nat;             (* cylSolids[i] *)
  present : nat -> R;              (* solidComp[i][0] *)
  solutionAff : nat -> (nat -> bool) -> (nat -> R) -> nat -> R;
      (* what the affinity routines leave in rSol[i+k]: phase, zeroX, muSol, k *)
  liquidAff : (nat -> bool) -> (nat -> R) -> R
}.

Section Sat.
Variable tab : Tab.
Variable x : SatIn.

(** 183-207: on a buffer the potential of Fe2O3 (component 3) is corrected; components 0 and 5 are SiO2 (or Si4O8) and
    Fe2SiO4 *)
Definition muLiq : nat -> R :=
  if liquidThere x && onBuffer x then
    let deltaG := muRaw x 0%nat / silicaAtoms x + muRaw x 3%nat - muRaw x 5%nat - muO2 x / 2 in
    upd (muRaw x) 3 (muRaw x 3%nat - deltaG)
  else muRaw x.

(** 315-326 = 333-345: energy of end-member c minus the potentials of its components in the liquid; the loop stops at
    the first component the liquid lacks, and then the answer is 0 *)
Fixpoint excess (c fuel k : nat) (mu : R) : R * bool :=
  match fuel with
  | O => (mu, false)
  | S fuel' =>
      if Req_EM_T (solToLiq tab c k) 0 then excess c fuel' (S k) mu
      else if Req_EM_T (amounts x k) 0 then (0, true)
      else excess c fuel' (S k) (mu - solToLiq tab c k * muLiq k)
  end.
Definition endmember (c : nat) : R * bool := excess c (nlc tab) 0 (gSol x c).

(** 309-310 *)
Definition considered (i j : nat) : bool :=
  included x j && Nat.ltb (cycles x i) CYL && (if Req_EM_T (present x i) 0 then true else false).

(** 305-446, from entry i, with j phases before it *)
Fixpoint scan (fuel i j : nat) (r : nat -> R) (h : bool) : (nat -> R) * bool :=
  match fuel with
  | O => (r, h)
  | S fuel' =>
      if Nat.ltb i (npc tab) then
        let r := upd r i 0 in
        if isPhase tab i then
          if considered i j then
            if Nat.eqb (na tab i) 1 then
              let a := fst (endmember i) in
              scan fuel' (S i) (S j) (upd r i a) (h || (if Rlt_dec a 0 then true else false))
            else if Nat.ltb 1 (na tab i) then
              let muSol := fun k => fst (endmember (i + 1 + k)) in
              let zeroX := fun k => snd (endmember (i + 1 + k)) in
              let r := fun i' => if Nat.leb i i' && Nat.leb i' (i + na tab i) then solutionAff x i zeroX muSol (i' - i) else r i' in
              scan fuel' (S (i + na tab i)) (S j) r (h || (if Rlt_dec (r i) 0 then true else false))
            else scan fuel' (S i) (S j) r h
          else scan fuel' (S i) (S j) r h
        else scan fuel' (S i) j r h
      else (r, h)
  end.

(** 448-478 *)
Definition liquidTest : R :=
  if negb (liquidThere x) && liquidIncluded x
  then liquidAff x (fun k => if Req_EM_T (amounts x k) 0 then true else false)
                   (fun k => if Req_EM_T (amounts x k) 0 then 0 else gLiq x k - muLiq k)
  else 0.

(** rSol, rLiq[nlc-1] and the answer *)
Definition evaluateSaturationState (r0 : nat -> R) : (nat -> R) * R * bool :=
  let (r, h) := scan (npc tab) 0 0 r0 false in
  (r, liquidTest, h || (if Rlt_dec liquidTest 0 then true else false)).
End Sat.
