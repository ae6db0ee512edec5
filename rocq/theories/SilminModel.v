(** Model of the control flow of silmin(), the resumable equilibrium solver.

    Source: sources/silmin.c 371-2203, compiled with BATCH_VERSION and
    EASYMELTS_UPDATE_SYSTEM. Every call executes one step of the algorithm;
    the static variables keep the place between calls.

    What is kept: the static variables curStep, curStage, iterQuad,
    acceptable, hasSupersaturation, fo2PathOld and (of bestState) the fields
    below; of the system state the three mode flags with whether their
    reference value is nonzero, the oxygen buffer, whether liquid is present,
    the numbers of solid and liquid phases, the temperature and pressure (as
    one label [cond]); the label at which the end-member tables were last
    computed ([data]); meltsStatus.status and ready_to_output.
    subsolidusmuO2 also recomputes some solids, always at the current T and
    P; that is left out. What is left out: the compositions and all numbers. The
    outcome of every numerical test is an arbitrary answer in [Ans], so that
    the theorems hold for every numerical behaviour. *)
From Coq Require Import List ZArith Bool Lia.
From Verif Require Import EquilModel.
Import ListNotations.
Open Scope Z_scope.

Definition ITERMX : Z := 100.               (* silmin.c: quadratic iterations *)
Definition SILMIN_QUAD_MAX : Z := 6.        (* includes/status.h 34-40 *)
Definition SILMIN_RANK : Z := 12.
Definition FO2_NONE : Z := 0.               (* includes/silmin.h *)

(** silmin.c 381-387 *)
Inductive Step : Type :=
| CHANGE_COMPOSITION | CHANGE_TP | CHECK_SATURATION | ADD_PHASE | PROJECT_CONSTRAINTS
| PRE_QUADRATIC | CONSTRUCT_QUADRATIC | SOLVE_QUADRATIC | REASSEMBLE_SOLUTION | LINEAR_SEARCH
| DROP_PHASE | CONVERGENCE_TEST | VERIFY_SATURATION | OUTPUT_RESULTS | UPDATE_SYSTEM.

(** silmin.c 389-394: PRE_STAGE_ZERO and L_x_STAGE_n with x = H, S, V. *)
Inductive Kind : Type := KH | KS | KV.
Inductive Num : Type := One | Two | Three.
Inductive Stage : Type := Pre | Stg (k : Kind) (n : Num).

Definition kind_eqb (a b : Kind) : bool :=
  match a, b with KH, KH => true | KS, KS => true | KV, KV => true | _, _ => false end.
Definition setK (k : Kind) (b : bool) (f : Kind -> bool) : Kind -> bool :=
  fun x => if kind_eqb x k then b else f x.

(** The part of a SilminState that silmin saves and restores as a whole. *)
Record Sys : Type := mkSys {
  flag : Kind -> bool;      (* isenthalpic, isentropic, isochoric *)
  refNZ : Kind -> bool;     (* refEnthalpy, refEntropy, refVolume != 0 *)
  path : Z;                 (* fo2Path *)
  liquid : bool;            (* liquidMass != 0 *)
  nSol : nat;               (* sum of nSolidCoexist *)
  nLiq : nat;               (* nLiquidCoexist *)
  multi : bool;             (* multipleLiqs *)
  cond : Z                  (* T and P, as one label *)
}.

Record Ctl : Type := mkCtl {
  cStep : Step;
  cStage : Stage;
  iterQuad : Z;
  acceptable : bool;
  best : Sys;
  superSat : bool;
  pathOld : Z;
  sys : Sys;
  stat : Z;                 (* meltsStatus.status *)
  readyOut : bool;          (* ready_to_output *)
  data : Z                  (* the T and P at which the end-member tables
                               liquid[].cur and solids[].cur were computed *)
}.

(** Why ADD_PHASE gives up (723, 767, 807) and what the linear search may set
    (1253, 1261); includes/status.h 35-39. *)
Inductive AddFailure : Type := ADD_LIQUID_1 | ADD_LIQUID_2 | ADD_LIQUID_3.
Definition addCode (f : AddFailure) : Z :=
  match f with ADD_LIQUID_1 => 9 | ADD_LIQUID_2 => 10 | ADD_LIQUID_3 => 11 end.
Inductive LinTrouble : Type := LIN_ZERO | LIN_MAX.
Definition linCode (f : LinTrouble) : Z := match f with LIN_ZERO => 7 | LIN_MAX => 8 end.

(** The answers of the numerical parts during one call. *)
Record Ans : Type := mkAns {
  aLiquid : bool;           (* a recomputed liquid mass is not exactly 0 *)
  aRelease : bool;          (* subsolidusmuO2 fails *)
  aSuper : bool;            (* evaluateSaturationState *)
  aAddFail : option AddFailure; (* ADD_PHASE gives up *)
  aAddLiquid : bool;        (* the phase to be added is the liquid *)
  aFull : bool;             (* conRows < conCols *)
  aRank : bool;             (* hfti finds a rank deficiency *)
  aBest : bool;             (* rNorm < sqrt(eps) sNorm and rNorm < bestrNorm *)
  aTight : bool;            (* rNorm < eps^(3/4) sNorm *)
  aLoose : bool;            (* rNorm < sqrt(eps) sNorm *)
  aLin : option LinTrouble; (* trouble in the linear search *)
  aOptimal : bool;          (* the average potential has stopped changing *)
  aDrop : nat;              (* solids below MASSOUT *)
  aDropLiq : nat;           (* liquids below MASSOUT *)
  aLiqGone : bool;          (* the whole liquid is below MASSOUT *)
  aCoexSol : bool;          (* checkForCoexistingSolids *)
  aCoexLiq : bool;          (* checkForCoexistingLiquids *)
  aFracSol : nat;           (* solids left after fractionation *)
  aFracLiq : bool;          (* liquid left after fractionation *)
  aCond : Z;                (* new T and P from a constraint on H, S or V *)
  aEval : Z                 (* where the Newton iteration last evaluated *)
}.

Definition withSys (s : Sys) (c : Ctl) : Ctl :=
  mkCtl (cStep c) (cStage c) (iterQuad c) (acceptable c) (best c) (superSat c) (pathOld c) s (stat c) (readyOut c) (data c).
Definition goto (p : Step) (c : Ctl) : Ctl :=
  mkCtl p (cStage c) (iterQuad c) (acceptable c) (best c) (superSat c) (pathOld c) (sys c) (stat c) (readyOut c) (data c).
Definition toStage (g : Stage) (c : Ctl) : Ctl :=
  mkCtl (cStep c) g (iterQuad c) (acceptable c) (best c) (superSat c) (pathOld c) (sys c) (stat c) (readyOut c) (data c).
Definition withIter (i : Z) (c : Ctl) : Ctl :=
  mkCtl (cStep c) (cStage c) i (acceptable c) (best c) (superSat c) (pathOld c) (sys c) (stat c) (readyOut c) (data c).
Definition withSuper (b : bool) (c : Ctl) : Ctl :=
  mkCtl (cStep c) (cStage c) (iterQuad c) (acceptable c) (best c) b (pathOld c) (sys c) (stat c) (readyOut c) (data c).
Definition withStat (z : Z) (c : Ctl) : Ctl :=
  mkCtl (cStep c) (cStage c) (iterQuad c) (acceptable c) (best c) (superSat c) (pathOld c) (sys c) z (readyOut c) (data c).
Definition withReady (b : bool) (c : Ctl) : Ctl :=
  mkCtl (cStep c) (cStage c) (iterQuad c) (acceptable c) (best c) (superSat c) (pathOld c) (sys c) (stat c) b (data c).
Definition withOld (z : Z) (c : Ctl) : Ctl :=
  mkCtl (cStep c) (cStage c) (iterQuad c) (acceptable c) (best c) (superSat c) z (sys c) (stat c) (readyOut c) (data c).
Definition keepBest (c : Ctl) : Ctl :=
  mkCtl (cStep c) (cStage c) (iterQuad c) true (sys c) (superSat c) (pathOld c) (sys c) (stat c) (readyOut c) (data c).
(** iterQuad = 0; bestrNorm = 1.0; acceptable = FALSE (849, 1493, 1545, 1583, 1646, 1667) *)
Definition restart (c : Ctl) : Ctl :=
  mkCtl (cStep c) (cStage c) 0 false (best c) (superSat c) (pathOld c) (sys c) (stat c) (readyOut c) (data c).

Definition setFlag (k : Kind) (b : bool) (s : Sys) : Sys :=
  mkSys (setK k b (flag s)) (refNZ s) (path s) (liquid s) (nSol s) (nLiq s) (multi s) (cond s).
Definition setRef (f : Kind -> bool) (s : Sys) : Sys :=
  mkSys (flag s) f (path s) (liquid s) (nSol s) (nLiq s) (multi s) (cond s).
Definition setPath (z : Z) (s : Sys) : Sys :=
  mkSys (flag s) (refNZ s) z (liquid s) (nSol s) (nLiq s) (multi s) (cond s).
Definition setLiquid (b : bool) (s : Sys) : Sys :=
  mkSys (flag s) (refNZ s) (path s) b (nSol s) (nLiq s) (multi s) (cond s).
Definition setNSol (n : nat) (s : Sys) : Sys :=
  mkSys (flag s) (refNZ s) (path s) (liquid s) n (nLiq s) (multi s) (cond s).
Definition setNLiq (n : nat) (s : Sys) : Sys :=
  mkSys (flag s) (refNZ s) (path s) (liquid s) (nSol s) n (multi s) (cond s).

Definition setCond (z : Z) (s : Sys) : Sys :=
  mkSys (flag s) (refNZ s) (path s) (liquid s) (nSol s) (nLiq s) (multi s) z.
Definition withData (z : Z) (c : Ctl) : Ctl :=
  mkCtl (cStep c) (cStage c) (iterQuad c) (acceptable c) (best c) (superSat c) (pathOld c) (sys c) (stat c) (readyOut c) z.

(** "Releasing buffer constraint": 590-594, 833-837, 1483-1487, 1637-1641,
    silmin_support.c 1758-1762; only without liquid. *)
Definition maybeRelease (a : Ans) (s : Sys) : Sys :=
  if negb (path s =? FO2_NONE) && negb (liquid s) && aRelease a then setPath FO2_NONE s else s.

(** isenthalpic && (refEnthalpy != 0.0), and so on *)
Definition active (k : Kind) (s : Sys) : bool := flag s k && refNZ s k.
Definition anyActive (s : Sys) : bool := active KH s || active KS s || active KV s.

(** 860-865: the first stage of a buffered, constrained path. *)
Definition enterStage (c : Ctl) : Ctl :=
  match cStage c with
  | Pre =>
      if negb (path (sys c) =? FO2_NONE) then
        if active KH (sys c) then withSys (setFlag KH false (sys c)) (toStage (Stg KH One) c)
        else if active KS (sys c) then withSys (setFlag KS false (sys c)) (toStage (Stg KS One) c)
        else if active KV (sys c) then withSys (setFlag KV false (sys c)) (toStage (Stg KV One) c)
        else c
      else c
  | _ => c
  end.

(** 1213-1230, jumpFromLinSearch: on convergence go to the next stage. *)
Definition nextStage (c : Ctl) : Ctl :=
  match cStage c, cStep c with
  | Stg k One, CONVERGENCE_TEST =>
      let c := withOld (path (sys c)) c in
      let c := withSys (setFlag k true (setPath FO2_NONE (sys c))) c in
      withIter 0 (goto PROJECT_CONSTRAINTS (toStage (Stg k Two) c))
  | Stg k Two, CONVERGENCE_TEST =>
      let c := withSys (setFlag k false (setPath (pathOld c) (sys c))) c in
      withIter 0 (goto PROJECT_CONSTRAINTS (toStage (Stg k Three) c))
  | Stg k Three, CONVERGENCE_TEST =>
      toStage Pre (withSys (setFlag k true (setPath (pathOld c) (sys c))) c)
  | _, _ => c
  end.

(** One call of silmin(calc_index), 396-2203. The result is the return value
    (true: finished) and the new state. *)
Definition silmin (index : Z) (a : Ans) (c : Ctl) : bool * Ctl :=
  let c := withReady false c in                                     (* 407 *)
  let c := if index =? 0 then goto CHANGE_COMPOSITION c else c in   (* 408 *)
  let s := sys c in
  let hasLiquid := liquid s in                                      (* 401 *)
  match cStep c with
  | CHANGE_COMPOSITION =>                                           (* 491-503; updateBulkADB 1194 *)
      (false, goto CHANGE_TP (withSys (setLiquid (liquid s && aLiquid a) s) c))
  | CHANGE_TP =>                                                    (* 505-632 *)
      let s := if negb (path s =? FO2_NONE) && hasLiquid then setLiquid (aLiquid a) s
               else maybeRelease a s in
      (false, goto CHECK_SATURATION (withData (cond s) (withSys s c)))
  | CHECK_SATURATION =>                                             (* 634-673 *)
      (false, goto ADD_PHASE (withSuper (hasLiquid && aSuper a) c))
  | ADD_PHASE =>                                                    (* 675-851 *)
      if superSat c then
        match aAddFail a with
        | Some z => (true, withSuper false (goto CHANGE_COMPOSITION (toStage Pre (withStat (addCode z) c))))
        | None =>
            let s := if aAddLiquid a then setNLiq 1 (setLiquid true s) else setNSol (S (nSol s)) s in
            (false, goto PROJECT_CONSTRAINTS (restart (withSys (maybeRelease a s) c)))
        end
      else (false, goto PROJECT_CONSTRAINTS (restart c))
  | PROJECT_CONSTRAINTS =>                                          (* 853-894 *)
      (false, goto PRE_QUADRATIC (enterStage c))
  | PRE_QUADRATIC => (false, goto CONSTRUCT_QUADRATIC c)            (* 896-906 *)
  | CONSTRUCT_QUADRATIC =>                                          (* 908-932 *)
      (false, goto SOLVE_QUADRATIC (withIter (iterQuad c + 1) c))
  | SOLVE_QUADRATIC =>                                              (* 934-1023 *)
      let c := if aFull a then (if aRank a then withStat SILMIN_RANK c else c)
               else if anyActive s                  (* silmin_support.c 1729-1995: T moves after the last evaluation *)
               then withData (aEval a) (withSys (setCond (aCond a) (maybeRelease a s)) c) else c in
      (false, goto REASSEMBLE_SOLUTION c)
  | REASSEMBLE_SOLUTION =>                                          (* 1025-1236 *)
      let c := if aBest a then keepBest c else c in
      if aTight a then (false, nextStage (goto CONVERGENCE_TEST c))
      else if ITERMX <? iterQuad c then
        if aLoose a then (false, nextStage (goto CONVERGENCE_TEST c))
        else if acceptable c then (false, nextStage (goto CONVERGENCE_TEST (withSys (best c) c)))
        else (true, goto CHANGE_COMPOSITION (withIter 0 (withStat SILMIN_QUAD_MAX c)))
      else (false, goto LINEAR_SEARCH c)
  | LINEAR_SEARCH =>                                                (* 1238-1422 *)
      let c := match aLin a with Some z => withStat (linCode z) c | None => c end in
      let s' := if anyActive s then setCond (aCond a) s else s in   (* 1312-1358 *)
      let c := if anyActive s then withData (cond s') c else c in   (* 1360-1378 *)
      let c := withSys (setLiquid (hasLiquid && aLiquid a) s') c in
      if (5 <? iterQuad c) && aOptimal a then (false, nextStage (goto CONVERGENCE_TEST c))
      else (false, goto DROP_PHASE c)
  | DROP_PHASE =>                                                   (* 1424-1591 *)
      let c := goto (if anyActive s || negb (path s =? FO2_NONE) then PROJECT_CONSTRAINTS
                     else CONSTRUCT_QUADRATIC) c in
      let d := Nat.min (aDrop a) (nSol s) in
      let c := if Nat.eqb d 0 then c
               else restart (goto PROJECT_CONSTRAINTS (withSys (maybeRelease a (setNSol (nSol s - d) s)) c)) in
      let s := sys c in
      let e := if hasLiquid && multi s && Nat.ltb 1 (nLiq s)
               then Nat.min (aDropLiq a) (nLiq s - 1) else O in
      let c := if Nat.eqb e 0 then c
               else restart (goto PROJECT_CONSTRAINTS (withSys (setNLiq (nLiq s - e) s) c)) in
      let s := sys c in
      let c := if hasLiquid && aLiqGone a
               then restart (goto PROJECT_CONSTRAINTS (withSys (setLiquid false s) c)) else c in
      (false, c)
  | CONVERGENCE_TEST =>                                             (* 1593-1612 *)
      (false, goto VERIFY_SATURATION (withIter 0 (withSys (setLiquid (liquid s && aLiquid a) s) c)))
  | VERIFY_SATURATION =>                                            (* 1614-1682 *)
      if aSuper a then (false, goto ADD_PHASE (withSuper true c))
      else if aCoexSol a then
        (false, restart (goto PROJECT_CONSTRAINTS
                  (withSuper true (withSys (maybeRelease a (setNSol (S (nSol s)) s)) c))))
      else if hasLiquid && multi s && aCoexLiq a then
        (false, restart (goto PROJECT_CONSTRAINTS
                  (withSuper true (withSys (setNLiq (S (nLiq s)) s) c))))
      else (false, goto OUTPUT_RESULTS (withSuper false c))
  | OUTPUT_RESULTS =>                                               (* 1684-1706; read_write.c 1874-1876 *)
      (false, goto UPDATE_SYSTEM (withReady true
                (withSys (setRef (fun k => refNZ s k || flag s k) s) c)))
  | UPDATE_SYSTEM =>                                                (* 1708-2196 *)
      let s := setLiquid (aFracLiq a) (setNSol (aFracSol a) s) in
      (true, goto CHANGE_COMPOSITION (withStat SILMIN_SUCCESS (withSys s c)))
  end.

(** A sequence of calls: the calc_index passed and the answers met. *)
Fixpoint calls (l : list (Z * Ans)) (c : Ctl) : Ctl :=
  match l with
  | [] => c
  | (i, a) :: l => calls l (snd (silmin i a c))
  end.
