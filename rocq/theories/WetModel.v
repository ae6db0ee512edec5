(** Model of the search for the wet liquidus: equilibrate with the fluid only, search for the liquidus, repeat.

    Source: sources/liquidus.c findWetLiquidus 346-415.

    Simplifications: as in LiquidusModel.v; the equilibration while(!silmin(-1)) is a parameter [equilibrate] that
    gets the list of phases allowed and the system and answers the system and a status (it may change anything in the
    system but the list of phases); the saturation test gets the list of phases too. The list oldIncSolids has one
    entry for each phase, [nPhases] of them; the two labels searched for are answered by [isFluid] of the number of the
    phase. *)
From Coq Require Import Reals List Bool Arith ZArith.
From Verif Require Import MassModel RedoxModel LiquidusModel.
Import ListNotations.
Local Open Scope R_scope.

(** includes/status.h 41: GENERIC_INTERNAL_ERROR *)
Definition GENERIC_INTERNAL_ERROR : Z := 14.

(** the search under way, the list incSolids, and dspTstart, dspTstop, dspTinc *)
Record WState : Type := mkW { wctl : LCtl; wsys : LSys; inc : nat -> bool; dStart : R; dStop : R; dInc : R }.
Definition setStatus (z : Z) (c : LCtl) : LCtl := mkLCtl (curStep c) (hasSuper c) (tState c) (tInterval c) z.
Definition noSolids (y : LSys) : LSys := mkLSys (matter y) (T y) (fo2 y) 0 (tabT y).

Section Wet.
Variable tab : Tab.
Variable coeff : nat -> R.
Variables iF2 iF3 : nat.
Variable capped : bool.
Variable P : R.
Variable buffer : R -> R.
Variable saturated : (nat -> bool) -> R -> R -> R -> St -> bool.
Variable equilibrate : (nat -> bool) -> LSys -> LSys * Z.
Variable nPhases : nat.
Variable isFluid : nat -> bool.

(** 362-368 *)
Definition fluidOnly (f : nat -> bool) : nat -> bool := fun j => if Nat.ltb j nPhases then isFluid j else f j.
(** 384-388 *)
Definition restored (old f : nat -> bool) : nat -> bool := fun j => if Nat.ltb j nPhases then old j else f j.

(** 360-403, the do loop from the iteration counter [it]; the answer is the counter after the loop and the state *)
Inductive wetLoop : nat -> WState -> nat -> WState -> Prop :=
| wet_silmin it w y1 st :                                    (* 378-382: break *)
    equilibrate (fluidOnly (inc w)) (wsys w) = (y1, st) -> st <> SILMIN_SUCCESS ->
    wetLoop it w it (mkW (setStatus LIQUIDUS_SILMIN_ERROR (wctl w)) y1 (fluidOnly (inc w)) (T (wsys w)) (T (wsys w)) 0)
| wet_liquidus it w y1 l c2 y2 :                             (* 392-395: break *)
    equilibrate (fluidOnly (inc w)) (wsys w) = (y1, SILMIN_SUCCESS) ->
    let inc' := restored (inc w) (fluidOnly (inc w)) in
    search tab coeff iF2 iF3 capped P buffer (saturated inc') (setStatus SILMIN_SUCCESS (wctl w), noSolids y1) l (c2, y2) ->
    status c2 <> LIQUIDUS_SUCCESS ->
    wetLoop it w it (mkW c2 y2 inc' (T (wsys w)) (T (wsys w)) 0)
| wet_end it w y1 l c2 y2 :                                  (* 397-401, the loop ends *)
    equilibrate (fluidOnly (inc w)) (wsys w) = (y1, SILMIN_SUCCESS) ->
    let inc' := restored (inc w) (fluidOnly (inc w)) in
    search tab coeff iF2 iF3 capped P buffer (saturated inc') (setStatus SILMIN_SUCCESS (wctl w), noSolids y1) l (c2, y2) ->
    status c2 = LIQUIDUS_SUCCESS ->
    ~ (1 / 2 < Rabs (T (wsys w) - T y2) /\ (S it < 50)%nat) ->
    wetLoop it w (S it) (mkW c2 y2 inc' (T y2) (T y2) 0)
| wet_again it w y1 l c2 y2 it' w' :                         (* 397-401, and again *)
    equilibrate (fluidOnly (inc w)) (wsys w) = (y1, SILMIN_SUCCESS) ->
    let inc' := restored (inc w) (fluidOnly (inc w)) in
    search tab coeff iF2 iF3 capped P buffer (saturated inc') (setStatus SILMIN_SUCCESS (wctl w), noSolids y1) l (c2, y2) ->
    status c2 = LIQUIDUS_SUCCESS ->
    1 / 2 < Rabs (T (wsys w) - T y2) /\ (S it < 50)%nat ->
    wetLoop (S it) (mkW c2 y2 inc' (T y2) (T y2) 0) it' w' ->
    wetLoop it w it' w'.

(** 346-415; the answer is the variable failure *)
Inductive findWetLiquidus : WState -> WState -> bool -> Prop :=
| wet_refused w : unfit (wsys w) = true ->
    findWetLiquidus w (mkW (setStatus LIQUIDUS_MULTIPLE (wctl w)) (wsys w) (inc w) (dStart w) (dStop w) (dInc w)) true
| wet_failed w w' : unfit (wsys w) = false -> wetLoop 0 w 50 w' ->
    findWetLiquidus w (mkW (setStatus GENERIC_INTERNAL_ERROR (wctl w')) (wsys w') (inc w') (dStart w) (dStop w) (dInc w)) true
| wet_found w it w' : unfit (wsys w) = false -> wetLoop 0 w it w' -> it <> 50%nat ->
    findWetLiquidus w (mkW (wctl w') (wsys w') (inc w') (dStart w') (dStop w') (dInc w)) false.
End Wet.
