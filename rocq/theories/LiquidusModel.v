(** Model of the search for the liquidus temperature and of the search for the wet liquidus.

    Sources: sources/liquidus.c liquidus 127-342 (the version compiled with BATCH_VERSION), findWetLiquidus 346-415,
    src/melts_interface.cpp MeltsInterface::Liquidus 846-875, WetLiquidus 877-905.

    Simplifications: doubles are real numbers; the end-member tables filled by gibbs() are represented by the
    temperature they were computed for ([tabT]); evaluateSaturationState (modelled in SatModel.v) and getlog10fo2
    (Fo2Model.v) and the equilibration silmin() (SilminModel.v) are parameters here, so that the theorems hold whatever
    they answer; the redistribution of iron is [redoxLiquid] of MassModel.v with conLiq as in RedoxModel.v; messages on
    the terminal are left out. *)
From Coq Require Import Reals List Bool Arith ZArith.
From Verif Require Import MassModel RedoxModel.
Import ListNotations.
Local Open Scope R_scope.

(** includes/status.h 25-43 *)
Definition LIQUIDUS_SUCCESS : Z := 0.
Definition LIQUIDUS_MAX_T : Z := 1.
Definition LIQUIDUS_MIN_T : Z := 2.
Definition LIQUIDUS_MULTIPLE : Z := 4.
Definition SILMIN_SUCCESS : Z := 5.
Definition LIQUIDUS_SILMIN_ERROR : Z := 15.

(** liquidus.c 133-135: enum steps, values 0 to 3 *)
Inductive LStep : Type := CHECK_CONDITION | CHANGE_TP | CHECK_SATURATION | UPDATE_SYSTEM.

(** The part of the system the search reads or writes: T, fo2, solidMass, the matter, and the temperature for which the
    tables liquid[].cur, solids[].cur and oxygen.cur hold *)
Record LSys : Type := mkLSys { matter : St; T : R; fo2 : R; solidMass : R; tabT : R }.
(** liquidus.c 136-138, the static variables: [None] is tState < 0; and meltsStatus.status *)
Record LCtl : Type := mkLCtl { curStep : LStep; hasSuper : bool; tState : option bool; tInterval : R; status : Z }.
Definition LState : Type := (LCtl * LSys)%type.

Definition setStep (s : LStep) (c : LCtl) : LCtl := mkLCtl s (hasSuper c) (tState c) (tInterval c) (status c).
Definition setT (x : R) (y : LSys) : LSys := mkLSys (matter y) x (fo2 y) (solidMass y) (tabT y).

Section Search.
Variable tab : Tab.
(** the liquid model of RedoxModel.v *)
Variable coeff : nat -> R.
Variables iF2 iF3 : nat.
Variable capped : bool.
(** silminState->P, and getlog10fo2(., P, fo2Path) *)
Variable P : R.
Variable buffer : R -> R.
(** evaluateSaturationState: reads the tables (computed for the first temperature), T, fo2 and the matter *)
Variable saturated : R -> R -> R -> St -> bool.

(** 213-216, the condition *)
Definition unfit (y : LSys) : bool :=
  (if Rlt_dec 0 (solidMass y) then true else false) || Nat.ltb 1 (nLiq (matter y)).

(** 237-270 (the X11 parts left out): the tables are computed for T, and on a buffer the iron of the liquid is
    redistributed to the oxygen fugacity of the buffer at T *)
Definition changeTP (y : LSys) : LSys :=
  if fo2On (matter y)
  then let f := buffer (T y) in
       mkLSys (redoxLiquid tab (toRedox tab coeff iF2 iF3 capped (T y) P f) 0 (matter y)) (T y) f (solidMass y) (T y)
  else mkLSys (matter y) (T y) (fo2 y) (solidMass y) (T y).

(** 276-291: one saturation test; the answer *)
Definition testSat (y : LSys) : bool := saturated (tabT y) (T y) (fo2 y) (matter y).

(** 293-338 *)
Definition updateSystem (c : LCtl) (y : LSys) : LState * bool :=
  match tState c with
  | None =>
      let int := if hasSuper c then 50 else - (50) in
      let y := setT (T y + int) y in
      let c := mkLCtl (curStep c) (hasSuper c) (Some (hasSuper c)) int (status c) in
      if Rlt_dec 2500 (T y) then ((mkLCtl (curStep c) (hasSuper c) (tState c) (tInterval c) LIQUIDUS_MAX_T, y), true)
      else if Rlt_dec (T y) 500 then ((mkLCtl (curStep c) (hasSuper c) (tState c) (tInterval c) LIQUIDUS_MIN_T, y), true)
      else ((setStep CHECK_CONDITION c, y), false)
  | Some s =>
      let c := if Bool.eqb s (hasSuper c) then c
               else mkLCtl (curStep c) (hasSuper c) (Some (hasSuper c)) (tInterval c * - (1 / 2)) (status c) in
      if Rlt_dec (1 / 10) (Rabs (tInterval c)) then ((setStep CHECK_CONDITION c, setT (T y + tInterval c) y), false)
      else ((mkLCtl CHECK_CONDITION (hasSuper c) None (tInterval c) LIQUIDUS_SUCCESS, y), true)
  end.

(** one call of liquidus(); the answer TRUE means that the search is over *)
Definition liquidus (s : LState) : LState * bool :=
  let (c, y) := s in
  match curStep c with
  | CHECK_CONDITION =>
      if unfit y then ((mkLCtl CHECK_CONDITION (hasSuper c) (tState c) (tInterval c) LIQUIDUS_MULTIPLE, y), true)
      else ((setStep CHANGE_TP c, y), false)
  | CHANGE_TP => ((setStep CHECK_SATURATION c, changeTP y), false)
  | CHECK_SATURATION => ((mkLCtl UPDATE_SYSTEM (testSat y) (tState c) (tInterval c) (status c), y), false)
  | UPDATE_SYSTEM => updateSystem c y
  end.

(** the saturation tests made by a call: temperature, matter, answer *)
Definition tests (s : LState) : list (R * St * bool) :=
  match curStep (fst s) with CHECK_SATURATION => [(T (snd s), matter (snd s), testSat (snd s))] | _ => [] end.

(** while (!liquidus()); with the saturation tests made, in order *)
Inductive search : LState -> list (R * St * bool) -> LState -> Prop :=
| search_end s s' : liquidus s = (s', true) -> search s (tests s) s'
| search_go s s' l s'' : liquidus s = (s', false) -> search s' l s'' -> search s (tests s ++ l) s''.

(** the state at program start: curStep = 0, tState = -1 *)
Definition startCtl (st : Z) : LCtl := mkLCtl CHECK_CONDITION false None 0 st.

End Search.
