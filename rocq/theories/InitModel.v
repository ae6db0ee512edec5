(** InitComputeDataStruct, sources/melts_support.c:265-500: the tables that
    convert between solids, liquid components and oxides, computed from the
    chemical formulas.

    Simplifications: real arithmetic; the solver (gsl SV_decomp + SV_solve) is
    any routine that returns a solution of the normal equations it is given,
    so a table is described by what its entries satisfy ([initialised]); the
    entries for the liquid's species beyond the first nlc are left out. The
    loop that counts the components of the last phase reads one row past the
    table before checking j<npc (line 310); here the table simply ends. *)
From Coq Require Import Reals Lia Lra Bool Arith Ascii String List ZArith QArith Qcanon Qreals.
From Verif Require Import Str Num Tables ElemTable FormulaModel FormulaProps MassModel.
Import List ListNotations.
Local Open Scope R_scope.

Definition QR (q : Qc) : R := Q2R (this q).

(** ne, melts_support.c:249; elements[0] is a dummy. *)
Definition NE : nat := S (length real_elems).

(** 284-315: stoich is zeroed, then formulaToMwStoich is called; its answer for
    a text it rejects is weight 0 and whatever it left in the vector. *)
Definition parsed (f : string) : Qc * (nat -> Qc) :=
  match formulaToMwStoich real_elems atofQ (lit f) zero_st with
  | Done mw g => (mw, g)
  | Fail g => (Q2Qc 0, g)
  | _ => (Q2Qc 0, zero_st)
  end.
Definition elemRow (f : string) : list Qc := let g := snd (parsed f) in map g (seq 0 NE).
Definition getV (v : list Qc) (k : nat) : Qc := nth k v (Q2Qc 0).
Definition getM (m : list (list Qc)) (i k : nat) : Qc := getV (nth i m []) k.

(** the four shipped variants: bulkSystem, the first nlc liquid components,
    solids (liq_struct_data.h:521, 832, 1158, 1540; sources/interface.c:649-667) *)
Record Mode : Type := mkMode { mLiq : list string; mSol : list (string * bool * string) }.
Definition mode_xMelts : Mode := mkMode (firstn (length tbl_xMeltsLiquid - 1) tbl_xMeltsLiquid) tbl_xMeltsSolids.
Definition mode_melts : Mode := mkMode tbl_meltsLiquid tbl_meltsSolids.
Definition mode_meltsFluid : Mode := mkMode (firstn (length tbl_meltsFluidLiquid - 1) tbl_meltsFluidLiquid) tbl_meltsFluidSolids.
Definition mode_pMelts : Mode := mkMode tbl_pMeltsLiquid tbl_pMeltsSolids.
Definition modes : list Mode := [mode_xMelts; mode_melts; mode_meltsFluid; mode_pMelts].

(** the matrices O, L and S of 273-320 *)
Definition Om : list (list Qc) := map elemRow tbl_bulk.
Definition Lm (m : Mode) : list (list Qc) := map elemRow (mLiq m).
Definition Sm (m : Mode) : list (list Qc) := map (fun e => elemRow (snd e)) (mSol m).
Definition oxE (o k : nat) : R := QR (getM Om o k).
Definition liqE (m : Mode) (j k : nat) : R := QR (getM (Lm m) j k).
Definition solE (m : Mode) (c k : nat) : R := QR (getM (Sm m) c k).

(** 308-313: solids[i].na *)
Fixpoint components (l : list bool) : nat :=
  match l with false :: l' => S (components l') | _ => O end.
Definition naOf (types : list bool) (i : nat) : nat := Nat.max (components (skipn (S i) types)) 1.

(** 340-396, 430-497: (A At) x = A b, then entries below sqrt(TAU) are zeroed *)
Definition normalSolution (n : nat) (A : nat -> nat -> R) (b x : nat -> R) : Prop :=
  forall i, (i < n)%nat ->
    sum n (fun j => sum NE (fun k => A i k * A j k) * x j) = sum NE (fun k => A i k * b k).
Definition clean (x : R) : R := if Rlt_dec (Rabs x) (sqrt DBL_EPSILON) then 0 else x.
Definition solved (n : nat) (A : nat -> nat -> R) (b entry : nat -> R) : Prop :=
  exists x, normalSolution n A b x /\ forall i, (i < n)%nat -> entry i = clean (x i).

Definition phaseTypes (m : Mode) : list bool := map (fun e => snd (fst e)) (mSol m).
(** index of oxygen in the element table (322-325) *)
Definition atNumO : nat := 8.

Record initialised (m : Mode) (t : Tab) : Prop := {
  in_nlc : nlc t = length (mLiq m);
  in_npc : npc t = length (mSol m);
  in_nc : nc t = length tbl_bulk;
  in_type : forall i, (i < npc t)%nat -> isPhase t i = nth i (phaseTypes m) false;
  in_na : forall i, (i < npc t)%nat -> isPhase t i = true -> na t i = naOf (phaseTypes m) i;
  in_liqToOx : forall j, (j < nlc t)%nat -> solved (nc t) oxE (liqE m j) (liqToOx t j);
  in_solToOx : forall c, (c < npc t)%nat -> solved (nc t) oxE (solE m c) (solToOx t c);
  in_oxToLiq : forall o, (o < nc t)%nat -> solved (nlc t) (liqE m) (oxE o) (oxToLiq t o);
  in_solToLiq : forall c, (c < npc t)%nat -> solved (nlc t) (liqE m) (solE m c) (solToLiq t c);
  in_smw : forall c, (c < npc t)%nat -> smw t c = QR (fst (parsed (snd (nth c (mSol m) (""%string, false, ""%string)))));
  in_omw : forall o, (o < nc t)%nat -> omw t o = QR (fst (parsed (nth o tbl_bulk ""%string)));
  in_o2Sol : forall c, (c < npc t)%nat -> o2Sol t c = solE m c atNumO / 2;
  in_o2Liq : forall j, (j < nlc t)%nat -> o2Liq t j = liqE m j atNumO / 2
}.
