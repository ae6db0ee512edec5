(** Model of the potentials of the liquid that the saturation test uses in a system without liquid.

    Source: sources/evaluate_saturation.c 210-301.

    Simplifications: real numbers; solids[].activity(SECOND) after convert(SECOND, THIRD) is a function of the moles of the first
    instance of a phase; gsl_linalg_SV_decomp gives some factors, and where it refuses (fewer rows than columns: with
    gsl_set_error_handler_off, silmin.c 483 (run by the same call of silmin() as the
    test at 1616; the library's own getSaturationState leaves the handler alone and would abort), it returns having written nothing) the matrix stays and S and V are what
    gsl_vector_alloc and gsl_matrix_alloc found in memory. *)
From Coq Require Import Reals List Bool Arith.
From Verif Require Import MassModel SubModel SatModel.
Import ListNotations.
Open Scope R_scope.

Section Absent.
Variable tab : Tab.
Variable bulk : nat -> R.          (* silminState->bulkComp *)
Variable nSolid : nat -> nat.      (* nSolidCoexist *)
Variable solComp : nat -> R.       (* solidComp[i][0] *)
Variable gSol : nat -> R.          (* solids[i].cur.g *)
Variable mixing : nat -> (nat -> R) -> nat -> R.

Definition isZero (x : R) : bool := if Req_EM_T x 0 then true else false.
(** 251, 262, 291: nonZero *)
Definition allowed (k : nat) : bool := forallb (fun o => negb (isZero (bulk o) && negb (isZero (liqToOx tab k o)))) (seq 0 (nc tab)).
Definition columns : list nat := filter allowed (seq 0 (nlc tab)).
(** 222-242: the end members that are there, with the phase *)
Definition rowsOf (i : nat) : list (nat * nat) :=
  if isPhase tab i && negb (Nat.eqb (nSolid i) 0) then
    if Nat.eqb (na tab i) 1 then [(i, i)] else map (fun c => (i, c)) (filter (fun c => negb (isZero (solComp c))) (map (fun k => (i + 1 + k)%nat) (seq 0 (na tab i))))
  else [].
Definition rows : list (nat * nat) := flat_map rowsOf (seq 0 (npc tab)).
Definition rowAt (r : nat) : nat * nat := nth r rows (0%nat, 0%nat).
(** 226, 236 *)
Definition potential (ic : nat * nat) : R :=
  let (i, c) := ic in if Nat.eqb (na tab i) 1 then gSol i else gSol c + mixing i (fun k => solComp (i + 1 + k)%nat) (c - i - 1).
(** 244-273 *)
Definition matrix (r l : nat) : R := solToLiq tab (snd (rowAt r)) (nth l columns 0%nat).
(** 284-286; [left] is what is in memory, [f] the factors found *)
Definition factors (f left : Svd) : Svd :=
  if Nat.ltb (length rows) (length columns) then mkSvd matrix (svS left) (svV left) else f.
Definition solution (f left : Svd) : nat -> R :=
  let d := factors f left in svSolve (length rows) (length columns) (svU d) (svS d) (svV d) (fun r => potential (rowAt r)).
(** 288-298 *)
Definition muAbsent (f left : Svd) (k : nat) : R := if allowed k then solution f left (length (filter allowed (seq 0 k))) else 0.
Definition liquidComp (k : nat) : R := if allowed k then 1 else 0.
(** the saturation test goes on with these *)
Definition given (x : SatIn) (f left : Svd) : Prop :=
  liquidThere x = false /\ muRaw x = muAbsent f left /\ amounts x = liquidComp /\ SatModel.gSol x = gSol.
End Absent.
