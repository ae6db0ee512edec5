(** Model of the object through which the graphical program uses MAGMA, and of the batch reader on top of it: entering
    a composition, normalising it, setting its iron to an oxygen buffer, choosing the model, the kind of run and the
    oxygen constraint.

    Sources: src/melts_interface.cpp InitializeMelts 109-157, CreateSilminState 165-240, SetMode 288-312,
    SetInitialTP 320-339, SetFO2Path 341-353, SetFO2Offset 355-367, SetComposition 369-417, Normalize 92-107,
    RedistributeFeOx 610-641.

    Simplifications: doubles are real numbers; the results of a division by zero (Normalize) are [NotNumbers]; the
    engine's state is [SupplyModel.Node], the same cells as in library.c; the oxygen total is written as SetComposition
    writes it. Other fields of SilminState are absent, as none of these functions reads them. *)
From Coq Require Import Reals Arith Bool ZArith.
From Verif Require Import MassModel RedoxModel Fo2Model SupplyModel.
Open Scope R_scope.

(** The object (include/melts_interface.hpp 840-880), the settings it writes into its SilminState, and whether the global
    pointer [silminState] is set ([engineOn]): 809, 848, 878 set it for the duration of a calculation, 833, 841, 859,
    889 set it back to NULL, and it starts as NULL. *)
Record Obj : Type := mkObj {
  node : Node;
  entered : nat -> R;           (* m_Composition, 20 entries *)
  total : R;                    (* m_Total *)
  compSet : bool; tpSet : bool; (* m_CompositionSet, m_ParametersSet *)
  normSave : bool;              (* m_NormalizeOnSave *)
  temp : R; press : R;          (* T (kelvin), P (bar) *)
  fo2Path : Z; fo2Delta : R;
  isH : bool; isS : bool; isV : bool;
  version : Z;                  (* m_MeltsVersion *)
  calcMode : Z;                 (* the global calculationMode *)
  tables : option nat;          (* the tables liquid/solids point at, by the number of the mode *)
  engineOn : bool
}.

Inductive Answer : Type :=
| Refused (ob : Obj)            (* false; the object as it was *)
| Accepted (ob : Obj)           (* true *)
| NotNumbers.                   (* divisions 0/0: the composition is no longer made of numbers *)

(** ** Choosing the model *)
(** 109-139: the four modes the tables are assigned for *)
Definition tablesOf (v : Z) : option nat :=
  match v with 1%Z => Some 1%nat | 3%Z => Some 3%nat | 4%Z => Some 3%nat | 2%Z => Some 2%nat | _ => None end.
(** CreateSilminState 165-240 (allocSilminStatePointer zeroes its cells, silmin_support.c 330-357) *)
Definition emptyNode : Node :=
  mkNode (mkSt false 1 (fun _ _ => 0) (fun _ => O) (fun _ _ => 0) (fun _ => 0) (fun _ _ => 0) (fun _ => 0) 0 0 false) 0.
Definition createState (ob : Obj) : Obj :=
  mkObj emptyNode (fun _ => 0) (total ob) false false (normSave ob) 0 0 0 0 false false false
        (version ob) (calcMode ob) (tables ob) (engineOn ob).
(** 109-157 *)
Definition initializeMelts (v : Z) (ob : Obj) : Obj :=
  let ver := if (Z.ltb 4 v || Z.ltb v 1)%bool then 1%Z else v in
  createState (mkObj (node ob) (entered ob) (total ob) (compSet ob) (tpSet ob) (normSave ob) (temp ob) (press ob)
                     (fo2Path ob) (fo2Delta ob) (isH ob) (isS ob) (isV ob) ver v (tablesOf ver) (engineOn ob)).

(** ** Settings *)
(** 288-312 *)
Definition withMode (h s v : bool) (ob : Obj) : Obj :=
  mkObj (node ob) (entered ob) (total ob) (compSet ob) (tpSet ob) (normSave ob) (temp ob) (press ob)
        (fo2Path ob) (fo2Delta ob) h s v (version ob) (calcMode ob) (tables ob) (engineOn ob).
Definition setMode (k : Z) (ob : Obj) : Answer :=
  Accepted match k with
           | 0%Z => withMode false false false ob
           | 1%Z => withMode true false false ob
           | 2%Z => withMode false true false ob
           | 3%Z => withMode false false true ob
           | _ => withMode false false false ob
           end.
(** 320-339 *)
Definition setInitialTP (t p : R) (ob : Obj) : Answer :=
  Accepted (mkObj (node ob) (entered ob) (total ob) (compSet ob) true (normSave ob) (t + 273.15) p
        (fo2Path ob) (fo2Delta ob) (isH ob) (isS ob) (isV ob) (version ob) (calcMode ob) (tables ob) (engineOn ob)).
(** 341-353; fo2On of the state is fo2Path != FO2_NONE *)
Definition setFO2Path (k : Z) (ob : Obj) : Answer :=
  if (Z.ltb k 0 || Z.ltb 19 k)%bool then Refused ob
  else
    let s := matter (node ob) in
    let s := mkSt (hasLiquid s) (nLiq s) (liqC s) (nSol s) (solC s) (bulk s) (fracS s) (fracL s) (fracMass s) (oxy s)
                  (negb (Z.eqb k 0)) in
    Accepted (mkObj (mkNode s (liquidMass (node ob))) (entered ob) (total ob) (compSet ob) (tpSet ob) (normSave ob)
        (temp ob) (press ob) k (fo2Delta ob) (isH ob) (isS ob) (isV ob) (version ob) (calcMode ob) (tables ob) (engineOn ob)).
(** 355-367 *)
Definition setFO2Offset (d : R) (ob : Obj) : Answer :=
  if (Z.ltb (fo2Path ob) 0 || Z.ltb 19 (fo2Path ob) || Z.eqb (fo2Path ob) 0)%bool then Refused ob
  else Accepted (mkObj (node ob) (entered ob) (total ob) (compSet ob) (tpSet ob) (normSave ob) (temp ob) (press ob)
        (fo2Path ob) d (isH ob) (isS ob) (isV ob) (version ob) (calcMode ob) (tables ob) (engineOn ob)).

Section Iface.
Variable tab : Tab.
(** for the conversion of iron: see RedoxModel.v *)
Variable coeff : nat -> R.
Variables iF2 iF3 : nat.
Variable capped : bool.

(** ** Entering a composition: 369-417 *)
Definition setComposition (c : nat -> R) (ob : Obj) : Obj :=
  let tot := loop 20 (fun i x => x + c i) 0 in
  let n := node ob in
  (* 402-417: the same statements as library.c 2360-2372 *)
  let n := supplyFresh tab c n in
  mkObj n c tot true (tpSet ob) (normSave ob) (temp ob) (press ob) (fo2Path ob) (fo2Delta ob) (isH ob) (isS ob) (isV ob)
        (version ob) (calcMode ob) (tables ob) (engineOn ob).

(** 92-107 *)
Definition normalize (ob : Obj) : Answer :=
  if negb (compSet ob) then Refused ob
  else if normSave ob then
    let s := loop 20 (fun i x => x + entered ob i) 0 in
    if Req_EM_T s 0 then NotNumbers
    else Accepted (setComposition (fun i => entered ob i / s * 100) ob)
  else Accepted ob.

(** ** Iron set to the buffer: 610-641. The argument [buffer] is not used. getlog10fo2 (gibbs.c 244-263) takes the offset
    from the global silminState, and 0 when that is NULL (246). *)
Definition bufferValue (ob : Obj) : R :=
  log10fo2 (if engineOn ob then fo2Delta ob else 0) (temp ob) (press ob) (fo2Path ob).
Definition redistribute (buffer : Z) (ob : Obj) : Answer :=
  if negb (compSet ob) then Refused ob
  else if (Z.ltb (fo2Path ob) 1 || Z.ltb 19 (fo2Path ob))%bool then Refused ob
  else if Req_EM_T (press ob) 0 then Refused ob
  else if Req_EM_T (temp ob) 0 then Refused ob
  else
    let lf := bufferValue ob in
    let moles := fun j => entered ob j / omw tab j in
    let moles := toRedox tab coeff iF2 iF3 capped (temp ob) (press ob) lf moles in
    let c := fun j => if Nat.ltb j (nc tab) then moles j * omw tab j else entered ob j in
    let tot := loop (nc tab) (fun j x => x + moles j * omw tab j) 0 in
    let c := if normSave ob then if Req_EM_T tot 0 then c else fun j => c j / tot * 100 else c in
    Accepted (setComposition c ob).
End Iface.
