(** Model of the choice of a version and of the list of suppressed phases in the graphical program:
    src/melts_interface.cpp 109-151 (InitializeMelts), 236-267 (SetSuppressedPhases, ClearSuppressedPhases), 907-914
    (GetPhaseNames, also in PlotModel.v); src/imgui_opengl_melts_version.cpp 377-380 (ClearLists), 424-437 (the Version menu),
    516-535 (after a file is loaded), 1062-1098 (the Suppress menu).  The run state behind it (160-233) is elsewhere; of it
    only incSolids is kept, by phase number. *)
From Coq Require Import List Arith Bool ZArith.
Import ListNotations.
From Verif Require Import InitModel PlotModel.

(** *** the version *)
(** 118-137: which tables a version uses; None leaves the pointers as they were *)
Definition tablesOf (v : Z) : option Mode :=
  if Z.eqb v 1 then Some mode_melts
  else if Z.eqb v 3 || Z.eqb v 4 then Some mode_meltsFluid
  else if Z.eqb v 2 then Some mode_pMelts
  else None.
Section Names.
(** 109-151.  A name is given as the pair (version of the table, row); [name m i] is the label of row i *)
Variable A : Type.
Variable name : Mode -> nat -> A.
Record Names : Type := mkNames { nVer : Z; nCalc : Z; nTab : Mode; nVec : list A; nMap : list (nat * A) }.
Definition initialize (v : Z) (s : Names) : Names :=
  let ver := if Z.ltb 4 v || Z.ltb v 1 then 1%Z else v in
  let t := match tablesOf ver with Some m => m | None => nTab s end in
  mkNames ver v t (getPhaseNames (name t) (phaseTypes t) (nVec s)) (map (fun i => (i, name t i)) (phaseRows (phaseTypes t))).
Definition fresh : Names := mkNames 0 0 mode_xMelts [] [].
End Names.

(** *** the suppressed phases *)
(** 241-251: [chosen i] says that the map holds key i; j counts phases *)
Fixpoint setSuppressed (types : list bool) (i j : nat) (chosen : nat -> bool) (inc : nat -> bool) : nat -> bool :=
  match types with
  | [] => inc
  | b :: ts => if b then setSuppressed ts (S i) (S j) chosen (fun q => if Nat.eqb q j then negb (chosen i) else inc q)
               else setSuppressed ts (S i) j chosen inc
  end.
(** 261-266 *)
Fixpoint clearSuppressed (types : list bool) (j : nat) (inc : nat -> bool) : nat -> bool :=
  match types with
  | [] => inc
  | b :: ts => if b then clearSuppressed ts (S j) (fun q => if Nat.eqb q j then true else inc q) else clearSuppressed ts j inc
  end.
(** imgui_opengl.hpp 75: m_Suppressed has 42 places; the walk over the map (in the order of its keys) counts from 0.
    None: a place that is not there *)
Definition places : nat := 42.
Fixpoint selection (rows : list nat) (cnt : nat) (sel : nat -> bool) : option (list nat) :=
  match rows with
  | [] => Some []
  | p :: r => if Nat.leb places cnt then None
              else match selection r (S cnt) sel with
                   | None => None
                   | Some l => Some (if sel cnt then p :: l else l)
                   end
  end.
(** the Suppress button: 1074-1082 *)
Definition suppress (types : list bool) (sel inc : nat -> bool) : option (nat -> bool) :=
  match selection (phaseRows types) 0 sel with
  | None => None
  | Some l => Some (setSuppressed types 0 0 (fun i => existsb (Nat.eqb i) l) inc)
  end.
(** 516-525: what a loaded file has switched off is ticked, on a cleared list *)
Fixpoint tick (types : list bool) (j : nat) (inc sel : nat -> bool) : option (nat -> bool) :=
  match types with
  | [] => Some sel
  | b :: ts =>
      if b then (if inc j then tick ts (S j) inc sel
                 else if Nat.leb places j then None
                 else tick ts (S j) inc (fun q => if Nat.eqb q j then true else sel q))
      else tick ts j inc sel
  end.
(** 481, 516-535 *)
Definition afterLoad (types : list bool) (inc : nat -> bool) : option ((nat -> bool) * (nat -> bool)) :=
  match tick types 0 inc (fun _ => false) with
  | None => None
  | Some sel => match suppress types sel inc with None => None | Some inc' => Some (sel, inc') end
  end.
