(** What the oxygen potential of an assemblage of solids is, and what a singular value decomposition is. Independent of the
    reaction the program looks for. *)
From Coq Require Import Reals List Bool Arith.
From Verif Require Import MassModel SubModel.
Import ListNotations.
Open Scope R_scope.

(** A = U S V^T with orthonormal columns, and no singular value that is neither zero nor clear of it *)
Definition orthonormal (rows n : nat) (U : nat -> nat -> R) : Prop :=
  forall k l, (k < n)%nat -> (l < n)%nat -> sum rows (fun i => U i k * U i l) = if Nat.eqb k l then 1 else 0.
Record svdOf (rows n : nat) (A : nat -> nat -> R) (f : Svd) : Prop := mkSvdOf {
  svd_eq : forall i j, (i < rows)%nat -> (j < n)%nat -> A i j = sum n (fun k => svU f i k * svS f k * svV f j k);
  svd_U : orthonormal rows n (svU f);
  svd_V : orthonormal n n (svV f);
  svd_S : forall k, (k < n)%nat -> svS f k = 0 \/ 1 / 100000000 <= svS f k }.

Section Assemblage.
Variable tab : Tab.
(** the places of FeO and Fe2O3 among the oxides *)
Variables feo fe2o3 : nat.

(** a component of a solid that is there: a phase of one component, or a component of instance k of a solution *)
Definition present (s : St) (i k : nat) : Prop :=
  exists ph, (ph < npc tab)%nat /\ (0 < nSol s ph)%nat /\
    ((na tab ph = 1%nat /\ i = ph /\ k = O) \/
     (na tab ph <> 1%nat /\ (k < nSol s ph)%nat /\ exists j, (j < na tab ph)%nat /\ i = (ph + 1 + j)%nat /\ solC s i k <> 0)).

(** how much of an oxide a reaction with coefficients e makes; e is zero for what is not there *)
Definition made (s : St) (e : nat -> nat -> R) (o : nat) : R :=
  sum (npc tab) (fun ph =>
    if Nat.eqb (na tab ph) 1 then (if Nat.eqb (nSol s ph) 0 then 0 else e ph O * solToOx tab ph o)
    else sum (nSol s ph) (fun k => sum (na tab ph) (fun j => e (ph + 1 + j)%nat k * solToOx tab (ph + 1 + j)%nat o))).
(** O2 + 4 FeO = 2 Fe2O3, written with the solids *)
Definition oxidises (s : St) (e : nat -> nat -> R) : Prop :=
  (forall i k, ~ present s i k -> e i k = 0) /\
  forall o, (o < nc tab)%nat -> made s e o = (if Nat.eqb o fe2o3 then 2 else 0) - (if Nat.eqb o feo then 4 else 0).

Variable dat : Data.
Variables t p : R.
(** the chemical potential of a component *)
Definition potentialOf (s : St) (i k : nat) : R :=
  dG dat i t p + (if isPhase tab i then 0 else
    let j := phaseOf tab i in Rgas * t * ln (dAct dat j t p (fun c => solC s (j + 1 + c)%nat k) (i - j - 1)%nat)).
(** the solids are in equilibrium with each other: there are potentials psi of the oxides that all of them agree with *)
Definition inEquilibrium (psi : nat -> R) (s : St) : Prop :=
  forall i k, present s i k -> potentialOf s i k = sum (nc tab) (fun o => solToOx tab i o * psi o).
(** the potential of O2, from its standard state, that goes with them *)
Definition oxygenPotential (psi : nat -> R) : R := 2 * psi fe2o3 - 4 * psi feo - dO2 dat t p.
(** no activity is below the least number the program works with *)
Definition measurable (s : St) : Prop :=
  forall i k, present s i k -> isPhase tab i = false ->
    1 / 10 ^ 16 <= dAct dat (phaseOf tab i) t p (fun c => solC s (phaseOf tab i + 1 + c)%nat k) (i - phaseOf tab i - 1)%nat.

(** a state that makes sense: phases are phases and their components follow them, what is there has an amount, and an oxide
    that the solids contain is in the bulk composition *)
Record sensible (s : St) : Prop := mkSensible {
  sn_phase : forall ph, (ph < npc tab)%nat -> (0 < nSol s ph)%nat ->
      isPhase tab ph = true /\ (1 <= na tab ph)%nat /\ (na tab ph <> 1%nat -> forall j, (j < na tab ph)%nat -> isPhase tab (ph + 1 + j)%nat = false);
  sn_pure : forall ph, (ph < npc tab)%nat -> (0 < nSol s ph)%nat -> na tab ph = 1%nat -> solC s ph O <> 0;
  sn_bulk : forall i k o, present s i k -> (o < nc tab)%nat -> bulk s o = 0 -> solToOx tab i o = 0 }.
End Assemblage.

(** what earlier calls, on whatever assemblages, at whatever conditions and for whatever purpose, may leave behind *)
Inductive Reached (tab : Tab) (feo : nat) : option Cache -> Prop :=
| Reached_none : Reached tab feo None
| Reached_first dat t p c s f : Reached tab feo c -> sensible tab s -> svdOf (svRows tab s) (colsN tab s) (svMat tab s) f ->
    Reached tab feo (snd (muFirst tab (fun o => Nat.eqb o feo) dat t p c s f))
| Reached_buffer dat t p c s f target b c' s' : Reached tab feo c -> sensible tab s -> svdOf (svRows tab s) (colsN tab s) (svMat tab s) f ->
    Buffer tab (fun o => Nat.eqb o feo) dat t p c target s f b c' s' -> Reached tab feo c'.
(** the tables: FeO and Fe2O3 are two oxides of the system *)
Definition ironTable (tab : Tab) (feo fe2o3 : nat) : Prop :=
  feo <> fe2o3 /\ (feo < nc tab)%nat /\ (fe2o3 < nc tab)%nat /\ forall o, isFe2O3 tab o = Nat.eqb o fe2o3.
