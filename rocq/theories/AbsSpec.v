(** What the potentials of an assemblage of solids say about a solid that could form. Independent of the liquid components the
    program goes through. *)
From Coq Require Import Reals List Bool Arith.
From Verif Require Import MassModel.
Open Scope R_scope.

Section Spec.
Variable tab : Tab.
Variables (bulk : nat -> R) (nSolid : nat -> nat) (solComp : nat -> R) (gSol : nat -> R) (mixing : nat -> (nat -> R) -> nat -> R).
(** entry c is a pure phase that is there, or an end member there is some of in a solution that is there *)
Definition present (ph c : nat) : Prop :=
  (ph < npc tab)%nat /\ isPhase tab ph = true /\ nSolid ph <> O /\
  ((na tab ph = 1%nat /\ c = ph) \/ (na tab ph <> 1%nat /\ exists k, (k < na tab ph)%nat /\ c = (ph + 1 + k)%nat /\ solComp c <> 0)).
(** its chemical potential *)
Definition potentialOf (ph c : nat) : R :=
  if Nat.eqb (na tab ph) 1 then gSol ph else gSol c + mixing ph (fun k => solComp (ph + 1 + k)%nat) (c - ph - 1).
(** psi are potentials of the oxides all solids agree with *)
Definition inEquilibrium (psi : nat -> R) : Prop := forall ph c, present ph c -> potentialOf ph c = sum (nc tab) (fun o => solToOx tab c o * psi o).
(** entry c can be made out of the end members that are there, e c' moles of each *)
Definition madeOf (c : nat) (e : nat -> R) : Prop :=
  (forall c', (c' < npc tab)%nat -> e c' <> 0 -> exists ph, present ph c') /\
  forall o, (o < nc tab)%nat -> solToOx tab c o = sum (npc tab) (fun c' => e c' * solToOx tab c' o).
(** the energy of making a mole of it: negative if the assemblage is not stable against it *)
Definition affinity (psi : nat -> R) (c : nat) : R := gSol c - sum (nc tab) (fun o => solToOx tab c o * psi o).
(** a component of the liquid all of whose oxides are in the system *)
Definition available (k : nat) : Prop := forall o, (o < nc tab)%nat -> liqToOx tab k o <> 0 -> bulk o <> 0.
(** the solids that are there are written with such components *)
Definition expressible : Prop := forall ph c k, present ph c -> (k < nlc tab)%nat -> solToLiq tab c k <> 0 -> available k.
End Spec.
