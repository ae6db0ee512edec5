(** Specification vocabulary for the test for a second instance of a solid solution. *)
From Coq Require Import Reals List.
From Coquelicot Require Import Coquelicot.
From Verif Require Import MassModel CoexSolModel.
Import List ListNotations.
Open Scope R_scope.
Section Spec.
Variable X : Solid.
Notation total := (sum (sNa X)).
(** the Gibbs energy of m_i moles of the end-members, for standard potentials mu0 *)
Definition gibbsS (mu0 : nat -> R) (t p : R) (m : nat -> R) : R :=
  sum (sNa X) (fun i => m i * mu0 i) + total m * sG X t p (sR X m).
Definition gibbs_allS (mu0 : nat -> R) (t p : R) (ms : list (nat -> R)) : R := fold_right (fun m g => gibbsS mu0 t p m + g) 0 ms.
(** an amount of the solution that the program accepts *)
Definition admissible (m : nat -> R) : Prop := 0 < total m /\ sTest X (sR X m) = true.
(** no division of it into two instances of the phase has a lower total energy *)
Definition stableS (mu0 : nat -> R) (t p : R) (m : nat -> R) : Prop :=
  forall part rest : nat -> R, admissible part -> admissible rest -> (forall i, (i < sNa X)%nat -> part i + rest i = m i) ->
    gibbsS mu0 t p m <= gibbsS mu0 t p part + gibbsS mu0 t p rest.
(** The composition variables are linear combinations of the mole fractions, and the mole fractions are determined by them:
    A and x; the functions of the phase see no other variables *)
Record linearOK (A : nat -> nat -> R) (x : (nat -> R) -> nat -> R) : Prop := mkLinear {
  lin_r : forall m i, (i < sNr X)%nat -> 0 < total m -> sR X m i = sum (sNa X) (fun k => A i k * m k) / total m;
  lin_one : forall r, total (x r) = 1;
  lin_back : forall r i, (i < sNr X)%nat -> sum (sNa X) (fun k => A i k * x r k) = r i;
  lin_test : forall r r', (forall i, (i < sNr X)%nat -> r i = r' i) -> sTest X r = sTest X r';
  lin_G : forall t p r r', (forall i, (i < sNr X)%nat -> r i = r' i) -> sG X t p r = sG X t p r' }.
(** at composition r the energy of mixing has the derivative that the gradient says in every direction, and the compositions
    around r are accepted *)
Definition interior (t p : R) (r : nat -> R) : Prop :=
  forall d : nat -> R,
    is_derive (fun y => sG X t p (fun i => r i + y * d i)) 0 (sum (sNr X) (fun i => sGx X t p r i * d i)) /\
    locally 0 (fun y => sTest X (fun i => r i + y * d i) = true).
End Spec.
(** the amount of end-member i in all instances *)
Definition amountS (ms : list (nat -> R)) (i : nat) : R := fold_right (fun m s => m i + s) 0 ms.
