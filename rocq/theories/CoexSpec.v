(** Specification vocabulary for the test for a second liquid. *)
From Coq Require Import Reals List.
From Verif Require Import MassModel LiqModel.
Import ListNotations.
Open Scope R_scope.
Section Spec.
Variable n : nat.
Variables WH WS WV : nat -> nat -> R.
(** the Gibbs energy of a liquid of m_i moles of component i, for standard potentials mu0: the number of moles times the
    energy of mixing per mole, and the pure components *)
Definition gibbs (mu0 : nat -> R) (t p : R) (m : nat -> R) : R :=
  sum (S n) (fun i => m i * mu0 i) + sum (S n) m * gmix n WH WS WV t p (rOf n m).
Definition gibbs_all (mu0 : nat -> R) (t p : R) (ms : list (nat -> R)) : R :=
  fold_right (fun m g => gibbs mu0 t p m + g) 0 ms.
(** a liquid that has silica and no negative amount *)
Definition proper_liquid (m : nat -> R) : Prop := (forall i, (i < S n)%nat -> 0 <= m i) /\ 0 < m O.
(** no part of it can leave and form another liquid with a lower total energy *)
Definition stable (mu0 : nat -> R) (t p : R) (m : nat -> R) : Prop :=
  forall part : nat -> R, (forall i, (i < S n)%nat -> 0 <= part i <= m i) ->
    gibbs mu0 t p m <= gibbs mu0 t p (fun i => m i - part i) + gibbs mu0 t p part.
(** the amount of component i in all liquids *)
Definition amount (ms : list (nat -> R)) (i : nat) : R := fold_right (fun m s => m i + s) 0 ms.
End Spec.
