(** Specification vocabulary for sources/nash.c. *)
From Coq Require Import Reals Arith.
From Verif Require Import LaSpec.
Local Open Scope R_scope.
(** a symmetric matrix stored by the rows of its lower triangle: entry (i, j), j <= i, at i (i+1) / 2 + j *)
Definition stored (a : vec) (i j : nat) : R := if (j <=? i)%nat then a (i * (i + 1) / 2 + j)%nat else a (j * (j + 1) / 2 + i)%nat.
(** a lower triangular matrix in the same storage *)
Definition storedLower (a : vec) (i j : nat) : R := if (j <=? i)%nat then a (i * (i + 1) / 2 + j)%nat else 0.
Definition positive_definite (n : nat) (A : mat) : Prop :=
  forall x : vec, (exists i, (i < n)%nat /\ x i <> 0) -> 0 < sum n (fun i => sum n (fun j => x i * A i j * x j)).
(** least squares: a residual that cannot be computed is None *)
Definition value (o : option R) : R := match o with Some y => y | None => 0 end.
Definition all_computable (m : nat) (r : nat -> vec -> option R) (x : vec) : Prop := forall i, (i < m)%nat -> r i x <> None.
Definition sum_of_squares (m : nat) (r : nat -> vec -> option R) (x : vec) : R := sum m (fun i => value (r i x) * value (r i x)).
(** the matrix J^T J + lam (diag (J^T J) + I) and the vector J^T r *)
Definition damped_normal (m : nat) (J : nat -> vec) (lam : R) (i l : nat) : R :=
  sum m (fun k => J k i * J k l) + (if Nat.eqb i l then lam * (sum m (fun k => J k i * J k i) + 1) else 0).
Definition half_gradient (m : nat) (J : nat -> vec) (r : nat -> R) (i : nat) : R := sum m (fun k => J k i * r k).
(** every coordinate of x and y differs by at most (less than) d *)
Definition within (n : nat) (d : R) (x y : vec) : Prop := forall i, (i < n)%nat -> Rabs (x i - y i) <= d.
