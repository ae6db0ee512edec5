(** Sums, norms and matrix products for the statements about the linear
    algebra routines. Vectors are functions nat -> R, of which a stated number
    of entries matters; a matrix is a function of row and column. *)
From Coq Require Import Reals Arith.
Local Open Scope R_scope.
Notation vec := (nat -> R) (only parsing).
Notation mat := (nat -> nat -> R) (only parsing).
Fixpoint sum (n : nat) (f : nat -> R) : R := match n with O => 0 | S n' => sum n' f + f n' end.
Definition dot (n : nat) (u v : nat -> R) : R := sum n (fun i => u i * v i).
Definition norm2 (n : nat) (u : nat -> R) : R := dot n u u.
(** (A x)_i for a matrix with n columns *)
Definition apply (n : nat) (A : nat -> nat -> R) (x : nat -> R) : nat -> R := fun i => sum n (fun j => A i j * x j).
(** squared length of A x - b, with m rows and n columns *)
Definition residual2 (m n : nat) (A : nat -> nat -> R) (x b : nat -> R) : R := norm2 m (fun i => apply n A x i - b i).
Definition column (A : nat -> nat -> R) (j : nat) : nat -> R := fun i => A i j.
(** x makes A x - b as short as any vector of length n does *)
Definition least_squares (m n : nat) (A : nat -> nat -> R) (b x : nat -> R) : Prop :=
  forall z, residual2 m n A x b <= residual2 m n A z b.
(** and among all such vectors it is a shortest one *)
Definition shortest_least_squares (m n : nat) (A : nat -> nat -> R) (b x : nat -> R) : Prop :=
  least_squares m n A b x /\ forall z, least_squares m n A b z -> norm2 n x <= norm2 n z.
(** the first rows rows of C are linearly independent *)
Definition independent (rows cols : nat) (C : nat -> nat -> R) : Prop :=
  forall u : nat -> R, (forall j, (j < cols)%nat -> sum rows (fun i => u i * C i j) = 0) -> forall i, (i < rows)%nat -> u i = 0.
