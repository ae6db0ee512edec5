(** What the solution-model theorems speak about, independently of the model:
    partial derivatives of functions of temperature, pressure and composition. *)
From Coq Require Import Reals List Arith.
From Coquelicot Require Import Coquelicot.
Local Open Scope R_scope.

(** composition with entry i replaced *)
Definition upd (r : nat -> R) (i : nat) (y : R) : nat -> R := fun j => if Nat.eqb j i then y else r j.

(** d is the partial derivative of F at (t, p, r) with respect to t, p, r_i *)
Definition partialT (F : R -> R -> (nat -> R) -> R) t p r (d : R) : Prop := is_derive (fun y => F y p r) t d.
Definition partialP (F : R -> R -> (nat -> R) -> R) t p r (d : R) : Prop := is_derive (fun y => F t y r) p d.
Definition partialX (i : nat) (F : R -> R -> (nat -> R) -> R) t p r (d : R) : Prop :=
  is_derive (fun y => F t p (upd r i y)) (r i) d.
(** d is the partial derivative of F at m with respect to m_i *)
Definition partialM (i : nat) (F : (nat -> R) -> R) m (d : R) : Prop :=
  is_derive (fun y => F (upd m i y)) (m i) d.

Fixpoint sumTo (n : nat) (f : nat -> R) : R := match n with O => 0 | S n' => sumTo n' f + f n' end.
