(** Tactics for real-analysis goals. No model content. *)
From Coq Require Import Reals Lra.
From Coquelicot Require Export Coquelicot.
Local Open Scope R_scope.

(** decimal literals are [Q2R] terms; turn them into quotients of integers *)
Ltac dec := unfold Q2R in *; cbn [QArith_base.Qnum QArith_base.Qden] in *.

Lemma is_derive_eq (f : R -> R) (x l l' : R) : is_derive f x l -> @eq R l l' -> is_derive f x l'.
Proof. intros H <-. exact H. Qed.

(** two functions that agree near x have the same derivative at x *)
Lemma is_derive_near (f g : R -> R) x l (eps : posreal) :
  (forall y, Rabs (y - x) < eps -> f y = g y) -> is_derive g x l -> is_derive f x l.
Proof.
  intros H D. apply is_derive_ext_loc with g; [|exact D].
  exists eps. intros y Hy. symmetry. apply H. exact Hy.
Qed.

(** split conjunctions only at the surface (is_derive is itself a conjunction after unfolding) *)
Ltac csplit := repeat match goal with |- _ /\ _ => split end.
