(** What the theorems on potentials of phases with ordering parameters assume
    of the region in addition to [ordered] (OrdSpec.v), independently of
    their proofs. *)
From Coq Require Import Reals NArith List Arith.
From Coquelicot Require Import Coquelicot.
From Verif Require Import Sym SolnModel SolnSpec LaSpec OrdLimits OrdModel OrdSpec.
Local Open Scope R_scope.

(** the region is open, and the state that is found is continuous, along every continuous path of compositions *)
Definition follows (ph : ordPhase) (sv : R -> R -> (nat -> R) -> nat -> R) (D : R -> R -> (nat -> R) -> Prop) : Prop :=
  forall t p (rr : R -> nat -> R) y0, D t p (rr y0) ->
  (forall j, filterlim (fun y => rr y j) (locally y0) (locally (rr y0 j))) ->
  locally y0 (fun y => D t p (rr y))
  /\ forall k, (k < o_ns ph)%nat -> filterlim (fun y => sv t p (rr y) k) (locally y0) (locally (sv t p (rr y0) k)).
