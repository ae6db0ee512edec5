(** What it means for a minimisation step to go downhill, and for a state to be at equilibrium. *)
From Coq Require Import Reals List Bool Arith.
From Coquelicot Require Import Coquelicot.
From Verif Require Import MassModel StepModel HessModel HessSpec.
Import List ListNotations.
Open Scope R_scope.

(** the Gibbs energy of a solution has the derivative its gradient says along every straight line of amounts that leaves
    absent components absent *)
Definition directional (X : Mixing) (n : nat) (D : (nat -> R) -> Prop) (t p : R) : Prop :=
  forall m z : nat -> R, D m -> (forall k, (k < n)%nat -> m k = 0 -> z k = 0) ->
    is_derive (fun y => xG X t p (xR X (fun k => m k + y * z k))) 0
      (sum (xNr X) (fun i => xGx X t p (xR X m) i * sum n (fun k => xDr X m i k * z k))).

(** a state with y times z added to the amounts *)
Definition along (z : Var -> R) (y : R) (s : St) : St :=
  setSolC (fun m ns => solC s m ns + y * z (VSol m ns)) (setLiqC (fun nl j => liqC s nl j + y * z (VLiq nl j)) s).

Section Redistribution.
Variable tab : Tab.
Variable s : St.
Notation vs := (conVars tab (hasLiquid s) s).
(** a redistribution of matter among the components that are present: nothing else changes, and no oxide of the system
    gains or loses *)
Definition redistribution (z : Var -> R) : Prop :=
  (forall v, ~ In v vs -> z v = 0) /\
  forall o, (o < nc tab)%nat -> bulk s o <> 0 -> fold_right (fun v x => coefOx tab v o * z v + x) 0 vs = 0.
End Redistribution.
