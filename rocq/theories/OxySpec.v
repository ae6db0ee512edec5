(** What is minimised when the oxygen fugacity is held on a buffer, and what a consistent oxygen potential is. Independent of
    the filling loops. *)
From Coq Require Import Reals List Bool Arith.
From Coquelicot Require Import Coquelicot.
From Verif Require Import MassModel StepModel HessModel HessSpec OxyModel.
Import List ListNotations.
Open Scope R_scope.

Section Oxygen.
Variable tab : Tab.
(** moles of O2 to the mole of a liquid component, of a solid component *)
Variable nuL : nat -> R.
Variable nuS : nat -> R.
(** moles of oxygen in a liquid or solid phase, and in the system *)
Definition oxygenIn (n : nat) (nu m : nat -> R) : R := sum n (fun i => nu i * m i).
Definition oxygen (s : St) : R :=
  sum (nLiq s) (fun nl => oxygenIn (nlc tab) nuL (liqC s nl))
  + sum (npc tab) (fun i => sum (nSol s i) (fun n =>
      if Nat.eqb (na tab i) 1 then nuS i * solC s i n
      else oxygenIn (na tab i) (fun j => nuS (i + 1 + j)%nat) (fun j => solC s (i + 1 + j)%nat n))).

Variable liqX : Mixing.
Variable liqStd : nat -> Std.
Variable solX : nat -> Mixing.
Variable solStd : nat -> Std.
(** the energy less that of the oxygen, at the chemical potential the liquid gives it *)
Definition openPotential (md : Mode) (mu : R -> R -> (nat -> R) -> R) (t p : R) (s : St) : R :=
  potential tab liqX liqStd solX solStd md true t p s - oxygen s * mu t p (liqC s O).
End Oxygen.

(** an oxygen potential whose derivatives are the ones given, for liquids of n components with amounts in D *)
Record oxyOK (ol : OxyL) (n : nat) (D : (nat -> R) -> Prop) : Prop := mkOxyOK {
  oOpen : forall m k, D m -> there n m k -> locally (m k) (fun x => D (upd m k x));
  oD1 : forall t p m k, 0 < t -> D m -> there n m k -> is_derive (fun x => oMu ol t p (upd m k x)) (m k) (oM ol t p m k);
  oD2 : forall t p m j k, 0 < t -> D m -> there n m j -> there n m k -> is_derive (fun x => oM ol t p (upd m k x) j) (m k) (oMM ol t p m j k);
  oDp : forall t p m, 0 < t -> D m -> is_derive (fun p => oMu ol t p m) p (oP ol t p m);
  oDpp : forall t p m, 0 < t -> D m -> is_derive (fun p => oP ol t p m) p (oPP ol t p m);
  oDmp : forall t p m k, 0 < t -> D m -> there n m k -> is_derive (fun x => oP ol t p (upd m k x)) (m k) (oMP ol t p m k) }.
