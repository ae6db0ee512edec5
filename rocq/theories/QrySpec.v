(** What the theorems about the property queries speak about. *)
From Coq Require Import Reals List Arith.
From Coquelicot Require Import Coquelicot.
From Verif Require Import MassModel QryModel.
Open Scope R_scope.

(** The eleven reported numbers are in the order G, H, S, V, Cp, dCp/dT, dV/dT, dV/dP, d2V/dT2, d2V/dTdP, d2V/dP2;
    volumes are in cc where energies are in joules: one joule per bar is ten cc. *)
Definition isVolume (q : nat) : bool := match q with 3%nat | 6%nat | 7%nat | 8%nat | 9%nat | 10%nat => true | _ => false end.
Definition inJoules (f : nat -> R -> R -> R) (q : nat) (t p : R) : R := if isVolume q then f q t p / 10 else f q t p.

(** The eleven functions of temperature and pressure belong together at (t, p): each is the derivative of the Gibbs energy
    that its name says. *)
Record consistent (f : nat -> R -> R -> R) (t p : R) : Prop := mkConsistent {
  cGHS : f 0%nat t p = f 1%nat t p - t * f 2%nat t p;
  cS : is_derive (fun t => f 0%nat t p) t (- f 2%nat t p);
  cV : is_derive (fun p => f 0%nat t p) p (f 3%nat t p);
  cCp : is_derive (fun t => f 2%nat t p) t (f 4%nat t p / t);
  cCpt : is_derive (fun t => f 4%nat t p) t (f 5%nat t p);
  cVt : is_derive (fun t => f 3%nat t p) t (f 6%nat t p);
  cVp : is_derive (fun p => f 3%nat t p) p (f 7%nat t p);
  cVtt : is_derive (fun t => f 6%nat t p) t (f 8%nat t p);
  cVtp : is_derive (fun p => f 6%nat t p) p (f 9%nat t p);
  cVpp : is_derive (fun p => f 7%nat t p) p (f 10%nat t p) }.

(** what a caller reads in cell c of the array at address a after the call *)
Definition cell (mem : Mem) (a c : nat) : R := mem a c.

(** the composition of a system of grams scaled *)
Definition times (k : R) (f : nat -> R) : nat -> R := fun i => k * f i.

(** A conversion from elements to components keeps proportions *)
Definition proportional (f : (nat -> R) -> nat -> R) : Prop := forall k e e' i, 0 < k -> (forall z, e' z = k * e z) -> f e' i = k * f e i.

(** The mixing properties and potentials of a solution depend on the proportions of its components only *)
Definition scaleFree (s : Soln) : Prop :=
  forall k m m', 0 < k -> 0 < sum (sNa s) m -> (forall i, m' i = k * m i) ->
    (forall q t p, sMix s q t p (sR s m') = sMix s q t p (sR s m)) /\ (forall i t p, (i < sNa s)%nat -> sMu s t p (sR s m') i = sMu s t p (sR s m) i).
