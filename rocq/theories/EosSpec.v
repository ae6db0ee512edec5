(** Independent specification of thermodynamic consistency. Nothing here refers to the code. *)
From Coq Require Import Reals Lra.
From Verif Require Import RealTac.
Local Open Scope R_scope.

(** The eleven numbers a standard-state routine returns at one temperature and pressure. *)
Record thermo := mkThermo {
  tG : R; tH : R; tS : R; tCp : R; tdCp : R;
  tV : R; tVt : R; tVp : R; tVtt : R; tVtp : R; tVpp : R }.

(** Energetic part: S = -dG/dT, H = G + T S, Cp = T dS/dT, and the returned dCp/dT. *)
Definition energies_consistent (F : R -> R -> thermo) (t p : R) : Prop :=
  is_derive (fun t => tG (F t p)) t (- tS (F t p))
  /\ tH (F t p) = tG (F t p) + t * tS (F t p)
  /\ is_derive (fun t => tS (F t p)) t (tCp (F t p) / t)
  /\ is_derive (fun t => tH (F t p)) t (tCp (F t p))
  /\ is_derive (fun t => tCp (F t p)) t (tdCp (F t p)).

(** Volumetric part: the five returned volume derivatives are those of V. *)
Definition volumes_consistent (F : R -> R -> thermo) (t p : R) : Prop :=
  is_derive (fun t => tV (F t p)) t (tVt (F t p))
  /\ is_derive (fun p => tV (F t p)) p (tVp (F t p))
  /\ is_derive (fun t => tVt (F t p)) t (tVtt (F t p))
  /\ is_derive (fun p => tVt (F t p)) p (tVtp (F t p))
  /\ is_derive (fun t => tVp (F t p)) t (tVtp (F t p))
  /\ is_derive (fun p => tVp (F t p)) p (tVpp (F t p)).

(** V = dG/dP. *)
Definition volume_is_dGdP (F : R -> R -> thermo) (t p : R) : Prop :=
  is_derive (fun p => tG (F t p)) p (tV (F t p)).

Definition thermo_consistent (F : R -> R -> thermo) (t p : R) : Prop :=
  energies_consistent F t p /\ volumes_consistent F t p /\ volume_is_dGdP F t p.
