(** C178 with the standard states of gibbs() in place. *)
From Coq Require Import Reals Bool Arith Lia Lra.
From Coquelicot Require Import Coquelicot.
From Verif Require Import RealTac MassModel ReportModel QryModel QrySpec QryProps QryTable EosSpec EosModel EosProofs EosProps.
From Verif Require SolnModel SolnData SolnProofs.
From Coq Require Import List. Import ListNotations.
Local Open Scope R_scope.

(** cur of includes/silmin.h ThermoData in the order of the report *)
Definition curOf (F : R -> R -> thermo) (q : nat) (t p : R) : R :=
  match q with
  | 0%nat => tG (F t p) | 1%nat => tH (F t p) | 2%nat => tS (F t p) | 3%nat => tV (F t p) | 4%nat => tCp (F t p) | 5%nat => tdCp (F t p)
  | 6%nat => tVt (F t p) | 7%nat => tVp (F t p) | 8%nat => tVtt (F t p) | 9%nat => tVtp (F t p) | _ => tVpp (F t p) end.
Lemma curOf_consistent F t p : thermo_consistent F t p -> QrySpec.consistent (curOf F) t p.
Proof.
  intros ((E1 & E2 & E3 & E4 & E5) & (V1 & V2 & V3 & V4 & V5 & V6) & G). constructor; unfold curOf; try assumption. rewrite E2. ring.
Qed.
Section Eos.
Variables (tab : Tab) (oxToElm : nat -> nat -> R) (liq : Soln).
(** a pure mineral with the Berman equation of state, Berman or Saxena heat capacity *)
Theorem C178_mineral h0 s0 m e mw failure grams a mem t p : 0 < t -> smooth_at m t ->
  QrySpec.consistent (inJoules (reported tab oxToElm liq (Pure mw (curOf (solid_berman h0 s0 m e))) failure grams a mem)) t p.
Proof. intros T S. apply C178_pure. apply curOf_consistent. now apply C09_solid_berman_consistent. Qed.
(** a solution of such end members *)
Theorem C178_mineral_solution ph f (h0 s0 : nat -> R) m e failure grams a mem t p : In ph SolnData.phases ->
  SolnProofs.feasible ph t p (fun j => SolnModel.con_r (SolnModel.ph_con ph) j (f (elements tab oxToElm grams))) ->
  (forall i, (i < SolnModel.ph_na ph)%nat -> smooth_at (m i) t) ->
  QrySpec.consistent (inJoules (reported tab oxToElm liq (Solution (solution ph f (fun i => curOf (solid_berman (h0 i) (s0 i) (m i) (e i))))) failure grams a mem)) t p.
Proof.
  intros I F S. apply (C178_solution tab oxToElm ph f _ liq failure t p grams a mem I F). intros i L. apply curOf_consistent. apply C09_solid_berman_consistent; [exact (proj1 F)|auto].
Qed.
End Eos.
