(** The fifteen solutions without ordering: their mole fractions are linear in the composition variables. *)
From Coq Require Import Reals QArith Qreals ZArith NArith Arith List Lia Lra Bool.
From Coquelicot Require Import Coquelicot.
From Verif Require Import RealTac LaSpec OrdLimits Sym SymNorm SymPath SolnModel SolnSpec ConData ConProofs SolnData SolnProofs SolnProps CoexSolModel CoexSolPhase HhModel EstModel EstProofs EstProps EstNull.
From Verif Require MassModel LaBase NashModel.
Import List ListNotations.
Local Open Scope R_scope.
Local Open Scope nat_scope.
Local Open Scope R_scope.
Definition xvarsIn (ph : phase) : bool := forallb (varsIn vsk (ph_nr ph + 2)) (cv_xr (ph_con ph)).
Lemma phases_xvars : forallb xvarsIn phases = true. Proof. vm_compute. reflexivity. Qed.
(** mole fractions from the composition variables *)
Definition fractions (ph : phase) (r : nat -> R) (i : nat) : R := denote [] (rpt r) (nth1 (cv_xr (ph_con ph)) i).
Lemma fractions_ext ph : In ph phases -> forall r r' i, (forall j, (j < ph_nr ph)%nat -> r j = r' j) -> fractions ph r i = fractions ph r' i.
Proof.
  intros I r r' i E. unfold fractions. apply (varsIn_denote [] (ph_nr ph + 2)); [reflexivity| |].
  - pose proof phases_xvars as H. rewrite forallb_forall in H. specialize (H ph I). unfold xvarsIn in H. rewrite forallb_forall in H.
    unfold nth1. destruct (nth_in_or_default i (cv_xr (ph_con ph)) zero) as [Q|Q]; [exact (H _ Q)|]. rewrite Q. reflexivity.
  - intros k Hk. unfold rpt, vsk. destruct (N.ltb_spec (N.of_nat k) 2) as [L|L]; [reflexivity|]. apply E. lia.
Qed.
Section Ph.
Variable ph : phase.
Hypothesis I : In ph phases.
Notation c := (ph_con ph). Notation na := (ph_na ph). Notation nr := (ph_nr ph).
Lemma of_one m i : LaSpec.sum na m = 1 -> (i < na)%nat -> fractions ph (fun j => con_r c j m) i = m i.
Proof.
  intros S Hi. destruct (phase_wf ph I) as ((Ea & Er) & C). unfold fractions. assert (S' : total (cv_na c) m = 1) by (rewrite Ea; exact S).
  rewrite (xr_of_r c C m i) by (rewrite ?Ea; try exact Hi; rewrite <- Ea; rewrite S'; lra). rewrite S'. field.
Qed.
Lemma sum_fr r : LaSpec.sum na (fractions ph r) = 1.
Proof. destruct (phase_wf ph I) as ((Ea & Er) & C). rewrite <- Ea. exact (xr_sum c C r). Qed.
Lemma r_fr r j : (j < nr)%nat -> LaSpec.sum na (fun k => Q2R (coef c j k) * fractions ph r k) = r j.
Proof. intro Hj. destruct (phase_wf ph I) as ((Ea & Er) & C). rewrite <- Ea. rewrite <- Er in Hj. exact (r_of_xr c C r j Hj). Qed.
(** from mole fractions with sum 1 to the composition variables and back *)
Lemma fr_of m r i : LaSpec.sum na m = 1 -> (forall j, (j < nr)%nat -> LaSpec.sum na (fun k => Q2R (coef c j k) * m k) = r j) -> (i < na)%nat -> fractions ph r i = m i.
Proof.
  intros S E Hi. rewrite <- (of_one m i S Hi). apply fractions_ext; [exact I|]. intros j Hj. rewrite <- E by exact Hj.
  destruct (phase_wf ph I) as ((Ea & Er) & C). rewrite <- Er in Hj. assert (S' : total (cv_na c) m = 1) by (rewrite Ea; exact S).
  rewrite (con_r_lin c C m j) by (try exact Hj; rewrite S'; lra). rewrite S', Ea. change SolnSpec.sumTo with LaSpec.sum. field.
Qed.
(** the change of the mole fractions for one unit of variable j *)
Definition slope (r : nat -> R) (i j : nat) : R := fractions ph (fun q => if (q =? j)%nat then r q + 1 else r q) i - fractions ph r i.
Lemma sum_indicator n (f : nat -> R) j : (j < n)%nat -> LaSpec.sum n (fun q => (if (q =? j)%nat then 1 else 0) * f q) = f j.
Proof. intro Hj. rewrite (LaBase.sum_ext n _ (fun q => if (q =? j)%nat then f q else 0)) by (intros q Hq; destruct (q =? j)%nat; ring). apply LaBase.sum_one. exact Hj. Qed.
Lemma slope_sum r r' i : (i < na)%nat -> fractions ph r' i - fractions ph r i = LaSpec.sum nr (fun j => slope r i j * (r' j - r j)).
Proof.
  intro Hi. rewrite (fr_of (fun k => fractions ph r k + LaSpec.sum nr (fun j => slope r k j * (r' j - r j))) r' i); [ring| | |exact Hi].
  - rewrite LaBase.sum_plus, sum_fr, LaBase.sum_swap. rewrite (LaBase.sum_ext nr _ (fun _ => 0)); [rewrite LaBase.sum_0; [ring|reflexivity]|].
    intros j Hj. rewrite (LaBase.sum_ext na _ (fun k => (r' j - r j) * slope r k j)) by (intros; ring). rewrite LaBase.sum_scal. unfold slope.
    rewrite (LaBase.sum_ext na _ (fun k => fractions ph (fun q => if (q =? j)%nat then r q + 1 else r q) k + -1 * fractions ph r k)) by (intros; ring). rewrite LaBase.sum_plus, LaBase.sum_scal, !sum_fr. ring.
  - intros q Hq. rewrite (LaBase.sum_ext na _ (fun k => Q2R (coef c q k) * fractions ph r k + LaSpec.sum nr (fun j => (r' j - r j) * (Q2R (coef c q k) * slope r k j)))).
    2:{ intros k Hk. rewrite Rmult_plus_distr_l. f_equal. rewrite <- LaBase.sum_scal. apply LaBase.sum_ext. intros. ring. }
    rewrite LaBase.sum_plus, (r_fr r q Hq), LaBase.sum_swap.
    rewrite (LaBase.sum_ext nr _ (fun j => (if (j =? q)%nat then 1 else 0) * (r' j - r j))).
    { rewrite (sum_indicator nr (fun j => r' j - r j) q Hq). ring. }
    intros j Hj. rewrite LaBase.sum_scal. rewrite Rmult_comm. f_equal. unfold slope.
    rewrite (LaBase.sum_ext na _ (fun k => Q2R (coef c q k) * fractions ph (fun q => if (q =? j)%nat then r q + 1 else r q) k + -1 * (Q2R (coef c q k) * fractions ph r k))) by (intros; ring).
    rewrite LaBase.sum_plus, LaBase.sum_scal, !r_fr by exact Hq. rewrite (Nat.eqb_sym j q). destruct (q =? j)%nat; ring.
Qed.
Lemma slope_dr r i j : (i < na)%nat -> (j < nr)%nat -> slope r i j = con_dr c i j r.
Proof.
  intros Hi Hj. destruct (phase_wf ph I) as ((Ea & Er) & C). pose proof (xr_partial c C r i j ltac:(lia) ltac:(lia)) as D. unfold partialM in D.
  apply (is_derive_unique (fun y => fractions ph (SolnSpec.upd r j y) i) (r j)) in D. rewrite <- D. symmetry. apply is_derive_unique.
  apply (is_derive_ext (fun y => fractions ph r i + slope r i j * (y - r j))).
  - intro y. assert (E : fractions ph (SolnSpec.upd r j y) i - fractions ph r i = slope r i j * (y - r j)); [|change (@eq R (fractions ph r i + slope r i j * (y - r j)) (fractions ph (SolnSpec.upd r j y) i)); lra].
    rewrite slope_sum by exact Hi. rewrite (LaBase.sum_ext nr _ (fun q => (if (q =? j)%nat then 1 else 0) * (slope r i q * (y - r q)))).
    + apply sum_indicator. exact Hj.
    + intros q Hq. unfold SolnSpec.upd. destruct (Nat.eqb_spec q j) as [E|E]; [subst q; ring|ring].
  - auto_derive; [exact Logic.I|]. ring.
Qed.
End Ph.
Theorem phases_affine ph test : In ph phases -> affine (solidOf ph test) (fractions ph).
Proof.
  intro I. constructor; cbn [solidOf sNa sNr sR sDx].
  - intros m i S Hi. exact (of_one ph I m i S Hi).
  - intros r r' i Hi. rewrite (slope_sum ph I r r' i Hi). apply LaBase.sum_ext. intros j Hj. rewrite (slope_dr ph I r i j Hi Hj). reflexivity.
Qed.
(** C163 for the fifteen solutions *)
Theorem C163_phases_excluded : forall ph, In ph phases -> forall test act dact hess rq t p h0 F0 zeroX muIn r a,
  getAffinity (solidOf ph test) act dact hess rq t p h0 F0 zeroX muIn (Success r a) -> forall i, (i < ph_na ph)%nat -> zeroX i = true ->
  Rabs (fractions ph r i) <= LaSpec.sum (ph_nr ph) (fun j => Rabs (con_dr (ph_con ph) i j (guessR (solidOf ph test) t zeroX muIn))) * ((INR (ph_nr ph) + 1) * (10 * NashModel.dblEps)).
Proof.
  intros ph I test act dact hess rq t p h0 F0 zeroX muIn r a G i Hi Zi.
  exact (C163_excluded_absent (solidOf ph test) act dact hess rq t p h0 F0 zeroX muIn (fractions ph) (phases_affine ph test I) r a G i Hi Zi).
Qed.
