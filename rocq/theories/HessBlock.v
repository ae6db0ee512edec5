(** The block of a solution and of a pure solid, in the four modes. *)
From Coq Require Import Reals List Lia Lra Bool Arith FunctionalExtensionality.
From Coquelicot Require Import Coquelicot.
From Verif Require Import MassModel MassProofs RealTac StepModel HessModel HessFill HessGen HessSpec HessPhase.
Import List ListNotations.
Open Scope R_scope.

(** the variable of the last row and column *)
Definition tauOf (md : Mode) (t p : R) : R := match md with Isochoric => p | _ => t end.
Definition atT (md : Mode) (t tau : R) : R := match md with Isochoric => t | _ => tau end.
Definition atP (md : Mode) (p tau : R) : R := match md with Isochoric => tau | _ => p end.
Lemma at_tau md t p : atT md t (tauOf md t p) = t /\ atP md p (tauOf md t p) = p.
Proof. destruct md; auto. Qed.

Section Pot.
Variable md : Mode.
Definition mixPot (n : nat) (X : Mixing) (std : nat -> Std) (t p : R) (m : nat -> R) : R :=
  let T := fun (F : Mixing -> R -> R -> (nat -> R) -> R) (q : Std -> R -> R -> R) => mixTotal n (xR X) (F X t p) (fun j => q (std j) t p) m in
  match md with Plain => T xG stG | Isenthalpic => - T xS stS | Isentropic => T xG stG + t * T xS stS | Isochoric => T xG stG - p * T xV stV end.
Definition purePot (q : Std) (t p : R) (x : R) : R :=
  match md with Plain => x * stG q t p | Isenthalpic => - (x * stS q t p) | Isentropic => x * stG q t p + t * (x * stS q t p) | Isochoric => x * stG q t p - p * (x * stV q t p) end.

(** per mole *)
Definition Fc (X : Mixing) (t p : R) (r : nat -> R) : R :=
  match md with Plain => xG X t p r | Isenthalpic => - xS X t p r | Isentropic => xG X t p r + t * xS X t p r | Isochoric => xG X t p r - p * xV X t p r end.
Definition qc (q : Std) (t p : R) : R :=
  match md with Plain => stG q t p | Isenthalpic => - stS q t p | Isentropic => stG q t p + t * stS q t p | Isochoric => stG q t p - p * stV q t p end.
Definition Fx (X : Mixing) (t p : R) (r : nat -> R) (i : nat) : R :=
  match md with Plain => xGx X t p r i | Isenthalpic => - xSx X t p r i | Isentropic => xGx X t p r i + t * xSx X t p r i | Isochoric => xGx X t p r i - p * xVx X t p r i end.
Definition Fxx (X : Mixing) (t p : R) (r : nat -> R) (i k : nat) : R :=
  match md with Plain => xGxx X t p r i k | Isenthalpic => - xSxx X t p r i k | Isentropic => xGxx X t p r i k + t * xSxx X t p r i k | Isochoric => xGxx X t p r i k - p * xVxx X t p r i k end.
Definition Ft (X : Mixing) (t p : R) (r : nat -> R) : R :=
  match md with Plain => 0 | Isenthalpic => - xC X t p r / t | Isentropic => xC X t p r | Isochoric => - p * xVp X t p r end.
Definition Ftx (X : Mixing) (t p : R) (r : nat -> R) (i : nat) : R :=
  match md with Plain => 0 | Isenthalpic => - xCx X t p r i / t | Isentropic => xCx X t p r i | Isochoric => - p * xVxp X t p r i end.
Definition Ftt (X : Mixing) (t p : R) (r : nat -> R) : R :=
  match md with Plain => 0 | Isenthalpic => xC X t p r / (t * t) - xCt X t p r / t | Isentropic => xCt X t p r | Isochoric => - xVp X t p r - p * xVpp X t p r end.
Definition qt (q : Std) (t p : R) : R :=
  match md with Plain => 0 | Isenthalpic => - stC q t p / t | Isentropic => stC q t p | Isochoric => - p * stVp q t p end.
Definition qtt (q : Std) (t p : R) : R :=
  match md with Plain => 0 | Isenthalpic => stC q t p / (t * t) - stCt q t p / t | Isentropic => stCt q t p | Isochoric => - stVp q t p - p * stVpp q t p end.

Lemma mixPot_eq n X std t p m : mixPot n X std t p m = mixTotal n (xR X) (Fc X t p) (fun j => qc (std j) t p) m.
Proof.
  unfold mixPot, mixTotal, Fc, qc. destruct md; cbv beta zeta; auto.
  - rewrite (sum_ext n (fun i => m i * - stS (std i) t p) (fun i => (- 1) * (m i * stS (std i) t p))) by (intros; ring). rewrite sum_scal. ring.
  - rewrite (sum_ext n (fun i => m i * (stG (std i) t p + t * stS (std i) t p)) (fun i => m i * stG (std i) t p + t * (m i * stS (std i) t p))) by (intros; ring). rewrite sum_plus, sum_scal. ring.
  - rewrite (sum_ext n (fun i => m i * (stG (std i) t p - p * stV (std i) t p)) (fun i => m i * stG (std i) t p + (- p) * (m i * stV (std i) t p))) by (intros; ring). rewrite sum_plus, sum_scal. ring.
Qed.
Lemma purePot_eq q t p x : purePot q t p x = x * qc q t p.
Proof. unfold purePot, qc. destruct md; ring. Qed.

Lemma qc_t q t p : stdOK q -> 0 < t -> md <> Plain -> is_derive (fun tau => qc q (atT md t tau) (atP md p tau)) (tauOf md t p) (qt q t p).
Proof.
  intros S Ht Np. unfold qc, qt, atT, atP, tauOf. destruct md; [congruence| | |].
  - eapply is_derive_eq; [apply (is_derive_opp (fun t => stS q t p)); apply (dS_t _ S); auto|]. unfold opp. cbn. field. lra.
  - eapply is_derive_eq; [apply (is_derive_plus (fun t => stG q t p) (fun t => t * stS q t p)); [apply (dG_t _ S); auto|apply (is_derive_mult (fun t => t) (fun t => stS q t p)); [apply (is_derive_id (K := R_AbsRing))|apply (dS_t _ S); auto|apply Rmult_comm]]|].
    unfold plus, mult, one. cbn. field. lra.
  - eapply is_derive_eq; [apply (is_derive_minus (fun p => stG q t p) (fun p => p * stV q t p)); [apply (dG_p _ S); auto|apply (is_derive_mult (fun p => p) (fun p => stV q t p)); [apply (is_derive_id (K := R_AbsRing))|apply (dV_p _ S); auto|apply Rmult_comm]]|].
    unfold minus, plus, opp, mult, one. cbn. ring.
Qed.
Lemma qt_t q t p : stdOK q -> 0 < t -> md <> Plain -> is_derive (fun tau => qt q (atT md t tau) (atP md p tau)) (tauOf md t p) (qtt q t p).
Proof.
  intros S Ht Np. unfold qt, qtt, atT, atP, tauOf. destruct md; [congruence| | |].
  - eapply is_derive_eq; [apply (is_derive_div (fun t => - stC q t p) (fun t => t)); [apply (is_derive_opp (fun t => stC q t p)); apply (dC_t _ S); auto|apply (is_derive_id (K := R_AbsRing))|lra]|]. unfold minus, plus, mult, opp, one. cbn. field. lra.
  - apply (dC_t _ S); auto.
  - apply (is_derive_ext (fun p => - (p * stVp q t p))); [intros; match goal with |- ?a = ?b => change (@eq R a b) end; ring|].
    pose proof (is_derive_mult (fun p : R => p) (fun p => stVp q t p) p _ _ (is_derive_id (K := R_AbsRing) p) (dVp_p _ S t p Ht) Rmult_comm) as K. apply (is_derive_opp (V := R_NormedModule)) in K.
    eapply is_derive_eq; [exact K|]. unfold plus, opp, mult, one. cbn. ring.
Qed.

Section Mix.
Variable X : Mixing.
Variable n : nat.
Variable D : (nat -> R) -> Prop.
Hypothesis OK : solutionOK X n D.
Lemma Fc_grad t p : 0 < t -> gradient X n D (Fc X t p) (Fx X t p) /\ hessian X n D (Fx X t p) (Fxx X t p).
Proof.
  intros Ht. destruct (sG _ _ _ OK t p Ht) as [G1 G2]. destruct (sS _ _ _ OK t p Ht) as [S1 S2]. destruct (sV _ _ _ OK t p Ht) as [V1 V2]. unfold Fc, Fx, Fxx. destruct md.
  - split; [refine (grad_ext X n D _ _ _ _ _ _ G1)|refine (hess_ext X n D _ _ _ _ _ _ G2)]; reflexivity.
  - split; [refine (grad_ext X n D _ _ _ _ _ _ (grad_lin X n D _ _ _ _ (- 1) 0 S1 S1))|refine (hess_ext X n D _ _ _ _ _ _ (hess_lin X n D _ _ _ _ (- 1) 0 S2 S2))]; intros; cbv beta; ring.
  - split; [refine (grad_ext X n D _ _ _ _ _ _ (grad_lin X n D _ _ _ _ 1 t G1 S1))|refine (hess_ext X n D _ _ _ _ _ _ (hess_lin X n D _ _ _ _ 1 t G2 S2))]; intros; cbv beta; ring.
  - split; [refine (grad_ext X n D _ _ _ _ _ _ (grad_lin X n D _ _ _ _ 1 (- p) G1 V1))|refine (hess_ext X n D _ _ _ _ _ _ (hess_lin X n D _ _ _ _ 1 (- p) G2 V2))]; intros; cbv beta; ring.
Qed.
Lemma Ft_grad t p : 0 < t -> md <> Plain -> gradient X n D (Ft X t p) (Ftx X t p).
Proof.
  intros Ht Np. pose proof (sC _ _ _ OK t p Ht) as C1. pose proof (sVp _ _ _ OK t p Ht) as V1. unfold Ft, Ftx. destruct md; [congruence| | |].
  - refine (grad_ext X n D _ _ _ _ _ _ (grad_lin X n D _ _ _ _ (- / t) 0 C1 C1)); intros; cbv beta; field; lra.
  - refine (grad_ext X n D _ _ _ _ _ _ C1); reflexivity.
  - refine (grad_ext X n D _ _ _ _ _ _ (grad_lin X n D _ _ _ _ (- p) 0 V1 V1)); intros; cbv beta; ring.
Qed.
Lemma Fc_t t p m : 0 < t -> D m -> md <> Plain -> is_derive (fun tau => Fc X (atT md t tau) (atP md p tau) (xR X m)) (tauOf md t p) (Ft X t p (xR X m)).
Proof.
  intros Ht Dm Np. unfold Fc, Ft, atT, atP, tauOf. destruct md; [congruence| | |].
  - eapply is_derive_eq; [apply (is_derive_opp (fun t => xS X t p (xR X m))); apply (sS_t _ _ _ OK); auto|]. unfold opp. cbn. field. lra.
  - eapply is_derive_eq; [apply (is_derive_plus (fun t => xG X t p (xR X m)) (fun t => t * xS X t p (xR X m))); [apply (sG_t _ _ _ OK); auto|apply (is_derive_mult (fun t => t) (fun t => xS X t p (xR X m))); [apply (is_derive_id (K := R_AbsRing))|apply (sS_t _ _ _ OK); auto|apply Rmult_comm]]|].
    unfold plus, mult, one. cbn. field. lra.
  - eapply is_derive_eq; [apply (is_derive_minus (fun p => xG X t p (xR X m)) (fun p => p * xV X t p (xR X m))); [apply (sG_p _ _ _ OK); auto|apply (is_derive_mult (fun p => p) (fun p => xV X t p (xR X m))); [apply (is_derive_id (K := R_AbsRing))|apply (sV_p _ _ _ OK); auto|apply Rmult_comm]]|].
    unfold minus, plus, opp, mult, one. cbn. ring.
Qed.
Lemma Ft_t t p m : 0 < t -> D m -> md <> Plain -> is_derive (fun tau => Ft X (atT md t tau) (atP md p tau) (xR X m)) (tauOf md t p) (Ftt X t p (xR X m)).
Proof.
  intros Ht Dm Np. unfold Ft, Ftt, atT, atP, tauOf. destruct md; [congruence| | |].
  - eapply is_derive_eq; [apply (is_derive_div (fun t => - xC X t p (xR X m)) (fun t => t)); [apply (is_derive_opp (fun t => xC X t p (xR X m))); apply (sC_t _ _ _ OK); auto|apply (is_derive_id (K := R_AbsRing))|lra]|]. unfold minus, plus, mult, opp, one. cbn. field. lra.
  - apply (sC_t _ _ _ OK); auto.
  - apply (is_derive_ext (fun p => - (p * xVp X t p (xR X m)))); [intros; match goal with |- ?a = ?b => change (@eq R a b) end; ring|].
    pose proof (is_derive_mult (fun p : R => p) (fun p => xVp X t p (xR X m)) p _ _ (is_derive_id (K := R_AbsRing) p) (sVp_p _ _ _ OK t p m Ht Dm) Rmult_comm) as K. apply (is_derive_opp (V := R_NormedModule)) in K.
    eapply is_derive_eq; [exact K|]. unfold plus, opp, mult, one. cbn. ring.
Qed.

(** every T or P near tauOf is as good *)
Lemma near_tau t p : 0 < t -> locally (tauOf md t p) (fun tau => 0 < atT md t tau /\ tauOf md (atT md t tau) (atP md p tau) = tau /\
  (forall x, atT md (atT md t tau) x = atT md t x) /\ (forall x, atP md (atP md p tau) x = atP md p x)).
Proof.
  intros Ht. assert (L : locally t (fun x : R => 0 < x)).
  { exists (mkposreal t Ht). intros y Hy. cbn in Hy. unfold AbsRing_ball, abs, minus, plus, opp in Hy. cbn in Hy. apply Rabs_def2 in Hy. lra. }
  unfold atT, atP, tauOf. destruct md; try (revert L; apply filter_imp; intros; repeat split; auto; fail). apply filter_forall. auto.
Qed.

Variable std : nat -> Std.
Hypothesis SOK : forall i, (i < n)%nat -> stdOK (std i).
Variables (t p : R) (m : nat -> R) (mTotal : R).
Hypothesis Ht : 0 < t.
Hypothesis Dm : D m.
Hypothesis Tot : mTotal = sum n m.
Notation B := (mixBlock md t p n X std m mTotal).
Definition phiM (m : nat -> R) (tau : R) : R := mixPot n X std (atT md t tau) (atP md p tau) m.

Lemma B_n : bN B = n.
Proof. unfold mixBlock. destruct md; reflexivity. Qed.
Lemma B_m : bM B = m.
Proof. unfold mixBlock. destruct md; reflexivity. Qed.
Lemma act_there j : In j (active B) -> there n m j.
Proof.
  unfold active, upto. intros I. apply filter_In in I. destruct I as [I1 I2]. apply in_seq in I1. rewrite B_n in I1. unfold isActive in I2. rewrite B_m in I2. split; [lia|].
  unfold zeroR in I2. destruct (Req_EM_T (m j) 0); [discriminate|auto].
Qed.
Theorem mixBlock_derivs : derivs phiM (active B) m (tauOf md t p) (bDp B) (bD2p B).
Proof.
  destruct (Fc_grad t p Ht) as [G1 G2]. destruct (at_tau md t p) as [T1 T2].
  pose proof (mix_derivs X n D OK (fun tau => Fc X (atT md t tau) (atP md p tau)) (fun tau j => qc (std j) (atT md t tau) (atP md p tau)) (Fx X t p) (Fxx X t p) (tauOf md t p) m Dm (active B) act_there) as K.
  cbv beta in K. rewrite T1, T2 in K. specialize (K G1 G2). refine (derivs_ext _ _ _ _ _ _ _ _ (derivs_eq _ _ _ _ _ _ _ _ _ _ K)).
  - intros m' tau. unfold phiMix, phiM. now rewrite mixPot_eq.
  - intros j Ij. destruct (act_there j Ij) as [Hj _]. unfold mixBlock, qc, Fc, Fx. rewrite Tot. destruct md; cbn [bDp]; try reflexivity. rewrite (dH _ (SOK j Hj)) by auto. reflexivity.
  - intros j k _ _. unfold mixBlock, Fx, Fxx. rewrite Tot. destruct md; reflexivity.
Qed.
Theorem mixBlock_derivsT : md <> Plain -> derivsT phiM (active B) m (tauOf md t p) (bT B) (bX B) (bTT B).
Proof.
  intros Np. destruct (at_tau md t p) as [T1 T2].
  pose proof (mix_derivsT X n D OK (fun tau => Fc X (atT md t tau) (atP md p tau)) (fun tau => Ft X (atT md t tau) (atP md p tau)) (Ftt X t p)
    (fun tau j => qc (std j) (atT md t tau) (atP md p tau)) (fun tau j => qt (std j) (atT md t tau) (atP md p tau)) (fun j => qtt (std j) t p)
    (Ftx X t p) (tauOf md t p) m Dm (active B) act_there) as K.
  cbv beta in K. rewrite T1, T2 in K.
  assert (L : locally (tauOf md t p) (fun tau => (forall m, D m -> is_derive (fun tau => Fc X (atT md t tau) (atP md p tau) (xR X m)) tau (Ft X (atT md t tau) (atP md p tau) (xR X m))) /\
     forall i, (i < n)%nat -> is_derive (fun tau => qc (std i) (atT md t tau) (atP md p tau)) tau (qt (std i) (atT md t tau) (atP md p tau)))).
  { generalize (near_tau t p Ht). apply filter_imp. intros tau (P & E1 & E2 & E3). split.
    - intros m' Dm'. pose proof (Fc_t (atT md t tau) (atP md p tau) m' P Dm' Np) as Q. rewrite E1 in Q. apply (is_derive_ext _ _ _ _ (fun x => eq_refl) (is_derive_ext _ (fun x => Fc X (atT md t x) (atP md p x) (xR X m')) _ _ (fun x => f_equal2 (fun a b => Fc X a b (xR X m')) (E2 x) (E3 x)) Q)).
    - intros i Hi. pose proof (qc_t (std i) (atT md t tau) (atP md p tau) (SOK i Hi) P Np) as Q. rewrite E1 in Q.
      apply (is_derive_ext _ (fun x => qc (std i) (atT md t x) (atP md p x)) _ _ (fun x => f_equal2 (fun a b => qc (std i) a b) (E2 x) (E3 x)) Q). }
  specialize (K L (Ft_grad t p Ht Np) (Ft_t t p m Ht Dm Np) (fun i Hi => qt_t (std i) t p (SOK i Hi) Ht Np)).
  refine (derivsT_eq _ _ _ _ _ _ _ _ _ _ _ _ _ _ _ K).
  - intros m' tau. unfold phiMix, phiM. now rewrite mixPot_eq.
  - unfold mixBlock, Ft, qt. rewrite Tot. destruct md; [congruence| | |]; cbn [bT].
    + rewrite (sum_ext n (fun i => m i * (- stC (std i) t p / t)) (fun i => (- / t) * (m i * stC (std i) t p))) by (intros; field; lra). rewrite sum_scal. field. lra.
    + ring.
    + rewrite (sum_ext n (fun i => m i * (- p * stVp (std i) t p)) (fun i => (- p) * (m i * stVp (std i) t p))) by (intros; ring). rewrite sum_scal. ring.
  - intros j _. unfold mixBlock, Ft, Ftx, qt, extGrad. rewrite Tot. destruct md; [congruence| | |]; cbn [bX].
    + rewrite (sum_ext (xNr X) (fun i => - xCx X t p (xR X m) i / t * xDr X m i j) (fun i => (- / t) * (xCx X t p (xR X m) i * xDr X m i j))) by (intros; field; lra). rewrite sum_scal. field. lra.
    + ring.
    + rewrite (sum_ext (xNr X) (fun i => - p * xVxp X t p (xR X m) i * xDr X m i j) (fun i => (- p) * (xVxp X t p (xR X m) i * xDr X m i j))) by (intros; ring). rewrite sum_scal. ring.
  - unfold mixBlock, Ftt, qtt. rewrite Tot. destruct md; [congruence| | |]; cbn [bTT].
    + rewrite (sum_ext n (fun i => m i * (stC (std i) t p / (t * t) - stCt (std i) t p / t)) (fun i => (/ (t * t)) * (m i * stC (std i) t p) + (- / t) * (m i * stCt (std i) t p))) by (intros; field; lra). rewrite sum_plus, !sum_scal. field. lra.
    + ring.
    + rewrite (sum_ext n (fun i => m i * (- stVp (std i) t p - p * stVpp (std i) t p)) (fun i => (- 1) * (m i * stVp (std i) t p) + (- p) * (m i * stVpp (std i) t p))) by (intros; ring). rewrite sum_plus, !sum_scal. ring.
Qed.
End Mix.

(** ** A pure solid *)
Section Pure.
Variable q : Std.
Hypothesis SOK : stdOK q.
Variables (t p : R) (m : nat -> R).
Hypothesis Ht : 0 < t.
Notation B := (pureBlock md t p q m).
Definition phiP (m : nat -> R) (tau : R) : R := purePot q (atT md t tau) (atP md p tau) (m O).
Lemma pure_D2 j k : bD2p B j k = 0.
Proof. unfold pureBlock. destruct md; reflexivity. Qed.
Lemma pure_m : bM B = m.
Proof. unfold pureBlock. destruct md; reflexivity. Qed.
Theorem pureBlock_derivs : derivs phiP [O] m (tauOf md t p) (bDp B) (bD2p B).
Proof.
  destruct (at_tau md t p) as [T1 T2].
  assert (Q : forall m' y0, is_derive (fun y => phiP (upd m' O y) (tauOf md t p)) y0 (qc q t p)).
  { intros m' y0. apply (is_derive_ext (fun y => y * qc q t p)); [intros y; unfold phiP; rewrite purePot_eq, upd_same, T1, T2; reflexivity|].
    generalize (qc q t p). intros a. auto_derive; [auto|]. match goal with |- ?a = ?b => change (@eq R a b) end. ring. }
  assert (E : qc q t p = bDp B O) by (unfold qc, pureBlock; destruct md; cbn [bDp]; auto; now rewrite (dH _ SOK)).
  split.
  - intros j [<-|[]]. eapply is_derive_eq; [apply Q|exact E].
  - intros j k [<-|[]] [<-|[]]. rewrite pure_D2. apply (is_derive_ext (fun _ => qc q t p)); [|apply (is_derive_const (V := R_NormedModule))].
    intros x. symmetry. apply is_derive_unique. apply Q.
Qed.
Theorem pureBlock_derivsT : md <> Plain -> derivsT phiP [O] m (tauOf md t p) (bT B) (bX B) (bTT B).
Proof.
  intros Np. destruct (at_tau md t p) as [T1 T2].
  assert (L : locally (tauOf md t p) (fun tau => forall m', is_derive (fun tau => phiP m' tau) tau (m' O * qt q (atT md t tau) (atP md p tau)))).
  { generalize (near_tau t p Ht). apply filter_imp. intros tau (P & E1 & E2 & E3) m'. apply (is_derive_ext (fun tau => m' O * qc q (atT md t tau) (atP md p tau))); [intros; unfold phiP; now rewrite purePot_eq|].
    apply is_derive_scal. pose proof (qc_t q (atT md t tau) (atP md p tau) SOK P Np) as Q. rewrite E1 in Q.
    apply (is_derive_ext _ (fun x => qc q (atT md t x) (atP md p x)) _ _ (fun x => f_equal2 (fun a b => qc q a b) (E2 x) (E3 x)) Q). }
  pose proof (locally_singleton _ _ L) as L0. cbv beta in L0. rewrite T1, T2 in L0. split.
  - eapply is_derive_eq; [apply L0|]. unfold qt, pureBlock. destruct md; [congruence| | |]; cbn [bT]; try field; try lra.
  - intros j [<-|[]]. apply filter_forall. intros x. eexists. apply L0.
  - intros j [<-|[]]. apply (is_derive_ext (fun x => x * qt q t p)).
    + intros x. symmetry. apply is_derive_unique. pose proof (L0 (upd m O x)) as K. rewrite upd_same in K. exact K.
    + eapply is_derive_eq; [apply (is_derive_mult (fun x => x) (fun _ => qt q t p)); [apply (is_derive_id (K := R_AbsRing))|apply (is_derive_const (V := R_NormedModule))|apply Rmult_comm]|].
      unfold plus, mult, one, zero, qt, pureBlock. cbn. destruct md; [congruence| | |]; cbn [bX]; try field; try lra.
  - revert L. apply filter_imp. intros tau K. eexists. apply K.
  - apply (is_derive_ext_loc (fun tau => m O * qt q (atT md t tau) (atP md p tau))).
    + revert L. apply filter_imp. intros tau K. symmetry. apply is_derive_unique. apply K.
    + eapply is_derive_eq; [apply is_derive_scal; apply (qt_t q t p SOK Ht Np)|]. unfold qtt, pureBlock. destruct md; [congruence| | |]; cbn [bTT]; try field; try lra.
Qed.
End Pure.
End Pot.
