(** Properties of getAffinityAndComposition. *)
From Coq Require Import Reals List Bool Arith Lra Lia.
From Verif Require Import MassModel LiqModel LaSpec LaBase HhModel HhProofs HftiProofs FullRank QuadModel QuadProofs NashModel NashSpec NashProofs NashProps CoexModel CoexSolModel EstModel EstProofs.
Import ListNotations.
Open Scope R_scope.
Section Est.
Variable X : Solid.
Variable act : (nat -> R) -> nat -> R.
Variable dact : (nat -> R) -> nat -> nat -> R.
Variable hess : (nat -> R) -> mat.
Variable rq : nat -> mat -> vec -> option vec.
Variables t p : R.
Variable F0 : R.
Variable zeroX : nat -> bool.
Variable muIn : nat -> R.
Notation na := (sNa X). Notation nr := (sNr X).
Notation ne := (neE X zeroX). Notation nz := (nzE X zeroX).
(** a composition r that the phase accepts, in which every end-member that is not excluded has the same affinity a, to tol joules *)
Definition balanced (tol : R) (r : nat -> R) (a : R) : Prop :=
  sTest X r = true /\ forall i, (i < na)%nat -> zeroX i = false -> Rabs (a - muIn i - 8.3143 * t * ln (act r i)) <= tol.
Section At.
Variable h0 : nat -> R.
Notation lift := (liftE X t h0 zeroX muIn).
Notation func := (func X act t h0 zeroX muIn).
Notation fit := (fit X act dact t h0 F0 zeroX muIn).
Notation get := (getAffinity X act dact hess rq t p h0 F0 zeroX muIn).
Lemma fit_good tol r a o : nz <> 0%nat -> fit tol r a o -> codev o = SUCCESS -> oF o <= small ->
  exists b, (forall k, (k < nz)%nat -> Rabs (oB o k - b k) <= tol) /\ balanced (1000 / 2 ^ 13) (lift b) (b (nz - 1)%nat * SCALE).
Proof.
  intros NZ Ft C Fm. unfold EstModel.fit in Ft. assert (NZ1 : (1 <= nz)%nat) by lia. assert (NZ2 : (0 < nz)%nat) by lia.
  assert (AC : all_computable nz func (packE X t h0 zeroX muIn r a)).
  { assert (D : all_computable nz func (packE X t h0 zeroX muIn r a) \/ ~ all_computable nz func (packE X t h0 zeroX muIn r a)).
    { unfold EstModel.func, all_computable. destruct (sTest X (lift (packE X t h0 zeroX muIn r a))); [left; discriminate|right]. intro A. apply (A 0%nat); [lia|reflexivity]. }
    destruct D as [D|D]; [exact D|]. rewrite (C50_marquardt_bad_initial nz nz func _ _ _ _ _ o ltac:(first [exact NZ1|exact NZ2|lia]) D Ft) in C. discriminate. }
  destruct (C50_marquardt_result nz nz func _ _ _ _ _ o ltac:(first [exact NZ1|exact NZ2]) ltac:(first [exact NZ1|exact NZ2]) AC Ft) as (b & B1 & B2 & _ & _ & B5). destruct (B5 C) as (W & _). exists b. split; [exact W|].
  assert (T : sTest X (lift b) = true).
  { generalize (B1 0%nat ltac:(lia)). unfold EstModel.func. destruct (sTest X (lift b)); [reflexivity|congruence]. }
  split; [exact T|]. intros i Hi Z. destruct (nullList_of X zeroX i Hi Z) as (k & K1 & K2).
  assert (V : value (func k b) * value (func k b) <= / 2 ^ 26).
  { rewrite <- small_eq. apply Rle_trans with (2 := Fm). rewrite B2. unfold sum_of_squares.
    apply (sum_ge_term nz (fun i => value (func i b) * value (func i b))); [intros; apply Rle_0_sqr|exact K1]. }
  unfold EstModel.func in V. rewrite T in V. cbn [value] in V. unfold mu in V. rewrite K2 in V.
  assert (A : Rabs ((- Rg * t * ln (act (lift b) i) + b (nz - 1)%nat * SCALE - muIn i) / SCALE) <= / 2 ^ 13).
  { apply sq_le_abs; [left; apply Rinv_0_lt_compat, pow_lt; lra|]. replace (/ 2 ^ 13 * / 2 ^ 13) with (/ 2 ^ 26) by (rewrite <- Rinv_mult, <- pow_add; reflexivity). exact V. }
  replace (b (nz - 1)%nat * SCALE - muIn i - 8.3143 * t * ln (act (lift b) i)) with
    (SCALE * ((- Rg * t * ln (act (lift b) i) + b (nz - 1)%nat * SCALE - muIn i) / SCALE)) by (unfold SCALE, Rg; field).
  rewrite Rabs_mult. unfold SCALE at 1. rewrite (Rabs_pos_eq 1000) by lra. unfold Rdiv at 2. apply Rmult_le_compat_l; [lra|exact A].
Qed.
Lemma answered r a : get (Success r a) -> na = S nr /\ nz <> 0%nat /\ exists tol r0 a0 o, 0 <= tol <= / 1000000 /\ fit tol r0 a0 o /\ codev o = SUCCESS /\ oF o <= small /\
  r = lift (oB o) /\ a = oB o (nz - 1)%nat * SCALE.
Proof.
  assert (SM : 0 <= small <= / 1000000) by (rewrite small_eq; cbn [pow]; lra).
  assert (GD : forall o, good o = true -> codev o = SUCCESS /\ oF o <= small).
  { intros o G. unfold good in G. destruct (codev o); try discriminate. split; [reflexivity|]. destruct (Rle_dec (oF o) small); [assumption|discriminate]. }
  intro G. remember (Success r a) as c eqn:Ec. destruct G as [G|o G1 G2 G3 G4 G5 G6|o G1 G2 G3 G4 G5 G6 G7|o c G1 G2 G3 G4 G5 G6 G7 G8]; try discriminate.
  - split; [exact G3|]. split; [exact G4|]. unfold answer in Ec. injection Ec as E1 E2. exists (/ 1000000), (guessR X t zeroX muIn), (guessA X t zeroX muIn), o.
    split; [lra|]. split; [exact G5|]. split; [exact G6|]. split; [exact G7|]. split; congruence.
  - split; [exact G3|]. split; [exact G4|]. destruct G8 as [S1|d r1 o1 S1 S2 S3 S4|d r1 o1 r2 o2 S1 S2 S3 S4 S5 S6]; try discriminate.
    + destruct (GD o1 S4). unfold answer in Ec. injection Ec as E1 E2. exists small, r1, (guessA X t zeroX muIn), o1. split; [exact SM|]. split; [exact S3|]. split; [assumption|]. split; [assumption|]. split; congruence.
    + destruct (good o2) eqn:G; [|discriminate]. destruct (GD o2 G). unfold answer in Ec. injection Ec as E1 E2. exists small, r2, (oB o1 (nz - 1)%nat), o2. split; [exact SM|]. split; [exact S6|]. split; [assumption|]. split; [assumption|]. split; congruence.
Qed.
(** C161: an answer is close to an equilibrium *)
Theorem C161_answer_balanced : forall r a, get (Success r a) ->
  exists r' a', balanced (1000 / 2 ^ 13) r' a' /\ Rabs (a - a') <= / 1000 /\ forall i, (i < nr)%nat -> Rabs (r i - r' i) <= INR nr * / 1000000 + 20 * dblEps.
Proof.
  intros r a G. destruct (answered r a G) as (ANR & NZ & tol & r0 & a0 & o & Tl & Ft & C & Fm & Er & Ea).
  destruct (fit_good tol r0 a0 o NZ Ft C Fm) as (b & B1 & B2). exists (lift b), (b (nz - 1)%nat * SCALE). split; [exact B2|]. split.
  - rewrite Ea. replace (oB o (nz - 1)%nat * SCALE - b (nz - 1)%nat * SCALE) with (SCALE * (oB o (nz - 1)%nat - b (nz - 1)%nat)) by ring. rewrite Rabs_mult. unfold SCALE. rewrite Rabs_pos_eq by lra.
    assert (Rabs (oB o (nz - 1)%nat - b (nz - 1)%nat) <= tol) by (apply B1; lia). lra.
  - intros i Hi. rewrite Er. apply Rle_trans with (INR nr * tol + 20 * dblEps).
    + apply (lift_near X h0 t zeroX muIn ANR NZ (oB o) b tol); [lra|exact B1|exact Hi].
    + apply Rplus_le_compat_r. apply Rmult_le_compat_l; [apply pos_INR|lra].
Qed.
End At.
End Est.
