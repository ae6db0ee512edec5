(** getAffinityAndComposition returns for all arguments, and the result is a function of the arguments. *)
From Coq Require Import Reals List Bool Arith Lra Lia FunctionalExtensionality.
From Verif Require Import MassModel LiqModel LaSpec LaBase HhModel HhProofs QuadModel NashModel NashSpec NashProofs NashProps HftiSolve CoexModel CoexSolModel EstModel EstProofs.
Import ListNotations.
Open Scope R_scope.
Lemma modmrt_det n m r J reltest maxIter B0 F0 o o' : modmrt n m r J reltest maxIter B0 F0 o -> modmrt n m r J reltest maxIter B0 F0 o' -> o = o'.
Proof. unfold modmrt. destruct (Nat.eqb n 0); [congruence|]. destruct (residuals m r B0 _) as [[res q]|]; [|congruence]. apply runs_det. Qed.
(** the Householder vectors of the constraints do not depend on what the array held *)
Lemma forUp_S a b {A} (f : nat -> A -> A) x : (a <= b)%nat -> forUp a (S b) f x = f b (forUp a b f x).
Proof. intro L. unfold forUp. replace (S b - a)%nat with (S (b - a)) by lia. cbn [LaBase.repeat]. replace (a + (b - a))%nat with b by lia. reflexivity. Qed.
Section Frame.
Variables (rows cols : nat) (C : mat).
Definition agree (k : nat) (s s' : mat * vec) : Prop := fst s = fst s' /\ forall i, (i < k)%nat -> (i + 1 < cols)%nat -> snd s i = snd s' i.
Lemma conDecomp_agree h h' : agree rows (conDecomp rows cols C h) (conDecomp rows cols C h').
Proof.
  unfold conDecomp. enough (G : forall k, agree k (forUp 0 k (fun i ch => let '(C', h') := householderSelf Row Row i (i + 1) cols (fst ch) i (snd ch i) (i + 1) rows in (C', updv (snd ch) i h')) (C, h))
    (forUp 0 k (fun i ch => let '(C', h') := householderSelf Row Row i (i + 1) cols (fst ch) i (snd ch i) (i + 1) rows in (C', updv (snd ch) i h')) (C, h'))) by apply G.
  induction k as [|k IH]; [split; [reflexivity|intros; lia]|]. rewrite !forUp_S by lia.
  set (s := forUp 0 k _ (C, h)) in *. set (s' := forUp 0 k _ (C, h')) in *. destruct IH as (I1 & I2). unfold householderSelf. rewrite (proj2 (Nat.ltb_lt k (k + 1))) by lia. cbn [andb].
  destruct (Nat.ltb_spec (k + 1) cols) as [L|L].
  - rewrite I1. destruct (hBuild Row k (k + 1) cols (fst s') k) as [a0 h1]. split; cbn [fst snd]; [reflexivity|]. intros i Hi Hc. unfold updv. destruct (Nat.eqb_spec i k); [reflexivity|]. apply I2; lia.
  - split; cbn [fst snd]; [exact I1|]. intros i Hi Hc. unfold updv. destruct (Nat.eqb_spec i k); [lia|]. apply I2; lia.
Qed.
Lemma hh_agree o i C' h h' M from upto : ((i + 1 < cols)%nat -> h = h') -> (let '(_, _, M') := householder Row o H2 i (i + 1) cols C' i h M from upto in M') = (let '(_, _, M') := householder Row o H2 i (i + 1) cols C' i h' M from upto in M').
Proof. intro E. unfold householder. rewrite (proj2 (Nat.ltb_lt i (i + 1))) by lia. cbn [andb]. destruct (Nat.ltb_spec (i + 1) cols) as [L|L]; [rewrite E by exact L; reflexivity|reflexivity]. Qed.
Lemma forUp_same {A} (f g : nat -> A -> A) n x : (forall i y, (i < n)%nat -> f i y = g i y) -> forUp 0 n f x = forUp 0 n g x.
Proof. induction n as [|n IH]; intro E; [reflexivity|]. rewrite !forUp_S by lia. rewrite IH by (intros; apply E; lia). apply E. lia. Qed.
Lemma forDown_same {A} (f g : nat -> A -> A) n x : (forall i y, (i < n)%nat -> f i y = g i y) -> forDown n f x = forDown n g x.
Proof. revert x. induction n as [|n IH]; intros x E; [reflexivity|]. rewrite !forDown_S. rewrite (E n x) by lia. apply IH. intros. apply E. lia. Qed.
Lemma projUp_agree o s s' M from upto : agree rows s s' -> projUp o rows cols (fst s) (snd s) M from upto = projUp o rows cols (fst s') (snd s') M from upto.
Proof. intros (E1 & E2). unfold projUp. rewrite E1. apply forUp_same. intros i y Hi. apply hh_agree. intro L. apply E2; assumption. Qed.
Lemma projDown_agree o s s' M from upto : agree rows s s' -> projDown o rows cols (fst s) (snd s) M from upto = projDown o rows cols (fst s') (snd s') M from upto.
Proof. intros (E1 & E2). unfold projDown. rewrite E1. apply forDown_same. intros i y Hi. apply hh_agree. intro L. apply E2; assumption. Qed.
End Frame.
Section Fun.
Variable X : Solid.
Variable act : (nat -> R) -> nat -> R.
Variable dact : (nat -> R) -> nat -> nat -> R.
Variable hess : (nat -> R) -> mat.
Variable rq : nat -> mat -> vec -> option vec.
Variables t p : R.
Variable F0 : R.
Variable zeroX : nat -> bool.
Variable muIn : nat -> R.
Notation get h := (getAffinity X act dact hess rq t p h F0 zeroX muIn).
Notation nz := (nzE X zeroX).
Lemma min1d_bad f l s tol n o : min1d f l s tol n o -> code1 o = BAD_INITIAL -> obb o = l.
Proof. intros O D. pose proof (min1d_ok _ _ _ _ _ _ O) as Q. destruct (f l); [|apply Q]. destruct Q as (_ & _ & Q). rewrite D in Q. destruct Q. Qed.
Lemma line_returns d : forall l s, exists r, lineE X t p zeroX muIn d l s r.
Proof.
  assert (G : forall n l s, Rabs l * (9 / 10) ^ n < dblEps -> exists r, lineE X t p zeroX muIn d l s r).
  { induction n as [|n IH]; intros l s L; destruct (C31_min1d_returns (along X t p zeroX muIn d) l s small 100) as (o & O);
      (assert (D : code1 o = BAD_INITIAL \/ code1 o <> BAD_INITIAL) by (destruct (code1 o); auto; right; discriminate));
      (destruct D as [D|D]; [|eexists; eapply line_done; eassumption]); pose proof (min1d_bad _ _ _ _ _ _ O D) as E;
      assert (A : Rabs (obb o * (9 / 10)) = Rabs l * (9 / 10)) by (rewrite E, Rabs_mult, (Rabs_pos_eq (9 / 10)) by lra; reflexivity).
    - eexists. eapply line_stop; [exact O|exact D|]. rewrite A. cbn [pow] in L. generalize (Rabs_pos l). lra.
    - destruct (Rlt_le_dec (Rabs (obb o * (9 / 10))) dblEps) as [Q|Q]; [eexists; eapply line_stop; eassumption|].
      destruct (IH (obb o * (9 / 10)) (ost o)) as (r & Hr). { rewrite A. cbn [pow] in L. rewrite Rmult_assoc. exact L. }
      exists r. eapply line_less; eassumption. }
  intros l s. destruct (pow_lt_1_zero (9 / 10) ltac:(rewrite Rabs_pos_eq; lra) (dblEps / (Rabs l + 1)) ltac:(apply Rdiv_lt_0_compat; [apply eps_pos|generalize (Rabs_pos l); lra])) as (n & N).
  apply (G n). specialize (N n (le_n n)). rewrite Rabs_pos_eq in N by (apply pow_le; lra). assert (P := Rabs_pos l).
  apply Rle_lt_trans with ((Rabs l + 1) * (9 / 10) ^ n); [apply Rmult_le_compat_r; [apply pow_le; lra|lra]|].
  apply Rlt_le_trans with ((Rabs l + 1) * (dblEps / (Rabs l + 1))); [apply Rmult_lt_compat_l; [lra|exact N]|]. right. field. lra.
Qed.
Lemma line_det d l s r : lineE X t p zeroX muIn d l s r -> forall r', lineE X t p zeroX muIn d l s r' -> r = r'.
Proof.
  induction 1 as [l s o O D|l s o r O D Q H IH|l s o O D Q]; intros r' H'; destruct H' as [l s o' O' D'|l s o' r' O' D' Q' H'|l s o' O' D' Q'];
    (assert (o = o') by (eapply C31_min1d_unique; eassumption)); subst o'; try reflexivity; try contradiction; try (exfalso; lra). apply IH. exact H'.
Qed.
Section At.
Variable h0 : nat -> R.
Lemma fit_returns tol r a : nz <> 0%nat -> exists o, fit X act dact t h0 F0 zeroX muIn tol r a o.
Proof. intro NZ. apply C50_marquardt_returns. lia. Qed.
Lemma solvus_returns : nz <> 0%nat -> exists c, solvus X act dact hess rq t p h0 F0 zeroX muIn c.
Proof.
  intro NZ. destruct (rq (sNr X - neE X zeroX) (scaled (sNr X - neE X zeroX) (hessFree X hess t h0 zeroX muIn)) (fun k => toFreeE X t h0 zeroX muIn (guessR X t zeroX muIn) (k + neE X zeroX)%nat)) as [d|] eqn:E; [|eexists; apply solvus_none; exact E].
  destruct (line_returns (directionE X t h0 zeroX muIn d) 1 (1 / 10)) as (r & L). destruct (fit_returns small r (guessA X t zeroX muIn) NZ) as (o & O).
  destruct (good o) eqn:G; [eexists; eapply solvus_one; eassumption|].
  destruct (line_returns (directionE X t h0 zeroX muIn d) (-1) (-1 / 10)) as (r' & L'). destruct (fit_returns small r' (oB o (nz - 1)%nat) NZ) as (o' & O').
  eexists. eapply solvus_two; eassumption.
Qed.
Lemma solvus_det c c' : solvus X act dact hess rq t p h0 F0 zeroX muIn c -> solvus X act dact hess rq t p h0 F0 zeroX muIn c' -> c = c'.
Proof.
  assert (LD : forall d l s r r', lineE X t p zeroX muIn d l s r -> lineE X t p zeroX muIn d l s r' -> r = r') by (intros d l s r r' A B; exact (line_det d l s r A r' B)).
  assert (FD : forall tol r a o o', fit X act dact t h0 F0 zeroX muIn tol r a o -> fit X act dact t h0 F0 zeroX muIn tol r a o' -> o = o') by (intros tol r a o o'; apply modmrt_det).
  intros [A|d r o A B C D|d r o r2 o2 A B C D E F] [A'|d' r' o' A' B' C' D'|d' r' o' r2' o2' A' B' C' D' E' F']; try reflexivity; rewrite A in A'; try discriminate; injection A' as <-;
    (pose proof (LD _ _ _ _ _ B B'); subst r'; pose proof (FD _ _ _ _ _ C C'); subst o'; try reflexivity; try congruence).
  pose proof (LD _ _ _ _ _ E E'). subst r2'. pose proof (FD _ _ _ _ _ F F'). subst o2'. reflexivity.
Qed.
(** C164: the function returns *)
Theorem C164_returns : exists c, get h0 c.
Proof.
  destruct (Rle_lt_dec t 0) as [A|A]; [eexists; apply aff_bad; tauto|]. destruct (Rlt_le_dec p 0) as [B|B]; [eexists; apply aff_bad; tauto|].
  destruct (Nat.eq_dec (sNa X) (S (sNr X))) as [C|C]; [|eexists; apply aff_bad; tauto]. destruct (Nat.eq_dec nz 0) as [D|D]; [eexists; apply aff_bad; tauto|].
  destruct (fit_returns (/ 1000000) (guessR X t zeroX muIn) (guessA X t zeroX muIn) D) as (o & O).
  assert (S : codev o = SUCCESS \/ codev o <> SUCCESS) by (destruct (codev o); auto; right; discriminate). destruct S as [S|S]; [|eexists; eapply aff_fail; eassumption].
  destruct (Rle_lt_dec (oF o) small) as [Q|Q]; [eexists; eapply aff_good; eassumption|]. destruct (solvus_returns D) as (c & Sc). exists c. eapply aff_solvus; eassumption.
Qed.
Lemma get_det c c' : get h0 c -> get h0 c' -> c = c'.
Proof.
  assert (FD : forall tol r a o o', fit X act dact t h0 F0 zeroX muIn tol r a o -> fit X act dact t h0 F0 zeroX muIn tol r a o' -> o = o') by (intros tol r a o o'; apply modmrt_det).
  intros [G|o G1 G2 G3 G4 G5 G6|o G1 G2 G3 G4 G5 G6 G7|o c0 G1 G2 G3 G4 G5 G6 G7 G8] [K|o' K1 K2 K3 K4 K5 K6|o' K1 K2 K3 K4 K5 K6 K7|o' c1 K1 K2 K3 K4 K5 K6 K7 K8]; try reflexivity;
    try (exfalso; destruct G as [G|[G|[G|G]]]; [lra|lra|congruence|congruence]); try (exfalso; destruct K as [K|[K|[K|K]]]; [lra|lra|congruence|congruence]);
    pose proof (FD _ _ _ _ _ G5 K5); subst o'; try reflexivity; try contradiction; try (exfalso; lra).
  apply solvus_det; assumption.
Qed.
End At.
(** what hVec held before the call does not matter *)
Lemma free_same h h' x : toFreeE X t h zeroX muIn x = toFreeE X t h' zeroX muIn x.
Proof. unfold toFreeE. destruct (neE X zeroX =? 0)%nat; [reflexivity|]. unfold frameE. rewrite (projUp_agree _ _ _ _ _ _ _ _ (conDecomp_agree (neE X zeroX) (sNr X) (rowsE X t zeroX muIn) h h')). reflexivity. Qed.
Lemma from_same h h' x : fromFreeE X t h zeroX muIn x = fromFreeE X t h' zeroX muIn x.
Proof. unfold fromFreeE, frameE. rewrite (projDown_agree _ _ _ _ _ _ _ _ (conDecomp_agree (neE X zeroX) (sNr X) (rowsE X t zeroX muIn) h h')). reflexivity. Qed.
Lemma hess_same h h' : hessFree X hess t h zeroX muIn = hessFree X hess t h' zeroX muIn.
Proof.
  unfold hessFree, frameE. destruct (neE X zeroX =? 0)%nat; [reflexivity|]. cbv zeta.
  rewrite (projUp_agree _ _ Col _ _ (hess (guessR X t zeroX muIn)) 0%nat (sNr X) (conDecomp_agree (neE X zeroX) (sNr X) (rowsE X t zeroX muIn) h h')).
  rewrite (projUp_agree _ _ Row _ _ _ (neE X zeroX) (sNr X) (conDecomp_agree (neE X zeroX) (sNr X) (rowsE X t zeroX muIn) h h')). reflexivity.
Qed.
Lemma lift_same h h' b : liftE X t h zeroX muIn b = liftE X t h' zeroX muIn b.
Proof. unfold liftE, yVec. rewrite (free_same h h'). rewrite (from_same h h'). reflexivity. Qed.
Lemma func_same h h' : func X act t h zeroX muIn = func X act t h' zeroX muIn.
Proof. extensionality i. extensionality b. unfold func. rewrite (lift_same h h'). reflexivity. Qed.
Lemma grad_same h h' : grad X act dact t h zeroX muIn = grad X act dact t h' zeroX muIn.
Proof. extensionality i. extensionality b. extensionality j. unfold grad. rewrite (lift_same h h'), (free_same h h'). reflexivity. Qed.
Lemma pack_same h h' r a : packE X t h zeroX muIn r a = packE X t h' zeroX muIn r a.
Proof. extensionality k. unfold packE. rewrite (free_same h h'). reflexivity. Qed.
Lemma fit_same h h' tol r a o : fit X act dact t h F0 zeroX muIn tol r a o -> fit X act dact t h' F0 zeroX muIn tol r a o.
Proof. unfold fit. rewrite (func_same h h'), (grad_same h h'), (pack_same h h'). exact (fun H => H). Qed.
Lemma answer_same h h' o : answer X t h zeroX muIn o = answer X t h' zeroX muIn o.
Proof. unfold answer. rewrite (lift_same h h'). reflexivity. Qed.
Lemma direction_same h h' d : directionE X t h zeroX muIn d = directionE X t h' zeroX muIn d.
Proof. unfold directionE, yVec. rewrite (free_same h h'), (from_same h h'). reflexivity. Qed.
Lemma solvus_same h h' c : solvus X act dact hess rq t p h F0 zeroX muIn c -> solvus X act dact hess rq t p h' F0 zeroX muIn c.
Proof.
  intros [A|d r o A B C D|d r o r2 o2 A B C D E F]; rewrite (free_same h h'), (hess_same h h') in A.
  - apply solvus_none. exact A.
  - rewrite (answer_same h h'). rewrite (direction_same h h') in B. eapply solvus_one; [exact A|exact B|exact (fit_same h h' _ _ _ _ C)|exact D].
  - rewrite (answer_same h h'). rewrite (direction_same h h') in B, E. eapply solvus_two; [exact A|exact B|exact (fit_same h h' _ _ _ _ C)|exact D|exact E|exact (fit_same h h' _ _ _ _ F)].
Qed.
Lemma get_same h h' c : get h c -> get h' c.
Proof.
  intros [G|o G1 G2 G3 G4 G5 G6|o G1 G2 G3 G4 G5 G6 G7|o c0 G1 G2 G3 G4 G5 G6 G7 G8].
  - apply aff_bad. exact G.
  - eapply aff_fail; try eassumption. exact (fit_same h h' _ _ _ _ G5).
  - rewrite (answer_same h h'). apply aff_good; try assumption. exact (fit_same h h' _ _ _ _ G5).
  - eapply aff_solvus; try eassumption; [exact (fit_same h h' _ _ _ _ G5)|exact (solvus_same h h' _ G8)].
Qed.
(** C164: two calls with the same arguments give the same result, whatever the first left behind *)
Theorem C164_function : forall h h' c c', get h c -> get h' c' -> c = c'.
Proof. intros h h' c c' G G'. apply (get_det h'); [exact (get_same h h' c G)|exact G']. Qed.
End Fun.
