(** One phase: its block holds the derivatives of its energy. *)
From Coq Require Import Reals List Lia Lra Bool Arith FunctionalExtensionality.
From Coquelicot Require Import Coquelicot.
From Verif Require Import MassModel MassProofs RealTac StepModel HessModel HessFill HessGen HessSpec.
Import List ListNotations.
Open Scope R_scope.

Lemma upd_id (m : nat -> R) k : upd m k (m k) = m.
Proof. apply functional_extensionality. intros i. unfold upd. destruct (Nat.eqb_spec i k); congruence. Qed.
Lemma upd_same (m : nat -> R) k x : upd m k x k = x.
Proof. unfold upd. now rewrite Nat.eqb_refl. Qed.
Lemma upd_upd (m : nat -> R) k x y : upd (upd m k x) k y = upd m k y.
Proof. apply functional_extensionality. intros i. unfold upd. destruct (i =? k)%nat; auto. Qed.
Lemma is_derive_sum n (f : nat -> R -> R) x (g : nat -> R) : (forall i, (i < n)%nat -> is_derive (f i) x (g i)) -> is_derive (fun y => sum n (fun i => f i y)) x (sum n g).
Proof.
  induction n; intros H; cbn [sum]; [apply (is_derive_const (V := R_NormedModule))|].
  apply (is_derive_plus (fun y => sum n (fun i => f i y)) (f n)); [apply IHn; intros; apply H; lia|apply H; lia].
Qed.
Lemma sum_moved n (m : nat -> R) k y : (k < n)%nat -> sum n (upd m k y) = sum n m + (y - m k).
Proof.
  induction n; intros H; [lia|]. cbn [sum]. destruct (Nat.eq_dec k n) as [->|N].
  - rewrite upd_same. rewrite (sum_ext n (upd m n y) m); [ring|]. intros i Hi. unfold upd. replace (i =? n)%nat with false by (symmetry; apply Nat.eqb_neq; lia). auto.
  - rewrite IHn by lia. unfold upd at 1. replace (n =? k)%nat with false by (symmetry; apply Nat.eqb_neq; lia). ring.
Qed.

Section Phase.
Variable X : Mixing.
Variable n : nat.
Variable D : (nat -> R) -> Prop.
Hypothesis OK : solutionOK X n D.
Notation nr := (xNr X).
Notation here := (there n).

Lemma stays m k x j : here m j -> x <> 0 -> here (upd m k x) j.
Proof. intros [H1 H2] N. split; auto. unfold upd. destruct (j =? k)%nat; auto. Qed.
Lemma near_there m k : here m k -> locally (m k) (fun x => forall j, here m j -> here (upd m k x) j).
Proof.
  intros [H1 H2]. assert (P : 0 < Rabs (m k)) by now apply Rabs_pos_lt. exists (mkposreal _ P). intros x Hx j Hj. apply stays; auto. intros ->.
  cbn in Hx. unfold AbsRing_ball, abs, minus, plus, opp in Hx. cbn in Hx. rewrite Rplus_0_l, Rabs_Ropp in Hx. lra.
Qed.
Lemma near m k : D m -> here m k -> locally (m k) (fun x => D (upd m k x) /\ forall j, here m j -> here (upd m k x) j).
Proof. intros H1 H2. apply filter_and; [now apply (sOpen _ _ _ OK)|now apply near_there]. Qed.

Section F.
Variable F : (nat -> R) -> R.
Variable Fx : (nat -> R) -> nat -> R.
Variable Fxx : (nat -> R) -> nat -> nat -> R.
Hypothesis G1 : gradient X n D F Fx.
Notation ext m j := (extGrad nr (F (xR X m)) (Fx (xR X m)) (sum n m) (xDr X m) j).
Notation total m := (sum n m * F (xR X m)).

Theorem ext_d1 m j : D m -> here m j -> is_derive (fun y => total (upd m j y)) (m j) (ext m j).
Proof.
  intros Dm Hj. assert (N : is_derive (fun y => sum n (upd m j y)) (m j) 1).
  { apply (is_derive_ext (fun y => sum n m + (y - m j))); [intros y; symmetry; apply sum_moved; apply Hj|]. auto_derive; [auto|ring]. }
  pose proof (is_derive_mult _ _ (m j) _ _ N (G1 m j Dm Hj) Rmult_comm) as K. eapply is_derive_eq; [exact K|].
  cbn [plus mult]. unfold plus, mult. cbn. rewrite upd_id. unfold extGrad. ring.
Qed.
Hypothesis G2 : hessian X n D Fx Fxx.
Theorem ext_d2 m j k : D m -> here m j -> here m k ->
  is_derive (fun x => Derive (fun y => total (upd (upd m k x) j y)) (upd m k x j)) (m k)
    (extHess nr (Fx (xR X m)) (Fxx (xR X m)) (sum n m) (xDr X m) (xD2r X m) j k).
Proof.
  intros Dm Hj Hk. apply (is_derive_ext_loc (fun x => ext (upd m k x) j)).
  { generalize (near m k Dm Hk). apply filter_imp. intros x [Dx Hx]. symmetry. apply is_derive_unique. apply ext_d1; auto. }
  unfold extGrad.
  assert (N : is_derive (fun x => sum n (upd m k x)) (m k) 1).
  { apply (is_derive_ext (fun y => sum n m + (y - m k))); [intros y; symmetry; apply sum_moved; apply Hk|]. auto_derive; [auto|ring]. }
  assert (T : forall i, (i < nr)%nat -> is_derive (fun x => Fx (xR X (upd m k x)) i * xDr X (upd m k x) i j) (m k)
     (sum nr (fun l => Fxx (xR X m) i l * xDr X m l k) * xDr X m i j + Fx (xR X m) i * xD2r X m i j k)).
  { intros i Hi. pose proof (sDr _ _ _ OK m i j k Dm Hi Hj Hk) as D2. destruct (G2 m k i Dm Hk Hi) as [Fi|Di].
    - destruct (Fi j k Hj Hk) as [Z1 Z2]. rewrite Z1.
      assert (Z3 : xD2r X m i j k = 0).
      { rewrite <- (is_derive_unique _ _ _ D2). rewrite (Derive_ext_loc _ (fun _ => 0)); [apply Derive_const|exact Z2]. }
      rewrite Z3, !Rmult_0_r, Rplus_0_r. apply (is_derive_ext_loc (fun _ => 0)); [|apply (is_derive_const (V := R_NormedModule))].
      revert Z2. apply filter_imp. intros x ->. symmetry. apply Rmult_0_r.
    - pose proof (is_derive_mult _ _ (m k) _ _ Di D2 Rmult_comm) as K. eapply is_derive_eq; [exact K|]. unfold plus, mult. cbn. rewrite upd_id. ring. }
  pose proof (is_derive_mult _ _ (m k) _ _ N (is_derive_sum nr _ (m k) _ T) Rmult_comm) as K.
  pose proof (is_derive_plus _ _ (m k) _ _ K (G1 m k Dm Hk)) as K2. eapply is_derive_eq; [exact K2|].
  unfold plus, mult. cbn. rewrite upd_id. unfold extHess. rewrite (sum_ext nr (fun i => Fx (xR X m) i * (xDr X m i j + xDr X m i k + sum n m * xD2r X m i j k) + sum n m * xDr X m i j * sum nr (fun l => Fxx (xR X m) i l * xDr X m l k))
    (fun i => Fx (xR X m) i * xDr X m i j + (sum n m * (sum nr (fun l => Fxx (xR X m) i l * xDr X m l k) * xDr X m i j + Fx (xR X m) i * xD2r X m i j k) + Fx (xR X m) i * xDr X m i k))) by (intros; ring).
  rewrite !sum_plus, sum_scal, !sum_plus. ring.
Qed.
End F.

(** linear combinations *)
Lemma grad_lin F Fx H Hx a b : gradient X n D F Fx -> gradient X n D H Hx -> gradient X n D (fun r => a * F r + b * H r) (fun r i => a * Fx r i + b * Hx r i).
Proof.
  intros A B m k Dm Hk. eapply is_derive_eq; [apply (is_derive_plus (fun x => a * F (xR X (upd m k x))) (fun x => b * H (xR X (upd m k x)))); apply is_derive_scal; [apply A|apply B]; auto|].
  unfold plus. cbn. rewrite <- !sum_scal, <- sum_plus. apply sum_ext. intros. ring.
Qed.
Lemma hess_lin Fx Fxx Hx Hxx a b : hessian X n D Fx Fxx -> hessian X n D Hx Hxx -> hessian X n D (fun r i => a * Fx r i + b * Hx r i) (fun r i l => a * Fxx r i l + b * Hxx r i l).
Proof.
  intros A B m k i Dm Hk Hi. destruct (A m k i Dm Hk Hi) as [|A1]; [now left|]. destruct (B m k i Dm Hk Hi) as [|B1]; [now left|]. right.
  eapply is_derive_eq; [apply (is_derive_plus (fun x => a * Fx (xR X (upd m k x)) i) (fun x => b * Hx (xR X (upd m k x)) i)); apply is_derive_scal; [apply A1|apply B1]|].
  unfold plus. cbn. rewrite <- !sum_scal, <- sum_plus. apply sum_ext. intros. ring.
Qed.
Lemma grad_ext F Fx H Hx : (forall r, F r = H r) -> (forall r i, Fx r i = Hx r i) -> gradient X n D F Fx -> gradient X n D H Hx.
Proof.
  intros E1 E2 A m k Dm Hk. apply (is_derive_ext (fun x => F (xR X (upd m k x)))); [intros; apply E1|]. eapply is_derive_eq; [apply A; auto|]. apply sum_ext. intros. now rewrite E2.
Qed.
Lemma hess_ext Fx Fxx Hx Hxx : (forall r i, Fx r i = Hx r i) -> (forall r i l, Fxx r i l = Hxx r i l) -> hessian X n D Fx Fxx -> hessian X n D Hx Hxx.
Proof.
  intros E1 E2 A m k i Dm Hk Hi. destruct (A m k i Dm Hk Hi) as [|A1]; [now left|]. right. apply (is_derive_ext (fun x => Fx (xR X (upd m k x)) i)); [intros; apply E1|].
  eapply is_derive_eq; [apply A1|]. apply sum_ext. intros. now rewrite E2.
Qed.
End Phase.

(** ** The numbers of a block *)
(** Dp .. are derivatives of phi : amounts -> T (or P) -> R, by the amounts in [act] *)
Record derivs (phi : (nat -> R) -> R -> R) (act : list nat) (m : nat -> R) (t0 : R) (Dp : nat -> R) (D2p : nat -> nat -> R) : Prop := mkDerivs {
  dv1 : forall j, In j act -> is_derive (fun y => phi (upd m j y) t0) (m j) (Dp j);
  dv2 : forall j k, In j act -> In k act -> is_derive (fun x => Derive (fun y => phi (upd (upd m k x) j y) t0) (upd m k x j)) (m k) (D2p j k) }.
Record derivsT (phi : (nat -> R) -> R -> R) (act : list nat) (m : nat -> R) (t0 : R) (DT : R) (DX : nat -> R) (DTT : R) : Prop := mkDerivsT {
  dt3 : is_derive (fun t => phi m t) t0 DT;
  dt4l : forall j, In j act -> locally (m j) (fun x => ex_derive (fun t => phi (upd m j x) t) t0);
  dt4 : forall j, In j act -> is_derive (fun x => Derive (fun t => phi (upd m j x) t) t0) (m j) (DX j);
  dt5l : locally t0 (fun t => ex_derive (fun t => phi m t) t);
  dt5 : is_derive (fun t => Derive (fun t => phi m t) t) t0 DTT }.

Section Mix.
Variable X : Mixing.
Variable n : nat.
Variable D : (nat -> R) -> Prop.
Hypothesis OK : solutionOK X n D.
Variables (Fc Ft : R -> (nat -> R) -> R) (Ftt : (nat -> R) -> R) (qc qt : R -> nat -> R) (qtt : nat -> R).
Variables (Fx Ftx : (nat -> R) -> nat -> R) (Fxx : (nat -> R) -> nat -> nat -> R) (t0 : R).
Variable m : nat -> R.
Hypothesis Dm : D m.
Variable act : list nat.
Hypothesis Act : forall j, In j act -> there n m j.
Definition phiMix (m : nat -> R) (t : R) : R := mixTotal n (xR X) (Fc t) (qc t) m.

Lemma linear_d (q : nat -> R) m' j : (j < n)%nat -> is_derive (fun y => sum n (fun i => upd m' j y i * q i)) (m' j) (q j).
Proof.
  intros Hj. apply (is_derive_ext (fun y => sum n (fun i => m' i * q i) + (y - m' j) * q j)).
  - intros y. replace (sum n (fun i => upd m' j y i * q i)) with (sum n (upd (fun i => m' i * q i) j (y * q j))).
    + rewrite sum_moved by auto. match goal with |- ?a = ?b => change (@eq R a b) end. ring.
    + apply sum_ext. intros i Hi. unfold upd. destruct (Nat.eqb_spec i j) as [->|]; auto.
  - generalize (sum n (fun i => m' i * q i)) (q j) (m' j). intros a b c. auto_derive; [auto|]. match goal with |- ?a = ?b => change (@eq R a b) end. ring.
Qed.

Theorem mix_derivs : gradient X n D (Fc t0) Fx -> hessian X n D Fx Fxx ->
  derivs phiMix act m t0 (fun j => extGrad (xNr X) (Fc t0 (xR X m)) (Fx (xR X m)) (sum n m) (xDr X m) j + qc t0 j)
    (extHess (xNr X) (Fx (xR X m)) (Fxx (xR X m)) (sum n m) (xDr X m) (xD2r X m)).
Proof.
  intros G1 G2. split.
  - intros j Ij. unfold phiMix, mixTotal. apply (is_derive_plus (fun y => sum n (upd m j y) * Fc t0 (xR X (upd m j y)))); [apply (ext_d1 X n D (Fc t0) Fx G1); auto|].
    apply linear_d. apply (Act j Ij).
  - intros j k Ij Ik. apply (is_derive_ext_loc (fun x => Derive (fun y => sum n (upd (upd m k x) j y) * Fc t0 (xR X (upd (upd m k x) j y))) (upd m k x j) + qc t0 j)).
    + generalize (near X n D OK m k Dm (Act k Ik)). apply filter_imp. intros x [Dx Hx]. symmetry.
      unfold phiMix, mixTotal. pose proof (ext_d1 X n D (Fc t0) Fx G1 (upd m k x) j Dx (Hx j (Act j Ij))) as K.
      match type of K with is_derive _ _ ?l => transitivity (l + qc t0 j) end; [|f_equal; symmetry; apply is_derive_unique; exact K].
      apply is_derive_unique. apply (is_derive_plus (fun y => sum n (upd (upd m k x) j y) * Fc t0 (xR X (upd (upd m k x) j y)))); [exact K|].
      apply linear_d. apply (Act j Ij).
    + pose proof (ext_d2 X n D OK (Fc t0) Fx Fxx G1 G2 m j k Dm (Act j Ij) (Act k Ik)) as K.
      match goal with |- is_derive _ _ ?l => replace l with (l + 0) by ring end.
      apply (is_derive_plus (fun x => Derive _ _) (fun _ => qc t0 j)); [exact K|apply (is_derive_const (V := R_NormedModule))].
Qed.
Theorem mix_derivsT :
  locally t0 (fun t => (forall m, D m -> is_derive (fun t => Fc t (xR X m)) t (Ft t (xR X m))) /\ forall i, (i < n)%nat -> is_derive (fun t => qc t i) t (qt t i)) ->
  gradient X n D (Ft t0) Ftx -> is_derive (fun t => Ft t (xR X m)) t0 (Ftt (xR X m)) -> (forall i, (i < n)%nat -> is_derive (fun t => qt t i) t0 (qtt i)) ->
  derivsT phiMix act m t0 (sum n m * Ft t0 (xR X m) + sum n (fun i => m i * qt t0 i))
    (fun j => extGrad (xNr X) (Ft t0 (xR X m)) (Ftx (xR X m)) (sum n m) (xDr X m) j + qt t0 j)
    (sum n m * Ftt (xR X m) + sum n (fun i => m i * qtt i)).
Proof.
  intros L G1 H2 Hq.
  assert (One : forall t m', D m' -> (forall m, D m -> is_derive (fun t => Fc t (xR X m)) t (Ft t (xR X m))) -> (forall i, (i < n)%nat -> is_derive (fun t => qc t i) t (qt t i)) ->
     is_derive (fun t => phiMix m' t) t (sum n m' * Ft t (xR X m') + sum n (fun i => m' i * qt t i))).
  { intros t m' Dm' A B. unfold phiMix, mixTotal. apply (is_derive_plus (fun t => sum n m' * Fc t (xR X m'))).
    - apply is_derive_scal. apply A; auto.
    - apply (is_derive_sum n (fun i t => m' i * qc t i)). intros i Hi. apply is_derive_scal. auto. }
  destruct (locally_singleton _ _ L) as [L1 L2]. split.
  - apply One; auto.
  - intros j Ij. generalize (near X n D OK m j Dm (Act j Ij)). apply filter_imp. intros x [Dx _]. eexists. apply One; auto.
  - intros j Ij. apply (is_derive_ext_loc (fun x => sum n (upd m j x) * Ft t0 (xR X (upd m j x)) + sum n (fun i => upd m j x i * qt t0 i))).
    + generalize (near X n D OK m j Dm (Act j Ij)). apply filter_imp. intros x [Dx _]. symmetry. apply is_derive_unique. apply One; auto.
    + apply (is_derive_plus (fun y => sum n (upd m j y) * Ft t0 (xR X (upd m j y)))); [apply (ext_d1 X n D (Ft t0) Ftx G1); auto|]. apply linear_d. apply (Act j Ij).
  - revert L. apply filter_imp. intros t [A B]. eexists. apply One; auto.
  - apply (is_derive_ext_loc (fun t => sum n m * Ft t (xR X m) + sum n (fun i => m i * qt t i))).
    + revert L. apply filter_imp. intros t [A B]. symmetry. apply is_derive_unique. apply One; auto.
    + apply (is_derive_plus (fun t => sum n m * Ft t (xR X m))); [apply is_derive_scal; exact H2|].
      apply (is_derive_sum n (fun i t => m i * qt t i)). intros i Hi. apply is_derive_scal. auto.
Qed.
End Mix.
Lemma derivs_eq phi act m t0 Dp D2p Dp' D2p' : (forall j, In j act -> Dp j = Dp' j) -> (forall j k, In j act -> In k act -> D2p j k = D2p' j k) ->
  derivs phi act m t0 Dp D2p -> derivs phi act m t0 Dp' D2p'.
Proof.
  intros E1 E2 [H1 H2]. split.
  - intros j I. eapply is_derive_eq; [apply H1; auto|]. auto.
  - intros j k I K. eapply is_derive_eq; [apply H2; auto|]. auto.
Qed.
Lemma derivs_ext phi phi' act m t0 Dp D2p : (forall m t, phi m t = phi' m t) -> derivs phi act m t0 Dp D2p -> derivs phi' act m t0 Dp D2p.
Proof.
  intros E H. assert (phi = phi') as <-; [|exact H]. do 2 (apply functional_extensionality; intros). auto.
Qed.
Lemma derivsT_eq phi phi' act m t0 DT DX DTT DT' DX' DTT' : (forall m t, phi m t = phi' m t) -> DT = DT' -> (forall j, In j act -> DX j = DX' j) -> DTT = DTT' ->
  derivsT phi act m t0 DT DX DTT -> derivsT phi' act m t0 DT' DX' DTT'.
Proof.
  intros E <- E2 <- H. assert (phi = phi') as <- by (do 2 (apply functional_extensionality; intros); auto). destruct H as [H1 H2 H3 H4 H5]. split; auto.
  intros j I. eapply is_derive_eq; [apply H3; auto|]. auto.
Qed.
