(** Cases for C161-C164, and C165: the sign of the scale of the Hessian. *)
From Coq Require Import Reals List Bool Arith Lra Lia.
From Verif Require Import MassModel LiqModel LaSpec LaBase HhModel QuadModel NashModel NashSpec NashProofs CoexModel CoexSolModel EstModel EstProofs EstProps EstIdeal EstNull EstFun.
Import ListNotations.
Open Scope R_scope.
(** an ideal solution of two end-members; the composition variable is the mole fraction of the second *)
Definition two : Solid := {|
  sNa := 2; sNr := 1;
  sR := fun m _ => m 1%nat / (m 0%nat + m 1%nat);
  sX := fun r i => match i with O => 1 - r 0%nat | _ => r 0%nat end;
  sDx := fun _ i _ => match i with O => -1 | _ => 1 end;
  sTest := fun r => if Rle_dec 0 (r 0%nat) then if Rle_dec (r 0%nat) 1 then true else false else false;
  sG := fun t _ r => 8.3143 * t * (r 0%nat * ln (r 0%nat) + (1 - r 0%nat) * ln (1 - r 0%nat));
  sGx := fun t _ r _ => 8.3143 * t * (ln (r 0%nat) - ln (1 - r 0%nat)) |}.
Definition twoAct (r : nat -> R) (i : nat) : R := match i with O => 1 - r 0%nat | _ => r 0%nat end.
Lemma two_ideal : ideal two twoAct.
Proof.
  intros x P S i Hi. cbn [two sNa] in *. cbn [LaSpec.sum] in S. assert (E : x 0%nat + x 1%nat = 1) by lra. unfold twoAct. cbn [two sR]. rewrite E.
  destruct i as [|[|i]]; [|field|lia]. unfold Rdiv. lra.
Qed.
Lemma two_reads : EstIdeal.reads two twoAct.
Proof. intros r r' E. assert (E0 : r 0%nat = r' 0%nat) by (apply E; cbn; lia). cbn [two sTest]. rewrite E0. split; [reflexivity|]. intros i Hi. unfold twoAct. rewrite E0. reflexivity. Qed.
Lemma two_affine : affine two (sX two).
Proof.
  constructor; cbn [two sNa sNr sR sX sDx].
  - intros m i S Hi. cbn [LaSpec.sum] in S. replace (m 0%nat + m 1%nat) with 1 by lra. destruct i as [|[|i]]; [|field|lia]. unfold Rdiv. lra.
  - intros r r' i Hi. cbn [LaSpec.sum]. destruct i as [|[|i]]; [ring|ring|lia].
Qed.
(** chemical potentials 0 and R t ln 3 less than zero: the mole fractions are 1/4 and 3/4 *)
Definition twoMu (t : R) (i : nat) : R := match i with O => 0 | _ => - (8.3143 * t) * ln 3 end.
Lemma two_weight i : weight 1000 (twoMu 1000) i = match i with O => 1 | _ => 3 end.
Proof. unfold weight, twoMu. destruct i as [|i]; cbv beta iota; [rewrite Ropp_0; unfold Rdiv; rewrite Rmult_0_l; apply exp_0|]. match goal with |- exp ?e = _ => replace e with (ln 3) by (field; lra) end. apply exp_ln. lra. Qed.
Lemma two_Z : Z two 1000 (twoMu 1000) = 4.
Proof. unfold Z. cbn [two sNa LaSpec.sum]. rewrite !two_weight. lra. Qed.
Theorem C162_case : forall dact hess rq h0 F0, exists r, getAffinity two twoAct dact hess rq 1000 1 h0 F0 (fun _ => false) (twoMu 1000) (Success r (- (8.3143 * 1000) * ln 4)) /\ r 0%nat = 3 / 4.
Proof.
  intros dact hess rq h0 F0. destruct (C162_ideal_exact two twoAct dact hess rq 1000 1 h0 F0 (fun _ => false) (twoMu 1000) ltac:(lra) ltac:(lra) eq_refl (fun _ _ => eq_refl) two_reads two_ideal) as ((c & G) & U).
  - intros x E. assert (E0 := E 0%nat ltac:(cbn; lia)). assert (E1 := E 1%nat ltac:(cbn; lia)). rewrite two_Z, two_weight in E0, E1. cbn [two sTest sR]. rewrite E0, E1. replace (3 / 4 / (1 / 4 + 3 / 4)) with (3 / 4) by field.
    destruct (Rle_dec 0 (3 / 4)); [|lra]. destruct (Rle_dec (3 / 4) 1); [reflexivity|lra].
  - destruct (U c G) as (r & x & -> & Er & Ex). rewrite two_Z in G. exists r. split; [exact G|]. rewrite (Er 0%nat) by (cbn; lia). cbn [two sR].
    rewrite !Ex by (cbn; lia). rewrite two_Z, !two_weight. field.
Qed.
(** C161 for it *)
Theorem C161_case : exists r a r' a', getAffinity two twoAct (fun _ _ _ => 0) (fun _ _ _ => 0) (fun _ _ _ => None) 1000 1 (fun _ => 0) 0 (fun _ => false) (twoMu 1000) (Success r a) /\
  balanced two twoAct 1000 (fun _ => false) (twoMu 1000) (1000 / 2 ^ 13) r' a' /\ Rabs (a - a') <= / 1000.
Proof.
  destruct (C162_case (fun _ _ _ => 0) (fun _ _ _ => 0) (fun _ _ _ => None) (fun _ => 0) 0) as (r & G & _). destruct (C161_answer_balanced _ _ _ _ _ _ _ _ _ _ _ _ _ G) as (r' & a' & B & A & _).
  exists r, (- (8.3143 * 1000) * ln 4), r', a'. split; [exact G|]. split; [exact B|exact A].
Qed.
(** C163: the first end-member excluded *)
Definition noFirst (i : nat) : bool := match i with O => true | _ => false end.
Lemma noFirst_guess : guessR two 1000 noFirst (twoMu 1000) 0%nat = 1.
Proof. unfold guessR, guessFull, guessX. cbn [two sR noFirst]. change (nzE two noFirst) with 1%nat. cbn [Nat.eqb]. field. Qed.
Lemma noFirst_lift h0 b : liftE two 1000 h0 noFirst (twoMu 1000) b 0%nat = 1.
Proof.
  assert (E0 := eps_pos). assert (SN : 10 * dblEps <= 1) by (unfold dblEps; cbn [pow]; lra).
  assert (S1 : forall x : nat -> R, x 0%nat = 1 -> snap x 0%nat = 1). { intros x E. unfold snap. rewrite E, Rabs_R1. destruct (Rlt_dec 1 (10 * dblEps)); [lra|reflexivity]. }
  unfold liftE. change (neE two noFirst) with 1%nat. cbn [Nat.eqb]. apply S1. unfold fromFreeE. change (neE two noFirst) with 1%nat.
  unfold projDown, forDown. cbn [LaBase.repeat]. unfold householder. cbn [Nat.sub Nat.add Nat.ltb Nat.leb andb two sNr].
  unfold yVec. apply S1. unfold toFreeE. change (neE two noFirst) with 1%nat. cbn [Nat.eqb]. unfold projUp, forUp. cbn [LaBase.repeat Nat.sub]. unfold householder. cbn [Nat.sub Nat.add Nat.ltb Nat.leb andb two sNr].
  apply noFirst_guess.
Qed.
Theorem C163_case : forall dact hess rq h0 F0, exists r a, getAffinity two twoAct dact hess rq 1000 1 h0 F0 noFirst (twoMu 1000) (Success r a) /\ a = - (8.3143 * 1000) * ln 3 /\
  Rabs (sX two r 0%nat) <= 1 * ((1 + 1) * (10 * dblEps)).
Proof.
  intros dact hess rq h0 F0. set (b := packE two 1000 h0 noFirst (twoMu 1000) (guessR two 1000 noFirst (twoMu 1000)) (guessA two 1000 noFirst (twoMu 1000))).
  assert (GA : guessA two 1000 noFirst (twoMu 1000) = - (8.3143 * 1000) * ln 3 / 1000) by reflexivity.
  destruct (fit_returns two twoAct dact 1000 F0 noFirst (twoMu 1000) h0 (/ 1000000) (guessR two 1000 noFirst (twoMu 1000)) (guessA two 1000 noFirst (twoMu 1000))) as (o & O); [discriminate|].
  assert (RT : codev o = SUCCESS /\ oF o = 0 /\ forall i, (i < 1)%nat -> oB o i = b i).
  { apply (modmrt_root 1 1 (func two twoAct 1000 h0 noFirst (twoMu 1000)) (grad two twoAct dact 1000 h0 noFirst (twoMu 1000)) (/ 1000000) 250 b F0 o); [lia|lra| |exact O].
    intros i Hi. assert (i = 0%nat) by lia. subst i. unfold func. cbn [two sTest]. rewrite noFirst_lift. destruct (Rle_dec 0 1); [|lra]. destruct (Rle_dec 1 1); [|lra]. f_equal.
    change (nullList two noFirst 0) with 1%nat. unfold twoAct. rewrite noFirst_lift, ln_1. change (mu two noFirst (twoMu 1000) 0) with (- (8.3143 * 1000) * ln 3). unfold b, packE. change (nzE two noFirst) with 1%nat. cbn [Nat.sub Nat.eqb]. rewrite GA. unfold SCALE. field. }
  destruct RT as (R1 & R2 & R3). assert (SM : 0 < small) by (rewrite small_eq; apply Rinv_0_lt_compat, pow_lt; lra).
  assert (G : getAffinity two twoAct dact hess rq 1000 1 h0 F0 noFirst (twoMu 1000) (answer two 1000 h0 noFirst (twoMu 1000) o)).
  { apply aff_good; try lra; [reflexivity|discriminate|exact O|exact R1]. }
  exists (liftE two 1000 h0 noFirst (twoMu 1000) (oB o)), (oB o (nzE two noFirst - 1)%nat * SCALE). split; [exact G|]. split.
  - change (nzE two noFirst) with 1%nat. cbn [Nat.sub]. rewrite R3 by lia. unfold b, packE. change (nzE two noFirst) with 1%nat. cbn [Nat.sub Nat.eqb]. rewrite GA. unfold SCALE. field.
  - pose proof (C163_excluded_absent two twoAct dact hess rq 1000 1 h0 F0 noFirst (twoMu 1000) (sX two) two_affine _ _ G 0%nat ltac:(cbn; lia) eq_refl) as Q.
    eapply Rle_trans; [exact Q|]. cbn [two sNr sDx LaSpec.sum]. replace (Rabs (-1)) with 1 by (rewrite Rabs_left; lra). right. replace (INR 1) with 1 by reflexivity. ring.
Qed.
(** ** C165: the direction of the second attempt *)
(** v is a direction of least curvature of H in n variables *)
Definition form (n : nat) (H : mat) (v : vec) : R := LaSpec.sum n (fun i => LaSpec.sum n (fun j => v i * H i j * v j)).
Definition norm (n : nat) (v : vec) : R := LaSpec.sum n (fun i => v i * v i).
Definition leastCurved (n : nat) (H : mat) (v : vec) : Prop := 0 < norm n v /\ forall w, form n H v * norm n w <= form n H w * norm n v.
(** a Hessian of a mixture inside a miscibility gap: curvature 1 along the first variable, -3 along the second *)
Definition gapH : mat := fun i j => match i, j with O, O => 1 | S O, S O => -3 | _, _ => 0 end.
Lemma gap_scale : hscale 2 gapH = -3.
Proof.
  assert (E0 := eps_pos). assert (SN : dblEps < 1) by (unfold dblEps; cbn [pow]; lra). unfold hscale, forUp. cbn [LaBase.repeat Nat.sub Nat.add]. unfold gapH.
  rewrite (Rabs_left (-3)) by lra. rewrite Rabs_R0, Rabs_R1. destruct (Rlt_dec dblEps 1); [|lra]. destruct (Rlt_dec 1 0); [lra|]. destruct (Rlt_dec 1 0); [lra|]. destruct (Rlt_dec 1 (- -3)); [reflexivity|lra].
Qed.
Definition e1 : vec := fun i => match i with O => 1 | _ => 0 end.
Definition e2 : vec := fun i => match i with S O => 1 | _ => 0 end.
(** C165 is false: the mixture is unstable along e2, but the direction of least curvature of the matrix that is searched is e1,
    along which the energy curves upwards as much as it can *)
Theorem C165_direction_refuted : leastCurved 2 gapH e2 /\ form 2 gapH e2 < 0 /\ leastCurved 2 (scaled 2 gapH) e1 /\ ~ leastCurved 2 (scaled 2 gapH) e2 /\
  0 < form 2 gapH e1 /\ forall w, form 2 gapH w * norm 2 e1 <= form 2 gapH e1 * norm 2 w.
Proof.
  unfold leastCurved, form, norm, scaled. rewrite gap_scale. cbn [LaSpec.sum]. unfold gapH, e1, e2. split; [|split; [|split; [|split; [|split]]]].
  - split; [lra|]. intro w. generalize (Rle_0_sqr (w 0%nat)) (Rle_0_sqr (w 1%nat)). unfold Rsqr. lra.
  - lra.
  - split; [lra|]. intro w. generalize (Rle_0_sqr (w 0%nat)) (Rle_0_sqr (w 1%nat)). unfold Rsqr. lra.
  - intros (_ & Q). specialize (Q (fun i => match i with O => 1 | _ => 0 end)). cbn in Q. lra.
  - lra.
  - intro w. generalize (Rle_0_sqr (w 0%nat)) (Rle_0_sqr (w 1%nat)). unfold Rsqr. lra.
Qed.
(** the scale can also be zero: the matrix is then divided by 0 *)
Definition flatH : mat := fun i j => match i, j with O, O => -3 | _, _ => 0 end.
Theorem C165_scale_zero_refuted : hscale 2 flatH = 0.
Proof.
  assert (E0 := eps_pos). assert (SN : dblEps < 1) by (unfold dblEps; cbn [pow]; lra). unfold hscale, forUp. cbn [LaBase.repeat Nat.sub Nat.add]. unfold flatH.
  rewrite (Rabs_left (-3)) by lra. rewrite Rabs_R0. destruct (Rlt_dec dblEps (- -3)); [|lra]. destruct (Rlt_dec (-3) 0); [|lra]. destruct (Rlt_dec 0 0); [lra|]. destruct (Rlt_dec 0 0); [lra|reflexivity].
Qed.
(** with no negative entry the scale is positive, and a direction of least curvature of the matrix is one of the Hessian *)
Lemma scale_pos n H : (forall i j, (i < n)%nat -> (j < n)%nat -> 0 <= H i j) -> 0 < hscale n H.
Proof.
  intro P. unfold hscale. apply (forUp_inv (fun _ s => 0 < s)); [lia|apply eps_pos|]. intros i s Hi S. apply (forUp_inv (fun _ s => 0 < s)); [lia|exact S|]. intros j s' Hj S'.
  destruct (Rlt_dec s' (Rabs (H i j))) as [L|L]; [|exact S']. rewrite Rabs_pos_eq in L by (apply P; lia). lra.
Qed.
Theorem C165_direction_partial : forall n H v, (forall i j, (i < n)%nat -> (j < n)%nat -> 0 <= H i j) -> (leastCurved n (scaled n H) v <-> leastCurved n H v).
Proof.
  intros n H v P. pose proof (scale_pos n H P) as S. assert (E : forall w, form n (scaled n H) w = / hscale n H * form n H w).
  { intro w. unfold form. rewrite <- LaBase.sum_scal. apply LaBase.sum_ext. intros i Hi. rewrite <- LaBase.sum_scal. apply LaBase.sum_ext. intros j Hj. unfold scaled, Rdiv. ring. }
  assert (S' := Rinv_0_lt_compat _ S). unfold leastCurved. split; intros (N & Q); split; try exact N; intro w; specialize (Q w).
  - rewrite !E in Q. apply Rmult_le_reg_l with (/ hscale n H); [exact S'|]. rewrite <- !Rmult_assoc. exact Q.
  - rewrite !E, !Rmult_assoc. apply Rmult_le_compat_l; [left; exact S'|exact Q].
Qed.
