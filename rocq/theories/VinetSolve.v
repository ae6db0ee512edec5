(** The compression computed for a solid with the Vinet equation of state (gibbs.c 485-491, 505-511), over a range of temperature
    and pressure. *)
From Coq Require Import Reals Lra Lia.
From Verif Require Import RealTac EosSpec EosModel EosProofs EosVinet EosProps VinetNewton.
Local Open Scope R_scope.
Lemma exp_lo w : 0 <= w -> w <= 2 -> (1 - w / 2) * (1 - w / 2) <= exp (- w).
Proof.
  intros H1 H2. replace (- w) with (- (w / 2) + - (w / 2)) by field. rewrite exp_plus. assert (K := exp_ineq1_le (- (w / 2))).
  apply Rmult_le_compat; lra.
Qed.
Lemma exp_hi w : 0 <= w -> w < 2 -> exp w <= / ((1 - w / 2) * (1 - w / 2)).
Proof.
  intros H1 H2. rewrite <- (Ropp_involutive w) at 1. rewrite exp_Ropp. apply Rinv_le_contravar; [nra|]. apply exp_lo; lra.
Qed.
(** bounds on the linear part vlin = P/10000 - alpha K (T - 298.15) and an interval of compressions *)
Record vrange := mkRange { v_lo : R; v_hi : R; v_a : R; v_b : R }.
Section Solve.
Variables (c : eosVinet) (V : vrange).
Notation lo := (v_lo V). Notation hi := (v_hi V). Notation a := (v_a V). Notation b := (v_b V).
Notation K := (vK c). Notation eta := (vinet_eta c).
Definition vwb := eta * (b - 1).
Definition vwa := eta * (1 - a).
Definition veb := (1 - vwb / 2) * (1 - vwb / 2).
Definition vea := / ((1 - vwa / 2) * (1 - vwa / 2)).
Definition vm := 2 * b * lo + 3 * K * (1 - vwb) * veb.
Definition vM := 2 * a * hi + 3 * K * (1 + vwa) * vea.
Definition vL := 3 * K * eta * (2 + vwa) * vea - 2 * lo.
(** what has to be checked about the numbers *)
Record vchecked : Prop := mkChecked {
  k_K : 0 < K; k_eta : 0 < eta; k_a : 1 / 2 < a < 1; k_b : 1 < b; k_lo : lo < 0; k_hi : 0 < hi;
  k_wb : vwb < 1; k_wa : vwa < 1;
  k_m : 0 < vm; k_M : vM <= 10 * vm; k_M2 : vM * (b - a) <= 1000;
  k_conc : 2 * hi <= 3 * K * eta * (2 - vwb) * veb;
  k_fa : a * a * hi < 3 * K * (1 - a); k_fb : 0 < b * b * lo + 3 * K * (b - 1) * veb }.
Hypothesis H : vchecked.
Lemma wb0 : 0 < vwb. Proof. destruct H. unfold vwb. apply Rmult_lt_0_compat; lra. Qed.
Lemma wa0 : 0 < vwa. Proof. destruct H. unfold vwa. apply Rmult_lt_0_compat; lra. Qed.
Lemma eb0 : 0 < veb <= 1. Proof. generalize wb0 (k_wb H). unfold veb. intros. split; nra. Qed.
Lemma ea0 : 1 <= vea. Proof. generalize wa0 (k_wa H). unfold vea. intros. rewrite <- Rinv_1. apply Rinv_le_contravar; nra. Qed.
Lemma u_range x : a <= x <= b -> - vwb <= eta * (1 - x) <= vwa.
Proof. intros [H1 H2]. unfold vwb, vwa. assert (E := k_eta H). split; nra. Qed.
Lemma exp_range x : a <= x <= b -> veb <= exp (eta * (1 - x)) <= vea.
Proof.
  intro Hx. destruct (u_range x Hx) as [U1 U2]. generalize wb0 wa0 (k_wb H) (k_wa H). intros. split.
  - apply Rle_trans with (exp (- vwb)); [apply exp_lo; lra|]. destruct (Req_dec (- vwb) (eta * (1 - x))) as [->|N]; [lra|]. left. apply exp_increasing. lra.
  - apply Rle_trans with (exp vwa); [|apply exp_hi; lra]. destruct (Req_dec (eta * (1 - x)) vwa) as [->|N]; [lra|]. left. apply exp_increasing. lra.
Qed.
Section At.
Variables (t p : R).
Notation l := (vlin c t p).
Hypothesis Hl : lo <= l <= hi.
Notation f := (vinet_fn c t p). Notation d := (vinet_dfn c t p).
Lemma fn_l x : f x = x * x * l - 3 * K * (1 - x) * exp (eta * (1 - x)).
Proof. unfold vinet_fn, vlin. replace (1.0 - x) with (1 - x) by (dec; lra). generalize (exp (eta * (1 - x))) tr. intros e t0. dec. field. Qed.
Lemma dfn_l x : d x = 2 * x * l + 3 * K * (1 + eta * (1 - x)) * exp (eta * (1 - x)).
Proof. unfold vinet_dfn, vlin. replace (1.0 - x) with (1 - x) by (dec; lra). generalize (exp (eta * (1 - x))) tr. intros e t0. dec. field. Qed.
Definition d2 x := 2 * l - 3 * K * eta * (2 + eta * (1 - x)) * exp (eta * (1 - x)).
Lemma d2_ok x : is_derive d x (d2 x).
Proof.
  apply is_derive_ext with (fun x => 2 * x * l + 3 * K * (1 + eta * (1 - x)) * exp (eta * (1 - x))); [intro y; symmetry; apply dfn_l|].
  unfold d2. generalize l eta K. intros l0 e0 K0. auto_derive; [trivial|]. change (1 + - x) with (1 - x). ring.
Qed.
Lemma ue_range x : a <= x <= b -> (2 - vwb) * veb <= (2 + eta * (1 - x)) * exp (eta * (1 - x)) <= (2 + vwa) * vea.
Proof.
  intro Hx. destruct (u_range x Hx) as [U1 U2]. destruct (exp_range x Hx) as [E1 E2]. generalize wb0 (k_wb H) eb0. intros. split; apply Rmult_le_compat; lra.
Qed.
Lemma d2_range x : a <= x <= b -> - vL <= d2 x <= 0.
Proof.
  intro Hx. destruct (ue_range x Hx) as [U1 U2]. assert (K0 := k_K H). assert (E0 := k_eta H). assert (C := k_conc H). assert (KE : 0 < 3 * K * eta) by nra.
  assert (A1 : 3 * K * eta * ((2 - vwb) * veb) <= 3 * K * eta * ((2 + eta * (1 - x)) * exp (eta * (1 - x)))) by (apply Rmult_le_compat_l; lra).
  assert (A2 : 3 * K * eta * ((2 + eta * (1 - x)) * exp (eta * (1 - x))) <= 3 * K * eta * ((2 + vwa) * vea)) by (apply Rmult_le_compat_l; lra).
  unfold d2, vL. rewrite <- (Rmult_assoc (3 * K * eta)) in A1, A2. rewrite <- (Rmult_assoc (3 * K * eta) (2 + eta * (1 - x))) in A1. rewrite <- (Rmult_assoc (3 * K * eta) (2 + vwa)) in A2. lra.
Qed.
Lemma mvt_d x y : a <= x -> x <= y -> y <= b -> exists xi, x <= xi <= y /\ d y - d x = d2 xi * (y - x).
Proof.
  intros H1 H2 H3. destruct (MVT_gen d x y d2) as (xi & B & E).
  - intros z Hz. apply d2_ok.
  - intros z Hz. apply continuity_pt_filterlim. apply (ex_derive_continuous d z). exists (d2 z). apply d2_ok.
  - rewrite Rmin_left, Rmax_right in B by lra. exists xi. split; assumption.
Qed.
Lemma Mon x y : a <= x -> x <= y -> y <= b -> d y <= d x.
Proof. intros H1 H2 H3. destruct (mvt_d x y H1 H2 H3) as (xi & B & E). assert (R := d2_range xi ltac:(lra)). nra. Qed.
Lemma Lip x y : a <= x -> x <= y -> y <= b -> d x - d y <= vL * (y - x).
Proof. intros H1 H2 H3. destruct (mvt_d x y H1 H2 H3) as (xi & B & E). assert (R := d2_range xi ltac:(lra)). nra. Qed.
Lemma mb : vm <= d b.
Proof.
  rewrite dfn_l. destruct (exp_range b) as [E1 E2]. { generalize (k_a H) (k_b H). lra. }
  assert (U : eta * (1 - b) = - vwb) by (unfold vwb; ring). rewrite U in *. unfold vm. assert (W := k_wb H). assert (K0 := k_K H). assert (B := k_b H).
  assert (2 * b * lo <= 2 * b * l) by (apply Rmult_le_compat_l; lra). assert (3 * K * (1 - vwb) * veb <= 3 * K * (1 + - vwb) * exp (- vwb)) by (apply Rmult_le_compat_l; [apply Rmult_le_pos; lra|exact E1]). lra.
Qed.
Lemma Ma : d a <= vM.
Proof.
  rewrite dfn_l. destruct (exp_range a) as [E1 E2]. { generalize (k_a H) (k_b H). lra. }
  change (eta * (1 - a)) with vwa in *. unfold vM. assert (W := wa0). assert (K0 := k_K H). assert (A := k_a H).
  assert (2 * a * l <= 2 * a * hi) by (apply Rmult_le_compat_l; lra). assert (3 * K * (1 + vwa) * exp vwa <= 3 * K * (1 + vwa) * vea) by (apply Rmult_le_compat_l; [apply Rmult_le_pos; lra|exact E2]). lra.
Qed.
Lemma fa : f a < 0.
Proof.
  rewrite fn_l. assert (F := k_fa H). assert (A := k_a H). assert (K0 := k_K H). assert (E := exp_ineq1_le (eta * (1 - a))). change (eta * (1 - a)) with vwa in *. assert (W := wa0).
  assert (a * a * l <= a * a * hi) by (apply Rmult_le_compat_l; nra).
  assert (3 * K * (1 - a) * 1 <= 3 * K * (1 - a) * exp vwa) by (apply Rmult_le_compat_l; [nra|lra]). lra.
Qed.
Lemma fb : 0 < f b.
Proof.
  rewrite fn_l. assert (F := k_fb H). assert (A := k_b H). assert (K0 := k_K H). destruct (exp_range b) as [E1 E2]. { generalize (k_a H) (k_b H). lra. }
  assert (U : eta * (1 - b) = - vwb) by (unfold vwb; ring). rewrite U in *.
  assert (b * b * lo <= b * b * l) by (apply Rmult_le_compat_l; nra).
  assert (3 * K * (b - 1) * veb <= 3 * K * (b - 1) * exp (- vwb)) by (apply Rmult_le_compat_l; [nra|lra]). lra.
Qed.
Lemma f_cont : continuity f.
Proof. intro x. apply continuity_pt_filterlim. apply (ex_derive_continuous f x). eexists. apply vinet_dfn_ok. Qed.
Lemma ab : a < b. Proof. generalize (k_a H) (k_b H). lra. Qed.
Definition theRoot : R := proj1_sig (IVT f a b f_cont ab fa fb).
Lemma theRoot_ok : a <= theRoot <= b /\ f theRoot = 0. Proof. unfold theRoot. apply proj2_sig. Qed.
Lemma only x : a <= x <= b -> f x = 0 -> x = theRoot.
Proof. destruct theRoot_ok as [R1 R2]. apply (root_unique f d a b vm theRoot (fun x _ => vinet_dfn_ok c t p x) Mon (k_m H) mb R1 R2). Qed.
Lemma start : a <= 1 - f 1 / d 1.
Proof.
  rewrite fn_l, dfn_l. replace (1 - 1) with 0 by ring. rewrite !Rmult_0_r, exp_0, !Rmult_0_l. assert (A := k_a H). assert (K0 := k_K H). assert (D1 : vm <= d 1).
  { generalize (Mon 1 b) mb (k_b H). lra. }
  rewrite dfn_l in D1. replace (1 - 1) with 0 in D1 by ring. rewrite !Rmult_0_r, exp_0 in D1. assert (m0 := k_m H).
  set (q := 2 * 1 * l + 3 * K * (1 + 0) * 1) in *. assert (Q : 0 < q) by lra. assert (F := k_fa H). assert (HI := k_hi H).
  enough ((1 * 1 * l - 0) / q <= 1 - a) by lra. apply Rmult_le_reg_r with q; [exact Q|]. unfold Rdiv. rewrite Rmult_assoc, Rinv_l by lra. unfold q.
  destruct (Rle_dec l 0) as [N|N]; [nra|]. assert (l * (2 * a - 1) <= hi * (2 * a - 1)) by (apply Rmult_le_compat_r; lra). assert (hi * (2 * a - 1) <= hi * (a * a)) by (apply Rmult_le_compat_l; nra). nra.
Qed.
Lemma enough_passes : (vM * ((1 - vm / vM) ^ 498 * (b - a))) ^ 2 <= dbl_epsilon.
Proof.
  assert (m0 := k_m H). assert (MM := k_M H). assert (M2 := k_M2 H). assert (AB := ab).
  assert (HM : vm <= vM) by (apply Rle_trans with (1 := mb), Rle_trans with (2 := Ma); apply Mon; lra).
  assert (Q1 : 0 <= 1 - vm / vM <= 9 / 10).
  { assert (vm / vM <= 1) by (apply Rmult_le_reg_r with vM; [lra|]; unfold Rdiv; rewrite Rmult_assoc, Rinv_l by lra; lra).
    assert (1 / 10 <= vm / vM) by (apply Rmult_le_reg_r with vM; [lra|]; unfold Rdiv; rewrite (Rmult_assoc vm), Rinv_l by lra; lra). lra. }
  assert (Q2 : 0 <= (1 - vm / vM) ^ 498 <= (/ 2) ^ 71).
  { split; [apply pow_le; lra|]. apply Rle_trans with ((9 / 10) ^ 498); [apply pow_incr; exact Q1|].
    replace 498%nat with (7 * 71 + 1)%nat by reflexivity. rewrite pow_add, pow_mult. rewrite <- (Rmult_1_r ((/ 2) ^ 71)).
    apply Rmult_le_compat; [apply pow_le, pow_le; lra|apply pow_le; lra| |lra]. apply pow_incr. split; [apply pow_le; lra|]. cbn [pow]. lra. }
  set (q := (1 - vm / vM) ^ 498) in *. replace (vM * (q * (b - a))) with (q * (vM * (b - a))) by ring.
  assert (P : 0 <= vM * (b - a)) by (apply Rmult_le_pos; lra).
  apply Rle_trans with (((/ 2) ^ 71 * 1000) ^ 2).
  - apply pow_incr. split; [apply Rmult_le_pos; lra|]. apply Rmult_le_compat; lra.
  - unfold dbl_epsilon. rewrite Rpow_mult_distr, <- pow_mult, <- Rinv_pow by lra. cbn [Nat.mul Nat.add]. replace (71 * 2)%nat with (52 + 90)%nat by reflexivity.
    replace (/ 2 ^ 52) with (/ 2 ^ (52 + 90) * 2 ^ 90) by (rewrite pow_add; field; split; apply pow_nonzero; lra).
    apply Rmult_le_compat_l; [left; apply Rinv_0_lt_compat, pow_lt; lra|]. apply Rle_trans with (2 ^ 20). lra. apply Rle_pow; [lra|lia].
Qed.
Theorem solve_close : Rabs (fst (vinet_solve c t p) - theRoot) <= vL / vm ^ 3 * dbl_epsilon /\ snd (vinet_solve c t p) ^ 2 <= dbl_epsilon.
Proof.
  unfold vinet_solve. replace 1.0 with 1 by (dec; lra). destruct theRoot_ok as [R1 R2].
  apply (loop_close c t p a b vm vM vL theRoot Mon Lip (k_m H) mb Ma R1 R2 ab 498 1); [generalize (k_a H) (k_b H); lra|exact start|exact enough_passes].
Qed.
Lemma root_nondeg : 0 < theRoot /\ vinet_nondeg c theRoot.
Proof.
  destruct theRoot_ok as [R1 R2]. assert (A := k_a H). split; [lra|]. unfold vinet_nondeg. intro Z.
  assert (D0 : vm <= d theRoot) by (generalize (Mon theRoot b) mb; lra). rewrite fn_l in R2. rewrite dfn_l in D0. assert (m0 := k_m H).
  set (x := theRoot) in *. set (e := exp (eta * (1 - x))) in *.
  assert (E : (2 * x * l + 3 * K * (1 + eta * (1 - x)) * e) * x = 2 * (x * x * l - 3 * K * (1 - x) * e) + 3 * K * e * (2 - x + eta * x - eta * x * x)) by ring.
  rewrite R2, Z in E. assert (0 < x) by lra. nra.
Qed.
End At.
End Solve.
