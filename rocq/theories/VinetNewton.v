(** Convergence of the Newton loop of the Vinet equation of state (gibbs.c 485-491): on an interval where the residual is
    increasing and concave the iterates stay in the interval, approach the root geometrically, and the value returned is within
    L*eps/m^3 of the root. *)
From Coq Require Import Reals Lra Lia.
From Verif Require Import RealTac EosModel EosVinet.
Local Open Scope R_scope.
Section Newton.
Variables (f d : R -> R) (a b m M L r : R).
Hypothesis D : forall x, a <= x <= b -> is_derive f x (d x).
Hypothesis Mon : forall x y, a <= x -> x <= y -> y <= b -> d y <= d x.
Hypothesis Lip : forall x y, a <= x -> x <= y -> y <= b -> d x - d y <= L * (y - x).
Hypothesis m0 : 0 < m.
Hypothesis mb : m <= d b.
Hypothesis Ma : d a <= M.
Hypothesis Rr : a <= r <= b.
Hypothesis root : f r = 0.
Lemma d_lo x : a <= x <= b -> m <= d x. Proof. intros [H1 H2]. generalize (Mon x b H1 H2 (Rle_refl b)). lra. Qed.
Lemma d_hi x : a <= x <= b -> d x <= M. Proof. intros [H1 H2]. generalize (Mon a x (Rle_refl a) H1 H2). lra. Qed.
Lemma chord x : a <= x <= b -> exists xi, (x <= xi <= r \/ r <= xi <= x) /\ f x = d xi * (x - r).
Proof.
  intro Hx. destruct (Rtotal_order x r) as [H|[H|H]].
  - destruct (MVT_gen f x r d) as (xi & B & E).
    + intros y Hy. rewrite Rmin_left, Rmax_right in Hy by lra. apply D. lra.
    + intros y Hy. rewrite Rmin_left, Rmax_right in Hy by lra. apply continuity_pt_filterlim. apply (ex_derive_continuous f y). exists (d y). apply D. lra.
    + rewrite Rmin_left, Rmax_right in B by lra. exists xi. split; [left; lra|]. lra.
  - exists x. split; [left; lra|]. subst x. rewrite root. ring.
  - destruct (MVT_gen f r x d) as (xi & B & E).
    + intros y Hy. rewrite Rmin_left, Rmax_right in Hy by lra. apply D. lra.
    + intros y Hy. rewrite Rmin_left, Rmax_right in Hy by lra. apply continuity_pt_filterlim. apply (ex_derive_continuous f y). exists (d y). apply D. lra.
    + rewrite Rmin_left, Rmax_right in B by lra. exists xi. split; [right; lra|]. lra.
Qed.
(** the only root in the interval *)
Lemma root_unique x : a <= x <= b -> f x = 0 -> x = r.
Proof.
  intros Hx E. destruct (chord x Hx) as (xi & B & F). rewrite E in F. assert (m <= d xi) by (apply d_lo; lra).
  destruct (Rmult_integral _ _ (eq_sym F)); lra.
Qed.
Notation next x := (x - f x / d x).
Lemma next_low x : a <= x -> x <= r -> x <= next x <= r /\ r - next x <= (1 - m / M) * (r - x).
Proof.
  intros H1 H2. assert (Hx : a <= x <= b) by lra. destruct (chord x Hx) as (xi & B & F).
  assert (X1 : x <= xi <= r) by lra. assert (X2 : m <= d xi) by (apply d_lo; lra). assert (X3 : d xi <= d x) by (apply Mon; lra).
  assert (X4 : d x <= M) by (apply d_hi; lra). rewrite F. assert (E : x - d xi * (x - r) / d x = x + (d xi / d x) * (r - x)) by (field; lra). rewrite E.
  assert (Q1 : d xi / d x <= 1) by (apply Rmult_le_reg_r with (d x); [lra|]; unfold Rdiv; rewrite Rmult_assoc, Rinv_l by lra; lra).
  assert (Q2 : m / M <= d xi / d x).
  { unfold Rdiv. apply Rmult_le_compat; [lra| |lra|]. left. apply Rinv_0_lt_compat. lra. apply Rinv_le_contravar; lra. }
  assert (Q3 : 0 < m / M) by (apply Rdiv_lt_0_compat; lra).
  generalize dependent (d xi / d x). generalize dependent (m / M). intros k _ q _ Q1 Q2 Q3 || intros. split; [split|]; nra.
Qed.
Lemma next_high x : r <= x -> x <= b -> next x <= r.
Proof.
  intros H1 H2. assert (Hx : a <= x <= b) by lra. destruct (chord x Hx) as (xi & B & F).
  assert (X1 : r <= xi <= x) by lra. assert (X3 : d x <= d xi) by (apply Mon; lra). assert (X4 : m <= d x) by (apply d_lo; lra).
  rewrite F. assert (E : x - d xi * (x - r) / d x = x + (d xi / d x) * (r - x)) by (field; lra). rewrite E.
  assert (Q1 : 1 <= d xi / d x) by (apply Rmult_le_reg_r with (d x); [lra|]; unfold Rdiv; rewrite Rmult_assoc, Rinv_l by lra; lra).
  nra.
Qed.
Lemma next_close x : a <= x <= b -> Rabs (next x - r) <= L / m ^ 3 * (f x * f x).
Proof.
  intros Hx. destruct (chord x Hx) as (xi & B & F). assert (X2 : m <= d xi) by (apply d_lo; lra). assert (X4 : m <= d x) by (apply d_lo; lra).
  assert (K : Rabs (d x - d xi) <= L * Rabs (x - r)).
  { destruct B as [B|B].
    - assert (0 <= d x - d xi) by (generalize (Mon x xi); lra). rewrite Rabs_pos_eq by lra. rewrite Rabs_left1 by lra.
      assert (H1 := Lip x xi). assert (0 <= L \/ xi = x) as [HL| ->] by (destruct (Req_dec xi x); [right; assumption|left; apply Rmult_le_reg_r with (xi - x); lra]).
      + assert (L * (xi - x) <= L * (r - x)) by (apply Rmult_le_compat_l; lra). replace (- (x - r)) with (r - x) by ring. lra.
      + assert (H2 := Lip x r). assert (d x - d r >= 0) by (generalize (Mon x r); lra). replace (- (x - r)) with (r - x) by ring. lra.
    - assert (0 <= d xi - d x) by (generalize (Mon xi x); lra). rewrite Rabs_left1 by lra. rewrite Rabs_pos_eq by lra.
      assert (H1 := Lip xi x). assert (0 <= L \/ xi = x) as [HL|EQ] by (destruct (Req_dec xi x); [right; assumption|left; apply Rmult_le_reg_r with (x - xi); lra]).
      + assert (L * (x - xi) <= L * (x - r)) by (apply Rmult_le_compat_l; lra). lra.
      + subst xi. assert (H2 := Lip r x). assert (d r - d x >= 0) by (generalize (Mon r x); lra). lra. }
  assert (E : next x - r = (d x - d xi) * (x - r) / d x) by (rewrite F; field; lra). rewrite E.
  unfold Rdiv. rewrite !Rabs_mult. rewrite (Rabs_pos_eq (/ d x)) by (left; apply Rinv_0_lt_compat; lra).
  assert (P0 := Rabs_pos (x - r)). assert (P1 := Rabs_pos (d x - d xi)).
  assert (Hd : 0 < / d x <= / m) by (split; [apply Rinv_0_lt_compat; lra|apply Rinv_le_contravar; lra]).
  assert (HL : 0 <= L * Rabs (x - r)) by lra.
  apply Rle_trans with (L * Rabs (x - r) * Rabs (x - r) * / m).
  - apply Rmult_le_compat; [apply Rmult_le_pos; assumption|lra| |lra]. apply Rmult_le_compat_r; assumption.
  - assert (G : f x * f x = d xi * d xi * (Rabs (x - r) * Rabs (x - r))) by (rewrite <- Rabs_mult, Rabs_pos_eq by apply Rle_0_sqr; rewrite F; ring).
    rewrite G. replace (L * Rabs (x - r) * Rabs (x - r) * / m) with (L * Rabs (x - r) * Rabs (x - r) * / m ^ 3 * (m * m)) by (field; lra).
    replace (L * / m ^ 3 * (d xi * d xi * (Rabs (x - r) * Rabs (x - r)))) with (L * Rabs (x - r) * Rabs (x - r) * / m ^ 3 * (d xi * d xi)) by ring.
    apply Rmult_le_compat_l. apply Rmult_le_pos. apply Rmult_le_pos; assumption. left. apply Rinv_0_lt_compat. apply pow_lt. exact m0.
    apply Rmult_le_compat; lra.
Qed.
Lemma f_bound x : a <= x <= b -> Rabs (f x) <= M * Rabs (x - r).
Proof.
  intros Hx. destruct (chord x Hx) as (xi & B & F). rewrite F, Rabs_mult. assert (X2 : m <= d xi) by (apply d_lo; lra). assert (d xi <= M) by (apply d_hi; lra).
  apply Rmult_le_compat_r. apply Rabs_pos. rewrite Rabs_pos_eq; lra.
Qed.
End Newton.
Section Loop.
Variables (c : eosVinet) (t p a b m M L r : R).
Notation f := (vinet_fn c t p). Notation d := (vinet_dfn c t p).
Hypothesis Mon : forall x y, a <= x -> x <= y -> y <= b -> d y <= d x.
Hypothesis Lip : forall x y, a <= x -> x <= y -> y <= b -> d x - d y <= L * (y - x).
Hypothesis m0 : 0 < m.
Hypothesis mb : m <= d b.
Hypothesis Ma : d a <= M.
Hypothesis Rr : a <= r <= b.
Hypothesis root : f r = 0.
Lemma DD x : a <= x <= b -> is_derive f x (d x). Proof. intros _. apply vinet_dfn_ok. Qed.
Lemma loop_low : forall fuel x, a <= x -> x <= r -> (M * ((1 - m / M) ^ fuel * (r - x))) ^ 2 <= dbl_epsilon ->
  exists y, a <= y <= b /\ vinet_newton c t p fuel x = (y - f y / d y, f y) /\ f y * f y <= dbl_epsilon.
Proof.
  induction fuel as [|n IH]; intros x H1 H2 H3; cbn [vinet_newton]; cbv zeta.
  - exists x. split; [lra|]. split; [reflexivity|]. apply Rle_trans with (2 := H3). cbn [pow].
    assert (B := f_bound f d a b m M r DD Mon m0 mb Ma Rr root x ltac:(lra)). rewrite (Rabs_left1 (x - r)) in B by lra.
    replace (f x * f x) with (Rabs (f x) * Rabs (f x)) by (rewrite <- Rabs_mult, Rabs_pos_eq by apply Rle_0_sqr; reflexivity).
    replace (1 * (r - x)) with (- (x - r)) by ring. rewrite Rmult_1_r. apply Rmult_le_compat; try apply Rabs_pos; assumption.
  - destruct (Rlt_dec dbl_epsilon (f x * f x)) as [N|N].
    + destruct (next_low f d a b m M r DD Mon m0 mb Ma Rr root x H1 H2) as ((B1 & B2) & B3).
      apply IH; [lra|exact B2|]. apply Rle_trans with (2 := H3).
      assert (HM : m <= M) by (generalize (d_lo d a b m Mon mb a ltac:(lra)); lra).
      assert (Q : 0 <= 1 - m / M) by (assert (m / M <= 1) by (apply Rmult_le_reg_r with M; [lra|]; unfold Rdiv; rewrite Rmult_assoc, Rinv_l by lra; lra); lra).
      apply pow_incr. split.
      * apply Rmult_le_pos; [lra|]. apply Rmult_le_pos; [apply pow_le; exact Q|lra].
      * apply Rmult_le_compat_l; [lra|]. cbn [pow]. rewrite (Rmult_comm (1 - m / M)), Rmult_assoc. apply Rmult_le_compat_l; [apply pow_le; exact Q|exact B3].
    + exists x. split; [lra|]. split; [reflexivity|]. lra.
Qed.
(** from any start in the interval from which the first iterate stays above a *)
Lemma loop_any : forall fuel x, a <= x <= b -> a <= x - f x / d x -> (M * ((1 - m / M) ^ fuel * (b - a))) ^ 2 <= dbl_epsilon ->
  exists y, a <= y <= b /\ vinet_newton c t p (S fuel) x = (y - f y / d y, f y) /\ f y * f y <= dbl_epsilon.
Proof.
  intros fuel x Hx Hn H3. cbn [vinet_newton]; cbv zeta. destruct (Rlt_dec dbl_epsilon (f x * f x)) as [N|N].
  - assert (U : x - f x / d x <= r).
    { destruct (Rle_dec x r) as [K|K]. apply (next_low f d a b m M r DD Mon m0 mb Ma Rr root x); lra.
      apply (next_high f d a b m r DD Mon m0 mb Rr root x); lra. }
    apply loop_low; [exact Hn|exact U|]. apply Rle_trans with (2 := H3).
    assert (HM : m <= M) by (generalize (d_lo d a b m Mon mb a ltac:(lra)); lra).
    assert (Q : 0 <= 1 - m / M) by (assert (m / M <= 1) by (apply Rmult_le_reg_r with M; [lra|]; unfold Rdiv; rewrite Rmult_assoc, Rinv_l by lra; lra); lra).
    apply pow_incr. split.
    + apply Rmult_le_pos; [lra|]. apply Rmult_le_pos; [apply pow_le; exact Q|lra].
    + apply Rmult_le_compat_l; [lra|]. apply Rmult_le_compat_l; [apply pow_le; exact Q|lra].
  - exists x. split; [lra|]. split; [reflexivity|]. lra.
Qed.
Lemma loop_close : a < b -> forall fuel x, a <= x <= b -> a <= x - f x / d x -> (M * ((1 - m / M) ^ fuel * (b - a))) ^ 2 <= dbl_epsilon ->
  Rabs (fst (vinet_newton c t p (S fuel) x) - r) <= L / m ^ 3 * dbl_epsilon /\ snd (vinet_newton c t p (S fuel) x) ^ 2 <= dbl_epsilon.
Proof.
  intros Hab fuel x Hx Hn H3. destruct (loop_any fuel x Hx Hn H3) as (y & Y1 & Y2 & Y3). rewrite Y2. cbn [fst snd]. split; [|cbn [pow]; rewrite Rmult_1_r; exact Y3].
  apply Rle_trans with (1 := next_close f d a b m L r DD Mon Lip m0 mb Rr root y Y1). apply Rmult_le_compat_l; [|exact Y3].
  apply Rmult_le_pos; [|left; apply Rinv_0_lt_compat, pow_lt; exact m0].
  assert (K := Lip a b (Rle_refl a) ltac:(lra) (Rle_refl b)). assert (K2 := Mon a b (Rle_refl a) ltac:(lra) (Rle_refl b)). apply Rmult_le_reg_r with (b - a); lra.
Qed.
End Loop.
