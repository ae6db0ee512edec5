(** Linear systems and implicitly defined functions of one real variable:
    the solution of a linear system is as smooth as its coefficients. *)
From Coq Require Import Reals Arith Lia Lra List.
From Coquelicot Require Import Coquelicot.
From Verif Require Import LaSpec LaBase.
Local Open Scope R_scope.

(** B is an inverse of the n x n matrix A *)
Definition delta (i j : nat) : R := if Nat.eqb i j then 1 else 0.
Definition inverse (n : nat) (A B : nat -> nat -> R) : Prop :=
  (forall i j, (i < n)%nat -> (j < n)%nat -> sum n (fun k => A i k * B k j) = delta i j) /\
  (forall i j, (i < n)%nat -> (j < n)%nat -> sum n (fun k => B i k * A k j) = delta i j).
Definition nonsingular (n : nat) (A : nat -> nat -> R) : Prop := exists B, inverse n A B.

Lemma sumx n f g : (forall i, (i < n)%nat -> f i = g i) -> sum n f = sum n g.
Proof. induction n; intros H; cbn; auto. rewrite IHn, H; auto. Qed.
Lemma sum_add n f g : sum n (fun i => f i + g i) = sum n f + sum n g.
Proof. induction n; cbn; [ring|rewrite IHn; ring]. Qed.
Lemma sum_sub n f g : sum n (fun i => f i - g i) = sum n f - sum n g.
Proof. induction n; cbn; [ring|rewrite IHn; ring]. Qed.
Lemma sum_mul n c f : sum n (fun i => c * f i) = c * sum n f.
Proof. induction n; cbn; [ring|rewrite IHn; ring]. Qed.
Lemma sum_mulr n c f : sum n (fun i => f i * c) = sum n f * c.
Proof. induction n; cbn; [ring|rewrite IHn; ring]. Qed.
Lemma sum_neg n f : sum n (fun i => - f i) = - sum n f.
Proof. induction n; cbn; [ring|rewrite IHn; ring]. Qed.
Lemma sum_swp n m (f : nat -> nat -> R) : sum n (fun i => sum m (fun j => f i j)) = sum m (fun j => sum n (fun i => f i j)).
Proof. induction n; cbn; [induction m; cbn; auto; rewrite <- IHm; ring|]. rewrite IHn, sum_add. reflexivity. Qed.
Lemma sum_zer n f : (forall i, (i < n)%nat -> f i = 0) -> sum n f = 0.
Proof. induction n; intros H; cbn; auto. rewrite IHn, H; auto; ring. Qed.
Lemma sum_dl n k f : (k < n)%nat -> sum n (fun i => delta k i * f i) = f k.
Proof.
  induction n; intros H; [lia|]. cbn. destruct (Nat.eq_dec k n) as [->|D].
  - rewrite (sum_zer n). { unfold delta. rewrite Nat.eqb_refl. ring. }
    intros i Hi. unfold delta. destruct (Nat.eqb_spec n i); [lia|ring].
  - rewrite IHn by lia. unfold delta. destruct (Nat.eqb_spec k n); [lia|ring].
Qed.
Lemma sum_abs n f : Rabs (sum n f) <= sum n (fun i => Rabs (f i)).
Proof. induction n; cbn; [rewrite Rabs_R0; lra|]. eapply Rle_trans; [apply Rabs_triang|]. lra. Qed.
Lemma sum_le n f g : (forall i, (i < n)%nat -> f i <= g i) -> sum n f <= sum n g.
Proof. induction n; intros H; cbn; [lra|]. apply Rplus_le_compat; auto. Qed.
Lemma sum_pos n f : (forall i, (i < n)%nat -> 0 <= f i) -> 0 <= sum n f.
Proof. induction n; intros H; cbn; [lra|]. apply Rplus_le_le_0_compat; auto. Qed.
Lemma sum_ge n f k : (forall i, (i < n)%nat -> 0 <= f i) -> (k < n)%nat -> f k <= sum n f.
Proof.
  induction n; intros H K; [lia|]. cbn. destruct (Nat.eq_dec k n) as [->|D].
  - pose proof (sum_pos n f ltac:(auto)). lra.
  - specialize (IHn ltac:(auto) ltac:(lia)). specialize (H n ltac:(lia)). lra.
Qed.

(** the solution is determined by the equations *)
Lemma inverse_solve n A B x b : inverse n A B ->
  (forall i, (i < n)%nat -> sum n (fun j => A i j * x j) = b i) ->
  forall i, (i < n)%nat -> x i = sum n (fun j => B i j * b j).
Proof.
  intros [_ L] H i Hi. rewrite <- (sum_dl n i x Hi).
  rewrite (sumx n (fun j => B i j * b j) (fun k => sum n (fun j => B i k * A k j * x j))).
  - rewrite sum_swp. apply sumx. intros j Hj. rewrite sum_mulr, L; auto.
  - intros k Hk. rewrite <- H by auto. rewrite <- sum_mul. apply sumx. intros. ring.
Qed.

Section Limits.
Context {T : Type} (F : (T -> Prop) -> Prop) {FF : ProperFilter F}.
Notation lim f l := (filterlim f F (locally (l : R))).
Lemma lim_eps (f : T -> R) (l : R) : lim f l <-> forall eps, 0 < eps -> F (fun y => Rabs (f y - l) < eps).
Proof.
  split.
  - intros H eps He. apply (H (fun z => Rabs (z - l) < eps)). exists (mkposreal eps He). intros z Hz. exact Hz.
  - intros H P [eps He]. unfold filtermap. generalize (H eps (cond_pos eps)). apply filter_imp. intros y Hy. apply He. exact Hy.
Qed.
Lemma lim_const c : lim (fun _ => c) c. Proof. apply filterlim_const. Qed.
Lemma lim_plus f g a b : lim f a -> lim g b -> lim (fun y => f y + g y) (a + b).
Proof. intros Hf Hg. apply (filterlim_comp_2 f g Rplus Hf Hg). apply (filterlim_plus (K:=R_AbsRing) (V:=R_NormedModule) a b). Qed.
Lemma lim_mult f g a b : lim f a -> lim g b -> lim (fun y => f y * g y) (a * b).
Proof. intros Hf Hg. apply (filterlim_comp_2 f g Rmult Hf Hg). apply (filterlim_mult (K:=R_AbsRing) a b). Qed.
Lemma lim_opp f a : lim f a -> lim (fun y => - f y) (- a).
Proof. intros Hf. apply (filterlim_comp _ _ _ f Ropp F (locally a) _ Hf). apply (filterlim_opp (K:=R_AbsRing) (V:=R_NormedModule) a). Qed.
Lemma lim_minus f g a b : lim f a -> lim g b -> lim (fun y => f y - g y) (a - b).
Proof. intros Hf Hg. apply (lim_plus f (fun y => - g y)); [exact Hf|now apply lim_opp]. Qed.
Lemma lim_sum n (f : nat -> T -> R) (l : nat -> R) : (forall i, (i < n)%nat -> lim (f i) (l i)) -> lim (fun y => sum n (fun i => f i y)) (sum n l).
Proof. induction n; intros H; cbn; [apply lim_const|]. apply lim_plus; auto. Qed.
Lemma lim_abs f a : lim f a -> lim (fun y => Rabs (f y)) (Rabs a).
Proof. intros Hf. apply (filterlim_comp _ _ _ f Rabs F (locally a) _ Hf). apply (filterlim_norm (K:=R_AbsRing) (V:=R_NormedModule) a). Qed.
Lemma lim_eq f a b : lim f a -> a = b -> lim f b. Proof. now intros H <-. Qed.
Lemma lim_ext (f g : T -> R) a : F (fun y => f y = g y) -> lim f a -> lim g a.
Proof. intros H. apply filterlim_ext_loc. exact H. Qed.

(** a linear system whose coefficients converge, to a nonsingular matrix:
    the solutions converge *)
Lemma linear_lim n (A : nat -> nat -> T -> R) (A0 B : nat -> nat -> R) (b x : nat -> T -> R) (b0 : nat -> R) :
  inverse n A0 B ->
  (forall i j, (i < n)%nat -> (j < n)%nat -> lim (A i j) (A0 i j)) ->
  (forall i, (i < n)%nat -> lim (b i) (b0 i)) ->
  F (fun y => forall i, (i < n)%nat -> sum n (fun j => A i j y * x j y) = b i y) ->
  forall i, (i < n)%nat -> lim (x i) (sum n (fun j => B i j * b0 j)).
Proof.
  intros Inv LA Lb Sol.
  set (E := fun i j y => sum n (fun k => B i k * (A0 k j - A k j y))).
  assert (LE : forall i j, (i < n)%nat -> (j < n)%nat -> lim (E i j) 0).
  { intros i j Hi Hj. eapply lim_eq; [apply (lim_sum n (fun k y => B i k * (A0 k j - A k j y)) (fun k => B i k * (A0 k j - A0 k j)))|].
    - intros k Hk. apply lim_mult; [apply lim_const|]. apply lim_minus; [apply lim_const|auto].
    - apply sum_zer. intros. ring. }
  set (c := fun i y => sum n (fun k => B i k * b k y)).
  assert (Lc : forall i, (i < n)%nat -> lim (c i) (sum n (fun k => B i k * b0 k))).
  { intros i Hi. apply (lim_sum n (fun k y => B i k * b k y)). intros k Hk. apply lim_mult; [apply lim_const|auto]. }
  assert (Eq : F (fun y => forall i, (i < n)%nat -> x i y = c i y + sum n (fun j => E i j y * x j y))).
  { revert Sol. apply filter_imp. intros y Sol i Hi.
    assert (forall k, (k < n)%nat -> sum n (fun j => A0 k j * x j y) = b k y + sum n (fun j => (A0 k j - A k j y) * x j y)) as H.
    { intros k Hk. rewrite <- Sol by auto. rewrite <- sum_add. apply sumx. intros. ring. }
    rewrite (inverse_solve n A0 B (fun j => x j y) _ Inv H i Hi). unfold c, E.
    rewrite (sumx n (fun j => sum n (fun k => B i k * (A0 k j - A k j y)) * x j y) (fun j => sum n (fun k => B i k * (A0 k j - A k j y) * x j y))) by (intros; now rewrite sum_mulr).
    rewrite sum_swp, <- sum_add. apply sumx. intros k Hk. rewrite Rmult_plus_distr_l, <- sum_mul. f_equal. apply sumx. intros. ring. }
  set (e := fun y => sum n (fun i => sum n (fun j => Rabs (E i j y)))).
  assert (Le : lim e 0).
  { eapply lim_eq; [apply (lim_sum n (fun i y => sum n (fun j => Rabs (E i j y))) (fun _ => 0))|apply sum_zer; auto].
    intros i Hi. eapply lim_eq; [apply (lim_sum n (fun j y => Rabs (E i j y)) (fun _ => 0))|apply sum_zer; auto].
    intros j Hj. rewrite <- Rabs_R0. apply lim_abs. auto. }
  set (M := fun y => sum n (fun i => Rabs (x i y))).
  set (C := fun y => sum n (fun i => Rabs (c i y))).
  set (C0 := sum n (fun i => Rabs (sum n (fun k => B i k * b0 k)))).
  assert (LC : lim C C0). { apply (lim_sum n (fun i y => Rabs (c i y))). intros i Hi. now apply lim_abs, Lc. }
  assert (C0p : 0 <= C0) by (apply sum_pos; intros; apply Rabs_pos).
  (* the rest of each equation is small *)
  assert (Bd : F (fun y => forall i, (i < n)%nat -> Rabs (x i y - c i y) <= e y * (2 * (C0 + 1)))).
  { pose proof (proj1 (lim_eps e 0) Le (1/2) ltac:(lra)) as H1.
    pose proof (proj1 (lim_eps C C0) LC 1 ltac:(lra)) as H2.
    generalize (filter_and _ _ Eq (filter_and _ _ H1 H2)). apply filter_imp. intros y (Hx & He & HC).
    assert (e0 : 0 <= e y) by (apply sum_pos; intros; apply sum_pos; intros; apply Rabs_pos).
    assert (M0 : 0 <= M y) by (apply sum_pos; intros; apply Rabs_pos).
    assert (Row : forall i, (i < n)%nat -> Rabs (sum n (fun j => E i j y * x j y)) <= sum n (fun j => Rabs (E i j y)) * M y).
    { intros i Hi. eapply Rle_trans; [apply sum_abs|]. rewrite <- sum_mulr. apply sum_le. intros j Hj. rewrite Rabs_mult.
      apply Rmult_le_compat_l; [apply Rabs_pos|]. apply (sum_ge n (fun j => Rabs (x j y)) j); auto. intros; apply Rabs_pos. }
    assert (MM : M y <= C y + e y * M y).
    { unfold M at 1, C, e. rewrite <- sum_mulr, <- sum_add. apply sum_le. intros i Hi. rewrite (Hx i Hi).
      eapply Rle_trans; [apply Rabs_triang|]. apply Rplus_le_compat_l. now apply Row. }
    apply Rabs_def2 in He. apply Rabs_def2 in HC.
    assert (M y <= 2 * (C0 + 1)) by nra.
    intros i Hi. rewrite (Hx i Hi). replace (c i y + sum n (fun j => E i j y * x j y) - c i y) with (sum n (fun j => E i j y * x j y)) by ring.
    eapply Rle_trans; [apply Row; auto|]. apply Rmult_le_compat; auto.
    - apply sum_pos; intros; apply Rabs_pos.
    - apply (sum_ge n (fun i => sum n (fun j => Rabs (E i j y))) i); auto. intros; apply sum_pos; intros; apply Rabs_pos. }
  intros i Hi. apply lim_eps. intros eps He.
  set (K := 2 * (C0 + 1)). assert (Kp : 0 < K) by (unfold K; lra).
  pose proof (proj1 (lim_eps _ _) (Lc i Hi) (eps / 2) ltac:(lra)) as H1.
  pose proof (proj1 (lim_eps e 0) Le (eps / 2 / K) ltac:(apply Rdiv_lt_0_compat; lra)) as H2.
  generalize (filter_and _ _ Bd (filter_and _ _ H1 H2)). apply filter_imp. intros y (Hb & Hc & Hey).
  specialize (Hb i Hi). fold K in Hb.
  assert (e y * K < eps / 2).
  { apply Rabs_def2 in Hey. destruct Hey as [Hey _]. rewrite Rminus_0_r in Hey. apply Rmult_lt_reg_r with (/ K); [now apply Rinv_0_lt_compat|].
    replace (e y * K * / K) with (e y) by (field; lra). exact Hey. }
  replace (x i y - sum n (fun j => B i j * b0 j)) with ((x i y - c i y) + (c i y - sum n (fun k => B i k * b0 k))) by ring.
  eapply Rle_lt_trans; [apply Rabs_triang|]. lra.
Qed.
End Limits.

(** ** Derivatives as limits of slopes *)
Notation pl y0 := (@locally' R_UniformSpace (y0 : R)).
Definition slope (f : R -> R) (y0 y : R) : R := (f y - f y0) / (y - y0).
Global Instance punctured_proper (y0 : R) : ProperFilter (pl y0).
Proof.
  constructor.
  - intros P [d Hd]. exists (y0 + d / 2). pose proof (cond_pos d).
    apply Hd; [|lra]. change (Rabs (y0 + d / 2 - y0) < d). rewrite Rabs_right; lra.
  - apply within_filter. apply locally_filter.
Qed.
Lemma locally_punctured (P : R -> Prop) y0 : locally y0 P -> pl y0 P.
Proof. intros [d Hd]. exists d. intros y Hy _. exact (Hd y Hy). Qed.
Lemma punctured_ne y0 : pl y0 (fun y => y <> y0).
Proof. exists (mkposreal 1 Rlt_0_1). intros y _ H. exact H. Qed.
Lemma derive_slope (f : R -> R) y0 d : is_derive f y0 d <-> filterlim (slope f y0) (pl y0) (locally d).
Proof.
  split.
  - intros H. apply is_derive_Reals in H. apply (lim_eps (pl y0)). intros eps He. destruct (H eps He) as [del Hd]. exists del.
    intros y Hy Ne. specialize (Hd (y - y0) ltac:(lra) Hy). rewrite (Rplus_minus y0 y) in Hd. exact Hd.
  - intros H. apply is_derive_Reals. intros eps He. destruct (proj1 (lim_eps (pl y0) _ _) H eps He) as [del Hd].
    exists del. intros h Nz Hh. specialize (Hd (y0 + h)).
    assert (ball y0 del (y0 + h)) as Bl by (change (Rabs (y0 + h - y0) < del); replace (y0 + h - y0) with h by ring; exact Hh).
    specialize (Hd Bl ltac:(lra)). unfold slope in Hd. replace (y0 + h - y0) with h in Hd by ring. exact Hd.
Qed.
Lemma lim_punctured (f : R -> R) y0 (l : R) : filterlim f (locally y0) (locally l) -> filterlim f (pl y0) (locally l).
Proof. intros H P HP. apply locally_punctured. exact (H P HP). Qed.
Lemma slope_mult f y0 y : y <> y0 -> slope f y0 y * (y - y0) = f y - f y0.
Proof. intros H. unfold slope. field. lra. Qed.

Section Implicit.
Variable n : nat.
Variable y0 : R.
Variable A0 B : nat -> nat -> R.
Hypothesis Inv : inverse n A0 B.

(** a differentiable linear system has a differentiable solution *)
Lemma linear_derive (A : nat -> nat -> R -> R) (dA : nat -> nat -> R) (b x : nat -> R -> R) (db : nat -> R) :
  (forall i j, (i < n)%nat -> (j < n)%nat -> A i j y0 = A0 i j) ->
  (forall i j, (i < n)%nat -> (j < n)%nat -> is_derive (A i j) y0 (dA i j)) ->
  (forall i, (i < n)%nat -> is_derive (b i) y0 (db i)) ->
  locally y0 (fun y => forall i, (i < n)%nat -> sum n (fun j => A i j y * x j y) = b i y) ->
  forall i, (i < n)%nat -> is_derive (x i) y0 (sum n (fun j => B i j * (db j - sum n (fun k => dA j k * x k y0)))).
Proof.
  intros EA DA Db Sol i Hi. apply derive_slope.
  apply (linear_lim (pl y0) n A A0 B (fun j y => slope (b j) y0 y - sum n (fun k => slope (A j k) y0 y * x k y0)) (fun j y => slope (x j) y0 y)
    (fun j => db j - sum n (fun k => dA j k * x k y0)) Inv).
  - intros k j Hk Hj. apply lim_punctured. rewrite <- EA by auto.
    apply (ex_derive_continuous (K:=R_AbsRing) (V:=R_NormedModule) (A k j) y0). eexists. apply DA; auto.
  - intros j Hj. apply lim_minus; [typeclasses eauto|apply derive_slope; auto|].
    apply (lim_sum (pl y0) n (fun k y => slope (A j k) y0 y * x k y0) (fun k => dA j k * x k y0)).
    intros k Hk. apply lim_mult; [typeclasses eauto| |apply filterlim_const]. apply derive_slope. auto.
  - generalize (filter_and _ _ (locally_punctured _ _ Sol) (punctured_ne y0)). apply filter_imp. intros y [S Ne] j Hj.
    pose proof (locally_singleton _ _ Sol j Hj) as S0. cbv beta in S0. specialize (S j Hj).
    apply (Rmult_eq_reg_r (y - y0)); [|lra].
    rewrite Rmult_minus_distr_r, <- !sum_mulr, (slope_mult (b j)) by auto. rewrite <- S, <- S0.
    rewrite (sumx n (fun k => slope (A j k) y0 y * x k y0 * (y - y0)) (fun k => (A j k y - A j k y0) * x k y0))
      by (intros k Hk; rewrite <- (slope_mult (A j k) y0 y Ne); ring).
    rewrite (sumx n (fun k => A j k y * slope (x k) y0 y * (y - y0)) (fun k => A j k y * (x k y - x k y0)))
      by (intros k Hk; rewrite <- (slope_mult (x k) y0 y Ne); ring).
    rewrite <- !sum_sub. apply sumx. intros. ring.
  - exact Hi.
Qed.

(** a continuous solution of equations with slopes c and a is differentiable *)
Lemma implicit_derive (a : nat -> nat -> R -> R) (c x : nat -> R -> R) (c0 : nat -> R) :
  (forall i j, (i < n)%nat -> (j < n)%nat -> filterlim (a i j) (locally y0) (locally (A0 i j))) ->
  (forall i, (i < n)%nat -> filterlim (c i) (locally y0) (locally (c0 i))) ->
  locally y0 (fun y => forall i, (i < n)%nat -> c i y * (y - y0) + sum n (fun j => a i j y * (x j y - x j y0)) = 0) ->
  forall i, (i < n)%nat -> is_derive (x i) y0 (sum n (fun j => B i j * - c0 j)).
Proof.
  intros La Lc Sol i Hi. apply derive_slope.
  apply (linear_lim (pl y0) n a A0 B (fun j y => - c j y) (fun j y => slope (x j) y0 y) (fun j => - c0 j) Inv).
  - intros. apply lim_punctured. auto.
  - intros j Hj. apply lim_opp. apply lim_punctured. auto.
  - generalize (filter_and _ _ (locally_punctured _ _ Sol) (punctured_ne y0)). apply filter_imp. intros y [S Ne] j Hj.
    specialize (S j Hj). apply (Rmult_eq_reg_r (y - y0)); [|lra]. rewrite <- sum_mulr.
    rewrite (sumx n (fun k => a j k y * slope (x k) y0 y * (y - y0)) (fun k => a j k y * (x k y - x k y0)))
      by (intros k Hk; rewrite <- (slope_mult (x k) y0 y Ne); ring). lra.
  - exact Hi.
Qed.
End Implicit.
