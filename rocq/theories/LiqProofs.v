(** Sums over pairs of components and their derivatives. *)
From Coq Require Import Reals List Lia Lra Bool Arith.
From Verif Require Import MassModel MassProofs LiqModel RealTac.
Import ListNotations.
Open Scope R_scope.

Lemma sum_first n f : sum (S n) f = f 0%nat + sum n (fun j => f (S j)).
Proof. induction n; [cbn; ring|]. change (sum (S (S n)) f) with (sum (S n) f + f (S n)). rewrite IHn. cbn [sum]. ring. Qed.
Lemma sum_below n i f : (i <= n)%nat -> sum i f = sum n (fun j => if Nat.ltb j i then f j else 0).
Proof.
  intros L. induction L as [|n L IH].
  - apply sum_ext. intros j Hj. apply Nat.ltb_lt in Hj. now rewrite Hj.
  - cbn [sum]. rewrite <- IH. replace (n <? i)%nat with false by (symmetry; apply Nat.ltb_ge; lia). ring.
Qed.
Lemma is_derive_sumR (f : nat -> R -> R) (d : nat -> R) x n : (forall i, (i < n)%nat -> is_derive (f i) x (d i)) ->
  is_derive (fun y => sum n (fun i => f i y)) x (sum n d).
Proof.
  induction n; intros H; cbn [sum]; [apply (is_derive_const 0 x)|].
  apply (is_derive_plus (fun y => sum n (fun i => f i y)) (f n)); [apply IHn; auto|apply H; lia].
Qed.
Lemma isZ_spec x : isZ x = true <-> x = 0.
Proof. unfold isZ. destruct (Req_EM_T x 0); split; intros; auto; discriminate || contradiction. Qed.
Lemma isZ_ne x : x <> 0 -> isZ x = false.
Proof. unfold isZ. destruct (Req_EM_T x 0); intros; auto; contradiction. Qed.
(** the tests for zero only keep log(0) away: 0 * ln 0 = 0 here *)
Lemma xlogx_eq x : xlogx x = x * ln x.
Proof. unfold xlogx. destruct (isZ x) eqn:E; auto. apply isZ_spec in E. subst. ring. Qed.

(** ** The parameters are those of a pair *)
Lemma index_sym i j : (i < 19)%nat -> (j < 19)%nat -> index i j = index j i.
Proof.
  intros Hi Hj.
  assert (C : forallb (fun i => forallb (fun j => match index i j, index j i with Some a, Some b => Nat.eqb a b | None, None => true | _, _ => false end) (seq 0 19)) (seq 0 19) = true) by (vm_compute; reflexivity).
  rewrite forallb_forall in C. specialize (C i ltac:(apply in_seq; lia)). rewrite forallb_forall in C. specialize (C j ltac:(apply in_seq; lia)).
  destruct (index i j), (index j i); try discriminate; auto. apply Nat.eqb_eq in C. now subst.
Qed.
Lemma byPair_sym par i j : (i < 19)%nat -> (j < 19)%nat -> byPair par i j = byPair par j i.
Proof. intros. unfold byPair. now rewrite index_sym. Qed.

Section Pairs.
Variable n : nat.
Notation NA := (S n).
Definition symmetric (w : nat -> nat -> R) : Prop := forall i j, (i < NA)%nat -> (j < NA)%nat -> w i j = w j i.
Variable w : nat -> nat -> R.
Hypothesis Sym : symmetric w.
Notation pairs := (pairs n w).

Definition T (x y : nat -> R) : R := sum NA (fun i => sum NA (fun j => if Nat.ltb i j then x i * y j * w i j else 0)).
Definition row (x : nat -> R) (i : nat) : R := sum NA (fun j => if Nat.eqb j i then 0 else w i j * x j).
Lemma pairs_T x : pairs x = T x x. Proof. reflexivity. Qed.
Lemma pairs_ext x y : (forall i, (i < NA)%nat -> x i = y i) -> pairs x = pairs y.
Proof. intros H. unfold LiqModel.pairs. apply sum_ext. intros i Hi. apply sum_ext. intros j Hj. now rewrite !H. Qed.
Lemma row_ext x y i : (forall j, (j < NA)%nat -> x j = y j) -> row x i = row y i.
Proof. intros H. unfold row. apply sum_ext. intros j Hj. now rewrite H. Qed.
Lemma T_plus_l x x' y : T (fun i => x i + x' i) y = T x y + T x' y.
Proof. unfold T. rewrite <- sum_plus. apply sum_ext. intros i Hi. rewrite <- sum_plus. apply sum_ext. intros j Hj. destruct (i <? j)%nat; ring. Qed.
Lemma T_plus_r x y y' : T x (fun i => y i + y' i) = T x y + T x y'.
Proof. unfold T. rewrite <- sum_plus. apply sum_ext. intros i Hi. rewrite <- sum_plus. apply sum_ext. intros j Hj. destruct (i <? j)%nat; ring. Qed.
Lemma T_scal_l h x y : T (fun i => h * x i) y = h * T x y.
Proof. unfold T. rewrite <- sum_scal. apply sum_ext. intros i Hi. rewrite <- sum_scal. apply sum_ext. intros j Hj. destruct (i <? j)%nat; ring. Qed.
Lemma T_scal_r h x y : T x (fun i => h * y i) = h * T x y.
Proof. unfold T. rewrite <- sum_scal. apply sum_ext. intros i Hi. rewrite <- sum_scal. apply sum_ext. intros j Hj. destruct (i <? j)%nat; ring. Qed.
Lemma T_both x y : T x y + T y x = sum NA (fun i => x i * row y i).
Proof.
  assert (E : T y x = sum NA (fun i => sum NA (fun j => if Nat.ltb j i then x i * y j * w i j else 0))).
  { unfold T. rewrite sum_swap. apply sum_ext. intros i Hi. apply sum_ext. intros j Hj. destruct (j <? i)%nat; [|reflexivity]. rewrite (Sym j i) by auto. ring. }
  rewrite E. unfold T. rewrite <- sum_plus. apply sum_ext. intros i Hi. rewrite <- sum_plus. unfold row. rewrite <- sum_scal. apply sum_ext. intros j Hj.
  destruct (Nat.ltb_spec i j), (Nat.ltb_spec j i), (Nat.eqb_spec j i); try lia; ring.
Qed.
Lemma pairs_row x : sum NA (fun i => x i * row x i) = 2 * pairs x.
Proof. rewrite <- T_both, pairs_T. ring. Qed.
Lemma pairs_scal h x : pairs (fun i => h * x i) = h * h * pairs x.
Proof. rewrite !pairs_T, T_scal_l, T_scal_r. ring. Qed.
Lemma row_scal h x i : row (fun i => h * x i) i = h * row x i.
Proof. unfold row. rewrite <- sum_scal. apply sum_ext. intros j Hj. destruct (j =? i); ring. Qed.
Lemma pairs_line x e h : pairs (fun i => x i + h * e i) = pairs x + h * sum NA (fun i => e i * row x i) + h * h * pairs e.
Proof.
  rewrite !pairs_T, T_plus_l, !T_plus_r, T_scal_l, T_scal_r, T_scal_r, T_scal_l. rewrite <- T_both. ring.
Qed.
Lemma pairs_derive x e (f : R -> nat -> R) y0 : (forall y i, (i < NA)%nat -> f y i = x i + (y - y0) * e i) ->
  is_derive (fun y => pairs (f y)) y0 (sum NA (fun i => e i * row x i)).
Proof.
  intros H. apply (is_derive_ext (fun y => pairs x + (y - y0) * sum NA (fun i => e i * row x i) + (y - y0) * (y - y0) * pairs e)).
  - intros y. rewrite <- pairs_line. apply pairs_ext. intros i Hi. now rewrite H.
  - generalize (pairs x) (sum NA (fun i => e i * row x i)) (pairs e). intros A B C. auto_derive; [auto|]. match goal with |- ?a = ?b => change (@eq R a b) end. ring.
Qed.

(** ** In the independent variables *)
Variable r : nat -> R.
Notation xr := (xr n).
Definition dir (k i : nat) : R := match i with O => -1 | S j => if Nat.eqb j k then 1 else 0 end.
Lemma sum_upd k y : (k < n)%nat -> sum n (upd r k y) = sum n r + (y - r k).
Proof.
  intros Hk. rewrite (sum_ext n (upd r k y) (fun i => r i + (if Nat.eqb i k then y - r k else 0))).
  - rewrite sum_plus, sum_one. apply Nat.ltb_lt in Hk. now rewrite Hk.
  - intros i Hi. unfold upd. destruct (Nat.eqb_spec i k); [subst|]; ring.
Qed.
Lemma xr_upd k y i : (k < n)%nat -> xr (upd r k y) i = xr r i + (y - r k) * dir k i.
Proof.
  intros Hk. destruct i as [|i]; cbn [LiqModel.xr dir]; [rewrite sum_upd by auto; ring|].
  unfold upd. destruct (Nat.eqb_spec i k); [subst|]; ring.
Qed.
Lemma dir_sum k f : (k < n)%nat -> sum NA (fun i => dir k i * f i) = f (S k) - f 0%nat.
Proof.
  intros Hk. rewrite sum_first. cbn [dir]. rewrite (sum_ext n _ (fun j => if Nat.eqb j k then f (S j) else 0)) by (intros j Hj; destruct (Nat.eqb j k); ring).
  rewrite (sum_one_f n k (fun j => f (S j))). apply Nat.ltb_lt in Hk. rewrite Hk. ring.
Qed.
Lemma sum_xr : sum NA (xr r) = 1.
Proof. rewrite sum_first. cbn [LiqModel.xr]. rewrite (sum_ext n (fun j => r j) r) by auto. ring. Qed.
Lemma slope_row i : (i < n)%nat -> slope n w r i = row (xr r) (S i) - row (xr r) 0%nat.
Proof.
  intros Hi. unfold slope, row. rewrite !sum_first. cbn [Nat.eqb LiqModel.xr]. rewrite (Sym (S i) 0%nat) by lia.
  set (A := sum n (fun j => if i =? j then _ else _)).
  assert (E : A = sum n (fun j => if j =? i then 0 else w (S i) (S j) * r j) - sum n (fun j => w 0%nat (S j) * r j)).
  { unfold A, Rminus. rewrite <- (Rmult_1_l (sum n (fun j => w 0%nat (S j) * r j))), <- Ropp_mult_distr_l_reverse, <- sum_scal, <- sum_plus.
    apply sum_ext. intros j Hj. rewrite (Nat.eqb_sym i j). destruct (j =? i); ring. }
  rewrite E. ring.
Qed.
Lemma pairs_dr k : (k < n)%nat -> is_derive (fun y => pairs (xr (upd r k y))) (r k) (slope n w r k).
Proof.
  intros Hk. eapply is_derive_eq; [apply (pairs_derive (xr r) (dir k)); intros; now apply xr_upd|].
  rewrite dir_sum by auto. now rewrite slope_row.
Qed.
Lemma row_dr i k : (i < NA)%nat -> (k < n)%nat -> is_derive (fun y => row (xr (upd r k y)) i) (r k) ((if Nat.eqb (S k) i then 0 else w i (S k)) - (if Nat.eqb 0%nat i then 0 else w i 0%nat)).
Proof.
  intros Hi Hk. eapply is_derive_eq.
  - unfold row. apply (is_derive_sumR _ (fun j => dir k j * (if Nat.eqb j i then 0 else w i j))). intros j Hj.
    apply (is_derive_ext (fun y => if Nat.eqb j i then 0 else w i j * (xr r j + (y - r k) * dir k j))); [intros y; now rewrite xr_upd|].
    destruct (Nat.eqb j i); auto_derive; auto; ring.
  - rewrite (dir_sum k (fun j => if Nat.eqb j i then 0 else w i j)) by auto. reflexivity.
Qed.
Lemma slope_dr i k : (i < n)%nat -> (k < n)%nat -> is_derive (fun y => slope n w (upd r k y) i) (r k) (curve w i k).
Proof.
  intros Hi Hk.
  apply (is_derive_ext (fun y => row (xr (upd r k y)) (S i) - row (xr (upd r k y)) 0%nat)).
  { intros y. unfold slope. unfold row. rewrite !sum_first. cbn [Nat.eqb LiqModel.xr]. rewrite (Sym (S i) 0%nat) by lia.
    set (q := upd r k y). match goal with |- ?a = ?b => change (@eq R a b) end.
    assert (E : sum n (fun j => if i =? j then - q j * w 0%nat (S j) else q j * (w (S i) (S j) - w 0%nat (S j)))
       = sum n (fun j => if j =? i then 0 else w (S i) (S j) * q j) - sum n (fun j => w 0%nat (S j) * q j)).
    { unfold Rminus. rewrite <- (Rmult_1_l (sum n (fun j => w 0%nat (S j) * q j))), <- Ropp_mult_distr_l_reverse, <- sum_scal, <- sum_plus.
      apply sum_ext. intros j Hj. rewrite (Nat.eqb_sym i j). destruct (j =? i); ring. }
    rewrite E. ring. }
  eapply is_derive_eq; [apply (is_derive_minus (fun y => row (xr (upd r k y)) (S i)) (fun y => row (xr (upd r k y)) 0%nat)); apply row_dr; lia|].
  unfold minus, plus, opp; cbn [AbelianGroup.plus]. unfold curve. cbn [Nat.eqb]. rewrite (Sym (S i) 0%nat) by lia. rewrite (Nat.eqb_sym i k). cbn. destruct (k =? i); ring.
Qed.
End Pairs.
