(** Proofs about vmmin. *)
From Coq Require Import Reals ZArith Arith Bool Lia Lra.
From Verif Require Import LaSpec LaBase HhModel CholModel CholProofs NashModel NashProofs.
Local Open Scope R_scope.

Lemma forUp0_sum n f : forUp 0 n (fun i s => s + f i) 0 = sum n f.
Proof. rewrite forUp_sum, Nat.sub_0_r, Rplus_0_l. reflexivity. Qed.
Lemma direction_eq n B g i : direction n B g i = - sum n (fun j => B i j * g j).
Proof.
  unfold direction. rewrite <- (Rplus_0_l (- _)).
  pose proof (forUp_inv (fun k s => s = 0 + - sum k (fun j => B i j * g j)) 0 n (fun j s => s - B i j * g j) 0) as F. cbn beta in F.
  apply F; [lia|cbn; lra|]. intros k s _ ->. cbn [sum]. lra.
Qed.
Lemma still_le n X B r : (still n X B r <= n)%nat.
Proof.
  unfold still. pose proof (forUp_inv (fun k c => (c <= k)%nat) 0 n (fun i c => if Rlt_dec (Rabs (X i - B i)) r then S c else c) 0%nat) as F. cbn beta in F.
  apply F; try lia. intros i c _ H. destruct (Rlt_dec _ _); lia.
Qed.
Lemma still_all n X B r : still n X B r = n <-> forall i, (i < n)%nat -> Rabs (X i - B i) < r.
Proof.
  unfold still.
  pose proof (forUp_inv (fun k c => (c <= k)%nat /\ (c = k <-> forall i, (i < k)%nat -> Rabs (X i - B i) < r)) 0 n (fun i c => if Rlt_dec (Rabs (X i - B i)) r then S c else c) 0%nat) as F. cbn beta in F.
  apply F; try lia.
  - split; [lia|]. split; auto. intros; lia.
  - intros i c _ [H1 H2]. destruct (Rlt_dec (Rabs (X i - B i)) r) as [L|L].
    + split; [lia|]. split.
      * intros E k Hk. destruct (Nat.eq_dec k i); [subst; auto|]. apply H2; lia.
      * intros E. f_equal. apply H2. intros. apply E. lia.
    + split; [lia|]. split; [lia|]. intros E. elim L. apply E. lia.
Qed.

(** ** The metric stays symmetric and positive definite *)
Definition symm (n : nat) (A : mat) : Prop := forall i j, (i < n)%nat -> (j < n)%nat -> A i j = A j i.
Definition bil (n : nat) (A : mat) (x y : vec) : R := sum n (fun i => sum n (fun l => x i * A i l * y l)).
Lemma bil_quad n A x : quad n A x = bil n A x x.
Proof. reflexivity. Qed.
Lemma bil_dot n A x y : bil n A x y = dot n x (apply n A y).
Proof. unfold bil, dot, apply. apply sum_ext. intros. rewrite <- sum_scal. apply sum_ext. intros. ring. Qed.
Lemma bil_sym n A x y : symm n A -> bil n A x y = bil n A y x.
Proof. intros H. unfold bil. rewrite sum_swap. apply sum_ext. intros i Hi. apply sum_ext. intros j Hj. rewrite (H j i) by auto. ring. Qed.
Lemma quad_shift n A z c k : symm n A -> quad n A (fun i => z i - k * c i) = quad n A z - 2 * k * dot n z (apply n A c) + k * k * quad n A c.
Proof.
  intros H. rewrite <- bil_dot. unfold quad.
  rewrite (sum_ext n _ (fun i => (sum n (fun l => z i * A i l * z l) - k * sum n (fun l => z i * A i l * c l)) - (k * sum n (fun l => c i * A i l * z l) - (k * k) * sum n (fun l => c i * A i l * c l)))).
  2:{ intros i Hi. rewrite <- !sum_scal, <- !sum_minus. apply sum_ext. intros. ring. }
  rewrite !sum_minus, !sum_scal. change (sum n (fun i => sum n (fun l => z i * A i l * c l))) with (bil n A z c).
  change (sum n (fun i => sum n (fun l => c i * A i l * z l))) with (bil n A c z). rewrite (bil_sym n A c z H). ring.
Qed.
Lemma quad_ext n A A' x : (forall i j, (i < n)%nat -> (j < n)%nat -> A i j = A' i j) -> quad n A x = quad n A' x.
Proof. intros H. apply sum_ext. intros. apply sum_ext. intros. now rewrite H. Qed.
Lemma rank1 n (a b z : vec) : sum n (fun i => sum n (fun l => z i * (a i * b l) * z l)) = dot n a z * dot n b z.
Proof.
  unfold dot. rewrite (sum_ext n _ (fun i => sum n (fun l => b l * z l) * (a i * z i))).
  - rewrite sum_scal. ring.
  - intros i Hi. rewrite (sum_ext n _ (fun l => (z i * a i) * (b l * z l))) by (intros; ring). rewrite sum_scal. ring.
Qed.
Lemma metric_eq n B t c D1 i j : (i < n)%nat -> (j < n)%nat ->
  metric n B t c D1 i j = B i j - (t i * apply n B c j + apply n B c i * t j - (1 + quad n B c / D1) * t i * t j) / D1.
Proof.
  intros Hi Hj. unfold metric. cbv zeta. rewrite (proj2 (Nat.ltb_lt i n) Hi), (proj2 (Nat.ltb_lt j n) Hj). cbn [andb].
  assert (Q : forUp 0 n (fun i d => d + forUp 0 n (fun j s => s + B i j * c j) 0 * c i) 0 = quad n B c).
  { rewrite forUp0_sum, bil_quad, bil_dot. unfold dot, apply. apply sum_ext. intros k Hk. rewrite forUp0_sum. ring. }
  rewrite Q, !forUp0_sum. reflexivity.
Qed.
Lemma metric_quad n B t c D1 z : symm n B -> D1 <> 0 ->
  quad n (metric n B t c D1) z = quad n B (fun i => z i - dot n t z / D1 * c i) + dot n t z * dot n t z / D1.
Proof.
  intros H D. rewrite quad_shift by auto.
  rewrite (quad_ext n _ (fun i j => B i j - (t i * apply n B c j + apply n B c i * t j - (1 + quad n B c / D1) * t i * t j) / D1)) by (intros; now apply metric_eq).
  unfold quad at 1.
  rewrite (sum_ext n _ (fun i => sum n (fun l => z i * B i l * z l) - (/ D1) * sum n (fun l => z i * (t i * apply n B c l) * z l)
     - (/ D1) * sum n (fun l => z i * (apply n B c i * t l) * z l) + ((1 + quad n B c / D1) / D1) * sum n (fun l => z i * (t i * t l) * z l))).
  2:{ intros i Hi. rewrite <- !sum_scal, <- !sum_minus, <- sum_plus. apply sum_ext. intros. field. auto. }
  rewrite sum_plus, !sum_minus, !sum_scal, !rank1. change (sum n (fun i => sum n (fun l => z i * B i l * z l))) with (quad n B z).
  rewrite (dot_sym n (apply n B c) z). field. auto.
Qed.
Lemma ex_or_all n (x : vec) : (exists i, (i < n)%nat /\ x i <> 0) \/ (forall i, (i < n)%nat -> x i = 0).
Proof.
  induction n; [right; intros; lia|]. destruct IHn as [(i & H & X)|A]; [left; exists i; split; auto; lia|].
  destruct (Req_EM_T (x n) 0); [right; intros i Hi; destruct (Nat.eq_dec i n); [subst; auto|apply A; lia]|left; exists n; split; auto].
Qed.
Lemma metric_posdef n B t c D1 : symm n B -> posDef n B -> D1 = dot n t c -> 0 < D1 -> posDef n (metric n B t c D1).
Proof.
  intros H P E D z (i & Hi & Z). rewrite metric_quad by (auto; lra).
  assert (Q2 : 0 <= dot n t z * dot n t z / D1) by (apply Rmult_le_pos; [nra|left; now apply Rinv_0_lt_compat]).
  set (k := dot n t z / D1) in *. set (w := fun i => z i - k * c i).
  destruct (ex_or_all n w) as [Ex|All].
  - assert (0 < quad n B w) by (apply P; auto). lra.
  - assert (quad n B w = 0) as -> by (apply sum_0; intros; apply sum_0; intros; rewrite All by auto; ring).
    rewrite Rplus_0_l. assert (N0 : dot n t z <> 0).
    { intros E0. apply Z. specialize (All i Hi). unfold w, k in All. rewrite E0 in All. unfold Rdiv in All. lra. }
    apply Rmult_lt_0_compat; [nra|now apply Rinv_0_lt_compat].
Qed.
Lemma metric_symm n B t c D1 : symm n B -> symm n (metric n B t c D1).
Proof. intros H i j Hi Hj. rewrite !metric_eq by auto. rewrite (H i j) by auto. f_equal. f_equal. ring. Qed.
Lemma metric_secant n B t c D1 : symm n B -> D1 = dot n t c -> D1 <> 0 -> forall i, (i < n)%nat -> apply n (metric n B t c D1) c i = t i.
Proof.
  intros H E D i Hi. unfold apply at 1.
  rewrite (sum_ext n _ (fun j => B i j * c j - (t i / D1) * (c j * apply n B c j) - (apply n B c i / D1) * (t j * c j) + ((1 + quad n B c / D1) * t i / D1) * (t j * c j))).
  2:{ intros j Hj. rewrite metric_eq by auto. field. auto. }
  rewrite sum_plus, !sum_minus, !sum_scal. change (sum n (fun j => t j * c j)) with (dot n t c). rewrite <- E.
  change (sum n (fun j => c j * apply n B c j)) with (dot n c (apply n B c)). rewrite <- bil_dot, <- bil_quad.
  change (sum n (fun j => B i j * c j)) with (apply n B c i). field. auto.
Qed.
Lemma ident_posdef n : posDef n ident.
Proof.
  intros x (i & Hi & X). assert (E : quad n ident x = norm2 n x).
  { unfold quad, norm2, dot. apply sum_ext. intros k Hk.
    rewrite (sum_ext n _ (fun l => if Nat.eqb l k then x l * x l else 0)).
    - now rewrite (sum_one n k (fun l => x l * x l)).
    - intros l Hl. unfold ident. rewrite (Nat.eqb_sym k l). destruct (Nat.eqb_spec l k); [subst; ring|ring]. }
  rewrite E. pose proof (norm2_pos n x) as [P|P]; auto. exfalso. apply X. apply (norm2_zero n x); auto.
Qed.
Lemma ident_symm n : symm n ident.
Proof. intros i j _ _. unfold ident. now rewrite Nat.eqb_sym. Qed.

Lemma not_all_lt n (x : vec) r : ~ (forall i, (i < n)%nat -> Rabs (x i) < r) -> exists i, (i < n)%nat /\ r <= Rabs (x i).
Proof.
  induction n as [|k IH]; intros N; [elim N; intros; lia|].
  destruct (Rlt_le_dec (Rabs (x k)) r) as [A|A]; [|exists k; auto].
  destruct IH as (i & Hi & B); [|exists i; split; auto].
  intros C. apply N. intros i Hi. destruct (Nat.eq_dec i k); [subst; auto|apply C; lia].
Qed.
Lemma small_step n reltest (t : vec) (a : R) : 0 < reltest -> exists j, forall i, (i < n)%nat -> Rabs (a * (1/5) ^ j * t i) < reltest.
Proof.
  intros Hr. assert (One : forall x, exists N, forall j, (N <= j)%nat -> Rabs (x * (1/5) ^ j) < reltest).
  { intros x. destruct (pow_lt_1_zero (1/5) ltac:(rewrite Rabs_pos_eq; lra) (reltest / (Rabs x + 1))) as [N HN].
    - apply Rdiv_lt_0_compat; auto. pose proof (Rabs_pos x). lra.
    - exists N. intros j Hj. specialize (HN j Hj). rewrite Rabs_mult. pose proof (Rabs_pos x) as Px.
      assert (Rabs ((1/5) ^ j) * (Rabs x + 1) < reltest).
      { apply (Rmult_lt_reg_r (/ (Rabs x + 1))); [apply Rinv_0_lt_compat; lra|]. rewrite Rmult_assoc, Rinv_r, Rmult_1_r by lra. exact HN. }
      pose proof (Rabs_pos ((1/5) ^ j)). nra. }
  assert (G : exists N, forall j, (N <= j)%nat -> forall i, (i < n)%nat -> Rabs (a * (1/5) ^ j * t i) < reltest).
  { induction n as [|k IH].
    - exists O. intros; lia.
    - destruct IH as [N1 L1]. destruct (One (a * t k)) as [N2 L2]. exists (Nat.max N1 N2). intros j Hj i Hi. destruct (Nat.eq_dec i k).
      + subst. replace (a * (1/5) ^ j * t k) with (a * t k * (1/5) ^ j) by ring. apply L2. lia.
      + apply L1; lia. }
  destruct G as [N HN]. exists N. apply HN. auto.
Qed.
(** ** The run *)
Section Run.
Variables (n : nat) (fm : vec -> option R) (gr : vec -> vec) (reltest : R) (B0 : vec) (F0 : R).
Definition near (d : R) (X B : vec) : Prop := X = B \/ forall i, (i < n)%nat -> Rabs (X i - B i) < d.
Definition invv (ps : pcv * stv) : Prop :=
  let s := snd ps in
  (ilast s <= gradcount s)%nat /\
  (exists X, fm X = Some (Fmin s) /\ Fmin s <= F0 /\
     let here := match fst ps with Outer => Bv s | Search => Xv s end in
     (if (ilast s <? gradcount s)%nat then X = here else near reltest X here)) /\
  ((match fst ps with Search => true | Outer => (ilast s <? gradcount s)%nat end) = true -> symm n (Bm s) /\ posDef n (Bm s)) /\
  match fst ps with
  | Outer => True
  | Search => gradproj s < 0 /\ 0 < steplength s /\ cv s = gv s /\ (Z.of_nat (iters s) <= 10000)%Z /\
              gradproj s = sum n (fun i => tv s i * gv s i) /\ (forall i, (i < n)%nat -> tv s i = - apply n (Bm s) (gv s) i)
  end.
Definition postv (r : outv) : Prop :=
  exists X, fm X = Some (oF r) /\ oF r <= F0 /\ (codev r = SUCCESS -> X = oB r \/ forall i, (i < n)%nat -> Rabs (X i - oB r i) < 2 * reltest) /\
            (codev r = BAD_INITIAL -> near reltest X (oB r)) /\ codev r <> ITERS_EXCEEDED.
Lemma vmmin_step ps : invv ps -> match vmminStep n fm gr reltest ps with inl ps' => invv ps' | inr r => postv r end.
Proof.
  destruct ps as [pc s]. unfold invv, postv. cbn [fst snd]. intros (IL & (X & X1 & X2 & X3) & PD & M).
  destruct pc; cbn [vmminStep]; cbv zeta.
  - destruct (Z.ltb_spec 10000 (Z.of_nat (S (iters s)))) as [It|It].
    { exists X. cbn [codev oF oB]. split; auto. split; auto. split; [discriminate|]. split; [|discriminate]. intros _.
      destruct (ilast s <? gradcount s)%nat; auto. left; auto. }
    set (B := if Nat.eqb (ilast s) (gradcount s) then ident else Bm s).
    assert (PB : symm n B /\ posDef n B).
    { unfold B. destruct (Nat.eqb_spec (ilast s) (gradcount s)); [split; [apply ident_symm|apply ident_posdef]|]. apply PD. apply Nat.ltb_lt. lia. }
    destruct (Rlt_dec _ 0) as [Gp|Gp].
    + cbn [fst snd Bv Fmin Bm cv gv tv Xv gradproj steplength gradcount ilast iters]. split; auto. split; [exists X; auto|]. split; auto.
      split; auto. split; [lra|]. split; auto. split; [lia|]. split; [now rewrite forUp0_sum|].
      intros i Hi. now rewrite direction_eq.
    + destruct (Nat.eqb_spec 0 n).
      * exists X. cbn [codev oF oB]. split; auto. split; auto. split; [|split; discriminate]. intros _. right. intros; lia.
      * cbn [fst snd Bv Fmin Bm cv gv tv Xv gradproj steplength gradcount ilast iters]. split; [lia|].
        rewrite Nat.ltb_irrefl. split; [|split; [discriminate|auto]]. exists X. split; auto. split; auto.
        destruct (ilast s <? gradcount s)%nat; auto. left; auto.
  - destruct M as (Gp & St & Cg & It & Gs & Td).
    set (Bn := upto n (fun i => Xv s i + steplength s * tv s i) (Bv s)).
    specialize (PD eq_refl). pose proof (still_le n (Xv s) Bn reltest) as SL.
    destruct (Nat.ltb_spec (still n (Xv s) Bn reltest) n) as [Sn|Sn].
    + set (acc := match fm Bn with Some f => if Rle_dec f (Fmin s + gradproj s * steplength s * (1/10000)) then Some f else None | None => None end).
      assert (Acc : forall f, acc = Some f -> fm Bn = Some f /\ f <= Fmin s + gradproj s * steplength s * (1/10000)).
      { unfold acc. destruct (fm Bn) as [f|]; [|discriminate]. destruct (Rle_dec f _); [|discriminate]. intros f' [= <-]. auto. }
      destruct acc as [f|].
      * destruct (Acc f eq_refl) as [A1 A2]. assert (Fle : f <= F0) by nra.
        destruct (Rlt_dec 0 _) as [D|D]; cbn [fst snd Bv Fmin Bm cv gv tv Xv gradproj steplength gradcount ilast iters].
        -- split; [lia|]. split.
           ++ exists Bn. split; auto. split; auto. now rewrite (proj2 (Nat.ltb_lt _ _)) by lia.
           ++ split; [|auto]. intros _. rewrite forUp0_sum in D. split; [apply metric_symm; tauto|]. rewrite forUp0_sum. apply metric_posdef; auto; try tauto.
        -- split; [lia|]. rewrite Nat.ltb_irrefl. split; [|split; [discriminate|auto]]. exists Bn. split; auto. split; auto. now left.
      * cbn [fst snd Bv Fmin Bm cv gv tv Xv gradproj steplength gradcount ilast iters]. split; auto. split; [exists X; auto|].
        split; auto. split; auto. split; [lra|]. auto.
    + assert (Sa : still n (Xv s) Bn reltest = n) by lia. rewrite still_all in Sa.
      assert (Sb : forall i, (i < n)%nat -> Rabs (Xv s i - Bn i) < reltest) by auto.
      destruct (Nat.ltb_spec (ilast s) (gradcount s)) as [L|L].
      * subst X. destruct (Nat.eqb_spec 0 n).
        -- exists (Xv s). cbn [codev oF oB]. split; auto. split; auto. split; [|split; discriminate]. intros _. right. intros; lia.
        -- cbn [fst snd Bv Fmin Bm cv gv tv Xv gradproj steplength gradcount ilast iters]. split; [lia|]. rewrite Nat.ltb_irrefl.
           split; [|split; [discriminate|auto]]. exists (Xv s). split; auto. split; auto. right. auto.
      * destruct (Nat.eqb_spec (ilast s) (gradcount s)); [|lia].
        exists X. cbn [codev oF oB]. split; auto. split; auto. split; [|split; discriminate]. intros _. right. intros i Hi.
        specialize (Sb i Hi). destruct X3 as [->|X3].
        -- pose proof (Rabs_pos (Xv s i - Bn i)). lra.
        -- specialize (X3 i Hi). replace (X i - Bn i) with ((X i - Xv s i) + (Xv s i - Bn i)) by ring.
           pose proof (Rabs_triang (X i - Xv s i) (Xv s i - Bn i)). lra.
Qed.
Lemma vmmin_ok r : fm B0 = Some F0 -> runs (vmminStep n fm gr reltest) (vmminInit F0 B0 (gr B0)) r -> postv r.
Proof.
  intros E R. refine (runs_inv _ invv _ _ _ R _ _ _).
  - unfold invv, vmminInit. cbn [fst snd Bv Fmin Bm cv gv tv Xv gradproj steplength gradcount ilast iters]. split; auto.
    cbn [Nat.ltb Nat.leb]. split; [|split; [discriminate|auto]]. exists B0. split; auto. split; [lra|]. now left.
  - intros s s' I H. pose proof (vmmin_step s I) as P. rewrite H in P. exact P.
  - intros s t I H. pose proof (vmmin_step s I) as P. rewrite H in P. exact P.
Qed.

(** termination *)
Lemma search_shape s : match vmminStep n fm gr reltest (Search, s) with
  | inr _ => True
  | inl (Outer, s') => iters s' = iters s
  | inl (Search, s') => iters s' = iters s /\ tv s' = tv s /\ steplength s' = steplength s * (1/5) /\ exists i, (i < n)%nat /\ reltest <= Rabs (steplength s * tv s i)
  end.
Proof.
  cbn [vmminStep]. cbv zeta. set (Bn := upto n (fun i => Xv s i + steplength s * tv s i) (Bv s)).
  destruct (Nat.ltb_spec (still n (Xv s) Bn reltest) n) as [L|L].
  - set (acc := match fm Bn with Some f => if Rle_dec f (Fmin s + gradproj s * steplength s * (1/10000)) then Some f else None | None => None end).
    destruct acc; [destruct (Rlt_dec 0 _); reflexivity|]. cbn [iters tv steplength]. split; auto. split; auto. split; auto.
    assert (N : ~ (forall i, (i < n)%nat -> Rabs (steplength s * tv s i) < reltest)).
    { intros A. assert (still n (Xv s) Bn reltest = n); [|lia]. apply still_all. intros i Hi. unfold Bn, upto. rewrite (proj2 (Nat.ltb_lt i n) Hi).
      replace (Xv s i - (Xv s i + steplength s * tv s i)) with (- (steplength s * tv s i)) by ring. rewrite Rabs_Ropp. auto. }
    now apply (not_all_lt n (fun i => steplength s * tv s i)).
  - destruct (ilast s <? gradcount s)%nat; [destruct (Nat.eqb 0 n); auto|]. destruct (Nat.eqb (ilast s) (gradcount s)); auto.
Qed.
Lemma search_ends (j : nat) : forall s, (forall i, (i < n)%nat -> Rabs (steplength s * (1/5) ^ j * tv s i) < reltest) ->
  (forall s', iters s' = iters s -> exists r, runs (vmminStep n fm gr reltest) (Outer, s') r) ->
  exists r, runs (vmminStep n fm gr reltest) (Search, s) r.
Proof.
  induction j; intros s H Out; pose proof (search_shape s) as Sh; destruct (vmminStep n fm gr reltest (Search, s)) as [[[] s']|r] eqn:E;
    try (exists r; now apply runs_done);
    try (destruct (Out s' Sh) as [r R]; exists r; now apply (runs_next _ _ (Outer, s'))); destruct Sh as (I & T & St & i & Hi & L).
  - exfalso. specialize (H i Hi). rewrite pow_O, Rmult_1_r in H. lra.
  - destruct (IHj s') as [r R].
    + intros k Hk. rewrite T, St. replace (steplength s * (1/5) * (1/5) ^ j * tv s k) with (steplength s * (1/5) ^ S j * tv s k) by (cbn [pow]; ring). auto.
    + intros s'' E''. apply Out. congruence.
    + exists r. now apply (runs_next _ _ (Search, s')).
Qed.
Lemma vmmin_ends s : 0 < reltest -> exists r, runs (vmminStep n fm gr reltest) (Outer, s) r.
Proof.
  intros Hr.
  cut (forall k s, (10001 - Z.of_nat (iters s) <= Z.of_nat k)%Z -> exists r, runs (vmminStep n fm gr reltest) (Outer, s) r).
  { intros C. apply (C (Z.to_nat (10001 - Z.of_nat (iters s)))). lia. }
  clear s. induction k; intros s Hk; destruct (vmminStep n fm gr reltest (Outer, s)) as [ps|r] eqn:E; try (exists r; now apply runs_done).
  - exfalso. revert E. cbn [vmminStep]. cbv zeta. destruct (Z.ltb_spec 10000 (Z.of_nat (S (iters s)))); [discriminate|]. lia.
  - assert (Sh : iters (snd ps) = S (iters s)).
    { revert E. cbn [vmminStep]. cbv zeta. destruct (Z.ltb_spec 10000 (Z.of_nat (S (iters s)))); [discriminate|].
      destruct (Rlt_dec _ 0); [intros [= <-]; reflexivity|]. destruct (Nat.eqb 0 n); [discriminate|]. intros [= <-]; reflexivity. }
    destruct ps as [[] s']; cbn [snd] in Sh.
    + destruct (IHk s') as [r R]; [lia|]. exists r. now apply (runs_next _ _ (Outer, s')).
    + destruct (small_step n reltest (tv s') (steplength s') Hr) as [j Hj]. destruct (search_ends j s' Hj) as [r R].
      * intros s'' E''. apply IHk. lia.
      * exists r. now apply (runs_next _ _ (Search, s')).
Qed.
End Run.
Lemma vmmin_stationary n fm gr reltest B0 F0 f r : (0 < n)%nat -> fm B0 = Some f -> (forall i, (i < n)%nat -> gr B0 i = 0) ->
  vmmin n fm gr reltest B0 F0 r -> r = {| codev := BAD_INITIAL; oB := B0; oF := f |}.
Proof.
  intros Hn E G. unfold vmmin. rewrite E. intros R.
  refine (runs_inv _ (fun ps => fst ps = Outer /\ Bv (snd ps) = B0 /\ Fmin (snd ps) = f /\ gv (snd ps) = gr B0) (fun r => r = {| codev := BAD_INITIAL; oB := B0; oF := f |}) _ _ R _ _ _).
  - repeat split.
  - intros [pc s] ps'. cbn [fst snd]. intros (-> & A & B & C). cbn [vmminStep]. cbv zeta. destruct (_ <? _)%Z; [discriminate|].
    rewrite C. destruct (Rlt_dec _ 0) as [L|L].
    + exfalso. rewrite forUp0_sum, sum_0 in L; [lra|]. intros i Hi. rewrite G by auto. ring.
    + destruct (Nat.eqb_spec 0 n); [lia|]. intros [= <-]. cbn. auto.
  - intros [pc s] t. cbn [fst snd]. intros (-> & A & B & C). cbn [vmminStep]. cbv zeta. destruct (_ <? _)%Z; [intros [= <-]; now rewrite A, B|].
    destruct (Rlt_dec _ 0); [discriminate|]. destruct (Nat.eqb_spec 0 n); [lia|discriminate].
Qed.
(** one accepted step *)
Definition reachable {S T : Type} (step : S -> S + T) (s0 : S) (s : S) : Prop := forall P : S -> Prop, P s0 -> (forall s s', P s -> step s = inl s' -> P s') -> P s.
