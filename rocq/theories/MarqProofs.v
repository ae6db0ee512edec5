(** Proofs about modmrt. *)
From Coq Require Import Reals ZArith Arith Bool Lia Lra.
From Verif Require Import LaSpec LaBase HhModel CholModel CholProofs NashModel NashProofs VmminProofs.
Local Open Scope R_scope.

Definition val (o : option R) : R := match o with Some y => y | None => 0 end.
Definition ssq (m : nat) (r : nat -> vec -> option R) (x : vec) : R := sum m (fun i => val (r i x) * val (r i x)).
Definition computable (m : nat) (r : nat -> vec -> option R) (x : vec) : Prop := forall i, (i < m)%nat -> r i x <> None.

Lemma residuals_spec m r B res : match residuals m r B res with
  | Some (res', p) => (forall i, (i < m)%nat -> r i B = Some (res' i)) /\ p = ssq m r B
  | None => exists i, (i < m)%nat /\ r i B = None
  end.
Proof.
  unfold residuals.
  pose proof (forUp_inv (fun k st => match st with
    | Some (res', p) => (forall i, (i < k)%nat -> r i B = Some (res' i)) /\ p = ssq k r B
    | None => exists i, (i < k)%nat /\ r i B = None end) 0 m) as F. cbn beta in F. apply F; [lia| |].
  - split; [intros; lia|reflexivity].
  - intros i [[res' p]|] _.
    + intros [A ->]. destruct (r i B) as [y|] eqn:E; [|exists i; auto]. split.
      * intros k Hk. destruct (Nat.eq_dec k i); [subst; now rewrite updv_same|]. rewrite updv_other by auto. apply A. lia.
      * unfold ssq. cbn [sum]. rewrite E. reflexivity.
    + intros (k & Hk & E). exists k. split; auto.
Qed.

Lemma normal_row n (X : vec) (y : R) (a v : vec) :
  let '(a', v') := forUp 1 (n + 1) (fun j av =>
      let '(a, v) := av in
      let v' := updv v (j - 1) (v (j - 1)%nat + X (j - 1)%nat * y) in
      let q := (j * (j - 1) / 2)%nat in
      (forUp 1 (j + 1) (fun k a => updv a (q + k - 1) (a (q + k - 1)%nat + X (j - 1)%nat * X (k - 1)%nat)) a, v')) (a, v) in
  (forall i l, (l <= i)%nat -> (i < n)%nat -> a' (ix i l) = a (ix i l) + X i * X l) /\ (forall i, (i < n)%nat -> v' i = v i + X i * y).
Proof.
  match goal with |- context [forUp 1 (n + 1) ?f (a, v)] => set (body := f) end.
  pose proof (forUp_inv (fun j av => (forall i l, (l <= i)%nat -> fst av (ix i l) = if (i <? j - 1)%nat then a (ix i l) + X i * X l else a (ix i l)) /\
     (forall i, snd av i = if (i <? j - 1)%nat then v i + X i * y else v i)) 1 (n + 1) body (a, v)) as F. cbn beta in F.
  destruct F as [F1 F2]; [lia| | |].
  - cbn [fst snd]. auto.
  - intros j [a1 v1] Hj [E1 E2]. cbn [fst snd] in *. destruct j as [|j]; [lia|]. unfold body. cbn [fst snd].
    replace (S j - 1)%nat with j in * by lia. replace (S (S j) - 1)%nat with (S j) by lia. split.
    + pose proof (forUp_inv (fun k a2 => forall i l, (l <= i)%nat -> a2 (ix i l) = if Nat.eqb i j && (l <? k - 1)%nat then a1 (ix i l) + X i * X l else a1 (ix i l)) 1 (S j + 1)) as G. cbn beta in G.
      intros i l Ll. erewrite G; try exact Ll; [|lia|..].
      * replace (S j + 1 - 1)%nat with (S j) by lia. rewrite E1 by auto.
        destruct (Nat.eqb_spec i j); cbn [andb].
        -- subst. rewrite (proj2 (Nat.ltb_lt l (S j))) by lia. rewrite (proj2 (Nat.ltb_lt j (S j))) by lia. now rewrite Nat.ltb_irrefl.
        -- destruct (Nat.ltb_spec i j), (Nat.ltb_spec i (S j)); auto; lia.
      * intros i' l' _. replace (1 - 1)%nat with O by lia. rewrite Bool.andb_false_r. reflexivity.
      * intros k a2 Hk IH i' l' L'. destruct k as [|k]; [lia|].
        replace (S j * j / 2 + S k - 1)%nat with (ix j k) by (unfold ix; replace (S j * j)%nat with (j * (j + 1))%nat by lia; lia).
        rewrite updv_ix by lia. replace (S k - 1)%nat with k in * by lia. replace (S (S k) - 1)%nat with (S k) by lia.
        rewrite (Nat.eqb_sym j i'). destruct (Nat.eqb_spec i' j); cbn [andb].
        -- subst i'. destruct (Nat.eqb_spec k l').
           ++ subst l'. rewrite (proj2 (Nat.ltb_lt k (S k))) by lia. rewrite IH by lia. rewrite Nat.eqb_refl, Nat.ltb_irrefl. reflexivity.
           ++ rewrite IH by lia. rewrite Nat.eqb_refl. cbn [andb]. destruct (Nat.ltb_spec l' k), (Nat.ltb_spec l' (S k)); auto; lia.
        -- rewrite IH by lia. rewrite (proj2 (Nat.eqb_neq i' j)) by auto. reflexivity.
    + intros i. destruct (Nat.eq_dec i j).
      * subst. rewrite updv_same, E2, Nat.ltb_irrefl. now rewrite (proj2 (Nat.ltb_lt j (S j))) by lia.
      * rewrite updv_other, E2 by auto. destruct (Nat.ltb_spec i j), (Nat.ltb_spec i (S j)); auto; lia.
  - destruct (forUp 1 (n + 1) body (a, v)) as [a' v']. cbn [fst snd] in *. replace (n + 1 - 1)%nat with n in * by lia. split.
    + intros i l Ll Hi. rewrite F1 by auto. now rewrite (proj2 (Nat.ltb_lt i n) Hi).
    + intros i Hi. rewrite F2. now rewrite (proj2 (Nat.ltb_lt i n) Hi).
Qed.
Lemma normalEqs_spec n m J res : let '(a, v) := normalEqs n m J res in
  (forall i l, (l <= i)%nat -> (i < n)%nat -> a (ix i l) = sum m (fun k => J k i * J k l)) /\ (forall i, (i < n)%nat -> v i = sum m (fun k => J k i * res k)).
Proof.
  unfold normalEqs.
  pose proof (forUp_inv (fun k av => let '(a, v) := av in (forall i l, (l <= i)%nat -> (i < n)%nat -> a (ix i l) = sum k (fun k => J k i * J k l)) /\ (forall i, (i < n)%nat -> v i = sum k (fun k => J k i * res k))) 0 m) as F.
  cbn beta in F. apply F; [lia| |].
  - split; intros; reflexivity.
  - intros k [a v] Hk [A V]. pose proof (normal_row n (J k) (res k) a v) as N. cbv zeta in *.
    destruct (forUp 1 (n + 1) _ (a, v)) as [a' v']. destruct N as [N1 N2]. split; intros; cbn [sum]; [rewrite N1, A by auto|rewrite N2, V by auto]; reflexivity.
Qed.
Lemma damp_spec n lam c a : forall i l, (l <= i)%nat -> (i < n)%nat -> damp n lam c a (ix i l) = if Nat.eqb i l then c (ix i i) * (1 + lam) + lam else c (ix i l).
Proof.
  unfold damp. cbv zeta.
  match goal with |- context [forUp 1 (n + 1) ?f a] => set (body := f) end.
  pose proof (forUp_inv (fun j a' => forall i l, (l <= i)%nat -> a' (ix i l) = if (i <? j - 1)%nat then (if Nat.eqb i l then c (ix i i) * (1 + lam) + lam else c (ix i l)) else a (ix i l)) 1 (n + 1) body a) as F.
  cbn beta in F. intros i l Ll Hi.
  assert (FF : forall i l, (l <= i)%nat -> forUp 1 (n + 1) body a (ix i l) = if (i <? n + 1 - 1)%nat then (if Nat.eqb i l then c (ix i i) * (1 + lam) + lam else c (ix i l)) else a (ix i l)).
  { apply F; [lia|intros; replace (1 - 1)%nat with O by lia; reflexivity|]. clear. intros j a1 Hj IH i l Ll. destruct j as [|j]; [lia|]. unfold body. rewrite idx_q.
      replace (S (S j) - 1)%nat with (S j) by lia. replace (S j - 1)%nat with j in IH by lia.
      set (a2 := updv a1 (ix j j) (c (ix j j) * (1 + lam) + 1 * lam)).
      assert (A2 : forall i l, (l <= i)%nat -> a2 (ix i l) = if Nat.eqb i j && Nat.eqb l j then c (ix j j) * (1 + lam) + lam else a1 (ix i l)).
      { intros i' l' L'. unfold a2. rewrite updv_ix by lia. rewrite (Nat.eqb_sym j i'), (Nat.eqb_sym j l'). destruct (_ && _); auto. ring. }
      assert (A3 : forall i l, (l <= i)%nat -> (if (1 <? S j)%nat then forUp 1 (S j) (fun i0 a0 => updv a0 (S j * (S j + 1) / 2 - i0 - 1) (c (S j * (S j + 1) / 2 - i0 - 1)%nat)) a2 else a2) (ix i l)
                = if Nat.eqb i j && (l <? j)%nat then c (ix i l) else a2 (ix i l)).
      { intros i' l' L'. destruct (Nat.ltb_spec 1 (S j)).
        - pose proof (forUp_inv (fun k a3 => forall i l, (l <= i)%nat -> a3 (ix i l) = if Nat.eqb i j && (l <? j)%nat && (j - (k - 1) <=? l)%nat then c (ix i l) else a2 (ix i l)) 1 (S j)) as G. cbn beta in G.
          erewrite G; try exact L'; [|lia|..].
          + replace (j - (S j - 1))%nat with O by lia. now rewrite Bool.andb_true_r.
          + intros i0 l0 L0. replace (j - (1 - 1))%nat with j by lia. destruct (Nat.eqb_spec i0 j); cbn [andb]; auto.
            destruct (Nat.ltb_spec l0 j), (Nat.leb_spec j l0); auto; lia.
          + intros k a3 Hk IH3 i0 l0 L0. destruct k as [|k]; [lia|]. rewrite idx_qk by lia. rewrite updv_ix by lia. rewrite IH3 by auto.
            replace (S (S k) - 1)%nat with (S k) by lia. replace (S k - 1)%nat with k by lia.
            destruct (Nat.eqb_spec j i0), (Nat.eqb_spec i0 j); cbn [andb]; subst; try congruence; auto; try lia.
            destruct (Nat.eqb_spec (i0 - 1 - k) l0), (Nat.ltb_spec l0 i0), (Nat.leb_spec (i0 - k) l0), (Nat.leb_spec (i0 - S k) l0); cbn [andb]; subst; auto; lia.
        - assert (j = 0)%nat by lia. subst j. replace (l' <? 0)%nat with false by (symmetry; apply Nat.ltb_ge; lia). now rewrite Bool.andb_false_r. }
      rewrite A3, A2, IH by auto. destruct (Nat.eqb_spec i j); cbn [andb].
      - subst i. rewrite Nat.ltb_irrefl. rewrite (proj2 (Nat.ltb_lt j (S j))) by lia.
        destruct (Nat.ltb_spec l j), (Nat.eqb_spec l j), (Nat.eqb_spec j l); subst; auto; try lia.
      - destruct (Nat.ltb_spec i j), (Nat.ltb_spec i (S j)); auto; lia. }
  rewrite FF by auto. replace (n + 1 - 1)%nat with n by lia. now rewrite (proj2 (Nat.ltb_lt i n) Hi).
Qed.

Lemma stillLe_all n X B r : (stillLe n X B r <= n)%nat /\ (stillLe n X B r = n <-> forall i, (i < n)%nat -> Rabs (B i - X i) <= r).
Proof.
  unfold stillLe.
  pose proof (forUp_inv (fun k c => (c <= k)%nat /\ (c = k <-> forall i, (i < k)%nat -> Rabs (B i - X i) <= r)) 0 n (fun i c => if Rle_dec (Rabs (B i - X i)) r then S c else c) 0%nat) as F. cbn beta in F.
  apply F; try lia.
  - split; [lia|]. split; auto. intros; lia.
  - intros i c _ [A1 A2]. destruct (Rle_dec (Rabs (B i - X i)) r) as [L|L].
    + split; [lia|]. split.
      * intros E k Hk. destruct (Nat.eq_dec k i); [subst; auto|]. apply A2; lia.
      * intros E. f_equal. apply A2. intros. apply E. lia.
    + split; [lia|]. split; [lia|]. intros E. elim L. apply E. lia.
Qed.

(** J^T J + lam (diag(J^T J) + I) *)
Definition damped (m : nat) (J : nat -> vec) (lam : R) (i l : nat) : R :=
  sum m (fun k => J k i * J k l) + (if Nat.eqb i l then lam * (sum m (fun k => J k i * J k i) + 1) else 0).
Lemma damped_posdef n m J lam : 0 < lam -> posDef n (damped m J lam).
Proof.
  intros L x (i & Hi & X). unfold quad, damped.
  rewrite (sum_ext n _ (fun i => sum m (fun k => x i * J k i * sum n (fun l => J k l * x l)) + lam * (sum m (fun k => J k i * J k i) + 1) * (x i * x i))).
  - rewrite sum_plus, sum_swap.
    rewrite (sum_ext m _ (fun k => sum n (fun l => J k l * x l) * sum n (fun l => J k l * x l))).
    2:{ intros k Hk. rewrite <- sum_scal. apply sum_ext. intros. ring. }
    assert (0 <= sum m (fun k => sum n (fun l => J k l * x l) * sum n (fun l => J k l * x l))) by (apply sum_pos; intros; nra).
    assert (P : forall j, (j < n)%nat -> lam * (x j * x j) <= lam * (sum m (fun k => J k j * J k j) + 1) * (x j * x j)).
    { intros j Hj. assert (0 <= sum m (fun k => J k j * J k j)) by (apply sum_pos; intros; nra). assert (0 <= x j * x j) by nra.
      assert (0 <= lam * sum m (fun k => J k j * J k j)) by nra. nra. }
    assert (lam * norm2 n x <= sum n (fun j => lam * (sum m (fun k => J k j * J k j) + 1) * (x j * x j))).
    { unfold norm2, dot. rewrite <- sum_scal. clear -P. revert P. induction n; intros P; cbn [sum]; [lra|].
      pose proof (P n ltac:(lia)). assert (forall j, (j < n)%nat -> lam * (x j * x j) <= lam * (sum m (fun k => J k j * J k j) + 1) * (x j * x j)) by (intros; apply P; lia).
      specialize (IHn H0). lra. }
    assert (0 < norm2 n x). { pose proof (norm2_pos n x) as [Q|Q]; auto. exfalso. apply X. apply (norm2_zero n x); auto. }
    nra.
  - intros j Hj.
    rewrite (sum_ext n _ (fun l => sum m (fun k => x j * J k j * (J k l * x l)) + (if Nat.eqb l j then lam * (sum m (fun k => J k j * J k j) + 1) * (x j * x j) else 0))).
    + rewrite sum_plus, sum_swap. f_equal.
      * apply sum_ext. intros. now rewrite sum_scal.
      * now rewrite (sum_one n j (fun _ => lam * (sum m (fun k => J k j * J k j) + 1) * (x j * x j))).
    + intros l Hl. rewrite (sum_ext m (fun k => x j * J k j * (J k l * x l)) (fun k => (x j * x l) * (J k j * J k l))) by (intros; ring). rewrite sum_scal.
      rewrite (Nat.eqb_sym l j). destruct (Nat.eqb_spec j l); [subst|]; ring.
Qed.

Section Run.
Variables (n m : nat) (nlres : nat -> vec -> option R) (nljac : nat -> vec -> vec) (reltest : R) (maxIter : nat) (B0 : vec).
Definition same (B X : vec) : Prop := forall i, (i < n)%nat -> B i = X i.
Definition invm (s : stm) : Prop :=
  0 < lambda s /\ (mifn s <= Nat.max 1 maxIter)%nat /\ mF s <= ssq m nlres B0 /\ (forall i, (n <= i)%nat -> mB s i = B0 i) /\
  exists X, computable m nlres X /\ mF s = ssq m nlres X /\ (forall i, (n <= i)%nat -> X i = B0 i) /\
    if calcmat s then X = mB s /\ (forall i, (i < m)%nat -> resm s i = val (nlres i X))
    else same (mX s) X /\ (forall i l, (l <= i)%nat -> (i < n)%nat -> cm s (ix i l) = sum m (fun k => nljac k X i * nljac k X l)) /\
         (forall i, (i < n)%nat -> vm s i = sum m (fun k => nljac k X i * val (nlres k X))).
Definition postm (r : outv) : Prop :=
  exists X, computable m nlres X /\ oF r = ssq m nlres X /\ oF r <= ssq m nlres B0 /\ (forall i, (n <= i)%nat -> X i = B0 i /\ oB r i = B0 i) /\
    codev r <> BAD_INITIAL /\
    (codev r = SUCCESS -> (forall i, (i < n)%nat -> Rabs (oB r i - X i) <= reltest) /\
       exists lam, 0 < lam /\ forall i, (i < n)%nat -> apply n (damped m (fun k => nljac k X) lam) (fun l => oB r l - X l) i = - sum m (fun k => nljac k X i * val (nlres k X))).
Lemma modmrt_step s : (0 < n)%nat -> (0 < m)%nat -> invm s ->
  match modmrtStep n m nlres nljac reltest maxIter s with
  | inl s' => invm s' /\ (mifn s' = S (mifn s))%nat
  | inr r => postm r
  end.
Proof.
  intros Hn Hm (L0 & N0 & F0 & Bt & X & X1 & X2 & Xt & X3). unfold modmrtStep.
  set (cvX := if calcmat s then _ else _).
  assert (CV : let '(c, v, Xn) := cvX in same Xn X /\ (forall i l, (l <= i)%nat -> (i < n)%nat -> c (ix i l) = sum m (fun k => nljac k X i * nljac k X l)) /\
         (forall i, (i < n)%nat -> v i = sum m (fun k => nljac k X i * val (nlres k X)))).
  { unfold cvX. destruct (calcmat s); [|exact X3]. destruct X3 as [E R]. subst X.
    pose proof (normalEqs_spec n m (fun i => nljac i (mB s)) (resm s)) as Q. destruct (normalEqs n m _ (resm s)) as [a v]. destruct Q as [Q1 Q2].
    split; [|split; auto].
    - intros i Hi. unfold upto. now rewrite (proj2 (Nat.ltb_lt i n) Hi).
    - intros i Hi. rewrite Q2 by auto. apply sum_ext. intros k Hk. now rewrite R. }
  destruct cvX as [[c v] Xn]. destruct CV as (C1 & C2 & C3). cbv zeta.
  set (a := damp n (lambda s) c (if calcmat s then c else am s)).
  assert (Pk : forall i l, (i < n)%nat -> (l < n)%nat -> packE a i l = damped m (fun k => nljac k X) (lambda s) i l).
  { assert (G : forall i l, (l <= i)%nat -> (i < n)%nat -> packE a i l = damped m (fun k => nljac k X) (lambda s) i l).
    { intros i l Ll Hi. unfold packE. rewrite (proj2 (Nat.leb_le l i)) by lia. unfold a. rewrite damp_spec by auto. unfold damped.
      destruct (Nat.eqb_spec i l); [subst l|]; rewrite C2 by auto; ring. }
    intros i l Hi Hl. destruct (le_lt_dec l i); [auto|]. rewrite packE_sym, G by lia. unfold damped. rewrite (Nat.eqb_sym l i).
    rewrite (sum_ext m (fun k => nljac k X l * nljac k X i) (fun k => nljac k X i * nljac k X l)) by (intros; ring).
    destruct (Nat.eqb_spec i l); [subst; auto|auto]. }
  assert (NS : snd (Choldcmp n a) = false).
  { apply chol_posdef. intros x Hx. rewrite (quad_ext n _ (damped m (fun k => nljac k X) (lambda s))) by auto. now apply damped_posdef. }
  pose proof (chol_solve n a (fun j => - v j) Hn NS) as Sol. destruct (Choldcmp n a) as [L singmat]. cbn [fst snd] in *. subst singmat.
  set (delta := Cholback n L (fun j => - v j)) in *.
  set (B := upto n (fun i => Xn i + delta i) (mB s)).
  assert (BX : forall i, (i < n)%nat -> B i - X i = delta i) by (intros i Hi; unfold B, upto; rewrite (proj2 (Nat.ltb_lt i n) Hi), (C1 i Hi); ring).
  assert (BT : forall i, (n <= i)%nat -> B i = B0 i) by (intros i Hi; unfold B, upto; rewrite (proj2 (Nat.ltb_ge i n) Hi); auto).
  pose proof (stillLe_all n Xn B reltest) as [SL SA].
  assert (Rej : forall B' res' k, (k <= Nat.max 1 maxIter)%nat -> (forall i, (n <= i)%nat -> B' i = B0 i) ->
    invm {| mB := B'; mX := Xn; mF := mF s; lambda := if Rlt_dec (lambda s * 10) (dblEps * dblEps) then dblEps else lambda s * 10; mifn := k; calcmat := false; am := L; cm := c; vm := v; resm := res' |}).
  { intros B' res' k Hk Hb. unfold invm. cbn [lambda mifn mF mB mX calcmat cm vm resm]. split.
    - assert (0 < dblEps) by (unfold dblEps; apply Rinv_0_lt_compat; apply pow_lt; lra). destruct (Rlt_dec _ _); lra.
    - split; auto. split; auto. split; auto. exists X. cbv iota. split; auto. }
  destruct (Nat.ltb_spec (stillLe n Xn B reltest) n) as [Sn|Sn].
  - destruct (Nat.ltb_spec maxIter (S (mifn s))) as [It|It].
    + exists X. cbn [codev oB oF]. split; auto. split; auto. split; auto. split; auto. split; discriminate.
    + pose proof (residuals_spec (Nat.max m 1) nlres B (resm s)) as RS. replace (Nat.max m 1) with m in * by lia.
      destruct (residuals m nlres B (resm s)) as [[res p]|].
      * destruct RS as [R1 R2]. destruct (Rlt_dec p (mF s)) as [Lt|Ge].
        -- split; [|reflexivity]. unfold invm. cbn [lambda mifn mF mB mX calcmat cm vm resm]. split; [lra|]. split; [lia|]. split; [lra|]. split; auto.
           exists B. split; [intros i Hi; rewrite R1 by auto; discriminate|]. split; auto. split; auto. split; auto.
           intros i Hi. now rewrite R1.
        -- split; [|reflexivity]. apply Rej; [lia|auto].
      * split; [|reflexivity]. apply Rej; [lia|auto].
  - exists X. cbn [codev oB oF]. split; auto. split; auto. split; auto. split; auto. split; [discriminate|]. intros _. split.
    + intros i Hi. rewrite <- (C1 i Hi). apply SA; auto. lia.
    + exists (lambda s). split; auto. intros i Hi. rewrite <- C3 by auto. rewrite <- (Sol i Hi). unfold apply. apply sum_ext. intros l Hl. rewrite <- Pk by auto. now rewrite BX.
Qed.
Lemma modmrt_ok F0 r : (0 < n)%nat -> (0 < m)%nat -> computable m nlres B0 -> modmrt n m nlres nljac reltest maxIter B0 F0 r -> postm r.
Proof.
  intros Hn Hm C. unfold modmrt. rewrite (proj2 (Nat.eqb_neq n 0)) by lia.
  pose proof (residuals_spec m nlres B0 (fun _ => 0)) as RS. destruct (residuals m nlres B0 _) as [[res p]|].
  2:{ destruct RS as (i & Hi & E). now elim (C i Hi). }
  destruct RS as [R1 R2]. intros R.
  refine (runs_inv _ invm postm _ _ R _ _ _).
  - unfold invm. cbn [lambda mifn mF mB mX calcmat cm vm resm]. split; [lra|]. split; [lia|]. split; [lra|]. split; auto.
    exists B0. split; auto. split; auto. split; auto. split; auto. intros i Hi. now rewrite R1.
  - intros s s' I H. pose proof (modmrt_step s Hn Hm I) as P. rewrite H in P. apply P.
  - intros s t I H. pose proof (modmrt_step s Hn Hm I) as P. rewrite H in P. apply P.
Qed.
Lemma modmrt_returns F0 : (0 < m)%nat -> exists r, modmrt n m nlres nljac reltest maxIter B0 F0 r.
Proof.
  intros Hm. unfold modmrt. destruct (Nat.eqb_spec n 0); [eauto|].
  pose proof (residuals_spec m nlres B0 (fun _ => 0)) as RS. destruct (residuals m nlres B0 _) as [[res p]|]; [|eauto].
  destruct RS as [R1 R2].
  apply (runs_terminates _ invm (fun s => Nat.max 1 maxIter + 1 - mifn s)%nat).
  - intros s s' I H. pose proof (modmrt_step s ltac:(lia) Hm I) as P. rewrite H in P. destruct P as [I' E]. split; auto.
    destruct I' as (_ & N' & _). lia.
  - unfold invm. cbn [lambda mifn mF mB mX calcmat cm vm resm]. split; [lra|]. split; [lia|]. split; [lra|]. split; auto.
    exists B0. split; [intros i Hi; rewrite R1 by auto; discriminate|]. split; auto. split; auto. split; auto. intros i Hi. now rewrite R1.
Qed.
End Run.
