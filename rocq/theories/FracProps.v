(** C32: rational approximation (sources/frac.c). *)
From Coq Require Import Reals ZArith Znumtheory Lia Lra.
From Verif Require Import FracModel.
Local Open Scope R_scope.

Lemma trunc_pos x : 0 <= x -> IZR (trunc x) <= x < IZR (trunc x) + 1 /\ (0 <= trunc x)%Z.
Proof.
  intros H. unfold trunc. destruct (Rle_dec 0 x); [|lra]. pose proof (base_Int_part x) as [A B]. split; [lra|].
  apply le_IZR. assert (-1 < IZR (Int_part x)) by lra. apply lt_IZR in H0. apply IZR_le. lia.
Qed.
(** the two fractions are on different sides of v and their determinant is +1 or -1 *)
Definition sides (v : R) (s : frst) : Prop :=
  (IZR (fn s) <= v * IZR (fd s) /\ v * IZR (fD s) <= IZR (fN s)) \/ (v * IZR (fd s) <= IZR (fn s) /\ IZR (fN s) <= v * IZR (fD s)).
Definition finv (v : R) (s : frst) : Prop :=
  (1 <= fd s)%Z /\ (1 <= fD s)%Z /\ (fN s * fd s - fn s * fD s = 1 \/ fN s * fd s - fn s * fD s = -1)%Z /\ sides v s.
Lemma three_inv v s s' r : finv v s -> three v s = (s', r) -> finv v s' /\
  (r <> 0 -> epsilonOf v s' <> 0 -> let q := if Rlt_dec 1 r then r else 1 / r in 1 <= q /\ IZR (fn s') <> v * IZR (fd s') /\ IZR (fN s') - v * IZR (fD s') = q * (v * IZR (fd s') - IZR (fn s'))).
Proof.
  intros (D1 & D2 & Det & Sd) T. unfold three in T. destruct (Req_EM_T (v * IZR (fd s)) (IZR (fn s))) as [E|N].
  - injection T as <- <-. split; [repeat split; auto|]. intros C. now elim C.
  - set (r0 := (IZR (fN s) - v * IZR (fD s)) / (v * IZR (fd s) - IZR (fn s))) in *.
    assert (Nz : v * IZR (fd s) - IZR (fn s) <> 0) by lra.
    assert (Er : IZR (fN s) - v * IZR (fD s) = r0 * (v * IZR (fd s) - IZR (fn s))) by (unfold r0; field; auto).
    assert (R0 : 0 <= r0).
    { unfold r0. destruct Sd as [[A B]|[A B]].
      - apply Rmult_le_pos; [lra|]. left. apply Rinv_0_lt_compat. lra.
      - replace ((IZR (fN s) - v * IZR (fD s)) / (v * IZR (fd s) - IZR (fn s))) with ((v * IZR (fD s) - IZR (fN s)) / (IZR (fn s) - v * IZR (fd s))) by (field; lra).
        apply Rmult_le_pos; [lra|]. left. apply Rinv_0_lt_compat. lra. }
    destruct (Rlt_dec 1 r0) as [L|L]; injection T as <- <-.
    + split; [repeat split; auto|]. intros _ _. cbv zeta. destruct (Rlt_dec 1 r0); [|lra]. split; [lra|]. split; [lra|auto].
    + unfold finv. cbn [fn fd fN fD]. split.
      * split; auto. split; auto. split; [lia|]. unfold sides in *. cbn [fn fd fN fD]. tauto.
      * intros C _. cbv zeta. destruct (Rlt_dec 1 r0); [lra|].
        assert (Rp : 0 < r0) by lra. split; [|split].
        -- apply (Rmult_le_reg_r r0); auto. unfold Rdiv. rewrite Rmult_assoc, Rinv_l by lra. lra.
        -- intros E. rewrite E in Er. assert (r0 * (v * IZR (fd s) - IZR (fn s)) = 0) by lra. apply Rmult_integral in H. lra.
        -- apply (Rmult_eq_reg_l r0); [|lra]. replace (r0 * (1 / r0 * (v * IZR (fD s) - IZR (fN s)))) with (v * IZR (fD s) - IZR (fN s)) by (field; lra). lra.
Qed.
Lemma two_inv v s r : finv v s -> (let q := if Rlt_dec 1 r then r else 1 / r in 1 <= q /\ IZR (fn s) <> v * IZR (fd s) /\ IZR (fN s) - v * IZR (fD s) = q * (v * IZR (fd s) - IZR (fn s))) -> finv v (two s r).
Proof.
  intros (D1 & D2 & Det & Sd). cbv zeta. unfold two. set (q := if Rlt_dec 1 r then r else 1 / r). intros (Q1 & Nz & Eq).
  destruct (trunc_pos q ltac:(lra)) as [[T1 T2] T3]. set (k := trunc q) in *.
  unfold finv. cbn [fn fd fN fD]. split; [nia|]. split; [nia|]. split; [destruct Det; [left|right]; nia|].
  unfold sides. cbn [fn fd fN fD]. rewrite !plus_IZR, !mult_IZR.
  set (X := v * IZR (fd s) - IZR (fn s)) in *.
  (* N'' - v D'' = (q - k) X, and n'' - v d'' = - X + (q - k) X *)
  assert (E1 : IZR (fN s) + IZR (fn s) * IZR k - v * (IZR (fD s) + IZR (fd s) * IZR k) = (q - IZR k) * X) by (unfold X in *; lra).
  assert (Ky : 0 <= q - IZR k < 1) by lra. set (y := q - IZR k) in *.
  assert (Xs : 0 < X \/ X < 0) by (unfold X; destruct (Rtotal_order (IZR (fn s)) (v * IZR (fd s))) as [|[|]]; lra).
  destruct Xs as [Xp|Xn]; [left|right].
  - assert (0 <= y * X) by nra. assert (y * X < X) by nra. unfold X in *. split; lra.
  - assert (y * X <= 0) by nra. assert (X < y * X) by nra. unfold X in *. split; lra.
Qed.
Lemma coprime_of_det s : (fN s * fd s - fn s * fD s = 1 \/ fN s * fd s - fn s * fD s = -1)%Z -> Zis_gcd (fn s) (fd s) 1.
Proof.
  intros H. apply bezout_rel_prime. destruct H.
  - apply (Bezout_intro _ _ _ (- fD s) (fN s)). lia.
  - apply (Bezout_intro _ _ _ (fD s) (- fN s)). lia.
Qed.
Lemma tested_bound e error e' : 0 <= e -> tested e error e' -> e' <= error -> e <= 3/2 * error /\ 0 <= e'.
Proof.
  intros He [[A B]|[A (k & K1 & K2 & K3 & E)]] L.
  - subst. lra.
  - assert (P : 0 < 10 ^ k) by (apply pow_lt; lra). set (m := 10 ^ k) in *. destruct (trunc_pos (1/2 + m * e) ltac:(lra)) as [[T1 T2] T3].
    set (t := trunc (1/2 + m * e)) in *. assert (T4 : (1 <= t)%Z) by (assert (0 < IZR t) by lra; apply lt_IZR in H; lia).
    apply IZR_le in T4. assert (Em : m * e' = IZR t) by (rewrite E; field; lra).
    assert (m * e < m * (3/2 * e')) by nra. split; [|nra]. apply Rmult_lt_reg_l in H; auto. lra.
Qed.
Lemma loop_ok v error s res : 0 < v -> 0 <= error -> finv v s -> fracLoop v error s res ->
  let '(e, n, d) := res in Zis_gcd n d 1 /\ (1 <= d)%Z /\
  (0 <= e -> e <= error /\ Rabs (1 - IZR n / (v * IZR d)) <= 3/2 * error) /\ (e < 0 -> e = -1 /\ False).
Proof.
  intros Hv He Hi R. induction R as [s s' r e' T Te L|s s' r e' T Te L Z|s s' r e' res T Te L Z R IH].
  - destruct (three_inv _ _ _ _ Hi T) as [Hi' _]. pose proof Hi' as (D1 & _ & Det & _). split; [now apply coprime_of_det|]. split; auto.
    pose proof (tested_bound _ _ _ (Rabs_pos _) Te L) as [B1 B2]. split; [auto|]. intros. lra.
  - exfalso. destruct (three_inv _ _ _ _ Hi T) as [Hi' _]. subst r. unfold three in T. destruct (Req_EM_T (v * IZR (fd s)) (IZR (fn s))) as [E|N].
    + injection T as <-. assert (E0 : epsilonOf v s = 0).
      { unfold epsilonOf. rewrite <- E. assert (v * IZR (fd s) <> 0). { destruct Hi as (D1 & _). apply IZR_le in D1. assert (0 < v * IZR (fd s)) by nra. lra. }
        replace (v * IZR (fd s) / (v * IZR (fd s))) with 1 by (field; split; [|lra]; intros C; rewrite C in H; lra). rewrite Rminus_diag_eq by auto. apply Rabs_R0. }
      destruct Te as [[_ Te]|[Te _]]; lra.
    + set (r0 := (IZR (fN s) - v * IZR (fD s)) / (v * IZR (fd s) - IZR (fn s))) in *.
      destruct (Rlt_dec 1 r0) as [L0|L0]; injection T as <- T; [lra|].
      assert (E : IZR (fN s) - v * IZR (fD s) = 0).
      { replace (IZR (fN s) - v * IZR (fD s)) with (r0 * (v * IZR (fd s) - IZR (fn s))) by (unfold r0; field; lra). rewrite T. ring. }
      assert (E0 : epsilonOf v {| fn := fN s; fd := fD s; fN := fn s; fD := fd s |} = 0).
      { unfold epsilonOf. cbn [fn fd]. replace (IZR (fN s)) with (v * IZR (fD s)) by lra. destruct Hi as (_ & D2 & _). apply IZR_le in D2.
        replace (v * IZR (fD s) / (v * IZR (fD s))) with 1 by (field; split; lra). rewrite Rminus_diag_eq by auto. apply Rabs_R0. }
      destruct Te as [[_ Te]|[Te _]]; lra.
  - apply IH. destruct (three_inv _ _ _ _ Hi T) as [Hi' Q]. apply two_inv; auto. apply Q; auto.
    intros E0. rewrite E0 in Te. destruct Te as [[_ Te]|[Te _]]; lra.
Qed.
Lemma init_inv v : 0 < v -> finv v {| fn := trunc v; fd := 1; fN := (trunc v + 1)%Z; fD := 1 |}.
Proof.
  intros Hv. destruct (trunc_pos v ltac:(lra)) as [[A B] C]. unfold finv, sides. cbn [fn fd fN fD]. split; [lia|]. split; [lia|]. split; [left; lia|].
  left. rewrite plus_IZR. lra.
Qed.

Lemma least_nat (P : nat -> Prop) (dec : forall k, {P k} + {~ P k}) N : P N -> exists k, P k /\ forall j, (j < k)%nat -> ~ P j.
Proof.
  induction N as [N IH] using lt_wf_ind. intros HN.
  assert (G : forall M, (exists j, (j < M)%nat /\ P j) \/ (forall j, (j < M)%nat -> ~ P j)).
  { induction M; [right; intros; lia|]. destruct IHM as [(j & A & B)|A]; [left; exists j; auto|].
    destruct (dec M); [left; exists M; auto|right]. intros j Hj. destruct (Nat.eq_dec j M); [subst; auto|apply A; lia]. }
  destruct (G N) as [(j & A & B)|A]; [apply (IH j A B)|exists N; auto].
Qed.
Lemma rounded_exists e : 0 < e -> exists e', rounded e e'.
Proof.
  intros He. destruct (Pow_x_infinity 10 ltac:(rewrite Rabs_pos_eq; lra) (/ e)) as [N HN].
  destruct (least_nat (fun k => (1 <= k)%nat /\ 1 <= 10 ^ k * e)) with (N := S N) as (k & [K1 K2] & K3).
  - intros k. destruct (le_dec 1 k); [|right; tauto]. destruct (Rle_dec 1 (10 ^ k * e)); [left; auto|right; tauto].
  - split; [lia|]. specialize (HN (S N) ltac:(lia)). rewrite Rabs_pos_eq in HN by (left; apply pow_lt; lra).
    apply (Rmult_le_reg_r (/ e)); [now apply Rinv_0_lt_compat|]. rewrite Rmult_assoc, Rinv_r by lra. lra.
  - eexists. exists k. split; auto. split; auto. split; [|reflexivity].
    intros j Hj. apply Rnot_le_lt. intros C. apply (K3 j); [lia|]. split; [lia|auto].
Qed.
Lemma tested_exists e error : 0 <= error -> exists e', tested e error e'.
Proof.
  intros H. destruct (Rle_dec e error); [exists e; left; auto|]. destruct (rounded_exists e ltac:(lra)) as [e' R]. exists e'. right. split; [lra|auto].
Qed.
Lemma eps_small v s : 0 < v -> finv v s -> epsilonOf v s <= / (v * IZR (fd s * fD s)).
Proof.
  intros Hv (D1 & D2 & Det & Sd). apply IZR_le in D1, D2. rewrite mult_IZR. unfold epsilonOf.
  assert (P : 0 < v * IZR (fd s)) by nra.
  replace (1 - IZR (fn s) / (v * IZR (fd s))) with ((v * IZR (fd s) - IZR (fn s)) * / (v * IZR (fd s))) by (field; lra).
  rewrite Rabs_mult, (Rabs_pos_eq (/ _)) by (left; now apply Rinv_0_lt_compat).
  assert (Pr : 0 < v * IZR (fd s) * IZR (fD s)) by nra.
  replace (v * (IZR (fd s) * IZR (fD s))) with (v * IZR (fd s) * IZR (fD s)) by ring.
  apply (Rmult_le_reg_r (v * IZR (fd s) * IZR (fD s))); auto. rewrite Rinv_l by lra.
  replace (Rabs (v * IZR (fd s) - IZR (fn s)) * / (v * IZR (fd s)) * (v * IZR (fd s) * IZR (fD s))) with (Rabs (v * IZR (fd s) - IZR (fn s)) * IZR (fD s)) by (field; lra).
  assert (Det' : IZR (fN s) * IZR (fd s) - IZR (fn s) * IZR (fD s) = 1 \/ IZR (fN s) * IZR (fd s) - IZR (fn s) * IZR (fD s) = -1).
  { rewrite <- !mult_IZR, <- minus_IZR. destruct Det as [->| ->]; auto. }
  destruct Sd as [[A B]|[A B]].
  - rewrite Rabs_pos_eq by lra. assert (0 <= (IZR (fN s) - v * IZR (fD s)) * IZR (fd s)) by nra.
    assert (0 <= (v * IZR (fd s) - IZR (fn s)) * IZR (fD s)) by nra. destruct Det'; nra.
  - rewrite Rabs_left1 by lra. assert (0 <= (v * IZR (fD s) - IZR (fN s)) * IZR (fd s)) by nra.
    assert (0 <= (IZR (fn s) - v * IZR (fd s)) * IZR (fD s)) by nra. destruct Det'; nra.
Qed.
Lemma loop_returns v error : 0 < v -> 0 < error -> forall s, finv v s -> exists res, fracLoop v error s res.
Proof.
  intros Hv He. set (K := up (/ (v * error))).
  assert (HK : / (v * error) < IZR K) by apply archimed. assert (Pve : 0 < v * error) by nra.
  cut (forall k s, finv v s -> (K + 1 - (fd s + fD s) <= Z.of_nat k)%Z -> exists res, fracLoop v error s res).
  { intros C s Hi. apply (C (Z.to_nat (K + 1 - (fd s + fD s))) s Hi). lia. }
  induction k; intros s Hi Hk; destruct (three v s) as [s' r] eqn:T; destruct (three_inv _ _ _ _ Hi T) as [Hi' Q];
    destruct (tested_exists (epsilonOf v s') error ltac:(lra)) as [e' Te].
  - assert (Sum : (fd s' + fD s' = fd s + fD s)%Z).
    { unfold three in T. destruct (Req_EM_T _ _); [injection T as <- <-; auto|]. destruct (Rlt_dec _ _); injection T as <- <-; cbn [fd fD]; lia. }
    assert (Sm : epsilonOf v s' <= error).
    { apply Rle_trans with (1 := eps_small v s' Hv Hi'). destruct Hi' as (D1 & D2 & _). assert ((K <= fd s' * fD s')%Z) by nia. apply IZR_le in H.
      assert (0 < / (v * error)) by (apply Rinv_0_lt_compat; auto).
      apply (Rmult_le_reg_r (v * IZR (fd s' * fD s'))); [nra|]. rewrite Rinv_l by nra.
      assert (/ (v * error) * (v * error) = 1) by (apply Rinv_l; lra). nra. }
    destruct Te as [[Te ->]|[Te _]]; [|lra]. eexists. eapply frac_done; eauto. left; auto.
  - destruct (Rle_dec e' error) as [L|L]; [eexists; eapply frac_done; eauto|].
    destruct (Req_EM_T r 0) as [Z|Z]; [eexists; eapply (frac_fail _ _ s s' r e'); eauto; lra|].
    assert (Nz : epsilonOf v s' <> 0) by (intros C; rewrite C in Te; destruct Te as [[_ Te]|[Te _]]; lra).
    specialize (Q Z Nz). destruct (IHk (two s' r)) as [res R].
    + now apply two_inv.
    + assert (Sum : (fd s' + fD s' = fd s + fD s)%Z).
      { unfold three in T. destruct (Req_EM_T _ _); [injection T as <- <-; auto|]. destruct (Rlt_dec _ _); injection T as <- <-; cbn [fd fD]; lia. }
      cbv zeta in Q. destruct Q as (Q1 & _ & _). destruct Hi' as (D1 & D2 & _).
      unfold two. cbn [fd fD]. set (q := if Rlt_dec 1 r then r else 1 / r) in *. destruct (trunc_pos q ltac:(lra)) as [_ T3]. nia.
    + exists res. eapply frac_next; eauto. lra.
Qed.

(** The arguments the routine accepts (frac.c 45): when it returns for them, it succeeds, the fraction is in lowest
    terms with positive denominator, the value returned is at most error and the true relative error at most 1.5 error. *)
Theorem C32_frac_partial : forall v error n0 d0 e n d, 3 / 10000000000 <= v <= 40000000000 -> 0 <= error -> frac v error n0 d0 (e, n, d) ->
  Zis_gcd n d 1 /\ (1 <= d)%Z /\ 0 <= e <= error /\ Rabs (1 - IZR n / (v * IZR d)) <= 3/2 * error.
Proof.
  intros v error n0 d0 e n d Hv He. unfold frac. destruct (Rlt_dec v _); [lra|]. destruct (Rlt_dec _ v); [lra|]. destruct (Rlt_dec error 0); [lra|].
  intros R. apply loop_ok in R; [|lra|auto|apply init_inv; lra]. destruct R as (A & B & C & D).
  assert (E0 : 0 <= e) by (destruct (Rle_dec 0 e); auto; exfalso; apply D; lra). destruct (C E0). auto.
Qed.
(** with a positive error the routine always returns *)
Theorem C32_frac_returns : forall v error n0 d0, 0 < error -> exists res, frac v error n0 d0 res.
Proof.
  intros v error n0 d0 He. unfold frac. destruct (Rlt_dec v _); [eauto|]. destruct (Rlt_dec _ v); [eauto|]. destruct (Rlt_dec error 0); [eauto|].
  apply loop_returns; auto; [lra|]. apply init_inv. lra.
Qed.
Theorem C32_frac_rejects : forall v error n0 d0 res, v < 3 / 10000000000 \/ 40000000000 < v \/ error < 0 -> frac v error n0 d0 res -> res = (-1, n0, d0).
Proof. intros v error n0 d0 res H. unfold frac. destruct (Rlt_dec v _); auto. destruct (Rlt_dec _ v); auto. destruct (Rlt_dec error 0); auto. lra. Qed.
(** The documented bound epsilon <= error does not hold: for v = 1.16 and error 0.1 the routine returns 1/1 and 0.1,
    but the relative error is more than 0.137. *)
Theorem C32_frac_exceeds_error : frac (116/100) (1/10) 0 0 (1/10, 1%Z, 1%Z) /\ 137/1000 < Rabs (1 - 1 / (116/100 * 1)).
Proof.
  split; [|rewrite Rabs_pos_eq; lra]. unfold frac. destruct (Rlt_dec _ _); [lra|]. destruct (Rlt_dec _ _); [lra|]. destruct (Rlt_dec _ _); [lra|].
  assert (T : trunc (116/100) = 1%Z).
  { destruct (trunc_pos (116/100) ltac:(lra)) as [[A B] C]. assert (0 < IZR (trunc (116/100)) < 2) as [P Q] by lra. apply lt_IZR in P, Q. lia. }
  rewrite T. pose (s := {| fn := 1; fd := 1; fN := (1 + 1)%Z; fD := 1 |}). fold s.
  assert (E : epsilonOf (116/100) s = 16/116) by (unfold epsilonOf, s; cbn [fn fd]; rewrite Rabs_pos_eq; lra).
  apply (frac_done _ _ s s ((2 - 116/100) / (116/100 - 1)) (1/10)).
  - unfold three, s. cbn [fn fd fN fD]. destruct (Req_EM_T _ _); [lra|]. rewrite !Rmult_1_r. change (IZR (1 + 1)) with 2. destruct (Rlt_dec _ _); [reflexivity|lra].
  - right. rewrite E. split; [lra|]. exists 1%nat. split; auto. split; [lra|]. split; [lia|].
    assert (T2 : trunc (1/2 + 10 ^ 1 * (16/116)) = 1%Z).
    { destruct (trunc_pos (1/2 + 10 ^ 1 * (16/116)) ltac:(lra)) as [[A B] C]. assert (0 < IZR (trunc (1/2 + 10 ^ 1 * (16/116))) < 2) as [P Q] by lra. apply lt_IZR in P, Q. lia. }
    rewrite T2. lra.
  - lra.
Qed.
