(** Proofs about the Cholesky routines. *)
From Coq Require Import Reals Arith Bool Lia Lra.
From Verif Require Import LaSpec LaBase HhModel CholModel.
Local Open Scope R_scope.

(** ** Indices of the compact storage *)
Definition ix (i j : nat) : nat := (i * (i + 1) / 2 + j)%nat.
Lemma tri_S i : (S i * (S i + 1) / 2 = i * (i + 1) / 2 + S i)%nat.
Proof. replace (S i * (S i + 1))%nat with (i * (i + 1) + S i * 2)%nat by lia. rewrite Nat.div_add by lia. reflexivity. Qed.
Lemma tri_mono i j : (i <= j)%nat -> (i * (i + 1) / 2 <= j * (j + 1) / 2)%nat.
Proof. intros L. apply Nat.div_le_mono; [lia|]. nia. Qed.
Lemma ix_lt i j i' j' : (j <= i)%nat -> (i < i')%nat -> (ix i j < ix i' j')%nat.
Proof. intros A B. unfold ix. pose proof (tri_mono (S i) i' ltac:(lia)). rewrite tri_S in H. lia. Qed.
Lemma ix_inj i j i' j' : (j <= i)%nat -> (j' <= i')%nat -> ix i j = ix i' j' -> i = i' /\ j = j'.
Proof.
  intros A B E. destruct (lt_eq_lt_dec i i') as [[L|L]|L].
  - pose proof (ix_lt i j i' j' A L). lia.
  - subst. unfold ix in E. lia.
  - pose proof (ix_lt i' j' i j B L). lia.
Qed.
Lemma idx_m i j : (S i * (S i - 1) / 2 + S j - 1 = ix i j)%nat.
Proof. unfold ix. replace (S i * (S i - 1))%nat with (i * (i + 1))%nat by lia. lia. Qed.
Lemma idx_q j : (S j * (S j + 1) / 2 - 1 = ix j j)%nat.
Proof. rewrite tri_S. unfold ix. lia. Qed.
Lemma idx_mk i j k : (k < j)%nat -> (S i * (S i - 1) / 2 + S j - S k - 1 = ix i (j - 1 - k))%nat.
Proof. intros. unfold ix. replace (S i * (S i - 1))%nat with (i * (i + 1))%nat by lia. lia. Qed.
Lemma idx_qk j k : (k < j)%nat -> (S j * (S j + 1) / 2 - S k - 1 = ix j (j - 1 - k))%nat.
Proof. intros. rewrite tri_S. unfold ix. lia. Qed.
Lemma updv_same a i x : updv a i x i = x.
Proof. unfold updv. now rewrite Nat.eqb_refl. Qed.
Lemma updv_other a i x k : k <> i -> updv a i x k = a k.
Proof. unfold updv. intros. now rewrite (proj2 (Nat.eqb_neq k i)). Qed.
Lemma updv_ix a i j x i' j' : (j <= i)%nat -> (j' <= i')%nat -> updv a (ix i j) x (ix i' j') = if Nat.eqb i i' && Nat.eqb j j' then x else a (ix i' j').
Proof.
  intros A B. unfold updv. destruct (Nat.eqb_spec (ix i' j') (ix i j)) as [E|E].
  - apply ix_inj in E; auto. destruct E; subst. now rewrite !Nat.eqb_refl.
  - destruct (Nat.eqb_spec i i'), (Nat.eqb_spec j j'); subst; auto. congruence.
Qed.

Lemma sum_rev n f : sum n (fun k => f (n - 1 - k)%nat) = sum n f.
Proof.
  revert f. induction n as [|n IH]; intros g; auto. cbn [sum]. replace (S n - 1 - n)%nat with O by lia.
  pose proof (sum_split (S n) 1 g ltac:(lia)) as Q. cbn [sum] in Q. replace (S n - 1)%nat with n in Q by lia.
  rewrite Q. rewrite <- (IH (fun i => g (1 + i)%nat)).
  assert (X : sum n (fun k => g (S n - 1 - k)%nat) = sum n (fun k => g (1 + (n - 1 - k))%nat)) by (apply sum_ext; intros; f_equal; lia).
  rewrite X. lra.
Qed.

(** ** One column *)
Lemma cholUpdate_spec n j a : (j < n)%nat -> let a' := cholUpdate n (S j) a in
  forall i l, (l <= i)%nat -> a' (ix i l) = if Nat.eqb l j && (i <? n)%nat then a (ix i l) - sum j (fun k => a (ix i k) * a (ix j k)) else a (ix i l).
Proof.
  intros Lj. cbv zeta. unfold cholUpdate. cbv zeta.
  pose proof (forUp_inv (fun r a' => forall i l, (l <= i)%nat -> a' (ix i l) = if Nat.eqb l j && (i + 1 <? r)%nat then a (ix i l) - sum j (fun k => a (ix i k) * a (ix j k)) else a (ix i l))
    (S j) (n + 1)) as F. cbn beta in F.
  intros i l Ll. erewrite F; try exact Ll; [|lia|..].
  - replace (i + 1 <? n + 1)%nat with (i <? n)%nat; auto. destruct (Nat.ltb_spec i n), (Nat.ltb_spec (i + 1) (n + 1)); auto; lia.
  - intros i' l' L'. destruct (Nat.eqb_spec l' j); cbn [andb]; auto. destruct (Nat.ltb_spec (i' + 1) (S j)); auto; lia.
  - clear i l Ll F. intros r b [R1 R2] IH i l Ll. destruct r as [|r]; [lia|].
    rewrite idx_m, updv_ix by lia.
    assert (S0 : forUp 1 (S j) (fun k s => s - b (S r * (S r - 1) / 2 + S j - k - 1)%nat * b (S j * (S j + 1) / 2 - k - 1)%nat) (b (ix r j))
                 = b (ix r j) - sum j (fun k => a (ix r k) * a (ix j k))).
    { pose proof (forUp_inv (fun k s => s = b (ix r j) - sum (k - 1) (fun q => a (ix r (j - 1 - q)) * a (ix j (j - 1 - q)))) 1 (S j)) as F. cbn beta in F.
      erewrite F; [|lia|..].
      - replace (S j - 1)%nat with j by lia. now rewrite (sum_rev j (fun k => a (ix r k) * a (ix j k))).
      - cbn. lra.
      - intros k s [K1 K2] ->. destruct k as [|k]; [lia|]. rewrite idx_mk, idx_qk by lia.
        replace (S (S k) - 1)%nat with (S k) by lia. replace (S k - 1)%nat with k by lia. cbn [sum].
        rewrite (IH r (j - 1 - k)%nat) by lia. rewrite (IH j (j - 1 - k)%nat) by lia.
        rewrite (proj2 (Nat.eqb_neq (j - 1 - k) j)) by lia. cbn [andb]. lra. }
    rewrite S0. destruct (Nat.eqb_spec r i); [subst i|]; cbn [andb].
    + destruct (Nat.eqb_spec j l); [subst l|].
      * rewrite Nat.eqb_refl. cbn [andb]. replace (r + 1 <? S (S r))%nat with true by (symmetry; apply Nat.ltb_lt; lia).
        rewrite IH by lia. rewrite Nat.eqb_refl. cbn [andb]. replace (r + 1 <? S r)%nat with false by (symmetry; apply Nat.ltb_ge; lia). reflexivity.
      * rewrite IH by lia. rewrite (proj2 (Nat.eqb_neq l j)) by lia. reflexivity.
    + rewrite IH by lia. destruct (Nat.eqb_spec l j); cbn [andb]; auto.
      destruct (Nat.ltb_spec (i + 1) (S r)), (Nat.ltb_spec (i + 1) (S (S r))); auto; lia.
Qed.
Lemma cholScale_spec n j a : (j < n)%nat -> let a' := cholScale n (S j) a in
  forall i l, (l <= i)%nat -> a' (ix i l) = if Nat.eqb l j && (i <? n)%nat then (if Req_EM_T (sqrt (a (ix j j))) 0 then 0 else a (ix i l) / sqrt (a (ix j j))) else a (ix i l).
Proof.
  intros Lj. cbv zeta. unfold cholScale. cbv zeta. rewrite idx_q.
  pose proof (forUp_inv (fun r a' => forall i l, (l <= i)%nat -> a' (ix i l) = if Nat.eqb l j && (i + 1 <? r)%nat then (if Req_EM_T (sqrt (a (ix j j))) 0 then 0 else a (ix i l) / sqrt (a (ix j j))) else a (ix i l))
    (S j) (n + 1)) as F. cbn beta in F.
  intros i l Ll. erewrite F; try exact Ll; [|lia|..].
  - replace (i + 1 <? n + 1)%nat with (i <? n)%nat; auto. destruct (Nat.ltb_spec i n), (Nat.ltb_spec (i + 1) (n + 1)); auto; lia.
  - intros i' l' L'. destruct (Nat.eqb_spec l' j); cbn [andb]; auto. destruct (Nat.ltb_spec (i' + 1) (S j)); auto; lia.
  - clear i l Ll F. intros r b [R1 R2] IH i l Ll. destruct r as [|r]; [lia|].
    rewrite idx_m, updv_ix by lia.
    destruct (Nat.eqb_spec r i); [subst i|]; cbn [andb].
    + destruct (Nat.eqb_spec j l); [subst l|].
      * rewrite Nat.eqb_refl. cbn [andb]. replace (r + 1 <? S (S r))%nat with true by (symmetry; apply Nat.ltb_lt; lia).
        rewrite IH by lia. rewrite Nat.eqb_refl. cbn [andb]. replace (r + 1 <? S r)%nat with false by (symmetry; apply Nat.ltb_ge; lia). reflexivity.
      * rewrite IH by lia. rewrite (proj2 (Nat.eqb_neq l j)) by lia. reflexivity.
    + rewrite IH by lia. destruct (Nat.eqb_spec l j); cbn [andb]; auto.
      destruct (Nat.ltb_spec (i + 1) (S r)), (Nat.ltb_spec (i + 1) (S (S r))); auto; lia.
Qed.

(** ** The matrices in compact storage *)
Definition lowerE (a : vec) (i j : nat) : R := if (j <=? i)%nat then a (ix i j) else 0.
Definition packE (a : vec) (i j : nat) : R := if (j <=? i)%nat then a (ix i j) else a (ix j i).
Lemma packE_sym a i j : packE a i j = packE a j i.
Proof. unfold packE. destruct (Nat.leb_spec j i), (Nat.leb_spec i j); auto; try lia. now replace j with i by lia. Qed.
Definition quad (n : nat) (A : mat) (x : vec) : R := sum n (fun i => sum n (fun l => x i * A i l * x l)).
Lemma quad_factor N K (A L : mat) (x : vec) (d : R) (p : nat) : (p < N)%nat ->
  (forall i l, (i < N)%nat -> (l < N)%nat -> A i l = sum K (fun k => L i k * L l k) + (if Nat.eqb i p && Nat.eqb l p then d else 0)) ->
  quad N A x = sum K (fun k => sum N (fun i => L i k * x i) * sum N (fun i => L i k * x i)) + d * (x p * x p).
Proof.
  intros Hp H. unfold quad.
  transitivity (sum N (fun i => sum N (fun l => sum K (fun k => (x i * L i k) * (L l k * x l)) + (if Nat.eqb i p && Nat.eqb l p then d * (x p * x p) else 0)))).
  { apply sum_ext. intros i Hi. apply sum_ext. intros l Hl. rewrite H by auto.
    rewrite (sum_ext K (fun k => (x i * L i k) * (L l k * x l)) (fun k => (x i * x l) * (L i k * L l k))) by (intros; ring). rewrite sum_scal.
    destruct (Nat.eqb_spec i p), (Nat.eqb_spec l p); subst; cbn [andb]; ring. }
  rewrite (sum_ext N _ (fun i => sum K (fun k => (x i * L i k) * sum N (fun l => L l k * x l)) + (if Nat.eqb i p then d * (x p * x p) else 0))).
  2:{ intros i Hi. rewrite sum_plus. f_equal.
      - rewrite sum_swap. apply sum_ext. intros k Hk. now rewrite sum_scal.
      - destruct (Nat.eqb_spec i p); cbn [andb]; [|apply sum_0; auto].
        now rewrite (sum_one N p (fun _ => d * (x p * x p))). }
  rewrite sum_plus. f_equal.
  - rewrite sum_swap. apply sum_ext. intros k Hk. rewrite <- sum_scal. apply sum_ext. intros i Hi. ring.
  - now rewrite (sum_one N p (fun _ => d * (x p * x p))).
Qed.
(** a vector killed by the transposed leading columns, with x p = 1 *)
Lemma back_vector (L : mat) (p : nat) : (forall k, (k < p)%nat -> L k k <> 0) -> (forall i k, (i < k)%nat -> L i k = 0) ->
  exists x : vec, x p = 1 /\ forall k, (k < p)%nat -> sum (S p) (fun i => L i k * x i) = 0.
Proof.
  intros Ld Lu.
  cut (forall m, (m <= p)%nat -> exists x : vec, x p = 1 /\ forall k, (p - m <= k < p)%nat -> sum (S p) (fun i => L i k * x i) = 0).
  { intros C. destruct (C p) as (x & X1 & X2); auto. exists x. split; auto. intros. apply X2. lia. }
  induction m; intros Hm.
  - exists (fun _ => 1). split; auto. intros. lia.
  - destruct IHm as (x & X1 & X2); [lia|]. set (q := (p - S m)%nat).
    exists (updv x q ((L q q * x q - sum (S p) (fun i => L i q * x i)) / L q q)). split; [rewrite updv_other by lia; auto|].
    intros k Hk. destruct (Nat.eq_dec k q).
    + subst k. rewrite (sum_at (S p) q _ (fun i => L i q * x i)) by (intros; try lia; now rewrite updv_other).
      rewrite updv_same. field. apply Ld. lia.
    + rewrite (sum_at (S p) q _ (fun i => L i k * x i)) by (intros; try lia; now rewrite updv_other).
      rewrite X2 by lia. rewrite (Lu q k) by lia. ring.
Qed.

(** ** All columns *)
Definition posDef (n : nat) (A : mat) : Prop := forall x : vec, (exists i, (i < n)%nat /\ x i <> 0) -> 0 < quad n A x.
Definition cinv (n : nat) (A : vec) (J : nat) (st : vec * bool) : Prop :=
  (forall i l, (J <= l <= i)%nat -> fst st (ix i l) = A (ix i l)) /\
  (snd st = false -> forall l, (l < J)%nat -> 0 < fst st (ix l l) /\
     forall i, (l <= i < n)%nat -> sum (S l) (fun k => fst st (ix i k) * fst st (ix l k)) = A (ix i l)) /\
  (snd st = true -> ~ posDef n (packE A)).

Lemma quad_lead N n A x : (N <= n)%nat -> (forall i, (N <= i)%nat -> x i = 0) -> quad n A x = quad N A x.
Proof.
  intros L Z. unfold quad. rewrite (sum_split n N) by auto.
  rewrite (sum_0 (n - N)) by (intros; apply sum_0; intros; rewrite (Z (N + i)%nat) by lia; ring).
  rewrite Rplus_0_r. apply sum_ext. intros i Hi. rewrite (sum_split n N) by auto.
  rewrite (sum_0 (n - N)) by (intros; rewrite (Z (N + i0)%nat) by lia; ring). ring.
Qed.

Lemma cstep n A j st : (j < n)%nat -> cinv n A j st -> cinv n A (S j) (cholStep n (S j) st).
Proof.
  intros Lj (I1 & I2 & I3). destruct st as [a sg]. cbn [fst snd] in *. unfold cholStep. cbn [fst snd]. rewrite idx_q.
  set (a1 := if (1 <? S j)%nat then cholUpdate n (S j) a else a).
  assert (U : forall i l, (l <= i)%nat -> a1 (ix i l) = if Nat.eqb l j && (i <? n)%nat then A (ix i l) - sum j (fun k => a (ix i k) * a (ix j k)) else a (ix i l)).
  { intros i l Ll. unfold a1. destruct (Nat.ltb_spec 1 (S j)).
    - rewrite (cholUpdate_spec n j a Lj i l Ll). destruct (Nat.eqb_spec l j); cbn [andb]; auto. subst. rewrite I1 by lia. reflexivity.
    - assert (j = 0)%nat by lia. subst j. destruct (Nat.eqb_spec l 0); cbn [andb]; auto. subst. destruct (i <? n)%nat; auto. cbn [sum]. rewrite I1 by lia. lra. }
  assert (Ud : a1 (ix j j) = A (ix j j) - sum j (fun k => a (ix j k) * a (ix j k))).
  { rewrite U by lia. rewrite Nat.eqb_refl, (proj2 (Nat.ltb_lt j n) Lj). reflexivity. }
  destruct (Rle_dec (a1 (ix j j)) 0) as [Neg|Pos].
  - set (a2 := updv a1 (ix j j) 0). unfold cinv. cbn [fst snd].
    pose proof (cholScale_spec n j a2 Lj) as Sc. cbv zeta in Sc. split; [|split; [discriminate|]].
    + intros i l Ll. rewrite Sc by lia. rewrite (proj2 (Nat.eqb_neq l j)) by lia. cbn [andb]. unfold a2. rewrite updv_ix by lia.
      rewrite (proj2 (Nat.eqb_neq j l)) by lia. rewrite Bool.andb_false_r. rewrite U by lia. rewrite (proj2 (Nat.eqb_neq l j)) by lia. cbn [andb]. apply I1. lia.
    + intros _. destruct sg; [now apply I3|]. specialize (I2 eq_refl). intros PD.
      set (L := fun i k => if (k <=? i)%nat then a (ix i k) else 0).
      destruct (back_vector L j) as (x & X1 & X2).
      * intros k Hk. unfold L. rewrite Nat.leb_refl. destruct (I2 k Hk) as [D _]. lra.
      * intros i k Hik. unfold L. destruct (Nat.leb_spec k i); auto; lia.
      * set (y := fun i => if (i <=? j)%nat then x i else 0).
        assert (Yj : y j = 1) by (unfold y; rewrite Nat.leb_refl; auto).
        specialize (PD y). assert (E0 : 0 < quad n (packE A) y) by (apply PD; exists j; split; auto; rewrite Yj; lra).
        rewrite (quad_lead (S j) n) in E0 by (auto; intros; unfold y; destruct (Nat.leb_spec i j); auto; lia).
        rewrite (quad_factor (S j) j (packE A) L y (a1 (ix j j)) j) in E0.
        -- rewrite (sum_0 j) in E0.
           ++ rewrite Yj in E0. lra.
           ++ intros k Hk. rewrite (sum_ext (S j) _ (fun i => L i k * x i)).
              ** rewrite X2 by auto. ring.
              ** intros i Hi. unfold y. now rewrite (proj2 (Nat.leb_le i j)) by lia.
        -- lia.
        -- assert (G : forall i l, (l <= i)%nat -> (i < S j)%nat -> packE A i l = sum j (fun k => L i k * L l k) + (if Nat.eqb i j && Nat.eqb l j then a1 (ix j j) else 0)).
           { intros i l Ll Hi. unfold packE. rewrite (proj2 (Nat.leb_le l i)) by lia.
             destruct (Nat.eqb_spec l j).
             - subst l. assert (i = j) by lia. subst i. rewrite Nat.eqb_refl. cbn [andb]. rewrite Ud.
               rewrite (sum_ext j (fun k => L j k * L j k) (fun k => a (ix j k) * a (ix j k))); [lra|].
               intros k Hk. unfold L. now rewrite (proj2 (Nat.leb_le k j)) by lia.
             - rewrite Bool.andb_false_r, Rplus_0_r. assert (Hl : (l < j)%nat) by lia. destruct (I2 l Hl) as [_ E]. rewrite <- (E i) by lia.
               rewrite (sum_split j (S l)) by lia. rewrite (sum_0 (j - S l)).
               + rewrite Rplus_0_r. apply sum_ext. intros k Hk. unfold L. now rewrite !(proj2 (Nat.leb_le k _)) by lia.
               + intros k Hk. unfold L. destruct (Nat.leb_spec (S l + k) l); [lia|ring]. }
           intros i l Hi Hl. destruct (le_lt_dec l i); [apply G; lia|].
           rewrite packE_sym. rewrite G by lia. rewrite Bool.andb_comm. f_equal. apply sum_ext. intros. ring.
  - assert (P0 : 0 < a1 (ix j j)) by lra. unfold cinv. cbn [fst snd].
    pose proof (cholScale_spec n j a1 Lj) as Sc. cbv zeta in Sc.
    assert (Sq : 0 < sqrt (a1 (ix j j))) by (apply sqrt_lt_R0; auto).
    destruct (Req_EM_T (sqrt (a1 (ix j j))) 0) as [|_]; [lra|]. 
    assert (Old : forall i l, (l < j)%nat -> (l <= i)%nat -> cholScale n (S j) a1 (ix i l) = a (ix i l)).
    { intros i l H Ll. rewrite Sc by lia. rewrite (proj2 (Nat.eqb_neq l j)) by lia. cbn [andb]. rewrite U by lia. now rewrite (proj2 (Nat.eqb_neq l j)) by lia. }
    assert (New : forall i, (j <= i < n)%nat -> cholScale n (S j) a1 (ix i j) = (A (ix i j) - sum j (fun k => a (ix i k) * a (ix j k))) / sqrt (a1 (ix j j))).
    { intros i Hi. rewrite Sc by lia. rewrite Nat.eqb_refl, (proj2 (Nat.ltb_lt i n)) by lia. cbn [andb].
      rewrite U by lia. rewrite Nat.eqb_refl, (proj2 (Nat.ltb_lt i n)) by lia. reflexivity. }
    split; [|split; [|exact I3]].
    + intros i l Ll. rewrite Sc by lia. rewrite (proj2 (Nat.eqb_neq l j)) by lia. cbn [andb]. rewrite U by lia. rewrite (proj2 (Nat.eqb_neq l j)) by lia. apply I1. lia.
    + intros Hs l Hl. specialize (I2 Hs). destruct (Nat.eq_dec l j).
      * subst l. split.
        -- rewrite New by lia. rewrite <- Ud. apply Rdiv_lt_0_compat; auto.
        -- intros i Hi. cbn [sum]. rewrite !New by lia. rewrite <- Ud.
           rewrite (sum_ext j _ (fun k => a (ix i k) * a (ix j k))) by (intros; rewrite !Old by lia; ring).
           assert (E : a1 (ix j j) = sqrt (a1 (ix j j)) * sqrt (a1 (ix j j))) by (rewrite sqrt_sqrt; lra).
           set (s := sqrt (a1 (ix j j))) in *. rewrite E. field. lra.
      * assert (Hlj : (l < j)%nat) by lia. destruct (I2 l Hlj) as [D E]. split; [rewrite Old by lia; auto|].
        intros i Hi. rewrite <- (E i) by lia. apply sum_ext. intros k Hk. rewrite !Old by lia. reflexivity.
Qed.
Lemma chol_inv n A : cinv n A n (Choldcmp n A).
Proof.
  unfold Choldcmp. pose proof (forUp_inv (fun j st => cinv n A (j - 1) st) 1 (n + 1) (cholStep n) (A, false)) as F. cbn beta in F.
  replace (n + 1 - 1)%nat with n in F by lia. apply F; [lia| |].
  - unfold cinv. cbn. split; [auto|]. split; [intros; lia|discriminate].
  - intros i s Hi I. destruct i as [|i]; [lia|]. replace (S (S i) - 1)%nat with (S i) by lia. replace (S i - 1)%nat with i in I by lia. apply cstep; auto. lia.
Qed.

Lemma chol_factor n A : snd (Choldcmp n A) = false ->
  (forall i, (i < n)%nat -> 0 < lowerE (fst (Choldcmp n A)) i i) /\
  forall i j, (i < n)%nat -> (j < n)%nat -> sum n (fun k => lowerE (fst (Choldcmp n A)) i k * lowerE (fst (Choldcmp n A)) j k) = packE A i j.
Proof.
  intros S0. destruct (chol_inv n A) as (_ & I & _). specialize (I S0). set (L := fst (Choldcmp n A)) in *. split.
  - intros i Hi. unfold lowerE. rewrite Nat.leb_refl. now apply I.
  - assert (G : forall i j, (j <= i)%nat -> (i < n)%nat -> sum n (fun k => lowerE L i k * lowerE L j k) = packE A i j).
    { intros i j Hj Hi. unfold packE. rewrite (proj2 (Nat.leb_le j i)) by lia.
      destruct (I j) as [_ E]; [lia|]. rewrite <- (E i) by lia. rewrite (sum_split n (S j)) by lia.
      rewrite (sum_0 (n - S j)).
      - rewrite Rplus_0_r. apply sum_ext. intros k Hk. unfold lowerE. now rewrite !(proj2 (Nat.leb_le k _)) by lia.
      - intros k Hk. unfold lowerE. destruct (Nat.leb_spec (S j + k) j); [lia|ring]. }
    intros i j Hi Hj. destruct (le_lt_dec j i); [apply G; lia|]. rewrite packE_sym. rewrite <- G by lia. apply sum_ext. intros. ring.
Qed.
(** a lower triangular matrix with non-zero diagonal has a regular transpose *)
Lemma lower_regular n (L : mat) x : (forall i, (i < n)%nat -> L i i <> 0) -> (forall i k, (i < k)%nat -> L i k = 0) ->
  (forall k, (k < n)%nat -> sum n (fun i => L i k * x i) = 0) -> forall i, (i < n)%nat -> x i = 0.
Proof.
  intros Ld Lu E. cut (forall m, (m <= n)%nat -> forall i, (n - m <= i < n)%nat -> x i = 0).
  { intros C i Hi. apply (C n); auto. lia. }
  induction m; intros Hm i Hi; [lia|]. destruct (Nat.eq_dec i (n - S m)); [|apply IHm; lia].
  specialize (E i ltac:(lia)). rewrite (sum_split n (S i)) in E by lia. cbn [sum] in E.
  rewrite (sum_0 i) in E by (intros; rewrite Lu by lia; ring).
  rewrite (sum_0 (n - S i)) in E by (intros; rewrite IHm by lia; ring).
  assert (L i i * x i = 0) by lra. apply Rmult_integral in H. destruct H; auto. exfalso. apply (Ld i); auto. lia.
Qed.
Lemma chol_posdef n A : snd (Choldcmp n A) = false <-> posDef n (packE A).
Proof.
  split.
  - intros S0 x (i & Hi & Xi). destruct (chol_factor n A S0) as [D F]. set (L := lowerE (fst (Choldcmp n A))) in *.
    assert (0 < n)%nat by lia.
    rewrite (quad_factor n n (packE A) L x 0 0) by (auto; intros; rewrite F by auto; destruct (_ && _); ring).
    assert (0 <= sum n (fun k => sum n (fun i => L i k * x i) * sum n (fun i => L i k * x i))) as P0 by (apply sum_pos; intros; nra).
    destruct P0 as [P0|P0]; [lra|]. exfalso. apply Xi. apply (lower_regular n L x); auto.
    + intros k Hk. specialize (D k Hk). lra.
    + intros a b Hab. unfold L, lowerE. destruct (Nat.leb_spec b a); auto; lia.
    + apply (norm2_zero n (fun k => sum n (fun i => L i k * x i))). unfold norm2, dot. now rewrite <- P0.
  - intros PD. destruct (snd (Choldcmp n A)) eqn:S0; auto. destruct (chol_inv n A) as (_ & _ & I). now elim (I S0).
Qed.

(** ** Substitution *)
Lemma cholFwd_spec n (a x : vec) : (0 < n)%nat -> (forall i, (i < n)%nat -> a (ix i i) <> 0) ->
  let y := cholFwd n a x in forall i, (i < n)%nat -> sum (S i) (fun k => a (ix i k) * y k) = x i.
Proof.
  intros Hn D. cbv zeta. unfold cholFwd. cbv zeta.
  set (x1 := updv x 0 _).
  assert (X1 : a (ix 0 0) * x1 0%nat = x 0%nat).
  { unfold x1. rewrite updv_same. unfold sdiv. specialize (D 0%nat Hn). change (ix 0 0) with 0%nat in *. destruct (Req_EM_T (a 0%nat) 0); [easy|]. field. auto. }
  assert (X2 : forall i, (0 < i)%nat -> x1 i = x i) by (intros; unfold x1; rewrite updv_other; auto; lia).
  destruct (Nat.ltb_spec 1 n) as [L|L].
  2:{ intros i Hi. assert (i = 0)%nat by lia. subst. cbn [sum]. rewrite X1. lra. }
  match goal with |- context [forUp 2 (n + 1) ?f (x1, 1%nat)] => set (body := f) end.
  pose proof (forUp_inv (fun i st => snd st = (ix (i - 2) (i - 2) + 1)%nat /\ (forall k, (k < i - 1)%nat -> sum (S k) (fun q => a (ix k q) * fst st q) = x k) /\ (forall k, (i - 1 <= k)%nat -> fst st k = x k)) 2 (n + 1) body (x1, 1%nat)) as F.
  cbn beta in F. cut (forall k, (k < n)%nat -> sum (S k) (fun q => a (ix k q) * fst (forUp 2 (n + 1) body (x1, 1%nat)) q) = x k); auto.
  replace (n + 1 - 1)%nat with n in F by lia. apply F; [lia| |]; clear F.
  - cbn [fst snd]. split; [reflexivity|]. split.
    + intros k Hk. assert (k = 0)%nat by lia. subst. cbn [sum]. rewrite X1. lra.
    + intros k Hk. apply X2. lia.
  - intros i [y q] Hi (Q & E & Z). cbn [fst snd] in *. destruct i as [|[|r]]; [lia|lia|].
    replace (S (S r) - 2)%nat with r in Q by lia. replace (S (S r) - 1)%nat with (S r) in * by lia.
    unfold body.
    match goal with |- context [forUp 1 (S (S r)) ?f (y, q)] => set (f1 := f) end.
    pose proof (forUp_inv (fun j st => snd st = (q + (j - 1))%nat /\ (forall k, k <> S r -> fst st k = y k) /\ fst st (S r) = x (S r) - sum (j - 1) (fun k => a (ix (S r) k) * y k)) 1 (S (S r)) f1 (y, q)) as F.
    cbn beta in F. destruct F as (F1 & F2 & F3); [lia| | |].
    + cbn [fst snd]. split; [lia|]. split; auto. cbn. rewrite Z by lia. lra.
    + intros j [z q'] Hj (G1 & G2 & G3). cbn [fst snd] in *. unfold f1. cbn [fst snd].
      replace (S (S r) - 1)%nat with (S r) by lia.
      split; [lia|]. split.
      * intros k Hk. rewrite updv_other by auto. auto.
      * rewrite updv_same, G3. replace (S j - 1)%nat with (S (j - 1)) by lia. cbn [sum]. rewrite G2 by lia.
        replace (q' + 1 - 1)%nat with (ix (S r) (j - 1)); [ring|]. subst q' q. unfold ix. rewrite tri_S. lia.
    + destruct (forUp 1 (S (S r)) f1 (y, q)) as [z q']. cbn [fst snd] in *.
      replace (S (S r) - 1)%nat with (S r) in * by lia. replace (S (S (S r)) - 2)%nat with (S r) by lia. replace (S (S (S r)) - 1)%nat with (S (S r)) by lia.
      replace (q' + 1 - 1)%nat with (ix (S r) (S r)) by (subst q' q; unfold ix; rewrite tri_S; lia).
      split; [subst q' q; unfold ix; rewrite tri_S; lia|]. split.
      * intros k Hk. destruct (Nat.eq_dec k (S r)).
        -- subst k. cbn [sum]. rewrite (sum_ext r _ (fun k => a (ix (S r) k) * y k)) by (intros; rewrite updv_other by lia; now rewrite F2 by lia).
           rewrite (updv_other z (S r) _ r) by lia. rewrite F2 by lia. rewrite updv_same, F3. unfold sdiv. specialize (D (S r) ltac:(lia)).
           destruct (Req_EM_T (a (ix (S r) (S r))) 0); [easy|]. cbn [sum]. field. auto.
        -- rewrite <- (E k) by lia. apply sum_ext. intros p Hp. rewrite updv_other by lia. now rewrite F2 by lia.
      * intros k Hk. rewrite updv_other by lia. rewrite F2 by lia. apply Z. lia.
Qed.
Lemma cholBwd_spec n (a y : vec) : (0 < n)%nat -> (forall i, (i < n)%nat -> a (ix i i) <> 0) ->
  let x := cholBwd n a y in forall k, (k < n)%nat -> sum n (fun i => lowerE a i k * x i) = y k.
Proof.
  intros Hn D. cbv zeta. unfold cholBwd. cbv zeta.
  replace (n * (n + 1) / 2 - 1)%nat with (ix (n - 1) (n - 1)) by (destruct n; [lia|]; rewrite tri_S; unfold ix; replace (S n - 1)%nat with n by lia; lia).
  set (y1 := updv y (n - 1) _).
  assert (Y1 : a (ix (n - 1) (n - 1)) * y1 (n - 1)%nat = y (n - 1)%nat).
  { unfold y1. rewrite updv_same. unfold sdiv. specialize (D (n - 1)%nat ltac:(lia)). destruct (Req_EM_T _ 0); [easy|]. field. auto. }
  assert (Y2 : forall i, (i < n - 1)%nat -> y1 i = y i) by (intros; unfold y1; rewrite updv_other; auto; lia).
  destruct (Nat.ltb_spec 1 n) as [L|L].
  2:{ intros k Hk. replace n with 1%nat in * by lia. assert (k = 0)%nat by lia. subst. cbn [sum]. unfold lowerE. cbn [Nat.leb]. cbn [Nat.sub] in Y1. rewrite Y1. ring. }
  match goal with |- context [forDown (n - 1) ?f y1] => set (body := f) end.
  (* after the passes down to k: rows >= k are solved, the others carry the remaining right-hand side *)
  pose proof (forDown_inv (fun k x => (forall c, (k <= c < n)%nat -> sum (n - c) (fun q => a (ix (c + q) c) * x (c + q)%nat) = y c) /\
      (forall c, (c < k)%nat -> x c = y c - sum (n - 1 - k) (fun q => a (ix (k + 1 + q) c) * x (k + 1 + q)%nat))) (n - 1) body y1) as F.
  cbn beta in F. destruct F as [F _].
  - split.
    + intros c Hc. assert (c = n - 1)%nat by lia. subst c. replace (n - (n - 1))%nat with 1%nat by lia. cbn [sum]. rewrite !Nat.add_0_r, Y1. lra.
    + intros c Hc. replace (n - 1 - (n - 1))%nat with O by lia. cbn [sum]. rewrite Y2 by lia. lra.
  - intros k x Hk (E & Z). unfold body. cbv zeta.
    replace (k + 2 - 1)%nat with (S k) by lia. replace (k + 2 - 2)%nat with k by lia.
    replace ((k + 2) * S k / 2)%nat with (ix (S k) 0) by (unfold ix; replace ((k + 2) * S k)%nat with (S k * (S k + 1))%nat by lia; lia).
    match goal with |- context [forUp 1 (k + 2) ?f x] => set (f1 := f) end.
    pose proof (forUp_inv (fun j z => (forall c, (j - 1 <= c)%nat -> z c = x c) /\ (forall c, (c < j - 1)%nat -> z c = x c - x (S k) * a (ix (S k) c))) 1 (k + 2) f1 x) as F.
    cbn beta in F. destruct F as (F1 & F2); [lia| | |].
    + split; auto. intros; lia.
    + intros j z Hj (G1 & G2). unfold f1. split.
      * intros c Hc. rewrite updv_other by lia. apply G1. lia.
      * intros c Hc. destruct (Nat.eq_dec c (j - 1)).
        -- subst c. rewrite updv_same. rewrite !G1 by lia. replace (ix (S k) 0 + j - 1)%nat with (ix (S k) (j - 1)) by (unfold ix; lia). reflexivity.
        -- rewrite updv_other by lia. apply G2. lia.
    + replace (k + 2 - 1)%nat with (S k) in * by lia. set (z := forUp 1 (k + 2) f1 x) in *.
      assert (Zk : forall c, (c <= k)%nat -> z c = y c - sum (n - 1 - k) (fun q => a (ix (k + 1 + q) c) * x (k + 1 + q)%nat)).
      { intros c Hc. rewrite F2 by lia. rewrite Z by lia. rewrite (sum_split (n - 1 - k) 1) by lia. cbn [sum]. rewrite Nat.add_0_r.
        replace (n - 1 - k - 1)%nat with (n - 1 - S k)%nat by lia. replace (k + 1)%nat with (S k) by lia.
        rewrite (sum_ext (n - 1 - S k) (fun i => a (ix (S k + (1 + i)) c) * x (S k + (1 + i))%nat) (fun q => a (ix (S k + 1 + q) c) * x (S k + 1 + q)%nat)); [lra|].
        intros q Hq. now replace (S k + (1 + q))%nat with (S k + 1 + q)%nat by lia. }
      replace (ix (S k) 0 - 1)%nat with (ix k k) by (unfold ix; rewrite tri_S; lia).
      split.
      * intros c Hc. destruct (Nat.eq_dec c k).
        -- subst c. replace (n - k)%nat with (S (n - 1 - k)) by lia. rewrite (sum_split (S (n - 1 - k)) 1) by lia. cbn [sum].
           rewrite !Nat.add_0_r. rewrite updv_same. replace (S (n - 1 - k) - 1)%nat with (n - 1 - k)%nat by lia.
           rewrite (sum_ext (n - 1 - k) _ (fun q => a (ix (k + 1 + q) k) * x (k + 1 + q)%nat)).
           ++ rewrite Zk by lia. unfold sdiv. specialize (D k ltac:(lia)). destruct (Req_EM_T (a (ix k k)) 0); [easy|]. field. auto.
           ++ intros q Hq. replace (k + (1 + q))%nat with (k + 1 + q)%nat by lia. rewrite updv_other by lia. rewrite F1 by lia. reflexivity.
        -- rewrite <- (E c) by lia. apply sum_ext. intros q Hq. rewrite updv_other by lia. now rewrite F1 by lia.
      * intros c Hc. rewrite updv_other by lia. rewrite Zk by lia. f_equal. apply sum_ext. intros q Hq. rewrite updv_other by lia. now rewrite F1 by lia.
  - intros k Hk. rewrite <- (F k) by lia. rewrite (sum_split n k) by lia. rewrite (sum_0 k).
    + rewrite Rplus_0_l. apply sum_ext. intros q Hq. unfold lowerE. now rewrite (proj2 (Nat.leb_le k (k + q))) by lia.
    + intros i Hi. unfold lowerE. destruct (Nat.leb_spec k i); [lia|ring].
Qed.
Lemma chol_solve n A b : (0 < n)%nat -> snd (Choldcmp n A) = false ->
  forall i, (i < n)%nat -> apply n (packE A) (Cholback n (fst (Choldcmp n A)) b) i = b i.
Proof.
  intros Hn S0 i Hi. destruct (chol_factor n A S0) as [D F]. set (a := fst (Choldcmp n A)) in *.
  assert (D' : forall i, (i < n)%nat -> a (ix i i) <> 0) by (intros j Hj; specialize (D j Hj); unfold lowerE in D; rewrite Nat.leb_refl in D; lra).
  unfold Cholback. set (y := cholFwd n a b). pose proof (cholFwd_spec n a b Hn D') as Fw. cbv zeta in Fw. fold y in Fw.
  pose proof (cholBwd_spec n a y Hn D') as Bw. cbv zeta in Bw. set (x := cholBwd n a y) in *.
  unfold apply. rewrite <- (Fw i Hi).
  rewrite (sum_ext n _ (fun j => sum n (fun k => lowerE a i k * (lowerE a j k * x j)))) by (intros j Hj; rewrite <- F by auto; rewrite Rmult_comm, <- sum_scal; apply sum_ext; intros; ring).
  rewrite sum_swap. rewrite (sum_ext n _ (fun k => lowerE a i k * y k)) by (intros k Hk; rewrite sum_scal; now rewrite Bw).
  rewrite (sum_split n (S i)) by lia. rewrite (sum_0 (n - S i)).
  - rewrite Rplus_0_r. apply sum_ext. intros k Hk. unfold lowerE. now rewrite (proj2 (Nat.leb_le k i)) by lia.
  - intros k Hk. unfold lowerE. destruct (Nat.leb_spec (S i + k) i); [lia|ring].
Qed.
