(** The change of variables of the test for a second liquid keeps absent components absent. *)
From Coq Require Import Reals List Bool Arith Lia Lra.
From Verif Require Import MassModel LiqModel LaSpec LaBase HhModel HhProofs HftiProofs QuadModel QuadProofs FullRank NashModel CoexModel.
Import ListNotations.
Open Scope R_scope.

Section F.
Variable n : nat.
Variable h0 : nat -> R.
Variable m : nat -> R.
Hypothesis M0 : m 0%nat <> 0.
Notation NA := (S n).
Notation ne := (ne n m).
Notation nulls := (nulls n m).
Notation row k := (nth k nulls k).

Lemma isZ_true x : isZ x = true <-> x = 0.
Proof. unfold isZ. destruct (Req_EM_T x 0); split; congruence. Qed.
Lemma nulls_spec i : In i nulls <-> (i < NA)%nat /\ m i = 0.
Proof. unfold CoexModel.nulls. rewrite filter_In, in_seq, isZ_true. split; intros (A & B); split; auto; lia. Qed.
Lemma nulls_nodup : NoDup nulls.
Proof. apply NoDup_filter, seq_NoDup. Qed.
Lemma row_spec k : (k < ne)%nat -> (1 <= row k)%nat /\ (row k <= n)%nat /\ m (row k) = 0.
Proof.
  intros Hk. assert (I : In (row k) nulls) by (apply nth_In; exact Hk). apply nulls_spec in I. destruct I as (A & B).
  split; [|split; [lia|auto]]. destruct (Nat.eq_dec (row k) 0) as [E|]; [|lia]. rewrite E in B. now elim M0.
Qed.
Lemma row_of i : (i < NA)%nat -> m i = 0 -> exists k, (k < ne)%nat /\ row k = i.
Proof.
  intros Hi Z. assert (I : In i nulls) by (apply nulls_spec; auto). destruct (In_nth _ _ 0%nat I) as (k & Hk & E). exists k. split; [exact Hk|].
  rewrite (nth_indep _ k 0%nat Hk). exact E.
Qed.
Lemma row_inj k l : (k < ne)%nat -> (l < ne)%nat -> row k = row l -> k = l.
Proof.
  intros Hk Hl E. pose proof nulls_nodup as N. rewrite (NoDup_nth nulls 0%nat) in N. apply N; auto.
  rewrite (nth_indep _ 0%nat k Hk), (nth_indep _ 0%nat l Hl). exact E.
Qed.
Lemma ne_le : (ne <= n)%nat.
Proof.
  unfold CoexModel.ne. assert (I : incl nulls (seq 1 n)).
  { intros i Hi. apply nulls_spec in Hi. destruct Hi as (A & B). apply in_seq. destruct (Nat.eq_dec i 0) as [->|]; [now elim M0|lia]. }
  pose proof (NoDup_incl_length nulls_nodup I) as L. now rewrite seq_length in L.
Qed.
Lemma nullRows_eq k j : (k < ne)%nat -> nullRows n m k j = if Nat.eqb j (row k - 1) then 1 else 0.
Proof.
  intros Hk. destruct (row_spec k Hk) as (A & _). unfold nullRows, dxdr. destruct (Nat.eqb_spec (row k) 0); [lia|].
  destruct (Nat.eqb_spec (row k) (S j)), (Nat.eqb_spec j (row k - 1)); auto; lia.
Qed.
Lemma dot_row k x : (k < ne)%nat -> dot n (nullRows n m k) x = x (row k - 1)%nat.
Proof.
  intros Hk. destruct (row_spec k Hk) as (A & B & _). unfold dot.
  rewrite (LaBase.sum_ext n _ (fun j => if Nat.eqb j (row k - 1) then x j else 0)).
  - apply sum_one. lia.
  - intros j Hj. rewrite nullRows_eq by auto. destruct (Nat.eqb j (row k - 1)); ring.
Qed.
Lemma rows_independent : independent ne n (nullRows n m).
Proof.
  intros u H i Hi. destruct (row_spec i Hi) as (A & B & _). rewrite <- (H (row i - 1)%nat ltac:(lia)).
  rewrite (LaBase.sum_ext ne _ (fun k => if Nat.eqb k i then u k else 0)).
  - symmetry. now apply sum_one.
  - intros k Hk. rewrite nullRows_eq by auto. destruct (row_spec k Hk) as (A' & _ & _).
    destruct (Nat.eqb_spec k i) as [->|N]; [rewrite Nat.eqb_refl; ring|].
    destruct (Nat.eqb_spec (row i - 1) (row k - 1)) as [E|]; [|ring]. elim N. apply row_inj; auto. lia.
Qed.

(** an orthogonal map and its inverse *)
Lemma frame_maps : exists K Ki C',
  orth n K Ki /\ (forall x q, fromFree n h0 m x q = K x q) /\ (forall x q, (q < n)%nat -> toFree n h0 m x q = Ki x q) /\
  (forall x y, dot n (toFree n h0 m x) y = dot n x (K y)) /\
  (forall r, (r < ne)%nat -> C' r r <> 0) /\ (forall r y, (r < ne)%nat -> dot n (nullRows n m r) (K y) = dot n (lower ne C' r) y).
Proof.
  pose proof (conDecomp_ok ne n (nullRows n m) h0 ne_le) as CI.
  assert (Dg : forall r, (r < ne)%nat -> fst (frame n h0 m) r r <> 0).
  { intros r Hr. apply (diag_nonzero ne n (nullRows n m) (fst (frame n h0 m)) (snd (frame n h0 m)) ne_le rows_independent); [|exact Hr]. rewrite <- surjective_pairing. exact CI. }
  destruct CI as (wf & W1 & W2). fold (frame n h0 m) in W1, W2. destruct (Kd_orth n wf ne) as (Ki & O).
  assert (Up : forall x q, toFree n h0 m x q = Ku n wf ne x q).
  { intros x q. exact (projUp_get ne n (fst (frame n h0 m)) (snd (frame n h0 m)) wf ne_le W1 Row (fun _ => x) 0 1 0%nat q). }
  assert (Ad : forall x y, dot n (toFree n h0 m x) y = dot n x (Kd n wf ne y)).
  { intros x y. rewrite <- K_adj. apply dot_ext; auto. }
  exists (Kd n wf ne), Ki, (fst (frame n h0 m)). split; [exact O|]. split.
  { intros x q. exact (projDown_get ne n (fst (frame n h0 m)) (snd (frame n h0 m)) wf ne_le W1 Row (fun _ => x) 0 1 0%nat q). }
  split; [|split; [exact Ad|split; [exact Dg|exact W2]]].
  intros x q Hq. set (e := fun i => if Nat.eqb i q then 1 else 0).
  assert (E : forall z, dot n z e = z q).
  { intros z. unfold dot, e. rewrite (LaBase.sum_ext n _ (fun i => if Nat.eqb i q then z i else 0)); [now apply sum_one|]. intros i Hi. destruct (Nat.eqb i q); ring. }
  rewrite <- (E (toFree n h0 m x)), <- (E (Ki x)), Ad. rewrite <- (orth_dot n _ _ (Ki x) e O). apply dot_ext; auto. intros i Hi. destruct O as (_ & _ & _ & _ & F). now rewrite F.
Qed.
(** a vector with a zero for every absent component has zeros in front *)
Lemma toFree_zero x : (forall k, (k < ne)%nat -> x (row k - 1)%nat = 0) -> forall r, (r < ne)%nat -> toFree n h0 m x r = 0.
Proof.
  intros H. destruct frame_maps as (K & Ki & C' & O & _ & Up & _ & Dg & W2). pose proof ne_le as L.
  apply (lower_unique ne C' (toFree n h0 m x)); auto. intros r Hr.
  assert (Z : dot n (lower ne C' r) (Ki x) = 0).
  { rewrite <- W2 by auto. rewrite dot_row by auto. destruct O as (_ & _ & _ & _ & F). destruct (row_spec r Hr) as (A & B & _). rewrite F by lia. now apply H. }
  rewrite <- Z. unfold dot. rewrite (sum_split n (S r)) by lia. rewrite (sum_0 (n - S r)).
  - rewrite Rplus_0_r. apply LaBase.sum_ext. intros q Hq. rewrite Up by lia. f_equal. unfold lower. destruct (Nat.ltb_spec r ne); [|lia]. destruct (Nat.ltb_spec r q); [lia|auto].
  - intros q Hq. unfold lower. destruct (Nat.ltb_spec r ne); [|lia]. destruct (Nat.ltb_spec r (S r + q)); [|lia]. cbn [andb]. ring.
Qed.
(** and back *)
Lemma fromFree_zero x : (forall r, (r < ne)%nat -> x r = 0) -> forall k, (k < ne)%nat -> fromFree n h0 m x (row k - 1)%nat = 0.
Proof.
  intros H k Hk. destruct frame_maps as (K & Ki & C' & O & Dn & Up & _ & Dg & W2). rewrite Dn.
  rewrite <- (dot_row k (K x) Hk), W2 by auto. apply sum_0. intros q Hq. unfold lower. destruct (Nat.ltb_spec k ne); [|lia].
  destruct (Nat.ltb_spec k q); cbn [andb]; [ring|]. rewrite H by lia. ring.
Qed.
Lemma dblEps_pos : 0 < dblEps.
Proof. unfold dblEps. apply Rinv_0_lt_compat, pow_lt. lra. Qed.
Lemma snap_zero x i : x i = 0 -> snap x i = 0.
Proof. unfold snap. intros ->. destruct (Rlt_dec _ _); auto. Qed.
(** the fixed variables are zero *)
Lemma start_zero s i : (i < NA)%nat -> m i = 0 -> startOf n m s i = 0.
Proof. intros Hi Z. unfold startOf. apply isZ_true in Z. now rewrite Z. Qed.
Lemma fixed_zero s r : (r < ne)%nat -> fixed n h0 m s r = 0.
Proof.
  intros Hr. unfold fixed. apply snap_zero. unfold startFree. destruct (Nat.eqb_spec ne 0) as [E|_]; [rewrite E in Hr; lia|].
  apply toFree_zero; auto. intros k Hk. destruct (row_spec k Hk) as (A & B & Z). unfold rOf. replace (S (row k - 1)) with (row k) by lia.
  rewrite start_zero by (auto; lia). destruct (isZ _); [auto|unfold Rdiv; ring].
Qed.
Lemma lift_null s b i : (i < n)%nat -> m (S i) = 0 -> lift n h0 m (fixed n h0 m s) b i = 0.
Proof.
  intros Hi Z. destruct (row_of (S i) ltac:(lia) Z) as (k & Hk & E). unfold lift. destruct (Nat.eqb_spec ne 0) as [E0|_]; [rewrite E0 in Hk; lia|].
  apply snap_zero. replace i with (row k - 1)%nat by lia. apply fromFree_zero; auto. intros r Hr. destruct (Nat.ltb_spec r ne); [|lia]. now apply fixed_zero.
Qed.
End F.
