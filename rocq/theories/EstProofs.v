(** Proofs about getAffinityAndComposition: what the solution found satisfies. *)
From Coq Require Import Reals List Bool Arith Lra Lia.
From Verif Require Import MassModel LiqModel LaSpec LaBase HhModel HhProofs HftiProofs FullRank QuadModel QuadProofs NashModel NashSpec NashProps CoexModel CoexSolModel EstModel.
Import ListNotations.
Open Scope R_scope.
Lemma eps_pos : 0 < dblEps. Proof. unfold dblEps. apply Rinv_0_lt_compat. apply pow_lt. lra. Qed.
Lemma small_eq : small = / 2 ^ 26.
Proof.
  unfold small, dblEps. replace (/ 2 ^ 52) with (/ 2 ^ 26 * / 2 ^ 26) by (rewrite <- Rinv_mult, <- pow_add; reflexivity).
  apply sqrt_square. left. apply Rinv_0_lt_compat, pow_lt. lra.
Qed.
Lemma snap_close x i : Rabs (snap x i - x i) <= 10 * dblEps.
Proof.
  assert (E := eps_pos). unfold snap. destruct (Rlt_dec (Rabs (x i)) (10 * dblEps)).
  - rewrite Rminus_0_l, Rabs_Ropp. lra.
  - rewrite Rminus_eq_0, Rabs_R0. lra.
Qed.
Lemma abs_btw x c : Rabs x <= c -> - c <= x <= c.
Proof. intro H. assert (A := Rle_abs x). assert (B := Rle_abs (- x)). rewrite Rabs_Ropp in B. lra. Qed.
Lemma sq_le_abs x y : 0 <= y -> x * x <= y * y -> Rabs x <= y.
Proof. intros H1 H2. apply Rsqr_incr_0_var; [|exact H1]. rewrite <- Rsqr_abs. exact H2. Qed.
Lemma sum_ge_term n (f : nat -> R) k : (forall i, (i < n)%nat -> 0 <= f i) -> (k < n)%nat -> f k <= LaSpec.sum n f.
Proof.
  induction n as [|n IH]; intros H Hk; [lia|]. cbn [LaSpec.sum]. assert (P : 0 <= LaSpec.sum n f). { clear IH Hk. induction n as [|n IH]; cbn [LaSpec.sum]; [lra|]. assert (0 <= f n) by (apply H; lia). assert (0 <= LaSpec.sum n f) by (apply IH; intros; apply H; lia). lra. }
  destruct (Nat.eq_dec k n) as [->|N]; [lra|]. assert (0 <= f n) by (apply H; lia). assert (f k <= LaSpec.sum n f) by (apply IH; [intros; apply H|]; lia). lra.
Qed.
Lemma sum_le_const n (f : nat -> R) c : (forall i, (i < n)%nat -> f i <= c) -> LaSpec.sum n f <= INR n * c.
Proof.
  induction n as [|n IH]; intros H; [cbn; lra|]. rewrite S_INR. cbn [LaSpec.sum]. assert (f n <= c) by (apply H; lia). assert (LaSpec.sum n f <= INR n * c) by (apply IH; intros; apply H; lia). lra.
Qed.
Section Frame.
Variable X : Solid.
Variable h0 : nat -> R.
Variables (t : R) (zeroX : nat -> bool) (muIn : nat -> R).
Notation na := (sNa X). Notation nr := (sNr X).
Notation ne := (neE X zeroX). Notation nz := (nzE X zeroX).
Notation frame := (frameE X t h0 zeroX muIn).
Notation lift := (liftE X t h0 zeroX muIn).
Notation gR := (guessR X t zeroX muIn).
Notation rows := (rowsE X t zeroX muIn).
Lemma ne_nz : (ne + nz = na)%nat.
Proof.
  unfold neE, nzE, nullsE, presentE. assert (G : forall l : list nat, (length (filter zeroX l) + length (filter (fun i => negb (zeroX i)) l) = length l)%nat).
  { induction l as [|x l IH]; [reflexivity|]. cbn. destruct (zeroX x); cbn; lia. }
  rewrite G, seq_length. reflexivity.
Qed.
Lemma nullList_spec k : (k < nz)%nat -> (nullList X zeroX k < na)%nat /\ zeroX (nullList X zeroX k) = false.
Proof.
  intro Hk. assert (I : In (nullList X zeroX k) (presentE X zeroX)) by (apply nth_In; exact Hk).
  unfold presentE in I. apply filter_In in I. destruct I as [I1 I2]. apply in_seq in I1. apply negb_true_iff in I2. split; [lia|exact I2].
Qed.
Lemma nullList_of i : (i < na)%nat -> zeroX i = false -> exists k, (k < nz)%nat /\ nullList X zeroX k = i.
Proof.
  intros Hi Z. assert (I : In i (presentE X zeroX)) by (apply filter_In; split; [apply in_seq; lia|rewrite Z; reflexivity]).
  destruct (In_nth _ _ 0%nat I) as (k & K1 & K2). exists k. split; [exact K1|exact K2].
Qed.
Hypothesis ANR : na = S nr.
Hypothesis NZ : nz <> 0%nat.
Lemma ne_le : (ne <= nr)%nat. Proof. generalize ne_nz. lia. Qed.
(** an orthogonal map and its inverse *)
Lemma maps : exists K Ki, orth nr K Ki /\ (forall x q, fromFreeE X t h0 zeroX muIn x q = K x q) /\
  ((0 < ne)%nat -> forall x q, (q < nr)%nat -> toFreeE X t h0 zeroX muIn x q = Ki x q) /\
  (forall r y, (r < ne)%nat -> dot nr (rows r) (K y) = dot nr (lower ne (fst frame) r) y).
Proof.
  pose proof (conDecomp_ok ne nr rows h0 ne_le) as (wf & W1 & W2). fold frame in W1, W2. destruct (Kd_orth nr wf ne) as (Ki & O).
  exists (Kd nr wf ne), Ki. split; [exact O|]. split.
  { intros x q. exact (projDown_get ne nr (fst frame) (snd frame) wf ne_le W1 Row (fun _ => x) 0 1 0%nat q). }
  split; [|exact W2].
  intros NE x q Hq. assert (Up : forall x q, toFreeE X t h0 zeroX muIn x q = Ku nr wf ne x q).
  { intros x0 q0. unfold toFreeE. rewrite (proj2 (Nat.eqb_neq ne 0)) by lia. exact (projUp_get ne nr (fst frame) (snd frame) wf ne_le W1 Row (fun _ => x0) 0 1 0%nat q0). }
  set (e := fun i => if Nat.eqb i q then 1 else 0).
  assert (E : forall z, dot nr z e = z q).
  { intros z. unfold dot, e. rewrite (LaBase.sum_ext nr _ (fun i => if Nat.eqb i q then z i else 0)); [now apply sum_one|]. intros i Hi. destruct (Nat.eqb i q); ring. }
  rewrite <- (E (toFreeE X t h0 zeroX muIn x)), <- (E (Ki x)).
  rewrite (dot_ext nr (toFreeE X t h0 zeroX muIn x) (Ku nr wf ne x) e e) by (intros; auto). rewrite K_adj.
  rewrite <- (orth_dot nr _ _ (Ki x) e O). apply dot_ext; auto. intros i Hi. destruct O as (_ & _ & _ & _ & F). now rewrite F.
Qed.
Lemma orth_entry K Ki x c i : orth nr K Ki -> 0 <= c -> (forall k, (k < nr)%nat -> Rabs (x k) <= c) -> (i < nr)%nat -> Rabs (K x i) <= INR nr * c.
Proof.
  intros O Hc B Hi. destruct O as (_ & _ & _ & N & _). apply sq_le_abs; [apply Rmult_le_pos; [apply pos_INR|exact Hc]|].
  apply Rle_trans with (norm2 nr (K x)). { unfold norm2, dot. apply (sum_ge_term nr (fun i => K x i * K x i)); [intros; apply Rle_0_sqr|exact Hi]. }
  rewrite N. unfold norm2, dot. apply Rle_trans with (INR nr * (c * c)).
  - apply (sum_le_const nr (fun i => x i * x i)). intros k Hk. rewrite <- (Rabs_pos_eq (x k * x k)) by apply Rle_0_sqr. rewrite Rabs_mult. apply Rmult_le_compat; try apply Rabs_pos; apply B; exact Hk.
  - assert (1 <= INR nr) by (change 1 with (INR 1); apply le_INR; lia). assert (0 <= c * c) by apply Rle_0_sqr. replace (INR nr * c * (INR nr * c)) with (INR nr * (INR nr * (c * c))) by ring.
    apply Rmult_le_compat_l; [lra|]. nra.
Qed.
(** compositions of near variables are near *)
Lemma lift_near b b' tol : 0 <= tol -> (forall k, (k < nz)%nat -> Rabs (b k - b' k) <= tol) -> forall i, (i < nr)%nat -> Rabs (lift b i - lift b' i) <= INR nr * tol + 20 * dblEps.
Proof.
  intros Ht B i Hi. assert (N1 : 1 <= INR nr) by (change 1 with (INR 1); apply le_INR; lia). assert (E0 := eps_pos). unfold liftE. destruct (Nat.eqb_spec ne 0) as [Z|Z].
  - rewrite Z. cbn [Nat.ltb Nat.leb]. rewrite Nat.sub_0_r. assert (Rabs (b i - b' i) <= tol) by (apply B; generalize ne_nz; lia). assert (1 * tol <= INR nr * tol) by (apply Rmult_le_compat_r; lra). lra.
  - destruct maps as (K & Ki & O & Dn & _). set (v := fun i0 => if (i0 <? ne)%nat then _ else b _). set (v' := fun i0 => if (i0 <? ne)%nat then _ else b' _).
    assert (S1 := snap_close (fromFreeE X t h0 zeroX muIn v) i). assert (S2 := snap_close (fromFreeE X t h0 zeroX muIn v') i).
    assert (D : Rabs (K v i - K v' i) <= INR nr * tol).
    { assert (L : K v i - K v' i = K (fun k => v k + (-1) * v' k) i) by (destruct O as (_ & _ & L & _); rewrite L by exact Hi; ring). rewrite L.
      apply (orth_entry K Ki _ tol i O Ht); [|exact Hi]. intros k Hk. unfold v, v'. destruct (Nat.ltb_spec k ne) as [L1|L1].
      - replace (_ + _) with 0 by ring. rewrite Rabs_R0. exact Ht.
      - replace (b (k - ne)%nat + -1 * b' (k - ne)%nat) with (b (k - ne)%nat - b' (k - ne)%nat) by ring. apply B. generalize ne_nz. lia. }
    rewrite Dn in S1, S2. set (s := snap _ i) in *. set (s' := snap (fromFreeE X t h0 zeroX muIn v') i) in *.
    apply abs_btw in S1. apply abs_btw in S2. apply abs_btw in D. apply Rabs_le. lra.
Qed.
End Frame.
