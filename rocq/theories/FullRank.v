(** A Hessian that is definite on the null space of the constraints is found to have full rank when the tolerance is zero. *)
From Coq Require Import Reals ZArith Arith Bool Lia Lra.
From Verif Require Import LaSpec LaBase HhModel HhProofs HftiProofs HftiSolve QuadModel QuadProofs.
Local Open Scope R_scope.

Lemma norm2_line m (x y : vec) t : norm2 m (fun k => x k + t * y k) = norm2 m x + 2 * t * dot m x y + t * t * norm2 m y.
Proof.
  unfold norm2, dot. induction m; cbn [sum]; [ring|]. rewrite IHm. ring.
Qed.
Lemma orth_dot m Q Qi x y : orth m Q Qi -> dot m (Q x) (Q y) = dot m x y.
Proof.
  intros (Qx & _ & Ql & Qn & _). pose proof (Qn (fun k => x k + 1 * y k)) as H.
  rewrite (norm2_ext m (Q (fun k => x k + 1 * y k)) (fun k => Q x k + 1 * Q y k)) in H by (intros i Hi; now apply Ql).
  rewrite !norm2_line, !Qn in H. lra.
Qed.
Lemma dot_comm n (x y : vec) : dot n x y = dot n y x.
Proof. apply sum_ext. intros. ring. Qed.
Lemma diag_mono n a : (forall i c, (i < n)%nat -> (i <= c < n)%nat -> tail i n (column (Rm n a) c) <= a i i * a i i) ->
  forall i c, (i <= c < n)%nat -> Rabs (a c c) <= Rabs (a i i).
Proof.
  intros Htail i c Hc. apply Rsqr_le_abs_0. unfold Rsqr. eapply Rle_trans; [|apply (Htail i c); lia].
  rewrite (tail_norm i n) by lia.
  assert (Q : norm2 i (column (Rm n a) c) <= norm2 c (column (Rm n a) c)).
  { pose proof (tail_pos i c (column (Rm n a) c)) as T. rewrite tail_norm in T by lia. lra. }
  assert (S1 : norm2 (S c) (column (Rm n a) c) <= norm2 n (column (Rm n a) c)).
  { pose proof (tail_pos (S c) n (column (Rm n a) c)) as T. rewrite tail_norm in T by lia. lra. }
  unfold norm2, dot in *. cbn [sum] in S1.
  assert (E : column (Rm n a) c c = a c c) by (unfold column, Rm; replace (c <? c)%nat with false by (symmetry; apply Nat.ltb_ge; lia); now rewrite andb_false_r).
  rewrite E in S1. lra.
Qed.
Lemma classic_nz n (z : vec) : (exists j, (j < n)%nat /\ z j <> 0) \/ (forall j, (j < n)%nat -> z j = 0).
Proof.
  induction n; [right; intros; lia|]. destruct IHn as [(j & H1 & H2)|H]; [left; exists j; split; [lia|auto]|].
  destruct (Req_dec (z n) 0) as [Z|N]; [right|left; exists n; split; [lia|auto]]. intros j Hj. destruct (Nat.eq_dec j n) as [->|]; auto. apply H. lia.
Qed.
(** with tolerance zero, a square matrix whose rows are linearly independent has full pseudorank *)
Lemma hfti_full A n B nb rn h g p :
  (forall w : vec, (forall c, (c < n)%nat -> dot n w (column A c) = 0) -> forall i, (i < n)%nat -> w i = 0) ->
  ok (hfti A n n B nb 0 rn h g p) = n.
Proof.
  intros Ind. unfold hfti. set (s := forUp 0 n (hStep n n nb) (mkH A B h p 0 0)).
  pose proof (hLoop n n nb A B h p (Nat.le_refl _)) as I. fold s in I. destruct I as ((Q & Qi & Qo & QA & QB) & Hp & _ & Htail).
  destruct (Rlt_dec 0 0) as [?|_]; [lra|]. set (a := ha s) in *. set (k := pseudorank n a 0).
  destruct (pseudorank_ok n a 0 (diag_mono n a Htail)) as [Lk Hk]. fold k in Lk, Hk.
  assert (E : k = n).
  { destruct (Nat.eq_dec k n) as [|N]; auto. exfalso. assert (L : (k < n)%nat) by lia.
    assert (Z : a k k = 0). { destruct (Req_dec (a k k) 0) as [|Nz]; auto. apply Rabs_pos_lt in Nz. apply Hk in Nz; lia. }
    (* the last row of the triangle vanishes *)
    assert (Last : forall c, (c < n)%nat -> Rm n a (n - 1)%nat c = 0).
    { intros c Hc. unfold Rm. destruct (Nat.ltb_spec c n); [|lia]. destruct (Nat.ltb_spec c (n - 1)) as [|Hc2]; auto. cbn [andb]. replace c with (n - 1)%nat by lia.
      assert (M : Rabs (a (n - 1)%nat (n - 1)%nat) <= Rabs (a k k)) by (apply (diag_mono n a Htail); lia).
      rewrite Z, Rabs_R0 in M. pose proof (Rabs_pos (a (n - 1)%nat (n - 1)%nat)). destruct (Req_dec (a (n - 1)%nat (n - 1)%nat) 0) as [|Nz]; auto. apply Rabs_pos_lt in Nz. lra. }
    set (e := fun i => if Nat.eqb i (n - 1) then 1 else 0).
    assert (W : forall i, (i < n)%nat -> Qi e i = 0).
    { apply Ind. intros c Hc. destruct (permM_col n n (hp s) n (Nat.le_refl _) Hp c Hc) as (c' & Lc' & Ec).
      rewrite (dot_ext n (Qi e) (Qi e) (column A c) (column (permM n n (hp s) A) c')) by (intros; unfold column; auto; now rewrite Ec).
      rewrite <- (orth_dot n Q Qi _ _ Qo). destruct Qo as (_ & _ & _ & _ & Qinv).
      rewrite (dot_ext n (Q (Qi e)) e (Q (column (permM n n (hp s) A) c')) (column (Rm n a) c')) by (intros i Hi; try (now apply Qinv); symmetry; unfold column at 1; unfold a; now rewrite QA).
      apply sum_0. intros i Hi. unfold e. destruct (Nat.eqb_spec i (n - 1)) as [->|]; [|ring]. unfold column. rewrite Last by auto. ring. }
    pose proof Qo as (_ & _ & _ & Qn & Qinv).
    assert (N1 : norm2 n e = 0).
    { rewrite <- (norm2_ext n (Q (Qi e)) e) by (intros; now apply Qinv). rewrite Qn. apply sum_0. intros i Hi. rewrite W by auto. ring. }
    pose proof (norm2_zero n e N1 (n - 1)%nat ltac:(lia)) as F. unfold e in F. rewrite Nat.eqb_refl in F. lra. }
  rewrite E. destruct (Nat.eqb_spec n 0); [reflexivity|]. destruct (if (n <? n)%nat then _ else _). reflexivity.
Qed.
Section Full.
Variables (rows cols : nat) (C : mat) (d : vec) (E B : mat) (dblmin : R) (h0 y0 rn hh g : vec) (p : nat -> nat).
Hypothesis (Ln : (rows <= cols)%nat).
Hypothesis (Ind : independent rows cols C).
Theorem full_rank : 0 < dblmin ->
  (forall z, (forall i, (i < rows)%nat -> sum cols (fun j => C i j * z j) = 0) -> (exists j, (j < cols)%nat /\ z j <> 0) -> dot cols z (apply cols E z) <> 0) ->
  (rows < cols)%nat -> snd (quadStep rows cols C d E B dblmin 0 h0 y0 rn hh g p) = (cols - rows)%nat.
Proof.
  intros Hdm Def Lrc. unfold quadStep. pose proof (conDecomp_ok rows cols C h0 Ln) as CI.
  destruct (conDecomp rows cols C h0) as [C' h]. pose proof (diag_nonzero rows cols C C' h Ln Ind CI) as Dn.
  destruct CI as (wf & W1 & W2). cbn [fst snd] in W1, W2. set (y := conSolve rows C' d y0).
  unfold project. set (E1 := projUp Col rows cols C' h E 0 cols). set (E2 := projUp Row rows cols C' h E1 rows cols).
  set (B1 := projUp Col rows cols C' h B 0 1). set (B2 := forUp rows cols _ B1).
  pose proof (fun M from upto c q => projUp_get rows cols C' h wf Ln W1 Col M from upto c q) as PC.
  pose proof (fun M from upto c q => projUp_get rows cols C' h wf Ln W1 Row M from upto c q) as PR.
  unfold solveQuad. destruct (Nat.ltb_spec rows cols); [|lia]. set (sc := scaleOf rows cols E2 B2 dblmin). assert (Sp : 0 < sc) by (apply scale_pos; auto).
  set (aa := fun i j => E2 (i + rows)%nat (j + rows)%nat / sc). cbn [snd]. apply hfti_full. intros w Hw i Hi.
  set (n := (cols - rows)%nat) in *.
  set (z' := fun i => if (i <? rows)%nat then 0 else w (i - rows)%nat). set (z := Kd cols wf rows z').
  assert (Z' : forall q, (q < n)%nat -> z' (rows + q)%nat = w q) by (intros q Hq; unfold z'; destruct (Nat.ltb_spec (rows + q) rows); [lia|]; f_equal; lia).
  assert (Z0 : forall q, (q < rows)%nat -> z' q = 0) by (intros q Hq; unfold z'; destruct (Nat.ltb_spec q rows); [auto|lia]).
  assert (KE : forall c j, (c < cols)%nat -> E1 j c = Ku cols wf rows (column E c) j).
  { intros c j Hc. unfold E1. etransitivity; [exact (PC E 0%nat cols c j)|]. replace ((0 <=? c)%nat && (c <? cols)%nat) with true by (symmetry; apply inRange; lia). reflexivity. }
  assert (KE2 : forall i j, (rows <= i < cols)%nat -> E2 i j = Ku cols wf rows (E1 i) j).
  { intros i' j Hi'. unfold E2. etransitivity; [exact (PR E1 rows cols i' j)|]. replace ((rows <=? i')%nat && (i' <? cols)%nat) with true by (symmetry; apply inRange; lia). reflexivity. }
  assert (Lin : forall (u : vec) j, Ku cols wf rows (apply cols E u) j = dot cols (E1 j) u).
  { intros u j. unfold apply.
    assert (Dl : forall r, (r <= rows)%nat -> forall n j, Ku cols wf r (fun i => sum n (fun c => E i c * u c)) j = sum n (fun c => Ku cols wf r (column E c) j * u c)).
    { intros r Lr. induction r; intros n' j'; [reflexivity|]. rewrite Ku_S.
      rewrite (stepQ_pt _ _ _ _ _ (fun j => sum n' (fun c => Ku cols wf r (column E c) j * u c))); [| lia | intros; apply IHr; lia].
      revert j'. induction n'; intros j'.
      - cbn [sum]. apply stepQ_zero; auto; lia.
      - cbn [sum]. rewrite (stepQ_pt _ _ _ _ _ (fun j => sum n' (fun c => Ku cols wf r (column E c) j * u c) + u n' * Ku cols wf r (column E n') j)); [| lia | intros; lra].
        match goal with |- stepQ ?p ?l ?m ?w ?f j' = _ =>
          assert (SL : stepQ p l m w f j' = stepQ p l m w (fun j => sum n' (fun c => Ku cols wf r (column E c) j * u c)) j' + u n' * stepQ p l m w (Ku cols wf r (column E n')) j') end.
        { unfold stepQ. destruct ((r <? r + 1)%nat && (r + 1 <? cols)%nat); [|lra]. destruct (Req_EM_T _ 0); [lra|]. now rewrite refl_lin. }
        rewrite SL, IHn'. rewrite Ku_S. lra. }
    rewrite Dl by lia. unfold dot. apply sum_ext. intros c Hc. now rewrite KE. }
  assert (Q0 : dot cols z (apply cols E z) = 0).
  { unfold z at 1. rewrite (dot_comm cols), <- K_adj. unfold dot. rewrite (sum_split cols rows) by lia. rewrite (sum_0 rows) by (intros q Hq; rewrite Z0 by auto; ring). rewrite Rplus_0_l.
    fold n. rewrite (sum_ext n _ (fun q => sum n (fun j => sc * (w q * aa q j * w j)))).
    - rewrite sum_swap. apply sum_0. intros j Hj. rewrite (sum_ext n _ (fun q => (sc * w j) * (w q * aa q j))) by (intros; ring). rewrite sum_scal.
      specialize (Hw j Hj). unfold dot, column in Hw. rewrite Hw. ring.
    - intros q Hq. rewrite Lin. unfold z. rewrite <- K_adj. unfold dot. rewrite (sum_split cols rows) by lia. rewrite (sum_0 rows) by (intros c Hc; rewrite Z0 by auto; ring). rewrite Rplus_0_l.
      fold n. rewrite Z' by auto. rewrite Rmult_comm, <- sum_scal. apply sum_ext. intros j Hj. rewrite Z' by auto. rewrite <- KE2 by lia. unfold aa.
      replace (q + rows)%nat with (rows + q)%nat by lia. replace (j + rows)%nat with (rows + j)%nat by lia. field. lra. }
  destruct (Req_dec (w i) 0) as [|Nz]; auto. exfalso. apply (Def z); auto.
  - intros r Hr. change (sum cols (fun j => C r j * z j)) with (dot cols (C r) z). unfold z. rewrite W2 by auto. apply sum_0. intros j Hj. destruct (Nat.lt_ge_cases j rows) as [Lj|Lj]; [rewrite Z0 by auto; ring|].
    unfold lower. destruct (Nat.ltb_spec r rows); [|lia]. destruct (Nat.ltb_spec r j); [|lia]. cbn [andb]. ring.
  - destruct (Kd_orth cols wf rows) as (Ki & Ko). pose proof Ko as (_ & _ & _ & Kn & _).
    assert (N0 : norm2 cols z <> 0).
    { unfold z. rewrite Kn. intros N0. apply Nz. rewrite <- Z' by auto. apply (norm2_zero cols z' N0). lia. }
    destruct (classic_nz cols z) as [Ex|No]; auto. exfalso. apply N0. apply sum_0. intros j Hj. rewrite No by auto. ring.
Qed.
End Full.
