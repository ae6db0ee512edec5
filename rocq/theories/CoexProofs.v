(** The function minimised by the test for a second liquid is the rate at which the Gibbs energy changes when a little of
    a second composition is taken out of the liquid. *)
From Coq Require Import Reals List Bool Arith Lia Lra FunctionalExtensionality.
From Coquelicot Require Import Coquelicot.
From Verif Require Import MassModel MassProofs RealTac LiqModel LiqProofs LiqProps HessLiq CoexModel CoexSpec.
Import List ListNotations.
Open Scope R_scope.

Section T.
Variable n : nat.
Variables WH WS WV : nat -> nat -> R.
Hypotheses (SH : symmetric n WH) (SS : symmetric n WS) (SV : symmetric n WV).
Hypothesis N1 : (1 <= n)%nat.
Notation NA := (S n).
Notation gibbs := (gibbs n WH WS WV).
Variables t p : R.
Notation gmix := (gmix n WH WS WV t p).
Notation dgmix := (dgmix n WH WS WV t p).
Notation gap := (gap n WH WS WV t p).

Lemma sum_xr r : sum NA (xr n r) = 1.
Proof. rewrite sum_first. change (1 - sum n r + sum n r = 1). ring. Qed.
Lemma rOf_scaled e r : e <> 0 -> rOf n (fun i => e * xr n r i) = r.
Proof.
  intros E. apply functional_extensionality. intros i. unfold rOf, total. rewrite sum_scal, sum_xr. unfold isZ. destruct (Req_EM_T (e * 1) 0); [lra|]. cbn [xr]. field. lra.
Qed.
Section One.
Variable m x : nat -> R.
Hypothesis Pm : proper_liquid n m.
Hypothesis Px : forall i, (i < NA)%nat -> 0 <= xr n x i.
Hypothesis Null : forall i, (i < n)%nat -> m (S i) = 0 -> x i = 0.
Notation N := (sum NA m).
Lemma N_pos : 0 < N.
Proof.
  destruct Pm as (A & B). rewrite sum_first. assert (0 <= sum n (fun i => m (S i))); [|lra].
  change MassModel.sum with LaSpec.sum. apply LaBase.sum_pos. intros. apply A. lia.
Qed.
Definition rest (e : R) : nat -> R := fun i => m i - e * xr n x i.
Lemma rest_total e : sum NA (rest e) = N - e.
Proof. unfold rest. rewrite (sum_ext NA _ (fun i => m i + (- e) * xr n x i)) by (intros; ring). rewrite sum_plus, sum_scal, sum_xr. ring. Qed.
Lemma near0 : locally 0 (fun e => 0 < N - e).
Proof. pose proof N_pos as P. exists (mkposreal N P). intros y B. assert (Q : Rabs (y - 0) < N) by exact B. set (k := N) in *. clearbody k. apply Rabs_def2 in Q. lra. Qed.
Definition path (e : R) (i : nat) : R := (m (S i) - e * x i) / (N - e).
Lemma path_rest : locally 0 (fun e => rOf n (rest e) = path e).
Proof.
  generalize near0. apply filter_imp. intros e P. apply functional_extensionality. intros i. unfold rOf, total. rewrite rest_total. unfold isZ. destruct (Req_EM_T (N - e) 0); [lra|]. reflexivity.
Qed.
Lemma path0 : path 0 = rOf n m.
Proof.
  pose proof N_pos as P. apply functional_extensionality. intros i. unfold path, rOf, total, isZ. destruct (Req_EM_T N 0); [lra|]. rewrite Rmult_0_l, !Rminus_0_r. reflexivity.
Qed.
Lemma path_derive i : (i < n)%nat -> is_derive (fun e => path e i) 0 ((rOf n m i - x i) / N).
Proof.
  intros Hi. pose proof N_pos as P. unfold rOf, total, isZ. destruct (Req_EM_T N 0); [lra|]. unfold path. set (M := N) in *. clearbody M. auto_derive; [lra|]. field. lra.
Qed.
Lemma split_derive : is_derive (fun e => (N - e) * gmix (rOf n (rest e)) + e * gmix x) 0 (gap (rOf n m) x).
Proof.
  pose proof N_pos as P.
  assert (G : is_derive (fun e => gmix (path e)) 0 (sum n (fun i => dgmix (path 0) i * ((rOf n m i - x i) / N)))).
  { apply gmix_path; auto.
    - intros i Hi. now apply path_derive.
    - intros i Hi. destruct (Req_dec (m (S i)) 0) as [Z|Nz].
      + right. apply filter_forall. intros e. unfold path. rewrite Z, (Null i Hi Z). unfold Rdiv. ring.
      + left. rewrite path0. unfold rOf, total, isZ. destruct (Req_EM_T N 0); [lra|]. destruct Pm as (A & _). specialize (A (S i) ltac:(lia)). apply Rdiv_lt_0_compat; lra.
    - rewrite path0. cbn [xr]. assert (E : 1 - sum n (rOf n m) = m O / N).
      { rewrite (sum_ext n (rOf n m) (fun i => / N * m (S i))).
        - rewrite sum_scal. pose proof (sum_first n m) as F. field_simplify_eq; [|lra]. rewrite F. ring.
        - intros i Hi. unfold rOf, total, isZ. destruct (Req_EM_T N 0); [lra|]. field. lra. }
      rewrite E. destruct Pm. apply Rdiv_lt_0_compat; lra. }
  rewrite path0 in G.
  apply (is_derive_ext_loc (fun e => (N - e) * gmix (path e) + e * gmix x)).
  { generalize path_rest. apply filter_imp. intros e ->. reflexivity. }
  assert (D1 : is_derive (fun e => N - e) 0 (-1)) by (auto_derive; [auto|ring]).
  assert (D2 : is_derive (fun e => e * gmix x) 0 (gmix x)) by (auto_derive; [auto|ring]).
  pose proof (is_derive_mult (fun e => N - e) (fun e => gmix (path e)) 0 _ _ D1 G Rmult_comm) as D3.
  eapply is_derive_eq; [exact (is_derive_plus _ _ 0 _ _ D3 D2)|].
  unfold CoexModel.gap.
  transitivity (((-1) * gmix (path 0) + (N - 0) * sum n (fun i => dgmix (rOf n m) i * ((rOf n m i - x i) / N))) + gmix x); [reflexivity|]. rewrite path0.
  rewrite (sum_ext n (fun i => dgmix (rOf n m) i * ((rOf n m i - x i) / N)) (fun i => (- / N) * (dgmix (rOf n m) i * (x i - rOf n m i)))) by (intros; unfold Rdiv; ring).
  rewrite sum_scal. field. lra.
Qed.
Lemma gibbs_split mu0 e : 0 < e -> e < N ->
  gibbs mu0 t p (rest e) + gibbs mu0 t p (fun i => e * xr n x i) = sum NA (fun i => m i * mu0 i) + ((N - e) * gmix (rOf n (rest e)) + e * gmix x).
Proof.
  intros E1 E2. unfold CoexSpec.gibbs. rewrite rOf_scaled by lra. rewrite rest_total, sum_scal, sum_xr.
  assert (K : sum NA (fun i => rest e i * mu0 i) + sum NA (fun i => e * xr n x i * mu0 i) = sum NA (fun i => m i * mu0 i)).
  { rewrite <- sum_plus. apply sum_ext. intros. unfold rest. ring. }
  rewrite <- K. ring.
Qed.
(** a little of a composition with a negative distance leaves: the energy falls *)
Lemma gap_unstable mu0 : gap (rOf n m) x < 0 -> exists e, 0 < e /\ (forall i, (i < NA)%nat -> e * xr n x i <= m i) /\
  gibbs mu0 t p (rest e) + gibbs mu0 t p (fun i => e * xr n x i) < gibbs mu0 t p m.
Proof.
  intros Neg. pose proof N_pos as P. pose proof split_derive as D.
  assert (B : forall k, (k <= NA)%nat -> exists d, 0 < d /\ forall e i, 0 < e < d -> (i < k)%nat -> e * xr n x i <= m i).
  { induction k; intros Hk; [exists 1; split; [lra|intros; lia]|]. destruct (IHk ltac:(lia)) as (d & D1 & D2).
    destruct (Req_dec (xr n x k) 0) as [Z|Nz].
    - exists d. split; auto. intros e i He Hi. destruct (Nat.eq_dec i k) as [->|]; [|apply D2; auto; lia]. rewrite Z, Rmult_0_r. apply Pm. lia.
    - assert (Xk : 0 < xr n x k) by (specialize (Px k ltac:(lia)); lra).
      assert (Mk : 0 < m k).
      { destruct Pm as (A & A0). destruct k as [|k]; [exact A0|]. specialize (A (S k) ltac:(lia)). destruct (Req_dec (m (S k)) 0) as [Z|]; [|lra]. elim Nz. cbn [xr]. apply Null; auto. lia. }
      exists (Rmin d (m k / xr n x k)). split; [apply Rmin_pos; auto; now apply Rdiv_lt_0_compat|]. intros e i (E1 & E2) Hi.
      pose proof (Rmin_l d (m k / xr n x k)). pose proof (Rmin_r d (m k / xr n x k)). destruct (Nat.eq_dec i k) as [->|]; [|apply D2; [lra|lia]].
      left. apply (Rmult_lt_reg_r (/ xr n x k)); [now apply Rinv_0_lt_compat|]. rewrite Rmult_assoc, Rinv_r, Rmult_1_r by lra. unfold Rdiv in *. lra. }
  destruct (B NA (Nat.le_refl _)) as (d & D1 & D2).
  set (phi := fun e => (N - e) * gmix (rOf n (rest e)) + e * gmix x) in *.
  assert (L : exists d', 0 < d' /\ forall e, 0 < e < d' -> phi e < phi 0).
  { apply is_derive_Reals in D. set (g := gap (rOf n m) x) in *. destruct (D (- g / 2) ltac:(lra)) as (d' & Hd). exists d'. split; [apply cond_pos|]. intros e (E1 & E2).
    specialize (Hd e ltac:(lra)). rewrite Rabs_pos_eq in Hd by lra. specialize (Hd E2). rewrite Rplus_0_l in Hd. apply Rabs_def2 in Hd. destruct Hd as (H1 & _).
    change ((phi e - phi 0) / e - g < - g / 2) in H1.
    assert (Q : (phi e - phi 0) / e < 0) by lra. apply (Rmult_lt_compat_r e) in Q; [|lra]. unfold Rdiv in Q. rewrite Rmult_assoc, Rinv_l in Q by lra. lra. }
  destruct L as (d' & L1 & L2). set (e := Rmin (Rmin d d') N / 2).
  pose proof (Rmin_l (Rmin d d') N). pose proof (Rmin_r (Rmin d d') N). pose proof (Rmin_l d d'). pose proof (Rmin_r d d').
  assert (Q : 0 < Rmin (Rmin d d') N) by (apply Rmin_pos; auto; now apply Rmin_pos).
  exists e. assert (E : 0 < e) by (unfold e; lra). split; auto. split; [intros i Hi; apply D2; auto; unfold e; lra|].
  rewrite gibbs_split by (unfold e; lra). specialize (L2 e ltac:(unfold e; lra)). unfold phi in L2.
  assert (R0 : rest 0 = m) by (apply functional_extensionality; intros i; unfold rest; ring). rewrite R0 in L2. unfold CoexSpec.gibbs at 1. lra.
Qed.
End One.

(** ** The other direction: the tangent plane *)
Lemma gibbs_sum mu0 ref (ms : list (nat -> R)) :
  (forall x, (forall i, (i < NA)%nat -> 0 <= xr n x i) -> 0 <= gap ref x) ->
  (forall m, In m ms -> forall i, (i < NA)%nat -> 0 <= m i) ->
  sum NA (fun i => amount ms i * mu0 i) + (sum NA (amount ms) * (gmix ref - sum n (fun i => dgmix ref i * ref i)) + sum n (fun i => dgmix ref i * amount ms (S i)))
   <= gibbs_all n WH WS WV mu0 t p ms.
Proof.
  intros H. induction ms as [|m ms IH]; intros Hm.
  - cbn [amount fold_right gibbs_all]. rewrite (sum_ext NA (fun i => 0 * mu0 i) (fun _ => 0 * 0)) by (intros; ring). rewrite sum_scal.
    rewrite (sum_ext n (fun i => dgmix ref i * 0) (fun _ => 0 * 0)) by (intros; ring). rewrite sum_scal.
    change (amount []) with (fun _ : nat => 0). rewrite (sum_ext NA (fun _ => 0) (fun _ => 0 * 0)) by (intros; ring). rewrite sum_scal. lra.
  - cbn [gibbs_all fold_right]. fold (gibbs_all n WH WS WV mu0 t p ms). specialize (IH ltac:(intros; apply Hm; auto; now right)).
    assert (M : forall i, (i < NA)%nat -> 0 <= m i) by (apply Hm; now left).
    assert (Q : sum NA (fun i => m i * mu0 i) + (sum NA m * (gmix ref - sum n (fun i => dgmix ref i * ref i)) + sum n (fun i => dgmix ref i * m (S i))) <= gibbs mu0 t p m).
    { unfold CoexSpec.gibbs. apply Rplus_le_compat_l. destruct (Req_dec (sum NA m) 0) as [Z|Nz].
      - rewrite Z, !Rmult_0_l. rewrite (sum_ext n _ (fun _ => 0 * 0)); [rewrite sum_scal; lra|]. intros i Hi.
        assert (m (S i) = 0); [|rewrite H0; ring]. assert (P : m (S i) <= sum NA m); [|specialize (M (S i) ltac:(lia)); lra].
        change MassModel.sum with LaSpec.sum. pose proof (LaBase.sum_at NA (S i) m (fun j => if Nat.eqb j (S i) then 0 else m j)) as A.
        rewrite A; [|intros j Hj Nj; destruct (Nat.eqb_spec j (S i)); [lia|auto]|lia]. rewrite Nat.eqb_refl.
        assert (0 <= LaSpec.sum NA (fun j => if Nat.eqb j (S i) then 0 else m j)); [|lra]. apply LaBase.sum_pos. intros j Hj. destruct (Nat.eqb j (S i)); [lra|]. now apply M.
      - assert (P : 0 < sum NA m).
        { assert (0 <= sum NA m); [|lra]. change MassModel.sum with LaSpec.sum. apply LaBase.sum_pos. exact M. }
        assert (X0 : forall i, (i < NA)%nat -> xr n (rOf n m) i = m i / sum NA m).
        { intros i Hi. unfold rOf, total, isZ. destruct (Req_EM_T (sum NA m) 0); [lra|]. destruct i as [|i]; cbn [xr]; [|reflexivity].
          rewrite (sum_ext n _ (fun i => / sum NA m * m (S i))) by (intros; unfold Rdiv; ring). rewrite sum_scal. pose proof (sum_first n m) as F.
          apply (Rmult_eq_reg_r (sum NA m)); [|lra]. unfold Rdiv. rewrite Rmult_assoc, Rinv_l, Rmult_1_r by lra. rewrite Rmult_minus_distr_r, Rmult_1_l.
          rewrite (Rmult_comm (/ sum NA m)), Rmult_assoc, Rinv_l, Rmult_1_r by lra. rewrite F. ring. }
        pose proof (H (rOf n m) ltac:(intros i Hi; rewrite X0 by auto; apply Rmult_le_pos; [now apply M|left; now apply Rinv_0_lt_compat])) as G. unfold CoexModel.gap in G.
        rewrite (sum_ext n (fun i => dgmix ref i * (rOf n m i - ref i)) (fun i => / sum NA m * (dgmix ref i * m (S i)) + (-1) * (dgmix ref i * ref i))) in G.
        + rewrite sum_plus, !sum_scal in G. set (S1 := sum n (fun i => dgmix ref i * m (S i))) in *. set (S2 := sum n (fun i => dgmix ref i * ref i)) in *. set (T := sum NA m) in *.
          apply (Rmult_le_compat_l T) in G; [|lra]. rewrite Rmult_0_r in G. replace (T * (gmix (rOf n m) - gmix ref - (/ T * S1 + -1 * S2))) with (T * gmix (rOf n m) - T * (gmix ref - S2) - S1) in G by (field; lra). lra.
        + intros i Hi. specialize (X0 (S i) ltac:(lia)). cbn [xr] in X0. rewrite X0. unfold Rdiv. ring. }
    change (amount (m :: ms)) with (fun i => m i + amount ms i). cbv beta.
    rewrite (sum_ext NA (fun i => (m i + amount ms i) * mu0 i) (fun i => m i * mu0 i + amount ms i * mu0 i)) by (intros; ring).
    rewrite (sum_ext n (fun i => dgmix ref i * (m (S i) + amount ms (S i))) (fun i => dgmix ref i * m (S i) + dgmix ref i * amount ms (S i))) by (intros; ring).
    rewrite !sum_plus. lra.
Qed.
End T.
