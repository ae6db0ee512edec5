(** A composition below the tangent plane makes a solid solution unstable. *)
From Coq Require Import Reals List Bool Arith Lia Lra.
From Coquelicot Require Import Coquelicot.
From Verif Require Import MassModel MassProofs RealTac CoexSolModel CoexSolSpec.
Import List ListNotations.
Open Scope R_scope.

Lemma below (psi : R -> R) L K : is_derive psi 0 L -> L < K -> exists d, 0 < d /\ forall s, 0 < s < d -> psi s - psi 0 < s * K.
Proof.
  intros D LK. apply is_derive_Reals in D. destruct (D (K - L) ltac:(lra)) as (d & H). exists d. split; [apply cond_pos|].
  intros s (S1 & S2). specialize (H s ltac:(lra) ltac:(rewrite Rabs_pos_eq; lra)). rewrite Rplus_0_l in H. apply Rabs_def2 in H. destruct H as (H & _).
  assert (Q : (psi s - psi 0) / s < K) by lra. apply (Rmult_lt_compat_l s) in Q; [|lra]. replace (s * ((psi s - psi 0) / s)) with (psi s - psi 0) in Q by (field; lra). exact Q.
Qed.
Lemma near_pos (P : R -> Prop) : locally 0 P -> exists d, 0 < d /\ forall s, 0 < s < d -> P s.
Proof.
  intros (d & H). exists d. split; [apply cond_pos|]. intros s (S1 & S2). apply H. change (Rabs (s - 0) < d). rewrite Rminus_0_r, Rabs_pos_eq; lra.
Qed.

Section P.
Variable X : Solid.
Variables (A : nat -> nat -> R) (x : (nat -> R) -> nat -> R).
Hypothesis Lin : linearOK X A x.
Variables t p : R.
Notation na := (sNa X).
Notation nr := (sNr X).
Notation G := (sG X t p).
Notation total := (sum na).

Lemma total_comb a b (m q : nat -> R) : total (fun k => a * m k + b * q k) = a * total m + b * total q.
Proof. rewrite sum_plus, !sum_scal. reflexivity. Qed.
Lemma sR_scaled e z i : (i < nr)%nat -> 0 < e -> sR X (fun k => e * x z k) i = z i.
Proof.
  intros Hi E. assert (T : total (fun k => e * x z k) = e) by (rewrite sum_scal, (lin_one _ _ _ Lin); ring).
  rewrite (lin_r _ _ _ Lin) by (auto; rewrite T; exact E). rewrite T. rewrite (sum_ext na _ (fun k => e * (A i k * x z k))) by (intros; ring).
  rewrite sum_scal, (lin_back _ _ _ Lin) by auto. field. lra.
Qed.
Lemma moment m i : (i < nr)%nat -> 0 < total m -> sum na (fun k => A i k * m k) = total m * sR X m i.
Proof. intros Hi P. rewrite (lin_r _ _ _ Lin) by auto. field. lra. Qed.
(** what is left after part e of composition z has been taken out *)
Lemma sR_rest m z s i : (i < nr)%nat -> 0 < total m -> 0 < s ->
  sR X (fun k => m k - total m * s / (1 + s) * x z k) i = sR X m i + s * (sR X m i - z i).
Proof.
  intros Hi P S1. set (N := total m) in *. set (e := N * s / (1 + s)).
  assert (T : total (fun k => m k - e * x z k) = N / (1 + s)).
  { rewrite (sum_ext na _ (fun k => 1 * m k + (- e) * x z k)) by (intros; ring). rewrite total_comb, (lin_one _ _ _ Lin). fold N. unfold e. field. lra. }
  assert (Q : 0 < N / (1 + s)) by (apply Rdiv_lt_0_compat; lra).
  rewrite (lin_r _ _ _ Lin) by (auto; rewrite T; exact Q). rewrite T.
  rewrite (sum_ext na _ (fun k => 1 * (A i k * m k) + (- e) * (A i k * x z k))) by (intros; ring). rewrite total_comb, (moment m i Hi P), (lin_back _ _ _ Lin) by auto. fold N. unfold e.
  field. lra.
Qed.
Theorem gap_unstableS mu0 m z : 0 < total m -> interior X t p (sR X m) -> sTest X z = true -> gapS X t p (sR X m) z < 0 ->
  exists part rest, admissible X part /\ admissible X rest /\ (forall i, part i + rest i = m i) /\
    gibbsS X mu0 t p part + gibbsS X mu0 t p rest < gibbsS X mu0 t p m.
Proof.
  intros P Int Tz Neg. set (r0 := sR X m) in *. set (N := total m) in *. set (d := fun i => r0 i - z i).
  destruct (Int d) as (Dg & Te). set (psi := fun y => G (fun i => r0 i + y * d i)) in *.
  assert (P0 : psi 0 = G r0) by (apply (lin_G _ _ _ Lin); intros; ring).
  assert (LK : sum nr (fun i => sGx X t p r0 i * d i) < psi 0 - G z).
  { rewrite P0. unfold gapS in Neg. rewrite (sum_ext nr (fun i => sGx X t p r0 i * d i) (fun i => (-1) * (sGx X t p r0 i * (z i - r0 i)))) by (intros; unfold d; ring). rewrite sum_scal. lra. }
  destruct (below psi _ _ Dg LK) as (d1 & D1 & B1). destruct (near_pos _ Te) as (d2 & D2 & B2).
  set (s := Rmin d1 d2 / 2). assert (S0 : 0 < Rmin d1 d2) by now apply Rmin_pos. pose proof (Rmin_l d1 d2). pose proof (Rmin_r d1 d2).
  specialize (B1 s ltac:(unfold s; lra)). specialize (B2 s ltac:(unfold s; lra)). assert (Sp : 0 < s) by (unfold s; lra). clearbody s. clear Dg Te D1 D2 S0 H H0.
  set (e := N * s / (1 + s)). assert (E0 : 0 < e) by (unfold e; apply Rdiv_lt_0_compat; [now apply Rmult_lt_0_compat|lra]).
  assert (E1 : N - e = N / (1 + s)) by (unfold e; field; lra). assert (E2 : 0 < N - e) by (rewrite E1; apply Rdiv_lt_0_compat; lra).
  set (part := fun k => e * x z k). set (rest := fun k => m k - e * x z k).
  assert (Tp : total part = e) by (unfold part; rewrite sum_scal, (lin_one _ _ _ Lin); ring).
  assert (Tr : total rest = N - e) by (unfold rest; rewrite (sum_ext na _ (fun k => 1 * m k + (- e) * x z k)) by (intros; ring); rewrite total_comb, (lin_one _ _ _ Lin); fold N; ring).
  assert (Rp : forall i, (i < nr)%nat -> sR X part i = z i) by (intros; now apply sR_scaled).
  assert (Rr : forall i, (i < nr)%nat -> sR X rest i = r0 i + s * d i) by (intros i Hi; unfold rest, e, N, d, r0; now apply sR_rest).
  exists part, rest. split; [|split; [|split]].
  - split; [rewrite Tp; exact E0|]. rewrite (lin_test _ _ _ Lin _ z Rp). exact Tz.
  - split; [rewrite Tr; exact E2|]. rewrite (lin_test _ _ _ Lin _ _ Rr). exact B2.
  - intros i. unfold part, rest. ring.
  - unfold gibbsS. rewrite Tp, Tr. rewrite (lin_G _ _ _ Lin t p _ z Rp), (lin_G _ _ _ Lin t p _ _ Rr). fold (psi s). fold N. fold r0. rewrite <- P0.
    rewrite (sum_ext na (fun i => m i * mu0 i) (fun i => 1 * (part i * mu0 i) + 1 * (rest i * mu0 i))) by (intros; unfold part, rest; ring). rewrite total_comb.
    rewrite E1. unfold e. set (a := sum na (fun k => part k * mu0 k)). set (b := sum na (fun k => rest k * mu0 k)).
    assert (Q : N / (1 + s) * (psi s + s * G z) < N / (1 + s) * ((1 + s) * psi 0)) by (apply Rmult_lt_compat_l; [rewrite <- E1; exact E2|lra]).
    replace (N / (1 + s) * ((1 + s) * psi 0)) with (N * psi 0) in Q by (field; lra).
    replace (N / (1 + s) * (psi s + s * G z)) with (N * s / (1 + s) * G z + N / (1 + s) * psi s) in Q by (field; lra). lra.
Qed.
(** the tangent plane lies below the energy: no division has a lower energy *)
Theorem gibbs_sumS mu0 r0 ms : (forall q, In q ms -> admissible X q) -> (forall z, sTest X z = true -> 0 <= gapS X t p r0 z) ->
  sum na (fun i => amountS ms i * mu0 i) + total (amountS ms) * (G r0 - sum nr (fun i => sGx X t p r0 i * r0 i)) + sum nr (fun i => sGx X t p r0 i * sum na (fun k => A i k * amountS ms k)) <= gibbs_allS X mu0 t p ms.
Proof.
  intros Ad Gp. induction ms as [|q ms IH].
  - cbn [gibbs_allS amountS fold_right].
    rewrite (sum_ext na (fun i => 0 * mu0 i) (fun i => 0 * 0)), sum_scal by (intros; ring).
    rewrite (sum_ext na (amountS []) (fun i => 0 * 0)), sum_scal by (intros; unfold amountS; cbn; ring).
    rewrite (sum_ext nr (fun i => sGx X t p r0 i * sum na (fun k => A i k * 0)) (fun i => 0 * 0)); [rewrite sum_scal; right; ring|]. intros i Hi. rewrite (sum_ext na _ (fun k => 0 * 0)), sum_scal by (intros; ring). ring.
  - specialize (IH (fun q' I => Ad q' (or_intror I))). destruct (Ad q (or_introl eq_refl)) as (Pq & Tq). specialize (Gp _ Tq).
    cbn [gibbs_allS fold_right] in *. fold (gibbs_allS X mu0 t p ms).
    rewrite (sum_ext na (fun i => amountS (q :: ms) i * mu0 i) (fun i => 1 * (q i * mu0 i) + 1 * (amountS ms i * mu0 i))), total_comb by (intros i Hi; cbn [amountS fold_right]; fold (amountS ms i); ring).
    rewrite (sum_ext na (amountS (q :: ms)) (fun i => 1 * q i + 1 * amountS ms i)), total_comb by (intros i Hi; cbn [amountS fold_right]; fold (amountS ms i); ring).
    rewrite (sum_ext nr (fun i => sGx X t p r0 i * sum na (fun k => A i k * amountS (q :: ms) k)) (fun i => total q * (sGx X t p r0 i * sR X q i) + sGx X t p r0 i * sum na (fun k => A i k * amountS ms k))).
    2:{ intros i Hi. rewrite (sum_ext na (fun k => A i k * amountS (q :: ms) k) (fun k => 1 * (A i k * q k) + 1 * (A i k * amountS ms k))), total_comb, (moment q i Hi Pq) by (intros k Hk; cbn [amountS fold_right]; fold (amountS ms k); ring). ring. }
    rewrite sum_plus, sum_scal. unfold gibbsS at 1. unfold gapS in Gp.
    rewrite (sum_ext nr (fun i => sGx X t p r0 i * (sR X q i - r0 i)) (fun i => sGx X t p r0 i * sR X q i + (-1) * (sGx X t p r0 i * r0 i))), sum_plus, sum_scal in Gp by (intros; ring).
    set (a := sum nr (fun i => sGx X t p r0 i * sR X q i)) in *. set (b := sum nr (fun i => sGx X t p r0 i * r0 i)) in *.
    apply (Rmult_le_compat_l (total q)) in Gp; [|lra]. set (T := total q) in *. set (g0 := G r0) in *. set (gq := G (sR X q)) in *. lra.
Qed.
End P.
