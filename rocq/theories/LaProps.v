(** Statements about the linear algebra of the minimiser: Householder
    transformations (C28), the least-squares solver (C47), the constrained
    quadratic step (C48) and the Lagrange multipliers (C49). *)
From Coq Require Import Reals ZArith Arith Bool Lia Lra.
From Verif Require Import LaSpec LaBase HhModel HhProofs HftiProofs HftiSolve QuadModel QuadProofs.
Local Open Scope R_scope.

(** ** C28: Householder transformations
    ov, oc: whether the pivot vector and the transformed vectors are rows or columns; the pivot vector is number vk of
    v, the transformed vectors are numbers cs..ce-1 of c. *)
(** One call in mode H1. Every transformed vector with the contents of the pivot vector becomes: at p the number that
    the call leaves in v, whose square is v_p^2 + sum_(l<=i<m) v_i^2; zero at l..m-1; unchanged elsewhere. *)
Theorem C28_householder_annihilates ov oc p l m v vk h c cs ce : (p < l)%nat -> (l < m)%nat ->
  let '(v', h', c') := householder ov oc H1 p l m v vk h c cs ce in
  forall j, (cs <= j < ce)%nat -> (forall i, get oc c j i = get ov v vk i) ->
    get oc c' j p = get ov v' vk p /\
    get oc c' j p * get oc c' j p = get ov v vk p * get ov v vk p + sum (m - l) (fun k => get ov v vk (l + k) * get ov v vk (l + k)) /\
    (forall i, (l <= i < m)%nat -> get oc c' j i = 0) /\
    (forall i, i <> p -> ~ (l <= i < m)%nat -> get oc c' j i = get oc c j i).
Proof.
  intros Hp Hl. unfold householder.
  replace ((p <? l)%nat && (l <? m)%nat) with true by (symmetry; apply andb_true_iff; rewrite !Nat.ltb_lt; auto).
  rewrite hBuild_eq. intros j Hj Hc. set (w := get ov v vk). set (s := sOf p l m w). set (h' := get ov v vk p - s).
  set (v' := put ov v vk p s).
  assert (Vp : get ov v' vk p = s) by (unfold v'; rewrite get_put, !Nat.eqb_refl; auto).
  assert (G : forall i, get oc (hApply ov oc p l m v' vk h' c cs ce) j i = stepQ p l m w w i).
  { intros i. rewrite hApply_get by lia. replace ((cs <=? j)%nat && (j <? ce)%nat) with true by (symmetry; apply inRange; auto).
    rewrite Vp. unfold stepQ. replace ((p <? l)%nat && (l <? m)%nat) with true by (symmetry; apply andb_true_iff; rewrite !Nat.ltb_lt; auto).
    fold s. fold w in h'. destruct (Req_EM_T (s * h') 0) as [B|B]; destruct (Req_EM_T (s * (w p - s)) 0) as [B'|B'];
      try (exfalso; apply B; apply B'); try (exfalso; apply B'; apply B); [apply Hc|].
    assert (U : forall i, uvec p l m (get ov v' vk) h' i = uvec p l m w (w p - s) i).
    { intros k. unfold uvec. destruct (Nat.eqb_spec k p); auto. unfold v'. rewrite get_put, Nat.eqb_refl. destruct (Nat.eqb_spec k p); [contradiction|auto]. }
    unfold refl. rewrite U, Hc. fold w. f_equal. f_equal. f_equal. apply dot_ext; intros; auto. }
  destruct (stepQ_pivot_gen p l m w Hp Hl) as [P1 P2]. split; [|split; [|split]].
  - rewrite G, Vp. exact P1.
  - rewrite G, P1. apply sOf_sq.
  - intros i Hi. rewrite G. auto.
  - intros i Ni Ng. rewrite G, Hc. now apply stepQ_out.
Qed.
(** A call in mode H1 prepares (v', h'). Calls in mode H2 with these - and the same H1 call, on its own c - keep all
    inner products of the transformed vectors (hence all lengths), leave the other vectors alone and the entries other
    than p and l..m-1 too, and a second H2 call undoes the first. *)
Theorem C28_householder_orthogonal ov oc oc0 p l m v vk h0 c0 cs0 ce0 c cs ce : (p < l)%nat -> (l < m)%nat ->
  let '(v', h', _) := householder ov oc0 H1 p l m v vk h0 c0 cs0 ce0 in
  let '(v2, h2, c') := householder ov oc H2 p l m v' vk h' c cs ce in
  v2 = v' /\ h2 = h' /\
  (forall N j k, (m <= N)%nat -> (cs <= j < ce)%nat -> (cs <= k < ce)%nat ->
     dot N (get oc c' j) (get oc c' k) = dot N (get oc c j) (get oc c k)) /\
  (forall j i, ~ (cs <= j < ce)%nat \/ (i <> p /\ ~ (l <= i < m)%nat) -> get oc c' j i = get oc c j i) /\
  (let '(_, _, c'') := householder ov oc H2 p l m v' vk h' c' cs ce in forall j i, (i < m)%nat -> get oc c'' j i = get oc c j i).
Proof.
  intros Hp Hl. assert (Gd : (p <? l)%nat && (l <? m)%nat = true) by (apply andb_true_iff; rewrite !Nat.ltb_lt; auto).
  set (w := get ov v vk).
  destruct (householder ov oc0 H1 p l m v vk h0 c0 cs0 ce0) as [[v' h'] c1] eqn:E.
  unfold householder in E. rewrite Gd, hBuild_eq in E. injection E as E1 E2 E3. clear E3.
  assert (A1 : forall i, (l <= i < m)%nat -> get ov v' vk i = w i).
  { intros i Hi. rewrite <- E1, get_put, Nat.eqb_refl. destruct (Nat.eqb_spec i p); [lia|auto]. }
  assert (A2 : (p <? l)%nat && (l <? m)%nat = true -> get ov v' vk p = sOf p l m w /\ h' = w p - sOf p l m w).
  { intros _. rewrite <- E1, <- E2, get_put, !Nat.eqb_refl. auto. }
  pose proof (fun c j i => h2_get ov oc p l m v' vk h' c cs ce w j i A1 A2) as G.
  destruct (householder ov oc H2 p l m v' vk h' c cs ce) as [[v2 h2] c'] eqn:F.
  pose proof (G c) as Gc. rewrite F in Gc. cbn [snd] in Gc.
  unfold householder in F. rewrite Gd in F. injection F as F1 F2 F3.
  split; [auto|split; [auto|split; [|split]]].
  - intros N j k HN Hj Hk.
    rewrite (dot_ext N _ (stepQ p l m w (get oc c j)) _ (stepQ p l m w (get oc c k))).
    + unfold stepQ. rewrite Gd. destruct (Req_EM_T _ 0) as [B|B]; auto. apply refl_dot; auto.
      * intros z. rewrite !dot_uvec by lia. auto.
      * apply u_norm; lia.
    + intros i _. rewrite Gc. now replace ((cs <=? j)%nat && (j <? ce)%nat) with true by (symmetry; apply inRange; auto).
    + intros i _. rewrite Gc. now replace ((cs <=? k)%nat && (k <? ce)%nat) with true by (symmetry; apply inRange; auto).
  - intros j i [H|[H1 H2]].
    + rewrite Gc. now replace ((cs <=? j)%nat && (j <? ce)%nat) with false by (symmetry; apply inRange_false; auto).
    + rewrite Gc. destruct ((cs <=? j)%nat && (j <? ce)%nat); auto. now apply stepQ_out.
  - pose proof (G c') as G2.
    destruct (householder ov oc H2 p l m v' vk h' c' cs ce) as [[v3 h3] c''].
    cbn [snd] in G2. intros j i Hi. rewrite G2. destruct ((cs <=? j)%nat && (j <? ce)%nat) eqn:R.
    + destruct (stepQ_orth p l m w) as (Qx & _ & _ & _ & Qi).
      rewrite <- (Qi (get oc c j) i Hi). apply Qx; auto. intros k Hk. now rewrite Gc, R.
    + now rewrite Gc, R.
Qed.
(** outside the documented range p < l <= last index the call does nothing *)
Theorem C28_householder_guard ov oc md p l m v vk h c cs ce : ~ ((p < l)%nat /\ (l < m)%nat) ->
  householder ov oc md p l m v vk h c cs ce = (v, h, c).
Proof.
  intros H. unfold householder. replace ((p <? l)%nat && (l <? m)%nat) with false; auto.
  symmetry. apply andb_false_iff. rewrite !Nat.ltb_ge. lia.
Qed.
(** a case: the column (3, 4) goes to (-5, 0) *)
Theorem C28_householder_case : let v := fun i (_ : nat) => if Nat.eqb i 0 then 3 else 4 in
  let '(_, _, c') := householder Col Col H1 0 1 2 v 0 0 v 0 1 in c' 0%nat 0%nat = -5 /\ c' 1%nat 0%nat = 0.
Proof.
  cbv zeta. set (v := fun i (_ : nat) => if Nat.eqb i 0 then 3 else 4).
  pose proof (C28_householder_annihilates Col Col 0 1 2 v 0 0 v 0 1 ltac:(lia) ltac:(lia)) as H.
  destruct (householder Col Col H1 0 1 2 v 0 0 v 0 1) as [[v' h'] c'] eqn:E. destruct (H 0%nat ltac:(lia) ltac:(auto)) as (A & B & C & _).
  cbn [get] in *. split; [|apply C; lia]. rewrite A. unfold householder in E. cbn [Nat.ltb Nat.leb andb] in E. rewrite hBuild_eq in E.
  inversion E. cbn. unfold sOf, pivotNorm2. cbn. destruct (Rlt_dec 0 3); [|lra].
  replace (3 * 3 + (0 + 4 * 4)) with (5 * 5) by lra. rewrite sqrt_square by lra. reflexivity.
Qed.

(** ** C47: hfti
    For m >= n and tau >= 0 the columns returned in b are, for one matrix A' common to all right-hand sides, shortest
    least-squares solutions of A' x = b; every column of A' is within tau of that of the matrix passed in, and A' is that
    matrix if the reported pseudorank is n; rnorm is the length of the residual, and is zero if the pseudorank is m. *)
Theorem C47_hfti_least_squares A m n B nb tau rn h g p : (n <= m)%nat -> 0 <= tau ->
  let o := hfti A m n B nb tau rn h g p in
  exists A' : mat,
    (forall c, (c < n)%nat -> norm2 m (fun i => A' i c - A i c) <= tau * tau) /\
    (ok o = n -> forall i c, (i < m)%nat -> (c < n)%nat -> A' i c = A i c) /\
    forall l, (l < nb)%nat ->
      shortest_least_squares m n A' (column B l) (column (ob o) l) /\
      ornorm o l = sqrt (residual2 m n A' (column (ob o) l) (column B l)) /\
      (ok o = m -> ornorm o l = 0).
Proof. exact (hfti_ok A m n B nb tau rn h g p). Qed.
(** with tau = 0 the solutions are those of the matrix passed in, whatever its rank *)
Corollary C47_hfti_exact A m n B nb rn h g p l : (n <= m)%nat -> (l < nb)%nat ->
  let o := hfti A m n B nb 0 rn h g p in
  least_squares m n A (column B l) (column (ob o) l) /\
  (forall z, least_squares m n A (column B l) z -> norm2 n (column (ob o) l) <= norm2 n z) /\
  ornorm o l = sqrt (residual2 m n A (column (ob o) l) (column B l)).
Proof.
  intros Ln Hl o. destruct (hfti_ok A m n B nb 0 rn h g p Ln (Rle_refl 0)) as (A' & D & _ & H). fold o in H.
  assert (E : forall i c, (i < m)%nat -> (c < n)%nat -> A' i c = A i c).
  { intros i c Hi Hc. specialize (D c Hc). assert (Z : norm2 m (fun i => A' i c - A i c) = 0).
    { pose proof (norm2_pos m (fun i => A' i c - A i c)). lra. }
    pose proof (norm2_zero _ _ Z i Hi) as Q. cbn beta in Q. lra. }
  assert (R : forall x, residual2 m n A' x (column B l) = residual2 m n A x (column B l)).
  { intros x. unfold residual2. apply norm2_ext. intros i Hi. f_equal. apply sum_ext. intros c Hc. now rewrite E. }
  destruct (H l Hl) as ((L1 & L2) & Rn & _). split; [|split].
  - intros z. rewrite <- !R. apply L1.
  - intros z Hz. apply L2. intros y. rewrite !R. apply Hz.
  - now rewrite <- R.
Qed.
(** a case: x + y = 2 has the shortest solution (1, 1)... as one equation repeated *)
Theorem C47_hfti_case : let A := fun i j : nat => 1 in let B := fun i j : nat => 2 in
  let o := hfti A 2 2 B 1 0 (fun _ => 0) (fun _ => 0) (fun _ => 0) (fun _ => O) in
  ob o 0%nat 0%nat = 1 /\ ob o 1%nat 0%nat = 1 /\ ornorm o 0%nat = 0.
Proof.
  cbv zeta. set (A := fun i j : nat => 1). set (B := fun i j : nat => 2).
  pose proof (C47_hfti_exact A 2 2 B 1 (fun _ => 0) (fun _ => 0) (fun _ => 0) (fun _ => O) 0 ltac:(lia) ltac:(lia)) as H. cbv zeta in H.
  set (o := hfti A 2 2 B 1 0 (fun _ => 0) (fun _ => 0) (fun _ => 0) (fun _ => O)) in *. destruct H as (L & S & N).
  assert (R1 : residual2 2 2 A (fun _ => 1) (column B 0) = 0) by (unfold residual2, norm2, dot, apply, column, A, B; cbn; lra).
  assert (Lo : least_squares 2 2 A (column B 0) (fun _ => 1)).
  { intros z. rewrite R1. apply norm2_pos. }
  specialize (S _ Lo). specialize (L (fun _ => 1)). rewrite R1 in L.
  pose proof (norm2_pos 2 (fun i => apply 2 A (column (ob o) 0) i - column B 0 i)) as P. fold (residual2 2 2 A (column (ob o) 0) (column B 0)) in P.
  assert (Z : residual2 2 2 A (column (ob o) 0) (column B 0) = 0) by lra. pose proof (norm2_zero _ _ Z 0%nat ltac:(lia)) as Q.
  rewrite Z, sqrt_0 in N. unfold norm2, dot, apply, column, A, B in S, Q. cbn in S, Q.
  assert (ob o 0%nat 0%nat = 1 /\ ob o 1%nat 0%nat = 1) by (split; nra). tauto.
Qed.

(** ** C48: the quadratic step
    For independent constraints the step returned satisfies every constraint exactly, whatever the Hessian, its rank and
    the tolerance; and when the projected system is reported to have full rank, the step is a stationary point of
    1/2 x.E x - B.x on the set of vectors that satisfy the constraints. *)
Theorem C48_quadStep_satisfies_constraints rows cols C d E B dblmin tol h0 y0 rn hh g p : (rows <= cols)%nat ->
  independent rows cols C ->
  let x := fst (quadStep rows cols C d E B dblmin tol h0 y0 rn hh g p) in
  forall i, (i < rows)%nat -> sum cols (fun j => C i j * x j) = d i.
Proof. intros Ln Hi x. now apply quad_constraints. Qed.
Theorem C48_quadStep_stationary rows cols C d E B dblmin tol h0 y0 rn hh g p : (rows <= cols)%nat ->
  independent rows cols C -> 0 < dblmin -> 0 <= tol ->
  let x := fst (quadStep rows cols C d E B dblmin tol h0 y0 rn hh g p) in
  let k := snd (quadStep rows cols C d E B dblmin tol h0 y0 rn hh g p) in
  ((rows < cols)%nat -> k = (cols - rows)%nat) ->
  forall z, (forall i, (i < rows)%nat -> sum cols (fun j => C i j * z j) = 0) ->
  dot cols (fun i => apply cols E x i - B i 0%nat) z = 0.
Proof. intros Ln Hi Hd Ht x k Hk. now apply quad_stationary. Qed.
(** for a convex quadratic this is a minimum *)
Theorem C48_quadStep_minimises rows cols C d E B dblmin tol h0 y0 rn hh g p : (rows <= cols)%nat ->
  independent rows cols C -> 0 < dblmin -> 0 <= tol ->
  (forall i j, E i j = E j i) -> (forall z, 0 <= dot cols (apply cols E z) z) ->
  let x := fst (quadStep rows cols C d E B dblmin tol h0 y0 rn hh g p) in
  let k := snd (quadStep rows cols C d E B dblmin tol h0 y0 rn hh g p) in
  ((rows < cols)%nat -> k = (cols - rows)%nat) ->
  let f := fun x => 1 / 2 * dot cols (apply cols E x) x - dot cols (column B 0) x in
  forall z, (forall i, (i < rows)%nat -> sum cols (fun j => C i j * z j) = d i) -> f x <= f z.
Proof.
  intros Ln Hi Hd Ht Sym Pos x k Hk f z Hz.
  pose proof (C48_quadStep_satisfies_constraints rows cols C d E B dblmin tol h0 y0 rn hh g p Ln Hi) as HC. cbv zeta in HC. fold x in HC.
  pose proof (C48_quadStep_stationary rows cols C d E B dblmin tol h0 y0 rn hh g p Ln Hi Hd Ht) as HS. cbv zeta in HS. fold x in HS. fold k in HS.
  set (w := fun j => z j - x j).
  assert (S : dot cols (fun i => apply cols E x i - B i 0%nat) w = 0).
  { apply HS; auto. intros i Hi'. unfold w. rewrite (sum_ext cols _ (fun j => C i j * z j - C i j * x j)) by (intros; ring).
    rewrite sum_minus, Hz, HC by auto. ring. }
  assert (Lin : forall u v, dot cols (apply cols E u) v = dot cols (apply cols E v) u).
  { intros u v. unfold dot, apply.
    rewrite (sum_ext cols _ (fun i => sum cols (fun j => E i j * u j * v i))) by (intros; rewrite (Rmult_comm _ (v i)), <- sum_scal; apply sum_ext; intros; ring).
    rewrite sum_swap. apply sum_ext. intros j Hj. rewrite (Rmult_comm _ (u j)), <- sum_scal. apply sum_ext. intros i Hi'. rewrite (Sym i j). ring. }
  assert (Ap : forall u v i, apply cols E (fun j => u j + v j) i = apply cols E u i + apply cols E v i).
  { intros u v i. unfold apply. rewrite <- sum_plus. apply sum_ext. intros; ring. }
  assert (Zx : forall i, z i = x i + w i) by (intros; unfold w; ring).
  assert (Ez : f z = f x + dot cols (fun i => apply cols E x i - B i 0%nat) w + 1 / 2 * dot cols (apply cols E w) w).
  { unfold f.
    rewrite (dot_ext cols (apply cols E z) (fun i => apply cols E x i + apply cols E w i) z (fun i => x i + w i)).
    - rewrite dot_plus_l, (dot_sym cols (apply cols E x) (fun i => x i + w i)), (dot_sym cols (apply cols E w) (fun i => x i + w i)).
      rewrite !dot_plus_l. rewrite (dot_sym cols x (apply cols E w)), (Lin w x), (dot_sym cols w (apply cols E x)), (dot_sym cols x), (dot_sym cols w (apply cols E w)).
      rewrite (dot_sym cols (column B 0) z), (dot_ext cols z (fun i => x i + w i) (column B 0) (column B 0)) by auto.
      rewrite dot_plus_l, (dot_sym cols x (column B 0)), (dot_sym cols w (column B 0)).
      replace (dot cols (fun i => apply cols E x i - B i 0%nat) w) with (dot cols (apply cols E x) w - dot cols (column B 0) w); [lra|].
      unfold dot. rewrite <- sum_minus. apply sum_ext. intros; unfold column; ring.
    - intros i _. rewrite <- Ap. unfold apply. apply sum_ext. intros j _. now rewrite Zx.
    - intros i _. apply Zx. }
  rewrite Ez, S. pose proof (Pos w). lra.
Qed.

(** A case in which the hypotheses of the two theorems above hold: minimise x^2 + 5/2 y^2 - x - y under y = 3. *)
Lemma stepQ_swap (x : vec) : forall w : vec, w 0%nat = 0 -> w 1%nat = 1 -> stepQ 0 1 2 w x 0 = x 1%nat /\ stepQ 0 1 2 w x 1 = x 0%nat.
Proof.
  intros w W0 W1. unfold stepQ. cbn [Nat.ltb Nat.leb andb].
  assert (S : sOf 0 1 2 w = 1).
  { unfold sOf, pivotNorm2. cbn. rewrite W0, W1. destruct (Rlt_dec 0 0); [lra|]. replace (0 * 0 + (0 + 1 * 1)) with 1 by lra. apply sqrt_1. }
  rewrite S, W0. destruct (Req_EM_T (1 * (0 - 1)) 0); [lra|]. unfold refl, dot, uvec. cbn. rewrite W1. split; field; lra.
Qed.
Lemma swap_decomp (C : mat) h0 rows : C 0%nat 0%nat = 0 -> C 0%nat 1%nat = 1 -> (0 < rows)%nat ->
  (rows <= 2)%nat -> (rows = 2%nat -> C 1%nat 0%nat = 1 /\ C 1%nat 1%nat = 0) ->
  let ch := conDecomp rows 2 C h0 in
  exists wf, (forall r, (r < rows)%nat -> (forall c, (r < c < 2)%nat -> fst ch r c = wf r c) /\ fst ch r r = sStep r 2 (wf r) /\
      ((r + 1 < 2)%nat -> snd ch r = wf r r - sOf r (r + 1) 2 (wf r))) /\
    fst ch 0%nat 0%nat = 1 /\ fst ch 0%nat 1%nat = 1 /\ wf 0%nat 0%nat = 0 /\ wf 0%nat 1%nat = 1 /\ (rows = 2%nat -> fst ch 1%nat 1%nat = 1 /\ fst ch 1%nat 0%nat = 0).
Proof.
  intros C00 C01 H1 H2 HC ch.
  assert (S : sOf 0 1 2 (C 0%nat) = 1).
  { unfold sOf, pivotNorm2. cbn. rewrite C00, C01. destruct (Rlt_dec 0 0); [lra|]. replace (0 * 0 + (0 + 1 * 1)) with 1 by lra. apply sqrt_1. }
  destruct (conDecomp_ok rows 2 C h0 H2) as (wf & W & D). fold ch in W, D. exists wf. split; [exact W|].
  destruct (W 0%nat ltac:(lia)) as (W1 & W2 & W3). specialize (W1 1%nat ltac:(lia)).
  assert (K : fst ch 0%nat 0%nat = 1 /\ fst ch 0%nat 1%nat = 1 /\ snd ch 0%nat = -1 /\ (rows = 2%nat -> fst ch 1%nat 1%nat = 1 /\ fst ch 1%nat 0%nat = 0)).
  { unfold ch, conDecomp. destruct rows as [|[|[|]]]; try lia.
    - unfold forUp. cbn [Nat.sub repeat Nat.add fst snd].
      pose proof (fun r c H => self_get Row 0 1 2 C 0 (h0 0%nat) 1 1 r c H) as G. pose proof (self_h Row 0 1 2 C 0 (h0 0%nat) 1 1) as Gh.
      destruct (householderSelf Row Row 0 1 2 C 0 (h0 0%nat) 1 1) as [C' h']. cbn [fst snd] in *. cbn [get Nat.ltb Nat.leb andb] in *.
      change (fun c => C 0%nat c) with (C 0%nat) in *. change (get Row C 0) with (C 0%nat) in *.
      rewrite (G 0%nat 0%nat), (G 0%nat 1%nat) by (intros; lia). cbn. rewrite Gh, S. rewrite C00, C01. repeat split; try lra; discriminate.
    - destruct (HC eq_refl) as [C10 C11]. unfold forUp. cbn [Nat.sub repeat Nat.add fst snd].
      pose proof (fun r c H => self_get Row 0 1 2 C 0 (h0 0%nat) 1 2 r c H) as G. pose proof (self_h Row 0 1 2 C 0 (h0 0%nat) 1 2) as Gh.
      destruct (householderSelf Row Row 0 1 2 C 0 (h0 0%nat) 1 2) as [C' h']. cbn [fst snd] in *. change (get Row C 0) with (C 0%nat) in *. change (get Row C 1) with (C 1%nat) in *.
      unfold householderSelf. cbn [Nat.ltb Nat.leb andb fst snd]. cbn [get] in G.
      destruct (stepQ_swap (C 1%nat) (C 0%nat) C00 C01) as [S0 S1].
      rewrite (G 0%nat 0%nat), (G 0%nat 1%nat), (G 1%nat 0%nat), (G 1%nat 1%nat) by (intros; lia). cbn -[stepQ]. change (get Row C 1) with (C 1%nat). change (get Row C 0) with (C 0%nat).
      rewrite S0, S1, Gh. cbn. rewrite S, C00, C01, C10, C11. repeat split; lra. }
  destruct K as (K0 & K1 & K2 & K3). rewrite K1 in W1. split; [auto|split; [auto|]].
  specialize (W3 ltac:(lia)). rewrite K0 in W2. unfold sStep in W2. cbn [Nat.ltb Nat.leb Nat.add] in W2. rewrite K2 in W3. cbn [Nat.add] in W3. rewrite <- W2 in W3.
  split; [lra|]. split; [auto|]. exact K3.
Qed.
Lemma hfti_one a b rn h g p : a 0%nat 0%nat <> 0 -> ok (hfti a 1 1 b 1 0 rn h g p) = 1%nat.
Proof.
  intros Ha. unfold hfti. destruct (Rlt_dec 0 0); [lra|].
  set (s := forUp 0 1 (hStep 1 1 1) (mkH a b h p 0 0)).
  assert (A : ha s 0%nat 0%nat = a 0%nat 0%nat).
  { destruct (hStep_ok 1 1 1 0 (mkH a b h p 0 0) ltac:(lia) ltac:(lia) ltac:(lia)) as (lam & L & K). cbv zeta in K.
    destruct K as (_ & _ & K & _). specialize (K 0%nat 0%nat ltac:(lia)). replace lam with 0%nat in K by lia.
    change (hStep 1 1 1 0 (mkH a b h p 0 0)) with s in K. rewrite K. reflexivity. }
  assert (P : pseudorank 1 (ha s) 0 = 1%nat).
  { unfold pseudorank, forUp. cbn [Nat.sub repeat Nat.add]. rewrite A. destruct (Rlt_dec 0 (Rabs (a 0%nat 0%nat))); auto.
    exfalso. apply n0. now apply Rabs_pos_lt. }
  rewrite P. reflexivity.
Qed.
Theorem C48_quad_case : let C := fun i j : nat => if Nat.eqb j 1 then 1 else 0 in
  let E := fun i j : nat => if Nat.eqb i j then (if Nat.eqb i 0 then 2 else 5) else 0 in
  let z := fun _ : nat => 0 in
  let r := quadStep 1 2 C (fun _ => 3) E (fun _ _ => 1) (1 / 1000) 0 z z z z z (fun _ => O) in
  independent 1 2 C /\ snd r = 1%nat /\ fst r 0%nat = 1 / 2 /\ fst r 1%nat = 3.
Proof.
  intros C E z r.
  assert (Ind : independent 1 2 C).
  { intros u H i Hi. specialize (H 1%nat ltac:(lia)). unfold C in H. cbn in H. replace i with 0%nat by lia. lra. }
  assert (Rk : snd r = 1%nat).
  { unfold r, quadStep. destruct (swap_decomp C z 1 eq_refl eq_refl ltac:(lia) ltac:(lia) ltac:(lia)) as (wf & W & K0 & K1 & V0 & V1 & _).
    destruct (conDecomp 1 2 C z) as [C' h]. cbn [fst snd] in *. set (y := conSolve 1 C' (fun _ => 3) z).
    unfold project. set (E1 := projUp Col 1 2 C' h E 0 2). set (E2 := projUp Row 1 2 C' h E1 1 2).
    set (B1 := projUp Col 1 2 C' h _ 0 1). set (B2 := forUp 1 2 _ B1).
    assert (PE1 : forall c, (c < 2)%nat -> E1 0%nat c = E 1%nat c /\ E1 1%nat c = E 0%nat c).
    { intros c Hc. pose proof (fun q => projUp_get 1 2 C' h wf ltac:(lia) W Col E 0 2 c q) as G. cbn [get] in G. unfold E1. rewrite !G.
      replace ((0 <=? c)%nat && (c <? 2)%nat) with true by (symmetry; apply inRange; lia). unfold Ku, forUp. cbn [Nat.sub repeat Nat.add].
      destruct (stepQ_swap (get Col E c) (wf 0%nat) V0 V1) as [S0 S1]. rewrite S0, S1. auto. }
    assert (PE2 : E2 1%nat 1%nat = 2 /\ E2 1%nat 0%nat = 0).
    { pose proof (fun q => projUp_get 1 2 C' h wf ltac:(lia) W Row E1 1 2 1 q) as G. cbn [get] in G. unfold E2. rewrite !G.
      cbn [Nat.leb Nat.ltb andb]. unfold Ku, forUp. cbn [Nat.sub repeat Nat.add].
      destruct (stepQ_swap (get Row E1 1) (wf 0%nat) V0 V1) as [S0 S1]. rewrite S0, S1. cbn [get].
      destruct (PE1 0%nat ltac:(lia)) as [_ ->]. destruct (PE1 1%nat ltac:(lia)) as [_ ->]. unfold E. cbn. auto. }
    assert (PB : B2 1%nat 0%nat = 1).
    { unfold B2. rewrite (subLoop 1 2 E2 y B1 1 0 2) by lia. cbn [Nat.leb Nat.ltb Nat.eqb andb sum]. destruct PE2 as [_ ->].
      pose proof (fun q => projUp_get 1 2 C' h wf ltac:(lia) W Col (fun _ _ => 1) 0 1 0 q) as G. cbn [get] in G. unfold B1. rewrite G.
      cbn [Nat.leb Nat.ltb andb]. unfold Ku, forUp. cbn [Nat.sub repeat Nat.add].
      destruct (stepQ_swap (get Col (fun _ _ => 1) 0) (wf 0%nat) V0 V1) as [_ S1]. rewrite S1. cbn. lra. }
    destruct PE2 as [PE2 _].
    unfold solveQuad. cbn [Nat.ltb Nat.leb Nat.sub]. cbn [snd]. apply hfti_one. cbn [Nat.add].
    pose proof (scale_pos 1 2 E2 B2 (1 / 1000) ltac:(lra)) as Sp. rewrite PE2. apply Rgt_not_eq, Rdiv_lt_0_compat; lra. }
  split; [auto|split; [auto|]].
  pose proof (C48_quadStep_satisfies_constraints 1 2 C (fun _ => 3) E (fun _ _ => 1) (1 / 1000) 0 z z z z z (fun _ => O) ltac:(lia) Ind 0%nat ltac:(lia)) as HC.
  pose proof (C48_quadStep_stationary 1 2 C (fun _ => 3) E (fun _ _ => 1) (1 / 1000) 0 z z z z z (fun _ => O) ltac:(lia) Ind ltac:(lra) ltac:(lra)) as HS.
  cbv zeta in HC, HS. fold r in HC, HS. specialize (HS ltac:(intros; rewrite Rk; reflexivity) (fun j => if Nat.eqb j 0 then 1 else 0)).
  assert (Hn : forall i, (i < 1)%nat -> sum 2 (fun j => C i j * (if Nat.eqb j 0 then 1 else 0)) = 0) by (intros i Hi; unfold C; cbn; lra).
  specialize (HS Hn). unfold dot, apply in HS. cbn [sum Nat.eqb] in HC, HS. unfold C, E in HC, HS. cbn [Nat.eqb] in HC, HS.
  set (x0 := fst r 0%nat) in *. set (x1 := fst r 1%nat) in *. split; lra.
Qed.

(** ** C49: the Lagrange multipliers
    The comment in the code: "g = C^T lambda -> K^T g = R^T lambda". With one constraint the number computed is the
    multiplier, whenever the gradient g = -B is a multiple of the constraint. *)
Theorem C49_multipliers_one_partial cols C h0 B lam0 mu : (0 < cols)%nat -> independent 1 cols C ->
  (forall j, (j < cols)%nat -> - B j 0%nat = mu * C 0%nat j) ->
  let '(C', h) := conDecomp 1 cols C h0 in multipliers 1 cols C' h B lam0 0%nat = mu.
Proof.
  intros Hc Ind HB. pose proof (conDecomp_ok 1 cols C h0 ltac:(lia)) as CI. destruct (conDecomp 1 cols C h0) as [C' h].
  pose proof (diag_nonzero 1 cols C C' h ltac:(lia) Ind CI 0%nat ltac:(lia)) as Dn. destruct CI as (wf & W1 & W2). cbn [fst snd] in W1, W2.
  unfold multipliers. unfold forDown. cbn [Nat.sub repeat Nat.add]. unfold updv. cbn [Nat.eqb].
  pose proof (projUp_get 1 cols C' h wf ltac:(lia) W1 Col (fun i _ => - B i 0%nat) 0 1 0 0) as G. cbn [get Nat.leb Nat.ltb andb] in G. rewrite G.
  cut (Ku cols wf 1 (get Col (fun i _ => - B i 0%nat) 0) 0 = mu * C' 0%nat 0%nat).
  { intros Q. rewrite Q. field. auto. }
  assert (Pick : forall v : vec, dot cols v (fun i => if Nat.eqb i 0 then 1 else 0) = v 0%nat).
  { intros v. unfold dot. rewrite (sum_ext cols _ (fun i => if Nat.eqb i 0 then v i else 0)) by (intros i Hi; cbv beta; destruct (Nat.eqb i 0); ring). now apply (sum_one cols 0 v). }
  rewrite <- Pick, K_adj. rewrite (dot_ext cols _ (fun j => mu * C 0%nat j) (Kd cols wf 1 (fun i => if Nat.eqb i 0 then 1 else 0)) (Kd cols wf 1 (fun i => if Nat.eqb i 0 then 1 else 0))).
  - rewrite (dot_scal_l cols mu (C 0%nat)). rewrite W2 by lia. rewrite Pick. reflexivity.
  - intros j Hj. cbn. now apply HB.
  - auto.
Qed.
(** the same as a property of its own (C109) *)
Theorem C109_multiplier cols C h0 B lam0 mu : (0 < cols)%nat -> independent 1 cols C ->
  (forall j, (j < cols)%nat -> - B j 0%nat = mu * C 0%nat j) ->
  let '(C', h) := conDecomp 1 cols C h0 in multipliers 1 cols C' h B lam0 0%nat = mu.
Proof. exact (C49_multipliers_one_partial cols C h0 B lam0 mu). Qed.
(** With two constraints it is not: for the constraints y = ., x = . and the gradient (1, 1) = 1*(0,1) + 1*(1,0) the
    multipliers are (1, 1), and the code computes (0, 1), because the loop reads the entries of C above the diagonal,
    which hold the Householder vectors, instead of those below. *)
Theorem C49_multipliers_wrong : let C := fun i j : nat => if Nat.eqb (i + j) 1 then 1 else 0 in
  let '(C', h) := conDecomp 2 2 C (fun _ => 0) in
  let B := fun _ _ : nat => -1 in
  let lam := multipliers 2 2 C' h B (fun _ => 0) in
  independent 2 2 C /\
  (forall j, (j < 2)%nat -> - B j 0%nat = sum 2 (fun i => 1 * C i j)) /\
  lam 0%nat = 0 /\ lam 1%nat = 1 /\
  - B 1%nat 0%nat <> sum 2 (fun i => lam i * C i 1%nat).
Proof.
  intros C. destruct (swap_decomp C (fun _ => 0) 2 eq_refl eq_refl ltac:(lia) ltac:(lia) ltac:(intros; split; reflexivity)) as (wf & W & K0 & K1 & V0 & V1 & K3).
  destruct (conDecomp 2 2 C (fun _ => 0)) as [C' h]. cbn [fst snd] in *. destruct (K3 eq_refl) as [K11 K10].
  cbv zeta. set (B := fun _ _ : nat => -1). set (lam := multipliers 2 2 C' h B (fun _ => 0)).
  assert (G : forall q, (q < 2)%nat -> projUp Col 2 2 C' h (fun i _ => - B i 0%nat) 0 1 q 0%nat = 1).
  { intros q Hq. pose proof (projUp_get 2 2 C' h wf ltac:(lia) W Col (fun i _ => - B i 0%nat) 0 1 0 q) as G. cbn [get Nat.leb Nat.ltb andb] in G. rewrite G.
    rewrite !Ku_S. unfold stepQ at 1. cbn [Nat.ltb Nat.leb Nat.add andb]. unfold Ku, forUp. cbn [Nat.sub repeat Nat.add].
    destruct (stepQ_swap (get Col (fun i _ => - B i 0%nat) 0) (wf 0%nat) V0 V1) as [S0 S1].
    destruct q as [|[|]]; try lia; [rewrite S0|rewrite S1]; unfold B; cbn; lra. }
  assert (L1 : lam 1%nat = 1 /\ lam 0%nat = 0).
  { unfold lam, multipliers, forDown. cbn [Nat.sub repeat Nat.add]. unfold updv. cbn [Nat.eqb].
    rewrite !G by lia. rewrite K0, K1, K11. split; lra. }
  destruct L1 as [L1 L0]. split; [|split; [|split; [|split]]]; auto.
  - intros u H i Hi. pose proof (H 0%nat ltac:(lia)) as H0'. pose proof (H 1%nat ltac:(lia)) as H1'. unfold C in H0', H1'. cbn in H0', H1'.
    destruct i as [|[|]]; try lia; lra.
  - intros j Hj. unfold B, C. destruct j as [|[|]]; try lia; cbn; lra.
  - rewrite (sum_ext 2 _ (fun i => if Nat.eqb i 0 then 0 else 0)).
    + unfold B. cbn. lra.
    + intros i Hi. destruct i as [|[|]]; try lia; unfold C; cbn [Nat.add Nat.eqb]; [rewrite L0|]; lra.
Qed.
