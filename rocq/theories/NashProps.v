(** C29, C31, C50, C51, C52: Cholesky routines and minimisers of sources/nash.c. *)
From Coq Require Import Reals ZArith Arith Bool Lia Lra.
From Verif Require Import LaSpec LaBase HhModel CholModel CholProofs NashSpec NashModel NashProofs VmminProofs MarqProofs.
Local Open Scope R_scope.

(** ** C29: Cholesky *)
Theorem C29_cholesky_factor : forall n a, snd (Choldcmp n a) = false ->
  let L := storedLower (fst (Choldcmp n a)) in
  (forall i, (i < n)%nat -> 0 < L i i) /\
  forall i j, (i < n)%nat -> (j < n)%nat -> sum n (fun k => L i k * L j k) = stored a i j.
Proof. exact chol_factor. Qed.
(** the routine reports success exactly on the positive definite matrices *)
Theorem C29_cholesky_succeeds_iff : forall n a, snd (Choldcmp n a) = false <-> positive_definite n (stored a).
Proof. exact chol_posdef. Qed.
Theorem C29_cholesky_solve : forall n a b, (0 < n)%nat -> snd (Choldcmp n a) = false ->
  forall i, (i < n)%nat -> apply n (stored a) (Cholback n (fst (Choldcmp n a)) b) i = b i.
Proof. exact chol_solve. Qed.
(** a case: the matrix 4 2 / 2 10 and its solution for (2, 1) *)
Definition caseA : vec := fun i => match i with O => 4 | S O => 2 | S (S O) => 10 | _ => 0 end.
Theorem C29_case : snd (Choldcmp 2 caseA) = false /\ forall i, (i < 2)%nat ->
  apply 2 (stored caseA) (Cholback 2 (fst (Choldcmp 2 caseA)) (fun i => if Nat.eqb i 0 then 2 else 1)) i = if Nat.eqb i 0 then 2 else 1.
Proof.
  assert (S : snd (Choldcmp 2 caseA) = false).
  { apply C29_cholesky_succeeds_iff. intros x (i & Hi & X).
    assert (Q : x 0%nat <> 0 \/ x 1%nat <> 0) by (destruct i as [|[|]]; [auto|auto|lia]).
    assert (Y : sum 2 (fun i => sum 2 (fun j => x i * stored caseA i j * x j)) = 4 * (x 0%nat + x 1%nat / 2) * (x 0%nat + x 1%nat / 2) + 9 * x 1%nat * x 1%nat).
    { cbn [sum]. change (stored caseA 0 0) with 4. change (stored caseA 0 1) with 2. change (stored caseA 1 0) with 2. change (stored caseA 1 1) with 10. field. }
    rewrite Y. set (p := x 0%nat + x 1%nat / 2) in *.
    destruct (Req_EM_T (x 1%nat) 0) as [E|N].
    - assert (P : p <> 0) by (unfold p; rewrite E; destruct Q; lra). rewrite E. assert (0 < p * p) by nra. lra.
    - assert (0 < x 1%nat * x 1%nat) by nra. assert (0 <= p * p) by nra. lra. }
  split; auto. intros i Hi. rewrite C29_cholesky_solve by (auto; lia). reflexivity.
Qed.

(** ** C31: minimisers *)
(** min1d always returns, in any case with a point no worse than the start; on success the value reported is that of
    an evaluated point within reltest of the one returned, and the last evaluation was at the one returned. *)
Theorem C31_min1d_returns : forall f b0 st0 reltest ifnMax, exists r, min1d f b0 st0 reltest ifnMax r.
Proof. exact min1d_returns. Qed.
Theorem C31_min1d_unique : forall f b0 st0 reltest ifnMax r r', min1d f b0 st0 reltest ifnMax r -> min1d f b0 st0 reltest ifnMax r' -> r = r'.
Proof. intros *. unfold min1d. destruct (f b0); [apply runs_det|congruence]. Qed.
Theorem C31_min1d_no_worse : forall f b0 st0 reltest ifnMax y r, f b0 = Some y -> y <= BIG -> min1d f b0 st0 reltest ifnMax r ->
  (exists yb, f (obb r) = Some yb /\ yb <= y) /\ (oifn r <= Nat.max 1 ifnMax + 1)%nat /\ code1 r <> BAD_INITIAL.
Proof.
  intros * E Y R. pose proof (min1d_ok _ _ _ _ _ _ R) as P. rewrite E in P. destruct P as (B & V & C).
  assert (Ey : ev f b0 = y) by (unfold ev; now rewrite E).
  split.
  - unfold better in B. destruct B as [->|B]; [exists y; split; auto; lra|]. unfold ev in *. destruct (f (obb r)) as [v|]; [exists v; auto|lra].
  - destruct (code1 r); [|easy|].
    + destruct C as (x & v & _ & _ & _ & _ & _ & _ & N). split; [lia|discriminate].
    + destruct C as (_ & N). split; [lia|discriminate].
Qed.
Theorem C31_min1d_success : forall f b0 st0 reltest ifnMax y r, f b0 = Some y -> y <= BIG -> min1d f b0 st0 reltest ifnMax r -> code1 r = SUCCESS ->
  exists x v yb, fnminval r = Some v /\ f x = Some v /\ f (obb r) = Some yb /\ v <= yb /\ yb <= y /\ Rabs (obb r - x) <= reltest /\ lastPoint r = obb r /\
    (oifn r <= Nat.max 1 ifnMax)%nat.
Proof.
  intros * E Y R Sc. destruct (C31_min1d_no_worse _ _ _ _ _ _ _ E Y R) as ((yb & Y1 & Y2) & _).
  pose proof (min1d_ok _ _ _ _ _ _ R) as P. rewrite E in P. destruct P as (_ & _ & C). rewrite Sc in C.
  destruct C as (x & v & C1 & C2 & C3 & C4 & C5 & C6 & C7). exists x, v, yb. split; auto. assert (Ey : ev f b0 = y) by (unfold ev; now rewrite E).
  split.
  - destruct C4 as [->|L]; [rewrite E; f_equal; rewrite C2, Ey; reflexivity|]. unfold ev in *. destruct (f x); [congruence|lra].
  - split; auto. split; [unfold ev in C3; rewrite Y1 in C3; auto|]. auto.
Qed.
Theorem C31_min1d_bad_initial : forall f b0 st0 reltest ifnMax r, min1d f b0 st0 reltest ifnMax r -> (code1 r = BAD_INITIAL <-> f b0 = None) /\ (f b0 = None -> obb r = b0).
Proof.
  intros * R. pose proof (min1d_ok _ _ _ _ _ _ R) as P. destruct (f b0).
  - destruct P as (_ & _ & C). split; [|discriminate]. split; [|discriminate]. intros E. now rewrite E in C.
  - destruct P. split; [split; auto|auto].
Qed.

(** vmmin: always returns; the minimum reported is the function's value at a point next to the one returned, no larger than at the start *)
Theorem C31_vmmin_returns : forall n f g reltest B0 F0, 0 < reltest -> exists r, vmmin n f g reltest B0 F0 r.
Proof. intros. unfold vmmin. destruct (f B0) as [y|]; [now apply vmmin_ends|eauto]. Qed.
Theorem C31_vmmin_reported_minimum : forall n f g reltest B0 F0 y r, f B0 = Some y -> vmmin n f g reltest B0 F0 r ->
  exists X, f X = Some (oF r) /\ oF r <= y /\ (X = oB r \/ within n (2 * reltest) X (oB r)).
Proof.
  intros * E R. unfold vmmin in R. rewrite E in R. destruct (vmmin_ok n f g reltest B0 y r E R) as (X & X1 & X2 & X3 & X4 & X5).
  exists X. split; auto. split; auto. destruct (codev r).
  - destruct X3 as [X3|X3]; auto. right. intros i Hi. left. auto.
  - destruct X4 as [X4|X4]; auto. right. intros i Hi. specialize (X4 i Hi). pose proof (Rabs_pos (X i - oB r i)). left. lra.
  - now elim X5.
Qed.
(** a state met during the run *)
Definition during {S T : Type} (step : S -> S + T) (start s : S) : Prop := reachable step start s.
(** every accepted step goes along a descent direction and satisfies the sufficient-decrease test *)
Theorem C31_vmmin_sufficient_decrease : forall n f g reltest B0 y s s', f B0 = Some y ->
  during (vmminStep n f g reltest) (vmminInit y B0 (g B0)) (Search, s) -> vmminStep n f g reltest (Search, s) = inl (Outer, s') -> gradcount s' <> gradcount s ->
  let slope := dot n (tv s) (gv s) in
  slope < 0 /\ 0 < steplength s /\ (forall i, (i < n)%nat -> Bv s' i = Xv s i + steplength s * tv s i) /\
  f (Bv s') = Some (Fmin s') /\ Fmin s' <= Fmin s + slope * steplength s * (1/10000).
Proof.
  intros * E D St Gc. assert (I : invv n f reltest y (Search, s)).
  { apply D.
    - unfold invv, vmminInit. cbn [fst snd Bv Fmin Bm cv gv tv Xv gradproj steplength gradcount ilast iters]. split; auto. cbn [Nat.ltb Nat.leb].
      split; [|split; [discriminate|auto]]. exists B0. split; auto. split; [lra|]. now left.
    - intros u u' Iu Su. pose proof (vmmin_step n f g reltest B0 y u Iu) as P. rewrite Su in P. exact P. }
  destruct I as (_ & _ & _ & Gp & Sp & _ & _ & Gs & _). cbn [fst snd] in *.
  change (dot n (tv s) (gv s)) with (sum n (fun i => tv s i * gv s i)). rewrite <- Gs. cbv zeta. split; auto. split; auto.
  revert St. cbn [vmminStep]. cbv zeta. set (Bn := upto n (fun i => Xv s i + steplength s * tv s i) (Bv s)).
  destruct (_ <? n)%nat.
  - set (acc := match f Bn with Some f => if Rle_dec f (Fmin s + gradproj s * steplength s * (1/10000)) then Some f else None | None => None end).
    assert (Acc : forall v, acc = Some v -> f Bn = Some v /\ v <= Fmin s + gradproj s * steplength s * (1/10000)).
    { unfold acc. destruct (f Bn) as [v|]; [|discriminate]. destruct (Rle_dec v _); [|discriminate]. intros v' [= <-]. auto. }
    destruct acc as [v|]; [|discriminate]. destruct (Acc v eq_refl) as [A1 A2].
    destruct (Rlt_dec 0 _); intros [= <-]; cbn [Bv Fmin]; (split; [intros i Hi; unfold Bn, upto; now rewrite (proj2 (Nat.ltb_lt i n) Hi)|auto]).
  - destruct (_ <? gradcount s)%nat; [destruct (Nat.eqb 0 n); [discriminate|]|destruct (Nat.eqb _ _); [discriminate|]]; intros [= <-]; exfalso; apply Gc; reflexivity.
Qed.
(** the direction is one of descent at every iterate with a non-zero gradient: the metric stays positive definite *)
Theorem C31_vmmin_metric : forall n B t c, (forall i j, (i < n)%nat -> (j < n)%nat -> B i j = B j i) -> positive_definite n B -> 0 < dot n t c ->
  let B' := metric n B t c (dot n t c) in
  (forall i j, (i < n)%nat -> (j < n)%nat -> B' i j = B' j i) /\ positive_definite n B' /\ forall i, (i < n)%nat -> apply n B' c i = t i.
Proof.
  intros n B t c S P D. cbv zeta. split; [now apply metric_symm|]. split; [now apply metric_posdef|]. intros i Hi. apply metric_secant; auto. lra.
Qed.
(** The point returned may be worse than the start: the last move, shorter than the tolerance, is not evaluated.
    f(x) = x/2 + 10 x^2 with its gradient, tolerance 1, from x = 0: f is 0 at the start and 9/4 at the point returned. *)
Theorem C31_vmmin_returned_point_can_be_worse : exists f g B0 y y' r,
  (forall x, f x = Some (x 0%nat / 2 + 10 * (x 0%nat * x 0%nat))) /\ (forall x, g x 0%nat = 1/2 + 20 * x 0%nat) /\
  vmmin 1 f g 1 B0 0 r /\ codev r = SUCCESS /\ f B0 = Some y /\ f (oB r) = Some y' /\ y < y'.
Proof.
  set (f := fun x : vec => Some (x 0%nat / 2 + 10 * (x 0%nat * x 0%nat))). set (g := fun (x : vec) (_ : nat) => 1/2 + 20 * x 0%nat).
  exists f, g, (fun _ => 0), 0.
  set (B1 := upto 1 (fun i : nat => 0 + 1 * direction 1 ident (g (fun _ => 0)) i) (fun _ : nat => 0)).
  assert (D : direction 1 ident (g (fun _ => 0)) 0 = -1/2) by (rewrite direction_eq; cbn; unfold ident, g; cbn; lra).
  assert (B10 : B1 0%nat = -1/2) by (unfold B1, upto; cbn [Nat.ltb Nat.leb]; rewrite D; lra).
  exists (9/4), {| codev := SUCCESS; oB := B1; oF := 0 |}. split; [reflexivity|]. split; [reflexivity|]. split.
  - unfold vmmin. cbn [f]. unfold f at 1. replace (0 / 2 + 10 * (0 * 0)) with 0 by lra.
    eapply runs_next.
    + unfold vmminInit. cbn [vmminStep]. cbv zeta. cbn [iters ilast gradcount gv Bv Fmin Bm]. cbn [Nat.eqb].
      destruct (Z.ltb_spec 10000 (Z.of_nat 1)); [lia|].
      destruct (Rlt_dec _ 0) as [|N]; [reflexivity|]. exfalso. apply N. rewrite forUp0_sum. cbn [sum]. rewrite D. unfold g. lra.
    + apply runs_done. cbn [vmminStep]. cbv zeta. cbn [Xv steplength tv Bv ilast gradcount Fmin]. fold B1.
      assert (St : still 1 (fun _ => 0) B1 1 = 1%nat). { apply still_all. intros i Hi. replace i with 0%nat by lia. rewrite B10. rewrite Rabs_pos_eq; lra. }
      rewrite St. reflexivity.
  - split; auto. split; [unfold f; f_equal; lra|]. cbn [oB]. unfold f. rewrite B10. split; [f_equal; lra|lra].
Qed.

(** ** C50: the Marquardt fit *)
Theorem C50_marquardt_returns : forall n m r J reltest maxIter B0 F0, (0 < m)%nat -> exists o, modmrt n m r J reltest maxIter B0 F0 o.
Proof. intros. now apply modmrt_returns. Qed.
(** From a start with computable residuals the minimum reported is the sum of squares at a point X that is no worse
    than the start; on success the point returned is within reltest of X and the difference solves the damped normal
    equations at X. *)
Theorem C50_marquardt_result : forall n m r J reltest maxIter B0 F0 o, (0 < n)%nat -> (0 < m)%nat -> all_computable m r B0 ->
  modmrt n m r J reltest maxIter B0 F0 o ->
  exists X, all_computable m r X /\ oF o = sum_of_squares m r X /\ oF o <= sum_of_squares m r B0 /\ codev o <> BAD_INITIAL /\
   (codev o = SUCCESS -> within n reltest (oB o) X /\
      exists lam, 0 < lam /\ forall i, (i < n)%nat ->
        apply n (damped_normal m (fun k => J k X) lam) (fun l => oB o l - X l) i = - half_gradient m (fun k => J k X) (fun k => value (r k X)) i).
Proof.
  intros * Hn Hm C R. destruct (modmrt_ok n m r J reltest maxIter B0 F0 o Hn Hm C R) as (X & X1 & X2 & X3 & X4 & X5 & X6).
  exists X. auto.
Qed.
Theorem C50_marquardt_bad_initial : forall n m r J reltest maxIter B0 F0 o, (0 < n)%nat -> ~ all_computable m r B0 -> modmrt n m r J reltest maxIter B0 F0 o ->
  o = {| codev := BAD_INITIAL; oB := B0; oF := F0 |}.
Proof.
  intros * Hn C. unfold modmrt. rewrite (proj2 (Nat.eqb_neq n 0)) by lia. pose proof (residuals_spec m r B0 (fun _ => 0)) as RS.
  destruct (residuals m r B0 _) as [[res p]|]; auto. exfalso. apply C. intros i Hi. destruct RS as [RS _]. rewrite RS by auto. discriminate.
Qed.
(** a case: one linear residual x - 3 from 0 *)
Theorem C50_case : exists o X, modmrt 1 1 (fun _ x => Some (x 0%nat - 3)) (fun _ _ _ => 1) 1 10 (fun _ => 0) 0 o /\
  oF o = sum_of_squares 1 (fun _ x => Some (x 0%nat - 3)) X /\ oF o <= 9 /\ codev o <> BAD_INITIAL.
Proof.
  destruct (C50_marquardt_returns 1 1 (fun _ x => Some (x 0%nat - 3)) (fun _ _ _ => 1) 1 10 (fun _ => 0) 0) as [o R]; [lia|].
  assert (C : all_computable 1 (fun _ x => Some (x 0%nat - 3)) (fun _ => 0)) by (intros i Hi; discriminate).
  destruct (C50_marquardt_result _ _ _ _ _ _ _ _ _ (Nat.lt_0_succ 0) (Nat.lt_0_succ 0) C R) as (X & X1 & X2 & X3 & X4 & X5).
  exists o, X. split; auto. split; auto. split; auto. unfold sum_of_squares in X3. cbn in X3. lra.
Qed.

(** ** C51: a start at a stationary point is reported as a failure *)
Theorem C51_vmmin_fails_at_stationary_start : forall n f g reltest B0 F0 y r, (0 < n)%nat -> f B0 = Some y -> (forall i, (i < n)%nat -> g B0 i = 0) ->
  vmmin n f g reltest B0 F0 r -> r = {| codev := BAD_INITIAL; oB := B0; oF := y |}.
Proof. exact vmmin_stationary. Qed.
Theorem C51_case : exists r, vmmin 1 (fun x => Some (x 0%nat * x 0%nat)) (fun x _ => 2 * x 0%nat) (1/1000) (fun _ => 0) 0 r /\ codev r = BAD_INITIAL.
Proof.
  destruct (C31_vmmin_returns 1 (fun x => Some (x 0%nat * x 0%nat)) (fun x _ => 2 * x 0%nat) (1/1000) (fun _ => 0) 0) as [r R]; [lra|].
  exists r. split; auto.
  assert (G : r = {| codev := BAD_INITIAL; oB := fun _ => 0; oF := 0 * 0 |}); [|rewrite G; reflexivity].
  refine (C51_vmmin_fails_at_stationary_start _ _ _ _ _ _ _ _ (Nat.lt_0_succ 0) _ _ R); [reflexivity|]. intros. cbn. lra.
Qed.

(** ** C52: when the evaluations run out the minimum is not reported and the last evaluation was elsewhere *)
Theorem C52_min1d_exceeded : forall f b0 st0 reltest ifnMax r, min1d f b0 st0 reltest ifnMax r -> code1 r = ITERS_EXCEEDED -> fnminval r = None.
Proof.
  intros * R E. pose proof (min1d_ok _ _ _ _ _ _ R) as P. destruct (f b0); [|destruct P; congruence]. destruct P as (_ & _ & C). rewrite E in C. apply C.
Qed.
Theorem C52_min1d_exceeded_elsewhere : exists r, min1d (fun x => Some (- x)) 0 (1/10) (1/1000) 1 r /\ code1 r = ITERS_EXCEEDED /\ lastPoint r <> obb r.
Proof.
  eexists. split; [|split].
  - unfold min1d. apply runs_done. cbn [min1dStep]. cbv zeta. cbn [ifn]. reflexivity.
  - reflexivity.
  - cbn. lra.
Qed.
