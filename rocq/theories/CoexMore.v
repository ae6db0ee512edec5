(** Theorems about the test for a second liquid, continued: C147-C149. *)
From Coq Require Import Reals List Bool Arith Lia Lra FunctionalExtensionality.
From Coquelicot Require Import Coquelicot.
From Verif Require Import MassModel MassProofs RealTac LiqModel LiqProofs LiqProps HessLiq LaSpec LaBase HhModel HftiProofs QuadModel FullRank NashModel NashSpec NashProofs NashProps CoexModel CoexSpec CoexFrame CoexProofs CoexProps.
Import List ListNotations.
Open Scope R_scope.

Section P.
Variable n : nat.
Variables WH WS WV : nat -> nat -> R.
Variables t p : R.
Notation NA := (S n).
Notation check := (check n WH WS WV t p).

(** ** C147: what is added *)
Lemma amount_app a b i : amount (a ++ b) i = amount a i + amount b i.
Proof. unfold amount. induction a as [|m a IH]; cbn [app fold_right]; [ring|]. rewrite IH. ring. Qed.
Theorem C147_balance : forall redox h0 liquidMass liquids liquids', liquids <> [] -> check redox h0 liquidMass liquids liquids' true ->
  length liquids' = S (length liquids) /\ (forall i, amount liquids' i = amount liquids i) /\ MassModel.sum NA (last liquids' (fun _ => 0)) = MASSIN.
Proof.
  intros redox h0 lm ls ls' Ne C. unfold CoexModel.check in C.
  destruct (Req_EM_T lm 0); [destruct C; discriminate|]. destruct (Rle_dec t 0); [destruct C; discriminate|]. destruct (Rlt_dec p 0); [destruct C; discriminate|].
  destruct C as (o & _ & C). destruct o as [x|]; [|destruct C; discriminate]. destruct C as (-> & _).
  destruct ls as [|m ms]; [now elim Ne|]. unfold divide. split; [|split].
  - cbn [length]. rewrite app_length. cbn [length]. lia.
  - intros i. change (amount ((fun j => m j - xr n x j * MASSIN) :: ms ++ [fun j => xr n x j * MASSIN]) i) with (m i - xr n x i * MASSIN + amount (ms ++ [fun j => xr n x j * MASSIN]) i).
    rewrite amount_app. change (amount (m :: ms) i) with (m i + amount ms i). unfold amount at 2. cbn [fold_right]. ring.
  - rewrite app_comm_cons, last_last. rewrite (MassProofs.sum_ext NA _ (fun i => MASSIN * xr n x i)) by (intros; ring). rewrite MassProofs.sum_scal, (sum_xr n). ring.
Qed.
(** a component absent from the liquid that was found unstable is absent from the new one *)
Theorem C147_absent : forall redox h0 liquidMass liquids liquids', (forall m, In m liquids -> proper_liquid n m) -> check redox h0 liquidMass liquids liquids' true ->
  exists m, In m liquids /\ forall i, (i < NA)%nat -> m i = 0 -> last liquids' (fun _ => 0) i = 0.
Proof.
  intros redox h0 lm ls ls' Pr C. unfold CoexModel.check in C.
  destruct (Req_EM_T lm 0); [destruct C; discriminate|]. destruct (Rle_dec t 0); [destruct C; discriminate|]. destruct (Rlt_dec p 0); [destruct C; discriminate|].
  destruct C as (o & Sc & C). destruct o as [x|]; [|destruct C; discriminate]. destruct C as (-> & _).
  destruct (scan_some n WH WS WV t p h0 _ _ _ Sc) as (m & s & I & _ & T). exists m. split; [exact I|]. intros i Hi Z.
  destruct (Pr m I) as (_ & P0). assert (M0 : m 0%nat <> 0) by lra.
  destruct (accepted_point n WH WS WV t p h0 _ _ _ _ T) as (F0 & r & y & X & _ & _ & Ex & _).
  destruct ls as [|m0 ms]; [destruct I|]. unfold divide. rewrite app_comm_cons, last_last.
  destruct i as [|i]; [now elim M0|]. cbn [xr]. rewrite Ex, (lift_null n h0 m M0) by (auto; lia). ring.
Qed.
(** no amount in the new liquid is below zero by more than the tolerance of the search *)
Lemma snap_close x i : Rabs (snap x i - x i) <= 10 * dblEps.
Proof.
  unfold snap. pose proof dblEps_pos. destruct (Rlt_dec (Rabs (x i)) (10 * dblEps)) as [L|L].
  - rewrite Rminus_0_l, Rabs_Ropp. lra.
  - rewrite Rminus_eq_0, Rabs_R0. lra.
Qed.
Lemma orth_close K Ki z d i : orth n K Ki -> (i < n)%nat -> 0 <= d -> (forall j, (j < n)%nat -> Rabs (z j) <= d) -> Rabs (K z i) <= INR n * d.
Proof.
  intros O Hi Hd Hz. destruct O as (_ & _ & _ & No & _).
  assert (A : K z i * K z i <= norm2 n (K z)).
  { unfold norm2, dot. rewrite (LaBase.sum_at n i _ (fun j => if Nat.eqb j i then 0 else K z j * K z j)); [|intros j Hj Nj; destruct (Nat.eqb_spec j i); [lia|auto]|auto].
    rewrite Nat.eqb_refl. assert (0 <= LaSpec.sum n (fun j => if Nat.eqb j i then 0 else K z j * K z j)); [|lra]. apply LaBase.sum_pos. intros j Hj. destruct (Nat.eqb j i); nra. }
  rewrite No in A.
  assert (B : norm2 n z <= INR n * (d * d)).
  { unfold norm2, dot. clear A No Hi. assert (G : forall k, (k <= n)%nat -> LaSpec.sum k (fun j => z j * z j) <= INR k * (d * d)); [|now apply G].
    induction k; intros Hk; [cbn; lra|]. cbn [LaSpec.sum]. rewrite S_INR. specialize (IHk ltac:(lia)). specialize (Hz k ltac:(lia)).
    assert (z k * z k <= d * d); [|lra]. rewrite <- (Rabs_pos_eq (z k * z k)) by nra. rewrite Rabs_mult. pose proof (Rabs_pos (z k)). nra. }
  assert (N : 1 <= INR n) by (apply (le_INR 1); lia). clear Hz No.
  set (k := K z i) in *. set (N2 := norm2 n z) in *. set (c := INR n) in *. clearbody k N2 c.
  apply Rabs_le. assert (Q : k * k <= (c * d) * (c * d)) by (assert (d * d <= c * (d * d)) by nra; assert (c * (d * d) <= c * (c * (d * d))) by (apply Rmult_le_compat_l; lra); nra).
  assert (P : 0 <= c * d) by nra. set (b := c * d) in *. clearbody b. split; nra.
Qed.
Lemma lift_close h0 m y b b' d i : m 0%nat <> 0 -> (i < n)%nat -> 0 <= d -> within (nz n m) d b b' ->
  Rabs (lift n h0 m y b i - lift n h0 m y b' i) <= INR n * d + 20 * dblEps.
Proof.
  intros M0 Hi Hd W. pose proof dblEps_pos as E. assert (N : 1 <= INR n) by (apply (le_INR 1); lia). pose proof (ne_le n m M0) as L. unfold nz in W. unfold lift.
  destruct (Nat.eqb_spec (ne n m) 0) as [Z|Z].
  - destruct (Nat.ltb_spec i (ne n m)); [lia|]. specialize (W (i - ne n m)%nat ltac:(lia)). assert (d <= INR n * d) by nra. lra.
  - set (v := fun i => if (i <? ne n m)%nat then y i else b (i - ne n m)%nat). set (w := fun i => if (i <? ne n m)%nat then y i else b' (i - ne n m)%nat).
    destruct (frame_maps n h0 m M0) as (K & Ki & C' & O & Dn & _). pose proof (snap_close (fromFree n h0 m v) i) as S1. pose proof (snap_close (fromFree n h0 m w) i) as S2.
    rewrite Dn in S1, S2. assert (Q : Rabs (K (fun k => v k + (-1) * w k) i) <= INR n * d).
    { apply (orth_close K Ki _ d i O Hi Hd). intros j Hj. unfold v, w. destruct (Nat.ltb_spec j (ne n m)).
      - replace (y j + -1 * y j) with 0 by ring. rewrite Rabs_R0. lra.
      - specialize (W (j - ne n m)%nat ltac:(lia)). replace (b (j - ne n m)%nat + -1 * b' (j - ne n m)%nat) with (b (j - ne n m)%nat - b' (j - ne n m)%nat) by ring. exact W. }
    destruct O as (_ & _ & Li & _). rewrite Li in Q by auto.
    set (a1 := snap (fromFree n h0 m v) i) in *. set (a2 := snap (fromFree n h0 m w) i) in *. set (k1 := K v i) in *. set (k2 := K w i) in *.
    replace (a1 - a2) with ((a1 - k1) + (k1 + -1 * k2) + - (a2 - k2)) by ring.
    pose proof (Rabs_triang (a1 - k1 + (k1 + -1 * k2)) (- (a2 - k2))) as T1. pose proof (Rabs_triang (a1 - k1) (k1 + -1 * k2)) as T2. rewrite Rabs_Ropp in T1. lra.
Qed.
Theorem C147_nearly_nonnegative : forall h0 liquidMass liquids liquids', (forall m, In m liquids -> proper_liquid n m) -> check None h0 liquidMass liquids liquids' true ->
  forall i, (i < NA)%nat -> - (INR n * (INR n * (2 * reltest) + 20 * dblEps)) * MASSIN <= last liquids' (fun _ => 0) i.
Proof.
  intros h0 lm ls ls' Pr C. unfold CoexModel.check in C.
  destruct (Req_EM_T lm 0); [destruct C; discriminate|]. destruct (Rle_dec t 0); [destruct C; discriminate|]. destruct (Rlt_dec p 0); [destruct C; discriminate|].
  destruct C as (o & Sc & C). destruct o as [x|]; [|destruct C; discriminate]. destruct C as (-> & _). intros i Hi.
  destruct (scan_some n WH WS WV t p h0 _ _ _ Sc) as (m & s & I & _ & T).
  destruct (Pr m I) as (_ & P0). assert (M0 : m 0%nat <> 0) by lra.
  destruct (accepted_point n WH WS WV t p h0 _ _ _ _ T) as (F0 & r & y & X & _ & _ & Ex & FX & Cl & _).
  destruct ls as [|m0 ms]; [destruct I|]. unfold divide. rewrite app_comm_cons, last_last.
  apply Rmult_le_compat_r; [unfold MASSIN; lra|]. unfold fminfn, evaluated in FX.
  destruct (feasibleR n (lift n h0 m (fixed n h0 m s) X)) eqn:Fe; [|discriminate FX]. apply feasibleR_spec in Fe. pose proof reltest_pos as Rp. pose proof dblEps_pos as E.
  set (D := INR n * (2 * reltest) + 20 * dblEps). assert (In : 0 <= INR n) by apply pos_INR. assert (D0 : 0 <= D) by (unfold D; nra).
  assert (Cj : forall j, (j < n)%nat -> Rabs (lift n h0 m (fixed n h0 m s) X j - x j) <= D).
  { intros j Hj. rewrite Ex. destruct Cl as [->|Cl]; [rewrite Rminus_eq_0, Rabs_R0; exact D0|]. apply lift_close; auto. lra. }
  destruct Fe as (Fa & Fb). set (z := lift n h0 m (fixed n h0 m s) X) in *.
  destruct i as [|i]; cbn [xr].
  - assert (G : forall k, (k <= n)%nat -> MassModel.sum k x <= MassModel.sum k z + INR k * D).
    { induction k; intros Hk; [cbn; lra|]. cbn [MassModel.sum]. rewrite S_INR. specialize (IHk ltac:(lia)). specialize (Cj k ltac:(lia)). apply Rabs_le_between in Cj. lra. }
    specialize (G n (Nat.le_refl _)). lra.
  - specialize (Cj i ltac:(lia)). apply Rabs_le_between in Cj. specialize (Fa i ltac:(lia)). assert (1 <= INR n) by (apply (le_INR 1); lia). assert (D <= INR n * D) by nra. lra.
Qed.
End P.
(** with the eighteen independent variables of the code: above - 10^-10 moles *)
Theorem C147_nonnegative_to_1e_10 : forall WH WS WV t p h0 liquidMass liquids liquids',
  (forall m, In m liquids -> proper_liquid NR m) -> CoexModel.check NR WH WS WV t p None h0 liquidMass liquids liquids' true ->
  forall i, (i < 19)%nat -> - (1 / 10 ^ 10) < last liquids' (fun _ => 0) i.
Proof.
  intros WH WS WV t p h0 lm ls ls' Pr C i Hi. refine (Rlt_le_trans _ _ _ _ (C147_nearly_nonnegative NR WH WS WV t p h0 lm ls ls' Pr C i Hi)).
  assert (S : reltest = / 2 ^ 26).
  { unfold reltest, dblEps. apply sqrt_lem_1; [left; apply Rinv_0_lt_compat, pow_lt; lra|left; apply Rinv_0_lt_compat, pow_lt; lra|].
    rewrite <- Rinv_mult, <- pow_add. reflexivity. }
  rewrite S. unfold NR, MASSIN, dblEps. replace (INR 18) with 18 by (cbn; ring). lra.
Qed.
