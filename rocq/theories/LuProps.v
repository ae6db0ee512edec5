(** C30: what the packing LU wrapper computes. *)
From Coq Require Import Reals Arith ZArith Bool List Lia Lra FinFun.
From Verif Require Import LaSpec LuModel.
Local Open Scope R_scope.

(** ** The specification *)
Definition nullRow (N : nat) (A : mat) (j : nat) : Prop := forall k, (k < N)%nat -> A j k = 0.
(** x satisfies every equation that has a coefficient, and leaves the
    variables that occur in no equation at zero *)
Definition solves (N : nat) (A : mat) (b x : vec) : Prop :=
  (forall j, (j < N)%nat -> ~ nullRow N A j -> apply N A x j = b j) /\
  (forall j, (j < N)%nat -> nullRow N A j -> x j = 0).
Definition symmetric (N : nat) (A : mat) : Prop := forall i j, (i < N)%nat -> (j < N)%nat -> A i j = A j i.
(** the equations determine the variables that occur in them *)
Definition regular (N : nat) (A : mat) : Prop :=
  forall v, (forall j, (j < N)%nat -> nullRow N A j -> v j = 0) ->
    (forall j, (j < N)%nat -> apply N A v j = 0) -> forall j, (j < N)%nat -> v j = 0.

(** ** Sums *)
Lemma sumE n f g : (forall i, (i < n)%nat -> f i = g i) -> sum n f = sum n g.
Proof. induction n as [|n IH]; intros H; cbn [sum]; [reflexivity|]. rewrite IH by (intros; apply H; lia). rewrite H by lia. reflexivity. Qed.
Lemma sum_zero n f : (forall i, (i < n)%nat -> f i = 0) -> sum n f = 0.
Proof. induction n as [|n IH]; intros H; cbn [sum]; [reflexivity|]. rewrite IH by (intros; apply H; lia). rewrite H by lia. lra. Qed.
Lemma sum_app m n f : sum (m + n) f = sum m f + sum n (fun i => f (m + i)%nat).
Proof. induction n as [|n IH]. { rewrite Nat.add_0_r. cbn [sum]. lra. } rewrite Nat.add_succ_r. cbn [sum]. rewrite IH. lra. Qed.
Lemma sum_add n f g : sum n (fun i => f i + g i) = sum n f + sum n g.
Proof. induction n as [|n IH]; cbn [sum]; [lra|]. rewrite IH. lra. Qed.
Lemma sum_mul n c f : sum n (fun i => c * f i) = c * sum n f.
Proof. induction n as [|n IH]; cbn [sum]; [lra|]. rewrite IH. lra. Qed.
Lemma sum_one n f k : (k < n)%nat -> (forall i, (i < n)%nat -> i <> k -> f i = 0) -> sum n f = f k.
Proof.
  intros Hk H. replace n with (k + S (n - S k))%nat by lia. rewrite sum_app.
  rewrite (sum_zero k) by (intros; apply H; lia).
  replace (S (n - S k)) with (1 + (n - S k))%nat by lia. rewrite sum_app. cbn [sum].
  rewrite (sum_zero (n - S k)) by (intros; apply H; lia). rewrite Nat.add_0_r. lra.
Qed.
Lemma sum_swap n m f : sum n (fun i => sum m (fun j => f i j)) = sum m (fun j => sum n (fun i => f i j)).
Proof.
  induction n as [|n IH]; cbn [sum]. { symmetry. apply sum_zero. reflexivity. }
  rewrite IH. rewrite <- sum_add. apply sumE. intros. reflexivity.
Qed.

(** ** Null rows *)
Lemma rowNullTo_iff k A j : rowNullTo k A j = true <-> nullRow k A j.
Proof.
  induction k as [|k IH]; cbn [rowNullTo]. { split; [intros _ i Hi; lia|reflexivity]. }
  rewrite andb_true_iff, IH. split.
  - intros [H E] i Hi. destruct (Nat.eq_dec i k) as [->|Ne]; [|apply H; lia]. destruct (Req_EM_T (A j k) 0); [assumption|discriminate].
  - intros H. split; [intros i Hi; apply H; lia|]. destruct (Req_EM_T (A j k) 0) as [|n]; [reflexivity|]. exfalso. apply n, H. lia.
Qed.
Lemma rowNull_iff N A j : rowNull N A j = true <-> nullRow N A j.
Proof. apply rowNullTo_iff. Qed.
Lemma rowNull_false N A j : rowNull N A j = false <-> ~ nullRow N A j.
Proof. rewrite <- rowNull_iff. destruct (rowNull N A j); split; congruence. Qed.

(** ** Triangular solves *)
Lemma lowerSolve_ge m L x k : (m <= k)%nat -> lowerSolve m L x k = x k.
Proof. induction m as [|m IH]; intros H; cbn [lowerSolve]; [reflexivity|]. destruct (Nat.eqb_spec k m); [lia|]. apply IH; lia. Qed.
Lemma lower_cut n L k f : (k < n)%nat -> sum n (fun j => lowerOf L k j * f j) = sum k (fun j => L k j * f j) + f k.
Proof.
  intros H. replace n with (S k + (n - S k))%nat by lia. rewrite sum_app.
  rewrite (sum_zero (n - S k)).
  2:{ intros i _. unfold lowerOf. destruct (Nat.ltb_spec (S k + i) k); [lia|]. destruct (Nat.eqb_spec k (S k + i)); [lia|]. lra. }
  cbn [sum]. unfold lowerOf at 2. rewrite Nat.ltb_irrefl, Nat.eqb_refl.
  rewrite (sumE k _ (fun j => L k j * f j)); [lra|].
  intros i Hi. unfold lowerOf. destruct (Nat.ltb_spec i k); [|lia]. reflexivity.
Qed.
Lemma lowerSolve_eq m n L x k : (k < m)%nat -> (m <= n)%nat ->
  sum n (fun j => lowerOf L k j * lowerSolve m L x j) = x k.
Proof.
  intros H Hn. rewrite lower_cut by lia. revert H Hn. induction m as [|m IH]; intros H Hn; [lia|]. cbn [lowerSolve].
  destruct (Nat.eq_dec k m) as [->|Ne].
  - rewrite Nat.eqb_refl. rewrite (lowerSolve_ge m L x m) by lia.
    rewrite (sumE m _ (fun j => L m j * lowerSolve m L x j)).
    2:{ intros i Hi. destruct (Nat.eqb_spec i m); [lia|]. reflexivity. }
    lra.
  - destruct (Nat.eqb_spec k m); [lia|]. rewrite <- IH by lia. f_equal.
    apply sumE. intros i Hi. destruct (Nat.eqb_spec i m); [lia|]. reflexivity.
Qed.
Lemma upperSolve_ge m n U x k : (m <= k)%nat -> upperSolve m n U x k = x k.
Proof. revert x; induction m as [|m IH]; intros x H; cbn [upperSolve]; [reflexivity|]. rewrite IH by lia. destruct (Nat.eqb_spec k m); [lia|]. reflexivity. Qed.
Lemma upper_cut n U k f : (k < n)%nat ->
  sum n (fun j => upperOf U k j * f j) = U k k * f k + sum (n - S k) (fun j => U k (S k + j)%nat * f (S k + j)%nat).
Proof.
  intros H. assert (E : (n = k + (1 + (n - S k)))%nat) by lia. rewrite E at 1. clear E. rewrite sum_app, sum_app. cbn [sum].
  rewrite (sum_zero k). 2:{ intros i Hi. unfold upperOf. destruct (Nat.leb_spec k i); [lia|]. lra. }
  rewrite (sumE (n - S k) _ (fun j => U k (S k + j)%nat * f (S k + j)%nat)).
  2:{ intros i Hi. unfold upperOf. destruct (Nat.leb_spec k (k + (1 + i))); [|lia].
      replace (k + (1 + i))%nat with (S k + i)%nat by lia. reflexivity. }
  unfold upperOf. rewrite Nat.add_0_r, Nat.leb_refl. lra.
Qed.
(** row i of the equations, once row i has been processed *)
Lemma upperSolve_eq m n U x k : (k < m)%nat -> (m <= n)%nat -> (forall i, (i < m)%nat -> U i i <> 0) ->
  sum n (fun j => upperOf U k j * upperSolve m n U x j) = x k.
Proof.
  intros H Hn HU. rewrite upper_cut by lia. revert x H Hn HU.
  induction m as [|m IH]; intros x H Hn HU; [lia|]. cbn [upperSolve].
  destruct (Nat.eq_dec k m) as [->|Ne].
  - match goal with |- _ + sum _ ?f = _ => rewrite (sumE (n - S m) f (fun j => U m (S m + j)%nat * x (S m + j)%nat)) end.
    2:{ intros i Hi. rewrite upperSolve_ge by lia. destruct (Nat.eqb_spec (S m + i) m); [lia|]. reflexivity. }
    rewrite upperSolve_ge by lia. rewrite Nat.eqb_refl.
    set (s := sum _ _). pose proof (HU m ltac:(lia)). field. assumption.
  - rewrite IH by (lia || (intros; apply HU; lia)). destruct (Nat.eqb_spec k m); [lia|]. reflexivity.
Qed.
(** both together *)
Lemma LU_solve_eq n LU x k : (k < n)%nat -> (forall i, (i < n)%nat -> LU i i <> 0) ->
  sum n (fun j => sum n (fun i => lowerOf LU k i * upperOf LU i j) * upperSolve n n LU (lowerSolve n LU x) j) = x k.
Proof.
  intros Hk HU. set (y := lowerSolve n LU x). set (z := upperSolve n n LU y).
  rewrite <- (lowerSolve_eq n n LU x k Hk (le_n _)). fold y.
  transitivity (sum n (fun j => sum n (fun i => lowerOf LU k i * upperOf LU i j * z j))).
  { apply sumE. intros j _. rewrite Rmult_comm, <- sum_mul. apply sumE. intros. ring. }
  rewrite sum_swap. apply sumE. intros i Hi.
  rewrite <- (upperSolve_eq n n LU y i Hi (le_n _) HU). fold z.
  rewrite <- sum_mul. apply sumE. intros. ring.
Qed.
(** a factor with a zero on its diagonal comes from a singular matrix *)
Lemma diag_nonzero n LU (B : mat) :
  (forall i k, (i < n)%nat -> (k < n)%nat -> B i k = sum n (fun j => lowerOf LU i j * upperOf LU j k)) ->
  (forall v, (forall i, (i < n)%nat -> sum n (fun k => B i k * v k) = 0) -> forall i, (i < n)%nat -> v i = 0) ->
  forall i, (i < n)%nat -> LU i i <> 0.
Proof.
  intros HB HK.
  assert (G : forall m, (m <= n)%nat -> forall i, (i < m)%nat -> LU i i <> 0).
  { induction m as [|m IH]; intros Hm i Hi; [lia|].
    destruct (Nat.eq_dec i m) as [->|Ne]; [|apply IH; lia]. intros Z.
    set (w := upperSolve m m LU (fun k => - LU k m)).
    set (v := fun k => if (k <? m)%nat then w k else if (k =? m)%nat then 1 else 0).
    assert (Uv : forall i, (i < n)%nat -> sum n (fun k => upperOf LU i k * v k) = 0).
    { intros r Hr. replace (sum n) with (sum (m + (1 + (n - S m)))%nat) by (f_equal; lia). rewrite sum_app, sum_app. cbn [sum].
      rewrite (sum_zero (n - S m)).
      2:{ intros q Hq. unfold v. destruct (Nat.ltb_spec (m + (1 + q)) m); [lia|]. destruct (Nat.eqb_spec (m + (1 + q)) m); [lia|]. lra. }
      rewrite (sumE m _ (fun k => upperOf LU r k * w k)).
      2:{ intros q Hq. unfold v. destruct (Nat.ltb_spec q m); [|lia]. reflexivity. }
      unfold v. rewrite Nat.add_0_r, Nat.ltb_irrefl, Nat.eqb_refl.
      destruct (Nat.lt_ge_cases r m) as [L|G].
      - unfold w. rewrite upperSolve_eq; [|assumption|lia|intros; apply IH; lia].
        unfold upperOf. destruct (Nat.leb_spec r m); [|lia]. lra.
      - rewrite (sum_zero m). 2:{ intros q Hq. unfold upperOf. destruct (Nat.leb_spec r q); [lia|]. lra. }
        unfold upperOf. destruct (Nat.leb_spec r m); [|lra]. replace r with m by lia. rewrite Z. lra. }
    assert (V0 : v m = 0).
    { apply HK; [|lia]. intros r Hr.
      transitivity (sum n (fun k => sum n (fun j => lowerOf LU r j * upperOf LU j k * v k))).
      { apply sumE. intros k Hk. rewrite HB by assumption. rewrite Rmult_comm, <- sum_mul. apply sumE. intros. ring. }
      rewrite sum_swap. apply sum_zero. intros j Hj.
      transitivity (lowerOf LU r j * sum n (fun k => upperOf LU j k * v k)).
      { rewrite <- sum_mul. apply sumE. intros. ring. } rewrite Uv by assumption. lra. }
    unfold v in V0. rewrite Nat.ltb_irrefl, Nat.eqb_refl in V0. lra. }
  intros i Hi. apply (G n (le_n _)); assumption.
Qed.

(** ** The packing loop *)
Lemma decr_eq n : (1 <= n < 2 ^ 64)%Z -> decr n = (n - 1)%Z.
Proof. intros H. unfold decr. apply Z.mod_small. lia. Qed.
Lemma scan_found nl p d : forall i fuel N2, (Z.of_nat d < N2 < 2 ^ 64)%Z -> (d < fuel)%nat ->
  (forall k, (i <= k < i + d)%nat -> nl (p k) = true) -> nl (p (i + d)%nat) = false ->
  scan fuel nl p i N2 = (Some (i + d)%nat, N2 - Z.of_nat d)%Z.
Proof.
  induction d as [|d IH]; intros i fuel N2 Hb Hf Hn He; (destruct fuel as [|f]; [lia|]); cbn [scan].
  - rewrite Nat.add_0_r in He |- *. rewrite He. f_equal. lia.
  - rewrite Hn by lia. rewrite decr_eq by lia. rewrite IH.
    + f_equal; [f_equal; lia|lia].
    + lia.
    + lia.
    + intros k Hk. apply Hn. lia.
    + replace (S i + d)%nat with (i + S d)%nat by lia. assumption.
Qed.
Lemma packFrom_skip N nl p N2 : forall a j fuel, (j + a <= N)%nat -> (a <= fuel)%nat ->
  (forall k, (j <= k < j + a)%nat -> nl (p k) = false) ->
  packFrom fuel N nl j p N2 = packFrom (fuel - a) N nl (j + a) p N2.
Proof.
  induction a as [|a IH]; intros j fuel Hj Hf H. { rewrite Nat.sub_0_r, Nat.add_0_r. reflexivity. }
  destruct fuel as [|f]; [lia|]. cbn [packFrom]. destruct (Nat.ltb_spec j N); [|lia]. rewrite H by lia.
  rewrite IH by (lia || (intros; apply H; lia)). f_equal. lia.
Qed.
Lemma packFrom_end fuel N nl j p N2 : (N <= j)%nat -> packFrom fuel N nl j p N2 = (p, N2).
Proof. intros H. destruct fuel; cbn [packFrom]; [reflexivity|]. destruct (Nat.ltb_spec j N); [lia|]. reflexivity. Qed.
Lemma pack_none N nl : (forall k, (k < N)%nat -> nl k = false) -> pack N nl = (fun k => k, Z.of_nat N).
Proof. intros H. unfold pack. rewrite (packFrom_skip N nl _ _ N 0 N) by (lia || (intros; apply H; lia)). apply packFrom_end. lia. Qed.
Lemma pack_last N nl : (0 < N)%nat -> (Z.of_nat N < 2 ^ 64)%Z -> (forall k, (S k < N)%nat -> nl k = false) -> nl (N - 1)%nat = true ->
  pack N nl = (fun k => k, Z.of_nat N - 1)%Z.
Proof.
  intros H0 Hb H L. unfold pack. rewrite (packFrom_skip N nl _ _ (N - 1) 0 N) by (lia || (intros; apply H; lia)).
  replace (N - (N - 1))%nat with 1%nat by lia. cbn [packFrom]. cbn [Nat.add]. destruct (Nat.ltb_spec (N - 1) N); [|lia].
  rewrite L. replace (N - S (N - 1))%nat with O by lia. cbn [scan]. rewrite decr_eq by lia. reflexivity.
Qed.
Lemma pack_gap N nl a b c : (Z.of_nat N < 2 ^ 64)%Z -> (1 <= b)%nat -> (N = a + b + 1 + c)%nat -> (c <= 1)%nat ->
  (forall k, (k < a)%nat -> nl k = false) -> (forall k, (a <= k < a + b)%nat -> nl k = true) ->
  nl (a + b)%nat = false -> (forall k, (a + b < k < N)%nat -> nl k = true) ->
  pack N nl = (swapP (fun k => k) a (a + b), Z.of_nat a + 1)%Z.
Proof.
  intros Hb H1 HN Hc P Q X W. unfold pack.
  rewrite (packFrom_skip N nl _ _ a 0 N) by (lia || (intros; apply P; lia)). cbn [Nat.add].
  destruct (N - a)%nat as [|f] eqn:Ef; [lia|]. cbn [packFrom]. destruct (Nat.ltb_spec a N); [|lia].
  rewrite (Q a) by lia. rewrite decr_eq by lia.
  rewrite (scan_found nl (fun k => k) (b - 1)); [|lia|lia|intros k Hk; apply Q; lia|replace (S a + (b - 1))%nat with (a + b)%nat by lia; assumption].
  replace (S a + (b - 1))%nat with (a + b)%nat by lia.
  destruct c as [|[|c]]; [| |lia].
  - rewrite packFrom_end by lia. f_equal. lia.
  - destruct f as [|f]; [lia|]. cbn [packFrom]. destruct (Nat.ltb_spec (S (a + b)) N); [|lia].
    unfold swapP at 1. destruct (Nat.eqb_spec (S (a + b)) a); [lia|]. destruct (Nat.eqb_spec (S (a + b)) (a + b)); [lia|].
    rewrite W by lia. replace (N - S (S (a + b)))%nat with O by lia. cbn [scan]. rewrite packFrom_end by lia.
    rewrite decr_eq by lia. f_equal. lia.
Qed.

Lemma scan_ext nl nl' p fuel : (forall k, nl k = nl' k) -> forall i N2, scan fuel nl p i N2 = scan fuel nl' p i N2.
Proof. intros H. induction fuel as [|f IH]; intros i N2; cbn [scan]; [reflexivity|]. rewrite H, IH. reflexivity. Qed.
Lemma pack_ext N nl nl' : (forall k, nl k = nl' k) -> pack N nl = pack N nl'.
Proof.
  intros H. unfold pack. generalize (fun k : nat => k) as p, O as j, (Z.of_nat N) as N2. generalize N at 1 3 as fuel.
  induction fuel as [|f IH]; intros p j N2; cbn [packFrom]; [reflexivity|].
  rewrite H, (scan_ext nl nl' p (N - S j) H). destruct (j <? N)%nat; [|reflexivity]. destruct (nl' (p j)); [|apply IH].
  destruct (scan _ _ _ _ _) as [[i|] n]; apply IH.
Qed.

(** ** Transpositions *)
Lemma swapP_same a k : swapP (fun k => k) a a k = k.
Proof. unfold swapP. destruct (Nat.eqb_spec k a); congruence. Qed.
Lemma swapP_inv a c k : swapP (fun k => k) a c (swapP (fun k => k) a c k) = k.
Proof.
  unfold swapP. destruct (Nat.eqb_spec k a) as [E1|E1].
  - destruct (Nat.eqb_spec c a); [congruence|]. rewrite Nat.eqb_refl. congruence.
  - destruct (Nat.eqb_spec k c) as [E2|E2]; [rewrite Nat.eqb_refl; congruence|].
    destruct (Nat.eqb_spec k a); [congruence|]. destruct (Nat.eqb_spec k c); congruence.
Qed.
Lemma swapP_bound N a c k : (a < N)%nat -> (c < N)%nat -> (k < N)%nat -> (swapP (fun k => k) a c k < N)%nat.
Proof. intros. unfold swapP. destruct (Nat.eqb_spec k a), (Nat.eqb_spec k c); lia. Qed.
Lemma sum_two n g a c : (a < n)%nat -> (c < n)%nat -> a <> c -> (forall i, (i < n)%nat -> i <> a -> i <> c -> g i = 0) -> sum n g = g a + g c.
Proof.
  intros Ha Hc Ne H.
  rewrite (sumE n g (fun i => (if (i =? a)%nat then g i else 0) + (if (i =? a)%nat then 0 else g i))).
  2:{ intros i _. destruct (i =? a)%nat; lra. }
  rewrite sum_add. f_equal.
  - rewrite (sum_one n _ a Ha); [rewrite Nat.eqb_refl; reflexivity|]. intros i _ N. destruct (Nat.eqb_spec i a); [congruence|reflexivity].
  - rewrite (sum_one n _ c Hc); [destruct (Nat.eqb_spec c a); [congruence|reflexivity]|].
    intros i Hi N. destruct (Nat.eqb_spec i a); [reflexivity|]. apply H; assumption.
Qed.
Lemma sum_swapP n a c f : (a < n)%nat -> (c < n)%nat -> sum n (fun i => f (swapP (fun k => k) a c i)) = sum n f.
Proof.
  intros Ha Hc. destruct (Nat.eq_dec a c) as [->|Ne]. { apply sumE. intros. rewrite swapP_same. reflexivity. }
  assert (E : sum n (fun i => f (swapP (fun k => k) a c i) - f i) = 0).
  { rewrite (sum_two n _ a c Ha Hc Ne).
    - unfold swapP. rewrite Nat.eqb_refl. destruct (Nat.eqb_spec c a); [congruence|]. rewrite Nat.eqb_refl. lra.
    - intros i _ N1 N2. unfold swapP. destruct (Nat.eqb_spec i a); [congruence|]. destruct (Nat.eqb_spec i c); [congruence|]. lra. }
  rewrite (sumE n (fun i => f (swapP (fun k => k) a c i) - f i) (fun i => f (swapP (fun k => k) a c i) + (-1) * f i)) in E by (intros; lra).
  rewrite sum_add, sum_mul in E. lra.
Qed.
Lemma placeOf_spec m p k : (forall i j, (i < m)%nat -> (j < m)%nat -> p i = p j -> i = j) -> forall i, (i < m)%nat -> p i = k -> placeOf m p k = i.
Proof.
  intros Inj. induction m as [|m IH]; intros i Hi E; [lia|]. cbn [placeOf]. destruct (Nat.eqb_spec (p m) k) as [E'|N].
  - apply Inj; lia.
  - apply IH; [intros; apply Inj; lia| |assumption]. destruct (Nat.eq_dec i m) as [->|]; [congruence|lia].
Qed.
Lemma swapsTo_id m p p2 k : (forall i, (i < m)%nat -> p2 i = i) -> swapsTo m p p2 k = p k.
Proof.
  revert k. induction m as [|m IH]; intros k H; cbn [swapsTo]; [reflexivity|].
  rewrite H by lia. unfold swapP. destruct (Nat.eqb_spec k m) as [->|]; [|]; apply IH; intros; apply H; lia.
Qed.
Lemma nonNullRows_le m N LU n : (forall j, (j < m)%nat -> (j < n)%nat -> rowNull N LU j = false) ->
  (forall j, (j < m)%nat -> (n <= j)%nat -> rowNull N LU j = true) -> nonNullRows m N LU = Nat.min m n.
Proof.
  induction m as [|m IH]; intros P Q; [reflexivity|]. cbn [nonNullRows]. rewrite IH by (intros; (apply P || apply Q); lia).
  destruct (Nat.lt_ge_cases m n). - rewrite P by lia. lia. - rewrite Q by lia. lia.
Qed.

(** ** Solving after the packing *)
(** [p1] exchanges two rows and brings the non-null rows to the top *)
Definition packed (N : nat) (A : mat) (a c n : nat) : Prop :=
  (a < N)%nat /\ (c < N)%nat /\
  (forall i, (i < n)%nat -> ~ nullRow N A (swapP (fun k => k) a c i)) /\
  (forall i, (n <= i < N)%nat -> nullRow N A (swapP (fun k => k) a c i)).
Lemma packed_solves N A a c n B LU p b (p1 := swapP (fun k => k) a c) :
  symmetric N A -> regular N A -> packed N A a c n -> (2 <= n < N)%nat ->
  (forall i k, (i < n)%nat -> (k < n)%nat -> A (p1 i) (p1 k) = sum n (fun j => lowerOf B i j * upperOf B j k)) ->
  (forall k, p k = p1 k) ->
  (forall i k, LU i k = if (i <? n)%nat && (k <? n)%nat then B i k else A (p1 i) (p1 k)) ->
  solves N A b (solve N LU p b).
Proof.
  intros Sy Rg [Ha [Hc [Pn Pz]]] Hn HB Hp HL. fold p1 in Pn, Pz.
  assert (Inv : forall k, p1 (p1 k) = k) by (intros; apply swapP_inv).
  assert (Bd : forall k, (k < N)%nat -> (p1 k < N)%nat) by (intros; apply swapP_bound; assumption).
  assert (Inj : forall i j, p1 i = p1 j -> i = j) by (intros i j E; rewrite <- (Inv i), E; apply Inv).
  assert (Pl : forall i, (i < N)%nat -> placeOf N p (p1 i) = i).
  { intros i Hi. apply placeOf_spec; [|assumption|apply Hp]. intros i' j' _ _ E. rewrite !Hp in E. apply Inj; assumption. }
  (* multiplying by A a vector that vanishes on the null rows *)
  assert (Ap : forall v w, (forall m, (m < N)%nat -> v (p1 m) = if (m <? n)%nat then w m else 0) -> forall i,
            apply N A v (p1 i) = sum n (fun m => A (p1 i) (p1 m) * w m)).
  { intros v w Hv i. unfold apply. rewrite <- (sum_swapP N a c _ Ha Hc). fold p1.
    replace (sum N) with (sum (n + (N - n))) by (f_equal; lia). rewrite sum_app. rewrite (sum_zero (N - n)).
    2:{ intros k Hk. rewrite Hv by lia. destruct (Nat.ltb_spec (n + k) n); [lia|]. lra. }
    rewrite Rplus_0_r. apply sumE. intros k Hk. rewrite Hv by lia. destruct (Nat.ltb_spec k n); [|lia]. reflexivity. }
  assert (Dg : forall i, (i < n)%nat -> B i i <> 0).
  { apply (diag_nonzero n B (fun i k => A (p1 i) (p1 k)) HB). intros w Hw i Hi.
    set (v := fun k => if (p1 k <? n)%nat then w (p1 k) else 0).
    assert (Hv : forall m, (m < N)%nat -> v (p1 m) = if (m <? n)%nat then w m else 0) by (intros m _; unfold v; rewrite Inv; reflexivity).
    assert (V0 : v (p1 i) = 0).
    { apply (Rg v).
      - intros j Hj Z. unfold v. destruct (Nat.ltb_spec (p1 j) n) as [L|]; [|reflexivity]. exfalso. apply (Pn _ L). rewrite Inv. exact Z.
      - intros j Hj. rewrite <- (Inv j). rewrite (Ap v w Hv).
        destruct (Nat.lt_ge_cases (p1 j) n) as [L|G]; [apply Hw; exact L|].
        apply sum_zero. intros m Hm. rewrite (Pz (p1 j)); [lra|split; [assumption|apply Bd; assumption]|apply Bd; lia].
      - apply Bd. lia. }
    rewrite Hv in V0 by lia. destruct (Nat.ltb_spec i n); [exact V0|lia]. }
  assert (Cn : nonNullRows N N LU = n).
  { rewrite (nonNullRows_le N N LU n); [lia| |].
    - intros j _ Hj. apply rowNull_false. intros Z. apply (Dg j Hj). pose proof (Z j ltac:(lia)) as E. rewrite HL in E.
      destruct (Nat.ltb_spec j n); [exact E|lia].
    - intros j Hj G. apply rowNull_iff. intros k Hk. rewrite HL. destruct (Nat.ltb_spec j n); [lia|]. cbn [andb].
      apply Pz; [lia|apply Bd; lia]. }
  unfold solve, svx. rewrite Cn. destruct (Nat.leb_spec n 1); [lia|]. destruct (Nat.ltb_spec n N); [|lia].
  set (y := upperSolve n n LU (lowerSolve n LU (fun k => b (p k)))).
  assert (Hy : forall i, (i < n)%nat -> sum n (fun m => A (p1 i) (p1 m) * y m) = b (p1 i)).
  { intros i Hi. replace (b (p1 i)) with (b (p i)) by (rewrite Hp; reflexivity).
    rewrite <- (LU_solve_eq n LU (fun k => b (p k)) i Hi).
    2:{ intros q Hq. rewrite HL. destruct (Nat.ltb_spec q n); [|lia]. apply Dg. assumption. }
    fold y. apply sumE. intros m Hm. rewrite HB by assumption. f_equal. apply sumE. intros j Hj.
    unfold lowerOf, upperOf. rewrite !HL.
    destruct (Nat.ltb_spec i n); [|lia]. destruct (Nat.ltb_spec j n); [|lia]. destruct (Nat.ltb_spec m n); [|lia]. reflexivity. }
  set (x := permuteInverse N p _).
  assert (Hx : forall m, (m < N)%nat -> x (p1 m) = if (m <? n)%nat then y m else 0).
  { intros m Hm. unfold x, permuteInverse. rewrite Pl by assumption. reflexivity. }
  split.
  - intros j Hj Nz. rewrite <- (Inv j). rewrite (Ap x y Hx).
    destruct (Nat.lt_ge_cases (p1 j) n) as [L|G]; [apply Hy; exact L|].
    exfalso. apply Nz. rewrite <- (Inv j). apply Pz. split; [exact G|apply Bd; assumption].
  - intros j Hj Z. rewrite <- (Inv j). rewrite Hx by (apply Bd; assumption).
    destruct (Nat.ltb_spec (p1 j) n) as [L|]; [|reflexivity]. exfalso. apply (Pn _ L). rewrite Inv. exact Z.
Qed.

(** ** A system without null rows, of any size: solved, whatever rows the
    library exchanged. *)
Lemma single_solves N A LU p p1 b s : (s < N)%nat ->
  ~ nullRow N A s -> (forall j, (j < N)%nat -> j <> s -> nullRow N A j) -> symmetric N A ->
  p1 O = s -> (forall i, (0 < i < N)%nat -> p1 i <> s /\ (p1 i < N)%nat) -> (forall k, p k = p1 k) ->
  (forall i k, LU i k =
      let A1 := fun i k => A (p1 i) k in let B := set2 A1 0 (p1 O) 0 in
      (if Req_EM_T (A1 O (p1 O)) 0 then B else set2 B 0 0 (1 / A1 O (p1 O))) i k) ->
  solves N A b (solve N LU p b).
Proof.
  intros Hs Nz Z Sy P0 Pi Hp HL.
  assert (Ass : A s s <> 0).
  { intros E. apply Nz. intros k Hk. destruct (Nat.eq_dec k s) as [->|Ne]; [exact E|]. rewrite Sy by assumption. apply Z; assumption. }
  assert (HL' : forall i k, LU i k = set2 (set2 (fun i k => A (p1 i) k) 0 s 0) 0 0 (1 / A s s) i k).
  { intros i k. rewrite HL. cbv beta zeta. rewrite !P0. destruct (Req_EM_T (A s s) 0); [contradiction|]. reflexivity. }
  clear HL. rename HL' into HL.
  assert (L00 : LU O O = 1 / A s s) by (rewrite HL; reflexivity).
  assert (Cn : (nonNullRows N N LU <= 1)%nat).
  { rewrite (nonNullRows_le N N LU 1); [lia| |].
    - intros j Hj L. apply rowNull_false. intros E. replace j with O in * by lia. specialize (E O ltac:(lia)). rewrite L00 in E.
      apply Ass. unfold Rdiv in E. rewrite Rmult_1_l in E. exfalso. apply (Rinv_neq_0_compat _ Ass E).
    - intros j Hj G. apply rowNull_iff. intros k Hk. rewrite HL. unfold set2. destruct (Nat.eqb_spec j 0); [lia|]. cbn [andb].
      destruct (Pi j ltac:(lia)). apply Z; assumption. }
  unfold solve, svx. destruct (Nat.leb_spec (nonNullRows N N LU) 1); [|lia]. rewrite (Hp O), P0. split.
  - intros j Hj Nj. assert (j = s) by (destruct (Nat.eq_dec j s); [assumption|]; exfalso; apply Nj, Z; assumption). subst j.
    unfold apply. rewrite (sum_one N _ s Hs).
    + rewrite Nat.eqb_refl, L00. field. assumption.
    + intros i Hi Ne. destruct (Nat.eqb_spec i s); [contradiction|]. lra.
  - intros j Hj Zj. destruct (Nat.eqb_spec j s); [|reflexivity]. subst j. contradiction.
Qed.

Theorem C30_no_null_rows : forall N A LU p b,
  (0 < N)%nat -> (forall j, (j < N)%nat -> ~ nullRow N A j) -> regular N A ->
  decomp N A LU p -> solves N A b (solve N LU p b).
Proof.
  intros N A LU p b H0 Nz Rg [p2 D]. unfold decompWith in D.
  rewrite (pack_none N (rowNull N A)) in D by (intros; apply rowNull_false, Nz; assumption). cbn [fst snd] in D.
  destruct (Z.leb_spec (Z.of_nat N) 1) as [L|G].
  - assert (N = 1%nat) by lia. subst N. destruct D as [Hp HL].
    apply (single_solves 1 A LU p (fun k => k) b 0); [lia|apply Nz; lia|intros; lia|intros i j Hi Hj; replace i with O by lia; replace j with O by lia; reflexivity|reflexivity|intros; lia|exact Hp|exact HL].
  - destruct (Z.ltb_spec (Z.of_nat N) (Z.of_nat N)); [lia|]. destruct D as [[[Pb Pi] [HF _]] _].
    assert (Sj : forall j, (j < N)%nat -> exists i, (i < N)%nat /\ p i = j).
    { apply (bInjective_bSurjective (n := N) (f := p)); [exact Pb|]. intros x y Hx Hy. apply Pi; assumption. }
    assert (Dg : forall i, (i < N)%nat -> LU i i <> 0).
    { apply (diag_nonzero N LU (fun i k => A (p i) k) HF). intros v Hv. apply Rg.
      - intros j Hj Z. exfalso. exact (Nz j Hj Z).
      - intros j Hj. destruct (Sj j Hj) as [i [Hi <-]]. apply Hv. assumption. }
    assert (Cn : nonNullRows N N LU = N).
    { rewrite (nonNullRows_le N N LU N); [lia| |intros; lia]. intros j Hj _. apply rowNull_false. intros Z. apply (Dg j Hj), Z. assumption. }
    split; [|intros j Hj Z; exfalso; exact (Nz j Hj Z)].
    intros j Hj _. destruct (Sj j Hj) as [i [Hi <-]]. unfold solve, svx. rewrite Cn.
    destruct (Nat.leb_spec N 1); [lia|]. rewrite Nat.ltb_irrefl.
    rewrite <- (LU_solve_eq N LU (fun k => b (p k)) i Hi Dg). unfold apply. apply sumE. intros k Hk. rewrite HF by assumption. reflexivity.
Qed.
(** [[0,2],[1,0]]: the library must exchange the rows *)
Theorem C30_no_null_rows_case : exists A LU p, regular 2 A /\ (forall j, (j < 2)%nat -> ~ nullRow 2 A j) /\ decomp 2 A LU p.
Proof.
  set (A := fun i k : nat => match i, k with O, S O => 2 | S O, O => 1 | _, _ => 0 end).
  set (LU := fun i k : nat => match i, k with O, O => 1 | S O, S O => 2 | _, _ => 0 end).
  exists A, LU, (swapP (fun k => k) 0 1).
  assert (Nz : forall j, (j < 2)%nat -> ~ nullRow 2 A j).
  { intros [|[|j]] H Z; [pose proof (Z 1%nat ltac:(lia)) as E|pose proof (Z O ltac:(lia)) as E|lia]; cbn in E; lra. }
  split; [|split; [exact Nz|]].
  - intros v _ H [|[|j]] Hj; [pose proof (H 1%nat ltac:(lia)) as E|pose proof (H O ltac:(lia)) as E|lia]; unfold apply in E; cbn in E; lra.
  - exists (swapP (fun k => k) 0 1). unfold decompWith. rewrite (pack_none 2) by (intros; apply rowNull_false, Nz; assumption). cbn [fst snd].
    split; [|reflexivity]. split; [|split].
    + split; [intros [|[|i]] Hi; cbn; lia|]. intros [|[|i]] [|[|j]] Hi Hj; cbn; lia.
    + intros [|[|i]] [|[|k]] Hi Hk; try lia; cbn; lra.
    + intros [|[|i]] [|[|j]] Hj Hi; try lia. cbn. rewrite Rabs_R0. lra.
Qed.

(** ** Null rows that one exchange brings to the end: solved, provided the
    library exchanges no rows of the packed block. *)
(** rows below a carry equations, then come b null rows, and after them at
    most one more equation and at most one more null row *)
Definition packable (N : nat) (A : mat) : Prop :=
  exists a b, (1 <= b)%nat /\ (2 <= a)%nat /\ (forall j, (j < a)%nat -> ~ nullRow N A j) /\ (forall j, (a <= j < a + b)%nat -> nullRow N A j) /\
    (N = a + b /\ b = 1 \/
     N = a + b + 1 /\ ~ nullRow N A (a + b) \/
     N = a + b + 2 /\ ~ nullRow N A (a + b) /\ nullRow N A (a + b + 1))%nat.
Theorem C30_packed_partial : forall N A LU p p2 b,
  (Z.of_nat N < 2 ^ 64)%Z -> symmetric N A -> regular N A -> packable N A ->
  decompWith N A LU p p2 -> (forall i, (i < N)%nat -> p2 i = i) -> solves N A b (solve N LU p b).
Proof.
  intros N A LU p p2 b HN Sy Rg [a [g [Hg [Ha [Pa [Pz Cs]]]]]] D Id.
  assert (K : exists c n, pack N (rowNull N A) = (swapP (fun k => k) a c, Z.of_nat n) /\ packed N A a c n /\ (2 <= n < N)%nat \/
              exists n, pack N (rowNull N A) = (fun k => k, Z.of_nat n) /\ packed N A 0 0 n /\ (2 <= n < N)%nat).
  { destruct Cs as [[E1 E2]|Cs].
    - exists 0%nat, 0%nat. right. exists a. split; [|split; [|lia]].
      + rewrite pack_last; [f_equal; lia|lia|assumption|intros; apply rowNull_false, Pa; lia|apply rowNull_iff, Pz; lia].
      + split; [lia|]. split; [lia|]. split; intros i Hi; rewrite swapP_same; [apply Pa|apply Pz]; lia.
    - assert (X : exists c, (c <= 1)%nat /\ (N = a + g + 1 + c)%nat /\ ~ nullRow N A (a + g) /\ (forall k, (a + g < k < N)%nat -> nullRow N A k)).
      { destruct Cs as [[E1 E2]|[E1 [E2 E3]]]; [exists 0%nat|exists 1%nat]; (split; [lia|]; split; [lia|]; split; [assumption|]; intros k Hk).
        - exfalso. lia.
        - replace k with (a + g + 1)%nat by lia. assumption. }
      destruct X as [c [Hc [E [X W]]]]. exists (a + g)%nat, (a + 1)%nat. left. split; [|split; [|lia]].
      + rewrite (pack_gap N _ a g c); [f_equal; lia|assumption|lia|lia|lia| | | |].
        * intros; apply rowNull_false, Pa; lia.
        * intros; apply rowNull_iff, Pz; lia.
        * apply rowNull_false, X.
        * intros; apply rowNull_iff, W; lia.
      + split; [lia|]. split; [lia|]. split; intros i Hi; unfold swapP.
        * destruct (Nat.eqb_spec i a); [exact X|]. destruct (Nat.eqb_spec i (a + g)); [lia|]. apply Pa. lia.
        * destruct (Nat.eqb_spec i a); [lia|]. destruct (Nat.eqb_spec i (a + g)); [apply Pz; lia|].
          destruct (Nat.lt_ge_cases i (a + g)); [apply Pz; lia|apply W; lia]. }
  assert (Go : forall a' c n q, pack N (rowNull N A) = (q, Z.of_nat n) -> (forall k, q k = swapP (fun k => k) a' c k) ->
             packed N A a' c n -> (2 <= n < N)%nat -> solves N A b (solve N LU p b)).
  { intros a' c n q Ep Eq Pk Hn. unfold decompWith in D. rewrite Ep in D. cbn [fst snd] in D.
    destruct (Z.leb_spec (Z.of_nat n) 1); [lia|]. destruct (Z.ltb_spec (Z.of_nat n) (Z.of_nat N)); [|lia].
    rewrite Nat2Z.id in D. destruct D as [B [[_ [HB _]] [Hp HL]]].
    apply (packed_solves N A a' c n B LU p b Sy Rg Pk Hn).
    - intros i k Hi Hk. rewrite <- HB by assumption. rewrite (Id i) by lia. rewrite !Eq. reflexivity.
    - intros k. rewrite Hp, swapsTo_id by (intros; apply Id; lia). apply Eq.
    - intros i k. rewrite HL, !Eq. reflexivity. }
  destruct K as [c [n [[Ep [Pk Hn]]|[n' [Ep [Pk Hn]]]]]].
  - apply (Go a c n _ Ep); auto.
  - apply (Go 0%nat 0%nat n' _ Ep); auto. intros k. rewrite swapP_same. reflexivity.
Qed.
(** the same as a property of its own (C105) *)
Theorem C105_packed : forall N A LU p p2 b,
  (Z.of_nat N < 2 ^ 64)%Z -> symmetric N A -> regular N A -> packable N A ->
  decompWith N A LU p p2 -> (forall i, (i < N)%nat -> p2 i = i) -> solves N A b (solve N LU p b).
Proof. exact C30_packed_partial. Qed.

(** two equations in the first and last of three variables *)
Definition Aex (i k : nat) : R := match i, k with
  | O, O | S (S (S O)), S (S (S O)) | S O, S O => 2 | O, S (S (S O)) | S (S (S O)), O => 1 | _, _ => 0 end.
Theorem C30_packed_case : exists LU p p2, symmetric 4 Aex /\ regular 4 Aex /\ packable 4 Aex /\ decompWith 4 Aex LU p p2 /\ (forall i, (i < 4)%nat -> p2 i = i).
Proof.
  set (LU := fun i k : nat => match i, k with O, O => 2 | O, S (S O) => 1 | S O, S O => 2 | S (S O), O => 1 / 2 | S (S O), S (S O) => 3 / 2 | _, _ => 0 end).
  exists LU, (swapP (fun k => k) 2 3), (fun k => k).
  assert (N0 : ~ nullRow 4 Aex 0) by (intros Z; pose proof (Z 0%nat ltac:(lia)) as E; cbn in E; lra).
  assert (N1 : ~ nullRow 4 Aex 1) by (intros Z; pose proof (Z 1%nat ltac:(lia)) as E; cbn in E; lra).
  assert (N2 : nullRow 4 Aex 2) by (intros k _; reflexivity).
  assert (N3 : ~ nullRow 4 Aex 3) by (intros Z; pose proof (Z 3%nat ltac:(lia)) as E; cbn in E; lra).
  split; [|split; [|split; [|split]]].
  - intros [|[|[|[|i]]]] [|[|[|[|j]]]] Hi Hj; try lia; reflexivity.
  - intros v Z H. pose proof (H 0%nat ltac:(lia)) as E0. pose proof (H 1%nat ltac:(lia)) as E1. pose proof (H 3%nat ltac:(lia)) as E3.
    pose proof (Z 2%nat ltac:(lia) N2) as E2. unfold apply in E0, E1, E3. cbn in E0, E1, E3. intros [|[|[|[|i]]]] Hi; try lia; lra.
  - exists 2%nat, 1%nat. split; [lia|]. split; [lia|]. split; [intros [|[|j]] Hj; [assumption..|lia]|].
    split; [intros j Hj; replace j with 2%nat by lia; assumption|]. right; left. split; [reflexivity|assumption].
  - unfold decompWith. rewrite (pack_gap 4 _ 2 1 0); [|reflexivity|lia|lia|lia| | | |].
    + cbn [fst snd]. exists LU. change (Z.to_nat (Z.of_nat 2 + 1)) with 3%nat. cbn [Z.of_nat Z.leb Z.compare Z.ltb Nat.add]. split; [|split].
      * split; [split; auto|]. split.
        -- intros [|[|[|i]]] [|[|[|k]]] Hi Hk; try lia; cbn; lra.
        -- intros [|[|[|i]]] [|[|[|j]]] Hj Hi; try lia; cbn; rewrite ?Rabs_R0; try lra. rewrite Rabs_pos_eq; lra.
      * intros k. rewrite swapsTo_id by reflexivity. reflexivity.
      * intros [|[|[|[|i]]]] [|[|[|[|k]]]]; reflexivity.
    + intros [|[|k]] Hk; try lia; apply rowNull_false; assumption.
    + intros k Hk. replace k with 2%nat by lia. apply rowNull_iff. assumption.
    + apply rowNull_false. assumption.
    + intros k Hk. lia.
  - reflexivity.
Qed.

(** ** One equation only, with at most two null rows below it *)
Lemma tail2 N nl p fuel : (2 <= N)%nat -> (2 <= fuel)%nat -> nl (p (N - 2)%nat) = true -> nl (p (N - 1)%nat) = true ->
  packFrom fuel N nl (N - 2) p 3 = (p, 0%Z).
Proof.
  intros HN Hf E1 E2. destruct fuel as [|[|f]]; [lia|lia|]. cbn [packFrom].
  destruct (Nat.ltb_spec (N - 2) N); [|lia]. rewrite E1. replace (N - S (N - 2))%nat with 1%nat by lia. cbn [scan].
  replace (S (N - 2)) with (N - 1)%nat by lia. rewrite E2. cbn [scan]. destruct (Nat.ltb_spec (N - 1) N); [|lia].
  replace (N - S (N - 1))%nat with O by lia. cbn [scan]. rewrite packFrom_end by lia. reflexivity.
Qed.
Theorem C30_single_partial : forall N A LU p b s,
  (Z.of_nat N < 2 ^ 64)%Z -> symmetric N A -> (s < N)%nat -> (N <= s + 3)%nat ->
  ~ nullRow N A s -> (forall j, (j < N)%nat -> j <> s -> nullRow N A j) ->
  decomp N A LU p -> solves N A b (solve N LU p b).
Proof.
  intros N A LU p b s HN Sy Hs H3 Nz Z [p2 D].
  assert (Fs : rowNull N A s = false) by (apply rowNull_false; assumption).
  assert (Fz : forall j, (j < N)%nat -> j <> s -> rowNull N A j = true) by (intros; apply rowNull_iff; apply Z; assumption).
  assert (K : exists p1 n, pack N (rowNull N A) = (p1, n) /\ (n <= 1)%Z /\ (forall k, p1 k = swapP (fun k => k) 0 s k)).
  { destruct (Nat.eq_dec s 0) as [->|S0].
    - exists (fun k => k). destruct (Nat.eq_dec N 1) as [->|]; [|destruct (Nat.eq_dec N 2) as [->|]].
      + exists 1%Z. split; [|split; [lia|intros; rewrite swapP_same; reflexivity]]. rewrite pack_none; [reflexivity|]. intros k Hk. replace k with O by lia. assumption.
      + exists 1%Z. split; [|split; [lia|intros; rewrite swapP_same; reflexivity]]. rewrite pack_last; [reflexivity|lia|lia| |apply Fz; lia]. intros k Hk. replace k with O by lia. assumption.
      + assert (N = 3%nat) by lia. subst N. exists 0%Z. split; [|split; [lia|intros; rewrite swapP_same; reflexivity]].
        unfold pack. rewrite (packFrom_skip 3 _ _ _ 1 0 3); [|lia|lia|intros k Hk; replace k with O by lia; assumption].
        apply (tail2 3 (rowNull 3 A) (fun k => k) 2); [lia|lia|apply Fz; lia|apply Fz; lia].
    - exists (swapP (fun k => k) 0 s). destruct (Nat.eq_dec N (s + 3)) as [E|Ne].
      + exists 0%Z. split; [|split; [lia|reflexivity]]. unfold pack.
        destruct N as [|f]; [lia|]. cbn [packFrom]. cbn [Nat.ltb Nat.leb]. rewrite (Fz O) by lia. rewrite decr_eq by lia.
        rewrite (scan_found _ (fun k => k) (s - 1)); [|lia|lia|intros k Hk; apply Fz; lia|replace (1 + (s - 1))%nat with s by lia; assumption].
        replace (1 + (s - 1))%nat with s by lia.
        replace (Z.of_nat (S f) - 1 - Z.of_nat (s - 1))%Z with 3%Z by lia. replace (S s) with (S f - 2)%nat by lia.
        apply tail2; [lia|lia| |].
        * unfold swapP. destruct (Nat.eqb_spec (S f - 2) 0); [lia|]. destruct (Nat.eqb_spec (S f - 2) s); [lia|]. apply Fz; lia.
        * unfold swapP. destruct (Nat.eqb_spec (S f - 1) 0); [lia|]. destruct (Nat.eqb_spec (S f - 1) s); [lia|]. apply Fz; lia.
      + exists 1%Z. split; [|split; [lia|reflexivity]].
        rewrite (pack_gap N _ 0 s (N - s - 1)); [reflexivity|assumption|lia|lia|lia|intros; lia|intros; apply Fz; lia|assumption|intros; apply Fz; lia]. }
  destruct K as [p1 [n [Ep [Hn Hp1]]]]. unfold decompWith in D. rewrite Ep in D. cbn [fst snd] in D.
  destruct (Z.leb_spec n 1); [|lia]. destruct D as [Hp HL].
  apply (single_solves N A LU p p1 b s); try assumption.
  - rewrite Hp1. reflexivity.
  - intros i Hi. rewrite Hp1. unfold swapP. destruct (Nat.eqb_spec i 0); [lia|]. destruct (Nat.eqb_spec i s); lia.
Qed.
(** the middle one of four variables *)
Theorem C30_single_case : exists LU p, decomp 4 (fun i k => if (i =? 1)%nat && (k =? 1)%nat then 5 else 0) LU p /\ solve 4 LU p (fun _ => 10) 1%nat = 2.
Proof.
  set (A := fun i k : nat => if (i =? 1)%nat && (k =? 1)%nat then 5 else 0).
  set (LU := fun i k => if (i =? 0)%nat && (k =? 0)%nat then 1 / 5 else 0).
  assert (D : decomp 4 A LU (swapP (fun k => k) 0 1)).
  { exists (fun k => k). unfold decompWith.
    assert (F : forall j, j <> 1%nat -> rowNull 4 A j = true).
    { intros j Hj. apply rowNull_iff. intros k _. unfold A. destruct (Nat.eqb_spec j 1); [contradiction|reflexivity]. }
    assert (F1 : rowNull 4 A 1 = false) by (apply rowNull_false; intros Z; pose proof (Z 1%nat ltac:(lia)) as E; cbn in E; lra).
    rewrite (pack_ext 4 _ (fun j => negb (j =? 1)%nat)) by (intros k; destruct (Nat.eqb_spec k 1) as [->|Hk]; cbn [negb]; [exact F1|apply F; exact Hk]).
    replace (pack 4 (fun j => negb (j =? 1)%nat)) with (swapP (fun k : nat => k) 0 1, 0%Z) by reflexivity. cbn [fst snd].
    change (0 <=? 1)%Z with true. cbv beta iota zeta. split; [reflexivity|].
    change (A (swapP (fun z => z) 0 1 O) (swapP (fun z => z) 0 1 O)) with 5.
    destruct (Req_EM_T 5 0); [lra|]. intros [|[|i]] [|[|k]]; reflexivity. }
  exists LU, (swapP (fun k => k) 0 1). split; [exact D|].
  assert (Sv := C30_single_partial 4 A LU (swapP (fun k => k) 0 1) (fun _ => 10) 1 ltac:(lia)).
  destruct Sv as [Sv _]; try lia; try assumption.
  - intros [|[|i]] [|[|j]] _ _; reflexivity.
  - intros Z. pose proof (Z 1%nat ltac:(lia)) as E. cbn in E. lra.
  - intros j _ Hj k _. unfold A. destruct (Nat.eqb_spec j 1); [contradiction|reflexivity].
  - pose proof (Sv 1%nat ltac:(lia)) as E. unfold apply in E. set (x := solve _ _ _ _) in *. cbn in E.
    assert (5 * x 1%nat = 10); [|lra]. rewrite <- E; [lra|]. intros Z. pose proof (Z 1%nat ltac:(lia)) as E'. cbn in E'. lra.
Qed.

(** ** What goes wrong otherwise *)
(** Exchanging rows of the packed block: two equations x + 2y = 1, 2x + y = 0,
    and a third variable without an equation. Whatever factors of that block
    with multipliers of size at most 1 the library returns, the call returns a
    vector that does not solve the two equations. *)
Definition Apiv (i k : nat) : R := match i, k with O, O | S O, S O => 1 | O, S O | S O, O => 2 | _, _ => 0 end.
Lemma nz_entry N A j k : (k < N)%nat -> A j k <> 0 -> rowNull N A j = false.
Proof. intros H E. apply rowNull_false. intros Z. apply E, Z, H. Qed.
Theorem C30_refuted_row_exchange :
  symmetric 3 Apiv /\ regular 3 Apiv /\ packable 3 Apiv /\
  (exists LU p, decomp 3 Apiv LU p) /\
  forall LU p, decomp 3 Apiv LU p -> ~ solves 3 Apiv (fun k => if (k =? 0)%nat then 1 else 0) (solve 3 LU p (fun k => if (k =? 0)%nat then 1 else 0)).
Proof.
  assert (N0 : rowNull 3 Apiv 0 = false) by (apply (nz_entry _ _ _ 0); [lia|cbn; lra]).
  assert (N1 : rowNull 3 Apiv 1 = false) by (apply (nz_entry _ _ _ 0); [lia|cbn; lra]).
  assert (N2 : rowNull 3 Apiv 2 = true) by (apply rowNull_iff; intros k _; reflexivity).
  assert (P : pack 3 (rowNull 3 Apiv) = (fun k => k, 2%Z)).
  { rewrite pack_last; [reflexivity|lia|lia| |exact N2]. intros [|[|k]] Hk; [assumption|assumption|lia]. }
  split; [intros [|[|[|i]]] [|[|[|j]]] Hi Hj; try lia; reflexivity|].
  split.
  { intros v Z H. pose proof (H 0%nat ltac:(lia)) as E0. pose proof (H 1%nat ltac:(lia)) as E1.
    pose proof (Z 2%nat ltac:(lia) (proj1 (rowNull_iff _ _ _) N2)) as E2. unfold apply in E0, E1. cbn in E0, E1. intros [|[|[|i]]] Hi; try lia; lra. }
  split.
  { exists 2%nat, 1%nat. split; [lia|]. split; [lia|]. split; [intros [|[|j]] Hj; [apply rowNull_false; assumption..|lia]|].
    split; [intros j Hj; replace j with 2%nat by lia; apply rowNull_iff; assumption|]. left. split; reflexivity. }
  split.
  { exists (fun i k => match i, k with O, O => 2 | O, S O => 1 | S O, O => 1 / 2 | S O, S O => 3 / 2 | _, _ => 0 end), (fun k => k), (swapP (fun k => k) 0 1).
    unfold decompWith. rewrite P. cbn [fst snd]. change (2 <=? 1)%Z with false. change (2 <? Z.of_nat 3)%Z with true. change (Z.to_nat 2) with 2%nat. cbv iota.
    exists (fun i k => match i, k with O, O => 2 | O, S O => 1 | S O, O => 1 / 2 | S O, S O => 3 / 2 | _, _ => 0 end). split; [|split].
    - split; [split; [intros [|[|i]] Hi; cbn; lia|intros [|[|i]] [|[|j]] Hi Hj; cbn; lia]|]. split.
      + intros [|[|i]] [|[|k]] Hi Hk; try lia; cbn; lra.
      + intros [|[|i]] [|[|j]] Hj Hi; try lia. rewrite Rabs_pos_eq; lra.
    - intros [|[|k]]; reflexivity.
    - intros [|[|[|i]]] [|[|[|k]]]; reflexivity. }
  intros LU p [p2 D]. unfold decompWith in D. rewrite P in D. cbn [fst snd] in D.
  change (2 <=? 1)%Z with false in D. change (2 <? Z.of_nat 3)%Z with true in D. change (Z.to_nat 2) with 2%nat in D. cbv iota in D.
  destruct D as [B [[[Pb Pi] [HF HM]] [Hp HL]]].
  (* the multiplier forces the exchange *)
  pose proof (HF 0%nat 0%nat ltac:(lia) ltac:(lia)) as F00. pose proof (HF 0%nat 1%nat ltac:(lia) ltac:(lia)) as F01.
  pose proof (HF 1%nat 0%nat ltac:(lia) ltac:(lia)) as F10. pose proof (HF 1%nat 1%nat ltac:(lia) ltac:(lia)) as F11.
  pose proof (HM 1%nat 0%nat ltac:(lia) ltac:(lia)) as M.
  unfold lowerOf, upperOf in F00, F01, F10, F11. cbn [sum Nat.ltb Nat.leb Nat.eqb] in F00, F01, F10, F11.
  pose proof (Pb 0%nat ltac:(lia)) as B0. pose proof (Pb 1%nat ltac:(lia)) as B1.
  assert (E2 : p2 0%nat = 1%nat /\ p2 1%nat = 0%nat).
  { assert (p2 0%nat <> p2 1%nat) by (intros E; pose proof (Pi 0%nat 1%nat ltac:(lia) ltac:(lia) E); lia).
    destruct (p2 0%nat) as [|[|q]]; [|lia|lia]. destruct (p2 1%nat) as [|[|q]]; [lia| |lia]. exfalso.
    cbn [Apiv] in F00, F10. assert (B 0%nat 0%nat = 1) by lra.
    assert (B 1%nat 0%nat = 2) by (match goal with H : B 0%nat 0%nat = 1 |- _ => rewrite H in F10 end; lra).
    match goal with H : B 1%nat 0%nat = 2 |- _ => rewrite H in M end. rewrite Rabs_pos_eq in M; lra. }
  destruct E2 as [Ea Eb]. rewrite Ea in F00, F01. rewrite Eb in F10, F11. cbn [Apiv] in F00, F01, F10, F11.
  assert (V00 : B 0%nat 0%nat = 2) by lra. assert (V01 : B 0%nat 1%nat = 1) by lra. rewrite V00 in F10. rewrite V01 in F11.
  assert (V10 : B 1%nat 0%nat = 1 / 2) by lra. rewrite V10 in F11. assert (V11 : B 1%nat 1%nat = 3 / 2) by lra.
  assert (Q : p 0%nat = 0%nat /\ p 1%nat = 1%nat /\ p 2%nat = 2%nat).
  { rewrite !Hp. cbn [swapsTo]. unfold swapP. rewrite Ea, Eb. cbn [Nat.eqb]. repeat split. }
  destruct Q as [Q0 [Q1 Q2]].
  assert (L00 : LU 0%nat 0%nat = 2) by (rewrite HL; exact V00). assert (L01 : LU 0%nat 1%nat = 1) by (rewrite HL; exact V01).
  assert (L10 : LU 1%nat 0%nat = 1 / 2) by (rewrite HL; exact V10). assert (L11 : LU 1%nat 1%nat = 3 / 2) by (rewrite HL; exact V11).
  assert (C : nonNullRows 3 3 LU = 2%nat).
  { cbn [nonNullRows]. rewrite (nz_entry 3 LU 0 0) by (lia || (rewrite L00; lra)). rewrite (nz_entry 3 LU 1 1) by (lia || (rewrite L11; lra)).
    replace (rowNull 3 LU 2) with true; [reflexivity|]. symmetry. apply rowNull_iff. intros k Hk. rewrite HL. reflexivity. }
  intros [Sv _]. specialize (Sv 0%nat ltac:(lia) (proj1 (rowNull_false _ _ _) N0)). revert Sv.
  unfold solve, svx. rewrite C. change (2 <=? 1)%nat with false. change (2 <? 3)%nat with true. cbv iota zeta.
  unfold apply, permuteInverse. cbn [sum placeOf Apiv]. rewrite Q0, Q1, Q2. cbn [Nat.eqb Nat.ltb Nat.leb].
  cbn [upperSolve lowerSolve Nat.eqb sum Nat.sub Nat.add]. rewrite L00, L01, L10, L11, Q0, Q1. cbn [Nat.eqb]. lra.
Qed.

(** A null row above two equations: 2y + z = 0, y + 2z = 1 with the first
    variable absent. The packing moves only one of the equations up. *)
Definition Alead (i k : nat) : R := match i, k with S O, S O | S (S O), S (S O) => 2 | S O, S (S O) | S (S O), S O => 1 | _, _ => 0 end.
Theorem C30_refuted_null_row_first :
  symmetric 3 Alead /\ regular 3 Alead /\ (exists LU p, decomp 3 Alead LU p) /\
  forall LU p, decomp 3 Alead LU p -> ~ solves 3 Alead (fun k => if (k =? 2)%nat then 1 else 0) (solve 3 LU p (fun k => if (k =? 2)%nat then 1 else 0)).
Proof.
  assert (N0 : rowNull 3 Alead 0 = true) by (apply rowNull_iff; intros k _; reflexivity).
  assert (N1 : rowNull 3 Alead 1 = false) by (apply (nz_entry _ _ _ 1); [lia|cbn; lra]).
  assert (N2 : rowNull 3 Alead 2 = false) by (apply (nz_entry _ _ _ 1); [lia|cbn; lra]).
  assert (N3 : forall k, rowNull 3 Alead (3 + k) = true) by (intros; apply rowNull_iff; intros j _; reflexivity).
  assert (P : pack 3 (rowNull 3 Alead) = (swapP (fun k => k) 0 1, 2%Z)).
  { rewrite (pack_ext 3 _ (fun j => negb ((j =? 1) || (j =? 2))%nat)) by (intros [|[|[|k]]]; cbn; first [assumption|apply N3]). reflexivity. }
  split; [intros [|[|[|i]]] [|[|[|j]]] Hi Hj; try lia; reflexivity|].
  split.
  { intros v Z H. pose proof (H 2%nat ltac:(lia)) as E0. pose proof (H 1%nat ltac:(lia)) as E1.
    pose proof (Z 0%nat ltac:(lia) (proj1 (rowNull_iff _ _ _) N0)) as E2. unfold apply in E0, E1. cbn in E0, E1. intros [|[|[|i]]] Hi; try lia; lra. }
  set (B0 := fun i k : nat => match i, k with O, O => 2 | _, _ => 0 end).
  split.
  { exists (fun i k => match i, k with O, O => 2 | O, S (S O) => 1 | S (S O), O => 1 | S (S O), S (S O) => 2 | _, _ => 0 end), (swapP (fun k => k) 0 1), (fun k => k).
    unfold decompWith. rewrite P. cbn [fst snd]. change (2 <=? 1)%Z with false. change (2 <? Z.of_nat 3)%Z with true. change (Z.to_nat 2) with 2%nat. cbv iota.
    exists B0. split; [|split].
    - split; [split; auto|]. split.
      + intros [|[|i]] [|[|k]] Hi Hk; try lia; cbn; lra.
      + intros [|[|i]] [|[|j]] Hj Hi; try lia. cbn. rewrite Rabs_R0; lra.
    - intros [|[|k]]; reflexivity.
    - intros [|[|[|i]]] [|[|[|k]]]; reflexivity. }
  intros LU p [p2 D]. unfold decompWith in D. rewrite P in D. cbn [fst snd] in D.
  change (2 <=? 1)%Z with false in D. change (2 <? Z.of_nat 3)%Z with true in D. change (Z.to_nat 2) with 2%nat in D. cbv iota in D.
  destruct D as [B [[[Pb Pi] [HF HM]] [Hp HL]]].
  (* whichever order the library chose, the variable of the last equation is not solved for *)
  assert (Q2 : p 2%nat = 2%nat /\ (p 0%nat < 2)%nat /\ (p 1%nat < 2)%nat).
  { pose proof (Pb 0%nat ltac:(lia)). pose proof (Pb 1%nat ltac:(lia)). rewrite !Hp. cbn [swapsTo]. unfold swapP.
    destruct (p2 0%nat) as [|[|q]]; [| |lia]; (destruct (p2 1%nat) as [|[|q']]; [| |lia]); cbn; lia. }
  destruct Q2 as [Q2 [Q0 Q1]].
  assert (C : (nonNullRows 3 3 LU <= 2)%nat).
  { cbn [nonNullRows].
    assert (R1 : rowNull 3 LU 1 = true).
    { apply rowNull_iff. intros k Hk. rewrite HL. destruct k as [|[|[|k]]]; [| |reflexivity|lia]; cbn [Nat.ltb Nat.leb andb].
      - pose proof (HF 0%nat 0%nat ltac:(lia) ltac:(lia)) as F00. pose proof (HF 1%nat 0%nat ltac:(lia) ltac:(lia)) as F10.
        pose proof (HM 1%nat 0%nat ltac:(lia) ltac:(lia)) as M.
        unfold lowerOf, upperOf in F00, F10. cbn [sum Nat.ltb Nat.leb Nat.eqb] in F00, F10.
        pose proof (Pb 0%nat ltac:(lia)) as Hb0. pose proof (Pb 1%nat ltac:(lia)) as Hb1.
        assert (p2 0%nat <> p2 1%nat) by (intros E; pose proof (Pi 0%nat 1%nat ltac:(lia) ltac:(lia) E); lia).
        destruct (p2 0%nat) as [|[|q]]; [| |lia]; (destruct (p2 1%nat) as [|[|q']]; [| |lia]); try lia; cbn in F00, F10.
        + assert (B 0%nat 0%nat = 2) by lra. match goal with H : B 0%nat 0%nat = 2 |- _ => rewrite H in F10 end. lra.
        + assert (B 0%nat 0%nat = 0) by lra. match goal with H : B 0%nat 0%nat = 0 |- _ => rewrite H in F10 end. lra.
      - pose proof (HF 0%nat 1%nat ltac:(lia) ltac:(lia)) as F01. pose proof (HF 1%nat 1%nat ltac:(lia) ltac:(lia)) as F11.
        unfold lowerOf, upperOf in F01, F11. cbn [sum Nat.ltb Nat.leb Nat.eqb] in F01, F11.
        pose proof (Pb 0%nat ltac:(lia)) as Hb0. pose proof (Pb 1%nat ltac:(lia)) as Hb1.
        destruct (p2 0%nat) as [|[|q]]; [| |lia]; (destruct (p2 1%nat) as [|[|q']]; [| |lia]); cbn in F01, F11;
          (assert (V : B 0%nat 1%nat = 0) by lra; rewrite V in F11; lra). }
    rewrite R1. destruct (rowNull 3 LU 0), (rowNull 3 LU 2); cbn; lia. }
  intros [Sv _].
  assert (X2 : solve 3 LU p (fun k => if (k =? 2)%nat then 1 else 0) 2%nat = 0).
  { unfold solve, svx. destruct (Nat.leb_spec (nonNullRows 3 3 LU) 1).
    - destruct (Nat.eqb_spec 2 (p 0%nat)); [lia|reflexivity].
    - replace (nonNullRows 3 3 LU) with 2%nat by lia. change (2 <? 3)%nat with true. cbv iota zeta. unfold permuteInverse. cbn [placeOf]. rewrite Q2. reflexivity. }
  pose proof (Sv 1%nat ltac:(lia) (proj1 (rowNull_false _ _ _) N1)) as E1. pose proof (Sv 2%nat ltac:(lia) (proj1 (rowNull_false _ _ _) N2)) as E2.
  unfold apply in E1, E2. cbn [sum Alead Nat.eqb] in E1, E2. rewrite X2 in E1, E2. lra.
Qed.

(** Two null rows below two equations 2x + y = 1, x + 2y = 0: the null rows are
    counted more than once, so the two equations are taken for one. *)
Definition Atrail (i k : nat) : R := match i, k with O, O | S O, S O => 2 | O, S O | S O, O => 1 | _, _ => 0 end.
Theorem C30_refuted_two_null_rows_last :
  symmetric 4 Atrail /\ regular 4 Atrail /\ (exists LU p, decomp 4 Atrail LU p) /\
  forall LU p, decomp 4 Atrail LU p -> ~ solves 4 Atrail (fun k => if (k =? 0)%nat then 1 else 0) (solve 4 LU p (fun k => if (k =? 0)%nat then 1 else 0)).
Proof.
  assert (N0 : rowNull 4 Atrail 0 = false) by (apply (nz_entry _ _ _ 1); [lia|cbn; lra]).
  assert (N1 : rowNull 4 Atrail 1 = false) by (apply (nz_entry _ _ _ 1); [lia|cbn; lra]).
  assert (N2 : forall k, rowNull 4 Atrail (2 + k) = true) by (intros; apply rowNull_iff; intros j _; reflexivity).
  assert (P : pack 4 (rowNull 4 Atrail) = (fun k => k, 1%Z)).
  { rewrite (pack_ext 4 _ (fun j => negb ((j =? 0) || (j =? 1))%nat)) by (intros [|[|k]]; cbn [negb orb Nat.eqb]; first [assumption|apply N2]). reflexivity. }
  split; [intros [|[|[|i]]] [|[|[|j]]] Hi Hj; try lia; reflexivity|].
  split.
  { intros v Z H. pose proof (H 0%nat ltac:(lia)) as E0. pose proof (H 1%nat ltac:(lia)) as E1.
    pose proof (Z 2%nat ltac:(lia) (proj1 (rowNull_iff _ _ _) (N2 0%nat))) as E2. pose proof (Z 3%nat ltac:(lia) (proj1 (rowNull_iff _ _ _) (N2 1%nat))) as E3.
    unfold apply in E0, E1. cbn in E0, E1. intros [|[|[|[|i]]]] Hi; try lia; lra. }
  split.
  { exists (set2 (set2 Atrail 0 0 0) 0 0 (1 / 2)), (fun k => k), (fun k => k). unfold decompWith. rewrite P. cbn [fst snd]. change (1 <=? 1)%Z with true. cbv iota zeta beta.
    split; [reflexivity|]. change (Atrail 0 0) with 2. destruct (Req_EM_T 2 0); [lra|]. reflexivity. }
  intros LU p [p2 D]. unfold decompWith in D. rewrite P in D. cbn [fst snd] in D. change (1 <=? 1)%Z with true in D. cbv iota zeta beta in D.
  destruct D as [Hp HL]. change (Atrail 0 0) with 2 in HL. destruct (Req_EM_T 2 0); [lra|].
  assert (L00 : LU 0%nat 0%nat = 1 / 2) by (rewrite HL; reflexivity). assert (L01 : LU 0%nat 1%nat = 1) by (rewrite HL; reflexivity).
  assert (L10 : LU 1%nat 0%nat = 1) by (rewrite HL; reflexivity). assert (L11 : LU 1%nat 1%nat = 2) by (rewrite HL; reflexivity).
  assert (C : nonNullRows 4 4 LU = 2%nat).
  { cbn [nonNullRows]. rewrite (nz_entry 4 LU 0 0) by (lia || (rewrite L00; lra)). rewrite (nz_entry 4 LU 1 1) by (lia || (rewrite L11; lra)).
    replace (rowNull 4 LU 2) with true; [replace (rowNull 4 LU 3) with true; [reflexivity|]|]; symmetry; apply rowNull_iff; intros k Hk; rewrite HL; reflexivity. }
  intros [Sv _]. specialize (Sv 0%nat ltac:(lia) (proj1 (rowNull_false _ _ _) N0)). revert Sv.
  unfold solve, svx. rewrite C. change (2 <=? 1)%nat with false. change (2 <? 4)%nat with true. cbv iota zeta.
  unfold apply, permuteInverse. cbn [sum placeOf Atrail]. rewrite !Hp. cbn [Nat.eqb Nat.ltb Nat.leb].
  cbn [upperSolve lowerSolve Nat.eqb sum Nat.sub Nat.add]. rewrite L00, L01, L10, L11, !Hp. cbn [Nat.eqb]. lra.
Qed.
