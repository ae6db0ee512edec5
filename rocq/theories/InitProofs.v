From Coq Require Import Reals Lia Lra Bool Arith Ascii String List ZArith QArith Qcanon Qreals.
From Verif Require Import Str Num Tables ElemTable FormulaModel FormulaProofs FormulaProps MassModel MassSpec MassProofs InitModel InitCert.
Import List ListNotations.
Local Open Scope R_scope.

(** ** Rationals to reals *)
Lemma QR_plus a b : QR (a + b)%Qc = QR a + QR b.
Proof. unfold QR. cbn [this Qcplus Q2Qc]. rewrite (Qeq_eqR _ _ (Qred_correct _)). apply Q2R_plus. Qed.
Lemma QR_mult a b : QR (a * b)%Qc = QR a * QR b.
Proof. unfold QR. cbn [this Qcmult Q2Qc]. rewrite (Qeq_eqR _ _ (Qred_correct _)). apply Q2R_mult. Qed.
Lemma QR_0 : QR (Q2Qc 0) = 0.
Proof. unfold QR. cbn. unfold Q2R. cbn. lra. Qed.
Lemma QR_1 : QR (Q2Qc 1) = 1.
Proof. unfold QR. cbn. unfold Q2R. cbn. lra. Qed.

Definition isz (q : Qc) : bool := Z.eqb (Qnum (this q)) 0.
Lemma isz_ok q : isz q = true -> q = Q2Qc 0.
Proof.
  unfold isz. intros H. apply Z.eqb_eq in H. apply Qc_is_canon. destruct q as [[n d] C]. cbn in *. subst. reflexivity.
Qed.
(** sum of products, skipping zero factors *)
Fixpoint sumz (n : nat) (f g : nat -> Qc) : Qc :=
  match n with
  | O => Q2Qc 0
  | S m => let x := f m in if isz x then sumz m f g else let y := g m in if isz y then sumz m f g else (sumz m f g + x * y)%Qc
  end.
Lemma sumz_QR n f g : QR (sumz n f g) = sum n (fun k => QR (f k) * QR (g k)).
Proof.
  induction n; [apply QR_0|]. cbn [sumz sum]. destruct (isz (f n)) eqn:E.
  - rewrite IHn, (isz_ok _ E), QR_0. ring.
  - destruct (isz (g n)) eqn:E'.
    + rewrite IHn, (isz_ok _ E'), QR_0. ring.
    + now rewrite QR_plus, QR_mult, IHn.
Qed.
Definition eqq (a b : Qc) : bool := Qeq_bool (this a) (this b).
Lemma eqq_ok a b : eqq a b = true -> a = b.
Proof. intros H. apply Qc_is_canon. now apply Qeq_bool_eq. Qed.
Definition all (n : nat) (p : nat -> bool) : bool := forallb p (seq 0 n).
Lemma all_ok n p : all n p = true -> forall i, (i < n)%nat -> p i = true.
Proof. unfold all. rewrite forallb_forall. intros H i Hi. apply H. apply in_seq. lia. Qed.

(** certificate rows to a matrix *)
Definition certM (n : nat) (c : list (nat * list Q)) : list (list Qc) :=
  map (fun k => match find (fun e => Nat.eqb (fst e) k) c with
                | Some e => map Q2Qc (snd e)
                | None => repeat (Q2Qc 0) n end) (seq 0 NE).

Definition coef (n : nat) (P : list (list Qc)) (b : list Qc) : list Qc :=
  map (fun i => sumz NE (getV b) (fun k => getM P k i)) (seq 0 n).
Definition big (q : Qc) : bool := isz q || Qle_bool (1 # 1000) (this q) || Qle_bool (this q) (- (1 # 1000)).
(** b is a combination of the rows of A, with entries that are not tiny *)
Definition inSpan (n : nat) (A P : list (list Qc)) (b : list Qc) : bool :=
  let c := coef n P b in
  all NE (fun k => eqq (sumz n (getV c) (fun i => getM A i k)) (getV b k)) && forallb big c.
Definition rightInverse (n : nat) (A P : list (list Qc)) : bool :=
  all n (fun i => all n (fun j => eqq (sumz NE (getM A i) (fun k => getM P k j)) (if Nat.eqb i j then Q2Qc 1 else Q2Qc 0))).

(** ** Least squares with independent rows *)
Section LS.
Variables (n : nat) (A P : nat -> nat -> R).
Hypothesis RI : forall i j, (i < n)%nat -> (j < n)%nat -> sum NE (fun k => A i k * P k j) = if Nat.eqb i j then 1 else 0.

Lemma sum_sq m f : sum m (fun k => f k * f k) = 0 -> forall k, (k < m)%nat -> f k = 0.
Proof.
  assert (P0 : forall m, 0 <= sum m (fun k => f k * f k)).
  { induction m0; cbn; [lra|]. pose proof (Rle_0_sqr (f m0)) as Q. unfold Rsqr in Q. lra. }
  induction m; intros H k Hk; [lia|]. cbn in H. pose proof (P0 m). pose proof (Rle_0_sqr (f m)) as Q. unfold Rsqr in Q.
  destruct (Nat.eq_dec k m) as [->|].
  - apply Rsqr_0_uniq. unfold Rsqr. lra.
  - apply IHm; [lra|lia].
Qed.

Lemma independent d : (forall k, (k < NE)%nat -> sum n (fun i => d i * A i k) = 0) -> forall j, (j < n)%nat -> d j = 0.
Proof.
  intros H j Hj.
  transitivity (sum n (fun i => d i * (if Nat.eqb i j then 1 else 0))).
  { rewrite (sum_ext _ _ (fun i => if Nat.eqb i j then d i else 0)) by (intros; destruct (Nat.eqb i j); ring).
    rewrite sum_one_f. destruct (Nat.ltb_spec j n); [reflexivity|lia]. }
  rewrite (sum_ext _ _ (fun i => sum NE (fun k => d i * A i k * P k j))).
  2:{ intros i Hi. rewrite <- RI by auto. rewrite <- sum_scal. apply sum_ext. intros; ring. }
  rewrite sum_swap. apply sum_0. intros k Hk.
  rewrite sum_scal_r, H by auto. ring.
Qed.

Lemma normal_unique b y x : (forall k, (k < NE)%nat -> b k = sum n (fun i => y i * A i k)) ->
  normalSolution n A b x -> forall i, (i < n)%nat -> x i = y i.
Proof.
  intros B N.
  set (d := fun i => x i - y i).
  assert (Z : forall i, (i < n)%nat -> sum NE (fun k => A i k * sum n (fun j => d j * A j k)) = 0).
  { intros i Hi. pose proof (N i Hi) as E.
    rewrite (sum_ext NE (fun k => A i k * sum n (fun j => d j * A j k)) (fun k => A i k * sum n (fun j => x j * A j k) + - (A i k * b k))).
    2:{ intros k Hk. rewrite B by auto. unfold d.
        rewrite (sum_ext n (fun j => (x j - y j) * A j k) (fun j => x j * A j k + - (y j * A j k))) by (intros; ring).
        rewrite sum_plus, sum_opp. ring. }
    rewrite sum_plus, sum_opp, <- E.
    rewrite (sum_ext NE _ (fun k => sum n (fun j => A i k * A j k * x j))).
    2:{ intros k Hk. rewrite <- sum_scal. apply sum_ext. intros; ring. }
    rewrite sum_swap. rewrite (sum_ext n _ (fun j => sum NE (fun k => A i k * A j k) * x j)); [ring|].
    intros j Hj. rewrite <- sum_scal_r. reflexivity. }
  assert (S0 : sum NE (fun k => sum n (fun j => d j * A j k) * sum n (fun j => d j * A j k)) = 0).
  { rewrite (sum_ext NE _ (fun k => sum n (fun i => d i * (A i k * sum n (fun j => d j * A j k))))).
    2:{ intros k Hk. rewrite <- sum_scal_r. apply sum_ext. intros; ring. }
    rewrite sum_swap. apply sum_0. intros i Hi. rewrite sum_scal, Z by auto. ring. }
  intros i Hi. pose proof (independent d (sum_sq NE (fun k => sum n (fun j => d j * A j k)) S0) i Hi) as E. unfold d in E. lra.
Qed.
Lemma normal_exists b y : (forall k, (k < NE)%nat -> b k = sum n (fun i => y i * A i k)) -> normalSolution n A b y.
Proof.
  intros B i Hi.
  rewrite (sum_ext NE (fun k => A i k * b k) (fun k => sum n (fun j => A i k * A j k * y j))).
  2:{ intros k Hk. rewrite B by auto. rewrite <- sum_scal. apply sum_ext. intros; ring. }
  rewrite sum_swap. apply sum_ext. intros j Hj. rewrite <- sum_scal_r. reflexivity.
Qed.
End LS.

Lemma getV_map_seq n g k : (k < n)%nat -> getV (map g (seq 0 n)) k = g k.
Proof.
  intros H. unfold getV. rewrite (nth_indep _ (Q2Qc 0) (g O)) by (rewrite map_length, seq_length; auto).
  rewrite map_nth, seq_nth by auto. reflexivity.
Qed.

Lemma rightInverse_ok n A P : rightInverse n A P = true -> forall i j, (i < n)%nat -> (j < n)%nat ->
  sum NE (fun k => QR (getM A i k) * QR (getM P k j)) = if Nat.eqb i j then 1 else 0.
Proof.
  intros H i j Hi Hj. rewrite <- sumz_QR. unfold rightInverse in H.
  pose proof (all_ok _ _ (all_ok _ _ H i Hi) j Hj) as E. cbv beta in E. apply eqq_ok in E. rewrite E.
  destruct (Nat.eqb i j); [apply QR_1|apply QR_0].
Qed.

Lemma sqrt_small : sqrt DBL_EPSILON < / 1000.
Proof.
  apply Rsqr_incrst_0; [|apply sqrt_pos|lra]. rewrite Rsqr_sqrt.
  - unfold DBL_EPSILON, Rsqr.
    rewrite <- Rinv_mult. apply Rinv_lt_contravar.
    + apply Rmult_lt_0_compat; [lra|]. apply pow_lt. lra.
    + simpl. lra.
  - unfold DBL_EPSILON. apply Rlt_le, Rinv_0_lt_compat, pow_lt. lra.
Qed.
Lemma big_clean q : big q = true -> clean (QR q) = QR q.
Proof.
  intros H. unfold clean. destruct (Rlt_dec (Rabs (QR q)) (sqrt DBL_EPSILON)) as [L|]; [|reflexivity].
  pose proof sqrt_small as S. unfold big in H. apply orb_prop in H. destruct H as [H|H]; [apply orb_prop in H; destruct H as [H|H]|].
  - now rewrite (isz_ok _ H), QR_0.
  - exfalso. apply Qle_bool_imp_le, Qle_Rle in H. unfold Q2R at 1 in H. cbn in H. unfold QR in L.
    pose proof (Rle_abs (Q2R (this q))). lra.
  - exfalso. apply Qle_bool_imp_le, Qle_Rle in H. rewrite Q2R_opp in H. unfold Q2R at 2 in H. cbn in H. unfold QR in L.
    pose proof (Rle_abs (- Q2R (this q))) as Q. rewrite Rabs_Ropp in Q. lra.
Qed.

(** what a solved table entry is: exactly the certificate's combination *)
Section Entry.
Variables (n : nat) (A P : list (list Qc)) (b : list Qc).
Hypothesis RI : rightInverse n A P = true.
Hypothesis IS : inSpan n A P b = true.
Definition cf (i : nat) : R := QR (getV (coef n P b) i).
Lemma cf_comb k : (k < NE)%nat -> QR (getV b k) = sum n (fun i => cf i * QR (getM A i k)).
Proof.
  intros Hk. unfold inSpan in IS. apply andb_prop in IS. destruct IS as [I _].
  pose proof (all_ok _ _ I k Hk) as E. cbv beta in E. apply eqq_ok in E. rewrite <- E. apply sumz_QR.
Qed.
Lemma cf_big i : (i < n)%nat -> clean (cf i) = cf i.
Proof.
  intros Hi. apply big_clean. unfold inSpan in IS. apply andb_prop in IS. destruct IS as [_ B].
  rewrite forallb_forall in B. apply B. unfold getV. apply nth_In. unfold coef. rewrite map_length, seq_length. auto.
Qed.
Lemma solved_unique e : solved n (fun i k => QR (getM A i k)) (fun k => QR (getV b k)) e -> forall i, (i < n)%nat -> e i = cf i.
Proof.
  intros (x & N & E) i Hi. rewrite E by auto.
  rewrite (normal_unique n _ _ (rightInverse_ok n A P RI) _ cf x cf_comb N i Hi). now apply cf_big.
Qed.
Lemma solved_exists : solved n (fun i k => QR (getM A i k)) (fun k => QR (getV b k)) cf.
Proof.
  exists cf. split; [apply (normal_exists n _ _ cf cf_comb)|]. intros i Hi. symmetry. now apply cf_big.
Qed.
End Entry.

(** ** The shipped tables *)
Definition nOx : nat := 19.
Definition okFormula (f : string) : bool :=
  match formulaToMwStoich real_elems atofQ (lit f) zero_st with
  | Done _ _ => true | Fail _ => (match f with EmptyString => true | _ => false end) | _ => false end.
Definition checkMode (certO certL : list (nat * list Q)) (m : Mode) : bool :=
  let O := Om in let L := Lm m in let S := Sm m in
  let P := certM nOx certO in let Q := certM nOx certL in
  Nat.eqb (length tbl_bulk) nOx && Nat.eqb (length (mLiq m)) nOx &&
  rightInverse nOx O P && rightInverse nOx L Q &&
  forallb (inSpan nOx O P) L && forallb (inSpan nOx O P) S &&
  forallb (inSpan nOx L Q) O && forallb (inSpan nOx L Q) S &&
  forallb okFormula tbl_bulk && forallb (fun e => okFormula (snd e)) (mSol m).
Definition certFor (k : nat) : list (nat * list Q) := match k with 3%nat => cert_pMelts | _ => cert_melts end.

Lemma checked : forall m, In m modes -> exists c, checkMode cert_bulk c m = true.
Proof.
  intros m H. cbn [modes In] in H.
  destruct H as [<-|[<-|[<-|[<-|[]]]]];
  [exists cert_melts|exists cert_melts|exists cert_melts|exists cert_pMelts]; vm_compute; reflexivity.
Qed.
