(** The ferric-ferrous equilibrium of a liquid: matter is conserved, the oxygen fugacity asked for is the one found
    afterwards, and the oxygen potential is consistent with it and with its nine derivatives. *)
From Coq Require Import Reals Arith Lia Lra Bool.
From Verif Require Import MassModel MassProofs RedoxModel RealTac.
Local Open Scope R_scope.

Lemma ka_pos : 0 < ka. Proof. unfold ka; lra. Qed.
Lemma ln10_pos : 0 < ln 10. Proof. rewrite <- ln_1. apply ln_increasing; lra. Qed.
Lemma loop_sub n (f : nat -> R) x : loop n (fun i v => v - f i) x = x - sum n f.
Proof. induction n; cbn; [ring|rewrite IHn; ring]. Qed.
Lemma loop_addR n (f : nat -> R) x : loop n (fun i v => v + f i) x = x + sum n f.
Proof. induction n; cbn; [ring|rewrite IHn; ring]. Qed.

Section Props.
Variable tab : Tab.
Variable coeff : nat -> R.
Variables iF2 iF3 : nat.
Variable capped : bool.
Notation n := (nc tab).
Hypothesis Dif : iF2 <> iF3.
Hypothesis L2 : (iF2 < n)%nat.
Hypothesis L3 : (iF3 < n)%nat.
Notation toRedox := (toRedox tab coeff iF2 iF3 capped).
Notation fO2of := (fO2of tab coeff iF2 iF3 capped).
Notation tpTerm := (tpTerm capped).

(** moles of FeO plus those of FeO1.5: all the iron *)
Definition iron (o : nat -> R) : R := o iF2 + 2 * o iF3.
(** moles of oxides with all iron as FeO *)
Definition reduced (o : nat -> R) : nat -> R := fun i => if Nat.eqb i iF3 then 0 else if Nat.eqb i iF2 then iron o else o i.
Definition allFeO (o : nat -> R) : R := sum n (reduced o).
(** the sum of coefficients times mole fractions, iron as FeO *)
Definition comp (o : nat -> R) : R := sum n (fun i => coeff i * reduced o i) / allFeO o.

Lemma sum_reduced (c : nat -> R) o : sum n (fun i => c i * reduced o i) = sum n (fun i => c i * o i) + (2 * c iF2 - c iF3) * o iF3.
Proof.
  rewrite (sum_ext n (fun i => c i * reduced o i)
            (fun i => c i * o i + ((if Nat.eqb i iF2 then c i * (2 * o iF3) else 0) + (if Nat.eqb i iF3 then c i * (- o iF3) else 0)))).
  - rewrite !sum_plus. rewrite (sum_one_f n iF2 (fun i => c i * (2 * o iF3))), (sum_one_f n iF3 (fun i => c i * (- o iF3))).
    apply Nat.ltb_lt in L2, L3. rewrite L2, L3. ring.
  - intros i Hi. unfold reduced, iron. destruct (Nat.eqb_spec i iF3) as [->|E3].
    + replace (iF3 =? iF2) with false by (symmetry; apply Nat.eqb_neq; auto). ring.
    + destruct (Nat.eqb_spec i iF2) as [->|E2]; ring.
Qed.
Lemma allFeO_eq o : allFeO o = tot tab iF3 o.
Proof.
  unfold allFeO, tot. rewrite (sum_ext n (reduced o) (fun i => 1 * reduced o i)) by (intros; ring).
  rewrite (sum_reduced (fun _ => 1)). rewrite (sum_ext n (fun i => 1 * o i) o) by (intros; ring). ring.
Qed.
Lemma comp_eq o : comp o = (sum n (fun i => coeff i * o i) + (2 * coeff iF2 - coeff iF3) * o iF3) / tot tab iF3 o.
Proof. unfold comp. now rewrite sum_reduced, allFeO_eq. Qed.
Lemma loop_comp o x : loop n (fun i x => x + coeff i * o i / tot tab iF3 o) x + (2 * coeff iF2 * o iF3 / tot tab iF3 o - coeff iF3 * o iF3 / tot tab iF3 o) = x + comp o.
Proof.
  rewrite (loop_addR n (fun i => coeff i * o i / tot tab iF3 o)), comp_eq.
  unfold Rdiv. rewrite (sum_scal_r n (/ tot tab iF3 o) (fun i => coeff i * o i)). ring.
Qed.

(** closed form of the conversion *)
Lemma toRedox_reduced t p lf o i : toRedox t p lf o i =
  if Req_EM_T (iron o) 0 then reduced o i
  else if Req_EM_T (allFeO o) 0 then reduced o i
  else let K := exp (ka * ln 10 * lf + tpTerm t p + comp o) in
       if Nat.eqb i iF2 then iron o / (1 + 2 * K) else if Nat.eqb i iF3 then K * iron o / (1 + 2 * K) else o i.
Proof.
  assert (U : forall j, upd (upd o iF2 (o iF2 + 2 * o iF3)) iF3 0 j = reduced o j).
  { intros j. unfold upd, reduced, iron. destruct (Nat.eqb_spec j iF3); auto. }
  unfold RedoxModel.toRedox. cbv zeta. rewrite !U.
  replace (reduced o iF2) with (iron o) by (unfold reduced; rewrite Nat.eqb_refl; apply Nat.eqb_neq in Dif; now rewrite Dif).
  destruct (Req_EM_T (iron o) 0) as [|E]; [reflexivity|].
  rewrite (sum_ext n _ (reduced o)) by (intros; apply U). fold (allFeO o).
  destruct (Req_EM_T (allFeO o) 0) as [|ES]; [reflexivity|].
  rewrite (loop_addR n (fun i => coeff i * upd (upd o iF2 (o iF2 + 2 * o iF3)) iF3 0 i / allFeO o)).
  rewrite (sum_ext n _ (fun i => coeff i * reduced o i / allFeO o)) by (intros; now rewrite U).
  replace (sum n (fun i => coeff i * reduced o i / allFeO o)) with (comp o) by (unfold comp, Rdiv; now rewrite (sum_scal_r n (/ allFeO o) (fun i => coeff i * reduced o i))).
  set (K := exp (ka * ln 10 * lf + tpTerm t p + comp o)).
  assert (KP : 0 < K) by apply exp_pos.
  unfold upd. rewrite !Nat.eqb_refl. replace (iF2 =? iF3) with false by (symmetry; now apply Nat.eqb_neq).
  destruct (Nat.eqb_spec i iF2) as [->|N2].
  - fold (iron o). field. lra.
  - destruct (Nat.eqb_spec i iF3) as [->|N3]; [|reflexivity]. fold (iron o). reflexivity.
Qed.

(** ** C75: the conversion conserves matter *)
Theorem C75_other_oxides t p lf o i : i <> iF2 -> i <> iF3 -> toRedox t p lf o i = o i.
Proof.
  intros N2 N3. rewrite toRedox_reduced. cbv zeta. apply Nat.eqb_neq in N2, N3. unfold reduced. rewrite N2, N3.
  destruct (Req_EM_T (iron o) 0); [reflexivity|]. now destruct (Req_EM_T (allFeO o) 0).
Qed.
Theorem C75_iron t p lf o : iron (toRedox t p lf o) = iron o.
Proof.
  unfold iron at 1. rewrite !toRedox_reduced. cbv zeta. unfold reduced. rewrite !Nat.eqb_refl.
  replace (iF2 =? iF3) with false by (symmetry; now apply Nat.eqb_neq).
  replace (iF3 =? iF2) with false by (symmetry; apply Nat.eqb_neq; auto).
  destruct (Req_EM_T (iron o) 0); [ring|]. destruct (Req_EM_T (allFeO o) 0); [ring|].
  pose proof (exp_pos (ka * ln 10 * lf + tpTerm t p + comp o)). field. lra.
Qed.
(** both kinds of iron are present afterwards, in a ratio that depends on nothing but T, P, fO2 and the composition with
    all iron reduced *)
Theorem C75_ratio t p lf o : 0 < iron o -> allFeO o <> 0 -> let o' := toRedox t p lf o in
  0 < o' iF2 /\ 0 < o' iF3 /\ o' iF3 / o' iF2 = exp (ka * ln 10 * lf + tpTerm t p + comp o).
Proof.
  intros HI HS o'. unfold o'. rewrite !toRedox_reduced. cbv zeta. rewrite !Nat.eqb_refl.
  replace (iF3 =? iF2) with false by (symmetry; apply Nat.eqb_neq; auto).
  destruct (Req_EM_T (iron o) 0); [lra|]. destruct (Req_EM_T (allFeO o) 0); [contradiction|].
  set (K := exp _). assert (KP : 0 < K) by apply exp_pos.
  assert (D : 0 < / (1 + 2 * K)) by (apply Rinv_0_lt_compat; lra). unfold Rdiv.
  split; [apply Rmult_lt_0_compat; lra|split; [apply Rmult_lt_0_compat; auto; apply Rmult_lt_0_compat; lra|]].
  field. lra.
Qed.
Lemma reduced_redox t p lf o i : (i < n)%nat -> reduced (toRedox t p lf o) i = reduced o i.
Proof.
  intros Hi. unfold reduced at 1. rewrite C75_iron. unfold reduced. destruct (Nat.eqb_spec i iF3); auto. destruct (Nat.eqb_spec i iF2); auto.
  now apply C75_other_oxides.
Qed.
Lemma allFeO_redox t p lf o : allFeO (toRedox t p lf o) = allFeO o.
Proof. apply sum_ext. intros. now apply reduced_redox. Qed.
Lemma comp_redox t p lf o : comp (toRedox t p lf o) = comp o.
Proof. unfold comp. rewrite allFeO_redox. f_equal. apply sum_ext. intros. now rewrite reduced_redox. Qed.

(** ** C76: the two directions agree *)
Lemma fO2of_eq t p o : o iF2 <> 0 -> o iF3 <> 0 -> allFeO o <> 0 ->
  fO2of t p o = (ln (o iF3 / o iF2) - (tpTerm t p + comp o)) / (ka * ln 10).
Proof.
  intros N2 N3 NS. unfold RedoxModel.fO2of. cbv zeta.
  destruct (Req_EM_T (o iF2) 0); [contradiction|]. destruct (Req_EM_T (o iF3) 0); [contradiction|].
  rewrite allFeO_eq in NS. fold (tot tab iF3 o). destruct (Req_EM_T (tot tab iF3 o) 0); [contradiction|].
  now rewrite loop_comp.
Qed.
(** the oxygen fugacity of a converted liquid is the one asked for *)
Theorem C76_round_trip t p lf o : 0 < iron o -> allFeO o <> 0 -> fO2of t p (toRedox t p lf o) = lf.
Proof.
  intros HI HS. destruct (C75_ratio t p lf o HI HS) as (P2 & P3 & Q).
  rewrite fO2of_eq; [|lra|lra|now rewrite allFeO_redox]. rewrite Q, ln_exp, comp_redox.
  pose proof ka_pos. pose proof ln10_pos. field. lra.
Qed.
(** a liquid converted to its own oxygen fugacity stays what it is *)
Theorem C76_own_fO2 t p o i : 0 < o iF2 -> 0 < o iF3 -> allFeO o <> 0 -> toRedox t p (fO2of t p o) o i = o i.
Proof.
  intros P2 P3 HS. rewrite toRedox_reduced. cbv zeta. unfold iron at 1.
  destruct (Req_EM_T (o iF2 + 2 * o iF3) 0); [lra|]. destruct (Req_EM_T (allFeO o) 0); [contradiction|].
  rewrite fO2of_eq by (auto; lra). pose proof ka_pos. pose proof ln10_pos.
  replace (ka * ln 10 * ((ln (o iF3 / o iF2) - (tpTerm t p + comp o)) / (ka * ln 10)) + tpTerm t p + comp o) with (ln (o iF3 / o iF2)) by (field; lra).
  assert (0 < o iF3 / o iF2) by now apply Rdiv_lt_0_compat. rewrite exp_ln by auto.
  destruct (Nat.eqb_spec i iF2) as [->|]; [unfold iron; field; lra|].
  destruct (Nat.eqb_spec i iF3) as [->|]; [unfold iron; field; lra|reflexivity].
Qed.
(** converting twice is converting once *)
Theorem C76_idempotent t p lf o i : (i < n)%nat -> toRedox t p lf (toRedox t p lf o) i = toRedox t p lf o i.
Proof.
  intros Hi. rewrite !toRedox_reduced. rewrite C75_iron, allFeO_redox, comp_redox, reduced_redox by auto. cbv zeta.
  destruct (Req_EM_T (iron o) 0) as [|EI]; [reflexivity|]. destruct (Req_EM_T (allFeO o) 0) as [|EA]; [reflexivity|].
  destruct (Nat.eqb_spec i iF2) as [->|N2]; [reflexivity|]. destruct (Nat.eqb_spec i iF3) as [->|N3]; [reflexivity|].
  reflexivity.
Qed.
(** more oxygen, more ferric and less ferrous iron *)
Theorem C76_monotone t p lf lf' o : 0 < iron o -> allFeO o <> 0 -> lf < lf' ->
  toRedox t p lf o iF3 < toRedox t p lf' o iF3 /\ toRedox t p lf' o iF2 < toRedox t p lf o iF2.
Proof.
  intros HI HS HL. rewrite !toRedox_reduced. cbv zeta. rewrite !Nat.eqb_refl.
  replace (iF3 =? iF2) with false by (symmetry; apply Nat.eqb_neq; auto).
  destruct (Req_EM_T (iron o) 0); [lra|]. destruct (Req_EM_T (allFeO o) 0); [contradiction|].
  set (K := exp (ka * ln 10 * lf + tpTerm t p + comp o)). set (K' := exp (ka * ln 10 * lf' + tpTerm t p + comp o)).
  assert (KP : 0 < K) by apply exp_pos. assert (KP' : 0 < K') by apply exp_pos.
  assert (KK : K < K').
  { apply exp_increasing. pose proof ka_pos. pose proof ln10_pos.
    assert (0 < ka * ln 10) by now apply Rmult_lt_0_compat.
    apply (Rmult_lt_compat_l (ka * ln 10)) in HL; lra. }
  assert (A : / (1 + 2 * K') < / (1 + 2 * K)) by (apply Rinv_lt_contravar; [apply Rmult_lt_0_compat|]; lra).
  split.
  - replace (K * iron o / (1 + 2 * K)) with (iron o * (1 / 2 * (1 - / (1 + 2 * K)))) by (field; lra).
    replace (K' * iron o / (1 + 2 * K')) with (iron o * (1 / 2 * (1 - / (1 + 2 * K')))) by (field; lra).
    apply Rmult_lt_compat_l; lra.
  - unfold Rdiv. now apply Rmult_lt_compat_l.
Qed.

(** ** C77: the oxygen potential *)
Notation muO2 := (muO2 tab coeff iF2 iF3 capped).
Notation mOx := (mOx tab).

(** RT ln fO2, with fO2 from the other routine *)
Theorem C77_same_fO2 t p m : muO2 t p m = Rgas * t * ln 10 * fO2of t p (mOx m).
Proof.
  unfold RedoxModel.muO2, unless, none. cbv zeta. set (o := mOx m).
  unfold RedoxModel.fO2of. cbv zeta. fold (tot tab iF3 o).
  pose proof ka_pos. pose proof ln10_pos.
  destruct (Req_EM_T (tot tab iF3 o) 0).
  - destruct (Req_EM_T (o iF2) 0); [ring|]. destruct (Req_EM_T (o iF3) 0); ring.
  - destruct (Req_EM_T (o iF2) 0); [ring|]. destruct (Req_EM_T (o iF3) 0); [ring|].
    unfold muTemp. cbv zeta. field. lra.
Qed.
(** a liquid converted to a given fugacity has the corresponding potential *)
Theorem C77_on_buffer t p lf m o : 0 < iron o -> allFeO o <> 0 ->
  (forall i, mOx m i = toRedox t p lf o i) -> muO2 t p m = Rgas * t * ln 10 * lf.
Proof.
  intros HI HS HM. rewrite C77_same_fO2.
  assert (E : fO2of t p (mOx m) = fO2of t p (toRedox t p lf o)).
  { unfold RedoxModel.fO2of. cbv zeta. rewrite !HM.
    rewrite (sum_ext n (mOx m) (toRedox t p lf o)) by (intros; apply HM).
    set (s := sum n (toRedox t p lf o) + toRedox t p lf o iF3).
    rewrite (loop_addR n (fun i => coeff i * mOx m i / s)), (loop_addR n (fun i => coeff i * toRedox t p lf o i / s)).
    rewrite (sum_ext n (fun i => coeff i * mOx m i / s) (fun i => coeff i * toRedox t p lf o i / s)) by (intros; now rewrite HM). reflexivity. }
  rewrite E, C76_round_trip by auto. reflexivity.
Qed.

(** a liquid for which the potential is defined *)
Definition hasIron (m : nat -> R) : Prop := 0 < mOx m iF2 /\ 0 < mOx m iF3 /\ 0 < allFeO (mOx m).
Lemma hasIron_none m : hasIron m -> none tab iF2 iF3 (mOx m) = false.
Proof.
  intros (P2 & P3 & PS). unfold none. rewrite <- allFeO_eq.
  destruct (Req_EM_T (allFeO (mOx m)) 0); [lra|]. destruct (Req_EM_T (mOx m iF2) 0); [lra|]. destruct (Req_EM_T (mOx m iF3) 0); [lra|reflexivity].
Qed.
Lemma muO2_eq t p m : hasIron m -> muO2 t p m = Rgas * t * (ln (mOx m iF3 / mOx m iF2) - (tpTerm t p + comp (mOx m))) / ka.
Proof. intros H. unfold RedoxModel.muO2. cbv zeta. rewrite (hasIron_none m H). unfold unless, muTemp. now rewrite loop_comp. Qed.

(** moles of component k replaced *)
Notation put m k x := (upd m k x).
Lemma mOx_put m k x i : (k < nlc tab)%nat -> mOx (put m k x) i = mOx m i + (x - m k) * liqToOx tab k i.
Proof.
  intros Hk. unfold RedoxModel.mOx.
  rewrite (sum_ext (nlc tab) (fun j => liqToOx tab j i * put m k x j) (fun j => liqToOx tab j i * m j + (if Nat.eqb j k then liqToOx tab j i * (x - m k) else 0))).
  - rewrite sum_plus, (sum_one_f (nlc tab) k (fun j => liqToOx tab j i * (x - m k))). apply Nat.ltb_lt in Hk. rewrite Hk. ring.
  - intros j Hj. unfold upd. destruct (Nat.eqb_spec j k) as [->|]; ring.
Qed.
(** the change of the totals per mole of component k *)
Definition dS (k : nat) : R := allFeO (liqToOx tab k).
Definition dN (k : nat) : R := sum n (fun i => coeff i * reduced (liqToOx tab k) i).
Definition num (o : nat -> R) : R := sum n (fun i => coeff i * reduced o i).
Lemma reduced_lin o u x i : reduced (fun i => o i + x * u i) i = reduced o i + x * reduced u i.
Proof. unfold reduced, iron. destruct (Nat.eqb i iF3); [ring|]. destruct (Nat.eqb i iF2); ring. Qed.
Lemma reduced_ext o o' i : (forall i, o i = o' i) -> reduced o i = reduced o' i.
Proof. intros E. unfold reduced, iron. now rewrite !E. Qed.
Lemma allFeO_put m k x : (k < nlc tab)%nat -> allFeO (mOx (put m k x)) = allFeO (mOx m) + (x - m k) * dS k.
Proof.
  intros Hk. unfold allFeO, dS. rewrite (sum_ext n (reduced (mOx (put m k x))) (fun i => reduced (mOx m) i + (x - m k) * reduced (liqToOx tab k) i)).
  - now rewrite sum_plus, sum_scal.
  - intros i Hi. rewrite <- reduced_lin. apply reduced_ext. intros j. now apply mOx_put.
Qed.
Lemma num_put m k x : (k < nlc tab)%nat -> num (mOx (put m k x)) = num (mOx m) + (x - m k) * dN k.
Proof.
  intros Hk. unfold num, dN. rewrite (sum_ext n (fun i => coeff i * reduced (mOx (put m k x)) i) (fun i => coeff i * reduced (mOx m) i + (x - m k) * (coeff i * reduced (liqToOx tab k) i))).
  - now rewrite sum_plus, sum_scal.
  - intros i Hi. rewrite (reduced_ext (mOx (put m k x)) (fun i => mOx m i + (x - m k) * liqToOx tab k i)) by (intros; now apply mOx_put).
    rewrite reduced_lin. ring.
Qed.

(** near the given amount the liquid still has iron of both kinds *)
Lemma linear_pos a b : 0 < a -> exists eps : posreal, forall y, Rabs (y - 0) < eps -> 0 < a + y * b.
Proof.
  intros Ha. assert (Hp : 0 < a / (1 + Rabs b)) by (apply Rdiv_lt_0_compat; [auto|pose proof (Rabs_pos b); lra]).
  exists (mkposreal _ Hp). cbn. intros y Hy. rewrite Rminus_0_r in Hy.
  assert (Rabs (y * b) < a).
  { rewrite Rabs_mult. pose proof (Rabs_pos b). pose proof (Rabs_pos y).
    apply Rle_lt_trans with (Rabs y * (1 + Rabs b)); [apply Rmult_le_compat_l; lra|].
    apply (Rmult_lt_compat_r (1 + Rabs b)) in Hy; [|lra]. unfold Rdiv in Hy. rewrite Rmult_assoc, Rinv_l, Rmult_1_r in Hy; lra. }
  apply Rabs_def2 in H. lra.
Qed.
Lemma hasIron_near m k : (k < nlc tab)%nat -> hasIron m ->
  exists eps : posreal, forall y, Rabs (y - m k) < eps -> hasIron (put m k y).
Proof.
  intros Hk (P2 & P3 & PS).
  destruct (linear_pos _ (liqToOx tab k iF2) P2) as [e1 H1]. destruct (linear_pos _ (liqToOx tab k iF3) P3) as [e2 H2].
  destruct (linear_pos _ (dS k) PS) as [e3 H3].
  assert (He : 0 < Rmin e1 (Rmin e2 e3)) by (repeat apply Rmin_pos; apply cond_pos).
  exists (mkposreal _ He). cbn. intros y Hy. unfold hasIron. rewrite allFeO_put, !mOx_put by auto.
  pose proof (Rmin_l e1 (Rmin e2 e3)). pose proof (Rmin_r e1 (Rmin e2 e3)). pose proof (Rmin_l e2 e3). pose proof (Rmin_r e2 e3).
  split; [apply H1|split; [apply H2|apply H3]]; rewrite Rminus_0_r; lra.
Qed.
Lemma put_mk (m : nat -> R) k : forall i, put m k (m k) i = m i.
Proof. intros i. unfold upd. destruct (Nat.eqb_spec i k) as [->|]; auto. Qed.
Lemma mOx_ext m m' i : (forall j, m j = m' j) -> mOx m i = mOx m' i.
Proof. intros E. apply sum_ext. intros. now rewrite E. Qed.

(** closed form of the oxide derivatives *)
Definition gradK (o : nat -> R) (k : nat) : R :=
  liqToOx tab k iF3 / o iF3 - liqToOx tab k iF2 / o iF2 - dN k / allFeO o + num o * dS k / (allFeO o * allFeO o).

Lemma vTemp_eq o x j : (j < n)%nat -> vTemp tab coeff iF2 iF3 o x j =
  ((if Nat.eqb j iF3 then 1 / o iF3 else 0) - (if Nat.eqb j iF2 then 1 / o iF2 else 0)
   - (coeff j + (if Nat.eqb j iF3 then 2 * coeff iF2 - coeff iF3 else 0)) / allFeO o
   + num o * (if Nat.eqb j iF3 then 2 else 1) * (/ (allFeO o * allFeO o))) * x.
Proof.
  intros Hj. unfold vTemp. cbv zeta. rewrite allFeO_eq. set (s := tot tab iF3 o). set (f := if (j =? iF3)%nat then 2 else 1).
  rewrite (loop_sub n (fun i => if (i =? j)%nat then coeff i * (1 - f * o i / s) / s else - coeff i * f * o i / (s * s))).
  rewrite (sum_ext n _ (fun i => (if Nat.eqb i j then coeff i / s else 0) + (- (f * / (s * s))) * (coeff i * o i))).
  2:{ intros i Hi. destruct (Nat.eqb i j); unfold Rdiv; [|ring].
      destruct (Req_dec s 0) as [->|NS]; [|field; auto].
      rewrite Rmult_0_l, !Rinv_0. ring. }
  rewrite sum_plus, (sum_one_f n j (fun i => coeff i / s)), sum_scal. replace (j <? n)%nat with true by (symmetry; now apply Nat.ltb_lt).
  unfold num. rewrite sum_reduced. fold s. unfold f.
  destruct (Nat.eqb_spec j iF2) as [->|N2].
  - replace (iF2 =? iF3) with false by (symmetry; now apply Nat.eqb_neq). unfold Rdiv. ring.
  - destruct (Nat.eqb_spec j iF3) as [->|N3]; unfold Rdiv; ring.
Qed.
Lemma sum_vTemp o x k : sum n (fun j => vTemp tab coeff iF2 iF3 o x j * liqToOx tab k j) = gradK o k * x.
Proof.
  rewrite (sum_ext n _ (fun j => ((if Nat.eqb j iF3 then liqToOx tab k j * (1 / o iF3) else 0) + ((if Nat.eqb j iF2 then liqToOx tab k j * (- (1) / o iF2) else 0)
     + ((- / allFeO o) * (coeff j * liqToOx tab k j) + ((if Nat.eqb j iF3 then liqToOx tab k j * (- (2 * coeff iF2 - coeff iF3) / allFeO o) else 0)
     + ((num o * / (allFeO o * allFeO o)) * liqToOx tab k j + (if Nat.eqb j iF3 then liqToOx tab k j * (num o * / (allFeO o * allFeO o)) else 0)))))) * x)).
  2:{ intros j Hj. rewrite vTemp_eq by auto. unfold Rdiv. destruct (Nat.eqb_spec j iF2) as [->|N2].
      - replace (iF2 =? iF3) with false by (symmetry; now apply Nat.eqb_neq). ring.
      - destruct (Nat.eqb_spec j iF3) as [->|N3]; ring. }
  rewrite sum_scal_r, !sum_plus, !sum_scal.
  rewrite (sum_one_f n iF3 (fun j => liqToOx tab k j * (1 / o iF3))), (sum_one_f n iF2 (fun j => liqToOx tab k j * (- (1) / o iF2))),
    (sum_one_f n iF3 (fun j => liqToOx tab k j * (- (2 * coeff iF2 - coeff iF3) / allFeO o))), (sum_one_f n iF3 (fun j => liqToOx tab k j * (num o * / (allFeO o * allFeO o)))).
  replace (iF2 <? n)%nat with true by (symmetry; now apply Nat.ltb_lt). replace (iF3 <? n)%nat with true by (symmetry; now apply Nat.ltb_lt).
  unfold gradK, dN, dS. rewrite sum_reduced. rewrite (allFeO_eq (liqToOx tab k)). unfold tot.
  change (sum n (fun j => liqToOx tab k j)) with (sum n (liqToOx tab k)). unfold Rdiv. ring.
Qed.

(** the derivative by the moles of a liquid component *)
Theorem C77_dm t p m k : (k < nlc tab)%nat -> hasIron m ->
  is_derive (fun x => muO2 t p (put m k x)) (m k) (muO2_dm tab coeff iF2 iF3 t p m k).
Proof.
  intros Hk HI. destruct (hasIron_near m k Hk HI) as [eps He].
  apply (is_derive_near _ (fun x => Rgas * t * (ln ((mOx m iF3 + (x - m k) * liqToOx tab k iF3) / (mOx m iF2 + (x - m k) * liqToOx tab k iF2))
      - (tpTerm t p + (num (mOx m) + (x - m k) * dN k) / (allFeO (mOx m) + (x - m k) * dS k))) / ka) _ _ eps).
  - intros y Hy. rewrite muO2_eq by (apply He; auto). unfold comp. fold (num (mOx (put m k y))). now rewrite num_put, allFeO_put, !mOx_put by auto.
  - unfold muO2_dm. cbv zeta. rewrite (hasIron_none m HI). unfold unless. rewrite sum_vTemp.
    destruct HI as (P2 & P3 & PS). pose proof ka_pos.
    set (A2 := mOx m iF2) in *. set (A3 := mOx m iF3) in *. set (S := allFeO (mOx m)) in *. set (N := num (mOx m)). set (TP := tpTerm t p).
    auto_derive.
    + replace (m k + - m k) with 0 by ring. rewrite !Rmult_0_l, !Rplus_0_r. repeat split; try lra. now apply Rdiv_lt_0_compat.
    + unfold gradK. fold A2 A3 S N. replace (m k + - m k) with 0 by ring. rewrite !Rmult_0_l, !Rplus_0_r. field. repeat split; lra.
Qed.
(** second derivatives by moles *)
Lemma mTemp_eq o t k j : (k < n)%nat -> (j < n)%nat -> mTemp tab coeff iF2 iF3 o t k j =
  let fk := if Nat.eqb k iF3 then 2 else 1 in let fj := if Nat.eqb j iF3 then 2 else 1 in let d := 2 * coeff iF2 - coeff iF3 in
  ((if Nat.eqb j iF2 then (if Nat.eqb k iF2 then 1 / (o iF2 * o iF2) else 0) else 0)
   - (if Nat.eqb j iF3 then (if Nat.eqb k iF3 then 1 / (o iF3 * o iF3) else 0) else 0)
   - 2 * fj * fk * num o * / (tot tab iF3 o * tot tab iF3 o * tot tab iF3 o)
   + fk * (coeff j + (if Nat.eqb j iF3 then d else 0)) * / (tot tab iF3 o * tot tab iF3 o)
   + fj * (coeff k + (if Nat.eqb k iF3 then d else 0)) * / (tot tab iF3 o * tot tab iF3 o)) * (Rgas * t / ka).
Proof.
  intros Hk Hj. cbv zeta. unfold mTemp. cbv zeta. set (s := tot tab iF3 o). set (fj := if (j =? iF3)%nat then 2 else 1). set (fk := if (k =? iF3)%nat then 2 else 1).
  match goal with |- context [loop n ?F 0] => replace (loop n F 0) with (loop n (fun i v => v - (2 * fj * fk * / (s * s * s) * (coeff i * o i) + ((if Nat.eqb i j then - fk * coeff i / (s * s) else 0) + (if Nat.eqb i k then - fj * coeff i / (s * s) else 0)))) 0) end.
  2:{ generalize n. intros nn. induction nn; [reflexivity|]. cbn [loop]. rewrite IHnn. destruct (Nat.eqb nn j), (Nat.eqb nn k); unfold Rdiv; ring. }
  rewrite (loop_sub n (fun i => 2 * fj * fk * / (s * s * s) * (coeff i * o i) + ((if Nat.eqb i j then - fk * coeff i / (s * s) else 0) + (if Nat.eqb i k then - fj * coeff i / (s * s) else 0)))).
  rewrite !sum_plus, sum_scal, (sum_one_f n j (fun i => - fk * coeff i / (s * s))), (sum_one_f n k (fun i => - fj * coeff i / (s * s))).
  replace (j <? n)%nat with true by (symmetry; now apply Nat.ltb_lt). replace (k <? n)%nat with true by (symmetry; now apply Nat.ltb_lt).
  unfold num. rewrite sum_reduced. fold s. unfold fj, fk.
  destruct (Nat.eqb_spec j iF2) as [->|J2]; destruct (Nat.eqb_spec k iF2) as [->|K2]; cbn [andb];
    replace (iF2 =? iF3) with false by (symmetry; now apply Nat.eqb_neq); cbn [andb];
    try (destruct (Nat.eqb_spec j iF3) as [->|J3]); try (destruct (Nat.eqb_spec k iF3) as [->|K3]); cbn [andb]; unfold Rdiv; ring.
Qed.
Definition hessK (o : nat -> R) (k l : nat) : R :=
  - (liqToOx tab k iF3 * liqToOx tab l iF3) / (o iF3 * o iF3) + liqToOx tab k iF2 * liqToOx tab l iF2 / (o iF2 * o iF2)
  + (dN k * dS l + dN l * dS k) / (allFeO o * allFeO o) - 2 * num o * dS k * dS l / (allFeO o * allFeO o * allFeO o).
Lemma sum_factor (u : nat -> R) : sum n (fun j => (if Nat.eqb j iF3 then 2 else 1) * u j) = tot tab iF3 u.
Proof.
  unfold tot. rewrite (sum_ext n _ (fun j => u j + (if Nat.eqb j iF3 then u j else 0))) by (intros j Hj; destruct (Nat.eqb j iF3); ring).
  rewrite sum_plus, (sum_one_f n iF3 u). replace (iF3 <? n)%nat with true by (symmetry; now apply Nat.ltb_lt).
  change (sum n (fun i => u i)) with (sum n u). ring.
Qed.
Lemma sum_coeffd (u : nat -> R) : sum n (fun j => (coeff j + (if Nat.eqb j iF3 then 2 * coeff iF2 - coeff iF3 else 0)) * u j) = num u.
Proof.
  unfold num. rewrite sum_reduced. rewrite (sum_ext n _ (fun j => coeff j * u j + (if Nat.eqb j iF3 then (2 * coeff iF2 - coeff iF3) * u j else 0))) by (intros j Hj; destruct (Nat.eqb j iF3); ring).
  rewrite sum_plus, (sum_one_f n iF3 (fun j => (2 * coeff iF2 - coeff iF3) * u j)). now replace (iF3 <? n)%nat with true by (symmetry; now apply Nat.ltb_lt).
Qed.
Lemma sum_at1 q (x : R) (u : nat -> R) : (q < n)%nat -> sum n (fun j => (if Nat.eqb j q then x else 0) * u j) = x * u q.
Proof.
  intros Hq. rewrite (sum_ext n _ (fun j => if Nat.eqb j q then x * u j else 0)) by (intros j Hj; destruct (Nat.eqb j q); ring).
  rewrite (sum_one_f n q (fun j => x * u j)). now replace (q <? n)%nat with true by (symmetry; now apply Nat.ltb_lt).
Qed.
Lemma sum_prod (f g : nat -> R) u v c : sum n (fun k => sum n (fun l => c * (f k * g l) * u k * v l)) = c * sum n (fun k => f k * u k) * sum n (fun l => g l * v l).
Proof.
  rewrite (sum_ext n _ (fun k => f k * u k * (c * sum n (fun l => g l * v l)))).
  - rewrite sum_scal_r. ring.
  - intros k Hk. rewrite (sum_ext n _ (fun l => (c * f k * u k) * (g l * v l))) by (intros; ring). rewrite sum_scal. ring.
Qed.
Lemma sum_mTemp o t i j : sum n (fun k => sum n (fun l => mTemp tab coeff iF2 iF3 o t k l * liqToOx tab i k * liqToOx tab j l)) = hessK o i j * (Rgas * t / ka).
Proof.
  set (x := Rgas * t / ka). set (s := tot tab iF3 o). set (u := liqToOx tab i). set (v := liqToOx tab j).
  set (fc := fun j => if Nat.eqb j iF3 then 2 else 1). set (cd := fun j => coeff j + (if Nat.eqb j iF3 then 2 * coeff iF2 - coeff iF3 else 0)).
  set (e2 := fun j => if Nat.eqb j iF2 then 1 else 0). set (e3 := fun j => if Nat.eqb j iF3 then 1 else 0).
  rewrite (sum_ext n _ (fun k => sum n (fun l => (x / (o iF2 * o iF2)) * (e2 k * e2 l) * u k * v l) + (sum n (fun l => (- x / (o iF3 * o iF3)) * (e3 k * e3 l) * u k * v l)
      + (sum n (fun l => (- 2 * num o * / (s * s * s) * x) * (fc k * fc l) * u k * v l) + (sum n (fun l => (x * / (s * s)) * (fc k * cd l) * u k * v l) + sum n (fun l => (x * / (s * s)) * (cd k * fc l) * u k * v l)))))).
  2:{ intros k Hk. rewrite <- !sum_plus. apply sum_ext. intros l Hl. rewrite mTemp_eq by auto. cbv zeta. fold s x. fold (u k) (v l). unfold fc, cd, e2, e3, Rdiv.
      destruct (Nat.eqb l iF2), (Nat.eqb k iF2), (Nat.eqb l iF3), (Nat.eqb k iF3); ring. }
  rewrite !sum_plus, !sum_prod. unfold e2, e3. rewrite !sum_at1 by auto. unfold fc, cd. rewrite !sum_factor, !sum_coeffd.
  unfold hessK, dN, dS. rewrite !allFeO_eq. fold u v s. unfold num. unfold Rdiv. ring.
Qed.
Theorem C77_d2m t p m k l : (k < nlc tab)%nat -> (l < nlc tab)%nat -> hasIron m ->
  is_derive (fun x => muO2_dm tab coeff iF2 iF3 t p (put m l x) k) (m l) (muO2_d2m tab coeff iF2 iF3 t p m k l).
Proof.
  intros Hk Hl HI. destruct (hasIron_near m l Hl HI) as [eps He].
  apply (is_derive_near _ (fun x => (liqToOx tab k iF3 / (mOx m iF3 + (x - m l) * liqToOx tab l iF3) - liqToOx tab k iF2 / (mOx m iF2 + (x - m l) * liqToOx tab l iF2)
     - dN k / (allFeO (mOx m) + (x - m l) * dS l) + (num (mOx m) + (x - m l) * dN l) * dS k / ((allFeO (mOx m) + (x - m l) * dS l) * (allFeO (mOx m) + (x - m l) * dS l))) * (Rgas * t / ka)) _ _ eps).
  - intros y Hy. unfold muO2_dm. cbv zeta. rewrite (hasIron_none _ (He y Hy)). unfold unless. rewrite sum_vTemp. unfold gradK. now rewrite num_put, allFeO_put, !mOx_put by auto.
  - unfold muO2_d2m. cbv zeta. rewrite (hasIron_none m HI). unfold unless. rewrite sum_mTemp. unfold hessK.
    destruct HI as (P2 & P3 & PS). pose proof ka_pos.
    set (A2 := mOx m iF2) in *. set (A3 := mOx m iF3) in *. set (S := allFeO (mOx m)) in *. set (N := num (mOx m)).
    auto_derive.
    + replace (m l + - m l) with 0 by ring. rewrite !Rmult_0_l, !Rplus_0_r. repeat split; try lra. apply Rgt_not_eq, Rmult_lt_0_compat; auto.
    + replace (m l + - m l) with 0 by ring. rewrite !Rmult_0_l, !Rplus_0_r. field. repeat split; lra.
Qed.
(** the derivatives with composition do not depend on pressure; by temperature: *)
Theorem C77_d2mt t p m k : (k < nlc tab)%nat -> hasIron m -> is_derive (fun t => muO2_dm tab coeff iF2 iF3 t p m k) t (muO2_d2mt tab coeff iF2 iF3 t p m k).
Proof.
  intros Hk HI. unfold muO2_d2mt. cbv zeta. rewrite (hasIron_none m HI). unfold unless. rewrite sum_vTemp.
  apply is_derive_ext with (fun t => gradK (mOx m) k * (Rgas * t / ka)).
  - intros x. unfold muO2_dm. cbv zeta. rewrite (hasIron_none m HI). unfold unless. now rewrite sum_vTemp.
  - pose proof ka_pos. auto_derive; [exact I|]. field. lra.
Qed.
Theorem C77_d2mp t p m k : is_derive (fun p => muO2_dm tab coeff iF2 iF3 t p m k) p (muO2_d2mp t p m k).
Proof. unfold muO2_dm, muO2_d2mp. apply (is_derive_const (K := R_AbsRing) (V := R_NormedModule)). Qed.
(** temperature and pressure; where the pressure terms change (50 kbar, not in liquid_v34.c) there is no derivative *)
Lemma t0_pos : 0 < t0. Proof. unfold t0; lra. Qed.
Definition smooth (p : R) : Prop := capped = false \/ p <> 50000.
Definition above (p : R) : bool := capped && (if Rlt_dec p 50000 then false else true).
Lemma above_near p : smooth p -> exists eps : posreal, forall y, Rabs (y - p) < eps -> above y = above p.
Proof.
  unfold smooth, above. intros [->|N]; [exists (mkposreal 1 Rlt_0_1); auto|].
  assert (He : 0 < Rabs (p - 50000)) by (apply Rabs_pos_lt; lra).
  exists (mkposreal _ He). cbn. intros y Hy. f_equal. unfold Rabs in *.
  destruct (Rcase_abs (p - 50000)), (Rcase_abs (y - p)), (Rlt_dec y 50000), (Rlt_dec p 50000); auto; lra.
Qed.
(** the two forms of the exponent *)
Definition tpLow (t p : R) : R := kb / t + kc + ke * (1 - t0 / t - ln (t / t0)) + kf * p / t + kg * (t - t0) * p / t + kh * (p * p) / t.
Definition tpHigh (t p : R) : R := tpLow t 50000 - ka * ln 10 * (kslope * p / 10000 - kslope * 5) / t.
Lemma tpTerm_eq t p : tpTerm t p = if above p then tpHigh t p else tpLow t p.
Proof. reflexivity. Qed.
(** the exponent is continuous at the change *)
Theorem C77_no_jump t : tpHigh t 50000 = tpLow t 50000.
Proof. unfold tpHigh. replace (kslope * 50000 / 10000 - kslope * 5) with 0 by field. unfold Rdiv. ring. Qed.

Theorem C77_dt t p m : 0 < t -> hasIron m -> is_derive (fun t => muO2 t p m) t (muO2_dt tab coeff iF2 iF3 capped t p m).
Proof.
  intros Ht HI. pose proof ka_pos as Ka. pose proof t0_pos as T0. set (L := ln (mOx m iF3 / mOx m iF2)). set (C := comp (mOx m)).
  apply is_derive_ext with (fun t => Rgas * t * (L - (tpTerm t p + C)) / ka). { intros x. now rewrite muO2_eq. }
  unfold muO2_dt. cbv zeta. rewrite (hasIron_none m HI). unfold unless, muTemp. cbv zeta. rewrite loop_comp. fold L C.
  apply is_derive_ext with (fun t => Rgas * t * (L - ((if above p then tpHigh t p else tpLow t p) + C)) / ka); [reflexivity|].
  rewrite tpTerm_eq. unfold above. destruct capped; cbn [andb]; [destruct (Rlt_dec p 50000)|]; unfold tpHigh, tpLow.
  all: auto_derive; [repeat split; try lra; apply Rmult_lt_0_compat; [lra|now apply Rinv_0_lt_compat]|].
  all: fold t0; set (lt := ln (t * / t0)); unfold Rdiv; fold lt; field; repeat split; lra.
Qed.
Theorem C77_dp t p m : 0 < t -> smooth p -> hasIron m -> is_derive (fun p => muO2 t p m) p (muO2_dp tab iF2 iF3 capped t p m).
Proof.
  intros Ht HS HI. pose proof ka_pos as Ka. set (L := ln (mOx m iF3 / mOx m iF2)). set (C := comp (mOx m)).
  destruct (above_near p HS) as [eps He].
  apply (is_derive_near _ (fun q => Rgas * t * (L - ((if above p then tpHigh t q else tpLow t q) + C)) / ka) _ _ eps).
  { intros y Hy. rewrite muO2_eq by auto. now rewrite tpTerm_eq, (He y Hy). }
  unfold muO2_dp. rewrite (hasIron_none m HI). unfold unless. fold (above p). destruct (above p); unfold tpHigh, tpLow.
  all: set (lt := ln (t / t0)); auto_derive; [repeat split; lra|field; repeat split; lra].
Qed.
Theorem C77_d2t2 t p m : 0 < t -> hasIron m ->
  is_derive (fun t => muO2_dt tab coeff iF2 iF3 capped t p m) t (muO2_d2t2 tab iF2 iF3 capped t p m).
Proof.
  intros Ht HI. pose proof ka_pos as Ka. pose proof t0_pos as T0. set (L := ln (mOx m iF3 / mOx m iF2)). set (C := comp (mOx m)).
  unfold muO2_d2t2. rewrite (hasIron_none m HI). unfold unless.
  eapply is_derive_ext with (fun t => _).
  { intros x. symmetry. unfold muO2_dt. cbv zeta. rewrite (hasIron_none m HI). unfold unless, muTemp. cbv zeta. rewrite loop_comp. fold L C. rewrite tpTerm_eq. reflexivity. }
  unfold above. destruct capped; cbn [andb]; [destruct (Rlt_dec p 50000)|]; unfold tpHigh, tpLow.
  all: auto_derive; [repeat split; try lra; try (apply Rmult_lt_0_compat; [lra|now apply Rinv_0_lt_compat]); apply Rgt_not_eq, Rmult_lt_0_compat; lra|].
  all: fold t0; set (lt := ln (t * / t0)); field; repeat split; lra.
Qed.
Theorem C77_d2tp t p m : 0 < t -> smooth p -> hasIron m ->
  is_derive (fun t => muO2_dp tab iF2 iF3 capped t p m) t (muO2_d2tp tab iF2 iF3 capped t p m) /\
  is_derive (fun p => muO2_dt tab coeff iF2 iF3 capped t p m) p (muO2_d2tp tab iF2 iF3 capped t p m).
Proof.
  intros Ht HS HI. pose proof ka_pos as Ka. pose proof t0_pos as T0. set (L := ln (mOx m iF3 / mOx m iF2)). set (C := comp (mOx m)).
  unfold muO2_d2tp. rewrite (hasIron_none m HI). unfold unless. fold (above p). split.
  - apply is_derive_ext with (fun t => if above p then Rgas * t * (ka * ln 10 * kslope / 10000 / t) / ka else Rgas * t * (- kf / t - kg * (t - t0) / t - 2 * kh * p / t) / ka).
    { intros x. unfold muO2_dp. now rewrite (hasIron_none m HI). }
    destruct (above p); auto_derive; [repeat split; lra|field; repeat split; lra|repeat split; lra|field; repeat split; lra].
  - destruct (above_near p HS) as [eps He].
    apply (is_derive_near _ (fun q => Rgas * (L - ((if above p then tpHigh t q else tpLow t q) + C)) / ka + Rgas * t * (kb / (t * t) - ke * (t0 / t - 1) * (1 / t)) / ka
       + (if above p then Rgas * t * (kf * 50000 / (t * t) - kg * (t0 / t) * (50000 / t) + kh * (50000 / t * (50000 / t)) - ka * ln 10 * (kslope * q / 10000 - kslope * 5) / (t * t)) / ka
          else Rgas * t * (kf * q / (t * t) - kg * (t0 / t) * (q / t) + kh * (q / t * (q / t))) / ka)) _ _ eps).
    { intros y Hy. unfold muO2_dt. cbv zeta. rewrite (hasIron_none m HI). unfold unless, muTemp. cbv zeta. rewrite loop_comp. fold L C.
      rewrite tpTerm_eq, (He y Hy). rewrite <- (He y Hy). unfold above. destruct capped; cbn [andb]; [destruct (Rlt_dec y 50000); reflexivity|].
      field. lra. }
    destruct (above p); unfold tpHigh, tpLow; set (lt := ln (t / t0)); auto_derive; try exact I; try (repeat split; lra); field; repeat split; lra.
Qed.
Theorem C77_d2p2 t p m : 0 < t -> smooth p -> hasIron m ->
  is_derive (fun p => muO2_dp tab iF2 iF3 capped t p m) p (muO2_d2p2 tab iF2 iF3 capped t p m).
Proof.
  intros Ht HS HI. pose proof ka_pos as Ka. destruct (above_near p HS) as [eps He].
  unfold muO2_d2p2. rewrite (hasIron_none m HI). unfold unless. fold (above p).
  apply (is_derive_near _ (fun q => if above p then Rgas * t * (ka * ln 10 * kslope / 10000 / t) / ka else Rgas * t * (- kf / t - kg * (t - t0) / t - 2 * kh * q / t) / ka) _ _ eps).
  { intros y Hy. unfold muO2_dp. rewrite (hasIron_none m HI). unfold unless. fold (above y). now rewrite (He y Hy). }
  destruct (above p); auto_derive; try exact I; try (repeat split; lra); field; repeat split; lra.
Qed.
(** ** C78: a more oxidised liquid of the same composition has the higher oxygen fugacity.
    FALSE of the code: a liquid without ferric iron, the most reduced there is, is given log fO2 = 0, that of pure
    oxygen at one bar. True while both kinds of iron are present. *)
Definition more_oxidised (o o' : nat -> R) : Prop :=
  (forall i, i <> iF2 -> i <> iF3 -> o' i = o i) /\ iron o' = iron o /\ o iF3 < o' iF3.
Lemma more_oxidised_reduced o o' i : more_oxidised o o' -> reduced o' i = reduced o i.
Proof. intros (A & B & _). unfold reduced. destruct (Nat.eqb_spec i iF3); auto. destruct (Nat.eqb_spec i iF2); auto. Qed.
Theorem C78_more_oxidised_partial t p o o' : more_oxidised o o' -> 0 < o iF3 -> 0 < o' iF2 -> allFeO o <> 0 ->
  fO2of t p o < fO2of t p o'.
Proof.
  intros HO P3 P2 HS. pose proof HO as (A & B & C). unfold iron in B.
  assert (E : allFeO o' = allFeO o) by (apply sum_ext; intros; now apply more_oxidised_reduced).
  assert (EC : comp o' = comp o) by (unfold comp; rewrite E; f_equal; apply sum_ext; intros; now rewrite (more_oxidised_reduced o o')).
  rewrite !fO2of_eq by (auto; try lra; now rewrite E). rewrite EC.
  pose proof ka_pos. pose proof ln10_pos.
  apply Rmult_lt_compat_r; [apply Rinv_0_lt_compat, Rmult_lt_0_compat; auto|].
  apply Rplus_lt_compat_r. apply ln_increasing; [apply Rdiv_lt_0_compat; lra|].
  apply Rlt_trans with (o' iF3 / o iF2).
  - apply Rmult_lt_compat_r; [apply Rinv_0_lt_compat|]; lra.
  - apply Rmult_lt_compat_l; [lra|]. apply Rinv_lt_contravar; [apply Rmult_lt_0_compat|]; lra.
Qed.
(** the same as a property of its own (C118) *)
Theorem C118_more_oxidised t p o o' : more_oxidised o o' -> 0 < o iF3 -> 0 < o' iF2 -> allFeO o <> 0 ->
  fO2of t p o < fO2of t p o'.
Proof. exact (C78_more_oxidised_partial t p o o'). Qed.
Theorem C78_no_ferric t p o : o iF3 = 0 -> fO2of t p o = 0.
Proof. intros E. unfold RedoxModel.fO2of. destruct (Req_EM_T (o iF2) 0); auto. destruct (Req_EM_T (o iF3) 0); [auto|contradiction]. Qed.
End Props.

(** ** The shipped table
    includes/liq_struct_data.h 174-195: nineteen oxides, Fe2O3 is the fourth, FeO the sixth; the coefficients. *)
Definition coeffs (i : nat) : R :=
  match i with 2%nat => - (2243 / 1000) | 5%nat => - (1828 / 1000) | 10%nat => 3201 / 1000 | 11%nat => 5854 / 1000 | 12%nat => 6215 / 1000 | _ => 0 end.

(** a liquid, component by component equal to the oxides, with one mole of each *)
Definition oxideTab : Tab :=
  mkTab 19 0 19 (fun _ => false) (fun _ => 1%nat) (fun _ _ => 0) (fun _ _ => 0) (fun j o => if Nat.eqb j o then 1 else 0)
    (fun j o => if Nat.eqb j o then 1 else 0) (fun _ => 0) (fun _ => 1) (fun _ => 0) (fun _ => 0) (fun i => Nat.eqb i 3).
Lemma oxideTab_mOx m i : (i < 19)%nat -> mOx oxideTab m i = m i.
Proof.
  intros Hi. unfold mOx. cbn [oxideTab nlc liqToOx]. rewrite (sum_ext 19 _ (fun j => if Nat.eqb j i then m j else 0)) by (intros j Hj; destruct (Nat.eqb j i); ring).
  rewrite sum_one_f. now replace (i <? 19)%nat with true by (symmetry; now apply Nat.ltb_lt).
Qed.
(** the hypotheses are met, and the conversion is not trivial: at any temperature, pressure and fugacity the liquid
    below, with one mole of each oxide, ends with both kinds of iron and with exactly the fugacity asked for *)
Theorem C75_witness : let o := fun _ : nat => 1 in
  0 < iron 5 3 o /\ allFeO oxideTab 5 3 o = 20 /\
  (forall t p lf, toRedox oxideTab coeffs 5 3 true t p lf o 5%nat + 2 * toRedox oxideTab coeffs 5 3 true t p lf o 3%nat = 3) /\
  (forall t p lf, fO2of oxideTab coeffs 5 3 true t p (toRedox oxideTab coeffs 5 3 true t p lf o) = lf) /\
  (forall t p lf, 0 < toRedox oxideTab coeffs 5 3 true t p lf o 3%nat).
Proof.
  intros o. assert (I3 : iron 5 3 o = 3) by (unfold iron, o; ring). assert (A : allFeO oxideTab 5 3 o = 20).
  { unfold allFeO. cbn [oxideTab nc sum reduced Nat.eqb]. rewrite I3. unfold o. ring. }
  split; [lra|split; [auto|split; [|split]]]; intros.
  - pose proof (C75_iron oxideTab coeffs 5 3 true ltac:(lia) t p lf o) as Q. rewrite I3 in Q. exact Q.
  - apply C76_round_trip; cbn [oxideTab nc]; try lia; lra.
  - apply (C75_ratio oxideTab coeffs 5 3 true ltac:(lia)); lra.
Qed.
Theorem C77_witness : hasIron oxideTab 5 3 (fun _ => 1) /\ (forall t p, 0 < t -> p <> 50000 ->
  is_derive (fun p => muO2 oxideTab coeffs 5 3 true t p (fun _ => 1)) p (muO2_dp oxideTab 5 3 true t p (fun _ => 1))).
Proof.
  assert (HI : hasIron oxideTab 5 3 (fun _ => 1)).
  { unfold hasIron. rewrite !oxideTab_mOx by lia. split; [lra|split; [lra|]].
    rewrite allFeO_eq by (cbn; lia). unfold tot. rewrite oxideTab_mOx by lia. cbn [oxideTab nc].
    rewrite (sum_ext 19 _ (fun _ => 1)) by (intros; now apply oxideTab_mOx). cbn [sum]. lra. }
  split; [auto|]. intros t p Ht Hp. apply C77_dp; auto; try (cbn; lia). now right.
Qed.
(** a liquid without ferric iron is reported as more oxidised than one in which half of the iron is ferric *)
Theorem C78_refuted : exists o o', more_oxidised 5 3 o o' /\ (forall i, 0 <= o i) /\ 0 < o' 5%nat /\ allFeO oxideTab 5 3 o <> 0 /\
  fO2of oxideTab coeffs 5 3 true t0 1 o' < fO2of oxideTab coeffs 5 3 true t0 1 o.
Proof.
  set (o := fun i : nat => if Nat.eqb i 5 then 4 else if Nat.eqb i 11 then 4 else 0). set (o' := fun i : nat => if Nat.eqb i 5 then 2 else if Nat.eqb i 3 then 1 else if Nat.eqb i 11 then 4 else 0).
  assert (HM : more_oxidised 5 3 o o').
  { unfold more_oxidised, iron, o, o'. cbn [Nat.eqb]. split; [|split; lra]. intros i N5 N3. apply Nat.eqb_neq in N5, N3. now rewrite N5, N3. }
  assert (EA : allFeO oxideTab 5 3 o' = 8).
  { unfold allFeO, reduced, iron, o'. cbn [oxideTab nc sum Nat.eqb]. ring. }
  assert (EA' : allFeO oxideTab 5 3 o = 8).
  { unfold allFeO, reduced, iron, o. cbn [oxideTab nc sum Nat.eqb]. ring. }
  exists o, o'. split; [auto|split; [intros i; unfold o; destruct (Nat.eqb i 5), (Nat.eqb i 11); lra|split; [unfold o'; cbn [Nat.eqb]; lra|split; [lra|]]]].
  rewrite (C78_no_ferric _ _ _ _ _ t0 1 o) by (unfold o; reflexivity).
  assert (P5 : o' 5%nat = 2) by reflexivity. assert (P3 : o' 3%nat = 1) by reflexivity.
  rewrite fO2of_eq; [|lia|cbn; lia|cbn; lia|lra|lra|lra]. rewrite P5, P3.
  assert (EC : comp oxideTab coeffs 5 3 o' = 2013 / 1000).
  { unfold comp. rewrite EA. unfold reduced, iron, coeffs, o'. cbn [oxideTab nc sum Nat.eqb]. field. }
  rewrite EC. unfold tpTerm. cbn [andb]. destruct (Rlt_dec 1 50000) as [_|]; [|lra].
  replace (t0 / t0) with 1 by (field; unfold t0; lra). rewrite ln_1.
  pose proof ka_pos. pose proof ln10_pos.
  assert (0 < ka * ln 10) by now apply Rmult_lt_0_compat.
  assert (LN : ln (1 / 2) < 0) by (rewrite <- ln_1; apply ln_increasing; lra).
  assert (Q : 0 < / (ka * ln 10)) by now apply Rinv_0_lt_compat.
  match goal with |- (_ - ?e) / _ < 0 => set (x := e) end.
  assert (It : / t0 = 100 / 167315) by (unfold t0; field).
  assert (X : 0 < x) by (unfold x; unfold Rdiv at 1 2 3 4; rewrite It; unfold kb, kc, ke, kf, kg, kh, t0; lra).
  unfold Rdiv. replace 0 with (0 * / (ka * ln 10)) by ring. apply Rmult_lt_compat_r; [auto|]. lra.
Qed.
