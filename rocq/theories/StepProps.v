(** A step of the minimiser conserves matter. *)
From Coq Require Import Reals List Lia Lra Bool Arith.
From Verif Require LaSpec LaProps.
From Verif Require Import QuadModel MassModel MassSpec MassProofs StepModel StepProofs StepSums RedoxModel RedoxProps.
Import ListNotations.
Open Scope R_scope.

Lemma sum_LaSpec n f : LaSpec.sum n f = sum n f.
Proof. induction n; cbn; congruence. Qed.

(** ** Number of columns *)
Lemma length_flat_map {A B} (f : A -> list B) l : length (flat_map f l) = fold_right Nat.add O (map (fun x => length (f x)) l).
Proof. induction l; cbn; [auto|rewrite app_length; now rewrite IHl]. Qed.
Lemma fold_add_swap (f : nat -> nat -> nat) l1 : forall l2,
  fold_right Nat.add O (map (fun x => fold_right Nat.add O (map (f x) l2)) l1) = fold_right Nat.add O (map (fun y => fold_right Nat.add O (map (fun x => f x y) l1)) l2).
Proof.
  induction l1 as [|a l1 IH]; intros l2; cbn [map fold_right].
  - induction l2; cbn; auto.
  - rewrite IH. clear IH. induction l2 as [|c l2 IH2]; cbn [map fold_right]; [auto|]. rewrite <- IH2. lia.
Qed.
Lemma length_swap {B} (f : nat -> nat -> list B) l1 l2 :
  length (flat_map (fun x => flat_map (f x) l2) l1) = length (flat_map (fun y => flat_map (fun x => f x y) l1) l2).
Proof.
  rewrite !length_flat_map. rewrite (map_ext _ (fun x => fold_right Nat.add O (map (fun y => length (f x y)) l2))) by (intros; apply length_flat_map).
  rewrite fold_add_swap. f_equal. apply map_ext. intros y. symmetry. apply length_flat_map.
Qed.
(** the components present in liquid nl *)
Definition nPresent (tab : Tab) (s : St) (nl : nat) : nat := length (filter (fun j => negb (isZero (liqC s nl j))) (seq 0 (nlc tab))).

Section S.
Variable tab : Tab.
Variable imposed : bool.
Variables iF2 iF3 : nat.
Hypothesis Lay : layout tab.

Lemma nColsSol_eq s : counts tab s -> nColsSol tab s = length (solVars tab s).
Proof.
  intros Cnt. unfold nColsSol, solVars. rewrite length_flat_map. f_equal. apply map_ext. intros i. unfold phaseVars.
  destruct (Nat.ltb_spec 0 (nSol s i)) as [P|P]; [|replace (nSol s i) with O by lia; reflexivity].
  destruct (Nat.eqb_spec (na tab i) 1) as [E|E].
  - destruct Cnt as (_ & C2 & _). specialize (C2 i E). replace (nSol s i) with 1%nat by lia. cbn. unfold cellsS. rewrite E. reflexivity.
  - rewrite length_swap. f_equal. apply flat_map_ext. intros ns. unfold cellsS. apply Nat.eqb_neq in E. now rewrite E.
Qed.
Lemma length_cellsL s nl : length (cellsL tab s nl) = nPresent tab s nl.
Proof.
  unfold cellsL, nPresent. generalize (seq 0 (nlc tab)). intros l. induction l as [|j l IH]; [reflexivity|]. cbn [flat_map filter]. rewrite app_length, IH.
  unfold onlyPresent, present, isZero. destruct (Req_EM_T (liqC s nl j) 0); reflexivity.
Qed.
Lemma length_vars s : counts tab s -> (hasLiquid s = true -> forall nl, (nl < nLiq s)%nat -> (nPresent tab s nl <= nRowsOx tab s)%nat) ->
  (length (vars tab s) <= nCols tab imposed (hasLiquid s) s)%nat.
Proof.
  intros Cnt H. unfold vars, nCols. rewrite app_length, nColsSol_eq by auto.
  assert (length (liqVars tab s) <= if hasLiquid s then nRowsOx tab s * nLiq s else 0)%nat; [|lia].
  unfold liqVars. destruct (hasLiquid s); [|cbn; lia]. specialize (H eq_refl). revert H. generalize (nLiq s). induction n; intros H; [cbn; lia|].
  rewrite seq_snoc, flat_map_snoc, app_length, length_cellsL. specialize (IHn ltac:(intros; apply H; lia)). specialize (H n ltac:(lia)). lia.
Qed.

(** ** What the solution does to the oxides *)
Definition dry (s : St) : Prop := hasLiquid s = false -> forall nl j, (nl < nLiq s)%nat -> (j < nlc tab)%nat -> liqC s nl j = 0.
Lemma amount_held q s : dry s -> amount tab q s = held tab q s.
Proof.
  intros D. unfold amount, held. f_equal. destruct (hasLiquid s) eqn:E; auto.
  unfold inLiquids, inLiquid. apply sum_0. intros nl Hnl. apply sum_0. intros j Hj. rewrite D by auto. ring.
Qed.

Section Fix.
Variable s : St.
Hypothesis Cnt : counts tab s.
Hypothesis Fits : hasLiquid s = true -> forall nl, (nl < nLiq s)%nat -> (nPresent tab s nl <= nRowsOx tab s)%nat.
Variables (C0 : nat -> nat -> R) (d0 : nat -> R) (extra E B : nat -> nat -> R) (dblmin tol : R) (h0 y0 rn hh g : nat -> R) (p : nat -> nat).
Variables (dl0 ds0 : nat -> nat -> R).
Let vs := conVars tab (hasLiquid s) s.
Let C := constraintMatrix tab imposed iF2 iF3 vs s C0 d0 extra.
Let d := constraintRhs tab imposed iF2 iF3 vs s C0 d0.
Let rows := nRows tab imposed s.
Let cols := nCols tab imposed (hasLiquid s) s.
Hypothesis RC : (rows <= cols)%nat.
Hypothesis Ind : LaSpec.independent rows cols C.
Let b := fst (quadStep rows cols C d E B dblmin tol h0 y0 rn hh g p).
Let dl := readBack tab imposed b s dl0 ds0.
Notation keep x := (if nonlin imposed s then 0 else x).

(** every row holds *)
Lemma row_holds r : (r < rows)%nat -> sum cols (fun j => C r j * b j) = d r.
Proof. intros Hr. rewrite <- sum_LaSpec. unfold b. now apply (LaProps.C48_quadStep_satisfies_constraints rows cols C d E B dblmin tol h0 y0 rn hh g p). Qed.
Lemma oxideRow_sum o : sum cols (fun j => oxideRow tab vs o j * b j) = held tab (oxide tab o) (asState s dl) + keep (held tab (oxide tab o) s).
Proof.
  unfold dl. rewrite <- (dot_vars tab imposed Lay s Cnt b (oxide tab o) dl0 ds0).
  rewrite (dotFrom_sum _ _ _ 0 cols) by (apply length_vars; auto). unfold oxideRow, vs. rewrite (conVars_vars tab Lay s Cnt).
  apply sum_ext. intros j Hj. cbn [Nat.add]. destruct (nth_error (vars tab s) j) as [[|]|]; reflexivity.
Qed.
(** an oxide that no present component contains *)
Lemma absent_change o : (forall v, In v vs -> coefOx tab v o = 0) -> held tab (oxide tab o) (asState s dl) + keep (held tab (oxide tab o) s) = 0.
Proof.
  intros H. rewrite <- oxideRow_sum. apply sum_0. intros j Hj. unfold oxideRow. destruct (nth_error vs j) eqn:N; [|ring]. apply nth_error_In in N. rewrite H by auto. ring.
Qed.

(** *** without a buffer *)
Lemma plain_change o : fo2On s = false -> (o < nc tab)%nat -> bulk s o <> 0 ->
  held tab (oxide tab o) (asState s dl) + keep (held tab (oxide tab o) s) = keep (bulk s o).
Proof.
  intros F Ho Hb. destruct (fill_plain tab imposed iF2 iF3 s vs C0 d0 F (nc tab)) as [K1 K2]. destruct (K2 o Ho Hb) as (r & R1 & R2 & R3).
  fold (fillOxides tab imposed iF2 iF3 vs s C0 d0) in *. rewrite <- oxideRow_sum.
  assert (Hr : (r < rows)%nat) by (rewrite K1 in R1; unfold rows, nRows, nRowsOx; lia).
  pose proof (row_holds r Hr) as Q. unfold C, d, constraintMatrix, constraintRhs in Q.
  apply Nat.ltb_lt in R1. rewrite R1 in Q. rewrite R3 in Q. unfold rhs in Q. rewrite <- Q. apply sum_ext. intros j Hj. now rewrite R2.
Qed.

(** *** with a buffer *)
Lemma buffered_change : fo2On s = true -> iF2 <> iF3 -> (iF2 < nc tab)%nat -> (iF3 < nc tab)%nat -> bulk s iF2 <> 0 -> bulk s iF3 <> 0 ->
  (forall o, (o < nc tab)%nat -> bulk s o <> 0 -> o <> iF2 -> o <> iF3 -> held tab (oxide tab o) (asState s dl) = 0) /\
  held tab (oxide tab iF2) (asState s dl) + 2 * held tab (oxide tab iF3) (asState s dl) = 0.
Proof.
  intros F Dif L2 L3 B2 B3. assert (NL : nonlin imposed s = true) by (unfold nonlin; rewrite F; apply orb_true_r).
  assert (BM : bulk s (Nat.min iF3 iF2) <> 0) by (destruct (Nat.min_spec iF3 iF2) as [[_ ->]|[_ ->]]; auto).
  assert (BH : bulk s (Nat.max iF3 iF2) <> 0) by (destruct (Nat.max_spec iF3 iF2) as [[_ ->]|[_ ->]]; auto).
  destruct (fill_buffered tab imposed iF2 iF3 s vs C0 d0 F Dif BM (nc tab)) as [K1 K2].
  fold (fillOxides tab imposed iF2 iF3 vs s C0 d0) in *. set (f := fillOxides tab imposed iF2 iF3 vs s C0 d0) in *.
  assert (NZ : forall x, bulk s x <> 0 -> isZero (bulk s x) = false) by (intros x Hx; unfold isZero; destruct (Req_EM_T (bulk s x) 0); [contradiction|auto]).
  rewrite (NZ _ BH) in K1, K2.
  replace (Nat.ltb (Nat.min iF3 iF2) (nc tab)) with true in K2 by (symmetry; apply Nat.ltb_lt; lia).
  replace (Nat.ltb (Nat.max iF3 iF2) (nc tab)) with true in K1, K2 by (symmetry; apply Nat.ltb_lt; lia). cbn [andb negb] in K1, K2.
  destruct K2 as (km & M1 & M2 & M3 & M4 & M5).
  assert (Fk : (fk f <= rows)%nat) by (unfold rows, nRows, nRowsOx; lia).
  assert (Row : forall r, (r < fk f)%nat -> fd f r = 0 -> sum cols (fun j => fC f r j * b j) = 0).
  { intros r Hr Hd. pose proof (row_holds r ltac:(lia)) as Q. unfold C, d, constraintMatrix, constraintRhs in Q. fold f in Q. apply Nat.ltb_lt in Hr. rewrite Hr, Hd in Q. exact Q. }
  assert (Ch : forall o, held tab (oxide tab o) (asState s dl) = sum cols (fun j => oxideRow tab vs o j * b j)) by (intros o; rewrite oxideRow_sum, NL; ring).
  split.
  - intros o Ho Hb N2 N3. destruct (M5 o Ho Hb N2 N3) as (r & R1 & R2 & R3 & R4). rewrite Ch. rewrite <- (Row r R1 R4). apply sum_ext. intros j Hj. now rewrite R3.
  - rewrite !Ch. rewrite <- (Row km M2 M3). rewrite <- sum_scal, <- sum_plus. apply sum_ext. intros j Hj. rewrite M4. unfold scaled.
    destruct (Nat.min_spec iF3 iF2) as [[L ->]|[L ->]]; destruct (Nat.max_spec iF3 iF2) as [[L' ->]|[L' ->]]; try lia.
    + rewrite Nat.eqb_refl. replace (iF2 =? iF3) with false by (symmetry; apply Nat.eqb_neq; auto). ring.
    + rewrite Nat.eqb_refl. replace (iF2 =? iF3) with false by (symmetry; apply Nat.eqb_neq; auto). ring.
Qed.
End Fix.
End S.

(** ** C79: a step at prescribed conditions, or with an imposed enthalpy, entropy or volume, conserves matter
    Whatever the Hessian, the gradient, the rank, the rows of the imposed property and the step length. *)
Section C79.
Variables (tab : Tab) (imposed : bool) (iF2 iF3 : nat) (s : St).
Variables (C0 : nat -> nat -> R) (d0 : nat -> R) (extra E B : nat -> nat -> R) (dblmin tol : R) (h0 y0 rn hh g : nat -> R) (p : nat -> nat).
Variables (dl0 ds0 : nat -> nat -> R) (lam lamLast : R) (redoxes : list ((nat -> R) -> nat -> R)).
Notation vs := (conVars tab (hasLiquid s) s).
Notation rows := (nRows tab imposed s).
Notation cols := (nCols tab imposed (hasLiquid s) s).
Notation next := (step tab imposed iF2 iF3 (hasLiquid s) C0 d0 extra E B dblmin tol h0 y0 rn hh g p dl0 ds0 lam lamLast redoxes s).

(** no more components in a liquid than there are oxides in the system: the program allots that many columns *)
Definition fits : Prop := hasLiquid s = true -> forall nl, (nl < nLiq s)%nat -> (nPresent tab s nl <= nRowsOx tab s)%nat.
(** the constraints are independent of each other *)
Definition regular : Prop := (rows <= cols)%nat /\ LaSpec.independent rows cols (constraintMatrix tab imposed iF2 iF3 vs s C0 d0 extra).
(** an oxide that the system does not have is in none of the components that are present *)
Definition absentNowhere : Prop := forall o v, (o < nc tab)%nat -> bulk s o = 0 -> In v vs -> coefOx tab v o = 0.

Lemma next_moved : next = sumBulk tab (moved tab (readBack tab imposed (fst (quadStep rows cols (constraintMatrix tab imposed iF2 iF3 vs s C0 d0 extra)
   (constraintRhs tab imposed iF2 iF3 vs s C0 d0) E B dblmin tol h0 y0 rn hh g p)) s dl0 ds0) lam
   (correction tab redoxes s (readBack tab imposed (fst (quadStep rows cols (constraintMatrix tab imposed iF2 iF3 vs s C0 d0 extra)
   (constraintRhs tab imposed iF2 iF3 vs s C0 d0) E B dblmin tol h0 y0 rn hh g p)) s dl0 ds0) lamLast) s).
Proof. reflexivity. Qed.
Lemma sumBulk_amount q s1 : amount tab q (sumBulk tab s1) = amount tab q s1.
Proof. unfold sumBulk. destruct (fo2On s1); reflexivity. Qed.
Notation theB := (fst (quadStep rows cols (constraintMatrix tab imposed iF2 iF3 vs s C0 d0 extra) (constraintRhs tab imposed iF2 iF3 vs s C0 d0) E B dblmin tol h0 y0 rn hh g p)).
Notation theD := (readBack tab imposed theB s dl0 ds0).
Notation keep x := (if nonlin imposed s then 0 else x).
Hypothesis Lay : layout tab.
Hypothesis Cnt : counts tab s.
Lemma dry_moved d corr : dry tab s -> dry tab (moved tab d lam corr s).
Proof.
  intros D HL nl j Hnl Hj. destruct (moved_spec tab Lay d lam corr s Cnt) as (M1 & M2 & _ & _ & _ & _ & M7 & _).
  rewrite M1 in HL. rewrite M2 in Hnl. rewrite (M7 HL). apply D; auto.
Qed.
Lemma next_kept : hasLiquid next = hasLiquid s /\ nLiq next = nLiq s /\ nSol next = nSol s /\ fo2On next = fo2On s.
Proof.
  rewrite next_moved. set (D := readBack _ _ _ _ _ _). set (K := correction _ _ _ _ _). clearbody D K.
  destruct (moved_spec tab Lay D lam K s Cnt) as (M1 & M2 & M3 & _ & M5 & _). set (m := moved tab D lam K s) in *. clearbody m. unfold sumBulk. destruct (fo2On m) eqn:Em; cbn [hasLiquid nLiq nSol fo2On setBulk]; repeat split; congruence.
Qed.

(** what is out of balance shrinks by the step length *)
Theorem C79_imbalance : imposed = false -> fo2On s = false -> dry tab s -> fits -> regular -> absentNowhere ->
  bulk next = bulk s /\
  forall o, (o < nc tab)%nat -> amount tab (oxide tab o) next - bulk next o = (1 - lam) * (amount tab (oxide tab o) s - bulk s o).
Proof.
  intros Imp F D Fi [RC Ind] Ab. assert (NL : nonlin imposed s = false) by (unfold nonlin; rewrite Imp, F; reflexivity).
  assert (BK : bulk next = bulk s).
  { rewrite next_moved. set (DD := readBack _ _ _ _ _ _). set (K := correction _ _ _ _ _). clearbody DD K.
    destruct (moved_spec tab Lay DD lam K s Cnt) as (_ & _ & _ & M4 & M5 & _). unfold sumBulk. rewrite M5, F. exact M4. }
  split; [exact BK|]. intros o Ho. rewrite BK, next_moved, sumBulk_amount.
  rewrite amount_held by (apply dry_moved; auto). rewrite (amount_held tab (oxide tab o) s D).
  rewrite (moved_held tab Lay) by auto. rewrite F, andb_false_r.
  assert (Ch : held tab (oxide tab o) (asState s theD) + held tab (oxide tab o) s = bulk s o).
  { destruct (Req_EM_T (bulk s o) 0) as [Z|Z].
    - pose proof (absent_change tab imposed iF2 iF3 Lay s Cnt Fi C0 d0 extra E B dblmin tol h0 y0 rn hh g p dl0 ds0 o (fun v => Ab o v Ho Z)) as Q. rewrite NL in Q. rewrite Z. exact Q.
    - pose proof (plain_change tab imposed iF2 iF3 Lay s Cnt Fi C0 d0 extra E B dblmin tol h0 y0 rn hh g p dl0 ds0 RC Ind o F Ho Z) as Q. rewrite NL in Q. exact Q. }
  apply (f_equal (fun x => x - held tab (oxide tab o) s)) in Ch. ring_simplify in Ch. rewrite Ch. ring.
Qed.
Theorem C79_conserves : imposed = false -> fo2On s = false -> dry tab s -> fits -> regular -> absentNowhere -> balanced tab s ->
  (forall o, (o < nc tab)%nat -> amount tab (oxide tab o) next = amount tab (oxide tab o) s) /\ bulk next = bulk s /\ balanced tab next.
Proof.
  intros Imp F D Fi Re Ab Ba. destruct (C79_imbalance Imp F D Fi Re Ab) as [K1 K2].
  assert (Q : forall o, (o < nc tab)%nat -> amount tab (oxide tab o) next = bulk next o) by (intros o Ho; specialize (K2 o Ho); assert (Z : amount tab (oxide tab o) s - bulk s o = 0) by (rewrite (Ba o Ho); ring); rewrite Z in K2; lra).
  split; [|split]; auto.
  - intros o Ho. rewrite (Q o Ho), K1. apply Ba. auto.
  - intros o Ho. symmetry. auto.
Qed.
(** a full step puts the system in balance whatever it was before *)
Theorem C79_full_step : imposed = false -> fo2On s = false -> dry tab s -> fits -> regular -> absentNowhere -> lam = 1 -> balanced tab next.
Proof. intros Imp F D Fi Re Ab HL o Ho. destruct (C79_imbalance Imp F D Fi Re Ab) as [K1 K2]. specialize (K2 o Ho). assert (Z : 1 - lam = 0) by lra. rewrite Z in K2. lra. Qed.
(** with an imposed enthalpy, entropy or volume what there is stays, in balance or not *)
Theorem C79_imposed : imposed = true -> fo2On s = false -> dry tab s -> fits -> regular -> absentNowhere ->
  (forall o, (o < nc tab)%nat -> amount tab (oxide tab o) next = amount tab (oxide tab o) s) /\ bulk next = bulk s.
Proof.
  intros Imp F D Fi [RC Ind] Ab. assert (NL : nonlin imposed s = true) by (unfold nonlin; rewrite Imp; reflexivity). split.
  - intros o Ho. rewrite next_moved, sumBulk_amount.
    rewrite amount_held by (apply dry_moved; auto). rewrite (amount_held tab (oxide tab o) s D).
    rewrite (moved_held tab Lay) by auto. rewrite F, andb_false_r.
    assert (Ch : held tab (oxide tab o) (asState s theD) = 0); [|rewrite Ch; ring].
    destruct (Req_EM_T (bulk s o) 0) as [Z|Z].
    + pose proof (absent_change tab imposed iF2 iF3 Lay s Cnt Fi C0 d0 extra E B dblmin tol h0 y0 rn hh g p dl0 ds0 o (fun v => Ab o v Ho Z)) as Q. rewrite NL, Rplus_0_r in Q. exact Q.
    + pose proof (plain_change tab imposed iF2 iF3 Lay s Cnt Fi C0 d0 extra E B dblmin tol h0 y0 rn hh g p dl0 ds0 RC Ind o F Ho Z) as Q. rewrite NL, Rplus_0_r in Q. exact Q.
  - rewrite next_moved. set (DD := readBack _ _ _ _ _ _). set (K := correction _ _ _ _ _). clearbody DD K.
    destruct (moved_spec tab Lay DD lam K s Cnt) as (_ & _ & _ & M4 & M5 & _). unfold sumBulk. rewrite M5, F. exact M4.
Qed.
End C79.

(** ** When the constraints are independent
    It is enough that the first liquid has every component that the oxides of the system are made into. *)
Section Regular.
Variables (tab : Tab) (iF2 iF3 : nat) (s : St) (C0 : nat -> nat -> R) (d0 : nat -> R) (extra : nat -> nat -> R).
Notation vs := (conVars tab (hasLiquid s) s).
Hypothesis F : fo2On s = false.
Definition rank (o : nat) : nat := length (filter (fun i => negb (isZero (bulk s i))) (seq 0 o)).
Lemma fill_rows u j n : let f := loop n (fillOxide tab false iF2 iF3 vs s) (mkFill O C0 d0 None) in
  fk f = rank n /\ sum (fk f) (fun r => u r * fC f r j) = sum n (fun o => if isZero (bulk s o) then 0 else u (rank o) * oxideRow tab vs o j).
Proof.
  cbv zeta. induction n; [split; reflexivity|]. cbn [loop]. set (f := loop n _ _) in *. destruct IHn as [A IH]. cbn [sum]. rewrite <- IH. clear IH.
  assert (Rk : rank (S n) = (rank n + (if isZero (bulk s n) then 0 else 1))%nat).
  { unfold rank. rewrite seq_snoc, filter_app, app_length. cbn [filter]. destruct (isZero (bulk s n)); reflexivity. }
  rewrite Rk. unfold fillOxide. destruct (isZero (bulk s n)); [split; [lia|ring]|]. rewrite F. cbv zeta. cbn [fk fC]. split; [lia|].
  rewrite Nat.add_1_r. cbn [sum]. unfold upd at 2. rewrite Nat.eqb_refl, A. f_equal. apply sum_ext. intros r Hr. unfold upd.
  now replace (r =? rank n)%nat with false by (symmetry; apply Nat.eqb_neq; lia).
Qed.
Lemma rank_onto n r : (r < rank n)%nat -> exists o, (o < n)%nat /\ bulk s o <> 0 /\ rank o = r.
Proof.
  induction n; [cbn; lia|]. intros Hr.
  assert (Rk : rank (S n) = (rank n + (if isZero (bulk s n) then 0 else 1))%nat).
  { unfold rank. rewrite seq_snoc, filter_app, app_length. cbn [filter]. destruct (isZero (bulk s n)); reflexivity. }
  rewrite Rk in Hr. destruct (Nat.lt_ge_cases r (rank n)) as [L|L].
  - destruct (IHn L) as (o & O1 & O2 & O3). exists o. auto.
  - unfold isZero in Hr. destruct (Req_EM_T (bulk s n) 0) as [Z|Z]; [lia|]. exists n. repeat split; auto. lia.
Qed.
Definition complete : Prop := forall o j, (o < nc tab)%nat -> (j < nlc tab)%nat -> bulk s o <> 0 -> liqC s 0%nat j = 0 -> oxToLiq tab o j = 0.
Theorem C79_regular : layout tab -> counts tab s -> invertible tab -> hasLiquid s = true -> (0 < nLiq s)%nat -> fits tab s -> complete ->
  regular tab false iF2 iF3 s C0 d0 extra.
Proof.
  intros Lay Cnt Inv HL NL Fi Co. split.
  - unfold nRows, nCols. rewrite F, HL. cbn [andb]. nia.
  - intros u Hu r Hr. pose proof (fill_rows u) as FR. cbv zeta in FR. fold (fillOxides tab false iF2 iF3 vs s C0 d0) in FR.
    assert (NR : nRows tab false s = rank (nc tab)) by (unfold nRows, nRowsOx, rank; rewrite F; cbn; lia).
    set (lam := fun o => if isZero (bulk s o) then 0 else u (rank o)).
    assert (Col : forall j, (j < nlc tab)%nat -> liqC s 0%nat j <> 0 -> sum (nc tab) (fun o => lam o * liqToOx tab j o) = 0).
    { intros j Hj Hp. assert (I : In (VLiq 0 j) vs).
      { unfold conVars, conLiquids. rewrite HL. apply in_or_app. left. apply in_flat_map. exists O. split; [apply in_seq; lia|]. apply in_flat_map. exists j. split; [apply in_seq; lia|].
        unfold onlyPresent, present. destruct (Req_EM_T (liqC s 0%nat j) 0); [contradiction|now left]. }
      destruct (In_nth_error _ _ I) as [l Hl].
      assert (Hc : (l < nCols tab false (hasLiquid s) s)%nat).
      { eapply Nat.lt_le_trans; [apply nth_error_Some; rewrite Hl; discriminate|]. rewrite (conVars_vars tab Lay s Cnt). apply length_vars; auto. }
      specialize (Hu l Hc). rewrite sum_LaSpec, NR in Hu. destruct (FR l (nc tab)) as [K1 K2]. fold (fillOxides tab false iF2 iF3 vs s C0 d0) in K1, K2.
      transitivity (sum (nc tab) (fun o => if isZero (bulk s o) then 0 else u (rank o) * oxideRow tab vs o l)).
      - apply sum_ext. intros o Ho. unfold lam, oxideRow. rewrite Hl. cbn [coefOx]. destruct (isZero (bulk s o)); ring.
      - rewrite <- K2, K1. rewrite <- Hu. apply sum_ext. intros i Hi. unfold constraintMatrix. rewrite K1. apply Nat.ltb_lt in Hi. now rewrite Hi. }
    rewrite NR in Hr. destruct (rank_onto _ _ Hr) as (o & O1 & O2 & <-).
    assert (E : lam o = 0).
    { transitivity (sum (nlc tab) (fun j => oxToLiq tab o j * sum (nc tab) (fun o' => lam o' * liqToOx tab j o'))).
      - rewrite (sum_ext _ _ (fun j => sum (nc tab) (fun o' => lam o' * (oxToLiq tab o j * liqToOx tab j o')))) by (intros j Hj; rewrite <- sum_scal; apply sum_ext; intros; ring).
        rewrite sum_swap. rewrite (sum_ext _ _ (fun o' => lam o' * (if Nat.eqb o' o then 1 else 0))).
        + rewrite (sum_ext _ _ (fun o' => if Nat.eqb o' o then lam o' else 0)) by (intros o' Ho'; destruct (Nat.eqb o' o); ring). rewrite (sum_one_f (nc tab) o lam). apply Nat.ltb_lt in O1. now rewrite O1.
        + intros o' Ho'. rewrite sum_scal. f_equal. rewrite <- (Inv (fun x => if Nat.eqb x o then 1 else 0) o' Ho'). apply sum_ext. intros j Hj. f_equal.
          rewrite (sum_ext _ _ (fun x => if Nat.eqb x o then oxToLiq tab x j else 0)) by (intros x Hx; destruct (Nat.eqb x o); ring). rewrite (sum_one_f (nc tab) o (fun x => oxToLiq tab x j)). apply Nat.ltb_lt in O1. now rewrite O1.
      - apply sum_0. intros j Hj. destruct (Req_EM_T (liqC s 0%nat j) 0) as [Z|Z]; [rewrite Co by auto|rewrite Col by auto]; ring. }
    unfold lam, isZero in E. destruct (Req_EM_T (bulk s o) 0); [contradiction|exact E].
Qed.
End Regular.

(** ** C80: a step on an oxygen buffer exchanges nothing but oxygen *)
(** A redistribution of iron: the other oxides stay, and so does the iron. *)
Definition movesOnlyOxygen (tab : Tab) (iF2 iF3 : nat) (redox : (nat -> R) -> nat -> R) : Prop := forall o,
  (forall i, (i < nc tab)%nat -> i <> iF2 -> i <> iF3 -> redox o i = o i) /\ redox o iF2 + 2 * redox o iF3 = o iF2 + 2 * o iF3.
(** the conversion of conLiq is one (C75) *)
Lemma toRedox_moves tab coeff iF2 iF3 capped t p lf : iF2 <> iF3 -> movesOnlyOxygen tab iF2 iF3 (toRedox tab coeff iF2 iF3 capped t p lf).
Proof. intros Dif o. split; [intros; now apply C75_other_oxides|exact (C75_iron tab coeff iF2 iF3 capped Dif t p lf o)]. Qed.

Section Corr.
Variables (tab : Tab) (iF2 iF3 : nat).
Hypothesis Inv : invertible tab.
Hypotheses (L2 : (iF2 < nc tab)%nat) (L3 : (iF3 < nc tab)%nat).
Definition oxOf (m : nat -> R) (o : nat) : R := sum (nlc tab) (fun j => liqToOx tab j o * m j).
Lemma rebuffer_ox redox m o : (o < nc tab)%nat -> oxOf (rebuffer tab redox m) o = redox (oxOf m) o.
Proof.
  intros Ho. unfold oxOf at 1. unfold rebuffer. fold (oxOf m). rewrite <- (Inv (redox (oxOf m)) o Ho). apply sum_ext. intros j Hj.
  rewrite Rmult_comm. f_equal. apply sum_ext. intros k Hk. apply Rmult_comm.
Qed.
Lemma rebuffers_ox redoxes : Forall (movesOnlyOxygen tab iF2 iF3) redoxes -> forall m, let m' := fold_left (fun m redox => rebuffer tab redox m) redoxes m in
  (forall o, (o < nc tab)%nat -> o <> iF2 -> o <> iF3 -> oxOf m' o = oxOf m o) /\ oxOf m' iF2 + 2 * oxOf m' iF3 = oxOf m iF2 + 2 * oxOf m iF3.
Proof.
  induction 1 as [|redox redoxes A _ IH]; intros m; cbv zeta; cbn [fold_left]; [auto|].
  destruct (IH (rebuffer tab redox m)) as [I1 I2]. destruct (A (oxOf m)) as [A1 A2]. split.
  - intros o Ho N2 N3. rewrite I1, rebuffer_ox, A1; auto.
  - rewrite I2, !rebuffer_ox by auto. exact A2.
Qed.
Lemma correction_ox redoxes s d lam nl : Forall (movesOnlyOxygen tab iF2 iF3) redoxes ->
  (forall o, (o < nc tab)%nat -> o <> iF2 -> o <> iF3 -> sum (nlc tab) (fun j => liqToOx tab j o * correction tab redoxes s d lam nl j) = 0) /\
  sum (nlc tab) (fun j => liqToOx tab j iF2 * correction tab redoxes s d lam nl j) + 2 * sum (nlc tab) (fun j => liqToOx tab j iF3 * correction tab redoxes s d lam nl j) = 0.
Proof.
  intros A. destruct (rebuffers_ox redoxes A (trialLiq s d lam nl)) as [R1 R2].
  assert (K : forall o, sum (nlc tab) (fun j => liqToOx tab j o * correction tab redoxes s d lam nl j) =
     oxOf (fold_left (fun m redox => rebuffer tab redox m) redoxes (trialLiq s d lam nl)) o - oxOf (trialLiq s d lam nl) o).
  { intros o. unfold correction, oxOf. unfold Rminus. rewrite <- (Rmult_1_l (sum _ (fun j => _ * trialLiq _ _ _ _ _))), <- Ropp_mult_distr_l_reverse, <- sum_scal, <- sum_plus.
    apply sum_ext. intros. ring. }
  split; [intros o Ho N2 N3|]; rewrite !K; [rewrite R1 by auto; ring|lra].
Qed.
End Corr.

Section C80.
Variables (tab : Tab) (imposed : bool) (iF2 iF3 : nat) (s : St).
Variables (C0 : nat -> nat -> R) (d0 : nat -> R) (extra E B : nat -> nat -> R) (dblmin tol : R) (h0 y0 rn hh g : nat -> R) (p : nat -> nat).
Variables (dl0 ds0 : nat -> nat -> R) (lam lamLast : R) (redoxes : list ((nat -> R) -> nat -> R)).
Notation vs := (conVars tab (hasLiquid s) s).
Notation rows := (nRows tab imposed s).
Notation cols := (nCols tab imposed (hasLiquid s) s).
Notation next := (step tab imposed iF2 iF3 (hasLiquid s) C0 d0 extra E B dblmin tol h0 y0 rn hh g p dl0 ds0 lam lamLast redoxes s).
Notation theB := (fst (quadStep rows cols (constraintMatrix tab imposed iF2 iF3 vs s C0 d0 extra) (constraintRhs tab imposed iF2 iF3 vs s C0 d0) E B dblmin tol h0 y0 rn hh g p)).
Notation theD := (readBack tab imposed theB s dl0 ds0).
Hypothesis Lay : layout tab.
Hypothesis Cnt : counts tab s.
Hypothesis F : fo2On s = true.

(** the recorded composition is what the phases hold *)
Theorem C80_balanced : balanced tab next.
Proof.
  assert (K : forall s1, fo2On s1 = true -> counts tab s1 -> balanced tab (sumBulk tab s1)).
  { intros s1 F1 Cn o Ho. rewrite sumBulk_amount. unfold sumBulk. rewrite F1. cbn [bulk setBulk]. apply Nat.ltb_lt in Ho. rewrite Ho. rewrite Rplus_comm. unfold amount. f_equal.
    - unfold inSolids. apply sum_ext. intros i Hi. destruct Cn as (C1 & _). destruct (isPhase tab i) eqn:Pi; [|rewrite C1 by auto; reflexivity].
      apply sum_ext. intros ns Hns. unfold solidAmount. cbn [oxide perSol]. destruct (Nat.eqb (na tab i) 1); [ring|]. apply sum_ext. intros. ring.
    - unfold inLiquids, inLiquid. apply sum_ext. intros nl Hnl. apply sum_ext. intros. cbn [oxide perLiq]. ring. }
  rewrite next_moved. set (D := readBack _ _ _ _ _ _). set (KK := correction _ _ _ _ _). clearbody D KK.
  destruct (moved_spec tab Lay D lam KK s Cnt) as (M1 & M2 & M3 & _ & M5 & _). apply K; [congruence|]. unfold counts in *. now rewrite M3.
Qed.

Hypothesis HL : hasLiquid s = true.
Hypothesis Inv : invertible tab.
Hypotheses (L2 : (iF2 < nc tab)%nat) (L3 : (iF3 < nc tab)%nat) (Dif : iF2 <> iF3).
Hypotheses (B2 : bulk s iF2 <> 0) (B3 : bulk s iF3 <> 0).
Hypothesis Fi : fits tab s.
Hypothesis Re : regular tab imposed iF2 iF3 s C0 d0 extra.
Hypothesis Ab : absentNowhere tab s.
Hypothesis Only : Forall (movesOnlyOxygen tab iF2 iF3) redoxes.

Theorem C80_conserves :
  (forall o, (o < nc tab)%nat -> o <> iF2 -> o <> iF3 -> amount tab (oxide tab o) next = amount tab (oxide tab o) s) /\
  amount tab (oxide tab iF2) next + 2 * amount tab (oxide tab iF3) next = amount tab (oxide tab iF2) s + 2 * amount tab (oxide tab iF3) s.
Proof.
  destruct Re as [RC Ind]. assert (NL : nonlin imposed s = true) by (unfold nonlin; rewrite F; apply orb_true_r).
  assert (D : dry tab s) by (intros Hf; congruence).
  destruct (buffered_change tab imposed iF2 iF3 Lay s Cnt Fi C0 d0 extra E B dblmin tol h0 y0 rn hh g p dl0 ds0 RC Ind F Dif L2 L3 B2 B3) as [Q1 Q2].
  assert (Q0 : forall o, (o < nc tab)%nat -> bulk s o = 0 -> held tab (oxide tab o) (asState s theD) = 0).
  { intros o Ho Z. pose proof (absent_change tab imposed iF2 iF3 Lay s Cnt Fi C0 d0 extra E B dblmin tol h0 y0 rn hh g p dl0 ds0 o (fun v => Ab o v Ho Z)) as Q. rewrite NL, Rplus_0_r in Q. exact Q. }
  assert (M : forall o, amount tab (oxide tab o) next = amount tab (oxide tab o) s + lam * held tab (oxide tab o) (asState s theD)
     + sum (nLiq s) (fun nl => sum (nlc tab) (fun j => liqToOx tab j o * correction tab redoxes s theD lamLast nl j))).
  { intros o. rewrite next_moved, sumBulk_amount. rewrite amount_held by (apply dry_moved; auto). rewrite (amount_held tab (oxide tab o) s D).
    rewrite (moved_held tab Lay) by auto. rewrite F, HL. reflexivity. }
  set (DD := readBack _ _ _ _ _ _) in *. clearbody DD. split.
  - intros o Ho N2 N3. rewrite M. rewrite (sum_0 (nLiq s)) by (intros nl _; now apply (correction_ox tab iF2 iF3 Inv L2 L3 redoxes s DD lamLast nl Only)).
    destruct (Req_EM_T (bulk s o) 0) as [Z|Z]; [rewrite Q0 by auto|rewrite Q1 by auto]; ring.
  - rewrite !M.
    assert (Z : sum (nLiq s) (fun nl => sum (nlc tab) (fun j => liqToOx tab j iF2 * correction tab redoxes s DD lamLast nl j))
       + 2 * sum (nLiq s) (fun nl => sum (nlc tab) (fun j => liqToOx tab j iF3 * correction tab redoxes s DD lamLast nl j)) = 0).
    { rewrite <- sum_scal, <- sum_plus. apply sum_0. intros nl _. now apply (correction_ox tab iF2 iF3 Inv L2 L3 redoxes s DD lamLast nl Only). }
    revert Z Q2. generalize (sum (nLiq s) (fun nl => sum (nlc tab) (fun j => liqToOx tab j iF2 * correction tab redoxes s DD lamLast nl j))).
    generalize (sum (nLiq s) (fun nl => sum (nlc tab) (fun j => liqToOx tab j iF3 * correction tab redoxes s DD lamLast nl j))). intros a c.
    generalize (held tab (oxide tab iF2) (asState s DD)) (held tab (oxide tab iF3) (asState s DD)). intros h k Z Q2.
    assert (EQ : h = - (2 * k)) by lra. assert (EC : c = - (2 * a)) by lra. rewrite EQ, EC. ring.
Qed.
(** the recorded composition too *)
Theorem C80_bulk : balanced tab s ->
  (forall o, (o < nc tab)%nat -> o <> iF2 -> o <> iF3 -> bulk next o = bulk s o) /\ bulk next iF2 + 2 * bulk next iF3 = bulk s iF2 + 2 * bulk s iF3.
Proof.
  intros Ba. destruct C80_conserves as [K1 K2]. pose proof C80_balanced as Bn. split.
  - intros o Ho N2 N3. rewrite (Bn o Ho), (Ba o Ho). auto.
  - rewrite (Bn iF2 L2), (Bn iF3 L3), (Ba iF2 L2), (Ba iF3 L3). exact K2.
Qed.
End C80.

(** ** C81: the matrix written fits the matrix allotted *)
Section C81.
Variables (tab : Tab) (imposed : bool) (iF2 iF3 : nat) (s : St) (C0 : nat -> nat -> R) (d0 : nat -> R).
Notation vs := (conVars tab (hasLiquid s) s).
(** rows, with a buffer: both kinds of iron must be in the system *)
Theorem C81_rows : iF2 <> iF3 -> (iF2 < nc tab)%nat -> (iF3 < nc tab)%nat -> (0 < nLiq s)%nat -> (hasLiquid s = false -> nLiq s = 1%nat) ->
  (fo2On s = true -> bulk s iF2 <> 0 /\ bulk s iF3 <> 0) ->
  rowsWritten tab imposed iF2 iF3 (hasLiquid s) vs s C0 d0 = nRows tab imposed s.
Proof.
  intros Dif L2 L3 NL One HB. unfold rowsWritten, nRows. destruct (fo2On s) eqn:F.
  - destruct (HB eq_refl) as [B2 B3].
    assert (BM : bulk s (Nat.min iF3 iF2) <> 0) by (destruct (Nat.min_spec iF3 iF2) as [[_ ->]|[_ ->]]; auto).
    assert (BH : bulk s (Nat.max iF3 iF2) <> 0) by (destruct (Nat.max_spec iF3 iF2) as [[_ ->]|[_ ->]]; auto).
    destruct (fill_buffered tab imposed iF2 iF3 s vs C0 d0 F Dif BM (nc tab)) as [K1 _]. fold (fillOxides tab imposed iF2 iF3 vs s C0 d0) in K1.
    assert (Z : isZero (bulk s (Nat.max iF3 iF2)) = false) by (unfold isZero; destruct (Req_EM_T (bulk s (Nat.max iF3 iF2)) 0); [contradiction|auto]). rewrite Z in K1.
    replace (Nat.ltb (Nat.max iF3 iF2) (nc tab)) with true in K1 by (symmetry; apply Nat.ltb_lt; lia). cbn [andb negb] in K1. fold (nRowsOx tab s) in K1. cbn [andb].
    set (f := fillOxides tab imposed iF2 iF3 vs s C0 d0) in *. clearbody f.
    destruct (hasLiquid s); [destruct (Nat.ltb_spec 1 (nLiq s)); lia|rewrite One in * by auto; cbn; lia].
  - destruct (fill_plain tab imposed iF2 iF3 s vs C0 d0 F (nc tab)) as [K1 _]. fold (fillOxides tab imposed iF2 iF3 vs s C0 d0) in K1. rewrite K1. unfold nRowsOx. cbn [andb]. lia.
Qed.
(** an iron-free system with a buffer *)
Lemma fill_no_iron : bulk s iF2 = 0 -> bulk s iF3 = 0 -> fo2On s = true -> forall n, fk (loop n (fillOxide tab imposed iF2 iF3 vs s) (mkFill O C0 d0 None)) = rank s n.
Proof.
  intros B2 B3 F. induction n; [reflexivity|]. cbn [loop]. set (f := loop n _ _) in *. clearbody f.
  assert (Rk : rank s (S n) = (rank s n + (if isZero (bulk s n) then 0 else 1))%nat).
  { unfold rank. rewrite seq_snoc, filter_app, app_length. cbn [filter]. destruct (isZero (bulk s n)); reflexivity. }
  rewrite Rk, <- IHn. unfold fillOxide. destruct (isZero (bulk s n)) eqn:Z; [lia|].
  assert (NB : bulk s n <> 0) by (unfold isZero in Z; destruct (Req_EM_T (bulk s n) 0); [discriminate|auto]).
  rewrite F. cbv zeta. replace (Nat.eqb n (Nat.min iF3 iF2)) with false; [replace (Nat.eqb n (Nat.max iF3 iF2)) with false; [reflexivity|]|]; symmetry; apply Nat.eqb_neq.
  - destruct (Nat.max_spec iF3 iF2) as [[_ ->]|[_ ->]]; intros ->; auto.
  - destruct (Nat.min_spec iF3 iF2) as [[_ ->]|[_ ->]]; intros ->; auto.
Qed.
Theorem C81_refuted : fo2On s = true -> bulk s iF2 = 0 -> bulk s iF3 = 0 -> hasLiquid s = true -> (0 < nLiq s)%nat ->
  rowsWritten tab imposed iF2 iF3 (hasLiquid s) vs s C0 d0 = S (nRows tab imposed s).
Proof.
  intros F B2 B3 HL NL. unfold rowsWritten, nRows. unfold fillOxides. rewrite fill_no_iron by auto. unfold rank. fold (nRowsOx tab s). rewrite F, HL. cbn [andb].
  destruct (Nat.ltb_spec 1 (nLiq s)); lia.
Qed.
(** columns: every liquid component has an oxide of its own, [key], that the system must contain *)
Theorem C81_columns (key : nat -> nat) : layout tab -> counts tab s ->
  (forall j, (j < nlc tab)%nat -> (key j < nc tab)%nat) -> (forall i j, (i < nlc tab)%nat -> (j < nlc tab)%nat -> key i = key j -> i = j) ->
  (forall nl j, (nl < nLiq s)%nat -> (j < nlc tab)%nat -> liqC s nl j <> 0 -> bulk s (key j) <> 0) ->
  fits tab s /\ (length vs <= nCols tab imposed (hasLiquid s) s)%nat.
Proof.
  intros Lay Cnt Le Inj Key. assert (Fi : fits tab s).
  { intros _ nl Hnl. unfold nPresent, nRowsOx. set (l := filter _ (seq 0 (nlc tab))).
    assert (IL : forall j, In j l -> (j < nlc tab)%nat /\ liqC s nl j <> 0).
    { intros j Hj. unfold l in Hj. apply filter_In in Hj. destruct Hj as [J1 J2]. apply in_seq in J1. split; [lia|]. unfold isZero in J2. now destruct (Req_EM_T (liqC s nl j) 0). }
    rewrite <- (map_length key l). apply NoDup_incl_length.
    - assert (ND : NoDup l) by (apply NoDup_filter, seq_NoDup). clearbody l. induction ND as [|a l Ha ND IH]; cbn [map]; constructor.
      + intros I. apply in_map_iff in I. destruct I as (x & X1 & X2). apply Ha. replace a with x; auto. apply Inj; auto; apply IL; [now right|now left].
      + apply IH. intros; apply IL; now right.
    - intros o Ho. apply in_map_iff in Ho. destruct Ho as (j & <- & Hj). destruct (IL j Hj) as [J1 J2]. apply filter_In. split; [apply in_seq; specialize (Le j J1); lia|].
      specialize (Key nl j Hnl J1 J2). unfold isZero. destruct (Req_EM_T (bulk s (key j)) 0); [contradiction|reflexivity]. }
  split; [exact Fi|]. rewrite (conVars_vars tab Lay s Cnt). now apply length_vars.
Qed.
End C81.

(** ** C82: what a step does to the phases themselves *)
Section C82.
Variables (tab : Tab) (imposed : bool) (iF2 iF3 : nat) (s : St).
Variables (C0 : nat -> nat -> R) (d0 : nat -> R) (extra E B : nat -> nat -> R) (dblmin tol : R) (h0 y0 rn hh g : nat -> R) (p : nat -> nat).
Variables (dl0 ds0 : nat -> nat -> R) (lam lamLast : R) (redoxes : list ((nat -> R) -> nat -> R)).
Notation next := (step tab imposed iF2 iF3 (hasLiquid s) C0 d0 extra E B dblmin tol h0 y0 rn hh g p dl0 ds0 lam lamLast redoxes s).
Hypothesis Lay : layout tab.
Hypothesis Cnt : counts tab s.
Notation parts s i ns := (sum (na tab i) (fun k => solC s (i + 1 + k)%nat ns)).
Lemma sumBulk_fields s1 : solC (sumBulk tab s1) = solC s1 /\ liqC (sumBulk tab s1) = liqC s1.
Proof. unfold sumBulk. destruct (fo2On s1); split; reflexivity. Qed.

(** no phase comes or goes *)
Theorem C82_phases : hasLiquid next = hasLiquid s /\ nLiq next = nLiq s /\ nSol next = nSol s /\ fo2On next = fo2On s.
Proof. exact (next_kept tab imposed iF2 iF3 s C0 d0 extra E B dblmin tol h0 y0 rn hh g p dl0 ds0 lam lamLast redoxes Lay Cnt). Qed.
(** the total of a solution keeps up with its components *)
Theorem C82_totals i ns : (i < npc tab)%nat -> (ns < nSol s i)%nat -> na tab i <> 1%nat ->
  solC next i ns - parts next i ns = (1 - lam) * (solC s i ns - parts s i ns).
Proof.
  intros Hi Hns Na. rewrite next_moved. set (b := fst (quadStep _ _ _ _ _ _ _ _ _ _ _ _ _ _)). clearbody b.
  pose proof (readBack_ok tab imposed Lay s Cnt b dl0 ds0) as K. cbv zeta in K. destruct K as (_ & _ & KS). set (D := readBack _ _ _ _ _ _) in *. clearbody D.
  set (KK := correction _ _ _ _ _). clearbody KK.
  destruct (moved_spec tab Lay D lam KK s Cnt) as (_ & _ & _ & _ & _ & M6 & _).
  destruct (sumBulk_fields (moved tab D lam KK s)) as [-> _].
  specialize (KS i ns Hi Hns). unfold readOk in KS. apply Nat.eqb_neq in Na. rewrite Na in KS. apply Nat.eqb_neq in Na. destruct KS as [KC KT].
  rewrite (M6 i i ns) by (auto; now left).
  rewrite (sum_ext (na tab i) (fun k => solC (moved tab D lam KK s) (i + 1 + k)%nat ns) (fun k => (1 - lam) * solC s (i + 1 + k)%nat ns + lam * newC tab imposed s b i ns k)).
  - rewrite sum_plus, !sum_scal, KT. ring.
  - intros k Hk. rewrite (M6 i (i + 1 + k)%nat ns) by (auto; right; split; auto; now exists k). rewrite (KC k Hk). unfold newC, valC, change.
    cbn [present]. destruct (Req_EM_T (solC s (i + 1 + k)%nat ns) 0) as [Z|Z]; [rewrite Z; ring|]. destruct (nonlin imposed s); ring.
Qed.
Theorem C82_totals_kept i ns : (i < npc tab)%nat -> (ns < nSol s i)%nat -> na tab i <> 1%nat -> solC s i ns = parts s i ns -> solC next i ns = parts next i ns.
Proof. intros Hi Hns Na H. pose proof (C82_totals i ns Hi Hns Na) as K. assert (Z : solC s i ns - parts s i ns = 0) by lra. rewrite Z, Rmult_0_r in K. lra. Qed.
(** a component that is absent stays absent: in a solid always, in a liquid unless it is put back on a buffer *)
Theorem C82_absent_solid i ns k : (i < npc tab)%nat -> (ns < nSol s i)%nat -> na tab i <> 1%nat -> (k < na tab i)%nat ->
  solC s (i + 1 + k)%nat ns = 0 -> solC next (i + 1 + k)%nat ns = 0.
Proof.
  intros Hi Hns Na Hk Z. rewrite next_moved. set (b := fst (quadStep _ _ _ _ _ _ _ _ _ _ _ _ _ _)). clearbody b.
  pose proof (readBack_ok tab imposed Lay s Cnt b dl0 ds0) as K. cbv zeta in K. destruct K as (_ & _ & KS). set (D := readBack _ _ _ _ _ _) in *. clearbody D.
  set (KK := correction _ _ _ _ _). clearbody KK.
  destruct (moved_spec tab Lay D lam KK s Cnt) as (_ & _ & _ & _ & _ & M6 & _).
  destruct (sumBulk_fields (moved tab D lam KK s)) as [-> _].
  specialize (KS i ns Hi Hns). unfold readOk in KS. apply Nat.eqb_neq in Na. rewrite Na in KS. apply Nat.eqb_neq in Na. destruct KS as [KC KT].
  rewrite (M6 i (i + 1 + k)%nat ns) by (auto; right; split; auto; now exists k). rewrite (KC k Hk). unfold valC. cbn [present]. destruct (Req_EM_T (solC s (i + 1 + k)%nat ns) 0); [lra|contradiction].
Qed.
Theorem C82_absent_liquid nl j : fo2On s = false -> hasLiquid s = true -> (nl < nLiq s)%nat -> (j < nlc tab)%nat -> liqC s nl j = 0 -> liqC next nl j = 0.
Proof.
  intros F HL Hnl Hj Z. rewrite next_moved. set (b := fst (quadStep _ _ _ _ _ _ _ _ _ _ _ _ _ _)). clearbody b.
  pose proof (readBack_ok tab imposed Lay s Cnt b dl0 ds0) as K. cbv zeta in K. destruct K as (_ & KL & _). set (D := readBack _ _ _ _ _ _) in *. clearbody D.
  set (KK := correction _ _ _ _ _). clearbody KK.
  destruct (moved_spec tab Lay D lam KK s Cnt) as (_ & _ & _ & _ & _ & _ & _ & M8).
  destruct (sumBulk_fields (moved tab D lam KK s)) as [_ ->].
  rewrite (M8 HL nl j Hnl Hj), F, (KL HL nl j Hnl Hj). unfold valL. cbn [present]. destruct (Req_EM_T (liqC s nl j) 0); [lra|contradiction].
Qed.
End C82.

(** ** The hypotheses can be met
    Fe2O3, FeO and MgO, each its own liquid component; a solution of FeO and MgO and a pure phase MgO; one mole of
    everything. *)
Definition wTab : Tab :=
  mkTab 3 4 3 (fun i => Nat.eqb i 0 || Nat.eqb i 3) (fun i => if Nat.eqb i 0 then 2%nat else 1%nat)
    (fun _ _ => 0) (fun c o => if Nat.eqb c 1 then if Nat.eqb o 1 then 1 else 0 else if Nat.eqb o 2 then 1 else 0)
    (fun j o => if Nat.eqb j o then 1 else 0) (fun j o => if Nat.eqb j o then 1 else 0)
    (fun _ => 1) (fun _ => 1) (fun _ => 0) (fun _ => 0) (fun i => Nat.eqb i 0).
Definition wSt (buffer : bool) : St :=
  mkSt true 1 (fun _ _ => 1) (fun i => if Nat.eqb i 0 || Nat.eqb i 3 then 1%nat else 0%nat)
    (fun r _ => if Nat.eqb r 0 then 2 else 1) (fun o => if Nat.eqb o 0 then 1 else if Nat.eqb o 1 then 2 else if Nat.eqb o 2 then 3 else 0)
    (fun _ _ => 0) (fun _ => 0) 0 0 buffer.
Definition wExtra : nat -> nat -> R := fun _ j => if Nat.eqb j 0 then 1 else if Nat.eqb j 1 then -1 else 0.

Lemma w_lay : layout wTab.
Proof.
  intros i Hi Hp. cbn [wTab npc isPhase na] in *. destruct i as [|[|[|[|i]]]]; cbn in *; try discriminate; try lia.
  - split; [lia|]. intros _. split; [lia|]. intros [|[|[|j]]] Hj; try lia; reflexivity.
Qed.
Lemma w_cnt b : counts wTab (wSt b).
Proof.
  split; [|split]; intros i Hi; cbn [wTab wSt isPhase na npc nSol] in *.
  - now rewrite Hi.
  - destruct (Nat.eqb i 0 || Nat.eqb i 3); lia.
  - destruct i as [|[|[|[|i]]]]; cbn; lia.
Qed.
Lemma w_inv : invertible wTab.
Proof. intros m o Ho. cbn [wTab nc nlc oxToLiq liqToOx] in *. destruct o as [|[|[|o]]]; [| | |lia]; cbn; ring. Qed.
Lemma w_bal b : balanced wTab (wSt b).
Proof.
  intros o Ho. cbn [wTab nc] in Ho. unfold amount, inSolids, inLiquids, inLiquid, solidAmount.
  destruct o as [|[|[|o]]]; [| | |lia]; cbn [oxide perSol perLiq wTab wSt npc nlc isPhase na nSol nLiq liqC solC solToOx liqToOx sum Nat.eqb orb Nat.add bulk]; ring.
Qed.
Ltac unreq := repeat match goal with |- context [Req_EM_T ?a ?b] => destruct (Req_EM_T a b); [lra|] end.
Lemma w_vars b : conVars wTab true (wSt b) = [VLiq 0 0; VLiq 0 1; VLiq 0 2; VSol 1 0; VSol 2 0; VSol 3 0].
Proof.
  unfold conVars, conLiquids. cbn [wTab wSt nLiq nlc npc seq flat_map conSolids Nat.ltb Nat.leb nSol na Nat.eqb orb Nat.add app].
  unfold onlyPresent, present. cbn [wSt liqC solC Nat.eqb Nat.add]. unreq. reflexivity.
Qed.
Lemma w_rows b : nRowsOx wTab (wSt b) = 3%nat.
Proof. unfold nRowsOx. cbn [wTab nc seq filter wSt bulk Nat.eqb]. unfold isZero. unreq. reflexivity. Qed.
Lemma w_fits b : fits wTab (wSt b).
Proof.
  refine (proj1 (C81_columns wTab false (wSt b) (fun j => j) w_lay (w_cnt b) _ _ _)); [auto|auto|].
  intros nl j _ Hj _. cbn [wTab nlc wSt bulk] in *. destruct j as [|[|[|j]]]; cbn; lra || lia.
Qed.
Lemma w_absent b : absentNowhere wTab (wSt b).
Proof. intros o v Ho Hb _. cbn [wTab nc wSt bulk] in *. destruct o as [|[|[|o]]]; cbn in Hb; lra || lia. Qed.

Theorem C79_witness :
  layout wTab /\ counts wTab (wSt false) /\ balanced wTab (wSt false) /\ dry wTab (wSt false) /\ fits wTab (wSt false) /\ absentNowhere wTab (wSt false) /\
  regular wTab false 1 0 (wSt false) (fun _ _ => 0) (fun _ => 0) wExtra.
Proof.
  split; [exact w_lay|split; [exact (w_cnt false)|split; [exact (w_bal false)|split; [intros Hd; discriminate|split; [exact (w_fits false)|split; [exact (w_absent false)|]]]]]].
  apply (C79_regular wTab 1 0 (wSt false) (fun _ _ => 0) (fun _ => 0) wExtra eq_refl w_lay (w_cnt false) w_inv eq_refl ltac:(cbn; lia) (w_fits false)).
  intros o j _ _ _ Hz. cbn in Hz. lra.
Qed.
Theorem C80_witness :
  layout wTab /\ counts wTab (wSt true) /\ balanced wTab (wSt true) /\ invertible wTab /\ fits wTab (wSt true) /\ absentNowhere wTab (wSt true) /\
  bulk (wSt true) 1%nat <> 0 /\ bulk (wSt true) 0%nat <> 0 /\
  regular wTab false 1 0 (wSt true) (fun _ _ => 0) (fun _ => 0) wExtra /\
  forall t p lf, movesOnlyOxygen wTab 1 0 (toRedox wTab coeffs 1 0 true t p lf).
Proof.
  split; [exact w_lay|split; [exact (w_cnt true)|split; [exact (w_bal true)|split; [exact w_inv|split; [exact (w_fits true)|split; [exact (w_absent true)|]]]]]].
  split; [cbn; lra|split; [cbn; lra|split]].
  - assert (NR : nRows wTab false (wSt true) = 3%nat) by (unfold nRows; rewrite w_rows; reflexivity).
    assert (NC : nCols wTab false true (wSt true) = 6%nat).
    { unfold nCols. rewrite w_rows. unfold nColsSol. cbn [wTab npc seq map fold_right wSt nSol na Nat.eqb orb Nat.ltb Nat.leb flat_map Nat.add nLiq app].
      unfold onlyPresent, present. cbn [wSt solC Nat.eqb Nat.add]. unreq. reflexivity. }
    split; [change (hasLiquid (wSt true)) with true; rewrite NR, NC; lia|].
    intros u Hu. change (hasLiquid (wSt true)) with true in Hu. rewrite NR, NC, w_vars in Hu.
    assert (Q : forall r j, constraintMatrix wTab false 1 0 [VLiq 0 0; VLiq 0 1; VLiq 0 2; VSol 1 0; VSol 2 0; VSol 3 0] (wSt true) (fun _ _ => 0) (fun _ => 0) wExtra r j =
       match r with O => oxideRow wTab [VLiq 0 0; VLiq 0 1; VLiq 0 2; VSol 1 0; VSol 2 0; VSol 3 0] 0 j * 2 + oxideRow wTab [VLiq 0 0; VLiq 0 1; VLiq 0 2; VSol 1 0; VSol 2 0; VSol 3 0] 1 j
       | 1%nat => oxideRow wTab [VLiq 0 0; VLiq 0 1; VLiq 0 2; VSol 1 0; VSol 2 0; VSol 3 0] 2 j | _ => wExtra r j end).
    { intros r j. unfold constraintMatrix, fillOxides. cbn [wTab nc loop]. set (W := [VLiq 0 0; VLiq 0 1; VLiq 0 2; VSol 1 0; VSol 2 0; VSol 3 0]).
      unfold fillOxide at 3 6. cbn [wSt bulk Nat.eqb]. unfold isZero at 1 2. unreq. cbn [fo2On wSt Nat.min Nat.max Nat.eqb fk fC fd fkMin Nat.add].
      unfold fillOxide at 2 4. cbn [wSt bulk Nat.eqb]. unfold isZero at 1 2. unreq. cbn [fo2On wSt Nat.min Nat.max Nat.eqb fk fC fd fkMin Nat.add].
      unfold fillOxide. cbn [wSt bulk Nat.eqb]. unfold isZero. unreq. cbn [fo2On wSt Nat.min Nat.max Nat.eqb fk fC fd fkMin Nat.add].
      destruct r as [|[|r]]; cbn [Nat.ltb Nat.leb upd Nat.eqb]; try reflexivity. }
    pose proof (Hu 0%nat ltac:(lia)) as A0. pose proof (Hu 1%nat ltac:(lia)) as A1. pose proof (Hu 2%nat ltac:(lia)) as A2.
    cbn [LaSpec.sum] in A0, A1, A2. rewrite !Q in A0, A1, A2. cbn in A0, A1, A2. intros [|[|[|i]]] Hi; try lia; lra.
  - intros t p lf. apply toRedox_moves. lia.
Qed.
