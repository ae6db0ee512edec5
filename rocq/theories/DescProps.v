(** C92: a minimisation step at given temperature and pressure goes downhill, and rests only at equilibrium. *)
From Coq Require Import Reals List Lia Lra Bool Arith FunctionalExtensionality.
From Coquelicot Require Import Coquelicot.
From Verif Require Import MassModel MassSpec MassProofs RealTac QuadModel StepModel StepProofs StepSums StepProps HessModel HessFill HessGen HessSpec HessPhase HessBlock HessProofs HessProps DescSpec DescProofs.
From Verif Require LaSpec LaProps FullRank.
Import List ListNotations.
Open Scope R_scope.

(** each oxide row is the row of an oxide of the system *)
Lemma fill_row tab iF2 iF3 s vs C0 d0 : fo2On s = false -> forall n r, let f := loop n (fillOxide tab false iF2 iF3 vs s) (mkFill O C0 d0 None) in
  (r < fk f)%nat -> exists o, (o < n)%nat /\ bulk s o <> 0 /\ forall j, fC f r j = oxideRow tab vs o j.
Proof.
  intros F. induction n; intros r; cbv zeta in *; [cbn; lia|]. cbn [loop]. set (f := loop n _ _) in *. unfold fillOxide at 1 2. unfold isZero.
  destruct (Req_EM_T (bulk s n) 0) as [Zb|Zb].
  - intros Hr. destruct (IHn r Hr) as (o & H1 & H2 & H3). exists o. split; [lia|auto].
  - rewrite F. cbv zeta. cbn [fk fC]. intros Hr. destruct (Nat.eq_dec r (fk f)) as [->|Ne].
    + exists n. split; [lia|]. split; auto. intros j. unfold upd. now rewrite Nat.eqb_refl.
    + destruct (IHn r ltac:(lia)) as (o & H1 & H2 & H3). exists o. split; [lia|]. split; auto. intros j. unfold upd. replace (r =? fk f)%nat with false by (symmetry; now apply Nat.eqb_neq). apply H3.
Qed.

Section C92.
Variable tab : Tab.
Variables t p : R.
Variable liqX : Mixing.
Variable liqStd : nat -> Std.
Variable solX : nat -> Mixing.
Variable solStd : nat -> Std.
Variable DL : (nat -> R) -> Prop.
Variable DS : nat -> (nat -> R) -> Prop.
Hypothesis Lay : layout tab.
Hypothesis Ht : 0 < t.
Hypothesis OKL : solutionOK liqX (nlc tab) DL.
Hypothesis OKS : forall i, (i < npc tab)%nat -> isPhase tab i = true -> na tab i <> 1%nat -> solutionOK (solX i) (na tab i) (DS i).
Hypothesis DirL : directional liqX (nlc tab) DL t p.
Hypothesis DirS : forall i, (i < npc tab)%nat -> isPhase tab i = true -> na tab i <> 1%nat -> directional (solX i) (na tab i) (DS i) t p.
Hypothesis StdL : forall j, (j < nlc tab)%nat -> stdOK (liqStd j).
Hypothesis StdS : forall i, (i < npc tab)%nat -> stdOK (solStd i).
Variable s : St.
Hypothesis Cnt : counts tab s.
Hypothesis InL : hasLiquid s = true -> forall nl, (nl < nLiq s)%nat -> DL (liqC s nl).
Hypothesis InS : forall i n, (n < nSol s i)%nat -> na tab i <> 1%nat -> DS i (fun j => solC s (i + 1 + j)%nat n) /\ solC s i n = sum (na tab i) (fun j => solC s (i + 1 + j)%nat n).
Hypothesis Free : fo2On s = false.
Hypothesis Dry : dry tab s.
Hypothesis Bal : balanced tab s.
Hypothesis Fits : fits tab s.
(** one column for each amount *)
Notation vs := (conVars tab (hasLiquid s) s).
Notation rows := (nRows tab false s).
Notation cols := (nCols tab false (hasLiquid s) s).
Hypothesis Len : length vs = cols.
Variables iF2 iF3 : nat.
Variables (C0 : nat -> nat -> R) (d0 : nat -> R) (extra : nat -> nat -> R) (dblmin tol : R) (h0 y0 rn hh g : nat -> R) (pp : nat -> nat).
Variables (dl0 ds0 : nat -> nat -> R) (lamLast : R) (redoxes : list ((nat -> R) -> nat -> R)).
Hypothesis Hdbl : 0 < dblmin.
Hypothesis Htol : 0 <= tol.
Notation G := (gibbs tab liqX liqStd solX solStd (hasLiquid s) t p).
Notation M := (gradHess tab Plain t p liqX liqStd solX solStd (hasLiquid s) cols s).
Notation E := (mE M).
Notation B := (fun (r _ : nat) => mB M r).
Notation C := (constraintMatrix tab false iF2 iF3 vs s C0 d0 extra).
Notation rhsv := (constraintRhs tab false iF2 iF3 vs s C0 d0).
Hypothesis Reg : regular tab false iF2 iF3 s C0 d0 extra.
Notation theStep := (quadStep rows cols C rhsv E B dblmin tol h0 y0 rn hh g pp).
(** the projected Hessian is found to have full rank *)
Hypothesis Rank : (rows < cols)%nat -> snd theStep = (cols - rows)%nat.
Notation b := (fst theStep).
Notation D := (readBack tab false b s dl0 ds0).
(** the state after a step of length lam *)
Definition next (lam : R) : St := step tab false iF2 iF3 (hasLiquid s) C0 d0 extra E B dblmin tol h0 y0 rn hh g pp dl0 ds0 lam lamLast redoxes s.
(** what a full step changes, column by column *)
Definition stepped (c : nat) : R := amounts vs (next 1) c - amounts vs s c.
Notation at_ := (atCol tab s).
Notation grad' := (grad tab t p liqX liqStd solX solStd s cols).

Definition zd (v : Var) : R := if in_dec var_dec v vs then dval D v else 0.
Lemma zd_out v : ~ In v vs -> zd v = 0.
Proof. intros H. unfold zd. destruct (in_dec var_dec v vs); [contradiction|auto]. Qed.
Lemma zd_col r : (r < length vs)%nat -> at_ zd r = b r - amounts vs s r.
Proof.
  intros Hr. unfold atCol, amounts. destruct (nth_error vs r) as [v|] eqn:N; [|apply nth_error_None in N; lia].
  unfold zd. destruct (in_dec var_dec v vs) as [I|NI]; [|exfalso; apply NI; eapply nth_error_In; eauto].
  rewrite (delta_col tab false Lay s Cnt b dl0 ds0 r v N). unfold change, nonlin. rewrite Free. reflexivity.
Qed.
Lemma next_moved' lam : next lam = moved tab D lam (correction tab redoxes s D lamLast) s.
Proof.
  unfold next. rewrite next_moved. set (K := correction _ _ _ _ _). destruct (moved_spec tab Lay D lam K s Cnt) as (_ & _ & _ & _ & M5 & _). unfold sumBulk. rewrite M5, Free. reflexivity.
Qed.
Lemma next_val lam d j : In d (ids tab s) -> (j < num tab d)%nat -> amt (next lam) d j = amt s d j + lam * dval D (var d j).
Proof.
  intros I Hj. rewrite next_moved'. destruct (moved_spec tab Lay D lam (correction tab redoxes s D lamLast) s Cnt) as (M1 & M2 & M3 & _ & _ & M6 & _ & M8).
  apply (in_ids tab s) in I. destruct d as [nl|i|i n]; cbn [amt num var dval] in *.
  - destruct I as [I1 I2]. rewrite (M8 I1 nl j I2 Hj), Free. ring.
  - destruct I as (I1 & I2 & I3). rewrite (M6 i i O I1 I2); [ring|]. now left.
  - destruct I as (I1 & I2 & I3). rewrite (M6 i (i + 1 + j)%nat n I1 I2); [ring|]. right. split; auto. exists j. auto.
Qed.
Lemma next_shape lam : hasLiquid (next lam) = hasLiquid s /\ nLiq (next lam) = nLiq s /\ nSol (next lam) = nSol s.
Proof. rewrite next_moved'. destruct (moved_spec tab Lay D lam (correction tab redoxes s D lamLast) s Cnt) as (M1 & M2 & M3 & _). auto. Qed.
Lemma next_ids lam : ids tab (next lam) = ids tab s.
Proof. destruct (next_shape lam) as (A1 & A2 & A3). unfold ids, idsL, idsS. rewrite A1, A2. f_equal. apply flat_map_ext. intros i. unfold idsP. now rewrite A3. Qed.
Lemma next_counts lam : counts tab (next lam).
Proof. destruct (next_shape lam) as (_ & _ & A3). unfold counts. now rewrite A3. Qed.
Lemma zd_amt d j : In d (ids tab s) -> (j < num tab d)%nat -> zd (var d j) = dval D (var d j).
Proof. intros I Hj. unfold zd. destruct (in_dec var_dec (var d j) vs) as [|NI]; auto. symmetry. now apply (delta_absent tab false Lay s Cnt b dl0 ds0). Qed.
Lemma next_G lam : G (next lam) = G (along zd lam s).
Proof.
  pose proof (pot_Pot tab Plain t p liqX liqStd solX solStd DL DS OKL OKS s Cnt) as Q.
  transitivity (Pot Id (ids tab s) (phi tab Plain t p liqX liqStd solX solStd) (amt (along zd lam s)) (tauOf Plain t p)).
  - apply (Q (next lam) (amt (along zd lam s)) (tauOf Plain t p) (next_ids lam) (proj1 (next_shape lam)) (next_counts lam)).
    intros d I k Hk. rewrite (next_val lam d k I Hk), !amt_val, along_val, (zd_amt d k I Hk). reflexivity.
  - symmetry. apply (Q (along zd lam s) (amt (along zd lam s)) (tauOf Plain t p)); auto. apply same_refl.
Qed.
Lemma stepped_zd r : (r < length vs)%nat -> stepped r = at_ zd r.
Proof.
  intros Hr. unfold stepped, amounts, atCol. pose proof (columns tab Plain t p liqX liqStd solX solStd Lay s Cnt) as CE.
  destruct (nth_error vs r) as [v|] eqn:N; [|apply nth_error_None in N; lia]. rewrite <- CE, nth_map in N. destruct (nth_error (places _ _ _) r) as [[d j]|] eqn:N2; [|discriminate].
  cbn in N. injection N as <-. apply nth_error_In in N2. unfold places in N2. apply in_flat_map in N2. destruct N2 as (d' & I & N2). apply in_map_iff in N2. destruct N2 as (j' & Eq & J). injection Eq as -> ->.
  unfold pvar. cbn [fst snd]. pose proof (act_range tab Plain t p liqX liqStd solX solStd s d j J) as R. rewrite <- !amt_val, (next_val 1 d j I R), (zd_amt d j I R). ring.
Qed.

(** *** matter *)
Lemma fold_cols (c : Var -> R) (z : Var -> R) : fold_right (fun v x => c v * z v + x) 0 vs = sum (length vs) (fun r => atCol tab s c r * at_ z r).
Proof.
  rewrite <- (fold_nth (fun v => c v * z v) vs). apply sum_ext. intros r _. unfold atCol. destruct (nth_error vs r); ring.
Qed.
Lemma dot_cols (c : Var -> R) x : dotFrom c x 0 (vars tab s) = sum (length vs) (fun r => atCol tab s c r * x r).
Proof. rewrite <- (conVars_vars tab Lay s Cnt). rewrite (dotFrom_sum c x vs 0 (length vs) (le_n _)). apply sum_ext. intros r _. reflexivity. Qed.
(** the amounts themselves, read back, are no change *)
Lemma held_cols q : sum (length vs) (fun r => atCol tab s (coefQ q) r * amounts vs s r) = held tab q s.
Proof.
  rewrite <- dot_cols. rewrite (dot_vars tab false Lay s Cnt (amounts vs s) q dl0 ds0). unfold nonlin. rewrite Free. cbn [orb].
  set (D' := readBack tab false (amounts vs s) s dl0 ds0).
  assert (Z0 : forall d j, In d (ids tab s) -> (j < num tab d)%nat -> dval D' (var d j) = 0).
  { intros d j I Hj. destruct (in_dec var_dec (var d j) vs) as [In|Out]; [|now apply (delta_absent tab false Lay s Cnt (amounts vs s) dl0 ds0)].
    apply In_nth_error in In. destruct In as [r N]. unfold D'. rewrite (delta_col tab false Lay s Cnt (amounts vs s) dl0 ds0 r _ N). unfold change, nonlin. rewrite Free. cbn [orb]. unfold amounts. rewrite N. ring. }
  assert (H0 : held tab q (asState s D') = 0); [|rewrite H0; ring].
  assert (InI : forall i ns, (i < npc tab)%nat -> (ns < nSol s i)%nat -> In (if Nat.eqb (na tab i) 1 then IP i else IS i ns) (ids tab s)).
  { intros i ns Hi Hns. unfold ids. apply in_or_app. right. unfold idsS. apply in_flat_map. exists i. split; [apply in_seq; lia|]. unfold idsP. replace (Nat.ltb 0 (nSol s i)) with true by (symmetry; apply Nat.ltb_lt; lia).
    destruct (Nat.eqb (na tab i) 1); [now left|]. apply in_map. apply in_seq. lia. }
  unfold held. cbn [asState hasLiquid setSolC setLiqC].
  replace (inSolids tab q (asState s D')) with 0.
  - destruct (hasLiquid s) eqn:HL; [|ring]. unfold inLiquids, inLiquid. cbn [asState nLiq liqC setSolC setLiqC]. rewrite sum_0; [ring|]. intros nl Hnl. apply sum_0. intros j Hj.
    pose proof (Z0 (IL nl) j) as K. cbn [var dval num] in K. rewrite K; [ring| |exact Hj]. unfold ids, idsL. rewrite HL. apply in_or_app. left. apply in_map. apply in_seq. lia.
  - unfold inSolids. symmetry. apply sum_0. intros i Hi. destruct (isPhase tab i); auto. apply sum_0. intros ns Hns. cbn [asState nSol setSolC setLiqC] in Hns. pose proof (InI i ns Hi Hns) as J. unfold solidAmount. cbn [asState solC setSolC setLiqC].
    destruct (Nat.eqb_spec (na tab i) 1) as [E1|E1].
    + assert (ns = O) by (destruct Cnt as (_ & C2 & _); specialize (C2 i E1); lia). subst ns. pose proof (Z0 (IP i) O J ltac:(cbn; lia)) as K. cbn [var dval] in K. rewrite K. ring.
    + apply sum_0. intros j Hj. pose proof (Z0 (IS i ns) j J Hj) as K. cbn [var dval] in K. rewrite K. ring.
Qed.
Lemma zd_redistribution : redistribution tab s zd.
Proof.
  split; [exact zd_out|]. intros o Ho Hb. rewrite (fold_cols (fun v => coefOx tab v o)).
  assert (CQ : forall r, atCol tab s (fun v => coefOx tab v o) r = atCol tab s (coefQ (oxide tab o)) r) by (intros r; unfold atCol; destruct (nth_error vs r) as [[|]|]; reflexivity).
  rewrite (sum_ext (length vs) _ (fun r => atCol tab s (coefQ (oxide tab o)) r * b r + (- 1) * (atCol tab s (coefQ (oxide tab o)) r * amounts vs s r))).
  - rewrite sum_plus, sum_scal, held_cols, <- dot_cols, (dot_vars tab false Lay s Cnt b (oxide tab o) dl0 ds0). unfold nonlin. rewrite Free. cbn [orb].
    destruct Reg as [RC Ind]. pose proof (plain_change tab false iF2 iF3 Lay s Cnt Fits C0 d0 extra E B dblmin tol h0 y0 rn hh g pp dl0 ds0 RC Ind o Free Ho Hb) as Q.
    unfold nonlin in Q. rewrite Free in Q. cbn [orb] in Q. rewrite Q. rewrite (Bal o Ho), (amount_held tab (oxide tab o) s Dry). ring.
  - intros r Hr. rewrite CQ, (zd_col r Hr). ring.
Qed.
Lemma rows_hold z : redistribution tab s z -> forall r, (r < rows)%nat -> sum cols (fun j => C r j * at_ z j) = 0.
Proof.
  intros [_ H] r Hr. assert (Fk : fk (fillOxides tab false iF2 iF3 vs s C0 d0) = rows).
  { pose proof (fill_plain tab false iF2 iF3 s vs C0 d0 Free (nc tab)) as [K _]. unfold fillOxides. rewrite K. unfold nRows, nRowsOx. rewrite Free. cbn. lia. }
  rewrite <- Fk in Hr. destruct (fill_row tab iF2 iF3 s vs C0 d0 Free (nc tab) r Hr) as (o & H1 & H2 & H3).
  rewrite <- (H o H1 H2), (fold_cols (fun v => coefOx tab v o)), Len. apply sum_ext. intros j _. unfold constraintMatrix. apply Nat.ltb_lt in Hr. rewrite Hr. unfold fillOxides. rewrite H3. unfold oxideRow, atCol. destruct (nth_error vs j); reflexivity.
Qed.

(** *** the step solves the Newton equations on every redistribution *)
Lemma newton z : redistribution tab s z -> sum (length vs) (fun r => at_ z r * (grad' r + sum (length vs) (fun c => E r c * at_ zd c))) = 0.
Proof.
  intros Hz. destruct Reg as [RC Ind].
  pose proof (LaProps.C48_quadStep_stationary rows cols C rhsv E B dblmin tol h0 y0 rn hh g pp RC Ind Hdbl Htol Rank (at_ z)) as S. cbv zeta in S.
  specialize (S ltac:(intros i Hi; rewrite sum_LaSpec; now apply rows_hold)). unfold LaSpec.dot, LaSpec.apply in S. rewrite sum_LaSpec in S. etransitivity; [|exact S]. rewrite Len. apply sum_ext. intros r Hr.
  rewrite (sum_LaSpec cols (fun j => E r j * b j)). unfold grad. rewrite Len, Rmult_comm. f_equal.
  rewrite (sum_ext cols (fun c => E r c * at_ zd c) (fun c => E r c * b c + (- 1) * (E r c * amounts vs s c))) by (intros c Hc; rewrite zd_col by (rewrite Len; exact Hc); ring).
  rewrite sum_plus, sum_scal. ring.
Qed.
Theorem C92_newton z : redistribution tab s z -> exists slope : R,
  is_derive (fun y => G (along z y s)) 0 slope /\
  slope + sum (length vs) (fun r => sum (length vs) (fun c => at_ z r * E r c * stepped c)) = 0.
Proof.
  intros Hz. exists (sum (length vs) (fun r => grad' r * at_ z r)). split; [apply (line_slope tab t p liqX liqStd solX solStd DL DS Lay DirL DirS s Cnt InL InS z (proj1 Hz) cols Ht OKL OKS StdL StdS)|].
  rewrite <- sum_plus, <- (newton z Hz). apply sum_ext. intros r Hr. rewrite Rmult_plus_distr_l. f_equal; [ring|]. rewrite <- sum_scal. apply sum_ext. intros c Hc. rewrite (stepped_zd c Hc). ring.
Qed.
Definition curvature : R := sum (length vs) (fun r => sum (length vs) (fun c => stepped r * E r c * stepped c)).
Theorem C92_slope : is_derive (fun lam => G (next lam)) 0 (- curvature).
Proof.
  destruct (C92_newton zd zd_redistribution) as (sl & K1 & K2). apply (is_derive_ext (fun y => G (along zd y s))); [intros; symmetry; apply next_G|].
  replace (- curvature) with sl; [exact K1|]. unfold curvature. rewrite (sum_ext (length vs) _ (fun r => sum (length vs) (fun c => at_ zd r * E r c * stepped c))); [lra|].
  intros r Hr. apply sum_ext. intros c Hc. now rewrite (stepped_zd r Hr).
Qed.
(** the Gibbs energy is convex on the redistributions *)
Definition convex : Prop := forall z, redistribution tab s z -> (exists r, (r < length vs)%nat /\ at_ z r <> 0) ->
  0 < sum (length vs) (fun r => sum (length vs) (fun c => at_ z r * E r c * at_ z c)).
Lemma curvature_zd : curvature = sum (length vs) (fun r => sum (length vs) (fun c => at_ zd r * E r c * at_ zd c)).
Proof. unfold curvature. apply sum_ext. intros r Hr. apply sum_ext. intros c Hc. now rewrite (stepped_zd r Hr), (stepped_zd c Hc). Qed.
Lemma next_0 : G (next 0) = G s.
Proof. rewrite next_G. f_equal. destruct s. unfold along, setSolC, setLiqC. cbn. f_equal; extensionality u; extensionality w; ring. Qed.
Theorem C92_downhill : convex -> (exists c, (c < length vs)%nat /\ stepped c <> 0) -> exists eps, 0 < eps /\ forall lam, 0 < lam < eps -> G (next lam) < G s.
Proof.
  intros Cv (c & Hc & Nz).
  assert (P : 0 < curvature) by (rewrite curvature_zd; apply Cv; [exact zd_redistribution|]; exists c; split; auto; now rewrite <- (stepped_zd c Hc)).
  pose proof C92_slope as K. apply is_derive_Reals in K. unfold derivable_pt_lim in K. destruct (K (curvature / 2) ltac:(lra)) as [eps He]. exists eps. split; [apply cond_pos|].
  intros lam [L1 L2]. specialize (He lam ltac:(lra) ltac:(rewrite Rabs_right; lra)). rewrite Rplus_0_l, next_0 in He. apply Rabs_def2 in He. destruct He as [He _].
  assert (Q : (G (next lam) - G s) / lam < 0) by lra. apply (Rmult_lt_compat_r lam) in Q; auto. unfold Rdiv in Q. rewrite Rmult_assoc, Rinv_l, Rmult_0_l, Rmult_1_r in Q by lra. lra.
Qed.
(** a state that a full step leaves as it is, is at equilibrium *)
Theorem C92_equilibrium : (forall c, (c < length vs)%nat -> stepped c = 0) -> forall z, redistribution tab s z -> is_derive (fun y => G (along z y s)) 0 0.
Proof.
  intros S0 z Hz. destruct (C92_newton z Hz) as (sl & K1 & K2). replace 0 with sl at 2; [exact K1|]. rewrite (sum_0 (length vs)) in K2; [lra|]. intros r Hr. apply sum_0. intros c Hc. rewrite (S0 c Hc). ring.
Qed.
(** and conversely *)
Theorem C92_stays : convex -> (forall z, redistribution tab s z -> is_derive (fun y => G (along z y s)) 0 0) -> forall c, (c < length vs)%nat -> stepped c = 0.
Proof.
  intros Cv Eq c Hc. destruct (Req_EM_T (stepped c) 0) as [|N]; auto. exfalso.
  assert (P : 0 < curvature) by (rewrite curvature_zd; apply Cv; [exact zd_redistribution|]; exists c; split; auto; now rewrite <- (stepped_zd c Hc)).
  pose proof (Eq zd zd_redistribution) as K. pose proof C92_slope as K2. apply (is_derive_ext _ (fun y => G (along zd y s))) in K2; [|intros; apply next_G].
  apply is_derive_unique in K, K2. lra.
Qed.
(** *** the rank that is asked for: with no tolerance, convexity is enough *)
Lemma col_redistribution (u : nat -> R) : (forall r, (r < rows)%nat -> sum cols (fun j => C r j * u j) = 0) ->
  exists z, redistribution tab s z /\ forall r, (r < length vs)%nat -> at_ z r = u r.
Proof.
  clear Rank. intros H. set (D' := readBack tab false (fun r => u r + amounts vs s r) s dl0 ds0).
  set (z := fun v => if in_dec var_dec v vs then dval D' v else 0).
  assert (A : forall r, (r < length vs)%nat -> at_ z r = u r).
  { intros r Hr. unfold atCol. destruct (nth_error vs r) as [v|] eqn:N; [|apply nth_error_None in N; lia]. unfold z.
    destruct (in_dec var_dec v vs) as [I|NI]; [|exfalso; apply NI; eapply nth_error_In; eauto].
    unfold D'. rewrite (delta_col tab false Lay s Cnt (fun r => u r + amounts vs s r) dl0 ds0 r v N). unfold change, nonlin. rewrite Free. cbn [orb]. unfold amounts. rewrite N. ring. }
  exists z. split; [|exact A]. split; [intros v Hv; unfold z; destruct (in_dec var_dec v vs); [contradiction|auto]|].
  intros o Ho Hb. rewrite (fold_cols (fun v => coefOx tab v o)). destruct (fill_plain tab false iF2 iF3 s vs C0 d0 Free (nc tab)) as [K1 K2]. destruct (K2 o Ho Hb) as (r & R1 & R2 & R3).
  assert (Hr : (r < rows)%nat) by (rewrite K1 in R1; unfold nRows, nRowsOx; rewrite Free; cbn; lia).
  rewrite <- (H r Hr), Len. apply sum_ext. intros j Hj. rewrite (A j ltac:(rewrite Len; exact Hj)). f_equal. unfold constraintMatrix. apply Nat.ltb_lt in R1. unfold fillOxides. rewrite R1, R2. unfold oxideRow, atCol. destruct (nth_error vs j); reflexivity.
Qed.
Theorem C92_rank : convex -> tol = 0 -> (rows < cols)%nat -> snd theStep = (cols - rows)%nat.
Proof.
  clear Rank. intros Cv T0 L. rewrite T0. destruct Reg as [RC Ind]. apply (FullRank.full_rank rows cols C rhsv E B dblmin h0 y0 rn hh g pp RC Ind Hdbl); auto.
  intros u Hu (j & Hj & Nz). destruct (col_redistribution u) as (z & Z1 & Z2); [intros r Hr; rewrite <- (sum_LaSpec cols (fun j => C r j * u j)); now apply Hu|].
  assert (P : 0 < sum (length vs) (fun r => sum (length vs) (fun c => at_ z r * E r c * at_ z c))) by (apply Cv; auto; exists j; rewrite Len; split; auto; rewrite Z2; auto; rewrite Len; auto).
  unfold LaSpec.dot, LaSpec.apply. rewrite (sum_LaSpec cols (fun i => u i * LaSpec.sum cols (fun j => E i j * u j))). rewrite Len in P.
  rewrite (sum_ext cols _ (fun r => sum cols (fun c => at_ z r * E r c * at_ z c))); [lra|].
  intros r Hr. rewrite (sum_LaSpec cols (fun j => E r j * u j)), <- sum_scal. apply sum_ext. intros c Hc. rewrite !Z2 by (rewrite Len; auto). ring.
Qed.
End C92.
